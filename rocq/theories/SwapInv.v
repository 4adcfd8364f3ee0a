(** One iteration of the swap loop, taken apart. *)
From Verif Require Import Base Decimal SqrtPrice Clamm Log FeeGrowth Types Tick Pool Position
  Tickmap Keys State Swap Tactics Frame.
From stdpp Require Import gmap strings.
From Coq Require Import Lia.
Open Scope Z_scope.

Lemma pool_update_tick_amounts p r lim tk rem by_in d now f ft p' tk' add rem' c :
  0 <= rem ->
  pool_update_tick p r lim tk rem by_in d now f ft = Ok (p', tk', add, rem', c) ->
  (by_in = true -> add + rem' = rem) /\ 0 <= rem' /\ 0 <= add.
Proof.
  intros R. unfold pool_update_tick. intros H. destruct (_ || _).
  { inv_bind H as j E. apply Ok_inj in H. simplify_eq. split; [intros; lia|lia]. }
  inv_bind H as en E. inv_bind H as [[[[[p1 tk1] tot] rm] cr] ix] E2. apply Ok_inj in H. simplify_eq.
  destruct tk as [|t|j]; [done| |]; [|rinv E2; simplify_eq; split; [intros; lia|lia]].
  destruct (negb d || en).
  { inv_bind E2 as [t' q] E3. apply Ok_inj in E2. simplify_eq. split; [intros; lia|lia]. }
  destruct (negb (rem =? 0)); [destruct by_in; [inv_bind E2 as q E3|]|];
    apply Ok_inj in E2; simplify_eq; (split; [intros; try discriminate; lia|lia]).
Qed.

(** the tick handed to [pool_update_tick] *)
Definition limiting_tick (s : store) (k : pool_key) (li : option (Z * bool)) (tk : update_pool_tick) : Prop :=
  match li with
  | Some (i, true) => exists t, st_ticks s !! (k, i) = Some t /\ tk = TickInitialized t
  | Some (i, false) => tk = TickUninitialized i
  | None => tk = NoTick
  end.

Lemma swap_iter_inv s now k (d by_in : bool) lim tl w w' :
  swap_iter s now k d by_in lim tl w = Ok w' ->
  exists sl li r p0 tk p1 tk' add rm0 rm1 (c : bool),
    get_closer_limit s lim d (p_tick (sw_pool w)) (ft_spacing (pk_tier k)) k = Ok (sl, li) /\
    compute_swap_step (p_price (sw_pool w)) sl (p_liq (sw_pool w)) (sw_remaining w) by_in (ft_fee (pk_tier k)) = Ok r /\
    rm0 = sw_remaining w - (if by_in then sr_in r + sr_fee r else sr_out r) /\ 0 <= rm0 /\
    add_fee (sw_pool w) (sr_fee r) d (cf_protocol_fee (st_config s)) = Ok p0 /\
    ~ (sr_next r = lim /\ rm0 <> 0) /\
    limiting_tick s k li tk /\
    pool_update_tick (p_set_price p0 (sr_next r)) r sl tk rm0 by_in d now (cf_protocol_fee (st_config s)) (pk_tier k)
      = Ok (p1, tk', add, rm1, c) /\
    w' = mkSwapState p1 rm1 (sw_in w + (sr_in r + sr_fee r) + add) (sw_out w + sr_out r) (sw_fee w + sr_fee r)
           (match tk' with TickInitialized t => if c then sw_ticks w ++ [t] else sw_ticks w | _ => sw_ticks w end) /\
    (if d then tl < p_tick p1 else p_tick p1 < tl) /\
    sw_in w + (sr_in r + sr_fee r) + add <= U128MAX /\ sw_out w + sr_out r <= U128MAX.
Proof.
  unfold swap_iter. intros H.
  inv_bind H as [sl li] E1. inv_bind H as r E2. inv_bind H as pd E3. inv_bind H as rm0 E4. inv_bind H as p0 E5.
  inv_bind H as fe E6. inv_bind H as ti E7. inv_bind H as to E8.
  destruct (_ && _) eqn:PL; [done|]. inv_bind H as tk E9. inv_bind H as [[[[p1 tk'] ad] rm1] c] E10.
  inv_bind H as ti' E11. destruct (if d then _ else _) eqn:TL; [done|]. apply Ok_inj in H. subst w'.
  assert (Q : rm0 = sw_remaining w - (if by_in then pd else sr_out r) /\ 0 <= rm0).
  { destruct by_in; ckinv; lia. }
  clear E4. ckinv. exists sl, li, r, p0, tk, p1, tk', ad, rm0, rm1, c.
  split; [done|]. split; [done|]. split; [destruct by_in; lia|]. split; [lia|]. split; [done|].
  split. { intros [X Y]. cbn in PL. rewrite X, Z.eqb_refl in PL. cbn in PL. apply negb_false_iff, Z.eqb_eq in PL. lia. }
  split. { unfold limiting_tick. destruct li as [[j []]|].
    - inv_bind E9 as t Et. apply Ok_inj in E9. unfold State.get_tick in Et. destruct (_ !! _) eqn:G; [|done].
      apply Ok_inj in Et. subst. eauto.
    - by apply Ok_inj in E9.
    - by apply Ok_inj in E9. }
  split; [exact E10|]. split; [subst; reflexivity|].
  split; [destruct d; [apply Z.leb_gt in TL|apply Z.leb_gt in TL]; lia|]. lia.
Qed.
