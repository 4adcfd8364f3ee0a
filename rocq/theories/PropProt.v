(** C46: the protocol fee does not stand in the way of swaps. *)
From Verif Require Import Base Decimal SqrtPrice Clamm FeeGrowth Types Tick Pool Position Tickmap State Swap Exec Tactics
  PriceProofs ClammProofs Frame Handlers History Basic Ledger Scenario Vectors SwapInv SwapGeo SwapLoop LiqInv Geo PropConfig PropLiq PropTrade PropSwap Flow PropSolv PropFunds.
From stdpp Require Import gmap strings.
From Coq Require Import Lia.
Open Scope Z_scope.

Lemma ck_eq e hi v : 0 <= v <= hi -> ck e hi v = Ok v.
Proof. intros H. by apply ck_ok. Qed.
Lemma ckp_eq hi v : 0 <= v <= hi -> ckp hi v = Ok v.
Proof. intros H. by apply ckp_ok. Qed.

(** ** The search for the next tick looks at the bitmap only *)
Lemma next_loop_bitmap s s' k sp : st_bitmap s' = st_bitmap s ->
  forall n c b lc lb, next_loop n s' k sp c b lc lb = next_loop n s k sp c b lc lb.
Proof.
  intros B. induction n as [|n IH]; intros; cbn; [done|]. unfold bitmap_chunk. rewrite B. by rewrite IH.
Qed.
Lemma prev_loop_bitmap s s' k sp : st_bitmap s' = st_bitmap s ->
  forall n c b lc lb, prev_loop n s' k sp c b lc lb = prev_loop n s k sp c b lc lb.
Proof.
  intros B. induction n as [|n IH]; intros; cbn [prev_loop]; [done|]. unfold bitmap_chunk. rewrite B. by rewrite IH.
Qed.
Lemma get_closer_bitmap s s' lim d c sp k : st_bitmap s' = st_bitmap s ->
  get_closer_limit s' lim d c sp k = get_closer_limit s lim d c sp k.
Proof.
  intros B. unfold get_closer_limit, prev_initialized, next_initialized.
  f_equal. destruct d; (destruct (sp =? 0); [done|]); [|destruct (_ <? _); [done|]];
    (destruct (tick_to_position _ _) as [[? ?]| |]; [|done|done]); cbn [bind]; (destruct (tick_to_position _ _) as [[? ?]| |]; [|done|done]); cbn [bind];
    [by rewrite (prev_loop_bitmap s s')|by rewrite (next_loop_bitmap s s')].
Qed.

(** ** Stores that differ in what fees were booked, and in the protocol fee *)
Definition pool_sim (p p' : pool) : Prop :=
  p_liq p' = p_liq p /\ p_price p' = p_price p /\ p_tick p' = p_tick p /\ p_start p' = p_start p /\ p_last p' = p_last p.
Definition tick_sim (t t' : tick) : Prop :=
  t_index t' = t_index t /\ t_sign t' = t_sign t /\ t_change t' = t_change t /\ t_gross t' = t_gross t /\ t_price t' = t_price t /\ t_secs t' = t_secs t.
Definition same_liquid (p p' : pool) : Prop := pool_sim p p' /\ 0 <= p_liq p.
(** the counter of the token that a swap in direction [d] takes *)
Definition counter (d : bool) (p : pool) : Z := if d then p_protx p else p_proty p.

Lemma from_fee_mono L a a' g : 0 <= L -> 0 <= a' <= a -> from_fee L a = Ok g -> exists g', from_fee L a' = Ok g'.
Proof.
  intros HL HA. unfold from_fee. intros H. inv_bind H as m E1. inv_bind H as m2 E2. inv_bind H as q E3.
  apply ck_ok in E1. destruct E1 as [-> E1]. apply ck_ok in E2. destruct E2 as [-> E2].
  unfold cdiv in E3. destruct (Z.eqb_spec L 0) as [Z0|Z0]; [done|]. apply Ok_inj in E3. subst q. apply ck_ok in H. destruct H as [_ H].
  assert (F1 : 0 <= a' * FG_ONE <= a * FG_ONE) by (unfold FG_ONE; lia).
  assert (F2 : 0 <= a' * FG_ONE * LIQ_ONE <= a * FG_ONE * LIQ_ONE) by (unfold LIQ_ONE; lia).
  rewrite (ck_eq EMul U256MAX) by lia. cbn [bind]. rewrite (ck_eq EMul U256MAX) by lia. cbn [bind]. unfold cdiv.
  rewrite (proj2 (Z.eqb_neq _ _) Z0). cbn [bind]. eexists. apply ck_eq.
  split; [apply Z.div_pos; lia|]. etransitivity; [apply Z.div_le_mono; [lia|apply F2]|lia].
Qed.
Lemma cut_le f a : 0 <= f <= PCT_ONE -> 0 <= a -> 0 <= (a * f + (PCT_ONE - 1)) / PCT_ONE <= a.
Proof.
  intros F A. split; [apply Z.div_pos; unfold PCT_ONE in *; nia|].
  apply Z.lt_succ_r, Z.div_lt_upper_bound; unfold PCT_ONE in *; nia.
Qed.
Lemma add_fee_sim p p' a d f q : 0 <= f <= PCT_ONE -> same_liquid p p' -> 0 <= a <= U128MAX -> 0 <= counter d p' -> counter d p' + a <= U128MAX ->
  add_fee p a d 0 = Ok q -> exists q', add_fee p' a d f = Ok q' /\ same_liquid q q' /\ counter d p' <= counter d q' <= counter d p' + a.
Proof.
  intros F [S L0] A C0 C1 H. destruct S as (S1 & S2 & S3 & S4 & S5). pose proof (cut_le f a F (proj1 A)) as CU.
  unfold add_fee in *. unfold big_mul_up in *. inv_bind H as pr0 E0. apply ckp_ok in E0. destruct E0 as [-> _].
  inv_bind H as pf0 E1. apply ckp_ok in E1. destruct E1 as [-> _].
  assert ((a * 0 + (PCT_ONE - 1)) / PCT_ONE = 0) as Q0 by (rewrite Z.mul_0_r; reflexivity). rewrite Q0, Z.sub_0_r in H.
  set (pr := (a * f + (PCT_ONE - 1)) / PCT_ONE) in *. clearbody pr.
  rewrite (ckp_eq U128MAX pr) by lia. cbn [bind]. unfold sub_p. rewrite (ckp_eq U128MAX) by lia. cbn [bind].
  rewrite S1. destruct (Z.eqb_spec (p_liq p) 0) as [LZ|LZ].
  { rewrite orb_true_r in *. apply Ok_inj in H. subst q. exists p'. split; [done|]. split; [done|lia]. }
  rewrite orb_false_r in *. destruct (Z.eqb_spec a 0) as [AZ|AZ].
  { cbn in H. apply Ok_inj in H. subst q. assert (pr = 0) as -> by lia. subst a. cbn. exists p'. split; [done|]. split; [done|lia]. }
  cbn in H. inv_bind H as g EG. assert (AP : 0 <= a - pr <= a) by lia. destruct (from_fee_mono _ _ (a - pr) _ L0 AP EG) as [g' EG'].
  destruct ((a - pr =? 0) && (pr =? 0)) eqn:B.
  { apply andb_prop in B. destruct B as [B1 B2]. apply Z.eqb_eq in B1, B2. lia. }
  rewrite EG'. cbn [bind]. unfold counter in *. destruct d; inv_bind H as pz EZ; apply ckp_ok in EZ; destruct EZ as [-> _]; apply Ok_inj in H; subst q;
    unfold add_p; rewrite (ckp_eq U128MAX) by lia; cbn [bind]; (eexists; split; [reflexivity|]); (split; [done|]); cbn; lia.
Qed.
Lemma cross_sim t t' p p' now u q : tick_sim t t' -> same_liquid p p' -> tick_cross t p now = Ok (u, q) ->
  exists u' q', tick_cross t' p' now = Ok (u', q') /\ tick_sim u u' /\ same_liquid q q' /\ p_protx q' = p_protx p' /\ p_proty q' = p_proty p'.
Proof.
  intros (T1 & T2 & T3 & T4 & T5 & T6) ((S1 & S2 & S3 & S4 & S5) & L0) H. unfold tick_cross in *. rewrite S4. inv_bind H as pa EP.
  rewrite T1, T2, T3, S1, S3, T4, T5, T6. inv_bind H as l EL. apply Ok_inj in H. injection H as <- <-. cbn [bind].
  rewrite EP. cbn [bind]. rewrite EL. cbn [bind]. eexists _, _. split; [reflexivity|]. split; [done|]. split; [|done].
  split; [unfold pool_sim; cbn; done|]. cbn. destruct (xorb _ _); apply ck_ok in EL; lia.
Qed.

Definition tick_arg_sim (t t' : update_pool_tick) : Prop :=
  match t, t' with
  | NoTick, NoTick => True
  | TickInitialized a, TickInitialized b => tick_sim a b
  | TickUninitialized a, TickUninitialized b => a = b
  | _, _ => False
  end.
Lemma update_tick_sim p p' r sl tk tk' rem by_in d now f ft q u add rem' c :
  0 <= f <= PCT_ONE -> same_liquid p p' -> tick_arg_sim tk tk' -> 0 <= rem <= U128MAX -> 0 <= counter d p' -> counter d p' + add <= U128MAX ->
  pool_update_tick p r sl tk rem by_in d now 0 ft = Ok (q, u, add, rem', c) ->
  exists q' u', pool_update_tick p' r sl tk' rem by_in d now f ft = Ok (q', u', add, rem', c) /\
    same_liquid q q' /\ tick_arg_sim u u' /\ counter d p' <= counter d q' <= counter d p' + add.
Proof.
  intros F S T R C0 C1 H. pose proof S as ((S1 & S2 & S3 & S4 & S5) & L0). unfold pool_update_tick in *.
  assert (NT : match tk' with NoTick => true | _ => false end = match tk with NoTick => true | _ => false end) by (by destruct tk, tk').
  rewrite NT. destruct (_ || _) eqn:B.
  { inv_bind H as j E. apply Ok_inj in H. injection H as <- <- <- <- <-. rewrite E. cbn [bind]. eexists _, _. split; [reflexivity|].
    split; [split; [unfold pool_sim; cbn; done|exact L0]|]. split; [done|]. destruct d; cbn; lia. }
  inv_bind H as en E. rewrite S1, E. cbn [bind]. inv_bind H as [[[[[p1 tk1] tot] rm] cr] ix] E2. apply Ok_inj in H. injection H as <- <- <- <- <-.
  destruct tk as [|t|j]; [done| |].
  - destruct tk' as [|t'|]; [done| |done]. cbn in T. pose proof T as (T1 & _). destruct (negb d || en).
    + inv_bind E2 as [t2 q] E3. apply Ok_inj in E2. injection E2 as <- <- <- <- <- <-.
      destruct (tick_cross t p now) as [[u0 q0]| |] eqn:E4; cbn [unwrap] in E3; [|done|done]. apply Ok_inj in E3. injection E3 as -> ->.
      destruct (cross_sim _ _ _ _ _ _ _ T S E4) as (u' & q' & E5 & TS & SL & P1 & P2). rewrite E5. cbn [unwrap bind]. rewrite T1.
      eexists _, _. split; [reflexivity|]. destruct SL as [SL LQ]. split; [split; [unfold pool_sim in *; cbn; intuition congruence|exact LQ]|].
      split; [exact TS|]. unfold counter. destruct d; cbn; lia.
    + destruct (negb (rem =? 0)).
      * destruct by_in.
        -- inv_bind E2 as q E3. apply Ok_inj in E2. injection E2 as <- <- <- <- <- <-.
           destruct (add_fee_sim _ _ _ _ f _ F S R C0 C1 E3) as (q' & E4 & SL & CC). rewrite E4. cbn [bind]. rewrite T1.
           eexists _, _. split; [reflexivity|]. destruct SL as [SL LQ]. split; [split; [unfold pool_sim in *; cbn; intuition congruence|exact LQ]|].
           split; [exact T|]. unfold counter in *. destruct d; cbn; lia.
        -- apply Ok_inj in E2. injection E2 as <- <- <- <- <- <-. cbn [bind]. rewrite T1. eexists _, _. split; [reflexivity|].
           split; [split; [unfold pool_sim; cbn; done|exact L0]|]. split; [exact T|]. unfold counter. destruct d; cbn; lia.
      * apply Ok_inj in E2. injection E2 as <- <- <- <- <- <-. cbn [bind]. rewrite T1. eexists _, _. split; [reflexivity|].
        split; [split; [unfold pool_sim; cbn; done|exact L0]|]. split; [exact T|]. unfold counter. destruct d; cbn; lia.
  - destruct tk' as [| |j']; [done|done|]. cbn in T. subst j'. apply Ok_inj in E2. injection E2 as <- <- <- <- <- <-. cbn [bind].
    eexists _, _. split; [reflexivity|]. split; [split; [unfold pool_sim; cbn; done|exact L0]|]. split; [done|]. unfold counter. destruct d; cbn; lia.
Qed.

(** [s'] is [s] with protocol fee [f] instead of none, and other fees booked *)
Record store_sim (f : Z) (s s' : store) : Prop := {
  ss_fee : 0 <= f <= PCT_ONE;
  ss_fee0 : cf_protocol_fee (st_config s) = 0;
  ss_feef : cf_protocol_fee (st_config s') = f;
  ss_bitmap : st_bitmap s' = st_bitmap s;
  ss_pools : forall k p, st_pools s !! k = Some p -> exists p', st_pools s' !! k = Some p' /\ same_liquid p p' /\ 0 <= p_protx p' /\ 0 <= p_proty p';
  ss_ticks : forall k i t, st_ticks s !! (k, i) = Some t -> exists t', st_ticks s' !! (k, i) = Some t' /\ tick_sim t t'
}.
Record work_sim (C O : Z) (d : bool) (w w' : swap_state) : Prop := {
  ws_pool : same_liquid (sw_pool w) (sw_pool w');
  ws_count : 0 <= counter d (sw_pool w') <= C + sw_in w;
  ws_other : counter (negb d) (sw_pool w') = O;
  ws_rem : sw_remaining w' = sw_remaining w;
  ws_in : sw_in w' = sw_in w;
  ws_out : sw_out w' = sw_out w;
  ws_fee : sw_fee w' = sw_fee w;
  ws_ticks : Forall2 tick_sim (sw_ticks w) (sw_ticks w')
}.
Lemma counter_other_add p a d f q : add_fee p a d f = Ok q -> counter (negb d) q = counter (negb d) p.
Proof.
  intros H. apply add_fee_inv in H. destruct H as (prot & pf & _ & _ & _ & [(-> & _)|(g & _ & _ & H)]); [done|].
  unfold counter. destruct d; destruct H as [_ ->]; done.
Qed.
Lemma counter_other_tick p r sl tk rem by_in (d : bool) now f ft q u add rem' c :
  pool_update_tick p r sl tk rem by_in d now f ft = Ok (q, u, add, rem', c) -> counter (negb d) q = counter (negb d) p.
Proof.
  unfold pool_update_tick. intros H. destruct (_ || _).
  { inv_bind H as j E. apply Ok_inj in H. injection H as <- <- <- <- <-. by destruct d. }
  inv_bind H as en E. inv_bind H as [[[[[p1 tk1] tot] rm] cr] ix] E2. apply Ok_inj in H. injection H as <- <- <- <- <-.
  assert (counter (negb d) p1 = counter (negb d) p) as <-; [|by destruct d].
  destruct tk as [|t|j]; [done| |apply Ok_inj in E2; injection E2 as <- <- <- <- <- <-; done].
  destruct (negb d || en).
  - inv_bind E2 as [t2 q] E3. apply Ok_inj in E2. injection E2 as <- <- <- <- <- <-.
    destruct (tick_cross t p now) as [[u0 q0]| |] eqn:E4; cbn [unwrap] in E3; [|done|done]. apply Ok_inj in E3. injection E3 as -> ->.
    apply tick_cross_inv in E4. destruct E4 as (_ & _ & _ & _ & l & -> & _). by destruct d.
  - destruct (negb (rem =? 0)); [destruct by_in; [inv_bind E2 as q E3; apply counter_other_add in E3|]|];
      apply Ok_inj in E2; injection E2 as <- <- <- <- <- <-; done.
Qed.
Lemma step_in_nonneg cur tg L a by_in fee r : compute_swap_step cur tg L a by_in fee = Ok r -> 0 <= sr_in r /\ 0 <= sr_fee r.
Proof.
  unfold compute_swap_step. intros H. destruct (L =? 0); [apply Ok_inj in H; subst r; done|].
  inv_bind H as [[n ai] ao] E0. inv_bind H as ai2 E1. inv_bind H as ao2 E2. inv_bind H as fe E3. apply Ok_inj in H. subst r. cbn.
  assert (DX : forall pa pb l b v, get_delta_x pa pb l b = Ok v -> 0 <= v).
  { intros pa pb l b v. unfold get_delta_x, big_div_values_to_token_up, big_div_values_to_token. intros X.
    destruct b; repeat (let q := fresh in let y := fresh in inv_bind X as q y); apply ck_ok in X; lia. }
  assert (DY : forall pa pb l b v, get_delta_y pa pb l b = Ok v -> 0 <= v).
  { intros pa pb l b v. unfold get_delta_y. intros X. destruct b; [inv_bind X as q Y|]; apply ck_ok in X; lia. }
  split; [|destruct (_ && _); unfold big_mul_up, sub_p in E3; apply ckp_ok in E3; lia].
  destruct (_ || _); [destruct (_ <=? _); eauto|]. apply Ok_inj in E1. subst ai2.
  destruct by_in.
  - inv_bind E0 as c X1. inv_bind E0 as af X2. inv_bind E0 as aa X3. destruct (_ <=? af); [|inv_bind E0 as nn X4]; apply Ok_inj in E0; injection E0 as <- <- <-;
      destruct (_ <=? _); eauto.
  - inv_bind E0 as aa X3. destruct (_ <=? a); [|inv_bind E0 as nn X4]; apply Ok_inj in E0; injection E0 as <- <- <-; lia.
Qed.
Lemma iter_sim s s' f C O now k d by_in lim tl w w' v : store_sim f s s' -> work_sim C O d w w' -> 0 <= sw_remaining w <= U128MAX ->
  swap_iter s now k d by_in lim tl w = Ok v -> C + sw_in v <= U128MAX ->
  (exists v', swap_iter s' now k d by_in lim tl w' = Ok v' /\ work_sim C O d v v') /\ sw_in w <= sw_in v /\ 0 <= sw_remaining v <= U128MAX.
Proof.
  intros S [W1 W2 W3 W4 W5 W6 W7 W8] RM H BD. destruct S as [SF S0 S1 SB SP ST]. unfold swap_iter in *. destruct W1 as [(P1 & P2 & P3 & P4 & P5) L0].
  rewrite (get_closer_bitmap s s') by done. rewrite P3. inv_bind H as [sl li] E1. rewrite P2, P1, W4. inv_bind H as r E2.
  destruct (step_in_nonneg _ _ _ _ _ _ _ E2) as [NI NF]. rewrite W5, W6, W7, E1. cbn [bind]. rewrite E2. cbn [bind].
  inv_bind H as pd E3. rewrite E3. cbn [bind]. apply ckp_ok in E3. destruct E3 as [-> E3].
  inv_bind H as rm0 E4. rewrite E4. cbn [bind].
  assert (R0 : 0 <= rm0 <= U128MAX) by (destruct by_in; apply ck_ok in E4; lia).
  inv_bind H as p0 E5. rewrite S0 in E5. inv_bind H as fe E6. inv_bind H as ti E7. inv_bind H as to E8.
  destruct (_ && _) eqn:PL; [done|]. inv_bind H as tk E9. inv_bind H as [[[[p1 tk'] ad] rm1] c] E10.
  inv_bind H as ti' E11. destruct (if d then p_tick p1 <=? _ else _) eqn:TL; [done|]. apply Ok_inj in H. subst v. cbn [sw_in sw_remaining] in *.
  pose proof (pool_update_tick_amounts _ _ _ _ _ _ _ _ _ _ _ _ _ _ _ (proj1 R0) E10) as (_ & RM1 & AD0).
  assert (RM1' : rm1 <= U128MAX).
  { revert E10. clear -R0. unfold pool_update_tick. intros H. destruct (_ || _).
    { inv_bind H as j E. apply Ok_inj in H. injection H as <- <- <- <- <-. lia. }
    inv_bind H as en E. inv_bind H as [[[[[q1 tk1] tot] rm] cr] ix] E2. apply Ok_inj in H. injection H as <- <- <- <- <-.
    destruct tk as [|t|j]; [done| |apply Ok_inj in E2; injection E2 as <- <- <- <- <- <-; lia].
    destruct (negb d || en); [inv_bind E2 as [t2 q] E3|destruct (negb (rm0 =? 0)); [destruct by_in; [inv_bind E2 as q E3|]|]];
      apply Ok_inj in E2; injection E2 as <- <- <- <- <- <-; lia. }
  apply ckp_ok in E7. destruct E7 as [-> E7]. apply ckp_ok in E11. destruct E11 as [-> E11].
  assert (CF : counter d (sw_pool w') + sr_fee r <= U128MAX) by lia.
  assert (FR : 0 <= sr_fee r <= U128MAX) by lia.
  destruct (add_fee_sim (sw_pool w) (sw_pool w') (sr_fee r) d f p0 SF) as (p0' & F1 & F2 & F3);
    [split; [unfold pool_sim; done|done]|done|lia|lia|exact E5|].
  rewrite S1, F1. cbn [bind]. rewrite E6. cbn [bind]. unfold add_p. rewrite (ckp_eq U128MAX (sw_in w + (sr_in r + sr_fee r))) by lia. cbn [bind].
  unfold add_p in E8. rewrite E8. cbn [bind].
  change (p_price (p_set_price p0' (sr_next r))) with (p_price (p_set_price p0 (sr_next r))). rewrite PL.
  assert (TKS : exists tk2, (match li with Some (i, true) => let* t := get_tick s' k i in Ok (TickInitialized t) | Some (i, false) => Ok (TickUninitialized i) | None => Ok NoTick end) = Ok tk2 /\ tick_arg_sim tk tk2).
  { destruct li as [[i0 [|]]|]; [|apply Ok_inj in E9; subst tk; eexists; split; [reflexivity|done]..]. unfold get_tick in *. inv_bind E9 as t ET. apply Ok_inj in E9. subst tk.
    destruct (st_ticks s !! (k, i0)) as [t0|] eqn:Q; [|done]. apply Ok_inj in ET. subst t0. destruct (ST _ _ _ Q) as (t' & -> & TS). cbn [bind]. eauto. }
  destruct TKS as (tk2 & -> & TS). cbn [bind].
  destruct (update_tick_sim (p_set_price p0 (sr_next r)) (p_set_price p0' (sr_next r)) r sl tk tk2 rm0 by_in d now f (pk_tier k) p1 tk' ad rm1 c SF) as (q' & u' & G1 & G2 & G3 & G4);
    [destruct F2 as [F2 F2']; split; [unfold pool_sim in *; cbn; intuition congruence|exact F2']|done|done|destruct d; cbn in *; lia|destruct d; cbn in *; lia|rewrite S0 in E10; exact E10|].
  rewrite G1. cbn [bind]. unfold add_p. rewrite (ckp_eq U128MAX (sw_in w + (sr_in r + sr_fee r) + ad)) by lia. cbn [bind].
  pose proof G2 as ((_ & _ & Q3 & _) & _). rewrite Q3, TL. split; [|split; [lia|lia]].
  eexists. split; [reflexivity|]. constructor; cbn; try done.
  - unfold counter in *. destruct d; cbn in *; lia.
  - apply counter_other_tick in G1. rewrite G1. apply counter_other_add in F1. destruct d; cbn in *; lia.
  - destruct tk', u'; try done. destruct c; [|done]. apply Forall2_app; [done|]. by constructor.
Qed.
Lemma loop_sim s s' f C O now k d by_in lim tl : store_sim f s s' -> forall g w w' v, work_sim C O d w w' -> 0 <= sw_remaining w <= U128MAX ->
  swap_loop g s now k d by_in lim tl w = Ok v -> C + sw_in v <= U128MAX ->
  (exists v', swap_loop g s' now k d by_in lim tl w' = Ok v' /\ work_sim C O d v v') /\ sw_in w <= sw_in v.
Proof.
  intros S. induction g as [|g IH]; intros w w' v W RM H B; cbn [swap_loop] in *; rewrite (ws_rem _ _ _ _ _ W);
    (destruct (sw_remaining w =? 0); [apply Ok_inj in H; subst v; split; [eauto|lia]|]); [done|].
  inv_bind H as u E.
  assert (HU : sw_in u <= sw_in v).
  { revert H. clear. revert u. induction g as [|g IH]; intros u H; cbn [swap_loop] in H; (destruct (_ =? 0); [apply Ok_inj in H; subst; lia|]); [done|].
    inv_bind H as x E. specialize (IH _ H). apply swap_iter_inv in E. destruct E as (sl & li & r & p0 & tk & p1 & tk' & add & rm0 & rm1 & c & _ & ST & _ & R0 & _ & _ & _ & UT & -> & _).
    destruct (step_in_nonneg _ _ _ _ _ _ _ ST). apply pool_update_tick_amounts in UT; [|done]. cbn in IH. lia. }
  assert (BU : C + sw_in u <= U128MAX) by lia.
  destruct (iter_sim _ _ _ _ _ _ _ _ _ _ _ _ _ _ S W RM E BU) as ((u' & E' & W') & M & RM').
  destruct (IH _ _ _ W' RM' H B) as ((v' & E2 & W2) & M2). rewrite E'. cbn [bind]. split; [eauto|lia].
Qed.

Lemma calculate_sim g s s' f now k d a by_in lim r p' : store_sim f s s' -> 0 <= a <= U128MAX ->
  calculate_swap g s now k d a by_in lim = Ok r -> st_pools s' !! k = Some p' -> counter d p' + cr_in r <= U128MAX ->
  exists r', calculate_swap g s' now k d a by_in lim = Ok r' /\
    cr_in r' = cr_in r /\ cr_out r' = cr_out r /\ cr_start r' = cr_start r /\ cr_target r' = cr_target r /\ cr_fee r' = cr_fee r /\
    same_liquid (cr_pool r) (cr_pool r') /\ 0 <= counter d (cr_pool r') <= counter d p' + cr_in r /\ counter (negb d) (cr_pool r') = counter (negb d) p' /\
    Forall2 tick_sim (cr_ticks r) (cr_ticks r').
Proof.
  intros S HA H EP BD. unfold calculate_swap in *. destruct (a =? 0); [done|]. unfold get_pool in *.
  destruct (st_pools s !! k) as [p|] eqn:E0; [|done]. cbn [bind] in H. rewrite EP. cbn [bind].
  destruct (ss_pools _ _ _ S _ _ E0) as (q & EQ & SL & N1 & N2). rewrite EP in EQ. injection EQ as <-.
  pose proof SL as ((P1 & P2 & P3 & P4 & P5) & L0). rewrite P2.
  destruct (if d then _ || _ else _) eqn:LM; [done|]. inv_bind H as w E. destruct (sw_out w =? 0) eqn:Z0; [done|]. apply Ok_inj in H. subst r. cbn in BD.
  assert (W0 : work_sim (counter d p') (counter (negb d) p') d (mkSwapState p a 0 0 0 []) (mkSwapState p' a 0 0 0 [])).
  { constructor; cbn; [exact SL|destruct d; cbn; lia|done..]. }
  destruct (loop_sim s s' f (counter d p') (counter (negb d) p') now k d by_in lim _ S _ _ _ _ W0 HA E BD) as ((w' & E' & W) & _).
  rewrite E'. cbn [bind]. destruct W as [[(Q1 & Q2 & Q3 & Q4 & Q5) QL] W2 W3 W4 W5 W6 W7 W8]. rewrite W6, Z0.
  eexists. split; [reflexivity|]. cbn. repeat (split; [done|]). done.
Qed.
Lemma update_ticks_sim f k : forall l l' s s' s1, store_sim f s s' -> Forall2 tick_sim l l' -> update_ticks s k l = Ok s1 ->
  exists s1', update_ticks s' k l' = Ok s1' /\ store_sim f s1 s1' /\ st_pools s1' = st_pools s' /\ st_pools s1 = st_pools s.
Proof.
  induction l as [|t l IH]; intros l' s s' s1 S F H; inversion F as [|? t' ? r TS F']; subst; cbn in *.
  - apply Ok_inj in H. subst s1. exists s'. done.
  - unfold update_tick in *. destruct S as [SF S0 S1 SB SP ST]. pose proof TS as (T1 & _). rewrite T1.
    destruct (st_ticks s !! (k, t_index t)) as [t0|] eqn:E; [|done]. destruct (ST _ _ _ E) as (t0' & E' & _). rewrite E'. cbn [bind] in *.
    destruct (IH r (set_ticks s (<[(k, t_index t) := t]> (st_ticks s))) (set_ticks s' (<[(k, t_index t) := t']> (st_ticks s'))) s1) as (s1' & X1 & X2 & X3 & X4); [|done|exact H|].
    + constructor; cbn; try done. intros kk j u U. destruct (decide ((kk, j) = (k, t_index t))) as [Q|Q].
      * rewrite Q in *. rewrite lookup_insert in *. injection U as <-. eauto.
      * rewrite lookup_insert_ne in * by congruence. eauto.
    + exists s1'. split; [exact X1|]. split; [exact X2|]. split; [exact X3|exact X4].
Qed.
Lemma swap_sim e i s s' f k d a by_in lim s1 ms r p' : store_sim f s s' -> 0 <= a <= U128MAX ->
  swap_internal e i s k d a by_in lim = Ok (s1, ms, r) -> st_pools s' !! k = Some p' -> counter d p' + cr_in r <= U128MAX ->
  exists s1' r' q', swap_internal e i s' k d a by_in lim = Ok (s1', ms, r') /\ store_sim f s1 s1' /\
    cr_in r' = cr_in r /\ cr_out r' = cr_out r /\ cr_start r' = cr_start r /\ cr_target r' = cr_target r /\ cr_fee r' = cr_fee r /\
    st_pools s1' = <[k := q']> (st_pools s') /\ counter d q' <= counter d p' + cr_in r /\ counter (negb d) q' = counter (negb d) p'.
Proof.
  intros S HA H EP BD. unfold swap_internal in *. inv_bind H as r0 E. inv_bind H as s0 EU.
  assert (r0 = r) as ->.
  { destruct d; inv_bind H as m0 EM; apply Ok_inj in H; injection H as _ _ ->; done. }
  destruct (calculate_sim _ _ _ _ _ _ _ _ _ _ _ _ S HA E EP BD) as (r' & E' & R1 & R2 & R3 & R4 & R5 & R6 & R7 & R8 & R9).
  rewrite E'. cbn [bind]. destruct (update_ticks_sim _ _ _ _ _ _ _ S R9 EU) as (s0' & EU' & S' & PP & PQ). rewrite EU'. cbn [bind]. rewrite R1, R2.
  destruct S' as [SF S0 S1 SB SP ST].
  assert (store_sim f (save_pool s0 k (cr_pool r)) (save_pool s0' k (cr_pool r'))).
  { constructor; cbn; try done. intros kk p E0. destruct (decide (kk = k)) as [->|N].
    - rewrite lookup_insert in *. injection E0 as <-. eexists. split; [reflexivity|]. split; [done|].
      destruct (calculate_swap_out _ _ _ _ _ _ _ _ _ E) as [_ CI].
      assert (0 <= counter (negb d) p').
      { unfold calculate_swap in E. destruct (a =? 0); [done|]. unfold get_pool in E. destruct (st_pools s !! k) as [p0|] eqn:EK; [|done].
        destruct (ss_pools _ _ _ S _ _ EK) as (q & EQ & _ & N1 & N2). rewrite EP in EQ. injection EQ as <-. destruct d; done. }
      destruct d; cbn in *; lia.
    - rewrite lookup_insert_ne in * by congruence. eauto. }
  destruct d; inv_bind H as m0 EM; apply Ok_inj in H; injection H as <- <-; rewrite EM; cbn [bind];
    (eexists _, r', (cr_pool r'); split; [reflexivity|]; split; [done|]; repeat (split; [done|]); split; [cbn; by rewrite PP|]; split; [lia|done]).
Qed.

(** ** Every protocol fee up to 100% lets a swap through that passes without one, with the same amounts *)
Definition with_fee (s : store) (f : Z) : store :=
  mkStore (mkConfig (cf_admin (st_config s)) (cf_fee_tiers (st_config s)) f) (st_pools s) (st_ticks s) (st_bitmap s) (st_positions s) (st_poslen s) (st_operators s).
(** [with_fee s f] is what the admin's call makes of [s] *)
Lemma change_fee_store e i s f s' ms at' : execute e i s (ChangeProtocolFee f) = Ok (s', ms, at') -> s' = with_fee s f.
Proof.
  unfold execute. intros H. destruct (_ && _); [|done]. cbn [dispatch] in H. unfold change_protocol_fee in H. destruct (negb _); [done|]. apply Ok_inj in H. injection H as <- _ _. done.
Qed.
Lemma with_fee_sim s f : reachable s -> 0 <= f <= PCT_ONE -> store_sim f (with_fee s 0) (with_fee s f).
Proof.
  intros R F. pose proof (reachable_ereach _ R) as ER. constructor; cbn; try done.
  - intros k p E. exists p. split; [done|]. split; [split; [done|]|].
    + destruct (ereach_geo _ ER _ _ E) as [_ X]. lia.
    + destruct (ereach_prot _ ER _ _ E). lia.
  - intros k j t E. exists t. done.
Qed.
Theorem C46_swap_partial e i s k (d : bool) a by_in lim s0 ms total out f p : reachable s -> 0 <= f <= PCT_ONE ->
  execute e i (with_fee s 0) (Swap k d a by_in lim) = Ok (s0, ms, [("amount_in"%string, total); ("amount_out"%string, out)]) ->
  st_pools s !! k = Some p -> (if d then p_protx p else p_proty p) + total <= U128MAX ->
  exists s1 p0 p1, execute e i (with_fee s f) (Swap k d a by_in lim) = Ok (s1, ms, [("amount_in"%string, total); ("amount_out"%string, out)]) /\
    st_pools s0 !! k = Some p0 /\ st_pools s1 !! k = Some p1 /\ p_price p1 = p_price p0 /\ p_tick p1 = p_tick p0 /\ p_liq p1 = p_liq p0.
Proof.
  intros R F H EP BD. unfold execute in *. destruct (_ && _) eqn:TY; [|done]. apply andb_prop in TY. destruct TY as [TE TY]. cbn [dispatch msg_typed] in *.
  assert (HA : 0 <= a <= U128MAX).
  { repeat (apply andb_prop in TY; destruct TY as [TY ?]). match goal with Q : u128_ok a = true |- _ => by apply in_range_spec in Q end. }
  unfold swap in *. inv_bind H as [[s2 m2] r] E. apply Ok_inj in H. injection H as <- <- <- <-.
  destruct (swap_sim _ _ _ _ _ _ _ _ _ _ _ _ _ p (with_fee_sim s f R F) HA E EP BD) as (s1 & r' & q' & E' & S' & R1 & R2 & _ & _ & _ & PP & _).
  rewrite E'. cbn [bind]. rewrite R1, R2. apply swap_internal_inv in E. destruct E as (_ & PI & _).
  destruct PI as (u & _ & ->). exists s1, (cr_pool r), q'. split; [done|]. cbn. rewrite lookup_insert. split; [done|].
  rewrite PP, lookup_insert. split; [done|].
  destruct (ss_pools _ _ _ S' k (cr_pool r)) as (q & EQ & ((Q1 & Q2 & Q3 & _) & _) & _); [cbn; apply lookup_insert|].
  rewrite PP, lookup_insert in EQ. injection EQ as <-. done.
Qed.

(** the same for a route; [budget] is what its hops take in all *)
Fixpoint hop_total (e : env) (i : msg_info) (s : store) (a : Z) (hops : list swap_hop) : Z :=
  match hops with
  | [] => 0
  | h :: rest => match swap_internal e i s (hop_key h) (hop_x_to_y h) a true (hop_limit (hop_x_to_y h)) with
                 | Ok (s1, _, r) => cr_in r + hop_total e i s1 (cr_out r) rest | _ => 0 end
  end.
Lemma hop_total_nonneg e i hops : forall s a, 0 <= hop_total e i s a hops.
Proof.
  induction hops as [|h hops IH]; intros s a; cbn; [lia|]. destruct (swap_internal _ _ _ _ _ _ _ _) as [[[s1 m] r]| |] eqn:E; try lia.
  apply swap_internal_inv in E. destruct E as (E & _). apply calculate_swap_out in E. specialize (IH s1 (cr_out r)). lia.
Qed.
Lemma route_sim e i f : forall hops s s' a s1 ms out C, store_sim f s s' -> 0 <= a <= U128MAX ->
  (forall k p', st_pools s' !! k = Some p' -> p_protx p' <= C /\ p_proty p' <= C) -> C + hop_total e i s a hops <= U128MAX ->
  swap_route_internal e i s a hops = Ok (s1, ms, out) ->
  exists s1', swap_route_internal e i s' a hops = Ok (s1', ms, out) /\ store_sim f s1 s1'.
Proof.
  induction hops as [|h hops IH]; intros s s' a s1 ms out C S HA HC HB H; cbn [swap_route_internal hop_total] in *.
  - apply Ok_inj in H. injection H as <- <- <-. eauto.
  - inv_bind H as [[s2 m1] r] E. rewrite E in HB. inv_bind H as [[s3 m2] o] E2. apply Ok_inj in H. injection H as <- <- <-.
    pose proof (hop_total_nonneg e i hops s2 (cr_out r)) as HN.
    assert (exists p', st_pools s' !! hop_key h = Some p') as [p' EP].
    { apply swap_internal_inv in E. destruct E as (E & _). unfold calculate_swap in E. destruct (a =? 0); [done|]. unfold get_pool in E.
      destruct (st_pools s !! hop_key h) as [p0|] eqn:EK; [|done]. destruct (ss_pools _ _ _ S _ _ EK) as (q & EQ & _). eauto. }
    destruct (HC _ _ EP) as [C1 C2].
    assert (BD : counter (hop_x_to_y h) p' + cr_in r <= U128MAX) by (destruct (hop_x_to_y h); cbn; lia).
    destruct (swap_sim _ _ _ _ _ _ _ _ _ _ _ _ _ p' S HA E EP BD) as (s2' & r' & q' & E' & S' & R1 & R2 & _ & _ & _ & PP & Q1 & Q2).
    rewrite E'. cbn [bind]. rewrite R2.
    assert (CO : 0 <= cr_out r <= U128MAX /\ 0 <= cr_in r <= U128MAX) by (apply swap_internal_inv in E as (E & _); by apply calculate_swap_out in E).
    destruct (IH s2 s2' (cr_out r) s3 m2 o (C + cr_in r) S' (proj1 CO)) as (s3' & E3 & S3); [|lia|exact E2|].
    + intros k p0 E0. rewrite PP in E0. destruct (decide (k = hop_key h)) as [->|N].
      * rewrite lookup_insert in E0. injection E0 as <-. destruct (hop_x_to_y h); cbn in *; lia.
      * rewrite lookup_insert_ne in E0 by congruence. destruct (HC _ _ E0). lia.
    + rewrite E3. cbn [bind]. eauto.
Qed.
Theorem C46_route_partial e i s a expd slip hops s0 ms out f C : reachable s -> 0 <= f <= PCT_ONE ->
  execute e i (with_fee s 0) (SwapRoute a expd slip hops) = Ok (s0, ms, [("amount_out"%string, out)]) ->
  (forall k p, st_pools s !! k = Some p -> p_protx p <= C /\ p_proty p <= C) -> C + hop_total e i (with_fee s 0) a hops <= U128MAX ->
  exists s1, execute e i (with_fee s f) (SwapRoute a expd slip hops) = Ok (s1, ms, [("amount_out"%string, out)]).
Proof.
  intros R F H HC HB. unfold execute in *. destruct (_ && _) eqn:TY; [|done]. apply andb_prop in TY. destruct TY as [TE TY]. cbn [dispatch msg_typed] in *.
  assert (HA : 0 <= a <= U128MAX).
  { do 3 (apply andb_prop in TY; destruct TY as [TY ?]). by apply in_range_spec in TY. }
  unfold swap_route in *. inv_bind H as [[s2 m2] o] E.
  destruct (route_sim _ _ f _ _ (with_fee s f) _ _ _ _ C (with_fee_sim s f R F) HA HC HB E) as (s1 & E1 & _). rewrite E1. cbn [bind].
  inv_bind H as mn EM. rewrite EM. cbn [bind]. destruct (o <? mn); [done|]. apply Ok_inj in H. injection H as <- <- <-. eauto.
Qed.

(** the quote agrees as well *)
Theorem C46_quote e s k d a by_in lim f r p : reachable s -> 0 <= f <= PCT_ONE -> 0 <= a <= U128MAX ->
  calculate_swap (e_gas e) (with_fee s 0) (e_millis e) k d a by_in lim = Ok r -> st_pools s !! k = Some p -> counter d p + cr_in r <= U128MAX ->
  exists r', calculate_swap (e_gas e) (with_fee s f) (e_millis e) k d a by_in lim = Ok r' /\
    cr_in r' = cr_in r /\ cr_out r' = cr_out r /\ cr_start r' = cr_start r /\ cr_target r' = cr_target r /\ cr_fee r' = cr_fee r.
Proof.
  intros R F A H EP BD. destruct (calculate_sim _ _ (with_fee s f) _ _ _ _ _ _ _ _ _ (with_fee_sim s f R F) A H EP BD) as (r' & E & R1 & R2 & R3 & R4 & R5 & _). eauto 10.
Qed.

(** ** The contract accepts protocol fees above 100%, and then no swap with a fee passes *)
Definition pf_calls (f : Z) : list (string * exec_msg) :=
  [("alice", AddFeeTier v_tier); ("alice", CreatePool "tokeny" "tokenx" v_tier SP_ONE 0);
   ("alice", CreatePosition v_key (-10) 10 20006000000000 SP_ONE SP_ONE); ("alice", ChangeProtocolFee f)]%string.
Definition pf_swap : exec_msg := Swap v_key true 3000 true MIN_SQRT_PRICE.
Theorem C46_refuted : exists s0 s1, reachable s0 /\ reachable s1 /\ s1 = with_fee s0 2000000000000 /\ s0 = with_fee s0 0 /\
  execute v_env (v_info "bob") s1 pf_swap = Panic /\ is_ok (execute v_env (v_info "bob") s0 pf_swap) = true.
Proof.
  destruct (done_inv (fun s0 => match execute v_env (v_info "alice") s0 (ChangeProtocolFee 2000000000000) with
     | Ok (s1, _, _) => execute v_env (v_info "bob") s1 pf_swap = Panic | _ => False end /\ is_ok (execute v_env (v_info "bob") s0 pf_swap) = true /\ cf_protocol_fee (st_config s0) = 0)
     (start 0 (pf_calls 0))) as (s0 & E0 & X & Y & Z).
  { vm_compute. repeat split; reflexivity. }
  destruct (execute v_env (v_info "alice") s0 (ChangeProtocolFee 2000000000000)) as [[[s1 m1] a1]| |] eqn:E1; [|destruct X|destruct X].
  exists s0, s1. pose proof (start_reachable _ _ _ E0) as R0. split; [exact R0|]. split; [eapply reach_call; [exact R0|exact E1]|].
  split; [exact (change_fee_store _ _ _ _ _ _ _ E1)|]. split; [|split; [exact X|exact Y]].
  unfold with_fee. destruct s0 as [[ad tr pf] b1 b2 b3 b4 b5 b6]. cbn in Z. subst pf. reflexivity.
Qed.
(** at instantiation as well *)
Theorem C46_init_refuted : exists s, reachable s /\ cf_protocol_fee (st_config s) = 2000000000000.
Proof.
  destruct (done_inv (fun s => cf_protocol_fee (st_config s) = 2000000000000) (start 2000000000000 [])) as (s & E & X); [vm_compute; reflexivity|].
  exists s. split; [eapply start_reachable, E|exact X].
Qed.

(** ** Examples *)
Example ex_C46_swap : exists s s0 ms p, reachable s /\
  execute v_env (v_info "bob") (with_fee s 0) pf_swap = Ok (s0, ms, [("amount_in"%string, 3000); ("amount_out"%string, 2981)]) /\
  st_pools s !! v_key = Some p /\ p_protx p + 3000 <= U128MAX.
Proof.
  destruct (done_inv (fun s => match execute v_env (v_info "bob") (with_fee s 0) pf_swap with
     | Ok (_, _, at') => at' = [("amount_in"%string, 3000); ("amount_out"%string, 2981)] | _ => False end /\
     match st_pools s !! v_key with Some p => p_protx p + 3000 <= U128MAX | None => False end) (start 0 (pf_calls 10000000000))) as (s & E & X & Y).
  { vm_compute. split; [reflexivity|discriminate]. }
  destruct (execute v_env (v_info "bob") (with_fee s 0) pf_swap) as [[[s0 ms] at']| |] eqn:E1; [|destruct X|destruct X]. rewrite X in E1.
  destruct (st_pools s !! v_key) as [p|] eqn:EP; [|destruct Y]. exists s, s0, ms, p. split; [eapply start_reachable, E|]. split; [exact E1|]. split; [exact EP|exact Y].
Qed.
Example ex_C46_route : exists s s0 ms, reachable s /\
  execute v_env (v_info "bob") (with_fee s 0) (SwapRoute 3000 1 0 [mkHop v_key true; mkHop v_key false]) = Ok (s0, ms, [("amount_out"%string, 2963)]) /\
  hop_total v_env (v_info "bob") (with_fee s 0) 3000 [mkHop v_key true; mkHop v_key false] = 3000 + 2981.
Proof.
  destruct (done_inv (fun s => match execute v_env (v_info "bob") (with_fee s 0) (SwapRoute 3000 1 0 [mkHop v_key true; mkHop v_key false]) with
     | Ok (_, _, at') => at' = [("amount_out"%string, 2963)] | _ => False end /\
     hop_total v_env (v_info "bob") (with_fee s 0) 3000 [mkHop v_key true; mkHop v_key false] = 3000 + 2981) (start 0 (pf_calls 10000000000))) as (s & E & X & Y).
  { vm_compute. split; reflexivity. }
  destruct (execute v_env (v_info "bob") (with_fee s 0) _) as [[[s0 ms] at']| |] eqn:E1; [|destruct X|destruct X]. rewrite X in E1.
  exists s, s0, ms. split; [eapply start_reachable, E|]. split; [exact E1|exact Y].
Qed.
