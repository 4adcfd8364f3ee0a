(** Inversion of the position handlers: the exact stores they produce. *)
From Verif Require Import Base Decimal SqrtPrice Clamm Log FeeGrowth Types Tick Pool Position
  Tickmap Keys State Swap Exec Tactics Frame.
From stdpp Require Import gmap strings.
Open Scope Z_scope.

(** ** Position lists *)
Definition plen (s : store) (a : string) : Z := get_position_length s a.

Lemma add_position_inv s a po s' :
  add_position s a po = Ok s' ->
  s' = set_positions s (<[(a, plen s a) := po]> (st_positions s)) (<[a := plen s a + 1]> (st_poslen s))
  /\ plen s a + 1 <= U32MAX.
Proof. unfold add_position, plen. intros H. rinv H. ckinv. subst. split; [done|lia]. Qed.

(** removing index [i] of a list of length [n + 1]: the last entry takes its place *)
Definition swap_removed (a : string) (i n : Z) (m m' : gmap (string * Z) position) : Prop :=
  (i < n /\ exists last, m !! (a, n) = Some last /\ m' = <[(a, i) := last]> (delete (a, n) m)) \/
  (n <= i /\ m' = delete (a, i) m).

Lemma remove_position_inv s a i s' po :
  remove_position s a i = Ok (s', po) ->
  st_positions s !! (a, i) = Some po /\ 1 <= plen s a /\
  exists m, swap_removed a i (plen s a - 1) (st_positions s) m /\
            s' = set_positions s m (<[a := plen s a - 1]> (st_poslen s)).
Proof.
  unfold remove_position, swap_removed. fold (plen s a). intros H. rinv H; ckinv; simplify_eq.
  split; [done|]. split; [lia|]. eexists. split; [|reflexivity].
  rinv H1; subst; [left|right]; [apply Z.ltb_lt in Heqb|apply Z.ltb_ge in Heqb].
  - split; [done|]. eauto.
  - done.
Qed.

(** ** Ticks of a new position *)
Definition stored_or_new (s : store) (now : Z) (k : pool_key) (p : pool) (i : Z) (t : tick) : Prop :=
  st_ticks s !! (k, i) = Some t \/
  (st_ticks s !! (k, i) = None /\ check_tick i (ft_spacing (pk_tier k)) = Ok tt /\
   tick_create i p now = Ok t).

(** the bitmap after making sure that tick [i] is initialized *)
Definition init_bitmap (s : store) (k : pool_key) (i : Z) (bm bm' : gmap (pool_key * Z) Z) : Prop :=
  match st_ticks s !! (k, i) with
  | Some _ => bm' = bm
  | None => exists s', flip_bitmap (set_bitmap s bm) true i (ft_spacing (pk_tier k)) k = Ok s' /\
                       bm' = st_bitmap s'
  end.

Lemma flip_bitmap_frame s1 s2 v i sp k s' :
  flip_bitmap s1 v i sp k = Ok s' -> st_bitmap s1 = st_bitmap s2 ->
  s' = set_bitmap s1 (st_bitmap s') /\ flip_bitmap s2 v i sp k = Ok (set_bitmap s2 (st_bitmap s')).
Proof.
  unfold flip_bitmap, bitmap_chunk. intros H E. rewrite <- E.
  destruct (tick_to_position i sp) as [[c b]|?|]; cbn [bind] in *; try done.
  rinv H. subst. done.
Qed.

Lemma tick_create_index i p now t : tick_create i p now = Ok t -> t_index t = i.
Proof. unfold tick_create. intros H. rinv H; subst; reflexivity. Qed.

Lemma get_or_create_inv s now k i s1 t p :
  st_pools s !! k = Some p -> get_or_create_tick s now k i = Ok (s1, t) ->
  stored_or_new s now k p i t /\
  exists bm tk, init_bitmap s k i (st_bitmap s) bm /\
    s1 = set_ticks (set_bitmap s bm) tk /\
    (tk = st_ticks s \/ tk = <[(k, i) := t]> (st_ticks s)) /\
    tk !! (k, i) = Some t.
Proof.
  intros Ep. unfold get_or_create_tick, State.get_tick, stored_or_new, init_bitmap.
  destruct (st_ticks s !! (k, i)) as [t0|] eqn:Et.
  - intros H. simplify_eq. split; [by left|]. exists (st_bitmap s1), (st_ticks s1).
    split; [done|]. split; [by destruct s1|]. split; [by left|done].
  - unfold create_tick, get_pool. rewrite Ep. cbn [bind]. intros H.
    inv_bind H as [] EC. inv_bind H as t1 EN. inv_bind H as s2 EA. inv_bind H as s3 EF.
    apply Ok_inj in H. simplify_eq.
    unfold add_tick in EA. rewrite Et in EA. apply Ok_inj in EA. subst s2.
    destruct (flip_bitmap_frame _ s _ _ _ _ _ EF eq_refl) as [F1 F2].
    split; [right; eauto|].
    eexists _, _. split.
    { eexists. split; [|reflexivity].
      replace (set_bitmap s (st_bitmap s)) with s by (by destruct s). exact F2. }
    split; [rewrite F1; reflexivity|]. split; [right; reflexivity|].
    apply lookup_insert.
Qed.

Lemma stored_or_new_index s now k p i t :
  ticks_indexed s -> stored_or_new s now k p i t -> t_index t = i.
Proof.
  intros IX [E|(_ & _ & E)]; [exact (IX _ _ _ E)|]. revert E. apply tick_create_index.
Qed.

Lemma update_tick_ok s k i t s' :
  update_tick s k i t = Ok s' -> s' = set_ticks s (<[(k, i) := t]> (st_ticks s)).
Proof. unfold update_tick. intros H. rinv H. by subst. Qed.

Lemma position_modify_index po p u l d add now s po' p' u' l' x y :
  position_modify po p u l d add now s = Ok (po', p', u', l', x, y) ->
  t_index u' = t_index u /\ t_index l' = t_index l.
Proof.
  unfold position_modify. intros H. rinv H. simplify_eq.
  unfold tick_update in *.
  repeat match goal with H : bind _ _ = Ok _ |- _ => rinv H end. simplify_eq. done.
Qed.

Lemma create_position_inv e i s k lower upper liq sl su s' ms at' :
  ticks_indexed s ->
  create_position e i s k lower upper liq sl su = Ok (s', ms, at') ->
  exists p lt ut po p' lt' ut' x y bm1 bm2 m0 m1,
    liq <> 0 /\ lower <> upper /\ st_pools s !! k = Some p /\
    stored_or_new s (e_millis e) k p lower lt /\ stored_or_new s (e_millis e) k p upper ut /\
    init_bitmap s k lower (st_bitmap s) bm1 /\ init_bitmap s k upper bm1 bm2 /\
    position_create p k lt ut (e_millis e) liq sl su (e_height e) (ft_spacing (pk_tier k))
      = Ok (po, p', lt', ut', x, y) /\
    plen s (i_sender i) + 1 <= U32MAX /\
    asset_transfer_from e i (pk_x k) x = Ok m0 /\ asset_transfer_from e i (pk_y k) y = Ok m1 /\
    ms = m0 ++ m1 /\ at' = position_event liq lower upper (p_price p') /\
    s' = mkStore (st_config s) (<[k := p']> (st_pools s))
           (<[(k, upper) := ut']> (<[(k, lower) := lt']> (st_ticks s))) bm2
           (<[(i_sender i, plen s (i_sender i)) := po]> (st_positions s))
           (<[i_sender i := plen s (i_sender i) + 1]> (st_poslen s)) (st_operators s).
Proof.
  intros IX. unfold create_position. intros H.
  destruct (Z.eqb_spec liq 0) as [|NL]; [done|]. destruct (Z.eqb_spec lower upper) as [|NE]; [done|].
  inv_bind H as p EP. apply (proj1 (map_err_ok _ _ _)) in EP. unfold get_pool in EP.
  destruct (st_pools s !! k) as [p0|] eqn:Ep; [|done]. apply Ok_inj in EP. subst p0.
  inv_bind H as [s1 lt] E1. inv_bind H as [s2 ut] E2.
  inv_bind H as [[[[[po p'] lt'] ut'] x] y] EC.
  inv_bind H as s3 EA. inv_bind H as s4 EU1. inv_bind H as s5 EU2.
  inv_bind H as m0 EM0. inv_bind H as m1 EM1. apply Ok_inj in H.
  injection H as <- <- <-.
  destruct (get_or_create_inv _ _ _ _ _ _ _ Ep E1) as (SL & bm1 & tk1 & B1 & -> & T1 & L1).
  assert (Ep1 : st_pools (set_ticks (set_bitmap s bm1) tk1) !! k = Some p) by exact Ep.
  destruct (get_or_create_inv _ _ _ _ _ _ _ Ep1 E2) as (SU & bm2 & tk2 & B2 & -> & T2 & L2).
  clear E1 E2 Ep1.
  assert (LU : tk1 !! (k, upper) = st_ticks s !! (k, upper)).
  { destruct T1 as [->| ->]; [done|]. apply lookup_insert_ne. congruence. }
  assert (SU' : stored_or_new s (e_millis e) k p upper ut).
  { unfold stored_or_new in *. cbn in SU. by rewrite LU in SU. }
  assert (B2' : init_bitmap s k upper bm1 bm2).
  { unfold init_bitmap in *. cbn in B2. rewrite LU in B2. destruct (st_ticks s !! (k, upper)); [done|].
    destruct B2 as (s6 & F & ->).
    destruct (flip_bitmap_frame _ (set_bitmap s bm1) _ _ _ _ _ F eq_refl) as [_ F'].
    eexists. split; [exact F'|]. reflexivity. }
  assert (Il : t_index lt = lower) by (eapply stored_or_new_index; eassumption).
  assert (Iu : t_index ut = upper) by (eapply stored_or_new_index; eassumption).
  assert (I' : t_index ut' = upper /\ t_index lt' = lower).
  { unfold position_create in EC. destruct (_ || _); [done|].
    inv_bind EC as [[[[[? ?] ?] ?] ?] ?] EM. apply Ok_inj in EC. simplify_eq.
    apply position_modify_index in EM. destruct EM. split; congruence. }
  destruct I' as [Iu' Il'].
  apply add_position_inv in EA. destruct EA as [-> PL].
  apply update_tick_ok in EU1. subst s4. apply update_tick_ok in EU2. subst s5.
  change (plen _ (i_sender i)) with (plen s (i_sender i)) in *.
  assert (ET : <[(k, upper) := ut']> (<[(k, lower) := lt']> tk2)
             = <[(k, upper) := ut']> (<[(k, lower) := lt']> (st_ticks s))).
  { cbn in T2. apply map_eq. intros [kk j].
    destruct (decide ((kk, j) = (k, upper))) as [->|N1]; [by rewrite !lookup_insert|].
    rewrite !(lookup_insert_ne _ (k, upper)) by congruence.
    destruct (decide ((kk, j) = (k, lower))) as [->|N2]; [by rewrite !lookup_insert|].
    rewrite !(lookup_insert_ne _ (k, lower)) by congruence.
    destruct T1 as [->| ->], T2 as [->| ->]; rewrite ?lookup_insert_ne by congruence; done. }
  exists p, lt, ut, po, p', lt', ut', x, y, bm1, bm2, m0, m1.
  rewrite Iu', Il'. repeat (split; [done|]). cbn.
  rewrite ET. reflexivity.
Qed.

(** ** Claiming *)
Lemma claim_fee_inv e i s ix s' ms at' :
  ticks_indexed s ->
  claim_fee e i s ix = Ok (s', ms, at') ->
  exists po lt ut p po' p' lt' ut' x y,
    st_positions s !! (i_sender i, ix) = Some po /\ ix < plen s (i_sender i) /\
    st_ticks s !! ((po_key po), po_lower po) = Some lt /\ st_ticks s !! ((po_key po), po_upper po) = Some ut /\
    st_pools s !! (po_key po) = Some p /\
    position_claim_fee po p ut lt (e_millis e) = Ok (po', p', ut', lt', x, y) /\
    ms = asset_transfer e i (pk_x (po_key po)) x ++ asset_transfer e i (pk_y (po_key po)) y /\
    at' = [("amount_x"%string, x); ("amount_y"%string, y)] /\
    t_index ut' = po_upper po /\ t_index lt' = po_lower po /\
    s' = mkStore (st_config s) (<[(po_key po) := p']> (st_pools s))
           (<[((po_key po), po_lower po) := lt']> (<[((po_key po), po_upper po) := ut']> (st_ticks s))) (st_bitmap s)
           (<[(i_sender i, ix) := po']> (st_positions s)) (st_poslen s) (st_operators s).
Proof.
  intros IX. unfold claim_fee, get_position, State.get_tick, get_pool. intros H.
  destruct (st_positions s !! (i_sender i, ix)) as [po|] eqn:Epo; [|done]. cbn [bind] in H.
  destruct (st_ticks s !! (po_key po, po_lower po)) as [lt|] eqn:El; [|done]. cbn [bind] in H.
  destruct (st_ticks s !! (po_key po, po_upper po)) as [ut|] eqn:Eu; [|done]. cbn [bind] in H.
  destruct (st_pools s !! po_key po) as [p|] eqn:Ep; [|done]. cbn [bind] in H.
  inv_bind H as [[[[[po' p'] ut'] lt'] x] y] EC. inv_bind H as s1 EU. inv_bind H as s2 E1.
  inv_bind H as s3 E2. apply Ok_inj in H. injection H as <- <- <-.
  unfold update_position in EU. destruct (Z.leb_spec (get_position_length s (i_sender i)) ix) as [|Hix]; [done|].
  apply Ok_inj in EU. subst s1. apply update_tick_ok in E1. subst s2. apply update_tick_ok in E2. subst s3.
  assert (I' : t_index ut' = po_upper po /\ t_index lt' = po_lower po).
  { unfold position_claim_fee in EC. inv_bind EC as [[[[[? ?] ?] ?] ?] ?] EM. apply Ok_inj in EC. simplify_eq.
    apply position_modify_index in EM. destruct EM. apply IX in El, Eu. split; congruence. }
  destruct I' as [Iu Il].
  exists po, lt, ut, p, po', p', lt', ut', x, y.
  split; [done|]. split; [done|]. cbn zeta. repeat (split; [done|]).
  rewrite Iu, Il. reflexivity.
Qed.

(** ** Removing *)
(** the bitmap after clearing or keeping a tick *)
Definition clear_bitmap (b : bool) (k : pool_key) (i : Z) (bm bm' : gmap (pool_key * Z) Z) : Prop :=
  if b then exists s s', flip_bitmap s false i (ft_spacing (pk_tier k)) k = Ok s' /\
                         st_bitmap s = bm /\ bm' = st_bitmap s'
  else bm' = bm.

Definition clear_tick (b : bool) (k : pool_key) (i : Z) (t : tick)
    (m : gmap (pool_key * Z) tick) : gmap (pool_key * Z) tick :=
  if b then delete (k, i) m else <[(k, i) := t]> m.

Lemma clear_inv (b : bool) s k i t s' :
  t_index t = i ->
  (if b then remove_tick_and_flip_bitmap s k t else update_tick s k i t) = Ok s' ->
  (b = true -> t_gross t = 0) /\
  exists bm, clear_bitmap b k i (st_bitmap s) bm /\
    s' = set_ticks (set_bitmap s bm) (clear_tick b k i t (st_ticks s)).
Proof.
  intros I. destruct b; cbn.
  - unfold remove_tick_and_flip_bitmap. rewrite I. intros H.
    destruct (Z.eqb_spec (t_gross t) 0) as [G|]; [|done]. cbn in H.
    inv_bind H as s1 EF. split; [done|]. exists (st_bitmap s1). split.
    + eexists _, _. split; [exact EF|done].
    + unfold remove_tick in H. destruct (st_ticks s1 !! (k, i)); [|done]. apply Ok_inj in H. subst s'.
      destruct (flip_bitmap_frame _ s _ _ _ _ _ EF eq_refl) as [F _]. rewrite F. reflexivity.
  - intros H. apply update_tick_ok in H. subst. split; [done|]. exists (st_bitmap s).
    split; [done|]. by destruct s.
Qed.

Lemma position_modify_frame po p u l d add now s po' p' u' l' x y :
  position_modify po p u l d add now s = Ok (po', p', u', l', x, y) ->
  (exists q, p' = p_set_liq (p_set_last p now) q) /\
  t_price u' = t_price u /\ t_fox u' = t_fox u /\ t_foy u' = t_foy u /\ t_secs u' = t_secs u /\
  t_price l' = t_price l /\ t_fox l' = t_fox l /\ t_foy l' = t_foy l /\ t_secs l' = t_secs l /\
  po_key po' = po_key po /\ po_lower po' = po_lower po /\ po_upper po' = po_upper po /\
  po_approvals po' = po_approvals po /\ po_block po' = po_block po.
Proof.
  unfold position_modify. intros H. rinv H. simplify_eq.
  unfold tick_update, position_update, update_liquidity in *.
  repeat match goal with H : (let* _ := _ in _) = Ok _ |- _ => progress rinv H
  | H : (if _ then _ else _) = Ok _ |- _ => progress rinv H end; simplify_eq; cbn.
  all: repeat (split; [done || by eexists|]); try done.
  all: try (split; [|done]); exists (p_liq p); by destruct p.
Qed.

Lemma remove_position_exec_inv e i s ix s' ms at' :
  ticks_indexed s ->
  remove_position_exec e i s ix = Ok (s', ms, at') ->
  exists po lt ut p po' p' lt' ut' x y dl du bm1 bm2 m',
    st_positions s !! (i_sender i, ix) = Some po /\ 1 <= plen s (i_sender i) /\
    st_ticks s !! ((po_key po), po_lower po) = Some lt /\ st_ticks s !! ((po_key po), po_upper po) = Some ut /\
    st_pools s !! (po_key po) = Some p /\
    position_remove po p (e_millis e) lt ut (ft_spacing (pk_tier (po_key po)))
      = Ok (po', p', lt', ut', x, y, dl, du) /\
    ms = asset_transfer e i (pk_x (po_key po)) x ++ asset_transfer e i (pk_y (po_key po)) y /\
    at' = position_event (po_liq po) (po_lower po) (po_upper po) (p_price p') /\
    t_index ut' = po_upper po /\ t_index lt' = po_lower po /\
    clear_bitmap dl (po_key po) (po_lower po) (st_bitmap s) bm1 /\
    clear_bitmap du (po_key po) (po_upper po) bm1 bm2 /\
    swap_removed (i_sender i) ix (plen s (i_sender i) - 1) (st_positions s) m' /\
    s' = mkStore (st_config s) (<[(po_key po) := p']> (st_pools s))
           (clear_tick du (po_key po) (po_upper po) ut' (clear_tick dl (po_key po) (po_lower po) lt' (st_ticks s))) bm2
           m' (<[i_sender i := plen s (i_sender i) - 1]> (st_poslen s)) (st_operators s).
Proof.
  intros IX. unfold remove_position_exec, get_position, State.get_tick, get_pool. intros H.
  destruct (st_positions s !! (i_sender i, ix)) as [po|] eqn:Epo; [|done]. cbn [bind] in H.
  destruct (st_ticks s !! (po_key po, po_lower po)) as [lt|] eqn:El; [|done]. cbn [bind] in H.
  destruct (st_ticks s !! (po_key po, po_upper po)) as [ut|] eqn:Eu; [|done]. cbn [bind] in H.
  destruct (st_pools s !! po_key po) as [p|] eqn:Ep; [|done]. cbn [bind] in H.
  inv_bind H as [[[[[[[po' p'] lt'] ut'] x] y] dl] du] EC. inv_bind H as s1 E1. inv_bind H as s2 E2.
  inv_bind H as [s3 po0] E3. apply Ok_inj in H. injection H as <- <- <-.
  assert (I' : t_index ut' = po_upper po /\ t_index lt' = po_lower po).
  { unfold position_remove in EC. inv_bind EC as [[[[[? ?] ?] ?] ?] ?] EM. inv_bind EC as x1 EX1. inv_bind EC as y1 EY1.
    apply Ok_inj in EC. simplify_eq.
    apply position_modify_index in EM. destruct EM. apply IX in El, Eu. split; congruence. }
  destruct I' as [Iu Il].
  apply clear_inv in E1; [|done]. destruct E1 as (_ & bm1 & B1 & ->).
  apply clear_inv in E2; [|done]. destruct E2 as (_ & bm2 & B2 & ->).
  apply remove_position_inv in E3. destruct E3 as (L & PL & m' & SR & ->). cbn in L, SR, PL, B2.
  assert (po0 = po) by congruence. subst po0.
  change (plen _ (i_sender i)) with (plen s (i_sender i)) in *.
  exists po, lt, ut, p, po', p', lt', ut', x, y, dl, du, bm1, bm2, m'.
  split; [done|]. split; [done|]. cbn zeta. rewrite Iu, Il. repeat (split; [done|]). reflexivity.
Qed.
