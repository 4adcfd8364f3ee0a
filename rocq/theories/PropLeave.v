(** C104: the order of withdrawals and fee claims. *)
From Verif Require Import Base Decimal SqrtPrice Clamm Log FeeGrowth Types Tick Pool Position
  Tickmap Keys State Swap Exec Query Tactics PriceProofs ClammProofs BitmapProofs Frame Handlers History Basic PosList Ledger Scenario SwapInv SwapGeo SwapLoop Modify PSum LiqInv
  Vectors Geo Ops PropTrade PropLiq PropSwap Growth Value Fund Flow PropExit PropPerm PropLocal PropProt PropClock PropOk PropSplit PropOrder.
From stdpp Require Import gmap strings.
From Coq Require Import Lia.
Open Scope Z_scope.

(** * What a withdrawal or a claim does *)
(** ** To the bitmap *)
Lemma clear_bits b k j bm bm' : 1 <= spacing k -> clear_bitmap b k j bm bm' ->
  (forall k' c, is_Some (bm' !! (k', c)) <-> is_Some (bm !! (k', c))) /\
  forall k' c n, 0 <= n -> Z.testbit (default 0 (bm' !! (k', c))) n = true <->
    Z.testbit (default 0 (bm !! (k', c))) n = true /\ ~ (b = true /\ k' = k /\ bit_index (spacing k) j / 64 = c /\ bit_index (spacing k) j mod 64 = n).
Proof.
  intros S1. destruct b; cbn [clear_bitmap]; [|intros ->; split; [done|]; intros k' c n N; split; [intros X; split; [done|intros [? _]; done]|tauto]].
  intros (s & s' & F & <- & ->). apply flip_bitmap_ok in F; [|done]. destruct F as (LG & B & ->). cbn [st_bitmap set_bitmap].
  unfold bit_set in B. pose proof (Z.mod_pos_bound (bit_index (spacing k) j) 64 ltac:(lia)) as MB.
  set (x := bit_index (spacing k) j / 64) in *. set (y := bit_index (spacing k) j mod 64) in *. unfold bitmap_chunk in *. cbn in B.
  split.
  - intros k' c. destruct (decide ((k', c) = (k, x))) as [[= -> ->]|N]; [|by rewrite lookup_insert_ne by congruence].
    rewrite lookup_insert. split; [|eauto]. intros _. destruct (st_bitmap s !! (k, x)); [eauto|]. cbn in B. by rewrite Z.bits_0 in B.
  - intros k' c n N0. destruct (decide ((k', c) = (k, x))) as [[= -> ->]|N].
    + rewrite lookup_insert. match goal with |- context [default 0 (Some ?z)] => change (default 0 (Some z)) with z end. rewrite Z.lxor_spec. destruct (Z.eq_dec n y) as [->|NE].
      * rewrite B, Z.pow2_bits_true by lia. cbn. split; [done|]. intros [_ X]. exfalso. apply X. done.
      * rewrite Z.pow2_bits_false by lia. rewrite xorb_false_r. split; [intros H; split; [done|]|tauto]. intros (_ & _ & _ & E). congruence.
    + rewrite lookup_insert_ne by congruence. split; [intros H; split; [done|]|tauto]. intros (_ & E1 & E2 & _). apply N. congruence.
Qed.

(** ** To the list of positions *)
Definition strip (a : string) (ix n : Z) (m : gmap (string * Z) position) : gmap (string * Z) position :=
  if ix <? n then match m !! (a, n) with Some last => <[(a, ix) := last]> (delete (a, n) m) | None => m end else delete (a, ix) m.
Lemma removed_strip a ix n m m' : swap_removed a ix n m m' -> m' = strip a ix n m.
Proof.
  unfold strip. intros [(H & last & E & ->)|(H & ->)].
  - by rewrite (proj2 (Z.ltb_lt _ _) H), E.
  - by rewrite (proj2 (Z.ltb_ge _ _) H).
Qed.
Definition act (b : bool) (a : string) (ix n : Z) (po : position) (m : gmap (string * Z) position) : gmap (string * Z) position :=
  if b then strip a ix n m else <[(a, ix) := po]> m.
Lemma act_other b a ix n po m c j : c <> a -> act b a ix n po m !! (c, j) = m !! (c, j).
Proof.
  intros N. unfold act, strip. destruct b; [|by rewrite lookup_insert_ne by congruence].
  destruct (ix <? n); [|by rewrite lookup_delete_ne by congruence]. destruct (m !! (a, n)); [|done].
  by rewrite lookup_insert_ne, lookup_delete_ne by congruence.
Qed.
Lemma act_own b a ix n po m m' : (forall j, m' !! (a, j) = m !! (a, j)) -> forall j, act b a ix n po m' !! (a, j) = act b a ix n po m !! (a, j).
Proof.
  intros E j. unfold act, strip. rewrite E. destruct b.
  - destruct (ix <? n).
    + destruct (m !! (a, n)); [|done]. destruct (decide (j = ix)) as [->|N]; [by rewrite !lookup_insert|]. rewrite !lookup_insert_ne by congruence.
      destruct (decide (j = n)) as [->|N']; [by rewrite !lookup_delete|]. by rewrite !lookup_delete_ne by congruence.
    + destruct (decide (j = ix)) as [->|N']; [by rewrite !lookup_delete|]. by rewrite !lookup_delete_ne by congruence.
  - destruct (decide (j = ix)) as [->|N]; [by rewrite !lookup_insert|]. by rewrite !lookup_insert_ne by congruence.
Qed.
Lemma acts_commute b1 a1 ix1 n1 po1 b2 a2 ix2 n2 po2 m : a1 <> a2 ->
  act b2 a2 ix2 n2 po2 (act b1 a1 ix1 n1 po1 m) = act b1 a1 ix1 n1 po1 (act b2 a2 ix2 n2 po2 m).
Proof.
  intros N. apply map_eq. intros [c j]. destruct (decide (c = a2)) as [->|N2].
  - rewrite (act_other b1) by congruence. apply act_own. intros j'. by apply act_other.
  - rewrite (act_other b2) by congruence. destruct (decide (c = a1)) as [->|N1]; [|by rewrite !act_other by congruence].
    symmetry. apply act_own. intros j'. by apply act_other.
Qed.

(** ** To everything *)
(** a tick with the same counters *)
Definition akin (t t' : tick) : Prop :=
  t' = mkTick (t_index t) (t_sign t') (t_change t') (t_gross t') (t_price t) (t_fox t) (t_foy t) (t_secs t).
(** a position with its fees settled *)
Definition renew (s : store) (p : pool) (po : position) : position :=
  match st_ticks s !! (po_key po, po_lower po), st_ticks s !! (po_key po, po_upper po) with
  | Some l, Some u => mkPosition (po_key po) (po_liq po) (po_lower po) (po_upper po) (inside_x p l u) (inside_y p l u) (po_block po) 0 0 (po_approvals po)
  | _, _ => po
  end.
(** [b]: a withdrawal; otherwise a claim *)
Definition pays (b : bool) (e : env) (i : msg_info) (s : store) (p : pool) (po : position) : list out_msg :=
  asset_transfer e i (pk_x (po_key po)) ((if b then (stake p po).1 else 0) + accrued_x s p po) ++
  asset_transfer e i (pk_y (po_key po)) ((if b then (stake p po).2 else 0) + accrued_y s p po).
Definition tells (b : bool) (s : store) (p : pool) (po : position) : list (string * Z) :=
  if b then position_event (po_liq po) (po_lower po) (po_upper po) (p_price p)
  else [("amount_x"%string, accrued_x s p po); ("amount_y"%string, accrued_y s p po)].
Definition taken (b : bool) (po : position) : Z := if b then - po_liq po else 0.

Record took (b : bool) (e : env) (i : msg_info) (s : store) (ix : Z) (s' : store) (ms : list out_msg) (at' : list (string * Z)) (po : position) (p : pool) : Prop := {
  tk_po : st_positions s !! (i_sender i, ix) = Some po;
  tk_p : st_pools s !! po_key po = Some p;
  tk_ms : ms = pays b e i s p po;
  tk_at : at' = tells b s p po;
  tk_rest : st_config s' = st_config s /\ st_operators s' = st_operators s;
  tk_pools : st_pools s' = <[po_key po := mark_pool p (e_millis e) (po_lower po) (po_upper po) (taken b po)]> (st_pools s);
  tk_ticks : forall k j t', st_ticks s' !! (k, j) = Some t' -> exists t, st_ticks s !! (k, j) = Some t /\ akin t t';
  tk_pos : st_positions s' = act b (i_sender i) ix (plen s (i_sender i) - 1) (renew s p po) (st_positions s);
  tk_len : st_poslen s' = if b then <[i_sender i := plen s (i_sender i) - 1]> (st_poslen s) else st_poslen s;
  tk_chunks : forall k c, is_Some (st_bitmap s' !! (k, c)) <-> is_Some (st_bitmap s !! (k, c));
  tk_bits : forall k c n, 0 <= n -> Z.testbit (bitmap_chunk s' k c) n = true <->
    Z.testbit (bitmap_chunk s k c) n = true /\
    ~ exists j, is_Some (st_ticks s !! (k, j)) /\ st_ticks s' !! (k, j) = None /\ bit_index (spacing k) j / 64 = c /\ bit_index (spacing k) j mod 64 = n
}.
Definition takes (b : bool) (e : env) (i : msg_info) (s : store) (ix : Z) : res (store * list out_msg * list (string * Z)) :=
  if b then remove_position_exec e i s ix else claim_fee e i s ix.

Lemma akin_refl t : akin t t.
Proof. by destruct t. Qed.
Lemma akin_of t t' : t_index t' = t_index t /\ t_price t' = t_price t /\ t_fox t' = t_fox t /\ t_foy t' = t_foy t /\ t_secs t' = t_secs t -> akin t t'.
Proof. intros (A & B & C & D & E). unfold akin. destruct t', t. cbn in *. by subst. Qed.
Lemma akin_parts t t' : akin t t' -> t_index t' = t_index t /\ t_price t' = t_price t /\ t_fox t' = t_fox t /\ t_foy t' = t_foy t /\ t_secs t' = t_secs t.
Proof. unfold akin. intros ->. done. Qed.
Lemma took_claim e i s ix s' ms at' : ereach s -> claim_fee e i s ix = Ok (s', ms, at') -> exists po p, took false e i s ix s' ms at' po p.
Proof.
  intros R C. destruct (claim_inv _ _ _ _ _ _ _ R C) as (po & p & lt & ut & po1 & p' & lt' & ut' & zx & zy & ox & oy & []).
  exists po, p. pose proof cl_valid as (V1 & _).
  pose proof (tp_index _ _ _ _ cl_lowp) as IL. pose proof (tp_index _ _ _ _ cl_upp) as IU.
  destruct (accrued_fee s p po lt ut cl_low cl_up IL IU ltac:(lia)) as (_ & _ & A3 & A4).
  pose proof (mf_ox _ _ _ _ _ _ _ _ _ _ _ _ _ _ _ _ cl_mod) as X. pose proof (mf_oy _ _ _ _ _ _ _ _ _ _ _ _ _ _ _ _ cl_mod) as Y.
  apply A3 in X as [EX _]. apply A4 in Y as [EY _]. destruct (ereach_unowed _ R _ _ cl_pos) as [O1 O2]. rewrite O1, O2, !Z.add_0_l, ?EX, ?EY in *.
  pose proof (akin_of _ _ (mf_low _ _ _ _ _ _ _ _ _ _ _ _ _ _ _ _ cl_mod)) as ML. pose proof (akin_of _ _ (mf_up _ _ _ _ _ _ _ _ _ _ _ _ _ _ _ _ cl_mod)) as MU.
  assert (TK : forall k j, (exists t, (<[((po_key po), po_lower po) := lt']> (<[((po_key po), po_upper po) := ut']> (st_ticks s))) !! (k, j) = Some t /\
      exists t0, st_ticks s !! (k, j) = Some t0 /\ akin t0 t) \/ (<[((po_key po), po_lower po) := lt']> (<[((po_key po), po_upper po) := ut']> (st_ticks s))) !! (k, j) = st_ticks s !! (k, j)).
  { intros k j. destruct (decide ((k, j) = (po_key po, po_lower po))) as [->|N1]; [left; rewrite lookup_insert; eauto|rewrite lookup_insert_ne by congruence].
    destruct (decide ((k, j) = (po_key po, po_upper po))) as [->|N2]; [left; rewrite lookup_insert; eauto|rewrite lookup_insert_ne by congruence]. by right. }
  rewrite cl_store. constructor; cbn [st_positions st_pools st_config st_operators st_ticks st_poslen st_bitmap]; try done.
  - f_equal. rewrite (mf_pool _ _ _ _ _ _ _ _ _ _ _ _ _ _ _ _ cl_mod), IL, IU. done.
  - intros k j t' H. destruct (TK k j) as [(t & E & t0 & E0 & A)|E].
    + rewrite E in H. injection H as <-. eauto.
    + rewrite E in H. exists t'. split; [done|apply akin_refl].
  - unfold act, renew. rewrite cl_low, cl_up. f_equal. rewrite (mf_pos _ _ _ _ _ _ _ _ _ _ _ _ _ _ _ _ cl_mod). cbn. f_equal. unfold pm. lia.
  - intros k c n N. unfold bitmap_chunk. cbn [st_bitmap]. split; [intros H; split; [done|]|tauto]. intros (j & J1 & J2 & _).
    destruct (TK k j) as [(t & E & _)|E]; rewrite J2 in E; [done|]. rewrite <- E in J1. by destruct J1.
Qed.
Lemma took_leave e i s ix s' ms at' : ereach s -> remove_position_exec e i s ix = Ok (s', ms, at') -> exists po p, took true e i s ix s' ms at' po p.
Proof.
  intros R C. pose proof C as H. apply remove_position_exec_inv in H; [|by apply ereach_indexed].
  destruct H as (po & lt & ut & p & po' & p' & lt' & ut' & x & y & dl & du & bm1 & bm2 & m' & Epo & _ & El & Eu & Ep & PC & Em & Ea & Iu' & Il' & B1 & B2 & SR & ->).
  exists po, p. pose proof (proj2 (remove_iff e i s ix R) po p _ _ _ Epo Ep C) as MS. clear C.
  destruct (lq_pos _ (ereach_liq _ R) _ _ Epo) as [(V1 & V2 & V3 & V4) _].
  pose proof (lq_tick _ (ereach_liq _ R) (po_key po) (po_lower po)) as TL. rewrite El in TL. destruct TL as [TL GL].
  pose proof (lq_tick _ (ereach_liq _ R) (po_key po) (po_upper po)) as TU. rewrite Eu in TU. destruct TU as [TU GU].
  pose proof (tp_index _ _ _ _ TL) as IL. pose proof (tp_index _ _ _ _ TU) as IU.
  unfold position_remove in PC. inv_bind PC as [[[[[po1 p1] u1] l1] x1] y1] EM. inv_bind PC as x2 EX. inv_bind PC as y2 EY.
  apply Ok_inj in PC. injection PC as <- <- <- <- <- <- <- <-.
  apply position_modify_inv in EM; [|lia|apply TU|apply TL]. destruct EM as (ox & oy & F).
  pose proof (akin_of _ _ (mf_low _ _ _ _ _ _ _ _ _ _ _ _ _ _ _ _ F)) as ML. pose proof (akin_of _ _ (mf_up _ _ _ _ _ _ _ _ _ _ _ _ _ _ _ _ F)) as MU.
  destruct (kv_tier _ (ereach_pools _ R _ _ Ep)) as [S1 _]. assert (SP : 1 <= spacing (po_key po)) by apply S1.
  pose proof (mf_pool _ _ _ _ _ _ _ _ _ _ _ _ _ _ _ _ F) as MP. rewrite IL, IU in MP. clear F EX EY.
  set (dl := t_gross l1 =? 0) in *. set (du := t_gross u1 =? 0) in *. clearbody dl du.
  destruct (clear_bits _ _ _ _ _ SP B1) as [D1 G1]. destruct (clear_bits _ _ _ _ _ SP B2) as [D2 G2].
  set (T := clear_tick du (po_key po) (po_upper po) u1 (clear_tick dl (po_key po) (po_lower po) l1 (st_ticks s))).
  assert (TK : forall k j, (k = po_key po /\ j = po_lower po /\ T !! (k, j) = if dl then None else Some l1) \/
     (k = po_key po /\ j = po_upper po /\ T !! (k, j) = if du then None else Some u1) \/
     (~ (k = po_key po /\ (j = po_lower po \/ j = po_upper po)) /\ T !! (k, j) = st_ticks s !! (k, j))).
  { intros k j. unfold T, clear_tick. destruct (decide (k = po_key po /\ j = po_upper po)) as [[-> ->]|N2].
    - right. left. split; [done|]. split; [done|]. destruct du; [by rewrite lookup_delete|by rewrite lookup_insert].
    - assert (U : (if du then delete (po_key po, po_upper po) (if dl then delete (po_key po, po_lower po) (st_ticks s) else <[(po_key po, po_lower po) := l1]> (st_ticks s))
           else <[(po_key po, po_upper po) := u1]> (if dl then delete (po_key po, po_lower po) (st_ticks s) else <[(po_key po, po_lower po) := l1]> (st_ticks s))) !! (k, j) =
         (if dl then delete (po_key po, po_lower po) (st_ticks s) else <[(po_key po, po_lower po) := l1]> (st_ticks s)) !! (k, j)).
      { destruct du; [rewrite lookup_delete_ne|rewrite lookup_insert_ne]; try done; intros [= <- <-]; apply N2; done. }
      rewrite U. destruct (decide (k = po_key po /\ j = po_lower po)) as [[-> ->]|N1].
      + left. split; [done|]. split; [done|]. destruct dl; [by rewrite lookup_delete|by rewrite lookup_insert].
      + right. right. split; [tauto|]. destruct dl; [rewrite lookup_delete_ne|rewrite lookup_insert_ne]; try done; intros [= <- <-]; apply N1; done. }
  constructor; cbn [st_positions st_pools st_config st_operators st_ticks st_poslen st_bitmap]; try done.
  - rewrite Ea, MP. done.
  - by rewrite MP.
  - fold T. intros k j t' H. destruct (TK k j) as [(-> & -> & E)|[(-> & -> & E)|(_ & E)]]; rewrite E in H.
    + destruct dl; [done|]. injection H as <-. eauto.
    + destruct du; [done|]. injection H as <-. eauto.
    + exists t'. split; [done|apply akin_refl].
  - unfold act. by apply removed_strip.
  - intros k c. by rewrite D2, D1.
  - fold T. intros k c n N. unfold bitmap_chunk. cbn [st_bitmap]. fold (default 0 (bm2 !! (k, c))). rewrite G2, G1 by done.
    split.
    + intros [[H N1] N2]. split; [done|]. intros (j & J1 & J2 & J3 & J4).
      destruct (TK k j) as [(-> & -> & E)|[(-> & -> & E)|(_ & E)]]; rewrite E in J2.
      * destruct dl; [|done]. by apply N1.
      * destruct du; [|done]. by apply N2.
      * rewrite J2 in J1. by destruct J1.
    + intros [H N0]. split; [split; [done|]|].
      * intros (-> & -> & J3 & J4). apply N0. exists (po_lower po). split; [eauto|]. split; [|done].
        destruct (TK (po_key po) (po_lower po)) as [(_ & _ & E)|[(_ & E' & E)|(X & _)]]; [done|lia|tauto].
      * intros (-> & -> & J3 & J4). apply N0. exists (po_upper po). split; [eauto|]. split; [|done].
        destruct (TK (po_key po) (po_upper po)) as [(_ & E' & E)|[(_ & _ & E)|(X & _)]]; [lia|done|tauto].
Qed.
Lemma took_of b e i s ix s' ms at' : ereach s -> takes b e i s ix = Ok (s', ms, at') -> exists po p, took b e i s ix s' ms at' po p.
Proof. destruct b; [apply took_leave|apply took_claim]. Qed.

(** * What the others find *)
Definition like (p q : pool) : Prop := p_tick q = p_tick p /\ p_price q = p_price p /\ p_fgx q = p_fgx p /\ p_fgy q = p_fgy p.
Lemma found_pool b e i s ix s' ms at' po p k q : took b e i s ix s' ms at' po p -> st_pools s' !! k = Some q ->
  exists q0, st_pools s !! k = Some q0 /\ like q0 q /\
    p_liq q = p_liq q0 + (if decide (k = po_key po) then if in_range_tick (po_lower po) (po_upper po) (p_tick q0) then taken b po else 0 else 0).
Proof.
  intros K H. rewrite (tk_pools _ _ _ _ _ _ _ _ _ _ K) in H. destruct (decide (k = po_key po)) as [->|N].
  - rewrite lookup_insert in H. injection H as <-. exists p. split; [apply K|]. split; [done|]. done.
  - rewrite lookup_insert_ne in H by done. exists q. split; [done|]. split; [done|]. lia.
Qed.
Lemma found b e i s ix s' ms at' po p x po' q0 q : took b e i s ix s' ms at' po p -> ereach s' -> st_positions s' !! x = Some po' ->
  like q0 q -> accrued_x s' q po' = accrued_x s q0 po' /\ accrued_y s' q po' = accrued_y s q0 po' /\ renew s' q po' = renew s q0 po' /\ stake q po' = stake q0 po'.
Proof.
  intros K R E (L1 & L2 & L3 & L4). destruct (bounds_of s' x po' R E) as (lt & ut & TL & TU & _ & _).
  destruct (tk_ticks _ _ _ _ _ _ _ _ _ _ K _ _ _ TL) as (lt0 & TL0 & AL). destruct (tk_ticks _ _ _ _ _ _ _ _ _ _ K _ _ _ TU) as (ut0 & TU0 & AU).
  apply akin_parts in AL as (A1 & _ & A2 & A3 & _). apply akin_parts in AU as (B1 & _ & B2 & B3 & _).
  unfold accrued_x, accrued_y, renew, inside_x, inside_y, stake, split_price. rewrite TL, TU, TL0, TU0, L1, L2, L3, L4, A1, A2, A3, B1, B2, B3. done.
Qed.
Definition takable (b : bool) (s : store) (a : string) (ix : Z) : Prop := if b then removable s a ix else claimable s a ix.
Lemma takes_iff b e i s ix : ereach s -> is_ok (takes b e i s ix) = true <-> takable b s (i_sender i) ix.
Proof. intros R. destruct b; [by apply remove_iff|by apply claim_iff]. Qed.
Lemma own_kept b e i s ix s' ms at' po p a j : took b e i s ix s' ms at' po p -> a <> i_sender i -> st_positions s' !! (a, j) = st_positions s !! (a, j).
Proof. intros K N. rewrite (tk_pos _ _ _ _ _ _ _ _ _ _ K). by apply act_other. Qed.
Lemma len_kept b e i s ix s' ms at' po p a : took b e i s ix s' ms at' po p -> a <> i_sender i -> plen s' a = plen s a.
Proof. intros K N. unfold plen, get_position_length. rewrite (tk_len _ _ _ _ _ _ _ _ _ _ K). destruct b; [by rewrite lookup_insert_ne by done|done]. Qed.

(** ticks are told by the positions and by their counters *)
Lemma ticks_told s s' : ereach s -> ereach s' -> st_positions s' = st_positions s ->
  (forall k j t t', st_ticks s !! (k, j) = Some t -> st_ticks s' !! (k, j) = Some t' -> exists b, akin b t /\ akin b t') ->
  forall k j, option_Forall2 same_tick (st_ticks s !! (k, j)) (st_ticks s' !! (k, j)).
Proof.
  intros R R' E A k j. pose proof (lq_tick _ (ereach_liq _ R) k j) as G. pose proof (lq_tick _ (ereach_liq _ R') k j) as G'. rewrite E in G'. specialize (A k j).
  destruct (st_ticks s !! (k, j)) as [t|], (st_ticks s' !! (k, j)) as [t'|]; cbn in G, G'.
  - constructor. destruct (A t t' eq_refl eq_refl) as (b & B & B'). destruct G as [G _], G' as [G' _].
    pose proof (tp_gross _ _ _ _ G) as X1. pose proof (tp_gross _ _ _ _ G') as X2. pose proof (tp_net _ _ _ _ G) as Y1. pose proof (tp_net _ _ _ _ G') as Y2.
    pose proof (tp_change _ _ _ _ G) as Z1. pose proof (tp_change _ _ _ _ G') as Z2. rewrite <- X1 in X2. rewrite <- Y1 in Y2. clear X1 Y1 G G'.
    assert (Q : t_change t' = t_change t /\ (t_sign t' = t_sign t \/ t_change t = 0)).
    { unfold net, pm in Y2. destruct (t_sign t), (t_sign t'); (split; [lia|]); try (by left); right; lia. }
    destruct Q as [Q1 Q2]. split; [|done]. rewrite B', Q1, X2. apply akin_parts in B as (-> & -> & -> & -> & ->). done.
  - destruct G as [G GG]. rewrite (tp_gross _ _ _ _ G) in GG. lia.
  - destruct G' as [G' GG]. rewrite (tp_gross _ _ _ _ G') in GG. lia.
  - constructor.
Qed.

(** * Two in a row *)
Lemma takes_exchange b1 b2 e i1 i2 s ix1 ix2 s1 m1 a1 s2 m2 a2 :
  ereach s -> ereach s1 -> ereach s2 -> i_sender i1 <> i_sender i2 ->
  (forall t m a, takes b2 e i2 s ix2 = Ok (t, m, a) -> ereach t /\ forall t' m' a', takes b1 e i1 t ix1 = Ok (t', m', a') -> ereach t') ->
  takes b1 e i1 s ix1 = Ok (s1, m1, a1) -> takes b2 e i2 s1 ix2 = Ok (s2, m2, a2) ->
  exists t1 t2, takes b2 e i2 s ix2 = Ok (t1, m2, a2) /\ takes b1 e i1 t1 ix1 = Ok (t2, m1, a1) /\ same_store s2 t2.
Proof.
  intros R R1 R2 NE RT C1 C2.
  assert (OK1 : takable b1 s (i_sender i1) ix1) by (apply (takes_iff b1 e i1 s ix1 R); by rewrite C1).
  assert (OK2 : takable b2 s1 (i_sender i2) ix2) by (apply (takes_iff b2 e i2 s1 ix2 R1); by rewrite C2).
  destruct (took_of _ _ _ _ _ _ _ _ R C1) as (po1 & p1 & K1). destruct (took_of _ _ _ _ _ _ _ _ R1 C2) as (po2 & q2 & K2).
  pose proof (tk_po _ _ _ _ _ _ _ _ _ _ K1) as E1. pose proof (tk_po _ _ _ _ _ _ _ _ _ _ K2) as E2'. pose proof E2' as E2. rewrite (own_kept _ _ _ _ _ _ _ _ _ _ _ _ K1) in E2 by done.
  pose proof (tk_p _ _ _ _ _ _ _ _ _ _ K1) as P1. pose proof (tk_p _ _ _ _ _ _ _ _ _ _ K2) as Q2.
  destruct (found_pool _ _ _ _ _ _ _ _ _ _ _ _ K1 Q2) as (p2 & P2 & LK2 & LQ2).
  destruct (found _ _ _ _ _ _ _ _ _ _ _ _ _ _ K1 R1 E2' LK2) as (X2 & Y2 & N2 & S2).
  assert (V1 : 0 <= po_liq po1) by (destruct (lq_pos _ (ereach_liq _ R) _ _ E1) as [(V & _) _]; lia).
  assert (V2 : 0 <= po_liq po2) by (destruct (lq_pos _ (ereach_liq _ R) _ _ E2) as [(V & _) _]; lia).
  assert (T1 : taken b1 po1 <= 0) by (unfold taken; destruct b1; lia).
  assert (OK : takable b2 s (i_sender i2) ix2).
  { destruct LK2 as (LT & _). destruct b2; cbn [takable] in *.
    - destruct OK2 as (po & q & A & B & C & D & F). rewrite E2' in A. injection A as <-. rewrite Q2 in B. injection B as <-.
      exists po2, p2. rewrite <- X2, <- Y2, <- S2. do 4 (split; [done|]). intros IR. rewrite <- LT in IR. specialize (F IR). rewrite LQ2 in F.
      destruct (decide _); [destruct (in_range_tick _ _ _)|]; lia.
    - destruct OK2 as (po & q & A & B & C & D). rewrite E2' in A. injection A as <-. rewrite Q2 in B. injection B as <-.
      exists po2, p2. rewrite <- X2, <- Y2. done. }
  apply (takes_iff b2 e i2 s ix2 R) in OK. apply is_ok_ex in OK as [[[t1 m2'] a2'] C2']. destruct (RT _ _ _ C2') as [RT1 RT2].
  destruct (took_of _ _ _ _ _ _ _ _ R C2') as (po2' & p2' & K2').
  assert (po2' = po2) as -> by (pose proof (tk_po _ _ _ _ _ _ _ _ _ _ K2') as A; congruence).
  assert (p2' = p2) as -> by (pose proof (tk_p _ _ _ _ _ _ _ _ _ _ K2') as A; congruence).
  assert (E1' : st_positions t1 !! (i_sender i1, ix1) = Some po1) by (rewrite (own_kept _ _ _ _ _ _ _ _ _ _ _ _ K2') by congruence; done).
  assert (Q1 : exists q1, st_pools t1 !! po_key po1 = Some q1).
  { rewrite (tk_pools _ _ _ _ _ _ _ _ _ _ K2'). destruct (decide (po_key po1 = po_key po2)) as [->|N]; [rewrite lookup_insert|rewrite lookup_insert_ne by congruence]; eauto. }
  destruct Q1 as [q1 Q1]. destruct (found_pool _ _ _ _ _ _ _ _ _ _ _ _ K2' Q1) as (p1' & P1' & LK1 & LQ1). rewrite P1 in P1'. injection P1' as <-.
  destruct (found _ _ _ _ _ _ _ _ _ _ _ _ _ _ K2' RT1 E1' LK1) as (X1 & Y1 & N1 & S1).
  assert (OK1' : takable b1 t1 (i_sender i1) ix1).
  { destruct LK1 as (LT & _). destruct b1; cbn [takable] in *.
    - destruct OK1 as (po & q & A & B & C & D & F). rewrite E1 in A. injection A as <-. rewrite P1 in B. injection B as <-.
      exists po1, q1. rewrite X1, Y1, S1. do 4 (split; [done|]). intros IR. rewrite LT in IR. specialize (F IR). rewrite LQ1.
      destruct (decide (po_key po1 = po_key po2)) as [KE|_]; [|lia]. destruct (in_range_tick (po_lower po2) (po_upper po2) (p_tick p1)) eqn:IR2; [|lia].
      destruct b2; cbn [taken takable] in *; [|lia]. destruct OK2 as (po & q & A & B & _ & _ & F2). rewrite E2' in A. injection A as <-. rewrite Q2 in B. injection B as <-.
      assert (p2 = p1) as -> by congruence. unfold in_range_tick in IR2. apply andb_prop in IR2 as [I1 I2]. apply Z.leb_le in I1. apply Z.ltb_lt in I2.
      destruct LK2 as (LT2 & _). rewrite LT2 in F2. specialize (F2 ltac:(lia)). rewrite LQ2, decide_True in F2 by done.
      unfold in_range_tick in F2. rewrite (proj2 (Z.leb_le (po_lower po1) _)), (proj2 (Z.ltb_lt _ (po_upper po1))) in F2 by lia. cbn [andb taken] in F2. lia.
    - destruct OK1 as (po & q & A & B & C & D). rewrite E1 in A. injection A as <-. rewrite P1 in B. injection B as <-.
      exists po1, q1. rewrite X1, Y1. done. }
  apply (takes_iff b1 e i1 t1 ix1 RT1) in OK1'. apply is_ok_ex in OK1' as [[[t2 m1'] a1'] C1']. pose proof (RT2 _ _ _ C1') as RTT.
  destruct (took_of _ _ _ _ _ _ _ _ RT1 C1') as (po1' & q1' & K1').
  assert (po1' = po1) as -> by (pose proof (tk_po _ _ _ _ _ _ _ _ _ _ K1') as A; congruence).
  assert (q1' = q1) as -> by (pose proof (tk_p _ _ _ _ _ _ _ _ _ _ K1') as A; congruence).
  exists t1, t2.
  assert (M2 : m2' = m2) by (rewrite (tk_ms _ _ _ _ _ _ _ _ _ _ K2'), (tk_ms _ _ _ _ _ _ _ _ _ _ K2); unfold pays; by rewrite X2, Y2, S2).
  assert (A2 : a2' = a2) by (rewrite (tk_at _ _ _ _ _ _ _ _ _ _ K2'), (tk_at _ _ _ _ _ _ _ _ _ _ K2); unfold tells; destruct LK2 as (_ & -> & _); by rewrite X2, Y2).
  assert (M1 : m1' = m1) by (rewrite (tk_ms _ _ _ _ _ _ _ _ _ _ K1'), (tk_ms _ _ _ _ _ _ _ _ _ _ K1); unfold pays; by rewrite X1, Y1, S1).
  assert (A1 : a1' = a1) by (rewrite (tk_at _ _ _ _ _ _ _ _ _ _ K1'), (tk_at _ _ _ _ _ _ _ _ _ _ K1); unfold tells; destruct LK1 as (_ & -> & _); by rewrite X1, Y1).
  subst m2' a2' m1' a1'. split; [done|]. split; [done|].
  assert (EP : st_positions t2 = st_positions s2).
  { rewrite (tk_pos _ _ _ _ _ _ _ _ _ _ K1'), (tk_pos _ _ _ _ _ _ _ _ _ _ K2'), (tk_pos _ _ _ _ _ _ _ _ _ _ K2), (tk_pos _ _ _ _ _ _ _ _ _ _ K1).
    rewrite N1, N2, (len_kept _ _ _ _ _ _ _ _ _ _ (i_sender i1) K2') by congruence. rewrite (len_kept _ _ _ _ _ _ _ _ _ _ (i_sender i2) K1) by congruence.
    symmetry. by apply acts_commute. }
  assert (ETK : forall k j, option_Forall2 same_tick (st_ticks s2 !! (k, j)) (st_ticks t2 !! (k, j))).
  { apply ticks_told; [done|done|done|]. intros k j t t' H H'.
    destruct (tk_ticks _ _ _ _ _ _ _ _ _ _ K2 _ _ _ H) as (u & HU & AU). destruct (tk_ticks _ _ _ _ _ _ _ _ _ _ K1 _ _ _ HU) as (b & HB & AB).
    destruct (tk_ticks _ _ _ _ _ _ _ _ _ _ K1' _ _ _ H') as (u' & HU' & AU'). destruct (tk_ticks _ _ _ _ _ _ _ _ _ _ K2' _ _ _ HU') as (b' & HB' & AB').
    rewrite HB in HB'. injection HB' as <-. exists b. unfold akin in *. rewrite AU, AB, AU', AB'. done. }
  split; [destruct (tk_rest _ _ _ _ _ _ _ _ _ _ K1') as [-> _], (tk_rest _ _ _ _ _ _ _ _ _ _ K2') as [-> _], (tk_rest _ _ _ _ _ _ _ _ _ _ K2) as [-> _], (tk_rest _ _ _ _ _ _ _ _ _ _ K1) as [-> _]; done|].
  split. { rewrite (tk_pools _ _ _ _ _ _ _ _ _ _ K1'), (tk_pools _ _ _ _ _ _ _ _ _ _ K2'), (tk_pools _ _ _ _ _ _ _ _ _ _ K2), (tk_pools _ _ _ _ _ _ _ _ _ _ K1).
    rewrite (tk_pools _ _ _ _ _ _ _ _ _ _ K2') in Q1. rewrite (tk_pools _ _ _ _ _ _ _ _ _ _ K1) in Q2. clear - P1 P2 Q1 Q2.
    destruct (decide (po_key po1 = po_key po2)) as [KE|KE].
    - rewrite KE, lookup_insert in Q1. rewrite <- KE, lookup_insert in Q2. injection Q1 as <-. injection Q2 as <-. rewrite KE in *. rewrite !insert_insert. f_equal.
      assert (p2 = p1) as -> by congruence. unfold mark_pool. destruct p1; cbn. f_equal. lia.
    - rewrite lookup_insert_ne in Q1 by congruence. rewrite lookup_insert_ne in Q2 by congruence. assert (q1 = p1) as -> by congruence. assert (q2 = p2) as -> by congruence.
      by rewrite insert_commute by congruence. }
  split. { apply map_eq. intros [k c].
    assert (D : is_Some (st_bitmap t2 !! (k, c)) <-> is_Some (st_bitmap s2 !! (k, c))).
    { by rewrite (tk_chunks _ _ _ _ _ _ _ _ _ _ K1'), (tk_chunks _ _ _ _ _ _ _ _ _ _ K2'), (tk_chunks _ _ _ _ _ _ _ _ _ _ K2), (tk_chunks _ _ _ _ _ _ _ _ _ _ K1). }
    assert (B : bitmap_chunk t2 k c = bitmap_chunk s2 k c).
    { assert (Q : forall n, 0 <= n -> Z.testbit (bitmap_chunk t2 k c) n = true <-> Z.testbit (bitmap_chunk s2 k c) n = true).
      { intros n N0.
        assert (G : forall b e i s ix s' ms at' po p b' i' ix' s'' ms' at'' po' p', took b e i s ix s' ms at' po p -> took b' e i' s' ix' s'' ms' at'' po' p' ->
          Z.testbit (bitmap_chunk s'' k c) n = true <-> Z.testbit (bitmap_chunk s k c) n = true /\
          ~ exists j, is_Some (st_ticks s !! (k, j)) /\ st_ticks s'' !! (k, j) = None /\ bit_index (spacing k) j / 64 = c /\ bit_index (spacing k) j mod 64 = n).
        { clear - N0. intros b e i s ix s' ms at' po p b' i' ix' s'' ms' at'' po' p' K K'.
          rewrite (tk_bits _ _ _ _ _ _ _ _ _ _ K') by done. rewrite (tk_bits _ _ _ _ _ _ _ _ _ _ K) by done. split.
          - intros [[H A] B]. split; [done|]. intros (j & J1 & J2 & J3). destruct (st_ticks s' !! (k, j)) as [t|] eqn:T; [apply B|apply A]; exists j; rewrite ?T; eauto.
          - intros [H A]. split; [split; [done|]|]; intros (j & J1 & J2 & J3); apply A; exists j.
            + split; [done|]. split; [|done]. destruct (st_ticks s'' !! (k, j)) as [t|] eqn:T; [|done].
              destruct (tk_ticks _ _ _ _ _ _ _ _ _ _ K' _ _ _ T) as (u & U & _). congruence.
            + split; [|done]. destruct J1 as [t T]. destruct (tk_ticks _ _ _ _ _ _ _ _ _ _ K _ _ _ T) as (u & U & _). eauto. }
        rewrite (G _ _ _ _ _ _ _ _ _ _ _ _ _ _ _ _ _ _ K2' K1'), (G _ _ _ _ _ _ _ _ _ _ _ _ _ _ _ _ _ _ K1 K2).
        assert (W : forall j, st_ticks t2 !! (k, j) = None <-> st_ticks s2 !! (k, j) = None) by (intros j; destruct (ETK k j); done).
        setoid_rewrite W. done. }
      apply Z.bits_inj'. intros n N0. specialize (Q n N0). destruct (Z.testbit _ n), (Z.testbit _ n); tauto || (symmetry; tauto) || intuition congruence. }
    unfold bitmap_chunk in B. destruct (st_bitmap t2 !! (k, c)) as [v|], (st_bitmap s2 !! (k, c)) as [v'|]; cbn in B; [by rewrite B| | |done].
    - destruct D as [D _]. destruct (D ltac:(by exists v)) as [? X]. discriminate X.
    - destruct D as [_ D]. destruct (D ltac:(by exists v')) as [? X]. discriminate X. }
  split; [done|].
  split. { rewrite (tk_len _ _ _ _ _ _ _ _ _ _ K1'), (tk_len _ _ _ _ _ _ _ _ _ _ K2'), (tk_len _ _ _ _ _ _ _ _ _ _ K2), (tk_len _ _ _ _ _ _ _ _ _ _ K1).
    rewrite (len_kept _ _ _ _ _ _ _ _ _ _ (i_sender i1) K2') by congruence. rewrite (len_kept _ _ _ _ _ _ _ _ _ _ (i_sender i2) K1) by congruence.
    destruct b1, b2; try done. by apply insert_commute. }
  split; [destruct (tk_rest _ _ _ _ _ _ _ _ _ _ K1') as [_ ->], (tk_rest _ _ _ _ _ _ _ _ _ _ K2') as [_ ->], (tk_rest _ _ _ _ _ _ _ _ _ _ K2) as [_ ->], (tk_rest _ _ _ _ _ _ _ _ _ _ K1) as [_ ->]; done|].
  exact ETK.
Qed.

(** * Any number in any order *)
(** a withdrawal or a claim of fees *)
Definition collects (m : exec_msg) : Prop := exists ix, m = RemovePosition ix \/ m = ClaimFee ix.
(** the sign of a zero is not noticed by any later calls *)
Lemma play_same zs : forall s t, reachable s -> same_store s t -> fst (play zs t) = fst (play zs s).
Proof.
  induction zs as [|[[e i] m] zs IH]; intros s t R S; cbn [play]; [done|]. pose proof (C101_invisible e i s t m R S) as Q.
  destruct (execute e i s m) as [[[s' ms] at']|x|] eqn:E, (execute e i t m) as [[[t' ms'] at'']|y|]; try done.
  - destruct Q as (-> & -> & S'). specialize (IH s' t' (reach_call _ _ _ _ _ _ _ R E) S'). destruct (play zs s'), (play zs t'). cbn in *. by rewrite IH.
  - subst y. specialize (IH s t R S). destruct (play zs s), (play zs t). cbn in *. by rewrite IH.
  - specialize (IH s t R S). destruct (play zs s), (play zs t). cbn in *. by rewrite IH.
Qed.
Lemma collects_execute m : collects m -> exists b ix, forall e i s r, execute e i s m = Ok r <-> env_typed e i && msg_typed m = true /\ takes b e i s ix = Ok r.
Proof.
  intros [ix [-> | ->]]; [exists true, ix|exists false, ix]; intros e i s r; unfold execute; destruct (env_typed e i && _) eqn:T; cbn [dispatch takes];
    (split; [intros H|intros [A H]]); done.
Qed.

(** the second of two could have come first: it gets as much, and so does the first *)
Theorem C104_two e i1 i2 s c1 c2 s1 m1 a1 s2 m2 a2 : reachable s -> i_sender i1 <> i_sender i2 -> collects c1 -> collects c2 ->
  execute e i1 s c1 = Ok (s1, m1, a1) -> execute e i2 s1 c2 = Ok (s2, m2, a2) ->
  exists t1 t2, execute e i2 s c2 = Ok (t1, m2, a2) /\ execute e i1 t1 c1 = Ok (t2, m1, a1) /\ same_store s2 t2 /\
    forall zs, fst (play zs t2) = fst (play zs s2).
Proof.
  intros R NE W1 W2 E1 E2. pose proof (reach_call _ _ _ _ _ _ _ R E1) as R1. pose proof (reach_call _ _ _ _ _ _ _ R1 E2) as R2.
  destruct (collects_execute _ W1) as (b1 & ix1 & X1). destruct (collects_execute _ W2) as (b2 & ix2 & X2).
  apply X1 in E1 as [T1 C1]. apply X2 in E2 as [T2 C2].
  destruct (takes_exchange b1 b2 e i1 i2 s ix1 ix2 s1 m1 a1 s2 m2 a2 (reachable_ereach _ R) (reachable_ereach _ R1) (reachable_ereach _ R2) NE) as (t1 & t2 & F2 & F1 & S); [|done|done|].
  - intros t m a H. assert (E : execute e i2 s c2 = Ok (t, m, a)) by (by apply X2). pose proof (reach_call _ _ _ _ _ _ _ R E) as RT.
    split; [by apply reachable_ereach|]. intros t' m' a' H'. assert (E' : execute e i1 t c1 = Ok (t', m', a')) by (by apply X1).
    apply reachable_ereach. exact (reach_call _ _ _ _ _ _ _ RT E').
  - exists t1, t2. split; [by apply X2|]. split; [by apply X1|]. split; [done|]. intros zs. by apply play_same.
Qed.
Definition is_collection (x : msg_info * exec_msg * list out_msg * list (string * Z)) : Prop := collects (snd (fst (fst x))).
Lemma turns_reach e xs s s' : reachable s -> turns e s xs s' -> reachable s'.
Proof.
  intros R H. induction H as [|s i m ms at' s1 xs s' E H IH]; [done|]. apply IH. exact (reach_call _ _ _ _ _ _ _ R E).
Qed.
Lemma order_same e xs ys : Permutation xs ys -> forall s s', reachable s ->
  Forall is_collection xs -> NoDup (who <$> xs) -> turns e s xs s' -> exists t', turns e s ys t' /\ same_store s' t'.
Proof.
  induction 1 as [|x xs ys P IH|x y xs|xs ys zs P1 IH1 P2 IH2]; intros s s' R D N H.
  - exists s'. split; [done|apply same_store_refl].
  - apply Forall_cons in D as [DX D]. rewrite fmap_cons in N. apply NoDup_cons in N as [_ N]. inversion H; subst. cbn in DX.
    match goal with X : execute _ _ _ _ = _ |- _ => rename X into E end.
    destruct (IH s1 s' (reach_call _ _ _ _ _ _ _ R E)) as (t' & T & S); [done|done|done|]. exists t'. split; [by econstructor|done].
  - apply Forall_cons in D as [D1 D]. apply Forall_cons in D as [D2 D].
    rewrite !fmap_cons in N. apply NoDup_cons in N as [N _]. inversion H; subst.
    match goal with X : turns _ _ (_ :: _) _ |- _ => inversion X; subst end.
    match goal with A : execute e i s m = _, B : execute e _ s1 _ = _ |- _ => rename A into E1; rename B into E2 end. unfold is_collection in D1, D2. cbn in D1, D2.
    assert (NE : i_sender i <> i_sender i0) by (intros Q; apply N; rewrite elem_of_cons; left; done).
    destruct (C104_two _ _ _ _ _ _ _ _ _ _ _ _ R NE D1 D2 E1 E2) as (t1 & t2 & F2 & F1 & S & _).
    pose proof (reach_call _ _ _ _ _ _ _ R E1) as R1. pose proof (reach_call _ _ _ _ _ _ _ R1 E2) as R2.
    match goal with X : turns _ _ xs s' |- _ => destruct (turns_same e xs _ t2 s' R2 S X) as (t' & T & S') end.
    exists t'. split; [|done]. econstructor; [exact F2|]. econstructor; [exact F1|done].
  - destruct (IH1 s s' R D N H) as (t1 & T1 & S1). destruct (IH2 s t1 R) as (t2 & T2 & S2); [by rewrite <- P1| |done|].
    + assert (PF : Permutation (who <$> xs) (who <$> ys)) by (by apply fmap_Permutation). by rewrite <- PF.
    + exists t2. split; [done|]. by eapply same_store_trans.
Qed.
(** Withdrawals and claims made in one block by different people: in every order all of them succeed, everyone is paid the same and told the same, and
    whatever is called afterwards is answered alike. *)
Theorem C104_order e xs ys s s' : Permutation xs ys -> reachable s ->
  Forall is_collection xs -> NoDup (who <$> xs) -> turns e s xs s' ->
  exists t', turns e s ys t' /\ forall zs, fst (play zs t') = fst (play zs s').
Proof.
  intros P R D N H. destruct (order_same e xs ys P s s' R D N H) as (t' & T & S). exists t'. split; [done|]. intros zs. apply play_same; [|done]. by eapply turns_reach.
Qed.

(** * Examples *)
(** After two trades alice takes out what she has between ticks -10 and 10, and bob what he has between 10 and 20; whoever is last removes tick 10. *)
Definition lv_start : res (store * list out_msg * list (string * Z)) :=
  let* '(s, _, _) := execute v_env (v_info "carol") sc0 (Swap v_key false 14000 true MAX_SQRT_PRICE) in
  execute v_env (v_info "carol") s (Swap v_key true 2000 true MIN_SQRT_PRICE).
Definition lv_run : Prop :=
  match lv_start with
  | Ok (s, _, _) =>
      match execute v_env (v_info "alice") s (RemovePosition 0), execute v_env (v_info "bob") s (RemovePosition 0) with
      | Ok (s1, m1, a1), Ok (t1, n1, b1) =>
          match execute v_env (v_info "bob") s1 (RemovePosition 0), execute v_env (v_info "alice") t1 (RemovePosition 0) with
          | Ok (s2, m2, a2), Ok (t2, n2, b2) =>
              m1 = [Cw20Transfer "tokenx" "alice" 2868; Cw20Transfer "tokeny" "alice" 17222] /\ n2 = m1 /\
              m2 = [Cw20Transfer "tokenx" "bob" 349] /\ n1 = m2 /\ is_ok (get_tick s1 v_key 10) = true /\ is_ok (get_tick t1 v_key 10) = true /\
              is_ok (get_tick s2 v_key 10) = false /\ is_ok (get_tick t2 v_key 10) = false
          | _, _ => False
          end
      | _, _ => False
      end
  | _ => False
  end%string.
Example ex_C104 : lv_run.
Proof. vm_compute. repeat split. Qed.

(** one person's calls are another matter: positions are numbered, and a withdrawal renumbers them *)
Theorem C104_own_refuted : exists e i s c1 c2 s1 m1 a1 s2 m2 a2 t1 n1 b1, reachable s /\ collects c1 /\ collects c2 /\
  execute e i s c1 = Ok (s1, m1, a1) /\ execute e i s1 c2 = Ok (s2, m2, a2) /\
  execute e i s c2 = Ok (t1, n1, b1) /\ is_ok (execute e i t1 c1) = false.
Proof.
  assert (X : match execute v_env (v_info "alice") sc0 (RemovePosition 1), execute v_env (v_info "alice") sc0 (RemovePosition 0) with
              | Ok (s1, _, _), Ok (t1, _, _) => is_ok (execute v_env (v_info "alice") s1 (RemovePosition 0)) = true /\ is_ok (execute v_env (v_info "alice") t1 (RemovePosition 1)) = false
              | _, _ => False end) by (vm_compute; split; reflexivity).
  destruct (execute v_env (v_info "alice") sc0 (RemovePosition 1)) as [[[s1 m1] a1]| |] eqn:E1; [|destruct X|destruct X].
  destruct (execute v_env (v_info "alice") sc0 (RemovePosition 0)) as [[[t1 n1] b1]| |] eqn:F1; [|destruct X|destruct X].
  destruct X as [X Y]. apply is_ok_ex in X as [[[s2 m2] a2] E2].
  exists v_env, (v_info "alice"), sc0, (RemovePosition 1), (RemovePosition 0), s1, m1, a1, s2, m2, a2, t1, n1, b1.
  split; [exact sc0_reachable|]. split; [exists 1; left; reflexivity|]. split; [exists 0; left; reflexivity|].
  split; [exact E1|]. split; [exact E2|]. split; [exact F1|exact Y].
Qed.
