(** What a pool owes its positions and the protocol, and how one iteration of the swap loop changes it. *)
From Verif Require Import Base Decimal SqrtPrice Clamm FeeGrowth Types Tick Pool Position State Swap Exec Tactics
  PriceProofs ClammProofs PropClamm BitmapProofs Frame Handlers History Basic SwapInv SwapGeo SwapLoop Modify PSum LiqInv Geo Ops Clean
  Growth Value.
From stdpp Require Import gmap strings.
From Coq Require Import Lia.
Open Scope Z_scope.

Definition E48 : Z := 10 ^ 48.
Definition E34 : Z := 10 ^ 34.
Definition vals (b : bool) (m : posmap) (k : pool_key) (pr : Z) : Z := psum (fun po => at_key k po (val b pr po)) m.
Definition pends (b : bool) (m : posmap) (k : pool_key) (T : tickmap) (c G : Z) : Z := psum (fun po => at_key k po (pend b T c G po)) m.
Definition oweds (b : bool) (m : posmap) (k : pool_key) : Z := psum (fun po => at_key k po (owed b po)) m.

(** every position of the pool has its two ticks *)
Definition bounded (m : posmap) (T : tickmap) (k : pool_key) : Prop := forall x po, m !! x = Some po -> po_key po = k ->
  po_lower po < po_upper po /\ 0 < po_liq po /\
  exists l u, T !! (k, po_lower po) = Some l /\ t_index l = po_lower po /\ T !! (k, po_upper po) = Some u /\ t_index u = po_upper po.

Lemma from_fee_inv L a g : 0 < L -> from_fee L a = Ok g -> 0 <= g /\ g * L <= a * E34.
Proof.
  unfold from_fee. intros HL H. inv_bind H as m1 E1. apply ck_ok in E1. destruct E1 as [-> E1]. inv_bind H as m2 E2. apply ck_ok in E2. destruct E2 as [-> E2].
  inv_bind H as q E3. apply cdiv_ok in E3. destruct E3 as [_ ->]. apply ck_ok in H. destruct H as [-> H]. split; [lia|].
  pose proof (floor_spec (a * FG_ONE * LIQ_ONE) L HL) as [F _]. change E34 with (FG_ONE * LIQ_ONE). lia.
Qed.

Lemma pends_fee b m T k c G g : bounded m T k -> 0 <= g ->
  pends b m k T c (wadd G g) <= pends b m k T c G + g * psum (active_at k c) m.
Proof.
  intros B Hg. rewrite <- psum_scale. unfold pends. rewrite <- psum_add. apply psum_le. intros x po E.
  unfold active_at, at_key. destruct (decide (po_key po = k)) as [K|]; [|lia].
  destruct (B x po E K) as (O & L0 & l & u & El & Il & Eu & Iu). unfold pend. rewrite K, El, Eu.
  pose proof (grow_fee b c G g l u po Hg ltac:(lia)) as F. rewrite Il, Iu in F. destruct (in_range_tick _ _ _); nia.
Qed.

Lemma add_fee_fund b m T k p a d f p' : bounded m T k -> p_liq p = psum (active_at k (p_tick p)) m -> 0 <= a ->
  add_fee p a d f = Ok p' ->
  E48 * pends b m k T (p_tick p) (fg b p') + UNIT * prot b p'
  <= E48 * pends b m k T (p_tick p) (fg b p) + UNIT * prot b p + (if Bool.eqb b d then UNIT * a else 0).
Proof.
  intros B A Ha H. apply add_fee_inv in H. destruct H as (pr & q & EP & -> & Q & [[-> _]|(g & L0 & EG & H)]).
  - assert (0 <= UNIT * a) by (apply Z.mul_nonneg_nonneg; [discriminate|done]). destruct (Bool.eqb b d); lia.
  - assert (L1 : 0 < p_liq p).
    { assert (0 <= psum (active_at k (p_tick p)) m); [|lia]. apply psum_nonneg. intros x po E. unfold active_at, at_key.
      destruct (decide _) as [K|]; [|lia]. destruct (B x po E K) as (_ & ? & _). destruct (in_range_tick _ _ _); lia. }
    apply from_fee_inv in EG; [|done]. destruct EG as [G0 G1]. rewrite A in G1.
    pose proof (pends_fee b m T k (p_tick p) (fg b p) g B G0) as PF.
    assert (M : E48 * pends b m k T (p_tick p) (wadd (fg b p) g) <= E48 * pends b m k T (p_tick p) (fg b p) + UNIT * (a - pr)).
    { assert (E48 * pends b m k T (p_tick p) (wadd (fg b p) g) <= E48 * (pends b m k T (p_tick p) (fg b p) + g * psum (active_at k (p_tick p)) m))
        by (apply Z.mul_le_mono_nonneg_l; [discriminate|exact PF]).
      assert (E48 * (g * psum (active_at k (p_tick p)) m) <= E48 * ((a - pr) * E34)) by (apply Z.mul_le_mono_nonneg_l; [discriminate|exact G1]).
      change UNIT with (E48 * E34). lia. }
    clear PF G1. destruct d; destruct H as [_ ->]; destruct b; cbn [Bool.eqb fg prot p_set_feesx p_set_feesy p_tick p_fgx p_fgy p_protx p_proty] in *; lia.
Qed.

Lemma pend_ext b T c G po T' c' G' : po_lower po < po_upper po ->
  (forall l u, T !! (po_key po, po_lower po) = Some l -> T !! (po_key po, po_upper po) = Some u ->
     exists l' u', T' !! (po_key po, po_lower po) = Some l' /\ T' !! (po_key po, po_upper po) = Some u' /\
       grow b c' G' l' u' po = grow b c G l u po) ->
  is_Some (T !! (po_key po, po_lower po)) -> is_Some (T !! (po_key po, po_upper po)) ->
  pend b T' c' G' po = pend b T c G po.
Proof.
  intros O H [l El] [u Eu]. destruct (H l u El Eu) as (l' & u' & El' & Eu' & Q). unfold pend. by rewrite El, Eu, El', Eu', Q.
Qed.
Lemma pends_move b m T k c c' G : bounded m T k ->
  (forall x po j, m !! x = Some po -> po_key po = k -> j = po_lower po \/ j = po_upper po -> (j <= c <-> j <= c')) ->
  pends b m k T c' G = pends b m k T c G.
Proof.
  intros B H. apply psum_ext. intros x po E. unfold at_key. destruct (decide (po_key po = k)) as [K|]; [|done].
  destruct (B x po E K) as (O & L0 & l & u & El & Il & Eu & Iu). unfold pend. rewrite K, El, Eu. f_equal.
  apply grow_move; rewrite ?Il, ?Iu; apply (H x po); auto.
Qed.
Lemma pends_cross b m T k c c' G t tk t' : bounded m T k -> T !! (k, t) = Some tk -> t_index tk = t -> t_index t' = t ->
  fo b t' = wsub G (fo b tk) -> (t <= c <-> c' < t) ->
  (forall x po j, m !! x = Some po -> po_key po = k -> j = po_lower po \/ j = po_upper po -> j <> t -> (j <= c <-> j <= c')) ->
  pends b m k (<[(k, t) := t']> T) c' G = pends b m k T c G.
Proof.
  intros B ET IT IT' F M H. apply psum_ext. intros x po E. unfold at_key. destruct (decide (po_key po = k)) as [K|]; [|done].
  destruct (B x po E K) as (O & L0 & l & u & El & Il & Eu & Iu).
  assert (X : forall j a, (j = po_lower po \/ j = po_upper po) -> T !! (k, j) = Some a -> t_index a = j ->
     exists a', <[(k, t) := t']> T !! (k, j) = Some a' /\ exists q, below b c' G a' = below b c G a + q * U128).
  { intros j a J Ea Ia. destruct (decide (j = t)) as [->|N].
    - assert (a = tk) as -> by congruence. rewrite lookup_insert. eexists; split; [done|]. apply below_cross; [congruence|done|lia].
    - rewrite lookup_insert_ne by congruence. exists a. split; [done|]. exists 0. rewrite below_move with (c := c); [lia|]. rewrite Ia. by apply (H x po). }
  destruct (X _ l (or_introl eq_refl) El Il) as (l' & El' & q1 & Q1). destruct (X _ u (or_intror eq_refl) Eu Iu) as (u' & Eu' & q2 & Q2).
  unfold pend. rewrite K, El, Eu, El', Eu'. f_equal. apply (grow_cong _ _ _ _ _ _ _ _ _ _ (q2 - q1)). lia.
Qed.
Lemma bounded_insert m T k t t' : bounded m T k -> t_index t' = t -> bounded m (<[(k, t) := t']> T) k.
Proof.
  intros B I x po E K. destruct (B x po E K) as (O & L0 & l & u & El & Il & Eu & Iu). split; [done|]. split; [done|].
  destruct (decide (po_lower po = t)) as [A|A], (decide (po_upper po = t)) as [A'|A'].
  - exists t', t'. rewrite A, A', lookup_insert. done.
  - exists t', u. rewrite A, lookup_insert. rewrite lookup_insert_ne by congruence. done.
  - exists l, t'. rewrite A', lookup_insert. rewrite lookup_insert_ne by congruence. done.
  - exists l, u. rewrite !lookup_insert_ne by congruence. done.
Qed.
Lemma store_bounded s k : liq_inv s -> bounded (st_positions s) (st_ticks s) k.
Proof.
  intros I x po E <-. destruct (lq_pos _ I _ _ E) as [(V1 & _ & _ & V4) _]. split; [done|]. split; [lia|].
  destruct (bound_tick s x po _ I E (or_introl eq_refl)) as [l El]. destruct (bound_tick s x po _ I E (or_intror eq_refl)) as [u Eu].
  exists l, u. pose proof (lq_tick _ I (po_key po) (po_lower po)) as TL. rewrite El in TL. destruct TL as [TL _].
  pose proof (lq_tick _ I (po_key po) (po_upper po)) as TU. rewrite Eu in TU. destruct TU as [TU _]. split; [done|]. split; [apply TL|]. split; [done|apply TU].
Qed.

(** ** One iteration *)
Definition tmap (s : store) (k : pool_key) (l : list tick) : tickmap := foldl (fun m t => <[(k, t_index t) := t]> m) (st_ticks s) l.
Lemma tmap_snoc s k l t : tmap s k (l ++ [t]) = <[(k, t_index t) := t]> (tmap s k l).
Proof. unfold tmap. by rewrite foldl_app. Qed.
Lemma tmap_bounded s k l : liq_inv s -> bounded (st_positions s) (tmap s k l) k.
Proof.
  intros I. induction l as [|t l IH] using rev_ind; [by apply store_bounded|]. rewrite tmap_snoc. by apply bounded_insert.
Qed.
Lemma tmap_fresh s k l t : t ∉ map t_index l -> tmap s k l !! (k, t) = st_ticks s !! (k, t).
Proof.
  induction l as [|a l IH] using rev_ind; [done|]. rewrite map_app, not_elem_of_app. intros [N1 N2]. rewrite tmap_snoc.
  rewrite lookup_insert_ne; [by apply IH|]. cbn in N2. rewrite elem_of_list_singleton in N2. congruence.
Qed.

(** no initialized tick strictly between the two prices of a good iteration *)
Lemma good_sided s k d lim w w1 j : store_geo s k -> loop_inv k d lim w -> loop_inv k d lim w1 -> good_step s k d w w1 ->
  (forall t, is_init s k (spacing k) t -> sw_ticks w1 <> sw_ticks w -> p_tick (sw_pool w1) = (if d then t - spacing k else t) ->
     p_price (sw_pool w1) = tprice t) ->
  is_init s k (spacing k) j ->
  sided (p_tick (sw_pool w)) (p_price (sw_pool w)) (p_price (sw_pool w1)) j.
Proof.
  intros G I I1 [M] HP J. destruct (sg_sp _ _ G) as [S1 _]. pose proof (is_init_legal _ _ _ _ S1 J) as LJ.
  pose proof (lv_weak _ _ _ _ I) as (A1 & A2 & A3). pose proof (lv_weak _ _ _ _ I1) as (B1 & B2 & B3). cbn in M.
  assert (LE : forall c p, weak (spacing k) c p -> j <= c -> tprice j <= p).
  { intros c p (W1 & W2 & W3) X. pose proof (legal_price_le _ _ _ LJ W1 X). lia. }
  assert (GT : forall c p, weak (spacing k) c p -> c < j -> p <= tprice j).
  { intros c p (W1 & W2 & W3) X. pose proof (legal_gap _ _ _ S1 W1 LJ X). pose proof (legal_top _ _ S1 LJ). specialize (W3 ltac:(lia)).
    pose proof (legal_price_le _ _ _ (legal_next _ _ S1 W1 ltac:(lia)) LJ ltac:(lia)). lia. }
  pose proof (lv_weak _ _ _ _ I) as W. pose proof (lv_weak _ _ _ _ I1) as W1.
  destruct M as [(_ & _ & X)|(t & tk & t' & TI & TK & SQ & TE & M)].
  - specialize (X j J). split; intros C; (split; [eauto|]); [eapply LE|eapply GT]; try exact W1; lia.
  - pose proof (is_init_legal _ _ _ _ S1 TI) as LT.
    assert (P : p_price (sw_pool w1) = tprice t).
    { apply HP; [done| |destruct d; tauto]. rewrite TE. intros Q. apply (f_equal length) in Q. rewrite app_length in Q. cbn in Q. lia. }
    rewrite P. destruct d; destruct M as (_ & M1 & M2 & _).
    + split; intros C; (split; [eauto|]).
      * apply (legal_price_le _ _ _ LJ LT). destruct (Z.le_gt_cases j t); [done|]. exfalso. apply (M2 j); [lia|done].
      * apply (legal_price_le _ _ _ LT LJ). lia.
    + split; intros C; (split; [eauto|]).
      * apply (legal_price_le _ _ _ LJ LT). lia.
      * apply (legal_price_le _ _ _ LT LJ). destruct (Z.le_gt_cases t j); [done|]. exfalso. apply (M2 j); [lia|done].
Qed.

Lemma step_nonneg cur target L amount by_in fee r : step_args cur target L amount fee ->
  compute_swap_step cur target L amount by_in fee = Ok r -> 0 <= sr_next r -> 0 <= sr_in r /\ 0 <= sr_fee r /\ 0 <= sr_out r.
Proof.
  intros (C1 & C2 & C3 & C4 & C5) ST N. destruct (Z.eq_dec L 0) as [->|L0].
  { unfold compute_swap_step in ST. cbn in ST. apply Ok_inj in ST. subst r. cbn. lia. }
  apply step_inv in ST; [|done]. destruct ST. destruct sf_out as (o & O1 & O2).
  apply delta_in_range in sf_in; [|lia|done]. apply delta_out_range in O1; [|lia|done].
  split; [lia|]. split; [|rewrite O2; destruct by_in; lia].
  destruct sf_fee as [(_ & _ & _ & F)|[_ F]]; [lia|]. unfold big_mul_up in F. apply ckp_ok in F. lia.
Qed.

(** what one iteration does to values and fees *)
Record iter_fund (s : store) (k : pool_key) (d : bool) (w w1 : swap_state) (I F : Z) : Prop := {
  if_in : sw_in w1 - sw_in w = I + F;
  if_nonneg : 0 <= I /\ 0 <= F /\ 0 <= sw_out w1 - sw_out w;
  if_val : forall b, vals b (st_positions s) k (p_price (sw_pool w1))
      <= vals b (st_positions s) k (p_price (sw_pool w)) + UNIT * flow b d I (sw_out w1 - sw_out w) + loss b;
  if_fee : forall b,
      E48 * pends b (st_positions s) k (tmap s k (sw_ticks w1)) (p_tick (sw_pool w1)) (fg b (sw_pool w1)) + UNIT * prot b (sw_pool w1)
      <= E48 * pends b (st_positions s) k (tmap s k (sw_ticks w)) (p_tick (sw_pool w)) (fg b (sw_pool w)) + UNIT * prot b (sw_pool w)
         + (if Bool.eqb b d then UNIT * F else 0)
}.

Lemma vals_step b s k c pr pr' : liq_inv s ->
  (forall x po j, st_positions s !! x = Some po -> po_key po = k -> j = po_lower po \/ j = po_upper po -> sided c pr pr' j) ->
  vals b (st_positions s) k pr' - vals b (st_positions s) k pr = act s k c * (pf b pr' - pf b pr).
Proof.
  intros LI H. unfold vals, act. rewrite <- psum_sub. rewrite Z.mul_comm, <- psum_scale. apply psum_ext. intros x po E.
  unfold active_at, at_key. destruct (decide (po_key po = k)) as [K|]; [|lia]. rewrite (val_step b c pr pr'); [lia| |eauto|eauto].
  apply (lq_pos _ LI _ _ E).
Qed.

Lemma iter_fund_ok s now k d by_in lim w w1 : store_geo s k -> liq_inv s -> loop_inv k d lim w -> sw_remaining w <> 0 ->
  swap_iter s now k d by_in lim (end_tick d k) w = Ok w1 -> loop_inv k d lim w1 -> good_step s k d w w1 ->
  p_liq (sw_pool w) = act s k (p_tick (sw_pool w)) -> NoDup (map t_index (sw_ticks w1)) ->
  exists I F, iter_fund s k d w w1 I F.
Proof.
  intros G LI I N H I1 GS A ND. pose proof (loop_pre s k d lim w G I N) as PRE. destruct (sg_sp _ _ G) as [S1 _].
  pose proof H as H0. apply iter_cases in H0; [|done].
  destruct H0 as (t & init & sl & r & p0 & rm0 & TG & SL & SA & ST & SIDE & E0 & R0 & AF & NL & IC & _ & _).
  pose proof (add_fee_keeps _ _ _ _ _ AF) as (K1 & K2 & K3 & _).
  (* summary of the cases *)
  assert (P1 : p_price (sw_pool w1) = sr_next r).
  { destruct IC as [tk t' p1 _ _ _ _ TC _ ->|en _ _ _ _ ->|tk p2 _ _ _ _ _ D ->|c' _ _ ->]; cbn; try done.
    - apply tick_cross_inv in TC. destruct TC as (_ & _ & _ & _ & l & -> & _). done.
    - destruct D as [[_ ->]|(_ & _ & D)]; [done|]. apply add_fee_keeps in D. destruct D as (_ & _ & -> & _). done. }
  assert (OUT : sw_out w1 - sw_out w = sr_out r).
  { destruct IC as [tk t' p1 _ _ _ _ TC _ ->|en _ _ _ _ ->|tk p2 _ _ _ _ _ D ->|c' _ _ ->]; cbn; lia. }
  pose proof (lv_weak _ _ _ _ I1) as (W1 & W2 & W3). pose proof (legal_price_range _ _ W1) as [WM _].
  assert (NR : MIN_SQRT_PRICE <= sr_next r) by (rewrite <- P1; lia).
  assert (N0 : 0 <= sr_next r) by (unfold MIN_SQRT_PRICE in NR; lia).
  destruct (step_nonneg _ _ _ _ _ _ _ SA ST N0) as (NI & NF & NO).
  assert (DIR : if d then sr_next r <= p_price (sw_pool w) else p_price (sw_pool w) <= sr_next r).
  { pose proof (loop_step _ _ _ _ _ _ _ _ G I N H) as [IP _]. destruct IP. rewrite <- P1. destruct d; lia. }
  assert (SD : forall x po j, st_positions s !! x = Some po -> po_key po = k -> j = po_lower po \/ j = po_upper po ->
     is_init s k (spacing k) j).
  { intros x po j E <- J. eapply bound_init; eauto. }
  assert (VAL : forall b, vals b (st_positions s) k (p_price (sw_pool w1))
      <= vals b (st_positions s) k (p_price (sw_pool w)) + UNIT * flow b d (sr_in r) (sw_out w1 - sw_out w) + loss b).
  { intros b. rewrite OUT, P1. pose proof (step_value b d _ _ _ _ _ _ _ SA ST SIDE NR DIR) as SV. rewrite A in SV.
    assert (V : vals b (st_positions s) k (sr_next r) - vals b (st_positions s) k (p_price (sw_pool w))
        = act s k (p_tick (sw_pool w)) * (pf b (sr_next r) - pf b (p_price (sw_pool w)))); [|lia].
    apply vals_step; [done|]. intros x po j E K J. rewrite <- P1. eapply good_sided; try eassumption; [|by eapply SD].
    intros t0 TI NT Q. rewrite P1.
    destruct IC as [tk t' p1 _ SN _ TK TC _ ->|en _ _ _ _ ->|tk p2 _ _ _ _ _ D ->|c' _ _ ->]; try (cbn in NT; done).
    pose proof (sg_index _ _ G _ _ _ TK) as IT. cbn in Q. rewrite SN. f_equal. rewrite IT in Q. destruct d; lia. }
  (* fee of the step *)
  assert (BD := tmap_bounded s k (sw_ticks w) LI).
  assert (FEE : forall b, E48 * pends b (st_positions s) k (tmap s k (sw_ticks w)) (p_tick (sw_pool w)) (fg b p0) + UNIT * prot b p0
     <= E48 * pends b (st_positions s) k (tmap s k (sw_ticks w)) (p_tick (sw_pool w)) (fg b (sw_pool w)) + UNIT * prot b (sw_pool w)
         + (if Bool.eqb b d then UNIT * sr_fee r else 0)).
  { intros b. eapply add_fee_fund; [exact BD|exact A|done|exact AF]. }
  destruct GS as [M]. cbn in M.
  destruct IC as [tk t' p1 In SN _ TK TC _ ->|en In SN _ _ ->|tk p2 Dd In SN _ TK D ->|c' _ GT ->]; cbn [sw_pool sw_in sw_out sw_ticks] in *.
  - (* crossing *)
    exists (sr_in r), (sr_fee r). constructor; cbn [sw_pool sw_in sw_out sw_ticks p_tick p_set_tick]; [lia|lia|exact VAL|].
    intros b. pose proof (sg_index _ _ G _ _ _ TK) as IT.
    apply tick_cross_inv in TC. destruct TC as (_ & SQ & FX & FY & l & -> & _). destruct SQ as (SQ & _).
    rewrite tmap_snoc, SQ, IT. cbn [fg prot p_set_tick p_set_liq p_set_last p_set_price p_fgx p_fgy p_protx p_proty] in *.
    assert (FG : fg b (p_set_tick (p_set_liq (p_set_last (p_set_price p0 (sr_next r)) now) l) (if d then t - spacing k else t)) = fg b p0) by by destruct b.
    assert (PR : prot b (p_set_tick (p_set_liq (p_set_last (p_set_price p0 (sr_next r)) now) l) (if d then t - spacing k else t)) = prot b p0) by by destruct b.
    rewrite FG, PR.
    rewrite map_app in ND. apply NoDup_app in ND. destruct ND as (_ & ND & _).
    assert (NF' : t ∉ map t_index (sw_ticks w)).
    { intros X. apply (ND _ X). cbn. rewrite SQ, IT. by apply elem_of_list_singleton. }
    assert (TT : tmap s k (sw_ticks w) !! (k, t) = Some tk) by (by rewrite tmap_fresh).
    rewrite (pends_cross b _ _ k (p_tick (sw_pool w)) _ (fg b p0) t tk t' BD TT IT).
    + apply FEE.
    + congruence.
    + by destruct b.
    + destruct TG as (LT & _ & TG). destruct d; [destruct TG as (T1 & _)|destruct TG as (T1 & _)]; lia.
    + intros x po j E K J NJ. pose proof (SD x po j E K J) as IJ. pose proof (is_init_legal _ _ _ _ S1 IJ) as LJ.
      destruct TG as (LT & _ & TG). destruct d; [destruct TG as (T1 & _ & T2)|destruct TG as (T1 & T2)].
      * split; [|lia]. intros C. destruct (Z.lt_trichotomy j t) as [X|[X|X]]; [|done|exfalso; apply (T2 j); [lia|done]].
        pose proof (legal_gap _ _ _ S1 LJ LT X). lia.
      * split; [lia|]. intros C. destruct (Z.le_gt_cases j (p_tick (sw_pool w))); [done|]. exfalso. apply (T2 j); [lia|done].
  - (* uninitialized target *)
    exists (sr_in r), (sr_fee r). constructor; cbn [sw_pool sw_in sw_out sw_ticks p_tick p_set_tick]; [lia|lia|exact VAL|].
    intros b. destruct M as [(_ & _ & X)|(t0 & ? & t' & _ & _ & _ & Q & _)];
      [|apply (f_equal length) in Q; rewrite app_length in Q; cbn in Q; lia].
    assert (FG : forall c, fg b (p_set_tick (p_set_price p0 (sr_next r)) c) = fg b p0 /\ prot b (p_set_tick (p_set_price p0 (sr_next r)) c) = prot b p0)
      by (intros; by destruct b).
    destruct (FG (if d && en then t - spacing k else t)) as [-> ->].
    rewrite (pends_move b _ _ k (p_tick (sw_pool w))); [apply FEE|done|]. intros x po j E K J. apply X. by eapply SD.
  - (* stop at the tick *)
    exists (sr_in r), (sr_fee r + rm0). constructor; cbn [sw_pool sw_in sw_out sw_ticks p_tick p_set_tick]; [lia|lia|exact VAL|].
    intros b. destruct M as [(_ & _ & X)|(t0 & ? & t' & _ & _ & _ & Q & _)];
      [|apply (f_equal length) in Q; rewrite app_length in Q; cbn in Q; lia].
    assert (FG : forall p c, fg b (p_set_tick p c) = fg b p /\ prot b (p_set_tick p c) = prot b p) by (intros; by destruct b).
    destruct (FG p2 (t_index tk)) as [-> ->].
    rewrite (pends_move b _ _ k (p_tick (sw_pool w))); [|done|intros x po j E K J; apply X; by eapply SD].
    assert (FG0 : fg b (p_set_price p0 (sr_next r)) = fg b p0 /\ prot b (p_set_price p0 (sr_next r)) = prot b p0) by by destruct b.
    specialize (FEE b). assert (0 <= UNIT * rm0) by (apply Z.mul_nonneg_nonneg; [discriminate|done]).
    destruct D as [[_ ->]|(_ & _ & D)].
    + destruct FG0 as [-> ->]. destruct (Bool.eqb b d); lia.
    + assert (A2 : p_liq (p_set_price p0 (sr_next r)) = psum (active_at k (p_tick (p_set_price p0 (sr_next r)))) (st_positions s))
        by (cbn; rewrite K1, K2; exact A).
      pose proof (add_fee_fund b (st_positions s) (tmap s k (sw_ticks w)) k _ _ _ _ _ BD A2 R0 D) as FF.
      cbn [p_tick p_set_price] in FF. rewrite K2 in FF. destruct FG0 as [F0 F1]. rewrite F0, F1 in FF. destruct (Bool.eqb b d); lia.
  - (* inside *)
    exists (sr_in r), (sr_fee r). constructor; cbn [sw_pool sw_in sw_out sw_ticks p_tick p_set_tick]; [lia|lia|exact VAL|].
    intros b. destruct M as [(_ & _ & X)|(t0 & ? & t' & _ & _ & _ & Q & _)];
      [|apply (f_equal length) in Q; rewrite app_length in Q; cbn in Q; lia].
    assert (FG : forall c, fg b (p_set_tick (p_set_price p0 (sr_next r)) c) = fg b p0 /\ prot b (p_set_tick (p_set_price p0 (sr_next r)) c) = prot b p0)
      by (intros; by destruct b).
    destruct (FG c') as [-> ->].
    rewrite (pends_move b _ _ k (p_tick (sw_pool w))); [apply FEE|done|]. intros x po j E K J. apply X. by eapply SD.
Qed.
