(** C16: who gets the fees of a swap.  C27: moving the price there and back. *)
From Verif Require Import Base Decimal SqrtPrice Clamm FeeGrowth Types Tick Pool Position State Swap Exec Tactics
  PriceProofs ClammProofs PropClamm BitmapProofs Frame Handlers History Basic Ledger Scenario SwapInv SwapGeo SwapLoop Modify PSum LiqInv
  Vectors Geo Ops Clean PropLiq PropSwap Growth Value Fund Flow PropSolv PropExit.
From stdpp Require Import gmap strings.
From Coq Require Import Lia.
Open Scope Z_scope.

(** ** Charges *)
(** an amount charged as a fee while the current tick was [ch_tick] and the active liquidity [ch_liq] *)
Record charge := mkCharge { ch_tick : Z; ch_liq : Z; ch_amount : Z }.
(** the protocol's part of a charge at protocol fee [f] (12 decimals), rounded up *)
Definition ch_cut (f : Z) (c : charge) : Z := (ch_amount c * f + (10 ^ 12 - 1)) / 10 ^ 12.
(** the rest, per unit of liquidity (28 decimals; liquidity has 6), rounded down *)
Definition ch_share (f : Z) (c : charge) : Z :=
  if ch_liq c =? 0 then 0 else (ch_amount c - ch_cut f c) * 10 ^ 34 / ch_liq c.
Definition ch_prot (f : Z) (c : charge) : Z := if ch_liq c =? 0 then 0 else ch_cut f c.
Definition charges (l : list charge) : Z := sumZ (map ch_amount l).
(** what a unit of liquidity between two ticks gains *)
Definition gain (f lower upper : Z) (l : list charge) : Z :=
  sumZ (map (fun c => if (lower <=? ch_tick c) && (ch_tick c <? upper) then ch_share f c else 0) l).
Definition cuts (f : Z) (l : list charge) : Z := sumZ (map (ch_prot f) l).

(** fees per unit of liquidity a position has gained since its last checkpoint, token x ([true]) or y *)
Definition growth (b : bool) (T : gmap (pool_key * Z) tick) (p : pool) (po : position) : Z :=
  match T !! (po_key po, po_lower po), T !! (po_key po, po_upper po) with
  | Some l, Some u =>
      (collected (p_tick p) (if b then p_fgx p else p_fgy p) (po_lower po) (if b then t_fox l else t_foy l)
         (po_upper po) (if b then t_fox u else t_foy u) - (if b then po_fgx po else po_fgy po)) mod 2 ^ 128
  | _, _ => 0
  end.
Lemma growth_grow b m T k p x po : bounded m T k -> m !! x = Some po -> po_key po = k ->
  exists l u, T !! (k, po_lower po) = Some l /\ T !! (k, po_upper po) = Some u /\ t_index l = po_lower po /\ t_index u = po_upper po /\
    po_lower po < po_upper po /\ growth b T p po = grow b (p_tick p) (fg b p) l u po.
Proof.
  intros B E K. destruct (B x po E K) as (O & L0 & l & u & El & Il & Eu & Iu). exists l, u.
  split; [done|]. split; [done|]. split; [done|]. split; [done|]. split; [done|].
  unfold growth, grow. rewrite K, El, Eu. rewrite <- collected_inside, Il, Iu. by destruct b.
Qed.

Lemma charges_app l l' : charges (l ++ l') = charges l + charges l'.
Proof. unfold charges. by rewrite map_app, sumZ_app. Qed.
Lemma cuts_app f l l' : cuts f (l ++ l') = cuts f l + cuts f l'.
Proof. unfold cuts. by rewrite map_app, sumZ_app. Qed.
Lemma gain_app f lo up l l' : gain f lo up (l ++ l') = gain f lo up l + gain f lo up l'.
Proof. unfold gain. by rewrite map_app, sumZ_app. Qed.
Lemma gain_cons f lo up c l : gain f lo up (c :: l) = gain f lo up [c] + gain f lo up l.
Proof. by rewrite <- gain_app. Qed.

(** one charge, whatever the state: the counters of the token grow by the share and the cut *)
Lemma add_fee_charge p a d f p' : 0 <= p_liq p -> 0 <= a -> 0 <= f -> add_fee p a d f = Ok p' ->
  let c := mkCharge (p_tick p) (p_liq p) a in
  0 <= ch_share f c /\ 0 <= ch_cut f c <= a /\
  (forall b, exists q, fg b p' = fg b p + (if Bool.eqb b d then ch_share f c else 0) + q * U128) /\
  (forall b, prot b p' = prot b p + (if Bool.eqb b d then ch_prot f c else 0)).
Proof.
  intros HL Ha Hf H c. apply add_fee_inv in H. destruct H as (pr & q & EP & -> & Q & H).
  unfold big_mul_up in EP. apply ckp_ok in EP. destruct EP as [EP EB].
  assert (CU : ch_cut f c = pr).
  { unfold ch_cut, c. cbn [ch_amount]. by rewrite EP. }
  assert (P0 : 0 <= pr).
  { subst pr. apply Z.div_pos; [|reflexivity]. assert (0 <= PCT_ONE * 1) by done. assert (0 <= a * f) by (by apply Z.mul_nonneg_nonneg).
    change (PCT_ONE - 1) with 999999999999 in *. lia. }
  assert (S0 : 0 <= ch_share f c).
  { unfold ch_share, c. cbn [ch_liq ch_amount]. fold c. rewrite CU. destruct (Z.eqb_spec (p_liq p) 0); [done|].
    apply Z.div_pos; [|lia]. apply Z.mul_nonneg_nonneg; [lia|done]. }
  split; [done|]. split; [rewrite CU; lia|].
  destruct H as [[-> H]|(g & L0 & EG & H)].
  - assert (SH : ch_share f c = 0 /\ ch_prot f c = 0).
    { unfold ch_share, ch_prot. rewrite CU. unfold c. cbn [ch_liq ch_amount]. destruct (Z.eqb_spec (p_liq p) 0) as [Z0|Z0]; [done|].
      destruct H as [[H1 H2]|]; [|done]. rewrite H1. rewrite Z.mul_0_l, Z.div_0_l by done. done. }
    destruct SH as [-> ->]. split; intros b; [exists 0|]; destruct (Bool.eqb b d); lia.
  - assert (SH : ch_share f c = g /\ ch_prot f c = pr).
    { unfold ch_share, ch_prot. rewrite CU. unfold c. cbn [ch_liq ch_amount]. destruct (Z.eqb_spec (p_liq p) 0) as [Z0|Z0]; [done|]. split; [|done].
      unfold from_fee in EG. inv_bind EG as m1 E1. apply ck_ok in E1. destruct E1 as [-> E1]. inv_bind EG as m2 E2. apply ck_ok in E2. destruct E2 as [-> E2].
      inv_bind EG as qq E3. apply cdiv_ok in E3. destruct E3 as [_ ->]. apply ck_ok in EG. destruct EG as [-> _]. f_equal.
      change (10 ^ 34) with (FG_ONE * LIQ_ONE). lia. }
    destruct SH as [-> ->].
    assert (W : forall G, exists q, wadd G g = G + g + q * U128).
    { intros G. unfold wadd. exists (- ((G + g) / U128)). pose proof (Z.div_mod (G + g) U128 ltac:(discriminate)). lia. }
    destruct d; destruct H as [_ ->]; split; intros [|]; cbn [Bool.eqb fg prot p_set_feesx p_set_feesy p_fgx p_fgy p_protx p_proty]; try lia;
      try apply W; exists 0; lia.
Qed.

Lemma grow_add b c G G' g q l u po : t_index l < t_index u -> G' = G + g + q * U128 ->
  grow b c G' l u po = (grow b c G l u po + (if in_range_tick (t_index l) (t_index u) c then g else 0)) mod U128.
Proof.
  intros O ->. rewrite !grow_mod, Zplus_mod_idemp_l. unfold below, in_range_tick.
  destruct (Z.leb_spec (t_index l) c), (Z.leb_spec (t_index u) c), (Z.ltb_spec c (t_index u)); try lia; cbn [andb].
  - f_equal. lia.
  - rewrite <- (Z.mod_add (G - fo b u - fo b l - pofg b po + g) q U128) by discriminate. f_equal. lia.
  - f_equal. lia.
Qed.

Lemma growth_range b T p po : 0 <= growth b T p po < U128.
Proof. unfold growth. destruct (_ !! _); [|done]. destruct (_ !! _); [|done]. change U128 with (2 ^ 128). by apply Z.mod_pos_bound. Qed.
Lemma growth_charge b m T k p p' g q x po : bounded m T k -> m !! x = Some po -> po_key po = k -> p_tick p' = p_tick p ->
  fg b p' = fg b p + g + q * U128 ->
  growth b T p' po = (growth b T p po + (if (po_lower po <=? p_tick p) && (p_tick p <? po_upper po) then g else 0)) mod U128.
Proof.
  intros B E K ET EG. destruct (growth_grow b m T k p x po B E K) as (l & u & El & Eu & Il & Iu & O & ->).
  destruct (growth_grow b m T k p' x po B E K) as (l' & u' & El' & Eu' & _ & _ & _ & ->).
  assert (l' = l) as -> by congruence. assert (u' = u) as -> by congruence. rewrite ET.
  rewrite (grow_add b _ (fg b p) (fg b p') g q) by (rewrite ?Il, ?Iu; done). by rewrite Il, Iu.
Qed.
Lemma growth_move b m T k p p' x po : bounded m T k -> m !! x = Some po -> po_key po = k -> fg b p' = fg b p ->
  (forall j, j = po_lower po \/ j = po_upper po -> (j <= p_tick p <-> j <= p_tick p')) -> growth b T p' po = growth b T p po.
Proof.
  intros B E K EG M. destruct (growth_grow b m T k p x po B E K) as (l & u & El & Eu & Il & Iu & O & ->).
  destruct (growth_grow b m T k p' x po B E K) as (l' & u' & El' & Eu' & _ & _ & _ & ->).
  assert (l' = l) as -> by congruence. assert (u' = u) as -> by congruence. rewrite EG. apply grow_move; rewrite ?Il, ?Iu; apply M; auto.
Qed.
Lemma growth_cross b m T k p p' t tk t' x po : bounded m T k -> m !! x = Some po -> po_key po = k -> fg b p' = fg b p ->
  T !! (k, t) = Some tk -> t_index tk = t -> t_index t' = t -> fo b t' = wsub (fg b p) (fo b tk) -> (t <= p_tick p <-> p_tick p' < t) ->
  (forall j, j = po_lower po \/ j = po_upper po -> j <> t -> (j <= p_tick p <-> j <= p_tick p')) ->
  growth b (<[(k, t) := t']> T) p' po = growth b T p po.
Proof.
  intros B E K EG ET IT IT' F M H. destruct (growth_grow b m T k p x po B E K) as (l & u & El & Eu & Il & Iu & O & ->).
  destruct (growth_grow b m _ k p' x po (bounded_insert _ _ _ _ _ B IT') E K) as (l' & u' & El' & Eu' & _ & _ & _ & ->). rewrite EG.
  assert (X : forall j a, (j = po_lower po \/ j = po_upper po) -> T !! (k, j) = Some a -> t_index a = j ->
     forall a', <[(k, t) := t']> T !! (k, j) = Some a' -> exists q, below b (p_tick p') (fg b p) a' = below b (p_tick p) (fg b p) a + q * U128).
  { intros j a J Ea Ia a' Ea'. destruct (decide (j = t)) as [->|N].
    - assert (a = tk) as -> by congruence. rewrite lookup_insert in Ea'. injection Ea' as <-. apply below_cross; [congruence|done|lia].
    - rewrite lookup_insert_ne in Ea' by congruence. assert (a' = a) as -> by congruence. exists 0.
      rewrite below_move with (c := p_tick p); [lia|]. rewrite Ia. by apply H. }
  destruct (X _ l (or_introl eq_refl) El Il _ El') as (q1 & Q1). destruct (X _ u (or_intror eq_refl) Eu Iu _ Eu') as (q2 & Q2).
  apply (grow_cong _ _ _ _ _ _ _ _ _ _ (q2 - q1)). lia.
Qed.

(** an iteration without active liquidity takes nothing in *)
Lemma iter_idle s now k d by_in lim tl w w1 : p_liq (sw_pool w) = 0 -> swap_iter s now k d by_in lim tl w = Ok w1 -> sw_in w1 = sw_in w.
Proof.
  intros Z0 H. unfold swap_iter in H. inv_bind H as [sl lm] E1. rewrite Z0 in H. unfold compute_swap_step in H. cbn [Z.eqb bind sr_in sr_fee sr_out sr_next] in H.
  inv_bind H as paid E2. apply ckp_ok in E2. destruct E2 as [-> _]. inv_bind H as rm E3. inv_bind H as p0 E4.
  pose proof (add_fee_keeps _ _ _ _ _ E4) as (K1 & _). inv_bind H as fe E5. inv_bind H as ti E6. apply ckp_ok in E6. destruct E6 as [-> _]. inv_bind H as to E7.
  destruct (_ && _) in H; [discriminate H|]. inv_bind H as tk E8. inv_bind H as [[[[p1 tk1] ad] rm1] cr] E9.
  assert (AD : ad = 0).
  { unfold pool_update_tick in E9. destruct (_ || _) in E9; [inv_bind E9 as ix E10; apply Ok_inj in E9; injection E9; intros; lia|].
    cbn [p_liq p_set_price] in E9. rewrite K1, Z0 in E9. unfold is_enough_amount_to_change_price in E9. cbn [Z.eqb bind] in E9. rewrite orb_true_r in E9.
    inv_bind E9 as [[[[[p2 tk2] t2] rm2] c2] i2] E10. apply Ok_inj in E9. injection E9; intros.
    destruct tk; [discriminate E10| |apply Ok_inj in E10; injection E10; intros; lia].
    inv_bind E10 as [t' p'] E11. apply Ok_inj in E10. injection E10; intros; lia. }
  subst ad. inv_bind H as ti2 E10. apply ckp_ok in E10. destruct E10 as [-> _]. destruct (if d then _ else _) in H; [discriminate H|].
  apply Ok_inj in H as <-. cbn [sw_in]. lia.
Qed.

(** ** One iteration of the loop *)
Record iter_charged (s : store) (k : pool_key) (d by_in : bool) (w w1 : swap_state) (I : Z) (cs ls : list charge) : Prop := {
  ih_in : sw_in w1 - sw_in w = I + charges cs + charges ls;
  ih_event : sw_fee w1 - sw_fee w = charges cs;
  ih_pos : 0 <= I /\ Forall (fun c => 0 <= ch_amount c /\ 0 <= ch_share (cf_protocol_fee (st_config s)) c /\
                                    0 <= ch_cut (cf_protocol_fee (st_config s)) c <= ch_amount c /\ (ch_liq c = 0 -> ch_amount c = 0)) (cs ++ ls);
  ih_at : Forall (fun c => ch_tick c = p_tick (sw_pool w) /\ ch_liq c = p_liq (sw_pool w)) (cs ++ ls);
  ih_left : ls = [] \/ exists c, ls = [c] /\ d = true /\ by_in = true /\ sw_remaining w1 = 0;
  ih_growth : forall b x po, st_positions s !! x = Some po -> po_key po = k ->
    growth b (tmap s k (sw_ticks w1)) (sw_pool w1) po =
    (growth b (tmap s k (sw_ticks w)) (sw_pool w) po +
       (if Bool.eqb b d then gain (cf_protocol_fee (st_config s)) (po_lower po) (po_upper po) (cs ++ ls) else 0)) mod U128;
  ih_prot : forall b, prot b (sw_pool w1) = prot b (sw_pool w) + (if Bool.eqb b d then cuts (cf_protocol_fee (st_config s)) (cs ++ ls) else 0)
}.

Lemma iter_charged_ok s now k d by_in lim w w1 : store_geo s k -> liq_inv s -> 0 <= cf_protocol_fee (st_config s) ->
  loop_inv k d lim w -> sw_remaining w <> 0 ->
  swap_iter s now k d by_in lim (end_tick d k) w = Ok w1 -> loop_inv k d lim w1 -> good_step s k d w w1 ->
  NoDup (map t_index (sw_ticks w1)) ->
  exists I cs ls, iter_charged s k d by_in w w1 I cs ls.
Proof.
  intros G LI F0 I N H I1 GS ND. pose proof (loop_pre s k d lim w G I N) as PRE. destruct (sg_sp _ _ G) as [S1 _].
  pose proof H as H0. apply iter_cases in H0; [|done].
  destruct H0 as (t & init & sl & r & p0 & rm0 & TG & SL & SA & ST & SIDE & E0 & R0 & AF & NL & IC & _ & _).
  pose proof (add_fee_keeps _ _ _ _ _ AF) as (K1 & K2 & K3 & _).
  assert (P1 : p_price (sw_pool w1) = sr_next r).
  { destruct IC as [tk t' p1 _ _ _ _ TC _ ->|en _ _ _ _ ->|tk p2 _ _ _ _ _ D ->|c' _ _ ->]; cbn; try done.
    - apply tick_cross_inv in TC. destruct TC as (_ & _ & _ & _ & l & -> & _). done.
    - destruct D as [[_ ->]|(_ & _ & D)]; [done|]. apply add_fee_keeps in D. destruct D as (_ & _ & -> & _). done. }
  pose proof (lv_weak _ _ _ _ I1) as (W1 & W2 & W3). pose proof (legal_price_range _ _ W1) as [WM _].
  assert (NR : MIN_SQRT_PRICE <= sr_next r) by (rewrite <- P1; lia).
  assert (N0 : 0 <= sr_next r) by (unfold MIN_SQRT_PRICE in NR; lia).
  destruct (step_nonneg _ _ _ _ _ _ _ SA ST N0) as (NI & NF & NO).
  assert (SD : forall x po j, st_positions s !! x = Some po -> po_key po = k -> j = po_lower po \/ j = po_upper po ->
     is_init s k (spacing k) j).
  { intros x po j E <- J. eapply bound_init; eauto. }
  pose proof (tmap_bounded s k (sw_ticks w) LI) as BD. set (f := cf_protocol_fee (st_config s)) in *.
  destruct (add_fee_charge _ _ _ _ _ (proj1 (lv_liq _ _ _ _ I)) NF F0 AF) as (CS & CC & CG & CP).
  set (c0 := mkCharge (p_tick (sw_pool w)) (p_liq (sw_pool w)) (sr_fee r)) in *. cbv zeta in CG, CP.
  pose proof (fun Z0 => iter_idle _ _ _ _ _ _ _ _ _ Z0 H) as IDLE.
  assert (FA : 0 <= ch_amount c0 /\ 0 <= ch_share f c0 /\ 0 <= ch_cut f c0 <= ch_amount c0 /\ (ch_liq c0 = 0 -> ch_amount c0 = 0)).
  { split; [done|]. split; [done|]. split; [done|]. cbn [ch_liq ch_amount c0]. intros Z0. specialize (IDLE Z0).
    destruct IC as [tk t' p1 _ _ _ _ _ _ ->|en _ _ _ _ ->|tk p2 _ _ _ _ _ D ->|c' _ _ ->]; cbn [sw_in] in IDLE; lia. }
  assert (FEE : forall b x po, st_positions s !! x = Some po -> po_key po = k ->
     growth b (tmap s k (sw_ticks w)) p0 po =
     (growth b (tmap s k (sw_ticks w)) (sw_pool w) po + (if Bool.eqb b d then gain f (po_lower po) (po_upper po) [c0] else 0)) mod U128).
  { intros b x po E K. destruct (CG b) as [q Q].
    rewrite (growth_charge b _ _ k (sw_pool w) p0 _ q x po BD E K K2 Q). f_equal. unfold gain. cbn [map sumZ foldr ch_tick].
    destruct (Bool.eqb b d); destruct (_ && _); cbn; lia. }
  assert (CU1 : cuts f [c0] = ch_prot f c0) by (unfold cuts; cbn; lia).
  assert (CH1 : charges [c0] = sr_fee r) by (unfold charges; cbn; lia).
  destruct GS as [M]. cbn in M.
  destruct IC as [tk t' p1 In SN _ TK TC _ ->|en In SN _ _ ->|tk p2 Dd In SN _ TK D ->|c' _ GT ->]; cbn [sw_pool sw_in sw_out sw_ticks] in *.
  - (* crossing *)
    exists (sr_in r), [c0], []. constructor; cbn [sw_pool sw_in sw_fee sw_out sw_ticks p_tick p_set_tick app];
      [rewrite CH1; unfold charges; cbn; lia|lia|split; [lia|by constructor]|by constructor|by left| |].
    + intros b x po E K. pose proof (sg_index _ _ G _ _ _ TK) as IT.
      apply tick_cross_inv in TC. destruct TC as (_ & SQ & FX & FY & l & -> & _). destruct SQ as (SQ & _).
      rewrite tmap_snoc, SQ, IT. fold f. rewrite <- (FEE b x po E K).
      rewrite map_app in ND. apply NoDup_app in ND. destruct ND as (_ & ND & _).
      assert (NF' : t ∉ map t_index (sw_ticks w)).
      { intros X. apply (ND _ X). cbn. rewrite SQ, IT. by apply elem_of_list_singleton. }
      assert (TT : tmap s k (sw_ticks w) !! (k, t) = Some tk) by (by rewrite tmap_fresh).
      eapply (growth_cross b _ _ k p0 _ t tk t' x po BD E K); [by destruct b|exact TT|exact IT|congruence|by destruct b| |].
      * cbn. rewrite K2. destruct TG as (LT & _ & TG). destruct d; [destruct TG as (T1 & _)|destruct TG as (T1 & _)]; lia.
      * cbn. rewrite K2. intros j J NJ. pose proof (SD x po j E K J) as IJ. pose proof (is_init_legal _ _ _ _ S1 IJ) as LJ.
        destruct TG as (LT & _ & TG). destruct d; [destruct TG as (T1 & _ & T2)|destruct TG as (T1 & T2)].
        -- split; [|lia]. intros C. destruct (Z.lt_trichotomy j t) as [X|[X|X]]; [|done|exfalso; apply (T2 j); [lia|done]].
           pose proof (legal_gap _ _ _ S1 LJ LT X). lia.
        -- split; [lia|]. intros C. destruct (Z.le_gt_cases j (p_tick (sw_pool w))); [done|]. exfalso. apply (T2 j); [lia|done].
    + intros b. apply tick_cross_inv in TC. destruct TC as (_ & SQ & FX & FY & l & -> & _). fold f. rewrite CU1, <- CP. by destruct b.
  - exists (sr_in r), [c0], []. constructor; cbn [sw_pool sw_in sw_fee sw_out sw_ticks p_tick p_set_tick app];
      [rewrite CH1; unfold charges; cbn; lia|lia|split; [lia|by constructor]|by constructor|by left| |].
    + intros b x po E K. destruct M as [(_ & _ & X)|(t0 & ? & t' & _ & _ & _ & Q & _)];
        [|apply (f_equal length) in Q; rewrite app_length in Q; cbn in Q; lia].
      fold f. rewrite <- (FEE b x po E K). apply (growth_move b _ _ k p0 _ x po BD E K); [by destruct b|]. cbn. rewrite K2. intros j J. apply X. by eapply SD.
    + intros b. fold f. rewrite CU1, <- CP. by destruct b.
  - assert (X : forall j, is_init s k (spacing k) j -> (j <= p_tick (sw_pool w) <-> j <= t_index tk)).
    { destruct M as [(_ & _ & X)|(t0 & ? & t' & _ & _ & _ & Q & _)]; [exact X|apply (f_equal length) in Q; rewrite app_length in Q; cbn in Q; lia]. }
    destruct D as [[Z0 ->]|(BI & RP & D)].
    + exists (sr_in r), [c0], []. constructor; cbn [sw_pool sw_in sw_fee sw_out sw_ticks p_tick p_set_tick app];
        [rewrite CH1; unfold charges; cbn; lia|lia|split; [lia|by constructor]|by constructor|by left| |].
      * intros b x po E K. fold f. rewrite <- (FEE b x po E K). apply (growth_move b _ _ k p0 _ x po BD E K); [by destruct b|].
        cbn. rewrite K2. intros j J. apply X. by eapply SD.
      * intros b. fold f. rewrite CU1, <- CP. by destruct b.
    + assert (RR : 0 <= rm0) by lia. pose proof (add_fee_keeps _ _ _ _ _ D) as (J1 & J2 & J3 & _). cbn in J2. rewrite K2 in J2.
      assert (L2 : 0 <= p_liq (p_set_price p0 (sr_next r))) by (cbn; rewrite K1; apply (lv_liq _ _ _ _ I)).
      destruct (add_fee_charge _ _ _ _ _ L2 RR F0 D) as (CS' & CC' & CG' & CP'). cbn [p_tick p_liq p_set_price] in CS', CC', CG', CP'.
      rewrite K1, K2 in CS', CC', CG', CP'. set (c1 := mkCharge (p_tick (sw_pool w)) (p_liq (sw_pool w)) rm0) in *.
      exists (sr_in r), [c0], [c1]. constructor; cbn [sw_pool sw_in sw_fee sw_out sw_ticks p_tick p_set_tick app];
        [rewrite CH1; unfold charges; cbn; lia|lia|split; [lia|constructor; [done|constructor; [|constructor]]; split; [done|]; split; [done|]; split; [done|]; cbn [ch_liq ch_amount c1]; intros Z0; specialize (IDLE Z0); cbn [sw_in] in IDLE; lia]|constructor; [done|constructor; [done|constructor]]|right; eauto| |].
      * intros b x po E K. fold f. destruct (CG' b) as [q Q].
        assert (FS : fg b (p_set_price p0 (sr_next r)) = fg b p0) by by destruct b. rewrite FS in Q.
        rewrite (growth_move b _ _ k p2 _ x po BD E K); [|by destruct b|cbn; rewrite J2; intros j J; apply X; by eapply SD].
        rewrite (growth_charge b _ _ k p0 p2 (if Bool.eqb b d then ch_share f c1 else 0) q x po BD E K); [|congruence|exact Q]. rewrite (FEE b x po E K), Zplus_mod_idemp_l. f_equal.
        rewrite (gain_cons f _ _ c0 [c1]). 
        assert (GC : gain f (po_lower po) (po_upper po) [c1] = if (po_lower po <=? p_tick p0) && (p_tick p0 <? po_upper po) then ch_share f c1 else 0).
        { rewrite K2. unfold gain. cbn [map sumZ foldr]. change (ch_tick c1) with (p_tick (sw_pool w)). destruct (_ && _); lia. }
        rewrite GC.
        destruct (Bool.eqb b d); destruct (_ && _); cbn; lia.
      * intros b. cbn [app]. fold f. assert (cuts f [c0; c1] = ch_prot f c0 + ch_prot f c1) as -> by (unfold cuts; cbn; lia).
        assert (P2 : prot b (p_set_tick p2 (t_index tk)) = prot b p2) by by destruct b. rewrite P2, CP'.
        assert (P3 : prot b (p_set_price p0 (sr_next r)) = prot b p0) by by destruct b. rewrite P3, CP. destruct (Bool.eqb b d); lia.
  - exists (sr_in r), [c0], []. constructor; cbn [sw_pool sw_in sw_fee sw_out sw_ticks p_tick p_set_tick app];
      [rewrite CH1; unfold charges; cbn; lia|lia|split; [lia|by constructor]|by constructor|by left| |].
    + intros b x po E K. destruct M as [(_ & _ & X)|(t0 & ? & t' & _ & _ & _ & Q & _)];
        [|apply (f_equal length) in Q; rewrite app_length in Q; cbn in Q; lia].
      fold f. rewrite <- (FEE b x po E K). apply (growth_move b _ _ k p0 _ x po BD E K); [by destruct b|]. cbn. rewrite K2. intros j J. apply X. by eapply SD.
    + intros b. fold f. rewrite CU1, <- CP. by destruct b.
Qed.

(** ** A whole swap *)
Record run_charged (s : store) (k : pool_key) (d by_in : bool) (w w2 : swap_state) (I : Z) (cs ls : list charge) : Prop := {
  rh_in : sw_in w2 - sw_in w = I + charges cs + charges ls;
  rh_event : sw_fee w2 - sw_fee w = charges cs;
  rh_pos : 0 <= I /\ Forall (fun c => 0 <= ch_amount c /\ 0 <= ch_share (cf_protocol_fee (st_config s)) c /\
                                    0 <= ch_cut (cf_protocol_fee (st_config s)) c <= ch_amount c /\ (ch_liq c = 0 -> ch_amount c = 0)) (cs ++ ls);
  rh_liq : Forall (fun c => ch_liq c = act s k (ch_tick c)) (cs ++ ls);
  rh_side : forall j, is_init s k (spacing k) j -> j ∉ map t_index (drop (length (sw_ticks w)) (sw_ticks w2)) ->
     Forall (fun c => j <= ch_tick c <-> j <= p_tick (sw_pool w)) (cs ++ ls);
  rh_left : ls = [] \/ exists c, ls = [c] /\ d = true /\ by_in = true;
  rh_growth : forall b x po, st_positions s !! x = Some po -> po_key po = k ->
    growth b (tmap s k (sw_ticks w2)) (sw_pool w2) po =
    (growth b (tmap s k (sw_ticks w)) (sw_pool w) po +
       (if Bool.eqb b d then gain (cf_protocol_fee (st_config s)) (po_lower po) (po_upper po) (cs ++ ls) else 0)) mod U128;
  rh_prot : forall b, prot b (sw_pool w2) = prot b (sw_pool w) + (if Bool.eqb b d then cuts (cf_protocol_fee (st_config s)) (cs ++ ls) else 0)
}.
Lemma run_charged_ok s now k d by_in lim : store_geo s k -> liq_inv s -> 0 <= cf_protocol_fee (st_config s) -> forall w w2,
  grun s now k d by_in lim w w2 -> p_liq (sw_pool w) = act s k (p_tick (sw_pool w)) -> NoDup (map t_index (sw_ticks w2)) ->
  exists I cs ls, run_charged s k d by_in w w2 I cs ls.
Proof.
  intros G LI F0 w w2 R. destruct (sg_sp _ _ G) as [S1 _].
  induction R as [w Z0|w w1 w2 N I E I1 GS R IH]; intros A ND.
  - exists 0, [], []. constructor; cbn [app]; unfold charges, gain, cuts; cbn; try lia; try done; try by left.
    + intros b x po _ _. destruct (Bool.eqb b d); rewrite Z.add_0_r; symmetry; apply Z.mod_small, growth_range.
    + intros b. destruct (Bool.eqb b d); lia.
  - destruct (grun_prefix _ _ _ _ _ _ _ _ R) as [l PX].
    assert (ND1 : NoDup (map t_index (sw_ticks w1))). { rewrite PX, map_app in ND. apply NoDup_app in ND. tauto. }
    destruct (iter_charged_ok _ _ _ _ _ _ _ _ G LI F0 I N E I1 GS ND1) as (J & cs & ls & [A1 A2 A3 A4 A5 A6 A7]).
    destruct A5 as [->|(c & -> & D & BI & Z0)].
    2: { (* nothing remains: the last iteration *)
      assert (w2 = w1) as -> by (by inversion R). exists J, cs, [c]. constructor; try done; [|intros j _ _|right; eauto].
      - eapply Forall_impl; [exact A4|]. cbn. intros c' [-> ->]. done.
      - eapply Forall_impl; [exact A4|]. cbn. intros c' [-> _]. done. }
    rewrite app_nil_r in *. destruct (IH (good_liq _ _ _ _ _ LI S1 GS A) ND) as (J' & cs' & ls' & [B1 B2 B3 B4 B5 B6 B7 B8]).
    assert (PM : forall (P : charge -> Prop), Forall P cs -> Forall P (cs' ++ ls') -> Forall P ((cs ++ cs') ++ ls')).
    { intros P. rewrite !Forall_app. tauto. }
    assert (PG : forall f lo up, gain f lo up ((cs ++ cs') ++ ls') = gain f lo up cs + gain f lo up (cs' ++ ls')).
    { intros. rewrite !gain_app. lia. }
    assert (PC : forall f, cuts f ((cs ++ cs') ++ ls') = cuts f cs + cuts f (cs' ++ ls')).
    { intros. rewrite !cuts_app. lia. }
    exists (J + J'), (cs ++ cs'), ls'. constructor.
    + rewrite charges_app. change (charges []) with 0 in A1. lia.
    + rewrite charges_app. lia.
    + split; [lia|]. apply PM; [apply A3|apply B3].
    + apply PM; [|done]. eapply Forall_impl; [exact A4|]. cbn. intros c [-> ->]. done.
    + intros j Hj NJ. apply PM.
      * eapply Forall_impl; [exact A4|]. cbn. intros c [-> _]. done.
      * assert (P1 : exists l1, sw_ticks w1 = sw_ticks w ++ l1 /\ (j ∉ map t_index l1 -> (j <= p_tick (sw_pool w1) <-> j <= p_tick (sw_pool w)))).
        { destruct GS as [M]. cbn in M. destruct M as [(-> & _ & X)|(t & tk & t' & TI & TK & SQ & -> & M)].
          - exists []. split; [by rewrite app_nil_r|]. intros _. specialize (X j Hj). lia.
          - exists [t']. split; [done|]. cbn. rewrite elem_of_list_singleton. destruct SQ as (SQ & _). rewrite SQ, (sg_index _ _ G _ _ _ TK). intros NT.
            pose proof (is_init_legal _ _ _ _ S1 TI) as LT. pose proof (is_init_legal _ _ _ _ S1 Hj) as LJ. destruct d.
            + destruct M as (-> & M1 & M2 & _). split; [lia|]. intros C. destruct (Z.lt_trichotomy j t) as [Q|[Q|Q]]; [|done|exfalso; apply (M2 j); [lia|done]].
              pose proof (legal_gap _ _ _ S1 LJ LT Q). lia.
            + destruct M as (-> & M1 & M2 & _). split; [|lia]. intros C. destruct (Z.le_gt_cases j (p_tick (sw_pool w))); [done|]. exfalso. apply (M2 j); [lia|done]. }
        destruct P1 as (l1 & E1 & P1).
        assert (D2 : drop (length (sw_ticks w1)) (sw_ticks w2) = l) by (rewrite PX; apply drop_app).
        assert (D1 : drop (length (sw_ticks w)) (sw_ticks w2) = l1 ++ l) by (rewrite PX, E1, <- app_assoc; apply drop_app).
        rewrite D1, map_app, not_elem_of_app in NJ. destruct NJ as [N1 N2].
        rewrite D2 in B5. eapply Forall_impl; [apply (B5 j Hj N2)|]. cbn. intros c Hc. rewrite Hc. by apply P1.
    + exact B6.
    + intros b x po Q K. rewrite PG, (B7 b x po Q K), (A6 b x po Q K), Zplus_mod_idemp_l. f_equal. destruct (Bool.eqb b d); lia.
    + intros b. rewrite PC, (B8 b), (A7 b). destruct (Bool.eqb b d); lia.
Qed.

Lemma in_range_move lo up c c' : (lo <= c <-> lo <= c') -> (up <= c <-> up <= c') -> (lo <=? c) && (c <? up) = (lo <=? c') && (c' <? up).
Proof. intros A B. destruct (Z.leb_spec lo c), (Z.leb_spec lo c'), (Z.ltb_spec c up), (Z.ltb_spec c' up); try lia; done. Qed.

Record distributed (s s' : store) (k : pool_key) (p p' : pool) (d by_in : bool) (total principal : Z) (fees left : list charge) : Prop := {
  di_total : total = principal + charges fees + charges left /\ 0 <= principal;
  (* only a falling exact-input swap that ends on an initialized tick charges an amount left over *)
  di_left : left = [] \/ exists c, left = [c] /\ d = true /\ by_in = true;
  (* every charge is split among the positions in range at that moment *)
  di_liq : Forall (fun c => 0 <= ch_amount c /\ 0 <= ch_cut (cf_protocol_fee (st_config s)) c <= ch_amount c /\
     (ch_liq c = 0 -> ch_amount c = 0) /\
     ch_liq c = psum (fun po => if decide (po_key po = k) then
                 (if (po_lower po <=? ch_tick c) && (ch_tick c <? po_upper po) then po_liq po else 0) else 0) (st_positions s)) (fees ++ left);
  (* the positions' counters grow by exactly the shares of the charges made while they were in range, of the token paid in *)
  di_growth : forall b x po, st_positions s !! x = Some po -> po_key po = k ->
    growth b (st_ticks s') p' po =
    (growth b (st_ticks s) p po +
       (if Bool.eqb b d then gain (cf_protocol_fee (st_config s)) (po_lower po) (po_upper po) (fees ++ left) else 0)) mod 2 ^ 128;
  (* a position with no bound between the old and the new current tick was in range for all charges or for none *)
  di_side : forall x po, st_positions s !! x = Some po -> po_key po = k ->
    (po_lower po <= p_tick p <-> po_lower po <= p_tick p') -> (po_upper po <= p_tick p <-> po_upper po <= p_tick p') ->
    Forall (fun c => (po_lower po <=? ch_tick c) && (ch_tick c <? po_upper po) = (po_lower po <=? p_tick p) && (p_tick p <? po_upper po)) (fees ++ left);
  (* and the protocol gets its cut *)
  di_protx : p_protx p' = p_protx p + (if d then cuts (cf_protocol_fee (st_config s)) (fees ++ left) else 0);
  di_proty : p_proty p' = p_proty p + (if d then 0 else cuts (cf_protocol_fee (st_config s)) (fees ++ left));
  di_pos : st_positions s' = st_positions s
}.

Lemma swap_distributed e i s k d a by_in lim s' ms r : creach s -> 0 <= a <= U128MAX -> clean_swap e s k d a by_in lim ->
  swap_internal e i s k d a by_in lim = Ok (s', ms, r) ->
  exists p p' principal fees left,
    calculate_swap (e_gas e) s (e_millis e) k d a by_in lim = Ok r /\ st_pools s !! k = Some p /\ st_pools s' !! k = Some p' /\
    charges fees = cr_fee r /\ distributed s s' k p p' d by_in (cr_in r) principal fees left.
Proof.
  intros CR Ha CS H1. pose proof (creach_ereach _ CR) as R. pose proof (ereach_liq _ R) as LI.
  apply swap_internal_inv in H1. destruct H1 as (C & (s1 & U & ->) & m0 & AT & EM). apply update_ticks_inv in U.
  destruct (calculate_swap_frame _ _ _ _ _ _ _ _ _ C) as (p & Ep & _).
  pose proof (ereach_store_geo _ _ _ R Ep) as G. pose proof (ereach_geo _ R _ _ Ep) as PG.
  pose proof (CS _ _ C Ep) as CE.
  destruct (clean_grun _ _ _ _ _ _ _ _ _ _ G Ep PG Ha C CE) as (w & GR & O & ND & _ & ER).
  destruct (run_charged_ok _ _ _ _ _ _ G LI (proj1 (co_protocol _ (ereach_config _ R))) _ _ GR (creach_act _ CR _ _ Ep) ND)
    as (I & cs & ls & [L1 L2 L3 L4 L5 L6 L7 L8]).
  exists p, (cr_pool r), I, cs, ls. subst r. cbn [cr_in cr_out cr_fee cr_pool cr_ticks sw_in sw_fee sw_pool sw_ticks length drop] in *.
  rewrite !Z.sub_0_r in *. rewrite drop_0 in L5.
  assert (TM : st_ticks s1 = tmap s k (sw_ticks w)) by (subst s1; done).
  assert (SP : st_positions s1 = st_positions s) by (subst s1; done).
  split; [done|]. split; [done|]. split; [cbn; apply lookup_insert|]. split; [done|].
  constructor.
  - split; [done|apply L3].
  - done.
  - pose proof (proj2 L3) as L3'. rewrite Forall_forall in L3', L4 |- *. intros c Hc. specialize (L3' c Hc). specialize (L4 c Hc). cbn in L3', L4.
    split; [tauto|]. split; [tauto|]. split; [tauto|]. rewrite L4. done.
  - intros b x po E K. change (st_ticks (save_pool s1 k (sw_pool w))) with (st_ticks s1). rewrite TM. exact (L7 b x po E K).
  - intros x po E K B1 B2.
    assert (NE : forall j, (j <= p_tick p <-> j <= p_tick (sw_pool w)) -> ~ passed d (p_tick p) (p_tick (sw_pool w)) j).
    { intros j Q X. unfold passed in X. destruct d; lia. }
    assert (BI : forall j, j = po_lower po \/ j = po_upper po -> is_init s k (spacing k) j) by (intros j J; subst k; by eapply bound_init).
    assert (F : forall j, j = po_lower po \/ j = po_upper po -> (j <= p_tick p <-> j <= p_tick (sw_pool w)) ->
       Forall (fun c => j <= ch_tick c <-> j <= p_tick p) (cs ++ ls)).
    { intros j J Q. apply L5; [by apply BI|]. rewrite (CE j (BI j J)). by apply NE. }
    pose proof (F _ (or_introl eq_refl) B1) as F1. pose proof (F _ (or_intror eq_refl) B2) as F2.
    rewrite Forall_forall in F1, F2 |- *. intros c Hc. specialize (F1 c Hc). specialize (F2 c Hc). cbn in *. by apply in_range_move.
  - pose proof (L8 true) as X. cbn in X. rewrite X. by destruct d.
  - pose proof (L8 false) as X. cbn in X. rewrite X. by destruct d.
  - exact SP.
Qed.

(** Missing from C16: swaps that are not clean, or that start in a state left behind by one, see [C16_fees_refuted]. *)
Theorem C16_distribution_partial e i s k (d : bool) a by_in lim s' ms at' :
  clean_history s -> clean_call e i s (Swap k d a by_in lim) -> execute e i s (Swap k d a by_in lim) = Ok (s', ms, at') ->
  exists r p p' principal fees left,
    calculate_swap (e_gas e) s (e_millis e) k d a by_in lim = Ok r /\ st_pools s !! k = Some p /\ st_pools s' !! k = Some p' /\
    at' = [("amount_in"%string, cr_in r); ("amount_out"%string, cr_out r)] /\ charges fees = cr_fee r /\
    distributed s s' k p p' d by_in (cr_in r) principal fees left.
Proof.
  intros CH CS H. pose proof (clean_history_creach _ CH) as CR. pose proof (creach_ereach _ CR) as R. pose proof (ereach_liq _ R) as LI.
  assert (Ha : 0 <= a <= U128MAX).
  { destruct (execute_swap_inv _ _ _ _ _ _ _ _ _ _ _ (clean_history_reachable _ CH) H) as (? & ? & _ & _ & _ & _ & ? & _). done. }
  unfold execute in H. destruct (_ && _); [|done]. cbn [dispatch] in H. unfold swap in H.
  inv_bind H as [[s2 m2] r] H1. apply Ok_inj in H. injection H as <- <- <-.
  destruct (swap_distributed _ _ _ _ _ _ _ _ _ _ _ CR Ha CS H1) as (p & p' & pr & fees & left & C & E & E' & F & D).
  exists r, p, p', pr, fees, left. auto 10.
Qed.

(** fees per token unit of 10^-34 the positions of a pool have not been paid yet *)
Definition unpaid (b : bool) (s : store) (k : pool_key) (p : pool) : Z :=
  psum (fun po => if decide (po_key po = k) then growth b (st_ticks s) p po * po_liq po else 0) (st_positions s).

Lemma gain_total f k m l :
  psum (fun po => if decide (po_key po = k) then gain f (po_lower po) (po_upper po) l * po_liq po else 0) m =
  sumZ (map (fun c => ch_share f c * psum (fun po => if decide (po_key po = k) then
     (if (po_lower po <=? ch_tick c) && (ch_tick c <? po_upper po) then po_liq po else 0) else 0) m) l).
Proof.
  induction l as [|c l IH].
  - cbn [map sumZ foldr]. etransitivity; [|apply (psum_zero m)]. apply psum_ext. intros x po _. unfold gain. cbn [map sumZ foldr]. destruct (decide _); lia.
  - cbn [map sumZ foldr]. unfold sumZ in IH. rewrite <- IH, <- psum_scale, <- psum_add. apply psum_ext. intros x po _.
    cbv beta. rewrite gain_cons. unfold gain at 1. cbn [map sumZ foldr]. destruct (decide _); [|lia]. destruct (_ && _); lia.
Qed.

Lemma distributed_total s s' k p p' d by_in t pr fees left b : liq_inv s -> distributed s s' k p p' d by_in t pr fees left ->
  unpaid b s' k p' + 10 ^ 34 * prot b p' <= unpaid b s k p + 10 ^ 34 * prot b p + (if Bool.eqb b d then 10 ^ 34 * (charges fees + charges left) else 0).
Proof.
  intros LI D. destruct D. set (f := cf_protocol_fee (st_config s)) in *. set (l := fees ++ left) in *.
  assert (PR : prot b p' = prot b p + (if Bool.eqb b d then cuts f l else 0)).
  { destruct b; unfold prot; [rewrite di_protx0|rewrite di_proty0]; by destruct d. }
  rewrite PR, Z.mul_add_distr_l. rewrite <- charges_app. fold l.
  set (mine := fun c po => if decide (po_key po = k) then (if (po_lower po <=? ch_tick c) && (ch_tick c <? po_upper po) then po_liq po else 0) else 0) in *.
  assert (PSN : forall c, 0 <= psum (mine c) (st_positions s)).
  { intros c. apply psum_nonneg. intros x po E. unfold mine. destruct (decide _); [|done]. destruct (_ && _); [|done].
    destruct (lq_pos _ LI _ _ E) as [(V & _) _]. lia. }
  assert (SH : forall c, c ∈ l -> 0 <= ch_share f c /\ ch_share f c * psum (mine c) (st_positions s) + 10 ^ 34 * ch_prot f c <= 10 ^ 34 * ch_amount c).
  { intros c Hc. rewrite Forall_forall in di_liq0. destruct (di_liq0 c Hc) as (A0 & A1 & _ & A2). fold (mine c) in A2. rewrite <- A2. specialize (PSN c). rewrite <- A2 in PSN.
    unfold ch_share, ch_prot. destruct (Z.eqb_spec (ch_liq c) 0) as [Z0|Z0]; [lia|].
    pose proof (floor_spec ((ch_amount c - ch_cut f c) * 10 ^ 34) (ch_liq c) ltac:(lia)) as [F1 F2].
    set (q := _ / ch_liq c) in *. split; [|rewrite (Z.mul_comm q); nia].
    apply Z.div_pos; [apply Z.mul_nonneg_nonneg; [lia|done]|lia]. }
  assert (TOT : sumZ (map (fun c => ch_share f c * psum (mine c) (st_positions s)) l) + 10 ^ 34 * cuts f l <= 10 ^ 34 * charges l).
  { clear - SH. induction l as [|c l IH]; [done|]. pose proof (SH c ltac:(set_solver)) as [_ X].
    specialize (IH ltac:(intros c' Hc'; apply SH; set_solver)). unfold cuts, charges in *. cbn [map sumZ foldr] in *. unfold sumZ in *. lia. }
  assert (GN : forall lo up, 0 <= gain f lo up l).
  { intros lo up. clear - SH. induction l as [|c l IH]; [done|]. pose proof (SH c ltac:(set_solver)) as [X _].
    specialize (IH ltac:(intros c' Hc'; apply SH; set_solver)). unfold gain in *. cbn [map sumZ foldr] in *. unfold sumZ in *. destruct (_ && _); lia. }
  assert (UN : unpaid b s' k p' <= unpaid b s k p + (if Bool.eqb b d then sumZ (map (fun c => ch_share f c * psum (mine c) (st_positions s)) l) else 0)).
  { unfold unpaid. rewrite di_pos0. pose proof (gain_total f k (st_positions s) l) as GT.
    change (psum _ _) with (psum (fun po => if decide (po_key po = k) then gain f (po_lower po) (po_upper po) l * po_liq po else 0) (st_positions s)) in GT at 1.
    destruct (Bool.eqb b d) eqn:BD.
    - unfold mine. rewrite <- GT, <- psum_add. apply psum_le. intros x po E. destruct (decide (po_key po = k)) as [K|]; [|lia].
      destruct (lq_pos _ LI _ _ E) as [(V & _) _]. rewrite (di_growth0 b x po E K). rewrite BD.
      pose proof (growth_range b (st_ticks s) p po) as GR. specialize (GN (po_lower po) (po_upper po)).
      assert ((growth b (st_ticks s) p po + gain f (po_lower po) (po_upper po) l) mod 2 ^ 128 <= growth b (st_ticks s) p po + gain f (po_lower po) (po_upper po) l)
        by (apply Z.mod_le; [lia|reflexivity]). nia.
    - rewrite Z.add_0_r. apply psum_le. intros x po E. destruct (decide (po_key po = k)) as [K|]; [|lia].
      rewrite (di_growth0 b x po E K). rewrite BD, Z.add_0_r. pose proof (growth_range b (st_ticks s) p po) as GR. rewrite Z.mod_small; [lia|exact GR]. }
  destruct (Bool.eqb b d); lia.
Qed.
Theorem C16_total_partial e i s k (d : bool) a by_in lim s' ms at' :
  clean_history s -> clean_call e i s (Swap k d a by_in lim) -> execute e i s (Swap k d a by_in lim) = Ok (s', ms, at') ->
  exists total out p p' principal fee,
    at' = [("amount_in"%string, total); ("amount_out"%string, out)] /\ st_pools s !! k = Some p /\ st_pools s' !! k = Some p' /\
    total = principal + fee /\ 0 <= principal /\ 0 <= fee /\
    unpaid d s' k p' + 10 ^ 34 * prot d p' <= unpaid d s k p + 10 ^ 34 * prot d p + 10 ^ 34 * fee /\
    unpaid (negb d) s' k p' = unpaid (negb d) s k p /\ prot (negb d) p' = prot (negb d) p.
Proof.
  intros CH CS H. destruct (C16_distribution_partial _ _ _ _ _ _ _ _ _ _ _ CH CS H) as (r & p & p' & pr & fees & left & _ & E & E' & -> & _ & D).
  pose proof (ereach_liq _ (reachable_ereach _ (clean_history_reachable _ CH))) as LI.
  exists (cr_in r), (cr_out r), p, p', pr, (charges fees + charges left).
  pose proof (distributed_total _ _ _ _ _ _ _ _ _ _ _ d LI D) as TD. rewrite Bool.eqb_reflx in TD.
  destruct D. split; [done|]. split; [done|]. split; [done|]. split; [lia|]. split; [tauto|]. split.
  { rewrite <- charges_app. clear - di_liq0. induction di_liq0 as [|c l [A _] _ IH]; [done|]. unfold charges in *. cbn [map sumZ foldr] in *. unfold sumZ in *. lia. }
  split; [done|]. split.
  - unfold unpaid. rewrite di_pos0. apply psum_ext. intros x po Q. destruct (decide (po_key po = k)) as [K|]; [|done].
    rewrite (di_growth0 (negb d) x po Q K). assert (Bool.eqb (negb d) d = false) as -> by by destruct d.
    rewrite Z.add_0_r, Z.mod_small; [done|]. apply growth_range.
  - destruct d; cbn [negb prot] in *; lia.
Qed.
(** A position on one side of both the old and the new current tick gains nothing, whatever happens. *)
Theorem C16_out_of_range_partial e i s k (d : bool) a by_in lim s' ms at' x po p p' :
  clean_history s -> clean_call e i s (Swap k d a by_in lim) -> execute e i s (Swap k d a by_in lim) = Ok (s', ms, at') ->
  st_pools s !! k = Some p -> st_pools s' !! k = Some p' -> st_positions s !! x = Some po -> po_key po = k ->
  p_tick p < po_lower po /\ p_tick p' < po_lower po \/ po_upper po <= p_tick p /\ po_upper po <= p_tick p' ->
  st_positions s' !! x = Some po /\ forall b, growth b (st_ticks s') p' po = growth b (st_ticks s) p po.
Proof.
  intros CH CS H Ep Ep' E K B. destruct (C16_distribution_partial _ _ _ _ _ _ _ _ _ _ _ CH CS H) as (r & q & q' & pr & fees & left & _ & Q & Q' & _ & _ & D).
  assert (q = p) as -> by congruence. assert (q' = p') as -> by congruence.
  pose proof (ereach_liq _ (reachable_ereach _ (clean_history_reachable _ CH))) as LI. destruct (lq_pos _ LI _ _ E) as [(_ & _ & _ & V) _].
  destruct D. split; [by rewrite di_pos0|]. intros b. rewrite (di_growth0 b x po E K).
  assert (G0 : gain (cf_protocol_fee (st_config s)) (po_lower po) (po_upper po) (fees ++ left) = 0).
  { pose proof (di_side0 x po E K ltac:(lia) ltac:(lia)) as F. assert (N : (po_lower po <=? p_tick p) && (p_tick p <? po_upper po) = false).
    { destruct (Z.leb_spec (po_lower po) (p_tick p)), (Z.ltb_spec (p_tick p) (po_upper po)); try done; lia. }
    rewrite N in F. clear - F. induction F as [|c l A _ IH]; [done|]. unfold gain in *. cbn [map sumZ foldr]. rewrite A. unfold sumZ in IH. lia. }
  rewrite G0. destruct (Bool.eqb b d); rewrite Z.add_0_r, Z.mod_small; try done; apply growth_range.
Qed.

(** ** Any charge, in any state *)
(** The growth of the pool's counter by a charge never exceeds what was charged, but the positions that gain from it are those with
    the current tick in their range, whether or not the pool counts them as active. *)
Theorem C16_charge p a d f p' : 0 <= p_liq p -> 0 <= a -> 0 <= f -> add_fee p a d f = Ok p' ->
  let c := mkCharge (p_tick p) (p_liq p) a in
  0 <= ch_share f c /\ ch_share f c * p_liq p + 10 ^ 34 * ch_prot f c <= 10 ^ 34 * a /\
  (forall b, prot b p' = prot b p + (if Bool.eqb b d then ch_prot f c else 0)) /\
  forall b T po l u, T !! (po_key po, po_lower po) = Some l -> T !! (po_key po, po_upper po) = Some u ->
    t_index l = po_lower po -> t_index u = po_upper po -> po_lower po < po_upper po ->
    growth b T p' po = (growth b T p po + (if Bool.eqb b d then gain f (po_lower po) (po_upper po) [c] else 0)) mod 2 ^ 128.
Proof.
  intros HL Ha Hf H c. pose proof (add_fee_keeps _ _ _ _ _ H) as (_ & K2 & _).
  destruct (add_fee_charge _ _ _ _ _ HL Ha Hf H) as (S0 & C0 & CG & CP). fold c in S0, C0, CG, CP. split; [done|]. split.
  { unfold ch_share, ch_prot in *. change (ch_liq c) with (p_liq p) in *. destruct (Z.eqb_spec (p_liq p) 0) as [Z0|Z0]; [lia|].
    pose proof (floor_spec ((ch_amount c - ch_cut f c) * 10 ^ 34) (p_liq p) ltac:(lia)) as [F1 F2]. change (ch_amount c) with a in *.
    set (q := _ / p_liq p) in *. rewrite (Z.mul_comm q). lia. }
  split; [done|]. intros b T po l u El Eu Il Iu O. destruct (CG b) as [q Q].
  assert (GG : forall q, growth b T q po = grow b (p_tick q) (fg b q) l u po).
  { intros q0. unfold growth, grow. rewrite El, Eu. rewrite <- collected_inside, Il, Iu. by destruct b. }
  rewrite !GG, K2. assert (LU : t_index l < t_index u) by lia. rewrite (grow_add b _ (fg b p) (fg b p') _ q l u po LU Q). f_equal. f_equal. rewrite Il, Iu. unfold gain, in_range_tick. cbn [map sumZ foldr].
  change (ch_tick c) with (p_tick p). destruct (Bool.eqb b d), (_ && _); lia.
Qed.

(** ** C27: there and back *)
(** swaps in one pool, by anybody; [x] and [y] are what the pool took in minus what it paid out of each token, [n] bounds the iterations *)
Inductive swaps (ok : env -> msg_info -> store -> exec_msg -> Prop) (k : pool_key) : store -> store -> Z -> Z -> Z -> Prop :=
| sws_none s : swaps ok k s s 0 0 0
| sws_swap e i s (d : bool) a by_in lim s1 ms paid_in paid_out s' x y n :
    ok e i s (Swap k d a by_in lim) ->
    execute e i s (Swap k d a by_in lim) = Ok (s1, ms, [("amount_in"%string, paid_in); ("amount_out"%string, paid_out)]) ->
    swaps ok k s1 s' x y n ->
    swaps ok k s s' ((if d then paid_in else - paid_out) + x) ((if d then - paid_out else paid_in) + y) (Z.of_nat (e_gas e) + n).

Lemma swaps_value k s s' x y n p p' : swaps clean_call k s s' x y n -> clean_history s ->
  st_pools s !! k = Some p -> st_pools s' !! k = Some p' ->
  st_positions s' = st_positions s /\ 0 <= n /\
  forall b : bool, vals b (st_positions s) k (p_price p') <= vals b (st_positions s) k (p_price p) + UNIT * (if b then x else y) + n * loss b.
Proof.
  intros S. revert p. induction S as [s|e i s d a by_in lim s1 ms ci co s' x y n CC H S IH]; intros p CH Ep Ep'.
  - assert (p' = p) as -> by congruence. split; [done|]. split; [done|]. intros [|]; lia.
  - assert (CH1 : clean_history s1) by (by eapply ch_call).
    pose proof (clean_history_creach _ CH) as CR. pose proof (creach_ereach _ CR) as R.
    assert (Ha : 0 <= a <= U128MAX).
    { destruct (execute_swap_inv _ _ _ _ _ _ _ _ _ _ _ (clean_history_reachable _ CH) H) as (? & ? & _ & _ & _ & _ & ? & _). done. }
    unfold execute in H. destruct (_ && _); [|done]. cbn [dispatch] in H. unfold swap in H.
    inv_bind H as [[s2 m2] r] H1. apply Ok_inj in H. injection H as <- <- <- <-.
    pose proof H1 as HK. apply swap_internal_kept in HK; [|by apply ereach_indexed]. pose proof (sk_positions _ _ _ HK) as SP.
    destruct (swap_fund _ _ _ _ _ _ _ _ _ _ _ R (creach_act _ CR) Ha H1 CC) as [_ (I & F & q & Eq & CI & I0 & F0 & O0 & V & _)].
    assert (q = p) as -> by congruence.
    assert (E1 : st_pools s2 !! k = Some (cr_pool r)).
    { apply swap_internal_inv in H1. destruct H1 as (_ & (s3 & _ & ->) & _). cbn. apply lookup_insert. }
    destruct (IH _ CH1 E1 Ep') as (P1 & N1 & V1). split; [congruence|]. split; [lia|].
    intros b. specialize (V b). specialize (V1 b). rewrite SP in V1.
    assert (FL : UNIT * flow b d I (cr_out r) <= UNIT * (if b then if d then cr_in r else - cr_out r else if d then - cr_out r else cr_in r)).
    { apply Z.mul_le_mono_nonneg_l; [discriminate|]. unfold flow. destruct b, d; cbn [Bool.eqb]; lia. }
    destruct b; destruct d; lia.
Qed.
(** Missing from C27: swaps that are not clean (see [C27_cycle_refuted]); for token x, sequences with 10^14 or more loop iterations. *)
Theorem C27_cycle_partial k s s' x y n p p' : clean_history s -> swaps clean_call k s s' x y n ->
  st_pools s !! k = Some p -> st_pools s' !! k = Some p' -> p_price p' = p_price p ->
  0 <= y /\ (n < 10 ^ 14 -> 0 <= x).
Proof.
  intros CH S Ep Ep' EQ. destruct (swaps_value _ _ _ _ _ _ _ _ S CH Ep Ep') as (_ & N0 & V). rewrite EQ in V.
  pose proof (V true) as VX. pose proof (V false) as VY. cbn [loss] in VX, VY. split.
  - assert (0 <= UNIT * y) by lia. apply (Z.mul_le_mono_pos_l 0 y UNIT); [reflexivity|lia].
  - intros N. assert (n * LOSS < UNIT).
    { apply Z.lt_le_trans with (10 ^ 14 * LOSS); [apply Z.mul_lt_mono_pos_r; [reflexivity|exact N]|vm_compute; discriminate]. }
    assert (UNIT * (-1) < UNIT * x) by lia. apply Z.mul_lt_mono_pos_l in H0; [lia|reflexivity].
Qed.

(** ** What does not hold *)
(** bob's position ends at tick 10; carol moves the price exactly to tick 10 with that price as limit, so the tick is not crossed, and
    back again, now crossing it downwards, which adds bob's liquidity a second time: 50815 tokeny in, 100520 tokeny out. *)
Definition cycle_calls : list (string * exec_msg) :=
  [("alice", AddFeeTier v_tier);
   ("alice", CreatePool "tokeny" "tokenx" v_tier SP_ONE 0);
   ("alice", CreatePosition v_key (-30) 30 1000000000000 SP_ONE SP_ONE);
   ("bob", CreatePosition v_key (-10) 10 100000000000000 SP_ONE SP_ONE)]%string.
Definition cycle_run : res (store * store * store * list out_msg * list out_msg * list (string * Z) * list (string * Z)) :=
  let* s := start 10000000000 cycle_calls in
  let* '(s1, m1, a1) := execute v_env (v_info "carol") s (Swap v_key false 50484 false 1000500100010000000000000) in
  let* '(s2, m2, a2) := execute v_env (v_info "carol") s1 (Swap v_key true 100520 false SP_ONE) in
  Ok (s, s1, s2, m1, m2, a1, a2).
Theorem C27_cycle_refuted : exists k s s' x y n p p', clean_history s /\ swaps true_call k s s' x y n /\
  st_pools s !! k = Some p /\ st_pools s' !! k = Some p' /\ p_price p' = p_price p /\ x = 50589 /\ y = -49705.
Proof.
  destruct (done_inv (fun '(s, s1, s2, m1, m2, a1, a2) => a1 = [("amount_in"%string, 50815); ("amount_out"%string, 50484)] /\
     a2 = [("amount_in"%string, 101073); ("amount_out"%string, 100520)] /\ is_ok (clean_start 10000000000 cycle_calls) = true /\
     match st_pools s !! v_key, st_pools s2 !! v_key with Some p, Some p2 => p_price p2 = p_price p | _, _ => False end) cycle_run)
     as ([[[[[[s s1] s2] m1] m2] a1] a2] & E & A1 & A2 & CL & P).
  { vm_compute. repeat split; reflexivity. }
  unfold cycle_run in E. inv_bind E as s0 E0. inv_bind E as [[s3 m3] a3] E1. inv_bind E as [[s4 m4] a4] E2.
  apply Ok_inj in E. injection E as -> -> -> -> -> -> ->. subst a1 a2. apply (some_inv (fun p : pool => _)) in P. destruct P as (p & Ep & P).
  apply (some_inv (fun p2 : pool => _)) in P. destruct P as (p2 & Ep2 & P).
  exists v_key, s, s2, ((-50484) + (101073 + 0)), (50815 + (- 100520 + 0)), (Z.of_nat (e_gas v_env) + (Z.of_nat (e_gas v_env) + 0)), p, p2.
  split; [exact (clean_by_check _ _ _ E0 CL)|]. split; [|exact (conj Ep (conj Ep2 (conj P (conj eq_refl eq_refl))))].
  eapply (sws_swap true_call v_key v_env _ s false _ _ _ s1 _ 50815 50484); [exact I|exact E1|].
  eapply (sws_swap true_call v_key v_env _ s1 true _ _ _ s2 _ 101073 100520); [exact I|exact E2|]. constructor.
Qed.

(** The pool counts 1000000 units of liquidity as active after carol stopped exactly at tick 10, although bob's 20000000000 units are
    in range.  A swap of 400 tokeny, of which 3 are the fee, grants the two positions more than 40000 tokeny. *)
Definition grant_calls : list (string * exec_msg) :=
  [("alice", AddFeeTier v_tier);
   ("alice", CreatePool "tokeny" "tokenx" v_tier SP_ONE 0);
   ("alice", CreatePosition v_key (-10) 30 1000000000000 SP_ONE SP_ONE);
   ("bob", CreatePosition v_key 10 20 20000000000000000 SP_ONE SP_ONE);
   ("carol", Swap v_key false 499 false 1000500100010000000000000)]%string.
Definition grant_run : res (store * store * list out_msg * list (string * Z)) :=
  let* s := start 10000000000 grant_calls in
  let* '(s1, m1, a1) := execute v_env (v_info "dave") s (Swap v_key false 400 true MAX_SQRT_PRICE) in
  Ok (s, s1, m1, a1).
Theorem C16_fees_refuted : exists k s s' ms out p p', reachable s /\
  execute v_env (v_info "dave") s (Swap k false 400 true MAX_SQRT_PRICE) = Ok (s', ms, [("amount_in"%string, 400); ("amount_out"%string, out)]) /\
  st_pools s !! k = Some p /\ st_pools s' !! k = Some p' /\
  unpaid false s' k p' > unpaid false s k p + 10 ^ 34 * 40000.
Proof.
  destruct (done_inv (fun '(s, s1, m1, a1) => a1 = [("amount_in"%string, 400); ("amount_out"%string, 396)] /\
     match st_pools s !! v_key, st_pools s1 !! v_key with Some p, Some p1 => unpaid false s1 v_key p1 > unpaid false s v_key p + 10 ^ 34 * 40000
     | _, _ => False end) grant_run) as ([[[s s1] m1] a1] & E & A1 & P).
  { vm_compute. repeat split; reflexivity. }
  unfold grant_run in E. inv_bind E as s0 E0. inv_bind E as [[s3 m3] a3] E1.
  apply Ok_inj in E. injection E as -> -> -> ->. apply (some_inv (fun p : pool => _)) in P. destruct P as (p & Ep & P).
  apply (some_inv (fun p2 : pool => _)) in P. destruct P as (p2 & Ep2 & P).
  subst a1. exists v_key, s, s1, m1, 396, p, p2.
  exact (conj (start_reachable _ _ _ E0) (conj E1 (conj Ep (conj Ep2 P)))).
Qed.

(** ** Examples *)
(** bob's swap of [sc0] starts from these calls *)
Definition ex_fee_run : res (store * store * list out_msg * list (string * Z)) :=
  let* s := start 10000000000 (take 5 sc0_calls) in
  let* '(s1, m1, a1) := execute v_env (v_info "bob") s (Swap v_key true 14000 true MIN_SQRT_PRICE) in
  Ok (s, s1, m1, a1).
Example ex_C16 : exists s s' ms at' p p', clean_history s /\ clean_call v_env (v_info "bob") s (Swap v_key true 14000 true MIN_SQRT_PRICE) /\
  execute v_env (v_info "bob") s (Swap v_key true 14000 true MIN_SQRT_PRICE) = Ok (s', ms, at') /\
  st_pools s !! v_key = Some p /\ st_pools s' !! v_key = Some p' /\
  p_tick p = 0 /\ p_tick p' = -20 /\ unpaid true s' v_key p' / 10 ^ 34 = 82 /\ p_protx p' = 2.
Proof.
  destruct (done_inv (fun '(s, s1, m1, a1) => is_ok (clean_start 10000000000 (take 5 sc0_calls)) = true /\
     clean_callb v_env s (Swap v_key true 14000 true MIN_SQRT_PRICE) = true /\
     match st_pools s !! v_key, st_pools s1 !! v_key with Some p, Some p1 => 
       p_tick p = 0 /\ p_tick p1 = -20 /\ unpaid true s1 v_key p1 / 10 ^ 34 = 82 /\ p_protx p1 = 2
     | _, _ => False end) ex_fee_run) as ([[[s s1] m1] a1] & E & CL & CC & P).
  { vm_compute. repeat split; reflexivity. }
  unfold ex_fee_run in E. inv_bind E as s0 E0. inv_bind E as [[s3 m3] a3] E1.
  apply Ok_inj in E. injection E as -> -> -> ->. apply (some_inv (fun p : pool => _)) in P. destruct P as (p & Ep & P).
  apply (some_inv (fun p2 : pool => _)) in P. destruct P as (p2 & Ep2 & P).
  exists s, s1, m1, a1, p, p2. pose proof (start_reachable _ _ _ E0) as R.
  exact (conj (clean_by_check _ _ _ E0 CL) (conj (clean_callb_sound _ _ _ _ (reachable_ereach _ R) CC) (conj E1 (conj Ep (conj Ep2 P))))).
Qed.
Definition ex_cycle_run : res (store * store * store * list out_msg * list out_msg * list (string * Z) * list (string * Z)) :=
  let* s := start 10000000000 cycle_calls in
  let* '(s1, m1, a1) := execute v_env (v_info "carol") s (Swap v_key true 20200 false 999800000000000000000000) in
  let* '(s2, m2, a2) := execute v_env (v_info "carol") s1 (Swap v_key false 20204 false SP_ONE) in
  Ok (s, s1, s2, m1, m2, a1, a2).
Example ex_C27 : exists s s' p p', clean_history s /\ swaps clean_call v_key s s' 123 122 2000 /\
  st_pools s !! v_key = Some p /\ st_pools s' !! v_key = Some p' /\ p_price p' = p_price p.
Proof.
  destruct (done_inv (fun '(s, s1, s2, m1, m2, a1, a2) => a1 = [("amount_in"%string, 20327); ("amount_out"%string, 20200)] /\
     a2 = [("amount_in"%string, 20322); ("amount_out"%string, 20204)] /\ is_ok (clean_start 10000000000 cycle_calls) = true /\
     clean_callb v_env s (Swap v_key true 20200 false 999800000000000000000000) = true /\ clean_callb v_env s1 (Swap v_key false 20204 false SP_ONE) = true /\
     match st_pools s !! v_key, st_pools s2 !! v_key with Some p, Some p2 => p_price p2 = p_price p | _, _ => False end) ex_cycle_run)
     as ([[[[[[s s1] s2] m1] m2] a1] a2] & E & A1 & A2 & CL & C1 & C2 & P).
  { vm_compute. repeat split; reflexivity. }
  unfold ex_cycle_run in E. inv_bind E as s0 E0. inv_bind E as [[s3 m3] a3] E1. inv_bind E as [[s4 m4] a4] E2.
  apply Ok_inj in E. injection E as -> -> -> -> -> -> ->. subst a1 a2. apply (some_inv (fun p : pool => _)) in P. destruct P as (p & Ep & P).
  apply (some_inv (fun p2 : pool => _)) in P. destruct P as (p2 & Ep2 & P).
  pose proof (start_reachable _ _ _ E0) as R. pose proof (reach_call _ _ _ _ _ _ _ R E1) as R1.
  exists s, s2, p, p2.
  split; [exact (clean_by_check _ _ _ E0 CL)|]. split; [|exact (conj Ep (conj Ep2 P))].
  assert (S2 : swaps clean_call v_key s1 s2 (-20204 + 0) (20322 + 0) (Z.of_nat (e_gas v_env) + 0)).
  { eapply (sws_swap clean_call v_key v_env _ s1 false _ _ _ s2 _ 20322 20204); [|exact E2|constructor].
    exact (clean_callb_sound _ _ _ _ (reachable_ereach _ R1) C2). }
  exact (sws_swap clean_call v_key v_env _ s true _ _ _ s1 _ 20327 20200 s2 _ _ _ (clean_callb_sound _ _ _ _ (reachable_ereach _ R) C1) E1 S2).
Qed.
