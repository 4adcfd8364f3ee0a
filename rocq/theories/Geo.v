(** Pool geometry in all reachable states; histories whose swaps cross every tick they pass. *)
From Verif Require Import Base Decimal SqrtPrice Clamm Log FeeGrowth Types Tick Pool Position
  Tickmap Keys State Swap Exec Tactics PriceProofs LogProofs ClammProofs BitmapProofs Frame Handlers History Basic
  SwapInv SwapGeo SwapLoop Modify PSum LiqInv.
From stdpp Require Import gmap strings.
From Coq Require Import Lia.
Open Scope Z_scope.

Definition geo_inv (s : store) : Prop := forall k p, st_pools s !! k = Some p -> pool_geo k p.

Lemma pool_create_geo k price tick now r p : tier_valid (pk_tier k) -> check_tick tick (spacing k) = Ok tt ->
  pool_create price tick now (spacing k) r = Ok p -> pool_geo k p.
Proof.
  intros [S1 _] C H. unfold pool_create in H. inv_bind H as ok E. destruct ok; [|done]. cbn in H. apply Ok_inj in H. subst p.
  assert (S1' : 1 <= spacing k) by lia. apply check_tick_legal in C; [|done].
  split; cbn; [|unfold U128MAX; lia]. unfold check_tick_to_sqrt_price_relationship in E.
  destruct (Z.ltb_spec MAX_TICK (tick + spacing k)) as [T|T].
  - inv_bind E as m EM. apply Ok_inj in E. apply Z.eqb_eq in E. subst m.
    apply calculate_sqrt_price_inv in EM. destruct EM as [_ EM]. rewrite (get_max_top _ S1') in EM.
    pose proof (legal_top _ _ S1' C) as [_ CT].
    assert (tick = SwapGeo.top (spacing k)) as ->.
    { destruct (Z.eq_dec tick (SwapGeo.top (spacing k))); [done|]. destruct (legal_next _ _ S1' C ltac:(lia)). lia. }
    rewrite EM. apply rest_at; [done|by apply top_legal].
  - inv_bind E as lo EL. inv_bind E as up EU. apply Ok_inj in E. apply negb_true_iff, orb_false_iff in E. destruct E as [E1 E2].
    apply Z.leb_gt in E1. apply Z.ltb_ge in E2.
    apply calculate_sqrt_price_inv in EL, EU. destruct EL as [_ ->]. destruct EU as [_ ->].
    assert (L' : legal_tick (spacing k) (tick + spacing k)).
    { destruct C as [C1 C2]. split; [lia|]. rewrite Z.add_mod, C2, Z.mod_same by lia. done. }
    split; [done|]. split; [|done]. pose proof (legal_top _ _ S1' L').
    pose proof (legal_price_le _ _ _ L' (top_legal _ S1') ltac:(lia)). lia.
Qed.

Lemma ereach_store_geo s k p : ereach s -> st_pools s !! k = Some p -> store_geo s k.
Proof.
  intros R E. destruct (kv_tier _ (ereach_pools _ R _ _ E)) as [S1 F].
  constructor; [by apply ereach_chunks|done|done|by apply ereach_indexed].
Qed.

Lemma swap_geo gas s now k d a by_in lim r p : store_geo s k -> st_pools s !! k = Some p -> pool_geo k p -> 0 <= a <= U128MAX ->
  calculate_swap gas s now k d a by_in lim = Ok r -> pool_geo k (cr_pool r).
Proof.
  intros G E PG A C. apply calculate_swap_run in C. destruct C as (p' & w & E' & _ & D & R & _ & ->). rewrite E in E'. injection E' as <-.
  pose proof (loop_start k d lim p a PG A D) as I. destruct (run_geo _ _ _ _ _ _ _ _ G I R) as ([] & Z0 & _). cbn.
  split; [|done]. auto.
Qed.

Lemma save_geo s k p p0 : geo_inv s -> st_pools s !! k = Some p0 -> (pool_geo k p0 -> pool_geo k p) ->
  forall k' p', <[k := p]> (st_pools s) !! k' = Some p' -> pool_geo k' p'.
Proof.
  intros I E H k' p' Q. apply lookup_insert_Some in Q. destruct Q as [[<- <-]|[_ Q]]; [|by apply I]. apply H, I, E.
Qed.

Lemma effect_geo e i s s' ms : ereach s -> effect e i s s' ms -> geo_inv s -> geo_inv s'.
Proof.
  intros R H I. pose proof (ereach_indexed _ R) as IX. pose proof (ereach_liq _ R) as LI.
  destruct H as [c A C|k p E Rc|k p r A E|k p b t0 t1 price tick E T N B CT PR PC|k d a by_in lim s' ms r Ha Hl H
                |k lower upper liq sl su s' ms at' Hq Hlo Hup H|ix s' ms at' H|ix s' ms at' H
                |o ix po s1 r s' ms E Rm A M|o ix po l E|m]; try exact I.
  - intros k' p' Q. eapply (save_geo s k _ p I E); [|exact Q]. intros X; exact X.
  - intros k' p' Q. eapply (save_geo s k _ p I E); [|exact Q]. intros X; exact X.
  - intros k' p' Q. cbn in Q. apply lookup_insert_Some in Q. destruct Q as [[<- <-]|[_ Q]]; [|by apply I].
    eapply pool_create_geo; [|exact CT|exact PC]. exact (proj1 (Forall_forall _ _) (co_tiers _ (ereach_config _ R)) _ T).
  - apply swap_internal_inv in H. destruct H as (C & (s1 & U & ->) & _). apply update_ticks_inv in U.
    destruct (calculate_swap_frame _ _ _ _ _ _ _ _ _ C) as (p & Ep & _).
    pose proof (swap_geo _ _ _ _ _ _ _ _ _ _ (ereach_store_geo _ _ _ R Ep) Ep (I _ _ Ep) Ha C) as G.
    subst s1. intros k' p' Q. cbn in Q. apply lookup_insert_Some in Q. destruct Q as [[<- <-]|[_ Q]]; [done|by apply I].
  - apply create_position_inv in H; [|done].
    destruct H as (p0 & lt & ut & po & p' & lt' & ut' & x & y & bm1 & bm2 & m0 & m1 & HL & HN & Ep & Sl & Su & B1 & B2 & PC & PL & _ & _ & _ & _ & ->).
    destruct (kv_tier _ (ereach_pools _ R _ _ Ep)) as [S1 _].
    destruct (stored_pre _ _ _ _ _ _ LI S1 Sl) as [TL GL]. destruct (stored_pre _ _ _ _ _ _ LI S1 Su) as [TU GU].
    unfold position_create in PC. destruct (_ || _); [done|]. inv_bind PC as [[[[[po1 p1] u1] l1] x1] y1] EM.
    apply Ok_inj in PC. injection PC as <- <- <- <- <- <-.
    apply position_modify_inv in EM; [|lia|apply TU|apply TL]. destruct EM as (ox & oy & F). destruct F.
    intros k' q Q. eapply (save_geo s k _ p0 I Ep); [|exact Q]. intros [X1 X2]. rewrite mf_pool in *. split; [exact X1|]. apply mf_pliq. exact X2.
  - apply claim_fee_inv in H; [|done].
    destruct H as (po & lt & ut & p0 & po' & p' & lt' & ut' & x & y & Epo & _ & El & Eu & Ep & PC & _ & _ & Iu & Il & ->).
    pose proof (lq_tick _ LI (po_key po) (po_lower po)) as TL. rewrite El in TL. destruct TL as [TL GL].
    pose proof (lq_tick _ LI (po_key po) (po_upper po)) as TU. rewrite Eu in TU. destruct TU as [TU GU].
    unfold position_claim_fee in PC. inv_bind PC as [[[[[po1 p1] u1] l1] x1] y1] EM. apply Ok_inj in PC. injection PC as <- <- <- <- <- <-.
    apply position_modify_inv in EM; [|lia|apply TU|apply TL]. destruct EM as (ox & oy & F). destruct F.
    intros k' q Q. eapply (save_geo s _ _ p0 I Ep); [|exact Q]. intros [X1 X2]. rewrite mf_pool in *. split; [exact X1|]. apply mf_pliq. exact X2.
  - apply remove_position_exec_inv in H; [|done].
    destruct H as (po & lt & ut & p0 & po' & p' & lt' & ut' & x & y & dl & du & bm1 & bm2 & m' & Epo & _ & El & Eu & Ep & PC & _ & _ & Iu & Il & B1 & B2 & SR & ->).
    pose proof (lq_tick _ LI (po_key po) (po_lower po)) as TL. rewrite El in TL. destruct TL as [TL GL].
    pose proof (lq_tick _ LI (po_key po) (po_upper po)) as TU. rewrite Eu in TU. destruct TU as [TU GU].
    unfold position_remove in PC. inv_bind PC as [[[[[po1 p1] u1] l1] x1] y1] EM. inv_bind PC as x2 EX. inv_bind PC as y2 EY.
    apply Ok_inj in PC. injection PC as <- <- <- <- <- <- <- <-.
    destruct (lq_pos _ LI _ _ Epo) as [(V1 & _ & _ & V4) _].
    apply position_modify_inv in EM; [|lia|apply TU|apply TL]. destruct EM as (ox & oy & F). destruct F.
    intros k' q Q. eapply (save_geo s _ _ p0 I Ep); [|exact Q]. intros [X1 X2]. rewrite mf_pool in *. split; [exact X1|]. apply mf_pliq. exact X2.
  - apply remove_position_inv in Rm. destruct Rm as (_ & PL & m & SR & ->).
    apply add_position_inv in A. destruct A as (-> & _). exact I.
Qed.
Lemma ereach_geo s : ereach s -> geo_inv s.
Proof.
  induction 1 as [i f s H|e i s s' ms R IH H].
  - apply instantiate_inv in H. destruct H as [-> _]. intros k p E. cbn in E. by rewrite lookup_empty in E.
  - eapply effect_geo; eauto.
Qed.

(** ** Total liquidity *)
(** all legal ticks of a spacing *)
Definition legal_list (sp : Z) : list Z := map (fun n => (n - MAX_TICK / sp) * sp) (seqZ 0 (2 * (MAX_TICK / sp) + 1)).
Lemma legal_list_in sp t : 1 <= sp -> legal_tick sp t -> t ∈ legal_list sp.
Proof.
  intros S1 L. pose proof (div_range sp t S1 L). pose proof (legal_mult sp t S1 L). apply elem_of_list_fmap.
  exists (t / sp + MAX_TICK / sp). split; [lia|]. apply elem_of_seqZ. lia.
Qed.
Lemma legal_list_nodup sp : 1 <= sp -> NoDup (legal_list sp).
Proof. intros S1. apply NoDup_fmap_2; [|apply NoDup_seqZ]. intros a b E. nia. Qed.

Definition liq_of (k : pool_key) (po : position) : Z := at_key k po (po_liq po).
Lemma active_le k c po : 0 <= po_liq po -> 0 <= active_at k c po <= liq_of k po.
Proof. intros H. unfold active_at, liq_of, at_key. destruct (decide _); [|lia]. destruct (in_range_tick _ _ _); lia. Qed.

Lemma total_bound s k : liq_inv s -> 1 <= spacing k <= 100 -> 0 <= psum (liq_of k) (st_positions s) <= U128MAX.
Proof.
  intros I S1. assert (P : forall x po, st_positions s !! x = Some po -> 0 <= po_liq po).
  { intros x po E. apply (lq_pos _ I) in E. destruct E as [(V & _) _]. lia. }
  split.
  { apply psum_nonneg. intros x po E. specialize (P _ _ E). unfold liq_of, at_key. destruct (decide _); lia. }
  set (sp := spacing k) in *. set (l := legal_list sp).
  assert (Q : 2 * psum (liq_of k) (st_positions s) = lsum (fun t => psum (gross_at k t) (st_positions s)) l).
  { rewrite <- psum_scale, <- psum_lsum. apply psum_ext. intros x po E. pose proof (lq_pos _ I _ _ E) as [(V1 & V2 & V3 & V4) _].
    unfold liq_of, gross_at, at_key. destruct (decide (po_key po = k)) as [K|]; [|symmetry; rewrite (lsum_const 0); lia].
    rewrite K in V2, V3. fold sp in V2, V3.
    rewrite lsum_add.
    assert (X : forall z, legal_tick sp z -> lsum (fun a => if z =? a then po_liq po else 0) l = po_liq po).
    { intros z Lz. etransitivity; [|apply (lsum_single z (po_liq po) l); [apply legal_list_nodup; lia|apply legal_list_in; [lia|done]]].
      apply lsum_ext. intros a _. destruct (Z.eqb_spec z a), (decide (a = z)); congruence || done. }
    rewrite !X by done. lia. }
  assert (B : lsum (fun t => psum (gross_at k t) (st_positions s)) l <= lsum (fun _ => calculate_max_liquidity_per_tick sp) l).
  { apply lsum_le. intros t _. pose proof (lq_tick _ I k t) as T. pose proof (max_per_tick_pos sp S1).
    destruct (st_ticks s !! (k, t)); cbn in T; [destruct T as [[] T]; fold sp in T|]; lia. }
  assert (M : 0 <= MAX_TICK / sp) by (apply Z.div_pos; [done|lia]).
  assert (LEN : Z.of_nat (length l) = 2 * (MAX_TICK / sp) + 1).
  { unfold l, legal_list. rewrite map_length, seqZ_length. lia. }
  rewrite lsum_const, LEN in B.
  assert (N : 2 * (MAX_TICK / sp) + 1 <= 2 * ((2 * MAX_TICK + 1) / sp)).
  { assert (2 * (MAX_TICK / sp) <= (2 * MAX_TICK + 1) / sp).
    { apply Z.div_le_lower_bound; [lia|]. pose proof (Z.mul_div_le MAX_TICK sp ltac:(lia)). lia. }
    assert (1 <= (2 * MAX_TICK + 1) / sp) by (apply Z.div_le_lower_bound; [lia|]; change MAX_TICK with 221818; lia). lia. }
  unfold calculate_max_liquidity_per_tick in B. set (n := (2 * MAX_TICK + 1) / sp) in *.
  assert (n * (U128MAX / n) <= U128MAX) by (apply Z.mul_div_le; lia).
  pose proof (max_per_tick_pos sp S1) as MP. unfold calculate_max_liquidity_per_tick in MP. fold n in MP.
  pose proof (Z.mul_le_mono_nonneg_l _ _ (U128MAX / n) ltac:(lia) N) as NN. rewrite <- Q in B.
  set (M0 := U128MAX / n) in *. clearbody n M0. lia.
Qed.
