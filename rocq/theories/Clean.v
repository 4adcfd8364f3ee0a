(** Histories in which every swap crossed every initialized tick it passed, and the active liquidity in them. *)
From Verif Require Import Base Decimal SqrtPrice Clamm Log FeeGrowth Types Tick Pool Position
  Tickmap Keys State Swap Exec Tactics PriceProofs LogProofs ClammProofs BitmapProofs Frame Handlers History Basic
  SwapInv SwapGeo SwapLoop Modify PSum LiqInv Geo Ops.
From stdpp Require Import gmap strings.
From Coq Require Import Lia.
Open Scope Z_scope.

(** a swap is clean if the ticks it crossed are exactly the initialized ticks between the old and the new current tick *)
Definition clean_swap (e : env) (s : store) (k : pool_key) (d : bool) (a : Z) (by_in : bool) (lim : Z) : Prop :=
  forall r p, calculate_swap (e_gas e) s (e_millis e) k d a by_in lim = Ok r -> st_pools s !! k = Some p ->
    crossed_exactly s k d (p_tick p) (p_tick (cr_pool r)) (cr_ticks r).
Fixpoint clean_hops (e : env) (i : msg_info) (s : store) (a : Z) (hops : list swap_hop) : Prop :=
  match hops with
  | [] => True
  | h :: rest =>
      clean_swap e s (hop_key h) (hop_x_to_y h) a true (hop_limit (hop_x_to_y h)) /\
      forall s' m r, swap_internal e i s (hop_key h) (hop_x_to_y h) a true (hop_limit (hop_x_to_y h)) = Ok (s', m, r) ->
        clean_hops e i s' (cr_out r) rest
  end.
Definition clean_call (e : env) (i : msg_info) (s : store) (m : exec_msg) : Prop :=
  match m with
  | Swap k d a by_in lim => clean_swap e s k d a by_in lim
  | SwapRoute a _ _ hops => clean_hops e i s a hops
  | _ => True
  end.
Inductive clean_history : store -> Prop :=
| ch_init i f s : instantiate i f = Ok s -> clean_history s
| ch_call e i s m s' ms at' : clean_history s -> clean_call e i s m -> execute e i s m = Ok (s', ms, at') -> clean_history s'.

Inductive ceffect (e : env) (i : msg_info) (s : store) : store -> list out_msg -> Prop :=
| ce_other s' ms : effect0 e i s s' ms -> ceffect e i s s' ms
| ce_swap k d a by_in lim s' ms r : 0 <= a <= U128MAX -> 0 <= lim <= U128MAX ->
    swap_internal e i s k d a by_in lim = Ok (s', ms, r) -> clean_swap e s k d a by_in lim -> ceffect e i s s' ms.
Inductive creach : store -> Prop :=
| cr_init i f s : instantiate i f = Ok s -> creach s
| cr_step e i s s' ms : creach s -> ceffect e i s s' ms -> creach s'.

Lemma ceffect_effect e i s s' ms : ceffect e i s s' ms -> effect e i s s' ms.
Proof.
  intros [s1 m1 H|k d a by_in lim s1 m1 r Ha Hl H _]; [by apply effect0_effect|]. eapply ef_swap; [exact Ha|exact Hl|exact H].
Qed.
Lemma creach_ereach s : creach s -> ereach s.
Proof. induction 1; [eapply er_init; eassumption|]. eapply er_step; [eassumption|]. by eapply ceffect_effect. Qed.

Lemma clean_hops_creach e i hops : forall s a s' ms out, creach s -> 0 <= a <= U128MAX -> clean_hops e i s a hops ->
  swap_route_internal e i s a hops = Ok (s', ms, out) -> creach s'.
Proof.
  induction hops as [|h hops IH]; intros s a s' ms out R Ha C H; cbn in H.
  - simplify_eq. done.
  - inv_bind H as [[s1 m1] r] E. inv_bind H as [[s2 m2] o] E2. apply Ok_inj in H. simplify_eq. destruct C as [C1 C2].
    eapply IH; [| |by eapply C2|exact E2].
    + eapply cr_step; [exact R|]. eapply ce_swap; [exact Ha| |exact E|exact C1].
      destruct (hop_x_to_y h); cbn; unfold MIN_SQRT_PRICE, MAX_SQRT_PRICE, U128MAX; lia.
    + apply swap_internal_inv in E as (E & _). apply calculate_swap_out in E. tauto.
Qed.
Lemma clean_history_creach s : clean_history s -> creach s.
Proof.
  induction 1 as [i f s H|e i s m s' ms at' _ IH C H]; [eapply cr_init, H|].
  apply execute_split in H. destruct H as [H|[(k & d & a & by_in & lim & r & -> & Ha & Hl & H)|(a & x & sl & hops & out & -> & Ha & H)]].
  - eapply cr_step; [exact IH|by apply ce_other].
  - eapply cr_step; [exact IH|]. eapply ce_swap; [exact Ha|exact Hl|exact H|exact C].
  - eapply clean_hops_creach; [exact IH|exact Ha|exact C|exact H].
Qed.
Lemma clean_history_reachable s : clean_history s -> reachable s.
Proof. induction 1; [eapply reach_init|eapply reach_call]; eassumption. Qed.

(** ** Active liquidity *)
Definition act (s : store) (k : pool_key) (c : Z) : Z := psum (active_at k c) (st_positions s).
Definition act_inv (s : store) : Prop := forall k p, st_pools s !! k = Some p -> p_liq p = act s k (p_tick p).

Lemma act_exact s k c c' : liq_inv s -> exact s k (spacing k) c c' -> act s k c = act s k c'.
Proof.
  intros I X. apply psum_ext. intros x po E. unfold active_at, at_key. destruct (decide (po_key po = k)) as [<-|]; [|done].
  pose proof (X _ (bound_init s x po _ I E (or_introl eq_refl))). pose proof (X _ (bound_init s x po _ I E (or_intror eq_refl))).
  unfold in_range_tick. destruct (Z.leb_spec (po_lower po) c), (Z.leb_spec (po_lower po) c'), (Z.ltb_spec c (po_upper po)), (Z.ltb_spec c' (po_upper po)); cbn; try done; lia.
Qed.
Lemma act_jump s k t tk : liq_inv s -> 1 <= spacing k -> st_ticks s !! (k, t) = Some tk -> act s k t - act s k (t - spacing k) = net tk.
Proof.
  intros I S1 T. pose proof (lq_tick _ I k t) as G. rewrite T in G. destruct G as [[] _]. rewrite tp_net. unfold act.
  rewrite <- psum_sub. apply psum_ext. intros x po E. unfold active_at, net_at, at_key. destruct (decide (po_key po = k)) as [K|]; [|lia].
  apply (lq_pos _ I) in E. destruct E as [(_ & L1 & L2 & O) _]. rewrite K in L1, L2.
  assert (G : forall b, legal_tick (spacing k) b -> (b <= t - spacing k <-> b < t)).
  { intros b Lb. split; [lia|]. intros H. pose proof (legal_gap _ _ _ S1 Lb tp_legal H). lia. }
  pose proof (G _ L1). pose proof (G _ L2). unfold in_range_tick.
  destruct (Z.leb_spec (po_lower po) t), (Z.leb_spec (po_lower po) (t - spacing k)), (Z.ltb_spec t (po_upper po)),
    (Z.ltb_spec (t - spacing k) (po_upper po)), (Z.eqb_spec (po_lower po) t), (Z.eqb_spec (po_upper po) t); cbn; lia.
Qed.

(** a clean swap as a [grun] *)
Lemma clean_grun gas s now k d a by_in lim r p : store_geo s k -> st_pools s !! k = Some p -> pool_geo k p -> 0 <= a <= U128MAX ->
  calculate_swap gas s now k d a by_in lim = Ok r ->
  crossed_exactly s k d (p_tick p) (p_tick (cr_pool r)) (cr_ticks r) ->
  exists w, grun s now k d by_in lim (mkSwapState p a 0 0 0 []) w /\ sw_out w <> 0 /\ NoDup (map t_index (sw_ticks w)) /\
    loop_inv k d lim (mkSwapState p a 0 0 0 []) /\
    r = mkCalc (sw_in w) (sw_out w) (p_price p) (p_price (sw_pool w)) (sw_fee w) (sw_pool w) (sw_ticks w).
Proof.
  intros G E PG Ha C K. apply calculate_swap_run in C. destruct C as (p' & w & E' & _ & D & R & O & ->). rewrite E in E'. injection E' as <-.
  pose proof (loop_start k d lim p a PG Ha D) as I. exists w.
  assert (D' : if d then p_price p <= p_price p else p_price p <= p_price p) by (destruct d; lia).
  split; [|split; [done|split; [|done]]].
  - eapply run_good; [exact G|exact PG|exact I|exact D'|apply crossed_nil|exact R|exact K].
  - eapply (run_ticks _ _ _ _ _ _ p); [exact G|exact PG|exact I|exact D'|apply crossed_nil|apply NoDup_nil_2|exact R].
Qed.

Lemma clean_swap_liq e s k d a by_in lim r p : ereach s -> st_pools s !! k = Some p -> 0 <= a <= U128MAX ->
  p_liq p = act s k (p_tick p) -> clean_swap e s k d a by_in lim ->
  calculate_swap (e_gas e) s (e_millis e) k d a by_in lim = Ok r ->
  p_liq (cr_pool r) = act s k (p_tick (cr_pool r)).
Proof.
  intros R E Ha A CS C. pose proof (ereach_store_geo _ _ _ R E) as G. pose proof (ereach_geo _ R _ _ E) as PG. pose proof (ereach_liq _ R) as LI.
  destruct (clean_grun _ _ _ _ _ _ _ _ _ _ G E PG Ha C (CS _ _ C E)) as (w & GR & _ & _ & _ & ->). cbn.
  destruct (sg_sp _ _ G) as [S1 _].
  refine (grun_liq _ _ _ _ _ _ (act s k) (mkSwapState p a 0 0 0 []) w _ _ S1 _ A GR).
  - intros c c' X. by apply act_exact.
  - intros t tk _ T. by apply act_jump.
  - intros t tk TI _. by eapply is_init_legal.
Qed.

Lemma act_cores s s' k c : cores_kept (st_positions s) (st_positions s') -> act s' k c = act s k c.
Proof. intros C. apply C. apply active_core. Qed.

Lemma act_inv_cores s s' : act_inv s -> cores_kept (st_positions s) (st_positions s') ->
  (forall k p', st_pools s' !! k = Some p' -> exists p, st_pools s !! k = Some p /\ p_liq p' = p_liq p /\ p_tick p' = p_tick p) -> act_inv s'.
Proof.
  intros A C P k p' E. destruct (P k p' E) as (p & E0 & -> & ->). rewrite (act_cores _ _ _ _ C). by apply A.
Qed.

Lemma effect0_act e i s s' ms : ereach s -> effect0 e i s s' ms -> act_inv s -> act_inv s'.
Proof.
  intros R H A. pose proof (ereach_liq _ R) as LI. pose proof (ereach_pos_ok _ R) as PO.
  assert (SAVE : forall k p p', st_pools s !! k = Some p -> p_liq p' = p_liq p -> p_tick p' = p_tick p -> act_inv (save_pool s k p')).
  { intros k p p' E L T. eapply (act_inv_cores s); [done|apply cores_kept_refl|]. intros kk q Q. cbn in Q. apply lookup_insert_Some in Q.
    destruct Q as [[<- <-]|[_ Q]]; eauto. }
  destruct H as [c Ad C|k p E Rc|k p r Ad E|k p b t0 t1 price tick E T N B CT PR PC
                |k lower upper liq sl su s' ms at' Hq Hlo Hup H|ix s' ms at' H|ix s' ms at' H
                |o ix po s1 r s' ms E Rm Ap M|o ix po l E|m]; try exact A.
  - by eapply SAVE.
  - by eapply SAVE.
  - intros kk q Q. cbn in Q. apply lookup_insert_Some in Q. destruct Q as [[<- <-]|[_ Q]]; [|by apply A].
    unfold pool_create in PC. inv_bind PC as ok EO. destruct ok; [|done]. apply Ok_inj in PC. subst p. cbn.
    symmetry. unfold act. cbn. rewrite <- (psum_zero (st_positions s)). apply psum_ext. intros x po Epo. unfold active_at, at_key.
    destruct (decide (po_key po = k)) as [<-|]; [|done]. apply (lq_pos _ LI) in Epo. destruct Epo as [_ [? Epo]]. congruence.
  - apply create_inv in H; [|done|done]. destruct H as (p & lt & ut & po & p' & lt' & ut' & x & y & bm1 & bm2 & m0 & m1 & []).
    destruct cx_mod. rewrite cx_store. intros kk q Q. cbn in Q. unfold act. cbn. rewrite psum_new by done.
    apply lookup_insert_Some in Q. destruct Q as [[<- <-]|[NK Q]].
    + rewrite mf_pool. cbn. rewrite mf_pos. unfold active_at, at_key. cbn. rewrite decide_True by done.
      rewrite (tp_index _ _ _ _ cx_lowp), (tp_index _ _ _ _ cx_upp). rewrite (A _ _ cx_pool). unfold act. fold (active_at k (p_tick p)).
      rewrite Z.add_comm. done.
    + rewrite (A _ _ Q). unfold act. rewrite mf_pos. unfold active_at at 2, at_key. cbn. rewrite decide_False by congruence. done.
  - apply claim_inv in H; [|done]. destruct H as (po & p & lt & ut & po1 & p' & lt' & ut' & zx & zy & ox & oy & []). destruct cl_mod.
    rewrite cl_store. eapply (act_inv_cores s); [done| |].
    + cbn. eapply cores_kept_write; [exact cl_pos|..]; rewrite mf_pos; cbn; lia || done.
    + intros kk q Q. cbn in Q. apply lookup_insert_Some in Q. destruct Q as [[<- <-]|[_ Q]]; [|eauto]. exists p. split; [done|].
      rewrite mf_pool. cbn. destruct (in_range_tick _ _ _); split; done || lia.
  - apply remove_inv in H; [|done]. destruct H as (po & p & lt & ut & po1 & p' & lt' & ut' & x & y & ox & oy & bm1 & bm2 & m' & []). destruct rx_mod.
    rewrite rx_store. intros kk q Q. cbn in Q. unfold act. cbn. rewrite (psum_removed _ _ _ _ _ _ _ rx_pos rx_list).
    apply lookup_insert_Some in Q. destruct Q as [[<- <-]|[NK Q]].
    + rewrite mf_pool. cbn. rewrite (A _ _ rx_pool). unfold act.
      assert (X : active_at (po_key po) (p_tick p) po = if in_range_tick (po_lower po) (po_upper po) (p_tick p) then po_liq po else 0)
        by (unfold active_at, at_key; by rewrite decide_True).
      rewrite X, (tp_index _ _ _ _ rx_lowp), (tp_index _ _ _ _ rx_upp). destruct (in_range_tick (po_lower po) (po_upper po) (p_tick p)); lia.
    + rewrite (A _ _ Q). unfold act.
      assert (X : active_at kk (p_tick q) po = 0) by (unfold active_at, at_key; by rewrite decide_False). rewrite X. lia.
  - apply remove_position_inv in Rm. destruct Rm as (_ & PL & m & SR & ->).
    apply add_position_inv in Ap. destruct Ap as (-> & _). eapply (act_inv_cores s); [done| |cbn; eauto]. cbn.
    rewrite plen_insert. eapply cores_kept_transfer; [exact E|exact SR| |done..]. eapply pos_fresh_removed; eauto.
  - eapply (act_inv_cores s); [done| |cbn; eauto]. cbn. eapply cores_kept_write; [exact E|done..].
Qed.

Lemma creach_act s : creach s -> act_inv s.
Proof.
  induction 1 as [i f s H|e i s s' ms R IH H].
  - apply instantiate_inv in H. destruct H as [-> _]. intros k p E. cbn in E. by rewrite lookup_empty in E.
  - apply creach_ereach in R. destruct H as [s' ms H|k d a by_in lim s' ms r Ha Hl H CS]; [by eapply effect0_act|].
    pose proof H as HK. apply swap_internal_kept in HK; [|by apply ereach_indexed].
    apply swap_internal_inv in H. destruct H as (C & (s1 & U & ->) & _). apply update_ticks_inv in U.
    destruct (calculate_swap_frame _ _ _ _ _ _ _ _ _ C) as (p & Ep & _).
    pose proof (clean_swap_liq _ _ _ _ _ _ _ _ _ R Ep Ha (IH _ _ Ep) CS C) as L.
    intros kk q Q. unfold act. rewrite (sk_positions _ _ _ HK). subst s1. cbn in Q. apply lookup_insert_Some in Q.
    destruct Q as [[<- <-]|[_ Q]]; [exact L|]. by apply IH.
Qed.
