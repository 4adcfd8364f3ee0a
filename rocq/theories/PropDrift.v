(** C95: by how much the active liquidity of a pool is wrong. *)
From Verif Require Import Base Decimal SqrtPrice Clamm Log FeeGrowth Types Tick Pool Position
  Tickmap Keys State Swap Exec Tactics PriceProofs LogProofs ClammProofs PropClamm BitmapProofs Frame Handlers History Basic
  Vectors Scenario SwapInv SwapGeo SwapLoop Modify PSum LiqInv Geo Ops Clean CleanSuff PropLiq.
From stdpp Require Import gmap strings.
From Coq Require Import Lia.
Open Scope Z_scope.

(** what the pool counts as active less what the positions in range add up to *)
Definition drift (s : store) (k : pool_key) : Z :=
  match st_pools s !! k with
  | Some p => p_liq p - psum (fun po => if decide (po_key po = k) then
       (if (po_lower po <=? p_tick p) && (p_tick p <? po_upper po) then po_liq po else 0) else 0) (st_positions s)
  | None => 0
  end.
(** the liquidity of the positions that begin at a tick less that of those that end there *)
Definition net_of (s : store) (k : pool_key) (t : Z) : Z :=
  psum (fun po => if decide (po_key po = k) then (if po_lower po =? t then po_liq po else 0) - (if po_upper po =? t then po_liq po else 0) else 0) (st_positions s).

Lemma drift_act s k p : st_pools s !! k = Some p -> drift s k = p_liq p - act s k (p_tick p).
Proof. unfold drift. intros ->. done. Qed.
Lemma net_of_jump s k t : liq_inv s -> 1 <= spacing k -> is_init s k (spacing k) t -> is_Some (st_pools s !! k) -> act s k t - act s k (t - spacing k) = net_of s k t.
Proof.
  intros LI S1 TI SP. destruct (proj1 (lq_init _ LI k t SP) TI) as [tk T]. rewrite (act_jump s k t tk LI S1 T).
  pose proof (lq_tick _ LI k t) as G. rewrite T in G. destruct G as [[] _]. exact tp_net.
Qed.

(** ** Everything but swaps *)
Lemma effect0_drift e i s s' ms k p' : ereach s -> effect0 e i s s' ms -> st_pools s' !! k = Some p' -> drift s' k = drift s k.
Proof.
  intros R H E'. rewrite (drift_act _ _ _ E'). pose proof (ereach_liq _ R) as LI. pose proof (ereach_pos_ok _ R) as PO.
  assert (KEEP : forall p, st_pools s !! k = Some p -> p_liq p' = p_liq p -> p_tick p' = p_tick p -> cores_kept (st_positions s) (st_positions s') -> p_liq p' - act s' k (p_tick p') = drift s k).
  { intros p E L T C. rewrite (act_cores _ _ _ _ C), (drift_act _ _ _ E), L, T. done. }
  destruct H as [c Ad C|kk p E Rc|kk p r Ad E|kk p b t0 t1 price tick E T N B CT PR PC
                |kk lower upper liq sl su s' ms at' Hq Hlo Hup H|ix s' ms at' H|ix s' ms at' H
                |o ix po s1 r s' ms E Rm Ap M|o ix po l E|m]; try (eapply KEEP; [exact E'|done|done|apply cores_kept_refl]; fail).
  - cbn in E'. apply lookup_insert_Some in E'. destruct E' as [[<- <-]|[_ E']]; [eapply KEEP; [exact E|done|done|apply cores_kept_refl]|]. by rewrite (drift_act _ _ _ E').
  - cbn in E'. apply lookup_insert_Some in E'. destruct E' as [[<- <-]|[_ E']]; [eapply KEEP; [exact E|done|done|apply cores_kept_refl]|]. by rewrite (drift_act _ _ _ E').
  - cbn in E'. apply lookup_insert_Some in E'. destruct E' as [[<- <-]|[_ E']]; [|by rewrite (drift_act _ _ _ E')].
    unfold pool_create in PC. inv_bind PC as ok EO. destruct ok; [|done]. apply Ok_inj in PC. subst p. cbn [p_liq p_tick].
    unfold drift. rewrite E.
    enough (A0 : act s kk tick = 0) by (unfold act in *; cbn; lia).
    unfold act. rewrite <- (psum_zero (st_positions s)). apply psum_ext. intros x po Epo. unfold active_at, at_key.
    destruct (decide (po_key po = kk)) as [<-|]; [|done]. apply (lq_pos _ LI) in Epo. destruct Epo as [_ [? Epo]]. congruence.
  - apply create_inv in H; [|done|done]. destruct H as (p & lt & ut & po & p1 & lt' & ut' & x & y & bm1 & bm2 & m0 & m1 & []).
    destruct cx_mod. rewrite cx_store in *. cbn in E'. unfold act. cbn. rewrite psum_new by done.
    apply lookup_insert_Some in E'. destruct E' as [[<- <-]|[NK Q]].
    + rewrite mf_pool. cbn. rewrite mf_pos. unfold active_at at 1, at_key. cbn. rewrite decide_True by done.
      rewrite (tp_index _ _ _ _ cx_lowp), (tp_index _ _ _ _ cx_upp). rewrite (drift_act _ _ _ cx_pool). unfold act. destruct (in_range_tick lower upper (p_tick p)); lia.
    + rewrite (drift_act _ _ _ Q). unfold act. rewrite mf_pos. unfold active_at at 1, at_key. cbn. rewrite decide_False by congruence. lia.
  - apply claim_inv in H; [|done]. destruct H as (po & p & lt & ut & po1 & p1 & lt' & ut' & zx & zy & ox & oy & []). destruct cl_mod.
    rewrite cl_store in *.
    match type of KEEP with context [cores_kept _ ?m] => assert (CK : cores_kept (st_positions s) m) by (cbn; eapply cores_kept_write; [exact cl_pos|..]; rewrite mf_pos; cbn; lia || done) end.
    cbn in E'. apply lookup_insert_Some in E'. destruct E' as [[<- <-]|[_ Q]].
    + eapply KEEP; [exact cl_pool| | |exact CK]; rewrite mf_pool; cbn; destruct (in_range_tick _ _ _); done || lia.
    + eapply KEEP; [exact Q|done|done|exact CK].
  - apply remove_inv in H; [|done]. destruct H as (po & p & lt & ut & po1 & p1 & lt' & ut' & x & y & ox & oy & bm1 & bm2 & m' & []). destruct rx_mod.
    rewrite rx_store in *. cbn in E'. unfold act. cbn. rewrite (psum_removed _ _ _ _ _ _ _ rx_pos rx_list).
    apply lookup_insert_Some in E'. destruct E' as [[<- <-]|[NK Q]].
    + rewrite (drift_act _ _ _ rx_pool), mf_pool. cbn. unfold act.
      assert (X : active_at (po_key po) (p_tick p) po = if in_range_tick (po_lower po) (po_upper po) (p_tick p) then po_liq po else 0)
        by (unfold active_at, at_key; by rewrite decide_True).
      rewrite X, (tp_index _ _ _ _ rx_lowp), (tp_index _ _ _ _ rx_upp). destruct (in_range_tick (po_lower po) (po_upper po) (p_tick p)); lia.
    + rewrite (drift_act _ _ _ Q). unfold act.
      assert (X : active_at k (p_tick p') po = 0) by (unfold active_at, at_key; by rewrite decide_False). rewrite X. lia.
  - apply remove_position_inv in Rm. destruct Rm as (_ & PL & m & SR & ->).
    apply add_position_inv in Ap. destruct Ap as (-> & _). cbn in E'. eapply KEEP; [exact E'|done|done|]. cbn.
    rewrite plen_insert. eapply cores_kept_transfer; [exact E|exact SR| |done..]. eapply pos_fresh_removed; eauto.
  - cbn in E'. eapply KEEP; [exact E'|done|done|]. cbn. eapply cores_kept_write; [exact E|done..].
Qed.

(** ** Swaps *)
Lemma tprice_gap sp a b : 1 <= sp -> legal_tick sp a -> legal_tick sp b -> a < b -> tprice a + 10 ^ 12 <= tprice b.
Proof.
  intros S1 La Lb AB. pose proof (legal_price_lt _ _ _ La Lb AB). destruct (tprice_mult a) as [x X]. destruct (tprice_mult b) as [y Y]. unfold FP_ONE in *. lia.
Qed.

(** the last move of a swap stopped at the price of a tick that begins or ends the range of positions, and the current tick became that tick without the
    tick being crossed; or it went below such a tick by a rounding *)
Definition slips (s : store) (k : pool_key) (d by_in : bool) (lim c' q' z : Z) : Prop :=
  exists t, is_init s k (spacing k) t /\
   (q' = tprice t /\ c' = t /\ z = - net_of s k t /\ (if d then by_in = true else q' = lim) \/
    d = true /\ by_in = true /\ c' = t - spacing k /\ q' < tprice t /\ (tprice t - q') * q' < 10 ^ 24 /\ z = net_of s k t).

Lemma iter_drift s now k d by_in lim w w1 : store_geo s k -> liq_inv s -> is_Some (st_pools s !! k) -> loop_inv k d lim w -> sw_remaining w <> 0 ->
  swap_iter s now k d by_in lim (end_tick d k) w = Ok w1 ->
  let z := (p_liq (sw_pool w1) - act s k (p_tick (sw_pool w1))) - (p_liq (sw_pool w) - act s k (p_tick (sw_pool w))) in
  z = 0 \/ sw_remaining w1 = 0 /\ slips s k d by_in lim (p_tick (sw_pool w1)) (p_price (sw_pool w1)) z.
Proof.
  intros G LI SPO I N H z. pose proof (loop_step _ _ _ _ _ _ _ _ G I N H) as [PO I1]. destruct (sg_sp _ _ G) as [S1 _].
  pose proof (io_move _ _ _ _ _ _ PO) as M. cbn in M. destruct M as [(TS & LQ & [X|[Z0 SK]])|(t & tk & t' & TI & TK & _ & _ & M)].
  - left. unfold z. rewrite LQ, (act_exact _ _ _ _ LI X). lia.
  - right. split; [done|].
    pose proof (skip_near _ _ _ _ _ _ _ _ G I N H TS Z0 SK) as NT.
    pose proof (loop_pre s k d lim w G I N) as PRE. pose proof (io_rest _ _ _ _ _ _ PO (or_intror Z0)) as (RS1 & RS2 & RS3). pose proof (io_dir _ _ _ _ _ _ PO) as DIR. clear PO.
    pose proof PRE as [U HS HF HL HW HR HLim HRem]. pose proof HW as (WL & WP & WU).
    pose proof H as H0. apply iter_cases in H0; [|done].
    destruct H0 as (t & init & sl & r & p0 & rm0 & T & SL & SA & ST & SIDE & E0 & R0 & AF & NL & IC & _).
    assert (P1 : p_price (sw_pool w1) = sr_next r).
    { destruct IC as [tk t' p1 _ _ _ _ TC _ ->|en _ _ _ _ ->|tk p2 _ _ _ _ _ D ->|c' _ _ ->]; cbn; try done.
      - apply tick_cross_inv in TC. destruct TC as (_ & _ & _ & _ & l & -> & _). done.
      - destruct D as [[_ ->]|(_ & _ & D)]; [done|]. apply add_fee_keeps in D. destruct D as (_ & _ & -> & _). done. }
    pose proof (C03_step_bounds_partial _ _ _ _ _ _ _ SA ST) as (B1 & B2 & B3 & B4 & _).
    pose proof T as (LT & _ & TD). destruct SK as (j & J & X). pose proof (is_init_legal _ _ _ _ S1 J) as JL.
    pose proof (legal_top _ _ S1 JL) as JT. rewrite <- P1 in *. set (q := p_price (sw_pool w1)) in *. set (q0 := p_price (sw_pool w)) in *. set (c := p_tick (sw_pool w)) in *. set (c1 := p_tick (sw_pool w1)) in *.
    assert (ACT : forall j c c', legal_tick (spacing k) c -> is_init s k (spacing k) j -> c < j -> (forall i, c < i < j -> ~ is_init s k (spacing k) i) -> c' = j -> act s k c' - act s k c = net_of s k j).
    { clear - LI S1 SPO. intros j c c' LC J CJ NI ->. rewrite <- (net_of_jump s k j LI S1 J SPO). pose proof (is_init_legal _ _ _ _ S1 J) as JL.
      rewrite (act_exact s k c (j - spacing k) LI); [done|]. apply exact_intro; [done|]. intros i IL II IX.
      destruct IX as [IX|IX]; [apply (NI i); [lia|done]|]. pose proof (legal_gap _ _ _ S1 LC JL CJ). lia. }
    destruct d.
    + destruct TD as (TD1 & TD2 & TD3). destruct NT as [-> _]. destruct X as [X|X].
      * (* back up *)
        pose proof (legal_gap _ _ _ S1 WL JL ltac:(lia)) as JG. specialize (WU ltac:(lia)).
        pose proof (legal_price_le _ _ _ (legal_next _ _ S1 WL ltac:(lia)) JL ltac:(lia)). pose proof (legal_price_le _ _ _ JL RS1 ltac:(lia)).
        assert (Q : q = tprice j) by lia.
        assert (CJ : c1 = j). { destruct (Z.eq_dec c1 j); [done|]. pose proof (legal_price_lt _ _ _ JL RS1 ltac:(lia)). lia. }
        exists j. split; [done|]. left. split; [done|]. split; [done|]. split; [|done]. unfold z. rewrite LQ.
        rewrite <- (ACT j c c1 WL J ltac:(lia)); [lia| |done]. intros i CI II. pose proof (is_init_legal _ _ _ _ S1 II) as IL. pose proof (legal_gap _ _ _ S1 WL IL ltac:(lia)).
        assert (tprice (c + spacing k) <= tprice i) by (eapply legal_price_le; [apply legal_next; [done|exact WL|lia]|exact IL|lia]).
        pose proof (legal_price_lt _ _ _ IL JL ltac:(lia)). lia.
      * assert (JX : j <= t). { destruct (Z.le_gt_cases j t); [done|]. exfalso. apply (TD3 j); [lia|done]. }
        pose proof (legal_gap _ _ _ S1 RS1 JL ltac:(lia)) as JG. specialize (RS3 ltac:(lia)). 
        assert (LN : legal_tick (spacing k) (c1 + spacing k)) by (apply legal_next; [done|exact RS1|lia]).
        pose proof (legal_price_le _ _ _ JL LT JX) as PJ. pose proof (legal_price_le _ _ _ LN JL JG) as PN.
        assert (OV : (sl - q) * q0 < 10 ^ 24) by (apply B4; lia).
        assert (QM : 15258932000000000000 <= q). { pose proof (legal_price_range _ _ RS1). unfold MIN_SQRT_PRICE in *. lia. }
        assert (OV2 : (tprice t - q) * q < 10 ^ 24).
        { pose proof (Z.mul_le_mono_nonneg (tprice t - q) (sl - q) q q0 ltac:(lia) ltac:(lia) ltac:(lia) DIR). lia. }
        assert (TC : t = c1 + spacing k).
        { destruct (Z.eq_dec t (c1 + spacing k)) as [|NE]; [done|]. exfalso. pose proof (tprice_gap _ _ _ S1 LN LT ltac:(lia)) as GAP.
          assert (10 ^ 12 * 15258932000000000000 <= (tprice t - q) * q) by (apply Z.mul_le_mono_nonneg; lia). lia. }
        assert (JE : j = t) by lia. subst j.
        exists t. split; [done|]. right. split; [done|]. split; [done|]. split; [lia|]. split; [lia|]. split; [done|].
        unfold z. rewrite LQ. rewrite <- (ACT t c1 t RS1 J ltac:(lia)); [|intros i CI II; pose proof (legal_gap _ _ _ S1 RS1 (is_init_legal _ _ _ _ S1 II) ltac:(lia)); lia|done].
        rewrite (act_exact s k t c LI); [lia|]. apply exact_intro; [done|]. intros i IL II IX. apply (TD3 i); [lia|done].
    + destruct TD as (TD1 & TD2). destruct NT as [QL _]. pose proof (HR eq_refl) as RW.
      pose proof (rest_mono _ _ _ _ _ S1 RW (conj RS1 (conj RS2 RS3)) ltac:(lia)) as MO. fold c c1 in MO.
      assert (XJ : c < j <= c1) by lia.
      assert (TJ : t <= j). { destruct (Z.le_gt_cases t j); [done|]. exfalso. apply (TD2 j); [lia|done]. }
      pose proof (legal_price_le _ _ _ LT JL TJ). pose proof (legal_price_le _ _ _ JL RS1 ltac:(lia)).
      assert (q <= tprice t) by (destruct B2 as [_ B2]; [lia|]; lia).
      assert (QE : q = tprice t) by lia.
      assert (JE : j = t). { destruct (Z.eq_dec j t); [done|]. pose proof (legal_price_lt _ _ _ LT JL ltac:(lia)). lia. } subst j.
      assert (CE : c1 = t). { destruct (Z.eq_dec c1 t); [done|]. pose proof (legal_price_lt _ _ _ JL RS1 ltac:(lia)). lia. }
      exists t. split; [done|]. left. split; [done|]. split; [done|]. split; [|done]. unfold z. rewrite LQ. rewrite <- (ACT t c c1 WL J ltac:(lia) TD2 CE). lia.
  - left. unfold z. pose proof (act_jump s k t tk LI S1 TK) as Q. pose proof (is_init_legal _ _ _ _ S1 TI) as LT.
    destruct d.
    + destruct M as (-> & M1 & M2 & ->).
      rewrite <- (act_exact s k t (p_tick (sw_pool w)) LI); [lia|]. apply exact_intro; [done|]. intros j JL Jn X. apply (M2 j); [lia|done].
    + destruct M as (-> & M1 & M2 & ->).
      rewrite (act_exact s k (p_tick (sw_pool w)) (t - spacing k) LI); [lia|]. apply exact_intro; [done|]. intros j JL Jn X.
      destruct X as [X|X]; [apply (M2 j); [lia|done]|]. pose proof (legal_gap (spacing k) j t S1 JL LT). lia.
Qed.

Lemma run_drift s now k d by_in lim : store_geo s k -> liq_inv s -> is_Some (st_pools s !! k) -> forall w w', run s now k d by_in lim w w' -> loop_inv k d lim w ->
  let z := (p_liq (sw_pool w') - act s k (p_tick (sw_pool w'))) - (p_liq (sw_pool w) - act s k (p_tick (sw_pool w))) in
  z = 0 \/ slips s k d by_in lim (p_tick (sw_pool w')) (p_price (sw_pool w')) z.
Proof.
  intros G LI SPO w w' R. induction R as [w Z0|w w1 w2 N E R IH]; intros I; cbv zeta.
  - left. lia.
  - pose proof (loop_step _ _ _ _ _ _ _ _ G I N E) as [_ I1]. specialize (IH I1). cbv zeta in IH.
    destruct (iter_drift _ _ _ _ _ _ _ _ G LI SPO I N E) as [Z1|[Z1 SL]]; cbv zeta in *.
    + replace (p_liq (sw_pool w2) - act s k (p_tick (sw_pool w2)) - (p_liq (sw_pool w) - act s k (p_tick (sw_pool w))))
        with (p_liq (sw_pool w2) - act s k (p_tick (sw_pool w2)) - (p_liq (sw_pool w1) - act s k (p_tick (sw_pool w1)))) by lia. done.
    + inversion R; subst; [|done]. by right.
Qed.

(** [t] begins or ends the range of a position of pool [k] *)
Definition boundary (s : store) (k : pool_key) (t : Z) : Prop :=
  exists x po, st_positions s !! x = Some po /\ po_key po = k /\ (po_lower po = t \/ po_upper po = t).

(** how one swap changes the error *)
Definition slipped (s s' : store) (k : pool_key) (d by_in : bool) (lim : Z) : Prop :=
  exists p' t pt, st_pools s' !! k = Some p' /\ boundary s k t /\ calculate_sqrt_price t = Ok pt /\
   (p_price p' = pt /\ p_tick p' = t /\ drift s' k = drift s k - net_of s k t /\ (if d then by_in = true else p_price p' = lim) \/
    d = true /\ by_in = true /\ p_tick p' = t - ft_spacing (pk_tier k) /\ p_price p' < pt /\ (pt - p_price p') * p_price p' < 10 ^ 24 /\ drift s' k = drift s k + net_of s k t).

Lemma drift_same s s' k : st_pools s' !! k = st_pools s !! k -> st_positions s' = st_positions s -> drift s' k = drift s k.
Proof. unfold drift. by intros -> ->. Qed.

Lemma swap_internal_drift e i s k d a by_in lim s' ms r : ereach s -> 0 <= a <= U128MAX -> swap_internal e i s k d a by_in lim = Ok (s', ms, r) ->
  st_positions s' = st_positions s /\ (forall k', k' <> k -> drift s' k' = drift s k') /\ (drift s' k = drift s k \/ slipped s s' k d by_in lim).
Proof.
  intros R Ha H. pose proof (swap_internal_kept _ _ _ _ _ _ _ _ _ _ _ (ereach_indexed _ R) H) as K.
  split; [exact (sk_positions _ _ _ K)|]. split.
  { intros k' N. apply drift_same; [|exact (sk_positions _ _ _ K)]. apply (sk_pools _ _ _ K). by intros ->%elem_of_list_singleton. }
  apply swap_internal_inv in H. destruct H as (C & (s1 & U & E') & _). apply update_ticks_inv in U.
  apply calculate_swap_run in C. destruct C as (p & w & Ep & _ & D & RN & _ & ->).
  pose proof (ereach_geo _ R _ _ Ep) as PG. pose proof (loop_start k d lim p a PG Ha D) as I.
  pose proof (ereach_store_geo _ _ _ R Ep) as G. pose proof (ereach_liq _ R) as LI.
  assert (Ep' : st_pools s' !! k = Some (sw_pool w)) by (subst s' s1; apply lookup_insert).
  assert (DR : drift s' k = p_liq (sw_pool w) - act s k (p_tick (sw_pool w))).
  { rewrite (drift_act _ _ _ Ep'). unfold act. by rewrite (sk_positions _ _ _ K). }
  destruct (run_drift _ _ _ _ _ _ G LI (ex_intro _ p Ep) _ _ RN I) as [Z0|(t & TI & SL)]; cbn [sw_pool] in *; pose proof (drift_act _ _ _ Ep) as DS; [left; lia|].
  right. destruct (sg_sp _ _ G) as [S1 _]. exists (sw_pool w), t, (tprice t). split; [done|].
  split. { destruct (init_bound _ _ _ LI (ex_intro _ p Ep) TI) as (x & po & Q & KK & B). exists x, po. split; [done|]. split; [done|]. destruct B; auto. }
  split. { apply calculate_sqrt_price_ok. apply (is_init_legal _ _ _ _ S1 TI). }
  destruct SL as [(A & B & Z1 & X)|(A & B & X & Y & W & Z1)]; [left|right].
  - split; [done|]. split; [done|]. split; [lia|done].
  - split; [done|]. split; [done|]. split; [done|]. split; [done|]. split; [done|lia].
Qed.

(** * C95 *)
(** Calls other than swaps leave the error of every pool as it is; a new pool has none. *)
Theorem C95_other_calls e i s m s' ms at' k : reachable s -> execute e i s m = Ok (s', ms, at') ->
  (forall kk d a by_in lim, m <> Swap kk d a by_in lim) -> (forall a x sl hops, m <> SwapRoute a x sl hops) -> drift s' k = drift s k.
Proof.
  intros R H N1 N2. apply reachable_ereach in R. apply execute_split in H.
  destruct H as [H|[(kk & d & a & by_in & lim & r & -> & _)|(a & x & sl & hops & out & -> & _)]]; [|exfalso; by eapply N1|exfalso; by eapply N2].
  destruct (st_pools s' !! k) as [p'|] eqn:E; [by eapply effect0_drift|].
  (* pools do not go away *)
  unfold drift. rewrite E. destruct (st_pools s !! k) as [p|] eqn:Ep; [|done]. exfalso.
  destruct (effect_pools_some _ _ _ _ _ k (ereach_indexed _ R) (effect0_effect _ _ _ _ _ H)) as [q Q]; [by rewrite Ep|congruence].
Qed.

(** A swap changes the error of its own pool only, and only in one of these ways: it stops exactly at the price of a tick where positions begin or end,
    and that becomes the current tick though the liquidity is that below it (a rising swap at its own limit; a falling exact-input swap whose rest
    does not move the price any more); or a falling exact-input swap lands below such a tick by a rounding and the liquidity is that above it. *)
Theorem C95_swap e i s k d a by_in lim s' ms at' : reachable s -> execute e i s (Swap k d a by_in lim) = Ok (s', ms, at') ->
  (forall k', k' <> k -> drift s' k' = drift s k') /\ (drift s' k = drift s k \/ slipped s s' k d by_in lim).
Proof.
  intros R H. apply reachable_ereach in R. unfold execute in H. destruct (env_typed e i && msg_typed _) eqn:ET; [|done].
  apply andb_true_iff in ET. destruct ET as [_ M]. cbn [dispatch] in H. unfold swap in H.
  inv_bind H as [[s1 m1] r] E. apply Ok_inj in H. injection H as <- _ _.
  cbn [msg_typed] in M. repeat (apply andb_true_iff in M; destruct M as [M ?]). apply in_range_spec in H, H0.
  by destruct (swap_internal_drift _ _ _ _ _ _ _ _ _ _ _ R H0 E) as (_ & X & Y).
Qed.

(** A route changes the error of a pool by at most one such amount per hop. *)
Theorem C95_route e i s a x sl hops s' ms at' k : reachable s -> execute e i s (SwapRoute a x sl hops) = Ok (s', ms, at') ->
  exists zs, (Datatypes.length zs <= Datatypes.length hops)%nat /\ drift s' k = drift s k + foldr Z.add 0 zs /\
    Forall (fun z => exists t, boundary s k t /\ (z = net_of s k t \/ z = - net_of s k t)) zs.
Proof.
  intros R H. apply reachable_ereach in R. apply execute_split in H.
  destruct H as [H|[(kk & d & aa & by_in & lim & r & E & _)|(aa & xx & sll & hh & out & E & Ha & H)]]; [|done|].
  { destruct (st_pools s' !! k) as [p'|] eqn:E.
    - exists []. split; [cbn; lia|]. split; [cbn; rewrite (effect0_drift _ _ _ _ _ _ _ R H E); lia|constructor].
    - exists []. split; [cbn; lia|]. split; [|constructor]. cbn.
      unfold drift. rewrite E. destruct (st_pools s !! k) as [p|] eqn:Ep; [|done]. exfalso.
      destruct (effect_pools_some _ _ _ _ _ k (ereach_indexed _ R) (effect0_effect _ _ _ _ _ H)) as [q Q]; [by rewrite Ep|congruence]. }
  injection E as <- <- <- <-. revert s a ms out R Ha H. induction hops as [|h hops IH]; intros s a ms out R Ha H; cbn in H.
  - apply Ok_inj in H. injection H as <- _ _. exists []. split; [cbn; lia|]. split; [cbn; lia|constructor].
  - inv_bind H as [[s1 m1] r] E. inv_bind H as [[s2 m2] o] E2. apply Ok_inj in H. injection H as -> _ _.
    assert (R1 : ereach s1). { eapply er_step; [exact R|]. eapply ef_swap; [exact Ha| |exact E]. destruct (hop_x_to_y h); cbn; unfold MIN_SQRT_PRICE, MAX_SQRT_PRICE, U128MAX; lia. }
    assert (Ho : 0 <= cr_out r <= U128MAX) by (apply swap_internal_inv in E as (E & _); apply calculate_swap_out in E; tauto).
    destruct (IH _ _ _ _ R1 Ho E2) as (zs & L & D & F).
    destruct (swap_internal_drift _ _ _ _ _ _ _ _ _ _ _ R Ha E) as (PS & OT & SW).
    assert (F' : Forall (fun z => exists t, boundary s k t /\ (z = net_of s k t \/ z = - net_of s k t)) zs).
    { unfold boundary, net_of in F |- *. rewrite PS in F. exact F. }
    destruct (decide (k = hop_key h)) as [KE|KN].
    + destruct SW as [SW|(p' & t & pt & _ & B & _ & SW)].
      * exists zs. split; [cbn; lia|]. split; [rewrite D, KE, SW; lia|done].
      * rewrite <- KE in SW, B. exists ((drift s1 k - drift s k) :: zs). split; [cbn; lia|]. split; [cbn; lia|]. constructor; [|done].
        exists t. split; [done|]. destruct SW as [(_ & _ & SW & _)|(_ & _ & _ & _ & _ & SW)]; [right|left]; lia.
    + exists zs. split; [cbn; lia|]. split; [rewrite D, (OT k KN); lia|done].
Qed.

(** ** Examples: all three ways happen *)
(** carol's limit is the price of tick 10 *)
Example ex_C95_rising : reachable lim_store /\ drift lim_store v_key = -2000000000000 /\ net_of lim_store v_key 10 = 2000000000000.
Proof. split; [exact lim_store_reachable|]. vm_compute. split; reflexivity. Qed.

(** Bob's liquidity below tick -10 is so deep that one step of the price is worth 100 tokens. Carol sells 550 tokens without any limit: 505 take the price down to
    tick -10, which is crossed because the 45 left would move the price in alice's liquidity; in bob's they do not, and the current tick becomes -10 again,
    with bob's liquidity active where it is not. Dave then buys 994994 tokenx at alice's price; all positions of the pool together held less than 1100. *)
Definition deep_below_calls : list (string * exec_msg) :=
  [("alice", AddFeeTier v_tier);
   ("alice", CreatePool "tokeny" "tokenx" v_tier SP_ONE 0);
   ("alice", CreatePosition v_key (-10) 10 1000000000000 SP_ONE SP_ONE);
   ("bob", CreatePosition v_key (-20) (-10) 100000000000000000000000000000000 SP_ONE SP_ONE)]%string.
Definition phantom_run :=
  let* s := start 10000000000 deep_below_calls in
  let* '(s1, m1, a1) := execute v_env (v_info "carol") s (Swap v_key true 550 true MIN_SQRT_PRICE) in
  let* '(s2, m2, a2) := execute v_env (v_info "dave") s1 (Swap v_key false 1000000 true MAX_SQRT_PRICE) in
  Ok (s, s1, a1, s2, a2).
Theorem C95_phantom : exists s s1 ms1 s2 ms2, reachable s /\ reachable s1 /\ drift s v_key = 0 /\
  execute v_env (v_info "carol") s (Swap v_key true 550 true MIN_SQRT_PRICE) = Ok (s1, ms1, [("amount_in", 550); ("amount_out", 499)]%string) /\
  drift s1 v_key = 10 ^ 32 - 10 ^ 12 /\
  execute v_env (v_info "dave") s1 (Swap v_key false 1000000 true MAX_SQRT_PRICE) = Ok (s2, ms2, [("amount_in", 1000000); ("amount_out", 994994)]%string).
Proof.
  destruct (start 10000000000 deep_below_calls) as [s| |] eqn:E0; [|exfalso..];
    [|assert (is_ok (start 10000000000 deep_below_calls) = true) as X by (vm_compute; reflexivity); rewrite E0 in X; discriminate..].
  assert (P : match phantom_run with Ok (s, s1, a1, s2, a2) => drift s v_key = 0 /\ a1 = [("amount_in", 550); ("amount_out", 499)]%string /\ drift s1 v_key = 10 ^ 32 - 10 ^ 12 /\ a2 = [("amount_in", 1000000); ("amount_out", 994994)]%string | _ => False end)
    by (vm_compute; repeat split; reflexivity).
  unfold phantom_run in P. rewrite E0 in P. cbn [bind] in P.
  destruct (execute v_env (v_info "carol") s _) as [[[s1 m1] a1]| |] eqn:E1; [|exact (False_ind _ P)..]. cbn [bind] in P.
  destruct (execute v_env (v_info "dave") s1 _) as [[[s2 m2] a2]| |] eqn:E2; [|exact (False_ind _ P)..]. cbn [bind] in P.
  destruct P as (D0 & A1 & D1 & A2). rewrite A1 in E1. rewrite A2 in E2. pose proof (start_reachable _ _ _ E0) as R.
  exists s, s1, m1, s2, m2. split; [exact R|]. split; [eapply reach_call; [exact R|exact E1]|]. split; [exact D0|]. split; [exact E1|]. split; [exact D1|exact E2].
Qed.

(** the price lands below tick -182578 by four units *)
Definition low_tier : fee_tier := mkFeeTier 3000000000 1.
Definition low_key : pool_key := mkPoolKey "tokenx" "tokeny" low_tier.
Definition low_calls : list (string * exec_msg) :=
  [("alice", AddFeeTier low_tier);
   ("alice", CreatePool "tokeny" "tokenx" low_tier 108619381855608937044 (-182563));
   ("alice", CreatePosition low_key (-182578) (-182500) 5128040094303346753536 0 MAX_SQRT_PRICE);
   ("bob", CreatePosition low_key (-182600) (-182578) 10256080188606693507072 0 MAX_SQRT_PRICE)]%string.
Example ex_C95_landing :
  match start 10000000000 low_calls with
  | Ok s => drift s low_key = 0 /\ net_of s low_key (-182578) = -5128040094303346753536 /\
      match execute v_env (v_info "carol") s (Swap low_key true 37086874109940444 true MIN_SQRT_PRICE) with
      | Ok (s1, _, _) => drift s1 low_key = -5128040094303346753536 /\
          match st_pools s1 !! low_key with Some p => p_tick p = -182579 /\ p_price p = 108534377999999999996 | None => False end
      | _ => False end
  | _ => False end /\ calculate_sqrt_price (-182578) = Ok 108534378000000000000.
Proof. vm_compute. repeat split; reflexivity. Qed.
