(** C99: liquidity that a swap does not reach makes no difference to it. *)
From Verif Require Import Base Decimal SqrtPrice Clamm Log FeeGrowth Types Tick Pool Position
  Tickmap Keys State Swap Exec Tactics PriceProofs LogProofs ClammProofs PropClamm BitmapProofs Frame History Basic SwapInv SwapGeo
  SwapLoop LiqInv Geo Forward PropSwap PropExit PropBlock PropMove PropWork PropDrift PropTrade PropProt PropLocal Handlers Modify Vectors Scenario.
From stdpp Require Import gmap strings list.
From Coq Require Import Lia.
Open Scope Z_scope.

(** ** A step that stops well before a nearer target *)
Lemma reach_down P t L x n a : MIN_SQRT_PRICE <= t <= P -> 0 < L -> 0 <= x -> get_delta_x t P L true = Ok a -> a <= x ->
  get_next_sqrt_price_from_input P L x true = Ok n -> n < t + 10 ^ 12.
Proof.
  intros HT HL HX A AX N. unfold MIN_SQRT_PRICE in *. apply delta_x_up in A; [|lia..]. destruct A as (A0 & D & _ & A).
  pose proof (numx_spec t P L) as NS. rewrite Z.abs_neq in NS by lia.
  pose proof (floor_spec (t * P) SP_ONE ltac:(reflexivity)) as DS. set (m := numx t P L) in *. set (q := t * P / SP_ONE) in *. clearbody m q.
  change (10 ^ 12) with 1000000000000. unfold get_next_sqrt_price_from_input in N. destruct (Z.eq_dec x 0) as [->|X0].
  { unfold get_next_sqrt_price_x_up in N. cbn in N. apply Ok_inj in N. subst n. assert (m <= 0) by (assert (a = 0) by lia; subst a; lia).
    assert (P - t <= (P - t) * L) by nia. unfold LIQ_ONE in *. lia. }
  apply next_x_in in N; [|lia..]. destruct N as (_ & N & _). pose proof (pl_up_spec P L) as PU. set (u := pl_up P L) in *. clearbody u.
  assert (Q2 : q * a <= q * x) by (apply Z.mul_le_mono_nonneg_l; lia).
  assert (Q3 : SP_ONE * q * x <= t * P * x) by (apply Z.mul_le_mono_nonneg_r; lia).
  destruct (Z.lt_ge_cases n (t + 1000000000000)) as [|GE]; [done|exfalso].
  assert (Q4 : 999999999999 * (L * E18) <= (n - 1 - t) * (L * E18)) by (apply Z.mul_le_mono_nonneg_r; [unfold E18|]; lia).
  assert (Q5 : 0 <= (n - 1 - t) * (P * x)) by (apply Z.mul_nonneg_nonneg; [lia|apply Z.mul_nonneg_nonneg; lia]).
  unfold LIQ_ONE, SP_ONE, E18 in *. lia.
Qed.
Lemma step_nearer cur sl sl' L a fee r (down : bool) : step_args cur sl L a fee -> step_args cur sl' L a fee ->
  (if down then sl <= sl' <= cur else cur < sl' <= sl) ->
  compute_swap_step cur sl L a true fee = Ok r -> (if down then sl' + 10 ^ 12 <= sr_next r else sr_next r < sl') ->
  compute_swap_step cur sl' L a true fee = Ok r.
Proof.
  intros (A1 & A2 & A3 & A4 & A5) (_ & A2' & _) D H N. change (10 ^ 12) with 1000000000000 in N. unfold compute_swap_step in *. destruct (Z.eqb_spec L 0) as [|L0].
  { apply Ok_inj in H. subst r. cbn in N. destruct down; lia. }
  assert (PC : price_ok cur) by (unfold price_ok, MIN_SQRT_PRICE, MAX_SQRT_PRICE; lia).
  assert (PT : price_ok sl') by (unfold price_ok, MIN_SQRT_PRICE, MAX_SQRT_PRICE; lia).
  assert (LO : liq_ok L) by (unfold liq_ok, U128MAX; lia).
  assert (S1 : (sl <=? cur) = down) by (destruct down; [apply Z.leb_le|apply Z.leb_gt]; lia).
  assert (S2 : (sl' <=? cur) = down) by (destruct down; [apply Z.leb_le|apply Z.leb_gt]; lia).
  rewrite S1 in H. rewrite S2. inv_bind H as [[n a0] o0] E1.
  assert (NN : sr_next r = n) by (clear E1; inv_bind H as x1 Q1; inv_bind H as x2 Q2; inv_bind H as x3 Q3; apply Ok_inj in H; by subst r).
  rewrite NN in N. clear NN.
  assert (T1 : (sl =? n) = false) by (apply Z.eqb_neq; destruct down; lia).
  assert (T2 : (sl' =? n) = false) by (apply Z.eqb_neq; destruct down; lia).
  rewrite T1 in H. cbn [negb orb] in H.
  inv_bind E1 as c Ec. inv_bind E1 as x Ex. inv_bind E1 as b Eb. rewrite Ec. cbn [bind]. rewrite Ex. cbn [bind].
  destruct (Z.leb_spec b x) as [Q|Q]. { injection E1 as <- _ _. destruct down; lia. }
  inv_bind E1 as n' En. injection E1 as -> _ _.
  assert (F : exists b', (if down then get_delta_x sl' cur L true else get_delta_y cur sl' L true) = Ok b').
  { destruct down; [by apply delta_x_fwd|by apply delta_y_fwd]. }
  destruct F as [b' F]. rewrite F. cbn [bind].
  assert (X0 : 0 <= x). { apply pct_complement_ok in Ec. destruct Ec as [-> _]. apply floor_pct in Ex. lia. }
  assert (NR : x < b').
  { destruct (Z.lt_ge_cases x b') as [|GE]; [done|exfalso]. destruct down.
    - pose proof (reach_down cur sl' L x n b' ltac:(unfold MIN_SQRT_PRICE; lia) ltac:(lia) X0 F GE En). lia.
    - unfold get_next_sqrt_price_from_input in En. apply next_y_in in En; [|lia..]. apply delta_y_up in F. rewrite Z.abs_neq in F by lia.
      assert ((n - cur + 1) * L <= (sl' - cur) * L) by (apply Z.mul_le_mono_nonneg_r; lia). unfold E30 in *. lia. }
  rewrite (proj2 (Z.leb_gt b' x)) by lia. rewrite En. cbn [bind]. rewrite T2. cbn [negb orb]. exact H.
Qed.

(** ** Where a search ends *)
Definition window (d : bool) (sp c : Z) : Z := if d then down_limit sp c else up_limit sp c.
Lemma closer_full s lim (d : bool) c sp k sl li : chunks_u64 s -> 1 <= sp -> legal_tick sp c -> get_closer_limit s lim d c sp k = Ok (sl, li) ->
  exists t init, target d s k sp c t init /\ (init = false -> t = window d sp c) /\ (if d then window d sp c <= t else t <= window d sp c) /\
    sl = (if d then Z.max (tprice t) lim else Z.min (tprice t) lim) /\ li = (if (if d then lim <? tprice t else tprice t <? lim) then Some (t, init) else None).
Proof.
  intros U H L E. unfold get_closer_limit in E. unfold window.
  assert (T : exists t init, target d s k sp c t init /\ (init = false -> t = window d sp c) /\ (if d then window d sp c <= t else t <= window d sp c) /\
    (let* price := calculate_sqrt_price t in
     if d && (lim <? price) || negb d && (price <? lim) then Ok (price, Some (t, init)) else Ok (lim, None)) = Ok (sl, li)).
  { inv_bind E as cl EC. inv_bind E as [t init] ET. exists t, init.
    cut (target d s k sp c t init /\ (init = false -> t = window d sp c) /\ (if d then window d sp c <= t else t <= window d sp c)).
    { intros (X1 & X2 & X3). exact (conj X1 (conj X2 (conj X3 E))). }
    clear E. unfold window. destruct d; cbn [negb] in *.
    - destruct (prev_initialized_spec s k sp c U H L) as (r & R1 & R2). rewrite R1 in EC. apply Ok_inj in EC. subst cl.
      destruct r as [i|]; cbn in R2.
      + apply Ok_inj in ET. simplify_eq. destruct R2 as (A & B & C).
        split; [|split; [done|lia]]. split; [by eapply is_init_legal|]. split; [done|]. split; [lia|]. split; [done|exact C].
      + rewrite search_limit_down in ET by (try apply L; done). destruct (Z.eqb_spec c (down_limit sp c)); [done|].
        apply Ok_inj in ET. simplify_eq. destruct (down_limit_legal sp c H L) as [D1 D2].
        split; [|split; [done|lia]]. split; [done|]. split; [apply R2; lia|]. split; [lia|]. split; [lia|]. intros j J. apply R2. lia.
    - pose proof L as [L1 L2]. destruct (next_initialized_spec s k sp c U H ltac:(lia) ltac:(lia) L2) as (r & R1 & R2).
      rewrite R1 in EC. apply Ok_inj in EC. subst cl. destruct r as [i|]; cbn in R2.
      + apply Ok_inj in ET. simplify_eq. destruct R2 as (A & B & C).
        split; [|split; [done|lia]]. split; [by eapply is_init_legal|]. split; [done|]. split; [lia|]. exact C.
      + rewrite search_limit_up in ET by (try apply L; done). destruct (Z.eqb_spec c (up_limit sp c)); [done|].
        apply Ok_inj in ET. simplify_eq. destruct (up_limit_legal sp c H L) as [D1 D2].
        split; [|split; [done|lia]]. split; [done|]. split; [apply R2; lia|]. split; [lia|]. intros j J. apply R2. lia. }
  destruct T as (t & init & T & T2 & T3 & E'). exists t, init. split; [exact T|]. split; [exact T2|]. split; [exact T3|].
  inv_bind E' as pr EP. apply calculate_sqrt_price_inv in EP. destruct EP as [_ ->].
  destruct d; cbn [andb orb negb] in E'.
  - rewrite orb_false_r in E'. destruct (Z.ltb_spec lim (tprice t)); apply Ok_inj in E'; injection E' as <- <-; (split; [lia|done]).
  - destruct (Z.ltb_spec (tprice t) lim); apply Ok_inj in E'; injection E' as <- <-; (split; [lia|done]).
Qed.
Lemma closer_exists s lim (d : bool) c sp k : chunks_u64 s -> 1 <= sp -> legal_tick sp c -> (c = window d sp c -> d = true /\ is_init s k sp c) ->
  exists x, get_closer_limit s lim d c sp k = Ok x.
Proof.
  intros U H L W. unfold get_closer_limit.
  assert (FIN : forall t (init : bool), legal_tick sp t -> exists x,
    (let* price := calculate_sqrt_price t in
     if d && (lim <? price) || negb d && (price <? lim) then Ok (price, Some (t, init)) else Ok (lim, None)) = Ok x).
  { intros t init (T & _). rewrite calculate_sqrt_price_ok by lia. cbn [bind]. destruct (_ || _); eauto. }
  destruct d; cbn [negb window] in *.
  - destruct (prev_initialized_spec s k sp c U H L) as (r & R1 & R2). rewrite R1. cbn [bind]. destruct r as [i|]; cbn in R2; cbn [bind].
    + apply FIN. eapply is_init_legal; [exact H|apply R2].
    + rewrite search_limit_down by (try apply L; done). cbv zeta.
      destruct (down_limit_legal sp c H L) as [D1 D2]. destruct (Z.eqb_spec c (down_limit sp c)) as [Q|Q]; [|cbn [bind]; by apply FIN].
      exfalso. destruct (W Q) as [_ W']. apply (R2 c); [lia|done].
  - pose proof L as [L1 L2]. destruct (next_initialized_spec s k sp c U H ltac:(lia) ltac:(lia) L2) as (r & R1 & R2). rewrite R1. cbn [bind].
    destruct r as [i|]; cbn in R2; cbn [bind].
    + apply FIN. eapply is_init_legal; [exact H|apply R2].
    + rewrite search_limit_up by (try apply L; done). cbv zeta.
      destruct (up_limit_legal sp c H L) as [D1 D2]. destruct (Z.eqb_spec c (up_limit sp c)) as [Q|Q]; [|cbn [bind]; by apply FIN]. destruct (W Q) as [? _]. done.
Qed.

(** ** Two stores that agree about the ticks from [lo] to [hi] *)
Definition near (k : pool_key) (lo hi : Z) (s t : store) : Prop := forall j, lo <= j <= hi ->
  (is_init s k (spacing k) j <-> is_init t k (spacing k) j) /\ st_ticks t !! (k, j) = st_ticks s !! (k, j).
Lemma near_init k lo hi s t j : near k lo hi s t -> lo <= j <= hi -> is_init s k (spacing k) j <-> is_init t k (spacing k) j.
Proof. intros N J. apply (N j J). Qed.
Lemma near_target (d : bool) k lo hi s t c t1 i1 t2 i2 : near k lo hi s t -> 1 <= spacing k -> (if d then c <= hi else lo <= c) ->
  target d s k (spacing k) c t1 i1 -> (i1 = false -> t1 = window d (spacing k) c) -> (if d then window d (spacing k) c <= t1 else t1 <= window d (spacing k) c) ->
  target d t k (spacing k) c t2 i2 -> (i2 = false -> t2 = window d (spacing k) c) -> (if d then window d (spacing k) c <= t2 else t2 <= window d (spacing k) c) ->
  (if d then lo <= t1 else t1 <= hi) -> t2 = t1 /\ i2 = i1.
Proof.
  intros N S1 C (A1 & A2 & A3) A4 A5 (B1 & B2 & B3) B4 B5 IN. destruct d; cbn iota in *.
  - destruct A3 as (A3 & A6 & A7), B3 as (B3 & B6 & B7).
    assert (E : t2 = t1).
    { destruct (Z.lt_trichotomy t2 t1) as [Q|[Q|Q]]; [exfalso|done|exfalso].
      - destruct i1; [|specialize (A4 eq_refl); lia]. apply (near_init k lo hi s t t1 N ltac:(lia)) in A2. apply (B7 t1); [lia|done].
      - destruct i2; [|specialize (B4 eq_refl); lia]. apply (near_init k lo hi s t t2 N ltac:(lia)) in B2. apply (A7 t2); [lia|done]. }
    subst t2. split; [done|]. pose proof (near_init k lo hi s t t1 N ltac:(lia)). destruct i1, i2; tauto.
  - destruct A3 as (A3 & A7), B3 as (B3 & B7).
    assert (E : t2 = t1).
    { destruct (Z.lt_trichotomy t2 t1) as [Q|[Q|Q]]; [exfalso|done|exfalso].
      - destruct i2; [|specialize (B4 eq_refl); lia]. apply (near_init k lo hi s t t2 N ltac:(lia)) in B2. apply (A7 t2); [lia|done].
      - destruct i1; [|specialize (A4 eq_refl); lia]. apply (near_init k lo hi s t t1 N ltac:(lia)) in A2. apply (B7 t1); [lia|done]. }
    subst t2. split; [done|]. pose proof (near_init k lo hi s t t1 N ltac:(lia)). destruct i1, i2; tauto.
Qed.

(** a price that a falling (rising) swap passes before it could leave the ticks from [lo] to [hi] *)
Definition within (d : bool) (k : pool_key) (lo hi price : Z) : Prop :=
  if d then tprice lo <= price else forall t, legal_tick (spacing k) t -> hi < t -> price < tprice t.
Lemma iter_near s t now k (d by_in : bool) lim lo hi w w' : store_geo s k -> store_geo t k -> loop_inv k d lim w -> sw_remaining w <> 0 ->
  cf_protocol_fee (st_config t) = cf_protocol_fee (st_config s) ->
  (forall j, is_init t k (spacing k) j -> is_Some (st_ticks t !! (k, j))) ->
  near k lo hi s t -> legal_tick (spacing k) lo -> (if d then p_tick (sw_pool w) <= hi else lo <= p_tick (sw_pool w)) ->
  (d = true -> lo <= p_tick (sw_pool w) \/ end_tick d k < p_tick (sw_pool w)) ->
  by_in = true \/ d = true /\ (forall j, is_init t k (spacing k) j -> is_init s k (spacing k) j) ->
  swap_iter s now k d by_in lim (end_tick d k) w = Ok w' -> within d k lo hi (p_price (sw_pool w')) ->
  swap_iter t now k d by_in lim (end_tick d k) w = Ok w'.
Proof.
  intros G G2 I NR CF TK N LL IN IN' M H WI. pose proof (loop_pre s k d lim w G I NR) as PRE.
  pose proof (iter_cases _ _ _ _ _ _ _ _ _ H PRE) as (t0 & init0 & sl0 & r0 & _ & _ & _ & _ & (SA1 & _ & SA3) & _).
  destruct PRE as [U HS HF HL HW HR HLim HRem]. pose proof HW as (WL & WP & WU). pose proof (sg_chunks _ _ G2) as U2.
  set (sp := spacing k) in *. assert (S1 : 1 <= sp) by (unfold sp; lia).
  unfold swap_iter in H |- *. fold sp in H |- *. rewrite CF. inv_bind H as [sl li] CL.
  pose proof (closer_full _ _ _ _ _ _ _ _ U S1 WL CL) as (t1 & i1 & T1 & F1 & W1 & SL1 & LI1).
  assert (CL2 : exists x, get_closer_limit t lim d (p_tick (sw_pool w)) sp k = Ok x).
  { apply closer_exists; [done..|]. intros E. destruct T1 as (A1 & A2 & A3). destruct d; cbn [window] in *.
    - destruct A3 as (A3 & A4 & A5). split; [done|]. assert (E1 : t1 = p_tick (sw_pool w)) by lia. destruct i1; [|specialize (A4 eq_refl); lia].
      rewrite E1 in A2. apply (near_init k lo hi s t _ N); [|done]. split; [|done]. destruct (IN' eq_refl) as [Q|Q]; [done|exfalso].
      unfold end_tick in Q. fold sp in Q. rewrite get_min_top in Q by lia. unfold down_limit in E. unfold SwapGeo.top in Q.
      pose proof (legal_mult _ _ S1 WL) as LM. revert E Q LM. generalize (p_tick (sw_pool w) / sp) (MAX_TICK / sp). intros q m E Q LM.
      destruct (Z.max_spec (q - 256) (- m)) as [[_ X]|[_ X]]; rewrite X in E; lia.
    - exfalso. lia. }
  destruct CL2 as [[sl2 li2] CL2]. rewrite CL2. cbn [bind].
  pose proof (closer_full _ _ _ _ _ _ _ _ U2 S1 WL CL2) as (t2 & i2 & T2 & F2 & W2 & SL2 & LI2).
  inv_bind H as r ER.
  assert (PR : p_price (sw_pool w') = sr_next r).
  { clear - H. inv_bind H as pd E3. inv_bind H as rm0 E4. inv_bind H as p0 E5. inv_bind H as fe E6. inv_bind H as ti E7. inv_bind H as to E8.
    destruct (_ && _); [done|]. inv_bind H as tk E9. inv_bind H as [[[[p1 tk'] ad] rm1] c] E10. inv_bind H as ti' E11. destruct (if d then _ else _); [done|].
    apply Ok_inj in H. subst w'. cbn. apply pool_update_tick_price in E10. done. }
  rewrite PR in WI. clear PR.
  (* either both searches give the same, or the step stops before either of the two limits *)
  assert (CASE : (sl2 = sl /\ li2 = li /\ forall j, li = Some (j, true) -> st_ticks t !! (k, j) = st_ticks s !! (k, j)) \/
    (compute_swap_step (p_price (sw_pool w)) sl2 (p_liq (sw_pool w)) (sw_remaining w) by_in (ft_fee (pk_tier k)) = Ok r /\ sl <> sr_next r /\ sl2 <> sr_next r)).
  { clear H CL CL2. pose proof (legal_price_range _ _ (proj1 T1)) as R1. pose proof (legal_price_range _ _ (proj1 T2)) as R2. pose proof (legal_price_range _ _ WL) as RW.
    pose proof (legal_price_range _ _ (top_legal sp S1)) as XR.
    assert (DX1 : (if d then lo <= t1 else t1 <= hi) \/ ~ (if d then lo <= t1 else t1 <= hi)) by (destruct d; lia). destruct DX1 as [X1|X1].
    { destruct (near_target d k lo hi s t (p_tick (sw_pool w)) t1 i1 t2 i2 N S1 IN T1 F1 W1 T2 F2 W2 X1) as [-> ->]. left. rewrite SL1, SL2, LI1, LI2.
      split; [done|]. split; [done|]. intros j J. apply N. destruct (if d then _ else _) in J; [|done]. injection J as <- _.
      destruct T1 as (_ & _ & T1). destruct d; lia. }
    assert (DX2 : (if d then lo <= t2 else t2 <= hi) \/ ~ (if d then lo <= t2 else t2 <= hi)) by (destruct d; lia). destruct DX2 as [X2|X2].
    { exfalso. destruct (near_target d k lo hi t s (p_tick (sw_pool w)) t2 i2 t1 i1) as [-> _]; try done. intros j J. destruct (N j J) as [N1 N2]. split; [by rewrite N1|done]. }
    destruct d; cbn iota in *.
    - apply Z.nle_gt in X1, X2. pose proof (tprice_gap sp t1 lo S1 (proj1 T1) LL X1) as Y1. pose proof (tprice_gap sp t2 lo S1 (proj1 T2) LL X2) as Y2.
      unfold within in WI. pose proof (legal_price_le _ _ _ (proj1 T1) WL ltac:(apply T1)) as C1. pose proof (legal_price_le _ _ _ (proj1 T2) WL ltac:(apply T2)) as C2.
      destruct (Z.le_gt_cases (sr_next r) lim) as [Q|Q].
      + left. rewrite (proj2 (Z.ltb_ge lim (tprice t1))) in LI1 by lia. rewrite (proj2 (Z.ltb_ge lim (tprice t2))) in LI2 by lia.
        split; [lia|]. split; [congruence|]. intros j J. congruence.
      + right. split; [|lia].
        assert (SA : forall x, MIN_SQRT_PRICE <= x <= MAX_SQRT_PRICE -> step_args (p_price (sw_pool w)) x (p_liq (sw_pool w)) (sw_remaining w) (ft_fee (pk_tier k))) by (intros x X; split; [exact SA1|]; split; [exact X|exact SA3]).
        destruct (Z.le_gt_cases sl2 sl) as [Z1|Z1].
        * eapply (step_farther _ sl sl2 _ _ _ _ _ true); [apply SA; lia|apply SA; lia|lia|tauto|exact ER|lia].
        * assert (TT : t1 < t2) by (destruct (Z.lt_ge_cases t1 t2) as [|Z2]; [done|]; pose proof (legal_price_le _ _ _ (proj1 T2) (proj1 T1) Z2); lia).
          destruct M as [->|[_ M]].
          -- eapply (step_nearer _ sl sl2 _ _ _ _ true); [apply SA; lia|apply SA; lia|lia|exact ER|lia].
          -- exfalso. destruct i2; [|specialize (F2 eq_refl); lia]. destruct T2 as (_ & T2 & T3), T1 as (_ & _ & _ & _ & T1). apply (T1 t2); [lia|]. by apply M.
    - apply Z.nle_gt in X1, X2. unfold within in WI. pose proof (WI t1 (proj1 T1) X1) as Y1. pose proof (WI t2 (proj1 T2) X2) as Y2. clear WI.
      assert (UP : forall j, legal_tick sp j -> p_tick (sw_pool w) < j -> p_price (sw_pool w) < tprice j).
      { intros j Lj J. destruct (HR eq_refl) as (_ & _ & R3). pose proof (legal_top _ _ S1 Lj). pose proof (legal_gap _ _ _ S1 WL Lj J). specialize (R3 ltac:(lia)).
        pose proof (legal_price_le _ _ _ (legal_next _ _ S1 WL ltac:(lia)) Lj ltac:(lia)). lia. }
      pose proof (UP t1 (proj1 T1) ltac:(apply T1)) as C1. pose proof (UP t2 (proj1 T2) ltac:(apply T2)) as C2.
      destruct (Z.le_gt_cases lim (sr_next r)) as [Q|Q].
      + left. rewrite (proj2 (Z.ltb_ge (tprice t1) lim)) in LI1 by lia. rewrite (proj2 (Z.ltb_ge (tprice t2) lim)) in LI2 by lia.
        split; [lia|]. split; [congruence|]. intros j J. congruence.
      + right. split; [|lia].
        assert (SA : forall x, MIN_SQRT_PRICE <= x <= MAX_SQRT_PRICE -> step_args (p_price (sw_pool w)) x (p_liq (sw_pool w)) (sw_remaining w) (ft_fee (pk_tier k))) by (intros x X; split; [exact SA1|]; split; [exact X|exact SA3]).
        destruct M as [->|[? _]]; [|done]. destruct (Z.le_gt_cases sl sl2) as [Z1|Z1].
        * eapply (step_farther _ sl sl2 _ _ _ _ _ false); [apply SA; lia|apply SA; lia|lia|tauto|exact ER|lia].
        * eapply (step_nearer _ sl sl2 _ _ _ _ false); [apply SA; lia|apply SA; lia|lia|exact ER|lia]. }
  assert (TT : exists tk, (match li2 with Some (i, true) => let* t := State.get_tick t k i in Ok (TickInitialized t) | Some (i, false) => Ok (TickUninitialized i) | None => Ok NoTick end) = Ok tk).
  { rewrite LI2. match goal with |- context [if ?b then Some _ else None] => destruct b end; [|eauto]. destruct i2; [|eauto]. destruct T2 as (_ & T2 & _). destruct (TK _ T2) as [tk Etk].
    unfold State.get_tick. rewrite Etk. cbn [bind]. eauto. }
  destruct CASE as [(-> & -> & TE)|(ER2 & NS & NS2)].
  - rewrite ER. cbn [bind]. inv_bind H as pd E3. rewrite E3. cbn [bind]. inv_bind H as rm1 E4. rewrite E4. cbn [bind]. inv_bind H as p1 E5. rewrite E5. cbn [bind].
    inv_bind H as fe E6. rewrite E6. cbn [bind]. inv_bind H as ti E7. rewrite E7. cbn [bind]. inv_bind H as to E8. rewrite E8. cbn [bind].
    destruct (_ && _); [done|]. destruct li as [[j [|]]|]; [|exact H..]. unfold State.get_tick in H |- *. rewrite (TE _ eq_refl). exact H.
  - rewrite ER2. cbn [bind]. inv_bind H as pd E3. rewrite E3. cbn [bind]. inv_bind H as rm1 E4. rewrite E4. cbn [bind]. inv_bind H as p1 E5. rewrite E5. cbn [bind].
    inv_bind H as fe E6. rewrite E6. cbn [bind]. inv_bind H as ti E7. rewrite E7. cbn [bind]. inv_bind H as to E8. rewrite E8. cbn [bind].
    destruct (_ && _); [done|]. inv_bind H as tk0 ET0. destruct TT as [tk TT]. rewrite TT. cbn [bind]. inv_bind H as [[[[p2 tk'] ad] rm2] c] E10.
    unfold pool_update_tick in E10 |- *. rewrite (proj2 (Z.eqb_neq _ _) NS) in E10. rewrite (proj2 (Z.eqb_neq _ _) NS2). cbn [negb] in E10 |- *. rewrite orb_true_r in E10 |- *.
    inv_bind E10 as c' EC. rewrite EC. cbn [bind]. apply Ok_inj in E10. injection E10 as <- <- <- <- <-. inv_bind H as ti' E11. rewrite E11. cbn [bind].
    destruct (if d then _ else _); [done|]. apply Ok_inj in H. subst w'. f_equal. f_equal. by destruct tk, tk0.
Qed.

Lemma loop_near s t now k (d by_in : bool) lim lo hi : store_geo s k -> store_geo t k ->
  cf_protocol_fee (st_config t) = cf_protocol_fee (st_config s) ->
  (forall j, is_init t k (spacing k) j -> is_Some (st_ticks t !! (k, j))) -> near k lo hi s t -> legal_tick (spacing k) lo ->
  by_in = true \/ d = true /\ (forall j, is_init t k (spacing k) j -> is_init s k (spacing k) j) ->
  forall g w w', loop_inv k d lim w ->
  (sw_remaining w <> 0 -> (if d then p_tick (sw_pool w) <= hi else lo <= p_tick (sw_pool w)) /\ (d = true -> lo <= p_tick (sw_pool w) \/ end_tick d k < p_tick (sw_pool w))) ->
  swap_loop g s now k d by_in lim (end_tick d k) w = Ok w' -> within d k lo hi (p_price (sw_pool w')) ->
  swap_loop g t now k d by_in lim (end_tick d k) w = Ok w'.
Proof.
  intros G G2 CF TK N LL M. induction g as [|g IH]; intros w w' I IN H WI; cbn in H |- *; destruct (Z.eqb_spec (sw_remaining w) 0) as [|NR]; try done.
  inv_bind H as w1 E. pose proof (loop_step _ _ _ _ _ _ _ _ G I NR E) as [PO I1].
  pose proof (run_geo _ _ _ _ _ _ _ _ G I1 (swap_loop_run _ _ _ _ _ _ _ _ _ H)) as (_ & _ & MV). destruct (IN NR) as [IN1 IN2].
  erewrite iter_near; [|exact G|exact G2|exact I|exact NR|exact CF|exact TK|exact N|exact LL|exact IN1|exact IN2|exact M|exact E|].
  2:{ unfold within in *. destruct d; [lia|]. intros j J1 J2. specialize (WI j J1 J2). lia. }
  cbn [bind]. apply IH; [exact I1| |exact H|exact WI]. intros NR1.
  pose proof (iter_cases _ _ _ _ _ _ _ _ _ E (loop_pre s k d lim w G I NR)) as (_ & _ & _ & _ & _ & _ & _ & _ & _ & _ & _ & _ & _ & _ & _ & _ & EN & _).
  split; [|intros ->; right; exact EN]. pose proof (sg_sp _ _ G) as SP.
  destruct (iter_kind _ _ _ _ _ _ _ _ G I NR E NR1) as [(j & _ & K)|[K|(-> & _ & _ & K)]]; [| |lia]; destruct d; lia.
Qed.

Lemma fold_lookup k (l : list tick) : forall m m' : gmap (pool_key * Z) tick, forall j, m' !! (k, j) = m !! (k, j) ->
  foldl (fun m t => <[(k, t_index t) := t]> m) m' l !! (k, j) = foldl (fun m t => <[(k, t_index t) := t]> m) m l !! (k, j).
Proof.
  induction l as [|t l IH]; intros m m' j E; cbn; [done|]. apply IH. destruct (decide (j = t_index t)) as [->|N]; [by rewrite !lookup_insert|].
  by rewrite !lookup_insert_ne by congruence.
Qed.

(** ** The time of the last deposit and the fee receiver decide nothing about a swap *)
Definition dress (v : Z) (rc : string) (p : pool) : pool :=
  mkPool (p_liq p) (p_price p) (p_tick p) (p_fgx p) (p_fgy p) (p_protx p) (p_proty p) (p_start p) v rc.
Definition dress_w v rc (w : swap_state) : swap_state :=
  mkSwapState (dress v rc (sw_pool w)) (sw_remaining w) (sw_in w) (sw_out w) (sw_fee w) (sw_ticks w).
Lemma add_fee_dress v rc p a x f p' : add_fee p a x f = Ok p' -> add_fee (dress v rc p) a x f = Ok (dress v rc p').
Proof.
  unfold add_fee. intros H. inv_bind H as pr E1. rewrite E1. cbn [bind]. inv_bind H as pf E2. rewrite E2. cbn [bind].
  cbn [dress p_liq p_protx p_proty p_fgx p_fgy]. destruct (_ || _); [by apply Ok_inj in H; subst p'|]. inv_bind H as g E3. rewrite E3. cbn [bind].
  destruct x; inv_bind H as q E4; rewrite E4; cbn [bind]; apply Ok_inj in H; by subst p'.
Qed.
Lemma tick_cross_dress v rc t p now t' p' : tick_cross t p now = Ok (t', p') -> tick_cross t (dress v rc p) now = Ok (t', dress now rc p').
Proof.
  unfold tick_cross. cbn [dress p_fgx p_fgy p_start p_tick p_liq]. intros H.
  repeat (match goal with H : bind ?x _ = Ok _ |- _ => let y := fresh "y" in let E := fresh "E" in inv_bind H as y E; rewrite ?E; cbn [bind]
    | H : (if ?b then _ else _) = Ok _ |- _ => destruct b end).
  all: try (apply Ok_inj in H; injection H as <- <-; done).
Qed.
Lemma update_tick_dress v rc p r sl tk rem by_in d now f ft p' tk' a rem' c :
  pool_update_tick p r sl tk rem by_in d now f ft = Ok (p', tk', a, rem', c) ->
  exists v', pool_update_tick (dress v rc p) r sl tk rem by_in d now f ft = Ok (dress v' rc p', tk', a, rem', c).
Proof.
  unfold pool_update_tick. intros H. destruct (_ || _).
  { inv_bind H as ix E. rewrite E. cbn [bind]. apply Ok_inj in H. injection H as <- <- <- <- <-. by exists v. }
  cbn [dress p_liq]. inv_bind H as en E. rewrite E. cbn [bind].
  inv_bind H as [[[[[p1 tk1] tt1] rem1] c1] ix] E1. apply Ok_inj in H. injection H as <- <- <- <- <-.
  assert (X : forall (T : res (pool * update_pool_tick * Z * Z * bool * Z)), (exists v', T = Ok (dress v' rc p1, tk1, tt1, rem1, c1, ix)) ->
    exists v', (let* '(p, tk, total, remaining, crossed, index) := T in Ok (p_set_tick p (if d && en then index - ft_spacing ft else index), tk, total, remaining, crossed)) =
    Ok (dress v' rc (p_set_tick p1 (if d && en then ix - ft_spacing ft else ix)), tk1, tt1, rem1, c1)) by (intros T [v' ->]; by exists v').
  apply X. destruct tk as [|t|j]; [done| |].
  - destruct (negb d || en).
    + inv_bind E1 as [t' p2] E2. unfold unwrap in E2 |- *. destruct (tick_cross t p now) as [[t2 p3]| |] eqn:E3; try done.
      rewrite (tick_cross_dress v rc _ _ _ _ _ E3). cbn [bind]. apply Ok_inj in E2. injection E2 as <- <-. apply Ok_inj in E1. injection E1 as <- <- <- <- <- <-. by exists now.
    + destruct (negb (rem =? 0)); [|apply Ok_inj in E1; injection E1 as <- <- <- <- <- <-; by exists v].
      destruct by_in; [|apply Ok_inj in E1; injection E1 as <- <- <- <- <- <-; by exists v].
      inv_bind E1 as p2 E2. rewrite (add_fee_dress v rc _ _ _ _ _ E2). cbn [bind]. apply Ok_inj in E1; injection E1 as <- <- <- <- <- <-; by exists v.
  - apply Ok_inj in E1; injection E1 as <- <- <- <- <- <-; by exists v.
Qed.
Lemma iter_dress v rc s u now k d by_in lim tl w w' : st_ticks u = st_ticks s -> st_bitmap u = st_bitmap s -> st_config u = st_config s ->
  swap_iter s now k d by_in lim tl w = Ok w' -> exists v', swap_iter u now k d by_in lim tl (dress_w v rc w) = Ok (dress_w v' rc w').
Proof.
  intros A B C. unfold swap_iter. cbn [dress_w dress sw_pool sw_remaining sw_in sw_out sw_fee sw_ticks p_tick p_price p_liq].
  rewrite (PropProt.get_closer_bitmap s u _ _ _ _ _ B), C. assert (GT : forall j, State.get_tick u k j = State.get_tick s k j) by (intros j; unfold State.get_tick; by rewrite A).
  intros H. inv_bind H as [sl li] E1. rewrite E1. cbn [bind]. inv_bind H as r E2. rewrite E2. cbn [bind]. inv_bind H as pd E3. rewrite E3. cbn [bind].
  inv_bind H as rm E4. rewrite E4. cbn [bind]. inv_bind H as p0 E5. change (mkPool _ _ _ _ _ _ _ _ v rc) with (dress v rc (sw_pool w)).
  rewrite (add_fee_dress v rc _ _ _ _ _ E5). cbn [bind].
  inv_bind H as fe E6. rewrite E6. cbn [bind]. inv_bind H as ti E7. rewrite E7. cbn [bind]. inv_bind H as to E8. rewrite E8. cbn [bind].
  cbn [dress p_set_price p_price] in H |- *. destruct (_ && _); [done|]. inv_bind H as tk E9.
  assert (E9' : (match li with Some (i, true) => let* t := State.get_tick u k i in Ok (TickInitialized t) | Some (i, false) => Ok (TickUninitialized i) | None => Ok NoTick end) = Ok tk)
    by (destruct li as [[j [|]]|]; rewrite ?GT; exact E9). rewrite E9'. cbn [bind].
  inv_bind H as [[[[p1 tk1] ad] rm1] c] E10. destruct (update_tick_dress v rc _ _ _ _ _ _ _ _ _ _ _ _ _ _ _ E10) as [v' E11].
  unfold dress at 1 in E11. cbn [p_set_price p_liq p_tick p_fgx p_fgy p_protx p_proty p_start p_last p_price] in E11.
  change (p_set_price _ _) with (mkPool (p_liq p0) (sr_next r) (p_tick p0) (p_fgx p0) (p_fgy p0) (p_protx p0) (p_proty p0) (p_start p0) v rc) at 1.
  rewrite E11. cbn [bind]. inv_bind H as t2 E12. rewrite E12. cbn [bind]. cbn [dress p_tick]. destruct (if d then _ else _); [done|].
  apply Ok_inj in H. subst w'. by exists v'.
Qed.
Lemma loop_dress v rc s u now k d by_in lim tl : st_ticks u = st_ticks s -> st_bitmap u = st_bitmap s -> st_config u = st_config s ->
  forall g w w', swap_loop g s now k d by_in lim tl w = Ok w' -> exists v', swap_loop g u now k d by_in lim tl (dress_w v rc w) = Ok (dress_w v' rc w').
Proof.
  intros A B C g. revert v. induction g as [|g IH]; intros v w w' H; cbn [swap_loop] in H |- *; cbn [dress_w sw_remaining]; destruct (sw_remaining w =? 0); try done;
    try (apply Ok_inj in H; subst w'; by exists v). inv_bind H as w1 E. change (mkSwapState _ _ _ _ _ _) with (dress_w v rc w).
  destruct (iter_dress v rc _ _ _ _ _ _ _ _ _ _ A B C E) as [v' ->]. cbn [bind]. by apply IH.
Qed.

(** the same pool record, up to the time of the last change of liquidity and the address that collects the protocol's fees *)
Definition same_pool (p q : pool) : Prop :=
  q = mkPool (p_liq p) (p_price p) (p_tick p) (p_fgx p) (p_fgy p) (p_protx p) (p_proty p) (p_start p) (p_last q) (p_receiver q).

Lemma calculate_near g s t now k (d : bool) a by_in lim r p : store_geo s k -> store_geo t k ->
  cf_protocol_fee (st_config t) = cf_protocol_fee (st_config s) ->
  (forall j, is_init s k (spacing k) j <-> is_Some (st_ticks s !! (k, j))) -> (forall j, is_init t k (spacing k) j <-> is_Some (st_ticks t !! (k, j))) ->
  st_pools s !! k = Some p -> pool_geo k p -> pool_geo k (cr_pool r) -> 0 <= a <= U128MAX ->
  (forall j, Z.min (p_tick p) (p_tick (cr_pool r)) <= j <= Z.max (p_tick p) (p_tick (cr_pool r)) -> st_ticks t !! (k, j) = st_ticks s !! (k, j)) ->
  by_in = true \/ d = true /\ (forall j, is_Some (st_ticks t !! (k, j)) -> is_Some (st_ticks s !! (k, j))) ->
  calculate_swap g s now k d a by_in lim = Ok r -> forall q, st_pools t !! k = Some q -> same_pool p q ->
  exists v, calculate_swap g t now k d a by_in lim = Ok (mkCalc (cr_in r) (cr_out r) (cr_start r) (cr_target r) (cr_fee r) (dress v (p_receiver q) (cr_pool r)) (cr_ticks r)).
Proof.
  intros G G2 CF II IT Ep PG PG' Ha N M C q Et SQ. pose proof (sg_sp _ _ G) as SP.
  set (lo := if d then p_tick (cr_pool r) else p_tick p). set (hi := if d then p_tick p else p_tick (cr_pool r)).
  assert (NN : near k lo hi s t).
  { intros j J. assert (Q : st_ticks t !! (k, j) = st_ticks s !! (k, j)) by (apply N; unfold lo, hi in J; destruct d; lia). split; [|exact Q]. by rewrite II, IT, Q. }
  unfold calculate_swap in C |- *. destruct (Z.eqb_spec a 0); [done|]. unfold get_pool in C |- *. rewrite Ep in C. rewrite Et. cbn [bind] in C |- *.
  assert (EP : p_price q = p_price p) by (rewrite SQ; done). rewrite EP.
  replace (mkSwapState q a 0 0 0 []) with (mkSwapState (dress (p_last q) (p_receiver q) p) a 0 0 0 []) by (unfold dress; by rewrite <- SQ).
  destruct (if d then _ else _) eqn:X in C; [done|]. rewrite X. inv_bind C as w E.
  assert (D : if d then lim < p_price p else p_price p < lim) by (destruct d; apply orb_false_iff in X; destruct X as [X _]; apply Z.leb_gt in X; lia).
  pose proof (loop_start k d lim p a PG Ha D) as I.
  change (if d then get_min_tick (spacing k) else get_max_tick (spacing k)) with (end_tick d k) in *.
  destruct (Z.eqb_spec (sw_out w) 0) as [|NO]; [done|]. apply Ok_inj in C. subst r. cbn [cr_pool cr_in cr_out cr_start cr_target cr_fee cr_ticks] in *.
  pose proof (run_geo _ _ _ _ _ _ _ _ G I (swap_loop_run _ _ _ _ _ _ _ _ _ E)) as (_ & _ & MV). cbn in MV.
  destruct PG as [PR PL], PG' as [PR' PL'].
  assert (E2 : swap_loop g t now k d by_in lim (end_tick d k) (mkSwapState p a 0 0 0 []) = Ok w).
  { apply (loop_near s t now k d by_in lim lo hi G G2 CF); [apply IT|exact NN| | |exact I| |exact E|].
    - unfold lo. destruct d; [apply PR'|apply PR].
    - destruct M as [->|[-> M]]; [by left|right]. split; [done|]. intros j. rewrite II, IT. apply M.
    - intros _. cbn [sw_pool]. assert (LE : d = true -> p_tick (sw_pool w) <= p_tick p).
      { intros ->. eapply weak_le; [|exact PR|apply rest_weak; exact PR'|exact MV]. lia. }
      unfold lo, hi. destruct d; [|split; [lia|done]]. split; [lia|]. intros _. left. by apply LE.
    - unfold within, lo, hi. destruct d; [apply PR'|]. intros j J1 J2. destruct PR' as (L1 & _ & L3). assert (S1 : 1 <= spacing k) by lia. pose proof (legal_top _ _ S1 J1).
      pose proof (legal_gap _ _ _ S1 L1 J1 J2). specialize (L3 ltac:(lia)). pose proof (legal_price_le _ _ _ (legal_next _ _ S1 L1 ltac:(lia)) J1 ltac:(lia)). lia. }
  destruct (loop_dress (p_last q) (p_receiver q) t t now k d by_in lim (end_tick d k) eq_refl eq_refl eq_refl _ _ _ E2) as [v E3]. unfold dress_w at 1 in E3. cbn [sw_pool sw_remaining sw_in sw_out sw_fee sw_ticks] in E3.
  rewrite E3. cbn [bind dress_w sw_out sw_in sw_fee sw_ticks sw_pool]. rewrite (proj2 (Z.eqb_neq _ _) NO). exists v. done.
Qed.

(** Two states that agree about a pool and about its ticks between the price a swap starts from and the one it ends at:
    the swap has the same outcome in both.
    Missing from C99: rising swaps for an exact output, and falling ones that find further ticks beyond, see the counterexample below. *)
Theorem C99_unreached_partial e i s t k (d : bool) a by_in lim s' ms at' p q p' : reachable s -> reachable t ->
  st_pools s !! k = Some p -> st_pools t !! k = Some q -> same_pool p q -> cf_protocol_fee (st_config t) = cf_protocol_fee (st_config s) ->
  execute e i s (Swap k d a by_in lim) = Ok (s', ms, at') -> st_pools s' !! k = Some p' ->
  (forall j, Z.min (p_tick p) (p_tick p') <= j <= Z.max (p_tick p) (p_tick p') -> st_ticks t !! (k, j) = st_ticks s !! (k, j)) ->
  by_in = true \/ d = true /\ (forall j, is_Some (st_ticks t !! (k, j)) -> is_Some (st_ticks s !! (k, j))) ->
  exists t' q', execute e i t (Swap k d a by_in lim) = Ok (t', ms, at') /\ st_pools t' !! k = Some q' /\ same_pool p' q' /\
    forall j, Z.min (p_tick p) (p_tick p') <= j <= Z.max (p_tick p) (p_tick p') -> st_ticks t' !! (k, j) = st_ticks s' !! (k, j).
Proof.
  intros R R2 Ep Et SQ CF H Ep' N M. destruct (execute_swap_inv _ _ _ _ _ _ _ _ _ _ _ R H) as (r & p0 & C & _ & Ep0 & Ep1 & Ha & Hl & _).
  rewrite Ep in Ep0. injection Ep0 as <-. rewrite Ep' in Ep1. injection Ep1 as ->.
  assert (R' : reachable s') by exact (reach_call _ _ _ _ _ _ _ R H). apply reachable_ereach in R, R2, R'.
  pose proof (ereach_store_geo _ _ _ R Ep) as G. pose proof (ereach_store_geo _ _ _ R2 Et) as G2. pose proof (ereach_geo _ R _ _ Ep) as PG. pose proof (ereach_geo _ R' _ _ Ep') as PG'.
  assert (II : forall j, is_init s k (spacing k) j <-> is_Some (st_ticks s !! (k, j))) by (intros j; apply (lq_init _ (ereach_liq _ R)); eauto).
  assert (IT : forall j, is_init t k (spacing k) j <-> is_Some (st_ticks t !! (k, j))) by (intros j; apply (lq_init _ (ereach_liq _ R2)); eauto).
  destruct (calculate_near _ _ _ _ _ _ _ _ _ _ _ G G2 CF II IT Ep PG PG' Ha N M C q Et SQ) as [v C'].
  unfold execute in H |- *. destruct (env_typed e i && msg_typed (Swap k d a by_in lim)) eqn:ET; [|done].
  cbn [dispatch] in H |- *. unfold swap, swap_internal in H |- *. rewrite C'. rewrite C in H. cbn [bind cr_ticks cr_pool cr_in cr_out] in H |- *.
  destruct (calculate_swap_frame _ _ _ _ _ _ _ _ _ C') as (_ & _ & _ & _ & _ & FT & _). cbn [cr_ticks] in FT.
  assert (FX : Forall (fun x => is_Some (st_ticks t !! (k, t_index x))) (cr_ticks r)) by (eapply PropTrade.crossed_exists; [apply (sg_index _ _ G2)|exact FT]).
  destruct (PropTrade.update_ticks_total _ _ _ FX) as [t1 UT]. rewrite UT. cbn [bind].
  inv_bind H as [[s1 m1] r1] E. inv_bind E as s2 US. apply update_ticks_inv in UT, US. subst t1 s2.
  destruct d; inv_bind E as m0 EM; rewrite EM; cbn [bind]; apply Ok_inj in E; injection E as <- <- <-; apply Ok_inj in H; injection H as <- <- <-.
  all: eexists _, _; split; [reflexivity|]; split; [cbn; apply lookup_insert|]; split; [done|]; intros j J; cbn; apply fold_lookup, N, J.
Qed.

(** ** Calls that leave a stretch of a pool alone *)
(** not about the pool [k], or a deposit, withdrawal or claim whose ticks lie beyond the stretch from [lo] to [hi] *)
Definition aloof (k : pool_key) (lo hi : Z) (i : msg_info) (s : store) (m : exec_msg) : Prop :=
  match m with
  | ChangeProtocolFee _ => False
  | CreatePosition k' l u _ _ _ | Mint k' l u _ _ _ => k' = k -> u < lo \/ hi < l
  | RemovePosition ix => forall po, st_positions s !! (i_sender i, ix) = Some po -> po_key po = k -> po_upper po < lo \/ hi < po_lower po
  | Burn tid => forall o ix po, split_token tid = Some (o, ix) -> st_positions s !! (i_sender i, ix) = Some po -> po_key po = k ->
      po_upper po < lo \/ hi < po_lower po
  | ClaimFee ix => forall po, st_positions s !! (i_sender i, ix) = Some po -> po_key po = k ->
      ~ lo <= po_lower po <= hi /\ ~ lo <= po_upper po <= hi
  | _ => ~ touches i s m k
  end.
Record spared (k : pool_key) (lo hi : Z) (s t : store) : Prop := {
  sp_fee : cf_protocol_fee (st_config t) = cf_protocol_fee (st_config s);
  sp_pool : forall p, st_pools s !! k = Some p -> exists q, st_pools t !! k = Some q /\ same_pool p q;
  sp_tick : forall j, lo <= j <= hi -> st_ticks t !! (k, j) = st_ticks s !! (k, j)
}.
Lemma spared_refl k lo hi s : spared k lo hi s s.
Proof. constructor; try done. intros p E. exists p. split; [done|]. unfold same_pool. by destruct p. Qed.
Lemma spared_trans k lo hi s t u : spared k lo hi s t -> spared k lo hi t u -> spared k lo hi s u.
Proof.
  intros [A1 A2 A3] [B1 B2 B3]. constructor.
  - congruence.
  - intros p E. destruct (A2 p E) as (q & E2 & Q2). destruct (B2 q E2) as (q3 & E3 & Q3). exists q3. split; [done|]. unfold same_pool in *. by rewrite Q2 in Q3.
  - intros j J. by rewrite B3, A3.
Qed.
Lemma untouched_spared e i s m s' ms at' k lo hi : execute e i s m = Ok (s', ms, at') -> ~ touches i s m k -> (forall f, m <> ChangeProtocolFee f) -> spared k lo hi s s'.
Proof.
  intros H NT NF. pose proof (PropLocal.C72_changes_only _ _ _ _ _ _ _ H) as []. constructor.
  - unfold execute in H. destruct (env_typed e i && msg_typed m); [|done].
    destruct m; cbn [dispatch] in H; try (rewrite ou_config; [done|cbn; tauto]); try (exfalso; by eapply NF).
    all: clear - H; unfold change_admin, add_fee_tier, remove_fee_tier in H; rinv H; simplify_eq; cbn; try done.
  - intros p E. exists p. rewrite ou_pool by done. split; [done|]. unfold same_pool. by destruct p.
  - intros j J. by apply ou_tick.
Qed.
Lemma modify_aside po p u l delta add now s po' p' u' l' x y : position_modify po p u l delta add now s = Ok (po', p', u', l', x, y) ->
  t_index u <= p_tick p \/ p_tick p < t_index l \/ delta = 0 -> p' = p_set_last p now.
Proof.
  unfold position_modify. intros H A. inv_bind H as l1 E1. inv_bind H as u1 E2. inv_bind H as po1 E3. inv_bind H as [[p1 x1] y1] E4. apply Ok_inj in H. injection H as <- <- <- <- <- <-.
  assert (IL : t_index l1 = t_index l) by (unfold tick_update in E1; rinv E1; by simplify_eq).
  assert (IU : t_index u1 = t_index u) by (unfold tick_update in E2; rinv E2; by simplify_eq).
  unfold update_liquidity in E4. inv_bind E4 as [[xx yy] upd] E5. apply amount_delta_upd in E5. destruct E5 as [_ ->]. rewrite IL, IU in E4. cbn [p_tick p_set_last p_liq] in E4.
  unfold in_range_tick in E4. destruct ((t_index l <=? p_tick p) && (p_tick p <? t_index u)) eqn:Q.
  - apply andb_true_iff in Q. destruct Q as [Q1 Q2]. apply Z.leb_le in Q1. apply Z.ltb_lt in Q2. inv_bind E4 as z E6. apply Ok_inj in E4. injection E4 as <- <- <-.
    assert (D : delta = 0) by lia. subst delta. assert (z = p_liq p) by (destruct add; ckinv; lia). subst z. by destruct p.
  - apply Ok_inj in E4. by injection E4 as <- <- <-.
Qed.
Lemma modify_ordered po p u l delta add now s po' p' u' l' x y : position_modify po p u l delta add now s = Ok (po', p', u', l', x, y) -> t_index l <= t_index u.
Proof.
  unfold position_modify. intros H. inv_bind H as l1 E1. inv_bind H as u1 E2. inv_bind H as po1 E3. inv_bind H as [[p1 x1] y1] E4.
  assert (IL : t_index l1 = t_index l) by (unfold tick_update in E1; rinv E1; by simplify_eq).
  assert (IU : t_index u1 = t_index u) by (unfold tick_update in E2; rinv E2; by simplify_eq).
  unfold update_liquidity in E4. inv_bind E4 as [[xx yy] upd] E5. apply amount_delta_upd in E5. destruct E5 as [E5 _]. by rewrite IL, IU in E5.
Qed.
Lemma set_last_same p v : same_pool p (p_set_last p v).
Proof. done. Qed.
Lemma clear_far b k i t m k' j : (k', j) <> (k, i) -> clear_tick b k i t m !! (k', j) = m !! (k', j).
Proof. intros N. unfold clear_tick. destruct b; [apply lookup_delete_ne|apply lookup_insert_ne]; congruence. Qed.

Lemma remove_spared e i s ix s' ms at' k lo hi p : ticks_indexed s -> remove_position_exec e i s ix = Ok (s', ms, at') ->
  st_pools s !! k = Some p -> lo <= p_tick p <= hi ->
  (forall po, st_positions s !! (i_sender i, ix) = Some po -> po_key po = k -> po_upper po < lo \/ hi < po_lower po) -> spared k lo hi s s'.
Proof.
  intros IX H Ep C A. apply remove_position_exec_inv in H; [|done].
  destruct H as (po & lt & ut & p0 & po' & p' & lt' & ut' & x & y & dl & du & bm1 & bm2 & m' & E1 & _ & E2 & E3 & E4 & E5 & _ & _ & _ & _ & _ & _ & _ & ->).
  specialize (A _ E1). unfold position_remove in E5. inv_bind E5 as [[[[[po1 p1] u1] l1] x1] y1] EM. inv_bind E5 as x2 EX. inv_bind E5 as y2 EY.
  apply Ok_inj in E5. simplify_eq. pose proof (IX _ _ _ E2) as I2. pose proof (IX _ _ _ E3) as I3.
  constructor; cbn; [done| |].
  - intros q Eq. destruct (decide (k = po_key po)) as [->|N]; [|rewrite lookup_insert_ne by congruence; exists q; split; [done|]; unfold same_pool; by destruct q].
    specialize (A eq_refl). rewrite lookup_insert. simplify_eq. eexists; split; [done|]. rewrite (modify_aside _ _ _ _ _ _ _ _ _ _ _ _ _ _ EM); [apply set_last_same|]. rewrite I2, I3. lia.
  - intros j J. pose proof (modify_ordered _ _ _ _ _ _ _ _ _ _ _ _ _ _ EM) as LE. rewrite !clear_far; [done|..]; intros X; injection X as X1 X2; specialize (A (eq_sym X1)); lia.
Qed.
Lemma create_spared e i s k' l u q sl su s' ms at' k lo hi p : ticks_indexed s -> create_position e i s k' l u q sl su = Ok (s', ms, at') ->
  st_pools s !! k = Some p -> lo <= p_tick p <= hi -> (k' = k -> u < lo \/ hi < l) -> spared k lo hi s s'.
Proof.
  intros IX H Ep C A. apply create_position_inv in H; [|done].
  destruct H as (p0 & lt & ut & po & p' & lt' & ut' & x & y & bm1 & bm2 & m0 & m1 & _ & _ & E1 & E2 & E3 & _ & _ & E5 & _ & _ & _ & _ & _ & ->).
  apply stored_or_new_index in E2, E3; [|done..]. unfold position_create in E5. destruct (_ || _); [done|].
  inv_bind E5 as [[[[[po1 p1] u1] l1] x1] y1] EM. apply Ok_inj in E5. simplify_eq. pose proof (modify_ordered _ _ _ _ _ _ _ _ _ _ _ _ _ _ EM) as LE.
  constructor; cbn; [done| |].
  - intros q0 Eq. destruct (decide (k' = k)) as [->|N]; [|rewrite lookup_insert_ne by congruence; exists q0; split; [done|]; unfold same_pool; by destruct q0].
    specialize (A eq_refl). rewrite lookup_insert. simplify_eq. eexists; split; [done|]. rewrite (modify_aside _ _ _ _ _ _ _ _ _ _ _ _ _ _ EM); [apply set_last_same|]. lia.
  - intros j J. rewrite !lookup_insert_ne; [done|..]; intros X; injection X as X1 X2; specialize (A X1); lia.
Qed.
Lemma claim_spared e i s ix s' ms at' k lo hi : ticks_indexed s -> claim_fee e i s ix = Ok (s', ms, at') ->
  (forall po, st_positions s !! (i_sender i, ix) = Some po -> po_key po = k -> ~ lo <= po_lower po <= hi /\ ~ lo <= po_upper po <= hi) -> spared k lo hi s s'.
Proof.
  intros IX H A. apply claim_fee_inv in H; [|done].
  destruct H as (po & lt & ut & p & po' & p' & lt' & ut' & x & y & E1 & _ & E2 & E3 & E4 & E5 & _ & _ & _ & _ & ->).
  specialize (A _ E1). unfold position_claim_fee in E5. inv_bind E5 as [[[[[po1 p1] u1] l1] x1] y1] EM. apply Ok_inj in E5. simplify_eq.
  constructor; cbn; [done| |].
  - intros q Eq. destruct (decide (po_key po = k)) as [<-|N]; [|rewrite lookup_insert_ne by congruence; exists q; split; [done|]; unfold same_pool; by destruct q].
    rewrite lookup_insert. simplify_eq. eexists; split; [done|]. rewrite (modify_aside _ _ _ _ _ _ _ _ _ _ _ _ _ _ EM); [apply set_last_same|]. lia.
  - intros j J. rewrite !lookup_insert_ne; [done|..]; intros X; injection X as X1 X2; specialize (A X1); lia.
Qed.
Lemma aloof_spared e i s m s' ms at' k lo hi p : reachable s -> execute e i s m = Ok (s', ms, at') -> st_pools s !! k = Some p -> lo <= p_tick p <= hi ->
  aloof k lo hi i s m -> spared k lo hi s s'.
Proof.
  intros R H Ep C A. apply reachable_ereach in R. pose proof (ereach_indexed _ R) as IX.
  assert (D : (~ touches i s m k /\ forall f, m <> ChangeProtocolFee f) \/
    match m with CreatePosition _ _ _ _ _ _ | Mint _ _ _ _ _ _ | RemovePosition _ | Burn _ | ClaimFee _ => True | _ => False end)
    by (destruct m; cbn [aloof] in A; try (by right); try (by destruct A); left; (split; [exact A|intros f X; discriminate X])).
  destruct D as [[D1 D2]|D]; [by eapply untouched_spared|].
  unfold execute in H. destruct (env_typed e i && msg_typed m); [|done].
  destruct m; try (by destruct D); cbn [dispatch] in H; cbn [aloof] in A.
  - by eapply create_spared.
  - by eapply claim_spared.
  - by eapply remove_spared.
  - by eapply create_spared.
  - unfold handle_burn in H. inv_bind H as po E. destruct (split_token token_id) as [[o ix]|] eqn:ST; [|done]. inv_bind H as x E2.
    eapply remove_spared; [exact IX|exact H|exact Ep|exact C|]. intros po0. by apply (A o ix po0).
Qed.

(** any number of successful such calls, by anyone, at any time *)
Inductive idle (k : pool_key) (lo hi : Z) : store -> store -> Prop :=
| idle_none s : idle k lo hi s s
| idle_call e i s m s1 ms at' t : aloof k lo hi i s m -> execute e i s m = Ok (s1, ms, at') -> idle k lo hi s1 t -> idle k lo hi s t.
Lemma idle_spared k lo hi s t : idle k lo hi s t -> forall p, reachable s -> st_pools s !! k = Some p -> lo <= p_tick p <= hi -> reachable t /\ spared k lo hi s t.
Proof.
  induction 1 as [s|e i s m s1 ms at' t A H I IH]; intros p R E C; [split; [done|apply spared_refl]|].
  pose proof (aloof_spared _ _ _ _ _ _ _ _ _ _ _ R H E C A) as S1. destruct (sp_pool _ _ _ _ _ S1 _ E) as (q & E1 & Q).
  destruct (IH q) as [R2 S2]; [exact (reach_call _ _ _ _ _ _ _ R H)|exact E1|rewrite Q; exact C|]. split; [exact R2|]. by eapply spared_trans.
Qed.

(** Deposits and withdrawals beyond the prices an exact-input swap passes through do not change its outcome, and neither do calls
    about anything else. *)
Theorem C99_calls_partial e i s k d a lim s' ms at' p p' t : reachable s -> st_pools s !! k = Some p ->
  execute e i s (Swap k d a true lim) = Ok (s', ms, at') -> st_pools s' !! k = Some p' ->
  idle k (Z.min (p_tick p) (p_tick p')) (Z.max (p_tick p) (p_tick p')) s t ->
  exists t' q', execute e i t (Swap k d a true lim) = Ok (t', ms, at') /\ st_pools t' !! k = Some q' /\ same_pool p' q'.
Proof.
  intros R E H E' I. destruct (idle_spared _ _ _ _ _ I p R E ltac:(lia)) as [R2 []]. destruct (sp_pool0 _ E) as (q & Eq & Q).
  destruct (C99_unreached_partial e i s t k d a true lim s' ms at' p q p') as (t' & q' & X1 & X2 & X3 & _); eauto.
Qed.

(** ** Exact outputs: a tick ahead can attract the price *)
Definition far_deposit : exec_msg := CreatePosition lm_key 25000 25100 1000000 0 (2 ^ 128 - 1).
Definition after_deposit : res response := execute v_env (v_info "bob") lm_store far_deposit.
Definition reach_swap (a : Z) (by_in : bool) (s : store) : res response := execute v_env (v_info "carol") s (Swap lm_key false a by_in MAX_SQRT_PRICE).
(** what a swap in each of the two states charges and pays, and where it leaves the price *)
Definition reach_see (a : Z) (by_in : bool) (s : store) : res (list (string * Z) * list out_msg * res (Z * Z)) :=
  let* '(s', ms, at') := reach_swap a by_in s in Ok (at', ms, let* p := get_pool s' lm_key in Ok (p_tick p, p_price p)).
Definition reach_both (a : Z) (by_in : bool) : res _ :=
  let* '(t, _, _) := after_deposit in
  let* x := reach_see a by_in lm_store in let* y := reach_see a by_in t in Ok (get_pool lm_store lm_key, x, y).

(** the deposit begins one spacing above the tick where the swap ends; the swap is for an exact input and does not notice *)
Definition ex_C99_seen : list (string * Z) * list out_msg * res (Z * Z) :=
  ([("amount_in", 2397295205515060000000); ("amount_out", 622566440231036487682)]%string,
   [Cw20TransferFrom "tokeny" "carol" "self" 2397295205515060000000; Cw20Transfer "tokenx" "carol" 622566440231036487682]%string,
   Ok (24900, 3490103319898514820000001)).
Example ex_C99 : match reach_both 2397295205515060000000 true with
  | Ok (Ok p, x, y) => p_tick p = 1900 /\ x = ex_C99_seen /\ y = ex_C99_seen
  | _ => False end.
Proof. vm_compute. repeat split; reflexivity. Qed.
Example ex_C99_aloof : aloof lm_key 1900 24900 (v_info "bob") lm_store far_deposit.
Proof. intros _. right. reflexivity. Qed.

(** False for rising swaps with an exact output: the deposit begins above the price where the swap would have ended, but within what
    rounding takes for the same amount; after the deposit the swap goes all the way to the deposit's lower end and costs more. *)
Theorem C99_refuted : exists s t a s1 m1 total1 p p1 s2 m2 total2, reachable s /\ st_pools s !! lm_key = Some p /\
  execute v_env (v_info "carol") s (Swap lm_key false a false MAX_SQRT_PRICE) = Ok (s1, m1, [("amount_in"%string, total1); ("amount_out"%string, a)]) /\
  st_pools s1 !! lm_key = Some p1 /\ p_tick p < p_tick p1 /\ idle lm_key (p_tick p) (p_tick p1) s t /\
  execute v_env (v_info "carol") t (Swap lm_key false a false MAX_SQRT_PRICE) = Ok (s2, m2, [("amount_in"%string, total2); ("amount_out"%string, a)]) /\
  total1 < total2.
Proof.
  set (a := 622568206203180631738).
  assert (X : match after_deposit with
    | Ok (t, _, _) => match reach_swap a false lm_store, reach_swap a false t, st_pools lm_store !! lm_key with
        | Ok (s1, _, a1), Ok (_, _, a2), Some p => a1 = [("amount_in", 2397295205515065999994); ("amount_out", a)]%string /\
            a2 = [("amount_in", 2397295205515066000000); ("amount_out", a)]%string /\ p_tick p = 1900 /\
            match st_pools s1 !! lm_key with Some p1 => p_tick p1 = 24900 | None => False end
        | _, _, _ => False end
    | _ => False end) by (vm_compute; repeat split; reflexivity).
  destruct after_deposit as [[[t mt] att]| |] eqn:ED; [|destruct X..].
  destruct (reach_swap a false lm_store) as [[[s1 m1] a1]| |] eqn:E1; [|destruct X..].
  destruct (reach_swap a false t) as [[[s2 m2] a2]| |] eqn:E2; [|destruct X..].
  destruct (st_pools lm_store !! lm_key) as [p|] eqn:EP; [|destruct X]. destruct X as (-> & -> & X1 & X2).
  destruct (st_pools s1 !! lm_key) as [p1|] eqn:EP1; [|destruct X2].
  exists lm_store, t, a, s1, m1, 2397295205515065999994, p, p1, s2, m2, 2397295205515066000000.
  split; [exact (start_reachable _ _ _ lm_store_ok)|]. split; [exact EP|]. split; [exact E1|]. split; [exact EP1|]. split; [rewrite X1, X2; reflexivity|].
  split; [|split; [exact E2|reflexivity]]. rewrite X1, X2. eapply idle_call; [|exact ED|apply idle_none]. intros _. right. reflexivity.
Qed.
