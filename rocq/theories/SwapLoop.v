(** The swap loop as a whole: the sequence of its iterations and what they keep. *)
From Verif Require Import Base Decimal SqrtPrice Clamm Log FeeGrowth Types Tick Pool Position
  Tickmap Keys State Swap Tactics PriceProofs LogProofs ClammProofs PropClamm BitmapProofs Frame SwapInv SwapGeo.
From stdpp Require Import gmap strings.
From Coq Require Import Lia.
Open Scope Z_scope.

Notation spacing k := (ft_spacing (pk_tier k)).
Definition end_tick (d : bool) (k : pool_key) : Z := if d then get_min_tick (spacing k) else get_max_tick (spacing k).

Inductive run (s : store) (now : Z) (k : pool_key) (d by_in : bool) (lim : Z) : swap_state -> swap_state -> Prop :=
| run_done w : sw_remaining w = 0 -> run s now k d by_in lim w w
| run_step w w1 w2 : sw_remaining w <> 0 -> swap_iter s now k d by_in lim (end_tick d k) w = Ok w1 ->
    run s now k d by_in lim w1 w2 -> run s now k d by_in lim w w2.

Lemma swap_loop_run gas s now k d by_in lim w w' :
  swap_loop gas s now k d by_in lim (end_tick d k) w = Ok w' -> run s now k d by_in lim w w'.
Proof.
  revert w. induction gas as [|g IH]; intros w H; cbn in H; destruct (Z.eqb_spec (sw_remaining w) 0) as [Z0|Z0].
  - apply Ok_inj in H. subst. by constructor.
  - done.
  - apply Ok_inj in H. subst. by constructor.
  - inv_bind H as w1 E. eapply run_step; [done|exact E|]. by apply IH.
Qed.

(** what the loop relies on *)
Record store_geo (s : store) (k : pool_key) : Prop := {
  sg_chunks : chunks_u64 s;
  sg_sp : 1 <= spacing k <= 100;
  sg_fee : 0 <= ft_fee (pk_tier k) < PCT_ONE;
  sg_index : ticks_indexed s
}.
Definition pool_geo (k : pool_key) (p : pool) : Prop :=
  rest (spacing k) (p_tick p) (p_price p) /\ 0 <= p_liq p <= U128MAX.
Record loop_inv (k : pool_key) (d : bool) (lim : Z) (w : swap_state) : Prop := {
  lv_weak : weak (spacing k) (p_tick (sw_pool w)) (p_price (sw_pool w));
  lv_rest : d = false \/ sw_remaining w = 0 -> rest (spacing k) (p_tick (sw_pool w)) (p_price (sw_pool w));
  lv_lim : sw_remaining w <> 0 -> if d then lim < p_price (sw_pool w) else p_price (sw_pool w) < lim;
  lv_liq : 0 <= p_liq (sw_pool w) <= U128MAX;
  lv_rem : 0 <= sw_remaining w <= U128MAX
}.

Lemma loop_pre s k d lim w : store_geo s k -> loop_inv k d lim w -> sw_remaining w <> 0 -> iter_pre s k d lim w.
Proof. intros [] [] R. constructor; auto. { by apply lv_lim0. } split; [|lia]. clear - R lv_rem0. lia. Qed.
Lemma loop_step s now k d by_in lim w w' : store_geo s k -> loop_inv k d lim w -> sw_remaining w <> 0 ->
  swap_iter s now k d by_in lim (end_tick d k) w = Ok w' -> iter_post s k d lim w w' /\ loop_inv k d lim w'.
Proof.
  intros G I R H. pose proof (loop_pre s k d lim w G I R) as P.
  apply iter_geo in H; [|apply G|done]. split; [done|]. destruct H. destruct I. constructor; auto. lia.
Qed.

Lemma calculate_swap_run gas s now k (d : bool) a by_in lim r :
  calculate_swap gas s now k d a by_in lim = Ok r ->
  exists p w, st_pools s !! k = Some p /\ a <> 0 /\
    (if d then lim < p_price p else p_price p < lim) /\
    run s now k d by_in lim (mkSwapState p a 0 0 0 []) w /\ sw_out w <> 0 /\
    r = mkCalc (sw_in w) (sw_out w) (p_price p) (p_price (sw_pool w)) (sw_fee w) (sw_pool w) (sw_ticks w).
Proof.
  unfold calculate_swap. intros H. destruct (Z.eqb_spec a 0) as [|A]; [done|].
  inv_bind H as p EP. unfold get_pool in EP. destruct (st_pools s !! k) as [q|] eqn:Q; [|done]. apply Ok_inj in EP. subst q.
  destruct (if d then _ else _) eqn:L; [done|].
  inv_bind H as w E. destruct (Z.eqb_spec (sw_out w) 0) as [|O]; [done|]. apply Ok_inj in H. subst r.
  exists p, w. split; [done|]. split; [done|]. split.
  { destruct d; apply orb_false_iff in L; destruct L as [L _]; apply Z.leb_gt in L; lia. }
  split; [|done]. eapply swap_loop_run, E.
Qed.
Lemma loop_start k (d : bool) lim p a : pool_geo k p -> 0 <= a <= U128MAX -> (if d then lim < p_price p else p_price p < lim) ->
  loop_inv k d lim (mkSwapState p a 0 0 0 []).
Proof. intros [R L] A D. constructor; cbn; auto using rest_weak. Qed.

(** ** Final geometry *)
Lemma run_geo s now k (d : bool) by_in lim w w' : store_geo s k -> loop_inv k d lim w -> run s now k d by_in lim w w' ->
  loop_inv k d lim w' /\ sw_remaining w' = 0 /\
  (if d then p_price (sw_pool w') <= p_price (sw_pool w) else p_price (sw_pool w) <= p_price (sw_pool w')).
Proof.
  intros G I R. induction R as [w Z0|w w1 w2 N E _ IH]; [split; [done|]; split; [done|]; destruct d; lia|].
  pose proof (loop_step _ _ _ _ _ _ _ _ G I N E) as [P I1]. destruct (IH I1) as (I2 & Z0 & D). split; [done|]. split; [done|].
  destruct P. destruct d; lia.
Qed.

Lemma weak_le sp c0 p0 c p : 1 <= sp -> rest sp c0 p0 -> weak sp c p -> p <= p0 -> c <= c0.
Proof.
  intros S1 (A & B & C) (A' & B' & C') X. destruct (Z.le_gt_cases c c0) as [|Y]; [done|exfalso].
  pose proof (legal_gap _ _ _ S1 A A' ltac:(lia)). pose proof (legal_top _ _ S1 A'). specialize (C ltac:(lia)).
  pose proof (legal_price_le sp (c0 + sp) c (legal_next _ _ S1 A ltac:(lia)) A' ltac:(lia)). lia.
Qed.

(** ** Crossed ticks *)
Definition passed (d : bool) (c0 c j : Z) : Prop := if d then c < j <= c0 else c0 < j <= c.
(** the ticks crossed so far are exactly the initialized ticks passed by the current tick *)
Definition crossed_exactly (s : store) (k : pool_key) (d : bool) (c0 c : Z) (l : list tick) : Prop :=
  forall j, is_init s k (spacing k) j -> (j ∈ map t_index l <-> passed d c0 c j).

Record good_step (s : store) (k : pool_key) (d : bool) (w w' : swap_state) : Prop := {
  gs_move :
    let sp := spacing k in
    let c := p_tick (sw_pool w) in let c' := p_tick (sw_pool w') in
    (sw_ticks w' = sw_ticks w /\ p_liq (sw_pool w') = p_liq (sw_pool w) /\ exact s k sp c c') \/
    (exists t tk t', is_init s k sp t /\ st_ticks s !! (k, t) = Some tk /\ same_liq tk t' /\
       sw_ticks w' = sw_ticks w ++ [t'] /\
       if d then c' = t - sp /\ t <= c /\ (forall j, t < j <= c -> ~ is_init s k sp j) /\
                 p_liq (sw_pool w') = p_liq (sw_pool w) - net tk
       else c' = t /\ c < t /\ (forall j, c < j < t -> ~ is_init s k sp j) /\
            p_liq (sw_pool w') = p_liq (sw_pool w) + net tk)
}.

Inductive grun (s : store) (now : Z) (k : pool_key) (d by_in : bool) (lim : Z) : swap_state -> swap_state -> Prop :=
| grun_done w : sw_remaining w = 0 -> grun s now k d by_in lim w w
| grun_step w w1 w2 : sw_remaining w <> 0 -> loop_inv k d lim w ->
    swap_iter s now k d by_in lim (end_tick d k) w = Ok w1 -> loop_inv k d lim w1 ->
    good_step s k d w w1 -> grun s now k d by_in lim w1 w2 -> grun s now k d by_in lim w w2.

Lemma crossed_step s k (d : bool) c0 w w' : 1 <= spacing k -> ticks_indexed s ->
  (if d then p_tick (sw_pool w) <= c0 else c0 <= p_tick (sw_pool w)) ->
  crossed_exactly s k d c0 (p_tick (sw_pool w)) (sw_ticks w) -> good_step s k d w w' ->
  crossed_exactly s k d c0 (p_tick (sw_pool w')) (sw_ticks w').
Proof.
  intros S1 IX B C [M]. cbn in M. intros j J. specialize (C j J).
  destruct M as [(-> & _ & X)|(t & tk & t' & TI & TK & SQ & -> & M)].
  - rewrite C. unfold passed. specialize (X j J). destruct d; lia.
  - pose proof (IX _ _ _ TK) as IT. destruct SQ as (SQ & _). rewrite map_app, elem_of_app, C. cbn. rewrite elem_of_list_singleton, SQ, IT.
    pose proof (is_init_legal _ _ _ _ S1 TI) as LT. pose proof (is_init_legal _ _ _ _ S1 J) as LJ.
    unfold passed. destruct d.
    + destruct M as (-> & M1 & M2 & _). split.
      * intros [X| ->]; lia.
      * intros X. destruct (Z.lt_trichotomy j t) as [Y|[Y|Y]]; [|by right|].
        -- pose proof (legal_gap _ _ _ S1 LJ LT Y). lia.
        -- left. split; [|lia]. destruct (Z.le_gt_cases j (p_tick (sw_pool w))); [|lia]. exfalso. apply (M2 j); [lia|done].
    + destruct M as (-> & M1 & M2 & _). split.
      * intros [X| ->]; lia.
      * intros X. destruct (Z.lt_trichotomy j t) as [Y|[Y|Y]]; [|by right|lia].
        left. split; [lia|]. destruct (Z.le_gt_cases j (p_tick (sw_pool w))); [lia|]. exfalso. apply (M2 j); [lia|done].
Qed.

Lemma run_good s now k (d : bool) by_in lim p0 w w' : store_geo s k -> pool_geo k p0 -> loop_inv k d lim w ->
  (if d then p_price (sw_pool w) <= p_price p0 else p_price p0 <= p_price (sw_pool w)) ->
  crossed_exactly s k d (p_tick p0) (p_tick (sw_pool w)) (sw_ticks w) ->
  run s now k d by_in lim w w' ->
  crossed_exactly s k d (p_tick p0) (p_tick (sw_pool w')) (sw_ticks w') ->
  grun s now k d by_in lim w w'.
Proof.
  intros G [P0 _] I D K R K'. pose proof (sg_sp _ _ G) as [S1 _]. pose proof (sg_index _ _ G) as IX.
  induction R as [w Z0|w w1 w2 N E R IH]; [by constructor|].
  pose proof (loop_step _ _ _ _ _ _ _ _ G I N E) as [P I1].
  assert (B : forall w, loop_inv k d lim w ->
            (if d then p_price (sw_pool w) <= p_price p0 else p_price p0 <= p_price (sw_pool w)) ->
            if d then p_tick (sw_pool w) <= p_tick p0 else p_tick p0 <= p_tick (sw_pool w)).
  { intros v V X. destruct V. destruct d; [eapply weak_le; eauto|]. eapply rest_mono; eauto. }
  assert (D1 : if d then p_price (sw_pool w1) <= p_price p0 else p_price p0 <= p_price (sw_pool w1)).
  { destruct P. destruct d; lia. }
  assert (GS : good_step s k d w w1).
  { constructor. destruct P. destruct io_move as [(M1 & M2 & [M3|[M3 M4]])|M]; [left; done| |right; exact M].
    exfalso. assert (w2 = w1) as -> by (inversion R; subst; done).
    destruct M4 as (j & J & X). specialize (K j J). specialize (K' j J). rewrite M1 in K'.
    assert (passed d (p_tick p0) (p_tick (sw_pool w)) j <-> passed d (p_tick p0) (p_tick (sw_pool w1)) j) as Q by tauto.
    pose proof (B _ I D). pose proof (B _ I1 D1). unfold passed in Q. destruct d; lia. }
  assert (B0 := B _ I D).
  eapply grun_step; [done|done|exact E|done|done|]. apply IH; [done|done| |done]. exact (crossed_step s k d _ w w1 S1 IX B0 K GS).
Qed.

(** indices of the crossed ticks: initialized, each once *)
Lemma run_ticks s now k (d : bool) by_in lim p0 w w' : store_geo s k -> pool_geo k p0 -> loop_inv k d lim w ->
  (if d then p_price (sw_pool w) <= p_price p0 else p_price p0 <= p_price (sw_pool w)) ->
  crossed_exactly s k d (p_tick p0) (p_tick (sw_pool w)) (sw_ticks w) -> NoDup (map t_index (sw_ticks w)) ->
  run s now k d by_in lim w w' ->
  NoDup (map t_index (sw_ticks w')).
Proof.
  intros G [P0 L0] I D K ND R. pose proof (sg_sp _ _ G) as [S1 _]. pose proof (sg_index _ _ G) as IX.
  induction R as [w Z0|w w1 w2 N E R IH]; [done|].
  pose proof (loop_step _ _ _ _ _ _ _ _ G I N E) as [P I1].
  assert (B : if d then p_tick (sw_pool w) <= p_tick p0 else p_tick p0 <= p_tick (sw_pool w)).
  { destruct I. destruct d; [eapply weak_le; eauto|]. eapply rest_mono; eauto. }
  assert (D1 : if d then p_price (sw_pool w1) <= p_price p0 else p_price p0 <= p_price (sw_pool w1)).
  { destruct P. destruct d; lia. }
  destruct P. destruct io_move as [(M1 & M2 & [M3|[M3 M4]])|M].
  - apply IH; try done; [|by rewrite M1]. eapply crossed_step; eauto. constructor. left. done.
  - inversion R; subst; [|done]. by rewrite M1.
  - apply IH; try done; [eapply crossed_step; eauto; constructor; right; exact M|].
    destruct M as (t & tk & t' & TI & TK & (SQ & _) & -> & M). rewrite map_app. apply NoDup_app. split; [done|].
    pose proof (IX _ _ _ TK) as IT. cbn. split; [|apply NoDup_singleton].
    intros x X. rewrite elem_of_list_singleton, SQ, IT. intros ->. apply (K _ TI) in X. unfold passed in X. destruct d; lia.
Qed.

(** liquidity follows any function with the right jumps *)
Lemma grun_liq s now k d by_in lim (A : Z -> Z) w w' :
  (forall c c', exact s k (spacing k) c c' -> A c = A c') ->
  (forall t tk, is_init s k (spacing k) t -> st_ticks s !! (k, t) = Some tk -> A t - A (t - spacing k) = net tk) ->
  1 <= spacing k -> (forall t tk, is_init s k (spacing k) t -> st_ticks s !! (k, t) = Some tk -> legal_tick (spacing k) t) ->
  p_liq (sw_pool w) = A (p_tick (sw_pool w)) -> grun s now k d by_in lim w w' ->
  p_liq (sw_pool w') = A (p_tick (sw_pool w')).
Proof.
  intros HX HT S1 HL J R. induction R as [w Z0|w w1 w2 N I E I1 [M] R IH]; [done|]. apply IH. clear IH R.
  destruct M as [(_ & -> & X)|(t & tk & t' & TI & TK & _ & _ & M)]; [rewrite <- (HX _ _ X); done|].
  pose proof (HT _ _ TI TK) as Q. pose proof (HL _ _ TI TK) as LT.
  destruct d.
  - destruct M as (-> & M1 & M2 & ->). rewrite J.
    rewrite <- (HX t (p_tick (sw_pool w))); [lia|]. apply exact_intro; [done|]. intros j JL Jn X. apply (M2 j); [lia|done].
  - destruct M as (-> & M1 & M2 & ->). rewrite J.
    rewrite (HX (p_tick (sw_pool w)) (t - spacing k)); [lia|]. apply exact_intro; [done|]. intros j JL Jn X.
    assert (p_tick (sw_pool w) < j < t \/ t <= j).
    { destruct (Z.lt_ge_cases j t); [|lia]. pose proof (legal_gap _ _ _ S1 JL LT H).
      destruct X as [X|X]; [left; lia|]. lia. }
    destruct X as [X|X]; [apply (M2 j); [lia|done]|].
    destruct I. destruct lv_weak0 as (WL & _). pose proof (legal_gap _ _ _ S1 WL LT M1). lia.
Qed.

Lemma passed_nil d c j : ~ passed d c c j.
Proof. unfold passed. destruct d; lia. Qed.
Lemma crossed_nil s k d c : crossed_exactly s k d c c [].
Proof. intros j J. cbn. split; [by intros X%elem_of_nil|]. intros X. by apply passed_nil in X. Qed.
