(** C11, C12, C13, C14, C42, C43: ticks, bitmap, active liquidity and price, in every reachable state. *)
From Verif Require Import Base Decimal SqrtPrice Clamm Log FeeGrowth Types Tick Pool Position
  Tickmap Keys State Swap Exec Tactics PriceProofs LogProofs ClammProofs PropClamm BitmapProofs Frame Handlers History Basic
  Vectors Scenario SwapInv SwapGeo SwapLoop Modify PSum LiqInv Geo Ops Clean CleanSuff.
From stdpp Require Import gmap strings.
From Coq Require Import Lia.
Open Scope Z_scope.

(** * C11 *)
(** [psum f m] adds [f] up over all stored positions *)
Theorem C11_tick_sums s k t : reachable s ->
  let gross := psum (fun po => if decide (po_key po = k)
                 then (if po_lower po =? t then po_liq po else 0) + (if po_upper po =? t then po_liq po else 0) else 0) (st_positions s) in
  let start := psum (fun po => if decide (po_key po = k) then (if po_lower po =? t then po_liq po else 0) else 0) (st_positions s) in
  let stop := psum (fun po => if decide (po_key po = k) then (if po_upper po =? t then po_liq po else 0) else 0) (st_positions s) in
  match st_ticks s !! (k, t) with
  | Some tk => t_index tk = t /\ t_gross tk = gross /\ (if t_sign tk then t_change tk else - t_change tk) = start - stop
  | None => gross = 0 /\ start = 0 /\ stop = 0
  end.
Proof.
  intros R gross start stop. pose proof (ereach_liq _ (reachable_ereach _ R)) as I. pose proof (lq_tick _ I k t) as T.
  assert (P : forall x po, st_positions s !! x = Some po -> 0 <= po_liq po).
  { intros x po E. apply (lq_pos _ I) in E. destruct E as [(V & _) _]. lia. }
  assert (GS : gross = start + stop).
  { unfold gross, start, stop. rewrite <- psum_add. apply psum_ext. intros x po E. destruct (decide _); lia. }
  assert (S0 : 0 <= start) by (apply psum_nonneg; intros x po E; specialize (P _ _ E); destruct (decide _); [destruct (_ =? _)|]; lia).
  assert (S1 : 0 <= stop) by (apply psum_nonneg; intros x po E; specialize (P _ _ E); destruct (decide _); [destruct (_ =? _)|]; lia).
  destruct (st_ticks s !! (k, t)) as [tk|]; cbn in T.
  - destruct T as [[] _]. split; [done|]. split; [exact tp_gross|]. unfold net in tp_net. rewrite tp_net.
    unfold start, stop. rewrite <- psum_sub. apply psum_ext. intros x po E. unfold net_at, at_key. destruct (decide _); lia.
  - change (psum (gross_at k t) (st_positions s)) with gross in T. lia.
Qed.
Example ex_C11 : match st_ticks sc0 !! (v_key, 10) with
  | Some tk => t_gross tk = 20006000000000 + 700000000000 /\ t_sign tk = false /\ t_change tk = 20006000000000 - 700000000000
  | None => False end.
Proof. vm_compute. repeat split; reflexivity. Qed.

(** * C12 *)
Theorem C12_record_bit_position s k p t : reachable s -> st_pools s !! k = Some p ->
  (get_bitmap s t (ft_spacing (pk_tier k)) k = Ok true <-> is_Some (st_ticks s !! (k, t))) /\
  (is_Some (st_ticks s !! (k, t)) <->
     exists owner ix po, st_positions s !! (owner, ix) = Some po /\ po_key po = k /\ (po_lower po = t \/ po_upper po = t)).
Proof.
  intros R E. pose proof (ereach_liq _ (reachable_ereach _ R)) as I. assert (SP : is_Some (st_pools s !! k)) by eauto.
  pose proof (lq_init _ I k t SP) as IN. split; [exact IN|]. split.
  - intros H. apply IN in H. destruct (init_bound _ _ _ I SP H) as ([o ix] & po & Q & K & B). exists o, ix, po.
    split; [done|]. split; [done|]. destruct B; auto.
  - intros (o & ix & po & Q & <- & B). destruct (bound_tick s (o, ix) po t I Q) as [tk T]; [destruct B; auto|]. rewrite T. eauto.
Qed.
(** without a pool there is nothing *)
Theorem C12_no_pool s k : reachable s -> st_pools s !! k = None ->
  forall t, st_ticks s !! (k, t) = None /\ (forall c, st_bitmap s !! (k, c) = None) /\
    forall x po, st_positions s !! x = Some po -> po_key po <> k.
Proof.
  intros R E t. pose proof (ereach_liq _ (reachable_ereach _ R)) as I. split; [|split].
  - destruct (st_ticks s !! (k, t)) eqn:T; [|done]. destruct (lq_pool _ I k t) as [? Q]; [eauto|congruence].
  - intros c. destruct (st_bitmap s !! (k, c)) eqn:T; [|done]. destruct (lq_bits _ I k c) as [? Q]; [eauto|congruence].
  - intros x po Q <-. apply (lq_pos _ I) in Q. destruct Q as [_ [? Q]]. congruence.
Qed.
Example ex_C12 : get_bitmap sc0 30 10 v_key = Ok true /\ get_bitmap sc0 0 10 v_key = Ok false /\ st_ticks sc0 !! (v_key, 0) = None.
Proof. vm_compute. repeat split; reflexivity. Qed.

(** * C14 *)
Theorem C14_price_in_tick s k p : reachable s -> st_pools s !! k = Some p ->
  let sp := ft_spacing (pk_tier k) in let t := p_tick p in
  -221818 <= t <= 221818 /\ t mod sp = 0 /\
  exists lo, calculate_sqrt_price t = Ok lo /\ lo <= p_price p /\
    (t + sp <= 221818 -> exists hi, calculate_sqrt_price (t + sp) = Ok hi /\ p_price p < hi) /\
    (221818 < t + sp -> p_price p = lo).
Proof.
  intros R E sp t. apply reachable_ereach in R. pose proof (ereach_geo _ R _ _ E) as [(L & P & U) _].
  pose proof (ereach_store_geo _ _ _ R E) as G. destruct (sg_sp _ _ G) as [S1 S2].
  change (spacing k) with sp in L, P, U, S1, S2. fold t in L, P, U. clearbody t sp. pose proof L as [L1 L2].
  assert (M : MAX_TICK = 221818) by reflexivity.
  split; [lia|]. split; [exact L2|]. exists (tprice t). split; [apply calculate_sqrt_price_ok; exact L1|]. split; [apply P|].
  pose proof (legal_top sp t S1 L) as TT. split.
  - intros H. exists (tprice (t + sp)). split; [apply calculate_sqrt_price_ok; lia|]. apply U.
    assert (L' : legal_tick sp (t + sp)).
    { split; [lia|]. rewrite Z.add_mod by lia. rewrite L2, Z.mod_same by lia. done. }
    pose proof (legal_top sp _ S1 L'). lia.
  - intros H. assert (t = SwapGeo.top sp) as Q.
    { destruct (Z.eq_dec t (SwapGeo.top sp)); [done|]. destruct (legal_next sp t S1 L ltac:(lia)) as [X _]. lia. }
    rewrite <- Q in P. lia.
Qed.
Example ex_C14 : match st_pools sc0 !! v_key with Some p => p_tick p = -10 /\ p_price p < SP_ONE | None => False end.
Proof. vm_compute. split; reflexivity. Qed.

(** * C42, totals *)
Theorem C42_total_fits s k p : reachable s -> st_pools s !! k = Some p ->
  0 <= psum (fun po => if decide (po_key po = k) then po_liq po else 0) (st_positions s) < 2 ^ 128 /\
  forall c, 0 <= psum (fun po => if decide (po_key po = k)
                         then (if (po_lower po <=? c) && (c <? po_upper po) then po_liq po else 0) else 0) (st_positions s) < 2 ^ 128.
Proof.
  intros R E. apply reachable_ereach in R. pose proof (ereach_liq _ R) as I. destruct (sg_sp _ _ (ereach_store_geo _ _ _ R E)) as [S1 S2].
  pose proof (total_bound s k I ltac:(lia)) as B. change (2 ^ 128) with (U128MAX + 1). unfold liq_of, at_key in B. split; [lia|]. intros c.
  assert (P : forall x po, st_positions s !! x = Some po -> 0 <= po_liq po).
  { intros x po Q. apply (lq_pos _ I) in Q. destruct Q as [(V & _) _]. lia. }
  split.
  - apply psum_nonneg. intros x po Q. specialize (P _ _ Q). destruct (decide _); [destruct (_ && _)|]; lia.
  - apply Z.le_lt_trans with (psum (fun po => if decide (po_key po = k) then po_liq po else 0) (st_positions s)); [|lia].
    apply psum_le. intros x po Q. specialize (P _ _ Q). destruct (decide _); [destruct (_ && _)|]; lia.
Qed.

Example ex_C42 : psum (fun po => if decide (po_key po = v_key) then po_liq po else 0) (st_positions sc0) = 20006000000000 + 5000000000000 + 700000000000.
Proof. vm_compute. reflexivity. Qed.

(** * C13 *)
(** boolean check that a history is clean *)
Definition near_free (s : store) (k : pool_key) (q : Z) : bool :=
  forallb (fun x => negb (bool_decide (fst (fst x) = k) && (q <=? t_price (snd x)) && ((t_price (snd x) - q) * q <? 10 ^ 24))) (map_to_list (st_ticks s)).
Definition clean_callb (e : env) (s : store) (m : exec_msg) : bool :=
  match m with
  | Swap k d a by_in lim =>
      match calculate_swap (e_gas e) s (e_millis e) k d a by_in lim with
      | Ok r => near_free s k (p_price (cr_pool r)) && (0 <=? a) && (a <=? U128MAX)
      | _ => true
      end
  | SwapRoute _ _ _ _ => false
  | _ => true
  end.
Lemma near_free_sound s k p d by_in lim q : liq_inv s -> st_pools s !! k = Some p -> near_free s k q = true -> ~ near_tick s k d by_in lim q.
Proof.
  intros I E F N. assert (X : exists j, is_init s k (spacing k) j /\ q <= tprice j /\ (tprice j - q) * q < 10 ^ 24).
  { unfold near_tick in N. destruct d; [destruct N as [_ N]; exact N|]. destruct N as (-> & j & J & Q). exists j. split; [done|]. rewrite <- Q. lia. }
  destruct X as (j & J & X1 & X2). apply (lq_init _ I) in J; [|eauto]. destruct J as [tk T].
  pose proof (lq_tick _ I k j) as G. rewrite T in G. destruct G as [[] _]. rewrite <- tp_price in X1, X2.
  unfold near_free in F. rewrite forallb_forall in F. specialize (F ((k, j), tk)). cbn in F.
  rewrite bool_decide_true in F by done. rewrite (proj2 (Z.leb_le _ _) X1), (proj2 (Z.ltb_lt _ _) X2) in F. cbn in F.
  discriminate F. apply elem_of_list_In, elem_of_map_to_list. done.
Qed.
Lemma clean_callb_sound e i s m : ereach s -> clean_callb e s m = true -> clean_call e i s m.
Proof.
  intros R. destruct m; try done. cbn. intros H. intros r p C E. rewrite C in H. rewrite !andb_true_iff, !Z.leb_le in H. destruct H as [[H1 H2] H3].
  eapply (clean_unless_near e s); [done|done| |exact C|exact E]. intros r' C'. rewrite C in C'. apply Ok_inj in C'. subst r'.
  eapply near_free_sound; [by apply ereach_liq|exact E|done].
Qed.
Fixpoint clean_run (l : list (string * exec_msg)) (s : store) : res store :=
  match l with
  | [] => Ok s
  | (a, m) :: l' => if clean_callb v_env s m then let* '(s, _, _) := execute v_env (v_info a) s m in clean_run l' s else Err StdErr
  end.
Lemma clean_run_history l s s' : clean_history s -> clean_run l s = Ok s' -> clean_history s'.
Proof.
  revert s. induction l as [|[a m] l IH]; intros s R H; cbn [clean_run] in H; [apply Ok_inj in H; by subst|].
  destruct (clean_callb v_env s m) eqn:C; [|done]. inv_bind H as [[s1 ms] at'] E. eapply IH; [|exact H].
  eapply ch_call; [exact R| |exact E]. apply clean_callb_sound; [|done]. by apply reachable_ereach, clean_history_reachable.
Qed.
Definition clean_start (f : Z) (l : list (string * exec_msg)) : res store := let* s := instantiate (v_info "alice") f in clean_run l s.
Lemma clean_start_history f l s : clean_start f l = Ok s -> clean_history s.
Proof. unfold clean_start. intros H. inv_bind H as s0 E. eapply clean_run_history; [|exact H]. eapply ch_init, E. Qed.
Lemma clean_run_run l s s' : clean_run l s = Ok s' -> v_run l s = Ok s'.
Proof.
  revert s. induction l as [|[a m] l IH]; intros s H; cbn [clean_run] in H; cbn [v_run]; [done|]. destruct (clean_callb v_env s m); [|done].
  inv_bind H as [[s1 ms] at'] E. unfold bind. rewrite E. by apply IH.
Qed.
Lemma clean_by_check f l s : start f l = Ok s -> is_ok (clean_start f l) = true -> clean_history s.
Proof.
  intros H C. destruct (clean_start f l) as [s'| |] eqn:E; [|done..]. replace s with s'; [by eapply clean_start_history|].
  unfold clean_start in E. inv_bind E as s0 E0. unfold start in H. rewrite E0 in H. cbn [bind] in H. apply clean_run_run in E. rewrite E in H. by apply Ok_inj in H.
Qed.
Lemma sc0_clean : clean_history sc0.
Proof. apply (clean_by_check 10000000000 sc0_calls); [apply sc0_ok|]. vm_compute. reflexivity. Qed.

(** What holds: as long as no swap has skipped an initialized tick it passed.  Missing from C13: histories with such a swap;
    by [C13_clean_unless_near] only a swap whose final price is (rising) exactly its own limit and the price of an initialized
    tick, or (falling, exact input) on or within 10^24/price units below an initialized tick, can be one. *)
Theorem C13_active_liquidity_partial s k p : clean_history s -> st_pools s !! k = Some p ->
  p_liq p = psum (fun po => if decide (po_key po = k)
              then (if (po_lower po <=? p_tick p) && (p_tick p <? po_upper po) then po_liq po else 0) else 0) (st_positions s).
Proof. intros C E. exact (creach_act _ (clean_history_creach _ C) _ _ E). Qed.
Theorem C13_clean_unless_near e s k d a by_in lim : reachable s -> 0 <= a < 2 ^ 128 ->
  (forall r j P, calculate_swap (e_gas e) s (e_millis e) k d a by_in lim = Ok r ->
     get_bitmap s j (ft_spacing (pk_tier k)) k = Ok true -> calculate_sqrt_price j = Ok P ->
     if d then by_in = false \/ P < p_price (cr_pool r) \/ 10 ^ 24 <= (P - p_price (cr_pool r)) * p_price (cr_pool r)
     else p_price (cr_pool r) <> lim \/ p_price (cr_pool r) <> P) ->
  clean_swap e s k d a by_in lim.
Proof.
  intros R A H. apply reachable_ereach in R. change (2 ^ 128) with (U128MAX + 1) in A. apply clean_unless_near; [done|lia|].
  intros r C N.
  assert (Q : forall j, is_init s k (spacing k) j -> calculate_sqrt_price j = Ok (tprice j)).
  { intros j J. destruct (calculate_swap_frame _ _ _ _ _ _ _ _ _ C) as (p & Ep & _).
    destruct (sg_sp _ _ (ereach_store_geo _ _ _ R Ep)) as [S1 _]. destruct (is_init_legal _ _ _ _ S1 J) as [L _].
    apply calculate_sqrt_price_ok. exact L. }
  unfold near_tick in N. destruct d.
  - destruct N as (-> & j & J & N1 & N2). destruct (H r j _ C J (Q j J)) as [X|[X|X]]; [done|lia|lia].
  - destruct N as (N1 & j & J & N2). destruct (H r j _ C J (Q j J)) as [X|X]; [done|]. by apply X.
Qed.
Example ex_C13 : clean_history sc0 /\
  match st_pools sc0 !! v_key with Some p => p_liq p = 20006000000000 + 5000000000000 | None => False end.
Proof. split; [apply sc0_clean|]. vm_compute. reflexivity. Qed.

(** False in general.  alice provides [1000000] in [-10, 30) and bob [2000000] in [10, 20).  carol buys exactly the 499 tokenx
    that lie between price 1 and the price of tick 10, with that price as limit: the current tick becomes 10, the tick is not crossed. *)
Definition lim_calls : list (string * exec_msg) :=
  [("alice", AddFeeTier v_tier);
   ("alice", CreatePool "tokeny" "tokenx" v_tier SP_ONE 0);
   ("alice", CreatePosition v_key (-10) 30 1000000000000 SP_ONE SP_ONE);
   ("bob", CreatePosition v_key 10 20 2000000000000 SP_ONE SP_ONE);
   ("carol", Swap v_key false 499 false 1000500100010000000000000)]%string.
Definition lim_store : store :=
  match start 10000000000 lim_calls with Ok s => s | _ => mkStore (mkConfig "" [] 0) ∅ ∅ ∅ ∅ ∅ ∅ end.
Lemma lim_store_ok : start 10000000000 lim_calls = Ok lim_store.
Proof. unfold lim_store. destruct (start 10000000000 lim_calls) eqn:E; [reflexivity|exfalso|exfalso];
  assert (is_ok (start 10000000000 lim_calls) = true) as X by (vm_compute; reflexivity); rewrite E in X; discriminate. Qed.
Lemma lim_store_reachable : reachable lim_store.
Proof. eapply start_reachable, lim_store_ok. Qed.

Lemma some_inv {A} (P : A -> Prop) o : match o with Some x => P x | None => False end -> exists x, o = Some x /\ P x.
Proof. destruct o; [eauto|done]. Qed.

Theorem C13_active_liquidity_refuted : exists s k p, reachable s /\ st_pools s !! k = Some p /\
  p_liq p = 1000000000000 /\
  psum (fun po => if decide (po_key po = k)
              then (if (po_lower po <=? p_tick p) && (p_tick p <? po_upper po) then po_liq po else 0) else 0) (st_positions s) = 3000000000000.
Proof.
  destruct (some_inv (fun p => p_liq p = 1000000000000 /\
      psum (fun po => if decide (po_key po = v_key)
              then (if (po_lower po <=? p_tick p) && (p_tick p <? po_upper po) then po_liq po else 0) else 0) (st_positions lim_store) = 3000000000000)
      (st_pools lim_store !! v_key)) as (p & E & X); [vm_compute; split; reflexivity|].
  exists lim_store, v_key, p. exact (conj lim_store_reachable (conj E X)).
Qed.

(** In the same state bob cannot take the liquidity out again. *)
Theorem C17_withdraw_refuted : exists s owner ix po, reachable s /\ st_positions s !! (owner, ix) = Some po /\
  execute v_env (v_info owner) s (RemovePosition ix) = Err UpdateLiquidityMinusOverflow.
Proof.
  destruct (some_inv (fun po : position => execute v_env (v_info "bob") lim_store (RemovePosition 0) = Err UpdateLiquidityMinusOverflow)
     (st_positions lim_store !! ("bob"%string, 0))) as (po & E & X); [vm_compute; reflexivity|].
  exists lim_store, "bob"%string, 0, po. exact (conj lim_store_reachable (conj E X)).
Qed.

(** A swap that has to cross tick 20 upwards, or tick 10 downwards, aborts. *)
Theorem C43_crossing_refuted : exists s k p tk, reachable s /\ st_pools s !! k = Some p /\ st_ticks s !! (k, 20) = Some tk /\
  (p_start p <= e_millis v_env /\ p_tick p = 10 /\ get_bitmap s 20 (ft_spacing (pk_tier k)) k = Ok true /\
  tick_cross tk p (e_millis v_env) = Err PoolSubTickLiquidityUnderflow /\
  execute v_env (v_info "dave") s (Swap k false 4000 true 65535383934512647000000000000) = Panic /\
  execute v_env (v_info "dave") s (Swap k true 4000 true 15258932000000000000) = Panic).
Proof.
  destruct (some_inv (fun p : pool => match st_ticks lim_store !! (v_key, 20) with Some tk =>
     p_start p <= e_millis v_env /\ p_tick p = 10 /\ get_bitmap lim_store 20 (ft_spacing (pk_tier v_key)) v_key = Ok true /\
  tick_cross tk p (e_millis v_env) = Err PoolSubTickLiquidityUnderflow /\
  execute v_env (v_info "dave") lim_store (Swap v_key false 4000 true 65535383934512647000000000000) = Panic /\
  execute v_env (v_info "dave") lim_store (Swap v_key true 4000 true 15258932000000000000) = Panic | None => False end)
     (st_pools lim_store !! v_key)) as (p & E & X); [vm_compute; repeat split; try reflexivity; discriminate|].
  apply (some_inv (fun tk : tick => _)) in X. destruct X as (tk & T & X).
  exists lim_store, v_key, p, tk. exact (conj lim_store_reachable (conj E (conj T X))).
Qed.

(** What holds after clean histories: in every state the loop of a swap passes through (the swap itself need not be clean),
    the next initialized tick has a record and crossing it succeeds and leaves a liquidity that fits.
    Missing from C43 (and from the last sentence of C42): states left behind by a swap that was not clean,
    see [C43_crossing_refuted]. *)
Inductive loop_state (s : store) (now : Z) (k : pool_key) (d by_in : bool) (lim : Z) : swap_state -> swap_state -> Prop :=
| ls_here w : loop_state s now k d by_in lim w w
| ls_next w w1 w2 : loop_state s now k d by_in lim w w1 -> sw_remaining w1 <> 0 ->
    swap_iter s now k d by_in lim (if d then get_min_tick (spacing k) else get_max_tick (spacing k)) w1 = Ok w2 ->
    loop_state s now k d by_in lim w w2.

Lemma good_step_liq s k (d : bool) lim w w1 : liq_inv s -> store_geo s k -> loop_inv k d lim w -> good_step s k d w w1 ->
  p_liq (sw_pool w) = act s k (p_tick (sw_pool w)) -> p_liq (sw_pool w1) = act s k (p_tick (sw_pool w1)).
Proof.
  intros LI G I [M] J. destruct (sg_sp _ _ G) as [S1 _].
  destruct M as [(_ & -> & X)|(t & tk & t' & TI & TK & _ & _ & M)]; [rewrite <- (act_exact s k _ _ LI X); done|].
  pose proof (act_jump _ _ _ _ LI S1 TK) as Q. pose proof (is_init_legal _ _ _ _ S1 TI) as LT. cbn in M.
  destruct d.
  - destruct M as (-> & M1 & M2 & ->). rewrite J.
    rewrite <- (act_exact s k t (p_tick (sw_pool w)) LI); [lia|]. apply exact_intro; [done|]. intros j JL Jn X. apply (M2 j); [lia|done].
  - destruct M as (-> & M1 & M2 & ->). rewrite J.
    rewrite (act_exact s k (p_tick (sw_pool w)) (t - spacing k) LI); [lia|]. apply exact_intro; [done|]. intros j JL Jn X.
    destruct I. destruct lv_weak as (WL & _). pose proof (legal_gap _ _ _ S1 WL LT M1).
    destruct X as [X|X]; [|lia]. destruct (Z.lt_ge_cases j t); [apply (M2 j); [lia|done]|lia].
Qed.
Lemma iter_start s now k d by_in lim tl w w' : swap_iter s now k d by_in lim tl w = Ok w' -> iter_pre s k d lim w ->
  p_start (sw_pool w') = p_start (sw_pool w).
Proof.
  intros H P. apply iter_cases in H; [|done]. destruct H as (t & init & sl & r & p0 & rm0 & _ & _ & _ & _ & _ & _ & _ & AF & _ & IC & _).
  apply add_fee_keeps in AF. destruct AF as (_ & _ & _ & A & _).
  destruct IC as [tk t' p1 _ _ _ _ EC _ ->|en _ _ _ _ ->|tk p2 _ _ _ _ _ PR ->|c' _ _ ->]; cbn; try done.
  - apply tick_cross_inv in EC. destruct EC as (_ & _ & _ & _ & l & -> & _). cbn. done.
  - destruct PR as [[_ ->]|(_ & _ & AF)]; [done|]. apply add_fee_keeps in AF. destruct AF as (_ & _ & _ & B & _). cbn in B. congruence.
Qed.

Theorem C43_crossing_partial s now k p (d by_in : bool) a lim w t :
  clean_history s -> st_pools s !! k = Some p -> 0 <= p_start p <= now -> now < 2 ^ 64 -> 0 <= a < 2 ^ 128 ->
  (if d then lim < p_price p else p_price p < lim) ->
  loop_state s now k d by_in lim (mkSwapState p a 0 0 0 []) w -> sw_remaining w <> 0 ->
  get_bitmap s t (ft_spacing (pk_tier k)) k = Ok true ->
  (if d then t <= p_tick (sw_pool w) /\ forall j, t < j <= p_tick (sw_pool w) -> get_bitmap s j (ft_spacing (pk_tier k)) k <> Ok true
   else p_tick (sw_pool w) < t /\ forall j, p_tick (sw_pool w) < j < t -> get_bitmap s j (ft_spacing (pk_tier k)) k <> Ok true) ->
  exists tk, st_ticks s !! (k, t) = Some tk /\
    forall q, p_liq q = p_liq (sw_pool w) -> p_tick q = p_tick (sw_pool w) -> p_start q = p_start (sw_pool w) ->
      exists t' q', tick_cross tk q now = Ok (t', q') /\ 0 <= p_liq q' < 2 ^ 128.
Proof.
  intros C E TM TM' Ha D LS NR TI TD. change (2 ^ 128) with (U128MAX + 1) in *. change (2 ^ 64) with (U64MAX + 1) in *.
  pose proof (reachable_ereach _ (clean_history_reachable _ C)) as R.
  pose proof (ereach_store_geo _ _ _ R E) as G. pose proof (ereach_geo _ R _ _ E) as PG. pose proof (ereach_liq _ R) as LI.
  pose proof (creach_act _ (clean_history_creach _ C) _ _ E) as A. destruct (sg_sp _ _ G) as [S1 S2].
  assert (INV : loop_inv k d lim w /\ (sw_remaining w <> 0 -> p_liq (sw_pool w) = act s k (p_tick (sw_pool w))) /\
                p_start (sw_pool w) = p_start p).
  { clear NR TI TD t. remember (mkSwapState p a 0 0 0 []) as w0 eqn:W0. induction LS as [w|w w1 w2 LS IH N EI].
    - subst w. split; [apply loop_start; [done|lia|done]|]. split; done.
    - destruct (IH W0) as (I1 & I2 & I3). specialize (I2 N). pose proof (loop_step _ _ _ _ _ _ _ _ G I1 N EI) as [PO I'].
      split; [done|]. split.
      + intros NZ. eapply good_step_liq; [exact LI|exact G|exact I1| |exact I2]. constructor.
        destruct (io_move _ _ _ _ _ _ PO) as [(M1 & M2 & [M3|[M3 _]])|M]; [by left|done|by right].
      + rewrite <- I3. eapply iter_start; [exact EI|]. by apply loop_pre. }
  destruct INV as (I & L & ST). specialize (L NR).
  assert (T : is_Some (st_ticks s !! (k, t))) by (apply (lq_init _ LI); [eauto|exact TI]). destruct T as [tk TK].
  exists tk. split; [done|]. intros q Q1 Q2 Q3.
  pose proof (act_jump _ _ _ _ LI S1 TK) as J. pose proof (sg_index _ _ G _ _ _ TK) as IT.
  pose proof (is_init_legal _ _ _ _ S1 TI) as LT.
  assert (B : forall c, 0 <= act s k c <= U128MAX).
  { intros c. destruct (C42_total_fits s k p (clean_history_reachable _ C) E) as [_ TB]. specialize (TB c).
    change (2 ^ 128) with (U128MAX + 1) in TB. unfold act. change (active_at k c) with (fun po => if decide (po_key po = k)
      then (if (po_lower po <=? c) && (c <? po_upper po) then po_liq po else 0) else 0). lia. }
  assert (V : p_liq (sw_pool w) = if d then act s k t else act s k (t - spacing k)).
  { rewrite L. destruct d; destruct TD as [TD1 TD2].
    - apply act_exact; [done|]. apply exact_intro; [done|]. intros j JL Jn X. destruct X as [X|X]; [lia|]. apply (TD2 j); [lia|done].
    - apply act_exact; [done|]. apply exact_intro; [done|]. intros j JL Jn X. destruct I. destruct lv_weak as (WL & _).
      pose proof (legal_gap _ _ _ S1 WL LT TD1). destruct X as [X|X]; [|lia]. apply (TD2 j); [lia|done]. }
  pose proof (B t) as B1. pose proof (B (t - spacing k)) as B2.
  unfold tick_cross. rewrite Q1, Q2, Q3, ST, V, IT. unfold ck.
  rewrite (proj2 (in_range_spec _ _ _)) by lia. cbn [bind].
  unfold net in J. unfold add_e, sub_e, ck.
  destruct d; [rewrite (proj2 (Z.leb_le t _)) by lia|rewrite (proj2 (Z.leb_gt t _)) by lia]; destruct (t_sign tk); cbn [xorb];
    rewrite (proj2 (in_range_spec _ _ _)) by lia; cbn [bind]; eexists _, _; (split; [reflexivity|]); cbn; lia.
Qed.

Example ex_C43 : match st_pools sc0 !! v_key, st_ticks sc0 !! (v_key, 10) with
  | Some p, Some tk => match tick_cross tk p (e_millis v_env) with Ok (_, q) => p_liq q = p_liq p - 20006000000000 + 700000000000 | _ => False end
  | _, _ => False end.
Proof. vm_compute. reflexivity. Qed.
