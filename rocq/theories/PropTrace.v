(** C109: a deposit that is withdrawn at once leaves no trace. C110: deposits, withdrawals and claims in one block. *)
From Verif Require Import Base Decimal SqrtPrice Clamm Log FeeGrowth Types Tick Pool Position
  Tickmap Keys State Swap Exec Query Tactics PriceProofs ClammProofs BitmapProofs Frame Handlers History Basic PosList Ledger Vectors Scenario SwapInv SwapGeo SwapLoop Modify PSum LiqInv
  Geo Ops Clean CleanSuff Growth PropTrade PropPerm PropLocal PropLiq PropSolv PropExit PropClock PropOk PropSplit PropOrder PropLeave PropGauge PropState.
From stdpp Require Import gmap strings.
From Coq Require Import Lia.
Open Scope Z_scope.

(** ** What positions have earned, across deposits and withdrawals *)
Definition keeps (s s' : store) : Prop :=
  (forall k p p', st_pools s !! k = Some p -> st_pools s' !! k = Some p' -> like p p') /\
  forall k j t t', st_ticks s !! (k, j) = Some t -> st_ticks s' !! (k, j) = Some t' -> t_index t' = t_index t /\ t_fox t' = t_fox t /\ t_foy t' = t_foy t.
Lemma earned_kept s s' x y po : ereach s -> ereach s' -> keeps s s' -> st_positions s !! x = Some po -> st_positions s' !! y = Some po ->
  forall b, earned b s' po = earned b s po.
Proof.
  intros R R' [KP KT] E E' b. destruct (bounds_of _ _ _ R E) as (l & u & L & U & _). destruct (bounds_of _ _ _ R' E') as (l' & u' & L' & U' & _).
  destruct (lq_pos _ (ereach_liq _ R) _ _ E) as [_ [p P]]. destruct (lq_pos _ (ereach_liq _ R') _ _ E') as [_ [q Q]].
  unfold earned. rewrite L, U, L', U', P, Q. destruct (KP _ _ _ P Q) as (T1 & _ & T2 & T3). destruct (KT _ _ _ _ L L') as (A1 & A2 & A3). destruct (KT _ _ _ _ U U') as (B1 & B2 & B3).
  unfold fo, fg. rewrite T1, T2, T3, A1, A2, A3, B1, B2, B3. done.
Qed.
Lemma laid_keeps k e i s l u L s' : laid k e i s l u L s' -> keeps s s'.
Proof.
  intros D. destruct (ld_some _ _ _ _ _ _ _ _ D) as [p P]. split.
  - intros k0 p0 p' P0. rewrite (ld_pool _ _ _ _ _ _ _ _ D p P). destruct (decide (k0 = k)) as [->|N].
    + rewrite lookup_insert. intros [= <-]. rewrite P in P0. injection P0 as <-. done.
    + rewrite lookup_insert_ne by congruence. rewrite P0. intros [= <-]. done.
  - intros k0 j t t' T T'. destruct (ld_ticks _ _ _ _ _ _ _ _ D k0 j) as [E|[-> J]]; [rewrite E, T in T'; by injection T' as <-|].
    destruct (ld_step _ _ _ _ _ _ _ _ D p j P J) as (b & w & B & S & W). rewrite W in T'. injection T' as <-.
    destruct B as [B|[B _]]; [|congruence]. rewrite T in B. injection B as <-. by eapply step_keeps.
Qed.
Lemma took_keeps b e i s ix s' ms at' po p : took b e i s ix s' ms at' po p -> keeps s s'.
Proof.
  intros K. split.
  - intros k q q' Q Q'. destruct (found_pool _ _ _ _ _ _ _ _ _ _ _ _ K Q') as (q0 & Q0 & LK & _). rewrite Q in Q0. by injection Q0 as <-.
  - intros k j t t' T T'. destruct (tk_ticks _ _ _ _ _ _ _ _ _ _ K _ _ _ T') as (t0 & T0 & A). rewrite T in T0. injection T0 as <-.
    apply akin_parts in A as (A1 & _ & A2 & A3 & _). done.
Qed.
(** a new position has earned nothing *)
Lemma laid_new k e i s l u L s' : laid k e i s l u L s' -> exists po, st_positions s' = <[(i_sender i, plen s (i_sender i)) := po]> (st_positions s) /\
  po = mkPosition k L l u (po_fgx po) (po_fgy po) (e_height e) 0 0 [] /\ forall b, earned b s' po = 0.
Proof.
  intros D. destruct (ld_some _ _ _ _ _ _ _ _ D) as [p P]. destruct (ld_step _ _ _ _ _ _ _ _ D p l P ltac:(by left)) as (lt & lt' & SL & TL & EL).
  destruct (ld_step _ _ _ _ _ _ _ _ D p u P ltac:(by right)) as (ut & ut' & SU & TU & EU).
  exists (mkPosition k L l u (inside_x p lt ut) (inside_y p lt ut) (e_height e) 0 0 []). split; [exact (ld_pos _ _ _ _ _ _ _ _ D p lt ut P SL SU)|]. split; [done|]. intros b.
  unfold earned. cbn [po_key po_lower po_upper]. rewrite EL, EU, (ld_pool _ _ _ _ _ _ _ _ D p P), lookup_insert. cbv zeta.
  apply step_keeps in TL as (A1 & A2 & A3). apply step_keeps in TU as (B1 & B2 & B3).
  set (q := mark_pool _ _ _ _ _). assert (W : pofg b (mkPosition k L l u (inside_x p lt ut) (inside_y p lt ut) (e_height e) 0 0 []) = inside b (p_tick q) (fg b q) lt' ut').
  { unfold pofg, inside, fo, fg. destruct b; cbn; unfold inside_x, inside_y; by rewrite ?A1, ?A2, ?A3, ?B1, ?B2, ?B3. }
  rewrite W, inside_below. unfold below. change (2 ^ 128) with U128. rewrite Zminus_mod_idemp_r, Z.sub_diag. done.
Qed.
(** and neither has one whose fees have just been claimed *)
Lemma took_renewed e i s ix s' ms at' po p : ereach s -> ereach s' -> took false e i s ix s' ms at' po p -> forall b, earned b s' (renew s p po) = 0.
Proof.
  intros R R' K b. pose proof (tk_po _ _ _ _ _ _ _ _ _ _ K) as E. destruct (bounds_of _ _ _ R E) as (l & u & L & U & _).
  assert (E' : st_positions s' !! (i_sender i, ix) = Some (renew s p po)) by (rewrite (tk_pos _ _ _ _ _ _ _ _ _ _ K); apply lookup_insert).
  destruct (bounds_of _ _ _ R' E') as (l' & u' & L' & U' & _). destruct (took_keeps _ _ _ _ _ _ _ _ _ _ K) as [KP KT].
  assert (RN : renew s p po = mkPosition (po_key po) (po_liq po) (po_lower po) (po_upper po) (inside_x p l u) (inside_y p l u) (po_block po) 0 0 (po_approvals po)) by (unfold renew; by rewrite L, U).
  rewrite RN in *. cbn [po_key po_lower po_upper] in *. unfold earned. cbn [po_key po_lower po_upper]. rewrite L', U', (tk_pools _ _ _ _ _ _ _ _ _ _ K), lookup_insert. cbv zeta.
  destruct (KT _ _ _ _ L L') as (A1 & A2 & A3). destruct (KT _ _ _ _ U U') as (B1 & B2 & B3). set (q := mark_pool _ _ _ _ _).
  match goal with |- context [pofg b ?z] => assert (W : pofg b z = inside b (p_tick q) (fg b q) l' u') end.
  { unfold pofg, inside, fo, fg. destruct b; cbn; unfold inside_x, inside_y; by rewrite ?A1, ?A2, ?A3, ?B1, ?B2, ?B3. }
  rewrite W, inside_below. unfold below. change (2 ^ 128) with U128. rewrite Zminus_mod_idemp_r, Z.sub_diag. done.
Qed.

(** * In and out *)
Lemma in_and_out e i s k l u L sl su s1 m1 a1 e' i' s2 m2 a2 : ereach s -> ereach s1 -> ereach s2 -> 0 <= L <= U128MAX ->
  create_position e i s k l u L sl su = Ok (s1, m1, a1) -> i_sender i' = i_sender i ->
  remove_position_exec e' i' s1 (plen s (i_sender i)) = Ok (s2, m2, a2) -> same_market s s2.
Proof.
  intros R R1 R2 HL C EI H. pose proof (lay _ _ _ _ _ _ _ _ _ _ _ _ R HL C) as D. destruct (took_leave _ _ _ _ _ _ _ R1 H) as (po & p1 & K).
  destruct (laid_new _ _ _ _ _ _ _ _ D) as (po0 & PS & PE & _). destruct (ld_some _ _ _ _ _ _ _ _ D) as [p P].
  set (a := i_sender i) in *. set (n := plen s a) in *.
  assert (po = po0) as -> by (pose proof (tk_po _ _ _ _ _ _ _ _ _ _ K) as X; rewrite PS, EI in X; fold a n in X; rewrite lookup_insert in X; by injection X as <-).
  assert (EK : po_key po0 = k) by (rewrite PE; done). pose proof (tk_p _ _ _ _ _ _ _ _ _ _ K) as P1. rewrite EK, (ld_pool _ _ _ _ _ _ _ _ D p P), lookup_insert in P1. injection P1 as <-.
  assert (N1 : plen s1 a = n + 1) by (unfold plen, get_position_length; rewrite (ld_len _ _ _ _ _ _ _ _ D); fold a n; by rewrite lookup_insert).
  assert (PS2 : st_positions s2 = st_positions s).
  { rewrite (tk_pos _ _ _ _ _ _ _ _ _ _ K), EI. fold a. rewrite N1. unfold PropLeave.act, strip. rewrite (proj2 (Z.ltb_ge n (n + 1 - 1))) by lia.
    rewrite PS. apply delete_insert. exact (ld_fresh _ _ _ _ _ _ _ _ D). }
  constructor.
  - destruct (tk_rest _ _ _ _ _ _ _ _ _ _ K) as [-> _]. apply D.
  - destruct (tk_rest _ _ _ _ _ _ _ _ _ _ K) as [_ ->]. apply D.
  - intros b. unfold get_position_length. rewrite (tk_len _ _ _ _ _ _ _ _ _ _ K), EI, (ld_len _ _ _ _ _ _ _ _ D). fold a n. rewrite N1.
    destruct (decide (b = a)) as [->|N]; [rewrite lookup_insert; unfold n, plen, get_position_length; match goal with |- default 0 (Some ?z) = _ => change z with (default 0 (st_poslen s !! a) + 1 - 1) end; cbn; unfold default, id; destruct (st_poslen s !! a); lia|].
    by rewrite !lookup_insert_ne by congruence.
  - intros k0. rewrite (tk_pools _ _ _ _ _ _ _ _ _ _ K), EK, (ld_pool _ _ _ _ _ _ _ _ D p P).
    destruct (decide (k0 = k)) as [->|N]; [rewrite lookup_insert, P; constructor|rewrite !lookup_insert_ne by congruence; destruct (st_pools s !! k0); constructor; done].
    unfold same_pool. rewrite PE. cbn. split_and!; try done. destruct (in_range_tick l u (p_tick p)); lia.
  - intros b ix. rewrite PS2. destruct (st_positions s !! (b, ix)) as [x|] eqn:E; constructor. split; [done|]. intros c.
    assert (E1 : st_positions s1 !! (b, ix) = Some x).
    { rewrite PS, lookup_insert_ne; [done|]. intros X. pose proof (ld_fresh _ _ _ _ _ _ _ _ D) as F. change (i_sender i, plen s (i_sender i)) with (a, n) in F. congruence. }
    assert (E2 : st_positions s2 !! (b, ix) = Some x) by (by rewrite PS2).
    rewrite (earned_kept s1 s2 _ _ x R1 R2 (took_keeps _ _ _ _ _ _ _ _ _ _ K) E1 E2). exact (earned_kept s s1 _ _ x R R1 (laid_keeps _ _ _ _ _ _ _ _ D) E E1 c).
Qed.
(** C109: whoever deposits and takes the deposit out again before anything else happens has changed nothing: all that is called or asked later is answered as if they had never come. *)
Theorem C109_trace e i s d k l u L s1 m1 a1 e' i' s2 m2 a2 : clean_history s -> deposit d k l u L ->
  execute e i s d = Ok (s1, m1, a1) -> i_sender i' = i_sender i ->
  execute e' i' s1 (RemovePosition (get_position_length s (i_sender i))) = Ok (s2, m2, a2) ->
  same_market s s2 /\ (forall zs, clean_play zs s -> fst (play zs s2) = fst (play zs s)) /\
  forall e0 k0 x q b lim, both same_quote (query_quote e0 s k0 x q b lim) (query_quote e0 s2 k0 x q b lim).
Proof.
  intros CH DP E1 EI E2. pose proof (creach_ereach _ (clean_history_creach _ CH)) as R.
  destruct (deposit_execute _ _ _ _ _ _ _ _ _ _ _ DP E1) as (sl & su & C & HL & _ & DX).
  assert (CC : clean_call e i s d) by (destruct DX as [-> | ->]; exact I).
  pose proof (ch_call _ _ _ _ _ _ _ CH CC E1) as CH1. pose proof (creach_ereach _ (clean_history_creach _ CH1)) as R1.
  pose proof (ch_call e' i' s1 (RemovePosition (get_position_length s (i_sender i))) _ _ _ CH1 I E2) as CH2. pose proof (creach_ereach _ (clean_history_creach _ CH2)) as R2.
  assert (H2 : remove_position_exec e' i' s1 (plen s (i_sender i)) = Ok (s2, m2, a2)).
  { unfold execute in E2. destruct (_ && _) in E2; [|done]. exact E2. }
  pose proof (in_and_out _ _ _ _ _ _ _ _ _ _ _ _ _ _ _ _ _ R R1 R2 HL C EI H2) as M.
  split; [exact M|]. pose proof (market_gauge _ _ R R2 M) as G. split.
  - intros zs CP. by apply gauge_play.
  - intros. by apply gauge_quote.
Qed.

(** * Examples *)
(** Five seconds later dan comes in between ticks -10 and 40, and leaves. Tick 40, which dan's deposit made, is gone again; the pool's date has changed. *)
Definition tr_env : env := mkEnv 2 6000000000 "self" 1000 (fun _ => true) (fun _ => true).
Definition tr_after : store :=
  match (let* '(s1, _, _) := execute tr_env (v_info "dan") sc0 od_below in execute tr_env (v_info "dan") s1 (RemovePosition 0)) with Ok (s2, _, _) => s2 | _ => sc0 end.
Lemma tr_steps : exists s1 m1 a1 m2 a2, execute tr_env (v_info "dan") sc0 od_below = Ok (s1, m1, a1) /\
  execute tr_env (v_info "dan") s1 (RemovePosition 0) = Ok (tr_after, m2, a2) /\ st_ticks s1 !! (v_key, 40) <> None /\
  m1 = [Cw20TransferFrom "tokenx" "dan" "self" 1906; Cw20TransferFrom "tokeny" "dan" "self" 343]%string /\
  m2 = [Cw20Transfer "tokenx" "dan" 1905; Cw20Transfer "tokeny" "dan" 342]%string.
Proof.
  destruct (done_inv (fun r => let '(s1, m1, a1) := r in
     st_ticks s1 !! (v_key, 40) <> None /\ m1 = [Cw20TransferFrom "tokenx" "dan" "self" 1906; Cw20TransferFrom "tokeny" "dan" "self" 343]%string /\
     match execute tr_env (v_info "dan") s1 (RemovePosition 0) with Ok (_, m2, _) => m2 = [Cw20Transfer "tokenx" "dan" 1905; Cw20Transfer "tokeny" "dan" 342]%string | _ => False end)
    (execute tr_env (v_info "dan") sc0 od_below)) as ([[s1 m1] a1] & E & T & M & X).
  { vm_compute. repeat split. discriminate. }
  exists s1, m1, a1. unfold tr_after. rewrite E. cbn [bind].
  destruct (execute tr_env (v_info "dan") s1 (RemovePosition 0)) as [[[s2 m2] a2]| |]; [|destruct X..].
  exists m2, a2. split; [exact eq_refl|]. split; [exact eq_refl|]. split; [exact T|]. split; [exact M|exact X].
Qed.
Definition last_of (s : store) : Z := match st_pools s !! v_key with Some p => p_last p | None => 0 end.
Example ex_C109 : same_market sc0 tr_after /\ reachable tr_after /\ last_of sc0 = 1000 /\ last_of tr_after = 6000 /\
  fst (play ga_calls tr_after) = fst (play ga_calls sc0) /\
  map (fun r => match r with Ok (ms, _) => ms | _ => [] end) (fst (play ga_calls tr_after)) =
    [[Cw20TransferFrom "tokenx" "carol" "self" 2000; Cw20Transfer "tokeny" "carol" 1987]; [Cw20Transfer "tokenx" "alice" 22];
     [Cw20TransferFrom "tokeny" "carol" "self" 14000; Cw20Transfer "tokenx" "carol" 13913];
     [Cw20Transfer "tokenx" "alice" 2844; Cw20Transfer "tokeny" "alice" 17224]; []]%string.
Proof.
  destruct tr_steps as (s1 & m1 & a1 & m2 & a2 & E1 & E2 & _).
  destruct (C109_trace tr_env (v_info "dan") sc0 od_below v_key (-10) 40 900000000000 s1 m1 a1 tr_env (v_info "dan") tr_after m2 a2 sc0_clean) as (M & P & _).
  { do 2 eexists. left. reflexivity. }
  { exact E1. }
  { reflexivity. }
  { exact E2. }
  split; [exact M|]. split; [exact (reach_call _ _ _ _ _ _ _ (reach_call _ _ _ _ _ _ _ sc0_reachable E1) E2)|].
  split; [vm_compute; reflexivity|]. split; [vm_compute; reflexivity|].
  split; [|vm_compute; reflexivity]. apply P. apply clean_playb_sound; [apply sc0_reachable|vm_compute; reflexivity].
Qed.
(** a stay of the same length during which somebody trades is another matter: less is traded against the others, and a later withdrawal pays another mixture *)
Example ex_C109_trade : match execute tr_env (v_info "dan") sc0 od_below with
  | Ok (s1, _, _) => fst (play ga_calls s1) <> fst (play ga_calls sc0)
  | _ => False
  end.
Proof. vm_compute. discriminate. Qed.
Print Assumptions C109_trace.
(** the same two stores meet the hypotheses of C108 *)
Example ex_C108 : clean_history sc0 /\ reachable tr_after /\ same_market sc0 tr_after /\ sc0 <> tr_after.
Proof.
  destruct ex_C109 as (M & R & L1 & L2 & _). split; [exact sc0_clean|]. split; [exact R|]. split; [exact M|].
  intros X. rewrite <- X, L1 in L2. discriminate L2.
Qed.
