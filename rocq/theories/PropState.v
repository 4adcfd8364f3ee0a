(** C108: what of a market decides everything that will ever happen in it. *)
From Verif Require Import Base Decimal SqrtPrice Clamm Log FeeGrowth Types Tick Pool Position
  Tickmap Keys State Swap Exec Query Tactics PriceProofs ClammProofs BitmapProofs Frame Handlers History Basic PosList Ledger Vectors Scenario SwapInv SwapGeo SwapLoop Modify PSum LiqInv
  Geo Ops Clean CleanSuff Growth PropTrade PropPerm PropLocal PropLiq PropSolv PropClock PropOk PropSplit PropOrder PropLeave PropGauge.
From stdpp Require Import gmap strings.
From Coq Require Import Lia.
Open Scope Z_scope.

(** ** No bit without a tick *)
Definition bits_told (s : store) : Prop := forall k c n, 0 <= n -> Z.testbit (bitmap_chunk s k c) n = true ->
  exists j, is_Some (st_ticks s !! (k, j)) /\ bit_index (spacing k) j / 64 = c /\ bit_index (spacing k) j mod 64 = n.
Lemma bits_mono s s' : bits_told s -> st_bitmap s' = st_bitmap s ->
  (forall k j, is_Some (st_ticks s !! (k, j)) -> is_Some (st_ticks s' !! (k, j))) -> bits_told s'.
Proof.
  intros B E T k c n N0 H. unfold bitmap_chunk in H. rewrite E in H. destruct (B k c n N0 H) as (j & J & Q). exists j. eauto.
Qed.
Lemma raise_bit s k j bm k' c n : 0 <= n -> Z.testbit (default 0 (raise s k j bm !! (k', c))) n = true ->
  Z.testbit (default 0 (bm !! (k', c))) n = true \/ (k' = k /\ bit_index (spacing k) j / 64 = c /\ bit_index (spacing k) j mod 64 = n).
Proof.
  intros N0. unfold raise. destruct (st_ticks s !! (k, j)); [by left|]. pose proof (Z.mod_pos_bound (bit_index (spacing k) j) 64 ltac:(lia)) as MB.
  destruct (decide ((k', c) = (k, bit_index (spacing k) j / 64))) as [E|N]; [|rewrite lookup_insert_ne by congruence; by left].
  injection E as -> ->. rewrite lookup_insert. match goal with |- context [default 0 (Some ?z)] => change (default 0 (Some z)) with z end.
  rewrite Z.lor_spec, Z.pow2_bits_eqb by lia. intros H. apply orb_prop in H as [H|H]; [by left|]. apply Z.eqb_eq in H. by right.
Qed.
Lemma fold_keep k (l : list tick) : forall (m : gmap (pool_key * Z) tick) x, is_Some (m !! x) -> is_Some (foldl (fun m t => <[(k, t_index t) := t]> m) m l !! x).
Proof.
  induction l as [|t l IH]; intros m x H; cbn; [done|]. apply IH.
  destruct (decide (x = (k, t_index t))) as [->|N]; [rewrite lookup_insert; eauto|by rewrite lookup_insert_ne by congruence].
Qed.
Lemma bits_took b e i s ix s' ms at' po p : took b e i s ix s' ms at' po p -> bits_told s -> bits_told s'.
Proof.
  intros K B k c n N0 H. apply (tk_bits _ _ _ _ _ _ _ _ _ _ K k c n N0) in H as [H NJ]. destruct (B k c n N0 H) as (j & J & Q). exists j. split; [|done].
  destruct (st_ticks s' !! (k, j)) as [t|] eqn:T; [eauto|]. exfalso. apply NJ. exists j. destruct Q. done.
Qed.
Lemma ereach_bits s : ereach s -> bits_told s.
Proof.
  induction 1 as [i f s H|e i s s' ms R IH H].
  - apply instantiate_inv in H. destruct H as [-> _]. intros k c n N0. unfold bitmap_chunk. cbn. rewrite lookup_empty. cbn. by rewrite Z.bits_0.
  - destruct H as [c| | | |k d a b lim s' ms r Ha Hl H|k l u q sl su s' ms at' Q HL HU H|ix s' ms at' H|ix s' ms at' H|o ix po s1 r s' ms E H1 H2 _| |];
      try (eapply bits_mono; [exact IH|reflexivity|intros k0 j0 J0; exact J0]).
    + apply swap_internal_inv in H as (_ & (s1 & H & ->) & _). apply update_ticks_inv in H. subst s1.
      eapply bits_mono; [exact IH|reflexivity|]. intros k0 j0 J0. cbn. by apply fold_keep.
    + pose proof (lay _ _ _ _ _ _ _ _ _ _ _ _ R Q H) as D. destruct (ld_some _ _ _ _ _ _ _ _ D) as [p P].
      assert (EX : forall j, j = l \/ j = u -> is_Some (st_ticks s' !! (k, j))).
      { intros j J. destruct (ld_step _ _ _ _ _ _ _ _ D p j P J) as (b & t & _ & _ & ->). eauto. }
      intros k' c n N0 B. unfold bitmap_chunk in B. rewrite (ld_bm _ _ _ _ _ _ _ _ D) in B.
      apply raise_bit in B as [B|(-> & B)]; [|exists u; split; [by apply EX; right|done]|done].
      apply raise_bit in B as [B|(-> & B)]; [|exists l; split; [by apply EX; left|done]|done].
      destruct (IH k' c n N0 B) as (j & J & W). exists j. split; [|done].
      destruct (ld_ticks _ _ _ _ _ _ _ _ D k' j) as [->|[-> X]]; [done|by apply EX].
    + destruct (took_claim _ _ _ _ _ _ _ R H) as (po & p & K). by eapply bits_took.
    + destruct (took_leave _ _ _ _ _ _ _ R H) as (po & p & K). by eapply bits_took.
    + apply remove_position_inv in H1 as (_ & _ & m & _ & ->). apply add_position_inv in H2 as [-> _].
      eapply bits_mono; [exact IH|reflexivity|intros k0 j0 J0; exact J0].
Qed.
(** so the bitmap is told by the ticks *)
Lemma bitmap_told s t : ereach s -> ereach t -> (forall k j, is_Some (st_ticks s !! (k, j)) <-> is_Some (st_ticks t !! (k, j))) ->
  forall k c, bitmap_chunk t k c = bitmap_chunk s k c.
Proof.
  intros R R' E k c.
  assert (G : forall s t, ereach s -> ereach t -> (forall k j, is_Some (st_ticks s !! (k, j)) -> is_Some (st_ticks t !! (k, j))) ->
    forall n, 0 <= n -> Z.testbit (bitmap_chunk s k c) n = true -> Z.testbit (bitmap_chunk t k c) n = true).
  { clear. intros s t R R' E n N0 H. destruct (ereach_bits _ R k c n N0 H) as (j & J & <- & <-). apply E in J.
    pose proof (lq_pool _ (ereach_liq _ R') _ _ J) as P. pose proof (proj2 (lq_init _ (ereach_liq _ R') _ _ P) J) as I.
    destruct P as [p P]. destruct (kv_tier _ (ereach_pools _ R' _ _ P)) as [S1 _].
    apply is_init_bit in I; [exact I|exact (proj1 S1)|]. by eapply is_init_legal; [exact (proj1 S1)|exact I]. }
  apply Z.bits_inj'. intros n N0. pose proof (G s t R R' (fun k j => proj1 (E k j)) n N0) as A. pose proof (G t s R' R (fun k j => proj2 (E k j)) n N0) as B.
  destruct (Z.testbit (bitmap_chunk t k c) n), (Z.testbit (bitmap_chunk s k c) n); [done|symmetry; by apply B|by apply A|done].
Qed.

(** * The same market *)
Definition same_pool (p q : pool) : Prop :=
  p_liq q = p_liq p /\ p_price q = p_price p /\ p_tick q = p_tick p /\ p_protx q = p_protx p /\ p_proty q = p_proty p /\ p_start q = p_start p /\ p_receiver q = p_receiver p.
Definition same_terms (x y : position) : Prop :=
  po_key y = po_key x /\ po_liq y = po_liq x /\ po_lower y = po_lower x /\ po_upper y = po_upper x /\
  po_owedx y = po_owedx x /\ po_owedy y = po_owedy x /\ po_approvals y = po_approvals x.
(** what a unit of liquidity has earned the position since its fees were last settled *)
Definition earned (b : bool) (s : store) (po : position) : Z :=
  match st_pools s !! po_key po, st_ticks s !! (po_key po, po_lower po), st_ticks s !! (po_key po, po_upper po) with
  | Some p, Some l, Some u =>
      let up t := if t_index t <=? p_tick p then fo b t else fg b p - fo b t in
      (up u - up l - pofg b po) mod 2 ^ 128
  | _, _, _ => 0
  end.
Record same_market (s t : store) : Prop := {
  sm_config : st_config t = st_config s;
  sm_operators : st_operators t = st_operators s;
  sm_count a : get_position_length t a = get_position_length s a;
  sm_pool k : option_Forall2 same_pool (st_pools s !! k) (st_pools t !! k);
  sm_position a ix : option_Forall2 (fun x y => same_terms x y /\ forall b, earned b t y = earned b s x) (st_positions s !! (a, ix)) (st_positions t !! (a, ix))
}.

Lemma psum_same (R : position -> position -> Prop) (f : position -> Z) : (forall p q, R p q -> f q = f p) -> forall m m' : gmap (string * Z) position,
  (forall x, option_Forall2 R (m !! x) (m' !! x)) -> psum f m' = psum f m.
Proof.
  intros F m. induction m as [|x po m N IH] using map_ind; intros m' H.
  - assert (m' = ∅) as ->; [|by rewrite !psum_empty]. apply map_eq. intros x. specialize (H x). rewrite lookup_empty in *. by apply PropClock.of2_none in H.
  - pose proof (H x) as HX. rewrite lookup_insert in HX. apply PropClock.of2_some in HX as (q & HX & E). rewrite (psum_delete f m' x q HX), (psum_new f m x po N).
    rewrite (F _ _ E). f_equal. apply IH. intros y. specialize (H y). destruct (decide (y = x)) as [->|NE].
    + rewrite N, lookup_delete. constructor.
    + by rewrite lookup_insert_ne in H by congruence; rewrite lookup_delete_ne by congruence.
Qed.
(** the ticks are told by the positions, all but their counters *)
Lemma ticks_from s t : ereach s -> ereach t -> (forall x, option_Forall2 same_terms (st_positions s !! x) (st_positions t !! x)) ->
  forall k j, option_Forall2 (fun x y => shape j x y /\ signed x y) (st_ticks s !! (k, j)) (st_ticks t !! (k, j)).
Proof.
  intros R R' E k j. pose proof (lq_tick _ (ereach_liq _ R) k j) as G. pose proof (lq_tick _ (ereach_liq _ R') k j) as G'.
  assert (SG : psum (gross_at k j) (st_positions t) = psum (gross_at k j) (st_positions s)).
  { apply (psum_same same_terms); [|exact E]. intros p q (H1 & H2 & H3 & H4 & _). unfold gross_at, at_key. by rewrite H1, H2, H3, H4. }
  assert (SN : psum (net_at k j) (st_positions t) = psum (net_at k j) (st_positions s)).
  { apply (psum_same same_terms); [|exact E]. intros p q (H1 & H2 & H3 & H4 & _). unfold net_at, at_key. by rewrite H1, H2, H3, H4. }
  destruct (st_ticks s !! (k, j)) as [x|], (st_ticks t !! (k, j)) as [y|]; cbn in G, G'.
  - constructor. destruct G as [[I1 _ Z1 X1 Y1 _] _], G' as [[I2 _ Z2 X2 Y2 _] _]. rewrite SG, <- X1 in X2. rewrite SN, <- Y1 in Y2. clear X1 Y1.
    assert (Q : t_change y = t_change x /\ signed x y).
    { unfold signed. unfold net, pm in Y2. destruct (t_sign x), (t_sign y); (split; [lia|]); try (by left); right; lia. }
    destruct Q as [Q1 Q2]. split; [|exact Q2]. split; [|exact I1]. rewrite <- Q1, <- X2, I1, <- I2. by destruct y.
  - destruct G as [G GG]. rewrite (tp_gross _ _ _ _ G) in GG. lia.
  - destruct G' as [G' GG]. rewrite (tp_gross _ _ _ _ G') in GG. lia.
  - constructor.
Qed.
Definition level (b : bool) (s : store) (k : pool_key) (j : Z) : Z :=
  match st_pools s !! k, st_ticks s !! (k, j) with Some p, Some t => if t_index t <=? p_tick p then fo b t else fg b p - fo b t | _, _ => 0 end.
Definition counter (b : bool) (s : store) (k : pool_key) : Z := match st_pools s !! k with Some p => fg b p | None => 0 end.
Lemma market_gauge s t : ereach s -> ereach t -> same_market s t -> gauge s t.
Proof.
  intros R R' M.
  assert (TE : forall x, option_Forall2 same_terms (st_positions s !! x) (st_positions t !! x)).
  { intros [a ix]. pose proof (sm_position _ _ M a ix) as O. destruct O as [x y [O _]|]; by constructor. }
  pose proof (ticks_from s t R R' TE) as TK. destruct (liq_ranges _ R) as [PR LR].
  exists (fun k => match st_pools s !! k with Some p => p_tick p | None => 0 end), (fun (k : pool_key) (b : bool) => counter b t k - counter b s k),
    (fun (k : pool_key) (j : Z) (b : bool) => level b t k j - level b s k j).
  constructor; try apply M.
  - intros k. pose proof (sm_pool _ _ M k) as O. destruct (st_pools s !! k) as [p|] eqn:E; [|rewrite (PropClock.of2_none _ _ O); constructor].
    destruct (PropClock.of2_some _ _ _ O) as (q & E' & H1 & H2 & H3 & H4 & H5 & H6 & H7). rewrite E'. constructor.
    split; [|by rewrite E]. split; [rewrite <- H1, <- H2, <- H3, <- H4, <- H5, <- H6, <- H7; by destruct q|]. split; [by eapply PR|].
    intros b. exists 0. unfold counter. rewrite E, E'. lia.
  - intros k j. pose proof (TK k j) as O. destruct (st_ticks s !! (k, j)) as [x|] eqn:E; [|rewrite (PropClock.of2_none _ _ O); constructor].
    destruct (PropClock.of2_some _ _ _ O) as (y & E' & SH & SG). rewrite E'. constructor. split; [exact SH|]. split; [exact SG|]. intros b. exists 0.
    destruct (lq_pool _ (ereach_liq _ R) k j ltac:(eauto)) as [p P]. pose proof (sm_pool _ _ M k) as OP. rewrite P in OP. destruct (PropClock.of2_some _ _ _ OP) as (q & Q & _ & _ & PT & _).
    unfold side, counter, level. rewrite P, Q, E, E', PT. destruct SH as [SH IX]. replace (t_index y) with (t_index x) by (rewrite SH; done). rewrite IX.
    destruct (j <=? p_tick p); lia.
  - intros k c. apply bitmap_told; [done|done|]. intros k' j. destruct (TK k' j); split; intros [? X]; eauto; discriminate X.
  - intros a ix. pose proof (sm_position _ _ M a ix) as O. destruct (st_positions s !! (a, ix)) as [x|] eqn:E; [|rewrite (PropClock.of2_none _ _ O); constructor].
    destruct (PropClock.of2_some _ _ _ O) as (y & E' & (H1 & H2 & H3 & H4 & H5 & H6 & H7) & EA). rewrite E'. constructor.
    split; [rewrite <- H1, <- H2, <- H3, <- H4, <- H5, <- H6, <- H7; by destruct y|]. split; [by eapply LR|]. intros b. specialize (EA b).
    destruct (bounds_of _ _ _ R E) as (l & u & L & U & _). destruct (bounds_of _ _ _ R' E') as (l' & u' & L' & U' & _).
    destruct (lq_pos _ (ereach_liq _ R) _ _ E) as [_ [p P]]. destruct (lq_pos _ (ereach_liq _ R') _ _ E') as [_ [q Q]].
    unfold earned in EA. rewrite L, U, L', U', P, Q in EA. cbv zeta in EA. rewrite H1 in L', U', Q. rewrite H3 in L'. rewrite H4 in U'.
    unfold level. rewrite L, U, L', U', P, Q. change (2 ^ 128) with U128 in EA.
    set (A' := if t_index u' <=? p_tick q then fo b u' else fg b q - fo b u') in *. set (B' := if t_index l' <=? p_tick q then fo b l' else fg b q - fo b l') in *.
    set (A := if t_index u <=? p_tick p then fo b u else fg b p - fo b u) in *. set (B := if t_index l <=? p_tick p then fo b l else fg b p - fo b l) in *.
    clearbody A A' B B'. apply cong_mod.
    replace (pofg b x + (A' - A - (B' - B))) with ((A' - B') - (A - B - pofg b x)) by lia. rewrite <- (Zminus_mod_idemp_r (A' - B')), <- EA, Zminus_mod_idemp_r. f_equal. lia.
Qed.
Lemma gauge_market s t : ereach s -> gauge s t -> same_market s t.
Proof.
  intros R (cur & D & B & G). constructor; try apply G.
  - intros k. pose proof (gk_pool _ _ _ _ _ G k) as O. destruct O as [p q [[O _] _]|]; constructor. unfold same_pool. rewrite O. done.
  - intros a ix. pose proof (gk_position _ _ _ _ _ G a ix) as O. destruct (st_positions s !! (a, ix)) as [x|] eqn:E; [|rewrite (PropClock.of2_none _ _ O); constructor].
    destruct (PropClock.of2_some _ _ _ O) as (y & E' & PE & _ & PC). rewrite E'. constructor. split; [unfold same_terms; rewrite PE; done|].
    intros b. destruct (bounds_of _ _ _ R E) as (l & u & L & U & _). destruct (lq_pos _ (ereach_liq _ R) _ _ E) as [_ [p P]].
    pose proof (gk_tick _ _ _ _ _ G (po_key x) (po_lower x)) as OL. rewrite L in OL. destruct (PropClock.of2_some _ _ _ OL) as (l' & L' & GL).
    pose proof (gk_tick _ _ _ _ _ G (po_key x) (po_upper x)) as OU. rewrite U in OU. destruct (PropClock.of2_some _ _ _ OU) as (u' & U' & GU).
    pose proof (gk_pool _ _ _ _ _ G (po_key x)) as OP. rewrite P in OP. destruct (PropClock.of2_some _ _ _ OP) as (q & Q & [PQ [_ PF]] & PT).
    unfold earned. replace (po_key y) with (po_key x) by (rewrite PE; done). replace (po_lower y) with (po_lower x) by (rewrite PE; done).
    replace (po_upper y) with (po_upper x) by (rewrite PE; done). rewrite L, U, P, L', U', Q. cbv zeta. replace (p_tick q) with (p_tick p) by (rewrite PQ; done).
    destruct (cong_below _ _ _ _ _ _ _ _ _ _ _ GL PT (PF b)) as [q1 E1]. destruct (cong_below _ _ _ _ _ _ _ _ _ _ _ GU PT (PF b)) as [q2 E2]. unfold below in E1, E2. rewrite E1, E2.
    destruct (PC b) as [q3 ->]. change (2 ^ 128) with U128.
    match goal with |- ?x mod _ = ?y mod _ => replace x with (y + (q2 - q1 - q3) * U128) by lia end. by rewrite Z_mod_plus_full.
Qed.

(** C108: two markets that agree on all this, and nothing else, answer every later history of calls alike, and go on agreeing. *)
Lemma play_clean zs : forall s, clean_history s -> clean_play zs s -> clean_history (snd (play zs s)).
Proof.
  induction zs as [|[[e i] m] zs IH]; intros s CH CP; [done|]. destruct CP as [CC CP]. cbn [after] in CP. cbn [play].
  destruct (execute e i s m) as [[[s1 ms] at']|x|] eqn:E.
  - pose proof (IH s1 (ch_call _ _ _ _ _ _ _ CH CC E) CP) as I. by destruct (play zs s1).
  - pose proof (IH s CH CP) as I. by destruct (play zs s).
  - pose proof (IH s CH CP) as I. by destruct (play zs s).
Qed.
Theorem C108_decides zs s t : clean_history s -> reachable t -> same_market s t -> clean_play zs s ->
  fst (play zs t) = fst (play zs s) /\ same_market (snd (play zs s)) (snd (play zs t)).
Proof.
  intros CH R M CP. destruct (gauge_play zs s t CH CP) as [E G].
  { apply market_gauge; [by apply creach_ereach, clean_history_creach|by apply reachable_ereach|done]. }
  split; [exact E|]. apply gauge_market; [|exact G]. by apply creach_ereach, clean_history_creach, play_clean.
Qed.
Theorem C108_quotes s t e k d a b lim : reachable s -> reachable t -> same_market s t -> both same_quote (query_quote e s k d a b lim) (query_quote e t k d a b lim).
Proof. intros R R' M. apply gauge_quote, market_gauge; [by apply reachable_ereach..|done]. Qed.
