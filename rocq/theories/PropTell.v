(** C118: the queries tell everything there is to know. *)
From Verif Require Import Base Decimal SqrtPrice Clamm Log FeeGrowth Types Tick Pool Position
  Tickmap Keys State Swap Exec Query QueryMsg Tactics BitmapProofs KeysProofs Frame Handlers History Basic PosList
  Vectors Scenario SwapGeo SwapLoop LiqInv Geo PropLiq PropTrade PropLocal PropClock PropAuth PropConfig PropKeys PropNft PropPair PropQuery PropSdk PropReply.
From stdpp Require Import gmap strings list.
From Coq Require Import Lia.
Open Scope Z_scope.

(** all queries other than quotes *)
Definition same_answers (e : env) (s t : store) : Prop := forall q, query_typed q = true -> is_quote q = false -> query e s q = query e t q.
(** what the stored data say; a stored count of positions that is zero says the same as none *)
Record same_data (s t : store) : Prop := {
  sd_config : st_config t = st_config s;
  sd_pools : st_pools t = st_pools s;
  sd_ticks : st_ticks t = st_ticks s;
  sd_bitmap : st_bitmap t = st_bitmap s;
  sd_positions : st_positions t = st_positions s;
  sd_len a : default 0 (st_poslen t !! a) = default 0 (st_poslen s !! a);
  sd_operators : st_operators t = st_operators s
}.

Lemma same_sym e s t : same_answers e s t -> same_answers e t s.
Proof. intros H q T Q. symmetry. by apply H. Qed.
Lemma half {K} `{Countable K} {A} (m n : gmap K A) : (forall k x, m !! k = Some x -> n !! k = Some x) -> (forall k x, n !! k = Some x -> m !! k = Some x) -> n = m.
Proof.
  intros F G. apply map_eq. intros k. destruct (m !! k) as [x|] eqn:E; [by apply F|]. destruct (n !! k) as [x|] eqn:E2; [|done]. apply G in E2. congruence.
Qed.
Lemma key_fits s k p : ereach s -> st_pools s !! k = Some p -> qkey_ok k = true.
Proof.
  intros R E. destruct (ereach_pools _ R _ _ E) as [[T1 T2] _ [b B]]. unfold qkey_ok, key_ok, Exec.tier_ok, u64_ok, short. change PCT_ONE with 1000000000000 in T2.
  assert (A1 : in_range 0 U64MAX (ft_fee (pk_tier k)) = true) by (apply in_range_spec; unfold U64MAX; lia).
  assert (A2 : in_range 0 65535 (ft_spacing (pk_tier k)) = true) by (apply in_range_spec; lia). rewrite A1, A2. cbn [andb].
  unfold pool_key_bytes in B. cbn [length_prefixed] in B. destruct (Z.ltb_spec 65535 (slen (pk_x k))); [discriminate B|]. destruct (Z.ltb_spec 65535 (slen (pk_y k))); [discriminate B|].
  rewrite !(proj2 (Z.leb_le _ _)) by lia. done.
Qed.
Lemma told_pool e s t : reachable s -> reachable t -> same_answers e s t -> forall k p, st_pools s !! k = Some p -> st_pools t !! k = Some p.
Proof.
  intros R R' H k p E. apply reachable_ereach in R. pose proof (key_fits _ _ _ R E) as KF. pose proof (kv_order _ (ereach_pools _ R _ _ E)) as O.
  specialize (H (QPool (pk_x k) (pk_y k) (pk_tier k))). cbn [query query_typed is_quote] in H. unfold qkey_ok, key_ok in KF. rewrite KF in H. specialize (H eq_refl eq_refl).
  unfold query_pool, pool_key_new in H. rewrite (proj2 (String.eqb_neq _ _)) in H by (intros X; rewrite X, string_ltb_irrefl in O; done). rewrite O in H. cbn [bind] in H.
  destruct k as [x y tr]. cbn [pk_x pk_y pk_tier] in H. unfold get_pool in H. rewrite E in H. cbn [bind] in H.
  destruct (st_pools t !! mkPoolKey x y tr) as [q|] eqn:E2; [|discriminate H]. cbn [bind] in H. by injection H as <-.
Qed.
Lemma told_tick e s t : reachable s -> same_answers e s t -> forall x tk, st_ticks s !! x = Some tk -> st_ticks t !! x = Some tk.
Proof.
  intros R H [k j] tk E. destruct (st_pools s !! k) as [p|] eqn:P; [|destruct (C12_no_pool s k R P j) as [X _]; congruence].
  apply reachable_ereach in R. pose proof (key_fits _ _ _ R P) as KF. pose proof (lq_tick _ (ereach_liq _ R) k j) as TK. rewrite E in TK. destruct TK as [[_ [LJ _] _ _ _ _] _].
  specialize (H (QTick k j)). cbn [query query_typed is_quote] in H. rewrite KF in H.
  assert (IJ : i32_ok j = true) by (apply in_range_spec; change MAX_TICK with 221818 in LJ; unfold I32MIN, I32MAX; lia). rewrite IJ in H. specialize (H eq_refl eq_refl).
  unfold get_tick in H. rewrite E in H. cbn [bind] in H. destruct (st_ticks t !! (k, j)); [|discriminate H]. cbn [bind] in H. by injection H as <-.
Qed.
Lemma told_position e s t : reachable s -> same_answers e s t -> forall x po, st_positions s !! x = Some po -> st_positions t !! x = Some po.
Proof.
  intros R H [a ix] po E. apply reachable_ereach in R. pose proof (token_index _ _ _ R (mk_is_Some _ _ E)) as I. specialize (H (QPosition a ix)). cbn [query query_typed is_quote] in H.
  assert (U : u32_ok ix = true) by (apply in_range_spec; unfold U32MAX; lia). specialize (H U eq_refl).
  unfold get_position in H. rewrite E in H. cbn [bind] in H. destruct (st_positions t !! (a, ix)); [|discriminate H]. cbn [bind] in H. by injection H as <-.
Qed.
Lemma listing_ext {A} (key : A -> string) q q' start l : (forall st, q st = q' st) -> listing key q start l -> listing key q' start l.
Proof. intros E. induction 1 as [start H|start l x rest H L IH]; [constructor; by rewrite <- E|]. econstructor; [by rewrite <- E|done]. Qed.
Lemma told_operator e s t : same_answers e s t -> forall x v, st_operators s !! x = Some v -> st_operators t !! x = Some v.
Proof.
  intros H [o a] v E. destruct (C55_operators_listing e s o true) as (L & _ & M & Q). destruct (C55_operators_listing e t o true) as (L' & _ & M' & Q').
  assert (EQ : L = L').
  { apply (Q' None ltac:(cbn; lia)). apply (listing_ext _ (operators_page e s o true None)); [|by apply (Q None ltac:(cbn; lia))].
    intros st. specialize (H (QApprovedForAll o (Some true) st None) eq_refl eq_refl). cbn in H. by injection H. }
  subst L'. apply (M' a v). apply M. tauto.
Qed.
(** every stored block of bits is that of a tick the pool could have *)
Definition blocks_legal (bm : gmap (pool_key * Z) Z) : Prop := forall k c, is_Some (bm !! (k, c)) -> exists j, legal_tick (spacing k) j /\ c = bit_index (spacing k) j / 64.
Lemma flip_blocks s v i k s' : 1 <= spacing k -> blocks_legal (st_bitmap s) -> flip_bitmap s v i (spacing k) k = Ok s' -> blocks_legal (st_bitmap s').
Proof.
  intros S1 B H. apply flip_bitmap_ok in H as (L & _ & ->); [|done]. intros k' c X. cbn in X. destruct (decide ((k', c) = (k, bit_index (spacing k) i / 64))) as [Q|N].
  - injection Q as -> ->. by exists i.
  - rewrite lookup_insert_ne in X by congruence. by apply B.
Qed.
Lemma init_blocks s k i bm bm' : 1 <= spacing k -> blocks_legal bm -> init_bitmap s k i bm bm' -> blocks_legal bm'.
Proof.
  unfold init_bitmap. intros S1 B H. destruct (st_ticks s !! (k, i)); [by subst|]. destruct H as (s' & F & ->). apply flip_blocks in F; done.
Qed.
Lemma clear_blocks b k i bm bm' : 1 <= spacing k -> blocks_legal bm -> clear_bitmap b k i bm bm' -> blocks_legal bm'.
Proof.
  unfold clear_bitmap. intros S1 B H. destruct b; [|by subst]. destruct H as (s & s' & F & E & ->). apply flip_blocks in F; [exact F|done|by rewrite E].
Qed.
Lemma ereach_blocks s : ereach s -> blocks_legal (st_bitmap s).
Proof.
  induction 1 as [i f s H|e i s s' ms R IH H].
  - apply instantiate_inv in H. destruct H as [-> F]. intros k c X. cbn in X. rewrite lookup_empty in X. by destruct X.
  - pose proof (ereach_indexed _ R) as IX. pose proof (ereach_pools _ R) as PO. destruct H; try exact IH.
    + apply swap_internal_kept in H1; [|done]. rewrite (Frame.sk_bitmap _ _ _ H1). exact IH.
    + apply create_position_inv in H2; [|done].
      destruct H2 as (p0 & lt & ut & po & p' & lt' & ut' & x & y & bm1 & bm2 & m0 & m1 & HL & HN & Ep & Sl & Su & B1 & B2 & PC & PL & _ & _ & _ & _ & ->).
      destruct (kv_tier _ (PO _ _ Ep)) as [Hs _].
      cbn. eapply init_blocks; [|eapply init_blocks; [|exact IH|exact B1]|exact B2]; lia.
    + apply claim_fee_inv in H; [|done].
      destruct H as (po & lt & ut & p0 & po' & p' & lt' & ut' & x & y & Epo & _ & _ & _ & Ep & PC & _ & _ & Iu & Il & ->). exact IH.
    + apply remove_position_exec_inv in H; [|done].
      destruct H as (po & lt & ut & p0 & po' & p' & lt' & ut' & x & y & dl & du & bm1 & bm2 & m' & Epo & _ & _ & _ & Ep & PC & _ & _ & Iu & Il & B1 & B2 & SR & ->).
      destruct (kv_tier _ (PO _ _ Ep)) as [Hs _].
      cbn. eapply clear_blocks; [|eapply clear_blocks; [|exact IH|exact B1]|exact B2]; lia.
    + apply remove_position_inv in H0. destruct H0 as (_ & _ & m & _ & ->).
      apply add_position_inv in H1. destruct H1 as (-> & _). exact IH.
Qed.
(** asking for the tick map between a tick and itself tells its block *)
Lemma one_block s k j : 1 <= spacing k -> legal_tick (spacing k) j ->
  query_tickmap s k j j false = Ok (match st_bitmap s !! (k, bit_index (spacing k) j / 64) with Some v => [(bit_index (spacing k) j / 64, v)] | None => [] end).
Proof.
  intros S1 L. unfold query_tickmap. change (ft_spacing (pk_tier k)) with (spacing k). rewrite (tick_to_position_ok (spacing k) j S1 L). cbn [bind].
  pose proof (div_range _ j S1 L) as DR. set (c := bit_index (spacing k) j / 64).
  assert (B : 0 <= bit_index (spacing k) j <= 2 * (MAX_TICK / spacing k)) by (unfold bit_index; lia).
  assert (T0 : 0 <= MAX_TICK / spacing k <= MAX_TICK) by (split; [apply Z.div_pos; unfold MAX_TICK; lia|apply Z.div_le_upper_bound; unfold MAX_TICK; nia]).
  assert (C : get_min_chunk (spacing k) <= c <= get_max_chunk (spacing k)).
  { pose proof (Z.mul_div_le MAX_TICK (spacing k) ltac:(lia)) as T1. pose proof (Z.mod_pos_bound MAX_TICK (spacing k) ltac:(lia)) as T2.
    pose proof (Z.div_mod MAX_TICK (spacing k) ltac:(lia)) as T3. set (sp := spacing k) in *.
    unfold get_min_chunk, get_max_chunk. rewrite get_max_top by done. unfold SwapGeo.top, CHUNK_SIZE.
    assert (MT : MAX_TICK = 221818) by reflexivity.
    rewrite (Z.quot_div_nonneg _ sp) by lia. rewrite (Z.quot_div_nonneg (MAX_TICK / sp * sp + MAX_TICK) sp) by lia.
    replace ((MAX_TICK - MAX_TICK / sp * sp) / sp) with 0 by (symmetry; apply Z.div_small; lia).
    rewrite Z.add_comm, Z.div_add by lia. unfold c. split; [change (Z.quot 0 64 mod 65536) with 0; apply Z.div_pos; lia|].
    rewrite Z.quot_div_nonneg by lia. rewrite Z.mod_small.
    - apply Z.div_le_mono; lia.
    - split; [apply Z.div_pos; lia|apply Z.div_lt_upper_bound; lia]. }
  rewrite (Z.max_r _ c) by lia. rewrite (Z.min_r _ c) by lia. replace (c - c + 1) with 1 by lia. change (seqZ c 1) with [0 + c]. rewrite Z.add_0_l.
  unfold tickmap_slice. cbn [omap list_omap]. unfold get_bitmap_item. destruct (st_bitmap s !! (k, c)); done.
Qed.
Lemma told_block e s t : reachable s -> same_answers e s t -> forall x v, st_bitmap s !! x = Some v -> st_bitmap t !! x = Some v.
Proof.
  intros R H [k c] v E. destruct (st_pools s !! k) as [p|] eqn:P; [|destruct (C12_no_pool s k R P 0) as (_ & X & _); rewrite X in E; discriminate E].
  apply reachable_ereach in R. destruct (ereach_blocks _ R k c (mk_is_Some _ _ E)) as (j & LJ & ->). pose proof (key_fits _ _ _ R P) as KF. destruct (sg_sp _ _ (ereach_store_geo _ _ _ R P)) as [S1 _].
  specialize (H (QTickMap k j j false)). cbn [query query_typed is_quote] in H. rewrite KF in H.
  assert (IJ : i32_ok j = true) by (apply in_range_spec; destruct LJ as [LJ _]; change MAX_TICK with 221818 in LJ; unfold I32MIN, I32MAX; lia). rewrite IJ in H. specialize (H eq_refl eq_refl).
  rewrite !one_block in H by done. rewrite E in H. cbn [bind] in H. destruct (st_bitmap t !! _); [|discriminate H]. cbn [bind] in H. by injection H as ->.
Qed.

(** Two reachable states that give the same answers to all queries hold the same data. *)
Theorem C118_reveals e s t : reachable s -> reachable t -> same_answers e s t -> same_data s t.
Proof.
  intros R R' H. pose proof (same_sym _ _ _ H) as H'. constructor.
  - pose proof (H QAdmin eq_refl eq_refl) as A. pose proof (H QProtocolFee eq_refl eq_refl) as B. pose proof (H QFeeTiers eq_refl eq_refl) as C. cbn in A, B, C.
    unfold query_admin, query_protocol_fee, query_fee_tiers in *. destruct (st_config s), (st_config t). cbn in *. congruence.
  - apply half; [exact (told_pool e s t R R' H)|exact (told_pool e t s R' R H')].
  - apply half; [exact (told_tick e s t R H)|exact (told_tick e t s R' H')].
  - apply half; [exact (told_block e s t R H)|exact (told_block e t s R' H')].
  - apply half; [exact (told_position e s t R H)|exact (told_position e t s R' H')].
  - intros a. pose proof (H (QUserPositionAmount a) eq_refl eq_refl) as A. cbn in A. unfold get_position_length in A. by injection A.
  - apply half; [exact (told_operator e s t H)|exact (told_operator e t s H')].
Qed.

(** * Same data, same behaviour *)
Lemma dat_chunk k s s' c : same_data s s' -> bitmap_chunk s' k c = bitmap_chunk s k c.
Proof. intros V. unfold bitmap_chunk. by rewrite (sd_bitmap _ _ V). Qed.
Lemma dat_next k s s' n : same_data s s' -> forall sp c b lc lb,
  next_loop n s' k sp c b lc lb = next_loop n s k sp c b lc lb.
Proof. intros V. induction n as [|n IH]; intros; cbn; [done|]. by rewrite (dat_chunk _ _ _ _ V), IH. Qed.
Lemma dat_prev k s s' n : same_data s s' -> forall sp c b lc lb,
  prev_loop n s' k sp c b lc lb = prev_loop n s k sp c b lc lb.
Proof. intros V. induction n as [|n IH]; intros; cbn; [done|]. by rewrite (dat_chunk _ _ _ _ V), IH. Qed.
Lemma dat_limit k s s' lim d cur sp : same_data s s' ->
  get_closer_limit s' lim d cur sp k = get_closer_limit s lim d cur sp k.
Proof.
  intros V. unfold get_closer_limit. f_equal. destruct d.
  - unfold prev_initialized. destruct (sp =? 0); [done|]. apply bind_ext. intros [c b]. apply bind_ext.
    intros [lc lb]. by rewrite (dat_prev _ _ _ _ V).
  - unfold next_initialized. destruct (sp =? 0); [done|]. destruct (_ <? _); [done|]. apply bind_ext. intros [c b]. apply bind_ext.
    intros [lc lb]. by rewrite (dat_next _ _ _ _ V).
Qed.
Lemma dat_get_tick k s s' i : same_data s s' -> get_tick s' k i = get_tick s k i.
Proof. intros V. unfold get_tick. by rewrite (sd_ticks _ _ V). Qed.
Lemma dat_iter k s s' now d b lim tl w : same_data s s' ->
  swap_iter s' now k d b lim tl w = swap_iter s now k d b lim tl w.
Proof.
  intros V. unfold swap_iter. rewrite (dat_limit _ _ _ _ _ _ _ V), (sd_config _ _ V).
  apply bind_ext. intros [sl li]. do 7 (apply bind_ext; intros ?). destruct (_ && _); [done|].
  f_equal. destruct li as [[j []]|]; try done. by rewrite (dat_get_tick _ _ _ _ V).
Qed.
Lemma dat_loop k s s' now d b lim tl g : same_data s s' -> forall w,
  swap_loop g s' now k d b lim tl w = swap_loop g s now k d b lim tl w.
Proof.
  intros V. induction g as [|g IH]; intros w; cbn; [done|]. destruct (_ =? _); [done|].
  rewrite (dat_iter _ _ _ _ _ _ _ _ _ V). apply bind_ext. intros w'. apply IH.
Qed.
Lemma dat_calc k s s' g now d a b lim : same_data s s' ->
  calculate_swap g s' now k d a b lim = calculate_swap g s now k d a b lim.
Proof.
  intros V. unfold calculate_swap, get_pool. destruct (a =? 0); [done|]. rewrite (sd_pools _ _ V).
  apply bind_ext. intros p. destruct (if d then _ else _); [done|]. by rewrite (dat_loop _ _ _ _ _ _ _ _ _ V).
Qed.

Notation dk := same_data.
Lemma dk_pool s t k p : dk s t -> dk (save_pool s k p) (save_pool t k p).
Proof. intros []. constructor; cbn; congruence. Qed.
Lemma dk_ticks s t m : dk s t -> dk (set_ticks s m) (set_ticks t m).
Proof. intros []. constructor; cbn; congruence. Qed.
Lemma dk_bitmap s t k c v : dk s t -> dk (set_bitmap s (<[(k, c) := v]> (st_bitmap s))) (set_bitmap t (<[(k, c) := v]> (st_bitmap t))).
Proof. intros []. constructor; cbn; congruence. Qed.
Lemma dk_positions s t m m' n n' : dk s t -> m' = m -> (forall b, default 0 (n' !! b) = default 0 (n !! b)) -> dk (set_positions s m n) (set_positions t m' n').
Proof. intros [] -> E. constructor; cbn; done. Qed.
Lemma len_put s t a (n : Z) b : dk s t -> default 0 (<[a := n]> (st_poslen t) !! b) = default 0 (<[a := n]> (st_poslen s) !! b).
Proof.
  intros L. destruct (decide (b = a)) as [->|N]; [by rewrite !lookup_insert|]. rewrite !lookup_insert_ne by congruence. apply (sd_len _ _ L).
Qed.
Lemma dk_operators s t f : dk s t -> dk (set_operators s (f (st_operators s))) (set_operators t (f (st_operators t))).
Proof. intros []. constructor; cbn; congruence. Qed.
Lemma dk_config s t c : dk s t -> dk (set_config s c) (set_config t c).
Proof. intros []. constructor; cbn; congruence. Qed.
Lemma dk_get_pool s t k : dk s t -> get_pool t k = get_pool s k.
Proof. intros L. unfold get_pool. by rewrite (sd_pools _ _ L). Qed.
Lemma dk_get_position s t a ix : dk s t -> get_position t a ix = get_position s a ix.
Proof. intros L. unfold get_position. by rewrite (sd_positions _ _ L). Qed.
Lemma dk_plen s t a : dk s t -> get_position_length t a = get_position_length s a.
Proof. intros L. apply (sd_len _ _ L). Qed.
Lemma dk_update_tick s t k j x : dk s t -> both dk (update_tick s k j x) (update_tick t k j x).
Proof.
  intros L. unfold update_tick. rewrite (sd_ticks _ _ L). destruct (st_ticks s !! (k, j)); cbn; [|done].
  by apply dk_ticks.
Qed.
Lemma dk_add_tick s t k j x : dk s t -> both dk (add_tick s k j x) (add_tick t k j x).
Proof.
  intros L. unfold add_tick. rewrite (sd_ticks _ _ L). destruct (st_ticks s !! (k, j)); cbn; [done|].
  by apply dk_ticks.
Qed.
Lemma dk_remove_tick s t k j : dk s t -> both dk (remove_tick s k j) (remove_tick t k j).
Proof.
  intros L. unfold remove_tick. rewrite (sd_ticks _ _ L). destruct (st_ticks s !! (k, j)); cbn; [|done].
  by apply dk_ticks.
Qed.
Lemma dk_flip s t v j sp k : dk s t -> both dk (flip_bitmap s v j sp k) (flip_bitmap t v j sp k).
Proof.
  intros L. unfold flip_bitmap. apply both_eq; [done|]. intros [c b] _.
  rewrite (dat_chunk k s t c L). destruct (negb _); cbn; [done|]. by apply dk_bitmap.
Qed.
Definition dk2 {A} (p q : store * A) : Prop := dk (fst p) (fst q) /\ snd p = snd q.
Lemma dk_create_tick s t now k j : dk s t ->
  both dk2 (create_tick s now k j) (create_tick t now k j).
Proof.
  intros L. unfold create_tick. apply both_eq; [done|]. intros _ _. apply both_eq; [by apply dk_get_pool|].
  intros p _. apply both_eq; [done|]. intros x _. eapply both_bind; [by apply dk_add_tick|]. intros s1 t1 L1.
  eapply both_bind; [by apply dk_flip|]. intros s2 t2 L2. done.
Qed.
Lemma dk_get_or_create s t now k j : dk s t ->
  both dk2 (get_or_create_tick s now k j) (get_or_create_tick t now k j).
Proof.
  intros L. unfold get_or_create_tick. rewrite (dat_get_tick _ _ _ _ L).
  destruct (get_tick s k j); [done|by apply dk_create_tick|by apply dk_create_tick].
Qed.
Lemma dk_add_position s t a po : dk s t -> both dk (add_position s a po) (add_position t a po).
Proof.
  intros L. unfold add_position. rewrite (dk_plen _ _ a L). apply both_eq; [done|].
  intros n _. cbn. apply dk_positions; [done|by rewrite (sd_positions _ _ L)|]. intros b. by apply len_put.
Qed.
Lemma dk_update_position s t a ix po : dk s t -> both dk (update_position s a ix po) (update_position t a ix po).
Proof.
  intros L. unfold update_position. rewrite (dk_plen _ _ a L).
  destruct (_ <=? _); [done|]. apply dk_positions; [done|by rewrite (sd_positions _ _ L)|apply (sd_len _ _ L)].
Qed.
Lemma dk_remove_position s t a ix : dk s t -> both dk2 (remove_position s a ix) (remove_position t a ix).
Proof.
  intros L. unfold remove_position. rewrite (dk_plen _ _ a L). apply both_eq; [done|].
  intros n _. rewrite !(sd_positions _ _ L). destruct (st_positions s !! (a, ix)) as [po|]; [|done].
  destruct (ix <? n).
  - destruct (st_positions s !! (a, n)) as [la|]; cbn; [|done]. split; [|done].
    apply dk_positions; [done|done|]. intros b. by apply len_put.
  - cbn. split; [|done]. apply dk_positions; [done|done|]. intros b. by apply len_put.
Qed.
Lemma dk_update_ticks k : forall l s t, dk s t -> both dk (update_ticks s k l) (update_ticks t k l).
Proof.
  intros l. induction l as [|x l IH]; intros s t L; cbn [update_ticks]; [done|].
  eapply both_bind; [by apply dk_update_tick|]. auto.
Qed.
Lemma dk_remove_flip s t k x : dk s t ->
  both dk (remove_tick_and_flip_bitmap s k x) (remove_tick_and_flip_bitmap t k x).
Proof.
  intros L. unfold remove_tick_and_flip_bitmap. destruct (negb _); [done|].
  eapply both_bind; [by apply dk_flip|]. intros. by apply dk_remove_tick.
Qed.

Definition dk3 {A B} (p q : store * A * B) : Prop :=
  dk (fst (fst p)) (fst (fst q)) /\ snd (fst p) = snd (fst q) /\ snd p = snd q.

Lemma dk_swap_internal e i s t k d a b lim : dk s t ->
  both dk3 (swap_internal e i s k d a b lim) (swap_internal e i t k d a b lim).
Proof.
  intros L. unfold swap_internal. apply both_eq; [by apply dat_calc|]. intros r _.
  eapply both_bind; [by apply dk_update_ticks|]. intros s1 t1 L1. destruct d; (apply both_eq; [done|]); intros m _;
    (split_and!; [by apply dk_pool|done|done]).
Qed.
Lemma dk_route e i hops : forall s t a, dk s t ->
  both dk3 (swap_route_internal e i s a hops) (swap_route_internal e i t a hops).
Proof.
  induction hops as [|h hops IH]; intros s t a L; cbn [swap_route_internal]; [done|].
  eapply both_bind; [apply dk_swap_internal; exact L|].
  intros [[s1 m1] r1] [[t1 n1] q1] (L1 & E1 & E2). cbn in E1, E2. subst.
  eapply both_bind; [apply IH; exact L1|].
  intros [[s2 m2] r2] [[t2 n2] q2] (L2 & E1 & E2). cbn in E1, E2. subst. done.
Qed.
Lemma dk_create_position e i s t k l u q sl su : dk s t ->
  both dk3 (create_position e i s k l u q sl su) (create_position e i t k l u q sl su).
Proof.
  intros L. unfold create_position. destruct (q =? 0); [done|]. destruct (l =? u); [done|].
  apply both_eq; [by rewrite (dk_get_pool _ _ _ L)|]. intros p _.
  eapply both_bind; [by apply dk_get_or_create|]. intros [s1 x1] [t1 y1] (L1 & E1). cbn in E1. subst.
  eapply both_bind; [by apply dk_get_or_create|]. intros [s2 x2] [t2 y2] (L2 & E2). cbn in E2. subst.
  apply both_eq; [done|]. intros [[[[[po p'] lt] ut] x] y] _.
  eapply both_bind; [apply dk_add_position; by apply dk_pool|]. intros s3 t3 L3.
  eapply both_bind; [by apply dk_update_tick|]. intros s4 t4 L4.
  eapply both_bind; [by apply dk_update_tick|]. intros s5 t5 L5.
  apply both_eq; [done|]. intros m0 _. apply both_eq; [done|]. intros m1 _. done.
Qed.
Lemma dk_remove e i s t ix : dk s t ->
  both dk3 (remove_position_exec e i s ix) (remove_position_exec e i t ix).
Proof.
  intros L. unfold remove_position_exec. apply both_eq; [by apply dk_get_position|]. intros po EP.
  apply both_eq; [by apply dat_get_tick|]. intros lt _. apply both_eq; [by apply dat_get_tick|]. intros ut _.
  apply both_eq; [by apply dk_get_pool|]. intros p _. apply both_eq; [done|].
  intros [[[[[[[po' p'] lt'] ut'] x] y] dl] du] _.
  eapply (both_bind dk); [destruct dl; [apply dk_remove_flip|apply dk_update_tick]; try apply dk_pool; done|]. intros s1 t1 L1.
  eapply (both_bind dk); [destruct du; [apply dk_remove_flip|apply dk_update_tick]; done|]. intros s2 t2 L2.
  eapply both_bind; [by apply dk_remove_position|]. intros [s3 r3] [t3 q3] (L3 & E3). cbn in E3. subst. done.
Qed.
Lemma dk_by_key s t tid : dk s t ->
  get_position_by_key t tid = get_position_by_key s tid.
Proof.
  intros L. unfold get_position_by_key. destruct (split_token tid) as [[a ix]|] eqn:E; [|done].
  by apply dk_get_position.
Qed.
Lemma dk_can_send e i s t a po : dk s t -> check_can_send e i t a po = check_can_send e i s a po.
Proof. intros L. unfold check_can_send. by rewrite (sd_operators _ _ L). Qed.
Lemma dk_can_approve e i s t a : dk s t -> check_can_approve e i t a = check_can_approve e i s a.
Proof. intros L. unfold check_can_approve. by rewrite (sd_operators _ _ L). Qed.
Lemma dk_transfer_nft e i s t r tid : dk s t ->
  both dk (transfer_nft e i s r tid) (transfer_nft e i t r tid).
Proof.
  intros L. unfold transfer_nft. destruct (split_token tid) as [[a ix]|] eqn:E; [|done].
  destruct (negb _); [done|]. apply both_eq; [by apply dk_by_key|]. intros po _.
  apply both_eq; [by apply dk_can_send|]. intros _ _.
  eapply both_bind; [by apply dk_remove_position|]. intros [s1 p1] [t1 q1] (L1 & _).
  by apply dk_add_position.
Qed.
Lemma dk_approvals e i s t sp tid add x : dk s t ->
  both dk (update_approvals e i s sp tid add x) (update_approvals e i t sp tid add x).
Proof.
  intros L. unfold update_approvals. destruct (split_token tid) as [[a ix]|] eqn:E; [|done].
  apply both_eq; [by apply dk_by_key|]. intros po _.
  apply both_eq; [by apply dk_can_approve|]. intros _ _. apply both_eq; [done|]. intros l _.
  apply dk_positions; [done|by rewrite (sd_positions _ _ L)|apply (sd_len _ _ L)].
Qed.

Lemma dk_dispatch e i s t m : dk s t -> both dk3 (dispatch e i s m) (dispatch e i t m).
Proof.
  intros L. pose proof (sd_config _ _ L) as CF. destruct m; cbn [dispatch].
  - unfold change_admin. rewrite CF. destruct (negb _); [done|]. split_and!; [by apply dk_config|done|done].
  - unfold withdraw_protocol_fee. apply both_eq; [apply dk_get_pool; auto|]. intros p _. destruct (negb _); [done|].
    split_and!; [apply dk_pool; auto|done|done].
  - unfold change_protocol_fee. rewrite CF. destruct (negb _); [done|]. split_and!; [by apply dk_config|done|done].
  - unfold change_fee_receiver. rewrite CF. destruct (negb _); [done|].
    apply both_eq; [apply dk_get_pool; auto|]. intros p _. split_and!; [apply dk_pool; auto|done|done].
  - apply dk_create_position; auto.
  - unfold swap. eapply both_bind; [apply dk_swap_internal; auto|].
    intros [[s1 m1] r1] [[t1 n1] q1] (L1 & E1 & E2). cbn in E1, E2. subst. done.
  - unfold swap_route. eapply both_bind; [apply dk_route; exact L|].
    intros [[s1 m1] r1] [[t1 n1] q1] (L1 & E1 & E2). cbn in E1, E2. subst.
    apply both_eq; [done|]. intros mn _. destruct (_ <? _); done.
  - unfold transfer_position. apply both_eq; [apply dk_get_position; auto|]. intros po _.
    eapply both_bind; [apply dk_remove_position; auto|]. intros [s1 p1] [t1 q1] (L1 & _).
    destruct (negb _); [done|]. eapply both_bind; [apply dk_add_position; auto|]. intros s2 t2 L2. done.
  - unfold claim_fee. apply both_eq; [apply dk_get_position; auto|]. intros po EP.
    apply both_eq; [by apply dat_get_tick|]. intros lt _. apply both_eq; [by apply dat_get_tick|]. intros ut _.
    apply both_eq; [by apply dk_get_pool|]. intros p _. apply both_eq; [done|].
    intros [[[[[po' p'] ut'] lt'] x] y] _.
    eapply both_bind; [apply dk_update_position; auto|]. intros s1 t1 L1.
    eapply both_bind; [apply dk_update_tick; by apply dk_pool|]. intros s2 t2 L2.
    eapply both_bind; [by apply dk_update_tick|]. intros s3 t3 L3. done.
  - by apply dk_remove.
  - unfold create_pool. rewrite CF. destruct (negb _); [done|]. apply both_eq; [done|]. intros _ _.
    apply both_eq; [done|]. intros k EK. apply both_eq; [done|]. intros _ _.
    rewrite (sd_pools _ _ L). destruct (st_pools s !! k); [done|].
    apply both_eq; [done|]. intros p _. split_and!; [by apply dk_pool|done|done].
  - unfold add_fee_tier. rewrite CF. destruct (negb _); [done|]. destruct (_ || _); [done|]. destruct (_ <=? _); [done|].
    split_and!; [by apply dk_config|done|done].
  - unfold remove_fee_tier. rewrite CF. destruct (negb _); [done|]. destruct (remove_first _ _); [|done].
    split_and!; [by apply dk_config|done|done].
  - unfold handle_transfer_nft. eapply both_bind; [apply dk_transfer_nft; exact L|]. intros s1 t1 L1. done.
  - apply dk_create_position; auto.
  - unfold handle_burn. apply both_eq; [by apply dk_by_key|]. intros po _.
    destruct (split_token _) as [[a ix]|] eqn:E; [|done].
    apply both_eq; [by apply dk_can_send|]. intros _ _.
    by apply dk_remove.
  - unfold handle_send_nft. eapply both_bind; [apply dk_transfer_nft; exact L|]. intros s1 t1 L1. done.
  - unfold handle_approve. eapply both_bind; [apply dk_approvals; exact L|]. intros s1 t1 L1. done.
  - unfold handle_revoke. eapply both_bind; [apply dk_approvals; exact L|]. intros s1 t1 L1. done.
  - unfold handle_approve_all. destruct (is_expired _ _); [done|]. split_and!; [by apply (dk_operators _ _ (<[_ := _]>))|done|done].
  - unfold handle_revoke_all. split_and!; [by apply (dk_operators _ _ (delete _))|done|done].
Qed.

Lemma dk_execute e i s t m : dk s t -> both dk3 (execute e i s m) (execute e i t m).
Proof. intros L. unfold execute. destruct (env_typed e i && msg_typed m); [by apply dk_dispatch|done]. Qed.
Lemma dk_play zs : forall s t, dk s t -> fst (play zs t) = fst (play zs s) /\ dk (snd (play zs s)) (snd (play zs t)).
Proof.
  induction zs as [|[[e i] m] zs IH]; intros s t L; cbn [play]; [done|]. pose proof (dk_execute e i s t m L) as B.
  destruct (execute e i s m) as [[[s1 m1] a1]|x|], (execute e i t m) as [[[t1 n1] b1]|y|]; cbn in B; try done.
  - destruct B as (L1 & E1 & E2). cbn in L1, E1, E2. subst. destruct (IH s1 t1 L1) as [F G]. destruct (play zs s1), (play zs t1). cbn in *. by subst.
  - subst y. destruct (IH s t L) as [F G]. destruct (play zs s), (play zs t). cbn in *. by subst.
  - destruct (IH s t L) as [F G]. destruct (play zs s), (play zs t). cbn in *. by subst.
Qed.
Lemma dk_route_quote e hops : forall s t a, dk s t -> route e t a hops = route e s a hops.
Proof.
  induction hops as [|h hops IH]; intros s t a L; cbn; [done|]. rewrite (dat_calc _ _ _ _ _ _ _ _ _ L). apply bind_ext. intros r. by apply IH.
Qed.
Lemma dk_ticks_loop a s t : dk s t -> forall l acc, position_ticks_loop l t a acc = position_ticks_loop l s a acc.
Proof.
  intros L. induction l as [|x l IH]; intros acc; cbn [position_ticks_loop]; [done|]. rewrite (dk_get_position _ _ _ _ L).
  destruct (get_position s a x) as [po|y|]; [|by rewrite IH..]. by rewrite !(dat_get_tick _ _ _ _ L), IH.
Qed.
Lemma collect_ext {A B} (f g : A -> res B) l : (forall x, f x = g x) -> collect f l = collect g l.
Proof. intros E. induction l as [|x l IH]; cbn [collect]; [done|]. by rewrite E, IH. Qed.
Lemma dk_amount s t k lo up : dk s t -> query_liquidity_ticks_amount t k lo up = query_liquidity_ticks_amount s k lo up.
Proof.
  intros L. unfold query_liquidity_ticks_amount. destruct (_ =? 0); [done|]. destruct (_ || _); [done|]. destruct (_ || _); [done|].
  apply bind_ext. intros [c0 b0]. apply bind_ext. intros [c1 b1]. rewrite !(dat_chunk _ _ _ _ L). destruct (c1 =? c0); [done|].
  apply bind_ext. intros a0. apply bind_ext. intros a1. f_equal. generalize (a0 + a1) (seqZ (c0 + 1) (c1 - c0 - 1)). intros acc l. revert acc.
  induction l as [|x l IH]; intros acc; cbn [fold_left]; [done|]. rewrite IH. by rewrite (dat_chunk _ _ _ _ L).
Qed.
Lemma dk_query e s t q : dk s t -> query e t q = query e s q.
Proof.
  intros L. pose proof (sd_config _ _ L) as C. pose proof (sd_pools _ _ L) as P. pose proof (sd_positions _ _ L) as PO. pose proof (sd_operators _ _ L) as OP.
  destruct q; cbn [query].
  - unfold query_admin. by rewrite C.
  - unfold query_protocol_fee. by rewrite C.
  - by rewrite (dk_get_position _ _ _ _ L).
  - unfold query_positions, position_page. rewrite (dk_plen _ _ _ L). f_equal. apply bind_ext. intros l. apply collect_ext. intros x. by apply dk_get_position.
  - unfold query_fee_tier_exist. by rewrite C.
  - unfold query_pool. f_equal. apply bind_ext. intros k. by apply dk_get_pool.
  - unfold query_pools, raw_pools. by rewrite P.
  - by rewrite (dat_get_tick _ _ _ _ L).
  - unfold query_is_tick_initialized, get_bitmap. f_equal. apply bind_ext. intros [c b]. by rewrite (dat_chunk _ _ _ _ L).
  - unfold query_fee_tiers. by rewrite C.
  - unfold query_position_ticks. by rewrite (dk_plen _ _ _ L), (dk_ticks_loop _ _ _ L).
  - by rewrite (dk_plen _ _ _ L).
  - unfold query_tickmap, tickmap_slice, get_bitmap_item. by rewrite (sd_bitmap _ _ L).
  - unfold query_liquidity_ticks. destruct (_ <? _); [done|]. f_equal. apply collect_ext. intros x. by rewrite (dat_get_tick _ _ _ _ L).
  - by rewrite (dk_amount _ _ _ _ _ L).
  - unfold query_pools_for_pair, get_pool. by rewrite C, P.
  - unfold query_quote. by rewrite (dat_calc _ _ _ _ _ _ _ _ _ L).
  - unfold query_quote_route. by rewrite (dk_route_quote _ _ _ _ _ L).
  - unfold query_owner_of, get_position_by_key, get_position. by rewrite PO.
  - unfold query_all_approvals. by rewrite OP.
  - unfold query_nft_info, get_position_by_key, get_position. by rewrite PO.
  - unfold query_all_nft_info, query_owner_of, get_position_by_key, get_position. by rewrite PO.
  - unfold query_tokens, position_page. by rewrite (dk_plen _ _ _ L).
  - unfold query_all_tokens. by rewrite PO.
Qed.

(** So there are no secrets: whoever has asked everything knows how every later history of calls would go, and what could be quoted and asked after it. *)
Theorem C118_no_secrets e s t zs : reachable s -> reachable t -> same_answers e s t ->
  fst (play zs t) = fst (play zs s) /\ forall e' q, query e' (snd (play zs t)) q = query e' (snd (play zs s)) q.
Proof.
  intros R R' H. destruct (dk_play zs s t (C118_reveals e s t R R' H)) as [A B]. split; [exact A|]. intros e' q. by apply dk_query.
Qed.

(** *** Example: two histories after which everything is answered alike *)
Definition te_short : list (string * exec_msg) := [("alice", AddFeeTier v_tier)]%string.
Definition te_long : list (string * exec_msg) := [("alice", AddFeeTier (mkFeeTier 10000000000 100)); ("alice", AddFeeTier v_tier); ("alice", ChangeProtocolFee 5); ("alice", RemoveFeeTier (mkFeeTier 10000000000 100)); ("alice", ChangeProtocolFee 0)]%string.
Definition te_of (l : list (string * exec_msg)) : store := match start 0 l with Ok s => s | _ => mkStore (mkConfig "" [] 0) ∅ ∅ ∅ ∅ ∅ ∅ end.
Lemma te_reachable l : is_ok (start 0 l) = true -> reachable (te_of l).
Proof. unfold te_of. destruct (start 0 l) as [s|x|] eqn:E; [intros _; eapply start_reachable, E|discriminate..]. Qed.
Example ex_C118 : reachable (te_of te_short) /\ reachable (te_of te_long) /\ same_answers v_env (te_of te_short) (te_of te_long) /\
  query v_env (te_of te_short) QFeeTiers = Ok (ATiers [v_tier]).
Proof.
  split; [apply te_reachable; vm_compute; reflexivity|]. split; [apply te_reachable; vm_compute; reflexivity|]. split; [|vm_compute; reflexivity].
  assert (E : te_of te_long = te_of te_short) by (vm_compute; reflexivity). intros q _ _. by rewrite E.
Qed.
