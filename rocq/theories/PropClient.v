(** C88: a client with nothing but the queries and the SDK's own helpers rebuilds a pool of any size and
    gets from the SDK's simulation the swap the contract quotes. *)
From Verif Require Import Base Decimal SqrtPrice Clamm Log FeeGrowth Types Tick Pool Position Tickmap State Swap Exec Query Tactics
  PriceProofs LogProofs ClammProofs PropClamm BitmapProofs Frame Handlers History Basic Ledger Scenario Vectors SwapInv SwapGeo SwapLoop Modify PSum LiqInv Geo Ops Clean PropLiq PropTrade
  PropSwap PropQuery Growth Value Fund Flow PropSolv Forward PropExit PropFunds Sdk PropSdk PropSdkLiq PropTicks.
From stdpp Require Import gmap strings.
From Coq Require Import Lia Sorted.
Open Scope Z_scope.

(** * The client
    wasm/consts.rs:69-73 [getMaxTickmapQuerySize], 75-79 [getLiquidityTicksLimit]: the sizes of a full
    answer, computed there as in the contract. *)
Definition FULL : Z := 1638.
Definition TICK_LIMIT : Z := 780.

(** reads the tickmap between two ticks, page by page: after a full page it goes on at the first tick of
    the chunk after the last one returned (the last tick of the chunk before it, downwards) *)
Fixpoint read_tickmap (n : nat) (s : store) (k : pool_key) (lower upper : Z) (down : bool) : res (list (Z * Z)) :=
  match n with
  | O => Err OutOfGas
  | S n =>
      let sp := ft_spacing (pk_tier k) in
      let* l := query_tickmap s k lower upper down in
      if Z.of_nat (length l) <? FULL then Ok l
      else match last l with
           | None => Ok l
           | Some (c, _) =>
               if down then
                 if c =? 0 then Ok l
                 else let* t := position_to_tick (c - 1) 63 sp in
                      if t <? lower then Ok l
                      else let* r := read_tickmap n s k lower t down in Ok (l ++ r)
               else
                 let* t := position_to_tick (c + 1) 0 sp in
                 if upper <? t then Ok l
                 else let* r := read_tickmap n s k t upper down in Ok (l ++ r)
           end
  end.

(** the ticks of a tickmap: every bit that is set, through [position_to_tick] *)
Definition bits : list Z := seqZ 0 64.
Definition expand (sp : Z) (l : list (Z * Z)) : list Z :=
  List.concat (map (fun cv => omap (fun b => if Z.testbit (snd cv) b
                                             then match position_to_tick (fst cv) b sp with Ok t => Some t | _ => None end
                                             else None) bits) l).

(** their liquidity, in pages of [TICK_LIMIT] *)
Fixpoint read_ticks (n : nat) (s : store) (k : pool_key) (l : list Z) : res (list liquidity_tick) :=
  match n, l with
  | _, [] => Ok []
  | O, _ => Err OutOfGas
  | S n, _ =>
      let* a := query_liquidity_ticks s k (take (Z.to_nat TICK_LIMIT) l) in
      let* r := read_ticks n s k (drop (Z.to_nat TICK_LIMIT) l) in
      Ok (a ++ r)
  end.

(** the whole pool: at most five pages of tickmap, one page per 780 ticks *)
Definition read_pool (s : store) (k : pool_key) (down : bool) : res (pool * tickmap * list liquidity_tick) :=
  let sp := ft_spacing (pk_tier k) in
  let* p := get_pool s k in
  let* ch := read_tickmap 5 s k (get_min_tick sp) (get_max_tick sp) down in
  let idx := expand sp ch in
  let* ts := read_ticks (length idx) s k idx in
  Ok (p, list_to_map ch, ts).

(** * Chunks and ticks *)
Definition chunk_of (sp t : Z) : Z := (t + 221818) / sp / 64.

Lemma chunk_bit sp t : 1 <= sp <= 100 -> legal_tick sp t -> chunk_of sp t = bit_index sp t / 64.
Proof.
  intros S L. unfold chunk_of. f_equal. pose proof (legal_mult sp t ltac:(lia) L) as Et. unfold bit_index. rewrite Et at 1.
  change MAX_TICK with 221818. rewrite Z.add_comm, Z.div_add by lia. lia.
Qed.

(** the tick at any place of the bitmap inside the grid *)
Lemma place sp c b : 1 <= sp <= 100 -> 0 <= c <= 10000 -> 0 <= b < 64 ->
  position_to_tick c b sp = Ok ((64 * c + b - 221818 / sp) * sp).
Proof.
  intros S C B. unfold position_to_tick. rewrite (proj2 (Z.eqb_neq sp 0)) by lia. cbv zeta. change MAX_TICK with 221818.
  assert (MX : 221818 - Z.rem 221818 sp = 221818 / sp * sp).
  { rewrite Z.rem_mod_nonneg by lia. pose proof (Z.div_mod 221818 sp ltac:(lia)). lia. }
  rewrite MX. unfold CHUNK_SIZE.
  assert (IR : forall v, -2147483648 <= v <= 2147483647 -> in_range (-2147483648) 2147483647 v = true) by (intros; by apply in_range_spec).
  assert (T0 : 0 <= 221818 / sp) by (apply Z.div_pos; lia). pose proof (Z.mul_div_le 221818 sp ltac:(lia)) as T1.
  assert (0 <= b * sp <= 6300) by nia. assert (0 <= c * 64 * sp <= 64000000) by nia. assert (0 <= 221818 / sp * sp) by nia.
  rewrite IR by lia. cbn [bind]. rewrite IR by lia. cbn [bind]. rewrite IR by lia. cbn [bind]. rewrite IR by lia. cbn [bind].
  rewrite IR by lia. f_equal. lia.
Qed.

Lemma place_legal sp c b : 1 <= sp <= 100 -> 0 <= b < 64 ->
  let t := (64 * c + b - 221818 / sp) * sp in -221818 <= t <= 221818 ->
  t mod sp = 0 /\ chunk_of sp t = c.
Proof.
  intros S B t T. assert (M : t mod sp = 0) by (apply Z.mod_mul; lia). split; [exact M|].
  rewrite chunk_bit; [|done|]. 2: { split; [change MAX_TICK with 221818; lia|done]. }
  unfold bit_index, t. rewrite Z.div_mul by lia. change MAX_TICK with 221818.
  replace (64 * c + b - 221818 / sp + 221818 / sp) with (b + c * 64) by lia. rewrite Z.div_add, Z.div_small by lia. lia.
Qed.

(** a strictly sorted list of whole numbers is no longer than its span *)
Lemma sorted_span (l : list Z) a : StronglySorted Z.lt l -> (forall x, x ∈ l -> a <= x) ->
  forall z, last l = Some z -> a + Z.of_nat (length l) <= z + 1 /\ forall x, x ∈ l -> x <= z.
Proof.
  intros S. revert a. induction S as [|y l S IH F]; intros a H z L; [discriminate|].
  destruct l as [|y' l]; cbn [last] in L.
  - injection L as <-. cbn. pose proof (H y ltac:(set_solver)). split; [lia|]. intros x X. apply elem_of_list_singleton in X. lia.
  - rewrite Forall_forall in F. destruct (IH (y + 1)) with (z := z) as [I1 I2].
    + intros x X. apply elem_of_list_In in X. specialize (F _ ltac:(by apply elem_of_list_In)). lia.
    + exact L.
    + pose proof (H y ltac:(set_solver)). split; [cbn [length] in *; lia|]. intros x X. apply elem_of_cons in X as [->|X]; [|by apply I2].
      specialize (F y' ltac:(set_solver)). specialize (I2 y' ltac:(set_solver)). lia.
Qed.

Lemma sorted_opp (l : list Z) : StronglySorted (fun a b => b < a) l -> StronglySorted Z.lt (map Z.opp l).
Proof. induction 1 as [|y l S IH F]; cbn; constructor; [done|]. apply Forall_map. eapply Forall_impl; [exact F|]. cbn. intros; lia. Qed.

Lemma sorted_down (l : list Z) b : StronglySorted (fun a b => b < a) l -> (forall x, x ∈ l -> x <= b) ->
  forall z, last l = Some z -> z - 1 + Z.of_nat (length l) <= b /\ forall x, x ∈ l -> z <= x.
Proof.
  intros S H z L. destruct (sorted_span (map Z.opp l) (- b) (sorted_opp _ S)) with (z := - z) as [A B].
  - intros x X. apply elem_of_list_fmap in X as (y & -> & Y). specialize (H _ Y). lia.
  - change (map Z.opp l) with (Z.opp <$> l). rewrite fmap_last, L. done.
  - rewrite map_length in A. split; [lia|]. intros x X. specialize (B (- x) ltac:(apply elem_of_list_fmap; eauto)). lia.
Qed.

Lemma sorted_app_intro {A} (R : A -> A -> Prop) l1 l2 : StronglySorted R l1 -> StronglySorted R l2 ->
  (forall a b, a ∈ l1 -> b ∈ l2 -> R a b) -> StronglySorted R (l1 ++ l2).
Proof.
  intros S1 S2 H. induction S1 as [|a l S IH F]; [done|]. cbn. constructor.
  - apply IH. intros x y X Y. apply H; [by right|done].
  - apply Forall_app. split; [done|]. apply Forall_forall. intros x X. apply H; [left|exact X].
Qed.

Lemma chunk_mono sp a b : 1 <= sp -> a <= b -> chunk_of sp a <= chunk_of sp b.
Proof. intros. unfold chunk_of. apply Z.div_le_mono; [lia|]. apply Z.div_le_mono; lia. Qed.

(** * C88: reading the tickmap in pages, in either direction, gives every chunk once *)
Theorem C88_tickmap_pages s k p (d : bool) : reachable s -> st_pools s !! k = Some p ->
  let sp := ft_spacing (pk_tier k) in let chunk t := (t + 221818) / sp / 64 in
  forall n lower upper, (0 < n)%nat ->
  -221818 <= lower <= 221818 -> -221818 <= upper <= 221818 -> lower mod sp = 0 -> upper mod sp = 0 ->
  chunk upper - chunk lower + 1 <= 1638 * Z.of_nat n ->
  exists l, read_tickmap n s k lower upper d = Ok l /\
    StronglySorted (fun a b => if d then b < a else a < b) (map fst l) /\
    (forall c v, (c, v) ∈ l -> chunk lower <= c <= chunk upper /\ st_bitmap s !! (k, c) = Some v) /\
    (forall t, get_bitmap s t sp k = Ok true -> chunk lower <= chunk t <= chunk upper -> exists v, (chunk t, v) ∈ l).
Proof.
  intros RE E sp chunk. pose proof (reachable_ereach _ RE) as R. destruct (sg_sp _ _ (ereach_store_geo _ _ _ R E)) as [S1 S2]. change (spacing k) with sp in S1, S2.
  change chunk with (chunk_of sp). clear chunk.
  induction n as [|n IH]; intros lower upper N Hl Hu Ml Mu SZ; [lia|]. clear N.
  destruct (C41_tickmap_exact s k p lower upper d RE E Hl Hu Ml Mu) as (l & Q & LEN & SS & IN & CO). fold sp in IN, CO.
  change ((lower + 221818) / sp / 64) with (chunk_of sp lower) in *. change ((upper + 221818) / sp / 64) with (chunk_of sp upper) in *.
  cbn [read_tickmap]. fold sp. rewrite Q. cbn [bind].
  assert (IN' : forall c v, (c, v) ∈ l -> chunk_of sp lower <= c <= chunk_of sp upper /\ st_bitmap s !! (k, c) = Some v).
  { intros c v X. destruct (IN c v X) as (A & B & _). done. }
  (* the page is the end when nothing lies beyond it *)
  assert (STOP : (forall t, get_bitmap s t sp k = Ok true -> chunk_of sp lower <= chunk_of sp t <= chunk_of sp upper ->
      ~ (Z.of_nat (length l) = 1638 /\ forall c v, (c, v) ∈ l -> if d then chunk_of sp t < c else c < chunk_of sp t)) ->
    exists l', Ok l = Ok l' /\ StronglySorted (fun a b => if d then b < a else a < b) (map fst l') /\
    (forall c v, (c, v) ∈ l' -> chunk_of sp lower <= c <= chunk_of sp upper /\ st_bitmap s !! (k, c) = Some v) /\
    (forall t, get_bitmap s t sp k = Ok true -> chunk_of sp lower <= chunk_of sp t <= chunk_of sp upper -> exists v, (chunk_of sp t, v) ∈ l')).
  { intros X. exists l. split; [done|]. split; [done|]. split; [done|]. intros t T C. destruct (CO t T C) as [V|V]; [exact V|]. by destruct (X t T C). }
  destruct (Z.ltb_spec (Z.of_nat (length l)) FULL) as [SH|SH]; [apply STOP; unfold FULL in SH; intros; lia|]. unfold FULL in SH.
  assert (LEN' : Z.of_nat (length l) = 1638) by lia. clear SH LEN.
  destruct (last l) as [[c v]|] eqn:LA; [|apply last_None in LA; subst l; discriminate LEN'].
  assert (CI : (c, v) ∈ l) by (by apply last_Some_elem_of). destruct (IN' _ _ CI) as [CR _].
  assert (LF : last (map fst l) = Some c) by (change (map fst l) with (fst <$> l); rewrite fmap_last, LA; done).
  assert (CL0 : 0 <= chunk_of sp lower) by (apply Z.div_pos; [apply Z.div_pos|]; lia).
  assert (CU0 : chunk_of sp upper <= 6931).
  { unfold chunk_of. apply Z.lt_succ_r. apply Z.div_lt_upper_bound; [lia|]. apply Z.div_lt_upper_bound; [lia|]. nia. }
  assert (T0 : 0 <= 221818 / sp) by (apply Z.div_pos; lia). pose proof (Z.mul_div_le 221818 sp ltac:(lia)) as T1.
  destruct d.
  - destruct (sorted_down (map fst l) (chunk_of sp upper) SS) with (z := c) as [SP LB]; [|done|].
    { intros x X. apply elem_of_list_fmap in X as ((c' & v') & -> & X). apply IN' in X as [X _]. cbn. lia. }
    rewrite map_length, LEN' in SP.
    destruct (Z.eqb_spec c 0) as [->|NZ].
    + apply STOP. intros t T C (_ & X). specialize (X _ _ CI). cbn in X. lia.
    + rewrite place by lia. cbn [bind]. set (t := (64 * (c - 1) + 63 - 221818 / sp) * sp).
      destruct (Z.ltb_spec t lower) as [LT|GE].
      * apply STOP. intros u U C (_ & X). specialize (X _ _ CI). cbn in X.
        pose proof (is_init_legal s k sp u ltac:(lia) U) as LU. rewrite (chunk_bit sp u) in X, C by (try lia; done).
        assert (LL : legal_tick sp lower) by (split; [change MAX_TICK with 221818; lia|done]). rewrite (chunk_bit _ lower) in C by (try lia; done).
        pose proof (legal_mult sp lower ltac:(lia) LL) as EL. unfold bit_index in C, X. change MAX_TICK with 221818 in C, X.
        pose proof (Z.div_mod (lower / sp + 221818 / sp) 64 ltac:(lia)). pose proof (Z.mod_pos_bound (lower / sp + 221818 / sp) 64 ltac:(lia)).
        assert (lower / sp <= 64 * (c - 1) + 63 - 221818 / sp) by lia. unfold t in LT. nia.
      * assert (TU : t <= upper).
        { assert (LU : legal_tick sp upper) by (split; [change MAX_TICK with 221818; lia|done]).
          pose proof (legal_mult sp upper ltac:(lia) LU) as EU. rewrite (chunk_bit _ upper) in CR by (try lia; done). unfold bit_index in CR. change MAX_TICK with 221818 in CR.
          pose proof (Z.div_mod (upper / sp + 221818 / sp) 64 ltac:(lia)). pose proof (Z.mod_pos_bound (upper / sp + 221818 / sp) 64 ltac:(lia)).
          assert (64 * (c - 1) + 63 - 221818 / sp <= upper / sp) by lia. unfold t. nia. }
        destruct (place_legal sp (c - 1) 63 ltac:(lia) ltac:(lia)) as [MT CT]; [fold t; lia|]. fold t in MT, CT.
        pose proof (chunk_mono sp lower t ltac:(lia) GE) as CM.
        destruct (IH lower t) as (r & ER & RS & RI & RC); try assumption; try lia.
        rewrite ER. cbn [bind]. exists (l ++ r). split; [done|]. split; [|split].
        -- rewrite map_app. apply sorted_app_intro; [done..|]. intros a b A B.
           apply elem_of_list_fmap in B as ((c' & v') & -> & B). apply RI in B as [B _]. cbn. specialize (LB _ A). lia.
        -- intros c' v' X. apply elem_of_app in X as [X|X]; [by apply IN'|]. apply RI in X as [X1 X2]. split; [lia|done].
        -- intros u U C. destruct (Z.ltb_spec (chunk_of sp u) c) as [LT|GE'].
           ++ destruct (RC u U ltac:(lia)) as [w W]. exists w. apply elem_of_app. by right.
           ++ destruct (CO u U C) as [[w W]|(_ & X)]; [exists w; apply elem_of_app; by left|]. specialize (X _ _ CI). cbn in X. unfold chunk_of in GE'. lia.
  - destruct (sorted_span (map fst l) (chunk_of sp lower) SS) with (z := c) as [SP LB]; [|done|].
    { intros x X. apply elem_of_list_fmap in X as ((c' & v') & -> & X). apply IN' in X as [X _]. cbn. lia. }
    rewrite map_length, LEN' in SP.
    rewrite place by lia. cbn [bind]. set (t := (64 * (c + 1) + 0 - 221818 / sp) * sp).
    destruct (Z.ltb_spec upper t) as [LT|GE].
    + apply STOP. intros u U C (_ & X). specialize (X _ _ CI). cbn in X.
      pose proof (is_init_legal s k sp u ltac:(lia) U) as LU. rewrite (chunk_bit sp u) in X, C by (try lia; done).
      assert (LL : legal_tick sp upper) by (split; [change MAX_TICK with 221818; lia|done]). rewrite (chunk_bit _ upper) in C by (try lia; done).
      pose proof (legal_mult sp upper ltac:(lia) LL) as EL. unfold bit_index in C, X. change MAX_TICK with 221818 in C, X.
      pose proof (Z.div_mod (upper / sp + 221818 / sp) 64 ltac:(lia)). pose proof (Z.mod_pos_bound (upper / sp + 221818 / sp) 64 ltac:(lia)).
      assert (64 * (c + 1) + 0 - 221818 / sp <= upper / sp) by lia. unfold t in LT. nia.
    + assert (TL : lower <= t).
      { assert (LL : legal_tick sp lower) by (split; [change MAX_TICK with 221818; lia|done]).
        pose proof (legal_mult sp lower ltac:(lia) LL) as EU. rewrite (chunk_bit _ lower) in CR by (try lia; done). unfold bit_index in CR. change MAX_TICK with 221818 in CR.
        pose proof (Z.div_mod (lower / sp + 221818 / sp) 64 ltac:(lia)). pose proof (Z.mod_pos_bound (lower / sp + 221818 / sp) 64 ltac:(lia)).
        assert (lower / sp <= 64 * (c + 1) + 0 - 221818 / sp) by lia. unfold t. nia. }
      destruct (place_legal sp (c + 1) 0 ltac:(lia) ltac:(lia)) as [MT CT]; [fold t; lia|]. fold t in MT, CT.
      pose proof (chunk_mono sp t upper ltac:(lia) GE) as CM.
      destruct (IH t upper) as (r & ER & RS & RI & RC); try assumption; try lia.
      rewrite ER. cbn [bind]. exists (l ++ r). split; [done|]. split; [|split].
      * rewrite map_app. apply sorted_app_intro; [done..|]. intros a b A B.
        apply elem_of_list_fmap in B as ((c' & v') & -> & B). apply RI in B as [B _]. cbn. specialize (LB _ A). lia.
      * intros c' v' X. apply elem_of_app in X as [X|X]; [by apply IN'|]. apply RI in X as [X1 X2]. split; [lia|done].
      * intros u U C. destruct (Z.ltb_spec c (chunk_of sp u)) as [LT|GE'].
        -- destruct (RC u U ltac:(lia)) as [w W]. exists w. apply elem_of_app. by right.
        -- destruct (CO u U C) as [[w W]|(_ & X)]; [exists w; apply elem_of_app; by left|]. specialize (X _ _ CI). cbn in X. unfold chunk_of in GE'. lia.
Qed.

(** * The ticks of the pages *)
Lemma expand_in sp l t : t ∈ expand sp l <-> exists c v b, (c, v) ∈ l /\ 0 <= b < 64 /\ Z.testbit v b = true /\ position_to_tick c b sp = Ok t.
Proof.
  unfold expand, bits. rewrite elem_of_list_In, in_concat. setoid_rewrite in_map_iff. setoid_rewrite <- elem_of_list_In. split.
  - intros (x & ([c v] & <- & L) & X). apply elem_of_list_omap in X as (b & B & P). apply elem_of_seqZ in B. cbn [fst snd] in P. exists c, v, b.
    destruct (Z.testbit v b); [|discriminate]. destruct (position_to_tick c b sp); try discriminate. injection P as ->. split; [done|]. split; [lia|done].
  - intros (c & v & b & L & B & T & P). eexists. split; [exists (c, v); split; [reflexivity|exact L]|].
    apply elem_of_list_omap. exists b. split; [apply elem_of_seqZ; lia|]. cbn [fst snd]. by rewrite T, P.
Qed.

Lemma expand_nodup sp l : 1 <= sp <= 100 -> (forall c v, (c, v) ∈ l -> 0 <= c <= 10000) -> NoDup (map fst l) -> NoDup (expand sp l).
Proof.
  intros S. induction l as [|[c v] l IH]; intros R N; [constructor|]. cbn in N. apply NoDup_cons in N as [N1 N2].
  change (expand sp ((c, v) :: l)) with (omap (fun b => if Z.testbit v b then match position_to_tick c b sp with Ok t => Some t | _ => None end else None) bits ++ expand sp l).
  assert (RC : 0 <= c <= 10000) by (apply (R c v); left). assert (RL : forall c v, (c, v) ∈ l -> 0 <= c <= 10000) by (intros; eapply R; right; eauto).
  assert (PL : forall b t, b ∈ bits -> (if Z.testbit v b then match position_to_tick c b sp with Ok t => Some t | _ => None end else None) = Some t ->
    0 <= b < 64 /\ t = (64 * c + b - 221818 / sp) * sp).
  { intros b t B X. apply elem_of_seqZ in B. destruct (Z.testbit v b); [|discriminate]. rewrite place in X by lia. injection X as <-. split; [lia|done]. }
  apply NoDup_app. split; [|split].
  - assert (NB : NoDup bits) by apply NoDup_seqZ. revert PL NB. generalize bits. intros bs PL NB.
    induction NB as [|b bs NI NB IHb]; [constructor|]. cbn [omap list_omap].
    destruct (if Z.testbit v b then _ else _) as [t|] eqn:X; [|apply IHb; intros; eapply PL; [right|]; eauto].
    constructor; [|apply IHb; intros; eapply PL; [right|]; eauto]. intros Y. change (t ∈ omap (fun b => if Z.testbit v b then match position_to_tick c b sp with Ok t => Some t | _ => None end else None) bs) in Y.
    apply elem_of_list_omap in Y as (b' & B' & Y). destruct (PL b t ltac:(left) X) as [_ P1]. destruct (PL b' t ltac:(right; exact B') Y) as [_ P2].
    assert (b = b') by nia. by subst.
  - intros t T1 T2. apply elem_of_list_omap in T1 as (b & B & X). destruct (PL _ _ B X) as [B1 P1].
    apply expand_in in T2 as (c' & v' & b' & L & B2 & _ & P2). rewrite place in P2 by (try lia; eapply RL; eauto). apply Ok_inj in P2.
    assert (c = c') by nia. subst c'. apply N1. apply elem_of_list_fmap. exists (c, v'). done.
  - by apply IH.
Qed.

Lemma read_ticks_ok s k : reachable s -> forall n l, (length l <= n)%nat -> (forall i, i ∈ l -> is_Some (st_ticks s !! (k, i))) ->
  exists ts, read_ticks n s k l = Ok ts /\ Forall2 (fun i u => exists t, st_ticks s !! (k, i) = Some t /\ u = to_liquidity_tick t) l ts.
Proof.
  intros R. assert (NX : exists m, Z.to_nat TICK_LIMIT = S m /\ Z.of_nat (S m) = 780) by (exists (Nat.pred (Z.to_nat 780)); split; reflexivity).
  destruct NX as (m & N1 & N2). pose proof (ereach_indexed _ (reachable_ereach _ R)) as IX.
  induction n as [|n IH]; intros l L A.
  - destruct l; [|cbn in L; lia]. exists []. split; [done|constructor].
  - destruct l as [|a l]; [exists []; split; [done|constructor]|].
    assert (RW : forall l', read_ticks (S n) s k (a :: l') = let* x := query_liquidity_ticks s k (take (Z.to_nat TICK_LIMIT) (a :: l')) in
      let* r := read_ticks n s k (drop (Z.to_nat TICK_LIMIT) (a :: l')) in Ok (x ++ r)) by reflexivity.
    rewrite RW, N1. clear RW. set (w := a :: l) in *.
    destruct (proj2 (C78_liquidity_ticks s k (take (S m) w) R)) as [Q _]; [rewrite take_length; lia|].
    destruct Q as (x & EX & FX). { intros i I. apply A. apply elem_of_take in I as (j & J & _). eapply elem_of_list_lookup_2; eauto. }
    destruct (IH (drop (S m) w)) as (r & ER & FR). { rewrite drop_length. unfold w in *. cbn in L |- *. lia. }
    { intros i I. apply A. rewrite <- (take_drop (S m) w). apply elem_of_app. by right. }
    rewrite EX. cbn [bind]. rewrite ER. cbn [bind]. exists (x ++ r). split; [done|]. rewrite <- (take_drop (S m) w) at 1. apply Forall2_app; [|done].
    eapply Forall2_impl; [exact FX|]. cbn. intros i u (t & T & U1 & U2 & U3). exists t. split; [done|]. destruct u; cbn in *. unfold to_liquidity_tick.
    rewrite (IX _ _ _ T). congruence.
Qed.

(** * The whole pool *)
Theorem C88_read_pool s k p d : reachable s -> st_pools s !! k = Some p ->
  exists m ts, read_pool s k d = Ok (p, m, ts) /\
    (forall c, default 0 (m !! c) = default 0 (st_bitmap s !! (k, c))) /\
    (forall i, List.find (fun u => lt_index u =? i) ts = option_map (fun t => mkLTick (t_index t) (t_change t) (t_sign t)) (st_ticks s !! (k, i))) /\
    NoDup (map lt_index ts) /\
    (forall i, i ∈ map lt_index ts <-> is_Some (st_ticks s !! (k, i))).
Proof.
  intros RE E. pose proof (reachable_ereach _ RE) as R. set (sp := ft_spacing (pk_tier k)).
  destruct (sg_sp _ _ (ereach_store_geo _ _ _ R E)) as [S1 S2]. change (spacing k) with sp in S1, S2.
  pose proof (ereach_liq _ R) as LI. pose proof (ereach_indexed _ R) as IX.
  unfold read_pool. fold sp. unfold get_pool. rewrite E. cbn [bind].
  rewrite get_min_top, get_max_top by lia. pose proof (top_legal _ S1) as [TL TM]. change MAX_TICK with 221818 in TL.
  assert (TOP : SwapGeo.top sp = 221818 / sp * sp) by reflexivity.
  assert (T0 : 0 <= 221818 / sp) by (apply Z.div_pos; lia). pose proof (Z.mul_div_le 221818 sp ltac:(lia)) as T1.
  set (tp := SwapGeo.top sp) in *.
  assert (LT : legal_tick sp tp) by (split; [change MAX_TICK with 221818; lia|done]).
  assert (LB : legal_tick sp (- tp)) by (split; [change MAX_TICK with 221818; lia|apply Z_mod_zero_opp_full; exact TM]).
  assert (CB : chunk_of sp (- tp) = 0).
  { rewrite chunk_bit by (try lia; done). unfold bit_index. rewrite TOP. change MAX_TICK with 221818. rewrite <- Z.mul_opp_l, Z.div_mul by lia.
    replace (- (221818 / sp) + 221818 / sp) with 0 by lia. reflexivity. }
  assert (CT : chunk_of sp tp <= 6931).
  { unfold chunk_of. apply Z.lt_succ_r. apply Z.div_lt_upper_bound; [lia|]. apply Z.div_lt_upper_bound; [lia|]. nia. }
  destruct (C88_tickmap_pages s k p d RE E 5 (- tp) tp) as (ch & EC & SS & IN & CO); fold sp; try lia; try apply LT; try apply LB.
  { change (chunk_of sp tp - chunk_of sp (- tp) + 1 <= 1638 * Z.of_nat 5). lia. }
  fold sp in IN, CO. rewrite EC. cbn [bind].
  change ((- tp + 221818) / sp / 64) with (chunk_of sp (- tp)) in *. change ((tp + 221818) / sp / 64) with (chunk_of sp tp) in *.
  assert (CO' : forall t, get_bitmap s t sp k = Ok true -> exists v, (chunk_of sp t, v) ∈ ch).
  { intros t T. apply CO; [exact T|]. pose proof (is_init_legal s k sp t S1 T) as Lt. pose proof (legal_top _ _ S1 Lt) as X. fold tp in X.
    change ((t + 221818) / sp / 64) with (chunk_of sp t). split; apply chunk_mono; lia. }
  assert (ND : NoDup (map fst ch)).
  { clear - SS. induction SS as [|a l S IH F]; constructor; [|done]. intros X. rewrite Forall_forall in F. specialize (F _ X). destruct d; lia. }
  assert (MP : forall c, default 0 ((list_to_map ch : gmap Z Z) !! c) = default 0 (st_bitmap s !! (k, c))).
  { intros c. destruct ((list_to_map ch : gmap Z Z) !! c) as [v|] eqn:X.
    - apply elem_of_list_to_map_2 in X. by destruct (IN _ _ X) as (_ & ->).
    - apply not_elem_of_list_to_map_2 in X. cbn [default]. destruct (st_bitmap s !! (k, c)) as [v|] eqn:EB; [cbn [default from_option]|done].
      pose proof (ereach_chunks _ R _ _ EB) as VR. destruct (Z.eq_dec v 0) as [->|NZ]; [done|exfalso].
      set (j := Z.log2 v). assert (J : 0 <= j < 64) by (split; [apply Z.log2_nonneg|apply Z.log2_lt_pow2; lia]).
      assert (TB : Z.testbit v j = true) by (apply Z.bit_log2; lia).
      assert (DV : (64 * c + j) / 64 = c) by (rewrite Z.mul_comm, Z.div_add_l by lia; rewrite Z.div_small by lia; lia).
      assert (MD : (64 * c + j) mod 64 = j) by (rewrite Z.add_comm, Z.mul_comm, Z.mod_add by lia; apply Z.mod_small; lia).
      destruct (ereach_legal _ R k (64 * c + j)) as (t & Lt & Bt). { rewrite DV, MD, EB. exact TB. }
      change (spacing k) with sp in Lt, Bt.
      assert (IT : get_bitmap s t sp k = Ok true).
      { rewrite get_bitmap_ok by done. f_equal. unfold bit_set, bitmap_chunk. rewrite <- Bt, DV, MD, EB. exact TB. }
      destruct (CO' t IT) as [v' X']. rewrite chunk_bit, <- Bt, DV in X' by (try lia; done). apply X. apply elem_of_list_fmap. exists (c, v'). done. }
  assert (EX : forall t, t ∈ expand sp ch <-> is_Some (st_ticks s !! (k, t))).
  { intros t. rewrite (C50_expand s k p t RE E), expand_in. fold sp. split.
    - intros (c & v & b & L & B & TB & P). apply IN in L as [_ L]. eauto 10.
    - intros (c & v & b & L & B & TB & P). exists c, v, b. split; [|done]. specialize (MP c). rewrite L in MP. cbn [default from_option] in MP.
      destruct ((list_to_map ch : gmap Z Z) !! c) as [w|] eqn:X; [change (w = v) in MP; rewrite MP in X; by apply elem_of_list_to_map_2 in X|].
      change (0 = v) in MP. rewrite <- MP, Z.bits_0 in TB. discriminate TB. }
  destruct (read_ticks_ok s k RE (length (expand sp ch)) (expand sp ch) ltac:(lia)) as (ts & ET & FT). { intros i I. by apply EX. }
  rewrite ET. cbn [bind]. exists (list_to_map ch), ts. split; [done|]. split; [exact MP|].
  assert (IDX : map lt_index ts = expand sp ch).
  { revert FT. generalize (expand sp ch). clear - IX. intros ids FT. induction FT as [|i u ids us (t & T & ->) F IH]; [done|]. cbn. rewrite (IX _ _ _ T). by f_equal. }
  split; [|split].
  - apply (find_pages s k (expand sp ch)); [intros i t T; apply (IX _ _ _ T)|intros i I; by apply EX|exact FT].
  - rewrite IDX. apply expand_nodup; [lia| |done]. intros c v L. apply IN in L as [L _]. rewrite CB in L. lia.
  - intros i. rewrite IDX. apply EX.
Qed.

(** * The SDK's simulation over what was read is the contract's quote *)
Theorem C88_simulation e s k p d dir a b lim q : reachable s -> st_pools s !! k = Some p ->
  query_quote e s k dir a b lim = Ok q ->
  exists m ts r, read_pool s k d = Ok (p, m, ts) /\
    simulate_swap (e_gas e) m (pk_tier k) p ts dir a b lim = Ok r /\
    sim_insufficient r = false /\ sim_outdated r = false /\
    (sim_too_many r = true <-> 173 < Z.of_nat (length (q_ticks q))) /\
    (Z.of_nat (length (q_ticks q)) <= 173 -> sim_in r = q_in q /\ sim_out r = q_out q /\ sim_target r = q_target q).
Proof.
  intros R E Q. destruct (C88_read_pool s k p d R E) as (m & ts & RD & VB & VT & _).
  destruct (C45_simulation e s k p m ts dir a b lim q Q E VB) as (r & S & _ & F1 & F2 & A & B).
  { intros i t T. rewrite VT, T. done. }
  exists m, ts, r. split; [done|]. split; [done|]. split; [done|]. split; [done|]. split.
  - split; [|exact B]. intros X. destruct (Z.le_gt_cases (Z.of_nat (length (q_ticks q))) 173) as [Y|Y]; [|lia]. destruct (A Y) as (_ & _ & _ & Z & _). congruence.
  - intros Y. destruct (A Y) as (A1 & A2 & A3 & _). done.
Qed.

(** wasm/consts.rs:20, 81-85 [getMaxPoolKeysReturned] and 22-23, 87-91 [getMaxPoolPairsReturned] announce pages of 220
    keys and 126 pools; the contract's listing of pools stops at 100 whatever is asked for. *)
Definition MAX_POOL_KEYS_RETURNED : Z := 220.
Definition MAX_POOL_PAIRS_RETURNED : Z := 131072 / (128 + 128 + 32 + 128 + 128 + 128 + 128 + 64 + 64 + 32 + 64 + 16).
Theorem C88_pool_limit : forall s limit start l, query_pools s limit start = Ok l ->
  Z.of_nat (length l) <= 100 < MAX_POOL_PAIRS_RETURNED /\ MAX_POOL_PAIRS_RETURNED < MAX_POOL_KEYS_RETURNED.
Proof.
  intros s limit start l H. unfold query_pools in H. inv_bind H as st ES. apply collect_elem in H. apply Forall2_length in H.
  rewrite take_length in H. assert (Z.of_nat (page_size limit) <= 100) by (unfold page_size; change MAX_LIMIT with 100; lia).
  change MAX_POOL_PAIRS_RETURNED with 126. change MAX_POOL_KEYS_RETURNED with 220. lia.
Qed.

(** the scenario's pool with its five ticks, read downwards, and a swap through one of them *)
Example ex_C88 : match read_pool sc0 v_key true with
  | Ok (p, m, ts) => map lt_index ts = [-20; -10; 10; 20; 30]
  | _ => False
  end.
Proof. vm_compute. reflexivity. Qed.
Example ex_C88_swap : match read_pool sc0 v_key false with
  | Ok (p, m, ts) =>
      match simulate_swap (e_gas v_env) m (pk_tier v_key) p ts false 20000 true MAX_SQRT_PRICE, query_quote v_env sc0 v_key false 20000 true MAX_SQRT_PRICE with
      | Ok r, Ok q => sim_in r = q_in q /\ sim_out r = q_out q /\ 19000 < sim_out r /\ map t_index (q_ticks q) = [10; 20]
      | _, _ => False
      end
  | _ => False
  end.
Proof. vm_compute. repeat split. Qed.
Print Assumptions C88_tickmap_pages.
Print Assumptions C88_read_pool.
Print Assumptions C88_simulation.
