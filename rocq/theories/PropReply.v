(** C117: which queries are answered, which are refused and which abort. *)
From Verif Require Import Base Decimal SqrtPrice Clamm Log FeeGrowth Types Tick Pool Position
  Tickmap Keys State Swap Exec Query QueryMsg Tactics BitmapProofs KeysProofs Frame Handlers History Basic PosList
  Vectors Scenario SwapGeo SwapLoop LiqInv Geo PropLiq PropAuth PropConfig PropKeys PropNft PropPair PropQuery PropTicks.
From stdpp Require Import gmap strings sorting list.
From Coq Require Import Lia.
Open Scope Z_scope.

(** a tick the pool could have *)
Definition tick_of (k : pool_key) (t : Z) : Prop := ft_spacing (pk_tier k) <> 0 /\ -221818 <= t <= 221818 /\ t mod ft_spacing (pk_tier k) = 0.
(** the number of a tick among all of the pool, from the lowest *)
Definition number_of (k : pool_key) (t : Z) : Z := t / ft_spacing (pk_tier k) + 221818 / ft_spacing (pk_tier k).
(** ranges the tick count can be computed for: less than a whole block of 64 in each block it looks into at the ends *)
Definition countable (k : pool_key) (lo up : Z) : Prop :=
  let b := number_of k lo in let c := number_of k up in
  (b / 64 = c / 64 -> 0 <= c - b < 63) /\ (b / 64 <> c / 64 -> b mod 64 <> 0 /\ c mod 64 <> 63).
Definition token (s : store) (tid : string) (a : string) : Prop := exists ix, 0 <= ix < 2 ^ 32 /\ tid = position_key_bytes a ix /\ is_Some (st_positions s !! (a, ix)).

Definition answered (e : env) (s : store) (q : query_msg) : Prop :=
  match q with
  | QPosition a i => is_Some (st_positions s !! (a, i))
  | QPositions _ l o | QTokens _ o l => default 0 o + default 100 l < 2 ^ 32
  | QPool a b t => exists k, of_pair a b k /\ pk_tier k = t /\ is_Some (st_pools s !! k)
  | QTick k i => is_Some (st_ticks s !! (k, i))
  | QIsTickInitialized k i => tick_of k i
  | QPositionTicks a o => o <= get_position_length s a
  | QTickMap k lo up _ => tick_of k lo /\ tick_of k up
  | QLiquidityTicks k l => Z.of_nat (length l) <= 780 /\ forall i, i ∈ l -> is_Some (st_ticks s !! (k, i))
  | QLiquidityTicksAmount k lo up => tick_of k lo /\ tick_of k up /\ countable k lo up
  | QPoolsForPair a b => a <> b
  | QOwnerOf tid _ | QAllNftInfo tid _ => exists a, token s tid a /\ e_utf8_ok e a = true
  | QNftInfo tid => exists a, token s tid a
  | _ => True
  end.
Definition aborted (q : query_msg) : Prop :=
  match q with
  | QPositions _ l o | QTokens _ o l => 2 ^ 32 <= default 0 o + default 100 l
  | QIsTickInitialized k i => ~ tick_of k i
  | QTickMap k lo up _ => ~ (tick_of k lo /\ tick_of k up)
  | QLiquidityTicksAmount k lo up => let sp := ft_spacing (pk_tier k) in
      sp <> 0 /\ lo mod sp = 0 /\ up mod sp = 0 /\ -221818 <= lo /\ up <= 221818 /\ (221818 < lo \/ up < -221818 \/ ~ countable k lo up)
  | QOwnerOf tid _ | QAllNftInfo tid _ => (String.length tid < 4)%nat
  | _ => False
  end.
Definition is_quote (q : query_msg) : bool := match q with QQuote _ _ _ _ _ | QQuoteRoute _ _ => true | _ => false end.

(** what both parts come down to *)
Definition settles {A} (r : res A) (P Q : Prop) : Prop := (is_ok r = true <-> P) /\ (r = Panic <-> Q).
Lemma settles_ok {A} (x : A) (P Q : Prop) : P -> ~ Q -> settles (Ok x) P Q.
Proof. intros HP HQ. split; split; done. Qed.
Lemma settles_panic {A} (P Q : Prop) : ~ P -> Q -> settles (@Panic A) P Q.
Proof. intros HP HQ. split; split; done. Qed.
Lemma settles_err {A} x (P Q : Prop) : ~ P -> ~ Q -> settles (@Err A x) P Q.
Proof. intros HP HQ. split; split; done. Qed.
Lemma settles_map {A B} (r : res A) (f : A -> B) P Q : settles r P Q -> settles (let* x := r in Ok (f x)) P Q.
Proof. intros [H1 H2]. destruct r; cbn [bind]; split; try done; split; try done; intros H; apply H2 in H || apply H2; done. Qed.
Lemma settles_iff {A} (r : res A) P P' Q Q' : settles r P Q -> (P <-> P') -> (Q <-> Q') -> settles r P' Q'.
Proof. unfold settles. tauto. Qed.

Lemma typed_spacing k : qkey_ok k = true -> 0 <= ft_spacing (pk_tier k) <= 65535.
Proof. unfold qkey_ok, key_ok, tier_ok. intros H. apply andb_prop in H as [H _]. apply andb_prop in H as [H _]. apply andb_prop in H as [_ H]. by apply in_range_spec in H. Qed.
Lemma settles_pos k t : 0 <= ft_spacing (pk_tier k) -> settles (tick_to_position t (ft_spacing (pk_tier k))) (tick_of k t) (~ tick_of k t).
Proof.
  intros S0. unfold tick_to_position, tick_of. set (sp := ft_spacing (pk_tier k)) in *. change MAX_TICK with 221818.
  destruct (in_range (- (221818)) 221818 t) eqn:I; cbn [negb].
  - apply in_range_spec in I. destruct (Z.eqb_spec sp 0) as [|N]; [apply settles_panic; tauto|].
    assert (RM : (Z.rem t sp =? 0) = (t mod sp =? 0)) by (apply Bool.eq_iff_eq_true; rewrite !Z.eqb_eq, Z.rem_divide, Z.mod_divide by lia; done).
    rewrite RM. destruct (Z.eqb_spec (t mod sp) 0) as [M|M]; cbn [negb]; [apply settles_ok|apply settles_panic]; intuition lia.
  - assert (NI : ~ (-221818 <= t <= 221818)) by (intros X; apply (in_range_spec (- (221818)) 221818 t) in X; congruence). apply settles_panic; tauto.
Qed.
Lemma settles_bind_ok {A B} (r : res A) (f : A -> res B) P : settles r P (~ P) -> (forall x, r = Ok x -> is_ok (f x) = true) -> settles (bind r f) P (~ P).
Proof.
  intros [H1 H2] HF. destruct r as [x|y|]; cbn [bind].
  - specialize (HF x eq_refl). destruct (f x); [|discriminate HF..]. apply settles_ok; [by apply H1|]. intros N. apply H2 in N. done.
  - exfalso. assert (N : ~ P) by (intros X; apply H1 in X; done). apply H2 in N. done.
  - apply settles_panic; [|by apply H2]. intros X. apply H1 in X. done.
Qed.

Lemma settles_bits v b0 b1 : 0 <= b0 -> b1 <= 255 -> settles (active_bits_in_range v b0 b1) (0 <= b1 - b0 < 63) (~ 0 <= b1 - b0 < 63).
Proof.
  intros H0 H1. destruct (decide (0 <= b1 - b0 < 63)) as [D|D].
  - pose proof (active_bits_ok v b0 b1 H0 D) as O. destruct (active_bits_in_range v b0 b1); [|discriminate O..]. apply settles_ok; tauto.
  - assert (E : active_bits_in_range v b0 b1 = Panic); [|rewrite E; apply settles_panic; tauto]. unfold active_bits_in_range, ckp.
    destruct (in_range 0 255 (b1 - b0)) eqn:I1; [|done]. cbn [bind]. apply in_range_spec in I1.
    destruct (in_range 0 63 (b1 - b0 + 1)) eqn:I2; [|done]. apply in_range_spec in I2. lia.
Qed.

Lemma settles_amount s k lo up : 0 <= ft_spacing (pk_tier k) ->
  settles (query_liquidity_ticks_amount s k lo up) (answered (mkEnv 0 0 "" 0 (fun _ => true) (fun _ => true)) s (QLiquidityTicksAmount k lo up)) (aborted (QLiquidityTicksAmount k lo up)).
Proof.
  intros S0. cbn [answered aborted]. unfold query_liquidity_ticks_amount, tick_of. set (sp := ft_spacing (pk_tier k)) in *.
  destruct (Z.eqb_spec sp 0) as [|N]; [apply settles_err; tauto|].
  assert (RM : forall t, (Z.rem t sp =? 0) = (t mod sp =? 0)).
  { intros t. apply Bool.eq_iff_eq_true. rewrite !Z.eqb_eq, Z.rem_divide, Z.mod_divide by lia. done. }
  rewrite !RM. destruct (Z.eqb_spec (lo mod sp) 0) as [A|A]; [|apply settles_err; tauto]. destruct (Z.eqb_spec (up mod sp) 0) as [B|B]; [|apply settles_err; tauto].
  cbn [negb orb]. rewrite get_min_top, get_max_top by lia.
  assert (TP : forall t, t mod sp = 0 -> (t < - SwapGeo.top sp <-> t < -221818) /\ (SwapGeo.top sp < t <-> 221818 < t)).
  { intros t M. unfold SwapGeo.top. change MAX_TICK with 221818. apply Z.mod_divide in M; [|lia]. destruct M as [c ->].
    pose proof (Z.mul_div_le 221818 sp ltac:(lia)) as T1. pose proof (Z.mod_pos_bound 221818 sp ltac:(lia)) as T2. pose proof (Z.div_mod 221818 sp ltac:(lia)) as T3.
    set (d := 221818 / sp) in *. clearbody d. split; split; intros H; [|lia| |lia].
    - assert (c < - d) by nia. nia.
    - assert (d < c) by nia. nia. }
  destruct (TP lo A) as [TL _]. destruct (TP up B) as [_ TU].
  destruct (Z.ltb_spec lo (- SwapGeo.top sp)) as [L|L]; cbn [orb]; [apply settles_err; intuition lia|].
  destruct (Z.ltb_spec (SwapGeo.top sp) up) as [U|U]; cbn [orb]; [apply settles_err; intuition lia|].
  assert (HL : -221818 <= lo) by (destruct (Z.le_gt_cases (-221818) lo); [done|]; exfalso; apply TL in H; lia).
  assert (HU : up <= 221818) by (destruct (Z.le_gt_cases up 221818); [done|]; exfalso; assert (X : 221818 < up) by lia; apply TU in X; lia).
  destruct (decide (lo <= 221818)) as [L2|L2].
  2:{ destruct (settles_pos k lo S0) as [_ P]. fold sp in P. rewrite (proj2 P) by (unfold tick_of; lia). cbn [bind]. apply settles_panic; [lia|]. do 5 (split; [done|]). lia. }
  destruct (decide (-221818 <= up)) as [U2|U2].
  2:{ rewrite (tick_to_position_ok sp lo) by (unfold legal_tick; change MAX_TICK with 221818; lia). cbn [bind].
      destruct (settles_pos k up S0) as [_ P]. fold sp in P. rewrite (proj2 P) by (unfold tick_of; lia). cbn [bind]. apply settles_panic; [lia|]. do 5 (split; [done|]). lia. }
  rewrite (tick_to_position_ok sp lo), (tick_to_position_ok sp up) by (unfold legal_tick; change MAX_TICK with 221818; lia). cbn [bind].
  unfold countable, number_of. fold sp. change (lo / sp + 221818 / sp) with (bit_index sp lo). change (up / sp + 221818 / sp) with (bit_index sp up).
  generalize (bit_index sp lo) (bit_index sp up). intros b c.
  pose proof (Z.div_mod b 64 ltac:(lia)) as D1. pose proof (Z.div_mod c 64 ltac:(lia)) as D2.
  pose proof (Z.mod_pos_bound b 64 ltac:(lia)) as M1. pose proof (Z.mod_pos_bound c 64 ltac:(lia)) as M2.
  clear TP. destruct (Z.eqb_spec (c / 64) (b / 64)) as [Q|Q].
  - eapply settles_iff; [apply settles_bits; lia|..].
    + split; [intros X; split; [done|]; split; [done|]; split; [lia|congruence]|]. intros (_ & _ & X & _). specialize (X (eq_sym Q)). lia.
    + split; [intros X; do 5 (split; [done|]); right; right; intros [Y _]; specialize (Y (eq_sym Q)); lia|].
      intros (_ & _ & _ & _ & _ & X) Y. destruct X as [X|[X|X]]; [lia|lia|]. apply X. split; [lia|congruence].
  - change (CHUNK_SIZE - 1) with 63.
    destruct (settles_bits (bitmap_chunk s k (b / 64)) (b mod 64) 63 ltac:(lia) ltac:(lia)) as [O1 P1].
    destruct (settles_bits (bitmap_chunk s k (c / 64)) 0 (c mod 64) ltac:(lia) ltac:(lia)) as [O2 P2].
    destruct (decide (b mod 64 <> 0 /\ c mod 64 <> 63)) as [X|X].
    + destruct (active_bits_in_range (bitmap_chunk s k (b / 64)) (b mod 64) 63); [|exfalso; pose proof (proj2 O1 ltac:(lia)) as Y; discriminate Y..]. cbn [bind].
      destruct (active_bits_in_range (bitmap_chunk s k (c / 64)) 0 (c mod 64)); [|exfalso; pose proof (proj2 O2 ltac:(lia)) as Y; discriminate Y..]. cbn [bind].
      apply settles_ok; [split; [done|]; split; [done|]; split; [congruence|done]|]. intros (_ & _ & _ & _ & _ & Y). destruct Y as [Y|[Y|Y]]; [lia|lia|]. apply Y. split; [congruence|done].
    + assert (EP : forall w, (let* a0 := active_bits_in_range (bitmap_chunk s k (b / 64)) (b mod 64) 63 in let* a1 := active_bits_in_range (bitmap_chunk s k (c / 64)) 0 (c mod 64) in Ok (w a0 a1 : Z)) = Panic).
      { intros w. destruct (decide (b mod 64 = 0)) as [Z0|Z0]; [rewrite (proj2 P1) by lia; done|].
        destruct (active_bits_in_range (bitmap_chunk s k (b / 64)) (b mod 64) 63); [|exfalso; pose proof (proj2 O1 ltac:(lia)) as Y; discriminate Y..]. cbn [bind].
        rewrite (proj2 P2) by lia. done. }
      rewrite (EP (fun a0 a1 => fold_left (fun acc c0 => acc + count_ones (bitmap_chunk s k c0)) (seqZ (b / 64 + 1) (c / 64 - b / 64 - 1)) (a0 + a1))).
      apply settles_panic; [intros (_ & _ & _ & Y); apply X, Y; congruence|]. do 5 (split; [done|]). right. right. intros [_ Y]. apply X, Y. congruence.
Qed.

Lemma opt_range (o : option Z) d : 0 <= d -> opt_ok u32_ok o = true -> 0 <= default d o.
Proof. intros D H. destruct o as [v|]; cbn in *; [apply in_range_spec in H; lia|done]. Qed.
Lemma token_spec s tid : match split_token tid with
  | Some (a, ix) => forall b, token s tid b <-> b = a /\ is_Some (st_positions s !! (a, ix))
  | None => (String.length tid < 4)%nat /\ forall b, ~ token s tid b end.
Proof.
  destruct (split_token tid) as [[a ix]|] eqn:T.
  - apply split_token_inv in T as [<- HI]. intros b. split.
    + intros (j & HJ & Q & S). pose proof (split_token_round a ix HI) as T1. rewrite Q, split_token_round in T1 by done. injection T1 as -> ->. done.
    + intros [-> S]. exists ix. done.
  - split; [|intros b (j & HJ & -> & _); by rewrite split_token_round in T].
    unfold split_token in T. destruct (Nat.ltb_spec (String.length tid) 4); [done|discriminate T].
Qed.
Lemma settles_nft s tid : settles (get_position_by_key s tid) (exists a, token s tid a) False.
Proof.
  pose proof (token_spec s tid) as T. unfold get_position_by_key, get_position. destruct (split_token tid) as [[a ix]|].
  - destruct (st_positions s !! (a, ix)) as [po|] eqn:E; [apply settles_ok; [exists a; apply T; eauto|tauto]|].
    apply settles_err; [|tauto]. intros [b H]. apply T in H as [_ [? H]]. discriminate H.
  - apply settles_err; [|tauto]. intros [b H]. exact (proj2 T b H).
Qed.
Lemma settles_owner e s tid b : settles (query_owner_of e s tid b) (exists a, token s tid a /\ e_utf8_ok e a = true) (String.length tid < 4)%nat.
Proof.
  pose proof (token_spec s tid) as T. unfold query_owner_of, get_position_by_key, get_position. destruct (split_token tid) as [[a ix]|] eqn:SP.
  - assert (NL : ~ (String.length tid < 4)%nat).
    { intros X. unfold split_token in SP. rewrite (proj2 (Nat.ltb_lt _ _) X) in SP. discriminate SP. }
    destruct (e_utf8_ok e a) eqn:U; cbn [negb].
    + destruct (st_positions s !! (a, ix)) as [po|] eqn:E; [apply settles_ok; [|done]; exists a; split; [apply T; eauto|done]|].
      apply settles_err; [|done]. intros (c & H & _). apply T in H as [_ [? H]]. discriminate H.
    + apply settles_err; [|done]. intros (c & H & V). apply T in H as [-> _]. congruence.
  - apply settles_panic; [|tauto]. intros (c & H & _). exact (proj2 T c H).
Qed.
Lemma collect_ok {A B} (f : A -> res B) l : (forall x, x ∈ l -> is_ok (f x) = true) -> is_ok (collect f l) = true.
Proof.
  induction l as [|x l IH]; intros H; cbn [collect]; [done|]. pose proof (H x (elem_of_list_here _ _)) as H1. destruct (f x); [|discriminate H1..]. cbn [bind].
  assert (H2 : is_ok (collect f l) = true) by (apply IH; intros y Y; apply H; by apply elem_of_list_further). destruct (collect f l); [|discriminate H2..]. done.
Qed.
Lemma ok_settles {A} (r : res A) (P Q : Prop) : is_ok r = true -> P -> ~ Q -> settles r P Q.
Proof. destruct r; [|discriminate..]. intros _. apply settles_ok. Qed.
Lemma short_key k : qkey_ok k = true -> exists b, pool_key_bytes k = Ok b.
Proof.
  unfold qkey_ok, short, pool_key_bytes. intros H. apply andb_prop in H as [H H2]. apply andb_prop in H as [_ H1]. apply Z.leb_le in H1, H2. cbn [length_prefixed].
  rewrite (proj2 (Z.ltb_ge 65535 (slen (pk_x k)))) by lia. rewrite (proj2 (Z.ltb_ge 65535 (slen (pk_y k)))) by lia.
  rewrite (proj2 (Z.ltb_ge 65535 (slen (fee_tier_key (pk_tier k))))).
  - cbn [bind]. eauto.
  - unfold slen, fee_tier_key. rewrite str_app_length, !be_bytes_length. lia.
Qed.

(** Every query that asks about something that exists, with numbers that make sense, is answered; which ones abort does not depend on the state at all. *)
Theorem C117_answers e s q : reachable s -> query_typed q = true -> is_quote q = false ->
  (is_ok (query e s q) = true <-> answered e s q) /\ (query e s q = Panic <-> aborted q).
Proof.
  intros R T NQ. change (settles (query e s q) (answered e s q) (aborted q)). pose proof (reachable_ereach _ R) as ER.
  destruct q; try discriminate NQ; cbn [query answered aborted query_typed] in *; try (apply settles_ok; [exact I|tauto]).
  - (* Position *) apply settles_map. unfold get_position. destruct (st_positions s !! (owner, index)) eqn:E; [apply settles_ok; [by eexists|tauto]|].
    apply settles_err; [|tauto]. by apply is_Some_None.
  - (* Positions *) apply settles_map. apply andb_prop in T as [T1 T2]. pose proof (opt_range limit 100 ltac:(lia) T1) as N1. pose proof (opt_range offset 0 ltac:(lia) T2) as N2.
    destruct (decide (default 0 offset + default 100 limit < 2 ^ 32)) as [L|L].
    + rewrite query_positions_page; [apply settles_ok; lia|by apply ereach_pos_ok|done|exact N1|change MAX_LIMIT with 100; unfold U32MAX; lia].
    + unfold query_positions, position_page. change MAX_LIMIT with 100. unfold ckp. destruct (in_range 0 U32MAX _) eqn:I; [apply in_range_spec in I; unfold U32MAX in I; lia|].
      cbn [bind]. apply settles_panic; lia.
  - (* Pool *) apply settles_map. unfold query_pool. destruct (decide (t0 = t1)) as [->|N].
    + unfold pool_key_new. rewrite String.eqb_refl. cbn [bind]. apply settles_err; [|tauto]. intros (k & O & _ & [p E]).
      destruct (ereach_pools _ ER _ _ E) as [_ X _]. destruct O as [[O1 O2]|[O1 O2]]; rewrite O1, O2, string_ltb_irrefl in X; done.
    + destruct (key_new_spec t0 t1 t N) as (k & EK & O & TK & LT & _). rewrite EK. cbn [bind]. unfold get_pool. destruct (st_pools s !! k) as [p|] eqn:E.
      * apply settles_ok; [|tauto]. exists k. split; [done|]. split; [done|]. by eexists.
      * apply settles_err; [|tauto]. intros (k' & O' & TK' & [p E']). destruct (ereach_pools _ ER _ _ E') as [_ X _].
        assert (k' = k); [|congruence]. destruct k as [x y t'], k' as [x' y' t'']. unfold of_pair in O, O'. cbn in *. subst.
        destruct O as [[-> ->]|[-> ->]], O' as [[-> ->]|[-> ->]]; [done| | |done]; exfalso; rewrite ltb_total, LT in X by congruence; discriminate X.
  - (* Pools *) apply settles_map. apply andb_prop in T as [T1 T2]. apply ok_settles; [|exact I|tauto]. unfold query_pools.
    assert (ST : exists st, match start with None => Ok None | Some k => let* b := pool_key_bytes k in Ok (Some b) end = Ok st).
    { destruct start as [k|]; [|by eexists]. destruct (short_key k T2) as [b ->]. by eexists. }
    destruct ST as [st ->]. cbn [bind]. apply collect_ok. intros [b p] Hx.
    assert (HI : (b, p) ∈ raw_pools s).
    { apply elem_of_list_In in Hx. assert (HX : In (b, p) (range_raw st (raw_pools s))) by (rewrite <- (take_drop (page_size limit) (range_raw st (raw_pools s))); apply in_app_iff; left; exact Hx).
      unfold range_raw in HX. assert (PM : Permutation (merge_sort key_le (raw_pools s)) (raw_pools s)) by apply merge_sort_Permutation. rewrite <- PM. destruct st; cbn [after] in HX; [apply List.filter_In in HX; apply elem_of_list_In; tauto|by apply elem_of_list_In]. }
    unfold raw_pools in HI. apply elem_of_list_In, in_map_iff in HI as ([k p'] & Q & HI). cbn [fst snd] in Q. injection Q as <- <-. apply elem_of_list_In, elem_of_map_to_list in HI.
    destruct (ereach_pools _ ER _ _ HI) as [TT _ [bb B]]. cbn [fst snd]. rewrite B, (pool_key_round k bb); [done| |done].
    destruct TT as [A1 A2]. change PCT_ONE with 1000000000000 in A2. split; lia.
  - (* Tick *) apply settles_map. unfold get_tick. destruct (st_ticks s !! (k, index)) eqn:E; [apply settles_ok; [by eexists|tauto]|].
    apply settles_err; [|tauto]. by apply is_Some_None.
  - (* IsTickInitialized *) apply settles_map. unfold query_is_tick_initialized, get_bitmap. apply andb_prop in T as [T _]. apply typed_spacing in T.
    apply settles_bind_ok; [apply settles_pos; lia|]. by intros [].
  - (* PositionTicks *) apply settles_map. unfold query_position_ticks. destruct (Z.ltb_spec (get_position_length s owner) offset); [apply settles_err|apply settles_ok]; lia || tauto.
  - (* TickMap *) apply settles_map. unfold query_tickmap. apply andb_prop in T as [T _]. apply andb_prop in T as [T _]. apply typed_spacing in T.
    destruct (settles_pos k lower ltac:(lia)) as [A1 A2]. destruct (settles_pos k upper ltac:(lia)) as [B1 B2].
    destruct (tick_to_position lower (ft_spacing (pk_tier k))) as [[c0 b0]|x|]; cbn [bind].
    + pose proof (proj1 A1 eq_refl) as X. destruct (tick_to_position upper (ft_spacing (pk_tier k))) as [[c1 b1]|x|]; cbn [bind].
      * apply settles_ok; [split; [done|by apply B1]|]. intros Y. apply Y. split; [done|by apply B1].
      * exfalso. assert (N : ~ tick_of k upper) by (intros Y; apply B1 in Y; done). apply B2 in N. done.
      * apply settles_panic; [|intros [_ Y]; by apply (proj1 B2)]. intros [_ Y]. by apply (proj1 B2).
    + exfalso. assert (N : ~ tick_of k lower) by (intros Y; apply A1 in Y; done). apply A2 in N. done.
    + apply settles_panic; [|intros [Y _]; by apply (proj1 A2)]. intros [Y _]. by apply (proj1 A2).
  - (* LiquidityTicks *) apply settles_map. destruct (C78_liquidity_ticks s k l R) as [F G]. destruct (decide (Z.of_nat (length l) <= 780)) as [L|L].
    + destruct (G L) as [G1 G2]. destruct (decide (Forall (fun i => is_Some (st_ticks s !! (k, i))) l)) as [A|A].
      * rewrite Forall_forall in A. destruct (G1 A) as (r & -> & _). apply settles_ok; [done|tauto].
      * rewrite G2; [apply settles_err; [|tauto]; intros [_ X]; apply A, Forall_forall, X|].
        apply not_Forall_Exists in A; [|intros i; apply _]. apply Exists_exists in A as (i & HI & N). exists i. split; [done|]. by apply eq_None_not_Some.
    + rewrite F by lia. apply settles_err; [lia|tauto].
  - (* LiquidityTicksAmount *) apply settles_map. apply andb_prop in T as [T _]. apply andb_prop in T as [T _]. apply typed_spacing in T. exact (settles_amount s k lower upper (proj1 T)).
  - (* PoolsForPair *) apply settles_map. destruct (C98_pair_partial s t0 t1 R) as (_ & E & G). destruct (decide (t0 = t1)) as [Q|Q].
    + rewrite (E Q). apply settles_err; tauto.
    + destruct (G Q) as (l & -> & _). apply settles_ok; tauto.
  - (* OwnerOf *) destruct (settles_owner e s tid (default false include_expired)) as [A B]. destruct (query_owner_of e s tid (default false include_expired)) as [[o l]|x|]; cbn [bind].
    + apply settles_ok; [by apply A|]. intros X. apply B in X. done.
    + apply settles_err; [intros X; by apply A in X|intros X; by apply B in X].
    + apply settles_panic; [intros X; by apply A in X|by apply B].
  - (* NftInfo *) apply settles_map, settles_nft.
  - (* AllNftInfo *) unfold query_all_nft_info. destruct (settles_owner e s tid (default false include_expired)) as [A B]. destruct (settles_nft s tid) as [A' B'].
    destruct (query_owner_of e s tid (default false include_expired)) as [[o l]|x|]; cbn [bind].
    + pose proof (proj1 A eq_refl) as (a & HT & U). destruct (get_position_by_key s tid) as [po|x|].
      * cbn [bind]. apply settles_ok; [eauto|]. intros X. apply B in X. done.
      * pose proof (proj2 A' (ex_intro _ a HT)) as Y. discriminate Y.
      * pose proof (proj2 A' (ex_intro _ a HT)) as Y. discriminate Y.
    + apply settles_err; [intros X; by apply A in X|intros X; by apply B in X].
    + apply settles_panic; [intros X; by apply A in X|by apply B].
  - (* Tokens *) apply settles_map. apply andb_prop in T as [T1 T2]. pose proof (opt_range limit 100 ltac:(lia) T1) as N1. pose proof (opt_range start 0 ltac:(lia) T2) as N2.
    unfold query_tokens, position_page. change MAX_LIMIT with 100. unfold ckp. destruct (in_range 0 U32MAX _) eqn:I; cbn [bind].
    + apply in_range_spec in I. unfold U32MAX in I. apply settles_ok; lia.
    + apply settles_panic; [intros X|destruct (decide (2 ^ 32 <= default 0 start + default 100 limit)); [done|]; exfalso];
        (assert (Y : 0 <= default 0 start + default 100 limit <= U32MAX) by (unfold U32MAX; lia)); apply in_range_spec in Y; congruence.
Qed.

(** *** Example: an answered query, a refused one and one that aborts, of each kind *)
Definition ask_full : query_msg := QLiquidityTicksAmount v_key (-20) 30.
Definition ask_edge : query_msg := QLiquidityTicksAmount v_key (-221810) (-221170).
Definition ask_odd : query_msg := QLiquidityTicksAmount v_key (-15) 30.
Example ex_C117 : reachable sc0 /\ query_typed ask_full = true /\ query_typed ask_edge = true /\ query_typed ask_odd = true /\
  answered v_env sc0 ask_full /\ aborted ask_edge /\ ~ answered v_env sc0 ask_odd /\ ~ aborted ask_odd /\
  query v_env sc0 ask_full = Ok (ANumber 5) /\ query v_env sc0 ask_edge = Panic /\
  (exists x, query v_env sc0 ask_odd = Err x) /\
  query v_env sc0 (QPositions "bob" (Some 4294967295) (Some 1)) = Panic /\ query v_env sc0 (QOwnerOf "abc" None) = Panic /\
  is_ok (query v_env sc0 (QPosition "bob" 0)) = true /\ is_ok (query v_env sc0 (QPosition "bob" 1)) = false.
Proof.
  assert (E1 : query v_env sc0 ask_full = Ok (ANumber 5)) by (vm_compute; reflexivity).
  assert (E2 : query v_env sc0 ask_edge = Panic) by (vm_compute; reflexivity).
  assert (E3 : exists x, query v_env sc0 ask_odd = Err x) by (eexists; vm_compute; reflexivity).
  split; [exact sc0_reachable|]. do 3 (split; [vm_compute; reflexivity|]).
  split; [apply (C117_answers v_env sc0 ask_full sc0_reachable eq_refl eq_refl); by rewrite E1|].
  split; [apply (C117_answers v_env sc0 ask_edge sc0_reachable eq_refl eq_refl); by rewrite E2|].
  destruct E3 as [x E3].
  split; [intros X; apply (C117_answers v_env sc0 ask_odd sc0_reachable eq_refl eq_refl) in X; by rewrite E3 in X|].
  split; [intros X; apply (C117_answers v_env sc0 ask_odd sc0_reachable eq_refl eq_refl) in X; by rewrite E3 in X|].
  split; [exact E1|]. split; [exact E2|]. split; [by exists x|]. split_and!; vm_compute; reflexivity.
Qed.
