(** C119: what every query answers. *)
From Verif Require Import Base Decimal SqrtPrice Clamm Log FeeGrowth Types Tick Pool Position
  Tickmap Keys State Swap Exec Query QueryMsg Tactics BitmapProofs KeysProofs Frame Handlers History Basic PosList
  Vectors Scenario SwapGeo SwapLoop LiqInv Geo PropLiq PropAuth PropConfig PropKeys PropNft PropPair PropQuery PropTicks PropTrade PropReply.
From stdpp Require Import gmap strings sorting list.
From Coq Require Import Lia.
Open Scope Z_scope.

(** how many positions an account has: they are numbered from zero *)
Definition count_of (s : store) (a : string) (n : Z) : Prop := 0 <= n /\ forall i, is_Some (st_positions s !! (a, i)) <-> 0 <= i < n.
(** the approvals of a token that are told *)
Definition told_approvals (e : env) (po : position) (all : bool) (l : list approval) : Prop :=
  forall a, In a l <-> In a (po_approvals po) /\ (all = true \/ live e (ap_expires a)).
(** what the answer to a query says about the recorded facts *)
Definition told (e : env) (s : store) (q : query_msg) (r : answer) : Prop :=
  match q with
  | QAdmin => r = AAddr (cf_admin (st_config s))
  | QProtocolFee => r = ANumber (cf_protocol_fee (st_config s))
  | QPosition a i => exists po, r = APosition po /\ st_positions s !! (a, i) = Some po
  | QPositions a limit offset => exists l, r = APositions l /\
      forall j : nat, l !! j = if Z.of_nat j <? default 100 limit then st_positions s !! (a, default 0 offset + Z.of_nat j) else None
  | QFeeTierExist t => exists b, r = ABool b /\ (b = true <-> t ∈ cf_fee_tiers (st_config s))
  | QPool a b t => exists k p, r = APool p /\ of_pair a b k /\ pk_tier k = t /\ st_pools s !! k = Some p
  | QPools limit _ => exists l, r = APools l /\ Z.of_nat (length l) <= Z.min 100 (default 100 limit)
  | QTick k i => exists t, r = ATick t /\ st_ticks s !! (k, i) = Some t
  | QIsTickInitialized k i => exists b, r = ABool b /\ (b = true <-> is_Some (st_ticks s !! (k, i)))
  | QFeeTiers => r = ATiers (cf_fee_tiers (st_config s))
  | QPositionTicks a offset => exists n l, r = APositionTicks l /\ count_of s a n /\ Z.of_nat (length l) = 2 * Z.min 186 (n - offset) /\
      forall j, 0 <= j < Z.min 186 (n - offset) ->
        exists po tl tu, st_positions s !! (a, offset + j) = Some po /\
          st_ticks s !! (po_key po, po_lower po) = Some tl /\ st_ticks s !! (po_key po, po_upper po) = Some tu /\
          l !! Z.to_nat (2 * j) = Some (mkPTick (po_lower po) (t_fox tl) (t_foy tl) (t_secs tl)) /\
          l !! Z.to_nat (2 * j + 1) = Some (mkPTick (po_upper po) (t_fox tu) (t_foy tu) (t_secs tu))
  | QUserPositionAmount a => exists n, r = ANumber n /\ count_of s a n
  | QTickMap k lo up d => exists l, r = AChunks l /\ (st_pools s !! k = None -> l = []) /\
      let sp := ft_spacing (pk_tier k) in let chunk t := (t + 221818) / sp / 64 in
      (is_Some (st_pools s !! k) -> Z.of_nat (length l) <= 1638 /\ StronglySorted (fun a b => if d : bool then b < a else a < b) (map fst l) /\
       (forall c v, (c, v) ∈ l -> chunk lo <= c <= chunk up /\
         forall t, -221818 <= t <= 221818 -> t mod sp = 0 -> chunk t = c -> (Z.testbit v ((t + 221818) / sp mod 64) = true <-> is_Some (st_ticks s !! (k, t)))) /\
       forall t, is_Some (st_ticks s !! (k, t)) -> chunk lo <= chunk t <= chunk up ->
         (exists v, (chunk t, v) ∈ l) \/ Z.of_nat (length l) = 1638 /\ forall c v, (c, v) ∈ l -> if d then chunk t < c else c < chunk t)
  | QLiquidityTicks k is => exists l, r = ALiquidityTicks l /\
      Forall2 (fun i u => exists t, st_ticks s !! (k, i) = Some t /\ u = mkLTick i (t_change t) (t_sign t)) is l
  | QLiquidityTicksAmount k lo up => exists n, r = ANumber n /\
      (lo <= up -> is_Some (st_pools s !! k) -> exists l, NoDup l /\ (forall t, t ∈ l <-> lo <= t <= up /\ is_Some (st_ticks s !! (k, t))) /\ n = Z.of_nat (length l))
  | QPoolsForPair a b => exists l, r = APools l /\
      (forall k p, (k, p) ∈ l <-> st_pools s !! k = Some p /\ of_pair a b k /\ pk_tier k ∈ cf_fee_tiers (st_config s))
  | QOwnerOf tid x => exists o ix po l, r = AOwner o l /\ st_positions s !! (o, ix) = Some po /\ tid = position_key_bytes o ix /\ told_approvals e po (default false x) l
  | QNftInfo tid => exists o ix po, r = APosition po /\ st_positions s !! (o, ix) = Some po /\ tid = position_key_bytes o ix
  | QAllNftInfo tid x => exists o ix po l, r = AAll o l po /\ st_positions s !! (o, ix) = Some po /\ tid = position_key_bytes o ix /\ told_approvals e po (default false x) l
  | QTokens a start limit => exists l, r = ATokens l /\ NoDup l /\
      forall t, t ∈ l <-> exists ix, t = position_key_bytes a ix /\ is_Some (st_positions s !! (a, ix)) /\ default 0 start <= ix < default 0 start + default 100 limit
  | QApprovedForAll _ _ _ limit => exists l, r = AOperators l /\ Z.of_nat (length l) <= Z.min 100 (default 100 limit)
  | QAllTokens _ limit => exists l, r = ATokens l /\ Z.of_nat (length l) <= Z.min 100 (default 100 limit)
  | QQuote _ _ _ _ _ => exists x, r = AQuote x
  | QQuoteRoute _ _ => exists n, r = ANumber n
  end.

Lemma count_len s a : ereach s -> count_of s a (get_position_length s a).
Proof.
  intros R. pose proof (ct_range _ _ (ereach_pos_ok _ R) a) as IR. fold (plen s a). split; [lia|]. intros i. exact (ct_some _ _ (ereach_pos_ok _ R) a i).
Qed.
Lemma bit_record s k i b : reachable s -> get_bitmap s i (ft_spacing (pk_tier k)) k = Ok b -> (b = true <-> is_Some (st_ticks s !! (k, i))).
Proof.
  intros R E. destruct (st_pools s !! k) as [p|] eqn:P.
  - destruct (C12_record_bit_position s k p i R P) as [H _]. rewrite <- H, E. split; [by intros ->|]. by intros Q%Ok_inj.
  - destruct (C12_no_pool s k R P i) as (T & B & _). rewrite T. split; [|by intros []]. intros ->. exfalso. revert E. unfold get_bitmap.
    destruct (tick_to_position i _) as [[c j]|x|]; cbn [bind]; try done. unfold bitmap_chunk. rewrite B. cbn [default]. unfold get_bit_at_position. rewrite Z.shiftr_0_l. by rewrite ?Z.land_0_l.
Qed.
Lemma page_of s a limit offset l : reachable s -> 0 <= default 0 offset -> 0 <= default 100 limit -> query_positions s a limit offset = Ok l ->
  forall j : nat, l !! j = if Z.of_nat j <? default 100 limit then st_positions s !! (a, default 0 offset + Z.of_nat j) else None.
Proof.
  intros R O0 L0 E. pose proof (count_len s a (reachable_ereach _ R)) as [N0 CS]. unfold query_positions, position_page in E. inv_bind E as pg P. inv_bind P as t Q.
  apply Ok_inj in P. subst pg. unfold ckp in Q. destruct (in_range _ _ _); [|done]. apply Ok_inj in Q. change MAX_LIMIT with 100 in Q. subst t.
  set (o := default 0 offset) in *. set (n := default 100 limit) in *. set (len := get_position_length s a) in *.
  assert (CL : forall is l, collect (get_position s a) is = Ok l -> forall j : nat, l !! j = match is !! j with Some i => st_positions s !! (a, i) | None => None end).
  { clear. induction is as [|i is IH]; cbn [collect]; intros l E j.
    - apply Ok_inj in E. subst l. by rewrite !lookup_nil.
    - inv_bind E as po P. inv_bind E as ps Q. apply Ok_inj in E. subst l. destruct j as [|j]; cbn; [|by apply IH].
      unfold get_position in P. destruct (st_positions s !! (a, i)); [|done]. by apply Ok_inj in P as ->. }
  intros j. rewrite (CL _ _ E j). destruct (Z.ltb_spec (Z.of_nat j) (Z.min len (o + n) - o)) as [H|H].
  - rewrite seqZ_lookup_nat by done. destruct (Z.ltb_spec (Z.of_nat j) n); [done|lia].
  - rewrite (lookup_ge_None_2 (seqZ _ _)) by (rewrite seqZ_length; lia). destruct (Z.ltb_spec (Z.of_nat j) n); [|done].
    symmetry. destruct (st_positions s !! (a, o + Z.of_nat j)) eqn:X; [|done]. assert (Y : is_Some (st_positions s !! (a, o + Z.of_nat j))) by eauto. apply CS in Y. lia.
Qed.
Lemma take_short {A} (l : list A) limit : 0 <= default 100 limit -> Z.of_nat (length (take (page_size limit) l)) <= Z.min 100 (default 100 limit).
Proof. intros H. rewrite take_length. unfold page_size. change MAX_LIMIT with 100. lia. Qed.
Lemma collect_length {A B} (f : A -> res B) : forall l r, collect f l = Ok r -> length r = length l.
Proof. induction l as [|x l IH]; cbn [collect]; intros r E; [by apply Ok_inj in E as <-|]. inv_bind E as y Y. inv_bind E as ys Z. apply Ok_inj in E. subst r. cbn. by rewrite (IH _ Z). Qed.

Lemma omap_none {A B} (f : A -> option B) l : (forall x, f x = None) -> omap f l = [].
Proof. intros H. induction l as [|x l IH]; cbn; [done|]. by rewrite H. Qed.

Theorem C119_says e s q r : reachable s -> query_typed q = true -> query e s q = Ok r -> told e s q r.
Proof.
  intros R T E. pose proof (reachable_ereach _ R) as ER. destruct q; cbn [query] in E; cbn [told query_typed] in *.
  - by apply Ok_inj in E.
  - by apply Ok_inj in E.
  - inv_bind E as po P. apply Ok_inj in E. exists po. split; [done|]. unfold get_position in P. destruct (st_positions s !! (owner, index)); [|done]. by apply Ok_inj in P as ->.
  - inv_bind E as l P. apply Ok_inj in E. exists l. split; [done|]. apply andb_prop in T as [T1 T2]. pose proof (opt_range limit 100 ltac:(lia) T1) as N1. pose proof (opt_range offset 0 ltac:(lia) T2) as N2. apply page_of; [done|lia|lia|done].
  - apply Ok_inj in E. eexists. split; [done|]. unfold query_fee_tier_exist. by rewrite bool_decide_eq_true.
  - inv_bind E as p P. apply Ok_inj in E. unfold query_pool in P. inv_bind P as k K. destruct (decide (t0 = t1)) as [->|N].
    { unfold pool_key_new in K. by rewrite String.eqb_refl in K. }
    destruct (key_new_spec t0 t1 t N) as (k' & EK & O & TK & _). rewrite EK in K. apply Ok_inj in K. subst k'. exists k, p. split; [done|]. split; [done|]. split; [done|].
    unfold get_pool in P. destruct (st_pools s !! k); [|done]. by apply Ok_inj in P as ->.
  - inv_bind E as l P. apply Ok_inj in E. exists l. split; [done|]. apply andb_prop in T as [T1 _]. pose proof (opt_range limit 100 ltac:(lia) T1) as N1.
    unfold query_pools in P. inv_bind P as st Q. rewrite (collect_length _ _ _ P). apply take_short. lia.
  - inv_bind E as t P. apply Ok_inj in E. exists t. split; [done|]. unfold get_tick in P. destruct (st_ticks s !! (k, index)); [|done]. by apply Ok_inj in P as ->.
  - inv_bind E as b P. apply Ok_inj in E. exists b. split; [done|]. by apply bit_record.
  - by apply Ok_inj in E.
  - inv_bind E as l P. apply Ok_inj in E. apply in_range_spec in T. destruct (C78_position_ticks s owner offset R ltac:(lia)) as [A B].
    exists (get_position_length s owner), l. split; [done|]. split; [by apply count_len|]. destruct (Z.lt_ge_cases (get_position_length s owner) offset) as [H|H]; [by rewrite A in P|].
    destruct (B H) as (l' & Q & B1). rewrite P in Q. apply Ok_inj in Q. by subst l'.
  - apply Ok_inj in E. eexists. split; [done|]. by apply count_len.
  - inv_bind E as l P. apply Ok_inj in E. exists l. split; [done|]. apply andb_prop in T as [T _]. apply andb_prop in T as [T _]. apply typed_spacing in T.
    assert (TL : tick_of k lower /\ tick_of k upper).
    { unfold query_tickmap in P. inv_bind P as x X. destruct x as [c0 b0]. inv_bind P as y Y. split; (apply (settles_pos k); [lia|]); [by rewrite X|by rewrite Y]. }
    split.
    + intros N. unfold query_tickmap in P. inv_bind P as x X. destruct x as [c0 b0]. inv_bind P as y Y. destruct y as [c1 b1]. apply Ok_inj in P. subst l. unfold tickmap_slice.
      destruct (C12_no_pool s k R N 0) as (_ & B & _). rewrite omap_none; [by rewrite take_nil|]. intros c. unfold get_bitmap_item. by rewrite B.
    + intros [p HP]. destruct TL as [(S1 & L1 & M1) (S2 & L2 & M2)]. destruct (C41_tickmap_exact s k p lower upper x_to_y R HP L1 L2 M1 M2) as (l' & Q & LN & SO & IN & CO).
      rewrite P in Q. apply Ok_inj in Q. subst l'. split; [done|]. split; [done|]. split.
      * intros c v Hc. destruct (IN c v Hc) as (C1 & _ & C3). split; [done|]. intros t H1 H2 H3. by apply bit_record, C3.
      * intros t Ht. apply CO. by apply (C12_record_bit_position s k p t R HP).
  - inv_bind E as l' P. apply Ok_inj in E. exists l'. split; [done|]. destruct (C78_liquidity_ticks s k l R) as [A B].
    destruct (Z.lt_ge_cases 780 (Z.of_nat (length l))) as [H|H]; [by rewrite A in P|]. destruct (B H) as [B1 B2].
    destruct (decide (Forall (fun i => is_Some (st_ticks s !! (k, i))) l)) as [F|F].
    + rewrite Forall_forall in F. destruct (B1 F) as (r' & Q & F2). rewrite P in Q. apply Ok_inj in Q. subst r'. eapply Forall2_impl; [exact F2|].
      intros i [a b c] (t & X1 & X2 & X3 & X4). cbn in *. subst. by exists t.
    + rewrite B2 in P; [done|]. apply not_Forall_Exists in F; [|intros i; apply _]. apply Exists_exists in F as (i & HI & N). exists i. split; [done|]. by apply eq_None_not_Some.
  - inv_bind E as n P. apply Ok_inj in E. exists n. split; [done|]. intros LU [p HP]. apply andb_prop in T as [T _]. apply andb_prop in T as [T _]. apply typed_spacing in T.
    assert (TL : tick_of k lower /\ tick_of k upper) by (destruct (settles_amount s k lower upper (proj1 T)) as [A _]; rewrite P in A; destruct (proj1 A eq_refl) as (X & Y & _); done).
    destruct TL as [(S1 & L1 & M1) (S2 & L2 & M2)].
    destruct (C40_tick_count_partial s k p lower upper R HP ltac:(lia) LU ltac:(lia) M1 M2) as [H _]. destruct (H n P) as (l & ND & IN & LN). exists l. split; [done|]. split; [|done].
    intros t. rewrite IN. by rewrite (proj1 (C12_record_bit_position s k p t R HP)).
  - inv_bind E as l P. apply Ok_inj in E. exists l. split; [done|]. destruct (C98_pair_partial s t0 t1 R) as (_ & Q1 & Q2). destruct (decide (t0 = t1)) as [Q|Q]; [by rewrite Q1 in P|].
    destruct (Q2 Q) as (l' & Q3 & Q4 & _). rewrite P in Q3. apply Ok_inj in Q3. subst l'. intros k p. rewrite Q4. unfold query_fee_tier_exist. by rewrite bool_decide_eq_true.
  - inv_bind E as x P. apply Ok_inj in E. by exists x.
  - inv_bind E as x P. apply Ok_inj in E. by exists x.
  - inv_bind E as x P. destruct x as [o l]. apply Ok_inj in E. assert (A : exists a, token s tid a /\ e_utf8_ok e a = true) by (destruct (settles_owner e s tid (default false include_expired)) as [A _]; apply A; by rewrite P).
    destruct A as (a & (ix & HI & -> & [po HP]) & U). destruct (C53_resolves e s (position_key_bytes a ix) po R) as [_ X].
    destruct (X a ix (default false include_expired) HP eq_refl U) as (l' & X1 & _ & X3). rewrite P in X1. apply Ok_inj in X1. injection X1 as -> ->. by exists a, ix, po, l'.
  - apply Ok_inj in E. eexists. split; [done|]. apply take_short. pose proof (opt_range limit 100 ltac:(lia) T). lia.
  - inv_bind E as po P. apply Ok_inj in E. apply (C53_resolves e s tid po R) in P as (o & ix & P & Q). by exists o, ix, po.
  - inv_bind E as x P. destruct x as [[o l] po']. apply Ok_inj in E.
    assert (A : exists a, token s tid a /\ e_utf8_ok e a = true).
    { destruct (settles_owner e s tid (default false include_expired)) as [A _]. apply A. unfold query_all_nft_info in P. inv_bind P as y Y. by rewrite Y. }
    destruct A as (a & (ix & HI & -> & [po HP]) & U). destruct (C53_resolves e s (position_key_bytes a ix) po R) as [_ X].
    destruct (X a ix (default false include_expired) HP eq_refl U) as (l' & _ & X2 & X3). rewrite P in X2. apply Ok_inj in X2. injection X2 as -> -> ->. by exists a, ix, po, l'.
  - inv_bind E as l P. apply Ok_inj in E. apply andb_prop in T as [T1 T2]. pose proof (opt_range limit 100 ltac:(lia) T1) as N1. pose proof (opt_range start 0 ltac:(lia) T2) as N2.
    assert (LT : default 0 start + default 100 limit < 2 ^ 32).
    { unfold query_tokens, position_page in P. inv_bind P as pg Q. inv_bind Q as t X. unfold ckp in X. destruct (in_range _ _ _) eqn:I; [|done]. apply in_range_spec in I. change MAX_LIMIT with 100 in I. unfold U32MAX in I. lia. }
    destruct (C54_tokens_partial s owner start limit R ltac:(lia) ltac:(lia) LT) as (l' & Q & ND & IN). rewrite P in Q. apply Ok_inj in Q. subst l'. by exists l.
  - apply Ok_inj in E. eexists. split; [done|]. apply take_short. pose proof (opt_range limit 100 ltac:(lia) T). lia.
Qed.

(** The three listings are asked page by page, each page after the last entry of the one before; put together, they are complete. *)
Definition tokens_in (r : res answer) : list string := match r with Ok (ATokens l) => l | _ => [] end.
Definition operators_in (r : res answer) : list (string * expiration) := match r with Ok (AOperators l) => l | _ => [] end.
Inductive pool_pages (e : env) (s : store) (limit : option Z) : option pool_key -> list (pool_key * pool) -> Prop :=
| pages_end start : query e s (QPools limit start) = Ok (APools []) -> pool_pages e s limit start []
| pages_more start l k p rest : query e s (QPools limit start) = Ok (APools (l ++ [(k, p)])) -> pool_pages e s limit (Some k) rest ->
    pool_pages e s limit start (l ++ (k, p) :: rest).
Lemma pool_pages_listing e s limit start l : pool_pages e s limit start l <-> pools_listing s limit start l.
Proof.
  assert (Q : forall st r, query e s (QPools limit st) = Ok (APools r) <-> query_pools s limit st = Ok r).
  { intros st r. cbn [query]. destruct (query_pools s limit st) as [r'|x|]; cbn [bind]; [|done..]. split; [intros X%Ok_inj; by injection X as ->|by intros ->%Ok_inj]. }
  split; induction 1 as [st H|st l k p rest H _ IH]; constructor; try done; by apply Q.
Qed.
Theorem C119_listings e s : reachable s ->
  (exists L, NoDup (map fst L) /\ (forall k p, (k, p) ∈ L <-> st_pools s !! k = Some p) /\
    forall limit, 1 <= default 100 limit -> forall l, pool_pages e s limit None l <-> l = L) /\
  (exists L, NoDup L /\ (forall t, t ∈ L <-> exists o ix, is_Some (st_positions s !! (o, ix)) /\ t = position_key_bytes o ix) /\
    forall limit, 1 <= default 100 limit -> forall l, listing id (fun start => tokens_in (query e s (QAllTokens start limit))) None l <-> l = L) /\
  forall o x, exists L, NoDup (map fst L) /\ (forall a y, (a, y) ∈ L <-> st_operators s !! (o, a) = Some y /\ (x = Some true \/ live e y)) /\
    forall limit, 1 <= default 100 limit -> forall l, listing fst (fun start => operators_in (query e s (QApprovedForAll o x start limit))) None l <-> l = L.
Proof.
  intros R. split; [|split].
  - destruct (C38_paging_complete s R) as (L & A & B & C). exists L. split; [done|]. split; [done|]. intros limit HL l. by rewrite pool_pages_listing, C.
  - destruct (C53_listing s R) as (L & A & B & C). exists L. split; [done|]. split; [|exact C]. intros t. rewrite B. split.
    + intros (o & ix & po & H & H'). exists o, ix. split; [by eexists|done].
    + intros (o & ix & [po H] & H'). by exists o, ix, po.
  - intros o x. destruct (C55_operators_listing e s o (default false x)) as (L & A & B & C). exists L. split; [done|]. split; [|exact C]. intros a y. rewrite B.
    assert (X : default false x = true <-> x = Some true) by (destruct x as [[]|]; split; done). by rewrite X.
Qed.

(** The quotes tell what the trade would do that is asked about, if the pools of a route are different. *)
Theorem C119_quotes e i s : reachable s -> env_typed e i = true ->
  (forall k d a b lim, msg_typed (Swap k d a b lim) = true ->
    (forall s' ms at', execute e i s (Swap k d a b lim) = Ok (s', ms, at') ->
      exists q p, query e s (QQuote k d a b lim) = Ok (AQuote q) /\ at' = [("amount_in"%string, q_in q); ("amount_out"%string, q_out q)] /\
        st_pools s' !! k = Some p /\ p_price p = q_target q) /\
    forall q, query e s (QQuote k d a b lim) = Ok (AQuote q) -> can_pay e i (if d then pk_x k else pk_y k) (q_in q) -> is_ok (execute e i s (Swap k d a b lim)) = true) /\
  forall a x y hops s' ms at', NoDup (map hop_key hops) -> execute e i s (SwapRoute a x y hops) = Ok (s', ms, at') ->
    exists n, query e s (QQuoteRoute a hops) = Ok (ANumber n) /\ at' = [("amount_out"%string, n)].
Proof.
  intros R T. split.
  - intros k d a b lim M. destruct (C21_quote_predicts_swap e i s k d a b lim R T M) as (A & B & _). cbn [query]. split.
    + intros s' ms at' E. destruct (A s' ms at' E) as (q & p & Q & X & P & Y & _). exists q, p. by rewrite Q.
    + intros q E. inv_bind E as q' Q. apply Ok_inj in E. injection E as ->. by apply B.
  - intros a x y hops s' ms at' ND E. destruct (C22_route_quote_partial e i s a x y hops R ND) as [A _]. destruct (A s' ms at' E) as (n & Q & X). exists n. cbn [query]. by rewrite Q.
Qed.

(** A range given the wrong way round is refused or not according to where its ends lie in the blocks of 64 bits, and if not, the number told is not that of the ticks of any range. *)
Theorem C119_reversed_refuted : exists s k lo up n, reachable s /\ up < lo /\ query_typed (QLiquidityTicksAmount k lo up) = true /\
  query v_env s (QLiquidityTicksAmount k lo up) = Ok (ANumber n) /\ n <> 0 /\ query v_env s (QLiquidityTicksAmount k up lo) = Ok (ANumber 0).
Proof.
  exists sc0, v_key, (-50), (-390), 5. split; [exact sc0_reachable|]. split; [lia|]. split; [vm_compute; reflexivity|]. split; [vm_compute; reflexivity|]. split; [lia|]. vm_compute. reflexivity.
Qed.

(** *** Example: some answers in the sample state *)
Example ex_C119 : reachable sc0 /\ query_typed (QPositions "alice" (Some 1) (Some 1)) = true /\
  (let* r := query v_env sc0 (QPositions "alice" (Some 1) (Some 1)) in match r with APositions l => Ok (map (fun po => (po_lower po, po_upper po)) l) | _ => Ok [] end) = Ok [(-20, 30)] /\
  query v_env sc0 (QUserPositionAmount "alice") = Ok (ANumber 2) /\ query v_env sc0 (QIsTickInitialized v_key 30) = Ok (ABool true) /\
  query (env_at 9) sc0 (QApprovedForAll "alice" None None None) = Ok (AOperators []) /\ query (env_at 9) sc0 (QApprovedForAll "alice" (Some true) None None) = Ok (AOperators [("carol"%string, AtHeight 5)]).
Proof. split; [exact sc0_reachable|]. repeat split; vm_compute; reflexivity. Qed.
