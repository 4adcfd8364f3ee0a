(** C120: the price limits of a deposit bound what it costs. *)
From Verif Require Import Base Decimal SqrtPrice Clamm Log FeeGrowth Types Tick Pool Position
  Tickmap Keys State Swap Exec Query Tactics PriceProofs ClammProofs PropClamm BitmapProofs PropBitmap KeysProofs Frame Handlers History Basic PosList
  Ledger Vectors Scenario SwapGeo SwapLoop Modify PSum LiqInv Geo PropLiq PropBlock PropOk PropSplit.
From stdpp Require Import gmap strings.
From Coq Require Import Lia.
Open Scope Z_scope.

(** a root price brought into the range of the deposit *)
Definition into (lower upper v : Z) : Z := Z.max (tprice lower) (Z.min v (tprice upper)).

Lemma ceil_le n d n' d' : 0 <= n' -> n' <= n -> 0 < d -> d <= d' -> (n' + d' - 1) / d' <= (n + d - 1) / d.
Proof.
  intros N0 N D D'. set (q := (n + d - 1) / d). assert (Q : n <= d * q).
  { pose proof (Z.mul_succ_div_gt (n + d - 1) d D) as X. fold q in X. lia. }
  assert (Q0 : 0 <= q) by (apply Z.div_pos; lia). enough ((n' + d' - 1) / d' < q + 1) by lia. apply Z.div_lt_upper_bound; [lia|]. nia.
Qed.
Lemma cost_x_mono L a a' b : 0 <= L -> price_ok a -> price_ok b -> a <= a' -> a' <= b -> cost_x L a' b <= cost_x L a b.
Proof.
  unfold price_ok. change MIN_SQRT_PRICE with 15258932000000000000. change MAX_SQRT_PRICE with 65535383934512647000000000000. intros HL A B AA AB. unfold cost_x. cbv zeta. apply ceil_le.
  - apply Z.div_pos; [nia|lia].
  - apply Z.div_le_mono; [lia|]. nia.
  - apply Z.div_str_pos. split; [lia|]. nia.
  - apply Z.div_le_mono; [lia|]. nia.
Qed.
Lemma cost_y_mono L a b b' : 0 <= L -> b <= b' -> cost_y L a b <= cost_y L a b'.
Proof. intros HL B. unfold cost_y. apply Z.div_le_mono; [lia|]. nia. Qed.

Lemma into_mono lower upper v v' : v <= v' -> into lower upper v <= into lower upper v'.
Proof. unfold into. lia. Qed.
Lemma into_range lower upper v : tprice lower <= tprice upper -> tprice lower <= into lower upper v <= tprice upper.
Proof. unfold into. lia. Qed.
(** the ends of an accepted deposit *)
Lemma ends_ok e i s k lower upper L sl su m s' ms at' : reachable s ->
  m = CreatePosition k lower upper L sl su \/ m = Mint k lower upper L sl su -> execute e i s m = Ok (s', ms, at') ->
  0 <= L /\ price_ok (tprice lower) /\ price_ok (tprice upper) /\ tprice lower < tprice upper /\ exists p, st_pools s !! k = Some p /\ sl <= p_price p <= su.
Proof.
  intros R M H. apply reachable_ereach in R. unfold execute in H. destruct (env_typed e i && msg_typed m) eqn:T; [|done].
  assert (H' : create_position e i s k lower upper L sl su = Ok (s', ms, at') /\ 0 <= L <= U128MAX).
  { apply andb_prop in T as [_ T]. destruct M as [-> | ->]; cbn [dispatch msg_typed] in *; (split; [done|]);
      repeat (apply andb_prop in T as [T ?]); by apply in_range_spec. }
  clear H M. destruct H' as [H HL]. destruct (deposit_inv _ _ _ _ _ _ _ _ _ _ _ _ R HL H) as [(p & EP & L0 & LU & [L1 _] & [U1 _] & PR & _) _].
  assert (MT : MAX_TICK = 221818) by reflexivity.
  split; [lia|]. split; [apply tprice_range; lia|]. split; [apply tprice_range; lia|]. split; [apply tprice_lt; lia|]. by exists p.
Qed.

(** A deposit is accepted only at a price within the limits given, and takes no more of the first token than it would cost at the lower
    limit and no more of the second than at the upper one, whatever others did to the price before. *)
Theorem C120_guard e i s k lower upper L sl su s' ms at' m : reachable s ->
  m = CreatePosition k lower upper L sl su \/ m = Mint k lower upper L sl su -> execute e i s m = Ok (s', ms, at') ->
  exists p X Y, st_pools s !! k = Some p /\ sl <= p_price p <= su /\
    ms = collects e i (pk_x k) X ++ collects e i (pk_y k) Y /\
    0 <= X <= cost_x L (into lower upper sl) (tprice upper) /\ 0 <= Y <= cost_y L (tprice lower) (into lower upper su).
Proof.
  intros R M H. destruct (C80_deposit e i s k lower upper L sl su s' ms at' m R M H) as (p & EP & EM).
  destruct (ends_ok e i s k lower upper L sl su m s' ms at' R M H) as (HL & PL & PU & LU & p' & EP' & PR). rewrite EP in EP'. injection EP' as <-. cbv zeta in EM.
  change (Z.max (tprice lower) (Z.min (p_price p) (tprice upper))) with (into lower upper (p_price p)) in EM.
  pose proof (into_range lower upper (p_price p) ltac:(lia)) as I. pose proof (into_range lower upper sl ltac:(lia)) as IL.
  exists p, (cost_x L (into lower upper (p_price p)) (tprice upper)), (cost_y L (tprice lower) (into lower upper (p_price p))).
  split; [done|]. split; [done|]. split; [done|].
  assert (OK : forall v, tprice lower <= v <= tprice upper -> price_ok v) by (unfold price_ok in *; intros; lia).
  split; split.
  - assert (Z0 : cost_x L (tprice upper) (tprice upper) = 0 \/ 0 <= cost_x L (tprice upper) (tprice upper)).
    { right. unfold cost_x. cbv zeta. rewrite Z.sub_diag, Z.mul_0_r, Z.div_0_l by lia. destruct (Z.le_gt_cases (tprice upper * tprice upper / 10 ^ 24) 0) as [Q|Q]; [|apply Z.div_pos; lia].
      exfalso. unfold price_ok in PU. change MIN_SQRT_PRICE with 15258932000000000000 in PU. assert (X : 0 < tprice upper * tprice upper / 10 ^ 24) by (apply Z.div_str_pos; nia). lia. }
    pose proof (cost_x_mono L (into lower upper (p_price p)) (tprice upper) (tprice upper) HL (OK _ I) PU ltac:(lia) ltac:(lia)). lia.
  - apply cost_x_mono; [done|by apply OK|done|apply into_mono; lia|lia].
  - unfold cost_y. apply Z.div_pos; [|lia]. nia.
  - apply cost_y_mono; [done|]. apply into_mono; lia.
Qed.
(** The higher the price a deposit finds, the less it takes of the first token and the more of the second, exactly and in any two states. *)
Theorem C120_monotone e i e' i' s t k lower upper L sl su s1 m1 a1 t1 m2 a2 m p q : reachable s -> reachable t ->
  m = CreatePosition k lower upper L sl su \/ m = Mint k lower upper L sl su ->
  execute e i s m = Ok (s1, m1, a1) -> execute e' i' t m = Ok (t1, m2, a2) ->
  st_pools s !! k = Some p -> st_pools t !! k = Some q -> p_price p <= p_price q ->
  exists X Y X' Y', m1 = collects e i (pk_x k) X ++ collects e i (pk_y k) Y /\ m2 = collects e' i' (pk_x k) X' ++ collects e' i' (pk_y k) Y' /\ X' <= X /\ Y <= Y'.
Proof.
  intros R R' M H H' EP EQ PQ. destruct (C80_deposit _ _ _ _ _ _ _ _ _ _ _ _ _ R M H) as (p0 & E0 & EM). destruct (C80_deposit _ _ _ _ _ _ _ _ _ _ _ _ _ R' M H') as (q0 & E1 & EM').
  rewrite EP in E0. injection E0 as <-. rewrite EQ in E1. injection E1 as <-. destruct (ends_ok _ _ _ _ _ _ _ _ _ _ _ _ _ R M H) as (HL & PL & PU & LU & _). cbv zeta in EM, EM'.
  eexists _, _, _, _. split; [exact EM|]. split; [exact EM'|].
  change (Z.max (tprice lower) (Z.min (p_price p) (tprice upper))) with (into lower upper (p_price p)). change (Z.max (tprice lower) (Z.min (p_price q) (tprice upper))) with (into lower upper (p_price q)).
  pose proof (into_range lower upper (p_price p) ltac:(lia)) as I. pose proof (into_range lower upper (p_price q) ltac:(lia)) as J. pose proof (into_mono lower upper _ _ PQ) as IJ.
  split; [apply cost_x_mono; [done|unfold price_ok in *; lia|done|done|lia]|]. by apply cost_y_mono.
Qed.

(** *** Example: a deposit with limits before and after somebody else's trade, and the most it can cost within them *)
Definition gu_msg : exec_msg := CreatePosition v_key (-10) 20 1000000000000 999800000000000000000000 1000400000000000000000000.
Definition gu_trade : exec_msg := Swap v_key false 5000 true MAX_SQRT_PRICE.
Definition gu_ms (s : store) : res (list out_msg) := let* r := execute v_env (v_info "dan") s gu_msg in Ok (snd (fst r)).
Example ex_C120 : reachable sc0 /\
  gu_ms sc0 = Ok [Cw20TransferFrom "tokenx" "dan" "self" 1119; Cw20TransferFrom "tokeny" "dan" "self" 381]%string /\
  (let* r := execute v_env (v_info "bob") sc0 gu_trade in gu_ms r.1.1) = Ok [Cw20TransferFrom "tokenx" "dan" "self" 920; Cw20TransferFrom "tokeny" "dan" "self" 580]%string /\
  cost_x 1000000000000 (into (-10) 20 999800000000000000000000) (tprice 20) = 1200 /\ cost_y 1000000000000 (tprice (-10)) (into (-10) 20 1000400000000000000000000) = 900.
Proof. split; [exact sc0_reachable|]. repeat split; vm_compute; reflexivity. Qed.
