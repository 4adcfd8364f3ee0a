(** C115: splitting the range of a deposit. *)
From Verif Require Import Base Decimal SqrtPrice Clamm Log FeeGrowth Types Tick Pool Position
  Tickmap Keys State Swap Exec Query Tactics PriceProofs ClammProofs PropClamm BitmapProofs PropBitmap KeysProofs Frame Handlers History Basic PosList
  Ledger Vectors Scenario SwapGeo SwapLoop Modify PSum LiqInv Geo Ops Clean PropLiq Growth Value Fund Flow PropSolv Forward PropExit PropFees PropFunds PropProt PropBlock PropClock PropAuth PropTrade PropOk
  PropSplit PropOthers PropShare PropCurve.
From stdpp Require Import gmap strings.
From Coq Require Import Lia.
Open Scope Z_scope.

(** ** Amounts over adjacent ranges *)
Lemma square_bound a b : price_ok a -> price_ok b -> 10 ^ 14 * 10 ^ 24 <= a * b.
Proof.
  intros A B. assert (P2 : MIN_SQRT_PRICE * MIN_SQRT_PRICE <= a * b) by (apply Z.mul_le_mono_nonneg; unfold price_ok, MIN_SQRT_PRICE in *; lia).
  etransitivity; [|exact P2]. vm_compute. discriminate.
Qed.
Lemma cost_x_bounds L a b : 0 <= L -> price_ok a -> price_ok b -> a <= b ->
  let C := cost_x L a b in let U := 10 ^ 18 * L in
  0 <= C /\ U * (b - a) < C * (a * b) + 10 ^ 24 /\ (C - 1) * (a * b) < U * (b - a) + 10 ^ 24 * C.
Proof.
  intros HL A B AB C U. unfold C, cost_x. cbv zeta. pose proof (square_pos _ _ A B) as D0. pose proof (square_bound _ _ A B) as SB.
  assert (N0 : 0 <= L * (b - a)) by (apply Z.mul_nonneg_nonneg; lia).
  replace (U * (b - a)) with (10 ^ 18 * (L * (b - a))) by (unfold U; ring). clear C U.
  set (q := a * b) in *. set (n0 := L * (b - a)) in *. clearbody q n0.
  pose proof (Z.div_mod q (10 ^ 24) ltac:(lia)) as DQ. pose proof (Z.mod_pos_bound q (10 ^ 24) ltac:(lia)) as MQ. set (d := q / 10 ^ 24) in *. clearbody d.
  pose proof (Z.div_mod n0 (10 ^ 6) ltac:(lia)) as DN. pose proof (Z.mod_pos_bound n0 (10 ^ 6) ltac:(lia)) as MN. set (n := n0 / 10 ^ 6) in *. clearbody n.
  pose proof (Z.div_mod (n + d - 1) d ltac:(lia)) as DC. pose proof (Z.mod_pos_bound (n + d - 1) d D0) as MC. set (c := (n + d - 1) / d) in *.
  assert (C0 : 0 <= c) by (apply Z.div_pos; lia). clearbody c. split; [done|].
  set (rq := q mod 10 ^ 24) in *. set (rn := n0 mod 10 ^ 6) in *. set (rc := (n + d - 1) mod d) in *. clearbody rq rn rc.
  assert (K1 : n <= c * d <= n + d - 1) by nia. split; [nia|].
  assert (c * rq <= 10 ^ 24 * c) by nia. assert (c * q = 10 ^ 24 * (c * d) + c * rq) by (rewrite DQ; ring). lia.
Qed.
Lemma gain_x_bounds L a b : 0 <= L -> price_ok a -> price_ok b -> a <= b ->
  let G := gain_x L a b in let U := 10 ^ 18 * L in
  0 <= G /\ G * (a * b) <= U * (b - a) /\ U * (b - a) < (G + 1) * (a * b + 10 ^ 24).
Proof.
  intros HL A B AB G U. unfold G, gain_x. pose proof (square_bound _ _ A B) as SB.
  assert (N0 : 0 <= L * (b - a)) by (apply Z.mul_nonneg_nonneg; lia).
  replace (U * (b - a)) with (10 ^ 18 * (L * (b - a))) by (unfold U; ring). clear G U.
  set (q := a * b) in *. set (n0 := L * (b - a)) in *. clearbody q n0.
  pose proof (Z.div_mod (q + 10 ^ 24 - 1) (10 ^ 24) ltac:(lia)) as DQ. pose proof (Z.mod_pos_bound (q + 10 ^ 24 - 1) (10 ^ 24) ltac:(lia)) as MQ. set (d := (q + 10 ^ 24 - 1) / 10 ^ 24) in *. clearbody d.
  pose proof (Z.div_mod n0 (10 ^ 6) ltac:(lia)) as DN. pose proof (Z.mod_pos_bound n0 (10 ^ 6) ltac:(lia)) as MN. set (n := n0 / 10 ^ 6) in *. clearbody n.
  assert (D0 : 0 < d) by lia.
  pose proof (Z.div_mod n d ltac:(lia)) as DC. pose proof (Z.mod_pos_bound n d D0) as MC. set (g := n / d) in *.
  assert (C0 : 0 <= g) by (apply Z.div_pos; lia). clearbody g. split; [done|].
  set (rq := (q + 10 ^ 24 - 1) mod 10 ^ 24) in *. set (rn := n0 mod 10 ^ 6) in *. set (rc := n mod d) in *. clearbody rq rn rc.
  assert (K1 : g * d <= n) by lia. assert (K2 : n + 1 <= (g + 1) * d) by lia. assert (Q1 : q <= 10 ^ 24 * d <= q + 10 ^ 24) by lia. split.
  - assert (g * q <= g * (10 ^ 24 * d)) by (apply Z.mul_le_mono_nonneg_l; lia). lia.
  - assert ((g + 1) * (10 ^ 24 * d) <= (g + 1) * (q + 10 ^ 24)) by (apply Z.mul_le_mono_nonneg_l; lia). lia.
Qed.

Lemma costs_range L a m b : 0 <= L -> price_ok a -> price_ok m -> price_ok b -> a <= m -> m <= b ->
  let x := cost_x L a b in let x1 := cost_x L a m in let x2 := cost_x L m b in
  10 ^ 14 * (x1 + x2 - x - 2) <= x1 + x2 /\ 10 ^ 14 * (x - x1 - x2 - 1) <= x + 1.
Proof.
  intros HL A M B AM MB x x1 x2.
  destruct (cost_x_bounds L a b HL A B ltac:(lia)) as (P & L0 & U0). destruct (cost_x_bounds L a m HL A M AM) as (P1 & L1 & U1).
  destruct (cost_x_bounds L m b HL M B MB) as (P2 & L2 & U2). fold x in P, L0, U0. fold x1 in P1, L1, U1. fold x2 in P2, L2, U2. clearbody x x1 x2.
  pose proof (square_bound _ _ A B) as SB0. pose proof (square_bound _ _ A M) as SB1. pose proof (square_bound _ _ M B) as SB2.
  assert (A0 : 0 < a) by (unfold price_ok, MIN_SQRT_PRICE in A; lia).
  set (U := 10 ^ 18 * L) in *. set (E := 10 ^ 24) in *. set (H := 10 ^ 14) in *. assert (H0 : 0 < H) by reflexivity. assert (E0 : 0 < E) by reflexivity.
  clearbody U E H. clear A M B HL.
  set (T := a * m * b). assert (T0 : 0 < T) by (unfold T; nia).
  assert (Tm : H * (E * m) <= T) by (unfold T; nia). assert (Tb : H * (E * b) <= T) by (unfold T; nia). assert (Ta : H * (E * a) <= T) by (unfold T; nia).
  assert (L0' : U * (b - a) * m < x * T + E * m) by (unfold T; nia). assert (U0' : (x - 1) * T < U * (b - a) * m + x * (E * m)) by (unfold T; nia).
  assert (L1' : U * (m - a) * b < x1 * T + E * b) by (unfold T; nia). assert (U1' : (x1 - 1) * T < U * (m - a) * b + x1 * (E * b)) by (unfold T; nia).
  assert (L2' : U * (b - m) * a < x2 * T + E * a) by (unfold T; nia). assert (U2' : (x2 - 1) * T < U * (b - m) * a + x2 * (E * a)) by (unfold T; nia).
  assert (ID : U * (b - a) * m = U * (m - a) * b + U * (b - m) * a) by ring.
  set (V := U * (b - a) * m) in *. set (V1 := U * (m - a) * b) in *. set (V2 := U * (b - m) * a) in *. clearbody V V1 V2.
  set (em := E * m) in *. set (eb := E * b) in *. set (ea := E * a) in *. clearbody em eb ea T. clear L0 U0 L1 U1 L2 U2 SB0 SB1 SB2. split.
  - assert (Q : (x1 + x2 - 2 - x) * T < em + x1 * eb + x2 * ea) by nia.
    assert (Q2 : H * ((x1 + x2 - 2 - x) * T) < H * (em + x1 * eb + x2 * ea)) by (apply Z.mul_lt_mono_pos_l; done).
    assert (Q3 : H * (em + x1 * eb + x2 * ea) <= (1 + x1 + x2) * T).
    { assert (x1 * (H * eb) <= x1 * T) by (apply Z.mul_le_mono_nonneg_l; lia). assert (x2 * (H * ea) <= x2 * T) by (apply Z.mul_le_mono_nonneg_l; lia). nia. }
    assert (Q4 : H * (x1 + x2 - x - 2) * T < (1 + x1 + x2) * T) by nia. apply Z.mul_lt_mono_pos_r in Q4; [lia|done].
  - assert (Q : (x - 1 - x1 - x2) * T < x * em + ea + eb) by nia.
    assert (Q2 : H * ((x - 1 - x1 - x2) * T) < H * (x * em + ea + eb)) by (apply Z.mul_lt_mono_pos_l; done).
    assert (Q3 : H * (x * em + ea + eb) <= (x + 2) * T).
    { assert (x * (H * em) <= x * T) by (apply Z.mul_le_mono_nonneg_l; lia). nia. }
    assert (Q4 : H * (x - x1 - x2 - 1) * T < (x + 2) * T) by nia. apply Z.mul_lt_mono_pos_r in Q4; [lia|done].
Qed.
Lemma gains_range L a m b : 0 <= L -> price_ok a -> price_ok m -> price_ok b -> a <= m -> m <= b ->
  let x := gain_x L a b in let x1 := gain_x L a m in let x2 := gain_x L m b in
  0 <= x /\ 0 <= x1 /\ 0 <= x2 /\ 10 ^ 14 * (x1 + x2 - x - 1) <= x /\ 10 ^ 14 * (x - x1 - x2 - 2) <= x1 + x2 + 1.
Proof.
  intros HL A M B AM MB x x1 x2.
  destruct (gain_x_bounds L a b HL A B ltac:(lia)) as (P & L0 & U0). destruct (gain_x_bounds L a m HL A M AM) as (P1 & L1 & U1).
  destruct (gain_x_bounds L m b HL M B MB) as (P2 & L2 & U2). fold x in P, L0, U0. fold x1 in P1, L1, U1. fold x2 in P2, L2, U2. clearbody x x1 x2.
  pose proof (square_bound _ _ A B) as SB0. pose proof (square_bound _ _ A M) as SB1. pose proof (square_bound _ _ M B) as SB2.
  assert (A0 : 0 < a) by (unfold price_ok, MIN_SQRT_PRICE in A; lia).
  set (U := 10 ^ 18 * L) in *. set (E := 10 ^ 24) in *. set (H := 10 ^ 14) in *. assert (H0 : 0 < H) by reflexivity. assert (E0 : 0 < E) by reflexivity.
  clearbody U E H. clear A M B HL. split; [done|]. split; [done|]. split; [done|].
  set (T := a * m * b). assert (T0 : 0 < T) by (unfold T; nia).
  assert (Tm : H * (E * m) <= T) by (unfold T; nia). assert (Tb : H * (E * b) <= T) by (unfold T; nia). assert (Ta : H * (E * a) <= T) by (unfold T; nia).
  assert (L0' : x * T <= U * (b - a) * m) by (unfold T; nia). assert (U0' : U * (b - a) * m < (x + 1) * (T + E * m)) by (unfold T; nia).
  assert (L1' : x1 * T <= U * (m - a) * b) by (unfold T; nia). assert (U1' : U * (m - a) * b < (x1 + 1) * (T + E * b)) by (unfold T; nia).
  assert (L2' : x2 * T <= U * (b - m) * a) by (unfold T; nia). assert (U2' : U * (b - m) * a < (x2 + 1) * (T + E * a)) by (unfold T; nia).
  assert (ID : U * (b - a) * m = U * (m - a) * b + U * (b - m) * a) by ring.
  set (V := U * (b - a) * m) in *. set (V1 := U * (m - a) * b) in *. set (V2 := U * (b - m) * a) in *. clearbody V V1 V2.
  set (em := E * m) in *. set (eb := E * b) in *. set (ea := E * a) in *. clearbody em eb ea T. clear L0 U0 L1 U1 L2 U2 SB0 SB1 SB2. split.
  - assert (Q : (x1 + x2 - x - 1) * T < (x + 1) * em) by nia.
    assert (Q2 : H * ((x1 + x2 - x - 1) * T) < H * ((x + 1) * em)) by (apply Z.mul_lt_mono_pos_l; done).
    assert (Q3 : (x + 1) * (H * em) <= (x + 1) * T) by (apply Z.mul_le_mono_nonneg_l; lia).
    assert (Q4 : H * (x1 + x2 - x - 1) * T < (x + 1) * T) by nia. apply Z.mul_lt_mono_pos_r in Q4; [lia|done].
  - assert (Q : (x - x1 - x2 - 2) * T < (x1 + 1) * eb + (x2 + 1) * ea) by nia.
    assert (Q2 : H * ((x - x1 - x2 - 2) * T) < H * ((x1 + 1) * eb + (x2 + 1) * ea)) by (apply Z.mul_lt_mono_pos_l; done).
    assert (Q3 : (x1 + 1) * (H * eb) <= (x1 + 1) * T) by (apply Z.mul_le_mono_nonneg_l; lia).
    assert (Q5 : (x2 + 1) * (H * ea) <= (x2 + 1) * T) by (apply Z.mul_le_mono_nonneg_l; lia).
    assert (Q4 : H * (x - x1 - x2 - 2) * T < (x1 + x2 + 2) * T) by nia. apply Z.mul_lt_mono_pos_r in Q4; [lia|done].
Qed.
(** ** States *)
Lemma mark_pool_parts p now a m b L : a < m < b ->
  mark_pool (mark_pool p now a m L) now m b L = mark_pool p now a b L.
Proof.
  intros O. unfold mark_pool. cbn [p_liq p_tick p_set_liq p_set_last]. destruct p; cbn. f_equal. unfold in_range_tick.
  repeat match goal with |- context [?x <=? ?y] => destruct (Z.leb_spec x y) | |- context [?x <? ?y] => destruct (Z.ltb_spec x y) end; cbn; lia.
Qed.
Lemma inside_parts b c G l mm u : (inside b c G l mm + inside b c G mm u) mod U128 = inside b c G l u.
Proof. rewrite !inside_below. rewrite <- Zplus_mod. f_equal. lia. Qed.

Lemma ranges_add e i1 i2 i s k a m b L sl1 su1 sl2 su2 sl su s1 m1 a1 s2 m2 a2 s' m' a' :
  ereach s -> ereach s1 -> 0 <= L <= U128MAX ->
  create_position e i1 s k a m L sl1 su1 = Ok (s1, m1, a1) ->
  create_position e i2 s1 k m b L sl2 su2 = Ok (s2, m2, a2) ->
  create_position e i s k a b L sl su = Ok (s', m', a') ->
  st_pools s' = st_pools s2 /\ (forall x, x <> (k, m) -> st_ticks s' !! x = st_ticks s2 !! x) /\
  (exists g1 g2 h1 h2, 
     st_positions s' = <[(i_sender i, plen s (i_sender i)) := mkPosition k L a b ((g1 + g2) mod U128) ((h1 + h2) mod U128) (e_height e) 0 0 []]> (st_positions s) /\
     st_positions s !! (i_sender i, plen s (i_sender i)) = None /\
     st_positions s1 = <[(i_sender i1, plen s (i_sender i1)) := mkPosition k L a m g1 h1 (e_height e) 0 0 []]> (st_positions s) /\
     st_positions s !! (i_sender i1, plen s (i_sender i1)) = None /\
     st_positions s2 = <[(i_sender i2, plen s1 (i_sender i2)) := mkPosition k L m b g2 h2 (e_height e) 0 0 []]> (st_positions s1) /\
     st_positions s1 !! (i_sender i2, plen s1 (i_sender i2)) = None) /\
  st_config s' = st_config s /\ st_config s2 = st_config s /\ a < m < b /\
  (exists p p1, st_pools s !! k = Some p /\ st_pools s1 !! k = Some p1 /\ p_price p1 = p_price p).
Proof.
  intros R R1 HL E1 E2 E. apply create_raw in E1; [|done..]. apply create_raw in E2; [|done..]. apply create_raw in E; [|done..].
  cbv zeta in *. destruct E1 as (p & la & um & la1 & um1 & bm1 & bm2 & P & O1 & (Sl & Tl & Ul) & (Su & Tu & Uu) & B1 & B2 & FR & ->).
  destruct E2 as (p1 & lm & ub & lm2 & ub2 & bm1x & bm2x & P1 & O2 & (Slx & Tlx & Ulx) & (Sux & Tux & Uux) & B1x & B2x & FRx & ->).
  destruct E as (p_ & la_ & ub_ & la' & ub' & bm1' & bm2' & P' & _ & (Sl' & Tl' & Ul') & (Su' & Tu' & Uu') & B1' & B2' & FR' & ->).
  cbn [st_pools st_ticks st_bitmap st_positions st_poslen st_config st_operators] in *.
  rewrite P in P'. injection P' as <-. rewrite lookup_insert in P1. injection P1 as <-.
  pose proof (stored_fun _ _ _ _ _ _ _ Sl Sl') as ->. rewrite Ul in Ul'. injection Ul' as <-.
  assert (NAM : (k, m) <> (k, a)) by (intros X; injection X; lia). assert (NMB : (k, b) <> (k, m)) by (intros X; injection X; lia).
  assert (NAB : (k, b) <> (k, a)) by (intros X; injection X; lia).
  set (s1 := mkStore _ _ _ _ _ _ _) in *.
  assert (TM1 : st_ticks s1 !! (k, m) = Some um1) by (cbn; apply lookup_insert).
  destruct Slx as [Slx|[Slx _]]; [|congruence]. rewrite TM1 in Slx. injection Slx as <-.
  assert (EB : ub_ = ub).
  { assert (TB : st_ticks s1 !! (k, b) = st_ticks s !! (k, b)) by (cbn; by rewrite !lookup_insert_ne by done).
    destruct Sux as [Sux|(Sux & _ & CU)], Su' as [Su'|(Su' & _ & CU')]; rewrite TB in Sux; try congruence.
    assert (CE : tick_create b (mark_pool p (e_millis e) a m L) (e_millis e) = tick_create b p (e_millis e)) by reflexivity. rewrite CE in CU. congruence. }
  subst ub_. rewrite Uux in Uu'. injection Uu' as <-.
  destruct (fog_update _ _ _ _ _ Uu) as (I1 & X1 & Y1).
  split; [|split; [|split; [|split; [|split; [|split]]]]].
  - rewrite mark_pool_parts by lia. cbn. by rewrite insert_insert.
  - intros x NX. cbn. destruct (decide (x = (k, b))) as [->|A]; [by rewrite !lookup_insert|].
    rewrite !(lookup_insert_ne _ (k, b)) by done. rewrite (lookup_insert_ne _ (k, m)) by done.
    destruct (decide (x = (k, a))) as [->|B]; [rewrite lookup_insert, lookup_insert_ne, lookup_insert by done; done|].
    by rewrite !lookup_insert_ne by done.
  - exists (inside_x p la um), (inside_x p um ub), (inside_y p la um), (inside_y p um ub).
    rewrite !(proj1 (inside_xy _ _ _)), !(proj2 (inside_xy _ _ _)), !inside_parts.
    rewrite <- !(proj1 (inside_xy _ _ _)), <- !(proj2 (inside_xy _ _ _)).
    assert (GX : inside_x (mark_pool p (e_millis e) a m L) um1 ub = inside_x p um ub) by (unfold inside_x; cbn [p_tick p_fgx mark_pool p_set_liq p_set_last]; by rewrite I1, X1).
    assert (GY : inside_y (mark_pool p (e_millis e) a m L) um1 ub = inside_y p um ub) by (unfold inside_y; cbn [p_tick p_fgy mark_pool p_set_liq p_set_last]; by rewrite I1, Y1).
    rewrite GX, GY. split; [reflexivity|]. split; [exact FR'|]. split; [reflexivity|]. split; [exact FR|]. split; [reflexivity|exact FRx].
  - reflexivity.
  - reflexivity.
  - lia.
  - exists p, (mark_pool p (e_millis e) a m L). split; [done|]. split; [apply lookup_insert|done].
Qed.

Definition own (s : store) (po : position) : Prop := exists x, st_positions s !! x = Some po.
(** A deposit of liquidity [L] over one range, and two of the same liquidity over the two parts of it: the pools are the same afterwards, the
    liquidity is the same around every tick, no tick but the one in the middle is affected, the fee marks of the parts add up, and the costs are
    the same up to one unit of the second token and of the first up to two units and one part in 10^14. *)
Theorem C115_deposits e i1 i2 i s k a m b L d1 d2 d s1 m1 a1 s2 m2 a2 s' m' a' : reachable s ->
  deposit d1 k a m L -> deposit d2 k m b L -> deposit d k a b L ->
  execute e i1 s d1 = Ok (s1, m1, a1) -> execute e i2 s1 d2 = Ok (s2, m2, a2) -> execute e i s d = Ok (s', m', a') ->
  (st_pools s' = st_pools s2 /\ (forall x, x <> (k, m) -> st_ticks s' !! x = st_ticks s2 !! x) /\ forall k' c, depth s' k' c = depth s2 k' c) /\
  (exists po po1 po2, own s' po /\ own s2 po1 /\ own s2 po2 /\
     (po_lower po, po_upper po, po_liq po) = (a, b, L) /\ (po_lower po1, po_upper po1, po_liq po1) = (a, m, L) /\ (po_lower po2, po_upper po2, po_liq po2) = (m, b, L) /\
     po_fgx po = (po_fgx po1 + po_fgx po2) mod 2 ^ 128 /\ po_fgy po = (po_fgy po1 + po_fgy po2) mod 2 ^ 128) /\
  exists x1 y1 x2 y2 x y,
    m1 = collects e i1 (pk_x k) x1 ++ collects e i1 (pk_y k) y1 /\ m2 = collects e i2 (pk_x k) x2 ++ collects e i2 (pk_y k) y2 /\
    m' = collects e i (pk_x k) x ++ collects e i (pk_y k) y /\
    10 ^ 14 * (x1 + x2 - x - 2) <= x1 + x2 /\ 10 ^ 14 * (x - x1 - x2 - 1) <= x + 1 /\ y1 + y2 - 1 <= y <= y1 + y2.
Proof.
  intros R D1 D2 D E1 E2 E. pose proof (reach_call _ _ _ _ _ _ _ R E1) as R1. apply reachable_ereach in R, R1.
  destruct (deposit_execute _ _ _ _ _ _ _ _ _ _ _ D1 E1) as (sl1 & su1 & C1 & T1 & _).
  destruct (deposit_execute _ _ _ _ _ _ _ _ _ _ _ D2 E2) as (sl2 & su2 & C2 & T2 & _).
  destruct (deposit_execute _ _ _ _ _ _ _ _ _ _ _ D E) as (sl & su & C & T & _).
  destruct (ranges_add _ _ _ _ _ _ _ _ _ _ _ _ _ _ _ _ _ _ _ _ _ _ _ _ _ R R1 T C1 C2 C) as (A1 & A2 & (g1 & g2 & h1 & h2 & Q & F & Q1 & F1 & Q2 & F2) & _ & _ & O & p & p1 & P & P1 & PE).
  split; [split; [done|]; split; [done|]|split].
  - intros k' c. rewrite !depth_act. unfold Clean.act. rewrite Q, Q2. rewrite (psum_new _ _ _ _ F2), Q1, (psum_new _ _ _ _ F1), (psum_new _ _ _ _ F).
    unfold active_at, at_key. cbn [po_key po_lower po_upper po_liq]. destruct (decide (k = k')); [|lia]. unfold in_range_tick.
    repeat match goal with |- context [?x <=? ?y] => destruct (Z.leb_spec x y) | |- context [?x <? ?y] => destruct (Z.ltb_spec x y) end; cbn; lia.
  - exists (mkPosition k L a b ((g1 + g2) mod U128) ((h1 + h2) mod U128) (e_height e) 0 0 []), (mkPosition k L a m g1 h1 (e_height e) 0 0 []), (mkPosition k L m b g2 h2 (e_height e) 0 0 []).
    split; [exists (i_sender i, plen s (i_sender i)); rewrite Q; apply lookup_insert|].
    split; [exists (i_sender i1, plen s (i_sender i1)); rewrite Q2, lookup_insert_ne; [rewrite Q1; apply lookup_insert|]; intros X; rewrite X, Q1, lookup_insert in F2; discriminate F2|].
    split; [exists (i_sender i2, plen s1 (i_sender i2)); rewrite Q2; apply lookup_insert|]. done.
  - destruct (deposit_inv _ _ _ _ _ _ _ _ _ _ _ _ R T1 C1) as [DP1 M1]. specialize (M1 _ P).
    destruct (deposit_inv _ _ _ _ _ _ _ _ _ _ _ _ R1 T2 C2) as [DP2 M2]. specialize (M2 _ P1).
    pose proof (proj2 (deposit_inv _ _ _ _ _ _ _ _ _ _ _ _ R T C) _ P) as M'.
    unfold price_of_deposit, split_price in *. cbn [fst snd] in *. rewrite PE in M2.
    do 6 eexists. split; [exact M1|]. split; [exact M2|]. split; [exact M'|].
    destruct DP1 as (_ & _ & _ & _ & VL & VM & _). destruct DP2 as (_ & _ & _ & _ & _ & VU & _).
    pose proof (legal_price_range _ _ VL) as PL. pose proof (legal_price_range _ _ VM) as PM. pose proof (legal_price_range _ _ VU) as PU.
    pose proof (legal_price_lt _ _ _ VL VM (proj1 O)) as O1. pose proof (legal_price_lt _ _ _ VM VU (proj2 O)) as O2.
    set (pa := tprice a) in *. set (pm := tprice m) in *. set (pb := tprice b) in *. clearbody pa pm pb. unfold clamp. set (c := p_price p) in *. clearbody c.
    assert (ZX : forall q, price_ok q -> cost_x L q q = 0).
    { intros q QQ. unfold cost_x. cbv zeta. rewrite Z.sub_diag, Z.mul_0_r. pose proof (square_pos _ _ QQ QQ). change (0 / 10 ^ 6) with 0. apply Z.div_small. lia. }
    assert (ZY : forall q, cost_y L q q = 0) by (intros q; unfold cost_y; rewrite Z.sub_diag, Z.mul_0_r; reflexivity).
    assert (YY : forall u v w, u <= v -> v <= w -> cost_y L u v + cost_y L v w - 1 <= cost_y L u w <= cost_y L u v + cost_y L v w).
    { intros u v w UV VW. unfold cost_y. replace (L * (w - u)) with (L * (v - u) + L * (w - v)) by ring. apply ceil_split. reflexivity. }
    destruct (Z.le_gt_cases c pm) as [CM|CM].
    + rewrite (Z.max_l pm (Z.min c pb)) by lia. rewrite ZY. replace (Z.max pa (Z.min c pm)) with (Z.max pa (Z.min c pb)) by lia.
      set (w := Z.max pa (Z.min c pb)). assert (W : pa <= w <= pm) by lia. clearbody w.
      destruct (costs_range L w pm pb (proj1 T)) as [X1 X2]; [unfold price_ok; lia..|]. split; [exact X1|]. split; [exact X2|].
      pose proof (YY pa w w). lia.
    + replace (Z.max pa (Z.min c pm)) with pm by lia. rewrite ZX by (unfold price_ok; lia). replace (Z.max pm (Z.min c pb)) with (Z.max pa (Z.min c pb)) by lia.
      set (w := Z.max pa (Z.min c pb)). assert (W : pm <= w <= pb) by lia. clearbody w.
      destruct (cost_x_bounds L w pb (proj1 T)) as [X0 _]; [unfold price_ok; lia..|].
      split; [lia|]. split; [lia|]. apply YY; lia.
Qed.

(** If some position already ends in the middle, no trader can tell the difference: whatever trades follow, every reply is the same. *)
Theorem C115_unnoticed e i1 i2 i s k a m b L d1 d2 d s1 m1 a1 s2 m2 a2 s' m' a' zs : reachable s ->
  deposit d1 k a m L -> deposit d2 k m b L -> deposit d k a b L ->
  execute e i1 s d1 = Ok (s1, m1, a1) -> execute e i2 s1 d2 = Ok (s2, m2, a2) -> execute e i s d = Ok (s', m', a') ->
  ends_at s k m -> Forall is_trade_call zs -> fst (play zs s2) = fst (play zs s').
Proof.
  intros R D1 D2 D E1 E2 E EN F. pose proof (reach_call _ _ _ _ _ _ _ R E1) as R1. pose proof (reach_call _ _ _ _ _ _ _ R1 E2) as R2. pose proof (reach_call _ _ _ _ _ _ _ R E) as R'.
  destruct (C115_deposits _ _ _ _ _ _ _ _ _ _ _ _ _ _ _ _ _ _ _ _ _ _ R D1 D2 D E1 E2 E) as ((A1 & _ & A3) & _).
  apply reachable_ereach in R, R1.
  destruct (deposit_execute _ _ _ _ _ _ _ _ _ _ _ D1 E1) as (sl1 & su1 & C1 & T1 & _).
  destruct (deposit_execute _ _ _ _ _ _ _ _ _ _ _ D2 E2) as (sl2 & su2 & C2 & T2 & _).
  destruct (deposit_execute _ _ _ _ _ _ _ _ _ _ _ D E) as (sl & su & C & T & _).
  destruct (ranges_add _ _ _ _ _ _ _ _ _ _ _ _ _ _ _ _ _ _ _ _ _ _ _ _ _ R R1 T C1 C2 C) as (_ & _ & (g1 & g2 & h1 & h2 & Q & F0 & Q1 & F1 & Q2 & F2) & G1 & G2 & _).
  apply C111_trades; [done|done| |done]. constructor.
  - by rewrite G1, G2.
  - intros k'. rewrite A1. destruct (st_pools s2 !! k'); constructor. unfold trade_terms. done.
  - intros k' c. by rewrite A3.
  - assert (INS : forall (mp mp' : gmap (string * Z) position) y q, mp' = <[y := q]> mp -> mp !! y = None -> forall kk c,
      (exists x po, mp' !! x = Some po /\ po_key po = kk /\ (po_lower po = c \/ po_upper po = c)) <->
      (exists x po, mp !! x = Some po /\ po_key po = kk /\ (po_lower po = c \/ po_upper po = c)) \/ (po_key q = kk /\ (po_lower q = c \/ po_upper q = c))).
    { intros mp mp' y q -> N kk c. split.
      - intros (x & po & X & Y). destruct (decide (x = y)) as [->|NE]; [rewrite lookup_insert in X; injection X as <-; by right|]. rewrite lookup_insert_ne in X by done. left. eauto.
      - intros [(x & po & X & Y)|Y]; [|exists y, q; split; [apply lookup_insert|done]]. exists x, po. split; [|done]. rewrite lookup_insert_ne; [done|]. intros <-. congruence. }
    intros k' c. unfold ends_at. rewrite (INS _ _ _ _ Q F0), (INS _ _ _ _ Q2 F2), (INS _ _ _ _ Q1 F1). cbn [po_key po_lower po_upper].
    assert (EN' : k = k' -> m = c -> exists x po, st_positions s !! x = Some po /\ po_key po = k' /\ (po_lower po = c \/ po_upper po = c)) by (intros <- <-; exact EN).
    destruct (decide (k = k')) as [Ek|]; [|tauto]. destruct (decide (m = c)) as [Em|]; [|tauto]. pose proof (EN' Ek Em). tauto.
Qed.

(** Three positions of equal liquidity, one over a range and two over the parts of it, that have earned as much as each other (C89: they
    do, if they were opened together): withdrawing the one pays what the two pay, up to two units of the second token, and of the first up to
    three units and one part in 10^14. *)
Theorem C115_withdrawals e e1 e2 i i1 i2 s n n1 n2 po po1 po2 s' s1 s2 ms m1 m2 at' a1 a2 : reachable s ->
  st_positions s !! (i_sender i, n) = Some po -> st_positions s !! (i_sender i1, n1) = Some po1 -> st_positions s !! (i_sender i2, n2) = Some po2 ->
  po_key po1 = po_key po -> po_key po2 = po_key po -> po_liq po1 = po_liq po -> po_liq po2 = po_liq po ->
  po_lower po1 = po_lower po -> po_upper po1 = po_lower po2 -> po_upper po2 = po_upper po ->
  (forall tok, earned tok s po = earned tok s po1 + earned tok s po2) ->
  execute e i s (RemovePosition n) = Ok (s', ms, at') -> execute e1 i1 s (RemovePosition n1) = Ok (s1, m1, a1) ->
  execute e2 i2 s (RemovePosition n2) = Ok (s2, m2, a2) ->
  exists x y x1 y1 x2 y2, pays (i_sender i) (po_key po) x y ms /\ pays (i_sender i1) (po_key po) x1 y1 m1 /\ pays (i_sender i2) (po_key po) x2 y2 m2 /\
    10 ^ 14 * (x1 + x2 - x - 1) <= x /\ 10 ^ 14 * (x - x1 - x2 - 3) <= x1 + x2 + 1 /\ y1 + y2 <= y <= y1 + y2 + 2.
Proof.
  intros R Q Q1 Q2 K1 K2 L1 L2 A1 A2 A3 EA E E1 E2.
  assert (HD : forall x q, st_positions s !! x = Some q -> holds q s) by (intros x q H; exists x, q; split; [done|]; unfold same_stake; auto 10).
  destruct (held_facts s po R (HD _ _ Q)) as (p & l & u & P & El & Eu & _ & _ & O & LP & _).
  destruct (held_facts s po1 R (HD _ _ Q1)) as (p1 & l1 & u1 & P1 & El1 & Eu1 & _ & _ & O1 & _ & _).
  destruct (held_facts s po2 R (HD _ _ Q2)) as (p2 & l2 & u2 & P2 & El2 & Eu2 & _ & _ & O2 & _ & _).
  assert (p1 = p) as -> by (rewrite K1 in P1; congruence). assert (p2 = p) as -> by (rewrite K2 in P2; congruence).
  pose proof (C80_withdraw _ _ _ _ _ _ _ _ _ R E Q P) as W. pose proof (C80_withdraw _ _ _ _ _ _ _ _ _ R E1 Q1 P1) as W1. pose proof (C80_withdraw _ _ _ _ _ _ _ _ _ R E2 Q2 P2) as W2.
  cbv zeta in W, W1, W2.
  assert (AX : forall q lq uq, st_pools s !! po_key q = Some p -> st_ticks s !! (po_key q, po_lower q) = Some lq -> st_ticks s !! (po_key q, po_upper q) = Some uq ->
    accrued_x s p q = earned true s q * po_liq q / 10 ^ 34 /\ accrued_y s p q = earned false s q * po_liq q / 10 ^ 34).
  { intros q lq uq PQ LQ UQ. unfold accrued_x, accrued_y, earned, growth. rewrite PQ, LQ, UQ. done. }
  destruct (AX _ _ _ P El Eu) as [AX0 AY0]. destruct (AX _ _ _ P1 El1 Eu1) as [AX1 AY1]. destruct (AX _ _ _ P2 El2 Eu2) as [AX2 AY2]. clear AX.
  rewrite AX0, AY0 in W. rewrite AX1, AY1 in W1. rewrite AX2, AY2 in W2. clear AX0 AY0 AX1 AY1 AX2 AY2.
  rewrite K1, L1, A1, A2 in W1. rewrite K2, L2, A3 in W2. rewrite !EA in W. rewrite A1, A2 in O1. rewrite A3 in O2.
  do 6 eexists. split; [exact W|]. split; [exact W1|]. split; [exact W2|]. clear W W1 W2.
  pose proof (floor_split (earned true s po1 * po_liq po) (earned true s po2 * po_liq po) (10 ^ 34) ltac:(reflexivity)) as FX.
  pose proof (floor_split (earned false s po1 * po_liq po) (earned false s po2 * po_liq po) (10 ^ 34) ltac:(reflexivity)) as FY.
  rewrite <- Z.mul_add_distr_r in FX, FY.
  assert (N : forall tok q, 0 <= earned tok s q * po_liq po / 10 ^ 34) by (intros tok q; apply Z.div_pos; [apply Z.mul_nonneg_nonneg; [apply earned_range|lia]|reflexivity]).
  pose proof (N true po1) as N1. pose proof (N true po2) as N2. clear N.
  set (fx := (earned true s po1 + earned true s po2) * po_liq po / 10 ^ 34) in *. set (fy := (earned false s po1 + earned false s po2) * po_liq po / 10 ^ 34) in *.
  set (fx1 := earned true s po1 * po_liq po / 10 ^ 34) in *. set (fx2 := earned true s po2 * po_liq po / 10 ^ 34) in *.
  set (fy1 := earned false s po1 * po_liq po / 10 ^ 34) in *. set (fy2 := earned false s po2 * po_liq po / 10 ^ 34) in *. clearbody fx fy fx1 fx2 fy1 fy2.
  apply reachable_ereach in R. destruct (lq_pos _ (ereach_liq _ R) _ _ Q) as [(_ & VL & VU & _) _]. destruct (lq_pos _ (ereach_liq _ R) _ _ Q2) as [(_ & VM & _ & _) _].
  rewrite K2 in VM.
  pose proof (legal_price_range _ _ VL) as PL. pose proof (legal_price_range _ _ VM) as PM. pose proof (legal_price_range _ _ VU) as PU.
  pose proof (legal_price_lt _ _ _ VL VM O1) as PO1. pose proof (legal_price_lt _ _ _ VM VU O2) as PO2.
  set (pa := tprice (po_lower po)) in *. set (pm := tprice (po_lower po2)) in *. set (pb := tprice (po_upper po)) in *. set (L := po_liq po) in *. set (c := p_price p).
  clearbody pa pm pb c L.
  assert (ZX : forall q, gain_x L q q = 0) by (intros q; unfold gain_x; rewrite Z.sub_diag, Z.mul_0_r; reflexivity).
  assert (ZY : forall q, gain_y L q q = 0) by (intros q; unfold gain_y; rewrite Z.sub_diag, Z.mul_0_r; reflexivity).
  assert (YY : forall u v w, u <= v -> v <= w -> gain_y L u v + gain_y L v w <= gain_y L u w <= gain_y L u v + gain_y L v w + 1).
  { intros x v w UV VW. unfold gain_y. replace (L * (w - x)) with (L * (v - x) + L * (w - v)) by ring. apply floor_split. reflexivity. }
  destruct (Z.le_gt_cases c pm) as [CM|CM].
  + replace (Z.max pm (Z.min c pb)) with pm by lia. rewrite ZY. replace (Z.max pa (Z.min c pm)) with (Z.max pa (Z.min c pb)) by lia.
    set (w := Z.max pa (Z.min c pb)). assert (B : pa <= w <= pm) by lia. clearbody w.
    destruct (gains_range L w pm pb) as (G0 & G1 & G2 & X1 & X2); [lia|unfold price_ok; lia..|]. lia.
  + replace (Z.max pa (Z.min c pm)) with pm by lia. rewrite ZX. replace (Z.max pm (Z.min c pb)) with (Z.max pa (Z.min c pb)) by lia.
    set (w := Z.max pa (Z.min c pb)). assert (B : pm <= w <= pb) by lia. clearbody w.
    destruct (gain_x_bounds L w pb) as (G0 & _); [lia|unfold price_ok; lia..|]. pose proof (YY pa pm w). lia.
Qed.

(** *** Example: in the scenario, dan deposits over (-20, 20) or over (-20, 10) and (10, 20); positions of bob and alice end at 10 already *)
Definition ra_whole : exec_msg := CreatePosition v_key (-20) 20 900000000000 0 MAX_SQRT_PRICE.
Definition ra_left : exec_msg := CreatePosition v_key (-20) 10 900000000000 0 MAX_SQRT_PRICE.
Definition ra_right : exec_msg := Mint v_key 10 20 900000000000 0 MAX_SQRT_PRICE.
Example ex_C115 : exists s1 m1 a1 s2 m2 a2 s' m' a', reachable sc0 /\ deposit ra_left v_key (-20) 10 900000000000 /\ deposit ra_right v_key 10 20 900000000000 /\
  deposit ra_whole v_key (-20) 20 900000000000 /\ execute v_env (v_info "dan") sc0 ra_left = Ok (s1, m1, a1) /\ execute v_env (v_info "dan") s1 ra_right = Ok (s2, m2, a2) /\
  execute v_env (v_info "dan") sc0 ra_whole = Ok (s', m', a') /\ ends_at sc0 v_key 10.
Proof.
  assert (P : exists r q, execute v_env (v_info "dan") sc0 ra_left = Ok r /\ execute v_env (v_info "dan") r.1.1 ra_right = Ok q).
  { assert (H : is_ok (let* r := execute v_env (v_info "dan") sc0 ra_left in execute v_env (v_info "dan") r.1.1 ra_right) = true) by (vm_compute; reflexivity).
    destruct (execute v_env (v_info "dan") sc0 ra_left) as [r| |]; [|discriminate H..]. exists r. cbn [bind] in H. destruct (execute v_env (v_info "dan") r.1.1 ra_right) as [q| |]; [|discriminate H..]. by exists q. }
  assert (W : exists r, execute v_env (v_info "dan") sc0 ra_whole = Ok r).
  { assert (H : is_ok (execute v_env (v_info "dan") sc0 ra_whole) = true) by (vm_compute; reflexivity). destruct (execute v_env (v_info "dan") sc0 ra_whole) as [r| |]; [|discriminate H..]. by exists r. }
  destruct P as ([[s1 m1] a1] & [[s2 m2] a2] & E1 & E2). destruct W as [[[s' m'] a'] E]. cbn [fst] in E2.
  exists s1, m1, a1, s2, m2, a2, s', m', a'. split; [exact sc0_reachable|].
  split; [exists 0, MAX_SQRT_PRICE; left; reflexivity|]. split; [exists 0, MAX_SQRT_PRICE; right; reflexivity|]. split; [exists 0, MAX_SQRT_PRICE; left; reflexivity|].
  split; [exact E1|]. split; [exact E2|]. split; [exact E|].
  assert (B : exists po, st_positions sc0 !! ("bob"%string, 0) = Some po /\ (po_key po = v_key /\ po_lower po = 10)).
  { apply (some_inv (fun po => po_key po = v_key /\ po_lower po = 10)). vm_compute. split; reflexivity. }
  destruct B as (po & B1 & B2 & B3). exists ("bob"%string, 0), po. split; [exact B1|]. split; [exact B2|]. left. exact B3.
Qed.
(** and after a swap by carol across tick 10 all three have earned, the whole as much as its parts *)
Definition ra_state : res store :=
  let* '(s, _, _) := execute v_env (v_info "dan") sc0 ra_left in let* '(s, _, _) := execute v_env (v_info "dan") s ra_right in
  let* '(s, _, _) := execute v_env (v_info "fay") s ra_whole in let* '(s, _, _) := execute v_env (v_info "carol") s (Swap v_key false 20000 true MAX_SQRT_PRICE) in Ok s.
Example ex_C115_withdrawals : match ra_state with
  | Ok s => map (fun x => match st_positions s !! x with Some po => (po_lower po, po_upper po, po_liq po, earned true s po, earned false s po) | None => (0, 0, 0, 0, 0) end)
              [("fay", 0); ("dan", 0); ("dan", 1)]%string =
              [(-20, 20, 900000000000, 0, 62265363475838742570071); (-20, 10, 900000000000, 0, 36932030142505409236738); (10, 20, 900000000000, 0, 25333333333333333333333)] /\
            map (fun x : string * Z => is_ok (execute v_env (v_info x.1) s (RemovePosition x.2))) [("fay", 0); ("dan", 0); ("dan", 1)]%string = [true; true; true]
  | _ => False end.
Proof. vm_compute. split; reflexivity. Qed.
