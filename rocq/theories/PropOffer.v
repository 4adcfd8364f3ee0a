(** What a provider has traded between opening and closing a position: C96. *)
From Verif Require Import Base Decimal SqrtPrice Clamm Log FeeGrowth Types Tick Pool Position
  Tickmap Keys State Swap Exec Query Tactics PriceProofs ClammProofs PropClamm BitmapProofs PropBitmap KeysProofs Frame Handlers History Basic PosList
  Ledger Vectors Scenario SwapGeo SwapLoop Modify PSum LiqInv Geo Ops Clean PropLiq Growth Value Fund Flow PropSolv Forward PropExit PropFunds PropProt PropBlock PropClock PropAuth PropTrade PropOk.
From stdpp Require Import gmap strings.
From Coq Require Import Lia.
Open Scope Z_scope.

Lemma floor_spec n d : 0 < d -> n / d * d <= n < (n / d + 1) * d.
Proof. intros D. pose proof (Z.div_mod n d ltac:(lia)). pose proof (Z.mod_pos_bound n d D). nia. Qed.
Lemma ceil_spec n d : 0 < d -> n <= (n + d - 1) / d * d < n + d.
Proof. intros D. pose proof (floor_spec (n + d - 1) d D). nia. Qed.

Lemma price_prod a b : price_ok a -> price_ok b -> 10 ^ 14 * 10 ^ 24 <= a * b.
Proof.
  intros A B. transitivity (MIN_SQRT_PRICE * MIN_SQRT_PRICE); [by vm_compute|].
  apply Z.mul_le_mono_nonneg; unfold price_ok, MIN_SQRT_PRICE in *; lia.
Qed.
Lemma cost_x_spec L a b : 0 <= L -> price_ok a -> price_ok b -> a <= b ->
  0 <= cost_x L a b /\ L * (b - a) * 10 ^ 18 < cost_x L a b * (a * b) + 10 ^ 24 /\
  cost_x L a b * (a * b) <= L * (b - a) * 10 ^ 18 + a * b + cost_x L a b * 10 ^ 24.
Proof.
  intros HL A B AB. pose proof (price_prod a b A B) as P. unfold cost_x. cbv zeta.
  assert (Q0 : 0 <= L * (b - a)) by (apply Z.mul_nonneg_nonneg; lia).
  set (q := L * (b - a)) in *. set (m := a * b) in *. pose proof (floor_spec q (10 ^ 6) eq_refl) as N. pose proof (floor_spec m (10 ^ 24) eq_refl) as D.
  assert (N0 : 0 <= q / 10 ^ 6) by (apply Z.div_pos; [done|reflexivity]).
  assert (D0 : 10 ^ 14 <= m / 10 ^ 24) by (apply Z.div_le_lower_bound; [reflexivity|lia]).
  replace (10 ^ 24) with (10 ^ 6 * 10 ^ 18) in * by reflexivity. set (e6 := 10 ^ 6) in *. set (e18 := 10 ^ 18) in *. set (e14 := 10 ^ 14) in *.
  assert (0 < e6 /\ 0 < e18 /\ 0 < e14) as (H6 & H18 & H14) by done. set (n := q / e6) in *. set (d := m / (e6 * e18)) in *.
  pose proof (ceil_spec n d ltac:(lia)) as C. set (c := (n + d - 1) / d) in *. clearbody c n d q m e6 e18 e14. clear AB A B HL.
  assert (C0 : 0 <= c) by nia. split; [done|].
  assert (X : 0 < e6 * e18) by nia. split.
  - assert (c * d * (e6 * e18) <= c * m) by nia. assert (n * (e6 * e18) <= c * d * (e6 * e18)) by nia. nia.
  - assert (c * m <= c * (d + 1) * (e6 * e18)) by nia. assert (c * d * (e6 * e18) <= (n + d - 1) * (e6 * e18)) by nia. nia.
Qed.
Lemma gain_x_spec L a b : 0 <= L -> price_ok a -> price_ok b -> a <= b ->
  0 <= gain_x L a b /\ gain_x L a b * (a * b) <= L * (b - a) * 10 ^ 18 /\
  L * (b - a) * 10 ^ 18 < (gain_x L a b + 1) * (a * b + 10 ^ 24).
Proof.
  intros HL A B AB. pose proof (price_prod a b A B) as P. unfold gain_x.
  assert (Q0 : 0 <= L * (b - a)) by (apply Z.mul_nonneg_nonneg; lia).
  set (q := L * (b - a)) in *. set (m := a * b) in *. pose proof (floor_spec q (10 ^ 6) eq_refl) as N. pose proof (ceil_spec m (10 ^ 24) eq_refl) as D.
  assert (N0 : 0 <= q / 10 ^ 6) by (apply Z.div_pos; [done|reflexivity]).
  replace (10 ^ 24) with (10 ^ 6 * 10 ^ 18) in * by reflexivity. set (e6 := 10 ^ 6) in *. set (e18 := 10 ^ 18) in *. set (e14 := 10 ^ 14) in *.
  assert (0 < e6 /\ 0 < e18 /\ 0 < e14) as (H6 & H18 & H14) by done. set (n := q / e6) in *. set (d := (m + e6 * e18 - 1) / (e6 * e18)) in *.
  assert (X : 0 < e6 * e18) by nia. assert (D0 : 0 < d) by nia.
  pose proof (floor_spec n d D0) as G. set (g := n / d) in *. clearbody g n d q m e6 e18 e14. clear AB A B HL.
  assert (G0 : 0 <= g) by nia. split; [done|]. split.
  - assert (g * m <= g * d * (e6 * e18)) by nia. assert (g * d * (e6 * e18) <= n * (e6 * e18)) by nia. nia.
  - assert ((n + 1) * (e6 * e18) <= (g + 1) * d * (e6 * e18)) by nia. assert ((g + 1) * d * (e6 * e18) < (g + 1) * (m + e6 * e18)) by nia. nia.
Qed.
Lemma cost_y_spec L a b : L * (b - a) <= cost_y L a b * 10 ^ 30 < L * (b - a) + 10 ^ 30.
Proof. unfold cost_y. by apply ceil_spec. Qed.
Lemma gain_y_spec L a b : gain_y L a b * 10 ^ 30 <= L * (b - a) < (gain_y L a b + 1) * 10 ^ 30.
Proof. unfold gain_y. by apply floor_spec. Qed.

(** opened at the root price [c], closed at [c'], both within the range from [lo] to [hi] *)
Section trade.
  Context (L lo hi c c' : Z) (HL : 0 <= L) (LO : price_ok lo) (HI : price_ok hi) (C : lo <= c <= hi) (C' : lo <= c' <= hi).
  Let dx := gain_x L c' hi - cost_x L c hi.
  Let dy := gain_y L lo c' - cost_y L lo c.
  Lemma mid_price_ok x : lo <= x <= hi -> price_ok x.
  Proof. unfold price_ok in *. lia. Qed.
  Lemma dx_upper : dx * (c * c') < 10 ^ 24 - L * (c' - c) * 10 ^ 18.
  Proof.
    destruct (cost_x_spec L c hi HL (mid_price_ok _ C) HI ltac:(lia)) as (X0 & X1 & _).
    destruct (gain_x_spec L c' hi HL (mid_price_ok _ C') HI ltac:(lia)) as (G0 & G1 & _). unfold dx.
    set (X := cost_x L c hi) in *. set (G := gain_x L c' hi) in *. set (u := 10 ^ 24) in *. set (e := 10 ^ 18) in *.
    assert (0 < u /\ 0 < e) as [U E] by done. clearbody X G u e.
    unfold price_ok, MIN_SQRT_PRICE in *. assert (0 < c /\ 0 < c' /\ 0 < hi) as (Pc & Pc' & Ph) by lia.
    assert (A : c * (G * (c' * hi)) <= c * (L * (hi - c') * e)) by (apply Z.mul_le_mono_nonneg_l; lia).
    assert (B : c' * (L * (hi - c) * e) < c' * (X * (c * hi) + u)) by (apply Z.mul_lt_mono_pos_l; lia).
    assert (D : c' * u <= hi * u) by (apply Z.mul_le_mono_nonneg_r; lia).
    apply (Z.mul_lt_mono_pos_l hi); [lia|].
    replace (hi * ((G - X) * (c * c'))) with (c * (G * (c' * hi)) - c' * (X * (c * hi))) by ring.
    replace (hi * (u - L * (c' - c) * e)) with (hi * u + c * (L * (hi - c') * e) - c' * (L * (hi - c) * e)) by ring. lia.
  Qed.
  Lemma dx_lower : - (2 * 10 ^ 14 + cost_x L c hi + gain_x L c' hi + 1) * (c * c') <= 10 ^ 14 * (dx * (c * c') + L * (c' - c) * 10 ^ 18).
  Proof.
    destruct (cost_x_spec L c hi HL (mid_price_ok _ C) HI ltac:(lia)) as (X0 & _ & X1).
    destruct (gain_x_spec L c' hi HL (mid_price_ok _ C') HI ltac:(lia)) as (G0 & _ & G1). unfold dx.
    pose proof (price_prod c hi (mid_price_ok _ C) HI) as P1. pose proof (price_prod c' hi (mid_price_ok _ C') HI) as P2.
    set (X := cost_x L c hi) in *. set (G := gain_x L c' hi) in *. set (u := 10 ^ 24) in *. set (e := 10 ^ 18) in *. set (h := 10 ^ 14) in *.
    assert (0 < u /\ 0 < e /\ 0 < h) as (U & E & H) by done. clearbody X G u e h.
    unfold price_ok, MIN_SQRT_PRICE in *. assert (0 < c /\ 0 < c' /\ 0 < hi) as (Pc & Pc' & Ph) by lia.
    assert (A : c * (L * (hi - c') * e) <= c * ((G + 1) * (c' * hi + u))) by (apply Z.mul_le_mono_nonneg_l; lia).
    assert (B : c' * (X * (c * hi)) <= c' * (L * (hi - c) * e + c * hi + X * u)) by (apply Z.mul_le_mono_nonneg_l; lia).
    assert (D1 : X * (c' * (h * u)) <= X * (c' * (c * hi))) by (apply Z.mul_le_mono_nonneg_l; [done|]; apply Z.mul_le_mono_nonneg_l; lia).
    assert (D2 : (G + 1) * (c * (h * u)) <= (G + 1) * (c * (c' * hi))) by (apply Z.mul_le_mono_nonneg_l; [lia|]; apply Z.mul_le_mono_nonneg_l; lia).
    apply (Z.mul_le_mono_pos_l _ _ hi); [lia|].
    assert (A' : h * (c * (L * (hi - c') * e)) <= h * (c * ((G + 1) * (c' * hi + u)))) by (apply Z.mul_le_mono_nonneg_l; lia).
    assert (B' : h * (c' * (X * (c * hi))) <= h * (c' * (L * (hi - c) * e + c * hi + X * u))) by (apply Z.mul_le_mono_nonneg_l; lia).
    clear - A' B' D1 D2. lia.
  Qed.
End trade.

Definition clamp (lo hi p : Z) : Z := Z.max lo (Z.min p hi).
(** [dx], [dy]: what the owner has more of after closing than before opening, fees aside; [c], [c']: the root prices of opening
    and closing, clamped to the range; [q]: the root price at closing *)
Record standing_offer (c c' q X Y x y : Z) : Prop := {
  (* not better than the geometric mean of the two prices, by more than 10^-24 of a unit *)
  so_upper : (x - X) * (c * c') + (y - Y) * 10 ^ 48 < 10 ^ 24;
  (* nor worse by more than two units of each token and 10^-14 of the first *)
  so_lower : - (2 * 10 ^ 14 + X + x + 1) * (c * c') - 2 * 10 ^ 14 * 10 ^ 48 <= 10 ^ 14 * ((x - X) * (c * c') + (y - Y) * 10 ^ 48);
  (* a rising price sells the first token, a falling price the second *)
  so_up : c <= c' -> x <= X;
  so_down : c' <= c -> y <= Y;
  (* at the closing price, keeping the tokens would have been worth at least as much *)
  so_hold : (x - X) * (q * q) + (y - Y) * 10 ^ 48 < 10 ^ 24;
}.
Lemma offer_holds L lo hi p q : 0 <= L -> price_ok lo -> price_ok hi -> lo <= hi -> price_ok p -> price_ok q ->
  let c := clamp lo hi p in let c' := clamp lo hi q in
  standing_offer c c' q (cost_x L c hi) (cost_y L lo c) (gain_x L c' hi) (gain_y L lo c').
Proof.
  intros HL LO HI LH HP HQ c c'.
  assert (C : lo <= c <= hi) by (unfold c, clamp; lia). assert (C' : lo <= c' <= hi) by (unfold c', clamp; lia).
  pose proof (dx_upper L lo hi c c' HL LO HI C C') as U. pose proof (dx_lower L lo hi c c' HL LO HI C C') as W.
  pose proof (cost_y_spec L lo c) as CY. pose proof (gain_y_spec L lo c') as GY.
  assert (PP : 10 ^ 14 * 10 ^ 24 <= c * c') by (apply price_prod; unfold price_ok in *; lia).
  assert (Q1 : c' <= q \/ (q < c' /\ c' = lo)) by (unfold c', clamp; lia).
  assert (Q2 : q <= c' \/ (c' < q /\ c' = hi)) by (unfold c', clamp; lia).
  set (X := cost_x L c hi) in *. set (Y := cost_y L lo c) in *. set (x := gain_x L c' hi) in *. set (y := gain_y L lo c') in *.
  unfold price_ok, MIN_SQRT_PRICE in *. assert (0 < c /\ 0 < c' /\ 0 < q) as (P1 & P2 & P3) by lia. clear HP HQ LO HI LH.
  assert (E48 : 10 ^ 48 = 10 ^ 30 * 10 ^ 18) by reflexivity.
  remember (10 ^ 24) as u eqn:Eu in U, PP. remember (10 ^ 18) as e eqn:Ee in U, W, E48. remember (10 ^ 14) as h eqn:Eh in W, PP. remember (10 ^ 30) as t eqn:Et in CY, GY, E48.
  assert (0 < u /\ 0 < e /\ 0 < h /\ 0 < t) as (U0 & E0 & H0 & T0) by (rewrite Eu, Ee, Eh, Et; done). clear Ee Et.
  clearbody X Y x y c c'.
  assert (Y1 : (y - Y) * t <= L * (c' - c)) by lia. assert (Y2 : L * (c' - c) - 2 * t < (y - Y) * t) by lia.
  assert (Y1' : (y - Y) * t * e <= L * (c' - c) * e) by (apply Z.mul_le_mono_nonneg_r; lia).
  assert (Y2' : (L * (c' - c) - 2 * t) * e <= (y - Y) * t * e) by (apply Z.mul_le_mono_nonneg_r; lia).
  assert (SU : (x - X) * (c * c') + (y - Y) * (t * e) < u) by lia.
  assert (UP : c <= c' -> x <= X).
  { intros CC. assert (0 <= L * (c' - c) * e) by (apply Z.mul_nonneg_nonneg; [apply Z.mul_nonneg_nonneg|]; lia).
    destruct (Z.le_gt_cases x X) as [|G]; [done|]. assert (1 * (c * c') <= (x - X) * (c * c')) by (apply Z.mul_le_mono_nonneg_r; nia). nia. }
  assert (DN : c' <= c -> y <= Y).
  { intros CC. assert (L * (c' - c) <= 0) by (apply Z.mul_nonneg_nonpos; lia). destruct (Z.le_gt_cases y Y); [done|]. nia. }
  split; rewrite ?E48, <- ?Eu, <- ?Eh; [done| |done|done|].
  - assert (h * ((L * (c' - c) - 2 * t) * e) <= h * ((y - Y) * t * e)) by (apply Z.mul_le_mono_nonneg_l; lia). lia.
  - assert (TE : 0 < t * e) by nia. destruct (Z.le_ge_cases c c') as [CC|CC].
    + specialize (UP CC). destruct Q1 as [Q1|[Q1 ->]].
      * assert (c * c' <= q * q) by (apply Z.mul_le_mono_nonneg; lia). nia.
      * assert (c = lo) by lia. subst c. assert (y - Y <= 0) by (specialize (DN ltac:(lia)); lia).
        assert ((x - X) * (q * q) <= 0) by (apply Z.mul_nonpos_nonneg; nia). nia.
    + specialize (DN CC). destruct (Z.le_gt_cases x X) as [XX|XX].
      * assert ((x - X) * (q * q) <= 0) by (apply Z.mul_nonpos_nonneg; nia). nia.
      * destruct Q2 as [Q2|[Q2 ->]]; [assert (q * q <= c * c') by (apply Z.mul_le_mono_nonneg; lia); nia|].
        assert (x <= X) by (apply UP; lia). lia.
Qed.

(** Between opening a position at the price of [s] and closing a position of the same pool, range and liquidity at the price of [s2], whatever
    happened in between, the owner has traded at the geometric mean of the two prices, each clamped to the range.  Fees aside. *)
Theorem C96_standing_offer e i s m k lower upper L sl su s1 ms at1 e2 i2 s2 ix po s3 ms3 at3 :
  reachable s -> m = CreatePosition k lower upper L sl su \/ m = Mint k lower upper L sl su -> execute e i s m = Ok (s1, ms, at1) ->
  reachable s2 -> st_positions s2 !! (i_sender i2, ix) = Some po -> po_key po = k -> po_lower po = lower -> po_upper po = upper -> po_liq po = L ->
  execute e2 i2 s2 (RemovePosition ix) = Ok (s3, ms3, at3) ->
  exists p p2 lo hi X Y x y,
    st_pools s !! k = Some p /\ st_pools s2 !! k = Some p2 /\ calculate_sqrt_price lower = Ok lo /\ calculate_sqrt_price upper = Ok hi /\
    ms = collects e i (pk_x k) X ++ collects e i (pk_y k) Y /\
    pays (i_sender i2) k (x + accrued_x s2 p2 po) (y + accrued_y s2 p2 po) ms3 /\
    0 <= X /\ 0 <= Y /\ 0 <= x /\ 0 <= y /\
    standing_offer (Z.max lo (Z.min (p_price p) hi)) (Z.max lo (Z.min (p_price p2) hi)) (p_price p2) X Y x y.
Proof.
  intros R M H R2 E EK <- <- <- H2. destruct (C80_deposit _ _ _ _ _ _ _ _ _ _ _ _ _ R M H) as (p & EP & D).
  pose proof (reachable_ereach _ R) as ER. pose proof (reachable_ereach _ R2) as ER2.
  destruct (lq_pos _ (ereach_liq _ ER2) _ _ E) as [(PL & [[T1 T2] _] & [[T3 T4] _] & LU) [p2 EP2]].
  pose proof (C80_withdraw _ _ _ _ _ _ _ _ _ R2 H2 E EP2) as W. rewrite EK in *.
  set (lo := tprice (po_lower po)) in *. set (hi := tprice (po_upper po)) in *.
  exists p, p2, lo, hi, (cost_x (po_liq po) (clamp lo hi (p_price p)) hi), (cost_y (po_liq po) lo (clamp lo hi (p_price p))),
    (gain_x (po_liq po) (clamp lo hi (p_price p2)) hi), (gain_y (po_liq po) lo (clamp lo hi (p_price p2))).
  assert (LO : price_ok lo) by (apply tprice_range; lia). assert (HI : price_ok hi) by (apply tprice_range; lia).
  assert (LH : lo <= hi) by (apply tprice_le; lia).
  split; [done|]. split; [done|]. split; [apply calculate_sqrt_price_ok; lia|]. split; [apply calculate_sqrt_price_ok; lia|].
  split; [exact D|]. split; [exact W|].
  assert (CC : forall q, lo <= clamp lo hi q <= hi) by (intros q; unfold clamp; lia).
  assert (CP : forall q, price_ok (clamp lo hi q)) by (intros q; specialize (CC q); unfold price_ok in *; lia).
  split; [apply cost_x_spec; try done; [lia|apply CC]|].
  split; [apply Z.div_pos; [|done]; pose proof (CC (p_price p)); nia|].
  split; [apply gain_x_spec; try done; [lia|apply CC]|].
  split; [apply Z.div_pos; [|done]; pose proof (CC (p_price p2)); nia|].
  assert (PO : forall s0 p0, ereach s0 -> st_pools s0 !! k = Some p0 -> price_ok (p_price p0)).
  { intros s0 p0 R0 E0. destruct (ereach_geo _ R0 _ _ E0) as [([[A1 A2] _] & [A3 A4] & _) _].
    pose proof (sg_sp _ _ (ereach_store_geo _ _ _ R0 E0)) as [S1 _].
    destruct (top_legal (spacing k) S1) as [TR _]. pose proof (tprice_range (p_tick p0) ltac:(lia)). pose proof (tprice_range (SwapGeo.top (spacing k)) ltac:(lia)).
    unfold price_ok. lia. }
  apply offer_holds; try done; [lia|by apply (PO s)|by apply (PO s2)].
Qed.

(** carol opens below the price 1 and closes above it, bob having bought in between: fees aside, 3702 of the first token became 3701 of the second.
    At the geometric mean of the two prices 3702 are worth 3703.85, at the closing price 3706.6. *)
Example ex_C96 :
  match execute v_env (v_info "carol") sc0 (CreatePosition v_key (-20) 30 5000000000000 0 MAX_SQRT_PRICE) with
  | Ok (s1, ms, _) =>
      match execute v_env (v_info "bob") s1 (Swap v_key false 20000 true MAX_SQRT_PRICE) with
      | Ok (s2, _, _) =>
          match execute v_env (v_info "carol") s2 (RemovePosition 0), st_pools s1 !! v_key, st_pools s2 !! v_key, st_positions s2 !! ("carol"%string, 0) with
          | Ok (_, ms3, _), Some p, Some p2, Some po =>
              ms = collects v_env (v_info "carol") "tokenx" 8091 ++ collects v_env (v_info "carol") "tokeny" 4402 /\
              ms3 = [Cw20Transfer "tokenx" "carol" 4389; Cw20Transfer "tokeny" "carol" (8103 + 21)]%string /\
              (po_lower po, po_upper po, po_liq po) = (-20, 30, 5000000000000) /\
              (accrued_x s2 p2 po, accrued_y s2 p2 po) = (0, 21) /\
              p_price p = 999880762839527014734147 /\ p_price p2 = 1000621221505327102803738 /\
              tprice (-20) < p_price p /\ p_price p2 < tprice 30 /\
              p_price p * p_price p2 * 3702 / 10 ^ 46 = 370385 /\ p_price p2 * p_price p2 * 3702 / 10 ^ 46 = 370660
          | _, _, _, _ => False
          end
      | _ => False
      end
  | _ => False
  end.
Proof. vm_compute. repeat split. Qed.
