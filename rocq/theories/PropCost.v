(** C94: what a trade costs is fixed by the curve, so splitting it gains next to nothing. *)
From Verif Require Import Base Decimal SqrtPrice Clamm FeeGrowth Types Tick Pool Position Keys State Swap Exec Tactics
  PriceProofs ClammProofs PropClamm BitmapProofs Frame Handlers History Basic PosList Ledger Scenario SwapInv SwapGeo SwapLoop Modify PSum LiqInv
  Vectors Geo Ops Clean PropTrade PropLiq PropSwap Growth Value Fund Flow PropSolv Forward PropExit PropFees PropFair.
From stdpp Require Import gmap strings.
From Coq Require Import Lia.
Open Scope Z_scope.

(** * The curve of a pool
    What the positions of a pool take of the token that is paid in while the price moves from [p] to [q], in units of 10^-82 tokens: for each position its
    liquidity times the difference of the square-root prices, each clamped to the range of the position, or of their inverses if token x is paid. *)
Definition curve (d : bool) (p : Z) : Z := if d then 10 ^ 100 / p else 10 ^ 52 * p.
Definition span (d : bool) (s : store) (k : pool_key) (p q : Z) : Z :=
  psum (fun po => if decide (po_key po = k) then
     let at_ x := curve d (Z.max (tprice (po_lower po)) (Z.min x (tprice (po_upper po)))) in po_liq po * (at_ q - at_ p) else 0) (st_positions s).
Definition pool_liq (s : store) (k : pool_key) : Z := psum (fun po => if decide (po_key po = k) then po_liq po else 0) (st_positions s).

Lemma span_vals d s k p q : span d s k p q = vals d (st_positions s) k q - vals d (st_positions s) k p.
Proof.
  unfold span, vals. rewrite <- psum_sub. apply psum_ext. intros x po _. unfold at_key. destruct (decide _); [|done]. unfold val, pf, clampp, curve, rho, E52, E100. cbv zeta. destruct d; lia.
Qed.

(** ** One leg *)
Definition unit_worth (d : bool) : Z := if d then 45 * 10 ^ 60 else 10 ^ 52.
Definition E12 : Z := 10 ^ 12.
Definition E14 : Z := 10 ^ 14.

Lemma rho_gap a b : 0 < b -> b <= a -> (a - b) * E100 <= a * b * (rho b - rho a + 1).
Proof.
  intros B0 AB. pose proof (rho_spec a ltac:(lia)) as [A1 _]. pose proof (rho_spec b B0) as [_ B1].
  assert (a * E100 <= a * (b * (rho b + 1))) by (apply Z.mul_le_mono_nonneg_l; lia).
  assert (b * (a * rho a) <= b * E100) by (apply Z.mul_le_mono_nonneg_l; lia). lia.
Qed.
Lemma rho_unit b : 15258932000000000000 <= b -> rho (b - 1) - rho b <= 44 * 10 ^ 60.
Proof.
  intros B0. pose proof (rho_spec b ltac:(lia)) as [_ B1]. pose proof (rho_spec (b - 1) ltac:(lia)) as [A1 _]. set (c := b - 1) in *.
  assert (BC : 15258931999999999999 * 15258932000000000000 <= c * b) by (apply Z.mul_le_mono_nonneg; lia).
  assert (X1 : b * (c * rho c) <= b * E100) by (apply Z.mul_le_mono_nonneg_l; lia).
  assert (X2 : c * E100 <= c * (b * (rho b + 1))) by (apply Z.mul_le_mono_nonneg_l; lia).
  destruct (Z.le_gt_cases (rho c - rho b) (44 * 10 ^ 60)) as [|GT]; [done|]. exfalso. set (g := rho c - rho b - 1).
  assert (G : 44 * 10 ^ 60 <= g) by (unfold g; lia).
  assert (c * b * g <= E100). { unfold g. replace (c * b * (rho c - rho b - 1)) with (b * (c * rho c) - c * (b * (rho b + 1))) by lia. replace b with (c + 1) in X1 at 2 by (unfold c; lia). lia. }
  assert (c * b * (44 * 10 ^ 60) <= c * b * g) by (apply Z.mul_le_mono_nonneg_l; lia).
  assert (15258931999999999999 * 15258932000000000000 * (44 * 10 ^ 60) <= c * b * (44 * 10 ^ 60)) by (apply Z.mul_le_mono_nonneg_r; lia). unfold E100 in *. lia.
Qed.

Lemma leg_low f d by_in l : 0 <= f <= E12 -> 0 <= lg_liq l < 2 ^ 128 -> 15258932000000000000 <= lg_to l -> on_curve d by_in l -> fee_due f d by_in l ->
  (E12 + f) * E14 * (lg_liq l * (pf d (lg_to l) - pf d (lg_from l))) <= E12 * UNIT * ((E14 + 1) * (lg_in l + lg_fee l) + 2 * E14).
Proof.
  destruct l as [c a b L i o fe]. unfold on_curve, fee_due. cbn [lg_in lg_fee lg_liq lg_from lg_to]. intros F L0 B OC FD.
  assert (LU : 0 <= L <= U128MAX) by (change (2 ^ 128) with (U128MAX + 1) in L0; lia).
  assert (COST : L * (pf d b - pf d a) <= UNIT * i + LOSS /\ 0 <= i /\ b <= a \/ L * (pf d b - pf d a) <= UNIT * i + LOSS /\ 0 <= i /\ d = false).
  { destruct d.
    - left. destruct OC as (O & I1 & I2 & _). cbn [pf]. change (10 ^ 24) with SP_ONE in I1.
      pose proof (x_up_covers b a L i ltac:(unfold MIN_SQRT_PRICE; lia) O LU ltac:(unfold E18 in *; lia)). split; [lia|]. split; [|done].
      assert (0 <= L * (a - b)) by (apply Z.mul_nonneg_nonneg; lia).
      assert (PQ : 10 ^ 24 < a * b). { assert (15258932000000000000 * 15258932000000000000 <= a * b) by (apply Z.mul_le_mono_nonneg; lia). lia. }
      destruct (Z.le_gt_cases 0 i); [done|]. exfalso. assert (i * (a * b) <= -1 * (a * b)) by (apply Z.mul_le_mono_nonneg_r; lia). unfold SP_ONE in *. lia.
    - right. destruct OC as (O & [I1 _] & _). cbn [pf]. assert (0 <= L * (b - a)) by (apply Z.mul_nonneg_nonneg; lia). unfold E52, UNIT, LOSS. split; [lia|]. split; [lia|done]. }
  assert (FEE : E14 * (i * f) <= E12 * (E14 * fe + E14 + (i + fe)) /\ 0 <= i + fe).
  { assert (I0 : 0 <= i) by tauto. assert (0 <= i * f) by (apply Z.mul_nonneg_nonneg; lia).
    destruct FD as [FD|(_ & F0 & FD)]; [unfold E12, E14; lia|]. split; [|lia]. destruct d.
    - destruct COST as [(_ & _ & AB)|(_ & _ & ?)]; [|done]. destruct FD as [FD _].
      assert (Q : E14 <= b * a / 10 ^ 24). { apply Z.div_le_lower_bound; [reflexivity|]. transitivity (15258932000000000000 * 15258932000000000000); [unfold E14; lia|]. apply Z.mul_le_mono_nonneg; lia. }
      set (q := b * a / 10 ^ 24) in *. clearbody q. assert (D : E14 * ((i + fe) / q) <= i + fe).
      { assert (0 <= (i + fe) / q) by (apply Z.div_pos; unfold E14 in *; lia). pose proof (floor_spec (i + fe) q ltac:(unfold E14 in *; lia)) as [D1 _].
        assert (E14 * ((i + fe) / q) <= q * ((i + fe) / q)) by (apply Z.mul_le_mono_nonneg_r; lia). lia. }
      set (z := (i + fe) / q) in *. clearbody z. unfold E12, E14 in *. lia.
    - unfold E12, E14. lia. }
  assert (C : L * (pf d b - pf d a) <= UNIT * i + LOSS) by tauto. set (D := L * (pf d b - pf d a)) in *. clearbody D. destruct FEE as [FEE AP].
  assert (X : (E12 + f) * E14 * D <= (E12 + f) * E14 * (UNIT * i + LOSS)) by (apply Z.mul_le_mono_nonneg_l; [unfold E12, E14; lia|done]).
  assert (Y : UNIT * (E14 * (i * f)) <= UNIT * (E12 * (E14 * fe + E14 + (i + fe)))) by (apply Z.mul_le_mono_nonneg_l; [discriminate|done]).
  assert (W : (E12 + f) * E14 * LOSS <= 2 * E12 * E14 * LOSS) by (apply Z.mul_le_mono_nonneg_r; [discriminate|]; unfold E12, E14 in *; lia).
  assert (V : 2 * E12 * E14 * LOSS <= E12 * UNIT * E14) by (vm_compute; discriminate).
  replace ((E12 + f) * E14 * (UNIT * i + LOSS)) with (E12 * UNIT * (E14 * i) + UNIT * (E14 * (i * f)) + (E12 + f) * E14 * LOSS) in X by ring. 
  replace (UNIT * (E12 * (E14 * fe + E14 + (i + fe)))) with (E12 * UNIT * (E14 * fe + E14 + (i + fe))) in Y by ring.
  replace ((E14 + 1) * (i + fe) + 2 * E14) with (E14 * i + (E14 * fe + E14 + (i + fe)) + E14) by ring. rewrite !Z.mul_add_distr_l with (n := E12 * UNIT). rewrite !Z.mul_add_distr_l with (n := E12 * UNIT) in Y. lia.
Qed.

Lemma leg_up f d by_in l : 0 <= f <= E12 -> 0 <= lg_liq l < 2 ^ 128 -> 15258932000000000000 <= lg_to l -> on_curve d by_in l -> fee_due f d by_in l ->
  (lg_in l + lg_fee l) * (E12 - f) * UNIT * (E14 - 1) <= E12 * E14 * (lg_liq l * (pf d (lg_to l) - pf d (lg_from l)) + 3 * UNIT + lg_liq l * unit_worth d).
Proof.
  destruct l as [c a b L i o fe]. unfold on_curve, fee_due. cbn [lg_in lg_fee lg_liq lg_from lg_to]. intros F L0 B OC FD. change (10 ^ 12) with E12 in FD.
  set (D := L * (pf d b - pf d a)).
  (* in terms of what goes into the curve *)
  assert (CASE : exists z, (i + fe) * (E12 - f) <= E12 * (z + 1) /\ z * UNIT * (E14 - 1) <= E14 * (D + 2 * UNIT + L * unit_worth d)).
  { destruct FD as [FD|(_ & F0 & FD)].
    - exists i. split.
      { assert (0 <= fe * f). { apply Z.mul_nonneg_nonneg; [|lia]. assert (0 <= i * f); [|unfold E12 in *; lia]. apply Z.mul_nonneg_nonneg; [|lia].
          destruct d; [destruct OC as (O & I1 & _)|destruct OC as (O & [I1 _] & _)].
          - assert (0 <= L * (a - b)) by (apply Z.mul_nonneg_nonneg; lia).
            assert (PQ : 10 ^ 24 < a * b). { assert (15258932000000000000 * 15258932000000000000 <= a * b) by (apply Z.mul_le_mono_nonneg; lia). lia. }
            destruct (Z.le_gt_cases 0 i); [done|]. exfalso. assert (i * (a * b) <= -1 * (a * b)) by (apply Z.mul_le_mono_nonneg_r; lia). lia.
          - assert (0 <= L * (b - a)) by (apply Z.mul_nonneg_nonneg; lia). lia. }
        lia. }
      destruct d.
      + destruct OC as (O & _ & I2 & _). cbn [unit_worth pf] in *. pose proof (rho_gap a b ltac:(lia) O) as G.
        assert (PQ : 15258932000000000000 * 15258932000000000000 <= a * b) by (apply Z.mul_le_mono_nonneg; lia).
        set (ab := a * b) in *. assert (P0 : 0 < ab) by lia.
        assert (GL : L * ((a - b) * E100) <= L * (ab * (rho b - rho a + 1))) by (apply Z.mul_le_mono_nonneg_l; lia).
        assert (RM : rho a <= rho b) by (apply rho_anti; lia).
        assert (D0 : 0 <= D) by (apply Z.mul_nonneg_nonneg; lia).
        destruct (Z.le_gt_cases i 1) as [I1|I1].
        { assert (i * UNIT * (E14 - 1) <= 1 * UNIT * (E14 - 1)) by (apply Z.mul_le_mono_nonneg_r; [discriminate|apply Z.mul_le_mono_nonneg_r; [discriminate|lia]]).
          assert (E14 * (1 * UNIT) <= E14 * (D + 2 * UNIT + L * (45 * 10 ^ 60))) by (apply Z.mul_le_mono_nonneg_l; [discriminate|unfold UNIT in *; lia]). unfold UNIT, E14 in *. lia. }
        assert (N1 : (i - 1) * (ab * (E14 - 1)) <= (i - 1) * (E14 * (ab - 10 ^ 24))) by (apply Z.mul_le_mono_nonneg_l; [lia|unfold E14; lia]).
        assert (N2 : ab * ((i - 1) * UNIT * (E14 - 1)) <= ab * (E14 * (D + L))).
        { change E100 with (10 ^ 18 * UNIT) in GL.
          assert (X : UNIT * ((i - 1) * (ab - 10 ^ 24)) <= UNIT * (L * (a - b) * 10 ^ 18)) by (apply Z.mul_le_mono_nonneg_l; [discriminate|lia]).
          assert (Y : UNIT * ((i - 1) * (ab * (E14 - 1))) <= UNIT * ((i - 1) * (E14 * (ab - 10 ^ 24)))) by (apply Z.mul_le_mono_nonneg_l; [discriminate|lia]).
          assert (X' : E14 * (UNIT * ((i - 1) * (ab - 10 ^ 24))) <= E14 * (UNIT * (L * (a - b) * 10 ^ 18))) by (apply Z.mul_le_mono_nonneg_l; [discriminate|lia]).
          assert (G' : E14 * (L * ((a - b) * (10 ^ 18 * UNIT))) <= E14 * (L * (ab * (rho b - rho a + 1)))) by (apply Z.mul_le_mono_nonneg_l; [discriminate|lia]).
          replace (ab * (E14 * (D + L))) with (E14 * (L * (ab * (rho b - rho a + 1)))) by (unfold D; cbn [pf]; ring).
          replace (ab * ((i - 1) * UNIT * (E14 - 1))) with (UNIT * ((i - 1) * (ab * (E14 - 1)))) by ring. 
          replace (UNIT * ((i - 1) * (E14 * (ab - 10 ^ 24)))) with (E14 * (UNIT * ((i - 1) * (ab - 10 ^ 24)))) in Y by ring.
          replace (E14 * (L * ((a - b) * (10 ^ 18 * UNIT)))) with (E14 * (UNIT * (L * (a - b) * 10 ^ 18))) in G' by ring. lia. }
        apply Z.mul_le_mono_pos_l in N2; [|done].
        replace (i * UNIT * (E14 - 1)) with ((i - 1) * UNIT * (E14 - 1) + UNIT * (E14 - 1)) by ring. unfold UNIT, E14 in *. lia.
      + destruct OC as (O & [_ I2] & _). cbn [unit_worth pf] in *.
        assert (D0 : 0 <= L * (b - a)) by (apply Z.mul_nonneg_nonneg; lia).
        assert (DE : D = 10 ^ 52 * (L * (b - a))) by (unfold D, E52; ring). rewrite DE. set (y := L * (b - a)) in *. clearbody y.
        assert (i * UNIT <= 10 ^ 52 * y + 2 * UNIT + L * 10 ^ 52) by (unfold UNIT; lia). unfold UNIT, E14 in *. lia.
    - exists ((i + fe) * (E12 - f) / E12). pose proof (floor_spec ((i + fe) * (E12 - f)) E12 ltac:(reflexivity)) as [_ N].
      cbv zeta in FD. set (net := (i + fe) * (E12 - f) / E12) in *. clearbody net. split; [lia|].
      assert (D0 : 0 <= D).
      { destruct d; cbn [pf] in D; apply Z.mul_nonneg_nonneg; try lia.
        - pose proof (rho_anti b a ltac:(lia) ltac:(tauto)). lia.
        - unfold E52. lia. }
      assert (M : net * UNIT <= D + UNIT + L * unit_worth d).
      { destruct d.
        - destruct FD as [_ FD]. destruct OC as (O & _). cbn [unit_worth pf] in *. set (e := b - 1) in *.
          assert (PQ : 15258932000000000000 * 15258931999999999999 <= a * e) by (apply Z.mul_le_mono_nonneg; lia).
          pose proof (rho_gap a e ltac:(lia) ltac:(lia)) as G. pose proof (rho_unit b B) as RU. fold e in RU.
          set (ae := a * e) in *. assert (P0 : 0 < ae) by lia.
          assert (GL : L * ((a - e) * E100) <= L * (ae * (rho e - rho a + 1))) by (apply Z.mul_le_mono_nonneg_l; lia).
          assert (X : ae * (net * UNIT) <= ae * (L * (rho e - rho a + 1) + 10 ^ 68)).
          { change E100 with (10 ^ 18 * UNIT) in GL.
            assert (UNIT * (net * ae) <= UNIT * (L * (a - e) * 10 ^ 18 + 10 ^ 24)) by (apply Z.mul_le_mono_nonneg_l; [discriminate|lia]).
            assert (UNIT * 10 ^ 24 <= ae * 10 ^ 68) by (unfold UNIT; lia).
            replace (ae * (net * UNIT)) with (UNIT * (net * ae)) by ring. 
            replace (ae * (L * (rho e - rho a + 1) + 10 ^ 68)) with (L * (ae * (rho e - rho a + 1)) + ae * 10 ^ 68) by ring.
            replace (L * ((a - e) * (10 ^ 18 * UNIT))) with (UNIT * (L * (a - e) * 10 ^ 18)) in GL by ring. lia. }
          apply Z.mul_le_mono_pos_l in X; [|done].
          assert (L * (rho e - rho a + 1) <= L * (rho b - rho a + 45 * 10 ^ 60)) by (apply Z.mul_le_mono_nonneg_l; lia).
          unfold D. cbn [pf]. unfold UNIT in *. lia.
        - destruct FD as [_ FD]. cbn [unit_worth pf] in *.
          assert (DE : D = 10 ^ 52 * (L * (b - a))) by (unfold D, E52; ring). rewrite DE. replace (L * (b + 1 - a)) with (L * (b - a) + L) in FD by ring. set (y := L * (b - a)) in *. clearbody y. unfold UNIT. lia. }
      assert (W0 : 0 <= L * unit_worth d) by (apply Z.mul_nonneg_nonneg; [lia|by destruct d]).
      set (w := L * unit_worth d) in *. clearbody w D. unfold UNIT, E14 in *. lia. }
  destruct CASE as (z & C1 & C2). set (w := L * unit_worth d) in *. clearbody w D. set (A := (i + fe) * (E12 - f)) in *. clearbody A. clear - C1 C2.
  unfold UNIT, E14, E12 in *. lia.
Qed.

(** what a leg pays out *)
Lemma leg_out d l : 0 <= lg_liq l -> 15258932000000000000 <= lg_from l -> 15258932000000000000 <= lg_to l -> on_curve d true l ->
  UNIT * lg_out l <= lg_liq l * (pf (negb d) (lg_from l) - pf (negb d) (lg_to l)) + lg_liq l /\
  E14 * (lg_liq l * (pf (negb d) (lg_from l) - pf (negb d) (lg_to l))) <= (E14 + 1) * UNIT * (lg_out l + 1) + E14 * lg_liq l.
Proof.
  destruct l as [c a b L i o fe]. unfold on_curve. cbn [lg_out lg_liq lg_from lg_to]. intros L0 A B OC. destruct d; cbn [negb pf].
  - destruct OC as (O & _ & _ & OC & [LO|[? _]]); [|done]. replace (L * (E52 * a - E52 * b)) with (10 ^ 52 * (L * (a - b))) by (unfold E52; ring).
    assert (0 <= L * (a - b)) by (apply Z.mul_nonneg_nonneg; lia).
    set (y := L * (a - b)) in *. clearbody y. unfold UNIT, E14. lia.
  - destruct OC as (O & _ & OC & [LO|[? _]]); [|done]. pose proof (rho_gap b a ltac:(lia) O) as G.
    pose proof (rho_spec a ltac:(lia)) as [A1 _]. pose proof (rho_spec b ltac:(lia)) as [_ B1].
    assert (PQ : 15258932000000000000 * 15258932000000000000 <= a * b) by (apply Z.mul_le_mono_nonneg; lia).
    assert (G2 : a * b * (rho a - rho b - 1) <= (b - a) * E100).
    { assert (b * (a * rho a) <= b * E100) by (apply Z.mul_le_mono_nonneg_l; lia). assert (a * E100 <= a * (b * (rho b + 1))) by (apply Z.mul_le_mono_nonneg_l; lia). lia. }
    replace (b * a) with (a * b) in G by ring. set (ab := a * b) in *. assert (P0 : 0 < ab) by lia.
    assert (Y0 : 0 <= L * (b - a)) by (apply Z.mul_nonneg_nonneg; lia).
    assert (GL : L * ((b - a) * E100) <= L * (ab * (rho a - rho b + 1))) by (apply Z.mul_le_mono_nonneg_l; lia).
    assert (GL2 : L * (ab * (rho a - rho b - 1)) <= L * ((b - a) * E100)) by (apply Z.mul_le_mono_nonneg_l; lia).
    replace (L * ((b - a) * E100)) with (UNIT * (L * (b - a) * 10 ^ 18)) in GL, GL2 by (change E100 with (10 ^ 18 * UNIT); ring).
    set (y := L * (b - a) * 10 ^ 18) in *. assert (0 <= y) by (unfold y; lia). split.
    + assert (UNIT * (o * ab) <= UNIT * y) by (apply Z.mul_le_mono_nonneg_l; [discriminate|lia]).
      apply (Z.mul_le_mono_pos_l _ _ ab); [done|]. replace (ab * (L * (rho a - rho b) + L)) with (L * (ab * (rho a - rho b + 1))) by ring. lia.
    + assert (O0 : 0 <= o + 1). { destruct (Z.le_gt_cases 0 (o + 1)); [done|]. assert ((o + 1) * (ab + 10 ^ 24) <= -1 * (ab + 10 ^ 24)) by (apply Z.mul_le_mono_nonneg_r; lia). lia. }
      assert (E14 * UNIT * y <= E14 * UNIT * ((o + 1) * (ab + 10 ^ 24))) by (apply Z.mul_le_mono_nonneg_l; [discriminate|lia]).
      assert (UNIT * (o + 1) * (E14 * (ab + 10 ^ 24)) <= UNIT * (o + 1) * ((E14 + 1) * ab)). { apply Z.mul_le_mono_nonneg_l; [apply Z.mul_nonneg_nonneg; [discriminate|done]|unfold E14; lia]. }
      apply (Z.mul_le_mono_pos_l _ _ ab); [done|].
      assert (E14 * (L * (ab * (rho a - rho b - 1))) <= E14 * (UNIT * y)) by (apply Z.mul_le_mono_nonneg_l; [discriminate|lia]).
      replace (ab * (E14 * (L * (rho a - rho b)))) with (E14 * (L * (ab * (rho a - rho b - 1))) + ab * (E14 * L)) by ring. lia.
Qed.

(** ** All legs of a swap *)
Lemma legs_span d s k ls : liq_inv s -> forall b p p', Forall (fair s k d true) ls -> chained p ls p' ->
  span b s k p p' = sum_of (fun l => lg_liq l * (pf b (lg_to l) - pf b (lg_from l))) ls.
Proof.
  intros LI b. induction ls as [|l ls IH]; intros p p' F C; cbn in C |- *.
  - subst p'. rewrite span_vals. lia.
  - destruct C as [FR C]. inversion F as [|? ? [[Q SD] _] F']; subst. pose proof (IH _ _ F' C) as IH'. unfold sum_of in IH' |- *. rewrite <- IH'. rewrite !span_vals.
    assert (V : vals b (st_positions s) k (lg_to l) - vals b (st_positions s) k (lg_from l) = act s k (lg_tick l) * (pf b (lg_to l) - pf b (lg_from l))).
    { apply vals_step; [done|]. exact SD. }
    change (act s k (lg_tick l)) with (psum (active_at k (lg_tick l)) (st_positions s)) in V.
    assert (QA : lg_liq l = psum (active_at k (lg_tick l)) (st_positions s)) by exact Q. rewrite QA. lia.
Qed.

Lemma liq_bound s k l : liq_inv s -> in_force s k l -> lg_liq l <= pool_liq s k.
Proof.
  intros LI [-> _]. unfold pool_liq. apply psum_le. intros x po E. destruct (decide _); [|lia]. pose proof (lq_pos _ LI _ _ E) as [[V _] _]. destruct (po_lower po <=? lg_tick l), (lg_tick l <? po_upper po); cbn [andb]; lia.
Qed.

Lemma chained_from ls (P : Z -> Prop) : forall p p', chained p ls p' -> P p -> Forall (fun l => P (lg_to l)) ls -> Forall (fun l => P (lg_from l)) ls.
Proof. induction ls as [|l ls IH]; intros p p' C X F; [constructor|]. destruct C as [<- C]. inversion F; subst. constructor; [done|]. by eapply IH. Qed.

(** * What swaps cost
    Moving the price of pool [k] from [p] to [p'] in direction [d] cost [A] tokens and yielded [O], to within rounding in [n] places: what is paid
    is the fee on top of the curve at least and the fee as a share of the whole at most, and what is paid out follows the curve. *)
Record costs (s : store) (k : pool_key) (d : bool) (p p' A O n : Z) : Prop := {
  co_low : (10 ^ 12 + ft_fee (pk_tier k)) * 10 ^ 14 * span d s k p p' <= 10 ^ 12 * 10 ^ 82 * ((10 ^ 14 + 1) * A + 2 * 10 ^ 14 * n);
  co_up : A * (10 ^ 12 - ft_fee (pk_tier k)) * 10 ^ 82 * (10 ^ 14 - 1) <= 10 ^ 12 * 10 ^ 14 * (span d s k p p' + n * (3 * 10 ^ 82 + pool_liq s k * unit_worth d));
  co_out : 10 ^ 82 * O <= span (negb d) s k p' p + n * pool_liq s k;
  co_least : 10 ^ 14 * span (negb d) s k p' p <= (10 ^ 14 + 1) * 10 ^ 82 * (O + n) + 10 ^ 14 * (n * pool_liq s k)
}.
Lemma costs_legs s k d ls p p' : liq_inv s -> 0 <= ft_fee (pk_tier k) <= E12 -> 15258932000000000000 <= p -> Forall (fair s k d true) ls -> chained p ls p' ->
  costs s k d p p' (sum_of (fun l => lg_in l + lg_fee l) ls) (sum_of lg_out ls) (Z.of_nat (Datatypes.length ls)).
Proof.
  intros LI FE P0 F C.
  assert (FR : Forall (fun l => 15258932000000000000 <= lg_from l) ls).
  { eapply (chained_from ls (fun z => 15258932000000000000 <= z)); [exact C|exact P0|]. eapply Forall_impl; [exact F|]. intros l (_ & X & _). exact X. }
  assert (SP := fun b => legs_span d s k ls LI b p p' F C).
  assert (SO : span (negb d) s k p' p = sum_of (fun l => lg_liq l * (pf (negb d) (lg_from l) - pf (negb d) (lg_to l))) ls).
  { replace (span (negb d) s k p' p) with (- span (negb d) s k p p') by (rewrite !span_vals; lia). rewrite (SP (negb d)). clear.
    induction ls as [|l ls IH]; [done|]. cbn [sum_of foldr]. unfold sum_of in IH. lia. }
  assert (UW : 0 <= unit_worth d) by (by destruct d).
  constructor; rewrite ?SO, ?(SP d); change (10 ^ 12) with E12; change (10 ^ 14) with E14; change (10 ^ 82) with UNIT; clear SP SO C P0; induction F as [|l ls (Q & T & L & OC & FD) F IH]; try (cbn; lia);
    inversion FR as [|? ? FR1 FR2]; subst; specialize (IH FR2); pose proof (liq_bound _ _ _ LI Q) as LB;
    cbn [sum_of foldr Datatypes.length]; rewrite Nat2Z.inj_succ; unfold sum_of in IH |- *.
  - pose proof (leg_low _ _ _ _ FE L T OC FD) as X. lia.
  - pose proof (leg_up _ _ _ _ FE L T OC FD) as X.
    assert (lg_liq l * unit_worth d <= pool_liq s k * unit_worth d) by (apply Z.mul_le_mono_nonneg_r; lia).
    set (f := ft_fee _) in *. set (D := lg_liq l * (_ - _)) in *. set (w := pool_liq s k * unit_worth d) in *. set (w0 := lg_liq l * unit_worth d) in *. clearbody D w w0 f.
    set (g := foldr _ _ ls) in *. set (h := foldr _ _ ls) in *. unfold E14, E12, UNIT in *. lia.
  - pose proof (leg_out _ _ (proj1 L) FR1 T OC) as [X _]. lia.
  - pose proof (leg_out _ _ (proj1 L) FR1 T OC) as [_ X].
    set (D := lg_liq l * (_ - _)) in *. clearbody D. set (g := foldr _ _ ls) in *. set (h := foldr _ _ ls) in *. unfold E14, UNIT in *. lia.
Qed.

Lemma span_same d s s' k p q : st_positions s' = st_positions s -> span d s' k p q = span d s k p q.
Proof. unfold span. by intros ->. Qed.
Lemma pool_liq_nonneg s k : liq_inv s -> 0 <= pool_liq s k.
Proof. intros LI. unfold pool_liq. apply psum_nonneg. intros x po E. pose proof (lq_pos _ LI _ _ E) as [[V _] _]. destruct (decide _); lia. Qed.
Lemma unit_worth_nonneg d : 0 <= unit_worth d.
Proof. by destruct d. Qed.

Lemma costs_none s k d p : liq_inv s -> costs s k d p p 0 0 0.
Proof.
  intros LI. assert (forall b, span b s k p p = 0) as Z0 by (intros b; rewrite span_vals; lia). constructor; rewrite !Z0; cbn; lia.
Qed.
Lemma costs_trans s k d p p1 p2 A1 O1 n1 A2 O2 n2 : costs s k d p p1 A1 O1 n1 -> costs s k d p1 p2 A2 O2 n2 -> costs s k d p p2 (A1 + A2) (O1 + O2) (n1 + n2).
Proof.
  intros [L1 U1 O1' M1] [L2 U2 O2' M2].
  assert (X : span d s k p p2 = span d s k p p1 + span d s k p1 p2) by (rewrite !span_vals; lia).
  assert (Y : span (negb d) s k p2 p = span (negb d) s k p1 p + span (negb d) s k p2 p1) by (rewrite !span_vals; lia).
  constructor; rewrite ?X, ?Y; set (w := pool_liq s k * unit_worth d) in *; clearbody w; lia.
Qed.
Lemma costs_more s k d p p' A O n n' : liq_inv s -> n <= n' -> costs s k d p p' A O n -> costs s k d p p' A O n'.
Proof.
  intros LI N [L U O' M]. pose proof (pool_liq_nonneg s k LI) as PL. pose proof (unit_worth_nonneg d) as UW.
  assert (W0 : 0 <= pool_liq s k * unit_worth d) by (apply Z.mul_nonneg_nonneg; done).
  assert (n * pool_liq s k <= n' * pool_liq s k) by (apply Z.mul_le_mono_nonneg_r; lia).
  assert (n * (3 * 10 ^ 82 + pool_liq s k * unit_worth d) <= n' * (3 * 10 ^ 82 + pool_liq s k * unit_worth d)) by (apply Z.mul_le_mono_nonneg_r; lia).
  constructor; lia.
Qed.
Lemma costs_same s s' k d p p' A O n : st_positions s' = st_positions s -> costs s' k d p p' A O n -> costs s k d p p' A O n.
Proof.
  intros E [L U O' M]. assert (PE : pool_liq s' k = pool_liq s k) by (unfold pool_liq; by rewrite E). rewrite PE in *.
  rewrite (span_same d s s' k p p' E) in L, U. rewrite (span_same (negb d) s s' k p' p E) in O', M. constructor; assumption.
Qed.

(** [m] clean swaps of exact amounts in one direction in pool [k], by whomever, paying [A] and yielding [O] altogether *)
Inductive trades (d : bool) (k : pool_key) : Z -> store -> Z -> Z -> store -> Prop :=
| tr_none s : trades d k 0 s 0 0 s
| tr_swap m s e i a lim A1 O1 s1 ms A2 O2 s2 :
    clean_call e i s (Swap k d a true lim) -> execute e i s (Swap k d a true lim) = Ok (s1, ms, [("amount_in", A1); ("amount_out", O1)]%string) ->
    trades d k m s1 A2 O2 s2 -> trades d k (m + 1) s (A1 + A2) (O1 + O2) s2.

(** the places at which amounts are rounded: three per swap and one per tick spacing *)
Definition places (k : pool_key) (m : Z) (p p' : pool) : Z := 3 * m + Z.abs (p_tick p - p_tick p') / ft_spacing (pk_tier k).

Lemma trades_costs d k m s A O s' : trades d k m s A O s' -> clean_history s -> forall p p', st_pools s !! k = Some p -> st_pools s' !! k = Some p' ->
  st_positions s' = st_positions s /\ exists n, spacing k * (n - 3 * m) <= (if d then p_tick p - p_tick p' else p_tick p' - p_tick p) /\
  costs s k d (p_price p) (p_price p') A O n.
Proof.
  induction 1 as [s|m s e i a lim A1 O1 s1 ms A2 O2 s2 CC X T IH]; intros CH p p' Ep Ep'.
  - rewrite Ep in Ep'. injection Ep' as <-. split; [done|]. exists 0. split; [destruct d; lia|].
    pose proof (clean_history_creach _ CH) as CR. apply costs_none. exact (ereach_liq _ (creach_ereach _ CR)).
  - pose proof (clean_history_creach _ CH) as CR. pose proof (creach_ereach _ CR) as R. pose proof (ereach_liq _ R) as LI.
    destruct (swap_legs _ _ _ _ _ _ _ _ _ _ _ CH CC X) as (p0 & p1 & ls & E0 & E1 & PS & AT & C & F & N).
    rewrite Ep in E0. injection E0 as <-. injection AT as -> ->. specialize (N eq_refl).
    destruct (IH (ch_call _ _ _ _ _ _ _ CH CC X) p1 p' E1 Ep') as (PS' & n & N' & CO).
    split; [congruence|]. exists (Z.of_nat (Datatypes.length ls) + n). split; [destruct d; lia|].
    eapply costs_trans; [|eapply costs_same; [exact PS|exact CO]].
    pose proof (ereach_store_geo _ _ _ R Ep) as G. pose proof (ereach_geo _ R _ _ Ep) as PG.
    apply costs_legs; [done| | |done|done].
    + destruct G. unfold E12, PCT_ONE in *. lia.
    + destruct PG as [PG _]. pose proof (legal_price_range _ _ (proj1 PG)). destruct PG as (_ & PG & _). unfold MIN_SQRT_PRICE in *. lia.
Qed.

(** ** What any sequence of exact-input swaps costs and yields
    Missing: swaps that are not clean; swaps of an exact output. *)
Theorem C94_cost_partial d k m s A O s' p p' : clean_history s -> trades d k m s A O s' -> st_pools s !! k = Some p -> st_pools s' !! k = Some p' ->
  costs s k d (p_price p) (p_price p') A O (places k m p p').
Proof.
  intros CH T Ep Ep'. destruct (trades_costs _ _ _ _ _ _ _ T CH _ _ Ep Ep') as (_ & n & N & C).
  pose proof (clean_history_creach _ CH) as CR. pose proof (creach_ereach _ CR) as R.
  pose proof (ereach_store_geo _ _ _ R Ep) as G. destruct (sg_sp _ _ G) as [S1 _].
  eapply costs_more; [exact (ereach_liq _ R)| |exact C]. unfold places.
  assert (Q : n - 3 * m <= Z.abs (p_tick p - p_tick p') / ft_spacing (pk_tier k)); [apply Z.div_le_lower_bound; [lia|]; destruct d; lia|].
  set (q := _ / _) in *. clearbody q. lia.
Qed.

(** ** Splitting a trade
    Whoever pays no more in [m] swaps than in [m'] swaps moves the price no further along the curve, up to the square of the fee and rounding. *)
Theorem C94_split_partial d k m m' s A A' O O' s1 s2 p p1 p2 : clean_history s -> trades d k m s A O s1 -> trades d k m' s A' O' s2 -> A <= A' ->
  st_pools s !! k = Some p -> st_pools s1 !! k = Some p1 -> st_pools s2 !! k = Some p2 ->
  (10 ^ 24 - ft_fee (pk_tier k) ^ 2) * (10 ^ 14 - 1) * span d s k (p_price p) (p_price p1) <=
  10 ^ 24 * (10 ^ 14 + 1) * (span d s k (p_price p) (p_price p2) + places k m' p p2 * (3 * 10 ^ 82 + pool_liq s k * unit_worth d) + 2 * 10 ^ 82 * places k m p p1).
Proof.
  intros CH T T' AA Ep Ep1 Ep2.
  destruct (C94_cost_partial _ _ _ _ _ _ _ _ _ CH T Ep Ep1) as [L _ _ _]. destruct (C94_cost_partial _ _ _ _ _ _ _ _ _ CH T' Ep Ep2) as [_ U _ _].
  pose proof (clean_history_creach _ CH) as CR. pose proof (creach_ereach _ CR) as R. pose proof (ereach_store_geo _ _ _ R Ep) as G.
  assert (FE : 0 <= ft_fee (pk_tier k) <= E12) by (destruct G; unfold E12, PCT_ONE in *; lia).
  set (X := span d s k _ (p_price p1)) in *. set (Y := span d s k _ (p_price p2)) in *. set (W := 3 * 10 ^ 82 + _) in *. set (n := places k m p p1) in *. set (n' := places k m' p p2) in *.
  assert (N0 : 0 <= n).
  { unfold n, places. assert (0 <= m) by (clear - T; induction T; lia). destruct (sg_sp _ _ G) as [S1 _].
    assert (0 <= Z.abs (p_tick p - p_tick p1) / ft_spacing (pk_tier k)) by (apply Z.div_pos; lia). lia. }
  set (f := ft_fee _) in *. clearbody X Y W n n' f. clear - L U FE AA N0.
  change (10 ^ 24) with (E12 * E12). change (10 ^ 12) with E12 in *. change (10 ^ 14) with E14 in *. change (10 ^ 82) with UNIT in *.
  set (g := E12 - f) in *. assert (G0 : 0 <= g <= E12) by lia.
  replace (E12 * E12 - f ^ 2) with ((E12 + f) * g) by (unfold g; ring).
  assert (P1 : g * (E14 - 1) * ((E12 + f) * E14 * X) <= g * (E14 - 1) * (E12 * UNIT * ((E14 + 1) * A + 2 * E14 * n))).
  { apply Z.mul_le_mono_nonneg_l; [|done]. apply Z.mul_nonneg_nonneg; [lia|discriminate]. }
  assert (P2 : E12 * (E14 + 1) * (A' * g * UNIT * (E14 - 1)) <= E12 * (E14 + 1) * (E12 * E14 * (Y + n' * W))) by (apply Z.mul_le_mono_nonneg_l; [discriminate|done]).
  assert (P3 : E12 * (E14 + 1) * UNIT * (E14 - 1) * (A * g) <= E12 * (E14 + 1) * UNIT * (E14 - 1) * (A' * g)).
  { apply Z.mul_le_mono_nonneg_l; [discriminate|]. apply Z.mul_le_mono_nonneg_r; lia. }
  assert (P4 : 2 * E14 * E12 * UNIT * (E14 - 1) * (g * n) <= 2 * E14 * E12 * UNIT * (E14 + 1) * (E12 * n)).
  { apply Z.mul_le_mono_nonneg; [discriminate|unfold E14, E12, UNIT; lia| |apply Z.mul_le_mono_nonneg_r; lia]. apply Z.mul_nonneg_nonneg; lia. }
  apply (Z.mul_le_mono_pos_l _ _ E14); [done|].
  replace (E14 * ((E12 + f) * g * (E14 - 1) * X)) with (g * (E14 - 1) * ((E12 + f) * E14 * X)) by ring.
  etransitivity; [exact P1|].
  replace (g * (E14 - 1) * (E12 * UNIT * ((E14 + 1) * A + 2 * E14 * n))) with (E12 * (E14 + 1) * UNIT * (E14 - 1) * (A * g) + 2 * E14 * E12 * UNIT * (E14 - 1) * (g * n)) by ring.
  replace (E14 * (E12 * E12 * (E14 + 1) * (Y + n' * W + 2 * UNIT * n))) with (E12 * (E14 + 1) * (E12 * E14 * (Y + n' * W)) + 2 * E14 * E12 * UNIT * (E14 + 1) * (E12 * n)) by ring.
  replace (E12 * (E14 + 1) * (A' * g * UNIT * (E14 - 1))) with (E12 * (E14 + 1) * UNIT * (E14 - 1) * (A' * g)) in P2 by ring. lia.
Qed.

(** ** Splitting is not neutral
    A trade that ends at a tick pays the fee on top of what the curve takes, one that stops short of a tick pays it as a share of the whole, which
    is more. Paying in two pieces of which the first ends at a tick so yields more, by up to the square of the fee: 1% more at a fee of 50%. *)
Definition h_tier : fee_tier := mkFeeTier 500000000000 100.
Definition h_key : pool_key := mkPoolKey "tokenx" "tokeny" h_tier.
Definition h_calls : list (string * exec_msg) :=
  [("alice", AddFeeTier h_tier); ("alice", CreatePool "tokenx" "tokeny" h_tier SP_ONE 0);
   ("alice", CreatePosition h_key (-200000) 200000 1000000000000 SP_ONE SP_ONE)]%string.
Definition buy (k : pool_key) (a : Z) : exec_msg := Swap k false a true MAX_SQRT_PRICE.
Definition pieces_run (c : list (string * exec_msg)) (k : pool_key) (a b : Z) :=
  let* s := start 10000000000 c in
  let* '(s1, m1, a1) := execute v_env (v_info "erin") s (buy k a) in
  let* '(s2, m2, a2) := execute v_env (v_info "erin") s1 (buy k b) in
  let* '(s3, m3, a3) := execute v_env (v_info "erin") s (buy k (a + b)) in
  Ok (s, (s1, m1, a1), (s2, m2, a2), (s3, m3, a3), (clean_callb v_env s (buy k a), clean_callb v_env s1 (buy k b), clean_callb v_env s (buy k (a + b)))).
Lemma pieces_ok c k a b o1 o2 o3 (Q : pool -> pool -> pool -> Prop) : 
  match pieces_run c k a b with
  | Ok (s, (s1, m1, a1), (s2, m2, a2), (s3, m3, a3), (b1, b2, b3)) =>
      is_ok (clean_start 10000000000 c) = true /\ a1 = [("amount_in", a); ("amount_out", o1)]%string /\ a2 = [("amount_in", b); ("amount_out", o2)]%string /\
      a3 = [("amount_in", a + b); ("amount_out", o3)]%string /\ b1 = true /\ b2 = true /\ b3 = true /\
      match st_pools s !! k, st_pools s2 !! k, st_pools s3 !! k with Some p, Some p2, Some p3 => Q p p2 p3 | _, _, _ => False end
  | _ => False end ->
  exists s s2 s3 p p2 p3, clean_history s /\ trades false k 2 s (a + b) (o1 + o2) s2 /\ trades false k 1 s (a + b) o3 s3 /\
    st_pools s !! k = Some p /\ st_pools s2 !! k = Some p2 /\ st_pools s3 !! k = Some p3 /\ Q p p2 p3.
Proof.
  intros H. destruct (pieces_run c k a b) as [[[[[s [[s1 m1] a1]] [[s2 m2] a2]] [[s3 m3] a3]] [[b1 b2] b3]]| |] eqn:E; [|done|done].
  destruct H as (CL & -> & -> & -> & -> & -> & -> & P).
  unfold pieces_run in E. inv_bind E as s0 E0. inv_bind E as [[s4 m4] a4] E1. inv_bind E as [[s5 m5] a5] E2. inv_bind E as [[s6 m6] a6] E3.
  apply Ok_inj in E. injection E as -> -> -> -> -> -> -> -> -> -> B1 B2 B3. pose proof (start_reachable _ _ _ E0) as R.
  assert (R1 : reachable s1) by (eapply reach_call; [exact R|exact E1]).
  destruct (st_pools s !! k) as [p|] eqn:Ep; [|done]. destruct (st_pools s2 !! k) as [p2|] eqn:Ep2; [|done]. destruct (st_pools s3 !! k) as [p3|] eqn:Ep3; [|done].
  pose proof (clean_callb_sound v_env (v_info "erin") s (buy k a) (reachable_ereach _ R) B1) as C1.
  pose proof (clean_callb_sound v_env (v_info "erin") s1 (buy k b) (reachable_ereach _ R1) B2) as C2.
  pose proof (clean_callb_sound v_env (v_info "erin") s (buy k (a + b)) (reachable_ereach _ R) B3) as C3.
  exists s, s2, s3, p, p2, p3. split; [exact (clean_by_check _ _ _ E0 CL)|]. split; [|split; [|split; [exact Ep|split; [exact Ep2|split; [exact Ep3|exact P]]]]].
  - change 2 with (0 + 1 + 1). replace (a + b) with (a + (b + 0)) by lia. replace (o1 + o2) with (o1 + (o2 + 0)) by lia.
    eapply tr_swap; [exact C1|exact E1|]. eapply tr_swap; [exact C2|exact E2|]. constructor.
  - change 1 with (0 + 1). replace (trades false k (0 + 1) s (a + b) o3 s3) with (trades false k (0 + 1) s (a + b + 0) (o3 + 0) s3) by (f_equal; lia).
    eapply tr_swap; [exact C3|exact E3|]. constructor.
Qed.

(** the same payment of 19580000, in two pieces and in one *)
Theorem C94_split_refuted : exists s s2 s3 p p2 p3, clean_history s /\
  trades false h_key 2 s 19580000 921428 s2 /\ trades false h_key 1 s 19580000 912579 s3 /\
  st_pools s !! h_key = Some p /\ st_pools s2 !! h_key = Some p2 /\ st_pools s3 !! h_key = Some p3 /\ p_price p3 + 10 ^ 24 < p_price p2.
Proof.
  exact (pieces_ok h_calls h_key 4000000 15580000 666666 254762 912579 (fun _ p2 p3 => p_price p3 + 10 ^ 24 < p_price p2) ltac:(vm_compute; repeat split; reflexivity)).
Qed.

(** ** Example: a trade over several ticks in a pool with a fee of 0.6%, in two pieces and in one *)
Example ex_C94 : exists s s2 s3 p p2 p3, clean_history s /\
  trades false v_key 2 s 5000 4954 s2 /\ trades false v_key 1 s 5000 4954 s3 /\
  st_pools s !! v_key = Some p /\ st_pools s2 !! v_key = Some p2 /\ st_pools s3 !! v_key = Some p3 /\ p_price p3 = 1003216450120000000000000.
Proof.
  exact (pieces_ok fair_calls v_key 2000 3000 1987 2967 4954 (fun _ p2 p3 => p_price p3 = 1003216450120000000000000) ltac:(vm_compute; repeat split; reflexivity)).
Qed.
