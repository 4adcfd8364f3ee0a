(** Value of a position in integer units of 10^-82 token, and how one swap step changes it. *)
From Verif Require Import Base Decimal SqrtPrice Clamm FeeGrowth Types Tick Pool Position State Swap Tactics
  PriceProofs ClammProofs PropClamm Frame SwapGeo SwapLoop Modify PSum LiqInv Growth.
From stdpp Require Import gmap strings.
From Coq Require Import Lia.
Open Scope Z_scope.

Definition UNIT : Z := 10 ^ 82.
Definition E100 : Z := 10 ^ 100.
Definition LOSS : Z := 10 ^ 68.
(** reciprocal of a price, floored at 100 digits *)
Definition rho (p : Z) : Z := E100 / p.
Lemma rho_spec p : 0 < p -> p * rho p <= E100 < p * (rho p + 1).
Proof. apply floor_spec. Qed.
Lemma rho_anti p q : 0 < p -> p <= q -> rho q <= rho p.
Proof. intros A B. apply Z.div_le_compat_l; [|lia]. discriminate. Qed.

Lemma x_up_covers a b L r : MIN_SQRT_PRICE <= a -> a <= b -> 0 <= L <= U128MAX ->
  L * (b - a) * E18 < r * (a * b) + SP_ONE -> L * (rho a - rho b + 1) <= UNIT * r + LOSS.
Proof.
  intros HA AB HL H. assert (A0 : 0 < a) by (unfold MIN_SQRT_PRICE in *; lia). assert (B0 : 0 < b) by lia.
  pose proof (rho_spec a A0) as [R1 _]. pose proof (rho_spec b B0) as [_ R2].
  set (x := rho a) in *. set (y := rho b) in *. clearbody x y.
  set (ab := a * b) in *. assert (M : MIN_SQRT_PRICE * MIN_SQRT_PRICE <= ab) by (unfold ab, MIN_SQRT_PRICE in *; nia).
  assert (P0 : 0 < ab) by (unfold MIN_SQRT_PRICE in M; lia).
  assert (X : ab * x <= E100 * b) by (unfold ab; nia).
  assert (Y : E100 * a <= ab * (y + 1)) by (unfold ab; nia).
  assert (Z1 : ab * (x - y - 1) <= E100 * (b - a)) by lia.
  assert (Z2 : L * (ab * (x - y - 1)) <= L * (E100 * (b - a))) by (apply Z.mul_le_mono_nonneg_l; lia).
  assert (Z3 : UNIT * (L * (b - a) * E18) <= UNIT * (r * ab + SP_ONE)) by (apply Z.mul_le_mono_nonneg_l; [discriminate|lia]).
  assert (Z4 : L * (E100 * (b - a)) = UNIT * (L * (b - a) * E18)).
  { change E100 with (UNIT * E18). ring. }
  assert (Z5 : UNIT * SP_ONE <= ab * (LOSS - 2 * U128MAX)).
  { transitivity (MIN_SQRT_PRICE * MIN_SQRT_PRICE * (LOSS - 2 * U128MAX)); [vm_compute; discriminate|].
    apply Z.mul_le_mono_nonneg_r; [vm_compute; discriminate|exact M]. }
  assert (Z6 : ab * (L * (x - y - 1)) <= ab * (UNIT * r + (LOSS - 2 * U128MAX))).
  { clear - Z2 Z3 Z4 Z5. set (w := LOSS - 2 * U128MAX) in *. clearbody w. lia. }
  apply Z.mul_le_mono_pos_l in Z6; [|exact P0].
  clear - Z6 HL. lia.
Qed.
Lemma x_down_covered a b L r : 0 < a -> a <= b -> 0 <= L ->
  r * (a * b) <= L * (b - a) * E18 -> UNIT * r <= L * (rho a - rho b + 1).
Proof.
  intros A0 AB HL H. assert (B0 : 0 < b) by lia.
  pose proof (rho_spec a A0) as [_ R1]. pose proof (rho_spec b B0) as [R2 _].
  set (x := rho a) in *. set (y := rho b) in *. clearbody x y. set (ab := a * b) in *.
  assert (P0 : 0 < ab) by (unfold ab; nia).
  assert (X : E100 * b <= ab * (x + 1)) by (unfold ab; nia).
  assert (Y : ab * y <= E100 * a) by (unfold ab; nia).
  assert (Z1 : E100 * (b - a) <= ab * (x - y + 1)) by lia.
  assert (Z2 : L * (E100 * (b - a)) <= L * (ab * (x - y + 1))) by (apply Z.mul_le_mono_nonneg_l; lia).
  assert (Z3 : UNIT * (r * ab) <= UNIT * (L * (b - a) * E18)) by (apply Z.mul_le_mono_nonneg_l; [discriminate|lia]).
  assert (Z4 : L * (E100 * (b - a)) = UNIT * (L * (b - a) * E18)).
  { change E100 with (UNIT * E18). ring. }
  assert (Z6 : ab * (UNIT * r) <= ab * (L * (x - y + 1))) by lia.
  by apply Z.mul_le_mono_pos_l in Z6.
Qed.

(** ** Position value *)
Definition E52 : Z := 10 ^ 52.
Definition clampp (lo hi p : Z) : Z := Z.max lo (Z.min p hi).
(** price function of each token *)
Definition pf (b : bool) (p : Z) : Z := if b then rho p else E52 * p.
Definition val (b : bool) (pr : Z) (po : position) : Z :=
  let lo := tprice (po_lower po) in let hi := tprice (po_upper po) in
  po_liq po * (pf b (clampp lo hi pr) - (if b then rho hi - 1 else E52 * lo)).

Lemma val_nonneg b pr po : pos_valid po -> 0 <= val b pr po.
Proof.
  intros (V1 & [V2 _] & [V3 _] & V4). unfold val. apply Z.mul_nonneg_nonneg; [lia|].
  pose proof (tprice_lt (po_lower po) (po_upper po) ltac:(lia) ltac:(lia) ltac:(lia)).
  pose proof (tprice_range (po_lower po) ltac:(lia)) as [A _]. unfold MIN_SQRT_PRICE in A.
  unfold pf, clampp. destruct b.
  - pose proof (rho_anti (Z.max (tprice (po_lower po)) (Z.min pr (tprice (po_upper po)))) (tprice (po_upper po)) ltac:(lia) ltac:(lia)). lia.
  - unfold E52. lia.
Qed.

(** the two prices of a step and the bounds of a position: no bound strictly inside *)
Definition sided (c pr pr' j : Z) : Prop :=
  (j <= c -> tprice j <= pr /\ tprice j <= pr') /\ (c < j -> pr <= tprice j /\ pr' <= tprice j).
Lemma val_step b c pr pr' po : pos_valid po -> sided c pr pr' (po_lower po) -> sided c pr pr' (po_upper po) ->
  val b pr' po - val b pr po
  = (if in_range_tick (po_lower po) (po_upper po) c then po_liq po else 0) * (pf b pr' - pf b pr).
Proof.
  intros (V1 & [V2 _] & [V3 _] & V4) [L1 L2] [U1 U2].
  pose proof (tprice_lt (po_lower po) (po_upper po) ltac:(lia) ltac:(lia) ltac:(lia)) as O.
  unfold val, in_range_tick, clampp. set (lo := tprice (po_lower po)) in *. set (hi := tprice (po_upper po)) in *.
  set (z := if b then rho hi - 1 else E52 * lo). clearbody z.
  destruct (Z.leb_spec (po_lower po) c) as [A|A], (Z.ltb_spec c (po_upper po)) as [B|B]; cbn; try lia.
  - specialize (L1 A). specialize (U2 B). rewrite (Z.min_l pr'), (Z.min_l pr), !Z.max_r by lia. lia.
  - specialize (U1 B). rewrite (Z.min_r pr'), (Z.min_r pr) by lia. lia.
  - specialize (L2 A). rewrite (Z.min_l pr'), (Z.min_l pr), !Z.max_l by lia. lia.
Qed.

(** ** One swap step *)
Definition loss (b : bool) : Z := if b then LOSS else 0.
Lemma loss_nonneg b : 0 <= loss b.
Proof. destruct b; [discriminate|reflexivity]. Qed.
(** what the pool receives of token [b] in a step that trades x for y iff [d], fee apart *)
Definition flow (b d : bool) (i o : Z) : Z := if Bool.eqb b d then i else - o.

Lemma step_value b (d : bool) cur target L amount by_in fee r :
  step_args cur target L amount fee -> compute_swap_step cur target L amount by_in fee = Ok r ->
  (if d then target <= cur else cur < target) -> MIN_SQRT_PRICE <= sr_next r ->
  (if d then sr_next r <= cur else cur <= sr_next r) ->
  L * (pf b (sr_next r) - pf b cur) <= UNIT * flow b d (sr_in r) (sr_out r) + loss b.
Proof.
  intros SA ST SIDE NR DIR. destruct SA as (C1 & C2 & C3 & C4 & C5).
  destruct (Z.eq_dec L 0) as [->|L0].
  { unfold compute_swap_step in ST. cbn in ST. apply Ok_inj in ST. subst r. cbn [sr_next sr_in sr_out] in *. pose proof (loss_nonneg b).
    assert (flow b d 0 0 = 0) as -> by (unfold flow; by destruct (Bool.eqb b d)). rewrite Z.mul_0_r. lia. }
  assert (CM : MIN_SQRT_PRICE <= cur) by (unfold MIN_SQRT_PRICE; lia).
  assert (LB : 0 <= L <= U128MAX) by (unfold U128MAX; lia).
  apply step_inv in ST; [|done]. destruct ST. destruct sf_out as (o & O1 & O2).
  assert (DN : (target <=? cur) = d) by (destruct d; [apply Z.leb_le|apply Z.leb_gt]; lia). rewrite DN in *.
  unfold delta_in in sf_in. unfold delta_out in O1.
  assert (N0 : 0 <= sr_next r) by (unfold MIN_SQRT_PRICE in NR; lia). assert (Q0 : 0 <= cur) by lia.
  assert (OO : sr_out r <= o) by (rewrite O2; destruct by_in; lia).
  assert (UO : UNIT * sr_out r <= UNIT * o) by (apply Z.mul_le_mono_nonneg_l; [discriminate|exact OO]).
  destruct d.
  - destruct b; cbn [Bool.eqb flow pf loss] in *; unfold flow; cbn [Bool.eqb].
    + apply delta_x_up_exact in sf_in; [|done|done]. replace (Z.abs _) with (cur - sr_next r) in sf_in by lia.
      pose proof (x_up_covers (sr_next r) cur L (sr_in r) NR ltac:(lia) LB sf_in). lia.
    + apply delta_y_down_exact in O1. replace (Z.abs _) with (cur - sr_next r) in O1 by lia.
      assert (E52 * (o * E30) <= E52 * (L * (cur - sr_next r))) by (apply Z.mul_le_mono_nonneg_l; [discriminate|exact O1]).
      change UNIT with (E52 * E30) in *. unfold pf. lia.
  - destruct b; cbn [Bool.eqb flow pf loss] in *; unfold flow; cbn [Bool.eqb].
    + apply delta_x_down_exact in O1; [|done|done]. replace (Z.abs _) with (sr_next r - cur) in O1 by lia.
      pose proof (x_down_covered cur (sr_next r) L o ltac:(unfold MIN_SQRT_PRICE in *; lia) ltac:(lia) ltac:(lia) O1).
      assert (U128MAX <= LOSS) by (vm_compute; discriminate). lia.
    + apply delta_y_up_exact in sf_in. replace (Z.abs _) with (sr_next r - cur) in sf_in by lia.
      assert (E52 * (L * (sr_next r - cur)) <= E52 * (sr_in r * E30)) by (apply Z.mul_le_mono_nonneg_l; [discriminate|exact sf_in]).
      change UNIT with (E52 * E30) in *. unfold pf. lia.
Qed.
