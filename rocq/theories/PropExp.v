(** Tick prices follow the powers of 1.0001: C76, C77. *)
From Verif Require Import Base Decimal SqrtPrice Log PriceProofs LogPow LogProofs PropPrice.
From Coq Require Import Lia QArith Qpower.
Open Scope Z_scope.

(** [10^40 * 1.0001^m], [m] a power of two, between [L] and [U] *)
Definition SC : Z := 10 ^ 40.
Definition near (L U m : Z) : Prop :=
  0 < L /\ L * 10000 ^ m <= SC * 10001 ^ m /\ SC * 10001 ^ m <= U * 10000 ^ m.
Lemma near_double L U m : 0 <= m -> 0 < L * L / SC -> near L U m -> near (L * L / SC) (U * U / SC + 1) (2 * m).
Proof.
  intros M P (L0 & A & B). replace (2 * m) with (m + m) by lia. unfold near. rewrite !Z.pow_add_r by lia.
  set (p := 10001 ^ m) in *. set (d := 10000 ^ m) in *.
  assert (0 < p) by (apply Z.pow_pos_nonneg; lia). assert (0 < d) by (apply Z.pow_pos_nonneg; lia).
  assert (S0 : 0 < SC) by reflexivity. generalize dependent SC. intros S P A B S0.
  pose proof (Z.div_mod (L * L) S ltac:(lia)). pose proof (Z.mod_pos_bound (L * L) S ltac:(lia)).
  pose proof (Z.div_mod (U * U) S ltac:(lia)). pose proof (Z.mod_pos_bound (U * U) S ltac:(lia)).
  set (l := L * L / S) in *. set (u := U * U / S) in *.
  assert (X : (L * d) * (L * d) <= (S * p) * (S * p)) by (apply Z.mul_le_mono_nonneg; nia).
  assert (Y : (S * p) * (S * p) <= (U * d) * (U * d)) by (apply Z.mul_le_mono_nonneg; nia).
  assert (DD : 0 < d * d) by nia.
  split; [exact P|]. split.
  - apply (Z.mul_le_mono_pos_l _ _ S); [exact S0|].
    replace (S * (l * (d * d))) with ((S * l) * (d * d)) by ring.
    replace (S * (S * (p * p))) with ((S * p) * (S * p)) by ring.
    etransitivity; [|exact X]. replace (L * d * (L * d)) with ((L * L) * (d * d)) by ring. apply Z.mul_le_mono_nonneg_r; lia.
  - apply (Z.mul_le_mono_pos_l _ _ S); [exact S0|].
    replace (S * ((u + 1) * (d * d))) with ((S * (u + 1)) * (d * d)) by ring.
    replace (S * (S * (p * p))) with ((S * p) * (S * p)) by ring.
    etransitivity; [exact Y|]. replace (U * d * (U * d)) with ((U * U) * (d * d)) by ring. apply Z.mul_le_mono_nonneg_r; lia.
Qed.

(** [v], with 12 decimals, is at most the root of [1.0001^T] and its square is short of it by at most
    [e] parts in 10^15 *)
Definition K15 : Z := 10 ^ 15.
Definition close (v T e : Z) : Prop :=
  v * v * 10000 ^ T <= 10001 ^ T * 10 ^ 24 /\
  10001 ^ T * 10 ^ 24 * (K15 - e) <= v * v * 10000 ^ T * K15.

(** the shortfall, in parts of 10^15, of the square of [c] from a number at most [U / 10^40] *)
Definition short (c U : Z) : Z := - ((- (U * K15 - c * c * 10 ^ 31)) / U).
Fixpoint shortfall (fs : list Z) (L U e : Z) : option Z :=
  match fs with
  | [] => Some e
  | c :: r =>
      if (FP_ONE <=? c) && (c * c * 10 ^ 16 <=? L) && (0 <? U) && (0 <? L * L / SC) && (0 <=? short c U)
         && (e + short c U + 2000 <=? K15)
      then shortfall r (L * L / SC) (U * U / SC + 1) (e + short c U + 2000)
      else None
  end.

Lemma close_step v T e c m L U : 0 <= T -> 0 <= m -> 0 <= e -> FP_ONE <= v -> near L U m -> close v T e ->
  FP_ONE <= c -> c * c * 10 ^ 16 <= L -> 0 < U -> 0 <= short c U -> e + short c U + 2000 <= K15 ->
  close (stepf c v) (T + m) (e + short c U + 2000).
Proof.
  intros HT Hm He Hv (L0 & A & B) [C1 C2] Hc HL HU Hs Hb. unfold stepf, close in *.
  rewrite !Z.pow_add_r by lia.
  set (p := 10001 ^ m) in *. set (d := 10000 ^ m) in *. set (P := 10001 ^ T) in *. set (D := 10000 ^ T) in *.
  assert (0 < p) by (apply Z.pow_pos_nonneg; lia). assert (0 < d) by (apply Z.pow_pos_nonneg; lia).
  assert (0 < P) by (apply Z.pow_pos_nonneg; lia). assert (0 < D) by (apply Z.pow_pos_nonneg; lia).
  set (x := short c U) in *.
  assert (SX : U * K15 - c * c * 10 ^ 31 <= U * x).
  { unfold x, short. set (y := U * K15 - c * c * 10 ^ 31). pose proof (Z.mul_div_le (- y) U HU). lia. }
  assert (ONE : FP_ONE = 10 ^ 12) by reflexivity. assert (SE : SC = 10 ^ 24 * 10 ^ 16) by reflexivity.
  pose proof (Z.div_mod (v * c) FP_ONE ltac:(unfold FP_ONE; lia)) as DM.
  pose proof (Z.mod_pos_bound (v * c) FP_ONE ltac:(unfold FP_ONE; lia)) as MB.
  set (w := v * c / FP_ONE) in *. set (r := (v * c) mod FP_ONE) in *.
  (* the factor: c*c*d <= p*10^24, and p*10^24*(K15 - x) <= c*c*d*K15 *)
  assert (F1 : c * c * d <= p * 10 ^ 24).
  { apply (Z.mul_le_mono_pos_r _ _ (10 ^ 16)); [reflexivity|].
    transitivity (L * d); [replace (c * c * d * 10 ^ 16) with (c * c * 10 ^ 16 * d) by ring; apply Z.mul_le_mono_nonneg_r; lia|].
    rewrite SE in A. etransitivity; [exact A|]. apply Z.eq_le_incl. ring. }
  assert (F2 : p * 10 ^ 24 * (K15 - x) <= c * c * d * K15).
  { apply (Z.mul_le_mono_pos_r _ _ (10 ^ 16)); [reflexivity|].
    transitivity (U * d * (K15 - x)).
    - replace (p * 10 ^ 24 * (K15 - x) * 10 ^ 16) with (SC * p * (K15 - x)) by (rewrite SE; ring).
      apply Z.mul_le_mono_nonneg_r; [lia|exact B].
    - replace (U * d * (K15 - x)) with ((U * K15 - U * x) * d) by ring.
      replace (c * c * d * K15 * 10 ^ 16) with (c * c * 10 ^ 31 * d) by (unfold K15; ring).
      apply Z.mul_le_mono_nonneg_r; lia. }
  clear A B SX HL SE. clearbody x p d P D. clear L U L0 HU.
  assert (W0 : 0 <= w) by (apply Z.div_pos; unfold FP_ONE in *; nia).
  split.
  - (* from below *)
    assert (w * FP_ONE <= v * c) by lia.
    assert (Q : (w * FP_ONE) * (w * FP_ONE) <= (v * c) * (v * c)) by (apply Z.mul_le_mono_nonneg; unfold FP_ONE in *; lia).
    apply (Z.mul_le_mono_pos_r _ _ (10 ^ 24)); [reflexivity|].
    transitivity ((v * c) * (v * c) * (D * d)).
    + replace (w * w * (D * d) * 10 ^ 24) with ((w * FP_ONE) * (w * FP_ONE) * (D * d)) by (rewrite ONE; ring).
      apply Z.mul_le_mono_nonneg_r; [nia|exact Q].
    + replace (v * c * (v * c) * (D * d)) with ((v * v * D) * (c * c * d)) by ring.
      replace (P * p * 10 ^ 24 * 10 ^ 24) with ((P * 10 ^ 24) * (p * 10 ^ 24)) by ring.
      apply Z.mul_le_mono_nonneg; [|exact C1| |exact F1].
      * apply Z.mul_nonneg_nonneg; [apply Z.square_nonneg|lia].
      * apply Z.mul_nonneg_nonneg; [apply Z.square_nonneg|lia].
  - (* the three losses: of v, of c and of the rounding *)
    assert (R : (v * c) * (v * c) * (K15 - 2000) <= (w * FP_ONE) * (w * FP_ONE) * K15).
    { set (z := v * c) in *. assert (Z0 : FP_ONE * FP_ONE <= z) by (unfold z; apply Z.mul_le_mono_nonneg; unfold FP_ONE in *; lia).
      assert (E : w * FP_ONE = z - r) by lia. rewrite E. clearbody z. clear E DM.
      assert (z * (z * (K15 - 2000)) <= z * (z * K15 - 2 * r * K15)).
      { apply Z.mul_le_mono_nonneg_l; [unfold FP_ONE in *; lia|]. unfold K15, FP_ONE in *. nia. }
      unfold K15, FP_ONE in *. nia. }
    apply (Z.mul_le_mono_pos_r _ _ (10 ^ 24 * K15 * K15)); [reflexivity|].
    set (a := P * 10 ^ 24) in *. set (b := p * 10 ^ 24) in *. set (av := v * v * D) in *. set (bc := c * c * d) in *.
    assert (A0 : 0 < a) by (unfold a; lia). assert (B0 : 0 < b) by (unfold b; lia).
    assert (AV : 0 <= av) by (unfold av; apply Z.mul_nonneg_nonneg; [apply Z.square_nonneg|lia]).
    assert (BC : 0 <= bc) by (unfold bc; apply Z.mul_nonneg_nonneg; [apply Z.square_nonneg|lia]).
    assert (G : a * b * (K15 - e) * (K15 - x) * (K15 - 2000) <= av * bc * K15 * K15 * (K15 - 2000)).
    { replace (a * b * (K15 - e) * (K15 - x) * (K15 - 2000)) with ((a * (K15 - e)) * (b * (K15 - x)) * (K15 - 2000)) by ring.
      replace (av * bc * K15 * K15 * (K15 - 2000)) with ((av * K15) * (bc * K15) * (K15 - 2000)) by ring.
      apply Z.mul_le_mono_nonneg_r; [unfold K15; lia|].
      apply Z.mul_le_mono_nonneg; [apply Z.mul_nonneg_nonneg; lia|exact C2|apply Z.mul_nonneg_nonneg; lia|exact F2]. }
    assert (X : a * b * (K15 - (e + x + 2000)) * K15 * K15 <= a * b * (K15 - e) * (K15 - x) * (K15 - 2000)).
    { replace (a * b * (K15 - (e + x + 2000)) * K15 * K15) with ((a * b) * ((K15 - (e + x + 2000)) * K15 * K15)) by ring.
      replace (a * b * (K15 - e) * (K15 - x) * (K15 - 2000)) with ((a * b) * ((K15 - e) * (K15 - x) * (K15 - 2000))) by ring.
      apply Z.mul_le_mono_nonneg_l; [nia|].
      assert (E1 : (K15 - e) * (K15 - x) >= K15 * (K15 - e - x)) by nia.
      assert (K0 : 2000 < K15) by reflexivity.
      assert ((K15 - e) * (K15 - x) * (K15 - 2000) >= K15 * (K15 - e - x) * (K15 - 2000)).
      { apply Z.le_ge, Z.mul_le_mono_nonneg_r; lia. }
      assert (K15 * (K15 - e - x) * (K15 - 2000) >= K15 * (K15 * (K15 - e - x - 2000))).
      { replace (K15 * (K15 - e - x) * (K15 - 2000)) with (K15 * ((K15 - e - x) * (K15 - 2000))) by ring.
        apply Z.le_ge, Z.mul_le_mono_nonneg_l; [unfold K15; lia|]. nia. }
      lia. }
    assert (Y : av * bc * K15 * K15 * (K15 - 2000) <= w * w * (D * d) * K15 * (10 ^ 24 * K15 * K15)).
    { replace (av * bc * K15 * K15 * (K15 - 2000)) with (((v * c) * (v * c) * (K15 - 2000)) * (D * d * K15 * K15)) by (unfold av, bc; ring).
      replace (w * w * (D * d) * K15 * (10 ^ 24 * K15 * K15)) with (((w * FP_ONE) * (w * FP_ONE) * K15) * (D * d * K15 * K15)) by (rewrite ONE; ring).
      apply Z.mul_le_mono_nonneg_r; [|exact R]. unfold K15. nia. }
    replace (P * p * 10 ^ 24 * (K15 - (e + x + 2000)) * (10 ^ 24 * K15 * K15)) with (a * b * (K15 - (e + x + 2000)) * K15 * K15) by (unfold a, b; ring).
    lia.
Qed.

Lemma shortfall_ge fs : forall L U e e', shortfall fs L U e = Some e' -> e <= e'.
Proof.
  induction fs as [|c r IH]; intros L U e e'; cbn [shortfall].
  - intros [= ->]. lia.
  - destruct (_ && _) eqn:X; [|discriminate]. intros H. apply IH in H.
    rewrite !Bool.andb_true_iff, !Z.leb_le in X. lia.
Qed.

Lemma chain_close fs : forall L U m t v T e e', 0 <= m -> 0 <= t < 2 ^ Z.of_nat (Datatypes.length fs) -> 0 <= T -> 0 <= e -> FP_ONE <= v ->
  near L U m -> close v T e -> shortfall fs L U e = Some e' -> close (chain fs t v) (T + m * t) e'.
Proof.
  induction fs as [|c r IH]; intros L U m t v T e e' Hm Ht HT He Hv N C; cbn [shortfall chain].
  - cbn [Datatypes.length Z.of_nat] in Ht. change (2 ^ 0) with 1 in Ht. intros [= <-]. replace (T + m * t) with T by nia. exact C.
  - destruct (_ && _) eqn:X; [|discriminate]. rewrite !Bool.andb_true_iff, !Z.leb_le, !Z.ltb_lt in X.
    destruct X as [[[[[X1 X2] X3] X4] X5] X6]. intros H.
    pose proof (near_double _ _ _ Hm X4 N) as N2.
    assert (HL : 2 ^ Z.of_nat (Datatypes.length (c :: r)) = 2 * 2 ^ Z.of_nat (Datatypes.length r)).
    { cbn [Datatypes.length]. rewrite Nat2Z.inj_succ, Z.pow_succ_r by lia. reflexivity. }
    rewrite HL in Ht.
    pose proof (Z.div_mod t 2 ltac:(lia)) as DM. pose proof (Z.mod_pos_bound t 2 ltac:(lia)) as MB.
    assert (T2 : 0 <= t / 2 < 2 ^ Z.of_nat (Datatypes.length r)) by lia.
    assert (OD : Z.odd t = negb (t mod 2 =? 0)).
    { rewrite Zmod_odd. destruct (Z.odd t); reflexivity. }
    rewrite OD. destruct (t mod 2 =? 0) eqn:Z0; cbn [negb].
    + apply Z.eqb_eq in Z0. replace (T + m * t) with (T + 2 * m * (t / 2)) by nia.
      eapply (IH _ _ _ _ _ _ (e + short c U + 2000)); try eassumption; try lia.
      destruct C as [C1 C2]. split; [exact C1|]. etransitivity; [|exact C2].
      apply Z.mul_le_mono_nonneg_l; [|lia]. apply Z.mul_nonneg_nonneg; [apply Z.pow_nonneg|]; lia.
    + apply Z.eqb_neq in Z0. replace (T + m * t) with (T + m + 2 * m * (t / 2)) by nia.
      eapply (IH _ _ _ _ _ _ (e + short c U + 2000)); try eassumption; try lia.
      * unfold stepf. apply Z.div_le_lower_bound; [reflexivity|]. apply Z.mul_le_mono_nonneg; unfold FP_ONE in *; lia.
      * apply (close_step v T e c m L U); assumption || lia.
Qed.

(** the shortfall of the whole table *)
Definition SHORT : Z := 8220949.
Lemma F_close t : 0 <= t <= MAX_TICK -> close (F t) t SHORT.
Proof.
  intros Ht. unfold F. replace t with (0 + 1 * t) at 2 by lia.
  assert (F0 : near (10001 * 10 ^ 36) (10001 * 10 ^ 36) 1).
  { unfold near. rewrite !Z.pow_1_r. repeat split; vm_compute; congruence. }
  assert (F1 : shortfall tick_factors (10001 * 10 ^ 36) (10001 * 10 ^ 36) 0 = Some SHORT) by (vm_compute; reflexivity).
  refine (chain_close tick_factors _ _ 1 t FP_ONE 0 0 SHORT _ _ _ _ _ F0 _ F1); try lia.
  - unfold MAX_TICK in Ht. change (2 ^ Z.of_nat (Datatypes.length tick_factors)) with 262144. lia.
  - unfold close. rewrite !Z.pow_0_r. split; vm_compute; congruence.
Qed.

(** The same for the price with its 24 decimals, on either side of zero *)
Lemma tprice_up i : 0 <= i <= MAX_TICK ->
  tprice i * tprice i * 10000 ^ i <= 10001 ^ i * 10 ^ 48 /\
  10001 ^ i * 10 ^ 48 * (K15 - SHORT) <= tprice i * tprice i * 10000 ^ i * K15.
Proof.
  intros Hi. destruct (F_close i Hi) as [A B]. rewrite tprice_pos by lia.
  replace (F i * 1000000000000 * (F i * 1000000000000) * 10000 ^ i) with (F i * F i * 10000 ^ i * 10 ^ 24) by ring.
  split; lia.
Qed.
Lemma tprice_down i : - MAX_TICK <= i <= 0 ->
  tprice i * tprice i * 10001 ^ (- i) * (K15 - SHORT) <= 10000 ^ (- i) * 10 ^ 48 * K15 /\
  10000 ^ (- i) * 10 ^ 48 < (tprice i + 10 ^ 12) * (tprice i + 10 ^ 12) * 10001 ^ (- i) /\
  15258932 * 10 ^ 12 <= tprice i.
Proof.
  intros Hi. set (j := - i). assert (Hj : 0 <= j <= MAX_TICK) by lia.
  destruct (F_close j Hj) as [A B]. pose proof (inv_bounds j Hj) as [Q0 Q1]. pose proof (F_ge j) as FG.
  assert (FP : 0 < F j) by (unfold FP_ONE in *; lia).
  pose proof (Z.div_mod (FP_ONE * FP_ONE) (F j) ltac:(lia)) as DM. pose proof (Z.mod_pos_bound (FP_ONE * FP_ONE) (F j) FP) as MB.
  rewrite tprice_neg by lia. fold j. set (q := FP_ONE * FP_ONE / F j) in *. set (r := (FP_ONE * FP_ONE) mod F j) in *.
  assert (FE : FP_ONE * FP_ONE = 10 ^ 24) by reflexivity. rewrite FE in DM. clearbody q r j.
  set (P := 10001 ^ j) in *. set (D := 10000 ^ j) in *.
  assert (0 < P) by (apply Z.pow_pos_nonneg; lia). assert (0 < D) by (apply Z.pow_pos_nonneg; lia).
  set (f := F j) in *. clearbody f P D. clear FG FE Q1.
  assert (E1 : f * q <= 10 ^ 24) by lia. assert (E2 : 10 ^ 24 < f * (q + 1)) by lia.
  assert (Q2 : (f * q) * (f * q) <= 10 ^ 48) by (change (10 ^ 48) with (10 ^ 24 * 10 ^ 24); apply Z.mul_le_mono_nonneg; nia).
  assert (Q3 : 10 ^ 48 < (f * (q + 1)) * (f * (q + 1))) by (change (10 ^ 48) with (10 ^ 24 * 10 ^ 24); apply Z.mul_lt_mono_nonneg; lia).
  split; [|split; [|lia]].
  - apply (Z.mul_le_mono_pos_r _ _ (f * f)); [nia|].
    replace (q * 1000000000000 * (q * 1000000000000) * P * (K15 - SHORT) * (f * f))
      with (((f * q) * (f * q)) * (P * 10 ^ 24 * (K15 - SHORT))) by ring.
    replace (D * 10 ^ 48 * K15 * (f * f)) with (10 ^ 48 * (f * f * D * K15)) by ring.
    apply Z.mul_le_mono_nonneg; [apply Z.square_nonneg|exact Q2| |exact B].
    apply Z.mul_nonneg_nonneg; [lia|vm_compute; congruence].
  - apply (Z.mul_lt_mono_pos_r (10 ^ 24)); [reflexivity|].
    replace ((q * 1000000000000 + 10 ^ 12) * (q * 1000000000000 + 10 ^ 12) * P * 10 ^ 24)
      with (((q + 1) * (q + 1)) * 10 ^ 24 * (P * 10 ^ 24)) by ring.
    apply Z.lt_le_trans with (((q + 1) * (q + 1)) * 10 ^ 24 * (f * f * D)).
    + replace (D * 10 ^ 48 * 10 ^ 24) with (10 ^ 48 * (D * 10 ^ 24)) by ring.
      replace ((q + 1) * (q + 1) * 10 ^ 24 * (f * f * D)) with ((f * (q + 1)) * (f * (q + 1)) * (D * 10 ^ 24)) by ring.
      apply Z.mul_lt_mono_pos_r; [lia|exact Q3].
    + apply Z.mul_le_mono_nonneg_l; [nia|exact A].
Qed.

(** ** C76: the square of a tick's price is [1.0001^tick] *)
(** the number that an integer with 24 decimals stands for, squared *)
Definition squared (p : Z) : Q := (inject_Z p / inject_Z (10 ^ 24)) ^ 2.
Definition ideal (i : Z) : Q := (10001 # 10000) ^ i.

Lemma ideal_pos i : 0 <= i -> ideal i == inject_Z (10001 ^ i) / inject_Z (10000 ^ i).
Proof.
  intros Hi. unfold ideal. rewrite !Zpower_Qpower by exact Hi. rewrite <- Qdiv_power. apply Qpower_comp; [reflexivity|reflexivity].
Qed.
Lemma ideal_neg i : i <= 0 -> ideal i == inject_Z (10000 ^ (- i)) / inject_Z (10001 ^ (- i)).
Proof.
  intros Hi. assert (E : ideal i == / ideal (- i)).
  { unfold ideal. replace i with (- - i) at 1 by lia. apply Qpower_opp. }
  rewrite E, ideal_pos by lia. unfold Qdiv. rewrite Qinv_mult_distr, Qinv_involutive. apply Qmult_comm.
Qed.
Lemma squared_frac p : squared p == inject_Z (p * p) / inject_Z (10 ^ 48).
Proof. unfold squared. rewrite Qdiv_power. reflexivity. Qed.

Lemma frac_le a b c d : 0 < b -> 0 < d -> a * d <= c * b -> (inject_Z a / inject_Z b <= inject_Z c / inject_Z d)%Q.
Proof.
  intros B D H. apply Qle_shift_div_r; [change 0%Q with (inject_Z 0); rewrite <- Zlt_Qlt; exact B|].
  setoid_replace (inject_Z c / inject_Z d * inject_Z b)%Q with (inject_Z c * inject_Z b / inject_Z d)%Q by (unfold Qdiv; ring).
  apply Qle_shift_div_l; [change 0%Q with (inject_Z 0); rewrite <- Zlt_Qlt; exact D|].
  rewrite <- !inject_Z_mult, <- Zle_Qle. exact H.
Qed.
Lemma frac_lt a b c d : 0 < b -> 0 < d -> a * d < c * b -> (inject_Z a / inject_Z b < inject_Z c / inject_Z d)%Q.
Proof.
  intros B D H. apply Qlt_shift_div_r; [change 0%Q with (inject_Z 0); rewrite <- Zlt_Qlt; exact B|].
  setoid_replace (inject_Z c / inject_Z d * inject_Z b)%Q with (inject_Z c * inject_Z b / inject_Z d)%Q by (unfold Qdiv; ring).
  apply Qlt_shift_div_l; [change 0%Q with (inject_Z 0); rewrite <- Zlt_Qlt; exact D|].
  rewrite <- !inject_Z_mult, <- Zlt_Qlt. exact H.
Qed.
Lemma frac_times a b n d : 0 < b -> (inject_Z a / inject_Z b * (n # d) == inject_Z (a * n) / inject_Z (b * Zpos d))%Q.
Proof.
  intros B. rewrite !inject_Z_mult. setoid_replace (n # d)%Q with (inject_Z n / inject_Z (Zpos d))%Q by (apply Qmake_Qdiv).
  field. split; intros E; [|change 0%Q with (inject_Z 0) in E; rewrite inject_Z_injective in E; lia].
  change 0%Q with (inject_Z 0) in E. rewrite inject_Z_injective in E; lia.
Qed.

(** For a tick at or above zero the price is at most the root of 1.0001^tick and its square falls short of
    it by less than 8.221 parts in 10^9.  Below zero it exceeds it by no more than that, and one unit in
    its twelfth decimal would make it too large.  For every tick the relative error of the square lies
    between -132 and 9 parts in 10^9. *)
Theorem C76_tick_price : forall i p, calculate_sqrt_price i = Ok p ->
  (0 <= i -> (ideal i * (1 - (8221 # 1000000000000)) <= squared p)%Q /\ (squared p <= ideal i)%Q) /\
  (i <= 0 -> (squared p <= ideal i * (1 + (8221 # 1000000000000)))%Q /\ (ideal i < squared (p + 10 ^ 12))%Q) /\
  (ideal i * (1 - (132 # 1000000000)) <= squared p)%Q /\ (squared p <= ideal i * (1 + (9 # 1000000000)))%Q.
Proof.
  intros i p H. apply calculate_sqrt_price_inv in H as [Hi ->].
  change (1 - (8221 # 1000000000000))%Q with (999999991779 # 1000000000000)%Q.
  change (1 + (8221 # 1000000000000))%Q with (1000000008221 # 1000000000000)%Q.
  change (1 - (132 # 1000000000))%Q with (999999868 # 1000000000)%Q.
  change (1 + (9 # 1000000000))%Q with (1000000009 # 1000000000)%Q.
  assert (UP : 0 <= i -> (ideal i * (999999991779 # 1000000000000) <= squared (tprice i))%Q /\ (squared (tprice i) <= ideal i)%Q).
  { intros I0. destruct (tprice_up i ltac:(lia)) as [A B].
    pose proof (Z.pow_pos_nonneg 10001 i ltac:(lia) I0). pose proof (Z.pow_pos_nonneg 10000 i ltac:(lia) I0).
    rewrite squared_frac, ideal_pos by exact I0. unfold K15, SHORT in B. split.
    - rewrite frac_times by lia. apply frac_le; lia.
    - apply frac_le; lia. }
  assert (DOWN : i <= 0 -> (squared (tprice i) <= ideal i * (1000000008221 # 1000000000000))%Q /\ (ideal i < squared (tprice i + 10 ^ 12))%Q /\
                 (ideal i * (999999868 # 1000000000) <= squared (tprice i))%Q).
  { intros I0. destruct (tprice_down i ltac:(lia)) as (A & B & C).
    pose proof (Z.pow_pos_nonneg 10001 (- i) ltac:(lia) ltac:(lia)). pose proof (Z.pow_pos_nonneg 10000 (- i) ltac:(lia) ltac:(lia)).
    rewrite !squared_frac, !ideal_neg by exact I0. unfold K15, SHORT in A. split; [|split].
    - rewrite frac_times by lia. apply frac_le; [lia|lia|].
      set (X := tprice i * tprice i * 10001 ^ (- i)) in *. set (Y := 10000 ^ (- i)) in *.
      assert (0 <= X) by (unfold X; apply Z.mul_nonneg_nonneg; [apply Z.square_nonneg|lia]).
      replace (tprice i * tprice i * (10001 ^ (- i) * Z.pos 1000000000000)) with (X * 1000000000000) by (unfold X; ring).
      lia.
    - apply frac_lt; lia.
    - rewrite frac_times by lia. apply frac_le; [lia|lia|].
      set (t := tprice i) in *. set (X := 10001 ^ (- i)) in *. set (Y := 10000 ^ (- i)) in *.
      assert (S : (t + 10 ^ 12) * (t + 10 ^ 12) * 999999868 <= t * t * 1000000000) by nia.
      assert ((t + 10 ^ 12) * (t + 10 ^ 12) * 999999868 * X <= t * t * 1000000000 * X) by (apply Z.mul_le_mono_nonneg_r; lia).
      lia. }
  split; [exact UP|]. split; [intros I0; destruct (DOWN I0) as (A & B & _); split; assumption|].
  destruct (Z_le_gt_dec 0 i) as [I0|I0].
  - destruct (UP I0) as [A B]. assert (P : (0 <= ideal i)%Q) by (apply Qpower_pos; discriminate). split.
    + eapply Qle_trans; [|exact A]. rewrite !(Qmult_comm (ideal i)). apply Qmult_le_compat_r; [discriminate|exact P].
    + eapply Qle_trans; [exact B|]. rewrite <- (Qmult_1_r (ideal i)) at 1. rewrite !(Qmult_comm (ideal i)). apply Qmult_le_compat_r; [discriminate|exact P].
  - destruct (DOWN ltac:(lia)) as (A & B & C). assert (P : (0 <= ideal i)%Q) by (apply Qpower_pos; discriminate). split; [exact C|].
    eapply Qle_trans; [exact A|]. rewrite !(Qmult_comm (ideal i)). apply Qmult_le_compat_r; [discriminate|exact P].
Qed.

Lemma ideal_gt0 i : (0 < ideal i)%Q.
Proof.
  destruct (Z_le_gt_dec 0 i) as [I|I].
  - rewrite ideal_pos by lia. apply Qlt_shift_div_l; [change 0%Q with (inject_Z 0); rewrite <- Zlt_Qlt; apply Z.pow_pos_nonneg; lia|].
    rewrite Qmult_0_l. change 0%Q with (inject_Z 0). rewrite <- Zlt_Qlt. apply Z.pow_pos_nonneg; lia.
  - rewrite ideal_neg by lia. apply Qlt_shift_div_l; [change 0%Q with (inject_Z 0); rewrite <- Zlt_Qlt; apply Z.pow_pos_nonneg; lia|].
    rewrite Qmult_0_l. change 0%Q with (inject_Z 0). rewrite <- Zlt_Qlt. apply Z.pow_pos_nonneg; lia.
Qed.
Lemma ideal_plus i j : (ideal (i + j) == ideal i * ideal j)%Q.
Proof. unfold ideal. apply Qpower_plus. discriminate. Qed.
Lemma squared_le p q : 0 <= p <= q -> (squared p <= squared q)%Q.
Proof. intros H. rewrite !squared_frac. apply frac_le; [reflexivity|reflexivity|]. apply Z.mul_le_mono_nonneg_r; [lia|]. nia. Qed.
Lemma squared_lt p q : 0 <= p < q -> (squared p < squared q)%Q.
Proof. intros H. rewrite !squared_frac. apply frac_lt; [reflexivity|reflexivity|]. apply Z.mul_lt_mono_pos_r; [reflexivity|]. nia. Qed.

(** The tick of a price is the logarithm of the price to base 1.0001, rounded down to the spacing, with
    the same accuracy. *)
Theorem C76_tick_of_price : forall p s, 15258932000000000000 <= p <= 65535383934512647000000000000 -> 1 <= s <= 100 ->
  exists t, get_tick_at_sqrt_price p s = Ok t /\ t mod s = 0 /\
    (-221818 <= t -> (ideal t * (1 - (132 # 1000000000)) <= squared p)%Q) /\
    (t + s <= 221818 -> (squared p < ideal (t + s) * (1 + (9 # 1000000000)))%Q).
Proof.
  intros p s Hp Hs. destruct (C02_price_to_tick p s Hp Hs) as (t & E & M & A & B & R).
  exists t. split; [exact E|]. split; [exact M|]. split; intros X.
  - destruct (C01_tick_to_price) as (OK & _). destruct (OK t ltac:(lia)) as (q & Q & Hq).
    destruct (C76_tick_price t q Q) as (_ & _ & L & _). eapply Qle_trans; [exact L|]. apply squared_le. split; [lia|]. exact (A q Q).
  - destruct (C01_tick_to_price) as (OK & _). destruct (OK (t + s) ltac:(lia)) as (q & Q & Hq).
    destruct (C76_tick_price (t + s) q Q) as (_ & _ & _ & U). eapply Qlt_le_trans; [|exact U]. apply squared_lt. split; [lia|]. exact (B q Q).
Qed.

Example ex_C76 : calculate_sqrt_price 131072 = Ok (701536086265529 * 10 ^ 12) /\
  calculate_sqrt_price (-221818) = Ok 15258932000000000000 /\ get_tick_at_sqrt_price (3 * 10 ^ 24) 10 = Ok 21970.
Proof. vm_compute. repeat split. Qed.

(** ** C77: rounding of tick prices *)
(** Prices multiply when ticks are added, up to 151 and 274 parts in 10^9 of the square. *)
Theorem C77_product_partial : forall i j p q r,
  calculate_sqrt_price i = Ok p -> calculate_sqrt_price j = Ok q -> calculate_sqrt_price (i + j) = Ok r ->
  (squared p * squared q * (1 - (151 # 1000000000)) <= squared r)%Q /\
  (squared r <= squared p * squared q * (1 + (274 # 1000000000)))%Q.
Proof.
  intros i j p q r P Q R.
  destruct (C76_tick_price i p P) as (_ & _ & PL & PU). destruct (C76_tick_price j q Q) as (_ & _ & QL & QU).
  destruct (C76_tick_price _ r R) as (_ & _ & RL & RU). rewrite ideal_plus in RL, RU.
  pose proof (ideal_gt0 i) as I0. pose proof (ideal_gt0 j) as J0.
  set (a := ideal i) in *. set (b := ideal j) in *. set (x := squared p) in *. set (y := squared q) in *. set (z := squared r) in *.
  clearbody a b x y z. clear P Q R.
  assert (AB : (0 < a * b)%Q) by (apply Qmult_lt_0_compat; assumption).
  change (1 - (132 # 1000000000))%Q with (999999868 # 1000000000)%Q in *.
  change (1 + (9 # 1000000000))%Q with (1000000009 # 1000000000)%Q in *.
  change (1 - (151 # 1000000000))%Q with (999999849 # 1000000000)%Q.
  change (1 + (274 # 1000000000))%Q with (1000000274 # 1000000000)%Q.
  assert (X0 : (0 < x)%Q) by (eapply Qlt_le_trans; [|exact PL]; apply Qmult_lt_0_compat; [exact I0|reflexivity]).
  assert (Y0 : (0 < y)%Q) by (eapply Qlt_le_trans; [|exact QL]; apply Qmult_lt_0_compat; [exact J0|reflexivity]).
  assert (UP : (x * y <= (a * (1000000009 # 1000000000)) * (b * (1000000009 # 1000000000)))%Q).
  { apply Qmult_le_compat_nonneg; (split; [apply Qlt_le_weak|]); [exact X0|exact PU|exact Y0|exact QU]. }
  assert (LO : ((a * (999999868 # 1000000000)) * (b * (999999868 # 1000000000)) <= x * y)%Q).
  { apply Qmult_le_compat_nonneg; (split; [apply Qlt_le_weak, Qmult_lt_0_compat; [|reflexivity]|]);
    [exact I0|exact PL|exact J0|exact QL]. }
  split.
  - eapply Qle_trans; [apply Qmult_le_compat_r; [exact UP|discriminate]|]. eapply Qle_trans; [|exact RL].
    setoid_replace (a * (1000000009 # 1000000000) * (b * (1000000009 # 1000000000)) * (999999849 # 1000000000))%Q
      with (a * b * ((1000000009 # 1000000000) * (1000000009 # 1000000000) * (999999849 # 1000000000)))%Q by ring.
    apply Qmult_le_l; [exact AB|]. vm_compute. discriminate.
  - eapply Qle_trans; [exact RU|]. eapply Qle_trans; [|apply Qmult_le_compat_r; [exact LO|discriminate]].
    setoid_replace (a * (999999868 # 1000000000) * (b * (999999868 # 1000000000)) * (1000000274 # 1000000000))%Q
      with (a * b * ((999999868 # 1000000000) * (999999868 # 1000000000) * (1000000274 # 1000000000)))%Q by ring.
    apply Qmult_le_l; [exact AB|]. vm_compute. discriminate.
Qed.

(** The price of the opposite tick is the reciprocal, cut to twelve decimals. *)
Theorem C77_reciprocal_partial : forall i p q, 0 <= i -> calculate_sqrt_price i = Ok p -> calculate_sqrt_price (- i) = Ok q ->
  q = 10 ^ 48 / p / 10 ^ 12 * 10 ^ 12.
Proof.
  intros i p q I0 P Q. apply calculate_sqrt_price_inv in P as [Hi ->]. apply calculate_sqrt_price_inv in Q as [_ ->].
  rewrite tprice_neg, tprice_pos by lia. rewrite Z.opp_involutive. pose proof (F_ge i) as G.
  rewrite Z.div_div by (unfold FP_ONE in *; lia). change 1000000000000 with (10 ^ 12).
  replace (10 ^ 48) with (FP_ONE * FP_ONE * (10 ^ 12 * 10 ^ 12)) by reflexivity.
  replace (F i * 10 ^ 12 * 10 ^ 12) with (F i * (10 ^ 12 * 10 ^ 12)) by ring.
  rewrite Z.div_mul_cancel_r by (unfold FP_ONE in *; lia). reflexivity.
Qed.

(** The price of the tick 1 is the root of 1.0001 cut to twelve decimals, that of the tick 2 is 1.0001,
    and each further doubling of the tick squares the price and cuts it to twelve decimals. *)
Theorem C77_doubling_partial :
  calculate_sqrt_price 1 = Ok (Z.sqrt (10001 * 10 ^ 20) * 10 ^ 12) /\
  calculate_sqrt_price 2 = Ok (10001 * 10 ^ 20) /\
  forall k p q, 1 <= k -> calculate_sqrt_price (2 ^ k) = Ok p -> calculate_sqrt_price (2 ^ (k + 1)) = Ok q ->
  q = p * p / 10 ^ 36 * 10 ^ 12.
Proof.
  split; [vm_compute; reflexivity|]. split; [vm_compute; reflexivity|].
  intros k p q K P Q.
  assert (K2 : k + 1 < 18).
  { apply calculate_sqrt_price_inv in Q as [[_ H] _]. unfold MAX_TICK in H.
    apply (Z.pow_lt_mono_r_iff 2); [lia|lia|]. change (2 ^ 18) with 262144. lia. }
  assert (C : forallb (fun k => match calculate_sqrt_price (2 ^ k), calculate_sqrt_price (2 ^ (k + 1)) with
                               | Ok p, Ok q => q =? p * p / 10 ^ 36 * 10 ^ 12 | _, _ => true end)
                      [1; 2; 3; 4; 5; 6; 7; 8; 9; 10; 11; 12; 13; 14; 15; 16] = true) by (vm_compute; reflexivity).
  rewrite forallb_forall in C. specialize (C k). rewrite P, Q in C. apply Z.eqb_eq, C. cbn [In]. lia.
Qed.

(** [10^40 * 1.0001^(2^n)] from below *)
Fixpoint below (n : nat) : Z := match n with O => 10001 * 10 ^ 36 | S m => let l := below m in l * l / SC end.
Lemma below_ok n : SC <= below n /\ exists U, near (below n) U (2 ^ Z.of_nat n).
Proof.
  induction n as [|n [G [U N]]].
  - split; [vm_compute; congruence|]. exists (10001 * 10 ^ 36). unfold near. change (2 ^ Z.of_nat 0) with 1.
    rewrite !Z.pow_1_r. repeat split; vm_compute; congruence.
  - cbn [below]. assert (S0 : 0 < SC) by reflexivity.
    assert (G2 : SC <= below n * below n / SC).
    { apply Z.div_le_lower_bound; [exact S0|]. apply Z.mul_le_mono_nonneg; lia. }
    split; [exact G2|]. exists (U * U / SC + 1). rewrite Nat2Z.inj_succ, Z.pow_succ_r by lia.
    apply near_double; [apply Z.pow_nonneg; lia|lia|exact N].
Qed.

Lemma below_le n m v : m = 2 ^ Z.of_nat n -> v * v * SC <= below n * 10 ^ 48 -> (squared v <= ideal m)%Q.
Proof.
  intros E V. destruct (below_ok n) as [_ [U (_ & N & _)]]. rewrite <- E in N.
  assert (M0 : 0 <= m) by (rewrite E; apply Z.pow_nonneg; lia).
  rewrite squared_frac, ideal_pos by exact M0. pose proof (Z.pow_pos_nonneg 10000 m ltac:(lia) M0) as D0.
  apply frac_le; [reflexivity|exact D0|]. assert (S0 : 0 < SC) by reflexivity.
  set (D := 10000 ^ m) in *. set (P := 10001 ^ m) in *. clearbody D P. set (b := below n) in *. clearbody b.
  generalize dependent SC. intros S V N S0. clear E. set (T := 10 ^ 48) in *. assert (T0 : 0 < T) by reflexivity. clearbody T.
  apply (Z.mul_le_mono_pos_r _ _ S); [exact S0|].
  transitivity (b * T * D); [replace (v * v * D * S) with (v * v * S * D) by ring; apply Z.mul_le_mono_nonneg_r; lia|].
  replace (b * T * D) with (b * D * T) by ring. replace (P * T * S) with (S * P * T) by ring. apply Z.mul_le_mono_nonneg_r; lia.
Qed.

(** At the tick 128 the price could be larger by a unit of the twelfth decimal, at the tick 131072 by more
    than a million of them; at the tick -3 the price exceeds the root. *)
Theorem C77_rounded_refuted :
  (exists p, calculate_sqrt_price 128 = Ok p /\ (squared (p + 10 ^ 12) <= ideal 128)%Q) /\
  (exists p, calculate_sqrt_price 131072 = Ok p /\ (squared (p + 1000000 * 10 ^ 12) <= ideal 131072)%Q) /\
  (exists p, calculate_sqrt_price (-3) = Ok p /\ (ideal (-3) < squared p)%Q).
Proof.
  split; [|split].
  - exists (1006420201726 * 10 ^ 12). split; [vm_compute; reflexivity|].
    rewrite squared_frac, ideal_pos by lia. apply frac_le; [reflexivity|reflexivity|]. vm_compute. discriminate.
  - exists (701536086265529 * 10 ^ 12). split; [vm_compute; reflexivity|].
    apply (below_le 17); [reflexivity|]. vm_compute. discriminate.
  - exists (999850018748 * 10 ^ 12). split; [vm_compute; reflexivity|].
    rewrite squared_frac, ideal_neg by lia. apply frac_lt; [reflexivity|reflexivity|]. vm_compute. reflexivity.
Qed.
