(** Price-to-tick conversion (C02), using the power bounds of LogPow. *)
From Verif Require Import Base Decimal SqrtPrice Log PriceProofs LogPow.
From Coq Require Import Lia.
Open Scope Z_scope.

(** * Bracketing the price between ticks *)
Lemma tprice_pos_le i : 0 <= i <= MAX_TICK -> F i <= 65535383934512647.
Proof. apply F_le. Qed.

Definition x32 (p : Z) : Z := p * 2 ^ 32 / SP_ONE.

Lemma x32_spec p : SP_ONE * x32 p <= p * 2 ^ 32 < SP_ONE * (x32 p + 1).
Proof.
  unfold x32. split; [apply Z.mul_div_le; reflexivity|].
  pose proof (Z.mul_succ_div_gt (p * 2 ^ 32) SP_ONE ltac:(reflexivity)). lia.
Qed.

Lemma x32_range p : MIN_SQRT_PRICE <= p <= MAX_SQRT_PRICE ->
  65535 < x32 p < 2 ^ 48 /\ (2 ^ 32 <= x32 p <-> SP_ONE <= p).
Proof.
  unfold MIN_SQRT_PRICE, MAX_SQRT_PRICE. intros H. pose proof (x32_spec p) as S. unfold SP_ONE in *. lia.
Qed.

Lemma fdiv_spec n d : 0 < d -> d * (n / d) <= n < d * (n / d + 1).
Proof.
  intros. pose proof (Z.mul_div_le n d ltac:(lia)). pose proof (Z.mul_succ_div_gt n d ltac:(lia)). lia.
Qed.

Definition atick (p : Z) : Z := logN (x32 p) * 2 ^ 17 / 309801.
Lemma atick_spec p :
  309801 * atick p <= logN (x32 p) * 2 ^ 17 < 309801 * (atick p + 1).
Proof. apply fdiv_spec. reflexivity. Qed.
Definition ntick (p : Z) : Z := (logN (2 ^ 64 / (x32 p + 1)) * 2 ^ 17 + 300000) / 309801.
Lemma ntick_spec p :
  309801 * ntick p <= logN (2 ^ 64 / (x32 p + 1)) * 2 ^ 17 + 300000 < 309801 * (ntick p + 1).
Proof. apply fdiv_spec. reflexivity. Qed.
Lemma atick_def p : logN (x32 p) * 2 ^ 17 / LOG2_SQRT_10001 = atick p.
Proof. unfold atick, LOG2_SQRT_10001. reflexivity. Qed.
Lemma ntick_def p :
  (logN (2 ^ 64 / (x32 p + 1)) * 2 ^ 17 + LOG2_NEGATIVE_MAX_LOSE) / LOG2_SQRT_10001 = ntick p.
Proof. unfold ntick, LOG2_SQRT_10001, LOG2_NEGATIVE_MAX_LOSE. reflexivity. Qed.
Global Opaque atick ntick logN.

(** prices of at least one *)
Lemma pos_lo p a N : 2 ^ 32 <= x32 p < 2 ^ 48 -> N = logN (x32 p) ->
  309801 * a <= N * 2 ^ 17 -> 0 <= a <= 221817 -> tprice a <= p.
Proof.
  intros Hx1 EN D1 Ha. pose proof (x32_spec p) as HS.
  pose proof (lo_lemma a (x32 p) 0 Hx1 ltac:(lia) ltac:(lia) ltac:(rewrite <- EN; lia)) as HL.
  rewrite pw_0, Z.mul_1_l in HL. apply pw_le_inv in HL; [|lia|unfold FP_ONE; lia].
  rewrite tprice_pos by lia. unfold FP_ONE, SP_ONE in *. lia.
Qed.

Lemma pos_hi p a N : 2 ^ 32 <= x32 p < 2 ^ 48 -> N = logN (x32 p) ->
  N * 2 ^ 17 < 309801 * (a + 1) -> 0 <= a -> a + 2 <= MAX_TICK -> p < tprice (a + 2).
Proof.
  intros Hx1 EN D2 Ha Hm. pose proof (x32_spec p) as HS. unfold MAX_TICK in Hm.
  destruct (Z.lt_ge_cases p (tprice (a + 2))) as [|Hge]; [assumption|exfalso].
  apply (hi_lemma (a + 2) (x32 p) Hx1 ltac:(lia)); [rewrite <- EN; lia|].
  rewrite tprice_pos in Hge by lia. pose proof (F_ge (a + 2)) as HF.
  unfold FP_ONE, SP_ONE in *. lia.
Qed.

Lemma pos_bracket p : SP_ONE <= p <= MAX_SQRT_PRICE ->
  2 ^ 32 <= x32 p < 2 ^ 48 /\
  0 <= atick p <= 221817 /\ tprice (atick p) <= p /\
  (atick p + 2 <= MAX_TICK -> p < tprice (atick p + 2)).
Proof.
  intros Hp. assert (Hr : MIN_SQRT_PRICE <= p <= MAX_SQRT_PRICE)
    by (unfold MIN_SQRT_PRICE, SP_ONE in *; lia).
  destruct (x32_range p Hr) as [Hx Hiff]. assert (Hx1 : 2 ^ 32 <= x32 p < 2 ^ 48) by lia.
  pose proof (logN_lt _ Hx1) as HN. pose proof (atick_spec p) as HS.
  assert (Ha : 0 <= atick p <= 221817) by lia.
  split; [exact Hx1|]. split; [exact Ha|]. split.
  - eapply pos_lo; [exact Hx1|reflexivity| |exact Ha]. apply HS.
  - intros Hm. eapply pos_hi; [exact Hx1|reflexivity| | |exact Hm]; lia.
Qed.

Lemma neg_check : check_up 10000000 9999999 0 9800 32 = true.
Proof. vm_compute. reflexivity. Qed.

Lemma neg_powers : pw 2 9801 * pw 9999999 (2 ^ 32) <= pw 10000000 (2 ^ 32) -> False.
Proof.
  intros H.
  pose proof (check_up_ok 10000000 9999999 0 9800 32 ltac:(lia) ltac:(lia) ltac:(lia) neg_check) as HC.
  assert (E : 2 ^ Z.of_nat 32 = 2 ^ 32) by reflexivity. rewrite E in HC.
  assert (E2 : pw 2 9801 = pw 2 9800 * 2) by (rewrite <- (pw_1 2) at 3; rewrite <- pw_add by lia; reflexivity).
  rewrite E2 in H.
  pose proof (pw_pos 2 9800 ltac:(lia) ltac:(lia)). pose proof (pw_pos 9999999 (2 ^ 32) ltac:(lia) ltac:(lia)).
  clear E E2. revert H HC H0 H1. generalize (pw 2 9800) (pw 9999999 (2 ^ 32)) (pw 10000000 (2 ^ 32)).
  intros. nia.
Qed.

(** prices below one *)
Lemma neg_lo p a x x' N : SP_ONE * x <= p * 2 ^ 32 < SP_ONE * (x + 1) -> 65535 < x ->
  (x + 1) * x' <= 2 ^ 64 < (x + 1) * (x' + 1) ->
  2 ^ 32 <= x' < 2 ^ 48 -> N = logN x' -> 0 <= p ->
  N * 2 ^ 17 + 300000 < 309801 * (a + 1) -> 0 <= a -> a + 1 <= MAX_TICK ->
  tprice (- a - 1) <= p.
Proof.
  intros HS Hx E1 Hx1 EN Hp D2 Ha Hm. unfold MAX_TICK in Hm.
  destruct (Z.le_gt_cases (tprice (- a - 1)) p) as [|Hgt]; [assumption|exfalso].
  apply (hi_lemma (a + 1) x' Hx1 ltac:(lia)); [rewrite <- EN; lia|].
  rewrite tprice_neg in Hgt by lia. replace (- (- a - 1)) with (a + 1) in Hgt by lia.
  pose proof (F_ge (a + 1)) as HF. pose proof (F_le (a + 1) ltac:(unfold MAX_TICK; lia)) as HF2.
  set (f := F (a + 1)) in *. clearbody f. clear D2 EN.
  unfold FP_ONE, SP_ONE in *.
  pose proof (Z.mul_div_le (1000000000000 * 1000000000000) f ltac:(lia)) as G1.
  set (g := 1000000000000 * 1000000000000 / f) in *. clearbody g.
  assert (G2 : f * p <= 1000000000000 * 1000000000000 * 1000000000000) by nia.
  assert (G3 : f * x <= 1000000000000 * 2 ^ 32) by nia.
  assert (E64 : 2 ^ 64 = 2 ^ 32 * 2 ^ 32) by reflexivity. rewrite E64 in E1. clear E64.
  assert (HW : 2 ^ 32 = 4294967296) by reflexivity.
  set (W := 2 ^ 32) in *. clearbody W.
  assert (G4 : W * W * (65536 * W) <= x * 65537 * (x' * (W + 1))).
  { assert ((x + 1) * 65536 <= x * 65537) by lia.
    assert ((x' + 1) * W <= x' * (W + 1)) by nia.
    assert ((x + 1) * 65536 * ((x' + 1) * W) <= x * 65537 * (x' * (W + 1)))
      by (apply Z.mul_le_mono_nonneg; nia).
    nia. }
  assert (G5 : f * (W * W * (65536 * W)) <= f * (x * 65537 * (x' * (W + 1))))
    by (apply Z.mul_le_mono_nonneg_l; lia).
  assert (G6 : f * x * (65537 * (x' * (W + 1))) <= 1000000000000 * W * (65537 * (x' * (W + 1))))
    by (apply Z.mul_le_mono_nonneg_r; nia).
  apply Z.mul_le_mono_pos_r with (p := W); lia.
Qed.

Lemma neg_hi p a x x' N : SP_ONE * x <= p * 2 ^ 32 < SP_ONE * (x + 1) ->
  (x + 1) * x' <= 2 ^ 64 ->
  2 ^ 32 <= x' < 2 ^ 48 -> N = logN x' -> MIN_SQRT_PRICE <= p < SP_ONE ->
  309801 * a <= N * 2 ^ 17 + 300000 -> 0 <= a <= MAX_TICK -> 
  p < tprice (- a + 1).
Proof.
  intros HS E1 Hx1 EN Hp D1 Ha. unfold MAX_TICK in Ha.
  destruct (Z.eq_dec a 0) as [->|Hne].
  { change (- 0 + 1) with 1.
    pose proof (tprice_lt 0 1 ltac:(unfold MAX_TICK; lia) ltac:(lia) ltac:(unfold MAX_TICK; lia)) as H.
    rewrite tprice_0 in H. lia. }
  destruct (Z.lt_ge_cases p (tprice (- a + 1))) as [|Hge]; [assumption|exfalso].
  pose proof (lo_lemma (a - 1) x' 9801 Hx1 ltac:(lia) ltac:(lia) ltac:(rewrite <- EN; lia)) as HL.
  rewrite tprice_neg in Hge by lia. replace (- (- a + 1)) with (a - 1) in Hge by lia.
  pose proof (F_ge (a - 1)) as HF. set (f := F (a - 1)) in *. clearbody f. clear D1 EN.
  unfold FP_ONE, SP_ONE in HF, Hge, HS, Hp. unfold MIN_SQRT_PRICE in Hp.
  pose proof (Z.mul_succ_div_gt (1000000000000 * 1000000000000) f ltac:(lia)) as G1.
  set (g := 1000000000000 * 1000000000000 / f) in *. clearbody g.
  assert (G2 : 1000000000000 * 1000000000000 * 1000000000000 <= f * (p + 1000000000000)) by nia.
  assert (G3 : 9999999 * (1000000000000 * 1000000000000 * 1000000000000) <= f * (p * 10000000)) by nia.
  assert (E64 : 2 ^ 64 = 2 ^ 32 * 2 ^ 32) by reflexivity. rewrite E64 in E1. clear E64.
  assert (HW : 2 ^ 32 = 4294967296) by reflexivity.
  assert (G4 : x' * p <= 1000000000000 * 1000000000000 * 2 ^ 32).
  { assert (x' * (p * 2 ^ 32) <= x' * (1000000000000 * 1000000000000 * (x + 1)))
      by (apply Z.mul_le_mono_nonneg_l; lia). lia. }
  assert (G5 : 9999999 * (1000000000000 * x') <= 10000000 * (f * 2 ^ 32)).
  { assert (9999999 * (1000000000000 * 1000000000000 * 1000000000000) * x' <= f * (p * 10000000) * x')
      by (apply Z.mul_le_mono_nonneg_r; lia).
    assert (f * 10000000 * (x' * p) <= f * 10000000 * (1000000000000 * 1000000000000 * 2 ^ 32))
      by (apply Z.mul_le_mono_nonneg_l; lia).
    lia. }
  assert (G6 : pw (9999999 * (1000000000000 * x')) (2 ^ 32) <= pw (10000000 * (f * 2 ^ 32)) (2 ^ 32))
    by (apply pw_le; lia).
  apply neg_powers. unfold FP_ONE in HL.
  rewrite (pw_mul 9999999), (pw_mul 10000000) in G6.
  pose proof (pw_pos 2 9801 ltac:(lia) ltac:(lia)) as HE.
  pose proof (pw_pos (1000000000000 * x') (2 ^ 32) ltac:(lia) ltac:(lia)) as HX.
  pose proof (pw_pos 9999999 (2 ^ 32) ltac:(lia) ltac:(lia)) as HC.
  pose proof (pw_pos 10000000 (2 ^ 32) ltac:(lia) ltac:(lia)) as HD.
  revert G6 HL HE HX HC HD.
  generalize (pw (1000000000000 * x') (2 ^ 32)) (pw (f * 2 ^ 32) (2 ^ 32))
    (pw 9999999 (2 ^ 32)) (pw 10000000 (2 ^ 32)) (pw 2 9801). intros X Y C D E G6 HL HE HX HC HD.
  assert (E * (C * X) <= E * (D * Y)) by (apply Z.mul_le_mono_nonneg_l; lia).
  assert (D * (E * Y) <= D * X) by (apply Z.mul_le_mono_nonneg_l; lia).
  apply Z.mul_le_mono_pos_r with (p := X); [assumption|]. lia.
Qed.

Lemma neg_bracket p : MIN_SQRT_PRICE <= p < SP_ONE ->
  0 <= x32 p < 2 ^ 32 /\ 2 ^ 32 <= 2 ^ 64 / (x32 p + 1) < 2 ^ 48 /\
  0 <= ntick p <= MAX_TICK /\
  (ntick p + 1 <= MAX_TICK -> tprice (- (ntick p) - 1) <= p) /\
  p < tprice (- (ntick p) + 1).
Proof.
  intros Hp. assert (Hr : MIN_SQRT_PRICE <= p <= MAX_SQRT_PRICE)
    by (unfold MAX_SQRT_PRICE, SP_ONE in *; lia).
  destruct (x32_range p Hr) as [Hx Hiff]. pose proof (x32_spec p) as HS.
  pose proof (ntick_spec p) as HT.
  assert (Hxl : x32 p < 2 ^ 32) by lia.
  pose proof (fdiv_spec (2 ^ 64) (x32 p + 1) ltac:(lia)) as E1.
  assert (Hx1 : 2 ^ 32 <= 2 ^ 64 / (x32 p + 1) < 2 ^ 48).
  { split.
    - apply Z.div_le_lower_bound; [lia|]. lia.
    - apply Z.div_lt_upper_bound; lia. }
  pose proof (logN_lt _ Hx1) as HN.
  assert (Ha : 0 <= ntick p <= MAX_TICK) by (unfold MAX_TICK; lia).
  split; [lia|]. split; [exact Hx1|]. split; [exact Ha|]. split.
  - intros Hm. eapply neg_lo; [exact HS|lia|exact E1|exact Hx1|reflexivity| | | |exact Hm];
      unfold MIN_SQRT_PRICE in *; lia.
  - eapply neg_hi; [exact HS|apply E1|exact Hx1|reflexivity|exact Hp| |exact Ha]. apply HT.
Qed.

(** * The tick of a price *)
Lemma align_floor t s : 0 < s -> align_tick_to_spacing t s = s * (t / s).
Proof.
  intros Hs. unfold align_tick_to_spacing.
  pose proof (Z.div_mod t s ltac:(lia)).
  destruct (Z.ltb_spec 0 t); [|lia].
  rewrite Z.rem_mod_nonneg by lia. lia.
Qed.

Lemma align_align t s : 0 < s -> s * (s * (t / s) / s) = s * (t / s).
Proof. intros. rewrite (Z.mul_comm s (t / s)), Z.div_mul by lia. lia. Qed.

(** [i] is the tick whose price interval contains [p] *)
Definition tick_of_price (p i : Z) : Prop :=
  - MAX_TICK <= i <= MAX_TICK /\ tprice i <= p /\ (i < MAX_TICK -> p < tprice (i + 1)).

Lemma get_tick_ok p s : MIN_SQRT_PRICE <= p <= MAX_SQRT_PRICE -> 1 <= s ->
  exists i, tick_of_price p i /\ get_tick_at_sqrt_price p s = Ok (s * (i / s)).
Proof.
  intros Hp Hs. unfold get_tick_at_sqrt_price.
  rewrite (proj2 (Z.ltb_ge MAX_SQRT_PRICE p)), (proj2 (Z.ltb_ge p MIN_SQRT_PRICE)) by lia.
  cbn [orb].
  change (sqrt_price_to_x32 p) with (x32 p).
  destruct (Z.lt_ge_cases p SP_ONE) as [Hlt|Hge].
  - destruct (neg_bracket p) as (B0 & B1 & B2 & B3 & B4); [lia|].
    destruct (log_value_neg (x32 p) B0 (proj2 B1)) as [-> _].
    cbv beta iota zeta. rewrite ntick_def.
    set (a := ntick p) in *. clearbody a. cbv zeta.
    rewrite !align_floor by lia.
    assert (Hmin : - a = - MAX_TICK -> tprice (- a) <= p).
    { intros ->. rewrite tprice_min. lia. }
    destruct (Z.eqb_spec (s * ((- a - 1) / s)) (s * (- a / s))) as [E|E].
    + destruct (Z.le_gt_cases (tprice (- a)) p) as [L|G].
      * exists (- a). split; [|reflexivity]. split; [unfold MAX_TICK in *; lia|]. split; [exact L|].
        intros _. exact B4.
      * assert (a + 1 <= MAX_TICK) by (unfold MAX_TICK in *; lia).
        exists (- a - 1). rewrite <- E. split; [|reflexivity].
        split; [lia|]. split; [auto|]. intros _. replace (- a - 1 + 1) with (- a) by lia. lia.
    + rewrite calculate_sqrt_price_ok by lia. cbn [bind].
      destruct (Z.leb_spec (tprice (- a)) p) as [L|G].
      * exists (- a). split.
        { split; [lia|]. split; [exact L|]. intros _. exact B4. }
        destruct (1 <? s); rewrite ?align_floor, ?align_align by lia; reflexivity.
      * assert (a + 1 <= MAX_TICK) by (unfold MAX_TICK in *; lia).
        exists (- a - 1). split.
        { split; [lia|]. split; [auto|]. intros _. replace (- a - 1 + 1) with (- a) by lia. lia. }
        destruct (1 <? s); rewrite ?align_floor, ?align_align by lia; reflexivity.
  - destruct (pos_bracket p) as (B0 & B1 & B2 & B3); [lia|].
    rewrite (log_value (x32 p) B0).
    cbv beta iota zeta. rewrite atick_def.
    set (a := atick p) in *. clearbody a. cbv zeta.
    rewrite !align_floor by lia.
    assert (HT : a + 1 <= MAX_TICK) by (unfold MAX_TICK; lia).
    assert (HX : tprice (a + 1) <= p -> tick_of_price p (a + 1)).
    { intros L. split; [unfold MAX_TICK in *; lia|]. split; [exact L|]. intros.
      replace (a + 1 + 1) with (a + 2) by lia. apply B3. lia. }
    assert (HY : p < tprice (a + 1) -> tick_of_price p a).
    { intros L. split; [unfold MAX_TICK in *; lia|]. split; [exact B2|]. intros. exact L. }
    destruct (Z.eqb_spec (s * ((a + 1) / s)) (s * (a / s))) as [E|E].
    + destruct (Z.le_gt_cases (tprice (a + 1)) p) as [L|G].
      * exists (a + 1). split; [auto|]. rewrite E. reflexivity.
      * exists a. split; [auto|]. reflexivity.
    + rewrite calculate_sqrt_price_ok by (unfold MAX_TICK in *; lia). cbn [bind].
      destruct (Z.leb_spec (tprice (a + 1)) p) as [L|G].
      * exists (a + 1). split; [auto|].
        destruct (1 <? s); rewrite ?align_floor, ?align_align by lia; reflexivity.
      * exists a. split; [auto|].
        destruct (1 <? s); rewrite ?align_floor, ?align_align by lia; reflexivity.
Qed.

Lemma get_tick_err p s : p < MIN_SQRT_PRICE \/ MAX_SQRT_PRICE < p ->
  get_tick_at_sqrt_price p s = Err SqrtPriceOutOfRange.
Proof.
  intros H. unfold get_tick_at_sqrt_price.
  destruct (Z.ltb_spec MAX_SQRT_PRICE p), (Z.ltb_spec p MIN_SQRT_PRICE); cbn [orb];
    reflexivity || lia.
Qed.

Lemma tick_of_price_unique p i j : tick_of_price p i -> tick_of_price p j -> i = j.
Proof.
  intros (A1 & A2 & A3) (B1 & B2 & B3).
  destruct (Z.lt_total i j) as [H|[H|H]]; [exfalso| exact H |exfalso].
  - pose proof (tprice_le (i + 1) j ltac:(lia) ltac:(lia) ltac:(lia)). specialize (A3 ltac:(lia)). lia.
  - pose proof (tprice_le (j + 1) i ltac:(lia) ltac:(lia) ltac:(lia)). specialize (B3 ltac:(lia)). lia.
Qed.
