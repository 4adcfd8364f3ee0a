(** Price-to-tick conversion (C02).  Logarithms are bracketed by comparing integer powers; the
    powers themselves are never evaluated. *)
From Verif Require Import Base Decimal SqrtPrice Log PriceProofs.
From Coq Require Import Lia.
Open Scope Z_scope.

(** * Opaque powers *)
Definition pw (a n : Z) : Z := a ^ n.

Lemma pw_pos a n : 0 < a -> 0 <= n -> 0 < pw a n.
Proof. intros. apply Z.pow_pos_nonneg; assumption. Qed.
Lemma pw_mul a b n : pw (a * b) n = pw a n * pw b n.
Proof. apply Z.pow_mul_l. Qed.
Lemma pw_add a n m : 0 <= n -> 0 <= m -> pw a (n + m) = pw a n * pw a m.
Proof. intros. apply Z.pow_add_r; assumption. Qed.
Lemma pw_pw a n m : 0 <= n -> 0 <= m -> pw (pw a n) m = pw a (n * m).
Proof. intros. symmetry. apply Z.pow_mul_r; assumption. Qed.
Lemma pw_le a b n : 0 <= a <= b -> pw a n <= pw b n.
Proof. intros. apply Z.pow_le_mono_l; assumption. Qed.
Lemma pw_le_inv a b n : 0 < n -> 0 <= b -> pw a n <= pw b n -> a <= b.
Proof.
  intros Hn Hb H. destruct (Z.le_gt_cases a b); [assumption|exfalso].
  assert (pw b n < pw a n) by (apply Z.pow_lt_mono_l; lia). lia.
Qed.
Lemma pw_exp a n m : 1 <= a -> 0 <= n <= m -> pw a n <= pw a m.
Proof. intros. apply Z.pow_le_mono_r; lia. Qed.
Lemma pw_1 a : pw a 1 = a.
Proof. apply Z.pow_1_r. Qed.
Lemma pw_sq a n : 0 <= n -> pw a (2 * n) = pw a n * pw a n.
Proof. intros. replace (2 * n) with (n + n) by lia. apply pw_add; lia. Qed.
Lemma pw_0 a : pw a 0 = 1.
Proof. reflexivity. Qed.
Lemma pw2 n : pw 2 n = 2 ^ n.
Proof. reflexivity. Qed.
Lemma pw_one n : 0 <= n -> pw 1 n = 1.
Proof. intros. apply Z.pow_1_l. assumption. Qed.
Lemma pw_4 a n : 0 <= n -> pw a (n * 4) = pw a n * pw a n * (pw a n * pw a n).
Proof. intros. unfold pw. rewrite <- !Z.pow_add_r by lia. f_equal. lia. Qed.
Lemma pw_nonneg a n : 0 <= a -> 0 <= pw a n.
Proof. intros. apply Z.pow_nonneg. assumption. Qed.
Global Opaque pw.

(** (AB <= CD)^n etc.: raising an inequality [a * b <= c * d] of pw products *)
Lemma pw_raise a b c d n k :
  0 <= n -> 0 <= k -> 0 <= a -> 0 <= b -> a * pw b n <= c * pw d n ->
  pw a k * pw b (n * k) <= pw c k * pw d (n * k).
Proof.
  intros Hn Hk Ha Hb H. rewrite <- !pw_pw by assumption. rewrite <- !pw_mul.
  apply pw_le. split; [|assumption].
  apply Z.mul_nonneg_nonneg; [assumption|]. apply Z.pow_nonneg. assumption.
Qed.

(** * Verified repeated squaring with [w] fractional bits *)
Definition LI (w n A B y N : Z) : Prop := y * pw 2 N * pw B n <= pw A n * pw 2 w.
Definition UI (w n A B y N : Z) : Prop := pw A n * pw 2 w <= y * pw 2 N * pw B n.

Definition sq_lo (w : Z) (p : Z * Z) : Z * Z :=
  let y := fst p * fst p / 2 ^ w in
  if 2 ^ (w + 1) <=? y then (y / 2, 2 * snd p + 1) else (y, 2 * snd p).
Definition sq_up (w : Z) (p : Z * Z) : Z * Z :=
  let y := fst p * fst p / 2 ^ w + 1 in
  if 2 ^ (w + 1) <=? y then (y / 2 + 1, 2 * snd p + 1) else (y, 2 * snd p).

Fixpoint iter_sq (f : Z * Z -> Z * Z) (k : nat) (p : Z * Z) : Z * Z :=
  match k with O => p | S k' => iter_sq f k' (f p) end.

Lemma sq_lo_ok w n A B p :
  0 <= w -> 0 <= n -> 0 < A -> 0 < B -> 0 <= fst p -> 0 <= snd p ->
  LI w n A B (fst p) (snd p) ->
  LI w (2 * n) A B (fst (sq_lo w p)) (snd (sq_lo w p)) /\
  0 <= fst (sq_lo w p) /\ 0 <= snd (sq_lo w p).
Proof.
  destruct p as [y N]. unfold LI, sq_lo. cbn [fst snd]. intros Hw Hn HA HB Hy HN H.
  pose proof (pw_pos 2 N ltac:(lia) HN) as P1. pose proof (pw_pos B n HB Hn) as P2.
  pose proof (pw_pos A n HA Hn) as P3. pose proof (pw_pos 2 w ltac:(lia) Hw) as P4.
  cbv zeta. rewrite <- (pw2 w).
  pose proof (Z.div_mod (y * y) (pw 2 w) ltac:(lia)) as D.
  pose proof (Z.mod_pos_bound (y * y) (pw 2 w) ltac:(lia)).
  assert (Hq : 0 <= y * y / pw 2 w) by (apply Z.div_pos; nia).
  set (q := y * y / pw 2 w) in *.
  assert (Hsq : (y * pw 2 N * pw B n) * (y * pw 2 N * pw B n)
                <= (pw A n * pw 2 w) * (pw A n * pw 2 w)).
  { apply Z.mul_le_mono_nonneg; nia. }
  assert (Hmain : q * (pw 2 N * pw 2 N) * (pw B n * pw B n) <= pw A n * pw A n * pw 2 w).
  { assert (q * pw 2 w <= y * y) by lia.
    assert (q * pw 2 w * ((pw 2 N * pw 2 N) * (pw B n * pw B n))
            <= y * y * ((pw 2 N * pw 2 N) * (pw B n * pw B n))).
    { apply Z.mul_le_mono_nonneg_r; [nia|assumption]. }
    apply Z.mul_le_mono_pos_r with (p := pw 2 w); [assumption|]. lia. }
  rewrite <- !pw_sq in Hmain by lia. clearbody q. clear Hsq.
  destruct (2 ^ (w + 1) <=? q); cbn [fst snd].
  - repeat split; try lia.
    + rewrite pw_add by lia. rewrite pw_1.
      pose proof (Z.div_mod q 2 ltac:(lia)). pose proof (Z.mod_pos_bound q 2 ltac:(lia)).
      pose proof (pw_pos 2 (2 * N) ltac:(lia) ltac:(lia)).
      pose proof (pw_pos B (2 * n) ltac:(lia) ltac:(lia)).
      assert (q / 2 * 2 * (pw 2 (2 * N) * pw B (2 * n)) <= q * (pw 2 (2 * N) * pw B (2 * n))).
      { apply Z.mul_le_mono_nonneg_r; [nia|lia]. }
      lia.
    + apply Z.div_pos; lia.
  - repeat split; lia.
Qed.

Lemma sq_up_ok w n A B p :
  0 <= w -> 0 <= n -> 0 < A -> 0 < B -> 0 <= fst p -> 0 <= snd p ->
  UI w n A B (fst p) (snd p) ->
  UI w (2 * n) A B (fst (sq_up w p)) (snd (sq_up w p)) /\
  0 <= fst (sq_up w p) /\ 0 <= snd (sq_up w p).
Proof.
  destruct p as [y N]. unfold UI, sq_up. cbn [fst snd]. intros Hw Hn HA HB Hy HN H.
  pose proof (pw_pos 2 N ltac:(lia) HN) as P1. pose proof (pw_pos B n HB Hn) as P2.
  pose proof (pw_pos A n HA Hn) as P3. pose proof (pw_pos 2 w ltac:(lia) Hw) as P4.
  cbv zeta. rewrite <- (pw2 w).
  pose proof (Z.div_mod (y * y) (pw 2 w) ltac:(lia)) as D.
  pose proof (Z.mod_pos_bound (y * y) (pw 2 w) ltac:(lia)).
  assert (Hq : 0 <= y * y / pw 2 w) by (apply Z.div_pos; nia).
  set (q := y * y / pw 2 w) in *.
  assert (Hsq : (pw A n * pw 2 w) * (pw A n * pw 2 w)
                <= (y * pw 2 N * pw B n) * (y * pw 2 N * pw B n)).
  { apply Z.mul_le_mono_nonneg; nia. }
  assert (Hmain : pw A n * pw A n * pw 2 w <= (q + 1) * (pw 2 N * pw 2 N) * (pw B n * pw B n)).
  { assert (y * y <= (q + 1) * pw 2 w) by lia.
    assert (y * y * ((pw 2 N * pw 2 N) * (pw B n * pw B n))
            <= (q + 1) * pw 2 w * ((pw 2 N * pw 2 N) * (pw B n * pw B n))).
    { apply Z.mul_le_mono_nonneg_r; [nia|assumption]. }
    apply Z.mul_le_mono_pos_r with (p := pw 2 w); [assumption|]. lia. }
  rewrite <- !pw_sq in Hmain by lia.
  set (q1 := q + 1) in *. assert (0 <= q1) by lia. clearbody q1.
  destruct (2 ^ (w + 1) <=? q1); cbn [fst snd].
  - repeat split; try lia.
    + rewrite pw_add by lia. rewrite pw_1.
      pose proof (Z.div_mod q1 2 ltac:(lia)). pose proof (Z.mod_pos_bound q1 2 ltac:(lia)).
      pose proof (pw_pos 2 (2 * N) ltac:(lia) ltac:(lia)).
      pose proof (pw_pos B (2 * n) ltac:(lia) ltac:(lia)).
      assert (q1 * (pw 2 (2 * N) * pw B (2 * n))
              <= (q1 / 2 + 1) * 2 * (pw 2 (2 * N) * pw B (2 * n))).
      { apply Z.mul_le_mono_nonneg_r; [nia|lia]. }
      lia.
    + assert (0 <= q1 / 2) by (apply Z.div_pos; lia). lia.
  - repeat split; lia.
Qed.

Lemma two_S k n : 2 ^ Z.of_nat (S k) * n = 2 ^ Z.of_nat k * (2 * n).
Proof. rewrite Nat2Z.inj_succ, Z.pow_succ_r by lia. ring. Qed.

Lemma iter_lo_ok k : forall w n A B p,
  0 <= w -> 0 <= n -> 0 < A -> 0 < B -> 0 <= fst p -> 0 <= snd p ->
  LI w n A B (fst p) (snd p) ->
  LI w (2 ^ Z.of_nat k * n) A B (fst (iter_sq (sq_lo w) k p)) (snd (iter_sq (sq_lo w) k p)) /\
  0 <= snd (iter_sq (sq_lo w) k p).
Proof.
  induction k as [|k IH]; intros w n A B p Hw Hn HA HB Hf Hs H.
  - cbn [iter_sq]. change (2 ^ Z.of_nat 0) with 1. rewrite Z.mul_1_l. auto.
  - cbn [iter_sq]. rewrite two_S.
    destruct (sq_lo_ok w n A B p) as (H1 & H2 & H3); try assumption.
    apply IH; try assumption. lia.
Qed.

Lemma iter_up_ok k : forall w n A B p,
  0 <= w -> 0 <= n -> 0 < A -> 0 < B -> 0 <= fst p -> 0 <= snd p ->
  UI w n A B (fst p) (snd p) ->
  UI w (2 ^ Z.of_nat k * n) A B (fst (iter_sq (sq_up w) k p)) (snd (iter_sq (sq_up w) k p)) /\
  0 <= snd (iter_sq (sq_up w) k p).
Proof.
  induction k as [|k IH]; intros w n A B p Hw Hn HA HB Hf Hs H.
  - cbn [iter_sq]. change (2 ^ Z.of_nat 0) with 1. rewrite Z.mul_1_l. auto.
  - cbn [iter_sq]. rewrite two_S.
    destruct (sq_up_ok w n A B p) as (H1 & H2 & H3); try assumption.
    apply IH; try assumption. lia.
Qed.

(** start values with [N0] integer bits *)
Definition start_lo (w A B N0 : Z) : Z * Z := (A * 2 ^ w / (B * 2 ^ N0), N0).
Definition start_up (w A B N0 : Z) : Z * Z := (A * 2 ^ w / (B * 2 ^ N0) + 1, N0).

Lemma start_lo_ok w A B N0 : 0 <= w -> 0 <= N0 -> 0 < A -> 0 < B ->
  LI w 1 A B (fst (start_lo w A B N0)) (snd (start_lo w A B N0)) /\ 0 <= fst (start_lo w A B N0).
Proof.
  intros Hw HN HA HB. unfold LI, start_lo. cbn [fst snd]. rewrite !pw_1, <- (pw2 w), <- (pw2 N0).
  pose proof (pw_pos 2 N0 ltac:(lia) HN). pose proof (pw_pos 2 w ltac:(lia) Hw).
  assert (0 < B * pw 2 N0) by nia.
  pose proof (Z.mul_div_le (A * pw 2 w) (B * pw 2 N0) ltac:(assumption)).
  split; [lia|]. apply Z.div_pos; nia.
Qed.

Lemma start_up_ok w A B N0 : 0 <= w -> 0 <= N0 -> 0 < A -> 0 < B ->
  UI w 1 A B (fst (start_up w A B N0)) (snd (start_up w A B N0)) /\ 0 <= fst (start_up w A B N0).
Proof.
  intros Hw HN HA HB. unfold UI, start_up. cbn [fst snd]. rewrite !pw_1, <- (pw2 w), <- (pw2 N0).
  pose proof (pw_pos 2 N0 ltac:(lia) HN). pose proof (pw_pos 2 w ltac:(lia) Hw).
  assert (0 < B * pw 2 N0) by nia.
  pose proof (Z.mul_succ_div_gt (A * pw 2 w) (B * pw 2 N0) ltac:(assumption)).
  split; [lia|]. assert (0 <= A * pw 2 w / (B * pw 2 N0)) by (apply Z.div_pos; nia). lia.
Qed.

(** decision procedures: 2^e B^(2^k) <= A^(2^k), and the converse *)
Definition check_lo (A B N0 e : Z) (k : nat) : bool :=
  let p := iter_sq (sq_lo 128) k (start_lo 128 A B N0) in
  (e <=? snd p) && (2 ^ 128 <=? fst p).
Definition check_up (A B N0 e : Z) (k : nat) : bool :=
  let p := iter_sq (sq_up 128) k (start_up 128 A B N0) in
  (snd p + 1 <=? e) && (fst p <=? 2 ^ 129).

Lemma check_lo_ok A B N0 e k : 0 < A -> 0 < B -> 0 <= N0 -> 0 <= e ->
  check_lo A B N0 e k = true ->
  pw 2 e * pw B (2 ^ Z.of_nat k) <= 1 * pw A (2 ^ Z.of_nat k).
Proof.
  intros HA HB HN He H. unfold check_lo in H. apply andb_true_iff in H as [H1 H2].
  apply Z.leb_le in H1, H2.
  destruct (start_lo_ok 128 A B N0 ltac:(lia) HN HA HB) as [S1 S2].
  destruct (iter_lo_ok k 128 1 A B (start_lo 128 A B N0) ltac:(lia) ltac:(lia) HA HB S2 HN S1)
    as [I1 I2].
  rewrite Z.mul_1_r in I1.
  set (p := iter_sq (sq_lo 128) k (start_lo 128 A B N0)) in *. clearbody p.
  assert (Hk : 0 <= 2 ^ Z.of_nat k) by (apply Z.pow_nonneg; lia).
  set (n := 2 ^ Z.of_nat k) in *. clearbody n.
  unfold LI in I1. rewrite <- ?(pw2 128), <- ?(pw2 129) in H2.
  pose proof (pw_exp 2 e (snd p) ltac:(lia) ltac:(lia)).
  pose proof (pw_pos B n HB Hk). pose proof (pw_pos 2 128 ltac:(lia) ltac:(lia)).
  pose proof (pw_pos 2 e ltac:(lia) ltac:(lia)). pose proof (pw_pos A n HA Hk).
  set (P2 := pw 2 128) in *. clearbody P2.
  assert (P2 * (pw 2 e * pw B n) <= fst p * (pw 2 (snd p) * pw B n)).
  { apply Z.mul_le_mono_nonneg; try nia. }
  assert (P2 * (pw 2 e * pw B n) <= P2 * pw A n) by lia.
  nia.
Qed.

Lemma check_up_ok A B N0 e k : 0 < A -> 0 < B -> 0 <= N0 ->
  check_up A B N0 e k = true ->
  1 * pw A (2 ^ Z.of_nat k) <= pw 2 e * pw B (2 ^ Z.of_nat k).
Proof.
  intros HA HB HN H. unfold check_up in H. apply andb_true_iff in H as [H1 H2].
  apply Z.leb_le in H1, H2.
  destruct (start_up_ok 128 A B N0 ltac:(lia) HN HA HB) as [S1 S2].
  destruct (iter_up_ok k 128 1 A B (start_up 128 A B N0) ltac:(lia) ltac:(lia) HA HB S2 HN S1)
    as [I1 I2].
  rewrite Z.mul_1_r in I1.
  set (p := iter_sq (sq_up 128) k (start_up 128 A B N0)) in *. clearbody p.
  assert (Hk : 0 <= 2 ^ Z.of_nat k) by (apply Z.pow_nonneg; lia).
  set (n := 2 ^ Z.of_nat k) in *. clearbody n.
  unfold UI in I1. rewrite <- ?(pw2 128), <- ?(pw2 129) in H2.
  assert (Hp : pw 2 129 = pw 2 128 * 2)
    by (change 129 with (128 + 1); rewrite pw_add, pw_1 by lia; reflexivity).
  rewrite Hp in H2.
  pose proof (pw_exp 2 (snd p + 1) e ltac:(lia) ltac:(lia)) as He.
  rewrite pw_add, pw_1 in He by lia.
  pose proof (pw_pos B n HB Hk). pose proof (pw_pos 2 128 ltac:(lia) ltac:(lia)).
  pose proof (pw_pos 2 (snd p) ltac:(lia) ltac:(lia)). pose proof (pw_pos A n HA Hk).
  set (P2 := pw 2 128) in *. clearbody P2.
  assert (fst p * (pw 2 (snd p) * pw B n) <= P2 * 2 * (pw 2 (snd p) * pw B n)).
  { apply Z.mul_le_mono_nonneg_r; nia. }
  assert (P2 * (pw 2 (snd p) * 2 * pw B n) <= P2 * (pw 2 e * pw B n)).
  { apply Z.mul_le_mono_nonneg_l; [lia|]. apply Z.mul_le_mono_nonneg_r; lia. }
  assert (P2 * pw A n <= P2 * (pw 2 e * pw B n)) by lia.
  nia.
Qed.

(** * Tick prices against powers of two *)
Fixpoint all_up (fs : list Z) (k : nat) : bool :=
  match fs with
  | [] => true
  | c :: r => check_up c FP_ONE (Z.log2 (c / FP_ONE)) 309801 (32 - k) && (0 <? c) && all_up r (S k)
  end.
Fixpoint all_lo (fs : list Z) (k : nat) : bool :=
  match fs with
  | [] => true
  | c :: r => check_lo c FP_ONE (Z.log2 (c / FP_ONE)) 2478407 (35 - k) && (0 <? c) && all_lo r (S k)
  end.

Lemma factors_up : all_up tick_factors 0 = true.
Proof. vm_compute. reflexivity. Qed.
Lemma factors_lo : all_lo tick_factors 0 = true.
Proof. vm_compute. reflexivity. Qed.

(** 2^20, 2^15, 2^32, 2^35 as variables with their only relevant relations *)
Lemma two_split a k : (k <= a)%nat ->
  2 ^ Z.of_nat (a - k) * 2 ^ Z.of_nat k = 2 ^ Z.of_nat a.
Proof. intros. rewrite <- Z.pow_add_r by lia. f_equal. lia. Qed.

Lemma factor_up c k : (k <= 32)%nat -> 0 < c ->
  check_up c FP_ONE (Z.log2 (c / FP_ONE)) 309801 (32 - k) = true ->
  pw c (2 ^ Z.of_nat 32) <= pw 2 (309801 * 2 ^ Z.of_nat k) * pw FP_ONE (2 ^ Z.of_nat 32).
Proof.
  intros Hk Hc H. apply check_up_ok in H; [|assumption|unfold FP_ONE; lia|apply Z.log2_nonneg].
  rewrite <- (two_split 32 k Hk).
  assert (0 <= 2 ^ Z.of_nat (32 - k)) by (apply Z.pow_nonneg; lia).
  assert (0 <= 2 ^ Z.of_nat k) by (apply Z.pow_nonneg; lia).
  set (n := 2 ^ Z.of_nat (32 - k)) in *. clearbody n. set (m := 2 ^ Z.of_nat k) in *. clearbody m.
  apply (pw_raise _ _ _ _ n m) in H; [|lia..].
  rewrite pw_pw in H by lia.
  assert (pw 1 m = 1) as E by (apply pw_one; lia).
  rewrite E in H. lia.
Qed.

Lemma factor_lo c k : (k <= 35)%nat -> 0 < c ->
  check_lo c FP_ONE (Z.log2 (c / FP_ONE)) 2478407 (35 - k) = true ->
  pw 2 (2478407 * 2 ^ Z.of_nat k) * pw FP_ONE (2 ^ Z.of_nat 35) <= pw c (2 ^ Z.of_nat 35).
Proof.
  intros Hk Hc H.
  apply check_lo_ok in H; [|assumption|unfold FP_ONE; lia|apply Z.log2_nonneg|lia].
  rewrite <- (two_split 35 k Hk).
  assert (0 <= 2 ^ Z.of_nat (35 - k)) by (apply Z.pow_nonneg; lia).
  assert (0 <= 2 ^ Z.of_nat k) by (apply Z.pow_nonneg; lia).
  set (n := 2 ^ Z.of_nat (35 - k)) in *. clearbody n. set (m := 2 ^ Z.of_nat k) in *. clearbody m.
  pose proof (pw_pos 2 2478407 ltac:(lia) ltac:(lia)).
  apply (pw_raise _ _ _ _ n m) in H; [|try (unfold FP_ONE); lia..].
  rewrite pw_pw in H by lia.
  assert (pw 1 m = 1) as E by (apply pw_one; lia).
  rewrite E in H. lia.
Qed.

Lemma odd_split t : t = 2 * (t / 2) + (if Z.odd t then 1 else 0).
Proof. rewrite <- Zmod_odd. apply Z.div_mod. lia. Qed.

Lemma chain_up fs : forall k t v,
  (k + List.length fs <= 32)%nat -> all_up fs k = true -> 0 <= t < 2 ^ len fs -> 0 <= v ->
  Forall (fun c => FP_ONE <= c) fs ->
  pw (chain fs t v) (2 ^ Z.of_nat 32)
  <= pw 2 (309801 * 2 ^ Z.of_nat k * t) * pw v (2 ^ Z.of_nat 32).
Proof.
  induction fs as [|c fs IH]; intros k t v Hk Ha Ht Hv Hf.
  - change (len []) with 0 in Ht. cbn [chain]. replace t with 0 by lia.
    rewrite Z.mul_0_r, pw_0. lia.
  - cbn [chain all_up List.length] in *. apply andb_true_iff in Ha as [Ha1 Ha2].
    apply andb_true_iff in Ha1 as [Ha1 Ha3]. apply Z.ltb_lt in Ha3.
    inversion Hf as [|? ? Hc Hf']; subst.
    rewrite len_cons, Z.pow_add_r in Ht by (pose proof (len_nonneg fs); lia).
    change (2 ^ 1) with 2 in Ht.
    assert (Ht2 : 0 <= t / 2 < 2 ^ len fs).
    { split; [apply Z.div_pos; lia|]. apply Z.div_lt_upper_bound; lia. }
    assert (Hs : 0 <= (if Z.odd t then stepf c v else v)).
    { destruct (Z.odd t); [|assumption]. unfold stepf, FP_ONE in *. apply Z.div_pos; nia. }
    specialize (IH (S k) (t / 2) _ ltac:(lia) Ha2 Ht2 Hs Hf').
    pose proof (factor_up c k ltac:(lia) Ha3 Ha1) as Hu.
    replace (309801 * 2 ^ Z.of_nat (S k) * (t / 2))
      with (309801 * 2 ^ Z.of_nat k * (2 * (t / 2))) in IH
      by (rewrite Nat2Z.inj_succ, Z.pow_succ_r by lia; ring).
    assert (Hpk : 0 < 2 ^ Z.of_nat k) by (apply Z.pow_pos_nonneg; lia).
    assert (Hn : 0 < 2 ^ Z.of_nat 32) by (apply Z.pow_pos_nonneg; lia).
    set (n := 2 ^ Z.of_nat 32) in *. clearbody n. set (q := 2 ^ Z.of_nat k) in *. clearbody q.
    rewrite (odd_split t) at 3. destruct (Z.odd t).
    + rewrite Z.mul_add_distr_l, Z.mul_1_r, pw_add by nia.
      assert (Hst : pw (stepf c v) n <= pw 2 (309801 * q) * pw v n).
      { assert (pw (stepf c v * FP_ONE) n <= pw (v * c) n).
        { apply pw_le. unfold stepf, FP_ONE in *. split; [lia|].
          pose proof (Z.mul_div_le (v * c) 1000000000000). lia. }
        rewrite !pw_mul in H.
        pose proof (pw_pos FP_ONE n ltac:(unfold FP_ONE; lia) ltac:(lia)).
        assert (0 <= pw v n) by (apply pw_nonneg; lia).
        apply Z.mul_le_mono_pos_r with (p := pw FP_ONE n); [assumption|].
        nia. }
      pose proof (pw_pos 2 (309801 * q * (2 * (t / 2))) ltac:(lia) ltac:(nia)).
      nia.
    + rewrite Z.add_0_r. exact IH.
Qed.

Lemma F_up t : 0 <= t < 2 ^ 18 ->
  pw (F t) (2 ^ Z.of_nat 32) <= pw 2 (309801 * t) * pw FP_ONE (2 ^ Z.of_nat 32).
Proof.
  intros Ht.
  pose proof (chain_up tick_factors 0 t FP_ONE ltac:(cbn; lia) factors_up Ht
                ltac:(unfold FP_ONE; lia) factors_ge) as H.
  change (2 ^ Z.of_nat 0) with 1 in H. change (309801 * 1) with 309801 in H. exact H.
Qed.

(** each rounding costs a factor of at most 1 + 10^-12 *)
Definition FPD : Z := FP_ONE + 1.

Lemma chain_lo fs : forall k t v,
  (k + List.length fs <= 35)%nat -> all_lo fs k = true -> 0 <= t < 2 ^ len fs -> FP_ONE <= v ->
  Forall (fun c => FP_ONE <= c) fs ->
  pw 2 (2478407 * 2 ^ Z.of_nat k * t) * pw (v * FP_ONE ^ len fs) (2 ^ Z.of_nat 35)
  <= pw (chain fs t v * FPD ^ len fs) (2 ^ Z.of_nat 35).
Proof.
  induction fs as [|c fs IH]; intros k t v Hk Ha Ht Hv Hf.
  - change (len []) with 0 in *. cbn [chain]. replace t with 0 by lia.
    rewrite Z.mul_0_r, pw_0, Z.mul_1_l. apply Z.le_refl.
  - cbn [chain all_lo List.length] in *. apply andb_true_iff in Ha as [Ha1 Ha2].
    apply andb_true_iff in Ha1 as [Ha1 Ha3]. apply Z.ltb_lt in Ha3.
    inversion Hf as [|? ? Hc Hf']; subst.
    pose proof (len_nonneg fs) as HL.
    rewrite len_cons. rewrite len_cons, Z.pow_add_r in Ht by lia.
    rewrite !(Z.pow_add_r _ (len fs) 1), !Z.pow_1_r by lia.
    change (2 ^ 1) with 2 in Ht.
    assert (Ht2 : 0 <= t / 2 < 2 ^ len fs).
    { split; [apply Z.div_pos; lia|]. apply Z.div_lt_upper_bound; lia. }
    assert (Hs : FP_ONE <= (if Z.odd t then stepf c v else v)).
    { destruct (Z.odd t); [|assumption]. unfold stepf, FP_ONE in *.
      apply Z.div_le_lower_bound; nia. }
    specialize (IH (S k) (t / 2) _ ltac:(lia) Ha2 Ht2 Hs Hf').
    pose proof (factor_lo c k ltac:(lia) Ha3 Ha1) as Hu.
    replace (2478407 * 2 ^ Z.of_nat (S k) * (t / 2))
      with (2478407 * 2 ^ Z.of_nat k * (2 * (t / 2))) in IH
      by (rewrite Nat2Z.inj_succ, Z.pow_succ_r by lia; ring).
    assert (Hpk : 0 < 2 ^ Z.of_nat k) by (apply Z.pow_pos_nonneg; lia).
    assert (Hn : 0 < 2 ^ Z.of_nat 35) by (apply Z.pow_pos_nonneg; lia).
    set (n := 2 ^ Z.of_nat 35) in *. clearbody n. set (q := 2 ^ Z.of_nat k) in *. clearbody q.
    assert (HF : 0 < FP_ONE ^ len fs) by (apply Z.pow_pos_nonneg; unfold FP_ONE; lia).
    assert (HD : 0 < FPD ^ len fs) by (apply Z.pow_pos_nonneg; unfold FPD, FP_ONE; lia).
    set (fl := FP_ONE ^ len fs) in *. clearbody fl. set (dl := FPD ^ len fs) in *. clearbody dl.
    set (ch := chain fs (t / 2) (if Z.odd t then stepf c v else v)) in *. clearbody ch.
    rewrite (odd_split t) at 1.
    pose proof (pw_pos 2 (2478407 * q * (2 * (t / 2))) ltac:(lia) ltac:(nia)) as HE.
    remember (pw 2 (2478407 * q * (2 * (t / 2)))) as E eqn:HE0.
    assert (HE' : pw 2 (2478407 * q * (2 * (t / 2) + 1)) = E * pw 2 (2478407 * q)).
    { rewrite Z.mul_add_distr_l, Z.mul_1_r, pw_add by nia. rewrite HE0. reflexivity. }
    pose proof (pw_pos dl n HD ltac:(lia)) as Hdl. pose proof (pw_pos fl n HF ltac:(lia)) as Hfl.
    pose proof (pw_pos FP_ONE n ltac:(unfold FP_ONE; lia) ltac:(lia)) as HFP.
    pose proof (pw_pos FPD n ltac:(unfold FPD, FP_ONE; lia) ltac:(lia)) as HFD.
    pose proof (pw_pos v n ltac:(unfold FP_ONE in *; lia) ltac:(lia)) as Hvn.
    pose proof (pw_pos c n Ha3 ltac:(lia)) as Hcn.
    rewrite !pw_mul in *.
    destruct (Z.odd t).
    + rewrite HE'.
      assert (Hst : pw v n * pw c n <= pw (stepf c v) n * pw FPD n).
      { rewrite <- !pw_mul. apply pw_le. split; [unfold FP_ONE in *; nia|].
        unfold FPD. unfold stepf, FP_ONE in *.
        pose proof (Z.mul_succ_div_gt (v * c) 1000000000000). lia. }
      assert (E * (pw (stepf c v) n * pw fl n) * pw FPD n <= pw ch n * pw dl n * pw FPD n).
      { apply Z.mul_le_mono_nonneg_r; lia. }
      assert (E * (pw v n * pw c n) * pw fl n <= E * (pw (stepf c v) n * pw FPD n) * pw fl n).
      { apply Z.mul_le_mono_nonneg_r; [lia|]. apply Z.mul_le_mono_nonneg_l; lia. }
      assert (E * pw v n * pw fl n * (pw 2 (2478407 * q) * pw FP_ONE n)
              <= E * pw v n * pw fl n * pw c n).
      { apply Z.mul_le_mono_nonneg_l; [nia|exact Hu]. }
      lia.
    + rewrite Z.add_0_r, <- HE0.
      assert (pw FP_ONE n <= pw FPD n) by (apply pw_le; unfold FPD, FP_ONE; lia).
      assert (E * (pw v n * pw fl n) * pw FP_ONE n <= pw ch n * pw dl n * pw FPD n).
      { apply Z.mul_le_mono_nonneg; try nia. }
      lia.
Qed.

(** all roundings together cost at most a factor 1 + 10^-10 *)
Lemma F_lo t : 0 <= t < 2 ^ 18 ->
  pw 2 (2478407 * t) * pw (FP_ONE * 10000000000) (2 ^ Z.of_nat 35)
  <= pw (F t * 10000000001) (2 ^ Z.of_nat 35).
Proof.
  intros Ht.
  pose proof (chain_lo tick_factors 0 t FP_ONE ltac:(cbn; lia) factors_lo Ht
                ltac:(unfold FP_ONE; lia) factors_ge) as H.
  change (2 ^ Z.of_nat 0) with 1 in H. change (2478407 * 1) with 2478407 in H.
  fold (F t) in H. change (len tick_factors) with 18 in H.
  pose proof (F_ge t) as HF.
  assert (Hn : 0 < 2 ^ Z.of_nat 35) by (apply Z.pow_pos_nonneg; lia).
  set (n := 2 ^ Z.of_nat 35) in *. clearbody n.
  set (E := pw 2 (2478407 * t)) in *.
  assert (0 < E) by (apply pw_pos; lia). clearbody E.
  set (f := F t) in *. clearbody f.
  assert (H1 : pw (FPD ^ 18 * 10000000000) n <= pw (FP_ONE ^ 18 * 10000000001) n).
  { apply pw_le. split; vm_compute; discriminate. }
  assert (0 < pw (FP_ONE ^ 18) n) by (apply pw_pos; [vm_compute; reflexivity|lia]).
  assert (0 < pw f n) by (apply pw_pos; unfold FP_ONE in *; lia).
  assert (0 < pw 10000000000 n) by (apply pw_pos; lia).
  set (a := FP_ONE ^ 18) in *. set (b := FPD ^ 18) in *. clearbody a b.
  rewrite !pw_mul in *.
  assert (pw f n * (pw b n * pw 10000000000 n) <= pw f n * (pw a n * pw 10000000001 n)).
  { apply Z.mul_le_mono_nonneg_l; lia. }
  assert (E * (pw FP_ONE n * pw a n) * pw 10000000000 n <= pw f n * pw b n * pw 10000000000 n).
  { apply Z.mul_le_mono_nonneg_r; lia. }
  apply Z.mul_le_mono_pos_r with (p := pw a n); [assumption|]. lia.
Qed.

(** * The binary logarithm *)
Lemma log2_floor_spec v : 1 <= v < 2 ^ 16 ->
  0 <= log2_floor_x32 v < 16 /\ 2 ^ log2_floor_x32 v <= v < 2 ^ (log2_floor_x32 v + 1).
Proof.
  intros Hv. unfold log2_floor_x32.
  change (Z.shiftl 1 32) with 4294967296. change (Z.shiftl 1 16) with 65536.
  change (Z.shiftl 1 8) with 256. change (Z.shiftl 1 4) with 16.
  change (Z.shiftl 1 2) with 4. change (Z.shiftl 1 1) with 2.
  change (2 ^ 16) with 65536 in Hv.
  rewrite (proj2 (Z.leb_gt 4294967296 v)) by lia.
  rewrite (proj2 (Z.leb_gt 65536 v)) by lia.
  assert (H1 : exists w m, (if 256 <=? v then (Z.shiftr v 8, Z.lor 0 8) else (v, 0)) = (w, m) /\
             1 <= w < 256 /\ ((m = 8 /\ 256 * w <= v < 256 * w + 256) \/ (m = 0 /\ w = v))).
  { destruct (Z.leb_spec 256 v); eexists _, _; (split; [reflexivity|]).
    - change (Z.lor 0 8) with 8. rewrite Z.shiftr_div_pow2 by lia. change (2 ^ 8) with 256.
      Z.div_mod_to_equations; lia.
    - lia. }
  destruct H1 as (w & m & -> & Hw & Hm). cbv beta iota.
  assert (H1 : exists u m', (if 16 <=? w then (Z.shiftr w 4, Z.lor m 4) else (w, m)) = (u, m') /\
             1 <= u < 16 /\
             ((m' = Z.lor m 4 /\ 16 * u <= w < 16 * u + 16) \/ (m' = m /\ u = w))).
  { destruct (Z.leb_spec 16 w); eexists _, _; (split; [reflexivity|]);
      rewrite ?Z.shiftr_div_pow2 by lia; change (2 ^ 4) with 16; Z.div_mod_to_equations; lia. }
  destruct H1 as (u & m' & -> & Hu & Hm'). cbv beta iota.
  assert (H1 : exists z k, (if 4 <=? u then (Z.shiftr u 2, Z.lor m' 2) else (u, m')) = (z, k) /\
             1 <= z < 4 /\
             ((k = Z.lor m' 2 /\ 4 * z <= u < 4 * z + 4) \/ (k = m' /\ z = u))).
  { destruct (Z.leb_spec 4 u); eexists _, _; (split; [reflexivity|]);
      rewrite ?Z.shiftr_div_pow2 by lia; change (2 ^ 2) with 4; Z.div_mod_to_equations; lia. }
  destruct H1 as (z & k & -> & Hz & Hk). cbv beta iota.
  destruct Hm as [[-> Hm]|[-> Hm]], Hm' as [[-> Hm']|[-> Hm']], Hk as [[-> Hk]|[-> Hk]];
    destruct (Z.leb_spec 2 z);
      match goal with
      | |- 0 <= ?e < 16 /\ _ =>
          let r := eval vm_compute in e in
          let p := eval vm_compute in (2 ^ e) in
          let q := eval vm_compute in (2 ^ (e + 1)) in
          change (0 <= r < 16 /\ p <= v < q)
      end; lia.
Qed.

Lemma lor_double N k : 0 <= N -> 0 <= k ->
  Z.lor (N * 2 ^ (k + 1)) (2 ^ k) = (2 * N + 1) * 2 ^ k.
Proof.
  intros HN Hk.
  replace (N * 2 ^ (k + 1)) with (Z.shiftl (2 * N) k)
    by (rewrite Z.shiftl_mul_pow2, Z.pow_add_r by lia; ring).
  replace (2 ^ k) with (Z.shiftl 1 k) at 1 by (rewrite Z.shiftl_mul_pow2 by lia; ring).
  rewrite <- Z.shiftl_lor, Z.shiftl_mul_pow2 by lia. f_equal.
  destruct N as [|q|q]; try lia; reflexivity.
Qed.

Lemma loop_iter d : forall n y N, 0 <= N ->
  log2_loop (d + 1 + n) y (2 ^ (16 + Z.of_nat d)) (N * 2 ^ (17 + Z.of_nat d))
  = snd (iter_sq (sq_lo 32) d (y, N)) * 2 ^ 17.
Proof.
  induction d as [|d IH]; intros n y N HN.
  - cbn [Nat.add log2_loop iter_sq snd]. change (2 ^ (16 + Z.of_nat 0)) with LOG2_ACCURACY.
    rewrite Z.ltb_irrefl. reflexivity.
  - cbn [Nat.add log2_loop iter_sq].
    assert (LOG2_ACCURACY < 2 ^ (16 + Z.of_nat (S d))).
    { change LOG2_ACCURACY with (2 ^ 16). apply Z.pow_lt_mono_r; lia. }
    rewrite (proj2 (Z.ltb_lt _ _)) by assumption. cbv zeta.
    replace (16 + Z.of_nat (S d)) with (16 + Z.of_nat d + 1) by lia.
    replace (17 + Z.of_nat (S d)) with (17 + Z.of_nat d + 1) by lia.
    assert (Hsh : Z.shiftr (2 ^ (16 + Z.of_nat d + 1)) 1 = 2 ^ (16 + Z.of_nat d)).
    { rewrite Z.shiftr_div_pow2, Z.pow_add_r by lia. apply Z.div_mul. discriminate. }
    rewrite Hsh. unfold sq_lo at 2. cbn [fst snd]. cbv zeta.
    change (2 ^ (32 + 1)) with LOG2_TWO. change (2 ^ 32) with LOG2_ONE.
    replace (16 + Z.of_nat d + 1) with (17 + Z.of_nat d) by lia.
    destruct (LOG2_TWO <=? y * y / LOG2_ONE).
    + rewrite lor_double by lia. rewrite IH by lia. rewrite Z.shiftr_div_pow2 by lia. reflexivity.
    + replace (N * 2 ^ (17 + Z.of_nat d + 1)) with (2 * N * 2 ^ (17 + Z.of_nat d))
        by (rewrite (Z.pow_add_r _ (17 + _) 1) by lia; ring).
      apply IH. lia.
Qed.

Lemma iter_one k N : snd (iter_sq (sq_lo 32) k (LOG2_ONE, N)) = N * 2 ^ Z.of_nat k.
Proof.
  revert N. induction k as [|k IH]; intros N.
  - cbn [iter_sq snd]. change (2 ^ Z.of_nat 0) with 1. lia.
  - cbn [iter_sq]. change (sq_lo 32 (LOG2_ONE, N)) with (LOG2_ONE, 2 * N). rewrite IH.
    rewrite Nat2Z.inj_succ, Z.pow_succ_r by lia. ring.
Qed.

Definition norm (x : Z) : Z * Z :=
  (Z.shiftr x (log2_floor_x32 (Z.shiftr x 32)), log2_floor_x32 (Z.shiftr x 32)).
Definition logN (x : Z) : Z := snd (iter_sq (sq_lo 32) 15 (norm x)).

Definition log_body (x : Z) : Z :=
  let fl := log2_floor_x32 (Z.shiftr x 32) in
  let result := Z.shiftl fl 32 in
  let y := Z.shiftr x fl in
  if y =? LOG2_ONE then result else log2_loop 32 y LOG2_HALF result.

Lemma log_split x : log2_iterative_approximation_x32 x
  = if x <? LOG2_ONE then (false, log_body (LOG2_DOUBLE_ONE / (x + 1))) else (true, log_body x).
Proof.
  unfold log2_iterative_approximation_x32, log_body.
  destruct (x <? LOG2_ONE); cbv beta iota zeta; match goal with |- context [if ?b then _ else _] => destruct b end;
    reflexivity.
Qed.

Lemma log_body_value x : 2 ^ 32 <= x < 2 ^ 48 -> log_body x = logN x * 2 ^ 17.
Proof.
  intros Hx. unfold log_body.
  cbv zeta. unfold logN, norm.
  destruct (log2_floor_spec (Z.shiftr x 32)) as [Hf _].
  { rewrite Z.shiftr_div_pow2 by lia. split; [apply Z.div_le_lower_bound; lia|].
    apply Z.div_lt_upper_bound; [lia|]. rewrite <- Z.pow_add_r by lia. lia. }
  set (fl := log2_floor_x32 (Z.shiftr x 32)) in *. clearbody fl.
  rewrite Z.shiftl_mul_pow2 by lia.
  destruct (Z.eqb_spec (Z.shiftr x fl) LOG2_ONE) as [E|E].
  - rewrite E, iter_one. change (Z.of_nat 15) with 15. rewrite <- Z.mul_assoc.
    f_equal.
  - change LOG2_HALF with (2 ^ (16 + Z.of_nat 15)).
    change (2 ^ 32) with (2 ^ (17 + Z.of_nat 15)).
    apply (loop_iter 15 16). lia.
Qed.

Lemma log_value x : 2 ^ 32 <= x < 2 ^ 48 ->
  log2_iterative_approximation_x32 x = (true, logN x * 2 ^ 17).
Proof.
  intros Hx. rewrite log_split, <- log_body_value by assumption.
  rewrite (proj2 (Z.ltb_ge _ _)) by (change LOG2_ONE with (2 ^ 32); lia). reflexivity.
Qed.

Lemma log_value_neg x : 0 <= x < 2 ^ 32 -> 2 ^ 64 / (x + 1) < 2 ^ 48 ->
  log2_iterative_approximation_x32 x = (false, logN (2 ^ 64 / (x + 1)) * 2 ^ 17) /\
  2 ^ 32 <= 2 ^ 64 / (x + 1).
Proof.
  intros Hx Hu.
  assert (Hl : 2 ^ 32 <= 2 ^ 64 / (x + 1)).
  { apply Z.div_le_lower_bound; [lia|]. change (2 ^ 64) with (2 ^ 32 * 2 ^ 32).
    apply Z.mul_le_mono_nonneg_r; lia. }
  split; [|assumption].
  rewrite log_split, <- log_body_value by (split; assumption).
  rewrite (proj2 (Z.ltb_lt _ _)) by (change LOG2_ONE with (2 ^ 32); lia). reflexivity.
Qed.

(** relative upper bound on the repeated squaring with truncation *)
Definition UR (W M E n A B y N : Z) : Prop :=
  pw A n * W * M <= y * pw 2 N * pw B n * (M + E).
Definition next_E (W M E : Z) : Z := ((W + 1) * (W + 1) * ((M + E) * (M + E))) / (M * (W * W)) + 1 - M.

Lemma ur_step W M E n A B y N :
  W = pw 2 32 -> 0 < M -> 0 <= E -> 0 <= n -> 0 < A -> 0 < B -> 0 <= N ->
  W <= y < 2 * W ->
  UR W M E n A B y N ->
  let p := sq_lo 32 (y, N) in
  UR W M (next_E W M E) (2 * n) A B (fst p) (snd p) /\ W <= fst p < 2 * W /\ 0 <= snd p.
Proof.
  intros HW HM HE Hn HA HB HN Hy H. unfold UR, sq_lo in *. cbn [fst snd]. cbv zeta.
  assert (HWp : 0 < W) by lia.
  change (2 ^ (32 + 1)) with (2 * 2 ^ 32). rewrite <- (pw2 32), <- HW.
  set (q := y * y / W).
  assert (Hq : q * W <= y * y < (q + 1) * W).
  { pose proof (Z.mul_div_le (y * y) W HWp). pose proof (Z.mul_succ_div_gt (y * y) W HWp).
    subst q. lia. }
  clearbody q.
  assert (Hq1 : W <= q) by nia.
  assert (Hq2 : q < 4 * W) by nia.
  assert (Hne : (W + 1) * (W + 1) * ((M + E) * (M + E)) <= (M + next_E W M E) * (M * (W * W))).
  { unfold next_E. assert (HD : 0 < M * (W * W)) by nia.
    pose proof (Z.mul_succ_div_gt ((W + 1) * (W + 1) * ((M + E) * (M + E))) _ HD). lia. }
  assert (Hne0 : 0 <= M + next_E W M E).
  { assert (0 < M * (W * W)) by nia. assert (0 <= (W + 1) * (W + 1) * ((M + E) * (M + E))) by nia.
    nia. }
  set (E' := next_E W M E) in *. clearbody E'.
  set (r := if 2 * W <=? q then (q / 2, 2 * N + 1) else (q, 2 * N)).
  assert (Hr : W <= fst r < 2 * W /\ 0 <= snd r /\
               y * y * W * pw 2 (2 * N) <= fst r * pw 2 (snd r) * ((W + 1) * (W + 1))).
  { pose proof (pw_pos 2 (2 * N) ltac:(lia) ltac:(lia)) as HP.
    subst r. destruct (Z.leb_spec (2 * W) q); cbn [fst snd].
    - pose proof (Z.div_mod q 2 ltac:(lia)). pose proof (Z.mod_pos_bound q 2 ltac:(lia)).
      repeat split; try lia. rewrite pw_add, pw_1 by lia.
      assert (Hz : W <= q / 2) by lia.
      assert (Hy2 : y * y * W <= 2 * (q / 2) * ((W + 1) * (W + 1))).
      { set (z := q / 2) in *.
        assert (y * y <= (2 * z + 2) * W) by nia.
        assert ((2 * z + 2) * W <= 2 * z * (W + 1)) by nia.
        nia. }
      nia.
    - repeat split; try lia.
      assert (Hy2 : y * y * W <= q * ((W + 1) * (W + 1))).
      { assert ((q + 1) * W <= q * (W + 1)) by nia. nia. }
      nia. }
  destruct Hr as (Hr1 & Hr2 & Hr3). split; [|split; assumption].
  clearbody r. destruct r as [y' N']. cbn [fst snd] in *.
  rewrite !pw_sq in * by lia.
  pose proof (pw_pos A n HA Hn) as PA. pose proof (pw_pos B n HB Hn) as PB.
  pose proof (pw_pos 2 N ltac:(lia) HN) as PN.
  pose proof (pw_pos 2 N' ltac:(lia) Hr2) as PN'.
  set (a := pw A n) in *. set (b := pw B n) in *. set (T := pw 2 N) in *.
  set (T' := pw 2 N') in *. clearbody a b T T'.
  assert (Hs : (a * W * M) * (a * W * M) <= (y * T * b * (M + E)) * (y * T * b * (M + E))).
  { apply Z.mul_le_mono_nonneg; nia. }
  assert (H1 : (a * W * M) * (a * W * M) * W <= (y * y * W * (T * T)) * (b * b * ((M + E) * (M + E)))).
  { apply Z.mul_le_mono_nonneg_r with (p := W) in Hs; [|lia]. lia. }
  assert (H2 : (y * y * W * (T * T)) * (b * b * ((M + E) * (M + E)))
               <= y' * T' * ((W + 1) * (W + 1)) * (b * b * ((M + E) * (M + E)))).
  { apply Z.mul_le_mono_nonneg_r; [|assumption]. nia. }
  assert (H3 : y' * T' * (b * b) * ((W + 1) * (W + 1) * ((M + E) * (M + E)))
               <= y' * T' * (b * b) * ((M + E') * (M * (W * W)))).
  { apply Z.mul_le_mono_nonneg_l; [nia|assumption]. }
  apply Z.mul_le_mono_pos_r with (p := M * (W * W)); [nia|]. lia.
Qed.

Fixpoint iter_E (W M E : Z) (k : nat) : Z :=
  match k with O => E | S k' => iter_E W M (next_E W M E) k' end.
Fixpoint iter_E_ok (W M E : Z) (k : nat) : bool :=
  match k with O => true | S k' => (0 <=? E) && iter_E_ok W M (next_E W M E) k' end.

Lemma ur_iter k : forall W M E n A B p,
  W = pw 2 32 -> 0 < M -> iter_E_ok W M E k = true -> 0 <= n -> 0 < A -> 0 < B ->
  0 <= snd p -> W <= fst p < 2 * W -> UR W M E n A B (fst p) (snd p) ->
  let r := iter_sq (sq_lo 32) k p in
  UR W M (iter_E W M E k) (2 ^ Z.of_nat k * n) A B (fst r) (snd r) /\
  W <= fst r < 2 * W /\ 0 <= snd r.
Proof.
  induction k as [|k IH]; intros W M E n A B p HW HM HE Hn HA HB HN Hy H; cbv zeta.
  - cbn [iter_sq iter_E]. change (2 ^ Z.of_nat 0) with 1. rewrite Z.mul_1_l. auto.
  - cbn [iter_sq iter_E iter_E_ok] in *. apply andb_true_iff in HE as [HE1 HE2].
    apply Z.leb_le in HE1. rewrite two_S.
    destruct (ur_step W M E n A B (fst p) (snd p) HW HM HE1 Hn HA HB HN Hy H) as (H1 & H2 & H3).
    rewrite <- surjective_pairing in *.
    apply IH; try assumption. lia.
Qed.

Definition LM : Z := 2 ^ 40.
Definition LE : Z := iter_E LOG2_ONE LM 256 15.

Lemma norm_spec x : 2 ^ 32 <= x < 2 ^ 48 ->
  let W := pw 2 32 in
  W <= fst (norm x) < 2 * W /\ 0 <= snd (norm x) /\
  LI 32 1 x W (fst (norm x)) (snd (norm x)) /\ UR W LM 256 1 x W (fst (norm x)) (snd (norm x)).
Proof.
  intros Hx W. unfold norm, LI, UR. cbn [fst snd]. rewrite !pw_1.
  destruct (log2_floor_spec (Z.shiftr x 32)) as [Hf Hg].
  { rewrite Z.shiftr_div_pow2 by lia. split; [apply Z.div_le_lower_bound; lia|].
    apply Z.div_lt_upper_bound; [lia|]. rewrite <- Z.pow_add_r by lia. lia. }
  set (fl := log2_floor_x32 (Z.shiftr x 32)) in *. clearbody fl.
  rewrite Z.shiftr_div_pow2 in Hg by lia. rewrite Z.shiftr_div_pow2 by lia.
  rewrite Z.pow_add_r in Hg by lia. change (2 ^ 1) with 2 in Hg.
  assert (HWe : 2 ^ 32 = W) by (symmetry; exact (pw2 32)).
  rewrite (pw2 fl). change (pw 2 32) with W.
  assert (HM : LM = 256 * W) by (rewrite <- HWe; reflexivity). rewrite HM. clear HM.
  rewrite HWe in *. assert (HW0 : 0 < W) by lia. clearbody W.
  assert (HT : 0 < 2 ^ fl) by (apply Z.pow_pos_nonneg; lia).
  set (T := 2 ^ fl) in *. clearbody T.
  pose proof (Z.div_mod x W ltac:(lia)). pose proof (Z.mod_pos_bound x W HW0).
  pose proof (Z.div_mod x T ltac:(lia)). pose proof (Z.mod_pos_bound x T HT).
  set (a := x / W) in *. set (b := x / T) in *. clearbody a b.
  assert (Hb : W <= b < 2 * W).
  { assert (W * T <= x) by nia. assert (x < 2 * W * T) by nia. nia. }
  repeat split; try lia; nia.
Qed.

Lemma iter_E_check : iter_E_ok LOG2_ONE LM 256 15 = true.
Proof. vm_compute. reflexivity. Qed.
Lemma LME_pos : 0 < LM + LE.
Proof. vm_compute. reflexivity. Qed.
Lemma LM_pos : 0 < LM.
Proof. vm_compute. reflexivity. Qed.
Lemma LME_small :
  8 * ((LM + LE) * (LM + LE) * ((LM + LE) * (LM + LE))) < 16 * (LM * LM * (LM * LM)).
Proof. vm_compute. reflexivity. Qed.
Global Opaque LM LE.

Lemma logN_bounds x : 2 ^ 32 <= x < 2 ^ 48 ->
  let W := pw 2 32 in
  0 <= logN x /\
  pw 2 (logN x) * pw W (2 ^ 15) <= pw x (2 ^ 15) /\
  pw x (2 ^ 15) * LM <= pw 2 (logN x + 1) * pw W (2 ^ 15) * (LM + LE).
Proof.
  intros Hx W. destruct (norm_spec x Hx) as (H1 & H2 & H3 & H4). fold W in H1, H3, H4.
  assert (Hx0 : 0 < x) by lia.
  assert (HW0 : 0 < W) by (apply pw_pos; lia).
  assert (HWe : 2 ^ 32 = W) by (symmetry; exact (pw2 32)).
  assert (HWn : LOG2_ONE = W) by exact HWe.
  destruct (iter_lo_ok 15 32 1 x W (norm x)) as [L1 L2]; try lia; [assumption|].
  destruct (ur_iter 15 W LM 256 1 x W (norm x)) as (U1 & U2 & U3); try lia; try assumption.
  { rewrite <- HWn. exact iter_E_check. }
  assert (HL : snd (iter_sq (sq_lo 32) 15 (norm x)) = logN x) by (unfold logN; reflexivity).
  rewrite HL in *. clear HL. split; [exact L2|].
  change (Z.of_nat 15) with 15 in *. rewrite Z.mul_1_r in *.
  unfold LI, UR in *. change (pw 2 32) with W in L1.
  assert (HE : iter_E W LM 256 15 = LE) by (rewrite <- HWn; reflexivity).
  rewrite HE in U1. clear HE.
  assert (0 <= LM + LE) by (pose proof LME_pos; lia).
  set (ME := LM + LE) in *. clearbody ME.
  revert L1 U1 U2. generalize (fst (iter_sq (sq_lo 32) 15 (norm x))). intros y L1 U1 U2.
  rewrite pw_add, pw_1 by lia.
  assert (Hn : 0 < 2 ^ 15) by (apply Z.pow_pos_nonneg; lia).
  set (n := 2 ^ 15) in *. clearbody n.
  pose proof (pw_pos 2 (logN x) ltac:(lia) L2). pose proof (pw_pos W n HW0 ltac:(lia)).
  pose proof (pw_pos x n Hx0 ltac:(lia)).
  pose proof LM_pos.
  set (P := pw 2 (logN x)) in *. set (Q := pw W n) in *. set (R := pw x n) in *.
  set (m := LM) in *.
  clearbody P Q R W m.
  split.
  - assert (W * (P * Q) <= y * (P * Q)) by (apply Z.mul_le_mono_nonneg_r; nia). nia.
  - assert (y * (P * Q * ME) <= 2 * W * (P * Q * ME)) by (apply Z.mul_le_mono_nonneg_r; nia). nia.
Qed.

Lemma logN_lt x : 2 ^ 32 <= x < 2 ^ 48 -> 0 <= logN x < 2 ^ 19.
Proof.
  intros Hx. destruct (logN_bounds x Hx) as (H0 & H1 & _). split; [assumption|].
  destruct (Z.lt_ge_cases (logN x) (2 ^ 19)) as [|Hge]; [assumption|exfalso].
  assert (pw 2 (2 ^ 19) <= pw 2 (logN x)) by (apply pw_exp; lia).
  change (2 ^ 19) with (16 * 2 ^ 15) in H.
  assert (Hx' : pw x (2 ^ 15) <= pw (2 ^ 48 - 1) (2 ^ 15)) by (apply pw_le; lia).
  assert (Hlt : pw (2 ^ 48 - 1) (2 ^ 15) < pw (2 ^ 48) (2 ^ 15)).
  { destruct (Z.lt_ge_cases (pw (2 ^ 48 - 1) (2 ^ 15)) (pw (2 ^ 48) (2 ^ 15))) as [|Hb];
      [assumption|]. apply pw_le_inv in Hb; [exfalso; lia|lia|lia]. }
  rewrite <- (pw_pw 2 16) in H by lia.
  assert (HQ : 0 < pw (pw 2 32) (2 ^ 15)) by (apply pw_pos; [apply pw_pos; lia|lia]).
  assert (E : pw (2 ^ 48) (2 ^ 15) = pw (pw 2 16) (2 ^ 15) * pw (pw 2 32) (2 ^ 15)).
  { rewrite <- pw_mul, <- pw_add by lia. f_equal. }
  rewrite E in Hlt.
  set (a := pw (pw 2 16) (2 ^ 15)) in *. set (b := pw (pw 2 32) (2 ^ 15)) in *.
  set (c := pw 2 (logN x)) in *. set (d := pw x (2 ^ 15)) in *.
  set (e := pw (2 ^ 48 - 1) (2 ^ 15)) in *. clearbody a b c d e. nia.
Qed.

(** price of a tick not above the logarithm *)
Lemma lo_lemma a x e : 2 ^ 32 <= x < 2 ^ 48 -> 0 <= a < 2 ^ 18 -> 0 <= e ->
  309801 * a + e <= logN x * 2 ^ 17 ->
  pw 2 e * pw (F a * 2 ^ 32) (2 ^ 32) <= pw (FP_ONE * x) (2 ^ 32).
Proof.
  intros Hx Ha He H. destruct (logN_bounds x Hx) as (H0 & H1 & _).
  pose proof (F_up a Ha) as HF. change (2 ^ Z.of_nat 32) with (2 ^ 32) in HF.
  assert (Hb : 2 ^ 32 = pw 2 32) by (symmetry; exact (pw2 32)).
  assert (Hs : 2 ^ 32 = 2 ^ 15 * 2 ^ 17) by reflexivity.
  rewrite Hb at 1. rewrite Hs in HF |- *.
  assert (Hp : 0 < 2 ^ 15) by lia. assert (Hq : 0 < 2 ^ 17) by lia.
  assert (Hx0 : 0 < x) by lia. clear Hx Hs Hb.
  assert (HW0 : 0 < pw 2 32) by (apply pw_pos; lia).
  set (W := pw 2 32) in *. set (n := 2 ^ 15) in *. set (k := 2 ^ 17) in *. clearbody W n k.
  assert (H2 : pw (pw 2 (logN x) * pw W n) k <= pw (pw x n) k).
  { apply pw_le. split; [|assumption].
    pose proof (pw_nonneg 2 (logN x) ltac:(lia)). pose proof (pw_nonneg W n ltac:(lia)). nia. }
  rewrite pw_mul, !pw_pw in H2 by lia.
  assert (H3 : pw 2 (309801 * a + e) <= pw 2 (logN x * k)) by (apply pw_exp; lia).
  rewrite pw_add in H3 by lia. rewrite !pw_mul.
  pose proof (pw_pos 2 e ltac:(lia) He). pose proof (pw_pos W (n * k) HW0 ltac:(lia)).
  pose proof (pw_pos FP_ONE (n * k) ltac:(unfold FP_ONE; lia) ltac:(lia)).
  set (f := pw (F a) (n * k)) in *. set (w := pw W (n * k)) in *. set (o := pw FP_ONE (n * k)) in *.
  set (X := pw x (n * k)) in *. set (L := pw 2 (logN x * k)) in *.
  set (A := pw 2 (309801 * a)) in *. set (P := pw 2 e) in *.
  clearbody f w o X L A P.
  assert (P * w * f <= P * w * (A * o)) by (apply Z.mul_le_mono_nonneg_l; nia).
  assert (w * o * (A * P) <= w * o * L) by (apply Z.mul_le_mono_nonneg_l; nia).
  assert (o * (L * w) <= o * X) by (apply Z.mul_le_mono_nonneg_l; nia).
  lia.
Qed.

(** the opposite direction: a tick two log units above the logarithm lies above the price *)
Definition HA0 : Z := (2 ^ 32 + 1) * 65537 * 10000000001.
Definition HB0 : Z := 2 ^ 32 * 65536 * 10000000000.

Lemma hi_check : check_up HA0 HB0 0 3 17 = true.
Proof. vm_compute. reflexivity. Qed.

Lemma hi_core b x f N W n K M ME o t t1 s s1 :
  0 <= N -> 0 < n -> 0 < K -> 0 < x -> 0 < f -> 0 < W -> 0 < M -> 0 < ME -> 0 < o ->
  0 < t -> 0 < t1 -> 0 < s -> 0 < s1 -> 0 <= b ->
  pw x n * M <= pw 2 (N + 1) * pw W n * ME ->
  pw 2 (2478407 * b) * pw (o * t) (n * K) <= pw (f * t1) (n * K) ->
  1 * pw ((W + 1) * s1 * t1) (n * 4) <= pw 2 3 * pw (W * s * t) (n * 4) ->
  (N + 2) * K <= 2478407 * b ->
  f * (W * W * s) <= x * (o * ((W + 1) * s1)) ->
  8 * (ME * ME * (ME * ME)) < 16 * (M * M * (M * M)) -> False.
Proof.
  intros H0 Hp15 Hq Hx0 Hf0 HW0 HM HME HO Ht Ht1 Hs Hs1 Hb H1 HF HC Hd Hp HME2.
  assert (H8' : pw 2 3 = 8) by (rewrite pw2; reflexivity).
  (* raise the logarithm bound to the power K *)
  assert (H2 : pw (pw x n * M) K <= pw (pw 2 (N + 1) * pw W n * ME) K).
  { apply pw_le. split; [|assumption]. pose proof (pw_nonneg x n ltac:(lia)). nia. }
  rewrite !pw_mul, !pw_pw in H2 by lia.
  assert (H3 : pw (f * (W * W * s)) (n * K) <= pw (x * (o * ((W + 1) * s1))) (n * K)).
  { apply pw_le. split; [|assumption]. nia. }
  assert (H4 : pw 2 ((N + 1) * K + K) <= pw 2 (2478407 * b)) by (apply pw_exp; nia).
  rewrite pw_add in H4 by nia.
  assert (H5 : pw 2 K * pw (W * s * t) (n * K) * pw M K
               <= pw ME K * pw ((W + 1) * s1 * t1) (n * K)).
  { rewrite !pw_mul in *.
    set (m := n * K) in *. assert (Hm : 0 <= m) by nia. clearbody m.
    pose proof (pw_pos o m HO Hm). pose proof (pw_pos W m HW0 Hm). pose proof (pw_pos s m Hs Hm).
    pose proof (pw_pos t m Ht Hm). pose proof (pw_pos t1 m Ht1 Hm). pose proof (pw_pos s1 m Hs1 Hm).
    pose proof (pw_pos (W + 1) m ltac:(lia) Hm). pose proof (pw_pos x m Hx0 Hm).
    pose proof (pw_pos f m Hf0 Hm). pose proof (pw_pos M K HM ltac:(lia)).
    pose proof (pw_pos ME K HME ltac:(lia)). pose proof (pw_pos 2 K ltac:(lia) ltac:(lia)).
    pose proof (pw_pos 2 ((N + 1) * K) ltac:(lia) ltac:(nia)).
    set (o' := pw o m) in *. set (W' := pw W m) in *. set (s' := pw s m) in *.
    set (t' := pw t m) in *. set (t1' := pw t1 m) in *. set (s1' := pw s1 m) in *.
    set (V' := pw (W + 1) m) in *. set (x' := pw x m) in *. set (f' := pw f m) in *.
    set (M' := pw M K) in *. set (ME' := pw ME K) in *. set (two := pw 2 K) in *.
    set (P := pw 2 ((N + 1) * K)) in *. set (B' := pw 2 (2478407 * b)) in *.
    clearbody o' W' s' t' t1' s1' V' x' f' M' ME' two P B'.
    assert (A1 : P * two * (o' * t') <= f' * t1').
    { assert (P * two * (o' * t') <= B' * (o' * t')) by (apply Z.mul_le_mono_nonneg_r; nia). lia. }
    assert (A2 : P * two * (o' * t') * (W' * W' * s') <= f' * t1' * (W' * W' * s')).
    { apply Z.mul_le_mono_nonneg_r; [|assumption].
      apply Z.lt_le_incl. repeat apply Z.mul_pos_pos; assumption. }
    assert (A3 : f' * (W' * W' * s') * t1' <= x' * (o' * (V' * s1')) * t1').
    { apply Z.mul_le_mono_nonneg_r; [lia|assumption]. }
    assert (A4 : P * two * (o' * t') * (W' * W' * s') * M' <= x' * (o' * (V' * s1')) * t1' * M').
    { apply Z.mul_le_mono_nonneg_r; lia. }
    assert (A5 : x' * M' * (o' * (V' * s1') * t1') <= P * W' * ME' * (o' * (V' * s1') * t1')).
    { apply Z.mul_le_mono_nonneg_r; [|assumption].
      apply Z.lt_le_incl. repeat apply Z.mul_pos_pos; assumption. }
    apply Z.mul_le_mono_pos_r with (p := P * o' * W');
      [repeat apply Z.mul_pos_pos; assumption|]. lia. }
  (* K-th root *)
  rewrite <- !(pw_pw _ n K) in H5 by lia. rewrite <- !pw_mul in H5.
  apply pw_le_inv in H5; [|lia|].
  2:{ pose proof (pw_nonneg ((W + 1) * s1 * t1) n ltac:(nia)). nia. }
  (* fourth power against the check *)
  set (Bn := W * s * t) in *. set (An := (W + 1) * s1 * t1) in *.
  assert (HB : 0 < pw Bn n) by (apply pw_pos; [subst Bn; repeat apply Z.mul_pos_pos; assumption|lia]).
  assert (HA : 0 <= pw An n) by (apply pw_nonneg; subst An; nia).
  rewrite !pw_4 in HC by lia. rewrite H8' in HC.
  set (bn := pw Bn n) in *. set (an := pw An n) in *. clearbody bn an.
  assert (HC' : an * an * (an * an) <= 8 * (bn * bn * (bn * bn))).
  { lia. }
  assert (H8 : 2 * bn * M * (2 * bn * M) <= ME * an * (ME * an))
    by (apply Z.mul_le_mono_nonneg; nia).
  assert (H9 : 2 * bn * M * (2 * bn * M) * (2 * bn * M * (2 * bn * M))
               <= ME * an * (ME * an) * (ME * an * (ME * an)))
    by (apply Z.mul_le_mono_nonneg; nia).
  assert (H10 : (ME * ME * (ME * ME)) * (an * an * (an * an))
                <= (ME * ME * (ME * ME)) * (8 * (bn * bn * (bn * bn)))).
  { apply Z.mul_le_mono_nonneg_l; [nia|assumption]. }
  assert (H11 : (bn * bn * (bn * bn)) * (8 * (ME * ME * (ME * ME)))
                < (bn * bn * (bn * bn)) * (16 * (M * M * (M * M)))).
  { apply Z.mul_lt_mono_pos_l; [|assumption]. repeat apply Z.mul_pos_pos; assumption. }
  lia.
Qed.

Lemma hi_lemma b x : 2 ^ 32 <= x < 2 ^ 48 -> 0 <= b < 2 ^ 18 ->
  (logN x + 2) * 2 ^ 20 <= 2478407 * b ->
  F b * (2 ^ 32 * 2 ^ 32 * 65536) <= x * (FP_ONE * ((2 ^ 32 + 1) * 65537)) -> False.
Proof.
  intros Hx Hb Hd Hp. destruct (logN_bounds x Hx) as (H0 & _ & H1).
  pose proof (F_lo b Hb) as HF.
  assert (E1 : 2 ^ Z.of_nat 35 = 2 ^ 15 * 2 ^ 20) by (vm_compute; reflexivity).
  rewrite E1 in HF.
  pose proof (check_up_ok HA0 HB0 0 3 17 ltac:(reflexivity) ltac:(reflexivity) ltac:(lia) hi_check)
    as HC.
  assert (E2 : 2 ^ Z.of_nat 17 = 2 ^ 15 * 4) by (vm_compute; reflexivity).
  rewrite E2 in HC. unfold HA0, HB0 in HC.
  pose proof (pw2 32) as E3. rewrite <- E3 in Hp, HC.
  pose proof (F_ge b) as HFb. unfold FP_ONE in HFb.
  eapply (hi_core b x (F b) (logN x) (pw 2 32) (2 ^ 15) (2 ^ 20) LM (LM + LE) FP_ONE);
    [exact H0| | | | | |exact LM_pos|exact LME_pos| | | | | | |exact H1|exact HF|exact HC|exact Hd
     |exact Hp|exact LME_small]; try lia.
Qed.

