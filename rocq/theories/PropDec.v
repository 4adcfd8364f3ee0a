(** C63, C64, C65: the decimal library computes exactly rounded results. *)
From Verif Require Import Base Decimal DecLib Tactics.
From stdpp Require Import tactics numbers.
From Coq Require Import QArith Qabs Lia.
Open Scope Z_scope.

(** the number a raw value stands for *)
Definition val (t : dec) (v : Z) : Q := (inject_Z v / inject_Z (10 ^ d_scale t))%Q.
Definition num_at (scale v : Z) : Q := (inject_Z v / inject_Z (10 ^ scale))%Q.
(** a result, if there is one, is the largest value not above (smallest not below) the exact one *)
Definition down (t : dec) (m : res Z) (q : Q) : Prop := forall v, m = Ok v -> (val t v <= q /\ q < val t (v + 1))%Q.
Definition up (t : dec) (m : res Z) (q : Q) : Prop := forall v, m = Ok v -> (val t (v - 1) < q /\ q <= val t v)%Q.
Definition exact (t : dec) (m : res Z) (q : Q) : Prop := forall v, m = Ok v -> (val t v == q)%Q.
Definition in_dec (t : dec) (v : Z) : Prop := 0 <= v <= d_max t.
(** a decimal type: an unsigned integer at a scale for which 10^scale fits u128, and a wider big type *)
Definition dec_ok (t : dec) : Prop := 0 <= d_scale t <= 38 /\ 0 < d_max t <= U128MAX /\ U256MAX <= d_big t.

Lemma pow_pos s : 0 <= s -> 0 < 10 ^ s. Proof. intros. apply Z.pow_pos_nonneg; lia. Qed.
Lemma inj_pos z : 0 < z -> (0 < inject_Z z)%Q. Proof. intros. change 0%Q with (inject_Z 0). by rewrite <- Zlt_Qlt. Qed.
Lemma Qle_frac a b c d : 0 < b -> 0 < d -> (inject_Z a / inject_Z b <= inject_Z c / inject_Z d)%Q <-> a * d <= c * b.
Proof.
  intros B D. pose proof (inj_pos _ B). pose proof (inj_pos _ D). split; intros H1.
  - rewrite Zle_Qle, !inject_Z_mult.
    apply (Qmult_le_compat_r _ _ (inject_Z b * inject_Z d)%Q) in H1; [|apply Qlt_le_weak, Qmult_lt_0_compat; assumption].
    setoid_replace (inject_Z a / inject_Z b * (inject_Z b * inject_Z d))%Q with (inject_Z a * inject_Z d)%Q in H1 by (field; intros E; rewrite E in *; by apply (Qlt_irrefl 0)).
    setoid_replace (inject_Z c / inject_Z d * (inject_Z b * inject_Z d))%Q with (inject_Z c * inject_Z b)%Q in H1 by (field; intros E; rewrite E in *; by apply (Qlt_irrefl 0)).
    done.
  - rewrite Zle_Qle, !inject_Z_mult in H1. apply Qle_shift_div_l; [done|].
    setoid_replace (inject_Z a / inject_Z b * inject_Z d)%Q with (inject_Z a * inject_Z d / inject_Z b)%Q by (field; intros E; rewrite E in *; by apply (Qlt_irrefl 0)).
    by apply Qle_shift_div_r.
Qed.
Lemma Qlt_frac a b c d : 0 < b -> 0 < d -> (inject_Z a / inject_Z b < inject_Z c / inject_Z d)%Q <-> a * d < c * b.
Proof.
  intros B D. pose proof (Qle_frac c d a b D B) as H. split; intros H1.
  - apply Z.lt_nge. intros H2. apply H in H2. by apply Qle_not_lt in H2.
  - apply Qnot_le_lt. intros H2. apply H in H2. lia.
Qed.
Lemma inj_nz z : 0 < z -> ~ (inject_Z z == 0)%Q.
Proof. intros H E. apply inj_pos in H. rewrite E in H. by apply (Qlt_irrefl 0). Qed.

Lemma down_frac t v n d q : dec_ok t -> 0 < d -> (q == inject_Z n / inject_Z (d * 10 ^ d_scale t))%Q -> v = n / d ->
  (val t v <= q /\ q < val t (v + 1))%Q.
Proof.
  intros [S _] D -> ->. pose proof (pow_pos (d_scale t) ltac:(lia)) as P. unfold val.
  pose proof (Z.mul_div_le n d D). pose proof (Z.mul_succ_div_gt n d D).
  assert (0 < d * 10 ^ d_scale t) by (apply Z.mul_pos_pos; lia).
  split; [apply Qle_frac|apply Qlt_frac]; try done; rewrite !Z.mul_assoc.
  - apply Z.mul_le_mono_nonneg_r; lia.
  - apply Z.mul_lt_mono_pos_r; lia.
Qed.
Lemma up_frac t v n d q : dec_ok t -> 0 < d -> (q == inject_Z n / inject_Z (d * 10 ^ d_scale t))%Q -> v = (n + (d - 1)) / d ->
  (val t (v - 1) < q /\ q <= val t v)%Q.
Proof.
  intros [S _] D -> ->. pose proof (pow_pos (d_scale t) ltac:(lia)) as P. unfold val.
  pose proof (Z.mul_div_le (n + (d - 1)) d D). pose proof (Z.mul_succ_div_gt (n + (d - 1)) d D).
  assert (0 < d * 10 ^ d_scale t) by (apply Z.mul_pos_pos; lia).
  split; [apply Qlt_frac|apply Qle_frac]; try done; rewrite !Z.mul_assoc.
  - apply Z.mul_lt_mono_pos_r; lia.
  - apply Z.mul_le_mono_nonneg_r; lia.
Qed.
Lemma product t r a b : dec_ok t -> dec_ok r ->
  (val t a * val r b == inject_Z (a * b) / inject_Z (10 ^ d_scale r * 10 ^ d_scale t))%Q.
Proof.
  intros [S _] [S' _]. unfold val. rewrite !inject_Z_mult. field. split; apply inj_nz, pow_pos; lia.
Qed.
Lemma quotient t s a b : dec_ok t -> 0 <= s -> 0 < b ->
  (val t a / num_at s b == inject_Z (a * 10 ^ s) / inject_Z (b * 10 ^ d_scale t))%Q.
Proof.
  intros [S _] S' B. unfold val, num_at. rewrite !inject_Z_mult. field. repeat split; try apply inj_nz; try apply pow_pos; lia.
Qed.
Lemma rescale t s v : dec_ok t -> d_scale t <= s -> (num_at s v == inject_Z v / inject_Z (10 ^ (s - d_scale t) * 10 ^ d_scale t))%Q.
Proof. intros [S _] L. unfold num_at. rewrite <- Z.pow_add_r by lia. by replace (s - d_scale t + d_scale t) with s by lia. Qed.

Ltac step_of E :=
  lazymatch type of E with
  | ckp _ _ = _ => apply ckp_ok in E; destruct E as [-> ?]
  | ck _ _ _ = _ => apply ck_ok in E; destruct E as [-> ?]
  | _ => unfold div_p, div_e in E; destruct (_ =? _) eqn:?; [done|]; apply Ok_inj in E; subst
  end.
Ltac steps H := repeat (let x := fresh "x" in let E := fresh "E" in inv_bind H as x E; step_of E).
Ltac zeros_off := repeat match goal with H : (_ =? _) = false |- _ => apply Z.eqb_neq in H end.
Ltac inv H := steps H; step_of H; zeros_off.

(** Results are exact for sums, differences and changes to a finer scale, and rounded as the name says otherwise. *)
Theorem C63_rounding t r a b : dec_ok t -> dec_ok r -> in_dec t a -> in_dec r b ->
  let p := (val t a * val r b)%Q in let q := (val t a / val r b)%Q in
  down t (lib_mul t r a b) p /\ up t (lib_mul_up t r a b) p /\
  down t (lib_div t r a b) q /\ up t (lib_div_up t r a b) q /\
  down t (lib_big_mul t r a b) p /\ up t (lib_big_mul_up t r a b) p /\
  down t (lib_big_div t r a b) q /\ down t (lib_checked_big_div t r a b) q /\ up t (lib_big_div_up t r a b) q /\
  down t (lib_big_mul_to_value t r a b) p /\ up t (lib_big_mul_to_value_up t r a b) p.
Proof.
  intros T R [A0 A] [B0 B] p q. pose proof (pow_pos (d_scale r) ltac:(destruct R; lia)) as P.
  assert (PD : forall v, v = a * b / 10 ^ d_scale r -> (val t v <= p /\ p < val t (v + 1))%Q).
  { intros v. apply down_frac; [done|done|]. by apply product. }
  assert (PU : forall v, v = (a * b + (10 ^ d_scale r - 1)) / 10 ^ d_scale r -> (val t (v - 1) < p /\ p <= val t v)%Q).
  { intros v. apply up_frac; [done|done|]. by apply product. }
  assert (QD : forall v, b <> 0 -> v = a * 10 ^ d_scale r / b -> (val t v <= q /\ q < val t (v + 1))%Q).
  { intros v NZ. apply down_frac; [done|lia|]. apply (quotient t (d_scale r)); [done|destruct R; lia|lia]. }
  assert (QU : forall v, b <> 0 -> v = (a * 10 ^ d_scale r + (b - 1)) / b -> (val t (v - 1) < q /\ q <= val t v)%Q).
  { intros v NZ. apply up_frac; [done|lia|]. apply (quotient t (d_scale r)); [done|destruct R; lia|lia]. }
  split_and!; intros v H;
    unfold lib_mul, lib_mul_up, lib_div, lib_div_up, lib_big_mul, lib_big_mul_up, lib_big_div, lib_checked_big_div, lib_big_div_up, lib_big_mul_to_value, lib_big_mul_to_value_up, one_in, almost_one_in in H;
    inv H; first [by apply PD|by apply PU|by apply QD|by apply QU].
Qed.
Theorem C63_rounding_same t a b n : dec_ok t -> in_dec t a -> in_dec t b -> 0 <= n ->
  exact t (lib_add t a b) (val t a + val t b) /\ exact t (lib_sub t a b) (val t a - val t b) /\
  exact t (lib_checked_add t a b) (val t a + val t b) /\ exact t (lib_checked_sub t a b) (val t a - val t b) /\
  exact t (lib_sub_abs t a b) (Qabs (val t a - val t b)) /\
  down t (lib_checked_div t a b) (val t a / val t b) /\
  down t (lib_big_div_by_number t a n) (val t a / num_at (d_scale t) n) /\ down t (lib_checked_big_div_by_number t a n) (val t a / num_at (d_scale t) n) /\
  up t (lib_big_div_by_number_up t a n) (val t a / num_at (d_scale t) n) /\ up t (lib_checked_big_div_by_number_up t a n) (val t a / num_at (d_scale t) n).
Proof.
  intros T [A0 A] [B0 B] N. pose proof (pow_pos (d_scale t) ltac:(destruct T; lia)) as P.
  assert (AD : (val t (a + b) == val t a + val t b)%Q) by (unfold val; rewrite inject_Z_plus; field; by apply inj_nz).
  assert (SB : forall a b, (val t (a - b) == val t a - val t b)%Q) by (intros; unfold val, Z.sub; rewrite inject_Z_plus, inject_Z_opp; field; by apply inj_nz).
  assert (QD : forall v b, 0 <= b -> b <> 0 -> v = a * 10 ^ d_scale t / b -> (val t v <= val t a / num_at (d_scale t) b /\ val t a / num_at (d_scale t) b < val t (v + 1))%Q).
  { intros v b' B' NZ. apply down_frac; [done|lia|]. apply (quotient t (d_scale t)); [done|destruct T; lia|lia]. }
  assert (QU : forall v b, 0 <= b -> b <> 0 -> v = (a * 10 ^ d_scale t + (b - 1)) / b -> (val t (v - 1) < val t a / num_at (d_scale t) b /\ val t a / num_at (d_scale t) b <= val t v)%Q).
  { intros v b' B' NZ. apply up_frac; [done|lia|]. apply (quotient t (d_scale t)); [done|destruct T; lia|lia]. }
  assert (ND : forall x y, x <= y -> (val t x <= val t y)%Q).
  { intros x y L. apply Qle_frac; [done|done|]. apply Z.mul_le_mono_nonneg_r; lia. }
  split_and!; intros v H;
    unfold lib_add, lib_sub, lib_checked_add, lib_checked_sub, lib_sub_abs, lib_checked_div, lib_big_div_by_number, lib_checked_big_div_by_number,
      lib_big_div_by_number_up, lib_checked_big_div_by_number_up, one_in, checked_one_in in H.
  1-4: inv H; done.
  2-6: inv H; first [by apply QD|by apply QU].
  destruct (b <? a) eqn:E; unfold lib_sub in H; inv H.
  - apply Z.ltb_lt in E. rewrite <- SB. rewrite Qabs_pos; [done|]. setoid_replace 0%Q with (val t 0); [apply ND; lia|]. unfold val. field. by apply inj_nz.
  - apply Z.ltb_ge in E. rewrite <- SB. rewrite Qabs_neg; [rewrite !SB; ring|]. setoid_replace 0%Q with (val t 0); [apply ND; lia|]. unfold val. field. by apply inj_nz.
Qed.
Theorem C63_rounding_scale t hi v s : dec_ok t -> 0 <= s -> 0 <= v <= hi ->
  exact t (lib_from_integer t v) (inject_Z v) /\
  down t (lib_from_scale t hi v s) (num_at s v) /\ down t (lib_checked_from_scale t hi v s) (num_at s v) /\
  up t (lib_from_scale_up t hi v s) (num_at s v) /\ down t (lib_checked_from_scale_to_value t v s) (num_at s v) /\
  (s <= d_scale t -> exact t (lib_from_scale t hi v s) (num_at s v) /\ exact t (lib_checked_from_scale t hi v s) (num_at s v) /\
    exact t (lib_from_scale_up t hi v s) (num_at s v) /\ exact t (lib_checked_from_scale_to_value t v s) (num_at s v)).
Proof.
  intros T S0 V. pose proof (pow_pos (d_scale t) ltac:(destruct T; lia)) as P.
  assert (ML : s <= d_scale t -> (val t (v * 10 ^ (d_scale t - s)) == num_at s v)%Q).
  { intros L. unfold val, num_at. replace (10 ^ d_scale t) with (10 ^ (d_scale t - s) * 10 ^ s) by (rewrite <- Z.pow_add_r by lia; f_equal; lia).
    rewrite !inject_Z_mult. field. split; apply inj_nz, pow_pos; lia. }
  assert (MLs : s < d_scale t -> (val t (v * 10 ^ (d_scale t - s)) == num_at s v)%Q) by (intros; apply ML; lia).
  assert (EQ : s = d_scale t -> (val t (v / 10 ^ (s - d_scale t)) == num_at s v)%Q).
  { intros ->. rewrite Z.sub_diag, Z.div_1_r. done. }
  assert (EQU : s = d_scale t -> (val t ((v + (10 ^ (s - d_scale t) - 1)) / 10 ^ (s - d_scale t)) == num_at s v)%Q).
  { intros ->. rewrite Z.sub_diag. change (10 ^ 0) with 1. rewrite Z.div_1_r. by replace (v + (1 - 1)) with v by lia. }
  assert (LT : forall x, (val t x < val t (x + 1))%Q).
  { intros x. apply Qlt_frac; [done|done|]. apply Z.mul_lt_mono_pos_r; lia. }
  assert (MD : s < d_scale t -> (val t (v * 10 ^ (d_scale t - s)) <= num_at s v /\ num_at s v < val t (v * 10 ^ (d_scale t - s) + 1))%Q).
  { intros L. rewrite <- (MLs L). split; [apply Qle_refl|apply LT]. }
  assert (MU : s < d_scale t -> (val t (v * 10 ^ (d_scale t - s) - 1) < num_at s v /\ num_at s v <= val t (v * 10 ^ (d_scale t - s)))%Q).
  { intros L. rewrite <- (MLs L). split; [|apply Qle_refl]. set (x := v * _). replace x with ((x - 1) + 1) at 2 by lia. apply LT. }
  assert (DD : d_scale t <= s -> (val t (v / 10 ^ (s - d_scale t)) <= num_at s v /\ num_at s v < val t (v / 10 ^ (s - d_scale t) + 1))%Q).
  { intros L. eapply down_frac; [done| |by apply rescale|done]. apply pow_pos; lia. }
  assert (DU : d_scale t <= s -> let x := (v + (10 ^ (s - d_scale t) - 1)) / 10 ^ (s - d_scale t) in (val t (x - 1) < num_at s v /\ num_at s v <= val t x)%Q).
  { intros L x. eapply up_frac; [done| |by apply rescale|done]. apply pow_pos; lia. }
  split_and!.
  - intros x H. unfold lib_from_integer, one_in in H. inv H. unfold val. rewrite inject_Z_mult. field. by apply inj_nz.
  - intros x H. unfold lib_from_scale in H. destruct (s <? d_scale t) eqn:E; [apply Z.ltb_lt in E|apply Z.ltb_ge in E]; inv H; [by apply MD|by apply DD].
  - intros x H. unfold lib_checked_from_scale in H. destruct (s <? d_scale t) eqn:E; [apply Z.ltb_lt in E|apply Z.ltb_ge in E]; inv H; [by apply MD|by apply DD].
  - intros x H. unfold lib_from_scale_up in H. destruct (s <? d_scale t) eqn:E; [apply Z.ltb_lt in E|apply Z.ltb_ge in E]; inv H; [by apply MU|by apply DU].
  - intros x H. unfold lib_checked_from_scale_to_value in H. destruct (s <? d_scale t) eqn:E; [apply Z.ltb_lt in E|apply Z.ltb_ge in E]; inv H; [by apply MD|by apply DD].
  - intros L. split_and!; intros x H; unfold lib_from_scale, lib_checked_from_scale, lib_from_scale_up, lib_checked_from_scale_to_value in H;
      (destruct (s <? d_scale t) eqn:E; [apply Z.ltb_lt in E|apply Z.ltb_ge in E]; inv H; [by apply MLs|first [apply EQ; lia|apply EQU; lia]]).
Qed.

(** ** C64: when operations succeed *)
Definition works (m : res Z) : Prop := exists v, m = Ok v.
Lemma ckp_in hi v : 0 <= v <= hi -> ckp hi v = Ok v. Proof. intros. by apply ckp_ok. Qed.
Lemma ck_in e hi v : 0 <= v <= hi -> ck e hi v = Ok v. Proof. intros. by apply ck_ok. Qed.
Lemma ckp_works hi v : works (ckp hi v) <-> 0 <= v <= hi.
Proof. split; [intros [r H]; by apply ckp_ok in H as []|intros; exists v; by apply ckp_in]. Qed.
Lemma ck_works e hi v : works (ck e hi v) <-> 0 <= v <= hi.
Proof. split; [intros [r H]; by apply ck_ok in H as []|intros; exists v; by apply ck_in]. Qed.
Lemma fit_down t n d q : dec_ok t -> 0 < d -> (q == inject_Z n / inject_Z (d * 10 ^ d_scale t))%Q -> (q < val t (d_max t + 1))%Q <-> n / d <= d_max t.
Proof.
  intros [S _] D ->. pose proof (pow_pos (d_scale t) ltac:(lia)) as P. unfold val. rewrite Qlt_frac by (try apply Z.mul_pos_pos; lia).
  rewrite (Z.mul_assoc (d_max t + 1)), <- Z.mul_lt_mono_pos_r by lia. pose proof (floor_spec n d D). split; intros; nia.
Qed.
Lemma fit_up t n d q : dec_ok t -> 0 < d -> (q == inject_Z n / inject_Z (d * 10 ^ d_scale t))%Q -> (q <= val t (d_max t))%Q <-> (n + (d - 1)) / d <= d_max t.
Proof.
  intros [S _] D ->. pose proof (pow_pos (d_scale t) ltac:(lia)) as P. unfold val. rewrite Qle_frac by (try apply Z.mul_pos_pos; lia).
  rewrite (Z.mul_assoc (d_max t)), <- Z.mul_le_mono_pos_r by lia. pose proof (ceil_spec n d D). split; intros; nia.
Qed.
Lemma u256_eq : U256MAX = (U128MAX + 1) * (U128MAX + 1) - 1. Proof. by vm_compute. Qed.
Lemma pow38 s : 0 <= s <= 38 -> 0 < 10 ^ s <= U128MAX /\ 10 ^ s <= 10 ^ 38.
Proof. intros. pose proof (pow_pos s ltac:(lia)). assert (10 ^ s <= 10 ^ 38) by (apply Z.pow_le_mono_r; lia). assert (10 ^ 38 <= U128MAX) by (vm_compute; discriminate). lia. Qed.
Lemma div_p_nz n d : d <> 0 -> div_p n d = Ok (n / d). Proof. intros H. unfold div_p. by apply Z.eqb_neq in H as ->. Qed.
Lemma div_e_nz n d : d <> 0 -> div_e n d = Ok (n / d). Proof. intros H. unfold div_e. by apply Z.eqb_neq in H as ->. Qed.
Lemma works_nz {A} (m : res A) (k : A -> res Z) : (forall x, m <> Ok x) -> ~ works (bind m k).
Proof. intros H [v E]. apply bind_ok in E as (x & E & _). by eapply H. Qed.

Ltac go := repeat first [rewrite ckp_in by lia|rewrite ck_in by lia|rewrite div_p_nz by lia|rewrite div_e_nz by lia|progress cbn [bind]].

(** Operations through the big type fail exactly when the rounded result does not fit or the divisor is zero. *)
Theorem C64_big_success_partial t r a b : dec_ok t -> dec_ok r -> in_dec t a -> in_dec r b ->
  let p := (val t a * val r b)%Q in let q := (val t a / val r b)%Q in
  (works (lib_big_mul t r a b) <-> (p < val t (d_max t + 1))%Q) /\ (works (lib_big_mul_up t r a b) <-> (p <= val t (d_max t))%Q) /\
  (works (lib_big_div t r a b) <-> b <> 0 /\ (q < val t (d_max t + 1))%Q) /\ (works (lib_checked_big_div t r a b) <-> b <> 0 /\ (q < val t (d_max t + 1))%Q) /\
  (works (lib_big_div_up t r a b) <-> b <> 0 /\ (q <= val t (d_max t))%Q) /\
  works (lib_big_mul_to_value t r a b) /\ works (lib_big_mul_to_value_up t r a b).
Proof.
  intros T R [A0 A] [B0 B] p q.
  pose proof T as (TS & TM & TB). pose proof R as (RS & RM & _). destruct (pow38 _ RS) as [PR PR']. set (o := 10 ^ d_scale r) in *.
  assert (AB : 0 <= a * b) by (apply Z.mul_nonneg_nonneg; lia).
  assert (AB' : a * b <= U128MAX * U128MAX) by (apply Z.mul_le_mono_nonneg; lia).
  assert (AO : 0 <= a * o) by (apply Z.mul_nonneg_nonneg; lia).
  assert (AO' : a * o <= U128MAX * 10 ^ 38) by (apply Z.mul_le_mono_nonneg; lia).
  pose proof u256_eq as U. assert (U1 : 10 ^ 38 <= U128MAX) by (vm_compute; discriminate).
  assert (U2 : U128MAX * 10 ^ 38 + U128MAX <= U256MAX) by (vm_compute; discriminate).
  assert (PD : (p < val t (d_max t + 1))%Q <-> a * b / o <= d_max t) by (apply fit_down; [done|lia|by apply product]).
  assert (PU : (p <= val t (d_max t))%Q <-> (a * b + (o - 1)) / o <= d_max t) by (apply fit_up; [done|lia|by apply product]).
  assert (QD : b <> 0 -> (q < val t (d_max t + 1))%Q <-> a * o / b <= d_max t) by (intros; apply fit_down; [done|lia|apply (quotient t (d_scale r)); [done|lia|lia]]).
  assert (QU : b <> 0 -> (q <= val t (d_max t))%Q <-> (a * o + (b - 1)) / b <= d_max t) by (intros; apply fit_up; [done|lia|apply (quotient t (d_scale r)); [done|lia|lia]]).
  assert (D1 : 0 <= a * b / o) by (apply Z.div_pos; lia). assert (D2 : 0 <= (a * b + (o - 1)) / o) by (apply Z.div_pos; lia).
  split_and!; unfold lib_big_mul, lib_big_mul_up, lib_big_div, lib_checked_big_div, lib_big_div_up, lib_big_mul_to_value, lib_big_mul_to_value_up, one_in, almost_one_in; fold o.
  - go. rewrite ckp_works, PD. lia.
  - go. rewrite ckp_works, PU. lia.
  - destruct (Z.eq_dec b 0) as [->|NZ].
    + go. split; [intros W; exfalso; revert W|by intros [? _]]. apply works_nz. by unfold div_p.
    + assert (0 <= a * o / b) by (apply Z.div_pos; lia). go. rewrite ckp_works, QD by done. lia.
  - destruct (Z.eq_dec b 0) as [->|NZ].
    + go. split; [intros W; exfalso; revert W|by intros [? _]]. apply works_nz. by unfold div_e.
    + assert (0 <= a * o / b) by (apply Z.div_pos; lia). go. rewrite ck_works, QD by done. lia.
  - destruct (Z.eq_dec b 0) as [->|NZ].
    + go. split; [intros W; exfalso; revert W|by intros [? _]]. apply works_nz. intros x H. apply ckp_ok in H. lia.
    + assert (0 <= (a * o + (b - 1)) / b) by (apply Z.div_pos; lia). go. rewrite ckp_works, QU by done. lia.
  - go. eexists. reflexivity.
  - go. eexists. reflexivity.
Qed.
Theorem C64_same_success_partial t a b n : dec_ok t -> in_dec t a -> in_dec t b -> 0 <= n <= U256MAX ->
  let q := (val t a / num_at (d_scale t) n)%Q in
  (works (lib_add t a b) <-> (val t a + val t b <= val t (d_max t))%Q) /\ (works (lib_sub t a b) <-> (val t b <= val t a)%Q) /\
  (works (lib_checked_add t a b) <-> (val t a + val t b <= val t (d_max t))%Q) /\ (works (lib_checked_sub t a b) <-> (val t b <= val t a)%Q) /\
  works (lib_sub_abs t a b) /\
  (works (lib_big_div_by_number t a n) <-> n <> 0 /\ (q < val t (d_max t + 1))%Q) /\
  (works (lib_checked_big_div_by_number t a n) <-> n <> 0 /\ (q < val t (d_max t + 1))%Q) /\
  (a * 10 ^ d_scale t + n <= U256MAX ->
    (works (lib_big_div_by_number_up t a n) <-> n <> 0 /\ (q <= val t (d_max t))%Q) /\
    (works (lib_checked_big_div_by_number_up t a n) <-> n <> 0 /\ (q <= val t (d_max t))%Q)).
Proof.
  intros T [A0 A] [B0 B] N q. pose proof T as (TS & TM & TB). destruct (pow38 _ TS) as [PR PR'].
  assert (AD : (val t (a + b) == val t a + val t b)%Q) by (unfold val; rewrite inject_Z_plus; field; apply inj_nz; lia).
  assert (ND : forall x y, (val t x <= val t y)%Q <-> x <= y).
  { intros x y. unfold val. rewrite Qle_frac by lia. rewrite <- Z.mul_le_mono_pos_r by lia. done. }
  set (o := 10 ^ d_scale t) in *.
  assert (AO : 0 <= a * o) by (apply Z.mul_nonneg_nonneg; lia).
  assert (AO' : a * o <= U128MAX * 10 ^ 38) by (apply Z.mul_le_mono_nonneg; lia).
  assert (U2 : U128MAX * 10 ^ 38 + U128MAX <= U256MAX) by (vm_compute; discriminate).
  assert (QD : n <> 0 -> (q < val t (d_max t + 1))%Q <-> a * o / n <= d_max t) by (intros; apply fit_down; [done|lia|apply (quotient t (d_scale t)); [done|lia|lia]]).
  assert (QU : n <> 0 -> (q <= val t (d_max t))%Q <-> (a * o + (n - 1)) / n <= d_max t) by (intros; apply fit_up; [done|lia|apply (quotient t (d_scale t)); [done|lia|lia]]).
  split_and!; unfold lib_add, lib_sub, lib_checked_add, lib_checked_sub, lib_sub_abs, lib_big_div_by_number, lib_checked_big_div_by_number,
      lib_big_div_by_number_up, lib_checked_big_div_by_number_up, one_in, checked_one_in; fold o.
  - rewrite ckp_works, <- AD, ND. lia.
  - rewrite ckp_works, ND. lia.
  - rewrite ck_works, <- AD, ND. lia.
  - rewrite ck_works, ND. lia.
  - unfold lib_sub. destruct (b <? a) eqn:E; [apply Z.ltb_lt in E|apply Z.ltb_ge in E]; apply ckp_works; lia.
  - destruct (Z.eq_dec n 0) as [->|NZ].
    + go. split; [intros W; exfalso; revert W|by intros [? _]]. apply works_nz. by unfold div_p.
    + assert (0 <= a * o / n) by (apply Z.div_pos; lia). go. rewrite ckp_works, QD by done. lia.
  - destruct (Z.eq_dec n 0) as [->|NZ].
    + go. split; [intros W; exfalso; revert W|by intros [? _]]. apply works_nz. by unfold div_e.
    + assert (0 <= a * o / n) by (apply Z.div_pos; lia). go. rewrite ck_works, QD by done. lia.
  - intros L. split.
    + destruct (Z.eq_dec n 0) as [->|NZ].
      * go. split; [intros W; exfalso; revert W|by intros [? _]]. apply works_nz. intros x H. apply ckp_ok in H. lia.
      * assert (0 <= (a * o + (n - 1)) / n) by (apply Z.div_pos; lia). go. rewrite ckp_works, QU by done. lia.
    + destruct (Z.eq_dec n 0) as [->|NZ].
      * go. split; [intros W; exfalso; revert W|by intros [? _]]. apply works_nz. intros x H. apply ck_ok in H. lia.
      * assert (0 <= (a * o + (n - 1)) / n) by (apply Z.div_pos; lia). go. rewrite ck_works, QU by done. lia.
Qed.
(** between scales, if the power of ten of the difference fits the source type (always so between the declared types) *)
Theorem C64_scale_success_partial t hi v s : dec_ok t -> 10 ^ d_scale t <= d_max t -> 0 <= s -> 0 <= v <= hi -> hi <= U128MAX -> 10 ^ (s - d_scale t) <= hi ->
  (works (lib_from_integer t v) <-> (inject_Z v <= val t (d_max t))%Q) /\
  (works (lib_from_scale t hi v s) <-> (num_at s v < val t (d_max t + 1))%Q) /\
  (works (lib_checked_from_scale t hi v s) <-> (num_at s v < val t (d_max t + 1))%Q) /\
  (v + 10 ^ (s - d_scale t) <= hi -> works (lib_from_scale_up t hi v s) <-> (num_at s v <= val t (d_max t))%Q) /\
  (v <= d_max t -> works (lib_checked_from_scale_to_value t v s)).
Proof.
  intros T OM S0 V HI PH. pose proof T as (TS & TM & TB). destruct (pow38 _ TS) as [PR PR'].
  assert (U2 : U128MAX * U128MAX <= U256MAX) by (vm_compute; discriminate). assert (U1 : 1 <= U128MAX) by (vm_compute; discriminate).
  assert (DV : d_scale t <= s -> (num_at s v < val t (d_max t + 1))%Q <-> v / 10 ^ (s - d_scale t) <= d_max t).
  { intros L. apply fit_down; [done|apply pow_pos; lia|by apply rescale]. }
  assert (DU : d_scale t <= s -> (num_at s v <= val t (d_max t))%Q <-> (v + (10 ^ (s - d_scale t) - 1)) / 10 ^ (s - d_scale t) <= d_max t).
  { intros L. apply fit_up; [done|apply pow_pos; lia|by apply rescale]. }
  assert (ML : s < d_scale t -> (num_at s v == inject_Z (v * 10 ^ (d_scale t - s)) / inject_Z (1 * 10 ^ d_scale t))%Q).
  { intros L. unfold num_at. rewrite Z.mul_1_l. replace (10 ^ d_scale t) with (10 ^ (d_scale t - s) * 10 ^ s) by (rewrite <- Z.pow_add_r by lia; f_equal; lia).
    rewrite !inject_Z_mult. field. split; apply inj_nz, pow_pos; lia. }
  assert (MD : s < d_scale t -> (num_at s v < val t (d_max t + 1))%Q <-> v * 10 ^ (d_scale t - s) <= d_max t).
  { intros L. rewrite (fit_down t _ 1 _ T ltac:(lia) (ML L)), Z.div_1_r. done. }
  assert (MU : s < d_scale t -> (num_at s v <= val t (d_max t))%Q <-> v * 10 ^ (d_scale t - s) <= d_max t).
  { intros L. rewrite (fit_up t _ 1 _ T ltac:(lia) (ML L)), Z.div_1_r. by replace (v * 10 ^ (d_scale t - s) + (1 - 1)) with (v * 10 ^ (d_scale t - s)) by lia. }
  assert (PS : s < d_scale t -> 0 < 10 ^ (d_scale t - s) <= 10 ^ d_scale t).
  { intros L. split; [apply pow_pos; lia|]. apply Z.pow_le_mono_r; lia. }
  assert (LE : forall m, 0 < m -> v <= v * m) by (intros; nia).
  split_and!; unfold lib_from_integer, lib_from_scale, lib_checked_from_scale, lib_from_scale_up, lib_checked_from_scale_to_value, one_in.
  - assert (IV : (inject_Z v == inject_Z (v * 10 ^ d_scale t) / inject_Z (1 * 10 ^ d_scale t))%Q).
    { rewrite Z.mul_1_l, inject_Z_mult. field. apply inj_nz. lia. }
    rewrite (fit_up t _ 1 _ T ltac:(lia) IV), Z.div_1_r. pose proof (LE (10 ^ d_scale t) ltac:(lia)). assert (0 <= v * 10 ^ d_scale t) by lia.
    unfold ckp at 1. destruct (in_range 0 (d_max t) v) eqn:E; cbn [bind].
    + rewrite ckp_in by lia. cbn [bind]. rewrite ckp_works. lia.
    + split; [by intros [? ?]|]. intros. exfalso. assert (in_range 0 (d_max t) v = true) by (apply in_range_spec; lia). congruence.
  - destruct (s <? d_scale t) eqn:E; [apply Z.ltb_lt in E|apply Z.ltb_ge in E].
    + rewrite (MD E). specialize (PS E). pose proof (LE _ (proj1 PS)). unfold ckp at 1. destruct (in_range 0 (d_max t) v) eqn:IR; cbn [bind].
      * go. rewrite ckp_works. lia.
      * split; [by intros [? ?]|]. intros. exfalso. assert (in_range 0 (d_max t) v = true) by (apply in_range_spec; lia). congruence.
    + rewrite (DV E). pose proof (pow_pos (s - d_scale t) ltac:(lia)). assert (0 <= v / 10 ^ (s - d_scale t)) by (apply Z.div_pos; lia).
      go. rewrite ckp_works. lia.
  - destruct (s <? d_scale t) eqn:E; [apply Z.ltb_lt in E|apply Z.ltb_ge in E].
    + rewrite (MD E). specialize (PS E). pose proof (LE _ (proj1 PS)). unfold ck at 1. destruct (in_range 0 (d_max t) v) eqn:IR; cbn [bind].
      * go. rewrite ck_works. lia.
      * split; [by intros [? ?]|]. intros. exfalso. assert (in_range 0 (d_max t) v = true) by (apply in_range_spec; lia). congruence.
    + rewrite (DV E). pose proof (pow_pos (s - d_scale t) ltac:(lia)). assert (0 <= v / 10 ^ (s - d_scale t)) by (apply Z.div_pos; lia).
      go. rewrite ck_works. lia.
  - intros VM. destruct (s <? d_scale t) eqn:E; [apply Z.ltb_lt in E|apply Z.ltb_ge in E].
    + rewrite (MU E). specialize (PS E). pose proof (LE _ (proj1 PS)). unfold ckp at 1. destruct (in_range 0 (d_max t) v) eqn:IR; cbn [bind].
      * go. rewrite ckp_works. lia.
      * split; [by intros [? ?]|]. intros. exfalso. assert (in_range 0 (d_max t) v = true) by (apply in_range_spec; lia). congruence.
    + rewrite (DU E). pose proof (pow_pos (s - d_scale t) ltac:(lia)). assert (0 <= (v + (10 ^ (s - d_scale t) - 1)) / 10 ^ (s - d_scale t)) by (apply Z.div_pos; lia).
      go. rewrite ckp_works. lia.
  - intros VM. destruct (s <? d_scale t) eqn:E; [apply Z.ltb_lt in E|apply Z.ltb_ge in E].
    + specialize (PS E). pose proof (LE _ (proj1 PS)). assert (v * 10 ^ (d_scale t - s) <= U128MAX * U128MAX) by (apply Z.mul_le_mono_nonneg; lia).
      assert (0 <= v * 10 ^ (d_scale t - s)) by lia. assert (U128MAX <= U256MAX) by (vm_compute; discriminate). go. by eexists.
    + pose proof (pow_pos (s - d_scale t) ltac:(lia)). assert (U128MAX <= U256MAX) by (vm_compute; discriminate). go. by eexists.
Qed.

(** False for the operations that stay in the narrow type (1.0 times 1.0 already overflows), for rounding up near the top of the
    source type, for scales more than 38 apart and for rounding up a division by a number near 2^256. *)
Theorem C64_success_refuted :
  (exists t a v, dec_ok t /\ in_dec t a /\ in_dec t v /\ (val t v == val t a * val t a)%Q /\ lib_mul t t a a = Panic /\ lib_mul_up t t a a = Panic) /\
  (exists t a v, dec_ok t /\ in_dec t a /\ in_dec t v /\ (val t v == val t a / val t a)%Q /\
     lib_div t t a a = Panic /\ lib_div_up t t a a = Panic /\ lib_checked_div t a a = Err StdErr) /\
  (exists t r a, dec_ok t /\ dec_ok r /\ in_dec r a /\ (num_at (d_scale r) a <= val t (d_max t))%Q /\ lib_from_decimal_up t r a = Panic) /\
  (exists t v s, dec_ok t /\ 0 <= v <= U128MAX /\ 0 <= s /\ (num_at s v <= val t 1)%Q /\
     lib_from_scale t U128MAX v s = Panic /\ lib_checked_from_scale t U128MAX v s = Err StdErr /\ lib_checked_from_scale_to_value t v s = Err StdErr) /\
  (exists t a n, dec_ok t /\ in_dec t a /\ 0 < n <= U256MAX /\ (val t a / num_at (d_scale t) n <= val t (d_max t))%Q /\
     lib_big_div_by_number_up t a n = Panic /\ lib_checked_big_div_by_number_up t a n = Err StdErr).
Proof.
  assert (OK : dec_ok SqrtPriceT /\ dec_ok TokenAmountT /\ dec_ok PercentageT).
  { unfold dec_ok; cbn; repeat split; (lia || (vm_compute; discriminate) || (vm_compute; reflexivity)). }
  destruct OK as (O1 & O2 & O3). split_and!.
  - exists PercentageT, PCT_ONE, PCT_ONE. split; [done|]. unfold in_dec. cbn. repeat split; try (vm_compute; discriminate); vm_compute; reflexivity.
  - exists SqrtPriceT, SP_ONE, SP_ONE. split; [done|]. unfold in_dec. cbn. repeat split; try (vm_compute; discriminate); vm_compute; reflexivity.
  - exists TokenAmountT, SqrtPriceT, U128MAX. split; [done|]. split; [done|]. unfold in_dec. cbn. repeat split; try (vm_compute; discriminate); vm_compute; reflexivity.
  - exists TokenAmountT, 1, 39. split; [done|]. repeat split; try (vm_compute; discriminate); vm_compute; reflexivity.
  - exists TokenAmountT, 2, U256MAX. split; [done|]. unfold in_dec. cbn. repeat split; try (vm_compute; discriminate); vm_compute; reflexivity.
Qed.
(** the rounding and success statements on concrete values: 1.5 * 0.333333 and 1 / 3 *)
(** The declared types have the scales and ranges with which the rest of the model computes. *)
Lemma declared_types :
  one_in SqrtPriceT U128MAX = Ok SP_ONE /\ one_in LiquidityT U128MAX = Ok LIQ_ONE /\ one_in FeeGrowthT U128MAX = Ok FG_ONE /\
  one_in PercentageT U64MAX = Ok PCT_ONE /\ one_in FixedPointT U128MAX = Ok FP_ONE /\ one_in TokenAmountT U128MAX = Ok 1 /\
  one_in SecondsPerLiquidityT U128MAX = Ok SP_ONE /\ d_max PercentageT = U64MAX /\
  Forall (fun t => d_max t = U128MAX) [SqrtPriceT; LiquidityT; FeeGrowthT; FixedPointT; TokenAmountT; SecondsPerLiquidityT] /\
  Forall (fun t => d_big t = U256MAX) [SqrtPriceT; LiquidityT; FeeGrowthT; PercentageT; FixedPointT; TokenAmountT; SecondsPerLiquidityT].
Proof. vm_compute. repeat split; repeat constructor. Qed.

Example ex_C63 : dec_ok SqrtPriceT /\ dec_ok LiquidityT /\ in_dec SqrtPriceT 1500000000000000000000001 /\ in_dec LiquidityT 333333 /\
  lib_big_mul SqrtPriceT LiquidityT 1500000000000000000000001 333333 = Ok 499999500000000000000000 /\
  lib_big_mul_up SqrtPriceT LiquidityT 1500000000000000000000001 333333 = Ok 499999500000000000000001 /\
  lib_big_div LiquidityT SqrtPriceT 1000000 (3 * SP_ONE) = Ok 333333 /\ lib_big_div_up LiquidityT SqrtPriceT 1000000 (3 * SP_ONE) = Ok 333334 /\
  lib_from_decimal TokenAmountT LiquidityT 2500001 = Ok 2 /\ lib_from_decimal_up TokenAmountT LiquidityT 2500001 = Ok 3 /\
  lib_from_decimal SqrtPriceT FixedPointT 1000049998750 = Ok 1000049998750000000000000.
Proof. unfold dec_ok, in_dec; cbn [d_scale d_max d_big SqrtPriceT LiquidityT]. repeat split; try (vm_compute; discriminate); vm_compute; reflexivity. Qed.

(** ** C65: conversions between big integers keep the value *)
Fixpoint limbs_value (l : list Z) : Z := match l with [] => 0 | x :: l => x + 2 ^ 64 * limbs_value l end.
Definition limbs (n : nat) (l : list Z) : Prop := List.length l = n /\ forall x, In x l -> 0 <= x < 2 ^ 64.
Theorem C65_conversions :
  (forall n, 0 <= n <= U128MAX -> limbs 4 (to_u256 n) /\ limbs_value (to_u256 n) = n /\ limbs 5 (to_u320 n) /\ limbs_value (to_u320 n) = n) /\
  (forall l, limbs 4 l -> limbs 5 (u256_to_u320 l) /\ limbs_value (u256_to_u320 l) = limbs_value l) /\
  (forall l, limbs 5 l ->
     (limbs_value l <= U256MAX -> exists l', checked_u320_to_u256 l = Some l' /\ u320_to_u256 l = Ok l' /\ limbs 4 l' /\ limbs_value l' = limbs_value l) /\
     (U256MAX < limbs_value l -> checked_u320_to_u256 l = None /\ u320_to_u256 l = Panic)).
Proof.
  assert (P : 2 ^ 256 = 2 ^ 64 * (2 ^ 64 * (2 ^ 64 * 2 ^ 64))) by reflexivity. unfold U256MAX. rewrite P. clear P.
  assert (P : U128MAX = 2 ^ 64 * 2 ^ 64 - 1) by reflexivity. rewrite P. clear P.
  assert (W : forall n, 0 <= n <= 2 ^ 64 * 2 ^ 64 - 1 -> limbs 4 (to_u256 n) /\ limbs_value (to_u256 n) = n).
  { intros n H. unfold limbs, to_u256. cbn [limbs_value List.length]. rewrite Z.shiftr_div_pow2 by lia.
    pose proof (Z.div_mod n (2 ^ 64) ltac:(lia)). pose proof (Z.mod_pos_bound n (2 ^ 64) ltac:(lia)).
    assert (D : 0 <= n / 2 ^ 64 < 2 ^ 64) by (split; [apply Z.div_pos; lia|apply Z.div_lt_upper_bound; lia]).
    rewrite (Z.mod_small (n / 2 ^ 64)) by lia. split; [split; [done|]|lia]. cbn [In]. intros x [<-|[<-|[<-|[<-|[]]]]]; lia. }
  assert (X : forall l, limbs 4 l -> limbs 5 (u256_to_u320 l) /\ limbs_value (u256_to_u320 l) = limbs_value l).
  { intros l [L F]. destruct l as [|a [|b [|c [|d [|]]]]]; try done. cbn. split; [split; [done|]|lia].
    cbn in F. intros x [<-|[<-|[<-|[<-|[<-|[]]]]]]; first [apply F; tauto|lia]. }
  split_and!.
  - intros n H. destruct (W n H) as [A B]. destruct (X _ A) as [C D]. unfold to_u320. rewrite D. done.
  - exact X.
  - intros l [L F]. destruct l as [|a [|b [|c [|d [|e [|]]]]]]; try done. cbn [In] in F. cbn [limbs_value].
    pose proof (F a ltac:(tauto)). pose proof (F b ltac:(tauto)). pose proof (F c ltac:(tauto)). pose proof (F d ltac:(tauto)). pose proof (F e ltac:(tauto)).
    unfold u320_to_u256, checked_u320_to_u256. change (shift_limbs [a; b; c; d; e] 4) with [e; 0; 0; 0; 0]. cbn [all_zero forallb].
    rewrite !andb_true_r. destruct (Z.eqb_spec e 0) as [->|NE]; cbn [negb].
    + split; [|lia]. intros _. eexists. split; [reflexivity|]. split; [reflexivity|]. cbn. split; [split; [done|]|lia].
      intros x [<-|[<-|[<-|[<-|[]]]]]; lia.
    + split; [lia|done].
Qed.
(** 2^192 + 5 survives; 2^256 is refused *)
Example ex_C65 : limbs 5 [5; 0; 0; 1; 0] /\ checked_u320_to_u256 [5; 0; 0; 1; 0] = Some [5; 0; 0; 1] /\ limbs 5 [0; 0; 0; 0; 1] /\
  checked_u320_to_u256 [0; 0; 0; 0; 1] = None /\ to_u320 (2 ^ 64 * 7 + 9) = [9; 7; 0; 0; 0].
Proof. split_and!; try reflexivity; (split; [reflexivity|]); intros x H; cbn [In] in H; repeat (destruct H as [<-|H]; [lia|]); destruct H. Qed.

(** ** The model's arithmetic is the library's *)
Lemma model_big_mul t r a b : dec_ok t -> dec_ok r -> d_max t = U128MAX -> in_dec t a -> in_dec r b -> lib_big_mul t r a b = big_mul (10 ^ d_scale r) a b /\
  lib_big_mul_up t r a b = big_mul_up (10 ^ d_scale r) a b /\ lib_big_mul_to_value t r a b = Ok (mul_to_value (10 ^ d_scale r) a b) /\
  lib_big_mul_to_value_up t r a b = Ok (mul_to_value_up (10 ^ d_scale r) a b).
Proof.
  intros T R TE [A0 A] [B0 B]. pose proof T as (TS & TM & TB). pose proof R as (RS & RM & _). destruct (pow38 _ RS) as [PR PR']. set (o := 10 ^ d_scale r) in *.
  assert (AB : 0 <= a * b) by (apply Z.mul_nonneg_nonneg; lia).
  assert (AB' : a * b <= U128MAX * U128MAX) by (apply Z.mul_le_mono_nonneg; lia).
  pose proof u256_eq as U. assert (U1 : 10 ^ 38 <= U128MAX) by (vm_compute; discriminate).
  unfold lib_big_mul, lib_big_mul_up, lib_big_mul_to_value, lib_big_mul_to_value_up, big_mul, big_mul_up, mul_to_value, mul_to_value_up, one_in, almost_one_in. fold o. rewrite TE.
  split_and!; go; done.
Qed.
