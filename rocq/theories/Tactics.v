(** Small proof helpers: inversion of the result monad and of the checked operations. *)
From Verif Require Import Base Decimal.
From Coq Require Import Lia.
Open Scope Z_scope.

Lemma bind_ok {A B} (m : res A) (f : A -> res B) b :
  bind m f = Ok b <-> exists a, m = Ok a /\ f a = Ok b.
Proof.
  destruct m; cbn; split; intros H.
  - eauto.
  - destruct H as (a' & E & H). injection E as <-. exact H.
  - discriminate.
  - destruct H as (a' & E & _). discriminate.
  - discriminate.
  - destruct H as (a' & E & _). discriminate.
Qed.

Lemma in_range_spec lo hi v : in_range lo hi v = true <-> lo <= v <= hi.
Proof. unfold in_range. rewrite andb_true_iff, !Z.leb_le. lia. Qed.

Lemma ck_ok e hi v r : ck e hi v = Ok r <-> r = v /\ 0 <= v <= hi.
Proof.
  unfold ck. destruct (in_range 0 hi v) eqn:E.
  - apply in_range_spec in E. split; [intros H; injection H; lia|intros [-> _]; reflexivity].
  - split; [discriminate|]. intros [_ H]. apply in_range_spec in H. congruence.
Qed.
Lemma ckp_ok hi v r : ckp hi v = Ok r <-> r = v /\ 0 <= v <= hi.
Proof.
  unfold ckp. destruct (in_range 0 hi v) eqn:E.
  - apply in_range_spec in E. split; [intros H; injection H; lia|intros [-> _]; reflexivity].
  - split; [discriminate|]. intros [_ H]. apply in_range_spec in H. congruence.
Qed.
Lemma cdiv_ok e n d r : cdiv e n d = Ok r <-> d <> 0 /\ r = n / d.
Proof.
  unfold cdiv. destruct (Z.eqb_spec d 0); split; intros H; try discriminate.
  - destruct H; contradiction.
  - injection H. auto.
  - destruct H as [_ ->]. reflexivity.
Qed.
Lemma map_err_ok {A} e (m : res A) a : map_err e m = Ok a <-> m = Ok a.
Proof. destruct m; cbn; split; intros H; congruence. Qed.
Lemma unwrap_ok {A} (m : res A) a : unwrap m = Ok a <-> m = Ok a.
Proof. destruct m; cbn; split; intros H; congruence. Qed.

(** [inv_bind H]: turn [let* x := m in k = Ok r] into its successful steps *)
Ltac inv_bind H :=
  let a := fresh "a" in let E := fresh "E" in
  apply bind_ok in H; destruct H as (a & E & H).
Tactic Notation "inv_bind" hyp(H) "as" simple_intropattern(a) ident(E) :=
  apply bind_ok in H; destruct H as (a & E & H).

(** floor and ceiling division *)
Lemma floor_spec n d : 0 < d -> d * (n / d) <= n < d * (n / d + 1).
Proof.
  intros. pose proof (Z.mul_div_le n d ltac:(lia)). pose proof (Z.mul_succ_div_gt n d ltac:(lia)). lia.
Qed.
Lemma ceil_spec n d : 0 < d -> d * ((n + (d - 1)) / d - 1) < n <= d * ((n + (d - 1)) / d).
Proof. intros. pose proof (floor_spec (n + (d - 1)) d H). lia. Qed.
Lemma floor_unique n d q : 0 < d -> d * q <= n < d * (q + 1) -> n / d = q.
Proof. intros. symmetry. apply (Z.div_unique n d q (n - d * q)); lia. Qed.
Lemma ceil_unique n d q : 0 < d -> d * (q - 1) < n <= d * q -> (n + (d - 1)) / d = q.
Proof. intros. apply floor_unique; lia. Qed.

Lemma Ok_inj {A} (a b : A) : Ok a = Ok b -> a = b.
Proof. intros H. injection H. auto. Qed.
