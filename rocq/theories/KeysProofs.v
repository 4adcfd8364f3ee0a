(** Byte-level storage keys: lengths, injectivity, round trips. *)
From Verif Require Import Base Types Keys Tactics.
From Coq Require Import Ascii Lia.
From stdpp Require Import strings.
Open Scope Z_scope.

Lemma byte_val_byte v : byte_val (byte v) = v mod 256.
Proof.
  unfold byte_val, byte. pose proof (Z.mod_pos_bound v 256 ltac:(lia)).
  rewrite N_ascii_embedding; [rewrite Z2N.id; lia|].
  change 256%N with (Z.to_N 256). apply Z2N.inj_lt; lia.
Qed.
Lemma byte_val_range a : 0 <= byte_val a < 256.
Proof. unfold byte_val. pose proof (N_ascii_bounded a). lia. Qed.

Lemma be_bytes_length n v : String.length (be_bytes n v) = n.
Proof. induction n; cbn; [reflexivity|f_equal; exact IHn]. Qed.

Lemma be_val_acc_bytes n acc v : be_val_acc acc (be_bytes n v) = acc * 256 ^ Z.of_nat n + v mod 256 ^ Z.of_nat n.
Proof.
  revert acc. induction n as [|n IH]; intros acc.
  - cbn. rewrite Z.mod_1_r. lia.
  - cbn [be_bytes be_val_acc]. rewrite IH, byte_val_byte.
    rewrite Nat2Z.inj_succ, Z.pow_succ_r by lia.
    set (m := 256 ^ Z.of_nat n). assert (0 < m) by (apply Z.pow_pos_nonneg; lia).
    rewrite (Z.mul_comm 256 m). rewrite (Z.rem_mul_r v m 256) by lia. lia.
Qed.

Lemma be_val_bytes n v : 0 <= v < 256 ^ Z.of_nat n -> be_val (be_bytes n v) = v.
Proof. intros H. unfold be_val. rewrite be_val_acc_bytes, Z.mod_small; lia. Qed.

Lemma be_bytes_inj n v w : 0 <= v < 256 ^ Z.of_nat n -> 0 <= w < 256 ^ Z.of_nat n ->
  be_bytes n v = be_bytes n w -> v = w.
Proof. intros Hv Hw E. rewrite <- (be_val_bytes n v), <- (be_val_bytes n w), E by assumption. reflexivity. Qed.

Lemma cons_app x a b : (String x a +:+ b = String x (a +:+ b))%string.
Proof. reflexivity. Qed.
Lemma nil_app b : ("" +:+ b = b)%string.
Proof. reflexivity. Qed.
Lemma str_app_length a b : String.length (a +:+ b) = (String.length a + String.length b)%nat.
Proof. induction a; [reflexivity|rewrite cons_app; cbn; f_equal; exact IHa]. Qed.

Lemma app_inj_l a b c d : String.length a = String.length b -> (a +:+ c = b +:+ d)%string -> a = b /\ c = d.
Proof.
  revert b. induction a as [|x a IH]; intros [|y b] HL H; rewrite ?cons_app, ?nil_app in H; cbn in HL; try lia; [auto|].
  injection H as -> H. injection HL as HL. destruct (IH b HL H) as [-> ->]. auto.
Qed.
Lemma app_inj_r a b c d : String.length c = String.length d -> (a +:+ c = b +:+ d)%string -> a = b /\ c = d.
Proof.
  intros HL H. apply app_inj_l; [|exact H].
  apply (f_equal String.length) in H. rewrite !str_app_length in H. lia.
Qed.

Lemma substring_app_l a b : substring 0 (String.length a) (a +:+ b) = a.
Proof. induction a as [|x a IH]; [destruct b; reflexivity|rewrite cons_app; cbn; f_equal; exact IH]. Qed.
Lemma substring_all b : substring 0 (String.length b) b = b.
Proof. induction b; cbn; [reflexivity|f_equal; assumption]. Qed.
Lemma substring_app_r a b : substring (String.length a) (String.length b) (a +:+ b) = b.
Proof. induction a as [|x a IH]; [apply substring_all|rewrite cons_app; exact IH]. Qed.

(** * Length-prefixed lists *)
Lemma slen_nonneg s : 0 <= slen s.
Proof. unfold slen. lia. Qed.

Lemma length_prefixed_cons s l r : length_prefixed (s :: l) = Ok r ->
  slen s <= 65535 /\ exists r', length_prefixed l = Ok r' /\ r = (be_bytes 2 (slen s) +:+ s +:+ r')%string.
Proof.
  cbn [length_prefixed]. destruct (Z.ltb_spec 65535 (slen s)) as [|HL]; [discriminate|].
  intros H. apply bind_ok in H as (r' & Hr & H'). injection H' as <-. split; [lia|eauto].
Qed.

(** one prefixed part can be split off in one way *)
Lemma prefixed_inj s t a b : slen s <= 65535 -> slen t <= 65535 ->
  (be_bytes 2 (slen s) +:+ s +:+ a = be_bytes 2 (slen t) +:+ t +:+ b)%string -> s = t /\ a = b.
Proof.
  intros Hs Ht H. pose proof (slen_nonneg s). pose proof (slen_nonneg t).
  apply app_inj_l in H as [HL H]; [|rewrite !be_bytes_length; reflexivity].
  apply be_bytes_inj in HL; [|change (256 ^ Z.of_nat 2) with 65536; lia|change (256 ^ Z.of_nat 2) with 65536; lia].
  apply app_inj_l in H; [exact H|]. unfold slen in HL. lia.
Qed.

Lemma length_prefixed_inj l m r : length l = length m ->
  length_prefixed l = Ok r -> length_prefixed m = Ok r -> l = m.
Proof.
  revert m r. induction l as [|s l IH]; intros [|t m] r HL H1 H2; cbn in HL; try lia; [reflexivity|].
  apply length_prefixed_cons in H1 as (Hs & r1 & E1 & ->).
  apply length_prefixed_cons in H2 as (Ht & r2 & E2 & H2).
  apply prefixed_inj in H2 as [-> ->]; [|assumption|assumption]. f_equal.
  eapply IH; [lia|exact E1|exact E2].
Qed.

(** ... also when followed by arbitrary bytes *)
Lemma length_prefixed_app_inj l m r1 r2 a b : length l = length m ->
  length_prefixed l = Ok r1 -> length_prefixed m = Ok r2 -> (r1 +:+ a = r2 +:+ b)%string -> l = m /\ a = b.
Proof.
  revert m r1 r2. induction l as [|s l IH]; intros [|t m] r1 r2 HL H1 H2 H; cbn in HL; try lia.
  - injection H1 as <-. injection H2 as <-. auto.
  - apply length_prefixed_cons in H1 as (Hs & q1 & E1 & ->).
    apply length_prefixed_cons in H2 as (Ht & q2 & E2 & ->).
    assert (assoc : forall x y z : string, ((x +:+ y) +:+ z = x +:+ (y +:+ z))%string).
    { intros x y z. induction x; [reflexivity|rewrite !cons_app; f_equal; assumption]. }
    rewrite !assoc in H. apply prefixed_inj in H as [-> H]; [|assumption|assumption].
    destruct (IH m q1 q2 ltac:(lia) E1 E2 H) as [-> ->]. auto.
Qed.

Definition tier_ok (t : fee_tier) : Prop := 0 <= ft_fee t < 2 ^ 64 /\ 0 <= ft_spacing t < 2 ^ 16.

Lemma fee_tier_key_inj t u : tier_ok t -> tier_ok u -> fee_tier_key t = fee_tier_key u -> t = u.
Proof.
  intros [Ht1 Ht2] [Hu1 Hu2] H. unfold fee_tier_key in H.
  apply app_inj_l in H as [H1 H2]; [|rewrite !be_bytes_length; reflexivity].
  apply be_bytes_inj in H1; [|exact Ht1|exact Hu1].
  apply be_bytes_inj in H2; [|exact Ht2|exact Hu2].
  destruct t, u; cbn in *; congruence.
Qed.

Lemma pool_key_bytes_inj k l r : tier_ok (pk_tier k) -> tier_ok (pk_tier l) ->
  pool_key_bytes k = Ok r -> pool_key_bytes l = Ok r -> k = l.
Proof.
  intros Hk Hl H1 H2. unfold pool_key_bytes in *.
  pose proof (fun E => length_prefixed_inj _ _ _ E H1 H2) as E. specialize (E eq_refl).
  assert (E3 : fee_tier_key (pk_tier k) = fee_tier_key (pk_tier l)) by congruence.
  assert (pk_x k = pk_x l) by congruence. assert (pk_y k = pk_y l) by congruence.
  apply fee_tier_key_inj in E3; [|assumption|assumption].
  destruct k, l; cbn in *; congruence.
Qed.

Lemma fee_tier_round t : tier_ok t -> fee_tier_from_bytes (fee_tier_key t) = Ok t.
Proof.
  intros [H1 H2]. unfold fee_tier_from_bytes, fee_tier_key, slen.
  rewrite str_app_length, !be_bytes_length. cbn [Z.eqb negb Nat.add Z.of_nat Pos.of_succ_nat Pos.succ Pos.eqb].
  pose proof (substring_app_l (be_bytes 8 (ft_fee t)) (be_bytes 2 (ft_spacing t))) as E1.
  pose proof (substring_app_r (be_bytes 8 (ft_fee t)) (be_bytes 2 (ft_spacing t))) as E2.
  rewrite be_bytes_length in E1. rewrite (be_bytes_length 8), (be_bytes_length 2) in E2. rewrite E1, E2.
  rewrite !be_val_bytes; [destruct t; reflexivity|exact H2|exact H1].
Qed.

Lemma length_be2 n s : String.length (be_bytes 2 n +:+ s) = S (S (String.length s)).
Proof. rewrite str_app_length, be_bytes_length. reflexivity. Qed.

Lemma split_prefixed l r f : length_prefixed l = Ok r -> (length l <= f)%nat -> split_namespaces f r = Ok l.
Proof.
  revert r f. induction l as [|s l IH]; intros r f H Hf.
  - injection H as <-. destruct f; reflexivity.
  - apply length_prefixed_cons in H as (Hs & r' & E & ->).
    destruct f as [|f]; [cbn in Hf; lia|].
    assert (Hn : exists c u, (be_bytes 2 (slen s) +:+ s +:+ r')%string = String c u).
    { cbn. eauto. }
    destruct Hn as (c & u & Hn).
    cbn [split_namespaces]. rewrite Hn. rewrite <- Hn. clear Hn c u.
    unfold slen at 1. rewrite length_be2.
    destruct (Z.ltb_spec (Z.of_nat (S (S (String.length (s +:+ r'))))) 2); [lia|].
    pose proof (substring_app_l (be_bytes 2 (slen s)) (s +:+ r')) as E1.
    pose proof (substring_app_r (be_bytes 2 (slen s)) (s +:+ r')) as E2.
    rewrite be_bytes_length in E1, E2. rewrite E1.
    replace (S (S (String.length (s +:+ r'))) - 2)%nat with (String.length (s +:+ r')) by lia.
    rewrite E2. rewrite be_val_bytes; [|change (256 ^ Z.of_nat 2) with 65536; pose proof (slen_nonneg s); lia].
    unfold slen. rewrite Nat2Z.id.
    rewrite str_app_length.
    destruct (Nat.ltb_spec (String.length s + String.length r') (String.length s)); [lia|].
    replace (String.length s + String.length r' - String.length s)%nat with (String.length r') by lia.
    rewrite substring_app_r, substring_app_l.
    rewrite (IH r' f E); [reflexivity|cbn in Hf; lia].
Qed.

Lemma prefixed_length l r : length_prefixed l = Ok r -> (length l <= String.length r)%nat.
Proof.
  revert r. induction l as [|s l IH]; intros r H; [cbn; lia|].
  apply length_prefixed_cons in H as (Hs & r' & E & ->). specialize (IH _ E).
  rewrite length_be2, str_app_length. cbn. lia.
Qed.

Lemma pool_key_round k r : tier_ok (pk_tier k) -> pool_key_bytes k = Ok r -> pool_key_from_bytes r = Ok k.
Proof.
  intros Hk H. unfold pool_key_from_bytes. unfold pool_key_bytes in H.
  pose proof (prefixed_length _ _ H). rewrite (split_prefixed _ _ _ H) by assumption.
  cbn [bind]. rewrite fee_tier_round by assumption. destruct k; reflexivity.
Qed.

Lemma tick_key_inj k l i j r : tier_ok (pk_tier k) -> tier_ok (pk_tier l) ->
  - 2 ^ 31 <= i < 2 ^ 31 -> - 2 ^ 31 <= j < 2 ^ 31 ->
  tick_key_bytes k i = Ok r -> tick_key_bytes l j = Ok r -> k = l /\ i = j.
Proof.
  intros Hk Hl Hi Hj H1 H2. unfold tick_key_bytes in *.
  apply bind_ok in H1 as (a & E1 & H1). apply bind_ok in H2 as (b & E2 & H2).
  apply Ok_inj in H1 as <-. apply Ok_inj in H2.
  apply app_inj_r in H2 as [-> H2]; [|rewrite !be_bytes_length; reflexivity].
  split; [eapply pool_key_bytes_inj; eassumption|].
  apply be_bytes_inj in H2; try (change (256 ^ Z.of_nat 4) with 4294967296; apply Z.mod_pos_bound; lia).
  change (2 ^ 31) with 2147483648 in *.
  pose proof (Z.div_mod i 4294967296 ltac:(lia)). pose proof (Z.div_mod j 4294967296 ltac:(lia)).
  pose proof (Z.mod_pos_bound i 4294967296 ltac:(lia)). pose proof (Z.mod_pos_bound j 4294967296 ltac:(lia)).
  lia.
Qed.

Lemma bitmap_key_inj k l i j r : tier_ok (pk_tier k) -> tier_ok (pk_tier l) ->
  0 <= i < 2 ^ 16 -> 0 <= j < 2 ^ 16 ->
  bitmap_key_bytes i k = Ok r -> bitmap_key_bytes j l = Ok r -> k = l /\ i = j.
Proof.
  intros Hk Hl Hi Hj H1 H2. unfold bitmap_key_bytes in *.
  apply bind_ok in H1 as (a & E1 & H1). apply bind_ok in H2 as (b & E2 & H2).
  apply Ok_inj in H1 as <-. apply Ok_inj in H2.
  apply app_inj_l in H2 as [H2 ->]; [|rewrite !be_bytes_length; reflexivity].
  split; [eapply pool_key_bytes_inj; eassumption|].
  symmetry. apply be_bytes_inj in H2; [exact H2|exact Hj|exact Hi].
Qed.

Lemma position_key_inj a b i j : 0 <= i < 2 ^ 32 -> 0 <= j < 2 ^ 32 ->
  position_key_bytes a i = position_key_bytes b j -> a = b /\ i = j.
Proof.
  intros Hi Hj H. unfold position_key_bytes in H.
  apply app_inj_r in H as [-> H]; [|rewrite !be_bytes_length; reflexivity].
  split; [reflexivity|]. apply be_bytes_inj in H; assumption.
Qed.

Lemma in_namespace_inj ns ms a b r : length ns = length ms ->
  in_namespace ns a = Ok r -> in_namespace ms b = Ok r -> ns = ms /\ a = b.
Proof.
  intros HL H1 H2. unfold in_namespace in *.
  apply bind_ok in H1 as (p & E1 & H1). apply bind_ok in H2 as (q & E2 & H2).
  apply Ok_inj in H1 as <-. apply Ok_inj in H2. symmetry in H2.
  eapply length_prefixed_app_inj; [exact HL|exact E1|exact E2|exact H2].
Qed.

(** the first part of a namespaced key *)
Lemma in_namespace_first n ns m ms a b r :
  in_namespace (n :: ns) a = Ok r -> in_namespace (m :: ms) b = Ok r -> n = m.
Proof.
  intros H1 H2. unfold in_namespace in *.
  apply bind_ok in H1 as (p & E1 & H1). apply bind_ok in H2 as (q & E2 & H2).
  apply Ok_inj in H1 as <-. apply Ok_inj in H2.
  apply length_prefixed_cons in E1 as (Hs & q1 & E1 & ->).
  apply length_prefixed_cons in E2 as (Ht & q2 & E2 & ->).
  assert (assoc : forall x y z : string, ((x +:+ y) +:+ z = x +:+ (y +:+ z))%string).
  { intros x y z. induction x; [reflexivity|rewrite !cons_app; f_equal; assumption]. }
  rewrite !assoc in H2. apply prefixed_inj in H2; [symmetry; apply H2|assumption|assumption].
Qed.

(** splitting token ids *)
Lemma split_token_round a i : 0 <= i < 2 ^ 32 -> split_token (position_key_bytes a i) = Some (a, i).
Proof.
  intros Hi. unfold split_token, position_key_bytes. rewrite str_app_length, be_bytes_length.
  destruct (Nat.ltb_spec (String.length a + 4) 4); [lia|].
  replace (String.length a + 4 - 4)%nat with (String.length a) by lia.
  rewrite substring_app_l.
  pose proof (substring_app_r a (be_bytes 4 i)) as E. rewrite be_bytes_length in E. rewrite E.
  rewrite be_val_bytes by exact Hi. reflexivity.
Qed.

Lemma byte_byte_val a n : byte (256 * n + byte_val a) = a.
Proof.
  unfold byte. pose proof (byte_val_range a).
  rewrite Z.add_comm, Z.mul_comm, Z.mod_add, Z.mod_small by lia.
  unfold byte_val. rewrite N2Z.id. apply ascii_N_embedding.
Qed.

Lemma be_val_acc_range s acc : 0 <= acc ->
  acc * 256 ^ slen s <= be_val_acc acc s < (acc + 1) * 256 ^ slen s.
Proof.
  revert acc. induction s as [|x s IH]; intros acc Ha.
  - change (slen "") with 0. rewrite Z.pow_0_r. cbn [be_val_acc]. lia.
  - cbn [be_val_acc]. pose proof (byte_val_range x) as Hx.
    specialize (IH (acc * 256 + byte_val x) ltac:(lia)).
    assert (E : 256 ^ slen (String x s) = 256 * 256 ^ slen s).
    { unfold slen. cbn [String.length]. rewrite Nat2Z.inj_succ, Z.pow_succ_r by lia. reflexivity. }
    rewrite E. assert (0 < 256 ^ slen s) by (apply Z.pow_pos_nonneg; [lia|apply slen_nonneg]). nia.
Qed.

Lemma be_bytes_val_acc s acc n : 0 <= acc -> String.length s = n -> be_bytes n (be_val_acc acc s) = s.
Proof.
  revert acc n. induction s as [|x s IH]; intros acc n Ha Hn; subst n; [reflexivity|].
  cbn [String.length be_bytes be_val_acc]. pose proof (byte_val_range x) as Hx.
  f_equal; [|apply IH; [lia|reflexivity]].
  pose proof (be_val_acc_range s (acc * 256 + byte_val x) ltac:(lia)) as R. unfold slen in R.
  set (m := 256 ^ Z.of_nat (String.length s)) in *.
  assert (0 < m) by (apply Z.pow_pos_nonneg; lia).
  rewrite (floor_unique _ m (acc * 256 + byte_val x)) by lia.
  rewrite (Z.mul_comm acc). apply byte_byte_val.
Qed.

Lemma substring_split n s : (n <= String.length s)%nat ->
  (substring 0 n s +:+ substring n (String.length s - n) s = s)%string.
Proof.
  revert n. induction s as [|x s IH]; intros [|n] H; cbn [String.length] in H; try lia.
  - reflexivity.
  - cbn [substring String.length Nat.sub]. rewrite nil_app. f_equal. apply substring_all.
  - cbn [substring]. rewrite cons_app. f_equal. apply IH. lia.
Qed.

Lemma substring_length n m s : (n + m <= String.length s)%nat -> String.length (substring n m s) = m.
Proof.
  revert n m. induction s as [|x s IH]; intros [|n] [|m] H; cbn [String.length substring] in *; try lia; try reflexivity.
  - f_equal. apply IH. lia.
  - apply IH. lia.
  - apply IH. lia.
Qed.

Lemma split_token_inv tid a i : split_token tid = Some (a, i) ->
  position_key_bytes a i = tid /\ 0 <= i < 2 ^ 32.
Proof.
  unfold split_token. destruct (Nat.ltb_spec (String.length tid) 4) as [|HL]; [discriminate|].
  intros H. injection H as <- <-.
  assert (Hl : String.length (substring (String.length tid - 4) 4 tid) = 4%nat) by (apply substring_length; lia).
  split.
  - unfold position_key_bytes, be_val. rewrite be_bytes_val_acc by (lia || exact Hl).
    pose proof (substring_split (String.length tid - 4) tid ltac:(lia)) as E.
    replace (String.length tid - (String.length tid - 4))%nat with 4%nat in E by lia. exact E.
  - unfold be_val. pose proof (be_val_acc_range (substring (String.length tid - 4) 4 tid) 0 ltac:(lia)) as R.
    unfold slen in R. rewrite Hl in R. change (256 ^ Z.of_nat 4) with (2 ^ 32) in R. lia.
Qed.
