(** Tick-to-price conversion: totality, range, strict monotonicity (C01). *)
From Verif Require Import Base Decimal SqrtPrice.
From Coq Require Import Lia.
Open Scope Z_scope.

Definition stepf (c v : Z) : Z := v * c / FP_ONE.

(** unchecked product chain, consuming the tick from its lowest bit *)
Fixpoint chain (fs : list Z) (t v : Z) : Z :=
  match fs with
  | [] => v
  | c :: r => chain r (t / 2) (if Z.odd t then stepf c v else v)
  end.

Definition F (t : Z) : Z := chain tick_factors t FP_ONE.
Global Strategy 100 [chain sqrt_chain tick_factors].

Definition len (l : list Z) : Z := Z.of_nat (List.length l).

Lemma len_cons c l : len (c :: l) = len l + 1.
Proof. unfold len. cbn [List.length]. lia. Qed.
Lemma len_nonneg l : 0 <= len l.
Proof. unfold len. lia. Qed.

(** gap invariant *)
Definition gap (K v w : Z) : Prop := 4 * v + K * 100000 <= 100000 * (w - v).

Lemma gap_step K c v w :
  FP_ONE <= c -> 0 <= v -> 0 <= K -> gap (K + 1) v w -> gap K (stepf c v) (stepf c w).
Proof.
  unfold gap, stepf, FP_ONE. intros Hc Hv HK H.
  pose proof (Z.div_mod (v * c) 1000000000000 ltac:(lia)).
  pose proof (Z.mod_pos_bound (v * c) 1000000000000 ltac:(lia)).
  pose proof (Z.div_mod (w * c) 1000000000000 ltac:(lia)).
  pose proof (Z.mod_pos_bound (w * c) 1000000000000 ltac:(lia)).
  set (a := v * c / 1000000000000) in *. set (b := w * c / 1000000000000) in *.
  assert (c * (4 * v + (K + 1) * 100000) <= c * (100000 * (w - v))) by nia.
  assert (1000000000000 * (K + 1) <= c * (K + 1)) by nia.
  nia.
Qed.

Lemma gap_mono K K' v w : K' <= K -> gap K v w -> gap K' v w.
Proof. unfold gap. lia. Qed.

Lemma chain_gap fs : forall t v w,
  Forall (fun c => FP_ONE <= c) fs -> 0 <= v ->
  gap (len fs) v w -> gap 0 (chain fs t v) (chain fs t w).
Proof.
  induction fs as [|c fs IH]; intros t v w Hf Hv H; cbn [chain].
  - exact H.
  - inversion Hf; subst. rewrite len_cons in H. pose proof (len_nonneg fs).
    destruct (Z.odd t).
    + apply IH; auto.
      * unfold stepf. apply Z.div_pos; [|unfold FP_ONE; lia].
        unfold FP_ONE in *; nia.
      * apply gap_step; auto.
    + apply IH; auto. apply gap_mono with (K := len fs + 1); auto; lia.
Qed.

(** the finitely many facts about the factor table: every factor is larger than the product of
    all smaller ones by the required relative gap *)
Fixpoint gaps_ok (fs : list Z) (a : Z) : bool :=
  match fs with
  | [] => true
  | c :: r => (4 * a + len r * 100000 <=? 100000 * (c - a)) && gaps_ok r (stepf c a)
  end.

Lemma chain_succ fs : forall t a,
  Forall (fun c => FP_ONE <= c) fs -> FP_ONE <= a ->
  gaps_ok fs a = true -> 0 <= t -> t + 1 < 2 ^ len fs ->
  gap 0 (chain fs t a) (chain fs (t + 1) FP_ONE).
Proof.
  induction fs as [|c fs IH]; intros t a Hf Ha Hg Ht Hlt.
  - change (len []) with 0 in Hlt. lia.
  - cbn [chain gaps_ok] in *. apply andb_true_iff in Hg as [Hg1 Hg2].
    apply Z.leb_le in Hg1. inversion Hf; subst.
    rewrite len_cons, Z.pow_add_r in Hlt by (pose proof (len_nonneg fs); lia).
    change (2 ^ 1) with 2 in Hlt.
    replace (Z.odd (t + 1)) with (negb (Z.odd t))
      by (rewrite Z.add_1_r, Z.odd_succ, <- Z.negb_odd; reflexivity).
    pose proof (Z.div_mod t 2 ltac:(lia)) as Hdm. rewrite Zmod_odd in Hdm.
    destruct (Z.odd t) eqn:Ho; cbn [negb].
    + replace ((t + 1) / 2) with (t / 2 + 1).
      2:{ apply (Z.div_unique (t + 1) 2 (t / 2 + 1) 0); lia. }
      apply IH; auto; [|apply Z.div_pos; lia|lia].
      unfold stepf, FP_ONE in *. apply Z.div_le_lower_bound; nia.
    + replace ((t + 1) / 2) with (t / 2) by (apply (Z.div_unique (t + 1) 2 (t / 2) 1); lia).
      apply chain_gap; auto; [unfold FP_ONE in *; lia|].
      replace (stepf c FP_ONE) with c.
      * unfold gap. lia.
      * unfold stepf. rewrite Z.mul_comm, Z.div_mul; unfold FP_ONE; lia.
Qed.

Lemma factors_ge : Forall (fun c => FP_ONE <= c) tick_factors.
Proof. unfold tick_factors, FP_ONE. repeat constructor; lia. Qed.

Lemma factors_gaps : gaps_ok tick_factors FP_ONE = true.
Proof. vm_compute. reflexivity. Qed.

Lemma F_gap t : 0 <= t -> t + 1 < 2 ^ 18 -> 4 * F t <= 100000 * (F (t + 1) - F t).
Proof.
  intros. pose proof (chain_succ tick_factors t FP_ONE factors_ge ltac:(lia) factors_gaps H) as G.
  unfold gap in G. unfold F. change (len tick_factors) with 18 in G. specialize (G H0). lia.
Qed.

Lemma chain_ge fs : forall t v,
  Forall (fun c => FP_ONE <= c) fs -> 0 <= v -> v <= chain fs t v.
Proof.
  induction fs as [|c fs IH]; intros t v Hf Hv; cbn [chain]; [lia|].
  inversion Hf; subst. destruct (Z.odd t).
  - assert (v <= stepf c v).
    { unfold stepf, FP_ONE in *. apply Z.div_le_lower_bound; nia. }
    specialize (IH (t / 2) (stepf c v)). specialize (IH ltac:(auto) ltac:(lia)). lia.
  - apply IH; auto.
Qed.

Lemma F_ge t : FP_ONE <= F t.
Proof. unfold F. generalize factors_ge. generalize tick_factors. intros fs H. apply chain_ge; [exact H|unfold FP_ONE; lia]. Qed.

Lemma F_mono_le_aux a d : 0 <= a -> 0 <= d -> a + d < 2 ^ 18 -> F a <= F (a + d).
Proof.
  intros Ha Hd. pattern d. apply natlike_ind; [| |exact Hd].
  - intros _. rewrite Z.add_0_r. lia.
  - intros x Hx IH Hb.
    pose proof (F_gap (a + x) ltac:(lia) ltac:(lia)). pose proof (F_ge (a + x)).
    unfold FP_ONE in *. replace (a + Z.succ x) with (a + x + 1) by lia. lia.
Qed.

Lemma F_mono_le a b : 0 <= a <= b -> b < 2 ^ 18 -> F a <= F b.
Proof.
  intros. replace b with (a + (b - a)) by lia. apply F_mono_le_aux; lia.
Qed.

Lemma F_mono_lt a b : 0 <= a < b -> b < 2 ^ 18 -> F a < F b.
Proof.
  intros. pose proof (F_gap a ltac:(lia) ltac:(lia)). pose proof (F_ge a).
  pose proof (F_mono_le (a + 1) b ltac:(lia) ltac:(lia)). unfold FP_ONE in *. lia.
Qed.

Lemma F_max : F MAX_TICK = 65535383934512647.
Proof. vm_compute. reflexivity. Qed.

Lemma F_le t : 0 <= t <= MAX_TICK -> F t <= 65535383934512647.
Proof. intros. rewrite <- F_max. apply F_mono_le; unfold MAX_TICK in *; lia. Qed.

(** the checked chain of the model computes [chain] *)
Lemma sqrt_chain_ok fs : forall t k v,
  Forall (fun c => FP_ONE <= c) fs -> 0 <= v -> 0 <= t -> 0 <= k ->
  chain fs (Z.shiftr t k) v <= 65535383934512647 ->
  sqrt_chain fs t k v = Ok (chain fs (Z.shiftr t k) v).
Proof.
  induction fs as [|c fs IH]; intros t k v Hf Hv Ht Hk Hle; cbn [sqrt_chain chain] in *.
  - reflexivity.
  - inversion Hf; subst.
    assert (Hdiv : Z.shiftr t k / 2 = Z.shiftr t (k + 1)).
    { rewrite <- Z.div2_div, Z.div2_spec, Z.shiftr_shiftr by lia. reflexivity. }
    assert (Hodd : Z.odd (Z.shiftr t k) = Z.testbit t k).
    { rewrite <- Z.bit0_odd, Z.shiftr_spec by lia. reflexivity. }
    rewrite Hdiv, Hodd in *. destruct (Z.testbit t k).
    + assert (Hpos : 0 <= stepf c v).
      { unfold stepf, FP_ONE in *. apply Z.div_pos; nia. }
      pose proof (chain_ge fs (Z.shiftr t (k + 1)) (stepf c v) H2 Hpos).
      assert (v * c <= U128MAX).
      { assert (stepf c v <= 65535383934512647) by lia.
        unfold stepf, FP_ONE, U128MAX in *.
        pose proof (Z.div_mod (v * c) 1000000000000 ltac:(lia)).
        pose proof (Z.mod_pos_bound (v * c) 1000000000000 ltac:(lia)). lia. }
      unfold bind, ckp, in_range.
      replace (0 <=? v * c) with true by (symmetry; apply Z.leb_le; unfold FP_ONE in *; nia).
      replace (v * c <=? U128MAX) with true by (symmetry; apply Z.leb_le; lia).
      cbn [andb]. apply IH; auto; lia.
    + apply IH; auto; lia.
Qed.

(** pure tick price *)
Definition tprice (i : Z) : Z :=
  if 0 <=? i then F i * 1000000000000
  else FP_ONE * FP_ONE / F (- i) * 1000000000000.

Lemma inv_bounds t : 0 <= t <= MAX_TICK ->
  15258932 <= FP_ONE * FP_ONE / F t <= FP_ONE.
Proof.
  intros H. pose proof (F_le t H). pose proof (F_ge t). unfold FP_ONE in *. split.
  - change 15258932 with (1000000000000 * 1000000000000 / 65535383934512647).
    apply Z.div_le_compat_l; lia.
  - apply Z.div_le_upper_bound; lia.
Qed.

Lemma sqrt_chain_F t : 0 <= t <= MAX_TICK -> sqrt_chain tick_factors t 0 FP_ONE = Ok (F t).
Proof.
  intros Ht. pose proof (F_le t Ht) as H. unfold F in *.
  generalize factors_ge H. clear H. generalize tick_factors. intros fs Hf H.
  rewrite <- (Z.shiftr_0_r t) in H. rewrite <- (Z.shiftr_0_r t) at 2.
  apply sqrt_chain_ok; auto; unfold FP_ONE; lia.
Qed.

Lemma calculate_sqrt_price_ok i :
  - MAX_TICK <= i <= MAX_TICK -> calculate_sqrt_price i = Ok (tprice i).
Proof.
  intros H. unfold calculate_sqrt_price, tprice.
  assert (Habs : 0 <= Z.abs i <= MAX_TICK) by lia.
  replace (MAX_TICK <? Z.abs i) with false by (symmetry; apply Z.ltb_ge; lia).
  rewrite sqrt_chain_F by exact Habs. cbn [bind].
  pose proof (F_le _ Habs). pose proof (F_ge (Z.abs i)). pose proof (inv_bounds _ Habs) as Hi.
  destruct (Z.leb_spec 0 i).
  - rewrite Z.abs_eq in * by lia.
    unfold ck, in_range, U128MAX.
    rewrite (proj2 (Z.leb_le _ _)) by (unfold FP_ONE in *; lia).
    rewrite (proj2 (Z.leb_le _ _)) by (unfold FP_ONE in *; lia). reflexivity.
  - rewrite Z.abs_neq in * by lia.
    unfold cdiv. rewrite (proj2 (Z.eqb_neq _ _)) by (unfold FP_ONE in *; lia).
    cbn [bind]. unfold ck, in_range, U128MAX.
    rewrite (proj2 (Z.leb_le _ _)) by lia.
    rewrite (proj2 (Z.leb_le _ _)) by (unfold FP_ONE in *; lia). reflexivity.
Qed.

Lemma calculate_sqrt_price_err i :
  i < - MAX_TICK \/ MAX_TICK < i -> calculate_sqrt_price i = Err TickOverBounds.
Proof.
  intros H. unfold calculate_sqrt_price.
  rewrite (proj2 (Z.ltb_lt _ _)) by lia. reflexivity.
Qed.

Lemma tprice_pos i : 0 <= i -> tprice i = F i * 1000000000000.
Proof. intros. unfold tprice. rewrite (proj2 (Z.leb_le _ _)) by lia. reflexivity. Qed.
Lemma tprice_neg i : i <= 0 -> tprice i = FP_ONE * FP_ONE / F (- i) * 1000000000000.
Proof.
  intros. unfold tprice. destruct (Z.leb_spec 0 i); [|reflexivity].
  replace i with 0 by lia. reflexivity.
Qed.

Lemma tprice_0 : tprice 0 = SP_ONE.
Proof. reflexivity. Qed.

Lemma tprice_lt i j : - MAX_TICK <= i -> i < j -> j <= MAX_TICK -> tprice i < tprice j.
Proof.
  intros Hi Hij Hj.
  assert (Hneg : forall a b, 0 <= a < b -> b <= MAX_TICK ->
            FP_ONE * FP_ONE / F b < FP_ONE * FP_ONE / F a).
  { intros a b Hab Hb.
    pose proof (F_le b ltac:(lia)) as Hle. pose proof (F_ge a) as Hga.
    pose proof (F_gap a ltac:(lia) ltac:(unfold MAX_TICK in *; lia)) as Hg.
    assert (F (a + 1) <= F b) as Hm by (apply F_mono_le; unfold MAX_TICK in *; lia).
    unfold FP_ONE in *.
    set (n := 1000000000000 * 1000000000000).
    pose proof (Z.div_mod n (F a) ltac:(lia)) as Da.
    pose proof (Z.mod_pos_bound n (F a) ltac:(lia)).
    pose proof (Z.div_mod n (F b) ltac:(lia)) as Db.
    pose proof (Z.mod_pos_bound n (F b) ltac:(lia)).
    destruct (Z.lt_ge_cases (n / F b) (n / F a)) as [|Hc]; [assumption|exfalso].
    set (q := n / F a) in *. set (r := n / F b) in *.
    assert (n = 1000000000000000000000000) by reflexivity.
    (* n < F a * (q+1) and n >= F b * r >= F b * q *)
    assert (F b * q <= n) by nia.
    assert (n < F a * (q + 1)) by nia.
    assert ((F b - F a) * q < F a) by nia.
    assert (100000 * (F b - F a) >= 4 * F a) by lia.
    assert (4 * F a * q <= 100000 * (F b - F a) * q).
    { apply Z.mul_le_mono_nonneg_r; [|lia]. apply Z.div_pos; lia. }
    assert (4 * F a * q < 100000 * F a) by lia.
    assert (4 * q < 100000) by nia.
    assert (q + 1 <= 25000) by lia.
    assert (n < F a * 25000) by nia.
    assert (F a <= F b) by lia. lia. }
  destruct (Z.le_gt_cases 0 i) as [Hi0|Hi0].
  - rewrite !tprice_pos by lia.
    pose proof (F_mono_lt i j ltac:(lia) ltac:(unfold MAX_TICK in *; lia)). lia.
  - destruct (Z.le_gt_cases j 0) as [Hj0|Hj0].
    + rewrite !tprice_neg by lia. pose proof (Hneg (- j) (- i) ltac:(lia) ltac:(lia)). lia.
    + rewrite tprice_neg, tprice_pos by lia.
      pose proof (F_mono_lt 0 j ltac:(lia) ltac:(unfold MAX_TICK in *; lia)) as H1.
      pose proof (Hneg 0 (- i) ltac:(lia) ltac:(lia)) as H2.
      change (F 0) with FP_ONE in *. rewrite Z.div_mul in H2 by (unfold FP_ONE; lia). lia.
Qed.

Lemma tprice_le i j : - MAX_TICK <= i -> i <= j -> j <= MAX_TICK -> tprice i <= tprice j.
Proof.
  intros. destruct (Z.eq_dec i j) as [->|]; [lia|].
  pose proof (tprice_lt i j ltac:(lia) ltac:(lia) ltac:(lia)). lia.
Qed.

Lemma tprice_max : tprice MAX_TICK = MAX_SQRT_PRICE.
Proof. vm_compute. reflexivity. Qed.
Lemma tprice_min : tprice (- MAX_TICK) = MIN_SQRT_PRICE.
Proof. vm_compute. reflexivity. Qed.

Lemma tprice_range i : - MAX_TICK <= i <= MAX_TICK ->
  MIN_SQRT_PRICE <= tprice i <= MAX_SQRT_PRICE.
Proof.
  intros. rewrite <- tprice_max, <- tprice_min. split; apply tprice_le; lia.
Qed.

Lemma calculate_sqrt_price_inv i p :
  calculate_sqrt_price i = Ok p -> - MAX_TICK <= i <= MAX_TICK /\ p = tprice i.
Proof.
  intros H.
  destruct (Z_lt_dec i (- MAX_TICK)). { rewrite calculate_sqrt_price_err in H by lia. discriminate. }
  destruct (Z_lt_dec MAX_TICK i). { rewrite calculate_sqrt_price_err in H by lia. discriminate. }
  rewrite calculate_sqrt_price_ok in H by lia. inversion H. split; [lia|reflexivity].
Qed.

(** tick prices are multiples of 10^-12 *)
Lemma tprice_mult i : exists a, tprice i = a * FP_ONE.
Proof. unfold tprice. destruct (0 <=? i); eexists; reflexivity. Qed.
