(** C51: no sequence of swaps in one pool gains one token without paying the other. *)
From Verif Require Import Base Decimal SqrtPrice Clamm FeeGrowth Types Tick Pool Position State Swap Exec Tactics
  PriceProofs ClammProofs PropClamm BitmapProofs Frame Handlers History Basic Ledger Scenario SwapInv SwapGeo SwapLoop Modify PSum LiqInv
  Vectors Geo Ops Clean PropLiq PropSwap Growth Value Fund Flow PropSolv PropExit PropFees.
From stdpp Require Import gmap strings.
From Coq Require Import Lia.
Open Scope Z_scope.

(** ** The two tokens move against each other *)
(** bounds of the price (y per x) and of its reciprocal, rounded up *)
Definition KMAX : Z := 4295000000.
Definition KMIN : Z := 10000000000.
Lemma rho_ratio c c' : MIN_SQRT_PRICE <= c -> c <= c' -> c' <= MAX_SQRT_PRICE ->
  0 <= rho c - rho c' <= KMIN * (E52 * (c' - c)) /\ E52 * (c' - c) <= KMAX * (rho c - rho c' + 1).
Proof.
  intros A B C. assert (M0 : 0 < MIN_SQRT_PRICE) by done.
  pose proof (rho_spec c ltac:(lia)) as [R1 R2]. pose proof (rho_spec c' ltac:(lia)) as [R3 R4].
  pose proof (rho_anti c c' ltac:(lia) B) as R5.
  set (a := rho c) in *. set (b := rho c') in *.
  destruct (Z.eq_dec c c') as [->|N].
  { assert (a = b) by reflexivity. unfold E52, KMAX, KMIN. lia. }
  assert (D : 1 <= c' - c) by lia.
  (* exact reciprocals: c * c' * (a - b) against E100 * (c' - c) *)
  assert (P0 : MIN_SQRT_PRICE * MIN_SQRT_PRICE <= c * c') by (apply Z.mul_le_mono_nonneg; lia).
  assert (P1 : c * c' <= MAX_SQRT_PRICE * MAX_SQRT_PRICE) by (apply Z.mul_le_mono_nonneg; lia).
  assert (U : c * c' * (a - b) <= E100 * (c' - c) + c * c').
  { assert (c' * (c * a) <= c' * E100) by (apply Z.mul_le_mono_nonneg_l; lia).
    assert (c * E100 <= c * (c' * (b + 1))) by (apply Z.mul_le_mono_nonneg_l; lia). lia. }
  assert (V : E100 * (c' - c) <= c * c' * (a - b + 1)).
  { assert (c' * E100 <= c' * (c * (a + 1))) by (apply Z.mul_le_mono_nonneg_l; lia).
    assert (c * (c' * b) <= c * E100) by (apply Z.mul_le_mono_nonneg_l; lia). lia. }
  split; [split; [lia|]|].
  - apply (Z.mul_le_mono_pos_l _ _ (c * c')); [nia|]. etransitivity; [exact U|].
    assert (T : c * c' * (KMIN * E52 - 1) * (c' - c) >= E100 * (c' - c)).
    { apply Z.le_ge, Z.mul_le_mono_nonneg_r; [lia|].
      transitivity (MIN_SQRT_PRICE * MIN_SQRT_PRICE * (KMIN * E52 - 1)); [vm_compute; discriminate|].
      apply Z.mul_le_mono_nonneg_r; [vm_compute; discriminate|exact P0]. }
    assert (c * c' * 1 <= c * c' * (c' - c)) by (apply Z.mul_le_mono_nonneg_l; lia). lia.
  - apply (Z.mul_le_mono_pos_l _ _ E48); [reflexivity|].
    replace (E48 * (E52 * (c' - c))) with (E100 * (c' - c)) by (unfold E100, E48, E52; lia).
    etransitivity; [exact V|]. rewrite Z.mul_assoc. apply Z.mul_le_mono_nonneg_r; [lia|].
    etransitivity; [exact P1|]. vm_compute. discriminate.
Qed.

Lemma val_ratio p p' po : pos_valid po -> p <= p' ->
  0 <= val true p po - val true p' po <= KMIN * (val false p' po - val false p po) /\
  val false p' po - val false p po <= KMAX * (val true p po - val true p' po + po_liq po).
Proof.
  intros (V1 & V2 & V3 & V4) LE. unfold val, pf, clampp.
  assert (PL := legal_price_range _ _ V2). assert (PU := legal_price_range _ _ V3). assert (OP := legal_price_lt _ _ _ V2 V3 V4).
  set (lo := tprice (po_lower po)) in *. set (hi := tprice (po_upper po)) in *.
  set (c := Z.max lo (Z.min p hi)). set (c' := Z.max lo (Z.min p' hi)).
  pose proof (rho_ratio c c' ltac:(unfold c; lia) ltac:(unfold c, c'; lia) ltac:(unfold c'; lia)) as [[A B] C].
  set (l := po_liq po) in *. set (dx := rho c - rho c') in *. set (dy := E52 * (c' - c)) in *.
  replace (l * (rho c - (rho hi - 1)) - l * (rho c' - (rho hi - 1))) with (l * dx) by (unfold dx; lia).
  replace (l * (E52 * c' - E52 * lo) - l * (E52 * c - E52 * lo)) with (l * dy) by (unfold dy; lia).
  assert (0 <= l) by lia. split; [split; [nia|]|].
  - replace (KMIN * (l * dy)) with (l * (KMIN * dy)) by lia. apply Z.mul_le_mono_nonneg_l; lia.
  - replace (KMAX * (l * dx + l)) with (l * (KMAX * (dx + 1))) by lia. apply Z.mul_le_mono_nonneg_l; lia.
Qed.

Lemma vals_ratio s k p p' : liq_inv s -> p <= p' ->
  0 <= vals true (st_positions s) k p - vals true (st_positions s) k p'
    <= KMIN * (vals false (st_positions s) k p' - vals false (st_positions s) k p) /\
  vals false (st_positions s) k p' - vals false (st_positions s) k p
    <= KMAX * (vals true (st_positions s) k p - vals true (st_positions s) k p'
               + psum (fun po => if decide (po_key po = k) then po_liq po else 0) (st_positions s)).
Proof.
  intros LI LE. unfold vals. rewrite <- !psum_sub, <- psum_add, <- !psum_scale.
  split; [split|].
  - apply psum_nonneg. intros x po E. apply (lq_pos _ LI) in E. destruct E as [V _]. apply (val_ratio p p' po) in V; [|done].
    unfold at_key. destruct (decide _); lia.
  - apply psum_le. intros x po E. apply (lq_pos _ LI) in E. destruct E as [V _]. apply (val_ratio p p' po) in V; [|done].
    unfold at_key. destruct (decide _); lia.
  - apply psum_le. intros x po E. apply (lq_pos _ LI) in E. destruct E as [V _]. apply (val_ratio p p' po) in V; [|done].
    unfold at_key. destruct (decide _); lia.
Qed.

Lemma swaps_pools ok k s s' x y n p : swaps ok k s s' x y n -> st_pools s !! k = Some p ->
  exists p', st_pools s' !! k = Some p'.
Proof.
  intros S. revert p. induction S as [s|e i s d a by_in lim s1 ms ci co s' x y n CC H S IH]; intros p E; [eauto|].
  assert (E1 : exists p1, st_pools s1 !! k = Some p1).
  { unfold execute in H. destruct (_ && _); [|done]. cbn [dispatch] in H. unfold swap in H.
    inv_bind H as [[s2 m2] r] H1. apply Ok_inj in H. injection H as <- <- <- <-.
    apply swap_internal_inv in H1. destruct H1 as (_ & (s3 & _ & ->) & _). cbn. exists (cr_pool r). apply lookup_insert. }
  destruct E1 as [p1 E1]. exact (IH _ E1).
Qed.

(** Missing from C51: swaps that are not clean (see [C51_refuted]); sequences with 10^14 (2*10^4) or more loop iterations, where the
    rounding of token x could add up to one unit of x (y). *)
Theorem C51_no_gain_partial k s s' x y n : clean_history s -> is_Some (st_pools s !! k) -> swaps clean_call k s s' x y n ->
  (n < 10 ^ 14 -> y <= 0 -> 0 <= x) /\ (n < 2 * 10 ^ 4 -> x <= 0 -> 0 <= y).
Proof.
  intros CH [p Ep] S. pose proof (clean_history_reachable _ CH) as R. pose proof (ereach_liq _ (reachable_ereach _ R)) as LI.
  destruct (swaps_pools _ _ _ _ _ _ _ _ S Ep) as [p' Ep'].
  destruct (swaps_value _ _ _ _ _ _ _ _ S CH Ep Ep') as (_ & N0 & V).
  pose proof (V true) as VX. pose proof (V false) as VY. cbn [loss] in VX, VY.
  destruct (C42_total_fits s k p R Ep) as [TL _]. change (2 ^ 128) with (U128MAX + 1) in TL.
  set (tl := psum _ _) in TL. assert (TL2 : tl <= U128MAX) by lia.
  assert (U0 : 0 < UNIT) by reflexivity.
  split; intros N Z0.
  - assert (n * LOSS < UNIT).
    { apply Z.lt_le_trans with (10 ^ 14 * LOSS); [apply Z.mul_lt_mono_pos_r; [reflexivity|exact N]|vm_compute; discriminate]. }
    enough (W : UNIT * (-1) < UNIT * x) by (apply Z.mul_lt_mono_pos_l in W; [lia|reflexivity]).
    assert (UNIT * y <= 0) by (apply Z.mul_nonneg_nonpos; lia).
    destruct (Z.le_gt_cases (p_price p) (p_price p')) as [L|L].
    + destruct (vals_ratio s k _ _ LI L) as [[A B] _]. unfold KMIN in B. lia.
    + destruct (vals_ratio s k (p_price p') (p_price p) LI ltac:(lia)) as [[A B] _]. lia.
  - assert (Q : KMAX * (n * LOSS + tl) < UNIT).
    { apply Z.le_lt_trans with (KMAX * ((2 * 10 ^ 4) * LOSS + U128MAX)); [|reflexivity].
      apply Z.mul_le_mono_nonneg_l; [discriminate|]. apply Z.add_le_mono; [|exact TL2].
      apply Z.mul_le_mono_nonneg_r; [discriminate|lia]. }
    enough (W : UNIT * (-1) < UNIT * y) by (apply Z.mul_lt_mono_pos_l in W; [lia|reflexivity]).
    assert (UNIT * x <= 0) by (apply Z.mul_nonneg_nonpos; lia).
    destruct (Z.le_gt_cases (p_price p) (p_price p')) as [L|L].
    + destruct (vals_ratio s k _ _ LI L) as [[A B] _]. unfold KMIN in B. lia.
    + destruct (vals_ratio s k (p_price p') (p_price p) LI ltac:(lia)) as [_ B]. fold tl in B.
      assert (KMAX * (vals true (st_positions s) k (p_price p') - vals true (st_positions s) k (p_price p) + tl) <= KMAX * (n * LOSS + tl))
        by (apply Z.mul_le_mono_nonneg_l; [discriminate|lia]). lia.
Qed.

(** ** What does not hold *)
(** bob has positions at -10 .. 10, 20 .. 30 and 10000 .. 10010, alice a small one around all of them.  carol buys tokenx in four swaps whose
    limits are exactly the prices of the ticks 10, 20, 10000 and 10010, so none of these ticks is crossed: between 10 and 20 carol buys from
    bob's first position although it has ended, and between 10000 and 10010 bob's third position does not sell.  On the way back all ticks
    are crossed: bob's third position buys from carol at the high price.  carol ends with more of both tokens and the price is back near 1. *)
Definition arb_tier : fee_tier := mkFeeTier 100000000 10.
Definition arb_key : pool_key := mkPoolKey "tokenx" "tokeny" arb_tier.
Definition arb_calls : list (string * exec_msg) :=
  [("alice", AddFeeTier arb_tier);
   ("alice", CreatePool "tokenx" "tokeny" arb_tier SP_ONE 0);
   ("alice", CreatePosition arb_key (-100) 10100 1000000000000 SP_ONE SP_ONE);
   ("bob", CreatePosition arb_key (-10) 10 100000000000000 SP_ONE SP_ONE);
   ("bob", CreatePosition arb_key 20 30 100000000000000 SP_ONE SP_ONE);
   ("bob", CreatePosition arb_key 10000 10010 130000000000000 SP_ONE SP_ONE)]%string.
Definition arb_run : res (store * store * store * store * store * store * list (list (string * Z))) :=
  let* s := start 10000000000 arb_calls in
  let* '(s1, _, a1) := execute v_env (v_info "carol") s (Swap arb_key false 50484 false 1000500100010000000000000) in
  let* '(s2, _, a2) := execute v_env (v_info "carol") s1 (Swap arb_key false 50459 false 1001000450120000000000000) in
  let* '(s3, _, a3) := execute v_env (v_info "carol") s2 (Swap arb_key false 442386 false 1648680055673000000000000) in
  let* '(s4, _, a4) := execute v_env (v_info "carol") s3 (Swap arb_key false 303 false 1649504560585000000000000) in
  let* '(s5, _, a5) := execute v_env (v_info "carol") s4 (Swap arb_key true 530000 true MIN_SQRT_PRICE) in
  Ok (s, s1, s2, s3, s4, s5, [a1; a2; a3; a4; a5]).
Theorem C51_refuted : exists k s s' x y n, clean_history s /\ swaps true_call k s s' x y n /\ x = -13632 /\ y = -53906.
Proof.
  destruct (done_inv (fun '(s, s1, s2, s3, s4, s5, l) => l =
      [[("amount_in", 50517); ("amount_out", 50484)]; [("amount_in", 50542); ("amount_out", 50459)];
       [("amount_in", 697814); ("amount_out", 442386)]; [("amount_in", 826); ("amount_out", 303)];
       [("amount_in", 530000); ("amount_out", 853605)]]%string
     /\ is_ok (clean_start 10000000000 arb_calls) = true) arb_run) as ([[[[[[s s1] s2] s3] s4] s5] l] & E & L & CL).
  { vm_compute. split; reflexivity. }
  unfold arb_run in E. inv_bind E as t0 E0. inv_bind E as [[t1 m1] a1] E1. inv_bind E as [[t2 m2] a2] E2. inv_bind E as [[t3 m3] a3] E3.
  inv_bind E as [[t4 m4] a4] E4. inv_bind E as [[t5 m5] a5] E5. apply Ok_inj in E. injection E as -> -> -> -> -> -> <-.
  injection L as -> -> -> -> ->.
  eexists arb_key, s, s5, _, _, _. split; [exact (clean_by_check _ _ _ E0 CL)|]. split.
  - eapply (sws_swap true_call arb_key v_env _ s false _ _ _ s1 _ 50517 50484); [exact I|exact E1|].
    eapply (sws_swap true_call arb_key v_env _ s1 false _ _ _ s2 _ 50542 50459); [exact I|exact E2|].
    eapply (sws_swap true_call arb_key v_env _ s2 false _ _ _ s3 _ 697814 442386); [exact I|exact E3|].
    eapply (sws_swap true_call arb_key v_env _ s3 false _ _ _ s4 _ 826 303); [exact I|exact E4|].
    eapply (sws_swap true_call arb_key v_env _ s4 true _ _ _ s5 _ 530000 853605); [exact I|exact E5|]. constructor.
  - split; reflexivity.
Qed.

(** ** Example *)
(** the same pool: carol buys 100000 tokenx, crossing two ticks, and then sells enough to get all tokeny back *)
Definition fair_run : res (store * store * store * list (list (string * Z)) * bool) :=
  let* s := start 10000000000 arb_calls in
  let m1 := Swap arb_key false 100000 false MAX_SQRT_PRICE in
  let* '(s1, _, a1) := execute v_env (v_info "carol") s m1 in
  let m2 := Swap arb_key true 100100 true MIN_SQRT_PRICE in
  let* '(s2, _, a2) := execute v_env (v_info "carol") s1 m2 in
  Ok (s, s1, s2, [a1; a2], clean_callb v_env s m1 && clean_callb v_env s1 m2).
Example ex_C51 : exists s s', clean_history s /\ is_Some (st_pools s !! arb_key) /\ swaps clean_call arb_key s s' 100 (-70) 2000.
Proof.
  destruct (done_inv (fun '(s, s1, s2, l, b) => l =
      [[("amount_in", 100163); ("amount_out", 100000)]; [("amount_in", 100100); ("amount_out", 100233)]]%string /\ b = true
      /\ match st_pools s !! arb_key with Some _ => True | None => False end
     /\ is_ok (clean_start 10000000000 arb_calls) = true) fair_run) as ([[[[s s1] s2] l] b] & E & L & B & P & CL).
  { vm_compute. repeat split; reflexivity. }
  unfold fair_run in E. inv_bind E as t0 E0. inv_bind E as [[t1 m1] a1] E1. inv_bind E as [[t2 m2] a2] E2.
  apply Ok_inj in E. injection E as -> -> -> <- <-. injection L as -> ->. apply andb_prop in B. destruct B as [C1 C2].
  apply (some_inv (fun _ : pool => True)) in P. destruct P as (p & Ep & _).
  pose proof (start_reachable _ _ _ E0) as R. pose proof (reach_call _ _ _ _ _ _ _ R E1) as R1.
  exists s, s2. split; [exact (clean_by_check _ _ _ E0 CL)|]. split; [by exists p|].
  assert (S2 : swaps clean_call arb_key s1 s2 (100100 + 0) (- 100233 + 0) (Z.of_nat (e_gas v_env) + 0)).
  { eapply (sws_swap clean_call arb_key v_env _ s1 true _ _ _ s2 _ 100100 100233); [|exact E2|constructor].
    exact (clean_callb_sound v_env (v_info "carol") s1 (Swap arb_key true 100100 true MIN_SQRT_PRICE) (reachable_ereach _ R1) C2). }
  exact (sws_swap clean_call arb_key v_env _ s false _ _ _ s1 _ 100163 100000 s2 _ _ _ (clean_callb_sound v_env (v_info "carol") s (Swap arb_key false 100000 false MAX_SQRT_PRICE)
    (reachable_ereach _ R) C1) E1 S2).
Qed.
