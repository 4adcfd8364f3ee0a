(** C19, C20, C24: amounts, direction, limit and termination of swaps. *)
From Verif Require Import Base Decimal SqrtPrice Clamm Log FeeGrowth Types Tick Pool Position
  Tickmap Keys State Swap Exec Query Tactics PriceProofs LogProofs ClammProofs PropClamm BitmapProofs Frame Handlers History Basic
  Ledger Vectors Scenario SwapInv SwapGeo SwapLoop PropTrade Modify PSum LiqInv Geo PropLiq.
From stdpp Require Import gmap strings.
From Coq Require Import Lia.
Open Scope Z_scope.

(** * The price limit *)
Definition limit_kept (d by_in : bool) (lim q : Z) : Prop :=
  if d then (by_in = false -> lim <= q) /\ (10 ^ 24 <= lim -> lim <= q) /\ (lim - q) * q < 10 ^ 24 else q <= lim.

Lemma iter_limit s now k (d by_in : bool) lim w w' : store_geo s k -> loop_inv k d lim w -> sw_remaining w <> 0 ->
  swap_iter s now k d by_in lim (end_tick d k) w = Ok w' ->
  limit_kept d by_in lim (p_price (sw_pool w')) /\
  (by_in = false -> sw_out w' + sw_remaining w' = sw_out w + sw_remaining w) /\
  (sw_remaining w' <> 0 -> if d then p_tick (sw_pool w') < p_tick (sw_pool w) else p_price (sw_pool w) < p_price (sw_pool w')).
Proof.
  intros G I NR H. pose proof (loop_pre s k d lim w G I NR) as PRE.
  pose proof PRE as [U HS HF HL HW HR HLim HRem]. pose proof (sg_index _ _ G) as IX.
  apply iter_cases in H; [|done].
  destruct H as (t & init & sl & r & p0 & rm0 & T & SL & SA & ST & SIDE & E0 & R0 & AF & NL & IC & TL & _).
  pose proof T as (LT & TI & TD). pose proof SA as (SA1 & SA2 & SA3 & SA4 & SA5).
  pose proof (C03_step_bounds_partial _ _ _ _ _ _ _ SA ST) as B.
  destruct B as (B1 & B2 & B3 & B4 & B5 & B6 & B7 & B8 & B9 & B10 & B11 & B12 & B13).
  assert (LK : limit_kept d by_in lim (sr_next r)).
  { unfold limit_kept. destruct d; [|destruct B2; lia]. specialize (B1 SIDE). specialize (B4 SIDE).
    assert (lim <= sl) by lia. split; [intros ->; specialize (B3 SIDE eq_refl); lia|]. split; [intros; specialize (B5 SIDE); lia|].
    assert (Y : 0 < sr_next r).
    { destruct (Z.le_gt_cases (sr_next r) 0); [|done]. exfalso.
      pose proof (Z.mul_le_mono_nonneg 15258932000000000000 (sl - sr_next r) 15258932000000000000 (p_price (sw_pool w)) ltac:(lia) ltac:(lia) ltac:(lia) ltac:(lia)). lia. }
    destruct (Z.le_gt_cases (lim - sr_next r) 0) as [X|X].
    { pose proof (Z.mul_nonneg_nonneg (sr_next r - lim) (sr_next r) ltac:(lia) ltac:(lia)). lia. }
    pose proof (Z.mul_le_mono_nonneg (lim - sr_next r) (sl - sr_next r) (sr_next r) (p_price (sw_pool w)) ltac:(lia) ltac:(lia) ltac:(lia) B1). lia. }
  pose proof (add_fee_keeps _ _ _ _ _ AF) as (_ & _ & K3 & _).
  destruct IC as [tk t' p1 -> EN ES ET EC PR ->|en -> EN ES PR ->|tk p2 -> -> EN ES ET PR ->|c' PR EC ->];
    cbn [sw_pool sw_remaining sw_ticks sw_out p_tick p_set_tick p_price p_liq p_set_price] in *.
  - apply tick_cross_inv in EC. destruct EC as (_ & _ & _ & _ & l & -> & _). cbn.
    split; [done|]. split; [intros ->; lia|]. intros _. apply IX in ET. rewrite ET. destruct d; lia.
  - split; [done|]. split; [intros ->; lia|]. intros _. destruct d; [|lia]. destruct TD as (TD1 & TD2 & _). specialize (TD2 eq_refl).
    destruct en; cbn; lia.
  - assert (Q : p_price p2 = sr_next r).
    { destruct PR as [[_ ->]|(_ & _ & AF2)]; [done|]. apply add_fee_keeps in AF2. destruct AF2 as (_ & _ & AF2 & _). done. }
    rewrite Q. split; [done|]. split; [|done]. intros ->. destruct PR as [[-> _]|[? _]]; [lia|done].
  - split; [done|]. split; [intros ->; lia|]. intros NZ. destruct PR as [PR|(_ & _ & ?)]; [|done].
    assert (L0 : p_liq (sw_pool w) <> 0).
    { intros L0. unfold compute_swap_step in ST. rewrite L0 in ST. cbn in ST. apply Ok_inj in ST. subst r. done. }
    destruct by_in; [specialize (B9 eq_refl L0 PR); lia|].
    destruct d; [specialize (B13 eq_refl L0 SIDE PR); lia|].
    destruct B2 as [B2 B2']; [lia|]. destruct (Z.eq_dec (p_price (sw_pool w)) (sr_next r)) as [Q|]; [exfalso|lia].
    apply step_inv in ST; [|done]. destruct (sf_next _ _ _ _ _ _ _ ST) as [[? _]|(_ & a & A1 & [[_ A2]|[A2 A3]])]; [done|done|].
    rewrite (proj2 (Z.leb_gt sl (p_price (sw_pool w)))) in A1, A3 by lia. rewrite <- Q in A3.
    unfold get_next_sqrt_price_from_output in A3. apply next_x_out in A3; [|lia|lia|lia].
    destruct A3 as (_ & _ & A3). pose proof (pl_up_spec (p_price (sw_pool w)) (p_liq (sw_pool w))) as PL.
    assert (0 < p_price (sw_pool w) * (p_price (sw_pool w) * sw_remaining w)) by (apply Z.mul_pos_pos; [lia|]; apply Z.mul_pos_pos; lia).
    clear - A3 PL H. unfold E18, SP_ONE, LIQ_ONE in *. lia.
Qed.

Lemma run_limit s now k (d by_in : bool) lim w w' : store_geo s k -> loop_inv k d lim w -> sw_remaining w <> 0 ->
  run s now k d by_in lim w w' ->
  limit_kept d by_in lim (p_price (sw_pool w')) /\ (by_in = false -> sw_out w' = sw_out w + sw_remaining w).
Proof.
  intros G I NR R. induction R as [w Z0|w w1 w2 N E R IH]; [done|].
  pose proof (loop_step _ _ _ _ _ _ _ _ G I N E) as [_ I1].
  destruct (iter_limit _ _ _ _ _ _ _ _ G I N E) as (L & O & _).
  destruct (Z.eq_dec (sw_remaining w1) 0) as [Z0|Z0].
  - inversion R; subst; [|done]. split; [done|]. intros B. specialize (O B). lia.
  - destruct (IH I1 Z0) as [L2 O2]. split; [done|]. intros B. rewrite (O2 B). specialize (O B). lia.
Qed.

Lemma execute_swap_inv e i s k d a by_in lim s' ms at' : reachable s -> execute e i s (Swap k d a by_in lim) = Ok (s', ms, at') ->
  exists r p, calculate_swap (e_gas e) s (e_millis e) k d a by_in lim = Ok r /\
    at' = [("amount_in"%string, cr_in r); ("amount_out"%string, cr_out r)] /\
    st_pools s !! k = Some p /\ st_pools s' !! k = Some (cr_pool r) /\ 0 <= a <= U128MAX /\ 0 <= lim <= U128MAX /\
    paid (i_sender i) (if d then pk_y k else pk_x k) ms = cr_out r.
Proof.
  intros R H. unfold execute in H. destruct (env_typed e i && msg_typed (Swap k d a by_in lim)) eqn:ET; [|done].
  apply andb_true_iff in ET. destruct ET as [T M]. cbn [dispatch] in H. unfold swap in H.
  inv_bind H as [[s1 m1] r] E. apply Ok_inj in H. simplify_eq.
  cbn [msg_typed] in M. repeat (apply andb_true_iff in M; destruct M as [M ?]). apply in_range_spec in H, H0.
  apply swap_internal_inv in E. destruct E as (C & (s1 & U & ->) & m0 & TF & ->).
  destruct (calculate_swap_frame _ _ _ _ _ _ _ _ _ C) as (p & Ep & _).
  assert (N : pk_x k <> pk_y k) by (eapply key_valid_ne, ereach_pools; [apply reachable_ereach|]; eassumption).
  exists r, p. split; [done|]. split; [done|]. split; [done|]. split; [cbn; apply lookup_insert|]. split; [lia|]. split; [lia|].
  destruct (Z.le_gt_cases (cr_in r) 0) as [Z0|Z0]; [|destruct (swap_messages e i k d (cr_in r) (cr_out r) m0 N Z0 TF); done].
  pose proof (calculate_swap_out _ _ _ _ _ _ _ _ _ C) as [V1 V2].
  unfold asset_transfer_from in TF. destruct (Z.eqb_spec (cr_in r) 0) as [Q|Q].
  - apply Ok_inj in TF. subst m0. cbn [app]. rewrite paid_transfer, !String.eqb_refl. cbn. lia.
  - exfalso. lia.
Qed.

Theorem C20_exact_output e i s k d a lim s' ms at' :
  reachable s -> execute e i s (Swap k d a false lim) = Ok (s', ms, at') ->
  exists p p' cost, st_pools s !! k = Some p /\ st_pools s' !! k = Some p' /\
    at' = [("amount_in"%string, cost); ("amount_out"%string, a)] /\ 0 < a /\
    paid (i_sender i) (if d then pk_y k else pk_x k) ms = a /\
    if d then lim <= p_price p' <= p_price p else p_price p <= p_price p' <= lim.
Proof.
  intros R H. destruct (execute_swap_inv _ _ _ _ _ _ _ _ _ _ _ R H) as (r & p & C & -> & Ep & Ep' & Ha & Hl & P).
  apply reachable_ereach in R. pose proof (ereach_store_geo _ _ _ R Ep) as G. pose proof (ereach_geo _ R _ _ Ep) as PG.
  apply calculate_swap_run in C. destruct C as (p0 & w & E0 & NA & D & RN & O & ->). rewrite Ep in E0. injection E0 as <-.
  pose proof (loop_start k d lim p a PG Ha D) as I. cbn in *.
  destruct (run_limit _ _ _ _ _ _ _ _ G I NA RN) as [L Q]. specialize (Q eq_refl). cbn in Q. rewrite Q in *.
  destruct (run_geo _ _ _ _ _ _ _ _ G I RN) as (_ & _ & DD). cbn in DD.
  exists p, (sw_pool w), (sw_in w). split; [done|]. split; [done|]. split; [done|]. split; [lia|]. split; [done|].
  unfold limit_kept in L. destruct d; [|lia]. destruct L as [L _]. specialize (L eq_refl). lia.
Qed.

(** Missing from C19: a falling exact-input swap may end below its limit [lim], by less than [10^24 / price] units of 10^-24
    (so never if the limit is at least 1). *)
Theorem C19_exact_input_partial e i s k d a lim s' ms at' :
  reachable s -> execute e i s (Swap k d a true lim) = Ok (s', ms, at') ->
  exists p p' out, st_pools s !! k = Some p /\ st_pools s' !! k = Some p' /\
    at' = [("amount_in"%string, a); ("amount_out"%string, out)] /\ 0 < out /\
    received e i (if d then pk_x k else pk_y k) ms = a /\
    paid (i_sender i) (if d then pk_y k else pk_x k) ms = out /\
    (if d then p_price p' <= p_price p else p_price p <= p_price p') /\
    (if d then (10 ^ 24 <= lim -> lim <= p_price p') /\ (lim - p_price p') * p_price p' < 10 ^ 24 else p_price p' <= lim).
Proof.
  intros R H. destruct (C19_charges_offer_partial _ _ _ _ _ _ _ _ _ _ R H) as (out & A1 & A2 & A3 & A4 & A5).
  destruct (execute_swap_inv _ _ _ _ _ _ _ _ _ _ _ R H) as (r & p & C & _ & Ep & Ep' & Ha & Hl & P).
  apply reachable_ereach in R. pose proof (ereach_store_geo _ _ _ R Ep) as G. pose proof (ereach_geo _ R _ _ Ep) as PG.
  apply calculate_swap_run in C. destruct C as (p0 & w & E0 & NA & D & RN & O & ->). rewrite Ep in E0. injection E0 as <-.
  pose proof (loop_start k d lim p a PG Ha D) as I. cbn in *.
  destruct (run_limit _ _ _ _ _ _ _ _ G I NA RN) as [L _].
  destruct (run_geo _ _ _ _ _ _ _ _ G I RN) as (_ & _ & DD). cbn in DD.
  exists p, (sw_pool w), out. split; [done|]. split; [done|]. split; [done|]. split; [lia|]. split; [done|]. split; [done|].
  split; [destruct d; lia|]. unfold limit_kept in L. destruct d; [|lia]. tauto.
Qed.

(** False in general: the swap below ends 4 units below the limit its sender gave. *)
Definition ov_tier : fee_tier := mkFeeTier 3000000000 1.
Definition ov_key : pool_key := mkPoolKey "tokenx" "tokeny" ov_tier.
Definition ov_calls : list (string * exec_msg) :=
  [("alice", AddFeeTier ov_tier);
   ("alice", CreatePool "tokenx" "tokeny" ov_tier 108619381855608937044 (-182563));
   ("alice", CreatePosition ov_key (-183000) (-182000) 5128040094303346753536 15258932000000000000 65535383934512647000000000000)]%string.
Definition ov_store : store :=
  match start 10000000000 ov_calls with Ok s => s | _ => mkStore (mkConfig "" [] 0) ∅ ∅ ∅ ∅ ∅ ∅ end.
Lemma ov_store_ok : start 10000000000 ov_calls = Ok ov_store.
Proof. unfold ov_store. destruct (start 10000000000 ov_calls) eqn:E; [reflexivity|exfalso|exfalso];
  assert (is_ok (start 10000000000 ov_calls) = true) as X by (vm_compute; reflexivity); rewrite E in X; discriminate. Qed.
Lemma ok_inv {A} (P : A -> Prop) (r : res A) : match r with Ok x => P x | _ => False end -> exists x, r = Ok x /\ P x.
Proof. destruct r; try done. eauto. Qed.
Theorem C19_limit_refuted : exists s k a lim s' ms at' p', reachable s /\
  execute v_env (v_info "carol") s (Swap k true a true lim) = Ok (s', ms, at') /\
  st_pools s' !! k = Some p' /\ p_price p' < lim.
Proof.
  assert (X : exists r, execute v_env (v_info "carol") ov_store (Swap ov_key true 37086874109940444 true 108534378000000000000) = Ok r /\
    match st_pools (fst (fst r)) !! ov_key with Some p' => p_price p' = 108534377999999999996 | None => False end).
  { apply (ok_inv (fun r => match st_pools (fst (fst r)) !! ov_key with Some p' => p_price p' = 108534377999999999996 | None => False end)).
    vm_compute. reflexivity. }
  destruct X as ([[s' ms] at'] & X1 & X2). cbn [fst] in X2. apply (some_inv (fun p' : pool => p_price p' = 108534377999999999996)) in X2. destruct X2 as (p' & X2 & X3).
  exists ov_store, ov_key, 37086874109940444, 108534378000000000000, s', ms, at', p'.
  split; [exact (start_reachable _ _ _ ov_store_ok)|]. split; [exact X1|]. split; [exact X2|]. rewrite X3. reflexivity.
Qed.
Example ex_C19_C20 :
  match execute v_env (v_info "bob") sc0 (Swap v_key true 11000 true MIN_SQRT_PRICE),
        execute v_env (v_info "bob") sc0 (Swap v_key false 8000 false 1000500100010000000000000) with
  | Ok (_, _, a1), Ok (_, _, a2) => a1 = [("amount_in", 11000); ("amount_out", 10924)]%string /\ a2 = [("amount_in", 8050); ("amount_out", 8000)]%string
  | _, _ => False
  end.
Proof. vm_compute. split; reflexivity. Qed.

(** * C24 *)
(** no code inside an iteration reports "ran out of iterations" *)
Definition ng {A} (r : res A) : Prop := r <> Err OutOfGas.
Lemma ng_bind {A B} (m : res A) (f : A -> res B) : ng m -> (forall x, ng (f x)) -> ng (bind m f).
Proof. unfold ng, bind. destruct m; try done. intros H _. intros Q. injection Q as ->. done. Qed.
Lemma ng_ck e hi v : e <> OutOfGas -> ng (ck e hi v).
Proof. unfold ng, ck. intros H. destruct (in_range _ _ _); [done|]. congruence. Qed.
Lemma ng_ckp hi v : ng (ckp hi v).
Proof. unfold ng, ckp. destruct (in_range _ _ _); done. Qed.
Lemma ng_cdiv e n d : e <> OutOfGas -> ng (cdiv e n d).
Proof. unfold ng, cdiv. intros H. destruct (_ =? _); congruence. Qed.
Lemma ng_unwrap {A} (r : res A) : ng (unwrap r).
Proof. unfold ng, unwrap. destruct r; done. Qed.
Lemma ng_map_err {A} e (r : res A) : e <> OutOfGas -> ng (map_err e r).
Proof. unfold ng, map_err. intros H. destruct r; congruence. Qed.
Create HintDb ng.
Ltac ng_step :=
  match goal with
  | |- ng (bind _ _) => apply ng_bind; [|intros ?]
  | |- ng (ck _ _ _) => apply ng_ck; discriminate
  | |- ng (ckp _ _) => apply ng_ckp
  | |- ng (cdiv _ _ _) => apply ng_cdiv; discriminate
  | |- ng (unwrap _) => apply ng_unwrap
  | |- ng (map_err _ _) => apply ng_map_err; discriminate
  | |- ng (Ok _) => discriminate
  | |- ng (Err _) => discriminate
  | |- ng Panic => discriminate
  | |- ng (if ?b then _ else _) => destruct b
  | |- ng (match ?x with _ => _ end) => destruct x
  | |- ng _ => solve [auto with ng]
  | |- ng (?f _) => unfold f
  | |- ng (?f _ _) => unfold f
  | |- ng (?f _ _ _) => unfold f
  | |- ng (?f _ _ _ _) => unfold f
  | |- ng (?f _ _ _ _ _) => unfold f
  | |- ng (?f _ _ _ _ _ _) => unfold f
  | |- ng (?f _ _ _ _ _ _ _) => unfold f
  | |- ng (?f _ _ _ _ _ _ _ _) => unfold f
  | |- ng (?f _ _ _ _ _ _ _ _ _) => unfold f
  | |- ng (?f _ _ _ _ _ _ _ _ _ _) => unfold f
  end; cbv beta zeta.
Lemma ng_chain l : forall t k a, ng (sqrt_chain l t k a).
Proof. induction l; intros; cbn; repeat ng_step. Qed.
Global Hint Resolve ng_chain : ng.
Lemma iter_no_gas s now k d by_in lim tl w : ng (swap_iter s now k d by_in lim tl w).
Proof. repeat ng_step. Qed.

Lemma loop_terminates s now k (d by_in : bool) lim : store_geo s k -> forall m w, loop_inv k d lim w ->
  (if d then p_tick (sw_pool w) + MAX_TICK else MAX_SQRT_PRICE - p_price (sw_pool w)) < Z.of_nat m ->
  exists n r, forall gas, (n <= gas)%nat -> swap_loop gas s now k d by_in lim (end_tick d k) w = r /\ r <> Err OutOfGas.
Proof.
  intros G. induction m as [|m IH]; intros w I M.
  { exfalso. destruct I. destruct lv_weak as ([W1 _] & W2 & _). pose proof (sg_sp _ _ G) as [S1 _].
    pose proof (legal_price_range _ _ (top_legal _ S1)). destruct d; lia. }
  destruct (Z.eq_dec (sw_remaining w) 0) as [Z0|Z0].
  { exists 0%nat, (Ok w). intros gas _. split; [|done]. destruct gas; cbn; rewrite Z0; reflexivity. }
  destruct (swap_iter s now k d by_in lim (end_tick d k) w) as [w1|er|] eqn:E.
  - pose proof (loop_step _ _ _ _ _ _ _ _ G I Z0 E) as [_ I1]. destruct (iter_limit _ _ _ _ _ _ _ _ G I Z0 E) as (_ & _ & DEC).
    assert (X : exists n r, forall gas, (n <= gas)%nat -> swap_loop gas s now k d by_in lim (end_tick d k) w1 = r /\ r <> Err OutOfGas).
    { destruct (Z.eq_dec (sw_remaining w1) 0) as [Z1|Z1].
      - exists 0%nat, (Ok w1). intros gas _. split; [|done]. destruct gas; cbn; rewrite Z1; reflexivity.
      - apply IH; [done|]. specialize (DEC Z1). destruct d; lia. }
    destruct X as (n & r & X). exists (S n), r. intros [|gas] Hg; [lia|]. cbn. rewrite (proj2 (Z.eqb_neq _ _) Z0), E. cbn. apply X. lia.
  - exists 1%nat, (Err er). intros [|gas] Hg; [lia|]. cbn. rewrite (proj2 (Z.eqb_neq _ _) Z0), E. cbn. split; [done|].
    intros Q. injection Q as ->. by eapply iter_no_gas.
  - exists 1%nat, Panic. intros [|gas] Hg; [lia|]. cbn. rewrite (proj2 (Z.eqb_neq _ _) Z0), E. done.
Qed.

(** there is a number of iterations after which the result no longer depends on how many more are allowed, and it is not
    "ran out of iterations" *)
Theorem C24_swap_terminates s now k d a by_in lim : reachable s -> 0 <= a < 2 ^ 128 ->
  exists n r, r <> Err OutOfGas /\ forall gas, (n <= gas)%nat -> calculate_swap gas s now k d a by_in lim = r.
Proof.
  intros R Ha. change (2 ^ 128) with (U128MAX + 1) in Ha. apply reachable_ereach in R. unfold calculate_swap.
  destruct (a =? 0); [eexists 0%nat, _; split; [|reflexivity]; done|].
  unfold get_pool. destruct (st_pools s !! k) as [p|] eqn:E; cbn [bind]; [|eexists 0%nat, _; split; [|reflexivity]; done].
  destruct (if d then _ else _) eqn:L; [eexists 0%nat, _; split; [|reflexivity]; done|].
  assert (D : if d then lim < p_price p else p_price p < lim).
  { destruct d; apply orb_false_iff in L; destruct L as [L _]; apply Z.leb_gt in L; lia. }
  pose proof (loop_start k d lim p a (ereach_geo _ R _ _ E) ltac:(lia) D) as I.
  set (m := if d then p_tick p + MAX_TICK else MAX_SQRT_PRICE - p_price p).
  destruct (loop_terminates s now k d by_in lim (ereach_store_geo _ _ _ R E) (S (Z.to_nat m)) _ I) as (n & r & T).
  { cbn [sw_pool]. fold m. lia. }
  fold (end_tick d k). exists n.
  exists (let* w := r in if sw_out w =? 0 then Err NoGainSwap
      else Ok (mkCalc (sw_in w) (sw_out w) (p_price p) (p_price (sw_pool w)) (sw_fee w) (sw_pool w) (sw_ticks w))).
  split.
  - destruct (T n (le_n n)) as [_ T']. apply ng_bind; [exact T'|]. intros w. destruct (_ =? _); done.
  - intros gas Hg. destruct (T gas Hg) as [-> _]. done.
Qed.
Example ex_C24 : is_ok (calculate_swap 9 sc0 (e_millis v_env) v_key true 11000 true MIN_SQRT_PRICE) = true /\
  calculate_swap 1 sc0 (e_millis v_env) v_key true 11000 true MIN_SQRT_PRICE = Err OutOfGas.
Proof. vm_compute. split; reflexivity. Qed.
