(** C25: what can stop a swap. *)
From Verif Require Import Base Decimal SqrtPrice Clamm Log FeeGrowth Types Tick Pool Position Tickmap State Swap Exec Tactics
  PriceProofs LogProofs ClammProofs PropClamm BitmapProofs Frame Handlers History Basic Ledger Scenario Vectors SwapInv SwapGeo SwapLoop Modify PSum LiqInv Geo Clean PropLiq PropTrade
  PropSwap Flow PropSolv Forward PropFunds PropProt.
From stdpp Require Import gmap strings.
From Coq Require Import Lia.
Open Scope Z_scope.

(** ** Amounts can always be computed *)
Definition price_ok (p : Z) : Prop := MIN_SQRT_PRICE <= p <= MAX_SQRT_PRICE.
Definition liq_ok (L : Z) : Prop := 0 <= L <= U128MAX.

Lemma delta_y_fwd pa pb L up : price_ok pa -> price_ok pb -> liq_ok L -> exists v, get_delta_y pa pb L up = Ok v.
Proof.
  unfold price_ok, liq_ok. intros A B HL. unfold get_delta_y, mul_to_value_up, mul_to_value.
  assert (D : 0 <= Z.abs (pa - pb) <= MAX_SQRT_PRICE) by (unfold MIN_SQRT_PRICE, MAX_SQRT_PRICE in *; lia).
  assert (M : 0 <= Z.abs (pa - pb) * L <= MAX_SQRT_PRICE * U128MAX) by (split; [apply Z.mul_nonneg_nonneg; lia|apply Z.mul_le_mono_nonneg; lia]).
  set (m := Z.abs (pa - pb) * L) in *. clearbody m.
  destruct up.
  - assert (Q : 0 <= (m + (LIQ_ONE - 1)) / LIQ_ONE <= MAX_SQRT_PRICE * U128MAX).
    { split; [apply Z.div_pos; unfold LIQ_ONE; lia|]. apply Z.div_le_upper_bound; [reflexivity|]. unfold LIQ_ONE, MAX_SQRT_PRICE, U128MAX in *. lia. }
    rewrite ck_yes; [|split; [unfold SP_ONE; lia|etransitivity; [apply Z.add_le_mono_r, Q|vm_compute; discriminate]]]. cbn [bind].
    eexists. apply ck_yes. split; [apply Z.div_pos; unfold SP_ONE; lia|].
    assert (X : (m + (LIQ_ONE - 1)) / LIQ_ONE <= (MAX_SQRT_PRICE * U128MAX + (LIQ_ONE - 1)) / LIQ_ONE) by (apply Z.div_le_mono; [reflexivity|lia]).
    etransitivity; [apply Z.div_le_mono; [reflexivity|apply Z.add_le_mono_r, X]|]. vm_compute. discriminate.
  - eexists. apply ck_yes. split; [apply Z.div_pos; [apply Z.div_pos; [lia|reflexivity]|reflexivity]|].
    etransitivity; [apply Z.div_le_mono; [reflexivity|apply Z.div_le_mono; [reflexivity|apply M]]|]. vm_compute. discriminate.
Qed.
Lemma numx_bound pa pb L : price_ok pa -> price_ok pb -> liq_ok L ->
  0 <= numx pa pb L /\ LIQ_ONE * numx pa pb L <= MAX_SQRT_PRICE * U128MAX /\ LIQ_ONE * numx pa pb L <= Z.max pa pb * U128MAX.
Proof.
  unfold price_ok, liq_ok. intros A B HL. pose proof (numx_spec pa pb L) as N. set (n := numx pa pb L) in *.
  assert (D : 0 <= Z.abs (pa - pb) <= Z.max pa pb) by (unfold MIN_SQRT_PRICE, MAX_SQRT_PRICE in *; lia).
  assert (M : 0 <= Z.abs (pa - pb) * L <= Z.max pa pb * U128MAX) by (split; [apply Z.mul_nonneg_nonneg; lia|apply Z.mul_le_mono_nonneg; lia]).
  assert (M2 : Z.max pa pb * U128MAX <= MAX_SQRT_PRICE * U128MAX) by (apply Z.mul_le_mono_nonneg_r; [discriminate|lia]).
  split; [|lia]. unfold n, numx. apply Z.div_pos; [lia|reflexivity].
Qed.
Lemma prod_bound pa pb : price_ok pa -> price_ok pb -> MIN_SQRT_PRICE * Z.max pa pb <= pa * pb /\ pa * pb <= MAX_SQRT_PRICE * MAX_SQRT_PRICE.
Proof.
  unfold price_ok. intros A B. assert (0 < MIN_SQRT_PRICE) by reflexivity. assert (0 < MAX_SQRT_PRICE) by reflexivity. split; [|apply Z.mul_le_mono_nonneg; lia].
  destruct (Z.max_spec pa pb) as [[_ ->]|[_ ->]]; [|rewrite Z.mul_comm]; [apply Z.mul_le_mono_nonneg_r; lia|apply Z.mul_le_mono_nonneg_l; lia].
Qed.
Lemma delta_x_fwd pa pb L up : price_ok pa -> price_ok pb -> liq_ok L -> exists v, get_delta_x pa pb L up = Ok v.
Proof.
  intros A B HL. pose proof (numx_bound _ _ _ A B HL) as (N0 & N1 & N2). destruct (prod_bound _ _ A B) as [P0 P1]. unfold price_ok in *.
  assert (PM : MIN_SQRT_PRICE <= Z.max pa pb) by lia. assert (M0 : 0 < MIN_SQRT_PRICE) by reflexivity.
  unfold get_delta_x, mul_to_value, mul_to_value_up. fold (numx pa pb L). set (n := numx pa pb L) in *. clearbody n.
  set (m := Z.max pa pb) in *. set (pp := pa * pb) in *. clearbody pp.
  assert (NM : n * SP_ONE <= U320MAX).
  { assert (n <= MAX_SQRT_PRICE * U128MAX) by (unfold LIQ_ONE in *; lia). etransitivity; [apply Z.mul_le_mono_nonneg_r; [discriminate|eassumption]|]. vm_compute. discriminate. }
  assert (NP : 0 <= n * SP_ONE) by (unfold SP_ONE; lia).
  assert (P2 : MIN_SQRT_PRICE * MIN_SQRT_PRICE <= pp) by (etransitivity; [apply Z.mul_le_mono_nonneg_l, PM; lia|exact P0]).
  (* the denominator, up to one *)
  assert (KEY : forall d, 1 <= d -> pp <= SP_ONE * (d + 1) -> n <= d * (2 * U128MAX / 10)).
  { intros d D1 D2. assert (pp <= 2 * SP_ONE * d) by (unfold SP_ONE in *; lia).
    assert (MIN_SQRT_PRICE * m <= 2 * SP_ONE * d) by lia.
    assert (MIN_SQRT_PRICE * (m * U128MAX) <= 2 * SP_ONE * d * U128MAX) by (rewrite Z.mul_assoc; apply Z.mul_le_mono_nonneg_r; [discriminate|lia]).
    assert (MIN_SQRT_PRICE * (LIQ_ONE * n) <= 2 * SP_ONE * d * U128MAX) by (etransitivity; [apply Z.mul_le_mono_nonneg_l, N2; lia|lia]).
    unfold MIN_SQRT_PRICE, LIQ_ONE, SP_ONE, U128MAX in *. change (2 * 340282366920938463463374607431768211455 / 10) with 68056473384187692692674921486353642291. lia. }
  destruct up.
  - unfold big_div_values_to_token_up.
    pose proof (floor_spec pp SP_ONE ltac:(reflexivity)) as F. set (d := pp / SP_ONE) in *.
    assert (D1 : 1 <= d) by (unfold MIN_SQRT_PRICE, SP_ONE in *; lia).
    assert (D2 : d <= U128MAX) by (unfold SP_ONE, MAX_SQRT_PRICE, U128MAX in *; lia).
    specialize (KEY d D1 ltac:(unfold SP_ONE in *; lia)). clearbody d.
    rewrite ck_yes by lia. cbn [bind]. rewrite ckp_yes by (change U320MAX with (2 ^ 320 - 1); unfold U128MAX in *; lia). cbn [bind].
    assert (NB : n * SP_ONE <= 2 ^ 319).
    { assert (n <= MAX_SQRT_PRICE * U128MAX) by (unfold LIQ_ONE in *; lia). etransitivity; [apply Z.mul_le_mono_nonneg_r; [discriminate|eassumption]|]. vm_compute. discriminate. }
    rewrite ck_yes by (change U320MAX with (2 ^ 320 - 1); unfold U128MAX in *; lia). cbn [bind].
    unfold cdiv. rewrite (proj2 (Z.eqb_neq d 0)) by lia. cbn [bind].
    assert (Q : 0 <= (n * SP_ONE + (d - 1)) / d <= 2 * U128MAX / 10 * SP_ONE + 1).
    { split; [apply Z.div_pos; lia|]. apply Z.div_le_upper_bound; [lia|].
      assert (n * SP_ONE <= d * (2 * U128MAX / 10) * SP_ONE) by (apply Z.mul_le_mono_nonneg_r; [discriminate|exact KEY]). lia. }
    set (q := (n * SP_ONE + (d - 1)) / d) in *. clearbody q.
    rewrite ck_yes by (split; [lia|etransitivity; [apply Q|vm_compute; discriminate]]). cbn [bind].
    rewrite ck_yes by (split; [unfold SP_ONE; lia|etransitivity; [apply Z.add_le_mono_r, Q|vm_compute; discriminate]]). cbn [bind].
    eexists. apply ck_yes. split; [apply Z.div_pos; unfold SP_ONE; lia|].
    etransitivity; [apply Z.div_le_mono; [reflexivity|apply Z.add_le_mono_r, Q]|]. vm_compute. discriminate.
  - unfold big_div_values_to_token.
    pose proof (ceil_spec pp SP_ONE ltac:(reflexivity)) as F. set (d := (pp + (SP_ONE - 1)) / SP_ONE) in *.
    assert (D1 : 1 <= d) by (unfold MIN_SQRT_PRICE, SP_ONE in *; lia).
    specialize (KEY d D1 ltac:(unfold SP_ONE in *; lia)). clearbody d.
    rewrite ck_yes by lia. cbn [bind]. unfold cdiv. rewrite (proj2 (Z.eqb_neq d 0)) by lia. cbn [bind].
    assert (Q : 0 <= n * SP_ONE / d <= 2 * U128MAX / 10 * SP_ONE).
    { split; [apply Z.div_pos; lia|]. apply Z.div_le_upper_bound; [lia|].
      assert (n * SP_ONE <= d * (2 * U128MAX / 10) * SP_ONE) by (apply Z.mul_le_mono_nonneg_r; [discriminate|exact KEY]). lia. }
    set (q := n * SP_ONE / d) in *. clearbody q.
    rewrite ck_yes by (split; [lia|etransitivity; [apply Q|vm_compute; discriminate]]). cbn [bind].
    eexists. apply ck_yes. split; [apply Z.div_pos; [lia|reflexivity]|].
    etransitivity; [apply Z.div_le_mono; [reflexivity|apply Q]|]. vm_compute. discriminate.
Qed.

(** ** The next price of a rising exact-input step exists unless the offer is too large, by itself or for the liquidity *)
Lemma next_y_in_iff P L y : 0 <= P -> 0 < L <= U128MAX -> 0 <= y <= U128MAX ->
  (exists n, get_next_sqrt_price_y_down P L y true = Ok n) <-> y * 10 ^ 48 < 2 ^ 256 /\ P + y * 10 ^ 48 / (L * 10 ^ 18) < 2 ^ 128.
Proof.
  intros HP HL Hy. unfold get_next_sqrt_price_y_down, checked_big_div_values, add_e.
  rewrite ckp_yes by (split; [unfold SP_ONE; lia|etransitivity; [apply Z.mul_le_mono_nonneg_r; [discriminate|apply Hy]|vm_compute; discriminate]]). cbn [bind].
  rewrite ck_yes by (split; [lia|etransitivity; [apply Z.mul_le_mono_nonneg_r; [discriminate|apply HL]|vm_compute; discriminate]]). cbn [bind].
  replace (y * SP_ONE * SP_ONE) with (y * 10 ^ 48) by (change (10 ^ 48) with (SP_ONE * SP_ONE); lia). change 1000000000000000000 with (10 ^ 18).
  assert (D : 0 < L * 10 ^ 18) by (apply Z.mul_pos_pos; [lia|reflexivity]).
  assert (Q : 0 <= y * 10 ^ 48 / (L * 10 ^ 18)) by (apply Z.div_pos; [apply Z.mul_nonneg_nonneg; [lia|discriminate]|exact D]).
  assert (Y0 : 0 <= y * 10 ^ 48) by (apply Z.mul_nonneg_nonneg; [lia|discriminate]).
  change (2 ^ 256) with (U256MAX + 1). change (2 ^ 128) with (U128MAX + 1).
  set (m := y * 10 ^ 48) in *. set (q := m / (L * 10 ^ 18)) in *. split.
  - intros [n H]. inv_bind H as q0 E. inv_bind E as m0 E1. apply ck_ok in E1. destruct E1 as [-> E1]. inv_bind E as q1 E2. apply cdiv_ok in E2. destruct E2 as [_ ->]. fold q in E, H.
    apply ck_ok in E. destruct E as [-> E]. apply ck_ok in H. clearbody q. lia.
  - intros [A B]. rewrite ck_yes by lia. cbn [bind]. unfold cdiv. rewrite (proj2 (Z.eqb_neq _ 0)) by lia. cbn [bind]. fold q.
    rewrite ck_yes by lia. cbn [bind]. eexists. apply ck_yes. lia.
Qed.
Lemma next_y_in_fwd P L y : price_ok P -> 0 < L <= U128MAX -> 0 <= y <= 10 ^ 29 -> y <= 34028 * L -> exists n, get_next_sqrt_price_y_down P L y true = Ok n.
Proof.
  unfold price_ok. intros HP HL Hy HB. apply next_y_in_iff; [unfold MIN_SQRT_PRICE in *; lia|done|unfold U128MAX; lia|].
  split; [change (10 ^ 29) with 100000000000000000000000000000 in Hy; lia|].
  assert (y * 10 ^ 48 / (L * 10 ^ 18) <= 34028 * 10 ^ 30).
  { apply Z.div_le_upper_bound; [lia|]. change (10 ^ 48) with (10 ^ 18 * 10 ^ 30). nia. }
  unfold MAX_SQRT_PRICE in *. lia.
Qed.

(** ** A rising exact-input step *)
Lemma step_rising_fwd cur target L amount fee : price_ok cur -> price_ok target -> cur < target -> liq_ok L -> 0 <= amount <= 10 ^ 29 ->
  (L <> 0 -> amount <= 34028 * L) -> 0 <= fee <= PCT_ONE -> exists r, compute_swap_step cur target L amount true fee = Ok r.
Proof.
  intros HC HT LT HL HA HB HF. assert (HA' : amount <= U128MAX) by (unfold U128MAX; lia). pose proof HC as HC'. unfold price_ok, liq_ok in *. unfold compute_swap_step.
  destruct (Z.eqb_spec L 0) as [|L0]; [eauto|]. specialize (HB L0). rewrite (proj2 (Z.leb_gt _ _) LT).
  unfold pct_complement. rewrite ckp_yes by (unfold PCT_ONE, U64MAX in *; lia). cbn [bind].
  unfold big_mul. pose proof (floor_spec (amount * (PCT_ONE - fee)) PCT_ONE ltac:(reflexivity)) as AF. set (af := amount * (PCT_ONE - fee) / PCT_ONE) in *.
  assert (AF2 : 0 <= af <= amount).
  { assert (0 <= amount * (PCT_ONE - fee) <= amount * PCT_ONE) by (split; [apply Z.mul_nonneg_nonneg; lia|apply Z.mul_le_mono_nonneg_l; lia]).
    unfold PCT_ONE in *. lia. }
  clearbody af. rewrite ckp_yes by lia. cbn [bind].
  destruct (delta_y_fwd cur target L true HC HT HL) as [ai EI]. rewrite EI. cbn [bind].
  assert (FE : forall v, 0 <= v <= U128MAX -> exists q, big_mul_up PCT_ONE v fee = Ok q).
  { intros v V. unfold big_mul_up. eexists. apply ckp_yes. assert (0 <= v * fee <= v * PCT_ONE) by (split; [apply Z.mul_nonneg_nonneg; lia|apply Z.mul_le_mono_nonneg_l; lia]).
    split; [apply Z.div_pos; unfold PCT_ONE in *; lia|]. apply Z.lt_succ_r, Z.div_lt_upper_bound; unfold PCT_ONE, U128MAX in *; lia. }
  destruct (Z.leb_spec ai af) as [LE|GT].
  - cbn [bind]. rewrite Z.eqb_refl. cbn [negb orb andb bind]. destruct (delta_x_fwd cur target L false HC HT HL) as [ao EO]. rewrite EO. cbn [bind].
    apply delta_y_up in EI. destruct (FE ai) as [q Q]; [lia|]. rewrite Q. cbn [bind]. eauto.
  - destruct (next_y_in_fwd cur L af HC ltac:(lia) ltac:(lia) ltac:(lia)) as [n EN]. unfold get_next_sqrt_price_from_input. rewrite EN. cbn [bind].
    assert (NS : cur <= n < target).
    { split; [|eapply (next_in_target_up cur target L af n ai); [unfold MIN_SQRT_PRICE in *; lia|lia|lia|exact EI|lia|exact EN]].
      apply next_y_in in EN; [lia|unfold MIN_SQRT_PRICE in *; lia|lia|lia]. }
    rewrite (proj2 (Z.eqb_neq target n)) by lia. cbn [negb orb andb].
    assert (HN : price_ok n) by (unfold price_ok; lia).
    destruct (delta_y_fwd cur n L true HC HN HL) as [a2 E2]. rewrite E2. cbn [bind].
    destruct (delta_x_fwd cur n L false HC HN HL) as [o2 O2]. rewrite O2. cbn [bind].
    assert (a2 <= af) by (eapply (partial_in_up cur L af n a2); [unfold MIN_SQRT_PRICE in *; lia|lia|lia|exact EN|exact E2]).
    apply delta_y_up in E2. unfold sub_p. rewrite ckp_yes by lia. cbn [bind]. eauto.
Qed.
Lemma enough_rising_fwd rem P L fee : price_ok P -> liq_ok L -> 0 <= rem <= 10 ^ 29 -> (L <> 0 -> rem <= 34028 * L) -> 0 <= fee <= PCT_ONE ->
  exists b, is_enough_amount_to_change_price rem P L fee true false = Ok b.
Proof.
  unfold liq_ok. intros HP HL HR HB HF. unfold is_enough_amount_to_change_price. destruct (Z.eqb_spec L 0) as [|L0]; [eauto|]. specialize (HB L0).
  unfold pct_complement. rewrite ckp_yes by (unfold PCT_ONE, U64MAX in *; lia). cbn [bind].
  unfold big_mul. pose proof (floor_spec (rem * (PCT_ONE - fee)) PCT_ONE ltac:(reflexivity)) as AF. set (af := rem * (PCT_ONE - fee) / PCT_ONE) in *.
  assert (AF2 : 0 <= af <= rem).
  { assert (0 <= rem * (PCT_ONE - fee) <= rem * PCT_ONE) by (split; [apply Z.mul_nonneg_nonneg; lia|apply Z.mul_le_mono_nonneg_l; lia]).
    unfold PCT_ONE in *. lia. }
  clearbody af. rewrite ckp_yes by (unfold U128MAX in *; lia). cbn [bind].
  destruct (next_y_in_fwd P L af HP ltac:(lia) ltac:(lia) ltac:(lia)) as [n EN]. unfold get_next_sqrt_price_from_input. rewrite EN. cbn [bind]. eauto.
Qed.
Lemma add_fee_fwd p a (d : bool) f : 0 <= p_liq p -> 0 <= f <= PCT_ONE -> 0 <= a <= 10 ^ 29 -> (p_liq p <> 0 -> a <= 34028 * p_liq p) -> 0 <= counter d p -> counter d p + a <= U128MAX ->
  exists q, add_fee p a d f = Ok q /\ counter d p <= counter d q <= counter d p + a.
Proof.
  intros HL HF HA HB C0 C1. pose proof (cut_le f a HF (proj1 HA)) as CU. unfold add_fee, big_mul_up. set (pr := (a * f + (PCT_ONE - 1)) / PCT_ONE) in *. clearbody pr.
  rewrite ckp_yes by (unfold U128MAX in *; lia). cbn [bind]. unfold sub_p. rewrite ckp_yes by (unfold U128MAX in *; lia). cbn [bind].
  destruct (_ || (p_liq p =? 0)) eqn:B; [eexists; split; [reflexivity|lia]|]. apply orb_false_iff in B. destruct B as [_ B]. apply Z.eqb_neq in B. specialize (HB B).
  unfold from_fee.
  assert (F1 : 0 <= (a - pr) * FG_ONE <= 10 ^ 57) by (change FG_ONE with (10 ^ 28); lia).
  rewrite ck_yes by (split; [lia|etransitivity; [apply F1|vm_compute; discriminate]]). cbn [bind].
  assert (F2 : 0 <= (a - pr) * FG_ONE * LIQ_ONE <= 10 ^ 63) by (change LIQ_ONE with (10 ^ 6); lia).
  rewrite ck_yes by (split; [lia|etransitivity; [apply F2|vm_compute; discriminate]]). cbn [bind].
  unfold cdiv. rewrite (proj2 (Z.eqb_neq _ 0) B). cbn [bind].
  rewrite ck_yes.
  - cbn [bind]. unfold counter in *. destruct d; unfold add_p; rewrite ckp_yes by lia; cbn [bind]; (eexists; split; [reflexivity|]); cbn; lia.
  - split; [apply Z.div_pos; lia|]. apply Z.div_le_upper_bound; [lia|]. change FG_ONE with (10 ^ 28). change LIQ_ONE with (10 ^ 6). unfold U128MAX. lia.
Qed.
Lemma closer_fwd s lim d c sp k : chunks_u64 s -> 1 <= sp -> legal_tick sp c ->
  (exists sl li, get_closer_limit s lim d c sp k = Ok (sl, li)) \/ get_closer_limit s lim d c sp k = Err TickLimitReached.
Proof.
  intros U H L. unfold get_closer_limit.
  assert (G : forall t (b : bool), legal_tick sp t -> exists sl li, (let* price := calculate_sqrt_price t in
     if d && (lim <? price) || negb d && (price <? lim) then Ok (price, Some (t, b)) else Ok (lim, None)) = Ok (sl, li)).
  { intros t b LT. rewrite (calculate_sqrt_price_ok t (proj1 LT)). cbn [bind]. destruct (_ || _); eauto. }
  pose proof L as [L1 L2].
  destruct d; cbn [negb].
  - destruct (prev_initialized_spec s k sp c U H L) as (r & R1 & R2). rewrite R1. cbn [bind]. destruct r as [i|].
    + cbn [bind]. left. apply G. cbn in R2. destruct R2 as (_ & B & _). by eapply is_init_legal.
    + rewrite search_limit_down by done. destruct (c =? down_limit sp c); [by right|]. cbn [bind]. left. apply G. by apply down_limit_legal.
  - destruct (next_initialized_spec s k sp c U H ltac:(lia) ltac:(lia) L2) as (r & R1 & R2). rewrite R1. cbn [bind]. destruct r as [i|].
    + cbn [bind]. left. apply G. cbn in R2. destruct R2 as (_ & B & _). by eapply is_init_legal.
    + rewrite search_limit_up by done. destruct (c =? up_limit sp c); [by right|]. cbn [bind]. left. apply G. by apply up_limit_legal.
Qed.

Lemma add_p_yes a b : 0 <= a + b <= U128MAX -> add_p a b = Ok (a + b).
Proof. apply ckp_yes. Qed.
Lemma sub_e_yes e a b : 0 <= a - b <= U128MAX -> sub_e e a b = Ok (a - b).
Proof. apply ck_yes. Qed.

(** ** An iteration of a rising exact-input swap *)
Record totals (k : pool_key) (P0 a : Z) (w : swap_state) : Prop := {
  tt_in : 0 <= sw_in w;
  tt_sum : sw_in w + sw_remaining w = a;
  tt_fee : 0 <= sw_fee w <= sw_in w;
  tt_out : 0 <= sw_out w;
  tt_le : MIN_SQRT_PRICE <= P0 <= p_price (sw_pool w);
  tt_tel : sw_out w * (P0 * p_price (sw_pool w)) <= U128MAX * E18 * (p_price (sw_pool w) - P0);
  tt_prot : 0 <= counter false (sw_pool w);
  tt_room : counter false (sw_pool w) + sw_remaining w <= U128MAX
}.

Lemma telescope so o P0 P P' K : 0 < P0 <= P -> P <= P' -> so * (P0 * P) <= K * (P - P0) -> o * (P * P') <= K * (P' - P) ->
  (so + o) * (P0 * P') <= K * (P' - P0).
Proof.
  intros A B H1 H2. apply (Z.mul_le_mono_pos_r _ _ P); [lia|].
  assert (so * (P0 * P) * P' <= K * (P - P0) * P') by (apply Z.mul_le_mono_nonneg_r; lia).
  assert (o * (P * P') * P0 <= K * (P' - P) * P0) by (apply Z.mul_le_mono_nonneg_r; lia). lia.
Qed.
Lemma telescope_bound so P0 P : MIN_SQRT_PRICE <= P0 <= P -> 0 <= so -> so * (P0 * P) <= U128MAX * E18 * (P - P0) -> so <= U128MAX.
Proof.
  intros A S H. assert (M : 0 < MIN_SQRT_PRICE) by reflexivity.
  destruct (Z.le_gt_cases so U128MAX) as [|G]; [done|exfalso].
  assert (so * P0 * P <= U128MAX * E18 * P).
  { replace (so * P0 * P) with (so * (P0 * P)) by lia. etransitivity; [exact H|]. apply Z.mul_le_mono_nonneg_l; [discriminate|lia]. }
  assert (so * P0 <= U128MAX * E18) by (apply (Z.mul_le_mono_pos_r _ _ P); lia).
  assert (so * MIN_SQRT_PRICE <= so * P0) by (apply Z.mul_le_mono_nonneg_l; lia).
  assert ((U128MAX + 1) * MIN_SQRT_PRICE <= so * MIN_SQRT_PRICE) by (apply Z.mul_le_mono_nonneg_r; lia).
  assert (U128MAX * E18 < (U128MAX + 1) * MIN_SQRT_PRICE) by reflexivity. lia.
Qed.
Lemma step_out_rising cur target L amount fee r : step_args cur target L amount fee -> cur < target ->
  compute_swap_step cur target L amount true fee = Ok r -> sr_out r * (cur * sr_next r) <= U128MAX * E18 * (sr_next r - cur).
Proof.
  intros SA LT H. pose proof (C03_step_bounds_partial _ _ _ _ _ _ _ SA H) as (_ & B2 & _). specialize (B2 ltac:(lia)).
  destruct SA as (Hc & Ht & HL & Ham & Hf). change (2 ^ 128) with (U128MAX + 1) in *.
  destruct (Z.eq_dec L 0) as [->|L0].
  { unfold compute_swap_step in H. cbn in H. apply Ok_inj in H. subst r. cbn in *. unfold U128MAX, E18. lia. }
  pose proof (step_inv _ _ _ _ _ _ _ L0 H) as [_ _ (o & Ho & Hor) _]. cbn in Hor. rewrite Hor.
  unfold delta_out in Ho. rewrite (proj2 (Z.leb_gt _ _) LT) in Ho. apply delta_x_down_exact in Ho; [|lia|lia].
  rewrite Z.abs_neq in Ho by lia. etransitivity; [exact Ho|].
  assert (L * - (cur - sr_next r) <= U128MAX * (sr_next r - cur)) by (replace (- (cur - sr_next r)) with (sr_next r - cur) by lia; apply Z.mul_le_mono_nonneg_r; lia).
  unfold E18. lia.
Qed.

Definition crossable (s : store) (now : Z) (k : pool_key) (w : swap_state) : Prop :=
  forall t, is_init s k (spacing k) t -> p_tick (sw_pool w) < t -> (forall j, p_tick (sw_pool w) < j < t -> ~ is_init s k (spacing k) j) ->
  exists tk, st_ticks s !! (k, t) = Some tk /\
    forall q, p_liq q = p_liq (sw_pool w) -> p_tick q = p_tick (sw_pool w) -> p_start q = p_start (sw_pool w) ->
      exists t' q', tick_cross tk q now = Ok (t', q').

Lemma iter_rising_fwd s now k lim w P0 a : store_geo s k -> loop_inv k false lim w -> sw_remaining w <> 0 -> totals k P0 a w -> a <= 10 ^ 29 ->
  0 <= cf_protocol_fee (st_config s) <= PCT_ONE -> (p_liq (sw_pool w) <> 0 -> a <= 34028 * p_liq (sw_pool w)) -> crossable s now k w ->
  (exists w', swap_iter s now k false true lim (end_tick false k) w = Ok w') \/
  swap_iter s now k false true lim (end_tick false k) w = Err PriceLimitReached \/
  swap_iter s now k false true lim (end_tick false k) w = Err TickLimitReached.
Proof.
  intros G I NR T HA HF HL CR. pose proof (loop_pre _ _ _ _ _ G I NR) as PRE. destruct PRE as [U HS HFE HLQ HW HR HLim HRem].
  specialize (HR eq_refl). destruct T as [T1 T2 T3 T4 T5 T6 T7 T8]. pose proof HW as (WL & WP & _).
  pose proof (legal_price_range _ _ WL) as CRG. pose proof (legal_price_range _ _ (top_legal (spacing k) ltac:(lia))) as XR.
  assert (A29 : 10 ^ 29 <= U128MAX) by (vm_compute; discriminate).
  assert (PW : price_ok (p_price (sw_pool w))) by (unfold price_ok; lia).
  assert (HLr : p_liq (sw_pool w) <> 0 -> sw_remaining w <= 34028 * p_liq (sw_pool w)) by (intros X; specialize (HL X); lia).
  unfold swap_iter.
  destruct (closer_fwd s lim false (p_tick (sw_pool w)) (spacing k) k U ltac:(lia) WL) as [(sl & li & CL)|CL]; rewrite CL; [|right; right; reflexivity].
  cbn [bind]. apply closer_limit in CL; [|done|lia|done]. destruct CL as (t & init & TG & CL). pose proof TG as (TL1 & TI & TC1 & TC2).
  assert (SIDE : p_price (sw_pool w) < tprice t).
  { destruct HR as (_ & _ & R3). assert (S1 : 1 <= spacing k) by lia. pose proof (legal_top _ _ S1 TL1).
    pose proof (legal_gap _ _ _ S1 WL TL1 ltac:(lia)). specialize (R3 ltac:(lia)).
    pose proof (legal_price_le _ _ _ (legal_next _ _ S1 WL ltac:(lia)) TL1 ltac:(lia)). lia. }
  pose proof (legal_price_range _ _ TL1) as TR. pose proof (legal_top _ _ (proj1 HS) TL1) as TT.
  pose proof (legal_price_le _ _ _ TL1 (top_legal (spacing k) (proj1 HS)) (proj2 TT)) as TTP.
  assert (SLR : p_price (sw_pool w) < sl <= tprice t) by (destruct CL as [(_ & -> & X)|(_ & -> & X)]; lia).
  assert (PS : price_ok sl) by (unfold price_ok; lia).
  assert (SA : step_args (p_price (sw_pool w)) sl (p_liq (sw_pool w)) (sw_remaining w) (ft_fee (pk_tier k))).
  { unfold step_args. change (2 ^ 128) with (U128MAX + 1). change 15258932000000000000 with MIN_SQRT_PRICE.
    change 65535383934512647000000000000 with MAX_SQRT_PRICE. change 1000000000000 with PCT_ONE. repeat split; lia. }
  destruct (step_rising_fwd (p_price (sw_pool w)) sl (p_liq (sw_pool w)) (sw_remaining w) (ft_fee (pk_tier k)) PW PS (proj1 SLR) HLQ ltac:(lia) HLr ltac:(lia)) as [r ER].
  rewrite ER. cbn [bind].
  pose proof (C03_step_bounds_partial _ _ _ _ _ _ _ SA ER) as (_ & B2 & _ & _ & _ & N1 & N2 & N3 & _ & B6 & _). specialize (B2 ltac:(lia)). specialize (B6 eq_refl ltac:(lia)).
  pose proof (step_out_rising _ _ _ _ _ _ SA (proj1 SLR) ER) as SO.
  rewrite (add_p_yes (sr_in r) (sr_fee r)) by lia. cbn [bind]. rewrite (sub_e_yes ESub (sw_remaining w)) by lia. cbn [bind].
  destruct (add_fee_fwd (sw_pool w) (sr_fee r) false (cf_protocol_fee (st_config s)) (proj1 HLQ) HF ltac:(lia)) as (p1 & EA & PC); [intros X; specialize (HLr X); lia|exact T7|lia|].
  rewrite EA. cbn [bind]. pose proof (add_fee_keeps _ _ _ _ _ EA) as (K1 & K2 & K3 & K4 & K5).
  rewrite (add_p_yes (sw_fee w)) by lia. cbn [bind]. rewrite (add_p_yes (sw_in w)) by lia. cbn [bind].
  assert (TEL : (sw_out w + sr_out r) * (P0 * sr_next r) <= U128MAX * E18 * (sr_next r - P0)) by (eapply telescope; [|apply B2|exact T6|exact SO]; unfold MIN_SQRT_PRICE in *; lia).
  rewrite (add_p_yes (sw_out w)) by (split; [lia|]; eapply telescope_bound; [|lia|exact TEL]; lia). cbn [bind].
  match goal with |- context [if ?b then Err PriceLimitReached else _] => destruct b end; [right; left; reflexivity|].
  assert (GT : exists c', get_tick_at_sqrt_price (sr_next r) (spacing k) = Ok c').
  { destruct (get_tick_ok (sr_next r) (spacing k) ltac:(lia) (proj1 HS)) as (j & _ & E). eauto. }
  destruct GT as [c' GT].
  assert (FIN : forall (b : bool) (x : swap_state), (exists w', (if b then Err TickLimitReached else Ok x) = Ok w') \/ (if b then Err TickLimitReached else Ok x) = Err PriceLimitReached \/ (if b then Err TickLimitReached else Ok x) = Err TickLimitReached).
  { intros [] x; eauto. }
  destruct CL as [(-> & -> & X)|(-> & -> & X)].
  - destruct init.
    + destruct (CR t TI TC1 TC2) as (tk & TK & CRO). unfold get_tick. rewrite TK. cbn [bind]. unfold pool_update_tick. cbn [orb].
      destruct (Z.eqb_spec (tprice t) (sr_next r)) as [NE|NE]; cbn [negb].
      * destruct (enough_rising_fwd (sw_remaining w - (sr_in r + sr_fee r)) (sr_next r) (p_liq (p_set_price p1 (sr_next r))) (ft_fee (pk_tier k))) as [en EN];
          [unfold price_ok; lia|unfold liq_ok; cbn; lia|lia|cbn; rewrite K1; intros Y; specialize (HLr Y); lia|lia|].
        rewrite EN. cbn [bind negb orb andb].
        destruct (CRO (p_set_price p1 (sr_next r))) as (t' & q' & CX); [done|done|done|]. rewrite CX. cbn [unwrap bind].
        rewrite add_p_yes by lia. cbn [bind]. apply FIN.
      * rewrite GT. cbn [bind]. rewrite add_p_yes by lia. cbn [bind]. apply FIN.
    + cbn [bind]. unfold pool_update_tick. cbn [orb].
      destruct (Z.eqb_spec (tprice t) (sr_next r)) as [NE|NE]; cbn [negb].
      * destruct (enough_rising_fwd (sw_remaining w - (sr_in r + sr_fee r)) (sr_next r) (p_liq (p_set_price p1 (sr_next r))) (ft_fee (pk_tier k))) as [en EN];
          [unfold price_ok; lia|unfold liq_ok; cbn; lia|lia|cbn; rewrite K1; intros Y; specialize (HLr Y); lia|lia|].
        rewrite EN. cbn [bind negb orb andb]. rewrite add_p_yes by lia. cbn [bind]. apply FIN.
      * rewrite GT. cbn [bind]. rewrite add_p_yes by lia. cbn [bind]. apply FIN.
  - cbn [bind]. unfold pool_update_tick. cbn [orb]. rewrite GT. cbn [bind]. rewrite add_p_yes by lia. cbn [bind]. apply FIN.
Qed.

Lemma add_fee_counter p a d f q : 0 <= p_liq p -> 0 <= f <= PCT_ONE -> 0 <= a -> add_fee p a d f = Ok q ->
  counter d p <= counter d q <= counter d p + a.
Proof.
  intros HL HF HA H. pose proof (cut_le f a HF HA) as CU. apply add_fee_inv in H. destruct H as (pr & pf & E & -> & N & H).
  apply ckp_ok in E. destruct E as [-> E]. fold ((a * f + (PCT_ONE - 1)) / PCT_ONE) in *.
  destruct H as [[-> _]|(g & _ & _ & H)]; [lia|]. unfold counter. destruct d; destruct H as [_ ->]; cbn; lia.
Qed.
Lemma cross_counter tk p now t' q d : tick_cross tk p now = Ok (t', q) -> counter d q = counter d p /\ p_price q = p_price p.
Proof. intros H. apply tick_cross_inv in H. destruct H as (_ & _ & _ & _ & l & -> & _). by destruct d. Qed.

Lemma iter_rising_keeps s now k lim w w' P0 a : store_geo s k -> loop_inv k false lim w -> sw_remaining w <> 0 -> totals k P0 a w ->
  0 <= cf_protocol_fee (st_config s) <= PCT_ONE -> swap_iter s now k false true lim (end_tick false k) w = Ok w' ->
  totals k P0 a w' /\ (sw_remaining w' = 0 \/ p_tick (sw_pool w) < p_tick (sw_pool w')).
Proof.
  intros G I NR T HF H. pose proof (loop_pre _ _ _ _ _ G I NR) as PRE. pose proof (ip_liq _ _ _ _ _ PRE) as HLQ.
  apply iter_cases in H; [|done]. destruct H as (t & init & sl & r & p0 & rm0 & TG & _ & SA & ST & SIDE & -> & R0 & AF & _ & IC & _).
  pose proof (C03_step_bounds_partial _ _ _ _ _ _ _ SA ST) as (_ & B2 & _ & _ & _ & N1 & N2 & N3 & B5 & B6 & _). specialize (B2 ltac:(lia)).
  pose proof (step_out_rising _ _ _ _ _ _ SA SIDE ST) as SO.
  pose proof (add_fee_counter _ _ _ _ _ (proj1 HLQ) HF N3 AF) as PC. destruct T as [T1 T2 T3 T4 T5 T6 T7 T8].
  assert (TEL : (sw_out w + sr_out r) * (P0 * sr_next r) <= U128MAX * E18 * (sr_next r - P0)) by (eapply telescope; [|apply B2|exact T6|exact SO]; unfold MIN_SQRT_PRICE in *; lia).
  destruct IC as [tk t' p1 -> NX -> TK CX _ ->|en -> NX -> _ ->|tk p2 ? ? ? ? ? ? ->|c' NX GT ->]; [| |done|].
  - pose proof (sg_index _ _ G _ _ _ TK) as IT. apply (cross_counter _ _ _ _ _ false) in CX. destruct CX as [C1 C2]. cbn in C1, C2.
    split; [|right; cbn; destruct TG as (_ & _ & TG & _); lia].
    constructor; unfold counter in *; cbn; rewrite ?C1, ?C2; try lia.
  - split; [|right; cbn; destruct TG as (_ & _ & TG & _); lia].
    constructor; unfold counter in *; cbn; lia.
  - split; [constructor; unfold counter in *; cbn; lia|left]. cbn. destruct NX as [NX|(-> & NX & R)]; [|done].
    destruct (Z.eq_dec (p_liq (sw_pool w)) 0) as [L0|L0]; [|rewrite (B5 eq_refl L0 NX); lia].
    exfalso. apply NX. unfold compute_swap_step in ST. rewrite L0 in ST. cbn in ST. apply Ok_inj in ST. by subst r.
Qed.

(** ** The whole loop *)
Lemma loop_state_inv s now k p (d by_in : bool) a lim w : clean_history s -> st_pools s !! k = Some p -> 0 <= a <= U128MAX ->
  (if d then lim < p_price p else p_price p < lim) -> loop_state s now k d by_in lim (mkSwapState p a 0 0 0 []) w ->
  loop_inv k d lim w /\ (sw_remaining w <> 0 -> p_liq (sw_pool w) = act s k (p_tick (sw_pool w))).
Proof.
  intros C E Ha D LS. pose proof (reachable_ereach _ (clean_history_reachable _ C)) as R.
  pose proof (ereach_store_geo _ _ _ R E) as G. pose proof (ereach_geo _ R _ _ E) as PG. pose proof (ereach_liq _ R) as LI.
  pose proof (creach_act _ (clean_history_creach _ C) _ _ E) as A.
  remember (mkSwapState p a 0 0 0 []) as w0 eqn:W0. induction LS as [w|w w1 w2 LS IH N EI].
  - subst w. split; [apply loop_start; [done|lia|done]|]. done.
  - destruct (IH W0) as (I1 & I2). specialize (I2 N). pose proof (loop_step _ _ _ _ _ _ _ _ G I1 N EI) as [PO I'].
    split; [done|]. intros NZ. eapply good_step_liq; [exact LI|exact G|exact I1| |exact I2]. constructor.
    destruct (io_move _ _ _ _ _ _ PO) as [(M1 & M2 & [M3|[M3 _]])|M]; [by left|done|by right].
Qed.

Definition stopped {A} (r : res A) : Prop := r = Err PriceLimitReached \/ r = Err TickLimitReached.
Definition thick (s : store) (k : pool_key) (c0 a : Z) : Prop :=
  forall c, c0 <= c -> let L := psum (fun po => if decide (po_key po = k) then (if (po_lower po <=? c) && (c <? po_upper po) then po_liq po else 0) else 0) (st_positions s) in
  L <> 0 -> a <= 34028 * L.

Lemma loop_rising s now k p lim a gas w : clean_history s -> st_pools s !! k = Some p -> 0 <= p_start p <= now -> now < 2 ^ 64 ->
  0 <= a <= 10 ^ 29 -> p_price p < lim -> 0 <= cf_protocol_fee (st_config s) <= PCT_ONE -> thick s k (p_tick p) a ->
  loop_state s now k false true lim (mkSwapState p a 0 0 0 []) w -> p_tick p <= p_tick (sw_pool w) -> totals k (p_price p) a w ->
  (sw_remaining w = 0 \/ get_max_tick (spacing k) - p_tick (sw_pool w) < Z.of_nat gas) ->
  (exists w', swap_loop gas s now k false true lim (end_tick false k) w = Ok w') \/ stopped (swap_loop gas s now k false true lim (end_tick false k) w).
Proof.
  intros C E TM TM' HA D HF TH. assert (A29 : 10 ^ 29 <= U128MAX) by (vm_compute; discriminate). assert (HA' : 0 <= a <= U128MAX) by lia.
  pose proof (reachable_ereach _ (clean_history_reachable _ C)) as R. pose proof (ereach_store_geo _ _ _ R E) as G. destruct (sg_sp _ _ G) as [S1 S2].
  revert w. induction gas as [|g IH]; intros w LS MT T GA; cbn [swap_loop]; destruct (Z.eqb_spec (sw_remaining w) 0) as [Z0|Z0].
  - left. eauto.
  - exfalso. destruct GA as [GA|GA]; [done|]. destruct (loop_state_inv s now k p false true a lim w C E HA' D LS) as [I _].
    destruct (lv_weak _ _ _ _ I) as (WL & _). pose proof (legal_top _ _ S1 WL). rewrite (get_max_top _ S1) in GA. lia.
  - left. eauto.
  - destruct GA as [GA|GA]; [done|]. destruct (loop_state_inv s now k p false true a lim w C E HA' D LS) as [I AC]. specialize (AC Z0).
    assert (CR : crossable s now k w).
    { intros t TI TC TD. destruct (C43_crossing_partial s now k p false true a lim w t C E TM TM') as (tk & TK & CX);
        [change (2 ^ 128) with (U128MAX + 1); lia|exact D|exact LS|exact Z0|exact TI|split; [exact TC|exact TD]|].
      exists tk. split; [exact TK|]. intros q Q1 Q2 Q3. destruct (CX q Q1 Q2 Q3) as (t' & q' & X & _). eauto. }
    destruct (iter_rising_fwd s now k lim w (p_price p) a G I Z0 T ltac:(lia) HF) as [(w1 & E1)|[E1|E1]]; [|exact CR| | |].
    + intros NL. rewrite AC in *. apply (TH _ MT). exact NL.
    + rewrite E1. cbn [bind]. destruct (iter_rising_keeps _ _ _ _ _ _ _ _ G I Z0 T HF E1) as [T1 UP].
      pose proof (loop_step _ _ _ _ _ _ _ _ G I Z0 E1) as [PO I1].
      apply IH; [eapply ls_next; [exact LS|exact Z0|exact E1]| |exact T1|].
      * etransitivity; [exact MT|]. eapply rest_mono; [exact S1|apply (lv_rest _ _ _ _ I); by left|apply (lv_rest _ _ _ _ I1); by left|apply (io_dir _ _ _ _ _ _ PO)].
      * destruct UP as [UP|UP]; [by left|right; lia].
    + rewrite E1. right. left. reflexivity.
    + rewrite E1. right. right. reflexivity.
Qed.

(** * C25 *)
Theorem C25_rising_input_partial e i s k p a lim :
  clean_history s -> env_typed e i = true -> st_pools s !! k = Some p -> 0 <= p_start p <= e_millis e ->
  cf_protocol_fee (st_config s) <= 10 ^ 12 -> 443636 < Z.of_nat (e_gas e) ->
  0 < a <= 10 ^ 29 -> p_proty p + a < 2 ^ 128 -> p_price p < lim < 2 ^ 128 ->
  can_pay e i (pk_y k) a ->
  (* wherever there is any liquidity ahead, there is at least 1/34028 of the offer *)
  (forall c, p_tick p <= c ->
     let L := psum (fun po => if decide (po_key po = k) then (if (po_lower po <=? c) && (c <? po_upper po) then po_liq po else 0) else 0) (st_positions s) in
     L <> 0 -> a <= 34028 * L) ->
  (exists s' ms out, execute e i s (Swap k false a true lim) = Ok (s', ms, [("amount_in"%string, a); ("amount_out"%string, out)]) /\ 0 < out) \/
  execute e i s (Swap k false a true lim) = Err PriceLimitReached \/
  execute e i s (Swap k false a true lim) = Err TickLimitReached \/
  execute e i s (Swap k false a true lim) = Err NoGainSwap.
Proof.
  intros C T E TM PF GA HA ROOM LIM CP TH. change (10 ^ 12) with PCT_ONE in PF. change (2 ^ 128) with (U128MAX + 1) in *.
  assert (A29 : 10 ^ 29 <= U128MAX) by (vm_compute; discriminate).
  pose proof (clean_history_reachable _ C) as R. pose proof (reachable_ereach _ R) as ER.
  pose proof (ereach_store_geo _ _ _ ER E) as G. pose proof (ereach_geo _ ER _ _ E) as [PG PL]. destruct (sg_sp _ _ G) as [S1 S2]. pose proof (sg_fee _ _ G) as SF.
  pose proof (co_protocol _ (ereach_config _ ER)) as PF0. pose proof (ereach_prot _ ER _ _ E) as [_ PR].
  pose proof PG as (WL & WP & _). pose proof (legal_price_range _ _ WL) as CRG.
  assert (M : msg_typed (Swap k false a true lim) = true).
  { cbn [msg_typed]. unfold key_ok, tier_ok, u64_ok, u128_ok. unfold MIN_SQRT_PRICE, PCT_ONE, U64MAX in *. rewrite !andb_true_iff. repeat split; apply in_range_spec; lia. }
  assert (NW : e_millis e < 2 ^ 64).
  { unfold env_typed in T. apply andb_prop in T. destruct T as [T _]. apply andb_prop in T. destruct T as [_ T]. apply in_range_spec in T. unfold e_millis.
    apply Z.div_lt_upper_bound; [lia|]. unfold U64MAX in T. lia. }
  assert (LR : (exists w', swap_loop (e_gas e) s (e_millis e) k false true lim (end_tick false k) (mkSwapState p a 0 0 0 []) = Ok w') \/
               stopped (swap_loop (e_gas e) s (e_millis e) k false true lim (end_tick false k) (mkSwapState p a 0 0 0 []))).
  { eapply (loop_rising s (e_millis e) k p lim a); [exact C|exact E|lia|exact NW|lia|lia|lia|exact TH|constructor|cbn; lia| |].
    - constructor; unfold counter; cbn; try lia.
    - right. cbn. pose proof (legal_top _ _ S1 WL). rewrite (get_max_top _ S1). pose proof (top_legal _ S1) as [TL _]. unfold MAX_TICK in TL. lia. }
  unfold execute. rewrite T, M. cbn [andb dispatch]. unfold swap, swap_internal, calculate_swap.
  rewrite (proj2 (Z.eqb_neq a 0)) by lia. unfold get_pool. rewrite E. cbn [bind].
  rewrite (proj2 (Z.leb_gt lim (p_price p))) by lia. rewrite (proj2 (Z.ltb_ge lim MIN_SQRT_PRICE)) by lia. cbn [orb]. change (get_max_tick (spacing k)) with (end_tick false k).
  destruct LR as [(w & LR)|[LR|LR]]; rewrite LR; cbn [bind]; [|tauto|tauto].
  destruct (Z.eqb_spec (sw_out w) 0) as [|O]; [tauto|]. cbn [bind cr_in cr_out cr_ticks cr_pool].
  assert (CS : calculate_swap (e_gas e) s (e_millis e) k false a true lim =
    Ok (mkCalc (sw_in w) (sw_out w) (p_price p) (p_price (sw_pool w)) (sw_fee w) (sw_pool w) (sw_ticks w))).
  { unfold calculate_swap. rewrite (proj2 (Z.eqb_neq a 0)) by lia. unfold get_pool. rewrite E. cbn [bind].
    rewrite (proj2 (Z.leb_gt lim (p_price p))) by lia. rewrite (proj2 (Z.ltb_ge lim MIN_SQRT_PRICE)) by lia. cbn [orb]. change (get_max_tick (spacing k)) with (end_tick false k).
    rewrite LR. cbn [bind]. by rewrite (proj2 (Z.eqb_neq _ 0) O). }
  assert (A0 : 0 <= a) by lia. pose proof (calculate_swap_exact_in _ _ _ _ _ _ _ _ A0 CS) as CI. cbn [cr_in] in CI.
  destruct (calculate_swap_frame _ _ _ _ _ _ _ _ _ CS) as (p' & _ & _ & _ & _ & F & _). cbn [cr_ticks] in F.
  destruct (update_ticks_total s k (sw_ticks w)) as [s1 ->]; [apply crossed_exists; [by apply ereach_indexed|done]|]. cbn [bind].
  destruct (calculate_swap_out _ _ _ _ _ _ _ _ _ CS) as [V _]. cbn [cr_out] in V.
  destruct (transfer_from_total e i (pk_y k) a A0 CP) as [m0 E0]. rewrite CI, E0. cbn [bind].
  left. eexists _, _, _. split; [reflexivity|]. cbn [cr_out]. lia.
Qed.

(** *** An example: the pool of the scenario, with its positions *)
Lemma thick_positions s k c0 a : reachable s -> (forall x po, st_positions s !! x = Some po -> po_key po = k -> a <= 34028 * po_liq po) -> thick s k c0 a.
Proof.
  intros R H c _. cbn zeta. set (f := fun po => _). intros NZ.
  assert (N : forall x po, st_positions s !! x = Some po -> 0 <= f po).
  { intros x po E. unfold f. pose proof (lq_pos _ (ereach_liq _ (reachable_ereach _ R)) _ _ E) as [(V & _) _]. destruct (decide _); [|lia]. destruct (_ && _); lia. }
  destruct (psum_pos f (st_positions s) N) as (x & po & E & P); [pose proof (psum_nonneg f (st_positions s) N); lia|].
  pose proof (psum_ge f (st_positions s) x po N E) as GE. assert (f po <= po_liq po /\ po_key po = k) as [B K].
  { unfold f in *. destruct (decide (po_key po = k)); [|lia]. split; [|done]. destruct (_ && _); lia. }
  specialize (H x po E K). unfold f in P. rewrite decide_True in P by done.
  assert (f po = po_liq po) by (unfold f; rewrite decide_True by done; destruct (_ && _); lia). lia.
Qed.
Lemma loop_gas g g' s now k d by_in lim tl w w' : swap_loop g s now k d by_in lim tl w = Ok w' -> (g <= g')%nat -> swap_loop g' s now k d by_in lim tl w = Ok w'.
Proof.
  revert g' w. induction g as [|g IH]; intros g' w H L.
  - cbn in H. destruct (sw_remaining w =? 0) eqn:Z0; [|done]. destruct g'; cbn; rewrite Z0; exact H.
  - destruct g' as [|g']; [lia|]. cbn in *. destruct (sw_remaining w =? 0); [exact H|]. inv_bind H as w1 E. rewrite E. cbn [bind]. apply IH; [exact H|lia].
Qed.
Definition long_env (e : env) : env := mkEnv (e_height e) (e_nanos e) (e_self e) (Z.to_nat 443637) (e_addr_ok e) (e_utf8_ok e).
Lemma swap_gas e i s k d a by_in lim r : (e_gas e <= Z.to_nat 443637)%nat -> execute e i s (Swap k d a by_in lim) = Ok r -> execute (long_env e) i s (Swap k d a by_in lim) = Ok r.
Proof.
  intros G H. unfold execute in *. change (env_typed (long_env e) i) with (env_typed e i). destruct (_ && _); [|done]. cbn [dispatch] in *. unfold swap, swap_internal in *.
  inv_bind H as [[s1 m1] r1] E. inv_bind E as c EC.
  assert (CG : calculate_swap (e_gas (long_env e)) s (e_millis (long_env e)) k d a by_in lim = Ok c).
  { change (e_millis (long_env e)) with (e_millis e). change (e_gas (long_env e)) with (Z.to_nat 443637). unfold calculate_swap in *. destruct (a =? 0); [done|].
    inv_bind EC as p EP. rewrite EP. cbn [bind] in *. match goal with H : (if ?b then Err WrongLimit else _) = _ |- _ => destruct b; [done|] end.
    inv_bind EC as w EW. rewrite (loop_gas _ _ _ _ _ _ _ _ _ _ _ EW G). cbn [bind]. exact EC. }
  rewrite CG. cbn [bind]. change (asset_transfer_from (long_env e)) with (asset_transfer_from e). change (asset_transfer (long_env e)) with (asset_transfer e).
  rewrite E. cbn [bind]. exact H.
Qed.
Lemma ex_C25_holds : exists s' ms, execute v_env (v_info "bob") sc0 (Swap v_key false 5000 true MAX_SQRT_PRICE) = Ok (s', ms, [("amount_in"%string, 5000); ("amount_out"%string, 4970)]).
Proof.
  assert (H : match execute v_env (v_info "bob") sc0 (Swap v_key false 5000 true MAX_SQRT_PRICE) with Ok (_, _, [(a, b); (c, d)]) => (a, b, c, d) = ("amount_in", 5000, "amount_out", 4970)%string | _ => False end) by (vm_compute; reflexivity).
  destruct (execute _ _ _ _) as [[[s' ms] at']|?|]; [|destruct H|destruct H]. exists s', ms.
  destruct at' as [|[a b] [|[c d] [|? ?]]]; try exact (False_ind _ H). injection H as -> -> -> ->. reflexivity.
Qed.
Example ex_C25 : exists p s' ms, clean_history sc0 /\ env_typed (long_env v_env) (v_info "bob") = true /\ st_pools sc0 !! v_key = Some p /\ 0 <= p_start p <= e_millis (long_env v_env) /\
  cf_protocol_fee (st_config sc0) = 10 ^ 10 /\ 443636 < Z.of_nat (e_gas (long_env v_env)) /\ p_proty p + 5000 < 2 ^ 128 /\ p_price p < MAX_SQRT_PRICE /\
  can_pay (long_env v_env) (v_info "bob") (pk_y v_key) 5000 /\ thick sc0 v_key (p_tick p) 5000 /\
  execute (long_env v_env) (v_info "bob") sc0 (Swap v_key false 5000 true MAX_SQRT_PRICE) = Ok (s', ms, [("amount_in"%string, 5000); ("amount_out"%string, 4970)]).
Proof.
  destruct ex_C25_holds as (s' & ms & H).
  assert (Q : exists p, st_pools sc0 !! v_key = Some p /\ (p_start p = 1000 /\ p_proty p = 0 /\ p_price p = 999880762839527014734147)) by (apply some_inv; vm_compute; repeat split).
  destruct Q as (p & EP & P1 & P2 & P3). exists p, s', ms. rewrite P1, P2, P3.
  split; [exact sc0_clean|]. split; [vm_compute; reflexivity|]. split; [exact EP|]. split; [split; vm_compute; discriminate|].
  split; [vm_compute; reflexivity|]. split; [unfold long_env; cbn [e_gas]; rewrite Z2Nat.id; lia|]. split; [vm_compute; reflexivity|]. split; [vm_compute; reflexivity|].
  split; [left; vm_compute; reflexivity|]. split.
  - apply thick_positions; [exact sc0_reachable|]. intros x po E _.
    assert (A : forallb (fun xp : _ * position => 1 <=? po_liq xp.2) (map_to_list (st_positions sc0)) = true) by (vm_compute; reflexivity).
    rewrite forallb_forall in A. specialize (A (x, po)). rewrite <- elem_of_list_In, elem_of_map_to_list in A. specialize (A E). cbn in A. lia.
  - apply (swap_gas v_env); [|exact H]. change (e_gas v_env) with 1000%nat. lia.
Qed.

(** ** The general statement is false *)
(** an exact output that the pool can pay, and pays for an exact input, is refused: the rest of the output is compared with the liquidity of the range being left *)
Definition b_calls : list (string * exec_msg) :=
  [("alice", AddFeeTier v_tier); ("alice", CreatePool "tokeny" "tokenx" v_tier SP_ONE 0);
   ("alice", CreatePosition v_key (-10) 10 1000000000000 SP_ONE SP_ONE);
   ("bob", CreatePosition v_key (-30) (-10) 10000000000000000 SP_ONE SP_ONE);
   ("bob", CreatePosition v_key 10 30 10000000000000000 SP_ONE SP_ONE)]%string.
Definition amount_out (r : response) : Z := match r.2 with [_; (_, v)] => v | _ => 0 end.
Lemma refused_inv {A} (r : res A) x : match r with Err y => y = x | _ => False end -> r = Err x.
Proof. destruct r; [done| |done]. by intros ->. Qed.

Theorem C25_exact_output_refuted : exists s k, clean_history s /\
  (exists r, execute v_env (v_info "carol") s (Swap k true 2100000 true MIN_SQRT_PRICE) = Ok r /\ 2000000 <= amount_out r) /\
  execute v_env (v_info "carol") s (Swap k true 2000000 false MIN_SQRT_PRICE) = Err ESub /\
  (exists r, execute v_env (v_info "carol") s (Swap k false 2100000 true MAX_SQRT_PRICE) = Ok r /\ 2000000 <= amount_out r) /\
  execute v_env (v_info "carol") s (Swap k false 2000000 false MAX_SQRT_PRICE) = Err BigLiquidityOverflow.
Proof.
  assert (H : match start 0 b_calls with
    | Ok s => is_ok (clean_start 0 b_calls) = true /\
        match execute v_env (v_info "carol") s (Swap v_key true 2100000 true MIN_SQRT_PRICE) with Ok r => (2000000 <=? amount_out r) = true | _ => False end /\
        match execute v_env (v_info "carol") s (Swap v_key true 2000000 false MIN_SQRT_PRICE) with Err y => y = ESub | _ => False end /\
        match execute v_env (v_info "carol") s (Swap v_key false 2100000 true MAX_SQRT_PRICE) with Ok r => (2000000 <=? amount_out r) = true | _ => False end /\
        match execute v_env (v_info "carol") s (Swap v_key false 2000000 false MAX_SQRT_PRICE) with Err y => y = BigLiquidityOverflow | _ => False end
    | _ => False end) by (vm_compute; repeat split).
  apply done_inv in H. destruct H as (s & S & C & H1 & H2 & H3 & H4). exists s, v_key. split; [exact (clean_by_check _ _ _ S C)|].
  apply done_inv in H1, H3. destruct H1 as (r1 & H1 & G1), H3 as (r3 & H3 & G3). apply Z.leb_le in G1, G3. apply refused_inv in H2, H4.
  split; [exists r1; exact (conj H1 G1)|]. split; [exact H2|]. split; [exists r3; exact (conj H3 G3)|exact H4].
Qed.

(** an exact input that the pool absorbs in two parts is refused as a whole: a dust position sits in front of the liquidity *)
Definition d_calls : list (string * exec_msg) :=
  [("alice", AddFeeTier v_tier); ("alice", CreatePool "tokeny" "tokenx" v_tier SP_ONE 0);
   ("alice", CreatePosition v_key (-10) 10 1000000 SP_ONE SP_ONE);
   ("bob", CreatePosition v_key 10 30 1000000000000000000000000 SP_ONE SP_ONE)]%string.
Theorem C25_dust_refuted : exists s k, clean_history s /\
  execute v_env (v_info "carol") s (Swap k false 1000000000000000 true MAX_SQRT_PRICE) = Err ECast /\
  exists r r', execute v_env (v_info "carol") s (Swap k false 100000000000000 true MAX_SQRT_PRICE) = Ok r /\
    execute v_env (v_info "carol") r.1.1 (Swap k false 900000000000000 true MAX_SQRT_PRICE) = Ok r' /\ 990000000000000 <= amount_out r + amount_out r'.
Proof.
  assert (H : match start 0 d_calls with
    | Ok s => is_ok (clean_start 0 d_calls) = true /\
        match execute v_env (v_info "carol") s (Swap v_key false 1000000000000000 true MAX_SQRT_PRICE) with Err y => y = ECast | _ => False end /\
        match execute v_env (v_info "carol") s (Swap v_key false 100000000000000 true MAX_SQRT_PRICE) with
        | Ok r => match execute v_env (v_info "carol") r.1.1 (Swap v_key false 900000000000000 true MAX_SQRT_PRICE) with
                  | Ok r' => (990000000000000 <=? amount_out r + amount_out r') = true | _ => False end
        | _ => False end
    | _ => False end) by (vm_compute; repeat split).
  apply done_inv in H. destruct H as (s & S & C & H1 & H2). exists s, v_key. split; [exact (clean_by_check _ _ _ S C)|].
  apply refused_inv in H1. split; [exact H1|]. apply done_inv in H2. destruct H2 as (r & H2 & H3). apply done_inv in H3. destruct H3 as (r' & H3 & H4).
  apply Z.leb_le in H4. exists r, r'. exact (conj H2 (conj H3 H4)).
Qed.

(** an exact input above 2^256 / 10^48 is refused however deep the pool is *)
Definition l_calls : list (string * exec_msg) :=
  [("alice", AddFeeTier v_tier); ("alice", CreatePool "tokeny" "tokenx" v_tier SP_ONE 0);
   ("alice", CreatePosition v_key (-221810) 221810 1000000000000000000000000000000000 SP_ONE SP_ONE)]%string.
Theorem C25_large_refuted : exists s k, clean_history s /\
  execute v_env (v_info "carol") s (Swap k false (2 * 10 ^ 29) true MAX_SQRT_PRICE) = Err EMul /\
  exists r r', execute v_env (v_info "carol") s (Swap k false (10 ^ 29) true MAX_SQRT_PRICE) = Ok r /\
    execute v_env (v_info "carol") r.1.1 (Swap k false (10 ^ 29) true MAX_SQRT_PRICE) = Ok r' /\ 10 ^ 26 <= amount_out r + amount_out r'.
Proof.
  assert (H : match start 0 l_calls with
    | Ok s => is_ok (clean_start 0 l_calls) = true /\
        match execute v_env (v_info "carol") s (Swap v_key false (2 * 10 ^ 29) true MAX_SQRT_PRICE) with Err y => y = EMul | _ => False end /\
        match execute v_env (v_info "carol") s (Swap v_key false (10 ^ 29) true MAX_SQRT_PRICE) with
        | Ok r => match execute v_env (v_info "carol") r.1.1 (Swap v_key false (10 ^ 29) true MAX_SQRT_PRICE) with
                  | Ok r' => (10 ^ 26 <=? amount_out r + amount_out r') = true | _ => False end
        | _ => False end
    | _ => False end) by (vm_compute; repeat split).
  apply done_inv in H. destruct H as (s & S & C & H1 & H2). exists s, v_key. split; [exact (clean_by_check _ _ _ S C)|].
  apply refused_inv in H1. split; [exact H1|]. apply done_inv in H2. destruct H2 as (r & H2 & H3). apply done_inv in H3. destruct H3 as (r' & H3 & H4).
  apply Z.leb_le in H4. exists r, r'. exact (conj H2 (conj H3 H4)).
Qed.
