(** C25, continued: what can stop a swap that asks for an exact output. *)
From Verif Require Import Base Decimal SqrtPrice Clamm Log FeeGrowth Types Tick Pool Position Tickmap State Swap Exec Tactics
  PriceProofs LogProofs ClammProofs PropClamm BitmapProofs Frame Handlers History Basic Ledger Scenario Vectors SwapInv SwapGeo SwapLoop Modify PSum LiqInv Geo Clean PropLiq PropTrade
  PropSwap Flow PropSolv Forward PropFunds PropProt PropBlock PropFall.
From stdpp Require Import gmap strings.
From Coq Require Import Lia.
Open Scope Z_scope.

(** ** What a step to a price can cost at most, for any liquidity *)
Definition HYP : Z := 2 * E18 * U128MAX.
Definition cost (d : bool) (a b : Z) : Z := if d then HYP / b - HYP / a + (a - b) else 340282368 * (b - a).
Lemma cost_add d a b c : cost d a b + cost d b c = cost d a c.
Proof. unfold cost. destruct d; lia. Qed.
Definition ahead (d : bool) (a b : Z) : Prop := if d then b <= a else a <= b.
Lemma cost_bound d a b : price_ok a -> price_ok b -> ahead d a b -> 0 <= cost d a b <= 5 * 10 ^ 37.
Proof.
  unfold price_ok, ahead, cost. intros A B H. destruct d; [|unfold MIN_SQRT_PRICE, MAX_SQRT_PRICE in *; lia].
  assert (0 < MIN_SQRT_PRICE) by reflexivity.
  assert (HYP / b <= HYP / MIN_SQRT_PRICE) by (apply Z.div_le_compat_l; [discriminate|lia]).
  assert (0 <= HYP / a) by (apply Z.div_pos; [discriminate|lia]).
  assert (HYP / a <= HYP / b) by (apply Z.div_le_compat_l; [discriminate|lia]).
  assert (HYP / MIN_SQRT_PRICE <= 45 * 10 ^ 36) by (vm_compute; discriminate).
  unfold MIN_SQRT_PRICE, MAX_SQRT_PRICE in *. lia.
Qed.
Lemma hyp_gap a b : 0 < b -> b < a -> HYP * (a - b) < a * b * (HYP / b - HYP / a + 1).
Proof.
  intros B A. pose proof (floor_spec HYP b B) as F1. pose proof (floor_spec HYP a ltac:(lia)) as F2.
  set (x := HYP / b) in *. set (y := HYP / a) in *. clearbody x y.
  assert (a * HYP < a * (b * (x + 1))) by (apply Z.mul_lt_mono_pos_l; lia).
  assert (b * (a * y) <= b * HYP) by (apply Z.mul_le_mono_nonneg_l; lia). lia.
Qed.
Lemma in_x_cost p q L r : price_ok p -> price_ok q -> q <= p -> 0 < L <= U128MAX -> get_delta_x q p L true = Ok r ->
  0 <= r <= cost true p q /\ r <= 2 * L.
Proof.
  unfold price_ok. intros HP HQ LE HL H. assert (M0 : 0 < MIN_SQRT_PRICE) by reflexivity.
  apply delta_x_up in H; [|lia|lia]. destruct H as ([R0 _] & D0 & N1 & _). pose proof (numx_spec q p L) as [N2 _]. rewrite Z.abs_neq in N2 by lia.
  pose proof (floor_spec (q * p) SP_ONE ltac:(reflexivity)) as F. set (n := numx q p L) in *. set (dd := q * p / SP_ONE) in *. clearbody n dd.
  assert (QP : MIN_SQRT_PRICE * MIN_SQRT_PRICE <= q * p) by (apply Z.mul_le_mono_nonneg; lia).
  assert (D2 : q * p <= 2 * SP_ONE * dd) by (unfold MIN_SQRT_PRICE, SP_ONE in *; lia).
  destruct (Z.eq_dec p q) as [->|NE].
  { assert (n <= 0) by (unfold LIQ_ONE in *; nia). assert (r <= 0) by nia. unfold cost. lia. }
  destruct (Z.le_gt_cases r 1) as [R1|R1].
  { split; [|lia]. unfold cost. assert (HYP / p <= HYP / q) by (apply Z.div_le_compat_l; [discriminate|lia]). lia. }
  assert (K : (r - 1) * (q * p) < 2 * E18 * (L * (p - q))).
  { assert ((r - 1) * (q * p) <= (r - 1) * (2 * SP_ONE * dd)) by (apply Z.mul_le_mono_nonneg_l; lia).
    assert (2 * SP_ONE * (dd * (r - 1)) < 2 * SP_ONE * n) by (apply Z.mul_lt_mono_pos_l; [reflexivity|lia]).
    assert (2 * SP_ONE * n <= 2 * E18 * (L * (p - q))) by (unfold SP_ONE, LIQ_ONE, E18 in *; lia). lia. }
  split.
  - split; [lia|]. pose proof (hyp_gap p q ltac:(lia) ltac:(lia)) as HG.
    assert (2 * E18 * (L * (p - q)) <= HYP * (p - q)).
    { unfold HYP. rewrite !Z.mul_assoc. apply Z.mul_le_mono_nonneg_r; [lia|]. apply Z.mul_le_mono_nonneg_l; [discriminate|lia]. }
    assert ((r - 1) * (q * p) < (HYP / q - HYP / p + 1) * (q * p)) by lia.
    assert (r - 1 < HYP / q - HYP / p + 1) by (apply (Z.mul_lt_mono_pos_r (q * p)); [nia|lia]). unfold cost. lia.
  - assert (2 * E18 * (L * (p - q)) <= 2 * E18 * L * p) by (rewrite Z.mul_assoc; apply Z.mul_le_mono_nonneg_l; [unfold E18; lia|lia]).
    assert ((r - 1) * q * p < 2 * E18 * L * p) by lia.
    assert ((r - 1) * q < 2 * E18 * L) by (apply (Z.mul_lt_mono_pos_r p); lia).
    assert ((r - 1) * MIN_SQRT_PRICE <= (r - 1) * q) by (apply Z.mul_le_mono_nonneg_l; lia).
    unfold MIN_SQRT_PRICE, E18 in *. lia.
Qed.
Lemma in_y_cost p q L r : price_ok p -> price_ok q -> p <= q -> 0 < L <= U128MAX -> get_delta_y p q L true = Ok r ->
  0 <= r <= cost false p q /\ r <= 2 * L.
Proof.
  unfold price_ok. intros HP HQ LE HL H. apply delta_y_up in H. destruct H as ([R0 _] & H & _). rewrite Z.abs_neq in H by lia.
  destruct (Z.eq_dec p q) as [->|NE]; [unfold cost, E30 in *; lia|].
  assert ((q - p) * L <= (q - p) * U128MAX) by (apply Z.mul_le_mono_nonneg_l; lia).
  assert ((q - p) * L <= E30 * L) by (apply Z.mul_le_mono_nonneg_r; [lia|unfold MIN_SQRT_PRICE, MAX_SQRT_PRICE, E30 in *; lia]).
  unfold cost, U128MAX, E30 in *. lia.
Qed.

(** ** The price after paying out an amount *)
Lemma next_y_out_iff P L y : price_ok P -> 0 < L <= U128MAX -> 0 <= y <= U128MAX ->
  (exists n, get_next_sqrt_price_y_down P L y false = Ok n) <-> y * E30 <= L * P.
Proof.
  unfold price_ok. intros HP HL Hy. unfold get_next_sqrt_price_y_down, checked_big_div_values_up.
  rewrite ckp_yes by (split; [unfold SP_ONE; lia|etransitivity; [apply Z.mul_le_mono_nonneg_r; [discriminate|apply Hy]|vm_compute; discriminate]]). cbn [bind].
  rewrite ck_yes by (split; [lia|etransitivity; [apply Z.mul_le_mono_nonneg_r; [discriminate|apply HL]|vm_compute; discriminate]]). cbn [bind].
  assert (YB : 0 <= y * SP_ONE * SP_ONE <= U128MAX * SP_ONE * SP_ONE) by (unfold SP_ONE, U128MAX in *; lia).
  assert (LB : 0 < L * 1000000000000000000 <= U128MAX * 1000000000000000000) by lia.
  assert (X : U128MAX * SP_ONE * SP_ONE + U128MAX * 1000000000000000000 <= U320MAX) by (vm_compute; discriminate).
  rewrite ck_yes by lia. cbn [bind]. rewrite ck_yes by lia. cbn [bind]. rewrite ck_yes by lia. cbn [bind].
  unfold cdiv. rewrite (proj2 (Z.eqb_neq _ 0)) by lia. cbn [bind].
  pose proof (ceil_spec (y * SP_ONE * SP_ONE) (L * 1000000000000000000) ltac:(lia)) as CS.
  set (q := (y * SP_ONE * SP_ONE + (L * 1000000000000000000 - 1)) / (L * 1000000000000000000)) in *.
  assert (Q0 : 0 <= q) by (apply Z.div_pos; lia). clearbody q.
  assert (CS' : L * (q - 1) < y * E30 <= L * q) by (unfold SP_ONE, E30 in *; lia).
  assert (MM : MAX_SQRT_PRICE <= U128MAX) by (vm_compute; discriminate).
  split.
  - intros [n H]. inv_bind H as q0 E. apply ck_ok in E. destruct E as [-> E]. unfold sub_e in H. apply ck_ok in H. destruct H as [-> H].
    etransitivity; [apply CS'|]. apply Z.mul_le_mono_nonneg_l; lia.
  - intros H. assert (q <= P).
    { assert (L * (q - 1) < L * P) by lia. assert (q - 1 < P) by (apply (Z.mul_lt_mono_pos_l L); lia). lia. }
    rewrite ck_yes by lia. cbn [bind]. unfold sub_e. rewrite ck_yes by lia. eauto.
Qed.
Lemma next_x_out_fwd P L x t : price_ok P -> 0 < L <= U128MAX -> 0 < x <= U128MAX -> 0 < L * E18 - P * x -> 0 <= t <= U128MAX ->
  P * L * E18 + SP_ONE <= t * (L * E18 - P * x) -> exists n, get_next_sqrt_price_x_up P L x false = Ok n /\ n <= t.
Proof.
  unfold price_ok. intros HP HL Hx HD HT HB. unfold get_next_sqrt_price_x_up. rewrite (proj2 (Z.eqb_neq x 0)) by lia.
  rewrite ck_yes by (split; [lia|etransitivity; [apply Z.mul_le_mono_nonneg_r; [discriminate|apply HL]|vm_compute; discriminate]]). cbn [bind].
  unfold mul_to_value, mul_to_value_up. rewrite Z.div_1_r. fold (pl_up P L). change 1000000000000000000 with E18 in *.
  assert (PX : 0 <= P * x) by (unfold MIN_SQRT_PRICE in *; apply Z.mul_nonneg_nonneg; lia).
  assert (LX : L * E18 <= U256MAX) by (etransitivity; [apply Z.mul_le_mono_nonneg_r; [discriminate|apply HL]|vm_compute; discriminate]).
  rewrite ck_yes by lia. cbn [bind].
  pose proof (pl_up_spec P L) as PS. set (num := pl_up P L) in *. set (den := L * E18 - P * x) in *.
  assert (N0 : 0 <= num) by (unfold num, pl_up; apply Z.div_pos; [unfold MIN_SQRT_PRICE, LIQ_ONE in *; nia|reflexivity]). clearbody num.
  assert (DB : 0 < den <= U256MAX) by lia. clearbody den.
  assert (PLB : P * L <= MAX_SQRT_PRICE * U128MAX) by (unfold MIN_SQRT_PRICE in *; apply Z.mul_le_mono_nonneg; lia).
  assert (NB : 0 <= num * SP_ONE <= 10 ^ 90) by (unfold LIQ_ONE, SP_ONE, MAX_SQRT_PRICE, U128MAX in *; lia).
  assert (NT : num * SP_ONE <= t * den) by (unfold LIQ_ONE, SP_ONE, E18 in *; lia).
  assert (MX : 10 ^ 90 + U256MAX <= U320MAX) by (vm_compute; discriminate).
  unfold checked_big_div_values_up. rewrite ck_yes by lia. cbn [bind]. rewrite ck_yes by lia. cbn [bind]. rewrite ck_yes by lia. cbn [bind].
  unfold cdiv. rewrite (proj2 (Z.eqb_neq _ 0)) by lia. cbn [bind].
  pose proof (ceil_spec (num * SP_ONE) den ltac:(lia)) as CS. set (q := (num * SP_ONE + (den - 1)) / den) in *.
  assert (Q0 : 0 <= q) by (apply Z.div_pos; lia). clearbody q.
  assert (q <= t). { assert (den * (q - 1) < den * t) by lia. assert (q - 1 < t) by (apply (Z.mul_lt_mono_pos_l den); lia). lia. }
  rewrite ck_yes by lia. eauto.
Qed.

(** ** A step *)
Lemma fee_part v fee : 0 <= v <= U128MAX -> 0 <= fee <= PCT_ONE -> exists q, big_mul_up PCT_ONE v fee = Ok q /\ 0 <= q <= v.
Proof.
  intros V F. pose proof (cut_le fee v F (proj1 V)) as CU. unfold big_mul_up. exists ((v * fee + (PCT_ONE - 1)) / PCT_ONE). split; [apply ckp_yes; lia|exact CU].
Qed.
Lemma step_out_fwd (d : bool) cur target L b fee : price_ok cur -> price_ok target -> (if d then target <= cur else cur < target) -> liq_ok L -> 0 <= b <= U128MAX ->
  0 <= fee <= PCT_ONE -> exists r, compute_swap_step cur target L b false fee = Ok r /\ price_ok (sr_next r) /\ ahead d cur (sr_next r) /\ ahead d (sr_next r) target /\
    0 <= sr_in r <= cost d cur (sr_next r) /\ sr_in r <= 2 * L /\ 0 <= sr_fee r <= sr_in r /\ 0 <= sr_out r <= b.
Proof.
  intros HC HT LT HL HB HF. unfold liq_ok in HL. unfold compute_swap_step.
  destruct (Z.eqb_spec L 0) as [->|L0].
  { eexists. split; [reflexivity|]. cbn. split; [exact HT|]. split; [unfold ahead; destruct d; lia|]. split; [unfold ahead; destruct d; lia|].
    pose proof (cost_bound d cur target HC HT ltac:(unfold ahead; destruct d; lia)). lia. }
  assert (LP : 0 < L <= U128MAX) by lia. assert (LO : liq_ok L) by exact HL.
  destruct d.
  - rewrite (proj2 (Z.leb_le _ _) LT). destruct (delta_y_fwd target cur L false HT HC LO) as [ao EO]. rewrite EO. cbn [bind].
    assert (FIN : forall n, price_ok n -> target <= n <= cur -> exists r,
      (let* ain := (if negb (target =? n) || negb false then get_delta_x n cur L true else Ok 0) in
       let* aout := (if negb (target =? n) || false then get_delta_y n cur L false else Ok ao) in
       let aout := if negb false && (b <? aout) then b else aout in
       let* fee_amount := (if false && negb (target =? n) then sub_p b ain else big_mul_up PCT_ONE ain fee) in
       Ok (mkSwapResult n ain aout fee_amount)) = Ok r /\ price_ok (sr_next r) /\ ahead true cur (sr_next r) /\ ahead true (sr_next r) target /\
    0 <= sr_in r <= cost true cur (sr_next r) /\ sr_in r <= 2 * L /\ 0 <= sr_fee r <= sr_in r /\ 0 <= sr_out r <= b).
    { intros n HN NB. rewrite orb_true_r. destruct (delta_x_fwd n cur L true HN HC LO) as [ai EI]. rewrite EI. cbn [bind].
      destruct (in_x_cost cur n L ai HC HN ltac:(lia) LP EI) as [I1 I2]. pose proof (cost_bound true cur n HC HN ltac:(unfold ahead; lia)) as CB.
      destruct (fee_part ai fee ltac:(unfold U128MAX; lia) HF) as (q & Q & QB).
      assert (AO : exists o, (if negb (target =? n) || false then get_delta_y n cur L false else Ok ao) = Ok o /\ 0 <= o).
      { destruct (negb _ || false); [|apply delta_y_down in EO; exists ao; split; [reflexivity|lia]]. destruct (delta_y_fwd n cur L false HN HC LO) as [o O]. exists o. split; [exact O|]. apply delta_y_down in O. lia. }
      destruct AO as (o & -> & O0). cbn [bind negb andb]. rewrite Q. cbn [bind]. eexists. split; [reflexivity|]. cbn [sr_next sr_in sr_out sr_fee]. unfold ahead.
      split; [exact HN|]. split; [lia|]. split; [lia|]. split; [exact I1|]. split; [exact I2|]. split; [exact QB|]. destruct (Z.ltb_spec b o); lia. }
    destruct (Z.leb_spec ao b) as [LE|GT]; [cbn [bind]; apply FIN; [exact HT|lia]|].
    assert (NX : exists n, get_next_sqrt_price_from_output cur L b true = Ok n).
    { unfold get_next_sqrt_price_from_output. apply next_y_out_iff; [exact HC|exact LP|exact HB|]. apply delta_y_down in EO. destruct EO as [_ [EO _]]. rewrite Z.abs_neq in EO by lia.
      assert ((cur - target) * L <= cur * L) by (apply Z.mul_le_mono_nonneg_r; unfold price_ok, MIN_SQRT_PRICE in *; lia). unfold E30 in *. lia. }
    destruct NX as [n NX]. rewrite NX. cbn [bind]. unfold get_next_sqrt_price_from_output in NX.
    pose proof (next_y_out cur L b n ltac:(unfold price_ok, MIN_SQRT_PRICE in *; lia) (proj1 LP) (proj1 HB) NX) as (N1 & N2 & _).
    apply delta_y_down in EO. destruct EO as [_ [EO _]]. rewrite Z.abs_neq in EO by lia.
    assert (TN : target <= n).
    { assert ((cur - n - 1) * L < (cur - target) * L) by (unfold E30 in *; lia). assert (cur - n - 1 < cur - target) by (apply (Z.mul_lt_mono_pos_r L); lia). lia. }
    apply FIN; [unfold price_ok in *; lia|lia].
  - rewrite (proj2 (Z.leb_gt _ _) LT). destruct (delta_x_fwd cur target L false HC HT LO) as [ao EO]. rewrite EO. cbn [bind].
    assert (FIN : forall n, price_ok n -> cur <= n <= target -> exists r,
      (let* ain := (if negb (target =? n) || negb false then get_delta_y cur n L true else Ok 0) in
       let* aout := (if negb (target =? n) || false then get_delta_x cur n L false else Ok ao) in
       let aout := if negb false && (b <? aout) then b else aout in
       let* fee_amount := (if false && negb (target =? n) then sub_p b ain else big_mul_up PCT_ONE ain fee) in
       Ok (mkSwapResult n ain aout fee_amount)) = Ok r /\ price_ok (sr_next r) /\ ahead false cur (sr_next r) /\ ahead false (sr_next r) target /\
    0 <= sr_in r <= cost false cur (sr_next r) /\ sr_in r <= 2 * L /\ 0 <= sr_fee r <= sr_in r /\ 0 <= sr_out r <= b).
    { intros n HN NB. rewrite orb_true_r. destruct (delta_y_fwd cur n L true HC HN LO) as [ai EI]. rewrite EI. cbn [bind].
      destruct (in_y_cost cur n L ai HC HN ltac:(lia) LP EI) as [I1 I2]. pose proof (cost_bound false cur n HC HN ltac:(unfold ahead; lia)) as CB.
      destruct (fee_part ai fee ltac:(unfold U128MAX; lia) HF) as (q & Q & QB).
      assert (AO : exists o, (if negb (target =? n) || false then get_delta_x cur n L false else Ok ao) = Ok o /\ 0 <= o).
      { unfold price_ok, MIN_SQRT_PRICE in *. destruct (negb _ || false); [|apply delta_x_down in EO; [exists ao; split; [reflexivity|lia]|lia|lia]].
        destruct (delta_x_fwd cur n L false HC HN LO) as [o O]. exists o. split; [exact O|]. apply delta_x_down in O; lia. }
      destruct AO as (o & -> & O0). cbn [bind negb andb]. rewrite Q. cbn [bind]. eexists. split; [reflexivity|]. cbn [sr_next sr_in sr_out sr_fee]. unfold ahead.
      split; [exact HN|]. split; [lia|]. split; [lia|]. split; [exact I1|]. split; [exact I2|]. split; [exact QB|]. destruct (Z.ltb_spec b o); lia. }
    destruct (Z.leb_spec ao b) as [LE|GT]; [cbn [bind]; apply FIN; [exact HT|lia]|].
    assert (NX : exists n, get_next_sqrt_price_from_output cur L b false = Ok n /\ cur <= n <= target).
    { unfold get_next_sqrt_price_from_output. destruct (Z.eq_dec b 0) as [->|B0]; [exists cur; split; [reflexivity|lia]|].
      apply delta_x_down_exact in EO; [|unfold price_ok, MIN_SQRT_PRICE in *; lia|unfold price_ok, MIN_SQRT_PRICE in *; lia]. rewrite Z.abs_neq in EO by lia.
      unfold price_ok in *. assert (M0 : 0 < MIN_SQRT_PRICE) by reflexivity.
      assert (PP : MIN_SQRT_PRICE * MIN_SQRT_PRICE <= cur * target) by (apply Z.mul_le_mono_nonneg; lia).
      assert (BB : (b + 1) * (cur * target) <= ao * (cur * target)) by (apply Z.mul_le_mono_nonneg_r; lia).
      assert (KEY : cur * L * E18 + cur * target <= target * (L * E18 - cur * b)) by (unfold E18 in *; lia).
      assert (PPS : SP_ONE <= cur * target) by (unfold MIN_SQRT_PRICE, SP_ONE in *; lia).
      assert (CL : 0 <= cur * L * E18) by (unfold E18; apply Z.mul_nonneg_nonneg; [apply Z.mul_nonneg_nonneg; lia|lia]).
      assert (DEN : 0 < L * E18 - cur * b).
      { apply (Z.mul_lt_mono_pos_l target); [lia|]. unfold SP_ONE in *. lia. }
      destruct (next_x_out_fwd cur L b target) as (n & EN & NT); [unfold price_ok; lia|exact LP|lia|exact DEN|unfold MAX_SQRT_PRICE, U128MAX in *; lia|lia|].
      exists n. split; [exact EN|]. split; [|exact NT].
      pose proof (next_x_out cur L b n ltac:(lia) (proj1 LP) ltac:(lia) EN) as (_ & _ & _ & N2). pose proof (pl_up_spec cur L) as [_ PS].
      assert (cur * (L * E18 - cur * b) <= n * (L * E18 - cur * b)).
      { etransitivity; [|exact N2]. assert (0 <= cur * (cur * b)) by (apply Z.mul_nonneg_nonneg; [lia|apply Z.mul_nonneg_nonneg; lia]). unfold LIQ_ONE, SP_ONE, E18 in *. lia. }
      apply (Z.mul_le_mono_pos_r _ _ (L * E18 - cur * b)); lia. }
    destruct NX as (n & NX & NB). rewrite NX. cbn [bind]. apply FIN; [unfold price_ok in *; lia|exact NB].
Qed.

(** the liquidity being left could pay the rest of the order from this price alone *)
Definition covers (d : bool) (b L P : Z) : Prop := if d then b * 10 ^ 30 <= L * P else b * P <= L * (10 ^ 18 - 10 ^ 9).
Lemma covers_less d b b' L P : 0 <= P -> b' <= b -> covers d b L P -> covers d b' L P.
Proof. unfold covers. intros HP HB. destruct d; intros H; etransitivity; [|exact H| |exact H]; [lia|apply Z.mul_le_mono_nonneg_r; lia]. Qed.
Lemma enough_out_fwd d rem P L fee : price_ok P -> liq_ok L -> 0 <= rem <= U128MAX -> (L <> 0 -> covers d rem L P) ->
  exists b, is_enough_amount_to_change_price rem P L fee false d = Ok b /\ (d = true -> rem <> 0 -> b = true).
Proof.
  unfold liq_ok. intros HP HL HR HB. unfold is_enough_amount_to_change_price. destruct (Z.eqb_spec L 0) as [|L0]; [eauto|]. specialize (HB L0).
  assert (LP : 0 < L <= U128MAX) by lia. unfold get_next_sqrt_price_from_output. destruct d.
  - cbn [covers] in HB. change (10 ^ 30) with E30 in HB. destruct (proj2 (next_y_out_iff P L rem HP LP HR) HB) as [n EN]. rewrite EN. cbn [bind]. eexists. split; [reflexivity|].
    intros _ R0. apply next_y_out in EN; [|unfold price_ok, MIN_SQRT_PRICE in *; lia|lia|lia]. destruct EN as (E1 & _ & E3).
    apply negb_true_iff, Z.eqb_neq. intros <-. unfold E30 in *. lia.
  - cbn [covers] in HB. destruct (Z.eq_dec rem 0) as [->|R0]; [unfold get_next_sqrt_price_x_up; cbn; eauto|].
    assert (B2 : L * 10 ^ 9 <= L * E18 - P * rem) by (unfold E18; lia). unfold price_ok in HP.
    destruct (next_x_out_fwd P L rem (P * 10 ^ 9 + 10 ^ 15)) as (n & EN & _); [exact HP|exact LP|lia|lia|unfold MIN_SQRT_PRICE, MAX_SQRT_PRICE, U128MAX in *; lia| |].
    + assert ((P * 10 ^ 9 + 10 ^ 15) * (L * 10 ^ 9) <= (P * 10 ^ 9 + 10 ^ 15) * (L * E18 - P * rem)) by (apply Z.mul_le_mono_nonneg_l; [unfold MIN_SQRT_PRICE in *; lia|exact B2]).
      unfold E18, SP_ONE in *. lia.
    + rewrite EN. cbn [bind]. eexists. split; [reflexivity|done].
Qed.
Lemma add_fee_out_fwd p a (d : bool) f : 0 <= p_liq p -> 0 <= f <= PCT_ONE -> 0 <= a <= U128MAX -> a <= 2 * p_liq p -> 0 <= counter d p -> counter d p + a <= U128MAX ->
  exists q, add_fee p a d f = Ok q /\ counter d p <= counter d q <= counter d p + a.
Proof.
  intros HL HF HA HB C0 C1. pose proof (cut_le f a HF (proj1 HA)) as CU. unfold add_fee, big_mul_up. set (pr := (a * f + (PCT_ONE - 1)) / PCT_ONE) in *. clearbody pr.
  rewrite ckp_yes by lia. cbn [bind]. unfold sub_p. rewrite ckp_yes by lia. cbn [bind].
  destruct (_ || (p_liq p =? 0)) eqn:B; [eexists; split; [reflexivity|lia]|]. apply orb_false_iff in B. destruct B as [_ B]. apply Z.eqb_neq in B.
  unfold from_fee.
  assert (F1 : 0 <= (a - pr) * FG_ONE <= 10 ^ 67) by (change FG_ONE with (10 ^ 28); unfold U128MAX in *; lia).
  rewrite ck_yes by (split; [lia|etransitivity; [apply F1|vm_compute; discriminate]]). cbn [bind].
  assert (F2 : 0 <= (a - pr) * FG_ONE * LIQ_ONE <= 10 ^ 73) by (change LIQ_ONE with (10 ^ 6); lia).
  rewrite ck_yes by (split; [lia|etransitivity; [apply F2|vm_compute; discriminate]]). cbn [bind].
  unfold cdiv. rewrite (proj2 (Z.eqb_neq _ 0) B). cbn [bind].
  rewrite ck_yes.
  - cbn [bind]. unfold counter in *. destruct d; unfold add_p; rewrite ckp_yes by lia; cbn [bind]; (eexists; split; [reflexivity|]); cbn; lia.
  - split; [apply Z.div_pos; lia|]. apply Z.div_le_upper_bound; [lia|]. change FG_ONE with (10 ^ 28). change LIQ_ONE with (10 ^ 6). unfold U128MAX. lia.
Qed.

(** ** An iteration *)
Record ototals (d : bool) (P0 b C0 : Z) (w : swap_state) : Prop := {
  ot_sum : sw_out w + sw_remaining w = b;
  ot_out : 0 <= sw_out w;
  ot_rem : 0 <= sw_remaining w;
  ot_price : price_ok (p_price (sw_pool w));
  ot_ahead : ahead d P0 (p_price (sw_pool w));
  ot_in : 0 <= sw_in w <= 2 * cost d P0 (p_price (sw_pool w));
  ot_fee : 0 <= sw_fee w <= sw_in w;
  ot_prot : 0 <= counter d (sw_pool w) <= C0 + sw_fee w
}.
Definition crossable_to (d : bool) (s : store) (now : Z) (k : pool_key) (w : swap_state) : Prop :=
  forall t, target d s k (spacing k) (p_tick (sw_pool w)) t true ->
  exists tk, st_ticks s !! (k, t) = Some tk /\
    forall q, p_liq q = p_liq (sw_pool w) -> p_tick q = p_tick (sw_pool w) -> p_start q = p_start (sw_pool w) ->
      exists t' q', tick_cross tk q now = Ok (t', q').
Definition covered_to (d : bool) (s : store) (k : pool_key) (b : Z) (w : swap_state) : Prop :=
  forall t init, target d s k (spacing k) (p_tick (sw_pool w)) t init -> p_liq (sw_pool w) <> 0 -> covers d b (p_liq (sw_pool w)) (tprice t).
Definition halted {A} (r : res A) : Prop := r = Err PriceLimitReached \/ r = Err TickLimitReached.

Lemma iter_out s now k (d : bool) lim w P0 b C0 : store_geo s k -> loop_inv k d lim w -> sw_remaining w <> 0 -> price_ok P0 -> ototals d P0 b C0 w -> b <= U128MAX -> C0 <= 2 ^ 127 ->
  0 <= cf_protocol_fee (st_config s) <= PCT_ONE -> covered_to d s k b w -> crossable_to d s now k w ->
  (exists w', swap_iter s now k d false lim (end_tick d k) w = Ok w') \/ halted (swap_iter s now k d false lim (end_tick d k) w).
Proof.
  intros G I NR HP0 T HB HC0 HF CV CR. pose proof (loop_pre _ _ _ _ _ G I NR) as PRE. destruct PRE as [U HS HFE HLQ HW HR HLim HRem].
  destruct T as [T1 T2 T3 T4 T5 T6 T7 T8]. pose proof HW as (WL & WP & _). pose proof T4 as PW. unfold halted.
  unfold swap_iter.
  destruct (closer_fwd s lim d (p_tick (sw_pool w)) (spacing k) k U ltac:(lia) WL) as [(sl & li & CL)|CL]; rewrite CL; [|right; right; reflexivity].
  cbn [bind]. apply closer_limit in CL; [|done|lia|done]. destruct CL as (t & init & TG & CL). pose proof TG as (TL1 & TI & TC).
  pose proof (legal_price_range _ _ TL1) as TR.
  assert (PT : price_ok (tprice t)) by (pose proof (legal_price_range _ _ (top_legal (spacing k) (proj1 HS))); unfold price_ok; pose proof (legal_top _ _ (proj1 HS) TL1) as TT;
    pose proof (legal_price_le _ _ _ TL1 (top_legal (spacing k) (proj1 HS)) (proj2 TT)); lia).
  assert (SIDE : if d then tprice t <= p_price (sw_pool w) else p_price (sw_pool w) < tprice t).
  { destruct d.
    - destruct TC as (TC1 & _). pose proof (legal_price_le _ _ _ TL1 WL TC1). lia.
    - specialize (HR eq_refl). destruct TC as (TC1 & _). destruct HR as (_ & _ & R3). assert (S1 : 1 <= spacing k) by lia. pose proof (legal_top _ _ S1 TL1).
      pose proof (legal_gap _ _ _ S1 WL TL1 ltac:(lia)). specialize (R3 ltac:(lia)).
      pose proof (legal_price_le _ _ _ (legal_next _ _ S1 WL ltac:(lia)) TL1 ltac:(lia)). lia. }
  assert (SLR : if d then tprice t <= sl <= p_price (sw_pool w) else p_price (sw_pool w) < sl <= tprice t) by (destruct d, CL as [(_ & -> & X)|(_ & -> & X)]; lia).
  assert (PS : price_ok sl) by (unfold price_ok in *; destruct d; lia).
  destruct (step_out_fwd d (p_price (sw_pool w)) sl (p_liq (sw_pool w)) (sw_remaining w) (ft_fee (pk_tier k)) PW PS) as (r & ER & RN & RA & RB & RI & RL & RF & RO);
    [destruct d; lia|exact HLQ|lia|lia|].
  rewrite ER. cbn [bind].
  assert (AH : ahead d P0 (sr_next r)) by (unfold ahead in *; destruct d; lia).
  pose proof (cost_bound d _ _ PW RN RA) as CB1. pose proof (cost_bound d _ _ HP0 RN AH) as CB2. pose proof (cost_add d P0 (p_price (sw_pool w)) (sr_next r)) as CA.
  change (2 ^ 127) with 170141183460469231731687303715884105728 in HC0. assert (CB3 : 5 * 10 ^ 37 = 50000000000000000000000000000000000000) by reflexivity. rewrite CB3 in *.
  rewrite (add_p_yes (sr_in r) (sr_fee r)) by (unfold U128MAX; lia). cbn [bind]. rewrite (sub_e_yes ESub (sw_remaining w)) by lia. cbn [bind].
  destruct (add_fee_out_fwd (sw_pool w) (sr_fee r) d (cf_protocol_fee (st_config s)) (proj1 HLQ) HF) as (p1 & EA & PC); [unfold U128MAX; lia|lia|lia|unfold U128MAX; lia|].
  rewrite EA. cbn [bind]. pose proof (add_fee_keeps _ _ _ _ _ EA) as (K1 & K2 & K3 & K4 & K5).
  rewrite (add_p_yes (sw_fee w)) by (unfold U128MAX; lia). cbn [bind]. rewrite (add_p_yes (sw_in w)) by (unfold U128MAX; lia). cbn [bind].
  rewrite (add_p_yes (sw_out w)) by lia. cbn [bind].
  match goal with |- context [if ?b then Err PriceLimitReached else _] => destruct b end; [right; left; reflexivity|].
  assert (GT : exists c', get_tick_at_sqrt_price (sr_next r) (spacing k) = Ok c').
  { destruct (get_tick_ok (sr_next r) (spacing k) RN (proj1 HS)) as (j & _ & E). eauto. }
  destruct GT as [c' GT].
  assert (FIN : forall (b : bool) (x : swap_state), (exists w', (if b then Err TickLimitReached else Ok x) = Ok w') \/ (if b then Err TickLimitReached else Ok x) = Err PriceLimitReached \/ (if b then Err TickLimitReached else Ok x) = Err TickLimitReached).
  { intros [] x; eauto. }
  assert (ADD : forall v, 0 <= v <= 100000000000000000000000000000000000000 -> add_p v 0 = Ok (v + 0)) by (intros v V; apply add_p_yes; unfold U128MAX; lia).
  destruct CL as [(-> & -> & X)|(-> & -> & X)].
  - assert (EN : tprice t = sr_next r -> exists en, is_enough_amount_to_change_price (sw_remaining w - sr_out r) (sr_next r) (p_liq (p_set_price p1 (sr_next r))) (ft_fee (pk_tier k)) false d = Ok en).
    { intros NE. destruct (enough_out_fwd d (sw_remaining w - sr_out r) (sr_next r) (p_liq (p_set_price p1 (sr_next r))) (ft_fee (pk_tier k))) as (en & EN & _);
        [exact RN|unfold liq_ok in *; cbn; lia|lia| |eauto].
      cbn. rewrite K1. intros Y. rewrite <- NE. eapply covers_less; [| |apply (CV t init TG Y)]; [unfold price_ok, MIN_SQRT_PRICE in PT; lia|lia]. }
    destruct init.
    + destruct (CR t TG) as (tk & TK & CRO). unfold get_tick. rewrite TK. cbn [bind]. unfold pool_update_tick. cbn [orb].
      destruct (Z.eqb_spec (tprice t) (sr_next r)) as [NE|NE]; cbn [negb].
      * destruct (EN NE) as [en EN']. rewrite EN'. cbn [bind]. destruct (negb d || en).
        -- destruct (CRO (p_set_price p1 (sr_next r))) as (t' & q' & CX); [done|done|done|]. rewrite CX. cbn [unwrap bind].
           rewrite ADD by lia. cbn [bind]. apply FIN.
        -- destruct (Z.eqb_spec (sw_remaining w - sr_out r) 0) as [R0|R0]; cbn [negb bind]; rewrite ADD by lia; cbn [bind]; apply FIN.
      * rewrite GT. cbn [bind]. rewrite ADD by lia. cbn [bind]. apply FIN.
    + cbn [bind]. unfold pool_update_tick. cbn [orb].
      destruct (Z.eqb_spec (tprice t) (sr_next r)) as [NE|NE]; cbn [negb].
      * destruct (EN NE) as [en EN']. rewrite EN'. cbn [bind]. rewrite ADD by lia. cbn [bind]. apply FIN.
      * rewrite GT. cbn [bind]. rewrite ADD by lia. cbn [bind]. apply FIN.
  - cbn [bind]. unfold pool_update_tick. cbn [orb]. rewrite GT. cbn [bind]. rewrite ADD by lia. cbn [bind]. apply FIN.
Qed.

Lemma iter_out_keeps s now k (d : bool) lim w w' P0 b C0 : store_geo s k -> loop_inv k d lim w -> sw_remaining w <> 0 -> ototals d P0 b C0 w -> b <= U128MAX ->
  0 <= cf_protocol_fee (st_config s) <= PCT_ONE -> swap_iter s now k d false lim (end_tick d k) w = Ok w' -> ototals d P0 b C0 w'.
Proof.
  intros G I NR T HB HF H. pose proof (loop_pre _ _ _ _ _ G I NR) as PRE. pose proof (ip_liq _ _ _ _ _ PRE) as HLQ. pose proof (sg_fee _ _ G) as HFE.
  apply iter_cases in H; [|done]. destruct H as (t & init & sl & r & p0 & rm0 & TG & SL & SA & ST & SIDE & RM & R0 & AF & _ & IC & _). cbn iota in RM.
  destruct T as [T1 T2 T3 T4 T5 T6 T7 T8].
  assert (PS : price_ok sl) by (destruct SA as (_ & A & _); exact A).
  destruct (step_out_fwd d (p_price (sw_pool w)) sl (p_liq (sw_pool w)) (sw_remaining w) (ft_fee (pk_tier k)) T4 PS) as (r' & ER & RN & RA & RB & RI & RL & RF & RO);
    [destruct d; lia|exact HLQ|lia|lia|]. rewrite ST in ER. injection ER as <-.
  pose proof (add_fee_counter _ _ _ _ _ (proj1 HLQ) HF (proj1 RF) AF) as PC.
  pose proof (cost_add d P0 (p_price (sw_pool w)) (sr_next r)) as CA.
  assert (AH : ahead d P0 (sr_next r)) by (unfold ahead in *; destruct d; lia).
  assert (FIN : forall q rm tk, p_price q = sr_next r -> counter d q = counter d p0 -> rm = rm0 ->
    ototals d P0 b C0 (mkSwapState q rm (sw_in w + (sr_in r + sr_fee r)) (sw_out w + sr_out r) (sw_fee w + sr_fee r) tk)).
  { intros q rm tk Q1 Q2 ->. constructor; cbn [sw_out sw_remaining sw_pool sw_in sw_fee]; rewrite ?Q1, ?Q2; try assumption; lia. }
  destruct IC as [tk t' p1 _ NX _ TK CX _ ->|en _ NX _ _ ->|tk p2 _ _ NX _ TK P2 ->|c' NX GT ->].
  - apply (cross_counter _ _ _ _ _ d) in CX. destruct CX as [C1 C2]. cbn in C2. apply FIN; [exact C2|unfold counter in *; destruct d; exact C1|reflexivity].
  - apply FIN; [reflexivity|by destruct d|reflexivity].
  - destruct P2 as [[RZ ->]|(? & _)]; [|done]. rewrite RZ, Z.add_0_r. apply FIN; [reflexivity|by destruct d|lia].
  - apply FIN; [reflexivity|by destruct d|reflexivity].
Qed.

(** ** The whole loop *)
(** every range ahead that holds liquidity could pay the whole order from its far end *)
Definition covered (d : bool) (s : store) (k : pool_key) (c0 b : Z) : Prop :=
  forall t pt, calculate_sqrt_price t = Ok pt -> t mod spacing k = 0 -> (if d then t <= c0 else c0 < t) ->
    let L := psum (fun po => if decide (po_key po = k) then (if (po_lower po <=? (if d then t else t - spacing k)) && ((if d then t else t - spacing k) <? po_upper po) then po_liq po else 0) else 0) (st_positions s) in
    L <> 0 -> if d then b * 10 ^ 30 <= L * pt else b * pt <= L * (10 ^ 18 - 10 ^ 9).
Definition togo (d : bool) (w : swap_state) : Z := if d then p_tick (sw_pool w) + MAX_TICK else MAX_SQRT_PRICE - p_price (sw_pool w).

Lemma covered_here d s k c0 b w : liq_inv s -> 1 <= spacing k -> legal_tick (spacing k) (p_tick (sw_pool w)) -> covered d s k c0 b -> ahead d c0 (p_tick (sw_pool w)) -> p_liq (sw_pool w) = act s k (p_tick (sw_pool w)) ->
  covered_to d s k b w.
Proof.
  intros LI S1 WL CV AH AC t init (TL & TI & TC) NZ.
  assert (EX : act s k (p_tick (sw_pool w)) = act s k (if d then t else t - spacing k)).
  { apply act_exact; [exact LI|]. intros j J. pose proof (is_init_legal _ _ _ _ S1 J) as JL. destruct d.
    - destruct TC as (TC1 & _ & TC2). split; [|lia]. intros JW. destruct (Z.le_gt_cases j t); [done|]. exfalso. by apply (TC2 j).
    - destruct TC as (TC1 & TC2). split; [|intros X].
      + intros JW. pose proof (legal_gap _ _ _ S1 JL TL ltac:(lia)). lia.
      + destruct (Z.le_gt_cases j (p_tick (sw_pool w))); [done|]. exfalso. apply (TC2 j); [lia|exact J]. }
  pose proof (calculate_sqrt_price_ok t (proj1 TL)) as PT.
  specialize (CV t (tprice t) PT (proj2 TL)). cbn zeta in CV.
  assert (SD : if d then t <= c0 else c0 < t) by (unfold ahead in AH; destruct d; lia). specialize (CV SD).
  rewrite AC, EX in *. unfold covers. exact (CV NZ).
Qed.

Lemma loop_out s now k p (d : bool) lim b gas w : clean_history s -> st_pools s !! k = Some p -> 0 <= p_start p <= now -> now < 2 ^ 64 ->
  0 <= b <= U128MAX -> (if d then lim < p_price p else p_price p < lim) -> price_ok (p_price p) -> counter d p <= 2 ^ 127 -> 0 <= cf_protocol_fee (st_config s) <= PCT_ONE -> covered d s k (p_tick p) b ->
  loop_state s now k d false lim (mkSwapState p b 0 0 0 []) w -> (sw_remaining w <> 0 -> ahead d (p_tick p) (p_tick (sw_pool w))) -> ototals d (p_price p) b (counter d p) w ->
  (exists w', swap_loop gas s now k d false lim (end_tick d k) w = Ok w' /\ sw_out w' = b /\ 0 <= sw_in w' <= 10 ^ 38) \/
  halted (swap_loop gas s now k d false lim (end_tick d k) w) \/
  (swap_loop gas s now k d false lim (end_tick d k) w = Err OutOfGas /\ Z.of_nat gas <= togo d w).
Proof.
  intros C E TM TM' HB D PP HC HF CV.
  pose proof (reachable_ereach _ (clean_history_reachable _ C)) as R. pose proof (ereach_store_geo _ _ _ R E) as G. destruct (sg_sp _ _ G) as [S1 S2].
  assert (DONE : forall v, sw_remaining v = 0 -> ototals d (p_price p) b (counter d p) v -> sw_out v = b /\ 0 <= sw_in v <= 10 ^ 38).
  { intros v Z0 T. pose proof (cost_bound d _ _ PP (ot_price _ _ _ _ _ T) (ot_ahead _ _ _ _ _ T)) as CB. pose proof (ot_in _ _ _ _ _ T). pose proof (ot_sum _ _ _ _ _ T). lia. }
  revert w. induction gas as [|g IH]; intros w LS MT T; cbn [swap_loop]; destruct (Z.eqb_spec (sw_remaining w) 0) as [Z0|Z0].
  - left. eexists. split; [reflexivity|]. by apply DONE.
  - right. right. split; [reflexivity|]. destruct (loop_state_inv s now k p d false b lim w C E HB D LS) as [I _].
    destruct (lv_weak _ _ _ _ I) as ((WL & _) & _). pose proof (ot_price _ _ _ _ _ T) as PO. unfold togo, price_ok in *. destruct d; lia.
  - left. eexists. split; [reflexivity|]. by apply DONE.
  - destruct (loop_state_inv s now k p d false b lim w C E HB D LS) as [I AC]. specialize (AC Z0). specialize (MT Z0).
    pose proof (lv_weak _ _ _ _ I) as (WL & _).
    assert (CR : crossable_to d s now k w).
    { intros t (TL & TI & TC). destruct (C43_crossing_partial s now k p d false b lim w t C E TM TM') as (tk & TK & CX);
        [change (2 ^ 128) with (U128MAX + 1); lia|exact D|exact LS|exact Z0|exact TI|destruct d; [split; apply TC|exact TC]|].
      exists tk. split; [exact TK|]. intros q Q1 Q2 Q3. destruct (CX q Q1 Q2 Q3) as (t' & q' & X & _). eauto. }
    destruct (iter_out s now k d lim w (p_price p) b (counter d p) G I Z0 PP T ltac:(lia) HC HF) as [(w1 & E1)|HA]; [|exact CR| |].
    + eapply covered_here; [by apply ereach_liq|exact S1|exact WL|exact CV|exact MT|exact AC].
    + rewrite E1. cbn [bind]. pose proof (iter_out_keeps _ _ _ _ _ _ _ _ _ _ G I Z0 T ltac:(lia) HF E1) as T1.
      destruct (iter_limit _ _ _ _ _ _ _ _ G I Z0 E1) as (_ & _ & DEC). pose proof (loop_step _ _ _ _ _ _ _ _ G I Z0 E1) as [PO I1].
      destruct (Z.eq_dec (sw_remaining w1) 0) as [Z1|Z1].
      * left. exists w1. split; [|by apply DONE]. destruct g; cbn [swap_loop]; rewrite (proj2 (Z.eqb_eq _ 0) Z1); reflexivity.
      * specialize (DEC Z1). destruct (IH w1) as [X|[X|[X Y]]]; [eapply ls_next; [exact LS|exact Z0|exact E1]| |exact T1|by left|right; by left|right; right; split; [exact X|]].
        -- intros _. unfold ahead in *. destruct d; [lia|]. etransitivity; [exact MT|].
           eapply rest_mono; [exact S1|apply (lv_rest _ _ _ _ I); by left|apply (lv_rest _ _ _ _ I1); by left|lia].
        -- unfold togo in *. destruct d; lia.
    + right. left. unfold halted in *. destruct HA as [-> | ->]; [by left|by right].
Qed.

(** * C25 *)
Theorem C25_exact_output_partial e i s k p (d : bool) b lim :
  clean_history s -> env_typed e i = true -> st_pools s !! k = Some p -> 0 <= p_start p <= e_millis e ->
  cf_protocol_fee (st_config s) <= 10 ^ 12 -> (if d then p_protx p else p_proty p) <= 2 ^ 127 ->
  0 < b < 2 ^ 128 -> (if d then 0 <= lim < p_price p else p_price p < lim < 2 ^ 128) ->
  (* every range ahead that holds liquidity could pay the whole order from the price at its far end *)
  (forall t pt, calculate_sqrt_price t = Ok pt -> t mod ft_spacing (pk_tier k) = 0 -> (if d then t <= p_tick p else p_tick p < t) ->
     let c := if d then t else t - ft_spacing (pk_tier k) in
     let L := psum (fun po => if decide (po_key po = k) then (if (po_lower po <=? c) && (c <? po_upper po) then po_liq po else 0) else 0) (st_positions s) in
     L <> 0 -> if d then b * 10 ^ 30 <= L * pt else b * pt <= L * (10 ^ 18 - 10 ^ 9)) ->
  let r := execute e i s (Swap k d b false lim) in
  (exists s' ms ain, r = Ok (s', ms, [("amount_in"%string, ain); ("amount_out"%string, b)]) /\ 0 <= ain <= 10 ^ 38) \/
  r = Err PriceLimitReached \/ r = Err TickLimitReached \/
  r = Err OutOfGas /\ Z.of_nat (e_gas e) <= (if d then 443636 else 65535383934512647000000000000 - p_price p) \/
  r = Err InvalidFunds /\ e_addr_ok e (if d then pk_x k else pk_y k) = false.
Proof.
  intros C T E TM PF ROOM HB LIM CV. change (10 ^ 12) with PCT_ONE in PF. change (2 ^ 128) with (U128MAX + 1) in *. cbn zeta.
  pose proof (clean_history_reachable _ C) as R. pose proof (reachable_ereach _ R) as ER.
  pose proof (ereach_store_geo _ _ _ ER E) as G. pose proof (ereach_geo _ ER _ _ E) as [PG PL]. destruct (sg_sp _ _ G) as [S1 S2]. pose proof (sg_fee _ _ G) as SF.
  pose proof (co_protocol _ (ereach_config _ ER)) as PF0. pose proof (ereach_prot _ ER _ _ E) as [PR1 PR2].
  pose proof PG as (WL & WP & _). pose proof (legal_price_range _ _ WL) as CRG. pose proof (legal_price_range _ _ (top_legal (spacing k) S1)) as XR.
  assert (MM : MAX_SQRT_PRICE <= U128MAX) by (vm_compute; discriminate).
  assert (PP : price_ok (p_price p)) by (unfold price_ok; lia).
  assert (M : msg_typed (Swap k d b false lim) = true).
  { cbn [msg_typed]. unfold key_ok, tier_ok, u64_ok, u128_ok. unfold MIN_SQRT_PRICE, PCT_ONE, U64MAX in *. rewrite !andb_true_iff. repeat split; apply in_range_spec; destruct d; lia. }
  assert (NW : e_millis e < 2 ^ 64).
  { unfold env_typed in T. apply andb_prop in T. destruct T as [T _]. apply andb_prop in T. destruct T as [_ T]. apply in_range_spec in T. unfold e_millis.
    apply Z.div_lt_upper_bound; [lia|]. unfold U64MAX in T. lia. }
  assert (D : if d then lim < p_price p else p_price p < lim) by (destruct d; lia).
  destruct (loop_out s (e_millis e) k p d lim b (e_gas e) (mkSwapState p b 0 0 0 []) C E TM NW ltac:(lia) D PP) as [(w & LR & OB & IB)|LR].
  { unfold counter. destruct d; exact ROOM. }
  { lia. }
  { exact CV. }
  { constructor. }
  { intros _. unfold ahead. cbn. destruct d; lia. }
  { constructor; cbn [sw_out sw_remaining sw_pool sw_in sw_fee]; try lia; [exact PP|unfold ahead; destruct d; lia|unfold cost; destruct d; lia|unfold counter; destruct d; lia]. }
  all: unfold execute; rewrite T, M; cbn [andb dispatch]; unfold swap, swap_internal, calculate_swap;
    rewrite (proj2 (Z.eqb_neq b 0)) by lia; unfold get_pool; rewrite E; cbn [bind];
    (match goal with |- context [if ?x then Err WrongLimit else _] => assert (WLM : x = false) by (destruct d; apply orb_false_iff; split; [apply Z.leb_gt|apply Z.ltb_ge|apply Z.leb_gt|apply Z.ltb_ge]; lia); rewrite WLM end);
    change (if d then get_min_tick (spacing k) else get_max_tick (spacing k)) with (end_tick d k).
  2:{ unfold halted in LR. destruct LR as [[LR|LR]|[LR GB]]; rewrite LR; cbn [bind]; [right; by left|right; right; by left|].
      right. right. right. left. split; [reflexivity|]. unfold togo in GB. cbn in GB. destruct WL as [WL _]. destruct d; [|exact GB]. unfold MAX_TICK in *. lia. }
  rewrite LR. cbn [bind]. rewrite OB, (proj2 (Z.eqb_neq b 0)) by lia. cbn [bind cr_in cr_out cr_ticks cr_pool].
  assert (CS : calculate_swap (e_gas e) s (e_millis e) k d b false lim =
    Ok (mkCalc (sw_in w) (sw_out w) (p_price p) (p_price (sw_pool w)) (sw_fee w) (sw_pool w) (sw_ticks w))).
  { unfold calculate_swap. rewrite (proj2 (Z.eqb_neq b 0)) by lia. unfold get_pool. rewrite E. cbn [bind]. rewrite WLM.
    change (if d then get_min_tick (spacing k) else get_max_tick (spacing k)) with (end_tick d k).
    rewrite LR. cbn [bind]. rewrite OB. by rewrite (proj2 (Z.eqb_neq b 0)) by lia. }
  destruct (calculate_swap_frame _ _ _ _ _ _ _ _ _ CS) as (p' & _ & _ & _ & _ & F & _). cbn [cr_ticks] in F.
  destruct (update_ticks_total s k (sw_ticks w)) as [s1 ->]; [apply crossed_exists; [by apply ereach_indexed|done]|]. cbn [bind].
  assert (TF : (exists m, asset_transfer_from e i (if d then pk_x k else pk_y k) (sw_in w) = Ok m) \/
    asset_transfer_from e i (if d then pk_x k else pk_y k) (sw_in w) = Err InvalidFunds /\ e_addr_ok e (if d then pk_x k else pk_y k) = false).
  { unfold asset_transfer_from. destruct (sw_in w =? 0); [eauto|]. destruct (e_addr_ok e _); [eauto|]. destruct (List.find _ _) as [c|]; [|by right]. destruct (sw_in w <=? c_amount c); [eauto|by right]. }
  destruct d; destruct TF as [[m EM]|[EM NA]]; rewrite EM; cbn [bind]; try (right; right; right; right; split; [reflexivity|exact NA]);
    left; eexists _, _, _; (split; [reflexivity|exact IB]).
Qed.

(** *** An example: orders across one and across two initialized ticks of the scenario's pool *)
Lemma covered_positions (d : bool) s k c0 b : reachable s -> 0 <= b ->
  (forall x po, st_positions s !! x = Some po -> po_key po = k -> if d then b * 10 ^ 30 <= po_liq po * tprice (po_lower po) else b * tprice (po_upper po) <= po_liq po * (10 ^ 18 - 10 ^ 9)) ->
  covered d s k c0 b.
Proof.
  intros R HB H t pt PT TM _. cbn zeta. match goal with |- psum ?g _ <> 0 -> _ => set (f := g) end. intros NZ. pose proof (reachable_ereach _ R) as RE. pose proof (ereach_liq _ RE) as LI.
  assert (N : forall x po, st_positions s !! x = Some po -> 0 <= f po).
  { intros x po E. unfold f. pose proof (lq_pos _ LI _ _ E) as [(V & _) _]. destruct (decide _); [|lia]. destruct (_ && _); lia. }
  destruct (psum_pos f (st_positions s) N) as (x & po & E & P); [pose proof (psum_nonneg f (st_positions s) N); lia|].
  pose proof (psum_ge f (st_positions s) x po N E) as GE. set (L := psum f (st_positions s)) in *. clearbody L.
  assert (K : po_key po = k /\ (po_lower po <= (if d then t else t - spacing k) < po_upper po) /\ f po = po_liq po).
  { unfold f in *. destruct (decide (po_key po = k)); [|lia]. destruct (Z.leb_spec (po_lower po) (if d then t else t - spacing k)), (Z.ltb_spec (if d then t else t - spacing k) (po_upper po)); cbn in *; lia || (split; [done|split; [lia|done]]). }
  destruct K as (K & K2 & K3). specialize (H x po E K). pose proof (lq_pos _ LI _ _ E) as [(V & L1 & L2 & _) _]. rewrite K in L1, L2.
  apply calculate_sqrt_price_inv in PT. destruct PT as [TB ->]. assert (TL : legal_tick (spacing k) t) by (split; [exact TB|exact TM]).
  destruct (lq_pos _ LI _ _ E) as [_ [p EP]]. rewrite K in EP. destruct (sg_sp _ _ (ereach_store_geo _ _ _ RE EP)) as [S1 _].
  destruct d.
  - pose proof (legal_price_le _ _ _ L1 TL ltac:(lia)) as LE. pose proof (legal_price_range _ _ L1). unfold MIN_SQRT_PRICE in *.
    etransitivity; [exact H|]. apply Z.mul_le_mono_nonneg; lia.
  - assert (LT : t <= po_upper po).
    { destruct (Z.le_gt_cases t (po_upper po)) as [|GT]; [done|]. pose proof (legal_gap _ _ _ S1 L2 TL ltac:(lia)). lia. }
    pose proof (legal_price_le _ _ _ TL L2 LT) as LE.
    etransitivity; [apply Z.mul_le_mono_nonneg_l; [exact HB|exact LE]|]. etransitivity; [exact H|]. apply Z.mul_le_mono_nonneg_r; lia.
Qed.

Definition out_lim (d : bool) : Z := if d then 0 else 65535383934512647000000000000.
Lemma ex_out_holds (d : bool) : exists s' ms,
  execute v_env (v_info "bob") sc0 (Swap v_key d (if d then 12000 else 20000) false (out_lim d)) =
    Ok (s', ms, [("amount_in"%string, if d then 12084 else 20138); ("amount_out"%string, if d then 12000 else 20000)]).
Proof.
  assert (H : match execute v_env (v_info "bob") sc0 (Swap v_key d (if d then 12000 else 20000) false (out_lim d)) with
    | Ok (_, _, [(a, b); (c, x)]) => (a, b, c, x) = ("amount_in", if d then 12084 else 20138, "amount_out", if d then 12000 else 20000)%string | _ => False end) by (destruct d; vm_compute; reflexivity).
  destruct (execute _ _ _ _) as [[[s' ms] at']|?|]; [|destruct H|destruct H]. exists s', ms.
  destruct at' as [|[a b] [|[c x] [|? ?]]]; try exact (False_ind _ H). injection H as -> -> -> ->. reflexivity.
Qed.
Example ex_C25_exact_output (d : bool) : exists p s' ms, let b := if d then 12000 else 20000 in
  clean_history sc0 /\ env_typed v_env (v_info "bob") = true /\ st_pools sc0 !! v_key = Some p /\ 0 <= p_start p <= e_millis v_env /\
  cf_protocol_fee (st_config sc0) = 10 ^ 10 /\ (if d then p_protx p else p_proty p) <= 2 ^ 127 /\ (if d then 0 <= out_lim d < p_price p else p_price p < out_lim d < 2 ^ 128) /\
  covered d sc0 v_key (p_tick p) b /\
  execute v_env (v_info "bob") sc0 (Swap v_key d b false (out_lim d)) = Ok (s', ms, [("amount_in"%string, if d then 12084 else 20138); ("amount_out"%string, b)]).
Proof.
  destruct (ex_out_holds d) as (s' & ms & H).
  assert (Q : exists p, st_pools sc0 !! v_key = Some p /\ (p_start p = 1000 /\ p_protx p <= 2 ^ 127 /\ p_proty p <= 2 ^ 127 /\ p_price p = 999880762839527014734147)) by (apply some_inv; vm_compute; repeat split; discriminate).
  destruct Q as (p & EP & P1 & P2 & P3 & P4). exists p, s', ms. cbn zeta. rewrite P1, P4.
  split; [exact sc0_clean|]. split; [vm_compute; reflexivity|]. split; [exact EP|]. split; [split; vm_compute; discriminate|].
  split; [vm_compute; reflexivity|]. split; [destruct d; assumption|]. split; [destruct d; split; vm_compute; reflexivity || discriminate|]. split; [|exact H].
  apply covered_positions; [exact sc0_reachable|destruct d; discriminate|]. intros x po E _.
  assert (A : forallb (fun xp : _ * position => (700000000000 <=? po_liq xp.2) && (900000000000000000000000 <=? tprice (po_lower xp.2)) && (tprice (po_upper xp.2) <=? 1100000000000000000000000)) (map_to_list (st_positions sc0)) = true) by (vm_compute; reflexivity).
  rewrite forallb_forall in A. specialize (A (x, po)). rewrite <- elem_of_list_In, elem_of_map_to_list in A. specialize (A E). cbn [fst snd] in A.
  apply andb_prop in A. destruct A as [A A3]. apply andb_prop in A. destruct A as [A1 A2]. apply Z.leb_le in A1, A2, A3.
  destruct d.
  - etransitivity; [|apply Z.mul_le_mono_nonneg; [|exact A1| |exact A2]]; lia.
  - etransitivity; [apply Z.mul_le_mono_nonneg_l; [discriminate|exact A3]|]. etransitivity; [|apply Z.mul_le_mono_nonneg_r; [|exact A1]]; lia.
Qed.
