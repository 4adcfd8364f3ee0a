(** C47-C50: the SDK's liquidity and fee calculators against the contract. *)
From Verif Require Import Base Decimal SqrtPrice Clamm Log FeeGrowth Types Tick Pool Position Tickmap State Swap Exec Query Tactics
  PriceProofs LogProofs ClammProofs PropClamm BitmapProofs Frame Handlers History Basic Ledger Scenario Vectors SwapInv SwapGeo SwapLoop Modify PSum LiqInv Geo Ops Clean PropLiq PropTrade
  PropSwap PropQuery Growth Value Fund Flow PropSolv Forward PropExit PropFunds Sdk PropSdk.
From stdpp Require Import gmap strings.
From Coq Require Import Lia.
Open Scope Z_scope.

(** * The vectors of logic/math.rs:296-384 *)
Definition sp_at (t : Z) : Z := match calculate_sqrt_price t with Ok p => p | _ => 0 end.
Example v_by_x : sdk_liquidity_by_x 430000 80 120 (sp_at 100) true = Ok (432392997319297, 434322) /\
  sdk_liquidity_by_x 430000 80 120 (sp_at 100) false = Ok (432392997319297, 434321) /\
  sdk_liquidity_by_x 430000 150 800 (sp_at 100) true = Ok (13548826311623, 0).
Proof. vm_compute. repeat split. Qed.
Example v_by_y : sdk_liquidity_by_y 47600000000 (-22000) (-21000) (sp_at (-20000)) true = Ok (2789052279103923275, 0) /\
  sdk_liquidity_by_y 47600000000 (-25000) (-19000) (sp_at (-20000)) true = Ok (584945290554346935, 77539808126) /\
  sdk_liquidity_by_y 47600000000 (-25000) (-19000) (sp_at (-20000)) false = Ok (584945290554346935, 77539808125).
Proof. vm_compute. repeat split. Qed.

(** * One token's amount *)
Lemma mul_div_inv a b c d r : u256_mul_div a b c d = Ok r -> d <> 0 /\ r = a * b * c / d.
Proof. unfold u256_mul_div. intros H. inv_bind H as m E1. apply ckp_ok in E1 as [-> _]. inv_bind H as m E2. apply ckp_ok in E2 as [-> _]. destruct (Z.eqb_spec d 0); [discriminate H|]. apply Ok_inj in H. auto. Qed.
Lemma id_div n m : big_div SP_ONE n SP_ONE = Ok m -> m = n.
Proof. unfold big_div. cbn [Z.eqb]. change (SP_ONE =? 0) with false. cbv iota. intros H. apply ckp_ok in H as [-> _]. apply Z.div_mul. discriminate. Qed.
Lemma ceil_le a b c : 0 < c -> a <= b * c -> (a + (c - 1)) / c <= b.
Proof. intros C H. apply Z.lt_succ_r. apply Z.div_lt_upper_bound; [done|]. nia. Qed.
Lemma ceil_ge a b c : 0 < c -> (b - 1) * c < a -> b <= (a + (c - 1)) / c.
Proof. intros C H. apply Z.div_le_lower_bound; [done|]. nia. Qed.

(** token x between the prices [pa < pb]: rounding down the liquidity loses less than one unit *)
Lemma by_x_exact pa pb x n r : MIN_SQRT_PRICE <= pa < pb -> pb <= MAX_SQRT_PRICE -> 0 <= x -> n = pa * pb / SP_ONE ->
  get_delta_x pa pb (x * n * LIQ_ONE / (pb - pa)) true = Ok r -> r = x.
Proof.
  intros PA PB X -> H. set (d := pb - pa) in *. set (n := pa * pb / SP_ONE) in *. assert (D : 0 < d) by (unfold d; lia).
  assert (DN : d / LIQ_ONE + 2 <= n).
  { unfold n. apply Z.div_le_lower_bound; [reflexivity|]. pose proof (Z.mul_div_le d LIQ_ONE ltac:(reflexivity)) as Q.
    assert (15258932000000000000 * pb <= pa * pb) by (apply Z.mul_le_mono_nonneg_r; unfold MIN_SQRT_PRICE in PA; lia).
    assert (d <= pb) by (unfold d, MIN_SQRT_PRICE in *; lia). unfold SP_ONE, LIQ_ONE in *. unfold MIN_SQRT_PRICE in PA. nia. }
  assert (N0 : 0 < n). { pose proof (Z.div_pos d LIQ_ONE ltac:(lia) ltac:(reflexivity)). lia. }
  set (l := x * n * LIQ_ONE / d) in *.
  pose proof (Z.mul_div_le (x * n * LIQ_ONE) d D) as L1. pose proof (Z.mul_succ_div_gt (x * n * LIQ_ONE) d D) as L2. fold l in L1, L2.
  unfold get_delta_x in H. replace (Z.abs (pa - pb)) with d in H by (unfold d; lia). unfold mul_to_value in H. fold n in H.
  set (v := d * l / LIQ_ONE) in *.
  assert (V1 : v <= x * n) by (apply Z.div_le_upper_bound; [reflexivity|lia]).
  assert (V2 : (x - 1) * n < v).
  { apply Z.lt_le_trans with (x * n - d / LIQ_ONE - 1); [nia|]. apply Z.div_le_lower_bound; [reflexivity|].
    pose proof (Z.mul_succ_div_gt d LIQ_ONE ltac:(reflexivity)). unfold LIQ_ONE in *. nia. }
  clearbody v. unfold big_div_values_to_token_up in H. inv_bind H as m E1. apply ck_ok in E1 as [-> _]. inv_bind H as d1 E2. apply ckp_ok in E2 as [-> _].
  inv_bind H as a E3. apply ck_ok in E3 as [-> _]. inv_bind H as q E4. unfold cdiv in E4. destruct (n =? 0); [discriminate E4|]. apply Ok_inj in E4 as <-.
  inv_bind H as q E5. apply ck_ok in E5 as [-> _]. inv_bind H as q E6. apply ck_ok in E6 as [-> _]. apply ck_ok in H as [-> _].
  apply Z.le_antisymm.
  - apply ceil_le; [reflexivity|]. apply ceil_le; [exact N0|]. unfold SP_ONE. nia.
  - apply ceil_ge; [reflexivity|]. apply Z.lt_le_trans with ((x - 1) * SP_ONE + 1); [lia|]. apply ceil_ge; [exact N0|]. unfold SP_ONE. nia.
Qed.
(** token y *)
Lemma by_y_exact pa pb y r : 0 <= pa < pb -> pb <= MAX_SQRT_PRICE -> 0 <= y ->
  get_delta_y pa pb (y * SP_ONE * LIQ_ONE / (pb - pa)) true = Ok r -> r = y.
Proof.
  intros PA PB Y H. set (d := pb - pa) in *. assert (D : 0 < d) by (unfold d; lia).
  set (l := y * SP_ONE * LIQ_ONE / d) in *.
  pose proof (Z.mul_div_le (y * SP_ONE * LIQ_ONE) d D) as L1. pose proof (Z.mul_succ_div_gt (y * SP_ONE * LIQ_ONE) d D) as L2. fold l in L1, L2.
  unfold get_delta_y in H. replace (Z.abs (pa - pb)) with d in H by (unfold d; lia). unfold mul_to_value_up in H.
  inv_bind H as a E. apply ck_ok in E as [-> _]. apply ck_ok in H as [-> _].
  apply Z.le_antisymm.
  - apply ceil_le; [reflexivity|]. apply ceil_le; [reflexivity|]. lia.
  - apply ceil_ge; [reflexivity|]. apply Z.lt_le_trans with ((y - 1) * SP_ONE + 1); [lia|]. apply ceil_ge; [reflexivity|].
    unfold d, MAX_SQRT_PRICE, SP_ONE, LIQ_ONE in *. nia.
Qed.

Lemma from_exact e i t v m : asset_transfer_from e i t v = Ok m -> v <> 0 -> charged e i t m = v.
Proof.
  intros H N. unfold charged. unfold asset_transfer_from in H. rewrite (proj2 (Z.eqb_neq _ _) N) in H. destruct (e_addr_ok e t).
  - apply Ok_inj in H. subst m. cbn. rewrite !String.eqb_refl. cbn. lia.
  - unfold attached in *. destruct (List.find _ (i_funds i)) as [c|]; [|discriminate H]. destruct (Z.leb_spec v (c_amount c)); [|discriminate H].
    apply Ok_inj in H. subst m. destruct (Z.eqb_spec (c_amount c - v) 0); cbn; [lia|]. rewrite !String.eqb_refl. cbn. lia.
Qed.
Lemma from_cw20 e i t v m : asset_transfer_from e i t v = Ok m -> e_addr_ok e t = true -> charged e i t m = v.
Proof.
  intros H A. destruct (Z.eq_dec v 0) as [->|N]; [|by apply from_exact]. apply Ok_inj in H. subst m. unfold charged. rewrite A. reflexivity.
Qed.
Lemma charged_exact e i k x y m0 m1 : pk_x k <> pk_y k ->
  asset_transfer_from e i (pk_x k) x = Ok m0 -> asset_transfer_from e i (pk_y k) y = Ok m1 ->
  (x <> 0 \/ e_addr_ok e (pk_x k) = true -> charged e i (pk_x k) (m0 ++ m1) = x) /\ (y <> 0 \/ e_addr_ok e (pk_y k) = true -> charged e i (pk_y k) (m0 ++ m1) = y).
Proof.
  intros N H0 H1. split; intros NZ;
    [assert (C : charged e i (pk_x k) m0 = x) by (destruct NZ; [by apply from_exact|by apply from_cw20])|assert (C : charged e i (pk_y k) m1 = y) by (destruct NZ; [by apply from_exact|by apply from_cw20])];
    unfold charged in *; rewrite paid_app, pulled_app.
  - destruct (from_other _ _ _ _ _ (pk_x k) H1 ltac:(congruence)) as [-> ->]. rewrite !Z.add_0_r. exact C.
  - destruct (from_other _ _ _ _ _ (pk_y k) H0 ltac:(congruence)) as [-> ->]. exact C.
Qed.
(** opening a position charges what [calculate_amount_delta] says *)
Lemma open_charge e i s k lower upper liq sl su s' ms at' p : reachable s ->
  execute e i s (CreatePosition k lower upper liq sl su) = Ok (s', ms, at') \/ execute e i s (Mint k lower upper liq sl su) = Ok (s', ms, at') ->
  st_pools s !! k = Some p ->
  exists x y upd, calculate_amount_delta (p_tick p) (p_price p) liq true upper lower = Ok (x, y, upd) /\ 0 < liq /\
    rest (spacing k) (p_tick p) (p_price p) /\ 1 <= spacing k /\ legal_tick (spacing k) lower /\ legal_tick (spacing k) upper /\ lower < upper /\
    (x <> 0 \/ e_addr_ok e (pk_x k) = true -> charged e i (pk_x k) ms = x) /\ (y <> 0 \/ e_addr_ok e (pk_y k) = true -> charged e i (pk_y k) ms = y).
Proof.
  intros R H Ep. pose proof (reachable_ereach _ R) as ER.
  assert (0 <= liq <= U128MAX /\ create_position e i s k lower upper liq sl su = Ok (s', ms, at')) as [HQ HC].
  { unfold execute in H. destruct H as [H|H]; (destruct (_ && _) eqn:TY; [|done]); apply andb_prop in TY; destruct TY as [TE TY];
      cbn [dispatch msg_typed] in H, TY; (split; [|exact H]); repeat (apply andb_prop in TY; destruct TY as [TY ?]);
      match goal with Q : u128_ok liq = true |- _ => by apply in_range_spec in Q end. }
  assert (ER' : ereach s') by (apply reachable_ereach; destruct H as [H|H]; by eapply reach_call).
  pose proof (pool_distinct s k ER ltac:(eauto)) as N. apply create_inv in HC; [|done|done].
  destruct HC as (p0 & lt & ut & po & p' & lt' & ut' & x & y & bm1 & bm2 & m0 & m1 & F). destruct F.
  assert (p0 = p) as -> by congruence. pose proof (mf_amount _ _ _ _ _ _ _ _ _ _ _ _ _ _ _ _ cx_mod) as AD.
  rewrite (tp_index _ _ _ _ cx_lowp), (tp_index _ _ _ _ cx_upp) in AD. pose proof (mf_pos _ _ _ _ _ _ _ _ _ _ _ _ _ _ _ _ cx_mod) as EPO.
  assert (E1 : st_positions s' !! (i_sender i, plen s (i_sender i)) = Some po) by (rewrite cx_store; cbn; by rewrite lookup_insert).
  destruct (lq_pos _ (ereach_liq _ ER') _ _ E1) as [(V1 & V2 & V3 & V4) _]. rewrite EPO in V2, V3. cbn in V2, V3.
  destruct (ereach_geo _ ER _ _ Ep) as [G1 _]. destruct (kv_tier _ (ereach_pools _ ER _ _ Ep)) as [S1 _].
  exists x, y, (in_range_tick lower upper (p_tick p)). split; [exact AD|]. split; [lia|]. split; [exact G1|]. split; [lia|]. split; [exact V2|]. split; [exact V3|]. split; [exact cx_order|].
  rewrite cx_msgs. apply charged_exact; done.
Qed.
(** the contract splits cases on ticks, the SDK on prices *)
Lemma tick_side sp c p t : 1 <= sp -> rest sp c p -> legal_tick sp t -> (c < t <-> p < tprice t).
Proof.
  intros S1 (R1 & R2 & R3) L. split; intros H.
  - pose proof (legal_gap sp c t S1 R1 L H). pose proof (legal_top sp t S1 L). specialize (R3 ltac:(lia)).
    pose proof (legal_price_le sp (c + sp) t (legal_next sp c S1 R1 ltac:(lia)) L ltac:(lia)). lia.
  - destruct (Z.lt_ge_cases c t) as [|GE]; [done|]. pose proof (legal_price_le sp t c L R1 GE). lia.
Qed.
Lemma by_x_inv x lo up cur rnd l y : sdk_liquidity_by_x x lo up cur rnd = Ok (l, y) -> lo < up ->
  let pa := Z.max cur (tprice lo) in let pb := tprice up in
  - MAX_TICK <= lo /\ up <= MAX_TICK /\ pa < pb /\ l = x * (pa * pb / SP_ONE) * LIQ_ONE / (pb - pa) /\
  (tprice lo <= cur -> sdk_calculate_y (cur - tprice lo) l rnd = Ok y) /\ (cur < tprice lo -> y = 0).
Proof.
  unfold sdk_liquidity_by_x. intros H LU. destruct (_ || _) eqn:RG; [discriminate H|]. apply orb_false_iff in RG. rewrite !Z.ltb_ge in RG. destruct RG as [R1 R2].
  inv_bind H as pl E1. apply calculate_sqrt_price_inv in E1 as [_ ->]. inv_bind H as pu E2. apply calculate_sqrt_price_inv in E2 as [_ ->].
  unfold sdk_liquidity_by_x_price in H. destruct (Z.ltb_spec (tprice up) cur); [discriminate H|].
  pose proof (tprice_lt lo up ltac:(lia) LU ltac:(lia)) as OP. cbv zeta. split; [lia|]. split; [lia|].
  destruct (Z.ltb_spec cur (tprice lo)) as [C|C].
  - inv_bind H as n E3. apply ckp_ok in E3 as [-> _]. inv_bind H as n E4. apply id_div in E4 as ->. inv_bind H as d E5. apply ckp_ok in E5 as [-> _].
    inv_bind H as l0 E6. apply mul_div_inv in E6 as [_ ->]. inv_bind H as l1 E7. apply ck_ok in E7 as [-> _]. apply Ok_inj in H. injection H as <- <-.
    rewrite Z.max_r by lia. split; [done|]. split; [done|]. split; [lia|done].
  - inv_bind H as n E3. apply ckp_ok in E3 as [-> _]. inv_bind H as n E4. apply id_div in E4 as ->. inv_bind H as d E5. apply ckp_ok in E5 as [-> D].
    inv_bind H as l0 E6. apply mul_div_inv in E6 as [NZ ->]. inv_bind H as l1 E7. apply ck_ok in E7 as [-> _].
    inv_bind H as df E8. apply ckp_ok in E8 as [-> _]. inv_bind H as y0 E9. apply Ok_inj in H. injection H as <- <-.
    rewrite Z.max_l by lia. split; [lia|]. split; [done|]. split; [intros _; exact E9|lia].
Qed.
Lemma by_y_inv y lo up cur rnd l x : sdk_liquidity_by_y y lo up cur rnd = Ok (l, x) -> lo < up ->
  let pa := tprice lo in let pb := Z.min cur (tprice up) in
  - MAX_TICK <= lo /\ up <= MAX_TICK /\ pa < pb /\ l = y * SP_ONE * LIQ_ONE / (pb - pa) /\
  (cur < tprice up -> sdk_calculate_x (tprice up - cur) (cur * tprice up / SP_ONE) l rnd = Ok x) /\ (tprice up <= cur -> x = 0).
Proof.
  unfold sdk_liquidity_by_y. intros H LU. destruct (_ || _) eqn:RG; [discriminate H|]. apply orb_false_iff in RG. rewrite !Z.ltb_ge in RG. destruct RG as [R1 R2].
  inv_bind H as pl E1. apply calculate_sqrt_price_inv in E1 as [_ ->]. inv_bind H as pu E2. apply calculate_sqrt_price_inv in E2 as [_ ->].
  unfold sdk_liquidity_by_y_price in H. destruct (Z.ltb_spec cur (tprice lo)); [discriminate H|].
  pose proof (tprice_lt lo up ltac:(lia) LU ltac:(lia)) as OP. cbv zeta. split; [lia|]. split; [lia|].
  destruct (Z.leb_spec (tprice up) cur) as [C|C].
  - inv_bind H as d E5. apply ckp_ok in E5 as [-> _].
    inv_bind H as l0 E6. apply mul_div_inv in E6 as [_ ->]. inv_bind H as l1 E7. apply ck_ok in E7 as [-> _]. apply Ok_inj in H. injection H as <- <-.
    rewrite Z.min_r by lia. split; [done|]. split; [done|]. split; [lia|done].
  - inv_bind H as d E5. apply ckp_ok in E5 as [-> D].
    inv_bind H as l0 E6. apply mul_div_inv in E6 as [NZ ->]. inv_bind H as l1 E7. apply ck_ok in E7 as [-> _].
    inv_bind H as n E3. apply ckp_ok in E3 as [-> _]. inv_bind H as n E4. apply id_div in E4 as ->.
    inv_bind H as df E8. apply ckp_ok in E8 as [-> _]. inv_bind H as y0 E9. apply Ok_inj in H. injection H as <- <-.
    rewrite Z.min_l by lia. split; [lia|]. split; [done|]. split; [intros _; exact E9|lia].
Qed.

(** * C47: opening a position with the computed liquidity charges exactly the given amount *)
Theorem C47_by_x e i s k p x lower upper rnd l y sl su s' ms at' :
  reachable s -> st_pools s !! k = Some p -> 0 <= x ->
  sdk_liquidity_by_x x lower upper (p_price p) rnd = Ok (l, y) ->
  execute e i s (CreatePosition k lower upper l sl su) = Ok (s', ms, at') \/ execute e i s (Mint k lower upper l sl su) = Ok (s', ms, at') ->
  charged e i (pk_x k) ms = x.
Proof.
  intros R Ep X SD H. destruct (open_charge _ _ _ _ _ _ _ _ _ _ _ _ _ R H Ep) as (x' & y' & u & AD & L0 & RS & S1 & LL & LU & LT & CX & _).
  destruct (by_x_inv _ _ _ _ _ _ _ SD LT) as (_ & _ & PP & EL & _). cbv zeta in PP, EL.
  pose proof (tick_side _ _ _ _ S1 RS LL) as TL. pose proof (tick_side _ _ _ _ S1 RS LU) as TU.
  pose proof (legal_price_range _ _ LL) as RL. pose proof (legal_price_range _ _ LU) as RU. pose proof RS as (RS1 & RS2 & _). pose proof (legal_price_range _ _ RS1) as RC.
  assert (x' = x) as ->.
  { unfold calculate_amount_delta in AD. destruct (upper <? lower); [discriminate AD|]. destruct (Z.ltb_spec (p_tick p) lower) as [A|A]; [|destruct (Z.ltb_spec (p_tick p) upper) as [B|B]].
    - inv_bind AD as pl E1. apply calculate_sqrt_price_inv in E1 as [_ ->]. inv_bind AD as pu E2. apply calculate_sqrt_price_inv in E2 as [_ ->].
      inv_bind AD as v EV. apply Ok_inj in AD. injection AD as <- <- <-. apply TL in A. rewrite Z.max_r in PP, EL by lia. rewrite EL in EV. eapply by_x_exact; [| | |reflexivity|exact EV]; lia.
    - inv_bind AD as pu E2. apply calculate_sqrt_price_inv in E2 as [_ ->]. inv_bind AD as v EV. inv_bind AD as pl E1. inv_bind AD as v2 EW. apply Ok_inj in AD. injection AD as <- <- <-.
      rewrite Z.max_l in PP, EL by lia. rewrite EL in EV. eapply by_x_exact; [| | |reflexivity|exact EV]; lia.
    - exfalso. assert (tprice upper <= p_price p) by lia. lia. }
  apply CX. left. intros ->. rewrite !Z.mul_0_l, Zdiv_0_l in EL. lia.
Qed.
Theorem C47_by_y e i s k p y lower upper rnd l x sl su s' ms at' :
  reachable s -> st_pools s !! k = Some p -> 0 <= y ->
  sdk_liquidity_by_y y lower upper (p_price p) rnd = Ok (l, x) ->
  execute e i s (CreatePosition k lower upper l sl su) = Ok (s', ms, at') \/ execute e i s (Mint k lower upper l sl su) = Ok (s', ms, at') ->
  charged e i (pk_y k) ms = y.
Proof.
  intros R Ep X SD H. destruct (open_charge _ _ _ _ _ _ _ _ _ _ _ _ _ R H Ep) as (x' & y' & u & AD & L0 & RS & S1 & LL & LU & LT & _ & CY).
  destruct (by_y_inv _ _ _ _ _ _ _ SD LT) as (_ & _ & PP & EL & _). cbv zeta in PP, EL.
  pose proof (tick_side _ _ _ _ S1 RS LL) as TL. pose proof (tick_side _ _ _ _ S1 RS LU) as TU.
  pose proof (legal_price_range _ _ LL) as RL. pose proof (legal_price_range _ _ LU) as RU. pose proof RS as (RS1 & RS2 & _). pose proof (legal_price_range _ _ RS1) as RC.
  assert (MIN_SQRT_PRICE = 15258932000000000000) as MP by reflexivity.
  assert (y' = y) as ->.
  { unfold calculate_amount_delta in AD. destruct (upper <? lower); [discriminate AD|]. destruct (Z.ltb_spec (p_tick p) lower) as [A|A]; [|destruct (Z.ltb_spec (p_tick p) upper) as [B|B]].
    - exfalso. lia.
    - inv_bind AD as pu E2. apply calculate_sqrt_price_inv in E2 as [_ ->]. inv_bind AD as v EV. inv_bind AD as pl E1. apply calculate_sqrt_price_inv in E1 as [_ ->].
      inv_bind AD as v2 EW. apply Ok_inj in AD. injection AD as <- <- <-.
      rewrite Z.min_l in PP, EL by lia. rewrite EL in EW. eapply by_y_exact; [| | |exact EW]; lia.
    - inv_bind AD as pl E1. apply calculate_sqrt_price_inv in E1 as [_ ->]. inv_bind AD as pu E2. apply calculate_sqrt_price_inv in E2 as [_ ->].
      inv_bind AD as v EV. apply Ok_inj in AD. injection AD as <- <- <-. rewrite Z.min_r in PP, EL by lia. rewrite EL in EV. eapply by_y_exact; [| | |exact EV]; lia. }
  apply CY. left. intros ->. rewrite !Z.mul_0_l, Zdiv_0_l in EL. lia.
Qed.

(** the liquidity for 10000 tokenx in the range (-10, 10): 10000 tokenx are taken, and 10001 tokeny *)
Definition lq_calls : list (string * exec_msg) :=
  [("alice", AddFeeTier v_tier); ("alice", CreatePool "tokeny" "tokenx" v_tier SP_ONE 0)]%string.
Example ex_C47 : match start 10000000000 lq_calls with
  | Ok s => match sdk_liquidity_by_x 10000 (-10) 10 SP_ONE true with
            | Ok (l, y) => l = 20006000399999 /\ y = 10000 /\
                match execute v_env (v_info "bob") s (CreatePosition v_key (-10) 10 l SP_ONE SP_ONE) with
                | Ok (_, ms, _) => charged v_env (v_info "bob") "tokenx" ms = 10000 /\ charged v_env (v_info "bob") "tokeny" ms = 10001
                | _ => False
                end
            | _ => False
            end
  | _ => False
  end.
Proof. vm_compute. repeat split. Qed.

(** * C48: the amount of the other token that the SDK reports *)
(** The contract can charge more than the SDK reports with rounding up: the pool is new, its price is 1. *)
Theorem C48_refuted : exists s p x l y s' ms at', reachable s /\ st_pools s !! v_key = Some p /\
  sdk_liquidity_by_x x (-10) 10 (p_price p) true = Ok (l, y) /\
  execute v_env (v_info "bob") s (CreatePosition v_key (-10) 10 l (p_price p) (p_price p)) = Ok (s', ms, at') /\
  charged v_env (v_info "bob") (pk_y v_key) ms = y + 1.
Proof.
  assert (Q : exists s, start 10000000000 lq_calls = Ok s /\
     match st_pools s !! v_key with Some p => p_price p = SP_ONE | None => False end /\
     match execute v_env (v_info "bob") s (CreatePosition v_key (-10) 10 20006000399999 SP_ONE SP_ONE) with Ok (_, ms, _) => charged v_env (v_info "bob") (pk_y v_key) ms = 10000 + 1 | _ => False end)
    by (apply ok_inv; vm_compute; split; reflexivity).
  destruct Q as (s & R & P & X). destruct (st_pools s !! v_key) as [p|] eqn:EP; [|destruct P].
  destruct (execute v_env (v_info "bob") s _) as [[[s' ms] at']|?|] eqn:EX; [|destruct X|destruct X].
  exists s, p, 10000, 20006000399999, 10000, s', ms, at'. rewrite P. split; [eapply start_reachable, R|]. split; [exact EP|]. split; [vm_compute; reflexivity|]. split; [exact EX|exact X].
Qed.

Lemma other_y D l y y' pa pb : 0 <= D -> 0 <= l -> D = Z.abs (pa - pb) -> sdk_calculate_y D l true = Ok y -> get_delta_y pa pb l true = Ok y' -> y' <= y + D / SP_ONE + 1.
Proof.
  intros HD HL ED HY H. unfold sdk_calculate_y in HY. apply ck_ok in HY as [-> _]. unfold get_delta_y in H. rewrite <- ED in H. unfold mul_to_value_up in H.
  inv_bind H as a E. apply ck_ok in E as [-> _]. apply ck_ok in H as [-> _].
  pose proof (Z.mul_succ_div_gt (D * (l / LIQ_ONE) + (SP_ONE - 1)) SP_ONE ltac:(reflexivity)) as Y1. set (y := (D * (l / LIQ_ONE) + (SP_ONE - 1)) / SP_ONE) in *.
  pose proof (Z.mul_succ_div_gt D SP_ONE ltac:(reflexivity)) as Y2. pose proof (Z.mul_succ_div_gt l LIQ_ONE ltac:(reflexivity)) as Y3.
  set (q := l / LIQ_ONE) in *. set (d := D / SP_ONE) in *. clearbody y q d.
  assert (D * l <= D * (LIQ_ONE * Z.succ q)) by (apply Z.mul_le_mono_nonneg_l; lia).
  apply ceil_le; [reflexivity|]. apply ceil_le; [reflexivity|]. unfold SP_ONE, LIQ_ONE in *. nia.
Qed.
Lemma other_x nom l n x x' pa pb : 0 <= nom -> 0 <= l -> 0 < n -> nom = Z.abs (pa - pb) -> n = pa * pb / SP_ONE ->
  sdk_calculate_x nom n l true = Ok x -> get_delta_x pa pb l true = Ok x' -> (x' - x - 1) * (LIQ_ONE * n) < SP_ONE + n.
Proof.
  intros HN HL N0 EN En HX H. unfold sdk_calculate_x in HX. inv_bind HX as c1 E1. apply ckp_ok in E1 as [-> _]. inv_bind HX as c2 E2. unfold big_div in E2.
  rewrite (proj2 (Z.eqb_neq n 0)) in E2 by lia. apply ckp_ok in E2 as [-> _]. apply ck_ok in HX as [-> _].
  unfold get_delta_x in H. rewrite <- EN in H. unfold mul_to_value in H. rewrite <- En in H.
  unfold big_div_values_to_token_up in H. inv_bind H as m F1. apply ck_ok in F1 as [-> _]. inv_bind H as d1 F2. apply ckp_ok in F2 as [-> _].
  inv_bind H as a F3. apply ck_ok in F3 as [-> _]. inv_bind H as q F4. unfold cdiv in F4. destruct (n =? 0); [discriminate F4|]. apply Ok_inj in F4 as <-.
  inv_bind H as q F5. apply ck_ok in F5 as [-> _]. inv_bind H as q F6. apply ck_ok in F6 as [-> _]. apply ck_ok in H as [-> _].
  set (v := nom * l / LIQ_ONE). pose proof (Z.mul_div_le (nom * l) LIQ_ONE ltac:(reflexivity)) as V1. fold v in V1.
  assert (X1 : (((v * SP_ONE + (n - 1)) / n + (SP_ONE - 1)) / SP_ONE - 1) * n < v).
  { destruct (Z.lt_ge_cases ((((v * SP_ONE + (n - 1)) / n + (SP_ONE - 1)) / SP_ONE - 1) * n) v) as [|C]; [done|exfalso].
    set (r := ((v * SP_ONE + (n - 1)) / n + (SP_ONE - 1)) / SP_ONE) in *.
    assert (r <= r - 1); [|lia]. unfold r at 1. apply ceil_le; [reflexivity|]. apply ceil_le; [done|]. unfold SP_ONE. nia. }
  fold v. set (x' := ((v * SP_ONE + (n - 1)) / n + (SP_ONE - 1)) / SP_ONE) in *. clearbody x' v.
  pose proof (Z.mul_succ_div_gt (l * nom) SP_ONE ltac:(reflexivity)) as C1. set (c1 := l * nom / SP_ONE) in *.
  pose proof (Z.mul_succ_div_gt (c1 * SP_ONE) n N0) as C2. set (c2 := c1 * SP_ONE / n) in *. clearbody c1 c2.
  pose proof (Z.mul_succ_div_gt (c2 + LIQ_ONE - 1) LIQ_ONE ltac:(reflexivity)) as C3. set (x := (c2 + LIQ_ONE - 1) / LIQ_ONE) in *. clearbody x.
  assert (c2 * n <= LIQ_ONE * x * n) by (apply Z.mul_le_mono_nonneg_r; lia). unfold SP_ONE, LIQ_ONE in *. nia.
Qed.

(** What holds: the charge exceeds the report by at most one unit plus the rounded-down liquidity, worth up to one
    10^24-th of the price difference; for token x by less than 1 + (10^24 + n) / (10^6 n) units, where n is the product
    of the square roots of the current and the upper price.  So by at most one unit where these prices are at most,
    respectively at least, 1.  Missing from C48: the charge can be above the report at all. *)
Theorem C48_by_x_partial e i s k p x lower upper l y sl su s' ms at' pl :
  reachable s -> st_pools s !! k = Some p -> 0 <= x -> e_addr_ok e (pk_y k) = true ->
  calculate_sqrt_price lower = Ok pl ->
  sdk_liquidity_by_x x lower upper (p_price p) true = Ok (l, y) ->
  execute e i s (CreatePosition k lower upper l sl su) = Ok (s', ms, at') \/ execute e i s (Mint k lower upper l sl su) = Ok (s', ms, at') ->
  (p_price p < pl -> y = 0 /\ charged e i (pk_y k) ms = 0) /\
  (pl <= p_price p -> charged e i (pk_y k) ms <= y + (p_price p - pl) / 10 ^ 24 + 1) /\
  (pl <= p_price p < 10 ^ 24 -> charged e i (pk_y k) ms <= y + 1).
Proof.
  intros R Ep X AO E1 SD H. apply calculate_sqrt_price_inv in E1 as [_ ->].
  destruct (open_charge _ _ _ _ _ _ _ _ _ _ _ _ _ R H Ep) as (x' & y' & u & AD & L0 & RS & S1 & LL & LU & LT & _ & CY).
  rewrite (CY (or_intror AO)). destruct (by_x_inv _ _ _ _ _ _ _ SD LT) as (_ & _ & PP & EL & Y1 & Y2). cbv zeta in PP, EL.
  pose proof (tick_side _ _ _ _ S1 RS LL) as TL. pose proof (tick_side _ _ _ _ S1 RS LU) as TU. pose proof (legal_price_range _ _ LL) as RL. assert (MIN_SQRT_PRICE = 15258932000000000000) as MP by reflexivity.
  unfold calculate_amount_delta in AD. destruct (upper <? lower); [discriminate AD|]. destruct (Z.ltb_spec (p_tick p) lower) as [A|A]; [|destruct (Z.ltb_spec (p_tick p) upper) as [B|B]].
  - inv_bind AD as pl E1. inv_bind AD as pu E2. inv_bind AD as v EV. apply Ok_inj in AD. injection AD as <- <- <-. apply TL in A. split; [intros _; split; [by apply Y2|done]|]. split; intros; lia.
  - inv_bind AD as pu E2. inv_bind AD as v EV. inv_bind AD as pl E1. apply calculate_sqrt_price_inv in E1 as [_ ->].
    inv_bind AD as v2 EW. apply Ok_inj in AD. injection AD as <- <- <-.
    assert (C : tprice lower <= p_price p) by lia. split; [lia|].
    pose proof (other_y (p_price p - tprice lower) l y v2 (tprice lower) (p_price p) ltac:(lia) ltac:(lia) ltac:(lia) (Y1 C) EW) as B1.
    change (10 ^ 24) with SP_ONE. split; [intros _; exact B1|]. intros [_ D]. rewrite Z.div_small in B1 by lia. lia.
  - exfalso. assert (tprice upper <= p_price p) by lia. lia.
Qed.
Theorem C48_by_y_partial e i s k p y lower upper l x sl su s' ms at' pu :
  reachable s -> st_pools s !! k = Some p -> 0 <= y -> e_addr_ok e (pk_x k) = true ->
  calculate_sqrt_price upper = Ok pu ->
  sdk_liquidity_by_y y lower upper (p_price p) true = Ok (l, x) ->
  execute e i s (CreatePosition k lower upper l sl su) = Ok (s', ms, at') \/ execute e i s (Mint k lower upper l sl su) = Ok (s', ms, at') ->
  let n := p_price p * pu / 10 ^ 24 in
  (pu <= p_price p -> x = 0 /\ charged e i (pk_x k) ms = 0) /\
  (p_price p < pu -> (charged e i (pk_x k) ms - x - 1) * (10 ^ 6 * n) < 10 ^ 24 + n) /\
  (p_price p < pu -> 10 ^ 24 <= n -> charged e i (pk_x k) ms <= x + 1).
Proof.
  intros R Ep X AO E1 SD H. apply calculate_sqrt_price_inv in E1 as [_ ->].
  destruct (open_charge _ _ _ _ _ _ _ _ _ _ _ _ _ R H Ep) as (x' & y' & u & AD & L0 & RS & S1 & LL & LU & LT & CX & _).
  rewrite (CX (or_intror AO)). destruct (by_y_inv _ _ _ _ _ _ _ SD LT) as (_ & _ & PP & EL & Y1 & Y2). cbv zeta in PP, EL.
  pose proof (tick_side _ _ _ _ S1 RS LL) as TL. pose proof (tick_side _ _ _ _ S1 RS LU) as TU. pose proof (legal_price_range _ _ LL) as RL. assert (MIN_SQRT_PRICE = 15258932000000000000) as MP by reflexivity.
  pose proof (legal_price_range _ _ LU) as RU. intros n. change (10 ^ 24) with SP_ONE in *. change (10 ^ 6) with LIQ_ONE.
  unfold calculate_amount_delta in AD. destruct (upper <? lower); [discriminate AD|]. destruct (Z.ltb_spec (p_tick p) lower) as [A|A]; [|destruct (Z.ltb_spec (p_tick p) upper) as [B|B]].
  - exfalso. lia.
  - inv_bind AD as pu E2. apply calculate_sqrt_price_inv in E2 as [_ ->]. inv_bind AD as v EV. inv_bind AD as pl E1.
    inv_bind AD as v2 EW. apply Ok_inj in AD. injection AD as <- <- <-. apply TU in B. split; [lia|].
    assert (N0 : 0 < n).
    { unfold n. apply Z.div_str_pos. split; [reflexivity|]. assert (15258932000000000000 * 15258932000000000000 <= p_price p * tprice upper) by (apply Z.mul_le_mono_nonneg; lia). unfold SP_ONE. lia. }
    pose proof (other_x (tprice upper - p_price p) l n x v (p_price p) (tprice upper) ltac:(lia) ltac:(lia) N0 ltac:(lia) eq_refl (Y1 B) EV) as B1. split; [intros _; exact B1|].
    intros _ NN. clearbody n. destruct (Z.le_gt_cases v (x + 1)) as [|C]; [done|]. assert (1 * (LIQ_ONE * n) <= (v - x - 1) * (LIQ_ONE * n)) by (apply Z.mul_le_mono_nonneg_r; unfold LIQ_ONE; lia). unfold LIQ_ONE in *. lia.
  - inv_bind AD as pl E1. inv_bind AD as pu E2. inv_bind AD as v EV. apply Ok_inj in AD. injection AD as <- <- <-.
    assert (tprice upper <= p_price p) by lia. split; [intros _; split; [by apply Y2|done]|]. split; intros; lia.
Qed.

(** * C49: the SDK's fee calculator reports what a claim pays *)
Lemma sdk_fee_eq po p lt ut x y : t_index lt = po_lower po -> t_index ut = po_upper po ->
  sdk_calculate_fee (po_lower po) (t_fox lt) (t_foy lt) (po_upper po) (t_fox ut) (t_foy ut) (p_tick p) (p_fgx p) (p_fgy p) (po_fgx po) (po_fgy po) (po_liq po) = Ok (x, y) <->
  to_fee (wsub (inside_x p lt ut) (po_fgx po)) (po_liq po) = Ok x /\ to_fee (wsub (inside_y p lt ut) (po_fgy po)) (po_liq po) = Ok y.
Proof.
  intros IL IU. unfold sdk_calculate_fee, inside_x, inside_y. rewrite IL, IU. split.
  - intros H. inv_bind H as a E1. inv_bind H as b E2. apply Ok_inj in H. injection H as -> ->. auto.
  - intros [E1 E2]. rewrite E1. cbn [bind]. rewrite E2. reflexivity.
Qed.
Theorem C49_fee e i s ix po p lt ut x y :
  reachable s -> env_typed e i = true -> st_positions s !! (i_sender i, ix) = Some po -> st_pools s !! po_key po = Some p ->
  st_ticks s !! (po_key po, po_lower po) = Some lt -> st_ticks s !! (po_key po, po_upper po) = Some ut ->
  sdk_calculate_fee (po_lower po) (t_fox lt) (t_foy lt) (po_upper po) (t_fox ut) (t_foy ut)
    (p_tick p) (p_fgx p) (p_fgy p) (po_fgx po) (po_fgy po) (po_liq po) = Ok (x, y) <->
  exists s' ms, execute e i s (ClaimFee ix) = Ok (s', ms, [("amount_x"%string, x); ("amount_y"%string, y)]) /\
    forall T, paid (i_sender i) T ms = if String.eqb T (pk_x (po_key po)) then x else if String.eqb T (pk_y (po_key po)) then y else 0.
Proof.
  intros RE TY E EP TL TU. pose proof (reachable_ereach _ RE) as R. pose proof (ereach_liq _ R) as LI.
  pose proof (proj1 (ct_some _ _ (ereach_pos_ok _ R) (i_sender i) ix) ltac:(eauto)) as IX. pose proof (ct_range _ _ (ereach_pos_ok _ R) (i_sender i)) as IR. unfold U32MAX in IR.
  destruct (ereach_unowed _ R _ _ E) as [O1 O2]. pose proof (ereach_indexed _ R) as II. pose proof (II _ _ _ TL) as IL. pose proof (II _ _ _ TU) as IU.
  rewrite execute_claim by (try done; lia). rewrite (sdk_fee_eq po p lt ut x y IL IU). split.
  - intros [OX OY]. assert (BX : 0 <= x <= U128MAX) by (unfold to_fee in OX; repeat (let F := fresh in inv_bind OX as ? F); apply ck_ok in OX as [-> ?]; done).
    assert (BY : 0 <= y <= U128MAX) by (unfold to_fee in OY; repeat (let F := fresh in inv_bind OY as ? F); apply ck_ok in OY as [-> ?]; done).
    destruct (claim_ok e i s ix po p lt ut x y R E EP TL TU OX OY ltac:(lia) ltac:(lia)) as [s' C]. rewrite O1, O2, !Z.add_0_l in C.
    eexists _, _. split; [exact C|]. intros T. pose proof (transfers_pay e i (po_key po) x y ltac:(apply (pool_distinct s); eauto) (i_sender i) T) as P. rewrite String.eqb_refl in P. exact P.
  - intros (s' & ms & C & _). apply claim_inv in C; [|done]. destruct C as (po' & p' & lt' & ut' & po1 & p1 & l1 & u1 & zx & zy & ox & oy & F). destruct F.
    rewrite E in cl_pos. injection cl_pos as <-. rewrite EP in cl_pool. injection cl_pool as <-. rewrite TL in cl_low. injection cl_low as <-. rewrite TU in cl_up. injection cl_up as <-.
    pose proof (mf_ox _ _ _ _ _ _ _ _ _ _ _ _ _ _ _ _ cl_mod) as OX. pose proof (mf_oy _ _ _ _ _ _ _ _ _ _ _ _ _ _ _ _ cl_mod) as OY.
    rewrite O1, O2, !Z.add_0_l in cl_attr. injection cl_attr as -> ->. auto.
Qed.

(** alice's first position of the scenario has earned 13 tokenx *)
Example ex_C49 : match st_positions sc0 !! ("alice"%string, 0), st_pools sc0 !! v_key, st_ticks sc0 !! (v_key, -10), st_ticks sc0 !! (v_key, 10) with
  | Some po, Some p, Some lt, Some ut => po_key po = v_key /\ po_lower po = -10 /\ po_upper po = 10 /\
      sdk_calculate_fee (po_lower po) (t_fox lt) (t_foy lt) (po_upper po) (t_fox ut) (t_foy ut) (p_tick p) (p_fgx p) (p_fgy p) (po_fgx po) (po_fgy po) (po_liq po) = Ok (13, 0)
  | _, _, _, _ => False
  end.
Proof. vm_compute. repeat split. Qed.

(** * C50: a client that expands the tickmap finds the pool's ticks *)
Theorem C50_expand s k p t : reachable s -> st_pools s !! k = Some p ->
  is_Some (st_ticks s !! (k, t)) <->
  exists c v b, st_bitmap s !! (k, c) = Some v /\ 0 <= b < 64 /\ Z.testbit v b = true /\ position_to_tick c b (ft_spacing (pk_tier k)) = Ok t.
Proof.
  intros RE E. pose proof (reachable_ereach _ RE) as R. pose proof (ereach_liq _ R) as LI. rewrite <- (lq_init _ LI k t) by eauto.
  destruct (kv_tier _ (ereach_pools _ R _ _ E)) as [S1 _]. set (sp := ft_spacing (pk_tier k)) in *.
  assert (S2 : 1 <= sp <= 100) by lia.
  assert (PT : forall u, legal_tick sp u -> position_to_tick (bit_index sp u / 64) (bit_index sp u mod 64) sp = Ok u).
  { intros u L. pose proof (div_range sp u ltac:(lia) L) as DR. pose proof (legal_mult sp u ltac:(lia) L) as EU.
    pose proof (Z.div_mod (bit_index sp u) 64 ltac:(lia)) as DM. pose proof (Z.mod_pos_bound (bit_index sp u) 64 ltac:(lia)) as MB.
    assert (T0 : 0 <= MAX_TICK / sp) by (apply Z.div_pos; [discriminate|lia]). pose proof (Z.mul_div_le MAX_TICK sp ltac:(lia)) as T1.
    assert (BI : 0 <= bit_index sp u <= 2 * (MAX_TICK / sp)) by (unfold bit_index; lia).
    set (c := bit_index sp u / 64) in *. set (b := bit_index sp u mod 64) in *.
    assert (C0 : 0 <= c) by (apply Z.div_pos; lia). change MAX_TICK with 221818 in *.
    assert (MX : 221818 - Z.rem 221818 sp = 221818 / sp * sp).
    { rewrite Z.rem_mod_nonneg by lia. pose proof (Z.div_mod 221818 sp ltac:(lia)). lia. }
    assert (V : c * 64 * sp + b * sp = (u / sp + 221818 / sp) * sp) by (unfold bit_index in DM; change MAX_TICK with 221818 in DM; nia).
    unfold position_to_tick. rewrite (proj2 (Z.eqb_neq sp 0)) by lia. cbv zeta. change MAX_TICK with 221818. rewrite MX. unfold CHUNK_SIZE.
    assert (IR : forall v, -2147483648 <= v <= 2147483647 -> in_range (-2147483648) 2147483647 v = true) by (intros; by apply in_range_spec).
    assert (0 <= b * sp) by nia. assert (0 <= c * 64 * sp) by nia. 
    rewrite IR by nia. cbn [bind]. rewrite IR by nia. cbn [bind]. rewrite IR by nia. cbn [bind]. rewrite IR by nia. cbn [bind]. rewrite IR by nia. f_equal. nia. }
  split.
  - intros H. assert (L : legal_tick sp t) by (unfold is_init, get_bitmap in H; apply bind_ok in H as ([c b'] & H & _); apply tick_to_position_inv in H; [tauto|lia]).
    apply is_init_bit in H; [|lia|done]. unfold bit_set, bitmap_chunk in H.
    destruct (st_bitmap s !! (k, bit_index sp t / 64)) as [v|] eqn:EB; [|cbn in H; by rewrite Z.bits_0 in H].
    exists (bit_index sp t / 64), v, (bit_index sp t mod 64). split; [exact EB|]. split; [apply Z.mod_pos_bound; lia|]. split; [exact H|]. by apply PT.
  - intros (c & v & b & EB & BB & TB & P).
    assert (DV : (64 * c + b) / 64 = c) by (rewrite Z.mul_comm, Z.div_add_l by lia; rewrite Z.div_small by lia; lia).
    assert (MD : (64 * c + b) mod 64 = b) by (rewrite Z.add_comm, Z.mul_comm, Z.mod_add by lia; apply Z.mod_small; lia).
    destruct (ereach_legal _ R k (64 * c + b)) as (u & L & B). { rewrite DV, MD, EB. exact TB. }
    fold sp in L, B. pose proof (PT u L) as PU. rewrite <- B, DV, MD, P in PU. apply Ok_inj in PU as ->.
    apply is_init_bit; [lia|done|]. fold sp. unfold bit_set, bitmap_chunk. rewrite <- B, DV, MD, EB. exact TB.
Qed.
(** the bits of the scenario's tickmap give the ticks back *)
Example ex_C50 : match st_bitmap sc0 !! (v_key, 346) with
  | Some v => map (fun b => if Z.testbit v b then match position_to_tick 346 b 10 with Ok t => [t] | _ => [] end else []) [35; 36; 37; 38; 39; 40] = [[-20]; [-10]; []; [10]; [20]; [30]]
  | None => False
  end.
Proof. vm_compute. reflexivity. Qed.

(** at a low price the report can be 250 units short *)
Definition low_calls : list (string * exec_msg) :=
  [("alice", AddFeeTier v_tier); ("alice", CreatePool "tokeny" "tokenx" v_tier (sp_at (-199990)) (-199990))]%string.
Theorem C48_by_y_refuted : exists s p y l x s' ms at', reachable s /\ st_pools s !! v_key = Some p /\
  sdk_liquidity_by_y y (-200000) (-190000) (p_price p) true = Ok (l, x) /\
  execute v_env (v_info "bob") s (CreatePosition v_key (-200000) (-190000) l (p_price p) (p_price p)) = Ok (s', ms, at') /\
  charged v_env (v_info "bob") (pk_x v_key) ms = x + 250.
Proof.
  assert (Q : exists s, start 10000000000 low_calls = Ok s /\
     match st_pools s !! v_key with Some p => p_price p = 45445349000000000000 | None => False end /\
     match execute v_env (v_info "bob") s (CreatePosition v_key (-200000) (-190000) 44023772837332 45445349000000000000 45445349000000000000) with
     | Ok (_, ms, _) => charged v_env (v_info "bob") (pk_x v_key) ms = 380852695852 + 250 | _ => False end)
    by (apply ok_inv; vm_compute; split; reflexivity).
  destruct Q as (s & R & P & X). destruct (st_pools s !! v_key) as [p|] eqn:EP; [|destruct P].
  destruct (execute v_env (v_info "bob") s _) as [[[s' ms] at']|?|] eqn:EX; [|destruct X|destruct X].
  exists s, p, 1, 44023772837332, 380852695852, s', ms, at'. rewrite P. split; [eapply start_reachable, R|]. split; [exact EP|]. split; [vm_compute; reflexivity|]. split; [exact EX|exact X].
Qed.
