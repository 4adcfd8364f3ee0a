(** When calls succeed: C79, C80. *)
From Verif Require Import Base Decimal SqrtPrice Clamm Log FeeGrowth Types Tick Pool Position
  Tickmap Keys State Swap Exec Query Tactics PriceProofs ClammProofs PropClamm BitmapProofs PropBitmap KeysProofs Frame Handlers History Basic PosList
  Ledger Vectors Scenario SwapGeo SwapLoop Modify PSum LiqInv Geo Ops Clean PropLiq Growth Value Fund Flow PropSolv Forward PropExit PropFunds PropProt PropBlock PropClock PropAuth PropTrade.
From stdpp Require Import gmap strings.
From Coq Require Import Lia.
Open Scope Z_scope.

(** ** Exact amounts *)
(** between the root prices [a <= b] (24 decimals) for liquidity [L] (6 decimals): what a deposit costs and
    what a withdrawal pays *)
Definition cost_x (L a b : Z) : Z :=
  let n := L * (b - a) / 10 ^ 6 in let d := a * b / 10 ^ 24 in (n + d - 1) / d.
Definition cost_y (L a b : Z) : Z := (L * (b - a) + 10 ^ 30 - 1) / 10 ^ 30.
Definition gain_x (L a b : Z) : Z := L * (b - a) / 10 ^ 6 / ((a * b + 10 ^ 24 - 1) / 10 ^ 24).
Definition gain_y (L a b : Z) : Z := L * (b - a) / 10 ^ 30.

Lemma ceil_ceil n a b : 0 < a -> 0 < b -> ((n + (a - 1)) / a + (b - 1)) / b = (n + a * b - 1) / (a * b).
Proof.
  intros A B. replace ((n + (a - 1)) / a + (b - 1)) with ((n + (a - 1) + (b - 1) * a) / a) by (apply Z.div_add; lia).
  rewrite Z.div_div by lia. f_equal. ring.
Qed.
Lemma delta_x_value pa pb L up : price_ok pa -> price_ok pb -> pa <= pb -> liq_ok L ->
  get_delta_x pa pb L up = Ok (if up then cost_x L pa pb else gain_x L pa pb).
Proof.
  intros A B AB HL. destruct (delta_x_fwd pa pb L up A B HL) as [v H]. rewrite H. f_equal.
  destruct (prod_bound _ _ A B) as [P0 _]. unfold price_ok in A, B.
  assert (P2 : MIN_SQRT_PRICE * MIN_SQRT_PRICE <= pa * pb) by (apply Z.mul_le_mono_nonneg; unfold MIN_SQRT_PRICE in *; lia).
  unfold get_delta_x, mul_to_value, mul_to_value_up in H. unfold cost_x, gain_x.
  replace (Z.abs (pa - pb)) with (pb - pa) in H by lia. rewrite (Z.mul_comm (pb - pa)) in H.
  change (10 ^ 6) with LIQ_ONE. change (10 ^ 24) with SP_ONE. set (n := L * (pb - pa) / LIQ_ONE) in *.
  assert (S0 : 0 < SP_ONE) by reflexivity.
  destruct up.
  - unfold big_div_values_to_token_up, cdiv in H. set (d := pa * pb / SP_ONE) in *.
    assert (D0 : 0 < d) by (apply Z.div_str_pos; unfold MIN_SQRT_PRICE, SP_ONE in *; lia).
    clearbody n d. rewrite (proj2 (Z.eqb_neq d 0)) in H by lia. rinv H. ckinv. subst.
    repeat match goal with H : Ok _ = Ok _ |- _ => injection H as H; try subst end.
    rewrite ceil_ceil by lia. rewrite (Z.mul_comm d). replace (n * SP_ONE + SP_ONE * d - 1) with ((n + d - 1) * SP_ONE + (SP_ONE - 1)) by ring.
    rewrite <- Z.div_div by lia. rewrite Z.div_add_l by lia. rewrite (Z.div_small (SP_ONE - 1)) by lia. f_equal. lia.
  - unfold big_div_values_to_token, cdiv in H. replace (pa * pb + SP_ONE - 1) with (pa * pb + (SP_ONE - 1)) by lia.
    set (d := (pa * pb + (SP_ONE - 1)) / SP_ONE) in *.
    assert (D0 : 0 < d) by (apply Z.div_str_pos; unfold MIN_SQRT_PRICE, SP_ONE in *; lia).
    clearbody n d. rewrite (proj2 (Z.eqb_neq d 0)) in H by lia. rinv H. ckinv. subst.
    repeat match goal with H : Ok _ = Ok _ |- _ => injection H as H; try subst end.
    rewrite Z.div_div, (Z.mul_comm d), (Z.mul_comm n), Z.div_mul_cancel_l by lia. done.
Qed.
Lemma delta_y_value pa pb L up : price_ok pa -> price_ok pb -> pa <= pb -> liq_ok L ->
  get_delta_y pa pb L up = Ok (if up then cost_y L pa pb else gain_y L pa pb).
Proof.
  intros A B AB HL. destruct (delta_y_fwd pa pb L up A B HL) as [v H]. rewrite H. f_equal.
  unfold get_delta_y, mul_to_value, mul_to_value_up in H. unfold cost_y, gain_y. change (10 ^ 30) with (LIQ_ONE * SP_ONE).
  replace (Z.abs (pa - pb)) with (pb - pa) in H by lia. rewrite (Z.mul_comm (pb - pa)) in H.
  destruct up; rinv H; ckinv; subst; [apply ceil_ceil; reflexivity|apply Z.div_div; [discriminate|reflexivity]].
Qed.

Lemma price_sq h : price_ok h -> 0 < h * h / 10 ^ 24.
Proof.
  intros O. unfold price_ok in O. assert (P2 : MIN_SQRT_PRICE * MIN_SQRT_PRICE <= h * h) by (apply Z.mul_le_mono_nonneg; unfold MIN_SQRT_PRICE in *; lia).
  apply Z.div_str_pos. change (10 ^ 24) with SP_ONE. unfold MIN_SQRT_PRICE, SP_ONE in *; lia.
Qed.

(** the price at which a position's range is split *)
Definition clamp (p lo hi : Z) : Z := Z.max lo (Z.min p hi).
Lemma amount_value p k lower upper L up : rest (spacing k) (p_tick p) (p_price p) -> 1 <= spacing k ->
  legal_tick (spacing k) lower -> legal_tick (spacing k) upper -> lower < upper -> liq_ok L ->
  let lo := tprice lower in let hi := tprice upper in let c := clamp (p_price p) lo hi in
  calculate_amount_delta (p_tick p) (p_price p) L up upper lower =
    Ok (if up then cost_x L c hi else gain_x L c hi, if up then cost_y L lo c else gain_y L lo c, in_range_tick lower upper (p_tick p)).
Proof.
  intros (R1 & R2 & R3) S1 V2 V3 V4 HL lo hi c.
  assert (PL := legal_price_range _ _ V2). assert (PU := legal_price_range _ _ V3). assert (OP := legal_price_lt _ _ _ V2 V3 V4).
  assert (PR : MIN_SQRT_PRICE <= p_price p <= MAX_SQRT_PRICE).
  { pose proof (legal_price_range _ _ R1). pose proof (legal_price_range _ _ (top_legal _ S1)). lia. }
  assert (SIDE : (p_tick p < lower -> p_price p <= tprice lower) /\ (lower <= p_tick p -> tprice lower <= p_price p) /\
     (p_tick p < upper -> p_price p <= tprice upper) /\ (upper <= p_tick p -> tprice upper <= p_price p)).
  { assert (GT : forall j, legal_tick (spacing k) j -> p_tick p < j -> p_price p <= tprice j).
    { intros j LJ X. pose proof (legal_gap _ _ _ S1 R1 LJ X). pose proof (legal_top _ _ S1 LJ). specialize (R3 ltac:(lia)).
      pose proof (legal_price_le _ _ _ (legal_next _ _ S1 R1 ltac:(lia)) LJ ltac:(lia)). lia. }
    assert (LE : forall j, legal_tick (spacing k) j -> j <= p_tick p -> tprice j <= p_price p).
    { intros j LJ X. pose proof (legal_price_le _ _ _ LJ R1 X). lia. }
    repeat split; auto. }
  destruct SIDE as (SD1 & SD2 & SD3 & SD4). fold lo hi in SD1, SD2, SD3, SD4, PL, PU, OP.
  assert (C : lo <= c <= hi) by (unfold c, clamp; lia).
  assert (PO : price_ok lo /\ price_ok hi /\ price_ok c) by (unfold price_ok; lia). destruct PO as (O1 & O2 & O3).
  pose proof (delta_x_value c hi L up O3 O2 ltac:(lia) HL) as EX. pose proof (delta_y_value lo c L up O1 O3 ltac:(lia) HL) as EY.
  unfold calculate_amount_delta, in_range_tick. rewrite (proj2 (Z.ltb_ge _ _)) by lia.
  rewrite (calculate_sqrt_price_ok lower), (calculate_sqrt_price_ok upper) by (first [destruct V2; lia|destruct V3; lia]).
  fold lo hi. destruct (Z.ltb_spec (p_tick p) lower) as [X|X].
  - assert (CE : c = lo) by (specialize (SD1 X); unfold c, clamp; lia). rewrite CE in *. cbn [bind]. rewrite EX. cbn [bind].
    rewrite (proj2 (Z.leb_gt _ _)) by lia. cbn [andb]. do 3 f_equal. unfold cost_y, gain_y. rewrite Z.sub_diag, Z.mul_0_r. by destruct up.
  - rewrite (proj2 (Z.leb_le lower (p_tick p))) by lia. destruct (Z.ltb_spec (p_tick p) upper) as [Y|Y]; cbn [bind].
    + assert (CE : c = p_price p) by (specialize (SD2 X); specialize (SD3 Y); unfold c, clamp; lia). rewrite CE in *.
      rewrite EX. cbn [bind]. rewrite EY. done.
    + assert (CE : c = hi) by (specialize (SD4 Y); unfold c, clamp; lia). rewrite CE in *. rewrite EY. cbn [bind andb].
      do 3 f_equal. unfold cost_x, gain_x. rewrite Z.sub_diag, Z.mul_0_r, Z.div_0_l by done. destruct up; [|by rewrite Zdiv_0_l].
      pose proof (price_sq hi O2). symmetry; apply Z.div_small; lia.
Qed.

(** ** Depositing *)
Lemma legal_check_tick i sp : 1 <= sp -> legal_tick sp i -> check_tick i sp = Ok tt.
Proof.
  intros S1 LT. assert (E : i = sp * (i / sp)) by (destruct LT as [_ M]; pose proof (Z.div_mod i sp ltac:(lia)); lia).
  pose proof (legal_top _ _ S1 LT) as T.
  unfold check_tick. rewrite get_min_top, get_max_top by done. rewrite E at 1. rewrite (Z.mul_comm sp), Z.rem_mul by lia. cbn [Z.eqb negb].
  by rewrite !(proj2 (Z.ltb_ge _ _)) by lia.
Qed.
Lemma goc_ok s now k i p : 1 <= spacing k -> st_pools s !! k = Some p -> legal_tick (spacing k) i ->
  0 <= now - p_start p <= U64MAX -> (is_init s k (spacing k) i <-> is_Some (st_ticks s !! (k, i))) ->
  exists s1 t, get_or_create_tick s now k i = Ok (s1, t) /\ stored_or_new s now k p i t /\ st_pools s1 = st_pools s /\
    st_poslen s1 = st_poslen s /\ st_ticks s1 !! (k, i) = Some t /\
    (forall j, j <> i -> st_ticks s1 !! (k, j) = st_ticks s !! (k, j) /\ (is_init s1 k (spacing k) j <-> is_init s k (spacing k) j)).
Proof.
  intros S1 EP LT NOW IFF. unfold get_or_create_tick, State.get_tick. destruct (st_ticks s !! (k, i)) as [t|] eqn:ET.
  - exists s, t. split; [done|]. split; [by left|]. done.
  - assert (C := legal_check_tick _ _ S1 LT).
    assert (TC : exists t, tick_create i p now = Ok t).
    { unfold tick_create. rewrite calculate_sqrt_price_ok by (destruct LT; lia). cbn [unwrap bind].
      destruct (i <=? p_tick p); [rewrite ckp_yes by done|]; cbn [bind]; eauto. }
    destruct TC as [t TC].
    set (s0 := set_ticks s (<[(k, i) := t]> (st_ticks s))).
    assert (FB : get_bitmap s0 i (spacing k) k = Ok false).
    { change (get_bitmap s0 i (spacing k) k) with (get_bitmap s i (spacing k) k).
      destruct (proj1 (C09_flag_defined s k (spacing k) i S1) LT) as [[] G]; [|done]. destruct (proj1 IFF G). done. }
    destruct (C09_flip_changes_one_flag s0 true i (spacing k) k S1) as [[_ F] _]. destruct (F FB) as [s1 FL].
    pose proof (flip_bitmap_ok _ _ _ _ _ _ S1 FL) as (_ & _ & E1).
    exists s1, t. unfold create_tick. fold (spacing k). rewrite C. cbn [bind]. unfold get_pool. rewrite EP. cbn [bind]. rewrite TC. cbn [bind].
    unfold add_tick. rewrite ET. cbn [bind]. fold s0. rewrite FL. cbn [bind]. split; [done|].
    split; [right; done|]. split; [by rewrite E1|]. split; [by rewrite E1|].
    assert (TS : st_ticks s1 = st_ticks s0) by (by rewrite E1). rewrite TS. unfold s0 at 1 2. cbn [st_ticks set_ticks].
    split; [by rewrite lookup_insert|]. intros j NJ. split; [by rewrite lookup_insert_ne by congruence|].
    rewrite (flip_init s0 s1 true i k s1 S1 FL eq_refl k j S1). rewrite decide_False by tauto. done.
Qed.
Lemma net_le_all s k t tk : liq_inv s -> tick_pre (st_positions s) k t tk -> Z.abs (net tk) <= t_gross tk.
Proof.
  intros LI []. assert (V : forall x po, st_positions s !! x = Some po -> pos_valid po) by (intros ?? Q; exact (proj1 (lq_pos _ LI _ _ Q))).
  rewrite tp_gross, tp_net.
  assert (psum (net_at k t) (st_positions s) <= psum (gross_at k t) (st_positions s)).
  { apply psum_le. intros x po E. apply net_le_gross. eauto. }
  assert (psum (fun po => -1 * gross_at k t po) (st_positions s) <= psum (net_at k t) (st_positions s)).
  { apply psum_le. intros x po E. pose proof (net_le_gross k t po (V _ _ E)). lia. }
  rewrite psum_scale in H0. lia.
Qed.
Lemma tick_update_add t delta mx up : 0 <= delta -> 0 <= t_change t <= t_gross t -> t_gross t + delta < mx -> mx <= U128MAX ->
  exists t', tick_update t delta mx up true = Ok t'.
Proof.
  intros D C M X. unfold tick_update, calculate_new_liquidity_gross, update_liquidity_change, add_e, add_p, sub_p. cbn [negb andb].
  rewrite ck_yes by lia. cbn [bind]. rewrite (proj2 (Z.leb_gt _ _)) by lia. cbn [bind].
  destruct (xorb (t_sign t) _); [destruct (Z.ltb_spec delta (t_change t))|]; rewrite ckp_yes by lia; cbn [bind]; eauto.
Qed.
Lemma to_fee_none g : to_fee g 0 = Ok 0.
Proof. unfold to_fee. by rewrite Z.mul_0_r. Qed.

(** the liquidity of all positions of pool [k] that end at tick [t] *)
Definition ending_at (s : store) (k : pool_key) (t : Z) : Z := psum (gross_at k t) (st_positions s).
Definition split_price (p : pool) (lower upper : Z) : Z := clamp (p_price p) (tprice lower) (tprice upper).

Lemma deposit_ok e i s k lower upper L sl su p m0 m1 : ereach s -> env_typed e i = true -> 0 <= p_start p <= e_millis e ->
  st_pools s !! k = Some p -> 0 < L <= U128MAX -> lower < upper -> legal_tick (spacing k) lower -> legal_tick (spacing k) upper ->
  sl <= p_price p <= su ->
  ending_at s k lower + L < calculate_max_liquidity_per_tick (spacing k) ->
  ending_at s k upper + L < calculate_max_liquidity_per_tick (spacing k) ->
  (lower <= p_tick p < upper -> p_liq p + L <= U128MAX) -> plen s (i_sender i) < U32MAX ->
  asset_transfer_from e i (pk_x k) (cost_x L (split_price p lower upper) (tprice upper)) = Ok m0 ->
  asset_transfer_from e i (pk_y k) (cost_y L (tprice lower) (split_price p lower upper)) = Ok m1 ->
  exists s' at', create_position e i s k lower upper L sl su = Ok (s', m0 ++ m1, at').
Proof.
  intros R ET ST EP HL LU VL VU SLP G1 G2 PLQ PN A0 A1. pose proof (ereach_liq _ R) as LI.
  destruct (kv_tier _ (ereach_pools _ R _ _ EP)) as [S1 _]. fold (spacing k) in S1.
  assert (NOW : 0 <= e_millis e - p_start p <= U64MAX).
  { unfold env_typed in ET. apply andb_prop in ET as [ET _]. apply andb_prop in ET as [_ ET].
    unfold u64_ok, in_range in ET. unfold e_millis in *. assert (0 <= e_nanos e <= U64MAX) by lia.
    assert (e_nanos e / 1000000 <= U64MAX) by (apply Z.div_le_upper_bound; lia). lia. }
  destruct (goc_ok s (e_millis e) k lower p ltac:(lia) EP VL NOW (lq_init _ LI k lower ltac:(eauto))) as (s1 & lt & C1 & N1 & C2 & C3 & C4 & C5).
  destruct (C5 upper ltac:(lia)) as [C6 C7].
  destruct (goc_ok s1 (e_millis e) k upper p ltac:(lia) ltac:(by rewrite C2) VU NOW) as (s2 & ut & D1 & N2 & D2 & D3 & D4 & D5).
  { rewrite C7, C6. exact (lq_init _ LI k upper ltac:(eauto)). }
  assert (N2' : stored_or_new s (e_millis e) k p upper ut) by (unfold stored_or_new in *; by rewrite C6 in N2). clear N2.
  destruct (stored_pre _ _ _ _ _ _ LI S1 N1) as [TL GL]. destruct (stored_pre _ _ _ _ _ _ LI S1 N2') as [TU GU].
  pose proof (net_le_all _ _ _ _ LI TL) as NL. pose proof (net_le_all _ _ _ _ LI TU) as NU.
  pose proof (change_net lt (tp_change _ _ _ _ TL)) as CL. pose proof (change_net ut (tp_change _ _ _ _ TU)) as CU.
  pose proof (tp_index _ _ _ _ TL) as IL. pose proof (tp_index _ _ _ _ TU) as IU.
  unfold ending_at in G1, G2. rewrite <- (tp_gross _ _ _ _ TL) in G1. rewrite <- (tp_gross _ _ _ _ TU) in G2.
  pose proof (max_liq_u128 (spacing k) ltac:(lia)) as MX.
  destruct (ereach_geo _ R _ _ EP) as [RS PR].
  destruct (position_modify_ok (mkPosition k 0 lower upper 0 0 (e_height e) 0 0 []) p ut lt L true (e_millis e) (spacing k)
    (cost_x L (split_price p lower upper) (tprice upper)) (cost_y L (tprice lower) (split_price p lower upper)) 0 0) as (po' & p' & u2 & l2 & EM);
    cbn [po_liq po_fgx po_fgy po_owedx po_owedy]; rewrite ?IL, ?IU; try first [lia|done|unfold pm; lia|apply to_fee_none].
  { apply tick_update_add; lia. }
  { apply tick_update_add; lia. }
  { apply (amount_value p k lower upper L true); try done; unfold liq_ok; lia. }
  { unfold in_range_tick, pm. intros Q. lia. }
  pose proof EM as EM'. apply position_modify_index in EM' as [I2 I1].
  unfold create_position. rewrite (proj2 (Z.eqb_neq L 0)), (proj2 (Z.eqb_neq lower upper)) by lia.
  unfold get_pool. rewrite EP. cbn [map_err bind]. rewrite C1. cbn [bind]. rewrite D1. cbn [bind].
  unfold position_create. rewrite !(proj2 (Z.ltb_ge _ _)) by lia. cbn [orb]. fold (spacing k). rewrite IL, IU, EM. cbn [bind].
  unfold add_position. change (get_position_length (save_pool s2 k p')) with (get_position_length s2).
  assert (PE : get_position_length s2 (i_sender i) = plen s (i_sender i)) by (unfold plen, get_position_length; by rewrite D3, C3).
  rewrite PE. pose proof (ct_range _ _ (ereach_pos_ok _ R) (i_sender i)) as PR0. rewrite ckp_yes by lia. cbn [bind].
  rewrite I1, I2, IL, IU. unfold update_tick. cbn [st_ticks set_positions save_pool set_pools set_ticks].
  rewrite (proj1 (D5 lower ltac:(lia))), C4. cbn [bind st_ticks set_ticks]. rewrite lookup_insert_ne by (injection; lia).
  cbn [st_ticks set_positions save_pool set_pools set_ticks]. rewrite D4. cbn [bind]. rewrite A0. cbn [bind]. rewrite A1. cbn [bind]. eauto.
Qed.

(** [T] is a CW20 contract, or nothing is asked for, or the first coin of denomination [T] sent along is enough *)
Definition covered (e : env) (i : msg_info) (T : string) (v : Z) : Prop :=
  v = 0 \/ e_addr_ok e T = true \/
  exists c, List.find (fun c => String.eqb (c_denom c) T) (i_funds i) = Some c /\ v <= c_amount c.
(** the messages that collect [v] of [T] from the caller: a CW20 transfer, or the change of the coin *)
Definition collects (e : env) (i : msg_info) (T : string) (v : Z) : list out_msg :=
  if v =? 0 then [] else
  if e_addr_ok e T then [Cw20TransferFrom T (i_sender i) (e_self e) v] else
  match List.find (fun c => String.eqb (c_denom c) T) (i_funds i) with
  | Some c => if c_amount c =? v then [] else [BankSend (i_sender i) T (c_amount c - v)]
  | None => []
  end.
Lemma collect_iff e i T v m : asset_transfer_from e i T v = Ok m <-> covered e i T v /\ m = collects e i T v.
Proof.
  unfold asset_transfer_from, covered, collects. destruct (Z.eqb_spec v 0) as [|N]; [split; [intros H; apply Ok_inj in H; auto|intros [_ ->]; done]|].
  destruct (e_addr_ok e T); [split; [intros H; apply Ok_inj in H; auto|intros [_ ->]; done]|].
  destruct (List.find _ _) as [c|] eqn:F.
  - destruct (Z.leb_spec v (c_amount c)) as [L|L].
    + assert (Q : (c_amount c - v =? 0) = (c_amount c =? v)) by (destruct (Z.eqb_spec (c_amount c - v) 0), (Z.eqb_spec (c_amount c) v); try done; lia).
      cbv zeta. rewrite Q. split; [intros H; apply Ok_inj in H; eauto 10|intros [_ ->]; done].
    + split; [done|]. intros [[?|[?|(c' & C & ?)]] _]; try done. injection C as <-. lia.
  - split; [done|]. intros [[?|[?|(c' & C & ?)]] _]; done.
Qed.

(** what a deposit of liquidity [L] between two ticks costs, and what a position is worth on its own, in each token *)
Definition price_of_deposit (p : pool) (lower upper L : Z) : Z * Z :=
  let c := split_price p lower upper in (cost_x L c (tprice upper), cost_y L (tprice lower) c).
Definition stake (p : pool) (po : position) : Z * Z :=
  let c := split_price p (po_lower po) (po_upper po) in
  (gain_x (po_liq po) c (tprice (po_upper po)), gain_y (po_liq po) (tprice (po_lower po)) c).
Definition room (s : store) (a : string) : Prop := plen s a < 2 ^ 32 - 1.

Definition depositable (e : env) (i : msg_info) (s : store) (k : pool_key) (lower upper L sl su : Z) : Prop :=
  exists p, st_pools s !! k = Some p /\ 0 < L /\ lower < upper /\
    legal (ft_spacing (pk_tier k)) lower /\ legal (ft_spacing (pk_tier k)) upper /\ sl <= p_price p <= su /\
    ending_at s k lower + L < (2 ^ 128 - 1) / (443637 / ft_spacing (pk_tier k)) /\
    ending_at s k upper + L < (2 ^ 128 - 1) / (443637 / ft_spacing (pk_tier k)) /\
    (lower <= p_tick p < upper -> p_liq p + L < 2 ^ 128) /\ room s (i_sender i) /\
    covered e i (pk_x k) (price_of_deposit p lower upper L).1 /\ covered e i (pk_y k) (price_of_deposit p lower upper L).2.

Lemma deposit_inv e i s k lower upper L sl su s' ms at' : ereach s -> 0 <= L <= U128MAX ->
  create_position e i s k lower upper L sl su = Ok (s', ms, at') ->
  depositable e i s k lower upper L sl su /\
  forall p, st_pools s !! k = Some p -> ms = collects e i (pk_x k) (price_of_deposit p lower upper L).1 ++ collects e i (pk_y k) (price_of_deposit p lower upper L).2.
Proof.
  intros R HL H. pose proof H as H'. apply create_position_inv in H'; [|by apply ereach_indexed].
  destruct H' as (_ & _ & _ & _ & _ & _ & _ & _ & _ & _ & _ & _ & _ & _ & _ & _ & _ & _ & _ & _ & _ & PL & _).
  destruct (create_inv _ _ _ _ _ _ _ _ _ _ _ _ R HL H) as (p & lt & ut & po & p' & lt' & ut' & x & y & bm1 & bm2 & m0 & m1 & []).
  destruct (kv_tier _ (ereach_pools _ R _ _ cx_pool)) as [S1 _]. fold (spacing k) in S1.
  destruct (ereach_geo _ R _ _ cx_pool) as [RS PR].
  pose proof (tp_index _ _ _ _ cx_lowp) as IL. pose proof (tp_index _ _ _ _ cx_upp) as IU.
  pose proof (mf_amount _ _ _ _ _ _ _ _ _ _ _ _ _ _ _ _ cx_mod) as AM. rewrite IL, IU in AM.
  rewrite (amount_value p k lower upper L true RS ltac:(lia) (tp_legal _ _ _ _ cx_lowp) (tp_legal _ _ _ _ cx_upp) cx_order) in AM by done.
  apply Ok_inj in AM. injection AM as <- <-. fold (split_price p lower upper) in cx_payx, cx_payy.
  apply collect_iff in cx_payx as [PX M0]. apply collect_iff in cx_payy as [PY M1].
  pose proof (mf_max _ _ _ _ _ _ _ _ _ _ _ _ _ _ _ _ cx_mod eq_refl) as [ML MU].
  rewrite (proj1 (mf_gross_l _ _ _ _ _ _ _ _ _ _ _ _ _ _ _ _ cx_mod)), (tp_gross _ _ _ _ cx_lowp) in ML.
  rewrite (proj1 (mf_gross_u _ _ _ _ _ _ _ _ _ _ _ _ _ _ _ _ cx_mod)), (tp_gross _ _ _ _ cx_upp) in MU.
  pose proof (mf_pliq _ _ _ _ _ _ _ _ _ _ _ _ _ _ _ _ cx_mod PR) as NL. rewrite (mf_pool _ _ _ _ _ _ _ _ _ _ _ _ _ _ _ _ cx_mod) in NL.
  rewrite IL, IU in NL. cbn [p_liq p_set_liq p_set_last] in NL.
  split.
  - exists p. split; [done|]. split; [lia|]. split; [done|]. split; [exact (tp_legal _ _ _ _ cx_lowp)|]. split; [exact (tp_legal _ _ _ _ cx_upp)|].
    split; [done|]. split; [exact ML|]. split; [exact MU|]. split; [|split; [unfold room; change (2 ^ 32 - 1) with U32MAX; lia|done]].
    intros IR. unfold in_range_tick in NL. rewrite (proj2 (Z.leb_le _ _)), (proj2 (Z.ltb_lt _ _)) in NL by lia. unfold pm in NL. cbn in NL.
    change (2 ^ 128) with (U128MAX + 1). lia.
  - intros q Q. rewrite cx_pool in Q. injection Q as <-. unfold price_of_deposit. cbn [fst snd]. by rewrite cx_msgs, M0, M1.
Qed.
Lemma deposit_iff e i s k lower upper L sl su : ereach s -> env_typed e i = true -> begun (e_millis e) s -> 0 <= L <= U128MAX ->
  is_ok (create_position e i s k lower upper L sl su) = true <-> depositable e i s k lower upper L sl su.
Proof.
  intros R ET BG HL. split.
  - intros H. destruct (create_position _ _ _ _ _ _ _ _ _) as [[[s' ms] at']| |] eqn:E; try done. by destruct (deposit_inv _ _ _ _ _ _ _ _ _ _ _ _ R HL E).
  - intros (p & EP & L0 & LU & VL & VU & SLP & GL & GU & PL & RM & CX & CY).
    destruct (deposit_ok e i s k lower upper L sl su p (collects e i (pk_x k) (price_of_deposit p lower upper L).1)
      (collects e i (pk_y k) (price_of_deposit p lower upper L).2)) as (s' & at' & ->); try done; try lia.
    + by apply (BG _ _ EP).
    + intros Q. specialize (PL Q). change (2 ^ 128) with (U128MAX + 1) in PL. lia.
    + by apply collect_iff.
    + by apply collect_iff.
Qed.

(** ** Withdrawing and claiming *)
Definition removable (s : store) (a : string) (ix : Z) : Prop :=
  exists po p, st_positions s !! (a, ix) = Some po /\ st_pools s !! po_key po = Some p /\
    (stake p po).1 + accrued_x s p po < 2 ^ 128 /\ (stake p po).2 + accrued_y s p po < 2 ^ 128 /\
    (po_lower po <= p_tick p < po_upper po -> po_liq po <= p_liq p).
Definition claimable (s : store) (a : string) (ix : Z) : Prop :=
  exists po p, st_positions s !! (a, ix) = Some po /\ st_pools s !! po_key po = Some p /\
    accrued_x s p po < 2 ^ 128 /\ accrued_y s p po < 2 ^ 128.

Lemma gains_nonneg L a b : 0 <= L -> 0 <= a <= b -> 0 <= gain_x L a b /\ 0 <= gain_y L a b.
Proof.
  intros HL AB. unfold gain_x, gain_y. assert (0 <= L * (b - a)) by (apply Z.mul_nonneg_nonneg; lia).
  split; [|apply Z.div_pos; [done|reflexivity]].
  assert (N : 0 <= L * (b - a) / 10 ^ 6) by (apply Z.div_pos; [done|reflexivity]).
  assert (D : 0 <= (a * b + 10 ^ 24 - 1) / 10 ^ 24) by (apply Z.div_pos; [|reflexivity]; assert (0 <= a * b) by nia; change (10 ^ 24) with 1000000000000000000000000; lia).
  set (n := L * (b - a) / 10 ^ 6) in *. set (d := (a * b + 10 ^ 24 - 1) / 10 ^ 24) in *. clearbody n d.
  destruct (Z.eq_dec d 0) as [->|]; [by rewrite Zdiv_0_r|]. apply Z.div_pos; lia.
Qed.
Lemma stake_value s x po p : ereach s -> st_positions s !! x = Some po -> st_pools s !! po_key po = Some p ->
  calculate_amount_delta (p_tick p) (p_price p) (po_liq po) false (po_upper po) (po_lower po) =
    Ok ((stake p po).1, (stake p po).2, in_range_tick (po_lower po) (po_upper po) (p_tick p)) /\ 0 <= (stake p po).1 /\ 0 <= (stake p po).2.
Proof.
  intros R E EP. destruct (lq_pos _ (ereach_liq _ R) _ _ E) as [(V1 & V2 & V3 & V4) _].
  destruct (kv_tier _ (ereach_pools _ R _ _ EP)) as [S1 _]. destruct (ereach_geo _ R _ _ EP) as [RS PR].
  assert (SP : 1 <= spacing (po_key po)) by apply S1. assert (LO : liq_ok (po_liq po)) by (unfold liq_ok; lia).
  split; [exact (amount_value p (po_key po) _ _ (po_liq po) false RS SP V2 V3 V4 LO)|].
  pose proof (legal_price_range _ _ V2) as PL. pose proof (legal_price_lt _ _ _ V2 V3 V4) as OP. unfold MIN_SQRT_PRICE in PL.
  unfold stake, split_price, clamp. cbn [fst snd]. set (lo := tprice (po_lower po)) in *. set (hi := tprice (po_upper po)) in *. clearbody lo hi.
  split; apply gains_nonneg; lia.
Qed.
Lemma bounds_of s x po : ereach s -> st_positions s !! x = Some po ->
  exists lt ut, st_ticks s !! (po_key po, po_lower po) = Some lt /\ st_ticks s !! (po_key po, po_upper po) = Some ut /\
    t_index lt = po_lower po /\ t_index ut = po_upper po.
Proof.
  intros R E. pose proof (ereach_liq _ R) as LI.
  destruct (bound_tick s _ po (po_lower po) LI E ltac:(by left)) as [lt TL]. destruct (bound_tick s _ po (po_upper po) LI E ltac:(by right)) as [ut TU].
  pose proof (lq_tick _ LI (po_key po) (po_lower po)) as GL. rewrite TL in GL. destruct GL as [[IL _ _ _ _ _] GL].
  pose proof (lq_tick _ LI (po_key po) (po_upper po)) as GU. rewrite TU in GU. destruct GU as [[IU _ _ _ _ _] GU].
  eauto 10.
Qed.
Lemma remove_iff e i s ix : ereach s -> (is_ok (remove_position_exec e i s ix) = true <-> removable s (i_sender i) ix) /\
  (forall po p s' ms at', st_positions s !! (i_sender i, ix) = Some po -> st_pools s !! po_key po = Some p ->
     remove_position_exec e i s ix = Ok (s', ms, at') ->
     ms = asset_transfer e i (pk_x (po_key po)) ((stake p po).1 + accrued_x s p po) ++ asset_transfer e i (pk_y (po_key po)) ((stake p po).2 + accrued_y s p po)).
Proof.
  intros R.
  assert (INV : forall s' ms at', remove_position_exec e i s ix = Ok (s', ms, at') -> exists po p,
     st_positions s !! (i_sender i, ix) = Some po /\ st_pools s !! po_key po = Some p /\
     (stake p po).1 + accrued_x s p po < 2 ^ 128 /\ (stake p po).2 + accrued_y s p po < 2 ^ 128 /\
     (po_lower po <= p_tick p < po_upper po -> po_liq po <= p_liq p) /\
     ms = asset_transfer e i (pk_x (po_key po)) ((stake p po).1 + accrued_x s p po) ++ asset_transfer e i (pk_y (po_key po)) ((stake p po).2 + accrued_y s p po)).
  { intros s' ms at' H. apply remove_position_exec_inv in H; [|by apply ereach_indexed].
    destruct H as (po & lt & ut & p & po' & p' & lt' & ut' & x & y & dl & du & bm1 & bm2 & m' & Epo & _ & El & Eu & Ep & PC & Em & _).
    exists po, p. split; [done|]. split; [done|]. destruct (lq_pos _ (ereach_liq _ R) _ _ Epo) as [(V1 & _) _].
    destruct (bounds_of s _ po R Epo) as (l0 & u0 & L1 & U1 & IL & IU). rewrite El in L1. rewrite Eu in U1. injection L1 as <-. injection U1 as <-.
    unfold position_remove in PC. inv_bind PC as [[[[[po1 p1] u1] l1] x1] y1] EM. inv_bind PC as x2 EX. inv_bind PC as y2 EY.
    apply Ok_inj in PC. injection PC as <- <- <- <- <- <- <- <-.
    pose proof (lq_tick _ (ereach_liq _ R) (po_key po) (po_lower po)) as TL. rewrite El in TL. destruct TL as [TL GL].
    pose proof (lq_tick _ (ereach_liq _ R) (po_key po) (po_upper po)) as TU. rewrite Eu in TU. destruct TU as [TU GU].
    apply position_modify_inv in EM; [|lia|apply TU|apply TL]. destruct EM as (ox & oy & F).
    destruct (accrued_of_fee s p po lt ut ox oy El Eu IL IU ltac:(lia) (mf_ox _ _ _ _ _ _ _ _ _ _ _ _ _ _ _ _ F) (mf_oy _ _ _ _ _ _ _ _ _ _ _ _ _ _ _ _ F)) as [OX OY].
    destruct (ereach_unowed _ R _ _ Epo) as [O1 O2].
    rewrite (mf_pos _ _ _ _ _ _ _ _ _ _ _ _ _ _ _ _ F) in EX, EY. cbn [po_owedx po_owedy] in EX, EY. rewrite O1, Z.add_0_l, OX in EX. rewrite O2, Z.add_0_l, OY in EY.
    pose proof (mf_amount _ _ _ _ _ _ _ _ _ _ _ _ _ _ _ _ F) as AM. rewrite IL, IU in AM.
    rewrite (proj1 (stake_value s _ po p R Epo Ep)) in AM. apply Ok_inj in AM. injection AM as <- <-.
    unfold add_p in EX, EY. apply ckp_ok in EX as [-> BX]. apply ckp_ok in EY as [-> BY].
    change (2 ^ 128) with (U128MAX + 1). unfold stake. cbn [fst snd]. split; [lia|]. split; [lia|]. split; [|done].
    intros IR. destruct (ereach_geo _ R _ _ Ep) as [_ PR]. pose proof (mf_pliq _ _ _ _ _ _ _ _ _ _ _ _ _ _ _ _ F PR) as NL.
    rewrite (mf_pool _ _ _ _ _ _ _ _ _ _ _ _ _ _ _ _ F), IL, IU in NL. cbn [p_liq p_set_liq p_set_last] in NL.
    unfold in_range_tick in NL. rewrite (proj2 (Z.leb_le _ _)), (proj2 (Z.ltb_lt _ _)) in NL by lia. unfold pm in NL. cbn in NL. lia. }
  split; [split|].
  - intros H. destruct (remove_position_exec _ _ _ _) as [[[s' ms] at']| |] eqn:E; try done.
    destruct (INV s' ms at' eq_refl) as (po & p & A & B & C & D & F & _). exists po, p. done.
  - intros (po & p & E & EP & BX & BY & AC). destruct (bounds_of s _ po R E) as (lt & ut & TL & TU & IL & IU).
    destruct (lq_pos _ (ereach_liq _ R) _ _ E) as [(V1 & _) _]. destruct (stake_value s _ po p R E EP) as (AM & S1 & S2).
    destruct (accrued_fee s p po lt ut TL TU IL IU ltac:(lia)) as (A1 & A2 & A3 & A4). destruct (ereach_unowed _ R _ _ E) as [O1 O2].
    destruct (ereach_geo _ R _ _ EP) as [_ PR]. change (2 ^ 128) with (U128MAX + 1) in *.
    destruct (remove_ok e i s ix po p lt ut (stake p po).1 (stake p po).2 (accrued_x s p po) (accrued_y s p po)) as [s' ->]; try done; try lia.
    + unfold in_range_tick. intros Q. apply andb_prop in Q. rewrite Z.leb_le, Z.ltb_lt in Q. specialize (AC Q). lia.
    + apply A3. lia.
    + apply A4. lia.
  - intros po p s' ms at' E EP H. destruct (INV _ _ _ H) as (po0 & p0 & E0 & P0 & _ & _ & _ & ->). rewrite E in E0. injection E0 as <-.
    rewrite EP in P0. by injection P0 as <-.
Qed.
Lemma claim_iff e i s ix : ereach s -> (is_ok (claim_fee e i s ix) = true <-> claimable s (i_sender i) ix).
Proof.
  intros R. split.
  - intros H. destruct (claim_fee _ _ _ _) as [[[s' ms] at']| |] eqn:C; try done.
    destruct (claim_inv _ _ _ _ _ _ _ R C) as (po & p & lt & ut & po1 & p' & lt' & ut' & zx & zy & ox & oy & []).
    exists po, p. split; [done|]. split; [done|]. pose proof cl_valid as (V1 & _).
    destruct (accrued_fee s p po lt ut cl_low cl_up (tp_index _ _ _ _ cl_lowp) (tp_index _ _ _ _ cl_upp) ltac:(lia)) as (_ & _ & A3 & A4).
    pose proof (mf_ox _ _ _ _ _ _ _ _ _ _ _ _ _ _ _ _ cl_mod) as X. pose proof (mf_oy _ _ _ _ _ _ _ _ _ _ _ _ _ _ _ _ cl_mod) as Y.
    apply A3 in X. apply A4 in Y. tauto.
  - intros (po & p & E & EP & BX & BY). destruct (bounds_of s _ po R E) as (lt & ut & TL & TU & IL & IU).
    destruct (lq_pos _ (ereach_liq _ R) _ _ E) as [(V1 & _) _].
    destruct (accrued_fee s p po lt ut TL TU IL IU ltac:(lia)) as (A1 & A2 & A3 & A4). destruct (ereach_unowed _ R _ _ E) as [O1 O2].
    change (2 ^ 128) with (U128MAX + 1) in *.
    destruct (claim_ok e i s ix po p lt ut (accrued_x s p po) (accrued_y s p po)) as [s' ->]; try done; try lia.
    + apply A3. lia.
    + apply A4. lia.
Qed.

(** ** Transfers *)
Lemma move_iff s a ix po r f : ereach s -> st_positions s !! (a, ix) = Some po ->
  (exists s', (let* '(s, _) := remove_position s a ix in add_position s r (f po)) = Ok s') <-> r = a \/ room s r.
Proof.
  intros R E. destruct (remove_position_ok s a ix po (ereach_pos_ok _ R) E) as [s1 RM]. rewrite RM. cbn [bind].
  apply remove_position_inv in RM as (_ & _ & m & _ & ->). unfold add_position.
  set (s1 := set_positions _ _ _). assert (PE : get_position_length s1 r = if decide (r = a) then plen s a - 1 else plen s r).
  { unfold s1, get_position_length, plen. cbn [st_poslen set_positions]. destruct (decide (r = a)) as [->|N]; [by rewrite lookup_insert|by rewrite lookup_insert_ne]. }
  rewrite PE. pose proof (proj1 (ct_some _ _ (ereach_pos_ok _ R) a ix) ltac:(eauto)) as B.
  pose proof (ct_range _ _ (ereach_pos_ok _ R) a) as RA. pose proof (ct_range _ _ (ereach_pos_ok _ R) r) as RR.
  unfold room. change (2 ^ 32 - 1) with U32MAX. destruct (decide (r = a)) as [->|N].
  - split; [by left|]. intros _. rewrite ckp_yes by lia. cbn [bind]. eauto.
  - split.
    + intros [s' H]. inv_bind H as n K. apply ckp_ok in K. right. fold (plen s r) in K. lia.
    + intros [?|Q]; [done|]. rewrite ckp_yes by lia. cbn [bind]. eauto.
Qed.
Lemma is_ok_ex {A} (m : res A) : is_ok m = true <-> exists v, m = Ok v.
Proof. destruct m; cbn; split; try done; eauto; by intros [??]. Qed.
Lemma is_ok_bind {A B} (m : res A) (f : A -> B) : is_ok (let* x := m in Ok (f x)) = is_ok m.
Proof. by destruct m. Qed.

(** ** C79 *)
Definition known_token (s : store) (tid : string) (o : string) (ix : Z) (po : position) : Prop :=
  split_token tid = Some (o, ix) /\ st_positions s !! (o, ix) = Some po.
(** the sender may move the position behind [tid], and its new owner has room for it *)
Definition movable (e : env) (i : msg_info) (s : store) (r tid : string) : Prop :=
  exists o ix po, known_token s tid o ix po /\ e_utf8_ok e o = true /\ may_send e s o po (i_sender i) /\ (r = o \/ room s r).
Definition grantable (e : env) (i : msg_info) (s : store) (tid : string) : Prop :=
  exists o ix po, known_token s tid o ix po /\ (i_sender i = o \/ operator_grant e s o (i_sender i)).
Definition starts_at (sp t P : Z) : Prop :=
  tprice t <= P /\ (t + sp <= 221818 -> P < tprice (t + sp)) /\ (221818 < t + sp -> P = tprice t).
Definition named (a b : string) (t : fee_tier) : pool_key :=
  if String.ltb a b then mkPoolKey a b t else mkPoolKey b a t.

Definition allowed (e : env) (i : msg_info) (s : store) (m : exec_msg) : Prop :=
  match m with
  | ChangeAdmin _ | ChangeProtocolFee _ => i_sender i = cf_admin (st_config s)
  | ChangeFeeReceiver k _ => i_sender i = cf_admin (st_config s) /\ is_Some (st_pools s !! k)
  | WithdrawProtocolFee k => exists p, st_pools s !! k = Some p /\ i_sender i = p_receiver p
  | AddFeeTier t => i_sender i = cf_admin (st_config s) /\ 1 <= ft_spacing t <= 100 /\ ft_fee t < 10 ^ 12
  | RemoveFeeTier t => i_sender i = cf_admin (st_config s) /\ In t (cf_fee_tiers (st_config s))
  | CreatePool a b t P c =>
      In t (cf_fee_tiers (st_config s)) /\ a <> b /\ slen a < 2 ^ 16 /\ slen b < 2 ^ 16 /\ legal (ft_spacing t) c /\
      st_pools s !! named a b t = None /\ starts_at (ft_spacing t) c P
  | CreatePosition k lo hi L sl su | Mint k lo hi L sl su => depositable e i s k lo hi L sl su
  | TransferPosition ix r =>
      is_Some (st_positions s !! (i_sender i, ix)) /\ e_addr_ok e r = true /\ (r = i_sender i \/ room s r)
  | ClaimFee ix => claimable s (i_sender i) ix
  | RemovePosition ix => removable s (i_sender i) ix
  | Approve _ tid x => grantable e i s tid /\ live e (default Never x)
  | Revoke _ tid => grantable e i s tid
  | ApproveAll _ x => live e (default Never x)
  | RevokeAll _ => True
  | TransferNft r tid | SendNft r tid _ => movable e i s r tid
  | Burn tid => exists o ix po, known_token s tid o ix po /\ may_send e s o po (i_sender i) /\ removable s (i_sender i) ix
  | Swap _ _ _ _ _ | SwapRoute _ _ _ _ => False
  end.

Lemma transfer_nft_iff e i s r tid : ereach s -> is_ok (transfer_nft e i s r tid) = true <-> movable e i s r tid.
Proof.
  intros R. unfold transfer_nft, movable, known_token, get_position_by_key. destruct (split_token tid) as [[o ix]|]; [|split; [done|by intros (?&?&?&[? _]&_)]].
  destruct (e_utf8_ok e o) eqn:U; cbn [negb].
  2:{ split; [done|]. intros (o'&ix'&po&[Q _]&Q2&_). injection Q as <- <-. congruence. }
  unfold get_position. destruct (st_positions s !! (o, ix)) as [po|] eqn:E.
  2:{ split; [done|]. intros (o'&ix'&po&[Q Q2]&_). injection Q as <- <-. congruence. }
  cbn [bind]. pose proof (check_can_send_ok e i s o po) as C. destruct (check_can_send e i s o po) as [[]| |]; cbn [bind].
  - rewrite is_ok_ex, (move_iff s o ix po r (fun po => po_set_approvals po []) R E). split.
    + intros Q. exists o, ix, po. split; [done|]. split; [done|]. split; [by apply C|done].
    + intros (o'&ix'&po'&[Q _]&_&_&Q2). by injection Q as <- <-.
  - split; [done|]. intros (o'&ix'&po'&[Q Q1]&_&Q2&_). injection Q as <- <-. rewrite E in Q1. injection Q1 as <-. by apply C in Q2.
  - split; [done|]. intros (o'&ix'&po'&[Q Q1]&_&Q2&_). injection Q as <- <-. rewrite E in Q1. injection Q1 as <-. by apply C in Q2.
Qed.
Lemma update_approvals_iff e i s sp tid add x : is_ok (update_approvals e i s sp tid add x) = true <->
  grantable e i s tid /\ (add = true -> live e (default Never x)).
Proof.
  unfold update_approvals, grantable, known_token, get_position_by_key. destruct (split_token tid) as [[o ix]|]; [|split; [done|by intros [(?&?&?&[? _]&_) _]]].
  unfold get_position. destruct (st_positions s !! (o, ix)) as [po|] eqn:E.
  2:{ split; [done|]. intros [(o'&ix'&po&[Q Q2]&_) _]. injection Q as <- <-. congruence. }
  cbn [bind]. pose proof (check_can_approve_ok e i s o) as C. destruct (check_can_approve e i s o) as [[]| |]; cbn [bind].
  - rewrite live_expired. destruct add; [destruct (is_expired e (default Never x))|]; cbn.
    + split; [done|]. intros [_ Q]. by specialize (Q eq_refl).
    + split; [|done]. intros _. split; [|done]. exists o, ix, po. split; [done|]. by apply C.
    + split; [|done]. intros _. split; [|done]. exists o, ix, po. split; [done|]. by apply C.
  - split; [done|]. intros [(o'&ix'&po'&[Q Q1]&Q2) _]. injection Q as <- <-. by apply C in Q2.
  - split; [done|]. intros [(o'&ix'&po'&[Q Q1]&Q2) _]. injection Q as <- <-. by apply C in Q2.
Qed.
Lemma bytes_iff k : 0 <= ft_fee (pk_tier k) -> is_ok (pool_key_bytes k) = true <-> slen (pk_x k) < 2 ^ 16 /\ slen (pk_y k) < 2 ^ 16.
Proof.
  intros _. unfold pool_key_bytes. cbn [length_prefixed]. change (2 ^ 16) with 65536.
  assert (T : slen (fee_tier_key (pk_tier k)) = 10) by reflexivity.
  destruct (Z.ltb_spec 65535 (slen (pk_x k))); [split; [done|lia]|]. destruct (Z.ltb_spec 65535 (slen (pk_y k))); [split; [done|cbn; lia]|].
  rewrite T. cbn. split; [lia|done].
Qed.
Lemma starts_iff sp t P now r : 1 <= sp -> legal_tick sp t -> is_ok (pool_create P t now sp r) = true <-> starts_at sp t P.
Proof.
  intros S1 LT. unfold pool_create, check_tick_to_sqrt_price_relationship, starts_at. change 221818 with MAX_TICK.
  pose proof (legal_top _ _ S1 LT) as TP. destruct (Z.ltb_spec MAX_TICK (t + sp)) as [H|H].
  - assert (TE : t = SwapGeo.top sp).
    { destruct (Z.eq_dec t (SwapGeo.top sp)) as [|N]; [done|]. pose proof (legal_next _ _ S1 LT ltac:(lia)) as [Q _]. lia. }
    rewrite get_max_top, <- TE by done. rewrite calculate_sqrt_price_ok by (destruct LT; lia). cbn [bind].
    destruct (Z.eqb_spec P (tprice t)) as [->|N]; cbn; split; try done; intros; try lia.
  - pose proof (legal_next _ _ S1 LT) as NX.
    assert (L2 : legal_tick sp (t + sp)) by (destruct LT as [R M]; split; [lia|]; rewrite <- Z.add_mod_idemp_l, M, Z.add_0_l by lia; apply Z.mod_same; lia).
    rewrite !calculate_sqrt_price_ok by (first [destruct LT; lia|destruct L2; lia]). cbn [bind].
    destruct (Z.leb_spec (tprice (t + sp)) P), (Z.ltb_spec P (tprice t)); cbn; split; try done; intros; lia.
Qed.
Lemma remove_first_some t l : is_Some (remove_first t l) <-> In t l.
Proof.
  induction l as [|a l IH]; cbn; [split; [by intros [? ?]|done]|]. destruct (bool_decide_reflect (a = t)) as [->|N].
  - split; [by left|eauto].
  - destruct (remove_first t l) as [l'|]; cbn.
    + split; [intros _; right; apply IH; eauto|eauto].
    + split; [by intros [? ?]|]. intros [?|Q]; [done|]. apply IH in Q as [? ?]. done.
Qed.

Theorem C79_allowed e i s m : reachable s -> env_typed e i = true -> msg_typed m = true -> begun (e_millis e) s -> ~ is_trade m ->
  (exists s' ms at', execute e i s m = Ok (s', ms, at')) <-> allowed e i s m.
Proof.
  intros R ET MT BG NT. apply reachable_ereach in R. unfold execute. rewrite ET, MT. cbn [andb].
  transitivity (is_ok (dispatch e i s m) = true).
  { rewrite is_ok_ex. split; [intros (? & ? & ? & ->); eauto|intros [[[? ?] ?] ->]; eauto]. }
  assert (EQ : forall a b : string, String.eqb a b = true <-> a = b) by apply String.eqb_eq.
  destruct m; cbn [dispatch allowed].
  - unfold change_admin. destruct (String.eqb_spec (i_sender i) (cf_admin (st_config s))); cbn; split; done.
  - unfold withdraw_protocol_fee, get_pool. destruct (st_pools s !! k) as [p|]; cbn [bind]; [|split; [done|by intros (? & ? & _)]].
    destruct (String.eqb_spec (p_receiver p) (i_sender i)); cbn; split; try done; eauto.
    intros (q & Q & ?). injection Q as <-. congruence.
  - unfold change_protocol_fee. destruct (String.eqb_spec (i_sender i) (cf_admin (st_config s))); cbn; split; done.
  - unfold change_fee_receiver, get_pool. destruct (String.eqb_spec (i_sender i) (cf_admin (st_config s))); cbn [negb]; [|split; [done|by intros []]].
    destruct (st_pools s !! k) as [p|]; cbn; [split; eauto|]. split; [done|]. by intros [_ [? ?]].
  - cbn [msg_typed] in MT. apply deposit_iff; try done. repeat (apply andb_prop in MT as [MT ?]). by apply in_range_spec.
  - by destruct NT.
  - by destruct NT.
  - unfold transfer_position, get_position. destruct (st_positions s !! (i_sender i, index)) as [po|] eqn:E; cbn [bind]; [|split; [done|by intros [[? ?] _]]].
    pose proof (move_iff s (i_sender i) index po receiver (fun po => po_set_approvals po []) R E) as M.
    destruct (remove_position_ok s (i_sender i) index po (ereach_pos_ok _ R) E) as [s1 RM]. rewrite RM in *. cbn [bind] in *.
    destruct (e_addr_ok e receiver); cbn [negb]; [|split; [done|by intros (_ & ? & _)]]. rewrite is_ok_bind, is_ok_ex, M.
    split; [eauto|by intros (_ & _ & ?)].
  - by apply claim_iff.
  - by apply remove_iff.
  - unfold create_pool. destruct (bool_decide_reflect (tier ∈ cf_fee_tiers (st_config s))) as [I|I]; cbn [negb].
    2:{ split; [done|]. intros (Q & _). by apply elem_of_list_In in Q. }
    pose proof (proj1 (Forall_forall _ _) (co_tiers _ (ereach_config _ R)) _ I) as [S1 F1].
    destruct (check_tick init_tick (ft_spacing tier)) as [[]| |] eqn:C; cbn [bind].
    2,3: split; [done|]; intros (_ & _ & _ & _ & Q & _); rewrite (legal_check_tick _ _ (proj1 S1) Q) in C; done.
    apply check_tick_legal in C; [|lia]. unfold pool_key_new, named.
    destruct (String.eqb_spec token_0 token_1) as [->|N]; [split; [done|]; intros (_ & ? & _); done|].
    set (k := if String.ltb token_0 token_1 then mkPoolKey token_0 token_1 tier else mkPoolKey token_1 token_0 tier).
    replace (if String.ltb token_0 token_1 then Ok (mkPoolKey token_0 token_1 tier) else Ok (mkPoolKey token_1 token_0 tier)) with (Ok k) by (unfold k; by destruct (String.ltb token_0 token_1)).
    cbn [bind]. assert (TK : pk_tier k = tier) by (unfold k; by destruct (String.ltb token_0 token_1)).
    pose proof (bytes_iff k ltac:(rewrite TK; lia)) as BI.
    assert (BI' : is_ok (pool_key_bytes k) = true <-> slen token_0 < 2 ^ 16 /\ slen token_1 < 2 ^ 16) by (rewrite BI; unfold k; destruct (String.ltb token_0 token_1); cbn [pk_x pk_y]; tauto).
    clear BI. destruct (pool_key_bytes k) as [b| |]; cbn [bind].
    2,3: split; [done|]; intros (_ & _ & Q1 & Q2 & _); by destruct (proj2 BI' (conj Q1 Q2)).
    destruct (proj1 BI' eq_refl) as [B1 B2]. destruct (st_pools s !! k); [split; [done|]; intros (_ & _ & _ & _ & _ & ? & _); done|].
    rewrite is_ok_bind. pose proof (starts_iff (ft_spacing tier) init_tick init_price (e_millis e) (cf_admin (st_config s)) ltac:(lia) C) as ST.
    transitivity (is_ok (pool_create init_price init_tick (e_millis e) (ft_spacing tier) (cf_admin (st_config s))) = true); [by destruct (pool_create _ _ _ _ _)|].
    rewrite ST. split; [|by intros (_ & _ & _ & _ & _ & _ & ?)]. intros Q. apply elem_of_list_In in I. done.
  - unfold add_fee_tier. destruct (String.eqb_spec (i_sender i) (cf_admin (st_config s))); cbn [negb]; [|split; [done|by intros []]].
    cbn [msg_typed] in MT. unfold tier_ok in MT. apply andb_prop in MT as [_ MT]. apply in_range_spec in MT. change (10 ^ 12) with 1000000000000.
    destruct (Z.eqb_spec (ft_spacing tier) 0), (Z.ltb_spec 100 (ft_spacing tier)); cbn; try (split; [done|lia]).
    destruct (Z.leb_spec 1000000000000 (ft_fee tier)); cbn; split; try done; try lia. intros _. split; [done|lia].
  - unfold remove_fee_tier. destruct (String.eqb_spec (i_sender i) (cf_admin (st_config s))); cbn [negb]; [|split; [done|by intros []]].
    rewrite <- remove_first_some. destruct (remove_first _ _); cbn; split; eauto; try done. by intros [_ [? ?]].
  - unfold handle_transfer_nft. rewrite is_ok_bind. by apply transfer_nft_iff.
  - cbn [msg_typed] in MT. apply deposit_iff; try done. repeat (apply andb_prop in MT as [MT ?]). by apply in_range_spec.
  - unfold handle_burn, get_position_by_key, known_token. destruct (split_token token_id) as [[o ix]|]; [|split; [done|by intros (?&?&?&[? _]&_)]].
    unfold get_position. destruct (st_positions s !! (o, ix)) as [po|] eqn:E.
    2:{ split; [done|]. intros (o'&ix'&po&[Q Q2]&_). injection Q as <- <-. congruence. }
    cbn [bind]. pose proof (check_can_send_ok e i s o po) as C. pose proof (proj1 (remove_iff e i s ix R)) as RI.
    destruct (check_can_send e i s o po) as [[]| |]; cbn [bind].
    + rewrite RI. split; [intros Q; exists o, ix, po; split; [done|]; split; [by apply C|done]|].
      intros (o'&ix'&po'&[Q _]&_&Q2). by injection Q as <- <-.
    + split; [done|]. intros (o'&ix'&po'&[Q Q1]&Q2&_). injection Q as <- <-. rewrite E in Q1. injection Q1 as <-. by apply C in Q2.
    + split; [done|]. intros (o'&ix'&po'&[Q Q1]&Q2&_). injection Q as <- <-. rewrite E in Q1. injection Q1 as <-. by apply C in Q2.
  - unfold handle_send_nft. rewrite is_ok_bind. by apply transfer_nft_iff.
  - unfold handle_approve. rewrite is_ok_bind, update_approvals_iff. split; intros [A B]; split; auto.
  - unfold handle_revoke. rewrite is_ok_bind, update_approvals_iff. split; [by intros []|]. intros A. split; [done|]. done.
  - unfold handle_approve_all. rewrite live_expired. destruct (is_expired _ _); done.
  - unfold handle_revoke_all. done.
Qed.

Lemma sc0_begun : begun (e_millis v_env) sc0.
Proof.
  intros k p E. assert (M : map_Forall (fun _ q => p_start q = 1000) (st_pools sc0)) by (refine (bool_decide_unpack _ _); vm_compute; exact Logic.I).
  rewrite (M k p E). vm_compute. split; discriminate.
Qed.
(** a native coin pays for a deposit; one unit less does not *)
Definition native_env : env := mkEnv 1 1000000000 "self" 1000 (fun T => negb (String.eqb T "tokeny")) (fun _ => true).
Definition dan (n : Z) : msg_info := mkInfo "dan" [mkCoin "atom" 7; mkCoin "tokeny" n; mkCoin "tokeny" 999999999]%string.
Definition dan_deposits : exec_msg := CreatePosition v_key (-10) 30 900000000000 0 MAX_SQRT_PRICE.
Example ex_C79 :
  begun (e_millis native_env) sc0 /\ ~ is_trade dan_deposits /\
  allowed native_env (dan 343) sc0 dan_deposits /\ ~ allowed native_env (dan 342) sc0 dan_deposits /\
  allowed v_env (v_info "dave") sc0 (TransferNft "carol" (position_key_bytes "alice" 0)) /\
  ~ allowed v_env (v_info "dave") sc0 (TransferNft "carol" (position_key_bytes "alice" 1)) /\
  allowed v_env (v_info "bob") sc0 (CreatePool "tokenx" "tokenz" v_tier 65509176333123237000000000000 221810) /\
  ~ allowed v_env (v_info "bob") sc0 (CreatePool "tokenx" "tokenz" v_tier 65509176333123237000000000001 221810).
Proof.
  split; [exact sc0_begun|]. split; [by intros ?|].
  assert (Y : forall e i m, env_typed e i && msg_typed m && is_ok (execute e i sc0 m) = true -> e_millis e = e_millis v_env -> ~ is_trade m -> allowed e i sc0 m).
  { intros e i m H M N. apply andb_prop in H as [H K]. apply andb_prop in H as [H1 H2].
    apply (C79_allowed e i sc0 m sc0_reachable H1 H2); [rewrite M; exact sc0_begun|exact N|].
    destruct (execute e i sc0 m) as [[[s' ms] at']| |]; [eauto|discriminate K..]. }
  assert (X : forall e i m, env_typed e i && msg_typed m && negb (is_ok (execute e i sc0 m)) = true -> e_millis e = e_millis v_env -> ~ is_trade m -> ~ allowed e i sc0 m).
  { intros e i m H M N A. apply andb_prop in H as [H K]. apply andb_prop in H as [H1 H2].
    apply (C79_allowed e i sc0 m sc0_reachable H1 H2) in A; [|rewrite M; exact sc0_begun|exact N].
    destruct A as (s' & ms & at' & A). rewrite A in K. discriminate K. }
  split; [|split; [|split; [|split; [|split]]]]; first [apply Y|apply X]; first [vm_compute; reflexivity|by intros ?].
Qed.

(** ** C80 *)
(** a deposit takes exactly these amounts, in any reachable state *)
Theorem C80_deposit e i s k lower upper L sl su s' ms at' m : reachable s ->
  m = CreatePosition k lower upper L sl su \/ m = Mint k lower upper L sl su -> execute e i s m = Ok (s', ms, at') ->
  exists p, st_pools s !! k = Some p /\
    let c := Z.max (tprice lower) (Z.min (p_price p) (tprice upper)) in
    ms = collects e i (pk_x k) (cost_x L c (tprice upper)) ++ collects e i (pk_y k) (cost_y L (tprice lower) c).
Proof.
  intros R M H. apply reachable_ereach in R. unfold execute in H. destruct (env_typed e i && msg_typed m) eqn:T; [|done].
  assert (H' : create_position e i s k lower upper L sl su = Ok (s', ms, at') /\ 0 <= L <= U128MAX).
  { apply andb_prop in T as [_ T]. destruct M as [-> | ->]; cbn [dispatch msg_typed] in *; (split; [done|]);
      repeat (apply andb_prop in T as [T ?]); by apply in_range_spec. }
  clear H M. destruct H' as [H HL]. destruct (deposit_inv _ _ _ _ _ _ _ _ _ _ _ _ R HL H) as [(p & EP & _) Q].
  exists p. split; [done|]. exact (Q p EP).
Qed.
(** a withdrawal pays exactly these amounts plus the fees accrued *)
Theorem C80_withdraw e i s ix po p s' ms at' : reachable s -> execute e i s (RemovePosition ix) = Ok (s', ms, at') ->
  st_positions s !! (i_sender i, ix) = Some po -> st_pools s !! po_key po = Some p ->
  let c := Z.max (tprice (po_lower po)) (Z.min (p_price p) (tprice (po_upper po))) in
  pays (i_sender i) (po_key po) (gain_x (po_liq po) c (tprice (po_upper po)) + accrued_x s p po)
    (gain_y (po_liq po) (tprice (po_lower po)) c + accrued_y s p po) ms.
Proof.
  intros R H E EP c. apply reachable_ereach in R. unfold execute in H. destruct (_ && _); [|done]. cbn [dispatch] in H.
  rewrite (proj2 (remove_iff e i s ix R) po p s' ms at' E EP H). apply transfers_pay. apply (pool_distinct s); eauto.
Qed.
(** coming and going costs at most one unit of the second token, and of the first at most two units and 10^-14 of the amount *)
Theorem C80_round_trip L a b : 0 <= L -> price_ok a -> price_ok b -> a <= b ->
  gain_y L a b <= cost_y L a b <= gain_y L a b + 1 /\
  gain_x L a b <= cost_x L a b /\ 10 ^ 14 * (cost_x L a b - gain_x L a b - 2) <= cost_x L a b.
Proof.
  intros HL A B AB. unfold cost_y, gain_y, cost_x, gain_x. cbv zeta.
  assert (N0 : 0 <= L * (b - a)) by (apply Z.mul_nonneg_nonneg; lia).
  split.
  { set (n := L * (b - a)) in *. set (d := 10 ^ 30). assert (D : 0 < d) by reflexivity. clearbody n d.
    replace (n + d - 1) with (n + (d - 1)) by lia. split; [apply Z.div_le_mono; lia|].
    rewrite <- (Z.div_add n 1 d) by lia. apply Z.div_le_mono; lia. }
  assert (P2 : MIN_SQRT_PRICE * MIN_SQRT_PRICE <= a * b) by (apply Z.mul_le_mono_nonneg; unfold price_ok, MIN_SQRT_PRICE in *; lia).
  assert (D0 : 10 ^ 14 <= a * b / 10 ^ 24) by (apply Z.div_le_lower_bound; [reflexivity|]; unfold MIN_SQRT_PRICE in P2; lia).
  set (n := L * (b - a) / 10 ^ 6). assert (NN : 0 <= n) by (apply Z.div_pos; [done|reflexivity]).
  assert (D1 : a * b / 10 ^ 24 <= (a * b + 10 ^ 24 - 1) / 10 ^ 24 <= a * b / 10 ^ 24 + 1).
  { set (q := a * b). set (u := 10 ^ 24). assert (U : 0 < u) by reflexivity. clearbody q u.
    replace (q + u - 1) with (q + (u - 1)) by lia. split; [apply Z.div_le_mono; lia|].
    rewrite <- (Z.div_add q 1 u) by lia. apply Z.div_le_mono; lia. }
  set (d := a * b / 10 ^ 24) in *. set (d' := (a * b + 10 ^ 24 - 1) / 10 ^ 24) in *. set (H := 10 ^ 14) in *.
  assert (H0 : 0 < H) by reflexivity. clearbody n d d' H. clear N0 P2 A B AB HL.
  pose proof (Z.div_mod (n + d - 1) d ltac:(lia)) as E1. pose proof (Z.mod_pos_bound (n + d - 1) d ltac:(lia)) as M1.
  pose proof (Z.div_mod n d' ltac:(lia)) as E2. pose proof (Z.mod_pos_bound n d' ltac:(lia)) as M2.
  set (c := (n + d - 1) / d) in *. set (g := n / d') in *. set (r1 := (n + d - 1) mod d) in *. set (r2 := n mod d') in *. clearbody c g r1 r2.
  assert (C0 : 0 <= c) by nia. assert (G0 : 0 <= g) by nia. assert (CG : g <= c) by nia. split; [done|].
  destruct (Z.le_gt_cases (c - g - 2) 0) as [Q|Q]; [nia|].
  assert (c * d < n + d) by nia. assert (n < (g + 1) * (d + 1)) by nia. nia.
Qed.
Example ex_C80 :
  match execute native_env (dan 1000) sc0 dan_deposits, execute v_env (v_info "alice") sc0 (RemovePosition 0), st_pools sc0 !! v_key,
        st_positions sc0 !! ("alice"%string, 0) with
  | Ok (_, ms, _), Ok (_, ms', _), Some p, Some po =>
      let c := Z.max (tprice (-10)) (Z.min (p_price p) (tprice 30)) in
      let c' := Z.max (tprice (-10)) (Z.min (p_price p) (tprice 10)) in
      ms = [Cw20TransferFrom "tokenx" "dan" "self" 1457; BankSend "dan" "tokeny" 657]%string /\
      cost_x 900000000000 c (tprice 30) = 1457 /\ cost_y 900000000000 (tprice (-10)) c = 343 /\
      gain_x 900000000000 c (tprice 30) = 1456 /\ gain_y 900000000000 (tprice (-10)) c = 342 /\
      ms' = [Cw20Transfer "tokenx" "alice" 12398; Cw20Transfer "tokeny" "alice" 7614]%string /\
      (gain_x (po_liq po) c' (tprice 10), accrued_x sc0 p po, gain_y (po_liq po) (tprice (-10)) c', accrued_y sc0 p po) = (12385, 13, 7614, 0)
  | _, _, _, _ => False
  end.
Proof. vm_compute. repeat split. Qed.
