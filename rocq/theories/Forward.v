(** When claims and withdrawals succeed. *)
From Verif Require Import Base Decimal SqrtPrice Clamm Log FeeGrowth Types Tick Pool Position
  Tickmap Keys State Swap Exec Tactics PriceProofs ClammProofs BitmapProofs PropBitmap Frame Handlers History Basic
  SwapGeo SwapLoop Modify PSum LiqInv Geo Ops.
From stdpp Require Import gmap strings.
From Coq Require Import Lia.
Open Scope Z_scope.

Lemma ck_yes e hi v : 0 <= v <= hi -> ck e hi v = Ok v.
Proof. intros H. by apply ck_ok. Qed.
Lemma ckp_yes hi v : 0 <= v <= hi -> ckp hi v = Ok v.
Proof. intros H. by apply ckp_ok. Qed.

(** ** Ticks *)
Lemma tick_update_add0 t mx up : 0 <= t_gross t <= U128MAX -> t_gross t < mx -> 0 <= t_change t <= U128MAX ->
  exists t', tick_update t 0 mx up true = Ok t'.
Proof.
  intros G M C. unfold tick_update, calculate_new_liquidity_gross, update_liquidity_change, add_e, add_p, sub_p. cbn [negb andb].
  rewrite ck_yes by lia. cbn [bind]. rewrite (proj2 (Z.leb_gt _ _)) by lia. cbn [bind].
  destruct (xorb (t_sign t) _); [destruct (Z.ltb_spec 0 (t_change t))|]; rewrite ckp_yes by lia; cbn [bind]; eauto.
Qed.
Lemma tick_update_sub t delta mx up : 0 <= delta <= t_gross t -> t_gross t <= U128MAX -> 0 <= t_change t <= U128MAX ->
  Z.abs (net t + pm up delta) <= t_gross t - delta ->
  exists t', tick_update t delta mx up false = Ok t'.
Proof.
  intros G M C N. unfold tick_update, calculate_new_liquidity_gross, update_liquidity_change, sub_e, add_p, sub_p. cbn [negb andb].
  rewrite (proj2 (Z.ltb_ge _ _)) by lia. rewrite ck_yes by lia. cbn [bind].
  unfold net, pm in N. destruct (t_sign t), up; cbn [xorb] in *; [|destruct (Z.ltb_spec delta (t_change t))..|];
    rewrite ckp_yes by lia; cbn [bind]; eauto.
Qed.

(** ** [position_modify] *)
Lemma position_modify_ok po p u l delta add now s x y ox oy :
  0 <= delta -> 0 <= t_change l -> 0 <= t_change u ->
  (exists l', tick_update l delta (calculate_max_liquidity_per_tick s) false add = Ok l') ->
  (exists u', tick_update u delta (calculate_max_liquidity_per_tick s) true add = Ok u') ->
  delta <> 0 \/ po_liq po <> 0 -> 0 <= po_liq po <= U128MAX -> 0 <= po_liq po + pm add delta <= U128MAX ->
  to_fee (wsub (inside_x p l u) (po_fgx po)) (po_liq po) = Ok ox ->
  to_fee (wsub (inside_y p l u) (po_fgy po)) (po_liq po) = Ok oy ->
  0 <= po_owedx po + ox <= U128MAX -> 0 <= po_owedy po + oy <= U128MAX ->
  calculate_amount_delta (p_tick p) (p_price p) delta add (t_index u) (t_index l)
              = Ok (x, y, in_range_tick (t_index l) (t_index u) (p_tick p)) ->
  (in_range_tick (t_index l) (t_index u) (p_tick p) = true -> 0 <= p_liq p + pm add delta <= U128MAX) ->
  exists po' p' u' l', position_modify po p u l delta add now s = Ok (po', p', u', l', x, y).
Proof.
  intros D0 CL CU [l' EL] [u' EU] N0 N1 NL OX OY TX TY AM PL.
  unfold position_modify. rewrite EL. cbn [bind]. rewrite EU. cbn [bind].
  apply tick_update_inv in EL; [|done|done]. apply tick_update_inv in EU; [|done|done].
  destruct EL as (L1 & L2 & L3 & L4 & _). destruct EU as (U1 & U2 & U3 & U4 & _).
  rewrite L1, L3, L4, U1, U3, U4. cbn [p_tick p_fgx p_fgy p_set_last].
  fold (inside_x p l u). fold (inside_y p l u). unfold position_update.
  replace ((delta =? 0) && (po_liq po =? 0)) with false by (symmetry; apply andb_false_iff; rewrite !Z.eqb_neq; done). rewrite OX. cbn [bind]. rewrite OY. cbn [bind].
  assert (NQ : calculate_new_liquidity po add delta = Ok (po_liq po + pm add delta)).
  { unfold calculate_new_liquidity, add_e, sub_e, pm in *. destruct add; cbn [negb andb].
    - by apply ck_yes.
    - rewrite (proj2 (Z.ltb_ge _ _)) by lia. apply ck_yes. lia. }
  rewrite NQ. cbn [bind]. unfold add_p. rewrite !ckp_yes by done. cbn [bind].
  unfold update_liquidity. cbn [p_tick p_price p_set_last p_liq]. rewrite AM. cbn [bind].
  destruct (in_range_tick _ _ _); [|cbn [bind]; eauto 10]. specialize (PL eq_refl). unfold add_e, sub_e, pm in *.
  destruct add; rewrite ck_yes by lia; cbn [bind]; eauto 10.
Qed.

(** ** Clearing a tick *)
Lemma flip_ok st t k : 1 <= spacing k -> is_init st k (spacing k) t -> exists st', flip_bitmap st false t (spacing k) k = Ok st'.
Proof.
  intros S1 I. pose proof (is_init_legal _ _ _ _ S1 I) as LT. unfold is_init, get_bitmap in I. unfold flip_bitmap.
  rewrite (tick_to_position_ok _ _ S1 LT) in *. cbn [bind] in *. apply Ok_inj in I. apply Z.eqb_eq in I. rewrite I. cbn. eauto.
Qed.
Lemma clear_ok (b : bool) s k t tk : 1 <= spacing k -> t_index tk = t -> (b = true -> t_gross tk = 0) ->
  is_Some (st_ticks s !! (k, t)) -> is_init s k (spacing k) t ->
  exists s', (if b then remove_tick_and_flip_bitmap s k tk else update_tick s k t tk) = Ok s' /\
    st_positions s' = st_positions s /\ st_poslen s' = st_poslen s /\
    (forall t', t' <> t -> st_ticks s' !! (k, t') = st_ticks s !! (k, t') /\ (is_init s k (spacing k) t' -> is_init s' k (spacing k) t')).
Proof.
  intros S1 IX G [t0 T] I. destruct b.
  - unfold remove_tick_and_flip_bitmap. rewrite (G eq_refl). cbn [Z.eqb negb]. rewrite IX.
    destruct (flip_ok s t k S1 I) as [s' F]. fold (spacing k). rewrite F. cbn [bind].
    pose proof (flip_bitmap_ok _ _ _ _ _ _ S1 F) as (_ & _ & E).
    assert (TS : st_ticks s' = st_ticks s) by (by rewrite E). assert (PS : st_positions s' = st_positions s) by (by rewrite E).
    assert (LS : st_poslen s' = st_poslen s) by (by rewrite E). clear E.
    unfold remove_tick. rewrite TS, T. eexists. split; [reflexivity|].
    split; [exact PS|]. split; [exact LS|]. intros t' N. split; [cbn; rewrite lookup_delete_ne by congruence; done|].
    intros J. apply (flip_init s _ false t k s' S1 F eq_refl k t' S1). rewrite decide_False by tauto. done.
  - unfold update_tick. rewrite T. eexists. split; [reflexivity|]. split; [done|]. split; [done|].
    intros t' N. split; [cbn; rewrite lookup_insert_ne by congruence; done|]. done.
Qed.
Lemma remove_position_ok s a ix po : pos_ok s -> st_positions s !! (a, ix) = Some po ->
  exists s', remove_position s a ix = Ok (s', po).
Proof.
  intros [R C] E. unfold remove_position. fold (plen s a).
  pose proof (proj1 (C a ix) ltac:(eauto)) as B. specialize (R a). rewrite ckp_yes by lia. cbn [bind]. rewrite E.
  destruct (Z.ltb_spec ix (plen s a - 1)); [|cbn [bind]; eauto].
  destruct (proj2 (C a (plen s a - 1)) ltac:(lia)) as [last EL]. rewrite EL. cbn [bind]. eauto.
Qed.

(** ** What a position adds to its ticks *)
Lemma tick_room s k t tk x po : liq_inv s -> st_ticks s !! (k, t) = Some tk -> st_positions s !! x = Some po ->
  gross_at k t po <= t_gross tk /\ Z.abs (net tk - net_at k t po) <= t_gross tk - gross_at k t po.
Proof.
  intros LI T E. pose proof (lq_tick _ LI k t) as G. rewrite T in G. destruct G as [[] _].
  assert (V : forall x po, st_positions s !! x = Some po -> pos_valid po) by (intros ?? Q; exact (proj1 (lq_pos _ LI _ _ Q))).
  assert (A : gross_at k t po - net_at k t po <= psum (fun po => gross_at k t po - net_at k t po) (st_positions s)).
  { refine (psum_ge (fun po => gross_at k t po - net_at k t po) _ x po _ E). intros y q Q. pose proof (net_le_gross k t q (V _ _ Q)). cbn beta. lia. }
  assert (B : gross_at k t po + net_at k t po <= psum (fun po => gross_at k t po + net_at k t po) (st_positions s)).
  { refine (psum_ge (fun po => gross_at k t po + net_at k t po) _ x po _ E). intros y q Q. pose proof (net_le_gross k t q (V _ _ Q)). cbn beta. lia. }
  rewrite psum_sub in A. rewrite psum_add in B. rewrite tp_gross, tp_net. lia.
Qed.
Lemma max_liq_u128 sp : 1 <= sp -> calculate_max_liquidity_per_tick sp <= U128MAX.
Proof.
  intros S1. unfold calculate_max_liquidity_per_tick. set (n := (2 * MAX_TICK + 1) / sp).
  assert (0 <= n) by (apply Z.div_pos; [done|lia]). destruct (Z.eq_dec n 0) as [->|]; [by rewrite Zdiv_0_r|].
  apply Z.div_le_upper_bound; [lia|]. assert (0 <= U128MAX) by done. nia.
Qed.
Lemma change_net t : 0 <= t_change t -> t_change t = Z.abs (net t).
Proof. unfold net. destruct (t_sign t); lia. Qed.

(** ** Withdrawing *)
Lemma remove_ok e i s ix po p lt ut x y ox oy : ereach s ->
  st_positions s !! (i_sender i, ix) = Some po -> st_pools s !! po_key po = Some p ->
  st_ticks s !! (po_key po, po_lower po) = Some lt -> st_ticks s !! (po_key po, po_upper po) = Some ut ->
  (in_range_tick (po_lower po) (po_upper po) (p_tick p) = true -> po_liq po <= p_liq p <= U128MAX) ->
  to_fee (wsub (inside_x p lt ut) (po_fgx po)) (po_liq po) = Ok ox ->
  to_fee (wsub (inside_y p lt ut) (po_fgy po)) (po_liq po) = Ok oy ->
  calculate_amount_delta (p_tick p) (p_price p) (po_liq po) false (po_upper po) (po_lower po) =
    Ok (x, y, in_range_tick (po_lower po) (po_upper po) (p_tick p)) ->
  0 <= po_owedx po + ox -> 0 <= po_owedy po + oy -> 0 <= x -> 0 <= y ->
  x + (po_owedx po + ox) <= U128MAX -> y + (po_owedy po + oy) <= U128MAX ->
  exists s', remove_position_exec e i s ix = Ok (s',
    asset_transfer e i (pk_x (po_key po)) (x + (po_owedx po + ox)) ++ asset_transfer e i (pk_y (po_key po)) (y + (po_owedy po + oy)),
    position_event (po_liq po) (po_lower po) (po_upper po) (p_price p)).
Proof.
  intros R E EP TL TU AC OX OY AM X0 Y0 X1 Y1 SX SY. pose proof (ereach_liq _ R) as LI.
  destruct (lq_pos _ LI _ _ E) as [(V1 & V2 & V3 & V4) PS]. set (k := po_key po) in *.
  destruct (kv_tier _ (ereach_pools _ R _ _ EP)) as [S1 _]. fold (spacing k) in S1.
  pose proof (lq_tick _ LI k (po_lower po)) as GL. rewrite TL in GL. destruct GL as [PL GL].
  pose proof (lq_tick _ LI k (po_upper po)) as GU. rewrite TU in GU. destruct GU as [PU GU].
  pose proof (max_liq_u128 (spacing k) ltac:(lia)) as MX.
  pose proof (tick_room s k _ _ _ _ LI TL E) as RL. pose proof (tick_room s k _ _ _ _ LI TU E) as RU.
  unfold gross_at, net_at, at_key in RL, RU. rewrite !decide_True in RL, RU by done. rewrite Z.eqb_refl in RL, RU.
  rewrite (proj2 (Z.eqb_neq (po_upper po) (po_lower po))) in RL by lia.
  rewrite (proj2 (Z.eqb_neq (po_lower po) (po_upper po))) in RU by lia.
  cbn iota in RL, RU.
  pose proof (change_net lt (tp_change _ _ _ _ PL)) as CL. pose proof (change_net ut (tp_change _ _ _ _ PU)) as CU.
  pose proof (tp_index _ _ _ _ PL) as IL. pose proof (tp_index _ _ _ _ PU) as IU.
  destruct (tick_update_sub lt (po_liq po) (calculate_max_liquidity_per_tick (spacing k)) false) as [l' EL]; [lia|lia|lia|unfold pm; lia|].
  destruct (tick_update_sub ut (po_liq po) (calculate_max_liquidity_per_tick (spacing k)) true) as [u' EU]; [lia|lia|lia|unfold pm; lia|].
  destruct (position_modify_ok po p ut lt (po_liq po) false (e_millis e) (spacing k) x y ox oy) as (po' & p' & u2 & l2 & EM);
    try first [done|lia|by eauto|by rewrite IL, IU|unfold pm; lia].
  { rewrite IL, IU. intros Q. specialize (AC Q). unfold pm. lia. }
  unfold remove_position_exec. unfold get_position, get_tick, get_pool. rewrite E. cbn [bind]. fold k. rewrite TL, TU, EP. cbn [bind].
  unfold position_remove. fold (spacing k). rewrite EM. cbn [bind].
  apply position_modify_inv in EM; [|lia|lia|lia]. destruct EM as (ox' & oy' & F).
  pose proof (mf_ox _ _ _ _ _ _ _ _ _ _ _ _ _ _ _ _ F) as Q1. rewrite OX in Q1. apply Ok_inj in Q1. subst ox'.
  pose proof (mf_oy _ _ _ _ _ _ _ _ _ _ _ _ _ _ _ _ F) as Q1. rewrite OY in Q1. apply Ok_inj in Q1. subst oy'.
  destruct (mf_low _ _ _ _ _ _ _ _ _ _ _ _ _ _ _ _ F) as (I1 & _). destruct (mf_up _ _ _ _ _ _ _ _ _ _ _ _ _ _ _ _ F) as (I2 & _).
  rewrite (mf_pos _ _ _ _ _ _ _ _ _ _ _ _ _ _ _ _ F). cbn [po_owedx po_owedy]. unfold add_p. rewrite !ckp_yes by lia. cbn [bind].
  assert (BL : is_init s k (spacing k) (po_lower po)) by (apply (bound_init s (i_sender i, ix) po); eauto).
  assert (BU : is_init s k (spacing k) (po_upper po)) by (apply (bound_init s (i_sender i, ix) po); eauto).
  destruct (clear_ok (t_gross l2 =? 0) (save_pool s k p') k (po_lower po) l2) as (s1 & C1 & C2 & C3 & C4);
    [lia|congruence|intros Q; by apply Z.eqb_eq in Q|cbn; rewrite TL; eauto|by rewrite (is_init_ext _ s)|].
  rewrite C1. cbn [bind]. destruct (C4 (po_upper po) ltac:(lia)) as [C5 C6].
  destruct (clear_ok (t_gross u2 =? 0) s1 k (po_upper po) u2) as (s2 & D1 & D2 & D3 & D4);
    [lia|congruence|intros Q; by apply Z.eqb_eq in Q|rewrite C5; cbn; rewrite TU; eauto|apply C6; by rewrite (is_init_ext _ s)|].
  rewrite D1. cbn [bind].
  assert (SP : st_positions s2 = st_positions s /\ st_poslen s2 = st_poslen s) by (rewrite D2, D3, C2, C3; done).
  destruct SP as [SP SL]. pose proof (ereach_pos_ok _ R) as PO.
  destruct (remove_position_ok s2 (i_sender i) ix po) as [s3 RP].
  { unfold pos_ok, plen, get_position_length in *. by rewrite SP, SL. }
  { by rewrite SP. }
  rewrite RP. cbn [bind]. fold k. rewrite I1, I2, IL, IU, (mf_pool _ _ _ _ _ _ _ _ _ _ _ _ _ _ _ _ F). eauto.
Qed.

(** ** Claiming *)
Lemma claim_ok e i s ix po p lt ut ox oy : ereach s ->
  st_positions s !! (i_sender i, ix) = Some po -> st_pools s !! po_key po = Some p ->
  st_ticks s !! (po_key po, po_lower po) = Some lt -> st_ticks s !! (po_key po, po_upper po) = Some ut ->
  to_fee (wsub (inside_x p lt ut) (po_fgx po)) (po_liq po) = Ok ox ->
  to_fee (wsub (inside_y p lt ut) (po_fgy po)) (po_liq po) = Ok oy ->
  0 <= po_owedx po + ox <= U128MAX -> 0 <= po_owedy po + oy <= U128MAX ->
  exists s', claim_fee e i s ix = Ok (s',
    asset_transfer e i (pk_x (po_key po)) (po_owedx po + ox) ++ asset_transfer e i (pk_y (po_key po)) (po_owedy po + oy),
    [("amount_x"%string, po_owedx po + ox); ("amount_y"%string, po_owedy po + oy)]).
Proof.
  intros R E EP TL TU OX OY X0 Y0. pose proof (ereach_liq _ R) as LI.
  destruct (lq_pos _ LI _ _ E) as [(V1 & V2 & V3 & V4) PS]. set (k := po_key po) in *.
  destruct (kv_tier _ (ereach_pools _ R _ _ EP)) as [S1 _]. fold (spacing k) in S1.
  pose proof (lq_tick _ LI k (po_lower po)) as GL. rewrite TL in GL. destruct GL as [PL GL].
  pose proof (lq_tick _ LI k (po_upper po)) as GU. rewrite TU in GU. destruct GU as [PU GU].
  pose proof (max_liq_u128 (spacing k) ltac:(lia)) as MX.
  pose proof (tick_room s k _ _ _ _ LI TL E) as RL. pose proof (tick_room s k _ _ _ _ LI TU E) as RU.
  unfold gross_at, net_at, at_key in RL, RU. rewrite !decide_True in RL, RU by done. rewrite Z.eqb_refl in RL, RU.
  rewrite (proj2 (Z.eqb_neq (po_upper po) (po_lower po))) in RL by lia.
  rewrite (proj2 (Z.eqb_neq (po_lower po) (po_upper po))) in RU by lia.
  cbn iota in RL, RU.
  pose proof (change_net lt (tp_change _ _ _ _ PL)) as CL. pose proof (change_net ut (tp_change _ _ _ _ PU)) as CU.
  pose proof (tp_index _ _ _ _ PL) as IL. pose proof (tp_index _ _ _ _ PU) as IU.
  pose proof (ereach_geo _ R _ _ EP) as [(G1 & G2 & G3) G4].
  destruct (tick_update_add0 lt (calculate_max_liquidity_per_tick (spacing k)) false) as [l' EL]; [lia|lia|lia|].
  destruct (tick_update_add0 ut (calculate_max_liquidity_per_tick (spacing k)) true) as [u' EU]; [lia|lia|lia|].
  assert (AM : calculate_amount_delta (p_tick p) (p_price p) 0 true (po_upper po) (po_lower po) =
    Ok (0, 0, in_range_tick (po_lower po) (po_upper po) (p_tick p))).
  { assert (DX : forall a b, MIN_SQRT_PRICE <= a <= MAX_SQRT_PRICE -> MIN_SQRT_PRICE <= b <= MAX_SQRT_PRICE -> get_delta_x a b 0 true = Ok 0).
    { intros a b A B. unfold get_delta_x, mul_to_value. rewrite Z.mul_0_r.
      assert (D : 0 < a * b / SP_ONE <= U256MAX).
      { unfold MIN_SQRT_PRICE, MAX_SQRT_PRICE in *.
        assert (15258932000000000000 * 15258932000000000000 <= a * b) by (apply Z.mul_le_mono_nonneg; lia).
        assert (a * b <= 65535383934512647000000000000 * 65535383934512647000000000000) by (apply Z.mul_le_mono_nonneg; lia).
        split; [apply Z.div_str_pos; unfold SP_ONE; lia|].
        apply Z.div_le_upper_bound; [done|]. assert (65535383934512647000000000000 * 65535383934512647000000000000 <= SP_ONE * U256MAX) by (vm_compute; discriminate). lia. }
      set (d := a * b / SP_ONE) in *. clearbody d. unfold big_div_values_to_token_up. rewrite Z.div_0_l by done.
      rewrite Z.mul_0_l. rewrite ck_yes by done. cbn [bind]. assert (U256MAX <= U320MAX) by done. rewrite ckp_yes by lia. cbn [bind].
      assert (Q : (0 + (d - 1)) / d = 0) by (apply Z.div_small; lia).
      rewrite ck_yes by lia. cbn [bind].
      unfold cdiv. rewrite (proj2 (Z.eqb_neq d 0)) by lia. cbn [bind]. rewrite Q. done. }
    assert (DY : forall a b, get_delta_y a b 0 true = Ok 0).
    { intros a b. unfold get_delta_y, mul_to_value_up. rewrite Z.mul_0_r. by vm_compute. }
    pose proof (legal_price_range _ _ V2) as PRL. pose proof (legal_price_range _ _ V3) as PRU. pose proof (legal_price_range _ _ G1) as PRC.
    pose proof (legal_price_range _ _ (top_legal (spacing k) ltac:(lia))) as PRT.
    unfold calculate_amount_delta, in_range_tick. rewrite (proj2 (Z.ltb_ge _ _)) by lia.
    rewrite (calculate_sqrt_price_ok (po_lower po)), (calculate_sqrt_price_ok (po_upper po)) by (first [destruct V2; lia|destruct V3; lia]).
    destruct (Z.ltb_spec (p_tick p) (po_lower po)).
    - cbn [bind]. rewrite DX by done. cbn [bind]. rewrite (proj2 (Z.leb_gt _ _)) by lia. done.
    - rewrite (proj2 (Z.leb_le (po_lower po) (p_tick p))) by lia. destruct (Z.ltb_spec (p_tick p) (po_upper po)); cbn [bind].
      + rewrite DX by lia. cbn [bind]. rewrite DY. done.
      + by rewrite DY. }
  destruct (position_modify_ok po p ut lt 0 true (e_millis e) (spacing k) 0 0 ox oy) as (po' & p' & u2 & l2 & EM);
    try first [done|lia|by eauto|by rewrite IL, IU|unfold pm; lia].
  unfold claim_fee. unfold get_position, get_tick, get_pool. rewrite E. cbn [bind]. fold k. rewrite TL, TU, EP. cbn [bind].
  unfold position_claim_fee. fold k. fold (spacing k). rewrite EM. cbn [bind].
  apply position_modify_inv in EM; [|lia|lia|lia]. destruct EM as (ox' & oy' & F).
  pose proof (mf_ox _ _ _ _ _ _ _ _ _ _ _ _ _ _ _ _ F) as Q1. rewrite OX in Q1. apply Ok_inj in Q1. subst ox'.
  pose proof (mf_oy _ _ _ _ _ _ _ _ _ _ _ _ _ _ _ _ F) as Q1. rewrite OY in Q1. apply Ok_inj in Q1. subst oy'.
  destruct (mf_low _ _ _ _ _ _ _ _ _ _ _ _ _ _ _ _ F) as (I1 & _). destruct (mf_up _ _ _ _ _ _ _ _ _ _ _ _ _ _ _ _ F) as (I2 & _).
  rewrite (mf_pos _ _ _ _ _ _ _ _ _ _ _ _ _ _ _ _ F). cbn [po_owedx po_owedy].
  unfold update_position. fold (plen s (i_sender i)).
  pose proof (proj1 (ct_some _ _ (ereach_pos_ok _ R) (i_sender i) ix) ltac:(eauto)) as B.
  rewrite (proj2 (Z.leb_gt _ _)) by lia. cbn [bind]. rewrite I1, I2, IL, IU. unfold update_tick.
  cbn [st_ticks save_pool set_pools set_positions]. rewrite TU. cbn [bind st_ticks set_ticks].
  rewrite lookup_insert_ne by (injection; lia). cbn. rewrite TL. cbn [bind]. eauto.
Qed.
