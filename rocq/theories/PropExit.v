(** C17, C18, C44: leaving a position. *)
From Verif Require Import Base Decimal SqrtPrice Clamm Log FeeGrowth Types Tick Pool Position
  Tickmap Keys State Swap Exec Query Tactics PriceProofs ClammProofs PropClamm BitmapProofs Frame Handlers History Basic Ledger Vectors Scenario
  SwapGeo SwapLoop Modify PSum LiqInv Geo Ops Clean PropLiq Growth Value Fund Flow PropSolv Forward.
From stdpp Require Import gmap strings.
From Coq Require Import Lia.
Open Scope Z_scope.

(** ** Amounts paid out *)
Lemma delta_x_down_ok pa pb L : MIN_SQRT_PRICE <= pa <= MAX_SQRT_PRICE -> MIN_SQRT_PRICE <= pb <= MAX_SQRT_PRICE -> 0 <= L <= U128MAX ->
  L * Z.abs (pa - pb) * E18 / (pa * pb) <= U128MAX -> exists r, get_delta_x pa pb L false = Ok r.
Proof.
  intros A B HL W. unfold get_delta_x, mul_to_value, mul_to_value_up. fold (numx pa pb L).
  set (d := (pa * pb + (SP_ONE - 1)) / SP_ONE).
  pose proof (ceil_spec (pa * pb) SP_ONE ltac:(reflexivity)) as HD. fold d in HD.
  pose proof (numx_spec pa pb L) as HN. set (n := numx pa pb L) in *.
  assert (AB : 15258932000000000000 * 15258932000000000000 <= pa * pb) by (unfold MIN_SQRT_PRICE in *; apply Z.mul_le_mono_nonneg; lia).
  assert (D0 : 0 < d) by (unfold SP_ONE in HD; lia).
  assert (N0 : 0 <= n) by (unfold n, numx; apply Z.div_pos; [apply Z.mul_nonneg_nonneg; lia|done]).
  assert (N1 : Z.abs (pa - pb) * L <= MAX_SQRT_PRICE * U128MAX) by (apply Z.mul_le_mono_nonneg; unfold MIN_SQRT_PRICE in *; lia).
  assert (N2 : n <= MAX_SQRT_PRICE * U128MAX) by (unfold LIQ_ONE in HN; lia).
  assert (Q : n / d <= U128MAX).
  { etransitivity; [|exact W]. apply Z.div_le_lower_bound; [lia|].
    pose proof (floor_spec n d D0) as [F _]. assert (0 <= n / d) by (apply Z.div_pos; lia). set (q := n / d) in *. clearbody q n d.
    unfold SP_ONE, LIQ_ONE, E18 in *. nia. }
  unfold big_div_values_to_token. rewrite ck_yes; cycle 1.
  { assert (MAX_SQRT_PRICE * U128MAX * SP_ONE <= U320MAX) by (vm_compute; discriminate). unfold SP_ONE in *. lia. }
  cbn [bind]. unfold cdiv. rewrite (proj2 (Z.eqb_neq d 0)) by lia. cbn [bind].
  assert (Q2 : n * SP_ONE / d / SP_ONE = n / d).
  { rewrite Z.div_div, (Z.mul_comm d), (Z.mul_comm n), Z.div_mul_cancel_l; unfold SP_ONE; lia. }
  pose proof (floor_spec (n * SP_ONE / d) SP_ONE ltac:(reflexivity)) as [_ F2]. rewrite Q2 in F2.
  assert (0 <= n * SP_ONE / d) by (apply Z.div_pos; [unfold SP_ONE|]; lia).
  assert (0 <= n / d) by (apply Z.div_pos; lia).
  rewrite ck_yes; cycle 1.
  { assert (SP_ONE * (U128MAX + 1) <= U256MAX) by (vm_compute; discriminate). unfold SP_ONE in *. lia. }
  cbn [bind]. rewrite Q2, ck_yes by lia. eauto.
Qed.
Lemma delta_y_down_ok pa pb L : 0 <= L -> L * Z.abs (pa - pb) / E30 <= U128MAX -> get_delta_y pa pb L false = Ok (L * Z.abs (pa - pb) / E30).
Proof.
  intros HL W. unfold get_delta_y, mul_to_value.
  assert (Q : Z.abs (pa - pb) * L / LIQ_ONE / SP_ONE = L * Z.abs (pa - pb) / E30) by (rewrite Z.div_div by done; by rewrite (Z.mul_comm L)).
  rewrite Q. apply ck_yes. split; [|done]. apply Z.div_pos; [apply Z.mul_nonneg_nonneg; lia|done].
Qed.
(** what a withdrawal pays for the liquidity: y exactly rounded down; x rounded down, and short of the exact value by less than
    one token plus a 10^24 / (product of the two prices) part of it *)
Definition pays_x (x l p lo hi : Z) : Prop :=
  0 <= x <= worth_x l p lo hi /\ let c := Z.max lo (Z.min p hi) in l * (hi - c) * 10 ^ 18 < (x + 1) * (c * hi + 10 ^ 24).
Lemma amount_ok p po k : rest (spacing k) (p_tick p) (p_price p) -> 1 <= spacing k -> pos_valid po -> po_key po = k ->
  let lo := tprice (po_lower po) in let hi := tprice (po_upper po) in
  worth_x (po_liq po) (p_price p) lo hi <= U128MAX -> worth_y (po_liq po) (p_price p) lo hi <= U128MAX ->
  exists x, calculate_amount_delta (p_tick p) (p_price p) (po_liq po) false (po_upper po) (po_lower po) =
      Ok (x, worth_y (po_liq po) (p_price p) lo hi, in_range_tick (po_lower po) (po_upper po) (p_tick p)) /\
    pays_x x (po_liq po) (p_price p) lo hi.
Proof.
  intros (R1 & R2 & R3) S1 (V1 & V2 & V3 & V4) K lo hi WX WY. rewrite K in V2, V3.
  assert (PL := legal_price_range _ _ V2). assert (PU := legal_price_range _ _ V3). assert (OP := legal_price_lt _ _ _ V2 V3 V4).
  assert (PR : MIN_SQRT_PRICE <= p_price p <= MAX_SQRT_PRICE).
  { pose proof (legal_price_range _ _ R1). pose proof (legal_price_range _ _ (top_legal _ S1)). lia. }
  assert (M0 : 0 < MIN_SQRT_PRICE) by done.
  assert (SIDE : (p_tick p < po_lower po -> p_price p <= tprice (po_lower po)) /\ (po_lower po <= p_tick p -> tprice (po_lower po) <= p_price p) /\
     (p_tick p < po_upper po -> p_price p <= tprice (po_upper po)) /\ (po_upper po <= p_tick p -> tprice (po_upper po) <= p_price p)).
  { assert (GT : forall j, legal_tick (spacing k) j -> p_tick p < j -> p_price p <= tprice j).
    { intros j LJ X. pose proof (legal_gap _ _ _ S1 R1 LJ X). pose proof (legal_top _ _ S1 LJ). specialize (R3 ltac:(lia)).
      pose proof (legal_price_le _ _ _ (legal_next _ _ S1 R1 ltac:(lia)) LJ ltac:(lia)). lia. }
    assert (LE : forall j, legal_tick (spacing k) j -> j <= p_tick p -> tprice j <= p_price p).
    { intros j LJ X. pose proof (legal_price_le _ _ _ LJ R1 X). lia. }
    repeat split; auto. }
  destruct SIDE as (SD1 & SD2 & SD3 & SD4). fold lo hi in SD1, SD2, SD3, SD4, PL, PU, OP.
  unfold pays_x, worth_x, worth_y in *. set (c := Z.max lo (Z.min (p_price p) hi)) in *. cbn zeta in *.
  assert (C : lo <= c <= hi) by (unfold c; lia).
  assert (DX : exists x, get_delta_x c hi (po_liq po) false = Ok x /\ 0 <= x <= po_liq po * (hi - c) * 10 ^ 18 / (c * hi) /\
     po_liq po * (hi - c) * 10 ^ 18 < (x + 1) * (c * hi + 10 ^ 24)).
  { destruct (delta_x_down_ok c hi (po_liq po)) as [x EX]; [lia|lia|lia| |].
    { replace (Z.abs (c - hi)) with (hi - c) by lia. exact WX. }
    exists x. split; [done|]. pose proof (delta_x_down c hi (po_liq po) x ltac:(lia) ltac:(lia) EX) as (X1 & X2 & X3).
    apply delta_x_down_exact in EX; [|lia|lia]. replace (Z.abs (c - hi)) with (hi - c) in * by lia. split.
    - split; [lia|]. apply Z.div_le_lower_bound; [apply Z.mul_pos_pos; lia|]. change (10 ^ 18) with E18. lia.
    - pose proof (numx_spec c hi (po_liq po)) as HN. pose proof (ceil_spec (c * hi) SP_ONE ltac:(reflexivity)) as HD.
      replace (Z.abs (c - hi)) with (hi - c) in * by lia.
      set (n := numx c hi (po_liq po)) in *. set (d := (c * hi + (SP_ONE - 1)) / SP_ONE) in *. clearbody n d.
      change (10 ^ 18) with 1000000000000000000. change (10 ^ 24) with SP_ONE. unfold LIQ_ONE, SP_ONE in *. nia. }
  destruct DX as (x & EX & BX).
  assert (DY : get_delta_y lo c (po_liq po) false = Ok (po_liq po * (c - lo) / 10 ^ 30)).
  { pose proof (delta_y_down_ok lo c (po_liq po)) as Q. replace (Z.abs (lo - c)) with (c - lo) in Q by lia. apply Q; [lia|exact WY]. }
  exists x. split; [|exact BX].
  unfold calculate_amount_delta, in_range_tick. rewrite (proj2 (Z.ltb_ge _ _)) by lia.
  rewrite (calculate_sqrt_price_ok (po_lower po)), (calculate_sqrt_price_ok (po_upper po)) by (first [destruct V2; lia|destruct V3; lia]).
  fold lo hi. destruct (Z.ltb_spec (p_tick p) (po_lower po)) as [A|A].
  - assert (CE : c = lo) by (specialize (SD1 A); unfold c; lia). rewrite CE in *. cbn [bind]. rewrite EX. cbn [bind].
    rewrite (proj2 (Z.leb_gt _ _)) by lia. by rewrite Z.sub_diag, Z.mul_0_r.
  - rewrite (proj2 (Z.leb_le (po_lower po) (p_tick p))) by lia. destruct (Z.ltb_spec (p_tick p) (po_upper po)) as [B|B]; cbn [bind].
    + assert (CE : c = p_price p) by (specialize (SD2 A); specialize (SD3 B); unfold c; lia). rewrite CE in *.
      rewrite EX. cbn [bind]. rewrite DY. done.
    + assert (CE : c = hi) by (specialize (SD4 B); unfold c; lia). rewrite CE in *. rewrite DY. cbn [bind andb].
      assert (x = 0) as ->; [|done]. destruct BX as [BX _]. rewrite Z.sub_diag, Z.mul_0_r, Z.mul_0_l, Z.div_0_l in BX by nia. lia.
Qed.

(** ** Fees *)
(** fees of a position not yet paid, from the counters of pool and ticks: growth per unit of liquidity (28 decimals) since the last
    checkpoint, modulo 2^128, times liquidity (6 decimals), rounded down *)
Definition accrued_x (s : store) (p : pool) (po : position) : Z :=
  match st_ticks s !! (po_key po, po_lower po), st_ticks s !! (po_key po, po_upper po) with
  | Some l, Some u =>
      (collected (p_tick p) (p_fgx p) (po_lower po) (t_fox l) (po_upper po) (t_fox u) - po_fgx po) mod 2 ^ 128 * po_liq po / 10 ^ 34
  | _, _ => 0
  end.
Definition accrued_y (s : store) (p : pool) (po : position) : Z :=
  match st_ticks s !! (po_key po, po_lower po), st_ticks s !! (po_key po, po_upper po) with
  | Some l, Some u =>
      (collected (p_tick p) (p_fgy p) (po_lower po) (t_foy l) (po_upper po) (t_foy u) - po_fgy po) mod 2 ^ 128 * po_liq po / 10 ^ 34
  | _, _ => 0
  end.
Lemma due_split s p po l u : st_ticks s !! (po_key po, po_lower po) = Some l -> st_ticks s !! (po_key po, po_upper po) = Some u ->
  due_x s p po = worth_x (po_liq po) (p_price p) (tprice (po_lower po)) (tprice (po_upper po)) + po_owedx po + accrued_x s p po /\
  due_y s p po = worth_y (po_liq po) (p_price p) (tprice (po_lower po)) (tprice (po_upper po)) + po_owedy po + accrued_y s p po.
Proof. intros El Eu. unfold due_x, due_y, accrued_x, accrued_y. by rewrite El, Eu. Qed.
Lemma accrued_fee s p po l u : st_ticks s !! (po_key po, po_lower po) = Some l -> st_ticks s !! (po_key po, po_upper po) = Some u ->
  t_index l = po_lower po -> t_index u = po_upper po -> 0 <= po_liq po <= U128MAX ->
  0 <= accrued_x s p po /\ 0 <= accrued_y s p po /\
  (forall o, to_fee (wsub (inside_x p l u) (po_fgx po)) (po_liq po) = Ok o <-> o = accrued_x s p po /\ accrued_x s p po < 2 ^ 128) /\
  (forall o, to_fee (wsub (inside_y p l u) (po_fgy po)) (po_liq po) = Ok o <-> o = accrued_y s p po /\ accrued_y s p po < 2 ^ 128).
Proof.
  intros El Eu Il Iu HL. unfold accrued_x, accrued_y. rewrite El, Eu.
  destruct (inside_xy p l u) as [-> ->]. rewrite <- !collected_inside, Il, Iu. cbn [fg fo]. unfold wsub. change (2 ^ 128) with U128.
  assert (B : forall g, 0 <= g mod U128 * po_liq po /\ g mod U128 * po_liq po <= U256MAX).
  { intros g. pose proof (Z.mod_pos_bound g U128 ltac:(reflexivity)) as M. split; [apply Z.mul_nonneg_nonneg; lia|].
    transitivity (U128 * U128MAX); [apply Z.mul_le_mono_nonneg; lia|vm_compute; discriminate]. }
  assert (N : forall g, 0 <= g mod U128 * po_liq po / 10 ^ 34) by (intros g; apply Z.div_pos; [apply B|reflexivity]).
  assert (T : forall g o, to_fee (g mod U128) (po_liq po) = Ok o <-> o = g mod U128 * po_liq po / 10 ^ 34 /\ g mod U128 * po_liq po / 10 ^ 34 < U128).
  { intros g o. unfold to_fee. rewrite ck_yes by apply B. cbn [bind]. rewrite ck_ok. change (FG_ONE * LIQ_ONE) with (10 ^ 34).
    specialize (N g). set (v := g mod U128 * po_liq po / 10 ^ 34) in *. clearbody v. unfold U128MAX, U128. lia. }
  split; [apply N|]. split; [apply N|]. split; intros o; apply T.
Qed.

(** ** C17 *)
Definition pays (a : string) (k : pool_key) (x y : Z) (ms : list out_msg) : Prop :=
  forall b T, paid b T ms = if String.eqb b a then if String.eqb T (pk_x k) then x else if String.eqb T (pk_y k) then y else 0 else 0.
Lemma transfers_pay e i k x y : pk_x k <> pk_y k -> pays (i_sender i) k x y (asset_transfer e i (pk_x k) x ++ asset_transfer e i (pk_y k) y).
Proof.
  intros N b T. rewrite paid_app, !paid_transfer. rewrite (String.eqb_sym b), (String.eqb_sym T (pk_x k)), (String.eqb_sym T (pk_y k)).
  destruct (String.eqb (i_sender i) b); cbn [andb]; [|done].
  destruct (String.eqb_spec (pk_x k) T) as [A|A], (String.eqb_spec (pk_y k) T) as [B|B]; try done; try lia. congruence.
Qed.
Lemma execute_remove e i s ix : env_typed e i = true -> 0 <= ix < 2 ^ 32 -> execute e i s (RemovePosition ix) = remove_position_exec e i s ix.
Proof.
  intros TY B. unfold execute. rewrite TY. cbn [andb msg_typed dispatch]. unfold u32_ok. rewrite (proj2 (in_range_spec _ _ _)); [done|]. unfold U32MAX. lia.
Qed.
Lemma execute_claim e i s ix : env_typed e i = true -> 0 <= ix < 2 ^ 32 -> execute e i s (ClaimFee ix) = claim_fee e i s ix.
Proof.
  intros TY B. unfold execute. rewrite TY. cbn [andb msg_typed dispatch]. unfold u32_ok. rewrite (proj2 (in_range_spec _ _ _)); [done|]. unfold U32MAX. lia.
Qed.

(** In every reachable state, a withdrawal whose amounts fit into 128 bits can only be stopped by the pool's active liquidity. *)
Theorem C17_withdraw_when e i s ix po p : reachable s -> env_typed e i = true -> 0 <= ix < 2 ^ 32 ->
  st_positions s !! (i_sender i, ix) = Some po -> st_pools s !! po_key po = Some p ->
  due_x s p po < 2 ^ 128 -> due_y s p po < 2 ^ 128 ->
  (po_lower po <= p_tick p < po_upper po -> po_liq po <= p_liq p) ->
  exists s' ms x, execute e i s (RemovePosition ix) = Ok (s', ms, position_event (po_liq po) (po_lower po) (po_upper po) (p_price p)) /\
    pays_x x (po_liq po) (p_price p) (tprice (po_lower po)) (tprice (po_upper po)) /\
    pays (i_sender i) (po_key po) (x + accrued_x s p po)
      (worth_y (po_liq po) (p_price p) (tprice (po_lower po)) (tprice (po_upper po)) + accrued_y s p po) ms.
Proof.
  intros R TY HX E EP DX DY AC. rewrite execute_remove by done. apply reachable_ereach in R. pose proof (ereach_liq _ R) as LI.
  destruct (lq_pos _ LI _ _ E) as [PV _]. destruct (kv_tier _ (ereach_pools _ R _ _ EP)) as [S1 _].
  destruct (bound_tick s _ po (po_lower po) LI E ltac:(by left)) as [lt TL]. destruct (bound_tick s _ po (po_upper po) LI E ltac:(by right)) as [ut TU].
  pose proof (lq_tick _ LI (po_key po) (po_lower po)) as GL. rewrite TL in GL. destruct GL as [[IL _ _ _ _ _] GL].
  pose proof (lq_tick _ LI (po_key po) (po_upper po)) as GU. rewrite TU in GU. destruct GU as [[IU _ _ _ _ _] GU].
  pose proof (ereach_geo _ R _ _ EP) as [G1 G2]. pose proof PV as (V1 & _).
  destruct (due_split s p po lt ut TL TU) as [D1 D2]. rewrite D1 in DX. rewrite D2 in DY.
  destruct (accrued_fee s p po lt ut TL TU IL IU ltac:(lia)) as (A1 & A2 & A3 & A4).
  destruct (ereach_unowed _ R _ _ E) as [O1 O2]. rewrite O1 in DX. rewrite O2 in DY.
  set (lo := tprice (po_lower po)) in *. set (hi := tprice (po_upper po)) in *.
  assert (W0 : 0 <= worth_x (po_liq po) (p_price p) lo hi /\ 0 <= worth_y (po_liq po) (p_price p) lo hi).
  { pose proof PV as (_ & V2 & V3 & V4). pose proof (legal_price_range _ _ V2) as PL. pose proof (legal_price_lt _ _ _ V2 V3 V4) as OP. fold lo hi in PL, OP.
    unfold MIN_SQRT_PRICE in PL. unfold worth_x, worth_y. cbv zeta. split; (apply Z.div_pos; [|first [reflexivity|apply Z.mul_pos_pos; lia]]);
      repeat apply Z.mul_nonneg_nonneg; lia. }
  change (2 ^ 128) with (U128MAX + 1) in *.
  assert (SP : 1 <= spacing (po_key po)) by apply S1.
  destruct (amount_ok p po (po_key po) G1 SP PV eq_refl) as (x & AM & PX); [fold lo hi; lia|fold lo hi; lia|].
  fold lo hi in AM, PX. pose proof PX as [PX1 _].
  destruct (remove_ok e i s ix po p lt ut x (worth_y (po_liq po) (p_price p) lo hi) (accrued_x s p po) (accrued_y s p po)) as [s' RM]; try done; try lia.
  - unfold in_range_tick. intros Q. apply andb_prop in Q. rewrite Z.leb_le, Z.ltb_lt in Q. specialize (AC Q). lia.
  - apply A3. lia.
  - apply A4. lia.
  - rewrite O1, O2 in RM. rewrite !Z.add_0_l in RM. exists s'. eexists. exists x. split; [exact RM|]. split; [exact PX|].
    apply transfers_pay. apply (pool_distinct s); eauto.
Qed.
(** ... and there it is always stopped. *)
Theorem C17_withdraw_stuck e i s ix po p : reachable s ->
  st_positions s !! (i_sender i, ix) = Some po -> st_pools s !! po_key po = Some p ->
  po_lower po <= p_tick p < po_upper po -> p_liq p < po_liq po ->
  forall s' ms at', execute e i s (RemovePosition ix) <> Ok (s', ms, at').
Proof.
  intros R E EP IR SM s' ms at' H. apply reachable_ereach in R. unfold execute in H. destruct (_ && _); [|done]. cbn [dispatch] in H.
  destruct (remove_inv _ _ _ _ _ _ _ R H) as (po' & p0 & lt & ut & po1 & p' & lt' & ut' & x & y & ox & oy & bm1 & bm2 & m' & F).
  pose proof (rx_pos _ _ _ _ _ _ _ _ _ _ _ _ _ _ _ _ _ _ _ _ _ F) as Q. rewrite E in Q. injection Q as <-.
  pose proof (rx_pool _ _ _ _ _ _ _ _ _ _ _ _ _ _ _ _ _ _ _ _ _ F) as Q. rewrite EP in Q. injection Q as <-.
  pose proof (rx_mod _ _ _ _ _ _ _ _ _ _ _ _ _ _ _ _ _ _ _ _ _ F) as MF. destruct (ereach_geo _ R _ _ EP) as [_ PL].
  pose proof (mf_pliq _ _ _ _ _ _ _ _ _ _ _ _ _ _ _ _ MF PL) as NL. rewrite (mf_pool _ _ _ _ _ _ _ _ _ _ _ _ _ _ _ _ MF) in NL. cbn in NL.
  rewrite (tp_index _ _ _ _ (rx_lowp _ _ _ _ _ _ _ _ _ _ _ _ _ _ _ _ _ _ _ _ _ F)), (tp_index _ _ _ _ (rx_upp _ _ _ _ _ _ _ _ _ _ _ _ _ _ _ _ _ _ _ _ _ F)) in NL.
  unfold in_range_tick in NL. rewrite (proj2 (Z.leb_le _ _)), (proj2 (Z.ltb_lt _ _)) in NL by lia. cbn in NL. lia.
Qed.

Lemma due_owes s k p x po : ereach s -> st_positions s !! x = Some po -> po_key po = k -> st_pools s !! k = Some p ->
  0 <= owes_x s k /\ 0 <= owes_y s k /\ due_x s p po <= owes_x s k /\ due_y s p po <= owes_y s k.
Proof.
  intros R E K EP. pose proof (ereach_liq _ R) as LI. destruct (ereach_prot _ R _ _ EP) as [X0 Y0].
  assert (N : forall x po, st_positions s !! x = Some po -> 0 <= due_x s p po /\ 0 <= due_y s p po).
  { clear x po E K. intros x po E. destruct (lq_pos _ LI _ _ E) as [PV _].
    destruct (bound_tick s _ po (po_lower po) LI E ltac:(by left)) as [lt TL]. destruct (bound_tick s _ po (po_upper po) LI E ltac:(by right)) as [ut TU].
    destruct (due_split s p po lt ut TL TU) as [-> ->]. destruct (ereach_unowed _ R _ _ E) as [-> ->].
    unfold accrued_x, accrued_y. rewrite TL, TU. pose proof PV as (V1 & V2 & V3 & V4).
    pose proof (legal_price_range _ _ V2) as PL. pose proof (legal_price_lt _ _ _ V2 V3 V4) as OP.
    unfold MIN_SQRT_PRICE in PL. unfold worth_x, worth_y. cbv zeta.
    split; (apply Z.add_nonneg_nonneg; [rewrite Z.add_0_r|]); (apply Z.div_pos; [|first [reflexivity|apply Z.mul_pos_pos; lia]]);
      repeat apply Z.mul_nonneg_nonneg; try lia; apply Z.mod_pos_bound; reflexivity. }
  unfold owes_x, owes_y. rewrite EP.
  pose proof (psum_nonneg (fun po => if decide (po_key po = k) then due_x s p po else 0) (st_positions s)) as SX.
  pose proof (psum_nonneg (fun po => if decide (po_key po = k) then due_y s p po else 0) (st_positions s)) as SY.
  pose proof (psum_ge (fun po => if decide (po_key po = k) then due_x s p po else 0) (st_positions s) x po) as TX.
  pose proof (psum_ge (fun po => if decide (po_key po = k) then due_y s p po else 0) (st_positions s) x po) as TY.
  cbn beta in *. rewrite decide_True in TX, TY by done.
  assert (NX : forall x po, st_positions s !! x = Some po -> 0 <= (if decide (po_key po = k) then due_x s p po else 0)) by (intros ?? Q; destruct (decide _); [apply (N _ _ Q)|lia]).
  assert (NY : forall x po, st_positions s !! x = Some po -> 0 <= (if decide (po_key po = k) then due_y s p po else 0)) by (intros ?? Q; destruct (decide _); [apply (N _ _ Q)|lia]).
  specialize (SX NX). specialize (SY NY). specialize (TX NX E). specialize (TY NY E). lia.
Qed.
(** In a history of clean calls every owner can take every position out, whatever balances (128-bit numbers) the contract has, and the
    contract has what the withdrawal pays. *)
Theorem C17_withdraw_partial V self s bal n e i ix po : accounts (clean_single V) self V s bal n -> n < 10 ^ 14 ->
  env_typed e i = true -> st_positions s !! (i_sender i, ix) = Some po ->
  bal (pk_x (po_key po)) < 2 ^ 128 -> bal (pk_y (po_key po)) < 2 ^ 128 ->
  exists p s' ms x, st_pools s !! po_key po = Some p /\
    execute e i s (RemovePosition ix) = Ok (s', ms, position_event (po_liq po) (po_lower po) (po_upper po) (p_price p)) /\
    pays_x x (po_liq po) (p_price p) (tprice (po_lower po)) (tprice (po_upper po)) /\
    let y := worth_y (po_liq po) (p_price p) (tprice (po_lower po)) (tprice (po_upper po)) in
    pays (i_sender i) (po_key po) (x + accrued_x s p po) (y + accrued_y s p po) ms /\
    x + accrued_x s p po <= bal (pk_x (po_key po)) /\ y + accrued_y s p po <= bal (pk_y (po_key po)).
Proof.
  intros A N TY E BX BY. pose proof (accounts_covers _ _ _ _ _ A) as (CR & N0 & _). pose proof (creach_ereach _ CR) as R.
  pose proof (ereach_liq _ R) as LI. destruct (lq_pos _ LI _ _ E) as [PV [p EP]].
  assert (HR : reachable s). { clear - A. induction A as [i f s H|s bal n T v A IH G|e i s m s' ms at' bal n A IH K H _ _ _]; [by eapply reach_init|done|by eapply reach_call]. }
  destruct (due_owes s (po_key po) p _ po R E eq_refl EP) as (O1 & O2 & O3 & O4).
  assert (KD : pk_x (po_key po) <> pk_y (po_key po)) by (apply (pool_distinct s); eauto).
  pose proof (C15_contract_solvent_partial V self s bal n A N (pk_x (po_key po)) [po_key po] ltac:(apply NoDup_singleton)) as CX.
  pose proof (C15_contract_solvent_partial V self s bal n A N (pk_y (po_key po)) [po_key po] ltac:(apply NoDup_singleton)) as CY.
  cbn in CX, CY. unfold owes in CX, CY. rewrite String.eqb_refl in CX, CY. rewrite (proj2 (String.eqb_neq _ _)) in CX by congruence.
  rewrite (proj2 (String.eqb_neq _ _)) in CY by congruence.
  pose proof (proj1 (ct_some _ _ (ereach_pos_ok _ R) (i_sender i) ix) ltac:(eauto)) as IX. pose proof (ct_range _ _ (ereach_pos_ok _ R) (i_sender i)) as IR.
  unfold U32MAX in IR.
  destruct (C17_withdraw_when e i s ix po p) as (s' & ms & x & X & PX & PP); try done; try lia.
  { intros Q. rewrite (creach_act _ CR _ _ EP). unfold act.
    transitivity (active_at (po_key po) (p_tick p) po).
    - unfold active_at, at_key, in_range_tick. rewrite decide_True by done. rewrite (proj2 (Z.leb_le _ _)), (proj2 (Z.ltb_lt _ _)) by lia. done.
    - refine (psum_ge _ _ (i_sender i, ix) po _ E). intros y q Qy. apply (lq_pos _ LI) in Qy. destruct Qy as [(Q1 & _) _].
      unfold active_at, at_key. destruct (decide _); [|lia]. destruct (in_range_tick _ _ _); lia. }
  exists p, s', ms, x. split; [done|]. split; [done|]. split; [done|]. split; [done|].
  destruct (bound_tick s _ po (po_lower po) LI E ltac:(by left)) as [lt TL]. destruct (bound_tick s _ po (po_upper po) LI E ltac:(by right)) as [ut TU].
  destruct (due_split s p po lt ut TL TU) as [D1 D2]. destruct (ereach_unowed _ R _ _ E) as [Z1 Z2]. rewrite Z1 in D1. rewrite Z2 in D2.
  pose proof (proj1 PX). lia.
Qed.

(** ** C44 *)
Lemma accrued_of_fee s p po l u ox oy : st_ticks s !! (po_key po, po_lower po) = Some l -> st_ticks s !! (po_key po, po_upper po) = Some u ->
  t_index l = po_lower po -> t_index u = po_upper po -> 0 <= po_liq po <= U128MAX ->
  to_fee (wsub (inside_x p l u) (po_fgx po)) (po_liq po) = Ok ox -> to_fee (wsub (inside_y p l u) (po_fgy po)) (po_liq po) = Ok oy ->
  ox = accrued_x s p po /\ oy = accrued_y s p po.
Proof.
  intros El Eu Il Iu HL X Y. destruct (accrued_fee s p po l u El Eu Il Iu HL) as (_ & _ & A3 & A4). apply A3 in X. apply A4 in Y. tauto.
Qed.
Theorem C44_claim e i s ix s' ms at' : reachable s -> execute e i s (ClaimFee ix) = Ok (s', ms, at') ->
  exists po p, st_positions s !! (i_sender i, ix) = Some po /\ st_pools s !! po_key po = Some p /\
    pays (i_sender i) (po_key po) (accrued_x s p po) (accrued_y s p po) ms /\
    at' = [("amount_x"%string, accrued_x s p po); ("amount_y"%string, accrued_y s p po)] /\
    (exists po', st_positions s' !! (i_sender i, ix) = Some po' /\ po_key po' = po_key po /\ po_liq po' = po_liq po /\
       po_lower po' = po_lower po /\ po_upper po' = po_upper po /\ po_approvals po' = po_approvals po) /\
    (forall x, x <> (i_sender i, ix) -> st_positions s' !! x = st_positions s !! x) /\
    (forall e2 i2, i_sender i2 = i_sender i -> env_typed e2 i2 = true ->
       exists s2, execute e2 i2 s' (ClaimFee ix) = Ok (s2, [], [("amount_x"%string, 0); ("amount_y"%string, 0)])).
Proof.
  intros R H. assert (R' : reachable s') by (by eapply reach_call). apply reachable_ereach in R, R'.
  assert (HX : 0 <= ix < 2 ^ 32).
  { unfold execute in H. destruct (_ && _) eqn:T; [|done]. apply andb_prop in T. destruct T as [_ T]. cbn [msg_typed] in T.
    unfold u32_ok in T. apply in_range_spec in T. unfold U32MAX in T. lia. }
  unfold execute in H. destruct (_ && _); [|done]. cbn [dispatch] in H.
  destruct (claim_inv _ _ _ _ _ _ _ R H) as (po & p & lt & ut & po1 & p' & lt' & ut' & zx & zy & ox & oy & F).
  pose proof (cl_pos _ _ _ _ _ _ _ _ _ _ _ _ _ _ _ _ _ _ _ F) as E. pose proof (cl_pool _ _ _ _ _ _ _ _ _ _ _ _ _ _ _ _ _ _ _ F) as EP.
  pose proof (cl_valid _ _ _ _ _ _ _ _ _ _ _ _ _ _ _ _ _ _ _ F) as (V1 & V2 & V3 & V4).
  pose proof (cl_low _ _ _ _ _ _ _ _ _ _ _ _ _ _ _ _ _ _ _ F) as TL. pose proof (cl_up _ _ _ _ _ _ _ _ _ _ _ _ _ _ _ _ _ _ _ F) as TU.
  pose proof (tp_index _ _ _ _ (cl_lowp _ _ _ _ _ _ _ _ _ _ _ _ _ _ _ _ _ _ _ F)) as IL.
  pose proof (tp_index _ _ _ _ (cl_upp _ _ _ _ _ _ _ _ _ _ _ _ _ _ _ _ _ _ _ F)) as IU.
  pose proof (cl_mod _ _ _ _ _ _ _ _ _ _ _ _ _ _ _ _ _ _ _ F) as MF.
  destruct (accrued_of_fee s p po lt ut ox oy TL TU IL IU ltac:(lia) (mf_ox _ _ _ _ _ _ _ _ _ _ _ _ _ _ _ _ MF) (mf_oy _ _ _ _ _ _ _ _ _ _ _ _ _ _ _ _ MF)) as [-> ->].
  destruct (ereach_unowed _ R _ _ E) as [O1 O2].
  pose proof (cl_msgs _ _ _ _ _ _ _ _ _ _ _ _ _ _ _ _ _ _ _ F) as EM. pose proof (cl_attr _ _ _ _ _ _ _ _ _ _ _ _ _ _ _ _ _ _ _ F) as EA.
  rewrite O1, O2, !Z.add_0_l in EM. rewrite O1, O2, !Z.add_0_l in EA.
  pose proof (cl_store _ _ _ _ _ _ _ _ _ _ _ _ _ _ _ _ _ _ _ F) as ES. pose proof (mf_pos _ _ _ _ _ _ _ _ _ _ _ _ _ _ _ _ MF) as EPO.
  exists po, p. split; [done|]. split; [done|].
  split; [rewrite EM; apply transfers_pay; apply (pool_distinct s); eauto|]. split; [done|].
  split; [|split].
  - rewrite ES. cbn [st_positions]. rewrite lookup_insert. eexists. split; [reflexivity|]. rewrite EPO. cbn. repeat (split; [done|]).
    split; [lia|]. done.
  - intros x N. rewrite ES. cbn [st_positions]. by rewrite lookup_insert_ne.
  - intros e2 i2 S2 T2. rewrite execute_claim by done.
    destruct (mf_low _ _ _ _ _ _ _ _ _ _ _ _ _ _ _ _ MF) as (L1 & L2 & L3 & L4 & L5). destruct (mf_up _ _ _ _ _ _ _ _ _ _ _ _ _ _ _ _ MF) as (U1 & U2 & U3 & U4 & U5).
    pose proof (mf_pool _ _ _ _ _ _ _ _ _ _ _ _ _ _ _ _ MF) as EP'.
    set (po2 := mkPosition (po_key po1) (po_liq po1) (po_lower po1) (po_upper po1) (po_fgx po1) (po_fgy po1) (po_block po1) 0 0 (po_approvals po1)) in *.
    assert (K2 : po_key po2 = po_key po /\ po_lower po2 = po_lower po /\ po_upper po2 = po_upper po /\ po_fgx po2 = inside_x p lt ut /\ po_fgy po2 = inside_y p lt ut /\ po_owedx po2 = 0 /\ po_owedy po2 = 0).
    { unfold po2. rewrite EPO. done. }
    destruct K2 as (K1 & K2 & K3 & K4 & K5 & K6 & K7). clearbody po2.
    assert (IX : inside_x p' lt' ut' = inside_x p lt ut /\ inside_y p' lt' ut' = inside_y p lt ut).
    { unfold inside_x, inside_y. rewrite L1, L3, L4, U1, U3, U4, EP'. done. }
    destruct IX as [IX IY].
    destruct (claim_ok e2 i2 s' ix po2 p' lt' ut' 0 0) as [s2 C]; try done.
    + rewrite S2, ES. cbn. by rewrite lookup_insert.
    + rewrite K1, ES. cbn. by rewrite lookup_insert.
    + rewrite K1, K2, ES. cbn. by rewrite lookup_insert.
    + rewrite K1, K3, ES. cbn. rewrite lookup_insert_ne by (injection; lia). by rewrite lookup_insert.
    + rewrite IX, K4. unfold wsub, to_fee. by rewrite Z.sub_diag.
    + rewrite IY, K5. unfold wsub, to_fee. by rewrite Z.sub_diag.
    + by rewrite K6.
    + by rewrite K7.
    + rewrite K6, K7 in C. exists s2. exact C.
Qed.
(** a claim whose amounts fit into 128 bits always succeeds *)
Theorem C44_claim_succeeds e i s ix po p : reachable s -> env_typed e i = true ->
  st_positions s !! (i_sender i, ix) = Some po -> st_pools s !! po_key po = Some p ->
  accrued_x s p po < 2 ^ 128 -> accrued_y s p po < 2 ^ 128 ->
  exists s' ms at', execute e i s (ClaimFee ix) = Ok (s', ms, at').
Proof.
  intros R TY E EP AX AY. apply reachable_ereach in R. pose proof (ereach_liq _ R) as LI.
  pose proof (proj1 (ct_some _ _ (ereach_pos_ok _ R) (i_sender i) ix) ltac:(eauto)) as IX. pose proof (ct_range _ _ (ereach_pos_ok _ R) (i_sender i)) as IR.
  unfold U32MAX in IR. rewrite execute_claim by (try done; lia).
  destruct (lq_pos _ LI _ _ E) as [(V1 & _) _].
  destruct (bound_tick s _ po (po_lower po) LI E ltac:(by left)) as [lt TL]. destruct (bound_tick s _ po (po_upper po) LI E ltac:(by right)) as [ut TU].
  pose proof (lq_tick _ LI (po_key po) (po_lower po)) as GL. rewrite TL in GL. destruct GL as [[IL _ _ _ _ _] GL].
  pose proof (lq_tick _ LI (po_key po) (po_upper po)) as GU. rewrite TU in GU. destruct GU as [[IU _ _ _ _ _] GU].
  destruct (accrued_fee s p po lt ut TL TU IL IU ltac:(lia)) as (A1 & A2 & A3 & A4). destruct (ereach_unowed _ R _ _ E) as [O1 O2].
  change (2 ^ 128) with (U128MAX + 1) in *.
  destruct (claim_ok e i s ix po p lt ut (accrued_x s p po) (accrued_y s p po)) as [s' C]; try done; try lia.
  - apply A3. lia.
  - apply A4. lia.
  - eauto.
Qed.

(** ** C18 *)
(** what a call takes from the caller in token [T]: CW20 tokens pulled, or attached native coins, minus what it pays back *)
Definition charged (e : env) (i : msg_info) (T : string) (ms : list out_msg) : Z :=
  (if e_addr_ok e T then pulled (e_self e) (i_sender i) T ms else attached i T) - paid (i_sender i) T ms.
Lemma amount_up_worth p L x y u k po : rest (spacing k) (p_tick p) (p_price p) -> 1 <= spacing k -> pos_valid po -> po_key po = k -> po_liq po = L ->
  calculate_amount_delta (p_tick p) (p_price p) L true (po_upper po) (po_lower po) = Ok (x, y, u) ->
  worth_x L (p_price p) (tprice (po_lower po)) (tprice (po_upper po)) <= x <= U128MAX /\
  worth_y L (p_price p) (tprice (po_lower po)) (tprice (po_upper po)) <= y <= U128MAX.
Proof.
  intros (R1 & R2 & R3) S1 (V1 & V2 & V3 & V4) K EL H. rewrite K in V2, V3. rewrite EL in V1.
  assert (PL := legal_price_range _ _ V2). assert (PU := legal_price_range _ _ V3). assert (OP := legal_price_lt _ _ _ V2 V3 V4).
  assert (PR : MIN_SQRT_PRICE <= p_price p) by (pose proof (legal_price_range _ _ R1); lia).
  assert (SIDE : (p_tick p < po_lower po -> p_price p <= tprice (po_lower po)) /\ (po_lower po <= p_tick p -> tprice (po_lower po) <= p_price p) /\
     (p_tick p < po_upper po -> p_price p <= tprice (po_upper po)) /\ (po_upper po <= p_tick p -> tprice (po_upper po) <= p_price p)).
  { assert (GT : forall j, legal_tick (spacing k) j -> p_tick p < j -> p_price p <= tprice j).
    { intros j LJ X. pose proof (legal_gap _ _ _ S1 R1 LJ X). pose proof (legal_top _ _ S1 LJ). specialize (R3 ltac:(lia)).
      pose proof (legal_price_le _ _ _ (legal_next _ _ S1 R1 ltac:(lia)) LJ ltac:(lia)). lia. }
    assert (LE : forall j, legal_tick (spacing k) j -> j <= p_tick p -> tprice j <= p_price p).
    { intros j LJ X. pose proof (legal_price_le _ _ _ LJ R1 X). lia. }
    repeat split; auto. }
  destruct SIDE as (SD1 & SD2 & SD3 & SD4).
  unfold worth_x, worth_y. unfold calculate_amount_delta in H. rewrite (proj2 (Z.ltb_ge (po_upper po) (po_lower po))) in H by lia.
  set (lo := tprice (po_lower po)) in *. set (hi := tprice (po_upper po)) in *. set (c := Z.max lo (Z.min (p_price p) hi)). cbv zeta.
  assert (CX : forall a v, get_delta_x a hi L true = Ok v -> MIN_SQRT_PRICE <= a -> a <= hi -> L * (hi - a) * 10 ^ 18 / (a * hi) <= v <= U128MAX).
  { intros a v E A B. unfold MIN_SQRT_PRICE in *. pose proof (proj1 (delta_x_up a hi L v ltac:(lia) ltac:(lia) E)). split; [|lia].
    apply delta_x_up_exact in E; [|lia|lia]. replace (Z.abs _) with (hi - a) in E by lia. change (10 ^ 18) with E18.
    assert (15258932000000000000 * 15258932000000000000 <= a * hi) by (apply Z.mul_le_mono_nonneg; lia).
    assert (L * (hi - a) * E18 < (a * hi) * (v + 1)) by (unfold SP_ONE in E; lia).
    enough (L * (hi - a) * E18 / (a * hi) < v + 1) by lia. apply Z.div_lt_upper_bound; lia. }
  assert (CY : forall b v, get_delta_y lo b L true = Ok v -> lo <= b -> L * (b - lo) / 10 ^ 30 <= v <= U128MAX).
  { intros b v E B. pose proof (proj1 (delta_y_up lo b L v E)). split; [|lia]. apply delta_y_up_exact in E. replace (Z.abs _) with (b - lo) in E by lia.
    apply Z.div_le_upper_bound; [reflexivity|]. change (10 ^ 30) with E30. lia. }
  assert (Z0 : forall d, 0 <= 0 <= U128MAX /\ 0 / d = 0) by (intros d; split; [done|apply Zdiv_0_l]).
  destruct (Z.ltb_spec (p_tick p) (po_lower po)) as [A|A].
  - inv_bind H as pl EPl. apply calculate_sqrt_price_inv in EPl. destruct EPl as [_ ->].
    inv_bind H as pu EPu. apply calculate_sqrt_price_inv in EPu. destruct EPu as [_ ->].
    inv_bind H as v EV. apply Ok_inj in H. injection H as <- <- <-. fold lo hi in EV.
    assert (c = lo) as -> by (specialize (SD1 A); unfold c; lia). split; [apply CX; [done|lia|lia]|].
    rewrite Z.sub_diag, Z.mul_0_r, Zdiv_0_l. done.
  - destruct (Z.ltb_spec (p_tick p) (po_upper po)) as [B|B].
    + inv_bind H as pu EPu. apply calculate_sqrt_price_inv in EPu. destruct EPu as [_ ->].
      inv_bind H as v EV. inv_bind H as pl EPl. apply calculate_sqrt_price_inv in EPl. destruct EPl as [_ ->].
      inv_bind H as v2 EW. apply Ok_inj in H. injection H as <- <- <-. fold lo hi in EV, EW.
      specialize (SD2 A). specialize (SD3 B). assert (c = p_price p) as -> by (unfold c; lia). split; [apply CX|apply CY]; done || lia.
    + inv_bind H as pl EPl. apply calculate_sqrt_price_inv in EPl. destruct EPl as [_ ->].
      inv_bind H as pu EPu. apply calculate_sqrt_price_inv in EPu. destruct EPu as [_ ->].
      inv_bind H as v EV. apply Ok_inj in H. injection H as <- <- <-. fold lo hi in EV.
      assert (c = hi) as -> by (specialize (SD4 B); unfold c; lia). split; [|apply CY; [done|lia]].
      rewrite Z.sub_diag, Z.mul_0_r, Z.mul_0_l, Zdiv_0_l. done.
Qed.
Lemma from_other e i t v m T : asset_transfer_from e i t v = Ok m -> t <> T ->
  paid (i_sender i) T m = 0 /\ pulled (e_self e) (i_sender i) T m = 0.
Proof.
  unfold asset_transfer_from. intros H N. rinv H; simplify_eq; repeat case_match; try done; cbn;
    rewrite (proj2 (String.eqb_neq t T)) by done; by rewrite ?andb_false_r.
Qed.
Lemma from_this e i t v m : asset_transfer_from e i t v = Ok m -> 0 <= v -> env_typed e i = true -> v <= charged e i t m.
Proof.
  intros H V TY. pose proof (brought_nonneg e i t TY) as BN. unfold brought in BN. unfold charged. unfold asset_transfer_from in H.
  destruct (Z.eqb_spec v 0) as [->|N]; [apply Ok_inj in H; subst m; cbn; destruct (e_addr_ok e t); lia|].
  destruct (e_addr_ok e t).
  - apply Ok_inj in H. subst m. cbn. rewrite !String.eqb_refl. cbn. lia.
  - unfold attached in *. destruct (List.find _ (i_funds i)) as [c|]; [|done]. destruct (Z.leb_spec v (c_amount c)); [|done].
    apply Ok_inj in H. subst m. destruct (Z.eqb_spec (c_amount c - v) 0); cbn; [lia|]. rewrite !String.eqb_refl. cbn. lia.
Qed.
Lemma charged_transfer e i k x y m0 m1 T : pk_x k <> pk_y k -> 0 <= x -> 0 <= y -> env_typed e i = true ->
  asset_transfer_from e i (pk_x k) x = Ok m0 -> asset_transfer_from e i (pk_y k) y = Ok m1 ->
  (if String.eqb T (pk_x k) then x else if String.eqb T (pk_y k) then y else 0) <= charged e i T (m0 ++ m1).
Proof.
  intros N X Y TY H0 H1. unfold charged. rewrite paid_app, pulled_app.
  destruct (String.eqb_spec T (pk_x k)) as [->|NX].
  - destruct (from_other _ _ _ _ _ (pk_x k) H1 ltac:(congruence)) as [-> ->]. rewrite !Z.add_0_r. by apply from_this.
  - destruct (from_other _ _ _ _ _ T H0 ltac:(congruence)) as [-> ->]. rewrite !Z.add_0_l. destruct (String.eqb_spec T (pk_y k)) as [->|NY].
    + by apply from_this.
    + destruct (from_other _ _ _ _ _ T H1 ltac:(congruence)) as [-> ->]. pose proof (brought_nonneg e i T TY) as BN. unfold brought in BN.
      destruct (e_addr_ok e T); lia.
Qed.

(** Creating a position and removing it in the next call: the removal succeeds, pays at most what the creation charged, and leaves
    price, tick and active liquidity of the pool and all positions as they were. *)
Theorem C18_open_close e i s k lower upper liq sl su s1 ms1 at1 e2 i2 :
  reachable s -> execute e i s (CreatePosition k lower upper liq sl su) = Ok (s1, ms1, at1) ->
  i_sender i2 = i_sender i -> env_typed e2 i2 = true ->
  exists s2 ms2 p p2,
    execute e2 i2 s1 (RemovePosition (get_position_length s (i_sender i))) = Ok (s2, ms2, position_event liq lower upper (p_price p)) /\
    (forall T, paid (i_sender i) T ms2 <= charged e i T ms1) /\
    st_positions s2 = st_positions s /\
    st_pools s !! k = Some p /\ st_pools s2 !! k = Some p2 /\ p_price p2 = p_price p /\ p_tick p2 = p_tick p /\ p_liq p2 = p_liq p /\
    (forall k', k' <> k -> st_pools s2 !! k' = st_pools s !! k').
Proof.
  intros R H S2 T2. assert (R1 : reachable s1) by (by eapply reach_call).
  pose proof (reachable_ereach _ R) as ER. pose proof (reachable_ereach _ R1) as ER1.
  unfold execute in H. destruct (_ && _) eqn:TY; [|done]. apply andb_prop in TY. destruct TY as [TE TY]. cbn [dispatch msg_typed] in H, TY.
  assert (HQ : 0 <= liq <= U128MAX).
  { unfold u128_ok in TY. repeat (apply andb_true_iff in TY; destruct TY as [TY ?]).
    repeat match goal with Q : in_range 0 U128MAX liq = true |- _ => by apply in_range_spec in Q end. }
  destruct (create_inv _ _ _ _ _ _ _ _ _ _ _ _ ER HQ H) as (p & lt & ut & po & p' & lt' & ut' & x & y & bm1 & bm2 & m0 & m1 & F).
  destruct F. pose proof (mf_pos _ _ _ _ _ _ _ _ _ _ _ _ _ _ _ _ cx_mod) as EPO. cbn in EPO. rewrite Z.add_0_l in EPO.
  pose proof (tp_index _ _ _ _ cx_lowp) as IL. pose proof (tp_index _ _ _ _ cx_upp) as IU.
  pose proof (mf_amount _ _ _ _ _ _ _ _ _ _ _ _ _ _ _ _ cx_mod) as AM. rewrite IL, IU in AM.
  pose proof (mf_pool _ _ _ _ _ _ _ _ _ _ _ _ _ _ _ _ cx_mod) as EP'. rewrite IL, IU in EP'.
  destruct (mf_low _ _ _ _ _ _ _ _ _ _ _ _ _ _ _ _ cx_mod) as (L1 & L2 & L3 & L4 & L5). destruct (mf_up _ _ _ _ _ _ _ _ _ _ _ _ _ _ _ _ cx_mod) as (U1 & U2 & U3 & U4 & U5).
  set (a := i_sender i) in *. set (n := plen s a) in *.
  change (get_position_length s a) with n.
  assert (E1 : st_positions s1 !! (a, n) = Some po) by (rewrite cx_store; cbn; by rewrite lookup_insert).
  assert (P1 : st_pools s1 !! k = Some p') by (rewrite cx_store; cbn; by rewrite lookup_insert).
  assert (TL : st_ticks s1 !! (k, lower) = Some lt').
  { rewrite cx_store. cbn. rewrite lookup_insert_ne by (injection; lia). by rewrite lookup_insert. }
  assert (TU : st_ticks s1 !! (k, upper) = Some ut') by (rewrite cx_store; cbn; by rewrite lookup_insert).
  pose proof (ereach_liq _ ER1) as LI1. destruct (lq_pos _ LI1 _ _ E1) as [PV _].
  assert (KK : po_key po = k /\ po_lower po = lower /\ po_upper po = upper /\ po_liq po = liq) by (by rewrite EPO).
  destruct KK as (K1 & K2 & K3 & K4).
  destruct (ereach_geo _ ER1 _ _ P1) as [G1 G2]. destruct (kv_tier _ (ereach_pools _ ER1 _ _ P1)) as [S1 _].
  destruct (ereach_geo _ ER _ _ cx_pool) as [G0 G0'].
  assert (PT : p_tick p' = p_tick p /\ p_price p' = p_price p /\ p_fgx p' = p_fgx p /\ p_fgy p' = p_fgy p) by (by rewrite EP').
  destruct PT as (PT1 & PT2 & PT3 & PT4).
  destruct (amount_up_worth p' liq x y (in_range_tick lower upper (p_tick p)) k po) as [WX WY]; try done.
  { lia. } { by rewrite PT1, PT2, K2, K3. }
  destruct (accrued_of_fee s1 p' po lt' ut' 0 0) as [A1 A2]; rewrite ?K1, ?K2, ?K3, ?K4; try done; try congruence; try lia.
  { unfold inside_x. rewrite L1, L3, U1, U3, PT1, PT3. rewrite EPO. cbn. unfold inside_x, wsub, to_fee. by rewrite Z.sub_diag. }
  { unfold inside_y. rewrite L1, L4, U1, U4, PT1, PT4. rewrite EPO. cbn. unfold inside_y, wsub, to_fee. by rewrite Z.sub_diag. }
  destruct (due_split s1 p' po lt' ut') as [D1 D2]; rewrite ?K1, ?K2, ?K3; try done.
  destruct (ereach_unowed _ ER1 _ _ E1) as [O1 O2].
  pose proof (proj1 (ct_some _ _ (ereach_pos_ok _ ER1) a n) ltac:(eauto)) as IX. pose proof (ct_range _ _ (ereach_pos_ok _ ER1) a) as IR.
  rewrite O1, <- A1, K4 in D1. rewrite O2, <- A2, K4 in D2.
  destruct (C17_withdraw_when e2 i2 s1 n po p') as (s2 & ms2 & x' & X & PX & PP); rewrite ?S2, ?K1; try done.
  { unfold U32MAX in IR. lia. }
  { change (2 ^ 128) with (U128MAX + 1). lia. }
  { change (2 ^ 128) with (U128MAX + 1). lia. }
  { rewrite K2, K3, K4, EP'. cbn. intros Q. unfold in_range_tick. rewrite (proj2 (Z.leb_le _ _)), (proj2 (Z.ltb_lt _ _)) by lia. cbn. lia. }
  rewrite <- A1, <- A2, !Z.add_0_r, S2, K1, K4 in PP. destruct PX as [PX _]. rewrite K4 in PX.
  assert (N0 : 0 <= worth_y liq (p_price p') (tprice (po_lower po)) (tprice (po_upper po))).
  { pose proof PV as (V1 & V2 & V3 & V4). pose proof (legal_price_lt _ _ _ V2 V3 V4) as OP. unfold worth_y. cbv zeta.
    apply Z.div_pos; [|reflexivity]. apply Z.mul_nonneg_nonneg; lia. }
  pose proof X as RM. rewrite execute_remove in RM by (try done; unfold U32MAX in IR; lia).
  destruct (remove_inv _ _ _ _ _ _ _ ER1 RM) as (q & r & l3 & u3 & q1 & r' & l4 & u4 & zx & zy & ox & oy & c1 & c2 & m' & RF).
  destruct RF. rewrite S2 in *. rewrite E1 in rx_pos. injection rx_pos as <-. rewrite K1, P1 in rx_pool. injection rx_pool as <-.
  pose proof (mf_pool _ _ _ _ _ _ _ _ _ _ _ _ _ _ _ _ rx_mod) as EQ.
  rewrite (tp_index _ _ _ _ rx_lowp), (tp_index _ _ _ _ rx_upp), K2, K3, K4 in EQ.
  assert (PN : plen s1 a = n + 1) by (rewrite cx_store; unfold plen, get_position_length; cbn; by rewrite lookup_insert).
  exists s2, ms2, p, r'. split; [by rewrite K2, K3, K4, PT2 in X|]. split; [|split].
  - intros T. rewrite (PP a T), String.eqb_refl. rewrite cx_msgs.
    pose proof (charged_transfer e i k x y m0 m1 T ltac:(apply (pool_distinct s); eauto) ltac:(lia) ltac:(lia) TE cx_payx cx_payy) as CT.
    destruct (String.eqb T (pk_x k)); [lia|]. destruct (String.eqb T (pk_y k)); lia.
  - rewrite rx_store. cbn [st_positions]. destruct rx_list as [(Q & _)|(_ & ->)]; [lia|].
    rewrite cx_store. cbn [st_positions]. by apply delete_insert.
  - split; [done|]. split; [rewrite rx_store; cbn; rewrite K1; by rewrite lookup_insert|].
    rewrite EQ. cbn. split; [by rewrite PT2|]. split; [by rewrite PT1|]. split.
    + rewrite PT1, EP'. cbn. destruct (in_range_tick lower upper (p_tick p)); lia.
    + intros k' NK. rewrite rx_store. cbn. rewrite K1, lookup_insert_ne by done. rewrite cx_store. cbn. by rewrite lookup_insert_ne.
Qed.

(** ** Examples *)
(** alice takes their first position out: 12385 tokenx and 7614 tokeny for the liquidity, 13 tokenx fees *)
Example ex_C17 : exists s bal n po p, accounts (clean_single (e_addr_ok v_env)) "self" (e_addr_ok v_env) s bal n /\
  st_positions s !! ("alice"%string, 0) = Some po /\ st_pools s !! po_key po = Some p /\
  n = 8000 /\ bal (pk_x (po_key po)) = 20845 /\ bal (pk_y (po_key po)) = 12017 /\ accrued_x s p po = 13 /\
  worth_x (po_liq po) (p_price p) (tprice (po_lower po)) (tprice (po_upper po)) = 12385 /\
  worth_y (po_liq po) (p_price p) (tprice (po_lower po)) (tprice (po_upper po)) = 7614 /\
  match execute v_env (v_info "alice") s (RemovePosition 0) with
  | Ok (_, ms, _) => ms = [Cw20Transfer "tokenx" "alice" 12398; Cw20Transfer "tokeny" "alice" 7614]
  | _ => False
  end.
Proof.
  destruct (done_inv (fun '(s, bal, n) =>
      match st_positions s !! ("alice"%string, 0) with Some po =>
      match st_pools s !! po_key po with Some p =>
        n = 8000 /\ bal (pk_x (po_key po)) = 20845 /\ bal (pk_y (po_key po)) = 12017 /\ accrued_x s p po = 13 /\
        worth_x (po_liq po) (p_price p) (tprice (po_lower po)) (tprice (po_upper po)) = 12385 /\
        worth_y (po_liq po) (p_price p) (tprice (po_lower po)) (tprice (po_upper po)) = 7614 /\
        match execute v_env (v_info "alice") s (RemovePosition 0) with
        | Ok (_, ms, _) => ms = [Cw20Transfer "tokenx" "alice" 12398; Cw20Transfer "tokeny" "alice" 7614]
        | _ => False
        end
      | None => False end | None => False end)
     (ac_start true v_env 10000000000 (map (fun '(a, m) => (v_info a, m)) sc0_calls))) as ([[s bal] n] & E & X).
  { vm_compute. repeat split; reflexivity. }
  apply some_inv in X. destruct X as (po & E1 & X). apply some_inv in X. destruct X as (p & E2 & X).
  exists s, bal, n, po, p. exact (conj (ac_start_clean _ _ _ _ _ _ E) (conj E1 (conj E2 X))).
Qed.
(** a position in range with more liquidity than the pool says is active *)
Example ex_C17_stuck : exists owner ix po p, reachable lim_store /\ st_positions lim_store !! (owner, ix) = Some po /\
  st_pools lim_store !! po_key po = Some p /\ po_lower po <= p_tick p < po_upper po /\ p_liq p < po_liq po.
Proof.
  assert (X : match st_positions lim_store !! ("bob"%string, 0) with Some po => match st_pools lim_store !! po_key po with
     Some p => po_lower po <= p_tick p < po_upper po /\ p_liq p < po_liq po | None => False end | None => False end).
  { vm_compute. repeat split; first [reflexivity|discriminate]. }
  apply some_inv in X. destruct X as (po & E1 & X). apply some_inv in X. destruct X as (p & E2 & X).
  exists "bob"%string, 0, po, p. exact (conj lim_store_reachable (conj E1 (conj E2 X))).
Qed.
Example ex_C44 : reachable sc0 /\ match execute v_env (v_info "alice") sc0 (ClaimFee 0) with
  | Ok (s, ms, at') => ms = [Cw20Transfer "tokenx" "alice" 13] /\ at' = [("amount_x"%string, 13); ("amount_y"%string, 0)] /\
      match execute v_env (v_info "alice") s (ClaimFee 0) with Ok (_, ms, _) => ms = [] | _ => False end
  | _ => False end.
Proof. split; [exact sc0_reachable|]. vm_compute. repeat split. Qed.
(** bob opens a second position, paying one token more on each side than they get back *)
Example ex_C18 : match execute v_env (v_info "bob") sc0 (CreatePosition v_key (-30) 40 1234567890123 MIN_SQRT_PRICE MAX_SQRT_PRICE) with
  | Ok (s, ms, _) => charged v_env (v_info "bob") "tokenx" ms = 2614 /\ charged v_env (v_info "bob") "tokeny" ms = 1704 /\
      match execute v_env (v_info "bob") s (RemovePosition 1) with
      | Ok (_, ms, _) => paid "bob" "tokenx" ms = 2613 /\ paid "bob" "tokeny" ms = 1703
      | _ => False end
  | _ => False end.
Proof. vm_compute. repeat split. Qed.

Print Assumptions C17_withdraw_when.
Print Assumptions C17_withdraw_stuck.
Print Assumptions C17_withdraw_partial.
Print Assumptions C44_claim.
Print Assumptions C44_claim_succeeds.
Print Assumptions C18_open_close.
