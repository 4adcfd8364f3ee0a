(** C100: a price limit bounds the average price an offer is exchanged at. *)
From Verif Require Import Base Decimal SqrtPrice Clamm FeeGrowth Types Tick Pool Position Keys State Swap Exec Tactics
  PriceProofs ClammProofs PropClamm BitmapProofs Frame Handlers History Basic PosList Ledger Scenario SwapInv SwapGeo SwapLoop Modify PSum LiqInv
  Vectors Geo Ops Clean PropTrade PropLiq PropSwap Growth Value Fund Flow PropSolv Forward PropExit PropFees PropFair PropWork.
From stdpp Require Import gmap strings.
From Coq Require Import Lia.
Open Scope Z_scope.

(** * The legs of a swap in any reachable state
    Unlike [fair] of PropFair nothing is said about the positions in force: the liquidity of a leg is the one the pool has on record. *)
Definition just (f : Z) (d : bool) (l : leg) : Prop :=
  15258932000000000000 <= lg_to l /\ 0 <= lg_liq l < 2 ^ 128 /\ on_curve d true l /\ fee_due f d true l.
Definition share_only (f : Z) (l : leg) : Prop := 0 <= lg_fee l * 10 ^ 12 - lg_in l * f < 10 ^ 12.

Lemma iter_just s now k d lim w w1 : store_geo s k -> loop_inv k d lim w -> sw_remaining w <> 0 ->
  swap_iter s now k d true lim (end_tick d k) w = Ok w1 -> loop_inv k d lim w1 ->
  exists ls l, legs_of w w1 (ls ++ [l]) /\ Forall (just (ft_fee (pk_tier k)) d) (ls ++ [l]) /\ Forall (share_only (ft_fee (pk_tier k))) ls /\
    (share_only (ft_fee (pk_tier k)) l \/ sw_remaining w1 = 0 /\ lg_liq l = p_liq (sw_pool w1)) /\
    Z.of_nat (Datatypes.length (ls ++ [l])) <= 1 + (if sw_remaining w1 =? 0 then 1 else 0).
Proof.
  intros G I N H I1. pose proof (loop_pre s k d lim w G I N) as PRE. destruct (sg_sp _ _ G) as [S1 _].
  pose proof H as H0. apply iter_cases in H0; [|done].
  destruct H0 as (t & init & sl & r & p0 & rm0 & TG & SL & SA & ST & SIDE & E0 & R0 & AF & NL & IC & _ & _ & _ & DU).
  assert (P1 : p_price (sw_pool w1) = sr_next r).
  { destruct IC as [tk t' p1 _ _ _ _ TC _ ->|en _ _ _ _ ->|tk p2 _ _ _ _ _ D ->|c' _ _ ->]; cbn; try done.
    - apply tick_cross_inv in TC. destruct TC as (_ & _ & _ & _ & l & -> & _). done.
    - destruct D as [[_ ->]|(_ & _ & D)]; [done|]. apply add_fee_keeps in D. destruct D as (_ & _ & -> & _). done. }
  assert (OUT : sw_out w1 = sw_out w + sr_out r).
  { destruct IC as [tk t' p1 _ _ _ _ TC _ ->|en _ _ _ _ ->|tk p2 _ _ _ _ _ D ->|c' _ _ ->]; cbn; lia. }
  pose proof (lv_weak _ _ _ _ I1) as (W1 & W2 & W3). pose proof (legal_price_range _ _ W1) as [WM _].
  assert (NR : MIN_SQRT_PRICE <= sr_next r) by (rewrite <- P1; lia).
  assert (DIR : if d then sr_next r <= p_price (sw_pool w) else p_price (sw_pool w) <= sr_next r).
  { pose proof (loop_step _ _ _ _ _ _ _ _ G I N H) as [IP _]. destruct IP. rewrite <- P1. destruct d; lia. }
  pose proof (lv_rem _ _ _ _ I) as [R1 _]. pose proof (lv_liq _ _ _ _ I) as [Q1 Q2]. assert (QL : 0 <= p_liq (sw_pool w) < 2 ^ 128) by (change (2 ^ 128) with (U128MAX + 1); lia).
  destruct (step_fair (p_tick (sw_pool w)) d _ _ _ _ _ _ _ SA ltac:(lia) ST SIDE NR DIR) as [OC FD].
  set (l := mkLeg _ _ _ _ _ _ _) in OC, FD.
  assert (FL : just (ft_fee (pk_tier k)) d l) by done.
  assert (LP : p_liq p0 = p_liq (sw_pool w)) by (apply add_fee_keeps in AF; tauto).
  assert (SF : share_only (ft_fee (pk_tier k)) l \/ sr_next r <> sl /\ rm0 = 0).
  { destruct (Z.eq_dec (p_liq (sw_pool w)) 0) as [LZ|LZ].
    { unfold compute_swap_step in ST. rewrite LZ in ST. cbn in ST. apply Ok_inj in ST. subst r. left. unfold share_only. cbn. lia. }
    apply step_inv in ST; [|done]. destruct ST. destruct sf_fee as [(_ & NT & FE & _)|[_ F]].
    - right. split; [done|]. subst rm0. lia.
    - left. apply ceil_pct in F. unfold share_only. cbn. change (10 ^ 12) with PCT_ONE. lia. }
  assert (DU' : sw_in w1 = sw_in w + (sr_in r + sr_fee r) \/ sw_remaining w1 = 0 /\ d = true /\ sw_in w1 = sw_in w + (sr_in r + sr_fee r) + rm0 /\
     sr_next r = sl /\ p_liq (sw_pool w1) = p_liq (sw_pool w) /\
     is_enough_amount_to_change_price rm0 (sr_next r) (p_liq (sw_pool w)) (ft_fee (pk_tier k)) true d = Ok false).
  { destruct DU as [DU|DU]; [by left|]. destruct IC as [tk t' p1 _ _ _ _ TC _ ->|en _ _ _ _ ->|tk p2 _ _ SN SE _ D ->|c' _ _ ->]; cbn [sw_in sw_remaining]; [by left|by left| |by left].
    right. split; [done|]. split; [tauto|]. split; [done|]. split; [congruence|]. split; [|tauto]. cbn.
    destruct D as [[_ ->]|(_ & _ & D)]; [exact LP|]. apply add_fee_keeps in D. assert (D2 : p_liq p2 = p_liq (p_set_price p0 (sr_next r))) by tauto. rewrite D2. exact LP. }
  destruct DU' as [DU'|(RZ & -> & DU' & NS & LL & EN)].
  - exists [], l. cbn [app]. split; [unfold legs_of; cbn; lia|]. split; [by constructor|]. split; [constructor|]. split; [|cbn; destruct (_ =? _); lia].
    destruct SF as [SF|[NS RZ]]; [by left|right].
    destruct IC as [tk t' p1 _ SN SE _ TC _ ->|en _ SN SE _ ->|tk p2 _ _ SN SE _ D ->|c' _ _ ->]; [congruence|congruence|congruence|]. cbn. split; [done|]. by rewrite LP.
  - destruct (rest_fair (p_tick (sw_pool w)) rm0 (sr_next r) (p_liq (sw_pool w)) _ Q1 NR R0 EN) as [OC2 FD2].
    set (l2 := mkLeg _ _ _ _ _ _ _) in OC2, FD2. destruct SF as [SF|[? _]]; [|done].
    assert (FL2 : just (ft_fee (pk_tier k)) true l2) by done.
    exists [l], l2. cbn [app]. split; [unfold legs_of; cbn; lia|]. split; [constructor; [exact FL|constructor; [exact FL2|constructor]]|].
    split; [by constructor|]. split; [right; split; [done|by symmetry]|rewrite RZ; cbn; lia].
Qed.

Lemma run_just s now k d lim : store_geo s k -> forall w w', run s now k d true lim w w' -> loop_inv k d lim w -> sw_remaining w <> 0 ->
  exists ls l, legs_of w w' (ls ++ [l]) /\ Forall (just (ft_fee (pk_tier k)) d) (ls ++ [l]) /\ Forall (share_only (ft_fee (pk_tier k))) ls /\
    (share_only (ft_fee (pk_tier k)) l \/ lg_liq l = p_liq (sw_pool w')) /\
    spacing k * (Z.of_nat (Datatypes.length (ls ++ [l])) - 3) <= (if d then p_tick (sw_pool w) - p_tick (sw_pool w') else p_tick (sw_pool w') - p_tick (sw_pool w)).
Proof.
  intros G w w' R. pose proof (proj1 (sg_sp _ _ G)) as S1. fold (spacing k) in S1. induction R as [w R|w w1 w2 N H R IH]; intros I NZ; [done|].
  pose proof (loop_step _ _ _ _ _ _ _ _ G I N H) as [_ I1].
  destruct (iter_just _ _ _ _ _ _ _ G I N H I1) as (l1 & a1 & (C1 & X1 & Y1) & F1 & E1 & Z1 & N1).
  pose proof (iter_moves _ _ _ _ _ _ _ G I N H) as MV. cbv zeta in MV.
  destruct (Z.eqb_spec (sw_remaining w1) 0) as [RZ|RZ].
  - inversion R; subst; [|done]. exists l1, a1. split; [done|]. split; [done|]. split; [done|]. split; [tauto|].
    assert (spacing k * (Z.of_nat (Datatypes.length (l1 ++ [a1])) - 3) <= spacing k * -1) by (apply Z.mul_le_mono_nonneg_l; lia). destruct d; lia.
  - destruct (IH I1 RZ) as (l2 & a2 & (C2 & X2 & Y2) & F2 & E2 & Z2 & N2).
    assert (E1' : Forall (share_only (ft_fee (pk_tier k))) (l1 ++ [a1])).
    { apply Forall_app. split; [done|]. constructor; [|constructor]. destruct Z1 as [|[? _]]; done. }
    exists ((l1 ++ [a1]) ++ l2), a2. rewrite <- app_assoc. split.
    { unfold legs_of. rewrite (sum_app _ (l1 ++ [a1])), (sum_app lg_out (l1 ++ [a1])). split; [by eapply chained_app|]. lia. }
    split; [by apply Forall_app|]. split; [by apply Forall_app|]. split; [done|].
    rewrite app_length, Nat2Z.inj_add.
    assert (spacing k * Z.of_nat (Datatypes.length (l1 ++ [a1])) <= spacing k * 1) by (apply Z.mul_le_mono_nonneg_l; lia). destruct d; lia.
Qed.

(** * What a leg costs, in terms of the last price *)
Lemma up_rate f l Q : just f false l -> 0 < lg_from l -> lg_to l <= Q -> (lg_in l - 1) * 10 ^ 48 <= (lg_out l + 1) * (Q * Q + 10 ^ 24).
Proof.
  destruct l as [c a b L i o fe]. unfold just, on_curve. cbn [lg_in lg_out lg_from lg_to lg_liq]. intros (B & Lq & (O & I1 & I2 & I3) & _) A0 BQ.
  destruct I3 as [I3|[? _]]; [|done].
  assert (0 <= L * (b - a)) by (apply Z.mul_nonneg_nonneg; lia). assert (0 < a * b) by (apply Z.mul_pos_pos; lia).
  assert (0 <= o). { destruct (Z.le_gt_cases 0 o); [done|]. exfalso. assert ((o + 1) * (a * b + 10 ^ 24) <= 0) by (apply Z.mul_nonpos_nonneg; lia). lia. }
  assert (a * b <= Q * Q) by (apply Z.mul_le_mono_nonneg; lia).
  assert ((o + 1) * (a * b + 10 ^ 24) <= (o + 1) * (Q * Q + 10 ^ 24)) by (apply Z.mul_le_mono_nonneg_l; lia). lia.
Qed.
Lemma down_rate f l Q : just f true l -> 15258932000000000000 <= Q -> Q <= lg_to l -> (lg_in l - 1) * (Q * Q - 10 ^ 24) <= (lg_out l + 1) * 10 ^ 48.
Proof.
  destruct l as [c a b L i o fe]. unfold just, on_curve. cbn [lg_in lg_out lg_from lg_to lg_liq]. intros (B & Lq & (O & I1 & I2 & I3 & I4) & _) A0 BQ.
  destruct I4 as [I4|[? _]]; [|done].
  assert (0 <= L * (a - b)) by (apply Z.mul_nonneg_nonneg; lia).
  assert (QQ : 15258932000000000000 * 15258932000000000000 <= Q * Q) by (apply Z.mul_le_mono_nonneg; lia).
  assert (AB : Q * Q <= a * b) by (apply Z.mul_le_mono_nonneg; lia).
  destruct (Z.le_gt_cases 1 i).
  - assert ((i - 1) * (Q * Q - 10 ^ 24) <= (i - 1) * (a * b - 10 ^ 24)) by (apply Z.mul_le_mono_nonneg_l; lia). lia.
  - assert ((i - 1) * (Q * Q - 10 ^ 24) <= 0) by (apply Z.mul_nonpos_nonneg; lia). lia.
Qed.
Lemma just_in0 f d l : 0 <= f -> just f d l -> 0 <= lg_in l /\ 0 <= lg_fee l.
Proof.
  destruct l as [c a b L i o fe]. unfold just, on_curve, fee_due. cbn [lg_in lg_out lg_from lg_to lg_liq lg_fee]. intros F0 (B & Lq & OC & FD).
  assert (0 <= i).
  { destruct d.
    - destruct OC as (O & I1 & _). assert (0 <= L * (a - b)) by (apply Z.mul_nonneg_nonneg; lia).
      assert (AB : 15258932000000000000 * 15258932000000000000 <= a * b) by (apply Z.mul_le_mono_nonneg; lia).
      destruct (Z.le_gt_cases 0 i); [done|]. exfalso. assert (i * (a * b) <= -1 * (a * b)) by (apply Z.mul_le_mono_nonneg_r; lia). lia.
    - destruct OC as (O & I1 & _). assert (0 <= L * (b - a)) by (apply Z.mul_nonneg_nonneg; lia). lia. }
  split; [done|]. destruct FD as [FD|FD]; [|tauto]. assert (0 <= i * f) by (apply Z.mul_nonneg_nonneg; lia). lia.
Qed.

(** ** Sums over legs *)
Lemma sum_le (g h : leg -> Z) ls : Forall (fun l => g l <= h l) ls -> sum_of g ls <= sum_of h ls.
Proof. unfold sum_of. induction 1; cbn; lia. Qed.
Lemma sum_plus (g h : leg -> Z) ls : sum_of (fun l => g l + h l) ls = sum_of g ls + sum_of h ls.
Proof. unfold sum_of. induction ls as [|l ls IH]; cbn; [done|]. rewrite IH. lia. Qed.
Lemma sum_scale (g : leg -> Z) c ls : sum_of (fun l => g l * c) ls = sum_of g ls * c.
Proof. unfold sum_of. induction ls as [|l ls IH]; cbn; [done|]. rewrite IH. lia. Qed.
Lemma sum_const c ls : sum_of (fun _ => c) ls = Z.of_nat (Datatypes.length ls) * c.
Proof. unfold sum_of. induction ls as [|l ls IH]; cbn [foldr Datatypes.length]; [done|]. rewrite IH, Nat2Z.inj_succ. lia. Qed.
Lemma sum_minus (g : leg -> Z) c ls : sum_of (fun l => g l - c) ls = sum_of g ls - Z.of_nat (Datatypes.length ls) * c.
Proof. rewrite <- (sum_const c). unfold sum_of. induction ls as [|l ls IH]; cbn; [done|]. rewrite IH. lia. Qed.
Lemma sum_in0 f d ls : 0 <= f -> Forall (just f d) ls -> 0 <= sum_of lg_in ls /\ 0 <= sum_of lg_fee ls.
Proof. intros F0. induction 1 as [|l ls H _ IH]; [done|]. apply just_in0 in H; [|done]. unfold sum_of in *. cbn in *. lia. Qed.

Lemma chain_prices f (d : bool) ls a Q : chained a ls Q -> Forall (just f d) ls ->
  Forall (fun l => if d then Q <= lg_to l /\ lg_to l <= lg_from l else lg_to l <= Q /\ a <= lg_from l) ls /\ (if d then Q <= a else a <= Q).
Proof.
  revert a. induction ls as [|l ls IH]; intros a C F; cbn in C.
  - subst. split; [constructor|destruct d; lia].
  - destruct C as [C1 C2]. inversion F as [|? ? F1 F2]; subst.
    destruct (IH _ C2 F2) as [J1 J2]. destruct F1 as (_ & _ & OC & _). destruct l as [c fr to L i o fe]. cbn in *. destruct d.
    + destruct OC as [O _]. split; [|lia]. constructor; cbn; [lia|]. exact J1.
    + destruct OC as [O _]. split; [|lia]. constructor; cbn; [lia|]. eapply Forall_impl; [exact J1|]. cbn. intros. lia.
Qed.

Lemma fee_sum f ls : Forall (share_only f) ls -> sum_of lg_fee ls * 10 ^ 12 <= sum_of lg_in ls * f + Z.of_nat (Datatypes.length ls) * 10 ^ 12.
Proof. induction 1 as [|l ls H _ IH]; [done|]. unfold sum_of, share_only in *. cbn [foldr Datatypes.length]. rewrite Nat2Z.inj_succ. lia. Qed.

(** * A rising price: token y for token x *)
Lemma up_total f ls l P Q L : 0 <= f <= 10 ^ 12 -> 0 < P -> chained P (ls ++ [l]) Q -> Forall (just f false) (ls ++ [l]) -> Forall (share_only f) ls ->
  share_only f l \/ lg_liq l = L -> 0 <= L ->
  let n := Z.of_nat (Datatypes.length (ls ++ [l])) in let net := sum_of lg_in (ls ++ [l]) in let fee := sum_of lg_fee (ls ++ [l]) in
  (net - n) * 10 ^ 48 <= (sum_of lg_out (ls ++ [l]) + n) * (Q * Q + 10 ^ 24) /\
  fee * 10 ^ 42 <= ((net + fee) * f + n * 10 ^ 12) * 10 ^ 30 + 10 ^ 12 * L.
Proof.
  intros F P0 C J S E L0 n net fee. destruct (chain_prices _ _ _ _ _ C J) as [CP _]. split.
  - set (K := Q * Q + 10 ^ 24).
    assert (X : sum_of (fun l => (lg_in l - 1) * 10 ^ 48) (ls ++ [l]) <= sum_of (fun l => (lg_out l + 1) * K) (ls ++ [l])).
    { apply sum_le. rewrite Forall_forall in *. intros x Hx. specialize (CP x Hx). cbn in CP. eapply up_rate; [by apply J|lia|lia]. }
    rewrite !sum_scale, sum_minus in X. rewrite (sum_plus lg_out (fun _ => 1)), sum_const in X. fold net n in X. rewrite !Z.mul_1_r in X. exact X.
  - apply Forall_app in J. destruct J as [J1 J2]. inversion J2 as [|? ? J3 _]; subst. pose proof (just_in0 _ _ _ (proj1 F) J3) as [JI JF].
    destruct (sum_in0 _ _ _ (proj1 F) J1) as [K1 K2]. pose proof (fee_sum _ _ S) as FS.
    unfold net, fee, n. rewrite !sum_app, app_length, Nat2Z.inj_add. cbn [sum_of foldr Datatypes.length]. rewrite !Z.add_0_r. change (Z.of_nat 1) with 1.
    set (F1 := sum_of lg_fee ls) in *. set (I1 := sum_of lg_in ls) in *. set (m := Z.of_nat (Datatypes.length ls)) in *. clearbody F1 I1 m.
    assert (0 <= F1 * f) by (apply Z.mul_nonneg_nonneg; lia). assert (0 <= lg_fee l * f) by (apply Z.mul_nonneg_nonneg; lia).
    destruct E as [E|E].
    + unfold share_only in E. lia.
    + destruct J3 as (_ & Q1 & OC & FD). pose proof (C93_fee_y_partial _ _ _ F (proj1 Q1) OC FD) as X. rewrite E in X. lia.
Qed.

(** * A falling price: token x for token y *)
Lemma last_fee_x f l Q : 0 <= f <= 10 ^ 12 -> just f true l -> 15258932000000000000 <= Q <= lg_to l -> lg_to l <= lg_from l ->
  (lg_fee l * 10 ^ 12 - (lg_in l + lg_fee l) * f - 10 ^ 12) * (Q * (Q - 1)) <= 10 ^ 12 * (lg_liq l * 10 ^ 18 + lg_in l * Q + 2 * 10 ^ 24).
Proof.
  intros F J QR DN. pose proof (just_in0 _ _ _ (proj1 F) J) as [JI JF]. destruct J as (B & Lq & OC & FD).
  pose proof (C93_fee_x_partial _ _ _ F (proj1 Lq) B OC FD) as X. cbv zeta in X.
  destruct l as [c a b L i o fe]. cbn [lg_in lg_out lg_from lg_to lg_liq lg_fee] in *. clear OC FD.
  set (z := fe * 10 ^ 12 - (i + fe) * f - 10 ^ 12). set (M := L * 10 ^ 18 + 2 * 10 ^ 24). set (st := a * (b - 1)) in *. set (T := Q * (Q - 1)).
  assert (X' : z * st < 10 ^ 12 * (M + i * a)) by (unfold z, M; lia).
  assert (S0 : 0 < st) by (apply Z.mul_pos_pos; lia). assert (T0 : 0 < T) by (apply Z.mul_pos_pos; lia).
  assert (TS : T <= st) by (apply Z.mul_le_mono_nonneg; lia).
  assert (M0 : 0 <= M) by (unfold M; lia).
  assert (Y1 : M * T <= M * st) by (apply Z.mul_le_mono_nonneg_l; lia).
  assert (Y2 : i * a * T <= i * Q * st).
  { unfold T, st. replace (i * a * (Q * (Q - 1))) with ((i * (a * Q)) * (Q - 1)) by lia. replace (i * Q * (a * (b - 1))) with ((i * (a * Q)) * (b - 1)) by lia.
    apply Z.mul_le_mono_nonneg_l; [|lia]. apply Z.mul_nonneg_nonneg; [lia|]. apply Z.mul_nonneg_nonneg; lia. }
  assert (X2 : (z * T) * st <= (10 ^ 12 * (M + i * Q)) * st).
  { assert (z * st * T <= 10 ^ 12 * (M + i * a) * T) by (apply Z.mul_le_mono_nonneg_r; lia). lia. }
  apply Z.mul_le_mono_pos_r in X2; [|lia]. unfold M in X2. lia.
Qed.
Lemma down_total f ls l P Q L : 0 <= f <= 10 ^ 12 -> 15258932000000000000 <= Q -> chained P (ls ++ [l]) Q -> Forall (just f true) (ls ++ [l]) -> Forall (share_only f) ls ->
  share_only f l \/ lg_liq l = L -> 0 <= L ->
  let n := Z.of_nat (Datatypes.length (ls ++ [l])) in let net := sum_of lg_in (ls ++ [l]) in let fee := sum_of lg_fee (ls ++ [l]) in
  (net - n) * (Q * Q - 10 ^ 24) <= (sum_of lg_out (ls ++ [l]) + n) * 10 ^ 48 /\
  (fee * 10 ^ 12 - (net + fee) * f - n * 10 ^ 12) * (Q * (Q - 1)) <= 10 ^ 12 * (L * 10 ^ 18 + net * Q + 2 * 10 ^ 24).
Proof.
  intros F P0 C J S E L0 n net fee. destruct (chain_prices _ _ _ _ _ C J) as [CP _]. split.
  - set (K := Q * Q - 10 ^ 24).
    assert (X : sum_of (fun l => (lg_in l - 1) * K) (ls ++ [l]) <= sum_of (fun l => (lg_out l + 1) * 10 ^ 48) (ls ++ [l])).
    { apply sum_le. rewrite Forall_forall in *. intros x Hx. specialize (CP x Hx). cbn in CP. eapply down_rate; [by apply J|lia|lia]. }
    rewrite !sum_scale, sum_minus in X. rewrite (sum_plus lg_out (fun _ => 1)), sum_const in X. fold net n in X. rewrite !Z.mul_1_r in X. exact X.
  - apply Forall_app in J. destruct J as [J1 J2]. inversion J2 as [|? ? J3 _]; subst. pose proof (just_in0 _ _ _ (proj1 F) J3) as [JI JF].
    destruct (sum_in0 _ _ _ (proj1 F) J1) as [K1 K2]. pose proof (fee_sum _ _ S) as FS.
    apply Forall_app in CP. destruct CP as [_ CP]. inversion CP as [|? ? CL _]; subst. clear CP. cbn in CL.
    unfold net, fee, n. rewrite !sum_app, app_length, Nat2Z.inj_add. cbn [sum_of foldr Datatypes.length]. rewrite !Z.add_0_r. change (Z.of_nat 1) with 1.
    set (F1 := sum_of lg_fee ls) in *. set (I1 := sum_of lg_in ls) in *. set (m := Z.of_nat (Datatypes.length ls)) in *. clearbody F1 I1 m.
    assert (0 <= F1 * f) by (apply Z.mul_nonneg_nonneg; lia). assert (0 <= lg_fee l * f) by (apply Z.mul_nonneg_nonneg; lia).
    assert (T0 : 0 < Q * (Q - 1)) by (apply Z.mul_pos_pos; lia).
    assert (0 <= I1 * Q) by (apply Z.mul_nonneg_nonneg; lia). assert (0 <= lg_in l * Q) by (apply Z.mul_nonneg_nonneg; lia).
    assert (R0 : 0 <= 10 ^ 12 * (L * 10 ^ 18 + (I1 + lg_in l) * Q + 2 * 10 ^ 24)) by lia.
    set (z := lg_fee l * 10 ^ 12 - (lg_in l + lg_fee l) * f - 10 ^ 12).
    assert (ZZ : (F1 + lg_fee l) * 10 ^ 12 - (I1 + lg_in l + (F1 + lg_fee l)) * f - (m + 1) * 10 ^ 12 <= z) by (unfold z; lia).
    apply Z.le_trans with (z * (Q * (Q - 1))); [apply Z.mul_le_mono_nonneg_r; lia|].
    destruct E as [E|E].
    + unfold share_only in E. assert (z <= 0) by (unfold z; lia). assert (z * (Q * (Q - 1)) <= 0) by (apply Z.mul_nonpos_nonneg; lia). lia.
    + assert (QL : 15258932000000000000 <= Q <= lg_to l) by lia. pose proof (last_fee_x _ _ _ F J3 QL (proj2 CL)) as X. fold z in X. rewrite E in X. lia.
Qed.

(** * Swaps *)
Lemma swap_just e i s k (d : bool) a lim s' ms at' :
  reachable s -> execute e i s (Swap k d a true lim) = Ok (s', ms, at') ->
  exists p p' ls l, st_pools s !! k = Some p /\ st_pools s' !! k = Some p' /\ 0 <= p_liq p' /\ 0 <= ft_fee (pk_tier k) <= 10 ^ 12 /\
    15258932000000000000 <= p_price p /\ 15258932000000000000 <= p_price p' /\
    at' = [("amount_in"%string, a); ("amount_out"%string, sum_of lg_out (ls ++ [l]))] /\ a = sum_of lg_in (ls ++ [l]) + sum_of lg_fee (ls ++ [l]) /\
    chained (p_price p) (ls ++ [l]) (p_price p') /\ Forall (just (ft_fee (pk_tier k)) d) (ls ++ [l]) /\ Forall (share_only (ft_fee (pk_tier k))) ls /\
    (share_only (ft_fee (pk_tier k)) l \/ lg_liq l = p_liq p') /\
    spacing k * (Z.of_nat (Datatypes.length (ls ++ [l])) - 3) <= (if d then p_tick p - p_tick p' else p_tick p' - p_tick p) /\
    (if d then (10 ^ 24 <= lim -> lim <= p_price p') /\ (lim - p_price p') * p_price p' < 10 ^ 24 else p_price p' <= lim).
Proof.
  intros R H. destruct (C19_exact_input_partial _ _ _ _ _ _ _ _ _ _ R H) as (p1 & p1' & out & Ep1 & Ep1' & AT & _ & _ & _ & _ & LM).
  destruct (execute_swap_inv _ _ _ _ _ _ _ _ _ _ _ R H) as (r & p & C & AR & Ep & Ep' & Ha & Hl & P).
  rewrite Ep in Ep1. injection Ep1 as <-. rewrite Ep' in Ep1'. injection Ep1' as <-.
  apply reachable_ereach in R. pose proof (ereach_store_geo _ _ _ R Ep) as G. pose proof (ereach_geo _ R _ _ Ep) as PG.
  apply calculate_swap_run in C. destruct C as (p0 & w & E0 & NA & D & RN & O & ->). rewrite Ep in E0. injection E0 as <-.
  pose proof (loop_start k d lim p a PG Ha D) as I.
  destruct (run_just _ _ _ _ _ G _ _ RN I NA) as (ls & l & (C1 & X1 & Y1) & F & SO & LL & NL).
  destruct (run_geo _ _ _ _ _ _ _ _ G I RN) as (I2 & _ & _).
  cbn [cr_in cr_out cr_fee cr_pool cr_ticks sw_in sw_out sw_fee sw_pool sw_ticks] in *.
  pose proof (sg_fee _ _ G) as FE.
  assert (FR : 0 <= ft_fee (pk_tier k) <= 10 ^ 12) by (unfold PCT_ONE in *; lia).
  pose proof (lv_weak _ _ _ _ I) as (W1 & W2 & _). pose proof (legal_price_range _ _ W1) as [WM _]. cbn in W1, W2, WM.
  pose proof (lv_weak _ _ _ _ I2) as (V1 & V2 & _). pose proof (legal_price_range _ _ V1) as [VM _]. unfold MIN_SQRT_PRICE in *.
  rewrite AR in AT. injection AT as A1 A2. rewrite (sum_plus lg_in lg_fee) in X1.
  exists p, (sw_pool w), ls, l. split; [done|]. split; [done|]. split; [apply I2|]. split; [done|]. split; [lia|]. split; [lia|].
  split; [rewrite AR, A1; repeat f_equal; lia|]. split; [lia|]. repeat (split; [done|]). destruct d; tauto.
Qed.

(** An offer [a] of token y is a fee and a rest; of the fee, all but the tier's share of the offer is at most a token for each of [n] legs and the worth of one
    step of the price in the last one; and the rest is exchanged at the square of the last price, and so of the limit, or better,
    to within a token on both sides for each leg. A swap has three legs at most and one for every tick spacing it moves by. *)
Theorem C100_rising_partial e i s k a lim s' ms at' :
  reachable s -> execute e i s (Swap k false a true lim) = Ok (s', ms, at') ->
  exists p p' out fee n, st_pools s !! k = Some p /\ st_pools s' !! k = Some p' /\
    at' = [("amount_in"%string, a); ("amount_out"%string, out)] /\
    0 <= fee <= a /\ fee * 10 ^ 42 <= (a * ft_fee (pk_tier k) + n * 10 ^ 12) * 10 ^ 30 + 10 ^ 12 * p_liq p' /\
    (a - fee - n) * 10 ^ 48 <= (out + n) * (p_price p' ^ 2 + 10 ^ 24) /\
    (a - fee - n) * 10 ^ 48 <= (out + n) * (lim ^ 2 + 10 ^ 24) /\
    1 <= n /\ ft_spacing (pk_tier k) * (n - 3) <= p_tick p' - p_tick p.
Proof.
  intros R H. destruct (swap_just _ _ _ _ _ _ _ _ _ _ R H) as (p & p' & ls & l & Ep & Ep' & L0 & F & M & M' & AT & AS & C & J & SO & LL & NL & LM).
  pose proof (up_total _ ls l (p_price p) (p_price p') (p_liq p') F ltac:(lia) C J SO LL L0) as [T1 T2]. cbv zeta in T1, T2.
  destruct (sum_in0 _ _ _ (proj1 F) J) as [I0 F0].
  assert (O0 : 0 <= sum_of lg_out (ls ++ [l])).
  { destruct (C19_exact_input_partial _ _ _ _ _ _ _ _ _ _ R H) as (? & ? & out & _ & _ & AT2 & OP & _). rewrite AT in AT2. injection AT2 as ->. lia. }
  rewrite app_length, Nat2Z.inj_add in *. change (Z.of_nat (Datatypes.length [l])) with 1 in *.
  set (n := Z.of_nat (Datatypes.length ls) + 1) in *. assert (1 <= n) by (unfold n; lia). clearbody n.
  exists p, p', (sum_of lg_out (ls ++ [l])), (sum_of lg_fee (ls ++ [l])), n.
  set (O := sum_of lg_out (ls ++ [l])) in *. set (I := sum_of lg_in (ls ++ [l])) in *. set (Fe := sum_of lg_fee (ls ++ [l])) in *. clearbody O I Fe.
  rewrite !Z.pow_2_r. replace (a - Fe - n) with (I - n) by lia.
  assert (p_price p' * p_price p' <= lim * lim) by (apply Z.mul_le_mono_nonneg; lia).
  assert ((O + n) * (p_price p' * p_price p' + 10 ^ 24) <= (O + n) * (lim * lim + 10 ^ 24)) by (apply Z.mul_le_mono_nonneg_l; lia).
  split; [done|]. split; [done|]. split; [done|]. split; [lia|]. split; [subst a; exact T2|]. split; [done|]. split; [lia|]. split; [done|]. exact NL.
Qed.

(** The same for an offer of token x. The limit is kept to within rounding only ([C19_limit_refuted]), but kept if it is at least one. *)
Theorem C100_falling_partial e i s k a lim s' ms at' :
  reachable s -> execute e i s (Swap k true a true lim) = Ok (s', ms, at') ->
  exists p p' out fee n, st_pools s !! k = Some p /\ st_pools s' !! k = Some p' /\
    at' = [("amount_in"%string, a); ("amount_out"%string, out)] /\
    0 <= fee <= a /\
    (fee * 10 ^ 12 - a * ft_fee (pk_tier k) - n * 10 ^ 12) * (p_price p' * (p_price p' - 1)) <= 10 ^ 12 * (p_liq p' * 10 ^ 18 + a * p_price p' + 2 * 10 ^ 24) /\
    (a - fee - n) * (p_price p' ^ 2 - 10 ^ 24) <= (out + n) * 10 ^ 48 /\
    (10 ^ 24 <= lim -> (a - fee - n) * (lim ^ 2 - 10 ^ 24) <= (out + n) * 10 ^ 48) /\
    1 <= n /\ ft_spacing (pk_tier k) * (n - 3) <= p_tick p - p_tick p'.
Proof.
  intros R H. destruct (swap_just _ _ _ _ _ _ _ _ _ _ R H) as (p & p' & ls & l & Ep & Ep' & L0 & F & M & M' & AT & AS & C & J & SO & LL & NL & LM).
  pose proof (down_total _ ls l (p_price p) (p_price p') (p_liq p') F M' C J SO LL L0) as [T1 T2]. cbv zeta in T1, T2.
  destruct (sum_in0 _ _ _ (proj1 F) J) as [I0 F0].
  assert (O0 : 0 <= sum_of lg_out (ls ++ [l])).
  { destruct (C19_exact_input_partial _ _ _ _ _ _ _ _ _ _ R H) as (? & ? & out & _ & _ & AT2 & OP & _). rewrite AT in AT2. injection AT2 as ->. lia. }
  rewrite app_length, Nat2Z.inj_add in *. change (Z.of_nat (Datatypes.length [l])) with 1 in *.
  set (n := Z.of_nat (Datatypes.length ls) + 1) in *. assert (1 <= n) by (unfold n; lia). clearbody n.
  exists p, p', (sum_of lg_out (ls ++ [l])), (sum_of lg_fee (ls ++ [l])), n.
  set (O := sum_of lg_out (ls ++ [l])) in *. set (I := sum_of lg_in (ls ++ [l])) in *. set (Fe := sum_of lg_fee (ls ++ [l])) in *. clearbody O I Fe.
  rewrite !Z.pow_2_r. replace (a - Fe - n) with (I - n) by lia.
  split; [done|]. split; [done|]. split; [done|]. split; [lia|]. split.
  { rewrite <- AS in T2. assert (I * p_price p' <= a * p_price p') by (apply Z.mul_le_mono_nonneg_r; lia). lia. }
  split; [done|]. split; [|done]. intros LB. destruct LM as [LM _]. specialize (LM LB).
  destruct (Z.le_gt_cases n I).
  - assert (lim * lim <= p_price p' * p_price p') by (apply Z.mul_le_mono_nonneg; lia).
    assert ((I - n) * (lim * lim - 10 ^ 24) <= (I - n) * (p_price p' * p_price p' - 10 ^ 24)) by (apply Z.mul_le_mono_nonneg_l; lia). lia.
  - assert (10 ^ 24 * 10 ^ 24 <= lim * lim) by (apply Z.mul_le_mono_nonneg; lia).
    assert ((I - n) * (lim * lim - 10 ^ 24) <= 0) by (apply Z.mul_nonpos_nonneg; lia). lia.
Qed.

(** * Amounts to pay out *)
Definition just_out (f : Z) (d : bool) (l : leg) : Prop :=
  15258932000000000000 <= lg_to l /\ 0 <= lg_liq l < 2 ^ 128 /\ 0 <= lg_out l /\ 0 <= lg_in l /\ on_curve d false l /\ share_only f l.

(** The liquidity the pool has on record at the end, or what it had just before, if the swap rose to an initialized tick and stopped there. *)
Definition beside (s : store) (k : pool_key) (d : bool) (p' : pool) (L : Z) : Prop :=
  L = p_liq p' \/ d = false /\ exists t, st_ticks s !! (k, p_tick p') = Some t /\ p_price p' = tprice (p_tick p') /\
    p_liq p' = L + (if t_sign t then t_change t else - t_change t).

Lemma iter_just_out s now k d lim w w1 : store_geo s k -> loop_inv k d lim w -> sw_remaining w <> 0 ->
  swap_iter s now k d false lim (end_tick d k) w = Ok w1 -> loop_inv k d lim w1 ->
  exists l, legs_of w w1 [l] /\ just_out (ft_fee (pk_tier k)) d l /\ (on_curve d true l \/ sw_remaining w1 = 0 /\ beside s k d (sw_pool w1) (lg_liq l)).
Proof.
  intros G I N H I1. pose proof (loop_pre s k d lim w G I N) as PRE. destruct (sg_sp _ _ G) as [S1 _].
  pose proof H as H0. apply iter_cases in H0; [|done].
  destruct H0 as (t & init & sl & r & p0 & rm0 & TG & SL & SA & ST & SIDE & E0 & R0 & AF & NL & IC & _ & _ & _ & DU).
  assert (P1 : p_price (sw_pool w1) = sr_next r).
  { destruct IC as [tk t' p1 _ _ _ _ TC _ ->|en _ _ _ _ ->|tk p2 _ _ _ _ _ D ->|c' _ _ ->]; cbn; try done.
    - apply tick_cross_inv in TC. destruct TC as (_ & _ & _ & _ & l & -> & _). done.
    - destruct D as [[_ ->]|(_ & _ & D)]; [done|]. apply add_fee_keeps in D. destruct D as (_ & _ & -> & _). done. }
  assert (OUT : sw_out w1 = sw_out w + sr_out r).
  { destruct IC as [tk t' p1 _ _ _ _ TC _ ->|en _ _ _ _ ->|tk p2 _ _ _ _ _ D ->|c' _ _ ->]; cbn; lia. }
  destruct DU as [DU|(_ & ? & _)]; [|done].
  pose proof (lv_weak _ _ _ _ I1) as (W1 & W2 & W3). pose proof (legal_price_range _ _ W1) as [WM _].
  assert (NR : MIN_SQRT_PRICE <= sr_next r) by (rewrite <- P1; lia).
  assert (DIR : if d then sr_next r <= p_price (sw_pool w) else p_price (sw_pool w) <= sr_next r).
  { pose proof (loop_step _ _ _ _ _ _ _ _ G I N H) as [IP _]. destruct IP. rewrite <- P1. destruct d; lia. }
  pose proof (lv_rem _ _ _ _ I) as [R1 _]. pose proof (lv_liq _ _ _ _ I) as [Q1 Q2]. assert (QL : 0 <= p_liq (sw_pool w) < 2 ^ 128) by (change (2 ^ 128) with (U128MAX + 1); lia).
  destruct (step_fair (p_tick (sw_pool w)) d _ _ _ _ _ _ _ SA ltac:(lia) ST SIDE NR DIR) as [OC FD].
  set (l := mkLeg _ _ _ _ _ _ _) in OC, FD.
  assert (SO : share_only (ft_fee (pk_tier k)) l) by (destruct FD as [FD|[? _]]; done).
  assert (LP : p_liq p0 = p_liq (sw_pool w)) by (apply add_fee_keeps in AF; tauto).
  exists l. split; [unfold legs_of; cbn; lia|].
  assert (CM : MIN_SQRT_PRICE <= p_price (sw_pool w)). { destruct SA as (C1 & _). unfold MIN_SQRT_PRICE. lia. }
  destruct (Z.eq_dec (p_liq (sw_pool w)) 0) as [LZ|LZ].
  { assert (ST2 : compute_swap_step (p_price (sw_pool w)) sl (p_liq (sw_pool w)) (sw_remaining w) true (ft_fee (pk_tier k)) = Ok r).
    { revert ST. unfold compute_swap_step. rewrite LZ. cbn. done. }
    destruct (step_fair (p_tick (sw_pool w)) d _ _ _ _ _ _ _ SA ltac:(lia) ST2 SIDE NR DIR) as [OC2 _].
    split; [|left; exact OC2]. unfold compute_swap_step in ST. rewrite LZ in ST. cbn in ST. apply Ok_inj in ST. unfold just_out.
    split; [exact NR|]. split; [exact QL|]. split; [subst r; cbn; lia|]. split; [subst r; cbn; lia|]. done. }
  apply step_inv in ST; [|done]. destruct ST.
  assert (DN : (sl <=? p_price (sw_pool w)) = d) by (destruct d; [apply Z.leb_le|apply Z.leb_gt]; lia). rewrite DN in *. clear DN.
  destruct sf_out as (o & O1 & O2). cbn iota in O2.
  assert (I0 : 0 <= sr_in r).
  { unfold delta_in in sf_in. destruct d; [apply delta_x_up in sf_in; [|unfold MIN_SQRT_PRICE in *; lia..]; apply sf_in|].
    apply delta_y_up in sf_in. apply sf_in. }
  assert (Oo : 0 <= o).
  { unfold delta_out in O1. destruct d; [apply delta_y_down in O1; apply O1|]. apply delta_x_down in O1; [apply O1|unfold MIN_SQRT_PRICE in *; lia..]. }
  split. { unfold just_out. split; [exact NR|]. split; [exact QL|]. split; [cbn; lia|]. split; [exact I0|]. done. }
  destruct (Z.le_gt_cases o (sw_remaining w)) as [LE|GT].
  - left. replace (Z.min o (sw_remaining w)) with o in O2 by lia. unfold l in *. revert OC. unfold on_curve, delta_out in *.
    change (10 ^ 18) with E18. change (10 ^ 24) with E24. change (10 ^ 30) with E30. destruct d.
    + intros (A1 & A2 & A3 & A4 & _). repeat (split; [done|]). left.
      pose proof (delta_y_down _ _ _ _ O1) as [_ O3]. rewrite Z.abs_neq in O3 by lia. rewrite O2. unfold E30 in *. lia.
    + intros (A1 & A2 & A3 & _). repeat (split; [done|]). left.
      apply x_out_fair in O1 as OF; [|unfold MIN_SQRT_PRICE in *; lia|done|lia]. rewrite O2. lia.
  - right. replace (Z.min o (sw_remaining w)) with (sw_remaining w) in O2 by lia. assert (rm0 = 0) by lia.
    destruct IC as [tk t' p1 IN SN SE TK TC RP ->|en _ SN SE _ ->|tk p2 _ _ SN SE _ D ->|c' _ _ ->]; cbn [sw_remaining sw_pool].
    + split; [done|]. destruct d; [specialize (RP eq_refl); lia|]. right. split; [done|]. pose proof (sg_index _ _ G _ _ _ TK) as IT. cbn [p_tick p_price p_liq p_set_tick].
      exists tk. rewrite IT. split; [exact TK|].
      apply tick_cross_inv in TC. destruct TC as (_ & _ & _ & _ & l' & -> & _ & EL). split; [exact SN|]. cbn.
      destruct TG as (_ & _ & TG). assert (PT : p_tick (p_set_price p0 (sr_next r)) = p_tick (sw_pool w)) by (apply add_fee_keeps in AF; cbn; tauto).
      rewrite PT in EL. rewrite (proj2 (Z.leb_gt (t_index tk) (p_tick (sw_pool w)))) in EL by lia. rewrite EL. cbn. unfold net. rewrite LP. destruct (t_sign tk); lia.
    + split; [done|]. left. symmetry. exact LP.
    + split; [done|]. left. destruct D as [[_ ->]|(? & _)]; [|done]. symmetry. exact LP.
    + split; [done|]. left. symmetry. exact LP.
Qed.

Lemma loop_just_out s now k d lim : store_geo s k -> forall n w w', swap_loop n s now k d false lim (end_tick d k) w = Ok w' -> loop_inv k d lim w -> sw_remaining w <> 0 ->
  exists ls l, legs_of w w' (ls ++ [l]) /\ Forall (just_out (ft_fee (pk_tier k)) d) (ls ++ [l]) /\ Forall (on_curve d true) ls /\
    (on_curve d true l \/ beside s k d (sw_pool w') (lg_liq l)) /\ (Datatypes.length (ls ++ [l]) <= n)%nat.
Proof.
  intros G. induction n as [|n IH]; intros w w' H I NZ. { cbn in H. rewrite (proj2 (Z.eqb_neq _ _) NZ) in H. done. }
  cbn in H. rewrite (proj2 (Z.eqb_neq _ _) NZ) in H. inv_bind H as w1 E.
  pose proof (loop_step _ _ _ _ _ _ _ _ G I NZ E) as [_ I1].
  destruct (iter_just_out _ _ _ _ _ _ _ G I NZ E I1) as (a & (C1 & X1 & Y1) & J & T).
  destruct (Z.eq_dec (sw_remaining w1) 0) as [RZ|RZ].
  - rewrite loop_done in H by done. apply Ok_inj in H. subst w'. exists [], a. cbn [app]. split; [done|]. split; [by constructor|]. split; [constructor|].
    split; [tauto|cbn; lia].
  - destruct (IH _ _ H I1 RZ) as (l2 & a2 & (C2 & X2 & Y2) & F2 & E2 & Z2 & N2). exists (a :: l2), a2. cbn [app].
    split. { unfold legs_of. change (a :: l2 ++ [a2]) with ([a] ++ (l2 ++ [a2])). rewrite (sum_app _ [a]), (sum_app lg_out [a]). split; [by eapply chained_app|lia]. }
    split; [by constructor|]. split; [constructor; [destruct T as [|[? _]]; done|done]|]. split; [done|cbn in *; lia].
Qed.

(** ** Sums *)
Lemma up_tight l Q : on_curve false true l -> 0 <= lg_liq l -> 0 < lg_from l -> lg_to l <= Q -> (lg_in l - 1) * 10 ^ 48 <= (lg_out l + 1) * (Q * Q + 10 ^ 24).
Proof.
  destruct l as [c a b L i o fe]. unfold on_curve. cbn [lg_in lg_out lg_from lg_to lg_liq]. intros (O & I1 & I2 & I3) Lq A0 BQ.
  destruct I3 as [I3|[? _]]; [|done].
  assert (0 <= L * (b - a)) by (apply Z.mul_nonneg_nonneg; lia). assert (0 < a * b) by (apply Z.mul_pos_pos; lia).
  assert (0 <= o). { destruct (Z.le_gt_cases 0 o); [done|]. exfalso. assert ((o + 1) * (a * b + 10 ^ 24) <= 0) by (apply Z.mul_nonpos_nonneg; lia). lia. }
  assert (a * b <= Q * Q) by (apply Z.mul_le_mono_nonneg; lia).
  assert ((o + 1) * (a * b + 10 ^ 24) <= (o + 1) * (Q * Q + 10 ^ 24)) by (apply Z.mul_le_mono_nonneg_l; lia). lia.
Qed.
Lemma up_loose l Q : on_curve false false l -> 0 <= lg_liq l -> 0 <= lg_out l -> 0 < lg_from l -> lg_to l <= Q ->
  (lg_in l - 1) * 10 ^ 48 <= (lg_out l + 1) * (Q * Q + 10 ^ 24) + lg_liq l * 10 ^ 18.
Proof.
  destruct l as [c a b L i o fe]. unfold on_curve. cbn [lg_in lg_out lg_from lg_to lg_liq]. intros (O & I1 & I2 & I3) Lq O0 A0 BQ.
  assert (0 <= L * (b - a)) by (apply Z.mul_nonneg_nonneg; lia). assert (0 < a * b) by (apply Z.mul_pos_pos; lia).
  assert (a * b <= Q * Q) by (apply Z.mul_le_mono_nonneg; lia). destruct I3 as [I3|[_ I3]].
  - assert ((o + 1) * (a * b + 10 ^ 24) <= (o + 1) * (Q * Q + 10 ^ 24)) by (apply Z.mul_le_mono_nonneg_l; lia). lia.
  - assert (o * (a * (b - 1)) <= o * (Q * Q)) by (apply Z.mul_le_mono_nonneg_l; lia). lia.
Qed.
Lemma down_tight l Q : on_curve true true l -> 0 <= lg_liq l -> 15258932000000000000 <= Q -> Q <= lg_to l -> (lg_in l - 1) * (Q * Q - 10 ^ 24) <= (lg_out l + 1) * 10 ^ 48.
Proof.
  destruct l as [c a b L i o fe]. unfold on_curve. cbn [lg_in lg_out lg_from lg_to lg_liq]. intros (O & I1 & I2 & I3 & I4) Lq A0 BQ.
  destruct I4 as [I4|[? _]]; [|done].
  assert (0 <= L * (a - b)) by (apply Z.mul_nonneg_nonneg; lia).
  assert (QQ : 15258932000000000000 * 15258932000000000000 <= Q * Q) by (apply Z.mul_le_mono_nonneg; lia).
  assert (AB : Q * Q <= a * b) by (apply Z.mul_le_mono_nonneg; lia).
  destruct (Z.le_gt_cases 1 i).
  - assert ((i - 1) * (Q * Q - 10 ^ 24) <= (i - 1) * (a * b - 10 ^ 24)) by (apply Z.mul_le_mono_nonneg_l; lia). lia.
  - assert ((i - 1) * (Q * Q - 10 ^ 24) <= 0) by (apply Z.mul_nonpos_nonneg; lia). lia.
Qed.
Lemma down_loose l Q : on_curve true false l -> 0 <= lg_liq l -> 0 <= lg_out l -> 15258932000000000000 <= Q -> Q <= lg_to l ->
  (lg_in l - 1) * (Q * Q - 10 ^ 24) <= (lg_out l + 1) * 10 ^ 48 + lg_liq l * 10 ^ 18.
Proof.
  destruct l as [c a b L i o fe]. unfold on_curve. cbn [lg_in lg_out lg_from lg_to lg_liq]. intros (O & I1 & I2 & I3 & I4) Lq O0 A0 BQ.
  assert (0 <= L * (a - b)) by (apply Z.mul_nonneg_nonneg; lia).
  assert (QQ : 15258932000000000000 * 15258932000000000000 <= Q * Q) by (apply Z.mul_le_mono_nonneg; lia).
  assert (AB : Q * Q <= a * b) by (apply Z.mul_le_mono_nonneg; lia).
  assert (L * (a - b) * 10 ^ 18 <= (o + 1) * 10 ^ 48 + L * 10 ^ 18) by (destruct I4 as [I4|[_ I4]]; lia).
  destruct (Z.le_gt_cases 1 i).
  - assert ((i - 1) * (Q * Q - 10 ^ 24) <= (i - 1) * (a * b - 10 ^ 24)) by (apply Z.mul_le_mono_nonneg_l; lia). lia.
  - assert ((i - 1) * (Q * Q - 10 ^ 24) <= 0) by (apply Z.mul_nonpos_nonneg; lia). lia.
Qed.
Lemma chain_prices_out f (d : bool) ls a Q : chained a ls Q -> Forall (just_out f d) ls ->
  Forall (fun l => if d then Q <= lg_to l else lg_to l <= Q /\ a <= lg_from l) ls /\ (if d then Q <= a else a <= Q).
Proof.
  revert a. induction ls as [|l ls IH]; intros a C F; cbn in C.
  - subst. split; [constructor|destruct d; lia].
  - destruct C as [C1 C2]. inversion F as [|? ? F1 F2]; subst.
    destruct (IH _ C2 F2) as [J1 J2]. destruct F1 as (_ & _ & _ & _ & OC & _). destruct l as [c fr to L i o fe]. cbn in *. destruct d.
    + destruct OC as [O _]. split; [|lia]. constructor; cbn; [lia|]. exact J1.
    + destruct OC as [O _]. split; [|lia]. constructor; cbn; [lia|]. eapply Forall_impl; [exact J1|]. cbn. intros. lia.
Qed.

Lemma out_total f (d : bool) ls l P Q : 15258932000000000000 <= P -> 15258932000000000000 <= Q -> chained P (ls ++ [l]) Q -> Forall (just_out f d) (ls ++ [l]) -> Forall (on_curve d true) ls ->
  let n := Z.of_nat (Datatypes.length (ls ++ [l])) in let net := sum_of lg_in (ls ++ [l]) in let out := sum_of lg_out (ls ++ [l]) in
  forall T, (on_curve d true l -> 0 <= T) -> (on_curve d true l \/ lg_liq l <= T) ->
  (if d then (net - n) * (Q * Q - 10 ^ 24) <= (out + n) * 10 ^ 48 + T * 10 ^ 18 else (net - n) * 10 ^ 48 <= (out + n) * (Q * Q + 10 ^ 24) + T * 10 ^ 18) /\
  sum_of lg_fee (ls ++ [l]) * 10 ^ 12 <= net * f + n * 10 ^ 12.
Proof.
  intros P0 Q0 C J TI n net out T T0 TL. split.
  2: { apply fee_sum. eapply Forall_impl; [exact J|]. intros x Hx. apply Hx. }
  destruct (chain_prices_out _ _ _ _ _ C J) as [CP _].
  apply Forall_app in J. destruct J as [J1 J2]. inversion J2 as [|? ? (B3 & L3 & O3 & I3 & OC3 & _) _]; subst.
  apply Forall_app in CP. destruct CP as [CP1 CP2]. inversion CP2 as [|? ? CL _]; subst. clear CP2 J2.
  unfold net, out, n. rewrite !sum_app, app_length, Nat2Z.inj_add. cbn [sum_of foldr Datatypes.length]. rewrite !Z.add_0_r. change (Z.of_nat 1) with 1.
  destruct d.
  - set (K := Q * Q - 10 ^ 24).
    assert (X : sum_of (fun l => (lg_in l - 1) * K) ls <= sum_of (fun l => (lg_out l + 1) * 10 ^ 48) ls).
    { apply sum_le. rewrite Forall_forall in *. intros x Hx. apply down_tight; [by apply TI|apply (J1 x Hx)|done|by apply CP1]. }
    rewrite !sum_scale, sum_minus in X. rewrite (sum_plus lg_out (fun _ => 1)), sum_const in X. rewrite !Z.mul_1_r in X.
    assert (Y : (lg_in l - 1) * K <= (lg_out l + 1) * 10 ^ 48 + T * 10 ^ 18).
    { destruct TL as [TL|TL]; [pose proof (down_tight l Q TL ltac:(lia) Q0 CL); specialize (T0 TL); fold K in H; lia|].
      pose proof (down_loose l Q OC3 ltac:(lia) O3 Q0 CL) as Y. fold K in Y. lia. }
    fold (sum_of lg_in ls) in *. fold (sum_of lg_out ls) in *. set (I1 := sum_of lg_in ls) in *. set (O1 := sum_of lg_out ls) in *. set (m := Z.of_nat (Datatypes.length ls)) in *.
    clearbody I1 O1 m K. lia.
  - set (K := Q * Q + 10 ^ 24).
    assert (X : sum_of (fun l => (lg_in l - 1) * 10 ^ 48) ls <= sum_of (fun l => (lg_out l + 1) * K) ls).
    { apply sum_le. rewrite Forall_forall in *. intros x Hx. specialize (CP1 x Hx). cbn in CP1. apply up_tight; [by apply TI|apply (J1 x Hx)|lia|lia]. }
    rewrite !sum_scale, sum_minus in X. rewrite (sum_plus lg_out (fun _ => 1)), sum_const in X. rewrite !Z.mul_1_r in X.
    cbn in CL. assert (Y : (lg_in l - 1) * 10 ^ 48 <= (lg_out l + 1) * K + T * 10 ^ 18).
    { destruct TL as [TL|TL]; [pose proof (up_tight l Q TL ltac:(lia) ltac:(lia) ltac:(lia)); specialize (T0 TL); fold K in H; lia|].
      pose proof (up_loose l Q OC3 ltac:(lia) O3 ltac:(lia) ltac:(lia)) as Y. fold K in Y. lia. }
    fold (sum_of lg_in ls) in *. fold (sum_of lg_out ls) in *. set (I1 := sum_of lg_in ls) in *. set (O1 := sum_of lg_out ls) in *. set (m := Z.of_nat (Datatypes.length ls)) in *.
    clearbody I1 O1 m K. lia.
Qed.

(** What an amount to pay out costs: the rest of the price after the fee, which is the tier's share of it, is at most the amount at the square of the last price
    and so of the limit, to within a token on both sides for each leg and the worth of one step of the price in the last leg. *)
Theorem C100_output_partial e i s k (d : bool) a lim s' ms at' :
  reachable s -> execute e i s (Swap k d a false lim) = Ok (s', ms, at') ->
  exists p p' net fee n L, st_pools s !! k = Some p /\ st_pools s' !! k = Some p' /\
    at' = [("amount_in"%string, net + fee); ("amount_out"%string, a)] /\
    0 <= net /\ 0 <= fee /\ fee * 10 ^ 12 <= net * ft_fee (pk_tier k) + n * 10 ^ 12 /\ beside s k d p' L /\
    (if d then lim <= p_price p' /\ (net - n) * (p_price p' ^ 2 - 10 ^ 24) <= (a + n) * 10 ^ 48 + L * 10 ^ 18
     else p_price p' <= lim /\ (net - n) * 10 ^ 48 <= (a + n) * (p_price p' ^ 2 + 10 ^ 24) + L * 10 ^ 18) /\
    1 <= n <= 2 + ticks_in s k (lo_tick p p') (hi_tick p p') + (hi_tick p p' - lo_tick p p') / (256 * ft_spacing (pk_tier k)) + (if d then 0 else net + fee).
Proof.
  intros R H.
  destruct (execute_swap_inv _ _ _ _ _ _ _ _ _ _ _ R H) as (r & p & C & AR & Ep & Ep' & Ha & Hl & P).
  apply reachable_ereach in R. pose proof (ereach_store_geo _ _ _ R Ep) as G. pose proof (ereach_geo _ R _ _ Ep) as PG. destruct (sg_sp _ _ G) as [S1 S2].
  apply calculate_swap_run in C. destruct C as (p0 & w & E0 & NA & D & RN & O & ->). rewrite Ep in E0. injection E0 as <-.
  pose proof (loop_start k d lim p a PG Ha D) as I.
  destruct (run_limit _ _ _ _ _ _ _ _ G I NA RN) as [LK OK]. specialize (OK eq_refl).
  destruct (run_work _ _ _ _ _ _ _ _ G I NA RN) as (g & x & m & y & LP & EN & X0 & M0 & Y0 & XM & YB). cbv zeta in XM.
  destruct (loop_just_out _ _ _ _ _ G _ _ _ LP I NA) as (ls & l & (C1 & X1 & Y1) & F & TI & LL & NL).
  destruct (run_geo _ _ _ _ _ _ _ _ G I RN) as (I2 & _ & _).
  cbn [cr_in cr_out cr_fee cr_pool cr_ticks sw_in sw_out sw_fee sw_pool sw_ticks sw_remaining] in *.
  pose proof (lv_weak _ _ _ _ I) as (W1 & W2 & _). pose proof (legal_price_range _ _ W1) as [WM _]. cbn in W1, W2, WM.
  pose proof (lv_weak _ _ _ _ I2) as (V1 & V2 & _). pose proof (legal_price_range _ _ V1) as [VM _]. unfold MIN_SQRT_PRICE in *.
  rewrite (sum_plus lg_in lg_fee) in X1.
  assert (NF : 0 <= sum_of lg_in (ls ++ [l]) /\ 0 <= sum_of lg_fee (ls ++ [l])).
  { pose proof (sg_fee _ _ G) as FE. clear - F FE. induction F as [|z zs (_ & _ & _ & H & _ & SO) _ IH]; [done|]. unfold sum_of, share_only in *. cbn [foldr].
    assert (0 <= lg_in z * ft_fee (pk_tier k)) by (apply Z.mul_nonneg_nonneg; lia). lia. }
  assert (LT : exists L, beside s k d (sw_pool w) L /\ (on_curve d true l -> 0 <= L) /\ (on_curve d true l \/ lg_liq l <= L)).
  { destruct LL as [LL|LL].
    - exists (p_liq (sw_pool w)). split; [by left|]. split; [intros _; apply I2|by left].
    - exists (lg_liq l). split; [done|]. split; [intros _|right; lia]. apply Forall_app in F. destruct F as [_ F]. inversion F as [|? ? (_ & Q & _) _]. lia. }
  destruct LT as (L & BS & L0 & LT).
  destruct (out_total _ _ _ _ (p_price p) (p_price (sw_pool w)) ltac:(lia) ltac:(lia) C1 F TI L L0 LT) as [T1 T2].
  set (n := Z.of_nat (Datatypes.length (ls ++ [l]))) in *. assert (N1 : 1 <= n). { unfold n. rewrite app_length, Nat2Z.inj_add. change (Z.of_nat (Datatypes.length [l])) with 1. lia. }
  assert (NG : n <= Z.of_nat g) by (unfold n; lia). clearbody n.
  exists p, (sw_pool w), (sum_of lg_in (ls ++ [l])), (sum_of lg_fee (ls ++ [l])), n, L.
  set (Fe := sum_of lg_fee (ls ++ [l])) in *. set (Ne := sum_of lg_in (ls ++ [l])) in *. replace (sum_of lg_out (ls ++ [l])) with a in T1 by lia. clearbody Fe Ne.
  split; [done|]. split; [done|]. split; [rewrite AR; repeat f_equal; lia|]. split; [lia|]. split; [lia|]. split; [done|]. split; [done|]. rewrite !Z.pow_2_r. split.
  { unfold limit_kept in LK. destruct d; (split; [|exact T1]); [destruct LK as [LK _]; exact (LK eq_refl)|exact LK]. }
  split; [done|]. unfold lo_tick, hi_tick. set (sp := spacing k) in *. set (c := p_tick p) in *. set (c' := p_tick (sw_pool w)) in *. rewrite orb_false_r in YB.
  clearbody sp c c'. replace (Z.max c c' - Z.min c c') with (Z.abs (c - c')) by lia.
  assert (M : m <= Z.abs (c - c') / (256 * sp) + 1).
  { destruct (Z.eq_dec m 0) as [->|]; [pose proof (Z.div_pos (Z.abs (c - c')) (256 * sp) ltac:(lia) ltac:(lia)); lia|].
    enough (m - 1 <= Z.abs (c - c') / (256 * sp)) by lia. apply Z.div_le_lower_bound; [lia|]. destruct d; lia. }
  assert (X : x <= ticks_in s k (Z.min c c') (Z.max c c')).
  { destruct d; destruct XM as [XM _]; (etransitivity; [exact XM|apply ticks_in_mono; lia]). }
  destruct d; lia.
Qed.

(** False without the allowance for rounding: 100 tokens less the tier's fee of 0.6% are worth more than the 99 paid out, even at the limit. *)
Theorem C100_refuted : exists s k a lim s' ms out, reachable s /\
  execute v_env (v_info "carol") s (Swap k false a true lim) = Ok (s', ms, [("amount_in"%string, a); ("amount_out"%string, out)]) /\
  out * lim ^ 2 * 10 ^ 12 < a * (10 ^ 12 - ft_fee (pk_tier k)) * 10 ^ 48.
Proof.
  assert (X : match execute v_env (v_info "carol") sc0 (Swap v_key false 100 true 999900000000000000000000) with
    | Ok (_, _, l) => l = [("amount_in"%string, 100); ("amount_out"%string, 99)] | _ => False end) by (vm_compute; reflexivity).
  destruct (execute v_env (v_info "carol") sc0 _) as [[[s' ms] l]| |] eqn:E; [|destruct X..].
  subst l. exists sc0, v_key, 100, 999900000000000000000000, s', ms, 99. split; [exact sc0_reachable|]. split; [exact E|]. reflexivity.
Qed.

(** The theorems apply: four offers and amounts to pay out, one of them across three initialized ticks. *)
Example ex_C100 :
  reachable sc0 /\
  (match execute v_env (v_info "carol") sc0 (Swap v_key false 20000 true 1010000000000000000000000) with
   | Ok (s', _, l) => l = [("amount_in"%string, 20000); ("amount_out"%string, 19863)] /\
       match st_pools s' !! v_key with Some p' => p_tick p' = 20 /\ p_price p' = 1001308250120000000000000 | None => False end
   | _ => False end) /\
  (match execute v_env (v_info "carol") sc0 (Swap v_key true 100 true MIN_SQRT_PRICE) with
   | Ok (_, _, l) => l = [("amount_in"%string, 100); ("amount_out"%string, 98)] | _ => False end) /\
  (match execute v_env (v_info "carol") sc0 (Swap v_key false 100 false 999900000000000000000000) with
   | Ok (_, _, l) => l = [("amount_in"%string, 101); ("amount_out"%string, 100)] | _ => False end) /\
  (match execute v_env (v_info "carol") sc0 (Swap v_key true 100 false MIN_SQRT_PRICE) with
   | Ok (_, _, l) => l = [("amount_in"%string, 102); ("amount_out"%string, 100)] | _ => False end).
Proof. split; [exact sc0_reachable|]. vm_compute. repeat split; reflexivity. Qed.
