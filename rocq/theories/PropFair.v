(** C93: what a swap charges and pays, bounded from both sides. *)
From Verif Require Import Base Decimal SqrtPrice Clamm FeeGrowth Types Tick Pool Position Keys State Swap Exec Tactics
  PriceProofs ClammProofs PropClamm BitmapProofs Frame Handlers History Basic PosList Ledger Scenario SwapInv SwapGeo SwapLoop Modify PSum LiqInv
  Vectors Geo Ops Clean PropTrade PropLiq PropSwap Growth Value Fund Flow PropSolv Forward PropExit PropFees.
From stdpp Require Import gmap strings.
From Coq Require Import Lia.
Open Scope Z_scope.

(** * Legs
    A leg is a move of the price from one value to another with constant liquidity. *)
Record leg := mkLeg { lg_tick : Z; lg_from : Z; lg_to : Z; lg_liq : Z; lg_in : Z; lg_out : Z; lg_fee : Z }.

(** The trader pays what the curve asks for and is paid what it yields, to within a token each (token x also to within 10^24 in the product
    of the prices). A leg that was asked for an amount to pay out may go on to the next representable price without paying for that. *)
Definition on_curve (d by_in : bool) (l : leg) : Prop :=
  let '(mkLeg _ a b L i o _) := l in
  if d then
    b <= a /\ L * (a - b) * 10 ^ 18 - 10 ^ 24 < i * (a * b) /\ (i - 1) * (a * b - 10 ^ 24) < L * (a - b) * 10 ^ 18 /\
    o * 10 ^ 30 <= L * (a - b) /\ (L * (a - b) < (o + 1) * 10 ^ 30 \/ by_in = false /\ L * (a - b - 1) < o * 10 ^ 30)
  else
    a <= b /\ L * (b - a) <= i * 10 ^ 30 < L * (b - a) + 10 ^ 30 /\
    o * (a * b) <= L * (b - a) * 10 ^ 18 /\
    (L * (b - a) * 10 ^ 18 < (o + 1) * (a * b + 10 ^ 24) \/ by_in = false /\ L * (b - 1 - a) * 10 ^ 18 < o * (a * (b - 1)) + 10 ^ 24).

(** The fee is the advertised share [f] (of 10^12) of what the leg takes, rounded up; or the leg has used up an offer, and then the fee is at least
    that share (short of it by a token and a 10^-14th of the offer if the offer is in token x), and what is left of the offer after the share would
    not have paid for going on to the next representable price. *)
Definition fee_due (f : Z) (d by_in : bool) (l : leg) : Prop :=
  let '(mkLeg _ a b L i _ fee) := l in
  0 <= fee * 10 ^ 12 - i * f < 10 ^ 12 \/
  by_in = true /\ 0 <= fee /\ let net := (i + fee) * (10 ^ 12 - f) / 10 ^ 12 in
    if d then i * f <= (fee + 1 + (i + fee) / (b * a / 10 ^ 24)) * 10 ^ 12 /\ net * (a * (b - 1)) < L * (a - (b - 1)) * 10 ^ 18 + 10 ^ 24
    else i * f <= fee * 10 ^ 12 /\ net * 10 ^ 30 < L * (b + 1 - a).

(** ** One step *)
Definition E24 : Z := 10 ^ 24.
Lemma x_in_fair a b L r : MIN_SQRT_PRICE <= b -> b <= a -> 0 <= L -> get_delta_x b a L true = Ok r ->
  L * (a - b) * E18 - E24 < r * (a * b) /\ (r - 1) * (a * b - E24) < L * (a - b) * E18.
Proof.
  intros Mb O L0 H. assert (B0 : 0 <= b) by (unfold MIN_SQRT_PRICE in Mb; lia).
  pose proof (delta_x_up_exact b a L r B0 ltac:(lia) H) as X. rewrite Z.abs_neq in X by lia. change SP_ONE with E24 in X.
  apply delta_x_up in H; [|lia|lia]. destruct H as ([R0 _] & D0 & D1 & D2). pose proof (numx_spec b a L) as [N1 _].
  rewrite Z.abs_neq in N1 by lia. change SP_ONE with E24 in *.
  pose proof (floor_spec (b * a) E24 ltac:(reflexivity)) as [F1 F2]. set (q := b * a / E24) in *. set (n := numx b a L) in *. clearbody q n.
  assert (LA : 0 <= L * (a - b)) by (apply Z.mul_nonneg_nonneg; lia).
  replace (b * a) with (a * b) in * by lia.
  assert (BIG : E24 < a * b). { assert (MIN_SQRT_PRICE * MIN_SQRT_PRICE <= a * b) by (apply Z.mul_le_mono_nonneg; unfold MIN_SQRT_PRICE in *; lia). unfold MIN_SQRT_PRICE, E24 in *. lia. }
  split; [lia|]. set (ab := a * b) in *. clearbody ab. set (la := L * (a - b)) in *. replace (- (b - a) * L) with la in N1 by (unfold la; lia). clearbody la.
  destruct (Z.eq_dec r 0) as [->|R1]. { unfold E18. lia. }
  assert ((r - 1) * (ab - E24) <= (r - 1) * (E24 * q)) by (apply Z.mul_le_mono_nonneg_l; lia).
  replace ((r - 1) * (E24 * q)) with (E24 * (q * (r - 1))) in * by lia. set (z := q * (r - 1)) in *. clearbody z.
  unfold E24, E18, LIQ_ONE in *. lia.
Qed.
Lemma x_out_fair a b L r : 0 < a -> a <= b -> 0 <= L -> get_delta_x a b L false = Ok r ->
  r * (a * b) <= L * (b - a) * E18 < (r + 1) * (a * b + E24).
Proof.
  intros A0 O L0 H. pose proof (delta_x_down_exact a b L r ltac:(lia) ltac:(lia) H) as X. rewrite Z.abs_neq in X by lia.
  apply delta_x_down in H; [|lia|lia]. cbv zeta in H. destruct H as ([R0 _] & D0 & D1 & D2). pose proof (numx_spec a b L) as [_ N2].
  rewrite Z.abs_neq in N2 by lia. change SP_ONE with E24 in *.
  pose proof (ceil_spec (a * b) E24 ltac:(reflexivity)) as [F1 F2]. set (q := (a * b + (E24 - 1)) / E24) in *. set (n := numx a b L) in *. clearbody q n.
  split; [lia|]. set (ab := a * b) in *. clearbody ab. replace (- (a - b) * L) with (L * (b - a)) in N2 by lia. set (la := L * (b - a)) in *. clearbody la.
  assert ((r + 1) * (E24 * q) <= (r + 1) * (ab + E24)) by (apply Z.mul_le_mono_nonneg_l; lia).
  replace ((r + 1) * (E24 * q)) with (E24 * (q * (r + 1))) in * by lia. set (z := q * (r + 1)) in *. clearbody z.
  unfold E24, E18, LIQ_ONE in *. lia.
Qed.

(** an amount of x that takes the price to [n] does not pay for going one further *)
Lemma x_next_in P L x n : 0 <= P -> 0 < L -> 0 < x -> get_next_sqrt_price_x_up P L x true = Ok n ->
  x * (P * (n - 1)) < L * (P - (n - 1)) * E18 + E24.
Proof.
  intros P0 L0 X0 H. apply next_x_in in H; [|done..]. destruct H as (_ & A & _). pose proof (pl_up_spec P L) as [B _].
  assert (pl_up P L * SP_ONE < (P * L) * E18 + E24) by (unfold SP_ONE, E18, E24, LIQ_ONE in *; lia).
  replace ((n - 1) * (L * E18 + P * x)) with (L * (n - 1) * E18 + x * (P * (n - 1))) in A by lia. lia.
Qed.
Lemma x_next_out P L x n : 0 <= P -> 0 < L -> 0 < x -> get_next_sqrt_price_x_up P L x false = Ok n ->
  L * (n - 1 - P) * E18 < x * (P * (n - 1)) + E24.
Proof.
  intros P0 L0 X0 H. apply next_x_out in H; [|done..]. destruct H as (_ & _ & A & _). pose proof (pl_up_spec P L) as [B _].
  assert (pl_up P L * SP_ONE < (P * L) * E18 + E24) by (unfold SP_ONE, E18, E24, LIQ_ONE in *; lia).
  replace ((n - 1) * (L * E18 - P * x)) with (L * (n - 1) * E18 - x * (P * (n - 1))) in A by lia. lia.
Qed.

Lemma step_fair c (d : bool) cur target L amount by_in f r :
  step_args cur target L amount f -> 0 < amount -> compute_swap_step cur target L amount by_in f = Ok r ->
  (if d then target <= cur else cur < target) -> MIN_SQRT_PRICE <= sr_next r ->
  (if d then sr_next r <= cur else cur <= sr_next r) ->
  let l := mkLeg c cur (sr_next r) L (sr_in r) (sr_out r) (sr_fee r) in on_curve d by_in l /\ fee_due f d by_in l.
Proof.
  intros SA A0 ST SIDE NR DIR l. pose proof (C06_fee_partial _ _ _ _ _ _ _ SA ST) as [FL1 FL2]. destruct SA as (C1 & C2 & C3 & C4 & C5). unfold l, on_curve, fee_due. clear l.
  change (10 ^ 18) with E18. change (10 ^ 24) with E24. change (10 ^ 30) with E30. change (10 ^ 12) with PCT_ONE. change (10 ^ 24) with E24 in FL2. change 1000000000000 with PCT_ONE in FL1, FL2.
  assert (CM : MIN_SQRT_PRICE <= cur) by (unfold MIN_SQRT_PRICE; lia).
  assert (PP : 0 < cur * sr_next r) by (apply Z.mul_pos_pos; unfold MIN_SQRT_PRICE in *; lia).
  assert (PQ : E24 < cur * sr_next r).
  { assert (MIN_SQRT_PRICE * MIN_SQRT_PRICE <= cur * sr_next r) by (apply Z.mul_le_mono_nonneg; unfold MIN_SQRT_PRICE in *; lia). unfold MIN_SQRT_PRICE, E24 in *. lia. }
  destruct (Z.eq_dec L 0) as [->|L0].
  { unfold compute_swap_step in ST. cbn in ST. apply Ok_inj in ST. subst r. cbn [sr_next sr_in sr_out sr_fee] in *.
    rewrite !Z.mul_0_l, ?Z.mul_0_r. split; [|left; unfold PCT_ONE; lia]. destruct d; unfold E24, E30 in *; repeat split; try lia; left; lia. }
  apply step_inv in ST; [|done]. destruct ST. destruct sf_out as (o & O1 & O2).
  assert (DN : (target <=? cur) = d) by (destruct d; [apply Z.leb_le|apply Z.leb_gt]; lia). rewrite DN in *. clear DN.
  set (n := sr_next r) in *. set (i := sr_in r) in *. set (fe := sr_fee r) in *. set (out := sr_out r) in *. clearbody n i fe out. clear r.
  unfold delta_in, delta_out in *. unfold get_next_sqrt_price_from_input, get_next_sqrt_price_from_output in *. split.
  - (* curve *)
    assert (CUT : out = o \/ by_in = false /\ out = amount /\ amount < o).
    { destruct by_in; [left; lia|]. destruct (Z.le_gt_cases o amount); [left|right]; [lia|]. repeat split; lia. }
    destruct d.
    + apply x_in_fair in sf_in; [|done|done|lia]. pose proof (delta_y_down _ _ _ _ O1) as [_ O3]. rewrite Z.abs_neq in O3 by lia.
      replace (- (n - cur) * L) with (L * (cur - n)) in O3 by lia.
      split; [done|]. split; [lia|]. split; [lia|]. destruct CUT as [->|(-> & -> & CU)]; [split; [lia|left; lia]|].
      split; [unfold E30 in *; lia|right]. split; [done|]. destruct sf_next as [[? _]|(_ & a & SA & SN)]; [done|].
      destruct SN as [[X ->]|[X SN]]. { rewrite SA in O1. apply Ok_inj in O1. lia. }
      apply next_y_out in SN; [|lia|lia|lia]. lia.
    + apply delta_y_up in sf_in as [_ SI]. rewrite Z.abs_neq in SI by lia. replace (- (cur - n) * L) with (L * (n - cur)) in SI by lia.
      apply x_out_fair in O1 as OF; [|unfold MIN_SQRT_PRICE in *; lia|done|lia].
      split; [done|]. split; [lia|]. destruct CUT as [->|(-> & -> & CU)]; [split; [lia|left; lia]|].
      split. { assert (amount * (cur * n) <= o * (cur * n)) by (apply Z.mul_le_mono_nonneg_r; lia). lia. }
      right. split; [done|]. destruct sf_next as [[? _]|(_ & a & SA & SN)]; [done|].
      destruct SN as [[X ->]|[X SN]]. { rewrite SA in O1. apply Ok_inj in O1. lia. }
      apply x_next_out in SN; [|lia|lia|lia]. lia.
  - (* fee *)
    destruct sf_fee as [(-> & NT & -> & F0 & _)|[_ F]].
    + right. split; [done|]. split; [done|]. replace (i + (amount - i)) with amount by lia.
      destruct sf_next as [(_ & x & a & _ & BX & _ & SN)|[? _]]; [|done]. destruct SN as [[_ ->]|[_ SN]]; [done|].
      apply ckp_ok in BX as BY. destruct BY as [BY [X0 _]]. cbv zeta. rewrite <- BY. destruct d.
      * destruct (Z.eq_dec x 0) as [->|X1]. { assert (0 <= L * (cur - (n - 1)) * E18) by (apply Z.mul_nonneg_nonneg; [apply Z.mul_nonneg_nonneg; lia|done]). split; [exact FL2|]. unfold E24. lia. }
        apply x_next_in in SN; [|lia|lia|lia]. split; [exact FL2|lia].
      * split; [apply FL1; right; left; exact SIDE|]. apply next_y_in in SN; [|lia|lia|lia]. lia.
    + left. apply ceil_pct in F. lia.
Qed.

(** a rest that is not enough to move the price *)
Lemma rest_fair c rem P L f : 0 <= L -> MIN_SQRT_PRICE <= P -> 0 <= rem ->
  is_enough_amount_to_change_price rem P L f true true = Ok false ->
  let l := mkLeg c P P L 0 0 rem in on_curve true true l /\ fee_due f true true l.
Proof.
  intros L0 MP R0 H l. unfold l, on_curve, fee_due. clear l.
  change (10 ^ 18) with E18. change (10 ^ 24) with E24. change (10 ^ 30) with E30. change (10 ^ 12) with PCT_ONE.
  assert (PQ : E24 < P * P).
  { assert (MIN_SQRT_PRICE * MIN_SQRT_PRICE <= P * P) by (apply Z.mul_le_mono_nonneg; unfold MIN_SQRT_PRICE in *; lia). unfold MIN_SQRT_PRICE, E24 in *. lia. }
  split. { rewrite Z.sub_diag, !Z.mul_0_r, !Z.mul_0_l. unfold E24, E30 in *. repeat split; try lia; left; lia. }
  right. split; [done|]. split; [done|]. cbv zeta. rewrite Z.add_0_l. unfold is_enough_amount_to_change_price in H.
  destruct (Z.eqb_spec L 0) as [|LN]; [done|]. inv_bind H as n E. apply Ok_inj in H. apply negb_false_iff, Z.eqb_eq in H. subst n.
  inv_bind E as c' EC. apply pct_complement_ok in EC. destruct EC as [-> _]. inv_bind E as x EX. apply ckp_ok in EX as EY. destruct EY as [EY [X0 _]]. rewrite <- EY.
  unfold get_next_sqrt_price_from_input in E. assert (0 <= P) by (unfold MIN_SQRT_PRICE in MP; lia).
  split. { assert (0 <= rem / (P * P / E24)) by (apply Z.div_pos; [lia|]; apply Z.div_str_pos; unfold E24 in *; lia). unfold PCT_ONE. lia. }
  destruct (Z.eq_dec x 0) as [->|X1]. { assert (0 <= L * (P - (P - 1)) * E18) by (apply Z.mul_nonneg_nonneg; [apply Z.mul_nonneg_nonneg; lia|done]). unfold E24. lia. }
  apply x_next_in in E; [|lia|lia|lia]. lia.
Qed.

(** * Swaps *)
Fixpoint chained (a : Z) (ls : list leg) (b : Z) : Prop :=
  match ls with [] => a = b | l :: ls => lg_from l = a /\ chained (lg_to l) ls b end.

(** the liquidity of a leg is that of the positions in whose range it lies, and it lies inside or outside the range of every position *)
Definition in_force (s : store) (k : pool_key) (l : leg) : Prop :=
  lg_liq l = psum (fun po => if decide (po_key po = k) then
     (if (po_lower po <=? lg_tick l) && (lg_tick l <? po_upper po) then po_liq po else 0) else 0) (st_positions s) /\
  forall x po j, st_positions s !! x = Some po -> po_key po = k -> j = po_lower po \/ j = po_upper po ->
    (j <= lg_tick l -> tprice j <= lg_from l /\ tprice j <= lg_to l) /\ (lg_tick l < j -> lg_from l <= tprice j /\ lg_to l <= tprice j).

Definition fair (s : store) (k : pool_key) (d by_in : bool) (l : leg) : Prop :=
  in_force s k l /\ 15258932000000000000 <= lg_to l /\ 0 <= lg_liq l < 2 ^ 128 /\ on_curve d by_in l /\ fee_due (ft_fee (pk_tier k)) d by_in l.

Definition sum_of (g : leg -> Z) (ls : list leg) : Z := foldr (fun l z => g l + z) 0 ls.
Lemma sum_app g a b : sum_of g (a ++ b) = sum_of g a + sum_of g b.
Proof. unfold sum_of. induction a as [|x a IH]; [done|]. cbn [foldr app]. rewrite IH. lia. Qed.
Lemma chained_app a x b y c : chained a x b -> chained b y c -> chained a (x ++ y) c.
Proof. revert a. induction x as [|l x IH]; intros a; cbn; [by intros ->|]. intros [-> C] D. split; [done|by apply IH]. Qed.

Definition legs_of (w w' : swap_state) (ls : list leg) : Prop :=
  chained (p_price (sw_pool w)) ls (p_price (sw_pool w')) /\ sw_in w' = sw_in w + sum_of (fun l => lg_in l + lg_fee l) ls /\
  sw_out w' = sw_out w + sum_of lg_out ls.

Lemma iter_legs s now k d by_in lim w w1 : store_geo s k -> liq_inv s -> loop_inv k d lim w -> sw_remaining w <> 0 ->
  swap_iter s now k d by_in lim (end_tick d k) w = Ok w1 -> loop_inv k d lim w1 -> good_step s k d w w1 ->
  p_liq (sw_pool w) = act s k (p_tick (sw_pool w)) ->
  exists ls, legs_of w w1 ls /\ Forall (fair s k d by_in) ls /\ Z.of_nat (Datatypes.length ls) <= 1 + (if sw_remaining w1 =? 0 then 1 else 0).
Proof.
  intros G LI I N H I1 GS A. pose proof (loop_pre s k d lim w G I N) as PRE. destruct (sg_sp _ _ G) as [S1 _].
  pose proof H as H0. apply iter_cases in H0; [|done].
  destruct H0 as (t & init & sl & r & p0 & rm0 & TG & SL & SA & ST & SIDE & E0 & R0 & AF & NL & IC & _ & _ & _ & DU).
  assert (P1 : p_price (sw_pool w1) = sr_next r).
  { destruct IC as [tk t' p1 _ _ _ _ TC _ ->|en _ _ _ _ ->|tk p2 _ _ _ _ _ D ->|c' _ _ ->]; cbn; try done.
    - apply tick_cross_inv in TC. destruct TC as (_ & _ & _ & _ & l & -> & _). done.
    - destruct D as [[_ ->]|(_ & _ & D)]; [done|]. apply add_fee_keeps in D. destruct D as (_ & _ & -> & _). done. }
  assert (OUT : sw_out w1 = sw_out w + sr_out r).
  { destruct IC as [tk t' p1 _ _ _ _ TC _ ->|en _ _ _ _ ->|tk p2 _ _ _ _ _ D ->|c' _ _ ->]; cbn; lia. }
  pose proof (lv_weak _ _ _ _ I1) as (W1 & W2 & W3). pose proof (legal_price_range _ _ W1) as [WM _].
  assert (NR : MIN_SQRT_PRICE <= sr_next r) by (rewrite <- P1; lia).
  assert (DIR : if d then sr_next r <= p_price (sw_pool w) else p_price (sw_pool w) <= sr_next r).
  { pose proof (loop_step _ _ _ _ _ _ _ _ G I N H) as [IP _]. destruct IP. rewrite <- P1. destruct d; lia. }
  assert (SD : forall x po j, st_positions s !! x = Some po -> po_key po = k -> j = po_lower po \/ j = po_upper po ->
     sided (p_tick (sw_pool w)) (p_price (sw_pool w)) (sr_next r) j).
  { intros x po j E K J. rewrite <- P1. eapply good_sided; try eassumption; [|subst k; by eapply bound_init].
    intros t0 TI NT Q. rewrite P1.
    destruct IC as [tk t' p1 _ SN _ TK TC _ ->|en _ _ _ _ ->|tk p2 _ _ _ _ _ D ->|c' _ _ ->]; try (cbn in NT; done).
    pose proof (sg_index _ _ G _ _ _ TK) as IT. cbn in Q. rewrite SN. f_equal. rewrite IT in Q. destruct d; lia. }
  pose proof (lv_rem _ _ _ _ I) as [R1 _]. pose proof (lv_liq _ _ _ _ I) as [Q1 Q2]. assert (QL : 0 <= p_liq (sw_pool w) < 2 ^ 128) by (change (2 ^ 128) with (U128MAX + 1); lia).
  destruct (step_fair (p_tick (sw_pool w)) d _ _ _ _ _ _ _ SA ltac:(lia) ST SIDE NR DIR) as [OC FD].
  set (l := mkLeg _ _ _ _ _ _ _) in OC, FD.
  assert (FL : fair s k d by_in l). { split; [|done]. split; [exact A|]. intros x po j E K J. exact (SD x po j E K J). }
  assert (DU' : sw_in w1 = sw_in w + (sr_in r + sr_fee r) \/ sw_remaining w1 = 0 /\ d = true /\ by_in = true /\ sw_in w1 = sw_in w + (sr_in r + sr_fee r) + rm0 /\
     is_enough_amount_to_change_price rm0 (sr_next r) (p_liq (sw_pool w)) (ft_fee (pk_tier k)) by_in d = Ok false).
  { destruct DU as [DU|DU]; [by left|]. destruct IC as [tk t' p1 _ _ _ _ TC _ ->|en _ _ _ _ ->|tk p2 _ _ _ _ _ D ->|c' _ _ ->]; cbn [sw_in sw_remaining]; [by left|by left|by right|by left]. }
  destruct DU' as [DU'|(RZ & -> & -> & DU' & EN)].
  - exists [l]. split; [|split; [by constructor|cbn; destruct (_ =? _); lia]]. unfold legs_of. cbn. split; [done|]. lia.
  - destruct (rest_fair (p_tick (sw_pool w)) rm0 (sr_next r) (p_liq (sw_pool w)) _ Q1 NR R0 EN) as [OC2 FD2].
    set (l2 := mkLeg _ _ _ _ _ _ _) in OC2, FD2.
    assert (FL2 : fair s k true true l2).
    { split; [|done]. split; [exact A|]. intros x po j E K J. destruct (SD x po j E K J) as [X Y]. cbn [l2 lg_tick lg_from lg_to]. split; intros B; [apply X in B|apply Y in B]; tauto. }
    exists [l; l2]. split; [|split; [constructor; [exact FL|constructor; [exact FL2|constructor]]|rewrite RZ; cbn; lia]]. unfold legs_of. cbn. split; [done|]. lia.
Qed.

(** an iteration that leaves something of an exact input moves on by one spacing at least; the last one goes back by one spacing at most *)
Lemma iter_moves s now k d lim w w1 : store_geo s k -> loop_inv k d lim w -> sw_remaining w <> 0 ->
  swap_iter s now k d true lim (end_tick d k) w = Ok w1 ->
  let go := if d then p_tick (sw_pool w) - p_tick (sw_pool w1) else p_tick (sw_pool w1) - p_tick (sw_pool w) in
  if sw_remaining w1 =? 0 then - spacing k <= go else spacing k <= go.
Proof.
  intros G I N H. pose proof (loop_pre s k d lim w G I N) as PRE. destruct (sg_sp _ _ G) as [S1 _]. cbv zeta.
  pose proof (loop_step _ _ _ _ _ _ _ _ G I N H) as [IP I1].
  pose proof (lv_weak _ _ _ _ I) as (W1 & W2 & W3). pose proof (lv_weak _ _ _ _ I1) as (V1 & V2 & V3). pose proof (io_dir _ _ _ _ _ _ IP) as DIR.
  destruct (Z.eqb_spec (sw_remaining w1) 0) as [RZ|RZ].
  - destruct d.
    + destruct (Z.le_gt_cases (p_tick (sw_pool w1)) (p_tick (sw_pool w) + spacing k)) as [|GT]; [lia|]. exfalso.
      pose proof (legal_top _ _ S1 V1). specialize (W3 ltac:(unfold spacing in *; lia)).
      pose proof (legal_price_lt _ _ _ (legal_next _ _ S1 W1 ltac:(unfold spacing in *; lia)) V1 ltac:(unfold spacing in *; lia)). unfold spacing in *. lia.
    + destruct (Z.le_gt_cases (p_tick (sw_pool w)) (p_tick (sw_pool w1) + spacing k)) as [|GT]; [lia|]. exfalso.
      pose proof (legal_top _ _ S1 W1). specialize (V3 ltac:(unfold spacing in *; lia)).
      pose proof (legal_price_lt _ _ _ (legal_next _ _ S1 V1 ltac:(unfold spacing in *; lia)) W1 ltac:(unfold spacing in *; lia)). unfold spacing in *. lia.
  - apply iter_cases in H; [|done].
    destruct H as (t & init & sl & r & p0 & rm0 & TG & SL & SA & ST & SIDE & E0 & R0 & AF & NL & IC & _ & _ & _ & _).
    destruct TG as (TL & _ & TG).
    destruct IC as [tk t' p1 _ SN _ TK TC _ ->|en IN SN _ _ ->|tk p2 _ _ _ _ _ D ->|c' CC _ ->]; cbn [sw_pool sw_remaining p_tick p_set_tick] in *.
    + pose proof (sg_index _ _ G _ _ _ TK) as IT. rewrite IT. unfold spacing in *. destruct d; [lia|].
      pose proof (legal_gap _ _ _ S1 W1 TL ltac:(lia)). lia.
    + unfold spacing in *. destruct d; cbn [andb].
      * destruct TG as (_ & TG & _). pose proof (legal_gap _ _ _ S1 TL W1 (TG IN)). destruct en; lia.
      * pose proof (legal_gap _ _ _ S1 W1 TL ltac:(lia)). lia.
    + done.
    + exfalso. destruct CC as [CC|(_ & _ & CC)]; [|done]. apply RZ. subst rm0. unfold compute_swap_step in ST.
      destruct (_ =? 0). { injection ST as <-. done. }
      cbv zeta in ST. inv_bind ST as [[nx ai] ao] X1. cbn [negb] in ST. rewrite orb_false_r, orb_true_r in ST. cbn [andb] in ST.
      inv_bind ST as ai' X2. inv_bind ST as ao' X3. inv_bind ST as fa X4. apply Ok_inj in ST. subst r. cbn [sr_next sr_in sr_fee] in *.
      replace (sl =? nx) with false in X4 by (symmetry; apply Z.eqb_neq; congruence). cbn [negb] in X4. apply ckp_ok in X4. lia.
Qed.

Lemma run_legs s now k d by_in lim : store_geo s k -> liq_inv s ->
  forall w w', grun s now k d by_in lim w w' -> p_liq (sw_pool w) = act s k (p_tick (sw_pool w)) ->
  exists ls, legs_of w w' ls /\ Forall (fair s k d by_in) ls /\
    (by_in = true -> spacing k * (Z.of_nat (Datatypes.length ls) - 3) <= (if d then p_tick (sw_pool w) - p_tick (sw_pool w') else p_tick (sw_pool w') - p_tick (sw_pool w))).
Proof.
  intros G LI w w' R. pose proof (proj1 (sg_sp _ _ G)) as S1. fold (spacing k) in S1. induction R as [w R|w w1 w2 N I H I1 GS R IH]; intros A.
  - exists []. split; [unfold legs_of; cbn; lia|]. split; [constructor|]. intros _. cbn. destruct d; lia.
  - destruct (iter_legs _ _ _ _ _ _ _ _ G LI I N H I1 GS A) as (l1 & (C1 & X1 & Y1) & F1 & N1).
    destruct (IH (good_liq _ _ _ _ _ LI (proj1 (sg_sp _ _ G)) GS A)) as (l2 & (C2 & X2 & Y2) & F2 & N2).
    assert (MV := fun E : by_in = true => iter_moves s now k d lim w w1 G I N (eq_rect by_in (fun b => swap_iter s now k d b lim (end_tick d k) w = Ok w1) H true E)). cbv zeta in MV.
    destruct (Z.eqb_spec (sw_remaining w1) 0) as [RZ|RZ].
    + inversion R; subst; [|done]. exists l1. split; [done|]. split; [done|]. intros E. specialize (MV E).
      assert (spacing k * (Z.of_nat (Datatypes.length l1) - 3) <= spacing k * -1) by (apply Z.mul_le_mono_nonneg_l; lia). destruct d; lia.
    + exists (l1 ++ l2). split; [|split; [by apply Forall_app|]].
      { unfold legs_of. rewrite !sum_app. split; [by eapply chained_app|]. lia. }
      intros E. specialize (MV E). specialize (N2 E). rewrite app_length, Nat2Z.inj_add.
      assert (spacing k * Z.of_nat (Datatypes.length l1) <= spacing k * 1) by (apply Z.mul_le_mono_nonneg_l; lia). destruct d; lia.
Qed.

Lemma swap_legs e i s k (d : bool) a by_in lim s' ms at' :
  clean_history s -> clean_call e i s (Swap k d a by_in lim) -> execute e i s (Swap k d a by_in lim) = Ok (s', ms, at') ->
  exists p p' ls, st_pools s !! k = Some p /\ st_pools s' !! k = Some p' /\ st_positions s' = st_positions s /\
    at' = [("amount_in"%string, sum_of (fun l => lg_in l + lg_fee l) ls); ("amount_out"%string, sum_of lg_out ls)] /\
    chained (p_price p) ls (p_price p') /\ Forall (fair s k d by_in) ls /\
    (by_in = true -> spacing k * (Z.of_nat (Datatypes.length ls) - 3) <= (if d then p_tick p - p_tick p' else p_tick p' - p_tick p)).
Proof.
  intros CH CS H. pose proof (clean_history_creach _ CH) as CR. pose proof (creach_ereach _ CR) as R. pose proof (ereach_liq _ R) as LI.
  assert (Ha : 0 <= a <= U128MAX).
  { destruct (execute_swap_inv _ _ _ _ _ _ _ _ _ _ _ (clean_history_reachable _ CH) H) as (? & ? & _ & _ & _ & _ & ? & _). done. }
  unfold execute in H. destruct (_ && _); [|done]. cbn [dispatch] in H. unfold swap in H.
  inv_bind H as [[s2 m2] r] H1. apply Ok_inj in H. injection H as <- <- <-.
  apply swap_internal_inv in H1. destruct H1 as (C & (s1 & U & ->) & m0 & AT & EM). apply update_ticks_inv in U.
  destruct (calculate_swap_frame _ _ _ _ _ _ _ _ _ C) as (p & Ep & _).
  pose proof (ereach_store_geo _ _ _ R Ep) as G. pose proof (ereach_geo _ R _ _ Ep) as PG.
  pose proof (CS _ _ C Ep) as CE.
  destruct (clean_grun _ _ _ _ _ _ _ _ _ _ G Ep PG Ha C CE) as (w & GR & O & ND & _ & ER).
  destruct (run_legs _ _ _ _ _ _ G LI _ _ GR (creach_act _ CR _ _ Ep)) as (ls & (C1 & X1 & Y1) & F & NL).
  exists p, (cr_pool r), ls. subst r. cbn [cr_in cr_out cr_fee cr_pool cr_ticks sw_in sw_out sw_fee sw_pool sw_ticks] in *.
  split; [done|]. split; [apply lookup_insert|]. split; [|split; [by rewrite X1, Y1|done]].
  rewrite U. done.
Qed.

(** Every clean swap is made of legs, each along the curve of the positions whose range it lies in, and each charged as above.
    Missing: swaps that are not clean and states left behind by them, where the liquidity of a pool is not that of its positions in range
    ([C13_active_liquidity_refuted]). *)
Theorem C93_fair_partial e i s k (d : bool) a by_in lim s' ms at' :
  clean_history s -> clean_call e i s (Swap k d a by_in lim) -> execute e i s (Swap k d a by_in lim) = Ok (s', ms, at') ->
  exists p p' ls, st_pools s !! k = Some p /\ st_pools s' !! k = Some p' /\
    at' = [("amount_in"%string, sum_of (fun l => lg_in l + lg_fee l) ls); ("amount_out"%string, sum_of lg_out ls)] /\
    chained (p_price p) ls (p_price p') /\ Forall (fair s k d by_in) ls.
Proof.
  intros CH CS H. destruct (swap_legs _ _ _ _ _ _ _ _ _ _ _ CH CS H) as (p & p' & ls & A & B & _ & C & D & F & _). by exists p, p', ls.
Qed.

(** What this means for the fee: it exceeds the advertised share of what the trader pays by no more than a token and the worth of one step
    of the price. Of token y one step is worth the liquidity over 10^30. *)
Theorem C93_fee_y_partial f by_in l : 0 <= f <= 10 ^ 12 -> 0 <= lg_liq l -> on_curve false by_in l -> fee_due f false by_in l ->
  lg_fee l * 10 ^ 12 * 10 ^ 30 < ((lg_in l + lg_fee l) * f + 10 ^ 12) * 10 ^ 30 + 10 ^ 12 * lg_liq l.
Proof.
  destruct l as [c a b L i o fe]. unfold on_curve, fee_due. cbn [lg_in lg_fee lg_liq]. intros F L0 (O & (I1 & _) & _) FD.
  assert (LA : 0 <= L * (b - a)) by (apply Z.mul_nonneg_nonneg; lia). destruct FD as [FD|(_ & F0 & _ & FD)].
  - assert (0 <= i) by lia. assert (0 <= i * f) by (apply Z.mul_nonneg_nonneg; lia). assert (0 <= fe) by lia. assert (0 <= fe * f) by (apply Z.mul_nonneg_nonneg; lia). lia.
  - cbv zeta in FD. pose proof (floor_spec ((i + fe) * (10 ^ 12 - f)) (10 ^ 12) ltac:(reflexivity)) as [_ N].
    set (n := (i + fe) * (10 ^ 12 - f) / 10 ^ 12) in *. clearbody n. lia.
Qed.
Theorem C93_fee_x_partial f by_in l : 0 <= f <= 10 ^ 12 -> 0 <= lg_liq l -> 15258932000000000000 <= lg_to l -> on_curve true by_in l -> fee_due f true by_in l ->
  let step := lg_from l * (lg_to l - 1) in
  lg_fee l * 10 ^ 12 * step < ((lg_in l + lg_fee l) * f + 10 ^ 12) * step + 10 ^ 12 * (lg_liq l * 10 ^ 18 + lg_in l * lg_from l + 2 * 10 ^ 24).
Proof.
  destruct l as [c a b L i o fe]. unfold on_curve, fee_due. cbn [lg_in lg_fee lg_liq lg_from lg_to]. intros F L0 B (O & I1 & I2 & _) FD. set (step := a * (b - 1)).
  assert (0 <= L * (a - b)) by (apply Z.mul_nonneg_nonneg; lia).
  assert (S0 : 0 < step) by (apply Z.mul_pos_pos; lia).
  assert (PQ : 10 ^ 24 < a * b).
  { assert (15258932000000000000 * 15258932000000000000 <= a * b) by (apply Z.mul_le_mono_nonneg; lia). lia. }
  assert (i0 : 0 <= i). { destruct (Z.le_gt_cases 0 i); [done|]. exfalso. assert (i * (a * b) <= -1 * (a * b)) by (apply Z.mul_le_mono_nonneg_r; lia). lia. }
  assert (0 <= i * a) by (apply Z.mul_nonneg_nonneg; lia).
  destruct FD as [FD|(_ & F0 & _ & FD)].
  - assert (0 <= i * f) by (apply Z.mul_nonneg_nonneg; lia). assert (0 <= fe) by lia. assert (0 <= fe * f) by (apply Z.mul_nonneg_nonneg; lia).
    assert (fe * 10 ^ 12 * step <= ((i + fe) * f + 10 ^ 12) * step) by (apply Z.mul_le_mono_nonneg_r; lia). lia.
  - cbv zeta in FD. fold step in FD. pose proof (floor_spec ((i + fe) * (10 ^ 12 - f)) (10 ^ 12) ltac:(reflexivity)) as [_ N].
    set (n := (i + fe) * (10 ^ 12 - f) / 10 ^ 12) in *. clearbody n.
    replace (i * (a * b)) with (i * step + i * a) in I1 by (unfold step; lia). clearbody step.
    assert (((i + fe) * (10 ^ 12 - f)) * step <= (10 ^ 12 * (n + 1)) * step) by (apply Z.mul_le_mono_nonneg_r; lia). lia.
Qed.

(** ** The fee is not always the advertised share
    With much liquidity one step of the price is worth many tokens: of an offer of 150 tokens 50 are kept as a fee of 0.6 percent. *)
Definition deep_calls : list (string * exec_msg) :=
  [("alice", AddFeeTier v_tier);
   ("alice", CreatePool "tokeny" "tokenx" v_tier SP_ONE 0);
   ("alice", CreatePosition v_key (-20) 20 100000000000000000000000000000000 SP_ONE SP_ONE)]%string.
Definition deep_run :=
  let* s := start 10000000000 deep_calls in
  let m := Swap v_key false 150 true MAX_SQRT_PRICE in
  let* '(s1, m1, a1) := execute v_env (v_info "erin") s m in
  let* r := calculate_swap (e_gas v_env) s (e_millis v_env) v_key false 150 true MAX_SQRT_PRICE in
  Ok (s, (s1, m1, a1), cr_fee r, clean_callb v_env s m).
Theorem C93_fee_refuted : exists s s' ms, clean_history s /\
  clean_call v_env (v_info "erin") s (Swap v_key false 150 true MAX_SQRT_PRICE) /\
  execute v_env (v_info "erin") s (Swap v_key false 150 true MAX_SQRT_PRICE) = Ok (s', ms, [("amount_in", 150); ("amount_out", 99)]%string) /\
  ft_fee (pk_tier v_key) = 6000000000 /\
  exists r, calculate_swap (e_gas v_env) s (e_millis v_env) v_key false 150 true MAX_SQRT_PRICE = Ok r /\ cr_fee r = 50.
Proof.
  destruct (done_inv (fun '(s, (s1, m1, a1), fe, b) => a1 = [("amount_in", 150); ("amount_out", 99)]%string /\ fe = 50 /\ b = true /\ is_ok (clean_start 10000000000 deep_calls) = true) deep_run)
    as ([[[s [[s1 m1] a1]] fe] b] & E & A & F & B & CL).
  { vm_compute. repeat split; reflexivity. }
  unfold deep_run in E. inv_bind E as s0 E0. inv_bind E as [[s3 m3] a3] E1. inv_bind E as r E2. apply Ok_inj in E. injection E as -> -> -> -> Q1 Q2.
  rewrite A in E1. rewrite B in Q2. pose proof (start_reachable _ _ _ E0) as R.
  exists s, s1, m1. split; [exact (clean_by_check _ _ _ E0 CL)|]. split; [exact (clean_callb_sound v_env (v_info "erin") s (Swap v_key false 150 true MAX_SQRT_PRICE) (reachable_ereach _ R) Q2)|].
  split; [exact E1|]. split; [reflexivity|]. exists r. split; [exact E2|]. rewrite Q1. exact F.
Qed.

(** ** Example: a swap of three legs, over the ends of two positions *)
Definition fair_calls : list (string * exec_msg) :=
  [("alice", AddFeeTier v_tier);
   ("alice", CreatePool "tokeny" "tokenx" v_tier SP_ONE 0);
   ("alice", CreatePosition v_key (-100) 100 1000000000000 SP_ONE SP_ONE);
   ("bob", CreatePosition v_key (-10) 10 3000000000000 SP_ONE SP_ONE);
   ("carol", CreatePosition v_key 10 20 500000000000 SP_ONE SP_ONE)]%string.
Definition fair_swap_run :=
  let* s := start 10000000000 fair_calls in
  let m := Swap v_key false 5000 true MAX_SQRT_PRICE in
  let* '(s1, m1, a1) := execute v_env (v_info "erin") s m in
  Ok (s, (s1, m1, a1), clean_callb v_env s m).
Example ex_C93 : exists s s' ms p p', clean_history s /\ clean_call v_env (v_info "erin") s (Swap v_key false 5000 true MAX_SQRT_PRICE) /\
  execute v_env (v_info "erin") s (Swap v_key false 5000 true MAX_SQRT_PRICE) = Ok (s', ms, [("amount_in", 5000); ("amount_out", 4954)]%string) /\
  st_pools s !! v_key = Some p /\ st_pools s' !! v_key = Some p' /\ p_liq p = 4000000000000 /\ p_liq p' = 1000000000000 /\ p_price p = SP_ONE /\ p_price p' = 1003216450120000000000000.
Proof.
  destruct (done_inv (fun '(s, (s1, m1, a1), b) => a1 = [("amount_in", 5000); ("amount_out", 4954)]%string /\ b = true /\ is_ok (clean_start 10000000000 fair_calls) = true /\
    match st_pools s !! v_key, st_pools s1 !! v_key with Some p, Some p1 => p_liq p = 4000000000000 /\ p_liq p1 = 1000000000000 /\ p_price p = SP_ONE /\ p_price p1 = 1003216450120000000000000 | _, _ => False end) fair_swap_run)
    as ([[s [[s1 m1] a1]] b] & E & A & B & CL & P).
  { vm_compute. repeat split; reflexivity. }
  unfold fair_swap_run in E. inv_bind E as s0 E0. inv_bind E as [[s3 m3] a3] E1. apply Ok_inj in E. injection E as -> -> -> -> Q2.
  rewrite A in E1. rewrite B in Q2. pose proof (start_reachable _ _ _ E0) as R.
  apply (some_inv (fun p : pool => _)) in P. destruct P as (p & Ep & P). apply (some_inv (fun p : pool => _)) in P. destruct P as (p1 & Ep1 & P).
  exists s, s1, m1, p, p1. split; [exact (clean_by_check _ _ _ E0 CL)|]. split; [exact (clean_callb_sound v_env (v_info "erin") s (Swap v_key false 5000 true MAX_SQRT_PRICE) (reachable_ereach _ R) Q2)|].
  split; [exact E1|]. split; [exact Ep|]. split; [exact Ep1|]. exact P.
Qed.
