(** Where one iteration of the swap loop goes: target tick, next price, new current tick. *)
From Verif Require Import Base Decimal SqrtPrice Clamm Log FeeGrowth Types Tick Pool Position
  Tickmap Keys State Swap Tactics PriceProofs LogProofs ClammProofs PropClamm BitmapProofs Frame SwapInv.
From stdpp Require Import gmap strings.
From Coq Require Import Lia.
Open Scope Z_scope.

(** ** Legal ticks of a spacing *)
Definition top (sp : Z) : Z := MAX_TICK / sp * sp.

Lemma top_legal sp : 1 <= sp -> legal_tick sp (top sp).
Proof.
  intros H. apply legal_of_div; [done|]. assert (0 <= MAX_TICK / sp) by (apply Z.div_pos; [done|lia]). lia.
Qed.
Lemma legal_top sp c : 1 <= sp -> legal_tick sp c -> - top sp <= c <= top sp.
Proof.
  intros H L. pose proof (div_range sp c H L). pose proof (legal_mult sp c H L) as E. unfold top. rewrite E. nia.
Qed.
Lemma legal_mid sp c : 1 <= sp -> c mod sp = 0 -> - top sp <= c <= top sp -> legal_tick sp c.
Proof.
  intros H M C. split; [|done]. pose proof (top_legal sp H) as [T _]. lia.
Qed.
Lemma legal_next sp c : 1 <= sp -> legal_tick sp c -> c < top sp -> legal_tick sp (c + sp).
Proof.
  intros H L C. pose proof (legal_mult sp c H L) as E. pose proof (div_range sp c H L). unfold top in C.
  assert (c / sp < MAX_TICK / sp) by nia.
  replace (c + sp) with ((c / sp + 1) * sp) by lia. apply legal_of_div; [done|lia].
Qed.
Lemma legal_prev sp c : 1 <= sp -> legal_tick sp c -> - top sp < c -> legal_tick sp (c - sp).
Proof.
  intros H L C. pose proof (legal_mult sp c H L) as E. pose proof (div_range sp c H L). unfold top in C.
  assert (- (MAX_TICK / sp) < c / sp) by nia.
  replace (c - sp) with ((c / sp - 1) * sp) by lia. apply legal_of_div; [done|lia].
Qed.
(** two legal ticks differ by at least the spacing *)
Lemma legal_gap sp a b : 1 <= sp -> legal_tick sp a -> legal_tick sp b -> a < b -> a + sp <= b.
Proof.
  intros H La Lb C. pose proof (legal_mult sp a H La). pose proof (legal_mult sp b H Lb). assert (a / sp < b / sp) by nia. nia.
Qed.
Lemma legal_le_inv sp a b : 1 <= sp -> legal_tick sp a -> legal_tick sp b -> tprice a <= tprice b -> a <= b.
Proof.
  intros H [La _] [Lb _] C. destruct (Z.le_gt_cases a b); [done|]. pose proof (tprice_lt b a ltac:(lia) ltac:(lia) ltac:(lia)). lia.
Qed.
Lemma legal_lt_inv sp a b : 1 <= sp -> legal_tick sp a -> legal_tick sp b -> tprice a < tprice b -> a < b.
Proof.
  intros H [La _] [Lb _] C. destruct (Z.le_gt_cases b a); [|lia]. pose proof (tprice_le b a ltac:(lia) ltac:(lia) ltac:(lia)). lia.
Qed.
Lemma legal_price_le sp a b : legal_tick sp a -> legal_tick sp b -> a <= b -> tprice a <= tprice b.
Proof. intros [La _] [Lb _] C. apply tprice_le; lia. Qed.
Lemma legal_price_lt sp a b : legal_tick sp a -> legal_tick sp b -> a < b -> tprice a < tprice b.
Proof. intros [La _] [Lb _] C. apply tprice_lt; lia. Qed.
Lemma legal_price_range sp a : legal_tick sp a -> MIN_SQRT_PRICE <= tprice a <= MAX_SQRT_PRICE.
Proof. intros [La _]. apply tprice_range. lia. Qed.

(** ** The current tick and the price *)
(** [rest]: the relation between calls; [weak]: inside a downward swap, where the price may sit on
    the upper end of the current tick's interval *)
Definition rest (sp c p : Z) : Prop :=
  legal_tick sp c /\ tprice c <= p <= tprice (top sp) /\ (c < top sp -> p < tprice (c + sp)).
Definition weak (sp c p : Z) : Prop :=
  legal_tick sp c /\ tprice c <= p <= tprice (top sp) /\ (c < top sp -> p <= tprice (c + sp)).

Lemma rest_weak sp c p : rest sp c p -> weak sp c p.
Proof. intros (A & B & C). split; [done|]. split; [done|]. intros X. specialize (C X). lia. Qed.
Lemma rest_unique sp c c' p : 1 <= sp -> rest sp c p -> rest sp c' p -> c = c'.
Proof.
  intros H (A & B & C) (A' & B' & C').
  destruct (Z.lt_trichotomy c c') as [X|[X|X]]; [exfalso|done|exfalso].
  - pose proof (legal_gap _ _ _ H A A' X). pose proof (legal_top _ _ H A'). specialize (C ltac:(lia)).
    pose proof (legal_price_le sp (c + sp) c' (legal_next _ _ H A ltac:(lia)) A' ltac:(lia)). lia.
  - pose proof (legal_gap _ _ _ H A' A X). pose proof (legal_top _ _ H A). specialize (C' ltac:(lia)).
    pose proof (legal_price_le sp (c' + sp) c (legal_next _ _ H A' ltac:(lia)) A ltac:(lia)). lia.
Qed.
Lemma rest_at sp c : 1 <= sp -> legal_tick sp c -> rest sp c (tprice c).
Proof.
  intros H L. pose proof (legal_top _ _ H L). split; [done|]. split.
  - pose proof (legal_price_le sp c (top sp) L (top_legal sp H) ltac:(lia)). lia.
  - intros X. apply (legal_price_lt sp); [done|by apply legal_next|lia].
Qed.
Lemma get_tick_rest sp p c : 1 <= sp -> p <= tprice (top sp) -> get_tick_at_sqrt_price p sp = Ok c ->
  - MAX_TICK <= c -> rest sp c p.
Proof.
  intros H P E C.
  pose proof (legal_price_range _ _ (top_legal sp H)) as TR.
  destruct (Z.lt_ge_cases p MIN_SQRT_PRICE) as [X|X]; [rewrite get_tick_err in E by lia; done|].
  destruct (get_tick_ok p sp ltac:(lia) H) as (i & (I1 & I2 & I3) & G). rewrite G in E. apply Ok_inj in E.
  pose proof (Z.mul_div_le i sp ltac:(lia)). pose proof (Z.mul_succ_div_gt i sp ltac:(lia)).
  assert (D : i / sp <= MAX_TICK / sp) by (apply Z.div_le_mono; lia).
  assert (L : legal_tick sp c).
  { subst c. split; [lia|]. rewrite Z.mul_comm. apply Z.mod_mul. lia. }
  split; [done|]. split.
  - pose proof (tprice_le c i ltac:(lia) ltac:(lia) ltac:(lia)). lia.
  - intros Y. pose proof (legal_next _ _ H L Y) as [L' _]. 
    destruct (Z.eq_dec i MAX_TICK) as [->|]; [lia|]. specialize (I3 ltac:(lia)).
    pose proof (tprice_le (i + 1) (c + sp) ltac:(lia) ltac:(lia) ltac:(lia)). lia.
Qed.
Lemma rest_get_tick sp p c : 1 <= sp -> rest sp c p -> get_tick_at_sqrt_price p sp = Ok c.
Proof.
  intros H R. pose proof R as (L & P & U). pose proof (legal_price_range _ _ L). pose proof (legal_price_range _ _ (top_legal sp H)).
  destruct (get_tick_ok p sp ltac:(lia) H) as (i & (I1 & I2 & I3) & G). rewrite G. f_equal.
  eapply rest_unique; [exact H| |exact R]. apply get_tick_rest; [done|lia|exact G|].
  pose proof (legal_mult sp c H L) as E. destruct L as [L _].
  assert (c <= i). { destruct (Z.le_gt_cases c i); [done|].
    pose proof (tprice_le (i + 1) c ltac:(lia) ltac:(lia) ltac:(lia)). specialize (I3 ltac:(lia)). lia. }
  assert (c / sp <= i / sp) by (apply Z.div_le_mono; lia). nia.
Qed.
Lemma get_tick_unique sp p c : 1 <= sp -> rest sp c p -> forall c', get_tick_at_sqrt_price p sp = Ok c' -> c' = c.
Proof. intros H R c' E. rewrite (rest_get_tick sp p c H R) in E. congruence. Qed.

(** monotonicity: a lower price has no higher tick *)
Lemma rest_mono sp c p c' p' : 1 <= sp -> rest sp c p -> rest sp c' p' -> p <= p' -> c <= c'.
Proof.
  intros H (A & B & C) (A' & B' & C') X. destruct (Z.le_gt_cases c c') as [|Y]; [done|exfalso].
  pose proof (legal_gap _ _ _ H A' A ltac:(lia)). pose proof (legal_top _ _ H A). specialize (C' ltac:(lia)).
  pose proof (legal_price_le sp (c' + sp) c (legal_next _ _ H A' ltac:(lia)) A ltac:(lia)). lia.
Qed.

(** ** The limit of an iteration *)
(** [target d s k sp c t init]: [t] is the next initialized tick in direction [d], or the end of the
    search window if there is none before *)
Definition target (d : bool) (s : store) (k : pool_key) (sp c t : Z) (init : bool) : Prop :=
  legal_tick sp t /\ (if init then is_init s k sp t else ~ is_init s k sp t) /\
  (if d then t <= c /\ (init = false -> t < c) /\ forall j, t < j <= c -> ~ is_init s k sp j
   else c < t /\ forall j, c < j < t -> ~ is_init s k sp j).

Lemma down_limit_legal sp c : 1 <= sp -> legal_tick sp c -> legal_tick sp (down_limit sp c) /\ down_limit sp c <= c.
Proof.
  intros H L. pose proof (div_range sp c H L). pose proof (legal_mult sp c H L). unfold down_limit.
  split; [apply legal_of_div; [done|lia]|]. nia.
Qed.
Lemma up_limit_legal sp c : 1 <= sp -> legal_tick sp c -> legal_tick sp (up_limit sp c) /\ c <= up_limit sp c.
Proof.
  intros H L. pose proof (div_range sp c H L). pose proof (legal_mult sp c H L). unfold up_limit.
  split; [apply legal_of_div; [done|lia]|]. nia.
Qed.

Lemma closer_limit s lim d c sp k sl li : chunks_u64 s -> 1 <= sp -> legal_tick sp c ->
  get_closer_limit s lim d c sp k = Ok (sl, li) ->
  exists t init, target d s k sp c t init /\
    ((li = Some (t, init) /\ sl = tprice t /\ (if d then lim < tprice t else tprice t < lim)) \/
     (li = None /\ sl = lim /\ (if d then tprice t <= lim else lim <= tprice t))).
Proof.
  intros U H L E. unfold get_closer_limit in E.
  assert (T : exists t init, target d s k sp c t init /\
    (let* price := calculate_sqrt_price t in
     if d && (lim <? price) || negb d && (price <? lim) then Ok (price, Some (t, init)) else Ok (lim, None)) = Ok (sl, li)).
  { inv_bind E as cl EC. inv_bind E as [t init] ET. exists t, init. split; [|exact E]. clear E. destruct d; cbn [negb] in *.
    - destruct (prev_initialized_spec s k sp c U H L) as (r & R1 & R2). rewrite R1 in EC. apply Ok_inj in EC. subst cl.
      destruct r as [i|]; cbn in R2.
      + apply Ok_inj in ET. simplify_eq. destruct R2 as (A & B & C).
        split; [by eapply is_init_legal|]. split; [done|]. split; [lia|]. split; [done|exact C].
      + rewrite search_limit_down in ET by (try apply L; done). destruct (Z.eqb_spec c (down_limit sp c)); [done|].
        apply Ok_inj in ET. simplify_eq. destruct (down_limit_legal sp c H L) as [D1 D2].
        split; [done|]. split; [apply R2; lia|]. split; [lia|]. split; [lia|]. intros j J. apply R2. lia.
    - pose proof L as [L1 L2]. destruct (next_initialized_spec s k sp c U H ltac:(lia) ltac:(lia) L2) as (r & R1 & R2).
      rewrite R1 in EC. apply Ok_inj in EC. subst cl. destruct r as [i|]; cbn in R2.
      + apply Ok_inj in ET. simplify_eq. destruct R2 as (A & B & C).
        split; [by eapply is_init_legal|]. split; [done|]. split; [lia|]. exact C.
      + rewrite search_limit_up in ET by (try apply L; done). destruct (Z.eqb_spec c (up_limit sp c)); [done|].
        apply Ok_inj in ET. simplify_eq. destruct (up_limit_legal sp c H L) as [D1 D2].
        split; [done|]. split; [apply R2; lia|]. split; [lia|]. intros j J. apply R2. lia. }
  destruct T as (t & init & T & E'). exists t, init. split; [exact T|].
  inv_bind E' as pr EP. apply calculate_sqrt_price_inv in EP. destruct EP as [_ ->].
  destruct d; cbn [andb orb negb] in E'.
  - rewrite orb_false_r in E'. destruct (Z.ltb_spec lim (tprice t)); apply Ok_inj in E'; simplify_eq; auto.
  - destruct (Z.ltb_spec (tprice t) lim); apply Ok_inj in E'; simplify_eq; auto.
Qed.

(** ** Enough left to move on *)
Lemma enough_true rem price liq fee by_in en : 0 <= liq -> MIN_SQRT_PRICE <= price -> 0 <= rem ->
  is_enough_amount_to_change_price rem price liq fee by_in true = Ok en ->
  (liq <> 0 -> rem = 0 -> en = false) /\
  (by_in = false -> 0 < rem -> en = true).
Proof.
  unfold is_enough_amount_to_change_price. intros HL HP HR H. destruct (Z.eqb_spec liq 0) as [->|NL].
  { apply Ok_inj in H. subst. split; [lia|done]. }
  inv_bind H as n E. apply Ok_inj in H. subst en. split.
  - intros _ ->. apply negb_false_iff, Z.eqb_eq. destruct by_in.
    + inv_bind E as c EC. inv_bind E as x EX. apply floor_pct in EX. destruct EX as [EX1 EX2].
      rewrite Z.mul_0_l in EX2. assert (x = 0) by (unfold PCT_ONE in *; lia). subst x.
      unfold get_next_sqrt_price_from_input, get_next_sqrt_price_x_up in E. cbn in E. by apply Ok_inj in E.
    + unfold get_next_sqrt_price_from_output in E. apply next_y_out in E; [|unfold MIN_SQRT_PRICE in *; lia|lia|lia].
      nia.
  - intros -> R. apply negb_true_iff, Z.eqb_neq. unfold get_next_sqrt_price_from_output in E.
    apply next_y_out in E; [|unfold MIN_SQRT_PRICE in *; lia|lia|lia]. unfold E30 in *. nia.
Qed.

(** ** One iteration *)
Record iter_pre (s : store) (k : pool_key) (d : bool) (lim : Z) (w : swap_state) : Prop := {
  ip_chunks : chunks_u64 s;
  ip_sp : 1 <= ft_spacing (pk_tier k) <= 100;
  ip_fee : 0 <= ft_fee (pk_tier k) < PCT_ONE;
  ip_liq : 0 <= p_liq (sw_pool w) <= U128MAX;
  ip_weak : weak (ft_spacing (pk_tier k)) (p_tick (sw_pool w)) (p_price (sw_pool w));
  ip_rest : d = false -> rest (ft_spacing (pk_tier k)) (p_tick (sw_pool w)) (p_price (sw_pool w));
  ip_lim : if d then lim < p_price (sw_pool w) else p_price (sw_pool w) < lim;
  ip_rem : 0 < sw_remaining w <= U128MAX
}.

Inductive iter_case (s : store) (now : Z) (k : pool_key) (d by_in : bool) (lim : Z) (w w' : swap_state)
    (t : Z) (init : bool) (sl : Z) (r : swap_result) (p0 : pool) (rm0 : Z) : Prop :=
| ic_cross tk t' p1 :
    init = true -> sr_next r = tprice t -> sl = tprice t -> st_ticks s !! (k, t) = Some tk ->
    tick_cross tk (p_set_price p0 (sr_next r)) now = Ok (t', p1) ->
    (d = true -> 0 < rm0) ->
    w' = mkSwapState (p_set_tick p1 (if d then t_index tk - ft_spacing (pk_tier k) else t_index tk)) rm0
           (sw_in w + (sr_in r + sr_fee r)) (sw_out w + sr_out r) (sw_fee w + sr_fee r) (sw_ticks w ++ [t']) ->
    iter_case s now k d by_in lim w w' t init sl r p0 rm0
| ic_skip (en : bool) :
    init = false -> sr_next r = tprice t -> sl = tprice t -> (d = true -> en = true -> 0 < rm0) ->
    w' = mkSwapState (p_set_tick (p_set_price p0 (sr_next r)) (if d && en then t - ft_spacing (pk_tier k) else t)) rm0
           (sw_in w + (sr_in r + sr_fee r)) (sw_out w + sr_out r) (sw_fee w + sr_fee r) (sw_ticks w) ->
    iter_case s now k d by_in lim w w' t init sl r p0 rm0
| ic_dust tk p2 :
    d = true -> init = true -> sr_next r = tprice t -> sl = tprice t -> st_ticks s !! (k, t) = Some tk ->
    (rm0 = 0 /\ p2 = p_set_price p0 (sr_next r) \/
     by_in = true /\ 0 < rm0 /\ add_fee (p_set_price p0 (sr_next r)) rm0 d (cf_protocol_fee (st_config s)) = Ok p2) ->
    w' = mkSwapState (p_set_tick p2 (t_index tk)) 0
           (sw_in w + (sr_in r + sr_fee r) + rm0) (sw_out w + sr_out r) (sw_fee w + sr_fee r) (sw_ticks w) ->
    iter_case s now k d by_in lim w w' t init sl r p0 rm0
| ic_inside c' :
    (sr_next r <> sl \/ sl = lim /\ sr_next r = lim /\ rm0 = 0) ->
    get_tick_at_sqrt_price (sr_next r) (ft_spacing (pk_tier k)) = Ok c' ->
    w' = mkSwapState (p_set_tick (p_set_price p0 (sr_next r)) c') rm0
           (sw_in w + (sr_in r + sr_fee r)) (sw_out w + sr_out r) (sw_fee w + sr_fee r) (sw_ticks w) ->
    iter_case s now k d by_in lim w w' t init sl r p0 rm0.

Lemma add_fee_inv p a d f p' : add_fee p a d f = Ok p' ->
  exists prot pf, big_mul_up PCT_ONE a f = Ok prot /\ pf = a - prot /\ 0 <= pf /\
    (p' = p /\ (pf = 0 /\ prot = 0 \/ p_liq p = 0) \/
     exists g, p_liq p <> 0 /\ from_fee (p_liq p) pf = Ok g /\
       (if d then p_protx p + prot <= U128MAX /\ p' = p_set_feesx p (wadd (p_fgx p) g) (p_protx p + prot)
        else p_proty p + prot <= U128MAX /\ p' = p_set_feesy p (wadd (p_fgy p) g) (p_proty p + prot))).
Proof.
  unfold add_fee. intros H. inv_bind H as prot E1. inv_bind H as pf E2. apply ckp_ok in E2. destruct E2 as [-> E2].
  exists prot, (a - prot). split; [done|]. split; [done|]. split; [lia|].
  destruct (_ || _) eqn:B.
  - apply Ok_inj in H. left. split; [done|]. apply orb_true_iff in B. rewrite andb_true_iff, !Z.eqb_eq in B. tauto.
  - right. apply orb_false_iff in B. destruct B as [_ B]. apply Z.eqb_neq in B. inv_bind H as g EG. exists g.
    split; [done|]. split; [done|]. destruct d; inv_bind H as pr EP; apply ckp_ok in EP; destruct EP as [-> EP];
      apply Ok_inj in H; auto with lia.
Qed.
Lemma add_fee_keeps p a d f p' : add_fee p a d f = Ok p' ->
  p_liq p' = p_liq p /\ p_tick p' = p_tick p /\ p_price p' = p_price p /\ p_start p' = p_start p /\ p_last p' = p_last p.
Proof.
  intros H. apply add_fee_inv in H. destruct H as (prot & pf & _ & _ & _ & [[-> _]|(g & _ & _ & H)]); [done|].
  destruct d; destruct H as [_ ->]; done.
Qed.

(** what a step charges on top of its own amounts: a rest that would not move the price *)
Lemma update_tick_add p r sl tk rm by_in d now f ft p1 tk' add rm1 c :
  pool_update_tick p r sl tk rm by_in d now f ft = Ok (p1, tk', add, rm1, c) ->
  add = 0 \/ d = true /\ by_in = true /\ add = rm /\ is_enough_amount_to_change_price rm (sr_next r) (p_liq p) (ft_fee ft) by_in d = Ok false.
Proof.
  intros H. unfold pool_update_tick in H. destruct (_ || _).
  { inv_bind H as c' EC. apply Ok_inj in H. injection H as _ _ <- _ _. by left. }
  inv_bind H as en EN. inv_bind H as [[[[[q tk1] tot] rm2] cr] ix] E2. apply Ok_inj in H. injection H as _ _ <- _ _.
  destruct tk as [| |]; try done; try (apply Ok_inj in E2; injection E2 as _ _ <- _ _ _; by left).
  destruct d; cbn [negb orb] in E2.
  - destruct en.
    + inv_bind E2 as [t' p'] EC. apply Ok_inj in E2. injection E2 as _ _ <- _ _ _. by left.
    + destruct (rm =? 0); cbn [negb] in E2; [apply Ok_inj in E2; injection E2 as _ _ <- _ _ _; by left|].
      destruct by_in; [|apply Ok_inj in E2; injection E2 as _ _ <- _ _ _; by left].
      inv_bind E2 as p' EA. apply Ok_inj in E2. injection E2 as _ _ <- _ _ _. right. done.
  - inv_bind E2 as [t' p'] EC. apply Ok_inj in E2. injection E2 as _ _ <- _ _ _. by left.
Qed.

Lemma iter_cases s now k d by_in lim tl w w' :
  swap_iter s now k d by_in lim tl w = Ok w' -> iter_pre s k d lim w ->
  let sp := ft_spacing (pk_tier k) in
  exists t init sl r p0 rm0,
    target d s k sp (p_tick (sw_pool w)) t init /\
    (sl = if d then Z.max (tprice t) lim else Z.min (tprice t) lim) /\
    step_args (p_price (sw_pool w)) sl (p_liq (sw_pool w)) (sw_remaining w) (ft_fee (pk_tier k)) /\
    compute_swap_step (p_price (sw_pool w)) sl (p_liq (sw_pool w)) (sw_remaining w) by_in (ft_fee (pk_tier k)) = Ok r /\
    (if d then sl <= p_price (sw_pool w) else p_price (sw_pool w) < sl) /\
    rm0 = sw_remaining w - (if by_in then sr_in r + sr_fee r else sr_out r) /\ 0 <= rm0 /\
    add_fee (sw_pool w) (sr_fee r) d (cf_protocol_fee (st_config s)) = Ok p0 /\
    ~ (sr_next r = lim /\ rm0 <> 0) /\
    iter_case s now k d by_in lim w w' t init sl r p0 rm0 /\
    (if d then tl < p_tick (sw_pool w') else p_tick (sw_pool w') < tl) /\
    sw_in w' <= U128MAX /\ sw_out w' <= U128MAX /\
    (sw_in w' = sw_in w + (sr_in r + sr_fee r) \/
     d = true /\ by_in = true /\ sw_in w' = sw_in w + (sr_in r + sr_fee r) + rm0 /\
     is_enough_amount_to_change_price rm0 (sr_next r) (p_liq (sw_pool w)) (ft_fee (pk_tier k)) by_in d = Ok false).
Proof.
  intros H PRE sp. destruct PRE as [U HS HF HL HW HR HLim HRem].
  apply swap_iter_inv in H. destruct H as (sl & li & r & p0 & tk & p1 & tk' & add & rm0 & rm1 & c & H).
  destruct H as (CL & ST & E0 & R0 & AF & NL & LT & UT & -> & TL & BI & BO).
  fold sp in CL, UT, HS, HW, HR. pose proof HW as (WL & WP & WU).
  apply closer_limit in CL; [|done|lia|done]. destruct CL as (t & init & T & CL).
  exists t, init, sl, r, p0, rm0. split; [exact T|].
  assert (SL : sl = if d then Z.max (tprice t) lim else Z.min (tprice t) lim).
  { destruct CL as [(_ & -> & X)|(_ & -> & X)]; destruct d; lia. }
  assert (SIDE : if d then sl <= p_price (sw_pool w) else p_price (sw_pool w) < sl).
  { subst sl. destruct T as (TL1 & _ & T). destruct d.
    - pose proof (legal_price_le _ _ _ TL1 WL ltac:(lia)). lia.
    - destruct (HR eq_refl) as (_ & _ & R3). assert (S1 : 1 <= sp) by lia. pose proof (legal_top _ _ S1 TL1).
      pose proof (legal_gap _ _ _ S1 WL TL1 ltac:(lia)). specialize (R3 ltac:(lia)).
      pose proof (legal_price_le _ _ _ (legal_next _ _ S1 WL ltac:(lia)) TL1 ltac:(lia)). lia. }
  pose proof (legal_price_range _ _ (proj1 T)) as TR. pose proof (legal_price_range _ _ WL) as CR.
  pose proof (legal_price_range _ _ (top_legal sp ltac:(lia))) as XR.
  assert (SA : step_args (p_price (sw_pool w)) sl (p_liq (sw_pool w)) (sw_remaining w) (ft_fee (pk_tier k))).
  { unfold step_args. change (2 ^ 128) with (U128MAX + 1). change 15258932000000000000 with MIN_SQRT_PRICE.
    change 65535383934512647000000000000 with MAX_SQRT_PRICE. change 1000000000000 with PCT_ONE.
    repeat split; try lia; subst sl; destruct d; lia. }
  split; [exact SL|]. split; [exact SA|]. split; [exact ST|]. split; [exact SIDE|]. split; [exact E0|]. split; [done|].
  split; [exact AF|]. split; [exact NL|]. cbn [sw_pool sw_in sw_out].
  pose proof (add_fee_keeps _ _ _ _ _ AF) as (K1 & K2 & K3 & _).
  split; [|split; [exact TL|split; [exact BI|split; [exact BO|]]]]; cycle 1.
  { destruct (update_tick_add _ _ _ _ _ _ _ _ _ _ _ _ _ _ _ UT) as [->|(-> & -> & -> & EN)]; [left; lia|right]. cbn [p_liq p_set_price] in EN. rewrite K1 in EN. split; [done|]. split; [done|]. split; [lia|exact EN]. }
  unfold pool_update_tick in UT. fold sp in UT.
  destruct ((match tk with NoTick => true | _ => false end) || negb (sl =? sr_next r)) eqn:B.
  - inv_bind UT as c' EC. apply Ok_inj in UT. injection UT as <- <- <- <- <-.
    eapply (ic_inside _ _ _ _ _ _ _ _ _ _ _ _ _ _ c').
    + destruct (Z.eq_dec (sr_next r) sl) as [Q|Q]; [|by left]. right.
      rewrite Q, Z.eqb_refl in B. cbn in B. rewrite orb_false_r in B. destruct tk; try done.
      destruct CL as [(-> & _)|(-> & -> & _)]; [cbn in LT; destruct init; [destruct LT as (? & _ & ?)|]; done|].
      split; [done|]. split; [done|]. destruct (Z.eq_dec rm0 0); [done|]. exfalso. apply NL. done.
    + exact EC.
    + f_equal; [lia|]. by destruct tk.
  - apply orb_false_iff in B. destruct B as [B1 B2]. apply negb_false_iff, Z.eqb_eq in B2.
    assert (LI : li = Some (t, init) /\ sl = tprice t).
    { destruct CL as [(-> & -> & _)|(-> & _)]; [done|]. cbn in LT. subst tk. done. }
    destruct LI as [-> ST']. inv_bind UT as en EN. inv_bind UT as [[[[[q tk1] tot] rm] cr] ix] E2.
    apply Ok_inj in UT. injection UT as <- <- <- <- <-.
    destruct init; cbn in LT.
    + destruct LT as (t0 & LT & ->). destruct d; cbn [negb orb andb] in *.
      * destruct en.
        -- inv_bind E2 as [t' p'] EC. apply (proj1 (unwrap_ok _ _)) in EC. apply Ok_inj in E2. injection E2 as <- <- <- <- <- <-.
           eapply (ic_cross _ _ _ _ _ _ _ _ _ _ _ _ _ _ t0 t' p'); try done; try congruence.
           ++ intros _. destruct (Z.eq_dec rm0 0) as [Z0|]; [exfalso|lia].
              apply enough_true in EN; [|cbn; rewrite K1; lia|rewrite <- B2, ST'; lia|lia].
              destruct EN as [EN _]. cbn in EN. rewrite K1 in EN. destruct (Z.eq_dec (p_liq (sw_pool w)) 0) as [L0|L0].
              ** unfold compute_swap_step in ST. rewrite L0 in ST. cbn in ST. apply Ok_inj in ST. subst r. cbn in E0. destruct by_in; lia.
              ** specialize (EN L0 Z0). done.
           ++ f_equal. lia.
        -- eapply (ic_dust _ _ _ _ _ _ _ _ _ _ _ _ _ _ t0 q); try done; try congruence.
           ++ destruct (Z.eqb_spec rm0 0) as [Z0|Z0]; cbn [negb] in E2.
              ** apply Ok_inj in E2. injection E2 as <- _ _ _ _ _. by left.
              ** destruct by_in.
                 --- inv_bind E2 as p' EA. apply Ok_inj in E2. injection E2 as <- _ _ _ _ _. right. split; [done|]. split; [lia|exact EA].
                 --- exfalso. apply enough_true in EN; [|cbn; rewrite K1; lia|rewrite <- B2, ST'; lia|lia].
                     destruct EN as [_ EN]. specialize (EN eq_refl ltac:(lia)). done.
           ++ destruct (Z.eqb_spec rm0 0) as [Z0|Z0]; cbn [negb] in E2.
              ** apply Ok_inj in E2. injection E2 as <- <- <- <- <- <-. f_equal; lia.
              ** destruct by_in; [inv_bind E2 as p' EA|]; apply Ok_inj in E2; injection E2 as <- <- <- <- <- <-; f_equal; try lia.
                 exfalso. apply enough_true in EN; [|cbn; rewrite K1; lia|rewrite <- B2, ST'; lia|lia].
                 destruct EN as [_ EN]. specialize (EN eq_refl ltac:(lia)). done.
      * inv_bind E2 as [t' p'] EC. apply (proj1 (unwrap_ok _ _)) in EC. apply Ok_inj in E2. injection E2 as <- <- <- <- <- <-.
        eapply (ic_cross _ _ _ _ _ _ _ _ _ _ _ _ _ _ t0 t' p'); try done; try congruence. f_equal. lia.
    + subst tk. apply Ok_inj in E2. injection E2 as <- <- <- <- <- <-.
      eapply (ic_skip _ _ _ _ _ _ _ _ _ _ _ _ _ _ en); try done; try congruence.
      * intros -> ->. destruct (Z.eq_dec rm0 0) as [Z0|]; [exfalso|lia].
        apply enough_true in EN; [|cbn; rewrite K1; lia|rewrite <- B2, ST'; lia|lia].
        destruct EN as [EN _]. cbn in EN. rewrite K1 in EN. destruct (Z.eq_dec (p_liq (sw_pool w)) 0) as [L0|L0].
        -- unfold compute_swap_step in ST. rewrite L0 in ST. cbn in ST. apply Ok_inj in ST. subst r. cbn in E0. destruct by_in; lia.
        -- specialize (EN L0 Z0). done.
      * f_equal. lia.
Qed.

(** ** The new current tick *)
Definition net (t : tick) : Z := if t_sign t then t_change t else - t_change t.

Lemma tick_cross_inv t p now t' p' : tick_cross t p now = Ok (t', p') ->
  p_start p <= now /\ same_liq t t' /\
  t_fox t' = wsub (p_fgx p) (t_fox t) /\ t_foy t' = wsub (p_fgy p) (t_foy t) /\
  (exists l, p' = p_set_liq (p_set_last p now) l /\ 0 <= l <= U128MAX /\
     l = if t_index t <=? p_tick p then p_liq p - net t else p_liq p + net t).
Proof.
  unfold tick_cross, net. intros H. inv_bind H as pa EP. apply ck_ok in EP. destruct EP as [-> EP].
  inv_bind H as l EL. apply Ok_inj in H. injection H as <- <-. cbn.
  split; [lia|]. split; [done|]. split; [done|]. split; [done|]. exists l. split; [done|].
  destruct (t_index t <=? p_tick p), (t_sign t); cbn [xorb] in EL; ckinv; lia.
Qed.

Lemma get_min_top sp : 1 <= sp -> get_min_tick sp = - top sp.
Proof.
  intros H. unfold get_min_tick, top. change MIN_TICK with (- MAX_TICK). rewrite Z.quot_opp_l, quot_max by lia. lia.
Qed.
Lemma get_max_top sp : 1 <= sp -> get_max_tick sp = top sp.
Proof. intros H. unfold get_max_tick, top. by rewrite quot_max. Qed.

Global Instance is_init_dec s k sp j : Decision (is_init s k sp j).
Proof.
  unfold is_init. destruct (get_bitmap s j sp k) as [[]|?|]; [by left| | |]; right; done.
Defined.
Lemma range_dec (P : Z -> Prop) `{!forall j, Decision (P j)} a b :
  (exists j, a < j <= b /\ P j) \/ (forall j, a < j <= b -> ~ P j).
Proof.
  destruct (Z.le_gt_cases b a) as [X|X]; [right; lia|].
  assert (G : forall n : nat, (exists j, a < j <= a + Z.of_nat n /\ P j) \/ (forall j, a < j <= a + Z.of_nat n -> ~ P j)).
  { induction n as [|n IH]; [right; lia|]. destruct IH as [(j & J1 & J2)|IH]; [left; exists j; split; [lia|done]|].
    destruct (decide (P (a + Z.of_nat (S n)))) as [Y|Y]; [left; eexists; split; [|exact Y]; lia|].
    right. intros j J. destruct (Z.eq_dec j (a + Z.of_nat (S n))) as [->|]; [done|]. apply IH. lia. }
  specialize (G (Z.to_nat (b - a))). rewrite Z2Nat.id in G by lia. replace (a + (b - a)) with b in G by lia. exact G.
Qed.

(** no initialized tick lies between the two current ticks *)
Definition exact (s : store) (k : pool_key) (sp c c' : Z) : Prop :=
  forall j, is_init s k sp j -> (j <= c <-> j <= c').
Definition skipped (s : store) (k : pool_key) (sp c c' : Z) : Prop :=
  exists j, is_init s k sp j /\ (c < j <= c' \/ c' < j <= c).
Lemma exact_or_skipped s k sp c c' : exact s k sp c c' \/ skipped s k sp c c'.
Proof.
  unfold exact, skipped. destruct (range_dec (is_init s k sp) c c') as [(j & J1 & J2)|N1]; [eauto|].
  destruct (range_dec (is_init s k sp) c' c) as [(j & J1 & J2)|N2]; [eauto|].
  left. intros j J. split; intros X.
  - destruct (Z.le_gt_cases j c'); [done|]. exfalso. apply (N2 j); [lia|done].
  - destruct (Z.le_gt_cases j c); [done|]. exfalso. apply (N1 j); [lia|done].
Qed.

Lemma exact_intro s k sp c c' : 1 <= sp ->
  (forall j, legal_tick sp j -> is_init s k sp j -> (c < j <= c' \/ c' < j <= c) -> False) -> exact s k sp c c'.
Proof.
  intros S1 H. destruct (exact_or_skipped s k sp c c') as [|(j & J & X)]; [done|]. exfalso.
  apply (H j); [by eapply is_init_legal|done|done].
Qed.

Record iter_post (s : store) (k : pool_key) (d : bool) (lim : Z) (w w' : swap_state) : Prop := {
  io_weak : weak (ft_spacing (pk_tier k)) (p_tick (sw_pool w')) (p_price (sw_pool w'));
  io_rest : d = false \/ sw_remaining w' = 0 -> rest (ft_spacing (pk_tier k)) (p_tick (sw_pool w')) (p_price (sw_pool w'));
  io_lim : sw_remaining w' <> 0 -> if d then lim < p_price (sw_pool w') else p_price (sw_pool w') < lim;
  io_dir : if d then p_price (sw_pool w') <= p_price (sw_pool w) else p_price (sw_pool w) <= p_price (sw_pool w');
  io_liq : 0 <= p_liq (sw_pool w') <= U128MAX;
  io_rem : 0 <= sw_remaining w' <= sw_remaining w;
  io_move :
    let sp := ft_spacing (pk_tier k) in
    let c := p_tick (sw_pool w) in let c' := p_tick (sw_pool w') in
    (sw_ticks w' = sw_ticks w /\ p_liq (sw_pool w') = p_liq (sw_pool w) /\
       (exact s k sp c c' \/ sw_remaining w' = 0 /\ skipped s k sp c c')) \/
    (exists t tk t', is_init s k sp t /\ st_ticks s !! (k, t) = Some tk /\ same_liq tk t' /\
       sw_ticks w' = sw_ticks w ++ [t'] /\
       if d then c' = t - sp /\ t <= c /\ (forall j, t < j <= c -> ~ is_init s k sp j) /\
                 p_liq (sw_pool w') = p_liq (sw_pool w) - net tk
       else c' = t /\ c < t /\ (forall j, c < j < t -> ~ is_init s k sp j) /\
            p_liq (sw_pool w') = p_liq (sw_pool w) + net tk)
}.

Lemma partial_consumes p sl L a by_in fee r : step_args p sl L a fee -> sl <= p ->
  compute_swap_step p sl L a by_in fee = Ok r -> sr_next r <> sl ->
  (if by_in then sr_in r + sr_fee r else sr_out r) = a.
Proof.
  intros SA D ST N. pose proof (C03_step_bounds_partial _ _ _ _ _ _ _ SA ST) as B.
  destruct (Z.eq_dec L 0) as [->|NL].
  { exfalso. unfold compute_swap_step in ST. cbn in ST. apply Ok_inj in ST. subst r. done. }
  destruct B as (_ & _ & _ & _ & _ & _ & _ & _ & B1 & _ & _ & _ & B2). destruct by_in; [by apply B1|by apply B2].
Qed.

Lemma iter_geo s now k d by_in lim w w' :
  let sp := ft_spacing (pk_tier k) in
  ticks_indexed s -> iter_pre s k d lim w ->
  swap_iter s now k d by_in lim (if d then get_min_tick sp else get_max_tick sp) w = Ok w' ->
  iter_post s k d lim w w'.
Proof.
  intros sp IX PRE H. pose proof PRE as [U HS HF HL HW HR HLim HRem].
  apply iter_cases in H; [|done].
  destruct H as (t & init & sl & r & p0 & rm0 & T & SL & SA & ST & SIDE & E0 & R0 & AF & NL & IC & TL & _).
  fold sp in T, IC, HS, HW, HR.
  assert (S1 : 1 <= sp) by lia. rewrite (get_min_top sp S1), (get_max_top sp S1) in TL.
  pose proof HW as (WL & WP & WU). pose proof T as (LT & TI & TD).
  pose proof (add_fee_keeps _ _ _ _ _ AF) as (K1 & K2 & K3 & _).
  pose proof (C03_step_bounds_partial _ _ _ _ _ _ _ SA ST) as B.
  destruct B as (B1 & B2 & B3 & _ & _ & B6 & B7 & B8 & _).
  assert (DIR : if d then sr_next r <= p_price (sw_pool w) else p_price (sw_pool w) <= sr_next r <= sl).
  { destruct d; [apply B1; lia|]. destruct B2; lia. }
  pose proof (legal_top _ _ S1 LT) as TT. pose proof (legal_price_le _ _ _ LT (top_legal sp S1) ltac:(lia)) as TP.
  assert (RM : 0 <= rm0 <= sw_remaining w) by (destruct by_in; lia).
  assert (NXT : sr_next r <= tprice (top sp)) by (destruct d; lia).
  destruct IC as [tk t' p1 -> EN ES ET EC PR ->|en -> EN ES PR ->|tk p2 -> -> EN ES ET PR ->|c' PR EC ->];
    cbn [sw_pool sw_remaining sw_ticks p_tick p_set_tick p_price p_liq] in *.
  - (* crossing *)
    apply IX in ET as IT. rewrite IT in *. apply tick_cross_inv in EC.
    destruct EC as (_ & SQ & _ & _ & l & -> & LR & LE). cbn in *. rewrite IT, K2, K1 in LE.
    assert (LV : l = if d then p_liq (sw_pool w) - net tk else p_liq (sw_pool w) + net tk).
    { rewrite LE. destruct d; [rewrite (proj2 (Z.leb_le _ _)) by lia; done|rewrite (proj2 (Z.leb_gt _ _)) by lia; done]. }
    assert (LC : legal_tick sp (if d then t - sp else t)).
    { destruct d; [|done]. apply legal_prev; [done|done|]. lia. }
    constructor; cbn; fold sp.
    + rewrite EN. destruct d; [|by apply rest_weak, rest_at].
      split; [done|]. pose proof (legal_price_le _ _ _ LC LT ltac:(lia)). split; [lia|]. intros _. by replace (t - sp + sp) with t by lia.
    + intros [->| ->]; [|destruct d; [specialize (PR eq_refl); lia|]]; rewrite EN; by apply rest_at.
    + intros N. assert (sr_next r <> lim) by (intros Q; apply NL; done). destruct d; lia.
    + destruct d; lia.
    + lia.
    + lia.
    + right. exists t, tk, t'. split; [done|]. split; [done|]. split; [done|]. split; [done|]. rewrite LV. destruct d; intuition lia.
  - (* passing an uninitialized limit *)
    assert (LC : legal_tick sp (if d && en then t - sp else t)).
    { destruct d; [|done]. destruct en; [|done]. cbn in *. apply legal_prev; [done|done|]. lia. }
    constructor; cbn; fold sp.
    + rewrite EN. destruct d; [destruct en|]; cbn [andb] in *; try by apply rest_weak, rest_at.
      split; [done|]. pose proof (legal_price_le _ _ _ LC LT ltac:(lia)). split; [lia|]. intros _. by replace (t - sp + sp) with t by lia.
    + rewrite EN. intros [->| ->]; [by apply rest_at|]. destruct d; [|by apply rest_at]. destruct en; [specialize (PR eq_refl eq_refl); lia|by apply rest_at].
    + intros N. assert (sr_next r <> lim) by (intros Q; apply NL; done). destruct d; lia.
    + destruct d; lia.
    + rewrite K1. lia.
    + lia.
    + left. split; [done|]. split; [done|]. left. apply exact_intro; [done|]. intros j JL J X.
      assert (JN : j <> t) by (intros ->; done).
      destruct d; cbn [andb] in *.
      * destruct TD as (TD1 & TD2 & TD3). destruct (Z.lt_trichotomy j t) as [Y|[Y|Y]]; [|done|apply (TD3 j); [destruct en; lia|done]].
        pose proof (legal_gap _ _ _ S1 JL LT Y). destruct en; lia.
      * destruct TD as (TD1 & TD2). apply (TD2 j); [lia|done].
  - (* the rest is too small to go on *)
    apply IX in ET as IT. rewrite IT in *.
    assert (P2 : p_price p2 = sr_next r /\ p_liq p2 = p_liq (sw_pool w)).
    { destruct PR as [[_ ->]|(_ & _ & A2)]; [done|]. apply add_fee_keeps in A2. cbn in A2. destruct A2 as (-> & _ & -> & _). by rewrite K1. }
    destruct P2 as [P2 P3].
    constructor; cbn; fold sp; rewrite ?P2, ?P3.
    + rewrite EN. by apply rest_weak, rest_at.
    + intros _. rewrite EN. by apply rest_at.
    + done.
    + lia.
    + lia.
    + lia.
    + left. split; [done|]. split; [done|]. left. apply exact_intro; [done|]. intros j JL J X.
      destruct TD as (TD1 & TD2 & TD3). apply (TD3 j); [lia|done].
  - (* inside *)
    fold sp in EC.
    assert (RS : rest sp c' (sr_next r)).
    { destruct d.
      - apply get_tick_rest; [done|done|done|]. pose proof (top_legal sp S1) as [? _]. lia.
      - destruct (HR eq_refl) as (R1 & R2 & R3). destruct (get_tick_ok (sr_next r) sp) as (i & I & G); [|done|].
        { pose proof (legal_price_range _ _ WL). pose proof (legal_price_range _ _ (top_legal sp S1)). lia. }
        apply get_tick_rest; [done|done|done|]. rewrite EC in G. apply Ok_inj in G. subst c'.
        destruct I as (I1 & I2 & I3). pose proof (legal_mult _ _ S1 WL) as ML.
        assert (p_tick (sw_pool w) <= i).
        { destruct (Z.le_gt_cases (p_tick (sw_pool w)) i); [done|]. destruct WL as [WL _].
          pose proof (tprice_le (i + 1) (p_tick (sw_pool w)) ltac:(lia) ltac:(lia) ltac:(lia)). specialize (I3 ltac:(lia)). lia. }
        assert (p_tick (sw_pool w) / sp <= i / sp) by (apply Z.div_le_mono; lia). destruct WL as [WL _].
        assert (sp * (p_tick (sw_pool w) / sp) <= sp * (i / sp)) by (apply Z.mul_le_mono_nonneg_l; lia). lia. }
    assert (RM0 : d = true -> rm0 = 0).
    { intros ->. destruct PR as [PR|(_ & _ & PR)]; [|done]. pose proof (partial_consumes _ _ _ _ _ _ _ SA ltac:(lia) ST PR). lia. }
    constructor; cbn; fold sp.
    + by apply rest_weak.
    + done.
    + intros N. destruct d; [by rewrite RM0 in N|]. assert (sr_next r <> lim) by (intros Q; apply NL; done). lia.
    + destruct d; lia.
    + lia.
    + lia.
    + left. split; [done|]. split; [done|]. destruct d.
      * destruct (exact_or_skipped s k sp (p_tick (sw_pool w)) c'); [by left|]. right. split; [by apply RM0|done].
      * destruct PR as [PR|(PR0 & PR1 & PR2)].
        -- left. apply exact_intro; [done|]. intros j JL J X. pose proof (rest_mono _ _ _ _ _ S1 (HR eq_refl) RS ltac:(lia)) as M.
           destruct TD as (TD1 & TD2). apply (TD2 j); [|done]. split; [lia|].
           destruct RS as (RS1 & RS2 & RS3). assert (tprice c' < tprice t) by lia. apply (legal_lt_inv sp) in H; [lia|done|done|done].
        -- destruct (exact_or_skipped s k sp (p_tick (sw_pool w)) c'); [by left|]. right. done.
Qed.
