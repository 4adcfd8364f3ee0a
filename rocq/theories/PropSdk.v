(** C45: the SDK's swap simulation against the contract. *)
From Verif Require Import Base Decimal SqrtPrice Clamm Log FeeGrowth Types Tick Pool Position Tickmap State Swap Exec Query Tactics
  PriceProofs LogProofs ClammProofs PropClamm BitmapProofs Frame Handlers History Basic Ledger Scenario Vectors SwapInv SwapGeo SwapLoop Modify PSum LiqInv Geo Clean PropLiq PropTrade
  PropSwap PropQuery Flow PropSolv Forward PropFunds PropProt PropBlock Sdk.
From stdpp Require Import gmap strings.
From Coq Require Import Lia.
Open Scope Z_scope.

(** ** What the SDK is given *)
(** A tickmap with the contract's chunks (a missing chunk is empty on both sides), and a list of
    ticks in which every tick of the pool can be looked up. *)
Definition same_bitmap (s : store) (k : pool_key) (m : tickmap) : Prop :=
  forall c, map_chunk m c = bitmap_chunk s k c.
Definition has_ticks (s : store) (k : pool_key) (l : list liquidity_tick) : Prop :=
  forall i t, st_ticks s !! (k, i) = Some t -> List.find (fun u => lt_index u =? i) l = Some (to_liquidity_tick t).

Lemma next_loop_same s k m : same_bitmap s k m -> forall n sp c b lc lb, sdk_next_loop n m sp c b lc lb = next_loop n s k sp c b lc lb.
Proof. intros V. induction n as [|n IH]; intros; cbn [sdk_next_loop next_loop sdk_prev_loop prev_loop]; [reflexivity|]. rewrite IH, !V. reflexivity. Qed.
Lemma prev_loop_same s k m : same_bitmap s k m -> forall n sp c b lc lb, sdk_prev_loop n m sp c b lc lb = prev_loop n s k sp c b lc lb.
Proof. intros V. induction n as [|n IH]; intros; cbn [sdk_next_loop next_loop sdk_prev_loop prev_loop]; [reflexivity|]. rewrite IH, !V. reflexivity. Qed.
Lemma next_same s k m t sp : same_bitmap s k m -> sdk_next_initialized m t sp = next_initialized s t sp k.
Proof.
  intros V. unfold sdk_next_initialized, next_initialized. destruct (sp =? 0); [reflexivity|]. destruct (MAX_TICK <? t + sp); [reflexivity|].
  destruct (tick_to_position (t + sp) sp) as [[c b]| |]; cbn [bind]; [|reflexivity..].
  destruct (tick_to_position (get_search_limit t sp true) sp) as [[lc lb]| |]; cbn [bind]; [|reflexivity..].
  rewrite (next_loop_same s k m V). reflexivity.
Qed.
Lemma prev_same s k m t sp : same_bitmap s k m -> sdk_prev_initialized m t sp = prev_initialized s t sp k.
Proof.
  intros V. unfold sdk_prev_initialized, prev_initialized. destruct (sp =? 0); [reflexivity|].
  destruct (tick_to_position t sp) as [[c b]| |]; cbn [bind]; [|reflexivity..].
  destruct (tick_to_position (get_search_limit t sp false) sp) as [[lc lb]| |]; cbn [bind]; [|reflexivity..].
  rewrite (prev_loop_same s k m V). reflexivity.
Qed.

Lemma closer_same s k m limit d cur sp x : same_bitmap s k m ->
  (sdk_closer_limit m limit d cur sp = Ok x <-> get_closer_limit s limit d cur sp k = Ok x).
Proof.
  intros V. unfold sdk_closer_limit, get_closer_limit.
  assert (E : (if d then sdk_prev_initialized m cur sp else sdk_next_initialized m cur sp) = (if d then prev_initialized s cur sp k else next_initialized s cur sp k))
    by (destruct d; [apply prev_same|apply next_same]; exact V).
  rewrite E. destruct (if d then prev_initialized s cur sp k else next_initialized s cur sp k) as [[i|]| |]; cbn [bind]; [| |split; discriminate..].
  - destruct (calculate_sqrt_price i) as [pr| |]; cbn [unwrap bind]; [reflexivity|split; discriminate..].
  - destruct (cur =? get_search_limit cur sp (negb d)); cbn [bind]; destruct (calculate_sqrt_price (get_search_limit cur sp (negb d))) as [pr| |]; cbn [unwrap bind]; first [reflexivity|split; discriminate].
Qed.

(** ** Matching loop states *)
Definition agrees (w : swap_state) (v : sim_state) : Prop :=
  p_price (sm_pool v) = p_price (sw_pool w) /\ p_tick (sm_pool v) = p_tick (sw_pool w) /\ p_liq (sm_pool v) = p_liq (sw_pool w) /\
  sm_remaining v = sw_remaining w /\ sm_in v = sw_in w /\ sm_out v = sw_out w /\ sm_fee v = sw_fee w /\
  sm_crossed v = List.map to_liquidity_tick (sw_ticks w).

Lemma unwrap_ok {A} (m : res A) a : unwrap m = Ok a <-> m = Ok a.
Proof. destruct m; cbn; split; congruence. Qed.

Lemma sub_e_p e a b r : sub_e e a b = Ok r <-> sub_p a b = Ok r.
Proof. unfold sub_e, sub_p, ck, ckp. destruct (in_range 0 U128MAX (a - b)); split; congruence. Qed.

Lemma add_fee_view p a d f p' : add_fee p a d f = Ok p' -> p_price p' = p_price p /\ p_tick p' = p_tick p /\ p_liq p' = p_liq p /\ p_start p' = p_start p.
Proof.
  unfold add_fee. intros H. inv_bind H as a1 E1. inv_bind H as a2 E2. destruct (_ || _); [apply Ok_inj in H as <-; repeat split|].
  inv_bind H as g E3. destruct d; inv_bind H as q E4; apply Ok_inj in H as <-; repeat split.
Qed.

Lemma cross_same t p now t' p' q : tick_cross t p now = Ok (t', p') -> p_tick q = p_tick p -> p_liq q = p_liq p ->
  exists q', sdk_cross (to_liquidity_tick t) q = Ok q' /\ p_liq q' = p_liq p' /\ p_tick q' = p_tick q /\ p_price q' = p_price q /\
    p_tick p' = p_tick p /\ p_price p' = p_price p /\ to_liquidity_tick t' = to_liquidity_tick t.
Proof.
  unfold tick_cross, sdk_cross. intros H T L. inv_bind H as ps E1. inv_bind H as l E2. apply Ok_inj in H. injection H as <- <-.
  cbn [to_liquidity_tick lt_index lt_sign lt_change]. change (p_liq (p_set_last p now)) with (p_liq p) in E2. change (p_tick (p_set_last p now)) with (p_tick p) in E2.
  rewrite T, L, E2. cbn [bind]. eexists. split; [reflexivity|]. repeat split. exact T.
Qed.

(** the tick the SDK looks up for the tick the contract uses *)
Definition tick_agrees (a : update_pool_tick) (b : sdk_tick) : Prop :=
  match a, b with
  | NoTick, SNoTick => True
  | TickInitialized t, SInitialized u => u = to_liquidity_tick t
  | TickUninitialized i, SUninitialized j => j = i
  | _, _ => False
  end.

Lemma update_tick_same p q r lim tk tk' rem b d now pf ft p1 tk1 add rem1 crossed :
  pool_update_tick p r lim tk rem b d now pf ft = Ok (p1, tk1, add, rem1, crossed) ->
  tick_agrees tk tk' -> p_price q = p_price p -> p_tick q = p_tick p -> p_liq q = p_liq p ->
  exists q1, sdk_update_tick q r lim tk' rem b d ft = Ok (q1, add, rem1, crossed) /\ p_price q1 = p_price p1 /\ p_tick q1 = p_tick p1 /\ p_liq q1 = p_liq p1 /\
    tick_agrees tk1 tk'.
Proof.
  unfold pool_update_tick, sdk_update_tick. intros H A P T L.
  assert (N : (match tk with NoTick => true | _ => false end) = (match tk' with SNoTick => true | _ => false end))
    by (destruct tk, tk'; cbn in A; first [reflexivity|exact (False_ind _ A)]).
  rewrite <- N. destruct (_ || negb _).
  - inv_bind H as i E. apply Ok_inj in H. injection H as <- <- <- <- <-. rewrite E. cbn [unwrap bind]. eexists. split; [reflexivity|]. auto.
  - inv_bind H as en E. rewrite L, E. cbn [unwrap bind]. inv_bind H as x E2. destruct x as [[[[[p2 tk2] tot] rem2] cr] idx]. apply Ok_inj in H. injection H as <- <- <- <- <-.
    destruct tk as [|t|i], tk' as [|u|j]; cbn in A; try exact (False_ind _ A); [discriminate E2| |].
    + subst u. destruct (negb d || en).
      * inv_bind E2 as x E3. destruct x as [t' p']. apply Ok_inj in E2. injection E2 as <- <- <- <- <- <-. apply (proj1 (unwrap_ok _ _)) in E3.
        destruct (cross_same _ _ _ _ _ q E3 T L) as (q' & Eq & Q1 & Q2 & Q3 & Q4 & Q5 & Q6). rewrite Eq. cbn [bind lt_index to_liquidity_tick].
        eexists. split; [reflexivity|]. cbn. rewrite Q1, Q3, Q5, P. auto.
      * destruct (negb (rem =? 0)).
        -- destruct b.
           ++ inv_bind E2 as pf' E3. apply Ok_inj in E2. injection E2 as <- <- <- <- <- <-. destruct (add_fee_view _ _ _ _ _ E3) as (F1 & F2 & F3 & _).
              cbn [bind]. eexists. split; [reflexivity|]. cbn. rewrite F1, F3. auto.
           ++ apply Ok_inj in E2. injection E2 as <- <- <- <- <- <-. cbn [bind]. eexists. split; [reflexivity|]. cbn. auto.
        -- apply Ok_inj in E2. injection E2 as <- <- <- <- <- <-. cbn [bind]. eexists. split; [reflexivity|]. cbn. auto.
    + subst j. apply Ok_inj in E2. injection E2 as <- <- <- <- <- <-. cbn [bind]. eexists. split; [reflexivity|]. cbn. auto.
Qed.

Lemma iter_same s now k d b limit tl w w' m l v :
  swap_iter s now k d b limit tl w = Ok w' -> same_bitmap s k m -> has_ticks s k l -> agrees w v ->
  exists v' f, sim_iter m (pk_tier k) l d b limit tl v = Ok (v', f) /\ agrees w' v' /\
    (f = None /\ (Z.of_nat (List.length (sw_ticks w)) <= MAX_TICK_CROSS -> Z.of_nat (List.length (sw_ticks w')) <= MAX_TICK_CROSS) \/
     f = Some TooManyCrossed /\ MAX_TICK_CROSS < Z.of_nat (List.length (sw_ticks w'))).
Proof.
  unfold swap_iter, sim_iter. intros H VB VT (A1 & A2 & A3 & A4 & A5 & A6 & A7 & A8).
  inv_bind H as x E1. destruct x as [sl lt]. rewrite A2. rewrite (proj2 (closer_same s k m limit d (p_tick (sw_pool w)) _ (sl, lt) VB) E1).
  inv_bind H as r E2. rewrite A1, A3, A4, E2. cbn [bind]. inv_bind H as paid E3. rewrite E3. cbn [bind].
  inv_bind H as rem E4. assert (E4' : (if b then sub_p (sw_remaining w) paid else sub_p (sw_remaining w) (sr_out r)) = Ok rem)
    by (destruct b; apply (sub_e_p ESub); exact E4). rewrite E4'. cbn [bind].
  inv_bind H as p1 E5. destruct (add_fee_view _ _ _ _ _ E5) as (F1 & F2 & F3 & _).
  inv_bind H as fee E6. rewrite A7, E6. cbn [bind]. inv_bind H as tin E7. rewrite A5, E7. cbn [bind]. inv_bind H as tout E8. rewrite A6, E8. cbn [bind].
  change (p_price (p_set_price (sm_pool v) (sr_next r))) with (sr_next r). change (p_price (p_set_price p1 (sr_next r))) with (sr_next r) in H.
  match type of H with (if ?c then _ else _) = _ => destruct c; [discriminate H|] end.
  inv_bind H as tk E9.
  assert (TK : exists tk', (match lt with
               | Some (i, true) => match List.find (fun t => lt_index t =? i) l with Some t => Some (SInitialized t) | None => None end
               | Some (i, false) => Some (SUninitialized i) | None => Some SNoTick end) = Some tk' /\ tick_agrees tk tk').
  { destruct lt as [[i [|]]|].
    - inv_bind E9 as t E10. apply Ok_inj in E9 as <-. unfold get_tick in E10. destruct (st_ticks s !! (k, i)) as [t0|] eqn:Et; [|discriminate E10].
      apply Ok_inj in E10 as <-. rewrite (VT _ _ Et). eexists. split; [reflexivity|]. reflexivity.
    - apply Ok_inj in E9 as <-. eexists. split; [reflexivity|]. reflexivity.
    - apply Ok_inj in E9 as <-. eexists. split; [reflexivity|]. exact I. }
  destruct TK as (tk' & -> & TA).
  inv_bind H as x E10. destruct x as [[[[p2 tk2] add] rem2] crossed].
  destruct (update_tick_same _ (p_set_price (sm_pool v) (sr_next r)) _ _ _ tk' _ _ _ _ _ _ _ _ _ _ _ E10 TA) as (q & Eq & Q1 & Q2 & Q3 & TA2).
  { reflexivity. } { cbn. rewrite A2. symmetry. exact F2. } { cbn. rewrite A3. symmetry. exact F3. }
  rewrite Eq. inv_bind H as tin2 E11. rewrite E11. cbn [bind].
  assert (TL : (if d then p_tick q <=? tl else tl <=? p_tick q) = (if d then p_tick p2 <=? tl else tl <=? p_tick p2)) by (rewrite Q2; reflexivity).
  rewrite TL. destruct (if d then p_tick p2 <=? tl else tl <=? p_tick p2); [discriminate H|]. apply Ok_inj in H as <-. cbn [sw_ticks].
  set (l1 := match tk2 with TickInitialized t => if crossed then sw_ticks w ++ [t] else sw_ticks w | _ => sw_ticks w end).
  set (l2 := match tk' with SInitialized t => if crossed then sm_crossed v ++ [t] else sm_crossed v | _ => sm_crossed v end).
  assert (LL : l2 = List.map to_liquidity_tick l1).
  { unfold l1, l2. rewrite A8. destruct tk2, tk'; cbn in TA2; try exact (False_ind _ TA2); try reflexivity. destruct crossed; [|reflexivity]. rewrite map_app. cbn. rewrite TA2. reflexivity. }
  assert (FL : exists f, (if (match tk' with SInitialized _ => crossed | _ => false end) && (MAX_TICK_CROSS <? Z.of_nat (List.length l2))
      then Ok (mkSim q rem2 tin2 tout fee l2, Some TooManyCrossed) else Ok (mkSim q rem2 tin2 tout fee l2, None)) = Ok (mkSim q rem2 tin2 tout fee l2, f) /\
    (f = None /\ (Z.of_nat (List.length (sw_ticks w)) <= MAX_TICK_CROSS -> Z.of_nat (List.length l1) <= MAX_TICK_CROSS) \/
     f = Some TooManyCrossed /\ MAX_TICK_CROSS < Z.of_nat (List.length l1))).
  { assert (LN : List.length l2 = List.length l1) by (rewrite LL; apply map_length). rewrite LN.
    destruct (Z.ltb_spec MAX_TICK_CROSS (Z.of_nat (List.length l1))) as [X|X]; [|exists None; rewrite andb_false_r; split; [reflexivity|left; auto]].
    destruct (match tk' with SInitialized _ => crossed | _ => false end) eqn:C; cbn [andb]; [eexists; split; [reflexivity|right; auto]|].
    exists None. split; [reflexivity|]. left. split; [reflexivity|]. intros Y. exfalso. unfold l1 in X.
    destruct tk2, tk'; cbn in TA2; try exact (False_ind _ TA2); try lia. rewrite C in X. lia. }
  destruct FL as (f & EF & FF). exists (mkSim q rem2 tin2 tout fee l2), f. split; [exact EF|]. split; [|exact FF].
  unfold agrees. cbn [sm_pool sm_remaining sm_in sm_out sm_fee sm_crossed sw_pool sw_remaining sw_in sw_out sw_fee sw_ticks]. auto 10.
Qed.

Lemma iter_grows s now k d b limit tl w w' : swap_iter s now k d b limit tl w = Ok w' -> (List.length (sw_ticks w) <= List.length (sw_ticks w'))%nat.
Proof.
  unfold swap_iter. intros H. inv_bind H as x E1. destruct x as [sl lt]. inv_bind H as r E2. inv_bind H as paid E3. inv_bind H as rem E4. inv_bind H as p1 E5.
  inv_bind H as fee E6. inv_bind H as tin E7. inv_bind H as tout E8. match type of H with (if ?c then _ else _) = _ => destruct c; [discriminate H|] end.
  inv_bind H as tk E9. inv_bind H as x E10. destruct x as [[[[p2 tk2] add] rem2] crossed]. inv_bind H as tin2 E11.
  match type of H with (if ?c then _ else _) = _ => destruct c; [discriminate H|] end. apply Ok_inj in H as <-. cbn [sw_ticks].
  destruct tk2; [lia|destruct crossed; [rewrite app_length; cbn; lia|lia]|lia].
Qed.
Lemma loop_grows gas : forall s now k d b limit tl w w', swap_loop gas s now k d b limit tl w = Ok w' -> (List.length (sw_ticks w) <= List.length (sw_ticks w'))%nat.
Proof.
  induction gas as [|gas IH]; intros s now k d b limit tl w w' H; cbn [swap_loop] in H.
  - destruct (sw_remaining w =? 0); [|discriminate H]. apply Ok_inj in H as <-. lia.
  - destruct (sw_remaining w =? 0); [apply Ok_inj in H as <-; lia|]. inv_bind H as w1 E1. apply iter_grows in E1. apply IH in H. lia.
Qed.

Lemma loop_same gas : forall s now k d b limit tl w w' m l v,
  swap_loop gas s now k d b limit tl w = Ok w' -> same_bitmap s k m -> has_ticks s k l -> agrees w v ->
  Z.of_nat (List.length (sw_ticks w)) <= MAX_TICK_CROSS ->
  if Z.of_nat (List.length (sw_ticks w')) <=? MAX_TICK_CROSS
  then exists v', sim_loop gas m (pk_tier k) l d b limit tl v = Ok (v', None) /\ agrees w' v'
  else exists v', sim_loop gas m (pk_tier k) l d b limit tl v = Ok (v', Some TooManyCrossed).
Proof.
  induction gas as [|gas IH]; intros s now k d b limit tl w w' m l v H VB VT A LEN; cbn [swap_loop sim_loop] in *.
  - rewrite (proj1 (proj2 (proj2 (proj2 A)))). destruct (sw_remaining w =? 0); [|discriminate H]. apply Ok_inj in H as <-.
    rewrite (proj2 (Z.leb_le _ _) LEN). eauto.
  - rewrite (proj1 (proj2 (proj2 (proj2 A)))). destruct (sw_remaining w =? 0); [apply Ok_inj in H as <-; rewrite (proj2 (Z.leb_le _ _) LEN); eauto|].
    inv_bind H as w1 E1.
    destruct (iter_same _ _ _ _ _ _ _ _ _ m l v E1 VB VT A) as (v1 & f & Ev & A1 & [[-> G]|[-> G]]); rewrite Ev; cbn [bind].
    + exact (IH _ _ _ _ _ _ _ _ _ m l v1 H VB VT A1 (G LEN)).
    + pose proof (loop_grows _ _ _ _ _ _ _ _ _ _ H) as MONO. rewrite (proj2 (Z.leb_gt _ _)) by lia. eauto.
Qed.

(** ** Fees stay small next to the liquidity *)
Lemma delta_in_small down cur next L a : price_ok cur -> price_ok next -> 0 < L -> delta_in down cur next L = Ok a -> a <= L + 1.
Proof.
  unfold price_ok, delta_in. intros A B HL H. destruct down.
  - apply delta_x_up in H; [|unfold MIN_SQRT_PRICE in *; lia..]. destruct H as (_ & D & H & _). pose proof (numx_spec next cur L) as [N _].
    destruct (prod_bound next cur B A) as [PB _]. pose proof (floor_spec (next * cur) SP_ONE ltac:(reflexivity)) as [_ F].
    set (q := next * cur / SP_ONE) in *. set (n := numx next cur L) in *. set (mx := Z.max next cur) in *.
    assert (M1 : Z.abs (next - cur) * L <= mx * L) by (apply Z.mul_le_mono_nonneg_r; unfold MIN_SQRT_PRICE, mx in *; lia).
    assert (M2 : mx <= 100000 * q) by (unfold MIN_SQRT_PRICE, SP_ONE, mx in *; lia). clearbody q n mx.
    assert (M3 : mx * L <= 100000 * q * L) by (apply Z.mul_le_mono_nonneg_r; lia). unfold LIQ_ONE in *.
    destruct (Z.le_gt_cases a (L + 1)) as [X|X]; [exact X|]. exfalso.
    assert (q * (L + 1) <= q * (a - 1)) by (apply Z.mul_le_mono_nonneg_l; lia). nia.
  - apply delta_y_up in H. destruct H as (_ & H & _). assert (M1 : Z.abs (cur - next) * L <= E30 * L) by (apply Z.mul_le_mono_nonneg_r; unfold MIN_SQRT_PRICE, MAX_SQRT_PRICE, E30 in *; lia).
    unfold E30 in *. lia.
Qed.

Lemma after_fee_small amount fee x : 0 <= amount -> 0 <= fee <= 999900000000 -> big_mul PCT_ONE amount (PCT_ONE - fee) = Ok x -> amount <= 10000 * (x + 1).
Proof.
  unfold big_mul. intros A F H. apply ckp_ok in H. destruct H as [-> _]. pose proof (floor_spec (amount * (PCT_ONE - fee)) PCT_ONE ltac:(reflexivity)) as [_ X].
  set (q := amount * (PCT_ONE - fee) / PCT_ONE) in *. clearbody q.
  assert (amount * 100000000 <= amount * (PCT_ONE - fee)) by (apply Z.mul_le_mono_nonneg_l; unfold PCT_ONE; lia). unfold PCT_ONE in *. lia.
Qed.

Lemma step_fee_small cur target L amount by_in fee r : step_args cur target L amount fee -> L <> 0 -> fee <= 999900000000 ->
  compute_swap_step cur target L amount by_in fee = Ok r -> sr_fee r <= 34028 * L.
Proof.
  intros SA HL F H. pose proof (C03_step_bounds_partial _ _ _ _ _ _ _ SA H) as (B1 & B2 & B3 & _ & _ & N1 & N2 & N3 & _).
  destruct SA as (HC & HT & HLr & HA & HF). destruct (step_inv _ _ _ _ _ _ _ HL H) as [Hn Hi _ Hfe].
  assert (PC : price_ok cur) by (unfold price_ok, MIN_SQRT_PRICE, MAX_SQRT_PRICE; lia).
  assert (PT : price_ok target) by (unfold price_ok, MIN_SQRT_PRICE, MAX_SQRT_PRICE; lia).
  destruct Hfe as [(-> & NE & Hfe)|[OR Hfe]].
  - destruct Hn as [(_ & x & a & _ & X & D & [[_ E]|[LT _]])|[E _]]; [congruence| |discriminate E].
    apply delta_in_small in D; [|assumption..|lia]. apply after_fee_small in X; [|lia..].
    assert (sr_fee r <= amount). { lia. } lia.
  - assert (PN : price_ok (sr_next r)).
    { unfold price_ok in *. destruct Hn as [(BI & x & a & _ & _ & _ & [[_ E]|[_ E]])|[-> _]]; [rewrite E; exact PT| |].
      - destruct OR as [OR|OR]; [|rewrite OR; exact PT]. congruence.
      - destruct (Z.le_gt_cases target cur) as [X|X]; [specialize (B1 X); specialize (B3 X eq_refl)|specialize (B2 ltac:(lia))]; lia. }
    apply delta_in_small in Hi; [|assumption..|lia]. apply ckp_ok in Hfe. destruct Hfe as [-> _].
    assert (X : (sr_in r * fee + (PCT_ONE - 1)) / PCT_ONE <= sr_in r).
    { apply Z.lt_succ_r, Z.div_lt_upper_bound; [reflexivity|]. assert (sr_in r * fee <= sr_in r * PCT_ONE) by (apply Z.mul_le_mono_nonneg_l; unfold PCT_ONE; lia). unfold PCT_ONE in *. lia. }
    lia.
Qed.

Lemma dust_small amount P L fee : price_ok P -> 0 < L -> 0 <= amount -> 0 <= fee <= 999900000000 ->
  is_enough_amount_to_change_price amount P L fee true true = Ok false -> amount <= 34028 * L.
Proof.
  unfold price_ok, is_enough_amount_to_change_price. intros HP HL HA HF H. rewrite (proj2 (Z.eqb_neq _ _)) in H by lia.
  inv_bind H as n E. inv_bind E as c E1. apply ckp_ok in E1. destruct E1 as [-> _]. inv_bind E as x E2. apply Ok_inj in H. apply negb_false_iff, Z.eqb_eq in H. subst n.
  pose proof (after_fee_small _ _ _ HA HF E2) as A. unfold big_mul in E2. apply ckp_ok in E2. destruct E2 as [EX X]. rewrite <- EX in X.
  assert (x <= L); [|lia]. cbn in E. destruct (Z.eq_dec x 0) as [->|NZ]; [lia|].
  apply next_x_in in E; [|unfold MIN_SQRT_PRICE in *; lia..]. destruct E as (_ & E & _). destruct (pl_up_spec P L) as [Q _].
  set (u := pl_up P L) in *. clearbody u. unfold MIN_SQRT_PRICE, LIQ_ONE, SP_ONE, E18 in *.
  assert (Y : (P - 1) * (P * x) < L * 1000000000000000000 + 1000000000000000000000000) by nia.
  assert (Z0 : 15258932000000000000 * x <= P * x) by (apply Z.mul_le_mono_nonneg_r; lia).
  assert (Z1 : 10000000000000000000 * (P * x) <= (P - 1) * (P * x)) by (apply Z.mul_le_mono_nonneg_r; lia). lia.
Qed.

(** ** From the simulation back to the contract *)
Definition same_ticks (s : store) (k : pool_key) (l : list liquidity_tick) : Prop :=
  forall i, List.find (fun u => lt_index u =? i) l = option_map to_liquidity_tick (st_ticks s !! (k, i)).
Lemma same_has s k l : same_ticks s k l -> has_ticks s k l.
Proof. intros H i t E. rewrite H, E. reflexivity. Qed.

Lemma add_fee_any p a (d : bool) f : 0 <= p_liq p -> 0 <= f <= PCT_ONE -> 0 <= a <= U128MAX -> (p_liq p <> 0 -> a <= 34028 * p_liq p) -> 0 <= counter d p -> counter d p + a <= U128MAX ->
  exists q, add_fee p a d f = Ok q.
Proof.
  intros HL HF HA HB C0 C1. pose proof (cut_le f a HF (proj1 HA)) as CU. unfold add_fee, big_mul_up. set (pr := (a * f + (PCT_ONE - 1)) / PCT_ONE) in *. clearbody pr.
  rewrite ckp_yes by lia. cbn [bind]. unfold sub_p. rewrite ckp_yes by lia. cbn [bind].
  destruct (_ || (p_liq p =? 0)) eqn:B; [eexists; reflexivity|]. apply orb_false_iff in B. destruct B as [_ B]. apply Z.eqb_neq in B. specialize (HB B).
  unfold from_fee.
  assert (F1 : 0 <= (a - pr) * FG_ONE <= U128MAX * FG_ONE) by (unfold FG_ONE; lia).
  rewrite ck_yes by (split; [lia|etransitivity; [apply F1|vm_compute; discriminate]]). cbn [bind].
  assert (F2 : 0 <= (a - pr) * FG_ONE * LIQ_ONE <= U128MAX * FG_ONE * LIQ_ONE) by (unfold LIQ_ONE; lia).
  rewrite ck_yes by (split; [lia|etransitivity; [apply F2|vm_compute; discriminate]]). cbn [bind].
  unfold cdiv. rewrite (proj2 (Z.eqb_neq _ 0) B). cbn [bind].
  rewrite ck_yes.
  - cbn [bind]. unfold counter in *. destruct d; unfold add_p; rewrite ckp_yes by lia; cbn [bind]; eexists; reflexivity.
  - split; [apply Z.div_pos; unfold FG_ONE, LIQ_ONE in *; lia|]. apply Z.div_le_upper_bound; [lia|]. unfold FG_ONE, LIQ_ONE, U128MAX in *. lia.
Qed.

Lemma ck_nonneg e hi v r : ck e hi v = Ok r -> 0 <= r.
Proof. intros H. apply ck_ok in H. lia. Qed.
Lemma delta_in_nonneg down cur next L a : delta_in down cur next L = Ok a -> 0 <= a.
Proof.
  unfold delta_in, get_delta_x, get_delta_y, big_div_values_to_token_up. destruct down; intros H.
  - repeat (let E := fresh in inv_bind H as ? E). exact (ck_nonneg _ _ _ _ H).
  - inv_bind H as x E. exact (ck_nonneg _ _ _ _ H).
Qed.
Lemma step_nonneg cur target L amount by_in fee r : compute_swap_step cur target L amount by_in fee = Ok r -> 0 <= sr_in r /\ 0 <= sr_fee r.
Proof.
  intros H. destruct (Z.eq_dec L 0) as [->|HL]; [unfold compute_swap_step in H; cbn in H; apply Ok_inj in H as <-; cbn; lia|].
  destruct (step_inv _ _ _ _ _ _ _ HL H) as [_ Hi _ Hf]. split; [exact (delta_in_nonneg _ _ _ _ _ Hi)|].
  destruct Hf as [(_ & _ & _ & Hf)|[_ Hf]]; [lia|]. apply ckp_ok in Hf. lia.
Qed.

Lemma sdk_update_add p r sl tk rm b d ft q add rm' c : sdk_update_tick p r sl tk rm b d ft = Ok (q, add, rm', c) -> 0 <= rm -> 0 <= add.
Proof.
  unfold sdk_update_tick. intros H R. destruct (_ || negb _); [inv_bind H as i E; apply Ok_inj in H; injection H as <- <- <- <-; lia|].
  inv_bind H as en E. inv_bind H as x E2. destruct x as [[[[p2 tot] rem2] cr] idx]. apply Ok_inj in H. injection H as <- <- <- <-.
  destruct tk as [|t|i]; [discriminate E2| |apply Ok_inj in E2; injection E2 as <- <- <- <- <-; lia].
  destruct (negb d || en); [inv_bind E2 as p' E3; apply Ok_inj in E2; injection E2 as <- <- <- <- <-; lia|].
  destruct (negb (rm =? 0)); apply Ok_inj in E2; injection E2 as <- <- <- <- <-; [destruct b|]; lia.
Qed.

Lemma sim_iter_in m ft l d b lim tl v v' f : sim_iter m ft l d b lim tl v = Ok (v', f) -> sm_in v <= sm_in v'.
Proof.
  unfold sim_iter. intros H. destruct (sdk_closer_limit m lim d (p_tick (sm_pool v)) (ft_spacing ft)) as [[sl li]|e|]; [|apply Ok_inj in H; injection H as <- <-; lia|discriminate H].
  inv_bind H as r E1. destruct (step_nonneg _ _ _ _ _ _ _ E1) as [N1 N2]. inv_bind H as paid E2. apply ckp_ok in E2. destruct E2 as [-> _]. inv_bind H as rm E3.
  assert (R : 0 <= rm) by (destruct b; apply ckp_ok in E3; lia).
  inv_bind H as fe E4. inv_bind H as tin E5. apply ckp_ok in E5. destruct E5 as [-> _]. inv_bind H as tout E6.
  match type of H with (if ?c then _ else _) = _ => destruct c; [apply Ok_inj in H; injection H as <- <-; cbn; lia|] end.
  match type of H with match ?x with Some _ => _ | None => _ end = _ => destruct x as [tk|]; [|apply Ok_inj in H; injection H as <- <-; cbn; lia] end.
  match type of H with match ?x with Ok _ => _ | Err _ => _ | Panic => _ end = _ => destruct x as [[[[q add] rm'] c]|e|] eqn:U; [|apply Ok_inj in H; injection H as <- <-; cbn; lia|discriminate H] end.
  apply sdk_update_add in U; [|exact R]. inv_bind H as tin2 E7. apply ckp_ok in E7. destruct E7 as [-> _].
  match type of H with (if ?c then _ else _) = _ => destruct c; [apply Ok_inj in H; injection H as <- <-; cbn; lia|] end.
  match type of H with (if ?c then _ else _) = _ => destruct c; apply Ok_inj in H; injection H as <- <-; cbn; lia end.
Qed.
Lemma sim_loop_in fuel : forall m ft l d b lim tl v v' f, sim_loop fuel m ft l d b lim tl v = Ok (v', f) -> sm_in v <= sm_in v'.
Proof.
  induction fuel as [|n IH]; intros m ft l d b lim tl v v' f H; cbn [sim_loop] in H; (destruct (sm_remaining v =? 0); [apply Ok_inj in H; injection H as <- <-; lia|]); [discriminate H|].
  inv_bind H as x E. destruct x as [v1 f1]. apply sim_iter_in in E. destruct f1; [apply Ok_inj in H; injection H as <- <-; exact E|]. apply IH in H. lia.
Qed.

(** the step's prices are in range *)
Lemma closer_args s k d lim w sl li : store_geo s k -> loop_inv k d lim w -> sw_remaining w <> 0 ->
  get_closer_limit s lim d (p_tick (sw_pool w)) (spacing k) k = Ok (sl, li) ->
  step_args (p_price (sw_pool w)) sl (p_liq (sw_pool w)) (sw_remaining w) (ft_fee (pk_tier k)) /\ price_ok sl.
Proof.
  intros G I NR CL. destruct (loop_pre _ _ _ _ _ G I NR) as [U HS HFE HLQ HW HR HLim HRem]. pose proof HW as (WL & WP & _).
  pose proof (legal_price_range _ _ WL) as CRG. pose proof (legal_price_range _ _ (top_legal (spacing k) ltac:(lia))) as XR.
  apply closer_limit in CL; [|exact U|lia|exact WL]. destruct CL as (t & init & (TL1 & _) & CL). pose proof (legal_price_range _ _ TL1) as TR.
  assert (PS : price_ok sl).
  { unfold price_ok. destruct CL as [(_ & -> & _)|(_ & -> & X)]; [exact TR|]. destruct d; lia. }
  split; [|exact PS]. unfold price_ok, step_args in *. change (2 ^ 128) with (U128MAX + 1). change 15258932000000000000 with MIN_SQRT_PRICE.
  change 65535383934512647000000000000 with MAX_SQRT_PRICE. change 1000000000000 with PCT_ONE. lia.
Qed.

Lemma iter_back s now k d b lim w v v' m l :
  store_geo s k -> loop_inv k d lim w -> sw_remaining w <> 0 -> same_bitmap s k m -> same_ticks s k l -> agrees w v ->
  0 <= cf_protocol_fee (st_config s) <= PCT_ONE -> ft_fee (pk_tier k) <= 999900000000 ->
  0 <= now - p_start (sw_pool w) <= U64MAX -> 0 <= counter d (sw_pool w) -> counter d (sw_pool w) + (sm_in v' - sm_in v) <= U128MAX ->
  sim_iter m (pk_tier k) l d b lim (end_tick d k) v = Ok (v', None) ->
  exists w', swap_iter s now k d b lim (end_tick d k) w = Ok w'.
Proof.
  intros G I NR VB VT (A1 & A2 & A3 & A4 & A5 & A6 & A7 & A8) HF HT TM C0 C1 H.
  pose proof (loop_pre _ _ _ _ _ G I NR) as PRE. pose proof (ip_liq _ _ _ _ _ PRE) as HLQ. pose proof (sg_fee _ _ G) as SF.
  unfold sim_iter in H. unfold swap_iter. rewrite A2 in H.
  destruct (sdk_closer_limit m lim d (p_tick (sw_pool w)) (ft_spacing (pk_tier k))) as [[sl li]|e|] eqn:CL; [|discriminate H|discriminate H].
  apply (closer_same s k m lim d _ _ _ VB) in CL. destruct (closer_args _ _ _ _ _ _ _ G I NR CL) as [SA PS]. rewrite CL. cbn [bind].
  rewrite A1, A3, A4 in H. inv_bind H as r E1. rewrite E1. cbn [bind].
  destruct (step_nonneg _ _ _ _ _ _ _ E1) as [N1 N2].
  assert (FS : p_liq (sw_pool w) <> 0 -> sr_fee r <= 34028 * p_liq (sw_pool w)) by (intros Y; exact (step_fee_small _ _ _ _ _ _ _ SA Y HT E1)).
  inv_bind H as paid E2. rewrite E2. cbn [bind]. pose proof E2 as E2'. apply ckp_ok in E2'. destruct E2' as [-> PD].
  inv_bind H as rm E3. assert (E3' : (if b then sub_e ESub (sw_remaining w) (sr_in r + sr_fee r) else sub_e ESub (sw_remaining w) (sr_out r)) = Ok rm)
    by (destruct b; apply (sub_e_p ESub); exact E3). rewrite E3'. cbn [bind].
  assert (R : 0 <= rm <= U128MAX) by (destruct b; apply ckp_ok in E3; lia).
  inv_bind H as fe E4. inv_bind H as tin E5. pose proof E5 as E5'. apply ckp_ok in E5'. destruct E5' as [-> TI]. inv_bind H as tout E6.
  rewrite A7 in E4. rewrite A5 in E5. rewrite A6 in E6.
  assert (MONO : sm_in v + (sr_in r + sr_fee r) <= sm_in v').
  { match type of H with (if ?c then _ else _) = _ => destruct c; [discriminate H|] end.
    match type of H with match ?x with Some _ => _ | None => _ end = _ => destruct x as [tk|]; [|discriminate H] end.
    match type of H with match ?x with Ok _ => _ | Err _ => _ | Panic => _ end = _ => destruct x as [[[[q add] rm'] c]|e|] eqn:U; [|discriminate H|discriminate H] end.
    apply sdk_update_add in U; [|exact (proj1 R)]. inv_bind H as tin2 E7. apply ckp_ok in E7. destruct E7 as [-> _].
    match type of H with (if ?c then _ else _) = _ => destruct c; [discriminate H|] end.
    match type of H with (if ?c then _ else _) = _ => destruct c; [discriminate H|] end. apply Ok_inj in H. injection H as <-. cbn. lia. }
  destruct (add_fee_any (sw_pool w) (sr_fee r) d (cf_protocol_fee (st_config s)) (proj1 HLQ) HF ltac:(lia) FS C0 ltac:(lia)) as (p1 & EA).
  rewrite EA. cbn [bind]. pose proof (add_fee_counter _ _ _ _ _ (proj1 HLQ) HF N2 EA) as PC. destruct (add_fee_view _ _ _ _ _ EA) as (F1 & F2 & F3 & F4).
  rewrite E4. cbn [bind]. rewrite E5. cbn [bind]. rewrite E6. cbn [bind].
  change (p_price (p_set_price (sm_pool v) (sr_next r))) with (sr_next r) in H. change (p_price (p_set_price p1 (sr_next r))) with (sr_next r).
  match type of H with (if ?c then _ else _) = _ => destruct c; [discriminate H|] end.
  assert (TK : exists tk tk', (match li with
                | Some (i, true) => let* t := get_tick s k i in Ok (TickInitialized t)
                | Some (i, false) => Ok (TickUninitialized i)
                | None => Ok NoTick
                end) = Ok tk /\ (match li with
               | Some (i, true) => match List.find (fun t => lt_index t =? i) l with Some t => Some (SInitialized t) | None => None end
               | Some (i, false) => Some (SUninitialized i) | None => Some SNoTick end) = Some tk' /\ tick_agrees tk tk').
  { destruct li as [[i [|]]|]; [|eexists _, _; split; [reflexivity|split; reflexivity]|eexists _, _; split; [reflexivity|split; [reflexivity|constructor]]].
    unfold get_tick. rewrite VT in H |- *. destruct (st_ticks s !! (k, i)) as [t|]; [|discriminate H]. eexists _, _. split; [reflexivity|split; reflexivity]. }
  destruct TK as (tk & tk' & -> & E7 & TA). rewrite E7 in H. clear E7. cbn [bind].
  destruct (sdk_update_tick (p_set_price (sm_pool v) (sr_next r)) r sl tk' rm b d (pk_tier k)) as [[[[q add] rm'] c]|e|] eqn:U; [|discriminate H|discriminate H].
  inv_bind H as tin2 E8.
  assert (SI : tin2 = sm_in v').
  { match type of H with (if ?c then _ else _) = _ => destruct c; [discriminate H|] end.
    match type of H with (if ?c then _ else _) = _ => destruct c; [discriminate H|] end. apply Ok_inj in H. injection H as <-. reflexivity. }
  assert (AD : sm_in v' = sm_in v + (sr_in r + sr_fee r) + add) by (rewrite <- SI; apply ckp_ok in E8; lia). rewrite A5 in E8.
  assert (UP : exists p2 tk2, pool_update_tick (p_set_price p1 (sr_next r)) r sl tk rm b d now (cf_protocol_fee (st_config s)) (pk_tier k) = Ok (p2, tk2, add, rm', c)).
  { clear E8 SI H. unfold sdk_update_tick in U. unfold pool_update_tick.
    assert (N : (match tk with NoTick => true | _ => false end) = (match tk' with SNoTick => true | _ => false end))
      by (destruct tk, tk'; cbn in TA; first [reflexivity|exact (False_ind _ TA)]).
    rewrite N. destruct (_ || negb _) eqn:B.
    - inv_bind U as i E. apply (proj1 (unwrap_ok _ _)) in E. apply Ok_inj in U. injection U as <- <- <- <-. rewrite E. cbn [bind]. eexists _, _. reflexivity.
    - apply orb_false_iff in B. destruct B as [_ B]. apply negb_false_iff, Z.eqb_eq in B.
      inv_bind U as en E. apply (proj1 (unwrap_ok _ _)) in E. cbn [p_liq p_set_price] in E |- *. rewrite F3, <- A3, E. cbn [bind].
      inv_bind U as x E9. destruct x as [[[[q2 tot] rm2] cr] idx]. apply Ok_inj in U. injection U as <- <- <- <-.
      destruct tk as [|t|i], tk' as [|u|j]; cbn in TA; try exact (False_ind _ TA); [discriminate E9| |].
      + subst u. destruct (negb d || en) eqn:BD.
        * inv_bind E9 as q3 E10. apply Ok_inj in E9. injection E9 as <- <- <- <- <-. unfold sdk_cross in E10. unfold tick_cross.
          rewrite ck_yes by (cbn [p_start p_set_price]; rewrite F4; exact TM). cbn [bind]. inv_bind E10 as lq E11. cbn [to_liquidity_tick lt_index lt_sign lt_change] in E11.
          cbn [p_liq p_tick p_set_price p_set_last] in E11 |- *. rewrite F2, F3, <- A2, <- A3, E11. cbn [bind unwrap]. eexists _, _. reflexivity.
        * apply orb_false_iff in BD. destruct BD as [BD ->]. apply negb_false_iff in BD. subst d.
          destruct (negb (rm =? 0)); [|apply Ok_inj in E9; injection E9 as <- <- <- <- <-; cbn [bind]; eexists _, _; reflexivity].
          apply Ok_inj in E9. injection E9 as <- <- <- <- <-. destruct b; [|cbn [bind]; eexists _, _; reflexivity].
          assert (L0 : p_liq (sw_pool w) <> 0) by (intros Y; rewrite A3, Y in E; discriminate E).
          rewrite A3 in E. assert (DS : rm <= 34028 * p_liq (sw_pool w)) by (apply (dust_small _ _ _ (ft_fee (pk_tier k))) in E; [exact E|rewrite <- B; exact PS|lia|lia|lia]).
          destruct (add_fee_any (p_set_price p1 (sr_next r)) rm true (cf_protocol_fee (st_config s))) as (p3 & EP).
          { cbn. rewrite F3. lia. } { exact HF. } { lia. } { cbn. rewrite F3. intros _. exact DS. } { unfold counter in *. cbn. lia. } { unfold counter in *. cbn. lia. }
          rewrite EP. cbn [bind]. eexists _, _. reflexivity.
      + subst j. apply Ok_inj in E9. injection E9 as <- <- <- <- <-. cbn [bind]. eexists _, _. reflexivity. }
  destruct UP as (p2 & tk2 & UP). rewrite UP. cbn [bind]. rewrite E8. cbn [bind].
  destruct (update_tick_same _ (p_set_price (sm_pool v) (sr_next r)) _ _ _ tk' _ _ _ _ _ _ _ _ _ _ _ UP TA) as (q' & Eq & _ & Q2 & _).
  { reflexivity. } { cbn. rewrite A2. symmetry. exact F2. } { cbn. rewrite A3. symmetry. exact F3. }
  rewrite U in Eq. apply Ok_inj in Eq. injection Eq as <-.
  match type of H with (if ?c then _ else _) = _ => destruct c; [discriminate H|] end.
  rewrite <- Q2. match type of H with (if ?c then _ else _) = _ => destruct c; [discriminate H|] end. eexists. reflexivity.
Qed.

(** what an iteration does to the protocol-fee counter, the start time and the input total *)
Lemma iter_counter s now k d b lim w w' : store_geo s k -> loop_inv k d lim w -> sw_remaining w <> 0 -> 0 <= cf_protocol_fee (st_config s) <= PCT_ONE ->
  swap_iter s now k d b lim (end_tick d k) w = Ok w' ->
  counter d (sw_pool w) <= counter d (sw_pool w') <= counter d (sw_pool w) + (sw_in w' - sw_in w) /\ p_start (sw_pool w') = p_start (sw_pool w).
Proof.
  intros G I NR HF H. pose proof (loop_pre _ _ _ _ _ G I NR) as PRE. pose proof (ip_liq _ _ _ _ _ PRE) as HLQ.
  apply iter_cases in H; [|exact PRE]. cbn zeta in H. destruct H as (t & init & sl & r & p0 & rm0 & _ & _ & _ & E1 & _ & _ & R0 & EA & _ & CS & _).
  destruct (step_nonneg _ _ _ _ _ _ _ E1) as [N1 N2].
  pose proof (add_fee_counter _ _ _ _ _ (proj1 HLQ) HF N2 EA) as PC. destruct (add_fee_view _ _ _ _ _ EA) as (F1 & F2 & F3 & F4).
  destruct CS as [tk t' p1 _ _ _ _ CX _ ->|en _ _ _ _ ->|tk p2 -> _ _ _ _ DU ->|c' _ _ ->]; cbn [sw_pool sw_in].
  - pose proof (cross_counter _ _ _ _ _ d CX) as [CC _]. apply tick_cross_inv in CX. destruct CX as (_ & _ & _ & _ & lq & -> & _).
    replace (counter d (p_set_tick _ _)) with (counter d p0) by (destruct d; reflexivity). split; [lia|exact F4].
  - replace (counter d (p_set_tick _ _)) with (counter d p0) by (destruct d; reflexivity). split; [lia|exact F4].
  - replace (counter true (p_set_tick p2 _)) with (counter true p2) by reflexivity. destruct DU as [[-> ->]|(_ & R1 & DU)].
    + replace (counter true (p_set_price _ _)) with (counter true p0) by reflexivity. split; [lia|exact F4].
    + assert (L0 : 0 <= p_liq (p_set_price p0 (sr_next r))) by (cbn; rewrite F3; lia). pose proof (add_fee_counter _ _ _ _ _ L0 HF (Z.lt_le_incl _ _ R1) DU) as P2.
      replace (counter true (p_set_price _ _)) with (counter true p0) in P2 by reflexivity. destruct (add_fee_view _ _ _ _ _ DU) as (_ & _ & _ & G4). split; [lia|]. etransitivity; [exact G4|exact F4].
  - replace (counter d (p_set_tick _ _)) with (counter d p0) by (destruct d; reflexivity). split; [lia|exact F4].
Qed.

Lemma loop_back fuel : forall s now k d b lim w v vf m l,
  store_geo s k -> loop_inv k d lim w -> same_bitmap s k m -> same_ticks s k l -> agrees w v ->
  0 <= cf_protocol_fee (st_config s) <= PCT_ONE -> ft_fee (pk_tier k) <= 999900000000 ->
  0 <= now - p_start (sw_pool w) <= U64MAX -> 0 <= counter d (sw_pool w) -> counter d (sw_pool w) + (sm_in vf - sm_in v) <= U128MAX ->
  sim_loop fuel m (pk_tier k) l d b lim (end_tick d k) v = Ok (vf, None) ->
  exists wf, swap_loop fuel s now k d b lim (end_tick d k) w = Ok wf /\ agrees wf vf.
Proof.
  induction fuel as [|n IH]; intros s now k d b lim w v vf m l G I VB VT A HF HT TM C0 C1 H; cbn [swap_loop sim_loop] in *;
    rewrite (proj1 (proj2 (proj2 (proj2 A)))) in H.
  - destruct (sw_remaining w =? 0); [|discriminate H]. apply Ok_inj in H. injection H as <-. eauto.
  - destruct (Z.eqb_spec (sw_remaining w) 0) as [Z0|Z0]; [apply Ok_inj in H; injection H as <-; eauto|].
    inv_bind H as x E. destruct x as [v1 f]. destruct f as [f|]; [apply Ok_inj in H; discriminate H|].
    pose proof (sim_loop_in _ _ _ _ _ _ _ _ _ _ _ H) as M1. pose proof (sim_iter_in _ _ _ _ _ _ _ _ _ _ E) as M2.
    destruct (iter_back s now k d b lim w v v1 m l G I Z0 VB VT A HF HT TM C0 ltac:(lia) E) as (w1 & E1). rewrite E1. cbn [bind].
    destruct (iter_same _ _ _ _ _ _ _ _ _ m l v E1 VB (same_has _ _ _ VT) A) as (v2 & f2 & E2 & A2 & _). rewrite E in E2. apply Ok_inj in E2. injection E2 as <- <-.
    destruct (loop_step _ _ _ _ _ _ _ _ G I Z0 E1) as [_ I1]. destruct (iter_counter _ _ _ _ _ _ _ _ G I Z0 HF E1) as [CC ST].
    assert (SI : sw_in w1 - sw_in w = sm_in v1 - sm_in v) by (destruct A as (_ & _ & _ & _ & -> & _); destruct A2 as (_ & _ & _ & _ & -> & _); reflexivity).
    apply (IH s now k d b lim w1 v1 vf m l G I1 VB VT A2 HF HT); [rewrite ST; exact TM|lia|lia|exact H].
Qed.

(** * C45: whatever the contract quotes, the simulation reports, up to the SDK's crossing limit.
    Beyond 173 crossed ticks the simulation only says that it gave up. *)
Theorem C45_simulation e s k p m l d a b lim q :
  query_quote e s k d a b lim = Ok q -> st_pools s !! k = Some p ->
  (* the SDK has the tickmap and every tick of the pool *)
  (forall c, default 0 (m !! c) = default 0 (st_bitmap s !! (k, c))) ->
  (forall i t, st_ticks s !! (k, i) = Some t -> List.find (fun u => lt_index u =? i) l = Some (mkLTick (t_index t) (t_change t) (t_sign t))) ->
  exists r, simulate_swap (e_gas e) m (pk_tier k) p l d a b lim = Ok r /\
    sim_start r = p_price p /\ sim_insufficient r = false /\ sim_outdated r = false /\
    (Z.of_nat (List.length (q_ticks q)) <= 173 ->
       sim_in r = q_in q /\ sim_out r = q_out q /\ sim_target r = q_target q /\ sim_too_many r = false /\
       sim_crossed r = List.map (fun t => mkLTick (t_index t) (t_change t) (t_sign t)) (q_ticks q)) /\
    (173 < Z.of_nat (List.length (q_ticks q)) -> sim_too_many r = true).
Proof.
  intros H E VB VT. unfold query_quote in H. inv_bind H as c C. apply Ok_inj in H as <-. cbn [q_in q_out q_target q_ticks].
  unfold calculate_swap in C. unfold simulate_swap. destruct (a =? 0); [discriminate C|]. inv_bind C as p0 EP. unfold get_pool in EP. rewrite E in EP. apply Ok_inj in EP as <-.
  match type of C with (if ?x then _ else _) = _ => destruct x; [discriminate C|] end.
  inv_bind C as w EW. destruct (sw_out w =? 0); [discriminate C|]. apply Ok_inj in C as <-. cbn [cr_in cr_out cr_pool cr_ticks].
  assert (A : agrees (mkSwapState p a 0 0 0 []) (mkSim p a 0 0 0 [])) by (unfold agrees; cbn; auto 10).
  pose proof (loop_same _ _ _ _ _ _ _ _ _ _ m l _ EW VB VT A ltac:(discriminate)) as LS. change MAX_TICK_CROSS with 173 in LS.
  destruct (Z.leb_spec (Z.of_nat (List.length (sw_ticks w))) 173) as [X|X].
  - destruct LS as (v & EV & (B1 & B2 & B3 & B4 & B5 & B6 & B7 & B8)). rewrite EV. cbn [bind]. eexists. split; [reflexivity|].
    cbn [sim_start sim_insufficient sim_outdated sim_in sim_out sim_target sim_too_many sim_crossed]. repeat (split; [reflexivity|]). split; [|lia]. intros _. rewrite B1, B5, B6, B8. auto.
  - destruct LS as (v & EV). rewrite EV. cbn [bind]. eexists. split; [reflexivity|]. cbn [sim_start sim_insufficient sim_outdated sim_too_many]. repeat (split; [reflexivity|]). split; [lia|reflexivity].
Qed.

(** and a simulation without flags that pays something out is what the contract would quote *)
Theorem C45_converse e i s k p m l d a b lim r :
  reachable s -> env_typed e i = true -> st_pools s !! k = Some p -> 0 <= a < 2 ^ 128 ->
  (forall c, default 0 (m !! c) = default 0 (st_bitmap s !! (k, c))) ->
  (forall i, List.find (fun u => lt_index u =? i) l = option_map (fun t => mkLTick (t_index t) (t_change t) (t_sign t)) (st_ticks s !! (k, i))) ->
  simulate_swap (e_gas e) m (pk_tier k) p l d a b lim = Ok r ->
  sim_insufficient r = false -> sim_outdated r = false -> sim_too_many r = false -> sim_out r <> 0 ->
  (* the pool was not created in the future, the protocol fee is a fraction, the pool's fee is at most
     99.99%, and the protocol's share has room for the input *)
  0 <= p_start p <= e_millis e -> cf_protocol_fee (st_config s) <= 10 ^ 12 -> ft_fee (pk_tier k) <= 999900000000 ->
  (if d then p_protx p else p_proty p) + sim_in r < 2 ^ 128 ->
  exists q, query_quote e s k d a b lim = Ok q /\ q_in q = sim_in r /\ q_out q = sim_out r /\ q_target q = sim_target r.
Proof.
  intros RE T E HA VB VT H F1 F2 F3 NO TM PF FT ROOM. change (10 ^ 12) with PCT_ONE in PF. change (2 ^ 128) with (U128MAX + 1) in *.
  pose proof (reachable_ereach _ RE) as ER. pose proof (ereach_store_geo _ _ _ ER E) as G. pose proof (ereach_geo _ ER _ _ E) as PG.
  pose proof (co_protocol _ (ereach_config _ ER)) as PF0. pose proof (ereach_prot _ ER _ _ E) as PR.
  assert (NW : e_millis e <= U64MAX).
  { unfold env_typed in T. apply andb_prop in T. destruct T as [T _]. apply andb_prop in T. destruct T as [_ T]. apply in_range_spec in T. unfold e_millis.
    pose proof (Z.div_le_upper_bound (e_nanos e) 1000000 (e_nanos e) ltac:(lia) ltac:(lia)). lia. }
  unfold simulate_swap in H. unfold query_quote, calculate_swap. destruct (a =? 0); [discriminate H|]. unfold get_pool. rewrite E. cbn [bind].
  match type of H with (if ?x then _ else _) = _ => destruct x eqn:LM; [discriminate H|] end.
  assert (D : if d then lim < p_price p else p_price p < lim) by (destruct d; apply orb_false_iff in LM; destruct LM as [LM _]; apply Z.leb_gt in LM; lia).
  inv_bind H as x EV. destruct x as [v f]. apply Ok_inj in H as <-. cbn [sim_in sim_out sim_target sim_insufficient sim_outdated sim_too_many] in *.
  assert (f = None) by (destruct f as [[]|]; [discriminate F1|discriminate F2|discriminate F3|reflexivity]). subst f. clear F1 F2 F3.
  assert (A : agrees (mkSwapState p a 0 0 0 []) (mkSim p a 0 0 0 [])) by (unfold agrees; cbn; auto 10).
  pose proof (loop_start k d lim p a PG ltac:(lia) D) as I.
  destruct (loop_back (e_gas e) s (e_millis e) k d b lim _ _ v m l G I VB VT A) as (w & EW & (B1 & B2 & B3 & B4 & B5 & B6 & B7 & B8)).
  { lia. } { exact FT. } { cbn. lia. } { unfold counter. cbn. destruct d; lia. } { unfold counter. cbn. destruct d; lia. } { exact EV. }
  unfold end_tick in EW. rewrite EW. cbn [bind]. rewrite <- B6. rewrite (proj2 (Z.eqb_neq _ _) NO). cbn [bind]. eexists. split; [reflexivity|]. cbn. rewrite B1, B5, B6. auto.
Qed.

(** * The SDK's view, built from the contract's queries *)
Definition bits_legal (bm : gmap (pool_key * Z) Z) : Prop := forall k b,
  Z.testbit (default 0 (bm !! (k, b / 64))) (b mod 64) = true -> exists t, legal_tick (spacing k) t /\ b = bit_index (spacing k) t.
Lemma flip_legal s v i k s' : 1 <= spacing k -> bits_legal (st_bitmap s) -> flip_bitmap s v i (spacing k) k = Ok s' -> bits_legal (st_bitmap s').
Proof.
  intros S1 B H. apply flip_bitmap_ok in H as (L & _ & ->); [|done]. intros k' b X.
  assert (NN : 0 <= bit_index (spacing k) i).
  { pose proof (div_range _ _ S1 L). unfold bit_index. lia. }
  pose proof (bit_set_flip s k i (spacing k) k' b S1 NN) as FL. unfold bit_set at 1, bitmap_chunk at 1 in FL. rewrite X in FL.
  destruct (decide _) as [[-> ->]|]; [eauto|]. apply B. symmetry. exact FL.
Qed.
Lemma init_legal s k i bm bm' : 1 <= spacing k -> bits_legal bm -> init_bitmap s k i bm bm' -> bits_legal bm'.
Proof.
  unfold init_bitmap. intros S1 B H. destruct (st_ticks s !! (k, i)); [by subst|]. destruct H as (s' & F & ->). apply flip_legal in F; done.
Qed.
Lemma clear_legal b k i bm bm' : 1 <= spacing k -> bits_legal bm -> clear_bitmap b k i bm bm' -> bits_legal bm'.
Proof.
  unfold clear_bitmap. intros S1 B H. destruct b; [|by subst]. destruct H as (s & s' & F & E & ->). apply flip_legal in F; [exact F|done|by rewrite E].
Qed.
Lemma ereach_legal s : ereach s -> bits_legal (st_bitmap s).
Proof.
  induction 1 as [i f s H|e i s s' ms R IH H].
  - apply instantiate_inv in H. destruct H as [-> F]. intros k b X. cbn in X. rewrite lookup_empty in X. cbn in X. by rewrite Z.bits_0 in X.
  - pose proof (ereach_indexed _ R) as IX. pose proof (ereach_pools _ R) as PO. destruct H; try exact IH.
    + apply swap_internal_kept in H1; [|done]. rewrite (sk_bitmap _ _ _ H1). exact IH.
    + apply create_position_inv in H2; [|done].
      destruct H2 as (p0 & lt & ut & po & p' & lt' & ut' & x & y & bm1 & bm2 & m0 & m1 & HL & HN & Ep & Sl & Su & B1 & B2 & PC & PL & _ & _ & _ & _ & ->).
      destruct (kv_tier _ (PO _ _ Ep)) as [Hs _].
      cbn. eapply init_legal; [|eapply init_legal; [|exact IH|exact B1]|exact B2]; lia.
    + apply claim_fee_inv in H; [|done].
      destruct H as (po & lt & ut & p0 & po' & p' & lt' & ut' & x & y & Epo & _ & _ & _ & Ep & PC & _ & _ & Iu & Il & ->). exact IH.
    + apply remove_position_exec_inv in H; [|done].
      destruct H as (po & lt & ut & p0 & po' & p' & lt' & ut' & x & y & dl & du & bm1 & bm2 & m' & Epo & _ & _ & _ & Ep & PC & _ & _ & Iu & Il & B1 & B2 & SR & ->).
      destruct (kv_tier _ (PO _ _ Ep)) as [Hs _].
      cbn. eapply clear_legal; [|eapply clear_legal; [|exact IH|exact B1]|exact B2]; lia.
    + apply remove_position_inv in H0. destruct H0 as (_ & _ & m & _ & ->).
      apply add_position_inv in H1. destruct H1 as (-> & _). exact IH.
Qed.
Lemma collect_elem {A B} (f : A -> res B) l : forall l', collect f l = Ok l' -> Forall2 (fun a b => f a = Ok b) l l'.
Proof. induction l as [|a l IH]; cbn; intros l' H; [apply Ok_inj in H as <-; constructor|]. inv_bind H as b E. inv_bind H as bs E2. apply Ok_inj in H as <-. constructor; auto. Qed.
Lemma pages_elem s k idxs : forall tss, Forall2 (fun i ts => query_liquidity_ticks s k i = Ok ts) idxs tss ->
  Forall2 (fun i u => exists t, st_ticks s !! (k, i) = Some t /\ u = to_liquidity_tick t) (List.concat idxs) (List.concat tss).
Proof.
  induction idxs as [|i idxs IH]; intros tss H; inversion H as [|? ts ? tss' H1 H2]; subst; cbn; [constructor|]. apply Forall2_app; [|auto].
  unfold query_liquidity_ticks in H1. destruct (_ <? _); [discriminate H1|]. apply collect_elem in H1. eapply Forall2_impl; [exact H1|]. cbn. intros a b X.
  inv_bind X as t T. apply Ok_inj in X as <-. unfold get_tick in T. destruct (st_ticks s !! (k, a)) as [t'|]; [|discriminate T]. apply Ok_inj in T as ->. eauto.
Qed.
Lemma find_pages s k ids us : (forall i t, st_ticks s !! (k, i) = Some t -> t_index t = i) -> (forall i, is_Some (st_ticks s !! (k, i)) -> i ∈ ids) ->
  Forall2 (fun i u => exists t, st_ticks s !! (k, i) = Some t /\ u = to_liquidity_tick t) ids us -> same_ticks s k us.
Proof.
  intros IX AL H i. assert (K : (exists t, st_ticks s !! (k, i) = Some t /\ i ∈ ids) \/ st_ticks s !! (k, i) = None).
  { destruct (st_ticks s !! (k, i)) as [t|] eqn:E; [left; exists t; split; [done|apply AL; eauto]|auto]. }
  clear AL. revert K. induction H as [|a u ids us (t & T & ->) H IH]; intros K; cbn [List.find].
  - destruct K as [(t & _ & X)|X]; [by apply elem_of_nil in X|by rewrite X].
  - cbn [to_liquidity_tick lt_index]. rewrite (IX _ _ T). destruct (Z.eqb_spec a i) as [->|N]; [by rewrite T|].
    apply IH. destruct K as [(t' & T' & X)|X]; [left; exists t'; split; [done|]|auto]. apply elem_of_cons in X as [->|X]; [by destruct N|done].
Qed.

Theorem C45_from_queries s k p lower upper dd ch idxs tss :
  reachable s -> st_pools s !! k = Some p ->
  let sp := ft_spacing (pk_tier k) in
  (* the tickmap asked for from end to end, one answer below the limit of 1638 chunks *)
  lower = - (221818 / sp * sp) -> upper = 221818 / sp * sp ->
  query_tickmap s k lower upper dd = Ok ch -> Z.of_nat (length ch) < 1638 ->
  (* the ticks, in any pages that together ask for every tick set in the tickmap *)
  Forall2 (fun i ts => query_liquidity_ticks s k i = Ok ts) idxs tss ->
  (forall t, get_bitmap s t sp k = Ok true -> t ∈ List.concat idxs) ->
  (forall c, default 0 ((list_to_map ch : gmap Z Z) !! c) = default 0 (st_bitmap s !! (k, c))) /\
  (forall i, List.find (fun u => lt_index u =? i) (List.concat tss) = option_map (fun t => mkLTick (t_index t) (t_change t) (t_sign t)) (st_ticks s !! (k, i))).
Proof.
  intros RE E sp EL EU Q LEN PG AL. pose proof (reachable_ereach _ RE) as ER. pose proof (ereach_store_geo _ _ _ ER E) as G. destruct (sg_sp _ _ G) as [S1 S2]. change (spacing k) with sp in S1, S2.
  pose proof (ereach_liq _ ER) as LI. pose proof (ereach_indexed _ ER) as IX.
  assert (T0 : 0 <= 221818 / sp) by (apply Z.div_pos; lia). pose proof (Z.mul_div_le 221818 sp ltac:(lia)) as T1.
  split.
  - destruct (C41_tickmap_exact s k p lower upper dd RE E) as (l & EQ & _ & SS & IN & CO); try (subst lower upper; first [nia|rewrite ?Z.mod_opp_l_z, ?Z.mod_mul by (try rewrite Z.mod_mul; lia); reflexivity]).
    fold sp in IN, CO, SS. rewrite Q in EQ. apply Ok_inj in EQ as <-.
    assert (ND : NoDup (ch.*1)).
    { change (ch.*1) with (map fst ch). clear - SS. induction SS as [|a l S IH F]; constructor; [|done]. intros X. rewrite Forall_forall in F. specialize (F _ X). destruct dd; lia. }
    intros c. destruct ((list_to_map ch : gmap Z Z) !! c) as [v|] eqn:EC.
    + apply elem_of_list_to_map_2 in EC. destruct (IN _ _ EC) as (_ & -> & _). done.
    + apply not_elem_of_list_to_map_2 in EC. cbn [default]. destruct (st_bitmap s !! (k, c)) as [v|] eqn:EB; [cbn [default from_option]|done].
      pose proof (ereach_chunks _ ER _ _ EB) as VR. destruct (Z.eq_dec v 0) as [->|NZ]; [done|exfalso].
      set (j := Z.log2 v). assert (J : 0 <= j < 64) by (split; [apply Z.log2_nonneg|apply Z.log2_lt_pow2; lia]).
      assert (TB : Z.testbit v j = true) by (apply Z.bit_log2; lia).
      assert (DV : (64 * c + j) / 64 = c) by (rewrite Z.mul_comm, Z.div_add_l by lia; rewrite Z.div_small by lia; lia).
      assert (MD : (64 * c + j) mod 64 = j) by (rewrite Z.add_comm, Z.mul_comm, Z.mod_add by lia; apply Z.mod_small; lia).
      destruct (ereach_legal _ ER k (64 * c + j)) as (t & Lt & Bt). { rewrite DV, MD, EB. exact TB. }
      change (spacing k) with sp in Lt, Bt.
      assert (IT : get_bitmap s t sp k = Ok true).
      { rewrite get_bitmap_ok by done. f_equal. unfold bit_set, bitmap_chunk. rewrite <- Bt, DV, MD, EB. exact TB. }
      assert (BI : forall u, legal_tick sp u -> (u + 221818) / sp = bit_index sp u).
      { intros u Lu. pose proof (legal_mult sp u S1 Lu) as Eu. unfold bit_index. rewrite Eu at 1. change MAX_TICK with 221818. rewrite Z.add_comm, Z.div_add by lia. lia. }
      assert (RT : lower <= t <= upper).
      { pose proof (div_range _ _ S1 Lt) as DR. pose proof (legal_mult sp t S1 Lt) as Et. change MAX_TICK with 221818 in DR. subst lower upper. nia. }
      destruct (CO t IT) as [(v' & X)|(X & _)].
      * split; apply Z.div_le_mono; try lia; apply Z.div_le_mono; lia.
      * rewrite (BI _ Lt), <- Bt, DV in X. apply EC. apply elem_of_list_fmap. exists (c, v'). done.
      * lia.
  - apply (find_pages s k (List.concat idxs)).
    + intros i t T. apply (IX _ _ _ T).
    + intros i H. apply AL. apply (lq_init _ LI k i); [eauto|exact H].
    + apply pages_elem, PG.
Qed.

(** ** A pool read through the queries and a swap that crosses a tick *)
Definition ex_map : tickmap := match query_tickmap sc0 v_key (-221810) 221810 true with Ok ch => list_to_map ch | _ => ∅ end.
Definition ex_ticks : list liquidity_tick := match query_liquidity_ticks sc0 v_key [-20; -10; 10; 20; 30] with Ok ts => ts | _ => [] end.
Definition ex_pool : pool := match get_pool sc0 v_key with Ok p => p | _ => mkPool 0 0 0 0 0 0 0 0 0 "" end.
Lemma ex_C45_view : (forall c, default 0 (ex_map !! c) = default 0 (st_bitmap sc0 !! (v_key, c))) /\
  (forall i, List.find (fun u => lt_index u =? i) ex_ticks = option_map (fun t => mkLTick (t_index t) (t_change t) (t_sign t)) (st_ticks sc0 !! (v_key, i))).
Proof.
  assert (P : exists p, st_pools sc0 !! v_key = Some p /\ True) by (apply some_inv; vm_compute; exact I). destruct P as (p & P & _).
  assert (Q : exists ch, query_tickmap sc0 v_key (-221810) 221810 true = Ok ch /\ (Z.of_nat (length ch) <? 1638) = true) by (apply ok_inv; vm_compute; reflexivity). destruct Q as (ch & Q & L).
  assert (T : exists ts, query_liquidity_ticks sc0 v_key [-20; -10; 10; 20; 30] = Ok ts /\ True) by (apply ok_inv; vm_compute; exact I). destruct T as (ts & T & _).
  unfold ex_map, ex_ticks. rewrite Q, T. rewrite <- (app_nil_r ts). change (ts ++ []) with (List.concat [ts]).
  apply (C45_from_queries sc0 v_key p (-221810) 221810 true ch [[-20; -10; 10; 20; 30]] [ts] sc0_reachable P); [reflexivity|reflexivity|exact Q|apply Z.ltb_lt; exact L| |].
  - constructor; [exact T|constructor].
  - intros t H. apply (lq_init _ (ereach_liq _ (reachable_ereach _ sc0_reachable)) v_key t) in H; [|eauto]. destruct H as [tk H].
    assert (A : forallb (fun x : pool_key * Z * tick => bool_decide (x.1.2 ∈ [-20; -10; 10; 20; 30])) (map_to_list (st_ticks sc0)) = true) by (vm_compute; reflexivity).
    rewrite forallb_forall in A. specialize (A ((v_key, t), tk)). rewrite <- elem_of_list_In, elem_of_map_to_list in A. specialize (A H). apply bool_decide_eq_true in A. exact A.
Qed.
Example ex_C45 : 
  match query_quote v_env sc0 v_key false 20000 true MAX_SQRT_PRICE, simulate_swap 1000 ex_map v_tier ex_pool ex_ticks false 20000 true MAX_SQRT_PRICE with
  | Ok q, Ok r => q_out q = sim_out r /\ q_in q = sim_in r /\ q_target q = sim_target r /\ sim_in r = 20000 /\ map lt_index (sim_crossed r) = [10; 20] /\ 
      sim_insufficient r = false /\ sim_outdated r = false /\ sim_too_many r = false /\ 19000 < sim_out r
  | _, _ => False
  end.
Proof. vm_compute. repeat split. Qed.

(** A simulation that pays nothing out carries no flag, but the contract refuses the swap. *)
Theorem C45_zero_output_refuted : exists s k p m l r, reachable s /\ st_pools s !! k = Some p /\
  (forall c, default 0 (m !! c) = default 0 (st_bitmap s !! (k, c))) /\
  (forall i, List.find (fun u => lt_index u =? i) l = option_map (fun t => mkLTick (t_index t) (t_change t) (t_sign t)) (st_ticks s !! (k, i))) /\
  simulate_swap (e_gas v_env) m (pk_tier k) p l false 1 true MAX_SQRT_PRICE = Ok r /\
  sim_insufficient r = false /\ sim_outdated r = false /\ sim_too_many r = false /\ sim_in r = 1 /\ sim_out r = 0 /\
  query_quote v_env s k false 1 true MAX_SQRT_PRICE = Err NoGainSwap.
Proof.
  assert (P : exists p, st_pools sc0 !! v_key = Some p /\ True) by (apply some_inv; vm_compute; exact I). destruct P as (p & P & _).
  assert (EP : ex_pool = p) by (unfold ex_pool, get_pool; rewrite P; reflexivity).
  assert (S : exists r, simulate_swap (e_gas v_env) ex_map (pk_tier v_key) ex_pool ex_ticks false 1 true MAX_SQRT_PRICE = Ok r /\
     (sim_insufficient r = false /\ sim_outdated r = false /\ sim_too_many r = false /\ sim_in r = 1 /\ sim_out r = 0)) by (apply ok_inv; vm_compute; repeat split).
  destruct S as (r & S & A1 & A2 & A3 & A4 & A5). rewrite EP in S. destruct ex_C45_view as [V1 V2].
  exists sc0, v_key, p, ex_map, ex_ticks, r.
  refine (conj sc0_reachable (conj P (conj V1 (conj V2 (conj S (conj A1 (conj A2 (conj A3 (conj A4 (conj A5 _)))))))))).
  vm_compute. reflexivity.
Qed.
