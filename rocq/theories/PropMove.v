(** C69-C71: what moves the price of a pool, what a swap must cost, and when its limit matters. *)
From Verif Require Import Base Decimal SqrtPrice Clamm Log FeeGrowth Types Tick Pool Position Tickmap Keys State Swap Exec Query Tactics
  PriceProofs LogProofs ClammProofs PropClamm BitmapProofs Frame Handlers History Basic PosList Ledger Vectors Scenario SwapInv SwapGeo SwapLoop Modify PSum LiqInv Geo
  PropTrade PropLiq PropSwap Fund Forward Flow PropSolv PropFunds PropExit PropBlock PropEvent.
From stdpp Require Import gmap strings.
From Coq Require Import Lia.
Open Scope Z_scope.

(** ** C69: every swap moves the price, charges and pays *)
Lemma step_next_pos cur sl L a by_in fee r : step_args cur sl L a fee -> compute_swap_step cur sl L a by_in fee = Ok r -> 0 < sr_next r.
Proof.
  intros SA ST. pose proof SA as (SA1 & SA2 & _). pose proof (C03_step_bounds_partial _ _ _ _ _ _ _ SA ST) as (B1 & B2 & _ & B4 & _).
  destruct (Z.le_gt_cases sl cur) as [D|D]; [|specialize (B2 ltac:(lia)); lia].
  specialize (B4 D). destruct (Z.le_gt_cases (sr_next r) 0); [|done]. exfalso.
  pose proof (Z.mul_le_mono_nonneg 15258932000000000000 (sl - sr_next r) 15258932000000000000 cur ltac:(lia) ltac:(lia) ltac:(lia) ltac:(lia)). lia.
Qed.
(** a step that pays something charges something and moves the price *)
Lemma step_pays cur sl L a by_in fee r : step_args cur sl L a fee -> compute_swap_step cur sl L a by_in fee = Ok r ->
  0 < sr_out r -> 0 < sr_in r /\ sr_next r <> cur.
Proof.
  intros SA ST O. pose proof (step_next_pos _ _ _ _ _ _ _ SA ST) as NP. destruct SA as (SA1 & SA2 & SA3 & SA4 & SA5).
  destruct (Z.eq_dec L 0) as [->|L0]. { unfold compute_swap_step in ST. cbn in ST. apply Ok_inj in ST. subst r. cbn in O. lia. }
  apply step_inv in ST; [|done]. destruct ST as [_ SI (o & SO & OE) _].
  assert (O' : 0 < o) by (rewrite OE in O; destruct by_in; lia). clear O OE.
  unfold delta_in, delta_out in *. destruct (sl <=? cur).
  - apply delta_y_down in SO. destruct SO as [_ [SO _]]. apply delta_x_up in SI; [|lia..]. destruct SI as (_ & D & _ & N).
    pose proof (numx_spec (sr_next r) cur L) as NS. set (n := numx (sr_next r) cur L) in *.
    assert (NP' : 0 < n) by (unfold E30, LIQ_ONE in *; lia). split.
    + destruct (Z.le_gt_cases (sr_in r) 0); [|done]. exfalso. pose proof (Z.mul_nonneg_nonneg (sr_next r * cur / SP_ONE) (- sr_in r) ltac:(lia) ltac:(lia)). lia.
    + intros Q. rewrite Q, Z.sub_diag in SO. cbn in SO. unfold E30 in *. lia.
  - apply delta_x_down in SO; [|lia..]. cbv zeta in SO. destruct SO as (_ & D & [N _]). apply delta_y_up in SI. destruct SI as [_ [_ SI]].
    pose proof (numx_spec cur (sr_next r) L) as NS. set (n := numx cur (sr_next r) L) in *. set (dd := (cur * sr_next r + (SP_ONE - 1)) / SP_ONE) in *.
    pose proof (Z.mul_pos_pos dd o D O') as NP'. split.
    + unfold E30, LIQ_ONE in *. lia.
    + intros Q. rewrite Q, Z.sub_diag in NS. cbn in NS. unfold LIQ_ONE in *. lia.
Qed.

(** the side of the pool that earns nothing from a swap in direction [d], and what no swap touches *)
Record same_side (d : bool) (p p' : pool) : Prop := {
  ss_growth : if d then p_fgy p' = p_fgy p else p_fgx p' = p_fgx p;
  ss_prot : if d then p_proty p' = p_proty p else p_protx p' = p_protx p;
  ss_earn : if d then p_protx p <= p_protx p' else p_proty p <= p_proty p';
  ss_recv : p_receiver p' = p_receiver p;
  ss_start : p_start p' = p_start p
}.
Lemma same_side_refl d p : same_side d p p.
Proof. constructor; destruct d; done || lia. Qed.
Lemma same_side_trans d p q r : same_side d p q -> same_side d q r -> same_side d p r.
Proof. intros [] []. constructor; destruct d; congruence || lia. Qed.
Lemma same_side_fee p a d f p' : add_fee p a d f = Ok p' -> same_side d p p'.
Proof.
  intros H. apply add_fee_inv in H. destruct H as (prot & pf & BM & _ & _ & [[-> _]|(g & _ & _ & H)]); [apply same_side_refl|].
  unfold big_mul_up in BM. apply ckp_ok in BM. destruct d; destruct H as [_ ->]; constructor; cbn; try done; lia.
Qed.

Lemma iter_effect s now k (d by_in : bool) lim w w' : store_geo s k -> loop_inv k d lim w -> sw_remaining w <> 0 ->
  swap_iter s now k d by_in lim (end_tick d k) w = Ok w' ->
  sw_in w <= sw_in w' /\ sw_out w <= sw_out w' /\ same_side d (sw_pool w) (sw_pool w') /\
  (sw_out w < sw_out w' -> sw_in w < sw_in w' /\
    if d then p_price (sw_pool w') < p_price (sw_pool w) else p_price (sw_pool w) < p_price (sw_pool w')).
Proof.
  intros G I NR H. pose proof (loop_pre s k d lim w G I NR) as PRE. apply iter_cases in H; [|done].
  destruct H as (t & init & sl & r & p0 & rm0 & T & SL & SA & ST & SIDE & E0 & R0 & AF & NL & IC & TL & _).
  pose proof (C03_step_bounds_partial _ _ _ _ _ _ _ SA ST) as (B1 & B2 & _ & _ & _ & B6 & B7 & B8 & _).
  pose proof (step_pays _ _ _ _ _ _ _ SA ST) as SP. pose proof (same_side_fee _ _ _ _ _ AF) as SS.
  assert (DIR : 0 < sr_out r -> 0 < sr_in r /\ if d then sr_next r < p_price (sw_pool w) else p_price (sw_pool w) < sr_next r).
  { intros O. destruct (SP O) as [A N]. split; [done|]. destruct d; [specialize (B1 SIDE); lia|]. specialize (B2 ltac:(lia)). lia. }
  destruct IC as [tk t' p1 -> EN ES ET EC PR ->|en -> EN ES PR ->|tk p2 -> -> EN ES ET PR ->|c' PR EC ->];
    cbn [sw_pool sw_in sw_out p_price p_set_tick p_set_price] in *.
  - apply tick_cross_inv in EC. destruct EC as (_ & _ & _ & _ & l & -> & _). cbn. split; [lia|]. split; [lia|]. split.
    { destruct SS. constructor; cbn; done. }
    intros O. destruct (DIR ltac:(lia)). split; [lia|done].
  - split; [lia|]. split; [lia|]. split. { destruct SS. constructor; cbn; done. } intros O. destruct (DIR ltac:(lia)). split; [lia|done].
  - assert (Q : p_price p2 = sr_next r /\ same_side true (sw_pool w) p2).
    { assert (S0 : same_side true (sw_pool w) (p_set_price p0 (sr_next r))) by (destruct SS; constructor; cbn; done).
      destruct PR as [[_ ->]|(_ & _ & AF2)]; [done|]. pose proof (same_side_fee _ _ _ _ _ AF2) as S2. apply add_fee_keeps in AF2.
      destruct AF2 as (_ & _ & AF2 & _). split; [done|]. by eapply same_side_trans. }
    destruct Q as [Q1 Q2]. split; [lia|]. split; [lia|]. split. { destruct Q2. constructor; cbn; done. }
    rewrite Q1. intros O. destruct (DIR ltac:(lia)). split; [lia|done].
  - split; [lia|]. split; [lia|]. split. { destruct SS. constructor; cbn; done. } intros O. destruct (DIR ltac:(lia)). split; [lia|done].
Qed.
Lemma run_effect s now k (d by_in : bool) lim w w' : store_geo s k -> loop_inv k d lim w -> run s now k d by_in lim w w' ->
  sw_in w <= sw_in w' /\ sw_out w <= sw_out w' /\ same_side d (sw_pool w) (sw_pool w') /\
  (sw_out w < sw_out w' -> sw_in w < sw_in w' /\
    if d then p_price (sw_pool w') < p_price (sw_pool w) else p_price (sw_pool w) < p_price (sw_pool w')).
Proof.
  intros G I R. induction R as [w Z0|w w1 w2 N E R IH]; [split; [lia|]; split; [lia|]; split; [apply same_side_refl|lia]|].
  pose proof (loop_step _ _ _ _ _ _ _ _ G I N E) as [PO I1]. destruct (iter_effect _ _ _ _ _ _ _ _ G I N E) as (A1 & A2 & A3 & A4).
  destruct (IH I1) as (C1 & C2 & C3 & C4). split; [lia|]. split; [lia|]. split; [by eapply same_side_trans|].
  intros O. destruct (run_geo _ _ _ _ _ _ _ _ G I1 R) as (_ & _ & M2).
  pose proof (io_dir _ _ _ _ _ _ PO) as M1.
  destruct (Z.eq_dec (sw_out w) (sw_out w1)) as [Q|Q].
  - destruct C4 as [C4 C5]; [lia|]. split; [lia|]. destruct d; lia.
  - destruct A4 as [A4 A5]; [lia|]. split; [lia|]. destruct d; lia.
Qed.

(** A swap that succeeds pays at least one unit, charges at least one unit and moves the price strictly in its direction; only the token
    taken in earns fees. *)
Theorem C69_swap_effect e i s k (d : bool) a by_in lim s' ms at' : reachable s -> execute e i s (Swap k d a by_in lim) = Ok (s', ms, at') ->
  exists p p' total out, st_pools s !! k = Some p /\ st_pools s' !! k = Some p' /\
    at' = [("amount_in"%string, total); ("amount_out"%string, out)] /\
    0 < total /\ charged e i (if d then pk_x k else pk_y k) ms = total /\
    0 < out /\ paid (i_sender i) (if d then pk_y k else pk_x k) ms = out /\
    (if d then p_price p' < p_price p else p_price p < p_price p') /\ same_side d p p'.
Proof.
  intros R H. destruct (execute_swap_inv _ _ _ _ _ _ _ _ _ _ _ R H) as (r & p & C & -> & Ep & Ep' & Ha & Hl & P).
  pose proof (calculate_swap_out _ _ _ _ _ _ _ _ _ C) as [V1 V2].
  apply reachable_ereach in R. pose proof (ereach_store_geo _ _ _ R Ep) as G. pose proof (ereach_geo _ R _ _ Ep) as PG.
  apply calculate_swap_run in C. destruct C as (p0 & w & E0 & NA & D & RN & O & ->). rewrite Ep in E0. injection E0 as <-.
  pose proof (loop_start k d lim p a PG Ha D) as I.
  destruct (run_effect _ _ _ _ _ _ _ _ G I RN) as (_ & A2 & A3 & A4). cbn [sw_pool sw_in sw_out cr_in cr_out cr_pool] in *.
  destruct A4 as [A4 A5]; [lia|].
  exists p, (sw_pool w), (sw_in w), (sw_out w). split; [done|]. split; [done|]. split; [done|]. split; [lia|]. split.
  - unfold execute in H. destruct (_ && _); [|done]. cbn [dispatch] in H. unfold swap in H. inv_bind H as [[s1 m1] r1] E. apply Ok_inj in H.
    injection H as <- <- Q1 Q2. apply swap_internal_inv in E. destruct E as (_ & _ & m0 & AT & ->). rewrite Q1 in AT.
    pose proof (pool_distinct s k R ltac:(eauto)) as N. unfold charged. rewrite paid_app, pulled_app, pulled_transfer, paid_transfer.
    assert (String.eqb (if d then pk_y k else pk_x k) (if d then pk_x k else pk_y k) = false) as -> by (apply String.eqb_neq; destruct d; congruence).
    rewrite andb_false_r. pose proof (from_exact _ _ _ _ _ AT A4) as FE. unfold charged in FE. destruct (e_addr_ok e _); lia.
  - split; [lia|]. done.
Qed.

(** C21 without a condition on the amounts: what a successful swap takes and pays is what the quote said *)
Theorem C21_quoted_amounts e i s k (d : bool) a by_in lim s' ms at' : reachable s -> execute e i s (Swap k d a by_in lim) = Ok (s', ms, at') ->
  exists q p', query_quote e s k d a by_in lim = Ok q /\ st_pools s' !! k = Some p' /\ p_price p' = q_target q /\
    0 < q_in q /\ charged e i (if d then pk_x k else pk_y k) ms = q_in q /\
    0 < q_out q /\ paid (i_sender i) (if d then pk_y k else pk_x k) ms = q_out q.
Proof.
  intros R H. assert (TY : env_typed e i = true /\ msg_typed (Swap k d a by_in lim) = true).
  { unfold execute in H. destruct (_ && _) eqn:T; [|done]. by apply andb_prop in T. }
  destruct (C21_quote_predicts_swap e i s k d a by_in lim R (proj1 TY) (proj2 TY)) as (Q & _).
  destruct (Q _ _ _ H) as (q & p' & Q1 & -> & Q2 & Q3 & _).
  destruct (C69_swap_effect _ _ _ _ _ _ _ _ _ _ _ R H) as (p & p2 & total & out & _ & _ & E & T0 & T1 & O0 & O1 & _).
  injection E as <- <-. exists q, p'. done.
Qed.

(** likewise C36 for a swap: of the coin taken in, exactly [amount_in] is kept *)
Theorem C36_swap_exact_partial e i s k (d : bool) a by_in lim s' ms total out T : e_addr_ok e T = false -> reachable s ->
  execute e i s (Swap k d a by_in lim) = Ok (s', ms, [("amount_in"%string, total); ("amount_out"%string, out)]) ->
  (T = (if d then pk_x k else pk_y k) -> attached i T - sent T ms = total) /\
  (T = (if d then pk_y k else pk_x k) -> sent T ms = out) /\
  (T <> pk_x k -> T <> pk_y k -> sent T ms = 0) /\
  paid (i_sender i) T ms = sent T ms.
Proof.
  intros NA R H. destruct (C36_swap_partial _ _ _ _ _ _ _ _ _ _ _ _ _ NA R H) as (A & B & C & D).
  destruct (C69_swap_effect _ _ _ _ _ _ _ _ _ _ _ R H) as (p & p2 & t2 & o2 & _ & _ & E & T0 & _). injection E as <- <-.
  split; [|done]. intros ET. by apply A.
Qed.

(** and C60: a swap's response tells exactly what was charged and paid *)
Theorem C60_swap_event e i s k (d : bool) a by_in lim s' ms at' : reachable s ->
  execute e i s (Swap k d a by_in lim) = Ok (s', ms, at') ->
  let l := Event.attributes i (Swap k d a by_in lim) at' in
  exists total out, PropEvent.tells l "amount_in" total 0 /\ PropEvent.tells l "amount_out" out 0 /\ 0 < total /\ 0 < out /\
    paid (i_sender i) (if d then pk_y k else pk_x k) ms = out /\ charged e i (if d then pk_x k else pk_y k) ms = total.
Proof.
  intros R H l.
  destruct (C69_swap_effect _ _ _ _ _ _ _ _ _ _ _ R H) as (p & p2 & total & out & _ & _ & E & T0 & T1 & O0 & O1 & _). subst at'.
  exists total, out. split; [|split]; [eexists; split; [reflexivity|apply PropEvent.denotes_int]..|done].
Qed.

(** ** C70: only swaps move prices, and only in their direction *)
(** what no call but a trade changes *)
Record same_market (p p' : pool) : Prop := {
  sm_price : p_price p' = p_price p;
  sm_tick : p_tick p' = p_tick p;
  sm_fgx : p_fgx p' = p_fgx p;
  sm_fgy : p_fgy p' = p_fgy p
}.
Lemma modify_zero_liq po p u l now sp po' p' u' l' x y : position_modify po p u l 0 true now sp = Ok (po', p', u', l', x, y) -> p_liq p' = p_liq p.
Proof.
  unfold position_modify. intros H. inv_bind H as l1 EL. inv_bind H as u1 EU. inv_bind H as po1 EP. inv_bind H as [[p1 x1] y1] EQ.
  apply Ok_inj in H. injection H as _ <- _ _ _ _. unfold update_liquidity in EQ. inv_bind EQ as [[x2 y2] b] EA. destruct b.
  - inv_bind EQ as q E. apply Ok_inj in EQ. injection EQ as <- _ _. cbn in *. ckinv. lia.
  - apply Ok_inj in EQ. injection EQ as <- _ _. done.
Qed.
Definition settles (m : exec_msg) : Prop :=
  match m with CreatePosition _ _ _ _ _ _ | Mint _ _ _ _ _ _ | RemovePosition _ | Burn _ => True | _ => False end.
Definition one_way (k : pool_key) (d : bool) (hops : list swap_hop) : Prop := forall h, In h hops -> hop_key h = k -> hop_x_to_y h = d.
Lemma trace_effect e i k (d : bool) s a hops s' ms out : route_trace e i s a hops s' ms out -> reachable s -> one_way k d hops -> forall p, st_pools s !! k = Some p ->
  exists p', st_pools s' !! k = Some p' /\ same_side d p p' /\
    (if d then p_price p' <= p_price p else p_price p <= p_price p') /\
    ((exists h, In h hops /\ hop_key h = k) -> if d then p_price p' < p_price p else p_price p < p_price p').
Proof.
  induction 1 as [s a|s a h s1 m1 b rest s2 m2 out EX TR IH]; intros R W p Ep.
  - exists p. split; [done|]. split; [apply same_side_refl|]. split; [destruct d; lia|]. intros (h & [] & _).
  - assert (R1 : reachable s1) by (by eapply reach_call). assert (W1 : one_way k d rest) by (intros h' I; apply W; by right).
    destruct (decide (hop_key h = k)) as [K|K].
    + pose proof (W h ltac:(by left) K) as HD. rewrite HD, K in EX.
      destruct (C69_swap_effect _ _ _ _ _ _ _ _ _ _ _ R EX) as (p0 & p1 & ti & to & E0 & E1 & _ & _ & _ & _ & _ & M1 & S1). rewrite Ep in E0. injection E0 as <-.
      destruct (IH R1 W1 p1 E1) as (p' & E' & S2 & M2 & _). exists p'. split; [done|]. split; [by eapply same_side_trans|]. split; [destruct d; lia|]. intros _. destruct d; lia.
    + assert (E1 : st_pools s1 !! k = Some p) by (rewrite <- Ep; eapply C26_other_pools_untouched; [exact R|exact EX|]; cbn [touches]; done).
      destruct (IH R1 W1 p E1) as (p' & E' & S2 & M2 & M3). exists p'. split; [done|]. split; [done|]. split; [done|].
      intros (h' & [<-|I] & Q); [done|]. apply M3. eauto.
Qed.

Theorem C70_price_source e i s m s' ms at' k p : reachable s -> execute e i s m = Ok (s', ms, at') -> st_pools s !! k = Some p ->
  exists p', st_pools s' !! k = Some p' /\
  match m with
  | Swap k' d _ _ _ => if decide (k' = k) then same_side d p p' /\ (if d then p_price p' < p_price p else p_price p < p_price p') else p' = p
  | SwapRoute _ _ _ hops => forall d, one_way k d hops -> same_side d p p' /\
      (if d then p_price p' <= p_price p else p_price p <= p_price p') /\
      ((exists h, In h hops /\ hop_key h = k) -> if d then p_price p' < p_price p else p_price p < p_price p')
  | _ => same_market p p' /\
      (settles m \/ p_liq p' = p_liq p) /\
      (m = WithdrawProtocolFee k \/ p_protx p' = p_protx p /\ p_proty p' = p_proty p) /\
      ((exists r, m = ChangeFeeReceiver k r) \/ p_receiver p' = p_receiver p)
  end.
Proof.
  intros R H Ep.
  assert (SAME : ~ touches i s m k -> st_pools s' !! k = Some p) by (intros N; rewrite <- Ep; by eapply C26_other_pools_untouched).
  assert (REF : same_market p p) by done. assert (RF2 : settles m \/ p_liq p = p_liq p) by (by right).
  assert (QUIET : ~ touches i s m k -> exists p', st_pools s' !! k = Some p' /\ same_market p p' /\ (settles m \/ p_liq p' = p_liq p) /\
      (m = WithdrawProtocolFee k \/ p_protx p' = p_protx p /\ p_proty p' = p_proty p) /\ ((exists r, m = ChangeFeeReceiver k r) \/ p_receiver p' = p_receiver p)).
  { intros N. exists p. split; [by apply SAME|]. split; [done|]. split; [done|]. split; by right. }
  pose proof (ereach_indexed _ (reachable_ereach _ R)) as IX.
  assert (CR : forall k' lo hi liq sl su, create_position e i s k' lo hi liq sl su = Ok (s', ms, at') -> k' = k -> exists p', st_pools s' !! k = Some p' /\
      same_market p p' /\ (p_protx p' = p_protx p /\ p_proty p' = p_proty p) /\ p_receiver p' = p_receiver p).
  { intros k' lo hi liq sl su X ->. apply create_position_inv in X; [|done].
    destruct X as (p0 & lt & ut & po & p' & lt' & ut' & x & y & bm1 & bm2 & m0 & m1 & _ & _ & Ep0 & _ & _ & _ & _ & PC & _ & _ & _ & _ & _ & ->).
    rewrite Ep in Ep0. injection Ep0 as <-. exists p'. split; [cbn; apply lookup_insert|].
    unfold position_create in PC. destruct (_ || _); [done|]. inv_bind PC as [[[[[po1 p1] u1] l1] x1] y1] EM. apply Ok_inj in PC. simplify_eq.
    apply position_modify_frame in EM. destruct EM as [(q & ->) _]. done. }
  assert (RM : forall ix, remove_position_exec e i s ix = Ok (s', ms, at') -> exists p', st_pools s' !! k = Some p' /\
      same_market p p' /\ (p_protx p' = p_protx p /\ p_proty p' = p_proty p) /\ p_receiver p' = p_receiver p).
  { intros ix X. apply remove_position_exec_inv in X; [|done].
    destruct X as (po & lt & ut & p0 & po' & p' & lt' & ut' & x & y & dl & du & bm1 & bm2 & m' & Epo & _ & _ & _ & Ep0 & PC & _ & _ & _ & _ & _ & _ & _ & ->).
    destruct (decide (po_key po = k)) as [<-|N]; [|exists p; split; [cbn; by rewrite lookup_insert_ne|done]].
    rewrite Ep in Ep0. injection Ep0 as <-. exists p'. split; [cbn; apply lookup_insert|].
    unfold position_remove in PC. inv_bind PC as [[[[[po1 p1] u1] l1] x1] y1] EM. rinv PC; simplify_eq.
    all: apply position_modify_frame in EM; destruct EM as [(q & ->) _]; done. }
  pose proof H as X. unfold execute in H. destruct (env_typed e i && msg_typed m) eqn:ET; [|done].
  destruct m; cbn [dispatch] in H; try (apply QUIET; cbn [touches]; tauto).
  - (* withdraw *)
    destruct (decide (k0 = k)) as [->|N]; [|apply QUIET; cbn [touches]; done].
    unfold withdraw_protocol_fee, get_pool in H. rewrite Ep in H. cbn [bind] in H. rinv H; simplify_eq.
    eexists. split; [cbn; apply lookup_insert|]. split; [done|]. split; [by right|]. split; [by left|by right].
  - (* receiver *)
    destruct (decide (k0 = k)) as [->|N]; [|apply QUIET; cbn [touches]; done].
    unfold change_fee_receiver, get_pool in H. rewrite Ep in H. cbn [bind] in H. rinv H; simplify_eq.
    eexists. split; [cbn; apply lookup_insert|]. split; [done|]. split; [by right|]. split; [by right|left; eauto].
  - destruct (decide (k0 = k)) as [->|N]; [|apply QUIET; cbn [touches]; done].
    destruct (CR _ _ _ _ _ _ H eq_refl) as (p' & E' & A & B & C). exists p'. split; [done|]. split; [done|]. split; [by left|]. split; by right.
  - destruct (decide (k0 = k)) as [->|N].
    + destruct (C69_swap_effect _ _ _ _ _ _ _ _ _ _ _ R X) as (p0 & p1 & ti & to & E0 & E1 & _ & _ & _ & _ & _ & M1 & S1). rewrite Ep in E0. injection E0 as <-.
      exists p1. done.
    + exists p. split; [|done]. apply SAME. done.
  - destruct (C23_route_delivers _ _ _ _ _ _ _ _ _ _ X) as (out & _ & TR & _).
    assert (E' : exists p', st_pools s' !! k = Some p').
    { destruct (C26_trade_keeps_positions e i s (SwapRoute amount_in expected_out slippage swaps) _ _ _ R ltac:(exact Logic.I) X) as (_ & _ & _ & _ & _ & A & _). apply A. eauto. }
    destruct E' as [p' E']. exists p'. split; [done|]. intros d W. destruct (trace_effect _ _ k d _ _ _ _ _ _ TR R W p Ep) as (p1 & E1 & S1). rewrite E' in E1. injection E1 as <-. done.
  - (* claim *)
    apply claim_fee_inv in H; [|done]. destruct H as (po & lt & ut & p0 & po' & p' & lt' & ut' & x & y & H).
    destruct H as (Epo & _ & _ & _ & Ep0 & PC & _ & _ & _ & _ & ES).
    destruct (decide (po_key po = k)) as [K|N]; [|apply QUIET; cbn [touches]; intros (q & Q1 & Q2); congruence].
    rewrite K in *. rewrite Ep in Ep0. injection Ep0 as <-. exists p'. split; [rewrite ES; cbn; apply lookup_insert|].
    unfold position_claim_fee in PC. inv_bind PC as [[[[[po1 p1] u1] l1] x1] y1] EM. apply Ok_inj in PC. injection PC as _ <- _ _ _ _.
    pose proof (modify_zero_liq _ _ _ _ _ _ _ _ _ _ _ _ EM) as LQ. apply position_modify_frame in EM. destruct EM as [(q & ->) _].
    split; [done|]. split; [by right|]. split; by right.
  - destruct (RM _ H) as (p' & E' & A & B & C). exists p'. split; [done|]. split; [done|]. split; [by left|]. split; by right.
  - assert (Q : st_pools s' !! k = Some p).
    { unfold create_pool in H. destruct (negb _); [done|]. inv_bind H as [] EC. inv_bind H as k0 EK. inv_bind H as b EB.
      destruct (st_pools s !! k0) eqn:E0; [done|]. inv_bind H as q EP. apply Ok_inj in H. injection H as <- _ _. cbn. rewrite lookup_insert_ne; [done|congruence]. }
    exists p. split; [done|]. split; [done|]. split; [done|]. split; by right.
  - destruct (decide (k0 = k)) as [->|N]; [|apply QUIET; cbn [touches]; done].
    destruct (CR _ _ _ _ _ _ H eq_refl) as (p' & E' & A & B & C). exists p'. split; [done|]. split; [done|]. split; [by left|]. split; by right.
  - unfold handle_burn in H. inv_bind H as po EG. destruct (split_token token_id) as [[o ix]|] eqn:T; [|done].
    inv_bind H as [] EC. destruct (RM _ H) as (p' & E' & A & B & C). exists p'. split; [done|]. split; [done|]. split; [by left|]. split; by right.
Qed.

(** ** C71: a limit matters only to swaps that reach it *)
Lemma delta_in_farther (down : bool) cur t t' L a a' : 0 <= t -> 0 <= t' -> 0 <= cur -> 0 <= L -> (if down then t' <= t <= cur else cur <= t <= t') ->
  delta_in down cur t L = Ok a -> delta_in down cur t' L = Ok a' -> a <= a'.
Proof.
  intros T0 T1 C0 HL D A A'. unfold delta_in in *.
  assert (M : Z.abs (t - cur) * L <= Z.abs (t' - cur) * L) by (apply Z.mul_le_mono_nonneg_r; [done|destruct down; lia]).
  destruct down.
  - apply delta_x_up in A, A'; [|lia..]. destruct A as (A0 & A1 & A2 & _), A' as (B0 & B1 & _ & B2).
    assert (N : numx t cur L <= numx t' cur L) by (apply Z.div_le_mono; [reflexivity|exact M]).
    assert (DD : t' * cur / SP_ONE <= t * cur / SP_ONE) by (apply Z.div_le_mono; [reflexivity|]; apply Z.mul_le_mono_nonneg_r; lia).
    set (q := t * cur / SP_ONE) in *. set (q' := t' * cur / SP_ONE) in *.
    assert (q' * a' <= q * a') by (apply Z.mul_le_mono_nonneg_r; lia).
    assert (X : q * (a - 1) < q * a') by lia. apply Z.mul_lt_mono_pos_l in X; lia.
  - replace (t - cur) with (- (cur - t)) in M by lia. replace (t' - cur) with (- (cur - t')) in M by lia. rewrite !Z.abs_opp in M.
    apply delta_y_up in A, A'. unfold E30 in *. lia.
Qed.
Lemma delta_out_farther cur t t' L a a' : 0 <= L -> t' <= t <= cur -> delta_out true cur t L = Ok a -> delta_out true cur t' L = Ok a' -> a <= a'.
Proof.
  intros HL D A A'. unfold delta_out in *.
  assert (M : Z.abs (t - cur) * L <= Z.abs (t' - cur) * L) by (apply Z.mul_le_mono_nonneg_r; [done|lia]).
  apply delta_y_down in A, A'. unfold E30 in *. lia.
Qed.

Lemma step_farther cur sl sl' L a (by_in : bool) fee r (down : bool) : step_args cur sl L a fee -> step_args cur sl' L a fee ->
  (if down then sl' <= sl <= cur else cur < sl <= sl') -> by_in = true \/ down = true ->
  compute_swap_step cur sl L a by_in fee = Ok r -> (if down then sl < sr_next r else sr_next r < sl) ->
  compute_swap_step cur sl' L a by_in fee = Ok r.
Proof.
  intros (A1 & A2 & A3 & A4 & A5) (_ & A2' & _) D M H N. unfold compute_swap_step in *. destruct (Z.eqb_spec L 0) as [|L0].
  { apply Ok_inj in H. subst r. cbn in N. destruct down; lia. }
  assert (PC : price_ok cur) by (unfold price_ok, MIN_SQRT_PRICE, MAX_SQRT_PRICE; lia).
  assert (PT : price_ok sl') by (unfold price_ok, MIN_SQRT_PRICE, MAX_SQRT_PRICE; lia).
  assert (LO : liq_ok L) by (unfold liq_ok, U128MAX; lia).
  assert (S1 : (sl <=? cur) = down) by (destruct down; [apply Z.leb_le|apply Z.leb_gt]; lia).
  assert (S2 : (sl' <=? cur) = down) by (destruct down; [apply Z.leb_le|apply Z.leb_gt]; lia).
  rewrite S1 in H. rewrite S2. inv_bind H as [[n a0] o0] E1.
  assert (NN : sr_next r = n) by (clear E1; inv_bind H as x1 Q1; inv_bind H as x2 Q2; inv_bind H as x3 Q3; apply Ok_inj in H; by subst r).
  rewrite NN in N. clear NN.
  assert (T1 : (sl =? n) = false) by (apply Z.eqb_neq; destruct down; lia).
  assert (T2 : (sl' =? n) = false) by (apply Z.eqb_neq; destruct down; lia).
  rewrite T1 in H. cbn [negb orb] in H.
  assert (E2 : exists a0' o0', (if by_in then
        let* comp := pct_complement fee in let* after_fee := big_mul PCT_ONE a comp in
        let* ain := (if down then get_delta_x sl' cur L true else get_delta_y cur sl' L true) in
        if ain <=? after_fee then Ok (sl', ain, 0) else let* n := get_next_sqrt_price_from_input cur L after_fee down in Ok (n, ain, 0)
      else
        let* aout := (if down then get_delta_y sl' cur L false else get_delta_x cur sl' L false) in
        if aout <=? a then Ok (sl', 0, aout) else let* n := get_next_sqrt_price_from_output cur L a down in Ok (n, 0, aout)) = Ok (n, a0', o0')).
  { destruct by_in.
    - inv_bind E1 as c Ec. inv_bind E1 as x Ex. inv_bind E1 as b Eb. rewrite Ec. cbn [bind]. rewrite Ex. cbn [bind].
      destruct (Z.leb_spec b x) as [Q|Q]. { injection E1 as <- _ _. destruct down; lia. }
      inv_bind E1 as n' En. injection E1 as -> _ _.
      assert (F : exists b', (if down then get_delta_x sl' cur L true else get_delta_y cur sl' L true) = Ok b').
      { destruct down; [by apply delta_x_fwd|by apply delta_y_fwd]. }
      destruct F as [b' F]. rewrite F. cbn [bind].
      pose proof (delta_in_farther down cur sl sl' L b b' ltac:(lia) ltac:(lia) ltac:(lia) ltac:(lia) ltac:(destruct down; lia) Eb F).
      rewrite (proj2 (Z.leb_gt b' x)) by lia. rewrite En. cbn [bind]. eauto.
    - destruct M as [M|M]; [done|]. subst down. inv_bind E1 as b Eb.
      destruct (Z.leb_spec b a) as [Q|Q]. { injection E1 as <- _ _. lia. }
      inv_bind E1 as n' En. injection E1 as -> _ _.
      destruct (delta_y_fwd sl' cur L false PT PC LO) as [b' F]. rewrite F. cbn [bind].
      pose proof (delta_out_farther cur sl sl' L b b' ltac:(lia) D Eb F).
      rewrite (proj2 (Z.leb_gt b' a)) by lia. rewrite En. cbn [bind]. eauto. }
  destruct E2 as (a0' & o0' & E2). rewrite E2. cbn [bind]. rewrite T2. cbn [negb orb]. exact H.
Qed.

Lemma pool_update_tick_price p r lim tk rem by_in d now f ft p' tk' add rem' c :
  pool_update_tick p r lim tk rem by_in d now f ft = Ok (p', tk', add, rem', c) -> p_price p' = p_price p.
Proof.
  unfold pool_update_tick. intros H. destruct (_ || _).
  { inv_bind H as j E. apply Ok_inj in H. simplify_eq. done. }
  inv_bind H as en E. inv_bind H as [[[[[p1 tk1] tot] rm] cr] ix] E2. apply Ok_inj in H. simplify_eq.
  destruct tk as [|t|j]; [done| |]; [|rinv E2; simplify_eq; done].
  destruct (negb d || en).
  { inv_bind E2 as [t' q] E3. apply (proj1 (unwrap_ok _ _)) in E3. apply tick_cross_inv in E3. destruct E3 as (_ & _ & _ & _ & l & -> & _). apply Ok_inj in E2. simplify_eq. done. }
  destruct (negb (rem =? 0)); [destruct by_in; [inv_bind E2 as q E3; apply add_fee_keeps in E3|]|]; apply Ok_inj in E2; simplify_eq; cbn; tauto.
Qed.

Definition beyond (d : bool) (lim lim' : Z) : Prop := if d then lim' <= lim else lim <= lim'.
Definition before (d : bool) (p lim : Z) : Prop := if d then lim < p else p < lim.
Lemma iter_farther s now k (d by_in : bool) lim lim' w w' : store_geo s k -> loop_inv k d lim w -> sw_remaining w <> 0 ->
  (forall t, is_init s k (spacing k) t -> is_Some (st_ticks s !! (k, t))) ->
  beyond d lim lim' -> by_in = true \/ d = true ->
  swap_iter s now k d by_in lim (end_tick d k) w = Ok w' -> before d (p_price (sw_pool w')) lim ->
  swap_iter s now k d by_in lim' (end_tick d k) w = Ok w'.
Proof.
  intros G I NR TK BY M H BF. pose proof (loop_pre s k d lim w G I NR) as PRE.
  pose proof (iter_cases _ _ _ _ _ _ _ _ _ H PRE) as (t & init & sl & r & p0 & rm0 & T & SL & SA & ST & SIDE & _).
  unfold swap_iter in *. unfold beyond, before in *. destruct PRE as [U HS HF HL HW HR HLim HRem]. pose proof HW as (WL & _ & _).
  inv_bind H as [sl0 li] E1.
  assert (E1' : exists sl1 li1, get_closer_limit s lim' d (p_tick (sw_pool w)) (spacing k) k = Ok (sl1, li1) /\
     (sl1 = sl0 /\ li1 = li \/ sl0 = lim /\ li = None /\ beyond d sl0 sl1)).
  { pose proof E1 as E. unfold get_closer_limit in E |- *. inv_bind E as cl EC. rewrite EC. cbn [bind]. inv_bind E as [ix ini] EI. rewrite EI. cbn [bind].
    inv_bind E as pr EP. rewrite EP. cbn [bind]. unfold beyond.
    destruct d; cbn [andb orb negb] in E |- *; rewrite ?orb_false_r in *.
    - destruct (Z.ltb_spec lim pr) as [Q|Q]; apply Ok_inj in E; injection E as <- <-.
      + rewrite (proj2 (Z.ltb_lt lim' pr)) by lia. eexists _, _. split; [done|]. by left.
      + destruct (lim' <? pr); eexists _, _; (split; [done|]); right; (split; [done|]); (split; [done|lia]).
    - destruct (Z.ltb_spec pr lim) as [Q|Q]; apply Ok_inj in E; injection E as <- <-.
      + rewrite (proj2 (Z.ltb_lt pr lim')) by lia. eexists _, _. split; [done|]. by left.
      + destruct (pr <? lim'); eexists _, _; (split; [done|]); right; (split; [done|]); (split; [done|lia]). }
  destruct E1' as (sl1 & li1 & CL' & CS). rewrite CL'. cbn [bind]. inv_bind H as r0 E2.
  assert (PR : p_price (sw_pool w') = sr_next r0).
  { clear - H. inv_bind H as pd E3. inv_bind H as rm0 E4. inv_bind H as p0 E5. inv_bind H as fe E6. inv_bind H as ti E7. inv_bind H as to E8.
    destruct (_ && _); [done|]. inv_bind H as tk E9. inv_bind H as [[[[p1 tk'] ad] rm1] c] E10. inv_bind H as ti' E11. destruct (if d then _ else _); [done|].
    apply Ok_inj in H. subst w'. cbn. apply pool_update_tick_price in E10. done. }
  rewrite PR in BF. clear PR.
  assert (NL' : (sr_next r0 =? lim') = false) by (apply Z.eqb_neq; destruct d; lia).
  destruct CS as [[-> ->]|(-> & -> & BY')].
  - rewrite E2. cbn [bind]. inv_bind H as pd E3. rewrite E3. cbn [bind]. inv_bind H as rm1 E4. rewrite E4. cbn [bind]. inv_bind H as p1 E5. rewrite E5. cbn [bind].
    inv_bind H as fe E6. rewrite E6. cbn [bind]. inv_bind H as ti E7. rewrite E7. cbn [bind]. inv_bind H as to E8. rewrite E8. cbn [bind].
    destruct (_ && _); [done|]. cbn [p_price p_set_price]. rewrite NL'. cbn [andb]. exact H.
  - pose proof (closer_limit _ _ _ _ _ _ _ _ U (proj1 HS) WL E1) as (t1 & i1 & (L1 & _ & _) & [(? & _)|(_ & _ & C1)]); [done|].
    pose proof (closer_limit _ _ _ _ _ _ _ _ U (proj1 HS) WL CL') as (t2 & i2 & T2 & C2).
    pose proof (legal_price_range _ _ L1) as R1. pose proof (legal_price_range _ _ (proj1 T2)) as R2. destruct SA as (A1 & _ & A3).
    assert (SA' : forall x, MIN_SQRT_PRICE <= x <= MAX_SQRT_PRICE -> step_args (p_price (sw_pool w)) x (p_liq (sw_pool w)) (sw_remaining w) (ft_fee (pk_tier k))) by (intros x X; split; [exact A1|]; split; [exact X|exact A3]).
    assert (X1 : MIN_SQRT_PRICE <= lim <= MAX_SQRT_PRICE) by (unfold MIN_SQRT_PRICE, MAX_SQRT_PRICE in *; destruct d; lia).
    assert (X2 : MIN_SQRT_PRICE <= sl1 <= MAX_SQRT_PRICE).
    { unfold MIN_SQRT_PRICE, MAX_SQRT_PRICE in *. destruct C2 as [(_ & -> & _)|(_ & -> & C2)]; [lia|]. destruct d; lia. }
    assert (E2' : compute_swap_step (p_price (sw_pool w)) sl1 (p_liq (sw_pool w)) (sw_remaining w) by_in (ft_fee (pk_tier k)) = Ok r0).
    { eapply (step_farther _ lim sl1 _ _ _ _ _ d); try done; try (by apply SA'). unfold beyond in BY'. destruct d; lia. }
    rewrite E2'. cbn [bind]. inv_bind H as pd E3. rewrite E3. cbn [bind]. inv_bind H as rm1 E4. rewrite E4. cbn [bind]. inv_bind H as p1 E5. rewrite E5. cbn [bind].
    inv_bind H as fe E6. rewrite E6. cbn [bind]. inv_bind H as ti E7. rewrite E7. cbn [bind]. inv_bind H as to E8. rewrite E8. cbn [bind].
    destruct (_ && _); [done|]. cbn [p_price p_set_price]. rewrite NL'. cbn [andb]. cbn [bind] in H.
    assert (TT : exists tk, (match li1 with Some (i, true) => let* t := State.get_tick s k i in Ok (TickInitialized t) | Some (i, false) => Ok (TickUninitialized i) | None => Ok NoTick end) = Ok tk).
    { destruct C2 as [(-> & _ & _)|(-> & _ & _)]; [|eauto]. destruct i2; [|eauto]. destruct T2 as (_ & T2 & _). destruct (TK _ T2) as [tk Etk].
      unfold State.get_tick. rewrite Etk. cbn [bind]. eauto. }
    destruct TT as [tk TT]. rewrite TT. cbn [bind]. inv_bind H as [[[[p2 tk'] ad] rm2] c] E10.
    unfold pool_update_tick in E10 |- *. cbn [orb] in E10.
    assert (NS : (sl1 =? sr_next r0) = false) by (apply Z.eqb_neq; unfold beyond in BY'; destruct d; lia). rewrite NS. cbn [negb]. rewrite orb_true_r.
    inv_bind E10 as c' EC. rewrite EC. cbn [bind]. apply Ok_inj in E10. injection E10 as <- <- <- <- <-. inv_bind H as ti' E11. rewrite E11. cbn [bind].
    destruct (if d then _ else _); [done|]. apply Ok_inj in H. subst w'. f_equal. f_equal. by destruct tk.
Qed.

Lemma loop_farther s now k (d by_in : bool) lim lim' : store_geo s k ->
  (forall t, is_init s k (spacing k) t -> is_Some (st_ticks s !! (k, t))) -> beyond d lim lim' -> by_in = true \/ d = true ->
  forall g w w', loop_inv k d lim w -> swap_loop g s now k d by_in lim (end_tick d k) w = Ok w' -> before d (p_price (sw_pool w')) lim ->
  swap_loop g s now k d by_in lim' (end_tick d k) w = Ok w'.
Proof.
  intros G TK BY M. induction g as [|g IH]; intros w w' I H BF; cbn in H |- *; destruct (Z.eqb_spec (sw_remaining w) 0) as [|NR]; try done.
  inv_bind H as w1 E. pose proof (loop_step _ _ _ _ _ _ _ _ G I NR E) as [PO I1].
  pose proof (run_geo _ _ _ _ _ _ _ _ G I1 (swap_loop_run _ _ _ _ _ _ _ _ _ H)) as (_ & _ & MV).
  erewrite iter_farther; [|exact G|exact I|exact NR|exact TK|exact BY|exact M|exact E|unfold before in *; destruct d; lia].
  cbn [bind]. by apply IH.
Qed.

(** A swap that ends strictly before its price limit does not depend on the limit: any looser limit gives the same outcome.
    Missing from C71: rising swaps for an exact output, see the counterexample below. *)
Theorem C71_limit_partial e i s k (d : bool) a by_in lim lim' s' ms at' p' : reachable s ->
  execute e i s (Swap k d a by_in lim) = Ok (s', ms, at') -> st_pools s' !! k = Some p' ->
  (if d then lim < p_price p' else p_price p' < lim) ->
  0 <= lim' < 2 ^ 128 -> (if d then lim' <= lim else lim <= lim') ->
  by_in = true \/ d = true ->
  execute e i s (Swap k d a by_in lim') = Ok (s', ms, at').
Proof.
  intros R H Ep' BF L' BY M. destruct (execute_swap_inv _ _ _ _ _ _ _ _ _ _ _ R H) as (r & p & C & _ & Ep & Ep1 & Ha & Hl & _).
  rewrite Ep' in Ep1. injection Ep1 as ->.
  apply reachable_ereach in R. pose proof (ereach_store_geo _ _ _ R Ep) as G. pose proof (ereach_geo _ R _ _ Ep) as PG.
  assert (TK : forall t, is_init s k (spacing k) t -> is_Some (st_ticks s !! (k, t))) by (intros t; apply (lq_init _ (ereach_liq _ R)); eauto).
  assert (C' : calculate_swap (e_gas e) s (e_millis e) k d a by_in lim' = Ok r).
  { unfold calculate_swap in C |- *. destruct (Z.eqb_spec a 0); [done|]. unfold get_pool in C |- *. rewrite Ep in C |- *. cbn [bind] in C |- *.
    destruct (if d then _ else _) eqn:X in C; [done|]. inv_bind C as w E.
    assert (D : if d then lim < p_price p else p_price p < lim) by (destruct d; apply orb_false_iff in X; destruct X as [X _]; apply Z.leb_gt in X; lia).
    assert (X' : (if d then (p_price p <=? lim') || (MAX_SQRT_PRICE <? lim') else (lim' <=? p_price p) || (lim' <? MIN_SQRT_PRICE)) = false).
    { destruct d; apply orb_false_iff in X; destruct X as [X1 X2]; apply orb_false_iff; apply Z.leb_gt in X1; apply Z.ltb_ge in X2; rewrite Z.leb_gt, Z.ltb_ge; lia. }
    rewrite X'. pose proof (loop_start k d lim p a PG Ha D) as I.
    change (if d then get_min_tick (spacing k) else get_max_tick (spacing k)) with (end_tick d k) in *.
    destruct (Z.eqb_spec (sw_out w) 0) as [|NO]; [done|]. apply Ok_inj in C. subst r. cbn [cr_pool] in BF.
    erewrite loop_farther; [|exact G|exact TK|exact BY|exact M|exact I|exact E|exact BF]. cbn [bind].
    rewrite (proj2 (Z.eqb_neq _ _) NO). done. }
  unfold execute in H |- *. destruct (env_typed e i && msg_typed (Swap k d a by_in lim)) eqn:ET; [|done].
  assert (ET' : env_typed e i && msg_typed (Swap k d a by_in lim') = true).
  { apply andb_true_iff in ET. destruct ET as [T M1]. rewrite T. cbn [andb]. cbn [msg_typed] in M1 |- *. apply andb_true_iff in M1. destruct M1 as [M1 _].
    rewrite M1. cbn [andb]. apply in_range_spec. unfold U128MAX. lia. }
  rewrite ET'. cbn [dispatch] in H |- *. unfold swap, swap_internal in H |- *. rewrite C'. rewrite C in H. exact H.
Qed.

(** False for rising swaps with an exact output, by rounding: reaching the looser limit seems to yield one unit less than reaching the
    tighter one, just the amount asked for.  So the swap goes all the way to the looser limit and costs more, although the same swap
    with the tighter limit stops before that limit. *)
Definition lm_tier : fee_tier := mkFeeTier 3000000000 100.
Definition lm_key : pool_key := mkPoolKey "tokenx" "tokeny" lm_tier.
Definition lm_calls : list (string * exec_msg) :=
  [("alice", AddFeeTier lm_tier);
   ("alice", CreatePool "tokenx" "tokeny" lm_tier 1100000000000000000000001 1900);
   ("alice", CreatePosition lm_key (-10000) 30000 1000000000000000000000000000 15258932000000000000 65535383934512647000000000000)]%string.
Definition lm_store : store :=
  match start 10000000000 lm_calls with Ok s => s | _ => mkStore (mkConfig "" [] 0) ∅ ∅ ∅ ∅ ∅ ∅ end.
Lemma lm_store_ok : start 10000000000 lm_calls = Ok lm_store.
Proof. unfold lm_store. destruct (start 10000000000 lm_calls) eqn:E; [reflexivity|exfalso|exfalso];
  assert (is_ok (start 10000000000 lm_calls) = true) as X by (vm_compute; reflexivity); rewrite E in X; discriminate. Qed.
Definition lm_swap (lim : Z) : res response := execute v_env (v_info "carol") lm_store (Swap lm_key false 586843701085392793368 false lim).
Theorem C71_limit_refuted : exists s k a lim lim' s1 m1 total1 p1 s2 m2 total2, reachable s /\
  execute v_env (v_info "carol") s (Swap k false a false lim) = Ok (s1, m1, [("amount_in"%string, total1); ("amount_out"%string, a)]) /\
  st_pools s1 !! k = Some p1 /\ p_price p1 < lim /\ lim < lim' /\
  execute v_env (v_info "carol") s (Swap k false a false lim') = Ok (s2, m2, [("amount_in"%string, total2); ("amount_out"%string, a)]) /\
  total1 < total2.
Proof.
  assert (X : match lm_swap 3103207646667591246569618, lm_swap 3103207646667591246569619 with
    | Ok (s1, _, a1), Ok (_, _, a2) => a1 = [("amount_in", 2009217269607594020300); ("amount_out", 586843701085392793368)]%string /\
        a2 = [("amount_in", 2009217269607594020310); ("amount_out", 586843701085392793368)]%string /\
        match st_pools s1 !! lm_key with Some p' => p_price p' = 3103207646667591246559988 | None => False end
    | _, _ => False end) by (vm_compute; repeat split; reflexivity).
  destruct (lm_swap 3103207646667591246569618) as [[[s1 m1] a1]| |] eqn:E1; [|destruct X..].
  destruct (lm_swap 3103207646667591246569619) as [[[s2 m2] a2]| |] eqn:E2; [|destruct X..].
  destruct X as (-> & -> & X). destruct (st_pools s1 !! lm_key) as [p1|] eqn:EP; [|destruct X].
  exists lm_store, lm_key, 586843701085392793368, 3103207646667591246569618, 3103207646667591246569619, s1, m1, 2009217269607594020300, p1, s2, m2, 2009217269607594020310.
  split; [exact (start_reachable _ _ _ lm_store_ok)|]. split; [exact E1|]. split; [exact EP|]. split; [rewrite X; reflexivity|]. split; [reflexivity|]. split; [exact E2|reflexivity].
Qed.

(** a falling exact-input swap that stops before its limit, so that every looser limit gives the same *)
Example ex_C69_C71 :
  match execute v_env (v_info "bob") sc0 (Swap v_key true 11000 true 900000000000000000000000), st_pools sc0 !! v_key with
  | Ok (s', _, a), Some p => match st_pools s' !! v_key with
      | Some p' => a = [("amount_in", 11000); ("amount_out", 10924)]%string /\ 900000000000000000000000 < p_price p' < p_price p /\
                   p_fgx p < p_fgx p' /\ p_fgy p' = p_fgy p /\ p_proty p' = p_proty p /\ p_protx p < p_protx p'
      | None => False end
  | _, _ => False
  end.
Proof. vm_compute. repeat split; reflexivity. Qed.
(** a claim, which keeps price, tick, growth and liquidity *)
Example ex_C70 : is_ok (execute v_env (v_info "alice") sc0 (ClaimFee 0)) = true.
Proof. vm_compute. reflexivity. Qed.
