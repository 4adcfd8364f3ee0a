(** C111: a trader meets the liquidity at each price and nothing else. *)
From Verif Require Import Base Decimal SqrtPrice Clamm Log FeeGrowth Types Tick Pool Position
  Tickmap Keys State Swap Exec Query Tactics PriceProofs ClammProofs BitmapProofs Frame Handlers History Basic PosList Ledger Vectors Scenario SwapInv SwapGeo SwapLoop Modify PSum LiqInv
  Geo Ops Clean CleanSuff Growth PropTrade PropPerm PropLocal PropLiq PropSolv PropClock PropOk PropOrder PropGauge PropState.
From stdpp Require Import gmap strings.
From Coq Require Import Lia.
Open Scope Z_scope.

(** ** What trades read *)
Definition cpool (p q : pool) : Prop :=
  q = mkPool (p_liq p) (p_price p) (p_tick p) (p_fgx q) (p_fgy q) (p_protx p) (p_proty p) (p_start p) (p_last q) (p_receiver q) /\ 0 <= p_liq p <= U128MAX.
Definition ctk (x y : tick) : Prop := t_index y = t_index x /\ t_change y = t_change x /\ signed x y.
Record ck (s t : store) : Prop := {
  ck_fee : cf_protocol_fee (st_config t) = cf_protocol_fee (st_config s);
  ck_pool k : option_Forall2 cpool (st_pools s !! k) (st_pools t !! k);
  ck_tick k j : option_Forall2 ctk (st_ticks s !! (k, j)) (st_ticks t !! (k, j));
  ck_bitmap k c : bitmap_chunk t k c = bitmap_chunk s k c
}.
Lemma ck_save s t k p q : ck s t -> cpool p q -> ck (save_pool s k p) (save_pool t k q).
Proof.
  intros A E. destruct A. constructor; cbn; try done. intros k'. destruct (decide (k' = k)) as [->|N];
    [rewrite !lookup_insert|rewrite !lookup_insert_ne by congruence; done]. by constructor.
Qed.
Lemma ck_update_tick s t k j x y : ck s t -> ctk x y -> both ck (update_tick s k j x) (update_tick t k j y).
Proof.
  intros L E. unfold update_tick. pose proof (ck_tick _ _ L k j) as H. destruct H; [|done]. destruct L. constructor; cbn; try done.
  intros k' j'. destruct (decide ((k', j') = (k, j))) as [X|N]; [injection X as -> ->; rewrite !lookup_insert; by constructor|rewrite !lookup_insert_ne by congruence; done].
Qed.
Lemma ck_next s t k m : ck s t -> forall sp c b lc lb, next_loop m t k sp c b lc lb = next_loop m s k sp c b lc lb.
Proof. intros L. induction m as [|m IH]; intros; cbn; [done|]. by rewrite (ck_bitmap _ _ L), IH. Qed.
Lemma ck_prev s t k m : ck s t -> forall sp c b lc lb, prev_loop m t k sp c b lc lb = prev_loop m s k sp c b lc lb.
Proof. intros L. induction m as [|m IH]; intros; cbn; [done|]. by rewrite (ck_bitmap _ _ L), IH. Qed.
Lemma ck_limit s t k lim d c0 sp : ck s t -> get_closer_limit t lim d c0 sp k = get_closer_limit s lim d c0 sp k.
Proof.
  intros L. unfold get_closer_limit. f_equal. destruct d.
  - unfold prev_initialized. destruct (sp =? 0); [done|]. apply bind_ext. intros [c b]. apply bind_ext.
    intros [lc lb]. by rewrite (ck_prev _ _ _ _ L).
  - unfold next_initialized. destruct (sp =? 0); [done|]. destruct (_ <? _); [done|]. apply bind_ext. intros [c b]. apply bind_ext.
    intros [lc lb]. by rewrite (ck_next _ _ _ _ L).
Qed.

(** ** Trades *)
Section Trade.
Context (n : Z) (k : pool_key).
Lemma cp_add_fee p q a x f : cpool p q -> both cpool (add_fee p a x f) (add_fee q a x f).
Proof.
  intros [E LR]. unfold add_fee. apply both_eq; [done|]. intros pt _. apply both_eq; [done|]. intros pf _.
  replace (p_liq q) with (p_liq p) by (rewrite E; done). destruct (_ || _); [done|]. apply both_eq; [done|]. intros g _. destruct x.
  - replace (p_protx q) with (p_protx p) by (rewrite E; done). apply both_eq; [done|]. intros r _. cbn. split; [rewrite E; done|exact LR].
  - replace (p_proty q) with (p_proty p) by (rewrite E; done). apply both_eq; [done|]. intros r _. cbn. split; [rewrite E; done|exact LR].
Qed.
Lemma cp_set_price p q v : cpool p q -> cpool (p_set_price p v) (p_set_price q v).
Proof. intros [E LR]. split; [rewrite E; done|exact LR]. Qed.
Lemma cp_set_tick p q v : cpool p q -> cpool (p_set_tick p v) (p_set_tick q v).
Proof. intros [E LR]. split; [rewrite E; done|exact LR]. Qed.
Definition ctp (a b : tick * pool) : Prop := ctk (fst a) (fst b) /\ cpool (snd a) (snd b).
Lemma cp_cross x y p q : ctk x y -> cpool p q -> both ctp (tick_cross x p n) (tick_cross y q n).
Proof.
  intros (IX & CX & SG) H. unfold tick_cross. pose proof H as [E LR]. replace (p_start q) with (p_start p) by (rewrite E; done).
  apply both_eq; [done|]. intros se _. rewrite IX, CX.
  replace (p_tick q) with (p_tick p) by (rewrite E; done). replace (p_liq q) with (p_liq p) by (rewrite E; done).
  assert (CR : forall l, (if xorb (t_index x <=? p_tick p) (t_sign x) then add_e PoolAddTickLiquidityOverflow (p_liq p) (t_change x) else sub_e PoolSubTickLiquidityUnderflow (p_liq p) (t_change x)) = Ok l -> 0 <= l <= U128MAX).
  { intros l. unfold add_e, sub_e. destruct (xorb _ _); intros Q; apply ck_ok in Q; lia. }
  assert (Q : (if xorb (t_index x <=? p_tick p) (t_sign y) then add_e PoolAddTickLiquidityOverflow (p_liq p) (t_change x) else sub_e PoolSubTickLiquidityUnderflow (p_liq p) (t_change x)) =
     (if xorb (t_index x <=? p_tick p) (t_sign x) then add_e PoolAddTickLiquidityOverflow (p_liq p) (t_change x) else sub_e PoolSubTickLiquidityUnderflow (p_liq p) (t_change x))).
  { destruct SG as [->|Z0]; [done|]. rewrite Z0. unfold add_e, sub_e in *.
    assert (A : forall er v, v = p_liq p -> Verif.Base.ck er U128MAX v = Ok (p_liq p)) by (intros er v ->; by apply ck_ok).
    destruct (xorb _ _), (xorb _ _); rewrite !A by lia; done. }
  rewrite Q. apply both_eq; [done|]. intros l EL. specialize (CR l EL).
  split; [|split; [cbn; rewrite E; done|exact CR]]. cbn [fst]. split_and!; [done|done|exact SG].
Qed.
Definition c_rel (a b : update_pool_tick) : Prop :=
  match a, b with
  | NoTick, NoTick => True
  | TickInitialized x, TickInitialized y => ctk x y
  | TickUninitialized i, TickUninitialized j => i = j
  | _, _ => False
  end.
Definition c_put (a b : pool * update_pool_tick * Z * Z * bool) : Prop :=
  let '(p, tk, tot, rem, cr) := a in let '(q, tk', tot', rem', cr') := b in
  cpool p q /\ c_rel tk tk' /\ tot' = tot /\ rem' = rem /\ cr' = cr.
Lemma cp_put_tick p q r lim tk tk' rem by_in d f ft : cpool p q -> c_rel tk tk' ->
  both c_put (pool_update_tick p r lim tk rem by_in d n f ft) (pool_update_tick q r lim tk' rem by_in d n f ft).
Proof.
  intros H T. unfold pool_update_tick.
  assert (K : match tk' with NoTick => true | _ => false end = match tk with NoTick => true | _ => false end).
  { by destruct tk, tk'. }
  rewrite K. destruct (_ || _).
  - apply both_eq; [done|]. intros j _. split_and!; [by apply cp_set_tick|done..].
  - pose proof H as [E _]. replace (p_liq q) with (p_liq p) by (rewrite E; done).
    apply both_eq; [done|]. intros en _.
    eapply (both_bind (fun a b : pool * update_pool_tick * Z * Z * bool * Z => c_put (fst a) (fst b) /\ snd a = snd b)).
    + destruct tk as [|x|j], tk' as [|y|j']; try done. cbn in T. rewrite (proj1 T). destruct (negb d || en).
      * eapply (both_bind ctp).
        { pose proof (cp_cross x y p q T H) as C. unfold both in *. destruct (tick_cross x p n), (tick_cross y q n); cbn; done. }
        intros [x' p'] [y' q'] (A & A'). cbn in A, A'. split; [|done]. split_and!; done.
      * destruct (negb (rem =? 0)); [|done]. destruct by_in; [|done]. eapply both_bind; [by apply cp_add_fee|]. intros p' q' H'. done.
    + intros [[[[[p1 tk1] tot1] rem1] cr1] ix1] [[[[[q1 tk2] tot2] rem2] cr2] ix2] ((H1 & T1 & -> & -> & ->) & I).
      cbn in I. subst. split_and!; [by apply cp_set_tick|done..].
Qed.
Definition cw (w v : swap_state) : Prop :=
  cpool (sw_pool w) (sw_pool v) /\ sw_remaining v = sw_remaining w /\ sw_in v = sw_in w /\ sw_out v = sw_out w /\
  sw_fee v = sw_fee w /\ Forall2 ctk (sw_ticks w) (sw_ticks v).
Lemma ck_iter s t d b lim tl w v : ck s t -> cw w v -> both cw (swap_iter s n k d b lim tl w) (swap_iter t n k d b lim tl v).
Proof.
  intros L (H & E1 & E2 & E3 & E4 & F). unfold swap_iter. rewrite (ck_limit _ _ _ _ _ _ _ L), (ck_fee _ _ L).
  rewrite E1, E2, E3, E4. pose proof H as [E _].
  replace (p_tick (sw_pool v)) with (p_tick (sw_pool w)) by (rewrite E; done).
  replace (p_price (sw_pool v)) with (p_price (sw_pool w)) by (rewrite E; done).
  replace (p_liq (sw_pool v)) with (p_liq (sw_pool w)) by (rewrite E; done).
  apply both_eq; [done|]. intros [sl li] _. do 3 (apply both_eq; [done|]; intros ? _).
  eapply both_bind; [by apply cp_add_fee|]. intros p q H1. do 3 (apply both_eq; [done|]; intros ? _).
  cbn [p_price p_set_price]. destruct (_ && _); [done|].
  eapply (both_bind c_rel).
  { destruct li as [[j []]|]; try done. eapply (both_bind ctk); [|done]. unfold get_tick. pose proof (ck_tick _ _ L k j) as Q. by destruct Q. }
  intros tk tk' T. eapply both_bind; [apply cp_put_tick; [by apply cp_set_price|done]|].
  intros [[[[p1 tk1] tot1] rem1] cr1] [[[[q1 tk2] tot2] rem2] cr2] (H2 & T2 & -> & -> & ->).
  apply both_eq; [done|]. intros tin _.
  replace (p_tick q1) with (p_tick p1) by (destruct H2 as [H2 _]; rewrite H2; done).
  destruct (if d then _ else _); [done|]. split_and!; try done. cbn.
  destruct tk1, tk2; try done. destruct cr1; [|done]. apply Forall2_app; [done|]. by constructor.
Qed.
Lemma ck_loop s t d b lim tl g : ck s t -> forall w v, cw w v -> both cw (swap_loop g s n k d b lim tl w) (swap_loop g t n k d b lim tl v).
Proof.
  intros L. induction g as [|g IH]; intros w v W; cbn; rewrite (proj1 (proj2 W)); destruct (_ =? _); try done.
  eapply both_bind; [by apply ck_iter|]. exact IH.
Qed.
Definition ccr (a b : calc_result) : Prop :=
  cr_in b = cr_in a /\ cr_out b = cr_out a /\ cr_start b = cr_start a /\ cr_target b = cr_target a /\ cr_fee b = cr_fee a /\
  cpool (cr_pool a) (cr_pool b) /\ Forall2 ctk (cr_ticks a) (cr_ticks b).
Lemma ck_calc s t g d a b lim : ck s t -> both ccr (calculate_swap g s n k d a b lim) (calculate_swap g t n k d a b lim).
Proof.
  intros L. unfold calculate_swap. destruct (a =? 0); [done|].
  eapply (both_bind cpool). { unfold get_pool. pose proof (ck_pool _ _ L k) as Q. by destruct Q. }
  intros p q H. replace (p_price q) with (p_price p) by (destruct H as [H _]; rewrite H; done).
  destruct (if d then _ else _); [done|]. eapply both_bind; [apply ck_loop; [exact L|]; split_and!; [exact H|done..|constructor]|].
  intros w v (H1 & E1 & E2 & E3 & E4 & F). rewrite E3. destruct (_ =? 0); [done|].
  split_and!; try done. cbn. destruct H1 as [H1 _]. rewrite H1. done.
Qed.
End Trade.
Lemma ck_update_ticks k l l' : Forall2 ctk l l' -> forall s t, ck s t -> both ck (update_ticks s k l) (update_ticks t k l').
Proof.
  induction 1 as [|x y l l' X F IH]; intros s t L; cbn; [done|]. rewrite (proj1 X). eapply both_bind; [by apply ck_update_tick|]. auto.
Qed.
Definition ck3 {A B} (R : B -> B -> Prop) (p q : store * A * B) : Prop := ck (fst (fst p)) (fst (fst q)) /\ snd (fst q) = snd (fst p) /\ R (snd p) (snd q).
Lemma ck_swap_internal e i s t k d a b lim : ck s t -> both (ck3 ccr) (swap_internal e i s k d a b lim) (swap_internal e i t k d a b lim).
Proof.
  intros L. unfold swap_internal. eapply both_bind; [by apply ck_calc|]. intros r q C. pose proof C as (E1 & E2 & _ & _ & _ & H & F).
  eapply both_bind; [by apply ck_update_ticks|]. intros s1 t1 L1. rewrite E1, E2.
  destruct d; (apply both_eq; [done|]); intros m _; (split_and!; [by apply ck_save|done|done]).
Qed.
Lemma ck_route e i hops : forall s t a, ck s t -> both (ck3 eq) (swap_route_internal e i s a hops) (swap_route_internal e i t a hops).
Proof.
  induction hops as [|h hops IH]; intros s t a L; cbn [swap_route_internal]; [done|].
  eapply both_bind; [by apply ck_swap_internal|]. intros [[s1 m1] r1] [[t1 n1] q1] (L1 & E1 & E2). cbn in E1, E2, L1. subst. rewrite (proj1 (proj2 E2)).
  eapply both_bind; [by apply IH|]. intros [[s2 m2] r2] [[t2 n2] q2] (L2 & F1 & F2). cbn in F1, F2. subst. done.
Qed.

(** * The curve *)
Definition trade_terms (p q : pool) : Prop :=
  p_liq q = p_liq p /\ p_price q = p_price p /\ p_tick q = p_tick p /\ p_protx q = p_protx p /\ p_proty q = p_proty p /\ p_start q = p_start p.
(** liquidity held around tick [c], whoever holds it and in however many positions *)
Definition depth (s : store) (k : pool_key) (c : Z) : Z :=
  sumZ (map (fun x : string * Z * position => let po := snd x in if decide (po_key po = k) then if (po_lower po <=? c) && (c <? po_upper po) then po_liq po else 0 else 0) (map_to_list (st_positions s))).
Definition ends_at (s : store) (k : pool_key) (c : Z) : Prop :=
  exists x po, st_positions s !! x = Some po /\ po_key po = k /\ (po_lower po = c \/ po_upper po = c).
Record same_curve (s t : store) : Prop := {
  sc_fee : cf_protocol_fee (st_config t) = cf_protocol_fee (st_config s);
  sc_pool k : option_Forall2 trade_terms (st_pools s !! k) (st_pools t !! k);
  sc_depth k c : depth t k c = depth s k c;
  sc_ends k c : ends_at s k c <-> ends_at t k c
}.
Lemma psum_list f m : psum f m = sumZ (map (fun x : string * Z * position => f (snd x)) (map_to_list m)).
Proof. unfold psum, map_fold, sumZ, compose. induction (map_to_list m) as [|[x po] l IH]; [done|]. cbn in *. by rewrite IH. Qed.
Lemma depth_act s k c : depth s k c = Clean.act s k c.
Proof. unfold Clean.act. rewrite psum_list. done. Qed.
Lemma net_depth s k c : liq_inv s -> psum (net_at k c) (st_positions s) = depth s k c - depth s k (c - 1).
Proof.
  intros LI. rewrite !depth_act. unfold Clean.act. rewrite <- psum_sub. apply psum_ext. intros x po E. destruct (lq_pos _ LI _ _ E) as [(_ & _ & _ & LU) _].
  unfold net_at, active_at, at_key, in_range_tick. destruct (decide _); [|lia].
  destruct (Z.eqb_spec (po_lower po) c), (Z.eqb_spec (po_upper po) c), (Z.leb_spec (po_lower po) c), (Z.leb_spec (po_lower po) (c - 1)), (Z.ltb_spec c (po_upper po)), (Z.ltb_spec (c - 1) (po_upper po)); cbn; lia.
Qed.
Lemma gross_nonneg s k c : liq_inv s -> forall x po, st_positions s !! x = Some po -> 0 <= gross_at k c po.
Proof.
  intros LI x po E. destruct (lq_pos _ LI _ _ E) as [(L0 & _) _]. unfold gross_at, at_key. destruct (decide _); [|lia]. destruct (_ =? _), (_ =? _); lia.
Qed.
Lemma ends_tick s k c : liq_inv s -> is_Some (st_ticks s !! (k, c)) <-> ends_at s k c.
Proof.
  intros LI. pose proof (lq_tick _ LI k c) as G. pose proof (gross_nonneg s k c LI) as NN. split.
  - intros [t T]. rewrite T in G. destruct G as [G GG]. rewrite (tp_gross _ _ _ _ G) in GG. destruct (psum_pos _ _ NN ltac:(lia)) as (x & po & E & P).
    exists x, po. split; [done|]. unfold gross_at, at_key in P. destruct (decide (po_key po = k)); [|lia]. split; [done|].
    destruct (Z.eqb_spec (po_lower po) c), (Z.eqb_spec (po_upper po) c); auto; lia.
  - intros (x & po & E & K & B). destruct (st_ticks s !! (k, c)); [eauto|]. exfalso. cbn in G. pose proof (psum_ge _ _ _ _ NN E) as P. rewrite G in P.
    destruct (lq_pos _ LI _ _ E) as [(L0 & _) _]. unfold gross_at, at_key in P. rewrite decide_True in P by done.
    destruct B as [B|B]; rewrite B, Z.eqb_refl in P; destruct (_ =? _) in P; lia.
Qed.
Lemma curve_ck s t : ereach s -> ereach t -> same_curve s t -> ck s t.
Proof.
  intros R R' M. pose proof (ereach_liq _ R) as LI. pose proof (ereach_liq _ R') as LI'. destruct (liq_ranges _ R) as [PR _].
  assert (IS : forall k j, is_Some (st_ticks s !! (k, j)) <-> is_Some (st_ticks t !! (k, j))).
  { intros k j. rewrite !ends_tick by done. apply M. }
  constructor; [apply M| | |].
  - intros k. pose proof (sc_pool _ _ M k) as O. destruct (st_pools s !! k) as [p|] eqn:E; [|rewrite (PropClock.of2_none _ _ O); constructor].
    destruct (PropClock.of2_some _ _ _ O) as (q & E' & H1 & H2 & H3 & H4 & H5 & H6). rewrite E'. constructor.
    split; [rewrite <- H1, <- H2, <- H3, <- H4, <- H5, <- H6; by destruct q|by eapply PR].
  - intros k j. pose proof (IS k j) as I. pose proof (lq_tick _ LI k j) as G. pose proof (lq_tick _ LI' k j) as G'.
    assert (SN : psum (net_at k j) (st_positions t) = psum (net_at k j) (st_positions s)) by (rewrite !net_depth, !(sc_depth _ _ M) by done; done).
    destruct (st_ticks s !! (k, j)) as [x|], (st_ticks t !! (k, j)) as [y|].
    + constructor. destruct G as [[I1 _ Z1 _ Y1 _] _], G' as [[I2 _ Z2 _ Y2 _] _]. rewrite SN, <- Y1 in Y2. clear Y1.
      assert (Q : t_change y = t_change x /\ signed x y).
      { unfold signed. unfold net, pm in Y2. destruct (t_sign x), (t_sign y); (split; [lia|]); try (by left); right; lia. }
      destruct Q as [Q1 Q2]. split; [by rewrite I1|]. done.
    + destruct (proj1 I ltac:(eauto)) as [? Q]. discriminate Q.
    + destruct (proj2 I ltac:(eauto)) as [? Q]. discriminate Q.
    + constructor.
  - intros k c. by apply bitmap_told.
Qed.
(** ** One trade *)
Definition told (p q : store * list out_msg * list (string * Z)) : Prop := ck (fst (fst p)) (fst (fst q)) /\ snd (fst q) = snd (fst p) /\ snd q = snd p.
Lemma ck_execute e i s t m : ck s t -> is_trade m -> both told (execute e i s m) (execute e i t m).
Proof.
  intros L W. unfold execute. destruct (_ && _); [|done]. destruct m; try done; cbn [dispatch].
  - unfold swap. eapply both_bind; [by apply ck_swap_internal|]. intros [[s1 m1] r1] [[t1 n1] q1] (L1 & E1 & E2). cbn in *. destruct E2 as (-> & -> & _). done.
  - unfold swap_route. eapply both_bind; [by apply ck_route|]. intros [[s1 m1] r1] [[t1 n1] q1] (L1 & E1 & E2). cbn in *. subst. apply both_eq; [done|]. intros mn _.
    destruct (_ <? _); [done|]. done.
Qed.
Lemma curve_execute e i s t m : reachable s -> reachable t -> same_curve s t -> is_trade m ->
  both (fun p q => same_curve (fst (fst p)) (fst (fst q)) /\ snd (fst q) = snd (fst p) /\ snd q = snd p) (execute e i s m) (execute e i t m).
Proof.
  intros R R' M W. pose proof (ck_execute e i s t m (curve_ck _ _ (reachable_ereach _ R) (reachable_ereach _ R') M) W) as B. unfold both in *.
  destruct (execute e i s m) as [[[s1 m1] a1]| |] eqn:E, (execute e i t m) as [[[t1 n1] b1]| |] eqn:E'; try done. destruct B as (L & B1 & B2). cbn in *. split; [|done].
  destruct (C26_trade_keeps_positions _ _ _ _ _ _ _ R W E) as (P & _). destruct (C26_trade_keeps_positions _ _ _ _ _ _ _ R' W E') as (P' & _). constructor.
  - apply L.
  - intros k. pose proof (ck_pool _ _ L k) as O. destruct O as [p q [O _]|]; constructor. unfold trade_terms. rewrite O. done.
  - intros k c. unfold depth. rewrite P, P'. apply (sc_depth _ _ M).
  - intros k c. unfold ends_at. rewrite P, P'. apply (sc_ends _ _ M).
Qed.
(** C111: two markets with the same prices and the same liquidity at every price serve traders alike, trade after trade. *)
Definition is_trade_call (c : call) : Prop := is_trade (snd c).
Theorem C111_trades zs : forall s t, reachable s -> reachable t -> same_curve s t -> Forall is_trade_call zs ->
  fst (play zs t) = fst (play zs s) /\ same_curve (snd (play zs s)) (snd (play zs t)).
Proof.
  induction zs as [|[[e i] m] zs IH]; intros s t R R' M F; [done|]. apply Forall_cons in F as [W F].
  pose proof (curve_execute e i s t m R R' M W) as H. cbn [play]. unfold both in H.
  destruct (execute e i s m) as [[[s1 ms] at']|x|] eqn:E, (execute e i t m) as [[[t1 ms'] at'']|x'|] eqn:E'; try done.
  - destruct H as (G1 & E1 & E2). cbn in G1, E1, E2. subst ms' at''.
    destruct (IH s1 t1 (reach_call _ _ _ _ _ _ _ R E) (reach_call _ _ _ _ _ _ _ R' E') G1 F) as [I1 I2].
    destruct (play zs s1) as [o s2], (play zs t1) as [o' t2]. cbn in *. by rewrite I1.
  - subst x'. destruct (IH s t R R' M F) as [I1 I2]. destruct (play zs s) as [o s2], (play zs t) as [o' t2]. cbn in *. by rewrite I1.
  - destruct (IH s t R R' M F) as [I1 I2]. destruct (play zs s) as [o s2], (play zs t) as [o' t2]. cbn in *. by rewrite I1.
Qed.
Theorem C111_quotes s t e k d a b lim : reachable s -> reachable t -> same_curve s t ->
  both same_quote (query_quote e s k d a b lim) (query_quote e t k d a b lim).
Proof.
  intros R R' M. pose proof (curve_ck _ _ (reachable_ereach _ R) (reachable_ereach _ R') M) as L.
  unfold query_quote. eapply both_bind; [by apply ck_calc|]. intros r q (E1 & E2 & E3 & E4 & E5 & [H _] & F). cbn.
  unfold same_quote. cbn. split_and!; try done; [by rewrite H|]. clear - F. induction F as [|x y l l' X F IH]; [done|]. cbn. rewrite IH, (proj1 X). done.
Qed.
Theorem C111_route_quotes s t e a hops : reachable s -> reachable t -> same_curve s t -> query_quote_route e t a hops = query_quote_route e s a hops.
Proof.
  intros R R' M. pose proof (curve_ck _ _ (reachable_ereach _ R) (reachable_ereach _ R') M) as L. unfold query_quote_route. revert a.
  induction hops as [|h hops IH]; intros a; [done|]. cbn [route].
  pose proof (ck_calc (e_millis e) (hop_key h) s t (e_gas e) (hop_x_to_y h) a true (hop_limit (hop_x_to_y h)) L) as C. unfold both in C.
  destruct (calculate_swap _ s _ _ _ _ _ _) as [r|x|], (calculate_swap _ t _ _ _ _ _ _) as [q|y|]; try done; cbn [bind].
  - destruct C as (_ & -> & _). apply IH.
  - by subst.
Qed.

(** * Example *)
Definition row (po : position) : pool_key * (Z * Z * Z) := (po_key po, (po_lower po, po_upper po, po_liq po)).
Definition rows (s : store) : list (pool_key * (Z * Z * Z)) := map (fun x => row (snd x)) (map_to_list (st_positions s)).
Definition terms (p : pool) : Z * Z * Z * Z * Z * Z := (p_liq p, p_price p, p_tick p, p_protx p, p_proty p, p_start p).
Definition pool_rows (s : store) : list (pool_key * (Z * Z * Z * Z * Z * Z)) := map (fun x => (fst x, terms (snd x))) (map_to_list (st_pools s)).
Definition row_depth (k : pool_key) (c : Z) (r : pool_key * (Z * Z * Z)) : Z :=
  let '(k', (l, u, L)) := r in if decide (k' = k) then if (l <=? c) && (c <? u) then L else 0 else 0.
Definition row_ends (k : pool_key) (c : Z) (r : pool_key * (Z * Z * Z)) : Prop := let '(k', (l, u, L)) := r in k' = k /\ (l = c \/ u = c).
Lemma depth_rows s k c : depth s k c = sumZ (map (row_depth k c) (rows s)).
Proof. unfold depth, rows. rewrite map_map. done. Qed.
Lemma ends_rows s k c : ends_at s k c <-> Exists (row_ends k c) (rows s).
Proof.
  unfold ends_at, rows. rewrite Exists_exists. split.
  - intros (x & po & E & K & B). exists (row po). split; [|done]. apply elem_of_list_In, in_map_iff. exists (x, po). split; [done|]. by apply elem_of_list_In, elem_of_map_to_list.
  - intros (r & I & Q). apply elem_of_list_In, in_map_iff in I as ([x po] & <- & I). apply elem_of_list_In, elem_of_map_to_list in I. exists x, po. split; [done|]. exact Q.
Qed.
Lemma pools_by s t : pool_rows t = pool_rows s -> forall k, option_Forall2 trade_terms (st_pools s !! k) (st_pools t !! k).
Proof.
  assert (F : forall s t, pool_rows t = pool_rows s -> forall k p, st_pools s !! k = Some p -> exists q, st_pools t !! k = Some q /\ terms q = terms p).
  { intros s0 t0 E k p P. assert (I : In (k, terms p) (pool_rows t0)).
    { rewrite E. apply in_map_iff. exists (k, p). split; [done|]. by apply elem_of_list_In, elem_of_map_to_list. }
    apply in_map_iff in I as ([k' q] & Q & I). cbn in Q. injection Q as -> Q1 Q2 Q3 Q4 Q5 Q6. apply elem_of_list_In, elem_of_map_to_list in I.
    exists q. split; [done|]. unfold terms. congruence. }
  intros E k. destruct (st_pools s !! k) as [p|] eqn:P.
  - destruct (F _ _ E _ _ P) as (q & -> & Q). constructor. unfold terms in Q. injection Q as Q1 Q2 Q3 Q4 Q5 Q6. unfold trade_terms. done.
  - destruct (st_pools t !! k) as [q|] eqn:Q; [|constructor]. destruct (F _ _ (eq_sym E) _ _ Q) as (p & P' & _). congruence.
Qed.
(** bob alone between 10 and 20, alice between -20 and 30; or bob and dan with half each, and carol with two adjoining positions *)
Definition cu_one : list (string * exec_msg) :=
  [("alice", AddFeeTier v_tier);
   ("alice", CreatePool "tokeny" "tokenx" v_tier SP_ONE 0);
   ("alice", CreatePosition v_key (-20) 30 1000000000000 SP_ONE SP_ONE);
   ("bob", CreatePosition v_key 10 20 2000000000000 SP_ONE SP_ONE)]%string.
Definition cu_two : list (string * exec_msg) :=
  [("alice", AddFeeTier v_tier);
   ("alice", CreatePool "tokeny" "tokenx" v_tier SP_ONE 0);
   ("carol", CreatePosition v_key (-20) 10 1000000000000 SP_ONE SP_ONE);
   ("bob", CreatePosition v_key 10 20 1000000000000 SP_ONE SP_ONE);
   ("dan", Mint v_key 10 20 1000000000000 SP_ONE SP_ONE);
   ("carol", CreatePosition v_key 10 30 1000000000000 SP_ONE SP_ONE);
   ("carol", ApproveAll "dan" None)]%string.
Definition cu_trades : list call :=
  [(v_env, v_info "erin", Swap v_key false 1300 true MAX_SQRT_PRICE); (v_env, v_info "erin", Swap v_key true 2400 true MIN_SQRT_PRICE); (v_env, v_info "erin", Swap v_key true 900 false MIN_SQRT_PRICE)].
Example ex_C111 : exists s t, start 10000000000 cu_one = Ok s /\ start 10000000000 cu_two = Ok t /\ same_curve s t /\ Forall is_trade_call cu_trades /\
  map (fun r => match r with Ok (ms, _) => ms | _ => [] end) (fst (play cu_trades s)) =
    [[Cw20TransferFrom "tokeny" "erin" "self" 1300; Cw20Transfer "tokenx" "erin" 1288]; []; [Cw20TransferFrom "tokenx" "erin" "self" 907; Cw20Transfer "tokeny" "erin" 900]]%string.
Proof.
  destruct (done_inv (fun s => cf_protocol_fee (st_config s) = 10000000000 /\ pool_rows s = [(v_key, (1000000000000, SP_ONE, 0, 0, 0, 1000))] /\
     rows s = [(v_key, (10, 20, 2000000000000)); (v_key, (-20, 30, 1000000000000))] /\ map (fun r => match r with Ok (ms, _) => ms | _ => [] end) (fst (play cu_trades s)) =
    [[Cw20TransferFrom "tokeny" "erin" "self" 1300; Cw20Transfer "tokenx" "erin" 1288]; []; [Cw20TransferFrom "tokenx" "erin" "self" 907; Cw20Transfer "tokeny" "erin" 900]]%string) (start 10000000000 cu_one)) as (s & E & F1 & P1 & R1 & M).
  { vm_compute. repeat split. }
  destruct (done_inv (fun s => cf_protocol_fee (st_config s) = 10000000000 /\ pool_rows s = [(v_key, (1000000000000, SP_ONE, 0, 0, 0, 1000))] /\
     rows s = [(v_key, (10, 20, 1000000000000)); (v_key, (10, 20, 1000000000000)); (v_key, (10, 30, 1000000000000)); (v_key, (-20, 10, 1000000000000))]) (start 10000000000 cu_two)) as (t & E' & F2 & P2 & R2).
  { vm_compute. repeat split. }
  exists s, t. split; [exact E|]. split; [exact E'|]. split; [|split; [repeat constructor|exact M]].
  constructor.
  - rewrite F1, F2. reflexivity.
  - apply pools_by. rewrite P1, P2. reflexivity.
  - intros k c. rewrite !depth_rows, R1, R2. cbn [map row_depth sumZ foldr]. destruct (decide (v_key = k)); [|reflexivity].
    destruct (Z.leb_spec 10 c), (Z.leb_spec (-20) c), (Z.ltb_spec c 20), (Z.ltb_spec c 30), (Z.ltb_spec c 10); cbn [andb]; lia.
  - intros k c. rewrite !ends_rows, R1, R2, !Exists_cons, !Exists_nil. unfold row_ends. intuition lia.
Qed.
Print Assumptions C111_trades.
(** where positions end does matter: at every such place a trade is rounded anew *)
Definition cu_long : list (string * exec_msg) :=
  [("alice", AddFeeTier v_tier);
   ("alice", CreatePool "tokeny" "tokenx" v_tier SP_ONE 0);
   ("alice", CreatePosition v_key (-20) 30 1000000000000 SP_ONE SP_ONE)]%string.
Definition cu_cut : list (string * exec_msg) :=
  [("alice", AddFeeTier v_tier);
   ("alice", CreatePool "tokeny" "tokenx" v_tier SP_ONE 0);
   ("alice", CreatePosition v_key (-20) 10 1000000000000 SP_ONE SP_ONE);
   ("alice", CreatePosition v_key 10 30 1000000000000 SP_ONE SP_ONE)]%string.
Theorem C111_ends_refuted : exists s t e i m s' t' a b, reachable s /\ reachable t /\ st_config t = st_config s /\
  (forall k, option_Forall2 trade_terms (st_pools s !! k) (st_pools t !! k)) /\ (forall k c, depth t k c = depth s k c) /\ is_trade m /\
  execute e i s m = Ok (s', [Cw20TransferFrom "tokeny" "erin" "self" 1000; Cw20Transfer "tokenx" "erin" 993]%string, a) /\
  execute e i t m = Ok (t', [Cw20TransferFrom "tokeny" "erin" "self" 1000; Cw20Transfer "tokenx" "erin" 990]%string, b).
Proof.
  pose (m := Swap v_key false 1000 true MAX_SQRT_PRICE).
  destruct (done_inv (fun s => st_config s = mkConfig "alice" [v_tier] 10000000000 /\ pool_rows s = [(v_key, (1000000000000, SP_ONE, 0, 0, 0, 1000))] /\ rows s = [(v_key, (-20, 30, 1000000000000))] /\
     match execute v_env (v_info "erin") s m with Ok (_, ms, _) => ms = [Cw20TransferFrom "tokeny" "erin" "self" 1000; Cw20Transfer "tokenx" "erin" 993]%string | _ => False end)
    (start 10000000000 cu_long)) as (s & E & C1 & P1 & R1 & X1).
  { vm_compute. repeat split. }
  destruct (done_inv (fun s => st_config s = mkConfig "alice" [v_tier] 10000000000 /\ pool_rows s = [(v_key, (1000000000000, SP_ONE, 0, 0, 0, 1000))] /\ rows s = [(v_key, (10, 30, 1000000000000)); (v_key, (-20, 10, 1000000000000))] /\
     match execute v_env (v_info "erin") s m with Ok (_, ms, _) => ms = [Cw20TransferFrom "tokeny" "erin" "self" 1000; Cw20Transfer "tokenx" "erin" 990]%string | _ => False end)
    (start 10000000000 cu_cut)) as (t & E' & C2 & P2 & R2 & X2).
  { vm_compute. repeat split. }
  destruct (execute v_env (v_info "erin") s m) as [[[s' ms] a]| |] eqn:F1; [|destruct X1..]. destruct (execute v_env (v_info "erin") t m) as [[[t' ms'] b]| |] eqn:F2; [|destruct X2..].
  exists s, t, v_env, (v_info "erin"), m, s', t', a, b.
  split; [exact (start_reachable _ _ _ E)|]. split; [exact (start_reachable _ _ _ E')|]. split; [rewrite C1, C2; reflexivity|].
  split; [apply pools_by; rewrite P1, P2; reflexivity|]. split.
  - intros k c. rewrite !depth_rows, R1, R2. cbn [map row_depth sumZ foldr]. destruct (decide (v_key = k)); [|reflexivity].
    destruct (Z.leb_spec 10 c), (Z.leb_spec (-20) c), (Z.ltb_spec c 30), (Z.ltb_spec c 10); cbn [andb]; lia.
  - split; [exact I|]. rewrite X1 in F1. rewrite X2 in F2. split; [exact F1|exact F2].
Qed.
Print Assumptions C111_ends_refuted.
