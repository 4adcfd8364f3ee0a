(** C110: deposits, withdrawals and claims of different people in one block. *)
From Verif Require Import Base Decimal SqrtPrice Clamm Log FeeGrowth Types Tick Pool Position
  Tickmap Keys State Swap Exec Query Tactics PriceProofs ClammProofs BitmapProofs Frame Handlers History Basic PosList Ledger Vectors Scenario SwapInv SwapGeo SwapLoop Modify PSum LiqInv
  Geo Ops Clean CleanSuff Growth PropTrade PropPerm PropLocal PropLiq PropSolv PropExit PropClock PropOk PropSplit PropOrder PropLeave PropGauge PropState PropTrace.
From stdpp Require Import gmap strings.
From Coq Require Import Lia.
Open Scope Z_scope.

(** ** What one call means to the other *)
Lemma act_from b a ix n po m z x : PropLeave.act b a ix n po m !! z = Some x -> x = po /\ b = false /\ z = (a, ix) \/ exists y, m !! y = Some x.
Proof.
  unfold PropLeave.act, strip. destruct b.
  - destruct (ix <? n).
    + destruct (m !! (a, n)) as [last|] eqn:E; [|eauto]. destruct (decide (z = (a, ix))) as [->|N]; [rewrite lookup_insert; intros [= <-]; eauto|].
      rewrite lookup_insert_ne by done. intros H. apply lookup_delete_Some in H as [_ H]. eauto.
    + intros H. apply lookup_delete_Some in H as [_ H]. eauto.
  - destruct (decide (z = (a, ix))) as [->|N]; [rewrite lookup_insert; intros [= <-]; auto|]. rewrite lookup_insert_ne by done. eauto.
Qed.
Lemma psum_act f b a ix n po po' m : (forall x q, m !! x = Some q -> 0 <= f q) -> m !! (a, ix) = Some po -> f po' = f po ->
  psum f (PropLeave.act b a ix n po' m) <= psum f m.
Proof.
  intros F E Q. unfold PropLeave.act, strip. destruct b.
  - pose proof (F _ _ E) as F0. destruct (Z.ltb_spec ix n).
    + destruct (m !! (a, n)) as [last|] eqn:EL; [|lia].
      rewrite (psum_delete f m (a, n) last EL), (psum_update f (delete (a, n) m) (a, ix) po last); [lia|]. rewrite lookup_delete_ne; [done|]. injection 1. lia.
    + rewrite (psum_delete f m (a, ix) po E). lia.
  - rewrite (psum_update f m (a, ix) po po' E). lia.
Qed.
(** what a position is worth is not changed by somebody's deposit *)
Lemma worth_kept s s' x po p p' : ereach s -> ereach s' -> keeps s s' -> st_positions s !! x = Some po -> st_positions s' !! x = Some po ->
  st_pools s !! po_key po = Some p -> st_pools s' !! po_key po = Some p' ->
  accrued_x s' p' po = accrued_x s p po /\ accrued_y s' p' po = accrued_y s p po /\ renew s' p' po = renew s p po /\ stake p' po = stake p po.
Proof.
  intros R R' [KP KT] E E' P P'. destruct (bounds_of _ _ _ R E) as (l & u & L & U & _). destruct (bounds_of _ _ _ R' E') as (l' & u' & L' & U' & _).
  destruct (KP _ _ _ P P') as (T1 & T2 & T3 & T4). destruct (KT _ _ _ _ L L') as (A1 & A2 & A3). destruct (KT _ _ _ _ U U') as (B1 & B2 & B3).
  unfold accrued_x, accrued_y, renew, inside_x, inside_y, stake, split_price. rewrite L, U, L', U', T1, T2, T3, T4, A1, A2, A3, B1, B2, B3. done.
Qed.
Lemma active_covers s x po p : ereach s -> act_inv s -> st_positions s !! x = Some po -> st_pools s !! po_key po = Some p ->
  po_lower po <= p_tick p < po_upper po -> po_liq po <= p_liq p.
Proof.
  intros R A E EP Q. pose proof (ereach_liq _ R) as LI. rewrite (A _ _ EP). unfold Clean.act.
  transitivity (active_at (po_key po) (p_tick p) po).
  - unfold active_at, at_key, in_range_tick. rewrite decide_True by done. rewrite (proj2 (Z.leb_le _ _)), (proj2 (Z.ltb_lt _ _)) by lia. done.
  - refine (psum_ge _ _ x po _ E). intros y q Qy. apply (lq_pos _ LI) in Qy. destruct Qy as [(Q1 & _) _].
    unfold active_at, at_key. destruct (decide _); [|lia]. destruct (in_range_tick _ _ _); lia.
Qed.
Lemma begun_took b e i s ix s' ms at' po p now : took b e i s ix s' ms at' po p -> begun now s -> begun now s'.
Proof.
  intros K B k0 p0. rewrite (tk_pools _ _ _ _ _ _ _ _ _ _ K).
  destruct (decide (k0 = po_key po)) as [->|N]; [rewrite lookup_insert; intros [= <-]; exact (B _ _ (tk_p _ _ _ _ _ _ _ _ _ _ K))|rewrite lookup_insert_ne by congruence; apply B].
Qed.
Lemma ending_took b e i s ix s' ms at' po p k j : ereach s -> took b e i s ix s' ms at' po p -> ending_at s' k j <= ending_at s k j.
Proof.
  intros R K. unfold ending_at. rewrite (tk_pos _ _ _ _ _ _ _ _ _ _ K). apply (psum_act _ _ _ _ _ po); [|exact (tk_po _ _ _ _ _ _ _ _ _ _ K)|].
  - intros y q Qy. apply (lq_pos _ (ereach_liq _ R)) in Qy. destruct Qy as [(Q1 & _) _]. unfold gross_at, at_key. destruct (decide _); [|lia].
    destruct (_ =? _), (_ =? _); lia.
  - unfold renew. destruct (st_ticks s !! _); [|done]. destruct (st_ticks s !! _); done.
Qed.

(** * A deposit and a withdrawal or claim *)
Lemma mixed_exchange b e i1 i2 s k l u L sl su ix s1 m1 a1 s2 m2 a2 :
  ereach s -> act_inv s -> ereach s1 -> ereach s2 -> begun (e_millis e) s -> env_typed e i1 = true -> i_sender i1 <> i_sender i2 -> 0 <= L <= U128MAX ->
  (forall t m a, takes b e i2 s ix = Ok (t, m, a) -> ereach t /\ forall t' m' a', create_position e i1 t k l u L sl su = Ok (t', m', a') -> ereach t') ->
  create_position e i1 s k l u L sl su = Ok (s1, m1, a1) -> takes b e i2 s1 ix = Ok (s2, m2, a2) ->
  exists t1 t2, takes b e i2 s ix = Ok (t1, m2, a2) /\ create_position e i1 t1 k l u L sl su = Ok (t2, m1, a1) /\ same_market s2 t2.
Proof.
  intros R A R1 R2 BG ET NE HL RT C1 C2. pose proof (lay _ _ _ _ _ _ _ _ _ _ _ _ R HL C1) as D. destruct (took_of _ _ _ _ _ _ _ _ R1 C2) as (po & p1 & K).
  destruct (laid_new _ _ _ _ _ _ _ _ D) as (pn & PS & PE & PZ). destruct (ld_some _ _ _ _ _ _ _ _ D) as [p P].
  pose proof (laid_keeps _ _ _ _ _ _ _ _ D) as KD. pose proof (took_keeps _ _ _ _ _ _ _ _ _ _ K) as KK.
  pose proof (tk_po _ _ _ _ _ _ _ _ _ _ K) as E1. assert (E0 : st_positions s !! (i_sender i2, ix) = Some po) by (rewrite PS, lookup_insert_ne in E1 by congruence; exact E1).
  destruct (lq_pos _ (ereach_liq _ R) _ _ E0) as [_ [p0 P0]]. pose proof (tk_p _ _ _ _ _ _ _ _ _ _ K) as P1.
  destruct (worth_kept _ _ _ _ _ _ R R1 KD E0 E1 P0 P1) as (W1 & W2 & W3 & W4). destruct (proj1 KD _ _ _ P0 P1) as (T1 & T2 & T3 & T4).
  (* first *)
  assert (OK2 : is_ok (takes b e i2 s ix) = true).
  { assert (F : is_ok (takes b e i2 s1 ix) = true) by (by rewrite C2). apply takes_iff in F; [|done]. apply takes_iff; [done|].
    destruct b; cbn [takable] in *.
    - destruct F as (po' & q & Eq & Pq & F1 & F2 & F3). rewrite E1 in Eq. injection Eq as <-. rewrite P1 in Pq. injection Pq as <-.
      exists po, p0. split; [done|]. split; [done|]. rewrite <- W1, <- W2, <- W4. split; [done|]. split; [done|]. exact (active_covers _ _ _ _ R A E0 P0).
    - destruct F as (po' & q & Eq & Pq & F1 & F2). rewrite E1 in Eq. injection Eq as <-. rewrite P1 in Pq. injection Pq as <-.
      exists po, p0. rewrite <- W1, <- W2. done. }
  apply is_ok_ex in OK2 as [[[t1 m2'] a2'] F2]. destruct (RT _ _ _ F2) as [RT1 RT2]. destruct (took_of _ _ _ _ _ _ _ _ R F2) as (po' & p0' & K').
  pose proof (tk_po _ _ _ _ _ _ _ _ _ _ K') as X. rewrite E0 in X. injection X as <-. pose proof (tk_p _ _ _ _ _ _ _ _ _ _ K') as X. rewrite P0 in X. injection X as <-.
  pose proof (took_keeps _ _ _ _ _ _ _ _ _ _ K') as KK'.
  assert (M2 : m2' = m2 /\ a2' = a2).
  { rewrite (tk_ms _ _ _ _ _ _ _ _ _ _ K), (tk_ms _ _ _ _ _ _ _ _ _ _ K'), (tk_at _ _ _ _ _ _ _ _ _ _ K), (tk_at _ _ _ _ _ _ _ _ _ _ K').
    unfold pays, tells. rewrite W1, W2, W4, T2. done. }
  destruct M2 as [-> ->].
  (* then *)
  assert (Q : exists q, st_pools t1 !! k = Some q /\ like p q /\ p_liq q <= p_liq p).
  { rewrite (tk_pools _ _ _ _ _ _ _ _ _ _ K'). destruct (decide (k = po_key po)) as [->|N].
    - rewrite lookup_insert. rewrite P in P0. injection P0 as <-. eexists. split; [done|]. split; [done|]. cbn.
      destruct (lq_pos _ (ereach_liq _ R) _ _ E0) as [(Q1 & _) _]. unfold taken. destruct (in_range_tick _ _ _), b; lia.
    - rewrite lookup_insert_ne by done. exists p. split; [done|]. split; [done|lia]. }
  destruct Q as (q & Q & (LK1 & LK2 & LK3 & LK4) & QL).
  destruct (deposit_inv _ _ _ _ _ _ _ _ _ _ _ _ R HL C1) as [(px & PX & G1 & O1 & VL1 & VU1 & SL1 & EL1 & EU1 & PL1 & RM1 & CX1 & CY1) M1].
  rewrite P in PX. injection PX as <-. specialize (M1 p P). pose proof (create_event _ _ _ _ _ _ _ _ _ _ _ _ _ R HL P C1) as A1.
  assert (PD : price_of_deposit q l u L = price_of_deposit p l u L) by (unfold price_of_deposit, split_price; by rewrite LK2).
  assert (OK1 : is_ok (create_position e i1 t1 k l u L sl su) = true).
  { apply deposit_iff; [done|done|by eapply begun_took|done|]. exists q. rewrite PD, LK1, LK2. split; [done|]. do 5 (split; [done|]).
    pose proof (ending_took _ _ _ _ _ _ _ _ _ _ k l R K'). pose proof (ending_took _ _ _ _ _ _ _ _ _ _ k u R K').
    split; [lia|]. split; [lia|]. split; [intros IR; specialize (PL1 IR); lia|]. split; [|done]. unfold room. by rewrite (len_kept _ _ _ _ _ _ _ _ _ _ _ K') by done. }
  apply is_ok_ex in OK1 as [[[t2 m1'] a1'] F1]. pose proof (RT2 _ _ _ F1) as RT3. pose proof (lay _ _ _ _ _ _ _ _ _ _ _ _ RT1 HL F1) as D'.
  assert (M1' : m1' = m1) by (rewrite (proj2 (deposit_inv _ _ _ _ _ _ _ _ _ _ _ _ RT1 HL F1) q Q), M1, PD; done).
  assert (A1' : a1' = a1) by (rewrite (create_event _ _ _ _ _ _ _ _ _ _ _ _ _ RT1 HL Q F1), A1, LK2; done). subst m1' a1'.
  exists t1, t2. split; [done|]. split; [done|].
  (* the ends *)
  destruct (laid_new _ _ _ _ _ _ _ _ D') as (pn' & PS' & PE' & PZ'). pose proof (laid_keeps _ _ _ _ _ _ _ _ D') as KD'.
  set (a := i_sender i1) in *. set (c := i_sender i2) in *.
  pose proof (len_kept _ _ _ _ _ _ _ _ _ _ a K' NE) as N1. assert (N2 : plen s1 c = plen s c) by (by eapply plen_after).
  constructor.
  - destruct (tk_rest _ _ _ _ _ _ _ _ _ _ K) as [-> _]. destruct (ld_rest _ _ _ _ _ _ _ _ D) as [-> _]. destruct (ld_rest _ _ _ _ _ _ _ _ D') as [-> _]. by destruct (tk_rest _ _ _ _ _ _ _ _ _ _ K') as [-> _].
  - destruct (tk_rest _ _ _ _ _ _ _ _ _ _ K) as [_ ->]. destruct (ld_rest _ _ _ _ _ _ _ _ D) as [_ ->]. destruct (ld_rest _ _ _ _ _ _ _ _ D') as [_ ->]. by destruct (tk_rest _ _ _ _ _ _ _ _ _ _ K') as [_ ->].
  - intros o. unfold get_position_length. rewrite (ld_len _ _ _ _ _ _ _ _ D'), (tk_len _ _ _ _ _ _ _ _ _ _ K), (tk_len _ _ _ _ _ _ _ _ _ _ K'), (ld_len _ _ _ _ _ _ _ _ D).
    fold a c. rewrite N1, N2. destruct b; [by rewrite insert_commute by done|done].
  - intros k0. rewrite (ld_pool _ _ _ _ _ _ _ _ D' q Q), (tk_pools _ _ _ _ _ _ _ _ _ _ K), (ld_pool _ _ _ _ _ _ _ _ D p P).
    pose proof (tk_pools _ _ _ _ _ _ _ _ _ _ K') as PT. rewrite PT in Q |- *. rewrite (ld_pool _ _ _ _ _ _ _ _ D p P) in P1.
    destruct (decide (po_key po = k)) as [Y|Y].
    + rewrite Y in *. rewrite lookup_insert in Q, P1. injection Q as <-. injection P1 as <-. rewrite !insert_insert. rewrite P in P0. injection P0 as <-.
      destruct (decide (k0 = k)) as [->|N]; [rewrite !lookup_insert; constructor|rewrite !lookup_insert_ne by congruence; destruct (st_pools s !! k0); constructor; done].
      unfold same_pool. cbn. split_and!; try done. destruct (in_range_tick _ _ _), (in_range_tick _ _ _); lia.
    + rewrite lookup_insert_ne in Q by done. rewrite lookup_insert_ne in P1 by congruence. rewrite P0 in P1. injection P1 as <-. rewrite P in Q. injection Q as <-.
      rewrite insert_commute by done. match goal with |- option_Forall2 _ (?m !! _) _ => destruct (m !! k0); constructor; done end.
  - intros o j. rewrite (tk_pos _ _ _ _ _ _ _ _ _ _ K), PS', (tk_pos _ _ _ _ _ _ _ _ _ _ K'), PS. fold a c. rewrite N1, N2, W3.
    destruct (decide (o = a)) as [->|NO].
    + rewrite act_other by done. destruct (decide (j = plen s a)) as [->|NJ].
      * rewrite !lookup_insert. constructor. split; [rewrite PE, PE'; done|]. intros d.
        assert (I1 : st_positions s1 !! (a, plen s a) = Some pn) by (rewrite PS; apply lookup_insert).
        assert (I2 : st_positions s2 !! (a, plen s a) = Some pn) by (rewrite (own_kept _ _ _ _ _ _ _ _ _ _ _ _ K NE); done).
        rewrite (earned_kept _ _ _ _ _ R1 R2 KK I1 I2), PZ, PZ'. done.
      * rewrite !lookup_insert_ne by congruence. rewrite act_other by done. destruct (st_positions s !! (a, j)) as [x|] eqn:I0; constructor. split; [done|]. intros d.
        assert (I1 : st_positions s1 !! (a, j) = Some x) by (rewrite PS, lookup_insert_ne; [done|congruence]).
        assert (I2 : st_positions s2 !! (a, j) = Some x) by (rewrite (own_kept _ _ _ _ _ _ _ _ _ _ _ _ K NE); done).
        assert (J1 : st_positions t1 !! (a, j) = Some x) by (rewrite (own_kept _ _ _ _ _ _ _ _ _ _ _ _ K' NE); done).
        assert (J2 : st_positions t2 !! (a, j) = Some x) by (rewrite PS', lookup_insert_ne; [done|]; fold a; rewrite N1; congruence).
        rewrite (earned_kept _ _ _ _ _ R1 R2 KK I1 I2), (earned_kept _ _ _ _ _ R R1 KD I0 I1), (earned_kept _ _ _ _ _ RT1 RT3 KD' J1 J2), (earned_kept _ _ _ _ _ R RT1 KK' I0 J1). done.
    + rewrite (lookup_insert_ne _ (a, plen s a)) by congruence.
      assert (SAME : PropLeave.act b c ix (plen s c - 1) (renew s p0 po) (<[(a, plen s a) := pn]> (st_positions s)) !! (o, j) = PropLeave.act b c ix (plen s c - 1) (renew s p0 po) (st_positions s) !! (o, j)).
      { destruct (decide (o = c)) as [->|NC]; [apply act_own; intros j'; by rewrite lookup_insert_ne by congruence|]. rewrite !act_other by done. by rewrite lookup_insert_ne by congruence. }
      rewrite SAME. destruct (PropLeave.act b c ix (plen s c - 1) (renew s p0 po) (st_positions s) !! (o, j)) as [x|] eqn:I; constructor. split; [done|]. intros d.
      assert (I2 : st_positions s2 !! (o, j) = Some x) by (rewrite (tk_pos _ _ _ _ _ _ _ _ _ _ K), PS; fold a c; rewrite N2, W3, SAME; done).
      assert (J1 : st_positions t1 !! (o, j) = Some x) by (rewrite (tk_pos _ _ _ _ _ _ _ _ _ _ K'); exact I).
      assert (J2 : st_positions t2 !! (o, j) = Some x) by (rewrite PS', lookup_insert_ne; [done|]; fold a; congruence).
      rewrite (earned_kept _ _ _ _ _ RT1 RT3 KD' J1 J2).
      apply act_from in I as [(-> & -> & _)|[y I0]].
      * rewrite (took_renewed _ _ _ _ _ _ _ _ _ R RT1 K'). rewrite <- W3. by rewrite (took_renewed _ _ _ _ _ _ _ _ _ R1 R2 K).
      * assert (I1 : st_positions s1 !! y = Some x).
        { rewrite PS, lookup_insert_ne; [done|]. intros Y. pose proof (ld_fresh _ _ _ _ _ _ _ _ D) as FR. change (st_positions s !! (a, plen s a) = None) in FR. rewrite Y in FR. congruence. }
        rewrite (earned_kept _ _ _ _ _ R1 R2 KK I1 I2), (earned_kept _ _ _ _ _ R R1 KD I0 I1), (earned_kept _ _ _ _ _ R RT1 KK' I0 J1). done.
Qed.

Lemma collects_clean e i s m : collects m -> clean_call e i s m.
Proof. intros [ix [-> | ->]]; exact I. Qed.
Lemma deposit_clean e i s m k l u L : deposit m k l u L -> clean_call e i s m.
Proof. intros (sl & su & [-> | ->]); exact I. Qed.
(** whoever takes out or claims in the same block after somebody's deposit could have come first: both get the same answers, and all that follows is the same *)
Theorem C110_two e i1 i2 s d k l u L c s1 m1 a1 s2 m2 a2 : clean_history s -> begun (e_millis e) s -> i_sender i1 <> i_sender i2 -> deposit d k l u L -> collects c ->
  execute e i1 s d = Ok (s1, m1, a1) -> execute e i2 s1 c = Ok (s2, m2, a2) ->
  exists t1 t2, execute e i2 s c = Ok (t1, m2, a2) /\ execute e i1 t1 d = Ok (t2, m1, a1) /\ same_market s2 t2.
Proof.
  intros CH BG NE DP W E1 E2. pose proof (ch_call _ _ _ _ _ _ _ CH (deposit_clean _ _ _ _ _ _ _ _ DP) E1) as CH1. pose proof (ch_call _ _ _ _ _ _ _ CH1 (collects_clean _ _ _ _ W) E2) as CH2.
  assert (ER : forall z, clean_history z -> ereach z) by (intros z Z; by apply creach_ereach, clean_history_creach).
  destruct (collects_execute _ W) as (b & ix & X). destruct (deposit_execute _ _ _ _ _ _ _ _ _ _ _ DP E1) as (sl & su & C1 & HL & ET & DX).
  pose proof E2 as E2'. apply X in E2' as [T2 C2].
  assert (XD : forall z r, execute e i1 z d = Ok r <-> create_position e i1 z k l u L sl su = Ok r).
  { intros z r. assert (T : env_typed e i1 && msg_typed d = true) by (unfold execute in E1; destruct (env_typed e i1 && msg_typed d); [done|discriminate E1]).
    unfold execute. rewrite T. destruct DX as [-> | ->]; cbn [dispatch]; done. }
  destruct (mixed_exchange b e i1 i2 s k l u L sl su ix s1 m1 a1 s2 m2 a2 (ER _ CH) (creach_act _ (clean_history_creach _ CH)) (ER _ CH1) (ER _ CH2) BG ET NE HL) as (t1 & t2 & F2 & F1 & S); [|done|done|].
  - intros t m a H. assert (E : execute e i2 s c = Ok (t, m, a)) by (by apply X). pose proof (ch_call _ _ _ _ _ _ _ CH (collects_clean _ _ _ _ W) E) as CT.
    split; [by apply ER|]. intros t' m' a' H'. assert (E' : execute e i1 t d = Ok (t', m', a')) by (by apply XD).
    apply ER. exact (ch_call _ _ _ _ _ _ _ CT (deposit_clean _ _ _ _ _ _ _ _ DP) E').
  - exists t1, t2. split; [by apply X|]. split; [by apply XD|done].
Qed.

(** * Any mixture *)
Definition either (x : entry) : Prop := is_deposit x \/ is_collection x.
Lemma either_clean e s x : either x -> clean_call e (fst (fst (fst x))) s (snd (fst (fst x))).
Proof. intros [(k & l & u & L & D)|C]; [by eapply deposit_clean|by apply collects_clean]. Qed.
Lemma turns_clean e xs s s' : clean_history s -> Forall either xs -> turns e s xs s' -> clean_history s'.
Proof.
  intros CH F H. induction H as [|s i m ms at' s1 xs s' E H IH]; [done|]. apply Forall_cons in F as [FX F]. apply IH; [|done].
  exact (ch_call _ _ _ _ _ _ _ CH (either_clean e s _ FX) E).
Qed.
Lemma turns_app e xs ys s s' : turns e s (xs ++ ys) s' <-> exists s1, turns e s xs s1 /\ turns e s1 ys s'.
Proof.
  split.
  - revert s. induction xs as [|x xs IH]; intros s H; [exists s; split; [constructor|done]|]. inversion H; subst.
    match goal with X : turns _ _ (xs ++ ys) _ |- _ => apply IH in X as (s2 & A & B) end. exists s2. split; [by econstructor|done].
  - intros (s1 & A & B). induction A as [|s i m ms at' s2 xs s1 E A IH]; [done|]. cbn [app]. econstructor; [exact E|]. by apply IH.
Qed.
Lemma market_trans s t u : same_market s t -> same_market t u -> same_market s u.
Proof.
  intros A B. constructor.
  - rewrite (sm_config _ _ B). apply A.
  - rewrite (sm_operators _ _ B). apply A.
  - intros a. rewrite (sm_count _ _ B). apply A.
  - intros k. pose proof (sm_pool _ _ A k) as X. pose proof (sm_pool _ _ B k) as Y. inversion X as [p q PQ E1 E2|E1 E2]; rewrite <- E2 in Y; inversion Y as [q' r QR E3 E4|E3 E4]; constructor.
    unfold same_pool in *. destruct PQ as (? & ? & ? & ? & ? & ? & ?), QR as (? & ? & ? & ? & ? & ? & ?). split_and!; congruence.
  - intros a ix. pose proof (sm_position _ _ A a ix) as X. pose proof (sm_position _ _ B a ix) as Y. inversion X as [p q PQ E1 E2|E1 E2]; rewrite <- E2 in Y; inversion Y as [q' r QR E3 E4|E3 E4]; constructor.
    destruct PQ as [(? & ? & ? & ? & ? & ? & ?) PQ], QR as [(? & ? & ? & ? & ? & ? & ?) QR]. split; [unfold same_terms; split_and!; congruence|]. intros b. rewrite QR. apply PQ.
Qed.
Lemma market_refl s : same_market s s.
Proof. constructor; try done; intros; [destruct (st_pools s !! k)|destruct (st_positions s !! (a, ix))]; constructor; done. Qed.
Lemma market_sym s t : same_market s t -> same_market t s.
Proof.
  intros A. constructor.
  - by rewrite (sm_config _ _ A).
  - by rewrite (sm_operators _ _ A).
  - intros a. by rewrite (sm_count _ _ A).
  - intros k. destruct (sm_pool _ _ A k) as [p q (? & ? & ? & ? & ? & ? & ?)|]; constructor. unfold same_pool. split_and!; congruence.
  - intros a ix. destruct (sm_position _ _ A a ix) as [p q [(? & ? & ? & ? & ? & ? & ?) E]|]; constructor. split; [unfold same_terms; split_and!; congruence|]. intros b. by rewrite E.
Qed.
Lemma store_market s t : same_store s t -> same_market s t.
Proof.
  intros (E1 & E2 & _ & E3 & E4 & E5 & T). constructor; [done|done| | |].
  - intros a. unfold get_position_length. by rewrite E4.
  - intros k. rewrite E2. destruct (st_pools s !! k); constructor; done.
  - intros a ix. rewrite E3. destruct (st_positions s !! (a, ix)) as [po|]; constructor. split; [done|]. intros b. unfold earned. rewrite E2.
    pose proof (T (po_key po) (po_lower po)) as TL. pose proof (T (po_key po) (po_upper po)) as TU.
    inversion TL as [x x' SX X1 X2|X1 X2]; [|done]. inversion TU as [y y' SY Y1 Y2|Y1 Y2]; [|done].
    apply st_parts in SX as (I1 & I2 & I3 & _), SY as (J1 & J2 & J3 & _). destruct (st_pools s !! po_key po); [|done].
    unfold fo. by rewrite I1, I2, I3, J1, J2, J3.
Qed.
Lemma turns_market e xs : forall s t s', clean_history s -> clean_history t -> same_market s t -> Forall either xs -> turns e s xs s' ->
  exists t', turns e t xs t' /\ same_market s' t'.
Proof.
  induction xs as [|x xs IH]; intros s t s' CH CT S F H; inversion H; subst; [exists t; split; [constructor|done]|].
  match goal with X : execute _ _ _ _ = _ |- _ => rename X into E end. apply Forall_cons in F as [FX F]. pose proof (either_clean e s _ FX) as CC. pose proof (either_clean e t _ FX) as CC'. cbn in CC, CC'.
  assert (ER : forall z, clean_history z -> ereach z) by (intros z Z; by apply creach_ereach, clean_history_creach).
  pose proof (gauge_execute e i s t m CH CC (market_gauge _ _ (ER _ CH) (ER _ CT) S)) as Q. rewrite E in Q. destruct (execute e i t m) as [[[t1 n] b]| |] eqn:EF; try done. destruct Q as (G & -> & ->).
  pose proof (ch_call _ _ _ _ _ _ _ CH CC E) as CH1. pose proof (ch_call _ _ _ _ _ _ _ CT CC' EF) as CT1. cbn in G.
  destruct (IH s1 t1 s' CH1 CT1 (gauge_market _ _ (ER _ CH1) G) F) as (t' & T & S'); [done|]. exists t'. split; [by econstructor|done].
Qed.
Lemma begun_collect e i s m s' ms at' now : clean_history s -> collects m -> execute e i s m = Ok (s', ms, at') -> begun now s -> begun now s'.
Proof.
  intros CH W E. destruct (collects_execute _ W) as (b & ix & X). destruct (proj1 (X _ _ _ _) E) as [_ C].
  destruct (took_of _ _ _ _ _ _ _ _ (creach_ereach _ (clean_history_creach _ CH)) C) as (po & p & K). by eapply begun_took.
Qed.
Lemma push e x cs : is_deposit x -> forall ds s t, clean_history s -> begun (e_millis e) s -> Forall is_collection cs -> Forall is_deposit ds -> NoDup (who <$> x :: cs) ->
  turns e s (x :: cs ++ ds) t -> exists t', turns e s (cs ++ x :: ds) t' /\ same_market t t'.
Proof.
  intros DX. induction cs as [|c cs IH]; intros ds s t CH BG FC FD ND H; [exists t; split; [done|apply market_refl]|].
  apply Forall_cons in FC as [WC FC]. rewrite !fmap_cons in ND. apply NoDup_cons in ND as [NX ND]. apply NoDup_cons in ND as [NC ND].
  cbn [app] in H. inversion H; subst. match goal with X : turns _ _ (c :: _) _ |- _ => inversion X; subst end.
  match goal with A : execute e i s m = _, B : execute e _ s1 _ = _ |- _ => rename A into E1; rename B into E2 end. unfold is_collection in WC. cbn in WC.
  destruct DX as (k & l & u & L & DX). cbn in DX.
  assert (NE : i_sender i <> i_sender i0) by (intros Q; apply NX; rewrite elem_of_cons; left; exact Q).
  destruct (C110_two _ _ _ _ _ _ _ _ _ _ _ _ _ _ _ _ CH BG NE DX WC E1 E2) as (t1 & t2 & F2 & F1 & S).
  pose proof (ch_call _ _ _ _ _ _ _ CH (deposit_clean _ _ _ _ _ _ _ _ DX) E1) as CH1. pose proof (ch_call _ _ _ _ _ _ _ CH1 (collects_clean _ _ _ _ WC) E2) as CH2.
  pose proof (ch_call _ _ _ _ _ _ _ CH (collects_clean _ _ _ _ WC) F2) as CT1. pose proof (ch_call _ _ _ _ _ _ _ CT1 (deposit_clean _ _ _ _ _ _ _ _ DX) F1) as CT2.
  assert (FE : Forall either (cs ++ ds)) by (apply Forall_app; split; (eapply Forall_impl; [eassumption|]); intros z Z; [by right|by left]).
  match goal with X : turns _ _ (cs ++ ds) t |- _ => destruct (turns_market e _ _ t2 t CH2 CT2 S FE X) as (t3 & T3 & S3) end.
  destruct (IH ds t1 t3 CT1 (begun_collect _ _ _ _ _ _ _ _ CH WC F2 BG) FC FD) as (t' & T' & S').
  - rewrite fmap_cons. apply NoDup_cons. split; [|done]. intros Q. apply NX. rewrite elem_of_cons. by right.
  - econstructor; [exact F1|exact T3].
  - exists t'. split; [cbn [app]; econstructor; [exact F2|exact T']|]. by eapply market_trans.
Qed.
(** letting withdrawals and claims go first never makes a difference *)
Theorem C110_first e xs : forall s s', clean_history s -> begun (e_millis e) s -> Forall either xs -> NoDup (who <$> xs) -> turns e s xs s' ->
  exists cs ds t, Permutation xs (cs ++ ds) /\ Forall is_collection cs /\ Forall is_deposit ds /\ turns e s (cs ++ ds) t /\ same_market s' t.
Proof.
  induction xs as [|x xs IH]; intros s s' CH BG F ND H.
  - exists [], [], s'. split; [done|]. split; [constructor|]. split; [constructor|]. split; [exact H|apply market_refl].
  - apply Forall_cons in F as [FX F]. pose proof ND as ND0. rewrite fmap_cons in ND. apply NoDup_cons in ND as [NX ND]. inversion H; subst.
    match goal with X : execute _ _ _ _ = _ |- _ => rename X into E end. pose proof (either_clean e s _ FX) as CC. cbn in CC. pose proof (ch_call _ _ _ _ _ _ _ CH CC E) as CH1.
    assert (BG1 : begun (e_millis e) s1).
    { destruct FX as [(k & l & u & L & DX)|CX]; [|exact (begun_collect _ _ _ _ _ _ _ _ CH CX E BG)]. eapply begun_deposit; [|exact DX|exact E|exact BG]. by apply clean_history_reachable. }
    match goal with X : turns _ s1 _ _ |- _ => destruct (IH s1 s' CH1 BG1 F ND X) as (cs & ds & t & P & FC & FD & T & S) end.
    destruct FX as [DX|CX].
    + destruct (push e (i, m, ms, at') cs DX ds s t CH BG FC FD) as (t' & T' & S').
      * assert (PF : Permutation (who <$> (i, m, ms, at') :: xs) (who <$> (i, m, ms, at') :: cs ++ ds)) by (apply fmap_Permutation; by constructor).
        rewrite PF in ND0. change ((i, m, ms, at') :: cs ++ ds) with (((i, m, ms, at') :: cs) ++ ds) in ND0. rewrite fmap_app in ND0. by apply NoDup_app in ND0 as [ND0 _].
      * econstructor; [exact E|exact T].
      * exists cs, ((i, m, ms, at') :: ds), t'. split; [rewrite P; apply Permutation_middle|]. split; [done|]. split; [by constructor|]. split; [done|]. by eapply market_trans.
    + exists ((i, m, ms, at') :: cs), ds, t. split; [cbn [app]; by constructor|]. split; [by constructor|]. split; [done|]. split; [cbn [app]; by econstructor|done].
Qed.
Definition call_of (x : entry) : msg_info * exec_msg := fst (fst x).
Lemma turns_det e xs : forall ys s s' t', call_of <$> xs = call_of <$> ys -> turns e s xs s' -> turns e s ys t' -> xs = ys /\ s' = t'.
Proof.
  induction xs as [|x xs IH]; intros [|y ys] s s' t' Q H H'; try done.
  - inversion H; inversion H'; subst. done.
  - rewrite !fmap_cons in Q. injection Q as Q0 Q. inversion H; inversion H'; subst. unfold call_of in Q0. cbn in Q0. injection Q0 as -> ->.
    match goal with A : execute e ?i s ?m = _, B : execute e ?i s ?m = _ |- _ => rewrite A in B; injection B as -> -> -> end.
    match goal with A : turns _ ?z xs _, B : turns _ ?z ys _ |- _ => destruct (IH ys z s' t' Q A B) as [-> ->] end. done.
Qed.
Definition pays_in (m : exec_msg) : bool := match m with CreatePosition _ _ _ _ _ _ | Mint _ _ _ _ _ _ => true | _ => false end.
Lemma perm_filter {A} (f : A -> bool) l l' : Permutation l l' -> Permutation (List.filter f l) (List.filter f l').
Proof.
  induction 1 as [|x l l' P IH|x y l|l1 l2 l3 P1 IH1 P2 IH2]; [done|..]; cbn.
  - destruct (f x); [by constructor|done].
  - destruct (f x), (f y); try done. constructor.
  - by rewrite IH1.
Qed.
Lemma keep_all {A} (f : A -> bool) l : Forall (fun x => f x = true) l -> List.filter f l = l.
Proof. induction 1 as [|x l H _ IH]; [done|]. cbn. by rewrite H, IH. Qed.
Lemma keep_none {A} (f : A -> bool) l : Forall (fun x => f x = false) l -> List.filter f l = [].
Proof. induction 1 as [|x l H _ IH]; [done|]. cbn. by rewrite H, IH. Qed.
Lemma halves (cs ds cs' ds' : list entry) : Forall is_collection cs -> Forall is_deposit ds -> Forall is_collection cs' -> Forall is_deposit ds' ->
  Permutation (call_of <$> cs ++ ds) (call_of <$> cs' ++ ds') -> Permutation (call_of <$> cs) (call_of <$> cs') /\ Permutation (call_of <$> ds) (call_of <$> ds').
Proof.
  assert (FC : forall l : list entry, Forall is_collection l -> Forall (fun c => pays_in (snd c) = false) (call_of <$> l)).
  { intros l HF. rewrite Forall_fmap. eapply Forall_impl; [exact HF|]. intros x [ix X]. unfold compose, call_of. destruct X as [-> | ->]; done. }
  assert (FD : forall l : list entry, Forall is_deposit l -> Forall (fun c => pays_in (snd c) = true) (call_of <$> l)).
  { intros l HF. rewrite Forall_fmap. eapply Forall_impl; [exact HF|]. intros x (k & lo & u & L & sl & su & X). unfold compose, call_of. destruct X as [-> | ->]; done. }
  intros C D C' D' P. rewrite !fmap_app in P. pose proof (perm_filter (fun c => pays_in (snd c)) _ _ P) as Q. pose proof (perm_filter (fun c => negb (pays_in (snd c))) _ _ P) as Q'.
  rewrite !List.filter_app in Q, Q'.
  rewrite !(keep_none _ _ (FC _ C)), !(keep_none _ _ (FC _ C')), !(keep_all _ _ (FD _ D)), !(keep_all _ _ (FD _ D')) in Q. cbn [app] in Q.
  rewrite (keep_all _ (call_of <$> cs)), (keep_all _ (call_of <$> cs')), (keep_none _ (call_of <$> ds)), (keep_none _ (call_of <$> ds')), !app_nil_r in Q'; [done|..];
    (eapply Forall_impl; [first [by apply FC|by apply FD]|]); intros ? HX; cbv beta in *; by rewrite HX.
Qed.
(** C110: of the deposits, withdrawals and claims made in one block by different people, any two orders in which all succeed give everyone the same answers and lead to the same. *)
Theorem C110_order e xs ys s s' t' : clean_history s -> begun (e_millis e) s -> Forall either xs -> NoDup (who <$> xs) ->
  Permutation (call_of <$> xs) (call_of <$> ys) -> turns e s xs s' -> turns e s ys t' -> Permutation xs ys /\ same_market s' t'.
Proof.
  intros CH BG F ND PC H H'.
  assert (WHO : forall l : list entry, who <$> l = (fun c => i_sender (fst c)) <$> (call_of <$> l)) by (intros l; rewrite <- list_fmap_compose; done).
  assert (ND' : NoDup (who <$> ys)) by (rewrite WHO, <- PC, <- WHO; done).
  assert (F' : Forall either ys).
  { assert (EI : forall l : list entry, Forall either l <-> Forall (fun c => (exists k lo u L, deposit (snd c) k lo u L) \/ collects (snd c)) (call_of <$> l)) by (intros l; rewrite Forall_fmap; done).
    rewrite EI, <- PC, <- EI. done. }
  destruct (C110_first e xs s s' CH BG F ND H) as (cs & ds & t & P & FC & FD & T & S).
  destruct (C110_first e ys s t' CH BG F' ND' H') as (cs' & ds' & t2 & P' & FC' & FD' & T2 & S2).
  destruct (halves cs ds cs' ds' FC FD FC' FD') as [QC QD].
  { assert (X : Permutation (call_of <$> xs) (call_of <$> cs ++ ds)) by (by apply fmap_Permutation). assert (X' : Permutation (call_of <$> ys) (call_of <$> cs' ++ ds')) by (by apply fmap_Permutation).
    by rewrite <- X, <- X'. }
  assert (NDN : NoDup (who <$> cs) /\ NoDup (who <$> ds)).
  { assert (X : Permutation (who <$> xs) (who <$> cs ++ ds)) by (by apply fmap_Permutation). rewrite X, fmap_app in ND. apply NoDup_app in ND as (A & _ & B). done. }
  destruct NDN as [NC NDD]. pose proof (clean_history_reachable _ CH) as R.
  apply turns_app in T as (c1 & TC & TD). apply turns_app in T2 as (c2 & TC2 & TD2).
  destruct (Permutation_map_inv call_of _ (Permutation_sym QC)) as (cs2 & EC & PCS). destruct (Permutation_map_inv call_of _ (Permutation_sym QD)) as (ds2 & ED & PDS).
  destruct (order_same e cs cs2 PCS s c1 R FC NC TC) as (c3 & TC3 & SC). destruct (turns_det e cs2 cs' s c3 c2 (eq_sym EC) TC3 TC2) as [-> ->].
  pose proof (turns_reach _ _ _ _ R TC) as R1. pose proof (turns_reach _ _ _ _ R TC2) as R2.
  destruct (turns_same e ds c1 c2 t R1 SC TD) as (t3 & TD3 & ST3).
  assert (BG2 : begun (e_millis e) c2).
  { clear - CH BG FC' TC2. induction TC2 as [|s i m ms at' s1 xs s' E H IH]; [done|]. apply Forall_cons in FC' as [FX FC']. unfold is_collection in FX. cbn in FX.
    apply IH; [exact (ch_call _ _ _ _ _ _ _ CH (collects_clean _ _ _ _ FX) E)|exact (begun_collect _ _ _ _ _ _ _ _ CH FX E BG)|done]. }
  destruct (C101_order_partial e ds ds2 PDS c2 t3 R2 BG2 FD NDD TD3) as (t4 & TD4 & ST4). destruct (turns_det e ds2 ds' c2 t4 t2 (eq_sym ED) TD4 TD2) as [-> ->].
  split; [rewrite P, P'; by apply Permutation_app|].
  eapply market_trans; [exact S|]. eapply market_trans; [apply store_market; exact ST3|]. eapply market_trans; [apply store_market; exact ST4|]. by apply market_sym.
Qed.

(** * Examples *)
Fixpoint run_turns (e : env) (s : store) (cs : list (msg_info * exec_msg)) : res (list entry * store) :=
  match cs with
  | [] => Ok ([], s)
  | (i, m) :: cs' => let* '(s1, ms, at') := execute e i s m in let* '(xs, s2) := run_turns e s1 cs' in Ok ((i, m, ms, at') :: xs, s2)
  end.
Lemma run_turns_ok e cs : forall s xs s', run_turns e s cs = Ok (xs, s') -> turns e s xs s' /\ call_of <$> xs = cs.
Proof.
  induction cs as [|[i m] cs IH]; intros s xs s' H; cbn [run_turns] in H; [injection H as <- <-; split; [constructor|done]|].
  inv_bind H as [[s1 ms] at'] E. inv_bind H as [xs1 s2] E2. injection H as <- <-. destruct (IH _ _ _ E2) as [T C]. split; [by econstructor|]. rewrite fmap_cons, C. done.
Qed.
(** dan deposits below tick 40, alice takes out what is between -10 and 10, bob claims; and the other way round *)
Definition mx_calls : list (msg_info * exec_msg) := [(v_info "dan", od_below); (v_info "alice", RemovePosition 0); (v_info "bob", ClaimFee 0)].
Example ex_C110 : exists xs ys s' t', turns v_env sc0 xs s' /\ turns v_env sc0 ys t' /\ call_of <$> xs = mx_calls /\ call_of <$> ys = reverse mx_calls /\
  Forall either xs /\ NoDup (who <$> xs) /\ (fun x : entry => snd (fst x)) <$> xs =
    [[Cw20TransferFrom "tokenx" "dan" "self" 1906; Cw20TransferFrom "tokeny" "dan" "self" 343]; [Cw20Transfer "tokenx" "alice" 12398; Cw20Transfer "tokeny" "alice" 7614]; []]%string.
Proof.
  destruct (done_inv (fun r => (fun x : entry => snd (fst x)) <$> fst r =
    [[Cw20TransferFrom "tokenx" "dan" "self" 1906; Cw20TransferFrom "tokeny" "dan" "self" 343]; [Cw20Transfer "tokenx" "alice" 12398; Cw20Transfer "tokeny" "alice" 7614]; []]%string)
    (run_turns v_env sc0 mx_calls)) as ([xs s'] & E & M).
  { vm_compute. reflexivity. }
  destruct (done_inv (fun _ => True) (run_turns v_env sc0 (reverse mx_calls))) as ([ys t'] & E' & _).
  { vm_compute. exact I. }
  apply run_turns_ok in E as [T C], E' as [T' C']. exists xs, ys, s', t'. split; [exact T|]. split; [exact T'|]. split; [exact C|]. split; [exact C'|].
  cbn [fst] in M. split; [|split; [|exact M]].
  - assert (EI : Forall (fun c : msg_info * exec_msg => (exists k lo u L, deposit (snd c) k lo u L) \/ collects (snd c)) (call_of <$> xs)).
    { rewrite C. unfold mx_calls. constructor; [left; do 4 eexists; do 2 eexists; left; reflexivity|]. constructor; [right; eexists; left; reflexivity|]. constructor; [right; eexists; right; reflexivity|constructor]. }
    rewrite Forall_fmap in EI. exact EI.
  - assert (W : who <$> xs = (fun c => i_sender (fst c)) <$> (call_of <$> xs)) by (rewrite <- list_fmap_compose; reflexivity). rewrite W, C. apply (bool_decide_unpack _). vm_compute. exact I.
Qed.
(** the withdrawal can be what makes room for the deposit: there are orders that fail *)
Definition fl_calls : list (string * exec_msg) :=
  [("alice", AddFeeTier v_tier);
   ("alice", CreatePool "tokeny" "tokenx" v_tier SP_ONE 0);
   ("bob", CreatePosition v_key 10 20 5000000000000000000000000000000000 SP_ONE SP_ONE)]%string.
Definition fl_deposit : exec_msg := CreatePosition v_key 20 30 5000000000000000000000000000000000 SP_ONE SP_ONE.
Theorem C110_room_refuted : exists e i1 i2 s d k l u L c t1 m2 a2 t2 m1 a1, clean_history s /\ begun (e_millis e) s /\ i_sender i1 <> i_sender i2 /\ deposit d k l u L /\ collects c /\
  execute e i2 s c = Ok (t1, m2, a2) /\ execute e i1 t1 d = Ok (t2, m1, a1) /\ is_ok (execute e i1 s d) = false.
Proof.
  destruct (done_inv (fun s => is_ok (clean_start 10000000000 fl_calls) = true /\ is_ok (execute v_env (v_info "dan") s fl_deposit) = false /\ forallb (fun kp => (0 <=? p_start (snd kp)) && (p_start (snd kp) <=? e_millis v_env)) (map_to_list (st_pools s)) = true /\
     match (let* '(t1, _, _) := execute v_env (v_info "bob") s (RemovePosition 0) in execute v_env (v_info "dan") t1 fl_deposit) with Ok _ => True | _ => False end)
    (start 10000000000 fl_calls)) as (s & E & CL & NO & BG & YES).
  { vm_compute. repeat split. }
  destruct (execute v_env (v_info "bob") s (RemovePosition 0)) as [[[t1 m2] a2]| |] eqn:E2; [|destruct YES..]. cbn [bind] in YES.
  destruct (execute v_env (v_info "dan") t1 fl_deposit) as [[[t2 m1] a1]| |] eqn:E1; [|destruct YES..].
  exists v_env, (v_info "dan"), (v_info "bob"), s, fl_deposit, v_key, 20, 30, 5000000000000000000000000000000000, (RemovePosition 0), t1, m2, a2, t2, m1, a1.
  split; [exact (clean_by_check _ _ _ E CL)|]. split.
  { intros k p P. rewrite forallb_forall in BG. apply elem_of_map_to_list in P. apply elem_of_list_In in P. specialize (BG _ P). apply andb_prop in BG as [B1 B2]. cbn in B1, B2. split; [by apply Z.leb_le|by apply Z.leb_le]. }
  split; [discriminate|]. split; [do 2 eexists; left; reflexivity|]. split; [eexists; left; reflexivity|]. split; [exact E2|]. split; [exact E1|exact NO].
Qed.
Print Assumptions C110_order.
Print Assumptions C110_room_refuted.
