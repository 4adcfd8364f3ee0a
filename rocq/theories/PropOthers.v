(** C52: what a position is worth does not depend on what others do with theirs. *)
From Verif Require Import Base Decimal SqrtPrice Clamm FeeGrowth Types Tick Pool Position Keys State Swap Exec Tactics
  PriceProofs ClammProofs BitmapProofs Frame Handlers History Basic PosList Ledger Scenario SwapInv SwapGeo SwapLoop Modify PSum LiqInv
  Vectors Geo Ops Clean PropTrade PropLiq PropSwap Growth Value Fund Flow PropSolv Forward PropExit.
From stdpp Require Import gmap strings.
From Coq Require Import Lia.
Open Scope Z_scope.

(** ** What calls that do not trade in a pool leave alone *)
Definition core (p : pool) : Z * Z * Z * Z := (p_tick p, p_price p, p_fgx p, p_fgy p).
Record core_kept (k : pool_key) (s s' : store) : Prop := {
  ck_pool : forall p, st_pools s !! k = Some p -> exists p', st_pools s' !! k = Some p' /\ core p' = core p;
  ck_tick : forall j t t', st_ticks s !! (k, j) = Some t -> st_ticks s' !! (k, j) = Some t' -> t_fox t' = t_fox t /\ t_foy t' = t_foy t
}.
Lemma core_refl k s s' : st_pools s' = st_pools s -> st_ticks s' = st_ticks s -> core_kept k s s'.
Proof. intros P T. constructor; [intros p; rewrite P; eauto|]. rewrite T. intros. by simplify_eq. Qed.
Lemma core_save k s k' p p' : st_pools s !! k' = Some p -> core p' = core p -> core_kept k s (save_pool s k' p').
Proof.
  intros E C. constructor; [|intros; cbn in *; by simplify_eq]. cbn. intros q Q. destruct (decide (k' = k)) as [->|N].
  - rewrite lookup_insert. exists p'. split; [done|]. congruence.
  - rewrite lookup_insert_ne by done. eauto.
Qed.
(** tick records replaced by ones with the same fee counters *)
Definition fees_kept (T T' : tickmap) : Prop :=
  forall x t t', T !! x = Some t -> T' !! x = Some t' -> t_fox t' = t_fox t /\ t_foy t' = t_foy t.
Lemma fees_insert T T' x t t' : fees_kept T T' -> T !! x = Some t \/ T !! x = None -> (T !! x = Some t -> t_fox t' = t_fox t /\ t_foy t' = t_foy t) ->
  fees_kept T (<[x := t']> T').
Proof.
  intros F E S y a b A B. destruct (decide (y = x)) as [->|N].
  - rewrite lookup_insert in B. injection B as <-. destruct E as [E|E]; [|congruence]. rewrite A in E. injection E as ->. by apply S.
  - rewrite lookup_insert_ne in B by done. by eapply F.
Qed.
Lemma fees_delete T T' x : fees_kept T T' -> fees_kept T (delete x T').
Proof. intros F y a b A B. apply lookup_delete_Some in B. destruct B as [_ B]. by eapply F. Qed.
Lemma effect0_core e i s s' ms k : ereach s -> effect0 e i s s' ms -> core_kept k s s'.
Proof.
  intros R H. destruct H as [c|k' p Ep|k' p r _ Ep|k' p b t0 t1 price tick En|k' lower upper liq sl su s' ms at' Hq _ _ H|ix s' ms at' H|ix s' ms at' H
    |o ix po s1 r s' ms Ep ER EA _|o ix po l Ep|m].
  - by apply core_refl.
  - eapply core_save; [exact Ep|done].
  - eapply core_save; [exact Ep|done].
  - constructor; [|intros; cbn in *; by simplify_eq]. cbn. intros q Q. rewrite lookup_insert_ne by congruence. eauto.
  - destruct (create_inv _ _ _ _ _ _ _ _ _ _ _ _ R Hq H) as (p & lt & ut & po & p' & lt' & ut' & x & y & bm1 & bm2 & m0 & m1 & F).
    destruct F. rewrite cx_store. constructor; cbn.
    + intros q Q. destruct (decide (k' = k)) as [->|N]; [|rewrite lookup_insert_ne by done; eauto].
      rewrite lookup_insert. exists p'. split; [done|]. destruct cx_mod. rewrite mf_pool. assert (q = p) as -> by congruence. done.
    + destruct cx_mod. assert (K : fees_kept (st_ticks s) (<[(k', upper) := ut']> (<[(k', lower) := lt']> (st_ticks s)))).
      { apply fees_insert with ut; [apply fees_insert with lt|..].
        - intros z a b A B. by simplify_eq.
        - unfold stored_or_new in cx_low. tauto.
        - intros _. tauto.
        - unfold stored_or_new in cx_up. tauto.
        - intros _. tauto. }
      intros j t t'. apply K.
  - destruct (claim_inv _ _ _ _ _ _ _ R H) as (po & p & lt & ut & po1 & p' & lt' & ut' & zx & zy & ox & oy & F).
    destruct F. rewrite cl_store. destruct cl_mod. constructor; cbn.
    + intros q Q. destruct (decide (po_key po = k)) as [<-|N]; [|rewrite lookup_insert_ne by done; eauto].
      rewrite lookup_insert. exists p'. split; [done|]. rewrite mf_pool. assert (q = p) as -> by congruence. done.
    + intros j t t'. apply (fees_insert (st_ticks s) _ _ lt lt'); [apply (fees_insert (st_ticks s) _ _ ut ut')|..]; try tauto.
      intros z a b A B. by simplify_eq.
  - destruct (remove_inv _ _ _ _ _ _ _ R H) as (po & p & lt & ut & po1 & p' & lt' & ut' & x & y & ox & oy & bm1 & bm2 & m' & F).
    destruct F. rewrite rx_store. destruct rx_mod. constructor; cbn.
    + intros q Q. destruct (decide (po_key po = k)) as [<-|N]; [|rewrite lookup_insert_ne by done; eauto].
      rewrite lookup_insert. exists p'. split; [done|]. rewrite mf_pool. assert (q = p) as -> by congruence. done.
    + assert (K : fees_kept (st_ticks s) (clear_tick (t_gross lt' =? 0) (po_key po) (po_lower po) lt' (st_ticks s))).
      { unfold clear_tick. destruct (_ =? _).
        - apply fees_delete. intros z a b A B. by simplify_eq.
        - apply fees_insert with lt; [intros z a b A B; by simplify_eq|tauto..]. }
      assert (K2 : fees_kept (st_ticks s) (clear_tick (t_gross ut' =? 0) (po_key po) (po_upper po) ut' (clear_tick (t_gross lt' =? 0) (po_key po) (po_lower po) lt' (st_ticks s)))).
      { unfold clear_tick at 1. destruct (t_gross ut' =? 0); [by apply fees_delete|]. apply fees_insert with ut; [done|tauto..]. }
      intros j t t'. apply K2.
  - unfold remove_position in ER. rinv ER; simplify_eq; unfold add_position in EA; rinv EA; simplify_eq; by apply core_refl.
  - by apply core_refl.
  - by apply core_refl.
Qed.

(** the call is a swap, or a route with a hop, in pool [k] *)
Definition trades_in (m : exec_msg) (k : pool_key) : Prop :=
  match m with
  | Swap k' _ _ _ _ => k' = k
  | SwapRoute _ _ _ hops => exists h, In h hops /\ hop_key h = k
  | _ => False
  end.
Lemma call_core e i s m s' ms at' k : reachable s -> execute e i s m = Ok (s', ms, at') -> ~ trades_in m k -> core_kept k s s'.
Proof.
  intros R H N. pose proof (execute_split _ _ _ _ _ _ _ H) as [X|[X|X]].
  - by apply (effect0_core _ _ _ _ _ _ (reachable_ereach _ R) X).
  - destruct X as (k' & d & a & by_in & lim & r & -> & _).
    destruct (C26_other_pools_untouched _ _ _ _ _ _ _ k R H N) as (A & B & _). constructor; [rewrite A; eauto|].
    intros j t t'. rewrite B. intros. by simplify_eq.
  - destruct X as (a & x & sl & hops & out & -> & _).
    destruct (C26_other_pools_untouched _ _ _ _ _ _ _ k R H N) as (A & B & _). constructor; [rewrite A; eauto|].
    intros j t t'. rewrite B. intros. by simplify_eq.
Qed.

(** the same stake, whoever owns it and at whatever index: pool, range, liquidity and fee checkpoints *)
Definition same_stake (po po' : position) : Prop :=
  po_key po' = po_key po /\ po_lower po' = po_lower po /\ po_upper po' = po_upper po /\ po_liq po' = po_liq po /\
  po_fgx po' = po_fgx po /\ po_fgy po' = po_fgy po.

(** everything a claim or removal of the stake looks at *)
Lemma stake_same e i s m s' ms at' x x' po po' : reachable s -> execute e i s m = Ok (s', ms, at') ->
  st_positions s !! x = Some po -> st_positions s' !! x' = Some po' -> same_stake po po' -> ~ trades_in m (po_key po) ->
  exists p p' lt ut lt' ut', st_pools s !! po_key po = Some p /\ st_pools s' !! po_key po = Some p' /\ core p' = core p /\
    st_ticks s !! (po_key po, po_lower po) = Some lt /\ st_ticks s !! (po_key po, po_upper po) = Some ut /\
    st_ticks s' !! (po_key po, po_lower po) = Some lt' /\ st_ticks s' !! (po_key po, po_upper po) = Some ut' /\
    inside_x p' lt' ut' = inside_x p lt ut /\ inside_y p' lt' ut' = inside_y p lt ut.
Proof.
  intros R H E E' (S1 & S2 & S3 & S4 & S5 & S6) N. assert (R' : reachable s') by (by eapply reach_call).
  destruct (call_core _ _ _ _ _ _ _ _ R H N) as [CP CT].
  apply reachable_ereach in R, R'. pose proof (ereach_liq _ R) as LI. pose proof (ereach_liq _ R') as LI'.
  destruct (lq_pos _ LI _ _ E) as [_ [p EP]]. destruct (CP _ EP) as (p' & EP' & C).
  destruct (bound_tick s _ po (po_lower po) LI E ltac:(by left)) as [lt TL]. destruct (bound_tick s _ po (po_upper po) LI E ltac:(by right)) as [ut TU].
  destruct (bound_tick s' _ po' (po_lower po) LI' E' ltac:(left; congruence)) as [lt' TL'].
  destruct (bound_tick s' _ po' (po_upper po) LI' E' ltac:(right; congruence)) as [ut' TU'].
  rewrite S1 in TL', TU'. exists p, p', lt, ut, lt', ut'. do 7 (split; [done|]).
  destruct (CT _ _ _ TL TL') as [A1 A2], (CT _ _ _ TU TU') as [B1 B2].
  pose proof (ereach_indexed _ R) as IX. pose proof (ereach_indexed _ R') as IX'.
  pose proof (IX _ _ _ TL). pose proof (IX _ _ _ TU). pose proof (IX' _ _ _ TL'). pose proof (IX' _ _ _ TU').
  unfold core in C. injection C as C1 C2 C3 C4. unfold inside_x, inside_y. rewrite A1, A2, B1, B2, C1, C3, C4. split; congruence.
Qed.

(** A call that does not trade in the pool - anybody opening, closing, claiming or transferring positions, pools created, settings changed,
    trades in other pools - does not change what a stake can claim, ... *)
Theorem C52_claims_unaffected e i s m s' ms at' a ix po b jx po' : reachable s -> execute e i s m = Ok (s', ms, at') ->
  st_positions s !! (a, ix) = Some po -> st_positions s' !! (b, jx) = Some po' -> same_stake po po' -> ~ trades_in m (po_key po) ->
  forall e1 i1 e2 i2 x y, i_sender i1 = a -> i_sender i2 = b -> env_typed e1 i1 = true -> env_typed e2 i2 = true ->
    (exists s1 ms1, execute e1 i1 s (ClaimFee ix) = Ok (s1, ms1, [("amount_x"%string, x); ("amount_y"%string, y)])) <->
    (exists s2 ms2, execute e2 i2 s' (ClaimFee jx) = Ok (s2, ms2, [("amount_x"%string, x); ("amount_y"%string, y)])).
Proof.
  intros R H E E' S N e1 i1 e2 i2 x y <- <- T1 T2. assert (R' : reachable s') by (by eapply reach_call).
  destruct (stake_same _ _ _ _ _ _ _ _ _ _ _ R H E E' S N) as (p & p' & lt & ut & lt' & ut' & EP & EP' & C & TL & TU & TL' & TU' & IX & IY).
  destruct S as (S1 & S2 & S3 & S4 & S5 & S6). apply reachable_ereach in R, R'.
  assert (G : forall e1 i1 s ix po p lt ut, ereach s -> env_typed e1 i1 = true ->
     st_positions s !! (i_sender i1, ix) = Some po -> st_pools s !! po_key po = Some p ->
     st_ticks s !! (po_key po, po_lower po) = Some lt -> st_ticks s !! (po_key po, po_upper po) = Some ut ->
     ((exists s1 ms1, execute e1 i1 s (ClaimFee ix) = Ok (s1, ms1, [("amount_x"%string, x); ("amount_y"%string, y)])) <->
      to_fee (wsub (inside_x p lt ut) (po_fgx po)) (po_liq po) = Ok x /\ to_fee (wsub (inside_y p lt ut) (po_fgy po)) (po_liq po) = Ok y)).
  { clear. intros e1 i1 s ix po p lt ut R T E EP TL TU. destruct (ereach_unowed _ R _ _ E) as [O1 O2].
    pose proof (proj1 (ct_some _ _ (ereach_pos_ok _ R) (i_sender i1) ix) ltac:(eauto)) as B. pose proof (ct_range _ _ (ereach_pos_ok _ R) (i_sender i1)) as IR.
    unfold U32MAX in IR. rewrite execute_claim by (try done; lia). split.
    - intros (s1 & ms1 & H). destruct (claim_inv _ _ _ _ _ _ _ R H) as (po0 & p0 & lt0 & ut0 & po1 & p' & lt' & ut' & zx & zy & ox & oy & F). destruct F.
      rewrite E in cl_pos. injection cl_pos as <-. rewrite EP in cl_pool. injection cl_pool as <-. rewrite TL in cl_low. injection cl_low as <-.
      rewrite TU in cl_up. injection cl_up as <-. rewrite O1, O2, !Z.add_0_l in cl_attr. injection cl_attr as -> ->.
      split; [exact (mf_ox _ _ _ _ _ _ _ _ _ _ _ _ _ _ _ _ cl_mod)|exact (mf_oy _ _ _ _ _ _ _ _ _ _ _ _ _ _ _ _ cl_mod)].
    - intros [X Y]. assert (BX : 0 <= x <= U128MAX) by (unfold to_fee in X; inv_bind X as z Z; apply ck_ok in X; destruct X as [-> X]; exact X).
      assert (BY : 0 <= y <= U128MAX) by (unfold to_fee in Y; inv_bind Y as z Z; apply ck_ok in Y; destruct Y as [-> Y]; exact Y).
      destruct (claim_ok e1 i1 s ix po p lt ut x y R E EP TL TU X Y ltac:(lia) ltac:(lia)) as [s1 Q].
      rewrite O1, O2, !Z.add_0_l in Q. eauto. }
  rewrite (G e1 i1 s ix po p lt ut), (G e2 i2 s' jx po' p' lt' ut'); try done; try congruence.
  rewrite IX, IY, S4, S5, S6. done.
Qed.

Lemma pays_det a k x y x' y' ms : pk_x k <> pk_y k -> pays a k x y ms -> pays a k x' y' ms -> x = x' /\ y = y'.
Proof.
  intros N A B. pose proof (A a (pk_x k)) as AX. pose proof (B a (pk_x k)) as BX. pose proof (A a (pk_y k)) as AY. pose proof (B a (pk_y k)) as BY.
  rewrite !String.eqb_refl in *. rewrite (proj2 (String.eqb_neq (pk_y k) (pk_x k))) in AY, BY by congruence. split; congruence.
Qed.
(** the position's liquidity is part of the pool's when the price is in its range *)
Lemma stake_active s x po p : ereach s -> act_inv s -> st_positions s !! x = Some po -> st_pools s !! po_key po = Some p ->
  in_range_tick (po_lower po) (po_upper po) (p_tick p) = true -> po_liq po <= p_liq p <= U128MAX.
Proof.
  intros R A E EP Q. pose proof (ereach_liq _ R) as LI. split; [|apply (ereach_geo _ R _ _ EP)]. rewrite (A _ _ EP). unfold act.
  transitivity (active_at (po_key po) (p_tick p) po).
  - unfold active_at, at_key. rewrite decide_True by done. by rewrite Q.
  - refine (psum_ge _ _ x po _ E). intros y q Qy. apply (lq_pos _ LI) in Qy. destruct Qy as [(Q1 & _) _].
    unfold active_at, at_key. destruct (decide _); [|lia]. destruct (in_range_tick (po_lower q) _ _); lia.
Qed.
(** what a removal pays, by the pool's price and tick and the fee counters only *)
Definition exit_pays (p : pool) (lt ut : tick) (po : position) (X Y : Z) : Prop :=
  exists x y ox oy, to_fee (wsub (inside_x p lt ut) (po_fgx po)) (po_liq po) = Ok ox /\
    to_fee (wsub (inside_y p lt ut) (po_fgy po)) (po_liq po) = Ok oy /\
    calculate_amount_delta (p_tick p) (p_price p) (po_liq po) false (po_upper po) (po_lower po) =
      Ok (x, y, in_range_tick (po_lower po) (po_upper po) (p_tick p)) /\
    X = x + ox /\ Y = y + oy /\ X <= U128MAX /\ Y <= U128MAX.
Lemma remove_pays e i s ix po p lt ut X Y : reachable s -> env_typed e i = true ->
  st_positions s !! (i_sender i, ix) = Some po -> st_pools s !! po_key po = Some p ->
  st_ticks s !! (po_key po, po_lower po) = Some lt -> st_ticks s !! (po_key po, po_upper po) = Some ut ->
  ((exists s' ms at', execute e i s (RemovePosition ix) = Ok (s', ms, at') /\ pays (i_sender i) (po_key po) X Y ms) -> exit_pays p lt ut po X Y) /\
  (act_inv s -> exit_pays p lt ut po X Y -> exists s' ms,
     execute e i s (RemovePosition ix) = Ok (s', ms, position_event (po_liq po) (po_lower po) (po_upper po) (p_price p)) /\ pays (i_sender i) (po_key po) X Y ms).
Proof.
  intros RR T E EP TL TU. pose proof (reachable_ereach _ RR) as R. destruct (ereach_unowed _ R _ _ E) as [O1 O2].
  assert (KD : pk_x (po_key po) <> pk_y (po_key po)) by (apply (pool_distinct s); eauto).
  pose proof (proj1 (ct_some _ _ (ereach_pos_ok _ R) (i_sender i) ix) ltac:(eauto)) as B. pose proof (ct_range _ _ (ereach_pos_ok _ R) (i_sender i)) as IR.
  unfold U32MAX in IR. rewrite execute_remove by (try done; lia). split.
  - intros (s' & ms & at' & H & PY). pose proof H as H0. apply remove_position_exec_inv in H0; [|by apply ereach_indexed].
    destruct H0 as (po0 & lt0 & ut0 & p0 & po' & p' & lt' & ut' & x & y & dl & du & bm1 & bm2 & m' & Epo & _ & El & Eu & Ep & PC & Em & _).
    rewrite E in Epo. injection Epo as <-. rewrite EP in Ep. injection Ep as <-. rewrite TL in El. injection El as <-. rewrite TU in Eu. injection Eu as <-.
    assert (PY' : pays (i_sender i) (po_key po) x y ms) by (rewrite Em; by apply transfers_pay).
    destruct (pays_det _ _ _ _ _ _ _ KD PY PY') as [-> ->]. clear PY PY'.
    pose proof (ereach_liq _ R) as LI. destruct (lq_pos _ LI _ _ E) as [(V1 & _) _].
    pose proof (lq_tick _ LI (po_key po) (po_lower po)) as PL. rewrite TL in PL. destruct PL as [PL _].
    pose proof (lq_tick _ LI (po_key po) (po_upper po)) as PU. rewrite TU in PU. destruct PU as [PU _].
    unfold position_remove in PC. inv_bind PC as [[[[[po1 p1] u1] l1] x1] y1] EM. inv_bind PC as x2 EX. inv_bind PC as y2 EY.
    apply Ok_inj in PC. injection PC as <- <- <- <- <- <- <- <-.
    apply position_modify_inv in EM; [|lia|apply PU|apply PL]. destruct EM as (ox & oy & F).
    pose proof (mf_pos _ _ _ _ _ _ _ _ _ _ _ _ _ _ _ _ F) as P1. rewrite P1 in EX, EY. cbn in EX, EY. rewrite O1 in EX. rewrite O2 in EY.
    exists x1, y1, ox, oy. split; [exact (mf_ox _ _ _ _ _ _ _ _ _ _ _ _ _ _ _ _ F)|]. split; [exact (mf_oy _ _ _ _ _ _ _ _ _ _ _ _ _ _ _ _ F)|].
    split; [|ckinv; lia]. pose proof (mf_amount _ _ _ _ _ _ _ _ _ _ _ _ _ _ _ _ F) as A.
    by rewrite (tp_index _ _ _ _ PL), (tp_index _ _ _ _ PU) in A.
  - intros A (x & y & ox & oy & X1 & Y1 & AM & -> & -> & XB & YB).
    assert (BX : 0 <= ox) by (unfold to_fee in X1; inv_bind X1 as z Z; apply ck_ok in X1; destruct X1 as [-> X1]; lia).
    assert (BY : 0 <= oy) by (unfold to_fee in Y1; inv_bind Y1 as z Z; apply ck_ok in Y1; destruct Y1 as [-> Y1]; lia).
    destruct (lq_pos _ (ereach_liq _ R) _ _ E) as [PV _]. destruct (ereach_geo _ R _ _ EP) as [G _].
    destruct (kv_tier _ (ereach_pools _ R _ _ EP)) as [S1 _]. fold (spacing (po_key po)) in S1.
    pose proof (amount_value p (po_liq po) false x y _ (po_key po) po G ltac:(lia) PV eq_refl eq_refl AM) as (_ & _ & X0 & Y0).
    destruct (remove_ok e i s ix po p lt ut x y ox oy R E EP TL TU) as [s' Q]; try done; try lia.
    { by apply (stake_active s (i_sender i, ix)). }
    rewrite O1, O2, !Z.add_0_l in Q. eexists s', _. split; [exact Q|]. by apply transfers_pay.
Qed.

Lemma exit_same p p' lt ut lt' ut' po po' X Y : same_stake po po' -> core p' = core p ->
  inside_x p' lt' ut' = inside_x p lt ut -> inside_y p' lt' ut' = inside_y p lt ut -> exit_pays p' lt' ut' po' X Y <-> exit_pays p lt ut po X Y.
Proof.
  intros (S1 & S2 & S3 & S4 & S5 & S6) C IX IY. unfold core in C. injection C as C1 C2 _ _.
  unfold exit_pays. rewrite IX, IY, S2, S3, S4, S5, S6, C1, C2. done.
Qed.
Lemma remove_paid e i s ix po s' ms at' : reachable s -> execute e i s (RemovePosition ix) = Ok (s', ms, at') -> st_positions s !! (i_sender i, ix) = Some po ->
  env_typed e i = true /\ exists X Y, pays (i_sender i) (po_key po) X Y ms.
Proof.
  intros RR H E. pose proof (reachable_ereach _ RR) as R. unfold execute in H. destruct (_ && _) eqn:T; [|done]. apply andb_prop in T. split; [tauto|].
  cbn [dispatch] in H. destruct (remove_inv _ _ _ _ _ _ _ R H) as (po' & p0 & lt & ut & po1 & p' & lt' & ut' & x & y & ox & oy & bm1 & bm2 & m' & F).
  destruct F. rewrite E in rx_pos. injection rx_pos as <-. rewrite rx_msgs. eexists _, _. apply transfers_pay. apply (pool_distinct s); eauto.
Qed.

(** ... nor what withdrawing it pays, ... *)
Theorem C52_same_payout e i s m s' ms at' a ix po b jx po' : reachable s -> execute e i s m = Ok (s', ms, at') ->
  st_positions s !! (a, ix) = Some po -> st_positions s' !! (b, jx) = Some po' -> same_stake po po' -> ~ trades_in m (po_key po) ->
  forall e1 i1 e2 i2 s1 ms1 at1 s2 ms2 at2, i_sender i1 = a -> i_sender i2 = b ->
    execute e1 i1 s (RemovePosition ix) = Ok (s1, ms1, at1) -> execute e2 i2 s' (RemovePosition jx) = Ok (s2, ms2, at2) ->
    forall T, paid a T ms1 = paid b T ms2.
Proof.
  intros R H E E' S N e1 i1 e2 i2 s1 ms1 at1 s2 ms2 at2 <- <- H1 H2 T. assert (R' : reachable s') by (by eapply reach_call).
  destruct (stake_same _ _ _ _ _ _ _ _ _ _ _ R H E E' S N) as (p & p' & lt & ut & lt' & ut' & EP & EP' & C & TL & TU & TL' & TU' & IX & IY).
  pose proof S as (S1 & S2 & S3 & S4 & S5 & S6).
  destruct (remove_paid _ _ _ _ _ _ _ _ R H1 E) as (T1 & X & Y & P1). destruct (remove_paid _ _ _ _ _ _ _ _ R' H2 E') as (T2 & X' & Y' & P2).
  pose proof (proj1 (remove_pays e1 i1 s ix po p lt ut X Y R T1 E EP TL TU) ltac:(eauto 6)) as (x & y & ox & oy & A1 & A2 & A3 & -> & -> & _).
  rewrite <- S1 in EP', TL', TU'. rewrite <- S2 in TL'. rewrite <- S3 in TU'.
  pose proof (proj1 (remove_pays e2 i2 s' jx po' p' lt' ut' X' Y' R' T2 E' EP' TL' TU') ltac:(eauto 6)) as B.
  apply (proj1 (exit_same p p' lt ut lt' ut' po po' _ _ S C IX IY)) in B. destruct B as (x' & y' & ox' & oy' & B1 & B2 & B3 & -> & -> & _).
  rewrite A1 in B1. apply Ok_inj in B1 as <-. rewrite A2 in B2. apply Ok_inj in B2 as <-. rewrite A3 in B3. apply Ok_inj in B3. injection B3 as <- <-.
  rewrite (P1 (i_sender i1) T), (P2 (i_sender i2) T), !String.eqb_refl, S1. done.
Qed.
(** ... nor, in histories without skipped ticks, whether it can be withdrawn. *)
Theorem C52_withdrawals_unaffected_partial e i s m s' ms at' a ix po b jx po' : clean_history s -> clean_call e i s m -> execute e i s m = Ok (s', ms, at') ->
  st_positions s !! (a, ix) = Some po -> st_positions s' !! (b, jx) = Some po' -> same_stake po po' -> ~ trades_in m (po_key po) ->
  forall e1 i1 e2 i2 X Y, i_sender i1 = a -> i_sender i2 = b -> env_typed e1 i1 = true -> env_typed e2 i2 = true ->
    (exists s1 ms1 at1, execute e1 i1 s (RemovePosition ix) = Ok (s1, ms1, at1) /\ pays a (po_key po) X Y ms1) <->
    (exists s2 ms2 at2, execute e2 i2 s' (RemovePosition jx) = Ok (s2, ms2, at2) /\ pays b (po_key po) X Y ms2).
Proof.
  intros CH CC H E E' S N e1 i1 e2 i2 X Y <- <- T1 T2. pose proof (clean_history_reachable _ CH) as R. assert (R' : reachable s') by (by eapply reach_call).
  assert (CH' : clean_history s') by (by eapply ch_call).
  destruct (stake_same _ _ _ _ _ _ _ _ _ _ _ R H E E' S N) as (p & p' & lt & ut & lt' & ut' & EP & EP' & C & TL & TU & TL' & TU' & IX & IY).
  pose proof S as (S1 & S2 & S3 & S4 & S5 & S6). rewrite <- S1 in EP', TL', TU'. rewrite <- S2 in TL'. rewrite <- S3 in TU'.
  pose proof (remove_pays e1 i1 s ix po p lt ut X Y R T1 E EP TL TU) as [A1 A2].
  pose proof (remove_pays e2 i2 s' jx po' p' lt' ut' X Y R' T2 E' EP' TL' TU') as [B1 B2]. rewrite S1 in B1, B2.
  specialize (A2 (creach_act _ (clean_history_creach _ CH))). specialize (B2 (creach_act _ (clean_history_creach _ CH'))).
  pose proof (exit_same p p' lt ut lt' ut' po po' X Y S C IX IY) as Q. split.
  - intros Z. destruct (B2 (proj2 Q (A1 Z))) as (s2 & ms2 & Z2 & Z3). eauto 6.
  - intros Z. destruct (A2 (proj1 Q (B1 Z))) as (s2 & ms2 & Z2 & Z3). eauto 6.
Qed.

(** Missing: histories with skipped ticks.  There the withdrawal of one position can make that of another impossible.  After the swap of
    [lim_calls] dave opens a position in [-10, 30) and can withdraw it; once bob has withdrawn, dave cannot. *)
Definition oth_calls : list (string * exec_msg) :=
  lim_calls ++ [("dave"%string, CreatePosition v_key (-10) 30 5000000000000 SP_ONE (2 * SP_ONE))].
(** withdrawing [a]'s first position pays [x] tokenx and [y] tokeny *)
Definition leaves_with (s : store) (a : string) (x y : Z) : Prop :=
  exists s1 ms1 at1, execute v_env (v_info a) s (RemovePosition 0) = Ok (s1, ms1, at1) /\ paid a "tokenx" ms1 = x /\ paid a "tokeny" ms1 = y.
Lemma leaves_check s a x y : match execute v_env (v_info a) s (RemovePosition 0) with
  | Ok (_, ms1, _) => paid a "tokenx" ms1 = x /\ paid a "tokeny" ms1 = y | _ => False end -> leaves_with s a x y.
Proof. intros H. apply (done_inv (fun '(_, ms1, _) => _)) in H. destruct H as ([[s1 ms1] at1] & E & H). exists s1, ms1, at1. exact (conj E H). Qed.
Theorem C52_refuted : exists s s' ms at' po,
  reachable s /\ execute v_env (v_info "bob") s (RemovePosition 0) = Ok (s', ms, at') /\
  st_positions s !! ("dave"%string, 0) = Some po /\ st_positions s' !! ("dave"%string, 0) = Some po /\
  leaves_with s "dave" 4994 4999 /\ execute v_env (v_info "dave") s' (RemovePosition 0) = Err UpdateLiquidityMinusOverflow.
Proof.
  destruct (done_inv (fun s => match execute v_env (v_info "bob") s (RemovePosition 0) with
      | Ok (s', ms, at') => match st_positions s !! ("dave"%string, 0) with Some po =>
           (st_positions s' !! ("dave"%string, 0) = Some po /\
            match execute v_env (v_info "dave") s (RemovePosition 0) with
            | Ok (_, ms1, _) => paid "dave" "tokenx" ms1 = 4994 /\ paid "dave" "tokeny" ms1 = 4999 | _ => False end) /\
           execute v_env (v_info "dave") s' (RemovePosition 0) = Err UpdateLiquidityMinusOverflow
         | None => False end
      | _ => False end) (start 10000000000 oth_calls)) as (s & E & X).
  { vm_compute. split; [|reflexivity]. split; [reflexivity|]. split; reflexivity. }
  apply (done_inv (fun '(s', ms, at') => _)) in X. destruct X as ([[s' ms] at'] & E2 & X).
  apply (some_inv (fun po : position => _)) in X. destruct X as (po & E3 & [[X1 X2] X3]). apply leaves_check in X2.
  exists s, s', ms, at', po. exact (conj (start_reachable _ _ _ E) (conj E2 (conj E3 (conj X1 (conj X2 X3))))).
Qed.

(** alice's first position in [sc0] may claim 13 tokenx and withdraw 12398 tokenx and 7614 tokeny; bob opening a position with the same bounds
    leaves that so. *)
Example ex_C52 : exists s' ms at' po po', execute v_env (v_info "bob") sc0 (CreatePosition v_key (-10) 10 9000000000000 0 MAX_SQRT_PRICE) = Ok (s', ms, at') /\
  clean_history sc0 /\ st_positions sc0 !! ("alice"%string, 0) = Some po /\ st_positions s' !! ("alice"%string, 0) = Some po' /\ same_stake po po' /\
  leaves_with sc0 "alice" 12398 7614 /\ leaves_with s' "alice" 12398 7614 /\
  (exists s1 ms1, execute v_env (v_info "alice") s' (ClaimFee 0) = Ok (s1, ms1, [("amount_x"%string, 13); ("amount_y"%string, 0)])).
Proof.
  destruct (done_inv (fun '(s', ms, at') => match st_positions sc0 !! ("alice"%string, 0), st_positions s' !! ("alice"%string, 0) with Some po, Some po' =>
      (same_stake po po' /\
      (match execute v_env (v_info "alice") sc0 (RemovePosition 0) with
       | Ok (_, ms1, _) => paid "alice" "tokenx" ms1 = 12398 /\ paid "alice" "tokeny" ms1 = 7614 | _ => False end) /\
      (match execute v_env (v_info "alice") s' (RemovePosition 0) with
       | Ok (_, ms1, _) => paid "alice" "tokenx" ms1 = 12398 /\ paid "alice" "tokeny" ms1 = 7614 | _ => False end)) /\
      (match execute v_env (v_info "alice") s' (ClaimFee 0) with Ok (_, _, at1) => at1 = [("amount_x"%string, 13); ("amount_y"%string, 0)] | _ => False end)
      | _, _ => False end) (execute v_env (v_info "bob") sc0 (CreatePosition v_key (-10) 10 9000000000000 0 MAX_SQRT_PRICE))) as ([[s' ms] at'] & E & X).
  { vm_compute. repeat split. }
  destruct (st_positions sc0 !! ("alice"%string, 0)) as [po|]; [|destruct X]. destruct (st_positions s' !! ("alice"%string, 0)) as [po'|] eqn:E2; [|destruct X].
  destruct X as ((X1 & X2 & X3) & X4). apply leaves_check in X2, X3. apply (done_inv (fun '(_, _, at1) => _)) in X4. destruct X4 as ([[s1 ms1] at1] & E3 & X4).
  exists s', ms, at', po, po'. refine (conj E (conj sc0_clean (conj eq_refl (conj E2 (conj X1 (conj X2 (conj X3 _))))))).
  exists s1, ms1. rewrite <- X4. exact E3.
Qed.
