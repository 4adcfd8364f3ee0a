(** C56: the times recorded at ticks measure how long the price was in a range. *)
From Verif Require Import Base Decimal SqrtPrice Clamm Log FeeGrowth Types Tick Pool Position Tickmap State Swap Exec Tactics
  PriceProofs LogProofs ClammProofs BitmapProofs Frame Handlers History Basic Ledger Scenario Vectors SwapInv SwapGeo SwapLoop Modify PSum LiqInv Geo Ops Clean PropLiq PropTrade.
From stdpp Require Import gmap strings.
From Coq Require Import Lia.
Open Scope Z_scope.

(** ** Time below a tick, time inside a range *)
(** time since the pool's start, less the time below the lower tick and the time above the upper tick, in 64-bit arithmetic *)
Definition time_inside (p : pool) (l u : tick) (now : Z) : Z :=
  let total := now - p_start p in
  let below := if t_index l <=? p_tick p then t_secs l else total - t_secs l in
  let above := if p_tick p <? t_index u then t_secs u else total - t_secs u in
  (total - below - above) mod 2 ^ 64.

Definition tbelow (now : Z) (p : pool) (t : tick) : Z := if t_index t <=? p_tick p then t_secs t else now - p_start p - t_secs t.
Definition teq (a b : Z) : Prop := exists q, a = b + q * 2 ^ 64.
Lemma teq_refl a : teq a a.
Proof. exists 0. lia. Qed.
Lemma teq_trans a b c : teq a b -> teq b c -> teq a c.
Proof. intros [q ->] [q' ->]. exists (q + q'). lia. Qed.
Lemma inside_diff p l u now : time_inside p l u now = (tbelow now p u - tbelow now p l) mod 2 ^ 64.
Proof.
  unfold time_inside, tbelow. f_equal. destruct (Z.leb_spec (t_index l) (p_tick p)), (Z.ltb_spec (p_tick p) (t_index u)), (Z.leb_spec (t_index u) (p_tick p)); lia.
Qed.
Lemma inside_teq p l u p' l' u' now : teq (tbelow now p' u') (tbelow now p u) -> teq (tbelow now p' l') (tbelow now p l) ->
  time_inside p' l' u' now = time_inside p l u now.
Proof.
  intros [q A] [q' B]. rewrite !inside_diff, A, B.
  replace (tbelow now p u + q * 2 ^ 64 - (tbelow now p l + q' * 2 ^ 64)) with (tbelow now p u - tbelow now p l + (q - q') * 2 ^ 64) by lia.
  apply Z.mod_add. discriminate.
Qed.

(** ** Calls that do not swap *)
Record times0 (k : pool_key) (s s' : store) : Prop := {
  t0_pool : forall p, st_pools s !! k = Some p -> exists p', st_pools s' !! k = Some p' /\ p_start p' = p_start p /\ p_tick p' = p_tick p;
  t0_tick : forall j t t', st_ticks s !! (k, j) = Some t -> st_ticks s' !! (k, j) = Some t' -> t_secs t' = t_secs t
}.
Lemma times0_refl k s s' : st_pools s' = st_pools s -> st_ticks s' = st_ticks s -> times0 k s s'.
Proof. intros P T. constructor; [intros p; rewrite P; eauto|]. rewrite T. intros. by simplify_eq. Qed.
Lemma times0_save k s k' p p' : st_pools s !! k' = Some p -> p_start p' = p_start p -> p_tick p' = p_tick p -> times0 k s (save_pool s k' p').
Proof.
  intros E C D. constructor; [|intros; cbn in *; by simplify_eq]. cbn. intros q Q. destruct (decide (k' = k)) as [->|N].
  - rewrite lookup_insert. exists p'. split; [done|]. assert (q = p) as -> by congruence. done.
  - rewrite lookup_insert_ne by done. eauto.
Qed.
Notation tickmap := (gmap (pool_key * Z) tick).
Definition secs_kept (T T' : tickmap) : Prop := forall x t t', T !! x = Some t -> T' !! x = Some t' -> t_secs t' = t_secs t.
Lemma secs_self T : secs_kept T T.
Proof. intros x a b A B. by simplify_eq. Qed.
Lemma secs_insert T T' x t t' : secs_kept T T' -> T !! x = Some t \/ T !! x = None -> t_secs t' = t_secs t -> secs_kept T (<[x := t']> T').
Proof.
  intros F E S y a b A B. destruct (decide (y = x)) as [->|N].
  - rewrite lookup_insert in B. injection B as <-. destruct E as [E|E]; [|congruence]. rewrite A in E. injection E as ->. exact S.
  - rewrite lookup_insert_ne in B by done. by eapply F.
Qed.
Lemma secs_delete T T' x : secs_kept T T' -> secs_kept T (delete x T').
Proof. intros F y a b A B. apply lookup_delete_Some in B. destruct B as [_ B]. by eapply F. Qed.
Lemma effect0_times e i s s' ms k : ereach s -> effect0 e i s s' ms -> times0 k s s'.
Proof.
  intros R H. destruct H as [c|k' p Ep|k' p r _ Ep|k' p b t0 t1 price tick En|k' lower upper liq sl su s' ms at' Hq _ _ H|ix s' ms at' H|ix s' ms at' H
    |o ix po s1 r s' ms Ep ER EA _|o ix po l Ep|m].
  - by apply times0_refl.
  - by eapply times0_save.
  - by eapply times0_save.
  - constructor; [|intros; cbn in *; by simplify_eq]. cbn. intros q Q. rewrite lookup_insert_ne by congruence. eauto.
  - destruct (create_inv _ _ _ _ _ _ _ _ _ _ _ _ R Hq H) as (p & lt & ut & po & p' & lt' & ut' & x & y & bm1 & bm2 & m0 & m1 & F).
    destruct F. rewrite cx_store. constructor; cbn.
    + intros q Q. destruct (decide (k' = k)) as [->|N]; [|rewrite lookup_insert_ne by done; eauto].
      rewrite lookup_insert. exists p'. split; [done|]. destruct cx_mod. rewrite mf_pool. assert (q = p) as -> by congruence. done.
    + destruct cx_mod. intros j t t'. apply (secs_insert (st_ticks s) _ _ ut ut'); [apply (secs_insert (st_ticks s) _ _ lt lt')|..]; [apply secs_self| | | |]; try tauto; [unfold stored_or_new in cx_low|unfold stored_or_new in cx_up]; tauto.
  - destruct (claim_inv _ _ _ _ _ _ _ R H) as (po & p & lt & ut & po1 & p' & lt' & ut' & zx & zy & ox & oy & F).
    destruct F. rewrite cl_store. destruct cl_mod. constructor; cbn.
    + intros q Q. destruct (decide (po_key po = k)) as [<-|N]; [|rewrite lookup_insert_ne by done; eauto].
      rewrite lookup_insert. exists p'. split; [done|]. rewrite mf_pool. assert (q = p) as -> by congruence. done.
    + intros j t t'. apply (secs_insert (st_ticks s) _ _ lt lt'); [apply (secs_insert (st_ticks s) _ _ ut ut')|..]; try tauto. apply secs_self.
  - destruct (remove_inv _ _ _ _ _ _ _ R H) as (po & p & lt & ut & po1 & p' & lt' & ut' & x & y & ox & oy & bm1 & bm2 & m' & F).
    destruct F. rewrite rx_store. destruct rx_mod. constructor; cbn.
    + intros q Q. destruct (decide (po_key po = k)) as [<-|N]; [|rewrite lookup_insert_ne by done; eauto].
      rewrite lookup_insert. exists p'. split; [done|]. rewrite mf_pool. assert (q = p) as -> by congruence. done.
    + assert (K : secs_kept (st_ticks s) (clear_tick (t_gross lt' =? 0) (po_key po) (po_lower po) lt' (st_ticks s))).
      { unfold clear_tick. destruct (_ =? _); [apply secs_delete, secs_self|]. apply secs_insert with lt; [apply secs_self|tauto..]. }
      intros j t t'. revert j t t'. unfold clear_tick at 1. destruct (t_gross ut' =? 0); intros j t t'.
      * by apply (secs_delete (st_ticks s)).
      * apply (secs_insert (st_ticks s) _ _ ut ut'); [done|tauto..].
  - unfold remove_position in ER. rinv ER; simplify_eq; unfold add_position in EA; rinv EA; simplify_eq; by apply times0_refl.
  - by apply times0_refl.
  - by apply times0_refl.
Qed.

(** ** Swaps *)
Lemma cross_secs t p now t' p' : tick_cross t p now = Ok (t', p') -> t_secs t' = (now - p_start p - t_secs t) mod 2 ^ 64.
Proof.
  unfold tick_cross. intros H. inv_bind H as pa EP. apply ck_ok in EP. destruct EP as [-> EP]. inv_bind H as l EL. apply Ok_inj in H. injection H as <- <-. reflexivity.
Qed.
Definition timed (s : store) (k : pool_key) (now st : Z) (t' : tick) : Prop :=
  exists tk, st_ticks s !! (k, t_index t') = Some tk /\ t_secs t' = (now - st - t_secs tk) mod 2 ^ 64.
Lemma run_timed s now k (d : bool) by_in lim w w' st : store_geo s k -> loop_inv k d lim w -> run s now k d by_in lim w w' ->
  p_start (sw_pool w) = st -> Forall (timed s k now st) (sw_ticks w) -> p_start (sw_pool w') = st /\ Forall (timed s k now st) (sw_ticks w').
Proof.
  intros G I R. induction R as [w Z0|w w1 w2 N E _ IH]; intros S F; [done|].
  pose proof (loop_step _ _ _ _ _ _ _ _ G I N E) as [_ I1]. apply IH; [exact I1| |]; clear IH.
  - apply swap_iter_frame in E. destruct E as [[E _] _]. congruence.
  - pose proof (loop_pre _ _ _ _ _ G I N) as PRE. apply iter_cases in E; [|done].
    destruct E as (t & init & sl & r & p0 & rm0 & TG & _ & _ & _ & _ & _ & _ & AF & _ & IC & _).
    pose proof (add_fee_keeps _ _ _ _ _ AF) as (_ & _ & _ & K4 & _).
    destruct IC as [tk t' p1 _ _ _ TK CX _ ->|en _ _ _ _ ->|tk p2 _ _ _ _ TK P2 ->|c' _ _ ->]; cbn; try done.
    apply Forall_app. split; [done|]. constructor; [|constructor]. pose proof (cross_secs _ _ _ _ _ CX) as CS. cbn in CS.
    apply tick_cross_inv in CX. destruct CX as (_ & (SI & _) & _). pose proof (sg_index _ _ G _ _ _ TK) as IT.
    exists tk. rewrite SI, IT. split; [exact TK|]. rewrite CS, K4, S. reflexivity.
Qed.

(** ticks keep existing, and the time below each is unchanged *)
Record times1 (now : Z) (k : pool_key) (s s' : store) : Prop := {
  t1_pool : forall p, st_pools s !! k = Some p -> exists p', st_pools s' !! k = Some p' /\ p_start p' = p_start p /\
    forall j t, st_ticks s !! (k, j) = Some t -> exists t', st_ticks s' !! (k, j) = Some t' /\ teq (tbelow now p' t') (tbelow now p t)
}.
Lemma times1_refl now k s : times1 now k s s.
Proof. constructor. intros p E. exists p. split; [done|]. split; [done|]. intros j t T. exists t. split; [done|apply teq_refl]. Qed.
Lemma times1_trans now k s s1 s2 : times1 now k s s1 -> times1 now k s1 s2 -> times1 now k s s2.
Proof.
  intros [A] [B]. constructor. intros p E. destruct (A p E) as (p1 & E1 & S1 & T1). destruct (B p1 E1) as (p2 & E2 & S2 & T2).
  exists p2. split; [done|]. split; [congruence|]. intros j t T. destruct (T1 j t T) as (t1 & X1 & Y1). destruct (T2 j t1 X1) as (t2 & X2 & Y2).
  exists t2. split; [done|]. by eapply teq_trans.
Qed.
Lemma fold_ticks (l : list tick) (k : pool_key) : forall (T : tickmap) x, foldl (fun m t => <[(k, t_index t) := t]> m) T l !! x = 
  match last (filter (fun t => (k, t_index t) = x) l) with Some t => Some t | None => T !! x end.
Proof.
  induction l as [|t l IH] using rev_ind; intros T x; [done|]. rewrite foldl_app, filter_app, filter_cons, filter_nil. cbn [foldl].
  destruct (decide ((k, t_index t) = x)) as [<-|N].
  - rewrite lookup_insert, last_snoc. done.
  - rewrite lookup_insert_ne by done. rewrite app_nil_r. apply IH.
Qed.
Lemma swap_times e i s k0 d a by_in lim s' ms r k : ereach s -> 0 <= a <= U128MAX -> clean_swap e s k0 d a by_in lim ->
  swap_internal e i s k0 d a by_in lim = Ok (s', ms, r) -> times1 (e_millis e) k s s'.
Proof.
  intros R Ha CL H. apply swap_internal_inv in H. destruct H as (CS & (s1 & U & ->) & _). apply update_ticks_inv in U. subst s1. constructor. cbn. intros p E.
  destruct (decide (k0 = k)) as [->|N].
  2:{ rewrite lookup_insert_ne by done. exists p. split; [done|]. split; [done|]. intros j t T. exists t. rewrite fold_ticks.
      destruct (last _) as [t'|] eqn:L; [|split; [done|apply teq_refl]]. exfalso. apply last_Some_elem_of in L. apply elem_of_list_filter in L. destruct L as [L _]. congruence. }
  rewrite lookup_insert. exists (cr_pool r). split; [done|].
  specialize (CL r p CS E). pose proof CS as CS'. apply calculate_swap_run in CS'. destruct CS' as (q & w & Eq & _ & D & RN & _ & ->). assert (q = p) as -> by congruence. clear Eq. cbn [cr_pool cr_ticks] in *.
  pose proof (ereach_store_geo _ _ _ R E) as G. pose proof (ereach_geo _ R _ _ E) as PG. destruct (sg_sp _ _ G) as [S1 _].
  pose proof (loop_start k d lim p a PG Ha D) as I.
  destruct (run_timed _ _ _ _ _ _ _ _ _ G I RN eq_refl (Forall_nil_2 _)) as [ST F]. cbn [sw_pool] in ST, F. split; [done|].
  intros j t T. rewrite fold_ticks. pose proof (sg_index _ _ G _ _ _ T) as IT.
  assert (J : is_init s k (spacing k) j).
  { apply (lq_init _ (ereach_liq _ R) k j (mk_is_Some _ _ E)). eauto. }
  specialize (CL j J).
  destruct (last _) as [t'|] eqn:L.
  - apply last_Some_elem_of in L. apply elem_of_list_filter in L. destruct L as [L1 L2]. injection L1 as IX.
    exists t'. split; [done|]. rewrite Forall_forall in F. specialize (F t' L2). destruct F as (tk & TK & SQ). rewrite IX in TK. assert (tk = t) as -> by congruence.
    assert (P : passed d (p_tick p) (p_tick (sw_pool w)) j) by (apply CL; rewrite <- IX; apply elem_of_list_fmap; eauto).
    unfold tbelow. rewrite IX, IT, ST, SQ.
    pose proof (Z.div_mod (e_millis e - p_start p - t_secs t) (2 ^ 64) ltac:(discriminate)) as DM.
    set (m := (e_millis e - p_start p - t_secs t) mod 2 ^ 64) in *. set (qq := (e_millis e - p_start p - t_secs t) / 2 ^ 64) in *. clearbody m qq.
    unfold teq, passed in *. destruct (Z.leb_spec j (p_tick (sw_pool w))), (Z.leb_spec j (p_tick p)), d; try lia.
    + exists (-qq). lia.
    + exists qq. lia.
  - exists t. split; [done|]. apply last_None in L.
    assert (NP : ~ passed d (p_tick p) (p_tick (sw_pool w)) j).
    { intros P. apply CL in P. apply elem_of_list_fmap in P. destruct P as (t' & -> & P).
      assert (X : t' ∈ filter (fun x => (k, t_index x) = (k, t_index t')) (sw_ticks w)) by (apply elem_of_list_filter; done). rewrite L in X. by apply elem_of_nil in X. }
    unfold tbelow. rewrite IT, ST.
    (* direction *)
    pose proof (run_geo _ _ _ _ _ _ _ _ G I RN) as (I2 & Z2 & DIR). cbn in DIR.
    assert (MO : if d then p_tick (sw_pool w) <= p_tick p else p_tick p <= p_tick (sw_pool w)).
    { pose proof (lv_rest _ _ _ _ I2 (or_intror Z2)) as R2. destruct PG as [R1 _]. destruct d; (eapply rest_mono; [exact S1| | |exact DIR]; assumption). }
    unfold passed in NP. destruct (Z.leb_spec j (p_tick (sw_pool w))), (Z.leb_spec j (p_tick p)), d; try (apply teq_refl); lia.
Qed.
Lemma hops_times e i k hops : forall s a s' ms out, creach s -> 0 <= a <= U128MAX -> clean_hops e i s a hops ->
  swap_route_internal e i s a hops = Ok (s', ms, out) -> times1 (e_millis e) k s s'.
Proof.
  induction hops as [|h hops IH]; intros s a s' ms out R Ha C H; cbn in H.
  - simplify_eq. apply times1_refl.
  - inv_bind H as [[s1 m1] r] E. inv_bind H as [[s2 m2] o] E2. apply Ok_inj in H. simplify_eq. destruct C as [C1 C2].
    eapply times1_trans; [eapply swap_times; [by apply creach_ereach|exact Ha|exact C1|exact E]|].
    eapply IH; [| |by eapply C2|exact E2].
    + eapply cr_step; [exact R|]. eapply ce_swap; [exact Ha| |exact E|exact C1].
      destruct (hop_x_to_y h); cbn; unfold MIN_SQRT_PRICE, MAX_SQRT_PRICE, U128MAX; lia.
    + apply swap_internal_inv in E as (E & _). apply calculate_swap_out in E. tauto.
Qed.

(** ** Every call leaves the time inside every range unchanged *)
Lemma call_times e i s m s' ms at' k p : clean_history s -> clean_call e i s m -> execute e i s m = Ok (s', ms, at') -> st_pools s !! k = Some p ->
  exists p', st_pools s' !! k = Some p' /\
    forall j t t', st_ticks s !! (k, j) = Some t -> st_ticks s' !! (k, j) = Some t' -> teq (tbelow (e_millis e) p' t') (tbelow (e_millis e) p t).
Proof.
  intros C CC H E. pose proof (clean_history_creach _ C) as R.
  assert (RX : ereach s') by (apply reachable_ereach, clean_history_reachable; eapply ch_call; eassumption).
  assert (ONE : times1 (e_millis e) k s s' -> exists p', st_pools s' !! k = Some p' /\
    forall j t t', st_ticks s !! (k, j) = Some t -> st_ticks s' !! (k, j) = Some t' -> teq (tbelow (e_millis e) p' t') (tbelow (e_millis e) p t)).
  { intros [T]. destruct (T p E) as (p' & E' & _ & X). exists p'. split; [done|]. intros j t t' A B. destruct (X j t A) as (t2 & A2 & Q). assert (t2 = t') as -> by congruence. done. }
  apply execute_split in H. destruct H as [H|[(k' & d & a & by_in & lim & r & -> & Ha & Hl & H)|(a & x & sl & hops & out & -> & Ha & H)]].
  - destruct (effect0_times _ _ _ _ _ k (creach_ereach _ R) H) as [A B]. destruct (A p E) as (p' & E' & ST & TI). exists p'. split; [done|].
    intros j t t' X Y. pose proof (B j t t' X Y) as S. pose proof (ereach_indexed _ (creach_ereach _ R) _ _ _ X) as I1. pose proof (ereach_indexed _ RX _ _ _ Y) as I2.
    unfold tbelow. rewrite I1, I2, ST, TI, S. apply teq_refl.
  - apply ONE. eapply swap_times; [by apply creach_ereach|exact Ha|exact CC|exact H].
  - apply ONE. eapply hops_times; [exact R|exact Ha|exact CC|exact H].
Qed.

(** time passes and calls are made, both ticks staying initialized; [T] adds up the time during which the current tick was in the range *)
Inductive elapsed (k : pool_key) (lo hi : Z) (s0 : store) (t0 : Z) : store -> Z -> Z -> Prop :=
| el_start : elapsed k lo hi s0 t0 s0 t0 0
| el_wait s t T p t' : elapsed k lo hi s0 t0 s t T -> t <= t' -> st_pools s !! k = Some p ->
    elapsed k lo hi s0 t0 s t' (T + (if (lo <=? p_tick p) && (p_tick p <? hi) then t' - t else 0))
| el_call s t T e i m s' ms at' : elapsed k lo hi s0 t0 s t T -> e_millis e = t -> clean_call e i s m -> execute e i s m = Ok (s', ms, at') ->
    is_Some (st_ticks s' !! (k, lo)) -> is_Some (st_ticks s' !! (k, hi)) -> elapsed k lo hi s0 t0 s' t T.

Theorem C56_time_inside_partial k lo hi s0 t0 p0 l0 u0 s t T :
  clean_history s0 -> st_pools s0 !! k = Some p0 -> st_ticks s0 !! (k, lo) = Some l0 -> st_ticks s0 !! (k, hi) = Some u0 -> lo < hi ->
  elapsed k lo hi s0 t0 s t T ->
  exists p l u, st_pools s !! k = Some p /\ st_ticks s !! (k, lo) = Some l /\ st_ticks s !! (k, hi) = Some u /\
    time_inside p l u t = (time_inside p0 l0 u0 t0 + T) mod 2 ^ 64.
Proof.
  intros C E0 L0 U0 O H.
  enough (X : clean_history s /\ exists p l u, st_pools s !! k = Some p /\ st_ticks s !! (k, lo) = Some l /\ st_ticks s !! (k, hi) = Some u /\
    time_inside p l u t = (time_inside p0 l0 u0 t0 + T) mod 2 ^ 64) by tauto.
  induction H as [|s t T p t' H IH LE E|s t T e i m s' ms at' H IH TM CC X HL HU].
  - split; [done|]. exists p0, l0, u0. do 3 (split; [done|]). rewrite Z.add_0_r. unfold time_inside. by rewrite Zmod_mod.
  - destruct IH as (CH & q & l & u & Eq & Lq & Uq & IH). assert (q = p) as -> by congruence. split; [done|]. exists p, l, u. do 3 (split; [done|]).
    rewrite Z.add_assoc, <- Zplus_mod_idemp_l, <- IH, !inside_diff, Zplus_mod_idemp_l. f_equal. unfold tbelow.
    pose proof (ereach_indexed _ (reachable_ereach _ (clean_history_reachable _ CH))) as IX. rewrite (IX _ _ _ Lq), (IX _ _ _ Uq).
    destruct (Z.leb_spec lo (p_tick p)), (Z.ltb_spec (p_tick p) hi), (Z.leb_spec hi (p_tick p)); cbn; lia.
  - destruct IH as (CH & p & l & u & Eq & Lq & Uq & IH). split; [by eapply ch_call|].
    destruct HL as [l' HL], HU as [u' HU]. destruct (call_times _ _ _ _ _ _ _ k p CH CC X Eq) as (p' & E' & K). exists p', l', u'. do 3 (split; [done|]).
    rewrite <- IH. rewrite TM in K. apply inside_teq; eapply K; eassumption.
Qed.

(** a range whose two ticks are new starts at zero *)
Theorem C56_starts_at_zero e i s k lo hi liq sl su s' ms at' :
  reachable s -> execute e i s (CreatePosition k lo hi liq sl su) = Ok (s', ms, at') ->
  st_ticks s !! (k, lo) = None -> st_ticks s !! (k, hi) = None ->
  exists p l u, st_pools s' !! k = Some p /\ st_ticks s' !! (k, lo) = Some l /\ st_ticks s' !! (k, hi) = Some u /\ time_inside p l u (e_millis e) = 0.
Proof.
  intros R H N1 N2. unfold execute in H. destruct (_ && _) eqn:TY; [|done]. apply andb_prop in TY. destruct TY as [_ TY]. cbn [dispatch] in H. cbn [msg_typed] in TY.
  assert (Hq : 0 <= liq <= U128MAX).
  { rewrite !andb_true_iff in TY. unfold u128_ok in TY. rewrite !in_range_spec in TY. tauto. }
  destruct (create_inv _ _ _ _ _ _ _ _ _ _ _ _ (reachable_ereach _ R) Hq H) as (p & lt & ut & po & p' & lt' & ut' & x & y & bm1 & bm2 & m0 & m1 & F). destruct F.
  exists p', lt', ut'. rewrite cx_store. cbn. rewrite lookup_insert. split; [done|]. rewrite lookup_insert_ne by (intros Q; injection Q; lia). rewrite !lookup_insert.
  do 2 (split; [done|]). rewrite inside_diff. destruct cx_mod. destruct cx_low as [?|(_ & _ & CL)]; [congruence|]. destruct cx_up as [?|(_ & _ & CU)]; [congruence|].
  assert (B : forall i t, tick_create i p (e_millis e) = Ok t -> tbelow (e_millis e) p t = e_millis e - p_start p).
  { intros j t. unfold tick_create. intros Q. inv_bind Q as P EP. inv_bind Q as sc ES. apply Ok_inj in Q. subst t. unfold tbelow. cbn. destruct (j <=? p_tick p); [apply ckp_ok in ES; lia|]. apply Ok_inj in ES. lia. }
  apply B in CL, CU. rewrite mf_pool. destruct mf_low as (A1 & _ & _ & _ & A2), mf_up as (B1 & _ & _ & _ & B2).
  unfold tbelow in *. cbn. rewrite A1, A2, B1, B2, CL, CU, Z.sub_diag. reflexivity.
Qed.

(** *** An example: eight seconds inside, a swap to above the range, three seconds outside *)
Definition env_ms (t : Z) : env := mkEnv 1 (t * 1000000) "self" 1000 (fun _ => true) (fun _ => true).
Definition read_inside (s : store) (k : pool_key) (lo hi t : Z) : option Z :=
  match st_pools s !! k, st_ticks s !! (k, lo), st_ticks s !! (k, hi) with
  | Some p, Some l, Some u => Some (time_inside p l u t) | _, _, _ => None end.
Definition tick_at (s : store) (k : pool_key) : option Z := match st_pools s !! k with Some p => Some (p_tick p) | None => None end.
Lemma tick_at_pool s k c : tick_at s k = Some c -> exists p, st_pools s !! k = Some p /\ p_tick p = c.
Proof. unfold tick_at. destruct (st_pools s !! k) as [p|]; [|discriminate]. intros H. injection H as <-. eauto. Qed.
Lemma read_some s k lo hi t v : read_inside s k lo hi t = Some v -> is_Some (st_ticks s !! (k, lo)) /\ is_Some (st_ticks s !! (k, hi)).
Proof. unfold read_inside. destruct (st_pools s !! k), (st_ticks s !! (k, lo)), (st_ticks s !! (k, hi)); try discriminate. eauto. Qed.
Example ex_C56 : exists s, clean_history sc0 /\ read_inside sc0 v_key (-10) 10 1000 = Some 0 /\
  elapsed v_key (-10) 10 sc0 1000 s 12000 8000 /\ read_inside s v_key (-10) 10 12000 = Some 8000.
Proof.
  assert (H : match execute (env_ms 9000) (v_info "bob") sc0 (Swap v_key false 20000 true MAX_SQRT_PRICE) with
    | Ok (s, _, _) => clean_callb (env_ms 9000) sc0 (Swap v_key false 20000 true MAX_SQRT_PRICE) = true /\
        tick_at sc0 v_key = Some (-10) /\ read_inside sc0 v_key (-10) 10 1000 = Some 0 /\
        tick_at s v_key = Some 20 /\ read_inside s v_key (-10) 10 12000 = Some 8000
    | _ => False end) by (vm_compute; repeat split).
  destruct (execute _ _ _ _) as [[[s ms] at']|?|] eqn:X; [|destruct H|destruct H]. destruct H as (CB & T0 & I0 & T1 & I1).
  apply tick_at_pool in T0, T1. destruct T0 as (p0 & E0 & T0), T1 as (p1 & E1 & T1). destruct (read_some _ _ _ _ _ _ I1) as [A B].
  exists s. split; [exact sc0_clean|]. split; [exact I0|]. split; [|exact I1].
  pose proof (el_wait _ _ _ _ _ _ _ _ p0 9000 (el_start v_key (-10) 10 sc0 1000) ltac:(lia) E0) as W. rewrite T0 in W. cbn in W.
  assert (W2 : elapsed v_key (-10) 10 sc0 1000 s 9000 8000).
  { refine (el_call _ _ _ _ _ _ _ _ (env_ms 9000) _ _ _ _ _ W eq_refl _ X A B). exact (clean_callb_sound (env_ms 9000) (v_info "bob") sc0 _ (reachable_ereach _ sc0_reachable) CB). }
  pose proof (el_wait _ _ _ _ _ _ _ _ p1 12000 W2 ltac:(lia) E1) as W3. rewrite T1 in W3. exact W3.
Qed.

(** ** False in general: after a swap that stops at a tick without crossing it, the range above the tick is credited with all the time
    before the swap, although the price was never inside *)
Theorem C56_time_inside_refuted : exists e i s m s' ms at' k lo hi, reachable s /\ execute e i s m = Ok (s', ms, at') /\
  read_inside s k lo hi (e_millis e) = Some 0 /\ read_inside s' k lo hi (e_millis e) = Some 8000.
Proof.
  assert (H : match start 10000000000 (firstn 4 lim_calls) with
    | Ok s => match execute (env_ms 9000) (v_info "carol") s (Swap v_key false 499 false 1000500100010000000000000) with
        | Ok (s', _, _) => read_inside s v_key 10 20 9000 = Some 0 /\ read_inside s' v_key 10 20 9000 = Some 8000
        | _ => False end
    | _ => False end) by (vm_compute; repeat split).
  destruct (start _ _) as [s|?|] eqn:S; [|destruct H|destruct H].
  destruct (execute _ _ _ _) as [[[s' ms] at']|?|] eqn:X; [|destruct H|destruct H]. destruct H as [A B].
  exists (env_ms 9000), (v_info "carol"), s, (Swap v_key false 499 false 1000500100010000000000000), s', ms, at', v_key, 10, 20.
  exact (conj (start_reachable _ _ _ S) (conj X (conj A B))).
Qed.
