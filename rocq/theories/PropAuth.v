(** Who may do what: C28-C35, C37. *)
From Verif Require Import Base Decimal SqrtPrice Clamm Log FeeGrowth Types Tick Pool Position
  Tickmap Keys State Swap Exec Query Tactics Frame Handlers History Basic PosList Ledger Vectors Scenario.
From stdpp Require Import gmap strings.
From Coq Require Import Lia.
Open Scope Z_scope.

(** * C28: only the admin changes the configuration *)
Theorem C28_only_admin_changes_config e i s m s' ms at' :
  reachable s -> execute e i s m = Ok (s', ms, at') -> i_sender i <> query_admin s ->
  query_admin s' = query_admin s /\ query_fee_tiers s' = query_fee_tiers s /\
  query_protocol_fee s' = query_protocol_fee s /\
  (forall k p, st_pools s !! k = Some p ->
     exists p', st_pools s' !! k = Some p' /\ p_receiver p' = p_receiver p).
Proof.
  intros R H N. apply reachable_ereach in R. pose proof (ereach_indexed _ R) as IX.
  unfold query_admin, query_fee_tiers, query_protocol_fee in *.
  assert (C : st_config s' = st_config s /\ forall k p, st_pools s !! k = Some p ->
     exists p', st_pools s' !! k = Some p' /\ p_receiver p' = p_receiver p).
  { apply execute_cases in H. destruct H as [H|(a & x & sl & hops & out & _ & _ & H)].
    - split.
      + destruct (effect_config _ _ _ _ _ IX H) as [E|(E & _)]; [done|contradiction].
      + intros k p Ep. destruct (effect_pool _ _ _ _ _ _ _ IX H Ep) as (p' & Ep' & _ & RC & _).
        exists p'. split; [done|]. destruct RC; [done|contradiction].
    - apply swap_route_internal_kept in H; [|done]. split; [apply H|].
      intros k p Ep. destruct (sk_pool _ _ _ H _ _ Ep) as (p' & E & K). exists p'. split; [done|]. apply K. }
  destruct C as [-> C]. auto.
Qed.

(** what the admin's calls do *)
Theorem C28_admin_calls e i s : i_sender i = query_admin s -> env_typed e i = true ->
  (forall a, exists s', execute e i s (ChangeAdmin a) = Ok (s', [], []) /\
     s' = set_config s (mkConfig a (query_fee_tiers s) (query_protocol_fee s))) /\
  (forall f, 0 <= f <= U64MAX -> exists s', execute e i s (ChangeProtocolFee f) = Ok (s', [], []) /\
     s' = set_config s (mkConfig (query_admin s) (query_fee_tiers s) f)) /\
  (forall k p r, key_ok k = true -> st_pools s !! k = Some p ->
     exists s', execute e i s (ChangeFeeReceiver k r) = Ok (s', [], []) /\
     s' = save_pool s k (p_set_receiver p r)).
Proof.
  unfold query_admin, execute. intros A T. split; [|split].
  - intros a. rewrite T. cbn [andb msg_typed dispatch]. unfold change_admin. rewrite <- A, String.eqb_refl. cbn.
    eexists. split; [reflexivity|]. done.
  - intros f F. rewrite T. cbn [andb msg_typed dispatch]. unfold u64_ok. rewrite (proj2 (in_range_spec _ _ _)) by done.
    unfold change_protocol_fee. rewrite A, String.eqb_refl. cbn. eauto.
  - intros k p r K E. rewrite T. cbn [andb msg_typed dispatch]. rewrite K. unfold change_fee_receiver, get_pool.
    rewrite A, String.eqb_refl. cbn. rewrite E. cbn. eauto.
Qed.

(** * C29: protocol fees *)
Theorem C29_protocol_fee e i s m s' ms at' k p :
  reachable s -> execute e i s m = Ok (s', ms, at') -> st_pools s !! k = Some p ->
  exists p', st_pools s' !! k = Some p' /\
    ((p_protx p <= p_protx p' /\ p_proty p <= p_proty p') \/
     (i_sender i = p_receiver p /\ p_protx p' = 0 /\ p_proty p' = 0 /\
      s' = save_pool s k p' /\ p' = p_set_prot p 0 0 /\
      forall a tok, paid a tok ms =
        if String.eqb a (p_receiver p) then
          if String.eqb tok (pk_x k) then p_protx p
          else if String.eqb tok (pk_y k) then p_proty p else 0
        else 0)).
Proof.
  intros R H Ep. apply reachable_ereach in R. pose proof (ereach_indexed _ R) as IX.
  apply execute_cases in H. destruct H as [H|(a & x & sl & hops & out & _ & _ & H)].
  - destruct (effect_pool _ _ _ _ _ _ _ IX H Ep) as (p' & Ep' & _ & _ & PC).
    exists p'. split; [done|]. destruct PC as [PC|(S & -> & Es & ->)]; [by left|]. right.
    repeat (split; [done|]). intros a tok. rewrite paid_app, !paid_transfer, S.
    pose proof (key_valid_ne _ (ereach_pools _ R _ _ Ep)) as X.
    rewrite (String.eqb_sym a), (String.eqb_sym tok (pk_x k)), (String.eqb_sym tok (pk_y k)).
    destruct (String.eqb_spec (p_receiver p) a); cbn; [|done].
    destruct (String.eqb_spec (pk_x k) tok), (String.eqb_spec (pk_y k) tok); try lia. congruence.
  - apply swap_route_internal_kept in H; [|done].
    destruct (sk_pool _ _ _ H _ _ Ep) as (p' & E & K). exists p'. split; [done|]. left. apply K.
Qed.

Theorem C29_withdraw e i s k p : env_typed e i = true -> key_ok k = true -> st_pools s !! k = Some p ->
  (i_sender i <> p_receiver p -> execute e i s (WithdrawProtocolFee k) = Err Unauthorized) /\
  (i_sender i = p_receiver p ->
     exists ms, execute e i s (WithdrawProtocolFee k) = Ok (save_pool s k (p_set_prot p 0 0), ms, [])).
Proof.
  intros T K E. unfold execute. rewrite T. cbn [andb msg_typed dispatch]. rewrite K.
  unfold withdraw_protocol_fee, get_pool. rewrite E. cbn [bind]. split; intros H.
  - destruct (String.eqb_spec (p_receiver p) (i_sender i)); [congruence|done].
  - rewrite H, String.eqb_refl. cbn. eauto.
Qed.

Example ex_C28_C29 :
  (let* '(_, ms, _) := execute v_env (v_info "alice") sc0 (WithdrawProtocolFee v_key) in Ok ms)
    = Ok [Cw20Transfer "tokenx" "alice" 1]%string /\
  is_ok (execute v_env (v_info "bob") sc0 (WithdrawProtocolFee v_key)) = false /\
  is_ok (execute v_env (v_info "bob") sc0 (ChangeProtocolFee 0)) = false /\
  is_ok (execute v_env (v_info "alice") sc0 (ChangeProtocolFee 0)) = true.
Proof. vm_compute. repeat split. Qed.

(** * Permissions *)
Definition live (e : env) (x : expiration) : Prop :=
  match x with Never => True | AtHeight h => e_height e < h | AtTime t => e_nanos e < t end.
Definition operator_grant (e : env) (s : store) (o a : string) : Prop :=
  exists x, st_operators s !! (o, a) = Some x /\ live e x.
Definition approved (e : env) (po : position) (a : string) : Prop :=
  exists ap, In ap (po_approvals po) /\ ap_spender ap = a /\ live e (ap_expires ap).
Definition may_send (e : env) (s : store) (o : string) (po : position) (a : string) : Prop :=
  a = o \/ operator_grant e s o a \/ approved e po a.

Lemma live_expired e x : live e x <-> is_expired e x = false.
Proof. destruct x; cbn; rewrite ?Z.leb_gt; tauto. Qed.

Lemma check_can_send_ok e i s o po :
  check_can_send e i s o po = Ok tt <-> may_send e s o po (i_sender i).
Proof.
  unfold check_can_send, may_send, operator_grant, approved.
  destruct (String.eqb_spec (i_sender i) o) as [->|N]; [split; auto|].
  destruct (existsb _ (po_approvals po)) eqn:X.
  - split; [intros _|done]. right. right. apply existsb_exists in X. destruct X as (ap & I & X).
    apply andb_true_iff in X. destruct X as [X1 X2]. exists ap. split; [done|].
    split; [by apply String.eqb_eq|]. apply live_expired. by destruct (is_expired e (ap_expires ap)).
  - assert (NA : ~ exists ap, In ap (po_approvals po) /\ ap_spender ap = i_sender i /\ live e (ap_expires ap)).
    { intros (ap & I & S & L). apply live_expired in L.
      assert (existsb (fun a => String.eqb (ap_spender a) (i_sender i) && negb (is_expired e (ap_expires a))) (po_approvals po) = true); [|congruence].
      apply existsb_exists. exists ap. split; [done|]. rewrite S, String.eqb_refl, L. done. }
    destruct (st_operators s !! (o, i_sender i)) as [x|].
    + destruct (is_expired e x) eqn:Ex; split; intros H; try done.
      * destruct H as [H|[(y & Y & L)|H]]; try contradiction. apply live_expired in L. congruence.
      * right. left. exists x. split; [done|]. by apply live_expired.
    + split; [done|]. intros [H|[(y & Y & L)|H]]; try contradiction; done.
Qed.

Lemma check_can_approve_ok e i s o :
  check_can_approve e i s o = Ok tt <-> i_sender i = o \/ operator_grant e s o (i_sender i).
Proof.
  unfold check_can_approve, operator_grant.
  destruct (String.eqb_spec (i_sender i) o) as [->|N]; [split; auto|].
  destruct (st_operators s !! (o, i_sender i)) as [x|].
  - destruct (is_expired e x) eqn:Ex; split; intros H; try done.
    + destruct H as [H|(y & Y & L)]; try contradiction. apply live_expired in L. congruence.
    + right. exists x. split; [done|]. by apply live_expired.
  - split; [done|]. intros [H|(y & Y & L)]; try contradiction; done.
Qed.

(** the three ways a call changes position records *)
Definition own_only (i : msg_info) (s s' : store) : Prop :=
  forall o, o <> i_sender i -> forall ix, st_positions s' !! (o, ix) = st_positions s !! (o, ix).
Definition moved (e : env) (i : msg_info) (s s' : store) : Prop :=
  exists o ix po s1 r, may_send e s o po (i_sender i) /\ st_positions s !! (o, ix) = Some po /\
    remove_position s o ix = Ok (s1, po) /\ add_position s1 r (po_set_approvals po []) = Ok s'.
Definition reapproved (e : env) (i : msg_info) (s s' : store) : Prop :=
  exists o ix po l, (i_sender i = o \/ operator_grant e s o (i_sender i)) /\
    st_positions s !! (o, ix) = Some po /\
    s' = set_positions s (<[(o, ix) := po_set_approvals po l]> (st_positions s)) (st_poslen s).

Lemma transfer_nft_moved e i s r tid s' : transfer_nft e i s r tid = Ok s' ->
  exists o ix po s1, split_token tid = Some (o, ix) /\ may_send e s o po (i_sender i) /\
    st_positions s !! (o, ix) = Some po /\
    remove_position s o ix = Ok (s1, po) /\ add_position s1 r (po_set_approvals po []) = Ok s'.
Proof.
  unfold transfer_nft, get_position_by_key. intros H.
  destruct (split_token tid) as [[o ix]|]; [|done]. destruct (negb _); [done|].
  unfold get_position in H. destruct (st_positions s !! (o, ix)) as [po|] eqn:E; [|done]. cbn [bind] in H.
  inv_bind H as [] EC. inv_bind H as [s1 po0] ER.
  assert (po0 = po). { apply remove_position_inv in ER. destruct ER as (E' & _). congruence. } subst.
  apply check_can_send_ok in EC. eauto 10.
Qed.

Lemma create_own e i s k l u q sl su s' ms at' : ticks_indexed s ->
  create_position e i s k l u q sl su = Ok (s', ms, at') -> own_only i s s'.
Proof.
  intros IX H. apply create_position_inv in H; [|done].
  destruct H as (p0 & lt & ut & po & p' & lt' & ut' & x & y & bm1 & bm2 & m0 & m1 & HL & HN & Ep & Sl & Su & _ & _ & PC & PL & _ & _ & _ & _ & ->).
  intros o N ix. cbn. apply lookup_insert_ne. congruence.
Qed.
Lemma remove_own e i s ix s' ms at' : ticks_indexed s ->
  remove_position_exec e i s ix = Ok (s', ms, at') -> own_only i s s'.
Proof.
  intros IX H. apply remove_position_exec_inv in H; [|done].
  destruct H as (po & lt & ut & p0 & po' & p' & lt' & ut' & x & y & dl & du & bm1 & bm2 & m' & Epo & _ & _ & _ & Ep & PC & _ & _ & Iu & Il & _ & _ & SR & ->).
  intros o N j. cbn. destruct SR as [(L & last & E' & ->)|(L & ->)].
  - rewrite lookup_insert_ne, lookup_delete_ne by congruence. done.
  - rewrite lookup_delete_ne by congruence. done.
Qed.

Lemma execute_positions e i s m s' ms at' : ticks_indexed s ->
  execute e i s m = Ok (s', ms, at') -> own_only i s s' \/ moved e i s s' \/ reapproved e i s s'.
Proof.
  intros IX H. unfold execute in H. destruct (env_typed e i && msg_typed m) eqn:ET; [|done].
  apply andb_true_iff in ET. destruct ET as [_ ET].
  assert (SAME : st_positions s' = st_positions s -> own_only i s s') by (intros E o N ix; by rewrite E).
  destruct m; cbn [dispatch] in H.
  - left. apply SAME. unfold change_admin in H. rinv H. by simplify_eq.
  - left. apply SAME. unfold withdraw_protocol_fee in H. rinv H. by simplify_eq.
  - left. apply SAME. unfold change_protocol_fee in H. rinv H. by simplify_eq.
  - left. apply SAME. unfold change_fee_receiver in H. rinv H. by simplify_eq.
  - left. eapply create_own; eassumption.
  - left. apply SAME. unfold swap in H. inv_bind H as [[s1 m1] r] E. apply Ok_inj in H. simplify_eq.
    apply swap_internal_kept in E; [|done]. apply E.
  - left. apply SAME. unfold swap_route in H. inv_bind H as [[s1 m1] r] E. inv_bind H as min EM. destruct (_ <? _); [done|].
    apply Ok_inj in H. simplify_eq. apply swap_route_internal_kept in E; [|done]. apply E.
  - right. left. unfold transfer_position, get_position in H.
    destruct (st_positions s !! (i_sender i, index)) as [po|] eqn:E; [|done]. cbn [bind] in H.
    inv_bind H as [s1 po0] ER. destruct (negb _); [done|]. inv_bind H as s2 EA. apply Ok_inj in H. simplify_eq.
    assert (po0 = po). { apply remove_position_inv in ER. destruct ER as (E' & _). congruence. } subst.
    exists (i_sender i), index, po, s1, receiver. split; [by left|]. done.
  - left. apply claim_fee_inv in H; [|done].
    destruct H as (po & lt & ut & p0 & po' & p' & lt' & ut' & x & y & Epo & _ & _ & _ & Ep & PC & _ & _ & Iu & Il & ->).
    intros o N ix. cbn. apply lookup_insert_ne. congruence.
  - left. eapply remove_own; eassumption.
  - left. apply SAME. unfold create_pool in H. rinv H. by simplify_eq.
  - left. apply SAME. unfold add_fee_tier in H. rinv H. by simplify_eq.
  - left. apply SAME. unfold remove_fee_tier in H. rinv H. by simplify_eq.
  - right. left. unfold handle_transfer_nft in H. inv_bind H as s1 E. apply Ok_inj in H. simplify_eq.
    apply transfer_nft_moved in E. destruct E as (o & ix & po & s1 & _ & E). unfold moved. eauto 10.
  - left. eapply create_own; eassumption.
  - left. unfold handle_burn in H. inv_bind H as po EG. destruct (split_token token_id) as [[o ix]|]; [|done].
    inv_bind H as [] EC. eapply remove_own; eassumption.
  - right. left. unfold handle_send_nft in H. inv_bind H as s1 E. apply Ok_inj in H. simplify_eq.
    apply transfer_nft_moved in E. destruct E as (o & ix & po & s1 & _ & E). unfold moved. eauto 10.
  - right. right. unfold handle_approve in H. inv_bind H as s1 E. apply Ok_inj in H. simplify_eq.
    unfold update_approvals, get_position_by_key, get_position in E.
    destruct (split_token token_id) as [[o ix]|]; [|done].
    destruct (st_positions s !! (o, ix)) as [po|] eqn:Epo; [|done]. cbn [bind] in E.
    inv_bind E as [] EC. inv_bind E as l EL. apply Ok_inj in E. apply check_can_approve_ok in EC.
    exists o, ix, po, l. done.
  - right. right. unfold handle_revoke in H. inv_bind H as s1 E. apply Ok_inj in H. simplify_eq.
    unfold update_approvals, get_position_by_key, get_position in E.
    destruct (split_token token_id) as [[o ix]|]; [|done].
    destruct (st_positions s !! (o, ix)) as [po|] eqn:Epo; [|done]. cbn [bind] in E.
    inv_bind E as [] EC. cbn in E. apply Ok_inj in E. apply check_can_approve_ok in EC.
    eexists o, ix, po, _. done.
  - left. apply SAME. unfold handle_approve_all in H. rinv H. by simplify_eq.
  - left. apply SAME. unfold handle_revoke_all in H. rinv H. by simplify_eq.
Qed.

(** * C30: nobody touches a position without permission *)
Theorem C30_untouched e i s m s' ms at' o :
  reachable s -> execute e i s m = Ok (s', ms, at') ->
  i_sender i <> o -> ~ operator_grant e s o (i_sender i) ->
  (forall ix po, st_positions s !! (o, ix) = Some po -> ~ approved e po (i_sender i)) ->
  forall ix po, st_positions s !! (o, ix) = Some po -> st_positions s' !! (o, ix) = Some po.
Proof.
  intros R H N NG NA ix po E. apply reachable_ereach in R.
  pose proof (ereach_pos_ok _ R) as P. apply ereach_indexed in R.
  destruct (execute_positions _ _ _ _ _ _ _ R H) as [O|[M|A]].
  - rewrite O by congruence. done.
  - destruct M as (o' & ix' & po' & s1 & r & MS & E' & RM & AD).
    assert (N' : o' <> o).
    { intros ->. destruct MS as [Q|[Q|Q]]; [congruence|contradiction|]. eapply NA; eassumption. }
    assert (L1 : st_positions s1 !! (o, ix) = Some po).
    { apply remove_position_inv in RM. destruct RM as (_ & _ & m' & SR & ->). cbn.
      destruct SR as [(L & last & E2 & ->)|(L & ->)].
      - rewrite lookup_insert_ne, lookup_delete_ne by congruence. done.
      - rewrite lookup_delete_ne by congruence. done. }
    assert (P1 : pos_ok s1) by (eapply owner_list_remove; eassumption).
    apply add_position_inv in AD. destruct AD as [-> _]. cbn. rewrite lookup_insert_ne; [done|].
    intros Q. injection Q as Q1 Q2. pose proof (proj1 (ct_some _ _ P1 o _) (ex_intro _ _ L1)).
    unfold plen in *. subst. lia.
  - destruct A as (o' & ix' & po' & l & MS & E' & ->). cbn. rewrite lookup_insert_ne; [done|].
    intros [= -> ->]. destruct MS; [congruence|contradiction].
Qed.

(** a position without permission survives (possibly at another index) even if its owner has
    given away rights on other positions *)
Theorem C30_position_survives e i s m s' ms at' o ix po :
  reachable s -> execute e i s m = Ok (s', ms, at') ->
  st_positions s !! (o, ix) = Some po -> ~ may_send e s o po (i_sender i) ->
  exists ix', st_positions s' !! (o, ix') = Some po /\ (ix' = ix \/ ix = plen s o - 1).
Proof.
  intros R H E NM. apply reachable_ereach in R.
  pose proof (ereach_pos_ok _ R) as P. apply ereach_indexed in R.
  assert (N : i_sender i <> o) by (intros Q; apply NM; left; done).
  destruct (execute_positions _ _ _ _ _ _ _ R H) as [O|[M|A]].
  - exists ix. rewrite O by congruence. auto.
  - destruct M as (o' & ix' & po' & s1 & r & MS & E' & RM & AD).
    assert (P1 : pos_ok s1) by (eapply owner_list_remove; eassumption).
    assert (L1 : exists j, st_positions s1 !! (o, j) = Some po /\ (j = ix \/ ix = plen s o - 1)).
    { apply remove_position_inv in RM. destruct RM as (_ & _ & m' & SR & ->). cbn.
      destruct (decide (o' = o)) as [->|No].
      - assert (ix <> ix') by (intros ->; apply NM; congruence).
        destruct SR as [(L & last & E2 & ->)|(L & ->)].
        + destruct (decide (ix = plen s o - 1)) as [Q|Q].
          * exists ix'. rewrite lookup_insert. split; [congruence|auto].
          * exists ix. rewrite lookup_insert_ne, lookup_delete_ne by congruence. auto.
        + exists ix. rewrite lookup_delete_ne by congruence. auto.
      - exists ix. destruct SR as [(L & last & E2 & ->)|(L & ->)].
        + rewrite lookup_insert_ne, lookup_delete_ne by congruence. auto.
        + rewrite lookup_delete_ne by congruence. auto. }
    destruct L1 as (j & L1 & J). exists j. split; [|done].
    apply add_position_inv in AD. destruct AD as [-> _]. cbn. rewrite lookup_insert_ne; [done|].
    intros Q. injection Q as Q1 Q2. pose proof (proj1 (ct_some _ _ P1 o _) (ex_intro _ _ L1)).
    unfold plen in *. subst. lia.
  - destruct A as (o' & ix' & po' & l & MS & E' & ->). exists ix. cbn. rewrite lookup_insert_ne; [auto|].
    intros [= -> ->]. apply NM. unfold may_send. destruct MS; [congruence|auto].
Qed.

Example ex_C30 :
  (* eve may not move alice's position; carol (operator) and dave (approved) may *)
  map (fun a => is_ok (execute v_env (v_info a) sc0 (TransferNft "zed" (position_key_bytes "alice" 0))))
    ["eve"; "carol"; "dave"; "alice"]%string = [false; true; true; true] /\
  (* dave has no right on alice's second position *)
  is_ok (execute v_env (v_info "dave") sc0 (TransferNft "zed" (position_key_bytes "alice" 1))) = false.
Proof. vm_compute. repeat split. Qed.

(** * C31: expired permissions give no rights *)
Theorem C31_no_live_permission e i s tid o ix po :
  split_token tid = Some (o, ix) -> st_positions s !! (o, ix) = Some po ->
  ~ may_send e s o po (i_sender i) ->
  (forall r, is_ok (execute e i s (TransferNft r tid)) = false) /\
  (forall c x, is_ok (execute e i s (SendNft c tid x)) = false) /\
  is_ok (execute e i s (Burn tid)) = false.
Proof.
  intros T E NM.
  assert (C : check_can_send e i s o po <> Ok tt) by (intros Q; by apply check_can_send_ok in Q).
  assert (TN : forall r, is_ok (transfer_nft e i s r tid) = false).
  { intros r. unfold transfer_nft, get_position_by_key, get_position. rewrite T, E. destruct (negb _); [done|]. cbn [bind].
    destruct (check_can_send e i s o po) as [[]|?|]; [contradiction|done|done]. }
  unfold execute. repeat split; intros; destruct (_ && _); try done; cbn [dispatch].
  - unfold handle_transfer_nft. specialize (TN r). by destruct (transfer_nft e i s r tid).
  - unfold handle_send_nft. specialize (TN c). by destruct (transfer_nft e i s c tid).
  - unfold handle_burn, get_position_by_key, get_position. rewrite T, E. cbn [bind].
    destruct (check_can_send e i s o po) as [[]|?|]; [contradiction|done|done].
Qed.

Theorem C31_expired_grant e i s x :
  ~ live e x ->
  (forall sp tid, is_ok (execute e i s (Approve sp tid (Some x))) = false) /\
  (forall o, is_ok (execute e i s (ApproveAll o (Some x))) = false).
Proof.
  rewrite live_expired. intros L. assert (X : is_expired e x = true) by (by destruct (is_expired e x)).
  unfold execute. split; intros; destruct (_ && _); try done; cbn [dispatch].
  - unfold handle_approve, update_approvals. destruct (split_token tid) as [[o ix]|]; [|done].
    destruct (get_position_by_key s tid); [|done|done]. cbn [bind].
    destruct (check_can_approve e i s o); [|done|done]. cbn. by rewrite X.
  - unfold handle_approve_all. cbn. by rewrite X.
Qed.

Example ex_C31 :
  (* carol's grant ends at height 5, dave's approval at height 7 *)
  map (fun h => (is_ok (execute (env_at h) (v_info "carol") sc0 (TransferNft "zed" (position_key_bytes "alice" 1))),
                 is_ok (execute (env_at h) (v_info "dave") sc0 (TransferNft "zed" (position_key_bytes "alice" 0)))))
    [4; 5; 6; 7] = [(true, true); (false, true); (false, true); (false, false)].
Proof. vm_compute. reflexivity. Qed.

(** * C32: transfers *)
(** [m] moves the position of [o] at [ix] to [r] *)
Definition is_transfer (i : msg_info) (m : exec_msg) (o : string) (ix : Z) (r : string) : Prop :=
  match m with
  | TransferPosition j r' => o = i_sender i /\ ix = j /\ r = r'
  | TransferNft r' tid => split_token tid = Some (o, ix) /\ r = r'
  | SendNft c tid _ => split_token tid = Some (o, ix) /\ r = c
  | _ => False
  end.

Theorem C32_transfer e i s m s' ms at' o ix r :
  reachable s -> execute e i s m = Ok (s', ms, at') -> is_transfer i m o ix r ->
  exists po, owner_list s o !! Z.to_nat ix = Some po /\
    (o <> r -> owner_list s' o = swap_remove (Z.to_nat ix) (owner_list s o) /\
               owner_list s' r = owner_list s r ++ [po_set_approvals po []]) /\
    (o = r -> owner_list s' o = swap_remove (Z.to_nat ix) (owner_list s o) ++ [po_set_approvals po []]) /\
    (forall a, a <> o -> a <> r -> owner_list s' a = owner_list s a) /\
    st_config s' = st_config s /\ st_pools s' = st_pools s /\ st_ticks s' = st_ticks s /\
    st_bitmap s' = st_bitmap s /\ st_operators s' = st_operators s.
Proof.
  intros R H T. apply reachable_ereach in R. pose proof (ereach_pos_ok _ R) as P.
  assert (M : exists po s1, remove_position s o ix = Ok (s1, po) /\ add_position s1 r (po_set_approvals po []) = Ok s').
  { unfold execute in H. destruct (_ && _); [|done]. destruct m; try done; cbn [dispatch is_transfer] in *.
    - destruct T as (-> & -> & ->). unfold transfer_position, get_position in H.
      destruct (st_positions s !! (i_sender i, index)) as [po|] eqn:E; [|done]. cbn [bind] in H.
      inv_bind H as [s1 po0] ER. destruct (negb _); [done|]. inv_bind H as s2 EA. apply Ok_inj in H. simplify_eq.
      assert (po0 = po). { apply remove_position_inv in ER. destruct ER as (E' & _). congruence. } subst. eauto.
    - destruct T as [T ->]. unfold handle_transfer_nft in H. inv_bind H as s1 E. apply Ok_inj in H. simplify_eq.
      apply transfer_nft_moved in E. destruct E as (o' & ix' & po & s1 & T' & _ & _ & E). rewrite T in T'. simplify_eq. eauto.
    - destruct T as [T ->]. unfold handle_send_nft in H. inv_bind H as s1 E. apply Ok_inj in H. simplify_eq.
      apply transfer_nft_moved in E. destruct E as (o' & ix' & po & s1 & T' & _ & _ & E). rewrite T in T'. simplify_eq. eauto. }
  destruct M as (po & s1 & RM & AD).
  destruct (owner_list_remove _ _ _ _ _ P RM) as (P1 & L & _ & E1 & E2).
  destruct (owner_list_add _ _ _ _ P1 AD) as (A1 & A2).
  exists po. split; [done|]. split; [|split; [|split]].
  - intros N. split; [by rewrite A2|]. rewrite A1, E2; [done|congruence].
  - intros ->. by rewrite A1, E1.
  - intros a N1 N2. by rewrite A2, E2.
  - apply remove_position_inv in RM. destruct RM as (_ & _ & m' & _ & ->).
    apply add_position_inv in AD. destruct AD as (-> & _). done.
Qed.

(** the recipient's and the previous owner's contents, as multisets *)
Corollary C32_content_preserved e i s m s' ms at' o ix r :
  reachable s -> execute e i s m = Ok (s', ms, at') -> is_transfer i m o ix r ->
  exists po, owner_list s o !! Z.to_nat ix = Some po /\
    (o <> r -> Permutation (owner_list s o) (po :: owner_list s' o) /\
               Permutation (po_set_approvals po [] :: owner_list s r) (owner_list s' r)) /\
    (o = r -> exists l, Permutation (owner_list s o) (po :: l) /\
                        Permutation (owner_list s' o) (po_set_approvals po [] :: l)).
Proof.
  intros R H T. destruct (C32_transfer _ _ _ _ _ _ _ _ _ _ R H T) as (po & L & T1 & T2 & _).
  exists po. split; [done|]. split.
  - intros N. destruct (T1 N) as [-> ->]. split; [by apply swap_remove_perm|].
    by rewrite Permutation_app_comm.
  - intros E. exists (swap_remove (Z.to_nat ix) (owner_list s o)). split; [by apply swap_remove_perm|].
    rewrite (T2 E). by rewrite Permutation_app_comm.
Qed.

Example ex_C32 :
  match execute v_env (v_info "dave") sc0 (TransferNft "bob" (position_key_bytes "alice" 0)) with
  | Ok (s', _, _) =>
      map (fun a => map (fun p => (po_liq p, po_lower p, length (po_approvals p))) (owner_list s' a)) ["alice"; "bob"]%string
      = [[(5000000000000, -20, 0%nat)]; [(700000000000, 10, 0%nat); (20006000000000, -10, 0%nat)]]
  | _ => False
  end.
Proof. vm_compute. reflexivity. Qed.

(** * C33: burning *)
(** "whoever sends the call, the token named is removed" is false: an approved spender's burn
    removes the spender's own position at that index and leaves the named token alone *)
Theorem C33_burn_refuted : exists e i s tid s' ms at' o ix po,
  reachable s /\ split_token tid = Some (o, ix) /\ st_positions s !! (o, ix) = Some po /\
  execute e i s (Burn tid) = Ok (s', ms, at') /\
  st_positions s' !! (o, ix) = Some po /\ i_sender i <> o /\
  plen s (i_sender i) = 1 /\ plen s' (i_sender i) = 0.
Proof.
  destruct (execute v_env (v_info "alice") sc0 (Approve "bob" (position_key_bytes "alice" 0) None)) as [[[s1 m1] a1]|?|] eqn:E1.
  2,3: exfalso; assert (is_ok (execute v_env (v_info "alice") sc0 (Approve "bob" (position_key_bytes "alice" 0) None)) = true) as X by (vm_compute; reflexivity); rewrite E1 in X; discriminate.
  assert (R : reachable s1) by (eapply reach_call; [apply sc0_reachable|exact E1]).
  assert (X : match execute v_env (v_info "alice") sc0 (Approve "bob" (position_key_bytes "alice" 0) None) with
              | Ok (s1, _, _) =>
                  match execute v_env (v_info "bob") s1 (Burn (position_key_bytes "alice" 0)) with
                  | Ok (s2, _, _) =>
                      option_map po_liq (st_positions s1 !! ("alice"%string, 0)) = Some 20006000000000 /\
                      option_map po_liq (st_positions s2 !! ("alice"%string, 0)) = Some 20006000000000 /\
                      plen s1 "bob" = 1 /\ plen s2 "bob" = 0
                  | _ => False end
              | _ => False end) by (vm_compute; repeat split).
  rewrite E1 in X.
  destruct (execute v_env (v_info "bob") s1 (Burn (position_key_bytes "alice" 0))) as [[[s2 m2] a2]|?|] eqn:E2; [|contradiction|contradiction].
  destruct X as (X1 & X2 & X3 & X4).
  destruct (st_positions s1 !! ("alice"%string, 0)) as [po|] eqn:P1; [|discriminate X1].
  exists v_env, (v_info "bob"), s1, (position_key_bytes "alice" 0), s2, m2, a2, "alice"%string, 0, po.
  split; [exact R|]. split; [vm_compute; reflexivity|]. split; [exact P1|]. split; [exact E2|].
  split; [|split; [vm_compute; discriminate|split; [exact X3|exact X4]]].
  assert (TS : split_token (position_key_bytes "alice" 0) = Some ("alice"%string, 0)) by (vm_compute; reflexivity).
  pose proof (ereach_indexed _ (reachable_ereach _ R)) as IX.
  clear X1 X2 X3 X4 E1 R. unfold execute in E2. destruct (_ && _); [|discriminate]. cbn [dispatch] in E2. unfold handle_burn in E2.
  inv_bind E2 as po' EG. rewrite TS in E2. inv_bind E2 as [] EC.
  rewrite (remove_own _ _ _ _ _ _ _ IX E2) by (vm_compute; discriminate). exact P1.
Qed.

(** what burning does: the sender's own position at the token's index is removed (and paid out),
    whoever owns the token; for the owner this is the named token.  Missing from the full
    property: the case of an operator or approved spender. *)
Theorem C33_burn_partial e i s tid s' ms at' o ix :
  reachable s -> split_token tid = Some (o, ix) ->
  execute e i s (Burn tid) = Ok (s', ms, at') ->
  exists po, owner_list s (i_sender i) !! Z.to_nat ix = Some po /\
    owner_list s' (i_sender i) = swap_remove (Z.to_nat ix) (owner_list s (i_sender i)) /\
    (forall a, a <> i_sender i -> owner_list s' a = owner_list s a) /\
    (i_sender i = o -> st_positions s !! (o, ix) = Some po).
Proof.
  intros R T H. apply reachable_ereach in R. pose proof (ereach_pos_ok _ R) as P.
  pose proof (ereach_indexed _ R) as IX.
  unfold execute in H. destruct (_ && _); [|done]. cbn [dispatch] in H. unfold handle_burn in H.
  inv_bind H as po' EG. rewrite T in H. inv_bind H as [] EC.
  apply remove_position_exec_inv in H; [|done].
  destruct H as (po & lt & ut & p0 & po'' & p' & lt' & ut' & x & y & dl & du & bm1 & bm2 & m' & Epo & _ & _ & _ & Ep & PC & _ & _ & Iu & Il & _ & _ & SR & ->).
  edestruct (owner_list_removed s) as (_ & L1 & L2); [exact P|eauto|exact SR| | |].
  3: { exists po. split; [|split; [exact L1|split; [exact L2|]]].
       - rewrite owner_list_lookup by done. rewrite Z2Nat.id; [done|].
         assert (0 <= ix < plen s (i_sender i)) by (apply P; eauto). lia.
       - intros <-. done. }
  all: reflexivity.
Qed.
Example ex_C33 :
  match execute v_env (v_info "alice") sc0 (Burn (position_key_bytes "alice" 0)) with
  | Ok (s', _, _) => map po_liq (owner_list s' "alice") = [5000000000000]
  | _ => False
  end.
Proof. vm_compute. reflexivity. Qed.

(** * C34: position lists *)
Theorem C34_contiguous s a : reachable s ->
  0 <= plen s a <= U32MAX /\
  (forall j, is_Some (st_positions s !! (a, j)) <-> 0 <= j < plen s a).
Proof.
  intros R. apply reachable_ereach, ereach_pos_ok in R. split; [apply R|]. intros j. apply R.
Qed.

(** removal moves at most the last position *)
Theorem C34_removal e i s ix s' ms at' :
  reachable s -> execute e i s (RemovePosition ix) = Ok (s', ms, at') ->
  0 <= ix < plen s (i_sender i) /\
  plen s' (i_sender i) = plen s (i_sender i) - 1 /\
  (forall j, 0 <= j < plen s (i_sender i) - 1 -> st_positions s' !! (i_sender i, j)
     = st_positions s !! (i_sender i, if decide (j = ix) then plen s (i_sender i) - 1 else j)) /\
  (forall a j, a <> i_sender i -> st_positions s' !! (a, j) = st_positions s !! (a, j)).
Proof.
  intros R H. apply reachable_ereach in R. pose proof (ereach_pos_ok _ R) as P.
  pose proof (ereach_indexed _ R) as IX.
  unfold execute in H. destruct (_ && _); [|done]. cbn [dispatch] in H.
  pose proof (remove_own _ _ _ _ _ _ _ IX H) as OW.
  apply remove_position_exec_inv in H; [|done].
  destruct H as (po & lt & ut & p0 & po'' & p' & lt' & ut' & x & y & dl & du & bm1 & bm2 & m' & Epo & _ & _ & _ & Ep & PC & _ & _ & Iu & Il & _ & _ & SR & ->).
  assert (RI : 0 <= ix < plen s (i_sender i)) by (apply P; eauto).
  split; [done|]. split; [unfold plen at 1, get_position_length; cbn; by rewrite lookup_insert|].
  split; [|intros a j N; by apply OW].
  intros j Hj. cbn. destruct SR as [(L & last & E' & ->)|(L & ->)].
  - case_decide as D; [subst j; rewrite lookup_insert; congruence|].
    rewrite lookup_insert_ne, lookup_delete_ne by (intros [=]; lia). done.
  - rewrite decide_False by lia. rewrite lookup_delete_ne by (intros [=]; lia). done.
Qed.

(** every page is the corresponding slice of the owner's list *)
Theorem C34_page s a n off :
  reachable s -> 0 <= off -> 0 <= n -> off + n <= U32MAX ->
  query_positions s a (Some n) (Some off) = Ok (take (Z.to_nat n) (drop (Z.to_nat off) (owner_list s a))).
Proof.
  intros R H1 H2 H3. apply reachable_ereach, ereach_pos_ok in R.
  by rewrite query_positions_page.
Qed.

(** paging with increasing offsets lists every position exactly once *)
Fixpoint pages (s : store) (a : string) (n : Z) (count : nat) : res (list position) :=
  match count with
  | O => Ok []
  | S c => let* l := pages s a n c in
           let* p := query_positions s a (Some n) (Some (Z.of_nat c * n)) in Ok (l ++ p)
  end.
Theorem C34_paging s a n count :
  reachable s -> 1 <= n -> Z.of_nat count * n <= U32MAX -> plen s a <= Z.of_nat count * n ->
  pages s a n count = Ok (owner_list s a).
Proof.
  intros R Hn HU HL.
  assert (G : forall c, (c <= count)%nat -> pages s a n c = Ok (take (Z.to_nat (Z.of_nat c * n)) (owner_list s a))).
  { induction c as [|c IH]; intros Hc; [done|]. cbn [pages]. rewrite IH by lia. cbn [bind].
    rewrite C34_page; [|done|nia|lia|nia]. cbn [bind]. f_equal.
    replace (Z.to_nat (Z.of_nat (S c) * n)) with (Z.to_nat (Z.of_nat c * n) + Z.to_nat n)%nat by nia.
    apply take_take_drop. }
  rewrite G by done. rewrite take_ge; [done|].
  rewrite owner_list_length by (by apply reachable_ereach, ereach_pos_ok in R). lia.
Qed.
Example ex_C34 :
  option_map (map po_liq) (match pages sc0 "alice" 1 2 with Ok l => Some l | _ => None end)
  = Some [20006000000000; 5000000000000].
Proof. vm_compute. reflexivity. Qed.
