(** Fee tiers and pools: C35, C37. *)
From Verif Require Import Base Decimal SqrtPrice Clamm Log FeeGrowth Types Tick Pool Position
  Tickmap Keys State Swap Exec Query Tactics Frame Handlers History Basic PosList Ledger Vectors Scenario PropAuth.
From stdpp Require Import gmap strings.
From Coq Require Import Lia.
Open Scope Z_scope.

(** * C35: fee tiers *)
Definition count_tier (t : fee_tier) (l : list fee_tier) : nat :=
  length (List.filter (fun u => bool_decide (u = t)) l).

(** "never contains a tier twice", "adding an existing tier fails" and "after removing a tier it no
    longer exists" are all false *)
Theorem C35_unique_refuted : exists s s' i ms at' t,
  reachable s /\ count_tier t (query_fee_tiers s) = 2%nat /\
  execute v_env i s (RemoveFeeTier t) = Ok (s', ms, at') /\
  query_fee_tier_exist s' t = true.
Proof.
  destruct (start 0 [("alice", AddFeeTier v_tier); ("alice", AddFeeTier v_tier)]%string) as [s|?|] eqn:E.
  2,3: exfalso; vm_compute in E; discriminate E.
  assert (R : reachable s) by (eapply start_reachable, E).
  vm_compute in E. apply Ok_inj in E. subst s.
  eexists _, _, (v_info "alice"), _, _, v_tier.
  split; [exact R|]. split; [vm_compute; reflexivity|]. split; [vm_compute; reflexivity|].
  vm_compute. reflexivity.
Qed.

(** What holds: an addition adds one copy of a valid tier, a removal removes exactly one copy, no
    other call changes the list; so a tier absent from a duplicate-free list keeps it
    duplicate-free, and removing from such a list removes the tier.  Missing: rejection of
    duplicates. *)
Lemma count_app t l l' : count_tier t (l ++ l') = (count_tier t l + count_tier t l')%nat.
Proof. unfold count_tier. by rewrite List.filter_app, app_length. Qed.
Lemma count_remove_first t u l l' : remove_first t l = Some l' ->
  count_tier u l = (count_tier u l' + if bool_decide (u = t) then 1 else 0)%nat.
Proof.
  revert l'. induction l as [|a l IH]; intros l' H; cbn in H; [done|].
  destruct (bool_decide (a = t)) eqn:B.
  - simplify_eq. apply bool_decide_eq_true in B. subst a. unfold count_tier. cbn.
    destruct (decide (u = t)) as [->|N].
    + rewrite !bool_decide_true by done. cbn. lia.
    + rewrite !bool_decide_false by congruence. lia.
  - destruct (remove_first t l) as [l0|]; [|done]. cbn in H. simplify_eq.
    specialize (IH _ eq_refl). unfold count_tier in *. cbn. destruct (bool_decide (a = u)); cbn; lia.
Qed.
Lemma count_0 t l : count_tier t l = 0%nat <-> t ∉ l.
Proof.
  induction l as [|a l IH]; [split; [intros _ H; set_solver|done]|]. unfold count_tier in *. cbn.
  case_bool_decide; cbn; [subst; split; [done|intros H; set_solver]|]. rewrite IH. set_solver.
Qed.
Lemma count_nodup l : NoDup l <-> forall t, (count_tier t l <= 1)%nat.
Proof.
  induction l as [|a l IH]; [split; [intros _ t; cbn; unfold count_tier; cbn; lia|constructor]|].
  rewrite NoDup_cons, IH. split.
  - intros [N H] t. specialize (H t). apply count_0 in N. unfold count_tier in *. cbn.
    case_bool_decide; cbn; subst; lia.
  - intros H. split.
    + apply count_0. specialize (H a). unfold count_tier in *. cbn in H. rewrite bool_decide_true in H by done. cbn in H. lia.
    + intros t. specialize (H t). unfold count_tier in *. cbn in H. case_bool_decide; cbn in H; lia.
Qed.

Theorem C35_fee_tiers_partial e i s m s' ms at' :
  reachable s -> execute e i s m = Ok (s', ms, at') ->
  (forall t, query_fee_tier_exist s t = true <-> In t (query_fee_tiers s)) /\
  (forall t, In t (query_fee_tiers s) -> 1 <= ft_spacing t <= 100 /\ 0 <= ft_fee t < 10 ^ 12) /\
  match m with
  | AddFeeTier t =>
      i_sender i = query_admin s /\
      (forall u, count_tier u (query_fee_tiers s')
         = (count_tier u (query_fee_tiers s) + if decide (u = t) then 1 else 0)%nat) /\
      (NoDup (query_fee_tiers s) -> query_fee_tier_exist s t = false -> NoDup (query_fee_tiers s'))
  | RemoveFeeTier t =>
      i_sender i = query_admin s /\
      (forall u, count_tier u (query_fee_tiers s)
         = (count_tier u (query_fee_tiers s') + if decide (u = t) then 1 else 0)%nat) /\
      (NoDup (query_fee_tiers s) -> query_fee_tier_exist s' t = false /\ NoDup (query_fee_tiers s'))
  | _ => query_fee_tiers s' = query_fee_tiers s
  end.
Proof.
  intros R H. pose proof (reachable_ereach _ R) as ER. pose proof (ereach_indexed _ ER) as IX.
  split; [|split].
  { intros t. unfold query_fee_tier_exist. rewrite bool_decide_eq_true. apply elem_of_list_In. }
  { intros t I. destruct (ereach_config _ ER) as [T _]. rewrite Forall_forall in T.
    apply elem_of_list_In in I. destruct (T _ I) as [A B]. unfold PCT_ONE in B. lia. }
  unfold query_fee_tier_exist, query_fee_tiers, query_admin in *.
  unfold execute in H. destruct (env_typed e i && msg_typed m); [|done].
  destruct m; cbn [dispatch] in H.
  - unfold change_admin in H. rinv H. by simplify_eq.
  - unfold withdraw_protocol_fee in H. rinv H. by simplify_eq.
  - unfold change_protocol_fee in H. rinv H. by simplify_eq.
  - unfold change_fee_receiver in H. rinv H. by simplify_eq.
  - apply create_position_inv in H; [|done].
    destruct H as (p0 & lt & ut & po & p' & lt' & ut' & x & y & bm1 & bm2 & m0 & m1 & HL & HN & Ep & Sl & Su & _ & _ & PC & PL & _ & _ & _ & _ & ->). done.
  - unfold swap in H. inv_bind H as [[s1 m1] r] E. apply Ok_inj in H. simplify_eq.
    apply swap_internal_kept in E; [|done]. by rewrite (sk_config _ _ _ E).
  - unfold swap_route in H. inv_bind H as [[s1 m1] r] E. inv_bind H as min EM. destruct (_ <? _); [done|].
    apply Ok_inj in H. simplify_eq. apply swap_route_internal_kept in E; [|done]. by rewrite (sk_config _ _ _ E).
  - unfold transfer_position in H. rinv H. simplify_eq.
    fwd add_position_inv as (-> & _). fwd remove_position_inv as (_ & _ & m' & _ & ->). done.
  - apply claim_fee_inv in H; [|done].
    destruct H as (po & lt & ut & p0 & po' & p' & lt' & ut' & x & y & Epo & _ & _ & _ & Ep & PC & _ & _ & Iu & Il & ->). done.
  - apply remove_position_exec_inv in H; [|done].
    destruct H as (po & lt & ut & p0 & po' & p' & lt' & ut' & x & y & dl & du & bm1 & bm2 & m' & Epo & _ & _ & _ & Ep & PC & _ & _ & Iu & Il & _ & _ & SR & ->). done.
  - unfold create_pool in H. rinv H. by simplify_eq.
  - unfold add_fee_tier in H. destruct (String.eqb_spec (i_sender i) (cf_admin (st_config s))) as [A|]; [|done]. cbn in H.
    rinv H. simplify_eq. cbn. split; [done|].
    assert (C : forall u, count_tier u (cf_fee_tiers (st_config s) ++ [tier])
         = (count_tier u (cf_fee_tiers (st_config s)) + if decide (u = tier) then 1 else 0)%nat).
    { intros u. rewrite count_app. f_equal. unfold count_tier. cbn. case_bool_decide; cbn; case_decide; congruence. }
    split; [exact C|]. rewrite !count_nodup. intros N E u. rewrite C. specialize (N u).
    destruct (decide (u = tier)) as [->|]; [|lia]. apply bool_decide_eq_false in E. apply count_0 in E. lia.
  - unfold remove_fee_tier in H. destruct (String.eqb_spec (i_sender i) (cf_admin (st_config s))) as [A|]; [|done]. cbn in H.
    destruct (remove_first tier _) as [l|] eqn:E; [|done]. apply Ok_inj in H. simplify_eq. cbn. split; [done|].
    assert (C : forall u, count_tier u (cf_fee_tiers (st_config s))
         = (count_tier u l + if decide (u = tier) then 1 else 0)%nat).
    { intros u. rewrite (count_remove_first _ u _ _ E). case_bool_decide; case_decide; congruence. }
    split; [exact C|]. rewrite !count_nodup. intros N. split.
    + apply bool_decide_eq_false, count_0. specialize (N tier). rewrite C in N.
      destruct (decide (tier = tier)) as [_|Q]; [lia|by destruct Q].
    + intros u. specialize (N u). rewrite C in N. lia.
  - unfold handle_transfer_nft in H. inv_bind H as s1 E. apply Ok_inj in H. simplify_eq.
    apply transfer_nft_moved in E. destruct E as (o & ix & po & s1 & _ & _ & _ & ERM & EA).
    apply add_position_inv in EA. destruct EA as [-> _]. apply remove_position_inv in ERM.
    destruct ERM as (_ & _ & m' & _ & ->). done.
  - apply create_position_inv in H; [|done].
    destruct H as (p0 & lt & ut & po & p' & lt' & ut' & x & y & bm1 & bm2 & m0 & m1 & HL & HN & Ep & Sl & Su & _ & _ & PC & PL & _ & _ & _ & _ & ->). done.
  - unfold handle_burn in H. inv_bind H as po0 EG. destruct (split_token token_id) as [[o ix]|]; [|done].
    inv_bind H as [] EC. apply remove_position_exec_inv in H; [|done].
    destruct H as (po & lt & ut & p0 & po' & p' & lt' & ut' & x & y & dl & du & bm1 & bm2 & m' & Epo & _ & _ & _ & Ep & PC & _ & _ & Iu & Il & _ & _ & SR & ->). done.
  - unfold handle_send_nft in H. inv_bind H as s1 E. apply Ok_inj in H. simplify_eq.
    apply transfer_nft_moved in E. destruct E as (o & ix & po & s1 & _ & _ & _ & ERM & EA).
    apply add_position_inv in EA. destruct EA as [-> _]. apply remove_position_inv in ERM.
    destruct ERM as (_ & _ & m' & _ & ->). done.
  - unfold handle_approve, update_approvals in H. rinv H. simplify_eq.
    match goal with H : match _ with _ => _ end = Ok _ |- _ => rinv H end. by simplify_eq.
  - unfold handle_revoke, update_approvals in H. rinv H. simplify_eq.
    match goal with H : match _ with _ => _ end = Ok _ |- _ => rinv H end. by simplify_eq.
  - unfold handle_approve_all in H. rinv H. by simplify_eq.
  - unfold handle_revoke_all in H. rinv H. by simplify_eq.
Qed.
Example ex_C35 : count_tier v_tier (query_fee_tiers sc0) = 1%nat /\
  match execute v_env (v_info "alice") sc0 (RemoveFeeTier v_tier) with
  | Ok (s', _, _) => query_fee_tier_exist s' v_tier = false
  | _ => False end.
Proof. vm_compute. split; reflexivity. Qed.

(** * C37: pools *)
Theorem C37_canonical s k p : reachable s -> st_pools s !! k = Some p ->
  pk_x k <> pk_y k /\ String.ltb (pk_x k) (pk_y k) = true /\
  query_pool s (pk_x k) (pk_y k) (pk_tier k) = Ok p /\
  query_pool s (pk_y k) (pk_x k) (pk_tier k) = Ok p.
Proof.
  intros R E. apply reachable_ereach, ereach_pools in R. specialize (R _ _ E).
  pose proof (key_valid_ne _ R) as N. destruct R as [_ O _]. split; [done|]. split; [done|].
  unfold query_pool, pool_key_new.
  assert (O' : String.ltb (pk_y k) (pk_x k) = false).
  { unfold String.ltb in *. rewrite String.compare_antisym. by destruct (String.compare (pk_x k) (pk_y k)). }
  rewrite O, O', (String.eqb_sym (pk_y k)). apply String.eqb_neq in N. rewrite N. cbn.
  replace (mkPoolKey (pk_x k) (pk_y k) (pk_tier k)) with k by (by destruct k).
  unfold get_pool. by rewrite E.
Qed.

Lemma ltb_total a b : a <> b -> String.ltb b a = negb (String.ltb a b).
Proof.
  intros N. unfold String.ltb. rewrite (String.compare_antisym b a).
  destruct (String.compare a b) eqn:C; try done. apply String.compare_eq_iff in C. done.
Qed.

(** either order of the tokens names the same pool, whether it exists or not *)
Theorem C37_order_irrelevant e i s a b t price tick :
  query_pool s a b t = query_pool s b a t /\
  execute e i s (CreatePool a b t price tick) = execute e i s (CreatePool b a t price tick).
Proof.
  assert (K : pool_key_new a b t = pool_key_new b a t).
  { unfold pool_key_new. rewrite (String.eqb_sym b a). destruct (String.eqb_spec a b) as [|N]; [done|].
    rewrite (ltb_total a b N). by destruct (String.ltb a b). }
  split; [unfold query_pool; by rewrite K|].
  unfold execute. cbn [msg_typed]. destruct (_ && _); [|done]. cbn [dispatch]. unfold create_pool. by rewrite K.
Qed.

(** once a pool exists it can be found for ever, creating it again fails (whatever the state of its
    fee tier), and no successful call other than its own trades, deposits, withdrawals and fee
    settings changes it; in particular its start time never changes *)
Theorem C37_permanent s k p : reachable s -> st_pools s !! k = Some p ->
  (forall e i a b price tick, (a, b) = (pk_x k, pk_y k) \/ (a, b) = (pk_y k, pk_x k) ->
     is_ok (execute e i s (CreatePool a b (pk_tier k) price tick)) = false) /\
  (forall e i m s' ms at', execute e i s m = Ok (s', ms, at') ->
     exists p', st_pools s' !! k = Some p' /\ p_start p' = p_start p) /\
  (forall e i a b t price tick s' ms at', execute e i s (CreatePool a b t price tick) = Ok (s', ms, at') ->
     st_pools s' !! k = Some p).
Proof.
  intros R E. pose proof (reachable_ereach _ R) as ER. pose proof (ereach_pools _ ER _ _ E) as KV.
  assert (F : forall e i a b t price tick, pool_key_new a b t = Ok k ->
     is_ok (execute e i s (CreatePool a b t price tick)) = false).
  { intros e i a b t price tick K. unfold execute. destruct (_ && _); [|done]. cbn [dispatch]. unfold create_pool.
    destruct (negb _); [done|]. destruct (check_tick _ _); [|done|done]. cbn [bind]. rewrite K. cbn [bind].
    destruct (pool_key_bytes k); [|done|done]. cbn [bind]. by rewrite E. }
  split; [|split].
  - intros e i a b price tick AB. apply F.
    pose proof (key_valid_ne _ KV) as N. destruct KV as [_ O _]. unfold pool_key_new.
    assert (KE : mkPoolKey (pk_x k) (pk_y k) (pk_tier k) = k) by (by destruct k).
    destruct AB as [AB|AB]; injection AB as -> ->.
    + apply String.eqb_neq in N. by rewrite N, O, KE.
    + rewrite (ltb_total _ _ N), O. rewrite String.eqb_sym. apply String.eqb_neq in N. by rewrite N, KE.
  - intros e i m s' ms at' H. pose proof (ereach_indexed _ ER) as IX.
    apply execute_cases in H. destruct H as [H|(a & x & sl & hops & out & _ & _ & H)].
    + destruct (effect_pool _ _ _ _ _ _ _ IX H E) as (p' & Ep' & PS & _). eauto.
    + apply swap_route_internal_kept in H; [|done].
      destruct (sk_pool _ _ _ H _ _ E) as (p' & E' & K). exists p'. split; [done|]. apply K.
  - intros e i a b t price tick s' ms at' H. unfold execute in H. destruct (_ && _); [|done]. cbn [dispatch] in H.
    unfold create_pool in H. destruct (negb _); [done|].
    inv_bind H as [] EC. inv_bind H as k0 EK. inv_bind H as b0 EB.
    destruct (st_pools s !! k0) eqn:E0; [done|]. inv_bind H as p0 EP. apply Ok_inj in H. simplify_eq. cbn.
    rewrite lookup_insert_ne by congruence. done.
Qed.
Example ex_C37 :
  map (fun ab => is_ok (execute v_env (v_info "eve") sc0 (CreatePool (fst ab) (snd ab) v_tier SP_ONE 0)))
    [("tokenx", "tokeny"); ("tokeny", "tokenx"); ("tokenx", "tokenz")]%string = [false; false; true].
Proof. vm_compute. reflexivity. Qed.
