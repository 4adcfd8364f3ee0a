(** Histories of calls, and the elementary effects every successful call decomposes into. *)
From Verif Require Import Base Decimal SqrtPrice Clamm Log FeeGrowth Types Tick Pool Position
  Tickmap Keys State Swap Exec Tactics Frame Handlers.
From stdpp Require Import gmap strings.
Open Scope Z_scope.

(** States after any number of successful calls by anybody; a failed call changes nothing. *)
Inductive reachable : store -> Prop :=
| reach_init i f s : instantiate i f = Ok s -> reachable s
| reach_call e i s m s' ms at' :
    reachable s -> execute e i s m = Ok (s', ms, at') -> reachable s'.

(** ** Elementary effects *)
Definition tier_valid (t : fee_tier) : Prop :=
  1 <= ft_spacing t <= 100 /\ 0 <= ft_fee t < PCT_ONE.

Definition config_step (c c' : config) : Prop :=
  (cf_fee_tiers c' = cf_fee_tiers c /\ (cf_protocol_fee c' = cf_protocol_fee c \/
                                        0 <= cf_protocol_fee c' <= U64MAX)) \/
  (cf_protocol_fee c' = cf_protocol_fee c /\
   ((exists t, tier_valid t /\ cf_fee_tiers c' = cf_fee_tiers c ++ [t]) \/
    (exists t, remove_first t (cf_fee_tiers c) = Some (cf_fee_tiers c')))).

Inductive effect (e : env) (i : msg_info) (s : store) : store -> list out_msg -> Prop :=
| ef_config c : i_sender i = cf_admin (st_config s) -> config_step (st_config s) c ->
    effect e i s (set_config s c) []
| ef_withdraw k p : st_pools s !! k = Some p -> p_receiver p = i_sender i ->
    effect e i s (save_pool s k (p_set_prot p 0 0))
      (asset_transfer e i (pk_x k) (p_protx p) ++ asset_transfer e i (pk_y k) (p_proty p))
| ef_receiver k p r : i_sender i = cf_admin (st_config s) -> st_pools s !! k = Some p ->
    effect e i s (save_pool s k (p_set_receiver p r)) []
| ef_pool k p b t0 t1 price tick :
    st_pools s !! k = None -> pk_tier k ∈ cf_fee_tiers (st_config s) ->
    pool_key_new t0 t1 (pk_tier k) = Ok k -> pool_key_bytes k = Ok b ->
    check_tick tick (ft_spacing (pk_tier k)) = Ok tt -> 0 <= price <= U128MAX ->
    pool_create price tick (e_millis e) (ft_spacing (pk_tier k)) (cf_admin (st_config s)) = Ok p ->
    effect e i s (save_pool s k p) []
| ef_swap k d a by_in lim s' ms r :
    0 <= a <= U128MAX -> 0 <= lim <= U128MAX ->
    swap_internal e i s k d a by_in lim = Ok (s', ms, r) -> effect e i s s' ms
| ef_create k lower upper liq sl su s' ms at' :
    0 <= liq <= U128MAX -> I32MIN <= lower <= I32MAX -> I32MIN <= upper <= I32MAX ->
    create_position e i s k lower upper liq sl su = Ok (s', ms, at') -> effect e i s s' ms
| ef_claim ix s' ms at' : claim_fee e i s ix = Ok (s', ms, at') -> effect e i s s' ms
| ef_remove ix s' ms at' : remove_position_exec e i s ix = Ok (s', ms, at') -> effect e i s s' ms
| ef_transfer o ix po s1 r s' ms :
    st_positions s !! (o, ix) = Some po ->
    remove_position s o ix = Ok (s1, po) ->
    add_position s1 r (po_set_approvals po []) = Ok s' ->
    (ms = [] \/ exists c t x, ms = [NftReceive c (i_sender i) t x]) ->
    effect e i s s' ms
| ef_approve o ix po l : st_positions s !! (o, ix) = Some po ->
    effect e i s (set_positions s (<[(o, ix) := po_set_approvals po l]> (st_positions s)) (st_poslen s)) []
| ef_operators m : effect e i s (set_operators s m) [].

(** the same without swaps *)
Inductive effect0 (e : env) (i : msg_info) (s : store) : store -> list out_msg -> Prop :=
| e0_config c : i_sender i = cf_admin (st_config s) -> config_step (st_config s) c ->
    effect0 e i s (set_config s c) []
| e0_withdraw k p : st_pools s !! k = Some p -> p_receiver p = i_sender i ->
    effect0 e i s (save_pool s k (p_set_prot p 0 0))
      (asset_transfer e i (pk_x k) (p_protx p) ++ asset_transfer e i (pk_y k) (p_proty p))
| e0_receiver k p r : i_sender i = cf_admin (st_config s) -> st_pools s !! k = Some p ->
    effect0 e i s (save_pool s k (p_set_receiver p r)) []
| e0_pool k p b t0 t1 price tick :
    st_pools s !! k = None -> pk_tier k ∈ cf_fee_tiers (st_config s) ->
    pool_key_new t0 t1 (pk_tier k) = Ok k -> pool_key_bytes k = Ok b ->
    check_tick tick (ft_spacing (pk_tier k)) = Ok tt -> 0 <= price <= U128MAX ->
    pool_create price tick (e_millis e) (ft_spacing (pk_tier k)) (cf_admin (st_config s)) = Ok p ->
    effect0 e i s (save_pool s k p) []
| e0_create k lower upper liq sl su s' ms at' :
    0 <= liq <= U128MAX -> I32MIN <= lower <= I32MAX -> I32MIN <= upper <= I32MAX ->
    create_position e i s k lower upper liq sl su = Ok (s', ms, at') -> effect0 e i s s' ms
| e0_claim ix s' ms at' : claim_fee e i s ix = Ok (s', ms, at') -> effect0 e i s s' ms
| e0_remove ix s' ms at' : remove_position_exec e i s ix = Ok (s', ms, at') -> effect0 e i s s' ms
| e0_transfer o ix po s1 r s' ms :
    st_positions s !! (o, ix) = Some po ->
    remove_position s o ix = Ok (s1, po) ->
    add_position s1 r (po_set_approvals po []) = Ok s' ->
    (ms = [] \/ exists c t x, ms = [NftReceive c (i_sender i) t x]) ->
    effect0 e i s s' ms
| e0_approve o ix po l : st_positions s !! (o, ix) = Some po ->
    effect0 e i s (set_positions s (<[(o, ix) := po_set_approvals po l]> (st_positions s)) (st_poslen s)) []
| e0_operators m : effect0 e i s (set_operators s m) [].

Lemma effect0_effect e i s s' ms : effect0 e i s s' ms -> effect e i s s' ms.
Proof.
  destruct 1; [by apply ef_config|by apply ef_withdraw|by apply ef_receiver|eapply ef_pool; eassumption
    |eapply ef_create; [..|eassumption]; done|eapply ef_claim; eassumption|eapply ef_remove; eassumption
    |eapply ef_transfer; eassumption|by apply ef_approve|by apply ef_operators].
Qed.

Inductive effects (e : env) (i : msg_info) : store -> store -> list out_msg -> Prop :=
| efs_nil s : effects e i s s []
| efs_cons s s1 s2 m1 m2 : effect e i s s1 m1 -> effects e i s1 s2 m2 ->
    effects e i s s2 (m1 ++ m2).

Lemma effects_one e i s s' ms : effect e i s s' ms -> effects e i s s' ms.
Proof. intros H. rewrite <- (app_nil_r ms). econstructor; [exact H|constructor]. Qed.

(** results of the swap loop fit u128 *)
Lemma calculate_swap_out gas s now k d a by_in lim r :
  calculate_swap gas s now k d a by_in lim = Ok r -> 0 <= cr_out r <= U128MAX /\ 0 <= cr_in r <= U128MAX.
Proof.
  unfold calculate_swap. intros H.
  assert (G : forall gas w w' tl, 0 <= sw_out w <= U128MAX -> 0 <= sw_in w <= U128MAX ->
     swap_loop gas s now k d by_in lim tl w = Ok w' ->
     0 <= sw_out w' <= U128MAX /\ 0 <= sw_in w' <= U128MAX).
  { induction gas0 as [|g IH]; intros w w' tl H1 H2 HL; cbn in HL.
    - rinv HL; subst; done.
    - rinv HL; subst; [done|]. eapply IH; [| |exact HL].
      all: match goal with H : swap_iter _ _ _ _ _ _ _ _ = Ok _ |- _ => unfold swap_iter in H; rinv H; ckinv; subst; cbn; done end. }
  rinv H; simplify_eq; cbn; eapply G; try eassumption; unfold U128MAX; cbn; lia.
Qed.

Lemma update_approvals_effect0 e i s sp tid add x s' :
  update_approvals e i s sp tid add x = Ok s' -> effect0 e i s s' [].
Proof.
  unfold update_approvals, get_position_by_key, get_position. intros H.
  destruct (split_token tid) as [[o ix]|]; [|done].
  destruct (st_positions s !! (o, ix)) as [po|] eqn:E; [|done]. cbn [bind] in H.
  inv_bind H as [] EC. inv_bind H as l EL. apply Ok_inj in H. subst. by apply e0_approve.
Qed.

Lemma route_effects e i s a hops s' ms out :
  0 <= a <= U128MAX -> swap_route_internal e i s a hops = Ok (s', ms, out) -> effects e i s s' ms.
Proof.
  revert s a s' ms out. induction hops as [|h hops IH]; intros s a s' ms out Ha H; cbn in H.
  - simplify_eq. constructor.
  - inv_bind H as [[s1 m1] r] E. inv_bind H as [[s2 m2] o] E2. apply Ok_inj in H. simplify_eq.
    econstructor.
    + eapply ef_swap; [exact Ha| |exact E]. destruct (hop_x_to_y h); cbn; unfold MIN_SQRT_PRICE, MAX_SQRT_PRICE, U128MAX; lia.
    + eapply IH; [|exact E2]. apply swap_internal_inv in E as (E & _). apply calculate_swap_out in E. tauto.
Qed.

Lemma transfer_nft_effect0 e i s r tid s' :
  transfer_nft e i s r tid = Ok s' -> forall ms, (ms = [] \/ exists c t x, ms = [NftReceive c (i_sender i) t x]) ->
  effect0 e i s s' ms.
Proof.
  unfold transfer_nft, get_position_by_key. intros H ms Hms.
  destruct (split_token tid) as [[o ix]|]; [|done]. destruct (negb _); [done|].
  unfold get_position in H. destruct (st_positions s !! (o, ix)) as [po|] eqn:E; [|done]. cbn [bind] in H.
  inv_bind H as [] EC. inv_bind H as [s1 po0] ER.
  assert (po0 = po). { apply remove_position_inv in ER. destruct ER as (E' & _). congruence. } subst.
  eapply e0_transfer; eassumption.
Qed.

Theorem execute_split e i s m s' ms at' :
  execute e i s m = Ok (s', ms, at') ->
  effect0 e i s s' ms \/
  (exists k d a by_in lim r, m = Swap k d a by_in lim /\ 0 <= a <= U128MAX /\ 0 <= lim <= U128MAX /\
     swap_internal e i s k d a by_in lim = Ok (s', ms, r)) \/
  exists a x sl hops out, m = SwapRoute a x sl hops /\ 0 <= a <= U128MAX /\
    swap_route_internal e i s a hops = Ok (s', ms, out).
Proof.
  unfold execute. destruct (env_typed e i && msg_typed m) eqn:ET; [|done].
  apply andb_true_iff in ET. destruct ET as [_ ET]. intros H.
  destruct m; cbn [dispatch] in H; cbn [msg_typed] in ET.
  - (* ChangeAdmin *) unfold change_admin in H. destruct (String.eqb_spec (i_sender i) (cf_admin (st_config s))); [|done].
    cbn in H. simplify_eq. left; apply e0_config; [done|]. left. cbn. auto.
  - unfold withdraw_protocol_fee, get_pool in H. destruct (st_pools s !! k) as [p|] eqn:E; [|done]. cbn [bind] in H.
    destruct (String.eqb_spec (p_receiver p) (i_sender i)); [|done]. cbn in H. apply Ok_inj in H. simplify_eq.
    left; apply e0_withdraw; done.
  - unfold change_protocol_fee in H. destruct (String.eqb_spec (i_sender i) (cf_admin (st_config s))); [|done].
    cbn in H. simplify_eq. left; apply e0_config; [done|]. left. cbn. split; [done|]. right.
    by apply in_range_spec in ET.
  - unfold change_fee_receiver, get_pool in H. destruct (String.eqb_spec (i_sender i) (cf_admin (st_config s))); [|done].
    cbn in H. destruct (st_pools s !! k) as [p|] eqn:E; [|done]. cbn [bind] in H. simplify_eq.
    left; apply e0_receiver; done.
  - left. repeat (apply andb_true_iff in ET; destruct ET as [ET ?]).
    eapply e0_create; [| | |exact H]; by apply in_range_spec.
  - unfold swap in H. inv_bind H as [[s1 m1] r] E. apply Ok_inj in H. simplify_eq.
    repeat (apply andb_true_iff in ET; destruct ET as [ET ?]).
    right. left. eexists _, _, _, _, _, _. split; [reflexivity|]. split; [|split; [|exact E]]; by apply in_range_spec.
  - unfold swap_route in H. inv_bind H as [[s1 m1] r] E. inv_bind H as min EM. destruct (_ <? _); [done|].
    apply Ok_inj in H. simplify_eq.
    repeat (apply andb_true_iff in ET; destruct ET as [ET ?]).
    right. right. eexists _, _, _, _, _. split; [reflexivity|]. split; [|exact E]. apply Z.leb_le in ET, H2. lia.
  - unfold transfer_position, get_position in H.
    destruct (st_positions s !! (i_sender i, index)) as [po|] eqn:E; [|done]. cbn [bind] in H.
    inv_bind H as [s1 po0] ER. destruct (negb _); [done|]. inv_bind H as s2 EA. apply Ok_inj in H. simplify_eq.
    assert (po0 = po). { apply remove_position_inv in ER. destruct ER as (E' & _). congruence. } subst.
    left. eapply e0_transfer; try eassumption. by left.
  - left. eapply e0_claim, H.
  - left. eapply e0_remove, H.
  - unfold create_pool in H. destruct (bool_decide _) eqn:B; [|done]. cbn in H.
    inv_bind H as [] EC. inv_bind H as k EK. inv_bind H as b EB.
    destruct (st_pools s !! k) eqn:E; [done|]. inv_bind H as p EP. apply (proj1 (map_err_ok _ _ _)) in EP.
    apply Ok_inj in H. simplify_eq. apply bool_decide_eq_true in B.
    repeat (apply andb_true_iff in ET; destruct ET as [ET ?]).
    assert (pk_tier k = tier). { unfold pool_key_new in EK. repeat case_match; by simplify_eq. } subst tier.
    left. eapply e0_pool; try eassumption. by apply in_range_spec.
  - unfold add_fee_tier in H. destruct (String.eqb_spec (i_sender i) (cf_admin (st_config s))); [|done]. cbn in H.
    destruct (_ || _) eqn:E1; [done|]. destruct (_ <=? _) eqn:E2; [done|].
    apply Ok_inj in H. simplify_eq. left; apply e0_config; [done|]. right. split; [done|]. left.
    apply orb_false_iff in E1. destruct E1. apply andb_true_iff in ET. destruct ET as [T1 T2].
    apply in_range_spec in T1, T2. exists tier. split; [|done]. unfold tier_valid, PCT_ONE.
    rewrite Z.eqb_neq, Z.ltb_ge, Z.leb_gt in *. lia.
  - unfold remove_fee_tier in H. destruct (String.eqb_spec (i_sender i) (cf_admin (st_config s))); [|done]. cbn in H.
    destruct (remove_first _ _) eqn:E; [|done]. apply Ok_inj in H. simplify_eq.
    left; apply e0_config; [done|]. right. split; [done|]. right. eauto.
  - unfold handle_transfer_nft in H. inv_bind H as s1 E. apply Ok_inj in H. simplify_eq.
    left. eapply transfer_nft_effect0; [exact E|by left].
  - left. repeat (apply andb_true_iff in ET; destruct ET as [ET ?]).
    eapply e0_create; [| | |exact H]; by apply in_range_spec.
  - unfold handle_burn in H. inv_bind H as po EG. destruct (split_token token_id) as [[o ix]|]; [|done].
    inv_bind H as [] EC. left. eapply e0_remove, H.
  - unfold handle_send_nft in H. inv_bind H as s1 E. apply Ok_inj in H. simplify_eq.
    left. eapply transfer_nft_effect0; [exact E|]. right. eauto.
  - unfold handle_approve in H. inv_bind H as s1 E. apply Ok_inj in H. simplify_eq.
    left. eapply update_approvals_effect0, E.
  - unfold handle_revoke in H. inv_bind H as s1 E. apply Ok_inj in H. simplify_eq.
    left. eapply update_approvals_effect0, E.
  - unfold handle_approve_all in H. rinv H; simplify_eq. left; apply e0_operators.
  - unfold handle_revoke_all in H. rinv H; simplify_eq. left; apply e0_operators.
Qed.

Theorem execute_cases e i s m s' ms at' :
  execute e i s m = Ok (s', ms, at') ->
  effect e i s s' ms \/
  exists a x sl hops out, m = SwapRoute a x sl hops /\ 0 <= a <= U128MAX /\
    swap_route_internal e i s a hops = Ok (s', ms, out).
Proof.
  intros H. apply execute_split in H. destruct H as [H|[(k & d & a & by_in & lim & r & _ & Ha & Hl & H)|H]]; [left..|by right].
  - by apply effect0_effect.
  - eapply ef_swap; [exact Ha|exact Hl|exact H].
Qed.

Corollary execute_effects e i s m s' ms at' :
  execute e i s m = Ok (s', ms, at') -> effects e i s s' ms.
Proof.
  intros H. apply execute_cases in H. destruct H as [H|(a & x & sl & hops & out & _ & Ha & H)].
  - by apply effects_one.
  - eapply route_effects; eassumption.
Qed.
