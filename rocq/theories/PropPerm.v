(** C57-C59: how permissions, token ids and recorded heights change from call to call. *)
From Verif Require Import Base Decimal SqrtPrice Clamm FeeGrowth Types Tick Pool Position Keys State Swap Exec Query Tactics
  KeysProofs Frame Handlers History Basic PosList Vectors Scenario PropAuth PropQuery LiqInv Ops Forward PropSolv PropNft.
From stdpp Require Import gmap strings sorting.
From Coq Require Import Lia.
Open Scope Z_scope.

(** ** Operators *)
(** what [approved_for_all] reports, on some page, with expired grants included *)
Definition operator_listed (e : env) (s : store) (o a : string) (x : expiration) : Prop :=
  exists start limit, In (a, x) (query_all_approvals e s o true start limit).
Lemma operator_listed_iff e s o a x : operator_listed e s o a x <-> st_operators s !! (o, a) = Some x.
Proof.
  destruct (operators_listing e s o true) as (L & ND & M & Q & SS). unfold operator_listed. split.
  - intros (start & limit & H). fold (operators_page e s o true limit start) in H. rewrite Q in H.
    assert (H' : In (a, x) (after_key fst start L)).
    { rewrite <- (take_drop (page_size limit) (after_key fst start L)). apply in_app_iff. by left. }
    assert (H2 : (a, x) ∈ L). { apply elem_of_list_In. destruct start; [|done]. cbn in H'. apply List.filter_In in H'. tauto. }
    apply M in H2. tauto.
  - intros E. assert (H : (a, x) ∈ L) by (apply M; auto).
    assert (LL : listing fst (operators_page e s o true None) None L).
    { apply (listing_complete fst _ (page_size None) L); [|done|apply Q|done]. unfold page_size. change MAX_LIMIT with 100. cbn. lia. }
    destruct (listing_pages _ _ _ _ LL _ H) as [start H']. exists start, None. by apply elem_of_list_In.
Qed.

Definition operators_after (i : msg_info) (m : exec_msg) (g : gmap (string * string) expiration) : gmap (string * string) expiration :=
  match m with
  | ApproveAll b x => <[(i_sender i, b) := default Never x]> g
  | RevokeAll b => delete (i_sender i, b) g
  | _ => g
  end.
Lemma execute_operators e i s m s' ms at' : ticks_indexed s -> execute e i s m = Ok (s', ms, at') ->
  st_operators s' = operators_after i m (st_operators s).
Proof.
  intros IX H. unfold execute in H. destruct (env_typed e i && msg_typed m) eqn:ET; [|done].
  destruct m; cbn [dispatch operators_after] in *.
  - unfold change_admin in H. rinv H. by simplify_eq.
  - unfold withdraw_protocol_fee in H. rinv H. by simplify_eq.
  - unfold change_protocol_fee in H. rinv H. by simplify_eq.
  - unfold change_fee_receiver in H. rinv H. by simplify_eq.
  - apply create_position_inv in H; [|done]. destruct H as (p0 & lt & ut & po & p' & lt' & ut' & x & y & bm1 & bm2 & m0 & m1 & _ & _ & _ & _ & _ & _ & _ & _ & _ & _ & _ & _ & _ & ->). done.
  - unfold swap in H. inv_bind H as [[s1 m1] r] E. apply Ok_inj in H. simplify_eq. apply swap_internal_kept in E; [|done]. apply E.
  - unfold swap_route in H. inv_bind H as [[s1 m1] r] E. inv_bind H as min EM. destruct (_ <? _); [done|].
    apply Ok_inj in H. simplify_eq. apply swap_route_internal_kept in E; [|done]. apply E.
  - unfold transfer_position, get_position in H. destruct (st_positions s !! (i_sender i, index)) as [po|] eqn:E; [|done]. cbn [bind] in H.
    inv_bind H as [s1 po0] ER. destruct (negb _); [done|]. inv_bind H as s2 EA. apply Ok_inj in H. simplify_eq.
    apply remove_position_inv in ER. destruct ER as (_ & _ & m' & _ & ->). apply add_position_inv in EA. destruct EA as [-> _]. done.
  - apply claim_fee_inv in H; [|done]. destruct H as (po & lt & ut & p0 & po' & p' & lt' & ut' & x & y & Epo & _ & _ & _ & Ep & PC & _ & _ & Iu & Il & ->). done.
  - apply remove_position_exec_inv in H; [|done].
    destruct H as (po & lt & ut & p0 & po' & p' & lt' & ut' & x & y & dl & du & bm1 & bm2 & m' & Epo & _ & _ & _ & Ep & PC & _ & _ & Iu & Il & _ & _ & SR & ->). done.
  - unfold create_pool in H. rinv H. by simplify_eq.
  - unfold add_fee_tier in H. rinv H. by simplify_eq.
  - unfold remove_fee_tier in H. rinv H. by simplify_eq.
  - unfold handle_transfer_nft in H. inv_bind H as s1 E. apply Ok_inj in H. simplify_eq.
    apply transfer_nft_moved in E. destruct E as (o & ix & po & s1 & _ & _ & _ & ER & EA).
    apply remove_position_inv in ER. destruct ER as (_ & _ & m' & _ & ->). apply add_position_inv in EA. destruct EA as [-> _]. done.
  - apply create_position_inv in H; [|done]. destruct H as (p0 & lt & ut & po & p' & lt' & ut' & x & y & bm1 & bm2 & m0 & m1 & _ & _ & _ & _ & _ & _ & _ & _ & _ & _ & _ & _ & _ & ->). done.
  - unfold handle_burn in H. inv_bind H as po0 EG. destruct (split_token token_id) as [[o ix]|]; [|done].
    inv_bind H as [] EC. apply remove_position_exec_inv in H; [|done].
    destruct H as (po & lt & ut & p0 & po' & p' & lt' & ut' & x & y & dl & du & bm1 & bm2 & m' & Epo & _ & _ & _ & Ep & PC & _ & _ & Iu & Il & _ & _ & SR & ->). done.
  - unfold handle_send_nft in H. inv_bind H as s1 E. apply Ok_inj in H. simplify_eq.
    apply transfer_nft_moved in E. destruct E as (o & ix & po & s1 & _ & _ & _ & ER & EA).
    apply remove_position_inv in ER. destruct ER as (_ & _ & m' & _ & ->). apply add_position_inv in EA. destruct EA as [-> _]. done.
  - unfold handle_approve in H. inv_bind H as s1 E. apply Ok_inj in H. simplify_eq.
    unfold update_approvals in E. destruct (split_token token_id) as [[o ix]|]; [|done]. inv_bind E as po EG. inv_bind E as [] EC. inv_bind E as l EL. apply Ok_inj in E. by subst.
  - unfold handle_revoke in H. inv_bind H as s1 E. apply Ok_inj in H. simplify_eq.
    unfold update_approvals in E. destruct (split_token token_id) as [[o ix]|]; [|done]. inv_bind E as po EG. inv_bind E as [] EC. inv_bind E as l EL. apply Ok_inj in E. by subst.
  - unfold handle_approve_all in H. rinv H. by simplify_eq.
  - unfold handle_revoke_all in H. rinv H. by simplify_eq.
Qed.

(** An operator's grant is exactly what the owner's last call said: [approve_all] sets it, [revoke_all] ends it, and no other call by anybody
    creates, changes or ends a grant. *)
Theorem C57_operators e i s m s' ms at' : reachable s -> execute e i s m = Ok (s', ms, at') ->
  forall e' o a x, operator_listed e' s' o a x <->
    match m with
    | ApproveAll b y => if decide (o = i_sender i /\ a = b) then x = default Never y else operator_listed e' s o a x
    | RevokeAll b => operator_listed e' s o a x /\ ~ (o = i_sender i /\ a = b)
    | _ => operator_listed e' s o a x
    end.
Proof.
  intros R H e' o a x. apply reachable_ereach, ereach_indexed in R. rewrite operator_listed_iff, (execute_operators _ _ _ _ _ _ _ R H).
  destruct m; cbn [operators_after]; rewrite ?operator_listed_iff; try tauto.
  - destruct (decide (o = i_sender i /\ a = operator)) as [[-> ->]|N].
    + rewrite lookup_insert. split; [by intros [= <-]|by intros ->].
    + rewrite lookup_insert_ne by (intros [= <- <-]; tauto). by rewrite operator_listed_iff.
  - destruct (decide (o = i_sender i /\ a = operator)) as [[-> ->]|N].
    + rewrite lookup_delete. split; [done|]. intros [_ []]. done.
    + rewrite lookup_delete_ne by (intros [= <- <-]; tauto). tauto.
Qed.

(** ** Position records *)
(** [i]'s call [m] gives up the position of [o] at index [ix] *)
Definition gives_up (i : msg_info) (m : exec_msg) (o : string) (ix : Z) : Prop :=
  match m with
  | RemovePosition j => o = i_sender i /\ ix = j
  | Burn t => o = i_sender i /\ exists a, split_token t = Some (a, ix)
  | _ => exists r, is_transfer i m o ix r
  end.
(** the content that no call may change *)
Definition same_record (po po' : position) : Prop :=
  po_key po' = po_key po /\ po_lower po' = po_lower po /\ po_upper po' = po_upper po /\ po_liq po' = po_liq po /\ po_block po' = po_block po.
Definition approvals_after (m : exec_msg) (t : string) (l : list approval) : list approval :=
  match m with
  | Approve a t' x => if decide (t' = t) then List.filter (fun b => negb (String.eqb (ap_spender b) a)) l ++ [mkApproval a (default Never x)] else l
  | Revoke a t' => if decide (t' = t) then List.filter (fun b => negb (String.eqb (ap_spender b) a)) l else l
  | _ => l
  end.
(** [po'] at ([o], [ix']) is the position [po] that [o] had at [ix] *)
Definition kept_at (i : msg_info) (s : store) (m : exec_msg) (o : string) (ix : Z) (po : position) (ix' : Z) (po' : position) : Prop :=
  same_record po po' /\ po_approvals po' = approvals_after m (position_key_bytes o ix) (po_approvals po) /\
  (ix' = ix \/ (ix = plen s o - 1 /\ gives_up i m o ix')).
(** [po'] is new: created now by its owner, or received by a transfer *)
Definition creates (m : exec_msg) (k : pool_key) (lo hi liq : Z) : Prop :=
  exists sl su, m = CreatePosition k lo hi liq sl su \/ m = Mint k lo hi liq sl su.
Definition created_now (e : env) (i : msg_info) (s : store) (m : exec_msg) (o : string) (ix' : Z) (po' : position) : Prop :=
  o = i_sender i /\ ix' = plen s o /\ creates m (po_key po') (po_lower po') (po_upper po') (po_liq po') /\
  po_block po' = e_height e /\ po_approvals po' = [].
Definition received (i : msg_info) (s : store) (m : exec_msg) (o : string) (po' : position) : Prop :=
  exists o0 ix0 po0, is_transfer i m o0 ix0 o /\ st_positions s !! (o0, ix0) = Some po0 /\ same_record po0 po' /\ po_approvals po' = [].
Definition described (e : env) (i : msg_info) (s : store) (m : exec_msg) (s' : store) : Prop :=
  (forall o ix po, st_positions s !! (o, ix) = Some po -> ~ gives_up i m o ix ->
     exists ix' po', st_positions s' !! (o, ix') = Some po' /\ kept_at i s m o ix po ix' po') /\
  (forall o ix' po', st_positions s' !! (o, ix') = Some po' ->
     (exists ix po, st_positions s !! (o, ix) = Some po /\ ~ gives_up i m o ix /\ kept_at i s m o ix po ix' po') \/
     received i s m o po' \/ created_now e i s m o ix' po').

Lemma same_refl po : same_record po po.
Proof. done. Qed.
Lemma position_update_liq po add d gx gy po' : position_update po add d gx gy = Ok po' -> po_liq po' = if add then po_liq po + d else po_liq po - d.
Proof.
  unfold position_update, calculate_new_liquidity. destruct (_ && _); [done|]. intros H. inv_bind H as ox E1. inv_bind H as oy E2. inv_bind H as l E3.
  inv_bind H as tx E4. inv_bind H as ty E5. apply Ok_inj in H. subst po'. cbn. destruct (_ && _); [done|].
  destruct add; apply ck_ok in E3; tauto.
Qed.
Lemma position_modify_liq po p u l d add now s po' p' u' l' x y : position_modify po p u l d add now s = Ok (po', p', u', l', x, y) ->
  po_liq po' = if add then po_liq po + d else po_liq po - d.
Proof.
  unfold position_modify. intros H. inv_bind H as l1 EL. inv_bind H as u1 EU. inv_bind H as po1 EP. inv_bind H as [[p1 x1] y1] EQ. apply Ok_inj in H.
  injection H as <- <- <- <- <- <-. by apply position_update_liq in EP.
Qed.

(** the shapes of change *)
Lemma described_same e i s m s' : st_positions s' = st_positions s -> (forall t l, approvals_after m t l = l) -> (forall o ix, ~ gives_up i m o ix) -> described e i s m s'.
Proof.
  intros E A G. split.
  - intros o ix po H _. exists ix, po. rewrite E. split; [done|]. split; [apply same_refl|]. rewrite A. auto.
  - intros o ix po H. left. exists ix, po. rewrite <- E. split; [done|]. split; [apply G|]. split; [apply same_refl|]. rewrite A. auto.
Qed.
Lemma described_create e i s m s' k lo hi liq po : pos_ok s -> st_positions s' = <[(i_sender i, plen s (i_sender i)) := po]> (st_positions s) -> creates m k lo hi liq ->
  po_key po = k -> po_lower po = lo -> po_upper po = hi -> po_liq po = liq -> po_block po = e_height e -> po_approvals po = [] -> described e i s m s'.
Proof.
  intros P E C E1 E2 E3 E4 E5 E6. pose proof (ct_some _ _ P) as CS.
  assert (A : forall t l, approvals_after m t l = l) by (destruct C as (? & ? & [-> | ->]); done).
  assert (G : forall o ix, ~ gives_up i m o ix) by (destruct C as (? & ? & [-> | ->]); intros o ix [r []]).
  split.
  - intros o ix po0 H _. exists ix, po0. rewrite E. split; [|split; [apply same_refl|]; rewrite A; auto].
    rewrite lookup_insert_ne; [done|]. intros [= <- <-]. pose proof (proj1 (CS _ _) (mk_is_Some _ _ H)). unfold plen in *. lia.
  - intros o ix po0 H. rewrite E in H. destruct (decide ((i_sender i, plen s (i_sender i)) = (o, ix))) as [Q|N].
    + rewrite Q, lookup_insert in H. injection H as <-. injection Q as <- <-. right. right. split; [done|]. split; [done|]. by subst.
    + rewrite lookup_insert_ne in H by done. left. exists ix, po0. split; [done|]. split; [apply G|]. split; [apply same_refl|]. rewrite A. auto.
Qed.
Lemma described_update e i s m s' o ix po po' : st_positions s !! (o, ix) = Some po -> st_positions s' = <[(o, ix) := po']> (st_positions s) ->
  same_record po po' -> po_approvals po' = approvals_after m (position_key_bytes o ix) (po_approvals po) ->
  (forall o' ix' l po', (o', ix') <> (o, ix) -> st_positions s !! (o', ix') = Some po' -> approvals_after m (position_key_bytes o' ix') l = l) -> (forall o ix, ~ gives_up i m o ix) ->
  described e i s m s'.
Proof.
  intros E0 E S A A' G. split.
  - intros o1 ix1 po1 H _. exists ix1. rewrite E. destruct (decide ((o, ix) = (o1, ix1))) as [Q|N].
    + rewrite Q, lookup_insert. exists po'. rewrite Q, H in E0. injection E0 as ->. injection Q as -> ->. split; [done|]. split; [done|]. auto.
    + rewrite lookup_insert_ne by done. exists po1. split; [done|]. split; [apply same_refl|]. erewrite A' by eauto. auto.
  - intros o1 ix1 po1 H. left. exists ix1. rewrite E in H. destruct (decide ((o, ix) = (o1, ix1))) as [Q|N].
    + rewrite Q, lookup_insert in H. injection H as <-. injection Q as <- <-. exists po. split; [done|]. split; [apply G|]. split; [done|]. auto.
    + rewrite lookup_insert_ne in H by done. exists po1. split; [done|]. split; [apply G|]. split; [apply same_refl|]. erewrite A' by eauto. auto.
Qed.
(** after removing the position of [o] at [ix], which [m] gives up *)
Lemma removed_lookup s o ix po m' : pos_ok s -> st_positions s !! (o, ix) = Some po -> swap_removed o ix (plen s o - 1) (st_positions s) m' ->
  (forall o1 ix1 po1, st_positions s !! (o1, ix1) = Some po1 -> (o1, ix1) <> (o, ix) ->
     exists ix', m' !! (o1, ix') = Some po1 /\ (ix' = ix1 \/ o1 = o /\ ix1 = plen s o - 1 /\ ix' = ix)) /\
  (forall o1 ix' po1, m' !! (o1, ix') = Some po1 -> exists ix1, st_positions s !! (o1, ix1) = Some po1 /\ (o1, ix1) <> (o, ix) /\
     (ix' = ix1 \/ o1 = o /\ ix1 = plen s o - 1 /\ ix' = ix)) /\
  (forall ix', is_Some (m' !! (o, ix')) -> 0 <= ix' < plen s o - 1) /\ (forall o1 ix', o1 <> o -> m' !! (o1, ix') = st_positions s !! (o1, ix')).
Proof.
  intros P E SR. pose proof (ct_some _ _ P) as CS. pose proof (proj1 (CS _ _) (mk_is_Some _ _ E)) as B. fold (plen s o) in B.
  destruct SR as [(L & last & E2 & ->)|(L & ->)]; (split; [|split; [|split]]).
  - intros o1 ix1 po1 H N. destruct (decide ((o1, ix1) = (o, plen s o - 1))) as [Q|Q].
    + injection Q as -> ->. exists ix. rewrite lookup_insert. split; [congruence|auto].
    + exists ix1. rewrite lookup_insert_ne, lookup_delete_ne by congruence. auto.
  - intros o1 ix' po1 H. destruct (decide ((o, ix) = (o1, ix'))) as [Q|Q].
    + rewrite Q, lookup_insert in H. injection H as <-. injection Q as <- <-. exists (plen s o - 1). split; [done|]. split; [intros [= Q]; lia|]. auto.
    + rewrite lookup_insert_ne in H by done. apply lookup_delete_Some in H. destruct H as [N H]. exists ix'. split; [done|]. split; [congruence|]. auto.
  - intros ix' [x H]. destruct (decide ((o, ix) = (o, ix'))) as [Q|Q]; [injection Q as <-; lia|]. rewrite lookup_insert_ne in H by done.
    apply lookup_delete_Some in H. destruct H as [N H]. pose proof (proj1 (CS _ _) (mk_is_Some _ _ H)) as Z. fold (plen s o) in Z.
    assert (ix' <> plen s o - 1) by congruence. lia.
  - intros o1 ix' N. rewrite lookup_insert_ne, lookup_delete_ne by congruence. done.
  - intros o1 ix1 po1 H N. exists ix1. rewrite lookup_delete_ne by congruence. auto.
  - intros o1 ix' po1 H. apply lookup_delete_Some in H. destruct H as [N H]. exists ix'. split; [done|]. split; [congruence|]. auto.
  - intros ix' [x H]. apply lookup_delete_Some in H. destruct H as [N H]. pose proof (proj1 (CS _ _) (mk_is_Some _ _ H)) as Z. fold (plen s o) in Z.
    assert (ix' <> ix) by congruence. lia.
  - intros o1 ix' N. rewrite lookup_delete_ne by congruence. done.
Qed.
Lemma described_remove e i s m s' o ix po : pos_ok s -> st_positions s !! (o, ix) = Some po -> swap_removed o ix (plen s o - 1) (st_positions s) (st_positions s') ->
  (forall o1 ix1, gives_up i m o1 ix1 <-> o1 = o /\ ix1 = ix) -> (forall t l, approvals_after m t l = l) -> described e i s m s'.
Proof.
  intros P E SR G A. destruct (removed_lookup _ _ _ _ _ P E SR) as (F & B & _). split.
  - intros o1 ix1 po1 H N. destruct (F _ _ _ H) as (ix' & H' & C); [rewrite G in N; intros [= -> ->]; tauto|]. exists ix', po1. split; [done|]. split; [apply same_refl|].
    rewrite A. split; [done|]. destruct C as [->|(-> & -> & ->)]; [auto|]. right. rewrite G. auto.
  - intros o1 ix' po1 H. destruct (B _ _ _ H) as (ix1 & H' & N & C). left. exists ix1, po1. split; [done|]. split; [rewrite G; intros [-> ->]; done|]. split; [apply same_refl|].
    rewrite A. split; [done|]. destruct C as [->|(-> & -> & ->)]; [auto|]. right. rewrite G. auto.
Qed.
Lemma described_move e i s m s' o ix po s1 r : pos_ok s -> remove_position s o ix = Ok (s1, po) -> add_position s1 r (po_set_approvals po []) = Ok s' ->
  (forall o1 ix1, gives_up i m o1 ix1 <-> o1 = o /\ ix1 = ix) -> is_transfer i m o ix r -> (forall t l, approvals_after m t l = l) -> described e i s m s'.
Proof.
  intros P RM AD G T A. pose proof RM as RM'. apply remove_position_inv in RM. destruct RM as (E & P1 & m' & SR & ->).
  apply add_position_inv in AD. destruct AD as [-> _]. destruct (removed_lookup _ _ _ _ _ P E SR) as (F & B & L & O). unfold described. cbn [st_positions set_positions].
  set (s1 := set_positions s m' (<[o := plen s o - 1]> (st_poslen s))) in *. cbn [st_positions set_positions s1].
  assert (NEW : m' !! (r, plen s1 r) = None).
  { assert (PL : plen s1 r = if decide (r = o) then plen s o - 1 else plen s r).
    { unfold plen at 1, get_position_length, s1. cbn. destruct (decide (r = o)) as [->|N]; [by rewrite lookup_insert|by rewrite lookup_insert_ne]. }
    rewrite PL. destruct (m' !! (r, _)) as [x|] eqn:X; [exfalso|done]. destruct (decide (r = o)) as [->|N].
    - pose proof (L _ (mk_is_Some _ _ X)). lia.
    - rewrite (O _ _ N) in X. pose proof (proj1 (ct_some _ _ P _ _) (mk_is_Some _ _ X)) as Z. fold (plen s r) in Z. lia. }
  split.
  - intros o1 ix1 po1 H N. destruct (F _ _ _ H) as (ix' & H' & C); [rewrite G in N; intros [= -> ->]; tauto|]. exists ix', po1. split.
    { rewrite lookup_insert_ne; [done|]. intros Q. rewrite <- Q in H'. congruence. }
    split; [apply same_refl|].
    rewrite A. split; [done|]. destruct C as [->|(-> & -> & ->)]; [auto|]. right. rewrite G. auto.
  - intros o1 ix' po1 H. destruct (decide ((r, plen s1 r) = (o1, ix'))) as [Q|Q].
    + rewrite Q, lookup_insert in H. injection H as <-. injection Q as <- <-. right. left. exists o, ix, po. split; [done|]. split; [done|]. by destruct po.
    + rewrite lookup_insert_ne in H by done. destruct (B _ _ _ H) as (ix1 & H' & N & C). left. exists ix1, po1. split; [done|]. split; [rewrite G; intros [-> ->]; done|]. split; [apply same_refl|].
      rewrite A. split; [done|]. destruct C as [->|(-> & -> & ->)]; [auto|]. right. rewrite G. auto.
Qed.

Ltac nogive := first [done | solve [intros ? ? [? []]] | idtac].
Theorem execute_described e i s m s' ms at' : reachable s -> execute e i s m = Ok (s', ms, at') -> described e i s m s'.
Proof.
  intros R H. apply reachable_ereach in R. pose proof (ereach_pos_ok _ R) as P. pose proof (ereach_indexed _ R) as IX. rename R into RR.
  assert (CR : forall k lo hi liq sl su s' ms at', create_position e i s k lo hi liq sl su = Ok (s', ms, at') -> creates m k lo hi liq -> described e i s m s').
  { clear H s' ms at'. intros k lo hi liq sl su s' ms at' H C. apply create_position_inv in H; [|done].
    destruct H as (p0 & lt & ut & po & p' & lt' & ut' & x & y & bm1 & bm2 & m0 & m1 & HL & HN & Ep & Sl & Su & _ & _ & PC & PL & _ & _ & _ & _ & ->).
    unfold position_create in PC. destruct (_ || _); [done|]. inv_bind PC as [[[[[po1 p1] u1] l1] x1] y1] EM. apply Ok_inj in PC. simplify_eq.
    pose proof (position_modify_liq _ _ _ _ _ _ _ _ _ _ _ _ _ _ EM) as QL. apply position_modify_frame in EM. destruct EM as (_ & _ & _ & _ & _ & _ & _ & _ & _ & K1 & K2 & K3 & K4 & K5).
    cbn in QL, K1, K2, K3, K4, K5. apply stored_or_new_index in Sl, Su; [|done..].
    eapply (described_create _ _ _ _ _ k lo hi liq po); try done; congruence. }
  assert (RM : forall ix s' ms at', remove_position_exec e i s ix = Ok (s', ms, at') -> (forall o1 ix1, gives_up i m o1 ix1 <-> o1 = i_sender i /\ ix1 = ix) ->
     (forall t l, approvals_after m t l = l) -> described e i s m s').
  { clear H s' ms at'. intros ix s' ms at' H G A. apply remove_position_exec_inv in H; [|done].
    destruct H as (po & lt & ut & p0 & po' & p' & lt' & ut' & x & y & dl & du & bm1 & bm2 & m' & Epo & _ & _ & _ & Ep & PC & _ & _ & Iu & Il & _ & _ & SR & ->).
    eapply described_remove; try done. }
  assert (UA : forall a t add x s', update_approvals e i s a t add x = Ok s' ->
     (forall o ix, ~ gives_up i m o ix) -> (forall t' l, approvals_after m t' l = if decide (t = t') then
        List.filter (fun b => negb (String.eqb (ap_spender b) a)) l ++ (if add then [mkApproval a (default Never x)] else []) else l) -> described e i s m s').
  { clear H s' ms at'. intros a t add x s' H G A. unfold update_approvals, get_position_by_key, get_position in H.
    destruct (split_token t) as [[o ix]|] eqn:T; [|done]. destruct (st_positions s !! (o, ix)) as [po|] eqn:E; [|done]. cbn [bind] in H. inv_bind H as [] C.
    inv_bind H as l EL. apply Ok_inj in H. subst s'. apply split_token_inv in T. destruct T as [T B].
    eapply (described_update _ _ _ _ _ o ix po); try done; cbn [st_positions set_positions po_approvals po_set_approvals].
    - rewrite A, decide_True by done. destruct add; [|apply Ok_inj in EL; by rewrite app_nil_r]. destruct (is_expired _ _); [done|]. apply Ok_inj in EL. done.
    - intros o' ix' l' po' N E'. rewrite A, decide_False; [done|]. intros Q. apply N. rewrite <- T in Q.
      assert (Q2 : split_token (position_key_bytes o ix) = split_token (position_key_bytes o' ix')) by congruence.
      rewrite !split_token_round in Q2; [congruence| |done]. eapply token_index; eauto. }
  unfold execute in H. destruct (env_typed e i && msg_typed m) eqn:ET; [|done].
  assert (TN : forall r t s', transfer_nft e i s r t = Ok s' -> (forall o1 ix1 r1, is_transfer i m o1 ix1 r1 <-> split_token t = Some (o1, ix1) /\ r1 = r) ->
    (forall o1 ix1, gives_up i m o1 ix1 <-> exists r, is_transfer i m o1 ix1 r) -> (forall t l, approvals_after m t l = l) -> described e i s m s').
  { clear H s' ms at'. intros r t s' H T G A. apply transfer_nft_moved in H. destruct H as (o & ix & po & s1 & ST & _ & E & E1 & E2).
    eapply described_move; [done|exact E1|exact E2| |by apply T|done]. intros o1 ix1. rewrite G. setoid_rewrite T. split.
    - intros (r1 & Q & _). by simplify_eq.
    - intros [-> ->]. eauto. }
  destruct m; cbn [dispatch] in H.
  - apply described_same; nogive. unfold change_admin in H. rinv H. by simplify_eq.
  - apply described_same; nogive. unfold withdraw_protocol_fee in H. rinv H. by simplify_eq.
  - apply described_same; nogive. unfold change_protocol_fee in H. rinv H. by simplify_eq.
  - apply described_same; nogive. unfold change_fee_receiver in H. rinv H. by simplify_eq.
  - eapply CR; [exact H|]. red. eauto.
  - apply described_same; nogive. unfold swap in H. inv_bind H as [[s1 m1] r] E. apply Ok_inj in H. simplify_eq. apply swap_internal_kept in E; [|done]. apply E.
  - apply described_same; nogive. unfold swap_route in H. inv_bind H as [[s1 m1] r] E. inv_bind H as min EM. destruct (_ <? _); [done|].
    apply Ok_inj in H. simplify_eq. apply swap_route_internal_kept in E; [|done]. apply E.
  - unfold transfer_position, get_position in H. destruct (st_positions s !! (i_sender i, index)) as [po|] eqn:E; [|done]. cbn [bind] in H.
    inv_bind H as [s1 po0] ER. destruct (negb _); [done|]. inv_bind H as s2 EA. apply Ok_inj in H. simplify_eq.
    assert (po0 = po). { apply remove_position_inv in ER. destruct ER as (E' & _). congruence. } subst.
    eapply described_move; [done|exact ER|exact EA| |done|done]. cbn. intros o1 ix1. split; [intros (r & -> & -> & _); done|intros [-> ->]; eauto].
  - apply claim_fee_inv in H; [|done]. destruct H as (po & lt & ut & p0 & po' & p' & lt' & ut' & x & y & Epo & _ & _ & _ & Ep & PC & _ & _ & Iu & Il & ->).
    unfold position_claim_fee in PC. inv_bind PC as [[[[[po1 p1] u1] l1] x1] y1] EM. apply Ok_inj in PC. simplify_eq.
    pose proof (position_modify_liq _ _ _ _ _ _ _ _ _ _ _ _ _ _ EM) as QL. apply position_modify_frame in EM. destruct EM as (_ & _ & _ & _ & _ & _ & _ & _ & _ & K1 & K2 & K3 & K4 & K5).
    eapply described_update; [exact Epo|reflexivity| | | |]; nogive. unfold same_record. cbn. repeat split; try done. rewrite QL. lia.
  - eapply RM; [exact H|done|done].
  - apply described_same; nogive. unfold create_pool in H. rinv H. by simplify_eq.
  - apply described_same; nogive. unfold add_fee_tier in H. rinv H. by simplify_eq.
  - apply described_same; nogive. unfold remove_fee_tier in H. rinv H. by simplify_eq.
  - unfold handle_transfer_nft in H. inv_bind H as s1 E. apply Ok_inj in H. simplify_eq. eapply TN; [exact E|done|done|done].
  - eapply CR; [exact H|]. red. eauto.
  - unfold handle_burn in H. inv_bind H as po EG. destruct (split_token token_id) as [[o ix]|] eqn:T; [|done].
    inv_bind H as [] EC. eapply RM; [exact H| |done]. cbn. rewrite T. intros o1 ix1. split; [intros (-> & a & [= -> ->]); done|intros [-> ->]; eauto].
  - unfold handle_send_nft in H. inv_bind H as s1 E. apply Ok_inj in H. simplify_eq. eapply TN; [exact E|done|done|done].
  - unfold handle_approve in H. inv_bind H as s1 E. apply Ok_inj in H. simplify_eq. eapply UA; [exact E|nogive|done].
  - unfold handle_revoke in H. inv_bind H as s1 E. apply Ok_inj in H. simplify_eq. eapply UA; [exact E|nogive|]. intros t' l. cbn. by rewrite app_nil_r.
  - apply described_same; nogive. unfold handle_approve_all in H. rinv H. by simplify_eq.
  - apply described_same; nogive. unfold handle_revoke_all in H. rinv H. by simplify_eq.
Qed.

(** ** C57: permissions *)
(** An approval found on a token after a call was given to that token's position by this very call, sent by the owner or an unexpired
    operator, or was already there: on the same position of the same owner. *)
Theorem C57_no_unasked_approval e i s m s' ms at' o ix' po' a : reachable s -> execute e i s m = Ok (s', ms, at') ->
  st_positions s' !! (o, ix') = Some po' -> In a (po_approvals po') ->
  (exists x, m = Approve (ap_spender a) (position_key_bytes o ix') x /\ ap_expires a = default Never x /\ (i_sender i = o \/ operator_grant e s o (i_sender i))) \/
  (exists ix po, st_positions s !! (o, ix) = Some po /\ same_record po po' /\ In a (po_approvals po) /\ (ix' = ix \/ (ix = plen s o - 1 /\ gives_up i m o ix'))).
Proof.
  intros R H E I. destruct (execute_described _ _ _ _ _ _ _ R H) as [_ B].
  destruct (B _ _ _ E) as [(ix & po & E0 & NG & SR & AP & IX)|[(o0 & ix0 & po0 & _ & _ & _ & N)|(_ & _ & _ & _ & N)]]; [|rewrite N in I; destruct I..].
  rewrite AP in I. assert (D : In a (po_approvals po) \/ exists x, m = Approve (ap_spender a) (position_key_bytes o ix) x /\ ap_expires a = default Never x).
  { destruct m; cbn [approvals_after] in I; auto; destruct (decide _) as [->|]; auto.
    - apply in_app_iff in I. destruct I as [I|[<-|[]]]; [apply List.filter_In in I; tauto|]. right. cbn. eauto.
    - apply List.filter_In in I. tauto. }
  destruct D as [D|(x & -> & X)]; [right; eauto 10|]. left. destruct IX as [->|(_ & r & [])]. exists x. split; [done|]. split; [done|].
  apply reachable_ereach in R. pose proof (split_token_round o ix (token_index _ _ _ R (mk_is_Some _ _ E0))) as T.
  unfold execute in H. destruct (_ && _); [|done]. cbn [dispatch] in H. unfold handle_approve, update_approvals in H. rewrite T in H.
  inv_bind H as s1 Q. inv_bind Q as p1 Q1. inv_bind Q as [] Q2. by apply check_can_approve_ok in Q2.
Qed.
(** [approve] and [revoke] change the approvals of the named token as asked and nothing else. *)
Theorem C57_approve e i s a t x s' ms at' : reachable s -> execute e i s (Approve a t x) = Ok (s', ms, at') ->
  (exists po, query_nft_info s t = Ok po /\ query_nft_info s' t = Ok (po_set_approvals po
     (List.filter (fun b => negb (String.eqb (ap_spender b) a)) (po_approvals po) ++ [mkApproval a (default Never x)]))) /\
  (forall t', t' <> t -> query_nft_info s' t' = query_nft_info s t') /\ ms = [] /\
  st_config s' = st_config s /\ st_pools s' = st_pools s /\ st_ticks s' = st_ticks s /\ st_bitmap s' = st_bitmap s /\
  st_operators s' = st_operators s /\ st_poslen s' = st_poslen s.
Proof.
  intros R H. unfold execute in H. destruct (_ && _); [|done]. cbn [dispatch] in H. unfold handle_approve in H. inv_bind H as s1 Q. apply Ok_inj in H. injection H as -> <- <-.
  unfold update_approvals in Q. destruct (split_token t) as [[o ix]|] eqn:T; [|done]. inv_bind Q as po Q1. inv_bind Q as [] Q2. inv_bind Q as l Q3. apply Ok_inj in Q. subst s'.
  destruct (is_expired _ _); [done|]. apply Ok_inj in Q3. subst l. unfold query_nft_info. split; [|split; [|done]].
  - exists po. split; [done|]. unfold get_position_by_key, get_position. rewrite T. cbn. by rewrite lookup_insert.
  - intros t' N. unfold get_position_by_key, get_position. destruct (split_token t') as [[o' ix']|] eqn:T'; [|done]. cbn. rewrite lookup_insert_ne; [done|].
    intros Q. apply N. apply split_token_inv in T, T'. destruct T as [<- _], T' as [<- _]. congruence.
Qed.
Theorem C57_revoke e i s a t s' ms at' : reachable s -> execute e i s (Revoke a t) = Ok (s', ms, at') ->
  (exists po, query_nft_info s t = Ok po /\ query_nft_info s' t = Ok (po_set_approvals po
     (List.filter (fun b => negb (String.eqb (ap_spender b) a)) (po_approvals po)))) /\
  (forall t', t' <> t -> query_nft_info s' t' = query_nft_info s t') /\ ms = [] /\
  st_config s' = st_config s /\ st_pools s' = st_pools s /\ st_ticks s' = st_ticks s /\ st_bitmap s' = st_bitmap s /\
  st_operators s' = st_operators s /\ st_poslen s' = st_poslen s.
Proof.
  intros R H. unfold execute in H. destruct (_ && _); [|done]. cbn [dispatch] in H. unfold handle_revoke in H. inv_bind H as s1 Q. apply Ok_inj in H. injection H as -> <- <-.
  unfold update_approvals in Q. destruct (split_token t) as [[o ix]|] eqn:T; [|done]. inv_bind Q as po Q1. inv_bind Q as [] Q2. inv_bind Q as l Q3. apply Ok_inj in Q. subst s'.
  apply Ok_inj in Q3. subst l. unfold query_nft_info. split; [|split; [|done]].
  - exists po. split; [done|]. unfold get_position_by_key, get_position. rewrite T. cbn. by rewrite lookup_insert.
  - intros t' N. unfold get_position_by_key, get_position. destruct (split_token t') as [[o' ix']|] eqn:T'; [|done]. cbn. rewrite lookup_insert_ne; [done|].
    intros Q. apply N. apply split_token_inv in T, T'. destruct T as [<- _], T' as [<- _]. congruence.
Qed.
(** alice's operators and the approvals of alice's first token, through four calls *)
Definition perms (s : store) : list (string * expiration) * res (string * list approval) :=
  (query_all_approvals v_env s "alice" true None None, query_owner_of v_env s (position_key_bytes "alice" 0) true).
Example ex_C57 :
  match (let* '(s1, _, _) := execute v_env (v_info "alice") sc0 (ApproveAll "erin" None) in
         let* '(s2, _, _) := execute v_env (v_info "erin") s1 (Approve "dave" (position_key_bytes "alice" 0) (Some (AtHeight 99))) in
         let* '(s3, _, _) := execute v_env (v_info "alice") s2 (RevokeAll "carol") in
         let* '(s4, _, _) := execute v_env (v_info "erin") s3 (Revoke "dave" (position_key_bytes "alice" 0)) in
         Ok [perms sc0; perms s1; perms s2; perms s3; perms s4]) with
  | Ok l => l = [([("carol", AtHeight 5)], Ok ("alice", [mkApproval "dave" (AtHeight 7)]));
                 ([("carol", AtHeight 5); ("erin", Never)], Ok ("alice", [mkApproval "dave" (AtHeight 7)]));
                 ([("carol", AtHeight 5); ("erin", Never)], Ok ("alice", [mkApproval "dave" (AtHeight 99)]));
                 ([("erin", Never)], Ok ("alice", [mkApproval "dave" (AtHeight 99)]));
                 ([("erin", Never)], Ok ("alice", []))]%string
  | _ => False end.
Proof. vm_compute. reflexivity. Qed.

(** ** C58: token ids *)
(** False in general: a token id does not keep naming the same position.  When alice removes the first position, the untouched second one takes
    over its token id. *)
Theorem C58_token_ids_refuted : exists e i s m s' ms at' t0 t1 po0 po1, reachable s /\ execute e i s m = Ok (s', ms, at') /\
  query_nft_info s t0 = Ok po0 /\ query_nft_info s t1 = Ok po1 /\ po_lower po0 <> po_lower po1 /\
  query_nft_info s' t0 = Ok po1 /\ query_nft_info s' t1 = Err PositionNotFound.
Proof.
  set (t0 := position_key_bytes "alice" 0). set (t1 := position_key_bytes "alice" 1).
  assert (H : match execute v_env (v_info "alice") sc0 (RemovePosition 0), query_nft_info sc0 t0, query_nft_info sc0 t1 with
    | Ok (s', _, _), Ok po0, Ok po1 => po_lower po0 <> po_lower po1 /\ query_nft_info s' t0 = Ok po1 /\ query_nft_info s' t1 = Err PositionNotFound
    | _, _, _ => False end) by (vm_compute; repeat split; discriminate).
  destruct (execute _ _ _ _) as [[[s' ms] at']|?|] eqn:X; [|destruct H|destruct H].
  destruct (query_nft_info sc0 t0) as [po0|?|] eqn:E0; [|destruct H|destruct H].
  destruct (query_nft_info sc0 t1) as [po1|?|] eqn:E1; [|destruct H|destruct H]. destruct H as (A & B & C).
  exists v_env, (v_info "alice"), sc0, (RemovePosition 0), s', ms, at', t0, t1, po0, po1. exact (conj sc0_reachable (conj X (conj E0 (conj E1 (conj A (conj B C)))))).
Qed.
(** The complement: a token that the call does not give up still exists with the same content and owner; its id changes only if it was the owner's
    last and the call gives up another of the owner's positions, whose id it then takes.  In particular a token that is not the owner's last keeps its id. *)
Theorem C58_token_ids_partial e i s m s' ms at' o ix po : reachable s -> execute e i s m = Ok (s', ms, at') ->
  query_nft_info s (position_key_bytes o ix) = Ok po -> 0 <= ix < 2 ^ 32 -> ~ gives_up i m o ix ->
  exists ix' po', 0 <= ix' < 2 ^ 32 /\ query_nft_info s' (position_key_bytes o ix') = Ok po' /\ same_record po po' /\
    (ix' = ix \/ (query_nft_info s (position_key_bytes o (ix + 1)) = Err PositionNotFound /\ gives_up i m o ix')).
Proof.
  intros R H E IX NG. destruct (execute_described _ _ _ _ _ _ _ R H) as [F _]. pose proof (split_token_round o ix IX) as T.
  assert (E0 : st_positions s !! (o, ix) = Some po).
  { unfold query_nft_info, get_position_by_key, get_position in E. rewrite T in E. destruct (st_positions s !! (o, ix)); [|done]. apply Ok_inj in E. congruence. }
  destruct (F _ _ _ E0 NG) as (ix' & po' & E' & SR & _ & C). assert (R' : reachable s') by (eapply reach_call; eassumption).
  apply reachable_ereach in R, R'. pose proof (token_index _ _ _ R' (mk_is_Some _ _ E')) as IX'.
  exists ix', po'. split; [done|]. split; [|split; [done|]].
  - unfold query_nft_info, get_position_by_key, get_position. by rewrite split_token_round, E'.
  - destruct C as [->|[L G]]; [auto|]. right. split; [|done]. pose proof (ct_range _ _ (ereach_pos_ok _ R) o) as CR. pose proof (ct_some _ _ (ereach_pos_ok _ R) o (ix + 1)) as CS. fold (plen s o) in *.
    unfold query_nft_info, get_position_by_key, get_position. rewrite split_token_round by (unfold U32MAX in *; lia).
    destruct (st_positions s !! (o, ix + 1)) as [z|] eqn:Z; [|done]. pose proof (proj1 CS (mk_is_Some _ _ eq_refl)). lia.
Qed.
Example ex_C58 :
  match execute v_env (v_info "dave") sc0 (TransferNft "bob" (position_key_bytes "alice" 0)) with
  | Ok (s', _, _) => map (fun t => let* po := query_nft_info sc0 t in Ok (po_lower po)) [position_key_bytes "alice" 1; position_key_bytes "bob" 0] = [Ok (-20); Ok 10] /\
      map (fun t => let* po := query_nft_info s' t in Ok (po_lower po)) [position_key_bytes "alice" 0; position_key_bytes "alice" 1; position_key_bytes "bob" 0; position_key_bytes "bob" 1]
        = [Ok (-20); Err PositionNotFound; Ok 10; Ok (-10)]
  | _ => False end.
Proof. vm_compute. repeat split. Qed.

(** ** C59: recorded times *)
(** the successful calls that led to a state, latest first *)
Inductive trace : store -> list (env * msg_info * exec_msg) -> Prop :=
| tr_init i f s : instantiate i f = Ok s -> trace s []
| tr_call e i s m s' ms at' l : trace s l -> execute e i s m = Ok (s', ms, at') -> trace s' ((e, i, m) :: l).
Lemma trace_reachable s l : trace s l -> reachable s.
Proof. induction 1; [by eapply reach_init|by eapply reach_call]. Qed.
Lemma reachable_trace s : reachable s -> exists l, trace s l.
Proof. induction 1 as [i f s H|e i s m s' ms at' R [l IH] H]; eexists; [by eapply tr_init|by eapply tr_call]. Qed.

(** A position's recorded height is that of the call that created it, with the pool, range and liquidity it still has, however often it changed hands. *)
Theorem C59_position_height s l o ix po : trace s l -> st_positions s !! (o, ix) = Some po ->
  exists e i m, In (e, i, m) l /\ creates m (po_key po) (po_lower po) (po_upper po) (po_liq po) /\ po_block po = e_height e.
Proof.
  intros T. revert o ix po. induction T as [i f s H|e i s m s' ms at' l T IH H]; intros o ix po E.
  - unfold instantiate in H. by rinv H; simplify_eq.
  - destruct (execute_described _ _ _ _ _ _ _ (trace_reachable _ _ T) H) as [_ B].
    assert (OLD : forall o0 ix0 po0, st_positions s !! (o0, ix0) = Some po0 -> same_record po0 po ->
      exists e0 i0 m0, In (e0, i0, m0) ((e, i, m) :: l) /\ creates m0 (po_key po) (po_lower po) (po_upper po) (po_liq po) /\ po_block po = e_height e0).
    { intros o0 ix0 po0 E0 (-> & -> & -> & -> & ->). destruct (IH _ _ _ E0) as (e0 & i0 & m0 & I & C). exists e0, i0, m0. split; [by right|done]. }
    destruct (B _ _ _ E) as [(ix1 & po1 & E1 & _ & SR & _)|[(o0 & ix0 & po0 & _ & E0 & SR & _)|(_ & _ & C & BL & _)]]; [by eapply OLD..|].
    exists e, i, m. split; [by left|done].
Qed.

Lemma execute_pools e i s m s' ms at' k : ticks_indexed s -> execute e i s m = Ok (s', ms, at') ->
  (forall p, st_pools s !! k = Some p -> exists p', st_pools s' !! k = Some p' /\ p_start p' = p_start p) /\
  (forall p', st_pools s !! k = None -> st_pools s' !! k = Some p' ->
    exists t0 t1 ft price tick, m = CreatePool t0 t1 ft price tick /\ pool_key_new t0 t1 ft = Ok k /\ p_start p' = e_millis e /\ p_price p' = price /\ p_tick p' = tick).
Proof.
  intros IX H. split.
  - pose proof (execute_effects _ _ _ _ _ _ _ H) as EF. clear H. revert IX. induction EF as [s|s s1 s2 m1 m2 H1 H2 IH]; intros IX p E; [eauto|].
    destruct (effect_pool _ _ _ _ _ _ _ IX H1 E) as (p1 & E1 & C1 & _). destruct (IH ltac:(eapply effect_indexed; eassumption) _ E1) as (p2 & E2 & C2). exists p2. split; [done|]. congruence.
  - intros p' N S. unfold execute in H. destruct (env_typed e i && msg_typed m) eqn:ET; [|done].
    assert (INS : forall k0 p0 p1, st_pools s !! k0 = Some p0 -> <[k0 := p1]> (st_pools s) !! k = Some p' -> False).
    { intros k0 p0 p1 E0 S'. rewrite lookup_insert_ne in S' by congruence. congruence. }
    destruct m; cbn [dispatch] in H; lazymatch type of H with create_pool _ _ _ _ _ _ _ = _ => idtac | create_pool _ _ _ _ _ _ = _ => idtac | _ => exfalso end.
    + unfold change_admin in H. rinv H. simplify_eq. cbn in S. congruence.
    + unfold withdraw_protocol_fee, get_pool in H. destruct (st_pools s !! k0) eqn:E; [|done]. cbn [bind] in H. destruct (negb _); [done|]. apply Ok_inj in H. simplify_eq. eapply INS; [exact E|exact S].
    + unfold change_protocol_fee in H. rinv H. simplify_eq. cbn in S. congruence.
    + unfold change_fee_receiver, get_pool in H. destruct (negb _); [done|]. destruct (st_pools s !! k0) eqn:E; [|done]. cbn [bind] in H. apply Ok_inj in H. simplify_eq. eapply INS; [exact E|exact S].
    + apply create_position_inv in H; [|done]. destruct H as (p0 & lt & ut & po & p1 & lt' & ut' & x & y & bm1 & bm2 & m0 & m1 & _ & _ & Ep & _ & _ & _ & _ & _ & _ & _ & _ & _ & _ & ->). eapply INS; [exact Ep|exact S].
    + unfold swap in H. inv_bind H as [[s1 m1] r] E. apply Ok_inj in H. simplify_eq. apply swap_internal_kept in E; [|done]. rewrite (sk_pool' _ _ _ E _ N) in S. done.
    + unfold swap_route in H. inv_bind H as [[s1 m1] r] E. inv_bind H as min EM. destruct (_ <? _); [done|].
      apply Ok_inj in H. simplify_eq. apply swap_route_internal_kept in E; [|done]. rewrite (sk_pool' _ _ _ E _ N) in S. done.
    + unfold transfer_position, get_position in H. destruct (st_positions s !! (i_sender i, index)) as [po|] eqn:E; [|done]. cbn [bind] in H.
      inv_bind H as [s1 po0] ER. destruct (negb _); [done|]. inv_bind H as s2 EA. apply Ok_inj in H. simplify_eq.
      apply remove_position_inv in ER. destruct ER as (_ & _ & m' & _ & ->). apply add_position_inv in EA. destruct EA as [-> _]. cbn in S. congruence.
    + apply claim_fee_inv in H; [|done]. destruct H as (po & lt & ut & p0 & po' & p1 & lt' & ut' & x & y & Epo & _ & _ & _ & Ep & PC & _ & _ & Iu & Il & ->). eapply INS; [exact Ep|exact S].
    + apply remove_position_exec_inv in H; [|done].
      destruct H as (po & lt & ut & p0 & po' & p1 & lt' & ut' & x & y & dl & du & bm1 & bm2 & m' & Epo & _ & _ & _ & Ep & PC & _ & _ & Iu & Il & _ & _ & SR & ->). eapply INS; [exact Ep|exact S].
    + unfold create_pool in H. destruct (bool_decide _) eqn:B; [|done]. cbn in H.
      inv_bind H as [] EC. inv_bind H as k0 EK. inv_bind H as b EB. destruct (st_pools s !! k0) eqn:E; [done|]. inv_bind H as p EP. apply (proj1 (map_err_ok _ _ _)) in EP.
      apply Ok_inj in H. simplify_eq. cbn in S. destruct (decide (k0 = k)) as [->|NK]; [|rewrite lookup_insert_ne in S by done; congruence].
      rewrite lookup_insert in S. injection S as ->. exists token_0, token_1, tier, init_price, init_tick. split; [done|]. split; [done|].
      unfold pool_create in EP. inv_bind EP as ok EO. destruct (negb ok); [done|]. apply Ok_inj in EP. by subst p'.
    + unfold add_fee_tier in H. rinv H. simplify_eq. cbn in S. congruence.
    + unfold remove_fee_tier in H. rinv H. simplify_eq. cbn in S. congruence.
    + unfold handle_transfer_nft in H. inv_bind H as s1 E. apply Ok_inj in H. simplify_eq. apply transfer_nft_moved in E. destruct E as (o & ix & po & s1 & _ & _ & _ & ER & EA).
      apply remove_position_inv in ER. destruct ER as (_ & _ & m' & _ & ->). apply add_position_inv in EA. destruct EA as [-> _]. cbn in S. congruence.
    + apply create_position_inv in H; [|done]. destruct H as (p0 & lt & ut & po & p1 & lt' & ut' & x & y & bm1 & bm2 & m0 & m1 & _ & _ & Ep & _ & _ & _ & _ & _ & _ & _ & _ & _ & _ & ->). eapply INS; [exact Ep|exact S].
    + unfold handle_burn in H. inv_bind H as po0 EG. destruct (split_token token_id) as [[o ix]|]; [|done]. inv_bind H as [] EC. apply remove_position_exec_inv in H; [|done].
      destruct H as (po & lt & ut & p0 & po' & p1 & lt' & ut' & x & y & dl & du & bm1 & bm2 & m' & Epo & _ & _ & _ & Ep & PC & _ & _ & Iu & Il & _ & _ & SR & ->). eapply INS; [exact Ep|exact S].
    + unfold handle_send_nft in H. inv_bind H as s1 E. apply Ok_inj in H. simplify_eq. apply transfer_nft_moved in E. destruct E as (o & ix & po & s1 & _ & _ & _ & ER & EA).
      apply remove_position_inv in ER. destruct ER as (_ & _ & m' & _ & ->). apply add_position_inv in EA. destruct EA as [-> _]. cbn in S. congruence.
    + unfold handle_approve in H. inv_bind H as s1 E. apply Ok_inj in H. simplify_eq.
      unfold update_approvals in E. destruct (split_token token_id) as [[o ix]|]; [|done]. inv_bind E as po EG. inv_bind E as [] EC. inv_bind E as l EL. apply Ok_inj in E. subst. cbn in S. congruence.
    + unfold handle_revoke in H. inv_bind H as s1 E. apply Ok_inj in H. simplify_eq.
      unfold update_approvals in E. destruct (split_token token_id) as [[o ix]|]; [|done]. inv_bind E as po EG. inv_bind E as [] EC. inv_bind E as l EL. apply Ok_inj in E. subst. cbn in S. congruence.
    + unfold handle_approve_all in H. rinv H. simplify_eq. cbn in S. congruence.
    + unfold handle_revoke_all in H. rinv H. simplify_eq. cbn in S. congruence.
Qed.
(** A pool's recorded start is the time of the call that created it. *)
Theorem C59_pool_start s l k p : trace s l -> st_pools s !! k = Some p ->
  exists e i t0 t1 ft price tick, In (e, i, CreatePool t0 t1 ft price tick) l /\ pool_key_new t0 t1 ft = Ok k /\ p_start p = e_millis e.
Proof.
  intros T. revert p. induction T as [i f s H|e i s m s' ms at' l T IH H]; intros p E.
  - unfold instantiate in H. by rinv H; simplify_eq.
  - destruct (execute_pools _ _ _ _ _ _ _ k (ereach_indexed _ (reachable_ereach _ (trace_reachable _ _ T))) H) as [F B].
    destruct (st_pools s !! k) as [p0|] eqn:E0.
    + destruct (F _ eq_refl) as (p' & E' & Q). rewrite E in E'. injection E' as <-.
      destruct (IH _ eq_refl) as (e0 & i0 & t0 & t1 & ft & price & tick & I & K & S). exists e0, i0, t0, t1, ft, price, tick. split; [by right|]. split; [done|]. congruence.
    + destruct (B _ eq_refl E) as (t0 & t1 & ft & price & tick & -> & K & S & _). exists e, i, t0, t1, ft, price, tick. split; [by left|done].
Qed.
(** created at height 42, given to zed at height 50: the record still says 42, and the pool still says when it was created (1000 ms) *)
Example ex_C59 : (exists l, trace sc0 l) /\
  match (let* '(s1, _, _) := execute (env_at 42) (v_info "alice") sc0 (CreatePosition v_key (-10) 20 700000000000 1 MAX_SQRT_PRICE) in
         let* '(s2, _, _) := execute (mkEnv 50 90000000000 "self" 1000 (fun _ => true) (fun _ => true)) (v_info "alice") s1 (TransferPosition 2 "zed") in
         let* po := query_nft_info s2 (position_key_bytes "zed" 0) in let* p := query_pool s2 "tokenx" "tokeny" v_tier in
         Ok (po_block po, po_liq po, po_lower po, po_upper po, p_start p)) with
  | Ok x => x = (42, 700000000000, -10, 20, 1000) | _ => False end.
Proof. split; [exact (reachable_trace _ sc0_reachable)|]. vm_compute. reflexivity. Qed.
