(** What a call can see and what it can change: C72, C73. *)
From Verif Require Import Base Decimal SqrtPrice Clamm Log FeeGrowth Types Tick Pool Position
  Tickmap Keys State Swap Exec Query Tactics Frame Handlers History Basic Vectors Scenario PropTrade.
From stdpp Require Import gmap strings.
From Coq Require Import Lia.
Open Scope Z_scope.

(** the people whose holdings and permissions a call is about *)
Definition concerns (i : msg_info) (m : exec_msg) (a : string) : Prop :=
  match m with
  | CreatePosition _ _ _ _ _ _ | Mint _ _ _ _ _ _ | ClaimFee _ | RemovePosition _
  | ApproveAll _ _ | RevokeAll _ => a = i_sender i
  | TransferPosition _ r => a = i_sender i \/ a = r
  | Approve _ tid _ | Revoke _ tid => exists ix, split_token tid = Some (a, ix)
  | TransferNft r tid | SendNft r tid _ => a = r \/ exists ix, split_token tid = Some (a, ix)
  | Burn tid => a = i_sender i \/ exists ix, split_token tid = Some (a, ix)
  | _ => False
  end.

(** the calls that change the settings of the whole exchange *)
Definition sets_config (m : exec_msg) : Prop :=
  match m with
  | ChangeAdmin _ | ChangeProtocolFee _ | AddFeeTier _ | RemoveFeeTier _ => True
  | _ => False
  end.

Section Local.
Context (K : pool_key -> Prop) (O : string -> Prop).

(** the settings, the pools in [K] with their ticks, and what the people in [O] hold and permit *)
Record agree (s t : store) : Prop := {
  ag_config : st_config t = st_config s;
  ag_pool k : K k -> st_pools t !! k = st_pools s !! k;
  ag_tick k j : K k -> st_ticks t !! (k, j) = st_ticks s !! (k, j);
  ag_chunk k c : K k -> st_bitmap t !! (k, c) = st_bitmap s !! (k, c);
  ag_position a ix : O a -> st_positions t !! (a, ix) = st_positions s !! (a, ix);
  ag_len a : O a -> st_poslen t !! a = st_poslen s !! a;
  ag_operator a b : O a -> st_operators t !! (a, b) = st_operators s !! (a, b)
}.
(** everything else; the settings too if [C] *)
Context (C : Prop).
Record outside (s t : store) : Prop := {
  ou_config : C -> st_config t = st_config s;
  ou_pool k : ~ K k -> st_pools t !! k = st_pools s !! k;
  ou_tick k j : ~ K k -> st_ticks t !! (k, j) = st_ticks s !! (k, j);
  ou_chunk k c : ~ K k -> st_bitmap t !! (k, c) = st_bitmap s !! (k, c);
  ou_position a ix : ~ O a -> st_positions t !! (a, ix) = st_positions s !! (a, ix);
  ou_len a : ~ O a -> st_poslen t !! a = st_poslen s !! a;
  ou_operator a b : ~ O a -> st_operators t !! (a, b) = st_operators s !! (a, b)
}.

Definition both {A B} (R : A -> B -> Prop) (r : res A) (q : res B) : Prop :=
  match r, q with
  | Ok a, Ok b => R a b
  | Err x, Err y => x = y
  | Panic, Panic => True
  | _, _ => False
  end.
Lemma both_bind {A B A' B'} (R : A -> B -> Prop) (Q : A' -> B' -> Prop) r q f g :
  both R r q -> (forall a b, R a b -> both Q (f a) (g b)) -> both Q (bind r f) (bind q g).
Proof. destruct r, q; cbn; intros H F; try done; auto. Qed.
Lemma both_same {A} (R : A -> A -> Prop) r : (forall a, R a a) -> both R r r.
Proof. destruct r; cbn; auto. Qed.
(** the same computation first, on both sides *)
Lemma both_eq {A A' B'} (Q : A' -> B' -> Prop) (r q : res A) f g :
  q = r -> (forall a, r = Ok a -> both Q (f a) (g a)) -> both Q (bind r f) (bind q g).
Proof. intros ->. destruct r; cbn; auto. Qed.

Context (s0 t0 : store).
Definition lk (s t : store) : Prop := agree s t /\ outside s0 s /\ outside t0 t.

Lemma lk_pool s t k p : lk s t -> K k -> lk (save_pool s k p) (save_pool t k p).
Proof.
  intros (A & B & D) H. split_and!; constructor; try apply A; try apply B; try apply D; cbn.
  - intros k' H'. destruct (decide (k' = k)) as [->|N]; [by rewrite !lookup_insert|].
    rewrite !lookup_insert_ne by congruence. by apply A.
  - intros k' H'. rewrite lookup_insert_ne by congruence. by apply B.
  - intros k' H'. rewrite lookup_insert_ne by congruence. by apply D.
Qed.
Lemma lk_tick s t k j x : lk s t -> K k ->
  lk (set_ticks s (<[(k, j) := x]> (st_ticks s))) (set_ticks t (<[(k, j) := x]> (st_ticks t))).
Proof.
  intros (A & B & D) H. split_and!; constructor; try apply A; try apply B; try apply D; cbn.
  - intros k' j' H'. destruct (decide ((k', j') = (k, j))) as [->|N]; [by rewrite !lookup_insert|].
    rewrite !lookup_insert_ne by congruence. by apply A.
  - intros k' j' H'. rewrite lookup_insert_ne by congruence. by apply B.
  - intros k' j' H'. rewrite lookup_insert_ne by congruence. by apply D.
Qed.
Lemma lk_del s t k j : lk s t -> K k ->
  lk (set_ticks s (delete (k, j) (st_ticks s))) (set_ticks t (delete (k, j) (st_ticks t))).
Proof.
  intros (A & B & D) H. split_and!; constructor; try apply A; try apply B; try apply D; cbn.
  - intros k' j' H'. destruct (decide ((k', j') = (k, j))) as [->|N]; [by rewrite !lookup_delete|].
    rewrite !lookup_delete_ne by congruence. by apply A.
  - intros k' j' H'. rewrite lookup_delete_ne by congruence. by apply B.
  - intros k' j' H'. rewrite lookup_delete_ne by congruence. by apply D.
Qed.
Lemma lk_bitmap s t k c v : lk s t -> K k ->
  lk (set_bitmap s (<[(k, c) := v]> (st_bitmap s))) (set_bitmap t (<[(k, c) := v]> (st_bitmap t))).
Proof.
  intros (A & B & D) H. split_and!; constructor; try apply A; try apply B; try apply D; cbn.
  - intros k' j' H'. destruct (decide ((k', j') = (k, c))) as [->|N]; [by rewrite !lookup_insert|].
    rewrite !lookup_insert_ne by congruence. by apply A.
  - intros k' j' H'. rewrite lookup_insert_ne by congruence. by apply B.
  - intros k' j' H'. rewrite lookup_insert_ne by congruence. by apply D.
Qed.
Lemma lk_position s t a ix po : lk s t -> O a ->
  lk (set_positions s (<[(a, ix) := po]> (st_positions s)) (st_poslen s))
     (set_positions t (<[(a, ix) := po]> (st_positions t)) (st_poslen t)).
Proof.
  intros (A & B & D) H. split_and!; constructor; try apply A; try apply B; try apply D; cbn.
  - intros k' j' H'. destruct (decide ((k', j') = (a, ix))) as [->|N]; [by rewrite !lookup_insert|].
    rewrite !lookup_insert_ne by congruence. by apply A.
  - intros k' j' H'. rewrite lookup_insert_ne by congruence. by apply B.
  - intros k' j' H'. rewrite lookup_insert_ne by congruence. by apply D.
Qed.
Lemma lk_drop s t a ix : lk s t -> O a ->
  lk (set_positions s (delete (a, ix) (st_positions s)) (st_poslen s))
     (set_positions t (delete (a, ix) (st_positions t)) (st_poslen t)).
Proof.
  intros (A & B & D) H. split_and!; constructor; try apply A; try apply B; try apply D; cbn.
  - intros k' j' H'. destruct (decide ((k', j') = (a, ix))) as [->|N]; [by rewrite !lookup_delete|].
    rewrite !lookup_delete_ne by congruence. by apply A.
  - intros k' j' H'. rewrite lookup_delete_ne by congruence. by apply B.
  - intros k' j' H'. rewrite lookup_delete_ne by congruence. by apply D.
Qed.
Lemma lk_len s t a n : lk s t -> O a ->
  lk (set_positions s (st_positions s) (<[a := n]> (st_poslen s)))
     (set_positions t (st_positions t) (<[a := n]> (st_poslen t))).
Proof.
  intros (A & B & D) H. split_and!; constructor; try apply A; try apply B; try apply D; cbn.
  - intros k' H'. destruct (decide (k' = a)) as [->|N]; [by rewrite !lookup_insert|].
    rewrite !lookup_insert_ne by congruence. by apply A.
  - intros k' H'. rewrite lookup_insert_ne by congruence. by apply B.
  - intros k' H'. rewrite lookup_insert_ne by congruence. by apply D.
Qed.
Lemma lk_operator s t a b x : lk s t -> O a ->
  lk (set_operators s (<[(a, b) := x]> (st_operators s))) (set_operators t (<[(a, b) := x]> (st_operators t))).
Proof.
  intros (A & B & D) H. split_and!; constructor; try apply A; try apply B; try apply D; cbn.
  - intros k' j' H'. destruct (decide ((k', j') = (a, b))) as [->|N]; [by rewrite !lookup_insert|].
    rewrite !lookup_insert_ne by congruence. by apply A.
  - intros k' j' H'. rewrite lookup_insert_ne by congruence. by apply B.
  - intros k' j' H'. rewrite lookup_insert_ne by congruence. by apply D.
Qed.
Lemma lk_operator_del s t a b : lk s t -> O a ->
  lk (set_operators s (delete (a, b) (st_operators s))) (set_operators t (delete (a, b) (st_operators t))).
Proof.
  intros (A & B & D) H. split_and!; constructor; try apply A; try apply B; try apply D; cbn.
  - intros k' j' H'. destruct (decide ((k', j') = (a, b))) as [->|N]; [by rewrite !lookup_delete|].
    rewrite !lookup_delete_ne by congruence. by apply A.
  - intros k' j' H'. rewrite lookup_delete_ne by congruence. by apply B.
  - intros k' j' H'. rewrite lookup_delete_ne by congruence. by apply D.
Qed.
Lemma lk_config s t c : lk s t -> ~ C -> lk (set_config s c) (set_config t c).
Proof. intros (A & B & D) N. split_and!; constructor; try apply A; try apply B; try apply D; done. Qed.

Lemma lk_view s t k : lk s t -> K k -> same_view k s t.
Proof.
  intros (A & _) H. constructor; [by apply A|intros; by apply A|intros; by apply A|].
  by rewrite (ag_config _ _ A).
Qed.
Lemma lk_get_pool s t k : lk s t -> K k -> get_pool t k = get_pool s k.
Proof. intros (A & _) H. unfold get_pool. by rewrite (ag_pool _ _ A). Qed.
Lemma lk_get_tick s t k j : lk s t -> K k -> get_tick t k j = get_tick s k j.
Proof. intros (A & _) H. unfold get_tick. by rewrite (ag_tick _ _ A). Qed.
Lemma lk_get_position s t a ix : lk s t -> O a -> get_position t a ix = get_position s a ix.
Proof. intros (A & _) H. unfold get_position. by rewrite (ag_position _ _ A). Qed.

Lemma lk_update_tick s t k j x : lk s t -> K k -> both lk (update_tick s k j x) (update_tick t k j x).
Proof.
  intros L H. unfold update_tick. rewrite (ag_tick _ _ (proj1 L) k j H). destruct (st_ticks s !! (k, j)); cbn; [|done].
  by apply lk_tick.
Qed.
Lemma lk_add_tick s t k j x : lk s t -> K k -> both lk (add_tick s k j x) (add_tick t k j x).
Proof.
  intros L H. unfold add_tick. rewrite (ag_tick _ _ (proj1 L) k j H). destruct (st_ticks s !! (k, j)); cbn; [done|].
  by apply lk_tick.
Qed.
Lemma lk_remove_tick s t k j : lk s t -> K k -> both lk (remove_tick s k j) (remove_tick t k j).
Proof.
  intros L H. unfold remove_tick. rewrite (ag_tick _ _ (proj1 L) k j H). destruct (st_ticks s !! (k, j)); cbn; [|done].
  by apply lk_del.
Qed.
Lemma lk_flip s t v j sp k : lk s t -> K k -> both lk (flip_bitmap s v j sp k) (flip_bitmap t v j sp k).
Proof.
  intros L H. unfold flip_bitmap. apply both_eq; [done|]. intros [c b] _.
  rewrite (view_chunk k s t c (lk_view _ _ _ L H)). destruct (negb _); cbn; [done|]. by apply lk_bitmap.
Qed.
Definition lk2 {A} (p q : store * A) : Prop := lk (fst p) (fst q) /\ snd p = snd q.
Lemma lk_create_tick s t now k j : lk s t -> K k ->
  both lk2 (create_tick s now k j) (create_tick t now k j).
Proof.
  intros L H. unfold create_tick. apply both_eq; [done|]. intros _ _. apply both_eq; [by apply lk_get_pool|].
  intros p _. apply both_eq; [done|]. intros x _. eapply both_bind; [by apply lk_add_tick|]. intros s1 t1 L1.
  eapply both_bind; [by apply lk_flip|]. intros s2 t2 L2. done.
Qed.
Lemma lk_get_or_create s t now k j : lk s t -> K k ->
  both lk2 (get_or_create_tick s now k j) (get_or_create_tick t now k j).
Proof.
  intros L H. unfold get_or_create_tick. rewrite (lk_get_tick _ _ _ _ L H).
  destruct (get_tick s k j); [done|by apply lk_create_tick|by apply lk_create_tick].
Qed.
Lemma lk_add_position s t a po : lk s t -> O a -> both lk (add_position s a po) (add_position t a po).
Proof.
  intros L H. unfold add_position, get_position_length. rewrite (ag_len _ _ (proj1 L) a H). apply both_eq; [done|].
  intros n _. cbn. exact (lk_len _ _ a n (lk_position _ _ a _ po L H) H).
Qed.
Lemma lk_update_position s t a ix po : lk s t -> O a -> both lk (update_position s a ix po) (update_position t a ix po).
Proof.
  intros L H. unfold update_position, get_position_length. rewrite (ag_len _ _ (proj1 L) a H).
  destruct (_ <=? _); [done|]. by apply lk_position.
Qed.
Lemma lk_remove_position s t a ix : lk s t -> O a -> both lk2 (remove_position s a ix) (remove_position t a ix).
Proof.
  intros L H. unfold remove_position, get_position_length. rewrite (ag_len _ _ (proj1 L) a H). apply both_eq; [done|].
  intros n _. rewrite !(ag_position _ _ (proj1 L) a _ H). destruct (st_positions s !! (a, ix)) as [po|]; [|done].
  destruct (ix <? n).
  - destruct (st_positions s !! (a, n)) as [la|]; cbn; [|done]. split; [|done].
    exact (lk_len _ _ a n (lk_position _ _ a ix la (lk_drop _ _ a n L H) H) H).
  - cbn. split; [|done]. exact (lk_len _ _ a n (lk_drop _ _ a ix L H) H).
Qed.
Lemma lk_update_ticks k : K k -> forall l s t, lk s t -> both lk (update_ticks s k l) (update_ticks t k l).
Proof.
  intros H l. induction l as [|x l IH]; intros s t L; cbn [update_ticks]; [done|].
  eapply both_bind; [by apply lk_update_tick|]. auto.
Qed.
Lemma lk_remove_flip s t k x : lk s t -> K k ->
  both lk (remove_tick_and_flip_bitmap s k x) (remove_tick_and_flip_bitmap t k x).
Proof.
  intros L H. unfold remove_tick_and_flip_bitmap. destruct (negb _); [done|].
  eapply both_bind; [by apply lk_flip|]. intros. by apply lk_remove_tick.
Qed.

Definition lk3 {A B} (p q : store * A * B) : Prop :=
  lk (fst (fst p)) (fst (fst q)) /\ snd (fst p) = snd (fst q) /\ snd p = snd q.

Lemma lk_swap_internal e i s t k d a b lim : lk s t -> K k ->
  both lk3 (swap_internal e i s k d a b lim) (swap_internal e i t k d a b lim).
Proof.
  intros L H. unfold swap_internal. apply both_eq; [by apply view_calc, lk_view|]. intros r _.
  eapply both_bind; [by apply lk_update_ticks|]. intros s1 t1 L1. destruct d; (apply both_eq; [done|]); intros m _;
    (split_and!; [by apply lk_pool|done|done]).
Qed.
Lemma lk_route e i hops : (forall h, In h hops -> K (hop_key h)) -> forall s t a, lk s t ->
  both lk3 (swap_route_internal e i s a hops) (swap_route_internal e i t a hops).
Proof.
  induction hops as [|h hops IH]; intros H s t a L; cbn [swap_route_internal]; [done|].
  eapply both_bind; [apply lk_swap_internal; [exact L|apply H; by left]|].
  intros [[s1 m1] r1] [[t1 n1] q1] (L1 & E1 & E2). cbn in E1, E2. subst.
  eapply both_bind; [apply IH; [intros; apply H; by right|exact L1]|].
  intros [[s2 m2] r2] [[t2 n2] q2] (L2 & E1 & E2). cbn in E1, E2. subst. done.
Qed.
Lemma lk_create_position e i s t k l u q sl su : lk s t -> K k -> O (i_sender i) ->
  both lk3 (create_position e i s k l u q sl su) (create_position e i t k l u q sl su).
Proof.
  intros L H HO. unfold create_position. destruct (q =? 0); [done|]. destruct (l =? u); [done|].
  apply both_eq; [by rewrite (lk_get_pool _ _ _ L H)|]. intros p _.
  eapply both_bind; [by apply lk_get_or_create|]. intros [s1 x1] [t1 y1] (L1 & E1). cbn in E1. subst.
  eapply both_bind; [by apply lk_get_or_create|]. intros [s2 x2] [t2 y2] (L2 & E2). cbn in E2. subst.
  apply both_eq; [done|]. intros [[[[[po p'] lt] ut] x] y] _.
  eapply both_bind; [apply lk_add_position; [by apply lk_pool|exact HO]|]. intros s3 t3 L3.
  eapply both_bind; [by apply lk_update_tick|]. intros s4 t4 L4.
  eapply both_bind; [by apply lk_update_tick|]. intros s5 t5 L5.
  apply both_eq; [done|]. intros m0 _. apply both_eq; [done|]. intros m1 _. done.
Qed.
Lemma lk_remove e i s t ix : lk s t -> (forall po, st_positions s !! (i_sender i, ix) = Some po -> K (po_key po)) ->
  O (i_sender i) -> both lk3 (remove_position_exec e i s ix) (remove_position_exec e i t ix).
Proof.
  intros L H HO. unfold remove_position_exec. apply both_eq; [by apply lk_get_position|]. intros po EP.
  assert (HK : K (po_key po)). { unfold get_position in EP. destruct (st_positions s !! _) eqn:E; [|done]. apply Ok_inj in EP. subst. auto. }
  apply both_eq; [by apply lk_get_tick|]. intros lt _. apply both_eq; [by apply lk_get_tick|]. intros ut _.
  apply both_eq; [by apply lk_get_pool|]. intros p _. apply both_eq; [done|].
  intros [[[[[[[po' p'] lt'] ut'] x] y] dl] du] _.
  eapply (both_bind lk); [destruct dl; [apply lk_remove_flip|apply lk_update_tick]; try apply lk_pool; done|]. intros s1 t1 L1.
  eapply (both_bind lk); [destruct du; [apply lk_remove_flip|apply lk_update_tick]; done|]. intros s2 t2 L2.
  eapply both_bind; [by apply lk_remove_position|]. intros [s3 r3] [t3 q3] (L3 & E3). cbn in E3. subst. done.
Qed.
Lemma lk_by_key s t tid : lk s t -> (forall a ix, split_token tid = Some (a, ix) -> O a) ->
  get_position_by_key t tid = get_position_by_key s tid.
Proof.
  intros L H. unfold get_position_by_key. destruct (split_token tid) as [[a ix]|] eqn:E; [|done].
  apply lk_get_position; eauto.
Qed.
Lemma lk_can_send e i s t a po : lk s t -> O a -> check_can_send e i t a po = check_can_send e i s a po.
Proof. intros L H. unfold check_can_send. by rewrite (ag_operator _ _ (proj1 L) _ _ H). Qed.
Lemma lk_can_approve e i s t a : lk s t -> O a -> check_can_approve e i t a = check_can_approve e i s a.
Proof. intros L H. unfold check_can_approve. by rewrite (ag_operator _ _ (proj1 L) _ _ H). Qed.
Lemma lk_transfer_nft e i s t r tid : lk s t -> O r -> (forall a ix, split_token tid = Some (a, ix) -> O a) ->
  both lk (transfer_nft e i s r tid) (transfer_nft e i t r tid).
Proof.
  intros L HR H. unfold transfer_nft. destruct (split_token tid) as [[a ix]|] eqn:E; [|done].
  destruct (negb _); [done|]. apply both_eq; [apply lk_by_key; [done|]; rewrite E; done|]. intros po _.
  apply both_eq; [apply lk_can_send; eauto|]. intros _ _.
  eapply both_bind; [apply lk_remove_position; eauto|]. intros [s1 p1] [t1 q1] (L1 & _).
  by apply lk_add_position.
Qed.
Lemma lk_approvals e i s t sp tid add x : lk s t -> (forall a ix, split_token tid = Some (a, ix) -> O a) ->
  both lk (update_approvals e i s sp tid add x) (update_approvals e i t sp tid add x).
Proof.
  intros L H. unfold update_approvals. destruct (split_token tid) as [[a ix]|] eqn:E; [|done].
  apply both_eq; [apply lk_by_key; [done|]; rewrite E; done|]. intros po _.
  apply both_eq; [apply lk_can_approve; eauto|]. intros _ _. apply both_eq; [done|]. intros l _.
  apply lk_position; eauto.
Qed.

Lemma lk_dispatch e i s t m : lk s t -> (forall k, touches i s m k -> K k) -> (forall a, concerns i m a -> O a) ->
  (C -> ~ sets_config m) -> both lk3 (dispatch e i s m) (dispatch e i t m).
Proof.
  intros L HK HO HC. pose proof (ag_config _ _ (proj1 L)) as CF.
  destruct m; cbn [dispatch touches concerns sets_config] in *.
  - unfold change_admin. rewrite CF. destruct (negb _); [done|]. split_and!; [apply lk_config; tauto|done|done].
  - unfold withdraw_protocol_fee. apply both_eq; [apply lk_get_pool; auto|]. intros p _. destruct (negb _); [done|].
    split_and!; [apply lk_pool; auto|done|done].
  - unfold change_protocol_fee. rewrite CF. destruct (negb _); [done|]. split_and!; [apply lk_config; tauto|done|done].
  - unfold change_fee_receiver. rewrite CF. destruct (negb _); [done|].
    apply both_eq; [apply lk_get_pool; auto|]. intros p _. split_and!; [apply lk_pool; auto|done|done].
  - apply lk_create_position; auto.
  - unfold swap. eapply both_bind; [apply lk_swap_internal; auto|].
    intros [[s1 m1] r1] [[t1 n1] q1] (L1 & E1 & E2). cbn in E1, E2. subst. done.
  - unfold swap_route. eapply both_bind; [apply lk_route; [|exact L]; intros; apply HK; eauto|].
    intros [[s1 m1] r1] [[t1 n1] q1] (L1 & E1 & E2). cbn in E1, E2. subst.
    apply both_eq; [done|]. intros mn _. destruct (_ <? _); done.
  - unfold transfer_position. apply both_eq; [apply lk_get_position; auto|]. intros po _.
    eapply both_bind; [apply lk_remove_position; auto|]. intros [s1 p1] [t1 q1] (L1 & _).
    destruct (negb _); [done|]. eapply both_bind; [apply lk_add_position; auto|]. intros s2 t2 L2. done.
  - unfold claim_fee. apply both_eq; [apply lk_get_position; auto|]. intros po EP.
    assert (HK' : K (po_key po)). { unfold get_position in EP. destruct (st_positions s !! _) eqn:E; [|done]. apply Ok_inj in EP. subst. apply HK. eauto. }
    apply both_eq; [by apply lk_get_tick|]. intros lt _. apply both_eq; [by apply lk_get_tick|]. intros ut _.
    apply both_eq; [by apply lk_get_pool|]. intros p _. apply both_eq; [done|].
    intros [[[[[po' p'] ut'] lt'] x] y] _.
    eapply both_bind; [apply lk_update_position; auto|]. intros s1 t1 L1.
    eapply both_bind; [apply lk_update_tick; [by apply lk_pool|done]|]. intros s2 t2 L2.
    eapply both_bind; [by apply lk_update_tick|]. intros s3 t3 L3. done.
  - apply lk_remove; auto. intros po E. apply HK. eauto.
  - unfold create_pool. rewrite CF. destruct (negb _); [done|]. apply both_eq; [done|]. intros _ _.
    apply both_eq; [done|]. intros k EK. apply both_eq; [done|]. intros _ _.
    assert (HK' : K k). { apply HK. unfold pool_key_new in EK. destruct (String.eqb _ _); [done|].
      destruct (String.ltb _ _); apply Ok_inj in EK; subst; cbn; auto. }
    rewrite (ag_pool _ _ (proj1 L) k HK'). destruct (st_pools s !! k); [done|].
    apply both_eq; [done|]. intros p _. split_and!; [by apply lk_pool|done|done].
  - unfold add_fee_tier. rewrite CF. destruct (negb _); [done|]. destruct (_ || _); [done|]. destruct (_ <=? _); [done|].
    split_and!; [apply lk_config; tauto|done|done].
  - unfold remove_fee_tier. rewrite CF. destruct (negb _); [done|]. destruct (remove_first _ _); [|done].
    split_and!; [apply lk_config; tauto|done|done].
  - unfold handle_transfer_nft. eapply both_bind; [apply lk_transfer_nft; [exact L|auto|]; intros; apply HO; eauto|]. intros s1 t1 L1. done.
  - apply lk_create_position; auto.
  - unfold handle_burn. apply both_eq; [apply lk_by_key; [done|]; intros; apply HO; eauto|]. intros po _.
    destruct (split_token _) as [[a ix]|] eqn:E; [|done].
    apply both_eq; [apply lk_can_send; [done|]; apply HO; eauto|]. intros _ _.
    apply lk_remove; [done| |auto]. intros po' E'. apply HK. eauto 10.
  - unfold handle_send_nft. eapply both_bind; [apply lk_transfer_nft; [exact L|auto|]; intros; apply HO; eauto|]. intros s1 t1 L1. done.
  - unfold handle_approve. eapply both_bind; [apply lk_approvals; [exact L|]; intros; apply HO; eauto|]. intros s1 t1 L1. done.
  - unfold handle_revoke. eapply both_bind; [apply lk_approvals; [exact L|]; intros; apply HO; eauto|]. intros s1 t1 L1. done.
  - unfold handle_approve_all. destruct (is_expired _ _); [done|]. split_and!; [apply lk_operator; auto|done|done].
  - unfold handle_revoke_all. split_and!; [apply lk_operator_del; auto|done|done].
Qed.
End Local.

Lemma agree_refl K O s : agree K O s s.
Proof. by constructor. Qed.
Lemma outside_refl K O C s : outside K O C s s.
Proof. by constructor. Qed.
Lemma agree_sym K O s t : agree K O s t -> agree K O t s.
Proof. intros []. constructor; intros; symmetry; auto. Qed.
Lemma agree_trans K O s t u : agree K O s t -> agree K O t u -> agree K O s u.
Proof. intros A B. constructor; intros; (etrans; [by apply B|by apply A]). Qed.

(** a call changes nothing outside the pools it touches and the people it concerns; there is no
    condition on the state *)
Theorem C72_changes_only e i s m s' ms at' :
  execute e i s m = Ok (s', ms, at') ->
  outside (touches i s m) (concerns i m) (~ sets_config m) s s'.
Proof.
  unfold execute. destruct (env_typed e i && msg_typed m); [|done]. intros H.
  pose proof (lk_dispatch (touches i s m) (concerns i m) (~ sets_config m) s s e i s s m) as L. rewrite H in L. cbn in L.
  destruct L as ((_ & L & _) & _); [|done|done|done|exact L].
  split_and!; [apply agree_refl|apply outside_refl|apply outside_refl].
Qed.

(** and what it answers, charges, pays and changes there is determined by the settings, these pools
    and what these people hold and permit *)
Theorem C72_depends_only e i m s t (K : pool_key -> Prop) (O : string -> Prop) :
  (forall k, touches i s m k -> K k) -> (forall a, concerns i m a -> O a) -> agree K O s t ->
  match execute e i s m, execute e i t m with
  | Ok (s', ms, at'), Ok (t', ms', at'') => ms' = ms /\ at'' = at' /\ agree K O s' t'
  | Err x, Err y => x = y
  | Panic, Panic => True
  | _, _ => False
  end.
Proof.
  intros HK HO A. unfold execute. destruct (env_typed e i && msg_typed m); [|done].
  pose proof (lk_dispatch K O False s t e i s t m) as L. unfold both in L.
  assert (X : lk K O False s t s t) by (split_and!; [exact A|apply outside_refl|apply outside_refl]).
  specialize (L X HK HO (False_ind _)).
  destruct (dispatch e i s m) as [[[s' ms] at']| |], (dispatch e i t m) as [[[t' ms'] at'']| |]; try done.
  destruct L as ((L & _) & E1 & E2). cbn in E1, E2. done.
Qed.

(** * C73: calls about different pools and different people do not interfere *)
Lemma touches_dec i s m k : touches i s m k \/ ~ touches i s m k.
Proof.
  assert (P : forall a ix, (exists po, st_positions s !! (a, ix) = Some po /\ po_key po = k) \/
                           ~ exists po, st_positions s !! (a, ix) = Some po /\ po_key po = k).
  { intros a ix. destruct (st_positions s !! (a, ix)) as [po|]; [|right; intros (q & Q & _); done].
    destruct (decide (po_key po = k)); [left; eauto|right; intros (q & Q & Q'); congruence]. }
  destruct m; cbn [touches]; auto; try (match goal with |- ?a = ?b \/ _ => destruct (decide (a = b)); auto end).
  - induction swaps as [|h l IH]; [right; intros (h & [] & _)|].
    destruct (decide (hop_key h = k)); [left; exists h; split; [by left|done]|].
    destruct IH as [(h' & I & E)|IH]; [left; exists h'; split; [by right|done]|].
    right. intros (h' & [->|I] & E); [done|]. apply IH. eauto.
  - destruct (decide (pk_tier k = tier)); [|tauto]. destruct (decide (pk_x k = token_0)), (decide (pk_y k = token_1)),
      (decide (pk_x k = token_1)), (decide (pk_y k = token_0)); tauto.
  - destruct (split_token token_id) as [[o ix]|]; [|right; intros (? & ? & ? & ? & _); done].
    destruct (P (i_sender i) ix) as [(po & Q)|Q]; [left; eauto 10|]. right. intros (o' & ix' & po & E & Q'). simplify_eq. eauto.
Qed.
Lemma concerns_dec i m a : concerns i m a \/ ~ concerns i m a.
Proof.
  assert (P : forall tid, (exists ix, split_token tid = Some (a, ix)) \/ ~ exists ix, split_token tid = Some (a, ix)).
  { intros tid. destruct (split_token tid) as [[o ix]|]; [|right; intros (? & ?); done].
    destruct (decide (o = a)) as [->|N]; [left; eauto|right; intros (ix' & Q); congruence]. }
  assert (E : forall b, a = b \/ a <> b) by (intros b; destruct (decide (a = b)); auto).
  destruct m; cbn [concerns]; auto; try (destruct (P token_id); auto); try (destruct (E (i_sender i)); auto);
    try (match goal with |- context [a = ?b] => destruct (E b); tauto end); try tauto.
Qed.

(** nothing that happens elsewhere in the meantime makes a difference: any number of calls by
    anybody that avoid the pools in [K] and the people in [O] and leave the settings alone *)
Inductive elsewhere (K : pool_key -> Prop) (O : string -> Prop) (s : store) : store -> Prop :=
| el_none : elsewhere K O s s
| el_call e i m s1 s2 ms at' :
    elsewhere K O s s1 -> execute e i s1 m = Ok (s2, ms, at') -> ~ sets_config m ->
    (forall k, touches i s1 m k -> ~ K k) -> (forall a, concerns i m a -> ~ O a) ->
    elsewhere K O s s2.
Lemma elsewhere_agree K O s t : elsewhere K O s t -> agree K O s t.
Proof.
  induction 1 as [|e i m s1 s2 ms at' _ IH H NC NK NO]; [apply agree_refl|].
  eapply agree_trans; [exact IH|]. apply C72_changes_only in H. constructor; intros.
  - by apply H. - apply H. intros Q. by eapply NK. - apply H. intros Q. by eapply NK.
  - apply H. intros Q. by eapply NK. - apply H. intros Q. by eapply NO. - apply H. intros Q. by eapply NO.
  - apply H. intros Q. by eapply NO.
Qed.
Theorem C73_undisturbed e i m s t (K : pool_key -> Prop) (O : string -> Prop) :
  (forall k, touches i s m k -> K k) -> (forall a, concerns i m a -> O a) -> elsewhere K O s t ->
  match execute e i s m, execute e i t m with
  | Ok (s', ms, at'), Ok (t', ms', at'') => ms' = ms /\ at'' = at' /\ agree K O s' t'
  | Err x, Err y => x = y
  | Panic, Panic => True
  | _, _ => False
  end.
Proof. intros HK HO H. apply C72_depends_only; [done|done|by apply elsewhere_agree]. Qed.

Lemma touches_agree i m s t (O : string -> Prop) k : (forall a, concerns i m a -> O a) ->
  (forall a ix, O a -> st_positions t !! (a, ix) = st_positions s !! (a, ix)) ->
  touches i s m k <-> touches i t m k.
Proof.
  intros HO A. destruct m; cbn [touches concerns] in *; try done.
  - rewrite A by auto. done.
  - rewrite A by auto. done.
  - split; intros (o & ix & po & E & Q & Q'); exists o, ix, po; (split; [done|]); (split; [|done]);
      [rewrite A by auto|rewrite <- A by auto]; done.
Qed.

(** two such calls can be exchanged: same answers, same transfers, same final state *)
Theorem C73_commute e1 i1 m1 e2 i2 m2 s s1 s2 ms1 at1 ms2 at2 :
  execute e1 i1 s m1 = Ok (s1, ms1, at1) -> execute e2 i2 s1 m2 = Ok (s2, ms2, at2) ->
  ~ sets_config m1 -> ~ sets_config m2 ->
  (forall k, touches i1 s m1 k -> ~ touches i2 s m2 k) ->
  (forall a, concerns i1 m1 a -> ~ concerns i2 m2 a) ->
  exists t1, execute e2 i2 s m2 = Ok (t1, ms2, at2) /\ execute e1 i1 t1 m1 = Ok (s2, ms1, at1).
Proof.
  intros H1 H2 N1 N2 DK DO.
  pose proof (C72_changes_only _ _ _ _ _ _ _ H1) as F1.
  assert (A1 : agree (touches i2 s m2) (concerns i2 m2) s s1).
  { constructor; intros; apply F1; try done; intros Q; [by eapply DK|by eapply DK|by eapply DK|by eapply DO|by eapply DO|by eapply DO]. }
  pose proof (C72_depends_only e2 i2 m2 s s1 _ _ (fun k h => h) (fun a h => h) A1) as D2. rewrite H2 in D2.
  destruct (execute e2 i2 s m2) as [[[t1 ms2'] at2']| |] eqn:H3; [|done|done]. destruct D2 as (-> & -> & B2).
  exists t1. split; [done|].
  pose proof (C72_changes_only _ _ _ _ _ _ _ H3) as F2.
  assert (A2 : agree (touches i1 s m1) (concerns i1 m1) s t1).
  { constructor; intros; apply F2; try done; intros Q; [by eapply DK|by eapply DK|by eapply DK|by eapply DO|by eapply DO|by eapply DO]. }
  pose proof (C72_depends_only e1 i1 m1 s t1 _ _ (fun k h => h) (fun a h => h) A2) as D1. rewrite H1 in D1.
  destruct (execute e1 i1 t1 m1) as [[[t2 ms1'] at1']| |] eqn:H4; [|done|done]. destruct D1 as (-> & -> & B1).
  enough (t2 = s2) as -> by done.
  (* the second calls of both orders touch what the first calls of the other touch *)
  assert (T2 : forall k, touches i2 s m2 k <-> touches i2 s1 m2 k).
  { intros k. eapply touches_agree; [intros a h; exact h|]. intros. by apply A1. }
  assert (T1 : forall k, touches i1 s m1 k <-> touches i1 t1 m1 k).
  { intros k. eapply touches_agree; [intros a h; exact h|]. intros. by apply A2. }
  pose proof (C72_changes_only _ _ _ _ _ _ _ H2) as G2. pose proof (C72_changes_only _ _ _ _ _ _ _ H4) as G1.
  assert (CF : st_config t2 = st_config s2).
  { rewrite (ou_config _ _ _ _ _ G1 N1), (ou_config _ _ _ _ _ F2 N2), (ou_config _ _ _ _ _ G2 N2), (ou_config _ _ _ _ _ F1 N1). done. }
  destruct t2 as [c2 pl2 tk2 bm2 po2 ln2 op2], s2 as [c2' pl2' tk2' bm2' po2' ln2' op2']; cbn in CF. subst c2'.
  f_equal; apply map_eq.
  - intros k. destruct (touches_dec i1 s m1 k) as [Q1|Q1]; [|destruct (touches_dec i2 s m2 k) as [Q2|Q2]].
    + etrans; [exact (ag_pool _ _ _ _ B1 k Q1)|]. symmetry. apply (ou_pool _ _ _ _ _ G2). rewrite <- T2. by apply DK.
    + etrans; [apply (ou_pool _ _ _ _ _ G1); rewrite <- T1; done|]. symmetry. exact (ag_pool _ _ _ _ B2 k Q2).
    + etrans; [apply (ou_pool _ _ _ _ _ G1); rewrite <- T1; done|]. etrans; [by apply (ou_pool _ _ _ _ _ F2)|].
      symmetry. etrans; [apply (ou_pool _ _ _ _ _ G2); rewrite <- T2; done|]. by apply (ou_pool _ _ _ _ _ F1).
  - intros [k j]. destruct (touches_dec i1 s m1 k) as [Q1|Q1]; [|destruct (touches_dec i2 s m2 k) as [Q2|Q2]].
    + etrans; [exact (ag_tick _ _ _ _ B1 k j Q1)|]. symmetry. apply (ou_tick _ _ _ _ _ G2). rewrite <- T2. by apply DK.
    + etrans; [apply (ou_tick _ _ _ _ _ G1); rewrite <- T1; done|]. symmetry. exact (ag_tick _ _ _ _ B2 k j Q2).
    + etrans; [apply (ou_tick _ _ _ _ _ G1); rewrite <- T1; done|]. etrans; [by apply (ou_tick _ _ _ _ _ F2)|].
      symmetry. etrans; [apply (ou_tick _ _ _ _ _ G2); rewrite <- T2; done|]. by apply (ou_tick _ _ _ _ _ F1).
  - intros [k j]. destruct (touches_dec i1 s m1 k) as [Q1|Q1]; [|destruct (touches_dec i2 s m2 k) as [Q2|Q2]].
    + etrans; [exact (ag_chunk _ _ _ _ B1 k j Q1)|]. symmetry. apply (ou_chunk _ _ _ _ _ G2). rewrite <- T2. by apply DK.
    + etrans; [apply (ou_chunk _ _ _ _ _ G1); rewrite <- T1; done|]. symmetry. exact (ag_chunk _ _ _ _ B2 k j Q2).
    + etrans; [apply (ou_chunk _ _ _ _ _ G1); rewrite <- T1; done|]. etrans; [by apply (ou_chunk _ _ _ _ _ F2)|].
      symmetry. etrans; [apply (ou_chunk _ _ _ _ _ G2); rewrite <- T2; done|]. by apply (ou_chunk _ _ _ _ _ F1).
  - intros [a j]. destruct (concerns_dec i1 m1 a) as [Q1|Q1]; [|destruct (concerns_dec i2 m2 a) as [Q2|Q2]].
    + etrans; [exact (ag_position _ _ _ _ B1 a j Q1)|]. symmetry. apply (ou_position _ _ _ _ _ G2). by apply DO.
    + etrans; [by apply (ou_position _ _ _ _ _ G1)|]. symmetry. exact (ag_position _ _ _ _ B2 a j Q2).
    + etrans; [by apply (ou_position _ _ _ _ _ G1)|]. etrans; [by apply (ou_position _ _ _ _ _ F2)|].
      symmetry. etrans; [by apply (ou_position _ _ _ _ _ G2)|]. by apply (ou_position _ _ _ _ _ F1).
  - intros a. destruct (concerns_dec i1 m1 a) as [Q1|Q1]; [|destruct (concerns_dec i2 m2 a) as [Q2|Q2]].
    + etrans; [exact (ag_len _ _ _ _ B1 a Q1)|]. symmetry. apply (ou_len _ _ _ _ _ G2). by apply DO.
    + etrans; [by apply (ou_len _ _ _ _ _ G1)|]. symmetry. exact (ag_len _ _ _ _ B2 a Q2).
    + etrans; [by apply (ou_len _ _ _ _ _ G1)|]. etrans; [by apply (ou_len _ _ _ _ _ F2)|].
      symmetry. etrans; [by apply (ou_len _ _ _ _ _ G2)|]. by apply (ou_len _ _ _ _ _ F1).
  - intros [a b]. destruct (concerns_dec i1 m1 a) as [Q1|Q1]; [|destruct (concerns_dec i2 m2 a) as [Q2|Q2]].
    + etrans; [exact (ag_operator _ _ _ _ B1 a b Q1)|]. symmetry. apply (ou_operator _ _ _ _ _ G2). by apply DO.
    + etrans; [by apply (ou_operator _ _ _ _ _ G1)|]. symmetry. exact (ag_operator _ _ _ _ B2 a b Q2).
    + etrans; [by apply (ou_operator _ _ _ _ _ G1)|]. etrans; [by apply (ou_operator _ _ _ _ _ F2)|].
      symmetry. etrans; [by apply (ou_operator _ _ _ _ _ G2)|]. by apply (ou_operator _ _ _ _ _ F1).
Qed.

(** two pools; bob trades in the first while dave trades in the second, either order; in the same
    pool the order matters *)
Definition two_key : pool_key := mkPoolKey "tokeny" "tokenz" v_tier.
Definition two_calls : list (string * exec_msg) :=
  sc0_calls ++
  [("alice", CreatePool "tokeny" "tokenz" v_tier SP_ONE 0);
   ("carol", CreatePosition two_key (-10) 10 20006000000000 SP_ONE SP_ONE)]%string.
Definition bob_swap : exec_msg := Swap v_key true 3000 true MIN_SQRT_PRICE.
Definition dave_swap k : exec_msg := Swap k false 2000 true MAX_SQRT_PRICE.
Definition order (k : pool_key) : res (list (string * Z) * list (string * Z) * (list (string * Z) * list (string * Z))) :=
  let* s := start 10000000000 two_calls in
  let* '(s1, _, a1) := execute v_env (v_info "bob") s bob_swap in
  let* '(_, _, a2) := execute v_env (v_info "dave") s1 (dave_swap k) in
  let* '(t1, _, b2) := execute v_env (v_info "dave") s (dave_swap k) in
  let* '(_, _, b1) := execute v_env (v_info "bob") t1 bob_swap in
  Ok (a1, a2, (b1, b2)).
Example ex_C73 :
  order two_key = Ok ([("amount_in", 3000); ("amount_out", 2980)], [("amount_in", 2000); ("amount_out", 1987)],
                      ([("amount_in", 3000); ("amount_out", 2980)], [("amount_in", 2000); ("amount_out", 1987)]))%string /\
  exists a1 a2 b1 b2, order v_key = Ok (a1, a2, (b1, b2)) /\ a1 <> b1.
Proof. split; [vm_compute; reflexivity|]. eexists _, _, _, _. split; [vm_compute; reflexivity|]. discriminate. Qed.
Example ex_C73_hyps i1 i2 s : (forall k, touches i1 s bob_swap k -> ~ touches i2 s (dave_swap two_key) k) /\
  (forall a, concerns i1 bob_swap a -> ~ concerns i2 (dave_swap two_key) a) /\ ~ sets_config bob_swap.
Proof. split_and!; [intros k; cbn; intros <-; discriminate|done|auto]. Qed.
