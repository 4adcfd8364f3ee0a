(** C124: permissions do nothing until they are used. *)
From Verif Require Import Base Decimal SqrtPrice Clamm Log FeeGrowth Types Tick Pool Position
  Tickmap Keys State Swap Exec Query Tactics Frame Handlers History Basic Vectors Scenario PropTrade PropLocal PropClock PropBlind.
From stdpp Require Import gmap strings.
From Coq Require Import Lia.
Open Scope Z_scope.

(** equal up to approvals and operators *)
Definition apos (a b : position) : Prop := b = po_set_approvals a (po_approvals b).
Record unpermitted (s t : store) : Prop := {
  up_config : st_config t = st_config s;
  up_pools : st_pools t = st_pools s;
  up_ticks : st_ticks t = st_ticks s;
  up_bitmap : st_bitmap t = st_bitmap s;
  up_position a ix : option_Forall2 apos (st_positions s !! (a, ix)) (st_positions t !! (a, ix));
  up_len : st_poslen t = st_poslen s
}.
Section Grant.
Context (n : Z).
Notation sk := unpermitted.
Lemma ak_pools s t m : sk s t -> sk (set_pools s m) (set_pools t m).
Proof. intros A. destruct A. by constructor. Qed.
Lemma ak_pool s t k p : sk s t -> sk (save_pool s k p) (save_pool t k p).
Proof. intros A. unfold save_pool. rewrite (up_pools _ _ A). by apply ak_pools. Qed.
Lemma ak_ticks s t m : sk s t -> sk (set_ticks s m) (set_ticks t m).
Proof. intros A. destruct A. by constructor. Qed.
Lemma ak_bitmap s t b : sk s t -> sk (set_bitmap s b) (set_bitmap t b).
Proof. intros A. destruct A. by constructor. Qed.
Lemma ak_config s t c : sk s t -> sk (set_config s c) (set_config t c).
Proof. intros A. destruct A. by constructor. Qed.
Lemma ak_positions s t m m' l : sk s t ->
  (forall a ix, option_Forall2 apos (m !! (a, ix)) (m' !! (a, ix))) -> sk (set_positions s m l) (set_positions t m' l).
Proof. intros A E. destruct A. by constructor. Qed.
Lemma ak_put s t a ix po qo l : sk s t -> apos po qo ->
  sk (set_positions s (<[(a, ix) := po]> (st_positions s)) l) (set_positions t (<[(a, ix) := qo]> (st_positions t)) l).
Proof.
  intros L E. apply ak_positions; [done|]. intros b j.
  destruct (decide ((b, j) = (a, ix))) as [->|N]; [rewrite !lookup_insert; by constructor|].
  rewrite !lookup_insert_ne by congruence. apply L.
Qed.
Lemma ak_get_pool s t k : sk s t -> get_pool t k = get_pool s k.
Proof. intros A. unfold get_pool. by rewrite (up_pools _ _ A). Qed.
Lemma ak_get_tick s t k j : sk s t -> get_tick t k j = get_tick s k j.
Proof. intros A. unfold get_tick. by rewrite (up_ticks _ _ A). Qed.
Lemma ak_get_position s t a ix : sk s t -> both apos (get_position s a ix) (get_position t a ix).
Proof. intros A. unfold get_position. pose proof (up_position _ _ A a ix) as H. by destruct H. Qed.
Lemma ak_update_tick s t k j x : sk s t -> both sk (update_tick s k j x) (update_tick t k j x).
Proof. intros L. unfold update_tick. rewrite (up_ticks _ _ L). destruct (st_ticks s !! (k, j)); [|done]. by apply ak_ticks. Qed.
Lemma ak_add_tick s t k j x : sk s t -> both sk (add_tick s k j x) (add_tick t k j x).
Proof. intros L. unfold add_tick. rewrite (up_ticks _ _ L). destruct (st_ticks s !! (k, j)); [done|]. by apply ak_ticks. Qed.
Lemma ak_remove_tick s t k j : sk s t -> both sk (remove_tick s k j) (remove_tick t k j).
Proof. intros L. unfold remove_tick. rewrite (up_ticks _ _ L). destruct (st_ticks s !! (k, j)); [|done]. by apply ak_ticks. Qed.
Lemma ak_flip s t v j sp k : sk s t -> both sk (flip_bitmap s v j sp k) (flip_bitmap t v j sp k).
Proof.
  intros L. unfold flip_bitmap, bitmap_chunk. rewrite (up_bitmap _ _ L). apply both_eq; [done|]. intros [c b] _.
  destruct (negb _); cbn; [done|]. by apply ak_bitmap.
Qed.
Definition ak2 {A} (R : A -> A -> Prop) (p q : store * A) : Prop := sk (fst p) (fst q) /\ R (snd p) (snd q).
Definition ak3 {B} (p q : store * list out_msg * B) : Prop := sk (fst (fst p)) (fst (fst q)) /\ snd (fst q) = snd (fst p) /\ snd q = snd p.
Lemma ak_create_tick s t k j : sk s t -> both (ak2 eq) (create_tick s n k j) (create_tick t n k j).
Proof.
  intros L. unfold create_tick. rewrite (ak_get_pool _ _ _ L). apply both_eq; [done|]. intros _ _. apply both_eq; [done|]. intros p _.
  apply both_eq; [done|]. intros x _. eapply both_bind; [by apply ak_add_tick|]. intros s1 t1 L1.
  eapply both_bind; [by apply ak_flip|]. intros s2 t2 L2. done.
Qed.
Lemma ak_get_or_create s t k j : sk s t -> both (ak2 eq) (get_or_create_tick s n k j) (get_or_create_tick t n k j).
Proof.
  intros L. unfold get_or_create_tick. rewrite (ak_get_tick _ _ _ _ L). destruct (get_tick s k j); [done|by apply ak_create_tick..].
Qed.
Lemma ak_add_position s t a po qo : sk s t -> apos po qo -> both sk (add_position s a po) (add_position t a qo).
Proof.
  intros L H. unfold add_position, get_position_length. rewrite (up_len _ _ L). apply both_eq; [done|].
  intros m _. by apply ak_put.
Qed.
Lemma ak_update_position s t a ix po qo : sk s t -> apos po qo -> both sk (update_position s a ix po) (update_position t a ix qo).
Proof.
  intros L H. unfold update_position, get_position_length. rewrite (up_len _ _ L).
  destruct (_ <=? _); [done|]. by apply ak_put.
Qed.
Lemma ak_remove_position s t a ix : sk s t -> both (ak2 apos) (remove_position s a ix) (remove_position t a ix).
Proof.
  intros L. unfold remove_position, get_position_length. rewrite (up_len _ _ L). apply both_eq; [done|].
  intros m _. pose proof (up_position _ _ L a ix) as H.
  destruct (st_positions s !! (a, ix)) as [po|]; [|by rewrite (of2_none _ _ H)]. destruct (of2_some _ _ _ H) as (qo & -> & E).
  destruct (ix <? m).
  - pose proof (up_position _ _ L a m) as H'.
    destruct (st_positions s !! (a, m)) as [la|]; [|by rewrite (of2_none _ _ H')]. destruct (of2_some _ _ _ H') as (lb & -> & E').
    cbn. split; [|done]. apply ak_positions; [done|]. intros b j.
    destruct (decide ((b, j) = (a, ix))) as [->|N]; [rewrite !lookup_insert; by constructor|].
    rewrite !lookup_insert_ne by congruence. destruct (decide ((b, j) = (a, m))) as [->|N']; [rewrite !lookup_delete; constructor|].
    rewrite !lookup_delete_ne by congruence. apply L.
  - cbn. split; [|done]. apply ak_positions; [done|]. intros b j.
    destruct (decide ((b, j) = (a, ix))) as [->|N']; [rewrite !lookup_delete; constructor|].
    rewrite !lookup_delete_ne by congruence. apply L.
Qed.
Lemma ak_remove_flip s t k x : sk s t -> both sk (remove_tick_and_flip_bitmap s k x) (remove_tick_and_flip_bitmap t k x).
Proof.
  intros L. unfold remove_tick_and_flip_bitmap. destruct (negb _); [done|].
  eapply both_bind; [by apply ak_flip|]. intros. by apply ak_remove_tick.
Qed.
Definition amod (a b : position * pool * tick * tick * Z * Z) : Prop :=
  let '(po, p, u, l, x, y) := a in let '(po', p', u', l', x', y') := b in
  apos po po' /\ p' = p /\ u' = u /\ l' = l /\ x' = x /\ y' = y.
Lemma ak_modify po po' p u l dl a sp : apos po po' ->
  both amod (position_modify po p u l dl a n sp) (position_modify po' p u l dl a n sp).
Proof.
  intros H. unfold position_modify. apply both_eq; [done|]. intros l1 _. apply both_eq; [done|]. intros u1 _.
  eapply (both_bind apos).
  { unfold position_update. rewrite H. destruct po. cbn. destruct (_ && _); [done|]. do 5 (apply both_eq; [done|]; intros ? _). done. }
  intros po1 po2 PO1. apply both_eq; [done|]. intros [[p1 x1] y1] _. done.
Qed.
Context (e : env) (En : e_millis e = n).
Lemma ak_view k s t : sk s t -> same_view k s t.
Proof. intros A. constructor; intros; by rewrite ?(up_pools _ _ A), ?(up_ticks _ _ A), ?(up_bitmap _ _ A), ?(up_config _ _ A). Qed.
Lemma ak_update_ticks k l : forall s t, sk s t -> both sk (update_ticks s k l) (update_ticks t k l).
Proof. induction l as [|x l IH]; intros s t L; cbn; [done|]. eapply both_bind; [by apply ak_update_tick|]. auto. Qed.
Lemma ak_swap i s t k d a b lim : sk s t -> both ak3 (swap_internal e i s k d a b lim) (swap_internal e i t k d a b lim).
Proof.
  intros L. unfold swap_internal. apply both_eq; [by apply (view_calc k), ak_view|]. intros r _.
  eapply both_bind; [by apply ak_update_ticks|]. intros s1 t1 L1.
  destruct d; (apply both_eq; [done|]; intros m _; split_and!; [by apply ak_pool|done|done]).
Qed.
Lemma ak_route i hops : forall s t a, sk s t -> both ak3 (swap_route_internal e i s a hops) (swap_route_internal e i t a hops).
Proof.
  induction hops as [|h hops IH]; intros s t a L; cbn [swap_route_internal]; [done|].
  eapply both_bind; [by apply ak_swap|]. intros [[s1 m1] r1] [[t1 n1] q1] (L1 & E1 & E2). cbn in L1, E1, E2. subst.
  eapply both_bind; [apply IH; exact L1|]. intros [[s2 m2] r2] [[t2 n2] q2] (L2 & F1 & F2). cbn in L2, F1, F2. subst. done.
Qed.
Lemma ak_create_position i s t k l u q sl su : sk s t ->
  both ak3 (create_position e i s k l u q sl su) (create_position e i t k l u q sl su).
Proof.
  intros L. unfold create_position. destruct (q =? 0); [done|]. destruct (l =? u); [done|]. rewrite En, (ak_get_pool _ _ _ L).
  apply both_eq; [done|]. intros p _. eapply both_bind; [by apply ak_get_or_create|]. intros [s1 x1] [t1 y1] (L1 & X1). cbn in L1, X1. subst y1.
  eapply both_bind; [by apply ak_get_or_create|]. intros [s2 x2] [t2 y2] (L2 & X2). cbn in L2, X2. subst y2.
  apply both_eq; [done|]. intros [[[[[po p1] l1] u1] x] y] _.
  eapply both_bind; [apply ak_add_position; [by apply ak_pool|by destruct po]|]. intros s3 t3 L3.
  eapply both_bind; [by apply ak_update_tick|]. intros s4 t4 L4.
  eapply both_bind; [by apply ak_update_tick|]. intros s5 t5 L5.
  apply both_eq; [done|]. intros m0 _. apply both_eq; [done|]. intros m1 _. done.
Qed.
Lemma ak_claim i s t ix : sk s t -> both ak3 (claim_fee e i s ix) (claim_fee e i t ix).
Proof.
  intros L. unfold claim_fee. rewrite En. eapply both_bind; [by apply ak_get_position|]. intros po po' PO.
  replace (po_key po') with (po_key po) by (rewrite PO; done). replace (po_lower po') with (po_lower po) by (rewrite PO; done).
  replace (po_upper po') with (po_upper po) by (rewrite PO; done).
  rewrite !(ak_get_tick _ _ _ _ L), (ak_get_pool _ _ _ L). apply both_eq; [done|]. intros lt _. apply both_eq; [done|]. intros ut _.
  apply both_eq; [done|]. intros p _. eapply (both_bind amod).
  { unfold position_claim_fee. replace (po_key po') with (po_key po) by (rewrite PO; done). eapply both_bind; [by apply ak_modify|].
    intros [[[[[a1 a2] a3] a4] a5] a6] [[[[[b1 b2] b3] b4] b5] b6] (M1 & -> & -> & -> & -> & ->). cbn. unfold apos in *. rewrite M1. done. }
  intros [[[[[q p1] u1] l1] x] y] [[[[[q' p2] u2] l2] x'] y'] (PO1 & -> & -> & -> & -> & ->).
  eapply both_bind; [by apply ak_update_position|]. intros s1 t1 L1.
  eapply both_bind; [apply ak_update_tick; by apply ak_pool|]. intros s2 t2 L2.
  eapply both_bind; [by apply ak_update_tick|]. intros s3 t3 L3. done.
Qed.
Lemma ak_remove i s t ix : sk s t -> both ak3 (remove_position_exec e i s ix) (remove_position_exec e i t ix).
Proof.
  intros L. unfold remove_position_exec. rewrite En. eapply both_bind; [by apply ak_get_position|]. intros po po' PO.
  replace (po_key po') with (po_key po) by (rewrite PO; done). replace (po_lower po') with (po_lower po) by (rewrite PO; done).
  replace (po_upper po') with (po_upper po) by (rewrite PO; done). replace (po_liq po') with (po_liq po) by (rewrite PO; done).
  rewrite !(ak_get_tick _ _ _ _ L), (ak_get_pool _ _ _ L). apply both_eq; [done|]. intros lt _. apply both_eq; [done|]. intros ut _.
  apply both_eq; [done|]. intros p _.
  eapply (both_bind (fun a b => let '(po, p, l, u, x, y, dl, du) := a in let '(po', p', l', u', x', y', dl', du') := b in
    amod (po, p, u, l, x, y) (po', p', u', l', x', y') /\ dl' = dl /\ du' = du)).
  { unfold position_remove. replace (po_liq po') with (po_liq po) by (rewrite PO; done).
    eapply both_bind; [by apply ak_modify|].
    intros [[[[[a1 a2] a3] a4] a5] a6] [[[[[b1 b2] b3] b4] b5] b6] (M1 & -> & -> & -> & -> & ->).
    replace (po_owedx b1) with (po_owedx a1) by (rewrite M1; done). replace (po_owedy b1) with (po_owedy a1) by (rewrite M1; done).
    do 2 (apply both_eq; [done|]; intros ? ?). done. }
  intros [[[[[[[q p1] l1] u1] x] y] dl] du] [[[[[[[q' p2] l2] u2] x'] y'] dl'] du'] ((PO1 & -> & -> & -> & -> & ->) & -> & ->).
  eapply (both_bind sk); [destruct dl; [apply ak_remove_flip|apply ak_update_tick]; by apply ak_pool|]. intros s1 t1 L1.
  eapply (both_bind sk); [destruct du; [apply ak_remove_flip|apply ak_update_tick]; done|]. intros s2 t2 L2.
  eapply both_bind; [by apply ak_remove_position|]. intros [s3 r3] [t3 q3] (L3 & E3). cbn in L3, E3.
  replace (po_key q3) with (po_key r3) by (rewrite E3; done). done.
Qed.
Lemma ak_by_key s t tid : sk s t -> both apos (get_position_by_key s tid) (get_position_by_key t tid).
Proof. intros L. unfold get_position_by_key. destruct (split_token tid) as [[a ix]|]; [|done]. by apply ak_get_position. Qed.
Lemma ak_transfer_nft i s t r tid : match split_token tid with Some (o, _) => i_sender i = o | None => True end -> sk s t ->
  both sk (transfer_nft e i s r tid) (transfer_nft e i t r tid).
Proof.
  intros OW L. unfold transfer_nft, check_can_send. destruct (split_token tid) as [[a ix]|] eqn:E; [|done]. destruct (negb _); [done|].
  eapply both_bind; [by apply ak_by_key|]. intros po po' PO. rewrite OW, String.eqb_refl. cbn [bind].
  eapply both_bind; [by apply ak_remove_position|]. intros [s1 p1] [t1 q1] (L1 & _). apply ak_add_position; [done|]. rewrite PO. done.
Qed.
End Grant.
(** grants and revocations of permissions *)
Definition permits (m : exec_msg) : bool := match m with Approve _ _ _ | Revoke _ _ | ApproveAll _ _ | RevokeAll _ => true | _ => false end.
(** calls that use nobody else's permission: all others but handing on or burning somebody else's token *)
Definition unaided (c : call) : bool :=
  let '(_, i, m) := c in
  match m with
  | TransferNft _ tid | SendNft _ tid _ | Burn tid => match split_token tid with Some (o, _) => String.eqb (i_sender i) o | None => true end
  | _ => negb (permits m)
  end.
Lemma ak_dispatch e i s t m : unaided (e, i, m) = true -> unpermitted s t -> both ak3 (dispatch e i s m) (dispatch e i t m).
Proof.
  intros U L. destruct m; cbn [dispatch unaided permits negb] in *; try done.
  - unfold change_admin. rewrite (up_config _ _ L). destruct (negb _); [done|]. split; [by apply ak_config|done].
  - unfold withdraw_protocol_fee. rewrite (ak_get_pool _ _ _ L). apply both_eq; [done|]. intros p _. destruct (negb _); [done|]. split; [by apply ak_pool|done].
  - unfold change_protocol_fee. rewrite (up_config _ _ L). destruct (negb _); [done|]. split; [by apply ak_config|done].
  - unfold change_fee_receiver. rewrite (up_config _ _ L), (ak_get_pool _ _ _ L). destruct (negb _); [done|]. apply both_eq; [done|]. intros p _.
    split; [by apply ak_pool|done].
  - by eapply ak_create_position.
  - unfold swap. eapply both_bind; [by apply ak_swap|]. intros [[s1 m1] r1] [[t1 n1] q1] (L1 & E1 & E2). cbn in L1, E1, E2. by subst.
  - unfold swap_route. eapply both_bind; [by apply ak_route|]. intros [[s1 m1] r1] [[t1 n1] q1] (L1 & E1 & E2). cbn in L1, E1, E2. subst.
    apply both_eq; [done|]. intros mn _. by destruct (_ <? _).
  - unfold transfer_position. eapply both_bind; [by apply ak_get_position|]. intros po po' PO.
    eapply both_bind; [by apply ak_remove_position|]. intros [s1 p1] [t1 q1] (L1 & _). destruct (negb _); [done|].
    eapply both_bind; [apply ak_add_position; [exact L1|]; rewrite PO; done|]. intros s2 t2 L2. done.
  - by eapply ak_claim.
  - by eapply ak_remove.
  - unfold create_pool. rewrite (up_config _ _ L), (up_pools _ _ L). destruct (negb _); [done|]. do 3 (apply both_eq; [done|]; intros ? _).
    destruct (st_pools s !! _); [done|]. apply both_eq; [done|]. intros p _. split; [by apply ak_pool|done].
  - unfold add_fee_tier. rewrite (up_config _ _ L). destruct (negb _); [done|]. destruct (_ || _); [done|]. destruct (_ <=? _); [done|]. split; [by apply ak_config|done].
  - unfold remove_fee_tier. rewrite (up_config _ _ L). destruct (negb _); [done|]. destruct (remove_first _ _); [|done]. split; [by apply ak_config|done].
  - unfold handle_transfer_nft. eapply both_bind; [apply ak_transfer_nft; [|exact L]|].
    + destruct (split_token token_id) as [[o ix]|]; [|done]. by apply String.eqb_eq.
    + intros s1 t1 L1. done.
  - by eapply ak_create_position.
  - unfold handle_burn, check_can_send. eapply both_bind; [by apply ak_by_key|]. intros po po' PO. destruct (split_token token_id) as [[a ix]|] eqn:E; [|done].
    rewrite U. cbn [bind]. by apply (ak_remove (e_millis e)).
  - unfold handle_send_nft. eapply both_bind; [apply ak_transfer_nft; [|exact L]|].
    + destruct (split_token token_id) as [[o ix]|]; [|done]. by apply String.eqb_eq.
    + intros s1 t1 L1. done.
Qed.
Lemma apos_refl p : apos p p.
Proof. by destruct p. Qed.
Lemma unpermitted_refl s : unpermitted s s.
Proof. constructor; try done. intros a ix. destruct (st_positions s !! (a, ix)); constructor. apply apos_refl. Qed.
Lemma unpermitted_sym s t : unpermitted s t -> unpermitted t s.
Proof.
  intros [C P T B Q N]. constructor; try done. intros a ix. specialize (Q a ix). inversion Q as [p q H|]; constructor.
  unfold apos in *. rewrite H. by destruct p.
Qed.
Lemma unpermitted_trans s t u : unpermitted s t -> unpermitted t u -> unpermitted s u.
Proof.
  intros [C P T B Q N] [C' P' T' B' Q' N']. constructor; try congruence. intros a ix. specialize (Q a ix). specialize (Q' a ix).
  inversion Q as [p q H E1 E2|E1 E2]; rewrite <- E2 in Q'; inversion Q' as [q' r H' |]; subst; constructor.
  unfold apos in *. rewrite H' at 1. rewrite H. done.
Qed.
Lemma permits_next c s : permits (snd c) = true -> unpermitted s (next c s).
Proof.
  destruct c as [[e i] m]. cbn. intros G. destruct (execute e i s m) as [[[s' ms] at']| |] eqn:E; [|apply unpermitted_refl..].
  unfold execute in E. destruct (_ && _); [|done].
  assert (UA : forall sp tid add x s1, update_approvals e i s sp tid add x = Ok s1 -> unpermitted s s1).
  { intros sp tid add x s1 H. unfold update_approvals, get_position_by_key in H. destruct (split_token tid) as [[a ix]|]; [|done].
    apply bind_ok in H as (po & HP & H). do 2 (apply bind_ok in H as (? & _ & H)). apply Ok_inj in H as <-.
    unfold get_position in HP. destruct (st_positions s !! (a, ix)) as [po'|] eqn:PO; [|done]. apply Ok_inj in HP as ->.
    constructor; try done. intros b j. cbn. destruct (decide ((b, j) = (a, ix))) as [X|N].
    - rewrite X, lookup_insert, PO. by constructor.
    - rewrite lookup_insert_ne by congruence. apply (up_position _ _ (unpermitted_refl s)). }
  assert (UO : forall o, unpermitted s (set_operators s o)) by (intros o; destruct (unpermitted_refl s); by constructor).
  destruct m; cbn [permits dispatch] in *; try done.
  - unfold handle_approve in E. apply bind_ok in E as (s1 & H & E). injection E as <- _ _. by eapply UA.
  - unfold handle_revoke in E. apply bind_ok in E as (s1 & H & E). injection E as <- _ _. by eapply UA.
  - unfold handle_approve_all in E. cbv zeta in E. destruct (is_expired e _); [done|]. injection E as <- _ _. apply UO.
  - unfold handle_revoke_all in E. injection E as <- _ _. apply UO.
Qed.
Lemma unaided_next c s t : unaided c = true -> unpermitted s t -> said c t = said c s /\ unpermitted (next c s) (next c t).
Proof.
  destruct c as [[e i] m]. intros H L. cbn [said next]. unfold execute. destruct (_ && _); [|done].
  pose proof (ak_dispatch e i s t m H L) as D. unfold both in D.
  destruct (dispatch e i s m) as [[[s1 m1] a1]|x|], (dispatch e i t m) as [[[t1 n1] b1]|y|]; try done.
  - destruct D as (D1 & D2 & D3). cbn in *. by subst.
  - by subst.
Qed.
Definition unaided_or_permits (zs : list call) : Prop := Forall (fun c : call => unaided c = true \/ permits (snd c) = true) zs.
Definition unaided_calls (zs : list call) : list call := List.filter unaided zs.
Definition unaided_hear (zs : list call) (s : store) : list (call * reply) := List.filter (fun x => unaided (fst x)) (List.combine zs (fst (play zs s))).
Lemma unaided_hear_cons c zs s : unaided_hear (c :: zs) s = (if unaided c then [(c, said c s)] else []) ++ unaided_hear zs (next c s).
Proof. unfold unaided_hear. rewrite play_cons. cbn [fst List.combine List.filter]. by destruct (unaided c). Qed.
Lemma unaided_alone zs : forall s t, unaided_or_permits zs -> unpermitted s t ->
  unaided_hear zs s = unaided_hear (unaided_calls zs) t /\ unpermitted (snd (play zs s)) (snd (play (unaided_calls zs) t)).
Proof.
  induction zs as [|c zs IH]; intros s t F L; [by split|]. inversion F as [|? ? C F']; subst.
  rewrite unaided_hear_cons, play_cons. unfold unaided_calls. cbn [List.filter snd]. destruct (unaided c) eqn:H.
  - fold (unaided_calls zs). rewrite unaided_hear_cons, play_cons, H. cbn [snd]. destruct (unaided_next c s t H L) as [-> L'].
    destruct (IH _ _ F' L') as [-> I]. by split.
  - destruct C as [C|C]; [done|]. apply IH; [done|]. apply (unpermitted_trans _ s); [|done]. apply unpermitted_sym. by apply permits_next.
Qed.
(** Take two histories from one state that differ only in attempts, by anyone, to grant or revoke approvals and operators, and in which nobody makes use of somebody
    else's permission. Then all other calls, be they trades, deposits, claims, withdrawals, transfers by the owner or settings, are answered with the same transfers,
    events and errors, and in the end all but the approvals and operators is the same. *)
Theorem C124_unused zs ws s : unaided_or_permits zs -> unaided_or_permits ws -> unaided_calls zs = unaided_calls ws ->
  unaided_hear zs s = unaided_hear ws s /\
  (forall k, get_pool (snd (play zs s)) k = get_pool (snd (play ws s)) k) /\
  (forall a ix po, get_position (snd (play zs s)) a ix = Ok po -> exists l, get_position (snd (play ws s)) a ix = Ok (po_set_approvals po l)) /\
  (forall a, get_position_length (snd (play zs s)) a = get_position_length (snd (play ws s)) a) /\
  st_config (snd (play zs s)) = st_config (snd (play ws s)) /\
  (forall e k d a b lim, query_quote e (snd (play zs s)) k d a b lim = query_quote e (snd (play ws s)) k d a b lim).
Proof.
  intros F G H. destruct (unaided_alone zs s s F (unpermitted_refl s)) as [A1 A2]. destruct (unaided_alone ws s s G (unpermitted_refl s)) as [B1 B2].
  rewrite H in *. assert (L : unpermitted (snd (play zs s)) (snd (play ws s))) by (eapply unpermitted_trans; [exact A2|by apply unpermitted_sym]).
  split; [by rewrite A1, B1|]. split; [intros k; by rewrite (ak_get_pool _ _ _ L)|].
  split. { intros a ix po P. pose proof (ak_get_position _ _ a ix L) as Q. rewrite P in Q. unfold both in Q.
    destruct (get_position (snd (play ws s)) a ix) as [qo| |]; try done. exists (po_approvals qo). by rewrite <- Q. }
  split; [intros a; unfold get_position_length; by rewrite (up_len _ _ L)|]. split; [by rewrite (up_config _ _ L)|].
  intros e k d a b lim. unfold query_quote. by rewrite (view_calc k _ _ _ _ _ _ _ _ (ak_view k _ _ L)).
Qed.

(** * Examples *)
(** carol trades, bob deposits, alice hands a position to bob and claims; meanwhile bob and alice grant and revoke permissions. *)
Definition gr_plain : list call :=
  [(v_env, v_info "carol", Swap v_key false 14000 true MAX_SQRT_PRICE); (v_env, v_info "bob", CreatePosition v_key (-30) 20 3000000000 SP_ONE MAX_SQRT_PRICE);
   (v_env, v_info "alice", TransferPosition 0 "bob"); (v_env, v_info "alice", ClaimFee 0)]%string.
Definition gr_all : list call :=
  match gr_plain with
  | [a; b; c; d] => [(v_env, v_info "bob", ApproveAll "carol" None); a; (v_env, v_info "alice", ApproveAll "bob" None); b; (v_env, v_info "alice", RevokeAll "bob"); c; d]
  | _ => []
  end%string.
Example ex_C124 : unaided_or_permits gr_plain /\ unaided_or_permits gr_all /\ unaided_calls gr_all = unaided_calls gr_plain /\
  map is_ok (fst (play gr_all sc0)) = [true; true; true; true; true; true; true] /\
  st_operators (snd (play gr_all sc0)) !! ("bob", "carol")%string = Some Never /\ st_operators (snd (play gr_plain sc0)) !! ("bob", "carol")%string = None.
Proof.
  split; [repeat (constructor; [cbn; by auto|]); constructor|]. split; [cbn; repeat (constructor; [cbn; by auto|]); constructor|]. split; [reflexivity|].
  split; [vm_compute; reflexivity|]. split; vm_compute; reflexivity.
Qed.
