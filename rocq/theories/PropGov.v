(** C121: whatever the admin and the fee receivers do, deposits stay available on the same terms. *)
From Verif Require Import Base Decimal SqrtPrice Clamm Log FeeGrowth Types Tick Pool Position
  Tickmap Keys State Swap Exec Query Tactics Frame Handlers History Basic Vectors Scenario PropTrade PropPerm PropLocal PropClock PropOk PropSplit PropOrder PropLeave PropOften PropBlind.
From stdpp Require Import gmap strings.
From Coq Require Import Lia.
Open Scope Z_scope.

(** equal up to the settings and, in a pool, the protocol fees due and their receiver *)
Definition gpool (p q : pool) : Prop :=
  q = mkPool (p_liq p) (p_price p) (p_tick p) (p_fgx p) (p_fgy p) (p_protx q) (p_proty q) (p_start p) (p_last p) (p_receiver q).
Record ruled (cr : config -> config -> Prop) (pr : pool -> pool -> Prop) (s t : store) : Prop := {
  gv_config : cr (st_config s) (st_config t);
  gv_pool k : option_Forall2 pr (st_pools s !! k) (st_pools t !! k);
  gv_ticks : st_ticks t = st_ticks s;
  gv_bitmap : st_bitmap t = st_bitmap s;
  gv_positions : st_positions t = st_positions s;
  gv_len : st_poslen t = st_poslen s;
  gv_operators : st_operators t = st_operators s
}.
Definition governed : store -> store -> Prop := ruled (fun _ _ => True) gpool.
Section Gov.
(** whichever settings and pools are related, as long as pools agree where [gpool] says so *)
Context (n : Z) (cr : config -> config -> Prop) (pr : pool -> pool -> Prop).
Context (prg : forall p q, pr p q -> gpool p q) (pr_last : forall p q v, pr p q -> pr (p_set_last p v) (p_set_last q v))
  (pr_liq : forall p q v, pr p q -> pr (p_set_liq p v) (p_set_liq q v)).
Notation sk := (ruled cr pr).

Lemma gk_pool s t k p q : sk s t -> pr p q -> sk (save_pool s k p) (save_pool t k q).
Proof.
  intros A E. destruct A. constructor; cbn; try done. intros k'. destruct (decide (k' = k)) as [->|N];
    [rewrite !lookup_insert|rewrite !lookup_insert_ne by congruence; done]. by constructor.
Qed.
Lemma gk_ticks s t m : sk s t -> sk (set_ticks s m) (set_ticks t m).
Proof. intros A. destruct A. by constructor. Qed.
Lemma gk_bitmap s t b : sk s t -> sk (set_bitmap s b) (set_bitmap t b).
Proof. intros A. destruct A. by constructor. Qed.
Lemma gk_operators s t o : sk s t -> sk (set_operators s o) (set_operators t o).
Proof. intros A. destruct A. by constructor. Qed.
Lemma gk_positions s t m l : sk s t -> sk (set_positions s m l) (set_positions t m l).
Proof. intros A. destruct A. by constructor. Qed.
Lemma gk_get_pool s t k : sk s t -> both pr (get_pool s k) (get_pool t k).
Proof. intros A. unfold get_pool. pose proof (gv_pool _ _ _ _ A k) as H. by destruct H. Qed.
Lemma gk_get_tick s t k j : sk s t -> get_tick t k j = get_tick s k j.
Proof. intros A. unfold get_tick. by rewrite (gv_ticks _ _ _ _ A). Qed.
Lemma gk_get_position s t a ix : sk s t -> get_position t a ix = get_position s a ix.
Proof. intros A. unfold get_position. by rewrite (gv_positions _ _ _ _ A). Qed.
Lemma gk_update_tick s t k j x : sk s t -> both sk (update_tick s k j x) (update_tick t k j x).
Proof. intros L. unfold update_tick. rewrite (gv_ticks _ _ _ _ L). destruct (st_ticks s !! (k, j)); [|done]. by apply gk_ticks. Qed.
Lemma gk_add_tick s t k j x : sk s t -> both sk (add_tick s k j x) (add_tick t k j x).
Proof. intros L. unfold add_tick. rewrite (gv_ticks _ _ _ _ L). destruct (st_ticks s !! (k, j)); [done|]. by apply gk_ticks. Qed.
Lemma gk_remove_tick s t k j : sk s t -> both sk (remove_tick s k j) (remove_tick t k j).
Proof. intros L. unfold remove_tick. rewrite (gv_ticks _ _ _ _ L). destruct (st_ticks s !! (k, j)); [|done]. by apply gk_ticks. Qed.
Lemma gk_flip s t v j sp k : sk s t -> both sk (flip_bitmap s v j sp k) (flip_bitmap t v j sp k).
Proof.
  intros L. unfold flip_bitmap, bitmap_chunk. rewrite (gv_bitmap _ _ _ _ L). apply both_eq; [done|]. intros [c b] _.
  destruct (negb _); cbn; [done|]. by apply gk_bitmap.
Qed.
Definition gk2 {A} (p q : store * A) : Prop := sk (fst p) (fst q) /\ snd q = snd p.
Definition gk3 (p q : store * list out_msg * list (string * Z)) : Prop := sk (fst (fst p)) (fst (fst q)) /\ snd (fst q) = snd (fst p) /\ snd q = snd p.
Lemma gk_create_tick s t k j : sk s t -> both gk2 (create_tick s n k j) (create_tick t n k j).
Proof.
  intros L. unfold create_tick. apply both_eq; [done|]. intros _ _. eapply both_bind; [by apply gk_get_pool|].
  intros p q H. apply both_eq; [rewrite (prg _ _ H); done|].
  intros x X. eapply both_bind; [by apply gk_add_tick|]. intros s1 t1 L1.
  eapply both_bind; [by apply gk_flip|]. intros s2 t2 L2. done.
Qed.
Lemma gk_get_or_create s t k j : sk s t -> both gk2 (get_or_create_tick s n k j) (get_or_create_tick t n k j).
Proof.
  intros L. unfold get_or_create_tick. rewrite (gk_get_tick _ _ _ _ L). destruct (get_tick s k j); [done|by apply gk_create_tick..].
Qed.
Lemma gk_add_position s t a po : sk s t -> both sk (add_position s a po) (add_position t a po).
Proof.
  intros L. unfold add_position, get_position_length. rewrite (gv_len _ _ _ _ L), (gv_positions _ _ _ _ L). apply both_eq; [done|].
  intros m _. by apply gk_positions.
Qed.
Lemma gk_update_position s t a ix po : sk s t -> both sk (update_position s a ix po) (update_position t a ix po).
Proof.
  intros L. unfold update_position, get_position_length. rewrite (gv_len _ _ _ _ L), (gv_positions _ _ _ _ L).
  destruct (_ <=? _); [done|]. by apply gk_positions.
Qed.
Lemma gk_remove_position s t a ix : sk s t -> both gk2 (remove_position s a ix) (remove_position t a ix).
Proof.
  intros L. unfold remove_position, get_position_length. rewrite (gv_len _ _ _ _ L), (gv_positions _ _ _ _ L). apply both_eq; [done|].
  intros m _. destruct (st_positions s !! (a, ix)) as [po|]; [|done].
  destruct (ix <? m); [destruct (st_positions s !! (a, m)); [|done]|]; (split; [by apply gk_positions|done]).
Qed.
Lemma gk_remove_flip s t k x : sk s t -> both sk (remove_tick_and_flip_bitmap s k x) (remove_tick_and_flip_bitmap t k x).
Proof.
  intros L. unfold remove_tick_and_flip_bitmap. destruct (negb _); [done|].
  eapply both_bind; [by apply gk_flip|]. intros. by apply gk_remove_tick.
Qed.
Definition gmod (a b : position * pool * tick * tick * Z * Z) : Prop :=
  let '(po, p, u, l, x, y) := a in let '(po', p', u', l', x', y') := b in
  po' = po /\ pr p p' /\ u' = u /\ l' = l /\ x' = x /\ y' = y.
Lemma gk_modify po p p' u l dl a sp : pr p p' ->
  both gmod (position_modify po p u l dl a n sp) (position_modify po p' u l dl a n sp).
Proof.
  intros H. unfold position_modify. apply both_eq; [done|]. intros l1 _. apply both_eq; [done|]. intros u1 _.
  apply both_eq; [rewrite (prg _ _ H); done|]. intros po1 _.
  eapply (both_bind (fun a b : pool * Z * Z => pr (fst (fst a)) (fst (fst b)) /\ snd (fst a) = snd (fst b) /\ snd a = snd b)).
  { unfold update_liquidity. cbn [t_index p_tick p_price p_set_last].
    replace (p_tick p') with (p_tick p) by (rewrite (prg _ _ H); done).
    replace (p_price p') with (p_price p) by (rewrite (prg _ _ H); done).
    apply both_eq; [done|]. intros [[x y] []] _.
    - eapply (both_bind eq); [cbn; replace (p_liq p') with (p_liq p) by (rewrite (prg _ _ H); done); by apply both_same|].
      intros q ? <-. split_and!; [apply pr_liq, pr_last, H|done|done].
    - split_and!; [apply pr_last, H|done|done]. }
  intros [[p1 x1] y1] [[p2 x2] y2] (A & B & D). cbn in B, D. subst. done.
Qed.
Context (e : env) (En : e_millis e = n).
Lemma gk_create_position i s t k l u q sl su : sk s t ->
  both gk3 (create_position e i s k l u q sl su) (create_position e i t k l u q sl su).
Proof.
  intros L. unfold create_position. destruct (q =? 0); [done|]. destruct (l =? u); [done|]. rewrite En.
  eapply (both_bind pr).
  { pose proof (gk_get_pool s t k L) as H. unfold both in H. by destruct (get_pool s k), (get_pool t k). }
  intros p p' H. eapply both_bind; [by apply gk_get_or_create|]. intros [s1 x1] [t1 y1] (L1 & X1).
  eapply both_bind; [by apply gk_get_or_create|]. intros [s2 x2] [t2 y2] (L2 & X2). cbn in X1, X2. subst y1 y2.
  eapply (both_bind (fun a b => let '(po, p, l, u, x, y) := a in let '(po', p', l', u', x', y') := b in
    gmod (po, p, u, l, x, y) (po', p', u', l', x', y'))).
  { unfold position_create. replace (p_price p') with (p_price p) by (rewrite (prg _ _ H); done). destruct (_ || _); [done|].
    eapply both_bind; [by apply gk_modify|].
    intros [[[[[a1 a2] a3] a4] a5] a6] [[[[[b1 b2] b3] b4] b5] b6] M. exact M. }
  intros [[[[[po p1] l1] u1] x] y] [[[[[po' p2] l2] u2] x'] y'] (-> & H1 & -> & -> & -> & ->).
  eapply both_bind; [apply gk_add_position; by apply gk_pool|]. intros s3 t3 L3.
  eapply both_bind; [by apply gk_update_tick|]. intros s4 t4 L4.
  eapply both_bind; [by apply gk_update_tick|]. intros s5 t5 L5.
  replace (p_price p2) with (p_price p1) by (rewrite (prg _ _ H1); done).
  apply both_eq; [done|]. intros m0 _. apply both_eq; [done|]. intros m1 _. done.
Qed.
Lemma gk_claim i s t ix : sk s t -> both gk3 (claim_fee e i s ix) (claim_fee e i t ix).
Proof.
  intros L. unfold claim_fee. rewrite En, (gk_get_position _ _ _ _ L). apply both_eq; [done|]. intros po _.
  rewrite !(gk_get_tick _ _ _ _ L). apply both_eq; [done|]. intros lt _. apply both_eq; [done|]. intros ut _.
  eapply both_bind; [by apply gk_get_pool|]. intros p p' H. eapply (both_bind gmod).
  { unfold position_claim_fee. eapply both_bind; [by apply gk_modify|].
    intros [[[[[a1 a2] a3] a4] a5] a6] [[[[[b1 b2] b3] b4] b5] b6] (-> & M2 & -> & -> & -> & ->). done. }
  intros [[[[[q p1] u1] l1] x] y] [[[[[q' p2] u2] l2] x'] y'] (-> & H1 & -> & -> & -> & ->).
  eapply both_bind; [by apply gk_update_position|]. intros s1 t1 L1.
  eapply both_bind; [apply gk_update_tick; by apply gk_pool|]. intros s2 t2 L2.
  eapply both_bind; [by apply gk_update_tick|]. intros s3 t3 L3.
  done.
Qed.
Lemma gk_remove i s t ix : sk s t -> both gk3 (remove_position_exec e i s ix) (remove_position_exec e i t ix).
Proof.
  intros L. unfold remove_position_exec. rewrite En, (gk_get_position _ _ _ _ L). apply both_eq; [done|]. intros po _.
  rewrite !(gk_get_tick _ _ _ _ L). apply both_eq; [done|]. intros lt _. apply both_eq; [done|]. intros ut _.
  eapply both_bind; [by apply gk_get_pool|]. intros p p' H.
  eapply (both_bind (fun a b => let '(po, p, l, u, x, y, dl, du) := a in let '(po', p', l', u', x', y', dl', du') := b in
    gmod (po, p, u, l, x, y) (po', p', u', l', x', y') /\ dl' = dl /\ du' = du)).
  { unfold position_remove. eapply both_bind; [by apply gk_modify|].
    intros [[[[[a1 a2] a3] a4] a5] a6] [[[[[b1 b2] b3] b4] b5] b6] (-> & M2 & -> & -> & -> & ->).
    do 2 (apply both_eq; [done|]; intros ? ?). done. }
  intros [[[[[[[q p1] l1] u1] x] y] dl] du] [[[[[[[q' p2] l2] u2] x'] y'] dl'] du'] ((-> & H1 & -> & -> & -> & ->) & -> & ->).
  eapply (both_bind sk); [destruct dl; [apply gk_remove_flip|apply gk_update_tick]; by apply gk_pool|]. intros s1 t1 L1.
  eapply (both_bind sk); [destruct du; [apply gk_remove_flip|apply gk_update_tick]; done|]. intros s2 t2 L2.
  eapply both_bind; [by apply gk_remove_position|]. intros [s3 r3] [t3 q3] (L3 & E3). cbn in E3. subst q3.
  replace (p_price p2) with (p_price p1) by (rewrite (prg _ _ H1); done). done.
Qed.
Lemma gk_by_key s t tid : sk s t -> get_position_by_key t tid = get_position_by_key s tid.
Proof. intros L. unfold get_position_by_key. destruct (split_token tid) as [[a ix]|]; [|done]. by apply gk_get_position. Qed.
Lemma gk_transfer_nft i s t r tid : sk s t -> both sk (transfer_nft e i s r tid) (transfer_nft e i t r tid).
Proof.
  intros L. unfold transfer_nft, check_can_send. destruct (split_token tid) as [[a ix]|] eqn:E; [|done]. destruct (negb _); [done|].
  rewrite (gk_by_key _ _ _ L), (gv_operators _ _ _ _ L). apply both_eq; [done|]. intros po _. apply both_eq; [done|]. intros _ _.
  eapply both_bind; [by apply gk_remove_position|]. intros [s1 p1] [t1 q1] (L1 & _). by apply gk_add_position.
Qed.
Lemma gk_approvals i s t sp tid add x : sk s t -> both sk (update_approvals e i s sp tid add x) (update_approvals e i t sp tid add x).
Proof.
  intros L. unfold update_approvals, check_can_approve. destruct (split_token tid) as [[a ix]|] eqn:E; [|done].
  rewrite (gk_by_key _ _ _ L), (gv_operators _ _ _ _ L). apply both_eq; [done|]. intros po _. apply both_eq; [done|]. intros _ _.
  apply both_eq; [done|]. intros l _. rewrite (gv_len _ _ _ _ L), (gv_positions _ _ _ _ L). by apply gk_positions.
Qed.
End Gov.

(** what holders do: deposit, claim, withdraw, hand over, permit *)
Definition holding (m : exec_msg) : bool :=
  match m with
  | CreatePosition _ _ _ _ _ _ | Mint _ _ _ _ _ _ | ClaimFee _ | RemovePosition _ | Burn _ | TransferPosition _ _ | TransferNft _ _ | SendNft _ _ _
  | Approve _ _ _ | Revoke _ _ | ApproveAll _ _ | RevokeAll _ => true
  | _ => false
  end.
(** what the admin and the fee receivers do *)
Definition governing (m : exec_msg) : bool :=
  match m with
  | ChangeAdmin _ | ChangeProtocolFee _ | ChangeFeeReceiver _ _ | AddFeeTier _ | RemoveFeeTier _ | WithdrawProtocolFee _ => true
  | _ => false
  end.
Lemma gk_holding (cr : config -> config -> Prop) (pr : pool -> pool -> Prop) e i s t m : (forall p q, pr p q -> gpool p q) -> (forall p q v, pr p q -> pr (p_set_last p v) (p_set_last q v)) ->
  (forall p q v, pr p q -> pr (p_set_liq p v) (p_set_liq q v)) ->
  holding m = true -> ruled cr pr s t -> both (gk3 cr pr) (dispatch e i s m) (dispatch e i t m).
Proof.
  intros PG PL PQ HM L. destruct m; cbn [dispatch holding] in *; try done.
  - by eapply gk_create_position.
  - unfold transfer_position. rewrite (gk_get_position _ _ _ _ _ _ L). apply both_eq; [done|]. intros po _.
    eapply both_bind; [by apply gk_remove_position|]. intros [s1 p1] [t1 q1] (L1 & _). destruct (negb _); [done|].
    eapply both_bind; [by apply gk_add_position|]. intros s2 t2 L2. done.
  - by eapply gk_claim.
  - by eapply gk_remove.
  - unfold handle_transfer_nft. eapply both_bind; [by apply gk_transfer_nft|]. intros s1 t1 L1. done.
  - by eapply gk_create_position.
  - unfold handle_burn, check_can_send. rewrite (gk_by_key _ _ _ _ _ L), (gv_operators _ _ _ _ L). apply both_eq; [done|]. intros po _.
    destruct (split_token token_id) as [[a ix]|] eqn:E; [|done]. apply both_eq; [done|]. intros _ _.
    pose proof (gk_remove (e_millis e) cr pr PG PL PQ e eq_refl i s t ix L) as C. unfold both in *.
    destruct (remove_position_exec e i s ix) as [[[s1 m1] a1]| |], (remove_position_exec e i t ix) as [[[s2 m2] a2]| |]; try done.
  - unfold handle_send_nft. eapply both_bind; [by apply gk_transfer_nft|]. intros s1 t1 L1. done.
  - unfold handle_approve. eapply both_bind; [by apply gk_approvals|]. intros s1 t1 L1. done.
  - unfold handle_revoke. eapply both_bind; [by apply gk_approvals|]. intros s1 t1 L1. done.
  - unfold handle_approve_all. cbv zeta. destruct (is_expired e _); [done|]. rewrite (gv_operators _ _ _ _ L). split; [by apply gk_operators|done].
  - unfold handle_revoke_all. rewrite (gv_operators _ _ _ _ L). split; [by apply gk_operators|done].
Qed.
Lemma gk_governed e i s t m : holding m = true -> governed s t -> both (gk3 (fun _ _ => True) gpool) (dispatch e i s m) (dispatch e i t m).
Proof. apply gk_holding; [done|by intros p q v ->..]. Qed.
Lemma governed_refl s : governed s s.
Proof. constructor; try done. intros k. destruct (st_pools s !! k) as [p|]; constructor. by destruct p. Qed.
Lemma governed_sym s t : governed s t -> governed t s.
Proof.
  intros L. destruct L as [_ P]. constructor; try done. intros k. specialize (P k). inversion P as [p q H|]; constructor.
  unfold gpool in *. rewrite H. destruct p. done.
Qed.
Lemma governed_trans s t u : governed s t -> governed t u -> governed s u.
Proof.
  intros [_ P] [_ Q]. constructor; try congruence; [done|]. intros k. specialize (P k). specialize (Q k). inversion P as [p q H E1 E2|E1 E2]; rewrite <- E2 in Q; inversion Q as [q' r H' |]; subst; constructor.
  unfold gpool in *. rewrite H' at 1. rewrite H. done.
Qed.
Lemma governing_changes e i s m s' ms at' : governing m = true -> execute e i s m = Ok (s', ms, at') -> governed s s'.
Proof.
  intros G E. unfold execute in E. destruct (_ && _); [|done].
  assert (PK : forall k p q, st_pools s !! k = Some p -> gpool p q -> governed s (save_pool s k q)).
  { intros k p q P H. constructor; try done. intros k'. cbn. destruct (decide (k' = k)) as [->|N].
    - rewrite lookup_insert, P. by constructor.
    - rewrite lookup_insert_ne by congruence. apply (gv_pool _ _ _ _ (governed_refl s)). }
  assert (CK : forall c, governed s (set_config s c)) by (intros c; destruct (governed_refl s); by constructor).
  destruct m; cbn [governing dispatch] in *; try done.
  - unfold change_admin in E. destruct (negb _); [done|]. injection E as <- _ _. apply CK.
  - unfold withdraw_protocol_fee, get_pool in E. destruct (st_pools s !! k) as [p|] eqn:P; [|done]. cbn in E. destruct (negb _); [done|]. injection E as <- _ _. by eapply PK.
  - unfold change_protocol_fee in E. destruct (negb _); [done|]. injection E as <- _ _. apply CK.
  - unfold change_fee_receiver, get_pool in E. destruct (negb _); [done|]. destruct (st_pools s !! k) as [p|] eqn:P; [|done]. cbn in E. injection E as <- _ _. by eapply PK.
  - unfold add_fee_tier in E. destruct (negb _); [done|]. destruct (_ || _); [done|]. destruct (_ <=? _); [done|]. injection E as <- _ _. apply CK.
  - unfold remove_fee_tier in E. destruct (negb _); [done|]. destruct (remove_first _ _); [|done]. injection E as <- _ _. apply CK.
Qed.

Definition held_or_governed (zs : list call) : Prop := Forall (fun c : call => holding (snd c) = true \/ governing (snd c) = true) zs.
Definition held_calls (zs : list call) : list call := List.filter (fun c => holding (snd c)) zs.
(** the holders' calls and what they are answered *)
Definition answered (zs : list call) (s : store) : list (call * reply) :=
  List.filter (fun x => holding (snd (fst x))) (List.combine zs (fst (play zs s))).
Lemma answered_cons c zs s : answered (c :: zs) s = (if holding (snd c) then [(c, said c s)] else []) ++ answered zs (next c s).
Proof. unfold answered. rewrite play_cons. cbn. by destruct (holding (snd c)). Qed.
Lemma governing_next c s : governing (snd c) = true -> governed s (next c s).
Proof.
  destruct c as [[e i] m]. cbn. intros G. destruct (execute e i s m) as [[[s' ms] at']| |] eqn:E; [by eapply governing_changes|apply governed_refl..].
Qed.
Lemma holding_next c s t : holding (snd c) = true -> governed s t -> said c t = said c s /\ governed (next c s) (next c t).
Proof.
  destruct c as [[e i] m]. cbn. intros H L. unfold execute. destruct (_ && _); [|done].
  pose proof (gk_governed e i s t m H L) as D. unfold both in D.
  destruct (dispatch e i s m) as [[[s1 m1] a1]|x|], (dispatch e i t m) as [[[t1 n1] b1]|y|]; try done.
  - destruct D as (D1 & D2 & D3). cbn in *. by subst.
  - by subst.
Qed.
(** Leave out the governing calls: nothing changes for the holders. *)
Lemma answered_alone zs : forall s t, held_or_governed zs -> governed s t ->
  answered zs s = answered (held_calls zs) t /\ governed (snd (play zs s)) (snd (play (held_calls zs) t)).
Proof.
  induction zs as [|c zs IH]; intros s t F L; [by split|]. inversion F as [|? ? C F']; subst.
  rewrite answered_cons, play_cons. unfold held_calls. cbn [List.filter snd]. destruct (holding (snd c)) eqn:H.
  - fold (held_calls zs). rewrite answered_cons, play_cons, H. cbn [snd]. destruct (holding_next c s t H L) as [-> L'].
    destruct (IH _ _ F' L') as [-> I]. by split.
  - destruct C as [C|C]; [done|]. apply IH; [done|]. apply (governed_trans _ s); [|done]. apply governed_sym. by apply governing_next.
Qed.
(** Take two histories from one state in which no one trades or opens a pool. If they differ only in what is attempted as an admin or as a fee receiver (by anyone, in
    any order, with or without success), then every deposit, claim, withdrawal, transfer and permission is answered with the same transfers, events and errors, and in the
    end everyone has the same positions and operators. *)
Theorem C121_governance zs ws s : held_or_governed zs -> held_or_governed ws -> held_calls zs = held_calls ws ->
  answered zs s = answered ws s /\
  (forall a ix, get_position (snd (play zs s)) a ix = get_position (snd (play ws s)) a ix) /\
  (forall a limit offset, query_tokens (snd (play zs s)) a limit offset = query_tokens (snd (play ws s)) a limit offset) /\
  (forall e a x start limit, query_all_approvals e (snd (play zs s)) a x start limit = query_all_approvals e (snd (play ws s)) a x start limit) /\
  (forall k p, st_pools (snd (play zs s)) !! k = Some p -> exists q, st_pools (snd (play ws s)) !! k = Some q /\
     p_liq q = p_liq p /\ p_price q = p_price p /\ p_tick q = p_tick p /\ p_fgx q = p_fgx p /\ p_fgy q = p_fgy p).
Proof.
  intros F G H. destruct (answered_alone zs s s F (governed_refl s)) as [A1 A2]. destruct (answered_alone ws s s G (governed_refl s)) as [B1 B2].
  rewrite H in *. assert (L : governed (snd (play zs s)) (snd (play ws s))) by (eapply governed_trans; [exact A2|by apply governed_sym]).
  split; [by rewrite A1, B1|]. split; [intros a ix; by rewrite (gk_get_position _ _ _ _ _ _ L)|].
  split; [intros a limit offset; unfold query_tokens, position_page, get_position_length; by rewrite (gv_len _ _ _ _ L), ?(gv_positions _ _ _ _ L)|].
  split; [intros e a x start limit; unfold query_all_approvals; by rewrite (gv_operators _ _ _ _ L)|].
  intros k p P. pose proof (gv_pool _ _ _ _ L k) as Q. rewrite P in Q. destruct (of2_some _ _ _ Q) as (q & -> & E). exists q. rewrite E. done.
Qed.
(** At any time: whatever is done as an admin or a fee receiver just before a deposit, a claim, a withdrawal or a transfer, its answer is the same. *)
Theorem C121_next gs s e i m : Forall (fun c : call => governing (snd c) = true) gs -> holding m = true ->
  match execute e i s m, execute e i (snd (play gs s)) m with
  | Ok (_, ms, at'), Ok (_, ms', at'') => ms' = ms /\ at'' = at'
  | Err x, Err y => y = x
  | Panic, Panic => True
  | _, _ => False
  end.
Proof.
  intros G H. assert (L : governed s (snd (play gs s))).
  { revert s. induction gs as [|c gs IH]; intros s; [apply governed_refl|]. inversion G; subst. rewrite play_cons. cbn [snd].
    eapply governed_trans; [by apply (governing_next c)|by apply IH]. }
  unfold execute. destruct (_ && _); [|done]. pose proof (gk_governed e i s _ m H L) as D. unfold both in D.
  destruct (dispatch e i s m) as [[[s1 m1] a1]|x|], (dispatch e i (snd (play gs s)) m) as [[[t1 n1] b1]|y|]; try done. by destruct D as (_ & D2 & D3).
Qed.

(** * Examples *)
(** bob deposits, alice withdraws and claims; meanwhile alice, the admin, sets a protocol fee of 300 %, removes the tier, names bob the receiver and hands over the
    administration to carol, who fails to restore it. *)
Definition gov_users : list call :=
  [(v_env, v_info "bob", CreatePosition v_key (-30) 20 3000000000 MIN_SQRT_PRICE MAX_SQRT_PRICE); (v_env, v_info "alice", ClaimFee 1); (v_env, v_info "alice", RemovePosition 0);
   (v_env, v_info "bob", RemovePosition 7)]%string.
Definition gov_all : list call :=
  match gov_users with
  | [a; b; c; d] => [(v_env, v_info "alice", ChangeProtocolFee 3000000000000); a; (v_env, v_info "alice", RemoveFeeTier (pk_tier v_key)); (v_env, v_info "alice", ChangeFeeReceiver v_key "bob"); b;
      (v_env, v_info "bob", WithdrawProtocolFee v_key); (v_env, v_info "alice", ChangeAdmin "carol"); c; (v_env, v_info "alice", ChangeProtocolFee 0); d]
  | _ => []
  end%string.
Example ex_C121 : held_or_governed gov_users /\ held_or_governed gov_all /\ held_calls gov_all = held_calls gov_users /\
  map is_ok (fst (play gov_all sc0)) = [true; true; true; true; true; true; true; true; false; false] /\
  map (fun x => is_ok (snd x)) (answered gov_users sc0) = [true; true; true; false] /\
  query_admin (snd (play gov_all sc0)) = "carol"%string.
Proof.
  split; [repeat constructor; by auto|]. split; [cbn; repeat (constructor; [cbn; by auto|]); constructor|]. split; [reflexivity|]. split; [vm_compute; reflexivity|].
  split; vm_compute; reflexivity.
Qed.
