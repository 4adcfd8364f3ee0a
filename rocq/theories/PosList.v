(** An owner's positions as a list, and the effect of the list operations on it. *)
From Verif Require Import Base Decimal Types Keys State Swap Exec Query Tactics Frame Handlers History Basic.
From stdpp Require Import gmap strings.
From Coq Require Import Lia.
Open Scope Z_scope.

(** the positions of owner [a], in index order *)
Definition owner_list (s : store) (a : string) : list position :=
  omap (fun j => st_positions s !! (a, j)) (seqZ 0 (plen s a)).

(** [Vec::swap_remove] *)
Definition swap_remove {A} (ix : nat) (l : list A) : list A :=
  match last l with
  | None => l
  | Some x => take (length l - 1) (<[ix := x]> l)
  end.

Lemma swap_remove_length {A} ix (l : list A) : length (swap_remove ix l) = (length l - 1)%nat.
Proof.
  unfold swap_remove. destruct (last l) eqn:E.
  - rewrite take_length, insert_length. lia.
  - apply last_None in E. by subst.
Qed.

Lemma swap_remove_perm {A} ix (l : list A) x :
  l !! ix = Some x -> Permutation l (x :: swap_remove ix l).
Proof.
  intros E. unfold swap_remove. destruct (last l) as [y|] eqn:L; [|apply last_None in L; by subst].
  apply last_Some in L. destruct L as [l0 ->]. rewrite app_length. cbn.
  replace (length l0 + 1 - 1)%nat with (length l0) by lia.
  destruct (decide (ix = length l0)) as [->|N].
  - rewrite list_lookup_middle in E by done. simplify_eq.
    rewrite insert_app_r_alt, Nat.sub_diag by done. cbn. rewrite take_app.
    rewrite Permutation_app_comm. done.
  - assert (ix < length l0)%nat. { apply lookup_lt_Some in E. rewrite app_length in E. cbn in E. lia. }
    rewrite lookup_app_l in E by done. rewrite insert_app_l by done.
    rewrite take_app_alt by (by rewrite insert_length).
    apply take_drop_middle in E. rewrite <- E at 1.
    rewrite insert_take_drop by done.
    rewrite <- !app_assoc. cbn.
    rewrite <- Permutation_middle. constructor. apply Permutation_app_head.
    rewrite Permutation_app_comm. done.
Qed.

Lemma seqZ_lookup_nat m n (j : nat) : Z.of_nat j < n -> seqZ m n !! j = Some (m + Z.of_nat j).
Proof. intros. apply lookup_seqZ. lia. Qed.

Lemma omap_all {A B} (f : A -> option B) (l : list A) (j : nat) x :
  (forall a, a ∈ l -> is_Some (f a)) -> l !! j = Some x -> omap f l !! j = f x.
Proof.
  revert j. induction l as [|a l IH]; intros j F E; [done|]. cbn.
  destruct (F a) as [b Eb]; [set_solver|]. rewrite Eb. destruct j; cbn in *.
  - simplify_eq. done.
  - apply IH; [|done]. intros c Hc. apply F. set_solver.
Qed.
Lemma omap_all_length {A B} (f : A -> option B) (l : list A) :
  (forall a, a ∈ l -> is_Some (f a)) -> length (omap f l) = length l.
Proof.
  induction l as [|a l IH]; intros F; [done|]. cbn. destruct (F a) as [b Eb]; [set_solver|]. rewrite Eb. cbn.
  rewrite IH; [done|]. intros c Hc. apply F. set_solver.
Qed.

Lemma owner_list_all s a : pos_ok s -> forall j, j ∈ seqZ 0 (plen s a) -> is_Some (st_positions s !! (a, j)).
Proof. intros P j H. apply P. apply elem_of_seqZ in H. lia. Qed.

Lemma owner_list_length s a : pos_ok s -> length (owner_list s a) = Z.to_nat (plen s a).
Proof.
  intros P. unfold owner_list. rewrite omap_all_length by (by apply owner_list_all). apply seqZ_length.
Qed.

Lemma owner_list_lookup s a (j : nat) : pos_ok s -> owner_list s a !! j = st_positions s !! (a, Z.of_nat j).
Proof.
  intros P. destruct (decide (Z.of_nat j < plen s a)) as [L|N].
  - unfold owner_list. erewrite omap_all; [|by apply owner_list_all|by apply seqZ_lookup_nat]. done.
  - rewrite lookup_ge_None_2 by (rewrite owner_list_length by done; destruct P as [R _]; specialize (R a); lia).
    destruct (st_positions s !! (a, Z.of_nat j)) eqn:E; [|done].
    exfalso. apply N. apply P. eauto.
Qed.

Lemma owner_list_ext s s' a :
  (forall j, st_positions s' !! (a, j) = st_positions s !! (a, j)) -> plen s' a = plen s a ->
  owner_list s' a = owner_list s a.
Proof. intros E L. unfold owner_list. rewrite L. generalize (seqZ 0 (plen s a)). intros l. induction l as [|j l IH]; [done|]. cbn. rewrite E, IH. done. Qed.

Lemma owner_list_add s a po s' :
  pos_ok s -> add_position s a po = Ok s' ->
  owner_list s' a = owner_list s a ++ [po] /\ forall b, b <> a -> owner_list s' b = owner_list s b.
Proof.
  intros P H. assert (P' : pos_ok s') by (eapply pos_ok_add; eassumption).
  apply add_position_inv in H. destruct H as [-> _]. split.
  - apply list_eq. intros j. rewrite owner_list_lookup by done. cbn.
    pose proof (ct_range _ _ P a) as R.
    destruct (decide (Z.of_nat j = plen s a)) as [E|N].
    + rewrite E, lookup_insert. symmetry. apply list_lookup_middle. rewrite owner_list_length by done. lia.
    + rewrite lookup_insert_ne by congruence. rewrite <- owner_list_lookup by done.
      destruct (decide (Z.of_nat j < plen s a)).
      * symmetry. apply lookup_app_l. rewrite owner_list_length by done. lia.
      * rewrite !lookup_ge_None_2; [done| |]; rewrite ?app_length, owner_list_length by done; cbn; lia.
  - intros b N. apply owner_list_ext.
    + intros j. cbn. apply lookup_insert_ne. congruence.
    + rewrite plen_insert. by rewrite decide_False.
Qed.

Lemma owner_list_removed s s' a i m :
  pos_ok s -> is_Some (st_positions s !! (a, i)) ->
  swap_removed a i (plen s a - 1) (st_positions s) m ->
  st_positions s' = m -> st_poslen s' = <[a := plen s a - 1]> (st_poslen s) ->
  pos_ok s' /\
  owner_list s' a = swap_remove (Z.to_nat i) (owner_list s a) /\
  forall b, b <> a -> owner_list s' b = owner_list s b.
Proof.
  intros P Hi SR Em El. pose proof (proj1 (ct_some _ _ P a i) Hi) as Ri.
  assert (PL : forall b, plen s' b = if decide (b = a) then plen s a - 1 else plen s b).
  { intros b. unfold plen at 1, get_position_length. rewrite El. apply (plen_insert s a _ m). }
  assert (P' : pos_ok s').
  { unfold pos_ok. rewrite Em. eapply contiguous_ext; [|eapply swap_removed_contiguous; [exact P|reflexivity|exact Hi|exact SR]].
    intros b. by rewrite PL. }
  split; [done|]. split.
  - apply list_eq. intros j. rewrite owner_list_lookup by done. rewrite Em.
    unfold swap_remove. rewrite last_lookup, owner_list_length by done.
    rewrite owner_list_lookup by done.
    replace (Z.of_nat (Init.Nat.pred (Z.to_nat (plen s a)))) with (plen s a - 1) by lia.
    destruct (proj2 (ct_some _ _ P a (plen s a - 1)) ltac:(lia)) as [y Ey]. rewrite Ey.
    destruct (decide (Z.of_nat j < plen s a - 1)) as [Lj|Lj].
    + rewrite lookup_take by lia.
      destruct (decide (Z.of_nat j = i)) as [E|N].
      * subst i. rewrite Nat2Z.id. rewrite list_lookup_insert by (rewrite owner_list_length by done; lia).
        destruct SR as [(L & last & E' & ->)|(L & ->)]; [|lia]. rewrite lookup_insert. congruence.
      * rewrite list_lookup_insert_ne by lia. rewrite owner_list_lookup by done.
        destruct SR as [(L & last & E' & ->)|(L & ->)].
        -- rewrite lookup_insert_ne, lookup_delete_ne by (intros [=]; lia). done.
        -- rewrite lookup_delete_ne by (intros [=]; lia). done.
    + rewrite lookup_take_ge by lia.
      destruct (m !! (a, Z.of_nat j)) eqn:E; [|done]. exfalso.
      assert (0 <= Z.of_nat j < plen s' a) by (apply P'; rewrite Em; eauto).
      rewrite PL, decide_True in H by done. lia.
  - intros b N. apply owner_list_ext.
    + intros j. rewrite Em. destruct SR as [(L & last & E' & ->)|(L & ->)].
      * rewrite lookup_insert_ne, lookup_delete_ne by congruence. done.
      * rewrite lookup_delete_ne by congruence. done.
    + rewrite PL. by rewrite decide_False.
Qed.

Lemma owner_list_remove s a i s' po :
  pos_ok s -> remove_position s a i = Ok (s', po) ->
  pos_ok s' /\ owner_list s a !! Z.to_nat i = Some po /\ 0 <= i < plen s a /\
  owner_list s' a = swap_remove (Z.to_nat i) (owner_list s a) /\
  forall b, b <> a -> owner_list s' b = owner_list s b.
Proof.
  intros P H. apply remove_position_inv in H. destruct H as (E & PL & m & SR & ->).
  pose proof (proj1 (ct_some _ _ P a i) ltac:(eauto)) as Ri.
  edestruct (owner_list_removed s (set_positions s m (<[a := plen s a - 1]> (st_poslen s)))) as (P' & L1 & L2); [exact P|by eauto|exact SR|reflexivity|reflexivity|].
  split; [exact P'|]. split; [|auto].
  rewrite owner_list_lookup by done. by rewrite Z2Nat.id by lia.
Qed.

(** writing an existing entry *)
Lemma owner_list_write s s' a i po :
  pos_ok s -> is_Some (st_positions s !! (a, i)) ->
  st_positions s' = <[(a, i) := po]> (st_positions s) -> st_poslen s' = st_poslen s ->
  owner_list s' a = <[Z.to_nat i := po]> (owner_list s a) /\
  forall b, b <> a -> owner_list s' b = owner_list s b.
Proof.
  intros P Hi Em El. pose proof (proj1 (ct_some _ _ P a i) Hi) as Ri.
  assert (PL : forall b, plen s' b = plen s b) by (intros b; unfold plen, get_position_length; by rewrite El).
  assert (P' : pos_ok s').
  { unfold pos_ok. rewrite Em. eapply contiguous_ext; [intros b; symmetry; apply PL|].
    eapply pos_ok_same_dom; [|exact P]. by apply insert_same_dom. }
  split.
  - apply list_eq. intros j. rewrite owner_list_lookup by done. rewrite Em.
    destruct (decide (Z.of_nat j = i)) as [E|N].
    + subst i. rewrite Nat2Z.id, lookup_insert. rewrite list_lookup_insert; [done|].
      rewrite owner_list_length by done. lia.
    + rewrite lookup_insert_ne by congruence. rewrite list_lookup_insert_ne by lia. by rewrite owner_list_lookup.
  - intros b N. apply owner_list_ext; [|apply PL]. intros j. rewrite Em. apply lookup_insert_ne. congruence.
Qed.

(** a page of the listing *)
Lemma collect_ok {A B} (f : A -> res B) (g : A -> option B) l :
  (forall a, a ∈ l -> exists b, g a = Some b /\ f a = Ok b) -> collect f l = Ok (omap g l).
Proof.
  induction l as [|a l IH]; intros H; [done|]. cbn. destruct (H a) as (b & E1 & E2); [set_solver|].
  rewrite E1, E2. cbn. rewrite IH; [done|]. intros c Hc. apply H. set_solver.
Qed.

Lemma query_positions_page s a limit offset :
  pos_ok s -> 0 <= default 0 offset -> 0 <= default MAX_LIMIT limit ->
  default 0 offset + default MAX_LIMIT limit <= U32MAX ->
  query_positions s a limit offset
  = Ok (take (Z.to_nat (default MAX_LIMIT limit)) (drop (Z.to_nat (default 0 offset)) (owner_list s a))).
Proof.
  intros P. set (o := default 0 offset). set (n := default MAX_LIMIT limit). intros Ho Hn HU.
  unfold query_positions, position_page. fold o n.
  rewrite (proj2 (ckp_ok U32MAX (o + n) (o + n))) by lia. cbn [bind].
  fold (plen s a). pose proof (ct_range _ _ P a) as R.
  rewrite (collect_ok _ (fun j => st_positions s !! (a, j))).
  - f_equal. apply list_eq. intros j.
    destruct (decide (Z.of_nat j < Z.min (plen s a) (o + n) - o)) as [L|N].
    + rewrite lookup_take, lookup_drop by lia. rewrite owner_list_lookup by done.
      erewrite omap_all; [|intros x Hx; apply P; apply elem_of_seqZ in Hx; lia|by apply seqZ_lookup_nat].
      f_equal. f_equal. lia.
    + rewrite lookup_ge_None_2.
      2: { rewrite omap_all_length; [rewrite seqZ_length; lia|]. intros x Hx. apply P. apply elem_of_seqZ in Hx. lia. }
      symmetry. apply lookup_ge_None_2. rewrite take_length, drop_length, owner_list_length by done. lia.
  - intros j Hj. apply elem_of_seqZ in Hj. unfold get_position.
    destruct (proj2 (ct_some _ _ P a j) ltac:(lia)) as [po E]. rewrite E. eauto.
Qed.
