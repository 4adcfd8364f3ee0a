(** C53-C55: positions seen as non-fungible tokens. *)
From Verif Require Import Base Decimal SqrtPrice Clamm FeeGrowth Types Tick Pool Position Keys State Swap Exec Query Tactics
  KeysProofs Frame Handlers History Basic PosList Vectors Scenario PropAuth PropQuery LiqInv Ops Forward PropSolv.
From stdpp Require Import gmap strings sorting.
From Coq Require Import Lia.
Open Scope Z_scope.

(** ** Paging with [start_after] *)
(** every page of a listing, the next one starting after the last entry of the previous one *)
Inductive listing {A} (key : A -> string) (q : option string -> list A) : option string -> list A -> Prop :=
| lst_end start : q start = [] -> listing key q start []
| lst_page start l x rest : q start = l ++ [x] -> listing key q (Some (key x)) rest -> listing key q start (l ++ x :: rest).

Definition after_key {A} (key : A -> string) (start : option string) (l : list A) : list A :=
  match start with None => l | Some k => List.filter (fun x => String.ltb k (key x)) l end.
Lemma after_split {A} (key : A -> string) pre x suf :
  StronglySorted (fun a b => String.compare (key a) (key b) = Lt) (pre ++ x :: suf) -> after_key key (Some (key x)) (pre ++ x :: suf) = suf.
Proof.
  intros SS. cbn [after_key]. rewrite List.filter_app. cbn [List.filter]. rewrite string_ltb_irrefl. rewrite filter_none, filter_all; [done| |].
  - replace (pre ++ x :: suf) with ((pre ++ [x]) ++ suf) in SS by (by rewrite <- app_assoc). apply Forall_forall. intros y Hy.
    pose proof (elem_of_StronglySorted_app _ _ _ x y SS ltac:(set_solver) Hy) as L. unfold String.ltb. by rewrite L.
  - apply Forall_forall. intros y Hy. pose proof (elem_of_StronglySorted_app _ _ _ y x SS Hy ltac:(set_solver)) as L.
    unfold String.ltb. rewrite String.compare_antisym, L. done.
Qed.
Lemma listing_complete {A} (key : A -> string) (q : option string -> list A) n L : (0 < n)%nat ->
  StronglySorted (fun a b => String.compare (key a) (key b) = Lt) L -> (forall start, q start = take n (after_key key start L)) ->
  forall l, listing key q None l <-> l = L.
Proof.
  intros N SS Q.
  assert (ALL : forall c pre suf start, (length suf <= c)%nat -> L = pre ++ suf ->
     (pre = [] /\ start = None \/ exists pre' x, pre = pre' ++ [x] /\ start = Some (key x)) -> forall l, listing key q start l <-> l = suf).
  { induction c as [|c IH]; intros pre suf start Hc E HS l.
    all: assert (QQ : q start = take n suf) by
      (rewrite Q; destruct HS as [[-> ->]|(pre' & x & -> & ->)]; [by rewrite E|]; rewrite E, <- app_assoc; cbn [app]; rewrite after_split; [done|]; rewrite E, <- app_assoc in SS; exact SS).
    - destruct suf; [|cbn in Hc; lia]. rewrite take_nil in QQ. split.
      + intros H. inversion H as [? Q1|? l0 x rest Q1]; subst; [done|]. rewrite QQ in Q1. by destruct l0.
      + intros ->. by constructor.
    - destruct suf as [|y suf'].
      { rewrite take_nil in QQ. split.
        - intros H. inversion H as [? Q1|? l0 x rest Q1]; subst; [done|]. rewrite QQ in Q1. by destruct l0.
        - intros ->. by constructor. }
      set (suf := y :: suf') in *. assert (NE : take n suf <> []) by (unfold suf; destruct n; [lia|done]).
      destruct (exists_last NE) as (pg & z & Z). rewrite Z in QQ.
      assert (SP : suf = (pg ++ [z]) ++ drop n suf) by (rewrite <- Z; by rewrite take_drop).
      assert (NX : forall l'', listing key q (Some (key z)) l'' <-> l'' = drop n suf).
      { apply (IH (pre ++ pg ++ [z])).
        - rewrite drop_length. unfold suf in *. cbn [length] in *. lia.
        - rewrite E. rewrite SP at 1. by rewrite !app_assoc.
        - right. exists (pre ++ pg), z. split; [by rewrite app_assoc|done]. }
      rewrite SP, <- app_assoc. cbn [app]. split.
      + intros H. inversion H as [? Q1|? l0 x rest Q1 L1]; subst.
        * rewrite QQ in Q1. by destruct pg.
        * rewrite QQ in Q1. apply app_inj_tail in Q1. destruct Q1 as [<- <-]. by apply NX in L1 as ->.
      + intros ->. apply lst_page; [done|]. by apply NX. }
  intros l. apply (ALL (length L) [] L None); [lia|done|by left].
Qed.
(** sorted by distinct keys *)
Lemma sorted_keys {A} (l : list (string * A)) : NoDup (map fst l) ->
  StronglySorted (fun a b : string * A => String.compare (fst a) (fst b) = Lt) (merge_sort key_le l).
Proof.
  intros ND. assert (S0 : StronglySorted key_le (merge_sort key_le l)) by (apply StronglySorted_merge_sort; apply _).
  assert (N0 : NoDup (map fst (merge_sort key_le l))).
  { assert (P2 : Permutation (map fst l) (map fst (merge_sort key_le l))) by (apply Permutation_map; symmetry; apply merge_sort_Permutation). by rewrite <- P2. }
  revert S0 N0. generalize (merge_sort key_le l). clear. induction 1 as [|x l S IH F]; cbn; intros N; [constructor|]. inversion_clear N as [|? ? N1 N2]. constructor; [by apply IH|].
  rewrite Forall_forall in F |- *. intros y Hy. specialize (F y Hy). unfold key_le in F. apply leb_cases in F. destruct F as [Q|]; [|done].
  exfalso. apply N1. rewrite Q. apply elem_of_list_fmap. eauto.
Qed.
Lemma NoDup_map_inj {A B} (f : A -> B) l : NoDup l -> (forall a b, a ∈ l -> b ∈ l -> f a = f b -> a = b) -> NoDup (map f l).
Proof.
  induction 1 as [|x l N ND IH]; intros IJ; cbn; [constructor|]. constructor.
  - rewrite elem_of_list_In, in_map_iff. intros (y & Q & Hy). apply elem_of_list_In in Hy. apply N.
    rewrite <- (IJ y x); [done|by apply elem_of_list_further|apply elem_of_list_here|done].
  - apply IH. intros a b Ha Hb. apply IJ; by apply elem_of_list_further.
Qed.
Lemma after_map {A B} (key : B -> string) (f : A -> B) start l : after_key key start (map f l) = map f (after_key (fun x => key (f x)) start l).
Proof.
  destruct start as [k|]; [|done]. cbn. induction l as [|x l IH]; cbn; [done|]. rewrite IH. by destruct (String.ltb _ _).
Qed.
Lemma SS_map {A B} (R : B -> B -> Prop) (f : A -> B) l : StronglySorted (fun a b => R (f a) (f b)) l -> StronglySorted R (map f l).
Proof.
  induction 1 as [|x l S IH F]; cbn; [constructor|]. constructor; [done|]. apply Forall_forall. rewrite Forall_forall in F. intros y Hy.
  apply elem_of_list_fmap in Hy. destruct Hy as (z & -> & Hz). by apply F.
Qed.
Lemma SS_filter {A} (R : A -> A -> Prop) (f : A -> bool) l : StronglySorted R l -> StronglySorted R (List.filter f l).
Proof.
  induction 1 as [|x l S IH F]; cbn; [constructor|]. destruct (f x); [|exact IH]. constructor; [exact IH|]. apply Forall_forall. rewrite Forall_forall in F. intros y Hy.
  apply F. apply elem_of_list_In in Hy. apply List.filter_In in Hy. apply elem_of_list_In. tauto.
Qed.

Lemma token_index s o ix : ereach s -> is_Some (st_positions s !! (o, ix)) -> 0 <= ix < 2 ^ 32.
Proof.
  intros R E. pose proof (proj1 (ct_some _ _ (ereach_pos_ok _ R) o ix) E). pose proof (ct_range _ _ (ereach_pos_ok _ R) o) as IR. unfold U32MAX in IR. lia.
Qed.

(** * C53 *)
(** Paging through all tokens lists the token of every position exactly once, whatever the page size. *)
Theorem C53_listing s : reachable s ->
  exists L, NoDup L /\ (forall t, t ∈ L <-> exists o ix po, st_positions s !! (o, ix) = Some po /\ t = position_key_bytes o ix) /\
    forall limit, 1 <= default 100 limit -> forall l, listing id (fun start => query_all_tokens s start limit) None l <-> l = L.
Proof.
  intros R. apply reachable_ereach in R.
  set (raw := map (fun p : string * Z * position => (position_key_bytes (fst (fst p)) (snd (fst p)), tt)) (map_to_list (st_positions s))).
  assert (MR : forall t, (exists u, (t, u) ∈ raw) <-> exists o ix po, st_positions s !! (o, ix) = Some po /\ t = position_key_bytes o ix).
  { intros t. unfold raw. split.
    - intros [u H]. rewrite elem_of_list_In, in_map_iff in H. destruct H as ([[o ix] po] & Q & H). cbn in Q. injection Q as <- <-.
      exists o, ix, po. split; [|done]. apply elem_of_map_to_list. by apply elem_of_list_In.
    - intros (o & ix & po & H & ->). exists tt. rewrite elem_of_list_In, in_map_iff. exists (o, ix, po). split; [done|].
      apply elem_of_list_In. by apply elem_of_map_to_list. }
  assert (ND : NoDup (map fst raw)).
  { unfold raw. rewrite map_map. cbn [fst]. apply NoDup_map_inj; [apply NoDup_map_to_list|].
    intros [[o ix] po] [[o' ix'] po'] Ha Hb Q. apply elem_of_map_to_list in Ha, Hb. cbn in Q.
    pose proof (split_token_round o ix (token_index s o ix R (mk_is_Some _ _ Ha))) as T1.
    pose proof (split_token_round o' ix' (token_index s o' ix' R (mk_is_Some _ _ Hb))) as T2. rewrite Q, T2 in T1. injection T1 as -> ->.
    rewrite Ha in Hb. injection Hb as ->. done. }
  pose proof (sorted_keys raw ND) as SS. set (srt := merge_sort key_le raw) in *.
  assert (PM : Permutation srt raw) by apply merge_sort_Permutation.
  exists (map fst srt). split; [|split].
  - assert (P2 : Permutation (map fst srt) (map fst raw)) by (by apply Permutation_map). by rewrite P2.
  - intros t. rewrite <- MR. rewrite elem_of_list_In, in_map_iff. setoid_rewrite <- elem_of_list_In. setoid_rewrite PM. split.
    + intros ([t' u] & Q & H). cbn in Q. subst. eauto.
    + intros [u H]. by exists (t, u).
  - intros limit HL. apply (listing_complete id _ (page_size limit)).
    + unfold page_size. change MAX_LIMIT with 100. lia.
    + by apply SS_map.
    + intros start. unfold query_all_tokens. fold raw. rewrite after_map. cbn. unfold range_raw. fold srt. by destruct start.
Qed.
(** A token id resolves exactly to the position it names, and its owner is reported. *)
Theorem C53_resolves e s t po : reachable s ->
  (query_nft_info s t = Ok po <-> exists o ix, st_positions s !! (o, ix) = Some po /\ t = position_key_bytes o ix) /\
  forall o ix b, st_positions s !! (o, ix) = Some po -> t = position_key_bytes o ix -> e_utf8_ok e o = true ->
    exists l, query_owner_of e s t b = Ok (o, l) /\ query_all_nft_info e s t b = Ok (o, l, po) /\
      forall a, In a l <-> In a (po_approvals po) /\ (b = true \/ live e (ap_expires a)).
Proof.
  intros R. apply reachable_ereach in R. split.
  - unfold query_nft_info, get_position_by_key, get_position. destruct (split_token t) as [[o ix]|] eqn:T.
    + apply split_token_inv in T. destruct T as [<- HI]. split.
      * intros H. destruct (st_positions s !! (o, ix)) eqn:E; [|done]. apply Ok_inj in H. subst. eauto.
      * intros (o' & ix' & E & Q). pose proof (split_token_round o ix HI) as T1.
        pose proof (split_token_round o' ix' (token_index _ _ _ R (mk_is_Some _ _ E))) as T2. rewrite Q, T2 in T1. injection T1 as -> ->. by rewrite E.
    + split; [done|]. intros (o' & ix' & E & ->). by rewrite (split_token_round o' ix' (token_index _ _ _ R (mk_is_Some _ _ E))) in T.
  - intros o ix b E -> U. pose proof (split_token_round o ix (token_index _ _ _ R (mk_is_Some _ _ E))) as T.
    unfold query_all_nft_info, query_owner_of, get_position_by_key, get_position. rewrite T, U, E. cbn [negb bind]. eexists. split; [reflexivity|].
    split; [reflexivity|]. intros a. unfold humanize_approvals. rewrite List.filter_In, live_expired, orb_true_iff, negb_true_iff. done.
Qed.

(** * C54 *)
(** A page of an owner's tokens is a slice of the owner's list that includes index [start_after]. *)
Theorem C54_tokens_partial s a start limit : reachable s -> 0 <= default 0 start -> 0 <= default 100 limit -> default 0 start + default 100 limit < 2 ^ 32 ->
  exists l, query_tokens s a start limit = Ok l /\ NoDup l /\
    forall t, t ∈ l <-> exists ix, t = position_key_bytes a ix /\ is_Some (st_positions s !! (a, ix)) /\
      default 0 start <= ix < default 0 start + default 100 limit.
Proof.
  intros R H1 H2 H3. apply reachable_ereach in R. unfold query_tokens, position_page. change MAX_LIMIT with 100.
  rewrite ckp_yes by (unfold U32MAX; lia). cbn [bind]. set (f := default 0 start) in *. set (n := default 100 limit) in *. fold (plen s a).
  pose proof (ct_some _ _ (ereach_pos_ok _ R) a) as CS. fold (plen s a) in CS. pose proof (ct_range _ _ (ereach_pos_ok _ R) a) as IR. fold (plen s a) in IR. unfold U32MAX in IR.
  eexists. split; [reflexivity|]. split.
  - apply NoDup_map_inj; [apply NoDup_seqZ|]. intros x y Hx Hy Q. apply elem_of_seqZ in Hx, Hy.
    pose proof (split_token_round a x ltac:(lia)) as T1. pose proof (split_token_round a y ltac:(lia)) as T2. rewrite Q, T2 in T1. by injection T1 as ->.
  - intros t. rewrite elem_of_list_In, in_map_iff. setoid_rewrite <- elem_of_list_In. setoid_rewrite elem_of_seqZ. setoid_rewrite CS. split.
    + intros (ix & <- & H). exists ix. split; [done|]. lia.
    + intros (ix & -> & H & H'). exists ix. split; [done|]. lia.
Qed.
(** So the documented paging, passing the index of the last token seen, repeats that token, and with one token per page never ends. *)
Theorem C54_paging_refuted : exists s a t, reachable s /\ query_tokens s a None (Some 1) = Ok [t] /\ split_token t = Some (a, 0) /\
  query_tokens s a (Some 0) (Some 1) = Ok [t] /\ query_tokens s a None None = Ok [t; position_key_bytes a 1].
Proof.
  exists sc0, "alice"%string, (position_key_bytes "alice" 0). split; [exact sc0_reachable|]. vm_compute. repeat split.
Qed.

(** * C55 *)
Definition operators_page (e : env) (s : store) (o : string) (b : bool) (limit : option Z) (start : option string) : list (string * expiration) :=
  query_all_approvals e s o b start limit.
(** Paging through an owner's operators lists every (live) grant exactly once. *)
Lemma operators_listing e s o b : exists L, NoDup (map fst L) /\
  (forall a x, (a, x) ∈ L <-> st_operators s !! (o, a) = Some x /\ (b = true \/ live e x)) /\
  (forall limit start, operators_page e s o b limit start = take (page_size limit) (after_key fst start L)) /\
  StronglySorted (fun x y : string * expiration => String.compare (fst x) (fst y) = Lt) L.
Proof.
  set (raw := omap (fun p : string * string * expiration => if String.eqb (fst (fst p)) o then Some (snd (fst p), snd p) else None) (map_to_list (st_operators s))).
  assert (MR : forall a x, (a, x) ∈ raw <-> st_operators s !! (o, a) = Some x).
  { intros a x. unfold raw. rewrite elem_of_list_omap. split.
    - intros ([[o' a'] x'] & H & Q). cbn in Q. destruct (String.eqb_spec o' o) as [->|]; [|done]. injection Q as <- <-. by apply elem_of_map_to_list in H.
    - intros H. exists (o, a, x). split; [by apply elem_of_map_to_list|]. cbn. by rewrite String.eqb_refl. }
  assert (ND : NoDup (map fst raw)).
  { pose proof (NoDup_map_to_list (st_operators s)) as N. unfold raw. clear MR raw.
    assert (U : forall p p', p ∈ map_to_list (st_operators s) -> p' ∈ map_to_list (st_operators s) -> fst p = fst p' -> p = p').
    { intros [q x] [q' x'] H H' Q. cbn in Q. subst q'. apply elem_of_map_to_list in H, H'. congruence. }
    revert U N. generalize (map_to_list (st_operators s)). induction l as [|[[o' a] x] l IH]; cbn; intros U N; [constructor|].
    inversion_clear N as [|? ? N1 N2]. specialize (IH ltac:(intros p p' H H'; apply U; by apply elem_of_list_further) N2).
    destruct (String.eqb_spec o' o) as [->|]; [|exact IH]. cbn. constructor; [|exact IH].
    intros H. apply elem_of_list_fmap in H. destruct H as ([a' x'] & Q0 & H). cbn in Q0. subst a'. apply elem_of_list_omap in H. destruct H as ([[o'' a''] x''] & H & Q). cbn in Q.
    destruct (String.eqb_spec o'' o) as [->|]; [|done]. injection Q as -> ->. apply N1.
    rewrite (U (o, a, x) (o, a, x')); [done|apply elem_of_list_here|by apply elem_of_list_further|done]. }
  pose proof (sorted_keys raw ND) as SS. set (srt := merge_sort key_le raw) in *. assert (PM : Permutation srt raw) by apply merge_sort_Permutation.
  set (fl := fun p : string * expiration => b || negb (is_expired e (snd p))). exists (List.filter fl srt).
  pose proof (SS_filter _ fl _ SS) as SF. split; [|split; [|split]].
  - revert SF. generalize (List.filter fl srt). induction 1 as [|x l S IH F]; cbn; [constructor|]. constructor; [|done]. intros H.
    apply elem_of_list_fmap in H. destruct H as (y & Q & H). rewrite Forall_forall in F. specialize (F _ H). rewrite Q in F. cbn in F.
    pose proof (string_ltb_irrefl (fst y)) as I. unfold String.ltb in I. by rewrite F in I.
  - intros a x. rewrite <- MR, <- PM. rewrite elem_of_list_In, List.filter_In, <- elem_of_list_In. unfold fl. cbn [snd].
    rewrite live_expired, orb_true_iff, negb_true_iff. done.
  - intros limit start. unfold operators_page, query_all_approvals. fold raw. unfold range_raw. fold srt. fold fl. f_equal.
    destruct start as [k|]; [|done]. cbn [after after_key]. clearbody srt. clear. induction srt as [|x l IH]; cbn; [done|].
    destruct (String.ltb k (fst x)) eqn:A, (fl x) eqn:B; cbn; rewrite ?A, ?B, ?IH; done.
  - exact SF.
Qed.
Theorem C55_operators_listing e s o b : exists L, NoDup (map fst L) /\
  (forall a x, (a, x) ∈ L <-> st_operators s !! (o, a) = Some x /\ (b = true \/ live e x)) /\
  forall limit, 1 <= default 100 limit -> forall l, listing fst (operators_page e s o b limit) None l <-> l = L.
Proof.
  destruct (operators_listing e s o b) as (L & ND & M & Q & SS). exists L. split; [done|]. split; [done|]. intros limit HL.
  apply (listing_complete fst _ (page_size limit)); [|done|apply Q]. unfold page_size. change MAX_LIMIT with 100. lia.
Qed.
Lemma listing_pages {A} (key : A -> string) q start l : listing key q start l -> forall x, x ∈ l -> exists start', x ∈ q start'.
Proof.
  induction 1 as [start H|start l x rest H L IH]; intros y Hy; [by apply elem_of_nil in Hy|]. apply elem_of_app in Hy. destruct Hy as [Hy|Hy].
  - exists start. rewrite H. set_solver.
  - apply elem_of_cons in Hy. destruct Hy as [->|Hy]; [exists start; rewrite H; set_solver|by apply IH].
Qed.
Lemma operator_reported e s o a : operator_grant e s o a <-> exists start limit x, (a, x) ∈ operators_page e s o false limit start.
Proof.
  destruct (operators_listing e s o false) as (L & ND & M & Q & SS). unfold operator_grant. split.
  - intros (x & E & LV). assert (H : (a, x) ∈ L) by (apply M; tauto).
    assert (LL : listing fst (operators_page e s o false None) None L).
    { apply (listing_complete fst _ (page_size None) L); [|done|apply Q|done]. unfold page_size. change MAX_LIMIT with 100. cbn. lia. }
    destruct (listing_pages _ _ _ _ LL _ H) as [start H']. eauto.
  - intros (start & limit & x & H). rewrite Q in H. exists x. apply (proj1 (elem_of_list_In _ _)) in H.
    assert (H' : In (a, x) (after_key fst start L)).
    { rewrite <- (take_drop (page_size limit) (after_key fst start L)). apply in_app_iff. by left. }
    assert (H2 : (a, x) ∈ L). { apply elem_of_list_In. destruct start; [|done]. cbn in H'. apply List.filter_In in H'. tauto. }
    apply M in H2. destruct H2 as [H2 [|]]; [done|]. tauto.
Qed.

(** who the queries say may move token [t] of owner [o] *)
Definition reported_operator (e : env) (s : store) (o a : string) : Prop :=
  exists start limit x, In (a, x) (query_all_approvals e s o false start limit).
Definition reported_approval (e : env) (s : store) (t a : string) : Prop :=
  exists o l x, query_owner_of e s t false = Ok (o, l) /\ In (mkApproval a x) l.
(** A transfer, sending, approval or revocation succeeds exactly for the callers that the queries report. *)
Theorem C55_honoured e i s o ix : reachable s -> is_Some (st_positions s !! (o, ix)) -> e_utf8_ok e o = true -> env_typed e i = true ->
  let t := position_key_bytes o ix in
  let op := i_sender i = o \/ reported_operator e s o (i_sender i) in
  (forall r, st_positions s !! (r, 2 ^ 32 - 2) = None ->
     ((exists s' ms at', execute e i s (TransferNft r t) = Ok (s', ms, at')) <-> op \/ reported_approval e s t (i_sender i)) /\
     forall m, ((exists s' ms at', execute e i s (SendNft r t m) = Ok (s', ms, at')) <-> op \/ reported_approval e s t (i_sender i))) /\
  (forall a, (exists s' ms at', execute e i s (Revoke a t) = Ok (s', ms, at')) <-> op) /\
  (forall a x, expiration_ok x = true -> live e (default Never x) -> ((exists s' ms at', execute e i s (Approve a t x) = Ok (s', ms, at')) <-> op)).
Proof.
  intros R [po E] U TY t op. apply reachable_ereach in R. pose proof (split_token_round o ix (token_index _ _ _ R (mk_is_Some _ _ E))) as T. fold t in T.
  assert (OP : op <-> i_sender i = o \/ operator_grant e s o (i_sender i)).
  { unfold op, reported_operator. setoid_rewrite <- elem_of_list_In. fold (operators_page). rewrite operator_reported. done. }
  assert (AP : reported_approval e s t (i_sender i) <-> approved e po (i_sender i)).
  { unfold reported_approval, approved, query_owner_of, get_position_by_key, get_position. rewrite T, U, E. cbn [negb bind]. split.
    - intros (o' & l & x & Q & H). apply Ok_inj in Q. injection Q as <- <-. unfold humanize_approvals in H. apply List.filter_In in H. destruct H as [H L].
      exists (mkApproval (i_sender i) x). split; [done|]. split; [done|]. apply live_expired. cbn in L |- *. by apply negb_true_iff in L.
    - intros ([a x] & H & Q & L). cbn in Q. subst a. exists o. eexists. exists x. split; [reflexivity|]. unfold humanize_approvals. apply List.filter_In. split; [done|].
      apply live_expired in L. cbn in L |- *. by rewrite L. }
  assert (MS : op \/ reported_approval e s t (i_sender i) <-> check_can_send e i s o po = Ok tt).
  { rewrite check_can_send_ok. unfold may_send. rewrite OP, AP. tauto. }
  assert (MA : op <-> check_can_approve e i s o = Ok tt) by (rewrite check_can_approve_ok; done).
  pose proof (ct_some _ _ (ereach_pos_ok _ R)) as CS. pose proof (ct_range _ _ (ereach_pos_ok _ R)) as IR.
  split; [|split].
  - intros r HR.
    assert (PR : plen s r <= 2 ^ 32 - 2).
    { destruct (Z.le_gt_cases (plen s r) (2 ^ 32 - 2)); [done|]. destruct (proj2 (CS r (2 ^ 32 - 2)) ltac:(unfold plen in *; lia)). congruence. }
    assert (TN : check_can_send e i s o po = Ok tt <-> exists s', transfer_nft e i s r t = Ok s').
    { unfold transfer_nft, get_position_by_key, get_position. rewrite T, U, E. cbn [negb bind]. split.
      - intros ->. cbn [bind]. destruct (remove_position_ok s o ix po (ereach_pos_ok _ R) E) as [s1 Q]. rewrite Q. cbn [bind].
        apply remove_position_inv in Q. destruct Q as (_ & P1 & m & _ & ->). unfold add_position. eexists. rewrite ckp_yes; [reflexivity|].
        unfold get_position_length. cbn. unfold plen, get_position_length in *. pose proof (IR r). unfold U32MAX in *. destruct (decide (r = o)) as [->|N].
        + rewrite lookup_insert. cbn. lia.
        + rewrite lookup_insert_ne by done. lia.
      - intros [s' H]. inv_bind H as [] C. done. }
    rewrite MS, TN. unfold execute. rewrite TY. cbn [andb msg_typed dispatch]. unfold handle_transfer_nft, handle_send_nft. split.
    + split; [intros (s' & ms & at' & H)|intros [s' ->]; cbn [bind]; eauto]. inv_bind H as s1 Q. eauto.
    + intros m. rewrite MS, TN. split; [intros (s' & ms & at' & H)|intros [s' ->]; cbn [bind]; eauto]. inv_bind H as s1 Q. eauto.
  - intros a. rewrite MA. unfold execute. rewrite TY. cbn [andb msg_typed dispatch]. unfold handle_revoke, update_approvals, get_position_by_key, get_position.
    rewrite T, E. cbn [bind]. split.
    + intros (s' & ms & at' & H). inv_bind H as s1 Q. inv_bind Q as [] C. done.
    + intros ->. cbn [bind]. eauto.
  - intros a x X L. rewrite MA. unfold execute. rewrite TY. cbn [andb msg_typed dispatch]. rewrite X. unfold handle_approve, update_approvals, get_position_by_key, get_position.
    rewrite T, E. cbn [bind]. apply live_expired in L. rewrite L. split.
    + intros (s' & ms & at' & H). inv_bind H as s1 Q. inv_bind Q as [] C. done.
    + intros ->. cbn [bind]. eauto.
Qed.

(** three positions, listed in pages of two *)
Example ex_C53 :
  let a0 := position_key_bytes "alice" 0 in let a1 := position_key_bytes "alice" 1 in let b0 := position_key_bytes "bob" 0 in
  query_all_tokens sc0 None (Some 2) = [a0; a1] /\ query_all_tokens sc0 (Some a1) (Some 2) = [b0] /\ query_all_tokens sc0 (Some b0) (Some 2) = [] /\
  (let* po := query_nft_info sc0 a1 in Ok (po_lower po)) = Ok (-20) /\ query_nft_info sc0 (position_key_bytes "bob" 1) = Err PositionNotFound.
Proof. vm_compute. repeat split. Qed.
(** at height 0 carol (operator) and dave (approved for the first token) are reported for alice's first token, bob is not; carol may revoke dave's
    approval, dave may not; at height 6 only dave's approval is live *)
Example ex_C55 :
  let a0 := position_key_bytes "alice" 0 in
  query_owner_of (env_at 0) sc0 a0 false = Ok ("alice"%string, [mkApproval "dave" (AtHeight 7)]) /\
  query_all_approvals (env_at 0) sc0 "alice" false None None = [("carol"%string, AtHeight 5)] /\
  query_all_approvals (env_at 6) sc0 "alice" false None None = [] /\
  map (fun c => is_ok (execute (env_at 0) (v_info c) sc0 (TransferNft "zed" a0))) ["alice"; "bob"; "carol"; "dave"]%string = [true; false; true; true] /\
  map (fun c => is_ok (execute (env_at 6) (v_info c) sc0 (TransferNft "zed" a0))) ["alice"; "bob"; "carol"; "dave"]%string = [true; false; false; true] /\
  map (fun c => is_ok (execute (env_at 0) (v_info c) sc0 (Revoke "dave" a0))) ["alice"; "bob"; "carol"; "dave"]%string = [true; false; true; false].
Proof. vm_compute. repeat split. Qed.
