(** Basic invariants of every reachable state. *)
From Verif Require Import Base Decimal SqrtPrice Clamm Log FeeGrowth Types Tick Pool Position
  Tickmap Keys State Swap Exec Tactics Frame Handlers History BitmapProofs.
From stdpp Require Import gmap strings.
Open Scope Z_scope.

(** states between the hops of a route included *)
Inductive ereach : store -> Prop :=
| er_init i f s : instantiate i f = Ok s -> ereach s
| er_step e i s s' ms : ereach s -> effect e i s s' ms -> ereach s'.

Lemma effects_ereach e i s s' ms : effects e i s s' ms -> ereach s -> ereach s'.
Proof. induction 1 as [|s s1 s2 m1 m2 E _ IH]; intros R; [done|]. apply IH. eapply er_step; eassumption. Qed.
Lemma reachable_ereach s : reachable s -> ereach s.
Proof.
  induction 1 as [i f s H|e i s m s' ms at' _ IH H]; [eapply er_init, H|].
  eapply effects_ereach; [|exact IH]. eapply execute_effects, H.
Qed.

Lemma instantiate_inv i f s : instantiate i f = Ok s ->
  s = mkStore (mkConfig (i_sender i) [] f) ∅ ∅ ∅ ∅ ∅ ∅ /\ 0 <= f <= U64MAX.
Proof. unfold instantiate. intros H. rinv H. subst. split; [done|]. by apply in_range_spec in Heqb. Qed.

(** ** Tick records carry their index *)

Definition indexed (m : gmap (pool_key * Z) tick) : Prop :=
  forall k i t, m !! (k, i) = Some t -> t_index t = i.
Lemma indexed_insert m k i t : indexed m -> t_index t = i -> indexed (<[(k, i) := t]> m).
Proof.
  intros H E kk j u. destruct (decide ((k, i) = (kk, j))) as [Q|N].
  - simplify_eq. rewrite lookup_insert. congruence.
  - rewrite lookup_insert_ne by done. apply H.
Qed.
Lemma indexed_delete m x : indexed m -> indexed (delete x m).
Proof. intros H kk j u E. apply lookup_delete_Some in E. destruct E as [_ E]. revert E. apply H. Qed.

Lemma position_create_index p k lt ut now liq sl su h s po p' lt' ut' x y :
  position_create p k lt ut now liq sl su h s = Ok (po, p', lt', ut', x, y) ->
  t_index lt' = t_index lt /\ t_index ut' = t_index ut.
Proof.
  unfold position_create. destruct (_ || _); [done|]. intros H.
  inv_bind H as [[[[[? ?] ?] ?] ?] ?] EM. apply Ok_inj in H. simplify_eq.
  apply position_modify_index in EM. tauto.
Qed.

Lemma effect_indexed e i s s' ms : effect e i s s' ms -> ticks_indexed s -> ticks_indexed s'.
Proof.
  intros H IX. destruct H; try exact IX.
  - apply swap_internal_kept in H1; [|done]. eapply tick_kept_indexed; [exact IX|apply H1].
  - apply create_position_inv in H2; [|done].
    destruct H2 as (p & lt & ut & po & p' & lt' & ut' & x & y & bm1 & bm2 & m0 & m1 & HL & HN & Ep & Sl & Su & _ & _ & PC & _ & _ & _ & _ & _ & ->).
    apply position_create_index in PC. destruct PC.
    apply stored_or_new_index in Sl, Su; try done.
    unfold ticks_indexed. cbn. apply indexed_insert; [apply indexed_insert|]; try congruence. exact IX.
  - apply claim_fee_inv in H; [|done].
    destruct H as (po & lt & ut & p & po' & p' & lt' & ut' & x & y & _ & _ & _ & _ & _ & _ & _ & _ & Iu & Il & ->).
    unfold ticks_indexed. cbn. apply indexed_insert; [apply indexed_insert|]; try done. 
  - apply remove_position_exec_inv in H; [|done].
    destruct H as (po & lt & ut & p & po' & p' & lt' & ut' & x & y & dl & du & bm1 & bm2 & m' & _ & _ & _ & _ & _ & _ & _ & _ & Iu & Il & _ & _ & _ & ->).
    unfold ticks_indexed. cbn. unfold clear_tick.
    destruct dl, du; repeat first [apply indexed_delete | apply indexed_insert]; try done.
  - apply remove_position_inv in H0. destruct H0 as (_ & _ & m & _ & ->).
    apply add_position_inv in H1. destruct H1 as (-> & _). exact IX.
Qed.

Lemma ereach_indexed s : ereach s -> ticks_indexed s.
Proof.
  induction 1 as [i f s H|e i s s' ms _ IH H].
  - apply instantiate_inv in H. destruct H as [-> _]. intros k j t E. cbn in E. by rewrite lookup_empty in E.
  - eapply effect_indexed; eassumption.
Qed.

(** ** Position lists are contiguous *)
Record contiguous (m : gmap (string * Z) position) (len : string -> Z) : Prop := {
  ct_range : forall a, 0 <= len a <= U32MAX;
  ct_some : forall a j, is_Some (m !! (a, j)) <-> 0 <= j < len a
}.
Definition pos_ok (s : store) : Prop := contiguous (st_positions s) (plen s).

Lemma plen_insert s a n m b : plen (set_positions s m (<[a := n]> (st_poslen s))) b = if decide (b = a) then n else plen s b.
Proof.
  unfold plen, get_position_length. cbn. destruct (decide (b = a)) as [->|N].
  - by rewrite lookup_insert.
  - by rewrite lookup_insert_ne by done.
Qed.

Lemma contiguous_ext m f g : (forall a, f a = g a) -> contiguous m f -> contiguous m g.
Proof. intros E []. constructor; intros; rewrite <- E; auto. Qed.

Lemma pos_ok_add s a po s' : pos_ok s -> add_position s a po = Ok s' -> pos_ok s'.
Proof.
  intros [R S] H. apply add_position_inv in H. destruct H as [-> U].
  constructor.
  - intros b. rewrite plen_insert. case_decide; [|apply R]. specialize (R a). lia.
  - intros b j. rewrite plen_insert. cbn. destruct (decide (b = a)) as [->|N].
    + destruct (decide (j = plen s a)) as [->|N2].
      * rewrite lookup_insert. specialize (R a). split; [lia|]. intros _. eauto.
      * rewrite lookup_insert_ne by congruence. rewrite S. lia.
    + rewrite lookup_insert_ne by congruence. apply S.
Qed.

Lemma add_position_ok s a po : 0 <= plen s a <= U32MAX -> plen s a + 1 <= U32MAX ->
  add_position s a po
  = Ok (set_positions s (<[(a, plen s a) := po]> (st_positions s)) (<[a := plen s a + 1]> (st_poslen s))).
Proof.
  intros R U. unfold add_position. fold (plen s a).
  rewrite (proj2 (ckp_ok U32MAX (plen s a + 1) (plen s a + 1))); [reflexivity|]. split; [done|lia].
Qed.

Lemma swap_removed_contiguous m a i n m' (len : string -> Z) :
  contiguous m len -> n = len a - 1 -> is_Some (m !! (a, i)) -> swap_removed a i n m m' ->
  contiguous m' (fun b => if decide (b = a) then n else len b).
Proof.
  intros [R S] -> Hi H. pose proof (proj1 (S a i) Hi) as Ri. constructor.
  - intros b. case_decide; [|apply R]. specialize (R a). lia.
  - intros b j. destruct H as [(L & last & E & ->)|(L & ->)].
    + case_decide as D; [subst b|].
      * destruct (decide (j = i)) as [->|N1].
        { rewrite lookup_insert. split; [lia|eauto]. }
        rewrite lookup_insert_ne by congruence.
        destruct (decide (j = len a - 1)) as [->|N2].
        { rewrite lookup_delete. split; [by intros []|lia]. }
        rewrite lookup_delete_ne by congruence. rewrite S. lia.
      * rewrite lookup_insert_ne, lookup_delete_ne by congruence. apply S.
    + case_decide as D; [subst b|].
      * destruct (decide (j = i)) as [->|N1].
        { rewrite lookup_delete. split; [by intros []|lia]. }
        rewrite lookup_delete_ne by congruence. rewrite S. lia.
      * rewrite lookup_delete_ne by congruence. apply S.
Qed.

Lemma pos_ok_same_dom m m' (len : string -> Z) :
  (forall x, is_Some (m' !! x) <-> is_Some (m !! x)) -> contiguous m len -> contiguous m' len.
Proof. intros D [R S]. constructor; [done|]. intros a j. rewrite D. apply S. Qed.

Lemma insert_same_dom {A} (m : gmap (string * Z) A) x v :
  is_Some (m !! x) -> forall y, is_Some (<[x := v]> m !! y) <-> is_Some (m !! y).
Proof.
  intros H y. destruct (decide (x = y)) as [->|N].
  - rewrite lookup_insert. split; eauto.
  - by rewrite lookup_insert_ne.
Qed.

Lemma effect_pos_ok e i s s' ms : ticks_indexed s -> effect e i s s' ms -> pos_ok s -> pos_ok s'.
Proof.
  intros IX H P. destruct H; try exact P.
  - apply swap_internal_kept in H1; [|done]. destruct H1.
    unfold pos_ok, plen, get_position_length in *. by rewrite sk_positions, sk_poslen.
  - apply create_position_inv in H2; [|done].
    destruct H2 as (p & lt & ut & po & p' & lt' & ut' & x & y & bm1 & bm2 & m0 & m1 & HL & HN & Ep & Sl & Su & _ & _ & PC & PL & _ & _ & _ & _ & ->).
    exact (pos_ok_add _ _ _ _ P (add_position_ok s (i_sender i) po (ct_range _ _ P _) PL)).
  - apply claim_fee_inv in H; [|done].
    destruct H as (po & lt & ut & p & po' & p' & lt' & ut' & x & y & Epo & _ & _ & _ & _ & _ & _ & _ & Iu & Il & ->).
    unfold pos_ok in *. cbn. eapply pos_ok_same_dom; [|exact P]. apply insert_same_dom. eauto.
  - apply remove_position_exec_inv in H; [|done].
    destruct H as (po & lt & ut & p & po' & p' & lt' & ut' & x & y & dl & du & bm1 & bm2 & m' & Epo & _ & _ & _ & _ & _ & _ & _ & Iu & Il & _ & _ & SR & ->).
    unfold pos_ok. cbn. eapply contiguous_ext; [|eapply swap_removed_contiguous; [exact P|reflexivity|eauto|exact SR]].
    intros b. cbn. symmetry. apply (plen_insert s (i_sender i) _ (st_positions s)).
  - pose proof (remove_position_inv _ _ _ _ _ H0) as (_ & _ & m & SR & ->).
    eapply pos_ok_add; [|exact H1].
    unfold pos_ok. cbn. eapply contiguous_ext; [|eapply swap_removed_contiguous; [exact P|reflexivity|eauto|exact SR]].
    intros b. cbn. symmetry. apply (plen_insert s o _ (st_positions s)).
  - unfold pos_ok in *. cbn. eapply pos_ok_same_dom; [|exact P]. apply insert_same_dom. eauto.
Qed.

Lemma ereach_pos_ok s : ereach s -> pos_ok s.
Proof.
  induction 1 as [i f s H|e i s s' ms R IH H].
  - apply instantiate_inv in H. destruct H as [-> _]. constructor.
    + intros a. unfold plen, get_position_length. cbn. rewrite lookup_empty. cbn. unfold U32MAX. lia.
    + intros a j. unfold plen, get_position_length. cbn. rewrite !lookup_empty. cbn. split; [by intros []|lia].
  - eapply effect_pos_ok; [apply ereach_indexed, R|exact H|exact IH].
Qed.

(** ** Fee tiers, pools and their keys *)
Record config_ok (c : config) : Prop := {
  co_tiers : Forall tier_valid (cf_fee_tiers c);
  co_protocol : 0 <= cf_protocol_fee c <= U64MAX
}.
Record key_valid (k : pool_key) : Prop := {
  kv_tier : tier_valid (pk_tier k);
  kv_order : String.ltb (pk_x k) (pk_y k) = true;
  kv_bytes : exists b, pool_key_bytes k = Ok b
}.
Lemma string_ltb_irrefl a : String.ltb a a = false.
Proof.
  unfold String.ltb. destruct (String.compare a a) eqn:C; try done.
  pose proof (String.compare_antisym a a) as Q. rewrite C in Q. done.
Qed.
Lemma key_valid_ne k : key_valid k -> pk_x k <> pk_y k.
Proof. intros [_ O _] E. rewrite E, string_ltb_irrefl in O. done. Qed.

Definition pools_ok (s : store) : Prop :=
  forall k p, st_pools s !! k = Some p -> key_valid k.

Lemma remove_first_incl t l l' : remove_first t l = Some l' -> forall x, x ∈ l' -> x ∈ l.
Proof.
  revert l'. induction l as [|a l IH]; intros l' H x Hx; cbn in H; [done|].
  case_bool_decide; simplify_eq.
  - set_solver.
  - destruct (remove_first t l) as [l0|]; [|done]. cbn in H. simplify_eq.
    apply elem_of_cons in Hx. destruct Hx as [->|Hx]; [set_solver|]. specialize (IH _ eq_refl _ Hx). set_solver.
Qed.

Lemma config_step_ok c c' : config_step c c' -> config_ok c -> config_ok c'.
Proof.
  intros [(E1 & E2)|(E1 & [(t & V & E2)|(t & E2)])] [T P]; constructor.
  - by rewrite E1.
  - destruct E2 as [->|]; done.
  - rewrite E2. apply Forall_app. split; [done|]. by constructor.
  - by rewrite E1.
  - rewrite Forall_forall in *. intros x Hx. apply T. eapply remove_first_incl; eassumption.
  - by rewrite E1.
Qed.

(** pools after one effect: only a pool creation adds a key; a stored pool keeps its start time *)
Definition pool_change (e : env) (i : msg_info) (s s' : store) (ms : list out_msg) (k : pool_key)
    (p p' : pool) : Prop :=
  p_start p' = p_start p /\
  (p_receiver p' = p_receiver p \/ i_sender i = cf_admin (st_config s)) /\
  ((p_protx p <= p_protx p' /\ p_proty p <= p_proty p') \/
   (i_sender i = p_receiver p /\ p' = p_set_prot p 0 0 /\ s' = save_pool s k p' /\
    ms = asset_transfer e i (pk_x k) (p_protx p) ++ asset_transfer e i (pk_y k) (p_proty p))).

Lemma pool_kept_change e i s s' ms k p p' : pool_kept p p' -> pool_change e i s s' ms k p p'.
Proof. intros (?&?&?&?). repeat split; auto. Qed.

Lemma position_claim_fee_pool po p ut lt now po' p' ut' lt' x y :
  position_claim_fee po p ut lt now = Ok (po', p', ut', lt', x, y) ->
  exists q, p' = p_set_liq (p_set_last p now) q.
Proof.
  unfold position_claim_fee. intros H. inv_bind H as [[[[[? ?] ?] ?] ?] ?] EM. apply Ok_inj in H. simplify_eq.
  apply position_modify_frame in EM. tauto.
Qed.
Lemma position_create_pool p k lt ut now liq sl su h s po p' lt' ut' x y :
  position_create p k lt ut now liq sl su h s = Ok (po, p', lt', ut', x, y) ->
  exists q, p' = p_set_liq (p_set_last p now) q.
Proof.
  unfold position_create. destruct (_ || _); [done|]. intros H.
  inv_bind H as [[[[[? ?] ?] ?] ?] ?] EM. apply Ok_inj in H. simplify_eq.
  apply position_modify_frame in EM. tauto.
Qed.
Lemma position_remove_pool po p now lt ut s po' p' lt' ut' x y dl du :
  position_remove po p now lt ut s = Ok (po', p', lt', ut', x, y, dl, du) ->
  exists q, p' = p_set_liq (p_set_last p now) q.
Proof.
  unfold position_remove. intros H.
  inv_bind H as [[[[[? ?] ?] ?] ?] ?] EM. inv_bind H as x1 EX1. inv_bind H as y1 EY1.
  apply Ok_inj in H. simplify_eq. apply position_modify_frame in EM. tauto.
Qed.
Lemma set_liq_last_kept p now q : pool_kept p (p_set_liq (p_set_last p now) q).
Proof. repeat split; cbn; lia. Qed.

Lemma effect_pool e i s s' ms k p : ticks_indexed s -> effect e i s s' ms ->
  st_pools s !! k = Some p -> exists p', st_pools s' !! k = Some p' /\ pool_change e i s s' ms k p p'.
Proof.
  intros IX H E.
  assert (REFL : pool_change e i s s' ms k p p) by (apply pool_kept_change, pool_kept_refl).
  assert (INS : forall k0 p0 p0' m, st_pools s !! k0 = Some p0 -> m = <[k0 := p0']> (st_pools s) ->
    pool_change e i s s' ms k0 p0 p0' -> exists p', m !! k = Some p' /\ pool_change e i s s' ms k p p').
  { intros k0 p0 p0' m E0 -> C. destruct (decide (k0 = k)) as [->|N].
    - rewrite lookup_insert. eexists; split; [done|]. congruence.
    - rewrite lookup_insert_ne by done. eauto. }
  destruct H; try (by eauto).
  - eapply INS; [exact H|reflexivity|]. repeat split; cbn; auto.
  - eapply INS; [exact H0|reflexivity|]. repeat split; cbn; auto. left. lia.
  - cbn. rewrite lookup_insert_ne by congruence. eauto.
  - apply swap_internal_kept in H1; [|done]. destruct (sk_pool _ _ _ H1 _ _ E) as (p' & E' & K).
    eexists; split; [done|]. by apply pool_kept_change.
  - apply create_position_inv in H2; [|done].
    destruct H2 as (p0 & lt & ut & po & p' & lt' & ut' & x & y & bm1 & bm2 & m0 & m1 & HL & HN & Ep & Sl & Su & _ & _ & PC & PL & _ & _ & _ & _ & ->).
    eapply INS; [exact Ep|reflexivity|]. apply position_create_pool in PC. destruct PC as [q ->].
    apply pool_kept_change, set_liq_last_kept.
  - apply claim_fee_inv in H; [|done].
    destruct H as (po & lt & ut & p0 & po' & p' & lt' & ut' & x & y & Epo & _ & _ & _ & Ep & PC & _ & _ & Iu & Il & ->).
    eapply INS; [exact Ep|reflexivity|]. apply position_claim_fee_pool in PC. destruct PC as [q ->].
    apply pool_kept_change, set_liq_last_kept.
  - apply remove_position_exec_inv in H; [|done].
    destruct H as (po & lt & ut & p0 & po' & p' & lt' & ut' & x & y & dl & du & bm1 & bm2 & m' & Epo & _ & _ & _ & Ep & PC & _ & _ & Iu & Il & _ & _ & SR & ->).
    eapply INS; [exact Ep|reflexivity|]. apply position_remove_pool in PC. destruct PC as [q ->].
    apply pool_kept_change, set_liq_last_kept.
  - apply remove_position_inv in H0. destruct H0 as (_ & _ & m & _ & ->).
    apply add_position_inv in H1. destruct H1 as (-> & _). cbn. eauto.
Qed.

(** new keys come from pool creations *)
Lemma effect_new_pool e i s s' ms k : ticks_indexed s -> config_ok (st_config s) -> effect e i s s' ms ->
  st_pools s !! k = None -> is_Some (st_pools s' !! k) -> key_valid k /\ pk_tier k ∈ cf_fee_tiers (st_config s).
Proof.
  intros IX CO H E S.
  assert (INS : forall k0 p0 p0', st_pools s !! k0 = Some p0 -> is_Some (<[k0 := p0']> (st_pools s) !! k) -> False).
  { intros k0 p0 p0' E0 S'. rewrite lookup_insert_ne in S' by congruence. rewrite E in S'. by destruct S'. }
  destruct H; cbn in S; try (rewrite E in S; by destruct S).
  - exfalso. eapply INS; eassumption.
  - exfalso. eapply INS; eassumption.
  - destruct (decide (k0 = k)) as [->|N]; [|rewrite lookup_insert_ne in S by done; rewrite E in S; by destruct S].
    split; [|done]. constructor; [|unfold pool_key_new in H1|eauto].
    + destruct CO as [T _]. rewrite Forall_forall in T. by apply T.
    + destruct (String.eqb_spec t0 t1); [done|]. destruct (String.ltb t0 t1) eqn:L; apply Ok_inj in H1; rewrite <- H1; cbn; [done|].
      unfold String.ltb in *. rewrite String.compare_antisym. destruct (String.compare t0 t1) eqn:Q; cbn in *; try done.
      apply String.compare_eq_iff in Q. done.
  - apply swap_internal_kept in H1; [|done]. rewrite (sk_pool' _ _ _ H1 _ E) in S. by destruct S.
  - apply create_position_inv in H2; [|done].
    destruct H2 as (p0 & lt & ut & po & p' & lt' & ut' & x & y & bm1 & bm2 & m0 & m1 & HL & HN & Ep & Sl & Su & _ & _ & PC & PL & _ & _ & _ & _ & ->).
    exfalso. eapply INS; eassumption.
  - apply claim_fee_inv in H; [|done].
    destruct H as (po & lt & ut & p0 & po' & p' & lt' & ut' & x & y & Epo & _ & _ & _ & Ep & PC & _ & _ & Iu & Il & ->).
    exfalso. eapply INS; eassumption.
  - apply remove_position_exec_inv in H; [|done].
    destruct H as (po & lt & ut & p0 & po' & p' & lt' & ut' & x & y & dl & du & bm1 & bm2 & m' & Epo & _ & _ & _ & Ep & PC & _ & _ & Iu & Il & _ & _ & SR & ->).
    exfalso. eapply INS; eassumption.
  - apply remove_position_inv in H0. destruct H0 as (_ & _ & m & _ & ->).
    apply add_position_inv in H1. destruct H1 as (-> & _). cbn in S. rewrite E in S; by destruct S.
Qed.

Lemma effect_config e i s s' ms : ticks_indexed s -> effect e i s s' ms ->
  st_config s' = st_config s \/
  (i_sender i = cf_admin (st_config s) /\ config_step (st_config s) (st_config s') /\
   s' = set_config s (st_config s')).
Proof.
  intros IX H. destruct H; try (by left).
  - right. done.
  - left. apply swap_internal_kept in H1; [|done]. apply H1.
  - left. apply create_position_inv in H2; [|done].
    destruct H2 as (p0 & lt & ut & po & p' & lt' & ut' & x & y & bm1 & bm2 & m0 & m1 & HL & HN & Ep & Sl & Su & _ & _ & PC & PL & _ & _ & _ & _ & ->). done.
  - left. apply claim_fee_inv in H; [|done].
    destruct H as (po & lt & ut & p0 & po' & p' & lt' & ut' & x & y & Epo & _ & _ & _ & Ep & PC & _ & _ & Iu & Il & ->). done.
  - left. apply remove_position_exec_inv in H; [|done].
    destruct H as (po & lt & ut & p0 & po' & p' & lt' & ut' & x & y & dl & du & bm1 & bm2 & m' & Epo & _ & _ & _ & Ep & PC & _ & _ & Iu & Il & _ & _ & SR & ->). done.
  - left. apply remove_position_inv in H0. destruct H0 as (_ & _ & m & _ & ->).
    apply add_position_inv in H1. destruct H1 as (-> & _). done.
Qed.

Lemma ereach_config s : ereach s -> config_ok (st_config s).
Proof.
  induction 1 as [i f s H|e i s s' ms R IH H].
  - apply instantiate_inv in H. destruct H as [-> F]. constructor; [constructor|done].
  - apply effect_config in H; [|by apply ereach_indexed]. destruct H as [->|(_ & C & _)]; [done|].
    eapply config_step_ok; eassumption.
Qed.

Lemma ereach_pools s : ereach s -> pools_ok s.
Proof.
  induction 1 as [i f s H|e i s s' ms R IH H].
  - apply instantiate_inv in H. destruct H as [-> F]. intros k p E. cbn in E. by rewrite lookup_empty in E.
  - intros k p E. destruct (st_pools s !! k) as [q|] eqn:Q; [exact (IH _ _ Q)|].
    edestruct effect_new_pool; [apply ereach_indexed, R|apply ereach_config, R|exact H|exact Q|by eauto|done].
Qed.

(** ** Bitmap chunks fit 64 bits *)
Lemma init_bitmap_u64 s k i bm bm' : 1 <= ft_spacing (pk_tier k) ->
  (forall key v, bm !! key = Some v -> 0 <= v < 2 ^ 64) -> init_bitmap s k i bm bm' ->
  (forall key v, bm' !! key = Some v -> 0 <= v < 2 ^ 64).
Proof.
  unfold init_bitmap. intros Hs U H. destruct (st_ticks s !! (k, i)); [by subst|].
  destruct H as (s' & F & ->). apply flip_u64 in F; [exact F|done|exact U].
Qed.
Lemma clear_bitmap_u64 b k i bm bm' : 1 <= ft_spacing (pk_tier k) ->
  (forall key v, bm !! key = Some v -> 0 <= v < 2 ^ 64) -> clear_bitmap b k i bm bm' ->
  (forall key v, bm' !! key = Some v -> 0 <= v < 2 ^ 64).
Proof.
  unfold clear_bitmap. intros Hs U H. destruct b; [|by subst].
  destruct H as (s & s' & F & E & ->). apply flip_u64 in F; [exact F|done|unfold chunks_u64; by rewrite E].
Qed.

Lemma ereach_chunks s : ereach s -> chunks_u64 s.
Proof.
  induction 1 as [i f s H|e i s s' ms R IH H].
  - apply instantiate_inv in H. destruct H as [-> F]. intros k p E. cbn in E. by rewrite lookup_empty in E.
  - pose proof (ereach_indexed _ R) as IX. pose proof (ereach_pools _ R) as PO. destruct H; try exact IH.
    + apply swap_internal_kept in H1; [|done]. unfold chunks_u64. rewrite (sk_bitmap _ _ _ H1). exact IH.
    + apply create_position_inv in H2; [|done].
      destruct H2 as (p0 & lt & ut & po & p' & lt' & ut' & x & y & bm1 & bm2 & m0 & m1 & HL & HN & Ep & Sl & Su & B1 & B2 & PC & PL & _ & _ & _ & _ & ->).
      destruct (kv_tier _ (PO _ _ Ep)) as [Hs _].
      unfold chunks_u64. cbn. eapply init_bitmap_u64; [|eapply init_bitmap_u64; [|exact IH|exact B1]|exact B2]; lia.
    + apply claim_fee_inv in H; [|done].
      destruct H as (po & lt & ut & p0 & po' & p' & lt' & ut' & x & y & Epo & _ & _ & _ & Ep & PC & _ & _ & Iu & Il & ->). exact IH.
    + apply remove_position_exec_inv in H; [|done].
      destruct H as (po & lt & ut & p0 & po' & p' & lt' & ut' & x & y & dl & du & bm1 & bm2 & m' & Epo & _ & _ & _ & Ep & PC & _ & _ & Iu & Il & B1 & B2 & SR & ->).
      destruct (kv_tier _ (PO _ _ Ep)) as [Hs _].
      unfold chunks_u64. cbn. eapply clear_bitmap_u64; [|eapply clear_bitmap_u64; [|exact IH|exact B1]|exact B2]; lia.
    + apply remove_position_inv in H0. destruct H0 as (_ & _ & m & _ & ->).
      apply add_position_inv in H1. destruct H1 as (-> & _). exact IH.
Qed.
