(** What each handler can and cannot touch: inversion of the handlers of Exec.v. *)
From Verif Require Import Base Decimal SqrtPrice Clamm Log FeeGrowth Types Tick Pool Position
  Tickmap Keys State Swap Exec Tactics.
From stdpp Require Import gmap strings.
Open Scope Z_scope.

(** decompose a successful computation *)
Ltac rstep H :=
  lazymatch type of H with
  | bind _ _ = Ok _ => apply bind_ok in H; destruct H as (? & ? & H)
  | Err _ = Ok _ => discriminate H
  | Panic = Ok _ => discriminate H
  | (if ?b then _ else _) = Ok _ => destruct b eqn:?; try discriminate H
  | match ?x with _ => _ end = Ok _ => destruct x eqn:?; try discriminate H
  | Ok _ = Ok _ => apply Ok_inj in H
  end.
Ltac rinv H := repeat (rstep H).

(** turn every successful checked operation into its range fact *)
Ltac ckinv :=
  unfold big_mul_up, big_mul, add_p, sub_p, add_e, sub_e, pct_complement in *;
  repeat match goal with
  | H : ckp _ _ = Ok _ |- _ => apply ckp_ok in H; destruct H
  | H : ck _ _ _ = Ok _ |- _ => apply ck_ok in H; destruct H
  | H : unwrap _ = Ok _ |- _ => apply (proj1 (unwrap_ok _ _)) in H
  | H : map_err _ _ = Ok _ |- _ => apply (proj1 (map_err_ok _ _ _)) in H
  end.

(** apply a forward lemma to the hypothesis it fits *)
Tactic Notation "fwd" constr(L) "as" simple_intropattern(p) :=
  match goal with H : _ = Ok _ |- _ => apply L in H; destruct H as p end.

(** ** Pools inside a swap *)
Lemma add_fee_frame p a b f p' :
  add_fee p a b f = Ok p' ->
  exists gx gy px py,
    p' = mkPool (p_liq p) (p_price p) (p_tick p) gx gy px py (p_start p) (p_last p) (p_receiver p)
    /\ p_protx p <= px /\ p_proty p <= py.
Proof.
  unfold add_fee. intros H. rinv H; subst.
  - destruct p'. cbn. eexists _, _, _, _. split; [reflexivity|]. cbn; lia.
  - ckinv; subst. destruct p; cbn in *.
    eexists _, _, _, _. split; [reflexivity|]. cbn; lia.
  - ckinv; subst. destruct p; cbn in *.
    eexists _, _, _, _. split; [reflexivity|]. cbn; lia.
Qed.

(** the parts of a tick that a crossing keeps *)
Definition same_liq (t t' : tick) : Prop :=
  t_index t' = t_index t /\ t_sign t' = t_sign t /\ t_change t' = t_change t /\
  t_gross t' = t_gross t /\ t_price t' = t_price t.

Lemma tick_cross_frame t p now t' p' :
  tick_cross t p now = Ok (t', p') ->
  same_liq t t' /\ exists l, p' = p_set_liq (p_set_last p now) l.
Proof.
  unfold tick_cross. intros H. rinv H; simplify_eq; cbn.
  split; [done|]. eauto.
Qed.

(** the parts of a pool that trading keeps, and the protocol fees only grow *)
Definition pool_kept (p p' : pool) : Prop :=
  p_start p' = p_start p /\ p_receiver p' = p_receiver p /\
  p_protx p <= p_protx p' /\ p_proty p <= p_proty p'.

Lemma pool_kept_refl p : pool_kept p p.
Proof. unfold pool_kept. repeat split; lia. Qed.
Lemma pool_kept_trans p q r : pool_kept p q -> pool_kept q r -> pool_kept p r.
Proof. unfold pool_kept. intros (?&?&?&?) (?&?&?&?). repeat split; try congruence; lia. Qed.

Definition crossed_from (s : store) (k : pool_key) (t' : tick) : Prop :=
  exists i t, st_ticks s !! (k, i) = Some t /\ same_liq t t'.

Lemma pool_update_tick_frame p r lim tk rem by_in d now f ft p' tk' add rem' crossed :
  pool_update_tick p r lim tk rem by_in d now f ft = Ok (p', tk', add, rem', crossed) ->
  pool_kept p p' /\ p_price p' = p_price p /\
  (match tk' with
   | TickInitialized t' => if crossed then exists t, tk = TickInitialized t /\ same_liq t t' else True
   | _ => True
   end).
Proof.
  unfold pool_update_tick. intros H. rstep H.
  { rinv H. simplify_eq. cbn. repeat split; try done; try lia. by destruct tk'. }
  rinv H; simplify_eq.
  assert (G : pool_kept p p4 /\ p_price p4 = p_price p /\
              match tk' with
              | TickInitialized t' => if crossed then exists t, tk = TickInitialized t /\ same_liq t t' else True
              | _ => True end).
  { rinv H1; simplify_eq; try (split; [apply pool_kept_refl|done]).
    - ckinv. fwd tick_cross_frame as (? & ? & ->).
      split; [|split]; [|done|eauto]. unfold pool_kept. cbn. repeat split; lia.
    - fwd add_fee_frame as (?&?&?&?&->&?&?). unfold pool_kept; cbn.
      repeat split; done || lia. }
  destruct G as (G & G1 & G2). split; [|split; done]. exact G.
Qed.

Lemma swap_iter_frame s now k d by_in lim tl w w' :
  swap_iter s now k d by_in lim tl w = Ok w' ->
  pool_kept (sw_pool w) (sw_pool w') /\
  (sw_ticks w' = sw_ticks w \/ exists t', sw_ticks w' = sw_ticks w ++ [t'] /\ crossed_from s k t').
Proof.
  unfold swap_iter. intros H. rinv H; simplify_eq; cbn.
  all: fwd pool_update_tick_frame as (K & _ & C).
  all: fwd add_fee_frame as (?&?&?&?&->&?&?).
  all: split; [eapply pool_kept_trans; [|exact K]; unfold pool_kept; cbn; repeat split; lia|].
  all: match goal with |- context [match ?u with NoTick => _ | _ => _ end] => destruct u; try (left; done) end.
  all: match goal with |- context [if ?c then _ else _] => destruct c; [|left; done] end.
  all: right; eexists; split; [done|]; destruct C as (t0 & -> & C);
    match goal with H : _ = Ok (TickInitialized t0) |- _ => rinv H; simplify_eq end;
    match goal with H : State.get_tick _ _ _ = Ok _ |- _ => unfold State.get_tick in H; rinv H; simplify_eq end;
    eexists _, _; split; eassumption.
Qed.

Lemma swap_loop_frame gas s now k d by_in lim tl w w' :
  swap_loop gas s now k d by_in lim tl w = Ok w' ->
  pool_kept (sw_pool w) (sw_pool w') /\
  (Forall (crossed_from s k) (sw_ticks w) -> Forall (crossed_from s k) (sw_ticks w')).
Proof.
  revert w. induction gas as [|gas IH]; intros w H; cbn in H.
  - rinv H; subst. split; [apply pool_kept_refl|done].
  - rinv H; subst; [split; [apply pool_kept_refl|done]|].
    fwd swap_iter_frame as (K & C).
    destruct (IH _ H) as (K' & C'). split; [eapply pool_kept_trans; eassumption|].
    intros F. apply C'. destruct C as [->|(t' & -> & C)]; [done|].
    apply Forall_app. split; [done|]. by constructor.
Qed.

Lemma calculate_swap_frame gas s now k d a by_in lim r :
  calculate_swap gas s now k d a by_in lim = Ok r ->
  exists p, st_pools s !! k = Some p /\ cr_start r = p_price p /\
            cr_target r = p_price (cr_pool r) /\ pool_kept p (cr_pool r) /\
            Forall (crossed_from s k) (cr_ticks r) /\ a <> 0 /\ cr_out r <> 0.
Proof.
  unfold calculate_swap. intros H. rinv H; simplify_eq; cbn.
  all: fwd swap_loop_frame as (K & C); cbn in *.
  all: unfold get_pool in *; repeat case_match; simplify_eq.
  all: eexists; repeat (split; [done || by apply C|]); by split; apply Z.eqb_neq.
Qed.

(** ** Stores *)
Lemma update_ticks_inv s k l s' :
  update_ticks s k l = Ok s' ->
  s' = set_ticks s (foldl (fun m t => <[(k, t_index t) := t]> m) (st_ticks s) l).
Proof.
  revert s. induction l as [|t l IH]; intros s H; cbn in H.
  - apply Ok_inj in H. subst. by destruct s'.
  - rinv H. unfold update_tick in *. rinv H0. subst. rewrite (IH _ H). cbn. by destruct s.
Qed.

(** a stored tick record carries its own index *)
Definition ticks_indexed (s : store) : Prop :=
  forall k i t, st_ticks s !! (k, i) = Some t -> t_index t = i.

Definition tick_kept (o o' : option tick) : Prop :=
  match o, o' with
  | None, None => True
  | Some t, Some t' => same_liq t t'
  | _, _ => False
  end.
Lemma tick_kept_refl o : tick_kept o o.
Proof. destruct o; cbn; [unfold same_liq; auto|done]. Qed.
Lemma tick_kept_trans a b c : tick_kept a b -> tick_kept b c -> tick_kept a c.
Proof.
  destruct a, b, c; cbn; try done. unfold same_liq.
  intros (?&?&?&?&?) (?&?&?&?&?). repeat split; congruence.
Qed.

Lemma update_ticks_kept s k l s' :
  ticks_indexed s -> Forall (crossed_from s k) l -> update_ticks s k l = Ok s' ->
  forall kk i, tick_kept (st_ticks s !! (kk, i)) (st_ticks s' !! (kk, i)) /\
               (kk <> k -> st_ticks s' !! (kk, i) = st_ticks s !! (kk, i)).
Proof.
  intros IX F H. apply update_ticks_inv in H. subst s'. cbn. intros kk i.
  assert (G : forall m : gmap (pool_key * Z) tick, (forall i, tick_kept (st_ticks s !! (k, i)) (m !! (k, i))) ->
    (forall i, tick_kept (st_ticks s !! (k, i)) (foldl (fun m t => <[(k, t_index t) := t]> m) m l !! (k, i)))
    /\ (kk <> k -> foldl (fun m t => <[(k, t_index t) := t]> m) m l !! (kk, i) = m !! (kk, i))).
  { induction F as [|t l Ht F IH]; intros m Hm; cbn; [done|].
    destruct (IH (<[(k, t_index t) := t]> m)) as [I1 I2].
    - intros j. destruct (decide (j = t_index t)) as [->|N].
      + rewrite lookup_insert. destruct Ht as (j & t0 & E & S). pose proof (IX _ _ _ E).
        assert (Ej : t_index t = j) by (destruct S; congruence). rewrite Ej, E. exact S.
      + rewrite lookup_insert_ne by congruence. apply Hm.
    - split; [exact I1|]. intros N. rewrite I2 by done. apply lookup_insert_ne. congruence. }
  destruct (G (st_ticks s)) as [G1 G2]; [intros; apply tick_kept_refl|].
  split; [|exact G2]. destruct (decide (kk = k)) as [->|N]; [apply G1|].
  rewrite G2 by done. apply tick_kept_refl.
Qed.

(** [swap_internal] writes the pool and the crossed ticks, nothing else *)
Lemma swap_internal_inv e i s k d a by_in lim s' ms r :
  swap_internal e i s k d a by_in lim = Ok (s', ms, r) ->
  calculate_swap (e_gas e) s (e_millis e) k d a by_in lim = Ok r /\
  (exists s1, update_ticks s k (cr_ticks r) = Ok s1 /\ s' = save_pool s1 k (cr_pool r)) /\
  exists m0, asset_transfer_from e i (if d then pk_x k else pk_y k) (cr_in r) = Ok m0 /\
             ms = m0 ++ asset_transfer e i (if d then pk_y k else pk_x k) (cr_out r).
Proof.
  unfold swap_internal. intros H. rinv H; destruct d; simplify_eq.
  all: split; [done|]; split; [eexists; split; [eassumption|reflexivity]|]; eauto.
Qed.

(** the effect of trading on the store *)
Record swap_kept (ks : list pool_key) (s s' : store) : Prop := {
  sk_config : st_config s' = st_config s;
  sk_bitmap : st_bitmap s' = st_bitmap s;
  sk_positions : st_positions s' = st_positions s;
  sk_poslen : st_poslen s' = st_poslen s;
  sk_operators : st_operators s' = st_operators s;
  sk_pools : forall k, k ∉ ks -> st_pools s' !! k = st_pools s !! k;
  sk_ticks : forall k i, k ∉ ks -> st_ticks s' !! (k, i) = st_ticks s !! (k, i);
  sk_pool : forall k p, st_pools s !! k = Some p ->
            exists p', st_pools s' !! k = Some p' /\ pool_kept p p';
  sk_pool' : forall k, st_pools s !! k = None -> st_pools s' !! k = None;
  sk_tick : forall k i, tick_kept (st_ticks s !! (k, i)) (st_ticks s' !! (k, i))
}.

Lemma tick_kept_indexed s s' :
  ticks_indexed s -> (forall k i, tick_kept (st_ticks s !! (k, i)) (st_ticks s' !! (k, i))) ->
  ticks_indexed s'.
Proof.
  intros IX K k i t' E. specialize (K k i). rewrite E in K.
  destruct (st_ticks s !! (k, i)) as [t|] eqn:E0; [|done]. destruct K as (-> & _). eauto.
Qed.

Lemma swap_internal_kept e i s k d a by_in lim s' ms r :
  ticks_indexed s -> swap_internal e i s k d a by_in lim = Ok (s', ms, r) -> swap_kept [k] s s'.
Proof.
  intros IX H. apply swap_internal_inv in H. destruct H as (C & (s1 & U & ->) & _).
  destruct (calculate_swap_frame _ _ _ _ _ _ _ _ _ C) as (p & Ep & _ & _ & K & F & _).
  pose proof (update_ticks_kept _ _ _ _ IX F U) as T.
  apply update_ticks_inv in U. 
  constructor; subst s1; cbn in *; try done.
  - intros kk N. apply lookup_insert_ne. set_solver.
  - intros kk j N. apply T. set_solver.
  - intros kk q E. destruct (decide (kk = k)) as [->|N].
    + rewrite lookup_insert. eexists; split; [done|]. congruence.
    + rewrite lookup_insert_ne by done. eexists; split; [done|apply pool_kept_refl].
  - intros kk E. rewrite lookup_insert_ne by congruence. done.
  - intros kk j. apply T.
Qed.

Lemma swap_kept_refl s : swap_kept [] s s.
Proof.
  constructor; try done; intros.
  - eexists; split; [done|apply pool_kept_refl].
  - apply tick_kept_refl.
Qed.
Lemma swap_kept_trans l1 l2 a b c : swap_kept l1 a b -> swap_kept l2 b c -> swap_kept (l1 ++ l2) a c.
Proof.
  intros [] []. constructor; try congruence.
  - intros k N. rewrite sk_pools1, sk_pools0; set_solver.
  - intros k i N. rewrite sk_ticks1, sk_ticks0; set_solver.
  - intros k p E. destruct (sk_pool0 _ _ E) as (p1 & E1 & K1).
    destruct (sk_pool1 _ _ E1) as (p2 & E2 & K2). eexists; split; [done|].
    eapply pool_kept_trans; eassumption.
  - eauto.
  - intros k i. eapply tick_kept_trans; eauto.
Qed.

Lemma swap_route_internal_kept e i s a hops s' ms out :
  ticks_indexed s -> swap_route_internal e i s a hops = Ok (s', ms, out) ->
  swap_kept (map hop_key hops) s s'.
Proof.
  revert s a s' ms out. induction hops as [|h hops IH]; intros s a s' ms out IX H; cbn in H.
  - simplify_eq. apply swap_kept_refl.
  - rinv H; simplify_eq.
    match goal with H : swap_internal _ _ _ _ _ _ _ _ = Ok _ |- _ =>
      apply swap_internal_kept in H; [|done] end.
    change (map hop_key (h :: hops)) with ([hop_key h] ++ map hop_key hops).
    eapply swap_kept_trans; [eassumption|]. eapply IH; [|eassumption].
    eapply tick_kept_indexed; [exact IX|]. eapply sk_tick; eassumption.
Qed.
