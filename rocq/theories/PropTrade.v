(** Quotes, routes and the frame of a trade: C21, C22, C23, C26; the amounts of C19, C20. *)
From Verif Require Import Base Decimal SqrtPrice Clamm Log FeeGrowth Types Tick Pool Position
  Tickmap Keys State Swap Exec Query Tactics ClammProofs Frame Handlers History Basic PosList Ledger SwapInv Vectors
  Scenario PropAuth PropConfig.
From stdpp Require Import gmap strings.
From Coq Require Import Lia.
Open Scope Z_scope.

(** * A swap only looks at its own pool *)
Record same_view (k : pool_key) (s s' : store) : Prop := {
  sv_pool : st_pools s' !! k = st_pools s !! k;
  sv_tick : forall i, st_ticks s' !! (k, i) = st_ticks s !! (k, i);
  sv_chunk : forall c, st_bitmap s' !! (k, c) = st_bitmap s !! (k, c);
  sv_fee : cf_protocol_fee (st_config s') = cf_protocol_fee (st_config s)
}.

Lemma view_chunk k s s' c : same_view k s s' -> bitmap_chunk s' k c = bitmap_chunk s k c.
Proof. intros V. unfold bitmap_chunk. by rewrite (sv_chunk _ _ _ V). Qed.
Lemma view_next k s s' n : same_view k s s' -> forall sp c b lc lb,
  next_loop n s' k sp c b lc lb = next_loop n s k sp c b lc lb.
Proof. intros V. induction n as [|n IH]; intros; cbn; [done|]. by rewrite (view_chunk _ _ _ _ V), IH. Qed.
Lemma view_prev k s s' n : same_view k s s' -> forall sp c b lc lb,
  prev_loop n s' k sp c b lc lb = prev_loop n s k sp c b lc lb.
Proof. intros V. induction n as [|n IH]; intros; cbn; [done|]. by rewrite (view_chunk _ _ _ _ V), IH. Qed.
Lemma bind_ext {A B} (m : res A) (f g : A -> res B) : (forall a, f a = g a) -> bind m f = bind m g.
Proof. intros H. destruct m; cbn; auto. Qed.
Lemma view_limit k s s' lim d cur sp : same_view k s s' ->
  get_closer_limit s' lim d cur sp k = get_closer_limit s lim d cur sp k.
Proof.
  intros V. unfold get_closer_limit. f_equal. destruct d.
  - unfold prev_initialized. destruct (sp =? 0); [done|]. apply bind_ext. intros [c b]. apply bind_ext.
    intros [lc lb]. by rewrite (view_prev _ _ _ _ V).
  - unfold next_initialized. destruct (sp =? 0); [done|]. destruct (_ <? _); [done|]. apply bind_ext. intros [c b]. apply bind_ext.
    intros [lc lb]. by rewrite (view_next _ _ _ _ V).
Qed.
Lemma view_get_tick k s s' i : same_view k s s' -> State.get_tick s' k i = State.get_tick s k i.
Proof. intros V. unfold State.get_tick. by rewrite (sv_tick _ _ _ V). Qed.
Lemma view_iter k s s' now d b lim tl w : same_view k s s' ->
  swap_iter s' now k d b lim tl w = swap_iter s now k d b lim tl w.
Proof.
  intros V. unfold swap_iter. rewrite (view_limit _ _ _ _ _ _ _ V), (sv_fee _ _ _ V).
  apply bind_ext. intros [sl li]. do 7 (apply bind_ext; intros ?). destruct (_ && _); [done|].
  f_equal. destruct li as [[j []]|]; try done. by rewrite (view_get_tick _ _ _ _ V).
Qed.
Lemma view_loop k s s' now d b lim tl g : same_view k s s' -> forall w,
  swap_loop g s' now k d b lim tl w = swap_loop g s now k d b lim tl w.
Proof.
  intros V. induction g as [|g IH]; intros w; cbn; [done|]. destruct (_ =? _); [done|].
  rewrite (view_iter _ _ _ _ _ _ _ _ _ V). apply bind_ext. intros w'. apply IH.
Qed.
Lemma view_calc k s s' g now d a b lim : same_view k s s' ->
  calculate_swap g s' now k d a b lim = calculate_swap g s now k d a b lim.
Proof.
  intros V. unfold calculate_swap, get_pool. destruct (a =? 0); [done|]. rewrite (sv_pool _ _ _ V).
  apply bind_ext. intros p. destruct (if d then _ else _); [done|]. by rewrite (view_loop _ _ _ _ _ _ _ _ _ V).
Qed.

Lemma swap_kept_view ks s s' k : swap_kept ks s s' -> k ∉ ks -> same_view k s s'.
Proof.
  intros [] N. constructor; auto.
  - intros c. by rewrite sk_bitmap.
  - by rewrite sk_config.
Qed.

Lemma update_ticks_total s k l :
  Forall (fun t => is_Some (st_ticks s !! (k, t_index t))) l -> exists s', update_ticks s k l = Ok s'.
Proof.
  revert s. induction l as [|t l IH]; intros s F; cbn; [eauto|].
  apply Forall_cons in F. destruct F as [[t0 E] F]. unfold update_tick. rewrite E. cbn [bind]. apply IH.
  eapply Forall_impl; [exact F|]. intros u [u0 U]. cbn.
  destruct (decide (t_index t = t_index u)) as [Q|Q].
  - rewrite Q, lookup_insert. eauto.
  - rewrite lookup_insert_ne by congruence. eauto.
Qed.
Lemma crossed_exists s k l : ticks_indexed s -> Forall (crossed_from s k) l ->
  Forall (fun t => is_Some (st_ticks s !! (k, t_index t))) l.
Proof.
  intros IX F. eapply Forall_impl; [exact F|]. intros t (i & t0 & E & S & _). cbn.
  rewrite S, (IX _ _ _ E), E. eauto.
Qed.

(** * C21: quotes *)
(** what the contract receives from the sender of a call *)
Definition received (e : env) (i : msg_info) (tok : string) (ms : list out_msg) : Z :=
  if e_addr_ok e tok then pulled (e_self e) (i_sender i) tok ms
  else attached i tok - paid (i_sender i) tok ms.
(** the sender can pay: a cw20 token (its own contract checks balance and allowance), or enough
    native coins are attached *)
Definition can_pay (e : env) (i : msg_info) (tok : string) (v : Z) : Prop :=
  e_addr_ok e tok = true \/ v <= attached i tok.

Lemma transfer_from_total e i tok v : 0 <= v -> can_pay e i tok v -> exists m, asset_transfer_from e i tok v = Ok m.
Proof.
  intros V [C|C]; unfold asset_transfer_from, attached in *; destruct (Z.eqb_spec v 0); eauto.
  - rewrite C. eauto.
  - destruct (e_addr_ok e tok); [eauto|]. destruct (List.find _ _) as [c|]; [|lia].
    destruct (Z.leb_spec v (c_amount c)); [eauto|lia].
Qed.
Lemma transfer_from_can_pay e i tok v m : 0 < v -> asset_transfer_from e i tok v = Ok m -> can_pay e i tok v.
Proof.
  unfold asset_transfer_from, can_pay, attached. intros V H. destruct (Z.eqb_spec v 0); [lia|].
  destruct (e_addr_ok e tok); [by left|]. destruct (List.find _ _); [|done].
  destruct (Z.leb_spec v (c_amount c)); [by right|done].
Qed.
Lemma transfer_from_messages e i tok v m t : 0 < v -> asset_transfer_from e i tok v = Ok m ->
  (e_addr_ok e tok = true -> paid (i_sender i) t m = 0 /\
     pulled (e_self e) (i_sender i) t m = if String.eqb tok t then v else 0) /\
  (e_addr_ok e tok = false -> pulled (e_self e) (i_sender i) t m = 0 /\
     paid (i_sender i) t m = if String.eqb tok t then attached i tok - v else 0).
Proof.
  unfold asset_transfer_from, attached. intros V H. destruct (Z.eqb_spec v 0); [lia|].
  split; intros A; rewrite A in H.
  - apply Ok_inj in H. subst m. cbn. rewrite !String.eqb_refl. cbn. rewrite andb_true_r. split; [done|]. destruct (_ =? _)%string; lia.
  - destruct (List.find _ _) as [c|]; [|done]. destruct (Z.leb_spec v (c_amount c)); [|done].
    apply Ok_inj in H. subst m. destruct (Z.eqb_spec (c_amount c - v) 0); cbn.
    + split; [done|]. destruct (_ =? _)%string; lia.
    + split; [done|]. rewrite String.eqb_refl. cbn. destruct (_ =? _)%string; lia.
Qed.

Lemma swap_messages e i k (d : bool) vin vout m0 : pk_x k <> pk_y k -> 0 < vin ->
  asset_transfer_from e i (if d then pk_x k else pk_y k) vin = Ok m0 ->
  received e i (if d then pk_x k else pk_y k) (m0 ++ asset_transfer e i (if d then pk_y k else pk_x k) vout) = vin /\
  paid (i_sender i) (if d then pk_y k else pk_x k) (m0 ++ asset_transfer e i (if d then pk_y k else pk_x k) vout) = vout.
Proof.
  intros N V H. set (tin := if d then pk_x k else pk_y k) in *. set (tout := if d then pk_y k else pk_x k).
  assert (N' : tin <> tout) by (subst tin tout; destruct d; congruence).
  assert (N2 : (tout =? tin)%string = false) by (apply String.eqb_neq; congruence).
  assert (N3 : (tin =? tout)%string = false) by (apply String.eqb_neq; congruence).
  unfold received. rewrite !paid_app, pulled_app, !paid_transfer, pulled_transfer, !String.eqb_refl, N2. cbn.
  pose proof (transfer_from_messages _ _ _ _ _ tin V H) as [A1 A2].
  pose proof (transfer_from_messages _ _ _ _ _ tout V H) as [B1 B2].
  rewrite String.eqb_refl, N3 in *. destruct (e_addr_ok e tin).
  - destruct (A1 eq_refl), (B1 eq_refl). split; lia.
  - destruct (A2 eq_refl), (B2 eq_refl). split; lia.
Qed.

Theorem C21_quote_predicts_swap e i s k d a by_in lim :
  reachable s -> env_typed e i = true -> msg_typed (Swap k d a by_in lim) = true ->
  let tin := if d then pk_x k else pk_y k in
  let tout := if d then pk_y k else pk_x k in
  (forall s' ms at', execute e i s (Swap k d a by_in lim) = Ok (s', ms, at') ->
     exists q p', query_quote e s k d a by_in lim = Ok q /\
       at' = [("amount_in"%string, q_in q); ("amount_out"%string, q_out q)] /\
       st_pools s' !! k = Some p' /\ p_price p' = q_target q /\
       (0 < q_in q -> received e i tin ms = q_in q /\ paid (i_sender i) tout ms = q_out q)) /\
  (forall q, query_quote e s k d a by_in lim = Ok q -> can_pay e i tin (q_in q) ->
     is_ok (execute e i s (Swap k d a by_in lim)) = true) /\
  (is_ok (query_quote e s k d a by_in lim) = false ->
     is_ok (execute e i s (Swap k d a by_in lim)) = false).
Proof.
  intros R T M tin tout. pose proof (reachable_ereach _ R) as ER. pose proof (ereach_indexed _ ER) as IX.
  unfold execute, query_quote. rewrite T, M. cbn [andb dispatch]. unfold swap.
  assert (P : forall s' ms r, swap_internal e i s k d a by_in lim = Ok (s', ms, r) ->
    calculate_swap (e_gas e) s (e_millis e) k d a by_in lim = Ok r /\ st_pools s' !! k = Some (cr_pool r) /\
    (0 < cr_in r -> received e i tin ms = cr_in r /\ paid (i_sender i) tout ms = cr_out r)).
  { intros s' ms r E. apply swap_internal_inv in E. destruct E as (C & (s1 & U & ->) & m0 & TF & ->).
    split; [done|]. split; [cbn; apply lookup_insert|]. intros V.
    destruct (calculate_swap_frame _ _ _ _ _ _ _ _ _ C) as (p & Ep & _).
    apply swap_messages; [|done|done]. eapply key_valid_ne, ereach_pools; eassumption. }
  split; [|split].
  - intros s' ms at' H. inv_bind H as [[s1 m1] r] E. apply Ok_inj in H. simplify_eq.
    destruct (P _ _ _ E) as (C & Ep & Q). rewrite C. cbn [bind].
    eexists _, _. split; [reflexivity|]. cbn. split; [done|]. split; [exact Ep|]. split; [done|]. exact Q.
  - intros q H CP. inv_bind H as r C. apply Ok_inj in H. subst q. cbn [q_in] in CP.
    unfold swap_internal. rewrite C. cbn [bind].
    destruct (calculate_swap_frame _ _ _ _ _ _ _ _ _ C) as (p & Ep & _ & _ & _ & F & _).
    destruct (update_ticks_total s k (cr_ticks r)) as [s1 ->]; [by apply crossed_exists|]. cbn [bind].
    destruct (calculate_swap_out _ _ _ _ _ _ _ _ _ C) as [_ V].
    destruct (transfer_from_total e i tin (cr_in r)) as [m0 E0]; [lia|done|].
    subst tin. destruct d; rewrite E0; done.
  - intros H. destruct (swap_internal e i s k d a by_in lim) as [[[s' ms] r]|?|] eqn:E; [|done|done].
    destruct (P _ _ _ eq_refl) as (C & _). rewrite C in H. done.
Qed.
Example ex_C21 :
  match query_quote v_env sc0 v_key false 5000 true MAX_SQRT_PRICE,
        execute v_env (v_info "bob") sc0 (Swap v_key false 5000 true MAX_SQRT_PRICE) with
  | Ok q, Ok (s', ms, _) => q_out q = 4970 /\ ms = [Cw20TransferFrom "tokeny" "bob" "self" 5000; Cw20Transfer "tokenx" "bob" 4970]%string
  | _, _ => False
  end.
Proof. vm_compute. split; reflexivity. Qed.

(** * Exact input: the input is exactly the offered amount *)
Lemma swap_iter_amounts s now k d by_in lim tl w w' : 0 <= sw_remaining w ->
  swap_iter s now k d by_in lim tl w = Ok w' ->
  (by_in = true -> sw_in w' + sw_remaining w' = sw_in w + sw_remaining w) /\ 0 <= sw_remaining w'.
Proof.
  intros R H. apply swap_iter_inv in H. destruct H as (sl & li & r & p0 & tk & p1 & tk' & add & rm0 & rm1 & c & H).
  destruct H as (_ & _ & E0 & R0 & _ & _ & _ & UT & -> & _). cbn.
  apply pool_update_tick_amounts in UT; [|done]. destruct UT as (A & B & C). split; [|lia].
  intros ->. specialize (A eq_refl). lia.
Qed.
Lemma swap_loop_amounts g s now k d by_in lim tl : forall w w', 0 <= sw_remaining w ->
  swap_loop g s now k d by_in lim tl w = Ok w' ->
  sw_remaining w' = 0 /\ (by_in = true -> sw_in w' = sw_in w + sw_remaining w).
Proof.
  induction g as [|g IH]; intros w w' R H; cbn in H.
  - rinv H; subst. apply Z.eqb_eq in Heqb. split; [done|]. intros; lia.
  - rinv H; subst. { apply Z.eqb_eq in Heqb. split; [done|]. intros; lia. }
    match goal with H : swap_iter _ _ _ _ _ _ _ _ = Ok _ |- _ => apply swap_iter_amounts in H; [destruct H as (A & B)|done] end. destruct (IH _ _ B H) as [I1 I2].
    split; [done|]. intros Q. rewrite (I2 Q), (A Q). done.
Qed.
Lemma calculate_swap_exact_in g s now k d a lim r : 0 <= a ->
  calculate_swap g s now k d a true lim = Ok r -> cr_in r = a.
Proof.
  unfold calculate_swap. intros Ha H. rinv H; simplify_eq; cbn.
  all: match goal with H : swap_loop _ _ _ _ _ _ _ _ _ = Ok _ |- _ => apply swap_loop_amounts in H; [destruct H as (_ & A)|done] end; cbn in A; rewrite A by done; lia.
Qed.

Theorem C19_charges_offer_partial e i s k d a lim s' ms at' :
  reachable s -> execute e i s (Swap k d a true lim) = Ok (s', ms, at') ->
  exists out, at' = [("amount_in"%string, a); ("amount_out"%string, out)] /\ 0 < out /\ 0 < a /\
    received e i (if d then pk_x k else pk_y k) ms = a /\
    paid (i_sender i) (if d then pk_y k else pk_x k) ms = out.
Proof.
  intros R H. pose proof H as H0. unfold execute in H. destruct (env_typed e i && msg_typed (Swap k d a true lim)) eqn:ET; [|done].
  apply andb_true_iff in ET. destruct ET as [T M]. cbn [dispatch] in H. unfold swap in H.
  inv_bind H as [[s1 m1] r] E. apply Ok_inj in H. simplify_eq.
  destruct (C21_quote_predicts_swap e i s k d a true lim R T M) as [Q _].
  destruct (Q _ _ _ H0) as (q & p' & Eq & Eat & _ & _ & A). clear Q.
  apply swap_internal_inv in E. destruct E as (C & _).
  destruct (calculate_swap_frame _ _ _ _ _ _ _ _ _ C) as (p & Ep & _ & _ & _ & _ & N & NO).
  pose proof (calculate_swap_out _ _ _ _ _ _ _ _ _ C) as [V1 V2].
  cbn [msg_typed] in M. repeat (apply andb_true_iff in M; destruct M as [M ?]). apply in_range_spec in H1.
  pose proof (calculate_swap_exact_in _ _ _ _ _ _ _ _ (proj1 H1) C) as I.
  unfold query_quote in Eq. rewrite C in Eq. cbn in Eq. apply Ok_inj in Eq. subst q. cbn in *.
  rewrite I in *. exists (cr_out r). split; [done|]. split; [lia|]. split; [lia|]. apply A. lia.
Qed.

(** * C22, C23: routes *)
(** executing a route is executing its swaps one after another, each trading exactly the previous
    output, at the extreme price limits *)
Inductive route_trace (e : env) (i : msg_info)
  : store -> Z -> list swap_hop -> store -> list out_msg -> Z -> Prop :=
| rt_nil s a : route_trace e i s a [] s [] a
| rt_cons s a h s1 m1 b rest s2 m2 out :
    execute e i s (Swap (hop_key h) (hop_x_to_y h) a true
                     (if hop_x_to_y h then 15258932000000000000 else 65535383934512647000000000000))
      = Ok (s1, m1, [("amount_in"%string, a); ("amount_out"%string, b)]) ->
    route_trace e i s1 b rest s2 m2 out ->
    route_trace e i s a (h :: rest) s2 (m1 ++ m2) out.

Lemma swap_route_trace e i hops : env_typed e i = true ->
  forallb (fun h => key_ok (hop_key h)) hops = true -> forall s a s' ms out, 0 <= a <= U128MAX ->
  (swap_route_internal e i s a hops = Ok (s', ms, out) <-> route_trace e i s a hops s' ms out).
Proof.
  intros T. induction hops as [|h hops IH]; intros K s a s' ms out Ha.
  - cbn. split.
    + intros H. simplify_eq. constructor.
    + intros H. inversion H. done.
  - cbn in K. apply andb_true_iff in K. destruct K as [K1 K2]. specialize (IH K2).
    assert (L : (if hop_x_to_y h then 15258932000000000000 else 65535383934512647000000000000) = hop_limit (hop_x_to_y h)) by (by destruct (hop_x_to_y h)).
    assert (M : msg_typed (Swap (hop_key h) (hop_x_to_y h) a true (hop_limit (hop_x_to_y h))) = true).
    { cbn [msg_typed]. rewrite K1. unfold u128_ok. rewrite !(proj2 (in_range_spec _ _ a)) by done.
      rewrite (proj2 (in_range_spec _ _ (hop_limit (hop_x_to_y h)))); [done|].
      destruct (hop_x_to_y h); unfold U128MAX; cbn; unfold MIN_SQRT_PRICE, MAX_SQRT_PRICE; lia. }
    split.
    + cbn. intros H. inv_bind H as [[s1 m1] r] E. inv_bind H as [[s2 m2] o] E2. apply Ok_inj in H. simplify_eq.
      pose proof (swap_internal_inv _ _ _ _ _ _ _ _ _ _ _ E) as (C & _).
      econstructor.
      * rewrite L. unfold execute. rewrite T, M. cbn [andb dispatch]. unfold swap. rewrite E. cbn [bind].
        rewrite (calculate_swap_exact_in _ _ _ _ _ _ _ _ (proj1 Ha) C). reflexivity.
      * apply IH; [|done]. apply calculate_swap_out in C. tauto.
    + intros H. inversion H as [|s0 a0 h0 s1 m1 b rest s2 m2 out0 EX TR]; subst.
      rewrite L in EX. unfold execute in EX. rewrite T, M in EX. cbn [andb dispatch] in EX. unfold swap in EX.
      inv_bind EX as [[s3 m3] r] E. apply Ok_inj in EX. injection EX as -> -> E1 E2. cbn [swap_route_internal].
      rewrite E. cbn [bind]. apply IH in TR.
      * rewrite E2, TR. done.
      * apply swap_internal_inv in E as (C & _). apply calculate_swap_out in C. lia.
Qed.

Theorem C23_route_delivers e i s a expected slippage hops s' ms at' :
  execute e i s (SwapRoute a expected slippage hops) = Ok (s', ms, at') ->
  exists out, at' = [("amount_out"%string, out)] /\
    route_trace e i s a hops s' ms out /\
    slippage <= 10 ^ 12 /\
    expected * (10 ^ 12 - slippage) <= out * 10 ^ 12.
Proof.
  unfold execute. destruct (env_typed e i && msg_typed _) eqn:ET; [|done]. intros H.
  apply andb_true_iff in ET. destruct ET as [T M]. cbn [dispatch] in H. unfold swap_route in H.
  inv_bind H as [[s1 m1] out] E. inv_bind H as mn EM. destruct (Z.ltb_spec out mn); [done|].
  apply Ok_inj in H. simplify_eq. cbn [msg_typed] in M. rewrite !andb_true_iff in M.
  destruct M as (((M1 & M2) & M3) & M4). apply in_range_spec in M1, M2, M3.
  exists out. split; [done|]. split; [apply swap_route_trace; try done; lia|].
  unfold calculate_min_amount_out in EM. inv_bind EM as c EC. apply pct_complement_ok in EC. destruct EC as [-> [C0 _]].
  apply ceil_pct in EM. change (10 ^ 12) with PCT_ONE. split; [lia|]. unfold PCT_ONE in *. lia.
Qed.
(** conversely such a trace is executable as a route, whatever its length *)
Theorem C23_route_complete e i s a expected slippage hops s' ms out :
  env_typed e i = true -> msg_typed (SwapRoute a expected slippage hops) = true ->
  slippage <= 10 ^ 12 -> expected * (10 ^ 12 - slippage) <= out * 10 ^ 12 ->
  route_trace e i s a hops s' ms out ->
  execute e i s (SwapRoute a expected slippage hops) = Ok (s', ms, [("amount_out"%string, out)]).
Proof.
  intros T M S1 S2 TR. unfold execute. rewrite T, M. cbn [andb dispatch]. unfold swap_route.
  cbn [msg_typed] in M. rewrite !andb_true_iff in M.
  destruct M as (((M1 & M2) & M3) & M4). apply in_range_spec in M1, M2, M3.
  apply swap_route_trace in TR; [|done|done|lia]. rewrite TR. cbn [bind].
  change (10 ^ 12) with PCT_ONE in *.
  unfold calculate_min_amount_out, pct_complement.
  rewrite (proj2 (ckp_ok U64MAX (PCT_ONE - slippage) (PCT_ONE - slippage))); [|unfold PCT_ONE, U64MAX in *; lia].
  cbn [bind]. unfold big_mul_up.
  pose proof (ceil_spec (expected * (PCT_ONE - slippage)) PCT_ONE ltac:(reflexivity)) as CS.
  set (m := (expected * (PCT_ONE - slippage) + (PCT_ONE - 1)) / PCT_ONE) in *.
  assert (B : m <= out) by (clearbody m; unfold PCT_ONE in *; nia).
  assert (B0 : 0 <= m <= U128MAX).
  { clearbody m. assert (expected * (PCT_ONE - slippage) <= expected * PCT_ONE) by nia.
    assert (0 <= expected * (PCT_ONE - slippage)) by nia. unfold PCT_ONE in *. lia. }
  rewrite (proj2 (ckp_ok U128MAX m m)) by done. cbn [bind].
  destruct (Z.ltb_spec out m); [lia|done].
Qed.
Example ex_C23 :
  match execute v_env (v_info "bob") sc0 (SwapRoute 3000 2900 20000000000 [mkHop v_key true; mkHop v_key false]) with
  | Ok (_, ms, at') => at' = [("amount_out", 2963)]%string /\ length ms = 4%nat
  | _ => False
  end.
Proof. vm_compute. split; reflexivity. Qed.

(** C22 is false when a route visits a pool twice: the quote prices the second visit in the state
    before the first one *)
Theorem C22_route_quote_refuted : exists s i hops quoted out ms s',
  reachable s /\ query_quote_route v_env s 3000 hops = Ok quoted /\
  execute v_env i s (SwapRoute 3000 0 0 hops) = Ok (s', ms, [("amount_out"%string, out)]) /\
  out <> quoted.
Proof.
  pose (hops := [mkHop v_key true; mkHop v_key false]).
  assert (X : match query_quote_route v_env sc0 3000 hops, execute v_env (v_info "bob") sc0 (SwapRoute 3000 0 0 hops) with
              | Ok q, Ok (_, _, [(n, o)]) => String.eqb n "amount_out" && negb (o =? q) = true
              | _, _ => False end) by (vm_compute; reflexivity).
  destruct (query_quote_route v_env sc0 3000 hops) as [q|?|] eqn:EQ; [|contradiction|contradiction].
  destruct (execute v_env (v_info "bob") sc0 (SwapRoute 3000 0 0 hops)) as [[[s' ms] [|[n o] [|]]]|?|] eqn:EE; try contradiction.
  apply andb_true_iff in X. destruct X as [X1 X2]. apply String.eqb_eq in X1. subst n.
  apply negb_true_iff, Z.eqb_neq in X2.
  exists sc0, (v_info "bob"), hops, q, o, ms, s'. split; [exact sc0_reachable|]. split; [exact EQ|].
  split; [exact EE|exact X2].
Qed.

Lemma swap_view_route e hops : forall s s' a,
  (forall h, In h hops -> same_view (hop_key h) s s') -> route e s' a hops = route e s a hops.
Proof.
  induction hops as [|h hops IH]; intros s s' a V; cbn; [done|].
  rewrite (view_calc _ _ _ _ _ _ _ _ _ (V h (or_introl eq_refl))). apply bind_ext. intros r. apply IH.
  intros h' I. apply V. by right.
Qed.
Lemma swap_route_quote e i hops : NoDup (map hop_key hops) -> forall s a, ticks_indexed s ->
  (forall s' ms out, swap_route_internal e i s a hops = Ok (s', ms, out) -> route e s a hops = Ok out) /\
  (forall out, 0 <= a <= U128MAX -> (forall h, In h hops -> e_addr_ok e (if hop_x_to_y h then pk_x (hop_key h) else pk_y (hop_key h)) = true) ->
     route e s a hops = Ok out -> exists s' ms, swap_route_internal e i s a hops = Ok (s', ms, out)).
Proof.
  induction hops as [|h hops IH]; intros ND s a IX; cbn.
  { split; intros; simplify_eq; eauto. }
  cbn in ND. apply NoDup_cons in ND. destruct ND as [NI ND].
  assert (V : forall s1 m1 r, swap_internal e i s (hop_key h) (hop_x_to_y h) a true (hop_limit (hop_x_to_y h)) = Ok (s1, m1, r) ->
    ticks_indexed s1 /\ forall h', In h' hops -> same_view (hop_key h') s s1).
  { intros s1 m1 r E. apply swap_internal_kept in E; [|done]. split.
    - eapply tick_kept_indexed; [exact IX|]. eapply sk_tick, E.
    - intros h' I. eapply swap_kept_view; [exact E|]. intros Q. apply elem_of_list_singleton in Q. apply NI.
      rewrite <- Q. apply elem_of_list_In, in_map, I. }
  split.
  - intros s' ms out H. inv_bind H as [[s1 m1] r] E. inv_bind H as [[s2 m2] o] E2. apply Ok_inj in H. simplify_eq.
    destruct (V _ _ _ E) as [IX1 VV]. apply swap_internal_inv in E as (C & _). rewrite C. cbn [bind].
    rewrite <- (swap_view_route _ _ _ _ _ VV). apply (proj1 (IH ND s1 (cr_out r) IX1)) in E2. exact E2.
  - intros out Ha CP H. inv_bind H as r C. 
    assert (S : exists s1 m1, swap_internal e i s (hop_key h) (hop_x_to_y h) a true (hop_limit (hop_x_to_y h)) = Ok (s1, m1, r)).
    { unfold swap_internal. rewrite C. cbn [bind].
      destruct (calculate_swap_frame _ _ _ _ _ _ _ _ _ C) as (p & Ep & _ & _ & _ & F & _).
      destruct (update_ticks_total s (hop_key h) (cr_ticks r)) as [s1 ->]; [by apply crossed_exists|]. cbn [bind].
      destruct (calculate_swap_out _ _ _ _ _ _ _ _ _ C) as [_ VV].
      destruct (transfer_from_total e i (if hop_x_to_y h then pk_x (hop_key h) else pk_y (hop_key h)) (cr_in r)) as [m0 E0]; [lia|left; apply CP; by left|].
      destruct (hop_x_to_y h); rewrite E0; cbn [bind]; eauto. }
    destruct S as (s1 & m1 & E). destruct (V _ _ _ E) as [IX1 VV]. rewrite E. cbn [bind].
    destruct (proj2 (IH ND s1 (cr_out r) IX1) out) as (s2 & m2 & ->).
    + apply calculate_swap_out in C. lia.
    + intros h' I. apply CP. by right.
    + rewrite (swap_view_route _ _ _ _ _ VV). exact H.
    + cbn. eauto.
Qed.
(** routes whose pools are pairwise different *)
Theorem C22_route_quote_partial e i s a expected slippage hops :
  reachable s -> NoDup (map hop_key hops) ->
  (forall s' ms at', execute e i s (SwapRoute a expected slippage hops) = Ok (s', ms, at') ->
     exists out, query_quote_route e s a hops = Ok out /\ at' = [("amount_out"%string, out)]) /\
  (forall out, query_quote_route e s a hops = Ok out ->
     env_typed e i = true -> msg_typed (SwapRoute a expected slippage hops) = true ->
     (forall h, In h hops -> e_addr_ok e (if hop_x_to_y h then pk_x (hop_key h) else pk_y (hop_key h)) = true) ->
     slippage <= 10 ^ 12 -> expected * (10 ^ 12 - slippage) <= out * 10 ^ 12 ->
     exists s' ms, execute e i s (SwapRoute a expected slippage hops) = Ok (s', ms, [("amount_out"%string, out)])).
Proof.
  intros R ND. pose proof (ereach_indexed _ (reachable_ereach _ R)) as IX. split.
  - unfold execute. intros s' ms at'. destruct (env_typed e i && msg_typed _) eqn:ET; [|done]. intros H.
    cbn [dispatch] in H. unfold swap_route in H. inv_bind H as [[s1 m1] out] E. inv_bind H as mn EM.
    destruct (_ <? _); [done|]. apply Ok_inj in H. simplify_eq. exists out. split; [|done].
    eapply (proj1 (swap_route_quote e i hops ND s a IX)), E.
  - intros out Q T M CP S1 S2. pose proof M as M0. cbn [msg_typed] in M. rewrite !andb_true_iff in M.
    destruct M as (((M1 & M2) & M3) & M4). apply in_range_spec in M1.
    destruct (proj2 (swap_route_quote e i hops ND s a IX) out M1 CP Q) as (s' & ms & E).
    exists s', ms. apply C23_route_complete; try done. by apply swap_route_trace.
Qed.

(** * C26: other pools *)
Definition touches (i : msg_info) (s : store) (m : exec_msg) (k : pool_key) : Prop :=
  match m with
  | WithdrawProtocolFee k' | ChangeFeeReceiver k' _ | CreatePosition k' _ _ _ _ _ | Mint k' _ _ _ _ _
  | Swap k' _ _ _ _ => k' = k
  | SwapRoute _ _ _ hops => exists h, In h hops /\ hop_key h = k
  | ClaimFee ix | RemovePosition ix =>
      exists po, st_positions s !! (i_sender i, ix) = Some po /\ po_key po = k
  | Burn tid => exists o ix po, split_token tid = Some (o, ix) /\
                  st_positions s !! (i_sender i, ix) = Some po /\ po_key po = k
  | CreatePool a b t _ _ => pk_tier k = t /\ ((pk_x k = a /\ pk_y k = b) \/ (pk_x k = b /\ pk_y k = a))
  | _ => False
  end.
Record pool_same (k : pool_key) (s s' : store) : Prop := {
  ps_pool : st_pools s' !! k = st_pools s !! k;
  ps_tick : forall i, st_ticks s' !! (k, i) = st_ticks s !! (k, i);
  ps_chunk : forall c, st_bitmap s' !! (k, c) = st_bitmap s !! (k, c)
}.

Lemma flip_other s v i sp k s' k' c : flip_bitmap s v i sp k = Ok s' -> k' <> k ->
  st_bitmap s' !! (k', c) = st_bitmap s !! (k', c).
Proof.
  unfold flip_bitmap. intros H N. inv_bind H as [ch b] E. rinv H; subst; cbn; apply lookup_insert_ne; congruence.
Qed.
Lemma init_other s k i bm bm' k' c : init_bitmap s k i bm bm' -> k' <> k -> bm' !! (k', c) = bm !! (k', c).
Proof.
  unfold init_bitmap. intros H N. destruct (st_ticks s !! (k, i)); [by subst|]. destruct H as (s' & F & ->).
  eapply flip_other in F; [|exact N]. exact F.
Qed.
Lemma clear_other b k i bm bm' k' c : clear_bitmap b k i bm bm' -> k' <> k -> bm' !! (k', c) = bm !! (k', c).
Proof.
  unfold clear_bitmap. intros H N. destruct b; [|by subst]. destruct H as (s & s' & F & Q & ->).
  eapply flip_other in F; [|exact N]. rewrite F, <- Q. done.
Qed.
Lemma clear_tick_other b k i t m k' j : k' <> k -> clear_tick b k i t m !! (k', j) = m !! (k', j).
Proof.
  intros N. unfold clear_tick. destruct b; [apply lookup_delete_ne|apply lookup_insert_ne]; congruence.
Qed.

Lemma create_same e i s k l u q sl su s' ms at' k' : ticks_indexed s ->
  create_position e i s k l u q sl su = Ok (s', ms, at') -> k <> k' -> pool_same k' s s'.
Proof.
  intros IX H N. apply create_position_inv in H; [|done].
  destruct H as (p & lt & ut & po & p' & lt' & ut' & x & y & bm1 & bm2 & m0 & m1 & H).
  destruct H as (_ & _ & _ & _ & _ & B1 & B2 & _ & _ & _ & _ & _ & _ & ->).
  constructor; cbn.
  - by apply lookup_insert_ne.
  - intros j. rewrite !lookup_insert_ne by congruence. done.
  - intros c. rewrite (init_other _ _ _ _ _ _ c B2) by congruence. eapply init_other; [exact B1|congruence].
Qed.
Lemma remove_same e i s ix s' ms at' k' : ticks_indexed s ->
  remove_position_exec e i s ix = Ok (s', ms, at') ->
  ~ (exists po, st_positions s !! (i_sender i, ix) = Some po /\ po_key po = k') -> pool_same k' s s'.
Proof.
  intros IX H N. apply remove_position_exec_inv in H; [|done].
  destruct H as (po & lt & ut & p & po' & p' & lt' & ut' & x & y & dl & du & bm1 & bm2 & m' & H).
  destruct H as (Epo & _ & _ & _ & _ & _ & _ & _ & _ & _ & B1 & B2 & _ & ->).
  assert (N' : k' <> po_key po) by (intros ->; eauto).
  constructor; cbn.
  - by apply lookup_insert_ne.
  - intros j. rewrite !clear_tick_other by done. done.
  - intros c. rewrite (clear_other _ _ _ _ _ _ c B2) by done. eapply clear_other; [exact B1|done].
Qed.

Lemma positions_only_same k s m l : pool_same k s (set_positions s m l).
Proof. by constructor. Qed.
Lemma transfer_same s o ix s1 po r po' s' k : remove_position s o ix = Ok (s1, po) ->
  add_position s1 r po' = Ok s' -> pool_same k s s'.
Proof.
  intros H1 H2. apply remove_position_inv in H1. destruct H1 as (_ & _ & m' & _ & ->).
  apply add_position_inv in H2. destruct H2 as [-> _]. by constructor.
Qed.
Lemma transfer_nft_same e i s r tid s' k : transfer_nft e i s r tid = Ok s' -> pool_same k s s'.
Proof.
  unfold transfer_nft. intros H. rinv H; simplify_eq.
  match goal with H1 : remove_position _ _ _ = Ok _ |- _ => eapply transfer_same; [exact H1|eassumption] end.
Qed.
Lemma approvals_same e i s sp tid add x s' k : update_approvals e i s sp tid add x = Ok s' -> pool_same k s s'.
Proof.
  unfold update_approvals, get_position_by_key, get_position. intros H.
  destruct (split_token tid) as [[o ix]|]; [|done].
  destruct (st_positions s !! (o, ix)) as [po|] eqn:E; [|done]. cbn [bind] in H.
  inv_bind H as [] EC. inv_bind H as l EL. apply Ok_inj in H. subst. by constructor.
Qed.
Lemma save_same s k p k' : k <> k' -> pool_same k' s (save_pool s k p).
Proof. intros N. constructor; cbn; [by apply lookup_insert_ne|done|done]. Qed.
Lemma kept_same ks s s' k : swap_kept ks s s' -> k ∉ ks -> pool_same k s s'.
Proof. intros [] N. constructor; auto. intros c. by rewrite sk_bitmap. Qed.

Theorem C26_other_pools_untouched e i s m s' ms at' k :
  reachable s -> execute e i s m = Ok (s', ms, at') -> ~ touches i s m k ->
  st_pools s' !! k = st_pools s !! k /\
  (forall j, st_ticks s' !! (k, j) = st_ticks s !! (k, j)) /\
  (forall c, st_bitmap s' !! (k, c) = st_bitmap s !! (k, c)).
Proof.
  intros R H N. pose proof (ereach_indexed _ (reachable_ereach _ R)) as IX.
  cut (pool_same k s s'); [intros [A B C]; auto|].
  unfold execute in H. destruct (env_typed e i && msg_typed m) eqn:ET; [|done]. clear ET.
  destruct m; cbn [dispatch touches] in *.
  - unfold change_admin in H. rinv H; simplify_eq. by constructor.
  - unfold withdraw_protocol_fee in H. rinv H; simplify_eq. by apply save_same.
  - unfold change_protocol_fee in H. rinv H; simplify_eq. by constructor.
  - unfold change_fee_receiver in H. rinv H; simplify_eq. by apply save_same.
  - eapply create_same; [exact IX|exact H|done].
  - unfold swap in H. inv_bind H as [[s1 m1] r] E. apply Ok_inj in H. simplify_eq.
    eapply kept_same; [eapply swap_internal_kept; eassumption|]. intros Q. apply elem_of_list_singleton in Q. congruence.
  - unfold swap_route in H. inv_bind H as [[s1 m1] r] E. inv_bind H as mn EM. destruct (_ <? _); [done|].
    apply Ok_inj in H. simplify_eq.
    eapply kept_same; [eapply swap_route_internal_kept; eassumption|]. intros Q. apply elem_of_list_In, in_map_iff in Q.
    destruct Q as (h & Q1 & Q2). eauto.
  - unfold transfer_position in H. inv_bind H as po EP. inv_bind H as [s1 po0] ER. destruct (negb _); [done|].
    inv_bind H as s2 EA. apply Ok_inj in H. simplify_eq. eapply transfer_same; [exact ER|exact EA].
  - apply claim_fee_inv in H; [|done]. destruct H as (po & lt & ut & p & po' & p' & lt' & ut' & x & y & H).
    destruct H as (Epo & _ & _ & _ & _ & _ & _ & _ & _ & _ & ->).
    assert (N' : po_key po <> k) by (intros Q; apply N; eauto).
    constructor; cbn; [by apply lookup_insert_ne| |done]. intros j. rewrite !lookup_insert_ne by congruence. done.
  - eapply remove_same; [exact IX|exact H|done].
  - unfold create_pool in H. destruct (negb _); [done|]. inv_bind H as [] EC. inv_bind H as k0 EK. inv_bind H as b EB.
    destruct (st_pools s !! k0); [done|]. inv_bind H as p EP. apply Ok_inj in H. simplify_eq. apply save_same.
    intros ->. apply N. unfold pool_key_new in EK. repeat case_match; simplify_eq; cbn; auto.
  - unfold add_fee_tier in H. rinv H; simplify_eq. by constructor.
  - unfold remove_fee_tier in H. rinv H; simplify_eq. by constructor.
  - unfold handle_transfer_nft in H. inv_bind H as s1 E. apply Ok_inj in H. simplify_eq. eapply transfer_nft_same, E.
  - eapply create_same; [exact IX|exact H|done].
  - unfold handle_burn in H. inv_bind H as po EG. destruct (split_token token_id) as [[o ix]|] eqn:ES; [|done].
    inv_bind H as [] EC. eapply remove_same; [exact IX|exact H|]. intros (po1 & P1 & P2). apply N. eauto 10.
  - unfold handle_send_nft in H. inv_bind H as s1 E. apply Ok_inj in H. simplify_eq. eapply transfer_nft_same, E.
  - unfold handle_approve in H. inv_bind H as s1 E. apply Ok_inj in H. simplify_eq. eapply approvals_same, E.
  - unfold handle_revoke in H. inv_bind H as s1 E. apply Ok_inj in H. simplify_eq. eapply approvals_same, E.
  - unfold handle_approve_all in H. rinv H; simplify_eq. by constructor.
  - unfold handle_revoke_all in H. rinv H; simplify_eq. by constructor.
Qed.

Definition is_trade (m : exec_msg) : Prop :=
  match m with Swap _ _ _ _ _ | SwapRoute _ _ _ _ => True | _ => False end.
(** a trade keeps every position, every approval, the configuration, the bitmap and the liquidity
    fields of every tick; it neither creates nor removes pools or ticks *)
Theorem C26_trade_keeps_positions e i s m s' ms at' :
  reachable s -> is_trade m -> execute e i s m = Ok (s', ms, at') ->
  st_positions s' = st_positions s /\ st_poslen s' = st_poslen s /\
  st_operators s' = st_operators s /\ st_config s' = st_config s /\ st_bitmap s' = st_bitmap s /\
  (forall k, is_Some (st_pools s' !! k) <-> is_Some (st_pools s !! k)) /\
  forall k j, match st_ticks s !! (k, j), st_ticks s' !! (k, j) with
              | Some t, Some t' => t_sign t' = t_sign t /\ t_change t' = t_change t /\ t_gross t' = t_gross t /\
                                   t_price t' = t_price t /\ t_index t' = j
              | None, None => True
              | _, _ => False
              end.
Proof.
  intros R T H. pose proof (ereach_indexed _ (reachable_ereach _ R)) as IX.
  assert (K : exists ks, swap_kept ks s s').
  { unfold execute in H. destruct (env_typed e i && msg_typed m) eqn:ET; [|done].
    destruct m; try done; cbn [dispatch] in *.
    - unfold swap in H. inv_bind H as [[s1 m1] r] E. apply Ok_inj in H. simplify_eq.
      eexists. eapply swap_internal_kept; eassumption.
    - unfold swap_route in H. inv_bind H as [[s1 m1] r] E. inv_bind H as mn EM. destruct (_ <? _); [done|].
      apply Ok_inj in H. simplify_eq. eexists. eapply swap_route_internal_kept; eassumption. }
  destruct K as [ks K]. destruct K. repeat (split; [done|]). split.
  - intros k. destruct (st_pools s !! k) eqn:E.
    + destruct (sk_pool _ _ E) as (p' & -> & _). split; eauto.
    + rewrite (sk_pool' _ E). done.
  - intros k j. specialize (sk_tick k j). destruct (st_ticks s !! (k, j)) as [t|] eqn:E, (st_ticks s' !! (k, j)); try done.
    destruct sk_tick as (I & A & B & C & D). rewrite I, (IX _ _ _ E). done.
Qed.
Example ex_C26 :
  match execute v_env (v_info "bob") sc0 (Swap v_key true 5000 true 15258932000000000000) with
  | Ok (s', _, _) => match st_pools s' !! v_key with Some p => p_price p = 999682097415074595169929 | None => False end
  | _ => False
  end.
Proof. vm_compute. reflexivity. Qed.
Example ex_C26' : ~ touches (v_info "bob") sc0 (Swap v_key true 5000 true 15258932000000000000) (mkPoolKey "a" "b" v_tier).
Proof. unfold touches. discriminate. Qed.

Print Assumptions C19_charges_offer_partial.
Print Assumptions C21_quote_predicts_swap.
Print Assumptions C22_route_quote_refuted.
Print Assumptions C22_route_quote_partial.
Print Assumptions C23_route_delivers.
Print Assumptions C23_route_complete.
Print Assumptions C26_other_pools_untouched.
Print Assumptions C26_trade_keeps_positions.
