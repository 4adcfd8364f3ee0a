(** C36: native coins attached to a call. *)
From Verif Require Import Base Decimal SqrtPrice Clamm FeeGrowth Types Tick Pool Position State Swap Exec Tactics
  PriceProofs ClammProofs Frame Handlers History Basic Ledger Scenario Vectors SwapInv Modify LiqInv Geo Ops PropLiq PropTrade PropSwap Flow PropSolv.
From stdpp Require Import gmap strings.
From Coq Require Import Lia.
Open Scope Z_scope.

(** what a call sends of native coin [T], and that all of it goes to the caller *)
Definition returned (i : msg_info) (T : string) (ms : list out_msg) (v : Z) : Prop :=
  sent T ms = v /\ paid (i_sender i) T ms = v.
Lemma returned_app i T m m' v v' : returned i T m v -> returned i T m' v' -> returned i T (m ++ m') (v + v').
Proof. intros [A B] [C D]. split; [rewrite sent_app|rewrite paid_app]; lia. Qed.
Lemma returned_nil i T : returned i T [] 0.
Proof. done. Qed.
Lemma returned_transfer e i T t v : returned i T (asset_transfer e i t v) (if String.eqb t T then v else 0).
Proof. split; [apply sent_transfer|]. rewrite paid_transfer, String.eqb_refl. done. Qed.
Definition refund (i : msg_info) (T t : string) (v : Z) : Z := if String.eqb t T && negb (v =? 0) then attached i T - v else 0.
Lemma returned_from e i T t v m : e_addr_ok e T = false -> asset_transfer_from e i t v = Ok m ->
  returned i T m (refund i T t v) /\ (t = T -> v <> 0 -> v <= attached i T).
Proof.
  intros NV H. unfold asset_transfer_from in H. unfold refund. destruct (Z.eqb_spec v 0) as [->|V].
  { apply Ok_inj in H. subst m. rewrite andb_false_r. done. }
  rewrite andb_true_r. destruct (String.eqb_spec t T) as [->|N].
  - rewrite NV in H. unfold attached. destruct (List.find _ _) as [c|]; [|done]. destruct (Z.leb_spec v (c_amount c)); [|done].
    apply Ok_inj in H. subst m. split; [|done]. destruct (Z.eqb_spec (c_amount c - v) 0) as [Z0|Z0]; [by rewrite Z0|].
    unfold returned, sent, paid. cbn. rewrite !String.eqb_refl. cbn. lia.
  - split; [|done]. apply String.eqb_neq in N. destruct (e_addr_ok e t); [apply Ok_inj in H; by subst m|].
    destruct (List.find _ _) as [c|]; [|done]. destruct (_ <=? _); [|done]. apply Ok_inj in H. subst m. destruct (_ =? 0); [done|].
    unfold returned, sent, paid. cbn. rewrite N, andb_false_r. done.
Qed.

(** ** One swap *)
Lemma swap_returned e i s k (d : bool) a by_in lim s' ms r T : e_addr_ok e T = false ->
  swap_internal e i s k d a by_in lim = Ok (s', ms, r) ->
  let tin := if d then pk_x k else pk_y k in let tout := if d then pk_y k else pk_x k in
  returned i T ms (refund i T tin (cr_in r) + (if String.eqb tout T then cr_out r else 0)) /\
  (tin = T -> cr_in r <> 0 -> cr_in r <= attached i T).
Proof.
  intros NV H tin tout. apply swap_internal_inv in H. destruct H as (_ & _ & m0 & AT & ->).
  destruct (returned_from _ _ T _ _ _ NV AT) as [RF BD]. split; [|exact BD]. apply returned_app; [exact RF|]. subst tout. destruct d; apply returned_transfer.
Qed.
(** Of the coin it takes in, a swap keeps exactly [amount_in]; of the coin it pays out it sends exactly [amount_out].
    Missing from C36: a coin attached but not charged is kept, see the refutations below. *)
Theorem C36_swap_partial e i s k (d : bool) a by_in lim s' ms total out T : e_addr_ok e T = false -> reachable s ->
  execute e i s (Swap k d a by_in lim) = Ok (s', ms, [("amount_in"%string, total); ("amount_out"%string, out)]) ->
  (T = (if d then pk_x k else pk_y k) -> 0 < total -> attached i T - sent T ms = total) /\
  (T = (if d then pk_y k else pk_x k) -> sent T ms = out) /\
  (T <> pk_x k -> T <> pk_y k -> sent T ms = 0) /\
  paid (i_sender i) T ms = sent T ms.
Proof.
  intros NV R H. destruct (execute_swap_inv _ _ _ _ _ _ _ _ _ _ _ R H) as (r & p & _ & EA & Ep & _). injection EA as -> ->.
  pose proof (pool_distinct s k (reachable_ereach _ R) ltac:(eauto)) as N.
  unfold execute in H. destruct (_ && _); [|done]. cbn [dispatch] in H. unfold swap in H. inv_bind H as [[s1 m1] r1] E.
  apply Ok_inj in H. injection H as <- <- Q1 Q2. destruct (swap_returned _ _ _ _ _ _ _ _ _ _ _ T NV E) as [[A B] C]. rewrite Q1, Q2 in *.
  split; [|split; [|split; [|lia]]]; unfold refund in *.
  - intros -> V. rewrite A. rewrite String.eqb_refl, (proj2 (Z.eqb_neq (cr_in r) 0)) by lia. cbn.
    assert (String.eqb (if d then pk_y k else pk_x k) (if d then pk_x k else pk_y k) = false) as -> by (apply String.eqb_neq; destruct d; congruence). lia.
  - intros ->. rewrite A, String.eqb_refl.
    assert (String.eqb (if d then pk_x k else pk_y k) (if d then pk_y k else pk_x k) = false) as -> by (apply String.eqb_neq; destruct d; congruence). cbn. lia.
  - intros N1 N2. rewrite A. rewrite !(proj2 (String.eqb_neq _ T)) by (destruct d; congruence). done.
Qed.

(** ** A new position *)
Lemma create_returned e i s k lower upper liq sl su s' ms at' T p : e_addr_ok e T = false -> ereach s -> 0 <= liq <= U128MAX ->
  create_position e i s k lower upper liq sl su = Ok (s', ms, at') -> st_pools s !! k = Some p ->
  exists x y upd, calculate_amount_delta (p_tick p) (p_price p) liq true upper lower = Ok (x, y, upd) /\
  (T = pk_x k -> x <> 0 -> attached i T - sent T ms = x /\ x <= attached i T) /\
  (T = pk_y k -> y <> 0 -> attached i T - sent T ms = y /\ y <= attached i T) /\
  (T <> pk_x k -> T <> pk_y k -> sent T ms = 0) /\
  paid (i_sender i) T ms = sent T ms.
Proof.
  intros NV ER HQ H Ep. pose proof (pool_distinct s k ER ltac:(eauto)) as N. apply create_inv in H; [|done|done].
  destruct H as (p0 & lt & ut & po & p' & lt' & ut' & x & y & bm1 & bm2 & m0 & m1 & F). destruct F.
  assert (p0 = p) as -> by congruence. pose proof (mf_amount _ _ _ _ _ _ _ _ _ _ _ _ _ _ _ _ cx_mod) as AD.
  rewrite (tp_index _ _ _ _ cx_lowp), (tp_index _ _ _ _ cx_upp) in AD.
  exists x, y, (in_range_tick lower upper (p_tick p)). split; [exact AD|].
  destruct (returned_from _ _ T _ _ _ NV cx_payx) as [RX BX]. destruct (returned_from _ _ T _ _ _ NV cx_payy) as [RY BY].
  destruct (returned_app _ _ _ _ _ _ RX RY) as [A B]. rewrite cx_msgs, A, B. unfold refund.
  split; [|split; [|split; [|done]]].
  - intros -> V. specialize (BX eq_refl V). rewrite String.eqb_refl, (proj2 (Z.eqb_neq x 0) V), (proj2 (String.eqb_neq _ _)) by congruence. cbn. lia.
  - intros -> V. specialize (BY eq_refl V). rewrite String.eqb_refl, (proj2 (Z.eqb_neq y 0) V), (proj2 (String.eqb_neq _ _)) by congruence. cbn. lia.
  - intros N1 N2. rewrite !(proj2 (String.eqb_neq _ T)) by congruence. done.
Qed.
(** Opening a position keeps of each coin of the pool exactly the deposit computed from price and range, when that deposit is
    not zero.  Missing from C36: a coin attached for a side whose deposit is zero is kept, see [C36_zero_side_refuted]. *)
Theorem C36_create_partial e i s k lower upper liq sl su s' ms at' T p : e_addr_ok e T = false -> reachable s ->
  execute e i s (CreatePosition k lower upper liq sl su) = Ok (s', ms, at') \/ execute e i s (Mint k lower upper liq sl su) = Ok (s', ms, at') ->
  st_pools s !! k = Some p ->
  exists x y upd, calculate_amount_delta (p_tick p) (p_price p) liq true upper lower = Ok (x, y, upd) /\
  (T = pk_x k -> x <> 0 -> attached i T - sent T ms = x /\ x <= attached i T) /\
  (T = pk_y k -> y <> 0 -> attached i T - sent T ms = y /\ y <= attached i T) /\
  (T <> pk_x k -> T <> pk_y k -> sent T ms = 0) /\
  paid (i_sender i) T ms = sent T ms.
Proof.
  intros NV R H Ep.
  assert (0 <= liq <= U128MAX /\ create_position e i s k lower upper liq sl su = Ok (s', ms, at')) as [HQ HC].
  { unfold execute in H. destruct H as [H|H]; (destruct (_ && _) eqn:TY; [|done]); apply andb_prop in TY; destruct TY as [TE TY];
      cbn [dispatch msg_typed] in H, TY; (split; [|exact H]); repeat (apply andb_prop in TY; destruct TY as [TY ?]);
      match goal with Q : u128_ok liq = true |- _ => by apply in_range_spec in Q end. }
  eapply create_returned; eauto using reachable_ereach.
Qed.

(** ** A route *)
Definition hop_out (h : swap_hop) : string := if hop_x_to_y h then pk_y (hop_key h) else pk_x (hop_key h).
(** [io] lists what each hop takes and pays; these are the totals in token [T] *)
Fixpoint ins (T : string) (hops : list swap_hop) (io : list (Z * Z)) : Z :=
  match hops, io with h :: r, (a, _) :: l => (if String.eqb (hop_in h) T then a else 0) + ins T r l | _, _ => 0 end.
Fixpoint outs (T : string) (hops : list swap_hop) (io : list (Z * Z)) : Z :=
  match hops, io with h :: r, (_, b) :: l => (if String.eqb (hop_out h) T then b else 0) + outs T r l | _, _ => 0 end.
(** the first hop takes [a], every later one what the hop before it paid, and the last pays [out] *)
Fixpoint chained (a : Z) (io : list (Z * Z)) (out : Z) : Prop :=
  match io with [] => out = a | (x, y) :: r => x = a /\ x <> 0 /\ chained y r out end.
Lemma route_returned e i T hops : e_addr_ok e T = false -> forall s a s' ms out, 0 <= a ->
  swap_route_internal e i s a hops = Ok (s', ms, out) ->
  exists io, length io = length hops /\ chained a io out /\ (forall x y, (x, y) ∈ io -> 0 <= x /\ 0 <= y) /\
    returned i T ms (hops_in T hops * attached i T - ins T hops io + outs T hops io).
Proof.
  intros NV. induction hops as [|h hops IH]; intros s a s' ms out Ha H; cbn [swap_route_internal] in H.
  - apply Ok_inj in H. injection H as <- <- <-. exists []. split; [done|]. split; [done|]. split; [|done]. intros x y X. by apply elem_of_nil in X.
  - inv_bind H as [[s1 m1] r] E. inv_bind H as [[s2 m2] o] E2. apply Ok_inj in H. injection H as <- <- <-.
    destruct (swap_returned _ _ _ _ _ _ _ _ _ _ _ T NV E) as [RT BD]. apply swap_internal_inv in E. destruct E as (C & _).
    pose proof (calculate_swap_exact_in _ _ _ _ _ _ _ _ Ha C) as CI. pose proof (calculate_swap_out _ _ _ _ _ _ _ _ _ C) as CO.
    assert (A0 : a <> 0). { unfold calculate_swap in C. destruct (Z.eqb_spec a 0); [done|assumption]. }
    destruct (IH _ _ _ _ _ (proj1 (proj1 CO)) E2) as (io & L & CH & NN & RT2).
    exists ((a, cr_out r) :: io). split; [cbn; lia|]. split; [done|]. split.
    { intros x y X. apply elem_of_cons in X. destruct X as [X|X]; [|by apply NN]. injection X as -> ->. lia. }
    cbn [hops_in ins outs]. fold (hop_in h) in RT. fold (hop_out h) in RT. rewrite CI in *.
    match goal with |- returned _ _ _ ?v => replace v with ((refund i T (hop_in h) a + (if String.eqb (hop_out h) T then cr_out r else 0)) +
      (hops_in T hops * attached i T - ins T hops io + outs T hops io)) end; [by apply returned_app|].
    unfold refund. rewrite (proj2 (Z.eqb_neq a 0) A0), andb_true_r. destruct (String.eqb (hop_in h) T); lia.
Qed.
(** A route returns what was attached of a coin minus the hop's charge once for every hop that takes the coin.
    Missing from C36: with two such hops the coin is returned twice, see [C36_double_refund_refuted]. *)
Theorem C36_route_partial e i s a expd slip hops s' ms out T : e_addr_ok e T = false -> reachable s ->
  execute e i s (SwapRoute a expd slip hops) = Ok (s', ms, [("amount_out"%string, out)]) ->
  exists io, length io = length hops /\ chained a io out /\ (forall x y, (x, y) ∈ io -> 0 <= x /\ 0 <= y) /\
    sent T ms = hops_in T hops * attached i T - ins T hops io + outs T hops io /\ paid (i_sender i) T ms = sent T ms.
Proof.
  intros NV R H. unfold execute in H. destruct (_ && _) eqn:TY; [|done]. apply andb_prop in TY. destruct TY as [TE TY]. cbn [dispatch msg_typed] in H, TY.
  assert (HA : 0 <= a <= U128MAX).
  { do 3 (apply andb_prop in TY; destruct TY as [TY ?]). by apply in_range_spec in TY. }
  unfold swap_route in H. inv_bind H as [[s1 m1] o] E. inv_bind H as mn E2. destruct (o <? mn); [done|]. apply Ok_inj in H. injection H as <- <- ->.
  destruct (route_returned e i T hops NV _ _ _ _ _ (proj1 HA) E) as (io & L & CH & NN & A & B). exists io. split; [done|]. split; [done|]. split; [done|]. split; [exact A|lia].
Qed.
(** so for a coin taken by one hop only, the rest is returned exactly once *)
Theorem C36_route_once_partial e i s a expd slip hops s' ms out T : e_addr_ok e T = false -> reachable s -> hops_in T hops = 1 ->
  execute e i s (SwapRoute a expd slip hops) = Ok (s', ms, [("amount_out"%string, out)]) ->
  exists io, length io = length hops /\ chained a io out /\ attached i T - sent T ms = ins T hops io - outs T hops io.
Proof.
  intros NV R ONE H. destruct (C36_route_partial _ _ _ _ _ _ _ _ _ _ T NV R H) as (io & L & CH & _ & A & _). exists io. split; [done|]. split; [done|]. rewrite A, ONE. lia.
Qed.

(** ** Every other call *)
Definition takes_coins (m : exec_msg) : bool :=
  match m with Swap _ _ _ _ _ | SwapRoute _ _ _ _ | CreatePosition _ _ _ _ _ _ | Mint _ _ _ _ _ _ => true | _ => false end.
(** the coins attached to any other call make no difference: they are neither refused nor returned *)
Theorem C36_coins_kept e a f f' s m : takes_coins m = false -> env_typed e (mkInfo a f) = true -> env_typed e (mkInfo a f') = true ->
  execute e (mkInfo a f') s m = execute e (mkInfo a f) s m.
Proof.
  intros N T T'. unfold execute. rewrite T, T'. destruct m; try discriminate N; reflexivity.
Qed.

(** ** Refutations *)
Fixpoint r_run (e : env) (l : list (msg_info * exec_msg)) (s : store) : res store :=
  match l with [] => Ok s | (i, m) :: r => let* '(s, _, _) := execute e i s m in r_run e r s end.
Definition r_start (e : env) (f : Z) (l : list (msg_info * exec_msg)) : res store :=
  let* s := instantiate (v_info "alice") f in r_run e l s.
Lemma r_start_reachable e f l s : r_start e f l = Ok s -> reachable s.
Proof.
  unfold r_start. intros H. inv_bind H as s0 E. apply reach_init in E. revert s0 H E.
  induction l as [|[i m] l IH]; intros s0 H R; cbn in H; [apply Ok_inj in H; by subst|].
  inv_bind H as [[s1 ms] at'] E. eapply IH; [exact H|]. eapply reach_call; eassumption.
Qed.
Definition o_pool : list (msg_info * exec_msg) :=
  [(v_info "alice", AddFeeTier v_tier); (v_info "alice", CreatePool "tokenx" "orai" v_tier SP_ONE 0)]%string.
Definition last_call (e : env) (l : list (msg_info * exec_msg)) (i : msg_info) (m : exec_msg) : res (store * response) :=
  let* s := r_start e 10000000000 l in let* r := execute e i s m in Ok (s, r).
Lemma last_call_inv e l i m s r : last_call e l i m = Ok (s, r) -> reachable s /\ execute e i s m = Ok r.
Proof.
  unfold last_call. intros H. inv_bind H as s0 E. inv_bind H as r0 E2. apply Ok_inj in H. injection H as -> ->. split; [|done]. eapply r_start_reachable, E.
Qed.

(** a position below the price needs no coin x: the attached coin is kept (alice attaches 30000 orai for the range [-30, -10)) *)
Theorem C36_zero_side_refuted : exists s s' ms at', reachable s /\
  execute o_env (with_orai "alice" 30000) s (CreatePosition o_key (-30) (-10) 20006000000000 SP_ONE SP_ONE) = Ok (s', ms, at') /\
  e_addr_ok o_env "orai" = false /\ pk_x o_key = "orai"%string /\ calculate_amount_delta 0 SP_ONE 20006000000000 true (-10) (-30) = Ok (0, 19986, false) /\
  attached (with_orai "alice" 30000) "orai" = 30000 /\ ms = [Cw20TransferFrom "tokenx" "alice" "self" 19986].
Proof.
  destruct (done_inv (fun '(s, (s', ms, at')) => ms = [Cw20TransferFrom "tokenx" "alice" "self" 19986]%string)
    (last_call o_env o_pool (with_orai "alice" 30000) (CreatePosition o_key (-30) (-10) 20006000000000 SP_ONE SP_ONE))) as ([s [[s' ms] at']] & E & X);
    [vm_compute; reflexivity|].
  apply last_call_inv in E. destruct E as [R E]. exists s, s', ms, at'. split; [exact R|]. split; [exact E|].
  split; [reflexivity|]. split; [reflexivity|]. split; [vm_compute; reflexivity|]. split; [reflexivity|]. exact X.
Qed.
(** a route that takes the coin in two hops returns it twice: bob gets back 1999803 of the 1000000 orai they attached,
    and another 97 as the outcome of the second hop *)
Theorem C36_double_refund_refuted : exists s s' ms, reachable s /\
  execute o_env (with_orai "bob" 1000000) s (SwapRoute 100 1 0 [mkHop o_key true; mkHop o_key false; mkHop o_key true])
    = Ok (s', ms, [("amount_out"%string, 95)]) /\
  e_addr_ok o_env "orai" = false /\ attached (with_orai "bob" 1000000) "orai" = 1000000 /\ sent "orai" ms = 1999803 + 97 /\ paid "bob" "orai" ms = 1999803 + 97.
Proof.
  destruct (done_inv (fun '(s, (s', ms, at')) => at' = [("amount_out"%string, 95)] /\ sent "orai" ms = 1999900 /\ paid "bob" "orai" ms = 1999900)
    (last_call o_env (removelast refund_calls) (with_orai "bob" 1000000) (SwapRoute 100 1 0 [mkHop o_key true; mkHop o_key false; mkHop o_key true])))
    as ([s [[s' ms] at']] & E & A & X); [vm_compute; repeat split; reflexivity|].
  apply last_call_inv in E. destruct E as [R E]. rewrite A in E. exists s, s', ms. split; [exact R|]. split; [exact E|].
  split; [reflexivity|]. split; [reflexivity|]. exact X.
Qed.
(** a coin that is not of the pool, or attached to a call that charges nothing, is kept as well *)
Definition with_two (a : string) (v w : Z) : msg_info := mkInfo a [mkCoin "orai" v; mkCoin "uatom" w].
Theorem C36_other_coin_refuted : exists s s' ms at', reachable s /\
  execute o_env (with_two "carol" 4000 700) s (Swap o_key true 3000 true MIN_SQRT_PRICE) = Ok (s', ms, at') /\
  attached (with_two "carol" 4000 700) "uatom" = 700 /\
  ms = [BankSend "carol" "orai" 1000; Cw20Transfer "tokenx" "carol" 2981]%string.
Proof.
  destruct (done_inv (fun '(s, (s', ms, at')) => ms = [BankSend "carol" "orai" 1000; Cw20Transfer "tokenx" "carol" 2981]%string)
    (last_call o_env (removelast refund_calls) (with_two "carol" 4000 700) (Swap o_key true 3000 true MIN_SQRT_PRICE)))
    as ([s [[s' ms] at']] & E & X); [vm_compute; reflexivity|].
  apply last_call_inv in E. destruct E as [R E]. exists s, s', ms, at'. split; [exact R|]. split; [exact E|]. split; [reflexivity|]. exact X.
Qed.
Theorem C36_claim_refuted : exists s s' ms at', reachable s /\
  execute o_env (with_orai "alice" 5000) s (ClaimFee 0) = Ok (s', ms, at') /\
  attached (with_orai "alice" 5000) "orai" = 5000 /\ sent "orai" ms = 0.
Proof.
  destruct (done_inv (fun '(s, (s', ms, at')) => sent "orai" ms = 0)
    (last_call o_env (removelast refund_calls) (with_orai "alice" 5000) (ClaimFee 0)))
    as ([s [[s' ms] at']] & E & X); [vm_compute; reflexivity|].
  apply last_call_inv in E. destruct E as [R E]. exists s, s', ms, at'. split; [exact R|]. split; [exact E|]. split; [reflexivity|]. exact X.
Qed.

(** ** Examples *)
(** a swap with 4000 orai attached that is charged 3000 *)
Example ex_C36_swap : exists s s' ms, reachable s /\
  execute o_env (with_orai "carol" 4000) s (Swap o_key true 3000 true MIN_SQRT_PRICE) = Ok (s', ms, [("amount_in"%string, 3000); ("amount_out"%string, 2981)]) /\
  sent "orai" ms = 1000 /\ sent "tokenx" ms = 2981.
Proof.
  destruct (done_inv (fun '(s, (s', ms, at')) => at' = [("amount_in"%string, 3000); ("amount_out"%string, 2981)] /\ sent "orai" ms = 1000 /\ sent "tokenx" ms = 2981)
    (last_call o_env (removelast refund_calls) (with_orai "carol" 4000) (Swap o_key true 3000 true MIN_SQRT_PRICE)))
    as ([s [[s' ms] at']] & E & A & X); [vm_compute; repeat split; reflexivity|].
  apply last_call_inv in E. destruct E as [R E]. rewrite A in E. exists s, s', ms. split; [exact R|]. split; [exact E|]. exact X.
Qed.
(** a position that is charged 10000 of the 30000 orai attached *)
Example ex_C36_create : exists s s' ms at' p, reachable s /\ st_pools s !! o_key = Some p /\
  execute o_env (with_orai "alice" 30000) s (CreatePosition o_key (-10) 10 20006000000000 SP_ONE SP_ONE) = Ok (s', ms, at') /\
  ms = [BankSend "alice" "orai" 20000; Cw20TransferFrom "tokenx" "alice" "self" 10000]%string.
Proof.
  destruct (done_inv (fun '(s, (s', ms, at')) => is_Some (st_pools s !! o_key) /\ ms = [BankSend "alice" "orai" 20000; Cw20TransferFrom "tokenx" "alice" "self" 10000]%string)
    (last_call o_env o_pool (with_orai "alice" 30000) (CreatePosition o_key (-10) 10 20006000000000 SP_ONE SP_ONE)))
    as ([s [[s' ms] at']] & E & [p P] & X); [vm_compute; split; [eexists; reflexivity|reflexivity]|].
  apply last_call_inv in E. destruct E as [R E]. exists s, s', ms, at', p. split; [exact R|]. split; [exact P|]. split; [exact E|]. exact X.
Qed.
(** a route orai -> tokenx -> orai with 1000 orai attached: one hop takes the coin, 900 come back and 97 are the outcome *)
Example ex_C36_route : exists s s' ms, reachable s /\ hops_in "orai" [mkHop o_key true; mkHop o_key false] = 1 /\
  execute o_env (with_orai "bob" 1000) s (SwapRoute 100 1 0 [mkHop o_key true; mkHop o_key false]) = Ok (s', ms, [("amount_out"%string, 97)]) /\
  sent "orai" ms = 900 + 97.
Proof.
  destruct (done_inv (fun '(s, (s', ms, at')) => at' = [("amount_out"%string, 97)] /\ sent "orai" ms = 997)
    (last_call o_env (removelast refund_calls) (with_orai "bob" 1000) (SwapRoute 100 1 0 [mkHop o_key true; mkHop o_key false])))
    as ([s [[s' ms] at']] & E & A & X); [vm_compute; repeat split; reflexivity|].
  apply last_call_inv in E. destruct E as [R E]. rewrite A in E. exists s, s', ms. split; [exact R|]. split; [reflexivity|]. split; [exact E|]. exact X.
Qed.
(** coins attached to a call that takes none *)
Example ex_C36_kept : takes_coins (ClaimFee 0) = false /\ env_typed o_env (with_orai "alice" 5000) = true /\ env_typed o_env (v_info "alice") = true.
Proof. repeat split. Qed.
