(** C123: everyone trades, opens pools and deposits on the same terms. *)
From Verif Require Import Base Decimal SqrtPrice Clamm Log FeeGrowth Types Tick Pool Position
  Tickmap Keys State Swap Exec Query Tactics Frame Handlers History Basic Vectors Scenario PropTrade PropLocal PropClock PropBlind.
From stdpp Require Import gmap strings.
From Coq Require Import Lia.
Open Scope Z_scope.

(** the same transfer, but from or to [a] instead of the caller *)
Definition for_user (a : string) (m : out_msg) : out_msg :=
  match m with
  | Cw20Transfer t _ n => Cw20Transfer t a n
  | Cw20TransferFrom t _ r n => Cw20TransferFrom t a r n
  | BankSend _ d n => BankSend a d n
  | NftReceive c _ t x => NftReceive c a t x
  end.
Definition trades (m : exec_msg) : bool := match m with Swap _ _ _ _ _ | SwapRoute _ _ _ _ | CreatePool _ _ _ _ _ => true | _ => false end.
Section Terms.
Context (e : env) (a b : string) (f : list coin).
Lemma tm_transfer d n : asset_transfer e (mkInfo b f) d n = map (for_user b) (asset_transfer e (mkInfo a f) d n).
Proof. unfold asset_transfer. destruct (n =? 0); [done|]. by destruct (e_addr_ok e d). Qed.
Lemma tm_from d n : both (fun x y => y = map (for_user b) x) (asset_transfer_from e (mkInfo a f) d n) (asset_transfer_from e (mkInfo b f) d n).
Proof.
  unfold asset_transfer_from. destruct (n =? 0); [done|]. destruct (e_addr_ok e d); [done|]. cbn [i_funds i_sender].
  destruct (List.find _ f) as [c|]; [|done]. destruct (_ <=? _); [|done]. cbn. by destruct (_ =? 0).
Qed.
Definition same_terms {S B} (p q : S * list out_msg * B) : Prop := fst (fst q) = fst (fst p) /\ snd (fst q) = map (for_user b) (snd (fst p)) /\ snd q = snd p.
Lemma tm_swap s k d n by_in lim : both same_terms (swap_internal e (mkInfo a f) s k d n by_in lim) (swap_internal e (mkInfo b f) s k d n by_in lim).
Proof.
  unfold swap_internal. apply both_eq; [done|]. intros r _. apply both_eq; [done|]. intros s1 _.
  destruct d; (eapply both_bind; [apply tm_from|]; intros m0 m1 ->; split_and!; [done| |done]; cbn; by rewrite map_app, tm_transfer).
Qed.
Lemma tm_route hops : forall s n, both same_terms (swap_route_internal e (mkInfo a f) s n hops) (swap_route_internal e (mkInfo b f) s n hops).
Proof.
  induction hops as [|h hops IH]; intros s n; cbn [swap_route_internal]; [done|].
  eapply both_bind; [apply tm_swap|]. intros [[s1 m1] r1] [[t1 n1] q1] (E1 & E2 & E3). cbn in E1, E2, E3. subst.
  eapply both_bind; [apply IH|]. intros [[s2 m2] r2] [[t2 n2] q2] (E1 & E2 & E3). cbn in E1, E2, E3. subst.
  split_and!; cbn; [done|by rewrite map_app|done].
Qed.
Lemma tm_dispatch s m : trades m = true -> both same_terms (dispatch e (mkInfo a f) s m) (dispatch e (mkInfo b f) s m).
Proof.
  intros T. destruct m; cbn [trades dispatch] in *; try done.
  - unfold swap. eapply both_bind; [apply tm_swap|]. intros [[s1 m1] r1] [[t1 n1] q1] (E1 & E2 & E3). cbn in E1, E2, E3. by subst.
  - unfold swap_route. eapply both_bind; [apply tm_route|]. intros [[s1 m1] r1] [[t1 n1] q1] (E1 & E2 & E3). cbn in E1, E2, E3. subst.
    apply both_eq; [done|]. intros mn _. by destruct (_ <? _).
  - match goal with |- both _ ?z _ => destruct z as [[[s1 ms] at1]|y|] eqn:E end; [|done..]. cbn. split_and!; [done| |done]. cbn.
    unfold create_pool in E. destruct (negb _); [done|]. do 3 (apply bind_ok in E as (? & _ & E)). destruct (st_pools s !! _); [done|].
    apply bind_ok in E as (? & _ & E). by injection E as <- <- <-.
Qed.
(** everything but who holds what *)
Definition same_market_state (s t : store) : Prop :=
  st_config t = st_config s /\ st_pools t = st_pools s /\ st_ticks t = st_ticks s /\ st_bitmap t = st_bitmap s /\ st_operators t = st_operators s.
Lemma tm_deposit s k l u q sl su : get_position_length s a < U32MAX -> get_position_length s b < U32MAX -> 0 <= get_position_length s a -> 0 <= get_position_length s b ->
  both (fun x y => same_market_state (fst (fst x)) (fst (fst y)) /\ snd (fst y) = map (for_user b) (snd (fst x)) /\ snd y = snd x /\
    exists po, st_positions (fst (fst x)) = <[(a, get_position_length s a) := po]> (st_positions s) /\ st_positions (fst (fst y)) = <[(b, get_position_length s b) := po]> (st_positions s))
  (create_position e (mkInfo a f) s k l u q sl su) (create_position e (mkInfo b f) s k l u q sl su).
Proof.
  intros A B A0 B0. unfold create_position. destruct (q =? 0); [done|]. destruct (l =? u); [done|]. apply both_eq; [done|]. intros p _.
  assert (GT : forall s0 j s1 x, get_or_create_tick s0 (e_millis e) k j = Ok (s1, x) -> st_poslen s1 = st_poslen s0 /\ st_positions s1 = st_positions s0).
  { intros s0 j s1 x H. unfold get_or_create_tick in H. destruct (get_tick s0 k j) as [t|y|]; [by injection H as <- <-| |];
      (unfold create_tick in H; do 3 (apply bind_ok in H as (? & _ & H)); apply bind_ok in H as (s2 & H2 & H); apply bind_ok in H as (s3 & H3 & H); injection H as <- <-;
       unfold add_tick in H2; destruct (st_ticks s0 !! (k, j)); [done|]; apply Ok_inj in H2 as <-;
       unfold flip_bitmap in H3; apply bind_ok in H3 as ([? ?] & _ & H3); destruct (negb _); [done|]; apply Ok_inj in H3 as <-; done). }
  assert (UT : forall s0 t0 k j x, same_market_state s0 t0 -> both (fun s1 t1 => same_market_state s1 t1 /\ st_positions s1 = st_positions s0 /\ st_positions t1 = st_positions t0)
    (update_tick s0 k j x) (update_tick t0 k j x)).
  { intros s0 t0 k0 j x (E1 & E2 & E3 & E4 & E5). unfold update_tick. rewrite E3. destruct (st_ticks s0 !! (k0, j)); [|done]. cbn. by split_and!. }
  apply both_eq; [done|]. intros [s1 x1] G1. apply both_eq; [done|]. intros [s2 x2] G2. apply both_eq; [done|]. intros [[[[[po p1] l1] u1] x] y] _.
  destruct (GT _ _ _ _ G1) as [L1 P1]. destruct (GT _ _ _ _ G2) as [L2 P2].
  assert (EL : forall c, get_position_length (save_pool s2 k p1) c = get_position_length s c) by (intros c; unfold get_position_length; cbn; by rewrite L2, L1).
  unfold add_position. rewrite !EL. cbn [i_sender]. rewrite !ckp_yes by lia. cbn [bind].
  eapply both_bind; [apply UT; unfold same_market_state; cbn; done|]. intros s3 t3 (M3 & Q3 & R3).
  eapply both_bind; [apply UT; exact M3|]. intros s4 t4 (M4 & Q4 & R4).
  eapply both_bind; [apply tm_from|]. intros m0 m0' ->. eapply both_bind; [apply tm_from|]. intros m1 m1' ->.
  cbn. split; [done|]. split; [by rewrite map_app|]. split; [done|]. exists po. rewrite Q4, Q3, R4, R3. cbn. by rewrite P2, P1.
Qed.
End Terms.

(** the same call, made by somebody else if it trades or opens a pool *)
Definition other_caller (c d : call) : Prop :=
  let '(e, i, m) := c in let '(e', j, m') := d in
  e' = e /\ m' = m /\ i_funds j = i_funds i /\ (trades m = false -> i_sender j = i_sender i).
(** what the other caller is answered: the same, with the transfers made from and to them *)
Definition answer_for (d : call) (r : reply) : reply :=
  let '(_, j, m) := d in
  match r with Ok (ms, at') => Ok (if trades m then map (for_user (i_sender j)) ms else ms, at') | Err x => Err x | Panic => Panic end.
(** Take two histories with the same calls, except that trades and pool creations may come from different people who send the same coins. Then every call is answered
    alike, apart from who receives and pays the transfers of the exchanged calls; the contract is in exactly the same state in the end. *)
Theorem C123_trades zs ws s : Forall2 other_caller zs ws ->
  fst (play ws s) = zip_with answer_for ws (fst (play zs s)) /\ snd (play ws s) = snd (play zs s).
Proof.
  intros F. revert s. induction F as [|c d zs ws CD F IH]; intros s; [done|]. rewrite !play_cons. cbn [fst snd zip_with].
  assert (K : said d s = answer_for d (said c s) /\ next d s = next c s).
  { destruct c as [[e [a f]] m], d as [[e' [b f']] m']. destruct CD as (-> & -> & E & S). cbn in E, S. subst f'. cbn [said next answer_for i_sender].
    unfold execute. assert (EE : env_typed e (mkInfo b f) = env_typed e (mkInfo a f)) by done. rewrite EE. destruct (_ && _); [|done].
    destruct (trades m) eqn:T.
    - pose proof (tm_dispatch e a b f s m T) as D. unfold both in D.
      destruct (dispatch e (mkInfo a f) s m) as [[[s1 ms] at1]|x|], (dispatch e (mkInfo b f) s m) as [[[t1 ns] at2]|y|]; try done.
      + destruct D as (E1 & E2 & E3). cbn in E1, E2, E3. by subst.
      + by subst.
    - rewrite (S eq_refl). by destruct (dispatch e (mkInfo a f) s m) as [[[s1 ms] at1]|x|]. }
  destruct K as [-> ->]. destruct (IH (next c s)) as [-> ->]. done.
Qed.
(** A deposit by somebody else who sends the same coins, and has not reached the limit of 2^32 - 1 positions, succeeds alike, costs the same, reports the same and changes pools and ticks
    alike; the same position record is appended to the other account's list. *)
Theorem C123_deposit e i j s m k l u q sl su : reachable s -> m = CreatePosition k l u q sl su \/ m = Mint k l u q sl su ->
  i_funds j = i_funds i -> get_position_length s (i_sender i) < U32MAX -> get_position_length s (i_sender j) < U32MAX ->
  match execute e i s m, execute e j s m with
  | Ok (s1, ms, at1), Ok (s2, ns, at2) =>
      ns = map (for_user (i_sender j)) ms /\ at2 = at1 /\ same_market_state s1 s2 /\
      exists po, get_position s1 (i_sender i) (get_position_length s (i_sender i)) = Ok po /\ get_position s2 (i_sender j) (get_position_length s (i_sender j)) = Ok po
  | Err x, Err y => y = x
  | Panic, Panic => True
  | _, _ => False
  end.
Proof.
  intros R M F A B. pose proof (ct_range _ _ (ereach_pos_ok _ (reachable_ereach _ R))) as PL. unfold plen in PL.
  destruct i as [a f], j as [b f']. cbn in F. subst f'. cbn [i_sender] in *.
  unfold execute. assert (EE : env_typed e (mkInfo b f) = env_typed e (mkInfo a f)) by done. rewrite EE. destruct (_ && _); [|done].
  pose proof (tm_deposit e a b f s k l u q sl su A B (proj1 (PL a)) (proj1 (PL b))) as D. unfold both in D.
  destruct M as [-> | ->]; cbn [dispatch]; destruct (create_position e (mkInfo a f) s k l u q sl su) as [[[s1 ms] at1]|x|],
    (create_position e (mkInfo b f) s k l u q sl su) as [[[s2 ns] at2]|y|]; try done;
    (destruct D as (D1 & D2 & D3 & po & P1 & P2); cbn in D1, D2, D3, P1, P2; split_and!; try done; exists po; unfold get_position; rewrite P1, P2, !lookup_insert; done).
Qed.

(** * Examples *)
(** carol trades and bob deposits; dave, who has never been seen, could have traded instead of carol. *)
Definition tm_carol : list call :=
  [(v_env, v_info "carol", Swap v_key false 14000 true MAX_SQRT_PRICE); (v_env, v_info "bob", CreatePosition v_key (-30) 20 3000000000 SP_ONE MAX_SQRT_PRICE);
   (v_env, v_info "carol", Swap v_key true 2000 true MIN_SQRT_PRICE)]%string.
Definition tm_dave : list call :=
  [(v_env, v_info "dave", Swap v_key false 14000 true MAX_SQRT_PRICE); (v_env, v_info "bob", CreatePosition v_key (-30) 20 3000000000 SP_ONE MAX_SQRT_PRICE);
   (v_env, v_info "alice", Swap v_key true 2000 true MIN_SQRT_PRICE)]%string.
Example ex_C123 : Forall2 other_caller tm_carol tm_dave /\ map is_ok (fst (play tm_carol sc0)) = [true; true; true] /\ fst (play tm_carol sc0) <> fst (play tm_dave sc0) /\
  get_position_length sc0 "bob" < U32MAX /\ get_position_length sc0 "carol" < U32MAX /\
  is_ok (execute v_env (v_info "bob") sc0 (CreatePosition v_key (-30) 20 3000000000 MIN_SQRT_PRICE MAX_SQRT_PRICE)) = true.
Proof.
  split; [repeat constructor; done|]. split; [vm_compute; reflexivity|]. split; [intros X; vm_compute in X; discriminate X|].
  split; [vm_compute; reflexivity|]. split; vm_compute; reflexivity.
Qed.
