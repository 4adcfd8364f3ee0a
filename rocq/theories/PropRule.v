(** C122: handing over the administration, listing and removing fee tiers, and naming fee receivers influence no trade. *)
From Verif Require Import Base Decimal SqrtPrice Clamm Log FeeGrowth Types Tick Pool Position
  Tickmap Keys State Swap Exec Query Tactics Frame Handlers History Basic Vectors Scenario PropTrade PropPerm PropLocal PropClock PropOk PropSplit PropOrder PropLeave PropOften PropBlind PropGov.
From stdpp Require Import gmap strings.
From Coq Require Import Lia.
Open Scope Z_scope.

(** equal up to the admin, the listed fee tiers and the fee receivers *)
Definition rpool (p q : pool) : Prop := q = p_set_receiver p (p_receiver q).
Definition same_fee (c d : config) : Prop := cf_protocol_fee d = cf_protocol_fee c.
Definition housed : store -> store -> Prop := ruled same_fee rpool.
Lemma rpool_g p q : rpool p q -> gpool p q.
Proof. unfold rpool, gpool. intros ->. done. Qed.
Section House.
Context (n : Z).
Notation sk := housed.
Notation pr := rpool.
Lemma rk_chunk s t k c : sk s t -> bitmap_chunk t k c = bitmap_chunk s k c.
Proof. intros A. unfold bitmap_chunk. by rewrite (gv_bitmap _ _ _ _ A). Qed.
Lemma rk_next s t k m : sk s t -> forall sp c b lc lb, next_loop m t k sp c b lc lb = next_loop m s k sp c b lc lb.
Proof. intros L. induction m as [|m IH]; intros; cbn; [done|]. by rewrite (rk_chunk _ _ _ _ L), IH. Qed.
Lemma rk_prev s t k m : sk s t -> forall sp c b lc lb, prev_loop m t k sp c b lc lb = prev_loop m s k sp c b lc lb.
Proof. intros L. induction m as [|m IH]; intros; cbn; [done|]. by rewrite (rk_chunk _ _ _ _ L), IH. Qed.
Lemma rk_limit s t k lim d cur sp : sk s t -> get_closer_limit t lim d cur sp k = get_closer_limit s lim d cur sp k.
Proof.
  intros L. unfold get_closer_limit. f_equal. destruct d.
  - unfold prev_initialized. destruct (sp =? 0); [done|]. apply bind_ext. intros [c b]. apply bind_ext.
    intros [lc lb]. by rewrite (rk_prev _ _ _ _ L).
  - unfold next_initialized. destruct (sp =? 0); [done|]. destruct (_ <? _); [done|]. apply bind_ext. intros [c b]. apply bind_ext.
    intros [lc lb]. by rewrite (rk_next _ _ _ _ L).
Qed.
Lemma rp_add_fee p q a x f : pr p q -> both pr (add_fee p a x f) (add_fee q a x f).
Proof.
  intros E. unfold add_fee. rewrite E. cbn. do 2 (apply both_eq; [done|]; intros ? _). destruct (_ || _); [done|].
  apply both_eq; [done|]. intros g _. destruct x; apply both_eq; done.
Qed.
Lemma rp_set_price p q v : pr p q -> pr (p_set_price p v) (p_set_price q v).
Proof. unfold rpool. intros ->. done. Qed.
Lemma rp_set_tick p q v : pr p q -> pr (p_set_tick p v) (p_set_tick q v).
Proof. unfold rpool. intros ->. done. Qed.
Lemma rp_set_last p q v : pr p q -> pr (p_set_last p v) (p_set_last q v).
Proof. unfold rpool. intros ->. done. Qed.
Lemma rp_set_liq p q v : pr p q -> pr (p_set_liq p v) (p_set_liq q v).
Proof. unfold rpool. intros ->. done. Qed.
Definition rtp (a b : tick * pool) : Prop := fst b = fst a /\ pr (snd a) (snd b).
Lemma rk_cross x p q : pr p q -> both rtp (tick_cross x p n) (tick_cross x q n).
Proof.
  intros H. unfold tick_cross. rewrite H. cbn. apply both_eq; [done|]. intros se _. apply both_eq; [done|]. intros l _. done.
Qed.
Definition rput (a b : pool * update_pool_tick * Z * Z * bool) : Prop :=
  let '(p, tk, tot, rem, cr) := a in let '(q, tk', tot', rem', cr') := b in
  pr p q /\ tk' = tk /\ tot' = tot /\ rem' = rem /\ cr' = cr.
Lemma rk_put_tick p q r lim tk rem by_in d f ft : pr p q ->
  both rput (pool_update_tick p r lim tk rem by_in d n f ft) (pool_update_tick q r lim tk rem by_in d n f ft).
Proof.
  intros H. unfold pool_update_tick. destruct (_ || _).
  - apply both_eq; [done|]. intros j _. split_and!; [by apply rp_set_tick|done..].
  - pose proof H as E. replace (p_liq q) with (p_liq p) by (rewrite E; done).
    apply both_eq; [done|]. intros en _.
    eapply (both_bind (fun a b : pool * update_pool_tick * Z * Z * bool * Z => rput (fst a) (fst b) /\ snd a = snd b)).
    + destruct tk as [|x|j]; try done.
      destruct (negb d || en).
      * eapply (both_bind rtp).
        { pose proof (rk_cross x p q H) as C. unfold both in *. destruct (tick_cross x p n), (tick_cross x q n); cbn; done. }
        intros [x' p'] [y' q'] (A & B). cbn in A. subst y'. split; [|done]. split_and!; done.
      * destruct (negb (rem =? 0)); [|done]. destruct by_in; [|done].
        eapply both_bind; [by apply rp_add_fee|]. intros p' q' H'. done.
    + intros [[[[[p1 tk1] tot1] rem1] cr1] ix1] [[[[[q1 tk2] tot2] rem2] cr2] ix2] ((H1 & -> & -> & -> & ->) & I).
      cbn in I. subst. split_and!; [by apply rp_set_tick|done..].
Qed.
Definition rwr (w v : swap_state) : Prop :=
  pr (sw_pool w) (sw_pool v) /\ sw_remaining v = sw_remaining w /\ sw_in v = sw_in w /\ sw_out v = sw_out w /\
  sw_fee v = sw_fee w /\ sw_ticks v = sw_ticks w.
Lemma rk_iter s t k d b lim tl w v : sk s t -> rwr w v ->
  both rwr (swap_iter s n k d b lim tl w) (swap_iter t n k d b lim tl v).
Proof.
  intros L (H & E1 & E2 & E3 & E4 & F). unfold swap_iter. rewrite (rk_limit _ _ _ _ _ _ _ L).
  rewrite E1, E2, E3, E4, F. pose proof H as E. pose proof (gv_config _ _ _ _ L) as CF. unfold same_fee in CF. rewrite CF.
  replace (p_tick (sw_pool v)) with (p_tick (sw_pool w)) by (rewrite E; done).
  replace (p_price (sw_pool v)) with (p_price (sw_pool w)) by (rewrite E; done).
  replace (p_liq (sw_pool v)) with (p_liq (sw_pool w)) by (rewrite E; done).
  apply both_eq; [done|]. intros [sl li] _. do 3 (apply both_eq; [done|]; intros ? _).
  eapply both_bind; [by apply rp_add_fee|]. intros p q H1. do 3 (apply both_eq; [done|]; intros ? _).
  cbn [p_price p_set_price]. destruct (_ && _); [done|].
  apply both_eq; [destruct li as [[j []]|]; try done; by rewrite (gk_get_tick _ _ _ _ _ _ L)|].
  intros tk _. eapply both_bind; [apply rk_put_tick; by apply rp_set_price|].
  intros [[[[p1 tk1] tot1] rem1] cr1] [[[[q1 tk2] tot2] rem2] cr2] (H2 & -> & -> & -> & ->).
  apply both_eq; [done|]. intros tin _.
  replace (p_tick q1) with (p_tick p1) by (rewrite H2; done).
  destruct (if d then _ else _); done.
Qed.
Lemma rk_loop s t k d b lim tl g : sk s t -> forall w v, rwr w v ->
  both rwr (swap_loop g s n k d b lim tl w) (swap_loop g t n k d b lim tl v).
Proof.
  intros L. induction g as [|g IH]; intros w v W; cbn; rewrite (proj1 (proj2 W)); destruct (_ =? _); try done.
  eapply both_bind; [by apply rk_iter|]. exact IH.
Qed.
Definition rcr (a b : calc_result) : Prop :=
  cr_in b = cr_in a /\ cr_out b = cr_out a /\ cr_start b = cr_start a /\ cr_target b = cr_target a /\ cr_fee b = cr_fee a /\
  pr (cr_pool a) (cr_pool b) /\ cr_ticks b = cr_ticks a.
Lemma rk_calc s t g k d a b lim : sk s t ->
  both rcr (calculate_swap g s n k d a b lim) (calculate_swap g t n k d a b lim).
Proof.
  intros L. unfold calculate_swap. destruct (a =? 0); [done|]. eapply both_bind; [by apply (gk_get_pool _ _ _ _ _ L)|].
  intros p q H. replace (p_price q) with (p_price p) by (rewrite H; done).
  destruct (if d then _ else _); [done|]. eapply both_bind; [apply rk_loop; [exact L|]; split_and!; [exact H|done..]|].
  intros w v (H1 & E1 & E2 & E3 & E4 & F). rewrite E3. destruct (_ =? 0); [done|].
  split_and!; try done. cbn. rewrite H1. done.
Qed.
Lemma rk_update_ticks k l : forall s t, sk s t -> both sk (update_ticks s k l) (update_ticks t k l).
Proof.
  induction l as [|x l IH]; intros s t L; cbn; [done|]. eapply both_bind; [by apply (gk_update_tick _ _ _ _ _ _ _ L)|]. auto.
Qed.
Context (e : env) (En : e_millis e = n).
Definition rk3 {A B} (R : B -> B -> Prop) (p q : store * A * B) : Prop :=
  sk (fst (fst p)) (fst (fst q)) /\ snd (fst p) = snd (fst q) /\ R (snd p) (snd q).
Lemma rk_swap_internal i s t k d a b lim : sk s t ->
  both (rk3 rcr) (swap_internal e i s k d a b lim) (swap_internal e i t k d a b lim).
Proof.
  intros L. unfold swap_internal. rewrite En.
  eapply both_bind; [by apply rk_calc|]. intros r q C. pose proof C as (E1 & E2 & _ & _ & _ & H & F). rewrite F.
  eapply both_bind; [by apply rk_update_ticks|]. intros s1 t1 L1. rewrite E1, E2.
  destruct d; (eapply (both_bind eq); [by apply both_same|]); intros m ? <-;
    (split_and!; [by apply gk_pool|done|done]).
Qed.
Lemma rk_route i hops : forall s t a, sk s t ->
  both (rk3 eq) (swap_route_internal e i s a hops) (swap_route_internal e i t a hops).
Proof.
  induction hops as [|h hops IH]; intros s t a L; cbn [swap_route_internal]; [done|].
  eapply both_bind; [by apply rk_swap_internal|].
  intros [[s1 m1] r1] [[t1 n1] q1] (L1 & E1 & E2). cbn in E1, E2. subst. rewrite (proj1 (proj2 E2)).
  eapply both_bind; [apply IH; exact L1|].
  intros [[s2 m2] r2] [[t2 n2] q2] (L2 & F1 & F2). cbn in F1, F2. subst. done.
Qed.
Lemma rk_quote s t k d a b lim : sk s t -> query_quote e t k d a b lim = query_quote e s k d a b lim.
Proof.
  intros L. unfold query_quote. rewrite En. pose proof (rk_calc s t (e_gas e) k d a b lim L) as C. unfold both in C.
  destruct (calculate_swap (e_gas e) s n k d a b lim) as [r|x|], (calculate_swap (e_gas e) t n k d a b lim) as [q|y|]; try done; [|by subst].
  destruct C as (E1 & E2 & E3 & E4 & E5 & H & F). cbn. rewrite E1, E2, F, ?E4, ?E3, ?E5. try rewrite H. done.
Qed.
Lemma rk_quotes s t hops : sk s t -> forall a, route e t a hops = route e s a hops.
Proof.
  intros L. induction hops as [|h hops IH]; intros a; cbn; [done|]. rewrite En. pose proof (rk_calc s t) as C.
  match goal with |- context[calculate_swap ?g s n ?k ?d ?x ?b ?lim] => specialize (C g k d x b lim L); unfold both in C;
    destruct (calculate_swap g s n k d x b lim) as [r|y|], (calculate_swap g t n k d x b lim) as [q|z|] end; try done; [|by subst].
  destruct C as (_ & E & _). cbn. rewrite E. apply IH.
Qed.
End House.
(** what people do with existing pools: trade, deposit, claim, withdraw, hand over, permit *)
Definition engages (m : exec_msg) : bool := match m with Swap _ _ _ _ _ | SwapRoute _ _ _ _ => true | _ => holding m end.
(** housekeeping: who is admin, which tiers are listed, who receives protocol fees *)
Definition keeping (m : exec_msg) : bool := match m with ChangeAdmin _ | AddFeeTier _ | RemoveFeeTier _ | ChangeFeeReceiver _ _ => true | _ => false end.
Lemma rk_using e i s t m : engages m = true -> housed s t -> both (gk3 same_fee rpool) (dispatch e i s m) (dispatch e i t m).
Proof.
  intros U L. assert (HK : holding m = true -> both (gk3 same_fee rpool) (dispatch e i s m) (dispatch e i t m)).
  { intros H. apply gk_holding; [apply rpool_g|apply rp_set_last|apply rp_set_liq|done|done]. }
  destruct m; cbn [engages] in U; try (by apply HK); cbn [dispatch].
  - unfold swap. eapply both_bind; [by apply (rk_swap_internal (e_millis e))|].
    intros [[s1 m1] r1] [[t1 n1] q1] (L1 & E1 & E2). cbn in E1, E2. subst. destruct E2 as (E2 & E3 & _). rewrite E2, E3. done.
  - unfold swap_route. eapply both_bind; [by apply (rk_route (e_millis e))|].
    intros [[s1 m1] r1] [[t1 n1] q1] (L1 & E1 & E2). cbn in E1, E2. subst.
    apply both_eq; [done|]. intros mn _. destruct (_ <? _); done.
Qed.
Lemma housed_refl s : housed s s.
Proof. constructor; try done. intros k. destruct (st_pools s !! k) as [p|]; constructor. by destruct p. Qed.
Lemma housed_sym s t : housed s t -> housed t s.
Proof.
  intros L. destruct L as [C P]. constructor; try done. intros k. specialize (P k). inversion P as [p q H|]; constructor.
  unfold rpool in *. rewrite H. destruct p. done.
Qed.
Lemma housed_trans s t u : housed s t -> housed t u -> housed s u.
Proof.
  intros [C P] [D Q]. unfold same_fee in *. constructor; try congruence.
  intros k. specialize (P k). specialize (Q k). inversion P as [p q H E1 E2|E1 E2]; rewrite <- E2 in Q; inversion Q as [q' r H' |]; subst; constructor.
  unfold rpool in *. rewrite H' at 1. rewrite H. done.
Qed.
Lemma keeping_next c s : keeping (snd c) = true -> housed s (next c s).
Proof.
  destruct c as [[e i] m]. cbn. intros G. destruct (execute e i s m) as [[[s' ms] at']| |] eqn:E; [|apply housed_refl..].
  unfold execute in E. destruct (_ && _); [|done].
  assert (CK : forall c, cf_protocol_fee c = cf_protocol_fee (st_config s) -> housed s (set_config s c)) by (intros c H; destruct (housed_refl s); by constructor).
  destruct m; cbn [keeping dispatch] in *; try done.
  - unfold change_admin in E. destruct (negb _); [done|]. injection E as <- _ _. by apply CK.
  - unfold change_fee_receiver, get_pool in E. destruct (negb _); [done|]. destruct (st_pools s !! k) as [p|] eqn:P; [|done]. cbn in E. injection E as <- _ _.
    constructor; try done. intros k'. cbn. destruct (decide (k' = k)) as [->|N].
    + rewrite lookup_insert, P. by constructor.
    + rewrite lookup_insert_ne by congruence. apply (gv_pool _ _ _ _ (housed_refl s)).
  - unfold add_fee_tier in E. destruct (negb _); [done|]. destruct (_ || _); [done|]. destruct (_ <=? _); [done|]. injection E as <- _ _. by apply CK.
  - unfold remove_fee_tier in E. destruct (negb _); [done|]. destruct (remove_first _ _); [|done]. injection E as <- _ _. by apply CK.
Qed.
Lemma using_next c s t : engages (snd c) = true -> housed s t -> said c t = said c s /\ housed (next c s) (next c t).
Proof.
  destruct c as [[e i] m]. cbn. intros H L. unfold execute. destruct (_ && _); [|done].
  pose proof (rk_using e i s t m H L) as D. unfold both in D.
  destruct (dispatch e i s m) as [[[s1 m1] a1]|x|], (dispatch e i t m) as [[[t1 n1] b1]|y|]; try done.
  - destruct D as (D1 & D2 & D3). cbn in *. by subst.
  - by subst.
Qed.
Definition used_or_kept (zs : list call) : Prop := Forall (fun c : call => engages (snd c) = true \/ keeping (snd c) = true) zs.
Definition used_calls (zs : list call) : list call := List.filter (fun c => engages (snd c)) zs.
(** the users' calls and what they are answered *)
Definition users_hear (zs : list call) (s : store) : list (call * reply) :=
  List.filter (fun x => engages (snd (fst x))) (List.combine zs (fst (play zs s))).
Lemma users_hear_cons c zs s : users_hear (c :: zs) s = (if engages (snd c) then [(c, said c s)] else []) ++ users_hear zs (next c s).
Proof. unfold users_hear. rewrite play_cons. cbn. by destruct (engages (snd c)). Qed.
Lemma users_alone zs : forall s t, used_or_kept zs -> housed s t ->
  users_hear zs s = users_hear (used_calls zs) t /\ housed (snd (play zs s)) (snd (play (used_calls zs) t)).
Proof.
  induction zs as [|c zs IH]; intros s t F L; [by split|]. inversion F as [|? ? C F']; subst.
  rewrite users_hear_cons, play_cons. unfold used_calls. cbn [List.filter snd]. destruct (engages (snd c)) eqn:H.
  - fold (used_calls zs). rewrite users_hear_cons, play_cons, H. cbn [snd]. destruct (using_next c s t H L) as [-> L'].
    destruct (IH _ _ F' L') as [-> I]. by split.
  - destruct C as [C|C]; [done|]. apply IH; [done|]. apply (housed_trans _ s); [|done]. apply housed_sym. by apply keeping_next.
Qed.
(** Take two histories from one state that differ only in attempts, by anyone, to hand over the administration, to list or remove fee tiers or to name fee receivers.
    Then every trade, deposit, claim, withdrawal, transfer and permission is answered with the same transfers, events and errors; and in the end everyone has the same
    positions, every pool the same price, liquidity, fee growth and protocol fees due, and every quote agrees. *)
Theorem C122_housekeeping zs ws s : used_or_kept zs -> used_or_kept ws -> used_calls zs = used_calls ws ->
  users_hear zs s = users_hear ws s /\
  (forall a ix, get_position (snd (play zs s)) a ix = get_position (snd (play ws s)) a ix) /\
  (forall k p, st_pools (snd (play zs s)) !! k = Some p -> exists r, st_pools (snd (play ws s)) !! k = Some (p_set_receiver p r)) /\
  (forall e k d a b lim, query_quote e (snd (play zs s)) k d a b lim = query_quote e (snd (play ws s)) k d a b lim) /\
  (forall e a hops, query_quote_route e (snd (play zs s)) a hops = query_quote_route e (snd (play ws s)) a hops).
Proof.
  intros F G H. destruct (users_alone zs s s F (housed_refl s)) as [A1 A2]. destruct (users_alone ws s s G (housed_refl s)) as [B1 B2].
  rewrite H in *. assert (L : housed (snd (play zs s)) (snd (play ws s))) by (eapply housed_trans; [exact A2|by apply housed_sym]).
  split; [by rewrite A1, B1|]. split; [intros a ix; by rewrite (gk_get_position _ _ _ _ _ _ L)|].
  split; [intros k p P; pose proof (gv_pool _ _ _ _ L k) as Q; rewrite P in Q; destruct (of2_some _ _ _ Q) as (q & -> & E); exists (p_receiver q); by rewrite <- E|].
  split; [intros e k d a b lim; symmetry; by apply (rk_quote (e_millis e))|].
  intros e a hops. unfold query_quote_route. symmetry. by apply (rk_quotes (e_millis e)).
Qed.
(** Whoever becomes admin, whichever tiers are removed: trades in existing pools go on as before. *)
Theorem C122_next hs s e i m : Forall (fun c : call => keeping (snd c) = true) hs -> engages m = true ->
  match execute e i s m, execute e i (snd (play hs s)) m with
  | Ok (_, ms, at'), Ok (_, ms', at'') => ms' = ms /\ at'' = at'
  | Err x, Err y => y = x
  | Panic, Panic => True
  | _, _ => False
  end.
Proof.
  intros G H. assert (L : housed s (snd (play hs s))).
  { revert s. induction hs as [|c hs IH]; intros s; [apply housed_refl|]. inversion G; subst. rewrite play_cons. cbn [snd].
    eapply housed_trans; [by apply (keeping_next c)|by apply IH]. }
  unfold execute. destruct (_ && _); [|done]. pose proof (rk_using e i s _ m H L) as D. unfold both in D.
  destruct (dispatch e i s m) as [[[s1 m1] a1]|x|], (dispatch e i (snd (play hs s)) m) as [[[t1 n1] b1]|y|]; try done. by destruct D as (_ & D2 & D3).
Qed.

(** * Examples *)
(** carol trades to and fro, bob deposits and alice claims; meanwhile alice, the admin, removes the tier of the pool, names bob the receiver and hands over to carol. *)
Definition house_users : list call :=
  [(v_env, v_info "carol", Swap v_key false 14000 true MAX_SQRT_PRICE); (v_env, v_info "bob", CreatePosition v_key (-30) 20 3000000000 SP_ONE MAX_SQRT_PRICE);
   (v_env, v_info "carol", Swap v_key true 2000 true MIN_SQRT_PRICE); (v_env, v_info "alice", ClaimFee 0); (v_env, v_info "alice", Swap v_key true 0 true MIN_SQRT_PRICE)]%string.
Definition house_all : list call :=
  match house_users with
  | [a; b; c; d; f] => [(v_env, v_info "alice", RemoveFeeTier (pk_tier v_key)); a; (v_env, v_info "alice", ChangeFeeReceiver v_key "bob"); b;
      (v_env, v_info "alice", ChangeAdmin "carol"); c; d; (v_env, v_info "alice", AddFeeTier (pk_tier v_key)); f]
  | _ => []
  end%string.
Example ex_C122 : used_or_kept house_users /\ used_or_kept house_all /\ used_calls house_all = used_calls house_users /\
  map is_ok (fst (play house_all sc0)) = [true; true; true; true; true; true; true; false; false] /\
  map (fun x => is_ok (snd x)) (users_hear house_users sc0) = [true; true; true; true; false].
Proof.
  split; [repeat (constructor; [cbn; by auto|]); constructor|]. split; [cbn; repeat (constructor; [cbn; by auto|]); constructor|]. split; [reflexivity|].
  split; vm_compute; reflexivity.
Qed.
