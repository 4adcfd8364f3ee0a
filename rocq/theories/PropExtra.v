(** C66, C67, C68: SDK builders, seconds per liquidity, two-token liquidity. *)
From Verif Require Import Base Decimal SqrtPrice Clamm Log FeeGrowth Types Pool Keys State Swap Exec Query Sdk Extra Tactics History Vectors Scenario Basic LiqInv Geo Ops PropConfig.
From stdpp Require Import gmap strings.
From Coq Require Import Lia.
Open Scope Z_scope.

(** ** C66 *)
(** Creating a pool succeeds exactly when its tier is listed, the tick is legal, the SDK builds a key that is free (and storable) and
    the SDK's check accepts tick and price; the new pool is then found under the SDK's key. *)
Theorem C66_sdk_pools_partial e i s t0 t1 ft price tick : let m := CreatePool t0 t1 ft price tick in env_typed e i && msg_typed m = true ->
  ((exists r, execute e i s m = Ok r) <-> ft ∈ cf_fee_tiers (st_config s) /\ check_tick tick (ft_spacing ft) = Ok tt /\
     exists k b, sdk_new_pool_key t0 t1 ft = Ok k /\ pool_key_bytes k = Ok b /\ st_pools s !! k = None /\
       sdk_check_tick_price tick (ft_spacing ft) price = Ok true) /\
  (forall s' ms at', execute e i s m = Ok (s', ms, at') -> exists k p, sdk_new_pool_key t0 t1 ft = Ok k /\ st_pools s' !! k = Some p /\ p_price p = price /\ p_tick p = tick).
Proof.
  intros m TY. unfold execute. rewrite TY. subst m. cbn [dispatch].
  assert (KE : sdk_new_pool_key t0 t1 ft = pool_key_new t0 t1 ft) by done.
  assert (CE : sdk_check_tick_price tick (ft_spacing ft) price = check_tick_to_sqrt_price_relationship tick (ft_spacing ft) price).
  { unfold sdk_check_tick_price, check_tick_to_sqrt_price_relationship. destruct (_ <? _).
    - destruct (calculate_sqrt_price _); [|done|done]. cbn [bind]. by destruct (_ =? _).
    - destruct (calculate_sqrt_price _); [|done|done]. cbn [bind]. destruct (calculate_sqrt_price _); [|done|done]. cbn [bind]. by destruct (_ || _). }
  rewrite KE, CE. unfold create_pool. split.
  - split.
    + intros [r H]. destruct (bool_decide_reflect (ft ∈ cf_fee_tiers (st_config s))) as [F|]; [|done]. cbn [negb] in H. inv_bind H as [] EC. inv_bind H as k EK. inv_bind H as b EB.
      destruct (st_pools s !! k) eqn:E; [done|]. inv_bind H as p EP. apply map_err_ok in EP. split; [done|]. split; [done|].
      exists k, b. split; [done|]. split; [done|]. split; [done|]. unfold pool_create in EP. inv_bind EP as ok EO. by destruct ok.
    + intros (F & C & k & b & K & B & E & O). rewrite bool_decide_eq_true_2 by done. cbn [negb]. rewrite C. cbn [bind]. rewrite K. cbn [bind]. rewrite B. cbn [bind].
      rewrite E. unfold pool_create. rewrite O. cbn. by eexists.
  - intros s' ms at' H. destruct (bool_decide_reflect (ft ∈ cf_fee_tiers (st_config s))) as [F|]; [|done]. cbn [negb] in H. inv_bind H as [] EC. inv_bind H as k EK. inv_bind H as b EB.
    destruct (st_pools s !! k) eqn:E; [done|]. inv_bind H as p EP. apply map_err_ok in EP. apply Ok_inj in H. injection H as <- <- <-.
    unfold pool_create in EP. inv_bind EP as ok EO. destruct ok; [|done]. cbn [negb] in EP. apply Ok_inj in EP. subst p.
    exists k. eexists. split; [done|]. split; [apply lookup_insert|]. done.
Qed.
(** The admin can add exactly the tiers the SDK builds, except those with a fee of 100%. *)
Theorem C66_sdk_tiers_partial e i s fee sp : env_typed e i && msg_typed (AddFeeTier (mkFeeTier fee sp)) = true -> i_sender i = cf_admin (st_config s) ->
  (exists r, execute e i s (AddFeeTier (mkFeeTier fee sp)) = Ok r) <-> sdk_new_fee_tier fee sp = Ok (mkFeeTier fee sp) /\ fee <> PCT_ONE.
Proof.
  intros TY A. unfold execute. rewrite TY. cbn [dispatch]. unfold add_fee_tier, sdk_new_fee_tier. rewrite A, String.eqb_refl. cbn [negb ft_spacing ft_fee].
  destruct (_ || _); [split; [by intros [? ?]|by intros [? _]]|]. change 1000000000000 with PCT_ONE.
  destruct (Z.leb_spec PCT_ONE fee); destruct (Z.ltb_spec PCT_ONE fee); try lia.
  - split; [by intros [? ?]|by intros [? _]].
  - split; [by intros [? ?]|]. intros [_ ?]. lia.
  - split; [|by eexists]. intros _. split; [done|]. lia.
Qed.
(** False at exactly 100%: the SDK builds the tier, the contract refuses it. *)
Theorem C66_sdk_tiers_refuted : exists e i s fee sp ft, reachable s /\ i_sender i = cf_admin (st_config s) /\
  sdk_new_fee_tier fee sp = Ok ft /\ execute e i s (AddFeeTier ft) = Err InvalidFee.
Proof.
  exists (env_at 3), (v_info "alice"), sc0, PCT_ONE, 1. eexists. split; [exact sc0_reachable|]. split; [by vm_compute|]. split; [by vm_compute|]. by vm_compute.
Qed.
Example ex_C66 : let m := CreatePool "tokenz" "tokenx" v_tier SP_ONE 0 in env_typed (env_at 3) (v_info "bob") && msg_typed m = true /\
  is_ok (execute (env_at 3) (v_info "bob") sc0 m) = true /\ sdk_new_pool_key "tokenz" "tokenx" v_tier = Ok (mkPoolKey "tokenx" "tokenz" v_tier) /\
  sdk_check_tick_price 0 (ft_spacing v_tier) SP_ONE = Ok true /\ sdk_check_tick_price 10 (ft_spacing v_tier) SP_ONE = Ok false /\
  is_ok (execute (env_at 3) (v_info "alice") sc0 (AddFeeTier (mkFeeTier (PCT_ONE - 1) 100))) = true.
Proof. split_and!; by vm_compute. Qed.

(** ** C67 *)
(** Seconds per liquidity are the elapsed time over the liquidity, rounded down (in units of 10^-24); *)
Theorem C67_seconds_global liq now last v : 0 <= last -> now <= U64MAX -> 0 <= liq -> seconds_per_liquidity_global liq now last = Ok v ->
  last < now /\ 0 < liq /\ v * liq <= (now - last) * (SP_ONE * LIQ_ONE) < (v + 1) * liq.
Proof.
  intros L N Q H. unfold seconds_per_liquidity_global in H. destruct (Z.leb_spec now last); [done|].
  inv_bind H as m E1. apply ck_ok in E1 as [-> _]. inv_bind H as m E2. apply ck_ok in E2 as [-> _]. inv_bind H as q E3. apply cdiv_ok in E3 as [NZ ->].
  apply ck_ok in H as [-> _]. split; [lia|]. split; [lia|]. pose proof (floor_spec ((now - last) * SP_ONE * LIQ_ONE) liq ltac:(lia)). lia.
Qed.
(** it is undefined only without elapsed time or liquidity, or when the quotient exceeds u128; *)
Theorem C67_seconds_defined liq now last : 0 <= last < now -> now <= U64MAX -> 0 < liq -> (now - last) * (SP_ONE * LIQ_ONE) / liq <= U128MAX ->
  exists v, seconds_per_liquidity_global liq now last = Ok v.
Proof.
  intros L N Q H. unfold seconds_per_liquidity_global. destruct (Z.leb_spec now last); [lia|].
  assert (U64MAX * (SP_ONE * LIQ_ONE) <= U256MAX) by (vm_compute; discriminate). unfold SP_ONE, LIQ_ONE in *.
  rewrite (proj2 (ck_ok _ _ _ _)) by (split; [reflexivity|lia]). cbn [bind]. rewrite (proj2 (ck_ok _ _ _ _)) by (split; [reflexivity|lia]). cbn [bind].
  rewrite (proj2 (cdiv_ok _ _ _ _)) by (split; [lia|reflexivity]). cbn [bind]. eexists. apply ck_ok. split; [reflexivity|]. split; [apply Z.div_pos; lia|].
  by rewrite <- Z.mul_assoc.
Qed.
(** the part inside a range is additive over adjacent ranges, and does not change when the current tick crosses a boundary and that
    boundary's record is replaced by the global value minus it (all modulo 2^128). *)
Lemma inside_eq lo up cur a b g : seconds_per_liquidity_inside lo up cur a b g =
  (g - (if lo <=? cur then a else g - a) - (if cur <? up then b else g - b)) mod U128.
Proof.
  unfold seconds_per_liquidity_inside, wsub. rewrite Zminus_mod_idemp_l. set (A := if cur <? up then _ else _). set (A' := if cur <? up then b else g - b).
  assert (EA : A mod U128 = A' mod U128) by (subst A A'; destruct (cur <? up); [done|]; by rewrite Z.mod_mod). clearbody A A'.
  set (B := if lo <=? cur then _ else _). set (B' := if lo <=? cur then a else g - a).
  assert (EB : B mod U128 = B' mod U128) by (subst B B'; destruct (lo <=? cur); [done|]; by rewrite Z.mod_mod). clearbody B B'.
  rewrite <- (Zminus_mod_idemp_r (g - B)), EA, Zminus_mod_idemp_r.
  replace (g - B - A') with (g - A' - B) by lia. rewrite <- (Zminus_mod_idemp_r (g - A')), EB, Zminus_mod_idemp_r. f_equal. lia.
Qed.
Theorem C67_seconds_inside lo mid up cur a b c g : lo < mid < up ->
  wadd (seconds_per_liquidity_inside lo mid cur a b g) (seconds_per_liquidity_inside mid up cur b c g) = seconds_per_liquidity_inside lo up cur a c g /\
  (forall cur', cur < lo <= cur' -> cur' < mid -> seconds_per_liquidity_inside lo mid cur' (wsub g a) b g = seconds_per_liquidity_inside lo mid cur a b g) /\
  (forall cur', lo <= cur < mid -> mid <= cur' -> seconds_per_liquidity_inside lo mid cur' a (wsub g b) g = seconds_per_liquidity_inside lo mid cur a b g).
Proof.
  intros L. split_and!.
  - rewrite !inside_eq. unfold wadd. rewrite <- Zplus_mod.
    destruct (Z.leb_spec lo cur), (Z.ltb_spec cur mid), (Z.leb_spec mid cur), (Z.ltb_spec cur up); try lia; f_equal; lia.
  - intros cur' C1 C2. unfold seconds_per_liquidity_inside. destruct (Z.leb_spec lo cur), (Z.ltb_spec cur mid), (Z.leb_spec lo cur'), (Z.ltb_spec cur' mid); try lia; done.
  - intros cur' C1 C2. unfold seconds_per_liquidity_inside. destruct (Z.leb_spec lo cur), (Z.ltb_spec cur mid), (Z.leb_spec lo cur'), (Z.ltb_spec cur' mid); try lia.
    unfold wsub. set (x := (g - a) mod U128). rewrite Zminus_mod_idemp_r. replace (x - (g - (g - b) mod U128)) with (x - g + (g - b) mod U128) by lia.
    rewrite Zplus_mod_idemp_r. f_equal. lia.
Qed.
(** 5 s at liquidity 4.0, then ranges (-10, 0) and (0, 10) around tick 3 with wrapped records *)
Example ex_C67 : seconds_per_liquidity_global 4000000 1005 1000 = Ok 1250000000000000000000000 /\ seconds_per_liquidity_inside (-10) 0 3 7 20 100 = 13 /\ seconds_per_liquidity_inside 0 10 3 20 (U128 - 5) 100 = 85 /\ seconds_per_liquidity_inside (-10) 10 3 7 (U128 - 5) 100 = 98 /\ seconds_per_liquidity_inside (-10) 0 (-4) 7 80 100 = 13.
Proof. split_and!; by vm_compute. Qed.

(** ** C68 *)
(** Missing: a price inside the range.  Outside it, the offered token is taken whole, the other not at all, and the liquidity is the
    one-token calculator's. *)
Theorem C68_two_token_liquidity_partial x y lo up cur r a b l pl pu : calculate_sqrt_price lo = Ok pl -> calculate_sqrt_price up = Ok pu -> pl < pu ->
  get_liquidity x y lo up cur r = Ok (a, b, l) ->
  (cur < pl -> a = x /\ b = 0 /\ sdk_liquidity_by_x x lo up cur r = Ok (l, 0)) /\ (pu < cur -> a = 0 /\ b = y /\ sdk_liquidity_by_y y lo up cur r = Ok (l, 0)).
Proof.
  intros PL PU LT H. unfold get_liquidity, sdk_liquidity_by_x, sdk_liquidity_by_y in *. destruct (_ || _); [done|]. rewrite PL, PU in *. cbn [bind] in *. split; intros C.
  - destruct (Z.ltb_spec pu cur); [lia|]. destruct (Z.ltb_spec cur pl); [|lia]. inv_bind H as [l' y'] E. apply Ok_inj in H. injection H as -> <- <-.
    unfold sdk_liquidity_by_x_price in *. destruct (Z.ltb_spec pu cur); [done|]. destruct (Z.ltb_spec cur pl); [|lia]. pose proof E as E'.
    inv_bind E as n E1. inv_bind E as n2 E2. inv_bind E as d E3. inv_bind E as l1 E4. inv_bind E as l2 E5. apply Ok_inj in E. injection E as <- <-. done.
  - destruct (Z.ltb_spec pu cur); [|lia]. inv_bind H as [l' y'] E. apply Ok_inj in H. injection H as <- <- <-.
    unfold sdk_liquidity_by_y_price in *. destruct (Z.ltb_spec cur pl); [done|]. destruct (Z.leb_spec pu cur); [|lia]. pose proof E as E'.
    inv_bind E as d E3. inv_bind E as l1 E4. inv_bind E as l2 E5. apply Ok_inj in E. injection E as <- <-. done.
Qed.
(** False inside the range: offered 1000 of each, it answers with 2999 of y - more than offered, and three times what the returned
    liquidity needs. *)
Theorem C68_two_token_liquidity_refuted : exists x y lo up cur a b l, get_liquidity x y lo up cur true = Ok (a, b, l) /\ y < b /\
  sdk_liquidity_by_y y lo up cur true = Ok (l, a).
Proof. exists 1000, 1000, (-30), 10, SP_ONE. do 3 eexists. split; [vm_compute; reflexivity|]. split; [vm_compute; reflexivity|]. vm_compute. reflexivity. Qed.
Example ex_C68 : get_liquidity 1000 1000 10 20 SP_ONE false = Ok (1000, 0, 2001600540179) /\ get_liquidity 1000 1000 (-20) (-10) SP_ONE true = Ok (0, 1000, 2001600539839).
Proof. split; by vm_compute. Qed.

(** * C37: what a new pool holds *)
(** a new pool is empty: no liquidity, no fees of any kind, the requested price and tick, the admin as receiver, no tick set;
    nothing is paid for it, and either order of the tokens finds it *)
Theorem C37_fresh e i s a b t price tick s' ms at' : reachable s -> execute e i s (CreatePool a b t price tick) = Ok (s', ms, at') ->
  ms = [] /\ (forall x y, (x, y) = (a, b) \/ (x, y) = (b, a) ->
    query_pool s' x y t = Ok (mkPool 0 price tick 0 0 0 0 (e_millis e) (e_millis e) (cf_admin (st_config s)))) /\
  exists k, pk_tier k = t /\ ((pk_x k = a /\ pk_y k = b) \/ (pk_x k = b /\ pk_y k = a)) /\ st_pools s !! k = None /\
    (forall j, st_ticks s' !! (k, j) = None) /\ (forall k', k' <> k -> st_pools s' !! k' = st_pools s !! k').
Proof.
  intros R H. unfold execute in H. destruct (_ && _); [|done]. cbn [dispatch] in H.
  unfold create_pool in H. destruct (negb _); [done|].
  inv_bind H as [] EC. inv_bind H as k EK. inv_bind H as b0 EB.
  destruct (st_pools s !! k) eqn:E0; [done|]. inv_bind H as p0 EP. apply (proj1 (map_err_ok _ _ _)) in EP. apply Ok_inj in H. simplify_eq. split; [done|].
  unfold pool_create in EP. inv_bind EP as ok EO. destruct ok; [|done]. cbn [negb] in EP. apply Ok_inj in EP. subst p0.
  assert (KE : pk_tier k = t /\ ((pk_x k = a /\ pk_y k = b) \/ (pk_x k = b /\ pk_y k = a))).
  { unfold pool_key_new in EK. destruct (String.eqb a b); [done|]. destruct (String.ltb a b); apply Ok_inj in EK; subst k; cbn; auto. }
  split.
  - assert (K2 : pool_key_new b a t = Ok k).
    { rewrite <- EK. unfold pool_key_new. rewrite (String.eqb_sym b a). destruct (String.eqb_spec a b) as [EQ|N]; [done|].
      rewrite (ltb_total a b N). by destruct (String.ltb a b). }
    intros x y [X|X]; injection X as -> ->; unfold query_pool, get_pool; [rewrite EK|rewrite K2]; cbn; by rewrite lookup_insert.
  - exists k. split; [tauto|]. split; [tauto|]. split; [done|]. split; [|intros k' N; cbn; by rewrite lookup_insert_ne].
    intros j. cbn. destruct (st_ticks s !! (k, j)) as [tk|] eqn:ET; [|done].
    destruct (lq_pool _ (ereach_liq _ (reachable_ereach _ R)) k j) as [p0 X]; [by eexists|]. congruence.
Qed.
Example ex_C37_fresh : is_ok (execute (env_at 3) (v_info "eve") sc0 (CreatePool "tokenz" "tokenx" v_tier SP_ONE 0)) = true.
Proof. vm_compute. reflexivity. Qed.
