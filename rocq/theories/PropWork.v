(** C97: how many iterations a swap needs. *)
From Verif Require Import Base Decimal SqrtPrice Clamm Log FeeGrowth Types Tick Pool Position
  Tickmap Keys State Swap Exec Tactics PriceProofs LogProofs ClammProofs PropClamm BitmapProofs Frame History Basic SwapInv SwapGeo
  SwapLoop LiqInv Geo PropSwap Vectors Scenario.
From stdpp Require Import gmap strings list.
From Coq Require Import Lia.
Open Scope Z_scope.

(** the search for the next tick gives up only at the end of its window *)
Lemma closer_far s lim d c sp k sl t : chunks_u64 s -> 1 <= sp -> legal_tick sp c ->
  get_closer_limit s lim d c sp k = Ok (sl, Some (t, false)) -> t = if d then down_limit sp c else up_limit sp c.
Proof.
  intros U H L E. unfold get_closer_limit in E. inv_bind E as cl EC. inv_bind E as [t0 init] ET.
  assert (X : (t0, init) = (t, false)).
  { inv_bind E as pr EP. destruct (_ || _); apply Ok_inj in E; [|done]. congruence. }
  injection X as -> ->. clear E. destruct cl as [i|]; [apply Ok_inj in ET; congruence|].
  destruct (c =? _); [done|]. apply Ok_inj in ET. injection ET as <-.
  destruct d; cbn [negb]; [apply search_limit_down|apply search_limit_up]; try done; apply L.
Qed.
(** an iteration that crosses no tick and does not finish the swap moves over a whole window *)
Lemma iter_far s now k (d by_in : bool) lim w w' : store_geo s k -> loop_inv k d lim w -> sw_remaining w <> 0 ->
  swap_iter s now k d by_in lim (end_tick d k) w = Ok w' -> sw_remaining w' <> 0 -> sw_ticks w' = sw_ticks w ->
  (if d then p_tick (sw_pool w') <= p_tick (sw_pool w) - 256 * spacing k else p_tick (sw_pool w') = p_tick (sw_pool w) + 256 * spacing k) \/
  d = false /\ by_in = false /\ p_liq (sw_pool w) <> 0 /\ sw_in w < sw_in w' /\
    p_tick (sw_pool w) <= p_tick (sw_pool w') /\ exact s k (spacing k) (p_tick (sw_pool w)) (p_tick (sw_pool w')).
Proof.
  intros G I NR H NR' NT. pose proof (loop_pre s k d lim w G I NR) as PRE.
  destruct (iter_limit _ _ _ _ _ _ _ _ G I NR H) as (_ & _ & DEC). specialize (DEC NR').
  pose proof (loop_step _ _ _ _ _ _ _ _ G I NR H) as [POST I'].
  pose proof PRE as [U HS HF HL HW HR HLim HRem]. pose proof HW as (WL & WP & WU). set (sp := spacing k) in *.
  apply swap_iter_inv in H. destruct H as (sl & li & r & p0 & tk & p1 & tk' & add & rm0 & rm1 & c & H).
  destruct H as (CL & ST & E0 & R0 & AF & NL & LT & UT & W' & TL & BI & BO). fold sp in CL, UT.
  assert (S1 : 1 <= sp) by (unfold sp; lia).
  pose proof (closer_limit _ _ _ _ _ _ _ _ U S1 WL CL) as (t & init & T & CC).
  assert (SL : sl = if d then Z.max (tprice t) lim else Z.min (tprice t) lim).
  { destruct CC as [(_ & -> & X)|(_ & -> & X)]; destruct d; lia. }
  assert (SIDE : if d then sl <= p_price (sw_pool w) else p_price (sw_pool w) < sl).
  { subst sl. destruct T as (TL1 & _ & T). destruct d.
    - pose proof (legal_price_le _ _ _ TL1 WL ltac:(lia)). lia.
    - destruct (HR eq_refl) as (_ & _ & R3). pose proof (legal_top _ _ S1 TL1).
      pose proof (legal_gap _ _ _ S1 WL TL1 ltac:(lia)). specialize (R3 ltac:(lia)).
      pose proof (legal_price_le _ _ _ (legal_next _ _ S1 WL ltac:(lia)) TL1 ltac:(lia)). lia. }
  pose proof (legal_price_range _ _ (proj1 T)) as TR. pose proof (legal_price_range _ _ WL) as CR.
  pose proof (legal_price_range _ _ (top_legal sp ltac:(lia))) as XR.
  assert (SA : step_args (p_price (sw_pool w)) sl (p_liq (sw_pool w)) (sw_remaining w) (ft_fee (pk_tier k))).
  { unfold step_args. change (2 ^ 128) with (U128MAX + 1). change 15258932000000000000 with MIN_SQRT_PRICE.
    change 65535383934512647000000000000 with MAX_SQRT_PRICE. change 1000000000000 with PCT_ONE.
    repeat split; try lia; subst sl; destruct d; lia. }
  pose proof (C03_step_bounds_partial _ _ _ _ _ _ _ SA ST) as (B1 & B2 & B3 & B4 & B5 & B6 & B7 & B8 & B9 & B10 & B11 & B12 & B13).
  unfold pool_update_tick in UT.
  destruct ((match tk with NoTick => true | _ => false end) || negb (sl =? sr_next r)) eqn:B.
  - right. inv_bind UT as c' EC. apply Ok_inj in UT. injection UT as <- <- <- <- <-.
    assert (NX : sr_next r <> sl).
    { intros Q. rewrite Q, Z.eqb_refl in B. cbn in B. rewrite orb_false_r in B. destruct tk; try done.
      destruct CC as [(-> & _)|(-> & -> & _)]; [cbn in LT; destruct init; [destruct LT as (? & _ & ?)|]; done|].
      apply NL. split; [done|]. intros Z0. apply NR'. rewrite W'. done. }
    assert (L0 : p_liq (sw_pool w) <> 0).
    { intros L0. unfold compute_swap_step in ST. rewrite L0 in ST. cbn in ST. apply Ok_inj in ST. subst r. done. }
    assert (RM : rm0 <> 0) by (intros Z0; apply NR'; rewrite W'; done).
    destruct by_in; [specialize (B9 eq_refl L0 NX); lia|].
    destruct d; [specialize (B13 eq_refl L0 SIDE NX); lia|]. split; [done|]. split; [done|]. split; [done|]. split.
    { rewrite W' in DEC |- *. cbn in DEC |- *.
      apply step_inv in ST; [|done]. pose proof (sf_in _ _ _ _ _ _ _ ST) as SI. rewrite (proj2 (Z.leb_gt sl (p_price (sw_pool w)))) in SI by lia.
      unfold delta_in in SI. apply delta_y_up in SI. destruct SI as [SI1 SI2].
      destruct (Z.eq_dec (sr_in r) 0) as [Z0|]; [exfalso|lia]. rewrite Z0 in SI2.
      assert (0 < Z.abs (p_price (sw_pool w) - sr_next r) * p_liq (sw_pool w)) by (apply Z.mul_pos_pos; lia). lia. }
    split.
    + eapply (rest_mono sp); [lia|exact (lv_rest _ _ _ _ I (or_introl eq_refl))|exact (lv_rest _ _ _ _ I' (or_introl eq_refl))|].
      exact (io_dir _ _ _ _ _ _ POST).
    + pose proof (io_move _ _ _ _ _ _ POST) as M. cbv zeta in M. destruct M as [(_ & _ & [M|[M _]])|(t1 & tk1 & t2 & _ & _ & _ & M & _)]; [exact M|done|].
      exfalso. rewrite NT in M. apply (f_equal Datatypes.length) in M. rewrite app_length in M. cbn in M. lia.
  - left. apply orb_false_iff in B. destruct B as [B1' B2']. apply negb_false_iff, Z.eqb_eq in B2'.
    assert (LI : li = Some (t, init) /\ sl = tprice t).
    { destruct CC as [(-> & -> & _)|(-> & _)]; [done|]. cbn in LT. subst tk. done. }
    destruct LI as [-> ST']. inv_bind UT as en EN. inv_bind UT as [[[[[q tk1] tot] rm] cr] ix] E2.
    apply Ok_inj in UT. injection UT as <- <- <- <- <-. rewrite W' in NR', NT |- *. cbn [sw_pool sw_remaining sw_ticks p_tick p_set_tick] in NR', NT, TL |- *.
    destruct init; cbn in LT.
    + exfalso. destruct LT as (t0 & LT & ->). destruct (negb d || en).
      * inv_bind E2 as [t' p'] EC. apply Ok_inj in E2. injection E2 as <- <- <- <- <- <-.
        apply (f_equal Datatypes.length) in NT. rewrite app_length in NT. cbn in NT. lia.
      * destruct (negb (rm0 =? 0)) eqn:Z0.
        -- destruct by_in; [inv_bind E2 as p' EA|]; apply Ok_inj in E2; injection E2 as _ _ _ <- _ _; done.
        -- apply Ok_inj in E2. injection E2 as _ _ _ <- _ _. apply negb_false_iff, Z.eqb_eq in Z0. done.
    + subst tk. apply Ok_inj in E2. injection E2 as <- <- <- <- <- <-.
      pose proof (closer_far _ _ _ _ _ _ _ _ U S1 WL CL) as F. pose proof (legal_mult _ _ S1 WL) as LM.
      unfold end_tick in TL. fold sp in TL.
      destruct d; cbn [andb] in *.
      * unfold down_limit in F. rewrite get_min_top in TL by lia. unfold SwapGeo.top in TL.
        revert F TL LM. generalize (p_tick (sw_pool w) / sp). generalize (MAX_TICK / sp). intros m q F TL LM.
        destruct (Z.max_spec (q - 256) (- m)) as [[_ M]|[_ M]]; rewrite M in F; destruct en; lia.
      * unfold up_limit in F. rewrite get_max_top in TL by lia. unfold SwapGeo.top in TL.
        revert F TL LM. generalize (p_tick (sw_pool w) / sp). generalize (MAX_TICK / sp). intros m q F TL LM.
        destruct (Z.min_spec (q + 256) m) as [[_ M]|[_ M]]; rewrite M in F; lia.
Qed.

(** the initialized ticks of a pool from [lo] to [hi] *)
Definition ticks_in (s : store) (k : pool_key) (lo hi : Z) : Z :=
  Z.of_nat (Datatypes.length (filter (fun t => is_Some (st_ticks s !! (k, t))) (seqZ lo (hi - lo + 1)))).

Lemma ticks_in_nonneg s k lo hi : 0 <= ticks_in s k lo hi.
Proof. unfold ticks_in. lia. Qed.
Lemma ticks_in_split s k lo m hi : lo <= m <= hi + 1 -> ticks_in s k lo hi = ticks_in s k lo (m - 1) + ticks_in s k m hi.
Proof.
  intros H. unfold ticks_in. replace (hi - lo + 1) with ((m - 1 - lo + 1) + (hi - m + 1)) by lia.
  rewrite seqZ_app, filter_app, app_length by lia. replace (lo + (m - 1 - lo + 1)) with m by lia. lia.
Qed.
Lemma ticks_in_empty s k lo hi : hi < lo -> ticks_in s k lo hi = 0.
Proof. intros H. unfold ticks_in. rewrite seqZ_nil by lia. done. Qed.
Lemma ticks_in_one s k t : is_Some (st_ticks s !! (k, t)) -> ticks_in s k t t = 1.
Proof. intros H. unfold ticks_in. replace (t - t + 1) with 1 by lia. rewrite seqZ_cons by lia. rewrite seqZ_nil by lia. rewrite filter_cons_True by done. done. Qed.
Lemma ticks_in_mono s k lo lo' hi hi' : lo <= lo' -> hi' <= hi -> ticks_in s k lo' hi' <= ticks_in s k lo hi.
Proof.
  intros A B. destruct (Z.le_gt_cases lo' (hi' + 1)) as [X|X].
  - rewrite (ticks_in_split s k lo lo' hi), (ticks_in_split s k lo' (hi' + 1) hi) by lia. replace (hi' + 1 - 1) with hi' by lia.
    pose proof (ticks_in_nonneg s k lo (lo' - 1)). pose proof (ticks_in_nonneg s k (hi' + 1) hi). lia.
  - rewrite (ticks_in_empty s k lo' hi') by lia. apply ticks_in_nonneg.
Qed.
(** a tick in front counts once *)
Lemma ticks_in_drop_top s k lo t hi c1 : is_Some (st_ticks s !! (k, t)) -> lo <= t <= hi -> c1 < t -> ticks_in s k lo c1 + 1 <= ticks_in s k lo hi.
Proof.
  intros S L C. rewrite (ticks_in_split s k lo t hi) by lia. rewrite (ticks_in_split s k t (t + 1) hi) by lia. replace (t + 1 - 1) with t by lia.
  rewrite (ticks_in_one s k t S). pose proof (ticks_in_mono s k lo lo (t - 1) c1 ltac:(lia) ltac:(lia)). pose proof (ticks_in_nonneg s k (t + 1) hi). lia.
Qed.
Lemma ticks_in_drop_bot s k lo t hi c1 : is_Some (st_ticks s !! (k, t)) -> lo <= t <= hi -> t < c1 -> ticks_in s k c1 hi + 1 <= ticks_in s k lo hi.
Proof.
  intros S L C. rewrite (ticks_in_split s k lo t hi) by lia. rewrite (ticks_in_split s k t (t + 1) hi) by lia. replace (t + 1 - 1) with t by lia.
  rewrite (ticks_in_one s k t S). pose proof (ticks_in_mono s k (t + 1) c1 hi hi ltac:(lia) ltac:(lia)). pose proof (ticks_in_nonneg s k lo (t - 1)). lia.
Qed.

(** what one iteration does that does not finish the swap *)
Lemma iter_kind s now k (d by_in : bool) lim w w' : store_geo s k -> loop_inv k d lim w -> sw_remaining w <> 0 ->
  swap_iter s now k d by_in lim (end_tick d k) w = Ok w' -> sw_remaining w' <> 0 ->
  (exists t, is_Some (st_ticks s !! (k, t)) /\ if d then p_tick (sw_pool w') = t - spacing k /\ t <= p_tick (sw_pool w) else p_tick (sw_pool w') = t /\ p_tick (sw_pool w) < t) \/
  (if d then p_tick (sw_pool w') <= p_tick (sw_pool w) - 256 * spacing k else p_tick (sw_pool w') = p_tick (sw_pool w) + 256 * spacing k) \/
  d = false /\ by_in = false /\ sw_in w < sw_in w' /\ p_tick (sw_pool w) <= p_tick (sw_pool w').
Proof.
  intros G I NR H NR'. pose proof (loop_step _ _ _ _ _ _ _ _ G I NR H) as [POST _].
  pose proof (io_move _ _ _ _ _ _ POST) as M. cbv zeta in M. destruct M as [(M & _)|(t & tk & t' & _ & T & _ & _ & M)].
  - right. destruct (iter_far _ _ _ _ _ _ _ _ G I NR H NR' M) as [F|(-> & -> & _ & F1 & F2 & _)]; [by left|right]. done.
  - left. exists t. split; [by eexists|]. destruct d; destruct M as (M1 & M2 & _); done.
Qed.
Lemma iter_in_mono s now k (d by_in : bool) lim w w' : store_geo s k -> loop_inv k d lim w -> sw_remaining w <> 0 ->
  swap_iter s now k d by_in lim (end_tick d k) w = Ok w' -> sw_in w <= sw_in w'.
Proof.
  intros G I NR H. pose proof (loop_pre s k d lim w G I NR) as PRE.
  pose proof (iter_cases _ _ _ _ _ _ _ _ _ H PRE) as (t & init & sl & r & p0 & rm0 & T & SL & SA & ST & SIDE & E0 & R0 & AF & NL & IC & TL & _ & _ & IN).
  pose proof (C03_step_bounds_partial _ _ _ _ _ _ _ SA ST) as (B1 & B2 & B3 & B4 & B5 & B6 & B7 & B8 & _).
  destruct IN as [->|(_ & _ & -> & _)]; lia.
Qed.
Lemma run_in_mono s now k (d by_in : bool) lim w w' : store_geo s k -> loop_inv k d lim w -> run s now k d by_in lim w w' -> sw_in w <= sw_in w'.
Proof.
  intros G I R. induction R as [w Z0|w w1 w2 N E R IH]; [lia|].
  pose proof (loop_step _ _ _ _ _ _ _ _ G I N E) as [_ I1]. pose proof (iter_in_mono _ _ _ _ _ _ _ _ G I N E). specialize (IH I1). lia.
Qed.
Lemma loop_done g s now k d by_in lim tl w : sw_remaining w = 0 -> swap_loop g s now k d by_in lim tl w = Ok w.
Proof. intros H. destruct g; cbn; rewrite H; reflexivity. Qed.
Lemma loop_next g s now k d by_in lim tl w w1 : sw_remaining w <> 0 -> swap_iter s now k d by_in lim tl w = Ok w1 ->
  swap_loop (S g) s now k d by_in lim tl w = swap_loop g s now k d by_in lim tl w1.
Proof. intros H E. cbn. rewrite (proj2 (Z.eqb_neq _ _) H), E. reflexivity. Qed.

(** the iterations of a finished swap: crossed ticks, windows, and for rising exact outputs steps that each charge something *)
Lemma run_work s now k (d by_in : bool) lim w w' : store_geo s k -> loop_inv k d lim w -> sw_remaining w <> 0 -> run s now k d by_in lim w w' ->
  let c := p_tick (sw_pool w) in let c' := p_tick (sw_pool w') in
  exists n x m y, swap_loop n s now k d by_in lim (end_tick d k) w = Ok w' /\ Z.of_nat n = 1 + x + m + y /\ 0 <= x /\ 0 <= m /\ 0 <= y /\
    (if d then x <= ticks_in s k c' c /\ 256 * spacing k * m <= c - c' + spacing k
     else x <= ticks_in s k (c + 1) c' /\ 256 * spacing k * m <= c' - c) /\
    y <= (if d || by_in then 0 else sw_in w' - sw_in w).
Proof.
  intros G I NR R. induction R as [w Z0|w w1 w2 N E R IH]; [done|]. cbv zeta.
  pose proof (loop_step _ _ _ _ _ _ _ _ G I N E) as [POST I1]. pose proof (sg_sp _ _ G) as [S1 S2]. set (sp := spacing k) in *.
  pose proof (iter_in_mono _ _ _ _ _ _ _ _ G I N E) as IM.
  destruct (Z.eq_dec (sw_remaining w1) 0) as [Z1|Z1].
  - inversion R; subst; [|done]. exists 1%nat, 0, 0, 0. split; [rewrite (loop_next _ _ _ _ _ _ _ _ _ _ N E); by apply loop_done|].
    split; [lia|]. split; [lia|]. split; [lia|]. split; [lia|].
    pose proof (ticks_in_nonneg s k). pose proof (lv_rest _ _ _ _ I1 (or_intror Z1)) as RS. fold sp in RS.
    split; [|destruct (d || by_in); lia]. pose proof (io_dir _ _ _ _ _ _ POST) as D. pose proof (lv_weak _ _ _ _ I) as W. fold sp in W.
    destruct d.
    + split; [auto|]. destruct (Z.le_gt_cases (p_tick (sw_pool w2)) (p_tick (sw_pool w) + sp)) as [X|X]; [lia|exfalso].
      destruct W as (WL & _ & W), RS as (RL & (RP & _) & _). pose proof (legal_top _ _ S1 RL). specialize (W ltac:(lia)).
      pose proof (legal_price_lt sp _ _ (legal_next _ _ S1 WL ltac:(lia)) RL X). lia.
    + split; [auto|]. pose proof (lv_rest _ _ _ _ I (or_introl eq_refl)) as RS0. pose proof (rest_mono sp _ _ _ _ S1 RS0 RS D). lia.
  - destruct (IH I1 Z1) as (n & x & m & y & L & EN & X0 & M0 & Y0 & XM & YB). clear IH.
    pose proof (run_in_mono _ _ _ _ _ _ _ _ G I1 R) as IM2.
    assert (NL : swap_loop (S n) s now k d by_in lim (end_tick d k) w = Ok w2) by (rewrite (loop_next _ _ _ _ _ _ _ _ _ _ N E); exact L).
    set (c0 := p_tick (sw_pool w)) in *. set (c1 := p_tick (sw_pool w1)) in *. set (c2 := p_tick (sw_pool w2)) in *.
    assert (SM : 0 <= 256 * sp * m) by (apply Z.mul_nonneg_nonneg; lia).
    destruct (iter_kind _ _ _ _ _ _ _ _ G I N E Z1) as [(t & T & K)|[K|(-> & -> & K1 & K2)]]; [fold sp c0 c1 in K|fold sp c0 c1 in K|fold c0 c1 in K2].
    + exists (S n), (x + 1), m, y. split; [exact NL|]. split; [lia|]. split; [lia|]. split; [lia|]. split; [lia|].
      split; [|destruct (d || by_in); lia]. destruct d; destruct K as [K1 K2], XM as [XM1 XM2].
      * pose proof (ticks_in_drop_top s k c2 t c0 c1 T ltac:(lia) ltac:(lia)). lia.
      * pose proof (ticks_in_drop_bot s k (c0 + 1) t c2 (c1 + 1) T ltac:(lia) ltac:(lia)). lia.
    + exists (S n), x, (m + 1), y. split; [exact NL|]. split; [lia|]. split; [lia|]. split; [lia|]. split; [lia|].
      split; [|destruct (d || by_in); lia]. destruct d; destruct XM as [XM1 XM2].
      * pose proof (ticks_in_mono s k c2 c2 c0 c1 ltac:(lia) ltac:(lia)). lia.
      * pose proof (ticks_in_mono s k (c0 + 1) (c1 + 1) c2 c2 ltac:(lia) ltac:(lia)). lia.
    + exists (S n), x, m, (y + 1). split; [exact NL|]. split; [lia|]. split; [lia|]. split; [lia|]. split; [lia|]. cbn [orb] in *. destruct XM as [XM1 XM2].
      pose proof (ticks_in_mono s k (c0 + 1) (c1 + 1) c2 c2 ltac:(lia) ltac:(lia)). lia.
Qed.

(** whatever the outcome: the ticks and windows up to the end of the price range are enough *)
Lemma loop_enough s now k (d by_in : bool) lim : store_geo s k -> d || by_in = true -> forall g w, loop_inv k d lim w ->
  let c := p_tick (sw_pool w) in
  (if d then ticks_in s k (end_tick d k) c + (c - end_tick d k) / (256 * spacing k) else ticks_in s k (c + 1) (end_tick d k) + (end_tick d k - c) / (256 * spacing k)) < Z.of_nat g ->
  ng (swap_loop g s now k d by_in lim (end_tick d k) w).
Proof.
  intros G DB. pose proof (sg_sp _ _ G) as [S1 S2]. induction g as [|g IH]; intros w I c GB.
  - exfalso. assert (0 <= (if d then ticks_in s k (end_tick d k) c + (c - end_tick d k) / (256 * spacing k) else ticks_in s k (c + 1) (end_tick d k) + (end_tick d k - c) / (256 * spacing k))); [|lia].
    pose proof (lv_weak _ _ _ _ I) as (WL & _). pose proof (legal_top _ _ S1 WL). fold c in H, WL.
    assert (E : end_tick d k = if d then - SwapGeo.top (spacing k) else SwapGeo.top (spacing k)).
    { unfold end_tick. destruct d; [by apply get_min_top|by apply get_max_top]. }
    assert (- SwapGeo.top (spacing k) <= c).
    { destruct WL as [WL1 WL2]. unfold SwapGeo.top. pose proof (legal_mult _ _ S1 (conj WL1 WL2)).
      pose proof (div_range _ _ S1 (conj WL1 WL2)). nia. }
    destruct d; rewrite E; (apply Z.add_nonneg_nonneg; [apply ticks_in_nonneg|apply Z.div_pos; lia]).
  - cbn. destruct (Z.eqb_spec (sw_remaining w) 0) as [Z0|Z0]; [done|].
    destruct (swap_iter s now k d by_in lim (end_tick d k) w) as [w1|er|] eqn:E; cbn [bind].
    3: done.
    2: { pose proof (iter_no_gas s now k d by_in lim (end_tick d k) w) as NG. rewrite E in NG. unfold ng in *. congruence. }
    pose proof (loop_step _ _ _ _ _ _ _ _ G I Z0 E) as [_ I1].
    destruct (Z.eq_dec (sw_remaining w1) 0) as [Z1|Z1]; [rewrite loop_done by done; done|].
    apply IH; [done|]. clear IH. set (c1 := p_tick (sw_pool w1)). set (sp := spacing k) in *. set (en := end_tick d k) in *.
    destruct (iter_kind _ _ _ _ _ _ _ _ G I Z0 E Z1) as [(t & T & K)|[K|(-> & -> & _)]]; [| |done]; fold sp c c1 in K.
    + assert (LT : if d then en <= t else t <= en).
      { pose proof (lv_weak _ _ _ _ I1) as (WL & _). fold c1 sp in WL.
        pose proof (legal_top _ _ S1 WL). pose proof (div_range _ _ S1 WL). pose proof (legal_mult _ _ S1 WL).
        unfold en, end_tick. destruct d; [rewrite get_min_top by done|rewrite get_max_top by done]; unfold SwapGeo.top in *; fold sp; destruct K as [K1 K2]; nia. }
      destruct d; destruct K as [K1 K2].
      * pose proof (ticks_in_drop_top s k en t c c1 T ltac:(lia) ltac:(lia)).
        pose proof (Z.div_le_mono (c1 - en) (c - en) (256 * sp) ltac:(lia) ltac:(lia)). lia.
      * pose proof (ticks_in_drop_bot s k (c + 1) t en (c1 + 1) T ltac:(lia) ltac:(lia)).
        pose proof (Z.div_le_mono (en - c1) (en - c) (256 * sp) ltac:(lia) ltac:(lia)). lia.
    + destruct d.
      * pose proof (ticks_in_mono s k en en c c1 ltac:(lia) ltac:(lia)).
        pose proof (Z.div_le_mono (c1 - en + 1 * (256 * sp)) (c - en) (256 * sp) ltac:(lia) ltac:(lia)) as D. rewrite Z.div_add in D by lia. lia.
      * pose proof (ticks_in_mono s k (c + 1) (c1 + 1) en en ltac:(lia) ltac:(lia)).
        pose proof (Z.div_le_mono (en - c1 + 1 * (256 * sp)) (en - c) (256 * sp) ltac:(lia) ltac:(lia)) as D. rewrite Z.div_add in D by lia. lia.
Qed.

Definition with_gas (e : env) (g : nat) : env := mkEnv (e_height e) (e_nanos e) (e_self e) g (e_addr_ok e) (e_utf8_ok e).
Lemma execute_gas e i s k d a by_in lim g :
  calculate_swap (e_gas e) s (e_millis e) k d a by_in lim = calculate_swap g s (e_millis e) k d a by_in lim ->
  execute (with_gas e g) i s (Swap k d a by_in lim) = execute e i s (Swap k d a by_in lim).
Proof.
  intros H. unfold execute. change (env_typed (with_gas e g) i) with (env_typed e i). destruct (_ && _); [|done].
  cbn [dispatch]. unfold swap, swap_internal. change (e_millis (with_gas e g)) with (e_millis e). change (e_gas (with_gas e g)) with g. rewrite <- H. reflexivity.
Qed.
Lemma loop_same g g' s now k d by_in lim tl w : ng (swap_loop g s now k d by_in lim tl w) -> (g <= g')%nat ->
  swap_loop g' s now k d by_in lim tl w = swap_loop g s now k d by_in lim tl w.
Proof.
  revert g' w. induction g as [|g IH]; intros g' w H L.
  - cbn in *. destruct (sw_remaining w =? 0) eqn:Z0; [|done]. destruct g'; cbn; rewrite Z0; done.
  - destruct g' as [|g']; [lia|]. cbn in *. destruct (sw_remaining w =? 0); [done|].
    destruct (swap_iter s now k d by_in lim tl w) as [w1| |]; cbn [bind] in *; [|done..]. apply IH; [exact H|lia].
Qed.

Lemma ng_update_ticks k l : forall s, ng (update_ticks s k l).
Proof. induction l; intros; cbn; repeat ng_step; auto. Qed.

Definition lo_tick (p p' : pool) : Z := Z.min (p_tick p) (p_tick p').
Definition hi_tick (p p' : pool) : Z := Z.max (p_tick p) (p_tick p').

(** * C97 *)
(** A swap that succeeds at all succeeds, with the same effect, as soon as it may make two iterations, one for each initialized tick from where
    it starts to where it ends and one for each whole search window (256 times the spacing) in between.  A swap for an exact output that raises
    the price may need more, at most one for each unit it charges.
    Missing from C97: that last exception, see the counterexample below. *)
Theorem C97_work_partial e i s k (d by_in : bool) a lim s' ms ain aout p p' : reachable s ->
  execute e i s (Swap k d a by_in lim) = Ok (s', ms, [("amount_in", ain); ("amount_out", aout)]%string) ->
  st_pools s !! k = Some p -> st_pools s' !! k = Some p' -> forall g,
  2 + ticks_in s k (lo_tick p p') (hi_tick p p') + (hi_tick p p' - lo_tick p p') / (256 * ft_spacing (pk_tier k)) +
    (if d || by_in then 0 else ain) <= Z.of_nat g ->
  execute (with_gas e g) i s (Swap k d a by_in lim) = Ok (s', ms, [("amount_in", ain); ("amount_out", aout)]%string).
Proof.
  intros R H EP EP' g HG. rewrite <- H. apply execute_gas.
  destruct (execute_swap_inv _ _ _ _ _ _ _ _ _ _ _ R H) as (r & q & CS & AT & E1 & E2 & HA & HL & _).
  injection AT as -> ->. rewrite EP in E1. injection E1 as <-. rewrite EP' in E2. injection E2 as ->.
  rewrite CS. symmetry. apply calculate_swap_run in CS as CR. destruct CR as (q & w & Q & A0 & D & RUN & O0 & ER).
  rewrite EP in Q. injection Q as <-. apply reachable_ereach in R.
  pose proof (loop_start k d lim p a (ereach_geo _ R _ _ EP) ltac:(lia) D) as I.
  pose proof (ereach_store_geo _ _ _ R EP) as G. pose proof (sg_sp _ _ G) as [S1 S2].
  pose proof (run_work _ _ _ _ _ _ _ _ G I A0 RUN) as (n & x & m & y & L & EN & X0 & M0 & Y0 & XM & YB). cbn [sw_pool sw_in] in *.
  assert (NG : (n <= g)%nat).
  { subst r. cbn [cr_pool cr_in] in HG. unfold lo_tick, hi_tick in HG. set (sp := spacing k) in *. set (c := p_tick p) in *. set (c' := p_tick (sw_pool w)) in *.
    clearbody sp c c'. replace (Z.max c c' - Z.min c c') with (Z.abs (c - c')) in HG by lia.
    assert (M : m <= Z.abs (c - c') / (256 * sp) + 1).
    { destruct (Z.eq_dec m 0) as [->|]; [pose proof (Z.div_pos (Z.abs (c - c')) (256 * sp) ltac:(lia) ltac:(lia)); lia|].
      enough (m - 1 <= Z.abs (c - c') / (256 * sp)) by lia. apply Z.div_le_lower_bound; [lia|]. destruct d; lia. }
    assert (X : x <= ticks_in s k (Z.min c c') (Z.max c c')).
    { destruct d; destruct XM as [XM _]; (etransitivity; [exact XM|apply ticks_in_mono; lia]). }
    assert (y <= if d || by_in then 0 else sw_in w) by (destruct (d || by_in); lia). lia. }
  pose proof (loop_same n g s (e_millis e) k d by_in lim (end_tick d k) _ ltac:(rewrite L; done) NG) as L'. rewrite L in L'. clear L. rename L' into L.
  unfold calculate_swap. rewrite (proj2 (Z.eqb_neq _ _) A0). unfold get_pool. rewrite EP. cbn [bind].
  unfold calculate_swap in CS. rewrite (proj2 (Z.eqb_neq _ _) A0) in CS. unfold get_pool in CS. rewrite EP in CS. cbn [bind] in CS.
  match goal with |- (if ?b then _ else _) = _ => destruct b; [done|] end. fold (end_tick d k). rewrite L. cbn [bind].
  rewrite (proj2 (Z.eqb_neq _ _) O0). by rewrite ER.
Qed.
(** Whether it succeeds or fails: with one iteration for each initialized tick ahead, one for each whole search window up to the end of the tick
    range and one more, a swap does not run out of iterations, and more iterations change nothing. *)
Theorem C97_enough_partial e i s k (d by_in : bool) a lim p g g' : reachable s -> d || by_in = true -> st_pools s !! k = Some p ->
  let enough := if d then ticks_in s k (-221818) (p_tick p) + (p_tick p + 221818) / (256 * ft_spacing (pk_tier k))
                else ticks_in s k (p_tick p) 221818 + (221818 - p_tick p) / (256 * ft_spacing (pk_tier k)) in
  enough < Z.of_nat g -> enough < Z.of_nat g' ->
  execute (with_gas e g) i s (Swap k d a by_in lim) <> Err OutOfGas /\
  execute (with_gas e g) i s (Swap k d a by_in lim) = execute (with_gas e g') i s (Swap k d a by_in lim).
Proof.
  intros R DB EP en HG HG'. apply reachable_ereach in R as RE. pose proof (ereach_store_geo _ _ _ RE EP) as G. pose proof (sg_sp _ _ G) as [S1 S2].
  destruct (env_typed e i && msg_typed (Swap k d a by_in lim)) eqn:TY.
  2: { unfold execute. change (env_typed (with_gas e g) i) with (env_typed e i). change (env_typed (with_gas e g') i) with (env_typed e i). rewrite TY. done. }
  assert (HA : 0 <= a <= U128MAX).
  { apply andb_true_iff in TY. destruct TY as [_ TY]. cbn in TY. repeat apply andb_true_iff in TY as [TY ?]. unfold u128_ok, in_range in *. lia. }
  assert (X : forall h h', en < Z.of_nat h -> (h <= h')%nat -> ng (calculate_swap h s (e_millis e) k d a by_in lim) /\
    calculate_swap h' s (e_millis e) k d a by_in lim = calculate_swap h s (e_millis e) k d a by_in lim).
  { intros h h' Hh Hh'. unfold calculate_swap. destruct (Z.eqb_spec a 0) as [A0|A0]; [split; [unfold ng; discriminate|reflexivity]|]. unfold get_pool. rewrite EP. cbn [bind].
    match goal with |- context [if ?b then Err WrongLimit else _] => destruct b eqn:L end; [split; [unfold ng; discriminate|reflexivity]|].
    assert (D : if d then lim < p_price p else p_price p < lim).
    { destruct d; apply orb_false_iff in L; destruct L as [L _]; apply Z.leb_gt in L; lia. }
    pose proof (loop_start k d lim p a (ereach_geo _ RE _ _ EP) HA D) as I. fold (end_tick d k).
    assert (NG : ng (swap_loop h s (e_millis e) k d by_in lim (end_tick d k) (mkSwapState p a 0 0 0 []))).
    { apply loop_enough; [done|done|done|]. cbn [sw_pool]. eapply Z.le_lt_trans; [|exact Hh]. unfold en, end_tick.
      assert (T : SwapGeo.top (spacing k) <= 221818).
      { unfold SwapGeo.top. change MAX_TICK with 221818. pose proof (Z.mul_div_le 221818 (spacing k) ltac:(lia)). lia. }
      destruct d; [rewrite get_min_top by done|rewrite get_max_top by done]; apply Z.add_le_mono.
      - apply ticks_in_mono; lia.
      - apply Z.div_le_mono; lia.
      - apply ticks_in_mono; lia.
      - apply Z.div_le_mono; lia. }
    rewrite (loop_same h h' _ _ _ _ _ _ _ _ NG Hh'). split; [|done]. apply ng_bind; [exact NG|]. intros w. destruct (_ =? _); done. }
  assert (Y : calculate_swap g s (e_millis e) k d a by_in lim = calculate_swap g' s (e_millis e) k d a by_in lim).
  { destruct (Nat.le_ge_cases g g') as [L|L]; [by rewrite (proj2 (X g g' HG L))|by rewrite (proj2 (X g' g HG' L))]. }
  destruct (X g g HG (le_n g)) as [NG _]. split; [|symmetry; exact (execute_gas (with_gas e g) i s k d a by_in lim g' Y)].
  unfold execute. change (env_typed (with_gas e g) i) with (env_typed e i). rewrite TY. cbn [dispatch]. unfold swap, swap_internal.
  change (e_millis (with_gas e g)) with (e_millis e). change (e_gas (with_gas e g)) with g.
  change (ng (let* '(s, m, r) := let* r := calculate_swap g s (e_millis e) k d a by_in lim in
     let* s := update_ticks s k (cr_ticks r) in let s := save_pool s k (cr_pool r) in
     let '(t0, t1) := if d then (pk_x k, pk_y k) else (pk_y k, pk_x k) in
     let* m0 := asset_transfer_from (with_gas e g) i t0 (cr_in r) in Ok (s, m0 ++ asset_transfer (with_gas e g) i t1 (cr_out r), r) in
     Ok (s, m, [("amount_in", cr_in r); ("amount_out", cr_out r)]%string))).
  apply ng_bind; [|intros [[? ?] ?]; done]. apply ng_bind; [exact NG|]. intros r. apply ng_bind.
  - apply ng_update_ticks.
  - intros s1. cbv zeta. destruct d; cbv iota beta; (apply ng_bind; [repeat ng_step|done]).
Qed.
(** eleven thousand units lower the price of the sample pool from tick -10 to tick -20: 4 iterations are enough, one is not *)
Example ex_C97 : reachable sc0 /\
  match st_pools sc0 !! v_key, execute v_env (v_info "carol") sc0 (Swap v_key true 11000 true 15258932000000000000) with
  | Some p, Ok (s', _, _) => match st_pools s' !! v_key with Some p' => p_tick p = -10 /\ p_tick p' = -20 | None => False end
  | _, _ => False
  end /\
  2 + ticks_in sc0 v_key (-20) (-10) + 10 / (256 * 10) = 4 /\
  is_ok (execute (with_gas v_env 4) (v_info "carol") sc0 (Swap v_key true 11000 true 15258932000000000000)) = true /\
  execute (with_gas v_env 1) (v_info "carol") sc0 (Swap v_key true 11000 true 15258932000000000000) = Err OutOfGas.
Proof. split; [eapply start_reachable, sc0_ok|]. vm_compute. repeat split; reflexivity. Qed.

Lemma ticks_in_size s k lo hi : ticks_in s k lo hi <= Z.of_nat (size (st_ticks s)).
Proof.
  unfold ticks_in. set (l := filter _ _). assert (N : NoDup ((fun t => (k, t)) <$> l)).
  { apply NoDup_fmap_2; [intros x y E; congruence|]. apply NoDup_filter, NoDup_seqZ. }
  rewrite <- (fmap_length (fun t => (k, t)) l), <- (size_list_to_set (C := gset (pool_key * Z)) _ N), <- size_dom.
  apply inj_le, subseteq_size. intros x X. apply elem_of_list_to_set, elem_of_list_fmap in X. destruct X as (t & -> & X).
  apply elem_of_list_filter in X. apply elem_of_dom, X.
Qed.
Definition wk_tier : fee_tier := mkFeeTier 10000000000 100.
Definition wk_key : pool_key := mkPoolKey "tokenx" "tokeny" wk_tier.
Definition wk_calls : list (string * exec_msg) :=
  [("alice", AddFeeTier wk_tier);
   ("alice", CreatePool "tokenx" "tokeny" wk_tier 315265000000000000000 (-161300));
   ("alice", CreatePosition wk_key (-163300) (-121300) 37603 15258932000000000000 65535383934512647000000000000)]%string.
Definition wk_store : store := match start 10000000000 wk_calls with Ok s => s | _ => mkStore (mkConfig "" [] 0) ∅ ∅ ∅ ∅ ∅ ∅ end.
Lemma wk_store_ok : start 10000000000 wk_calls = Ok wk_store.
Proof. unfold wk_store. destruct (start 10000000000 wk_calls) eqn:E; [reflexivity|exfalso|exfalso];
  assert (is_ok (start 10000000000 wk_calls) = true) as X by (vm_compute; reflexivity); rewrite E in X; discriminate. Qed.
Definition wk_msg : exec_msg := Swap wk_key false 40 false 65535383934512647000000000000.
(** 40 units are bought from a pool with hardly any liquidity at a low price.  Each step computes a price at which the pool should have paid what
    is missing, and at that price it pays less after rounding.  The swap needs ten iterations within one search window and charges 20 units for an
    amount that is worth less than one. *)
Theorem C97_rising_output_refuted : exists s k a lim s' ms ain p p', reachable s /\
  execute v_env (v_info "carol") s (Swap k false a false lim) = Ok (s', ms, [("amount_in", ain); ("amount_out", a)]%string) /\
  st_pools s !! k = Some p /\ st_pools s' !! k = Some p' /\
  exists g, 2 + ticks_in s k (lo_tick p p') (hi_tick p p') + (hi_tick p p' - lo_tick p p') / (256 * ft_spacing (pk_tier k)) <= Z.of_nat g /\
    execute (with_gas v_env g) (v_info "carol") s (Swap k false a false lim) = Err OutOfGas.
Proof.
  assert (X : match st_pools wk_store !! wk_key, execute v_env (v_info "carol") wk_store wk_msg with
    | Some p, Ok (s', _, l) => match st_pools s' !! wk_key with Some p' => p_tick p = -161300 /\ p_tick p' = -150700 | None => False end /\
        l = [("amount_in", 20); ("amount_out", 40)]%string
    | _, _ => False end) by (vm_compute; repeat split; reflexivity).
  destruct (st_pools wk_store !! wk_key) as [p|] eqn:EP; [|destruct X].
  destruct (execute v_env (v_info "carol") wk_store wk_msg) as [[[s' ms] l]| |] eqn:E; [|destruct X..].
  destruct X as [X ->]. destruct (st_pools s' !! wk_key) as [p'|] eqn:EP'; [|destruct X]. destruct X as [X1 X2].
  exists wk_store, wk_key, 40, 65535383934512647000000000000, s', ms, 20, p, p'.
  split; [eapply start_reachable, wk_store_ok|]. split; [exact E|]. split; [exact EP|]. split; [exact EP'|].
  exists 9%nat. split.
  - unfold lo_tick, hi_tick. rewrite X1, X2. pose proof (ticks_in_size wk_store wk_key (Z.min (-161300) (-150700)) (Z.max (-161300) (-150700))) as S.
    assert (Z.of_nat (size (st_ticks wk_store)) = 2) as T by (vm_compute; reflexivity). rewrite T in S. cbn [pk_tier wk_key ft_spacing wk_tier].
    change ((Z.max (-161300) (-150700) - Z.min (-161300) (-150700)) / (256 * 100)) with 0. lia.
  - vm_compute. reflexivity.
Qed.
