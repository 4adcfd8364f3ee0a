(** When a swap is clean: an observable condition on its final price. *)
From Verif Require Import Base Decimal SqrtPrice Clamm Log FeeGrowth Types Tick Pool Position
  Tickmap Keys State Swap Exec Tactics PriceProofs LogProofs ClammProofs PropClamm BitmapProofs Frame Handlers History Basic
  SwapInv SwapGeo SwapLoop Modify PSum LiqInv Geo Ops Clean.
From stdpp Require Import gmap strings.
From Coq Require Import Lia.
Open Scope Z_scope.

(** the final price [q] sits on the price of an initialized tick equal to the limit (price rising), or on or
    less than [10^24 / q] below the price of an initialized tick (price falling, exact input) *)
Definition near_tick (s : store) (k : pool_key) (d by_in : bool) (lim q : Z) : Prop :=
  if d then by_in = true /\ exists j, is_init s k (spacing k) j /\ q <= tprice j /\ (tprice j - q) * q < 10 ^ 24
  else q = lim /\ exists j, is_init s k (spacing k) j /\ q = tprice j.

Lemma skip_near s now k d by_in lim w w' : store_geo s k -> loop_inv k d lim w -> sw_remaining w <> 0 ->
  swap_iter s now k d by_in lim (end_tick d k) w = Ok w' -> sw_ticks w' = sw_ticks w ->
  sw_remaining w' = 0 -> skipped s k (spacing k) (p_tick (sw_pool w)) (p_tick (sw_pool w')) ->
  near_tick s k d by_in lim (p_price (sw_pool w')).
Proof.
  intros G I NR H TS Z0 SK. pose proof (loop_pre s k d lim w G I NR) as PRE.
  destruct (loop_step _ _ _ _ _ _ _ _ G I NR H) as [PO _].
  pose proof (io_rest _ _ _ _ _ _ PO (or_intror Z0)) as RS. clear PO.
  pose proof PRE as [U HS HF HL HW HR HLim HRem].
  apply iter_cases in H; [|done].
  destruct H as (t & init & sl & r & p0 & rm0 & T & SL & SA & ST & SIDE & E0 & R0 & AF & NL & IC & TL & _).
  set (sp := ft_spacing (pk_tier k)) in *. pose proof (sg_index _ _ G) as IX.
  assert (S1 : 1 <= sp) by lia.
  pose proof HW as (WL & WP & WU). pose proof T as (LT & TI & TD).
  pose proof (C03_step_bounds_partial _ _ _ _ _ _ _ SA ST) as B.
  destruct B as (B1 & B2 & B3 & B4 & B5 & B6 & B7 & B8 & B9 & B10 & B11 & B12 & B13).
  destruct SK as (j & J & X). pose proof (is_init_legal _ _ _ _ S1 J) as JL.
  destruct IC as [tk t' p1 -> EN ES ET EC PR ->|en -> EN ES PR ->|tk p2 -> -> EN ES ET PR ->|c' PR EC ->];
    cbn [sw_pool sw_remaining sw_ticks p_tick p_set_tick p_price p_liq p_set_price] in *.
  - exfalso. apply (f_equal length) in TS. rewrite app_length in TS. cbn in TS. lia.
  - exfalso. assert (JN : j <> t) by (intros ->; done). destruct d; cbn [andb] in *.
    + destruct TD as (TD1 & TD2 & TD3). destruct (Z.lt_trichotomy j t) as [Y|[Y|Y]]; [|done|apply (TD3 j); [destruct en; lia|done]].
      pose proof (legal_gap _ _ _ S1 JL LT Y). destruct en; lia.
    + destruct TD as (TD1 & TD2). apply (TD2 j); [lia|done].
  - exfalso. apply IX in ET as IT. rewrite IT in *. destruct TD as (TD1 & TD2 & TD3). apply (TD3 j); [lia|done].
  - subst rm0. destruct RS as (RS1 & RS2 & RS3). unfold near_tick. fold sp. destruct d.
    + (* falling *)
      assert (MV : sr_next r <= p_price (sw_pool w)) by (apply B1; lia).
      destruct TD as (TD1 & TD2 & TD3).
      destruct by_in.
      * split; [done|]. exists j. split; [done|]. destruct X as [X|X].
        -- pose proof (legal_gap _ _ _ S1 WL JL ltac:(lia)). pose proof (legal_top _ _ S1 JL).
           pose proof (legal_price_le _ _ _ (legal_next _ _ S1 WL ltac:(lia)) JL ltac:(lia)).
           pose proof (legal_price_le _ _ _ JL RS1 ltac:(lia)). specialize (WU ltac:(lia)).
           assert (tprice j = sr_next r) as -> by lia. lia.
        -- assert (JT : j <= t). { destruct (Z.le_gt_cases j t); [done|]. exfalso. apply (TD3 j); [lia|done]. }
           pose proof (legal_price_le _ _ _ JL LT JT) as PJ. pose proof (legal_top _ _ S1 JL).
           pose proof (legal_gap _ _ _ S1 RS1 JL ltac:(lia)). specialize (RS3 ltac:(lia)).
           pose proof (legal_price_le _ _ _ (legal_next _ _ S1 RS1 ltac:(lia)) JL ltac:(lia)).
           assert (OV : (sl - sr_next r) * p_price (sw_pool w) < 10 ^ 24) by (apply B4; lia).
           pose proof (legal_price_range _ _ RS1). unfold MIN_SQRT_PRICE in *.
           assert (Q1 : tprice j <= sl) by lia. assert (Q2 : sr_next r < tprice j) by lia.
           split; [lia|].
           pose proof (Z.mul_le_mono_nonneg (tprice j - sr_next r) (sl - sr_next r) (sr_next r) (p_price (sw_pool w))
             ltac:(lia) ltac:(lia) ltac:(lia) MV). lia.
      * exfalso. assert (NS : sr_next r <= p_price (sw_pool w)) by lia.
        destruct X as [X|X].
        -- pose proof (legal_gap _ _ _ S1 WL JL ltac:(lia)). pose proof (legal_top _ _ S1 JL).
           pose proof (legal_price_le _ _ _ (legal_next _ _ S1 WL ltac:(lia)) JL ltac:(lia)).
           pose proof (legal_price_le _ _ _ JL RS1 ltac:(lia)). specialize (WU ltac:(lia)).
           assert (EQ : p_price (sw_pool w) = sr_next r) by lia.
           destruct (Z.eq_dec (p_liq (sw_pool w)) 0) as [L0|L0].
           ++ unfold compute_swap_step in ST. rewrite L0 in ST. cbn in ST. apply Ok_inj in ST. subst r. cbn in Z0. lia.
           ++ apply step_inv in ST; [|done]. destruct (sf_out _ _ _ _ _ _ _ ST) as (o & O1 & O2).
              rewrite (proj2 (Z.leb_le sl (p_price (sw_pool w)))) in O1 by lia. unfold delta_out in O1.
              apply delta_y_down_exact in O1. rewrite EQ, Z.sub_diag in O1. change (Z.abs 0) with 0 in O1. unfold E30 in O1. lia.
        -- assert (JT : j <= t). { destruct (Z.le_gt_cases j t); [done|]. exfalso. apply (TD3 j); [lia|done]. }
           pose proof (legal_price_le _ _ _ JL LT JT) as PJ. pose proof (legal_top _ _ S1 JL).
           pose proof (legal_gap _ _ _ S1 RS1 JL ltac:(lia)). specialize (RS3 ltac:(lia)).
           pose proof (legal_price_le _ _ _ (legal_next _ _ S1 RS1 ltac:(lia)) JL ltac:(lia)).
           assert (sl <= sr_next r) by (apply B3; [done|lia]). lia.
    + (* rising *)
      assert (MV : p_price (sw_pool w) <= sr_next r <= sl) by (destruct B2; lia).
      destruct TD as (TD1 & TD2). pose proof (HR eq_refl) as RW.
      pose proof (rest_mono _ _ _ _ _ S1 RW (conj RS1 (conj RS2 RS3)) ltac:(lia)) as MO.
      assert (XJ : p_tick (sw_pool w) < j <= c') by lia.
      assert (TJ : t <= j). { destruct (Z.le_gt_cases t j); [done|]. exfalso. apply (TD2 j); [lia|done]. }
      pose proof (legal_price_le _ _ _ LT JL TJ). pose proof (legal_price_le _ _ _ JL RS1 ltac:(lia)).
      destruct PR as [PR|(P1 & P2 & P3)]; [lia|]. split; [lia|]. exists j. split; [done|]. lia.
Qed.

Lemma run_clean s now k (d : bool) by_in lim p0 w w' : store_geo s k -> pool_geo k p0 -> loop_inv k d lim w ->
  (if d then p_price (sw_pool w) <= p_price p0 else p_price p0 <= p_price (sw_pool w)) ->
  crossed_exactly s k d (p_tick p0) (p_tick (sw_pool w)) (sw_ticks w) ->
  run s now k d by_in lim w w' -> ~ near_tick s k d by_in lim (p_price (sw_pool w')) ->
  crossed_exactly s k d (p_tick p0) (p_tick (sw_pool w')) (sw_ticks w').
Proof.
  intros G [P0 L0] I D K R NT. pose proof (sg_sp _ _ G) as [S1 _]. pose proof (sg_index _ _ G) as IX.
  induction R as [w Z0|w w1 w2 N E R IH]; [done|].
  pose proof (loop_step _ _ _ _ _ _ _ _ G I N E) as [P I1].
  assert (B : if d then p_tick (sw_pool w) <= p_tick p0 else p_tick p0 <= p_tick (sw_pool w)).
  { destruct I. destruct d; [eapply weak_le; eauto|]. eapply rest_mono; eauto. }
  assert (D1 : if d then p_price (sw_pool w1) <= p_price p0 else p_price p0 <= p_price (sw_pool w1)).
  { destruct P. destruct d; lia. }
  apply IH; try done. eapply crossed_step; [done|done|exact B|exact K|]. constructor.
  pose proof (io_move _ _ _ _ _ _ P) as M. destruct M as [(M1 & M2 & [M3|[M3 M4]])|M]; [left; done| |right; exact M].
  exfalso. apply NT. assert (w2 = w1) as -> by (inversion R; subst; done).
  exact (skip_near _ _ _ _ _ _ _ _ G I N E M1 M3 M4).
Qed.

(** every swap that does not end so close to an initialized tick is clean *)
Lemma clean_unless_near e s k d a by_in lim : ereach s -> 0 <= a <= U128MAX ->
  (forall r, calculate_swap (e_gas e) s (e_millis e) k d a by_in lim = Ok r -> ~ near_tick s k d by_in lim (p_price (cr_pool r))) ->
  clean_swap e s k d a by_in lim.
Proof.
  intros R Ha NT r p C E. specialize (NT r C). apply calculate_swap_run in C. destruct C as (p' & w & E' & _ & D & RN & _ & ->).
  rewrite E in E'. injection E' as <-. cbn in *.
  pose proof (ereach_geo _ R _ _ E) as PG. pose proof (loop_start k d lim p a PG Ha D) as I.
  eapply run_clean; [exact (ereach_store_geo _ _ _ R E)|exact PG|exact I|destruct d; cbn; lia|apply crossed_nil|exact RN|exact NT].
Qed.
Lemma clean_out_down e s k a lim : ereach s -> 0 <= a <= U128MAX -> clean_swap e s k true a false lim.
Proof. intros R Ha. apply clean_unless_near; [done|done|]. intros r _ [X _]. done. Qed.
