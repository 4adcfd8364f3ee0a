(** Every successful call moves at least as many tokens into a pool as it adds to what the pool owes. *)
From Verif Require Import Base Decimal SqrtPrice Clamm FeeGrowth Types Tick Pool Position State Swap Exec Tactics
  PriceProofs ClammProofs PropClamm BitmapProofs Frame Handlers History Basic SwapInv SwapGeo SwapLoop Modify PSum LiqInv Geo Ops Clean
  Growth Value Fund.
From stdpp Require Import gmap strings.
From Coq Require Import Lia.
Open Scope Z_scope.

(** ** The whole loop *)
Lemma good_liq s k d w w1 : liq_inv s -> 1 <= spacing k -> good_step s k d w w1 ->
  p_liq (sw_pool w) = act s k (p_tick (sw_pool w)) -> p_liq (sw_pool w1) = act s k (p_tick (sw_pool w1)).
Proof.
  intros LI S1 [M] J. cbn in M. destruct M as [(_ & -> & X)|(t & tk & t' & TI & TK & _ & _ & M)]; [rewrite <- (act_exact _ _ _ _ LI X); done|].
  pose proof (act_jump s k t tk LI S1 TK) as Q. pose proof (is_init_legal _ _ _ _ S1 TI) as LT.
  destruct d.
  - destruct M as (-> & M1 & M2 & ->). rewrite J.
    rewrite <- (act_exact s k t (p_tick (sw_pool w)) LI); [lia|]. apply exact_intro; [done|]. intros j JL Jn X. apply (M2 j); [lia|done].
  - destruct M as (-> & M1 & M2 & ->). rewrite J.
    rewrite (act_exact s k (p_tick (sw_pool w)) (t - spacing k) LI); [lia|]. apply exact_intro; [done|]. intros j JL Jn X.
    destruct X as [X|X]; [apply (M2 j); [lia|done]|]. pose proof (legal_gap (spacing k) j t S1 JL LT). lia.
Qed.
Lemma grun_prefix s now k d by_in lim w w' : grun s now k d by_in lim w w' -> exists l, sw_ticks w' = sw_ticks w ++ l.
Proof.
  induction 1 as [w _|w w1 w2 _ _ _ _ [M] _ [l IH]]; [exists []; by rewrite app_nil_r|]. cbn in M.
  destruct M as [(E & _)|(t & tk & t' & _ & _ & _ & E & _)]; rewrite IH, E; [eauto|]. rewrite <- app_assoc. eauto.
Qed.

Record loop_fund (s : store) (k : pool_key) (d : bool) (w w1 : swap_state) (n I F : Z) : Prop := {
  lf_in : sw_in w1 - sw_in w = I + F;
  lf_nonneg : 0 <= I /\ 0 <= F /\ 0 <= sw_out w1 - sw_out w;
  lf_val : forall b, vals b (st_positions s) k (p_price (sw_pool w1))
      <= vals b (st_positions s) k (p_price (sw_pool w)) + UNIT * flow b d I (sw_out w1 - sw_out w) + n * loss b;
  lf_fee : forall b,
      E48 * pends b (st_positions s) k (tmap s k (sw_ticks w1)) (p_tick (sw_pool w1)) (fg b (sw_pool w1)) + UNIT * prot b (sw_pool w1)
      <= E48 * pends b (st_positions s) k (tmap s k (sw_ticks w)) (p_tick (sw_pool w)) (fg b (sw_pool w)) + UNIT * prot b (sw_pool w)
         + (if Bool.eqb b d then UNIT * F else 0)
}.
Lemma loop_fund_ok s now k d by_in lim gas : store_geo s k -> liq_inv s -> forall w w2,
  swap_loop gas s now k d by_in lim (end_tick d k) w = Ok w2 -> grun s now k d by_in lim w w2 ->
  p_liq (sw_pool w) = act s k (p_tick (sw_pool w)) -> NoDup (map t_index (sw_ticks w2)) ->
  exists I F, loop_fund s k d w w2 (Z.of_nat gas) I F.
Proof.
  intros G LI. induction gas as [|g IH]; intros w w2 H R A ND.
  - cbn in H. destruct (sw_remaining w =? 0); [|done]. apply Ok_inj in H. subst w2. exists 0, 0.
    constructor; [lia|lia|..]; intros b; unfold flow; destruct (Bool.eqb b d); lia.
  - cbn [swap_loop] in H. destruct (Z.eqb_spec (sw_remaining w) 0) as [Z0|Z0].
    + apply Ok_inj in H. subst w2. exists 0, 0.
      constructor; [lia|lia|..]; intros b; pose proof (loss_nonneg b); unfold flow; destruct (Bool.eqb b d); lia.
    + inv_bind H as w1 E. inversion R as [w' Z1|w' w1' w2' N I E' I1 GS R1]; subst; [done|].
      assert (w1' = w1) as -> by congruence.
      destruct (grun_prefix _ _ _ _ _ _ _ _ R1) as [l PX].
      assert (ND1 : NoDup (map t_index (sw_ticks w1))). { rewrite PX, map_app in ND. apply NoDup_app in ND. tauto. }
      destruct (iter_fund_ok _ _ _ _ _ _ _ _ G LI I N E I1 GS A ND1) as (J & F & [IF1 IF2 IF3 IF4]).
      destruct (sg_sp _ _ G) as [S1 _].
      destruct (IH w1 w2 H R1 (good_liq _ _ _ _ _ LI S1 GS A) ND) as (J' & F' & [L1 L2 L3 L4]).
      exists (J + J'), (F + F'). constructor; [lia|lia| |].
      * intros b. specialize (IF3 b). specialize (L3 b). rewrite Nat2Z.inj_succ.
        assert (flow b d (J + J') (sw_out w2 - sw_out w) = flow b d J (sw_out w1 - sw_out w) + flow b d J' (sw_out w2 - sw_out w1)) as ->
          by (unfold flow; destruct (Bool.eqb b d); lia). lia.
      * intros b. specialize (IF4 b). specialize (L4 b). destruct (Bool.eqb b d); lia.
Qed.

(** ** What a pool owes *)
Definition fund (b : bool) (s : store) (k : pool_key) (p : pool) : Z :=
  vals b (st_positions s) k (p_price p) + E48 * pends b (st_positions s) k (st_ticks s) (p_tick p) (fg b p)
  + UNIT * (oweds b (st_positions s) k + prot b p).
Definition funds (b : bool) (s : store) (k : pool_key) : Z :=
  match st_pools s !! k with Some p => fund b s k p | None => 0 end.

Definition move (e : env) (i : msg_info) (t : string) (v : Z) (m : list out_msg) : Prop :=
  (0 <= v /\ asset_transfer_from e i t v = Ok m) \/ (v <= 0 /\ m = asset_transfer e i t (- v)).
(** the messages move [dx] of token x and [dy] of token y into the pool *)
Definition moves (e : env) (i : msg_info) (k : pool_key) (ms : list out_msg) (dx dy : Z) : Prop :=
  exists mx my, move e i (pk_x k) dx mx /\ move e i (pk_y k) dy my /\ (ms = mx ++ my \/ ms = my ++ mx).

Record step_fund (e : env) (i : msg_info) (s s' : store) (ms : list out_msg) (k : pool_key) (dx dy n : Z) : Prop := {
  sq_other : forall b k', k' <> k -> funds b s' k' = funds b s k';
  sq_this : forall b, funds b s' k <= funds b s k + UNIT * (if b then dx else dy) + n * loss b;
  sq_moves : (exists x o t c, ms = [NftReceive c o t x] /\ dx = 0 /\ dy = 0) \/ moves e i k ms dx dy;
  sq_key : pk_x k <> pk_y k
}.
Lemma pool_distinct s k : ereach s -> is_Some (st_pools s !! k) -> pk_x k <> pk_y k.
Proof. intros R [p E] H. pose proof (kv_order _ (ereach_pools _ R _ _ E)) as O. rewrite H, string_ltb_irrefl in O. done. Qed.
Lemma moves_nil e i k : moves e i k [] 0 0.
Proof. exists [], []. split; [by right|]. split; [by right|]. by left. Qed.

(** functions of the tick records that a pool's sums look at *)
Definition tick_sim (b : bool) (T T' : tickmap) (k : pool_key) (j : Z) : Prop :=
  exists a a', T !! (k, j) = Some a /\ T' !! (k, j) = Some a' /\ t_index a' = t_index a /\ fo b a' = fo b a.
Lemma pend_sim b T T' c G po : tick_sim b T T' (po_key po) (po_lower po) -> tick_sim b T T' (po_key po) (po_upper po) ->
  pend b T' c G po = pend b T c G po.
Proof.
  intros (l & l' & El & El' & Il & Fl) (u & u' & Eu & Eu' & Iu & Fu). unfold pend. rewrite El, El', Eu, Eu'.
  unfold grow, inside. by rewrite Il, Iu, Fl, Fu.
Qed.

Lemma funds_other b s s' k : liq_inv s -> st_pools s' !! k = st_pools s !! k ->
  (forall j, st_ticks s' !! (k, j) = st_ticks s !! (k, j)) ->
  (forall f, (forall po l, f (po_set_approvals po l) = f po) ->
     psum (fun po => at_key k po (f po)) (st_positions s') = psum (fun po => at_key k po (f po)) (st_positions s)) ->
  funds b s' k = funds b s k.
Proof.
  intros LI EP ET D. unfold funds. rewrite EP. destruct (st_pools s !! k) as [p|]; [|done]. unfold fund, vals, pends, oweds.
  rewrite (D (val b (p_price p))) by done. rewrite (D (owed b)) by (by destruct b).
  rewrite (D (pend b (st_ticks s') (p_tick p) (fg b p))) by (by destruct b).
  do 3 f_equal. apply psum_ext. intros x po E. unfold at_key. destruct (decide (po_key po = k)) as [K|]; [|done].
  unfold pend. by rewrite K, !ET.
Qed.

(** ** Swaps *)
Lemma tmap_other s k l k' j : k' <> k -> tmap s k l !! (k', j) = st_ticks s !! (k', j).
Proof.
  intros N. induction l as [|a l IH] using rev_ind; [done|]. rewrite tmap_snoc. rewrite lookup_insert_ne by congruence. exact IH.
Qed.
Lemma swap_fund e i s k d a by_in lim s' ms r : ereach s -> act_inv s -> 0 <= a <= U128MAX ->
  swap_internal e i s k d a by_in lim = Ok (s', ms, r) -> clean_swap e s k d a by_in lim ->
  step_fund e i s s' ms k (flow true d (cr_in r) (cr_out r)) (flow false d (cr_in r) (cr_out r)) (Z.of_nat (e_gas e)) /\
  exists I F p, st_pools s !! k = Some p /\ cr_in r = I + F /\ 0 <= I /\ 0 <= F /\ 0 <= cr_out r /\
    (forall b, vals b (st_positions s) k (p_price (cr_pool r)) <= vals b (st_positions s) k (p_price p)
         + UNIT * flow b d I (cr_out r) + Z.of_nat (e_gas e) * loss b) /\
    (forall b, E48 * pends b (st_positions s') k (st_ticks s') (p_tick (cr_pool r)) (fg b (cr_pool r)) + UNIT * prot b (cr_pool r)
      <= E48 * pends b (st_positions s) k (st_ticks s) (p_tick p) (fg b p) + UNIT * prot b p + (if Bool.eqb b d then UNIT * F else 0)).
Proof.
  intros R AI Ha H CS. pose proof (ereach_liq _ R) as LI.
  apply swap_internal_inv in H. destruct H as (C & (s1 & U & ->) & m0 & AT & EM). apply update_ticks_inv in U.
  destruct (calculate_swap_frame _ _ _ _ _ _ _ _ _ C) as (p & Ep & _).
  pose proof (ereach_store_geo _ _ _ R Ep) as G. pose proof (ereach_geo _ R _ _ Ep) as PG.
  destruct (clean_grun _ _ _ _ _ _ _ _ _ _ G Ep PG Ha C (CS _ _ C Ep)) as (w & GR & O & ND & _ & ER).
  assert (SL : swap_loop (e_gas e) s (e_millis e) k d by_in lim (end_tick d k) (mkSwapState p a 0 0 0 []) = Ok w).
  { unfold calculate_swap in C. destruct (a =? 0); [done|]. unfold get_pool in C. rewrite Ep in C. cbn [bind] in C.
    destruct (if d then _ else _); [done|]. inv_bind C as w' E. destruct (sw_out w' =? 0); [done|]. apply Ok_inj in C.
    change (if d then get_min_tick (spacing k) else get_max_tick (spacing k)) with (end_tick d k) in E.
    assert (GR' : run s (e_millis e) k d by_in lim (mkSwapState p a 0 0 0 []) w') by (eapply swap_loop_run, E).
    assert (X : forall u v, grun s (e_millis e) k d by_in lim u v -> forall v', run s (e_millis e) k d by_in lim u v' -> v = v').
    { clear. intros u v GR. induction GR as [w Z0|w w1 w2 N I E I1 GS GR IH]; intros v' RR; inversion RR as [|? w1' ? N' E' RR']; subst; try done.
      apply IH. congruence. }
    rewrite (X _ _ GR _ GR'). exact E. }
  destruct (loop_fund_ok _ _ _ _ _ _ _ G LI _ _ SL GR (AI _ _ Ep) ND) as (I & F & [L1 L2 L3 L4]).
  subst r. cbn [cr_in cr_out cr_pool cr_ticks sw_in sw_out sw_pool sw_ticks] in *. rewrite !Z.sub_0_r in *.
  assert (TM : st_ticks s1 = tmap s k (sw_ticks w)) by (subst s1; done).
  assert (SP : st_positions s1 = st_positions s) by (subst s1; done).
  assert (PP : st_pools s1 = st_pools s) by (subst s1; done).
  change (tmap s k []) with (st_ticks s) in L4.
  split.
  - constructor.
    + intros b k' N. apply funds_other; [done|cbn; rewrite PP; by apply lookup_insert_ne| |].
      * intros j. cbn. rewrite TM. by apply tmap_other.
      * intros f _. cbn. by rewrite SP.
    + intros b. unfold funds. assert (EQ : st_pools (save_pool s1 k (sw_pool w)) !! k = Some (sw_pool w)) by (cbn; apply lookup_insert).
      rewrite EQ, Ep. unfold fund. change (st_positions (save_pool s1 k (sw_pool w))) with (st_positions s1).
      change (st_ticks (save_pool s1 k (sw_pool w))) with (st_ticks s1). rewrite SP, TM.
      specialize (L3 b). specialize (L4 b).
      assert (X : UNIT * (if b then flow true d (sw_in w) (sw_out w) else flow false d (sw_in w) (sw_out w))
              = UNIT * flow b d I (sw_out w) + (if Bool.eqb b d then UNIT * F else 0)).
      { rewrite L1. unfold flow. destruct b, d; cbn [Bool.eqb]; lia. }
      rewrite X. lia.
    + right. destruct d; unfold moves, flow; cbn [Bool.eqb].
      * exists m0, (asset_transfer e i (pk_y k) (sw_out w)). split; [left; split; [lia|exact AT]|].
        split; [right; split; [lia|by rewrite Z.opp_involutive]|]. by left.
      * exists (asset_transfer e i (pk_x k) (sw_out w)), m0. split; [right; split; [lia|by rewrite Z.opp_involutive]|].
        split; [left; split; [lia|exact AT]|]. by right.
    + apply (pool_distinct s); eauto.
  - exists I, F, p. split; [done|]. split; [done|]. split; [lia|]. split; [lia|]. split; [lia|]. split; [exact L3|].
    intros b. change (st_positions (save_pool s1 k (sw_pool w))) with (st_positions s1).
    change (st_ticks (save_pool s1 k (sw_pool w))) with (st_ticks s1). rewrite SP, TM. apply L4.
Qed.

(** ** Amounts of a deposit and a withdrawal against the value of the position *)
Lemma amount_value p L add x y u k po : rest (spacing k) (p_tick p) (p_price p) -> 1 <= spacing k -> pos_valid po -> po_key po = k -> po_liq po = L ->
  calculate_amount_delta (p_tick p) (p_price p) L add (po_upper po) (po_lower po) = Ok (x, y, u) ->
  if add then val true (p_price p) po <= UNIT * x + LOSS /\ val false (p_price p) po <= UNIT * y /\ 0 <= x /\ 0 <= y
  else UNIT * x <= val true (p_price p) po /\ UNIT * y <= val false (p_price p) po /\ 0 <= x /\ 0 <= y.
Proof.
  intros (R1 & R2 & R3) S1 (V1 & V2 & V3 & V4) K EL H. rewrite K in V2, V3. rewrite EL in V1.
  assert (PL := legal_price_range _ _ V2). assert (PU := legal_price_range _ _ V3). assert (OP := legal_price_lt _ _ _ V2 V3 V4).
  assert (PR : MIN_SQRT_PRICE <= p_price p) by (pose proof (legal_price_range _ _ R1); lia).
  assert (M0 : 0 < MIN_SQRT_PRICE) by done.
  assert (SIDE : (p_tick p < po_lower po -> p_price p <= tprice (po_lower po)) /\ (po_lower po <= p_tick p -> tprice (po_lower po) <= p_price p) /\
     (p_tick p < po_upper po -> p_price p <= tprice (po_upper po)) /\ (po_upper po <= p_tick p -> tprice (po_upper po) <= p_price p)).
  { assert (GT : forall j, legal_tick (spacing k) j -> p_tick p < j -> p_price p <= tprice j).
    { intros j LJ X. pose proof (legal_gap _ _ _ S1 R1 LJ X). pose proof (legal_top _ _ S1 LJ). specialize (R3 ltac:(lia)).
      pose proof (legal_price_le _ _ _ (legal_next _ _ S1 R1 ltac:(lia)) LJ ltac:(lia)). lia. }
    assert (LE : forall j, legal_tick (spacing k) j -> j <= p_tick p -> tprice j <= p_price p).
    { intros j LJ X. pose proof (legal_price_le _ _ _ LJ R1 X). lia. }
    repeat split; auto. }
  destruct SIDE as (SD1 & SD2 & SD3 & SD4).
  unfold val, pf, clampp. rewrite EL. unfold calculate_amount_delta in H. rewrite (proj2 (Z.ltb_ge (po_upper po) (po_lower po))) in H by lia.
  set (lo := tprice (po_lower po)) in *. set (hi := tprice (po_upper po)) in *.
  assert (CX : forall a b v, get_delta_x a b L add = Ok v -> MIN_SQRT_PRICE <= a -> a <= b ->
     if add then L * (rho a - (rho b - 1)) <= UNIT * v + LOSS /\ 0 <= v else UNIT * v <= L * (rho a - (rho b - 1)) /\ 0 <= v).
  { intros a b v E A B. destruct add.
    - pose proof (proj1 (delta_x_up a b L v ltac:(lia) ltac:(lia) E)).
      apply delta_x_up_exact in E; [|lia|lia]. replace (Z.abs _) with (b - a) in E by lia.
      pose proof (x_up_covers a b L v A B ltac:(lia) E). lia.
    - pose proof (proj1 (delta_x_down a b L v ltac:(lia) ltac:(lia) E)).
      apply delta_x_down_exact in E; [|lia|lia]. replace (Z.abs _) with (b - a) in E by lia.
      pose proof (x_down_covered a b L v ltac:(lia) B ltac:(lia) E). lia. }
  assert (CY : forall a b v, get_delta_y a b L add = Ok v -> a <= b ->
     if add then L * (E52 * b - E52 * a) <= UNIT * v /\ 0 <= v else UNIT * v <= L * (E52 * b - E52 * a) /\ 0 <= v).
  { intros a b v E B. destruct add.
    - pose proof (proj1 (delta_y_up a b L v E)). apply delta_y_up_exact in E. replace (Z.abs _) with (b - a) in E by lia.
      assert (E52 * (L * (b - a)) <= E52 * (v * E30)) by (apply Z.mul_le_mono_nonneg_l; [discriminate|exact E]).
      change UNIT with (E52 * E30). lia.
    - pose proof (proj1 (delta_y_down a b L v E)). apply delta_y_down_exact in E. replace (Z.abs _) with (b - a) in E by lia.
      assert (E52 * (v * E30) <= E52 * (L * (b - a))) by (apply Z.mul_le_mono_nonneg_l; [discriminate|exact E]).
      change UNIT with (E52 * E30). lia. }
  assert (LL : L * (rho hi - (rho hi - 1)) <= LOSS /\ 0 <= L * (rho hi - (rho hi - 1))).
  { replace (rho hi - (rho hi - 1)) with 1 by lia. assert (U128MAX <= LOSS) by (vm_compute; discriminate). lia. }
  destruct (Z.ltb_spec (p_tick p) (po_lower po)) as [A|A].
  - inv_bind H as pl EPl. apply calculate_sqrt_price_inv in EPl. destruct EPl as [_ ->].
    inv_bind H as pu EPu. apply calculate_sqrt_price_inv in EPu. destruct EPu as [_ ->].
    inv_bind H as v EV. apply Ok_inj in H. injection H as <- <- <-. fold lo hi in EV.
    specialize (CX _ _ _ EV ltac:(lia) ltac:(lia)). specialize (SD1 A). rewrite Z.min_l, Z.max_l by lia.
    destruct add; lia.
  - destruct (Z.ltb_spec (p_tick p) (po_upper po)) as [B|B].
    + inv_bind H as pu EPu. apply calculate_sqrt_price_inv in EPu. destruct EPu as [_ ->].
      inv_bind H as v EV. inv_bind H as pl EPl. apply calculate_sqrt_price_inv in EPl. destruct EPl as [_ ->].
      inv_bind H as v2 EW. apply Ok_inj in H. injection H as <- <- <-. fold lo hi in EV, EW.
      specialize (SD2 A). specialize (SD3 B).
      specialize (CX _ _ _ EV ltac:(lia) ltac:(lia)). specialize (CY _ _ _ EW ltac:(lia)). rewrite Z.min_l, Z.max_r by lia.
      destruct add; lia.
    + inv_bind H as pl EPl. apply calculate_sqrt_price_inv in EPl. destruct EPl as [_ ->].
      inv_bind H as pu EPu. apply calculate_sqrt_price_inv in EPu. destruct EPu as [_ ->].
      inv_bind H as v EV. apply Ok_inj in H. injection H as <- <- <-. fold lo hi in EV.
      specialize (CY _ _ _ EV ltac:(lia)). specialize (SD4 B). rewrite Z.min_r, Z.max_r by lia.
      destruct add; lia.
Qed.

Lemma to_fee_unit g L o : to_fee g L = Ok o -> UNIT * o <= E48 * (g * L) /\ 0 <= o.
Proof.
  unfold to_fee. intros H. inv_bind H as m E. apply ck_ok in E. destruct E as [-> E]. apply ck_ok in H. destruct H as [-> H].
  pose proof (floor_spec (g * L) (FG_ONE * LIQ_ONE) ltac:(reflexivity)) as [F _].
  change UNIT with (E48 * (FG_ONE * LIQ_ONE)). split; [|lia]. rewrite <- Z.mul_assoc. apply Z.mul_le_mono_nonneg_l; [discriminate|exact F].
Qed.

(** ** The other calls *)
Lemma psum_at_ext k f g m : (forall x po, m !! x = Some po -> po_key po = k -> f po = g po) ->
  psum (fun po => at_key k po (f po)) m = psum (fun po => at_key k po (g po)) m.
Proof. intros H. apply psum_ext. intros x po E. unfold at_key. destruct (decide _); [eauto|done]. Qed.
Lemma at_key_eq k po v : po_key po = k -> at_key k po v = v.
Proof. intros H. unfold at_key. by rewrite decide_True. Qed.
Lemma at_key_ne k po v : po_key po <> k -> at_key k po v = 0.
Proof. intros H. unfold at_key. by rewrite decide_False. Qed.

Lemma fund_bk b s k p s' p' : st_pools s !! k = Some p -> st_pools s' !! k = Some p' ->
  funds b s k = fund b s k p /\ funds b s' k = fund b s' k p'.
Proof. intros A B. unfold funds. by rewrite A, B. Qed.

Lemma create_fund e i s k lower upper liq sl su s' ms at' : ereach s -> 0 <= liq <= U128MAX ->
  create_position e i s k lower upper liq sl su = Ok (s', ms, at') -> exists dx dy, step_fund e i s s' ms k dx dy 1.
Proof.
  intros R Hq H. pose proof (ereach_liq _ R) as LI. apply create_inv in H; [|done|done].
  destruct H as (p & lt & ut & po & p' & lt' & ut' & x & y & bm1 & bm2 & m0 & m1 & []). destruct cx_mod. cbn [po_liq po_key po_lower po_upper po_fgx po_fgy po_owedx po_owedy] in *.
  destruct (kv_tier _ (ereach_pools _ R _ _ cx_pool)) as [S1 _].
  pose proof (tp_index _ _ _ _ cx_lowp) as Il. pose proof (tp_index _ _ _ _ cx_upp) as Iu.
  rewrite Il, Iu in *.
  assert (EPp : st_pools s' !! k = Some p') by (rewrite cx_store; cbn; apply lookup_insert).
  assert (PV : pos_valid po).
  { rewrite mf_pos. unfold pos_valid. cbn. destruct cx_lowp, cx_upp. split; [lia|]. auto. }
  assert (AV : val true (p_price p) po <= UNIT * x + LOSS /\ val false (p_price p) po <= UNIT * y /\ 0 <= x /\ 0 <= y).
  { assert (PB : po_key po = k /\ po_liq po = liq /\ po_lower po = lower /\ po_upper po = upper) by (rewrite mf_pos; cbn; lia || done).
    destruct PB as (B1 & B2 & B3 & B4). rewrite <- B3, <- B4 in mf_amount.
    exact (amount_value p liq true x y _ k po (proj1 (ereach_geo _ R _ _ cx_pool)) ltac:(lia) PV B1 B2 mf_amount). }
  destruct AV as (AX & AY & X0 & Y0).
  assert (SIM : forall b j, (j = lower \/ j = upper) -> forall a, st_ticks s !! (k, j) = Some a -> tick_sim b (st_ticks s) (st_ticks s') k j).
  { intros b j J a Ea. destruct mf_low as (L1 & _ & L3 & L4 & _). destruct mf_up as (U1 & _ & U3 & U4 & _).
    assert (TT : st_ticks s' = <[(k, upper) := ut']> (<[(k, lower) := lt']> (st_ticks s))) by (by rewrite cx_store).
    destruct (decide (j = upper)) as [->|N].
    - exists a, ut'. split; [done|]. split; [rewrite TT; apply lookup_insert|]. destruct cx_up as [E|[E _]]; [|congruence].
      assert (a = ut) as -> by congruence. destruct b; cbn; split; congruence.
    - assert (j = lower) as -> by tauto. exists a, lt'. split; [done|]. split.
      + rewrite TT, lookup_insert_ne by congruence. apply lookup_insert.
      + destruct cx_low as [E|[E _]]; [|congruence]. assert (a = lt) as -> by congruence. destruct b; cbn; split; congruence. }
  assert (SIM' : forall b x0 q, st_positions s !! x0 = Some q -> po_key q = k -> forall j, j = po_lower q \/ j = po_upper q -> tick_sim b (st_ticks s) (st_ticks s') k j).
  { intros b x0 q E K j J. destruct (bound_tick s x0 q j LI E J) as [a Ea]. rewrite K in Ea.
    destruct (decide (j = lower \/ j = upper)) as [D|D]; [by eapply SIM|].
    exists a, a. split; [done|]. split; [|done]. assert (j <> lower) by tauto. assert (j <> upper) by tauto.
    rewrite cx_store. cbn. rewrite !lookup_insert_ne by congruence. done. }
  exists x, y. constructor.
  - intros b k' N. apply funds_other; [done|rewrite cx_store; cbn; by apply lookup_insert_ne|..].
    + intros j. rewrite cx_store. cbn. by rewrite !lookup_insert_ne by congruence.
    + intros f _. rewrite cx_store. cbn. rewrite psum_new by done. rewrite at_key_ne; [lia|]. rewrite mf_pos. cbn. congruence.
  - intros b. destruct (fund_bk b s k p s' p' cx_pool EPp) as [-> ->]. unfold fund.
    assert (SP : st_positions s' = <[(i_sender i, plen s (i_sender i)) := po]> (st_positions s)) by (by rewrite cx_store).
    assert (KE : po_key po = k) by (by rewrite mf_pos).
    assert (P1 : p_price p' = p_price p /\ p_tick p' = p_tick p /\ fg b p' = fg b p /\ prot b p' = prot b p) by (rewrite mf_pool; by destruct b).
    destruct P1 as (-> & -> & -> & ->). unfold vals, pends, oweds. rewrite SP, !psum_new by done. rewrite !at_key_eq by done.
    assert (OW : owed b po = 0) by (rewrite mf_pos; by destruct b). rewrite OW.
    assert (PE : pend b (st_ticks s') (p_tick p) (fg b p) po = 0).
    { unfold pend. rewrite KE, cx_store. cbn [st_ticks].
      assert (po_lower po = lower /\ po_upper po = upper) as [-> ->] by (by rewrite mf_pos).
      rewrite lookup_insert, lookup_insert_ne, lookup_insert by (injection; lia).
      assert (Q : grow b (p_tick p) (fg b p) lt' ut' po = 0); [|by rewrite Q].
      unfold grow, inside. destruct mf_low as (-> & _ & L3 & L4 & _). destruct mf_up as (-> & _ & U3 & U4 & _).
      assert (F1 : fo b lt' = fo b lt /\ fo b ut' = fo b ut) by (by destruct b). destruct F1 as [-> ->].
      assert (F2 : pofg b po = fee_growth_inside (t_index lt) (fo b lt) (t_index ut) (fo b ut) (p_tick p) (fg b p)) by (rewrite mf_pos; by destruct b).
      rewrite F2, ?Il, ?Iu, Z.sub_diag. done. }
    rewrite PE. rewrite (psum_at_ext k (pend b (st_ticks s') (p_tick p) (fg b p)) (pend b (st_ticks s) (p_tick p) (fg b p)) (st_positions s)).
    + assert (val b (p_price p) po <= UNIT * (if b then x else y) + loss b) by (destruct b; cbn [loss]; lia). lia.
    + intros x0 q E K. apply pend_sim; rewrite K; eapply SIM'; eauto.
  - right. exists m0, m1. split; [by left|]. split; [by left|]. by left.
  - apply (pool_distinct s); eauto.
Qed.

Lemma claim_fund e i s ix s' ms at' : ereach s -> claim_fee e i s ix = Ok (s', ms, at') ->
  exists po dx dy, st_positions s !! (i_sender i, ix) = Some po /\ step_fund e i s s' ms (po_key po) dx dy 1.
Proof.
  intros R H. pose proof (ereach_liq _ R) as LI. apply claim_inv in H; [|done].
  destruct H as (po & p & lt & ut & po1 & p' & lt' & ut' & zx & zy & ox & oy & []). destruct cl_mod.
  set (k := po_key po) in *.
  pose proof (tp_index _ _ _ _ cl_lowp) as Il. pose proof (tp_index _ _ _ _ cl_upp) as Iu.
  destruct cl_valid as (V1 & V2 & V3 & V4).
  exists po, (- (po_owedx po + ox)), (- (po_owedy po + oy)). split; [done|]. fold k.
  assert (EPp : st_pools s' !! k = Some p') by (rewrite cl_store; cbn; apply lookup_insert).
  assert (TT : st_ticks s' = <[(k, po_lower po) := lt']> (<[(k, po_upper po) := ut']> (st_ticks s))) by (by rewrite cl_store).
  assert (SIM : forall b x0 q, st_positions s !! x0 = Some q -> po_key q = k -> forall j, j = po_lower q \/ j = po_upper q -> tick_sim b (st_ticks s) (st_ticks s') k j).
  { intros b x0 q E K j J. destruct (bound_tick s x0 q j LI E J) as [a Ea]. rewrite K in Ea. unfold tick_sim.
    destruct mf_low as (L1 & _ & L3 & L4 & _). destruct mf_up as (U1 & _ & U3 & U4 & _).
    destruct (decide (j = po_lower po)) as [->|N].
    - exists a, lt'. split; [done|]. split; [rewrite TT; apply lookup_insert|]. assert (a = lt) as -> by congruence. destruct b; cbn; split; congruence.
    - destruct (decide (j = po_upper po)) as [->|N2].
      + exists a, ut'. split; [done|]. split; [rewrite TT, lookup_insert_ne by congruence; apply lookup_insert|].
        assert (a = ut) as -> by congruence. destruct b; cbn; split; congruence.
      + exists a, a. split; [done|]. split; [|done]. rewrite TT, !lookup_insert_ne by congruence. done. }
  set (po2 := mkPosition (po_key po1) (po_liq po1) (po_lower po1) (po_upper po1) (po_fgx po1) (po_fgy po1) (po_block po1) 0 0 (po_approvals po1)) in *.
  assert (SP : st_positions s' = <[(i_sender i, ix) := po2]> (st_positions s)) by (by rewrite cl_store).
  assert (K2 : po_key po2 = k) by (unfold po2; cbn; by rewrite mf_pos).
  constructor.
  - intros b k' N. apply funds_other; [done|rewrite cl_store; cbn; by apply lookup_insert_ne|..].
    + intros j. rewrite TT. by rewrite !lookup_insert_ne by congruence.
    + intros f _. rewrite SP. rewrite (psum_update _ _ _ po po2 cl_pos). rewrite !at_key_ne by (rewrite ?K2; fold k; congruence). lia.
  - intros b. destruct (fund_bk b s k p s' p' cl_pool EPp) as [-> ->]. unfold fund.
    assert (P1 : p_price p' = p_price p /\ p_tick p' = p_tick p /\ fg b p' = fg b p /\ prot b p' = prot b p) by (rewrite mf_pool; by destruct b).
    destruct P1 as (-> & -> & -> & ->). unfold vals, pends, oweds. rewrite SP, !(psum_update _ _ _ po po2 cl_pos). rewrite !(at_key_eq k) by done.
    assert (OW : owed b po2 = 0) by (by destruct b). rewrite OW.
    assert (VL : val b (p_price p) po2 = val b (p_price p) po).
    { unfold val, po2. rewrite mf_pos. cbn [po_liq po_lower po_upper pm]. by rewrite Z.add_0_r. }
    rewrite VL.
    assert (PE : pend b (st_ticks s') (p_tick p) (fg b p) po2 = 0).
    { unfold pend. rewrite K2, TT. assert (po_lower po2 = po_lower po /\ po_upper po2 = po_upper po) as [-> ->] by (unfold po2; by rewrite mf_pos).
      rewrite lookup_insert, lookup_insert_ne, lookup_insert by (injection; lia).
      assert (Q : grow b (p_tick p) (fg b p) lt' ut' po2 = 0); [|by rewrite Q].
      unfold grow, inside. destruct mf_low as (-> & _ & L3 & L4 & _). destruct mf_up as (-> & _ & U3 & U4 & _).
      assert (F1 : fo b lt' = fo b lt /\ fo b ut' = fo b ut) by (by destruct b). destruct F1 as [-> ->].
      assert (F2 : pofg b po2 = fee_growth_inside (t_index lt) (fo b lt) (t_index ut) (fo b ut) (p_tick p) (fg b p)) by (unfold po2; rewrite mf_pos; by destruct b).
      rewrite F2, ?Il, ?Iu, Z.sub_diag. done. }
    rewrite PE.
    rewrite (psum_at_ext k (pend b (st_ticks s') (p_tick p) (fg b p)) (pend b (st_ticks s) (p_tick p) (fg b p)) (st_positions s))
      by (intros x0 q E K; apply pend_sim; rewrite K; eapply SIM; eauto).
    rewrite (pend_sim b (st_ticks s) (st_ticks s')) by (eapply SIM; eauto).
    assert (PP : pend b (st_ticks s) (p_tick p) (fg b p) po = grow b (p_tick p) (fg b p) lt ut po * po_liq po).
    { unfold pend. fold k. by rewrite cl_low, cl_up. }
    assert (UF : UNIT * (if b then ox else oy) <= E48 * pend b (st_ticks s) (p_tick p) (fg b p) po).
    { rewrite PP. destruct b; [apply (to_fee_unit _ _ _ mf_ox)|apply (to_fee_unit _ _ _ mf_oy)]. }
    pose proof (loss_nonneg b). destruct b; cbn [owed] in *; lia.
  - right. exists (asset_transfer e i (pk_x k) (po_owedx po + ox)), (asset_transfer e i (pk_y k) (po_owedy po + oy)).
    split; [right; split; [lia|by rewrite Z.opp_involutive]|]. split; [right; split; [lia|by rewrite Z.opp_involutive]|]. left. done.
  - apply (pool_distinct s); eauto.
Qed.

Lemma remove_fund e i s ix s' ms at' : ereach s -> ereach s' -> remove_position_exec e i s ix = Ok (s', ms, at') ->
  exists po dx dy, st_positions s !! (i_sender i, ix) = Some po /\ step_fund e i s s' ms (po_key po) dx dy 1.
Proof.
  intros R R' H. pose proof (ereach_liq _ R) as LI. pose proof (ereach_liq _ R') as LI'. apply remove_inv in H; [|done].
  destruct H as (po & p & lt & ut & po1 & p' & lt' & ut' & x & y & ox & oy & bm1 & bm2 & m' & []). destruct rx_mod.
  set (k := po_key po) in *.
  pose proof (tp_index _ _ _ _ rx_lowp) as Il. pose proof (tp_index _ _ _ _ rx_upp) as Iu. rewrite Il, Iu in *.
  destruct (kv_tier _ (ereach_pools _ R _ _ rx_pool)) as [S1 _].
  pose proof (amount_value p (po_liq po) false x y _ k po (proj1 (ereach_geo _ R _ _ rx_pool)) ltac:(lia) rx_valid eq_refl eq_refl mf_amount) as (AX & AY & X0 & Y0).
  destruct rx_valid as (V1 & V2 & V3 & V4).
  exists po, (- (x + (po_owedx po + ox))), (- (y + (po_owedy po + oy))). split; [done|]. fold k.
  assert (EPp : st_pools s' !! k = Some p') by (rewrite rx_store; cbn; apply lookup_insert).
  assert (TT : st_ticks s' = clear_tick (t_gross ut' =? 0) k (po_upper po) ut' (clear_tick (t_gross lt' =? 0) k (po_lower po) lt' (st_ticks s))) by (by rewrite rx_store).
  assert (SP : st_positions s' = m') by (by rewrite rx_store).
  assert (SIM : forall b x0 q, m' !! x0 = Some q -> po_key q = k -> forall j, j = po_lower q \/ j = po_upper q -> tick_sim b (st_ticks s) (st_ticks s') k j).
  { intros b x0 q E K j J. rewrite <- SP in E. destruct (bound_tick s' x0 q j LI' E J) as [a' Ea']. rewrite K in Ea'.
    destruct mf_low as (L1 & _ & L3 & L4 & _). destruct mf_up as (U1 & _ & U3 & U4 & _). unfold tick_sim. rewrite Ea'.
    rewrite TT in Ea'. unfold clear_tick in Ea'.
    destruct (decide (j = po_upper po)) as [->|N].
    - destruct (t_gross ut' =? 0); [by rewrite lookup_delete in Ea'|]. rewrite lookup_insert in Ea'. injection Ea' as <-.
      exists ut, ut'. split; [done|]. split; [done|]. destruct b; cbn; split; congruence.
    - destruct (decide (j = po_lower po)) as [->|N2].
      + assert (E2 : (if t_gross lt' =? 0 then delete (k, po_lower po) (st_ticks s) else <[(k, po_lower po):=lt']> (st_ticks s)) !! (k, po_lower po) = Some a').
        { destruct (t_gross ut' =? 0); [rewrite lookup_delete_ne in Ea' by congruence|rewrite lookup_insert_ne in Ea' by congruence]; done. }
        clear Ea'. destruct (t_gross lt' =? 0); [by rewrite lookup_delete in E2|]. rewrite lookup_insert in E2. injection E2 as <-.
        exists lt, lt'. split; [done|]. split; [done|]. destruct b; cbn; split; congruence.
      + exists a', a'. split; [|done]. destruct (t_gross ut' =? 0); [rewrite lookup_delete_ne in Ea' by congruence|rewrite lookup_insert_ne in Ea' by congruence];
          (destruct (t_gross lt' =? 0); [rewrite lookup_delete_ne in Ea' by congruence|rewrite lookup_insert_ne in Ea' by congruence]); done. }
  constructor.
  - intros b k' N. apply funds_other; [done|rewrite rx_store; cbn; by apply lookup_insert_ne|..].
    + intros j. rewrite TT. unfold clear_tick.
      destruct (t_gross ut' =? 0), (t_gross lt' =? 0); rewrite ?lookup_delete_ne, ?lookup_insert_ne, ?lookup_delete_ne by congruence; done.
    + intros f _. rewrite SP. rewrite (psum_removed _ _ _ _ _ _ _ rx_pos rx_list). rewrite at_key_ne; [lia|]. fold k. congruence.
  - intros b. destruct (fund_bk b s k p s' p' rx_pool EPp) as [-> ->]. unfold fund.
    assert (P1 : p_price p' = p_price p /\ p_tick p' = p_tick p /\ fg b p' = fg b p /\ prot b p' = prot b p) by (rewrite mf_pool; by destruct b).
    destruct P1 as (-> & -> & -> & ->). unfold vals, pends, oweds. rewrite SP.
    rewrite (psum_at_ext k (pend b (st_ticks s') (p_tick p) (fg b p)) (pend b (st_ticks s) (p_tick p) (fg b p)) m')
      by (intros x0 q E K; apply pend_sim; rewrite K; eapply SIM; eauto).
    rewrite !(psum_removed _ _ _ _ _ _ _ rx_pos rx_list). rewrite !(at_key_eq k) by done.
    assert (PP : pend b (st_ticks s) (p_tick p) (fg b p) po = grow b (p_tick p) (fg b p) lt ut po * po_liq po).
    { unfold pend. fold k. by rewrite rx_low, rx_up. }
    assert (UF : UNIT * (if b then ox else oy) <= E48 * pend b (st_ticks s) (p_tick p) (fg b p) po).
    { rewrite PP. destruct b; [apply (to_fee_unit _ _ _ mf_ox)|apply (to_fee_unit _ _ _ mf_oy)]. }
    pose proof (loss_nonneg b). destruct b; cbn [owed] in *; lia.
  - right. exists (asset_transfer e i (pk_x k) (x + (po_owedx po + ox))), (asset_transfer e i (pk_y k) (y + (po_owedy po + oy))).
    split; [right; split; [lia|by rewrite Z.opp_involutive]|]. split; [right; split; [lia|by rewrite Z.opp_involutive]|]. left. done.
  - apply (pool_distinct s); eauto.
Qed.

Lemma funds_same b s s' k : liq_inv s -> st_pools s' = st_pools s -> st_ticks s' = st_ticks s -> st_positions s' = st_positions s -> funds b s' k = funds b s k.
Proof. intros LI E1 E2 E3. unfold funds, fund. by rewrite E1, E2, E3. Qed.

Lemma effect_fresh_pool e i s s' ms k p' : ticks_indexed s -> effect e i s s' ms ->
  st_pools s !! k = None -> st_pools s' !! k = Some p' -> p_protx p' = 0 /\ p_proty p' = 0.
Proof.
  intros IX H E S.
  assert (INS : forall k0 p0 p0', st_pools s !! k0 = Some p0 -> <[k0 := p0']> (st_pools s) !! k = Some p' -> False).
  { intros k0 p0 p0' E0 S'. rewrite lookup_insert_ne in S' by congruence. congruence. }
  destruct H; cbn in S; try congruence.
  - exfalso. eapply INS; eassumption.
  - exfalso. eapply INS; eassumption.
  - destruct (decide (k0 = k)) as [->|N]; [|rewrite lookup_insert_ne in S by done; congruence].
    rewrite lookup_insert in S. injection S as <-. unfold pool_create in H5. inv_bind H5 as ok EO. destruct ok; [|done]. apply Ok_inj in H5. by subst p.
  - apply swap_internal_kept in H1; [|done]. rewrite (sk_pool' _ _ _ H1 _ E) in S. done.
  - apply create_position_inv in H2; [|done].
    destruct H2 as (p0 & lt & ut & po & p1 & lt' & ut' & x & y & bm1 & bm2 & m0 & m1 & HL & HN & Ep & Sl & Su & _ & _ & PC & PL & _ & _ & _ & _ & ->).
    exfalso. eapply INS; eassumption.
  - apply claim_fee_inv in H; [|done].
    destruct H as (po & lt & ut & p0 & po' & p1 & lt' & ut' & x & y & Epo & _ & _ & _ & Ep & PC & _ & _ & Iu & Il & ->).
    exfalso. eapply INS; eassumption.
  - apply remove_position_exec_inv in H; [|done].
    destruct H as (po & lt & ut & p0 & po' & p1 & lt' & ut' & x & y & dl & du & bm1 & bm2 & m' & Epo & _ & _ & _ & Ep & PC & _ & _ & Iu & Il & _ & _ & SR & ->).
    exfalso. eapply INS; eassumption.
  - apply remove_position_inv in H0. destruct H0 as (_ & _ & m & _ & ->).
    apply add_position_inv in H1. destruct H1 as (-> & _). cbn in S. congruence.
Qed.
Lemma ereach_prot s : ereach s -> forall k p, st_pools s !! k = Some p -> 0 <= p_protx p /\ 0 <= p_proty p.
Proof.
  induction 1 as [i f s H|e i s s' ms R IH H]; intros k p' E.
  - apply instantiate_inv in H. destruct H as [-> _]. cbn in E. by rewrite lookup_empty in E.
  - pose proof (ereach_indexed _ R) as IX. destruct (st_pools s !! k) as [p|] eqn:E0.
    + destruct (effect_pool _ _ _ _ _ _ _ IX H E0) as (p1 & E1 & _ & _ & C). assert (p1 = p') as -> by congruence.
      pose proof (IH _ _ E0). destruct C as [C|(_ & -> & _)]; cbn; lia.
    + destruct (effect_fresh_pool _ _ _ _ _ _ _ IX H E0 E) as [-> ->]. lia.
Qed.

Lemma withdraw_fund e i s k p : ereach s -> st_pools s !! k = Some p ->
  step_fund e i s (save_pool s k (p_set_prot p 0 0)) (asset_transfer e i (pk_x k) (p_protx p) ++ asset_transfer e i (pk_y k) (p_proty p))
    k (- p_protx p) (- p_proty p) 1.
Proof.
  intros R E. pose proof (ereach_liq _ R) as LI. constructor.
  - intros b k' N. apply funds_other; [done|cbn; by apply lookup_insert_ne|done|done].
  - intros b. assert (EQ : st_pools (save_pool s k (p_set_prot p 0 0)) !! k = Some (p_set_prot p 0 0)) by (cbn; apply lookup_insert).
    destruct (fund_bk b _ _ _ _ _ E EQ) as [-> ->]. unfold fund.
    pose proof (loss_nonneg b). destruct b; change (st_positions (save_pool s k (p_set_prot p 0 0))) with (st_positions s); change (st_ticks (save_pool s k (p_set_prot p 0 0))) with (st_ticks s); cbn [prot fg p_set_prot p_protx p_proty p_price p_tick p_fgx p_fgy]; lia.
  - right. eexists _, _. split; [right; split; [|by rewrite Z.opp_involutive]|split; [right; split; [|by rewrite Z.opp_involutive]|by left]].
    + pose proof (ereach_prot _ R _ _ E). lia.
    + pose proof (ereach_prot _ R _ _ E). lia.
  - apply (pool_distinct s); eauto.
Qed.

Lemma effect0_fund e i s s' ms : ereach s -> effect0 e i s s' ms -> exists k dx dy, step_fund e i s s' ms k dx dy 1.
Proof.
  intros R H. pose proof (ereach_liq _ R) as LI. pose proof (ereach_pos_ok _ R) as PO.
  assert (R' : ereach s') by (eapply er_step; [exact R|by apply effect0_effect]).
  assert (NOP : forall s', st_pools s' = st_pools s -> st_ticks s' = st_ticks s -> st_positions s' = st_positions s ->
     exists k dx dy, step_fund e i s s' [] k dx dy 1).
  { intros s0 E1 E2 E3. exists (mkPoolKey "x"%string "y"%string (mkFeeTier 0 1)), 0, 0. constructor.
    - intros. by apply funds_same.
    - intros b. pose proof (loss_nonneg b). rewrite (funds_same b s s0) by done. destruct b; lia.
    - right. apply moves_nil.
    - done. }
  destruct H as [c Ad C|k p E Rc|k p r Ad E|k p b t0 t1 price tick E T N B CT PR PC
                |k lower upper liq sl su s' ms at' Hq Hlo Hup H|ix s' ms at' H|ix s' ms at' H
                |o ix po s1 r s' ms E Rm Ap M|o ix po l E|m]; try (by apply NOP).
  - eexists k, _, _. by apply withdraw_fund.
  - exists k, 0, 0. constructor.
    + intros b k' N. apply funds_other; [done|cbn; by apply lookup_insert_ne|done|done].
    + intros b. assert (EQ : st_pools (save_pool s k (p_set_receiver p r)) !! k = Some (p_set_receiver p r)) by (cbn; apply lookup_insert).
      destruct (fund_bk b _ _ _ _ _ E EQ) as [-> ->]. unfold fund.
      pose proof (loss_nonneg b). destruct b; change (st_positions (save_pool s k (p_set_receiver p r))) with (st_positions s); change (st_ticks (save_pool s k (p_set_receiver p r))) with (st_ticks s); cbn [prot fg p_set_receiver p_protx p_proty p_price p_tick p_fgx p_fgy]; lia.
    + right. apply moves_nil.
    + apply (pool_distinct s); eauto.
  - exists k, 0, 0. constructor.
    + intros b' k' N'. apply funds_other; [done|cbn; by apply lookup_insert_ne|done|done].
    + intros b'. pose proof (loss_nonneg b').
      assert (Z0 : forall f, psum (fun po => at_key k po (f po)) (st_positions s) = 0).
      { intros f. rewrite <- (psum_zero (st_positions s)). apply psum_ext. intros x po Epo. apply at_key_ne. intros K.
        destruct (lq_pos _ LI _ _ Epo) as [_ [? Q]]. congruence. }
      assert (EQ : st_pools (save_pool s k p) !! k = Some p) by (cbn; apply lookup_insert).
      unfold funds. rewrite EQ, E. unfold fund, vals, pends, oweds. change (st_positions (save_pool s k p)) with (st_positions s).
      rewrite !Z0. unfold pool_create in PC. inv_bind PC as ok EO. destruct ok; [|done]. apply Ok_inj in PC. subst p.
      destruct b'; cbn [prot p_protx p_proty]; lia.
    + right. apply moves_nil.
    + apply (pool_distinct (save_pool s k p)); [done|]. cbn. rewrite lookup_insert. eauto.
  - destruct (create_fund _ _ _ _ _ _ _ _ _ _ _ _ R Hq H) as (dx & dy & F). eauto.
  - destruct (claim_fund _ _ _ _ _ _ _ R H) as (po & dx & dy & _ & F). eauto.
  - destruct (remove_fund _ _ _ _ _ _ _ R R' H) as (po & dx & dy & _ & F). eauto.
  - apply remove_position_inv in Rm. destruct Rm as (_ & PL & m & SR & ->).
    apply add_position_inv in Ap. destruct Ap as (-> & _). exists (po_key po), 0, 0.
    set (po' := po_set_approvals po []) in *.
    assert (Q : forall f, (forall q l, f (po_set_approvals q l) = f q) -> forall j, m !! (r, j) = None ->
       psum f (<[(r, j) := po']> m) = psum f (st_positions s)).
    { intros f Hf j N. rewrite psum_new by done. rewrite (psum_removed _ _ _ _ _ _ _ E SR). unfold po'. rewrite Hf. lia. }
    assert (FR := pos_fresh_removed s o ix r m PO ltac:(eauto) SR). rewrite <- plen_insert with (m := st_positions s) in FR.
    assert (SAME : forall b k, funds b (mkStore (st_config s) (st_pools s) (st_ticks s) (st_bitmap s)
      (<[(r, plen (mkStore (st_config s) (st_pools s) (st_ticks s) (st_bitmap s) (st_positions s) (<[o:=plen s o - 1]> (st_poslen s)) (st_operators s)) r) := po']> m)
      (st_poslen s) (st_operators s)) k = funds b s k).
    { intros b k. apply funds_other; [done|done|done|]. intros f Hf. cbn. apply Q; [|exact FR]. intros q l. rewrite Hf. done. }
    constructor.
    + intros b k' _. apply SAME.
    + intros b. pose proof (loss_nonneg b). replace (funds b _ (po_key po)) with (funds b s (po_key po)); [destruct b; lia|]. symmetry. apply SAME.
    + destruct M as [->|(c & t & x & ->)]; [right; apply moves_nil|]. left. eauto 10.
    + apply (pool_distinct s); [done|]. by eapply lq_pos.
  - exists (po_key po), 0, 0.
    assert (SAME : forall b k, funds b (set_positions s (<[(o, ix) := po_set_approvals po l]> (st_positions s)) (st_poslen s)) k = funds b s k).
    { intros b k. apply funds_other; [done|done|done|]. intros f Hf. cbn. rewrite (psum_update _ _ _ po _ E). rewrite Hf.
      unfold at_key. cbn. lia. }
    constructor; [intros; apply SAME| |right; apply moves_nil|apply (pool_distinct s); [done|by eapply lq_pos]]. intros b. pose proof (loss_nonneg b). rewrite SAME. destruct b; lia.
Qed.

Definition effort (e : env) : Z := Z.max 1 (Z.of_nat (e_gas e)).
Lemma step_fund_weak e i s s' ms k dx dy n n' : n <= n' -> step_fund e i s s' ms k dx dy n -> step_fund e i s s' ms k dx dy n'.
Proof.
  intros L [A B C D]. constructor; [done| |done|done]. intros b. specialize (B b). pose proof (loss_nonneg b). nia.
Qed.
Lemma ceffect_fund e i s s' ms : creach s -> ceffect e i s s' ms -> exists k dx dy, step_fund e i s s' ms k dx dy (effort e).
Proof.
  intros R H. pose proof (creach_ereach _ R) as R0. destruct H as [s' ms H|k d a by_in lim s' ms r Ha Hl H CS].
  - destruct (effect0_fund _ _ _ _ _ R0 H) as (k & dx & dy & F). exists k, dx, dy. eapply step_fund_weak; [|exact F]. unfold effort. lia.
  - destruct (swap_fund _ _ _ _ _ _ _ _ _ _ _ R0 (creach_act _ R) Ha H CS) as [F _]. eexists k, _, _. eapply step_fund_weak; [|exact F]. unfold effort. lia.
Qed.

(** ** No position carries fees it was not paid *)
Definition unowed (s : store) : Prop := forall x po, st_positions s !! x = Some po -> po_owedx po = 0 /\ po_owedy po = 0.
Lemma removed_from a i n m m' : swap_removed a i n m m' -> forall x po, m' !! x = Some po -> exists y, m !! y = Some po.
Proof.
  intros SR x po E. destruct SR as [(N & last & EL & ->)|[_ ->]].
  - destruct (decide (x = (a, i))) as [->|N2].
    + rewrite lookup_insert in E. injection E as <-. eauto.
    + rewrite lookup_insert_ne in E by done. apply lookup_delete_Some in E. destruct E. eauto.
  - apply lookup_delete_Some in E. destruct E. eauto.
Qed.
Lemma effect_unowed e i s s' ms : ereach s -> effect e i s s' ms -> unowed s -> unowed s'.
Proof.
  intros R H U. pose proof (ereach_liq _ R) as LI. pose proof (ereach_indexed _ R) as IX.
  destruct H; try exact U.
  - intros x po E. rewrite (sk_positions _ _ _ (swap_internal_kept _ _ _ _ _ _ _ _ _ _ _ IX H1)) in E. by eapply U.
  - apply create_inv in H2; [|done|done].
    destruct H2 as (p & lt & ut & po & p' & lt' & ut' & x & y & bm1 & bm2 & m0 & m1 & []). destruct cx_mod.
    intros z q E. rewrite cx_store in E. cbn [st_positions] in E.
    destruct (decide (z = (i_sender i, plen s (i_sender i)))) as [->|N].
    + rewrite lookup_insert in E. injection E as <-. rewrite mf_pos. done.
    + rewrite lookup_insert_ne in E by done. by eapply U.
  - apply claim_inv in H; [|done].
    destruct H as (po & p & lt & ut & po1 & p' & lt' & ut' & zx & zy & ox & oy & []).
    intros z q E. rewrite cl_store in E. cbn [st_positions] in E.
    destruct (decide (z = (i_sender i, ix))) as [->|N].
    + rewrite lookup_insert in E. injection E as <-. done.
    + rewrite lookup_insert_ne in E by done. by eapply U.
  - apply remove_inv in H; [|done].
    destruct H as (po & p & lt & ut & po1 & p' & lt' & ut' & x & y & ox & oy & bm1 & bm2 & m' & []).
    intros z q E. rewrite rx_store in E. cbn [st_positions] in E. destruct (removed_from _ _ _ _ _ rx_list _ _ E) as [w Ew]. by eapply U.
  - apply remove_position_inv in H0. destruct H0 as (_ & _ & m & SR & ->).
    apply add_position_inv in H1. destruct H1 as (-> & _). intros z q E. cbn [st_positions set_positions] in E.
    match type of E with <[?j := _]> _ !! _ = _ => destruct (decide (z = j)) as [->|N] end.
    + rewrite lookup_insert in E. injection E as <-. cbn. by eapply U.
    + rewrite lookup_insert_ne in E by done. destruct (removed_from _ _ _ _ _ SR _ _ E) as [w Ew]. by eapply U.
  - intros z q E. cbn [st_positions set_positions] in E.
    match type of E with <[?j := _]> _ !! _ = _ => destruct (decide (z = j)) as [->|N] end.
    + rewrite lookup_insert in E. injection E as <-. cbn. by eapply U.
    + rewrite lookup_insert_ne in E by done. by eapply U.
Qed.
Lemma ereach_unowed s : ereach s -> unowed s.
Proof.
  induction 1 as [i f s H|e i s s' ms R IH H].
  - apply instantiate_inv in H. destruct H as [-> _]. intros x po E. cbn in E. by rewrite lookup_empty in E.
  - by eapply effect_unowed.
Qed.

Lemma funds_nonneg b s k : ereach s -> 0 <= funds b s k.
Proof.
  intros R. pose proof (ereach_liq _ R) as LI. unfold funds. destruct (st_pools s !! k) as [p|] eqn:Ep; [|lia].
  destruct (ereach_prot _ R _ _ Ep) as [P1 P2]. unfold fund.
  assert (V : 0 <= vals b (st_positions s) k (p_price p)).
  { apply psum_nonneg. intros x po E. unfold at_key. destruct (decide _); [|lia]. apply val_nonneg. by eapply lq_pos. }
  assert (Q : 0 <= pends b (st_positions s) k (st_ticks s) (p_tick p) (fg b p)).
  { apply psum_nonneg. intros x po E. unfold at_key. destruct (decide _); [|lia]. unfold pend.
    destruct (st_ticks s !! _) as [l|]; [|lia]. destruct (st_ticks s !! _) as [u|]; [|lia].
    apply Z.mul_nonneg_nonneg; [apply grow_range|]. destruct (lq_pos _ LI _ _ E) as [[? _] _]. lia. }
  assert (O : 0 <= oweds b (st_positions s) k).
  { apply psum_nonneg. intros x po E. unfold at_key. destruct (decide _); [|lia]. destruct (ereach_unowed _ R _ _ E). destruct b; cbn; lia. }
  assert (0 <= prot b p) by (destruct b; cbn; lia).
  assert (0 <= E48) by discriminate. assert (0 <= UNIT) by discriminate. nia.
Qed.
