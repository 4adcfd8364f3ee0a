(** C113: an offer that is accepted can be made smaller. *)
From Verif Require Import Base Decimal SqrtPrice Clamm Log FeeGrowth Types Tick Pool Position Tickmap State Swap Exec Tactics
  PriceProofs LogProofs ClammProofs PropClamm BitmapProofs Frame Handlers History Basic Ledger Scenario Vectors SwapInv SwapGeo SwapLoop Modify PSum LiqInv Geo Clean PropLiq PropTrade
  PropSwap Flow PropSolv Forward PropFunds PropProt PropBlock PropFall PropOut PropMove PropMono.
From stdpp Require Import gmap strings.
From Coq Require Import Lia.
Open Scope Z_scope.

Definition with_rest (w : swap_state) (r : Z) : swap_state :=
  mkSwapState (sw_pool w) r (sw_in w) (sw_out w) (sw_fee w) (sw_ticks w).

(** ** One step *)
Lemma after_fee_le a b f : 0 <= a <= b -> 0 <= f <= PCT_ONE -> 0 <= a * (PCT_ONE - f) / PCT_ONE <= b * (PCT_ONE - f) / PCT_ONE /\ b * (PCT_ONE - f) / PCT_ONE <= b.
Proof.
  intros A F. assert (0 <= a * (PCT_ONE - f) <= b * (PCT_ONE - f)) by (split; [apply Z.mul_nonneg_nonneg; lia|apply Z.mul_le_mono_nonneg_r; lia]).
  split; [split; [apply Z.div_pos; [lia|reflexivity]|apply Z.div_le_mono; [reflexivity|lia]]|].
  apply Z.div_le_upper_bound; [reflexivity|]. rewrite (Z.mul_comm PCT_ONE). apply Z.mul_le_mono_nonneg_l; lia.
Qed.

Lemma step_less cur target L amount a fee r : price_ok cur -> price_ok target -> cur < target -> liq_ok L ->
  0 < a <= amount -> amount <= U128MAX -> a <= 10 ^ 29 -> 0 <= fee <= 99 * 10 ^ 10 ->
  compute_swap_step cur target L amount true fee = Ok r ->
  exists r1, compute_swap_step cur target L a true fee = Ok r1 /\
    (r1 = r /\ sr_next r = target \/ L <> 0 /\ sr_next r1 < target /\ sr_in r1 + sr_fee r1 = a /\ a <= 34028 * L).
Proof.
  intros HC HT LT HL HA HM H29 HF ST. assert (HF' : 0 <= fee <= PCT_ONE) by (unfold PCT_ONE; lia).
  destruct (Z.eq_dec L 0) as [->|L0].
  { unfold compute_swap_step in *. cbn in *. exists r. split; [done|]. apply Ok_inj in ST. subst r. auto. }
  unfold liq_ok in HL. destruct (delta_y_fwd cur target L true HC HT HL) as [ai EI]. pose proof (delta_y_up _ _ _ _ EI) as [AI1 AI2].
  destruct (after_fee_le a amount fee ltac:(lia) HF') as [AF1 AF2]. destruct (after_fee_le a a fee ltac:(lia) HF') as [_ AF3].
  pose proof (floor_spec (a * (PCT_ONE - fee)) PCT_ONE ltac:(reflexivity)) as FL.
  destruct (Z.le_gt_cases ai (a * (PCT_ONE - fee) / PCT_ONE)) as [LE|GT].
  - (* the target is reached by both *)
    exists r. unfold compute_swap_step in *. rewrite (proj2 (Z.eqb_neq _ _) L0), (proj2 (Z.leb_gt _ _) LT) in *.
    unfold pct_complement in *. rewrite ckp_yes in * by (unfold PCT_ONE, U64MAX in *; lia). cbn [bind] in *.
    unfold big_mul in *. rewrite ckp_yes in * by lia. cbn [bind] in *. rewrite EI in *. cbn [bind] in *.
    rewrite (proj2 (Z.leb_le _ _) LE). rewrite (proj2 (Z.leb_le ai (amount * (PCT_ONE - fee) / PCT_ONE))) in ST by lia. cbn [bind] in *.
    rewrite Z.eqb_refl in *. cbn [negb orb andb bind] in *. split; [exact ST|left]. split; [done|].
    inv_bind ST as o EO. inv_bind ST as q EQ. apply Ok_inj in ST. by subst r.
  - set (af := a * (PCT_ONE - fee) / PCT_ONE) in *. clearbody af.
    assert (B : a <= 34028 * L).
    { rewrite Z.abs_neq in AI2 by lia. unfold price_ok in *.
      assert (af * E30 <= MAX_SQRT_PRICE * L).
      { assert ((cur - target) * L <= 0) by (apply Z.mul_nonpos_nonneg; lia).
        assert (- (cur - target) * L <= MAX_SQRT_PRICE * L) by (apply Z.mul_le_mono_nonneg_r; [lia|unfold MIN_SQRT_PRICE in *; lia]).
        unfold E30 in *. lia. }
      unfold E30, MAX_SQRT_PRICE, PCT_ONE in *. assert (10 ^ 10 * a <= a * (1000000000000 - fee)) by nia. lia. }
    destruct (step_rising_fwd cur target L a fee HC HT LT HL ltac:(lia) (fun _ => B) HF') as [r1 E1]. exists r1. split; [exact E1|right].
    split; [exact L0|]. unfold compute_swap_step in E1. rewrite (proj2 (Z.eqb_neq _ _) L0), (proj2 (Z.leb_gt _ _) LT) in E1.
    unfold pct_complement in E1. rewrite ckp_yes in E1 by (unfold PCT_ONE, U64MAX in *; lia). cbn [bind] in E1.
    inv_bind E1 as [[n x1] x2] EN. inv_bind EN as af' EA. apply ckp_ok in EA. destruct EA as [EA _].
    assert (QA : af' = af). { rewrite EA. symmetry. apply (Z.div_unique_pos _ PCT_ONE _ (a * (PCT_ONE - fee) - PCT_ONE * af)); lia. }
    rewrite QA in EN. rewrite EI in EN. cbn [bind] in EN. rewrite (proj2 (Z.leb_gt _ _) GT) in EN. inv_bind EN as n' EN'. apply Ok_inj in EN. injection EN as <- <- <-.
    assert (n' < target) by (eapply (next_in_target_up cur target L af n' ai); [unfold price_ok, MIN_SQRT_PRICE in *; lia|lia|lia|exact EI|lia|exact EN']).
    rewrite (proj2 (Z.eqb_neq target n')) in E1 by lia. cbn [negb orb andb] in E1. inv_bind E1 as i2 EI2. inv_bind E1 as o2 EO2. inv_bind E1 as f2 EF2. apply Ok_inj in E1. subst r1. cbn.
    apply ckp_ok in EF2. lia.
Qed.
Lemma enough_less rem a P L fee b : price_ok P -> liq_ok L -> 0 <= a <= rem -> rem <= U128MAX -> 0 <= fee <= PCT_ONE ->
  is_enough_amount_to_change_price rem P L fee true false = Ok b -> exists b', is_enough_amount_to_change_price a P L fee true false = Ok b'.
Proof.
  unfold liq_ok, price_ok. intros HP HL HA HR HF H. unfold is_enough_amount_to_change_price in *. destruct (Z.eqb_spec L 0) as [|L0]; [eauto|].
  destruct (after_fee_le a rem fee ltac:(lia) HF) as [AF1 AF2].
  unfold pct_complement in *. rewrite ckp_yes in * by (unfold PCT_ONE, U64MAX in *; lia). cbn [bind] in *.
  unfold big_mul in *. rewrite ckp_yes in * by lia. cbn [bind] in *.
  set (x := a * (PCT_ONE - fee) / PCT_ONE) in *. set (y := rem * (PCT_ONE - fee) / PCT_ONE) in *. clearbody x y.
  unfold get_next_sqrt_price_from_input in *. inv_bind H as n EN.
  assert (P0 : 0 <= P) by (unfold MIN_SQRT_PRICE in *; lia).
  destruct (proj1 (next_y_in_iff P L y P0 ltac:(lia) ltac:(lia)) (ex_intro _ n EN)) as [Y1 Y2].
  destruct (proj2 (next_y_in_iff P L x P0 ltac:(lia) ltac:(lia))) as [m EM]; [|rewrite EM; cbn [bind]; eauto].
  assert (x * 10 ^ 48 <= y * 10 ^ 48) by (apply Z.mul_le_mono_nonneg_r; [discriminate|lia]).
  split; [lia|]. assert (x * 10 ^ 48 / (L * 10 ^ 18) <= y * 10 ^ 48 / (L * 10 ^ 18)) by (apply Z.div_le_mono; [apply Z.mul_pos_pos; [lia|reflexivity]|lia]). lia.
Qed.

(** ** One iteration: the same one, or the last one *)
Lemma iter_less s now k lim v v' a P0 A : store_geo s k -> loop_inv k false lim v -> 0 < a < sw_remaining v ->
  totals k P0 A (with_rest v a) -> A <= 10 ^ 29 -> 0 <= cf_protocol_fee (st_config s) <= PCT_ONE -> ft_fee (pk_tier k) <= 99 * 10 ^ 10 ->
  swap_iter s now k false true lim (end_tick false k) v = Ok v' ->
  exists w', swap_iter s now k false true lim (end_tick false k) (with_rest v a) = Ok w' /\
    (sw_remaining w' = 0 \/ w' = with_rest v' (sw_remaining w') /\ 0 < sw_remaining w' < sw_remaining v').
Proof.
  intros G I HA T A29 HF HFE99 H. assert (NR : sw_remaining v <> 0) by lia. pose proof (loop_pre _ _ _ _ _ G I NR) as PRE. destruct PRE as [U HS HFE HLQ HW HR HLim HRem].
  specialize (HR eq_refl). destruct T as [T1 T2 T3 T4 T5 T6 T7 T8]. unfold with_rest in *. cbn [sw_pool sw_remaining sw_in sw_out sw_fee sw_ticks] in *. pose proof HW as (WL & WP & _).
  pose proof (legal_price_range _ _ WL) as CRG. pose proof (legal_price_range _ _ (top_legal (spacing k) ltac:(lia))) as XR.
  assert (U29 : 10 ^ 29 <= U128MAX) by (vm_compute; discriminate).
  assert (PW : price_ok (p_price (sw_pool v))) by (unfold price_ok; lia).
  apply swap_iter_inv in H. destruct H as (sl & li & r & p0 & tk & p1 & tk' & add & rm0 & rm1 & c & CL & ST & E0 & R0 & AF & NL & LT & UT & -> & TL & BI & BO).
  unfold swap_iter. cbn [sw_pool sw_remaining sw_in sw_out sw_fee sw_ticks]. fold (spacing k) in *. rewrite CL. cbn [bind].
  apply closer_limit in CL; [|done|lia|done]. destruct CL as (t & init & TG & CL). pose proof TG as (TL1 & TI & TC1 & TC2).
  assert (SIDE : p_price (sw_pool v) < tprice t).
  { destruct HR as (_ & _ & R3). assert (S1 : 1 <= spacing k) by lia. pose proof (legal_top _ _ S1 TL1).
    pose proof (legal_gap _ _ _ S1 WL TL1 ltac:(lia)). specialize (R3 ltac:(lia)).
    pose proof (legal_price_le _ _ _ (legal_next _ _ S1 WL ltac:(lia)) TL1 ltac:(lia)). lia. }
  pose proof (legal_price_range _ _ TL1) as TR. pose proof (legal_top _ _ (proj1 HS) TL1) as TT.
  assert (SLR : p_price (sw_pool v) < sl <= tprice t) by (destruct CL as [(_ & -> & X)|(_ & -> & X)]; lia).
  assert (PS : price_ok sl) by (unfold price_ok; lia).
  assert (SA : step_args (p_price (sw_pool v)) sl (p_liq (sw_pool v)) a (ft_fee (pk_tier k))).
  { unfold step_args. change (2 ^ 128) with (U128MAX + 1). change 15258932000000000000 with MIN_SQRT_PRICE.
    change 65535383934512647000000000000 with MAX_SQRT_PRICE. change 1000000000000 with PCT_ONE. repeat split; lia. }
  destruct (step_less _ _ _ (sw_remaining v) a (ft_fee (pk_tier k)) _ PW PS (proj1 SLR) HLQ ltac:(lia) ltac:(lia) ltac:(lia) ltac:(lia) ST) as (r1 & ER & RC).
  rewrite ER. cbn [bind].
  pose proof (C03_step_bounds_partial _ _ _ _ _ _ _ SA ER) as (_ & B2 & _ & _ & _ & N1 & N2 & N3 & _ & B6 & _). specialize (B2 ltac:(lia)). specialize (B6 eq_refl ltac:(lia)).
  pose proof (step_out_rising _ _ _ _ _ _ SA (proj1 SLR) ER) as SO.
  rewrite (add_p_yes (sr_in r1) (sr_fee r1)) by lia. cbn [bind]. rewrite (sub_e_yes ESub a) by lia. cbn [bind].
  assert (TEL : (sw_out v + sr_out r1) * (P0 * sr_next r1) <= U128MAX * E18 * (sr_next r1 - P0)) by (eapply telescope; [|apply B2|exact T6|exact SO]; unfold MIN_SQRT_PRICE in *; lia).
  assert (TB : 0 <= sw_out v + sr_out r1 <= U128MAX) by (split; [lia|]; eapply telescope_bound; [|lia|exact TEL]; lia).
  destruct RC as [[-> NX]|(L0 & NX & SUM & LB)].
  - (* the same step *)
    rewrite AF. cbn [bind]. rewrite (add_p_yes (sw_fee v)) by lia. cbn [bind]. rewrite (add_p_yes (sw_in v)) by lia. cbn [bind].
    rewrite (add_p_yes (sw_out v)) by lia. cbn [bind]. pose proof (add_fee_keeps _ _ _ _ _ AF) as (K1 & K2 & K3 & K4 & K5).
    assert (RM : rm0 <> 0) by lia. cbn [p_price p_set_price].
    destruct (Z.eqb_spec (sr_next r) lim) as [Q|Q]; [exfalso; apply NL; done|]. cbn [andb].
    assert (LI : li = Some (t, init) /\ sl = tprice t) by (destruct CL as [(-> & -> & X)|(-> & -> & X)]; [done|lia]). destruct LI as [-> LI].
    unfold pool_update_tick in UT |- *.
    assert (ST' : exists b : bool, is_enough_amount_to_change_price rm0 (sr_next r) (p_liq (sw_pool v)) (ft_fee (pk_tier k)) true false = Ok b /\
      (if init then exists t0 t' q, st_ticks s !! (k, t) = Some t0 /\ tk = TickInitialized t0 /\ tick_cross t0 (p_set_price p0 (sr_next r)) now = Ok (t', q) /\
         p1 = p_set_tick q (t_index t0) /\ tk' = TickInitialized t' /\ add = 0 /\ rm1 = rm0 /\ c = true
       else tk = TickUninitialized t /\ p1 = p_set_tick (p_set_price p0 (sr_next r)) t /\ tk' = tk /\ add = 0 /\ rm1 = rm0 /\ c = false)).
    { destruct init; cbn in LT; [destruct LT as (t0 & LT & ->)|subst tk]; cbn [orb] in UT; rewrite NX, Z.eqb_refl in UT; cbn [negb] in UT;
        inv_bind UT as en EN; cbn [p_liq p_set_price] in EN; rewrite K1 in EN; exists en; rewrite NX; (split; [exact EN|]); cbn [orb andb] in UT.
      - inv_bind UT as [[[[[q tk1] tot] rm2] cr] ix] E2. inv_bind E2 as [t' q'] EC. apply (proj1 (unwrap_ok _ _)) in EC. apply Ok_inj in E2. injection E2 as <- <- <- <- <- <-.
        apply Ok_inj in UT. injection UT as <- <- <- <- <-. exists t0, t', q'. rewrite ?NX in EC. repeat split; done.
      - cbn [bind] in UT. apply Ok_inj in UT. injection UT as <- <- <- <- <-. rewrite ?NX. repeat split; done. }
    destruct ST' as (b & EN & CS).
    destruct (enough_less rm0 (a - (sr_in r + sr_fee r)) (sr_next r) (p_liq (sw_pool v)) (ft_fee (pk_tier k)) b) as [b' EN']; [rewrite NX; exact PS|exact HLQ|lia|lia|lia|exact EN|].
    assert (TLb : forall q, p_tick q = p_tick p1 -> (end_tick false k <=? p_tick q) = false) by (intros q ->; apply Z.leb_gt; exact TL).
    destruct init.
    + destruct CS as (t0 & t' & q & LK & -> & CX & -> & -> & -> & -> & ->). unfold get_tick. rewrite LK. cbn [bind orb].
      rewrite <- NX, Z.eqb_refl. cbn [negb]. cbn [p_liq p_set_price]. rewrite K1, EN'. cbn [bind negb orb andb]. rewrite CX. cbn [unwrap bind].
      rewrite add_p_yes by lia. cbn [bind]. rewrite TLb by done.
      eexists. split; [reflexivity|]. cbn [sw_remaining]. destruct (Z.eq_dec (a - (sr_in r + sr_fee r)) 0) as [Q0|Q0]; [left; lia|right].
      split; [|cbn; lia]. cbn. f_equal; lia.
    + destruct CS as (-> & -> & -> & -> & -> & ->). cbn [bind orb].
      rewrite <- NX, Z.eqb_refl. cbn [negb]. cbn [p_liq p_set_price]. rewrite K1, EN'. cbn [bind negb orb andb].
      rewrite add_p_yes by lia. cbn [bind]. rewrite TLb by done.
      eexists. split; [reflexivity|]. cbn [sw_remaining]. destruct (Z.eq_dec (a - (sr_in r + sr_fee r)) 0) as [Q0|Q0]; [left; lia|right].
      split; [|cbn; lia]. cbn. f_equal; lia.
  - (* the smaller offer ends here *)
    destruct (add_fee_fwd (sw_pool v) (sr_fee r1) false (cf_protocol_fee (st_config s)) (proj1 HLQ) HF ltac:(lia)) as (q1 & EA & PC); [lia|exact T7|lia|].
    rewrite EA. cbn [bind]. rewrite (add_p_yes (sw_fee v)) by lia. cbn [bind]. rewrite (add_p_yes (sw_in v)) by lia. cbn [bind].
    rewrite (add_p_yes (sw_out v)) by lia. cbn [bind].
    replace (a - (sr_in r1 + sr_fee r1)) with 0 by lia. cbn [Z.eqb negb]. rewrite andb_false_r.
    assert (TK : exists tk0, (match li with Some (i, true) => let* t := get_tick s k i in Ok (TickInitialized t) | Some (i, false) => Ok (TickUninitialized i) | None => Ok NoTick end) = Ok tk0).
    { destruct li as [[j []]|]; cbn in LT |- *; eauto. destruct LT as (t0 & LT & _). unfold get_tick. rewrite LT. cbn. eauto. }
    destruct TK as [tk0 TK]. rewrite TK. cbn [bind]. unfold pool_update_tick. rewrite (proj2 (Z.eqb_neq sl (sr_next r1))) by lia. cbn [negb]. rewrite orb_true_r.
    destruct (get_tick_ok (sr_next r1) (spacing k)) as (j & TJ & EJ); [unfold price_ok in *; lia|lia|]. fold (spacing k). rewrite EJ. cbn [bind].
    rewrite add_p_yes by lia. cbn [bind]. cbn [p_tick p_set_tick].
    rewrite (proj2 (Z.leb_gt (end_tick false k) (spacing k * (j / spacing k)))).
    2:{ unfold end_tick. rewrite (get_max_top _ (proj1 HS)). destruct TJ as (J1 & J2 & J3). pose proof (Z.mul_div_le j (spacing k) ltac:(lia)).
        assert (j < t); [|lia]. destruct (Z.lt_ge_cases j t) as [|GE]; [done|exfalso]. destruct TL1 as [TLR _]. pose proof (tprice_le t j ltac:(lia) GE ltac:(lia)). lia. }
    eexists. split; [reflexivity|]. left. reflexivity.
Qed.

(** ** The loop *)
Lemma loop_less s now k lim gas : store_geo s k -> 0 <= cf_protocol_fee (st_config s) <= PCT_ONE -> ft_fee (pk_tier k) <= 99 * 10 ^ 10 ->
  forall v a P0 A, loop_inv k false lim v -> 0 < a < sw_remaining v -> totals k P0 A (with_rest v a) -> A <= 10 ^ 29 ->
  forall v', swap_loop gas s now k false true lim (end_tick false k) v = Ok v' ->
  exists w', swap_loop gas s now k false true lim (end_tick false k) (with_rest v a) = Ok w'.
Proof.
  intros G HF HE. induction gas as [|g IH]; intros v a P0 A I HA T H29 v' H; cbn [swap_loop] in *; rewrite (proj2 (Z.eqb_neq (sw_remaining v) 0)) in H by lia; [done|].
  cbn [sw_remaining with_rest]. rewrite (proj2 (Z.eqb_neq a 0)) by lia. inv_bind H as v1 E1.
  destruct (iter_less s now k lim v v1 a P0 A G I HA T H29 HF HE E1) as (w1 & W1 & C). rewrite W1. cbn [bind].
  destruct C as [Z0|[W2 B]].
  - exists w1. destruct g; cbn [swap_loop]; by rewrite Z0.
  - assert (NR : sw_remaining v <> 0) by lia. pose proof (loop_step _ _ _ _ _ _ _ _ G I NR E1) as [_ I1].
    assert (IW : loop_inv k false lim (with_rest v a)).
    { destruct I as [I1' I2 I3 I4 I5]. constructor; cbn; [exact I1'|intros _; apply I2; by left|intros _; apply I3; lia|exact I4|lia]. }
    destruct (iter_rising_keeps s now k lim (with_rest v a) w1 P0 A G IW) as [T1 _]; [cbn; lia|exact T|exact HF|exact W1|].
    rewrite W2 in T1 |- *. exact (IH v1 (sw_remaining w1) P0 A I1 B T1 H29 v' H).
Qed.

(** * C113 *)
Theorem C113_smaller_offer_partial e i s k p a b lim r :
  reachable s -> st_pools s !! k = Some p -> cf_protocol_fee (st_config s) <= 10 ^ 12 ->
  (* the fee of the pool is at most 99 percent *)
  ft_fee (pk_tier k) <= 99 * 10 ^ 10 ->
  execute e i s (Swap k false b true lim) = Ok r ->
  0 < a < b -> a <= 10 ^ 29 -> p_proty p + a < 2 ^ 128 ->
  (exists s' ms out, execute e i s (Swap k false a true lim) = Ok (s', ms, [("amount_in"%string, a); ("amount_out"%string, out)]) /\ 0 < out) \/
  execute e i s (Swap k false a true lim) = Err NoGainSwap.
Proof.
  intros R E PF FE H HA H29 ROOM. change (10 ^ 12) with PCT_ONE in PF. change (2 ^ 128) with (U128MAX + 1) in *.
  pose proof (reachable_ereach _ R) as ER. pose proof (ereach_store_geo _ _ _ ER E) as G. pose proof (ereach_geo _ ER _ _ E) as PG. destruct (sg_sp _ _ G) as [S1 S2]. pose proof (sg_fee _ _ G) as SF.
  pose proof (co_protocol _ (ereach_config _ ER)) as PF0. pose proof (ereach_prot _ ER _ _ E) as [_ PR].
  pose proof PG as [PG' PL]. pose proof PG' as (WL & WP & _). pose proof (legal_price_range _ _ WL) as CRG.
  unfold execute in *. destruct (env_typed e i) eqn:T; [|done]. destruct (msg_typed (Swap k false b true lim)) eqn:M; [|done]. cbn [andb dispatch] in *.
  assert (M2 : msg_typed (Swap k false a true lim) = true).
  { cbn [msg_typed] in *. rewrite !andb_true_iff in *. unfold u128_ok in *. destruct M as [[MK MB] ML]. repeat split; try done. apply in_range_spec in MB. apply in_range_spec. lia. }
  assert (HB : b <= U128MAX). { cbn [msg_typed] in M. rewrite !andb_true_iff in M. destruct M as [[_ MB] _]. apply in_range_spec in MB. lia. }
  rewrite M2. unfold swap, swap_internal in *. inv_bind H as [[s1 ms1] c1] H1. clear H. inv_bind H1 as c0 CB. inv_bind H1 as s2 US. inv_bind H1 as m0 EP. clear H1 US.
  assert (A0 : 0 <= b) by lia. pose proof (calculate_swap_exact_in _ _ _ _ _ _ _ _ A0 CB) as CI. rewrite CI in EP.
  unfold calculate_swap in CB. rewrite (proj2 (Z.eqb_neq b 0)) in CB by lia. unfold get_pool in CB. rewrite E in CB. cbn [bind] in CB.
  destruct ((lim <=? p_price p) || _) eqn:LB; [done|]. inv_bind CB as v CV. clear CB.
  pose proof LB as LB'. apply orb_false_iff in LB'. destruct LB' as [L1 L2]. apply Z.leb_gt in L1.
  destruct (loop_less s (e_millis e) k lim (e_gas e) G ltac:(lia) FE (mkSwapState p b 0 0 0 []) a (p_price p) a) with (v' := v) as [w LR];
    [apply loop_start; [exact PG|lia|exact L1]|exact HA| |exact H29|exact CV|].
  { constructor; unfold counter; cbn; try lia. }
  change (swap_loop (e_gas e) s (e_millis e) k false true lim (end_tick false k) (mkSwapState p a 0 0 0 []) = Ok w) in LR.
  assert (CA : calculate_swap (e_gas e) s (e_millis e) k false a true lim =
    if sw_out w =? 0 then Err NoGainSwap else Ok (mkCalc (sw_in w) (sw_out w) (p_price p) (p_price (sw_pool w)) (sw_fee w) (sw_pool w) (sw_ticks w))).
  { unfold calculate_swap. rewrite (proj2 (Z.eqb_neq a 0)) by lia. unfold get_pool. rewrite E. cbn [bind]. rewrite LB. change (get_max_tick (spacing k)) with (end_tick false k).
    rewrite LR. reflexivity. }
  rewrite CA. destruct (Z.eqb_spec (sw_out w) 0) as [|O]; [right; reflexivity|]. cbn [bind cr_in cr_out cr_ticks cr_pool].
  assert (A1 : 0 <= a) by lia. pose proof (calculate_swap_exact_in _ _ _ _ _ _ _ _ A1 CA) as CI2. cbn [cr_in] in CI2.
  destruct (calculate_swap_frame _ _ _ _ _ _ _ _ _ CA) as (p' & _ & _ & _ & _ & F & _). cbn [cr_ticks] in F.
  destruct (update_ticks_total s k (sw_ticks w)) as [s3 ->]; [apply crossed_exists; [by apply ereach_indexed|done]|]. cbn [bind].
  destruct (calculate_swap_out _ _ _ _ _ _ _ _ _ CA) as [V _]. cbn [cr_out] in V.
  destruct (transfer_from_total e i (pk_y k) a A1) as [m2 E2].
  { unfold can_pay, asset_transfer_from, attached in *. destruct (e_addr_ok e (pk_y k)); [by left|right]. rewrite (proj2 (Z.eqb_neq b 0)) in EP by lia.
    destruct (List.find _ _) as [co|]; [|done]. destruct (Z.leb_spec b (c_amount co)); [lia|done]. }
  rewrite CI2, E2. cbn [bind]. left. eexists _, _, _. split; [reflexivity|]. cbn [cr_out]. lia.
Qed.

(** ** Asking for less: the price falls *)
Lemma from_fee_less L x y g : 0 < L -> 0 <= x <= y -> from_fee L y = Ok g -> exists g', from_fee L x = Ok g'.
Proof.
  intros HL HX H. unfold from_fee in *. inv_bind H as a EA. apply ck_ok in EA. destruct EA as [-> EA]. inv_bind H as b EB. apply ck_ok in EB. destruct EB as [-> EB].
  inv_bind H as q EQ. apply cdiv_ok in EQ. destruct EQ as [_ ->]. apply ck_ok in H. destruct H as [_ H].
  assert (M1 : 0 <= x * FG_ONE <= y * FG_ONE) by (unfold FG_ONE; lia). assert (M2 : 0 <= x * FG_ONE * LIQ_ONE <= y * FG_ONE * LIQ_ONE) by (unfold LIQ_ONE; lia).
  rewrite ck_yes by lia. cbn [bind]. rewrite ck_yes by lia. cbn [bind]. unfold cdiv. rewrite (proj2 (Z.eqb_neq L 0)) by lia. cbn [bind].
  eexists. apply ck_yes. split; [apply Z.div_pos; lia|]. etransitivity; [apply Z.div_le_mono; [exact HL|apply M2]|apply H].
Qed.
Lemma add_fee_less p a b d f q : 0 <= p_liq p -> 0 <= f -> 0 <= a <= b -> b <= U128MAX -> 0 <= p_protx p -> 0 <= p_proty p -> add_fee p b d f = Ok q -> exists q', add_fee p a d f = Ok q'.
Proof.
  intros HL HF HA HB CX CY H. apply add_fee_inv in H. destruct H as (pr & pf & E & -> & N & H). unfold big_mul_up in E. apply ckp_ok in E. destruct E as [-> E].
  pose proof (ceil_spec (b * f) PCT_ONE ltac:(reflexivity)) as CB. pose proof (ceil_spec (a * f) PCT_ONE ltac:(reflexivity)) as CA.
  unfold add_fee, big_mul_up. set (x := (b * f + (PCT_ONE - 1)) / PCT_ONE) in *. set (y := (a * f + (PCT_ONE - 1)) / PCT_ONE) in *. clearbody x y.
  assert (M : 0 <= a * f <= b * f) by (split; [apply Z.mul_nonneg_nonneg; lia|apply Z.mul_le_mono_nonneg_r; lia]).
  assert (Y : 0 <= y <= x) by (unfold PCT_ONE in *; lia).
  assert (PFE : 0 <= a - y <= b - x).
  { destruct (Z.le_gt_cases f PCT_ONE) as [FP|FP].
    - assert (0 <= a * (PCT_ONE - f) <= b * (PCT_ONE - f)) by (split; [apply Z.mul_nonneg_nonneg; lia|apply Z.mul_le_mono_nonneg_r; lia]). unfold PCT_ONE in *. lia.
    - assert (b = 0) by (unfold PCT_ONE in *; nia). assert (a = 0) by lia. subst a b. unfold PCT_ONE in *. lia. }
  rewrite ckp_yes by lia. cbn [bind]. unfold sub_p. rewrite ckp_yes by lia. cbn [bind].
  destruct (((a - y =? 0) && (y =? 0)) || (p_liq p =? 0)) eqn:B; [eauto|]. apply orb_false_iff in B. destruct B as [B1 B2]. apply Z.eqb_neq in B2.
  destruct H as [[_ [[Q1 Q2]|L0]]|(g & _ & FF & H)]; [|done|].
  { exfalso. assert (a = 0) by lia. subst a. assert (y = 0) by lia. subst y. done. }
  destruct (from_fee_less (p_liq p) (a - y) (b - x) g ltac:(lia) PFE FF) as [g' ->]. cbn [bind].
  destruct d; destruct H as [H _]; rewrite add_p_yes by lia; cbn [bind]; eauto.
Qed.
Lemma add_fee_protx p a d f q : 0 <= a -> 0 <= f -> 0 <= p_protx p -> 0 <= p_proty p -> add_fee p a d f = Ok q -> 0 <= p_protx q /\ 0 <= p_proty q.
Proof.
  intros HA HF CX CY H. apply add_fee_inv in H. destruct H as (pr & pf & E & -> & N & H). unfold big_mul_up in E. apply ckp_ok in E. destruct E as [-> E].
  destruct H as [[-> _]|(g & _ & _ & H)]; [done|]. destruct d; destruct H as [_ ->]; cbn; lia.
Qed.

Lemma enough_ask_less rem a P L fee b : price_ok P -> liq_ok L -> 0 <= a <= rem -> rem <= U128MAX ->
  is_enough_amount_to_change_price rem P L fee false true = Ok b -> exists b', is_enough_amount_to_change_price a P L fee false true = Ok b'.
Proof.
  unfold liq_ok. intros HP HL HA HR H. unfold is_enough_amount_to_change_price in *. destruct (Z.eqb_spec L 0) as [|L0]; [eauto|].
  unfold get_next_sqrt_price_from_output in *. inv_bind H as n EN.
  pose proof (proj1 (next_y_out_iff P L rem HP ltac:(lia) ltac:(lia)) (ex_intro _ n EN)) as Y.
  destruct (proj2 (next_y_out_iff P L a HP ltac:(lia) ltac:(lia))) as [m EM]; [unfold E30 in *; lia|]. rewrite EM. cbn [bind]. eauto.
Qed.

Lemma step_ask_less cur target L b a fee r : price_ok cur -> price_ok target -> target <= cur -> liq_ok L ->
  0 < a <= b -> b <= U128MAX -> 0 <= fee <= PCT_ONE ->
  compute_swap_step cur target L b false fee = Ok r ->
  exists r1, compute_swap_step cur target L a false fee = Ok r1 /\ 0 <= sr_in r1 <= sr_in r /\ 0 <= sr_fee r1 <= sr_fee r /\ sr_fee r1 <= sr_in r1 /\ sr_out r1 <= sr_out r /\ 0 <= sr_out r1 <= a /\
    target <= sr_next r <= sr_next r1 /\ sr_next r1 <= cur /\
    (r1 = r /\ sr_next r = target \/ L <> 0 /\ sr_out r1 = a).
Proof.
  intros HC HT LT HL HA HM HF ST.
  destruct (step_out_fwd true cur target L a fee HC HT LT HL ltac:(lia) HF) as (r1 & E1 & P1 & A1 & A2 & C1 & _ & F1 & O1). cbn [ahead] in A1, A2.
  destruct (step_out_fwd true cur target L b fee HC HT LT HL ltac:(lia) HF) as (r2 & E2 & P2 & A3 & A4 & C2 & _ & F2 & O2). cbn [ahead] in A3, A4. rewrite ST in E2. apply Ok_inj in E2. subst r2.
  exists r1. split; [exact E1|]. destruct (Z.eq_dec L 0) as [->|L0].
  { unfold compute_swap_step in *. cbn in ST, E1. apply Ok_inj in ST, E1. subst r r1. cbn in *. repeat split; try lia. left. done. }
  unfold liq_ok, price_ok in *. assert (LP : 0 < L) by lia. assert (CP : 0 <= cur) by (unfold MIN_SQRT_PRICE in *; lia). assert (M0 : 0 < MIN_SQRT_PRICE) by reflexivity.
  pose proof (step_inv _ _ _ _ _ _ _ L0 ST) as [N I (o & O & OE) F]. pose proof (step_inv _ _ _ _ _ _ _ L0 E1) as [N' I' (o' & O' & OE') F']. rewrite (proj2 (Z.leb_le _ _) LT) in *.
  destruct N as [[? _]|(_ & co & CO & N)]; [done|]. destruct N' as [[? _]|(_ & co' & CO' & N')]; [done|]. rewrite CO in CO'. apply Ok_inj in CO'. subst co'.
  destruct F as [[? _]|[_ F]]; [done|]. destruct F' as [[? _]|[_ F']]; [done|].
  assert (NN : sr_next r <= sr_next r1 /\ (co <= a \/ sr_out r1 = a)).
  { destruct N' as [[NL' N']|[NL' N']].
    - destruct N as [[NL N]|[NL N]]; [lia|lia].
    - pose proof (partial_out_down cur L a (sr_next r1) o' CP LP ltac:(lia) N' O'). split; [|right; lia].
      destruct N as [[NL N]|[NL N]]; [lia|]. exact (nout_down_mono cur L a b _ _ CP LP ltac:(lia) N' N). }
  destruct NN as [NN OC].
  assert (II : sr_in r1 <= sr_in r) by (eapply (delta_in_farther true cur (sr_next r1) (sr_next r) L); [..|exact I'|exact I]; cbn; lia).
  pose proof (fee_mono (sr_in r1) (sr_in r) fee (sr_fee r1) (sr_fee r) ltac:(lia) II F' F).
  assert (OO : o' <= o) by (eapply (delta_out_farther cur (sr_next r1) (sr_next r) L); [lia|lia|exact O'|exact O]).
  repeat split; try lia. destruct OC as [OC|OC]; [left|right; done].
  destruct N' as [[NL' N']|[NL' N']]; [|lia]. destruct N as [[NL N]|[NL N]]; [|lia]. rewrite N, N' in *.
  rewrite I in I'. apply Ok_inj in I'. rewrite O in O'. apply Ok_inj in O'. rewrite CO in O. apply Ok_inj in O. split; [|done].
  rewrite <- I', F in F'. apply Ok_inj in F'. destruct r as [n1 i1 o1 f1], r1 as [n2 i2 o2 f2]. cbn in *. f_equal; lia.
Qed.

Lemma tick_mono sp p q c c' : 1 <= sp -> price_ok p -> price_ok q -> p <= q -> get_tick_at_sqrt_price p sp = Ok c -> get_tick_at_sqrt_price q sp = Ok c' -> c <= c'.
Proof.
  intros S P Q PQ C C'. destruct (get_tick_ok p sp P S) as (i & (I1 & I2 & I3) & E). destruct (get_tick_ok q sp Q S) as (j & (J1 & J2 & J3) & E').
  rewrite C in E. rewrite C' in E'. apply Ok_inj in E, E'. subst c c'. assert (i <= j).
  { destruct (Z.le_gt_cases i j) as [|G]; [done|exfalso]. specialize (J3 ltac:(lia)). pose proof (tprice_le (j + 1) i ltac:(lia) ltac:(lia) ltac:(lia)). lia. }
  apply Z.mul_le_mono_nonneg_l; [lia|]. apply Z.div_le_mono; lia.
Qed.

Record atotals (w : swap_state) : Prop := {
  at_fee : 0 <= sw_fee w <= sw_in w;
  at_out : 0 <= sw_out w;
  at_px : 0 <= p_protx (sw_pool w);
  at_py : 0 <= p_proty (sw_pool w)
}.

Lemma iter_ask_keeps s now k lim v v' : store_geo s k -> loop_inv k true lim v -> sw_remaining v <> 0 ->
  atotals v -> 0 <= cf_protocol_fee (st_config s) ->
  swap_iter s now k true false lim (end_tick true k) v = Ok v' -> atotals v' /\ sw_in v <= sw_in v'.
Proof.
  intros G I NR [T1 T2 T3 T4] HF H. pose proof (loop_pre _ _ _ _ _ G I NR) as PRE.
  apply swap_iter_inv in H. destruct H as (sl & li & r & p0 & tk & p1 & tk' & add & rm0 & rm1 & c & CL & ST & E0 & R0 & AF & NL & LT & UT & -> & TL & BI & BO).
  assert (NN : 0 <= sr_in r /\ 0 <= sr_out r /\ 0 <= sr_fee r).
  { destruct PRE as [U HS HFE HLQ HW _ HLim HRem]. pose proof HW as (WL & WP & _). fold (spacing k) in CL.
    apply closer_limit in CL; [|done|lia|done]. destruct CL as (t & init & TG & CL). pose proof TG as (TL1 & TI & TC1 & _).
    pose proof (legal_price_range _ _ TL1) as TR. pose proof (legal_price_le _ _ _ TL1 WL TC1) as TLE. pose proof (legal_price_range _ _ (top_legal (spacing k) ltac:(lia))) as XR. pose proof (legal_price_range _ _ WL) as CRG.
    assert (SA : step_args (p_price (sw_pool v)) sl (p_liq (sw_pool v)) (sw_remaining v) (ft_fee (pk_tier k))).
    { unfold step_args. change (2 ^ 128) with (U128MAX + 1). change 15258932000000000000 with MIN_SQRT_PRICE.
      change 65535383934512647000000000000 with MAX_SQRT_PRICE. change 1000000000000 with PCT_ONE. destruct CL as [(_ & -> & X)|(_ & -> & X)]; repeat split; lia. }
    pose proof (C03_step_bounds_partial _ _ _ _ _ _ _ SA ST) as (_ & _ & _ & _ & _ & N1 & N2 & N3 & _). done. }
  assert (AD : add = 0) by (destruct (update_tick_add _ _ _ _ _ _ _ _ _ _ _ _ _ _ _ UT) as [->|(_ & ? & _)]; done). subst add.
  destruct (add_fee_protx (sw_pool v) (sr_fee r) true (cf_protocol_fee (st_config s)) p0 ltac:(lia) HF T3 T4 AF) as [PX PY].
  assert (PP : 0 <= p_protx p1 /\ 0 <= p_proty p1).
  { unfold pool_update_tick in UT. destruct (_ || _); [inv_bind UT as j EJ; apply Ok_inj in UT; injection UT as <- <- <- <-; cbn; done|].
    inv_bind UT as en EN. inv_bind UT as [[[[[q tk1] tot] rm2] cr] ix] E2. apply Ok_inj in UT. injection UT as <- <- _ <- <-. cbn.
    destruct tk as [|t0|j]; [done| |apply Ok_inj in E2; injection E2 as <- <- <- <- <-; cbn; done].
    destruct (negb true || en); [inv_bind E2 as [t' q'] EC; apply (proj1 (unwrap_ok _ _)) in EC; pose proof (cross_counter _ _ _ _ _ true EC) as [CT _]; pose proof (cross_counter _ _ _ _ _ false EC) as [CF _];
      apply Ok_inj in E2; injection E2 as <- <- <- <- <-; unfold counter in *; rewrite CT, CF; cbn; done|].
    destruct (negb (rm0 =? 0)); apply Ok_inj in E2; injection E2 as <- <- <- <- <-; cbn; done. }
  split; [constructor; cbn; [lia|lia|apply PP|apply PP]|cbn; lia].
Qed.

Lemma iter_ask_less s now k lim v v' a : store_geo s k -> loop_inv k true lim v -> 0 < a < sw_remaining v ->
  atotals v -> 0 <= cf_protocol_fee (st_config s) ->
  swap_iter s now k true false lim (end_tick true k) v = Ok v' ->
  exists w', swap_iter s now k true false lim (end_tick true k) (with_rest v a) = Ok w' /\ sw_in w' <= sw_in v' /\
    (sw_remaining w' = 0 \/ w' = with_rest v' (sw_remaining w') /\ 0 < sw_remaining w' < sw_remaining v').
Proof.
  intros G I HA T HF H. assert (NR : sw_remaining v <> 0) by lia. pose proof (loop_pre _ _ _ _ _ G I NR) as PRE. destruct PRE as [U HS HFE HLQ HW _ HLim HRem].
  destruct T as [T1 T2 T3 T4]. unfold with_rest in *. cbn [sw_pool sw_remaining sw_in sw_out sw_fee sw_ticks] in *. pose proof HW as (WL & WP & _).
  pose proof (legal_price_range _ _ WL) as CRG. pose proof (legal_price_range _ _ (top_legal (spacing k) ltac:(lia))) as XR.
  assert (PW : price_ok (p_price (sw_pool v))) by (unfold price_ok; lia).
  apply swap_iter_inv in H. destruct H as (sl & li & r & p0 & tk & p1 & tk' & add & rm0 & rm1 & c & CL & ST & E0 & R0 & AF & NL & LT & UT & -> & TL & BI & BO).
  unfold swap_iter. cbn [sw_pool sw_remaining sw_in sw_out sw_fee sw_ticks]. fold (spacing k) in *. rewrite CL. cbn [bind].
  apply closer_limit in CL; [|done|lia|done]. destruct CL as (t & init & TG & CL). pose proof TG as (TL1 & TI & TC1 & TC2 & TC3).
  pose proof (legal_price_range _ _ TL1) as TR. pose proof (legal_price_le _ _ _ TL1 WL TC1) as TLE.
  assert (SLR : tprice t <= sl <= p_price (sw_pool v)) by (destruct CL as [(_ & -> & X)|(_ & -> & X)]; lia).
  assert (PS : price_ok sl) by (unfold price_ok; unfold price_ok in PW; lia).
  destruct (step_ask_less _ _ _ (sw_remaining v) a (ft_fee (pk_tier k)) _ PW PS (proj2 SLR) HLQ ltac:(lia) ltac:(lia) ltac:(lia) ST) as (r1 & ER & B1 & B2 & B3 & B4 & B5 & B6 & B7 & RC).
  assert (AD : add = 0) by (destruct (update_tick_add _ _ _ _ _ _ _ _ _ _ _ _ _ _ _ UT) as [->|(_ & ? & _)]; done). subst add.
  pose proof (add_fee_keeps _ _ _ _ _ AF) as (K1 & K2 & K3 & K4 & K5).
  assert (NP : price_ok (sr_next r)) by (unfold price_ok in *; lia). assert (NP1 : price_ok (sr_next r1)) by (unfold price_ok in *; lia).
  destruct (step_out_fwd true _ _ _ (sw_remaining v) (ft_fee (pk_tier k)) PW PS (proj2 SLR) HLQ ltac:(lia) ltac:(lia)) as (r2 & E2 & _ & _ & _ & V1 & _ & V2 & V3). rewrite ST in E2. apply Ok_inj in E2. subst r2.
  rewrite ER. cbn [bind].
  rewrite (add_p_yes (sr_in r1) (sr_fee r1)) by lia. cbn [bind]. rewrite (sub_e_yes ESub a) by lia. cbn [bind].
  destruct (add_fee_less (sw_pool v) (sr_fee r1) (sr_fee r) true (cf_protocol_fee (st_config s)) p0 (proj1 HLQ) HF ltac:(lia) ltac:(lia) T3 T4 AF) as [q0 AQ].
  pose proof (add_fee_keeps _ _ _ _ _ AQ) as (Q1 & Q2 & Q3 & Q4 & Q5).
  rewrite AQ. cbn [bind]. rewrite (add_p_yes (sw_fee v)) by lia. cbn [bind]. rewrite (add_p_yes (sw_in v)) by lia. cbn [bind].
  rewrite (add_p_yes (sw_out v)) by lia. cbn [bind p_price p_set_price].
  assert (LC : (sr_next r1 =? lim) && negb (a - sr_out r1 =? 0) = false).
  { destruct RC as [[-> NX]|[L0 OA]]; [|replace (a - sr_out r1) with 0 by lia; apply andb_false_r].
    destruct (Z.eqb_spec (sr_next r) lim) as [Q|Q]; [|done]. exfalso. apply NL. split; [done|lia]. }
  rewrite LC.
  assert (TK : (match li with Some (i, true) => let* t := get_tick s k i in Ok (TickInitialized t) | Some (i, false) => Ok (TickUninitialized i) | None => Ok NoTick end) = Ok tk).
  { destruct li as [[j []]|]; cbn in LT |- *; [|by subst..]. destruct LT as (t0 & LT & ->). unfold get_tick. rewrite LT. reflexivity. }
  rewrite TK. cbn [bind].
  assert (FIN : forall q m tk2 cr, p_tick p1 <= p_tick q -> 
    (m = 0 \/ (r1 = r /\ p1 = q /\ m = a - sr_out r /\ rm1 = rm0 /\ tk2 = tk' /\ cr = c)) ->
    exists w', (let* tin := add_p (sw_in v + (sr_in r1 + sr_fee r1)) 0 in
       if p_tick q <=? end_tick true k then Err TickLimitReached
       else Ok (mkSwapState q m tin (sw_out v + sr_out r1) (sw_fee v + sr_fee r1) (match tk2 with TickInitialized t => if (cr : bool) then sw_ticks v ++ [t] else sw_ticks v | _ => sw_ticks v end))) = Ok w' /\
      sw_in w' <= sw_in v + (sr_in r + sr_fee r) + 0 /\
      (sw_remaining w' = 0 \/ w' = mkSwapState p1 (sw_remaining w') (sw_in v + (sr_in r + sr_fee r) + 0) (sw_out v + sr_out r) (sw_fee v + sr_fee r)
          (match tk' with TickInitialized t => if c then sw_ticks v ++ [t] else sw_ticks v | _ => sw_ticks v end) /\ 0 < sw_remaining w' < rm1)).
  { intros q m tk2 cr TQ MQ. rewrite add_p_yes by lia. cbn [bind]. rewrite (proj2 (Z.leb_gt (p_tick q) (end_tick true k))) by lia.
    eexists. split; [reflexivity|]. cbn [sw_in sw_remaining]. split; [lia|]. destruct (Z.eq_dec m 0) as [M0|M0]; [by left|right].
    destruct MQ as [?|(-> & -> & -> & -> & -> & ->)]; [done|]. split; [done|]. lia. }
  cbn [sw_pool sw_remaining sw_in sw_out sw_fee sw_ticks].
  unfold pool_update_tick.
  destruct (get_tick_ok (sr_next r1) (spacing k) NP1 (proj1 HS)) as (j1 & _ & GJ). fold (spacing k).
  destruct ((match tk with NoTick => true | _ => false end) || negb (sl =? sr_next r1)) eqn:B.
  - (* inside the range, or at the limit *)
    rewrite GJ. cbn [bind].
    assert (RZ : a - sr_out r1 = 0).
    { destruct RC as [[-> NX]|[L0 OA]]; [|lia]. exfalso. rewrite NX, Z.eqb_refl in B. cbn in B. rewrite orb_false_r in B.
      destruct CL as [(-> & -> & _)|(-> & -> & _)]; [cbn in LT; destruct init; [destruct LT as (? & _ & ->)|subst tk]; done|]. apply NL. split; [done|lia]. }
    refine (FIN _ _ tk false _ (or_introl RZ)). cbn [p_tick p_set_tick].
    unfold pool_update_tick in UT. destruct ((match tk with NoTick => true | _ => false end) || negb (sl =? sr_next r)) eqn:BV.
    + inv_bind UT as jv EV. apply Ok_inj in UT. injection UT as <- <- <- <-. cbn [p_tick p_set_tick]. exact (tick_mono _ _ _ _ _ (proj1 HS) NP NP1 ltac:(lia) EV GJ).
    + apply orb_false_iff in BV. destruct BV as [BV1 BV2]. apply negb_false_iff, Z.eqb_eq in BV2.
      assert (LI : li = Some (t, init) /\ sl = tprice t) by (destruct CL as [(-> & -> & X)|(-> & -> & X)]; [done|cbn in LT; subst tk; done]). destruct LI as [-> LI].
      assert (TJ : t <= spacing k * (j1 / spacing k)).
      { destruct (get_tick_ok (sr_next r1) (spacing k) NP1 (proj1 HS)) as (j2 & (J1 & J2 & J3) & GJ'). rewrite GJ in GJ'. apply Ok_inj in GJ'. rewrite GJ'.
        destruct TL1 as [TLR TLM]. assert (t <= j2).
        { destruct (Z.le_gt_cases t j2) as [|GT]; [done|exfalso]. specialize (J3 ltac:(lia)). pose proof (tprice_le (j2 + 1) t ltac:(lia) ltac:(lia) ltac:(lia)). lia. }
        assert (t = spacing k * (t / spacing k)) by (pose proof (Z.div_mod t (spacing k) ltac:(lia)); lia). rewrite H0. apply Z.mul_le_mono_nonneg_l; [lia|]. apply Z.div_le_mono; lia. }
      inv_bind UT as en EN. inv_bind UT as [[[[[q tk1] tot] rm2] cr] ix] E2. apply Ok_inj in UT. injection UT as <- <- _ <- <-. cbn [p_tick p_set_tick].
      assert (IXE : ix = t).
      { destruct init; cbn in LT.
        - destruct LT as (t0 & LK & ->). pose proof (sg_index _ _ G _ _ _ LK) as IX. destruct (negb true || en); [inv_bind E2 as [t' q'] EC; apply Ok_inj in E2; injection E2 as <- <- <- <- <- <-; done|].
          destruct (negb (rm0 =? 0)); apply Ok_inj in E2; injection E2 as <- <- <- <- <- <-; done.
        - subst tk. apply Ok_inj in E2. injection E2 as <- <- <- <- <- <-. done. }
      subst ix. change (ft_spacing (pk_tier k)) with (spacing k). destruct en; lia.
  - (* at the tick *)
    apply orb_false_iff in B. destruct B as [BV1 BV2]. apply negb_false_iff, Z.eqb_eq in BV2.
    assert (LI : li = Some (t, init) /\ sl = tprice t) by (destruct CL as [(-> & -> & X)|(-> & -> & X)]; [done|cbn in LT; subst tk; done]). destruct LI as [-> LI].
    assert (NX : sr_next r = sl) by lia.
    unfold pool_update_tick in UT. rewrite BV1, NX, Z.eqb_refl in UT. cbn [negb orb] in UT. inv_bind UT as en EN. cbn [p_liq p_set_price] in EN. rewrite K1 in EN.
    destruct (enough_ask_less rm0 (a - sr_out r1) sl (p_liq (sw_pool v)) (ft_fee (pk_tier k)) en) as [en1 EN1]; [exact PS|exact HLQ|destruct RC as [[-> _]|[_ ->]]; lia|lia|exact EN|].
    rewrite <- BV2. cbn [p_liq p_set_price]. rewrite Q1, EN1. cbn [bind].
    assert (MS : MIN_SQRT_PRICE <= sl) by (unfold price_ok in PS; lia).
    pose proof (enough_true (a - sr_out r1) _ _ _ _ _ (proj1 HLQ) MS ltac:(lia) EN1) as [ET1 ET2]. pose proof (enough_true rm0 _ _ _ _ _ (proj1 HLQ) MS ltac:(lia) EN) as [EV1 EV2]. specialize (ET2 eq_refl). specialize (EV2 eq_refl).
    inv_bind UT as [[[[[q tk1] tot] rm2] cr] ix] E2. apply Ok_inj in UT. injection UT as <- <- _ <- <-. cbn [p_tick p_set_tick] in *. cbn [andb negb orb].
    destruct (Z.eq_dec (a - sr_out r1) 0) as [RZ|RZ].
    + assert (EF : en1 = false).
      { apply ET1; [|done]. destruct RC as [[-> _]|[L0 _]]; [|done]. intros L0. unfold compute_swap_step in ER. rewrite L0 in ER. cbn in ER. apply Ok_inj in ER. rewrite <- ER in RZ. cbn in RZ. lia. }
      subst en1. rewrite RZ. cbn [Z.eqb negb].
      destruct init; cbn in LT.
      * destruct LT as (t0 & LK & ->). cbn [bind]. refine (FIN _ _ (TickInitialized t0) false _ (or_introl eq_refl)). cbn [p_tick p_set_tick].
        assert (ix = t_index t0).
        { destruct en; [inv_bind E2 as [t' q'] EC; apply Ok_inj in E2; injection E2 as <- <- <- <- <- <-; done|].
          cbn in E2. destruct (negb (rm0 =? 0)); apply Ok_inj in E2; injection E2 as <- <- <- <- <- <-; done. }
        subst ix. change (ft_spacing (pk_tier k)) with (spacing k). destruct en; lia.
      * subst tk. apply Ok_inj in E2. injection E2 as <- <- <- <- <- <-. cbn [bind]. refine (FIN _ _ (TickUninitialized t) false _ (or_introl eq_refl)). cbn [p_tick p_set_tick]. change (ft_spacing (pk_tier k)) with (spacing k). destruct en; lia.
    + assert (EF : en1 = true) by (apply ET2; lia). destruct RC as [[RE _]|[_ OA]]; [subst r1|lia]. rewrite EF. specialize (EV2 ltac:(lia)). subst en. cbn [andb negb orb] in *.
      rewrite AF in AQ. apply Ok_inj in AQ. subst q0.
      destruct init; cbn in LT.
      * destruct LT as (t0 & LK & ->). inv_bind E2 as [t' q'] EC. apply Ok_inj in E2. injection E2 as <- <- <- <- <- <-. rewrite EC. cbn [bind]. refine (FIN _ _ (TickInitialized t') true _ (or_intror _)); done.
      * subst tk. apply Ok_inj in E2. injection E2 as <- <- <- <- <- <-. cbn [bind]. refine (FIN _ _ (TickUninitialized t) false _ (or_intror _)); done.
Qed.

Lemma loop_ask_in s now k lim gas : store_geo s k -> 0 <= cf_protocol_fee (st_config s) ->
  forall v, loop_inv k true lim v -> atotals v -> forall v', swap_loop gas s now k true false lim (end_tick true k) v = Ok v' -> sw_in v <= sw_in v'.
Proof.
  intros G HF. induction gas as [|g IH]; intros v I T v' H; cbn [swap_loop] in H; destruct (Z.eqb_spec (sw_remaining v) 0) as [Z0|Z0]; try (apply Ok_inj in H; subst v'; lia); [done|].
  inv_bind H as v1 E1. pose proof (loop_step _ _ _ _ _ _ _ _ G I Z0 E1) as [_ I1]. destruct (iter_ask_keeps _ _ _ _ _ _ G I Z0 T HF E1) as [T1 M1].
  specialize (IH v1 I1 T1 v' H). lia.
Qed.
Lemma loop_ask_less s now k lim gas : store_geo s k -> 0 <= cf_protocol_fee (st_config s) ->
  forall v a, loop_inv k true lim v -> 0 < a < sw_remaining v -> atotals v ->
  forall v', swap_loop gas s now k true false lim (end_tick true k) v = Ok v' ->
  exists w', swap_loop gas s now k true false lim (end_tick true k) (with_rest v a) = Ok w' /\ sw_in w' <= sw_in v'.
Proof.
  intros G HF. induction gas as [|g IH]; intros v a I HA T v' H; cbn [swap_loop] in *; rewrite (proj2 (Z.eqb_neq (sw_remaining v) 0)) in H by lia; [done|].
  cbn [sw_remaining with_rest]. rewrite (proj2 (Z.eqb_neq a 0)) by lia. inv_bind H as v1 E1. assert (NR : sw_remaining v <> 0) by lia.
  pose proof (loop_step _ _ _ _ _ _ _ _ G I NR E1) as [_ I1]. destruct (iter_ask_keeps _ _ _ _ _ _ G I NR T HF E1) as [T1 M1].
  destruct (iter_ask_less s now k lim v v1 a G I HA T HF E1) as (w1 & W1 & M2 & C). rewrite W1. cbn [bind].
  destruct C as [Z0|[W2 B]].
  - exists w1. pose proof (loop_ask_in _ _ _ _ _ G HF _ I1 T1 _ H). split; [destruct g; cbn [swap_loop]; by rewrite Z0|lia].
  - rewrite W2. exact (IH v1 (sw_remaining w1) I1 B T1 v' H).
Qed.

Theorem C113_smaller_request_partial e i s k a b lim s1 m1 cost :
  reachable s -> execute e i s (Swap k true b false lim) = Ok (s1, m1, [("amount_in"%string, cost); ("amount_out"%string, b)]) -> 0 < a < b ->
  exists s' ms cost', execute e i s (Swap k true a false lim) = Ok (s', ms, [("amount_in"%string, cost'); ("amount_out"%string, a)]) /\ cost' <= cost.
Proof.
  intros R H HA. pose proof (reachable_ereach _ R) as ER.
  destruct (execute_swap_inv _ _ _ _ _ _ _ _ _ _ _ R H) as (c & p & CB & AT & E & _ & HB & HLM & _). injection AT as -> _.
  pose proof (ereach_store_geo _ _ _ ER E) as G. pose proof (ereach_geo _ ER _ _ E) as PG.
  pose proof (co_protocol _ (ereach_config _ ER)) as PF0. pose proof (ereach_prot _ ER _ _ E) as [PRX PRY].
  enough (X : exists s' ms at' c', execute e i s (Swap k true a false lim) = Ok (s', ms, at') /\ at' = [("amount_in"%string, cr_in c'); ("amount_out"%string, cr_out c')] /\ cr_in c' <= cr_in c).
  { destruct X as (s' & ms & at' & c' & X & -> & L). destruct (C20_exact_output _ _ _ _ _ _ _ _ _ _ R X) as (_ & _ & co & _ & _ & Q & _). injection Q as Q1 Q2.
    exists s', ms, (cr_in c'). rewrite X, Q2. done. }
  unfold execute in *. destruct (env_typed e i) eqn:T; [|done]. destruct (msg_typed (Swap k true b false lim)) eqn:M; [|done]. cbn [andb dispatch] in *.
  assert (M2 : msg_typed (Swap k true a false lim) = true).
  { cbn [msg_typed] in *. rewrite !andb_true_iff in *. unfold u128_ok in *. destruct M as [[MK MB] ML]. repeat split; try done. apply in_range_spec in MB. apply in_range_spec. lia. }
  rewrite M2. unfold swap, swap_internal in *. rewrite CB in H. cbn [bind] in H. inv_bind H as [[s2 ms2] c2] H1. clear H. inv_bind H1 as s3 US. inv_bind H1 as m0 EP. clear H1 US.
  unfold calculate_swap in CB. rewrite (proj2 (Z.eqb_neq b 0)) in CB by lia. unfold get_pool in CB. rewrite E in CB. cbn [bind] in CB.
  destruct ((p_price p <=? lim) || _) eqn:LB; [done|]. inv_bind CB as v CV. destruct (sw_out v =? 0); [done|]. apply Ok_inj in CB. subst c. cbn [cr_in] in *.
  pose proof LB as LB'. apply orb_false_iff in LB'. destruct LB' as [L1 L2]. apply Z.leb_gt in L1.
  pose proof (loop_start k true lim p b PG HB L1) as I0.
  destruct (loop_ask_less s (e_millis e) k lim (e_gas e) G ltac:(lia) (mkSwapState p b 0 0 0 []) a I0) with (v' := v) as (w & LR & LI); [cbn; lia|constructor; cbn; lia|exact CV|].
  change (swap_loop (e_gas e) s (e_millis e) k true false lim (end_tick true k) (mkSwapState p a 0 0 0 []) = Ok w) in LR.
  assert (RN : run s (e_millis e) k true false lim (mkSwapState p a 0 0 0 []) w) by (exact (swap_loop_run _ _ _ _ _ _ _ _ _ LR)).
  pose proof (loop_start k true lim p a PG ltac:(lia) L1) as I1.
  destruct (run_limit _ _ _ _ _ _ _ _ G I1 ltac:(cbn; lia) RN) as [_ O]. specialize (O eq_refl). cbn in O.
  assert (CA : calculate_swap (e_gas e) s (e_millis e) k true a false lim = Ok (mkCalc (sw_in w) (sw_out w) (p_price p) (p_price (sw_pool w)) (sw_fee w) (sw_pool w) (sw_ticks w))).
  { unfold calculate_swap. rewrite (proj2 (Z.eqb_neq a 0)) by lia. unfold get_pool. rewrite E. cbn [bind]. rewrite LB. change (get_min_tick (spacing k)) with (end_tick true k).
    rewrite LR. cbn [bind]. rewrite (proj2 (Z.eqb_neq (sw_out w) 0)) by lia. reflexivity. }
  rewrite CA. cbn [bind cr_in cr_out cr_ticks cr_pool].
  destruct (calculate_swap_frame _ _ _ _ _ _ _ _ _ CA) as (p' & _ & _ & _ & _ & F & _). cbn [cr_ticks] in F.
  destruct (update_ticks_total s k (sw_ticks w)) as [s4 ->]; [apply crossed_exists; [by apply ereach_indexed|done]|]. cbn [bind].
  destruct (calculate_swap_out _ _ _ _ _ _ _ _ _ CA) as [_ V]. cbn [cr_in] in V.
  destruct (transfer_from_total e i (pk_x k) (sw_in w) (proj1 V)) as [m2 E2].
  { unfold can_pay, asset_transfer_from, attached in *. destruct (e_addr_ok e (pk_x k)); [by left|right]. destruct (Z.eqb_spec (sw_in v) 0) as [Q|Q].
    - destruct (List.find _ _) as [co|] eqn:FE; [|lia]. assert (0 <= c_amount co); [|lia].
      unfold env_typed in T. apply andb_prop in T. destruct T as [_ T]. rewrite forallb_forall in T. apply List.find_some in FE. specialize (T co (proj1 FE)). apply in_range_spec in T. lia.
    - destruct (List.find _ _) as [co|]; [|done]. destruct (Z.leb_spec (sw_in v) (c_amount co)); [lia|done]. }
  rewrite E2. cbn [bind]. eexists _, _, _, (mkCalc (sw_in w) (sw_out w) (p_price p) (p_price (sw_pool w)) (sw_fee w) (sw_pool w) (sw_ticks w)). split; [reflexivity|]. split; [reflexivity|exact LI].
Qed.

(** ** Where it fails *)
Lemma passes {A} (m : res A) : is_ok m = true -> exists r, m = Ok r.
Proof. destruct m; [eauto|done|done]. Qed.
(** a falling offer: 1006 and 1008 pass, 1007 does not (C25_edge_refuted) *)
Theorem C113_falling_offer_refuted : exists s k a b lim, clean_history s /\ 0 < a < b /\
  (exists r, execute v_env (v_info "carol") s (Swap k true b true lim) = Ok r) /\
  execute v_env (v_info "carol") s (Swap k true a true lim) = Err ESub.
Proof.
  destruct C25_edge_refuted as (s & k & C & _ & H1 & (r & H2 & _)). exists s, k, 1007, 1008, (MIN_SQRT_PRICE + 65536).
  split; [exact C|]. split; [lia|]. split; [exists r; exact H2|exact H1].
Qed.
(** a rising request may need one iteration more than a larger one *)
Definition short_env : env := mkEnv (e_height v_env) (e_nanos v_env) (e_self v_env) 1 (e_addr_ok v_env) (e_utf8_ok v_env).
Theorem C113_rising_request_refuted : exists s k a b lim, clean_history s /\ 0 < a < b /\
  (exists r, execute short_env (v_info "carol") s (Swap k false b false lim) = Ok r) /\
  execute short_env (v_info "carol") s (Swap k false a false lim) = Err OutOfGas /\
  (exists r, execute v_env (v_info "carol") s (Swap k false a false lim) = Ok r).
Proof.
  exists sc0, v_key, 7451, 7501, MAX_SQRT_PRICE. split; [exact sc0_clean|]. split; [lia|].
  split; [apply passes; vm_compute; reflexivity|]. split; [apply refused_inv; vm_compute; reflexivity|apply passes; vm_compute; reflexivity].
Qed.

(** *** Examples: in the pool of the scenario, an offer and a request that pass, with smaller ones that cross a tick less *)
Example ex_C113_offer : exists p r, reachable sc0 /\ st_pools sc0 !! v_key = Some p /\ cf_protocol_fee (st_config sc0) <= 10 ^ 12 /\ ft_fee (pk_tier v_key) <= 99 * 10 ^ 10 /\
  execute v_env (v_info "carol") sc0 (Swap v_key false 12000 true MAX_SQRT_PRICE) = Ok r /\ 0 < 7000 < 12000 /\ 7000 <= 10 ^ 29 /\ p_proty p + 7000 < 2 ^ 128.
Proof.
  assert (Q : exists p, st_pools sc0 !! v_key = Some p /\ p_proty p + 7000 < 2 ^ 128) by (apply some_inv; vm_compute; repeat split). destruct Q as (p & EP & P1).
  assert (H : exists r, execute v_env (v_info "carol") sc0 (Swap v_key false 12000 true MAX_SQRT_PRICE) = Ok r) by (apply passes; vm_compute; reflexivity).
  destruct H as [x E]. exists p, x. split; [exact sc0_reachable|]. split; [exact EP|]. split; [vm_compute; discriminate|]. split; [vm_compute; discriminate|].
  split; [exact E|]. split; [lia|]. split; [lia|exact P1].
Qed.
Example ex_C113_request : exists s1 m1 cost, reachable sc0 /\
  execute v_env (v_info "carol") sc0 (Swap v_key true 12000 false MIN_SQRT_PRICE) = Ok (s1, m1, [("amount_in"%string, cost); ("amount_out"%string, 12000)]) /\ 0 < 7000 < 12000.
Proof.
  assert (H : exists r, execute v_env (v_info "carol") sc0 (Swap v_key true 12000 false MIN_SQRT_PRICE) = Ok r) by (apply passes; vm_compute; reflexivity).
  destruct H as [[[s1 m1] at'] E].
  destruct (C20_exact_output _ _ _ _ _ _ _ _ _ _ sc0_reachable E) as (_ & _ & cost & _ & _ & -> & _).
  exists s1, m1, cost. split; [exact sc0_reachable|]. split; [exact E|lia].
Qed.
