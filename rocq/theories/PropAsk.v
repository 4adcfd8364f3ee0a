(** C103: asking for less than an offer yields never costs more than the offer. *)
From Verif Require Import Base Decimal SqrtPrice Clamm Log FeeGrowth Types Tick Pool Position Tickmap Keys State Swap Exec Tactics
  PriceProofs LogProofs ClammProofs PropClamm BitmapProofs Frame Handlers History Basic PosList Ledger Vectors Scenario SwapInv SwapGeo SwapLoop Modify PSum LiqInv Geo
  PropTrade PropLiq PropSwap Fund Forward Flow PropSolv PropFunds PropExit PropBlock PropEvent PropMove PropMono.
From stdpp Require Import gmap strings.
From Coq Require Import Lia.
Open Scope Z_scope.

(** ** One step: an offer of [a] against a request for [b] *)
Lemma cheaper P L x n o b n' i : MIN_SQRT_PRICE <= P -> 0 < L < 10 ^ 30 -> 0 <= x <= 10 ^ 14 -> 0 <= b -> b < o ->
  get_next_sqrt_price_from_input P L x true = Ok n -> get_delta_y n P L false = Ok o ->
  get_next_sqrt_price_from_output P L b true = Ok n' -> get_delta_x n' P L true = Ok i -> i <= x.
Proof.
  intros HP HL HX B0 BO N O N' I. unfold MIN_SQRT_PRICE in HP.
  pose proof (next_in_side P L x true n HP ltac:(lia) ltac:(lia) N) as SI. cbn in SI.
  apply delta_y_down in O. destruct O as [_ O]. rewrite Z.abs_neq in O by lia.
  destruct (Z.eq_dec x 0) as [->|X0].
  { unfold get_next_sqrt_price_from_input, get_next_sqrt_price_x_up in N. cbn in N. apply Ok_inj in N. subst n. exfalso. unfold E30 in *. lia. }
  unfold get_next_sqrt_price_from_input in N. apply next_x_in in N; [|lia..]. destruct N as (_ & _ & N). pose proof (pl_up_spec P L) as PU.
  unfold get_next_sqrt_price_from_output in N'. apply next_y_out in N'; [|lia..]. destruct N' as (S' & N' & _).
  apply delta_x_up in I; [|lia..]. destruct I as (_ & D0 & I & _). pose proof (numx_spec n' P L) as NS. rewrite Z.abs_neq in NS by lia.
  pose proof (floor_spec (n' * P) SP_ONE ltac:(reflexivity)) as DS. set (D := n' * P / SP_ONE) in *. set (m := numx n' P L) in *. set (u := pl_up P L) in *.
  clearbody D m u. destruct (Z.le_gt_cases i x) as [|IX]; [done|]. exfalso.
  assert (DX : D * x <= D * (i - 1)) by (apply Z.mul_le_mono_nonneg_l; lia).
  assert (DX' : (n' * P - SP_ONE) * x <= D * SP_ONE * x) by (apply Z.mul_le_mono_nonneg_r; lia).
  assert (GAP : L < (n' - n + 1) * L) by (unfold E30 in *; lia).
  assert (NN : 1 <= n' - n) by nia.
  assert (K : (n' - n) * (L * E18 + P * x) < SP_ONE * x) by (unfold LIQ_ONE, SP_ONE, E18 in *; lia).
  assert (PX : 0 <= P * x) by (apply Z.mul_nonneg_nonneg; lia).
  assert (K' : (n' - n) * (L * E18) <= (n' - n) * (L * E18 + P * x)) by (apply Z.mul_le_mono_nonneg_l; lia).
  destruct (Z.le_gt_cases (10 ^ 20) L) as [LB|LB].
  - assert (1 * (L * E18) <= (n' - n) * (L * E18)) by (apply Z.mul_le_mono_nonneg_r; unfold E18; lia). unfold E18, SP_ONE in *. lia.
  - unfold E18, SP_ONE, E30 in *. lia.
Qed.

(** what the request costs against the offer *)
Definition no_dearer (L b : Z) (r r' : swap_result) : Prop :=
  sr_in r' + sr_fee r' <= sr_in r + sr_fee r + 1 /\ (L < 10 ^ 30 -> b + 1 < sr_out r -> sr_in r' + sr_fee r' <= sr_in r + sr_fee r).

Lemma step_rival cur sl L a b fee r r' : step_args cur sl L a fee -> step_args cur sl L b fee -> sl <= cur -> a <= 10 ^ 14 ->
  compute_swap_step cur sl L a true fee = Ok r -> compute_swap_step cur sl L b false fee = Ok r' ->
  (r = r' /\ sr_next r = sl /\ sr_out r <= b) \/ (sr_next r <> sl /\ sr_out r <= b) \/
  (b < sr_out r /\ sr_out r' = b /\ sr_next r <= sr_next r' /\ no_dearer L b r r' /\ (sr_next r = sl -> sr_in r' + sr_fee r' <= sr_in r + sr_fee r)).
Proof.
  intros SA SB SD AM ST ST'. destruct (Z.eq_dec L 0) as [->|L0].
  { left. unfold compute_swap_step in ST, ST'. cbn in ST, ST'. apply Ok_inj in ST, ST'. subst. cbn. destruct SB as (_ & _ & _ & B & _). repeat split; lia. }
  pose proof (step_next_pos _ _ _ _ _ _ _ SA ST) as NP. pose proof (step_next_pos _ _ _ _ _ _ _ SB ST') as NP'.
  destruct SA as (A1 & A2 & A3 & A4 & A5). destruct SB as (_ & _ & _ & B4 & _).
  assert (D : (sl <=? cur) = true) by (apply Z.leb_le; lia).
  assert (HM : MIN_SQRT_PRICE <= cur) by (unfold MIN_SQRT_PRICE; lia).
  apply step_inv in ST, ST'; [|done..]. destruct ST as [N I (o & O & OE) F], ST' as [N' I' (o' & O' & OE') F']. rewrite D in *.
  assert (LP : 0 < L) by lia.
  destruct N as [(_ & x & c & PC & X & C & N)|(? & _)]; [|done]. destruct N' as [(? & _)|(_ & co & CO & N')]; [done|].
  destruct F' as [(? & _)|[_ F']]; [done|].
  destruct (Z.eq_dec (sr_next r) sl) as [Q|Q].
  - rewrite Q in *. destruct F as [(_ & ? & _)|[_ F]]; [done|]. rewrite O in CO. apply Ok_inj in CO. subst co.
    destruct N' as [[NL N']|[NL N']].
    + left. rewrite N' in *. rewrite O in O'. apply Ok_inj in O'. rewrite I in I'. apply Ok_inj in I'. rewrite <- I', F in F'. apply Ok_inj in F'.
      destruct r as [n1 i1 o1 f1], r' as [n2 i2 o2 f2]; cbn in *. split; [|split; [done|lia]]. f_equal; [congruence|congruence| |congruence]. lia.
    + right. right. pose proof (next_out_side cur L b true (sr_next r') HM LP ltac:(lia) N') as SI. cbn in SI.
      pose proof (partial_out_down cur L b (sr_next r') o' ltac:(lia) LP ltac:(lia) N' O').
      pose proof (next_out_target_down cur sl L b _ o ltac:(lia) LP ltac:(lia) O NL N').
      assert (II : sr_in r' <= sr_in r) by (eapply (delta_in_farther true cur (sr_next r') sl L); [..|exact I'|exact I]; cbn; lia).
      pose proof (fee_mono (sr_in r') (sr_in r) fee (sr_fee r') (sr_fee r) ltac:(lia) II F' F).
      unfold no_dearer. repeat split; lia.
  - destruct F as [(_ & _ & F & F0 & _)|[[?|?] _]]; [|done..]. destruct (Z.le_gt_cases o b) as [OB|OB]; [right; left; split; [done|lia]|].
    right. right. destruct N as [[_ ?]|[NL N]]; [done|]. pose proof (floor_pct _ _ _ X) as [X0 XS].
    assert (AF : a * fee <= a * PCT_ONE - PCT_ONE * x) by lia.
    assert (XA : x <= a) by (assert (0 <= a * fee) by (apply Z.mul_nonneg_nonneg; lia); unfold PCT_ONE in *; lia).
    pose proof (next_in_side cur L x true (sr_next r) HM LP ltac:(lia) N) as SI. cbn in SI.
    pose proof (next_in_target_down cur sl L x (sr_next r) c ltac:(unfold MIN_SQRT_PRICE; lia) LP ltac:(lia) C NL N) as OV.
    assert (IX : sr_in r <= x + 1).
    { pose proof (partial_in_down cur L x (sr_next r) (sr_in r) HM LP ltac:(lia) ltac:(lia) N I) as PD.
      assert (DL : 10 ^ 14 <= sr_next r * cur / SP_ONE).
      { apply Z.div_le_lower_bound; [reflexivity|]. assert (15258932000000000000 * 15258932000000000000 <= sl * cur) by (apply Z.mul_le_mono_nonneg; lia). unfold SP_ONE in *. lia. }
      set (E := sr_next r * cur / SP_ONE) in *. clearbody E. destruct (Z.le_gt_cases (sr_in r) (x + 1)) as [|GT]; [done|]. exfalso.
      assert (E * 1 <= E * (sr_in r - 1 - x)) by (apply Z.mul_le_mono_nonneg_l; lia). lia. }
    assert (NN : sr_next r <= sr_next r' /\ sr_next r' <= cur /\ b <= o' /\ sr_out r' = b /\ (b + 1 < o -> get_next_sqrt_price_from_output cur L b true = Ok (sr_next r'))).
    { destruct N' as [[NL' N']|[NL' N']].
      - rewrite N' in *. rewrite O' in CO. apply Ok_inj in CO. subst co.
        pose proof (overshoot cur sl L x (sr_next r) c ltac:(unfold MIN_SQRT_PRICE; lia) LP ltac:(lia) C NL N) as OL.
        destruct (Z.le_gt_cases sl (sr_next r)) as [W|W].
        + assert (o <= o') by (eapply (delta_out_farther cur (sr_next r) sl L); [lia|lia|exact O|exact O']). lia.
        + unfold delta_out in *. apply delta_y_down in O, O'. rewrite Z.abs_neq in O, O' by lia. assert (o <= o' + 1) by (unfold E30, LIQ_ONE in *; lia).
          repeat split; try lia.
      - pose proof (next_out_side cur L b true (sr_next r') HM LP ltac:(lia) N') as SI'. cbn in SI'.
        pose proof (partial_out_down cur L b (sr_next r') o' ltac:(lia) LP ltac:(lia) N' O'). split; [|repeat split; done || lia].
        unfold delta_out in O. apply delta_y_down in O. rewrite Z.abs_neq in O by lia. pose proof N' as N1. unfold get_next_sqrt_price_from_output in N1. apply next_y_out in N1; [|lia..].
        assert ((cur - sr_next r' - 1) * L < (cur - sr_next r) * L) by (unfold E30 in *; lia). assert (cur - sr_next r' - 1 < cur - sr_next r) by (apply (Z.mul_lt_mono_pos_r L); lia). lia. }
    destruct NN as (NN & NC & OB' & OB2 & PR).
    assert (II : sr_in r' <= sr_in r) by (eapply (delta_in_farther true cur (sr_next r') (sr_next r) L); [..|exact I'|exact I]; cbn; lia).
    apply ceil_pct in F'.
    assert (FL : sr_fee r' <= a - x).
    { assert (sr_in r' * fee <= a * fee) by (apply Z.mul_le_mono_nonneg_r; lia). unfold PCT_ONE in *. lia. }
    split; [lia|]. split; [done|]. split; [done|]. split; [|done]. split; [lia|]. intros LS GAP. rewrite OE in GAP.
    pose proof (cheaper cur L x (sr_next r) o b (sr_next r') (sr_in r') HM ltac:(lia) ltac:(lia) ltac:(lia) OB N O (PR GAP) I'). lia.
Qed.

(** ** One iteration *)
Lemma update_rival p r sl tk rm rm' now f ft p1 tk1 add rm1 c p1' tk1' add' rm1' c' :
  MIN_SQRT_PRICE <= sr_next r -> 0 <= p_liq p -> 0 <= rm -> 0 <= rm' ->
  pool_update_tick p r sl tk rm true true now f ft = Ok (p1, tk1, add, rm1, c) ->
  pool_update_tick p r sl tk rm' false true now f ft = Ok (p1', tk1', add', rm1', c') ->
  add' = 0 /\ 0 <= rm1' <= rm' /\
  ((p1 = p1' /\ add = 0 /\ rm1 = rm /\ rm1' = rm') \/ rm1' = 0 \/ rm1 = 0 \/
   (exists i, tk = TickUninitialized i /\ sl = sr_next r /\ add = 0 /\ rm1 = rm /\ rm1' = rm' /\ p1 = p_set_tick p i /\ p1' = p_set_tick p (i - ft_spacing ft) /\
     is_enough_amount_to_change_price rm (sr_next r) (p_liq p) (ft_fee ft) true true = Ok false)).
Proof.
  intros HP HL RR RR' H H'. unfold pool_update_tick in H, H'.
  destruct ((match tk with NoTick => true | _ => false end) || negb (sl =? sr_next r)) eqn:B.
  { inv_bind H as j E. inv_bind H' as j' E'. rewrite E in E'. apply Ok_inj in E'. subst j'.
    apply Ok_inj in H, H'. injection H as <- <- <- <- <-. injection H' as <- <- <- <- <-. split; [done|]. split; [lia|]. by left. }
  apply orb_false_iff in B. destruct B as [B1 B2]. apply negb_false_iff, Z.eqb_eq in B2.
  inv_bind H as en EN. inv_bind H' as en' EN'.
  inv_bind H as [[[[[q u] tot] m] x] ix] E. inv_bind H' as [[[[[q' u'] tot'] m'] x'] ix'] E'.
  apply Ok_inj in H, H'. injection H as <- <- <- <- <-. injection H' as <- <- <- <- <-. cbn [andb negb orb] in *.
  pose proof (enough_true rm' (sr_next r) (p_liq p) (ft_fee ft) false en' HL HP RR' EN') as [_ ET]. specialize (ET eq_refl).
  destruct tk as [|t|i]; [done| |].
  - destruct en'.
    + inv_bind E' as [t2 q2] E2. apply Ok_inj in E'. injection E' as <- <- <- <- <- <-. split; [done|]. split; [lia|]. destruct en.
      * inv_bind E as [t1 q1] E1. rewrite E1 in E2. apply Ok_inj in E2. injection E2 as <- <-. apply Ok_inj in E. injection E as <- <- <- <- <- <-. by left.
      * right. right. left. destruct (Z.eqb_spec rm 0) as [Q|Q]; cbn [negb] in E.
        { apply Ok_inj in E. injection E as <- <- <- <- <- <-. done. }
        inv_bind E as q1 E1. apply Ok_inj in E; injection E as <- <- <- <- <- <-; done.
    + assert (rm' = 0) as -> by (destruct (Z.eq_dec rm' 0); [done|]; specialize (ET ltac:(lia)); done). cbn in E'. apply Ok_inj in E'. injection E' as <- <- <- <- <- <-.
      split; [done|]. split; [lia|]. by right; left.
  - apply Ok_inj in E, E'. injection E as <- <- <- <- <- <-. injection E' as <- <- <- <- <- <-. split; [done|]. split; [lia|].
    destruct en'.
    + destruct en; [by left|]. right. right. right. exists i. done.
    + right. left. destruct (Z.eq_dec rm' 0); [done|]. specialize (ET ltac:(lia)). done.
Qed.

(** an offer [w] and a request [v] that have gone the same way so far *)
Record rival (w v : swap_state) : Prop := {
  ri_pool : sw_pool w = sw_pool v;
  ri_in : sw_in w = sw_in v;
  ri_out : sw_out w = sw_out v
}.
(** what is left of the offer cannot leave the tick, the request has left it *)
Record parked (s : store) (k : pool_key) (w v : swap_state) : Prop := {
  pk_legal : legal_tick (spacing k) (p_tick (sw_pool w));
  pk_none : ~ is_init s k (spacing k) (p_tick (sw_pool w));
  pk_at : p_price (sw_pool w) = tprice (p_tick (sw_pool w));
  pk_tick : p_tick (sw_pool v) = p_tick (sw_pool w) - spacing k;
  pk_price : p_price (sw_pool v) = p_price (sw_pool w);
  pk_liq : p_liq (sw_pool v) = p_liq (sw_pool w);
  pk_in : sw_in w = sw_in v;
  pk_out : sw_out w = sw_out v;
  pk_small : is_enough_amount_to_change_price (sw_remaining w) (p_price (sw_pool w)) (p_liq (sw_pool w)) (ft_fee (pk_tier k)) true true = Ok false
}.
(** the request that ended in [v], for [b] in all, against the offer that ended in [w] *)
Definition settled (b : Z) (w v : swap_state) : Prop :=
  sw_in v <= sw_in w + 1 /\ p_price (sw_pool w) <= p_price (sw_pool v) /\ (p_liq (sw_pool w) < 10 ^ 30 -> b + 1 < sw_out w -> sw_in v <= sw_in w).

Lemma rest_zero p r sl tk (by_in d : bool) now f ft p1 tk' ad rm1 c : pool_update_tick p r sl tk 0 by_in d now f ft = Ok (p1, tk', ad, rm1, c) -> rm1 = 0 /\ ad = 0.
Proof.
  intros UT. unfold pool_update_tick in UT. destruct (_ || _); [inv_bind UT as j E; apply Ok_inj in UT; injection UT as <- <- <- <- <-; done|].
  inv_bind UT as en EN. inv_bind UT as [[[[[q u] tot] m] x] ix] E. apply Ok_inj in UT. injection UT as <- <- <- <- <-.
  destruct tk as [|t|i]; [done| |]; [|apply Ok_inj in E; injection E as <- <- <- <- <- <-; done].
  destruct (negb d || en); [inv_bind E as [t1 q1] E1|cbn in E]; apply Ok_inj in E; injection E as <- <- <- <- <- <-; done.
Qed.

(** the last iteration of a request for less than the step of the offer yields *)
Lemma iter_last s now k lim w v w' v' wf vf sl li li' r r' : store_geo s k -> loop_inv k true lim w -> loop_inv k true lim v ->
  sw_remaining w <> 0 -> sw_remaining v <> 0 -> sw_remaining w <= 10 ^ 14 -> sw_in w = sw_in v -> sw_out w = sw_out v ->
  p_price (sw_pool v) = p_price (sw_pool w) -> p_liq (sw_pool v) = p_liq (sw_pool w) ->
  swap_iter s now k true true lim (end_tick true k) w = Ok w' -> swap_iter s now k true false lim (end_tick true k) v = Ok v' ->
  run s now k true true lim w' wf -> run s now k true false lim v' vf ->
  get_closer_limit s lim true (p_tick (sw_pool w)) (spacing k) k = Ok (sl, li) -> get_closer_limit s lim true (p_tick (sw_pool v)) (spacing k) k = Ok (sl, li') ->
  compute_swap_step (p_price (sw_pool w)) sl (p_liq (sw_pool w)) (sw_remaining w) true (ft_fee (pk_tier k)) = Ok r ->
  compute_swap_step (p_price (sw_pool w)) sl (p_liq (sw_pool w)) (sw_remaining v) false (ft_fee (pk_tier k)) = Ok r' ->
  sw_out v + sw_remaining v < sw_out wf ->
  (r = r' /\ sr_next r = sl /\ sr_out r <= sw_remaining v) \/ settled (sw_out v + sw_remaining v) wf vf.
Proof.
  intros G I J NZ NZ' AM IE OE PE LE E E' R R' CL CL' ST ST' GT.
  pose proof (iter_step _ _ _ _ _ _ _ _ _ _ G I NZ CL E) as [SA SD]. pose proof (iter_step _ _ _ _ _ _ _ _ _ _ G J NZ' CL' E') as [SB _].
  rewrite PE, LE in SB. pose proof (step_rival _ _ _ _ _ _ _ _ SA SB SD AM ST ST') as [C|C]; [by left|]. right.
  pose proof (loop_step _ _ _ _ _ _ _ _ G I NZ E) as [_ I1]. pose proof (run_more _ _ _ _ _ _ _ _ G I1 R) as (RI & RO & RP).
  apply swap_iter_inv in E, E'.
  destruct E as (sl1 & li1 & r1 & p0 & tk & p1 & tk' & ad & rm0 & rm1 & c & CL1 & ST1 & Q1 & Q2 & AF & _ & _ & UT & -> & _).
  destruct E' as (sl2 & li2 & r2 & p0' & tk0 & p1' & tk0' & ad' & rm0' & rm1' & c' & CL2 & ST2 & Q1' & Q2' & _ & _ & _ & UT' & -> & _).
  fold (spacing k) in CL1, CL2. rewrite CL in CL1. apply Ok_inj in CL1. injection CL1 as <- <-. rewrite CL' in CL2. apply Ok_inj in CL2. injection CL2 as <- <-.
  rewrite ST in ST1. apply Ok_inj in ST1. subst r1. rewrite PE, LE, ST' in ST2. apply Ok_inj in ST2. subst r2.
  pose proof (pool_update_tick_price _ _ _ _ _ _ _ _ _ _ _ _ _ _ _ UT) as PP. pose proof (pool_update_tick_price _ _ _ _ _ _ _ _ _ _ _ _ _ _ _ UT') as PP'.
  assert (ENDED : sr_next r <> sl -> wf = mkSwapState p1 rm1 (sw_in w + (sr_in r + sr_fee r) + ad) (sw_out w + sr_out r) (sw_fee w + sr_fee r)
           (match tk' with TickInitialized t => if c then sw_ticks w ++ [t] else sw_ticks w | _ => sw_ticks w end)).
  { intros NS. pose proof (partial_consumes _ _ _ _ _ _ _ SA SD ST NS) as PC. cbn in PC. assert (rm0 = 0) as Z0 by lia. rewrite Z0 in UT. apply rest_zero in UT as [-> ->].
    inversion R as [? Z1|? ? ? Z1]; [done|]. done. }
  destruct C as [[NS OB]|(BO & OB & NN & [ND1 ND2] & NE)].
  - exfalso. rewrite (ENDED NS) in GT. cbn in GT. lia.
  - assert (rm0' = 0) as Z0 by lia. rewrite Z0 in UT'. apply rest_zero in UT' as [-> ->].
    assert (VF : vf = mkSwapState p1' 0 (sw_in v + (sr_in r' + sr_fee r') + 0) (sw_out v + sr_out r') (sw_fee v + sr_fee r')
           (match tk0' with TickInitialized t => if c' then sw_ticks v ++ [t] else sw_ticks v | _ => sw_ticks v end)) by (inversion R' as [? Z1|? ? ? Z1]; done).
    apply pool_update_tick_amounts in UT as UA; [|lia]. destruct UA as (_ & _ & AD).
    rewrite VF. unfold settled. cbn [sw_in sw_pool] in RI, RP |- *. rewrite PP'. rewrite PP in RP. cbn [p_price p_set_price] in RP |- *.
    split; [lia|]. split; [lia|]. intros LS GG. destruct (Z.eq_dec (sr_next r) sl) as [Q|Q]; [specialize (NE Q); lia|].
    rewrite (ENDED Q) in LS, GG. cbn in LS, GG.
    assert (LL : p_liq p1 = p_liq (sw_pool w)).
    { unfold pool_update_tick in UT. destruct (Z.eqb_spec sl (sr_next r)) as [|_]; [congruence|]. cbn [negb] in UT. rewrite orb_true_r in UT. inv_bind UT as j EJ. apply Ok_inj in UT.
      injection UT as <- <- <- <- <-. cbn. apply add_fee_keeps in AF. tauto. }
    rewrite LL in LS. specialize (ND2 LS ltac:(lia)). rewrite (ENDED Q) in RI. rewrite (ENDED Q). cbn. lia.
Qed.

(** ** Whole swaps *)
Lemma parked_run s now k lim w v wf vf : store_geo s k -> loop_inv k true lim w -> loop_inv k true lim v -> parked s k w v -> sw_remaining w <= 10 ^ 14 ->
  run s now k true true lim w wf -> run s now k true false lim v vf -> sw_out v + sw_remaining v < sw_out wf -> settled (sw_out v + sw_remaining v) wf vf.
Proof.
  intros G I J [S1 S2 S3 S4 S5 S6 S7 S8 S9] AM RW RV GT. assert (V0 : 0 <= sw_remaining v) by (destruct J; lia).
  destruct RW as [w Z0|w w1 w2 NZ E RW]; [lia|].
  pose proof (iter_amounts _ _ _ _ _ _ _ _ _ E) as (sl & li & r & CL & ST & PR & OU & _).
  pose proof (iter_step _ _ _ _ _ _ _ _ _ _ G I NZ CL E) as [SA SD].
  pose proof (loop_pre s k true lim w G I NZ) as [U HS HF HL HW _ HLim HRem]. fold (spacing k) in HS.
  pose proof (closer_down _ _ _ _ _ _ _ U (proj1 HS) S1 CL) as (t & T1 & T2 & T3 & T4 & T5 & T6 & T7).
  destruct T4 as [?|T4]; [done|]. pose proof (legal_price_lt _ _ _ T1 S1 T4) as TP. rewrite <- S3 in TP.
  assert (SL : sl < p_price (sw_pool w)) by lia.
  destruct (is_enough_false _ _ _ _ S9) as (L0 & x & X & NX). pose proof (proj1 (floor_pct _ _ _ X)) as X0.
  pose proof ST as ST0. apply step_inv in ST; [|done]. destruct ST as [N IN (o & O & OE) F].
  assert (DD : (sl <=? p_price (sw_pool w)) = true) by (apply Z.leb_le; lia). rewrite DD in *.
  destruct N as [(_ & x1 & a & PC & X1 & A & N)|(? & _)]; [|done]. rewrite X in X1. apply Ok_inj in X1. subst x1.
  destruct SA as (B1 & B2 & B3 & B4 & B5).
  destruct N as [[AX N]|[XA N]].
  - (* the target is reached: it must be the limit *)
    pose proof (small_reach (p_price (sw_pool w)) sl (p_liq (sw_pool w)) x a ltac:(unfold MIN_SQRT_PRICE; lia) SL ltac:(lia) ltac:(lia) NX A AX) as SR.
    assert (SLL : sl = lim).
    { destruct (Z.le_gt_cases (tprice t) lim) as [Q|Q]; [lia|]. exfalso. assert (sl = tprice t) as -> by lia. rewrite S3 in SR, TP.
      destruct (tprice_mult t) as [m1 M1], (tprice_mult (p_tick (sw_pool w))) as [m2 M2]. rewrite M1, M2 in SR, TP. unfold FP_ONE, LIQ_ONE in *.
      assert (1000000000000 <= m2 * 1000000000000 - m1 * 1000000000000) by lia.
      assert (1 * (1000000000000 - 1) <= p_liq (sw_pool w) * (m2 * 1000000000000 - m1 * 1000000000000 - 1)) by (apply Z.mul_le_mono_nonneg; lia). lia. }
    pose proof (loop_step _ _ _ _ _ _ _ _ G I NZ E) as [_ I1]. pose proof (run_more _ _ _ _ _ _ _ _ G I1 RW) as (RI & RO & RP).
    pose proof (iter_effect _ _ _ _ _ _ _ _ G I NZ E) as (EI & _ & _).
    destruct RV as [v Z0|v v1 v2 NZ' E' RV].
    { unfold settled. rewrite S5. split; [lia|]. split; [|lia]. pose proof (io_dir _ _ _ _ _ _ (proj1 (loop_step _ _ _ _ _ _ _ _ G I NZ E))). cbn in *. lia. }
    pose proof (iter_amounts _ _ _ _ _ _ _ _ _ E') as (sl' & li' & r' & CL' & ST' & _).
    pose proof (loop_pre s k true lim v G J NZ') as [_ _ _ _ (VL & _) _ _ HRem'].
    pose proof (closer_down _ _ _ _ _ _ _ U (proj1 HS) VL CL') as (t' & T1' & T2' & T3' & T4' & T5' & T6' & T7').
    assert (TT : t' <= t).
    { destruct (Z.le_gt_cases t' t) as [|Q]; [done|]. exfalso. destruct T7' as [T7'|T7']; [by apply (T3 t' ltac:(lia))|].
      pose proof (down_limit_mono (spacing k) (p_tick (sw_pool v)) (p_tick (sw_pool w)) (proj1 HS) ltac:(lia)). lia. }
    pose proof (legal_price_le _ _ _ T1' T1 TT) as PP. assert (SL' : sl' = sl) by lia. rewrite SL' in CL', ST'. rewrite S5, S6 in ST'.
    destruct (iter_last s now k lim w v w1 v1 w2 v2 sl li li' r r' G I J NZ NZ' AM S7 S8 S5 S6 E E' RW RV CL CL' ST0 ST' GT) as [(<- & NS & OB)|ST1]; [|exact ST1].
    exfalso. apply swap_iter_inv in E. destruct E as (sl1 & li1 & r1 & p0 & tk & p1 & tk' & ad & rm0 & rm1 & c & CL1 & ST1 & Q1 & Q2 & _ & NL & _ & UT & -> & _).
    fold (spacing k) in CL1. rewrite CL in CL1. apply Ok_inj in CL1. injection CL1 as <- <-. rewrite ST0 in ST1. apply Ok_inj in ST1. subst r1.
    assert (rm0 = 0) as Z0 by (destruct (Z.eq_dec rm0 0); [done|]; exfalso; apply NL; split; [congruence|done]). rewrite Z0 in UT. apply rest_zero in UT as [-> ->].
    assert (OF : sw_out w2 = sw_out w + sr_out r) by (inversion RW as [? Z1|? ? ? Z1]; done). lia.
  - exfalso. rewrite NX in N. apply Ok_inj in N. rewrite <- N in *. unfold delta_out in O. apply delta_y_down in O. rewrite Z.sub_diag in O. cbn in O.
    destruct F as [(_ & _ & F & _)|[[?|?] _]]; [|done|lia].
    assert (RM : sw_remaining w1 = 0).
    { apply swap_iter_inv in E. destruct E as (sl1 & li1 & r1 & p0 & tk & p1 & tk' & ad & rm0 & rm1 & c & CL1 & ST1 & Q1 & Q2 & _ & _ & _ & UT & -> & _).
      fold (spacing k) in CL1. rewrite CL in CL1. apply Ok_inj in CL1. injection CL1 as <- <-. rewrite ST0 in ST1. apply Ok_inj in ST1. subst r1. cbn.
      assert (rm0 = 0) as Z0 by lia. rewrite Z0 in UT. by apply rest_zero in UT as [-> _]. }
    inversion RW as [? Z1|]; [|done]. subst w2. rewrite OU, OE in GT. unfold E30 in O. lia.
Qed.

Lemma run_rival s now k lim w wf : store_geo s k -> run s now k true true lim w wf ->
  forall v vf, loop_inv k true lim w -> loop_inv k true lim v -> rival w v -> sw_remaining w <= 10 ^ 14 ->
  run s now k true false lim v vf -> sw_out v + sw_remaining v < sw_out wf -> settled (sw_out v + sw_remaining v) wf vf.
Proof.
  intros G R. induction R as [w Z0|w w1 w2 NZ E R IH]; intros v vf I J [TP TI TO] AM RV GT.
  { exfalso. assert (0 <= sw_remaining v) by (destruct J; lia). lia. }
  pose proof (loop_step _ _ _ _ _ _ _ _ G I NZ E) as [PO I1]. pose proof (run_more _ _ _ _ _ _ _ _ G I1 R) as (RI & RO & RP).
  pose proof (iter_effect _ _ _ _ _ _ _ _ G I NZ E) as (EI & _ & _).
  destruct RV as [v Z0|v v1 v2 NZ' E' RV].
  { unfold settled. rewrite <- TP. split; [lia|]. split; [|lia]. pose proof (io_dir _ _ _ _ _ _ PO). cbn in *. lia. }
  pose proof (loop_step _ _ _ _ _ _ _ _ G J NZ' E') as [_ J1].
  pose proof (loop_pre s k true lim w G I NZ) as [U HS HF HL HW _ HLim HRem]. fold (spacing k) in HS. pose proof HW as (WL & _).
  pose proof E as E1. pose proof E' as E1'. apply swap_iter_inv in E1, E1'.
  destruct E1 as (sl & li & r & p0 & tk & p1 & tk' & ad & rm0 & rm1 & c & CL & ST & Q1 & Q2 & AF & NL & LT & UT & W1 & _).
  destruct E1' as (sl' & li' & r' & p0' & tk0 & p1' & tk0' & ad' & rm0' & rm1' & c' & CL' & ST' & Q1' & Q2' & AF' & NL' & LT' & UT' & V1 & _).
  fold (spacing k) in CL, CL'. rewrite <- TP in CL', ST', AF'. rewrite CL in CL'. apply Ok_inj in CL'. injection CL' as <- <-.
  pose proof (iter_step _ _ _ _ _ _ _ _ _ _ G I NZ CL E) as [SA SD].
  destruct (iter_last s now k lim w v w1 v1 w2 v2 sl li li r r' G I J NZ NZ' AM TI TO) as [(<- & NS & OB)|ST1]; try done; try (by rewrite <- TP).
  rewrite AF in AF'. apply Ok_inj in AF'. subst p0'.
  assert (tk0 = tk) as ->.
  { unfold limiting_tick in LT, LT'. destruct li as [[i []]|]; [|congruence..]. destruct LT as (t1 & T1 & ->), LT' as (t2 & T2 & ->). congruence. }
  pose proof (add_fee_keeps _ _ _ _ _ AF) as (K1 & _).
  pose proof (pool_update_tick_price _ _ _ _ _ _ _ _ _ _ _ _ _ _ _ UT) as PP. pose proof (pool_update_tick_price _ _ _ _ _ _ _ _ _ _ _ _ _ _ _ UT') as PP'.
  assert (MN : MIN_SQRT_PRICE <= sr_next r) by (rewrite NS; destruct SA as (_ & SA & _); unfold MIN_SQRT_PRICE; lia).
  pose proof (update_rival (p_set_price p0 (sr_next r)) r sl tk rm0 rm0' now (cf_protocol_fee (st_config s)) (pk_tier k) p1 tk' ad rm1 c p1' tk0' ad' rm1' c' MN ltac:(cbn; lia) Q2 Q2' UT UT')
    as (AD' & RM' & UR).
  pose proof (pool_update_tick_amounts _ _ _ _ _ _ _ _ _ _ _ _ _ _ _ Q2 UT) as (UA & _ & AD).
  assert (VO : sw_out v1 + sw_remaining v1 <= sw_out v + sw_remaining v) by (rewrite V1; cbn; lia).
  assert (AM1 : sw_remaining w1 <= 10 ^ 14) by (pose proof (io_rem _ _ _ _ _ _ PO); lia).
  destruct UR as [(<- & -> & -> & ->)|[->|[->|(i & -> & SN & -> & -> & -> & -> & -> & EN)]]].
  - assert (BB : sw_out v + sw_remaining v = sw_out v1 + sw_remaining v1) by (rewrite V1; cbn; lia). rewrite BB in *.
    apply IH; [exact I1|exact J1| |exact AM1|exact RV|exact GT]. rewrite W1, V1. constructor; cbn; done || lia.
  - assert (VF : v2 = v1) by (rewrite V1 in RV |- *; inversion RV as [? Z1|? ? ? Z1]; done). subst v2. unfold settled. rewrite V1 at 1 2 3. cbn. rewrite PP'. cbn.
    rewrite W1 in RI, RP. cbn in RI, RP. rewrite PP in RP. cbn in RP. split; [lia|]. split; [lia|]. intros _ _. lia.
  - exfalso. assert (OF : sw_out w2 = sw_out w + sr_out r) by (rewrite W1 in R; inversion R as [? Z1|? ? ? Z1]; done). lia.
  - assert (BB : sw_out v + sw_remaining v = sw_out v1 + sw_remaining v1) by (rewrite V1; cbn; lia). rewrite BB in *.
    eapply (parked_run s now k lim w1 v1); [exact G|exact I1|exact J1| |exact AM1|exact R|exact RV|exact GT].
    unfold limiting_tick in LT. destruct li as [[j []]|]; [destruct LT as (? & _ & ?); done| |done]. injection LT as ->.
    pose proof (closer_limit _ _ _ _ _ _ _ _ U (proj1 HS) WL CL) as (t & init & (T1 & T2 & _) & [(LI & SL & _)|(? & _)]); [|done]. injection LI as -> <-.
    rewrite W1, V1. constructor; cbn; try done; try lia.
Qed.

(** ** C103
    An offer of at most 10^14 units of token x yields [O]. Asking for less than [O] instead costs at most one unit more than the offer and lowers the price no further;
    asking for less than [O - 1] costs no more than the offer, if the liquidity the offer ends in is below 10^30 units (10^24 tokens). *)
Theorem C103_ask_partial e i i' s k a b lim s1 m1 O s2 m2 A B p1 p2 : reachable s -> a <= 10 ^ 14 ->
  execute e i s (Swap k true a true lim) = Ok (s1, m1, [("amount_in", a); ("amount_out", O)]%string) -> st_pools s1 !! k = Some p1 ->
  execute e i' s (Swap k true b false lim) = Ok (s2, m2, [("amount_in", A); ("amount_out", B)]%string) -> st_pools s2 !! k = Some p2 ->
  b < O -> A <= a + 1 /\ p_price p1 <= p_price p2 /\ (p_liq p1 < 10 ^ 30 -> b + 1 < O -> A <= a).
Proof.
  intros R AM H P1 H' P2 BO.
  destruct (execute_swap_inv _ _ _ _ _ _ _ _ _ _ _ R H) as (r & p & C & AT & Ep & Ep1 & Ha & _).
  destruct (execute_swap_inv _ _ _ _ _ _ _ _ _ _ _ R H') as (r' & q & C' & AT' & Eq & Eq1 & Ha' & _).
  rewrite Ep in Eq. injection Eq as <-. rewrite P1 in Ep1. injection Ep1 as ->. rewrite P2 in Eq1. injection Eq1 as ->.
  apply reachable_ereach in R. pose proof (ereach_store_geo _ _ _ R Ep) as G. pose proof (ereach_geo _ R _ _ Ep) as PG.
  apply calculate_swap_run in C, C'. destruct C as (p' & w & Ep' & _ & D & RW & _ & ->), C' as (q' & v & Eq' & _ & _ & RV & _ & ->).
  rewrite Ep in Ep', Eq'. injection Ep' as <-. injection Eq' as <-. cbn in *. injection AT as AI AO. injection AT' as AI' AO'.
  pose proof (loop_start k true lim p a PG Ha D) as I. pose proof (loop_start k true lim p b PG Ha' D) as J.
  assert (TW : rival (mkSwapState p a 0 0 0 []) (mkSwapState p b 0 0 0 [])) by (constructor; done).
  pose proof (run_rival _ _ _ _ _ _ G RW _ _ I J TW AM RV) as ED. cbn in ED. specialize (ED ltac:(lia)). unfold settled in ED. rewrite AI, AI'. lia.
Qed.
(** False for swaps that raise the price, by rounding: an offer of 909 yields 889, asking for 888 costs 910 (see C81). *)
Theorem C103_rising_refuted : exists s k a b O A lim s1 m1 s2 m2, reachable s /\ b < O /\ a < A /\
  execute v_env (v_info "carol") s (Swap k false a true lim) = Ok (s1, m1, [("amount_in", a); ("amount_out", O)]%string) /\
  execute v_env (v_info "carol") s (Swap k false b false lim) = Ok (s2, m2, [("amount_in", A); ("amount_out", b)]%string).
Proof.
  assert (X : match mo_swap mo_store mo_key false 909 true, mo_swap mo_store mo_key false 888 false with
    | Ok (_, _, a1), Ok (_, _, a2) => a1 = [("amount_in", 909); ("amount_out", 889)]%string /\ a2 = [("amount_in", 910); ("amount_out", 888)]%string
    | _, _ => False end) by (vm_compute; split; reflexivity).
  destruct (mo_swap mo_store mo_key false 909 true) as [[[s1 m1] a1]| |] eqn:E1; [|destruct X..].
  destruct (mo_swap mo_store mo_key false 888 false) as [[[s2 m2] a2]| |] eqn:E2; [|destruct X..]. destruct X as [-> ->].
  exists mo_store, mo_key, 909, 888, 889, 910, 65535383934512647000000000000, s1, m1, s2, m2. split; [eapply start_reachable, mo_store_ok|]. split; [done|]. split; [done|]. split; [exact E1|exact E2].
Qed.

(** The converse is false, by the fee: a request pays it on top, an offer as a share of the whole. Asking for 40000 costs 41657; offering 41657 yields 4 less. *)
Theorem C103_converse_refuted : exists s k b O A lim s1 m1 s2 m2, reachable s /\ O + 3 < b /\
  execute v_env (v_info "carol") s (Swap k true b false lim) = Ok (s1, m1, [("amount_in", A); ("amount_out", b)]%string) /\
  execute v_env (v_info "carol") s (Swap k true A true lim) = Ok (s2, m2, [("amount_in", A); ("amount_out", O)]%string).
Proof.
  assert (X : match mo_swap mo_store mo_key true 40000 false, mo_swap mo_store mo_key true 41657 true with
    | Ok (_, _, a1), Ok (_, _, a2) => a1 = [("amount_in", 41657); ("amount_out", 40000)]%string /\ a2 = [("amount_in", 41657); ("amount_out", 39996)]%string
    | _, _ => False end) by (vm_compute; split; reflexivity).
  destruct (mo_swap mo_store mo_key true 40000 false) as [[[s1 m1] a1]| |] eqn:E1; [|destruct X..].
  destruct (mo_swap mo_store mo_key true 41657 true) as [[[s2 m2] a2]| |] eqn:E2; [|destruct X..]. destruct X as [-> ->].
  exists mo_store, mo_key, 40000, 39996, 41657, 15258932000000000000, s1, m1, s2, m2. split; [eapply start_reachable, mo_store_ok|]. split; [done|]. split; [exact E1|exact E2].
Qed.

(** ** Example: an offer of 2000 yields 1995, asking for 1994 costs 1999 *)
Example ex_C103 : reachable mo_store /\
  mo_amounts mo_store mo_key true 2000 true = [("amount_in", 2000); ("amount_out", 1995)]%string /\
  mo_amounts mo_store mo_key true 1994 false = [("amount_in", 1999); ("amount_out", 1994)]%string.
Proof. split; [eapply start_reachable, mo_store_ok|]. vm_compute. split; reflexivity. Qed.
