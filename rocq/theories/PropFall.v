(** C25, continued: falling exact-input swaps. *)
From Verif Require Import Base Decimal SqrtPrice Clamm Log FeeGrowth Types Tick Pool Position Tickmap State Swap Exec Tactics
  PriceProofs LogProofs ClammProofs PropClamm BitmapProofs Frame Handlers History Basic Ledger Scenario Vectors SwapInv SwapGeo SwapLoop Modify PSum LiqInv Geo Clean PropLiq PropTrade
  PropSwap Flow PropSolv Forward PropFunds PropProt PropBlock.
From stdpp Require Import gmap strings.
From Coq Require Import Lia.
Open Scope Z_scope.

(** ** The next price of a falling exact-input step always exists *)
Lemma next_x_in_fwd P L x : price_ok P -> 0 < L <= U128MAX -> 0 <= x <= U128MAX -> exists n, get_next_sqrt_price_x_up P L x true = Ok n.
Proof.
  unfold price_ok. intros HP HL Hx. unfold get_next_sqrt_price_x_up. destruct (x =? 0); [eauto|].
  assert (LX : 0 < L * 1000000000000000000 <= U128MAX * 1000000000000000000) by lia.
  rewrite ck_yes by (split; [lia|etransitivity; [apply LX|vm_compute; discriminate]]). cbn [bind].
  unfold mul_to_value, mul_to_value_up. rewrite Z.div_1_r.
  assert (M : 0 <= P * x <= MAX_SQRT_PRICE * U128MAX) by (unfold MIN_SQRT_PRICE in *; split; [apply Z.mul_nonneg_nonneg; lia|apply Z.mul_le_mono_nonneg; lia]).
  assert (MX : MAX_SQRT_PRICE * U128MAX + U128MAX * 1000000000000000000 <= U256MAX) by (vm_compute; discriminate).
  rewrite ck_yes by lia. cbn [bind]. set (px := P * x) in *. clearbody px.
  unfold checked_big_div_values_up.
  assert (PLB : 0 <= P * L <= MAX_SQRT_PRICE * U128MAX) by (unfold MIN_SQRT_PRICE in *; split; [apply Z.mul_nonneg_nonneg; lia|apply Z.mul_le_mono_nonneg; lia]).
  pose proof (ceil_spec (P * L) LIQ_ONE ltac:(reflexivity)) as CS. set (num := (P * L + (LIQ_ONE - 1)) / LIQ_ONE) in *. clearbody num.
  set (den := L * 1000000000000000000 + px) in *. assert (DEN : L * 1000000000000000000 <= den <= U256MAX) by lia. clearbody den. clear M.
  assert (NB : 0 <= num * SP_ONE <= 10 ^ 90).
  { unfold LIQ_ONE, SP_ONE, MAX_SQRT_PRICE, U128MAX in *. lia. }
  assert (X1 : 10 ^ 90 + U256MAX <= U320MAX) by (vm_compute; discriminate).
  assert (Q : (num * SP_ONE + (den - 1)) / den <= P + 10 ^ 6 + 1).
  { apply Z.div_le_upper_bound; [lia|].
    assert (num * SP_ONE <= (P + 10 ^ 6) * (L * 1000000000000000000)) by (unfold LIQ_ONE, SP_ONE in *; lia).
    assert ((P + 10 ^ 6) * (L * 1000000000000000000) <= (P + 10 ^ 6) * den) by (apply Z.mul_le_mono_nonneg_l; [unfold MIN_SQRT_PRICE in *; lia|lia]). lia. }
  assert (Q0 : 0 <= (num * SP_ONE + (den - 1)) / den) by (apply Z.div_pos; lia).
  set (q := (num * SP_ONE + (den - 1)) / den) in *.
  assert (U3 : U256MAX <= U320MAX) by (vm_compute; discriminate).
  rewrite ck_yes by lia. cbn [bind]. rewrite ck_yes by lia. cbn [bind]. rewrite ck_yes by lia. cbn [bind].
  unfold cdiv. rewrite (proj2 (Z.eqb_neq den 0)) by lia. cbn [bind]. fold q. clearbody q.
  eexists. apply ck_yes. unfold MAX_SQRT_PRICE, U128MAX in *. lia.
Qed.

(** ** A falling exact-input step: with a fee, the last step never takes more than the offer *)
Lemma partial_fits n cur amount af a2 fee : MIN_SQRT_PRICE <= n -> MIN_SQRT_PRICE <= cur -> 0 < fee <= PCT_ONE -> 0 <= amount -> 0 <= af ->
  af * PCT_ONE <= amount * (PCT_ONE - fee) -> (n * cur / SP_ONE) * (a2 - 1 - af) < af -> a2 <= amount.
Proof.
  intros HN HC HF HA H0 AF K. destruct (Z.le_gt_cases a2 amount) as [|G]; [done|exfalso].
  assert (D : MIN_SQRT_PRICE * MIN_SQRT_PRICE / SP_ONE <= n * cur / SP_ONE) by (apply Z.div_le_mono; [reflexivity|apply Z.mul_le_mono_nonneg; unfold MIN_SQRT_PRICE in *; lia]).
  assert (D1 : PCT_ONE <= n * cur / SP_ONE) by (etransitivity; [|exact D]; vm_compute; discriminate).
  set (d := n * cur / SP_ONE) in *. clearbody d. clear D.
  assert (A1 : amount <= (amount - af) * PCT_ONE).
  { assert (amount * 1 <= amount * fee) by (apply Z.mul_le_mono_nonneg_l; lia). lia. }
  assert (A2 : PCT_ONE * (amount - af) <= d * (amount - af)) by (apply Z.mul_le_mono_nonneg_r; [unfold PCT_ONE in *; lia|lia]).
  assert (A3 : d * (amount - af) <= d * (a2 - 1 - af)) by (apply Z.mul_le_mono_nonneg_l; [unfold PCT_ONE in *; lia|lia]).
  assert (af <= amount) by (unfold PCT_ONE in *; lia). lia.
Qed.
Definition FLOOR : Z := MIN_SQRT_PRICE + 65536.
Lemma landing_floor target n cur : FLOOR <= target -> MIN_SQRT_PRICE <= cur -> (target - n) * cur < SP_ONE -> MIN_SQRT_PRICE <= n.
Proof.
  unfold FLOOR. intros HT HC H. destruct (Z.le_gt_cases MIN_SQRT_PRICE n) as [|G]; [done|exfalso].
  assert (65537 * MIN_SQRT_PRICE <= (target - n) * cur) by (apply Z.mul_le_mono_nonneg; unfold MIN_SQRT_PRICE in *; lia).
  unfold MIN_SQRT_PRICE, SP_ONE in *. lia.
Qed.
Lemma step_falling_fwd cur target L amount fee : price_ok cur -> price_ok target -> FLOOR <= target <= cur -> liq_ok L -> 0 <= amount <= 10 ^ 29 ->
  0 < fee <= PCT_ONE -> exists r, compute_swap_step cur target L amount true fee = Ok r /\ sr_in r + sr_fee r <= U128MAX.
Proof.
  intros HC HT LE HL HA HF. assert (HA' : amount <= U128MAX) by (unfold U128MAX; lia). pose proof HC as HC'. pose proof HT as HT'. unfold price_ok, liq_ok in *. unfold compute_swap_step.
  destruct (Z.eqb_spec L 0) as [|L0]; [eexists; split; [reflexivity|cbn; discriminate]|]. rewrite (proj2 (Z.leb_le target cur)) by lia.
  unfold pct_complement. rewrite ckp_yes by (unfold PCT_ONE, U64MAX in *; lia). cbn [bind].
  unfold big_mul. pose proof (floor_spec (amount * (PCT_ONE - fee)) PCT_ONE ltac:(reflexivity)) as AF. set (af := amount * (PCT_ONE - fee) / PCT_ONE) in *.
  assert (AF2 : 0 <= af <= amount).
  { assert (0 <= amount * (PCT_ONE - fee) <= amount * PCT_ONE) by (split; [apply Z.mul_nonneg_nonneg; lia|apply Z.mul_le_mono_nonneg_l; lia]).
    unfold PCT_ONE in *. lia. }
  assert (AF3 : af * PCT_ONE <= amount * (PCT_ONE - fee)) by lia.
  clearbody af. clear AF. rewrite ckp_yes by lia. cbn [bind].
  destruct (delta_x_fwd target cur L true HT HC HL) as [ai EI]. rewrite EI. cbn [bind].
  assert (FE : forall v, 0 <= v <= 3 * 10 ^ 29 -> exists q, big_mul_up PCT_ONE v fee = Ok q /\ v + q <= U128MAX).
  { intros v V. unfold big_mul_up. assert (0 <= v * fee <= v * PCT_ONE) by (split; [apply Z.mul_nonneg_nonneg; lia|apply Z.mul_le_mono_nonneg_l; lia]).
    assert (Q : 0 <= (v * fee + (PCT_ONE - 1)) / PCT_ONE <= v).
    { split; [apply Z.div_pos; unfold PCT_ONE in *; lia|]. apply Z.lt_succ_r, Z.div_lt_upper_bound; unfold PCT_ONE in *; lia. }
    eexists. split; [apply ckp_yes|]; unfold U128MAX; lia. }
  destruct (Z.leb_spec ai af) as [LI|GT].
  - cbn [bind]. rewrite Z.eqb_refl. cbn [negb orb andb bind]. destruct (delta_y_fwd target cur L false HT HC HL) as [ao EO]. rewrite EO. cbn [bind].
    pose proof EI as EI'. apply delta_x_up in EI'; [|unfold MIN_SQRT_PRICE in *; lia|unfold MIN_SQRT_PRICE in *; lia]. destruct (FE ai) as (q & Q & QB); [lia|]. rewrite Q. cbn [bind]. eexists. split; [reflexivity|exact QB].
  - destruct (next_x_in_fwd cur L af HC ltac:(lia) ltac:(lia)) as [n EN]. unfold get_next_sqrt_price_from_input. rewrite EN. cbn [bind].
    pose proof (next_in_target_down cur target L af n ai ltac:(unfold MIN_SQRT_PRICE in *; lia) ltac:(lia) ltac:(lia) EI ltac:(lia) EN) as LD.
    pose proof (landing_floor _ _ _ (proj1 LE) (proj1 HC') LD) as LF.
    pose proof (next_in_side cur L af true n (proj1 HC') ltac:(lia) ltac:(lia) EN) as NS. cbn in NS.
    assert (HN : price_ok n) by (unfold price_ok; lia).
    destruct (delta_x_fwd n cur L true HN HC HL) as [a2 E2].
    destruct (delta_y_fwd n cur L false HN HC HL) as [o2 O2].
    pose proof (partial_in_down cur L af n a2 (proj1 HC') ltac:(lia) ltac:(lia) ltac:(lia) EN E2) as PD.
    pose proof (partial_fits n cur amount af a2 fee LF (proj1 HC') HF (proj1 HA) (proj1 AF2) AF3 PD) as FIT.
    pose proof E2 as E2'. apply delta_x_up in E2'; [|unfold MIN_SQRT_PRICE in *; lia|unfold MIN_SQRT_PRICE in *; lia].
    destruct (Z.eqb_spec target n) as [->|NE]; cbn [negb orb andb].
    + rewrite E2 in EI. apply Ok_inj in EI. subst ai. cbn [bind]. rewrite O2. cbn [bind]. destruct (FE a2) as (q & Q & QB); [lia|]. rewrite Q. cbn [bind]. eexists. split; [reflexivity|exact QB].
    + rewrite E2. cbn [bind]. rewrite O2. cbn [bind]. unfold sub_p. rewrite ckp_yes by lia. cbn [bind]. eexists. split; [reflexivity|]. cbn. lia.
Qed.
Lemma enough_falling_fwd rem P L fee : price_ok P -> liq_ok L -> 0 <= rem <= U128MAX -> 0 <= fee <= PCT_ONE ->
  exists b, is_enough_amount_to_change_price rem P L fee true true = Ok b.
Proof.
  unfold liq_ok. intros HP HL HR HF. unfold is_enough_amount_to_change_price. destruct (Z.eqb_spec L 0) as [|L0]; [eauto|].
  unfold pct_complement. rewrite ckp_yes by (unfold PCT_ONE, U64MAX in *; lia). cbn [bind].
  unfold big_mul. pose proof (floor_spec (rem * (PCT_ONE - fee)) PCT_ONE ltac:(reflexivity)) as AF. set (af := rem * (PCT_ONE - fee) / PCT_ONE) in *.
  assert (AF2 : 0 <= af <= rem).
  { assert (0 <= rem * (PCT_ONE - fee) <= rem * PCT_ONE) by (split; [apply Z.mul_nonneg_nonneg; lia|apply Z.mul_le_mono_nonneg_l; lia]).
    unfold PCT_ONE in *. lia. }
  clearbody af. rewrite ckp_yes by lia. cbn [bind].
  destruct (next_x_in_fwd P L af HP ltac:(lia) ltac:(lia)) as [n EN]. unfold get_next_sqrt_price_from_input. rewrite EN. cbn [bind]. eauto.
Qed.

(** ** An iteration of a falling exact-input swap *)
Record ftotals (P0 a : Z) (w : swap_state) : Prop := {
  ft_in : 0 <= sw_in w;
  ft_sum : sw_in w + sw_remaining w = a;
  ft_fees : 0 <= sw_fee w <= sw_in w;
  ft_out : 0 <= sw_out w;
  ft_le : MIN_SQRT_PRICE <= p_price (sw_pool w) <= P0;
  ft_tel : sw_out w * E30 <= U128MAX * (P0 - p_price (sw_pool w));
  ft_prot : 0 <= counter true (sw_pool w);
  ft_room : counter true (sw_pool w) + sw_remaining w <= U128MAX
}.
Lemma step_out_falling cur target L amount fee r : step_args cur target L amount fee -> target <= cur ->
  compute_swap_step cur target L amount true fee = Ok r -> sr_out r * E30 <= U128MAX * (cur - sr_next r).
Proof.
  intros SA LT H. pose proof (C03_step_bounds_partial _ _ _ _ _ _ _ SA H) as (B1 & _). specialize (B1 ltac:(lia)).
  destruct SA as (Hc & Ht & HL & Ham & Hf). change (2 ^ 128) with (U128MAX + 1) in *.
  destruct (Z.eq_dec L 0) as [->|L0].
  { unfold compute_swap_step in H. cbn in H. apply Ok_inj in H. subst r. cbn in *. unfold U128MAX, E30. lia. }
  pose proof (step_inv _ _ _ _ _ _ _ L0 H) as [_ _ (o & Ho & Hor) _]. cbn in Hor. rewrite Hor.
  unfold delta_out in Ho. rewrite (proj2 (Z.leb_le _ _) LT) in Ho. apply delta_y_down_exact in Ho. etransitivity; [exact Ho|].
  apply Z.mul_le_mono_nonneg; lia.
Qed.
Lemma out_small so P0 P : MIN_SQRT_PRICE <= P -> P0 <= MAX_SQRT_PRICE -> so * E30 <= U128MAX * (P0 - P) -> so <= U128MAX.
Proof. intros A B H. assert (U128MAX * (P0 - P) <= U128MAX * E30) by (apply Z.mul_le_mono_nonneg_l; [discriminate|unfold MIN_SQRT_PRICE, MAX_SQRT_PRICE, E30 in *; lia]). unfold E30 in *. lia. Qed.

Definition crossable_down (s : store) (now : Z) (k : pool_key) (w : swap_state) : Prop :=
  forall t, is_init s k (spacing k) t -> t <= p_tick (sw_pool w) -> (forall j, t < j <= p_tick (sw_pool w) -> ~ is_init s k (spacing k) j) ->
  exists tk, st_ticks s !! (k, t) = Some tk /\
    forall q, p_liq q = p_liq (sw_pool w) -> p_tick q = p_tick (sw_pool w) -> p_start q = p_start (sw_pool w) ->
      exists t' q', tick_cross tk q now = Ok (t', q').

Definition refusal (x : err) : Prop := x = PriceLimitReached \/ x = TickLimitReached \/ x = ESub.
Lemma iter_falling_fwd s now k lim w P0 a : store_geo s k -> loop_inv k true lim w -> sw_remaining w <> 0 -> ftotals P0 a w -> P0 <= MAX_SQRT_PRICE -> a <= 10 ^ 29 ->
  0 < ft_fee (pk_tier k) -> FLOOR <= lim ->
  0 <= cf_protocol_fee (st_config s) <= PCT_ONE -> (p_liq (sw_pool w) <> 0 -> a <= 34028 * p_liq (sw_pool w)) -> crossable_down s now k w ->
  (exists w', swap_iter s now k true true lim (end_tick true k) w = Ok w') \/
  (exists x, swap_iter s now k true true lim (end_tick true k) w = Err x /\ refusal x).
Proof.
  intros G I NR T PM HA FP HFL HF HL CR. pose proof (loop_pre _ _ _ _ _ G I NR) as PRE. destruct PRE as [U HS HFE HLQ HW _ HLim HRem].
  destruct T as [T1 T2 T3 T4 T5 T6 T7 T8]. pose proof HW as (WL & WP & _).
  pose proof (legal_price_range _ _ WL) as CRG. pose proof (legal_price_range _ _ (top_legal (spacing k) ltac:(lia))) as XR.
  assert (A29 : 10 ^ 29 <= U128MAX) by (vm_compute; discriminate).
  assert (PW : price_ok (p_price (sw_pool w))) by (unfold price_ok; lia).
  assert (HLr : p_liq (sw_pool w) <> 0 -> sw_remaining w <= 34028 * p_liq (sw_pool w)) by (intros X; specialize (HL X); lia).
  assert (RE : forall x, refusal x -> forall r : res swap_state, r = Err x -> (exists w', r = Ok w') \/ (exists x, r = Err x /\ refusal x)) by (intros x X r ->; right; eauto).
  unfold swap_iter.
  destruct (closer_fwd s lim true (p_tick (sw_pool w)) (spacing k) k U ltac:(lia) WL) as [(sl & li & CL)|CL]; rewrite CL; [|apply (RE TickLimitReached); [right; by left|reflexivity]].
  cbn [bind]. apply closer_limit in CL; [|done|lia|done]. destruct CL as (t & init & TG & CL). pose proof TG as (TL1 & TI & TC1 & TC2 & TC3).
  pose proof (legal_price_range _ _ TL1) as TR.
  pose proof (legal_price_le _ _ _ TL1 WL TC1) as TLE.
  assert (SLR : FLOOR <= sl <= p_price (sw_pool w)) by (destruct CL as [(_ & -> & X)|(_ & -> & X)]; lia).
  assert (FM : MIN_SQRT_PRICE <= FLOOR) by (vm_compute; discriminate).
  assert (PS : price_ok sl) by (unfold price_ok; unfold price_ok in PW; lia).
  assert (SA : step_args (p_price (sw_pool w)) sl (p_liq (sw_pool w)) (sw_remaining w) (ft_fee (pk_tier k))).
  { unfold step_args. change (2 ^ 128) with (U128MAX + 1). change 15258932000000000000 with MIN_SQRT_PRICE.
    change 65535383934512647000000000000 with MAX_SQRT_PRICE. change 1000000000000 with PCT_ONE. unfold price_ok in *. repeat split; lia. }
  destruct (step_falling_fwd (p_price (sw_pool w)) sl (p_liq (sw_pool w)) (sw_remaining w) (ft_fee (pk_tier k)) PW PS SLR HLQ ltac:(lia) ltac:(lia)) as (r & ER & RB).
  rewrite ER. cbn [bind].
  pose proof (C03_step_bounds_partial _ _ _ _ _ _ _ SA ER) as (B1 & _ & _ & B4 & _ & N1 & N2 & N3 & _). specialize (B1 ltac:(lia)). specialize (B4 ltac:(lia)). change (10 ^ 24) with SP_ONE in B4.
  pose proof (landing_floor _ _ _ (proj1 SLR) (proj1 PW) B4) as LF.
  pose proof (step_out_falling _ _ _ _ _ _ SA (proj2 SLR) ER) as SO.
  rewrite (add_p_yes (sr_in r) (sr_fee r)) by lia. cbn [bind].
  destruct (Z.le_gt_cases (sr_in r + sr_fee r) (sw_remaining w)) as [B6|B6].
  2:{ apply (RE ESub); [right; by right|]. unfold sub_e, ck, in_range. rewrite (proj2 (Z.leb_gt 0 _)) by lia. reflexivity. }
  rewrite (sub_e_yes ESub (sw_remaining w)) by lia. cbn [bind].
  destruct (add_fee_fwd (sw_pool w) (sr_fee r) true (cf_protocol_fee (st_config s)) (proj1 HLQ) HF ltac:(lia)) as (p1 & EA & PC); [intros X; specialize (HLr X); lia|exact T7|lia|].
  rewrite EA. cbn [bind]. pose proof (add_fee_keeps _ _ _ _ _ EA) as (K1 & K2 & K3 & K4 & K5).
  rewrite (add_p_yes (sw_fee w)) by lia. cbn [bind]. rewrite (add_p_yes (sw_in w)) by lia. cbn [bind].
  assert (TEL : (sw_out w + sr_out r) * E30 <= U128MAX * (P0 - sr_next r)) by lia.
  rewrite (add_p_yes (sw_out w)) by (split; [lia|]; eapply out_small; [exact LF|exact PM|exact TEL]). cbn [bind].
  match goal with |- context [if ?b then Err PriceLimitReached else _] => destruct b end; [apply (RE PriceLimitReached); [by left|reflexivity]|].
  assert (GT : exists c', get_tick_at_sqrt_price (sr_next r) (spacing k) = Ok c').
  { destruct (get_tick_ok (sr_next r) (spacing k) ltac:(lia) (proj1 HS)) as (j & _ & E). eauto. }
  destruct GT as [c' GT].
  assert (FIN : forall (b : bool) (x : swap_state), (exists w', (if b then Err TickLimitReached else Ok x) = Ok w') \/ (exists y, (if b then Err TickLimitReached else Ok x) = Err y /\ refusal y)).
  { intros [] x; [right; eexists; split; [reflexivity|right; by left]|eauto]. }
  destruct CL as [(-> & -> & X)|(-> & -> & X)].
  - assert (EN : exists en, is_enough_amount_to_change_price (sw_remaining w - (sr_in r + sr_fee r)) (sr_next r) (p_liq (p_set_price p1 (sr_next r))) (ft_fee (pk_tier k)) true true = Ok en).
    { apply enough_falling_fwd; [unfold price_ok in *; lia|unfold liq_ok; cbn; lia|lia|lia]. }
    destruct EN as [en EN].
    destruct init.
    + destruct (CR t TI TC1 TC3) as (tk & TK & CRO). unfold get_tick. rewrite TK. cbn [bind]. unfold pool_update_tick. cbn [orb].
      destruct (Z.eqb_spec (tprice t) (sr_next r)) as [NE|NE]; cbn [negb].
      * rewrite EN. cbn [bind negb orb andb]. destruct en.
        -- destruct (CRO (p_set_price p1 (sr_next r))) as (t' & q' & CX); [done|done|done|]. rewrite CX. cbn [unwrap bind].
           rewrite add_p_yes by lia. cbn [bind]. apply FIN.
        -- destruct (Z.eqb_spec (sw_remaining w - (sr_in r + sr_fee r)) 0) as [R0|R0]; cbn [negb bind].
           ++ rewrite add_p_yes by lia. cbn [bind]. apply FIN.
           ++ destruct (add_fee_fwd (p_set_price p1 (sr_next r)) (sw_remaining w - (sr_in r + sr_fee r)) true (cf_protocol_fee (st_config s))) as (p2 & EA2 & _);
                [cbn; lia|exact HF|lia|cbn; rewrite K1; intros Y; specialize (HLr Y); lia|cbn in *; lia|cbn in *; lia|].
              rewrite EA2. cbn [bind]. rewrite add_p_yes by lia. cbn [bind]. apply FIN.
      * rewrite GT. cbn [bind]. rewrite add_p_yes by lia. cbn [bind]. apply FIN.
    + cbn [bind]. unfold pool_update_tick. cbn [orb].
      destruct (Z.eqb_spec (tprice t) (sr_next r)) as [NE|NE]; cbn [negb].
      * rewrite EN. cbn [bind negb orb andb]. rewrite add_p_yes by lia. cbn [bind]. apply FIN.
      * rewrite GT. cbn [bind]. rewrite add_p_yes by lia. cbn [bind]. apply FIN.
  - cbn [bind]. unfold pool_update_tick. cbn [orb]. rewrite GT. cbn [bind]. rewrite add_p_yes by lia. cbn [bind]. apply FIN.
Qed.

Lemma iter_falling_keeps s now k lim w w' P0 a : store_geo s k -> loop_inv k true lim w -> sw_remaining w <> 0 -> ftotals P0 a w -> FLOOR <= lim ->
  0 <= cf_protocol_fee (st_config s) <= PCT_ONE -> swap_iter s now k true true lim (end_tick true k) w = Ok w' -> ftotals P0 a w'.
Proof.
  intros G I NR T HFL HF H. pose proof (loop_pre _ _ _ _ _ G I NR) as PRE. pose proof (ip_liq _ _ _ _ _ PRE) as HLQ.
  pose proof (ip_lim _ _ _ _ _ PRE) as HLim. cbn in HLim.
  assert (FM : MIN_SQRT_PRICE <= FLOOR) by (vm_compute; discriminate).
  apply iter_cases in H; [|done]. destruct H as (t & init & sl & r & p0 & rm0 & TG & SL & SA & ST & SIDE & -> & R0 & AF & _ & IC & _). cbn in SL, SIDE.
  pose proof (C03_step_bounds_partial _ _ _ _ _ _ _ SA ST) as (B1 & _ & _ & B4 & _ & N1 & N2 & N3 & _). specialize (B1 ltac:(lia)). specialize (B4 ltac:(lia)). change (10 ^ 24) with SP_ONE in B4.
  assert (SLF : FLOOR <= sl) by lia.
  pose proof (landing_floor _ _ _ SLF (proj1 (ft_le _ _ _ T)) B4) as LF.
  pose proof (step_out_falling _ _ _ _ _ _ SA ltac:(lia) ST) as SO.
  pose proof (add_fee_counter _ _ _ _ _ (proj1 HLQ) HF N3 AF) as PC. destruct T as [T1 T2 T3 T4 T5 T6 T7 T8].
  pose proof (add_fee_keeps _ _ _ _ _ AF) as (K1 & _).
  destruct IC as [tk t' p1 -> NX -> TK CX _ ->|en -> NX -> _ ->|tk p2 _ -> NX -> TK P2 ->|c' NX GT ->].
  - apply (cross_counter _ _ _ _ _ true) in CX. destruct CX as [C1 C2]. cbn in C1, C2.
    constructor; unfold counter in *; cbn; rewrite ?C1, ?C2; lia.
  - constructor; unfold counter in *; cbn; lia.
  - destruct P2 as [[RZ ->]|(_ & RP & EA2)].
    + constructor; unfold counter in *; cbn; lia.
    + pose proof (add_fee_keeps _ _ _ _ _ EA2) as (Q1 & Q2 & Q3 & _). apply add_fee_counter in EA2; [|cbn; lia|exact HF|lia]. cbn in Q1, Q2, Q3.
      constructor; unfold counter in *; cbn in *; try lia.
  - constructor; unfold counter in *; cbn; lia.
Qed.

(** ** The whole loop *)
Definition thick_below (s : store) (k : pool_key) (c0 a : Z) : Prop :=
  forall c, c <= c0 -> let L := psum (fun po => if decide (po_key po = k) then (if (po_lower po <=? c) && (c <? po_upper po) then po_liq po else 0) else 0) (st_positions s) in
  L <> 0 -> a <= 34028 * L.

Lemma loop_falling s now k p lim a gas w : clean_history s -> st_pools s !! k = Some p -> 0 <= p_start p <= now -> now < 2 ^ 64 ->
  0 <= a <= 10 ^ 29 -> FLOOR <= lim < p_price p -> p_price p <= MAX_SQRT_PRICE -> 0 < ft_fee (pk_tier k) -> 0 <= cf_protocol_fee (st_config s) <= PCT_ONE -> thick_below s k (p_tick p) a ->
  loop_state s now k true true lim (mkSwapState p a 0 0 0 []) w -> p_tick (sw_pool w) <= p_tick p -> ftotals (p_price p) a w ->
  (sw_remaining w = 0 \/ p_tick (sw_pool w) + MAX_TICK < Z.of_nat gas) ->
  (exists w', swap_loop gas s now k true true lim (end_tick true k) w = Ok w') \/ (exists x, swap_loop gas s now k true true lim (end_tick true k) w = Err x /\ refusal x).
Proof.
  intros C E TM TM' HA D PM FP HF TH. assert (A29 : 10 ^ 29 <= U128MAX) by (vm_compute; discriminate). assert (HA' : 0 <= a <= U128MAX) by lia.
  pose proof (reachable_ereach _ (clean_history_reachable _ C)) as R. pose proof (ereach_store_geo _ _ _ R E) as G. destruct (sg_sp _ _ G) as [S1 S2].
  revert w. induction gas as [|g IH]; intros w LS MT T GA; cbn [swap_loop]; destruct (Z.eqb_spec (sw_remaining w) 0) as [Z0|Z0].
  - left. eauto.
  - exfalso. destruct GA as [GA|GA]; [done|]. destruct (loop_state_inv s now k p true true a lim w C E HA' (proj2 D) LS) as [I _].
    destruct (lv_weak _ _ _ _ I) as ((WL & _) & _). lia.
  - left. eauto.
  - destruct GA as [GA|GA]; [done|]. destruct (loop_state_inv s now k p true true a lim w C E HA' (proj2 D) LS) as [I AC]. specialize (AC Z0).
    assert (CR : crossable_down s now k w).
    { intros t TI TC TD. destruct (C43_crossing_partial s now k p true true a lim w t C E TM TM') as (tk & TK & CX);
        [change (2 ^ 128) with (U128MAX + 1); lia|exact (proj2 D)|exact LS|exact Z0|exact TI|split; [exact TC|exact TD]|].
      exists tk. split; [exact TK|]. intros q Q1 Q2 Q3. destruct (CX q Q1 Q2 Q3) as (t' & q' & X & _). eauto. }
    destruct (iter_falling_fwd s now k lim w (p_price p) a G I Z0 T PM ltac:(lia) FP (proj1 D) HF) as [(w1 & E1)|(x & E1 & X)]; [|exact CR| |].
    + intros NL. rewrite AC in *. apply (TH _ MT). exact NL.
    + rewrite E1. cbn [bind]. pose proof (iter_falling_keeps _ _ _ _ _ _ _ _ G I Z0 T (proj1 D) HF E1) as T1.
      destruct (iter_limit _ _ _ _ _ _ _ _ G I Z0 E1) as (_ & _ & DEC).
      destruct (Z.eq_dec (sw_remaining w1) 0) as [Z1|Z1].
      * left. destruct g; cbn [swap_loop]; rewrite (proj2 (Z.eqb_eq _ 0) Z1); eauto.
      * specialize (DEC Z1). apply IH; [eapply ls_next; [exact LS|exact Z0|exact E1]|lia|exact T1|right; lia].
    + rewrite E1. right. exists x. split; [reflexivity|exact X].
Qed.

(** * C25 *)
Theorem C25_falling_input_partial e i s k p a lim :
  clean_history s -> env_typed e i = true -> st_pools s !! k = Some p -> 0 <= p_start p <= e_millis e ->
  cf_protocol_fee (st_config s) <= 10 ^ 12 -> 443636 < Z.of_nat (e_gas e) ->
  0 < ft_fee (pk_tier k) ->
  0 < a <= 10 ^ 29 -> p_protx p + a < 2 ^ 128 -> 15258932000000065536 <= lim < p_price p ->
  can_pay e i (pk_x k) a ->
  (* wherever there is any liquidity ahead, there is at least 1/34028 of the offer *)
  (forall c, c <= p_tick p ->
     let L := psum (fun po => if decide (po_key po = k) then (if (po_lower po <=? c) && (c <? po_upper po) then po_liq po else 0) else 0) (st_positions s) in
     L <> 0 -> a <= 34028 * L) ->
  (exists s' ms out, execute e i s (Swap k true a true lim) = Ok (s', ms, [("amount_in"%string, a); ("amount_out"%string, out)]) /\ 0 < out) \/
  execute e i s (Swap k true a true lim) = Err PriceLimitReached \/
  execute e i s (Swap k true a true lim) = Err TickLimitReached \/
  execute e i s (Swap k true a true lim) = Err NoGainSwap \/
  execute e i s (Swap k true a true lim) = Err ESub.
Proof.
  intros C T E TM PF GA FP HA ROOM LIM CP TH. change (10 ^ 12) with PCT_ONE in PF. change (2 ^ 128) with (U128MAX + 1) in *. change 15258932000000065536 with FLOOR in LIM.
  assert (A29 : 10 ^ 29 <= U128MAX) by (vm_compute; discriminate).
  pose proof (clean_history_reachable _ C) as R. pose proof (reachable_ereach _ R) as ER.
  pose proof (ereach_store_geo _ _ _ ER E) as G. pose proof (ereach_geo _ ER _ _ E) as [PG PL]. destruct (sg_sp _ _ G) as [S1 S2]. pose proof (sg_fee _ _ G) as SF.
  pose proof (co_protocol _ (ereach_config _ ER)) as PF0. pose proof (ereach_prot _ ER _ _ E) as [PR _].
  pose proof PG as (WL & WP & _). pose proof (legal_price_range _ _ WL) as CRG. pose proof (legal_price_range _ _ (top_legal (spacing k) S1)) as XR.
  assert (FM : MIN_SQRT_PRICE <= FLOOR) by (vm_compute; discriminate).
  assert (MM : MAX_SQRT_PRICE <= U128MAX) by (vm_compute; discriminate).
  assert (M : msg_typed (Swap k true a true lim) = true).
  { cbn [msg_typed]. unfold key_ok, tier_ok, u64_ok, u128_ok. unfold MIN_SQRT_PRICE, PCT_ONE, U64MAX in *. rewrite !andb_true_iff. repeat split; apply in_range_spec; lia. }
  assert (NW : e_millis e < 2 ^ 64).
  { unfold env_typed in T. apply andb_prop in T. destruct T as [T _]. apply andb_prop in T. destruct T as [_ T]. apply in_range_spec in T. unfold e_millis.
    apply Z.div_lt_upper_bound; [lia|]. unfold U64MAX in T. lia. }
  assert (LR : (exists w', swap_loop (e_gas e) s (e_millis e) k true true lim (end_tick true k) (mkSwapState p a 0 0 0 []) = Ok w') \/
               (exists x, swap_loop (e_gas e) s (e_millis e) k true true lim (end_tick true k) (mkSwapState p a 0 0 0 []) = Err x /\ refusal x)).
  { eapply (loop_falling s (e_millis e) k p lim a); [exact C|exact E|lia|exact NW|lia|lia|lia|exact FP|lia|exact TH|constructor|cbn; lia| |].
    - constructor; unfold counter; cbn; try lia.
    - right. cbn. destruct WL as [WL _]. unfold MAX_TICK in *. lia. }
  unfold execute. rewrite T, M. cbn [andb dispatch]. unfold swap, swap_internal, calculate_swap.
  rewrite (proj2 (Z.eqb_neq a 0)) by lia. unfold get_pool. rewrite E. cbn [bind].
  rewrite (proj2 (Z.leb_gt (p_price p) lim)) by lia. rewrite (proj2 (Z.ltb_ge MAX_SQRT_PRICE lim)) by lia. cbn [orb]. change (get_min_tick (spacing k)) with (end_tick true k).
  destruct LR as [(w & LR)|(x & LR & [->|[->| ->]])]; rewrite LR; cbn [bind]; [|tauto|tauto|tauto].
  destruct (Z.eqb_spec (sw_out w) 0) as [|O]; [tauto|]. cbn [bind cr_in cr_out cr_ticks cr_pool].
  assert (CS : calculate_swap (e_gas e) s (e_millis e) k true a true lim =
    Ok (mkCalc (sw_in w) (sw_out w) (p_price p) (p_price (sw_pool w)) (sw_fee w) (sw_pool w) (sw_ticks w))).
  { unfold calculate_swap. rewrite (proj2 (Z.eqb_neq a 0)) by lia. unfold get_pool. rewrite E. cbn [bind].
    rewrite (proj2 (Z.leb_gt (p_price p) lim)) by lia. rewrite (proj2 (Z.ltb_ge MAX_SQRT_PRICE lim)) by lia. cbn [orb]. change (get_min_tick (spacing k)) with (end_tick true k).
    rewrite LR. cbn [bind]. by rewrite (proj2 (Z.eqb_neq _ 0) O). }
  assert (A0 : 0 <= a) by lia. pose proof (calculate_swap_exact_in _ _ _ _ _ _ _ _ A0 CS) as CI. cbn [cr_in] in CI.
  destruct (calculate_swap_frame _ _ _ _ _ _ _ _ _ CS) as (p' & _ & _ & _ & _ & F & _). cbn [cr_ticks] in F.
  destruct (update_ticks_total s k (sw_ticks w)) as [s1 ->]; [apply crossed_exists; [by apply ereach_indexed|done]|]. cbn [bind].
  destruct (calculate_swap_out _ _ _ _ _ _ _ _ _ CS) as [V _]. cbn [cr_out] in V.
  destruct (transfer_from_total e i (pk_x k) a A0 CP) as [m0 E0]. rewrite CI, E0. cbn [bind].
  left. eexists _, _, _. split; [reflexivity|]. cbn [cr_out]. lia.
Qed.

(** *** An example *)
Lemma ex_C25_falling_holds : exists s' ms, execute v_env (v_info "bob") sc0 (Swap v_key true 5000 true (MIN_SQRT_PRICE + 65536)) = Ok (s', ms, [("amount_in"%string, 5000); ("amount_out"%string, 4967)]).
Proof.
  assert (H : match execute v_env (v_info "bob") sc0 (Swap v_key true 5000 true (MIN_SQRT_PRICE + 65536)) with Ok (_, _, [(a, b); (c, d)]) => (a, b, c, d) = ("amount_in", 5000, "amount_out", 4967)%string | _ => False end) by (vm_compute; reflexivity).
  destruct (execute _ _ _ _) as [[[s' ms] at']|?|]; [|destruct H|destruct H]. exists s', ms.
  destruct at' as [|[a b] [|[c d] [|? ?]]]; try exact (False_ind _ H). injection H as -> -> -> ->. reflexivity.
Qed.
Example ex_C25_falling : exists p s' ms, clean_history sc0 /\ env_typed (long_env v_env) (v_info "bob") = true /\ st_pools sc0 !! v_key = Some p /\ 0 <= p_start p <= e_millis (long_env v_env) /\
  cf_protocol_fee (st_config sc0) = 10 ^ 10 /\ 443636 < Z.of_nat (e_gas (long_env v_env)) /\ 0 < ft_fee (pk_tier v_key) /\ p_protx p + 5000 < 2 ^ 128 /\ 15258932000000065536 <= MIN_SQRT_PRICE + 65536 < p_price p /\
  can_pay (long_env v_env) (v_info "bob") (pk_x v_key) 5000 /\ thick_below sc0 v_key (p_tick p) 5000 /\
  execute (long_env v_env) (v_info "bob") sc0 (Swap v_key true 5000 true (MIN_SQRT_PRICE + 65536)) = Ok (s', ms, [("amount_in"%string, 5000); ("amount_out"%string, 4967)]).
Proof.
  destruct ex_C25_falling_holds as (s' & ms & H).
  assert (Q : exists p, st_pools sc0 !! v_key = Some p /\ (p_start p = 1000 /\ p_protx p + 5000 < 2 ^ 128 /\ p_price p = 999880762839527014734147)) by (apply some_inv; vm_compute; repeat split).
  destruct Q as (p & EP & P1 & P2 & P3). exists p, s', ms. rewrite P1, P3.
  split; [exact sc0_clean|]. split; [vm_compute; reflexivity|]. split; [exact EP|]. split; [split; vm_compute; discriminate|].
  split; [vm_compute; reflexivity|]. split; [unfold long_env; cbn [e_gas]; rewrite Z2Nat.id; lia|]. split; [reflexivity|]. split; [exact P2|]. split; [split; vm_compute; [discriminate|reflexivity]|].
  split; [left; vm_compute; reflexivity|]. split.
  - assert (TP : forall c0, thick sc0 v_key c0 5000).
    { intros c0. apply thick_positions; [exact sc0_reachable|]. intros x po E _.
      assert (A : forallb (fun xp : _ * position => 1 <=? po_liq xp.2) (map_to_list (st_positions sc0)) = true) by (vm_compute; reflexivity).
      rewrite forallb_forall in A. specialize (A (x, po)). rewrite <- elem_of_list_In, elem_of_map_to_list in A. specialize (A E). cbn in A. lia. }
    intros c _. exact (TP c c (Z.le_refl c)).
  - apply (swap_gas v_env); [|exact H]. change (e_gas v_env) with 1000%nat. lia.
Qed.

(** ** Refused although a smaller and a larger offer both pass: the step lands exactly on the tick while its rounded price exceeds the offer *)
Definition edge_price : Z := 999500149965000001140891.
Definition e_calls : list (string * exec_msg) :=
  [("alice", AddFeeTier v_tier); ("alice", CreatePool "tokeny" "tokenx" v_tier edge_price (-10));
   ("alice", CreatePosition v_key (-10) 10 875631896281114927404586174 edge_price edge_price);
   ("bob", CreatePosition v_key (-30) (-10) 875631896281114927404586174 edge_price edge_price)]%string.
Theorem C25_edge_refuted : exists s k, clean_history s /\
  (exists r, execute v_env (v_info "carol") s (Swap k true 1006 true (MIN_SQRT_PRICE + 65536)) = Ok r /\ amount_out r = 998) /\
  execute v_env (v_info "carol") s (Swap k true 1007 true (MIN_SQRT_PRICE + 65536)) = Err ESub /\
  (exists r, execute v_env (v_info "carol") s (Swap k true 1008 true (MIN_SQRT_PRICE + 65536)) = Ok r /\ amount_out r = 999).
Proof.
  assert (H : match start 0 e_calls with
    | Ok s => is_ok (clean_start 0 e_calls) = true /\
        match execute v_env (v_info "carol") s (Swap v_key true 1006 true (MIN_SQRT_PRICE + 65536)) with Ok r => amount_out r = 998 | _ => False end /\
        match execute v_env (v_info "carol") s (Swap v_key true 1007 true (MIN_SQRT_PRICE + 65536)) with Err y => y = ESub | _ => False end /\
        match execute v_env (v_info "carol") s (Swap v_key true 1008 true (MIN_SQRT_PRICE + 65536)) with Ok r => amount_out r = 999 | _ => False end
    | _ => False end) by (vm_compute; repeat split).
  apply done_inv in H. destruct H as (s & S & C & H1 & H2 & H3). exists s, v_key. split; [exact (clean_by_check _ _ _ S C)|].
  apply done_inv in H1, H3. apply refused_inv in H2. exact (conj H1 (conj H2 H3)).
Qed.

(** ** Without a fee a swap can abort: the last step takes one unit more than is left of the offer *)
Definition z_tier : fee_tier := mkFeeTier 0 10.
Definition z_key : pool_key := mkPoolKey "tokenx" "tokeny" z_tier.
Definition z_price : Z := 999880762839527014734147.
Definition z_calls : list (string * exec_msg) :=
  [("alice", AddFeeTier z_tier); ("alice", CreatePool "tokeny" "tokenx" z_tier z_price (-10));
   ("alice", CreatePosition z_key (-1000) 1000 474329330820634 z_price z_price)]%string.
Theorem C25_zero_fee_refuted : exists s k, clean_history s /\
  (exists r, execute v_env (v_info "carol") s (Swap k true 982658 true (MIN_SQRT_PRICE + 65536)) = Ok r /\ 980000 <= amount_out r) /\
  execute v_env (v_info "carol") s (Swap k true 982659 true (MIN_SQRT_PRICE + 65536)) = Panic /\
  (exists r, execute v_env (v_info "carol") s (Swap k true 982660 true (MIN_SQRT_PRICE + 65536)) = Ok r /\ 980000 <= amount_out r).
Proof.
  assert (H : match start 0 z_calls with
    | Ok s => is_ok (clean_start 0 z_calls) = true /\
        match execute v_env (v_info "carol") s (Swap z_key true 982658 true (MIN_SQRT_PRICE + 65536)) with Ok r => (980000 <=? amount_out r) = true | _ => False end /\
        match execute v_env (v_info "carol") s (Swap z_key true 982659 true (MIN_SQRT_PRICE + 65536)) with Panic => True | _ => False end /\
        match execute v_env (v_info "carol") s (Swap z_key true 982660 true (MIN_SQRT_PRICE + 65536)) with Ok r => (980000 <=? amount_out r) = true | _ => False end
    | _ => False end) by (vm_compute; repeat split).
  apply done_inv in H. destruct H as (s & S & C & H1 & H2 & H3). exists s, z_key. split; [exact (clean_by_check _ _ _ S C)|].
  apply done_inv in H1, H3. destruct H1 as (r1 & H1 & G1), H3 as (r3 & H3 & G3). apply Z.leb_le in G1, G3.
  split; [exists r1; exact (conj H1 G1)|]. split; [destruct (execute _ _ _ _) in H2 |- *; [destruct H2|destruct H2|reflexivity]|exists r3; exact (conj H3 G3)].
Qed.
