(** Properties C03 - C07: one swap step, token amounts, fees, slippage bound. *)
From Verif Require Import Base Decimal SqrtPrice Clamm Tactics PriceProofs LogProofs ClammProofs.
From Coq Require Import Lia.
Open Scope Z_scope.

(** the arguments the swap loop can pass: prices in the published range, u128/u64 numbers *)
Definition step_args (cur target L amount fee : Z) : Prop :=
  15258932000000000000 <= cur <= 65535383934512647000000000000 /\
  15258932000000000000 <= target <= 65535383934512647000000000000 /\
  0 <= L < 2 ^ 128 /\ 0 <= amount < 2 ^ 128 /\ 0 <= fee <= 1000000000000.

Ltac decide_z := repeat split; try reflexivity; try (intro; discriminate).

(** * C03: bounds of one step *)

(** "Ends between the current price and the target price" is false: an exact-input step towards
    lower prices can pass its target.  The target here is the price of a tick; the step ends
    1e-24 below it. *)
Theorem C03_stays_in_range_refuted :
  exists cur target L amount fee r,
    step_args cur target L amount fee /\
    calculate_sqrt_price (-182578) = Ok target /\
    compute_swap_step cur target L amount true fee = Ok r /\
    sr_next r < target /\ target < cur.
Proof.
  exists 108619381855608937044, 108534378000000000000, 5128040094303346753536, 37086874109940444,
         3000000000, (mkSwapResult 108534377999999999996 36975613487610625 435903179 111260622329819).
  vm_compute. decide_z.
Qed.

(** "Input plus fee never exceeds the offered amount" is false in the same mode: 9 are offered and
    10 are charged.  (The swap loop then fails on subtracting 10 from 9.) *)
Theorem C03_input_bound_refuted :
  exists cur target L amount fee r,
    step_args cur target L amount fee /\
    compute_swap_step cur target L amount true fee = Ok r /\
    amount < sr_in r + sr_fee r.
Proof.
  exists 61968579119035088896, 61937381996741894034, 1107267, 9, 0,
         (mkSwapResult 61937381996741894034 10 0 0).
  vm_compute. decide_z.
Qed.

(** What holds.  Missing from C03: for exact input downwards the price may pass the target by less
    than 10^24 / cur units of 10^-24 (so never when the square-root price is at least 1), and when
    it lands exactly on the target the charge may exceed the offer. *)
Theorem C03_step_bounds_partial :
  forall cur target L amount by_in fee r,
  step_args cur target L amount fee ->
  compute_swap_step cur target L amount by_in fee = Ok r ->
  (* direction *)
  (target <= cur -> sr_next r <= cur) /\
  (cur <= target -> cur <= sr_next r <= target) /\
  (* not beyond the target *)
  (target <= cur -> by_in = false -> target <= sr_next r) /\
  (target <= cur -> (target - sr_next r) * cur < 10 ^ 24) /\
  (target <= cur -> 10 ^ 24 <= cur -> target <= sr_next r) /\
  (* amounts *)
  0 <= sr_in r /\ 0 <= sr_out r /\ 0 <= sr_fee r /\
  (by_in = true -> L <> 0 -> sr_next r <> target -> sr_in r + sr_fee r = amount) /\
  (by_in = true -> cur < target -> sr_in r + sr_fee r <= amount) /\
  (by_in = true -> cur > target -> sr_next r = target ->
     (* the target was within reach of the offer *)
     (exists a, get_delta_x target cur L true = Ok a /\
                a * 10 ^ 12 <= amount * (10 ^ 12 - fee)) ->
     sr_in r + sr_fee r <= amount) /\
  (by_in = false -> sr_out r <= amount) /\
  (by_in = false -> L <> 0 -> target <= cur -> sr_next r <> target -> sr_out r = amount).
Proof.
  intros cur target L amount by_in fee r (Hc & Ht & HL & Ham & Hf) H.
  change (10 ^ 24) with SP_ONE. change (10 ^ 12) with PCT_ONE.
  change (2 ^ 128) with 340282366920938463463374607431768211456 in *.
  destruct (Z.eq_dec L 0) as [->|HL0].
  { unfold compute_swap_step in H. cbn in H. injection H as <-. cbn [sr_next sr_in sr_out sr_fee].
    unfold SP_ONE. repeat split; intros; try contradiction; try lia. }
  assert (HLp : 0 < L) by lia.
  assert (HMc : MIN_SQRT_PRICE <= cur) by (unfold MIN_SQRT_PRICE; lia).
  assert (HMt : MIN_SQRT_PRICE <= target) by (unfold MIN_SQRT_PRICE; lia).
  pose proof (step_inv _ _ _ _ _ _ _ HL0 H) as [Hn Hi (o & Ho & Hor) Hfe].
  assert (Hn0 : 0 <= sr_next r).
  { destruct Hn as [(-> & x & a & Hcm & Hx & Ha & [[_ ->]|[Hlt Hn]])|(-> & a & Ha & [[_ ->]|[Hlt Hn]])];
      try lia.
    - apply floor_pct in Hx as [Hx _].
      pose proof (next_in_side _ _ _ _ _ HMc HLp (proj1 Hx) Hn).
      destruct (target <=? cur); lia.
    - pose proof (next_out_side _ _ _ _ _ HMc HLp (proj1 Ham) Hn).
      destruct (target <=? cur); lia. }
  pose proof (delta_in_range _ cur _ _ _ ltac:(lia) Hn0 Hi) as Hir.
  pose proof (delta_out_range _ cur _ _ _ ltac:(lia) Hn0 Ho) as Hoor.
  assert (Hfr : 0 <= sr_fee r).
  { destruct Hfe as [(_ & _ & -> & ?)|[_ Hfe]]; [lia|]. apply ceil_pct in Hfe. lia. }
  assert (Hdown : target <= cur -> sr_next r <= cur /\ (by_in = false -> target <= sr_next r) /\
                  (target - sr_next r) * cur < SP_ONE).
  { intros Hd. rewrite (proj2 (Z.leb_le _ _) Hd) in *.
    destruct Hn as [(-> & x & a & Hcm & Hx & Ha & [[_ ->]|[Hlt Hn]])|(-> & a & Ha & [[_ ->]|[Hlt Hn]])].
    - unfold SP_ONE. lia.
    - apply floor_pct in Hx as [Hx _].
      pose proof (next_in_side _ _ _ _ _ HMc HLp (proj1 Hx) Hn) as S.
      cbn in S.
      pose proof (next_in_target_down cur target _ _ _ _ (conj HMt Hd) HLp (proj1 Hx) Ha Hlt Hn).
      split; [lia|]. split; [discriminate|assumption].
    - unfold SP_ONE. lia.
    - pose proof (next_out_side _ _ _ _ _ HMc HLp (proj1 Ham) Hn) as S.
      cbn in S.
      pose proof (next_out_target_down cur target _ _ _ _ ltac:(lia) HLp (proj1 Ham) Ha Hlt Hn).
      split; [lia|]. split; [auto|]. unfold SP_ONE. nia. }
  assert (Hup : cur < target -> cur <= sr_next r <= target).
  { intros Hd. rewrite (proj2 (Z.leb_gt _ _) Hd) in *.
    destruct Hn as [(-> & x & a & Hcm & Hx & Ha & [[_ ->]|[Hlt Hn]])|(-> & a & Ha & [[_ ->]|[Hlt Hn]])].
    - lia.
    - apply floor_pct in Hx as [Hx _].
      pose proof (next_in_side _ _ _ _ _ HMc HLp (proj1 Hx) Hn) as S.
      cbn in S.
      pose proof (next_in_target_up cur target _ _ _ _ ltac:(lia) HLp (proj1 Hx) Ha Hlt Hn). lia.
    - lia.
    - pose proof (next_out_side _ _ _ _ _ HMc HLp (proj1 Ham) Hn) as S.
      cbn in S.
      pose proof (next_out_target_up cur target _ _ _ _ (conj HMc (Z.lt_le_incl _ _ Hd)) HLp (proj1 Ham) Ha Hlt Hn).
      lia. }
  assert (Hreach : by_in = true -> forall x, big_mul PCT_ONE amount (PCT_ONE - fee) = Ok x ->
            sr_in r <= x -> sr_next r = target -> sr_in r + sr_fee r <= amount).
  { intros -> x Hx Hle Heq. destruct Hfe as [(_ & ? & _)|[_ Hfe]]; [contradiction|].
    apply floor_pct in Hx as [_ Hx]. apply ceil_pct in Hfe as [_ Hfe].
    apply (fee_fits PCT_ONE (sr_in r) x (sr_fee r) amount fee); unfold PCT_ONE in *; lia. }
  split; [tauto|]. split.
  { intros Hle. destruct (Z.eq_dec cur target) as [<-|]; [|apply Hup; lia].
    specialize (Hdown ltac:(lia)) as (D1 & D2 & D3). split; [|lia].
    (* equal prices: the delta is zero, so the target is reached *)
    rewrite (proj2 (Z.leb_le _ _) (Z.le_refl cur)) in *.
    destruct Hn as [(-> & x & a & Hcm & Hx & Ha & [[_ ->]|[Hlt Hn]])|(-> & a & Ha & [[_ ->]|[Hlt Hn]])]; try lia.
    - unfold delta_in in Ha. apply floor_pct in Hx as [Hx _].
      apply delta_x_up in Ha as (_ & Hp & Ha); [|lia|lia].
      unfold numx in Ha. rewrite Z.sub_diag in Ha. cbn in Ha. nia. }
  split; [intros; apply Hdown; assumption|].
  split; [intros; apply Hdown; assumption|].
  split. { intros Hd H1. specialize (Hdown Hd) as (_ & _ & D). unfold SP_ONE in *. nia. }
  split; [lia|]. split; [rewrite Hor; destruct by_in; lia|]. split; [exact Hfr|].
  split. { intros -> _ Hne. destruct Hfe as [(_ & _ & -> & _)|[[?|?] _]]; [lia|discriminate|contradiction]. }
  split.
  { intros -> Hlt. destruct (Z.eq_dec (sr_next r) target) as [Heq|Hne].
    - destruct Hn as [(_ & x & a & Hcm & Hx & Ha & [[Hle _]|[Hlt' Hn]])|(? & _)]; [| |discriminate].
      + rewrite Heq in Hi. rewrite Hi in Ha. injection Ha as <-.
        apply (Hreach eq_refl x Hx Hle Heq).
      + exfalso. rewrite (proj2 (Z.leb_gt _ _) Hlt) in *. apply floor_pct in Hx as [Hx _].
        pose proof (next_in_target_up cur target _ _ _ _ ltac:(lia) HLp (proj1 Hx) Ha Hlt' Hn). lia.
    - destruct Hfe as [(_ & _ & -> & _)|[[?|?] _]]; [lia|discriminate|contradiction]. }
  split.
  { intros -> Hgt Heq (a & Ha & Hle).
    rewrite (proj2 (Z.leb_le target cur) ltac:(lia)) in *.
    rewrite Heq in Hi. unfold delta_in in Hi. rewrite Ha in Hi. injection Hi as ->.
    destruct Hn as [(_ & x & a' & Hcm & Hx & _)|(? & _)]; [|discriminate].
    apply (Hreach eq_refl x Hx); [|exact Heq]. apply floor_pct in Hx as [_ Hx].
    unfold PCT_ONE in *. lia. }
  split. { intros ->. rewrite Hor. lia. }
  intros -> _ Hd Hne. rewrite Hor.
  rewrite (proj2 (Z.leb_le _ _) Hd) in *.
  destruct Hn as [(? & _)|(_ & a & Ha & [[_ ?]|[Hlt Hn]])]; [discriminate|contradiction|].
  pose proof (partial_out_down cur _ _ _ _ ltac:(lia) HLp (proj1 Ham) Hn Ho). lia.
Qed.

Example C03_example :
  compute_swap_step (10 ^ 24) (10 ^ 24 - 10 ^ 20) (10 ^ 12) 1000 true 3000000000
    = Ok (mkSwapResult 999900000000000000000000 101 100 1) /\
  compute_swap_step (10 ^ 24) (10 ^ 24 - 10 ^ 22) (10 ^ 12) 1000 true 3000000000
    = Ok (mkSwapResult 999003993018960096783507 997 996 3) /\
  compute_swap_step (10 ^ 24) (10 ^ 24 + 10 ^ 22) (10 ^ 12) 1000 false 3000000000
    = Ok (mkSwapResult 1001001001001001001001002 1002 1000 4) /\
  step_args (10 ^ 24) (10 ^ 24 - 10 ^ 20) (10 ^ 12) 1000 3000000000.
Proof. vm_compute. decide_z. Qed.

(** * C04: token amounts are rounded in favour of the pool *)

(** False for token x: price difference times liquidity is rounded down before the division, so
    the amount that should be rounded up can be zero while the exact amount is positive. *)
Theorem C04_rounded_up_refuted :
  exists cur_tick cur_price L lower upper x y u pu,
    lower <= cur_tick < upper /\
    calculate_sqrt_price upper = Ok pu /\
    calculate_amount_delta cur_tick cur_price L true upper lower = Ok (x, y, u) /\
    (* exact amount L (pu - p) 10^18 / (p pu) is larger than the charge x *)
    x * (cur_price * pu) < L * (pu - cur_price) * 10 ^ 18.
Proof.
  exists 0, 1000049998749999999999999, 1, 0, 1, 0, 1, true, 1000049998750000000000000.
  vm_compute. decide_z.
Qed.

(** What holds.  Missing from C04: the charge in x can be below the exact amount, by less than
    10^24 / (pa pb) (at most 4.3e-15) units; it is not when the price difference is a multiple of
    10^-18, as it is between two ticks. *)
Theorem C04_rounding_partial :
  forall pa pb L r, 15258932000000000000 <= pa -> 15258932000000000000 <= pb -> 0 <= L ->
  (get_delta_y pa pb L true = Ok r -> L * Z.abs (pa - pb) <= r * 10 ^ 30 < L * Z.abs (pa - pb) + 10 ^ 30) /\
  (get_delta_y pa pb L false = Ok r -> L * Z.abs (pa - pb) - 10 ^ 30 < r * 10 ^ 30 <= L * Z.abs (pa - pb)) /\
  (get_delta_x pa pb L false = Ok r -> r * (pa * pb) <= L * Z.abs (pa - pb) * 10 ^ 18) /\
  (get_delta_x pa pb L true = Ok r -> L * Z.abs (pa - pb) * 10 ^ 18 < r * (pa * pb) + 10 ^ 24) /\
  (get_delta_x pa pb L true = Ok r -> (pa - pb) mod 1000000 = 0 ->
     L * Z.abs (pa - pb) * 10 ^ 18 <= r * (pa * pb)).
Proof.
  intros pa pb L r Ha Hb HL. change (10 ^ 30) with E30. change (10 ^ 18) with E18.
  change (10 ^ 24) with SP_ONE. change 1000000 with LIQ_ONE.
  split; [|split; [|split; [|split]]]; intros H.
  - apply delta_y_up in H as [_ H]. lia.
  - apply delta_y_down in H as [_ H]. lia.
  - apply delta_x_down_exact; [lia|lia|exact H].
  - apply delta_x_up_exact; [lia|lia|exact H].
  - apply delta_x_up_ticks; [lia|lia|exact H].
Qed.

(** Paying for a position is never cheaper than what the same position pays out at the same price. *)
Theorem C04_deposit_covers_withdrawal :
  forall cur_tick cur_price L lower upper x y u x' y' u',
  0 <= cur_price -> 0 <= L ->
  calculate_amount_delta cur_tick cur_price L true upper lower = Ok (x, y, u) ->
  calculate_amount_delta cur_tick cur_price L false upper lower = Ok (x', y', u') ->
  0 <= x' <= x /\ 0 <= y' <= y /\ u = u'.
Proof.
  intros ct p L lo up x y u x' y' u' Hp HL H H'. unfold calculate_amount_delta in *.
  destruct (up <? lo); [discriminate|].
  destruct (ct <? lo); [|destruct (ct <? up)].
  - inv_bind H as pl El. inv_bind H as pu Eu. inv_bind H as x1 Ex. injection H as <- <- <-.
    inv_bind H' as pl' El'. inv_bind H' as pu' Eu'. inv_bind H' as x1' Ex'. injection H' as <- <- <-.
    rewrite El in El'. injection El' as <-. rewrite Eu in Eu'. injection Eu' as <-.
    apply calculate_sqrt_price_inv in El as [Hl ->]. apply calculate_sqrt_price_inv in Eu as [Hu ->].
    pose proof (tprice_range _ Hl) as R1. pose proof (tprice_range _ Hu) as R2.
    unfold MIN_SQRT_PRICE in *.
    assert (x1' <= x1) by (eapply delta_x_in_ge_out; [| |exact HL|exact Ex|exact Ex']; lia).
    apply delta_x_down in Ex' as [? _]; lia.
  - inv_bind H as pu Eu. inv_bind H as x1 Ex. inv_bind H as pl El. inv_bind H as y1 Ey. injection H as <- <- <-.
    inv_bind H' as pu' Eu'. inv_bind H' as x1' Ex'. inv_bind H' as pl' El'. inv_bind H' as y1' Ey'.
    injection H' as <- <- <-.
    rewrite El in El'. injection El' as <-. rewrite Eu in Eu'. injection Eu' as <-.
    apply calculate_sqrt_price_inv in El as [Hl ->]. apply calculate_sqrt_price_inv in Eu as [Hu ->].
    pose proof (tprice_range _ Hl) as R1. pose proof (tprice_range _ Hu) as R2.
    unfold MIN_SQRT_PRICE in *.
    assert (x1' <= x1) by (eapply delta_x_in_ge_out; [| |exact HL|exact Ex|exact Ex']; lia).
    pose proof (delta_y_in_ge_out _ _ _ _ _ Ey Ey').
    apply delta_x_down in Ex' as [? _]; [|lia|lia]. apply delta_y_down in Ey' as [? _]. lia.
  - inv_bind H as pl El. inv_bind H as pu Eu. inv_bind H as y1 Ey. injection H as <- <- <-.
    inv_bind H' as pl' El'. inv_bind H' as pu' Eu'. inv_bind H' as y1' Ey'. injection H' as <- <- <-.
    rewrite El in El'. injection El' as <-. rewrite Eu in Eu'. injection Eu' as <-.
    pose proof (delta_y_in_ge_out _ _ _ _ _ Ey Ey').
    apply delta_y_down in Ey' as [? _]. lia.
Qed.

(** between two ticks (position fully on one side of the price) both amounts bracket the exact one *)
Theorem C04_out_of_range_position_exact :
  forall cur_tick cur_price L lower upper x y u pl pu,
  0 <= L -> cur_tick < lower \/ upper <= cur_tick ->
  calculate_sqrt_price lower = Ok pl -> calculate_sqrt_price upper = Ok pu ->
  calculate_amount_delta cur_tick cur_price L true upper lower = Ok (x, y, u) ->
  u = false /\ pl <= pu /\
  (cur_tick < lower -> y = 0 /\ L * (pu - pl) * 10 ^ 18 <= x * (pl * pu)) /\
  (lower <= cur_tick -> x = 0 /\ L * (pu - pl) <= y * 10 ^ 30).
Proof.
  intros ct p L lo up x y u pl pu HL Hct El Eu H. unfold calculate_amount_delta in H.
  change (10 ^ 18) with E18. change (10 ^ 30) with E30.
  destruct (Z.ltb_spec up lo); [discriminate|]. rewrite El, Eu in H.
  apply calculate_sqrt_price_inv in El as [Hl ->]. apply calculate_sqrt_price_inv in Eu as [Hu ->].
  pose proof (tprice_range _ Hl) as R1. pose proof (tprice_range _ Hu) as R2.
  pose proof (tprice_le lo up ltac:(lia) ltac:(lia) ltac:(lia)) as HM.
  unfold MIN_SQRT_PRICE in *.
  destruct (Z.ltb_spec ct lo); [|destruct (Z.ltb_spec ct up); [lia|]]; cbn [bind] in H.
  - inv_bind H as x1 Ex. injection H as <- <- <-.
    apply delta_x_up_ticks in Ex; [|lia|lia|].
    + rewrite Z.abs_neq in Ex by lia. repeat split; try lia.
    + destruct (tprice_mult lo) as [a ->]. destruct (tprice_mult up) as [b ->].
      replace (a * FP_ONE - b * FP_ONE) with ((a - b) * LIQ_ONE * LIQ_ONE) by (unfold FP_ONE, LIQ_ONE; lia).
      apply Z.mod_mul. discriminate.
  - inv_bind H as y1 Ey. injection H as <- <- <-. apply delta_y_up_exact in Ey.
    rewrite Z.abs_neq in Ey by lia. repeat split; lia.
Qed.

Example C04_example :
  calculate_amount_delta 0 (10 ^ 24) 1000000000000 true 10 (-10) = Ok (500, 500, true) /\
  calculate_amount_delta 0 (10 ^ 24) 1000000000000 false 10 (-10) = Ok (499, 499, true) /\
  calculate_amount_delta (-20) (10 ^ 24) 1000000000000 true 10 (-10) = Ok (1000, 0, false).
Proof. vm_compute. decide_z. Qed.

(** * C05: a step never trades at better than the curve price *)

(** The input part is false: moving the price by 1e-24 over liquidity 1e-6 costs nothing. *)
Theorem C05_input_refuted :
  exists cur target L amount fee r,
    step_args cur target L amount fee /\
    compute_swap_step cur target L amount true fee = Ok r /\
    sr_in r * (cur * sr_next r) < L * (cur - sr_next r) * 10 ^ 18.
Proof.
  exists (10 ^ 24 + 1), (10 ^ 24), 1, 10, 3000000000, (mkSwapResult (10 ^ 24) 0 0 0).
  vm_compute. decide_z.
Qed.

(** What holds.  Missing from C05: the input in x can be short of the exact amount by less than
    10^24 / (cur next) (at most 4.3e-15) units per step. *)
Theorem C05_curve_price_partial :
  forall cur target L amount by_in fee r,
  step_args cur target L amount fee ->
  compute_swap_step cur target L amount by_in fee = Ok r ->
  (target <= cur ->
     (* pays y, takes x *)
     sr_out r * 10 ^ 30 <= L * (cur - sr_next r) /\
     L * (cur - sr_next r) * 10 ^ 18 < sr_in r * (cur * sr_next r) + 10 ^ 24 /\
     ((cur - sr_next r) mod 1000000 = 0 ->
      L * (cur - sr_next r) * 10 ^ 18 <= sr_in r * (cur * sr_next r))) /\
  (cur < target ->
     (* pays x, takes y *)
     sr_out r * (cur * sr_next r) <= L * (sr_next r - cur) * 10 ^ 18 /\
     L * (sr_next r - cur) <= sr_in r * 10 ^ 30).
Proof.
  intros cur target L amount by_in fee r HA H.
  pose proof (C03_step_bounds_partial _ _ _ _ _ _ _ HA H) as (B1 & B2 & _ & B4 & _).
  destruct HA as (Hc & Ht & HL & Ham & Hf).
  change (10 ^ 24) with SP_ONE in *. change (10 ^ 18) with E18. change (10 ^ 30) with E30.
  change 1000000 with LIQ_ONE.
  destruct (Z.eq_dec L 0) as [->|HL0].
  { unfold compute_swap_step in H. cbn in H. injection H as <-. cbn [sr_next sr_in sr_out sr_fee].
    unfold SP_ONE. repeat split; intros; lia. }
  pose proof (step_inv _ _ _ _ _ _ _ HL0 H) as [_ Hi (o & Ho & Hor) _].
  assert (Hoo : sr_out r <= o) by (rewrite Hor; destruct by_in; lia).
  assert (Hn0 : 0 <= sr_next r).
  { destruct (Z.le_gt_cases target cur) as [Hd|Hd]; [|specialize (B2 ltac:(lia)); lia].
    specialize (B4 Hd). unfold SP_ONE in *. nia. }
  split; intros Hd.
  - rewrite (proj2 (Z.leb_le _ _) Hd) in *. unfold delta_in, delta_out in *.
    specialize (B1 Hd).
    apply delta_y_down_exact in Ho. rewrite Z.abs_neq in Ho by lia.
    split; [unfold E30 in *; nia|]. split.
    + apply delta_x_up_exact in Hi; [|lia|lia]. rewrite Z.abs_neq in Hi by lia. nia.
    + intros Hm. apply delta_x_up_ticks in Hi; [|lia|lia|].
      * rewrite Z.abs_neq in Hi by lia. nia.
      * rewrite <- (Z.opp_involutive (sr_next r - cur)). apply Z.mod_opp_l_z; [discriminate|].
        rewrite Z.opp_sub_distr, Z.add_comm. exact Hm.
  - rewrite (proj2 (Z.leb_gt _ _) Hd) in *. unfold delta_in, delta_out in *.
    specialize (B2 ltac:(lia)).
    apply delta_x_down_exact in Ho; [|lia|lia]. rewrite Z.abs_neq in Ho by lia.
    apply delta_y_up_exact in Hi. rewrite Z.abs_neq in Hi by lia.
    assert (sr_out r * (cur * sr_next r) <= o * (cur * sr_next r))
      by (apply Z.mul_le_mono_nonneg_r; [apply Z.mul_nonneg_nonneg; lia|exact Hoo]).
    split; lia.
Qed.

(** * C06: the fee is at least the advertised percentage *)

(** False: with a 25% fee, of 4 offered all 4 are curve input and nothing is fee. *)
Theorem C06_fee_refuted :
  exists cur target L amount fee r,
    step_args cur target L amount fee /\
    compute_swap_step cur target L amount true fee = Ok r /\
    sr_fee r * 1000000000000 < sr_in r * fee.
Proof.
  exists 1902629440054067462144, 15258932000000000000, 116251, 4, 250000000000,
         (mkSwapResult 1813583069526549363025 4 0 0).
  vm_compute. decide_z.
Qed.

(** What holds.  Missing from C06: in an exact-input step downwards that stops before the target the
    fee can be short by 1 + amount / d units, d = cur next / 10^24 (at least 2.3e14): one unit for
    amounts below d. *)
Theorem C06_fee_partial :
  forall cur target L amount by_in fee r,
  step_args cur target L amount fee ->
  compute_swap_step cur target L amount by_in fee = Ok r ->
  (by_in = false \/ cur < target \/ sr_next r = target ->
     sr_in r * fee <= sr_fee r * 1000000000000) /\
  (sr_in r * fee <= (sr_fee r + 1 + amount / (sr_next r * cur / 10 ^ 24)) * 1000000000000).
Proof.
  intros cur target L amount by_in fee r HA H.
  pose proof (C03_step_bounds_partial _ _ _ _ _ _ _ HA H) as (B1 & B2 & _ & B4 & _ & B5 & _ & B6 & B7 & _).
  destruct HA as (Hc & Ht & HL & Ham & Hf).
  change (10 ^ 24) with SP_ONE in *. change 1000000000000 with PCT_ONE in *.
  destruct (Z.eq_dec L 0) as [->|HL0].
  { unfold compute_swap_step in H. cbn in H. injection H as <-. cbn [sr_next sr_in sr_out sr_fee].
    assert (0 <= target * cur / SP_ONE) by (apply Z.div_pos; [nia|reflexivity]).
    assert (0 <= amount / (target * cur / SP_ONE)).
    { destruct (Z.eq_dec (target * cur / SP_ONE) 0) as [->|]; [rewrite Zdiv_0_r; lia|].
      apply Z.div_pos; lia. }
    unfold PCT_ONE. split; intros; lia. }
  assert (HLp : 0 < L) by lia.
  assert (HMc : MIN_SQRT_PRICE <= cur) by (unfold MIN_SQRT_PRICE; lia).
  assert (HMt : MIN_SQRT_PRICE <= target) by (unfold MIN_SQRT_PRICE; lia).
  pose proof (step_inv _ _ _ _ _ _ _ HL0 H) as [Hn Hi _ Hfe].
  assert (Hn0 : 0 <= sr_next r).
  { destruct (Z.le_gt_cases target cur) as [Hd|Hd]; [|specialize (B2 ltac:(lia)); lia].
    specialize (B4 Hd). unfold SP_ONE in *. nia. }
  assert (Hq : 0 <= amount / (sr_next r * cur / SP_ONE)).
  { assert (0 <= sr_next r * cur / SP_ONE) by (apply Z.div_pos; [nia|reflexivity]).
    destruct (Z.eq_dec (sr_next r * cur / SP_ONE) 0) as [->|]; [rewrite Zdiv_0_r; lia|].
    apply Z.div_pos; lia. }
  assert (Hgood : by_in = false \/ sr_next r = target -> sr_in r * fee <= sr_fee r * PCT_ONE).
  { intros Hb. destruct Hfe as [(-> & Hne & _)|[_ Hfe]].
    - destruct Hb as [?|?]; [discriminate|contradiction].
    - apply ceil_pct in Hfe. lia. }
  assert (Hup : cur < target -> sr_in r * fee <= sr_fee r * PCT_ONE).
  { intros Hd. destruct Hfe as [(-> & Hne & Hfe & _)|[Hb _]]; [|apply Hgood; tauto].
    rewrite (proj2 (Z.leb_gt _ _) Hd) in *.
    destruct Hn as [(_ & x & a & Hcm & Hx & Ha & [[_ ?]|[Hlt Hn]])|(? & _)]; [contradiction| |discriminate].
    apply floor_pct in Hx as [Hx0 Hx].
    pose proof (partial_in_up cur _ _ _ _ ltac:(lia) HLp (proj1 Hx0) Hn Hi) as Hle.
    assert (sr_in r * fee <= amount * fee) by (apply Z.mul_le_mono_nonneg_r; lia).
    unfold PCT_ONE in *. lia. }
  split; [intros [?|[?|?]]; auto|].
  destruct (Z.le_gt_cases target cur) as [Hd|Hd].
  - destruct Hfe as [(-> & Hne & Hfe & _)|[Hb _]].
    + rewrite (proj2 (Z.leb_le _ _) Hd) in *.
      destruct Hn as [(_ & x & a & Hcm & Hx & Ha & [[_ ?]|[Hlt Hn]])|(? & _)]; [contradiction| |discriminate].
      apply floor_pct in Hx as [Hx0 Hx].
      pose proof (partial_in_down _ _ _ _ _ HMc HLp (proj1 Hx0) Hn0 Hn Hi) as Hle.
      unfold delta_in in Hi. apply delta_x_up in Hi as (_ & Hdp & _); [|lia|lia].
      set (d := sr_next r * cur / SP_ONE) in *. clearbody d.
      pose proof (floor_spec amount d Hdp) as Hfl. set (q := amount / d) in *. clearbody q.
      assert (x <= amount) by (unfold PCT_ONE in *; nia).
      assert (sr_in r - 1 - x < q + 1) by (apply (Z.mul_lt_mono_pos_l d); lia).
      assert (sr_in r * fee <= amount * fee) by (apply Z.mul_le_mono_nonneg_r; lia).
      unfold PCT_ONE in *. lia.
    + assert (by_in = false \/ sr_next r = target) by tauto.
      specialize (Hgood H0). unfold PCT_ONE in *. lia.
  - specialize (Hup Hd). unfold PCT_ONE in *. lia.
Qed.

(** * C07: slippage bound *)
Theorem C07_min_amount_out :
  forall expected slippage, 0 <= expected < 2 ^ 128 -> 0 <= slippage < 2 ^ 64 ->
  (slippage <= 1000000000000 ->
     exists m, calculate_min_amount_out expected slippage = Ok m /\
       (forall k, m <= k <-> expected * (1000000000000 - slippage) <= k * 1000000000000) /\
       0 <= m <= expected) /\
  (1000000000000 < slippage -> calculate_min_amount_out expected slippage = Panic).
Proof.
  intros e s He Hs. change (2 ^ 128) with 340282366920938463463374607431768211456 in *.
  unfold calculate_min_amount_out, pct_complement. split; intros H.
  - rewrite (proj2 (ckp_ok U64MAX (PCT_ONE - s) (PCT_ONE - s))); [|unfold PCT_ONE, U64MAX in *; lia].
    cbn [bind]. unfold big_mul_up.
    pose proof (ceil_spec (e * (PCT_ONE - s)) PCT_ONE ltac:(reflexivity)) as C.
    set (m := (e * (PCT_ONE - s) + (PCT_ONE - 1)) / PCT_ONE) in *. clearbody m.
    assert (Hm : 0 <= m <= e) by (unfold PCT_ONE in *; nia).
    exists m. split; [apply ckp_ok; unfold U128MAX; lia|]. split; [|exact Hm].
    intros k. unfold PCT_ONE in *. split; intros; nia.
  - assert (E : ckp U64MAX (PCT_ONE - s) = Panic).
    { unfold ckp. destruct (in_range 0 U64MAX (PCT_ONE - s)) eqn:E; [|reflexivity].
      apply in_range_spec in E. unfold PCT_ONE in *. lia. }
    rewrite E. reflexivity.
Qed.

Example C07_example :
  calculate_min_amount_out 1001 3000000000 = Ok 998 /\ calculate_min_amount_out 1001 0 = Ok 1001 /\
  calculate_min_amount_out 100 1000000000000 = Ok 0.
Proof. vm_compute. decide_z. Qed.

Print Assumptions C03_stays_in_range_refuted.
Print Assumptions C03_input_bound_refuted.
Print Assumptions C03_step_bounds_partial.
Print Assumptions C04_rounded_up_refuted.
Print Assumptions C04_rounding_partial.
Print Assumptions C04_deposit_covers_withdrawal.
Print Assumptions C04_out_of_range_position_exact.
Print Assumptions C05_input_refuted.
Print Assumptions C05_curve_price_partial.
Print Assumptions C06_fee_refuted.
Print Assumptions C06_fee_partial.
Print Assumptions C07_min_amount_out.
