(** contracts/oraiswap-v3/src/math/clamm.rs *)
From Verif Require Import Base Decimal SqrtPrice.

(** clamm.rs:8-14 [SwapResult] *)
Record swap_result := mkSwapResult {
  sr_next : Z;        (* next_sqrt_price *)
  sr_in : Z;          (* amount_in *)
  sr_out : Z;         (* amount_out *)
  sr_fee : Z          (* fee_amount *)
}.

(** clamm.rs:108-131 [get_delta_x] *)
Definition get_delta_x (pa pb liq : Z) (up : bool) : res Z :=
  let n := mul_to_value LIQ_ONE (Z.abs (pa - pb)) liq in
  if up then big_div_values_to_token_up n (mul_to_value SP_ONE pa pb)
  else big_div_values_to_token n (mul_to_value_up SP_ONE pa pb).

(** clamm.rs:133-161 [get_delta_y] *)
Definition get_delta_y (pa pb liq : Z) (up : bool) : res Z :=
  let delta := Z.abs (pa - pb) in
  if up then
    let* a := ck EAdd U256MAX (mul_to_value_up LIQ_ONE delta liq + (SP_ONE - 1)) in
    ck ECast U128MAX (a / SP_ONE)
  else ck ECast U128MAX (mul_to_value LIQ_ONE delta liq / SP_ONE).

(** clamm.rs:193-215 [get_next_sqrt_price_x_up].
    [checked_from_decimal_to_value(liquidity)] multiplies by 10^(24-6) in U256 (factories.rs:112-140);
    [starting_sqrt_price.big_mul_to_value(x)] divides by TokenAmount::one = 1. *)
Definition get_next_sqrt_price_x_up (start liq x : Z) (add_x : bool) : res Z :=
  if x =? 0 then Ok start
  else
    let* pd := ck ExtendLiquidityOverflow U256MAX (liq * 1000000000000000000) in
    let* den := ck BigLiquidityOverflow U256MAX
                  (if add_x then pd + mul_to_value 1 start x else pd - mul_to_value 1 start x) in
    checked_big_div_values_up (mul_to_value_up LIQ_ONE start liq) den.

(** clamm.rs:217-239 [get_next_sqrt_price_y_down]; line 223 unwraps *)
Definition get_next_sqrt_price_y_down (start liq y : Z) (add_y : bool) : res Z :=
  let* num := ckp U256MAX (y * SP_ONE) in
  let* den := ck ExtendLiquidityOverflow U256MAX (liq * 1000000000000000000) in
  if add_y then
    let* q := checked_big_div_values num den in
    add_e EAdd start q
  else
    let* q := checked_big_div_values_up num den in
    sub_e ESub start q.

(** clamm.rs:163-176 *)
Definition get_next_sqrt_price_from_input (start liq amount : Z) (x_to_y : bool) : res Z :=
  if x_to_y then get_next_sqrt_price_x_up start liq amount true
  else get_next_sqrt_price_y_down start liq amount true.

(** clamm.rs:178-191 *)
Definition get_next_sqrt_price_from_output (start liq amount : Z) (x_to_y : bool) : res Z :=
  if x_to_y then get_next_sqrt_price_y_down start liq amount false
  else get_next_sqrt_price_x_up start liq amount false.

(** clamm.rs:16-106 [compute_swap_step] *)
Definition compute_swap_step (cur target liq amount : Z) (by_in : bool) (fee : Z)
  : res swap_result :=
  if liq =? 0 then Ok (mkSwapResult target 0 0 0)
  else
    let x_to_y := target <=? cur in
    (* lines 37-69: (next, amount_in, amount_out) *)
    let* '(next, ain, aout) :=
      if by_in then
        let* comp := pct_complement fee in
        let* after_fee := big_mul PCT_ONE amount comp in
        let* ain := (if x_to_y then get_delta_x target cur liq true
                     else get_delta_y cur target liq true) in
        if ain <=? after_fee then Ok (target, ain, 0)
        else
          let* n := get_next_sqrt_price_from_input cur liq after_fee x_to_y in
          Ok (n, ain, 0)
      else
        let* aout := (if x_to_y then get_delta_y target cur liq false
                      else get_delta_x cur target liq false) in
        if aout <=? amount then Ok (target, 0, aout)
        else
          let* n := get_next_sqrt_price_from_output cur liq amount x_to_y in
          Ok (n, 0, aout)
    in
    let not_max := negb (target =? next) in
    (* lines 73-87 *)
    let* ain := (if not_max || negb by_in then
                   if x_to_y then get_delta_x next cur liq true
                   else get_delta_y cur next liq true
                 else Ok ain) in
    let* aout := (if not_max || by_in then
                    if x_to_y then get_delta_y next cur liq false
                    else get_delta_x cur next liq false
                  else Ok aout) in
    (* lines 89-92 *)
    let aout := if negb by_in && (amount <? aout) then amount else aout in
    (* lines 94-98 *)
    let* fee_amount := (if by_in && not_max then sub_p amount ain
                        else big_mul_up PCT_ONE ain fee) in
    Ok (mkSwapResult next ain aout fee_amount).

(** clamm.rs:241-287 [calculate_amount_delta]: (x, y, update_liquidity) *)
Definition calculate_amount_delta (cur_tick cur_price liq : Z) (sign : bool)
    (upper lower : Z) : res (Z * Z * bool) :=
  if upper <? lower then Err UpperTickNotGreater
  else if cur_tick <? lower then
    let* pl := calculate_sqrt_price lower in
    let* pu := calculate_sqrt_price upper in
    let* x := get_delta_x pl pu liq sign in
    Ok (x, 0, false)
  else if cur_tick <? upper then
    let* pu := calculate_sqrt_price upper in
    let* x := get_delta_x cur_price pu liq sign in
    let* pl := calculate_sqrt_price lower in
    let* y := get_delta_y pl cur_price liq sign in
    Ok (x, y, true)
  else
    let* pl := calculate_sqrt_price lower in
    let* pu := calculate_sqrt_price upper in
    let* y := get_delta_y pl pu liq sign in
    Ok (0, y, false).

(** clamm.rs:289-309 [is_enough_amount_to_change_price] *)
Definition is_enough_amount_to_change_price (amount start liq fee : Z) (by_in x_to_y : bool)
  : res bool :=
  if liq =? 0 then Ok true
  else
    let* next :=
      if by_in then
        let* comp := pct_complement fee in
        let* after_fee := big_mul PCT_ONE amount comp in
        get_next_sqrt_price_from_input start liq after_fee x_to_y
      else get_next_sqrt_price_from_output start liq amount x_to_y in
    Ok (negb (start =? next)).

(** clamm.rs:311-315 [calculate_max_liquidity_per_tick] *)
Definition calculate_max_liquidity_per_tick (s : Z) : Z :=
  U128MAX / ((2 * MAX_TICK + 1) / s).

(** clamm.rs:331-343 [check_tick]; Rust [%] truncates *)
Definition check_tick (i s : Z) : res unit :=
  if negb (Z.rem i s =? 0) then Err InvalidTickSpacing
  else if (get_max_tick s <? i) || (i <? get_min_tick s) then Err InvalidTickIndex
  else Ok tt.

(** clamm.rs:345-350 [calculate_min_amount_out] *)
Definition calculate_min_amount_out (expected slippage : Z) : res Z :=
  let* comp := pct_complement slippage in
  big_mul_up PCT_ONE expected comp.
