(** contracts/oraiswap-v3/src/storage/pool.rs *)
From Verif Require Import Base Decimal SqrtPrice Clamm Log FeeGrowth Types Tick.
Open Scope Z_scope.

(** pool.rs:42-64 [Pool::create] *)
Definition pool_create (init_price init_tick now s : Z) (receiver : string) : res pool :=
  let* ok := check_tick_to_sqrt_price_relationship init_tick s init_price in
  if negb ok then Err InvalidInitSqrtPrice
  else Ok (mkPool 0 init_price init_tick 0 0 0 0 now now receiver).

(** pool.rs:66-90 [Pool::add_fee] *)
Definition add_fee (p : pool) (amount : Z) (in_x : bool) (protocol_fee : Z) : res pool :=
  let* prot := big_mul_up PCT_ONE amount protocol_fee in
  let* pool_fee := sub_p amount prot in
  if ((pool_fee =? 0) && (prot =? 0)) || (p_liq p =? 0) then Ok p
  else
    let* g := from_fee (p_liq p) pool_fee in
    if in_x then
      let* pr := add_p (p_protx p) prot in
      Ok (p_set_feesx p (wadd (p_fgx p) g) pr)
    else
      let* pr := add_p (p_proty p) prot in
      Ok (p_set_feesy p (wadd (p_fgy p) g) pr).

(** pool.rs:92-123 [Pool::update_liquidity]: (pool, x, y) *)
Definition update_liquidity (p : pool) (delta : Z) (sign : bool) (upper lower : Z)
  : res (pool * Z * Z) :=
  let* '(x, y, upd) :=
    calculate_amount_delta (p_tick p) (p_price p) delta sign upper lower in
  if upd then
    let* l := (if sign then add_e UpdateLiquidityPlusOverflow (p_liq p) delta
               else sub_e UpdateLiquidityMinusOverflow (p_liq p) delta) in
    Ok (p_set_liq p l, x, y)
  else Ok (p, x, y).

(** pool.rs:34-39 *)
Inductive update_pool_tick :=
| NoTick
| TickInitialized (t : tick)
| TickUninitialized (index : Z).

(** pool.rs:125-183 [Pool::update_tick]:
    (pool, tick, total_amount, remaining_amount, has_crossed).
    [self.sqrt_price] has been set by the caller; [tick.cross(..).unwrap()] panics on error. *)
Definition pool_update_tick (p : pool) (r : swap_result) (swap_limit : Z)
    (tk : update_pool_tick) (remaining : Z) (by_in x_to_y : bool)
    (now protocol_fee : Z) (ft : fee_tier)
  : res (pool * update_pool_tick * Z * Z * bool) :=
  if (match tk with NoTick => true | _ => false end) || negb (swap_limit =? sr_next r) then
    let* i := get_tick_at_sqrt_price (sr_next r) (ft_spacing ft) in
    Ok (p_set_tick p i, tk, 0, remaining, false)
  else
    let* enough := is_enough_amount_to_change_price remaining (sr_next r) (p_liq p) (ft_fee ft)
                     by_in x_to_y in
    let* '(p, tk, total, remaining, crossed, index) :=
      match tk with
      | TickInitialized t =>
          if negb x_to_y || enough then
            let* '(t', p') := unwrap (tick_cross t p now) in
            Ok (p', TickInitialized t', 0, remaining, true, t_index t)
          else if negb (remaining =? 0) then
            if by_in then
              let* p' := add_fee p remaining x_to_y protocol_fee in
              Ok (p', tk, remaining, 0, false, t_index t)
            else Ok (p, tk, 0, 0, false, t_index t)
          else Ok (p, tk, 0, remaining, false, t_index t)
      | TickUninitialized i => Ok (p, tk, 0, remaining, false, i)
      | NoTick => Panic
      end in
    Ok (p_set_tick p (if x_to_y && enough then index - ft_spacing ft else index),
        tk, total, remaining, crossed).
