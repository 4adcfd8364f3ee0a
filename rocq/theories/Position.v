(** contracts/oraiswap-v3/src/storage/position.rs *)
From Verif Require Import Base Decimal SqrtPrice Clamm FeeGrowth Types Tick Pool.
Open Scope Z_scope.

(** position.rs:109-129 *)
Definition calculate_new_liquidity (po : position) (sign : bool) (delta : Z) : res Z :=
  if negb sign && (po_liq po <? delta) then Err InsufficientLiquidity
  else if sign then add_e PositionAddLiquidityOverflow (po_liq po) delta
  else sub_e PositionRemoveLiquidityUnderflow (po_liq po) delta.

(** position.rs:81-107 [Position::update] *)
Definition position_update (po : position) (sign : bool) (delta gx gy : Z) : res position :=
  if (delta =? 0) && (po_liq po =? 0) then Err EmptyPositionPokes
  else
    let* ox := to_fee (wsub gx (po_fgx po)) (po_liq po) in
    let* oy := to_fee (wsub gy (po_fgy po)) (po_liq po) in
    let* l := calculate_new_liquidity po sign delta in
    let* tx := add_p (po_owedx po) ox in
    let* ty := add_p (po_owedy po) oy in
    Ok (mkPosition (po_key po) l (po_lower po) (po_upper po) gx gy (po_block po) tx ty
          (po_approvals po)).

(** position.rs:37-79 [Position::modify]: (position, pool, upper tick, lower tick, x, y) *)
Definition position_modify (po : position) (p : pool) (upper lower : tick) (delta : Z)
    (add : bool) (now s : Z) : res (position * pool * tick * tick * Z * Z) :=
  let p := p_set_last p now in
  let max := calculate_max_liquidity_per_tick s in
  let* lower := tick_update lower delta max false add in
  let* upper := tick_update upper delta max true add in
  let gx := fee_growth_inside (t_index lower) (t_fox lower) (t_index upper) (t_fox upper)
              (p_tick p) (p_fgx p) in
  let gy := fee_growth_inside (t_index lower) (t_foy lower) (t_index upper) (t_foy upper)
              (p_tick p) (p_fgy p) in
  let* po := position_update po add delta gx gy in
  let* '(p, x, y) := update_liquidity p delta add (t_index upper) (t_index lower) in
  Ok (po, p, upper, lower, x, y).

(** position.rs:131-155 [Position::claim_fee]: (position, pool, upper, lower, x, y) *)
Definition position_claim_fee (po : position) (p : pool) (upper lower : tick) (now : Z)
  : res (position * pool * tick * tick * Z * Z) :=
  let* '(po, p, upper, lower, _, _) :=
    position_modify po p upper lower 0 true now (ft_spacing (pk_tier (po_key po))) in
  Ok (mkPosition (po_key po) (po_liq po) (po_lower po) (po_upper po) (po_fgx po) (po_fgy po)
        (po_block po) 0 0 (po_approvals po),
      p, upper, lower, po_owedx po, po_owedy po).

(** position.rs:157-198 [Position::create]: (position, pool, lower, upper, x, y) *)
Definition position_create (p : pool) (k : pool_key) (lower upper : tick) (now delta : Z)
    (slip_lower slip_upper block s : Z) : res (position * pool * tick * tick * Z * Z) :=
  if (p_price p <? slip_lower) || (slip_upper <? p_price p) then Err PriceLimitReached
  else
    let po := mkPosition k 0 (t_index lower) (t_index upper) 0 0 block 0 0 [] in
    let* '(po, p, upper, lower, x, y) := position_modify po p upper lower delta true now s in
    Ok (po, p, lower, upper, x, y).

(** position.rs:200-231 [Position::remove]:
    (position, pool, lower, upper, x, y, deinitialize_lower, deinitialize_upper) *)
Definition position_remove (po : position) (p : pool) (now : Z) (lower upper : tick) (s : Z)
  : res (position * pool * tick * tick * Z * Z * bool * bool) :=
  let* '(po, p, upper, lower, x, y) :=
    position_modify po p upper lower (po_liq po) false now s in
  let* x := add_p x (po_owedx po) in
  let* y := add_p y (po_owedy po) in
  Ok (po, p, lower, upper, x, y, t_gross lower =? 0, t_gross upper =? 0).
