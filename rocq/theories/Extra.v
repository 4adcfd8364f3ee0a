(** Code that is compiled but not called by the contract's entry points, and small SDK functions. *)
From Verif Require Import Base Decimal SqrtPrice Clamm Log FeeGrowth Types Exec Sdk.
From Coq Require Import String.
Open Scope Z_scope.

(** ** contracts/oraiswap-v3/src/math/types/seconds_per_liquidity.rs (= wasm/types/seconds_per_liquidity.rs).
    [TimestampCheckFailed] is written [TimestampSubOverflow]. *)
(** lines 20-40; the product of a u64, 10^24 and 10^6 fits U256 *)
Definition seconds_per_liquidity_global (liq now last : Z) : res Z :=
  if now <=? last then Err TimestampSubOverflow
  else
    let* m := ck EMul U256MAX ((now - last) * SP_ONE) in
    let* m := ck EMul U256MAX (m * LIQ_ONE) in
    let* q := cdiv EDiv m liq in
    ck ECast U128MAX q.
(** lines 43-69 *)
Definition seconds_per_liquidity_inside (lo up cur out_lo out_up global : Z) : Z :=
  let below := if lo <=? cur then out_lo else wsub global out_lo in
  let above := if cur <? up then out_up else wsub global out_up in
  wsub (wsub global below) above.

(** ** contracts/oraiswap-v3/src/logic/math.rs:23-95 [get_liquidity]: (x, y, liquidity) *)
Definition get_liquidity (x y lo up cur : Z) (round_up : bool) : res (Z * Z * Z) :=
  if (lo <? - MAX_TICK) || (MAX_TICK <? up) then Err InvalidTickIndex
  else
    let* pl := calculate_sqrt_price lo in
    let* pu := calculate_sqrt_price up in
    if pu <? cur then
      let* '(l, a) := sdk_liquidity_by_y_price y pl pu cur round_up in Ok (a, y, l)
    else if cur <? pl then
      let* '(l, a) := sdk_liquidity_by_x_price x pl pu cur round_up in Ok (x, a, l)
    else
      let* '(ly, ay) := sdk_liquidity_by_y_price y pl pu cur round_up in
      let* '(lx, ax) := sdk_liquidity_by_x_price x pl pu cur round_up in
      Ok (if ly <? lx then (ay, ax, ly) else (ay, ax, lx)).

(** ** SDK *)
(** wasm/custom.rs:79-83 [is_token_x] *)
Definition sdk_is_token_x (a b : string) : bool := String.ltb a b.
(** wasm/storage/pool_key.rs:21-48 [new_pool_key] *)
Definition sdk_new_pool_key (t0 t1 : string) (ft : fee_tier) : res pool_key :=
  if String.eqb t0 t1 then Err TokensAreSame
  else if sdk_is_token_x t0 t1 then Ok (mkPoolKey t0 t1 ft)
  else Ok (mkPoolKey t1 t0 ft).
(** wasm/storage/fee_tier.rs:17-35 [new_fee_tier] (= contract storage/fee_tier.rs:13-23, used by its tests) *)
Definition sdk_new_fee_tier (fee spacing : Z) : res fee_tier :=
  if (spacing =? 0) || (100 <? spacing) then Err InvalidTickSpacing
  else if PCT_ONE <? fee then Err InvalidFee
  else Ok (mkFeeTier fee spacing).
(** wasm/custom.rs:85-109 [check_tick_to_sqrt_price_relationship]; i32 addition of a u16 below MAX_TICK cannot overflow
    for the callers' ticks; the body is the contract's *)
Definition sdk_check_tick_price (tick s price : Z) : res bool :=
  if MAX_TICK <? tick + s then
    let* m := calculate_sqrt_price (get_max_tick s) in
    if negb (price =? m) then Ok false else Ok true
  else
    let* lo := calculate_sqrt_price tick in
    let* hi := calculate_sqrt_price (tick + s) in
    if (hi <=? price) || (price <? lo) then Ok false else Ok true.
