(** contracts/oraiswap-v3/src/storage/tick.rs *)
From Verif Require Import Base Decimal SqrtPrice FeeGrowth Types.
Open Scope Z_scope.

(** tick.rs:60-81 [Tick::create]; line 66 unwraps, line 76 subtracts u64s (panic) *)
Definition tick_create (index : Z) (p : pool) (now : Z) : res tick :=
  let below := index <=? p_tick p in
  let* price := unwrap (calculate_sqrt_price index) in
  let* secs := (if below then ckp U64MAX (now - p_start p) else Ok 0) in
  Ok (mkTick index true 0 0 price
        (if below then p_fgx p else 0) (if below then p_fgy p else 0) secs).

(** tick.rs:83-112 [Tick::cross]: (tick, pool) *)
Definition tick_cross (t : tick) (p : pool) (now : Z) : res (tick * pool) :=
  let* passed := ck TimestampSubOverflow U64MAX (now - p_start p) in
  let t' := mkTick (t_index t) (t_sign t) (t_change t) (t_gross t) (t_price t)
              (wsub (p_fgx p) (t_fox t)) (wsub (p_fgy p) (t_foy t))
              ((passed - t_secs t) mod (U64MAX + 1)) in
  let p' := p_set_last p now in
  let* liq :=
    (if xorb (t_index t <=? p_tick p) (t_sign t)
     then add_e PoolAddTickLiquidityOverflow (p_liq p) (t_change t)
     else sub_e PoolSubTickLiquidityUnderflow (p_liq p) (t_change t)) in
  Ok (t', p_set_liq p' liq).

(** tick.rs:144-170 *)
Definition calculate_new_liquidity_gross (t : tick) (sign : bool) (delta max : Z) : res Z :=
  if negb sign && (t_gross t <? delta) then Err InvalidTickLiquidity
  else
    let* n := (if sign then add_e TickAddLiquidityOverflow (t_gross t) delta
               else sub_e TickRemoveLiquidityUnderflow (t_gross t) delta) in
    if sign && (max <=? n) then Err InvalidTickLiquidity else Ok n.

(** tick.rs:131-142: (sign, liquidity_change); native ops panic *)
Definition update_liquidity_change (t : tick) (delta : Z) (add : bool) : res (bool * Z) :=
  if xorb (t_sign t) add then
    if delta <? t_change t then
      let* c := sub_p (t_change t) delta in Ok (t_sign t, c)
    else
      let* c := sub_p delta (t_change t) in Ok (negb (t_sign t), c)
  else
    let* c := add_p (t_change t) delta in Ok (t_sign t, c).

(** tick.rs:114-129 [Tick::update] *)
Definition tick_update (t : tick) (delta max : Z) (is_upper is_deposit : bool) : res tick :=
  let* g := calculate_new_liquidity_gross t is_deposit delta max in
  let* '(sg, c) := update_liquidity_change t delta (xorb is_deposit is_upper) in
  Ok (mkTick (t_index t) sg c g (t_price t) (t_fox t) (t_foy t) (t_secs t)).
