(** Replay of the unit tests of the storage types and of the tick bitmap: contracts/oraiswap-v3/src/storage, state.rs, logic.
    Each example is one Rust test, translated mechanically: macros of helper.rs expanded, decimals as raw integers,
    loops unrolled, [unwrap] as [let!], [unwrap_err]/[is_err] as [refused], the assertions in their order.
    These are tests of the model against the expectations of the project, not proofs of properties.
    Left out: the loop over a thousand ticks of state.rs (test_next_and_prev_initialized). *)
From Verif Require Import Base Decimal SqrtPrice Clamm Log FeeGrowth Types Tick Pool Position Tickmap Keys State Swap Exec Query Sdk Extra World Replay.
From stdpp Require Import gmap strings.
Open Scope Z_scope.

(** /repo/contracts/oraiswap-v3/src/storage/tick.rs *)
Example t_tick_cross :
  let pool1 := (mkPool 4000000 0 7 45 35 0 0 4 15 ""%string) in
  let tick2 := (mkTick 3 false 1000000 0 0 30 25 5) in
  let result_pool3 := (mkPool 5000000 0 7 45 35 0 0 4 315360015 ""%string) in
  let result_tick4 := (mkTick 3 false 1000000 0 0 15 10 315360006) in
  let! r5 := tick_cross tick2 pool1 315360015 in
  let tick6 := (fst r5) in
  let pool7 := (snd r5) in
  assert (tick6 = result_tick4);
  assert (pool7 = result_pool3);
  let pool8 := (mkPool 0 0 4 68 59 0 0 34 9 ""%string) in
  let tick9 := (mkTick 9 false 0 0 0 42 14 41) in
  let result_pool10 := (mkPool 0 0 4 68 59 0 0 34 315360000 ""%string) in
  let result_tick11 := (mkTick 9 false 0 0 0 26 45 315359925) in
  let! r12 := tick_cross tick9 pool8 315360000 in
  let tick13 := (fst r12) in
  let pool14 := (snd r12) in
  assert (tick13 = result_tick11);
  assert (pool14 = result_pool10);
  let pool15 := (mkPool 14000000 0 9 3402 3401 0 0 15 9 ""%string) in
  let tick16 := (mkTick 45 false 10 0 0 26584 1256588 74) in
  let result_pool17 := (mkPool 13999990 0 9 3402 3401 0 0 15 31536000 ""%string) in
  let result_tick18 := (mkTick 45 false 10 0 0 340282366920938463463374607431768188274 340282366920938463463374607431766958269 31535911) in
  let! r19 := tick_cross tick16 pool15 31536000 in
  let tick20 := (fst r19) in
  let pool21 := (snd r19) in
  assert (tick20 = result_tick18);
  assert (pool21 = result_pool17);
  let pool22 := (mkPool 14 0 9 145 364 0 0 15 16 ""%string) in
  let tick23 := (mkTick 45 false 10 0 0 99 256 74) in
  let result_pool24 := (mkPool 4 0 9 145 364 0 0 15 315360000 ""%string) in
  let result_tick25 := (mkTick 45 false 10 0 0 46 108 315359911) in
  let! r26 := tick_cross tick23 pool22 315360000 in
  let tick27 := (fst r26) in
  let pool28 := (snd r26) in
  assert (tick27 = result_tick25);
  assert (pool28 = result_pool24);
  True.
Proof. replay. Qed.

Example t_tick_update_liquidity_change :
  let tick1 := (mkTick 0 true 2000000 0 0 0 0 0) in
  let! r2 := update_liquidity_change tick1 3000000 true in
  let tick3 := (mkTick (t_index (mkTick (t_index tick1) (fst r2) (t_change tick1) (t_gross tick1) (t_price tick1) (t_fox tick1) (t_foy tick1) (t_secs tick1))) (t_sign (mkTick (t_index tick1) (fst r2) (t_change tick1) (t_gross tick1) (t_price tick1) (t_fox tick1) (t_foy tick1) (t_secs tick1))) (snd r2) (t_gross (mkTick (t_index tick1) (fst r2) (t_change tick1) (t_gross tick1) (t_price tick1) (t_fox tick1) (t_foy tick1) (t_secs tick1))) (t_price (mkTick (t_index tick1) (fst r2) (t_change tick1) (t_gross tick1) (t_price tick1) (t_fox tick1) (t_foy tick1) (t_secs tick1))) (t_fox (mkTick (t_index tick1) (fst r2) (t_change tick1) (t_gross tick1) (t_price tick1) (t_fox tick1) (t_foy tick1) (t_secs tick1))) (t_foy (mkTick (t_index tick1) (fst r2) (t_change tick1) (t_gross tick1) (t_price tick1) (t_fox tick1) (t_foy tick1) (t_secs tick1))) (t_secs (mkTick (t_index tick1) (fst r2) (t_change tick1) (t_gross tick1) (t_price tick1) (t_fox tick1) (t_foy tick1) (t_secs tick1)))) in
  assert ((t_sign tick3) = true);
  assert ((t_change tick3) = 5000000);
  let tick4 := (mkTick 0 false 2000000 0 0 0 0 0) in
  let! r5 := update_liquidity_change tick4 3000000 false in
  let tick6 := (mkTick (t_index (mkTick (t_index tick4) (fst r5) (t_change tick4) (t_gross tick4) (t_price tick4) (t_fox tick4) (t_foy tick4) (t_secs tick4))) (t_sign (mkTick (t_index tick4) (fst r5) (t_change tick4) (t_gross tick4) (t_price tick4) (t_fox tick4) (t_foy tick4) (t_secs tick4))) (snd r5) (t_gross (mkTick (t_index tick4) (fst r5) (t_change tick4) (t_gross tick4) (t_price tick4) (t_fox tick4) (t_foy tick4) (t_secs tick4))) (t_price (mkTick (t_index tick4) (fst r5) (t_change tick4) (t_gross tick4) (t_price tick4) (t_fox tick4) (t_foy tick4) (t_secs tick4))) (t_fox (mkTick (t_index tick4) (fst r5) (t_change tick4) (t_gross tick4) (t_price tick4) (t_fox tick4) (t_foy tick4) (t_secs tick4))) (t_foy (mkTick (t_index tick4) (fst r5) (t_change tick4) (t_gross tick4) (t_price tick4) (t_fox tick4) (t_foy tick4) (t_secs tick4))) (t_secs (mkTick (t_index tick4) (fst r5) (t_change tick4) (t_gross tick4) (t_price tick4) (t_fox tick4) (t_foy tick4) (t_secs tick4)))) in
  assert ((negb (t_sign tick6)) = true);
  assert ((t_change tick6) = 5000000);
  let tick7 := (mkTick 0 true 2000000 0 0 0 0 0) in
  let! r8 := update_liquidity_change tick7 3000000 false in
  let tick9 := (mkTick (t_index (mkTick (t_index tick7) (fst r8) (t_change tick7) (t_gross tick7) (t_price tick7) (t_fox tick7) (t_foy tick7) (t_secs tick7))) (t_sign (mkTick (t_index tick7) (fst r8) (t_change tick7) (t_gross tick7) (t_price tick7) (t_fox tick7) (t_foy tick7) (t_secs tick7))) (snd r8) (t_gross (mkTick (t_index tick7) (fst r8) (t_change tick7) (t_gross tick7) (t_price tick7) (t_fox tick7) (t_foy tick7) (t_secs tick7))) (t_price (mkTick (t_index tick7) (fst r8) (t_change tick7) (t_gross tick7) (t_price tick7) (t_fox tick7) (t_foy tick7) (t_secs tick7))) (t_fox (mkTick (t_index tick7) (fst r8) (t_change tick7) (t_gross tick7) (t_price tick7) (t_fox tick7) (t_foy tick7) (t_secs tick7))) (t_foy (mkTick (t_index tick7) (fst r8) (t_change tick7) (t_gross tick7) (t_price tick7) (t_fox tick7) (t_foy tick7) (t_secs tick7))) (t_secs (mkTick (t_index tick7) (fst r8) (t_change tick7) (t_gross tick7) (t_price tick7) (t_fox tick7) (t_foy tick7) (t_secs tick7)))) in
  assert ((negb (t_sign tick9)) = true);
  assert ((t_change tick9) = 1000000);
  let tick10 := (mkTick 0 false 2000000 0 0 0 0 0) in
  let! r11 := update_liquidity_change tick10 3000000 true in
  let tick12 := (mkTick (t_index (mkTick (t_index tick10) (fst r11) (t_change tick10) (t_gross tick10) (t_price tick10) (t_fox tick10) (t_foy tick10) (t_secs tick10))) (t_sign (mkTick (t_index tick10) (fst r11) (t_change tick10) (t_gross tick10) (t_price tick10) (t_fox tick10) (t_foy tick10) (t_secs tick10))) (snd r11) (t_gross (mkTick (t_index tick10) (fst r11) (t_change tick10) (t_gross tick10) (t_price tick10) (t_fox tick10) (t_foy tick10) (t_secs tick10))) (t_price (mkTick (t_index tick10) (fst r11) (t_change tick10) (t_gross tick10) (t_price tick10) (t_fox tick10) (t_foy tick10) (t_secs tick10))) (t_fox (mkTick (t_index tick10) (fst r11) (t_change tick10) (t_gross tick10) (t_price tick10) (t_fox tick10) (t_foy tick10) (t_secs tick10))) (t_foy (mkTick (t_index tick10) (fst r11) (t_change tick10) (t_gross tick10) (t_price tick10) (t_fox tick10) (t_foy tick10) (t_secs tick10))) (t_secs (mkTick (t_index tick10) (fst r11) (t_change tick10) (t_gross tick10) (t_price tick10) (t_fox tick10) (t_foy tick10) (t_secs tick10)))) in
  assert ((t_sign tick12) = true);
  assert ((t_change tick12) = 1000000);
  True.
Proof. replay. Qed.

Example t_tick_update :
  let tick1 := (mkTick 0 true 2000000 2000000 0 20000000000000000000000000000 20000000000000000000000000000 0) in
  let! r2 := tick_update tick1 1000000 340282366920938463463374607431768211455 false true in
  assert ((t_sign r2) = true);
  assert ((t_change r2) = 3000000);
  assert ((t_gross r2) = 3000000);
  assert ((t_fox r2) = 20000000000000000000000000000);
  assert ((t_foy r2) = 20000000000000000000000000000);
  let tick3 := (mkTick 5 true 3000000 7000000 0 130000000000000000000000000000 110000000000000000000000000000 0) in
  let! r4 := tick_update tick3 1000000 340282366920938463463374607431768211455 true true in
  assert ((t_sign r4) = true);
  assert ((t_change r4) = 2000000);
  assert ((t_gross r4) = 8000000);
  assert ((t_fox r4) = 130000000000000000000000000000);
  assert ((t_foy r4) = 110000000000000000000000000000);
  let tick5 := (mkTick 5 true 100000000000 100000000000 0 10000000000000000000000000000000 10000000000000000000000000000000 0) in
  let max_liquidity_per_tick6 := (calculate_max_liquidity_per_tick 1) in
  let liquidity_delta7 := (max_liquidity_per_tick6 + 1) in
  let result8 := tick_update tick5 liquidity_delta7 max_liquidity_per_tick6 false true in
  assert ((negb (is_ok (result8))) = true);
  True.
Proof. replay. Qed.

(** /repo/contracts/oraiswap-v3/src/storage/pool.rs *)
Example t_pool_create :
  let! r1 := calculate_sqrt_price 100 in
  let! r2 := pool_create r1 100 100 1 ("Fee Receiver"%string) in
  let! r3 := calculate_sqrt_price 100 in
  assert ((p_price r2) = r3);
  assert ((p_tick r2) = 100);
  assert ((p_start r2) = 100);
  assert ((p_last r2) = 100);
  assert ((p_receiver r2) = ("Fee Receiver"%string));
  let! r4 := calculate_sqrt_price 0 in
  let init_sqrt_price5 := (r4 + 1) in
  let! r6 := pool_create init_sqrt_price5 0 100 3 ("Fee Receiver"%string) in
  assert ((p_tick r6) = 0);
  refused (pool_create 1000175003749000000000000 2 100 1 ("Fee Receiver"%string));
  let pool_err7 := pool_create 1000175003749000000000000 2 100 1 ("Fee Receiver"%string) in
  assert ((pool_err7) = Err InvalidInitSqrtPrice);
  let! r8 := pool_create 1000175003749000000000000 3 100 1 ("Fee Receiver"%string) in
  assert ((p_tick r8) = 3);
  refused (pool_create 1000225003749000000000000 0 100 3 ("Fee Receiver"%string));
  let pool_err9 := pool_create 1000225003749000000000000 0 100 3 ("Fee Receiver"%string) in
  assert ((pool_err9) = Err InvalidInitSqrtPrice);
  let! r10 := pool_create 1000225003749000000000000 3 100 3 ("Fee Receiver"%string) in
  assert ((p_tick r10) = 3);
  let! r11 := calculate_sqrt_price 221818 in
  let! r12 := pool_create r11 221818 100 1 ("Fee Receiver"%string) in
  let! r13 := calculate_sqrt_price 221818 in
  let init_sqrt_price14 := (r13 - 1) in
  refused (pool_create init_sqrt_price14 221818 100 1 ("Fee Receiver"%string));
  refused (pool_create 1000000000000000000000000 221818 100 1 ("Fee Receiver"%string));
  let! r15 := calculate_sqrt_price 221817 in
  let! r16 := pool_create r15 221817 100 1 ("Fee Receiver"%string) in
  assert ((p_tick r16) = 221817);
  True.
Proof. replay. Qed.

Example t_pool_add_fee :
  let pool1 := (mkPool 10000000 0 0 0 0 0 0 0 0 ""%string) in
  let! r2 := add_fee pool1 6 true 200000000000 in
  assert ((p_fgx r2) = 4000000000000000000000000000);
  assert ((p_fgy r2) = 0);
  assert ((p_protx r2) = 2);
  assert ((p_proty r2) = 0);
  let! r3 := add_fee pool1 200 false 200000000000 in
  assert ((p_fgx r3) = 0);
  assert ((p_fgy r3) = 160000000000000000000000000000);
  assert ((p_protx r3) = 0);
  assert ((p_proty r3) = 40);
  let! r4 := add_fee pool1 1 true 200000000000 in
  assert ((p_fgx r4) = 0);
  assert ((p_fgy r4) = 0);
  assert ((p_protx r4) = 1);
  assert ((p_proty r4) = 0);
  let pool5 := (mkPool 340282366920938463463374607431768211455 0 0 0 0 0 0 0 0 ""%string) in
  let! r6 := add_fee pool5 340282366920938463463374607431768211455 true 1000000000000 in
  assert ((p_fgx r6) = 0);
  assert ((p_fgy r6) = 0);
  assert ((p_protx r6) = 340282366920938463463374607431768211455);
  assert ((p_proty r6) = 0);
  let pool7 := (mkPool 340282366920938463463374607431768211455 0 0 0 0 0 0 0 0 ""%string) in
  let! r8 := add_fee pool7 340282366920938463463374607431768211455 false 1000000000000 in
  assert ((p_fgx r8) = 0);
  assert ((p_fgy r8) = 0);
  assert ((p_protx r8) = 0);
  assert ((p_proty r8) = 340282366920938463463374607431768211455);
  let pool9 := (mkPool 340282366920938463463374607431768211455 0 0 0 0 0 0 0 0 ""%string) in
  let! r10 := add_fee pool9 340282366920938463463374607431768211455 true 0 in
  assert ((p_fgx r10) = 10000000000000000000000000000000000);
  assert ((p_fgy r10) = 0);
  assert ((p_protx r10) = 0);
  assert ((p_proty r10) = 0);
  True.
Proof. replay. Qed.

Example t_pool_update_liquidity :
  let pool1 := (mkPool 0 1000140000000000000000000 2 0 0 0 0 0 0 ""%string) in
  let! r2 := update_liquidity pool1 5000000000000 true 3 0 in
  let pool3 := (fst (fst r2)) in
  let x4 := (snd (fst r2)) in
  let y5 := (snd r2) in
  assert (x4 = 51);
  assert (y5 = 700);
  assert ((p_liq pool3) = 5000000000000);
  let pool6 := (mkPool 0 1000140000000000000000000 2 0 0 0 0 0 0 ""%string) in
  let! r7 := update_liquidity pool6 5000000000000 true 4 0 in
  let pool8 := (fst (fst r7)) in
  let x9 := (snd (fst r7)) in
  let y10 := (snd r7) in
  assert (x9 = 300);
  assert (y10 = 700);
  assert ((p_liq pool8) = 5000000000000);
  let pool11 := (mkPool 1000000 1000140000000000000000000 6 0 0 0 0 0 0 ""%string) in
  let! r12 := update_liquidity pool11 12000000 true 4 0 in
  let pool13 := (fst (fst r12)) in
  let x14 := (snd (fst r12)) in
  let y15 := (snd r12) in
  assert (x14 = 0);
  assert (y15 = 1);
  assert ((p_liq pool13) = 1000000);
  let pool16 := (mkPool 1000000 1000140000000000000000000 (-2) 0 0 0 0 0 0 ""%string) in
  let! r17 := update_liquidity pool16 12000000 true 4 0 in
  let pool18 := (fst (fst r17)) in
  let x19 := (snd (fst r17)) in
  let y20 := (snd r17) in
  assert (x19 = 1);
  assert (y20 = 0);
  assert ((p_liq pool18) = 1000000);
  let pool21 := (mkPool 10000000 1 2 0 0 0 0 0 0 ""%string) in
  let! r22 := update_liquidity pool21 5000000 false 3 1 in
  let pool23 := (fst (fst r22)) in
  let x24 := (snd (fst r22)) in
  let y25 := (snd r22) in
  assert (x24 = 2500375009372499999999997);
  assert (y25 = 5);
  assert ((p_liq pool23) = 5000000);
  True.
Proof. replay. Qed.

(** /repo/contracts/oraiswap-v3/src/storage/pool_key.rs *)
Example t_pool_key_key :
  let fee_tier1 := (mkFeeTier 10 1) in
  let! r2 := pool_key_new "token_0"%string "token_1"%string fee_tier1 in
  let! r3 := pool_key_bytes r2 in
  let! r4 := length_prefixed ["token_0"%string; "token_1"%string; (fee_tier_key fee_tier1)] in
  assert (r3 = r4);
  True.
Proof. replay. Qed.

(** /repo/contracts/oraiswap-v3/src/storage/position.rs *)
Example t_position_calculate_new_liquidity :
  let position1 := (mkPosition (mkPoolKey "" "" (mkFeeTier 0 0)) 1000000 0 0 0 0 0 0 0 []) in
  assert ((negb (is_ok (calculate_new_liquidity position1 false 2000000))) = true);
  let position2 := (mkPosition (mkPoolKey "" "" (mkFeeTier 0 0)) 2000000 0 0 0 0 0 0 0 []) in
  let! r3 := calculate_new_liquidity position2 true 2000000 in
  assert (r3 = 4000000);
  let position4 := (mkPosition (mkPoolKey "" "" (mkFeeTier 0 0)) 2000000 0 0 0 0 0 0 0 []) in
  let! r5 := calculate_new_liquidity position4 false 2000000 in
  assert (r5 = 0);
  True.
Proof. replay. Qed.

Example t_position_update :
  let position1 := (mkPosition (mkPoolKey "" "" (mkFeeTier 0 0)) 0 0 0 0 0 0 0 0 []) in
  let result2 := position_update position1 true 0 10000000000000000000000000000 10000000000000000000000000000 in
  assert ((negb (is_ok (result2))) = true);
  let position3 := (mkPosition (mkPoolKey "" "" (mkFeeTier 0 0)) 0 0 0 40000000000000000000000000000 40000000000000000000000000000 0 100 100 []) in
  let! r4 := position_update position3 true 1000000 50000000000000000000000000000 50000000000000000000000000000 in
  assert ((po_liq r4) = 1000000);
  assert ((po_fgx r4) = 50000000000000000000000000000);
  assert ((po_fgy r4) = 50000000000000000000000000000);
  assert ((po_owedx r4) = 100);
  assert ((po_owedy r4) = 100);
  let position5 := (mkPosition (mkPoolKey "" "" (mkFeeTier 0 0)) 1000000 0 0 40000000000000000000000000000 40000000000000000000000000000 0 100 100 []) in
  let! r6 := position_update position5 true 1000000 50000000000000000000000000000 50000000000000000000000000000 in
  assert ((po_liq r6) = 2000000);
  assert ((po_fgx r6) = 50000000000000000000000000000);
  assert ((po_fgy r6) = 50000000000000000000000000000);
  assert ((po_owedx r6) = 101);
  assert ((po_owedy r6) = 101);
  let position7 := (mkPosition (mkPoolKey "" "" (mkFeeTier 0 0)) 1000000 0 0 340282366820938463463374607431768211455 340282366820938463463374607431768211455 0 100 100 []) in
  let! r8 := position_update position7 true 1000000 100000000000000000000000000000 100000000000000000000000000000 in
  assert ((po_liq r8) = 2000000);
  assert ((po_fgx r8) = 100000000000000000000000000000);
  assert ((po_fgy r8) = 100000000000000000000000000000);
  assert ((po_owedx r8) = 120);
  assert ((po_owedy r8) = 120);
  True.
Proof. replay. Qed.

Example t_position_modify :
  let position1 := (mkPosition (mkPoolKey "" "" (mkFeeTier 0 0)) 123000000 0 0 340282354580938463463374607431768211455 340282354580938463463374607431768211455 0 0 0 []) in
  let pool2 := (mkPool 0 0 0 200000000000000000000000000000 200000000000000000000000000000 0 0 0 0 ""%string) in
  let upper_tick3 := (mkTick (-10) false 0 123000000 0 150000000000000000000000000000 150000000000000000000000000000 0) in
  let lower_tick4 := (mkTick (-20) false 0 123000000 0 200000000000000000000000000000 200000000000000000000000000000 0) in
  let! r5 := position_modify position1 pool2 upper_tick3 lower_tick4 0 true 1234567890 1 in
  let '(po6, pool7, up8, lo9, x10, y11) := r5 in
  assert ((po_owedx po6) = 151167);
  True.
Proof. replay. Qed.

(** /repo/contracts/oraiswap-v3/src/state.rs *)
Example t_state_get_closer_limit :
  let fee_tier1 := (mkFeeTier 1 1) in
  let! r2 := pool_key_new "token_0"%string "token_1"%string fee_tier1 in
  let! deps4 := flip_bitmap store0 true 0 1 r2 in
  let! r5 := get_closer_limit deps4 5000000000000000000000000 true 100 1 r2 in
  let '(result6, from_tick7) := r5 in
  assert (result6 = 5000000000000000000000000);
  assert (from_tick7 = None);
  let! r8 := get_closer_limit deps4 100000000000000000000000 true 100 1 r2 in
  let '(result9, from_tick10) := r8 in
  assert (result9 = 1000000000000000000000000);
  assert (from_tick10 = (Some (0, true)));
  let! r11 := get_closer_limit deps4 2000000000000000000000000 false (-5) 1 r2 in
  let '(result12, from_tick13) := r11 in
  assert (result12 = 1000000000000000000000000);
  assert (from_tick13 = (Some (0, true)));
  let! r14 := get_closer_limit deps4 100000000000000000000000 false (-100) 10 r2 in
  let '(result15, from_tick16) := r14 in
  assert (result15 = 100000000000000000000000);
  assert (from_tick16 = None);
  True.
Proof. replay. Qed.

Example t_state_flip :
  let fee_tier1 := (mkFeeTier 1 1) in
  let! r2 := pool_key_new "token_0"%string "token_1"%string fee_tier1 in
  let! r3 := get_bitmap store0 0 1 r2 in
  assert ((negb r3) = true);
  let! deps5 := flip_bitmap store0 true 0 1 r2 in
  let! r6 := get_bitmap deps5 0 1 r2 in
  assert (r6 = true);
  let! deps8 := flip_bitmap deps5 false 0 1 r2 in
  let! r9 := get_bitmap deps8 0 1 r2 in
  assert ((negb r9) = true);
  let! r10 := get_bitmap deps8 7 1 r2 in
  assert ((negb r10) = true);
  let! deps12 := flip_bitmap deps8 true 7 1 r2 in
  let! r13 := get_bitmap deps12 7 1 r2 in
  assert (r13 = true);
  let! deps15 := flip_bitmap deps12 false 7 1 r2 in
  let! r16 := get_bitmap deps15 7 1 r2 in
  assert ((negb r16) = true);
  let! r17 := get_bitmap deps15 221817 1 r2 in
  assert ((negb r17) = true);
  let! deps19 := flip_bitmap deps15 true 221817 1 r2 in
  let! r20 := get_bitmap deps19 221817 1 r2 in
  assert (r20 = true);
  let! deps22 := flip_bitmap deps19 false 221817 1 r2 in
  let! r23 := get_bitmap deps22 221817 1 r2 in
  assert ((negb r23) = true);
  let! r24 := get_bitmap deps22 221778 1 r2 in
  assert ((negb r24) = true);
  let! deps26 := flip_bitmap deps22 true 221778 1 r2 in
  let! r27 := get_bitmap deps26 221778 1 r2 in
  assert (r27 = true);
  let! deps29 := flip_bitmap deps26 false 221778 1 r2 in
  let! r30 := get_bitmap deps29 221778 1 r2 in
  assert ((negb r30) = true);
  let! r31 := get_bitmap deps29 20000 1000 r2 in
  assert ((negb r31) = true);
  let! deps33 := flip_bitmap deps29 true 20000 1000 r2 in
  let! r34 := get_bitmap deps33 20000 1000 r2 in
  assert (r34 = true);
  let! deps36 := flip_bitmap deps33 false 20000 1000 r2 in
  let! r37 := get_bitmap deps36 20000 1000 r2 in
  assert ((negb r37) = true);
  True.
Proof. replay. Qed.

Example t_state_next_initialized_simple :
  let fee_tier1 := (mkFeeTier 1 1) in
  let! r2 := pool_key_new "token_0"%string "token_1"%string fee_tier1 in
  let! deps4 := flip_bitmap store0 true 5 1 r2 in
  let! r5 := next_initialized deps4 0 1 r2 in
  assert (r5 = (Some 5));
  True.
Proof. replay. Qed.

Example t_state_next_initialized_multiple :
  let fee_tier1 := (mkFeeTier 1 1) in
  let! r2 := pool_key_new "token_0"%string "token_1"%string fee_tier1 in
  let! deps4 := flip_bitmap store0 true 50 10 r2 in
  let! deps6 := flip_bitmap deps4 true 100 10 r2 in
  let! r7 := next_initialized deps6 0 10 r2 in
  assert (r7 = (Some 50));
  let! r8 := next_initialized deps6 50 10 r2 in
  assert (r8 = (Some 100));
  True.
Proof. replay. Qed.

Example t_state_next_initialized_current_is_last :
  let fee_tier1 := (mkFeeTier 1 1) in
  let! r2 := pool_key_new "token_0"%string "token_1"%string fee_tier1 in
  let! deps4 := flip_bitmap store0 true 0 10 r2 in
  let! r5 := next_initialized deps4 0 10 r2 in
  assert (r5 = None);
  True.
Proof. replay. Qed.

Example t_state_next_initialized_just_below_limit :
  let fee_tier1 := (mkFeeTier 1 1) in
  let! r2 := pool_key_new "token_0"%string "token_1"%string fee_tier1 in
  let! deps4 := flip_bitmap store0 true 0 1 r2 in
  let! r5 := next_initialized deps4 (-256) 1 r2 in
  assert (r5 = (Some 0));
  True.
Proof. replay. Qed.

Example t_state_next_initialized_at_limit :
  let fee_tier1 := (mkFeeTier 1 1) in
  let! r2 := pool_key_new "token_0"%string "token_1"%string fee_tier1 in
  let! deps4 := flip_bitmap store0 true 0 1 r2 in
  let! r5 := next_initialized deps4 (-257) 1 r2 in
  assert (r5 = None);
  True.
Proof. replay. Qed.

Example t_state_next_initialized_further_than_limit :
  let fee_tier1 := (mkFeeTier 1 1) in
  let! r2 := pool_key_new "token_0"%string "token_1"%string fee_tier1 in
  let! deps4 := flip_bitmap store0 true 221808 1 r2 in
  let! r5 := next_initialized deps4 (-221817) 1 r2 in
  assert (r5 = None);
  True.
Proof. replay. Qed.

Example t_state_next_initialized_hitting_the_limit :
  let fee_tier1 := (mkFeeTier 1 1) in
  let! r2 := pool_key_new "token_0"%string "token_1"%string fee_tier1 in
  let! r3 := next_initialized store0 221796 4 r2 in
  assert (r3 = None);
  True.
Proof. replay. Qed.

Example t_state_next_initialized_already_at_limit :
  let fee_tier1 := (mkFeeTier 1 1) in
  let! r2 := pool_key_new "token_0"%string "token_1"%string fee_tier1 in
  let! r3 := next_initialized store0 221816 4 r2 in
  assert (r3 = None);
  True.
Proof. replay. Qed.

Example t_state_next_initialized_at_pos_63 :
  let fee_tier1 := (mkFeeTier 1 1) in
  let! r2 := pool_key_new "token_0"%string "token_1"%string fee_tier1 in
  let! deps4 := flip_bitmap store0 true 221755 1 r2 in
  let! r5 := next_initialized deps4 221690 1 r2 in
  assert (r5 = (Some 221755));
  True.
Proof. replay. Qed.

Example t_state_prev_initialized_simple :
  let fee_tier1 := (mkFeeTier 1 1) in
  let! r2 := pool_key_new "token_0"%string "token_1"%string fee_tier1 in
  let! deps4 := flip_bitmap store0 true (-5) 1 r2 in
  let! r5 := prev_initialized deps4 0 1 r2 in
  assert (r5 = (Some (-5)));
  True.
Proof. replay. Qed.

Example t_state_prev_initialized_multiple :
  let fee_tier1 := (mkFeeTier 1 1) in
  let! r2 := pool_key_new "token_0"%string "token_1"%string fee_tier1 in
  let! deps4 := flip_bitmap store0 true (-50) 10 r2 in
  let! deps6 := flip_bitmap deps4 true (-100) 10 r2 in
  let! r7 := prev_initialized deps6 0 10 r2 in
  assert (r7 = (Some (-50)));
  let! r8 := prev_initialized deps6 (-50) 10 r2 in
  assert (r8 = (Some (-50)));
  True.
Proof. replay. Qed.

Example t_state_prev_initialized_current_is_last :
  let fee_tier1 := (mkFeeTier 1 1) in
  let! r2 := pool_key_new "token_0"%string "token_1"%string fee_tier1 in
  let! deps4 := flip_bitmap store0 true 0 10 r2 in
  let! r5 := prev_initialized deps4 0 10 r2 in
  assert (r5 = (Some 0));
  True.
Proof. replay. Qed.

Example t_state_prev_initialized_next_is_last :
  let fee_tier1 := (mkFeeTier 1 1) in
  let! r2 := pool_key_new "token_0"%string "token_1"%string fee_tier1 in
  let! deps4 := flip_bitmap store0 true 10 10 r2 in
  let! r5 := prev_initialized deps4 0 10 r2 in
  assert (r5 = None);
  True.
Proof. replay. Qed.

Example t_state_prev_initialized_just_below_limit :
  let fee_tier1 := (mkFeeTier 1 1) in
  let! r2 := pool_key_new "token_0"%string "token_1"%string fee_tier1 in
  let! deps4 := flip_bitmap store0 true 0 1 r2 in
  let! r5 := prev_initialized deps4 256 1 r2 in
  assert (r5 = (Some 0));
  True.
Proof. replay. Qed.

Example t_state_prev_initialized_at_limit :
  let fee_tier1 := (mkFeeTier 1 1) in
  let! r2 := pool_key_new "token_0"%string "token_1"%string fee_tier1 in
  let! deps4 := flip_bitmap store0 true 0 1 r2 in
  let! r5 := prev_initialized deps4 257 1 r2 in
  assert (r5 = None);
  True.
Proof. replay. Qed.

Example t_state_prev_initialized_farther_than_limit :
  let fee_tier1 := (mkFeeTier 1 1) in
  let! r2 := pool_key_new "token_0"%string "token_1"%string fee_tier1 in
  let! deps4 := flip_bitmap store0 true (-221817) 1 r2 in
  let! r5 := prev_initialized deps4 221817 1 r2 in
  assert (r5 = None);
  True.
Proof. replay. Qed.

Example t_state_prev_initialized_at_pos_63 :
  let fee_tier1 := (mkFeeTier 1 1) in
  let! r2 := pool_key_new "token_0"%string "token_1"%string fee_tier1 in
  let! deps4 := flip_bitmap store0 true (-221755) 1 r2 in
  let! r5 := prev_initialized deps4 (-221690) 1 r2 in
  assert (r5 = (Some (-221755)));
  True.
Proof. replay. Qed.

Example t_state_get_search_limit :
  let result1 := (get_search_limit 0 1 true) in
  assert (result1 = 256);
  let result2 := (get_search_limit 0 1 false) in
  assert (result2 = (-256));
  let result3 := (get_search_limit 60 12 true) in
  assert (result3 = 3132);
  let result4 := (get_search_limit 60 12 false) in
  assert (result4 = (-3012));
  let result5 := (get_search_limit 221796 5 true) in
  assert (result5 = 221815);
  let result6 := (get_search_limit 221815 5 true) in
  assert (result6 = 221815);
  True.
Proof. replay. Qed.

(** /repo/contracts/oraiswap-v3/src/logic/math.rs *)
Example t_math_get_liquidity_by_x_test :
  let! r1 := calculate_sqrt_price 100 in
  let! r2 := sdk_liquidity_by_x 430000 80 120 r1 true in
  assert (432392997319297 = (fst r2));
  assert (434322 = (snd r2));
  let! r3 := sdk_liquidity_by_x 430000 80 120 r1 false in
  assert (432392997319297 = (fst r3));
  assert (434321 = (snd r3));
  let! r4 := sdk_liquidity_by_x 430000 150 800 r1 true in
  assert (13548826311623 = (fst r4));
  assert (0 = (snd r4));
  let! r5 := sdk_liquidity_by_x 430000 150 800 r1 false in
  assert (13548826311623 = (fst r5));
  assert (0 = (snd r4));
  True.
Proof. replay. Qed.

Example t_math_get_liquidity_by_y_test :
  let! r1 := calculate_sqrt_price (-20000) in
  let! r2 := sdk_liquidity_by_y 47600000000 (-22000) (-21000) r1 true in
  assert (2789052279103923275 = (fst r2));
  assert (0 = (snd r2));
  let! r3 := sdk_liquidity_by_y 47600000000 (-22000) (-21000) r1 false in
  assert (2789052279103923275 = (fst r3));
  assert (0 = (snd r3));
  let! r4 := sdk_liquidity_by_y 47600000000 (-25000) (-19000) r1 true in
  assert (584945290554346935 = (fst r4));
  assert (77539808126 = (snd r4));
  let! r5 := sdk_liquidity_by_y 47600000000 (-25000) (-19000) r1 false in
  assert (584945290554346935 = (fst r5));
  assert (77539808125 = (snd r5));
  refused (sdk_liquidity_by_y 47600000000 (-10000) 0 r1 true);
  let err6 := sdk_liquidity_by_y 47600000000 (-10000) 0 r1 true in
  assert ((err6) = Err StdErr);
  refused (sdk_liquidity_by_y 47600000000 (-10000) 0 r1 false);
  let err7 := sdk_liquidity_by_y 47600000000 (-10000) 0 r1 false in
  assert ((err7) = Err StdErr);
  True.
Proof. replay. Qed.

Example t_math_get_liquidity_test :
  let! r1 := calculate_sqrt_price (-20000) in
  let! r2 := get_liquidity 0 47600000000 (-22000) (-21000) r1 true in
  assert (2789052279103923275 = (g_l r2));
  assert ((g_x r2) = 0);
  let! r3 := get_liquidity 0 47600000000 (-22000) (-21000) r1 true in
  assert (2789052279103923275 = (g_l r3));
  assert ((g_x r3) = 0);
  let! r4 := get_liquidity 77539808126 47600000000 (-25000) (-19000) r1 true in
  assert (584945290554346935 = (g_l r4));
  assert ((g_x r4) = 77539808126);
  let! r5 := get_liquidity 77539808125 47600000000 (-25000) (-19000) r1 false in
  assert (584945290552911923 = (g_l r5));
  assert ((g_x r5) = 77539808125);
  let! r6 := get_liquidity 430000000 0 150 800 r1 true in
  assert (13548826311623850 = (g_l r6));
  assert ((g_y r6) = 0);
  let! r7 := get_liquidity 430000000 0 150 800 r1 true in
  assert (13548826311623850 = (g_l r7));
  assert ((g_y r7) = 0);
  True.
Proof. replay. Qed.
