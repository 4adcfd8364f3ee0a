(** Replay of the unit tests of the pure functions: contracts/oraiswap-v3/src/math.
    Each example is one Rust test, translated mechanically: macros of helper.rs expanded, decimals as raw integers,
    loops unrolled, [unwrap] as [let!], [unwrap_err]/[is_err] as [refused], the assertions in their order.
    These are tests of the model against the expectations of the project, not proofs of properties.
    Left out: the loops of log.rs over all ticks (a theorem of [PropPrice] covers every tick) and
    tests of JSON, strings or panics' texts. *)
From Verif Require Import Base Decimal SqrtPrice Clamm Log FeeGrowth Types Tick Pool Position Tickmap Keys State Swap Exec Query Sdk Extra World Replay.
From stdpp Require Import gmap strings.
Open Scope Z_scope.

(** /repo/contracts/oraiswap-v3/src/math/clamm.rs *)
Example t_clamm_calculate_min_amount_out :
  let! r1 := calculate_min_amount_out 100 0 in
  assert (r1 = 100);
  let! r2 := calculate_min_amount_out 100 1000000000 in
  assert (r2 = 100);
  let! r3 := calculate_min_amount_out 123 9000000000 in
  assert (r3 = 122);
  let! r4 := calculate_min_amount_out 100 10000000000 in
  assert (r4 = 99);
  let! r5 := calculate_min_amount_out 100 30000000000 in
  assert (r5 = 97);
  let! r6 := calculate_min_amount_out 100 50000000000 in
  assert (r6 = 95);
  let! r7 := calculate_min_amount_out 100 100000000000 in
  assert (r7 = 90);
  let! r8 := calculate_min_amount_out 100 200000000000 in
  assert (r8 = 80);
  let! r9 := calculate_min_amount_out 100 500000000000 in
  assert (r9 = 50);
  let! r10 := calculate_min_amount_out 100 1000000000000 in
  assert (r10 = 0);
  True.
Proof. replay. Qed.

Example t_clamm_domain_calculate_min_amount_out :
  let! r1 := calculate_min_amount_out 0 0 in
  assert (r1 = 0);
  let! r2 := calculate_min_amount_out 0 1000000000000 in
  assert (r2 = 0);
  let! r3 := calculate_min_amount_out 340282366920938463463374607431768211455 1000000000000 in
  assert (r3 = 0);
  let! r4 := calculate_min_amount_out 340282366920938463463374607431768211455 0 in
  assert (r4 = 340282366920938463463374607431768211455);
  True.
Proof. replay. Qed.

Example t_clamm_domain_get_next_sqrt_price_from_input :
  let! r1 := calculate_sqrt_price (-221818) in
  let! r2 := calculate_sqrt_price 221818 in
  let almost_min_sqrt_price3 := (r1 + 1) in
  let almost_max_sqrt_price4 := (r2 - 1) in
  let! r5 := get_next_sqrt_price_from_input almost_max_sqrt_price4 340282366920938463463374607431768211455 600000000 false in
  assert (r5 = 65535383934512647000000000000);
  let! r6 := get_next_sqrt_price_from_input almost_min_sqrt_price3 340282366920938463463374607431768211455 2000000000000000000 true in
  assert (r6 = 15258932000000000000);
  let! r7 := get_next_sqrt_price_from_input r1 340282366920938463463374607431768211455 0 true in
  assert (r7 = r1);
  let! r8 := get_next_sqrt_price_from_input r1 0 20 true in
  assert (r8 = 0);
  refused (get_next_sqrt_price_from_input r2 1 340282366920938463463374607431768211455 false);
  let err9 := get_next_sqrt_price_from_input r2 1 340282366920938463463374607431768211455 false in
  assert ((err9) = Err EMul);
  True.
Proof. replay. Qed.

Example t_clamm_domain_get_next_sqrt_price_from_output :
  let! r1 := calculate_sqrt_price (-221818) in
  let! r2 := calculate_sqrt_price 221818 in
  let almost_min_sqrt_price3 := (r1 + 1) in
  let almost_max_sqrt_price4 := (r2 - 1) in
  let! r5 := get_next_sqrt_price_from_output almost_max_sqrt_price4 340282366920938463463374607431768211455 1 false in
  assert (r5 = 65535383934512647000000000012);
  let! r6 := get_next_sqrt_price_from_output almost_min_sqrt_price3 340282366920938463463374607431768211455 1 true in
  assert (r6 = 15258932000000000000);
  let! r7 := get_next_sqrt_price_from_output r1 340282366920938463463374607431768211455 0 true in
  assert (r7 = r1);
  refused (get_next_sqrt_price_from_output r1 0 20 true);
  let err8 := get_next_sqrt_price_from_output r1 0 20 true in
  assert ((err8) = Err ESub);
  refused (get_next_sqrt_price_from_output r2 1 340282366920938463463374607431768211455 false);
  let err9 := get_next_sqrt_price_from_output r2 1 340282366920938463463374607431768211455 false in
  assert ((err9) = Err BigLiquidityOverflow);
  True.
Proof. replay. Qed.

Example t_clamm_compute_swap_step :
  let! r1 := compute_swap_step 1000000000000000000000000 1004987562112089027021926 2000000000 1 true 600000000 in
  let expected_result2 := (mkSwapResult 1000000000000000000000000 0 0 1) in
  assert (r1 = expected_result2);
  let! r3 := compute_swap_step 1000000000000000000000000 1004987562112089027021926 2000000000 20 true 600000000 in
  let! r4 := compute_swap_step 1000000000000000000000000 1004987562112089027021926 2000000000 20 false 600000000 in
  let expected_result5 := (mkSwapResult 1004987562112089027021926 10 9 1) in
  assert (r3 = expected_result5);
  assert (r4 = expected_result5);
  let! r6 := compute_swap_step 1010000000000000000000000 10000000000000000000000000 300000000000000 1000000 true 600000000 in
  let expected_result7 := (mkSwapResult 1013331333333333333333333 999400 976487 600) in
  assert (r6 = expected_result7);
  let! r8 := compute_swap_step 101000000000000000000000000 100000000000000000000000000 5000000000000000000 2000000 false 600000000 in
  let expected_result9 := (mkSwapResult 100999999600000000000000000 197 2000000 1) in
  assert (r8 = expected_result9);
  let! r10 := compute_swap_step 999500149965000000000000 999500149965000000000000 20006000000000 1000000 true 600000000 in
  let expected_result11 := (mkSwapResult 999500149965000000000000 0 0 0) in
  assert (r10 = expected_result11);
  let! r12 := compute_swap_step 999500149965000000000000 1999500149965000000000000 100000000000000000000000000000000 10 true 600000000 in
  let expected_result13 := (mkSwapResult 999500149965000000000000 0 0 10) in
  assert (r12 = expected_result13);
  let! r14 := compute_swap_step 1000000000000000000000000 1000050000000000000000000 368944000000000000000000000000 1 true 600000000 in
  let expected_result15 := (mkSwapResult 1000000000000000000000000 0 0 1) in
  assert (r14 = expected_result15);
  let! r16 := compute_swap_step 1000000000000000000000000 1000050000000000000000000 368944000000000000000000000000 1 false 600000000 in
  let expected_result17 := (mkSwapResult 1000000000000000000000003 2 1 1) in
  assert (r16 = expected_result17);
  let! r18 := compute_swap_step 1000000000000000000000000 1000050000000000000000000 0 100000 true 600000000 in
  let expected_result19 := (mkSwapResult 1000050000000000000000000 0 0 0) in
  assert (r18 = expected_result19);
  let! r20 := compute_swap_step 1000000000000000000000000 1000050000000000000000000 0 100000 false 600000000 in
  let expected_result21 := (mkSwapResult 1000050000000000000000000 0 0 0) in
  assert (r20 = expected_result21);
  let! r22 := compute_swap_step 999950000000000000000000 1000000000000000000000000 50000000000000 1000 true 0 in
  let expected_result23 := (mkSwapResult 999970000000000000000000 1000 1000 0) in
  assert (r22 = expected_result23);
  let! r24 := calculate_sqrt_price (-10) in
  let current_sqrt_price25 := (r24 + 1000000000000000000000000) in
  let! r26 := compute_swap_step current_sqrt_price25 r24 340282366920938463463374607000000 1 false 900000000000 in
  let! r27 := compute_swap_step current_sqrt_price25 r24 340282366920938463463374607000000 85 false 900000000000 in
  let! r28 := compute_swap_step current_sqrt_price25 r24 340282366920938463463374607000000 0 false 0 in
  let expected_one_token_result29 := (mkSwapResult (current_sqrt_price25 - 1) 86 1 78) in
  let expected_tokens_with_same_output_result30 := (mkSwapResult (current_sqrt_price25 - 1) 86 85 78) in
  let expected_zero_token_result31 := (mkSwapResult current_sqrt_price25 0 0 0) in
  assert (r26 = expected_one_token_result29);
  assert (r27 = expected_tokens_with_same_output_result30);
  assert (r28 = expected_zero_token_result31);
  True.
Proof. replay. Qed.

Example t_clamm_domain_compute_swap_step :
  let! r1 := calculate_sqrt_price 221818 in
  let! r2 := calculate_sqrt_price (-221818) in
  let! r3 := compute_swap_step 1000000000000000000000000 2000000000000000000000000 1000000 340282366920938463463374607431768211455 true 1000000000000 in
  assert (r3 = (mkSwapResult 1000000000000000000000000 0 0 340282366920938463463374607431768211455));
  let! r4 := compute_swap_step 1000000000000000000000000 2000000000000000000000000 340282366920938463463374607431768211455 340282366920938463463374607431768211455 true 0 in
  assert (r4 = (mkSwapResult 2000000000000000000000000 340282366920938463463374607431769 170141183460469231731687303715884 0));
  let! r5 := compute_swap_step 1000000000000000000000000 2000000000000000000000000 100000000000000000000 99999999999999 true 0 in
  assert (r5 = (mkSwapResult 1999999999999990000000000 99999999999999 49999999999999 0));
  let expected_result6 := (mkSwapResult 1000018999999999999999999 6465364971497830805463835175 6465242131897324756293472063 340282366914473098491876776626304376280) in
  let! r7 := compute_swap_step 1000000000000000000000000 2000000000000000000000000 340282366920938463463374607431768211455 340282366920938463463374607431768211455 true 999999999981 in
  assert (r7 = expected_result6);
  let! r8 := compute_swap_step r1 r2 340282366920938463463374607431768211455 340282366920938463463374607431768211454 true 0 in
  assert (r8 = (mkSwapResult 15258932000000000000 22300536291904886527033853306200674438 22300535557116062863569555195614450423 0));
  let! r9 := compute_swap_step r2 r1 340282366920938463463374607431768211455 340282366920938463463374607431768211454 true 0 in
  assert (r9 = (mkSwapResult 65535383934512647000000000000 22300535557116062863569555195614450424 22300536291904886527033853306200674437 0));
  let! r10 := compute_swap_step r2 r1 999999 340282366920938 true 0 in
  assert (r10 = (mkSwapResult r1 65536 65535 0));
  let! r11 := compute_swap_step (r1 - 232826265438719159684) r1 340282366920938463463374607431768211455 340282366920938463463374607431768211454 false 0 in
  assert (r11 = (mkSwapResult 65535383934512647000000000000 79226672684850046813853155300 18446744073709551615 0));
  let! r12 := compute_swap_step r2 r1 281477613507675000000 340282366920938463463374607431768211454 false 0 in
  assert (r12 = (mkSwapResult 65535383934512647000000000000 18446743465900796471 18446744073709559494 0));
  let! r13 := compute_swap_step (r1 - 1000000000000000000000000) r1 10000000000000000 1 false 0 in
  assert (r13 = (mkSwapResult 65534813412874974599766965330 4294783624 1 0));
  let! r14 := compute_swap_step r1 r2 340282366920938463463374607431768211455 340282366920938463463374607431768211455 false 0 in
  assert (r14 = (mkSwapResult 15258932000000000000 22300536291904886527033853306200674438 22300535557116062863569555195614450423 0));
  True.
Proof. replay. Qed.

Example t_clamm_get_next_sqrt_price_y_down :
  let! r1 := get_next_sqrt_price_y_down 1000000000000000000000000 1000000 1 true in
  assert (r1 = 2000000000000000000000000);
  let! r2 := get_next_sqrt_price_y_down 1000000000000000000000000 2000000 3 true in
  assert (r2 = 2500000000000000000000000);
  let! r3 := get_next_sqrt_price_y_down 2000000000000000000000000 3000000 5 true in
  let! r4 := big_div 1000000000000000000000000 11000000000000000000000000 3000000000000000000000000 in
  assert (r3 = r4);
  let! r5 := get_next_sqrt_price_y_down 24234000000000000000000000000 3000000000 5000 true in
  let! r6 := big_div 1000000000000000000000000 72707000000000000000000000000 3000000000000000000000000 in
  assert (r5 = r6);
  let! r7 := get_next_sqrt_price_y_down 1000000000000000000000000 2000000 1 false in
  assert (r7 = 500000000000000000000000);
  let! r8 := get_next_sqrt_price_y_down 100000000000000000000000000000 500000000000000 4000 false in
  assert (r8 = 99999999992000000000000000000);
  let! r9 := get_next_sqrt_price_y_down 3000000000000000000000000 222000000 37 false in
  assert (r9 = 2833333333333333333333333);
  True.
Proof. replay. Qed.

Example t_clamm_domain_get_next_sqrt_price_y_down :
  let! r1 := calculate_sqrt_price (-221818) in
  let! r2 := calculate_sqrt_price 221818 in
  let almost_min_sqrt_price3 := (r1 + 1) in
  let almost_max_sqrt_price4 := (r2 - 1) in
  let! r5 := get_next_sqrt_price_y_down r1 340282366920938463463374607431768211455 600000001 true in
  assert (r5 = 15258932000000000001);
  let! r6 := get_next_sqrt_price_y_down almost_min_sqrt_price3 340282366920938463463374607431768211455 1 false in
  assert (r6 = 15258932000000000000);
  let! r7 := get_next_sqrt_price_y_down r2 340282366920938463463374607431768211455 1 false in
  assert (r7 = 65535383934512646999999999999);
  let! r8 := get_next_sqrt_price_y_down almost_max_sqrt_price4 340282366920938463463374607431768211455 600000001 true in
  assert (r8 = 65535383934512647000000000000);
  refused (get_next_sqrt_price_y_down r2 1 340282366920938463463374607431768211455 true);
  let err9 := get_next_sqrt_price_y_down r2 1 340282366920938463463374607431768211455 true in
  assert ((err9) = Err EMul);
  refused (get_next_sqrt_price_y_down 1 1 340282366920938463463374607431768211455 false);
  let err10 := get_next_sqrt_price_y_down 1 1 340282366920938463463374607431768211455 false in
  assert ((err10) = Err ECast);
  refused (get_next_sqrt_price_y_down r2 1000000 340282366920938 true);
  let err11 := get_next_sqrt_price_y_down r2 1000000 340282366920938 true in
  assert ((err11) = Err EAdd);
  refused (get_next_sqrt_price_y_down 1 1000000 340282366920938 false);
  let err12 := get_next_sqrt_price_y_down 1 1000000 340282366920938 false in
  assert ((err12) = Err ESub);
  refused (get_next_sqrt_price_y_down 1 1000000 79228162514264337593543950336 true);
  let err13 := get_next_sqrt_price_y_down 1 1000000 79228162514264337593543950336 true in
  assert ((err13) = Err ECast);
  refused (get_next_sqrt_price_y_down 1 1000000 79228162514264337593543950336 false);
  let err14 := get_next_sqrt_price_y_down 1 1000000 79228162514264337593543950336 false in
  assert ((err14) = Err ECast);
  refused (get_next_sqrt_price_y_down r1 340282366920938463463374607431768211455 340282366920938463463374607431768211455 true);
  let err15 := get_next_sqrt_price_y_down r1 340282366920938463463374607431768211455 340282366920938463463374607431768211455 true in
  assert ((err15) = Err EMul);
  refused (get_next_sqrt_price_y_down r1 0 1 true);
  let err16 := get_next_sqrt_price_y_down r1 0 1 true in
  assert ((err16) = Err EDiv);
  let! r17 := get_next_sqrt_price_y_down r1 340282366920938463463374607431768211455 0 true in
  assert (r17 = r1);
  True.
Proof. replay. Qed.

Example t_clamm_get_delta_x :
  let! r1 := get_delta_x 1000000000000000000000000 1000000000000000000000000 0 false in
  assert (r1 = 0);
  let! r2 := get_delta_x 1000000000000000000000000 2000000000000000000000000 2000000 false in
  assert (r2 = 1);
  let! r3 := get_delta_x 234878324943782000000000000 87854456421658000000000000 983983249092 false in
  let! r4 := get_delta_x 234878324943782000000000000 87854456421658000000000000 983983249092 true in
  assert (r3 = 7010);
  assert (r4 = 7011);
  let! r5 := get_delta_x 1000000000000000000000000 500000000000000000000000 18446744073709551615000000 false in
  let! r6 := get_delta_x 1000000000000000000000000 500000000000000000000000 18446744073709551615000000 true in
  assert (r5 = (18446744073709551615000000 / 1000000));
  assert (r6 = (18446744073709551615000000 / 1000000));
  assert ((is_ok (get_delta_x 1000000000000000000000000 500000000000000000000000 340282366920938463463374607431768211455 false)) = true);
  assert ((is_ok (get_delta_x 1000000000000000000000000 500000000000000000000000 340282366920938463463374607431768211455 true)) = true);
  assert ((is_ok (get_delta_x 1000000000000000000000000 1000000000000000001000000 1208925819614629174706176000000 false)) = true);
  assert ((is_ok (get_delta_x 1000000000000000000000000 1000000000000000001000000 1208925819614629174706176000000 true)) = true);
  True.
Proof. replay. Qed.

Example t_clamm_domain_get_delta_x :
  let! r1 := calculate_sqrt_price 221818 in
  let! r2 := calculate_sqrt_price (-221818) in
  let! r3 := calculate_sqrt_price (-221817) in
  let! r4 := get_delta_x r1 r2 340282366920938463463374607431768211455 true in
  assert (r4 = 22300536291904886527033853306200674438);
  let! r5 := get_delta_x r1 r2 340282366920938463463374607431768211455 false in
  assert (r5 = 22300536291904886527033853306200674437);
  let! r6 := get_delta_x r1 r2 1 true in
  assert (r6 = 1);
  let! r7 := get_delta_x r1 r2 1 false in
  assert (r7 = 0);
  let! r8 := get_delta_x r2 r3 340282366920938463463374607431768211455 true in
  assert (1115049101222874255702226300908362 = r8);
  let! r9 := get_delta_x r2 r3 340282366920938463463374607431768211455 false in
  assert (1115049101222874255702226300908361 = r9);
  let! r10 := get_delta_x r2 r3 1 true in
  assert (1 = r10);
  let! r11 := get_delta_x r2 r3 1 false in
  assert (0 = r11);
  let! r12 := calculate_sqrt_price 196218 in
  let! r13 := get_delta_x r1 r12 340282366920938463463374607431768211455 true in
  assert (r13 = 13481455942966627077028504118);
  let! r14 := sub_e StdErr r1 1 in
  let! r15 := add_e StdErr r2 1 in
  let! r16 := get_delta_x r1 r14 340282366920938463463374607431768211455 true in
  assert (1 = r16);
  let! r17 := get_delta_x r2 r15 340282366920938463463374607431768211455 true in
  assert (1461474256330471373 = r17);
  let! r18 := get_delta_x r1 r2 0 true in
  assert (0 = r18);
  let! r19 := get_delta_x r1 r2 0 false in
  assert (0 = r19);
  True.
Proof. replay. Qed.

Example t_clamm_get_delta_y :
  let! r1 := get_delta_y 1000000000000000000000000 1000000000000000000000000 0 false in
  assert (r1 = 0);
  let! r2 := get_delta_y 1000000000000000000000000 2000000000000000000000000 2000000 false in
  assert (r2 = 2);
  let! r3 := get_delta_y 234878324943782000000000000 87854456421658000000000000 983983249092 false in
  let! r4 := get_delta_y 234878324943782000000000000 87854456421658000000000000 983983249092 true in
  assert (r3 = 144669023);
  assert (r4 = 144669024);
  let! r5 := get_delta_y 1000000000000000000000000 2000000000000000000000000 18446744073709551615000000 false in
  let! r6 := get_delta_y 1000000000000000000000000 2000000000000000000000000 18446744073709551615000000 true in
  assert (r5 = (18446744073709551615000000 / 1000000));
  assert (r6 = (18446744073709551615000000 / 1000000));
  assert ((negb (is_ok (get_delta_y 1000000000000000000000000 340282366920938463463374607431768211455 340282366920938463463374607431768211455 false))) = true);
  assert ((negb (is_ok (get_delta_y 1000000000000000000000000 340282366920938463463374607431768211455 340282366920938463463374607431768211455 true))) = true);
  assert ((is_ok (get_delta_y 1000000000000000000000000 1000000000000000001000000 1208925819614629174706176000000 false)) = true);
  assert ((is_ok (get_delta_y 1000000000000000000000000 1000000000000000001000000 1208925819614629174706176000000 true)) = true);
  True.
Proof. replay. Qed.

Example t_clamm_domain_get_delta_y :
  let! r1 := calculate_sqrt_price 221818 in
  let! r2 := calculate_sqrt_price (-221818) in
  let! r3 := get_delta_y r1 r2 340282366920938463463374607431768211455 true in
  assert (r3 = 22300535557116062863569555195614450424);
  let! r4 := get_delta_y r1 r2 340282366920938463463374607431768211455 false in
  assert (r4 = 22300535557116062863569555195614450423);
  let! r5 := get_delta_y r1 (r1 - 1) 1 false in
  assert (r5 = 0);
  let! r6 := get_delta_y r1 r2 0 true in
  assert (r6 = 0);
  let! r7 := get_delta_y r1 r1 340282366920938463463374607431768211455 true in
  assert (r7 = 0);
  True.
Proof. replay. Qed.

Example t_clamm_get_next_sqrt_price_x_up :
  let! r1 := get_next_sqrt_price_x_up 1000000000000000000000000 1000000 1 true in
  assert (r1 = 500000000000000000000000);
  let! r2 := get_next_sqrt_price_x_up 1000000000000000000000000 2000000 3 true in
  assert (r2 = 400000000000000000000000);
  let! r3 := get_next_sqrt_price_x_up 2000000000000000000000000 3000000 5 true in
  assert (r3 = 461538461538461538461539);
  let! r4 := get_next_sqrt_price_x_up 24234000000000000000000000000 3000000000 5000 true in
  assert (r4 = 599985145205615112277488);
  let! r5 := get_next_sqrt_price_x_up 1000000000000000000000000 2000000 1 false in
  assert (r5 = 2000000000000000000000000);
  let! r6 := get_next_sqrt_price_x_up 100000000000000000000000000000 500000000000000 4000 false in
  assert (r6 = 500000000000000000000000000000);
  let! r7 := get_next_sqrt_price_x_up 3333333333333333333333333 222222222 37 false in
  assert (r7 = 7490636713462104974072145);
  True.
Proof. replay. Qed.

Example t_clamm_domain_get_next_sqrt_price_x_up :
  let! r1 := calculate_sqrt_price (-221818) in
  let! r2 := calculate_sqrt_price 221818 in
  let almost_min_sqrt_price3 := (r1 + 1) in
  let almost_max_sqrt_price4 := (r2 - 1) in
  let! r5 := get_next_sqrt_price_x_up r1 340282366920938463463374607431768211455 600000000 false in
  assert (r5 = 15258932000000000001);
  let! r6 := get_next_sqrt_price_x_up almost_min_sqrt_price3 340282366920938463463374607431768211455 2000000000000000000 true in
  assert (r6 = 15258932000000000000);
  let! r7 := get_next_sqrt_price_x_up r2 340282366920938463463374607431768211455 1 true in
  assert (r7 = 65535383934512646999999999988);
  let! r8 := get_next_sqrt_price_x_up almost_max_sqrt_price4 340282366920938463463374607431768211455 1 false in
  assert (r8 = 65535383934512647000000000012);
  let! r9 := get_next_sqrt_price_x_up r2 340282366920938463463374607431768211455 340282366920938463463374607431768211455 true in
  assert (r9 = 999999999984741068);
  refused (get_next_sqrt_price_x_up r2 1 340282366920938463463374607431768211455 false);
  let err10 := get_next_sqrt_price_x_up r2 1 340282366920938463463374607431768211455 false in
  assert ((err10) = Err BigLiquidityOverflow);
  let! r11 := get_next_sqrt_price_x_up r2 340282366920938463463374607431768211455 1 true in
  assert (r11 = 65535383934512646999999999988);
  let! r12 := get_next_sqrt_price_x_up r2 0 1 true in
  assert (r12 = 0);
  let! r13 := get_next_sqrt_price_x_up r2 340282366920938463463374607431768211455 0 true in
  assert (r13 = 65535383934512647000000000000);
  True.
Proof. replay. Qed.

Example t_clamm_is_enough_amount_to_push_price :
  let! r1 := calculate_sqrt_price 221818 in
  refused (is_enough_amount_to_change_price 340282366920938463463374607431768211455 r1 1 0 false false);
  let err2 := is_enough_amount_to_change_price 340282366920938463463374607431768211455 r1 1 0 false false in
  assert ((err2) = Err BigLiquidityOverflow);
  True.
Proof. replay. Qed.

Example t_clamm_domain_is_enoguh_amount_to_push_price :
  let! r1 := calculate_sqrt_price 221818 in
  refused (is_enough_amount_to_change_price 1 r1 1 1000000000000 false false);
  let err2 := is_enough_amount_to_change_price 1 r1 1 1000000000000 false false in
  assert ((err2) = Err BigLiquidityOverflow);
  let! r3 := is_enough_amount_to_change_price 340282366920938463463374607431768211455 r1 0 1000000000000 false false in
  assert (r3 = true);
  refused (is_enough_amount_to_change_price 1 r1 1 0 false false);
  let err4 := is_enough_amount_to_change_price 1 r1 1 0 false false in
  assert ((err4) = Err BigLiquidityOverflow);
  refused (is_enough_amount_to_change_price 340282366920938463463374607431768211455 r1 1 0 false false);
  let err5 := is_enough_amount_to_change_price 340282366920938463463374607431768211455 r1 1 0 false false in
  assert ((err5) = Err BigLiquidityOverflow);
  True.
Proof. replay. Qed.

Example t_clamm_calculate_amount_delta :
  let! r1 := calculate_amount_delta 2 1000140000000000000000000 5000000000000 true 3 0 in
  let '(x2, y3, add4) := r1 in
  assert (x2 = 51);
  assert (y3 = 700);
  assert (add4 = true);
  let! r5 := calculate_amount_delta 2 1000140000000000000000000 5000000000000 true 4 0 in
  let '(x6, y7, add8) := r5 in
  assert (x6 = 300);
  assert (y7 = 700);
  assert (add8 = true);
  let! r9 := calculate_amount_delta 0 0 10000000 true 4 2 in
  let '(x10, y11, add12) := r9 in
  assert (x10 = 1);
  assert (y11 = 0);
  assert ((negb add12) = true);
  let! r13 := calculate_amount_delta 6 0 10000000 true 4 2 in
  let '(x14, y15, add16) := r13 in
  assert (x14 = 0);
  assert (y15 = 1);
  assert ((negb add16) = true);
  True.
Proof. replay. Qed.

Example t_clamm_domain_calculate_amount_delta :
  let! r1 := calculate_amount_delta (-221818) 0 340282366920938463463374607431768211455 true 221818 (-221817) in
  let '(x2, y3, add4) := r1 in
  assert (x2 = 22299421242803663652778151079899766076);
  assert (y3 = 0);
  assert ((negb add4) = true);
  let! r5 := calculate_amount_delta 221818 0 340282366920938463463374607431768211455 true 221817 (-221818) in
  let '(x6, y7, add8) := r5 in
  assert (x6 = 0);
  assert (y7 = 22299420613894225688327846143610371474);
  assert ((negb add8) = true);
  let! r9 := calculate_amount_delta 2 1000140000000000000000000 0 true 4 0 in
  let '(x10, y11, add12) := r9 in
  assert (x10 = 0);
  assert (y11 = 0);
  assert (add12 = true);
  refused (calculate_amount_delta 0 1000140000000000000000000 0 true 4 10);
  let err13 := calculate_amount_delta 0 1000140000000000000000000 0 true 4 10 in
  assert ((err13) = Err UpperTickNotGreater);
  refused (calculate_amount_delta 0 340282366920938463463374607431768211455 340282366920938463463374607431768211455 true 221818 (-221818));
  let err14 := calculate_amount_delta 0 340282366920938463463374607431768211455 340282366920938463463374607431768211455 true 221818 (-221818) in
  assert ((err14) = Err ECast);
  True.
Proof. replay. Qed.

Example t_clamm_calculate_max_liquidity_per_tick :
  let max_l1 := (calculate_max_liquidity_per_tick 1) in
  assert (max_l1 = 767028825190275976673213928125400);
  let max_l2 := (calculate_max_liquidity_per_tick 2) in
  assert (max_l2 = 1534061108300221187926023169588438);
  let max_l3 := (calculate_max_liquidity_per_tick 5) in
  assert (max_l3 = 3835161415588698631345301964810804);
  let max_l4 := (calculate_max_liquidity_per_tick 100) in
  assert (max_l4 = 76709280189571339824926647302021688);
  True.
Proof. replay. Qed.

(** /repo/contracts/oraiswap-v3/src/math/log.rs *)
Example t_log_sqrt_price_to_u64 :
  let! r1 := calculate_sqrt_price (-221818) in
  let min_sqrt_price_x322 := (sqrt_price_to_x32 r1) in
  assert (min_sqrt_price_x322 = 65536);
  let! r3 := calculate_sqrt_price 221818 in
  let max_sqrt_price_x324 := (sqrt_price_to_x32 r3) in
  assert (max_sqrt_price_x324 = 281472330729535);
  True.
Proof. replay. Qed.

Example t_log_log2_x32 :
  let sqrt_price_x321 := (sqrt_price_to_x32 1000000000000000000000000) in
  let '(sign2, value3) := (log2_iterative_approximation_x32 sqrt_price_x321) in
  assert (sign2 = true);
  assert (value3 = 0);
  let sqrt_price_x324 := (sqrt_price_to_x32 879000000000000000000000000) in
  let '(sign5, value6) := (log2_iterative_approximation_x32 sqrt_price_x324) in
  assert (sign5 = true);
  assert (value6 = 42003464192);
  let sqrt_price_x327 := (sqrt_price_to_x32 5900000000000000000000) in
  let '(sign8, value9) := (log2_iterative_approximation_x32 sqrt_price_x327) in
  assert ((negb sign8) = true);
  assert (value9 = 31804489728);
  let! r10 := calculate_sqrt_price 221818 in
  let sqrt_price_x3211 := (sqrt_price_to_x32 r10) in
  let '(sign12, value13) := (log2_iterative_approximation_x32 sqrt_price_x3211) in
  assert (sign12 = true);
  assert (value13 = 68719345664);
  let! r14 := calculate_sqrt_price (-221818) in
  let sqrt_price_x3215 := (sqrt_price_to_x32 r14) in
  let '(sign16, value17) := (log2_iterative_approximation_x32 sqrt_price_x3215) in
  assert ((negb sign16) = true);
  assert (value17 = 68719345664);
  let! r18 := calculate_sqrt_price (-19999) in
  let sqrt_price_decimal19 := (r18 - 1) in
  let sqrt_price_x3220 := (sqrt_price_to_x32 sqrt_price_decimal19) in
  let '(sign21, value22) := (log2_iterative_approximation_x32 sqrt_price_x3220) in
  assert ((negb sign21) = true);
  assert (value22 = 6195642368);
  let! r23 := calculate_sqrt_price 19999 in
  let sqrt_price_decimal24 := (r23 - 1) in
  let sqrt_price_x3225 := (sqrt_price_to_x32 sqrt_price_decimal24) in
  let '(sign26, value27) := (log2_iterative_approximation_x32 sqrt_price_x3225) in
  assert (sign26 = true);
  assert (value27 = 6195642368);
  True.
Proof. replay. Qed.

Example t_log_get_tick_at_sqrt_price_x32 :
  let! r1 := get_tick_at_sqrt_price 1000000000000000000000000 1 in
  assert (r1 = 0);
  let! r2 := get_tick_at_sqrt_price 999999999999999999999999 1 in
  assert (r2 = (-1));
  let! r3 := get_tick_at_sqrt_price 1000000000000000000000001 1 in
  assert (r3 = 0);
  let! r4 := calculate_sqrt_price 1 in
  let! r5 := get_tick_at_sqrt_price r4 1 in
  assert (r5 = 1);
  let sqrt_price_decimal6 := (r4 - 1) in
  let! r7 := get_tick_at_sqrt_price sqrt_price_decimal6 1 in
  assert (r7 = 0);
  let sqrt_price_decimal8 := (r4 + 1) in
  let! r9 := get_tick_at_sqrt_price sqrt_price_decimal8 1 in
  assert (r9 = 1);
  let! r10 := calculate_sqrt_price (-1) in
  let! r11 := get_tick_at_sqrt_price r10 1 in
  assert (r11 = (-1));
  let! r12 := calculate_sqrt_price (-1) in
  let sqrt_price_decimal13 := (r12 - 1) in
  let! r14 := get_tick_at_sqrt_price sqrt_price_decimal13 1 in
  assert (r14 = (-2));
  let! r15 := calculate_sqrt_price (-1) in
  let sqrt_price_decimal16 := (r15 + 1) in
  let! r17 := get_tick_at_sqrt_price sqrt_price_decimal16 1 in
  assert (r17 = (-1));
  let! r18 := calculate_sqrt_price 221817 in
  let! r19 := get_tick_at_sqrt_price r18 1 in
  assert (r19 = 221817);
  let sqrt_price_decimal20 := (r18 - 1) in
  let! r21 := get_tick_at_sqrt_price sqrt_price_decimal20 1 in
  assert (r21 = 221816);
  let sqrt_price_decimal22 := (r18 + 1) in
  let! r23 := get_tick_at_sqrt_price sqrt_price_decimal22 1 in
  assert (r23 = 221817);
  let! r24 := calculate_sqrt_price (-221817) in
  let! r25 := get_tick_at_sqrt_price r24 1 in
  assert (r25 = (-221817));
  let sqrt_price_decimal26 := (r24 - 1) in
  let! r27 := get_tick_at_sqrt_price sqrt_price_decimal26 1 in
  assert (r27 = (-221818));
  let sqrt_price_decimal28 := (r24 + 1) in
  let! r29 := get_tick_at_sqrt_price sqrt_price_decimal28 1 in
  assert (r29 = (-221817));
  let! r30 := get_tick_at_sqrt_price 65535383934512646999999999999 1 in
  assert (r30 = 221817);
  let! r31 := calculate_sqrt_price 19999 in
  let! r32 := get_tick_at_sqrt_price r31 1 in
  assert (r32 = 19999);
  let sqrt_price_decimal33 := (r31 - 1) in
  let! r34 := get_tick_at_sqrt_price sqrt_price_decimal33 1 in
  assert (r34 = 19998);
  let sqrt_price_decimal35 := (r31 + 1) in
  let! r36 := get_tick_at_sqrt_price sqrt_price_decimal35 1 in
  assert (r36 = 19999);
  let! r37 := calculate_sqrt_price (-19999) in
  let! r38 := get_tick_at_sqrt_price r37 1 in
  assert (r38 = (-19999));
  let sqrt_price_decimal39 := (r37 - 1) in
  let! r40 := get_tick_at_sqrt_price sqrt_price_decimal39 1 in
  assert (r40 = (-20000));
  let sqrt_price_decimal41 := (r37 + 1) in
  let! r42 := get_tick_at_sqrt_price sqrt_price_decimal41 1 in
  assert (r42 = (-19999));
  let! r43 := calculate_sqrt_price (-221818) in
  let sqrt_price_decimal44 := (r43 + 1) in
  let! r45 := get_tick_at_sqrt_price sqrt_price_decimal44 1 in
  assert (r45 = (-221818));
  True.
Proof. replay. Qed.

Example t_log_domain_calculate_sqrt_price :
  
  True.
Proof. replay. Qed.

Example t_log_align_tick_with_spacing :
  let tick_with_spacing1 := (align_tick_to_spacing 0 3) in
  assert (tick_with_spacing1 = 0);
  let tick_with_spacing2 := (align_tick_to_spacing 14 10) in
  assert (tick_with_spacing2 = 10);
  let tick_with_spacing3 := (align_tick_to_spacing 20 10) in
  assert (tick_with_spacing3 = 20);
  let tick_with_spacing4 := (align_tick_to_spacing (-14) 10) in
  assert (tick_with_spacing4 = (-20));
  let tick_with_spacing5 := (align_tick_to_spacing (-120) 3) in
  assert (tick_with_spacing5 = (-120));
  True.
Proof. replay. Qed.

(** /repo/contracts/oraiswap-v3/src/math/types/fee_growth.rs *)
Example t_fee_growth_unchecked_add :
  let result1 := (wadd 340282366920938463463374607431768211455 340282366920938463463374607431768211454) in
  assert (result1 = 340282366920938463463374607431768211453);
  let result2 := (wadd 340282366920938463463374607431768211455 340282366920938463463374607431768211449) in
  assert (result2 = 340282366920938463463374607431768211448);
  let result3 := (wadd 340282366920938463463374607431768211455 340282366920938463463374607431768211435) in
  assert (result3 = 340282366920938463463374607431768211434);
  let result4 := (wadd 340282366920938463463374607431768211455 340282366920938463463374607431768211405) in
  assert (result4 = 340282366920938463463374607431768211404);
  let result5 := (wadd 11 1100) in
  assert (result5 = 1111);
  True.
Proof. replay. Qed.

Example t_fee_growth_unchecked_sub :
  let result1 := (wsub 340282366920938463463374607431768211454 340282366920938463463374607431768211455) in
  assert (result1 = 340282366920938463463374607431768211455);
  let result2 := (wsub 1 1) in
  assert (result2 = 0);
  let result3 := (wsub 10 20) in
  assert (result3 = 340282366920938463463374607431768211446);
  let result4 := (wsub 10 5) in
  assert (result4 = 5);
  True.
Proof. replay. Qed.

Example t_fee_growth_from_fee :
  let! r1 := from_fee 1000000 1 in
  assert (r1 = 10000000000000000000000000000);
  let! r2 := from_fee 2000000 1 in
  assert (r2 = 5000000000000000000000000000);
  let! r3 := from_fee 18446744073709551615000000 1 in
  assert (r3 = 542101086);
  let! r4 := from_fee 100000000 1000000 in
  assert (r4 = 100000000000000000000000000000000);
  True.
Proof. replay. Qed.

Example t_fee_growth_domain_from_fee :
  let! r1 := calculate_sqrt_price 221818 in
  let! r2 := calculate_sqrt_price 196218 in
  let max_p_delta3 := (r1 - r2) in
  let max_token4 := (Z.quot (Z.quot (340282366920938463463374607431768211455 * max_p_delta3) 1000000) 1000000000000000000000000) in
  let! r5 := from_fee 340282366920938463463374607431768211455 max_token4 in
  assert (r5 = 473129365723326089999999999999999);
  let! r6 := from_fee 100000000000000000000000000000000000000 10000 in
  assert (r6 = 1);
  refused (from_fee 1 340282366920938463463374607431768211455);
  let err7 := from_fee 1 340282366920938463463374607431768211455 in
  assert ((err7) = Err ECast);
  let! r8 := from_fee 1000000000 0 in
  assert (r8 = 0);
  refused (from_fee 0 1000);
  let err9 := from_fee 0 1000 in
  assert ((err9) = Err EDiv);
  True.
Proof. replay. Qed.

Example t_fee_growth_to_fee :
  let! r1 := from_fee 1000000000000 100 in
  let! r2 := to_fee r1 1000000000000 in
  assert (r2 = 100);
  let! r3 := from_fee 1000000000000 100 in
  let! r4 := to_fee r3 10000000000000 in
  assert (r4 = 1000);
  let! r5 := from_fee 151115727451828646838272000000 100000000000000 in
  assert (r5 = 6617444900424221398);
  let! r6 := to_fee r5 151115727451828646838272000000 in
  assert (r6 = 99999999999999);
  True.
Proof. replay. Qed.

Example t_fee_growth_domain_to_fee :
  let! r1 := from_fee 10000000000000000000000000 600000000000000000 in
  assert (r1 = 600000000000000000000000000);
  let! r2 := to_fee r1 10000000000000000000000000 in
  assert (r2 = 600000000000000000);
  let! r3 := to_fee 10000000000000000000000000000000000 340282366920938463463374607431768211455 in
  assert (r3 = 340282366920938463463374607431768211455);
  refused (to_fee 340282366920938463463374607431768211455 340282366920938463463374607431768211455);
  let err4 := to_fee 340282366920938463463374607431768211455 340282366920938463463374607431768211455 in
  assert ((err4) = Err ECast);
  let! r5 := to_fee 0 1000000000 in
  assert (r5 = 0);
  let! r6 := to_fee 10000000000000000000000000000000 0 in
  assert (r6 = 0);
  True.
Proof. replay. Qed.

Example t_fee_growth_calculate_fee_growth_inside :
  assert ((fee_growth_inside (-2) 0 2 0 0 150000000000000000000000000000) = 150000000000000000000000000000);
  assert ((fee_growth_inside (-2) 0 2 0 0 150000000000000000000000000000) = 150000000000000000000000000000);
  assert ((fee_growth_inside (-2) 0 2 0 (-4) 150000000000000000000000000000) = 0);
  assert ((fee_growth_inside (-2) 0 2 0 (-4) 150000000000000000000000000000) = 0);
  assert ((fee_growth_inside (-2) 0 2 0 4 150000000000000000000000000000) = 0);
  assert ((fee_growth_inside (-2) 0 2 0 4 150000000000000000000000000000) = 0);
  assert ((fee_growth_inside (-2) 0 2 1 3 50000000000000000000000000000) = 1);
  assert ((fee_growth_inside (-2) 0 2 2 3 50000000000000000000000000000) = 2);
  assert ((fee_growth_inside (-2) 0 2 20000000000000000000000000000 0 150000000000000000000000000000) = 130000000000000000000000000000);
  assert ((fee_growth_inside (-2) 0 2 30000000000000000000000000000 0 150000000000000000000000000000) = 120000000000000000000000000000);
  assert ((fee_growth_inside (-2) 20000000000000000000000000000 2 0 0 150000000000000000000000000000) = 130000000000000000000000000000);
  assert ((fee_growth_inside (-2) 30000000000000000000000000000 2 0 0 150000000000000000000000000000) = 120000000000000000000000000000);
  True.
Proof. replay. Qed.

Example t_fee_growth_domain_calculate_fee_growth_inside :
  assert ((fee_growth_inside (-20) 200000000000000000000000000000 (-10) 150000000000000000000000000000 0 200000000000000000000000000000) = 340282366870938463463374607431768211456);
  assert ((fee_growth_inside (-20) 200000000000000000000000000000 (-10) 150000000000000000000000000000 0 200000000000000000000000000000) = 340282366870938463463374607431768211456);
  True.
Proof. replay. Qed.

(** /repo/contracts/oraiswap-v3/src/math/types/sqrt_price.rs *)
Example t_sqrt_price_calculate_sqrt_price :
  let! r1 := calculate_sqrt_price 20000 in
  assert (r1 = 2718145925979000000000000);
  let! r2 := calculate_sqrt_price 200000 in
  assert (r2 = 22015455979766288000000000000);
  let! r3 := calculate_sqrt_price (-20000) in
  assert (r3 = 367897834491000000000000);
  let! r4 := calculate_sqrt_price (-200000) in
  assert (r4 = 45422634000000000000);
  let! r5 := calculate_sqrt_price 0 in
  assert (r5 = 1000000000000000000000000);
  let! r6 := calculate_sqrt_price 221818 in
  assert (r6 = 65535383934512647000000000000);
  assert (r6 = 65535383934512647000000000000);
  let! r7 := calculate_sqrt_price (-221818) in
  assert (r7 = 15258932000000000000);
  assert (r7 = 15258932000000000000);
  True.
Proof. replay. Qed.

Example t_sqrt_price_domain_calculate_sqrt_price :
  refused (calculate_sqrt_price 221819);
  let err1 := calculate_sqrt_price 221819 in
  assert ((err1) = Err TickOverBounds);
  refused (calculate_sqrt_price (-221819));
  let err2 := calculate_sqrt_price (-221819) in
  assert ((err2) = Err TickOverBounds);
  True.
Proof. replay. Qed.

Example t_sqrt_price_sqrt_price_limitation :
  let! r1 := calculate_sqrt_price 221818 in
  assert (r1 = 65535383934512647000000000000);
  let! r2 := calculate_sqrt_price (-221818) in
  assert (r2 = 15258932000000000000);
  let! r3 := calculate_sqrt_price (get_max_tick 1) in
  let max_tick4 := (get_max_tick 1) in
  assert (r3 = 65535383934512647000000000000);
  let! r5 := calculate_sqrt_price max_tick4 in
  assert (r5 = 65535383934512647000000000000);
  let! r6 := calculate_sqrt_price (get_max_tick 2) in
  let max_tick7 := (get_max_tick 2) in
  assert (r6 = 65535383934512647000000000000);
  let! r8 := calculate_sqrt_price max_tick7 in
  assert (r8 = 65535383934512647000000000000);
  let! r9 := calculate_sqrt_price (get_max_tick 5) in
  let max_tick10 := (get_max_tick 5) in
  assert (r9 = 65525554855399275000000000000);
  let! r11 := calculate_sqrt_price max_tick10 in
  assert (r11 = 65525554855399275000000000000);
  let! r12 := calculate_sqrt_price (get_max_tick 10) in
  let max_tick13 := (get_max_tick 10) in
  assert (max_tick13 = 221810);
  assert (r12 = 65509176333123237000000000000);
  let! r14 := calculate_sqrt_price max_tick13 in
  assert (r14 = 65509176333123237000000000000);
  let! r15 := calculate_sqrt_price (get_max_tick 100) in
  let max_tick16 := (get_max_tick 100) in
  assert (max_tick16 = 221800);
  assert (r15 = 65476431569071896000000000000);
  let! r17 := calculate_sqrt_price max_tick16 in
  assert (r17 = 65476431569071896000000000000);
  let! r18 := calculate_sqrt_price (get_min_tick 1) in
  let min_tick19 := (get_min_tick 1) in
  assert (r18 = 15258932000000000000);
  let! r20 := calculate_sqrt_price min_tick19 in
  assert (r20 = 15258932000000000000);
  let! r21 := calculate_sqrt_price (get_min_tick 2) in
  let min_tick22 := (get_min_tick 2) in
  assert (r21 = 15258932000000000000);
  let! r23 := calculate_sqrt_price min_tick22 in
  assert (r23 = 15258932000000000000);
  let! r24 := calculate_sqrt_price (get_min_tick 5) in
  let min_tick25 := (get_min_tick 5) in
  assert (r24 = 15261221000000000000);
  let! r26 := calculate_sqrt_price min_tick25 in
  assert (r26 = 15261221000000000000);
  let! r27 := calculate_sqrt_price (get_min_tick 10) in
  let min_tick28 := (get_min_tick 10) in
  assert (min_tick28 = (-221810));
  assert (r27 = 15265036000000000000);
  let! r29 := calculate_sqrt_price min_tick28 in
  assert (r29 = 15265036000000000000);
  let! r30 := calculate_sqrt_price (get_min_tick 100) in
  let min_tick31 := (get_min_tick 100) in
  assert (min_tick31 = (-221800));
  assert (r30 = 15272671000000000000);
  let! r32 := calculate_sqrt_price min_tick31 in
  assert (r32 = 15272671000000000000);
  True.
Proof. replay. Qed.

(** /repo/contracts/oraiswap-v3/src/math/types/seconds_per_liquidity.rs *)
Example t_seconds_per_liquidity_domain_calculate_seconds_per_liquidity_global :
  refused (seconds_per_liquidity_global 1000000 0 100);
  let err1 := seconds_per_liquidity_global 1000000 0 100 in
  assert ((err1) = Err TimestampSubOverflow);
  refused (seconds_per_liquidity_global 0 1 0);
  let err2 := seconds_per_liquidity_global 0 1 0 in
  assert ((err2) = Err EDiv);
  let! r3 := seconds_per_liquidity_global 340282366920938463463374607431768211455 1 0 in
  assert (r3 = 0);
  let! r4 := seconds_per_liquidity_global 1 315360000 0 in
  assert (r4 = 315360000000000000000000000000000000000);
  refused (seconds_per_liquidity_global 1 18446744073709551615 0);
  let err5 := seconds_per_liquidity_global 1 18446744073709551615 0 in
  assert ((err5) = Err ECast);
  let! r6 := seconds_per_liquidity_global 1 315360000 0 in
  assert (r6 = 315360000000000000000000000000000000000);
  let! r7 := seconds_per_liquidity_global 340282366920938463463374607431768211455 315360000 0 in
  assert (r7 = 0);
  let! r8 := seconds_per_liquidity_global 340282366920938463463374607431768211455 315360000 315359999 in
  assert (r8 = 0);
  let! r9 := seconds_per_liquidity_global 1 315360000 315359999 in
  assert (r9 = 1000000000000000000000000000000);
  True.
Proof. replay. Qed.

Example t_seconds_per_liquidity_calculate_seconds_per_liquidity_inside :
  let seconds_per_liquidity_inside1 := (seconds_per_liquidity_inside 0 10 (-10) 3012300000 2030400000 0) in
  assert (seconds_per_liquidity_inside1 = 981900000);
  let seconds_per_liquidity_inside2 := (seconds_per_liquidity_inside 0 10 0 3012300000 2030400000 0) in
  assert (seconds_per_liquidity_inside2 = 340282366920938463463374607426725511456);
  let seconds_per_liquidity_inside3 := (seconds_per_liquidity_inside 0 10 20 2012333200 3012333310 0) in
  assert (seconds_per_liquidity_inside3 = 1000000110);
  let seconds_per_liquidity_inside4 := (seconds_per_liquidity_inside 0 10 20 201233320000 301233331000 0) in
  assert (seconds_per_liquidity_inside4 = 100000011000);
  let seconds_per_liquidity_inside5 := (seconds_per_liquidity_inside 0 10 (-20) 201233320000 301233331000 0) in
  assert (seconds_per_liquidity_inside5 = 340282366920938463463374607331768200456);
  True.
Proof. replay. Qed.
