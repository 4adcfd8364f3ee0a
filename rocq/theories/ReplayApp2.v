(** Replay of the integration tests of contracts/oraiswap-v3/src/tests, multiple_swap.rs to swap_route.rs.
    Each example is one Rust test, translated mechanically: macros of helper.rs expanded, decimals as raw integers,
    loops unrolled, [unwrap] as [let!], [unwrap_err]/[is_err] as [refused], the assertions in their order.
    These are tests of the model against the expectations of the project, not proofs of properties.
    Left out here because checking them without the virtual machine takes long, though they pass: get_tickmap and
    get_tickmap_edge_ticks_intialized, max_tick_cross, get_position_ticks_limit.  Not translated: create_many_pools and
    the tests that create hundreds of positions to fill a query page (get_tickmap, get_liquidity_ticks), and the
    tests of the mock itself in helper.rs. *)
From Verif Require Import Base Decimal SqrtPrice Clamm Log FeeGrowth Types Tick Pool Position Tickmap Keys State Swap Exec Query Sdk Extra World Replay.
From stdpp Require Import gmap strings.
Open Scope Z_scope.

(** /repo/contracts/oraiswap-v3/src/tests/multiple_swap.rs *)
Example t_multiple_swap_multiple_swap_x_to_y :
  let app0 := fresh_app in
  let app1 := (create_token app0 "tokenx"%string "alice"%string 10000000000) in
  let app2 := (create_token app1 "tokeny"%string "alice"%string 10000000000) in
  let! r4 := create_dex app2 "alice"%string 10000000000 in
  let fee_tier5 := (mkFeeTier 1000000000 1) in
  let r6 := call r4 "alice"%string (AddFeeTier fee_tier5) in
  let app7 := after r4 r6 in
  let! r8 := r6 in
  let! r9 := calculate_sqrt_price 0 in
  let r10 := call app7 "alice"%string (CreatePool "tokenx"%string "tokeny"%string fee_tier5 r9 0) in
  let app11 := after app7 r10 in
  let! r12 := r10 in
  let r13 := approve_token app11 "tokenx"%string "alice"%string 10000000000 in
  let app14 := after app11 r13 in
  let! r15 := r13 in
  let r16 := approve_token app14 "tokeny"%string "alice"%string 10000000000 in
  let app17 := after app14 r16 in
  let! r18 := r16 in
  let! r19 := pool_key_new "tokenx"%string "tokeny"%string fee_tier5 in
  let! r20 := query_pool (st app17) "tokenx"%string "tokeny"%string fee_tier5 in
  let! r21 := get_liquidity 100 100 (-953) 953 (p_price r20) true in
  let amount_x22 := (g_x r21) in
  let amount_y23 := (g_y r21) in
  let liquidity_delta24 := (g_l r21) in
  let slippage_limit_lower25 := (p_price r20) in
  let slippage_limit_upper26 := (p_price r20) in
  let r27 := call app17 "alice"%string (CreatePosition r19 (-953) 953 liquidity_delta24 slippage_limit_lower25 slippage_limit_upper26) in
  let app28 := after app17 r27 in
  let! r29 := r27 in
  let r30 := mint_token app28 "tokenx"%string "bob"%string 100 in
  let app31 := after app28 r30 in
  let! r32 := r30 in
  let amount_x33 := (balance app31 "tokenx"%string "bob"%string) in
  assert (amount_x33 = 100);
  let r34 := approve_token app31 "tokenx"%string "bob"%string 100 in
  let app35 := after app31 r34 in
  let! r36 := r34 in
  let! r37 := query_quote (env_of app35) (st app35) r19 true 10 true 15258932000000000000 in
  let r38 := call app35 "bob"%string (Swap r19 true 10 true (q_target r37)) in
  let app39 := after app35 r38 in
  let! r40 := r38 in
  let! r41 := query_quote (env_of app39) (st app39) r19 true 10 true 15258932000000000000 in
  let r42 := call app39 "bob"%string (Swap r19 true 10 true (q_target r41)) in
  let app43 := after app39 r42 in
  let! r44 := r42 in
  let! r45 := query_quote (env_of app43) (st app43) r19 true 10 true 15258932000000000000 in
  let r46 := call app43 "bob"%string (Swap r19 true 10 true (q_target r45)) in
  let app47 := after app43 r46 in
  let! r48 := r46 in
  let! r49 := query_quote (env_of app47) (st app47) r19 true 10 true 15258932000000000000 in
  let r50 := call app47 "bob"%string (Swap r19 true 10 true (q_target r49)) in
  let app51 := after app47 r50 in
  let! r52 := r50 in
  let! r53 := query_quote (env_of app51) (st app51) r19 true 10 true 15258932000000000000 in
  let r54 := call app51 "bob"%string (Swap r19 true 10 true (q_target r53)) in
  let app55 := after app51 r54 in
  let! r56 := r54 in
  let! r57 := query_quote (env_of app55) (st app55) r19 true 10 true 15258932000000000000 in
  let r58 := call app55 "bob"%string (Swap r19 true 10 true (q_target r57)) in
  let app59 := after app55 r58 in
  let! r60 := r58 in
  let! r61 := query_quote (env_of app59) (st app59) r19 true 10 true 15258932000000000000 in
  let r62 := call app59 "bob"%string (Swap r19 true 10 true (q_target r61)) in
  let app63 := after app59 r62 in
  let! r64 := r62 in
  let! r65 := query_quote (env_of app63) (st app63) r19 true 10 true 15258932000000000000 in
  let r66 := call app63 "bob"%string (Swap r19 true 10 true (q_target r65)) in
  let app67 := after app63 r66 in
  let! r68 := r66 in
  let! r69 := query_quote (env_of app67) (st app67) r19 true 10 true 15258932000000000000 in
  let r70 := call app67 "bob"%string (Swap r19 true 10 true (q_target r69)) in
  let app71 := after app67 r70 in
  let! r72 := r70 in
  let! r73 := query_quote (env_of app71) (st app71) r19 true 10 true 15258932000000000000 in
  let r74 := call app71 "bob"%string (Swap r19 true 10 true (q_target r73)) in
  let app75 := after app71 r74 in
  let! r76 := r74 in
  let! r77 := query_pool (st app75) "tokenx"%string "tokeny"%string fee_tier5 in
  assert ((p_tick r77) = (-821));
  assert ((p_fgx r77) = 0);
  assert ((p_fgy r77) = 0);
  assert ((p_protx r77) = 10);
  assert ((p_proty r77) = 0);
  assert ((p_liq r77) = liquidity_delta24);
  assert ((p_price r77) = 959805958620596146276151);
  let dex_amount_x78 := (balance app75 "tokenx"%string "dex"%string) in
  let dex_amount_y79 := (balance app75 "tokeny"%string "dex"%string) in
  assert (dex_amount_x78 = 200);
  assert (dex_amount_y79 = 20);
  let user_amount_x80 := (balance app75 "tokenx"%string "bob"%string) in
  let user_amount_y81 := (balance app75 "tokeny"%string "bob"%string) in
  assert (user_amount_x80 = 0);
  assert (user_amount_y81 = 80);
  True.
Proof. replay. Qed.

Example t_multiple_swap_multiple_swap_y_to_x :
  let app0 := fresh_app in
  let app1 := (create_token app0 "tokenx"%string "alice"%string 10000000000) in
  let app2 := (create_token app1 "tokeny"%string "alice"%string 10000000000) in
  let! r4 := create_dex app2 "alice"%string 10000000000 in
  let fee_tier5 := (mkFeeTier 1000000000 1) in
  let r6 := call r4 "alice"%string (AddFeeTier fee_tier5) in
  let app7 := after r4 r6 in
  let! r8 := r6 in
  let! r9 := calculate_sqrt_price 0 in
  let r10 := call app7 "alice"%string (CreatePool "tokenx"%string "tokeny"%string fee_tier5 r9 0) in
  let app11 := after app7 r10 in
  let! r12 := r10 in
  let r13 := approve_token app11 "tokenx"%string "alice"%string 10000000000 in
  let app14 := after app11 r13 in
  let! r15 := r13 in
  let r16 := approve_token app14 "tokeny"%string "alice"%string 10000000000 in
  let app17 := after app14 r16 in
  let! r18 := r16 in
  let! r19 := pool_key_new "tokenx"%string "tokeny"%string fee_tier5 in
  let! r20 := query_pool (st app17) "tokenx"%string "tokeny"%string fee_tier5 in
  let! r21 := get_liquidity 100 100 (-953) 953 (p_price r20) true in
  let amount_x22 := (g_x r21) in
  let amount_y23 := (g_y r21) in
  let liquidity_delta24 := (g_l r21) in
  let slippage_limit_lower25 := (p_price r20) in
  let slippage_limit_upper26 := (p_price r20) in
  let r27 := call app17 "alice"%string (CreatePosition r19 (-953) 953 liquidity_delta24 slippage_limit_lower25 slippage_limit_upper26) in
  let app28 := after app17 r27 in
  let! r29 := r27 in
  let r30 := mint_token app28 "tokeny"%string "bob"%string 100 in
  let app31 := after app28 r30 in
  let! r32 := r30 in
  let amount_y33 := (balance app31 "tokeny"%string "bob"%string) in
  assert (amount_y33 = 100);
  let r34 := approve_token app31 "tokeny"%string "bob"%string 100 in
  let app35 := after app31 r34 in
  let! r36 := r34 in
  let! r37 := query_quote (env_of app35) (st app35) r19 false 10 true 65535383934512647000000000000 in
  let r38 := call app35 "bob"%string (Swap r19 false 10 true (q_target r37)) in
  let app39 := after app35 r38 in
  let! r40 := r38 in
  let! r41 := query_quote (env_of app39) (st app39) r19 false 10 true 65535383934512647000000000000 in
  let r42 := call app39 "bob"%string (Swap r19 false 10 true (q_target r41)) in
  let app43 := after app39 r42 in
  let! r44 := r42 in
  let! r45 := query_quote (env_of app43) (st app43) r19 false 10 true 65535383934512647000000000000 in
  let r46 := call app43 "bob"%string (Swap r19 false 10 true (q_target r45)) in
  let app47 := after app43 r46 in
  let! r48 := r46 in
  let! r49 := query_quote (env_of app47) (st app47) r19 false 10 true 65535383934512647000000000000 in
  let r50 := call app47 "bob"%string (Swap r19 false 10 true (q_target r49)) in
  let app51 := after app47 r50 in
  let! r52 := r50 in
  let! r53 := query_quote (env_of app51) (st app51) r19 false 10 true 65535383934512647000000000000 in
  let r54 := call app51 "bob"%string (Swap r19 false 10 true (q_target r53)) in
  let app55 := after app51 r54 in
  let! r56 := r54 in
  let! r57 := query_quote (env_of app55) (st app55) r19 false 10 true 65535383934512647000000000000 in
  let r58 := call app55 "bob"%string (Swap r19 false 10 true (q_target r57)) in
  let app59 := after app55 r58 in
  let! r60 := r58 in
  let! r61 := query_quote (env_of app59) (st app59) r19 false 10 true 65535383934512647000000000000 in
  let r62 := call app59 "bob"%string (Swap r19 false 10 true (q_target r61)) in
  let app63 := after app59 r62 in
  let! r64 := r62 in
  let! r65 := query_quote (env_of app63) (st app63) r19 false 10 true 65535383934512647000000000000 in
  let r66 := call app63 "bob"%string (Swap r19 false 10 true (q_target r65)) in
  let app67 := after app63 r66 in
  let! r68 := r66 in
  let! r69 := query_quote (env_of app67) (st app67) r19 false 10 true 65535383934512647000000000000 in
  let r70 := call app67 "bob"%string (Swap r19 false 10 true (q_target r69)) in
  let app71 := after app67 r70 in
  let! r72 := r70 in
  let! r73 := query_quote (env_of app71) (st app71) r19 false 10 true 65535383934512647000000000000 in
  let r74 := call app71 "bob"%string (Swap r19 false 10 true (q_target r73)) in
  let app75 := after app71 r74 in
  let! r76 := r74 in
  let! r77 := query_pool (st app75) "tokenx"%string "tokeny"%string fee_tier5 in
  assert ((p_tick r77) = 820);
  assert ((p_fgx r77) = 0);
  assert ((p_fgy r77) = 0);
  assert ((p_protx r77) = 0);
  assert ((p_proty r77) = 10);
  assert ((p_liq r77) = liquidity_delta24);
  assert ((p_price r77) = 1041877257604411525269920);
  let dex_amount_x78 := (balance app75 "tokenx"%string "dex"%string) in
  let dex_amount_y79 := (balance app75 "tokeny"%string "dex"%string) in
  assert (dex_amount_x78 = 20);
  assert (dex_amount_y79 = 200);
  let user_amount_x80 := (balance app75 "tokenx"%string "bob"%string) in
  let user_amount_y81 := (balance app75 "tokeny"%string "bob"%string) in
  assert (user_amount_x80 = 80);
  assert (user_amount_y81 = 0);
  True.
Proof. replay. Qed.

(** /repo/contracts/oraiswap-v3/src/tests/nft.rs *)
Example t_nft_mint_nft :
  let app0 := fresh_app in
  let! r2 := create_dex app0 "alice"%string 0 in
  let app3 := (create_token r2 "tokenx"%string "alice"%string 500) in
  let app4 := (create_token app3 "tokeny"%string "alice"%string 500) in
  let! r5 := sdk_new_fee_tier 0 1 in
  let r6 := call app4 "alice"%string (AddFeeTier r5) in
  let app7 := after app4 r6 in
  let! r8 := r6 in
  let! r9 := calculate_sqrt_price 10 in
  let r10 := call app7 "alice"%string (CreatePool "tokenx"%string "tokeny"%string r5 r9 10) in
  let app11 := after app7 r10 in
  let! r12 := r10 in
  let r13 := approve_token app11 "tokenx"%string "alice"%string 500 in
  let app14 := after app11 r13 in
  let! r15 := r13 in
  let r16 := approve_token app14 "tokeny"%string "alice"%string 500 in
  let app17 := after app14 r16 in
  let! r18 := r16 in
  let! r19 := pool_key_new "tokenx"%string "tokeny"%string r5 in
  let r20 := call app17 "alice"%string (Mint r19 (-10) 10 10 0 340282366920938463463374607431768211455) in
  let app21 := after app17 r20 in
  let! r22 := r20 in
  True.
Proof. replay. Qed.

Example t_nft_query_nft :
  let app0 := fresh_app in
  let! r2 := create_dex app0 "alice"%string 0 in
  let app3 := (create_token r2 "tokenx"%string "alice"%string 500) in
  let app4 := (create_token app3 "tokeny"%string "alice"%string 500) in
  let! r5 := sdk_new_fee_tier 0 1 in
  let r6 := call app4 "alice"%string (AddFeeTier r5) in
  let app7 := after app4 r6 in
  let! r8 := r6 in
  let! r9 := calculate_sqrt_price 10 in
  let r10 := call app7 "alice"%string (CreatePool "tokenx"%string "tokeny"%string r5 r9 10) in
  let app11 := after app7 r10 in
  let! r12 := r10 in
  let r13 := approve_token app11 "tokenx"%string "alice"%string 500 in
  let app14 := after app11 r13 in
  let! r15 := r13 in
  let r16 := approve_token app14 "tokeny"%string "alice"%string 500 in
  let app17 := after app14 r16 in
  let! r18 := r16 in
  let! r19 := pool_key_new "tokenx"%string "tokeny"%string r5 in
  let r20 := call app17 "alice"%string (Mint r19 (-10) 10 10 0 340282366920938463463374607431768211455) in
  let app21 := after app17 r20 in
  let! r22 := r20 in
  let token_id23 := (position_key_bytes "alice"%string 0) in
  let! r24 := query_nft_info (st app21) token_id23 in
  assert ((po_key r24) = r19);
  let! r25 := query_tokens (st app21) "alice"%string None None in
  assert ((Z.of_nat (Datatypes.length r25)) = 1);
  True.
Proof. replay. Qed.

Example t_nft_burn_nft :
  let! r1 := sdk_new_fee_tier 6000000000 10 in
  let! r2 := calculate_sqrt_price 0 in
  let app0 := fresh_app in
  let! r4 := create_dex app0 "alice"%string 10000000000 in
  let app5 := (create_token r4 "tokenx"%string "alice"%string 10000000000) in
  let app6 := (create_token app5 "tokeny"%string "alice"%string 10000000000) in
  let! r7 := pool_key_new "tokenx"%string "tokeny"%string r1 in
  let r8 := call app6 "alice"%string (AddFeeTier r1) in
  let app9 := after app6 r8 in
  let! r10 := r8 in
  let r11 := call app9 "alice"%string (CreatePool "tokenx"%string "tokeny"%string r1 r2 0) in
  let app12 := after app9 r11 in
  let! r13 := r11 in
  let r14 := approve_token app12 "tokenx"%string "alice"%string 10000000000 in
  let app15 := after app12 r14 in
  let! r16 := r14 in
  let r17 := approve_token app15 "tokeny"%string "alice"%string 10000000000 in
  let app18 := after app15 r17 in
  let! r19 := r17 in
  let! r20 := query_pool (st app18) "tokenx"%string "tokeny"%string r1 in
  let r21 := call app18 "alice"%string (Mint r7 (-20) 10 1000000000000 (p_price r20) (p_price r20)) in
  let app22 := after app18 r21 in
  let! r23 := r21 in
  let! r24 := query_pool (st app22) "tokenx"%string "tokeny"%string r1 in
  assert ((p_liq r24) = 1000000000000);
  let r25 := approve_token app22 "tokenx"%string "alice"%string 1000000000000000000 in
  let app26 := after app22 r25 in
  let! r27 := r25 in
  let r28 := approve_token app26 "tokeny"%string "alice"%string 1000000000000000000 in
  let app29 := after app26 r28 in
  let! r30 := r28 in
  let r31 := call app29 "alice"%string (Mint r7 (-70) 60 1000000000000000000 (p_price r24) (p_price r24)) in
  let app32 := after app29 r31 in
  let! r33 := r31 in
  let token_id34 := (position_key_bytes "alice"%string 1) in
  let! r35 := query_nft_info (st app32) token_id34 in
  assert (((po_lower r35) =? (-70)) = true);
  assert (((po_upper r35) =? 60) = true);
  let r36 := mint_token app32 "tokenx"%string "bob"%string 1000 in
  let app37 := after app32 r36 in
  let! r38 := r36 in
  let amount_x39 := (balance app37 "tokenx"%string "bob"%string) in
  assert (amount_x39 = 1000);
  let r40 := approve_token app37 "tokenx"%string "bob"%string 1000 in
  let app41 := after app37 r40 in
  let! r42 := r40 in
  let! r43 := query_pool (st app41) "tokenx"%string "tokeny"%string r1 in
  let r44 := call app41 "bob"%string (Swap r7 true 1000 true 15258932000000000000) in
  let app45 := after app41 r44 in
  let! r46 := r44 in
  let! r47 := query_pool (st app45) "tokenx"%string "tokeny"%string r1 in
  assert ((p_fgx r47) = 49999950000049999);
  assert ((p_protx r47) = 1);
  assert ((p_proty r47) = 0);
  assert (((p_price r47) <? (p_price r43)) = true);
  assert ((p_liq r47) = (p_liq r43));
  assert ((p_tick r47) = (-10));
  assert ((p_price r47) <> (p_price r43));
  let amount_x48 := (balance app45 "tokenx"%string "bob"%string) in
  let amount_y49 := (balance app45 "tokeny"%string "bob"%string) in
  assert (amount_x48 = 0);
  assert (amount_y49 = 993);
  let dex_x_before_remove50 := (balance app45 "tokenx"%string "dex"%string) in
  let dex_y_before_remove51 := (balance app45 "tokeny"%string "dex"%string) in
  let token_id52 := (position_key_bytes "alice"%string 0) in
  let r53 := call app45 "alice"%string (Burn token_id52) in
  let app54 := after app45 r53 in
  let! r55 := r53 in
  let! r56 := query_pool (st app54) "tokenx"%string "tokeny"%string r1 in
  refused (get_tick (st app54) r7 (-20));
  refused (get_tick (st app54) r7 10);
  let! r57 := query_is_tick_initialized (st app54) r7 (-20) in
  let! r58 := query_is_tick_initialized (st app54) r7 10 in
  let dex_x59 := (balance app54 "tokenx"%string "dex"%string) in
  let dex_y60 := (balance app54 "tokeny"%string "dex"%string) in
  assert ((dex_x_before_remove50 - dex_x59) = 499);
  assert ((dex_y_before_remove51 - dex_y60) = 999);
  assert ((negb r57) = true);
  assert ((negb r58) = true);
  assert (((p_liq r56) =? 1000000000000000000) = true);
  assert (((p_tick r56) =? (-10)) = true);
  True.
Proof. replay. Qed.

Example t_nft_transfer_nft :
  let! r1 := calculate_sqrt_price (-23028) in
  let app0 := fresh_app in
  let! r3 := create_dex app0 "alice"%string 0 in
  let app4 := (create_token r3 "tokenx"%string "alice"%string 10000000000) in
  let app5 := (create_token app4 "tokeny"%string "alice"%string 10000000000) in
  let! r6 := sdk_new_fee_tier 200000000 3 in
  let r7 := call app5 "alice"%string (AddFeeTier r6) in
  let app8 := after app5 r7 in
  let! r9 := r7 in
  let r10 := call app8 "alice"%string (CreatePool "tokenx"%string "tokeny"%string r6 r1 (-23028)) in
  let app11 := after app8 r10 in
  let! r12 := r10 in
  let r13 := approve_token app11 "tokenx"%string "alice"%string 10000000000 in
  let app14 := after app11 r13 in
  let! r15 := r13 in
  let r16 := approve_token app14 "tokeny"%string "alice"%string 10000000000 in
  let app17 := after app14 r16 in
  let! r18 := r16 in
  let! r19 := pool_key_new "tokenx"%string "tokeny"%string r6 in
  let! r20 := query_pool (st app17) "tokenx"%string "tokeny"%string r6 in
  let r21 := call app17 "alice"%string (Mint r19 (-9780) (-42) 1000000000000 (p_price r20) 340282366920938463463374607431768211455) in
  let app22 := after app17 r21 in
  let! r23 := r21 in
  let! r24 := query_tokens (st app22) "alice"%string None None in
  assert ((Z.of_nat (Datatypes.length r24)) = 1);
  let r25 := call app22 "alice"%string (Mint r19 (-9780) (-42) 1000000000000 (p_price r20) 340282366920938463463374607431768211455) in
  let app26 := after app22 r25 in
  let! r27 := r25 in
  let r28 := call app26 "alice"%string (Mint r19 (-42) 0 1000000000000 (p_price r20) 340282366920938463463374607431768211455) in
  let app29 := after app26 r28 in
  let! r30 := r28 in
  let r31 := call app29 "alice"%string (Mint r19 0 9 1000000000000 (p_price r20) 340282366920938463463374607431768211455) in
  let app32 := after app29 r31 in
  let! r33 := r31 in
  let! r34 := query_tokens (st app32) "alice"%string None None in
  let! r35 := query_tokens (st app32) "bob"%string None None in
  let token_id36 := (position_key_bytes "alice"%string 0) in
  let! r37 := query_nft_info (st app32) token_id36 in
  let! it38 := item r34 ((Z.of_nat (Datatypes.length r34)) - 1) in
  let! r39 := query_nft_info (st app32) it38 in
  let token_id40 := (position_key_bytes "alice"%string 0) in
  let r41 := call app32 "alice"%string (TransferNft "bob"%string token_id40) in
  let app42 := after app32 r41 in
  let! r43 := r41 in
  let token_id44 := (position_key_bytes "bob"%string 0) in
  let! r45 := query_nft_info (st app42) token_id44 in
  let! r46 := query_tokens (st app42) "alice"%string None None in
  let! r47 := query_tokens (st app42) "bob"%string None None in
  let token_id48 := (position_key_bytes "alice"%string 0) in
  let! r49 := query_nft_info (st app42) token_id48 in
  assert ((Z.of_nat (Datatypes.length r47)) = ((Z.of_nat (Datatypes.length r35)) + 1));
  assert (((Z.of_nat (Datatypes.length r34)) - 1) = (Z.of_nat (Datatypes.length r46)));
  assert ((po_fgx r49) = (po_fgx r39));
  assert ((po_fgy r49) = (po_fgy r39));
  assert ((po_liq r49) = (po_liq r39));
  assert ((po_lower r49) = (po_lower r39));
  assert ((po_upper r49) = (po_upper r39));
  assert ((po_key r49) = (po_key r39));
  assert ((po_owedx r49) = (po_owedx r39));
  assert ((po_owedy r49) = (po_owedy r39));
  assert ((po_fgx r45) = (po_fgx r37));
  assert ((po_fgy r45) = (po_fgy r37));
  assert ((po_liq r45) = (po_liq r37));
  assert ((po_lower r45) = (po_lower r37));
  assert ((po_upper r45) = (po_upper r37));
  assert ((po_key r45) = (po_key r37));
  assert ((po_owedx r45) = (po_owedx r37));
  assert ((po_owedy r45) = (po_owedy r37));
  let! r50 := query_tokens (st app42) "alice"%string None None in
  let! r51 := query_tokens (st app42) "bob"%string None None in
  let! it52 := item r50 ((Z.of_nat (Datatypes.length r50)) - 1) in
  let! r53 := query_nft_info (st app42) it52 in
  let token_id54 := (position_key_bytes "alice"%string 1) in
  let r55 := call app42 "alice"%string (TransferNft "bob"%string token_id54) in
  let app56 := after app42 r55 in
  let! r57 := r55 in
  let! r58 := query_tokens (st app56) "alice"%string None None in
  let! r59 := query_tokens (st app56) "bob"%string None None in
  let token_id60 := (position_key_bytes "alice"%string 1) in
  let! r61 := query_nft_info (st app56) token_id60 in
  assert ((Z.of_nat (Datatypes.length r59)) = ((Z.of_nat (Datatypes.length r51)) + 1));
  assert (((Z.of_nat (Datatypes.length r50)) - 1) = (Z.of_nat (Datatypes.length r58)));
  assert ((po_fgx r61) = (po_fgx r53));
  assert ((po_fgy r61) = (po_fgy r53));
  assert ((po_liq r61) = (po_liq r53));
  assert ((po_lower r61) = (po_lower r53));
  assert ((po_upper r61) = (po_upper r53));
  assert ((po_key r61) = (po_key r53));
  assert ((po_owedx r61) = (po_owedx r53));
  assert ((po_owedy r61) = (po_owedy r53));
  let! r62 := query_tokens (st app56) "alice"%string None None in
  let transferred_index63 := ((Z.of_nat (Datatypes.length r62)) - 1) in
  let token_id64 := (position_key_bytes "alice"%string transferred_index63) in
  let! r65 := query_nft_info (st app56) token_id64 in
  let token_id66 := (position_key_bytes "alice"%string transferred_index63) in
  let r67 := call app56 "alice"%string (TransferNft "bob"%string token_id66) in
  let app68 := after app56 r67 in
  let! r69 := r67 in
  let! r70 := query_tokens (st app68) "bob"%string None None in
  let recipient_position_index71 := ((Z.of_nat (Datatypes.length r70)) - 1) in
  let token_id72 := (position_key_bytes "bob"%string recipient_position_index71) in
  let! r73 := query_nft_info (st app68) token_id72 in
  assert ((po_fgx r65) = (po_fgx r73));
  assert ((po_fgy r65) = (po_fgy r73));
  assert ((po_liq r65) = (po_liq r73));
  assert ((po_lower r65) = (po_lower r73));
  assert ((po_upper r65) = (po_upper r73));
  assert ((po_key r65) = (po_key r73));
  assert ((po_owedx r65) = (po_owedx r73));
  assert ((po_owedy r65) = (po_owedy r73));
  let! r74 := query_tokens (st app68) "bob"%string None None in
  let token_id75 := (position_key_bytes "alice"%string 0) in
  let! r76 := query_nft_info (st app68) token_id75 in
  let token_id77 := (position_key_bytes "alice"%string 0) in
  let r78 := call app68 "alice"%string (TransferNft "bob"%string token_id77) in
  let app79 := after app68 r78 in
  let! r80 := r78 in
  let! r81 := query_tokens (st app79) "bob"%string None None in
  let recipient_position_index82 := ((Z.of_nat (Datatypes.length r81)) - 1) in
  let token_id83 := (position_key_bytes "bob"%string recipient_position_index82) in
  let! r84 := query_nft_info (st app79) token_id83 in
  let! r85 := query_tokens (st app79) "alice"%string None None in
  assert ((Z.of_nat (Datatypes.length r81)) = ((Z.of_nat (Datatypes.length r74)) + 1));
  assert (0 = (Z.of_nat (Datatypes.length r85)));
  assert ((po_fgx r84) = (po_fgx r76));
  assert ((po_fgy r84) = (po_fgy r76));
  assert ((po_liq r84) = (po_liq r76));
  assert ((po_lower r84) = (po_lower r76));
  assert ((po_upper r84) = (po_upper r76));
  assert ((po_key r84) = (po_key r76));
  assert ((po_owedx r84) = (po_owedx r76));
  assert ((po_owedy r84) = (po_owedy r76));
  let! r86 := query_tokens (st app79) "alice"%string None None in
  let! r87 := query_tokens (st app79) "bob"%string None None in
  let token_id88 := (position_key_bytes "bob"%string 0) in
  let! r89 := query_nft_info (st app79) token_id88 in
  let! it90 := item r87 ((Z.of_nat (Datatypes.length r87)) - 1) in
  let! r91 := query_nft_info (st app79) it90 in
  let token_id92 := (position_key_bytes "bob"%string 0) in
  let r93 := call app79 "bob"%string (TransferNft "alice"%string token_id92) in
  let app94 := after app79 r93 in
  let! r95 := r93 in
  let! r96 := query_tokens (st app94) "alice"%string None None in
  let! r97 := query_tokens (st app94) "bob"%string None None in
  let token_id98 := (position_key_bytes "bob"%string 0) in
  let! r99 := query_nft_info (st app94) token_id98 in
  let token_id100 := (position_key_bytes "alice"%string 0) in
  let! r101 := query_nft_info (st app94) token_id100 in
  assert ((Z.of_nat (Datatypes.length r97)) = ((Z.of_nat (Datatypes.length r87)) - 1));
  assert (((Z.of_nat (Datatypes.length r86)) + 1) = (Z.of_nat (Datatypes.length r96)));
  assert ((po_fgx r91) = (po_fgx r99));
  assert ((po_fgy r91) = (po_fgy r99));
  assert ((po_liq r91) = (po_liq r99));
  assert ((po_lower r91) = (po_lower r99));
  assert ((po_upper r91) = (po_upper r99));
  assert ((po_key r91) = (po_key r99));
  assert ((po_owedx r91) = (po_owedx r99));
  assert ((po_owedy r91) = (po_owedy r99));
  assert ((po_fgx r101) = (po_fgx r89));
  assert ((po_fgy r101) = (po_fgy r89));
  assert ((po_liq r101) = (po_liq r89));
  assert ((po_lower r101) = (po_lower r89));
  assert ((po_upper r101) = (po_upper r89));
  assert ((po_key r101) = (po_key r89));
  assert ((po_owedx r101) = (po_owedx r89));
  assert ((po_owedy r101) = (po_owedy r89));
  True.
Proof. replay. Qed.

Example t_nft_only_owner_can_transfer_nft :
  let! r1 := calculate_sqrt_price (-23028) in
  let app0 := fresh_app in
  let! r3 := create_dex app0 "alice"%string 0 in
  let app4 := (create_token r3 "tokenx"%string "alice"%string 10000000000) in
  let app5 := (create_token app4 "tokeny"%string "alice"%string 10000000000) in
  let! r6 := sdk_new_fee_tier 200000000 3 in
  let r7 := call app5 "alice"%string (AddFeeTier r6) in
  let app8 := after app5 r7 in
  let! r9 := r7 in
  let r10 := call app8 "alice"%string (CreatePool "tokenx"%string "tokeny"%string r6 r1 (-23028)) in
  let app11 := after app8 r10 in
  let! r12 := r10 in
  let r13 := approve_token app11 "tokenx"%string "alice"%string 10000000000 in
  let app14 := after app11 r13 in
  let! r15 := r13 in
  let r16 := approve_token app14 "tokeny"%string "alice"%string 10000000000 in
  let app17 := after app14 r16 in
  let! r18 := r16 in
  let! r19 := pool_key_new "tokenx"%string "tokeny"%string r6 in
  let! r20 := query_pool (st app17) "tokenx"%string "tokeny"%string r6 in
  let r21 := call app17 "alice"%string (Mint r19 (-9780) (-42) 1000000000000 (p_price r20) 340282366920938463463374607431768211455) in
  let app22 := after app17 r21 in
  let! r23 := r21 in
  let! r24 := query_tokens (st app22) "alice"%string None None in
  assert ((Z.of_nat (Datatypes.length r24)) = 1);
  let r25 := call app22 "alice"%string (Mint r19 (-9780) (-42) 1000000000000 (p_price r20) 340282366920938463463374607431768211455) in
  let app26 := after app22 r25 in
  let! r27 := r25 in
  let r28 := call app26 "alice"%string (Mint r19 (-42) 0 1000000000000 (p_price r20) 340282366920938463463374607431768211455) in
  let app29 := after app26 r28 in
  let! r30 := r28 in
  let r31 := call app29 "alice"%string (Mint r19 0 9 1000000000000 (p_price r20) 340282366920938463463374607431768211455) in
  let app32 := after app29 r31 in
  let! r33 := r31 in
  let token_id34 := (position_key_bytes "bob"%string 0) in
  let r35 := call app32 "bob"%string (TransferNft "alice"%string token_id34) in
  let app36 := after app32 r35 in
  refused (r35);
  True.
Proof. replay. Qed.

(** /repo/contracts/oraiswap-v3/src/tests/position_list.rs *)
Example t_position_list_add_multiple_positions :
  let! r1 := calculate_sqrt_price (-23028) in
  let app0 := fresh_app in
  let! r3 := create_dex app0 "alice"%string 0 in
  let app4 := (create_token r3 "tokenx"%string "alice"%string 10000000000) in
  let app5 := (create_token app4 "tokeny"%string "alice"%string 10000000000) in
  let! r6 := sdk_new_fee_tier 200000000 3 in
  let r7 := call app5 "alice"%string (AddFeeTier r6) in
  let app8 := after app5 r7 in
  let! r9 := r7 in
  let r10 := call app8 "alice"%string (CreatePool "tokenx"%string "tokeny"%string r6 r1 (-23028)) in
  let app11 := after app8 r10 in
  let! r12 := r10 in
  let r13 := approve_token app11 "tokenx"%string "alice"%string 10000000000 in
  let app14 := after app11 r13 in
  let! r15 := r13 in
  let r16 := approve_token app14 "tokeny"%string "alice"%string 10000000000 in
  let app17 := after app14 r16 in
  let! r18 := r16 in
  let! r19 := pool_key_new "tokenx"%string "tokeny"%string r6 in
  let! r20 := query_pool (st app17) "tokenx"%string "tokeny"%string r6 in
  let r21 := call app17 "alice"%string (CreatePosition r19 (-9780) (-42) 1000000000000 (p_price r20) 340282366920938463463374607431768211455) in
  let app22 := after app17 r21 in
  let! r23 := r21 in
  let r24 := call app22 "alice"%string (CreatePosition r19 (-9780) (-42) 1000000000000 (p_price r20) 340282366920938463463374607431768211455) in
  let app25 := after app22 r24 in
  let! r26 := r24 in
  let r27 := call app25 "alice"%string (CreatePosition r19 (-9780) 0 1000000000000 (p_price r20) 340282366920938463463374607431768211455) in
  let app28 := after app25 r27 in
  let! r29 := r27 in
  let r30 := call app28 "alice"%string (CreatePosition r19 (-42) 276 1000000000000 (p_price r20) 340282366920938463463374607431768211455) in
  let app31 := after app28 r30 in
  let! r32 := r30 in
  let! r33 := query_positions (st app31) "alice"%string (Some 100) None in
  let! it34 := item r33 ((Z.of_nat (Datatypes.length r33)) - 1) in
  let r35 := call app31 "alice"%string (RemovePosition 2) in
  let app36 := after app31 r35 in
  let! r37 := r35 in
  let! r38 := query_positions (st app36) "alice"%string (Some 100) None in
  let! it39 := item r38 2 in
  assert ((po_key it34) = (po_key it39));
  assert ((po_liq it34) = (po_liq it39));
  assert ((po_lower it34) = (po_lower it39));
  assert ((po_upper it34) = (po_upper it39));
  assert ((po_fgx it34) = (po_fgx it39));
  assert ((po_fgy it34) = (po_fgy it39));
  assert ((po_owedx it34) = (po_owedx it39));
  assert ((po_owedy it34) = (po_owedy it39));
  let! r40 := query_positions (st app36) "alice"%string (Some 100) None in
  let r41 := call app36 "alice"%string (CreatePosition r19 (-42) 0 1000000000000 (p_price r20) 340282366920938463463374607431768211455) in
  let app42 := after app36 r41 in
  let! r43 := r41 in
  let! r44 := query_positions (st app42) "alice"%string (Some 100) None in
  assert (((Z.of_nat (Datatypes.length r40)) + 1) = (Z.of_nat (Datatypes.length r44)));
  let! r45 := query_positions (st app42) "alice"%string (Some 100) None in
  let last_position_index_before46 := ((Z.of_nat (Datatypes.length r45)) - 1) in
  let r47 := call app42 "alice"%string (RemovePosition last_position_index_before46) in
  let app48 := after app42 r47 in
  let! r49 := r47 in
  let! r50 := query_positions (st app48) "alice"%string (Some 100) None in
  let last_position_index_after51 := ((Z.of_nat (Datatypes.length r50)) - 1) in
  assert ((last_position_index_before46 - 1) = last_position_index_after51);
  let! r52 := query_positions (st app48) "alice"%string (Some 100) None in
  let last_position_index53 := (Z.of_nat (Datatypes.length r52)) in
  assert (last_position_index53 = 3);
  let r54 := call app48 "alice"%string (RemovePosition 2) in
  let app55 := after app48 r54 in
  let! r56 := r54 in
  let r57 := call app55 "alice"%string (RemovePosition 1) in
  let app58 := after app55 r57 in
  let! r59 := r57 in
  let r60 := call app58 "alice"%string (RemovePosition 0) in
  let app61 := after app58 r60 in
  let! r62 := r60 in
  let! r63 := query_positions (st app61) "alice"%string (Some 100) None in
  let list_length64 := (Z.of_nat (Datatypes.length r63)) in
  assert (list_length64 = 0);
  let! r65 := query_positions (st app61) "alice"%string (Some 100) None in
  let list_length_before66 := (Z.of_nat (Datatypes.length r65)) in
  let r67 := call app61 "alice"%string (CreatePosition r19 (-9780) (-42) 1000000000000 (p_price r20) 340282366920938463463374607431768211455) in
  let app68 := after app61 r67 in
  let! r69 := r67 in
  let! r70 := query_positions (st app68) "alice"%string (Some 100) None in
  let list_length_after71 := (Z.of_nat (Datatypes.length r70)) in
  assert (list_length_after71 = (list_length_before66 + 1));
  True.
Proof. replay. Qed.

(** /repo/contracts/oraiswap-v3/src/tests/position.rs *)
Example t_position_create_position :
  let app0 := fresh_app in
  let! r2 := create_dex app0 "alice"%string 0 in
  let app3 := (create_token r2 "tokenx"%string "alice"%string 500) in
  let app4 := (create_token app3 "tokeny"%string "alice"%string 500) in
  let! r5 := sdk_new_fee_tier 0 1 in
  let r6 := call app4 "alice"%string (AddFeeTier r5) in
  let app7 := after app4 r6 in
  let! r8 := r6 in
  let! r9 := calculate_sqrt_price 10 in
  let r10 := call app7 "alice"%string (CreatePool "tokenx"%string "tokeny"%string r5 r9 10) in
  let app11 := after app7 r10 in
  let! r12 := r10 in
  let r13 := approve_token app11 "tokenx"%string "alice"%string 500 in
  let app14 := after app11 r13 in
  let! r15 := r13 in
  let r16 := approve_token app14 "tokeny"%string "alice"%string 500 in
  let app17 := after app14 r16 in
  let! r18 := r16 in
  let! r19 := pool_key_new "tokenx"%string "tokeny"%string r5 in
  let r20 := call app17 "alice"%string (CreatePosition r19 (-10) 10 10 0 340282366920938463463374607431768211455) in
  let app21 := after app17 r20 in
  let! r22 := r20 in
  True.
Proof. replay. Qed.

Example t_position_position_same_upper_and_lower_tick :
  let app0 := fresh_app in
  let! r2 := create_dex app0 "alice"%string 0 in
  let app3 := (create_token r2 "tokenx"%string "alice"%string 500) in
  let app4 := (create_token app3 "tokeny"%string "alice"%string 500) in
  let! r5 := sdk_new_fee_tier 0 1 in
  let r6 := call app4 "alice"%string (AddFeeTier r5) in
  let app7 := after app4 r6 in
  let! r8 := r6 in
  let! r9 := calculate_sqrt_price 10 in
  let r10 := call app7 "alice"%string (CreatePool "tokenx"%string "tokeny"%string r5 r9 10) in
  let app11 := after app7 r10 in
  let! r12 := r10 in
  let r13 := approve_token app11 "tokenx"%string "alice"%string 500 in
  let app14 := after app11 r13 in
  let! r15 := r13 in
  let r16 := approve_token app14 "tokeny"%string "alice"%string 500 in
  let app17 := after app14 r16 in
  let! r18 := r16 in
  let! r19 := pool_key_new "tokenx"%string "tokeny"%string r5 in
  let r20 := call app17 "alice"%string (CreatePosition r19 10 10 10 0 340282366920938463463374607431768211455) in
  let app21 := after app17 r20 in
  refused (r20);
  True.
Proof. replay. Qed.

Example t_position_remove_position :
  let! r1 := sdk_new_fee_tier 6000000000 10 in
  let! r2 := calculate_sqrt_price 0 in
  let app0 := fresh_app in
  let! r4 := create_dex app0 "alice"%string 10000000000 in
  let app5 := (create_token r4 "tokenx"%string "alice"%string 10000000000) in
  let app6 := (create_token app5 "tokeny"%string "alice"%string 10000000000) in
  let! r7 := pool_key_new "tokenx"%string "tokeny"%string r1 in
  let r8 := call app6 "alice"%string (AddFeeTier r1) in
  let app9 := after app6 r8 in
  let! r10 := r8 in
  let r11 := call app9 "alice"%string (CreatePool "tokenx"%string "tokeny"%string r1 r2 0) in
  let app12 := after app9 r11 in
  let! r13 := r11 in
  let r14 := approve_token app12 "tokenx"%string "alice"%string 10000000000 in
  let app15 := after app12 r14 in
  let! r16 := r14 in
  let r17 := approve_token app15 "tokeny"%string "alice"%string 10000000000 in
  let app18 := after app15 r17 in
  let! r19 := r17 in
  let! r20 := query_pool (st app18) "tokenx"%string "tokeny"%string r1 in
  let r21 := call app18 "alice"%string (CreatePosition r7 (-20) 10 1000000000000 (p_price r20) (p_price r20)) in
  let app22 := after app18 r21 in
  let! r23 := r21 in
  let! r24 := query_pool (st app22) "tokenx"%string "tokeny"%string r1 in
  assert ((p_liq r24) = 1000000000000);
  let r25 := approve_token app22 "tokenx"%string "alice"%string 1000000000000000000 in
  let app26 := after app22 r25 in
  let! r27 := r25 in
  let r28 := approve_token app26 "tokeny"%string "alice"%string 1000000000000000000 in
  let app29 := after app26 r28 in
  let! r30 := r28 in
  let r31 := call app29 "alice"%string (CreatePosition r7 (-70) 60 1000000000000000000 (p_price r24) (p_price r24)) in
  let app32 := after app29 r31 in
  let! r33 := r31 in
  let! r34 := get_position (st app32) "alice"%string 1 in
  assert (((po_lower r34) =? (-70)) = true);
  assert (((po_upper r34) =? 60) = true);
  let r35 := mint_token app32 "tokenx"%string "bob"%string 1000 in
  let app36 := after app32 r35 in
  let! r37 := r35 in
  let amount_x38 := (balance app36 "tokenx"%string "bob"%string) in
  assert (amount_x38 = 1000);
  let r39 := approve_token app36 "tokenx"%string "bob"%string 1000 in
  let app40 := after app36 r39 in
  let! r41 := r39 in
  let! r42 := query_pool (st app40) "tokenx"%string "tokeny"%string r1 in
  let r43 := call app40 "bob"%string (Swap r7 true 1000 true 15258932000000000000) in
  let app44 := after app40 r43 in
  let! r45 := r43 in
  let! r46 := query_pool (st app44) "tokenx"%string "tokeny"%string r1 in
  assert ((p_fgx r46) = 49999950000049999);
  assert ((p_protx r46) = 1);
  assert ((p_proty r46) = 0);
  assert (((p_price r46) <? (p_price r42)) = true);
  assert ((p_liq r46) = (p_liq r42));
  assert ((p_tick r46) = (-10));
  assert ((p_price r46) <> (p_price r42));
  let amount_x47 := (balance app44 "tokenx"%string "bob"%string) in
  let amount_y48 := (balance app44 "tokeny"%string "bob"%string) in
  assert (amount_x47 = 0);
  assert (amount_y48 = 993);
  let dex_x_before_remove49 := (balance app44 "tokenx"%string "dex"%string) in
  let dex_y_before_remove50 := (balance app44 "tokeny"%string "dex"%string) in
  let r51 := call app44 "alice"%string (RemovePosition 0) in
  let app52 := after app44 r51 in
  let! r53 := r51 in
  let! r54 := query_pool (st app52) "tokenx"%string "tokeny"%string r1 in
  refused (get_tick (st app52) r7 (-20));
  refused (get_tick (st app52) r7 10);
  let! r55 := query_is_tick_initialized (st app52) r7 (-20) in
  let! r56 := query_is_tick_initialized (st app52) r7 10 in
  let dex_x57 := (balance app52 "tokenx"%string "dex"%string) in
  let dex_y58 := (balance app52 "tokeny"%string "dex"%string) in
  assert ((dex_x_before_remove49 - dex_x57) = 499);
  assert ((dex_y_before_remove50 - dex_y58) = 999);
  assert ((negb r55) = true);
  assert ((negb r56) = true);
  assert (((p_liq r54) =? 1000000000000000000) = true);
  assert (((p_tick r54) =? (-10)) = true);
  True.
Proof. replay. Qed.

Example t_position_position_within_current_tick :
  let! r1 := calculate_sqrt_price (-23028) in
  let app0 := fresh_app in
  let! r3 := create_dex app0 "alice"%string 0 in
  let app4 := (create_token r3 "tokenx"%string "alice"%string 100000000) in
  let app5 := (create_token app4 "tokeny"%string "alice"%string 100000000) in
  let! r6 := sdk_new_fee_tier 200000000 4 in
  let r7 := call app5 "alice"%string (AddFeeTier r6) in
  let app8 := after app5 r7 in
  let! r9 := r7 in
  let r10 := call app8 "alice"%string (CreatePool "tokenx"%string "tokeny"%string r6 r1 (-23028)) in
  let app11 := after app8 r10 in
  let! r12 := r10 in
  let r13 := approve_token app11 "tokenx"%string "alice"%string 100000000 in
  let app14 := after app11 r13 in
  let! r15 := r13 in
  let r16 := approve_token app14 "tokeny"%string "alice"%string 100000000 in
  let app17 := after app14 r16 in
  let! r18 := r16 in
  let! r19 := pool_key_new "tokenx"%string "tokeny"%string r6 in
  let! r20 := query_pool (st app17) "tokenx"%string "tokeny"%string r6 in
  let r21 := call app17 "alice"%string (CreatePosition r19 (-177440) 177440 100000000 (p_price r20) 340282366920938463463374607431768211455) in
  let app22 := after app17 r21 in
  let! r23 := r21 in
  let! r24 := get_position (st app22) "alice"%string 0 in
  let! r25 := query_pool (st app22) "tokenx"%string "tokeny"%string r6 in
  let! r26 := get_tick (st app22) r19 (-177440) in
  let! r27 := get_tick (st app22) r19 177440 in
  let alice_x28 := (balance app22 "tokenx"%string "alice"%string) in
  let alice_y29 := (balance app22 "tokeny"%string "alice"%string) in
  let dex_x30 := (balance app22 "tokenx"%string "dex"%string) in
  let dex_y31 := (balance app22 "tokeny"%string "dex"%string) in
  assert (((t_index r26) =? (-177440)) = true);
  assert (((t_index r27) =? 177440) = true);
  assert ((t_gross r26) = 100000000);
  assert ((t_gross r27) = 100000000);
  assert ((t_change r26) = 100000000);
  assert ((t_change r27) = 100000000);
  assert ((t_sign r26) = true);
  assert ((negb (t_sign r27)) = true);
  assert (((p_liq r25) =? 100000000) = true);
  assert (((p_tick r25) =? (-23028)) = true);
  assert ((bool_decide ((po_key r24) = r19)) = true);
  assert (((po_liq r24) =? 100000000) = true);
  assert (((po_lower r24) =? (-177440)) = true);
  assert (((po_upper r24) =? 177440) = true);
  assert (((po_fgx r24) =? 0) = true);
  assert (((po_fgy r24) =? 0) = true);
  let! r32 := sub_e StdErr 100000000 dex_x30 in
  assert (alice_x28 = r32);
  let! r33 := sub_e StdErr 100000000 dex_y31 in
  assert (alice_y29 = r33);
  assert (dex_x30 = 317);
  assert (dex_y31 = 32);
  True.
Proof. replay. Qed.

Example t_position_position_below_current_tick :
  let! r1 := calculate_sqrt_price (-23028) in
  let app0 := fresh_app in
  let! r3 := create_dex app0 "alice"%string 0 in
  let app4 := (create_token r3 "tokenx"%string "alice"%string 10000000000) in
  let app5 := (create_token app4 "tokeny"%string "alice"%string 10000000000) in
  let! r6 := sdk_new_fee_tier 200000000 4 in
  let r7 := call app5 "alice"%string (AddFeeTier r6) in
  let app8 := after app5 r7 in
  let! r9 := r7 in
  let r10 := call app8 "alice"%string (CreatePool "tokenx"%string "tokeny"%string r6 r1 (-23028)) in
  let app11 := after app8 r10 in
  let! r12 := r10 in
  let r13 := approve_token app11 "tokenx"%string "alice"%string 10000000000 in
  let app14 := after app11 r13 in
  let! r15 := r13 in
  let r16 := approve_token app14 "tokeny"%string "alice"%string 10000000000 in
  let app17 := after app14 r16 in
  let! r18 := r16 in
  let! r19 := pool_key_new "tokenx"%string "tokeny"%string r6 in
  let! r20 := query_pool (st app17) "tokenx"%string "tokeny"%string r6 in
  let r21 := call app17 "alice"%string (CreatePosition r19 (-46080) (-23040) 10000000000 (p_price r20) 340282366920938463463374607431768211455) in
  let app22 := after app17 r21 in
  let! r23 := r21 in
  let! r24 := get_position (st app22) "alice"%string 0 in
  let! r25 := query_pool (st app22) "tokenx"%string "tokeny"%string r6 in
  let! r26 := get_tick (st app22) r19 (-46080) in
  let! r27 := get_tick (st app22) r19 (-23040) in
  let alice_x28 := (balance app22 "tokenx"%string "alice"%string) in
  let alice_y29 := (balance app22 "tokeny"%string "alice"%string) in
  let dex_x30 := (balance app22 "tokenx"%string "dex"%string) in
  let dex_y31 := (balance app22 "tokeny"%string "dex"%string) in
  assert (((t_index r26) =? (-46080)) = true);
  assert (((t_index r27) =? (-23040)) = true);
  assert ((t_gross r26) = 10000000000);
  assert ((t_gross r27) = 10000000000);
  assert ((t_change r26) = 10000000000);
  assert ((t_change r27) = 10000000000);
  assert ((t_sign r26) = true);
  assert ((negb (t_sign r27)) = true);
  assert (((p_liq r25) =? (p_liq r20)) = true);
  assert (((p_tick r25) =? (-23028)) = true);
  assert ((bool_decide ((po_key r24) = r19)) = true);
  assert (((po_liq r24) =? 10000000000) = true);
  assert (((po_lower r24) =? (-46080)) = true);
  assert (((po_upper r24) =? (-23040)) = true);
  assert (((po_fgx r24) =? 0) = true);
  assert (((po_fgy r24) =? 0) = true);
  let! r32 := sub_e StdErr 10000000000 dex_x30 in
  assert (alice_x28 = r32);
  let! r33 := sub_e StdErr 10000000000 dex_y31 in
  assert (alice_y29 = r33);
  assert (dex_x30 = 0);
  assert (dex_y31 = 2162);
  True.
Proof. replay. Qed.

Example t_position_position_above_current_tick :
  let! r1 := calculate_sqrt_price (-23028) in
  let app0 := fresh_app in
  let! r3 := create_dex app0 "alice"%string 0 in
  let app4 := (create_token r3 "tokenx"%string "alice"%string 10000000000) in
  let app5 := (create_token app4 "tokeny"%string "alice"%string 10000000000) in
  let! r6 := sdk_new_fee_tier 200000000 4 in
  let r7 := call app5 "alice"%string (AddFeeTier r6) in
  let app8 := after app5 r7 in
  let! r9 := r7 in
  let r10 := call app8 "alice"%string (CreatePool "tokenx"%string "tokeny"%string r6 r1 (-23028)) in
  let app11 := after app8 r10 in
  let! r12 := r10 in
  let r13 := approve_token app11 "tokenx"%string "alice"%string 10000000000 in
  let app14 := after app11 r13 in
  let! r15 := r13 in
  let r16 := approve_token app14 "tokeny"%string "alice"%string 10000000000 in
  let app17 := after app14 r16 in
  let! r18 := r16 in
  let! r19 := pool_key_new "tokenx"%string "tokeny"%string r6 in
  let! r20 := query_pool (st app17) "tokenx"%string "tokeny"%string r6 in
  let r21 := call app17 "alice"%string (CreatePosition r19 (-22980) 0 10000000000 (p_price r20) 340282366920938463463374607431768211455) in
  let app22 := after app17 r21 in
  let! r23 := r21 in
  let! r24 := get_position (st app22) "alice"%string 0 in
  let! r25 := query_pool (st app22) "tokenx"%string "tokeny"%string r6 in
  let! r26 := get_tick (st app22) r19 (-22980) in
  let! r27 := get_tick (st app22) r19 0 in
  let alice_x28 := (balance app22 "tokenx"%string "alice"%string) in
  let alice_y29 := (balance app22 "tokeny"%string "alice"%string) in
  let dex_x30 := (balance app22 "tokenx"%string "dex"%string) in
  let dex_y31 := (balance app22 "tokeny"%string "dex"%string) in
  assert (((t_index r26) =? (-22980)) = true);
  assert (((t_index r27) =? 0) = true);
  assert ((t_gross r26) = 10000000000);
  assert ((t_gross r27) = 10000000000);
  assert ((t_change r26) = 10000000000);
  assert ((t_change r27) = 10000000000);
  assert ((t_sign r26) = true);
  assert ((negb (t_sign r27)) = true);
  assert (((p_liq r25) =? 0) = true);
  assert (((p_tick r25) =? (-23028)) = true);
  assert ((bool_decide ((po_key r24) = r19)) = true);
  assert (((po_liq r24) =? 10000000000) = true);
  assert (((po_lower r24) =? (-22980)) = true);
  assert (((po_upper r24) =? 0) = true);
  assert (((po_fgx r24) =? 0) = true);
  assert (((po_fgy r24) =? 0) = true);
  let! r32 := sub_e StdErr 10000000000 dex_x30 in
  assert (alice_x28 = r32);
  let! r33 := sub_e StdErr 10000000000 dex_y31 in
  assert (alice_y29 = r33);
  assert (dex_x30 = 21549);
  assert (dex_y31 = 0);
  True.
Proof. replay. Qed.

(** /repo/contracts/oraiswap-v3/src/tests/position_list.rs *)
Example t_position_list_remove_position_from_empty_list :
  let app0 := fresh_app in
  let! r2 := create_dex app0 "alice"%string 6000000000 in
  let app3 := (create_token r2 "tokenx"%string "alice"%string 10000000000) in
  let app4 := (create_token app3 "tokeny"%string "alice"%string 10000000000) in
  let! r5 := sdk_new_fee_tier 6000000000 3 in
  let r6 := call app4 "alice"%string (AddFeeTier r5) in
  let app7 := after app4 r6 in
  let! r8 := r6 in
  let! r9 := calculate_sqrt_price (-23028) in
  let r10 := call app7 "alice"%string (CreatePool "tokenx"%string "tokeny"%string r5 r9 (-23028)) in
  let app11 := after app7 r10 in
  let! r12 := r10 in
  let r13 := call app11 "alice"%string (RemovePosition 0) in
  let app14 := after app11 r13 in
  refused (r13);
  True.
Proof. replay. Qed.

Example t_position_list_only_owner_can_modify_position_list :
  let! r1 := calculate_sqrt_price (-23028) in
  let app0 := fresh_app in
  let! r3 := create_dex app0 "alice"%string 0 in
  let app4 := (create_token r3 "tokenx"%string "alice"%string 10000000000) in
  let app5 := (create_token app4 "tokeny"%string "alice"%string 10000000000) in
  let! r6 := sdk_new_fee_tier 200000000 3 in
  let r7 := call app5 "alice"%string (AddFeeTier r6) in
  let app8 := after app5 r7 in
  let! r9 := r7 in
  let r10 := call app8 "alice"%string (CreatePool "tokenx"%string "tokeny"%string r6 r1 (-23028)) in
  let app11 := after app8 r10 in
  let! r12 := r10 in
  let r13 := approve_token app11 "tokenx"%string "alice"%string 10000000000 in
  let app14 := after app11 r13 in
  let! r15 := r13 in
  let r16 := approve_token app14 "tokeny"%string "alice"%string 10000000000 in
  let app17 := after app14 r16 in
  let! r18 := r16 in
  let! r19 := pool_key_new "tokenx"%string "tokeny"%string r6 in
  let! r20 := query_pool (st app17) "tokenx"%string "tokeny"%string r6 in
  let r21 := call app17 "alice"%string (CreatePosition r19 (-9780) (-42) 1000000000000 (p_price r20) 340282366920938463463374607431768211455) in
  let app22 := after app17 r21 in
  let! r23 := r21 in
  let r24 := call app22 "alice"%string (CreatePosition r19 (-9780) (-42) 1000000000000 (p_price r20) 340282366920938463463374607431768211455) in
  let app25 := after app22 r24 in
  let! r26 := r24 in
  let r27 := call app25 "alice"%string (CreatePosition r19 (-9780) 0 1000000000000 (p_price r20) 340282366920938463463374607431768211455) in
  let app28 := after app25 r27 in
  let! r29 := r27 in
  let r30 := call app28 "alice"%string (CreatePosition r19 (-42) 276 1000000000000 (p_price r20) 340282366920938463463374607431768211455) in
  let app31 := after app28 r30 in
  let! r32 := r30 in
  let! r33 := query_positions (st app31) "alice"%string (Some 100) None in
  let! it34 := item r33 ((Z.of_nat (Datatypes.length r33)) - 1) in
  let r35 := call app31 "alice"%string (RemovePosition 2) in
  let app36 := after app31 r35 in
  let! r37 := r35 in
  let! r38 := query_positions (st app36) "alice"%string (Some 100) None in
  let! it39 := item r38 2 in
  assert ((po_key it34) = (po_key it39));
  assert ((po_liq it34) = (po_liq it39));
  assert ((po_lower it34) = (po_lower it39));
  assert ((po_upper it34) = (po_upper it39));
  assert ((po_fgx it34) = (po_fgx it39));
  assert ((po_fgy it34) = (po_fgy it39));
  assert ((po_owedx it34) = (po_owedx it39));
  assert ((po_owedy it34) = (po_owedy it39));
  let! r40 := query_positions (st app36) "alice"%string (Some 100) None in
  let r41 := call app36 "alice"%string (CreatePosition r19 (-42) 0 1000000000000 (p_price r20) 340282366920938463463374607431768211455) in
  let app42 := after app36 r41 in
  let! r43 := r41 in
  let! r44 := query_positions (st app42) "alice"%string (Some 100) None in
  assert (((Z.of_nat (Datatypes.length r40)) + 1) = (Z.of_nat (Datatypes.length r44)));
  let! r45 := query_positions (st app42) "alice"%string (Some 100) None in
  let last_position_index_before46 := ((Z.of_nat (Datatypes.length r45)) - 1) in
  let r47 := call app42 "bob"%string (RemovePosition last_position_index_before46) in
  let app48 := after app42 r47 in
  refused (r47);
  True.
Proof. replay. Qed.

Example t_position_list_transfer_position_ownership :
  let! r1 := calculate_sqrt_price (-23028) in
  let app0 := fresh_app in
  let! r3 := create_dex app0 "alice"%string 0 in
  let app4 := (create_token r3 "tokenx"%string "alice"%string 10000000000) in
  let app5 := (create_token app4 "tokeny"%string "alice"%string 10000000000) in
  let! r6 := sdk_new_fee_tier 200000000 3 in
  let r7 := call app5 "alice"%string (AddFeeTier r6) in
  let app8 := after app5 r7 in
  let! r9 := r7 in
  let r10 := call app8 "alice"%string (CreatePool "tokenx"%string "tokeny"%string r6 r1 (-23028)) in
  let app11 := after app8 r10 in
  let! r12 := r10 in
  let r13 := approve_token app11 "tokenx"%string "alice"%string 10000000000 in
  let app14 := after app11 r13 in
  let! r15 := r13 in
  let r16 := approve_token app14 "tokeny"%string "alice"%string 10000000000 in
  let app17 := after app14 r16 in
  let! r18 := r16 in
  let! r19 := pool_key_new "tokenx"%string "tokeny"%string r6 in
  let! r20 := query_pool (st app17) "tokenx"%string "tokeny"%string r6 in
  let r21 := call app17 "alice"%string (CreatePosition r19 (-9780) (-42) 1000000000000 (p_price r20) 340282366920938463463374607431768211455) in
  let app22 := after app17 r21 in
  let! r23 := r21 in
  let! r24 := query_positions (st app22) "alice"%string (Some 100) None in
  let list_length25 := (Z.of_nat (Datatypes.length r24)) in
  assert (list_length25 = 1);
  let r26 := call app22 "alice"%string (CreatePosition r19 (-9780) (-42) 1000000000000 (p_price r20) 340282366920938463463374607431768211455) in
  let app27 := after app22 r26 in
  let! r28 := r26 in
  let r29 := call app27 "alice"%string (CreatePosition r19 (-42) 0 1000000000000 (p_price r20) 340282366920938463463374607431768211455) in
  let app30 := after app27 r29 in
  let! r31 := r29 in
  let r32 := call app30 "alice"%string (CreatePosition r19 (-42) 9 1000000000000 (p_price r20) 340282366920938463463374607431768211455) in
  let app33 := after app30 r32 in
  let! r34 := r32 in
  let! r35 := query_positions (st app33) "alice"%string (Some 100) None in
  let! r36 := query_positions (st app33) "bob"%string (Some 100) None in
  let! r37 := get_position (st app33) "alice"%string 0 in
  let! it38 := item r35 ((Z.of_nat (Datatypes.length r35)) - 1) in
  let r39 := call app33 "alice"%string (TransferPosition 0 "bob"%string) in
  let app40 := after app33 r39 in
  let! r41 := r39 in
  let! r42 := get_position (st app40) "bob"%string 0 in
  let! r43 := query_positions (st app40) "alice"%string (Some 100) None in
  let! r44 := query_positions (st app40) "bob"%string (Some 100) None in
  let! r45 := get_position (st app40) "alice"%string 0 in
  assert ((Z.of_nat (Datatypes.length r44)) = ((Z.of_nat (Datatypes.length r36)) + 1));
  assert (((Z.of_nat (Datatypes.length r35)) - 1) = (Z.of_nat (Datatypes.length r43)));
  assert ((po_fgx r45) = (po_fgx it38));
  assert ((po_fgy r45) = (po_fgy it38));
  assert ((po_liq r45) = (po_liq it38));
  assert ((po_lower r45) = (po_lower it38));
  assert ((po_upper r45) = (po_upper it38));
  assert ((po_key r45) = (po_key it38));
  assert ((po_owedx r45) = (po_owedx it38));
  assert ((po_owedy r45) = (po_owedy it38));
  assert ((po_fgx r42) = (po_fgx r37));
  assert ((po_fgy r42) = (po_fgy r37));
  assert ((po_liq r42) = (po_liq r37));
  assert ((po_lower r42) = (po_lower r37));
  assert ((po_upper r42) = (po_upper r37));
  assert ((po_key r42) = (po_key r37));
  assert ((po_owedx r42) = (po_owedx r37));
  assert ((po_owedy r42) = (po_owedy r37));
  let! r46 := query_positions (st app40) "alice"%string (Some 100) None in
  let! r47 := query_positions (st app40) "bob"%string (Some 100) None in
  let! it48 := item r46 ((Z.of_nat (Datatypes.length r46)) - 1) in
  let r49 := call app40 "alice"%string (TransferPosition 1 "bob"%string) in
  let app50 := after app40 r49 in
  let! r51 := r49 in
  let! r52 := query_positions (st app50) "alice"%string (Some 100) None in
  let! r53 := query_positions (st app50) "bob"%string (Some 100) None in
  let! r54 := get_position (st app50) "alice"%string 1 in
  assert ((Z.of_nat (Datatypes.length r53)) = ((Z.of_nat (Datatypes.length r47)) + 1));
  assert (((Z.of_nat (Datatypes.length r46)) - 1) = (Z.of_nat (Datatypes.length r52)));
  assert ((po_fgx r54) = (po_fgx it48));
  assert ((po_fgy r54) = (po_fgy it48));
  assert ((po_liq r54) = (po_liq it48));
  assert ((po_lower r54) = (po_lower it48));
  assert ((po_upper r54) = (po_upper it48));
  assert ((po_key r54) = (po_key it48));
  assert ((po_owedx r54) = (po_owedx it48));
  assert ((po_owedy r54) = (po_owedy it48));
  let! r55 := query_positions (st app50) "alice"%string (Some 100) None in
  let transferred_index56 := ((Z.of_nat (Datatypes.length r55)) - 1) in
  let! r57 := get_position (st app50) "alice"%string transferred_index56 in
  let r58 := call app50 "alice"%string (TransferPosition transferred_index56 "bob"%string) in
  let app59 := after app50 r58 in
  let! r60 := r58 in
  let! r61 := query_positions (st app59) "bob"%string (Some 100) None in
  let recipient_position_index62 := ((Z.of_nat (Datatypes.length r61)) - 1) in
  let! r63 := get_position (st app59) "bob"%string recipient_position_index62 in
  assert ((po_fgx r57) = (po_fgx r63));
  assert ((po_fgy r57) = (po_fgy r63));
  assert ((po_liq r57) = (po_liq r63));
  assert ((po_lower r57) = (po_lower r63));
  assert ((po_upper r57) = (po_upper r63));
  assert ((po_key r57) = (po_key r63));
  assert ((po_owedx r57) = (po_owedx r63));
  assert ((po_owedy r57) = (po_owedy r63));
  let! r64 := query_positions (st app59) "bob"%string (Some 100) None in
  let! r65 := get_position (st app59) "alice"%string 0 in
  let r66 := call app59 "alice"%string (TransferPosition 0 "bob"%string) in
  let app67 := after app59 r66 in
  let! r68 := r66 in
  let! r69 := query_positions (st app67) "bob"%string (Some 100) None in
  let recipient_position_index70 := ((Z.of_nat (Datatypes.length r69)) - 1) in
  let! r71 := get_position (st app67) "bob"%string recipient_position_index70 in
  let! r72 := query_positions (st app67) "alice"%string (Some 100) None in
  assert ((Z.of_nat (Datatypes.length r69)) = ((Z.of_nat (Datatypes.length r64)) + 1));
  assert (0 = (Z.of_nat (Datatypes.length r72)));
  assert ((po_fgx r71) = (po_fgx r65));
  assert ((po_fgy r71) = (po_fgy r65));
  assert ((po_liq r71) = (po_liq r65));
  assert ((po_lower r71) = (po_lower r65));
  assert ((po_upper r71) = (po_upper r65));
  assert ((po_key r71) = (po_key r65));
  assert ((po_owedx r71) = (po_owedx r65));
  assert ((po_owedy r71) = (po_owedy r65));
  let! r73 := query_positions (st app67) "alice"%string (Some 100) None in
  let! r74 := query_positions (st app67) "bob"%string (Some 100) None in
  let! r75 := get_position (st app67) "bob"%string 0 in
  let! it76 := item r74 ((Z.of_nat (Datatypes.length r74)) - 1) in
  let r77 := call app67 "bob"%string (TransferPosition 0 "alice"%string) in
  let app78 := after app67 r77 in
  let! r79 := r77 in
  let! r80 := query_positions (st app78) "alice"%string (Some 100) None in
  let! r81 := query_positions (st app78) "bob"%string (Some 100) None in
  let! r82 := get_position (st app78) "bob"%string 0 in
  let! r83 := get_position (st app78) "alice"%string 0 in
  assert ((Z.of_nat (Datatypes.length r81)) = ((Z.of_nat (Datatypes.length r74)) - 1));
  assert (((Z.of_nat (Datatypes.length r73)) + 1) = (Z.of_nat (Datatypes.length r80)));
  assert ((po_fgx it76) = (po_fgx r82));
  assert ((po_fgy it76) = (po_fgy r82));
  assert ((po_liq it76) = (po_liq r82));
  assert ((po_lower it76) = (po_lower r82));
  assert ((po_upper it76) = (po_upper r82));
  assert ((po_key it76) = (po_key r82));
  assert ((po_owedx it76) = (po_owedx r82));
  assert ((po_owedy it76) = (po_owedy r82));
  assert ((po_fgx r83) = (po_fgx r75));
  assert ((po_fgy r83) = (po_fgy r75));
  assert ((po_liq r83) = (po_liq r75));
  assert ((po_lower r83) = (po_lower r75));
  assert ((po_upper r83) = (po_upper r75));
  assert ((po_key r83) = (po_key r75));
  assert ((po_owedx r83) = (po_owedx r75));
  assert ((po_owedy r83) = (po_owedy r75));
  True.
Proof. replay. Qed.

Example t_position_list_only_owner_can_transfer_position :
  let! r1 := calculate_sqrt_price (-23028) in
  let app0 := fresh_app in
  let! r3 := create_dex app0 "alice"%string 0 in
  let app4 := (create_token r3 "tokenx"%string "alice"%string 10000000000) in
  let app5 := (create_token app4 "tokeny"%string "alice"%string 10000000000) in
  let! r6 := sdk_new_fee_tier 200000000 3 in
  let r7 := call app5 "alice"%string (AddFeeTier r6) in
  let app8 := after app5 r7 in
  let! r9 := r7 in
  let r10 := call app8 "alice"%string (CreatePool "tokenx"%string "tokeny"%string r6 r1 (-23028)) in
  let app11 := after app8 r10 in
  let! r12 := r10 in
  let r13 := approve_token app11 "tokenx"%string "alice"%string 10000000000 in
  let app14 := after app11 r13 in
  let! r15 := r13 in
  let r16 := approve_token app14 "tokeny"%string "alice"%string 10000000000 in
  let app17 := after app14 r16 in
  let! r18 := r16 in
  let! r19 := pool_key_new "tokenx"%string "tokeny"%string r6 in
  let! r20 := query_pool (st app17) "tokenx"%string "tokeny"%string r6 in
  let r21 := call app17 "alice"%string (CreatePosition r19 (-9780) (-42) 1000000000000 (p_price r20) 340282366920938463463374607431768211455) in
  let app22 := after app17 r21 in
  let! r23 := r21 in
  let! r24 := query_positions (st app22) "alice"%string (Some 100) None in
  let list_length25 := (Z.of_nat (Datatypes.length r24)) in
  assert (list_length25 = 1);
  let r26 := call app22 "alice"%string (CreatePosition r19 (-9780) (-42) 1000000000000 (p_price r20) 340282366920938463463374607431768211455) in
  let app27 := after app22 r26 in
  let! r28 := r26 in
  let r29 := call app27 "alice"%string (CreatePosition r19 (-42) 0 1000000000000 (p_price r20) 340282366920938463463374607431768211455) in
  let app30 := after app27 r29 in
  let! r31 := r29 in
  let r32 := call app30 "alice"%string (CreatePosition r19 (-42) 9 1000000000000 (p_price r20) 340282366920938463463374607431768211455) in
  let app33 := after app30 r32 in
  let! r34 := r32 in
  let r35 := call app33 "bob"%string (TransferPosition 0 "alice"%string) in
  let app36 := after app33 r35 in
  refused (r35);
  True.
Proof. replay. Qed.

Example t_position_list_multiple_positions_on_same_tick :
  let! r1 := calculate_sqrt_price 0 in
  let app0 := fresh_app in
  let! r3 := create_dex app0 "alice"%string 0 in
  let app4 := (create_token r3 "tokenx"%string "alice"%string 100000000) in
  let app5 := (create_token app4 "tokeny"%string "alice"%string 100000000) in
  let! r6 := sdk_new_fee_tier 200000000 10 in
  let r7 := call app5 "alice"%string (AddFeeTier r6) in
  let app8 := after app5 r7 in
  let! r9 := r7 in
  let r10 := call app8 "alice"%string (CreatePool "tokenx"%string "tokeny"%string r6 r1 0) in
  let app11 := after app8 r10 in
  let! r12 := r10 in
  let r13 := approve_token app11 "tokenx"%string "alice"%string 100000000 in
  let app14 := after app11 r13 in
  let! r15 := r13 in
  let r16 := approve_token app14 "tokeny"%string "alice"%string 100000000 in
  let app17 := after app14 r16 in
  let! r18 := r16 in
  let! r19 := pool_key_new "tokenx"%string "tokeny"%string r6 in
  let! r20 := query_pool (st app17) "tokenx"%string "tokeny"%string r6 in
  let r21 := call app17 "alice"%string (CreatePosition r19 (-10) 10 100 (p_price r20) 340282366920938463463374607431768211455) in
  let app22 := after app17 r21 in
  let! r23 := r21 in
  let! r24 := get_position (st app22) "alice"%string 0 in
  let r25 := call app22 "alice"%string (CreatePosition r19 (-10) 10 100 (p_price r20) 340282366920938463463374607431768211455) in
  let app26 := after app22 r25 in
  let! r27 := r25 in
  let! r28 := get_position (st app26) "alice"%string 1 in
  let r29 := call app26 "alice"%string (CreatePosition r19 (-10) 10 100 (p_price r20) 340282366920938463463374607431768211455) in
  let app30 := after app26 r29 in
  let! r31 := r29 in
  let! r32 := get_position (st app30) "alice"%string 2 in
  assert (((po_lower r24) =? (po_lower r28)) = true);
  assert (((po_upper r24) =? (po_upper r28)) = true);
  assert (((po_lower r24) =? (po_lower r32)) = true);
  assert (((po_upper r24) =? (po_upper r32)) = true);
  let! r33 := query_pool (st app30) "tokenx"%string "tokeny"%string r6 in
  let! r34 := get_tick (st app30) r19 (-10) in
  let! r35 := get_tick (st app30) r19 10 in
  assert (((t_index r34) =? (-10)) = true);
  assert (((t_index r35) =? 10) = true);
  assert ((t_gross r34) = 300);
  assert ((t_gross r35) = 300);
  assert ((t_change r34) = 300);
  assert ((t_change r35) = 300);
  assert ((t_sign r34) = true);
  assert ((negb (t_sign r35)) = true);
  assert ((p_liq r33) = 300);
  assert (((p_tick r33) =? 0) = true);
  assert ((bool_decide ((po_key r24) = r19)) = true);
  assert (((po_liq r24) =? 100) = true);
  assert (((po_lower r24) =? (-10)) = true);
  assert (((po_upper r24) =? 10) = true);
  assert (((po_fgx r24) =? 0) = true);
  assert (((po_fgy r24) =? 0) = true);
  assert ((bool_decide ((po_key r28) = r19)) = true);
  assert (((po_liq r28) =? 100) = true);
  assert (((po_lower r28) =? (-10)) = true);
  assert (((po_upper r28) =? 10) = true);
  assert (((po_fgx r28) =? 0) = true);
  assert (((po_fgy r28) =? 0) = true);
  assert ((bool_decide ((po_key r32) = r19)) = true);
  assert (((po_liq r32) =? 100) = true);
  assert (((po_lower r32) =? (-10)) = true);
  assert (((po_upper r32) =? 10) = true);
  assert (((po_fgx r32) =? 0) = true);
  assert (((po_fgy r32) =? 0) = true);
  let! r36 := query_pool (st app30) "tokenx"%string "tokeny"%string r6 in
  let r37 := call app30 "alice"%string (CreatePosition r19 (-10) 10 100 (p_price r36) 340282366920938463463374607431768211455) in
  let app38 := after app30 r37 in
  let! r39 := r37 in
  let! r40 := get_position (st app38) "alice"%string 3 in
  assert ((bool_decide ((po_key r40) = r19)) = true);
  assert (((po_liq r40) =? 100) = true);
  assert (((po_lower r40) =? (-10)) = true);
  assert (((po_upper r40) =? 10) = true);
  assert (((po_fgx r40) =? 0) = true);
  assert (((po_fgy r40) =? 0) = true);
  let r41 := call app38 "alice"%string (CreatePosition r19 (-20) (-10) 100 (p_price r36) 340282366920938463463374607431768211455) in
  let app42 := after app38 r41 in
  let! r43 := r41 in
  let! r44 := get_position (st app42) "alice"%string 4 in
  assert ((bool_decide ((po_key r44) = r19)) = true);
  assert (((po_liq r44) =? 100) = true);
  assert (((po_lower r44) =? (-20)) = true);
  assert (((po_upper r44) =? (-10)) = true);
  assert (((po_fgx r44) =? 0) = true);
  assert (((po_fgy r44) =? 0) = true);
  let r45 := call app42 "alice"%string (CreatePosition r19 10 20 100 (p_price r36) 340282366920938463463374607431768211455) in
  let app46 := after app42 r45 in
  let! r47 := r45 in
  let! r48 := get_position (st app46) "alice"%string 5 in
  assert ((bool_decide ((po_key r48) = r19)) = true);
  assert (((po_liq r48) =? 100) = true);
  assert (((po_lower r48) =? 10) = true);
  assert (((po_upper r48) =? 20) = true);
  assert (((po_fgx r48) =? 0) = true);
  assert (((po_fgy r48) =? 0) = true);
  let! r49 := query_pool (st app46) "tokenx"%string "tokeny"%string r6 in
  let! r50 := get_tick (st app46) r19 (-20) in
  let! r51 := get_tick (st app46) r19 (-10) in
  let! r52 := get_tick (st app46) r19 10 in
  let! r53 := get_tick (st app46) r19 20 in
  let! r54 := query_is_tick_initialized (st app46) r19 (-20) in
  let! r55 := query_is_tick_initialized (st app46) r19 (-10) in
  let! r56 := query_is_tick_initialized (st app46) r19 20 in
  assert ((t_index r50) = (-20));
  assert ((t_gross r50) = 100);
  assert ((t_change r50) = 100);
  assert ((t_sign r50) = true);
  assert (r54 = true);
  assert ((t_index r51) = (-10));
  assert ((t_gross r51) = 500);
  assert ((t_change r51) = 300);
  assert ((t_sign r51) = true);
  assert (r55 = true);
  assert ((t_index r52) = 10);
  assert ((t_gross r52) = 500);
  assert ((t_change r52) = 300);
  assert ((negb (t_sign r52)) = true);
  assert (r56 = true);
  assert ((t_index r53) = 20);
  assert ((t_gross r53) = 100);
  assert ((t_change r53) = 100);
  assert ((negb (t_sign r53)) = true);
  assert (r56 = true);
  assert ((p_liq r49) = 400);
  assert (((p_tick r49) =? 0) = true);
  True.
Proof. replay. Qed.

(** /repo/contracts/oraiswap-v3/src/tests/position_slippage.rs *)
Example t_position_slippage_position_slippage_zero_slippage_and_inside_range :
  let app0 := fresh_app in
  let! r2 := create_dex app0 "alice"%string 10000000000 in
  let app3 := (create_token r2 "tokenx"%string "alice"%string 100000000000000000000000) in
  let app4 := (create_token app3 "tokeny"%string "alice"%string 100000000000000000000000) in
  let fee_tier5 := (mkFeeTier 6000000000 10) in
  let r6 := call app4 "alice"%string (AddFeeTier fee_tier5) in
  let app7 := after app4 r6 in
  let! r8 := r6 in
  let! r9 := calculate_sqrt_price 0 in
  let r10 := call app7 "alice"%string (CreatePool "tokenx"%string "tokeny"%string fee_tier5 r9 0) in
  let app11 := after app7 r10 in
  let! r12 := r10 in
  let r13 := approve_token app11 "tokenx"%string "alice"%string 10000000000 in
  let app14 := after app11 r13 in
  let! r15 := r13 in
  let r16 := approve_token app14 "tokeny"%string "alice"%string 10000000000 in
  let app17 := after app14 r16 in
  let! r18 := r16 in
  let! r19 := pool_key_new "tokenx"%string "tokeny"%string fee_tier5 in
  let! r20 := query_pool (st app17) "tokenx"%string "tokeny"%string fee_tier5 in
  let slippage_limit_lower21 := (p_price r20) in
  let slippage_limit_upper22 := (p_price r20) in
  let r23 := call app17 "alice"%string (CreatePosition r19 (-1000) 1000 10000000000000000 slippage_limit_lower21 slippage_limit_upper22) in
  let app24 := after app17 r23 in
  let! r25 := r23 in
  let! r26 := query_pool (st app24) "tokenx"%string "tokeny"%string fee_tier5 in
  assert ((p_liq r26) = 10000000000000000);
  let! r27 := query_pool (st app24) "tokenx"%string "tokeny"%string (pk_tier r19) in
  let known_price28 := (p_price r27) in
  let tick29 := (ft_spacing (pk_tier r19)) in
  let r30 := call app24 "alice"%string (CreatePosition r19 (- tick29) tick29 1000000000000 known_price28 known_price28) in
  let app31 := after app24 r30 in
  let! r32 := r30 in
  let tick33 := (ft_spacing (pk_tier r19)) in
  let r34 := call app31 "alice"%string (CreatePosition r19 (- tick33) tick33 1000000000000 994734637981406576896367 1025038048074314166333500) in
  let app35 := after app31 r34 in
  let! r36 := r34 in
  True.
Proof. replay. Qed.

Example t_position_slippage_position_slippage_below_range :
  let app0 := fresh_app in
  let! r2 := create_dex app0 "alice"%string 10000000000 in
  let app3 := (create_token r2 "tokenx"%string "alice"%string 100000000000000000000000) in
  let app4 := (create_token app3 "tokeny"%string "alice"%string 100000000000000000000000) in
  let fee_tier5 := (mkFeeTier 6000000000 10) in
  let r6 := call app4 "alice"%string (AddFeeTier fee_tier5) in
  let app7 := after app4 r6 in
  let! r8 := r6 in
  let! r9 := calculate_sqrt_price 0 in
  let r10 := call app7 "alice"%string (CreatePool "tokenx"%string "tokeny"%string fee_tier5 r9 0) in
  let app11 := after app7 r10 in
  let! r12 := r10 in
  let r13 := approve_token app11 "tokenx"%string "alice"%string 10000000000 in
  let app14 := after app11 r13 in
  let! r15 := r13 in
  let r16 := approve_token app14 "tokeny"%string "alice"%string 10000000000 in
  let app17 := after app14 r16 in
  let! r18 := r16 in
  let! r19 := pool_key_new "tokenx"%string "tokeny"%string fee_tier5 in
  let! r20 := query_pool (st app17) "tokenx"%string "tokeny"%string fee_tier5 in
  let slippage_limit_lower21 := (p_price r20) in
  let slippage_limit_upper22 := (p_price r20) in
  let r23 := call app17 "alice"%string (CreatePosition r19 (-1000) 1000 10000000000000000 slippage_limit_lower21 slippage_limit_upper22) in
  let app24 := after app17 r23 in
  let! r25 := r23 in
  let! r26 := query_pool (st app24) "tokenx"%string "tokeny"%string fee_tier5 in
  assert ((p_liq r26) = 10000000000000000);
  let! r27 := query_pool (st app24) "tokenx"%string "tokeny"%string (pk_tier r19) in
  let tick28 := (ft_spacing (pk_tier r19)) in
  let r29 := call app24 "alice"%string (CreatePosition r19 (- tick28) tick28 1000000000000 1014432353584998786339859 1045335831204498605270797) in
  let app30 := after app24 r29 in
  refused (r29);
  True.
Proof. replay. Qed.

Example t_position_slippage_position_slippage_above_range :
  let app0 := fresh_app in
  let! r2 := create_dex app0 "alice"%string 10000000000 in
  let app3 := (create_token r2 "tokenx"%string "alice"%string 100000000000000000000000) in
  let app4 := (create_token app3 "tokeny"%string "alice"%string 100000000000000000000000) in
  let fee_tier5 := (mkFeeTier 6000000000 10) in
  let r6 := call app4 "alice"%string (AddFeeTier fee_tier5) in
  let app7 := after app4 r6 in
  let! r8 := r6 in
  let! r9 := calculate_sqrt_price 0 in
  let r10 := call app7 "alice"%string (CreatePool "tokenx"%string "tokeny"%string fee_tier5 r9 0) in
  let app11 := after app7 r10 in
  let! r12 := r10 in
  let r13 := approve_token app11 "tokenx"%string "alice"%string 10000000000 in
  let app14 := after app11 r13 in
  let! r15 := r13 in
  let r16 := approve_token app14 "tokeny"%string "alice"%string 10000000000 in
  let app17 := after app14 r16 in
  let! r18 := r16 in
  let! r19 := pool_key_new "tokenx"%string "tokeny"%string fee_tier5 in
  let! r20 := query_pool (st app17) "tokenx"%string "tokeny"%string fee_tier5 in
  let slippage_limit_lower21 := (p_price r20) in
  let slippage_limit_upper22 := (p_price r20) in
  let r23 := call app17 "alice"%string (CreatePosition r19 (-1000) 1000 10000000000000000 slippage_limit_lower21 slippage_limit_upper22) in
  let app24 := after app17 r23 in
  let! r25 := r23 in
  let! r26 := query_pool (st app24) "tokenx"%string "tokeny"%string fee_tier5 in
  assert ((p_liq r26) = 10000000000000000);
  let! r27 := query_pool (st app24) "tokenx"%string "tokeny"%string (pk_tier r19) in
  let tick28 := (ft_spacing (pk_tier r19)) in
  let r29 := call app24 "alice"%string (CreatePosition r19 (- tick28) tick28 1000000000000 955339206774222158009382 984442481813945288458906) in
  let app30 := after app24 r29 in
  refused (r29);
  True.
Proof. replay. Qed.

(** /repo/contracts/oraiswap-v3/src/tests/protocol_fee.rs *)
Example t_protocol_fee_protocol_fee :
  let app0 := fresh_app in
  let app1 := (create_token app0 "tokenx"%string "alice"%string 10000000000) in
  let app2 := (create_token app1 "tokeny"%string "alice"%string 10000000000) in
  let! r4 := create_dex app2 "alice"%string 10000000000 in
  let fee_tier5 := (mkFeeTier 6000000000 10) in
  let r6 := call r4 "alice"%string (AddFeeTier fee_tier5) in
  let app7 := after r4 r6 in
  let! r8 := r6 in
  let! r9 := calculate_sqrt_price 0 in
  let r10 := call app7 "alice"%string (CreatePool "tokenx"%string "tokeny"%string fee_tier5 r9 0) in
  let app11 := after app7 r10 in
  let! r12 := r10 in
  let fee_tier13 := (mkFeeTier 6000000000 10) in
  let r14 := approve_token app11 "tokenx"%string "alice"%string 10000000000 in
  let app15 := after app11 r14 in
  let! r16 := r14 in
  let r17 := approve_token app15 "tokeny"%string "alice"%string 10000000000 in
  let app18 := after app15 r17 in
  let! r19 := r17 in
  let! r20 := pool_key_new "tokenx"%string "tokeny"%string fee_tier13 in
  let! r21 := query_pool (st app18) "tokenx"%string "tokeny"%string fee_tier13 in
  let slippage_limit_lower22 := (p_price r21) in
  let slippage_limit_upper23 := (p_price r21) in
  let r24 := call app18 "alice"%string (CreatePosition r20 (-20) 10 1000000000000 slippage_limit_lower22 slippage_limit_upper23) in
  let app25 := after app18 r24 in
  let! r26 := r24 in
  let! r27 := query_pool (st app25) "tokenx"%string "tokeny"%string fee_tier13 in
  assert ((p_liq r27) = 1000000000000);
  let fee_tier28 := (mkFeeTier 6000000000 10) in
  let! r29 := pool_key_new "tokenx"%string "tokeny"%string fee_tier28 in
  let r30 := mint_token app25 "tokenx"%string "bob"%string 1000 in
  let app31 := after app25 r30 in
  let! r32 := r30 in
  let amount_x33 := (balance app31 "tokenx"%string "bob"%string) in
  assert (amount_x33 = 1000);
  let r34 := approve_token app31 "tokenx"%string "bob"%string 1000 in
  let app35 := after app31 r34 in
  let! r36 := r34 in
  let amount_x37 := (balance app35 "tokenx"%string "dex"%string) in
  let amount_y38 := (balance app35 "tokeny"%string "dex"%string) in
  assert (amount_x37 = 500);
  assert (amount_y38 = 1000);
  let! r39 := query_pool (st app35) "tokenx"%string "tokeny"%string (pk_tier r29) in
  let r40 := call app35 "bob"%string (Swap r29 true 1000 true 15258932000000000000) in
  let app41 := after app35 r40 in
  let! r42 := r40 in
  let! r43 := query_pool (st app41) "tokenx"%string "tokeny"%string fee_tier28 in
  assert ((p_liq r43) = (p_liq r39));
  assert ((p_tick r43) = (-20));
  assert ((p_price r43) <> (p_price r39));
  let amount_x44 := (balance app41 "tokenx"%string "bob"%string) in
  let amount_y45 := (balance app41 "tokeny"%string "bob"%string) in
  assert (amount_x44 = 0);
  assert (amount_y45 = 993);
  let amount_x46 := (balance app41 "tokenx"%string "dex"%string) in
  let amount_y47 := (balance app41 "tokeny"%string "dex"%string) in
  assert (amount_x46 = 1500);
  assert (amount_y47 = 7);
  assert ((p_fgx r43) = 50000000000000000000000);
  assert ((p_fgy r43) = 0);
  assert ((p_protx r43) = 1);
  assert ((p_proty r43) = 0);
  let! r48 := sdk_new_fee_tier 6000000000 10 in
  let! r49 := pool_key_new "tokenx"%string "tokeny"%string r48 in
  let r50 := call app41 "alice"%string (WithdrawProtocolFee r49) in
  let app51 := after app41 r50 in
  let! r52 := r50 in
  let amount_x53 := (balance app51 "tokenx"%string "alice"%string) in
  let amount_y54 := (balance app51 "tokeny"%string "alice"%string) in
  assert (amount_x53 = 9999999501);
  assert (amount_y54 = 9999999000);
  let amount_x55 := (balance app51 "tokenx"%string "dex"%string) in
  let amount_y56 := (balance app51 "tokeny"%string "dex"%string) in
  assert (amount_x55 = 1499);
  assert (amount_y56 = 7);
  let! r57 := query_pool (st app51) "tokenx"%string "tokeny"%string r48 in
  assert ((p_protx r57) = 0);
  assert ((p_proty r57) = 0);
  True.
Proof. replay. Qed.

Example t_protocol_fee_protocol_fee_not_admin :
  let app0 := fresh_app in
  let app1 := (create_token app0 "tokenx"%string "alice"%string 10000000000) in
  let app2 := (create_token app1 "tokeny"%string "alice"%string 10000000000) in
  let! r4 := create_dex app2 "alice"%string 10000000000 in
  let fee_tier5 := (mkFeeTier 6000000000 10) in
  let r6 := call r4 "alice"%string (AddFeeTier fee_tier5) in
  let app7 := after r4 r6 in
  let! r8 := r6 in
  let! r9 := calculate_sqrt_price 0 in
  let r10 := call app7 "alice"%string (CreatePool "tokenx"%string "tokeny"%string fee_tier5 r9 0) in
  let app11 := after app7 r10 in
  let! r12 := r10 in
  let fee_tier13 := (mkFeeTier 6000000000 10) in
  let r14 := approve_token app11 "tokenx"%string "alice"%string 10000000000 in
  let app15 := after app11 r14 in
  let! r16 := r14 in
  let r17 := approve_token app15 "tokeny"%string "alice"%string 10000000000 in
  let app18 := after app15 r17 in
  let! r19 := r17 in
  let! r20 := pool_key_new "tokenx"%string "tokeny"%string fee_tier13 in
  let! r21 := query_pool (st app18) "tokenx"%string "tokeny"%string fee_tier13 in
  let slippage_limit_lower22 := (p_price r21) in
  let slippage_limit_upper23 := (p_price r21) in
  let r24 := call app18 "alice"%string (CreatePosition r20 (-20) 10 1000000000000 slippage_limit_lower22 slippage_limit_upper23) in
  let app25 := after app18 r24 in
  let! r26 := r24 in
  let! r27 := query_pool (st app25) "tokenx"%string "tokeny"%string fee_tier13 in
  assert ((p_liq r27) = 1000000000000);
  let fee_tier28 := (mkFeeTier 6000000000 10) in
  let! r29 := pool_key_new "tokenx"%string "tokeny"%string fee_tier28 in
  let r30 := mint_token app25 "tokenx"%string "bob"%string 1000 in
  let app31 := after app25 r30 in
  let! r32 := r30 in
  let amount_x33 := (balance app31 "tokenx"%string "bob"%string) in
  assert (amount_x33 = 1000);
  let r34 := approve_token app31 "tokenx"%string "bob"%string 1000 in
  let app35 := after app31 r34 in
  let! r36 := r34 in
  let amount_x37 := (balance app35 "tokenx"%string "dex"%string) in
  let amount_y38 := (balance app35 "tokeny"%string "dex"%string) in
  assert (amount_x37 = 500);
  assert (amount_y38 = 1000);
  let! r39 := query_pool (st app35) "tokenx"%string "tokeny"%string (pk_tier r29) in
  let r40 := call app35 "bob"%string (Swap r29 true 1000 true 15258932000000000000) in
  let app41 := after app35 r40 in
  let! r42 := r40 in
  let! r43 := query_pool (st app41) "tokenx"%string "tokeny"%string fee_tier28 in
  assert ((p_liq r43) = (p_liq r39));
  assert ((p_tick r43) = (-20));
  assert ((p_price r43) <> (p_price r39));
  let amount_x44 := (balance app41 "tokenx"%string "bob"%string) in
  let amount_y45 := (balance app41 "tokeny"%string "bob"%string) in
  assert (amount_x44 = 0);
  assert (amount_y45 = 993);
  let amount_x46 := (balance app41 "tokenx"%string "dex"%string) in
  let amount_y47 := (balance app41 "tokeny"%string "dex"%string) in
  assert (amount_x46 = 1500);
  assert (amount_y47 = 7);
  assert ((p_fgx r43) = 50000000000000000000000);
  assert ((p_fgy r43) = 0);
  assert ((p_protx r43) = 1);
  assert ((p_proty r43) = 0);
  let! r48 := pool_key_new "tokenx"%string "tokeny"%string (mkFeeTier 6000000000 10) in
  let r49 := call app41 "bob"%string (WithdrawProtocolFee r48) in
  let app50 := after app41 r49 in
  refused (r49);
  True.
Proof. replay. Qed.

Example t_protocol_fee_withdraw_fee_not_deployer :
  let app0 := fresh_app in
  let app1 := (create_token app0 "tokenx"%string "alice"%string 10000000000) in
  let app2 := (create_token app1 "tokeny"%string "alice"%string 10000000000) in
  let! r4 := create_dex app2 "alice"%string 10000000000 in
  let fee_tier5 := (mkFeeTier 6000000000 10) in
  let r6 := call r4 "alice"%string (AddFeeTier fee_tier5) in
  let app7 := after r4 r6 in
  let! r8 := r6 in
  let! r9 := calculate_sqrt_price 0 in
  let r10 := call app7 "alice"%string (CreatePool "tokenx"%string "tokeny"%string fee_tier5 r9 0) in
  let app11 := after app7 r10 in
  let! r12 := r10 in
  let fee_tier13 := (mkFeeTier 6000000000 10) in
  let r14 := approve_token app11 "tokenx"%string "alice"%string 10000000000 in
  let app15 := after app11 r14 in
  let! r16 := r14 in
  let r17 := approve_token app15 "tokeny"%string "alice"%string 10000000000 in
  let app18 := after app15 r17 in
  let! r19 := r17 in
  let! r20 := pool_key_new "tokenx"%string "tokeny"%string fee_tier13 in
  let! r21 := query_pool (st app18) "tokenx"%string "tokeny"%string fee_tier13 in
  let slippage_limit_lower22 := (p_price r21) in
  let slippage_limit_upper23 := (p_price r21) in
  let r24 := call app18 "alice"%string (CreatePosition r20 (-20) 10 1000000000000 slippage_limit_lower22 slippage_limit_upper23) in
  let app25 := after app18 r24 in
  let! r26 := r24 in
  let! r27 := query_pool (st app25) "tokenx"%string "tokeny"%string fee_tier13 in
  assert ((p_liq r27) = 1000000000000);
  let fee_tier28 := (mkFeeTier 6000000000 10) in
  let! r29 := pool_key_new "tokenx"%string "tokeny"%string fee_tier28 in
  let r30 := mint_token app25 "tokenx"%string "bob"%string 1000 in
  let app31 := after app25 r30 in
  let! r32 := r30 in
  let amount_x33 := (balance app31 "tokenx"%string "bob"%string) in
  assert (amount_x33 = 1000);
  let r34 := approve_token app31 "tokenx"%string "bob"%string 1000 in
  let app35 := after app31 r34 in
  let! r36 := r34 in
  let amount_x37 := (balance app35 "tokenx"%string "dex"%string) in
  let amount_y38 := (balance app35 "tokeny"%string "dex"%string) in
  assert (amount_x37 = 500);
  assert (amount_y38 = 1000);
  let! r39 := query_pool (st app35) "tokenx"%string "tokeny"%string (pk_tier r29) in
  let r40 := call app35 "bob"%string (Swap r29 true 1000 true 15258932000000000000) in
  let app41 := after app35 r40 in
  let! r42 := r40 in
  let! r43 := query_pool (st app41) "tokenx"%string "tokeny"%string fee_tier28 in
  assert ((p_liq r43) = (p_liq r39));
  assert ((p_tick r43) = (-20));
  assert ((p_price r43) <> (p_price r39));
  let amount_x44 := (balance app41 "tokenx"%string "bob"%string) in
  let amount_y45 := (balance app41 "tokeny"%string "bob"%string) in
  assert (amount_x44 = 0);
  assert (amount_y45 = 993);
  let amount_x46 := (balance app41 "tokenx"%string "dex"%string) in
  let amount_y47 := (balance app41 "tokeny"%string "dex"%string) in
  assert (amount_x46 = 1500);
  assert (amount_y47 = 7);
  assert ((p_fgx r43) = 50000000000000000000000);
  assert ((p_fgy r43) = 0);
  assert ((p_protx r43) = 1);
  assert ((p_proty r43) = 0);
  let! r48 := sdk_new_fee_tier 6000000000 10 in
  let! r49 := pool_key_new "tokenx"%string "tokeny"%string r48 in
  let r50 := call app41 "alice"%string (ChangeFeeReceiver r49 "bob"%string) in
  let app51 := after app41 r50 in
  let! r52 := r50 in
  let! r53 := query_pool (st app51) "tokenx"%string "tokeny"%string r48 in
  assert ((p_receiver r53) = "bob"%string);
  let r54 := call app51 "bob"%string (WithdrawProtocolFee r49) in
  let app55 := after app51 r54 in
  let! r56 := r54 in
  let amount_x57 := (balance app55 "tokenx"%string "bob"%string) in
  let amount_y58 := (balance app55 "tokeny"%string "bob"%string) in
  assert (amount_x57 = 1);
  assert (amount_y58 = 993);
  let amount_x59 := (balance app55 "tokenx"%string "dex"%string) in
  let amount_y60 := (balance app55 "tokeny"%string "dex"%string) in
  assert (amount_x59 = 1499);
  assert (amount_y60 = 7);
  let! r61 := query_pool (st app55) "tokenx"%string "tokeny"%string r48 in
  assert ((p_protx r61) = 0);
  assert ((p_proty r61) = 0);
  True.
Proof. replay. Qed.

(** /repo/contracts/oraiswap-v3/src/tests/remove_fee_tier.rs *)
Example t_remove_fee_tier_remove_fee_tier :
  let app0 := fresh_app in
  let! r2 := create_dex app0 "alice"%string 0 in
  let! r3 := sdk_new_fee_tier 200000000 1 in
  let r4 := call r2 "alice"%string (AddFeeTier r3) in
  let app5 := after r2 r4 in
  let! r6 := r4 in
  let! r7 := sdk_new_fee_tier 200000000 2 in
  let r8 := call app5 "alice"%string (AddFeeTier r7) in
  let app9 := after app5 r8 in
  let! r10 := r8 in
  let r11 := call app9 "alice"%string (RemoveFeeTier r7) in
  let app12 := after app9 r11 in
  let! r13 := r11 in
  let! r14 := sdk_new_fee_tier 200000000 2 in
  let exist15 := (query_fee_tier_exist (st app12) r14) in
  assert ((negb exist15) = true);
  True.
Proof. replay. Qed.

Example t_remove_fee_tier_remove_not_existing_fee_tier :
  let app0 := fresh_app in
  let! r2 := create_dex app0 "alice"%string 0 in
  let! r3 := sdk_new_fee_tier 200000000 1 in
  let r4 := call r2 "alice"%string (AddFeeTier r3) in
  let app5 := after r2 r4 in
  let! r6 := r4 in
  let! r7 := sdk_new_fee_tier 200000000 2 in
  let r8 := call app5 "alice"%string (RemoveFeeTier r7) in
  let app9 := after app5 r8 in
  refused (r8);
  True.
Proof. replay. Qed.

Example t_remove_fee_tier_remove_fee_tier_not_admin :
  let app0 := fresh_app in
  let! r2 := create_dex app0 "alice"%string 0 in
  let! r3 := sdk_new_fee_tier 200000000 1 in
  let r4 := call r2 "alice"%string (AddFeeTier r3) in
  let app5 := after r2 r4 in
  let! r6 := r4 in
  let! r7 := sdk_new_fee_tier 200000000 2 in
  let r8 := call app5 "alice"%string (AddFeeTier r7) in
  let app9 := after app5 r8 in
  let! r10 := r8 in
  let r11 := call app9 "bob"%string (RemoveFeeTier r7) in
  let app12 := after app9 r11 in
  refused (r11);
  True.
Proof. replay. Qed.

(** /repo/contracts/oraiswap-v3/src/tests/slippage.rs *)
Example t_slippage_basic_slippage :
  let app0 := fresh_app in
  let! r2 := create_dex app0 "alice"%string 10000000000 in
  let app3 := (create_token r2 "tokenx"%string "alice"%string 100000000000000000000000) in
  let app4 := (create_token app3 "tokeny"%string "alice"%string 100000000000000000000000) in
  let fee_tier5 := (mkFeeTier 6000000000 10) in
  let r6 := call app4 "alice"%string (AddFeeTier fee_tier5) in
  let app7 := after app4 r6 in
  let! r8 := r6 in
  let! r9 := calculate_sqrt_price 0 in
  let r10 := call app7 "alice"%string (CreatePool "tokenx"%string "tokeny"%string fee_tier5 r9 0) in
  let app11 := after app7 r10 in
  let! r12 := r10 in
  let r13 := approve_token app11 "tokenx"%string "alice"%string 10000000000 in
  let app14 := after app11 r13 in
  let! r15 := r13 in
  let r16 := approve_token app14 "tokeny"%string "alice"%string 10000000000 in
  let app17 := after app14 r16 in
  let! r18 := r16 in
  let! r19 := pool_key_new "tokenx"%string "tokeny"%string fee_tier5 in
  let! r20 := query_pool (st app17) "tokenx"%string "tokeny"%string fee_tier5 in
  let slippage_limit_lower21 := (p_price r20) in
  let slippage_limit_upper22 := (p_price r20) in
  let r23 := call app17 "alice"%string (CreatePosition r19 (-1000) 1000 10000000000000000 slippage_limit_lower21 slippage_limit_upper22) in
  let app24 := after app17 r23 in
  let! r25 := r23 in
  let! r26 := query_pool (st app24) "tokenx"%string "tokeny"%string fee_tier5 in
  assert ((p_liq r26) = 10000000000000000);
  let r27 := approve_token app24 "tokenx"%string "alice"%string 100000000 in
  let app28 := after app24 r27 in
  let! r29 := r27 in
  let r30 := call app28 "alice"%string (Swap r19 false 100000000 true 1009940000000000000000001) in
  let app31 := after app28 r30 in
  let! r32 := r30 in
  let! r33 := query_pool (st app31) "tokenx"%string "tokeny"%string (pk_tier r19) in
  assert (1009940000000000000000000 = (p_price r33));
  True.
Proof. replay. Qed.

Example t_slippage_swap_close_to_limit :
  let app0 := fresh_app in
  let! r2 := create_dex app0 "alice"%string 10000000000 in
  let app3 := (create_token r2 "tokenx"%string "alice"%string 100000000000000000000000) in
  let app4 := (create_token app3 "tokeny"%string "alice"%string 100000000000000000000000) in
  let fee_tier5 := (mkFeeTier 6000000000 10) in
  let r6 := call app4 "alice"%string (AddFeeTier fee_tier5) in
  let app7 := after app4 r6 in
  let! r8 := r6 in
  let! r9 := calculate_sqrt_price 0 in
  let r10 := call app7 "alice"%string (CreatePool "tokenx"%string "tokeny"%string fee_tier5 r9 0) in
  let app11 := after app7 r10 in
  let! r12 := r10 in
  let r13 := approve_token app11 "tokenx"%string "alice"%string 10000000000 in
  let app14 := after app11 r13 in
  let! r15 := r13 in
  let r16 := approve_token app14 "tokeny"%string "alice"%string 10000000000 in
  let app17 := after app14 r16 in
  let! r18 := r16 in
  let! r19 := pool_key_new "tokenx"%string "tokeny"%string fee_tier5 in
  let! r20 := query_pool (st app17) "tokenx"%string "tokeny"%string fee_tier5 in
  let slippage_limit_lower21 := (p_price r20) in
  let slippage_limit_upper22 := (p_price r20) in
  let r23 := call app17 "alice"%string (CreatePosition r19 (-1000) 1000 10000000000000000 slippage_limit_lower21 slippage_limit_upper22) in
  let app24 := after app17 r23 in
  let! r25 := r23 in
  let! r26 := query_pool (st app24) "tokenx"%string "tokeny"%string fee_tier5 in
  assert ((p_liq r26) = 10000000000000000);
  let r27 := approve_token app24 "tokenx"%string "alice"%string 100000000 in
  let app28 := after app24 r27 in
  let! r29 := r27 in
  let! r30 := query_quote (env_of app28) (st app28) r19 false 100000000 true 65535383934512647000000000000 in
  let quoted_target_sqrt_price31 := (q_target r30) in
  let target_sqrt_price32 := (quoted_target_sqrt_price31 - 1) in
  let r33 := call app28 "alice"%string (Swap r19 false 100000000 true target_sqrt_price32) in
  let app34 := after app28 r33 in
  refused (r33);
  True.
Proof. replay. Qed.

Example t_slippage_swap_exact_limit :
  let app0 := fresh_app in
  let! r2 := create_dex app0 "alice"%string 10000000000 in
  let app3 := (create_token r2 "tokenx"%string "alice"%string 10000000000) in
  let app4 := (create_token app3 "tokeny"%string "alice"%string 10000000000) in
  let fee_tier5 := (mkFeeTier 6000000000 10) in
  let r6 := call app4 "alice"%string (AddFeeTier fee_tier5) in
  let app7 := after app4 r6 in
  let! r8 := r6 in
  let! r9 := calculate_sqrt_price 0 in
  let r10 := call app7 "alice"%string (CreatePool "tokenx"%string "tokeny"%string fee_tier5 r9 0) in
  let app11 := after app7 r10 in
  let! r12 := r10 in
  let fee_tier13 := (mkFeeTier 6000000000 10) in
  let r14 := approve_token app11 "tokenx"%string "alice"%string 10000000000 in
  let app15 := after app11 r14 in
  let! r16 := r14 in
  let r17 := approve_token app15 "tokeny"%string "alice"%string 10000000000 in
  let app18 := after app15 r17 in
  let! r19 := r17 in
  let! r20 := pool_key_new "tokenx"%string "tokeny"%string fee_tier13 in
  let! r21 := query_pool (st app18) "tokenx"%string "tokeny"%string fee_tier13 in
  let slippage_limit_lower22 := (p_price r21) in
  let slippage_limit_upper23 := (p_price r21) in
  let r24 := call app18 "alice"%string (CreatePosition r20 (-20) 10 1000000000000 slippage_limit_lower22 slippage_limit_upper23) in
  let app25 := after app18 r24 in
  let! r26 := r24 in
  let! r27 := query_pool (st app25) "tokenx"%string "tokeny"%string fee_tier13 in
  assert ((p_liq r27) = 1000000000000);
  let! r28 := sdk_new_fee_tier 6000000000 10 in
  let! r29 := pool_key_new "tokenx"%string "tokeny"%string r28 in
  let r30 := mint_token app25 "tokenx"%string "bob"%string 1000 in
  let app31 := after app25 r30 in
  let! r32 := r30 in
  let amount_x33 := (balance app31 "tokenx"%string "bob"%string) in
  assert (amount_x33 = 1000);
  let r34 := approve_token app31 "tokenx"%string "bob"%string 1000 in
  let app35 := after app31 r34 in
  let! r36 := r34 in
  let! r37 := query_quote (env_of app35) (st app35) r29 true 1000 true 15258932000000000000 in
  let r38 := call app35 "bob"%string (Swap r29 true 1000 true (q_target r37)) in
  let app39 := after app35 r38 in
  let! r40 := r38 in
  True.
Proof. replay. Qed.

(** /repo/contracts/oraiswap-v3/src/tests/swap.rs *)
Example t_swap_swap_x_to_y :
  let app0 := fresh_app in
  let! r2 := create_dex app0 "alice"%string 6000000000 in
  let! r3 := sdk_new_fee_tier 6000000000 10 in
  let r4 := call r2 "alice"%string (AddFeeTier r3) in
  let app5 := after r2 r4 in
  let! r6 := r4 in
  let! r7 := calculate_sqrt_price 0 in
  let app8 := (create_token app5 "tokenx"%string "alice"%string 10000000000) in
  let app9 := (create_token app8 "tokeny"%string "alice"%string 10000000000) in
  let r10 := call app9 "alice"%string (CreatePool "tokenx"%string "tokeny"%string r3 r7 0) in
  let app11 := after app9 r10 in
  let! r12 := r10 in
  let r13 := approve_token app11 "tokenx"%string "alice"%string 10000000000 in
  let app14 := after app11 r13 in
  let! r15 := r13 in
  let r16 := approve_token app14 "tokeny"%string "alice"%string 10000000000 in
  let app17 := after app14 r16 in
  let! r18 := r16 in
  let! r19 := pool_key_new "tokenx"%string "tokeny"%string r3 in
  let r20 := call app17 "alice"%string (CreatePosition r19 (-20) 10 1000000000000 0 340282366920938463463374607431768211455) in
  let app21 := after app17 r20 in
  let! r22 := r20 in
  let r23 := call app21 "alice"%string (CreatePosition r19 (-40) (-10) 1000000000000 0 340282366920938463463374607431768211455) in
  let app24 := after app21 r23 in
  let! r25 := r23 in
  let! r26 := query_pool (st app24) "tokenx"%string "tokeny"%string r3 in
  assert ((p_liq r26) = 1000000000000);
  let r27 := mint_token app24 "tokenx"%string "bob"%string 1000 in
  let app28 := after app24 r27 in
  let! r29 := r27 in
  let r30 := approve_token app28 "tokenx"%string "bob"%string 1000 in
  let app31 := after app28 r30 in
  let! r32 := r30 in
  let! r33 := query_quote (env_of app31) (st app31) r19 true 1000 true 15258932000000000000 in
  let target_sqrt_price34 := (q_target r33) in
  let before_dex_x35 := (balance app31 "tokenx"%string "dex"%string) in
  let before_dex_y36 := (balance app31 "tokeny"%string "dex"%string) in
  let r37 := call app31 "bob"%string (Swap r19 true 1000 true target_sqrt_price34) in
  let app38 := after app31 r37 in
  let! r39 := r37 in
  let! r40 := query_pool (st app38) "tokenx"%string "tokeny"%string r3 in
  let! r41 := get_tick (st app38) r19 (-20) in
  let! r42 := get_tick (st app38) r19 (-10) in
  let! r43 := get_tick (st app38) r19 10 in
  let! r44 := query_is_tick_initialized (st app38) r19 (-20) in
  let! r45 := query_is_tick_initialized (st app38) r19 (-10) in
  let! r46 := query_is_tick_initialized (st app38) r19 10 in
  let bob_x47 := (balance app38 "tokenx"%string "bob"%string) in
  let bob_y48 := (balance app38 "tokeny"%string "bob"%string) in
  let dex_x49 := (balance app38 "tokenx"%string "dex"%string) in
  let dex_y50 := (balance app38 "tokeny"%string "dex"%string) in
  let delta_dex_y51 := (before_dex_y36 - dex_y50) in
  let delta_dex_x52 := (dex_x49 - before_dex_x35) in
  assert (bob_x47 = 0);
  assert (bob_y48 = 990);
  assert (delta_dex_x52 = 1000);
  assert (delta_dex_y51 = 990);
  assert ((p_fgy r40) = 0);
  assert ((p_fgx r40) = 40000000000000000000000);
  assert ((p_proty r40) = 0);
  assert ((p_protx r40) = 2);
  assert ((t_change r41) = 1000000000000);
  assert ((t_change r42) = 1000000000000);
  assert ((t_change r43) = 1000000000000);
  assert ((t_fox r43) = 0);
  assert ((t_fox r42) = 30000000000000000000000);
  assert ((t_fox r41) = 0);
  assert (r44 = true);
  assert (r45 = true);
  assert (r46 = true);
  True.
Proof. replay. Qed.

Example t_swap_swap_y_to_x :
  let app0 := fresh_app in
  let! r2 := create_dex app0 "alice"%string 6000000000 in
  let app3 := (create_token r2 "tokenx"%string "alice"%string 10000000000) in
  let app4 := (create_token app3 "tokeny"%string "alice"%string 10000000000) in
  let! r5 := sdk_new_fee_tier 6000000000 10 in
  let r6 := call app4 "alice"%string (AddFeeTier r5) in
  let app7 := after app4 r6 in
  let! r8 := r6 in
  let! r9 := calculate_sqrt_price 0 in
  let r10 := call app7 "alice"%string (CreatePool "tokenx"%string "tokeny"%string r5 r9 0) in
  let app11 := after app7 r10 in
  let! r12 := r10 in
  let r13 := approve_token app11 "tokenx"%string "alice"%string 10000000000 in
  let app14 := after app11 r13 in
  let! r15 := r13 in
  let r16 := approve_token app14 "tokeny"%string "alice"%string 10000000000 in
  let app17 := after app14 r16 in
  let! r18 := r16 in
  let! r19 := pool_key_new "tokenx"%string "tokeny"%string r5 in
  let r20 := call app17 "alice"%string (CreatePosition r19 (-10) 20 1000000000000 0 340282366920938463463374607431768211455) in
  let app21 := after app17 r20 in
  let! r22 := r20 in
  let r23 := call app21 "alice"%string (CreatePosition r19 10 40 1000000000000 0 340282366920938463463374607431768211455) in
  let app24 := after app21 r23 in
  let! r25 := r23 in
  let! r26 := query_pool (st app24) "tokenx"%string "tokeny"%string r5 in
  assert ((p_liq r26) = 1000000000000);
  let r27 := mint_token app24 "tokeny"%string "bob"%string 1000 in
  let app28 := after app24 r27 in
  let! r29 := r27 in
  let r30 := approve_token app28 "tokeny"%string "bob"%string 1000 in
  let app31 := after app28 r30 in
  let! r32 := r30 in
  let! r33 := query_quote (env_of app31) (st app31) r19 false 1000 true 65535383934512647000000000000 in
  let target_sqrt_price34 := (q_target r33) in
  let before_dex_x35 := (balance app31 "tokenx"%string "dex"%string) in
  let before_dex_y36 := (balance app31 "tokeny"%string "dex"%string) in
  let r37 := call app31 "bob"%string (Swap r19 false 1000 true target_sqrt_price34) in
  let app38 := after app31 r37 in
  let! r39 := r37 in
  let! r40 := query_pool (st app38) "tokenx"%string "tokeny"%string r5 in
  let! r41 := get_tick (st app38) r19 (-10) in
  let! r42 := get_tick (st app38) r19 10 in
  let! r43 := get_tick (st app38) r19 20 in
  let! r44 := query_is_tick_initialized (st app38) r19 (-10) in
  let! r45 := query_is_tick_initialized (st app38) r19 10 in
  let! r46 := query_is_tick_initialized (st app38) r19 20 in
  let bob_x47 := (balance app38 "tokenx"%string "bob"%string) in
  let bob_y48 := (balance app38 "tokeny"%string "bob"%string) in
  let dex_x49 := (balance app38 "tokenx"%string "dex"%string) in
  let dex_y50 := (balance app38 "tokeny"%string "dex"%string) in
  let delta_dex_x51 := (before_dex_x35 - dex_x49) in
  let delta_dex_y52 := (dex_y50 - before_dex_y36) in
  assert (bob_x47 = 990);
  assert (bob_y48 = 0);
  assert (delta_dex_x51 = 990);
  assert (delta_dex_y52 = 1000);
  assert ((p_fgx r40) = 0);
  assert ((p_fgy r40) = 40000000000000000000000);
  assert ((p_protx r40) = 0);
  assert ((p_proty r40) = 2);
  assert ((t_change r41) = 1000000000000);
  assert ((t_change r42) = 1000000000000);
  assert ((t_change r43) = 1000000000000);
  assert ((t_foy r43) = 0);
  assert ((t_foy r42) = 30000000000000000000000);
  assert ((t_foy r41) = 0);
  assert (r44 = true);
  assert (r45 = true);
  assert (r46 = true);
  True.
Proof. replay. Qed.

Example t_swap_swap_not_enough_liquidity_token_x :
  let app0 := fresh_app in
  let! r2 := create_dex app0 "alice"%string 6000000000 in
  let app3 := (create_token r2 "tokenx"%string "alice"%string 10000000000) in
  let app4 := (create_token app3 "tokeny"%string "alice"%string 10000000000) in
  let! r5 := sdk_new_fee_tier 6000000000 10 in
  let r6 := call app4 "alice"%string (AddFeeTier r5) in
  let app7 := after app4 r6 in
  let! r8 := r6 in
  let! r9 := calculate_sqrt_price 0 in
  let r10 := call app7 "alice"%string (CreatePool "tokenx"%string "tokeny"%string r5 r9 0) in
  let app11 := after app7 r10 in
  let! r12 := r10 in
  let r13 := approve_token app11 "tokenx"%string "alice"%string 10000000000 in
  let app14 := after app11 r13 in
  let! r15 := r13 in
  let r16 := approve_token app14 "tokeny"%string "alice"%string 10000000000 in
  let app17 := after app14 r16 in
  let! r18 := r16 in
  let! r19 := pool_key_new "tokenx"%string "tokeny"%string r5 in
  let r20 := call app17 "alice"%string (CreatePosition r19 (-10) 20 1000000000000 0 340282366920938463463374607431768211455) in
  let app21 := after app17 r20 in
  let! r22 := r20 in
  let r23 := call app21 "alice"%string (CreatePosition r19 10 40 1000000000000 0 340282366920938463463374607431768211455) in
  let app24 := after app21 r23 in
  let! r25 := r23 in
  let! r26 := query_pool (st app24) "tokenx"%string "tokeny"%string r5 in
  assert ((p_liq r26) = 1000000000000);
  let r27 := mint_token app24 "tokenx"%string "bob"%string 1000 in
  let app28 := after app24 r27 in
  let! r29 := r27 in
  let r30 := approve_token app28 "tokenx"%string "bob"%string 1000 in
  let app31 := after app28 r30 in
  let! r32 := r30 in
  let r33 := call app31 "bob"%string (Swap r19 true 1000 true 15258932000000000000) in
  let app34 := after app31 r33 in
  refused (r33);
  True.
Proof. replay. Qed.

Example t_swap_swap_not_enough_liquidity_token_y :
  let app0 := fresh_app in
  let! r2 := create_dex app0 "alice"%string 6000000000 in
  let app3 := (create_token r2 "tokenx"%string "alice"%string 10000000000) in
  let app4 := (create_token app3 "tokeny"%string "alice"%string 10000000000) in
  let! r5 := sdk_new_fee_tier 6000000000 10 in
  let r6 := call app4 "alice"%string (AddFeeTier r5) in
  let app7 := after app4 r6 in
  let! r8 := r6 in
  let! r9 := calculate_sqrt_price 0 in
  let r10 := call app7 "alice"%string (CreatePool "tokenx"%string "tokeny"%string r5 r9 0) in
  let app11 := after app7 r10 in
  let! r12 := r10 in
  let r13 := approve_token app11 "tokenx"%string "alice"%string 10000000000 in
  let app14 := after app11 r13 in
  let! r15 := r13 in
  let r16 := approve_token app14 "tokeny"%string "alice"%string 10000000000 in
  let app17 := after app14 r16 in
  let! r18 := r16 in
  let! r19 := pool_key_new "tokenx"%string "tokeny"%string r5 in
  let r20 := call app17 "alice"%string (CreatePosition r19 (-20) 10 1000000000000 0 340282366920938463463374607431768211455) in
  let app21 := after app17 r20 in
  let! r22 := r20 in
  let r23 := call app21 "alice"%string (CreatePosition r19 (-40) (-10) 1000000000000 0 340282366920938463463374607431768211455) in
  let app24 := after app21 r23 in
  let! r25 := r23 in
  let! r26 := query_pool (st app24) "tokenx"%string "tokeny"%string r5 in
  assert ((p_liq r26) = 1000000000000);
  let r27 := mint_token app24 "tokeny"%string "bob"%string 1000 in
  let app28 := after app24 r27 in
  let! r29 := r27 in
  let r30 := approve_token app28 "tokeny"%string "bob"%string 1000 in
  let app31 := after app28 r30 in
  let! r32 := r30 in
  let r33 := call app31 "bob"%string (Swap r19 false 1000 true 65535383934512647000000000000) in
  let app34 := after app31 r33 in
  refused (r33);
  True.
Proof. replay. Qed.

(** /repo/contracts/oraiswap-v3/src/tests/swap_route.rs *)
Example t_swap_route_swap_route :
  let app0 := fresh_app in
  let! r2 := create_dex app0 "alice"%string 6000000000 in
  let app3 := (create_token r2 "tokenx"%string "alice"%string 10000000000) in
  let app4 := (create_token app3 "tokeny"%string "alice"%string 10000000000) in
  let app5 := (create_token app4 "tokenz"%string "alice"%string 10000000000) in
  let r6 := approve_token app5 "tokenx"%string "alice"%string 10000000000 in
  let app7 := after app5 r6 in
  let! r8 := r6 in
  let r9 := approve_token app7 "tokeny"%string "alice"%string 10000000000 in
  let app10 := after app7 r9 in
  let! r11 := r9 in
  let r12 := approve_token app10 "tokenz"%string "alice"%string 10000000000 in
  let app13 := after app10 r12 in
  let! r14 := r12 in
  let r15 := mint_token app13 "tokenx"%string "bob"%string 1000 in
  let app16 := after app13 r15 in
  let! r17 := r15 in
  let r18 := approve_token app16 "tokenx"%string "bob"%string 1000 in
  let app19 := after app16 r18 in
  let! r20 := r18 in
  let r21 := approve_token app19 "tokeny"%string "bob"%string 10000000000 in
  let app22 := after app19 r21 in
  let! r23 := r21 in
  let! r24 := sdk_new_fee_tier 6000000000 1 in
  let r25 := call app22 "alice"%string (AddFeeTier r24) in
  let app26 := after app22 r25 in
  let! r27 := r25 in
  let! r28 := calculate_sqrt_price 0 in
  let r29 := call app26 "alice"%string (CreatePool "tokenx"%string "tokeny"%string r24 r28 0) in
  let app30 := after app26 r29 in
  let! r31 := r29 in
  let r32 := call app30 "alice"%string (CreatePool "tokeny"%string "tokenz"%string r24 r28 0) in
  let app33 := after app30 r32 in
  let! r34 := r32 in
  let! r35 := pool_key_new "tokenx"%string "tokeny"%string r24 in
  let! r36 := pool_key_new "tokeny"%string "tokenz"%string r24 in
  let! r37 := query_pool (st app33) "tokenx"%string "tokeny"%string r24 in
  let slippage_limit_lower38 := (p_price r37) in
  let slippage_limit_upper39 := (p_price r37) in
  let r40 := call app33 "alice"%string (CreatePosition r35 (-1) 1 9223372036854775807 slippage_limit_lower38 slippage_limit_upper39) in
  let app41 := after app33 r40 in
  let! r42 := r40 in
  let! r43 := query_pool (st app41) "tokeny"%string "tokenz"%string r24 in
  let slippage_limit_lower44 := (p_price r43) in
  let slippage_limit_upper45 := (p_price r43) in
  let r46 := call app41 "alice"%string (CreatePosition r36 (-1) 1 9223372036854775807 slippage_limit_lower44 slippage_limit_upper45) in
  let app47 := after app41 r46 in
  let! r48 := r46 in
  let! r49 := query_quote_route (env_of app47) (st app47) 1000 [(mkHop r35 true); (mkHop r36 true)] in
  let r50 := call app47 "bob"%string (SwapRoute 1000 r49 0 [(mkHop r35 true); (mkHop r36 true)]) in
  let app51 := after app47 r50 in
  let! r52 := r50 in
  let bob_amount_x53 := (balance app51 "tokenx"%string "bob"%string) in
  let bob_amount_y54 := (balance app51 "tokeny"%string "bob"%string) in
  let bob_amount_z55 := (balance app51 "tokenz"%string "bob"%string) in
  assert (bob_amount_x53 = 0);
  assert (bob_amount_y54 = 0);
  assert (bob_amount_z55 = 986);
  let! r56 := query_pool (st app51) "tokenx"%string "tokeny"%string r24 in
  assert ((p_protx r56) = 1);
  assert ((p_proty r56) = 0);
  let! r57 := query_pool (st app51) "tokeny"%string "tokenz"%string r24 in
  assert ((p_protx r57) = 1);
  assert ((p_proty r57) = 0);
  let alice_amount_x_before58 := (balance app51 "tokenx"%string "alice"%string) in
  let alice_amount_y_before59 := (balance app51 "tokeny"%string "alice"%string) in
  let alice_amount_z_before60 := (balance app51 "tokenz"%string "alice"%string) in
  let r61 := call app51 "alice"%string (ClaimFee 0) in
  let app62 := after app51 r61 in
  let! r63 := r61 in
  let r64 := call app62 "alice"%string (ClaimFee 1) in
  let app65 := after app62 r64 in
  let! r66 := r64 in
  let alice_amount_x_after67 := (balance app65 "tokenx"%string "alice"%string) in
  let alice_amount_y_after68 := (balance app65 "tokeny"%string "alice"%string) in
  let alice_amount_z_after69 := (balance app65 "tokenz"%string "alice"%string) in
  assert ((alice_amount_x_after67 - alice_amount_x_before58) = 4);
  assert ((alice_amount_y_after68 - alice_amount_y_before59) = 4);
  assert ((alice_amount_z_after69 - alice_amount_z_before60) = 0);
  True.
Proof. replay. Qed.
