(** Replay of the integration tests of contracts/oraiswap-v3/src/tests, add_fee_tier.rs to liquidity_gap.rs.
    Each example is one Rust test, translated mechanically: macros of helper.rs expanded, decimals as raw integers,
    loops unrolled, [unwrap] as [let!], [unwrap_err]/[is_err] as [refused], the assertions in their order.
    These are tests of the model against the expectations of the project, not proofs of properties.
    Left out here because checking them without the virtual machine takes long, though they pass: get_tickmap and
    get_tickmap_edge_ticks_intialized, max_tick_cross, get_position_ticks_limit.  Not translated: create_many_pools and
    the tests that create hundreds of positions to fill a query page (get_tickmap, get_liquidity_ticks), and the
    tests of the mock itself in helper.rs. *)
From Verif Require Import Base Decimal SqrtPrice Clamm Log FeeGrowth Types Tick Pool Position Tickmap Keys State Swap Exec Query Sdk Extra World Replay.
From stdpp Require Import gmap strings.
Open Scope Z_scope.

(** /repo/contracts/oraiswap-v3/src/tests/add_fee_tier.rs *)
Example t_add_fee_tier_add_multiple_fee_tiers :
  let app0 := fresh_app in
  let! r2 := create_dex app0 "alice"%string 0 in
  let! r3 := sdk_new_fee_tier 1 1 in
  let! r4 := sdk_new_fee_tier 1 2 in
  let! r5 := sdk_new_fee_tier 1 4 in
  let r6 := call r2 "alice"%string (AddFeeTier r3) in
  let app7 := after r2 r6 in
  let! r8 := r6 in
  let r9 := call app7 "alice"%string (AddFeeTier r4) in
  let app10 := after app7 r9 in
  let! r11 := r9 in
  let r12 := call app10 "alice"%string (AddFeeTier r5) in
  let app13 := after app10 r12 in
  let! r14 := r12 in
  let! r15 := Ok (query_fee_tiers (st app13)) in
  assert ((bool_decide (r3 ∈ r15)) = true);
  assert ((bool_decide (r4 ∈ r15)) = true);
  assert ((bool_decide (r5 ∈ r15)) = true);
  assert ((Z.of_nat (Datatypes.length r15)) = 3);
  True.
Proof. replay. Qed.

Example t_add_fee_tier_add_fee_tier_not_admin :
  let app0 := fresh_app in
  let! r2 := create_dex app0 "alice"%string 0 in
  let! r3 := sdk_new_fee_tier 1 1 in
  let r4 := call r2 "bob"%string (AddFeeTier r3) in
  let app5 := after r2 r4 in
  refused (r4);
  assert (true = true);
  True.
Proof. replay. Qed.

Example t_add_fee_tier_add_fee_tier_zero_fee :
  let app0 := fresh_app in
  let! r2 := create_dex app0 "alice"%string 0 in
  let! r3 := sdk_new_fee_tier 0 10 in
  let r4 := call r2 "alice"%string (AddFeeTier r3) in
  let app5 := after r2 r4 in
  assert ((is_ok (r4)) = true);
  True.
Proof. replay. Qed.

Example t_add_fee_tier_add_fee_tier_tick_spacing_zero :
  let app0 := fresh_app in
  let! r2 := create_dex app0 "alice"%string 0 in
  let fee_tier3 := (mkFeeTier 1 0) in
  let r4 := call r2 "alice"%string (AddFeeTier fee_tier3) in
  let app5 := after r2 r4 in
  refused (r4);
  assert (true = true);
  True.
Proof. replay. Qed.

Example t_add_fee_tier_add_fee_tier_over_upper_bound_tick_spacing :
  let app0 := fresh_app in
  let! r2 := create_dex app0 "alice"%string 0 in
  let fee_tier3 := (mkFeeTier 1 101) in
  let r4 := call r2 "alice"%string (AddFeeTier fee_tier3) in
  let app5 := after r2 r4 in
  refused (r4);
  assert (true = true);
  True.
Proof. replay. Qed.

Example t_add_fee_tier_add_fee_tier_fee_above_limit :
  let app0 := fresh_app in
  let! r2 := create_dex app0 "alice"%string 0 in
  let fee_tier3 := (mkFeeTier 1000000000000 10) in
  let r4 := call r2 "alice"%string (AddFeeTier fee_tier3) in
  let app5 := after r2 r4 in
  refused (r4);
  assert (true = true);
  True.
Proof. replay. Qed.

(** /repo/contracts/oraiswap-v3/src/tests/admin.rs *)
Example t_admin_change_admin :
  let app0 := fresh_app in
  let! r2 := create_dex app0 "alice"%string 0 in
  let! r3 := Ok (query_admin (st r2)) in
  assert (r3 = "alice"%string);
  let r4 := call r2 "alice"%string (ChangeAdmin "bob"%string) in
  let app5 := after r2 r4 in
  assert ((is_ok (r4)) = true);
  let! r6 := Ok (query_admin (st app5)) in
  assert (r6 = "bob"%string);
  True.
Proof. replay. Qed.

Example t_admin_change_admin_not_admin :
  let app0 := fresh_app in
  let! r2 := create_dex app0 "alice"%string 0 in
  let r3 := call r2 "bob"%string (ChangeAdmin "bob"%string) in
  let app4 := after r2 r3 in
  refused (r3);
  assert (true = true);
  True.
Proof. replay. Qed.

(** /repo/contracts/oraiswap-v3/src/tests/change_fee_receiver.rs *)
Example t_change_fee_receiver_change_fee_reciever :
  let app0 := fresh_app in
  let! r2 := create_dex app0 "alice"%string 0 in
  let app3 := (create_token r2 "tokenx"%string "alice"%string 500) in
  let app4 := (create_token app3 "tokeny"%string "alice"%string 500) in
  let! r5 := sdk_new_fee_tier 1 1 in
  let! r6 := calculate_sqrt_price 0 in
  let r7 := call app4 "alice"%string (AddFeeTier r5) in
  let app8 := after app4 r7 in
  let! r9 := r7 in
  let r10 := call app8 "alice"%string (CreatePool "tokenx"%string "tokeny"%string r5 r6 0) in
  let app11 := after app8 r10 in
  assert ((is_ok (r10)) = true);
  let! r12 := pool_key_new "tokenx"%string "tokeny"%string r5 in
  let r13 := call app11 "alice"%string (ChangeFeeReceiver r12 "alice"%string) in
  let app14 := after app11 r13 in
  assert ((is_ok (r13)) = true);
  let! r15 := query_pool (st app14) "tokenx"%string "tokeny"%string r5 in
  assert ((p_receiver r15) = "alice"%string);
  True.
Proof. replay. Qed.

Example t_change_fee_receiver_not_admin_change_fee_reciever :
  let app0 := fresh_app in
  let! r2 := create_dex app0 "alice"%string 0 in
  let app3 := (create_token r2 "tokenx"%string "alice"%string 500) in
  let app4 := (create_token app3 "tokeny"%string "alice"%string 500) in
  let! r5 := sdk_new_fee_tier 1 100 in
  let! r6 := calculate_sqrt_price 0 in
  let r7 := call app4 "alice"%string (AddFeeTier r5) in
  let app8 := after app4 r7 in
  assert ((is_ok (r7)) = true);
  let r9 := call app8 "alice"%string (CreatePool "tokenx"%string "tokeny"%string r5 r6 0) in
  let app10 := after app8 r9 in
  assert ((is_ok (r9)) = true);
  let! r11 := pool_key_new "tokenx"%string "tokeny"%string r5 in
  let r12 := call app10 "bob"%string (ChangeFeeReceiver r11 "bob"%string) in
  let app13 := after app10 r12 in
  refused (r12);
  assert (true = true);
  True.
Proof. replay. Qed.

(** /repo/contracts/oraiswap-v3/src/tests/change_protocol_fee.rs *)
Example t_change_protocol_fee_change_protocol_fee :
  let app0 := fresh_app in
  let! r2 := create_dex app0 "alice"%string 0 in
  let! r3 := Ok (query_protocol_fee (st r2)) in
  assert (r3 = 0);
  let r4 := call r2 "alice"%string (ChangeProtocolFee 1) in
  let app5 := after r2 r4 in
  assert ((is_ok (r4)) = true);
  let! r6 := Ok (query_protocol_fee (st app5)) in
  assert (r6 = 1);
  True.
Proof. replay. Qed.

Example t_change_protocol_fee_change_protocol_fee_not_admin :
  let app0 := fresh_app in
  let! r2 := create_dex app0 "alice"%string 0 in
  let r3 := call r2 "bob"%string (ChangeProtocolFee 1) in
  let app4 := after r2 r3 in
  refused (r3);
  assert (true = true);
  True.
Proof. replay. Qed.

(** /repo/contracts/oraiswap-v3/src/tests/claim.rs *)
Example t_claim_claim :
  let app0 := fresh_app in
  let app1 := (create_token app0 "tokenx"%string "alice"%string 10000000000) in
  let app2 := (create_token app1 "tokeny"%string "alice"%string 10000000000) in
  let! r4 := create_dex app2 "alice"%string 10000000000 in
  let fee_tier5 := (mkFeeTier 6000000000 10) in
  let r6 := call r4 "alice"%string (AddFeeTier fee_tier5) in
  let app7 := after r4 r6 in
  let! r8 := r6 in
  let! r9 := calculate_sqrt_price 0 in
  let r10 := call app7 "alice"%string (CreatePool "tokenx"%string "tokeny"%string fee_tier5 r9 0) in
  let app11 := after app7 r10 in
  let! r12 := r10 in
  let fee_tier13 := (mkFeeTier 6000000000 10) in
  let r14 := approve_token app11 "tokenx"%string "alice"%string 10000000000 in
  let app15 := after app11 r14 in
  let! r16 := r14 in
  let r17 := approve_token app15 "tokeny"%string "alice"%string 10000000000 in
  let app18 := after app15 r17 in
  let! r19 := r17 in
  let! r20 := pool_key_new "tokenx"%string "tokeny"%string fee_tier13 in
  let! r21 := query_pool (st app18) "tokenx"%string "tokeny"%string fee_tier13 in
  let slippage_limit_lower22 := (p_price r21) in
  let slippage_limit_upper23 := (p_price r21) in
  let r24 := call app18 "alice"%string (CreatePosition r20 (-20) 10 1000000000000 slippage_limit_lower22 slippage_limit_upper23) in
  let app25 := after app18 r24 in
  let! r26 := r24 in
  let! r27 := query_pool (st app25) "tokenx"%string "tokeny"%string fee_tier13 in
  assert ((p_liq r27) = 1000000000000);
  let fee_tier28 := (mkFeeTier 6000000000 10) in
  let! r29 := pool_key_new "tokenx"%string "tokeny"%string fee_tier28 in
  let r30 := mint_token app25 "tokenx"%string "bob"%string 1000 in
  let app31 := after app25 r30 in
  let! r32 := r30 in
  let amount_x33 := (balance app31 "tokenx"%string "bob"%string) in
  assert (amount_x33 = 1000);
  let r34 := approve_token app31 "tokenx"%string "bob"%string 1000 in
  let app35 := after app31 r34 in
  let! r36 := r34 in
  let amount_x37 := (balance app35 "tokenx"%string "dex"%string) in
  let amount_y38 := (balance app35 "tokeny"%string "dex"%string) in
  assert (amount_x37 = 500);
  assert (amount_y38 = 1000);
  let! r39 := query_pool (st app35) "tokenx"%string "tokeny"%string (pk_tier r29) in
  let r40 := call app35 "bob"%string (Swap r29 true 1000 true 15258932000000000000) in
  let app41 := after app35 r40 in
  let! r42 := r40 in
  let! r43 := query_pool (st app41) "tokenx"%string "tokeny"%string fee_tier28 in
  assert ((p_liq r43) = (p_liq r39));
  assert ((p_tick r43) = (-20));
  assert ((p_price r43) <> (p_price r39));
  let amount_x44 := (balance app41 "tokenx"%string "bob"%string) in
  let amount_y45 := (balance app41 "tokeny"%string "bob"%string) in
  assert (amount_x44 = 0);
  assert (amount_y45 = 993);
  let amount_x46 := (balance app41 "tokenx"%string "dex"%string) in
  let amount_y47 := (balance app41 "tokeny"%string "dex"%string) in
  assert (amount_x46 = 1500);
  assert (amount_y47 = 7);
  assert ((p_fgx r43) = 50000000000000000000000);
  assert ((p_fgy r43) = 0);
  assert ((p_protx r43) = 1);
  assert ((p_proty r43) = 0);
  let! r48 := sdk_new_fee_tier 6000000000 10 in
  let! r49 := query_pool (st app41) "tokenx"%string "tokeny"%string r48 in
  let user_amount_before_claim50 := (balance app41 "tokenx"%string "alice"%string) in
  let dex_amount_before_claim51 := (balance app41 "tokenx"%string "dex"%string) in
  let r52 := call app41 "alice"%string (ClaimFee 0) in
  let app53 := after app41 r52 in
  let! r54 := r52 in
  let user_amount_after_claim55 := (balance app53 "tokenx"%string "alice"%string) in
  let dex_amount_after_claim56 := (balance app53 "tokenx"%string "dex"%string) in
  let! r57 := get_position (st app53) "alice"%string 0 in
  assert ((user_amount_after_claim55 - 5) = user_amount_before_claim50);
  assert ((dex_amount_after_claim56 + 5) = dex_amount_before_claim51);
  assert ((po_fgx r57) = (p_fgx r49));
  assert ((po_owedx r57) = 0);
  True.
Proof. replay. Qed.

Example t_claim_claim_not_owner :
  let app0 := fresh_app in
  let app1 := (create_token app0 "tokenx"%string "alice"%string 10000000000) in
  let app2 := (create_token app1 "tokeny"%string "alice"%string 10000000000) in
  let! r4 := create_dex app2 "alice"%string 10000000000 in
  let fee_tier5 := (mkFeeTier 6000000000 10) in
  let r6 := call r4 "alice"%string (AddFeeTier fee_tier5) in
  let app7 := after r4 r6 in
  let! r8 := r6 in
  let! r9 := calculate_sqrt_price 0 in
  let r10 := call app7 "alice"%string (CreatePool "tokenx"%string "tokeny"%string fee_tier5 r9 0) in
  let app11 := after app7 r10 in
  let! r12 := r10 in
  let fee_tier13 := (mkFeeTier 6000000000 10) in
  let r14 := approve_token app11 "tokenx"%string "alice"%string 10000000000 in
  let app15 := after app11 r14 in
  let! r16 := r14 in
  let r17 := approve_token app15 "tokeny"%string "alice"%string 10000000000 in
  let app18 := after app15 r17 in
  let! r19 := r17 in
  let! r20 := pool_key_new "tokenx"%string "tokeny"%string fee_tier13 in
  let! r21 := query_pool (st app18) "tokenx"%string "tokeny"%string fee_tier13 in
  let slippage_limit_lower22 := (p_price r21) in
  let slippage_limit_upper23 := (p_price r21) in
  let r24 := call app18 "alice"%string (CreatePosition r20 (-20) 10 1000000000000 slippage_limit_lower22 slippage_limit_upper23) in
  let app25 := after app18 r24 in
  let! r26 := r24 in
  let! r27 := query_pool (st app25) "tokenx"%string "tokeny"%string fee_tier13 in
  assert ((p_liq r27) = 1000000000000);
  let fee_tier28 := (mkFeeTier 6000000000 10) in
  let! r29 := pool_key_new "tokenx"%string "tokeny"%string fee_tier28 in
  let r30 := mint_token app25 "tokenx"%string "bob"%string 1000 in
  let app31 := after app25 r30 in
  let! r32 := r30 in
  let amount_x33 := (balance app31 "tokenx"%string "bob"%string) in
  assert (amount_x33 = 1000);
  let r34 := approve_token app31 "tokenx"%string "bob"%string 1000 in
  let app35 := after app31 r34 in
  let! r36 := r34 in
  let amount_x37 := (balance app35 "tokenx"%string "dex"%string) in
  let amount_y38 := (balance app35 "tokeny"%string "dex"%string) in
  assert (amount_x37 = 500);
  assert (amount_y38 = 1000);
  let! r39 := query_pool (st app35) "tokenx"%string "tokeny"%string (pk_tier r29) in
  let r40 := call app35 "bob"%string (Swap r29 true 1000 true 15258932000000000000) in
  let app41 := after app35 r40 in
  let! r42 := r40 in
  let! r43 := query_pool (st app41) "tokenx"%string "tokeny"%string fee_tier28 in
  assert ((p_liq r43) = (p_liq r39));
  assert ((p_tick r43) = (-20));
  assert ((p_price r43) <> (p_price r39));
  let amount_x44 := (balance app41 "tokenx"%string "bob"%string) in
  let amount_y45 := (balance app41 "tokeny"%string "bob"%string) in
  assert (amount_x44 = 0);
  assert (amount_y45 = 993);
  let amount_x46 := (balance app41 "tokenx"%string "dex"%string) in
  let amount_y47 := (balance app41 "tokeny"%string "dex"%string) in
  assert (amount_x46 = 1500);
  assert (amount_y47 = 7);
  assert ((p_fgx r43) = 50000000000000000000000);
  assert ((p_fgy r43) = 0);
  assert ((p_protx r43) = 1);
  assert ((p_proty r43) = 0);
  let r48 := call app41 "bob"%string (ClaimFee 0) in
  let app49 := after app41 r48 in
  refused (r48);
  True.
Proof. replay. Qed.

(** /repo/contracts/oraiswap-v3/src/tests/create_pool.rs *)
Example t_create_pool_create_pool :
  let app0 := fresh_app in
  let! r1 := sdk_new_fee_tier 6000000000 10 in
  let! r3 := create_dex app0 "alice"%string 6000000000 in
  let r4 := call r3 "alice"%string (AddFeeTier r1) in
  let app5 := after r3 r4 in
  let! r6 := r4 in
  let! r7 := calculate_sqrt_price 0 in
  let app8 := (create_token app5 "tokenx"%string "alice"%string 10000000000) in
  let app9 := (create_token app8 "tokeny"%string "alice"%string 10000000000) in
  let r10 := call app9 "alice"%string (CreatePool "tokenx"%string "tokeny"%string r1 r7 0) in
  let app11 := after app9 r10 in
  assert ((is_ok (r10)) = true);
  let! r12 := query_pool (st app11) "tokenx"%string "tokeny"%string r1 in
  assert ((p_tick r12) = 0);
  True.
Proof. replay. Qed.

Example t_create_pool_create_pool_x_to_y_and_y_to_x :
  let app0 := fresh_app in
  let! r1 := sdk_new_fee_tier 6000000000 10 in
  let! r3 := create_dex app0 "alice"%string 6000000000 in
  let r4 := call r3 "alice"%string (AddFeeTier r1) in
  let app5 := after r3 r4 in
  let! r6 := r4 in
  let! r7 := calculate_sqrt_price 0 in
  let app8 := (create_token app5 "tokenx"%string "alice"%string 10000000000) in
  let app9 := (create_token app8 "tokeny"%string "alice"%string 10000000000) in
  let r10 := call app9 "alice"%string (CreatePool "tokenx"%string "tokeny"%string r1 r7 0) in
  let app11 := after app9 r10 in
  let! r12 := r10 in
  let r13 := call app11 "alice"%string (CreatePool "tokeny"%string "tokenx"%string r1 r7 0) in
  let app14 := after app11 r13 in
  assert ((negb (is_ok (r13))) = true);
  True.
Proof. replay. Qed.

Example t_create_pool_create_pool_with_same_tokens :
  let app0 := fresh_app in
  let! r1 := sdk_new_fee_tier 6000000000 10 in
  let! r3 := create_dex app0 "alice"%string 6000000000 in
  let r4 := call r3 "alice"%string (AddFeeTier r1) in
  let app5 := after r3 r4 in
  let! r6 := r4 in
  let! r7 := calculate_sqrt_price 0 in
  let app8 := (create_token app5 "tokenx"%string "alice"%string 10000000000) in
  let r9 := call app8 "alice"%string (CreatePool "tokenx"%string "tokenx"%string r1 r7 0) in
  let app10 := after app8 r9 in
  assert ((negb (is_ok (r9))) = true);
  True.
Proof. replay. Qed.

Example t_create_pool_create_pool_fee_tier_not_added :
  let app0 := fresh_app in
  let! r2 := create_dex app0 "alice"%string 6000000000 in
  let! r3 := sdk_new_fee_tier 6000000000 10 in
  let! r4 := calculate_sqrt_price 0 in
  let app5 := (create_token r2 "tokenx"%string "alice"%string 10000000000) in
  let app6 := (create_token app5 "tokeny"%string "alice"%string 10000000000) in
  let r7 := call app6 "alice"%string (CreatePool "tokenx"%string "tokeny"%string r3 r4 0) in
  let app8 := after app6 r7 in
  assert ((negb (is_ok (r7))) = true);
  True.
Proof. replay. Qed.

Example t_create_pool_create_pool_init_tick_not_divided_by_tick_spacing :
  let app0 := fresh_app in
  let! r2 := create_dex app0 "alice"%string 6000000000 in
  let! r3 := sdk_new_fee_tier 6000000000 3 in
  let r4 := call r2 "alice"%string (AddFeeTier r3) in
  let app5 := after r2 r4 in
  let! r6 := r4 in
  let! r7 := calculate_sqrt_price 2 in
  let app8 := (create_token app5 "tokenx"%string "alice"%string 10000000000) in
  let app9 := (create_token app8 "tokeny"%string "alice"%string 10000000000) in
  let r10 := call app9 "alice"%string (CreatePool "tokenx"%string "tokeny"%string r3 r7 2) in
  let app11 := after app9 r10 in
  assert ((negb (is_ok (r10))) = true);
  True.
Proof. replay. Qed.

Example t_create_pool_create_pool_init_sqrt_price_minimal_difference_from_tick :
  let app0 := fresh_app in
  let! r2 := create_dex app0 "alice"%string 6000000000 in
  let! r3 := sdk_new_fee_tier 6000000000 3 in
  let r4 := call r2 "alice"%string (AddFeeTier r3) in
  let app5 := after r2 r4 in
  let! r6 := r4 in
  let! r7 := calculate_sqrt_price 0 in
  let init_sqrt_price8 := (r7 + 1) in
  let app9 := (create_token app5 "tokenx"%string "alice"%string 10000000000) in
  let app10 := (create_token app9 "tokeny"%string "alice"%string 10000000000) in
  let r11 := call app10 "alice"%string (CreatePool "tokenx"%string "tokeny"%string r3 init_sqrt_price8 0) in
  let app12 := after app10 r11 in
  let! r13 := r11 in
  let! r14 := query_pool (st app12) "tokenx"%string "tokeny"%string r3 in
  assert ((p_tick r14) = 0);
  True.
Proof. replay. Qed.

Example t_create_pool_create_pool_init_sqrt_price_has_closer_init_tick :
  let app0 := fresh_app in
  let! r1 := sdk_new_fee_tier 500000000000 1 in
  let! r3 := create_dex app0 "alice"%string 6000000000 in
  let r4 := call r3 "alice"%string (AddFeeTier r1) in
  let app5 := after r3 r4 in
  let! r6 := r4 in
  let app7 := (create_token app5 "tokenx"%string "alice"%string 10000000000) in
  let app8 := (create_token app7 "tokeny"%string "alice"%string 10000000000) in
  let r9 := call app8 "alice"%string (CreatePool "tokenx"%string "tokeny"%string r1 1000175003749000000000000 2) in
  let app10 := after app8 r9 in
  assert ((negb (is_ok (r9))) = true);
  let r11 := call app10 "alice"%string (CreatePool "tokenx"%string "tokeny"%string r1 1000175003749000000000000 3) in
  let app12 := after app10 r11 in
  let! r13 := r11 in
  let! r14 := query_pool (st app12) "tokenx"%string "tokeny"%string r1 in
  assert ((p_tick r14) = 3);
  True.
Proof. replay. Qed.

Example t_create_pool_create_pool_init_sqrt_price_has_closer_init_tick_spacing_over_one :
  let app0 := fresh_app in
  let! r2 := create_dex app0 "alice"%string 6000000000 in
  let! r3 := sdk_new_fee_tier 500000000000 3 in
  let r4 := call r2 "alice"%string (AddFeeTier r3) in
  let app5 := after r2 r4 in
  let! r6 := r4 in
  let app7 := (create_token app5 "tokenx"%string "alice"%string 10000000000) in
  let app8 := (create_token app7 "tokeny"%string "alice"%string 10000000000) in
  let r9 := call app8 "alice"%string (CreatePool "tokenx"%string "tokeny"%string r3 1000225003749000000000000 0) in
  let app10 := after app8 r9 in
  assert ((negb (is_ok (r9))) = true);
  let r11 := call app10 "alice"%string (CreatePool "tokenx"%string "tokeny"%string r3 1000225003749000000000000 3) in
  let app12 := after app10 r11 in
  let! r13 := r11 in
  let! r14 := query_pool (st app12) "tokenx"%string "tokeny"%string r3 in
  assert ((p_tick r14) = 3);
  True.
Proof. replay. Qed.

(** /repo/contracts/oraiswap-v3/src/tests/cross.rs *)
Example t_cross_cross :
  let app0 := fresh_app in
  let! r2 := create_dex app0 "alice"%string 10000000000 in
  let app3 := (create_token r2 "tokenx"%string "alice"%string 10000000000) in
  let app4 := (create_token app3 "tokeny"%string "alice"%string 10000000000) in
  let fee_tier5 := (mkFeeTier 6000000000 10) in
  let r6 := call app4 "alice"%string (AddFeeTier fee_tier5) in
  let app7 := after app4 r6 in
  let! r8 := r6 in
  let! r9 := calculate_sqrt_price 0 in
  let r10 := call app7 "alice"%string (CreatePool "tokenx"%string "tokeny"%string fee_tier5 r9 0) in
  let app11 := after app7 r10 in
  let! r12 := r10 in
  let fee_tier13 := (mkFeeTier 6000000000 10) in
  let r14 := approve_token app11 "tokenx"%string "alice"%string 10000000000 in
  let app15 := after app11 r14 in
  let! r16 := r14 in
  let r17 := approve_token app15 "tokeny"%string "alice"%string 10000000000 in
  let app18 := after app15 r17 in
  let! r19 := r17 in
  let! r20 := pool_key_new "tokenx"%string "tokeny"%string fee_tier13 in
  let! r21 := query_pool (st app18) "tokenx"%string "tokeny"%string fee_tier13 in
  let slippage_limit_lower22 := (p_price r21) in
  let slippage_limit_upper23 := (p_price r21) in
  let r24 := call app18 "alice"%string (CreatePosition r20 (-20) 10 1000000000000 slippage_limit_lower22 slippage_limit_upper23) in
  let app25 := after app18 r24 in
  let! r26 := r24 in
  let! r27 := query_pool (st app25) "tokenx"%string "tokeny"%string fee_tier13 in
  assert ((p_liq r27) = 1000000000000);
  let fee_tier28 := (mkFeeTier 6000000000 10) in
  let r29 := approve_token app25 "tokenx"%string "alice"%string 10000000000 in
  let app30 := after app25 r29 in
  let! r31 := r29 in
  let r32 := approve_token app30 "tokeny"%string "alice"%string 10000000000 in
  let app33 := after app30 r32 in
  let! r34 := r32 in
  let! r35 := pool_key_new "tokenx"%string "tokeny"%string fee_tier28 in
  let! r36 := query_pool (st app33) "tokenx"%string "tokeny"%string fee_tier28 in
  let slippage_limit_lower37 := (p_price r36) in
  let slippage_limit_upper38 := (p_price r36) in
  let r39 := call app33 "alice"%string (CreatePosition r35 (-40) (-10) 1000000000000 slippage_limit_lower37 slippage_limit_upper38) in
  let app40 := after app33 r39 in
  let! r41 := r39 in
  let! r42 := query_pool (st app40) "tokenx"%string "tokeny"%string fee_tier28 in
  assert ((p_liq r42) = 1000000000000);
  let fee_tier43 := (mkFeeTier 6000000000 10) in
  let! r44 := pool_key_new "tokenx"%string "tokeny"%string fee_tier43 in
  let r45 := mint_token app40 "tokenx"%string "bob"%string 1000 in
  let app46 := after app40 r45 in
  let! r47 := r45 in
  let amount_x48 := (balance app46 "tokenx"%string "bob"%string) in
  assert (amount_x48 = 1000);
  let r49 := approve_token app46 "tokenx"%string "bob"%string 1000 in
  let app50 := after app46 r49 in
  let! r51 := r49 in
  let amount_x52 := (balance app50 "tokenx"%string "dex"%string) in
  let amount_y53 := (balance app50 "tokeny"%string "dex"%string) in
  assert (amount_x52 = 500);
  assert (amount_y53 = 2499);
  let! r54 := query_pool (st app50) "tokenx"%string "tokeny"%string fee_tier43 in
  let r55 := call app50 "bob"%string (Swap r44 true 1000 true 15258932000000000000) in
  let app56 := after app50 r55 in
  let! r57 := r55 in
  let! r58 := query_pool (st app56) "tokenx"%string "tokeny"%string fee_tier43 in
  assert (((p_liq r58) - 1000000000000) = (p_liq r54));
  assert ((p_tick r58) = (-20));
  assert ((p_price r58) <> (p_price r54));
  let amount_x59 := (balance app56 "tokenx"%string "bob"%string) in
  let amount_y60 := (balance app56 "tokeny"%string "bob"%string) in
  assert (amount_x59 = 0);
  assert (amount_y60 = 990);
  let amount_x61 := (balance app56 "tokenx"%string "dex"%string) in
  let amount_y62 := (balance app56 "tokeny"%string "dex"%string) in
  assert (amount_x61 = 1500);
  assert (amount_y62 = 1509);
  assert ((p_fgx r58) = 40000000000000000000000);
  assert ((p_fgy r58) = 0);
  assert ((p_protx r58) = 2);
  assert ((p_proty r58) = 0);
  let! r63 := sdk_new_fee_tier 6000000000 10 in
  let! r64 := pool_key_new "tokenx"%string "tokeny"%string r63 in
  let! r65 := get_tick (st app56) r64 10 in
  let! r66 := get_tick (st app56) r64 (-10) in
  let! r67 := get_tick (st app56) r64 (-20) in
  assert ((t_change r65) = 1000000000000);
  assert ((t_change r66) = 1000000000000);
  assert ((t_change r67) = 1000000000000);
  assert ((t_fox r65) = 0);
  assert ((t_fox r66) = 30000000000000000000000);
  assert ((t_fox r67) = 0);
  True.
Proof. replay. Qed.

(** /repo/contracts/oraiswap-v3/src/tests/cross_both_size.rs *)
Example t_cross_both_size_cross_both_side :
  let! r1 := sdk_new_fee_tier 6000000000 10 in
  let! r2 := calculate_sqrt_price 0 in
  let app0 := fresh_app in
  let app3 := (create_token app0 "tokenx"%string "alice"%string 100000) in
  let app4 := (create_token app3 "tokeny"%string "alice"%string 100000) in
  let! r6 := create_dex app4 "alice"%string 10000000000 in
  let! r7 := pool_key_new "tokenx"%string "tokeny"%string r1 in
  let r8 := call r6 "alice"%string (AddFeeTier r1) in
  let app9 := after r6 r8 in
  let! r10 := r8 in
  let r11 := call app9 "alice"%string (CreatePool "tokenx"%string "tokeny"%string r1 r2 0) in
  let app12 := after app9 r11 in
  let! r13 := r11 in
  let r14 := mint_token app12 "tokenx"%string "bob"%string 100000 in
  let app15 := after app12 r14 in
  let! r16 := r14 in
  let r17 := mint_token app15 "tokeny"%string "alice"%string 100000 in
  let app18 := after app15 r17 in
  let! r19 := r17 in
  let r20 := approve_token app18 "tokenx"%string "alice"%string 100000 in
  let app21 := after app18 r20 in
  let! r22 := r20 in
  let r23 := approve_token app21 "tokeny"%string "alice"%string 100000 in
  let app24 := after app21 r23 in
  let! r25 := r23 in
  let! r26 := query_pool (st app24) "tokenx"%string "tokeny"%string r1 in
  let r27 := call app24 "alice"%string (CreatePosition r7 (-10) 10 20006000000000 (p_price r26) (p_price r26)) in
  let app28 := after app24 r27 in
  let! r29 := r27 in
  let r30 := call app28 "alice"%string (CreatePosition r7 (-20) (-10) 20006000000000 (p_price r26) (p_price r26)) in
  let app31 := after app28 r30 in
  let! r32 := r30 in
  let! r33 := query_pool (st app31) "tokenx"%string "tokeny"%string r1 in
  assert ((p_liq r33) = 20006000000000);
  let r34 := mint_token app31 "tokenx"%string "alice"%string 20136111506 in
  let app35 := after app31 r34 in
  let! r36 := r34 in
  let r37 := mint_token app35 "tokeny"%string "alice"%string 20136111506 in
  let app38 := after app35 r37 in
  let! r39 := r37 in
  let r40 := approve_token app38 "tokenx"%string "alice"%string 20136111506 in
  let app41 := after app38 r40 in
  let! r42 := r40 in
  let r43 := approve_token app41 "tokeny"%string "alice"%string 20136111506 in
  let app44 := after app41 r43 in
  let! r45 := r43 in
  let! r46 := query_pool (st app44) "tokenx"%string "tokeny"%string r1 in
  let r47 := call app44 "alice"%string (Swap r7 true 10068 true 15258932000000000000) in
  let app48 := after app44 r47 in
  let! r49 := r47 in
  let! r50 := query_pool (st app48) "tokenx"%string "tokeny"%string r1 in
  let! r51 := calculate_sqrt_price (-10) in
  assert ((p_tick r50) = (-10));
  assert ((p_liq r50) = (p_liq r46));
  assert ((p_price r50) = r51);
  let r52 := call app48 "alice"%string (Swap r7 true 3 true 15258932000000000000) in
  let app53 := after app48 r52 in
  let! r54 := r52 in
  let r55 := call app53 "alice"%string (Swap r7 false 3 true 65535383934512647000000000000) in
  let app56 := after app53 r55 in
  let! r57 := r55 in
  let r58 := mint_token app56 "tokenx"%string "alice"%string 10000000000000000000 in
  let app59 := after app56 r58 in
  let! r60 := r58 in
  let r61 := mint_token app59 "tokeny"%string "alice"%string 10000000000000000000 in
  let app62 := after app59 r61 in
  let! r63 := r61 in
  let r64 := approve_token app62 "tokenx"%string "alice"%string 10000000000000000000 in
  let app65 := after app62 r64 in
  let! r66 := r64 in
  let r67 := approve_token app65 "tokeny"%string "alice"%string 10000000000000000000 in
  let app68 := after app65 r67 in
  let! r69 := r67 in
  let r70 := call app68 "alice"%string (CreatePosition r7 (-20) 0 19996000399699881985603000000 15258932000000000000 65535383934512647000000000000) in
  let app71 := after app68 r70 in
  let! r72 := r70 in
  let r73 := call app71 "alice"%string (Swap r7 true 1 false 15258932000000000000) in
  let app74 := after app71 r73 in
  let! r75 := r73 in
  let r76 := call app74 "alice"%string (Swap r7 false 2 true 65535383934512647000000000000) in
  let app77 := after app74 r76 in
  let! r78 := r76 in
  let! r79 := query_pool (st app77) "tokenx"%string "tokeny"%string r1 in
  assert ((p_tick r79) = (-20));
  assert ((p_fgx r79) = 29991002699190242927121);
  assert ((p_fgy r79) = 0);
  assert ((p_protx r79) = 4);
  assert ((p_proty r79) = 2);
  assert ((p_liq r79) = 19996000399699901991603000000);
  assert ((p_price r79) = 999500149964999999999999);
  let! r80 := get_tick (st app77) r7 (-20) in
  assert ((t_fox r80) = 0);
  assert ((t_foy r80) = 0);
  assert ((t_change r80) = 19996000399699901991603000000);
  let! r81 := get_tick (st app77) r7 (-10) in
  assert ((t_fox r81) = 29991002699190242927121);
  assert ((t_foy r81) = 0);
  assert ((t_change r81) = 0);
  let! r82 := get_tick (st app77) r7 10 in
  assert ((t_fox r82) = 0);
  assert ((t_foy r82) = 0);
  assert ((t_change r82) = 20006000000000);
  True.
Proof. replay. Qed.

Example t_cross_both_size_cross_both_side_not_cross_case :
  let! r1 := sdk_new_fee_tier 6000000000 10 in
  let! r2 := calculate_sqrt_price 0 in
  let app0 := fresh_app in
  let! r4 := create_dex app0 "alice"%string 10000000000 in
  let app5 := (create_token r4 "tokenx"%string "alice"%string 10000000000) in
  let app6 := (create_token app5 "tokeny"%string "alice"%string 10000000000) in
  let! r7 := pool_key_new "tokenx"%string "tokeny"%string r1 in
  let r8 := call app6 "alice"%string (AddFeeTier r1) in
  let app9 := after app6 r8 in
  let! r10 := r8 in
  let r11 := call app9 "alice"%string (CreatePool "tokenx"%string "tokeny"%string r1 r2 0) in
  let app12 := after app9 r11 in
  let! r13 := r11 in
  let r14 := mint_token app12 "tokenx"%string "alice"%string 100000 in
  let app15 := after app12 r14 in
  let! r16 := r14 in
  let r17 := mint_token app15 "tokeny"%string "alice"%string 100000 in
  let app18 := after app15 r17 in
  let! r19 := r17 in
  let r20 := approve_token app18 "tokenx"%string "alice"%string 100000 in
  let app21 := after app18 r20 in
  let! r22 := r20 in
  let r23 := approve_token app21 "tokeny"%string "alice"%string 100000 in
  let app24 := after app21 r23 in
  let! r25 := r23 in
  let! r26 := query_pool (st app24) "tokenx"%string "tokeny"%string r1 in
  let r27 := call app24 "alice"%string (CreatePosition r7 (-10) 10 20006000000000 (p_price r26) (p_price r26)) in
  let app28 := after app24 r27 in
  let! r29 := r27 in
  let r30 := call app28 "alice"%string (CreatePosition r7 (-20) (-10) 20006000000000 (p_price r26) (p_price r26)) in
  let app31 := after app28 r30 in
  let! r32 := r30 in
  let! r33 := query_pool (st app31) "tokenx"%string "tokeny"%string r1 in
  assert ((p_liq r33) = 20006000000000);
  let r34 := mint_token app31 "tokenx"%string "alice"%string 20136111506 in
  let app35 := after app31 r34 in
  let! r36 := r34 in
  let r37 := mint_token app35 "tokeny"%string "alice"%string 20136111506 in
  let app38 := after app35 r37 in
  let! r39 := r37 in
  let r40 := approve_token app38 "tokenx"%string "alice"%string 20136111506 in
  let app41 := after app38 r40 in
  let! r42 := r40 in
  let r43 := approve_token app41 "tokeny"%string "alice"%string 20136111506 in
  let app44 := after app41 r43 in
  let! r45 := r43 in
  let! r46 := query_pool (st app44) "tokenx"%string "tokeny"%string r1 in
  let r47 := call app44 "alice"%string (Swap r7 true 10068 true 15258932000000000000) in
  let app48 := after app44 r47 in
  let! r49 := r47 in
  let! r50 := query_pool (st app48) "tokenx"%string "tokeny"%string r1 in
  let! r51 := calculate_sqrt_price (-10) in
  assert ((p_tick r50) = (-10));
  assert ((p_liq r50) = (p_liq r46));
  assert ((p_price r50) = r51);
  let r52 := call app48 "alice"%string (Swap r7 true 1 true 15258932000000000000) in
  let app53 := after app48 r52 in
  assert ((negb (is_ok (r52))) = true);
  True.
Proof. replay. Qed.

(** /repo/contracts/oraiswap-v3/src/tests/get_liquidity_ticks.rs *)
Example t_get_liquidity_ticks_get_liquidity_ticks_different_tick_spacings :
  let app0 := fresh_app in
  let! r2 := create_dex app0 "alice"%string 10000000000 in
  let app3 := (create_token r2 "tokenx"%string "alice"%string 10000000000) in
  let app4 := (create_token app3 "tokeny"%string "alice"%string 10000000000) in
  let! r5 := sdk_new_fee_tier 10000000000 2 in
  let! r6 := sdk_new_fee_tier 10000000000 10 in
  let r7 := call app4 "alice"%string (AddFeeTier r5) in
  let app8 := after app4 r7 in
  let! r9 := r7 in
  let r10 := call app8 "alice"%string (AddFeeTier r6) in
  let app11 := after app8 r10 in
  let! r12 := r10 in
  let! r13 := calculate_sqrt_price 0 in
  let r14 := call app11 "alice"%string (CreatePool "tokenx"%string "tokeny"%string r5 r13 0) in
  let app15 := after app11 r14 in
  let! r16 := r14 in
  let! r17 := calculate_sqrt_price 0 in
  let r18 := call app15 "alice"%string (CreatePool "tokenx"%string "tokeny"%string r6 r17 0) in
  let app19 := after app15 r18 in
  let! r20 := r18 in
  let r21 := approve_token app19 "tokenx"%string "alice"%string 10000000000 in
  let app22 := after app19 r21 in
  let! r23 := r21 in
  let r24 := approve_token app22 "tokeny"%string "alice"%string 10000000000 in
  let app25 := after app22 r24 in
  let! r26 := r24 in
  let! r27 := pool_key_new "tokenx"%string "tokeny"%string r5 in
  let r28 := call app25 "alice"%string (CreatePosition r27 (-10) 30 10 0 340282366920938463463374607431768211455) in
  let app29 := after app25 r28 in
  let! r30 := r28 in
  let! r31 := pool_key_new "tokenx"%string "tokeny"%string r6 in
  let r32 := call app29 "alice"%string (CreatePosition r31 (-20) 40 10 0 340282366920938463463374607431768211455) in
  let app33 := after app29 r32 in
  let! r34 := r32 in
  let! r35 := query_liquidity_ticks_amount (st app33) r27 (-10) 30 in
  assert (r35 = 2);
  let! r36 := query_liquidity_ticks (st app33) r27 [(-10); 30] in
  assert ((Z.of_nat (Datatypes.length r36)) = 2);
  let! r37 := query_liquidity_ticks_amount (st app33) r31 (-20) 40 in
  assert (r37 = 2);
  let! r38 := query_liquidity_ticks (st app33) r31 [(-20); 40] in
  assert ((Z.of_nat (Datatypes.length r38)) = 2);
  True.
Proof. replay. Qed.

Example t_get_liquidity_ticks_get_liquidity_ticks_with_offset :
  let app0 := fresh_app in
  let! r2 := create_dex app0 "alice"%string 10000000000 in
  let app3 := (create_token r2 "tokenx"%string "alice"%string 10000000000) in
  let app4 := (create_token app3 "tokeny"%string "alice"%string 10000000000) in
  let! r5 := sdk_new_fee_tier 10000000000 1 in
  let r6 := call app4 "alice"%string (AddFeeTier r5) in
  let app7 := after app4 r6 in
  let! r8 := r6 in
  let! r9 := calculate_sqrt_price 0 in
  let r10 := call app7 "alice"%string (CreatePool "tokenx"%string "tokeny"%string r5 r9 0) in
  let app11 := after app7 r10 in
  let! r12 := r10 in
  let r13 := approve_token app11 "tokenx"%string "alice"%string 500 in
  let app14 := after app11 r13 in
  let! r15 := r13 in
  let r16 := approve_token app14 "tokeny"%string "alice"%string 500 in
  let app17 := after app14 r16 in
  let! r18 := r16 in
  let! r19 := pool_key_new "tokenx"%string "tokeny"%string r5 in
  let r20 := call app17 "alice"%string (CreatePosition r19 (-10) 10 10 0 340282366920938463463374607431768211455) in
  let app21 := after app17 r20 in
  let! r22 := r20 in
  let! r23 := query_liquidity_ticks_amount (st app21) r19 (-10) 10 in
  assert (r23 = 2);
  let! r24 := query_liquidity_ticks (st app21) r19 [(-10); 10] in
  assert ((Z.of_nat (Datatypes.length r24)) = 2);
  let! r25 := query_liquidity_ticks (st app21) r19 [10] in
  assert ((Z.of_nat (Datatypes.length r25)) = 1);
  let! it26 := item r24 1 in
  let! it27 := item r25 0 in
  assert (it26 = it27);
  True.
Proof. replay. Qed.

(** /repo/contracts/oraiswap-v3/src/tests/get_position_ticks.rs *)
Example t_get_position_ticks_get_position_ticks :
  let app0 := fresh_app in
  let! r2 := create_dex app0 "alice"%string 10000000000 in
  let app3 := (create_token r2 "tokenx"%string "alice"%string 10000000000) in
  let app4 := (create_token app3 "tokeny"%string "alice"%string 10000000000) in
  let! r5 := sdk_new_fee_tier 10000000000 1 in
  let r6 := call app4 "alice"%string (AddFeeTier r5) in
  let app7 := after app4 r6 in
  let! r8 := r6 in
  let! r9 := calculate_sqrt_price 0 in
  let r10 := call app7 "alice"%string (CreatePool "tokenx"%string "tokeny"%string r5 r9 0) in
  let app11 := after app7 r10 in
  let! r12 := r10 in
  let r13 := approve_token app11 "tokenx"%string "alice"%string 500 in
  let app14 := after app11 r13 in
  let! r15 := r13 in
  let r16 := approve_token app14 "tokeny"%string "alice"%string 500 in
  let app17 := after app14 r16 in
  let! r18 := r16 in
  let! r19 := pool_key_new "tokenx"%string "tokeny"%string r5 in
  let r20 := call app17 "alice"%string (CreatePosition r19 (-10) 10 10 0 340282366920938463463374607431768211455) in
  let app21 := after app17 r20 in
  let! r22 := r20 in
  let! r23 := query_position_ticks (st app21) "alice"%string 0 in
  assert ((Z.of_nat (Datatypes.length r23)) = 2);
  let! r24 := get_tick (st app21) r19 (-10) in
  let! r25 := get_tick (st app21) r19 10 in
  let! it26 := item r23 0 in
  assert ((pt_index it26) = (t_index r24));
  let! it27 := item r23 0 in
  assert ((pt_fox it27) = (t_fox r24));
  let! it28 := item r23 0 in
  assert ((pt_foy it28) = (t_foy r24));
  let! it29 := item r23 0 in
  assert ((pt_secs it29) = (t_secs r24));
  let! it30 := item r23 1 in
  assert ((pt_index it30) = (t_index r25));
  let! it31 := item r23 1 in
  assert ((pt_fox it31) = (t_fox r25));
  let! it32 := item r23 1 in
  assert ((pt_foy it32) = (t_foy r25));
  let! it33 := item r23 1 in
  assert ((pt_secs it33) = (t_secs r25));
  True.
Proof. replay. Qed.

Example t_get_position_ticks_get_position_ticks_with_offset :
  let app0 := fresh_app in
  let! r2 := create_dex app0 "alice"%string 10000000000 in
  let app3 := (create_token r2 "tokenx"%string "alice"%string 10000000000) in
  let app4 := (create_token app3 "tokeny"%string "alice"%string 10000000000) in
  let! r5 := sdk_new_fee_tier 10000000000 2 in
  let! r6 := sdk_new_fee_tier 10000000000 10 in
  let r7 := call app4 "alice"%string (AddFeeTier r5) in
  let app8 := after app4 r7 in
  let! r9 := r7 in
  let r10 := call app8 "alice"%string (AddFeeTier r6) in
  let app11 := after app8 r10 in
  let! r12 := r10 in
  let! r13 := calculate_sqrt_price 0 in
  let r14 := call app11 "alice"%string (CreatePool "tokenx"%string "tokeny"%string r5 r13 0) in
  let app15 := after app11 r14 in
  let! r16 := r14 in
  let! r17 := calculate_sqrt_price 0 in
  let r18 := call app15 "alice"%string (CreatePool "tokenx"%string "tokeny"%string r6 r17 0) in
  let app19 := after app15 r18 in
  let! r20 := r18 in
  let r21 := approve_token app19 "tokenx"%string "alice"%string 10000000000 in
  let app22 := after app19 r21 in
  let! r23 := r21 in
  let r24 := approve_token app22 "tokeny"%string "alice"%string 10000000000 in
  let app25 := after app22 r24 in
  let! r26 := r24 in
  let! r27 := pool_key_new "tokenx"%string "tokeny"%string r5 in
  let r28 := call app25 "alice"%string (CreatePosition r27 (-10) 30 10 0 340282366920938463463374607431768211455) in
  let app29 := after app25 r28 in
  let! r30 := r28 in
  let! r31 := pool_key_new "tokenx"%string "tokeny"%string r6 in
  let r32 := call app29 "alice"%string (CreatePosition r31 (-20) 40 10 0 340282366920938463463374607431768211455) in
  let app33 := after app29 r32 in
  let! r34 := r32 in
  let! r35 := query_position_ticks (st app33) "alice"%string 0 in
  assert ((Z.of_nat (Datatypes.length r35)) = 4);
  let! r36 := query_position_ticks (st app33) "alice"%string 1 in
  assert ((Z.of_nat (Datatypes.length r36)) = 2);
  let! it37 := item r35 2 in
  let! it38 := item r36 0 in
  assert (it37 = it38);
  let! it39 := item r35 3 in
  let! it40 := item r36 1 in
  assert (it39 = it40);
  True.
Proof. replay. Qed.

(** /repo/contracts/oraiswap-v3/src/tests/get_tickmap.rs *)
Example t_get_tickmap_get_tickmap_tick_spacing_over_one :
  let app0 := fresh_app in
  let! r2 := create_dex app0 "alice"%string 0 in
  let app3 := (create_token r2 "tokenx"%string "alice"%string 10000000000) in
  let app4 := (create_token app3 "tokeny"%string "alice"%string 10000000000) in
  let r5 := approve_token app4 "tokenx"%string "alice"%string 10000000000 in
  let app6 := after app4 r5 in
  let! r7 := r5 in
  let r8 := approve_token app6 "tokeny"%string "alice"%string 10000000000 in
  let app9 := after app6 r8 in
  let! r10 := r8 in
  let! r11 := sdk_new_fee_tier 500000000000 10 in
  let! r12 := pool_key_new "tokenx"%string "tokeny"%string r11 in
  let! r13 := calculate_sqrt_price 0 in
  let r14 := call app9 "alice"%string (AddFeeTier r11) in
  let app15 := after app9 r14 in
  let! r16 := r14 in
  let r17 := call app15 "alice"%string (CreatePool "tokenx"%string "tokeny"%string r11 r13 0) in
  let app18 := after app15 r17 in
  assert ((is_ok (r17)) = true);
  let! r19 := query_pool (st app18) "tokenx"%string "tokeny"%string r11 in
  let r20 := call app18 "alice"%string (CreatePosition r12 10 20 1000 (p_price r19) 340282366920938463463374607431768211455) in
  let app21 := after app18 r20 in
  let! r22 := r20 in
  let r23 := call app21 "alice"%string (CreatePosition r12 (get_min_tick (ft_spacing r11)) (get_max_tick (ft_spacing r11)) 1000 (p_price r19) 340282366920938463463374607431768211455) in
  let app24 := after app21 r23 in
  let! r25 := r23 in
  let! r26 := query_tickmap (st app24) r12 (get_min_tick (ft_spacing r11)) (get_max_tick (ft_spacing r11)) false in
  let! it27 := item r26 0 in
  assert (it27 = (0, 1));
  let! it28 := item r26 1 in
  assert (it28 = (346, 824633720832));
  let! it29 := item r26 2 in
  assert (it29 = ((get_max_chunk (ft_spacing r11)), 1024));
  assert ((Z.of_nat (Datatypes.length r26)) = 3);
  True.
Proof. replay. Qed.

(** /repo/contracts/oraiswap-v3/src/tests/interaction_with_pool_on_removed_fee_tier.rs *)
Example t_interaction_with_pool_on_removed_fee_tier_interaction_with_pool_on_removed_fee_tier :
  let app0 := fresh_app in
  let app1 := (create_token app0 "tokenx"%string "alice"%string 10000000000) in
  let app2 := (create_token app1 "tokeny"%string "alice"%string 10000000000) in
  let! r4 := create_dex app2 "alice"%string 10000000000 in
  let fee_tier5 := (mkFeeTier 6000000000 10) in
  let r6 := call r4 "alice"%string (AddFeeTier fee_tier5) in
  let app7 := after r4 r6 in
  let! r8 := r6 in
  let! r9 := calculate_sqrt_price 0 in
  let r10 := call app7 "alice"%string (CreatePool "tokenx"%string "tokeny"%string fee_tier5 r9 0) in
  let app11 := after app7 r10 in
  let! r12 := r10 in
  let! r13 := sdk_new_fee_tier 6000000000 10 in
  let! r14 := pool_key_new "tokenx"%string "tokeny"%string r13 in
  let r15 := call app11 "alice"%string (RemoveFeeTier r13) in
  let app16 := after app11 r15 in
  let! r17 := r15 in
  let exist18 := (query_fee_tier_exist (st app16) r13) in
  assert ((negb exist18) = true);
  let! r19 := calculate_sqrt_price 0 in
  let r20 := call app16 "alice"%string (CreatePool "tokenx"%string "tokeny"%string r13 r19 0) in
  let app21 := after app16 r20 in
  assert ((negb (is_ok (r20))) = true);
  let fee_tier22 := (mkFeeTier 6000000000 10) in
  let r23 := approve_token app21 "tokenx"%string "alice"%string 10000000000 in
  let app24 := after app21 r23 in
  let! r25 := r23 in
  let r26 := approve_token app24 "tokeny"%string "alice"%string 10000000000 in
  let app27 := after app24 r26 in
  let! r28 := r26 in
  let! r29 := pool_key_new "tokenx"%string "tokeny"%string fee_tier22 in
  let! r30 := query_pool (st app27) "tokenx"%string "tokeny"%string fee_tier22 in
  let slippage_limit_lower31 := (p_price r30) in
  let slippage_limit_upper32 := (p_price r30) in
  let r33 := call app27 "alice"%string (CreatePosition r29 (-20) 10 1000000000000 slippage_limit_lower31 slippage_limit_upper32) in
  let app34 := after app27 r33 in
  let! r35 := r33 in
  let! r36 := query_pool (st app34) "tokenx"%string "tokeny"%string fee_tier22 in
  assert ((p_liq r36) = 1000000000000);
  let fee_tier37 := (mkFeeTier 6000000000 10) in
  let! r38 := pool_key_new "tokenx"%string "tokeny"%string fee_tier37 in
  let r39 := mint_token app34 "tokenx"%string "bob"%string 1000 in
  let app40 := after app34 r39 in
  let! r41 := r39 in
  let amount_x42 := (balance app40 "tokenx"%string "bob"%string) in
  assert (amount_x42 = 1000);
  let r43 := approve_token app40 "tokenx"%string "bob"%string 1000 in
  let app44 := after app40 r43 in
  let! r45 := r43 in
  let amount_x46 := (balance app44 "tokenx"%string "dex"%string) in
  let amount_y47 := (balance app44 "tokeny"%string "dex"%string) in
  assert (amount_x46 = 500);
  assert (amount_y47 = 1000);
  let! r48 := query_pool (st app44) "tokenx"%string "tokeny"%string (pk_tier r38) in
  let r49 := call app44 "bob"%string (Swap r38 true 1000 true 15258932000000000000) in
  let app50 := after app44 r49 in
  let! r51 := r49 in
  let! r52 := query_pool (st app50) "tokenx"%string "tokeny"%string fee_tier37 in
  assert ((p_liq r52) = (p_liq r48));
  assert ((p_tick r52) = (-20));
  assert ((p_price r52) <> (p_price r48));
  let amount_x53 := (balance app50 "tokenx"%string "bob"%string) in
  let amount_y54 := (balance app50 "tokeny"%string "bob"%string) in
  assert (amount_x53 = 0);
  assert (amount_y54 = 993);
  let amount_x55 := (balance app50 "tokenx"%string "dex"%string) in
  let amount_y56 := (balance app50 "tokeny"%string "dex"%string) in
  assert (amount_x55 = 1500);
  assert (amount_y56 = 7);
  assert ((p_fgx r52) = 50000000000000000000000);
  assert ((p_fgy r52) = 0);
  assert ((p_protx r52) = 1);
  assert ((p_proty r52) = 0);
  let r57 := call app50 "alice"%string (ClaimFee 0) in
  let app58 := after app50 r57 in
  let! r59 := r57 in
  let? r60 := (attr r59 "amount_x"%string) in
  let? r61 := (attr r59 "amount_y"%string) in
  assert (r60 = 5);
  assert (r61 = 0);
  let r62 := call app58 "alice"%string (ChangeFeeReceiver r14 "bob"%string) in
  let app63 := after app58 r62 in
  let! r64 := r62 in
  let r65 := call app63 "bob"%string (WithdrawProtocolFee r14) in
  let app66 := after app63 r65 in
  let! r67 := r65 in
  let r68 := call app66 "alice"%string (RemovePosition 0) in
  let app69 := after app66 r68 in
  let! r70 := r68 in
  let! r71 := query_pool (st app69) "tokenx"%string "tokeny"%string r13 in
  let! r72 := query_pools (st app69) (Some 1) None in
  assert ((Z.of_nat (Datatypes.length r72)) = 1);
  let! it73 := item r72 0 in
  assert ((fst it73) = r14);
  let fee_tier74 := (mkFeeTier 6000000000 10) in
  let r75 := approve_token app69 "tokenx"%string "alice"%string 10000000000 in
  let app76 := after app69 r75 in
  let! r77 := r75 in
  let r78 := approve_token app76 "tokeny"%string "alice"%string 10000000000 in
  let app79 := after app76 r78 in
  let! r80 := r78 in
  let! r81 := pool_key_new "tokenx"%string "tokeny"%string fee_tier74 in
  let! r82 := query_pool (st app79) "tokenx"%string "tokeny"%string fee_tier74 in
  let slippage_limit_lower83 := (p_price r82) in
  let slippage_limit_upper84 := (p_price r82) in
  let r85 := call app79 "alice"%string (CreatePosition r81 (-20) 10 1000000000000 slippage_limit_lower83 slippage_limit_upper84) in
  let app86 := after app79 r85 in
  let! r87 := r85 in
  let! r88 := query_pool (st app86) "tokenx"%string "tokeny"%string fee_tier74 in
  assert ((p_liq r88) = 1000000000000);
  let! r89 := query_positions (st app86) "alice"%string (Some 100) None in
  let! r90 := query_positions (st app86) "bob"%string (Some 100) None in
  let! r91 := get_position (st app86) "alice"%string 0 in
  let r92 := call app86 "alice"%string (TransferPosition 0 "bob"%string) in
  let app93 := after app86 r92 in
  let! r94 := r92 in
  let! r95 := get_position (st app93) "bob"%string 0 in
  let! r96 := query_positions (st app93) "alice"%string (Some 100) None in
  let! r97 := query_positions (st app93) "bob"%string (Some 100) None in
  assert ((Z.of_nat (Datatypes.length r97)) = ((Z.of_nat (Datatypes.length r90)) + 1));
  assert (((Z.of_nat (Datatypes.length r89)) - 1) = (Z.of_nat (Datatypes.length r96)));
  assert ((Z.of_nat (Datatypes.length r96)) = 0);
  assert ((po_fgx r95) = (po_fgx r91));
  assert ((po_fgy r95) = (po_fgy r91));
  assert ((po_liq r95) = (po_liq r91));
  assert ((po_lower r95) = (po_lower r91));
  assert ((po_upper r95) = (po_upper r91));
  assert ((po_key r95) = (po_key r91));
  assert ((po_owedx r95) = (po_owedx r91));
  assert ((po_owedy r95) = (po_owedy r91));
  let r98 := call app93 "alice"%string (AddFeeTier r13) in
  let app99 := after app93 r98 in
  let! r100 := r98 in
  let! r101 := calculate_sqrt_price 0 in
  let r102 := call app99 "alice"%string (CreatePool "tokenx"%string "tokeny"%string r13 r101 0) in
  let app103 := after app99 r102 in
  assert ((negb (is_ok (r102))) = true);
  True.
Proof. replay. Qed.

(** /repo/contracts/oraiswap-v3/src/tests/limits.rs *)
Example t_limits_limits_big_deposit_x_and_swap_y :
  let app0 := fresh_app in
  let app1 := (create_token app0 "tokenx"%string "alice"%string 340282366920938463463374607431768211455) in
  let app2 := (create_token app1 "tokeny"%string "alice"%string 340282366920938463463374607431768211455) in
  let! r4 := create_dex app2 "alice"%string 10000000000 in
  let r5 := approve_token r4 "tokenx"%string "alice"%string 340282366920938463463374607431768211455 in
  let app6 := after r4 r5 in
  let! r7 := r5 in
  let r8 := approve_token app6 "tokeny"%string "alice"%string 340282366920938463463374607431768211455 in
  let app9 := after app6 r8 in
  let! r10 := r8 in
  let fee_tier11 := (mkFeeTier 6000000000 1) in
  let r12 := call app9 "alice"%string (AddFeeTier fee_tier11) in
  let app13 := after app9 r12 in
  let! r14 := r12 in
  let! r15 := calculate_sqrt_price 0 in
  let r16 := call app13 "alice"%string (CreatePool "tokenx"%string "tokeny"%string fee_tier11 r15 0) in
  let app17 := after app13 r16 in
  let! r18 := r16 in
  let lower_tick19 := (- (ft_spacing fee_tier11)) in
  let! r20 := query_pool (st app17) "tokenx"%string "tokeny"%string fee_tier11 in
  let! r21 := sdk_liquidity_by_y 37778931862957161709567 lower_tick19 0 (p_price r20) true in
  let liquidity_delta22 := (fst r21) in
  let! r23 := pool_key_new "tokenx"%string "tokeny"%string fee_tier11 in
  let slippage_limit_lower24 := (p_price r20) in
  let slippage_limit_upper25 := (p_price r20) in
  let r26 := call app17 "alice"%string (CreatePosition r23 lower_tick19 0 liquidity_delta22 slippage_limit_lower24 slippage_limit_upper25) in
  let app27 := after app17 r26 in
  let! r28 := r26 in
  let amount_x29 := (balance app27 "tokenx"%string "alice"%string) in
  let amount_y30 := (balance app27 "tokeny"%string "alice"%string) in
  assert (amount_x29 = 340282366920938463463374607431768211455);
  assert (amount_y30 = 340282366920938425684442744474606501888);
  let r31 := call app27 "alice"%string (Swap r23 true 37778931862957161709567 true 15258932000000000000) in
  let app32 := after app27 r31 in
  let! r33 := r31 in
  let amount_x34 := (balance app32 "tokenx"%string "alice"%string) in
  let amount_y35 := (balance app32 "tokeny"%string "alice"%string) in
  assert (amount_x34 = 340282366920938425684442744474606501888);
  assert (amount_y35 <> 0);
  True.
Proof. replay. Qed.

Example t_limits_limits_big_deposit_y_and_swap_x :
  let app0 := fresh_app in
  let app1 := (create_token app0 "tokenx"%string "alice"%string 340282366920938463463374607431768211455) in
  let app2 := (create_token app1 "tokeny"%string "alice"%string 340282366920938463463374607431768211455) in
  let! r4 := create_dex app2 "alice"%string 10000000000 in
  let r5 := approve_token r4 "tokenx"%string "alice"%string 340282366920938463463374607431768211455 in
  let app6 := after r4 r5 in
  let! r7 := r5 in
  let r8 := approve_token app6 "tokeny"%string "alice"%string 340282366920938463463374607431768211455 in
  let app9 := after app6 r8 in
  let! r10 := r8 in
  let fee_tier11 := (mkFeeTier 6000000000 1) in
  let r12 := call app9 "alice"%string (AddFeeTier fee_tier11) in
  let app13 := after app9 r12 in
  let! r14 := r12 in
  let! r15 := calculate_sqrt_price 0 in
  let r16 := call app13 "alice"%string (CreatePool "tokenx"%string "tokeny"%string fee_tier11 r15 0) in
  let app17 := after app13 r16 in
  let! r18 := r16 in
  let upper_tick19 := (ft_spacing fee_tier11) in
  let! r20 := query_pool (st app17) "tokenx"%string "tokeny"%string fee_tier11 in
  let! r21 := sdk_liquidity_by_x 37778931862957161709567 0 upper_tick19 (p_price r20) true in
  let liquidity_delta22 := (fst r21) in
  let! r23 := pool_key_new "tokenx"%string "tokeny"%string fee_tier11 in
  let slippage_limit_lower24 := (p_price r20) in
  let slippage_limit_upper25 := (p_price r20) in
  let r26 := call app17 "alice"%string (CreatePosition r23 0 upper_tick19 liquidity_delta22 slippage_limit_lower24 slippage_limit_upper25) in
  let app27 := after app17 r26 in
  let! r28 := r26 in
  let amount_x29 := (balance app27 "tokenx"%string "alice"%string) in
  let amount_y30 := (balance app27 "tokeny"%string "alice"%string) in
  assert (amount_x29 = 340282366920938425684442744474606501888);
  assert (amount_y30 = 340282366920938463463374607431768211455);
  let r31 := call app27 "alice"%string (Swap r23 false 37778931862957161709567 true 65535383934512647000000000000) in
  let app32 := after app27 r31 in
  let! r33 := r31 in
  let amount_x34 := (balance app32 "tokenx"%string "alice"%string) in
  let amount_y35 := (balance app32 "tokeny"%string "alice"%string) in
  assert (amount_x34 <> 0);
  assert (amount_y35 = 340282366920938425684442744474606501888);
  True.
Proof. replay. Qed.

Example t_limits_limits_big_deposit_both_tokens :
  let app0 := fresh_app in
  let app1 := (create_token app0 "tokenx"%string "alice"%string 340282366920938463463374607431768211455) in
  let app2 := (create_token app1 "tokeny"%string "alice"%string 340282366920938463463374607431768211455) in
  let! r4 := create_dex app2 "alice"%string 10000000000 in
  let r5 := approve_token r4 "tokenx"%string "alice"%string 340282366920938463463374607431768211455 in
  let app6 := after r4 r5 in
  let! r7 := r5 in
  let r8 := approve_token app6 "tokeny"%string "alice"%string 340282366920938463463374607431768211455 in
  let app9 := after app6 r8 in
  let! r10 := r8 in
  let! r11 := sdk_new_fee_tier 6000000000 1 in
  let r12 := call app9 "alice"%string (AddFeeTier r11) in
  let app13 := after app9 r12 in
  let! r14 := r12 in
  let! r15 := calculate_sqrt_price 0 in
  let r16 := call app13 "alice"%string (CreatePool "tokenx"%string "tokeny"%string r11 r15 0) in
  let app17 := after app13 r16 in
  let! r18 := r16 in
  let lower_tick19 := (- (ft_spacing r11)) in
  let upper_tick20 := (ft_spacing r11) in
  let! r21 := query_pool (st app17) "tokenx"%string "tokeny"%string r11 in
  let! r22 := sdk_liquidity_by_x 37778931862957161709567 lower_tick19 upper_tick20 (p_price r21) false in
  let liquidity_delta23 := (fst r22) in
  let! r24 := calculate_sqrt_price lower_tick19 in
  let! r25 := get_delta_y r24 (p_price r21) liquidity_delta23 true in
  let! r26 := pool_key_new "tokenx"%string "tokeny"%string r11 in
  let slippage_limit_lower27 := (p_price r21) in
  let slippage_limit_upper28 := (p_price r21) in
  let r29 := call app17 "alice"%string (CreatePosition r26 lower_tick19 upper_tick20 liquidity_delta23 slippage_limit_lower27 slippage_limit_upper28) in
  let app30 := after app17 r29 in
  let! r31 := r29 in
  let user_amount_x32 := (balance app30 "tokenx"%string "alice"%string) in
  let user_amount_y33 := (balance app30 "tokeny"%string "alice"%string) in
  assert (user_amount_x32 = 340282366920938425684442744474606501888);
  assert (user_amount_y33 = (340282366920938463463374607431768211455 - r25));
  let contract_amount_x34 := (balance app30 "tokenx"%string "dex"%string) in
  let contract_amount_y35 := (balance app30 "tokeny"%string "dex"%string) in
  assert (contract_amount_x34 = 37778931862957161709567);
  assert (contract_amount_y35 = r25);
  True.
Proof. replay. Qed.

Example t_limits_deposit_limits_at_upper_limit :
  let app0 := fresh_app in
  let app1 := (create_token app0 "tokenx"%string "alice"%string 340282366920938463463374607431768211455) in
  let app2 := (create_token app1 "tokeny"%string "alice"%string 340282366920938463463374607431768211455) in
  let! r4 := create_dex app2 "alice"%string 10000000000 in
  let r5 := approve_token r4 "tokenx"%string "alice"%string 340282366920938463463374607431768211455 in
  let app6 := after r4 r5 in
  let! r7 := r5 in
  let r8 := approve_token app6 "tokeny"%string "alice"%string 340282366920938463463374607431768211455 in
  let app9 := after app6 r8 in
  let! r10 := r8 in
  let! r11 := sdk_new_fee_tier 6000000000 1 in
  let r12 := call app9 "alice"%string (AddFeeTier r11) in
  let app13 := after app9 r12 in
  let! r14 := r12 in
  let init_tick15 := (get_max_tick 1) in
  let! r16 := calculate_sqrt_price init_tick15 in
  let r17 := call app13 "alice"%string (CreatePool "tokenx"%string "tokeny"%string r11 r16 init_tick15) in
  let app18 := after app13 r17 in
  let! r19 := r17 in
  let! r20 := query_pool (st app18) "tokenx"%string "tokeny"%string r11 in
  assert ((p_tick r20) = init_tick15);
  let! r21 := calculate_sqrt_price init_tick15 in
  assert ((p_price r20) = r21);
  let! r22 := sdk_liquidity_by_y 40564819207303340847894502572030 0 221818 (p_price r20) false in
  let liquidity_delta23 := (fst r22) in
  let! r24 := pool_key_new "tokenx"%string "tokeny"%string r11 in
  let slippage_limit_lower25 := (p_price r20) in
  let slippage_limit_upper26 := (p_price r20) in
  let r27 := call app18 "alice"%string (CreatePosition r24 0 221818 liquidity_delta23 slippage_limit_lower25 slippage_limit_upper26) in
  let app28 := after app18 r27 in
  let! r29 := r27 in
  True.
Proof. replay. Qed.

Example t_limits_limits_big_deposit_and_swaps :
  let app0 := fresh_app in
  let app1 := (create_token app0 "tokenx"%string "alice"%string 340282366920938463463374607431768211455) in
  let app2 := (create_token app1 "tokeny"%string "alice"%string 340282366920938463463374607431768211455) in
  let! r4 := create_dex app2 "alice"%string 10000000000 in
  let r5 := approve_token r4 "tokenx"%string "alice"%string 340282366920938463463374607431768211455 in
  let app6 := after r4 r5 in
  let! r7 := r5 in
  let r8 := approve_token app6 "tokeny"%string "alice"%string 340282366920938463463374607431768211455 in
  let app9 := after app6 r8 in
  let! r10 := r8 in
  let! r11 := sdk_new_fee_tier 6000000000 1 in
  let r12 := call app9 "alice"%string (AddFeeTier r11) in
  let app13 := after app9 r12 in
  let! r14 := r12 in
  let! r15 := calculate_sqrt_price 0 in
  let r16 := call app13 "alice"%string (CreatePool "tokenx"%string "tokeny"%string r11 r15 0) in
  let app17 := after app13 r16 in
  let! r18 := r16 in
  let lower_tick19 := (- (ft_spacing r11)) in
  let upper_tick20 := (ft_spacing r11) in
  let! r21 := query_pool (st app17) "tokenx"%string "tokeny"%string r11 in
  let! r22 := sdk_liquidity_by_x 37778931862957161709567 lower_tick19 upper_tick20 (p_price r21) false in
  let liquidity_delta23 := (fst r22) in
  let! r24 := calculate_sqrt_price lower_tick19 in
  let! r25 := get_delta_y r24 (p_price r21) liquidity_delta23 true in
  let! r26 := pool_key_new "tokenx"%string "tokeny"%string r11 in
  let slippage_limit_lower27 := (p_price r21) in
  let slippage_limit_upper28 := (p_price r21) in
  let r29 := call app17 "alice"%string (CreatePosition r26 lower_tick19 upper_tick20 liquidity_delta23 slippage_limit_lower27 slippage_limit_upper28) in
  let app30 := after app17 r29 in
  let! r31 := r29 in
  let user_amount_x32 := (balance app30 "tokenx"%string "alice"%string) in
  let user_amount_y33 := (balance app30 "tokeny"%string "alice"%string) in
  assert (user_amount_x32 = 340282366920938425684442744474606501888);
  assert (user_amount_y33 = (340282366920938463463374607431768211455 - r25));
  let contract_amount_x34 := (balance app30 "tokenx"%string "dex"%string) in
  let contract_amount_y35 := (balance app30 "tokeny"%string "dex"%string) in
  assert (contract_amount_x34 = 37778931862957161709567);
  assert (contract_amount_y35 = r25);
  let r36 := call app30 "alice"%string (Swap r26 false 9444732965739290427391 true 65535383934512647000000000000) in
  let app37 := after app30 r36 in
  let! r38 := r36 in
  let r39 := call app37 "alice"%string (Swap r26 true 9444732965739290427391 true 15258932000000000000) in
  let app40 := after app37 r39 in
  let! r41 := r39 in
  let r42 := call app40 "alice"%string (Swap r26 false 9444732965739290427391 true 65535383934512647000000000000) in
  let app43 := after app40 r42 in
  let! r44 := r42 in
  let r45 := call app43 "alice"%string (Swap r26 true 9444732965739290427391 true 15258932000000000000) in
  let app46 := after app43 r45 in
  let! r47 := r45 in
  True.
Proof. replay. Qed.

Example t_limits_limits_full_range_with_max_liquidity :
  let app0 := fresh_app in
  let app1 := (create_token app0 "tokenx"%string "alice"%string 340282366920938463463374607431768211455) in
  let app2 := (create_token app1 "tokeny"%string "alice"%string 340282366920938463463374607431768211455) in
  let! r4 := create_dex app2 "alice"%string 10000000000 in
  let r5 := approve_token r4 "tokenx"%string "alice"%string 340282366920938463463374607431768211455 in
  let app6 := after r4 r5 in
  let! r7 := r5 in
  let r8 := approve_token app6 "tokeny"%string "alice"%string 340282366920938463463374607431768211455 in
  let app9 := after app6 r8 in
  let! r10 := r8 in
  let! r11 := sdk_new_fee_tier 6000000000 1 in
  let r12 := call app9 "alice"%string (AddFeeTier r11) in
  let app13 := after app9 r12 in
  let! r14 := r12 in
  let init_tick15 := (get_max_tick 1) in
  let! r16 := calculate_sqrt_price init_tick15 in
  let r17 := call app13 "alice"%string (CreatePool "tokenx"%string "tokeny"%string r11 r16 init_tick15) in
  let app18 := after app13 r17 in
  let! r19 := r17 in
  let! r20 := query_pool (st app18) "tokenx"%string "tokeny"%string r11 in
  assert ((p_tick r20) = init_tick15);
  let! r21 := calculate_sqrt_price init_tick15 in
  assert ((p_price r20) = r21);
  let! r22 := pool_key_new "tokenx"%string "tokeny"%string r11 in
  let slippage_limit_lower23 := (p_price r20) in
  let slippage_limit_upper24 := (p_price r20) in
  let r25 := call app18 "alice"%string (CreatePosition r22 (-221818) 221818 649037107316853453566312041152511 slippage_limit_lower23 slippage_limit_upper24) in
  let app26 := after app18 r25 in
  let! r27 := r25 in
  let contract_amount_x28 := (balance app26 "tokenx"%string "dex"%string) in
  let contract_amount_y29 := (balance app26 "tokeny"%string "dex"%string) in
  assert (contract_amount_x28 = 0);
  assert (contract_amount_y29 = 42534896005851865508212194815854);
  True.
Proof. replay. Qed.

(** /repo/contracts/oraiswap-v3/src/tests/liquidity_gap.rs *)
Example t_liquidity_gap_liquidity_gap :
  let! r1 := sdk_new_fee_tier 6000000000 10 in
  let! r2 := calculate_sqrt_price 0 in
  let app0 := fresh_app in
  let! r4 := create_dex app0 "alice"%string 10000000000 in
  let app5 := (create_token r4 "tokenx"%string "alice"%string 10000000000) in
  let app6 := (create_token app5 "tokeny"%string "alice"%string 10000000000) in
  let! r7 := pool_key_new "tokenx"%string "tokeny"%string r1 in
  let r8 := call app6 "alice"%string (AddFeeTier r1) in
  let app9 := after app6 r8 in
  let! r10 := r8 in
  let r11 := call app9 "alice"%string (CreatePool "tokenx"%string "tokeny"%string r1 r2 0) in
  let app12 := after app9 r11 in
  let! r13 := r11 in
  let r14 := mint_token app12 "tokenx"%string "alice"%string 10000000000 in
  let app15 := after app12 r14 in
  let! r16 := r14 in
  let r17 := mint_token app15 "tokeny"%string "alice"%string 10000000000 in
  let app18 := after app15 r17 in
  let! r19 := r17 in
  let r20 := approve_token app18 "tokenx"%string "alice"%string 10000000000 in
  let app21 := after app18 r20 in
  let! r22 := r20 in
  let r23 := approve_token app21 "tokeny"%string "alice"%string 10000000000 in
  let app24 := after app21 r23 in
  let! r25 := r23 in
  let! r26 := query_pool (st app24) "tokenx"%string "tokeny"%string r1 in
  let r27 := call app24 "alice"%string (CreatePosition r7 (-10) 10 20006000000000 (p_price r26) (p_price r26)) in
  let app28 := after app24 r27 in
  let! r29 := r27 in
  let! r30 := query_pool (st app28) "tokenx"%string "tokeny"%string r1 in
  assert ((p_liq r30) = 20006000000000);
  let r31 := mint_token app28 "tokenx"%string "bob"%string 10067 in
  let app32 := after app28 r31 in
  let! r33 := r31 in
  let r34 := approve_token app32 "tokenx"%string "bob"%string 10067 in
  let app35 := after app32 r34 in
  let! r36 := r34 in
  let dex_x_before37 := (balance app35 "tokenx"%string "dex"%string) in
  let dex_y_before38 := (balance app35 "tokeny"%string "dex"%string) in
  let! r39 := query_quote (env_of app35) (st app35) r7 true 10067 true 15258932000000000000 in
  let quoted_target_sqrt_price40 := (q_target r39) in
  let r41 := call app35 "bob"%string (Swap r7 true 10067 true quoted_target_sqrt_price40) in
  let app42 := after app35 r41 in
  let! r43 := r41 in
  let! r44 := query_pool (st app42) "tokenx"%string "tokeny"%string r1 in
  let! r45 := calculate_sqrt_price (-10) in
  assert ((p_liq r44) = 20006000000000);
  assert ((p_tick r44) = (-10));
  assert ((p_price r44) = r45);
  let bob_x46 := (balance app42 "tokenx"%string "bob"%string) in
  let bob_y47 := (balance app42 "tokeny"%string "bob"%string) in
  let dex_x_after48 := (balance app42 "tokenx"%string "dex"%string) in
  let dex_y_after49 := (balance app42 "tokeny"%string "dex"%string) in
  let delta_dex_x50 := (dex_x_after48 - dex_x_before37) in
  let delta_dex_y51 := (dex_y_before38 - dex_y_after49) in
  assert (bob_x46 = 0);
  assert (bob_y47 = 9999);
  assert (delta_dex_x50 = 10067);
  assert (delta_dex_y51 = 9999);
  assert ((p_fgx r44) = 29991002699190242927121);
  assert ((p_fgy r44) = 0);
  assert ((p_protx r44) = 1);
  assert ((p_proty r44) = 0);
  let r52 := call app42 "bob"%string (Swap r7 true 1 true 15258932000000000000) in
  let app53 := after app42 r52 in
  refused (r52);
  let r54 := approve_token app53 "tokenx"%string "alice"%string 20008000000000 in
  let app55 := after app53 r54 in
  let! r56 := r54 in
  let r57 := approve_token app55 "tokeny"%string "alice"%string 20008000000000 in
  let app58 := after app55 r57 in
  let! r59 := r57 in
  let! r60 := query_pool (st app58) "tokenx"%string "tokeny"%string r1 in
  let r61 := call app58 "alice"%string (CreatePosition r7 (-90) (-50) 20008000000000 (p_price r60) (p_price r60)) in
  let app62 := after app58 r61 in
  let! r63 := r61 in
  let r64 := mint_token app62 "tokenx"%string "bob"%string 5000 in
  let app65 := after app62 r64 in
  let! r66 := r64 in
  let r67 := approve_token app65 "tokenx"%string "bob"%string 5000 in
  let app68 := after app65 r67 in
  let! r69 := r67 in
  let! r70 := query_quote (env_of app68) (st app68) r7 true 5000 true 15258932000000000000 in
  let quoted_target_sqrt_price71 := (q_target r70) in
  let r72 := call app68 "bob"%string (Swap r7 true 5000 true quoted_target_sqrt_price71) in
  let app73 := after app68 r72 in
  let! r74 := r72 in
  let! r75 := query_pool (st app73) "tokenx"%string "tokeny"%string r1 in
  True.
Proof. replay. Qed.
