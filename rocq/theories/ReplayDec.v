(** Replay of the tests of the decimal library on [DecLib]: packages/decimal/src/lib.rs:27-300 (the nine examples
    [t_decimal_…], translated mechanically), packages/decimal/src/uint.rs:60-200 and the tests that the macro of
    packages/decimal-core/src generates for every decimal type ([template], once per type).  These are tests of the
    model against the expectations of the project, not proofs of properties.
    One literal differs: the exponent 100_000 of factories.rs is 1_000 here, to keep the power small. *)
From Verif Require Import Base DecLib Replay.
From stdpp Require Import strings.
Open Scope Z_scope.

(** packages/decimal/src/lib.rs:31-48: u32 with three decimals computing in u128, u16 with one, u8 with none *)
Definition RT : dec := mkDec 3 4294967295 U128MAX.
Definition QT : dec := mkDec 1 65535 U256MAX.
Definition NT : dec := mkDec 0 255 U256MAX.

(** packages/decimal/src/lib.rs:50-300 *)
Example t_decimal_from_decimal :
  let! r1 := lib_from_decimal RT RT 42 in
  assert (r1 = 42);
  let! r2 := lib_from_decimal RT QT 144 in
  assert (r2 = 14400);
  let! r3 := lib_from_decimal RT NT 3 in
  assert (r3 = 3000);
  let! r4 := lib_from_decimal QT RT 42 in
  assert (r4 = 0);
  let! r5 := lib_from_decimal QT QT 144 in
  assert (r5 = 144);
  let! r6 := lib_from_decimal QT NT 3 in
  assert (r6 = 30);
  let! r7 := lib_from_decimal NT NT 3 in
  assert (r7 = 3);
  let! r8 := lib_from_decimal NT QT 144 in
  assert (r8 = 14);
  True.
Proof. replay. Qed.

Example t_decimal_from_decimal_up :
  let! r1 := lib_from_decimal_up RT RT 42 in
  assert (r1 = 42);
  let! r2 := lib_from_decimal_up RT QT 144 in
  assert (r2 = 14400);
  let! r3 := lib_from_decimal_up RT NT 3 in
  assert (r3 = 3000);
  let! r4 := lib_from_decimal_up QT RT 42 in
  assert (r4 = 1);
  let! r5 := lib_from_decimal_up QT QT 144 in
  assert (r5 = 144);
  let! r6 := lib_from_decimal_up QT NT 3 in
  assert (r6 = 30);
  let! r7 := lib_from_decimal_up NT NT 3 in
  assert (r7 = 3);
  let! r8 := lib_from_decimal_up NT QT 144 in
  assert (r8 = 15);
  True.
Proof. replay. Qed.

Example t_decimal_ops :
  let! r1 := lib_add NT 0 0 in
  assert (r1 = 0);
  let! r2 := lib_add NT 1 2 in
  assert (r2 = 3);
  let! r3 := lib_add RT 0 0 in
  assert (r3 = 0);
  let! r4 := lib_add RT 1 2 in
  assert (r4 = 3);
  let! r5 := lib_sub NT 0 0 in
  assert (r5 = 0);
  let! r6 := lib_sub NT 2 1 in
  assert (r6 = 1);
  let! r7 := lib_sub RT 0 0 in
  assert (r7 = 0);
  let! r8 := lib_sub RT 2 1 in
  assert (r8 = 1);
  let! r9 := lib_mul NT NT 0 0 in
  assert (r9 = 0);
  let! r10 := lib_from_integer NT 1 in
  let! r11 := lib_mul NT NT 2 r10 in
  assert (r11 = 2);
  let! r12 := lib_mul RT QT 0 0 in
  assert (r12 = 0);
  let! r13 := lib_from_integer QT 1 in
  let! r14 := lib_mul RT QT 2 r13 in
  assert (r14 = 2);
  let! r15 := lib_div NT NT 0 1 in
  assert (r15 = 0);
  let! r16 := lib_from_integer NT 2 in
  let! r17 := lib_div NT NT 4 r16 in
  assert (r17 = 2);
  let! r18 := lib_div RT QT 0 1 in
  assert (r18 = 0);
  let! r19 := lib_from_integer QT 2 in
  let! r20 := lib_div RT QT 4 r19 in
  assert (r20 = 2);
  True.
Proof. replay. Qed.

Example t_decimal_big_mul :
  let! r1 := lib_from_integer QT 1 in
  let! r2 := lib_from_integer RT 1 in
  let! r3 := lib_big_mul QT RT r1 r2 in
  let! r4 := lib_big_mul_up QT RT r1 r2 in
  let! r5 := lib_from_integer QT 1 in
  assert (r3 = r5);
  let! r6 := lib_from_integer QT 1 in
  assert (r4 = r6);
  let! r7 := lib_from_integer QT 2 in
  let! r8 := lib_from_integer RT 3 in
  let! r9 := lib_big_mul QT RT r7 r8 in
  let! r10 := lib_big_mul_up QT RT r7 r8 in
  let! r11 := lib_from_integer QT 6 in
  assert (r9 = r11);
  let! r12 := lib_from_integer QT 6 in
  assert (r10 = r12);
  let! r13 := lib_from_integer NT 1 in
  let! r14 := lib_big_mul QT NT (2 ^ 15) r13 in
  let! r15 := lib_big_mul_up QT NT (2 ^ 15) r13 in
  assert (r14 = (2 ^ 15));
  assert (r15 = (2 ^ 15));
  let! r16 := lib_big_mul RT QT 879132 9383 in
  let! r17 := lib_big_mul_up RT QT 879132 9383 in
  assert (r16 = 824889555);
  let! r18 := lib_add RT 824889555 1 in
  assert (r17 = r18);
  True.
Proof. replay. Qed.

Example t_decimal_big_div :
  let! r1 := lib_from_integer QT 1 in
  let! r2 := lib_from_integer RT 1 in
  let! r3 := lib_big_div QT RT r1 r2 in
  let! r4 := lib_big_div_up QT RT r1 r2 in
  let! r5 := lib_from_integer QT 1 in
  assert (r3 = r5);
  let! r6 := lib_from_integer QT 1 in
  assert (r4 = r6);
  let! r7 := lib_from_integer QT 6 in
  let! r8 := lib_from_integer RT 3 in
  let! r9 := lib_big_div QT RT r7 r8 in
  let! r10 := lib_big_div_up QT RT r7 r8 in
  let! r11 := lib_from_integer QT 2 in
  assert (r9 = r11);
  let! r12 := lib_from_integer QT 2 in
  assert (r10 = r12);
  let! r13 := lib_from_integer RT 1 in
  let! r14 := lib_big_div QT RT (2 ^ 15) r13 in
  let! r15 := lib_big_div_up QT RT (2 ^ 15) r13 in
  assert (r14 = (2 ^ 15));
  assert (r15 = (2 ^ 15));
  let! r16 := lib_big_div RT QT 824889555 9383 in
  let! r17 := lib_big_div_up RT QT 824889555 9383 in
  assert (r16 = 879131);
  let! r18 := lib_add RT 879131 1 in
  assert (r17 = r18);
  True.
Proof. replay. Qed.

Example t_decimal_mul_to_number :
  let! r1 := lib_from_integer QT 1 in
  let! r2 := lib_from_integer QT 2 in
  let! r3 := lib_big_mul_to_value QT QT r1 r2 in
  assert (r3 = r2);
  let! r4 := lib_big_mul_to_value_up QT QT r1 r2 in
  assert (r4 = r2);
  let! r5 := lib_big_mul_to_value QT QT 65535 65535 in
  assert (r5 = 429483622);
  let! r6 := lib_big_mul_to_value_up QT QT 65535 65535 in
  assert (r6 = 429483623);
  True.
Proof. replay. Qed.

Example t_decimal_big_div_by_number :
  let! r1 := lib_from_integer QT 4 in
  let! r2 := lib_from_integer QT 2 in
  let! r3 := lib_big_div_by_number QT r1 r2 in
  assert (r3 = r2);
  let! r4 := lib_big_div_by_number_up QT r1 r2 in
  assert (r4 = r2);
  let! r5 := lib_big_div_by_number QT 65535 ((65535 * 10) + 1) in
  assert (r5 = 0);
  let! r6 := lib_big_div_by_number_up QT 65535 ((65535 * 10) + 1) in
  assert (r6 = 1);
  let! r7 := lib_big_div_by_number QT 63424 157209 in
  assert (r7 = 4);
  let! r8 := lib_big_div_by_number_up QT 63424 157209 in
  assert (r8 = 5);
  True.
Proof. replay. Qed.

Example t_decimal_mul_up :
  let! r1 := lib_mul_up QT QT 1 1 in
  assert (r1 = 1);
  let! r2 := lib_from_integer QT 1 in
  let! r3 := lib_from_integer QT 3 in
  let! r4 := lib_div QT QT r3 10 in
  let! r5 := lib_mul_up QT QT r2 r4 in
  assert (r5 = r4);
  let! r6 := lib_from_integer QT 1 in
  let! r7 := lib_mul_up NT QT 1 r6 in
  assert (r7 = 1);
  let! r8 := lib_from_integer QT 3 in
  let! r9 := lib_from_integer QT 10 in
  let! r10 := lib_div QT QT r8 r9 in
  let! r11 := lib_mul_up NT QT 3 r10 in
  assert (r11 = 1);
  True.
Proof. replay. Qed.

Example t_decimal_div_up :
  let! r1 := lib_div_up QT QT 0 1 in
  assert (r1 = 0);
  let! r2 := lib_from_integer QT 2 in
  let! r3 := lib_div_up QT QT 1 r2 in
  assert (r3 = 1);
  let! r4 := lib_from_integer RT 2 in
  let! r5 := lib_div_up RT RT 201 r4 in
  assert (r5 = 101);
  let! r6 := lib_from_integer RT 10 in
  let! r7 := lib_div_up QT RT 42 r6 in
  assert (r7 = 5);
  True.
Proof. replay. Qed.

(** packages/decimal-core/src: ops.rs, others.rs, checked_ops.rs, big_ops.rs, by_number.rs, factories.rs.
    Untyped literals are [i32]. *)
Definition I32MAX : Z := 2147483647.
Definition is (r : res Z) (v : Z) : Prop := r = Ok v.
Definition template (t : dec) : Prop :=
  let! one := one_in t (d_max t) in
  let! one_big := one_in t (d_big t) in
  (* ops.rs *)
  assert is (lib_add t 1 1) 2;
  assert is (lib_sub t 1 1) 0;
  assert is (lib_mul t t 2 one) 2;
  assert is (lib_div t t 2 one) 2;
  (* others.rs *)
  assert is (lib_mul_up t t 1 one) 1;
  assert is (lib_div_up t t 1 one) 1;
  assert is (lib_sub_abs t 1 2) 1;
  assert is (lib_sub_abs t 2 1) 1;
  (* checked_ops.rs *)
  assert is (lib_checked_add t 24 11) 35;
  refused (lib_checked_add t (d_max t) 1);
  assert is (lib_checked_sub t 35 11) 24;
  assert is (lib_checked_div t 2 one) 2;
  refused (lib_checked_div t 47 0);
  refused (lib_checked_sub t 0 1);
  (* big_ops.rs *)
  assert is (lib_big_mul t t 2 one) 2;
  assert is (lib_big_mul_up t t 2 one) 2;
  assert is (lib_big_div t t 2 one) 2;
  assert is (lib_big_div t t 29 one) 29;
  assert is (lib_big_div_up t t 2 one) 2;
  (* by_number.rs *)
  assert is (lib_big_div_by_number t 2 one_big) 2;
  assert is (lib_big_div_by_number_up t 2 one_big) 2;
  assert is (lib_checked_big_div_by_number t 2 one_big) 2;
  assert is (lib_checked_big_div_by_number_up t 2 one_big) 2;
  let! int_one := lib_from_integer t 1 in
  assert is (lib_big_mul_to_value t t 2 int_one) 2;
  assert is (lib_big_mul_to_value_up t t 2 int_one) 2;
  (* factories.rs *)
  assert is (lib_from_integer t 0) 0;
  assert is (lib_from_scale t I32MAX 0 0) 0;
  assert is (lib_from_scale_up t I32MAX 0 0) 0;
  assert is (lib_from_scale t I32MAX 0 3) 0;
  assert is (lib_from_scale_up t I32MAX 0 3) 0;
  assert is (lib_from_scale t I32MAX 42 (d_scale t)) 42;
  assert is (lib_from_scale_up t I32MAX 42 (d_scale t)) 42;
  assert is (lib_from_scale t I32MAX 42 (d_scale t + 1)) 4;
  assert is (lib_from_scale_up t I32MAX 42 (d_scale t + 1)) 5;
  assert is (lib_checked_from_scale t I32MAX 0 0) 0;
  assert is (lib_checked_from_scale t I32MAX 0 3) 0;
  assert is (lib_checked_from_scale t I32MAX 42 (d_scale t)) 42;
  assert is (lib_checked_from_scale t I32MAX 42 (d_scale t + 1)) 4;
  refused (lib_checked_from_scale t (d_max t) (d_max t) 1000);
  assert is (lib_checked_from_scale_to_value t 0 0) 0;
  assert is (lib_checked_from_scale_to_value t 0 3) 0;
  assert is (lib_checked_from_scale_to_value t 42 (d_scale t)) 42;
  assert is (lib_checked_from_scale_to_value t 42 (d_scale t + 1)) 4;
  refused (lib_checked_from_scale_to_value t (d_max t) 1000);
  assert is (lib_checked_from_scale_to_value t 1 38) 0;
  assert is (lib_checked_from_decimal_to_value t t 1) 1;
  assert is (lib_checked_from_decimal_to_value t t 42) 42;
  True.
Example t_template_sqrt_price : template SqrtPriceT. Proof. replay. Qed.
Example t_template_liquidity : template LiquidityT. Proof. replay. Qed.
Example t_template_fee_growth : template FeeGrowthT. Proof. replay. Qed.
Example t_template_percentage : template PercentageT. Proof. replay. Qed.
Example t_template_fixed_point : template FixedPointT. Proof. replay. Qed.
Example t_template_token_amount : template TokenAmountT. Proof. replay. Qed.
Example t_template_seconds : template SecondsPerLiquidityT. Proof. replay. Qed.
Example t_template_R : template RT. Proof. replay. Qed.
Example t_template_Q : template QT. Proof. replay. Qed.
Example t_template_N : template NT. Proof. replay. Qed.

(** packages/decimal/src/uint.rs:64-150 *)
Definition as_u128 (l : list Z) : Z := limb_at l 0 + 2 ^ 64 * limb_at l 1.
Example t_uint_round_trip :
  Forall (fun n => as_u128 (to_u256 n) = n /\ as_u128 (to_u320 n) = n)
    [0; 1; 1324342342433342342; U64MAX; U64MAX + 1; U64MAX + 2; U128MAX].
Proof. repeat constructor. Qed.
(** uint.rs:160-200: 456974, the largest value that fits, the next one, the largest of 320 bits *)
Example t_uint_u320_to_u256 :
  u320_to_u256 [456974; 0; 0; 0; 0] = Ok [456974; 0; 0; 0]
  /\ u320_to_u256 [U64MAX; U64MAX; U64MAX; U64MAX; 0] = Ok [U64MAX; U64MAX; U64MAX; U64MAX]
  /\ checked_u320_to_u256 [0; 0; 0; 0; 1] = None
  /\ checked_u320_to_u256 [U64MAX; U64MAX; U64MAX; U64MAX; U64MAX] = None.
Proof. replay. Qed.
