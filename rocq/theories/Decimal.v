(** Fixed-point decimals, /repo/packages/decimal-core/src.  Every decimal is modelled by its
    raw integer ([Decimal::get]). *)
From Verif Require Import Base.

(** [Decimal::one], base.rs:14,50-55, for the scales declared in
    contracts/oraiswap-v3/src/math/types: SqrtPrice 24 (sqrt_price.rs:8), Liquidity 6
    (liquidity.rs:4), FeeGrowth 28 (fee_growth.rs:8), Percentage 12 (percentage.rs:4),
    FixedPoint 12 (fixed_point.rs:4), TokenAmount 0 (token_amount.rs:9). *)
Definition SP_ONE : Z := 1000000000000000000000000.
Definition LIQ_ONE : Z := 1000000.
Definition FG_ONE : Z := 10000000000000000000000000000.
Definition PCT_ONE : Z := 1000000000000.
Definition FP_ONE : Z := 1000000000000.

(** native [Add]/[Sub] of u128 decimals, ops.rs:21-42: panic on overflow *)
Definition add_p (a b : Z) : res Z := ckp U128MAX (a + b).
Definition sub_p (a b : Z) : res Z := ckp U128MAX (a - b).

(** [CheckedOps::checked_add/checked_sub], checked_ops.rs:14-26, with the caller's error *)
Definition add_e (e : err) (a b : Z) : res Z := ck e U128MAX (a + b).
Definition sub_e (e : err) (a b : Z) : res Z := ck e U128MAX (a - b).

(** [BigOps::big_mul], big_ops.rs:24-41, right operand of scale [one].  The product of two u128
    fits U256, so only the final cast can panic. *)
Definition big_mul (one l r : Z) : res Z := ckp U128MAX (l * r / one).

(** [BigOps::big_mul_up], big_ops.rs:43-63 *)
Definition big_mul_up (one l r : Z) : res Z := ckp U128MAX ((l * r + (one - 1)) / one).

(** [ToValue::big_mul_to_value], by_number.rs:71-81: the U256 result is not cast *)
Definition mul_to_value (one l r : Z) : Z := l * r / one.

(** [ToValue::big_mul_to_value_up], by_number.rs:84-95 *)
Definition mul_to_value_up (one l r : Z) : Z := (l * r + (one - 1)) / one.

(** [Percentage::from_integer(1) - p], ops.rs:32-42 on u64: panics if p > 100% *)
Definition pct_complement (p : Z) : res Z := ckp U64MAX (PCT_ONE - p).
