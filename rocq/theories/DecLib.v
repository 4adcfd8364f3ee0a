(** The generic decimal library, /repo/packages/decimal-core/src and /repo/packages/decimal/src.
    The macro generates one copy of every function per type; here the type is a parameter.
    Error texts are not modelled: every [Err] is [StdErr]. *)
From Verif Require Import Base.

(** lib.rs:26-43: scale, largest value of the underlying integer, largest value of the big type *)
Record dec := mkDec { d_scale : Z; d_max : Z; d_big : Z }.

(** base.rs:14,50-57: [one::<T>()] for an integer type with maximum [hi] panics if it does not fit;
    [checked_one] is an error; base.rs:65-70: [almost_one] *)
Definition one_in (t : dec) (hi : Z) : res Z := ckp hi (10 ^ d_scale t).
Definition checked_one_in (t : dec) (hi : Z) : res Z := ck StdErr hi (10 ^ d_scale t).
Definition almost_one_in (t : dec) (hi : Z) : res Z := ckp hi (10 ^ d_scale t - 1).
Definition div_p (n d : Z) : res Z := if d =? 0 then Panic else Ok (n / d).
Definition div_e (n d : Z) : res Z := if d =? 0 then Err StdErr else Ok (n / d).

(** ops.rs:19-42 *)
Definition lib_add (t : dec) (a b : Z) : res Z := ckp (d_max t) (a + b).
Definition lib_sub (t : dec) (a b : Z) : res Z := ckp (d_max t) (a - b).
(** ops.rs:44-62, right operand of type [r] *)
Definition lib_mul (t r : dec) (a b : Z) : res Z :=
  let* b' := ckp (d_max t) b in
  let* p := ckp (d_max t) (a * b') in
  let* o := one_in r (d_max t) in
  div_p p o.
(** ops.rs:64-82 *)
Definition lib_div (t r : dec) (a b : Z) : res Z :=
  let* o := one_in r (d_max t) in
  let* p := ckp (d_max t) (a * o) in
  let* b' := ckp (d_max t) b in
  div_p p b'.

(** checked_ops.rs:14-38 *)
Definition lib_checked_add (t : dec) (a b : Z) : res Z := ck StdErr (d_max t) (a + b).
Definition lib_checked_sub (t : dec) (a b : Z) : res Z := ck StdErr (d_max t) (a - b).
Definition lib_checked_div (t : dec) (a b : Z) : res Z :=
  let* o := one_in t (d_max t) in
  let* p := ck StdErr (d_max t) (a * o) in
  div_e p b.

(** others.rs:26-39 *)
Definition lib_mul_up (t r : dec) (a b : Z) : res Z :=
  let* b' := ckp (d_max t) b in
  let* p := ckp (d_max t) (a * b') in
  let* ao := almost_one_in r (d_max t) in
  let* p' := ckp (d_max t) (p + ao) in
  let* o := one_in r (d_max t) in
  div_p p' o.
(** others.rs:42-62 *)
Definition lib_div_up (t r : dec) (a b : Z) : res Z :=
  let* o := one_in r (d_max t) in
  let* p := ckp (d_max t) (a * o) in
  let* b' := ckp (d_max t) b in
  let* b1 := ckp (d_max t) (b' - 1) in
  let* p' := ckp (d_max t) (p + b1) in
  div_p p' b'.
(** others.rs:65-73 *)
Definition lib_sub_abs (t : dec) (a b : Z) : res Z := if b <? a then lib_sub t a b else lib_sub t b a.

(** big_ops.rs:24-41 *)
Definition lib_big_mul (t r : dec) (a b : Z) : res Z :=
  let* a' := ckp (d_big t) a in
  let* b' := ckp (d_big t) b in
  let* p := ckp (d_big t) (a' * b') in
  let* o := one_in r (d_big t) in
  let* q := div_p p o in
  ckp (d_max t) q.
(** big_ops.rs:43-63 *)
Definition lib_big_mul_up (t r : dec) (a b : Z) : res Z :=
  let* a' := ckp (d_big t) a in
  let* b' := ckp (d_big t) b in
  let* p := ckp (d_big t) (a' * b') in
  let* ao := almost_one_in r (d_big t) in
  let* p' := ckp (d_big t) (p + ao) in
  let* o := one_in r (d_big t) in
  let* q := div_p p' o in
  ckp (d_max t) q.
(** big_ops.rs:65-82 *)
Definition lib_big_div (t r : dec) (a b : Z) : res Z :=
  let* a' := ckp (d_big t) a in
  let* o := one_in r (d_big t) in
  let* p := ckp (d_big t) (a' * o) in
  let* b' := ckp (d_big t) b in
  let* q := div_p p b' in
  ckp (d_max t) q.
(** big_ops.rs:83-103 *)
Definition lib_checked_big_div (t r : dec) (a b : Z) : res Z :=
  let* a' := ck StdErr (d_big t) a in
  let* o := one_in r (d_big t) in
  let* p := ck StdErr (d_big t) (a' * o) in
  let* b' := ck StdErr (d_big t) b in
  let* q := div_e p b' in
  ck StdErr (d_max t) q.
(** big_ops.rs:105-129 *)
Definition lib_big_div_up (t r : dec) (a b : Z) : res Z :=
  let* a' := ckp (d_big t) a in
  let* o := one_in r (d_big t) in
  let* p := ckp (d_big t) (a' * o) in
  let* b' := ckp (d_big t) b in
  let* b1 := ckp (d_big t) (b' - 1) in
  let* p' := ckp (d_big t) (p + b1) in
  let* q := div_p p' b' in
  ckp (d_max t) q.

(** by_number.rs:18-62: division by a value [b] of the big type *)
Definition lib_big_div_by_number (t : dec) (a b : Z) : res Z :=
  let* a' := ckp (d_big t) a in
  let* o := one_in t (d_big t) in
  let* p := ckp (d_big t) (a' * o) in
  let* q := div_p p b in
  ckp (d_max t) q.
Definition lib_checked_big_div_by_number (t : dec) (a b : Z) : res Z :=
  let* a' := ck StdErr (d_big t) a in
  let* o := checked_one_in t (d_big t) in
  let* p := ck StdErr (d_big t) (a' * o) in
  let* q := div_e p b in
  ck StdErr (d_max t) q.
Definition lib_big_div_by_number_up (t : dec) (a b : Z) : res Z :=
  let* a' := ckp (d_big t) a in
  let* o := one_in t (d_big t) in
  let* p := ckp (d_big t) (a' * o) in
  let* b1 := ckp (d_big t) (b - 1) in
  let* p' := ckp (d_big t) (p + b1) in
  let* q := div_p p' b in
  ckp (d_max t) q.
Definition lib_checked_big_div_by_number_up (t : dec) (a b : Z) : res Z :=
  let* a' := ck StdErr (d_big t) a in
  let* o := checked_one_in t (d_big t) in
  let* p := ck StdErr (d_big t) (a' * o) in
  let* b1 := ck StdErr (d_big t) (b - 1) in
  let* p' := ck StdErr (d_big t) (p + b1) in
  let* q := div_e p' b in
  ck StdErr (d_max t) q.

(** by_number.rs:71-95: products that stay in the big type *)
Definition lib_big_mul_to_value (t r : dec) (a b : Z) : res Z :=
  let* a' := ckp (d_big t) a in
  let* b' := ckp (d_big t) b in
  let* p := ckp (d_big t) (a' * b') in
  let* o := one_in r (d_big t) in
  div_p p o.
Definition lib_big_mul_to_value_up (t r : dec) (a b : Z) : res Z :=
  let* a' := ckp (d_big t) a in
  let* b' := ckp (d_big t) b in
  let* p := ckp (d_big t) (a' * b') in
  let* ao := almost_one_in r (d_big t) in
  let* p' := ckp (d_big t) (p + ao) in
  let* o := one_in r (d_big t) in
  div_p p' o.

(** factories.rs:32-40 *)
Definition lib_from_integer (t : dec) (v : Z) : res Z :=
  let* b := ckp (d_max t) v in
  let* o := one_in t (d_max t) in
  ckp (d_max t) (b * o).
(** factories.rs:42-55: a value of an integer type with maximum [hi] at another scale; 10u128.checked_pow *)
Definition lib_from_scale (t : dec) (hi v scale : Z) : res Z :=
  if scale <? d_scale t then
    let* b := ckp (d_max t) v in
    let* m := ckp U128MAX (10 ^ (d_scale t - scale)) in
    let* m' := ckp (d_max t) m in
    ckp (d_max t) (b * m')
  else
    let* m := ckp U128MAX (10 ^ (scale - d_scale t)) in
    let* m' := ckp hi m in
    let* q := div_p v m' in
    ckp (d_max t) q.
(** factories.rs:57-71 *)
Definition lib_checked_from_scale (t : dec) (hi v scale : Z) : res Z :=
  if scale <? d_scale t then
    let* b := ck StdErr (d_max t) v in
    let* m := ck StdErr U128MAX (10 ^ (d_scale t - scale)) in
    let* m' := ck StdErr (d_max t) m in
    ck StdErr (d_max t) (b * m')
  else
    let* m := ck StdErr U128MAX (10 ^ (scale - d_scale t)) in
    let* m' := ck StdErr hi m in
    let* q := div_e v m' in
    ck StdErr (d_max t) q.
(** factories.rs:73-91 *)
Definition lib_from_scale_up (t : dec) (hi v scale : Z) : res Z :=
  if scale <? d_scale t then
    let* b := ckp (d_max t) v in
    let* m := ckp U128MAX (10 ^ (d_scale t - scale)) in
    let* m' := ckp (d_max t) m in
    ckp (d_max t) (b * m')
  else
    let* m := ckp U128MAX (10 ^ (scale - d_scale t)) in
    let* m' := ckp hi m in
    let* m1 := ckp hi (m' - 1) in
    let* n := ckp hi (v + m1) in
    let* q := div_p n m' in
    ckp (d_max t) q.
(** factories.rs:117-141 *)
Definition lib_checked_from_scale_to_value (t : dec) (v scale : Z) : res Z :=
  if scale <? d_scale t then
    let* b := ck StdErr (d_max t) v in
    let* b' := ck StdErr (d_big t) b in
    let* m := ck StdErr U128MAX (10 ^ (d_scale t - scale)) in
    let* m' := ck StdErr (d_big t) m in
    ck StdErr (d_big t) (b' * m')
  else
    let* m := ck StdErr U128MAX (10 ^ (scale - d_scale t)) in
    let* b := ck StdErr (d_max t) v in
    let* b' := ck StdErr (d_big t) b in
    let* m' := ck StdErr (d_big t) m in
    div_e b' m'.
(** factories.rs:94-109 and 144-151: from a decimal of type [r] *)
Definition lib_from_decimal (t r : dec) (v : Z) : res Z := lib_from_scale t (d_max r) v (d_scale r).
Definition lib_checked_from_decimal (t r : dec) (v : Z) : res Z := lib_checked_from_scale t (d_max r) v (d_scale r).
Definition lib_from_decimal_up (t r : dec) (v : Z) : res Z := lib_from_scale_up t (d_max r) v (d_scale r).
Definition lib_checked_from_decimal_to_value (t r : dec) (v : Z) : res Z := lib_checked_from_scale_to_value t v (d_scale r).

(** The declared types, contracts/oraiswap-v3/src/math/types (the SDK's are the same):
    percentage.rs:4 is the only one on u64; the default big type is U256 (lib.rs:29). *)
Definition SqrtPriceT : dec := mkDec 24 U128MAX U256MAX.
Definition LiquidityT : dec := mkDec 6 U128MAX U256MAX.
Definition FeeGrowthT : dec := mkDec 28 U128MAX U256MAX.
Definition PercentageT : dec := mkDec 12 U64MAX U256MAX.
Definition FixedPointT : dec := mkDec 12 U128MAX U256MAX.
Definition TokenAmountT : dec := mkDec 0 U128MAX U256MAX.
Definition SecondsPerLiquidityT : dec := mkDec 24 U128MAX U256MAX.

(** uint.rs: big integers are little-endian lists of u64 limbs.  [low_u64] and [>>] are those of the
    [uint] crate: a shift by 64*k drops k limbs and keeps the width. *)
Definition limb_at (l : list Z) (k : nat) : Z := nth k l 0.
Definition shift_limbs (l : list Z) (k : nat) : list Z := skipn k l ++ repeat 0 (Nat.min k (List.length l)).
Definition low_u64 (l : list Z) : Z := limb_at l 0.
Definition all_zero (l : list Z) : bool := forallb (fun x => x =? 0) l.
(** uint.rs:21-32 *)
Definition checked_u320_to_u256 (n : list Z) : option (list Z) :=
  if negb (all_zero (shift_limbs n 4)) then None
  else Some [low_u64 n; low_u64 (shift_limbs n 1); low_u64 (shift_limbs n 2); low_u64 (shift_limbs n 3)].
(** uint.rs:35-37 *)
Definition u320_to_u256 (n : list Z) : res (list Z) := match checked_u320_to_u256 n with Some x => Ok x | None => Panic end.
(** uint.rs:40-42: [as u64] truncates *)
Definition to_u256 (n : Z) : list Z := [n mod 2 ^ 64; Z.shiftr n 64 mod 2 ^ 64; 0; 0].
(** uint.rs:45-53 *)
Definition u256_to_u320 (n : list Z) : list Z :=
  [low_u64 n; low_u64 (shift_limbs n 1); low_u64 (shift_limbs n 2); low_u64 (shift_limbs n 3); 0].
(** uint.rs:56-58 *)
Definition to_u320 (n : Z) : list Z := u256_to_u320 (to_u256 n).
