(** contracts/oraiswap-v3/src/math/log.rs *)
From Verif Require Import Base Decimal SqrtPrice.

(** log.rs:7-17 *)
Definition LOG2_ONE : Z := 4294967296.
Definition LOG2_HALF : Z := 2147483648.
Definition LOG2_TWO : Z := 8589934592.
Definition LOG2_DOUBLE_ONE : Z := 18446744073709551616.
Definition LOG2_SQRT_10001 : Z := 309801.
Definition LOG2_NEGATIVE_MAX_LOSE : Z := 300000.
Definition LOG2_ACCURACY : Z := 65536.

(** log.rs:19-21.  In range: the caller has checked price <= MAX_SQRT_PRICE < 2^96, so neither the
    u128 product nor the cast to u64 loses anything. *)
Definition sqrt_price_to_x32 (p : Z) : Z := p * LOG2_ONE / SP_ONE.

(** log.rs:23-28; [%] truncates, [rem_euclid] is [Z.modulo] for s > 0 *)
Definition align_tick_to_spacing (t s : Z) : Z :=
  if 0 <? t then t - Z.rem t s else t - t mod s.

(** log.rs:30-58 *)
Definition log2_floor_x32 (v : Z) : Z :=
  let '(v, m) := if Z.shiftl 1 32 <=? v then (Z.shiftr v 32, 32) else (v, 0) in
  let '(v, m) := if Z.shiftl 1 16 <=? v then (Z.shiftr v 16, Z.lor m 16) else (v, m) in
  let '(v, m) := if Z.shiftl 1 8 <=? v then (Z.shiftr v 8, Z.lor m 8) else (v, m) in
  let '(v, m) := if Z.shiftl 1 4 <=? v then (Z.shiftr v 4, Z.lor m 4) else (v, m) in
  let '(v, m) := if Z.shiftl 1 2 <=? v then (Z.shiftr v 2, Z.lor m 2) else (v, m) in
  if Z.shiftl 1 1 <=? v then Z.lor m 1 else m.

(** log.rs:74-82: the loop.  [delta] halves from 2^31 while it exceeds 2^16, i.e. 15 times; the
    structural argument only bounds the recursion. *)
Fixpoint log2_loop (n : nat) (y delta result : Z) : Z :=
  match n with
  | O => result
  | S n' =>
      if LOG2_ACCURACY <? delta then
        let y := y * y / LOG2_ONE in
        if LOG2_TWO <=? y then log2_loop n' (Z.shiftr y 1) (Z.shiftr delta 1) (Z.lor result delta)
        else log2_loop n' y (Z.shiftr delta 1) result
      else result
  end.

(** log.rs:60-84 [log2_iterative_approximation_x32] *)
Definition log2_iterative_approximation_x32 (x : Z) : bool * Z :=
  let '(sign, x) := if x <? LOG2_ONE then (false, LOG2_DOUBLE_ONE / (x + 1)) else (true, x) in
  let fl := log2_floor_x32 (Z.shiftr x 32) in
  let result := Z.shiftl fl 32 in
  let y := Z.shiftr x fl in
  if y =? LOG2_ONE then (sign, result)
  else (sign, log2_loop 32 y LOG2_HALF result).

(** log.rs:86-136 [get_tick_at_sqrt_price] *)
Definition get_tick_at_sqrt_price (p s : Z) : res Z :=
  if (MAX_SQRT_PRICE <? p) || (p <? MIN_SQRT_PRICE) then Err SqrtPriceOutOfRange
  else
    let '(sign, l) := log2_iterative_approximation_x32 (sqrt_price_to_x32 p) in
    let a := if sign then l / LOG2_SQRT_10001
             else (l + LOG2_NEGATIVE_MAX_LOSE) / LOG2_SQRT_10001 in
    let nearer := if sign then a else - a in
    let farther := if sign then a + 1 else - a - 1 in
    let farther_s := align_tick_to_spacing farther s in
    let nearer_s := align_tick_to_spacing nearer s in
    if farther_s =? nearer_s then Ok nearer_s
    else
      let* acc :=
        if sign then
          let* fp := calculate_sqrt_price farther in
          Ok (if fp <=? p then farther_s else nearer_s)
        else
          let* np := calculate_sqrt_price nearer in
          Ok (if np <=? p then nearer_s else farther_s) in
      Ok (if 1 <? s then align_tick_to_spacing acc s else acc).
