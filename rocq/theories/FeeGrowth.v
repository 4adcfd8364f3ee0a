(** contracts/oraiswap-v3/src/math/types/fee_growth.rs *)
From Verif Require Import Base Decimal.

(** fee_growth.rs:14-20: u128 wrapping arithmetic *)
Definition wadd (a b : Z) : Z := (a + b) mod U128.
Definition wsub (a b : Z) : Z := (a - b) mod U128.

(** fee_growth.rs:22-34 [from_fee] *)
Definition from_fee (liq fee : Z) : res Z :=
  let* m := ck EMul U256MAX (fee * FG_ONE) in
  let* m := ck EMul U256MAX (m * LIQ_ONE) in
  let* q := cdiv EDiv m liq in
  ck ECast U128MAX q.

(** fee_growth.rs:36-46 [to_fee]; 10^(28+6) *)
Definition to_fee (g liq : Z) : res Z :=
  let* m := ck EMul U256MAX (g * liq) in
  ck ECast U128MAX (m / (FG_ONE * LIQ_ONE)).

(** fee_growth.rs:49-98 [calculate_fee_growth_inside] for one token (the code does x and y alike) *)
Definition fee_growth_inside (lower out_lower upper out_upper cur global : Z) : Z :=
  let below := if lower <=? cur then out_lower else wsub global out_lower in
  let above := if cur <? upper then out_upper else wsub global out_upper in
  wsub (wsub global below) above.
