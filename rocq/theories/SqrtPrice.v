(** contracts/oraiswap-v3/src/math/types/sqrt_price.rs and math/consts.rs *)
From Verif Require Import Base Decimal.

(** math/consts.rs:1-7 *)
Definition MAX_TICK : Z := 221818.
Definition MIN_TICK : Z := -221818.
Definition MAX_SQRT_PRICE : Z := 65535383934512647000000000000.
Definition MIN_SQRT_PRICE : Z := 15258932000000000000.
Definition TICK_SEARCH_RANGE : Z := 256.

(** sqrt_price.rs:18-38 [big_div_values_to_token] *)
Definition big_div_values_to_token (n d : Z) : res Z :=
  let* m := ck EMul U320MAX (n * SP_ONE) in
  let* q := cdiv EDiv m d in
  let* q := ck U320ToU256 U256MAX q in
  ck ECast U128MAX (q / SP_ONE).

(** sqrt_price.rs:40-64 [big_div_values_to_token_up]; [denominator - 1] (line 50) panics on 0 *)
Definition big_div_values_to_token_up (n d : Z) : res Z :=
  let* m := ck EMul U320MAX (n * SP_ONE) in
  let* d1 := ckp U320MAX (d - 1) in
  let* a := ck EAdd U320MAX (m + d1) in
  let* q := cdiv EDiv a d in
  let* q := ck U320ToU256 U256MAX q in
  let* q := ck EAdd U256MAX (q + (SP_ONE - 1)) in
  ck ECast U128MAX (q / SP_ONE).

(** sqrt_price.rs:80-93 [checked_big_div_values] (all in U256) *)
Definition checked_big_div_values (n d : Z) : res Z :=
  let* m := ck EMul U256MAX (n * SP_ONE) in
  let* q := cdiv EDiv m d in
  ck ECast U128MAX q.

(** sqrt_price.rs:95-116 [checked_big_div_values_up] (in U320) *)
Definition checked_big_div_values_up (n d : Z) : res Z :=
  let* m := ck EMul U320MAX (n * SP_ONE) in
  let* d1 := ck ESub U320MAX (d - 1) in
  let* a := ck EAdd U320MAX (m + d1) in
  let* q := cdiv EDiv a d in
  ck ECast U128MAX q.

(** sqrt_price.rs:150-203: the factor table, lowest bit first *)
Definition tick_factors : list Z :=
  [ 1000049998750; 1000100000000; 1000200010000; 1000400060004; 1000800280056;
    1001601200560; 1003204964963; 1006420201726; 1012881622442; 1025929181080;
    1052530684591; 1107820842005; 1227267017980; 1506184333421; 2268591246242;
    5146506242525; 26486526504348; 701536086265529 ].

(** sqrt_price.rs:150-203: [if tick & (1 << k) != 0 { sqrt_price *= c_k }] for k = k0, k0+1, ...;
    [*=] is decimal-core ops.rs:44-61 on u128 (panic on overflow). *)
Fixpoint sqrt_chain (factors : list Z) (tick : Z) (k : Z) (acc : Z) : res Z :=
  match factors with
  | [] => Ok acc
  | c :: rest =>
      if Z.testbit tick k then
        let* m := ckp U128MAX (acc * c) in
        sqrt_chain rest tick (k + 1) (m / FP_ONE)
      else sqrt_chain rest tick (k + 1) acc
  end.

(** sqrt_price.rs:140-216 [calculate_sqrt_price] = [SqrtPrice::from_tick] (lines 14-16).
    Final conversion: [checked_from_decimal] scales by 10^(24-12) (factories.rs:57-71). *)
Definition calculate_sqrt_price (i : Z) : res Z :=
  let tick := Z.abs i in
  if MAX_TICK <? tick then Err TickOverBounds
  else
    let* sp := sqrt_chain tick_factors tick 0 FP_ONE in
    if 0 <=? i then ck ParseFromScale U128MAX (sp * 1000000000000)
    else
      let* q := cdiv CheckedDiv (FP_ONE * FP_ONE) sp in
      ck ParseScale U128MAX (q * 1000000000000).

(** sqrt_price.rs:218-226; Rust integer division truncates *)
Definition get_max_tick (s : Z) : Z := Z.quot MAX_TICK s * s.
Definition get_min_tick (s : Z) : Z := Z.quot MIN_TICK s * s.

(** sqrt_price.rs:119-138 *)
Definition check_tick_to_sqrt_price_relationship (tick s price : Z) : res bool :=
  if MAX_TICK <? tick + s then
    let* m := calculate_sqrt_price (get_max_tick s) in
    Ok (price =? m)
  else
    let* lo := calculate_sqrt_price tick in
    let* up := calculate_sqrt_price (tick + s) in
    Ok (negb ((up <=? price) || (price <? lo))).
