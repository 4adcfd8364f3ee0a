(** /repo/wasm: the SDK's swap simulation.
    wasm/clamm.rs, wasm/log.rs, wasm/types/sqrt_price.rs, wasm/types/token_amount.rs and the
    helpers [tick_to_position], [get_search_limit] of wasm/collections/tickmap.rs are the same
    code as the contract's with other error values, so the contract's definitions are reused;
    which error is returned is not modelled for the SDK. *)
From Verif Require Import Base Decimal SqrtPrice Clamm Log FeeGrowth Types Tick Pool Position
  Tickmap Keys State Swap Query.
From stdpp Require Import gmap.
Open Scope Z_scope.

(** wasm/consts.rs:14 *)
Definition MAX_TICK_CROSS : Z := 173.

(** wasm/collections/tickmap.rs:13-17 [Tickmap]: HashMap<u64, u64> *)
Definition tickmap := gmap Z Z.

(** tickmap.rs:131, 176: [self.bitmap.get(..).copied().unwrap_or(0)] *)
Definition map_chunk (m : tickmap) (c : Z) : Z := default 0 (m !! c).

(** tickmap.rs:130-164, the search loop (same shape as [State.next_loop]) *)
Fixpoint sdk_next_loop (n : nat) (m : tickmap) (sp chunk bit lchunk lbit : Z) : option Z :=
  match n with
  | O => None
  | S n' =>
      if (chunk <? lchunk) || ((chunk =? lchunk) && (bit <=? lbit)) then
        let shifted := Z.shiftr (map_chunk m chunk) bit in
        if negb (shifted =? 0) then
          let bit := skip_up 64 shifted bit in
          if (chunk <? lchunk) || ((chunk =? lchunk) && (bit <=? lbit)) then
            Some ((chunk * CHUNK_SIZE + bit - Z.quot MAX_TICK sp) * sp)
          else None
        else sdk_next_loop n' m sp (chunk + 1) 0 lchunk lbit
      else None
  end.

(** tickmap.rs:115-167 [Tickmap::next_initialized] *)
Definition sdk_next_initialized (m : tickmap) (t sp : Z) : res (option Z) :=
  if sp =? 0 then Panic
  else
    let limit := get_search_limit t sp true in
    if MAX_TICK <? t + sp then Ok None
    else
      let* '(chunk, bit) := tick_to_position (t + sp) sp in
      let* '(lchunk, lbit) := tick_to_position limit sp in
      Ok (sdk_next_loop (Z.to_nat (lchunk - chunk + 1)) m sp chunk bit lchunk lbit).

(** tickmap.rs:175-211 *)
Fixpoint sdk_prev_loop (n : nat) (m : tickmap) (sp chunk bit lchunk lbit : Z) : option Z :=
  match n with
  | O => None
  | S n' =>
      if (lchunk <? chunk) || ((chunk =? lchunk) && (lbit <=? bit)) then
        let value := map_chunk m chunk in
        if 0 <? value mod Z.shiftl 1 (bit + 1) then
          let bit := skip_down 64 value bit in
          if (lchunk <? chunk) || ((chunk =? lchunk) && (lbit <=? bit)) then
            Some ((chunk * CHUNK_SIZE + bit - Z.quot MAX_TICK sp) * sp)
          else None
        else if chunk =? 0 then None
        else sdk_prev_loop n' m sp (chunk - 1) (CHUNK_SIZE - 1) lchunk lbit
      else None
  end.

(** tickmap.rs:169-214 [Tickmap::prev_initialized] *)
Definition sdk_prev_initialized (m : tickmap) (t sp : Z) : res (option Z) :=
  if sp =? 0 then Panic
  else
    let limit := get_search_limit t sp false in
    let* '(chunk, bit) := tick_to_position t sp in
    let* '(lchunk, lbit) := tick_to_position limit sp in
    Ok (sdk_prev_loop (Z.to_nat (chunk - lchunk + 1)) m sp chunk bit lchunk lbit).

(** tickmap.rs:216-257 [Tickmap::get_closer_limit]; the price is unwrapped, and in the case
    without an initialized tick computed before the limit is checked *)
Definition sdk_closer_limit (m : tickmap) (limit : Z) (x_to_y : bool) (cur sp : Z)
  : res (Z * option (Z * bool)) :=
  let* closest := (if x_to_y then sdk_prev_initialized m cur sp
                   else sdk_next_initialized m cur sp) in
  match closest with
  | Some i =>
      let* price := unwrap (calculate_sqrt_price i) in
      if (x_to_y && (limit <? price)) || (negb x_to_y && (price <? limit))
      then Ok (price, Some (i, true)) else Ok (limit, None)
  | None =>
      let i := get_search_limit cur sp (negb x_to_y) in
      let* price := unwrap (calculate_sqrt_price i) in
      if cur =? i then Err TickLimitReached
      else if (x_to_y && (limit <? price)) || (negb x_to_y && (price <? limit))
      then Ok (price, Some (i, false)) else Ok (limit, None)
  end.

(** wasm/storage/tick.rs:106-124 [LiquidityTick::cross] with [current_timestamp] =
    [pool.last_timestamp] (swap.rs:133), so only the liquidity changes *)
Definition sdk_cross (t : liquidity_tick) (p : pool) : res pool :=
  let* liq :=
    (if xorb (lt_index t <=? p_tick p) (lt_sign t)
     then add_e PoolAddTickLiquidityOverflow (p_liq p) (lt_change t)
     else sub_e PoolSubTickLiquidityUnderflow (p_liq p) (lt_change t)) in
  Ok (p_set_liq p liq).

(** wasm/storage/pool.rs:133-138 [UpdatePoolTick] *)
Inductive sdk_tick :=
| SNoTick
| SInitialized (t : liquidity_tick)
| SUninitialized (index : Z).

(** wasm/storage/pool.rs:72-131 [Pool::update_tick]: (pool, total_amount, remaining, has_crossed);
    [unwrap!] panics *)
Definition sdk_update_tick (p : pool) (r : swap_result) (swap_limit : Z) (tk : sdk_tick)
    (remaining : Z) (by_in x_to_y : bool) (ft : fee_tier) : res (pool * Z * Z * bool) :=
  if (match tk with SNoTick => true | _ => false end) || negb (swap_limit =? sr_next r) then
    let* i := unwrap (get_tick_at_sqrt_price (sr_next r) (ft_spacing ft)) in
    Ok (p_set_tick p i, 0, remaining, false)
  else
    let* enough := unwrap (is_enough_amount_to_change_price remaining (sr_next r) (p_liq p)
                             (ft_fee ft) by_in x_to_y) in
    let* '(p, total, remaining, crossed, index) :=
      match tk with
      | SInitialized t =>
          if negb x_to_y || enough then
            let* p' := sdk_cross t p in
            Ok (p', 0, remaining, true, lt_index t)
          else if negb (remaining =? 0) then
            Ok (p, if by_in then remaining else 0, 0, false, lt_index t)
          else Ok (p, 0, remaining, false, lt_index t)
      | SUninitialized i => Ok (p, 0, remaining, false, i)
      | SNoTick => Panic
      end in
    Ok (p_set_tick p (if x_to_y && enough then index - ft_spacing ft else index),
        total, remaining, crossed).

(** local variables of [simulate_swap], swap.rs:52-61 *)
Record sim_state := mkSim {
  sm_pool : pool;
  sm_remaining : Z;
  sm_in : Z;
  sm_out : Z;
  sm_fee : Z;
  sm_crossed : list liquidity_tick
}.

(** swap.rs:52-54: at most one of the three flags is set, just before a [break] *)
Inductive sim_flag := Insufficient | Outdated | TooManyCrossed.

(** swap.rs:63-165: one iteration; [Some f] is a [break] after setting flag [f] *)
Definition sim_iter (m : tickmap) (ft : fee_tier) (ticks : list liquidity_tick)
    (x_to_y by_in : bool) (limit tick_limit : Z) (w : sim_state)
  : res (sim_state * option sim_flag) :=
  (* lines 64-75 *)
  match sdk_closer_limit m limit x_to_y (p_tick (sm_pool w)) (ft_spacing ft) with
  | Panic => Panic
  | Err _ => Ok (w, Some Insufficient)
  | Ok (swap_limit, limiting) =>
      (* lines 77-84 *)
      let* r := compute_swap_step (p_price (sm_pool w)) swap_limit (p_liq (sm_pool w))
                  (sm_remaining w) by_in (ft_fee ft) in
      (* lines 87-98 *)
      let* paid := add_p (sr_in r) (sr_fee r) in
      let* remaining := (if by_in then sub_p (sm_remaining w) paid
                         else sub_p (sm_remaining w) (sr_out r)) in
      let* fee := add_p (sm_fee w) (sr_fee r) in
      let p := p_set_price (sm_pool w) (sr_next r) in
      let* tin := add_p (sm_in w) paid in
      let* tout := add_p (sm_out w) (sr_out r) in
      (* lines 101-104 *)
      if (p_price p =? limit) && negb (remaining =? 0) then
        Ok (mkSim p remaining tin tout fee (sm_crossed w), Some Insufficient)
      else
        (* lines 106-124 *)
        match (match limiting with
               | Some (i, true) =>
                   match List.find (fun t => lt_index t =? i) ticks with
                   | Some t => Some (SInitialized t)
                   | None => None
                   end
               | Some (i, false) => Some (SUninitialized i)
               | None => Some SNoTick
               end) with
        | None => Ok (mkSim p remaining tin tout fee (sm_crossed w), Some Outdated)
        | Some tk =>
            (* lines 126-142 *)
            match sdk_update_tick p r swap_limit tk remaining by_in x_to_y ft with
            | Panic => Panic
            | Err _ => Ok (mkSim p remaining tin tout fee (sm_crossed w), Some Outdated)
            | Ok (p, add, remaining, crossed) =>
                (* lines 144-145 *)
                let* tin := add_p tin add in
                (* lines 147-155 *)
                let l := match tk with
                         | SInitialized t =>
                             if crossed then sm_crossed w ++ [t] else sm_crossed w
                         | _ => sm_crossed w
                         end in
                let w' := mkSim p remaining tin tout fee l in
                if (match tk with SInitialized _ => crossed | _ => false end)
                   && (MAX_TICK_CROSS <? Z.of_nat (List.length l))
                then Ok (w', Some TooManyCrossed)
                (* lines 157-165 *)
                else if (if x_to_y then p_tick p <=? tick_limit else tick_limit <=? p_tick p)
                then Ok (w', Some Insufficient)
                else Ok (w', None)
            end
        end
  end.

(** swap.rs:63-166: the loop; as for the contract, the fuel bounds the number of iterations *)
Fixpoint sim_loop (fuel : nat) (m : tickmap) (ft : fee_tier) (ticks : list liquidity_tick)
    (x_to_y by_in : bool) (limit tick_limit : Z) (w : sim_state)
  : res (sim_state * option sim_flag) :=
  if sm_remaining w =? 0 then Ok (w, None)
  else
    match fuel with
    | O => Err OutOfGas
    | S fuel' =>
        let* '(w', f) := sim_iter m ft ticks x_to_y by_in limit tick_limit w in
        match f with
        | Some f => Ok (w', Some f)
        | None => sim_loop fuel' m ft ticks x_to_y by_in limit tick_limit w'
        end
    end.

(** wasm/storage/swap_simulation.rs:8-18 [CalculateSwapResult] *)
Record sim_result := mkSimResult {
  sim_in : Z;
  sim_out : Z;
  sim_start : Z;
  sim_target : Z;
  sim_fee : Z;
  sim_crossed : list liquidity_tick;
  sim_insufficient : bool;   (* global_insufficient_liquidity *)
  sim_outdated : bool;       (* state_outdated *)
  sim_too_many : bool        (* max_ticks_crossed *)
}.

(** swap.rs:17-179 [simulate_swap] *)
Definition simulate_swap (fuel : nat) (m : tickmap) (ft : fee_tier) (p : pool)
    (ticks : list liquidity_tick) (x_to_y : bool) (amount : Z) (by_in : bool) (limit : Z)
  : res sim_result :=
  if amount =? 0 then Err AmountIsZero
  else if (if x_to_y then (p_price p <=? limit) || (MAX_SQRT_PRICE <? limit)
           else (limit <=? p_price p) || (limit <? MIN_SQRT_PRICE))
  then Err WrongLimit
  else
    let sp := ft_spacing ft in
    let tick_limit := if x_to_y then get_min_tick sp else get_max_tick sp in
    let* '(w, f) := sim_loop fuel m ft ticks x_to_y by_in limit tick_limit
                      (mkSim p amount 0 0 0 []) in
    Ok (mkSimResult (sm_in w) (sm_out w) (p_price p) (p_price (sm_pool w)) (sm_fee w)
          (sm_crossed w)
          (match f with Some Insufficient => true | _ => false end)
          (match f with Some Outdated => true | _ => false end)
          (match f with Some TooManyCrossed => true | _ => false end)).

(** wasm/custom.rs:37-77 [calculate_fee] (wasm/types/fee_growth.rs is the contract's code) *)
Definition sdk_calculate_fee (lo lo_x lo_y up up_x up_y cur gx gy in_x in_y liq : Z)
  : res (Z * Z) :=
  let* x := to_fee (wsub (fee_growth_inside lo lo_x up up_x cur gx) in_x) liq in
  let* y := to_fee (wsub (fee_growth_inside lo lo_y up up_y cur gy) in_y) liq in
  Ok (x, y).

(** ** wasm/math.rs: liquidity from the amount of one token.
    /repo/contracts/oraiswap-v3/src/logic/math.rs has the same functions (used only by its tests). *)
(** [BigOps::big_div], big_ops.rs:65-88: the dividend times 10^24 fits U256; a zero divisor and a
    result above u128 panic *)
Definition big_div (one l r : Z) : res Z := if r =? 0 then Panic else ckp U128MAX (l * one / r).

(** U256 [*] and [/] of the uint crate panic on overflow and on zero *)
Definition u256_mul_div (a b c d : Z) : res Z :=
  let* m := ckp U256MAX (a * b) in
  let* m := ckp U256MAX (m * c) in
  if d =? 0 then Panic else Ok (m / d).

(** math.rs:171-193 [calculate_x] *)
Definition sdk_calculate_x (nom den liq : Z) (up : bool) : res Z :=
  let* c := big_mul SP_ONE liq nom in
  let* c := big_div SP_ONE c den in
  ck ECast U128MAX (if up then (c + LIQ_ONE - 1) / LIQ_ONE else c / LIQ_ONE).

(** math.rs:195-217 [calculate_y]; the product of two u128 and the addition fit U256 *)
Definition sdk_calculate_y (diff liq : Z) (up : bool) : res Z :=
  let shifted := liq / LIQ_ONE in
  ck ECast U128MAX (if up then (diff * shifted + (SP_ONE - 1)) / SP_ONE
                    else diff * shifted / SP_ONE).

(** math.rs:46-94 [get_liquidity_by_x_sqrt_price] (liquidity, amount of y) *)
Definition sdk_liquidity_by_x_price (x pl pu cur : Z) (up : bool) : res (Z * Z) :=
  if pu <? cur then Err StdErr
  else if cur <? pl then
    let* n := big_mul SP_ONE pl pu in
    let* n := big_div SP_ONE n SP_ONE in
    let* d := sub_p pu pl in
    let* l := u256_mul_div x n LIQ_ONE d in
    let* l := ck ECast U128MAX l in
    Ok (l, 0)
  else
    let* n := big_mul SP_ONE cur pu in
    let* n := big_div SP_ONE n SP_ONE in
    let* d := sub_p pu cur in
    let* l := u256_mul_div x n LIQ_ONE d in
    let* l := ck ECast U128MAX l in
    let* diff := sub_p cur pl in
    let* y := sdk_calculate_y diff l up in
    Ok (l, y).

(** math.rs:122-168 [get_liquidity_by_y_sqrt_price] (liquidity, amount of x) *)
Definition sdk_liquidity_by_y_price (y pl pu cur : Z) (up : bool) : res (Z * Z) :=
  if cur <? pl then Err StdErr
  else if pu <=? cur then
    let* d := sub_p pu pl in
    let* l := u256_mul_div y SP_ONE LIQ_ONE d in
    let* l := ck ECast U128MAX l in
    Ok (l, 0)
  else
    let* d := sub_p cur pl in
    let* l := u256_mul_div y SP_ONE LIQ_ONE d in
    let* l := ck ECast U128MAX l in
    let* den := big_mul SP_ONE cur pu in
    let* den := big_div SP_ONE den SP_ONE in
    let* nom := sub_p pu cur in
    let* x := sdk_calculate_x nom den l up in
    Ok (l, x).

(** math.rs:21-44 [get_liquidity_by_x] *)
Definition sdk_liquidity_by_x (x lo up cur : Z) (round_up : bool) : res (Z * Z) :=
  if (lo <? - MAX_TICK) || (MAX_TICK <? up) then Err InvalidTickIndex
  else
    let* pl := calculate_sqrt_price lo in
    let* pu := calculate_sqrt_price up in
    sdk_liquidity_by_x_price x pl pu cur round_up.

(** math.rs:96-119 [get_liquidity_by_y] *)
Definition sdk_liquidity_by_y (y lo up cur : Z) (round_up : bool) : res (Z * Z) :=
  if (lo <? - MAX_TICK) || (MAX_TICK <? up) then Err InvalidTickIndex
  else
    let* pl := calculate_sqrt_price lo in
    let* pu := calculate_sqrt_price up in
    sdk_liquidity_by_y_price y pl pu cur round_up.

(** wasm/collections/tickmap.rs:76-82 [position_to_tick] = contracts/oraiswap-v3/src/storage/tickmap.rs:43-47.
    The i32 products panic on overflow, the remainder on a zero spacing. *)
Definition position_to_tick (chunk bit s : Z) : res Z :=
  if s =? 0 then Panic
  else
    let i32 v := if in_range (-2147483648) 2147483647 v then Ok v else Panic in
    let limit := MAX_TICK - Z.rem MAX_TICK s in
    let* a := i32 (chunk * CHUNK_SIZE) in
    let* a := i32 (a * s) in
    let* b := i32 (bit * s) in
    let* c := i32 (a + b) in
    i32 (c - limit).
