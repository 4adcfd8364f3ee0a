(** contracts/oraiswap-v3/src/entrypoints/common.rs: ticks, swaps, routes; interface.rs: assets *)
From Verif Require Import Base Decimal SqrtPrice Clamm Log FeeGrowth Types Tick Pool Position
  Tickmap Keys State.
From stdpp Require Import gmap strings.
Open Scope Z_scope.

(** common.rs:28-42 [create_tick] *)
Definition create_tick (s : store) (now : Z) (k : pool_key) (index : Z) : res (store * tick) :=
  let* _ := check_tick index (ft_spacing (pk_tier k)) in
  let* p := get_pool s k in
  let* t := tick_create index p now in
  let* s := add_tick s k index t in
  let* s := flip_bitmap s true index (ft_spacing (pk_tier k)) k in
  Ok (s, t).

(** local variables of the swap loop, common.rs:57-83 *)
Record swap_state := mkSwapState {
  sw_pool : pool;
  sw_remaining : Z;
  sw_in : Z;
  sw_out : Z;
  sw_fee : Z;           (* event_fee_amount *)
  sw_ticks : list tick  (* crossed ticks, in order *)
}.

(** common.rs:85-170: one iteration of the loop *)
Definition swap_iter (s : store) (now : Z) (k : pool_key) (x_to_y by_in : bool)
    (limit tick_limit : Z) (w : swap_state) : res swap_state :=
  let ft := pk_tier k in
  let* '(swap_limit, limiting) :=
    get_closer_limit s limit x_to_y (p_tick (sw_pool w)) (ft_spacing ft) k in
  let* r := compute_swap_step (p_price (sw_pool w)) swap_limit (p_liq (sw_pool w))
              (sw_remaining w) by_in (ft_fee ft) in
  (* lines 105-113 *)
  let* paid := add_p (sr_in r) (sr_fee r) in
  let* remaining := (if by_in then sub_e ESub (sw_remaining w) paid
                     else sub_e ESub (sw_remaining w) (sr_out r)) in
  (* lines 115-121 *)
  let* p := add_fee (sw_pool w) (sr_fee r) x_to_y (cf_protocol_fee (st_config s)) in
  let* fee := add_p (sw_fee w) (sr_fee r) in
  let p := p_set_price p (sr_next r) in
  let* tin := add_p (sw_in w) paid in
  let* tout := add_p (sw_out w) (sr_out r) in
  (* lines 124-126 *)
  if (p_price p =? limit) && negb (remaining =? 0) then Err PriceLimitReached
  else
    (* lines 128-139 *)
    let* tk := (match limiting with
                | Some (i, true) => let* t := get_tick s k i in Ok (TickInitialized t)
                | Some (i, false) => Ok (TickUninitialized i)
                | None => Ok NoTick
                end) in
    (* lines 141-160 *)
    let* '(p, tk, add, remaining, crossed) :=
      pool_update_tick p r swap_limit tk remaining by_in x_to_y now
        (cf_protocol_fee (st_config s)) ft in
    let* tin := add_p tin add in
    let ticks := match tk with
                 | TickInitialized t => if crossed then sw_ticks w ++ [t] else sw_ticks w
                 | _ => sw_ticks w
                 end in
    (* lines 162-169 *)
    if (if x_to_y then p_tick p <=? tick_limit else tick_limit <=? p_tick p)
    then Err TickLimitReached
    else Ok (mkSwapState p remaining tin tout fee ticks).

(** common.rs:85-170: the loop *)
Fixpoint swap_loop (gas : nat) (s : store) (now : Z) (k : pool_key) (x_to_y by_in : bool)
    (limit tick_limit : Z) (w : swap_state) : res swap_state :=
  if sw_remaining w =? 0 then Ok w
  else
    match gas with
    | O => Err OutOfGas
    | S gas' =>
        let* w' := swap_iter s now k x_to_y by_in limit tick_limit w in
        swap_loop gas' s now k x_to_y by_in limit tick_limit w'
    end.

(** interface.rs:13-22 [CalculateSwapResult] *)
Record calc_result := mkCalc {
  cr_in : Z;
  cr_out : Z;
  cr_start : Z;
  cr_target : Z;
  cr_fee : Z;
  cr_pool : pool;
  cr_ticks : list tick
}.

(** common.rs:44-184 [calculate_swap] *)
Definition calculate_swap (gas : nat) (s : store) (now : Z) (k : pool_key) (x_to_y : bool)
    (amount : Z) (by_in : bool) (limit : Z) : res calc_result :=
  if amount =? 0 then Err AmountIsZero
  else
    let* p := get_pool s k in
    if (if x_to_y then (p_price p <=? limit) || (MAX_SQRT_PRICE <? limit)
        else (limit <=? p_price p) || (limit <? MIN_SQRT_PRICE))
    then Err WrongLimit
    else
      let sp := ft_spacing (pk_tier k) in
      let tick_limit := if x_to_y then get_min_tick sp else get_max_tick sp in
      let* w := swap_loop gas s now k x_to_y by_in limit tick_limit
                  (mkSwapState p amount 0 0 0 []) in
      if sw_out w =? 0 then Err NoGainSwap
      else Ok (mkCalc (sw_in w) (sw_out w) (p_price p) (p_price (sw_pool w)) (sw_fee w)
                 (sw_pool w) (sw_ticks w)).

(** interface.rs:39-47 [AssetInfo::from_denom], 57-90 [Asset::transfer]: messages to the sender *)
Definition asset_transfer (e : env) (i : msg_info) (denom : string) (amount : Z) : list out_msg :=
  if amount =? 0 then []
  else if e_addr_ok e denom then [Cw20Transfer denom (i_sender i) amount]
  else [BankSend (i_sender i) denom amount].

(** interface.rs:92-149 [Asset::transfer_from] *)
Definition asset_transfer_from (e : env) (i : msg_info) (denom : string) (amount : Z)
  : res (list out_msg) :=
  if amount =? 0 then Ok []
  else if e_addr_ok e denom then
    Ok [Cw20TransferFrom denom (i_sender i) (e_self e) amount]
  else
    match List.find (fun c => String.eqb (c_denom c) denom) (i_funds i) with
    | Some c =>
        if amount <=? c_amount c then
          let refund := c_amount c - amount in
          Ok (if refund =? 0 then [] else [BankSend (i_sender i) denom refund])
        else Err InvalidFunds
    | None => Err InvalidFunds
    end.

(** common.rs:210-212 *)
Fixpoint update_ticks (s : store) (k : pool_key) (l : list tick) : res store :=
  match l with
  | [] => Ok s
  | t :: l' => let* s := update_tick s k (t_index t) t in update_ticks s k l'
  end.

(** common.rs:187-236 [swap_internal]: (store, messages, result) *)
Definition swap_internal (e : env) (i : msg_info) (s : store) (k : pool_key) (x_to_y : bool)
    (amount : Z) (by_in : bool) (limit : Z) : res (store * list out_msg * calc_result) :=
  let* r := calculate_swap (e_gas e) s (e_millis e) k x_to_y amount by_in limit in
  let* s := update_ticks s k (cr_ticks r) in
  let s := save_pool s k (cr_pool r) in
  let '(t0, t1) := if x_to_y then (pk_x k, pk_y k) else (pk_y k, pk_x k) in
  let* m0 := asset_transfer_from e i t0 (cr_in r) in
  Ok (s, m0 ++ asset_transfer e i t1 (cr_out r), r).

(** common.rs:251-256, 287-292 *)
Definition hop_limit (x_to_y : bool) : Z := if x_to_y then MIN_SQRT_PRICE else MAX_SQRT_PRICE.

(** common.rs:238-275 [swap_route_internal]: (store, messages, amount out) *)
Fixpoint swap_route_internal (e : env) (i : msg_info) (s : store) (amount : Z)
    (hops : list swap_hop) : res (store * list out_msg * Z) :=
  match hops with
  | [] => Ok (s, [], amount)
  | h :: rest =>
      let* '(s, m, r) := swap_internal e i s (hop_key h) (hop_x_to_y h) amount true
                           (hop_limit (hop_x_to_y h)) in
      let* '(s, ms, out) := swap_route_internal e i s (cr_out r) rest in
      Ok (s, m ++ ms, out)
  end.

(** common.rs:277-307 [route] *)
Fixpoint route (e : env) (s : store) (amount : Z) (hops : list swap_hop) : res Z :=
  match hops with
  | [] => Ok amount
  | h :: rest =>
      let* r := calculate_swap (e_gas e) s (e_millis e) (hop_key h) (hop_x_to_y h) amount true
                  (hop_limit (hop_x_to_y h)) in
      route e s (cr_out r) rest
  end.

(** common.rs:329-343 [remove_tick_and_flip_bitmap] *)
Definition remove_tick_and_flip_bitmap (s : store) (k : pool_key) (t : tick) : res store :=
  if negb (t_gross t =? 0) then Err NotEmptyTickDeinitialization
  else
    let* s := flip_bitmap s false (t_index t) (ft_spacing (pk_tier k)) k in
    remove_tick s k (t_index t).
