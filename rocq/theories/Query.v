(** contracts/oraiswap-v3/src/entrypoints/query.rs and the listing functions of state.rs *)
From Verif Require Import Base Decimal SqrtPrice Clamm Log Types Tick Pool Tickmap Keys State
  Swap Exec.
From stdpp Require Import gmap strings sorting.
Open Scope Z_scope.

(** interface.rs [QuoteResult] *)
Record quote_result := mkQuote {
  q_in : Z;
  q_out : Z;
  q_target : Z;
  q_ticks : list tick
}.

(** query.rs:22-31, 62-65, 148-151 *)
Definition query_admin (s : store) : string := cf_admin (st_config s).
Definition query_protocol_fee (s : store) : Z := cf_protocol_fee (st_config s).
Definition query_fee_tiers (s : store) : list fee_tier := cf_fee_tiers (st_config s).
Definition query_fee_tier_exist (s : store) (t : fee_tier) : bool :=
  bool_decide (t ∈ cf_fee_tiers (st_config s)).

(** query.rs:77-85 *)
Definition query_pool (s : store) (t0 t1 : string) (ft : fee_tier) : res pool :=
  let* k := pool_key_new t0 t1 ft in get_pool s k.

(** query.rs:104-111 *)
Definition query_is_tick_initialized (s : store) (k : pool_key) (i : Z) : res bool :=
  get_bitmap s i (ft_spacing (pk_tier k)) k.

(** [(a..b).map(f).collect::<Result<_>>()] *)
Fixpoint collect {A B} (f : A -> res B) (l : list A) : res (list B) :=
  match l with
  | [] => Ok []
  | a :: l' => let* b := f a in let* bs := collect f l' in Ok (b :: bs)
  end.

(** state.rs:215-217: the index range of a page of positions; u32 addition panics *)
Definition position_page (s : store) (a : string) (limit offset : option Z) : res (list Z) :=
  let from := default 0 offset in
  let* t := ckp U32MAX (from + default MAX_LIMIT limit) in
  let to := Z.min (get_position_length s a) t in
  Ok (seqZ from (to - from)).

(** state.rs:209-221, query.rs:49-56 *)
Definition query_positions (s : store) (a : string) (limit offset : option Z)
  : res (list position) :=
  let* l := position_page s a limit offset in collect (get_position s a) l.

(** state.rs:223-235, query.rs:461-473 *)
Definition query_tokens (s : store) (a : string) (start limit : option Z) : res (list string) :=
  let* l := position_page s a limit start in Ok (map (position_key_bytes a) l).

(** Ascending iteration over raw keys: the entries sorted by key, those after [start] *)
Definition key_le {A} (a b : string * A) : Prop := String.leb (fst a) (fst b) = true.
Global Instance key_le_dec {A} : RelDecision (@key_le A).
Proof. intros a b. unfold key_le. apply _. Defined.

Definition after {A} (start : option string) (l : list (string * A)) : list (string * A) :=
  match start with
  | None => l
  | Some k => List.filter (fun p => String.ltb k (fst p)) l
  end.

Definition range_raw {A} (start : option string) (l : list (string * A)) : list (string * A) :=
  after start (merge_sort key_le l).

(** [limit.unwrap_or(MAX_LIMIT).min(MAX_LIMIT)] *)
Definition page_size (limit : option Z) : nat := Z.to_nat (Z.min (default MAX_LIMIT limit) MAX_LIMIT).

(** raw keys of the stored pools; encoding succeeded when they were stored *)
Definition raw_pools (s : store) : list (string * pool) :=
  map (fun kp => (match pool_key_bytes (fst kp) with Ok b => b | _ => EmptyString end, snd kp))
      (map_to_list (st_pools s)).

(** state.rs:35-58, query.rs:116-122 *)
Definition query_pools (s : store) (limit : option Z) (start : option pool_key)
  : res (list (pool_key * pool)) :=
  let* st := (match start with
              | None => Ok None
              | Some k => let* b := pool_key_bytes k in Ok (Some b)
              end) in
  collect (fun kp => let* k := pool_key_from_bytes (fst kp) in Ok (k, snd kp))
          (take (page_size limit) (range_raw st (raw_pools s))).

(** query.rs:127-145 *)
Definition query_pools_for_pair (s : store) (t0 t1 : string) : res (list (pool_key * pool)) :=
  let* k := pool_key_new t0 t1 (mkFeeTier 0 0) in
  Ok (omap (fun ft => let k := mkPoolKey (pk_x k) (pk_y k) ft in
                      match get_pool s k with Ok p => Some (k, p) | _ => None end)
           (cf_fee_tiers (st_config s))).

(** interface.rs [PositionTick] *)
Record position_tick := mkPTick { pt_index : Z; pt_fox : Z; pt_foy : Z; pt_secs : Z }.
Definition to_position_tick (t : tick) : position_tick :=
  mkPTick (t_index t) (t_fox t) (t_foy t) (t_secs t).

(** query.rs:170-198 *)
Fixpoint position_ticks_loop (l : list Z) (s : store) (a : string) (acc : list position_tick)
  : list position_tick :=
  match l with
  | [] => acc
  | i :: l' =>
      let acc :=
        match get_position s a i with
        | Ok po =>
            acc ++ (match get_tick s (po_key po) (po_lower po) with
                    | Ok t => [to_position_tick t] | _ => [] end)
                ++ (match get_tick s (po_key po) (po_upper po) with
                    | Ok t => [to_position_tick t] | _ => [] end)
        | _ => acc
        end in
      if POSITION_TICK_LIMIT <=? Z.of_nat (List.length acc) then acc
      else position_ticks_loop l' s a acc
  end.

(** query.rs:158-201 *)
Definition query_position_ticks (s : store) (a : string) (offset : Z) : res (list position_tick) :=
  let n := get_position_length s a in
  if n <? offset then Err InvalidOffset
  else Ok (position_ticks_loop (seqZ offset (n - offset)) s a []).

(** common.rs:309-327 [tickmap_slice] *)
Definition tickmap_slice (s : store) (range : list Z) (k : pool_key) : list (Z * Z) :=
  take (Z.to_nat MAX_TICKMAP_QUERY_SIZE)
       (omap (fun c => match get_bitmap_item s c k with Ok v => Some (c, v) | _ => None end) range).

(** query.rs:218-243 *)
Definition query_tickmap (s : store) (k : pool_key) (lower upper : Z) (x_to_y : bool)
  : res (list (Z * Z)) :=
  let sp := ft_spacing (pk_tier k) in
  let* '(c0, _) := tick_to_position lower sp in
  let* '(c1, _) := tick_to_position upper sp in
  let lo := Z.max (get_min_chunk sp) c0 in
  let hi := Z.min (get_max_chunk sp) c1 in
  let range := seqZ lo (hi - lo + 1) in
  Ok (tickmap_slice s (if x_to_y then rev range else range) k).

(** storage/tick.rs [LiquidityTick] *)
Record liquidity_tick := mkLTick { lt_index : Z; lt_change : Z; lt_sign : bool }.
Definition to_liquidity_tick (t : tick) : liquidity_tick :=
  mkLTick (t_index t) (t_change t) (t_sign t).

(** query.rs:255-273 *)
Definition query_liquidity_ticks (s : store) (k : pool_key) (l : list Z)
  : res (list liquidity_tick) :=
  if LIQUIDITY_TICK_LIMIT <? Z.of_nat (List.length l) then Err TickLimitReached
  else collect (fun i => let* t := get_tick s k i in Ok (to_liquidity_tick t)) l.

(** [u64::count_ones] *)
Fixpoint count_ones_aux (n : nat) (v : Z) : Z :=
  match n with
  | O => 0
  | S n' => v mod 2 + count_ones_aux n' (v / 2)
  end.
Definition count_ones (v : Z) : Z := count_ones_aux 64 v.

(** query.rs:310-313: u8 subtraction and a u64 shift by 64 both panic *)
Definition active_bits_in_range (chunk min_bit max_bit : Z) : res Z :=
  let* d := ckp 255 (max_bit - min_bit) in
  let* w := ckp 63 (d + 1) in
  Ok (count_ones (Z.land (Z.shiftr chunk min_bit) (Z.shiftl 1 w - 1))).

(** query.rs:285-334 *)
Definition query_liquidity_ticks_amount (s : store) (k : pool_key) (lower upper : Z) : res Z :=
  let sp := ft_spacing (pk_tier k) in
  if sp =? 0 then Err InvalidTickSpacing
  else if negb (Z.rem lower sp =? 0) || negb (Z.rem upper sp =? 0) then Err InvalidTickIndex
  else if (lower <? get_min_tick sp) || (get_max_tick sp <? upper) then Err InvalidTickIndex
  else
    let* '(c0, b0) := tick_to_position lower sp in
    let* '(c1, b1) := tick_to_position upper sp in
    let v0 := bitmap_chunk s k c0 in
    if c1 =? c0 then active_bits_in_range v0 b0 b1
    else
      let v1 := bitmap_chunk s k c1 in
      let* a0 := active_bits_in_range v0 b0 (CHUNK_SIZE - 1) in
      let* a1 := active_bits_in_range v1 0 b1 in
      Ok (fold_left (fun acc c => acc + count_ones (bitmap_chunk s k c))
                    (seqZ (c0 + 1) (c1 - c0 - 1)) (a0 + a1)).

(** query.rs:350-375 *)
Definition query_quote (e : env) (s : store) (k : pool_key) (x_to_y : bool) (amount : Z)
    (by_in : bool) (limit : Z) : res quote_result :=
  let* r := calculate_swap (e_gas e) s (e_millis e) k x_to_y amount by_in limit in
  Ok (mkQuote (cr_in r) (cr_out r) (p_price (cr_pool r)) (cr_ticks r)).

(** query.rs:387-395 *)
Definition query_quote_route (e : env) (s : store) (amount : Z) (hops : list swap_hop) : res Z :=
  route e s amount hops.

(** common.rs:472-482 [humanize_approvals] *)
Definition humanize_approvals (e : env) (po : position) (include_expired : bool) : list approval :=
  List.filter (fun a => include_expired || negb (is_expired e (ap_expires a))) (po_approvals po).

(** query.rs:397-409 *)
Definition query_owner_of (e : env) (s : store) (tid : string) (include_expired : bool)
  : res (string * list approval) :=
  match split_token tid with
  | None => Panic
  | Some (owner, _) =>
      if negb (e_utf8_ok e owner) then Err FromUtf8
      else
        let* po := get_position_by_key s tid in
        Ok (owner, humanize_approvals e po include_expired)
  end.

(** query.rs:411-437; names of stored operators are valid UTF-8 (they come from [Addr]s) *)
Definition query_all_approvals (e : env) (s : store) (owner : string) (include_expired : bool)
    (start : option string) (limit : option Z) : list (string * expiration) :=
  let l := omap (fun p : string * string * expiration =>
                   if String.eqb (fst (fst p)) owner then Some (snd (fst p), snd p) else None)
                (map_to_list (st_operators s)) in
  take (page_size limit)
       (List.filter (fun p => include_expired || negb (is_expired e (snd p))) (range_raw start l)).

(** query.rs:439-459 *)
Definition query_nft_info (s : store) (tid : string) : res position := get_position_by_key s tid.
Definition query_all_nft_info (e : env) (s : store) (tid : string) (include_expired : bool)
  : res (string * list approval * position) :=
  let* '(o, l) := query_owner_of e s tid include_expired in
  let* po := get_position_by_key s tid in
  Ok (o, l, po).

(** query.rs:475-489 *)
Definition query_all_tokens (s : store) (start : option string) (limit : option Z) : list string :=
  take (page_size limit)
       (map fst (range_raw start
                  (map (fun p : string * Z * position =>
                          (position_key_bytes (fst (fst p)) (snd (fst p)), tt))
                       (map_to_list (st_positions s))))).
