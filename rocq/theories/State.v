(** contracts/oraiswap-v3/src/state.rs *)
From Verif Require Import Base Decimal SqrtPrice Types Tickmap Keys.
From stdpp Require Import gmap strings.
Open Scope Z_scope.

Definition MAX_LIMIT : Z := 100. (* state.rs:28 *)

(** state.rs:30-33 [get_pool] *)
Definition get_pool (s : store) (k : pool_key) : res pool :=
  match st_pools s !! k with Some p => Ok p | None => Err StdErr end.

Definition save_pool (s : store) (k : pool_key) (p : pool) : store :=
  set_pools s (<[k := p]> (st_pools s)).

(** state.rs:66-81 [add_tick] *)
Definition add_tick (s : store) (k : pool_key) (i : Z) (t : tick) : res store :=
  match st_ticks s !! (k, i) with
  | Some _ => Err TickAlreadyExist
  | None => Ok (set_ticks s (<[(k, i) := t]> (st_ticks s)))
  end.

(** state.rs:83-98 [update_tick] *)
Definition update_tick (s : store) (k : pool_key) (i : Z) (t : tick) : res store :=
  match st_ticks s !! (k, i) with
  | None => Err TickNotFound
  | Some _ => Ok (set_ticks s (<[(k, i) := t]> (st_ticks s)))
  end.

(** state.rs:100-113 [remove_tick] *)
Definition remove_tick (s : store) (k : pool_key) (i : Z) : res store :=
  match st_ticks s !! (k, i) with
  | None => Err TickNotFound
  | Some _ => Ok (set_ticks s (delete (k, i) (st_ticks s)))
  end.

(** state.rs:115-127 [get_tick] *)
Definition get_tick (s : store) (k : pool_key) (i : Z) : res tick :=
  match st_ticks s !! (k, i) with Some t => Ok t | None => Err TickNotFound end.

(** state.rs:237-241 [get_position_length] *)
Definition get_position_length (s : store) (a : string) : Z :=
  default 0 (st_poslen s !! a).

(** state.rs:135-146 [add_position]; [positions_length + 1] is u32 *)
Definition add_position (s : store) (a : string) (po : position) : res store :=
  let n := get_position_length s a in
  let* n1 := ckp U32MAX (n + 1) in
  Ok (set_positions s (<[(a, n) := po]> (st_positions s)) (<[a := n1]> (st_poslen s))).

(** state.rs:148-165 [update_position] *)
Definition update_position (s : store) (a : string) (i : Z) (po : position) : res store :=
  if get_position_length s a <=? i then Err PositionNotFound
  else Ok (set_positions s (<[(a, i) := po]> (st_positions s)) (st_poslen s)).

(** state.rs:167-190 [remove_position]; line 172 subtracts u32s *)
Definition remove_position (s : store) (a : string) (i : Z) : res (store * position) :=
  let* n := ckp U32MAX (get_position_length s a - 1) in
  match st_positions s !! (a, i) with
  | None => Err PositionNotFound
  | Some po =>
      let* m :=
        (if i <? n then
           match st_positions s !! (a, n) with
           | None => Err StdErr
           | Some last => Ok (<[(a, i) := last]> (delete (a, n) (st_positions s)))
           end
         else Ok (delete (a, i) (st_positions s))) in
      Ok (set_positions s m (<[a := n]> (st_poslen s)), po)
  end.

(** state.rs:192-199 [get_position] *)
Definition get_position (s : store) (a : string) (i : Z) : res position :=
  match st_positions s !! (a, i) with Some po => Ok po | None => Err PositionNotFound end.

(** state.rs:201-207 [get_position_by_key] on a raw token id *)
Definition get_position_by_key (s : store) (tid : string) : res position :=
  match split_token tid with
  | Some (a, i) => get_position s a i
  | None => Err PositionNotFound
  end.

(** [BITMAP.load(..).unwrap_or(0)] *)
Definition bitmap_chunk (s : store) (k : pool_key) (chunk : Z) : Z :=
  default 0 (st_bitmap s !! (k, chunk)).

(** state.rs:271-274: skip zero bits; [shifted] is a non-zero u64, so at most 63 iterations *)
Fixpoint skip_up (n : nat) (shifted bit : Z) : Z :=
  match n with
  | O => bit
  | S n' => if shifted mod 2 =? 0 then skip_up n' (Z.shiftr shifted 1) (bit + 1) else bit
  end.

(** state.rs:266-298: the chunk loop.  [n] bounds the number of chunks visited. *)
Fixpoint next_loop (n : nat) (s : store) (k : pool_key) (sp chunk bit lchunk lbit : Z)
  : option Z :=
  match n with
  | O => None
  | S n' =>
      if (chunk <? lchunk) || ((chunk =? lchunk) && (bit <=? lbit)) then
        let shifted := Z.shiftr (bitmap_chunk s k chunk) bit in
        if negb (shifted =? 0) then
          let bit := skip_up 64 shifted bit in
          if (chunk <? lchunk) || ((chunk =? lchunk) && (bit <=? lbit)) then
            Some ((chunk * CHUNK_SIZE + bit - Z.quot MAX_TICK sp) * sp)
          else None
        else next_loop n' s k sp (chunk + 1) 0 lchunk lbit
      else None
  end.

(** state.rs:249-301 [next_initialized].  A zero spacing panics in [get_search_limit]. *)
Definition next_initialized (s : store) (t sp : Z) (k : pool_key) : res (option Z) :=
  if sp =? 0 then Panic
  else
    let limit := get_search_limit t sp true in
    if MAX_TICK <? t + sp then Ok None
    else
      let* '(chunk, bit) := tick_to_position (t + sp) sp in
      let* '(lchunk, lbit) := tick_to_position limit sp in
      Ok (next_loop (Z.to_nat (lchunk - chunk + 1)) s k sp chunk bit lchunk lbit).

(** state.rs:324-327 *)
Fixpoint skip_down (n : nat) (value bit : Z) : Z :=
  match n with
  | O => bit
  | S n' => if Z.testbit value bit then bit else skip_down n' value (bit - 1)
  end.

(** state.rs:315-352; [value % (mask << 1) > 0] tests the bits at or below [bit];
    [value & mask == 0] is [Z.testbit] being false *)
Fixpoint prev_loop (n : nat) (s : store) (k : pool_key) (sp chunk bit lchunk lbit : Z)
  : option Z :=
  match n with
  | O => None
  | S n' =>
      if (lchunk <? chunk) || ((chunk =? lchunk) && (lbit <=? bit)) then
        let value := bitmap_chunk s k chunk in
        if 0 <? value mod Z.shiftl 1 (bit + 1) then
          let bit := skip_down 64 value bit in
          if (lchunk <? chunk) || ((chunk =? lchunk) && (lbit <=? bit)) then
            Some ((chunk * CHUNK_SIZE + bit - Z.quot MAX_TICK sp) * sp)
          else None
        else if chunk =? 0 then None
        else prev_loop n' s k sp (chunk - 1) (CHUNK_SIZE - 1) lchunk lbit
      else None
  end.

(** state.rs:304-355 [prev_initialized] *)
Definition prev_initialized (s : store) (t sp : Z) (k : pool_key) : res (option Z) :=
  if sp =? 0 then Panic
  else
    let limit := get_search_limit t sp false in
    let* '(chunk, bit) := tick_to_position t sp in
    let* '(lchunk, lbit) := tick_to_position limit sp in
    Ok (prev_loop (Z.to_nat (chunk - lchunk + 1)) s k sp chunk bit lchunk lbit).

(** state.rs:359-390 [get_closer_limit] *)
Definition get_closer_limit (s : store) (limit : Z) (x_to_y : bool) (cur sp : Z) (k : pool_key)
  : res (Z * option (Z * bool)) :=
  let* closest := (if x_to_y then prev_initialized s cur sp k
                   else next_initialized s cur sp k) in
  let* '(index, init) :=
    match closest with
    | Some i => Ok (i, true)
    | None =>
        let i := get_search_limit cur sp (negb x_to_y) in
        if cur =? i then Err TickLimitReached else Ok (i, false)
    end in
  let* price := calculate_sqrt_price index in
  if (x_to_y && (limit <? price)) || (negb x_to_y && (price <? limit))
  then Ok (price, Some (index, init))
  else Ok (limit, None).

(** state.rs:398-406 [get_bitmap_item] *)
Definition get_bitmap_item (s : store) (chunk : Z) (k : pool_key) : res Z :=
  match st_bitmap s !! (k, chunk) with Some v => Ok v | None => Err StdErr end.

(** state.rs:392-396 [get_bitmap] *)
Definition get_bitmap (s : store) (t sp : Z) (k : pool_key) : res bool :=
  let* '(chunk, bit) := tick_to_position t sp in
  Ok (get_bit_at_position (bitmap_chunk s k chunk) bit =? 1).

(** state.rs:408-426 [flip_bitmap] *)
Definition flip_bitmap (s : store) (value : bool) (t sp : Z) (k : pool_key) : res store :=
  let* '(chunk, bit) := tick_to_position t sp in
  let v := bitmap_chunk s k chunk in
  let check_bit := get_bit_at_position v bit =? 0 in
  if negb (Bool.eqb check_bit value) then Err TickReInitialize
  else Ok (set_bitmap s (<[(k, chunk) := flip_bit_at_position v bit]> (st_bitmap s))).
