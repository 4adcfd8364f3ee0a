(** contracts/oraiswap-v3/src/storage/tickmap.rs *)
From Verif Require Import Base SqrtPrice.

(** tickmap.rs:4 *)
Definition CHUNK_SIZE : Z := 64.
(** storage/tick.rs:26-32, tickmap.rs:5 *)
Definition MAX_RESULT_SIZE : Z := 131072.
Definition LIQUIDITY_TICK_LIMIT : Z := MAX_RESULT_SIZE / (32 + 128 + 8).
Definition POSITION_TICK_LIMIT : Z := MAX_RESULT_SIZE / (32 + 128 + 128 + 64).
Definition MAX_TICKMAP_QUERY_SIZE : Z := MAX_RESULT_SIZE / (16 + 64).

(** tickmap.rs:7-19; [as u16] wraps *)
Definition get_max_chunk (s : Z) : Z :=
  Z.quot (Z.quot (get_max_tick s + MAX_TICK) s) CHUNK_SIZE mod 65536.
Definition get_min_chunk (s : Z) : Z :=
  Z.quot (Z.quot (MAX_TICK - get_max_tick s) s) CHUNK_SIZE mod 65536.

(** tickmap.rs:21-41; both asserts panic, so does a zero spacing (remainder by zero) *)
Definition tick_to_position (t s : Z) : res (Z * Z) :=
  if negb (in_range (- MAX_TICK) MAX_TICK t) then Panic
  else if s =? 0 then Panic
  else if negb (Z.rem t s =? 0) then Panic
  else
    let bi := Z.quot (t + MAX_TICK) s in
    Ok (Z.quot bi CHUNK_SIZE mod 65536, Z.rem bi CHUNK_SIZE mod 256).

(** tickmap.rs:49-55 on u64 *)
Definition get_bit_at_position (v bit : Z) : Z := Z.land (Z.shiftr v bit) 1.
Definition flip_bit_at_position (v bit : Z) : Z := Z.lxor v (Z.shiftl 1 bit).

(** tickmap.rs:57-77 *)
Definition get_search_limit (t s : Z) (up : bool) : Z :=
  let index := Z.quot t s in
  let limit :=
    if up then Z.min (index + TICK_SEARCH_RANGE) (Z.quot MAX_TICK s)
    else Z.max (index - TICK_SEARCH_RANGE) (Z.quot (- MAX_TICK) s) in
  limit * s.
