(** Unit-test vectors of /repo replayed on the model: a check that the model was read off the code
    correctly.  These are tests, not properties. *)
From Verif Require Import Base Decimal SqrtPrice Clamm Log FeeGrowth Types Tick Pool Position
  Tickmap Keys State Swap Exec Query.
From stdpp Require Import gmap strings.
Open Scope Z_scope.

(* sqrt_price.rs tests *)
Example v_from_tick_20000 : calculate_sqrt_price 20000 = Ok (2718145925979 * 1000000000000).
Proof. vm_compute. reflexivity. Qed.
Example v_from_tick_max : calculate_sqrt_price MAX_TICK = Ok MAX_SQRT_PRICE.
Proof. vm_compute. reflexivity. Qed.
Example v_from_tick_min : calculate_sqrt_price (- MAX_TICK) = Ok MIN_SQRT_PRICE.
Proof. vm_compute. reflexivity. Qed.

(* log.rs tests *)
Example v_x32_min : sqrt_price_to_x32 MIN_SQRT_PRICE = 65536.
Proof. vm_compute. reflexivity. Qed.
Example v_x32_max : sqrt_price_to_x32 MAX_SQRT_PRICE = 281472330729535.
Proof. vm_compute. reflexivity. Qed.
Example v_log_879 :
  log2_iterative_approximation_x32 (sqrt_price_to_x32 (879 * SP_ONE)) = (true, 42003464192).
Proof. vm_compute. reflexivity. Qed.
Example v_log_0059 :
  log2_iterative_approximation_x32 (sqrt_price_to_x32 (59 * SP_ONE / 10000)) = (false, 31804489728).
Proof. vm_compute. reflexivity. Qed.
Example v_log_max :
  log2_iterative_approximation_x32 (sqrt_price_to_x32 MAX_SQRT_PRICE) = (true, 68719345664).
Proof. vm_compute. reflexivity. Qed.
Example v_log_min :
  log2_iterative_approximation_x32 (sqrt_price_to_x32 MIN_SQRT_PRICE) = (false, 68719345664).
Proof. vm_compute. reflexivity. Qed.

(* clamm.rs tests *)
Example v_next_max :
  get_next_sqrt_price_from_input (MAX_SQRT_PRICE - 1) U128MAX 600000000 false = Ok MAX_SQRT_PRICE.
Proof. vm_compute. reflexivity. Qed.
Example v_next_min :
  get_next_sqrt_price_from_input (MIN_SQRT_PRICE + 1) U128MAX (20000 * 10 ^ 14) true
  = Ok MIN_SQRT_PRICE.
Proof. vm_compute. reflexivity. Qed.
Example v_min_out_1 : calculate_min_amount_out 123 9000000000 = Ok 122.
Proof. vm_compute. reflexivity. Qed.
Example v_min_out_2 : calculate_min_amount_out 100 10000000000 = Ok 99.
Proof. vm_compute. reflexivity. Qed.

(** /repo/contracts/oraiswap-v3/src/tests/liquidity_gap.rs, first half *)
Definition v_env : env :=
  mkEnv 1 1000000000 "self" 1000 (fun _ => true) (fun _ => true).
Definition v_tier : fee_tier := mkFeeTier 6000000000 10.
Definition v_key : pool_key := mkPoolKey "tokenx" "tokeny" v_tier.
Definition v_info (a : string) : msg_info := mkInfo a [].

Fixpoint v_run (l : list (string * exec_msg)) (s : store) : res store :=
  match l with
  | [] => Ok s
  | (a, m) :: l' => let* '(s, _, _) := execute v_env (v_info a) s m in v_run l' s
  end.

Definition v_gap : res store :=
  let* s := instantiate (v_info "alice") 10000000000 in
  v_run [("alice", AddFeeTier v_tier);
         ("alice", CreatePool "tokeny" "tokenx" v_tier SP_ONE 0);
         ("alice", CreatePosition v_key (-10) 10 20006000000000 SP_ONE SP_ONE);
         ("bob", Swap v_key true 10067 true MIN_SQRT_PRICE)]%string s.

Example v_gap_pool :
  (let* s := v_gap in
   let* p := query_pool s "tokenx" "tokeny" v_tier in
   let* lo := calculate_sqrt_price (-10) in
   Ok (p_liq p, p_price p =? lo, p_tick p, p_fgx p, p_fgy p, p_protx p, p_proty p))
  = Ok (20006000000000, true, -10, 29991002699190242927121, 0, 1, 0).
Proof. vm_compute. reflexivity. Qed.
Example v_gap_amounts :
  (let* s := instantiate (v_info "alice") 10000000000 in
   let* s := v_run [("alice", AddFeeTier v_tier);
         ("alice", CreatePool "tokeny" "tokenx" v_tier SP_ONE 0);
         ("alice", CreatePosition v_key (-10) 10 20006000000000 SP_ONE SP_ONE)]%string s in
   let* '(_, m, _) := execute v_env (v_info "bob") s (Swap v_key true 10067 true MIN_SQRT_PRICE) in
   Ok m)
  = Ok [Cw20TransferFrom "tokenx" "bob" "self" 10067; Cw20Transfer "tokeny" "bob" 9999]%string.
Proof. vm_compute. reflexivity. Qed.
