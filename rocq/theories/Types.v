(** Records of contracts/oraiswap-v3/src/storage, messages of msg.rs, outgoing messages of
    interface.rs, and the storage. *)
From Verif Require Import Base.
From stdpp Require Import gmap strings.
Open Scope Z_scope.

(** storage/fee_tier.rs:7-10 *)
Record fee_tier := mkFeeTier { ft_fee : Z; ft_spacing : Z }.

(** storage/pool_key.rs:8-12 *)
Record pool_key := mkPoolKey { pk_x : string; pk_y : string; pk_tier : fee_tier }.

Global Instance fee_tier_eq_dec : EqDecision fee_tier.
Proof. solve_decision. Defined.
Global Instance pool_key_eq_dec : EqDecision pool_key.
Proof. solve_decision. Defined.
Global Program Instance fee_tier_countable : Countable fee_tier :=
  inj_countable' (fun t => (ft_fee t, ft_spacing t)) (fun p => mkFeeTier p.1 p.2) _.
Next Obligation. by intros []. Qed.
Global Program Instance pool_key_countable : Countable pool_key :=
  inj_countable' (fun k => (pk_x k, pk_y k, pk_tier k))
                 (fun p => mkPoolKey p.1.1 p.1.2 p.2) _.
Next Obligation. by intros []. Qed.

(** storage/config.rs:7-11 *)
Record config := mkConfig {
  cf_admin : string;
  cf_fee_tiers : list fee_tier;
  cf_protocol_fee : Z
}.

(** storage/pool.rs:21-32 *)
Record pool := mkPool {
  p_liq : Z;            (* liquidity *)
  p_price : Z;          (* sqrt_price *)
  p_tick : Z;           (* current_tick_index *)
  p_fgx : Z;            (* fee_growth_global_x *)
  p_fgy : Z;            (* fee_growth_global_y *)
  p_protx : Z;          (* fee_protocol_token_x *)
  p_proty : Z;          (* fee_protocol_token_y *)
  p_start : Z;          (* start_timestamp *)
  p_last : Z;           (* last_timestamp *)
  p_receiver : string   (* fee_receiver *)
}.

Definition p_set_liq (p : pool) (v : Z) : pool :=
  mkPool v (p_price p) (p_tick p) (p_fgx p) (p_fgy p) (p_protx p) (p_proty p) (p_start p) (p_last p) (p_receiver p).
Definition p_set_price (p : pool) (v : Z) : pool :=
  mkPool (p_liq p) v (p_tick p) (p_fgx p) (p_fgy p) (p_protx p) (p_proty p) (p_start p) (p_last p) (p_receiver p).
Definition p_set_tick (p : pool) (v : Z) : pool :=
  mkPool (p_liq p) (p_price p) v (p_fgx p) (p_fgy p) (p_protx p) (p_proty p) (p_start p) (p_last p) (p_receiver p).
Definition p_set_feesx (p : pool) (g pr : Z) : pool :=
  mkPool (p_liq p) (p_price p) (p_tick p) g (p_fgy p) pr (p_proty p) (p_start p) (p_last p) (p_receiver p).
Definition p_set_feesy (p : pool) (g pr : Z) : pool :=
  mkPool (p_liq p) (p_price p) (p_tick p) (p_fgx p) g (p_protx p) pr (p_start p) (p_last p) (p_receiver p).
Definition p_set_prot (p : pool) (x y : Z) : pool :=
  mkPool (p_liq p) (p_price p) (p_tick p) (p_fgx p) (p_fgy p) x y (p_start p) (p_last p) (p_receiver p).
Definition p_set_last (p : pool) (v : Z) : pool :=
  mkPool (p_liq p) (p_price p) (p_tick p) (p_fgx p) (p_fgy p) (p_protx p) (p_proty p) (p_start p) v (p_receiver p).
Definition p_set_receiver (p : pool) (v : string) : pool :=
  mkPool (p_liq p) (p_price p) (p_tick p) (p_fgx p) (p_fgy p) (p_protx p) (p_proty p) (p_start p) (p_last p) v.

(** storage/tick.rs:15-24 *)
Record tick := mkTick {
  t_index : Z;
  t_sign : bool;
  t_change : Z;         (* liquidity_change *)
  t_gross : Z;          (* liquidity_gross *)
  t_price : Z;          (* sqrt_price *)
  t_fox : Z;            (* fee_growth_outside_x *)
  t_foy : Z;            (* fee_growth_outside_y *)
  t_secs : Z            (* seconds_outside *)
}.

(** cw20 [Expiration] (cw-utils): never, at height, at time (nanoseconds) *)
Inductive expiration := Never | AtHeight (h : Z) | AtTime (t : Z).

(** interface.rs:152-158 *)
Record approval := mkApproval { ap_spender : string; ap_expires : expiration }.

(** storage/position.rs:20-33 *)
Record position := mkPosition {
  po_key : pool_key;
  po_liq : Z;
  po_lower : Z;
  po_upper : Z;
  po_fgx : Z;           (* fee_growth_inside_x *)
  po_fgy : Z;
  po_block : Z;         (* last_block_number *)
  po_owedx : Z;         (* tokens_owed_x *)
  po_owedy : Z;
  po_approvals : list approval
}.

Definition po_set_approvals (p : position) (l : list approval) : position :=
  mkPosition (po_key p) (po_liq p) (po_lower p) (po_upper p) (po_fgx p) (po_fgy p)
             (po_block p) (po_owedx p) (po_owedy p) l.

(** The contract storage (state.rs:12-26).  Maps have logical keys; the byte-level keys are in
    Keys.v.  CONFIG is written by instantiate before anything else can run, hence not optional. *)
Record store := mkStore {
  st_config : config;
  st_pools : gmap pool_key pool;
  st_ticks : gmap (pool_key * Z) tick;
  st_bitmap : gmap (pool_key * Z) Z;
  st_positions : gmap (string * Z) position;
  st_poslen : gmap string Z;
  st_operators : gmap (string * string) expiration
}.

Definition set_config (s : store) v := mkStore v (st_pools s) (st_ticks s) (st_bitmap s) (st_positions s) (st_poslen s) (st_operators s).
Definition set_pools (s : store) v := mkStore (st_config s) v (st_ticks s) (st_bitmap s) (st_positions s) (st_poslen s) (st_operators s).
Definition set_ticks (s : store) v := mkStore (st_config s) (st_pools s) v (st_bitmap s) (st_positions s) (st_poslen s) (st_operators s).
Definition set_bitmap (s : store) v := mkStore (st_config s) (st_pools s) (st_ticks s) v (st_positions s) (st_poslen s) (st_operators s).
Definition set_positions (s : store) v l := mkStore (st_config s) (st_pools s) (st_ticks s) (st_bitmap s) v l (st_operators s).
Definition set_operators (s : store) v := mkStore (st_config s) (st_pools s) (st_ticks s) (st_bitmap s) (st_positions s) (st_poslen s) v.

(** interface.rs:24-28 *)
Record swap_hop := mkHop { hop_key : pool_key; hop_x_to_y : bool }.

(** msg.rs:32-133 (Mint's extension inlined, msg.rs:22-30) *)
Inductive exec_msg :=
| ChangeAdmin (new_admin : string)
| WithdrawProtocolFee (k : pool_key)
| ChangeProtocolFee (fee : Z)
| ChangeFeeReceiver (k : pool_key) (receiver : string)
| CreatePosition (k : pool_key) (lower upper liq slip_lower slip_upper : Z)
| Swap (k : pool_key) (x_to_y : bool) (amount : Z) (by_amount_in : bool) (limit : Z)
| SwapRoute (amount_in expected_out slippage : Z) (swaps : list swap_hop)
| TransferPosition (index : Z) (receiver : string)
| ClaimFee (index : Z)
| RemovePosition (index : Z)
| CreatePool (token_0 token_1 : string) (tier : fee_tier) (init_price init_tick : Z)
| AddFeeTier (tier : fee_tier)
| RemoveFeeTier (tier : fee_tier)
| TransferNft (recipient token_id : string)
| Mint (k : pool_key) (lower upper liq slip_lower slip_upper : Z)
| Burn (token_id : string)
| SendNft (contract token_id : string) (msg : option string)
| Approve (spender token_id : string) (expires : option expiration)
| Revoke (spender token_id : string)
| ApproveAll (operator : string) (expires : option expiration)
| RevokeAll (operator : string).

(** Messages sent by the contract: Cw20ExecuteMsg::Transfer / TransferFrom, BankMsg::Send
    (interface.rs:57-149), Cw721ReceiveMsg (interface.rs:213-236). *)
Inductive out_msg :=
| Cw20Transfer (token recipient : string) (amount : Z)
| Cw20TransferFrom (token owner recipient : string) (amount : Z)
| BankSend (recipient denom : string) (amount : Z)
| NftReceive (contract sender token_id : string) (msg : option string).

(** cosmwasm_std [Env], [MessageInfo] as far as used.  [e_gas] bounds the iterations of each swap
    loop; [e_addr_ok] is [Api::addr_validate] and [e_utf8_ok] is [String::from_utf8] succeeding:
    arbitrary oracles. *)
Record env := mkEnv {
  e_height : Z;
  e_nanos : Z;
  e_self : string;
  e_gas : nat;
  e_addr_ok : string -> bool;
  e_utf8_ok : string -> bool
}.

Record coin := mkCoin { c_denom : string; c_amount : Z }.
Record msg_info := mkInfo { i_sender : string; i_funds : list coin }.

(** entrypoints/common.rs:22-26 [TimeStampExt::millis] *)
Definition e_millis (e : env) : Z := e_nanos e / 1000000.
