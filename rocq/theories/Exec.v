(** contracts/oraiswap-v3/src/entrypoints/execute.rs, the NFT half of entrypoints/common.rs and
    contract.rs *)
From Verif Require Import Base Decimal SqrtPrice Clamm Log FeeGrowth Types Tick Pool Position
  Tickmap Keys State Swap.
From stdpp Require Import gmap strings.
Open Scope Z_scope.

(** A response: new store, messages and the numbers among the attributes, as raw values.  How they
    are printed, and the attributes that only repeat the caller's input, are in Event.v. *)
Definition response : Type := store * list out_msg * list (string * Z).

(** execute.rs:27-44 *)
Definition change_admin (i : msg_info) (s : store) (new_admin : string) : res response :=
  let c := st_config s in
  if negb (String.eqb (i_sender i) (cf_admin c)) then Err Unauthorized
  else Ok (set_config s (mkConfig new_admin (cf_fee_tiers c) (cf_protocol_fee c)), [], []).

(** execute.rs:53-85; storage/pool.rs:185-193 *)
Definition withdraw_protocol_fee (e : env) (i : msg_info) (s : store) (k : pool_key)
  : res response :=
  let* p := get_pool s k in
  if negb (String.eqb (p_receiver p) (i_sender i)) then Err Unauthorized
  else
    Ok (save_pool s k (p_set_prot p 0 0),
        asset_transfer e i (pk_x k) (p_protx p) ++ asset_transfer e i (pk_y k) (p_proty p), []).

(** execute.rs:94-109 *)
Definition change_protocol_fee (i : msg_info) (s : store) (fee : Z) : res response :=
  let c := st_config s in
  if negb (String.eqb (i_sender i) (cf_admin c)) then Err Unauthorized
  else Ok (set_config s (mkConfig (cf_admin c) (cf_fee_tiers c) fee), [], []).

(** execute.rs:119-137 *)
Definition change_fee_receiver (i : msg_info) (s : store) (k : pool_key) (r : string)
  : res response :=
  if negb (String.eqb (i_sender i) (cf_admin (st_config s))) then Err Unauthorized
  else
    let* p := get_pool s k in
    Ok (save_pool s k (p_set_receiver p r), [], []).

(** execute.rs:186-194: load a tick or create it *)
Definition get_or_create_tick (s : store) (now : Z) (k : pool_key) (index : Z)
  : res (store * tick) :=
  match get_tick s k index with
  | Ok t => Ok (s, t)
  | _ => create_tick s now k index
  end.

(** the numbers of execute.rs:230-237 and 523-530 *)
Definition position_event (liq lower upper price : Z) : list (string * Z) :=
  [("liquidity"%string, liq); ("lower_tick"%string, lower); ("upper_tick"%string, upper);
   ("current_sqrt_price"%string, price)].

(** execute.rs:159-242 *)
Definition create_position (e : env) (i : msg_info) (s : store) (k : pool_key)
    (lower upper liq slip_lower slip_upper : Z) : res response :=
  let now := e_millis e in
  if liq =? 0 then Err InsufficientLiquidity
  else if lower =? upper then Err InvalidTickIndex
  else
    let* p := map_err PoolNotFound (get_pool s k) in
    let* '(s, lt) := get_or_create_tick s now k lower in
    let* '(s, ut) := get_or_create_tick s now k upper in
    let* '(po, p, lt, ut, x, y) :=
      position_create p k lt ut now liq slip_lower slip_upper (e_height e)
        (ft_spacing (pk_tier k)) in
    let s := save_pool s k p in
    let* s := add_position s (i_sender i) po in
    let* s := update_tick s k (t_index lt) lt in
    let* s := update_tick s k (t_index ut) ut in
    let* m0 := asset_transfer_from e i (pk_x k) x in
    let* m1 := asset_transfer_from e i (pk_y k) y in
    Ok (s, m0 ++ m1,
        position_event liq (t_index lt) (t_index ut) (p_price p)).

(** execute.rs:265-300 *)
Definition swap (e : env) (i : msg_info) (s : store) (k : pool_key) (x_to_y : bool)
    (amount : Z) (by_in : bool) (limit : Z) : res response :=
  let* '(s, m, r) := swap_internal e i s k x_to_y amount by_in limit in
  Ok (s, m, [("amount_in"%string, cr_in r); ("amount_out"%string, cr_out r)]).

(** execute.rs:322-352 *)
Definition swap_route (e : env) (i : msg_info) (s : store) (amount_in expected slippage : Z)
    (swaps : list swap_hop) : res response :=
  let* '(s, m, out) := swap_route_internal e i s amount_in swaps in
  let* min := calculate_min_amount_out expected slippage in
  if out <? min then Err AmountUnderMinimumAmountOut
  else Ok (s, m, [("amount_out"%string, out)]).

(** execute.rs:359-378 *)
Definition transfer_position (e : env) (i : msg_info) (s : store) (index : Z)
    (receiver : string) : res response :=
  let* po := get_position s (i_sender i) index in
  let* '(s, _) := remove_position s (i_sender i) index in
  if negb (e_addr_ok e receiver) then Err StdErr
  else
    let* s := add_position s receiver (po_set_approvals po []) in
    Ok (s, [], []).

(** execute.rs:387-445 *)
Definition claim_fee (e : env) (i : msg_info) (s : store) (index : Z) : res response :=
  let* po := get_position s (i_sender i) index in
  let k := po_key po in
  let* lt := get_tick s k (po_lower po) in
  let* ut := get_tick s k (po_upper po) in
  let* p := get_pool s k in
  let* '(po, p, ut, lt, x, y) := position_claim_fee po p ut lt (e_millis e) in
  let* s := update_position s (i_sender i) index po in
  let s := save_pool s k p in
  let* s := update_tick s k (t_index ut) ut in
  let* s := update_tick s k (t_index lt) lt in
  Ok (s, asset_transfer e i (pk_x k) x ++ asset_transfer e i (pk_y k) y,
      [("amount_x"%string, x); ("amount_y"%string, y)]).

(** execute.rs:457-535 *)
Definition remove_position_exec (e : env) (i : msg_info) (s : store) (index : Z)
  : res response :=
  let* po := get_position s (i_sender i) index in
  let k := po_key po in
  let* lt := get_tick s k (po_lower po) in
  let* ut := get_tick s k (po_upper po) in
  let* p := get_pool s k in
  let* '(po', p, lt, ut, x, y, dl, du) :=
    position_remove po p (e_millis e) lt ut (ft_spacing (pk_tier k)) in
  let s := save_pool s k p in
  let* s := (if dl then remove_tick_and_flip_bitmap s k lt
             else update_tick s k (po_lower po) lt) in
  let* s := (if du then remove_tick_and_flip_bitmap s k ut
             else update_tick s k (po_upper po) ut) in
  let* '(s, removed) := remove_position s (i_sender i) index in
  let k := po_key removed in
  Ok (s, asset_transfer e i (pk_x k) x ++ asset_transfer e i (pk_y k) y,
      position_event (po_liq po) (t_index lt) (t_index ut) (p_price p)).

(** storage/pool_key.rs:47-65 [PoolKey::new]; [String] order is bytewise *)
Definition pool_key_new (t0 t1 : string) (ft : fee_tier) : res pool_key :=
  if String.eqb t0 t1 then Err TokensAreSame
  else if String.ltb t0 t1 then Ok (mkPoolKey t0 t1 ft)
  else Ok (mkPoolKey t1 t0 ft).

(** execute.rs:555-595 *)
Definition create_pool (e : env) (s : store) (t0 t1 : string) (ft : fee_tier)
    (init_price init_tick : Z) : res response :=
  let c := st_config s in
  if negb (bool_decide (ft ∈ cf_fee_tiers c)) then Err FeeTierNotFound
  else
    let* _ := check_tick init_tick (ft_spacing ft) in
    let* k := pool_key_new t0 t1 ft in
    (* PoolKey::key() panics on names longer than 65535 bytes *)
    let* _ := pool_key_bytes k in
    match st_pools s !! k with
    | Some _ => Err PoolAlreadyExist
    | None =>
        let* p := map_err CreatePoolError
                    (pool_create init_price init_tick (e_millis e) (ft_spacing ft) (cf_admin c)) in
        Ok (save_pool s k p, [], [])
    end.

(** execute.rs:607-633 *)
Definition add_fee_tier (i : msg_info) (s : store) (ft : fee_tier) : res response :=
  let c := st_config s in
  if negb (String.eqb (i_sender i) (cf_admin c)) then Err Unauthorized
  else if (ft_spacing ft =? 0) || (100 <? ft_spacing ft) then Err InvalidTickSpacing
  else if 1000000000000 <=? ft_fee ft then Err InvalidFee
  else Ok (set_config s (mkConfig (cf_admin c) (cf_fee_tiers c ++ [ft]) (cf_protocol_fee c)),
           [], []).

(** remove the first occurrence: [iter().position] + [Vec::remove] *)
Fixpoint remove_first (ft : fee_tier) (l : list fee_tier) : option (list fee_tier) :=
  match l with
  | [] => None
  | a :: l' => if bool_decide (a = ft) then Some l'
               else option_map (cons a) (remove_first ft l')
  end.

(** execute.rs:643-664 *)
Definition remove_fee_tier (i : msg_info) (s : store) (ft : fee_tier) : res response :=
  let c := st_config s in
  if negb (String.eqb (i_sender i) (cf_admin c)) then Err Unauthorized
  else
    match remove_first ft (cf_fee_tiers c) with
    | Some l => Ok (set_config s (mkConfig (cf_admin c) l (cf_protocol_fee c)), [], [])
    | None => Err FeeTierNotFound
    end.

(** cw-utils [Expiration::is_expired] (cw20 re-export): at or after the given height / time *)
Definition is_expired (e : env) (x : expiration) : bool :=
  match x with
  | Never => false
  | AtHeight h => h <=? e_height e
  | AtTime t => t <=? e_nanos e
  end.

(** common.rs:346-370 [check_can_approve] *)
Definition check_can_approve (e : env) (i : msg_info) (s : store) (owner : string) : res unit :=
  if String.eqb (i_sender i) owner then Ok tt
  else
    match st_operators s !! (owner, i_sender i) with
    | Some ex => if is_expired e ex then Err Unauthorized else Ok tt
    | None => Err Unauthorized
    end.

(** common.rs:373-408 [check_can_send] *)
Definition check_can_send (e : env) (i : msg_info) (s : store) (owner : string) (po : position)
  : res unit :=
  if String.eqb (i_sender i) owner then Ok tt
  else if existsb (fun a => String.eqb (ap_spender a) (i_sender i)
                            && negb (is_expired e (ap_expires a))) (po_approvals po) then Ok tt
  else
    match st_operators s !! (owner, i_sender i) with
    | Some ex => if is_expired e ex then Err Unauthorized else Ok tt
    | None => Err Unauthorized
    end.

(** common.rs:410-449 [update_approvals]; line 420 panics on a token id shorter than 4 bytes *)
Definition update_approvals (e : env) (i : msg_info) (s : store) (spender tid : string)
    (add : bool) (expires : option expiration) : res store :=
  match split_token tid with
  | None => Panic
  | Some (owner, index) =>
      let* po := get_position_by_key s tid in
      let* _ := check_can_approve e i s owner in
      let l := List.filter (fun a => negb (String.eqb (ap_spender a) spender)) (po_approvals po) in
      let* l :=
        (if add then
           let ex := default Never expires in
           if is_expired e ex then Err Expired else Ok (l ++ [mkApproval spender ex])
         else Ok l) in
      Ok (set_positions s (<[(owner, index) := po_set_approvals po l]> (st_positions s))
            (st_poslen s))
  end.

(** execute.rs:666-697 *)
Definition handle_approve (e : env) (i : msg_info) (s : store) (spender tid : string)
    (expires : option expiration) : res response :=
  let* s := update_approvals e i s spender tid true expires in Ok (s, [], []).
Definition handle_revoke (e : env) (i : msg_info) (s : store) (spender tid : string)
  : res response :=
  let* s := update_approvals e i s spender tid false None in Ok (s, [], []).

(** execute.rs:699-739 *)
Definition handle_approve_all (e : env) (i : msg_info) (s : store) (operator : string)
    (expires : option expiration) : res response :=
  let ex := default Never expires in
  if is_expired e ex then Err Expired
  else Ok (set_operators s (<[(i_sender i, operator) := ex]> (st_operators s)), [], []).
Definition handle_revoke_all (i : msg_info) (s : store) (operator : string) : res response :=
  Ok (set_operators s (delete (i_sender i, operator) (st_operators s)), [], []).

(** common.rs:451-470 [transfer_nft] *)
Definition transfer_nft (e : env) (i : msg_info) (s : store) (recipient tid : string)
  : res store :=
  match split_token tid with
  | None => Panic
  | Some (owner, index) =>
      if negb (e_utf8_ok e owner) then Err FromUtf8
      else
        let* po := get_position_by_key s tid in
        let* _ := check_can_send e i s owner po in
        let* '(s, _) := remove_position s owner index in
        add_position s recipient (po_set_approvals po [])
  end.

(** execute.rs:742-758 *)
Definition handle_transfer_nft (e : env) (i : msg_info) (s : store) (recipient tid : string)
  : res response :=
  let* s := transfer_nft e i s recipient tid in Ok (s, [], []).

(** execute.rs:760-773: authorizes against the token's owner, then removes the position of the
    sender at that index *)
Definition handle_burn (e : env) (i : msg_info) (s : store) (tid : string) : res response :=
  let* po := get_position_by_key s tid in
  match split_token tid with
  | None => Panic
  | Some (owner, index) =>
      let* _ := check_can_send e i s owner po in
      remove_position_exec e i s index
  end.

(** execute.rs:775-800 *)
Definition handle_send_nft (e : env) (i : msg_info) (s : store) (contract tid : string)
    (msg : option string) : res response :=
  let* s := transfer_nft e i s contract tid in
  Ok (s, [NftReceive contract (i_sender i) tid msg], []).

(** Deserialization (serde) rejects numbers outside the Rust types of msg.rs; the chain supplies
    u64 heights and times and u128 coin amounts. *)
Definition u128_ok (v : Z) : bool := in_range 0 U128MAX v.
Definition u64_ok (v : Z) : bool := in_range 0 U64MAX v.
Definition u32_ok (v : Z) : bool := in_range 0 U32MAX v.
Definition i32_ok (v : Z) : bool := in_range I32MIN I32MAX v.
Definition tier_ok (t : fee_tier) : bool := u64_ok (ft_fee t) && in_range 0 65535 (ft_spacing t).
Definition key_ok (k : pool_key) : bool := tier_ok (pk_tier k).
Definition expiration_ok (x : option expiration) : bool :=
  match x with Some (AtHeight v) | Some (AtTime v) => u64_ok v | _ => true end.

Definition msg_typed (m : exec_msg) : bool :=
  match m with
  | WithdrawProtocolFee k | ChangeFeeReceiver k _ => key_ok k
  | ChangeProtocolFee f => u64_ok f
  | CreatePosition k l u q sl su | Mint k l u q sl su =>
      key_ok k && i32_ok l && i32_ok u && u128_ok q && u128_ok sl && u128_ok su
  | Swap k _ a _ lim => key_ok k && u128_ok a && u128_ok lim
  | SwapRoute a x sl hops =>
      u128_ok a && u128_ok x && u64_ok sl && forallb (fun h => key_ok (hop_key h)) hops
  | TransferPosition i _ | ClaimFee i | RemovePosition i => u32_ok i
  | CreatePool _ _ t p i => tier_ok t && u128_ok p && i32_ok i
  | AddFeeTier t | RemoveFeeTier t => tier_ok t
  | Approve _ _ x | ApproveAll _ x => expiration_ok x
  | _ => true
  end.

Definition env_typed (e : env) (i : msg_info) : bool :=
  u64_ok (e_height e) && u64_ok (e_nanos e) && forallb (fun c => u128_ok (c_amount c)) (i_funds i).

(** contract.rs:35-155 [execute] *)
Definition dispatch (e : env) (i : msg_info) (s : store) (m : exec_msg) : res response :=
  match m with
  | ChangeAdmin a => change_admin i s a
  | WithdrawProtocolFee k => withdraw_protocol_fee e i s k
  | ChangeProtocolFee f => change_protocol_fee i s f
  | ChangeFeeReceiver k r => change_fee_receiver i s k r
  | CreatePosition k l u q sl su => create_position e i s k l u q sl su
  | Swap k d a b lim => swap e i s k d a b lim
  | SwapRoute a x sl hops => swap_route e i s a x sl hops
  | TransferPosition ix r => transfer_position e i s ix r
  | ClaimFee ix => claim_fee e i s ix
  | RemovePosition ix => remove_position_exec e i s ix
  | CreatePool a b t p ix => create_pool e s a b t p ix
  | AddFeeTier t => add_fee_tier i s t
  | RemoveFeeTier t => remove_fee_tier i s t
  | Approve sp tid x => handle_approve e i s sp tid x
  | Revoke sp tid => handle_revoke e i s sp tid
  | ApproveAll o x => handle_approve_all e i s o x
  | RevokeAll o => handle_revoke_all i s o
  | TransferNft r tid => handle_transfer_nft e i s r tid
  | Burn tid => handle_burn e i s tid
  | SendNft c tid x => handle_send_nft e i s c tid x
  | Mint k l u q sl su => create_position e i s k l u q sl su
  end.

Definition execute (e : env) (i : msg_info) (s : store) (m : exec_msg) : res response :=
  if env_typed e i && msg_typed m then dispatch e i s m else Err StdErr.

(** contract.rs:17-32 [instantiate]; the protocol fee is a u64 and otherwise unchecked *)
Definition instantiate (i : msg_info) (protocol_fee : Z) : res store :=
  if u64_ok protocol_fee
  then Ok (mkStore (mkConfig (i_sender i) [] protocol_fee) ∅ ∅ ∅ ∅ ∅ ∅)
  else Err StdErr.
