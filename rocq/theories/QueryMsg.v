(** msg.rs [QueryMsg] and the entry point contract.rs:158-268 [query].
    Not modelled: [to_binary] of the answer (JSON), and names of tokens longer than 65535 bytes, for which the encoding of a storage key aborts
    ([query_typed] leaves them out; no pool has such a name). *)
From Verif Require Import Base Types Tick Pool Tickmap Keys State Swap Exec Query.
From stdpp Require Import gmap strings.
Open Scope Z_scope.

(** msg.rs:140-281; [include_expired] is [unwrap_or(false)] before it is passed on *)
Inductive query_msg :=
| QAdmin
| QProtocolFee
| QPosition (owner : string) (index : Z)
| QPositions (owner : string) (limit offset : option Z)
| QFeeTierExist (t : fee_tier)
| QPool (t0 t1 : string) (t : fee_tier)
| QPools (limit : option Z) (start : option pool_key)
| QTick (k : pool_key) (index : Z)
| QIsTickInitialized (k : pool_key) (index : Z)
| QFeeTiers
| QPositionTicks (owner : string) (offset : Z)
| QUserPositionAmount (owner : string)
| QTickMap (k : pool_key) (lower upper : Z) (x_to_y : bool)
| QLiquidityTicks (k : pool_key) (l : list Z)
| QLiquidityTicksAmount (k : pool_key) (lower upper : Z)
| QPoolsForPair (t0 t1 : string)
| QQuote (k : pool_key) (x_to_y : bool) (amount : Z) (by_in : bool) (limit : Z)
| QQuoteRoute (amount : Z) (hops : list swap_hop)
| QOwnerOf (tid : string) (include_expired : option bool)
| QApprovedForAll (owner : string) (include_expired : option bool) (start : option string) (limit : option Z)
| QNftInfo (tid : string)
| QAllNftInfo (tid : string) (include_expired : option bool)
| QTokens (owner : string) (start limit : option Z)
| QAllTokens (start : option string) (limit : option Z).

(** the answers; [#[returns]] in msg.rs *)
Inductive answer :=
| AAddr (a : string)
| ANumber (n : Z)
| ABool (b : bool)
| APosition (po : position)
| APositions (l : list position)
| APool (p : pool)
| APools (l : list (pool_key * pool))
| ATick (t : tick)
| ATiers (l : list fee_tier)
| APositionTicks (l : list position_tick)
| AChunks (l : list (Z * Z))
| ALiquidityTicks (l : list liquidity_tick)
| AQuote (q : quote_result)
| AOwner (owner : string) (l : list approval)
| AOperators (l : list (string * expiration))
| AAll (owner : string) (l : list approval) (po : position)
| ATokens (l : list string).

(** contract.rs:158-268 *)
Definition query (e : env) (s : store) (q : query_msg) : res answer :=
  match q with
  | QAdmin => Ok (AAddr (query_admin s))
  | QProtocolFee => Ok (ANumber (query_protocol_fee s))
  | QPosition a i => let* po := get_position s a i in Ok (APosition po)
  | QPositions a limit offset => let* l := query_positions s a limit offset in Ok (APositions l)
  | QFeeTierExist t => Ok (ABool (query_fee_tier_exist s t))
  | QPool a b t => let* p := query_pool s a b t in Ok (APool p)
  | QPools limit start => let* l := query_pools s limit start in Ok (APools l)
  | QTick k i => let* t := get_tick s k i in Ok (ATick t)
  | QIsTickInitialized k i => let* b := query_is_tick_initialized s k i in Ok (ABool b)
  | QFeeTiers => Ok (ATiers (query_fee_tiers s))
  | QPositionTicks a offset => let* l := query_position_ticks s a offset in Ok (APositionTicks l)
  | QUserPositionAmount a => Ok (ANumber (get_position_length s a))
  | QTickMap k lo up d => let* l := query_tickmap s k lo up d in Ok (AChunks l)
  | QLiquidityTicks k l => let* r := query_liquidity_ticks s k l in Ok (ALiquidityTicks r)
  | QLiquidityTicksAmount k lo up => let* n := query_liquidity_ticks_amount s k lo up in Ok (ANumber n)
  | QPoolsForPair a b => let* l := query_pools_for_pair s a b in Ok (APools l)
  | QQuote k d a b lim => let* r := query_quote e s k d a b lim in Ok (AQuote r)
  | QQuoteRoute a hops => let* n := query_quote_route e s a hops in Ok (ANumber n)
  | QOwnerOf tid x => let* '(o, l) := query_owner_of e s tid (default false x) in Ok (AOwner o l)
  | QApprovedForAll a x start limit => Ok (AOperators (query_all_approvals e s a (default false x) start limit))
  | QNftInfo tid => let* po := query_nft_info s tid in Ok (APosition po)
  | QAllNftInfo tid x => let* '(o, l, po) := query_all_nft_info e s tid (default false x) in Ok (AAll o l po)
  | QTokens a start limit => let* l := query_tokens s a start limit in Ok (ATokens l)
  | QAllTokens start limit => Ok (ATokens (query_all_tokens s start limit))
  end.

(** the numbers have the types of msg.rs, token names are not too long *)
Definition opt_ok {A} (f : A -> bool) (o : option A) : bool := match o with Some v => f v | None => true end.
Definition short (a : string) : bool := slen a <=? 65535.
Definition qkey_ok (k : pool_key) : bool := key_ok k && short (pk_x k) && short (pk_y k).
Definition query_typed (q : query_msg) : bool :=
  match q with
  | QPosition _ i | QPositionTicks _ i => u32_ok i
  | QPositions _ l o | QTokens _ o l => opt_ok u32_ok l && opt_ok u32_ok o
  | QFeeTierExist t => tier_ok t
  | QPool a b t => tier_ok t && short a && short b
  | QPools l k => opt_ok u32_ok l && opt_ok qkey_ok k
  | QTick k i | QIsTickInitialized k i => qkey_ok k && i32_ok i
  | QTickMap k lo up _ | QLiquidityTicksAmount k lo up => qkey_ok k && i32_ok lo && i32_ok up
  | QLiquidityTicks k l => qkey_ok k && forallb i32_ok l
  | QPoolsForPair a b => short a && short b
  | QQuote k _ a _ lim => qkey_ok k && u128_ok a && u128_ok lim
  | QQuoteRoute a hops => u128_ok a && forallb (fun h => qkey_ok (hop_key h)) hops
  | QApprovedForAll _ _ _ l | QAllTokens _ l => opt_ok u32_ok l
  | _ => true
  end.
