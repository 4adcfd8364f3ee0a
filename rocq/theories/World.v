(** The contract among token ledgers: what becomes of the messages a call returns.
    The ledgers are not in the repository.  CW20 tokens are modelled after cw20-base (transfer, transfer_from with the allowance of the
    contract), native coins after the bank module; the coins attached to a call are credited before the call, the messages are executed
    in order after it, and whatever fails undoes everything.  An NFT receiver is taken to accept; calls it makes in turn are later calls. *)
From Verif Require Import Base Types State Exec.
From stdpp Require Import gmap strings.
From Coq Require Import Lia.
Open Scope Z_scope.

Notation ledger := (gmap (string * string) Z).
(** [w_cw20], [w_bank]: balances by token and holder; [w_allow]: by token and owner, what the contract may still take *)
Record world := mkWorld { w_store : store; w_cw20 : ledger; w_allow : ledger; w_bank : ledger }.
Definition amount_of (m : ledger) (T a : string) : Z := default 0 (m !! (T, a)).
Definition credit (m : ledger) (T a : string) (v : Z) : ledger := <[(T, a) := amount_of m T a + v]> m.
Definition hand (m : ledger) (T a b : string) (v : Z) : ledger := credit (credit m T a (- v)) T b v.

(** [CallerShort]: the caller has too few tokens or has not allowed enough; [ContractShort]: the contract has too few *)
Inductive outcome :=
| Done (w : world) (attrs : list (string * Z))
| Refused
| CallerShort
| ContractShort.

Fixpoint settle (self : string) (ms : list out_msg) (at' : list (string * Z)) (w : world) : outcome :=
  match ms with
  | [] => Done w at'
  | Cw20Transfer T r v :: ms =>
      if amount_of (w_cw20 w) T self <? v then ContractShort
      else settle self ms at' (mkWorld (w_store w) (hand (w_cw20 w) T self r v) (w_allow w) (w_bank w))
  | Cw20TransferFrom T o r v :: ms =>
      if (amount_of (w_allow w) T o <? v) || (amount_of (w_cw20 w) T o <? v) then CallerShort
      else settle self ms at' (mkWorld (w_store w) (hand (w_cw20 w) T o r v) (credit (w_allow w) T o (- v)) (w_bank w))
  | BankSend r T v :: ms =>
      if amount_of (w_bank w) T self <? v then ContractShort
      else settle self ms at' (mkWorld (w_store w) (w_cw20 w) (w_allow w) (hand (w_bank w) T self r v))
  | NftReceive _ _ _ _ :: ms => settle self ms at' w
  end.
(** the coins of a call *)
Fixpoint pay_in (a self : string) (cs : list coin) (m : ledger) : option ledger :=
  match cs with
  | [] => Some m
  | c :: cs => if amount_of m (c_denom c) a <? c_amount c then None else pay_in a self cs (hand m (c_denom c) a self (c_amount c))
  end.
(** the chain takes each denomination once *)
Definition coins_ok (cs : list coin) : bool := bool_decide (NoDup (map c_denom cs)).

Definition world_call (e : env) (i : msg_info) (w : world) (m : exec_msg) : outcome :=
  if negb (coins_ok (i_funds i)) then Refused
  else
    match pay_in (i_sender i) (e_self e) (i_funds i) (w_bank w) with
    | None => CallerShort
    | Some bank =>
        match execute e i (w_store w) m with
        | Ok (s, ms, at') => settle (e_self e) ms at' (mkWorld s (w_cw20 w) (w_allow w) bank)
        | _ => Refused
        end
    end.

(** what [a] has of [T]: [V] tells CW20 addresses from native denominations *)
Definition wealth (V : string -> bool) (w : world) (T a : string) : Z := if V T then amount_of (w_cw20 w) T a else amount_of (w_bank w) T a.
