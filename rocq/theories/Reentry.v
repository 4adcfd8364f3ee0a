(** The contract among tokens and receivers of unknown behaviour.
    Not in the repository.  A token in [hostile] and the receiver of an NFT are contracts that may do anything when the contract's message reaches
    them: refuse, do nothing, move their own balances as they like, or call the contract again - themselves or through anybody who acts with them -
    before the remaining messages of the first call are executed.  The semantics allows more than the chain does: calls may come at any
    moment and the waiting messages are executed in any order.  What fails leaves no trace, so failed calls and messages are not steps. *)
From Verif Require Import Base Types State Exec World.
From stdpp Require Import gmap strings.
From Coq Require Import Lia.
Open Scope Z_scope.

Definition message_to_hostile (hostile : string -> bool) (x : out_msg) : bool :=
  match x with
  | Cw20Transfer T _ _ | Cw20TransferFrom T _ _ _ => hostile T
  | BankSend _ _ _ => false
  | NftReceive _ _ _ _ => true
  end.

Record made_call := mkCall { mc_env : env; mc_info : msg_info; mc_msg : exec_msg; mc_out : list out_msg }.

Section storm.
  Context (ok : env -> msg_info -> store -> exec_msg -> Prop).
  Context (self : string) (V hostile : string -> bool) (actor : string -> Prop).

  (** worlds with the messages that wait to be executed; the label is the call made, if any *)
  Inductive step : world -> list out_msg -> option made_call -> world -> list out_msg -> Prop :=
  | sp_call e i m w P bank s ms at' : ok e i (w_store w) m -> actor (i_sender i) -> e_self e = self -> (forall t, e_addr_ok e t = V t) ->
      coins_ok (i_funds i) = true -> pay_in (i_sender i) self (i_funds i) (w_bank w) = Some bank ->
      execute e i (w_store w) m = Ok (s, ms, at') ->
      step w P (Some (mkCall e i m ms)) (mkWorld s (w_cw20 w) (w_allow w) bank) (P ++ ms)
  | sp_message x P1 P2 w w' : (if message_to_hostile hostile x then w' = w else settle self [x] [] w = Done w' []) ->
      step w (P1 ++ x :: P2) None w' (P1 ++ P2)
  (** anything else that happens to the ledgers takes nothing of the other tokens from those who do not act *)
  | sp_other w w' P : w_store w' = w_store w ->
      (forall T b, hostile T = false -> ~ actor b -> wealth V w T b <= wealth V w' T b /\ (b <> self -> amount_of (w_allow w') T b = amount_of (w_allow w) T b)) ->
      step w P None w' P.

  Inductive steps : world -> list out_msg -> list made_call -> world -> list out_msg -> Prop :=
  | ss_nil w P : steps w P [] w P
  | ss_cons w P c w1 P1 l w2 P2 : step w P c w1 P1 -> steps w1 P1 l w2 P2 -> steps w P (match c with Some x => x :: l | None => l end) w2 P2.
End storm.

(** the same calls one after the other, nothing in between *)
Fixpoint in_sequence (s : store) (l : list made_call) (s' : store) : Prop :=
  match l with
  | [] => s' = s
  | c :: l => exists s1 at', execute (mc_env c) (mc_info c) s (mc_msg c) = Ok (s1, mc_out c, at') /\ in_sequence s1 l s'
  end.
