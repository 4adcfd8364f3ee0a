(** Observing the messages a call sends: who is paid what, who is charged what. *)
From Verif Require Import Base Decimal Types State Swap Exec Tactics.
From stdpp Require Import gmap strings.
From Coq Require Import Lia.
Open Scope Z_scope.

(** amount of token [tok] that message [m] pays to [a] *)
Definition paid1 (a tok : string) (m : out_msg) : Z :=
  match m with
  | Cw20Transfer t r v | BankSend r t v => if String.eqb r a && String.eqb t tok then v else 0
  | _ => 0
  end.
(** amount of token [tok] that message [m] pulls from [a] into the contract [self] *)
Definition pulled1 (self a tok : string) (m : out_msg) : Z :=
  match m with
  | Cw20TransferFrom t o r v =>
      if String.eqb o a && String.eqb t tok && String.eqb r self then v else 0
  | _ => 0
  end.
Definition sumZ (l : list Z) : Z := foldr Z.add 0 l.
Definition paid (a tok : string) (ms : list out_msg) : Z := sumZ (map (paid1 a tok) ms).
Definition pulled (self a tok : string) (ms : list out_msg) : Z := sumZ (map (pulled1 self a tok) ms).

Lemma sumZ_app l l' : sumZ (l ++ l') = sumZ l + sumZ l'.
Proof. induction l as [|a l IH]; cbn; [done|]. unfold sumZ in *. lia. Qed.
Lemma paid_app a tok l l' : paid a tok (l ++ l') = paid a tok l + paid a tok l'.
Proof. unfold paid. by rewrite map_app, sumZ_app. Qed.
Lemma pulled_app self a tok l l' : pulled self a tok (l ++ l') = pulled self a tok l + pulled self a tok l'.
Proof. unfold pulled. by rewrite map_app, sumZ_app. Qed.

Lemma paid_transfer e i a tok denom v :
  paid a tok (asset_transfer e i denom v)
  = if String.eqb (i_sender i) a && String.eqb denom tok then v else 0.
Proof.
  unfold asset_transfer. destruct (Z.eqb_spec v 0) as [->|].
  - cbn. by destruct (_ && _).
  - destruct (e_addr_ok e denom); cbn; destruct (_ && _); lia.
Qed.
Lemma pulled_transfer e i self a tok denom v : pulled self a tok (asset_transfer e i denom v) = 0.
Proof. unfold asset_transfer. repeat case_match; done. Qed.

(** native coins of denomination [tok] attached to the call: the first entry, as the code reads it *)
Definition attached (i : msg_info) (tok : string) : Z :=
  match List.find (fun c => String.eqb (c_denom c) tok) (i_funds i) with
  | Some c => c_amount c
  | None => 0
  end.
