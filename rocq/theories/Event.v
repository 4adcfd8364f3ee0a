(** The text of a response's attributes: entrypoints/execute.rs and the [Display] of decimals,
    packages/decimal-core/src/others.rs:75-98 *)
From Verif Require Import Base Decimal Types Swap Exec.
From stdpp Require Import strings.
Open Scope Z_scope.

(** [core::fmt] of unsigned integers: decimal digits, no leading zeros.  A number has no more
    decimal than binary digits, so the fuel suffices. *)
Definition digit (d : Z) : Ascii.ascii := Ascii.ascii_of_N (48 + Z.to_N d).
Fixpoint digits (fuel : nat) (n : Z) (acc : string) : string :=
  match fuel with
  | O => acc
  | S f => let acc := String (digit (n mod 10)) acc in
           if n / 10 =? 0 then acc else digits f (n / 10) acc
  end.
Definition show_uint (n : Z) : string := digits (S (Z.to_nat (Z.log2 n))) n EmptyString.
(** ... and of signed integers *)
Definition show_int (n : Z) : string :=
  if n <? 0 then String.append "-" (show_uint (- n)) else show_uint n.

(** others.rs:78-84: number of digits of the fraction without its leading zeros *)
Fixpoint tail_digits (fuel : nat) (n : Z) : nat :=
  match fuel with
  | O => O
  | S f => if n =? 0 then O else S (tail_digits f (n / 10))
  end.
Fixpoint zeros (n : nat) : string :=
  match n with O => EmptyString | S m => String (digit 0) (zeros m) end.

(** others.rs:75-98.  [scale - non_zero_tail] cannot underflow: the fraction is below 10^scale. *)
Definition show_decimal (scale : nat) (v : Z) : string :=
  match scale with
  | O => show_uint v
  | _ =>
      let one := 10 ^ Z.of_nat scale in
      let fraction := v mod one in
      let tail := tail_digits (S (Z.to_nat (Z.log2 fraction))) fraction in
      String.append (show_uint (v / one))
        (String.append "." (String.append (zeros (scale - tail)) (show_uint fraction)))
  end.

(** Which [to_string] prints a number: [Liquidity] has 6 places (liquidity.rs:4), [SqrtPrice] 24
    (sqrt_price.rs:8), amounts are [TokenAmount]s with none, tick indices are i32. *)
Definition show_attr (a : string * Z) : string * string :=
  let '(name, v) := a in
  (name,
   if String.eqb name "liquidity" then show_decimal 6 v
   else if String.eqb name "current_sqrt_price" then show_decimal 24 v
   else show_int v).

(** the attributes that repeat the input *)
Definition echo (i : msg_info) (m : exec_msg) : list (string * string) :=
  (match m with
   | ChangeAdmin a => [("action", "change_admin"); ("new_admin", a)]
   | WithdrawProtocolFee _ => [("action", "withdraw_protocol_fee")]
   | ChangeProtocolFee _ => [("action", "change_protocol_fee")]
   | ChangeFeeReceiver _ _ => [("action", "change_fee_receiver")]
   | CreatePosition _ _ _ _ _ _ | Mint _ _ _ _ _ _ =>
       [("action", "create_position"); ("address", i_sender i)]
   | Swap _ _ _ _ _ => [("action", "swap")]
   | SwapRoute _ _ _ _ => [("action", "swap_route")]
   | TransferPosition _ _ => [("action", "transfer_position")]
   | ClaimFee _ => [("action", "claim_fee")]
   | RemovePosition _ | Burn _ => [("action", "remove_position"); ("address", i_sender i)]
   | CreatePool _ _ _ _ _ => [("action", "create_pool")]
   | AddFeeTier _ => [("action", "add_fee_tier")]
   | RemoveFeeTier _ => [("action", "remove_fee_tier")]
   | Approve a _ _ => [("action", "approve"); ("sender", i_sender i); ("spender", a)]
   | Revoke a _ => [("action", "revoke"); ("sender", i_sender i); ("spender", a)]
   | ApproveAll o _ => [("action", "approve_all"); ("sender", i_sender i); ("operator", o)]
   | RevokeAll o => [("action", "revoke_all"); ("sender", i_sender i); ("operator", o)]
   | TransferNft r _ => [("action", "transfer_nft"); ("sender", i_sender i); ("recipient", r)]
   | SendNft c _ _ => [("action", "send_nft"); ("sender", i_sender i); ("recipient", c)]
   end)%string.

(** the attributes of a response, in order *)
Definition attributes (i : msg_info) (m : exec_msg) (numbers : list (string * Z))
  : list (string * string) := echo i m ++ map show_attr numbers.
