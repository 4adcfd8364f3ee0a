(** Byte-level storage keys: storage/pool_key.rs, storage/fee_tier.rs, state.rs.
    A byte string is a Coq [string]. *)
From Verif Require Import Base Types.
From Coq Require Import Ascii.
From stdpp Require Import strings.
Open Scope Z_scope.

Definition byte (v : Z) : ascii := ascii_of_N (Z.to_N (v mod 256)).
Definition byte_val (a : ascii) : Z := Z.of_N (N_of_ascii a).

(** [to_be_bytes] of an [n]-byte integer *)
Fixpoint be_bytes (n : nat) (v : Z) : string :=
  match n with
  | O => EmptyString
  | S n' => String (byte (v / 256 ^ Z.of_nat n')) (be_bytes n' v)
  end.

(** [from_be_bytes] *)
Fixpoint be_val_acc (acc : Z) (s : string) : Z :=
  match s with
  | EmptyString => acc
  | String a s' => be_val_acc (acc * 256 + byte_val a) s'
  end.
Definition be_val (s : string) : Z := be_val_acc 0 s.

Definition slen (s : string) : Z := Z.of_nat (String.length s).

(** storage/fee_tier.rs:25-31 [FeeTier::key] *)
Definition fee_tier_key (t : fee_tier) : string :=
  (be_bytes 8 (ft_fee t) +:+ be_bytes 2 (ft_spacing t))%string.

(** storage/fee_tier.rs:33-46 [FeeTier::from_bytes] *)
Definition fee_tier_from_bytes (raw : string) : res fee_tier :=
  if negb (slen raw =? 10) then Err InvalidSize
  else Ok (mkFeeTier (be_val (substring 0 8 raw)) (be_val (substring 8 2 raw))).

(** cosmwasm_storage [to_length_prefixed_nested]: each part preceded by its length as 2 bytes;
    panics if a part is longer than 65535 bytes (cosmwasm-storage encode_length) *)
Fixpoint length_prefixed (parts : list string) : res string :=
  match parts with
  | [] => Ok EmptyString
  | s :: rest =>
      if 65535 <? slen s then Panic
      else let* r := length_prefixed rest in Ok (be_bytes 2 (slen s) +:+ s +:+ r)%string
  end.

(** storage/pool_key.rs:15-22 [PoolKey::key] *)
Definition pool_key_bytes (k : pool_key) : res string :=
  length_prefixed [pk_x k; pk_y k; fee_tier_key (pk_tier k)].

(** storage/pool_key.rs:24-34: split a raw key into namespaces; slicing out of bounds panics.
    The structural argument bounds the [while] by the key length. *)
Fixpoint split_namespaces (fuel : nat) (raw : string) : res (list string) :=
  match raw with
  | EmptyString => Ok []
  | String _ _ =>
      match fuel with
      | O => Panic
      | S f =>
          if slen raw <? 2 then Panic
          else
            let n := Z.to_nat (be_val (substring 0 2 raw)) in
            let rest := substring 2 (String.length raw - 2) raw in
            if (String.length rest <? n)%nat then Panic
            else
              let* l := split_namespaces f (substring n (String.length rest - n) rest) in
              Ok (substring 0 n rest :: l)
      end
  end.

(** storage/pool_key.rs:24-45 [PoolKey::from_bytes].  UTF-8 decoding of the two names is not
    modelled (stored keys come from valid strings). *)
Definition pool_key_from_bytes (raw : string) : res pool_key :=
  let* l := split_namespaces (String.length raw) raw in
  match l with
  | [a; b; c] => let* t := fee_tier_from_bytes c in Ok (mkPoolKey a b t)
  | _ => Err InvalidSize
  end.

(** state.rs:60-64 [tick_key]; i32 in two's complement *)
Definition tick_key_bytes (k : pool_key) (index : Z) : res string :=
  let* b := pool_key_bytes k in Ok (b +:+ be_bytes 4 (index mod 4294967296))%string.

(** state.rs:129-133 [position_key] *)
Definition position_key_bytes (owner : string) (index : Z) : string :=
  (owner +:+ be_bytes 4 index)%string.

(** state.rs:243-247 [bitmap_key] *)
Definition bitmap_key_bytes (chunk : Z) (k : pool_key) : res string :=
  let* b := pool_key_bytes k in Ok (be_bytes 2 chunk +:+ b)%string.

(** The split of a token id used by entrypoints/common.rs:420,458-459, execute.rs:767-768,
    query.rs:403: the last four bytes are the index, the rest the owner. *)
Definition split_token (tid : string) : option (string * Z) :=
  let n := String.length tid in
  if (n <? 4)%nat then None
  else Some (substring 0 (n - 4) tid, be_val (substring (n - 4) 4 tid)).

(** Raw storage keys (state.rs:12-26).  [cw_storage_plus] stores an [Item] under its name and a
    [Map] entry under its length-prefixed namespace followed by the key; all parts of a tuple key
    but the last are length-prefixed as well. *)
Inductive storage_key :=
| KConfig
| KPool (k : pool_key)
| KTick (k : pool_key) (index : Z)
| KBitmap (k : pool_key) (chunk : Z)
| KPosition (owner : string) (index : Z)
| KPosLen (owner : string)
| KOperator (owner operator : string).

Definition in_namespace (ns : list string) (key : string) : res string :=
  let* p := length_prefixed ns in Ok (p +:+ key)%string.

Definition raw_key (k : storage_key) : res string :=
  match k with
  | KConfig => Ok "config"
  | KPool k => let* b := pool_key_bytes k in in_namespace ["pools"] b
  | KTick k i => let* b := tick_key_bytes k i in in_namespace ["ticks"] b
  | KBitmap k c => let* b := bitmap_key_bytes c k in in_namespace ["bitmap"] b
  | KPosition a i => in_namespace ["positions"] (position_key_bytes a i)
  | KPosLen a => in_namespace ["positions_length"] a
  | KOperator a o => in_namespace ["operators"; a] o
  end.
