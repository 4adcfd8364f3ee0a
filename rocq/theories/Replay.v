(** A kit to replay the test suite of /repo on the model: assertions about results, and the mock chain of
    contracts/oraiswap-v3/src/tests/helper.rs (one exchange, CW20 tokens, a new block after each successful call). *)
From Verif Require Import Base Types State Exec Query World.
From stdpp Require Import gmap strings.
Open Scope Z_scope.

(** [r.unwrap()], [r.unwrap_err()], [assert!], the item of a vector, [o.unwrap()] *)
Definition unwrapped {A} (r : res A) (k : A -> Prop) : Prop := match r with Ok a => k a | _ => False end.
Definition is_refused {A} (r : res A) : Prop := match r with Err _ => True | _ => False end.
Definition item {A} (l : list A) (i : Z) : res A := match l !! Z.to_nat i with Some a => Ok a | None => Panic end.
Definition there {A} (o : option A) : res A := match o with Some a => Ok a | None => Panic end.
Notation "'let!' x := r 'in' k" := (unwrapped r (fun x => k)) (at level 200, x name, k at level 200, right associativity).
Notation "'let?' x := r 'in' k" := (unwrapped (there r) (fun x => k)) (at level 200, x name, k at level 200, right associativity).
Notation "'refused' r ; k" := (is_refused r /\ k) (at level 200, r at level 100, k at level 200, right associativity).
Notation "'assert' P ; k" := (P /\ k) (at level 200, P at level 100, k at level 200, right associativity).
Ltac replay := vm_compute; repeat split; try discriminate.

(** helper.rs:38-113: the chain of cw-multi-test starts at block 12345; a successful call is followed by the next block *)
Record app := mkApp { ap_world : world; ap_block : Z }.
Definition store0 : store := mkStore (mkConfig "" [] 0) ∅ ∅ ∅ ∅ ∅ ∅.
Definition fresh_app : app := mkApp (mkWorld store0 ∅ ∅ ∅) 0.
Definition env_of (a : app) : env :=
  mkEnv (12345 + ap_block a) ((1571797419 + 5 * ap_block a) * 1000000000 + 879305533) "dex" 2000 (fun _ => true) (fun _ => true).
Definition st (a : app) : store := w_store (ap_world a).
Definition next (a : app) (w : world) : app := mkApp w (ap_block a + 1).
Definition response : Type := app * list (string * Z).
Definition after (a : app) (r : res response) : app := match r with Ok (a', _) => a' | _ => a end.
Definition attr (r : response) (k : string) : option Z := snd <$> find (fun p => String.eqb (fst p) k) (snd r).

(** helper.rs:193-218, 242-258, 296-320 *)
Definition create_token (a : app) (T owner : string) (v : Z) : app :=
  next a (mkWorld (st a) (credit (w_cw20 (ap_world a)) T owner v) (w_allow (ap_world a)) (w_bank (ap_world a))).
Definition mint_token (a : app) (T to : string) (v : Z) : res response :=
  Ok (next a (mkWorld (st a) (credit (w_cw20 (ap_world a)) T to v) (w_allow (ap_world a)) (w_bank (ap_world a))), []).
Definition approve_token (a : app) (T owner : string) (v : Z) : res response :=
  Ok (next a (mkWorld (st a) (w_cw20 (ap_world a)) (credit (w_allow (ap_world a)) T owner v) (w_bank (ap_world a))), []).
(** helper.rs:322-330 *)
Definition create_dex (a : app) (owner : string) (fee : Z) : res app :=
  let* s := instantiate (mkInfo owner []) fee in
  Ok (next a (mkWorld s (w_cw20 (ap_world a)) (w_allow (ap_world a)) (w_bank (ap_world a)))).
(** helper.rs:97-112 *)
Definition call (a : app) (sender : string) (m : exec_msg) : res response :=
  match world_call (env_of a) (mkInfo sender []) (ap_world a) m with
  | Done w at' => Ok (next a w, at')
  | _ => Err StdErr
  end.
Definition balance (a : app) (T who : string) : Z := amount_of (w_cw20 (ap_world a)) T who.
(** the fields of the result of [get_liquidity] *)
Definition g_x (r : Z * Z * Z) : Z := fst (fst r).
Definition g_y (r : Z * Z * Z) : Z := snd (fst r).
Definition g_l (r : Z * Z * Z) : Z := snd r.
