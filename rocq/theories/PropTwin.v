(** C114: the token interface is the position interface under other names. *)
From Verif Require Import Base Decimal SqrtPrice Clamm Log FeeGrowth Types Tick Pool Position
  Tickmap Keys State Swap Exec Query Tactics Frame Handlers History Basic KeysProofs Vectors Scenario PropTrade PropPerm PropLocal PropClock.
From stdpp Require Import gmap strings.
From Coq Require Import Lia.
Open Scope Z_scope.

(** the call of the token interface that stands for a call of the position interface by [a] *)
Definition as_token (a : string) (m : exec_msg) : exec_msg :=
  match m with
  | CreatePosition k l u q sl su => Mint k l u q sl su
  | TransferPosition ix r => TransferNft r (position_key_bytes a ix)
  | RemovePosition ix => Burn (position_key_bytes a ix)
  | _ => m
  end.
(** the numbers fit their types, and the receiver is an address *)
Definition well_addressed (e : env) (m : exec_msg) : Prop :=
  match m with
  | TransferPosition ix r => 0 <= ix < 2 ^ 32 /\ e_addr_ok e r = true
  | RemovePosition ix => 0 <= ix < 2 ^ 32
  | _ => True
  end.

Lemma own_send e i s po : check_can_send e i s (i_sender i) po = Ok tt.
Proof. unfold check_can_send. by rewrite String.eqb_refl. Qed.

(** A call and its twin have the same outcome in every state: the same state, messages and figures if it is accepted, the same
    refusal otherwise. *)
Theorem C114_twins e i s m : e_utf8_ok e (i_sender i) = true -> well_addressed e m ->
  execute e i s (as_token (i_sender i) m) = execute e i s m.
Proof.
  intros U W. unfold execute. destruct m; cbn [as_token]; try reflexivity; cbn [well_addressed] in W; cbn [msg_typed dispatch].
  - destruct W as [W A]. unfold u32_ok. match goal with |- context [in_range 0 U32MAX ?z] => rewrite (proj2 (in_range_spec 0 U32MAX z)) by (unfold U32MAX; lia) end.
    destruct (env_typed e i); [|reflexivity]. cbn [andb]. unfold handle_transfer_nft, transfer_nft, transfer_position, get_position_by_key.
    rewrite (split_token_round _ _ W), U. cbn [negb]. destruct (get_position s (i_sender i) index) as [po| |]; [|reflexivity..]. cbn [bind].
    rewrite own_send. cbn [bind]. destruct (remove_position s (i_sender i) index) as [[s1 q]| |]; [|reflexivity..]. cbn [bind]. rewrite A. reflexivity.
  - unfold u32_ok. match goal with |- context [in_range 0 U32MAX ?z] => rewrite (proj2 (in_range_spec 0 U32MAX z)) by (unfold U32MAX; lia) end.
    destruct (env_typed e i); [|reflexivity]. cbn [andb]. unfold handle_burn, get_position_by_key. rewrite (split_token_round _ _ W).
    destruct (get_position s (i_sender i) index) as [po| |] eqn:E; cbn [bind]; [rewrite own_send; reflexivity|unfold remove_position_exec; rewrite E; reflexivity..].
Qed.

(** Whole histories: any of the calls may be made through the token interface instead. *)
Definition twin_call (c c' : call) : Prop :=
  let '(e, i, m) := c in c' = c \/
  (c' = (e, i, as_token (i_sender i) m) /\ e_utf8_ok e (i_sender i) = true /\ well_addressed e m).
Theorem C114_histories zs zs' s : Forall2 twin_call zs zs' -> play zs' s = play zs s.
Proof.
  intros F. revert s. induction F as [|[[e i] m] c' zs zs' T F IH]; intros s; [done|]. cbn [twin_call] in T.
  assert (E : exists m', c' = (e, i, m') /\ execute e i s m' = execute e i s m).
  { destruct T as [->|(-> & U & W)]; [by exists m|]. eexists. split; [reflexivity|]. by apply C114_twins. }
  destruct E as (m' & -> & E). cbn [play]. rewrite E. destruct (execute e i s m) as [[[s1 ms] a]| |]; by rewrite IH.
Qed.

(** It makes no difference who moves a token, the owner or someone they have allowed to: whoever succeeds does the same. *)
Theorem C114_movers e i j s r t x y : execute e i s (TransferNft r t) = Ok x -> execute e j s (TransferNft r t) = Ok y -> x = y.
Proof.
  unfold execute. destruct (env_typed e i && _); [|done]. destruct (env_typed e j && _); [|done]. cbn [dispatch].
  unfold handle_transfer_nft, transfer_nft. destruct (split_token t) as [[o ix]|]; [|done]. destruct (negb _); [done|].
  intros H1 H2. inv_bind H1 as s1 E1. inv_bind H2 as s2 E2. inv_bind E1 as po P1. inv_bind E2 as po' P2. rewrite P1 in P2. apply Ok_inj in P2 as <-.
  inv_bind E1 as u1 C1. inv_bind E2 as u2 C2. congruence.
Qed.
(** Sending is transferring plus one notice to the receiver. *)
Theorem C114_sending e i s r t n : execute e i s (SendNft r t n) =
  match execute e i s (TransferNft r t) with Ok (s', _, _) => Ok (s', [NftReceive r (i_sender i) t n], []) | Err x => Err x | Panic => Panic end.
Proof.
  unfold execute. cbn [msg_typed]. destruct (env_typed e i && true); [|reflexivity]. cbn [dispatch]. unfold handle_send_nft, handle_transfer_nft.
  destruct (transfer_nft e i s r t); reflexivity.
Qed.
(** so whatever a delegate does with a token, the owner could have done with the position interface, to the same effect *)
Theorem C114_delegates e i j s o ix r s' ms at' : 0 <= ix < 2 ^ 32 -> e_addr_ok e r = true -> e_utf8_ok e o = true -> i_sender j = o -> env_typed e j = true ->
  execute e i s (TransferNft r (position_key_bytes o ix)) = Ok (s', ms, at') -> execute e j s (TransferPosition ix r) = Ok (s', ms, at').
Proof.
  intros HI A U S TY H. rewrite <- (C114_twins e j s (TransferPosition ix r)); [|by rewrite S|done]. cbn [as_token]. rewrite S. revert H.
  unfold execute. cbn [msg_typed]. destruct (env_typed e i); [|done]. rewrite TY. cbn [andb dispatch]. unfold handle_transfer_nft, transfer_nft.
  destruct (split_token _) as [[o' ix']|] eqn:T; [|done]. rewrite (split_token_round _ _ HI) in T. injection T as <- <-. rewrite U. cbn [negb].
  intros H. inv_bind H as s1 E. inv_bind E as po P. rewrite P. cbn [bind]. inv_bind E as u C. rewrite <- S at 1. rewrite own_send. cbn [bind].
  rewrite E. cbn [bind]. exact H.
Qed.

(** Without the condition on the receiver the twins part: the token interface accepts a receiver that is no address. *)
Definition strict_env : env := mkEnv (e_height v_env) (e_nanos v_env) (e_self v_env) (e_gas v_env) (fun a => negb (String.eqb a "nowhere")) (fun _ => true).
Theorem C114_receiver_refuted : exists e i s m, reachable s /\ e_utf8_ok e (i_sender i) = true /\ msg_typed m = true /\
  (exists x, execute e i s m = Err x) /\ exists r, execute e i s (as_token (i_sender i) m) = Ok r.
Proof.
  exists strict_env, (v_info "alice"), sc0, (TransferPosition 0 "nowhere"). split; [exact sc0_reachable|]. split; [reflexivity|]. split; [reflexivity|].
  split; [exists StdErr; vm_compute; reflexivity|].
  assert (P : forall m : res response, is_ok m = true -> exists r, m = Ok r) by (intros [ | | ]; [eauto|done..]). apply P. vm_compute. reflexivity.
Qed.

(** *** Example: in the scenario bob closes their position as a token, alice hands one over as a token; every reply is the one the
    position interface gives, and all are accepted *)
Definition tw_calls : list call :=
  [(v_env, v_info "alice", TransferPosition 0 "carol"); (v_env, v_info "bob", RemovePosition 0); (v_env, v_info "carol", RemovePosition 0)]%string.
Definition tw_tokens : list call :=
  [(v_env, v_info "alice", TransferNft "carol" (position_key_bytes "alice" 0)); (v_env, v_info "bob", Burn (position_key_bytes "bob" 0));
   (v_env, v_info "carol", RemovePosition 0)]%string.
Example ex_C114 : Forall2 twin_call tw_calls tw_tokens /\ map is_ok (fst (play tw_calls sc0)) = [true; true; true] /\
  is_ok (execute v_env (v_info "dave") sc0 (TransferNft "carol" (position_key_bytes "alice" 0))) = true.
Proof.
  split; [|split; vm_compute; reflexivity].
  unfold tw_calls, tw_tokens. constructor; [|constructor; [|constructor; [|constructor]]]; cbn [twin_call].
  - right. split; [reflexivity|]. split; [reflexivity|]. split; [lia|reflexivity].
  - right. split; [reflexivity|]. split; [reflexivity|]. cbn [well_addressed]. lia.
  - left. reflexivity.
Qed.
