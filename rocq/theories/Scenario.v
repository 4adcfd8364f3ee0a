(** A concrete history used by the examples beside the theorems. *)
From Verif Require Import Base Decimal SqrtPrice Clamm Types Keys State Swap Exec Query Tactics History Vectors.
From stdpp Require Import gmap strings.
Open Scope Z_scope.

Lemma v_run_reachable l s s' : reachable s -> v_run l s = Ok s' -> reachable s'.
Proof.
  revert s. induction l as [|[a m] l IH]; intros s R H; cbn in H.
  - apply Ok_inj in H. by subst.
  - inv_bind H as [[s1 ms] at'] E. eapply IH; [|exact H]. eapply reach_call; eassumption.
Qed.

Definition start (protocol_fee : Z) (l : list (string * exec_msg)) : res store :=
  let* s := instantiate (v_info "alice") protocol_fee in v_run l s.
Lemma start_reachable f l s : start f l = Ok s -> reachable s.
Proof.
  unfold start. intros H. inv_bind H as s0 E. eapply v_run_reachable; [|exact H].
  eapply reach_init, E.
Qed.

(** alice: admin, two positions; bob: one position and a swap; carol: operator of alice;
    dave: approved for alice's first position *)
Definition sc0_calls : list (string * exec_msg) :=
  [("alice", AddFeeTier v_tier);
   ("alice", CreatePool "tokeny" "tokenx" v_tier SP_ONE 0);
   ("alice", CreatePosition v_key (-10) 10 20006000000000 SP_ONE SP_ONE);
   ("alice", CreatePosition v_key (-20) 30 5000000000000 SP_ONE SP_ONE);
   ("bob", CreatePosition v_key 10 20 700000000000 SP_ONE SP_ONE);
   ("bob", Swap v_key true 3000 true MIN_SQRT_PRICE);
   ("alice", ApproveAll "carol" (Some (AtHeight 5)));
   ("alice", Approve "dave" (position_key_bytes "alice" 0) (Some (AtHeight 7)))]%string.
Definition sc0 : store :=
  match start 10000000000 sc0_calls with
  | Ok s => s
  | _ => mkStore (mkConfig "" [] 0) ∅ ∅ ∅ ∅ ∅ ∅
  end.
Lemma sc0_ok : start 10000000000 sc0_calls = Ok sc0.
Proof. unfold sc0. destruct (start 10000000000 sc0_calls) eqn:E; [reflexivity|exfalso|exfalso];
  assert (is_ok (start 10000000000 sc0_calls) = true) as X by (vm_compute; reflexivity); rewrite E in X; discriminate. Qed.
Lemma sc0_reachable : reachable sc0.
Proof. eapply start_reachable, sc0_ok. Qed.

Definition env_at (h : Z) : env :=
  mkEnv h 1000000000 "self" 1000 (fun _ => true) (fun _ => true).
