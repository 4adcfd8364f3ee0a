(** C98: listing the pools of a pair of tokens. *)
From Verif Require Import Base Decimal SqrtPrice Types Tick Pool Position Tickmap Keys State Swap Exec Query Tactics Frame History Basic
  Vectors Scenario PropAuth PropConfig.
From stdpp Require Import gmap strings list.
From Coq Require Import Lia.
Open Scope Z_scope.

Definition of_pair (a b : string) (k : pool_key) : Prop := (pk_x k = a /\ pk_y k = b) \/ (pk_x k = b /\ pk_y k = a).

Lemma key_new_spec a b t : a <> b -> exists k, pool_key_new a b t = Ok k /\ of_pair a b k /\ pk_tier k = t /\
  String.ltb (pk_x k) (pk_y k) = true /\ forall t', pool_key_new a b t' = Ok (mkPoolKey (pk_x k) (pk_y k) t').
Proof.
  intros N. unfold pool_key_new. rewrite (proj2 (String.eqb_neq a b) N). pose proof (ltb_total a b N) as T.
  destruct (String.ltb a b) eqn:L; (eexists; split; [reflexivity|]); cbn; (split; [unfold of_pair; cbn; tauto|]); (split; [done|]); (split; [done|done]).
Qed.

(** * C98 *)
(** The listing of a pair refuses equal tokens and does not depend on their order.  It returns the pools of the pair whose tier is listed, with
    their current states, in the order of the tiers; each once if no tier is listed twice.
    Missing from C98: pools whose tier has been removed are not listed, and a tier listed twice (C35) makes its pool appear twice, see below. *)
Theorem C98_pair_partial s a b : reachable s ->
  query_pools_for_pair s a b = query_pools_for_pair s b a /\
  (a = b -> query_pools_for_pair s a b = Err TokensAreSame) /\
  (a <> b -> exists l, query_pools_for_pair s a b = Ok l /\
     (forall k p, (k, p) ∈ l <-> st_pools s !! k = Some p /\ of_pair a b k /\ query_fee_tier_exist s (pk_tier k) = true) /\
     sublist (map (fun kp => pk_tier (fst kp)) l) (query_fee_tiers s) /\
     (NoDup (query_fee_tiers s) -> NoDup (map fst l))).
Proof.
  intros R. apply reachable_ereach, ereach_pools in R.
  assert (SYM : forall t, pool_key_new a b t = pool_key_new b a t).
  { intros t. unfold pool_key_new. rewrite (String.eqb_sym b a). destruct (String.eqb_spec a b) as [|N]; [done|].
    rewrite (ltb_total a b N). by destruct (String.ltb a b). }
  split; [unfold query_pools_for_pair; by rewrite SYM|].
  split; [intros ->; unfold query_pools_for_pair, pool_key_new; by rewrite String.eqb_refl|].
  intros N. destruct (key_new_spec a b (mkFeeTier 0 0) N) as (k0 & K0 & OP & _ & LT & _).
  unfold query_pools_for_pair. rewrite K0. cbn [bind]. eexists. split; [reflexivity|].
  set (f := fun ft => let k := mkPoolKey (pk_x k0) (pk_y k0) ft in match get_pool s k with Ok p => Some (k, p) | _ => None end).
  assert (F : forall ft k p, f ft = Some (k, p) <-> k = mkPoolKey (pk_x k0) (pk_y k0) ft /\ st_pools s !! k = Some p).
  { intros ft k p. unfold f, get_pool. cbv zeta. destruct (st_pools s !! mkPoolKey (pk_x k0) (pk_y k0) ft) eqn:E.
    - split; [intros X; injection X as <- <-; done|]. intros [-> X]. congruence.
    - split; [done|]. intros [-> X]. congruence. }
  split; [|split].
  - intros k p. rewrite elem_of_list_omap. unfold query_fee_tier_exist. rewrite bool_decide_eq_true. split.
    + intros (ft & I & E). apply F in E. destruct E as [-> E]. split; [done|]. split; [exact OP|exact I].
    + intros (E & O & I). exists (pk_tier k). split; [exact I|]. apply F. split; [|exact E].
      specialize (R _ _ E). destruct R as [_ L _].
      assert (X : pk_x k = pk_x k0 /\ pk_y k = pk_y k0).
      { unfold of_pair in *. destruct O as [[O1 O2]|[O1 O2]], OP as [[P1 P2]|[P1 P2]]; rewrite O1, O2, P1, P2 in *; try done.
        - exfalso. rewrite (ltb_total _ _ N), L in LT. done.
        - exfalso. rewrite (ltb_total _ _ N), LT in L. done. }
      destruct k; cbn in *. destruct X as [-> ->]. done.
  - unfold query_fee_tiers. induction (cf_fee_tiers (st_config s)) as [|t l IH]; cbn; [constructor|].
    destruct (f t) as [[k p]|] eqn:E; cbn.
    + apply F in E. destruct E as [-> _]. cbn. by constructor.
    + by constructor.
  - unfold query_fee_tiers. intros ND. induction (cf_fee_tiers (st_config s)) as [|t l IH]; cbn; [constructor|].
    apply NoDup_cons in ND. destruct ND as [NI ND]. specialize (IH ND).
    destruct (f t) as [[k p]|] eqn:E; cbn; [|exact IH]. apply NoDup_cons. split; [|exact IH].
    apply F in E. destruct E as [-> _]. intros X. apply elem_of_list_fmap in X. destruct X as ([k' p'] & Q & X). cbn in Q.
    apply elem_of_list_omap in X. destruct X as (t' & I & X). apply F in X. destruct X as [-> _]. injection Q as ->. done.
Qed.

Example ex_C98 : reachable sc0 /\ NoDup (query_fee_tiers sc0) /\
  match query_pools_for_pair sc0 "tokeny" "tokenx" with Ok l => map fst l = [v_key] | _ => False end.
Proof. split; [eapply start_reachable, sc0_ok|]. vm_compute. split; [|reflexivity]. repeat constructor; intros H; inversion H. Qed.

(** The pool of the sample history vanishes from the listing of its pair when the administrator removes its tier, and appears twice when they add it a second
    time; it can be traded all the same. *)
Theorem C98_pair_refuted : exists s1 s2 k p l1 l2, reachable s1 /\ reachable s2 /\
  (st_pools s1 !! k = Some p /\ query_pools_for_pair s1 (pk_x k) (pk_y k) = Ok l1 /\ k ∉ map fst l1 /\
    is_ok (execute v_env (v_info "carol") s1 (Swap k true 1000 true 15258932000000000000)) = true) /\
  (query_pools_for_pair s2 (pk_x k) (pk_y k) = Ok l2 /\ map fst l2 = [k; k]).
Proof.
  set (r1 := execute v_env (v_info "alice") sc0 (RemoveFeeTier v_tier)). set (r2 := execute v_env (v_info "alice") sc0 (AddFeeTier v_tier)).
  assert (X : match r1, r2 with
    | Ok (s1, _, _), Ok (s2, _, _) =>
        match st_pools s1 !! v_key, query_pools_for_pair s1 (pk_x v_key) (pk_y v_key), query_pools_for_pair s2 (pk_x v_key) (pk_y v_key) with
        | Some _, Ok l1, Ok l2 => map fst l1 = [] /\ is_ok (execute v_env (v_info "carol") s1 (Swap v_key true 1000 true 15258932000000000000)) = true /\
            map fst l2 = [v_key; v_key]
        | _, _, _ => False
        end
    | _, _ => False end) by (vm_compute; repeat split; reflexivity).
  destruct r1 as [[[s1 m1] a1]| |] eqn:E1; [|destruct X..]. destruct r2 as [[[s2 m2] a2]| |] eqn:E2; [|destruct X..].
  destruct (st_pools s1 !! v_key) as [p|] eqn:EP; [|destruct X].
  destruct (query_pools_for_pair s1 (pk_x v_key) (pk_y v_key)) as [l1| |] eqn:Q1; [|destruct X..].
  destruct (query_pools_for_pair s2 (pk_x v_key) (pk_y v_key)) as [l2| |] eqn:Q2; [|destruct X..]. destruct X as (X1 & X2 & X3).
  assert (R : reachable sc0) by (eapply start_reachable, sc0_ok).
  exists s1, s2, v_key, p, l1, l2. split; [eapply reach_call; [exact R|exact E1]|]. split; [eapply reach_call; [exact R|exact E2]|].
  split; [split; [exact EP|split; [exact Q1|split; [rewrite X1; apply not_elem_of_nil|exact X2]]]|]. split; [exact Q2|exact X3].
Qed.
