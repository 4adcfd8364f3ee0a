(** Sums over the live positions. *)
From Verif Require Import Base Types Frame Handlers.
From stdpp Require Import gmap strings.
From Coq Require Import Lia.
Open Scope Z_scope.

Notation posmap := (gmap (string * Z) position).
Definition psum (f : position -> Z) (m : posmap) : Z := map_fold (fun _ po acc => f po + acc) 0 m.

Lemma psum_empty f : psum f ∅ = 0.
Proof. apply map_fold_empty. Qed.
Lemma psum_new f m x po : m !! x = None -> psum f (<[x := po]> m) = f po + psum f m.
Proof.
  intros H. unfold psum. rewrite map_fold_insert_L; [done| |done]. intros. lia.
Qed.
Lemma psum_delete f m x po : m !! x = Some po -> psum f m = f po + psum f (delete x m).
Proof.
  intros H. rewrite <- (insert_delete m x po H) at 1. rewrite psum_new; [done|apply lookup_delete].
Qed.
Lemma psum_update f m x po po' : m !! x = Some po -> psum f (<[x := po']> m) = psum f m - f po + f po'.
Proof.
  intros H. rewrite (psum_delete f m x po H). rewrite (psum_delete f (<[x := po']> m) x po' (lookup_insert _ _ _)).
  rewrite delete_insert_delete. lia.
Qed.
Lemma psum_ind (P : posmap -> Prop) : P ∅ -> (forall x po m, m !! x = None -> P m -> P (<[x := po]> m)) -> forall m, P m.
Proof. apply map_ind. Qed.

Lemma psum_ext f g m : (forall x po, m !! x = Some po -> f po = g po) -> psum f m = psum g m.
Proof.
  revert m. apply (psum_ind (fun m => (forall x po, m !! x = Some po -> f po = g po) -> psum f m = psum g m)).
  - by rewrite !psum_empty.
  - intros x po m N IH E. rewrite !psum_new by done. rewrite (E x po) by apply lookup_insert. rewrite IH; [done|].
    intros y q Q. apply (E y). rewrite lookup_insert_ne; [done|]. congruence.
Qed.
Lemma psum_le f g m : (forall x po, m !! x = Some po -> f po <= g po) -> psum f m <= psum g m.
Proof.
  revert m. apply (psum_ind (fun m => (forall x po, m !! x = Some po -> f po <= g po) -> psum f m <= psum g m)).
  - rewrite !psum_empty. lia.
  - intros x po m N IH E. rewrite !psum_new by done. pose proof (E x po (lookup_insert _ _ _)).
    assert (psum f m <= psum g m); [|lia]. apply IH.
    intros y q Q. apply (E y). rewrite lookup_insert_ne; [done|]. congruence.
Qed.
Lemma psum_add f g m : psum (fun po => f po + g po) m = psum f m + psum g m.
Proof.
  revert m. apply psum_ind; [by rewrite !psum_empty|]. intros x po m N IH. rewrite !psum_new by done. lia.
Qed.
Lemma psum_sub f g m : psum (fun po => f po - g po) m = psum f m - psum g m.
Proof.
  revert m. apply psum_ind; [by rewrite !psum_empty|]. intros x po m N IH. rewrite !psum_new by done. lia.
Qed.
Lemma psum_scale f c m : psum (fun po => c * f po) m = c * psum f m.
Proof.
  revert m. apply psum_ind; [rewrite !psum_empty; lia|]. intros x po m N IH. rewrite !psum_new by done. lia.
Qed.
Lemma psum_zero m : psum (fun _ => 0) m = 0.
Proof. revert m. apply psum_ind; [by rewrite !psum_empty|]. intros x po m N IH. rewrite !psum_new by done. lia. Qed.
Lemma psum_nonneg f m : (forall x po, m !! x = Some po -> 0 <= f po) -> 0 <= psum f m.
Proof. intros H. rewrite <- (psum_zero m). by apply psum_le. Qed.
Lemma psum_ge f m x po : (forall x po, m !! x = Some po -> 0 <= f po) -> m !! x = Some po -> f po <= psum f m.
Proof.
  intros H E. rewrite (psum_delete f m x po E). assert (0 <= psum f (delete x m)); [|lia].
  apply psum_nonneg. intros y q Q. apply lookup_delete_Some in Q. destruct Q as [_ Q]. eauto.
Qed.
Lemma psum_pos f m : (forall x po, m !! x = Some po -> 0 <= f po) -> 0 < psum f m -> exists x po, m !! x = Some po /\ 0 < f po.
Proof.
  revert m. apply (psum_ind (fun m => (forall x po, m !! x = Some po -> 0 <= f po) -> 0 < psum f m -> exists x po, m !! x = Some po /\ 0 < f po)).
  - rewrite psum_empty. lia.
  - intros x po m N IH E P. rewrite psum_new in P by done. pose proof (E x po (lookup_insert _ _ _)).
    destruct (Z.eq_dec (f po) 0) as [Z0|Z0]; [|exists x, po; split; [apply lookup_insert|lia]].
    destruct IH as (y & q & Q & F); [|lia|].
    + intros y q Q. apply (E y). rewrite lookup_insert_ne; [done|]. congruence.
    + exists y, q. split; [|done]. rewrite lookup_insert_ne; [done|]. congruence.
Qed.

Lemma psum_removed f a i n m m' po : m !! (a, i) = Some po -> swap_removed a i n m m' -> psum f m' = psum f m - f po.
Proof.
  intros E [(L & last & EL & ->)|(L & ->)].
  - assert ((a, n) <> (a, i)) by (injection; lia).
    rewrite (psum_update f _ (a, i) po last) by (rewrite lookup_delete_ne; done).
    rewrite (psum_delete f m (a, n) last EL). lia.
  - rewrite (psum_delete f m (a, i) po E). lia.
Qed.
Lemma removed_sub a i n m m' x po : swap_removed a i n m m' -> m' !! x = Some po -> exists y, m !! y = Some po.
Proof.
  intros [(L & last & EL & ->)|(L & ->)] E.
  - apply lookup_insert_Some in E. destruct E as [[_ <-]|[_ E]]; [eauto|]. apply lookup_delete_Some in E. destruct E. eauto.
  - apply lookup_delete_Some in E. destruct E. eauto.
Qed.

(** exchanging with a finite sum *)
Definition lsum {A} (f : A -> Z) (l : list A) : Z := foldr (fun a acc => f a + acc) 0 l.
Lemma psum_lsum {A} (f : A -> position -> Z) l m : psum (fun po => lsum (fun a => f a po) l) m = lsum (fun a => psum (f a) m) l.
Proof.
  induction l as [|a l IH]; cbn; [apply psum_zero|]. rewrite (psum_add (f a)). unfold lsum in IH. rewrite IH. done.
Qed.
Lemma lsum_ext {A} (f g : A -> Z) l : (forall a, a ∈ l -> f a = g a) -> lsum f l = lsum g l.
Proof.
  induction l as [|a l IH]; intros H; [done|]; cbn [lsum foldr]; fold (lsum f l) (lsum g l).
  rewrite (H a), IH; [done| |]; intros; try apply H; set_solver.
Qed.
Lemma lsum_le {A} (f g : A -> Z) l : (forall a, a ∈ l -> f a <= g a) -> lsum f l <= lsum g l.
Proof.
  induction l as [|a l IH]; intros H; [cbn; lia|]; cbn [lsum foldr]; fold (lsum f l) (lsum g l). pose proof (H a ltac:(set_solver)). assert (lsum f l <= lsum g l); [|lia].
  apply IH. intros b B. apply H. set_solver.
Qed.
Lemma lsum_const {A} (c : Z) (l : list A) : lsum (fun _ => c) l = c * Z.of_nat (length l).
Proof. induction l as [|a l IH]; cbn [lsum foldr length]; [lia|]. unfold lsum in IH. rewrite IH. lia. Qed.
Lemma lsum_add {A} (f g : A -> Z) l : lsum (fun a => f a + g a) l = lsum f l + lsum g l.
Proof. induction l as [|a l IH]; cbn; [done|]. unfold lsum in IH. lia. Qed.
Lemma lsum_single {A} `{EqDecision A} (x : A) (v : Z) l : NoDup l -> x ∈ l -> lsum (fun a => if decide (a = x) then v else 0) l = v.
Proof.
  induction l as [|a l IH]; intros N E; [by apply elem_of_nil in E|]. apply NoDup_cons in N. destruct N as [N1 N2]. cbn.
  destruct (decide (a = x)) as [->|D].
  - assert (lsum (fun a => if decide (a = x) then v else 0) l = 0) as Q; [|unfold lsum in Q; lia].
    clear IH N2 E. induction l as [|b l IH]; [done|]. cbn. rewrite decide_False by set_solver. unfold lsum in IH. rewrite IH; [lia|set_solver].
  - apply elem_of_cons in E. destruct E as [->|E]; [done|]. unfold lsum in IH. rewrite IH by done. lia.
Qed.
