(** What the two tick listings return: C78. *)
From Verif Require Import Base Decimal SqrtPrice Clamm Log FeeGrowth Types Tick Pool Position
  Tickmap Keys State Swap Exec Query Tactics BitmapProofs KeysProofs Frame Handlers History Basic PosList
  Vectors Scenario SwapGeo SwapLoop LiqInv Geo Ops PropLiq.
From stdpp Require Import gmap strings.
From Coq Require Import Lia.
Open Scope Z_scope.

(** the entries of one position *)
Definition ends (s : store) (a : string) (i : Z) : list position_tick :=
  match get_position s a i with
  | Ok po =>
      (match get_tick s (po_key po) (po_lower po) with Ok t => [to_position_tick t] | _ => [] end)
      ++ (match get_tick s (po_key po) (po_upper po) with Ok t => [to_position_tick t] | _ => [] end)
  | _ => []
  end.

Lemma loop_eq s a l : forall acc c, (forall i, i ∈ l -> length (ends s a i) = 2%nat) -> length acc = (2 * c)%nat -> (c < 186)%nat ->
  position_ticks_loop l s a acc = acc ++ flat_map (ends s a) (take (186 - c) l).
Proof.
  assert (LIM : POSITION_TICK_LIMIT = 372) by reflexivity.
  induction l as [|i l IH]; intros acc c H L C; cbn [position_ticks_loop].
  - rewrite take_nil. cbn. by rewrite app_nil_r.
  - assert (E : (match get_position s a i with
        | Ok po =>
            acc ++ (match get_tick s (po_key po) (po_lower po) with
                    | Ok t => [to_position_tick t] | _ => [] end)
                ++ (match get_tick s (po_key po) (po_upper po) with
                    | Ok t => [to_position_tick t] | _ => [] end)
        | _ => acc
        end) = acc ++ ends s a i).
    { unfold ends. destruct (get_position s a i); [done|by rewrite app_nil_r..]. }
    cbv zeta. rewrite E. rewrite LIM, app_length, L, (H i) by set_solver.
    destruct (Z.leb_spec 372 (Z.of_nat (2 * c + 2))).
    + replace (186 - c)%nat with 1%nat by lia. cbn. rewrite take_0. cbn. by rewrite app_nil_r.
    + rewrite (IH _ (S c)); [| |rewrite app_length, L, (H i) by set_solver; lia|lia].
      * replace (186 - c)%nat with (S (186 - S c)) by lia. cbn [take flat_map]. by rewrite app_assoc.
      * intros j J. apply H. set_solver.
Qed.

Lemma flat_pair {A B} (f : A -> list B) l : (forall x, x ∈ l -> length (f x) = 2%nat) ->
  length (flat_map f l) = (2 * length l)%nat /\
  forall j x, l !! j = Some x -> flat_map f l !! (2 * j)%nat = f x !! 0%nat /\ flat_map f l !! (2 * j + 1)%nat = f x !! 1%nat.
Proof.
  induction l as [|y l IH]; intros H; [done|]. destruct IH as [I1 I2]; [intros; apply H; set_solver|].
  pose proof (H y ltac:(set_solver)) as Y. cbn [flat_map]. split; [rewrite app_length; cbn [length]; lia|].
  intros [|j] x; cbn [lookup list_lookup].
  - intros [= ->]. rewrite !lookup_app_l by lia. done.
  - intros J. destruct (I2 j x J) as [A1 A2]. rewrite !lookup_app_r by lia. rewrite <- A1, <- A2, Y.
    split; f_equal; lia.
Qed.

Lemma ends_two s a i : reachable s -> 0 <= i < get_position_length s a ->
  exists po l u, st_positions s !! (a, i) = Some po /\ st_ticks s !! (po_key po, po_lower po) = Some l /\
    st_ticks s !! (po_key po, po_upper po) = Some u /\ t_index l = po_lower po /\ t_index u = po_upper po /\
    ends s a i = [to_position_tick l; to_position_tick u].
Proof.
  intros R Hi. pose proof (reachable_ereach _ R) as E. pose proof (ereach_pos_ok _ E) as P. pose proof (ereach_liq _ E) as I.
  destruct (proj2 (ct_some _ _ P a i) Hi) as [po Q].
  destruct (bound_tick s (a, i) po (po_lower po) I Q) as [l L]; [auto|]. destruct (bound_tick s (a, i) po (po_upper po) I Q) as [u U]; [auto|].
  exists po, l, u. split; [done|]. split; [done|]. split; [done|].
  pose proof (lq_tick _ I (po_key po) (po_lower po)) as GL. rewrite L in GL. pose proof (lq_tick _ I (po_key po) (po_upper po)) as GU. rewrite U in GU.
  split; [apply GL|]. split; [apply GU|]. unfold ends, get_position, get_tick. by rewrite Q, L, U.
Qed.

(** ** C78 *)
(** The ticks of an owner's positions: two entries per position, lower and upper, in the order of the
    positions, for at most 186 positions from the offset. *)
Theorem C78_position_ticks : forall s a offset, reachable s -> 0 <= offset ->
  let n := get_position_length s a in
  (n < offset -> query_position_ticks s a offset = Err InvalidOffset) /\
  (offset <= n -> exists l, query_position_ticks s a offset = Ok l /\
     Z.of_nat (length l) = 2 * Z.min 186 (n - offset) /\
     forall j, 0 <= j < Z.min 186 (n - offset) ->
       exists po tl tu, st_positions s !! (a, offset + j) = Some po /\
         st_ticks s !! (po_key po, po_lower po) = Some tl /\ st_ticks s !! (po_key po, po_upper po) = Some tu /\
         l !! Z.to_nat (2 * j) = Some (mkPTick (po_lower po) (t_fox tl) (t_foy tl) (t_secs tl)) /\
         l !! Z.to_nat (2 * j + 1) = Some (mkPTick (po_upper po) (t_fox tu) (t_foy tu) (t_secs tu))).
Proof.
  intros s a offset R O n. unfold query_position_ticks. fold n. split; intros H.
  - by destruct (Z.ltb_spec n offset); [|lia].
  - destruct (Z.ltb_spec n offset); [lia|].
    assert (TWO : forall i, i ∈ seqZ offset (n - offset) -> length (ends s a i) = 2%nat).
    { intros i Hi. apply elem_of_seqZ in Hi. destruct (ends_two s a i R ltac:(unfold n in *; lia)) as (po & l & u & _ & _ & _ & _ & _ & E). by rewrite E. }
    rewrite (loop_eq s a _ [] 0%nat TWO eq_refl ltac:(lia)). cbn [app]. change (186 - 0)%nat with 186%nat.
    set (L := take 186 (seqZ offset (n - offset))).
    assert (TL : forall i, i ∈ L -> length (ends s a i) = 2%nat).
    { intros i Hi. apply TWO. unfold L in Hi. rewrite <- (take_drop 186 (seqZ offset (n - offset))). apply elem_of_app. by left. }
    destruct (flat_pair (ends s a) L TL) as [F1 F2]. eexists. split; [reflexivity|].
    assert (LEN : Z.of_nat (length L) = Z.min 186 (n - offset)).
    { unfold L. rewrite take_length, seqZ_length. lia. }
    split; [rewrite F1; lia|]. intros j Hj.
    assert (LJ : L !! Z.to_nat j = Some (offset + j)).
    { unfold L. rewrite lookup_take by lia. apply lookup_seqZ. lia. }
    destruct (F2 _ _ LJ) as [A B]. destruct (ends_two s a (offset + j) R ltac:(unfold n in *; lia)) as (po & l & u & Q & QL & QU & IL & IU & E).
    exists po, l, u. split; [exact Q|]. split; [exact QL|]. split; [exact QU|]. rewrite E in A, B. cbn [lookup list_lookup] in A, B.
    replace (Z.to_nat (2 * j)) with (2 * Z.to_nat j)%nat by lia. replace (Z.to_nat (2 * j + 1)) with (2 * Z.to_nat j + 1)%nat by lia.
    rewrite A, B. unfold to_position_tick. by rewrite IL, IU.
Qed.

(** The liquidity of ticks named by the caller: refused beyond 780 names; otherwise every named tick in
    the order given, and an error as soon as one is not initialized. *)
Theorem C78_liquidity_ticks : forall s k l, reachable s ->
  (780 < Z.of_nat (length l) -> query_liquidity_ticks s k l = Err TickLimitReached) /\
  (Z.of_nat (length l) <= 780 ->
     ((forall i, i ∈ l -> is_Some (st_ticks s !! (k, i))) ->
        exists r, query_liquidity_ticks s k l = Ok r /\
          Forall2 (fun i u => exists t, st_ticks s !! (k, i) = Some t /\
                     lt_index u = i /\ lt_change u = t_change t /\ lt_sign u = t_sign t) l r) /\
     ((exists i, i ∈ l /\ st_ticks s !! (k, i) = None) -> query_liquidity_ticks s k l = Err TickNotFound)).
Proof.
  intros s k l R. unfold query_liquidity_ticks. change LIQUIDITY_TICK_LIMIT with 780.
  pose proof (ereach_liq _ (reachable_ereach _ R)) as I. split; intros H.
  - by destruct (Z.ltb_spec 780 (Z.of_nat (length l))); [|lia].
  - destruct (Z.ltb_spec 780 (Z.of_nat (length l))); [lia|]. clear H H0. split.
    + induction l as [|i l IH]; intros H; cbn [collect].
      * exists []. split; [done|constructor].
      * destruct (H i ltac:(set_solver)) as [t T]. destruct IH as (r & E & FF); [intros; apply H; set_solver|].
        unfold get_tick in *. rewrite T. cbn [bind]. rewrite E. cbn [bind]. eexists. split; [done|]. constructor; [|done].
        exists t. split; [done|]. pose proof (lq_tick _ I k i) as G. rewrite T in G. split; [apply G|done].
    + induction l as [|i l IH]; intros (j & J & N); [by apply elem_of_nil in J|]. cbn [collect]. unfold get_tick in *.
      destruct (st_ticks s !! (k, i)) as [t|] eqn:T; [|done]. cbn [bind]. apply elem_of_cons in J as [->|J]; [congruence|].
      rewrite IH; [done|eauto].
Qed.

Example ex_C78 :
  (let* l := query_position_ticks sc0 "alice"%string 0 in Ok (map pt_index l)) = Ok [-10; 10; -20; 30] /\
  query_position_ticks sc0 "alice"%string 9 = Err InvalidOffset /\
  (let* l := query_liquidity_ticks sc0 v_key [10; -10; 10] in Ok (map (fun u => (lt_index u, lt_sign u)) l)) = Ok [(10, false); (-10, true); (10, false)] /\
  query_liquidity_ticks sc0 v_key [10; 0] = Err TickNotFound /\
  query_liquidity_ticks sc0 v_key (repeat 10 781) = Err TickLimitReached.
Proof. vm_compute. repeat split; reflexivity. Qed.
