(** C106: what is done about protocol fees, and what has been collected, influences no trade. *)
From Verif Require Import Base Decimal SqrtPrice Clamm Log FeeGrowth Types Tick Pool Position
  Tickmap Keys State Swap Exec Query Tactics Frame Handlers History Basic Vectors Scenario PropTrade PropPerm PropLocal PropClock PropOk PropSplit PropOrder PropLeave PropOften.
From stdpp Require Import gmap strings.
From Coq Require Import Lia.
Open Scope Z_scope.

(** equal up to the protocol fee, its receiver, and all that counts fees *)
Definition fpool (p q : pool) : Prop :=
  q = mkPool (p_liq p) (p_price p) (p_tick p) (p_fgx q) (p_fgy q) (p_protx q) (p_proty q) (p_start p) (p_last p) (p_receiver q).
Definition ftick (t u : tick) : Prop :=
  u = mkTick (t_index t) (t_sign t) (t_change t) (t_gross t) (t_price t) (t_fox u) (t_foy u) (t_secs t).
Definition fpos (a b : position) : Prop :=
  b = mkPosition (po_key a) (po_liq a) (po_lower a) (po_upper a) (po_fgx b) (po_fgy b) (po_block a) (po_owedx b) (po_owedy b) (po_approvals a).
Record blind (s t : store) : Prop := {
  bl_config : cf_admin (st_config t) = cf_admin (st_config s) /\ cf_fee_tiers (st_config t) = cf_fee_tiers (st_config s);
  bl_pool k : option_Forall2 fpool (st_pools s !! k) (st_pools t !! k);
  bl_tick k j : option_Forall2 ftick (st_ticks s !! (k, j)) (st_ticks t !! (k, j));
  bl_bitmap : st_bitmap t = st_bitmap s;
  bl_position a ix : option_Forall2 fpos (st_positions s !! (a, ix)) (st_positions t !! (a, ix));
  bl_len : st_poslen t = st_poslen s;
  bl_operators : st_operators t = st_operators s
}.
(** related if both succeed *)
Definition may {A B} (R : A -> B -> Prop) (r : res A) (q : res B) : Prop :=
  match r, q with Ok a, Ok b => R a b | _, _ => True end.
Lemma may_bind {A B A' B'} (R : A -> B -> Prop) (Q : A' -> B' -> Prop) r q f g :
  may R r q -> (forall a b, R a b -> may Q (f a) (g b)) -> may Q (bind r f) (bind q g).
Proof. destruct r as [a| |], q as [b| |]; cbn; intros H F; try done; auto; by destruct (f a). Qed.
Lemma may_same {A} (R : A -> A -> Prop) r : (forall a, R a a) -> may R r r.
Proof. destruct r; cbn; auto. Qed.
Lemma may_eq {A A' B'} (Q : A' -> B' -> Prop) (r q : res A) f g :
  q = r -> (forall a, r = Ok a -> may Q (f a) (g a)) -> may Q (bind r f) (bind q g).
Proof. intros ->. destruct r; cbn; auto. Qed.
Lemma both_may {A B} (R : A -> B -> Prop) r q : both R r q -> may R r q.
Proof. destruct r, q; done. Qed.
(** either side may fail on its own *)
Lemma may_any {A B A' B'} (Q : A' -> B' -> Prop) (r : res A) (q : res B) f g :
  (forall a b, may Q (f a) (g b)) -> may Q (bind r f) (bind q g).
Proof. intros F. destruct r as [a| |], q as [b| |]; cbn; auto; by destruct (f a). Qed.
Section Blind.
Context (n : Z).
Notation sk := blind.
Notation pr := fpool.

Lemma bk_pool s t k p q : sk s t -> pr p q -> sk (save_pool s k p) (save_pool t k q).
Proof.
  intros A E. destruct A. constructor; cbn; try done. intros k'. destruct (decide (k' = k)) as [->|N];
    [rewrite !lookup_insert|rewrite !lookup_insert_ne by congruence; done]. by constructor.
Qed.
Lemma bk_tick s t k j x y : sk s t -> ftick x y ->
  sk (set_ticks s (<[(k, j) := x]> (st_ticks s))) (set_ticks t (<[(k, j) := y]> (st_ticks t))).
Proof.
  intros A E. destruct A. constructor; cbn; try done.
  intros k' j'. destruct (decide ((k', j') = (k, j))) as [->|N];
    [rewrite !lookup_insert; by constructor|rewrite !lookup_insert_ne by congruence; done].
Qed.
Lemma bk_del s t k j : sk s t ->
  sk (set_ticks s (delete (k, j) (st_ticks s))) (set_ticks t (delete (k, j) (st_ticks t))).
Proof.
  intros A. destruct A. constructor; cbn; try done.
  intros k' j'. destruct (decide ((k', j') = (k, j))) as [->|N];
    [rewrite !lookup_delete; by constructor|rewrite !lookup_delete_ne by congruence; done].
Qed.
Lemma bk_bitmap s t b : sk s t -> sk (set_bitmap s b) (set_bitmap t b).
Proof. intros A. destruct A. by constructor. Qed.
Lemma bk_config s t c c' : sk s t -> cf_admin c' = cf_admin c /\ cf_fee_tiers c' = cf_fee_tiers c -> sk (set_config s c) (set_config t c').
Proof. intros A E. destruct A. by constructor. Qed.
Lemma bk_operators s t o : sk s t -> sk (set_operators s o) (set_operators t o).
Proof. intros A. destruct A. by constructor. Qed.
Lemma bk_positions s t m m' l : sk s t ->
  (forall a ix, option_Forall2 fpos (m !! (a, ix)) (m' !! (a, ix))) -> sk (set_positions s m l) (set_positions t m' l).
Proof. intros A E. destruct A. by constructor. Qed.
Lemma bk_put s t a ix po qo l : sk s t -> fpos po qo ->
  sk (set_positions s (<[(a, ix) := po]> (st_positions s)) l) (set_positions t (<[(a, ix) := qo]> (st_positions t)) l).
Proof.
  intros L E. apply bk_positions; [done|]. intros b j.
  destruct (decide ((b, j) = (a, ix))) as [->|N]; [rewrite !lookup_insert; by constructor|].
  rewrite !lookup_insert_ne by congruence. apply L.
Qed.

Lemma bk_get_pool s t k : sk s t -> both pr (get_pool s k) (get_pool t k).
Proof. intros A. unfold get_pool. pose proof (bl_pool _ _ A k) as H. by destruct H. Qed.
Lemma bk_get_tick s t k j : sk s t -> both ftick (get_tick s k j) (get_tick t k j).
Proof. intros A. unfold get_tick. pose proof (bl_tick _ _ A k j) as H. by destruct H. Qed.
Lemma bk_get_position s t a ix : sk s t -> both fpos (get_position s a ix) (get_position t a ix).
Proof. intros A. unfold get_position. pose proof (bl_position _ _ A a ix) as H. by destruct H. Qed.
Lemma bk_update_tick s t k j x y : sk s t -> ftick x y -> both sk (update_tick s k j x) (update_tick t k j y).
Proof.
  intros L E. unfold update_tick. pose proof (bl_tick _ _ L k j) as H.
  destruct (st_ticks s !! (k, j)); [|by rewrite (of2_none _ _ H)]. destruct (of2_some _ _ _ H) as (q & -> & ?). by apply bk_tick.
Qed.
Lemma bk_add_tick s t k j x y : sk s t -> ftick x y -> both sk (add_tick s k j x) (add_tick t k j y).
Proof.
  intros L E. unfold add_tick. pose proof (bl_tick _ _ L k j) as H.
  destruct (st_ticks s !! (k, j)); [by destruct (of2_some _ _ _ H) as (q & -> & ?)|].
  rewrite (of2_none _ _ H). by apply bk_tick.
Qed.
Lemma bk_remove_tick s t k j : sk s t -> both sk (remove_tick s k j) (remove_tick t k j).
Proof.
  intros L. unfold remove_tick. pose proof (bl_tick _ _ L k j) as H.
  destruct (st_ticks s !! (k, j)); [|by rewrite (of2_none _ _ H)]. destruct (of2_some _ _ _ H) as (q & -> & ?). by apply bk_del.
Qed.
Lemma bk_chunk s t k c : sk s t -> bitmap_chunk t k c = bitmap_chunk s k c.
Proof. intros A. unfold bitmap_chunk. by rewrite (bl_bitmap _ _ A). Qed.
Lemma bk_flip s t v j sp k : sk s t -> both sk (flip_bitmap s v j sp k) (flip_bitmap t v j sp k).
Proof.
  intros L. unfold flip_bitmap. apply both_eq; [done|]. intros [c b] _. rewrite (bk_chunk _ _ _ _ L).
  destruct (negb _); cbn; [done|]. rewrite (bl_bitmap _ _ L). by apply bk_bitmap.
Qed.
Lemma bk_next s t k m : sk s t -> forall sp c b lc lb, next_loop m t k sp c b lc lb = next_loop m s k sp c b lc lb.
Proof. intros L. induction m as [|m IH]; intros; cbn; [done|]. by rewrite (bk_chunk _ _ _ _ L), IH. Qed.
Lemma bk_prev s t k m : sk s t -> forall sp c b lc lb, prev_loop m t k sp c b lc lb = prev_loop m s k sp c b lc lb.
Proof. intros L. induction m as [|m IH]; intros; cbn; [done|]. by rewrite (bk_chunk _ _ _ _ L), IH. Qed.
Lemma bk_limit s t k lim d cur sp : sk s t -> get_closer_limit t lim d cur sp k = get_closer_limit s lim d cur sp k.
Proof.
  intros L. unfold get_closer_limit. f_equal. destruct d.
  - unfold prev_initialized. destruct (sp =? 0); [done|]. apply bind_ext. intros [c b]. apply bind_ext.
    intros [lc lb]. by rewrite (bk_prev _ _ _ _ L).
  - unfold next_initialized. destruct (sp =? 0); [done|]. destruct (_ <? _); [done|]. apply bind_ext. intros [c b]. apply bind_ext.
    intros [lc lb]. by rewrite (bk_next _ _ _ _ L).
Qed.

Lemma fp_trans p q r : pr p q -> pr q r -> pr p r.
Proof. unfold fpool. intros -> ->. done. Qed.
Lemma fp_fee p a x f p' : add_fee p a x f = Ok p' -> pr p p'.
Proof.
  unfold add_fee. intros H. repeat (apply bind_ok in H as (? & _ & H)). destruct (_ || _); [apply Ok_inj in H as <-; by destruct p|].
  apply bind_ok in H as (? & _ & H). destruct x; apply bind_ok in H as (? & _ & H); apply Ok_inj in H as <-; done.
Qed.
Lemma fp_add_fee p q a x f f' : pr p q -> may pr (add_fee p a x f) (add_fee q a x f').
Proof.
  intros E. destruct (add_fee p a x f) as [p'| |] eqn:P, (add_fee q a x f') as [q'| |] eqn:Q; cbn; try done.
  apply fp_fee in P, Q. unfold fpool in *. rewrite Q, E, P. done.
Qed.
Lemma fp_set_price p q v : pr p q -> pr (p_set_price p v) (p_set_price q v).
Proof. unfold fpool. intros ->. done. Qed.
Lemma fp_set_tick p q v : pr p q -> pr (p_set_tick p v) (p_set_tick q v).
Proof. unfold fpool. intros ->. done. Qed.
Lemma fp_set_last p q : pr p q -> pr (p_set_last p n) (p_set_last q n).
Proof. unfold fpool. intros ->. done. Qed.
Lemma fp_set_liq p q v : pr p q -> pr (p_set_liq p v) (p_set_liq q v).
Proof. unfold fpool. intros ->. done. Qed.
Definition tp (a b : tick * pool) : Prop := ftick (fst a) (fst b) /\ pr (snd a) (snd b).
Lemma bk_cross x y p q : ftick x y -> pr p q -> may tp (tick_cross x p n) (tick_cross y q n).
Proof.
  intros X H. unfold tick_cross. replace (p_start q) with (p_start p) by (rewrite H; done).
  apply may_eq; [done|]. intros se _. eapply (may_bind eq).
  - rewrite X, H. cbn. apply may_same. done.
  - intros l ? <-. split; [|apply fp_set_liq, fp_set_last, H]. cbn. rewrite X, H. done.
Qed.
Definition tick_rel (a b : update_pool_tick) : Prop :=
  match a, b with
  | NoTick, NoTick => True
  | TickInitialized x, TickInitialized y => ftick x y
  | TickUninitialized i, TickUninitialized j => i = j
  | _, _ => False
  end.
Definition put_rel (a b : pool * update_pool_tick * Z * Z * bool) : Prop :=
  let '(p, tk, tot, rem, cr) := a in let '(q, tk', tot', rem', cr') := b in
  pr p q /\ tick_rel tk tk' /\ tot' = tot /\ rem' = rem /\ cr' = cr.
Lemma bk_put_tick p q r lim tk tk' rem by_in d f f' ft : pr p q -> tick_rel tk tk' ->
  may put_rel (pool_update_tick p r lim tk rem by_in d n f ft) (pool_update_tick q r lim tk' rem by_in d n f' ft).
Proof.
  intros H T. unfold pool_update_tick.
  assert (K : match tk' with NoTick => true | _ => false end = match tk with NoTick => true | _ => false end).
  { by destruct tk, tk'. }
  rewrite K. destruct (_ || _).
  - apply may_eq; [done|]. intros j _. split_and!; [by apply fp_set_tick|done..].
  - pose proof H as E. replace (p_liq q) with (p_liq p) by (rewrite E; done).
    apply may_eq; [done|]. intros en _.
    eapply (may_bind (fun a b : pool * update_pool_tick * Z * Z * bool * Z =>
      put_rel (fst a) (fst b) /\ snd a = snd b)).
    + destruct tk as [|x|j], tk' as [|y|j']; try done.
      assert (I : t_index y = t_index x) by (cbn in T; rewrite T; done). rewrite I.
      destruct (negb d || en).
      * eapply (may_bind tp).
        { pose proof (bk_cross x y p q T H) as C. unfold may in *.
          destruct (tick_cross x p n), (tick_cross y q n); cbn; done. }
        intros [x' p'] [y' q'] (A & B). split; [|done]. split_and!; done.
      * destruct (negb (rem =? 0)); [|done]. destruct by_in; [|done].
        eapply may_bind; [by apply fp_add_fee|]. intros p' q' H'. done.
    + intros [[[[[p1 tk1] tot1] rem1] cr1] ix1] [[[[[q1 tk2] tot2] rem2] cr2] ix2] ((H1 & T1 & -> & -> & ->) & I).
      cbn in I. subst. split_and!; [by apply fp_set_tick|done..].
Qed.
Definition wr (w v : swap_state) : Prop :=
  pr (sw_pool w) (sw_pool v) /\ sw_remaining v = sw_remaining w /\ sw_in v = sw_in w /\ sw_out v = sw_out w /\
  sw_fee v = sw_fee w /\ Forall2 ftick (sw_ticks w) (sw_ticks v).
Lemma bk_iter s t k d b lim tl w v : sk s t -> wr w v ->
  may wr (swap_iter s n k d b lim tl w) (swap_iter t n k d b lim tl v).
Proof.
  intros L (H & E1 & E2 & E3 & E4 & F). unfold swap_iter. rewrite (bk_limit _ _ _ _ _ _ _ L).
  rewrite E1, E2, E3, E4. pose proof H as E.
  replace (p_tick (sw_pool v)) with (p_tick (sw_pool w)) by (rewrite E; done).
  replace (p_price (sw_pool v)) with (p_price (sw_pool w)) by (rewrite E; done).
  replace (p_liq (sw_pool v)) with (p_liq (sw_pool w)) by (rewrite E; done).
  apply may_eq; [done|]. intros [sl li] _. do 3 (apply may_eq; [done|]; intros ? _).
  eapply may_bind; [by apply fp_add_fee|]. intros p q H1. do 3 (apply may_eq; [done|]; intros ? _).
  cbn [p_price p_set_price]. destruct (_ && _); [done|].
  eapply (may_bind tick_rel).
  { destruct li as [[j []]|]; try done. eapply may_bind; [by apply both_may, bk_get_tick|]. done. }
  intros tk tk' T. eapply may_bind; [apply bk_put_tick; [by apply fp_set_price|done]|].
  intros [[[[p1 tk1] tot1] rem1] cr1] [[[[q1 tk2] tot2] rem2] cr2] (H2 & T2 & -> & -> & ->).
  apply may_eq; [done|]. intros tin _.
  replace (p_tick q1) with (p_tick p1) by (rewrite H2; done).
  destruct (if d then _ else _); [done|]. split_and!; try done. cbn.
  destruct tk1, tk2; try done. destruct cr1; [|done]. apply Forall2_app; [done|]. by constructor.
Qed.
Lemma bk_loop s t k d b lim tl g : sk s t -> forall w v, wr w v ->
  may wr (swap_loop g s n k d b lim tl w) (swap_loop g t n k d b lim tl v).
Proof.
  intros L. induction g as [|g IH]; intros w v W; cbn; rewrite (proj1 (proj2 W)); destruct (_ =? _); try done.
  eapply may_bind; [by apply bk_iter|]. exact IH.
Qed.
Definition cr (a b : calc_result) : Prop :=
  cr_in b = cr_in a /\ cr_out b = cr_out a /\ cr_start b = cr_start a /\ cr_target b = cr_target a /\ cr_fee b = cr_fee a /\
  pr (cr_pool a) (cr_pool b) /\ Forall2 ftick (cr_ticks a) (cr_ticks b).
Lemma bk_calc s t g k d a b lim : sk s t ->
  may cr (calculate_swap g s n k d a b lim) (calculate_swap g t n k d a b lim).
Proof.
  intros L. unfold calculate_swap. destruct (a =? 0); [done|]. eapply may_bind; [by apply both_may, bk_get_pool|].
  intros p q H. replace (p_price q) with (p_price p) by (rewrite H; done).
  destruct (if d then _ else _); [done|]. eapply may_bind; [apply bk_loop; [exact L|]; split_and!; [exact H|done..|constructor]|].
  intros w v (H1 & E1 & E2 & E3 & E4 & F). rewrite E3. destruct (_ =? 0); [done|].
  split_and!; try done. cbn. rewrite H1. done.
Qed.
Lemma bk_update_ticks k l l' : Forall2 ftick l l' -> forall s t, sk s t -> may sk (update_ticks s k l) (update_ticks t k l').
Proof.
  induction 1 as [|x y l l' X F IH]; intros s t L; cbn; [done|].
  replace (t_index y) with (t_index x) by (rewrite X; done).
  eapply may_bind; [by apply both_may, bk_update_tick|]. auto.
Qed.
Definition sk3 {A B} (R : B -> B -> Prop) (p q : store * A * B) : Prop :=
  sk (fst (fst p)) (fst (fst q)) /\ snd (fst p) = snd (fst q) /\ R (snd p) (snd q).
Definition sk2 {A} (R : A -> A -> Prop) (p q : store * A) : Prop := sk (fst p) (fst q) /\ R (snd p) (snd q).

Context (e : env) (En : e_millis e = n).
Lemma bk_swap_internal i s t k d a b lim : sk s t ->
  may (sk3 cr) (swap_internal e i s k d a b lim) (swap_internal e i t k d a b lim).
Proof.
  intros L. unfold swap_internal. rewrite En.
  eapply may_bind; [by apply bk_calc|]. intros r q C. pose proof C as (E1 & E2 & _ & _ & _ & H & F).
  eapply may_bind; [by apply bk_update_ticks|]. intros s1 t1 L1. rewrite E1, E2.
  destruct d; (eapply (may_bind eq); [by apply may_same|]); intros m ? <-;
    (split_and!; [by apply bk_pool|done|done]).
Qed.
Lemma bk_route i hops : forall s t a, sk s t ->
  may (sk3 eq) (swap_route_internal e i s a hops) (swap_route_internal e i t a hops).
Proof.
  induction hops as [|h hops IH]; intros s t a L; cbn [swap_route_internal]; [done|].
  eapply may_bind; [by apply bk_swap_internal|].
  intros [[s1 m1] r1] [[t1 n1] q1] (L1 & E1 & E2). cbn in E1, E2. subst. rewrite (proj1 (proj2 E2)).
  eapply may_bind; [apply IH; exact L1|].
  intros [[s2 m2] r2] [[t2 n2] q2] (L2 & F1 & F2). cbn in F1, F2. subst. done.
Qed.
Lemma bk_create_tick s t k j : sk s t -> both (sk2 ftick) (create_tick s n k j) (create_tick t n k j).
Proof.
  intros L. unfold create_tick. apply both_eq; [done|]. intros _ _. eapply both_bind; [by apply bk_get_pool|].
  intros p q H. eapply (both_bind ftick).
  { unfold tick_create. replace (p_tick q) with (p_tick p) by (rewrite H; done). replace (p_start q) with (p_start p) by (rewrite H; done).
    apply both_eq; [done|]. intros price _. destruct (j <=? p_tick p); [|done]. apply both_eq; [done|]. intros se _. done. }
  intros x y X. eapply both_bind; [by apply bk_add_tick|]. intros s1 t1 L1.
  eapply both_bind; [by apply bk_flip|]. intros s2 t2 L2. done.
Qed.
Lemma bk_get_or_create s t k j : sk s t -> both (sk2 ftick) (get_or_create_tick s n k j) (get_or_create_tick t n k j).
Proof.
  intros L. unfold get_or_create_tick, get_tick. pose proof (bl_tick _ _ L k j) as H. destruct H; [done|]. by apply bk_create_tick.
Qed.
Lemma bk_add_position s t a po qo : sk s t -> fpos po qo -> both sk (add_position s a po) (add_position t a qo).
Proof.
  intros L H. unfold add_position, get_position_length. rewrite (bl_len _ _ L). apply both_eq; [done|].
  intros m _. by apply bk_put.
Qed.
Lemma bk_update_position s t a ix po qo : sk s t -> fpos po qo -> both sk (update_position s a ix po) (update_position t a ix qo).
Proof.
  intros L H. unfold update_position, get_position_length. rewrite (bl_len _ _ L).
  destruct (_ <=? _); [done|]. by apply bk_put.
Qed.
Lemma bk_remove_position s t a ix : sk s t -> both (sk2 fpos) (remove_position s a ix) (remove_position t a ix).
Proof.
  intros L. unfold remove_position, get_position_length. rewrite (bl_len _ _ L). apply both_eq; [done|].
  intros m _. pose proof (bl_position _ _ L a ix) as H.
  destruct (st_positions s !! (a, ix)) as [po|]; [|by rewrite (of2_none _ _ H)]. destruct (of2_some _ _ _ H) as (qo & -> & E).
  destruct (ix <? m).
  - pose proof (bl_position _ _ L a m) as H'.
    destruct (st_positions s !! (a, m)) as [la|]; [|by rewrite (of2_none _ _ H')]. destruct (of2_some _ _ _ H') as (lb & -> & E').
    cbn. split; [|done]. apply bk_positions; [done|]. intros b j.
    destruct (decide ((b, j) = (a, ix))) as [->|N]; [rewrite !lookup_insert; by constructor|].
    rewrite !lookup_insert_ne by congruence. destruct (decide ((b, j) = (a, m))) as [->|N']; [rewrite !lookup_delete; constructor|].
    rewrite !lookup_delete_ne by congruence. apply L.
  - cbn. split; [|done]. apply bk_positions; [done|]. intros b j.
    destruct (decide ((b, j) = (a, ix))) as [->|N']; [rewrite !lookup_delete; constructor|].
    rewrite !lookup_delete_ne by congruence. apply L.
Qed.
Lemma bk_remove_flip s t k x y : sk s t -> ftick x y ->
  both sk (remove_tick_and_flip_bitmap s k x) (remove_tick_and_flip_bitmap t k y).
Proof.
  intros L X. unfold remove_tick_and_flip_bitmap. rewrite X. cbn. destruct (negb _); [done|].
  eapply both_bind; [by apply bk_flip|]. intros. by apply bk_remove_tick.
Qed.
Lemma tk_update x y dl mx u a : ftick x y -> both ftick (tick_update x dl mx u a) (tick_update y dl mx u a).
Proof.
  intros X. unfold tick_update, calculate_new_liquidity_gross, update_liquidity_change. rewrite X. cbn.
  apply both_eq; [done|]. intros g _. apply both_eq; [done|]. intros [sg c] _. done.
Qed.
Definition mod_rel (a b : position * pool * tick * tick * Z * Z) : Prop :=
  let '(po, p, u, l, x, y) := a in let '(po', p', u', l', x', y') := b in
  fpos po po' /\ pr p p' /\ ftick u u' /\ ftick l l' /\ x' = x /\ y' = y.
Lemma bk_modify po po' p p' u u' l l' dl a sp : fpos po po' -> pr p p' -> ftick u u' -> ftick l l' ->
  may mod_rel (position_modify po p u l dl a n sp) (position_modify po' p' u' l' dl a n sp).
Proof.
  intros PO H U W. unfold position_modify. eapply may_bind; [by apply both_may, tk_update|]. intros l1 l2 W1.
  eapply may_bind; [by apply both_may, tk_update|]. intros u1 u2 U1.
  eapply (may_bind fpos).
  { unfold position_update, calculate_new_liquidity. replace (po_liq po') with (po_liq po) by (rewrite PO; done). destruct (_ && _); [done|].
    do 2 (apply may_any; intros ? ?). apply may_eq; [done|]. intros q _. do 2 (apply may_any; intros ? ?). cbn. unfold fpos. rewrite PO. done. }
  intros po1 po2 PO1. eapply (may_bind (fun a b : pool * Z * Z => pr (fst (fst a)) (fst (fst b)) /\ snd (fst a) = snd (fst b) /\ snd a = snd b)).
  { unfold update_liquidity. rewrite W1, U1. cbn [t_index p_tick p_price p_set_last].
    replace (p_tick p') with (p_tick p) by (rewrite H; done).
    replace (p_price p') with (p_price p) by (rewrite H; done).
    apply may_eq; [done|]. intros [[x y] []] _.
    - eapply (may_bind eq); [cbn; replace (p_liq p') with (p_liq p) by (rewrite H; done); by apply may_same|].
      intros q ? <-. split_and!; [apply fp_set_liq, fp_set_last, H|done|done].
    - split_and!; [apply fp_set_last, H|done|done]. }
  intros [[p1 x1] y1] [[p2 x2] y2] (A & B & D). cbn in B, D. subst. done.
Qed.
(** a new position has collected nothing *)
Lemma bk_modify_new po po' p p' u u' l l' dl a sp : po_liq po = 0 -> po_owedx po = 0 -> po_owedy po = 0 -> po_owedx po' = 0 -> po_owedy po' = 0 -> fpos po po' -> pr p p' -> ftick u u' -> ftick l l' ->
  both mod_rel (position_modify po p u l dl a n sp) (position_modify po' p' u' l' dl a n sp).
Proof.
  intros Z0 Z1 Z2 Z3 Z4 PO H U W. unfold position_modify. eapply both_bind; [by apply tk_update|]. intros l1 l2 W1.
  eapply both_bind; [by apply tk_update|]. intros u1 u2 U1.
  eapply (both_bind fpos).
  { unfold position_update, calculate_new_liquidity. replace (po_liq po') with (po_liq po) by (rewrite PO; done). destruct (_ && _); [done|].
    rewrite Z0, Z1, Z2, Z3, Z4. unfold to_fee. rewrite !Z.mul_0_r. cbn [bind].
    change (ck EMul U256MAX 0) with (@Ok Z 0). cbn [bind]. change (ck ECast U128MAX (0 / (FG_ONE * LIQ_ONE))) with (@Ok Z 0). cbn [bind].
    apply both_eq; [done|]. intros q _. change (add_p 0 0) with (@Ok Z 0). cbn. unfold fpos. rewrite PO. done. }
  intros po1 po2 PO1. eapply (both_bind (fun a b : pool * Z * Z => pr (fst (fst a)) (fst (fst b)) /\ snd (fst a) = snd (fst b) /\ snd a = snd b)).
  { unfold update_liquidity. rewrite W1, U1. cbn [t_index p_tick p_price p_set_last].
    replace (p_tick p') with (p_tick p) by (rewrite H; done).
    replace (p_price p') with (p_price p) by (rewrite H; done).
    apply both_eq; [done|]. intros [[x y] []] _.
    - eapply (both_bind eq); [cbn; replace (p_liq p') with (p_liq p) by (rewrite H; done); by apply both_same|].
      intros q ? <-. split_and!; [apply fp_set_liq, fp_set_last, H|done|done].
    - split_and!; [apply fp_set_last, H|done|done]. }
  intros [[p1 x1] y1] [[p2 x2] y2] (A & B & D). cbn in B, D. subst. done.
Qed.
Lemma bk_create_position i s t k l u q sl su : sk s t ->
  both (sk3 eq) (create_position e i s k l u q sl su) (create_position e i t k l u q sl su).
Proof.
  intros L. unfold create_position. destruct (q =? 0); [done|]. destruct (l =? u); [done|]. rewrite En.
  eapply (both_bind pr).
  { pose proof (bk_get_pool s t k L) as H. unfold both in H. by destruct (get_pool s k), (get_pool t k). }
  intros p p' H. eapply both_bind; [by apply bk_get_or_create|]. intros [s1 x1] [t1 y1] (L1 & X1).
  eapply both_bind; [by apply bk_get_or_create|]. intros [s2 x2] [t2 y2] (L2 & X2). cbn in X1, X2.
  eapply (both_bind (fun a b => let '(po, p, l, u, x, y) := a in let '(po', p', l', u', x', y') := b in
    mod_rel (po, p, u, l, x, y) (po', p', u', l', x', y'))).
  { unfold position_create. replace (p_price p') with (p_price p) by (rewrite H; done). destruct (_ || _); [done|].
    eapply both_bind; [apply bk_modify_new; [done..| |exact H|exact X2|exact X1]; rewrite X1, X2; done|].
    intros [[[[[a1 a2] a3] a4] a5] a6] [[[[[b1 b2] b3] b4] b5] b6] M. exact M. }
  intros [[[[[po p1] l1] u1] x] y] [[[[[po' p2] l2] u2] x'] y'] (PO & H1 & U & W & -> & ->).
  eapply both_bind; [apply bk_add_position; [by apply bk_pool|exact PO]|]. intros s3 t3 L3.
  replace (t_index l2) with (t_index l1) by (rewrite W; done). replace (t_index u2) with (t_index u1) by (rewrite U; done).
  eapply both_bind; [by apply bk_update_tick|]. intros s4 t4 L4.
  eapply both_bind; [by apply bk_update_tick|]. intros s5 t5 L5.
  replace (p_price p2) with (p_price p1) by (rewrite H1; done).
  apply both_eq; [done|]. intros m0 _. apply both_eq; [done|]. intros m1 _. done.
Qed.
(** a claim pays what was collected, which may differ *)
Definition only_store {A B} (p q : store * A * B) : Prop := sk (fst (fst p)) (fst (fst q)).
Lemma bk_claim i s t ix : sk s t -> may only_store (claim_fee e i s ix) (claim_fee e i t ix).
Proof.
  intros L. unfold claim_fee. rewrite En. eapply may_bind; [by apply both_may, bk_get_position|]. intros po po' PO.
  replace (po_key po') with (po_key po) by (rewrite PO; done). replace (po_lower po') with (po_lower po) by (rewrite PO; done).
  replace (po_upper po') with (po_upper po) by (rewrite PO; done).
  eapply may_bind; [by apply both_may, bk_get_tick|]. intros lt lt' W. eapply may_bind; [by apply both_may, bk_get_tick|]. intros ut ut' U.
  eapply may_bind; [by apply both_may, bk_get_pool|]. intros p p' H.
  eapply (may_bind (fun a b : position * pool * tick * tick * Z * Z => let '(po, p, u, l, x, y) := a in let '(po', p', u', l', x', y') := b in
    fpos po po' /\ pr p p' /\ ftick u u' /\ ftick l l')).
  { unfold position_claim_fee. replace (po_key po') with (po_key po) by (rewrite PO; done).
    eapply may_bind; [by apply bk_modify|].
    intros [[[[[a1 a2] a3] a4] a5] a6] [[[[[b1 b2] b3] b4] b5] b6] (M1 & M2 & M3 & M4 & -> & ->).
    split_and!; try done; cbn; rewrite M1; done. }
  intros [[[[[q p1] u1] l1] x] y] [[[[[q' p2] u2] l2] x'] y'] (PO1 & H1 & U1 & W1).
  eapply may_bind; [by apply both_may, bk_update_position|]. intros s1 t1 L1.
  replace (t_index l2) with (t_index l1) by (rewrite W1; done). replace (t_index u2) with (t_index u1) by (rewrite U1; done).
  eapply may_bind; [apply both_may, bk_update_tick; [by apply bk_pool|done]|]. intros s2 t2 L2.
  eapply may_bind; [by apply both_may, bk_update_tick|]. intros s3 t3 L3. done.
Qed.
Definition but_messages {A B} (p q : store * A * B) : Prop := sk (fst (fst p)) (fst (fst q)) /\ snd p = snd q.
Lemma bk_remove i s t ix : sk s t -> may but_messages (remove_position_exec e i s ix) (remove_position_exec e i t ix).
Proof.
  intros L. unfold remove_position_exec. rewrite En. eapply may_bind; [by apply both_may, bk_get_position|]. intros po po' PO.
  replace (po_key po') with (po_key po) by (rewrite PO; done). replace (po_lower po') with (po_lower po) by (rewrite PO; done).
  replace (po_upper po') with (po_upper po) by (rewrite PO; done). replace (po_liq po') with (po_liq po) by (rewrite PO; done).
  eapply may_bind; [by apply both_may, bk_get_tick|]. intros lt lt' W. eapply may_bind; [by apply both_may, bk_get_tick|]. intros ut ut' U.
  eapply may_bind; [by apply both_may, bk_get_pool|]. intros p p' H.
  eapply (may_bind (fun a b => let '(po, p, l, u, x, y, dl, du) := a in let '(po', p', l', u', x', y', dl', du') := b in
    (fpos po po' /\ pr p p' /\ ftick u u' /\ ftick l l') /\ dl' = dl /\ du' = du)).
  { unfold position_remove. replace (po_liq po') with (po_liq po) by (rewrite PO; done).
    eapply may_bind; [by apply bk_modify|].
    intros [[[[[a1 a2] a3] a4] a5] a6] [[[[[b1 b2] b3] b4] b5] b6] (M1 & M2 & M3 & M4 & -> & ->).
    do 2 (apply may_any; intros ? ?). split_and!; try done; cbn; [rewrite M4|rewrite M3]; done. }
  intros [[[[[[[q p1] l1] u1] x] y] dl] du] [[[[[[[q' p2] l2] u2] x'] y'] dl'] du'] ((PO1 & H1 & U1 & W1) & -> & ->).
  eapply (may_bind sk); [destruct dl; [apply both_may, bk_remove_flip|apply both_may, bk_update_tick]; try apply bk_pool; done|]. intros s1 t1 L1.
  eapply (may_bind sk); [destruct du; [apply both_may, bk_remove_flip|apply both_may, bk_update_tick]; done|]. intros s2 t2 L2.
  eapply may_bind; [by apply both_may, bk_remove_position|]. intros [s3 r3] [t3 q3] (L3 & E3). cbn in E3.
  replace (po_key q3) with (po_key r3) by (rewrite E3; done).
  replace (t_index l2) with (t_index l1) by (rewrite W1; done). replace (t_index u2) with (t_index u1) by (rewrite U1; done).
  replace (p_price p2) with (p_price p1) by (rewrite H1; done). done.
Qed.
Lemma bk_by_key s t tid : sk s t -> both fpos (get_position_by_key s tid) (get_position_by_key t tid).
Proof. intros L. unfold get_position_by_key. destruct (split_token tid) as [[a ix]|]; [|done]. by apply bk_get_position. Qed.

Lemma bk_can_approve i s t a : sk s t -> check_can_approve e i t a = check_can_approve e i s a.
Proof. intros L. unfold check_can_approve. by rewrite (bl_operators _ _ L). Qed.
Lemma bk_can_send i s t a po po' : sk s t -> fpos po po' -> check_can_send e i t a po' = check_can_send e i s a po.
Proof.
  intros L PO. unfold check_can_send. rewrite (bl_operators _ _ L). by replace (po_approvals po') with (po_approvals po) by (rewrite PO; done).
Qed.
Lemma bk_transfer_nft i s t r tid : sk s t -> both sk (transfer_nft e i s r tid) (transfer_nft e i t r tid).
Proof.
  intros L. unfold transfer_nft. destruct (split_token tid) as [[a ix]|] eqn:E; [|done]. destruct (negb _); [done|].
  eapply both_bind; [by apply bk_by_key|]. intros po po' PO. rewrite (bk_can_send i s t a po po' L PO). apply both_eq; [done|]. intros _ _.
  eapply both_bind; [by apply bk_remove_position|]. intros [s1 p1] [t1 q1] (L1 & _). apply bk_add_position; [done|]. rewrite PO. done.
Qed.
Lemma bk_approvals i s t sp tid add x : sk s t -> both sk (update_approvals e i s sp tid add x) (update_approvals e i t sp tid add x).
Proof.
  intros L. unfold update_approvals. destruct (split_token tid) as [[a ix]|] eqn:E; [|done].
  eapply both_bind; [by apply bk_by_key|]. intros po po' PO. rewrite (bk_can_approve i s t a L).
  apply both_eq; [done|]. intros _ _. replace (po_approvals po') with (po_approvals po) by (rewrite PO; done).
  apply both_eq; [done|]. intros l _. rewrite (bl_len _ _ L). apply bk_put; [done|]. rewrite PO. done.
Qed.
(** what a call answers, apart from fees *)
Definition alike_but_fees (m : exec_msg) (ms ms' : list out_msg) (at' at'' : list (string * Z)) : Prop :=
  match m with
  | ClaimFee _ | WithdrawProtocolFee _ => True
  | RemovePosition _ | Burn _ => at'' = at'
  | _ => ms' = ms /\ at'' = at'
  end.
Definition answers (m : exec_msg) (a b : store * list out_msg * list (string * Z)) : Prop :=
  let '(s, ms, at') := a in let '(t, ms', at'') := b in sk s t /\ alike_but_fees m ms ms' at' at''.
Lemma bk_dispatch i s t m : sk s t -> may (answers m) (dispatch e i s m) (dispatch e i t m).
Proof.
  intros L. destruct (bl_config _ _ L) as [C1 C2]. 
  assert (SE : forall r q, may (sk3 eq) r q -> (forall s1 m1 a1 s2 m2 a2, sk s1 s2 -> m2 = m1 -> a2 = a1 -> answers m (s1, m1, a1) (s2, m2, a2)) -> may (answers m) r q).
  { intros r q M K. unfold may in *. destruct r as [[[s1 m1] a1]| |], q as [[[s2 m2] a2]| |]; try done. destruct M as (M1 & M2 & M3). cbn in *. by apply K. }
  destruct m; cbn [dispatch] in *.
  - unfold change_admin. rewrite C1. destruct (negb _); [done|]. split; [by apply bk_config|done].
  - unfold withdraw_protocol_fee. eapply may_bind; [by apply both_may, bk_get_pool|]. intros p p' H.
    destruct (negb _), (negb _); try done. split; [apply bk_pool; [done|]|done]. rewrite H. done.
  - unfold change_protocol_fee. rewrite C1. destruct (negb _); [done|]. split; [by apply bk_config|done].
  - unfold change_fee_receiver. rewrite C1. destruct (negb _); [done|]. eapply may_bind; [by apply both_may, bk_get_pool|]. intros p p' H.
    split; [apply bk_pool; [done|]|done]. rewrite H. done.
  - apply SE; [by apply both_may, bk_create_position|done].
  - unfold swap. eapply may_bind; [by apply bk_swap_internal|].
    intros [[s1 m1] r1] [[t1 n1] q1] (L1 & E1 & E2). cbn in E1, E2. subst. destruct E2 as (E2 & E3 & _). rewrite E2, E3. done.
  - unfold swap_route. eapply may_bind; [by apply bk_route|].
    intros [[s1 m1] r1] [[t1 n1] q1] (L1 & E1 & E2). cbn in E1, E2. subst.
    apply may_eq; [done|]. intros mn _. destruct (_ <? _); done.
  - unfold transfer_position. eapply may_bind; [by apply both_may, bk_get_position|]. intros po po' PO.
    eapply may_bind; [by apply both_may, bk_remove_position|]. intros [s1 p1] [t1 q1] (L1 & _). destruct (negb _); [done|].
    eapply may_bind; [apply both_may, bk_add_position; [exact L1|]; rewrite PO; done|]. intros s2 t2 L2. done.
  - pose proof (bk_claim i s t index L) as C. unfold may in *. destruct (claim_fee e i s index) as [[[s1 m1] a1]| |], (claim_fee e i t index) as [[[s2 m2] a2]| |]; try done.
  - pose proof (bk_remove i s t index L) as C. unfold may in *. destruct (remove_position_exec e i s index) as [[[s1 m1] a1]| |], (remove_position_exec e i t index) as [[[s2 m2] a2]| |]; try done.
    destruct C as [C C']. cbn in *. done.
  - unfold create_pool. rewrite C2. destruct (negb _); [done|]. apply may_eq; [done|]. intros _ _.
    apply may_eq; [done|]. intros k EK. apply may_eq; [done|]. intros _ _.
    pose proof (bl_pool _ _ L k) as H. destruct H; [done|]. rewrite C1. eapply (may_bind pr).
    { apply may_same. by intros []. }
    intros p p' PP. split; [by apply bk_pool|done].
  - unfold add_fee_tier. rewrite C1, C2. destruct (negb _); [done|]. destruct (_ || _); [done|]. destruct (_ <=? _); [done|].
    split; [by apply bk_config|done].
  - unfold remove_fee_tier. rewrite C1, C2. destruct (negb _); [done|]. destruct (remove_first _ _); [|done]. split; [by apply bk_config|done].
  - unfold handle_transfer_nft. eapply may_bind; [by apply both_may, bk_transfer_nft|]. intros s1 t1 L1. done.
  - apply SE; [by apply both_may, bk_create_position|done].
  - unfold handle_burn. eapply may_bind; [by apply both_may, bk_by_key|]. intros po po' PO. destruct (split_token token_id) as [[a ix]|] eqn:E; [|done].
    rewrite (bk_can_send i s t a po po' L PO). apply may_eq; [done|]. intros _ _.
    pose proof (bk_remove i s t ix L) as C. unfold may in *. destruct (remove_position_exec e i s ix) as [[[s1 m1] a1]| |], (remove_position_exec e i t ix) as [[[s2 m2] a2]| |]; try done.
    destruct C as [C C']. cbn in *. done.
  - unfold handle_send_nft. eapply may_bind; [by apply both_may, bk_transfer_nft|]. intros s1 t1 L1. done.
  - unfold handle_approve. eapply may_bind; [by apply both_may, bk_approvals|]. intros s1 t1 L1. done.
  - unfold handle_revoke. eapply may_bind; [by apply both_may, bk_approvals|]. intros s1 t1 L1. done.
  - unfold handle_approve_all. cbv zeta. destruct (is_expired e _); [done|]. rewrite (bl_operators _ _ L). split; [by apply bk_operators|done].
  - unfold handle_revoke_all. rewrite (bl_operators _ _ L). split; [by apply bk_operators|done].
Qed.
(** calls that neither trade nor pay out fees *)
Definition plain (m : exec_msg) : bool :=
  match m with
  | Swap _ _ _ _ _ | SwapRoute _ _ _ _ | ClaimFee _ | RemovePosition _ | Burn _ | WithdrawProtocolFee _ => false
  | _ => true
  end.
Lemma bk_plain i s t m : plain m = true -> sk s t -> both (answers m) (dispatch e i s m) (dispatch e i t m).
Proof.
  intros PL L. destruct (bl_config _ _ L) as [C1 C2].
  assert (SE : forall r q, both (sk3 eq) r q -> (forall s1 m1 a1 s2 m2 a2, sk s1 s2 -> m2 = m1 -> a2 = a1 -> answers m (s1, m1, a1) (s2, m2, a2)) -> both (answers m) r q).
  { intros r q M K. unfold both in *. destruct r as [[[s1 m1] a1]| |], q as [[[s2 m2] a2]| |]; try done. destruct M as (M1 & M2 & M3). cbn in *. by apply K. }
  destruct m; cbn [dispatch plain] in *; try done.
  - unfold change_admin. rewrite C1. destruct (negb _); [done|]. split; [by apply bk_config|done].
  - unfold change_protocol_fee. rewrite C1. destruct (negb _); [done|]. split; [by apply bk_config|done].
  - unfold change_fee_receiver. rewrite C1. destruct (negb _); [done|]. eapply both_bind; [by apply bk_get_pool|]. intros p p' H.
    split; [apply bk_pool; [done|]|done]. rewrite H. done.
  - apply SE; [by apply bk_create_position|done].
  - unfold transfer_position. eapply both_bind; [by apply bk_get_position|]. intros po po' PO.
    eapply both_bind; [by apply bk_remove_position|]. intros [s1 p1] [t1 q1] (L1 & _). destruct (negb _); [done|].
    eapply both_bind; [apply bk_add_position; [exact L1|]; rewrite PO; done|]. intros s2 t2 L2. done.
  - unfold create_pool. rewrite C2. destruct (negb _); [done|]. apply both_eq; [done|]. intros _ _.
    apply both_eq; [done|]. intros k EK. apply both_eq; [done|]. intros _ _.
    pose proof (bl_pool _ _ L k) as H. destruct H; [done|]. rewrite C1. eapply (both_bind pr).
    { apply both_same. by intros []. }
    intros p p' PP. split; [by apply bk_pool|done].
  - unfold add_fee_tier. rewrite C1, C2. destruct (negb _); [done|]. destruct (_ || _); [done|]. destruct (_ <=? _); [done|].
    split; [by apply bk_config|done].
  - unfold remove_fee_tier. rewrite C1, C2. destruct (negb _); [done|]. destruct (remove_first _ _); [|done]. split; [by apply bk_config|done].
  - unfold handle_transfer_nft. eapply both_bind; [by apply bk_transfer_nft|]. intros s1 t1 L1. done.
  - apply SE; [by apply bk_create_position|done].
  - unfold handle_send_nft. eapply both_bind; [by apply bk_transfer_nft|]. intros s1 t1 L1. done.
  - unfold handle_approve. eapply both_bind; [by apply bk_approvals|]. intros s1 t1 L1. done.
  - unfold handle_revoke. eapply both_bind; [by apply bk_approvals|]. intros s1 t1 L1. done.
  - unfold handle_approve_all. cbv zeta. destruct (is_expired e _); [done|]. rewrite (bl_operators _ _ L). split; [by apply bk_operators|done].
  - unfold handle_revoke_all. rewrite (bl_operators _ _ L). split; [by apply bk_operators|done].
Qed.
Definition same_quote (r q : quote_result) : Prop :=
  q_in q = q_in r /\ q_out q = q_out r /\ q_target q = q_target r /\ Forall2 ftick (q_ticks r) (q_ticks q).
Lemma bk_quote s t k d a b lim : sk s t -> may same_quote (query_quote e s k d a b lim) (query_quote e t k d a b lim).
Proof.
  intros L. unfold query_quote. eapply may_bind; [rewrite En; by apply bk_calc|]. intros r q (E1 & E2 & E3 & E4 & E5 & H & F).
  split_and!; cbn; try done. rewrite H. done.
Qed.
End Blind.

(** what the admin and the fee receivers can do about protocol fees *)
Definition fee_call (m : exec_msg) : bool :=
  match m with ChangeProtocolFee _ | ChangeFeeReceiver _ _ | WithdrawProtocolFee _ => true | _ => false end.
Lemma fee_call_pools e i s m s' ms at' : fee_call m = true -> execute e i s m = Ok (s', ms, at') ->
  (st_pools s' = st_pools s /\ exists f, s' = set_config s (mkConfig (cf_admin (st_config s)) (cf_fee_tiers (st_config s)) f)) \/
  exists k p q, st_pools s !! k = Some p /\ fpool p q /\ fpool q p /\ s' = save_pool s k q.
Proof.
  intros F H. unfold execute in H. destruct (_ && _); [|done]. destruct m; try done; cbn [dispatch] in H.
  - right. unfold withdraw_protocol_fee in H. apply bind_ok in H as (p & G & H). destruct (negb _); [done|]. apply Ok_inj in H. injection H as <- <- <-.
    exists k, p, (p_set_prot p 0 0). split; [unfold get_pool in G; destruct (st_pools s !! k); [by apply Ok_inj in G as ->|done]|]. split; [by destruct p|]. split; [by destruct p|done].
  - left. unfold change_protocol_fee in H. destruct (negb _); [done|]. apply Ok_inj in H. injection H as <- <- <-. eauto.
  - right. unfold change_fee_receiver in H. destruct (negb _); [done|]. apply bind_ok in H as (p & G & H). apply Ok_inj in H. injection H as <- <- <-.
    exists k, p, (p_set_receiver p receiver). split; [unfold get_pool in G; destruct (st_pools s !! k); [by apply Ok_inj in G as ->|done]|]. split; [by destruct p|]. split; [by destruct p|done].
Qed.
Lemma blind_left e i s t m s' ms at' : fee_call m = true -> execute e i s m = Ok (s', ms, at') -> blind s t -> blind s' t.
Proof.
  intros F H B. destruct (fee_call_pools _ _ _ _ _ _ _ F H) as [[_ [f ->]]|(k & p & q & P & PQ & QP & ->)]; destruct B; constructor; cbn; try done.
  intros k'. specialize (bl_pool0 k'). destruct (decide (k' = k)) as [->|N]; [|by rewrite lookup_insert_ne by congruence].
  rewrite lookup_insert. rewrite P in bl_pool0. inversion bl_pool0 as [? r E|]; subst. constructor. by apply (fp_trans q p r).
Qed.
Lemma blind_right e i s t m t' ms at' : fee_call m = true -> execute e i t m = Ok (t', ms, at') -> blind s t -> blind s t'.
Proof.
  intros F H B. destruct (fee_call_pools _ _ _ _ _ _ _ F H) as [[_ [f ->]]|(k & p & q & P & PQ & QP & ->)]; destruct B; constructor; cbn; try done.
  intros k'. specialize (bl_pool0 k'). destruct (decide (k' = k)) as [->|N]; [|by rewrite lookup_insert_ne by congruence].
  rewrite lookup_insert. rewrite P in bl_pool0. inversion bl_pool0 as [r ? E|]; subst. constructor. by apply (fp_trans r p q).
Qed.
Lemma blind_refl s : blind s s.
Proof.
  constructor; try done; intros; match goal with |- option_Forall2 _ ?x _ => destruct x as [z|] end; constructor; by destruct z.
Qed.

(** what is answered to the calls other than those *)
Definition reply := res (list out_msg * list (string * Z)).
Definition rest (zs : list call) : list call := List.filter (fun c => negb (fee_call (snd c))) zs.
Definition heard (zs : list call) (s : store) : list (call * reply) :=
  List.filter (fun x => negb (fee_call (snd (fst x)))) (List.combine zs (fst (play zs s))).
(** the trades, claims and withdrawals that succeeded *)
Definition succeeded (l : list (call * reply)) : list bool := map (fun x => is_ok (snd x)) (List.filter (fun x => negb (plain (snd (fst x)))) l).
Definition agrees (x y : call * reply) : Prop :=
  fst y = fst x /\
  match snd x, snd y with
  | Ok (ms, at'), Ok (ms', at'') => alike_but_fees (snd (fst x)) ms ms' at' at''
  | Ok _, _ | _, Ok _ => False
  | a, b => plain (snd (fst x)) = true -> b = a
  end.
Definition next (c : call) (s : store) : store := let '(e, i, m) := c in match execute e i s m with Ok (s', _, _) => s' | _ => s end.
Definition said (c : call) (s : store) : reply :=
  let '(e, i, m) := c in match execute e i s m with Ok (_, ms, at') => Ok (ms, at') | Err x => Err x | Panic => Panic end.
Lemma play_cons c zs s : play (c :: zs) s = (said c s :: fst (play zs (next c s)), snd (play zs (next c s))).
Proof.
  destruct c as [[e i] m]. cbn. destruct (execute e i s m) as [[[s' ms] at']| |]; by destruct (play zs _).
Qed.
Lemma heard_cons c zs s : heard (c :: zs) s = (if fee_call (snd c) then [] else [(c, said c s)]) ++ heard zs (next c s).
Proof. unfold heard. rewrite play_cons. cbn. by destruct (fee_call (snd c)). Qed.
Lemma next_left c s t : fee_call (snd c) = true -> blind s t -> blind (next c s) t.
Proof.
  destruct c as [[e i] m]. cbn. intros F B. destruct (execute e i s m) as [[[s' ms] at']| |] eqn:E; [|done..]. by eapply blind_left.
Qed.
Lemma next_right c s t : fee_call (snd c) = true -> blind s t -> blind s (next c t).
Proof.
  destruct c as [[e i] m]. cbn. intros F B. destruct (execute e i t m) as [[[s' ms] at']| |] eqn:E; [|done..]. by eapply blind_right.
Qed.
Lemma next_both c s t : fee_call (snd c) = false -> blind s t -> (plain (snd c) = false -> is_ok (said c s) = is_ok (said c t)) ->
  agrees (c, said c s) (c, said c t) /\ blind (next c s) (next c t).
Proof.
  destruct c as [[e i] m]. cbn [snd fst said next]. intros F B O.
  pose proof (bk_dispatch (e_millis e) e eq_refl i s t m B) as D. pose proof (fun P => bk_plain (e_millis e) e eq_refl i s t m P B) as D'.
  unfold execute, agrees in *. cbn [fst snd]. destruct (_ && _); [|done]. unfold may, both in *. destruct (plain m).
  - specialize (D' eq_refl). destruct (dispatch e i s m) as [[[s1 m1] a1]|x|], (dispatch e i t m) as [[[t1 n1] b1]|y|]; cbn in *; try done; [by destruct D as [D1 D2]|by subst].
  - specialize (O eq_refl). destruct (dispatch e i s m) as [[[s1 m1] a1]|x|], (dispatch e i t m) as [[[t1 n1] b1]|y|]; cbn in *; try done. by destruct D as [D1 D2].
Qed.
Lemma heard_agree zs : forall ws s t, blind s t -> rest zs = rest ws ->
  succeeded (heard zs s) = succeeded (heard ws t) ->
  Forall2 agrees (heard zs s) (heard ws t) /\ blind (snd (play zs s)) (snd (play ws t)).
Proof.
  induction zs as [|c zs IH].
  - induction ws as [|w ws IH]; intros s t B R O; [split; [constructor|done]|]. unfold rest in R. cbn in R. rewrite heard_cons, play_cons in *. cbn [snd].
    destruct (fee_call (snd w)) eqn:F; [|done]. cbn [app] in *. apply IH; [by apply next_right|done|done].
  - intros ws s t B R O. rewrite heard_cons, play_cons in *. cbn [snd]. unfold rest in R. cbn [List.filter] in R. destruct (fee_call (snd c)) eqn:F.
    + cbn [app negb] in *. apply IH; [by apply next_left|done|done].
    + cbn [negb] in R. revert t B R O. induction ws as [|w ws IW]; intros t B R O; [done|]. rewrite heard_cons, play_cons in *. cbn [snd]. cbn [List.filter] in R.
      destruct (fee_call (snd w)) eqn:G.
      * cbn [app negb] in *. apply IW; [by apply next_right|done|done].
      * cbn [negb] in R. injection R as -> R. cbn [app] in O. unfold succeeded in O. cbn [List.filter fst] in O.
        assert (O1 : plain (snd w) = false -> is_ok (said w s) = is_ok (said w t)) by (intros PL; rewrite PL in O; cbn in O; by injection O).
        assert (O2 : succeeded (heard zs (next w s)) = succeeded (heard ws (next w t))) by (destruct (plain (snd w)); cbn in O; [exact O|by injection O]).
        destruct (next_both w s t F B O1) as [A B']. destruct (IH ws _ _ B' R O2) as [I1 I2]. split; [|done]. by constructor.
Qed.
(** Nothing that is done about protocol fees influences a trade. Take two histories from one state that differ only in calls that set the protocol fee, choose its
    receiver or withdraw it (none, some, or other ones), and in which the same other calls succeed. Then those calls are answered alike, except for the fees paid out;
    and quotes agree in the end. Calls other than trades and payments fail alike, so that only trades and payments need to be assumed to succeed in both. *)
Theorem C106_history zs ws s : rest zs = rest ws -> succeeded (heard zs s) = succeeded (heard ws s) ->
  Forall2 agrees (heard zs s) (heard ws s) /\
  forall e k d a b lim r q, query_quote e (snd (play zs s)) k d a b lim = Ok r -> query_quote e (snd (play ws s)) k d a b lim = Ok q -> same_quote r q.
Proof.
  intros R O. destruct (heard_agree zs ws s s (blind_refl s) R O) as [A B]. split; [done|]. intros e k d a b lim r q E1 E2.
  pose proof (bk_quote (e_millis e) e eq_refl _ _ k d a b lim B) as Q. rewrite E1, E2 in Q. exact Q.
Qed.

(** A withdrawal pays the same stake in both, and each its own fees, which are what a claim would pay. *)
Theorem C106_withdraw zs ws s e i ix u ms at' w ns bt : reachable s -> rest zs = rest ws -> succeeded (heard zs s) = succeeded (heard ws s) ->
  execute e i (snd (play zs s)) (RemovePosition ix) = Ok (u, ms, at') -> execute e i (snd (play ws s)) (RemovePosition ix) = Ok (w, ns, bt) ->
  exists X Y sx sy fx fy gx gy,
    ms = asset_transfer e i X (sx + fx) ++ asset_transfer e i Y (sy + fy) /\ ns = asset_transfer e i X (sx + gx) ++ asset_transfer e i Y (sy + gy) /\
    (forall v m a, execute e i (snd (play zs s)) (ClaimFee ix) = Ok (v, m, a) -> m = asset_transfer e i X fx ++ asset_transfer e i Y fy /\ a = [("amount_x"%string, fx); ("amount_y"%string, fy)]) /\
    (forall v m a, execute e i (snd (play ws s)) (ClaimFee ix) = Ok (v, m, a) -> m = asset_transfer e i X gx ++ asset_transfer e i Y gy /\ a = [("amount_x"%string, gx); ("amount_y"%string, gy)]).
Proof.
  intros R Q O HU HW. destruct (heard_agree zs ws s s (blind_refl s) Q O) as [_ B].
  pose proof (play_reach zs s R) as RU. pose proof (play_reach ws s R) as RW. set (U := snd (play zs s)) in *. set (W := snd (play ws s)) in *. clearbody U W.
  assert (H2 : takes true e i U ix = Ok (u, ms, at')) by (unfold execute in HU; destruct (_ && _); [exact HU|done]).
  assert (H3 : takes true e i W ix = Ok (w, ns, bt)) by (unfold execute in HW; destruct (_ && _); [exact HW|done]).
  destruct (took_of _ _ _ _ _ _ _ _ (reachable_ereach _ RU) H2) as (pu & qu & K2). destruct (took_of _ _ _ _ _ _ _ _ (reachable_ereach _ RW) H3) as (pw & qw & K3).
  pose proof (tk_po _ _ _ _ _ _ _ _ _ _ K2) as E2. pose proof (tk_po _ _ _ _ _ _ _ _ _ _ K3) as E3.
  pose proof (bl_position _ _ B (i_sender i) ix) as F. rewrite E2, E3 in F. inversion F as [? ? PO|]; subst. clear F.
  pose proof (tk_p _ _ _ _ _ _ _ _ _ _ K2) as P2. pose proof (tk_p _ _ _ _ _ _ _ _ _ _ K3) as P3.
  assert (KK : po_key pw = po_key pu) by (rewrite PO; done). rewrite KK in P3.
  pose proof (bl_pool _ _ B (po_key pu)) as F. rewrite P2, P3 in F. inversion F as [? ? PP|]; subst. clear F.
  assert (ST : stake qw pw = stake qu pu) by (rewrite PO, PP; done).
  pose proof (tk_ms _ _ _ _ _ _ _ _ _ _ K2) as A2. pose proof (tk_ms _ _ _ _ _ _ _ _ _ _ K3) as A3. unfold pays in A2, A3. rewrite KK, ST in A3.
  do 8 eexists. split; [exact A2|]. split; [exact A3|]. split; intros v m a C.
  - assert (C' : claim_fee e i U ix = Ok (v, m, a)) by (unfold execute in C; destruct (_ && _); [exact C|done]).
    destruct (took_claim _ _ _ _ _ _ _ (reachable_ereach _ RU) C') as (po & p & K).
    assert (po = pu) as -> by (pose proof (tk_po _ _ _ _ _ _ _ _ _ _ K); congruence).
    assert (p = qu) as -> by (pose proof (tk_p _ _ _ _ _ _ _ _ _ _ K); congruence).
    split; [rewrite (tk_ms _ _ _ _ _ _ _ _ _ _ K); done|exact (tk_at _ _ _ _ _ _ _ _ _ _ K)].
  - assert (C' : claim_fee e i W ix = Ok (v, m, a)) by (unfold execute in C; destruct (_ && _); [exact C|done]).
    destruct (took_claim _ _ _ _ _ _ _ (reachable_ereach _ RW) C') as (po & p & K).
    assert (po = pw) as -> by (pose proof (tk_po _ _ _ _ _ _ _ _ _ _ K); congruence).
    assert (p = qw) as -> by (pose proof (tk_p _ _ _ _ _ _ _ _ _ _ K); congruence).
    split; [rewrite (tk_ms _ _ _ _ _ _ _ _ _ _ K); unfold pays; rewrite KK; done|exact (tk_at _ _ _ _ _ _ _ _ _ _ K)].
Qed.

(** * Examples *)
(** carol trades to and fro and bob deposits; meanwhile alice, the admin, raises the protocol fee to a half, makes bob the receiver, and bob takes what has come in. *)
Definition bl_plain : list call :=
  [(v_env, v_info "carol", Swap v_key false 14000 true MAX_SQRT_PRICE); (v_env, v_info "bob", CreatePosition v_key (-30) 20 3000000000 SP_ONE MAX_SQRT_PRICE);
   (v_env, v_info "carol", Swap v_key true 2000 true MIN_SQRT_PRICE); (v_env, v_info "alice", ClaimFee 0)]%string.
Definition bl_fees : list call :=
  match bl_plain with
  | [a; b; c; d] => [(v_env, v_info "alice", ChangeProtocolFee 500000000000); a; (v_env, v_info "alice", ChangeFeeReceiver v_key "bob"); b;
      (v_env, v_info "bob", WithdrawProtocolFee v_key); c; d]
  | _ => []
  end%string.
Example ex_C106 : rest bl_plain = rest bl_fees /\ succeeded (heard bl_plain sc0) = [true; true; true] /\ succeeded (heard bl_fees sc0) = [true; true; true] /\
  map (fun x => is_ok (snd x)) (heard bl_plain sc0) = [true; true; true; true] /\
  map is_ok (fst (play bl_fees sc0)) = [true; true; true; true; true; true; true] /\
  map snd (skipn 3 (heard bl_plain sc0)) <> map snd (skipn 3 (heard bl_fees sc0)).
Proof.
  split; [reflexivity|]. split; [vm_compute; reflexivity|]. split; [vm_compute; reflexivity|]. split; [vm_compute; reflexivity|]. split; [vm_compute; reflexivity|].
  intros X. vm_compute in X. discriminate X.
Qed.
