(** What the clock decides: C74, C75. *)
From Verif Require Import Base Decimal SqrtPrice Clamm Log FeeGrowth Types Tick Pool Position
  Tickmap Keys State Swap Exec Query Tactics Frame Handlers History Basic Vectors Scenario PropTrade PropPerm PropLocal.
From stdpp Require Import gmap strings.
From Coq Require Import Lia.
Open Scope Z_scope.

(** equal up to recorded times and block numbers *)
Definition peq (p q : pool) : Prop :=
  q = mkPool (p_liq p) (p_price p) (p_tick p) (p_fgx p) (p_fgy p) (p_protx p) (p_proty p)
        (p_start q) (p_last q) (p_receiver p).
Definition tkeq (t u : tick) : Prop :=
  u = mkTick (t_index t) (t_sign t) (t_change t) (t_gross t) (t_price t) (t_fox t) (t_foy t) (t_secs u).
Definition poeq (a b : position) : Prop :=
  b = mkPosition (po_key a) (po_liq a) (po_lower a) (po_upper a) (po_fgx a) (po_fgy a) (po_block b)
        (po_owedx a) (po_owedy a) (po_approvals a).
Record alike (s t : store) : Prop := {
  al_config : st_config t = st_config s;
  al_pool k : option_Forall2 peq (st_pools s !! k) (st_pools t !! k);
  al_tick k j : option_Forall2 tkeq (st_ticks s !! (k, j)) (st_ticks t !! (k, j));
  al_bitmap : st_bitmap t = st_bitmap s;
  al_position a ix : option_Forall2 poeq (st_positions s !! (a, ix)) (st_positions t !! (a, ix));
  al_len : st_poslen t = st_poslen s;
  al_operators : st_operators t = st_operators s
}.
(** every pool was created no later than [now] *)
Definition begun (now : Z) (s : store) : Prop :=
  forall k p, st_pools s !! k = Some p -> 0 <= p_start p <= now.
(** the same surroundings at another time *)
Definition other_time (e e' : env) : Prop :=
  e_self e' = e_self e /\ e_gas e' = e_gas e /\ e_addr_ok e' = e_addr_ok e /\ e_utf8_ok e' = e_utf8_ok e.

Lemma of2_some {A B} (R : A -> B -> Prop) a o : option_Forall2 R (Some a) o -> exists b, o = Some b /\ R a b.
Proof. inversion 1; subst; eauto. Qed.
Lemma of2_none {A B} (R : A -> B -> Prop) o : option_Forall2 R (@None A) o -> o = None.
Proof. by inversion 1. Qed.

Lemma ck_yes er hi v : 0 <= v <= hi -> ck er hi v = Ok v.
Proof. intros. by apply ck_ok. Qed.
Lemma ckp_yes hi v : 0 <= v <= hi -> ckp hi v = Ok v.
Proof. intros. by apply ckp_ok. Qed.

Section Clock.
Context (n n' : Z) (Hn : n <= U64MAX) (Hn' : n' <= U64MAX).
Definition sk (s t : store) : Prop := alike s t /\ begun n s /\ begun n' t.
Definition pr (p q : pool) : Prop := peq p q /\ 0 <= p_start p <= n /\ 0 <= p_start q <= n'.

Lemma sk_pool s t k p q : sk s t -> pr p q -> sk (save_pool s k p) (save_pool t k q).
Proof.
  intros (A & B & D) (E & P & Q). split_and!.
  - destruct A. constructor; cbn; try done. intros k'. destruct (decide (k' = k)) as [->|N];
      [rewrite !lookup_insert|rewrite !lookup_insert_ne by congruence; done]. by constructor.
  - intros k' p'. cbn. destruct (decide (k' = k)) as [->|N]; [rewrite lookup_insert; by intros [= <-]|].
    rewrite lookup_insert_ne by congruence. apply B.
  - intros k' p'. cbn. destruct (decide (k' = k)) as [->|N]; [rewrite lookup_insert; by intros [= <-]|].
    rewrite lookup_insert_ne by congruence. apply D.
Qed.
Lemma sk_tick s t k j x y : sk s t -> tkeq x y ->
  sk (set_ticks s (<[(k, j) := x]> (st_ticks s))) (set_ticks t (<[(k, j) := y]> (st_ticks t))).
Proof.
  intros (A & B & D) E. split_and!; [|exact B|exact D]. destruct A. constructor; cbn; try done.
  intros k' j'. destruct (decide ((k', j') = (k, j))) as [->|N];
    [rewrite !lookup_insert; by constructor|rewrite !lookup_insert_ne by congruence; done].
Qed.
Lemma sk_del s t k j : sk s t ->
  sk (set_ticks s (delete (k, j) (st_ticks s))) (set_ticks t (delete (k, j) (st_ticks t))).
Proof.
  intros (A & B & D). split_and!; [|exact B|exact D]. destruct A. constructor; cbn; try done.
  intros k' j'. destruct (decide ((k', j') = (k, j))) as [->|N];
    [rewrite !lookup_delete; by constructor|rewrite !lookup_delete_ne by congruence; done].
Qed.
Lemma sk_bitmap s t b : sk s t -> sk (set_bitmap s b) (set_bitmap t b).
Proof. intros (A & B & D). split_and!; [|exact B|exact D]. destruct A. by constructor. Qed.
Lemma sk_config s t c : sk s t -> sk (set_config s c) (set_config t c).
Proof. intros (A & B & D). split_and!; [|exact B|exact D]. destruct A. by constructor. Qed.
Lemma sk_operators s t o : sk s t -> sk (set_operators s o) (set_operators t o).
Proof. intros (A & B & D). split_and!; [|exact B|exact D]. destruct A. by constructor. Qed.
Lemma sk_positions s t m m' l : sk s t ->
  (forall a ix, option_Forall2 poeq (m !! (a, ix)) (m' !! (a, ix))) -> sk (set_positions s m l) (set_positions t m' l).
Proof. intros (A & B & D) E. split_and!; [|exact B|exact D]. destruct A. by constructor. Qed.
Lemma sk_put s t a ix po qo l : sk s t -> poeq po qo ->
  sk (set_positions s (<[(a, ix) := po]> (st_positions s)) l) (set_positions t (<[(a, ix) := qo]> (st_positions t)) l).
Proof.
  intros L E. apply sk_positions; [done|]. intros b j.
  destruct (decide ((b, j) = (a, ix))) as [->|N]; [rewrite !lookup_insert; by constructor|].
  rewrite !lookup_insert_ne by congruence. apply L.
Qed.

Lemma sk_get_pool s t k : sk s t -> both pr (get_pool s k) (get_pool t k).
Proof.
  intros (A & B & D). unfold get_pool. pose proof (al_pool _ _ A k) as H. specialize (B k). specialize (D k).
  destruct (st_pools s !! k) as [p|]; [|apply of2_none in H; rewrite H; done].
  apply of2_some in H. destruct H as (q & E & H). rewrite E in *. cbn. split_and!; auto; try by apply B. by apply D. by apply D.
Qed.
Lemma sk_get_tick s t k j : sk s t -> both tkeq (get_tick s k j) (get_tick t k j).
Proof.
  intros (A & _). unfold get_tick. pose proof (al_tick _ _ A k j) as H.
  destruct (st_ticks s !! (k, j)); [|by rewrite (of2_none _ _ H)]. by destruct (of2_some _ _ _ H) as (q & -> & ?).
Qed.
Lemma sk_get_position s t a ix : sk s t -> both poeq (get_position s a ix) (get_position t a ix).
Proof.
  intros (A & _). unfold get_position. pose proof (al_position _ _ A a ix) as H.
  destruct (st_positions s !! (a, ix)); [|by rewrite (of2_none _ _ H)]. by destruct (of2_some _ _ _ H) as (q & -> & ?).
Qed.
Lemma sk_update_tick s t k j x y : sk s t -> tkeq x y -> both sk (update_tick s k j x) (update_tick t k j y).
Proof.
  intros L E. unfold update_tick. pose proof (al_tick _ _ (proj1 L) k j) as H.
  destruct (st_ticks s !! (k, j)); [|by rewrite (of2_none _ _ H)]. destruct (of2_some _ _ _ H) as (q & -> & ?). by apply sk_tick.
Qed.
Lemma sk_add_tick s t k j x y : sk s t -> tkeq x y -> both sk (add_tick s k j x) (add_tick t k j y).
Proof.
  intros L E. unfold add_tick. pose proof (al_tick _ _ (proj1 L) k j) as H.
  destruct (st_ticks s !! (k, j)); [by destruct (of2_some _ _ _ H) as (q & -> & ?)|].
  rewrite (of2_none _ _ H). by apply sk_tick.
Qed.
Lemma sk_remove_tick s t k j : sk s t -> both sk (remove_tick s k j) (remove_tick t k j).
Proof.
  intros L. unfold remove_tick. pose proof (al_tick _ _ (proj1 L) k j) as H.
  destruct (st_ticks s !! (k, j)); [|by rewrite (of2_none _ _ H)]. destruct (of2_some _ _ _ H) as (q & -> & ?). by apply sk_del.
Qed.
Lemma sk_chunk s t k c : sk s t -> bitmap_chunk t k c = bitmap_chunk s k c.
Proof. intros (A & _). unfold bitmap_chunk. by rewrite (al_bitmap _ _ A). Qed.
Lemma sk_flip s t v j sp k : sk s t -> both sk (flip_bitmap s v j sp k) (flip_bitmap t v j sp k).
Proof.
  intros L. unfold flip_bitmap. apply both_eq; [done|]. intros [c b] _. rewrite (sk_chunk _ _ _ _ L).
  destruct (negb _); cbn; [done|]. rewrite (al_bitmap _ _ (proj1 L)). by apply sk_bitmap.
Qed.
Lemma sk_next s t k m : sk s t -> forall sp c b lc lb, next_loop m t k sp c b lc lb = next_loop m s k sp c b lc lb.
Proof. intros L. induction m as [|m IH]; intros; cbn; [done|]. by rewrite (sk_chunk _ _ _ _ L), IH. Qed.
Lemma sk_prev s t k m : sk s t -> forall sp c b lc lb, prev_loop m t k sp c b lc lb = prev_loop m s k sp c b lc lb.
Proof. intros L. induction m as [|m IH]; intros; cbn; [done|]. by rewrite (sk_chunk _ _ _ _ L), IH. Qed.
Lemma sk_limit s t k lim d cur sp : sk s t -> get_closer_limit t lim d cur sp k = get_closer_limit s lim d cur sp k.
Proof.
  intros L. unfold get_closer_limit. f_equal. destruct d.
  - unfold prev_initialized. destruct (sp =? 0); [done|]. apply bind_ext. intros [c b]. apply bind_ext.
    intros [lc lb]. by rewrite (sk_prev _ _ _ _ L).
  - unfold next_initialized. destruct (sp =? 0); [done|]. destruct (_ <? _); [done|]. apply bind_ext. intros [c b]. apply bind_ext.
    intros [lc lb]. by rewrite (sk_next _ _ _ _ L).
Qed.

Lemma pr_add_fee p q a x f : pr p q -> both pr (add_fee p a x f) (add_fee q a x f).
Proof.
  intros (E & P & Q). unfold add_fee. apply both_eq; [done|]. intros pt _. apply both_eq; [done|]. intros pf _.
  rewrite E. cbn. destruct (_ || _); [cbn; by rewrite <- E|]. apply both_eq; [done|]. intros g _.
  destruct x; (apply both_eq; [done|]); intros r _; cbn; (split_and!; [done|cbn; lia..]).
Qed.
Lemma pr_set_price p q v : pr p q -> pr (p_set_price p v) (p_set_price q v).
Proof. intros (E & P & Q). rewrite E. split_and!; [done|cbn; lia..]. Qed.
Lemma pr_set_tick p q v : pr p q -> pr (p_set_tick p v) (p_set_tick q v).
Proof. intros (E & P & Q). rewrite E. split_and!; [done|cbn; lia..]. Qed.
Lemma pr_set_last p q : pr p q -> pr (p_set_last p n) (p_set_last q n').
Proof. intros (E & P & Q). rewrite E. split_and!; [done|cbn; lia..]. Qed.
Lemma pr_set_liq p q v : pr p q -> pr (p_set_liq p v) (p_set_liq q v).
Proof. intros (E & P & Q). rewrite E. split_and!; [done|cbn; lia..]. Qed.
Definition tp (a b : tick * pool) : Prop := tkeq (fst a) (fst b) /\ pr (snd a) (snd b).
Lemma sk_cross x y p q : tkeq x y -> pr p q -> both tp (tick_cross x p n) (tick_cross y q n').
Proof.
  intros X H. unfold tick_cross. pose proof H as (E & P & Q).
  rewrite (ck_yes _ _ (n - p_start p)), (ck_yes _ _ (n' - p_start q)) by lia. cbn [bind].
  eapply (both_bind eq).
  - rewrite X, E. cbn. apply both_same. done.
  - intros l ? <-. split; [|apply pr_set_liq, pr_set_last, H]. cbn. rewrite X, E. done.
Qed.
Definition tick_rel (a b : update_pool_tick) : Prop :=
  match a, b with
  | NoTick, NoTick => True
  | TickInitialized x, TickInitialized y => tkeq x y
  | TickUninitialized i, TickUninitialized j => i = j
  | _, _ => False
  end.
Definition put_rel (a b : pool * update_pool_tick * Z * Z * bool) : Prop :=
  let '(p, tk, tot, rem, cr) := a in let '(q, tk', tot', rem', cr') := b in
  pr p q /\ tick_rel tk tk' /\ tot' = tot /\ rem' = rem /\ cr' = cr.
Lemma sk_put_tick p q r lim tk tk' rem by_in d f ft : pr p q -> tick_rel tk tk' ->
  both put_rel (pool_update_tick p r lim tk rem by_in d n f ft) (pool_update_tick q r lim tk' rem by_in d n' f ft).
Proof.
  intros H T. unfold pool_update_tick.
  assert (K : match tk' with NoTick => true | _ => false end = match tk with NoTick => true | _ => false end).
  { by destruct tk, tk'. }
  rewrite K. destruct (_ || _).
  - apply both_eq; [done|]. intros j _. split_and!; [by apply pr_set_tick|done..].
  - pose proof H as (E & _). replace (p_liq q) with (p_liq p) by (rewrite E; done).
    apply both_eq; [done|]. intros en _.
    eapply (both_bind (fun a b : pool * update_pool_tick * Z * Z * bool * Z =>
      put_rel (fst a) (fst b) /\ snd a = snd b)).
    + destruct tk as [|x|j], tk' as [|y|j']; try done.
      assert (I : t_index y = t_index x) by (cbn in T; rewrite T; done). rewrite I.
      destruct (negb d || en).
      * eapply (both_bind tp).
        { pose proof (sk_cross x y p q T H) as C. unfold both in *.
          destruct (tick_cross x p n), (tick_cross y q n'); cbn; done. }
        intros [x' p'] [y' q'] (A & B). split; [|done]. split_and!; done.
      * destruct (negb (rem =? 0)); [|done]. destruct by_in; [|done].
        eapply both_bind; [by apply pr_add_fee|]. intros p' q' H'. done.
    + intros [[[[[p1 tk1] tot1] rem1] cr1] ix1] [[[[[q1 tk2] tot2] rem2] cr2] ix2] ((H1 & T1 & -> & -> & ->) & I).
      cbn in I. subst. split_and!; [by apply pr_set_tick|done..].
Qed.
Definition wr (w v : swap_state) : Prop :=
  pr (sw_pool w) (sw_pool v) /\ sw_remaining v = sw_remaining w /\ sw_in v = sw_in w /\ sw_out v = sw_out w /\
  sw_fee v = sw_fee w /\ Forall2 tkeq (sw_ticks w) (sw_ticks v).
Lemma sk_iter s t k d b lim tl w v : sk s t -> wr w v ->
  both wr (swap_iter s n k d b lim tl w) (swap_iter t n' k d b lim tl v).
Proof.
  intros L (H & E1 & E2 & E3 & E4 & F). unfold swap_iter. rewrite (sk_limit _ _ _ _ _ _ _ L), (al_config _ _ (proj1 L)).
  rewrite E1, E2, E3, E4. pose proof H as (E & _).
  replace (p_tick (sw_pool v)) with (p_tick (sw_pool w)) by (rewrite E; done).
  replace (p_price (sw_pool v)) with (p_price (sw_pool w)) by (rewrite E; done).
  replace (p_liq (sw_pool v)) with (p_liq (sw_pool w)) by (rewrite E; done).
  apply both_eq; [done|]. intros [sl li] _. do 3 (apply both_eq; [done|]; intros ? _).
  eapply both_bind; [by apply pr_add_fee|]. intros p q H1. do 3 (apply both_eq; [done|]; intros ? _).
  cbn [p_price p_set_price]. destruct (_ && _); [done|].
  eapply (both_bind tick_rel).
  { destruct li as [[j []]|]; try done. eapply both_bind; [by apply sk_get_tick|]. done. }
  intros tk tk' T. eapply both_bind; [apply sk_put_tick; [by apply pr_set_price|done]|].
  intros [[[[p1 tk1] tot1] rem1] cr1] [[[[q1 tk2] tot2] rem2] cr2] (H2 & T2 & -> & -> & ->).
  apply both_eq; [done|]. intros tin _.
  replace (p_tick q1) with (p_tick p1) by (rewrite (proj1 H2); done).
  destruct (if d then _ else _); [done|]. split_and!; try done. cbn.
  destruct tk1, tk2; try done. destruct cr1; [|done]. apply Forall2_app; [done|]. by constructor.
Qed.
Lemma sk_loop s t k d b lim tl g : sk s t -> forall w v, wr w v ->
  both wr (swap_loop g s n k d b lim tl w) (swap_loop g t n' k d b lim tl v).
Proof.
  intros L. induction g as [|g IH]; intros w v W; cbn; rewrite (proj1 (proj2 W)); destruct (_ =? _); try done.
  eapply both_bind; [by apply sk_iter|]. exact IH.
Qed.
Definition cr (a b : calc_result) : Prop :=
  cr_in b = cr_in a /\ cr_out b = cr_out a /\ cr_start b = cr_start a /\ cr_target b = cr_target a /\ cr_fee b = cr_fee a /\
  pr (cr_pool a) (cr_pool b) /\ Forall2 tkeq (cr_ticks a) (cr_ticks b).
Lemma sk_calc s t g k d a b lim : sk s t ->
  both cr (calculate_swap g s n k d a b lim) (calculate_swap g t n' k d a b lim).
Proof.
  intros L. unfold calculate_swap. destruct (a =? 0); [done|]. eapply both_bind; [by apply sk_get_pool|].
  intros p q H. replace (p_price q) with (p_price p) by (rewrite (proj1 H); done).
  destruct (if d then _ else _); [done|]. eapply both_bind; [apply sk_loop; [exact L|]; split_and!; [exact H|done..|constructor]|].
  intros w v (H1 & E1 & E2 & E3 & E4 & F). rewrite E3. destruct (_ =? 0); [done|].
  split_and!; try done. cbn. rewrite (proj1 H1). done.
Qed.
Lemma sk_update_ticks k l l' : Forall2 tkeq l l' -> forall s t, sk s t -> both sk (update_ticks s k l) (update_ticks t k l').
Proof.
  induction 1 as [|x y l l' X F IH]; intros s t L; cbn; [done|].
  replace (t_index y) with (t_index x) by (rewrite X; done).
  eapply both_bind; [by apply sk_update_tick|]. auto.
Qed.
Definition sk3 {A B} (R : B -> B -> Prop) (p q : store * A * B) : Prop :=
  sk (fst (fst p)) (fst (fst q)) /\ snd (fst p) = snd (fst q) /\ R (snd p) (snd q).
Definition sk2 {A} (R : A -> A -> Prop) (p q : store * A) : Prop := sk (fst p) (fst q) /\ R (snd p) (snd q).

Context (e e' : env) (OT : other_time e e') (En : e_millis e = n) (En' : e_millis e' = n').
Lemma ot_transfer i a v : asset_transfer e' i a v = asset_transfer e i a v.
Proof. destruct OT as (A & B & D & F). unfold asset_transfer. by rewrite D. Qed.
Lemma ot_from i a v : asset_transfer_from e' i a v = asset_transfer_from e i a v.
Proof. destruct OT as (A & B & D & F). unfold asset_transfer_from. by rewrite D, A. Qed.

Lemma sk_swap_internal i s t k d a b lim : sk s t ->
  both (sk3 cr) (swap_internal e i s k d a b lim) (swap_internal e' i t k d a b lim).
Proof.
  intros L. unfold swap_internal. rewrite En, En'. rewrite (proj1 (proj2 OT)).
  eapply both_bind; [by apply sk_calc|]. intros r q C. pose proof C as (E1 & E2 & _ & _ & _ & H & F).
  eapply both_bind; [by apply sk_update_ticks|]. intros s1 t1 L1. rewrite E1, E2.
  destruct d; (eapply (both_bind eq); [rewrite ot_from; by apply both_same|]); intros m ? <-; rewrite ot_transfer;
    (split_and!; [by apply sk_pool|done|done]).
Qed.
Lemma sk_route i hops : forall s t a, sk s t ->
  both (sk3 eq) (swap_route_internal e i s a hops) (swap_route_internal e' i t a hops).
Proof.
  induction hops as [|h hops IH]; intros s t a L; cbn [swap_route_internal]; [done|].
  eapply both_bind; [by apply sk_swap_internal|].
  intros [[s1 m1] r1] [[t1 n1] q1] (L1 & E1 & E2). cbn in E1, E2. subst. rewrite (proj1 (proj2 E2)).
  eapply both_bind; [apply IH; exact L1|].
  intros [[s2 m2] r2] [[t2 n2] q2] (L2 & F1 & F2). cbn in F1, F2. subst. done.
Qed.
Lemma sk_create_tick s t k j : sk s t -> both (sk2 tkeq) (create_tick s n k j) (create_tick t n' k j).
Proof.
  intros L. unfold create_tick. apply both_eq; [done|]. intros _ _. eapply both_bind; [by apply sk_get_pool|].
  intros p q H. eapply (both_bind tkeq).
  { unfold tick_create. pose proof H as (E & P & Q). replace (p_tick q) with (p_tick p) by (rewrite E; done).
    apply both_eq; [done|]. intros price _. destruct (j <=? p_tick p).
    - rewrite (ckp_yes _ (n - p_start p)), (ckp_yes _ (n' - p_start q)) by lia. cbn. unfold tkeq. cbn. rewrite E. done.
    - done. }
  intros x y X. eapply both_bind; [by apply sk_add_tick|]. intros s1 t1 L1.
  eapply both_bind; [by apply sk_flip|]. intros s2 t2 L2. done.
Qed.
Lemma sk_get_or_create s t k j : sk s t -> both (sk2 tkeq) (get_or_create_tick s n k j) (get_or_create_tick t n' k j).
Proof.
  intros L. unfold get_or_create_tick. pose proof (sk_get_tick s t k j L) as H. unfold both in H.
  destruct (get_tick s k j), (get_tick t k j); try done; by apply sk_create_tick.
Qed.
Lemma sk_add_position s t a po qo : sk s t -> poeq po qo -> both sk (add_position s a po) (add_position t a qo).
Proof.
  intros L H. unfold add_position, get_position_length. rewrite (al_len _ _ (proj1 L)). apply both_eq; [done|].
  intros m _. by apply sk_put.
Qed.
Lemma sk_update_position s t a ix po qo : sk s t -> poeq po qo -> both sk (update_position s a ix po) (update_position t a ix qo).
Proof.
  intros L H. unfold update_position, get_position_length. rewrite (al_len _ _ (proj1 L)).
  destruct (_ <=? _); [done|]. by apply sk_put.
Qed.
Lemma sk_remove_position s t a ix : sk s t -> both (sk2 poeq) (remove_position s a ix) (remove_position t a ix).
Proof.
  intros L. unfold remove_position, get_position_length. rewrite (al_len _ _ (proj1 L)). apply both_eq; [done|].
  intros m _. pose proof (al_position _ _ (proj1 L) a ix) as H.
  destruct (st_positions s !! (a, ix)) as [po|]; [|by rewrite (of2_none _ _ H)]. destruct (of2_some _ _ _ H) as (qo & -> & E).
  destruct (ix <? m).
  - pose proof (al_position _ _ (proj1 L) a m) as H'.
    destruct (st_positions s !! (a, m)) as [la|]; [|by rewrite (of2_none _ _ H')]. destruct (of2_some _ _ _ H') as (lb & -> & E').
    cbn. split; [|done]. apply sk_positions; [done|]. intros b j.
    destruct (decide ((b, j) = (a, ix))) as [->|N]; [rewrite !lookup_insert; by constructor|].
    rewrite !lookup_insert_ne by congruence. destruct (decide ((b, j) = (a, m))) as [->|N']; [rewrite !lookup_delete; constructor|].
    rewrite !lookup_delete_ne by congruence. apply L.
  - cbn. split; [|done]. apply sk_positions; [done|]. intros b j.
    destruct (decide ((b, j) = (a, ix))) as [->|N']; [rewrite !lookup_delete; constructor|].
    rewrite !lookup_delete_ne by congruence. apply L.
Qed.
Lemma sk_remove_flip s t k x y : sk s t -> tkeq x y ->
  both sk (remove_tick_and_flip_bitmap s k x) (remove_tick_and_flip_bitmap t k y).
Proof.
  intros L X. unfold remove_tick_and_flip_bitmap. rewrite X. cbn. destruct (negb _); [done|].
  eapply both_bind; [by apply sk_flip|]. intros. by apply sk_remove_tick.
Qed.
Lemma tk_update x y dl mx u a : tkeq x y -> both tkeq (tick_update x dl mx u a) (tick_update y dl mx u a).
Proof.
  intros X. unfold tick_update, calculate_new_liquidity_gross, update_liquidity_change. rewrite X. cbn.
  apply both_eq; [done|]. intros g _. apply both_eq; [done|]. intros [sg c] _. done.
Qed.
Definition mod_rel (a b : position * pool * tick * tick * Z * Z) : Prop :=
  let '(po, p, u, l, x, y) := a in let '(po', p', u', l', x', y') := b in
  poeq po po' /\ pr p p' /\ tkeq u u' /\ tkeq l l' /\ x' = x /\ y' = y.
Lemma sk_modify po po' p p' u u' l l' dl a sp : poeq po po' -> pr p p' -> tkeq u u' -> tkeq l l' ->
  both mod_rel (position_modify po p u l dl a n sp) (position_modify po' p' u' l' dl a n' sp).
Proof.
  intros PO H U W. unfold position_modify. eapply both_bind; [by apply tk_update|]. intros l1 l2 W1.
  eapply both_bind; [by apply tk_update|]. intros u1 u2 U1.
  eapply (both_bind poeq).
  { rewrite W1, U1, PO, (proj1 H). cbn. unfold position_update. cbn. destruct (_ && _); [done|].
    do 5 (apply both_eq; [done|]; intros ? _). done. }
  intros po1 po2 PO1. eapply (both_bind (fun a b : pool * Z * Z => pr (fst (fst a)) (fst (fst b)) /\ snd (fst a) = snd (fst b) /\ snd a = snd b)).
  { unfold update_liquidity. rewrite W1, U1. cbn [t_index p_tick p_price p_set_last].
    replace (p_tick p') with (p_tick p) by (rewrite (proj1 H); done).
    replace (p_price p') with (p_price p) by (rewrite (proj1 H); done).
    apply both_eq; [done|]. intros [[x y] []] _.
    - eapply (both_bind eq); [cbn; replace (p_liq p') with (p_liq p) by (rewrite (proj1 H); done); by apply both_same|].
      intros q ? <-. split_and!; [apply pr_set_liq, pr_set_last, H|done|done].
    - split_and!; [apply pr_set_last, H|done|done]. }
  intros [[p1 x1] y1] [[p2 x2] y2] (A & B & D). cbn in B, D. subst. done.
Qed.
Lemma sk_create_position i s t k l u q sl su : sk s t ->
  both (sk3 eq) (create_position e i s k l u q sl su) (create_position e' i t k l u q sl su).
Proof.
  intros L. unfold create_position. destruct (q =? 0); [done|]. destruct (l =? u); [done|]. rewrite En, En'.
  eapply (both_bind pr).
  { pose proof (sk_get_pool s t k L) as H. unfold both in H. by destruct (get_pool s k), (get_pool t k). }
  intros p p' H. eapply both_bind; [by apply sk_get_or_create|]. intros [s1 x1] [t1 y1] (L1 & X1).
  eapply both_bind; [by apply sk_get_or_create|]. intros [s2 x2] [t2 y2] (L2 & X2). cbn in X1, X2.
  eapply (both_bind (fun a b => let '(po, p, l, u, x, y) := a in let '(po', p', l', u', x', y') := b in
    mod_rel (po, p, u, l, x, y) (po', p', u', l', x', y'))).
  { unfold position_create. replace (p_price p') with (p_price p) by (rewrite (proj1 H); done). destruct (_ || _); [done|].
    eapply both_bind; [apply sk_modify; [|exact H|exact X2|exact X1]; rewrite X1, X2; done|].
    intros [[[[[a1 a2] a3] a4] a5] a6] [[[[[b1 b2] b3] b4] b5] b6] M. exact M. }
  intros [[[[[po p1] l1] u1] x] y] [[[[[po' p2] l2] u2] x'] y'] (PO & H1 & U & W & -> & ->).
  eapply both_bind; [apply sk_add_position; [by apply sk_pool|exact PO]|]. intros s3 t3 L3.
  replace (t_index l2) with (t_index l1) by (rewrite W; done). replace (t_index u2) with (t_index u1) by (rewrite U; done).
  eapply both_bind; [by apply sk_update_tick|]. intros s4 t4 L4.
  eapply both_bind; [by apply sk_update_tick|]. intros s5 t5 L5.
  replace (p_price p2) with (p_price p1) by (rewrite (proj1 H1); done). rewrite !ot_from.
  apply both_eq; [done|]. intros m0 _. apply both_eq; [done|]. intros m1 _. done.
Qed.
Lemma sk_claim i s t ix : sk s t -> both (sk3 eq) (claim_fee e i s ix) (claim_fee e' i t ix).
Proof.
  intros L. unfold claim_fee. rewrite En, En'. eapply both_bind; [by apply sk_get_position|]. intros po po' PO.
  replace (po_key po') with (po_key po) by (rewrite PO; done). replace (po_lower po') with (po_lower po) by (rewrite PO; done).
  replace (po_upper po') with (po_upper po) by (rewrite PO; done).
  eapply both_bind; [by apply sk_get_tick|]. intros lt lt' W. eapply both_bind; [by apply sk_get_tick|]. intros ut ut' U.
  eapply both_bind; [by apply sk_get_pool|]. intros p p' H.
  eapply (both_bind mod_rel).
  { unfold position_claim_fee. replace (po_key po') with (po_key po) by (rewrite PO; done).
    eapply both_bind; [by apply sk_modify|].
    intros [[[[[a1 a2] a3] a4] a5] a6] [[[[[b1 b2] b3] b4] b5] b6] (M1 & M2 & M3 & M4 & -> & ->).
    split_and!; try done; cbn; rewrite M1; done. }
  intros [[[[[q p1] u1] l1] x] y] [[[[[q' p2] u2] l2] x'] y'] (PO1 & H1 & U1 & W1 & -> & ->).
  eapply both_bind; [by apply sk_update_position|]. intros s1 t1 L1.
  replace (t_index l2) with (t_index l1) by (rewrite W1; done). replace (t_index u2) with (t_index u1) by (rewrite U1; done).
  eapply both_bind; [apply sk_update_tick; [by apply sk_pool|done]|]. intros s2 t2 L2.
  eapply both_bind; [by apply sk_update_tick|]. intros s3 t3 L3. rewrite !ot_transfer. done.
Qed.
Lemma sk_remove i s t ix : sk s t -> both (sk3 eq) (remove_position_exec e i s ix) (remove_position_exec e' i t ix).
Proof.
  intros L. unfold remove_position_exec. rewrite En, En'. eapply both_bind; [by apply sk_get_position|]. intros po po' PO.
  replace (po_key po') with (po_key po) by (rewrite PO; done). replace (po_lower po') with (po_lower po) by (rewrite PO; done).
  replace (po_upper po') with (po_upper po) by (rewrite PO; done). replace (po_liq po') with (po_liq po) by (rewrite PO; done).
  eapply both_bind; [by apply sk_get_tick|]. intros lt lt' W. eapply both_bind; [by apply sk_get_tick|]. intros ut ut' U.
  eapply both_bind; [by apply sk_get_pool|]. intros p p' H.
  eapply (both_bind (fun a b => let '(po, p, l, u, x, y, dl, du) := a in let '(po', p', l', u', x', y', dl', du') := b in
    mod_rel (po, p, u, l, x, y) (po', p', u', l', x', y') /\ dl' = dl /\ du' = du)).
  { unfold position_remove. replace (po_liq po') with (po_liq po) by (rewrite PO; done).
    eapply both_bind; [by apply sk_modify|].
    intros [[[[[a1 a2] a3] a4] a5] a6] [[[[[b1 b2] b3] b4] b5] b6] (M1 & M2 & M3 & M4 & -> & ->).
    replace (po_owedx b1) with (po_owedx a1) by (rewrite M1; done). replace (po_owedy b1) with (po_owedy a1) by (rewrite M1; done).
    do 2 (apply both_eq; [done|]; intros ? _). split_and!; try done; cbn; [rewrite M4|rewrite M3]; done. }
  intros [[[[[[[q p1] l1] u1] x] y] dl] du] [[[[[[[q' p2] l2] u2] x'] y'] dl'] du'] ((PO1 & H1 & U1 & W1 & -> & ->) & -> & ->).
  eapply (both_bind sk); [destruct dl; [apply sk_remove_flip|apply sk_update_tick]; try apply sk_pool; done|]. intros s1 t1 L1.
  eapply (both_bind sk); [destruct du; [apply sk_remove_flip|apply sk_update_tick]; done|]. intros s2 t2 L2.
  eapply both_bind; [by apply sk_remove_position|]. intros [s3 r3] [t3 q3] (L3 & E3). cbn in E3.
  replace (po_key q3) with (po_key r3) by (rewrite E3; done).
  replace (t_index l2) with (t_index l1) by (rewrite W1; done). replace (t_index u2) with (t_index u1) by (rewrite U1; done).
  replace (p_price p2) with (p_price p1) by (rewrite (proj1 H1); done). rewrite !ot_transfer. done.
Qed.
Lemma sk_by_key s t tid : sk s t -> both poeq (get_position_by_key s tid) (get_position_by_key t tid).
Proof. intros L. unfold get_position_by_key. destruct (split_token tid) as [[a ix]|]; [|done]. by apply sk_get_position. Qed.

(** the permissions in force are judged alike at both times *)
Definition judged (s : store) (m : exec_msg) : Prop :=
  (forall o x, st_operators s !! o = Some x -> is_expired e' x = is_expired e x) /\
  (forall o po a, st_positions s !! o = Some po -> In a (po_approvals po) -> is_expired e' (ap_expires a) = is_expired e (ap_expires a)) /\
  match m with
  | Approve _ _ (Some x) | ApproveAll _ (Some x) => is_expired e' x = is_expired e x
  | _ => True
  end.
Lemma sk_can_approve i s t a m : sk s t -> judged s m -> check_can_approve e' i t a = check_can_approve e i s a.
Proof.
  intros L (J & _). unfold check_can_approve. rewrite (al_operators _ _ (proj1 L)). destruct (String.eqb _ _); [done|].
  destruct (st_operators s !! (a, i_sender i)) eqn:E; [|done]. by rewrite (J _ _ E).
Qed.
Lemma sk_can_send i s t a tid m po po' : sk s t -> judged s m -> get_position_by_key s tid = Ok po -> poeq po po' ->
  check_can_send e' i t a po' = check_can_send e i s a po.
Proof.
  intros L (J1 & J2 & _) G PO. unfold check_can_send. rewrite (al_operators _ _ (proj1 L)). destruct (String.eqb _ _); [done|].
  assert (P : exists o, st_positions s !! o = Some po).
  { unfold get_position_by_key, get_position in G. destruct (split_token tid) as [[o ix]|]; [|done].
    destruct (st_positions s !! (o, ix)) eqn:E; [|done]. apply Ok_inj in G. subst. eauto. }
  destruct P as (o & P). specialize (J2 o po). replace (po_approvals po') with (po_approvals po) by (rewrite PO; done).
  assert (X : forall l, (forall a, In a l -> is_expired e' (ap_expires a) = is_expired e (ap_expires a)) ->
    existsb (fun a0 => String.eqb (ap_spender a0) (i_sender i) && negb (is_expired e' (ap_expires a0))) l =
    existsb (fun a0 => String.eqb (ap_spender a0) (i_sender i) && negb (is_expired e (ap_expires a0))) l).
  { induction l as [|b l IH]; intros J; cbn; [done|]. rewrite (J b (or_introl eq_refl)), IH; [done|]. intros c I. apply J. by right. }
  rewrite X by eauto. destruct (existsb _ _); [done|].
  destruct (st_operators s !! (a, i_sender i)) eqn:E; [|done]. by rewrite (J1 _ _ E).
Qed.
Lemma sk_transfer_nft i s t r tid m : sk s t -> judged s m ->
  both sk (transfer_nft e i s r tid) (transfer_nft e' i t r tid).
Proof.
  intros L J. unfold transfer_nft. destruct (split_token tid) as [[a ix]|] eqn:E; [|done].
  rewrite (proj2 (proj2 (proj2 OT))). destruct (negb _); [done|].
  pose proof (sk_by_key s t tid L) as B. unfold both in B.
  destruct (get_position_by_key s tid) as [po| |] eqn:G, (get_position_by_key t tid) as [po'| |]; try done. cbn [bind].
  rewrite (sk_can_send i s t a tid m po po' L J G B). apply both_eq; [done|]. intros _ _.
  eapply both_bind; [by apply sk_remove_position|]. intros [s1 p1] [t1 q1] (L1 & _).
  apply sk_add_position; [done|]. rewrite B. done.
Qed.
Lemma sk_approvals i s t sp tid add x m : sk s t -> judged s m ->
  (forall y, x = Some y -> is_expired e' y = is_expired e y) ->
  both sk (update_approvals e i s sp tid add x) (update_approvals e' i t sp tid add x).
Proof.
  intros L J X. unfold update_approvals. destruct (split_token tid) as [[a ix]|] eqn:E; [|done].
  eapply both_bind; [by apply sk_by_key|]. intros po po' PO. rewrite (sk_can_approve i s t a m L J).
  apply both_eq; [done|]. intros _ _. replace (po_approvals po') with (po_approvals po) by (rewrite PO; done).
  eapply (both_bind eq).
  - assert (Y : is_expired e' (default Never x) = is_expired e (default Never x)) by (destruct x; cbn; auto).
    rewrite Y. by apply both_same.
  - intros l ? <-. rewrite (al_len _ _ (proj1 L)). apply sk_put; [done|]. rewrite PO. done.
Qed.

(** calls that look at approvals *)
Definition by_permission (m : exec_msg) : Prop :=
  match m with
  | Approve _ _ _ | Revoke _ _ | ApproveAll _ _ | TransferNft _ _ | SendNft _ _ _ | Burn _ => True
  | _ => False
  end.
Lemma sk_dispatch i s t m : 0 <= n -> 0 <= n' -> sk s t -> (by_permission m -> judged s m) ->
  both (sk3 eq) (dispatch e i s m) (dispatch e' i t m).
Proof.
  intros P P' L J. pose proof (al_config _ _ (proj1 L)) as CF.
  destruct m; cbn [dispatch by_permission] in *.
  - unfold change_admin. rewrite CF. destruct (negb _); [done|]. split_and!; [by apply sk_config|done|done].
  - unfold withdraw_protocol_fee. eapply both_bind; [by apply sk_get_pool|]. intros p p' H.
    replace (p_receiver p') with (p_receiver p) by (rewrite (proj1 H); done).
    replace (p_protx p') with (p_protx p) by (rewrite (proj1 H); done).
    replace (p_proty p') with (p_proty p) by (rewrite (proj1 H); done). destruct (negb _); [done|]. rewrite !ot_transfer.
    split_and!; [apply sk_pool; [done|]|done|done]. destruct H as (E & H1 & H2). rewrite E. split_and!; cbn; [done|lia..].
  - unfold change_protocol_fee. rewrite CF. destruct (negb _); [done|]. split_and!; [by apply sk_config|done|done].
  - unfold change_fee_receiver. rewrite CF. destruct (negb _); [done|]. eapply both_bind; [by apply sk_get_pool|]. intros p p' H.
    split_and!; [apply sk_pool; [done|]|done|done]. destruct H as (E & H1 & H2). rewrite E. split_and!; cbn; [done|lia..].
  - by apply sk_create_position.
  - unfold swap. eapply both_bind; [by apply sk_swap_internal|].
    intros [[s1 m1] r1] [[t1 n1] q1] (L1 & E1 & E2). cbn in E1, E2. subst. destruct E2 as (E2 & E3 & _). rewrite E2, E3. done.
  - unfold swap_route. eapply both_bind; [by apply sk_route|].
    intros [[s1 m1] r1] [[t1 n1] q1] (L1 & E1 & E2). cbn in E1, E2. subst.
    apply both_eq; [done|]. intros mn _. destruct (_ <? _); done.
  - unfold transfer_position. eapply both_bind; [by apply sk_get_position|]. intros po po' PO.
    eapply both_bind; [by apply sk_remove_position|]. intros [s1 p1] [t1 q1] (L1 & _).
    rewrite (proj1 (proj2 (proj2 OT))). destruct (negb _); [done|].
    eapply both_bind; [apply sk_add_position; [exact L1|]; rewrite PO; done|]. intros s2 t2 L2. done.
  - by apply sk_claim.
  - by apply sk_remove.
  - unfold create_pool. rewrite CF, En, En'. destruct (negb _); [done|]. apply both_eq; [done|]. intros _ _.
    apply both_eq; [done|]. intros k EK. apply both_eq; [done|]. intros _ _.
    pose proof (al_pool _ _ (proj1 L) k) as H. destruct (st_pools s !! k); [by destruct (of2_some _ _ _ H) as (? & -> & _)|].
    rewrite (of2_none _ _ H). eapply (both_bind pr).
    { unfold pool_create. destruct (check_tick_to_sqrt_price_relationship _ _ _) as [[]| |]; cbn; done. }
    intros p p' PP. split_and!; [by apply sk_pool|done|done].
  - unfold add_fee_tier. rewrite CF. destruct (negb _); [done|]. destruct (_ || _); [done|]. destruct (_ <=? _); [done|].
    split_and!; [by apply sk_config|done|done].
  - unfold remove_fee_tier. rewrite CF. destruct (negb _); [done|]. destruct (remove_first _ _); [|done].
    split_and!; [by apply sk_config|done|done].
  - unfold handle_transfer_nft. eapply both_bind; [eapply sk_transfer_nft; [exact L|by apply J]|]. intros s1 t1 L1. done.
  - by apply sk_create_position.
  - unfold handle_burn. specialize (J Logic.I). pose proof (sk_by_key s t token_id L) as B. unfold both in B.
    destruct (get_position_by_key s token_id) as [po| |] eqn:G, (get_position_by_key t token_id) as [po'| |]; try done. cbn [bind].
    destruct (split_token token_id) as [[a ix]|] eqn:E; [|done].
    rewrite (sk_can_send i s t a token_id _ po po' L J G B). apply both_eq; [done|]. intros _ _. by apply sk_remove.
  - unfold handle_send_nft. eapply both_bind; [eapply sk_transfer_nft; [exact L|by apply J]|]. intros s1 t1 L1. done.
  - unfold handle_approve. specialize (J Logic.I).
    eapply both_bind; [eapply sk_approvals; [exact L|exact J|]; intros y ->; apply J|]. intros s1 t1 L1. done.
  - unfold handle_revoke. specialize (J Logic.I).
    eapply both_bind; [eapply sk_approvals; [exact L|exact J|done]|]. intros s1 t1 L1. done.
  - unfold handle_approve_all. cbv zeta. specialize (J Logic.I).
    assert (Y : is_expired e' (default Never expires) = is_expired e (default Never expires)) by (destruct expires; cbn; [apply J|done]).
    rewrite Y. destruct (is_expired e _); [done|]. rewrite (al_operators _ _ (proj1 L)). split_and!; [by apply sk_operators|done|done].
  - unfold handle_revoke_all. rewrite (al_operators _ _ (proj1 L)). split_and!; [by apply sk_operators|done|done].
Qed.
End Clock.

(** * C74: the clock decides nothing but which permissions have expired *)
Theorem C74_time e e' i s t m :
  alike s t -> begun (e_millis e) s -> begun (e_millis e') t -> other_time e e' ->
  env_typed e i = true -> env_typed e' i = true -> (by_permission m -> judged e e' s m) ->
  match execute e i s m, execute e' i t m with
  | Ok (s', ms, at'), Ok (t', ms', at'') =>
      ms' = ms /\ at'' = at' /\ alike s' t' /\ begun (e_millis e) s' /\ begun (e_millis e') t'
  | Err x, Err y => x = y
  | Panic, Panic => True
  | _, _ => False
  end.
Proof.
  intros A B B' OT T T' J. unfold execute. rewrite T, T'. cbn [andb]. destruct (msg_typed m); [|done].
  assert (R : forall e0, env_typed e0 i = true -> 0 <= e_millis e0 <= U64MAX).
  { intros e0 H. unfold env_typed, u64_ok in H. rewrite !andb_true_iff in H. destruct H as ((_ & H) & _).
    apply in_range_spec in H. unfold e_millis. split; [apply Z.div_pos; lia|].
    etrans; [apply Z.div_le_upper_bound with (q := e_nanos e0); lia|lia]. }
  pose proof (sk_dispatch _ _ (proj2 (R e T)) (proj2 (R e' T')) e e' OT eq_refl eq_refl i s t m (proj1 (R e T)) (proj1 (R e' T')) (conj A (conj B B')) J) as D.
  unfold both in D. destruct (dispatch e i s m) as [[[s' ms] at']| |], (dispatch e' i t m) as [[[t' ms'] at'']| |]; try done.
  destruct D as ((D1 & D2 & D3) & E1 & E2). cbn in E1, E2. done.
Qed.

(** * C75: whole histories *)
Definition call : Type := env * msg_info * exec_msg.
(** what the callers get to see of a sequence of calls; a failed call changes nothing *)
Fixpoint play (l : list call) (s : store) : list (res (list out_msg * list (string * Z))) * store :=
  match l with
  | [] => ([], s)
  | (e, i, m) :: l' =>
      match execute e i s m with
      | Ok (s1, ms, at') => let '(o, s2) := play l' s1 in (Ok (ms, at') :: o, s2)
      | Err x => let '(o, s2) := play l' s in (Err x :: o, s2)
      | Panic => let '(o, s2) := play l' s in (Panic :: o, s2)
      end
  end.
(** the same calls at other times *)
Definition retimed (c c' : call) : Prop :=
  let '(e, i, m) := c in let '(e', i', m') := c' in other_time e e' /\ i' = i /\ m' = m.
Fixpoint in_order (T : Z) (l : list call) : Prop :=
  match l with
  | [] => True
  | (e, i, _) :: l' => T <= e_nanos e /\ env_typed e i = true /\ in_order (e_nanos e) l'
  end.
(** no permission that could run out is given *)
Definition lasting (c : call) : Prop :=
  match snd c with
  | Approve _ _ (Some x) | ApproveAll _ (Some x) => x = Never
  | _ => True
  end.
Definition all_lasting (s : store) : Prop :=
  (forall o x, st_operators s !! o = Some x -> x = Never) /\
  (forall o po a, st_positions s !! o = Some po -> In a (po_approvals po) -> ap_expires a = Never).

Lemma lasting_step e i s m s' ms at' : reachable s -> execute e i s m = Ok (s', ms, at') ->
  lasting (e, i, m) -> all_lasting s -> all_lasting s'.
Proof.
  intros R H L [A B]. split.
  - intros [o b] x E. rewrite (execute_operators _ _ _ _ _ _ _ (ereach_indexed _ (reachable_ereach _ R)) H) in E.
    destruct m; cbn [operators_after] in E; eauto.
    + destruct (decide ((i_sender i, operator) = (o, b))) as [Q|N].
      * rewrite Q, lookup_insert in E. injection E as <-. destruct expires; cbn in *; [exact L|done].
      * rewrite lookup_insert_ne in E by done. eauto.
    + apply lookup_delete_Some in E. destruct E. eauto.
  - intros [o ix] po a E I.
    destruct (C57_no_unasked_approval _ _ _ _ _ _ _ _ _ _ _ R H E I) as [(x & -> & X & _)|(ix0 & po0 & E0 & _ & I0 & _)]; [|eauto].
    rewrite X. destruct x; cbn in *; [exact L|done].
Qed.
Lemma lasting_judged e e' s m i : all_lasting s -> lasting (e, i, m) -> judged e e' s m.
Proof.
  intros [A B] L. split_and!.
  - intros o x E. by rewrite (A _ _ E).
  - intros o po a E I. by rewrite (B _ _ _ E I).
  - unfold lasting in L. cbn [snd] in L. destruct m; try exact Logic.I; destruct expires; try exact Logic.I; by subst.
Qed.
Lemma millis_mono e e' : e_nanos e <= e_nanos e' -> e_millis e <= e_millis e'.
Proof. intros. unfold e_millis. apply Z.div_le_mono; lia. Qed.

Lemma play_alike l l' : Forall2 retimed l l' -> forall T T' s t, Forall lasting l -> in_order T l -> in_order T' l' ->
  reachable s -> all_lasting s -> alike s t -> begun (T / 1000000) s -> begun (T' / 1000000) t ->
  fst (play l s) = fst (play l' t) /\ alike (snd (play l s)) (snd (play l' t)).
Proof.
  induction 1 as [|[[e i] m] [[e' i'] m'] l l' C F IH]; intros T T' s t LA O O' R AL A B B'; [done|].
  destruct C as (OT & -> & ->). inversion LA as [|? ? L1 L2]; subst. destruct O as (O1 & O2 & O3), O' as (O1' & O2' & O3').
  assert (M : T / 1000000 <= e_millis e) by (unfold e_millis; apply Z.div_le_mono; lia).
  assert (M' : T' / 1000000 <= e_millis e') by (unfold e_millis; apply Z.div_le_mono; lia).
  assert (B1 : begun (e_millis e) s) by (intros k p E; specialize (B k p E); lia).
  assert (B1' : begun (e_millis e') t) by (intros k p E; specialize (B' k p E); lia).
  pose proof (C74_time e e' i s t m A B1 B1' OT O2 O2' (fun _ => lasting_judged e e' s m i AL L1)) as S. cbn [play].
  destruct (execute e i s m) as [[[s1 ms] at']|x|] eqn:H, (execute e' i t m) as [[[t1 ms'] at'']|x'|]; try done.
  - destruct S as (-> & -> & A1 & B2 & B2').
    destruct (IH (e_nanos e) (e_nanos e') s1 t1 L2 O3 O3') as [I1 I2]; try done.
    { eapply reach_call; eassumption. } { by eapply lasting_step. }
    destruct (play l s1), (play l' t1). cbn in *. by rewrite I1.
  - subst x'. destruct (IH (e_nanos e) (e_nanos e') s t L2 O3 O3') as [I1 I2]; try done.
    destruct (play l s), (play l' t). cbn in *. by rewrite I1.
  - destruct (IH (e_nanos e) (e_nanos e') s t L2 O3 O3') as [I1 I2]; try done.
    destruct (play l s), (play l' t). cbn in *. by rewrite I1.
Qed.
Theorem C75_history i0 f s l l' :
  instantiate i0 f = Ok s -> Forall2 retimed l l' -> Forall lasting l -> in_order 0 l -> in_order 0 l' ->
  fst (play l s) = fst (play l' s) /\ alike (snd (play l s)) (snd (play l' s)).
Proof.
  intros H F L O O'. pose proof (reach_init _ _ _ H) as R. unfold instantiate in H. destruct (u64_ok f); [|done]. apply Ok_inj in H.
  apply (play_alike l l' F 0 0); try done; subst s.
  - split; intros o x; cbn; [|intros ?]; rewrite lookup_empty; done.
  - constructor; intros; cbn; rewrite ?lookup_empty; try done; constructor.
  - intros k p. cbn. by rewrite lookup_empty.
  - intros k p. cbn. by rewrite lookup_empty.
Qed.

(** a year later *)
Definition later : env := mkEnv 5000000 31536001000000000 "self" 1000 (fun _ => true) (fun _ => true).
Definition c_swap : exec_msg := Swap v_key true 12000 true MIN_SQRT_PRICE.
Definition carol_takes : exec_msg := TransferNft "carol" (position_key_bytes "alice" 0).
Definition c_see (e : env) (a : string) (m : exec_msg) : res (list out_msg * list (string * Z) * res Z) :=
  let* '(s, ms, at') := execute e (v_info a) sc0 m in
  Ok (ms, at', let* p := get_pool s v_key in Ok (p_last p)).
Example ex_C74 :
  begun (e_millis v_env) sc0 /\ begun (e_millis later) sc0 /\ other_time v_env later /\
  (exists ms, c_see v_env "bob" c_swap = Ok (ms, [("amount_in", 12000); ("amount_out", 11916)]%string, Ok 1000) /\
              c_see later "bob" c_swap = Ok (ms, [("amount_in", 12000); ("amount_out", 11916)]%string, Ok 31536001000)) /\
  (* where permissions expire, the clock matters *)
  is_ok (c_see v_env "carol" carol_takes) = true /\ is_ok (c_see later "carol" carol_takes) = false.
Proof.
  assert (B : forall v, 1000 <= v -> begun v sc0).
  { intros v V k p E. assert (M : map_Forall (fun _ q => p_start q = 1000) (st_pools sc0)) by (refine (bool_decide_unpack _ _); vm_compute; exact Logic.I).
    rewrite (M k p E). lia. }
  split; [apply B; vm_compute; discriminate|]. split; [apply B; vm_compute; discriminate|]. split; [done|].
  split; [eexists; split; vm_compute; reflexivity|]. split; vm_compute; reflexivity.
Qed.
Definition c_calls (e : env) : list call :=
  map (fun c => (e, v_info (fst c), snd c))
    [("alice", AddFeeTier v_tier);
     ("alice", CreatePool "tokeny" "tokenx" v_tier SP_ONE 0);
     ("alice", CreatePosition v_key (-10) 10 20006000000000 SP_ONE SP_ONE);
     ("alice", CreatePosition v_key (-20) 30 5000000000000 SP_ONE SP_ONE);
     ("alice", ApproveAll "carol" None);
     ("bob", Swap v_key true 3000 true MIN_SQRT_PRICE);
     ("carol", TransferNft "carol" (position_key_bytes "alice" 1));
     ("bob", Swap v_key true 12000 true MIN_SQRT_PRICE);
     ("carol", ClaimFee 0); ("dave", ClaimFee 0)]%string.
Example ex_C75 : exists i0 f s, instantiate i0 f = Ok s /\ Forall2 retimed (c_calls v_env) (c_calls later) /\
  Forall lasting (c_calls v_env) /\ in_order 0 (c_calls v_env) /\ in_order 0 (c_calls later) /\
  map is_ok (fst (play (c_calls v_env) s)) = [true; true; true; true; true; true; true; true; true; false].
Proof.
  exists (v_info "alice"), 10000000000. eexists. split; [reflexivity|].
  split; [repeat constructor|]. split; [repeat constructor|].
  split; [vm_compute; repeat split; discriminate|]. split; [vm_compute; repeat split; discriminate|].
  vm_compute. reflexivity.
Qed.
