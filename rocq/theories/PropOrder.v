(** C101: the order of deposits. *)
From Verif Require Import Base Decimal SqrtPrice Clamm Log FeeGrowth Types Tick Pool Position
  Tickmap Keys State Swap Exec Query Tactics PriceProofs ClammProofs BitmapProofs Frame Handlers History Basic PosList Ledger Scenario SwapInv SwapGeo SwapLoop Modify PSum LiqInv
  Vectors Geo Ops PropTrade PropLiq PropSwap Growth PropPerm PropLocal PropProt PropClock PropOk PropSplit.
From stdpp Require Import gmap strings.
From Coq Require Import Lia.
Open Scope Z_scope.

(** * The sign of a net change of zero
    A tick records its net change as an amount and a sign. When the amount is zero the sign says nothing, but it is stored and reported. *)
Definition same_tick (t u : tick) : Prop :=
  u = mkTick (t_index t) (t_sign u) (t_change t) (t_gross t) (t_price t) (t_fox t) (t_foy t) (t_secs t) /\
  (t_sign u = t_sign t \/ t_change t = 0).
(** two stores that differ in such signs only *)
Definition same_store (s t : store) : Prop :=
  st_config t = st_config s /\ st_pools t = st_pools s /\ st_bitmap t = st_bitmap s /\ st_positions t = st_positions s /\
  st_poslen t = st_poslen s /\ st_operators t = st_operators s /\
  forall k j, option_Forall2 same_tick (st_ticks s !! (k, j)) (st_ticks t !! (k, j)).

Lemma same_tick_refl t : same_tick t t.
Proof. split; [by destruct t|by left]. Qed.
Definition zk (s t : store) : Prop := exists T, t = set_ticks s T /\ forall k j, option_Forall2 same_tick (st_ticks s !! (k, j)) (T !! (k, j)).
Lemma zk_same s t : zk s t <-> same_store s t.
Proof.
  split.
  - intros (T & -> & H). by repeat split.
  - intros (A & B & D & E & F & G & H). exists (st_ticks t). split; [|done]. destruct s, t. cbn in *. by subst.
Qed.
Lemma of2_some {A B} (R : A -> B -> Prop) a o : option_Forall2 R (Some a) o -> exists b, o = Some b /\ R a b.
Proof. inversion 1; subst; eauto. Qed.
Lemma of2_none {A B} (R : A -> B -> Prop) o : option_Forall2 R (@None A) o -> o = None.
Proof. by inversion 1. Qed.

(** ** Reading and writing *)
Lemma zk_pool s t k p : zk s t -> zk (save_pool s k p) (save_pool t k p).
Proof. intros (T & -> & H). by exists T. Qed.
Lemma zk_tick s t k j x y : zk s t -> same_tick x y ->
  zk (set_ticks s (<[(k, j) := x]> (st_ticks s))) (set_ticks t (<[(k, j) := y]> (st_ticks t))).
Proof.
  intros (T & -> & H) E. exists (<[(k, j) := y]> T). split; [done|]. cbn. intros k' j'.
  destruct (decide ((k', j') = (k, j))) as [->|N]; [rewrite !lookup_insert; by constructor|rewrite !lookup_insert_ne by congruence; done].
Qed.
Lemma zk_del s t k j : zk s t -> zk (set_ticks s (delete (k, j) (st_ticks s))) (set_ticks t (delete (k, j) (st_ticks t))).
Proof.
  intros (T & -> & H). exists (delete (k, j) T). split; [done|]. cbn. intros k' j'.
  destruct (decide ((k', j') = (k, j))) as [->|N]; [rewrite !lookup_delete; by constructor|rewrite !lookup_delete_ne by congruence; done].
Qed.
Lemma zk_get_tick s t k j : zk s t -> both same_tick (get_tick s k j) (get_tick t k j).
Proof.
  intros (T & -> & A). unfold get_tick. specialize (A k j). cbn.
  destruct (st_ticks s !! (k, j)); [|by rewrite (of2_none _ _ A)]. by destruct (of2_some _ _ _ A) as (q & -> & ?).
Qed.
Lemma zk_update_tick s t k j x y : zk s t -> same_tick x y -> both zk (update_tick s k j x) (update_tick t k j y).
Proof.
  intros L E. unfold update_tick. pose proof L as (T & -> & A). specialize (A k j). cbn [st_ticks set_ticks].
  destruct (st_ticks s !! (k, j)); [|by rewrite (of2_none _ _ A)]. destruct (of2_some _ _ _ A) as (q & -> & ?). exact (zk_tick _ _ k j _ _ L E).
Qed.
Lemma zk_add_tick s t k j x y : zk s t -> same_tick x y -> both zk (add_tick s k j x) (add_tick t k j y).
Proof.
  intros L E. unfold add_tick. pose proof L as (T & -> & A). specialize (A k j). cbn [st_ticks set_ticks].
  destruct (st_ticks s !! (k, j)); [by destruct (of2_some _ _ _ A) as (q & -> & ?)|].
  rewrite (of2_none _ _ A). exact (zk_tick _ _ k j _ _ L E).
Qed.
Lemma zk_remove_tick s t k j : zk s t -> both zk (remove_tick s k j) (remove_tick t k j).
Proof.
  intros L. unfold remove_tick. pose proof L as (T & -> & A). specialize (A k j). cbn [st_ticks set_ticks].
  destruct (st_ticks s !! (k, j)); [|by rewrite (of2_none _ _ A)]. destruct (of2_some _ _ _ A) as (q & -> & ?). exact (zk_del _ _ k j L).
Qed.
Lemma zk_flip s t v j sp k : zk s t -> both zk (flip_bitmap s v j sp k) (flip_bitmap t v j sp k).
Proof.
  intros (T & -> & H). unfold flip_bitmap. apply both_eq; [done|]. intros [c b] _. change (bitmap_chunk (set_ticks s T) k c) with (bitmap_chunk s k c).
  destruct (negb _); cbn; [done|]. by exists T.
Qed.
Lemma zk_limit s t k lim d cur sp : zk s t -> get_closer_limit t lim d cur sp k = get_closer_limit s lim d cur sp k.
Proof. intros (T & -> & H). by apply get_closer_bitmap. Qed.

(** ** Swaps *)
Definition liq_range (p : pool) : Prop := 0 <= p_liq p <= U128MAX.
Definition pr (p q : pool) : Prop := q = p /\ liq_range p.
Definition tp (a b : tick * pool) : Prop := same_tick (fst a) (fst b) /\ pr (snd a) (snd b).
Lemma zk_cross x y p now : same_tick x y -> liq_range p -> both tp (tick_cross x p now) (tick_cross y p now).
Proof.
  intros [X SG] H. unfold tick_cross. apply both_eq; [done|]. intros pa _.
  rewrite X. cbn [t_index t_sign t_change t_gross t_price t_fox t_foy t_secs].
  assert (C : forall l, (if xorb (t_index x <=? p_tick p) (t_sign x) then add_e PoolAddTickLiquidityOverflow (p_liq p) (t_change x) else sub_e PoolSubTickLiquidityUnderflow (p_liq p) (t_change x)) = Ok l -> 0 <= l <= U128MAX).
  { intros l. unfold add_e, sub_e. destruct (xorb _ _); intros Q; apply ck_ok in Q; lia. }
  assert (Q : (if xorb (t_index x <=? p_tick p) (t_sign y) then add_e PoolAddTickLiquidityOverflow (p_liq p) (t_change x) else sub_e PoolSubTickLiquidityUnderflow (p_liq p) (t_change x)) =
     (if xorb (t_index x <=? p_tick p) (t_sign x) then add_e PoolAddTickLiquidityOverflow (p_liq p) (t_change x) else sub_e PoolSubTickLiquidityUnderflow (p_liq p) (t_change x))).
  { destruct SG as [->|Z0]; [done|]. rewrite Z0. unfold add_e, sub_e, liq_range in *.
    assert (A : forall er v, v = p_liq p -> ck er U128MAX v = Ok (p_liq p)) by (intros er v ->; by apply ck_ok).
    destruct (xorb _ _), (xorb _ _); rewrite !A by lia; done. }
  rewrite Q. eapply (both_bind (fun a b => b = a /\ 0 <= a <= U128MAX)).
  { destruct (if xorb _ (t_sign x) then _ else _) as [l| |] eqn:E; cbn; [|done|done]. split; [done|]. by apply C. }
  intros l ? [-> LR]. split; cbn; [|by split]. split; [done|]. exact SG.
Qed.
Definition tick_rel (a b : update_pool_tick) : Prop :=
  match a, b with
  | NoTick, NoTick => True
  | TickInitialized x, TickInitialized y => same_tick x y
  | TickUninitialized i, TickUninitialized j => i = j
  | _, _ => False
  end.
Definition put_rel (a b : pool * update_pool_tick * Z * Z * bool) : Prop :=
  let '(p, tk, tot, rem, cr) := a in let '(q, tk', tot', rem', cr') := b in
  pr p q /\ tick_rel tk tk' /\ tot' = tot /\ rem' = rem /\ cr' = cr.
Lemma add_fee_liq p a d f p' : add_fee p a d f = Ok p' -> liq_range p -> liq_range p'.
Proof. intros H. apply add_fee_keeps in H. unfold liq_range. destruct H as [-> _]. done. Qed.
Lemma zk_put_tick p r lim tk tk' rem by_in d now f ft : liq_range p -> tick_rel tk tk' ->
  both put_rel (pool_update_tick p r lim tk rem by_in d now f ft) (pool_update_tick p r lim tk' rem by_in d now f ft).
Proof.
  intros H T. unfold pool_update_tick.
  assert (K : match tk' with NoTick => true | _ => false end = match tk with NoTick => true | _ => false end).
  { by destruct tk, tk'. }
  rewrite K. destruct (_ || _).
  - apply both_eq; [done|]. intros j _. split_and!; done.
  - apply both_eq; [done|]. intros en _.
    eapply (both_bind (fun a b : pool * update_pool_tick * Z * Z * bool * Z => put_rel (fst a) (fst b) /\ snd a = snd b)).
    + destruct tk as [|x|j], tk' as [|y|j']; try done.
      { assert (I : t_index y = t_index x) by (cbn in T; destruct T as [T _]; rewrite T; done). rewrite I.
        destruct (negb d || en).
        -- eapply (both_bind tp).
           { pose proof (zk_cross x y p now T H) as C. unfold both in *.
             destruct (tick_cross x p now), (tick_cross y p now); cbn; done. }
           intros [x' p'] [y' q'] (A & B). split; [|done]. split_and!; done.
        -- destruct (negb (rem =? 0)); [|done]. destruct by_in; [|done].
           eapply (both_bind pr). { destruct (add_fee p rem d f) eqn:E; cbn; try done. split; [done|]. by eapply add_fee_liq. }
           intros p' q' H'. done. }
    + intros [[[[[p1 tk1] tot1] rem1] cr1] ix1] [[[[[q1 tk2] tot2] rem2] cr2] ix2] ((H1 & T1 & -> & -> & ->) & I).
      cbn in I. subst. destruct H1 as [-> H1]. split_and!; done.
Qed.
Definition wr (w v : swap_state) : Prop :=
  pr (sw_pool w) (sw_pool v) /\ sw_remaining v = sw_remaining w /\ sw_in v = sw_in w /\ sw_out v = sw_out w /\
  sw_fee v = sw_fee w /\ Forall2 same_tick (sw_ticks w) (sw_ticks v).
Lemma zk_iter s t now k d b lim tl w v : zk s t -> wr w v ->
  both wr (swap_iter s now k d b lim tl w) (swap_iter t now k d b lim tl v).
Proof.
  intros L ([E H] & E1 & E2 & E3 & E4 & F). unfold swap_iter. rewrite (zk_limit _ _ _ _ _ _ _ L).
  replace (st_config t) with (st_config s) by (destruct L as (T & -> & _); done).
  rewrite E, E1, E2, E3, E4.
  apply both_eq; [done|]. intros [sl li] _. do 3 (apply both_eq; [done|]; intros ? _).
  apply both_eq; [done|]. intros p AF. pose proof (add_fee_liq _ _ _ _ _ AF H) as H1. do 3 (apply both_eq; [done|]; intros ? _).
  cbn [p_price p_set_price]. destruct (_ && _); [done|].
  eapply (both_bind tick_rel).
  { destruct li as [[j []]|]; try done. eapply both_bind; [by apply zk_get_tick|]. done. }
  intros tk tk' T. eapply both_bind; [apply zk_put_tick; [exact H1|done]|].
  intros [[[[p1 tk1] tot1] rem1] cr1] [[[[q1 tk2] tot2] rem2] cr2] ([H2 H3] & T2 & -> & -> & ->). subst q1.
  apply both_eq; [done|]. intros tin _.
  destruct (if d then _ else _); [done|]. split_and!; try done. cbn.
  destruct tk1, tk2; try done. destruct cr1; [|done]. apply Forall2_app; [done|]. by constructor.
Qed.
Lemma zk_loop s t now k d b lim tl g : zk s t -> forall w v, wr w v ->
  both wr (swap_loop g s now k d b lim tl w) (swap_loop g t now k d b lim tl v).
Proof.
  intros L. induction g as [|g IH]; intros w v W; cbn; rewrite (proj1 (proj2 W)); destruct (_ =? _); try done.
  eapply both_bind; [by apply zk_iter|]. exact IH.
Qed.
Definition cr (a b : calc_result) : Prop :=
  cr_in b = cr_in a /\ cr_out b = cr_out a /\ cr_start b = cr_start a /\ cr_target b = cr_target a /\ cr_fee b = cr_fee a /\
  pr (cr_pool a) (cr_pool b) /\ Forall2 same_tick (cr_ticks a) (cr_ticks b).
Definition pools_range (s : store) : Prop := forall k p, st_pools s !! k = Some p -> liq_range p.
Lemma zk_calc s t g now k d a b lim : zk s t -> pools_range s ->
  both cr (calculate_swap g s now k d a b lim) (calculate_swap g t now k d a b lim).
Proof.
  intros L PR. unfold calculate_swap. destruct (a =? 0); [done|].
  replace (get_pool t k) with (get_pool s k) by (destruct L as (T & -> & _); done).
  apply both_eq; [done|]. intros p EP. assert (H : liq_range p). { unfold get_pool in EP. destruct (st_pools s !! k) eqn:Q; [|done]. apply Ok_inj in EP. subst. by eapply PR. }
  destruct (if d then _ else _); [done|]. eapply both_bind; [apply zk_loop; [exact L|]; split_and!; try done; constructor|].
  intros w v ([H1 H2] & E1 & E2 & E3 & E4 & F). rewrite E3. destruct (_ =? 0); [done|].
  split_and!; try done. cbn. by rewrite H1.
Qed.
Lemma zk_update_ticks k l l' : Forall2 same_tick l l' -> forall s t, zk s t -> both zk (update_ticks s k l) (update_ticks t k l').
Proof.
  induction 1 as [|x y l l' X F IH]; intros s t L; cbn; [done|].
  replace (t_index y) with (t_index x) by (destruct X as [X _]; rewrite X; done).
  eapply both_bind; [by apply zk_update_tick|]. auto.
Qed.
Definition zk3 {A B} (R : B -> B -> Prop) (p q : store * A * B) : Prop :=
  zk (fst (fst p)) (fst (fst q)) /\ snd (fst p) = snd (fst q) /\ R (snd p) (snd q).
Definition zk2 {A} (R : A -> A -> Prop) (p q : store * A) : Prop := zk (fst p) (fst q) /\ R (snd p) (snd q).

Lemma update_ticks_pools k l : forall s s', update_ticks s k l = Ok s' -> st_pools s' = st_pools s.
Proof.
  induction l as [|x l IH]; intros s s' H; cbn in H; [by apply Ok_inj in H; subst|]. inv_bind H as s1 E. apply IH in H. rewrite H.
  unfold update_tick in E. destruct (_ !! _); [|done]. apply Ok_inj in E. by subst.
Qed.
Definition zkp {B} (R : B -> B -> Prop) (p q : store * list out_msg * B) : Prop := zk3 R p q /\ pools_range (fst (fst p)).
Lemma zk_swap_internal e i s t k d a b lim : zk s t -> pools_range s ->
  both (zkp cr) (swap_internal e i s k d a b lim) (swap_internal e i t k d a b lim).
Proof.
  intros L PR. unfold swap_internal.
  eapply both_bind; [by apply zk_calc|]. intros r q C. pose proof C as (E1 & E2 & _ & _ & _ & [H H'] & F).
  eapply (both_bind (fun a b => zk a b /\ pools_range a)).
  { pose proof (zk_update_ticks k _ _ F s t L) as Q. unfold both in *. destruct (update_ticks s k (cr_ticks r)) as [s1| |] eqn:U, (update_ticks t k (cr_ticks q)); try done.
    split; [done|]. unfold pools_range. by rewrite (update_ticks_pools _ _ _ _ U). }
  intros s1 t1 [L1 PR1]. rewrite E1, E2, H.
  destruct d; (apply both_eq; [done|]); intros m _;
    (split; [split_and!; [by apply zk_pool|done|done]|]); intros k' p'; cbn;
    (destruct (decide (k' = k)) as [->|N]; [rewrite lookup_insert; by intros [= <-]|rewrite lookup_insert_ne by congruence; apply PR1]).
Qed.
Lemma zk_route e i hops : forall s t a, zk s t -> pools_range s ->
  both (zk3 eq) (swap_route_internal e i s a hops) (swap_route_internal e i t a hops).
Proof.
  induction hops as [|h hops IH]; intros s t a L PR; cbn [swap_route_internal]; [done|].
  eapply both_bind; [by apply zk_swap_internal|].
  intros [[s1 m1] r1] [[t1 n1] q1] ((L1 & E1 & E2) & PR1). cbn in E1, E2, L1, PR1. subst. rewrite (proj1 (proj2 E2)).
  eapply both_bind; [apply IH; [exact L1|exact PR1]|].
  intros [[s2 m2] r2] [[t2 n2] q2] (L2 & F1 & F2). cbn in F1, F2. subst. done.
Qed.

(** ** Positions *)
Lemma zk_create_tick s t now k j : zk s t -> both (zk2 same_tick) (create_tick s now k j) (create_tick t now k j).
Proof.
  intros L. unfold create_tick. apply both_eq; [done|]. intros _ _.
  replace (get_pool t k) with (get_pool s k) by (destruct L as (T & -> & _); done).
  apply both_eq; [done|]. intros p _. apply both_eq; [done|]. intros x _.
  eapply both_bind; [apply zk_add_tick; [exact L|apply same_tick_refl]|]. intros s1 t1 L1.
  eapply both_bind; [by apply zk_flip|]. intros s2 t2 L2. split; [done|apply same_tick_refl].
Qed.
Lemma zk_get_or_create s t now k j : zk s t -> both (zk2 same_tick) (get_or_create_tick s now k j) (get_or_create_tick t now k j).
Proof.
  intros L. unfold get_or_create_tick. pose proof (zk_get_tick s t k j L) as H. unfold both in H.
  destruct (get_tick s k j), (get_tick t k j); try done; by apply zk_create_tick.
Qed.
Lemma zk_positions s t m l : zk s t -> zk (set_positions s m l) (set_positions t m l).
Proof. intros (T & -> & H). by exists T. Qed.
Lemma zk_add_position s t a po : zk s t -> both zk (add_position s a po) (add_position t a po).
Proof. intros (T & -> & H). unfold add_position. apply both_eq; [done|]. intros m _. by exists T. Qed.
Lemma zk_update_position s t a ix po : zk s t -> both zk (update_position s a ix po) (update_position t a ix po).
Proof. intros (T & -> & H). unfold update_position. change (get_position_length (set_ticks s T) a) with (get_position_length s a). destruct (_ <=? _); [done|]. by exists T. Qed.
Lemma zk_remove_position s t a ix : zk s t -> both (zk2 eq) (remove_position s a ix) (remove_position t a ix).
Proof.
  intros (T & -> & H). unfold remove_position. apply both_eq; [done|].
  intros m _. cbn [st_positions set_ticks]. destruct (st_positions s !! (a, ix)) as [po|]; [|done].
  destruct (ix <? m).
  - destruct (st_positions s !! (a, m)) as [la|]; [|done]. split; [by exists T|done].
  - split; [by exists T|done].
Qed.
Lemma zk_remove_flip s t k x y : zk s t -> same_tick x y ->
  both zk (remove_tick_and_flip_bitmap s k x) (remove_tick_and_flip_bitmap t k y).
Proof.
  intros L [X _]. unfold remove_tick_and_flip_bitmap. rewrite X. cbn. destruct (negb _); [done|].
  eapply both_bind; [by apply zk_flip|]. intros. by apply zk_remove_tick.
Qed.
Lemma zt_update x y dl mx u a : same_tick x y -> 0 <= dl -> both same_tick (tick_update x dl mx u a) (tick_update y dl mx u a).
Proof.
  intros [X SG] D. unfold tick_update, calculate_new_liquidity_gross. replace (t_gross y) with (t_gross x) by (rewrite X; done).
  apply both_eq; [done|]. intros g _.
  assert (Q : update_liquidity_change y dl (xorb a u) = update_liquidity_change x dl (xorb a u)).
  { unfold update_liquidity_change. replace (t_change y) with (t_change x) by (rewrite X; done). destruct SG as [->|Z0]; [done|].
    rewrite Z0. rewrite (proj2 (Z.ltb_ge dl 0)) by lia. unfold add_p, sub_p. rewrite Z.add_0_l, Z.sub_0_r.
    destruct (t_sign y), (t_sign x), (xorb a u); cbn [xorb negb]; done. }
  rewrite Q. apply both_eq; [done|]. intros [sg c] _. rewrite X. cbn. apply same_tick_refl.
Qed.
Definition mod_rel (a b : position * pool * tick * tick * Z * Z) : Prop :=
  let '(po, p, u, l, x, y) := a in let '(po', p', u', l', x', y') := b in
  po' = po /\ p' = p /\ same_tick u u' /\ same_tick l l' /\ x' = x /\ y' = y.
Lemma st_parts x y : same_tick x y -> t_index y = t_index x /\ t_fox y = t_fox x /\ t_foy y = t_foy x /\ t_gross y = t_gross x.
Proof. intros [-> _]. done. Qed.
Lemma zk_modify po p u u' l l' dl a now sp : same_tick u u' -> same_tick l l' -> 0 <= dl ->
  both mod_rel (position_modify po p u l dl a now sp) (position_modify po p u' l' dl a now sp).
Proof.
  intros U W D. unfold position_modify. eapply both_bind; [by apply zt_update|]. intros l1 l2 W1.
  eapply both_bind; [by apply zt_update|]. intros u1 u2 U1.
  destruct (st_parts _ _ W1) as (-> & -> & -> & _). destruct (st_parts _ _ U1) as (-> & -> & -> & _).
  apply both_eq; [done|]. intros po1 _. apply both_eq; [done|]. intros [[p1 x1] y1] _. done.
Qed.
Lemma zk_create_position e i s t k l u q sl su : zk s t -> 0 <= q ->
  both (zk3 eq) (create_position e i s k l u q sl su) (create_position e i t k l u q sl su).
Proof.
  intros L Q. unfold create_position. destruct (q =? 0); [done|]. destruct (l =? u); [done|].
  replace (get_pool t k) with (get_pool s k) by (destruct L as (T & -> & _); done).
  apply both_eq; [done|]. intros p _. eapply both_bind; [by apply zk_get_or_create|]. intros [s1 x1] [t1 y1] (L1 & X1).
  eapply both_bind; [by apply zk_get_or_create|]. intros [s2 x2] [t2 y2] (L2 & X2). cbn in X1, X2.
  eapply (both_bind (fun a b => let '(po, p, l, u, x, y) := a in let '(po', p', l', u', x', y') := b in
    mod_rel (po, p, u, l, x, y) (po', p', u', l', x', y'))).
  { unfold position_create. destruct (_ || _); [done|]. rewrite (proj1 (st_parts _ _ X1)), (proj1 (st_parts _ _ X2)).
    eapply both_bind; [apply zk_modify; [exact X2|exact X1|exact Q]|].
    intros [[[[[a1 a2] a3] a4] a5] a6] [[[[[b1 b2] b3] b4] b5] b6] M. exact M. }
  intros [[[[[po p1] l1] u1] x] y] [[[[[po' p2] l2] u2] x'] y'] (-> & -> & U & W & -> & ->).
  eapply both_bind; [apply zk_add_position; by apply zk_pool|]. intros s3 t3 L3.
  rewrite (proj1 (st_parts _ _ U)), (proj1 (st_parts _ _ W)).
  eapply both_bind; [by apply zk_update_tick|]. intros s4 t4 L4.
  eapply both_bind; [by apply zk_update_tick|]. intros s5 t5 L5.
  apply both_eq; [done|]. intros m0 _. apply both_eq; [done|]. intros m1 _. done.
Qed.
Lemma zk_claim e i s t ix : zk s t -> both (zk3 eq) (claim_fee e i s ix) (claim_fee e i t ix).
Proof.
  intros L. unfold claim_fee. replace (get_position t (i_sender i) ix) with (get_position s (i_sender i) ix) by (destruct L as (T & -> & _); done).
  apply both_eq; [done|]. intros po _.
  eapply both_bind; [by apply zk_get_tick|]. intros lt lt' W. eapply both_bind; [by apply zk_get_tick|]. intros ut ut' U.
  replace (get_pool t (po_key po)) with (get_pool s (po_key po)) by (destruct L as (T & -> & _); done).
  apply both_eq; [done|]. intros p _.
  eapply (both_bind mod_rel).
  { unfold position_claim_fee. eapply both_bind; [by apply zk_modify|].
    intros [[[[[a1 a2] a3] a4] a5] a6] [[[[[b1 b2] b3] b4] b5] b6] (-> & -> & M3 & M4 & -> & ->). done. }
  intros [[[[[q p1] u1] l1] x] y] [[[[[q' p2] u2] l2] x'] y'] (-> & -> & U1 & W1 & -> & ->).
  eapply both_bind; [by apply zk_update_position|]. intros s1 t1 L1.
  rewrite (proj1 (st_parts _ _ U1)), (proj1 (st_parts _ _ W1)).
  eapply both_bind; [apply zk_update_tick; [by apply zk_pool|done]|]. intros s2 t2 L2.
  eapply both_bind; [by apply zk_update_tick|]. intros s3 t3 L3. done.
Qed.
Definition liqs_range (s : store) : Prop := forall o po, st_positions s !! o = Some po -> 0 <= po_liq po.
Lemma zk_remove e i s t ix : zk s t -> liqs_range s -> both (zk3 eq) (remove_position_exec e i s ix) (remove_position_exec e i t ix).
Proof.
  intros L LR. unfold remove_position_exec. replace (get_position t (i_sender i) ix) with (get_position s (i_sender i) ix) by (destruct L as (T & -> & _); done).
  apply both_eq; [done|]. intros po EP.
  assert (Q : 0 <= po_liq po). { unfold get_position in EP. destruct (st_positions s !! _) eqn:X; [|done]. apply Ok_inj in EP. subst. by eapply LR. }
  eapply both_bind; [by apply zk_get_tick|]. intros lt lt' W. eapply both_bind; [by apply zk_get_tick|]. intros ut ut' U.
  replace (get_pool t (po_key po)) with (get_pool s (po_key po)) by (destruct L as (T & -> & _); done).
  apply both_eq; [done|]. intros p _.
  eapply (both_bind (fun a b => let '(po, p, l, u, x, y, dl, du) := a in let '(po', p', l', u', x', y', dl', du') := b in
    mod_rel (po, p, u, l, x, y) (po', p', u', l', x', y') /\ dl' = dl /\ du' = du)).
  { unfold position_remove. eapply both_bind; [by apply zk_modify|].
    intros [[[[[a1 a2] a3] a4] a5] a6] [[[[[b1 b2] b3] b4] b5] b6] (-> & -> & M3 & M4 & -> & ->).
    do 2 (apply both_eq; [done|]; intros ? _). destruct (st_parts _ _ M3) as (_ & _ & _ & ->). destruct (st_parts _ _ M4) as (_ & _ & _ & ->). done. }
  intros [[[[[[[q p1] l1] u1] x] y] dl] du] [[[[[[[q' p2] l2] u2] x'] y'] dl'] du'] ((-> & -> & U1 & W1 & -> & ->) & -> & ->).
  rewrite (proj1 (st_parts _ _ U1)), (proj1 (st_parts _ _ W1)).
  eapply (both_bind zk); [destruct dl; [apply zk_remove_flip|apply zk_update_tick]; try apply zk_pool; done|]. intros s1 t1 L1.
  eapply (both_bind zk); [destruct du; [apply zk_remove_flip|apply zk_update_tick]; done|]. intros s2 t2 L2.
  eapply both_bind; [by apply zk_remove_position|]. intros [s3 r3] [t3 q3] (L3 & E3). cbn in E3. subst q3. done.
Qed.

(** ** Every call *)
Lemma zk_by_key s t tid : zk s t -> get_position_by_key t tid = get_position_by_key s tid.
Proof. intros (T & -> & H). done. Qed.
Lemma zk_dispatch e i s t m : zk s t -> pools_range s -> liqs_range s -> msg_typed m = true ->
  both (zk3 eq) (dispatch e i s m) (dispatch e i t m).
Proof.
  intros L PR LR MT. pose proof L as (T & -> & HT).
  assert (TN : forall r tid, both zk (transfer_nft e i s r tid) (transfer_nft e i (set_ticks s T) r tid)).
  { intros r tid. unfold transfer_nft. destruct (split_token tid) as [[a ix]|]; [|done]. destruct (negb _); [done|].
    apply both_eq; [done|]. intros po _. apply both_eq; [done|]. intros _ _.
    eapply both_bind; [by apply zk_remove_position|]. intros [s1 p1] [t1 q1] (L1 & _). by apply zk_add_position. }
  assert (AP : forall sp tid add x, both zk (update_approvals e i s sp tid add x) (update_approvals e i (set_ticks s T) sp tid add x)).
  { intros sp tid add x. unfold update_approvals. destruct (split_token tid) as [[a ix]|]; [|done].
    apply both_eq; [done|]. intros po _. apply both_eq; [done|]. intros _ _. apply both_eq; [done|]. intros l _. by exists T. }
  destruct m; cbn [dispatch msg_typed] in *.
  - unfold change_admin. cbn [st_config set_ticks]. destruct (negb _); [done|]. split_and!; [by exists T|done|done].
  - unfold withdraw_protocol_fee. apply both_eq; [done|]. intros p _. destruct (negb _); [done|]. split_and!; [by exists T|done|done].
  - unfold change_protocol_fee. cbn [st_config set_ticks]. destruct (negb _); [done|]. split_and!; [by exists T|done|done].
  - unfold change_fee_receiver. cbn [st_config set_ticks]. destruct (negb _); [done|]. apply both_eq; [done|]. intros p _. split_and!; [by exists T|done|done].
  - apply zk_create_position; [done|]. repeat (apply andb_prop in MT as [MT ?]). match goal with H : u128_ok liq = true |- _ => apply in_range_spec in H; lia end.
  - unfold swap. eapply both_bind; [by apply zk_swap_internal|].
    intros [[s1 m1] r1] [[t1 n1] q1] ((L1 & E1 & E2) & _). cbn in E1, E2. subst. destruct E2 as (E2 & E3 & _). rewrite E2, E3. done.
  - unfold swap_route. eapply both_bind; [by apply zk_route|].
    intros [[s1 m1] r1] [[t1 n1] q1] (L1 & E1 & E2). cbn in E1, E2. subst.
    apply both_eq; [done|]. intros mn _. destruct (_ <? _); done.
  - unfold transfer_position. apply both_eq; [done|]. intros po _.
    eapply both_bind; [by apply zk_remove_position|]. intros [s1 p1] [t1 q1] (L1 & _). destruct (negb _); [done|].
    eapply both_bind; [by apply zk_add_position|]. intros s2 t2 L2. done.
  - by apply zk_claim.
  - by apply zk_remove.
  - unfold create_pool. cbn [st_config st_pools set_ticks]. destruct (negb _); [done|]. apply both_eq; [done|]. intros _ _.
    apply both_eq; [done|]. intros k EK. apply both_eq; [done|]. intros _ _.
    destruct (st_pools s !! k); [done|]. apply both_eq; [done|]. intros p _. split_and!; [by exists T|done|done].
  - unfold add_fee_tier. cbn [st_config set_ticks]. destruct (negb _); [done|]. destruct (_ || _); [done|]. destruct (_ <=? _); [done|].
    split_and!; [by exists T|done|done].
  - unfold remove_fee_tier. cbn [st_config set_ticks]. destruct (negb _); [done|]. destruct (remove_first _ _); [|done].
    split_and!; [by exists T|done|done].
  - unfold handle_transfer_nft. eapply both_bind; [apply TN|]. intros s1 t1 L1. done.
  - apply zk_create_position; [done|]. repeat (apply andb_prop in MT as [MT ?]). match goal with H : u128_ok liq = true |- _ => apply in_range_spec in H; lia end.
  - unfold handle_burn. apply both_eq; [done|]. intros po _. destruct (split_token token_id) as [[a ix]|]; [|done].
    apply both_eq; [done|]. intros _ _. by apply zk_remove.
  - unfold handle_send_nft. eapply both_bind; [apply TN|]. intros s1 t1 L1. done.
  - unfold handle_approve. eapply both_bind; [apply AP|]. intros s1 t1 L1. done.
  - unfold handle_revoke. eapply both_bind; [apply AP|]. intros s1 t1 L1. done.
  - unfold handle_approve_all. cbv zeta. destruct (is_expired e _); [done|]. split_and!; [by exists T|done|done].
  - unfold handle_revoke_all. split_and!; [by exists T|done|done].
Qed.
Lemma ereach_ranges s : ereach s -> pools_range s /\ liqs_range s.
Proof.
  intros R. split.
  - intros k p H. by destruct (ereach_geo _ R _ _ H).
  - intros o po H. destruct (lq_pos _ (ereach_liq _ R) _ _ H) as [(X & _) _]. lia.
Qed.
(** the sign of a zero never makes a difference: the same call is answered alike in two stores that differ in such signs, and leaves two such stores *)
Theorem C101_invisible e i s t m : reachable s -> same_store s t ->
  match execute e i s m, execute e i t m with
  | Ok (s', ms, at'), Ok (t', ms', at'') => ms' = ms /\ at'' = at' /\ same_store s' t'
  | Err x, Err y => x = y
  | Panic, Panic => True
  | _, _ => False
  end.
Proof.
  intros R L. apply zk_same in L. destruct (ereach_ranges _ (reachable_ereach _ R)) as [PR LR].
  unfold execute. destruct (env_typed e i && msg_typed m) eqn:MT; [|done]. apply andb_prop in MT as [_ MT].
  pose proof (zk_dispatch e i s t m L PR LR MT) as H. unfold both in H.
  destruct (dispatch e i s m) as [[[s1 m1] a1]| |], (dispatch e i t m) as [[[t1 n1] b1]| |]; try done.
  destruct H as (A & B & D). cbn in *. subst. split; [done|]. split; [done|]. by apply zk_same.
Qed.

(** * Two deposits *)
(** ** The tick updates commute *)
Lemma updates_commute b L1 L2 mx up1 up2 t1 t2 v1 v2 : 0 <= t_change b -> 0 < L1 -> 0 < L2 ->
  tick_update b L1 mx up1 true = Ok t1 -> tick_update t1 L2 mx up2 true = Ok t2 ->
  tick_update b L2 mx up2 true = Ok v1 -> tick_update v1 L1 mx up1 true = Ok v2 ->
  same_tick t2 v2 /\ (up1 = up2 -> v2 = t2).
Proof.
  intros C P1 P2. unfold tick_update, calculate_new_liquidity_gross, update_liquidity_change, add_e, add_p, sub_p. cbn [negb andb].
  intros H1 H2 V1 V2. inv_bind H1 as g1 G1. inv_bind H1 as [sg1 c1] U1. apply Ok_inj in H1. subst t1. cbn [t_gross t_sign t_change t_index t_price t_fox t_foy t_secs] in *.
  inv_bind H2 as g2 G2. inv_bind H2 as [sg2 c2] U2. apply Ok_inj in H2. subst t2.
  inv_bind V1 as h1 I1. inv_bind V1 as [tg1 d1] W1. apply Ok_inj in V1. subst v1. cbn [t_gross t_sign t_change t_index t_price t_fox t_foy t_secs] in *.
  inv_bind V2 as h2 I2. inv_bind V2 as [tg2 d2] W2. apply Ok_inj in V2. subst v2.
  assert (G : h2 = g2).
  { inv_bind G1 as a1 A1. inv_bind G2 as a2 A2. inv_bind I1 as b1 B1. inv_bind I2 as b2 B2. apply ck_ok in A1, A2, B1, B2.
    destruct (mx <=? a1); [done|]. destruct (mx <=? a2); [done|]. destruct (mx <=? b1); [done|]. destruct (mx <=? b2); [done|].
    apply Ok_inj in G1, G2, I1, I2. lia. }
  assert (Q : d2 = c2 /\ (tg2 = sg2 \/ c2 = 0) /\ (up1 = up2 -> tg2 = sg2)).
  { clear G1 G2 I1 I2. destruct (t_sign b) eqn:SG, up1, up2; cbn [xorb negb] in *;
      repeat match goal with
      | H : context [?a <? ?b] |- _ => destruct (Z.ltb_spec a b); cbn [xorb negb] in *
      | H : context [let* _ := ?m in _] |- _ => let A := fresh "A" in let x := fresh "x" in inv_bind H as x A; apply ckp_ok in A
      | H : Ok _ = Ok _ |- _ => apply Ok_inj in H; injection H as <- <-; cbn [xorb negb] in *
      end; (split; [lia|]); (split; [first [left; reflexivity | right; lia | exfalso; lia]|intros; first [discriminate | reflexivity | exfalso; lia]]). }
  destruct Q as (-> & S1 & S2). subst h2. split; [split; [done|]; cbn; tauto|]. intros E. by rewrite (S2 E).
Qed.

(** ** The bitmap *)
Definition raise (s : store) (k : pool_key) (j : Z) (bm : gmap (pool_key * Z) Z) : gmap (pool_key * Z) Z :=
  match st_ticks s !! (k, j) with
  | Some _ => bm
  | None => <[(k, bit_index (spacing k) j / 64) := Z.lor (default 0 (bm !! (k, bit_index (spacing k) j / 64))) (2 ^ (bit_index (spacing k) j mod 64))]> bm
  end.
Lemma init_raise s k j bm bm' : 1 <= spacing k -> init_bitmap s k j bm bm' -> bm' = raise s k j bm.
Proof.
  intros S1. unfold init_bitmap, raise. destruct (st_ticks s !! (k, j)); [done|]. intros (s' & F & ->).
  apply flip_bitmap_ok in F; [|done]. destruct F as (LG & B & ->). cbn [st_bitmap set_bitmap]. f_equal.
  unfold bitmap_chunk, bit_set in *. cbn [st_bitmap set_bitmap] in *. unfold bitmap_chunk in B. cbn [st_bitmap set_bitmap] in B.
  pose proof (Z.mod_pos_bound (bit_index (spacing k) j) 64 ltac:(lia)) as MB.
  set (v := default 0 _) in *. set (b := bit_index _ _ mod 64) in *. cbn in B.
  apply Z.bits_inj'. intros n N. rewrite Z.lxor_spec, Z.lor_spec.
  destruct (Z.eq_dec n b) as [->|NE]; [rewrite B, Z.pow2_bits_true by lia; done|].
  rewrite Z.pow2_bits_false by lia. by destruct (Z.testbit v n).
Qed.
Lemma raise_twice s k j bm : raise s k j (raise s k j bm) = raise s k j bm.
Proof.
  unfold raise. destruct (st_ticks s !! (k, j)); [done|]. rewrite lookup_insert. cbn [default]. rewrite insert_insert.
  unfold default, id. by rewrite <- Z.lor_assoc, Z.lor_diag.
Qed.
Lemma raise_swap s k j j' bm : raise s k j (raise s k j' bm) = raise s k j' (raise s k j bm).
Proof.
  unfold raise. destruct (st_ticks s !! (k, j)), (st_ticks s !! (k, j')); try done.
  set (c := bit_index _ j / 64). set (c' := bit_index _ j' / 64). set (w := 2 ^ (_ mod 64)). set (w' := 2 ^ (_ mod 64)).
  destruct (decide (c = c')) as [->|N].
  - rewrite !lookup_insert, !insert_insert. unfold default, id. f_equal. rewrite <- !Z.lor_assoc. f_equal. apply Z.lor_comm.
  - rewrite !(lookup_insert_ne bm) by congruence. apply insert_commute. congruence.
Qed.

(** ** What a deposit leaves of the ticks *)
Section Steps.
Context (k : pool_key).
Let mx := calculate_max_liquidity_per_tick (spacing k).
(** what a deposit makes of the tick at [j] *)
Definition step (lower upper L j : Z) (b t : tick) : Prop :=
  if decide (j = lower) then tick_update b L mx false true = Ok t
  else if decide (j = upper) then tick_update b L mx true true = Ok t else t = b.
Lemma steps_commute l1 u1 L1 l2 u2 L2 j b t1 t2 v1 v2 : 0 <= t_change b -> 0 < L1 -> 0 < L2 ->
  step l1 u1 L1 j b t1 -> step l2 u2 L2 j t1 t2 -> step l2 u2 L2 j b v1 -> step l1 u1 L1 j v1 v2 ->
  same_tick t2 v2 /\ (u1 <> l2 -> u2 <> l1 -> v2 = t2).
Proof.
  unfold step. intros C P1 P2.
  assert (SAME : forall up up' t1 t2 v1 v2, (up <> up' -> u1 = l2 \/ u2 = l1) -> tick_update b L1 mx up true = Ok t1 -> tick_update t1 L2 mx up' true = Ok t2 ->
    tick_update b L2 mx up' true = Ok v1 -> tick_update v1 L1 mx up true = Ok v2 -> same_tick t2 v2 /\ (u1 <> l2 -> u2 <> l1 -> v2 = t2)).
  { intros up up' x1 x2 y1 y2 D A1 A2 B1 B2. destruct (updates_commute _ _ _ _ _ _ _ _ _ _ C P1 P2 A1 A2 B1 B2) as [S E]. split; [done|].
    intros N1 N2. apply E. destruct up, up'; try done; exfalso; destruct D; done. }
  assert (ONE : forall x y : tick, x = y -> same_tick x y /\ (u1 <> l2 -> u2 <> l1 -> y = x)) by (intros x ? <-; split; [apply same_tick_refl|done]).
  destruct (decide (j = l1)) as [J1|J1], (decide (j = l2)) as [J2|J2].
  - apply SAME. done.
  - destruct (decide (j = u2)) as [K2|K2]; [apply SAME; right; congruence|]. intros A1 -> -> B2. apply ONE. congruence.
  - destruct (decide (j = u1)) as [K1|K1]; [apply SAME; left; congruence|]. intros -> A2 A1 ->. apply ONE. congruence.
  - destruct (decide (j = u1)) as [K1|K1], (decide (j = u2)) as [K2|K2].
    + apply SAME. done.
    + intros A1 -> -> B2. apply ONE. congruence.
    + intros -> A2 A1 ->. apply ONE. congruence.
    + intros -> -> -> ->. by apply ONE.
Qed.
Lemma step_keeps l u L j b t : step l u L j b t -> t_index t = t_index b /\ t_fox t = t_fox b /\ t_foy t = t_foy b.
Proof. unfold step. destruct (decide _); [apply fog_update|]. destruct (decide _); [apply fog_update|]. by intros ->. Qed.

(** a deposit, as far as it matters here *)
Record laid (e : env) (i : msg_info) (s : store) (lower upper L : Z) (s' : store) : Prop := {
  ld_ticks : forall k' j, st_ticks s' !! (k', j) = st_ticks s !! (k', j) \/ (k' = k /\ (j = lower \/ j = upper));
  ld_step : forall p j, st_pools s !! k = Some p -> j = lower \/ j = upper ->
    exists b t, stored_or_new s (e_millis e) k p j b /\ step lower upper L j b t /\ st_ticks s' !! (k, j) = Some t;
  ld_bm : st_bitmap s' = raise s k upper (raise s k lower (st_bitmap s));
  ld_pool : forall p, st_pools s !! k = Some p -> st_pools s' = <[k := mark_pool p (e_millis e) lower upper L]> (st_pools s);
  ld_pos : forall p lt ut, st_pools s !! k = Some p -> stored_or_new s (e_millis e) k p lower lt -> stored_or_new s (e_millis e) k p upper ut ->
    st_positions s' = <[(i_sender i, plen s (i_sender i)) := mkPosition k L lower upper (inside_x p lt ut) (inside_y p lt ut) (e_height e) 0 0 []]> (st_positions s);
  ld_fresh : st_positions s !! (i_sender i, plen s (i_sender i)) = None;
  ld_len : st_poslen s' = <[i_sender i := plen s (i_sender i) + 1]> (st_poslen s);
  ld_rest : st_config s' = st_config s /\ st_operators s' = st_operators s;
  ld_some : is_Some (st_pools s !! k);
  ld_order : lower < upper
}.
Lemma lay e i s lower upper L sl su s' ms at' : ereach s -> 0 <= L <= U128MAX ->
  create_position e i s k lower upper L sl su = Ok (s', ms, at') -> laid e i s lower upper L s'.
Proof.
  intros R HL H. apply create_raw in H; [|done..]. cbv zeta in H.
  destruct H as (p & lt & ut & lt' & ut' & bm1 & bm2 & P & O & (Sl & Tl & Ul) & (Su & Tu & Uu) & B1 & B2 & FR & ->).
  destruct (kv_tier _ (ereach_pools _ R _ _ P)) as [S1 _].
  assert (NE : (k, upper) <> (k, lower)) by (intros X; injection X; lia).
  constructor; cbn.
  - intros k' j. destruct (decide ((k', j) = (k, upper))) as [E|N1]; [injection E as -> ->; auto|].
    destruct (decide ((k', j) = (k, lower))) as [E|N2]; [injection E as -> ->; auto|]. left. by rewrite !lookup_insert_ne by done.
  - intros q j Q J. rewrite P in Q. injection Q as <-. unfold step. destruct J as [-> | ->].
    + exists lt, lt'. split; [done|]. rewrite decide_True by done. split; [done|]. rewrite lookup_insert_ne by done. apply lookup_insert.
    + exists ut, ut'. split; [done|]. rewrite decide_False by lia. rewrite decide_True by done. split; [done|]. apply lookup_insert.
  - rewrite <- (init_raise _ _ _ _ _ (proj1 S1) B1). apply init_raise; [lia|done].
  - intros q Q. rewrite P in Q. by injection Q as <-.
  - intros q lt0 ut0 Q A B. rewrite P in Q. injection Q as <-. by rewrite (stored_fun _ _ _ _ _ _ _ Sl A), (stored_fun _ _ _ _ _ _ _ Su B).
  - done.
  - done.
  - done.
  - by exists p.
  - done.
Qed.
(** ticks seen through a deposit *)
Lemma create_mark p now lower upper L j : tick_create j (mark_pool p now lower upper L) now = tick_create j p now.
Proof. reflexivity. Qed.
Lemma seen e i s lower upper L s' p j t : laid e i s lower upper L s' -> st_pools s !! k = Some p ->
  stored_or_new s' (e_millis e) k (mark_pool p (e_millis e) lower upper L) j t ->
  exists b, stored_or_new s (e_millis e) k p j b /\ step lower upper L j b t.
Proof.
  intros D P H. destruct (decide (j = lower \/ j = upper)) as [J|J].
  - destruct (ld_step _ _ _ _ _ _ _ D p j P J) as (b & t' & B & S & T). exists b. split; [done|].
    destruct H as [H|[H _]]; [|congruence]. rewrite T in H. by injection H as <-.
  - assert (N : st_ticks s' !! (k, j) = st_ticks s !! (k, j)) by (destruct (ld_ticks _ _ _ _ _ _ _ D k j) as [E|[_ E]]; [done|contradiction]).
    exists t. split; [|unfold step; rewrite !decide_False by tauto; done].
    unfold stored_or_new in *. rewrite N in H. exact H.
Qed.
(** two deposits *)
Record laid2 (e : env) (i1 i2 : msg_info) (s : store) (p : pool) (l1 u1 L1 l2 u2 L2 : Z) (s2 : store) : Prop := {
  l2_tick : forall k' j, (st_ticks s2 !! (k', j) = st_ticks s !! (k', j) /\ ~ (k' = k /\ (j = l1 \/ j = u1 \/ j = l2 \/ j = u2))) \/
     (k' = k /\ (j = l1 \/ j = u1 \/ j = l2 \/ j = u2) /\ exists b m t, stored_or_new s (e_millis e) k p j b /\ step l1 u1 L1 j b m /\ step l2 u2 L2 j m t /\ st_ticks s2 !! (k', j) = Some t);
  l2_bm : st_bitmap s2 = raise s k u2 (raise s k l2 (raise s k u1 (raise s k l1 (st_bitmap s))));
  l2_pool : st_pools s2 = <[k := mark_pool (mark_pool p (e_millis e) l1 u1 L1) (e_millis e) l2 u2 L2]> (st_pools s);
  l2_pos : forall a1 b1 a2 b2, stored_or_new s (e_millis e) k p l1 a1 -> stored_or_new s (e_millis e) k p u1 b1 ->
     stored_or_new s (e_millis e) k p l2 a2 -> stored_or_new s (e_millis e) k p u2 b2 ->
     st_positions s2 = <[(i_sender i2, plen s (i_sender i2)) := mkPosition k L2 l2 u2 (inside_x p a2 b2) (inside_y p a2 b2) (e_height e) 0 0 []]>
       (<[(i_sender i1, plen s (i_sender i1)) := mkPosition k L1 l1 u1 (inside_x p a1 b1) (inside_y p a1 b1) (e_height e) 0 0 []]> (st_positions s));
  l2_len : st_poslen s2 = <[i_sender i2 := plen s (i_sender i2) + 1]> (<[i_sender i1 := plen s (i_sender i1) + 1]> (st_poslen s));
  l2_rest : st_config s2 = st_config s /\ st_operators s2 = st_operators s;
  l2_bases : forall j, j = l1 \/ j = u1 \/ j = l2 \/ j = u2 -> exists b, stored_or_new s (e_millis e) k p j b
}.
Lemma lay2 e i1 i2 s p l1 u1 L1 l2 u2 L2 s1 s2 : i_sender i1 <> i_sender i2 -> st_pools s !! k = Some p ->
  laid e i1 s l1 u1 L1 s1 -> laid e i2 s1 l2 u2 L2 s2 -> laid2 e i1 i2 s p l1 u1 L1 l2 u2 L2 s2.
Proof.
  intros NE P D1 D2. set (p1 := mark_pool p (e_millis e) l1 u1 L1).
  assert (P1 : st_pools s1 !! k = Some p1) by (rewrite (ld_pool _ _ _ _ _ _ _ D1 p P); apply lookup_insert).
  assert (PL : plen s1 (i_sender i2) = plen s (i_sender i2)) by (unfold plen, get_position_length; rewrite (ld_len _ _ _ _ _ _ _ D1), lookup_insert_ne by done; done).
  assert (BASE : forall j, j = l1 \/ j = u1 \/ j = l2 \/ j = u2 -> exists b, stored_or_new s (e_millis e) k p j b).
  { assert (A1 : forall j, j = l1 \/ j = u1 -> exists b, stored_or_new s (e_millis e) k p j b)
      by (intros j J; destruct (ld_step _ _ _ _ _ _ _ D1 p j P J) as (b & t & B & _); eauto).
    assert (A2 : forall j, j = l2 \/ j = u2 -> exists b, stored_or_new s (e_millis e) k p j b).
    { intros j J. destruct (ld_step _ _ _ _ _ _ _ D2 p1 j P1 J) as (b & t & B & _). destruct (seen _ _ _ _ _ _ _ _ _ _ D1 P B) as (b0 & B0 & _). eauto. }
    intros j [J|[J|[J|J]]]; auto. }
  constructor.
  - intros k' j. destruct (decide (k' = k /\ (j = l1 \/ j = u1 \/ j = l2 \/ j = u2))) as [[-> J]|N].
    + right. split; [done|]. split; [done|].
      destruct (decide (j = l2 \/ j = u2)) as [J2|J2].
      * destruct (ld_step _ _ _ _ _ _ _ D2 p1 j P1 J2) as (m & t & M & S & T). destruct (seen _ _ _ _ _ _ _ _ _ _ D1 P M) as (b & B & S'). by exists b, m, t.
      * destruct (ld_step _ _ _ _ _ _ _ D1 p j P ltac:(tauto)) as (b & t & B & S & T). exists b, t, t. split; [done|]. split; [done|].
        split; [unfold step; rewrite !decide_False by tauto; done|]. destruct (ld_ticks _ _ _ _ _ _ _ D2 k j) as [-> |[_ E]]; [done|contradiction].
    + left. split; [|done]. destruct (ld_ticks _ _ _ _ _ _ _ D2 k' j) as [-> |E]; [|tauto]. destruct (ld_ticks _ _ _ _ _ _ _ D1 k' j) as [-> |E]; [done|tauto].
  - rewrite (ld_bm _ _ _ _ _ _ _ D2), (ld_bm _ _ _ _ _ _ _ D1).
    assert (RS : forall j bm, raise s k u1 (raise s k l1 bm) = bm -> raise s1 k j bm = raise s k j bm).
    { intros j bm F. destruct (ld_ticks _ _ _ _ _ _ _ D1 k j) as [E|[_ J]]; [unfold raise; by rewrite E|].
      destruct (ld_step _ _ _ _ _ _ _ D1 p j P J) as (b & t & _ & _ & T).
      assert (X : raise s1 k j bm = bm) by (unfold raise at 1; by rewrite T). rewrite X, <- F.
      destruct J as [-> | ->]; [rewrite (raise_swap s k l1 u1), raise_twice; done|by rewrite raise_twice]. }
    assert (F0 : raise s k u1 (raise s k l1 (raise s k u1 (raise s k l1 (st_bitmap s)))) = raise s k u1 (raise s k l1 (st_bitmap s))).
    { by rewrite (raise_swap s k l1 u1), raise_twice, raise_twice. }
    rewrite (RS l2) by done. rewrite (RS u2); [done|].
    by rewrite (raise_swap s k l1 l2), (raise_swap s k u1 l2), F0.
  - rewrite (ld_pool _ _ _ _ _ _ _ D2 p1 P1), (ld_pool _ _ _ _ _ _ _ D1 p P). by rewrite insert_insert.
  - intros a1 b1 a2 b2 A1 B1 A2 B2.
    destruct (ld_step _ _ _ _ _ _ _ D2 p1 l2 P1 ltac:(auto)) as (x2 & _ & X2 & _). destruct (ld_step _ _ _ _ _ _ _ D2 p1 u2 P1 ltac:(auto)) as (y2 & _ & Y2 & _).
    rewrite (ld_pos _ _ _ _ _ _ _ D2 p1 x2 y2 P1 X2 Y2), (ld_pos _ _ _ _ _ _ _ D1 p a1 b1 P A1 B1), PL.
    destruct (seen _ _ _ _ _ _ _ _ _ _ D1 P X2) as (x & X & XS). destruct (seen _ _ _ _ _ _ _ _ _ _ D1 P Y2) as (y & Y & YS).
    rewrite (stored_fun _ _ _ _ _ _ _ X A2) in *. rewrite (stored_fun _ _ _ _ _ _ _ Y B2) in *.
    destruct (step_keeps _ _ _ _ _ _ XS) as (I1 & F1 & G1). destruct (step_keeps _ _ _ _ _ _ YS) as (I2 & F2 & G2).
    assert (GX : inside_x p1 x2 y2 = inside_x p x y) by (unfold inside_x, p1; cbn [p_tick p_fgx mark_pool p_set_liq p_set_last]; by rewrite I1, F1, I2, F2).
    assert (GY : inside_y p1 x2 y2 = inside_y p x y) by (unfold inside_y, p1; cbn [p_tick p_fgy mark_pool p_set_liq p_set_last]; by rewrite I1, G1, I2, G2).
    by rewrite GX, GY.
  - by rewrite (ld_len _ _ _ _ _ _ _ D2), (ld_len _ _ _ _ _ _ _ D1), PL.
  - destruct (ld_rest _ _ _ _ _ _ _ D1) as [<- <-]. apply D2.
  - exact BASE.
Qed.
End Steps.

(** ** Success in one order is success in the other *)
Lemma ending_after k e i s lower upper L s' j : laid k e i s lower upper L s' ->
  ending_at s' k j = ending_at s k j + ((if lower =? j then L else 0) + (if upper =? j then L else 0)).
Proof.
  intros D. destruct (ld_some _ _ _ _ _ _ _ _ D) as [p P].
  destruct (ld_step _ _ _ _ _ _ _ _ D p lower P ltac:(auto)) as (a & _ & A & _). destruct (ld_step _ _ _ _ _ _ _ _ D p upper P ltac:(auto)) as (b & _ & B & _).
  unfold ending_at. rewrite (ld_pos _ _ _ _ _ _ _ _ D p a b P A B), psum_new by apply D. unfold gross_at at 1, at_key. cbn [po_key po_lower po_upper po_liq].
  rewrite decide_True by done. lia.
Qed.
Lemma plen_after k e i s lower upper L s' a : laid k e i s lower upper L s' -> a <> i_sender i -> plen s' a = plen s a.
Proof. intros D N. unfold plen, get_position_length. rewrite (ld_len _ _ _ _ _ _ _ _ D), lookup_insert_ne by done. done. Qed.
Lemma begun_after k e i s lower upper L s' now : laid k e i s lower upper L s' -> begun now s -> begun now s'.
Proof.
  intros D B k0 p0. destruct (ld_some _ _ _ _ _ _ _ _ D) as [p P]. rewrite (ld_pool _ _ _ _ _ _ _ _ D p P).
  destruct (decide (k0 = k)) as [->|N]; [rewrite lookup_insert; intros [= <-]; exact (B _ _ P)|rewrite lookup_insert_ne by congruence; apply B].
Qed.
Lemma create_event e i s k lower upper L sl su s' ms at' p : ereach s -> 0 <= L <= U128MAX -> st_pools s !! k = Some p ->
  create_position e i s k lower upper L sl su = Ok (s', ms, at') -> at' = position_event L lower upper (p_price p).
Proof.
  intros R HL P H. pose proof (create_raw _ _ _ _ _ _ _ _ _ _ _ _ R HL H) as Q. cbv zeta in Q.
  destruct Q as (q & lt0 & ut0 & lt1 & ut1 & bma & bmb & P' & _ & _ & _ & _ & _ & _ & S).
  apply create_position_inv in H; [|by apply ereach_indexed].
  destruct H as (p0 & lt & ut & po & p' & lt' & ut' & x & y & bm1 & bm2 & m0 & m1 & _ & _ & P0 & _ & _ & _ & _ & _ & _ & _ & _ & _ & -> & S').
  rewrite P in P', P0. injection P' as <-. injection P0 as <-. rewrite S in S'.
  assert (X : Some (mark_pool p (e_millis e) lower upper L) = Some p').
  { rewrite <- (lookup_insert (st_pools s) k p'), <- (lookup_insert (st_pools s) k (mark_pool _ _ _ _ _)). injection S' as -> _. done. }
  injection X as <-. done.
Qed.
Lemma deposits_exchange e i1 i2 s k l1 u1 L1 sl1 su1 l2 u2 L2 sl2 su2 s1 m1 a1 s2 m2 a2 :
  ereach s -> ereach s1 -> (forall t m a, create_position e i2 s k l2 u2 L2 sl2 su2 = Ok (t, m, a) -> ereach t) ->
  begun (e_millis e) s -> env_typed e i1 = true -> env_typed e i2 = true -> i_sender i1 <> i_sender i2 ->
  0 <= L1 <= U128MAX -> 0 <= L2 <= U128MAX ->
  create_position e i1 s k l1 u1 L1 sl1 su1 = Ok (s1, m1, a1) -> create_position e i2 s1 k l2 u2 L2 sl2 su2 = Ok (s2, m2, a2) ->
  exists t1 t2, create_position e i2 s k l2 u2 L2 sl2 su2 = Ok (t1, m2, a2) /\ create_position e i1 t1 k l1 u1 L1 sl1 su1 = Ok (t2, m1, a1) /\
    same_store s2 t2 /\ (u1 <> l2 -> u2 <> l1 -> t2 = s2).
Proof.
  intros R R1 RT BG ET1 ET2 NE H1 H2 C1 C2.
  pose proof (lay _ _ _ _ _ _ _ _ _ _ _ _ R H1 C1) as D1. pose proof (lay _ _ _ _ _ _ _ _ _ _ _ _ R1 H2 C2) as D2.
  destruct (deposit_inv _ _ _ _ _ _ _ _ _ _ _ _ R H1 C1) as [(p & P & G1 & O1 & VL1 & VU1 & SL1 & EL1 & EU1 & PL1 & RM1 & CX1 & CY1) M1].
  destruct (deposit_inv _ _ _ _ _ _ _ _ _ _ _ _ R1 H2 C2) as [(p1 & P1 & G2 & O2 & VL2 & VU2 & SL2 & EL2 & EU2 & PL2 & RM2 & CX2 & CY2) M2].
  specialize (M1 p P). specialize (M2 p1 P1).
  pose proof (create_event _ _ _ _ _ _ _ _ _ _ _ _ _ R H1 P C1) as A1. pose proof (create_event _ _ _ _ _ _ _ _ _ _ _ _ _ R1 H2 P1 C2) as A2.
  assert (P1' : p1 = mark_pool p (e_millis e) l1 u1 L1) by (rewrite (ld_pool _ _ _ _ _ _ _ _ D1 p P), lookup_insert in P1; by injection P1 as <-).
  rewrite (ending_after _ _ _ _ _ _ _ _ _ D1) in EL2. rewrite (ending_after _ _ _ _ _ _ _ _ _ D1) in EU2.
  assert (N1 : forall b : bool, 0 <= (if b then L1 else 0)) by (intros []; lia).
  assert (OK2 : is_ok (create_position e i2 s k l2 u2 L2 sl2 su2) = true).
  { apply deposit_iff; [done|done|done|done|]. exists p. subst p1. split; [done|]. do 5 (split; [done|]).
    split. { pose proof (N1 (l1 =? l2)); pose proof (N1 (u1 =? l2)); lia. }
    split. { pose proof (N1 (l1 =? u2)); pose proof (N1 (u1 =? u2)); lia. }
    split. { intros IR. specialize (PL2 IR). cbn [p_liq mark_pool p_set_liq] in PL2. pose proof (N1 (in_range_tick l1 u1 (p_tick p))). lia. }
    split; [|done]. unfold room in *. by rewrite (plen_after _ _ _ _ _ _ _ _ _ D1) in RM2 by done. }
  apply is_ok_ex in OK2 as [[[t1 m2'] a2'] E2]. pose proof (RT _ _ _ E2) as R2.
  pose proof (lay _ _ _ _ _ _ _ _ _ _ _ _ R H2 E2) as D2'.
  pose proof (proj2 (deposit_inv _ _ _ _ _ _ _ _ _ _ _ _ R H2 E2) p P) as M2'. pose proof (create_event _ _ _ _ _ _ _ _ _ _ _ _ _ R H2 P E2) as A2'.
  set (q1 := mark_pool p (e_millis e) l2 u2 L2).
  assert (Q1 : st_pools t1 !! k = Some q1) by (rewrite (ld_pool _ _ _ _ _ _ _ _ D2' p P); apply lookup_insert).
  assert (OK1 : is_ok (create_position e i1 t1 k l1 u1 L1 sl1 su1) = true).
  { apply deposit_iff; [done|done|by eapply begun_after|done|]. exists q1. split; [done|]. do 5 (split; [done|]).
    rewrite !(ending_after _ _ _ _ _ _ _ _ _ D2').
    assert (F : forall j, j = l1 \/ j = u1 -> ending_at s k j + ((if l2 =? j then L2 else 0) + (if u2 =? j then L2 else 0)) + L1 < (2 ^ 128 - 1) / (443637 / ft_spacing (pk_tier k))).
    { intros j J. assert (B0 : ending_at s k j + L1 < (2 ^ 128 - 1) / (443637 / ft_spacing (pk_tier k))) by (destruct J as [-> | ->]; done).
      assert (W : L1 <= (if l1 =? j then L1 else 0) + (if u1 =? j then L1 else 0)).
      { pose proof (N1 (l1 =? j)); pose proof (N1 (u1 =? j)). destruct J as [-> | ->]; rewrite Z.eqb_refl in *; lia. }
      destruct (Z.eqb_spec l2 j) as [X|X].
      - rewrite <- X in *. rewrite (proj2 (Z.eqb_neq u2 l2)) by lia. lia.
      - destruct (Z.eqb_spec u2 j) as [Y|Y]; [|lia]. rewrite <- Y in *. lia. }
    split; [apply F; auto|]. split; [apply F; auto|].
    split; [|split; [unfold room; rewrite (plen_after _ _ _ _ _ _ _ _ _ D2') by done; exact RM1|done]].
    intros IR. unfold q1 in *. rewrite P1' in PL2. cbn [p_liq p_tick mark_pool p_set_liq p_set_last] in *. specialize (PL1 IR). unfold in_range_tick in *.
    destruct (Z.leb_spec l2 (p_tick p)); cbn [andb]; [|lia]. destruct (Z.ltb_spec (p_tick p) u2); [|lia].
    rewrite (proj2 (Z.leb_le l1 _)), (proj2 (Z.ltb_lt _ u1)) in PL2 by lia. cbn [andb] in PL2. specialize (PL2 ltac:(lia)). lia. }
  apply is_ok_ex in OK1 as [[[t2 m1'] a1'] E1].
  pose proof (lay _ _ _ _ _ _ _ _ _ _ _ _ R2 H1 E1) as D1'.
  pose proof (proj2 (deposit_inv _ _ _ _ _ _ _ _ _ _ _ _ R2 H1 E1) q1 Q1) as M1'. pose proof (create_event _ _ _ _ _ _ _ _ _ _ _ _ _ R2 H1 Q1 E1) as A1'.
  exists t1, t2. split; [rewrite E2; do 2 f_equal; [f_equal|]; [by rewrite M2', M2, P1'|by rewrite A2', A2, P1']|].
  split; [rewrite E1; do 2 f_equal; [f_equal|]; [by rewrite M1', M1|by rewrite A1', A1]|].
  pose proof (lay2 _ _ _ _ _ _ _ _ _ _ _ _ _ _ NE P D1 D2) as X. pose proof (lay2 _ _ _ _ _ _ _ _ _ _ _ _ _ _ (not_eq_sym NE) P D2' D1') as Y.
  destruct (l2_bases _ _ _ _ _ _ _ _ _ _ _ _ _ X l1 ltac:(auto)) as [b1 B1]. destruct (l2_bases _ _ _ _ _ _ _ _ _ _ _ _ _ X u1 ltac:(auto)) as [c1 K1].
  destruct (l2_bases _ _ _ _ _ _ _ _ _ _ _ _ _ X l2 ltac:(auto)) as [b2 B2]. destruct (l2_bases _ _ _ _ _ _ _ _ _ _ _ _ _ X u2 ltac:(auto 6)) as [c2 K2].
  assert (E3 : st_config t2 = st_config s2 /\ st_operators t2 = st_operators s2).
  { destruct (l2_rest _ _ _ _ _ _ _ _ _ _ _ _ _ X) as [-> ->]. apply Y. }
  assert (E4 : st_pools t2 = st_pools s2).
  { rewrite (l2_pool _ _ _ _ _ _ _ _ _ _ _ _ _ X), (l2_pool _ _ _ _ _ _ _ _ _ _ _ _ _ Y). f_equal. unfold mark_pool. destruct p; cbn. f_equal.
    destruct (in_range_tick _ _ _), (in_range_tick _ _ _); lia. }
  assert (E5 : st_bitmap t2 = st_bitmap s2).
  { rewrite (l2_bm _ _ _ _ _ _ _ _ _ _ _ _ _ X), (l2_bm _ _ _ _ _ _ _ _ _ _ _ _ _ Y). set (bm := st_bitmap s).
    rewrite (raise_swap s k l1 u2), (raise_swap s k u1 u2). f_equal. rewrite (raise_swap s k l1 l2), (raise_swap s k u1 l2). done. }
  assert (E6 : st_positions t2 = st_positions s2).
  { rewrite (l2_pos _ _ _ _ _ _ _ _ _ _ _ _ _ X b1 c1 b2 c2), (l2_pos _ _ _ _ _ _ _ _ _ _ _ _ _ Y b2 c2 b1 c1) by done. apply insert_commute. congruence. }
  assert (E7 : st_poslen t2 = st_poslen s2).
  { rewrite (l2_len _ _ _ _ _ _ _ _ _ _ _ _ _ X), (l2_len _ _ _ _ _ _ _ _ _ _ _ _ _ Y). by apply insert_commute. }
  assert (E8 : forall k' j, option_Forall2 same_tick (st_ticks s2 !! (k', j)) (st_ticks t2 !! (k', j)) /\ (u1 <> l2 -> u2 <> l1 -> st_ticks t2 !! (k', j) = st_ticks s2 !! (k', j))).
  { intros k' j. destruct (l2_tick _ _ _ _ _ _ _ _ _ _ _ _ _ X k' j) as [[-> N]|(KK & J & b & m & t & B & SM & ST & ->)],
      (l2_tick _ _ _ _ _ _ _ _ _ _ _ _ _ Y k' j) as [[-> N']|(KK' & J' & b' & m' & t' & B' & SM' & ST' & ->)].
    - split; [|done]. destruct (st_ticks s !! (k', j)); constructor. apply same_tick_refl.
    - exfalso. apply N. tauto.
    - exfalso. apply N'. tauto.
    - rewrite (stored_fun _ _ _ _ _ _ _ B B') in *.
      assert (CH : 0 <= t_change b).
      { destruct (kv_tier _ (ereach_pools _ R _ _ P)) as [S1 _]. destruct (stored_pre _ _ _ _ _ _ (ereach_liq _ R) S1 B) as [T _]. apply (tp_change _ _ _ _ T). }
      destruct (steps_commute k _ _ _ _ _ _ _ _ _ _ _ _ CH G1 G2 SM ST SM' ST') as [S E]. split; [by constructor|]. intros Z1 Z2. by rewrite E. }
  split.
  - destruct E3 as [E3 E3']. split; [done|]. split; [done|]. split; [done|]. split; [done|]. split; [done|]. split; [done|]. intros k' j. apply E8.
  - intros Z1 Z2. assert (ET : st_ticks t2 = st_ticks s2) by (apply map_eq; intros [k' j]; by apply E8).
    clear - E3 E4 E5 E6 E7 ET. destruct s2, t2. cbn in *. destruct E3. by subst.
Qed.

Lemma same_store_refl s : same_store s s.
Proof. repeat (split; [done|]). intros k j. destruct (st_ticks s !! (k, j)); constructor. apply same_tick_refl. Qed.
Lemma same_tick_trans a b c : same_tick a b -> same_tick b c -> same_tick a c.
Proof. intros [A A'] [B B']. rewrite A in B, B'. cbn in *. split; [done|]. destruct A', B'; try tauto. left. congruence. Qed.
Lemma same_store_trans a b c : same_store a b -> same_store b c -> same_store a c.
Proof.
  intros (A1 & A2 & A3 & A4 & A5 & A6 & A7) (B1 & B2 & B3 & B4 & B5 & B6 & B7).
  split; [congruence|]. split; [congruence|]. split; [congruence|]. split; [congruence|]. split; [congruence|]. split; [congruence|].
  intros k j. specialize (A7 k j). specialize (B7 k j). destruct A7 as [x y A7|]; inversion B7; subst; constructor. by eapply same_tick_trans.
Qed.

(** two deposits made in one block by two people, in one pool or in two: the second could have come first. Both get the same answers and the same
    tokens are collected; the state is the same but for the sign of a zero, and that only at a tick which is the upper end of one and the lower end of the other *)
Theorem C101_two_partial e i1 i2 s d1 k1 l1 u1 L1 d2 k2 l2 u2 L2 s1 m1 a1 s2 m2 a2 : reachable s -> begun (e_millis e) s ->
  i_sender i1 <> i_sender i2 -> deposit d1 k1 l1 u1 L1 -> deposit d2 k2 l2 u2 L2 ->
  execute e i1 s d1 = Ok (s1, m1, a1) -> execute e i2 s1 d2 = Ok (s2, m2, a2) ->
  exists t1 t2, execute e i2 s d2 = Ok (t1, m2, a2) /\ execute e i1 t1 d1 = Ok (t2, m1, a1) /\ same_store s2 t2 /\
    ((k1 = k2 -> u1 <> l2 /\ u2 <> l1) -> t2 = s2).
Proof.
  intros R BG NE D1 D2 E1 E2. destruct (decide (k1 = k2)) as [<-|NK].
  - pose proof (reach_call _ _ _ _ _ _ _ R E1) as R1.
    destruct (deposit_execute _ _ _ _ _ _ _ _ _ _ _ D1 E1) as (sl1 & su1 & C1 & T1 & ET1 & X1).
    destruct (deposit_execute _ _ _ _ _ _ _ _ _ _ _ D2 E2) as (sl2 & su2 & C2 & T2 & ET2 & X2).
    assert (MT1 : msg_typed d1 = true) by (unfold execute in E1; rewrite ET1 in E1; cbn [andb] in E1; by destruct (msg_typed d1)).
    assert (MT2 : msg_typed d2 = true) by (unfold execute in E2; rewrite ET2 in E2; cbn [andb] in E2; by destruct (msg_typed d2)).
    assert (W1 : forall t, execute e i1 t d1 = create_position e i1 t k1 l1 u1 L1 sl1 su1) by (intros t; unfold execute; rewrite ET1, MT1; destruct X1 as [-> | ->]; done).
    assert (W2 : forall t, execute e i2 t d2 = create_position e i2 t k1 l2 u2 L2 sl2 su2) by (intros t; unfold execute; rewrite ET2, MT2; destruct X2 as [-> | ->]; done).
    assert (RT : forall t m a, create_position e i2 s k1 l2 u2 L2 sl2 su2 = Ok (t, m, a) -> ereach t).
    { intros t m a X. rewrite <- W2 in X. apply reachable_ereach. exact (reach_call _ _ _ _ _ _ _ R X). }
    destruct (deposits_exchange e i1 i2 s k1 l1 u1 L1 sl1 su1 l2 u2 L2 sl2 su2 s1 m1 a1 s2 m2 a2
      (reachable_ereach _ R) (reachable_ereach _ R1) RT BG ET1 ET2 NE T1 T2 C1 C2) as (t1 & t2 & F2 & F1 & S & Q).
    exists t1, t2. rewrite W1, W2. split; [done|]. split; [done|]. split; [done|]. intros Z. destruct (Z eq_refl). auto.
  - destruct (C73_commute e i1 d1 e i2 d2 s s1 s2 m1 a1 m2 a2 E1 E2) as (t1 & F2 & F1).
    + destruct D1 as (? & ? & [-> | ->]); intros [].
    + destruct D2 as (? & ? & [-> | ->]); intros [].
    + intros k T1 T2. apply NK. destruct D1 as (? & ? & [-> | ->]), D2 as (? & ? & [-> | ->]); cbn in T1, T2; congruence.
    + intros a A1 A2. apply NE. destruct D1 as (? & ? & [-> | ->]), D2 as (? & ? & [-> | ->]); cbn in A1, A2; congruence.
    + exists t1, s2. split; [done|]. split; [done|]. split; [apply same_store_refl|done].
Qed.

(** ** Any number of deposits in any order *)
(** calls in turn, each with its sender, its messages and its event *)
Notation entry := (msg_info * exec_msg * list out_msg * list (string * Z))%type.
Inductive turns (e : env) : store -> list entry -> store -> Prop :=
| turns_nil s : turns e s [] s
| turns_cons s i m ms at' s1 xs s' : execute e i s m = Ok (s1, ms, at') -> turns e s1 xs s' -> turns e s ((i, m, ms, at') :: xs) s'.
Definition who (x : entry) : string := i_sender (fst (fst (fst x))).
Definition is_deposit (x : entry) : Prop := exists k l u L, deposit (snd (fst (fst x))) k l u L.

Lemma turns_same e xs : forall s t s', reachable s -> same_store s t -> turns e s xs s' -> exists t', turns e t xs t' /\ same_store s' t'.
Proof.
  induction xs as [|x xs IH]; intros s t s' R S H; inversion H; subst; [exists t; split; [constructor|done]|].
  match goal with X : execute _ _ _ _ = _ |- _ => rename X into E end.
  pose proof (C101_invisible e i s t m R S) as Q. rewrite E in Q. destruct (execute e i t m) as [[[t1 n] b]| |] eqn:F; try done. destruct Q as (-> & -> & S1).
  destruct (IH s1 t1 s' (reach_call _ _ _ _ _ _ _ R E) S1) as (t' & T & S2); [done|]. exists t'. split; [|done]. by econstructor.
Qed.
Lemma begun_deposit e i s m k l u L s' ms at' now : reachable s -> deposit m k l u L -> execute e i s m = Ok (s', ms, at') -> begun now s -> begun now s'.
Proof.
  intros R D E. destruct (deposit_execute _ _ _ _ _ _ _ _ _ _ _ D E) as (sl & su & C & T & _). eapply begun_after, lay; [by apply reachable_ereach|exact T|exact C].
Qed.
(** deposits made in one block by different people give everyone the same answers in whatever order they come *)
Theorem C101_order_partial e xs ys : Permutation xs ys -> forall s s', reachable s -> begun (e_millis e) s ->
  Forall is_deposit xs -> NoDup (who <$> xs) -> turns e s xs s' -> exists t', turns e s ys t' /\ same_store s' t'.
Proof.
  induction 1 as [|x xs ys P IH|x y xs|xs ys zs P1 IH1 P2 IH2]; intros s s' R BG D N H.
  - exists s'. split; [done|apply same_store_refl].
  - apply Forall_cons in D as [(k & l & u & L & DX) D]. rewrite fmap_cons in N. apply NoDup_cons in N as [_ N]. inversion H; subst. cbn in DX.
    match goal with X : execute _ _ _ _ = _ |- _ => rename X into E end.
    destruct (IH s1 s' (reach_call _ _ _ _ _ _ _ R E)) as (t' & T & S); [by eapply begun_deposit|done|done|done|]. exists t'. split; [by econstructor|done].
  - apply Forall_cons in D as [(k1 & l1 & u1 & L1 & D1) D]. apply Forall_cons in D as [(k2 & l2 & u2 & L2 & D2) D].
    rewrite !fmap_cons in N. apply NoDup_cons in N as [N _]. inversion H; subst.
    match goal with X : turns _ _ (_ :: _) _ |- _ => inversion X; subst end.
    match goal with A : execute e i s m = _, B : execute e _ s1 _ = _ |- _ => rename A into E1; rename B into E2 end. cbn in D1, D2.
    assert (NE : i_sender i <> i_sender i0) by (intros Q; apply N; rewrite elem_of_cons; left; done).
    destruct (C101_two_partial _ _ _ _ _ _ _ _ _ _ _ _ _ _ _ _ _ _ _ _ R BG NE D1 D2 E1 E2) as (t1 & t2 & F2 & F1 & S & _).
    pose proof (reach_call _ _ _ _ _ _ _ R E1) as R1. pose proof (reach_call _ _ _ _ _ _ _ R1 E2) as R2.
    match goal with X : turns _ _ xs s' |- _ => destruct (turns_same e xs _ t2 s' R2 S X) as (t' & T & S') end.
    exists t'. split; [|done]. econstructor; [exact F2|]. econstructor; [exact F1|done].
  - destruct (IH1 s s' R BG D N H) as (t1 & T1 & S1). destruct (IH2 s t1 R BG) as (t2 & T2 & S2); [by rewrite <- P1| |done|].
    + assert (PF : Permutation (who <$> xs) (who <$> ys)) by (by apply fmap_Permutation). by rewrite <- PF.
    + exists t2. split; [done|]. by eapply same_store_trans.
Qed.

(** * Not in everything that can be seen *)
(** The sign of a zero is stored and shown: a deposit above tick 40 and an equal one below it, in the two orders. *)
Definition od_below : exec_msg := CreatePosition v_key (-10) 40 900000000000 0 U128MAX.
Definition od_above : exec_msg := Mint v_key 40 60 900000000000 0 U128MAX.
Definition od_run : Prop :=
  match execute v_env (v_info "dan") sc0 od_below, execute v_env (v_info "eve") sc0 od_above with
  | Ok (s1, m1, a1), Ok (t1, n1, b1) =>
      match execute v_env (v_info "eve") s1 od_above, execute v_env (v_info "dan") t1 od_below with
      | Ok (s2, m2, a2), Ok (t2, n2, b2) =>
          match get_tick s2 v_key 40, get_tick t2 v_key 40 with
          | Ok x, Ok y => (t_sign x, t_change x, t_gross x) = (true, 0, 1800000000000) /\ (t_sign y, t_change y, t_gross y) = (false, 0, 1800000000000)
          | _, _ => False
          end /\
          m1 = [Cw20TransferFrom "tokenx" "dan" "self" 1906; Cw20TransferFrom "tokeny" "dan" "self" 343] /\ n2 = m1 /\
          m2 = [Cw20TransferFrom "tokenx" "eve" "self" 898] /\ n1 = m2
      | _, _ => False
      end
  | _, _ => False
  end%string.
Example ex_C101 : deposit od_below v_key (-10) 40 900000000000 /\ deposit od_above v_key 40 60 900000000000 /\ od_run.
Proof.
  split; [do 2 eexists; left; reflexivity|]. split; [do 2 eexists; right; reflexivity|].
  vm_compute. repeat split.
Qed.
Lemma sc0_begun : begun (e_millis v_env) sc0.
Proof. exact (proj1 ex_C74). Qed.
Theorem C101_refuted : exists e i1 i2 s d1 l1 u1 L1 d2 l2 u2 L2 k s1 m1 a1 s2 m2 a2 t1 n1 b1 t2 n2 b2 x y j,
  reachable s /\ begun (e_millis e) s /\ i_sender i1 <> i_sender i2 /\ deposit d1 k l1 u1 L1 /\ deposit d2 k l2 u2 L2 /\
  execute e i1 s d1 = Ok (s1, m1, a1) /\ execute e i2 s1 d2 = Ok (s2, m2, a2) /\
  execute e i2 s d2 = Ok (t1, n1, b1) /\ execute e i1 t1 d1 = Ok (t2, n2, b2) /\
  get_tick s2 k j = Ok x /\ get_tick t2 k j = Ok y /\ t_sign x <> t_sign y.
Proof.
  destruct ex_C101 as (D1 & D2 & X). unfold od_run in X.
  destruct (execute v_env (v_info "dan") sc0 od_below) as [[[s1 m1] a1]| |] eqn:E1; [|exact (False_ind _ X)|exact (False_ind _ X)].
  destruct (execute v_env (v_info "eve") sc0 od_above) as [[[t1 n1] b1]| |] eqn:F1; [|exact (False_ind _ X)|exact (False_ind _ X)].
  destruct (execute v_env (v_info "eve") s1 od_above) as [[[s2 m2] a2]| |] eqn:E2; [|exact (False_ind _ X)|exact (False_ind _ X)].
  destruct (execute v_env (v_info "dan") t1 od_below) as [[[t2 n2] b2]| |] eqn:F2; [|exact (False_ind _ X)|exact (False_ind _ X)].
  destruct X as [X _]. destruct (get_tick s2 v_key 40) as [x| |] eqn:GX; [|destruct X|destruct X]. destruct (get_tick t2 v_key 40) as [y| |] eqn:GY; [|destruct X|destruct X].
  destruct X as [X Y]. injection X as X _ _. injection Y as Y _ _.
  exists v_env, (v_info "dan"), (v_info "eve"), sc0, od_below, (-10), 40, 900000000000, od_above, 40, 60, 900000000000, v_key.
  exists s1, m1, a1, s2, m2, a2, t1, n1, b1, t2, n2, b2, x, y, 40.
  split; [exact sc0_reachable|]. split; [exact sc0_begun|]. split; [discriminate|]. split; [exact D1|]. split; [exact D2|].
  split; [exact E1|]. split; [exact E2|]. split; [exact F1|]. split; [exact F2|]. split; [exact GX|]. split; [exact GY|]. congruence.
Qed.
