(** C107: where the fee counters stand makes no difference; only how far they move. *)
From Verif Require Import Base Decimal SqrtPrice Clamm Log FeeGrowth Types Tick Pool Position
  Tickmap Keys State Swap Exec Query Tactics PriceProofs ClammProofs BitmapProofs Frame Handlers History Basic PosList Vectors Scenario SwapInv SwapGeo SwapLoop Modify PSum LiqInv
  Geo Ops Clean CleanSuff Growth PropTrade PropPerm PropLocal PropLiq PropSolv PropClock PropOk.
From stdpp Require Import gmap strings.
From Coq Require Import Lia.
Open Scope Z_scope.

(** equal modulo 2^128 *)
Definition cong (a b : Z) : Prop := exists q, a = b + q * U128.
Lemma cong_refl a : cong a a.
Proof. exists 0. lia. Qed.
Lemma cong_mod a b : cong a b <-> a mod U128 = b mod U128.
Proof.
  assert (U : 0 < U128) by reflexivity. split.
  - intros [q ->]. by rewrite Z_mod_plus_full.
  - intros E. exists (a / U128 - b / U128). pose proof (Z.div_mod a U128 ltac:(lia)). pose proof (Z.div_mod b U128 ltac:(lia)). nia.
Qed.
Lemma cong_of_mod a : cong (a mod U128) a.
Proof. apply cong_mod. apply Z.mod_mod. discriminate. Qed.

Section Gauge.
(** the pools' current ticks; by how much the pools' counters differ; by how much the growth below a tick differs *)
Context (cur : pool_key -> Z) (D : pool_key -> bool -> Z) (B : pool_key -> Z -> bool -> Z).
Definition lpool (k : pool_key) (p q : pool) : Prop :=
  q = mkPool (p_liq p) (p_price p) (p_tick p) (p_fgx q) (p_fgy q) (p_protx p) (p_proty p) (p_start p) (p_last q) (p_receiver p) /\
  0 <= p_liq p <= U128MAX /\ forall b, cong (fg b q) (fg b p + D k b).
Definition gpool (k : pool_key) (p q : pool) : Prop := lpool k p q /\ p_tick p = cur k.
Definition side (k : pool_key) (j : Z) (b : bool) : Z := if j <=? cur k then B k j b else D k b - B k j b.
Definition shape (j : Z) (t u : tick) : Prop :=
  u = mkTick (t_index t) (t_sign u) (t_change t) (t_gross t) (t_price u) (t_fox u) (t_foy u) (t_secs u) /\ t_index t = j.
(** the sign of a zero does not matter *)
Definition signed (t u : tick) : Prop := t_sign u = t_sign t \/ t_change t = 0.
Definition gtick (k : pool_key) (j : Z) (t u : tick) : Prop := shape j t u /\ signed t u /\ forall b, cong (fo b u) (fo b t + side k j b).
Definition ctick (k : pool_key) (j : Z) (t u : tick) : Prop := shape j t u /\ signed t u /\ forall b, cong (fo b u) (fo b t + (D k b - side k j b)).
Definition gpos (a b : position) : Prop :=
  b = mkPosition (po_key a) (po_liq a) (po_lower a) (po_upper a) (po_fgx b) (po_fgy b) (po_block b) (po_owedx a) (po_owedy a) (po_approvals a) /\
  0 <= po_liq a /\ forall c, cong (pofg c b) (pofg c a + (B (po_key a) (po_upper a) c - B (po_key a) (po_lower a) c)).
Record gk (s t : store) : Prop := {
  gk_config : st_config t = st_config s;
  gk_pool k : option_Forall2 (gpool k) (st_pools s !! k) (st_pools t !! k);
  gk_tick k j : option_Forall2 (gtick k j) (st_ticks s !! (k, j)) (st_ticks t !! (k, j));
  gk_bitmap k c : bitmap_chunk t k c = bitmap_chunk s k c;
  gk_position a ix : option_Forall2 gpos (st_positions s !! (a, ix)) (st_positions t !! (a, ix));
  gk_len a : get_position_length t a = get_position_length s a;
  gk_operators : st_operators t = st_operators s
}.
Notation sk := gk.
Lemma gk_save s t k p q : sk s t -> gpool k p q -> sk (save_pool s k p) (save_pool t k q).
Proof.
  intros A E. destruct A. constructor; cbn; try done. intros k'. destruct (decide (k' = k)) as [->|N];
    [rewrite !lookup_insert|rewrite !lookup_insert_ne by congruence; done]. by constructor.
Qed.
Lemma gk_set_tick s t k j x y : sk s t -> gtick k j x y ->
  sk (set_ticks s (<[(k, j) := x]> (st_ticks s))) (set_ticks t (<[(k, j) := y]> (st_ticks t))).
Proof.
  intros A E. destruct A. constructor; cbn; try done.
  intros k' j'. destruct (decide ((k', j') = (k, j))) as [X|N]; [injection X as -> ->; rewrite !lookup_insert; by constructor|rewrite !lookup_insert_ne by congruence; done].
Qed.
Lemma gk_del s t k j : sk s t ->
  sk (set_ticks s (delete (k, j) (st_ticks s))) (set_ticks t (delete (k, j) (st_ticks t))).
Proof.
  intros A. destruct A. constructor; cbn; try done.
  intros k' j'. destruct (decide ((k', j') = (k, j))) as [->|N];
    [rewrite !lookup_delete; by constructor|rewrite !lookup_delete_ne by congruence; done].
Qed.
Lemma gk_set_bitmap s t k c v : sk s t -> sk (set_bitmap s (<[(k, c) := v]> (st_bitmap s))) (set_bitmap t (<[(k, c) := v]> (st_bitmap t))).
Proof.
  intros A. destruct A. constructor; try done. intros k' c'. unfold bitmap_chunk. cbn.
  destruct (decide ((k', c') = (k, c))) as [E|N]; [rewrite E, !lookup_insert; done|rewrite !lookup_insert_ne by congruence]. apply gk_bitmap0.
Qed.
Lemma gk_set_config s t c : sk s t -> sk (set_config s c) (set_config t c).
Proof. intros A. destruct A. by constructor. Qed.
Lemma gk_set_operators s t o : sk s t -> sk (set_operators s o) (set_operators t o).
Proof. intros A. destruct A. by constructor. Qed.
Lemma gk_positions s t m m' l l' : sk s t -> (forall a, default 0 (l' !! a) = default 0 (l !! a)) ->
  (forall a ix, option_Forall2 gpos (m !! (a, ix)) (m' !! (a, ix))) -> sk (set_positions s m l) (set_positions t m' l').
Proof. intros A E E'. destruct A. by constructor. Qed.
Lemma len_insert s t a v : sk s t -> forall b, default 0 (<[a := v]> (st_poslen t) !! b) = default 0 (<[a := v]> (st_poslen s) !! b).
Proof. intros A b. destruct (decide (b = a)) as [->|N]; [by rewrite !lookup_insert|rewrite !lookup_insert_ne by congruence; apply (gk_len _ _ A)]. Qed.
Lemma gk_put s t a ix po qo l l' : sk s t -> (forall b, default 0 (l' !! b) = default 0 (l !! b)) -> gpos po qo ->
  sk (set_positions s (<[(a, ix) := po]> (st_positions s)) l) (set_positions t (<[(a, ix) := qo]> (st_positions t)) l').
Proof.
  intros L EL E. apply gk_positions; [done|done|]. intros b j.
  destruct (decide ((b, j) = (a, ix))) as [->|N]; [rewrite !lookup_insert; by constructor|].
  rewrite !lookup_insert_ne by congruence. apply L.
Qed.

Lemma gk_get_pool s t k : sk s t -> both (gpool k) (get_pool s k) (get_pool t k).
Proof. intros A. unfold get_pool. pose proof (gk_pool _ _ A k) as H. by destruct H. Qed.
Lemma gk_get_tick s t k j : sk s t -> both (gtick k j) (get_tick s k j) (get_tick t k j).
Proof. intros A. unfold get_tick. pose proof (gk_tick _ _ A k j) as H. by destruct H. Qed.
Lemma gk_get_position s t a ix : sk s t -> both gpos (get_position s a ix) (get_position t a ix).
Proof. intros A. unfold get_position. pose proof (gk_position _ _ A a ix) as H. by destruct H. Qed.
Lemma gk_update_tick s t k j x y : sk s t -> gtick k j x y -> both sk (update_tick s k j x) (update_tick t k j y).
Proof. intros L E. unfold update_tick. pose proof (gk_tick _ _ L k j) as H. destruct H; [by apply gk_set_tick|done]. Qed.
Lemma gk_add_tick s t k j x y : sk s t -> gtick k j x y -> both sk (add_tick s k j x) (add_tick t k j y).
Proof. intros L E. unfold add_tick. pose proof (gk_tick _ _ L k j) as H. destruct H; [done|by apply gk_set_tick]. Qed.
Lemma gk_remove_tick s t k j : sk s t -> both sk (remove_tick s k j) (remove_tick t k j).
Proof. intros L. unfold remove_tick. pose proof (gk_tick _ _ L k j) as H. destruct H; [by apply gk_del|done]. Qed.
Lemma gk_chunk s t k c : sk s t -> bitmap_chunk t k c = bitmap_chunk s k c.
Proof. intros A. apply (gk_bitmap _ _ A). Qed.
Lemma gk_flip s t v j sp k : sk s t -> both sk (flip_bitmap s v j sp k) (flip_bitmap t v j sp k).
Proof.
  intros L. unfold flip_bitmap. apply both_eq; [done|]. intros [c b] _. rewrite (gk_chunk _ _ _ _ L).
  destruct (negb _); cbn; [done|]. by apply gk_set_bitmap.
Qed.
Lemma gk_next s t k m : sk s t -> forall sp c b lc lb, next_loop m t k sp c b lc lb = next_loop m s k sp c b lc lb.
Proof. intros L. induction m as [|m IH]; intros; cbn; [done|]. by rewrite (gk_chunk _ _ _ _ L), IH. Qed.
Lemma gk_prev s t k m : sk s t -> forall sp c b lc lb, prev_loop m t k sp c b lc lb = prev_loop m s k sp c b lc lb.
Proof. intros L. induction m as [|m IH]; intros; cbn; [done|]. by rewrite (gk_chunk _ _ _ _ L), IH. Qed.
Lemma gk_limit s t k lim d c0 sp : sk s t -> get_closer_limit t lim d c0 sp k = get_closer_limit s lim d c0 sp k.
Proof.
  intros L. unfold get_closer_limit. f_equal. destruct d.
  - unfold prev_initialized. destruct (sp =? 0); [done|]. apply bind_ext. intros [c b]. apply bind_ext.
    intros [lc lb]. by rewrite (gk_prev _ _ _ _ L).
  - unfold next_initialized. destruct (sp =? 0); [done|]. destruct (_ <? _); [done|]. apply bind_ext. intros [c b]. apply bind_ext.
    intros [lc lb]. by rewrite (gk_next _ _ _ _ L).
Qed.


(** ** Trades *)
Section Trade.
Context (n : Z) (k : pool_key).
Lemma lp_add_fee p q a x f : lpool k p q -> both (lpool k) (add_fee p a x f) (add_fee q a x f).
Proof.
  intros [E [LR C]]. unfold add_fee. apply both_eq; [done|]. intros pt _. apply both_eq; [done|]. intros pf _.
  replace (p_liq q) with (p_liq p) by (rewrite E; done). destruct (_ || _); [done|]. apply both_eq; [done|]. intros g _.
  pose proof (C true) as CX. pose proof (C false) as CY. cbn in CX, CY. destruct x.
  - replace (p_protx q) with (p_protx p) by (rewrite E; done). apply both_eq; [done|]. intros r _. cbn. split; [rewrite E; done|]. split; [exact LR|]. intros []; cbn; [|exact CY].
    apply cong_mod. apply cong_mod in CX. unfold wadd. rewrite Z.mod_mod by discriminate. rewrite <- (Zplus_mod_idemp_l (p_fgx q)), CX, Zplus_mod_idemp_l, Zplus_mod_idemp_l. f_equal. lia.
  - replace (p_proty q) with (p_proty p) by (rewrite E; done). apply both_eq; [done|]. intros r _. cbn. split; [rewrite E; done|]. split; [exact LR|]. intros []; cbn; [exact CX|].
    apply cong_mod. apply cong_mod in CY. unfold wadd. rewrite Z.mod_mod by discriminate. rewrite <- (Zplus_mod_idemp_l (p_fgy q)), CY, Zplus_mod_idemp_l, Zplus_mod_idemp_l. f_equal. lia.
Qed.
Lemma lp_set_price p q v : lpool k p q -> lpool k (p_set_price p v) (p_set_price q v).
Proof. intros [E [LR C]]. split; [rewrite E; done|]. split; [exact LR|]. intros []; [exact (C true)|exact (C false)]. Qed.
Lemma lp_set_tick p q v : lpool k p q -> lpool k (p_set_tick p v) (p_set_tick q v).
Proof. intros [E [LR C]]. split; [rewrite E; done|]. split; [exact LR|]. intros []; [exact (C true)|exact (C false)]. Qed.
Lemma lp_set_last p q v : lpool k p q -> lpool k (p_set_last p v) (p_set_last q v).
Proof. intros [E [LR C]]. split; [rewrite E; done|]. split; [exact LR|]. intros []; [exact (C true)|exact (C false)]. Qed.
Lemma lp_set_liq p q v : lpool k p q -> 0 <= v <= U128MAX -> lpool k (p_set_liq p v) (p_set_liq q v).
Proof. intros [E [LR C]] LV. split; [rewrite E; done|]. split; [exact LV|]. intros []; [exact (C true)|exact (C false)]. Qed.
(** crossing turns the outside over *)
Definition tp (j : Z) (a b : tick * pool) : Prop := ctick k j (fst a) (fst b) /\ lpool k (snd a) (snd b).
Lemma lp_cross j x y p q : gtick k j x y -> lpool k p q -> both (tp j) (tick_cross x p n) (tick_cross y q n).
Proof.
  intros [[X IX] [SG F]] H. unfold tick_cross. pose proof H as [E [LR C]]. replace (p_start q) with (p_start p) by (rewrite E; done).
  apply both_eq; [done|]. intros se _.
  replace (t_index y) with (t_index x) by (rewrite X; done). replace (t_change y) with (t_change x) by (rewrite X; done).
  replace (p_tick q) with (p_tick p) by (rewrite E; done). replace (p_liq q) with (p_liq p) by (rewrite E; done).
  assert (CR : forall l, (if xorb (t_index x <=? p_tick p) (t_sign x) then add_e PoolAddTickLiquidityOverflow (p_liq p) (t_change x) else sub_e PoolSubTickLiquidityUnderflow (p_liq p) (t_change x)) = Ok l -> 0 <= l <= U128MAX).
  { intros l. unfold add_e, sub_e. destruct (xorb _ _); intros Q; apply ck_ok in Q; lia. }
  assert (Q : (if xorb (t_index x <=? p_tick p) (t_sign y) then add_e PoolAddTickLiquidityOverflow (p_liq p) (t_change x) else sub_e PoolSubTickLiquidityUnderflow (p_liq p) (t_change x)) =
     (if xorb (t_index x <=? p_tick p) (t_sign x) then add_e PoolAddTickLiquidityOverflow (p_liq p) (t_change x) else sub_e PoolSubTickLiquidityUnderflow (p_liq p) (t_change x))).
  { destruct SG as [->|Z0]; [done|]. rewrite Z0. unfold add_e, sub_e in *.
    assert (A : forall er v, v = p_liq p -> ck er U128MAX v = Ok (p_liq p)) by (intros er v ->; by apply ck_ok).
    destruct (xorb _ _), (xorb _ _); rewrite !A by lia; done. }
  rewrite Q. apply both_eq; [done|]. intros l EL. specialize (CR l EL).
  split; [|apply lp_set_liq; [apply lp_set_last, H|exact CR]]. cbn [fst]. split; [split; [rewrite X; done|exact IX]|]. split; [exact SG|].
  assert (W : forall g g' o o' d v, cong g' (g + d) -> cong o' (o + v) -> cong (wsub g' o') (wsub g o + (d - v))).
  { intros g g' o o' d v [q1 ->] [q2 ->]. apply cong_mod. unfold wsub. rewrite Z.mod_mod by discriminate. rewrite Zplus_mod_idemp_l.
    replace (g + d + q1 * U128 - (o + v + q2 * U128)) with (g - o + (d - v) + (q1 - q2) * U128) by lia. by rewrite Z_mod_plus_full. }
  intros []; cbn; apply W; [exact (C true)|exact (F true)|exact (C false)|exact (F false)].
Qed.
Definition tick_rel (a b : update_pool_tick) : Prop :=
  match a, b with
  | NoTick, NoTick => True
  | TickInitialized x, TickInitialized y => exists j, gtick k j x y
  | TickUninitialized i, TickUninitialized j => i = j
  | _, _ => False
  end.
(** crossed or not *)
Definition tick_after (cr : bool) (a b : update_pool_tick) : Prop :=
  match a, b with
  | NoTick, NoTick => True
  | TickInitialized x, TickInitialized y => cr = true -> exists j, ctick k j x y
  | TickUninitialized i, TickUninitialized j => i = j
  | _, _ => False
  end.
Definition put_rel (a b : pool * update_pool_tick * Z * Z * bool) : Prop :=
  let '(p, tk, tot, rem, cr) := a in let '(q, tk', tot', rem', cr') := b in
  lpool k p q /\ tick_after cr tk tk' /\ tot' = tot /\ rem' = rem /\ cr' = cr.
Lemma gk_put_tick p q r lim tk tk' rem by_in d f ft : lpool k p q -> tick_rel tk tk' ->
  both put_rel (pool_update_tick p r lim tk rem by_in d n f ft) (pool_update_tick q r lim tk' rem by_in d n f ft).
Proof.
  intros H T. unfold pool_update_tick.
  assert (K : match tk' with NoTick => true | _ => false end = match tk with NoTick => true | _ => false end).
  { by destruct tk, tk'. }
  rewrite K. destruct (_ || _).
  - apply both_eq; [done|]. intros j _. split_and!; [by apply lp_set_tick|by destruct tk, tk'|done..].
  - pose proof H as [E _]. replace (p_liq q) with (p_liq p) by (rewrite E; done).
    apply both_eq; [done|]. intros en _.
    eapply (both_bind (fun a b : pool * update_pool_tick * Z * Z * bool * Z =>
      put_rel (fst a) (fst b) /\ snd a = snd b)).
    + destruct tk as [|x|j], tk' as [|y|j']; try done. destruct T as [j T].
      assert (I : t_index y = t_index x) by (destruct T as [[T _] _]; rewrite T; done). rewrite I.
      destruct (negb d || en).
      * eapply (both_bind (tp j)).
        { pose proof (lp_cross j x y p q T H) as C. unfold both in *.
          destruct (tick_cross x p n), (tick_cross y q n); cbn; done. }
        intros [x' p'] [y' q'] (A & A'). cbn in A, A'. split; [|done]. split_and!; try done. intros _. by exists j.
      * destruct (negb (rem =? 0)); [|done]. destruct by_in; [|done].
        eapply both_bind; [by apply lp_add_fee|]. intros p' q' H'. done.
    + intros [[[[[p1 tk1] tot1] rem1] cr1] ix1] [[[[[q1 tk2] tot2] rem2] cr2] ix2] ((H1 & T1 & -> & -> & ->) & I).
      cbn in I. subst. split_and!; [by apply lp_set_tick|done..].
Qed.
Definition crossing (x y : tick) : Prop := exists j, ctick k j x y.
Definition wr (w v : swap_state) : Prop :=
  lpool k (sw_pool w) (sw_pool v) /\ sw_remaining v = sw_remaining w /\ sw_in v = sw_in w /\ sw_out v = sw_out w /\
  sw_fee v = sw_fee w /\ Forall2 crossing (sw_ticks w) (sw_ticks v).
Lemma gk_iter s t d b lim tl w v : sk s t -> wr w v ->
  both wr (swap_iter s n k d b lim tl w) (swap_iter t n k d b lim tl v).
Proof.
  intros L (H & E1 & E2 & E3 & E4 & F). unfold swap_iter. rewrite (gk_limit _ _ _ _ _ _ _ L), (gk_config _ _ L).
  rewrite E1, E2, E3, E4. pose proof H as [E _].
  replace (p_tick (sw_pool v)) with (p_tick (sw_pool w)) by (rewrite E; done).
  replace (p_price (sw_pool v)) with (p_price (sw_pool w)) by (rewrite E; done).
  replace (p_liq (sw_pool v)) with (p_liq (sw_pool w)) by (rewrite E; done).
  apply both_eq; [done|]. intros [sl li] _. do 3 (apply both_eq; [done|]; intros ? _).
  eapply both_bind; [by apply lp_add_fee|]. intros p q H1. do 3 (apply both_eq; [done|]; intros ? _).
  cbn [p_price p_set_price]. destruct (_ && _); [done|].
  eapply (both_bind tick_rel).
  { destruct li as [[j []]|]; try done. eapply both_bind; [by apply gk_get_tick|]. intros x y X. by exists j. }
  intros tk tk' T. eapply both_bind; [apply gk_put_tick; [by apply lp_set_price|done]|].
  intros [[[[p1 tk1] tot1] rem1] cr1] [[[[q1 tk2] tot2] rem2] cr2] (H2 & T2 & -> & -> & ->).
  apply both_eq; [done|]. intros tin _.
  replace (p_tick q1) with (p_tick p1) by (destruct H2 as [H2 _]; rewrite H2; done).
  destruct (if d then _ else _); [done|]. split_and!; try done. cbn.
  destruct tk1, tk2; try done. destruct cr1; [|done]. apply Forall2_app; [done|]. constructor; [by apply T2|done].
Qed.
Lemma gk_loop s t d b lim tl g : sk s t -> forall w v, wr w v ->
  both wr (swap_loop g s n k d b lim tl w) (swap_loop g t n k d b lim tl v).
Proof.
  intros L. induction g as [|g IH]; intros w v W; cbn; rewrite (proj1 (proj2 W)); destruct (_ =? _); try done.
  eapply both_bind; [by apply gk_iter|]. exact IH.
Qed.
Definition cr (a b : calc_result) : Prop :=
  cr_in b = cr_in a /\ cr_out b = cr_out a /\ cr_start b = cr_start a /\ cr_target b = cr_target a /\ cr_fee b = cr_fee a /\
  lpool k (cr_pool a) (cr_pool b) /\ Forall2 crossing (cr_ticks a) (cr_ticks b).
Lemma gk_calc s t g d a b lim : sk s t ->
  both cr (calculate_swap g s n k d a b lim) (calculate_swap g t n k d a b lim).
Proof.
  intros L. unfold calculate_swap. destruct (a =? 0); [done|]. eapply both_bind; [by apply gk_get_pool|].
  intros p q [H _]. replace (p_price q) with (p_price p) by (destruct H as [H _]; rewrite H; done).
  destruct (if d then _ else _); [done|]. eapply both_bind; [apply gk_loop; [exact L|]; split_and!; [exact H|done..|constructor]|].
  intros w v (H1 & E1 & E2 & E3 & E4 & F). rewrite E3. destruct (_ =? 0); [done|].
  split_and!; try done. cbn. destruct H1 as [H1 _]. rewrite H1. done.
Qed.
End Trade.

(** ** Positions *)
Definition sk3 {A B} (R : B -> B -> Prop) (p q : store * A * B) : Prop :=
  sk (fst (fst p)) (fst (fst q)) /\ snd (fst p) = snd (fst q) /\ R (snd p) (snd q).
Definition sk2 {A} (R : A -> A -> Prop) (p q : store * A) : Prop := sk (fst p) (fst q) /\ R (snd p) (snd q).
Context (n : Z).
(** a tick that is not there has no difference of its own *)
Definition fresh (s : store) (k : pool_key) : Prop := forall j, st_ticks s !! (k, j) = None -> forall b, B k j b = D k b.
Lemma gk_create_tick s t k j : sk s t -> fresh s k -> st_ticks s !! (k, j) = None -> both (sk2 (gtick k j)) (create_tick s n k j) (create_tick t n k j).
Proof.
  intros L FR NT. unfold create_tick. apply both_eq; [done|]. intros _ _. eapply both_bind; [by apply gk_get_pool|].
  intros p q [[H [LR C]] HC]. eapply (both_bind (gtick k j)).
  { unfold tick_create. replace (p_tick q) with (p_tick p) by (rewrite H; done). replace (p_start q) with (p_start p) by (rewrite H; done).
    apply both_eq; [done|]. intros price _. apply both_eq; [done|]. intros se _. split; [split; done|]. split; [by left|]. intros b. unfold side. rewrite (FR j NT b), HC.
    pose proof (C true) as CX. pose proof (C false) as CY. destruct (j <=? cur k), b; cbn; [exact CX|exact CY|exists 0; lia|exists 0; lia]. }
  intros x y X. eapply both_bind; [by apply gk_add_tick|]. intros s1 t1 L1.
  eapply both_bind; [by apply gk_flip|]. intros s2 t2 L2. done.
Qed.
Lemma gk_get_or_create s t k j : sk s t -> fresh s k -> both (sk2 (gtick k j)) (get_or_create_tick s n k j) (get_or_create_tick t n k j).
Proof.
  intros L FR. unfold get_or_create_tick, get_tick. pose proof (gk_tick _ _ L k j) as H.
  destruct (st_ticks s !! (k, j)) as [x|] eqn:NT; [destruct (of2_some _ _ _ H) as (y & -> & ?); done|]. rewrite (of2_none _ _ H). by apply gk_create_tick.
Qed.
Lemma gk_add_position s t a po qo : sk s t -> gpos po qo -> both sk (add_position s a po) (add_position t a qo).
Proof.
  intros L H. unfold add_position. rewrite (gk_len _ _ L). apply both_eq; [done|].
  intros m _. apply gk_put; [done|by apply len_insert|done].
Qed.
Lemma gk_update_position s t a ix po qo : sk s t -> gpos po qo -> both sk (update_position s a ix po) (update_position t a ix qo).
Proof.
  intros L H. unfold update_position. rewrite (gk_len _ _ L).
  destruct (_ <=? _); [done|]. apply gk_put; [done|apply (gk_len _ _ L)|done].
Qed.
Lemma gk_remove_position s t a ix : sk s t -> both (sk2 gpos) (remove_position s a ix) (remove_position t a ix).
Proof.
  intros L. unfold remove_position. rewrite (gk_len _ _ L). apply both_eq; [done|].
  intros m _. pose proof (gk_position _ _ L a ix) as H.
  destruct (st_positions s !! (a, ix)) as [po|]; [|by rewrite (of2_none _ _ H)]. destruct (of2_some _ _ _ H) as (qo & -> & E).
  destruct (ix <? m).
  - pose proof (gk_position _ _ L a m) as H'.
    destruct (st_positions s !! (a, m)) as [la|]; [|by rewrite (of2_none _ _ H')]. destruct (of2_some _ _ _ H') as (lb & -> & E').
    cbn. split; [|done]. apply gk_positions; [done|by apply len_insert|]. intros b j.
    destruct (decide ((b, j) = (a, ix))) as [->|N]; [rewrite !lookup_insert; by constructor|].
    rewrite !lookup_insert_ne by congruence. destruct (decide ((b, j) = (a, m))) as [->|N']; [rewrite !lookup_delete; constructor|].
    rewrite !lookup_delete_ne by congruence. apply L.
  - cbn. split; [|done]. apply gk_positions; [done|by apply len_insert|]. intros b j.
    destruct (decide ((b, j) = (a, ix))) as [->|N']; [rewrite !lookup_delete; constructor|].
    rewrite !lookup_delete_ne by congruence. apply L.
Qed.
Lemma gk_remove_flip s t k x y : sk s t -> gtick k (t_index x) x y ->
  both sk (remove_tick_and_flip_bitmap s k x) (remove_tick_and_flip_bitmap t k y).
Proof.
  intros L X. unfold remove_tick_and_flip_bitmap. destruct X as [[X _] _]. rewrite X. cbn. destruct (negb _); [done|].
  eapply both_bind; [by apply gk_flip|]. intros. by apply gk_remove_tick.
Qed.

Lemma gt_update k j x y dl mx u a : 0 <= dl -> gtick k j x y -> both (gtick k j) (tick_update x dl mx u a) (tick_update y dl mx u a).
Proof.
  intros DL [[X IX] [SG F]]. unfold tick_update, calculate_new_liquidity_gross. replace (t_gross y) with (t_gross x) by (rewrite X; done).
  apply both_eq; [done|]. intros g _.
  assert (Q : update_liquidity_change y dl (xorb a u) = update_liquidity_change x dl (xorb a u)).
  { unfold update_liquidity_change. replace (t_change y) with (t_change x) by (rewrite X; done). destruct SG as [->|Z0]; [done|].
    rewrite Z0. rewrite (proj2 (Z.ltb_ge dl 0)) by lia. unfold add_p, sub_p. rewrite Z.add_0_l, Z.sub_0_r.
    destruct (t_sign y), (t_sign x), (xorb a u); cbn [xorb negb]; done. }
  rewrite Q. apply both_eq; [done|]. intros [sg c1] _. split; [split; [rewrite X; done|exact IX]|]. split; [by left|]. intros []; [exact (F true)|exact (F false)].
Qed.
Lemma cong_below k j c G G' x y b : gtick k j x y -> c = cur k -> cong G' (G + D k b) -> cong (below b c G' y) (below b c G x + B k j b).
Proof.
  intros [[X IX] [_ F]] -> [q1 ->]. unfold below. replace (t_index y) with j by (rewrite X; done). rewrite IX. destruct (F b) as [q2 E]. rewrite E. unfold side.
  destruct (j <=? cur k); [exists q2; lia|exists (q1 - q2); lia].
Qed.
Lemma cong_inside k l u c G G' x y x' y' b : gtick k l x y -> gtick k u x' y' -> c = cur k -> cong G' (G + D k b) ->
  cong (inside b c G' y y') (inside b c G x x' + (B k u b - B k l b)).
Proof.
  intros A1 A2 E C. destruct (cong_below _ _ _ _ _ _ _ _ A1 E C) as [q1 E1]. destruct (cong_below _ _ _ _ _ _ _ _ A2 E C) as [q2 E2].
  apply cong_mod. rewrite !inside_below, Z.mod_mod, Zplus_mod_idemp_l by discriminate. rewrite E1, E2.
  replace (below b c G x' + B k u b + q2 * U128 - (below b c G x + B k l b + q1 * U128)) with
    (below b c G x' - below b c G x + (B k u b - B k l b) + (q2 - q1) * U128) by lia. by rewrite Z_mod_plus_full.
Qed.
Lemma both_with {A A'} (R : A -> A' -> Prop) r q : both R r q -> both (fun a b => R a b /\ r = Ok a) r q.
Proof. unfold both. by destruct r, q. Qed.
(** positions alike but for the counters; and a position without liquidity collects nothing *)
Definition pshape (a b : position) : Prop :=
  b = mkPosition (po_key a) (po_liq a) (po_lower a) (po_upper a) (po_fgx b) (po_fgy b) (po_block b) (po_owedx a) (po_owedy a) (po_approvals a).
Definition mod_rel (k : pool_key) (l u : Z) (a b : position * pool * tick * tick * Z * Z) : Prop :=
  let '(po, p, x', x, c1, c2) := a in let '(po', p', y', y, d1, d2) := b in
  gpos po po' /\ gpool k p p' /\ gtick k u x' y' /\ gtick k l x y /\ d1 = c1 /\ d2 = c2.
Lemma gk_modify k po po' p p' x' y' x y dl a sp : 0 <= dl -> po_key po = k -> pshape po po' -> (po_liq po = 0 \/ gpos po po') -> gpool k p p' ->
  gtick k (po_upper po) x' y' -> gtick k (po_lower po) x y ->
  both (mod_rel k (po_lower po) (po_upper po)) (position_modify po p x' x dl a n sp) (position_modify po' p' y' y dl a n sp).
Proof.
  intros DL PK PO PZ H U W. unfold position_modify. eapply both_bind; [by apply gt_update|]. intros l1 l2 W1.
  eapply both_bind; [by apply gt_update|]. intros u1 u2 U1. pose proof H as [[HE [LR HC]] HT].
  assert (INS : forall b, cong (inside b (p_tick p') (fg b p') l2 u2) (inside b (p_tick p) (fg b p) l1 u1 + (B k (po_upper po) b - B k (po_lower po) b))).
  { intros b. replace (p_tick p') with (p_tick p) by (rewrite HE; done). by apply cong_inside. }
  eapply (both_bind gpos).
  { unfold position_update, calculate_new_liquidity. replace (po_liq po') with (po_liq po) by (rewrite PO; done). destruct (_ && _); [done|].
    replace (po_owedx po') with (po_owedx po) by (rewrite PO; done). replace (po_owedy po') with (po_owedy po) by (rewrite PO; done).
    change (fee_growth_inside (t_index l1) (t_fox l1) (t_index u1) (t_fox u1) (p_tick (p_set_last p n)) (p_fgx (p_set_last p n))) with (inside true (p_tick p) (fg true p) l1 u1).
    change (fee_growth_inside (t_index l1) (t_foy l1) (t_index u1) (t_foy u1) (p_tick (p_set_last p n)) (p_fgy (p_set_last p n))) with (inside false (p_tick p) (fg false p) l1 u1).
    change (fee_growth_inside (t_index l2) (t_fox l2) (t_index u2) (t_fox u2) (p_tick (p_set_last p' n)) (p_fgx (p_set_last p' n))) with (inside true (p_tick p') (fg true p') l2 u2).
    change (fee_growth_inside (t_index l2) (t_foy l2) (t_index u2) (t_foy u2) (p_tick (p_set_last p' n)) (p_fgy (p_set_last p' n))) with (inside false (p_tick p') (fg false p') l2 u2).
    assert (TF : forall b, to_fee (wsub (inside b (p_tick p') (fg b p') l2 u2) (pofg b po')) (po_liq po) = to_fee (wsub (inside b (p_tick p) (fg b p) l1 u1) (pofg b po)) (po_liq po)).
    { intros b. destruct PZ as [Z0|[_ [_ Z1]]]; [rewrite Z0; unfold to_fee; rewrite !Z.mul_0_r; done|]. f_equal.
      destruct (INS b) as [q1 ->]. destruct (Z1 b) as [q2 ->]. rewrite PK. unfold wsub.
      match goal with |- ?u mod _ = ?v mod _ => replace u with (v + (q1 - q2) * U128) by lia end. by rewrite Z_mod_plus_full. }
    pose proof (TF true) as TX. pose proof (TF false) as TY. cbn [pofg] in TX, TY. rewrite TX, TY.
    do 2 (apply both_eq; [done|]; intros ? _). apply both_eq; [done|]. intros q EQ. do 2 (apply both_eq; [done|]; intros ? _).
    split; [rewrite PO; done|]. split; [cbn; clear - EQ; destruct (negb a && _); [done|]; unfold add_e, sub_e in EQ; destruct a; apply ck_ok in EQ; lia|]. cbn [po_key po_upper po_lower]. rewrite PK. intros []; [exact (INS true)|exact (INS false)]. }
  intros po1 po2 PO1. eapply (both_bind (fun a b : pool * Z * Z => gpool k (fst (fst a)) (fst (fst b)) /\ snd (fst a) = snd (fst b) /\ snd a = snd b)).
  { unfold update_liquidity. replace (t_index u2) with (t_index u1) by (destruct U1 as [[U1 _] _]; rewrite U1; done).
    replace (t_index l2) with (t_index l1) by (destruct W1 as [[W1 _] _]; rewrite W1; done). cbn [p_tick p_price p_set_last].
    replace (p_tick p') with (p_tick p) by (rewrite HE; done).
    replace (p_price p') with (p_price p) by (rewrite HE; done).
    apply both_eq; [done|]. intros [[c1 c2] []] _.
    - eapply both_bind; [cbn; replace (p_liq p') with (p_liq p) by (rewrite HE; done); apply (both_with eq); by apply both_same|].
      intros q ? (<- & EQ). split_and!; [split; [apply lp_set_liq; [apply lp_set_last, H|clear - EQ; unfold add_e, sub_e in EQ; destruct a; apply ck_ok in EQ; lia]|done]|done|done].
    - split_and!; [split; [apply lp_set_last, H|done]|done|done]. }
  intros [[p1 x1] y1] [[p2 x2] y2] (A & A' & A''). cbn in A', A''. subst. done.
Qed.

Context (e : env) (En : e_millis e = n).
Lemma fresh_get_or_create s k j s1 x : fresh s k -> get_or_create_tick s n k j = Ok (s1, x) -> fresh s1 k.
Proof.
  intros F H. unfold get_or_create_tick, get_tick in H. destruct (st_ticks s !! (k, j)) eqn:NT0; [apply Ok_inj in H; injection H as <- <-; exact F|].
  unfold create_tick in H. inv_bind H as u0 E0. inv_bind H as p E1. inv_bind H as t E2. inv_bind H as s2 E3. inv_bind H as s3 E4. apply Ok_inj in H. injection H as <- <-.
  unfold add_tick in E3. rewrite NT0 in E3. apply Ok_inj in E3. subst s2.
  unfold flip_bitmap in E4. inv_bind E4 as [c b] E5. destruct (negb _); [done|]. apply Ok_inj in E4. subst s3. intros j' NT. cbn in NT. apply F.
  destruct (decide (j' = j)) as [->|N]; [by rewrite lookup_insert in NT|]. by rewrite lookup_insert_ne in NT by congruence.
Qed.
Lemma gk_create_position i s t k l u q sl su : 0 <= q -> sk s t -> fresh s k ->
  both (sk3 eq) (create_position e i s k l u q sl su) (create_position e i t k l u q sl su).
Proof.
  intros Q0 L FR. unfold create_position. destruct (q =? 0); [done|]. destruct (l =? u); [done|]. rewrite En.
  eapply (both_bind (gpool k)).
  { pose proof (gk_get_pool s t k L) as H. unfold both in H. by destruct (get_pool s k), (get_pool t k). }
  intros p p' H. eapply both_bind; [by apply both_with, gk_get_or_create|]. intros [s1 x1] [t1 y1] ((L1 & X1) & E1).
  eapply both_bind; [apply gk_get_or_create; [exact L1|by eapply fresh_get_or_create]|]. intros [s2 x2] [t2 y2] (L2 & X2). cbn in X1, X2.
  pose proof X1 as [[XE1 XI1] _]. pose proof X2 as [[XE2 XI2] _].
  eapply (both_bind (fun a b => let '(po, p, l', u', x, y) := a in let '(po', p', l'', u'', x', y') := b in
    mod_rel k l u (po, p, u', l', x, y) (po', p', u'', l'', x', y'))).
  { unfold position_create. replace (p_price p') with (p_price p) by (destruct H as [[H _] _]; rewrite H; done). destruct (_ || _); [done|].
    replace (t_index y1) with l by (rewrite XE1; done). replace (t_index y2) with u by (rewrite XE2; done). rewrite XI1, XI2.
    eapply both_bind; [apply (gk_modify k); [exact Q0|done|done|by left|exact H|exact X2|exact X1]|].
    intros [[[[[a1 a2] a3] a4] a5] a6] [[[[[b1 b2] b3] b4] b5] b6] M. exact M. }
  intros [[[[[po p1] l1] u1] x] y] [[[[[po' p2] l2] u2] x'] y'] (PO & H1 & U & W & -> & ->).
  eapply both_bind; [apply gk_add_position; [by apply gk_save|exact PO]|]. intros s3 t3 L3.
  pose proof W as [[WE WI] _]. pose proof U as [[UE UI] _].
  replace (t_index l2) with l by (rewrite WE; done). replace (t_index u2) with u by (rewrite UE; done). rewrite WI, UI.
  eapply both_bind; [by apply gk_update_tick|]. intros s4 t4 L4.
  eapply both_bind; [by apply gk_update_tick|]. intros s5 t5 L5.
  replace (p_price p2) with (p_price p1) by (destruct H1 as [[H1 _] _]; rewrite H1; done).
  apply both_eq; [done|]. intros m0 _. apply both_eq; [done|]. intros m1 _. done.
Qed.
Lemma gk_claim i s t ix : sk s t -> both (sk3 eq) (claim_fee e i s ix) (claim_fee e i t ix).
Proof.
  intros L. unfold claim_fee. rewrite En. eapply both_bind; [by apply gk_get_position|]. intros po po' PO. pose proof PO as [PE _].
  replace (po_key po') with (po_key po) by (rewrite PE; done). replace (po_lower po') with (po_lower po) by (rewrite PE; done).
  replace (po_upper po') with (po_upper po) by (rewrite PE; done).
  eapply both_bind; [by apply gk_get_tick|]. intros lt lt' W. eapply both_bind; [by apply gk_get_tick|]. intros ut ut' U.
  eapply both_bind; [by apply gk_get_pool|]. intros p p' H.
  eapply (both_bind (mod_rel (po_key po) (po_lower po) (po_upper po))).
  { unfold position_claim_fee. replace (po_key po') with (po_key po) by (rewrite PE; done).
    eapply both_bind; [apply (gk_modify (po_key po)); [done|done|exact PE|by right|exact H|exact U|exact W]|].
    intros [[[[[a1 a2] a3] a4] a5] a6] [[[[[b1 b2] b3] b4] b5] b6] ([M1 [M0 MC]] & M2 & M3 & M4 & -> & ->).
    split; [split; [rewrite M1; done|split; [exact M0|intros []; [exact (MC true)|exact (MC false)]]]|]. refine (conj M2 (conj M3 (conj M4 (conj _ _)))); rewrite M1; done. }
  intros [[[[[q p1] u1] l1] x] y] [[[[[q' p2] u2] l2] x'] y'] (PO1 & H1 & U1 & W1 & -> & ->).
  eapply both_bind; [by apply gk_update_position|]. intros s1 t1 L1.
  pose proof W1 as [[WE WI] _]. pose proof U1 as [[UE UI] _].
  replace (t_index l2) with (t_index l1) by (rewrite WE; done). replace (t_index u2) with (t_index u1) by (rewrite UE; done). rewrite WI, UI.
  eapply both_bind; [apply gk_update_tick; [by apply gk_save|done]|]. intros s2 t2 L2.
  eapply both_bind; [by apply gk_update_tick|]. intros s3 t3 L3. done.
Qed.
Lemma gk_remove i s t ix : sk s t -> both (sk3 eq) (remove_position_exec e i s ix) (remove_position_exec e i t ix).
Proof.
  intros L. unfold remove_position_exec. rewrite En. eapply both_bind; [by apply gk_get_position|]. intros po po' PO. pose proof PO as [PE _].
  replace (po_key po') with (po_key po) by (rewrite PE; done). replace (po_lower po') with (po_lower po) by (rewrite PE; done).
  replace (po_upper po') with (po_upper po) by (rewrite PE; done). replace (po_liq po') with (po_liq po) by (rewrite PE; done).
  eapply both_bind; [by apply gk_get_tick|]. intros lt lt' W. eapply both_bind; [by apply gk_get_tick|]. intros ut ut' U.
  eapply both_bind; [by apply gk_get_pool|]. intros p p' H.
  eapply (both_bind (fun a b => let '(po1, p, l, u, x, y, dl, du) := a in let '(po2, p', l', u', x', y', dl', du') := b in
    mod_rel (po_key po) (po_lower po) (po_upper po) (po1, p, u, l, x, y) (po2, p', u', l', x', y') /\ dl' = dl /\ du' = du)).
  { unfold position_remove. replace (po_liq po') with (po_liq po) by (rewrite PE; done).
    eapply both_bind; [apply (gk_modify (po_key po)); [apply PO|done|exact PE|by right|exact H|exact U|exact W]|].
    intros [[[[[a1 a2] a3] a4] a5] a6] [[[[[b1 b2] b3] b4] b5] b6] (M1 & M2 & M3 & M4 & -> & ->). pose proof M1 as [ME _].
    replace (po_owedx b1) with (po_owedx a1) by (rewrite ME; done). replace (po_owedy b1) with (po_owedy a1) by (rewrite ME; done).
    do 2 (apply both_eq; [done|]; intros ? _). split; [exact (conj M1 (conj M2 (conj M3 (conj M4 (conj eq_refl eq_refl)))))|]. split; [destruct M4 as [[M4 _] _]; rewrite M4; done|destruct M3 as [[M3 _] _]; rewrite M3; done]. }
  intros [[[[[[[q p1] l1] u1] x] y] dl] du] [[[[[[[q' p2] l2] u2] x'] y'] dl'] du'] ((PO1 & H1 & U1 & W1 & -> & ->) & -> & ->).
  pose proof W1 as [[WE WI] _]. pose proof U1 as [[UE UI] _].
  replace (t_index l2) with (t_index l1) by (rewrite WE; done). replace (t_index u2) with (t_index u1) by (rewrite UE; done).
  eapply (both_bind sk); [destruct dl; [apply gk_remove_flip; [by apply gk_save|by rewrite ?WI]|rewrite ?WI; apply gk_update_tick; [by apply gk_save|done]]|]. intros s1 t1 L1.
  eapply (both_bind sk); [destruct du; [apply gk_remove_flip; [done|by rewrite ?UI]|rewrite ?UI; by apply gk_update_tick]|]. intros s2 t2 L2.
  eapply both_bind; [by apply gk_remove_position|]. intros [s3 r3] [t3 q3] (L3 & E3). cbn in E3. destruct E3 as [E3 _].
  replace (po_key q3) with (po_key r3) by (rewrite E3; done).
  replace (p_price p2) with (p_price p1) by (destruct H1 as [[H1 _] _]; rewrite H1; done). done.
Qed.
Lemma gpos_clear po po' l : gpos po po' -> gpos (mkPosition (po_key po) (po_liq po) (po_lower po) (po_upper po) (po_fgx po) (po_fgy po) (po_block po) (po_owedx po) (po_owedy po) l)
  (mkPosition (po_key po') (po_liq po') (po_lower po') (po_upper po') (po_fgx po') (po_fgy po') (po_block po') (po_owedx po') (po_owedy po') l).
Proof. intros [E [N0 C]]. split; [rewrite E; done|]. split; [exact N0|]. intros []; [exact (C true)|exact (C false)]. Qed.
Lemma gk_by_key s t tid : sk s t -> both gpos (get_position_by_key s tid) (get_position_by_key t tid).
Proof. intros L. unfold get_position_by_key. destruct (split_token tid) as [[a ix]|]; [|done]. by apply gk_get_position. Qed.

Lemma gk_can_approve i s t a : sk s t -> check_can_approve e i t a = check_can_approve e i s a.
Proof. intros L. unfold check_can_approve. by rewrite (gk_operators _ _ L). Qed.
Lemma gk_can_send i s t a po po' : sk s t -> gpos po po' -> check_can_send e i t a po' = check_can_send e i s a po.
Proof.
  intros L PO. unfold check_can_send. rewrite (gk_operators _ _ L). by replace (po_approvals po') with (po_approvals po) by (destruct PO as [PO _]; rewrite PO; done).
Qed.
Lemma gk_transfer_nft i s t r tid : sk s t -> both sk (transfer_nft e i s r tid) (transfer_nft e i t r tid).
Proof.
  intros L. unfold transfer_nft. destruct (split_token tid) as [[a ix]|] eqn:E; [|done]. destruct (negb _); [done|].
  eapply both_bind; [by apply gk_by_key|]. intros po po' PO. rewrite (gk_can_send i s t a po po' L PO). apply both_eq; [done|]. intros _ _.
  eapply both_bind; [by apply gk_remove_position|]. intros [s1 p1] [t1 q1] (L1 & _). apply gk_add_position; [done|]. by apply gpos_clear.
Qed.
Lemma gk_approvals i s t sp tid add x : sk s t -> both sk (update_approvals e i s sp tid add x) (update_approvals e i t sp tid add x).
Proof.
  intros L. unfold update_approvals. destruct (split_token tid) as [[a ix]|] eqn:E; [|done].
  eapply both_bind; [by apply gk_by_key|]. intros po po' PO. rewrite (gk_can_approve i s t a L).
  apply both_eq; [done|]. intros _ _. replace (po_approvals po') with (po_approvals po) by (destruct PO as [PO _]; rewrite PO; done).
  apply both_eq; [done|]. intros l _. apply gk_put; [done|apply (gk_len _ _ L)|]. by apply gpos_clear.
Qed.
End Gauge.

(** ** Any difference at all *)
Definition gauge (s t : store) : Prop := exists cur D B, gk cur D B s t.
Lemma gauge_fresh cur D B s t : ereach s -> gk cur D B s t -> exists B', gk cur D B' s t /\ forall k, fresh D B' s k.
Proof.
  intros R G. exists (fun k j b => match st_ticks s !! (k, j) with Some _ => B k j b | None => D k b end). split.
  - destruct G as [G1 G2 G3 G4 G5 G6 G7]. constructor; try done.
    + intros k j. pose proof (G3 k j) as H. destruct (st_ticks s !! (k, j)) as [x|] eqn:E; [|rewrite (of2_none _ _ H); constructor].
      destruct (of2_some _ _ _ H) as (y & -> & S & SG & C). constructor. split; [done|]. split; [done|]. intros b. unfold side. rewrite E. exact (C b).
    + intros a ix. pose proof (G5 a ix) as H. destruct (st_positions s !! (a, ix)) as [x|] eqn:E; [|rewrite (of2_none _ _ H); constructor].
      destruct (of2_some _ _ _ H) as (y & -> & S & ? & C). constructor. split; [done|]. split; [done|]. intros b.
      destruct (bounds_of _ _ _ R E) as (lt & ut & -> & -> & _). exact (C b).
  - intros k j E b. by rewrite E.
Qed.

(** the ticks a swap crossed *)
Lemma fold_ticks D cur B k l l' : Forall2 (crossing cur D B k) l l' -> forall (m m' : gmap (pool_key * Z) tick) k' j,
  (k' = k /\ j ∈ map t_index l /\ exists x y, foldl (fun m t => <[(k, t_index t) := t]> m) m l !! (k', j) = Some x /\
     foldl (fun m t => <[(k, t_index t) := t]> m) m' l' !! (k', j) = Some y /\ ctick cur D B k j x y) \/
  ((k' = k -> j ∉ map t_index l) /\ foldl (fun m t => <[(k, t_index t) := t]> m) m l !! (k', j) = m !! (k', j) /\
     foldl (fun m t => <[(k, t_index t) := t]> m) m' l' !! (k', j) = m' !! (k', j)).
Proof.
  induction 1 as [|x y l l' [i X] F IH]; intros m m' k' j; cbn [foldl map].
  - right. split; [intros _; set_solver|done].
  - destruct (IH (<[(k, t_index x) := x]> m) (<[(k, t_index y) := y]> m') k' j) as [(-> & I & J)|(I & J1 & J2)].
    + left. split; [done|]. split; [set_solver|exact J].
    + pose proof X as [[XE XI] _]. assert (YI : t_index y = i) by (rewrite XE; done).
      rewrite J1, J2, XI, YI. destruct (decide ((k', j) = (k, i))) as [E|N].
      * injection E as -> ->. left. split; [done|]. split; [set_solver|]. exists x, y. rewrite !lookup_insert. done.
      * right. rewrite !lookup_insert_ne by congruence. split; [|done]. intros ->. specialize (I eq_refl). assert (j <> i) by congruence. set_solver.
Qed.
Lemma update_ticks_exist k l : forall s s1, update_ticks s k l = Ok s1 -> forall j, j ∈ map t_index l -> is_Some (st_ticks s !! (k, j)).
Proof.
  induction l as [|x l IH]; intros s s1 H j J; cbn in *; [set_solver|]. inv_bind H as s2 E. unfold update_tick in E.
  destruct (st_ticks s !! (k, t_index x)) as [y|] eqn:T; [|done]. apply Ok_inj in E. subst s2.
  destruct (decide (j = t_index x)) as [->|N]; [by rewrite T|]. specialize (IH _ _ H j ltac:(set_solver)). cbn in IH. by rewrite lookup_insert_ne in IH by congruence.
Qed.
Lemma update_ticks_both cur D B k l l' : Forall2 (crossing cur D B k) l l' -> forall s t,
  (forall j, is_Some (st_ticks s !! (k, j)) <-> is_Some (st_ticks t !! (k, j))) -> both (fun _ _ => True) (update_ticks s k l) (update_ticks t k l').
Proof.
  induction 1 as [|x y l l' [i X] F IH]; intros s t E; cbn; [done|]. pose proof X as [[XE XI] _]. assert (YI : t_index y = i) by (rewrite XE; done).
  rewrite XI, YI. unfold update_tick. pose proof (E i) as EI.
  destruct (st_ticks s !! (k, i)) as [x0|] eqn:T1, (st_ticks t !! (k, i)) as [y0|] eqn:T2; cbn.
  - apply IH. intros j. cbn. destruct (decide (j = i)) as [->|N]; [rewrite !lookup_insert; split; eauto|rewrite !lookup_insert_ne by congruence; apply E].
  - destruct (proj1 EI ltac:(eauto)) as [? Q]. discriminate Q.
  - destruct (proj2 EI ltac:(eauto)) as [? Q]. discriminate Q.
  - done.
Qed.
(** a trade moves the current tick its own way *)
Lemma tick_moves gas s now k (d : bool) a b lim r p : ereach s -> st_pools s !! k = Some p -> 0 <= a <= U128MAX ->
  calculate_swap gas s now k d a b lim = Ok r -> if d then p_tick (cr_pool r) <= p_tick p else p_tick p <= p_tick (cr_pool r).
Proof.
  intros R E Ha CS. apply calculate_swap_run in CS. destruct CS as (q & w & Eq & _ & D & RN & _ & ->). assert (q = p) as -> by congruence. clear Eq. cbn [cr_pool].
  pose proof (ereach_store_geo _ _ _ R E) as G. pose proof (ereach_geo _ R _ _ E) as PG. destruct (sg_sp _ _ G) as [S1 _].
  pose proof (loop_start k d lim p a PG Ha D) as I. pose proof (run_geo _ _ _ _ _ _ _ _ G I RN) as (I2 & Z2 & DIR). cbn in DIR.
  pose proof (lv_rest _ _ _ _ I2 (or_intror Z2)) as R2. destruct PG as [R1 _]. destruct d; (eapply rest_mono; [exact S1| | |exact DIR]; assumption).
Qed.
Definition gs3 {A B} (R : B -> B -> Prop) (p q : store * A * B) : Prop :=
  gauge (fst (fst p)) (fst (fst q)) /\ snd (fst p) = snd (fst q) /\ R (snd p) (snd q).
Definition same_swap (r q : calc_result) : Prop := cr_in q = cr_in r /\ cr_out q = cr_out r /\ cr_start q = cr_start r /\ cr_target q = cr_target r /\ cr_fee q = cr_fee r /\
  p_tick (cr_pool q) = p_tick (cr_pool r) /\ p_price (cr_pool q) = p_price (cr_pool r) /\ p_liq (cr_pool q) = p_liq (cr_pool r).
Lemma gauge_swap e i s t k d a b lim : ereach s -> 0 <= a <= U128MAX -> clean_swap e s k d a b lim -> gauge s t ->
  both (gs3 same_swap) (swap_internal e i s k d a b lim) (swap_internal e i t k d a b lim).
Proof.
  intros R Ha CS (cur & D & B & L). unfold swap_internal.
  pose proof (gk_calc cur D B (e_millis e) k s t (e_gas e) d a b lim L) as C. unfold both in C.
  destruct (calculate_swap (e_gas e) s (e_millis e) k d a b lim) as [r| |] eqn:E, (calculate_swap (e_gas e) t (e_millis e) k d a b lim) as [q| |]; try done. cbn [bind].
  destruct C as (E1 & E2 & E3 & E4 & E5 & H & F). unfold clean_swap in CS. rewrite E in CS.
  assert (PS : exists p, st_pools s !! k = Some p).
  { clear - E. unfold calculate_swap, get_pool in E. destruct (a =? 0); [done|]. destruct (st_pools s !! k); [eauto|done]. }
  destruct PS as [p EP]. specialize (CS r p eq_refl EP). pose proof (tick_moves _ _ _ _ _ _ _ _ _ _ R EP Ha E) as MO.
  assert (CU : p_tick p = cur k).
  { pose proof (gk_pool _ _ _ _ _ L k) as O. rewrite EP in O. destruct (of2_some _ _ _ O) as (p' & _ & O'). apply O'. }
  eapply (both_bind (fun s1 t1 => gauge (save_pool s1 k (cr_pool r)) (save_pool t1 k (cr_pool q)))).
  { pose proof (update_ticks_both cur D B k _ _ F s t) as U. unfold both in *.
    assert (EX : forall j, is_Some (st_ticks s !! (k, j)) <-> is_Some (st_ticks t !! (k, j))).
    { intros j. pose proof (gk_tick _ _ _ _ _ L k j) as O. destruct O; split; intros [? Q]; eauto; done. }
    specialize (U EX). pose proof (update_ticks_exist k (cr_ticks r) s) as UE. pose proof (update_ticks_inv s k (cr_ticks r)) as US. pose proof (update_ticks_inv t k (cr_ticks q)) as UT.
    destruct (update_ticks s k (cr_ticks r)) as [s1| |], (update_ticks t k (cr_ticks q)) as [t1| |]; try done.
    specialize (UE _ eq_refl). rewrite (US _ eq_refl), (UT _ eq_refl). clear U US UT.
    exists (fun k' => if decide (k' = k) then p_tick (cr_pool r) else cur k'), D, B. constructor; cbn; try apply L.
    - intros k'. destruct (decide (k' = k)) as [->|N].
      + rewrite !lookup_insert. constructor. split; [exact H|]. by rewrite decide_True.
      + rewrite !lookup_insert_ne by congruence. pose proof (gk_pool _ _ _ _ _ L k') as O. inversion O as [x y [O1 O2] Q1 Q2|]; constructor. split; [exact O1|]. by rewrite decide_False.
    - intros k' j. pose proof (gk_tick _ _ _ _ _ L k' j) as O.
      destruct (fold_ticks D cur B k _ _ F (st_ticks s) (st_ticks t) k' j) as [(-> & J & x & y & -> & -> & X)|(J & -> & ->)].
      + constructor. destruct X as (X1 & XS & X2). split; [exact X1|]. split; [exact XS|]. intros c1. specialize (X2 c1).
        assert (PA : passed d (p_tick p) (p_tick (cr_pool r)) j).
        { apply CS; [|exact J]. apply (lq_init _ (ereach_liq _ R)); [by rewrite EP|]. by apply UE. }
        unfold side in *. rewrite decide_True by done. rewrite CU in PA. unfold passed in PA.
        destruct (Z.leb_spec j (cur k)), (Z.leb_spec j (p_tick (cr_pool r))); try (destruct d; lia);
          [exact X2|replace (B k j c1) with (D k c1 - (D k c1 - B k j c1)) by lia; exact X2].
      + inversion O as [x y (O1 & OS & O2) Q1 Q2|]; constructor. split; [exact O1|]. split; [exact OS|]. intros c1. specialize (O2 c1). unfold side in *.
        destruct (decide (k' = k)) as [->|N]; [|exact O2].
        assert (PA : ~ passed d (p_tick p) (p_tick (cr_pool r)) j).
        { intros PA. apply (J eq_refl). apply CS; [|exact PA]. apply (lq_init _ (ereach_liq _ R)); [by rewrite EP|]. rewrite <- Q1. eauto. }
        rewrite CU in PA, MO. unfold passed in PA.
        destruct (Z.leb_spec j (cur k)), (Z.leb_spec j (p_tick (cr_pool r))); try exact O2; destruct d; lia. }
  intros s1 t1 L1. rewrite E1, E2. pose proof H as [HE _].
  destruct d; (apply both_eq; [done|]); intros m _; (split; [exact L1|]; split; [done|]); split_and!; try done; cbn; rewrite HE; done.
Qed.
Lemma gauge_route e i hops : forall s t a, creach s -> 0 <= a <= U128MAX -> clean_hops e i s a hops -> gauge s t ->
  both (gs3 eq) (swap_route_internal e i s a hops) (swap_route_internal e i t a hops).
Proof.
  induction hops as [|h hops IH]; intros s t a R Ha C L; cbn [swap_route_internal]; [done|]. destruct C as [C1 C2].
  eapply both_bind; [apply both_with, gauge_swap; [by apply creach_ereach|done|done|done]|].
  intros [[s1 m1] r1] [[t1 n1] q1] ((L1 & E1 & E2) & E). cbn in E1, E2. subst. rewrite (proj1 (proj2 E2)).
  eapply both_bind; [apply IH; [| |by eapply C2|exact L1]|].
  - eapply cr_step; [exact R|]. eapply ce_swap; [exact Ha| |exact E|exact C1].
    destruct (hop_x_to_y h); cbn; unfold MIN_SQRT_PRICE, MAX_SQRT_PRICE, U128MAX; lia.
  - apply swap_internal_inv in E as (E & _). apply calculate_swap_out in E. tauto.
  - intros [[s2 m2] r2] [[t2 n2] q2] (L2 & F1 & F2). cbn in F1, F2. subst. done.
Qed.
Lemma gauge_of cur D B s t : gk cur D B s t -> gauge s t.
Proof. intros G. by exists cur, D, B. Qed.
Definition alike_to (a b : store * list out_msg * list (string * Z)) : Prop :=
  let '(s, ms, at') := a in let '(t, ms', at'') := b in gauge s t /\ ms' = ms /\ at'' = at'.
Lemma created_liq a b c d r p : pool_create a b c d r = Ok p -> 0 <= p_liq p <= U128MAX.
Proof. intros H. unfold pool_create in H. inv_bind H as ok EO. destruct ok; [|done]. apply Ok_inj in H. subst p. cbn. unfold U128MAX. lia. Qed.
Lemma gauge_dispatch e i s t m : creach s -> msg_typed m = true -> clean_call e i s m -> gauge s t ->
  both alike_to (dispatch e i s m) (dispatch e i t m).
Proof.
  intros R MT CC (cur & D & B0 & L0). pose proof (creach_ereach _ R) as RE. destruct (gauge_fresh _ _ _ _ _ RE L0) as (B & L & FR). clear B0 L0.
  pose proof (gk_config _ _ _ _ _ L) as C.
  assert (SE : forall r q, both (sk3 cur D B eq) r q -> both alike_to r q).
  { intros r q M. unfold both in *. destruct r as [[[s1 m1] a1]| |], q as [[[s2 m2] a2]| |]; try done. destruct M as (M1 & M2 & M3). cbn in *. split; [by eapply gauge_of|done]. }
  destruct m; cbn [dispatch clean_call] in *.
  - unfold change_admin. rewrite C. destruct (negb _); [done|]. split; [by eapply gauge_of, gk_set_config|done].
  - unfold withdraw_protocol_fee. eapply both_bind; [by apply (gk_get_pool cur D B)|]. intros p p' H. pose proof H as [[E [LR HC]] HT].
    replace (p_receiver p') with (p_receiver p) by (rewrite E; done).
    destruct (negb _); [done|]. replace (p_protx p') with (p_protx p) by (rewrite E; done). replace (p_proty p') with (p_proty p) by (rewrite E; done).
    split; [|done]. eapply gauge_of, gk_save; [exact L|]. split; [split; [rewrite E; done|split; [exact LR|]]|done]. intros []; [exact (HC true)|exact (HC false)].
  - unfold change_protocol_fee. rewrite C. destruct (negb _); [done|]. split; [by eapply gauge_of, gk_set_config|done].
  - unfold change_fee_receiver. rewrite C. destruct (negb _); [done|]. eapply both_bind; [by apply (gk_get_pool cur D B)|]. intros p p' H. pose proof H as [[E [LR HC]] HT].
    split; [|done]. eapply gauge_of, gk_save; [exact L|]. split; [split; [rewrite E; done|split; [exact LR|]]|done]. intros []; [exact (HC true)|exact (HC false)].
  - apply SE. eapply gk_create_position; [done| |done|done]. cbn [msg_typed] in MT. repeat (apply andb_prop in MT as [MT ?]). match goal with H : u128_ok liq = true |- _ => apply in_range_spec in H; lia end.
  - unfold swap. eapply both_bind; [apply gauge_swap; [done| |done|by eapply gauge_of]|].
    { cbn [msg_typed] in MT. apply andb_true_iff in MT as [MT _]. apply andb_true_iff in MT as [_ MT]. by apply in_range_spec in MT. }
    intros [[s1 m1] r1] [[t1 n1] q1] (L1 & E1 & E2). cbn in E1, E2. subst. destruct E2 as (E2 & E3 & _). rewrite E2, E3. done.
  - unfold swap_route. eapply both_bind; [apply gauge_route; [done| |done|by eapply gauge_of]|].
    { cbn [msg_typed] in MT. do 3 (apply andb_true_iff in MT as [MT _]). by apply in_range_spec in MT. }
    intros [[s1 m1] r1] [[t1 n1] q1] (L1 & E1 & E2). cbn in E1, E2. subst.
    apply both_eq; [done|]. intros mn _. destruct (_ <? _); done.
  - unfold transfer_position. eapply both_bind; [by apply (gk_get_position cur D B)|]. intros po po' PO.
    eapply both_bind; [by apply (gk_remove_position cur D B)|]. intros [s1 p1] [t1 q1] (L1 & _). destruct (negb _); [done|].
    eapply both_bind; [apply (gk_add_position cur D B); [exact L1|by apply gpos_clear]|]. intros s2 t2 L2. split; [by eapply gauge_of|done].
  - apply SE. by eapply gk_claim.
  - apply SE. by eapply gk_remove.
  - unfold create_pool. rewrite C. destruct (negb _); [done|]. apply both_eq; [done|]. intros _ _.
    apply both_eq; [done|]. intros k EK. apply both_eq; [done|]. intros _ _.
    pose proof (gk_pool _ _ _ _ _ L k) as H. destruct (st_pools s !! k) as [p0|] eqn:EP; [destruct (of2_some _ _ _ H) as (p1 & -> & _); done|]. rewrite (of2_none _ _ H).
    apply both_eq; [done|]. intros p EPC. split; [|done].
    exists (fun k' => if decide (k' = k) then p_tick p else cur k'), (fun k' b => if decide (k' = k) then 0 else D k' b), (fun k' j b => if decide (k' = k) then 0 else B k' j b).
    pose proof (ereach_liq _ RE) as LI. constructor; cbn; try apply L.
    + intros k'. destruct (decide (k' = k)) as [->|N].
      * rewrite !lookup_insert. constructor. split; [split; [by destruct p|split; [by eapply created_liq, map_err_ok|]]|by rewrite decide_True]. intros b. rewrite decide_True by done. exists 0. lia.
      * rewrite !lookup_insert_ne by congruence. pose proof (gk_pool _ _ _ _ _ L k') as O. inversion O as [x y [[O1 [OL O2]] O3] Q1 Q2|]; constructor.
        split; [split; [done|split; [done|]]|by rewrite decide_False]. intros b. rewrite decide_False by done. apply O2.
    + intros k' j. pose proof (gk_tick _ _ _ _ _ L k' j) as O. inversion O as [x y (O1 & OS & O2) Q1 Q2|]; constructor. split; [done|]. split; [done|]. intros b. unfold side.
      destruct (decide (k' = k)) as [->|N]; [|apply O2]. exfalso. destruct (lq_pool _ LI k j ltac:(rewrite <- Q1; eauto)) as [? Q]. rewrite EP in Q. discriminate Q.
    + intros a ix. pose proof (gk_position _ _ _ _ _ L a ix) as O. inversion O as [x y (O1 & ON & O2) Q1 Q2|]; constructor. split; [done|]. split; [done|]. intros b.
      destruct (decide (po_key x = k)) as [EK'|N]; [|apply O2]. exfalso. destruct (lq_pos _ LI (a, ix) x ltac:(done)) as [_ [? Q]]. rewrite EK', EP in Q. discriminate Q.
  - unfold add_fee_tier. rewrite C. destruct (negb _); [done|]. destruct (_ || _); [done|]. destruct (_ <=? _); [done|].
    split; [by eapply gauge_of, gk_set_config|done].
  - unfold remove_fee_tier. rewrite C. destruct (negb _); [done|]. destruct (remove_first _ _); [|done]. split; [by eapply gauge_of, gk_set_config|done].
  - unfold handle_transfer_nft. eapply both_bind; [by apply (gk_transfer_nft cur D B)|]. intros s1 t1 L1. split; [by eapply gauge_of|done].
  - apply SE. eapply gk_create_position; [done| |done|done]. cbn [msg_typed] in MT. repeat (apply andb_prop in MT as [MT ?]). match goal with H : u128_ok liq = true |- _ => apply in_range_spec in H; lia end.
  - unfold handle_burn. eapply both_bind; [by apply (gk_by_key cur D B)|]. intros po po' PO. destruct (split_token token_id) as [[a ix]|] eqn:E; [|done].
    rewrite (gk_can_send cur D B e i s t a po po' L PO). apply both_eq; [done|]. intros _ _. apply SE. by eapply gk_remove.
  - unfold handle_send_nft. eapply both_bind; [by apply (gk_transfer_nft cur D B)|]. intros s1 t1 L1. split; [by eapply gauge_of|done].
  - unfold handle_approve. eapply both_bind; [by apply (gk_approvals cur D B)|]. intros s1 t1 L1. split; [by eapply gauge_of|done].
  - unfold handle_revoke. eapply both_bind; [by apply (gk_approvals cur D B)|]. intros s1 t1 L1. split; [by eapply gauge_of|done].
  - unfold handle_approve_all. cbv zeta. destruct (is_expired e _); [done|]. rewrite (gk_operators _ _ _ _ _ L). split; [by eapply gauge_of, gk_set_operators|done].
  - unfold handle_revoke_all. rewrite (gk_operators _ _ _ _ _ L). split; [by eapply gauge_of, gk_set_operators|done].
Qed.

(** ** Whole histories *)
Definition after (c : call) (s : store) : store := let '(e, i, m) := c in match execute e i s m with Ok (s', _, _) => s' | _ => s end.
(** every trade crosses the initialized ticks that it passes, and no other *)
Fixpoint clean_play (zs : list call) (s : store) : Prop :=
  match zs with
  | [] => True
  | c :: zs' => (let '(e, i, m) := c in clean_call e i s m) /\ clean_play zs' (after c s)
  end.
Lemma gauge_execute e i s t m : clean_history s -> clean_call e i s m -> gauge s t -> both alike_to (execute e i s m) (execute e i t m).
Proof.
  intros CH CC G. unfold execute. destruct (env_typed e i && msg_typed m) eqn:ET; [|done]. apply andb_true_iff in ET as [_ ET].
  apply gauge_dispatch; [by apply clean_history_creach|done..].
Qed.
Theorem gauge_play zs : forall s t, clean_history s -> clean_play zs s -> gauge s t ->
  fst (play zs t) = fst (play zs s) /\ gauge (snd (play zs s)) (snd (play zs t)).
Proof.
  induction zs as [|[[e i] m] zs IH]; intros s t CH CP G; [done|]. destruct CP as [CC CP]. cbn [after] in CP.
  pose proof (gauge_execute e i s t m CH CC G) as H. cbn [play]. unfold both in H.
  destruct (execute e i s m) as [[[s1 ms] at']|x|] eqn:E, (execute e i t m) as [[[t1 ms'] at'']|x'|]; try done.
  - destruct H as (G1 & -> & ->). destruct (IH s1 t1 (ch_call _ _ _ _ _ _ _ CH CC E) CP G1) as [I1 I2].
    destruct (play zs s1) as [o s2], (play zs t1) as [o' t2]. cbn in *. by rewrite I1.
  - subst x'. destruct (IH s t CH CP G) as [I1 I2]. destruct (play zs s) as [o s2], (play zs t) as [o' t2]. cbn in *. by rewrite I1.
  - destruct (IH s t CH CP G) as [I1 I2]. destruct (play zs s) as [o s2], (play zs t) as [o' t2]. cbn in *. by rewrite I1.
Qed.

(** ** The same market with the counters of one pool elsewhere
    The counters of a pool move on by [dx] and [dy]; so does what its ticks at or below the current tick have recorded. *)
Definition move_pool (dx dy : Z) (p : pool) : pool :=
  mkPool (p_liq p) (p_price p) (p_tick p) ((p_fgx p + dx) mod 2 ^ 128) ((p_fgy p + dy) mod 2 ^ 128) (p_protx p) (p_proty p) (p_start p) (p_last p) (p_receiver p).
Definition move_tick (dx dy : Z) (t : tick) : tick :=
  mkTick (t_index t) (t_sign t) (t_change t) (t_gross t) (t_price t) ((t_fox t + dx) mod 2 ^ 128) ((t_foy t + dy) mod 2 ^ 128) (t_secs t).
Definition moved (k : pool_key) (dx dy : Z) (s : store) : store :=
  match st_pools s !! k with
  | None => s
  | Some p => set_ticks (set_pools s (<[k := move_pool dx dy p]> (st_pools s)))
      (map_imap (fun x t => Some (if bool_decide (fst x = k) && (snd x <=? p_tick p) then move_tick dx dy t else t)) (st_ticks s))
  end.
Lemma liq_ranges s : ereach s -> (forall k p, st_pools s !! k = Some p -> 0 <= p_liq p <= U128MAX) /\ (forall o po, st_positions s !! o = Some po -> 0 <= po_liq po).
Proof.
  intros R. split.
  - intros k p H. by destruct (ereach_geo _ R _ _ H).
  - intros o po H. destruct (lq_pos _ (ereach_liq _ R) _ _ H) as [(X & _) _]. lia.
Qed.
Lemma gauge_refl s : ereach s -> gauge s s.
Proof.
  intros R. pose proof (ereach_indexed _ R) as IX. destruct (liq_ranges _ R) as [PR LR]. exists (fun k => match st_pools s !! k with Some p => p_tick p | None => 0 end), (fun _ _ => 0), (fun _ _ _ => 0). constructor; try done.
  - intros k. destruct (st_pools s !! k) as [p|] eqn:E; constructor. split; [split; [by destruct p|split; [by eapply PR|intros b; exists 0; lia]]|by rewrite E].
  - intros k j. destruct (st_ticks s !! (k, j)) as [t|] eqn:E; constructor. split; [split; [by destruct t|by eapply IX]|]. split; [by left|].
    intros b. exists 0. unfold side. destruct (_ <=? _); lia.
  - intros a ix. destruct (st_positions s !! (a, ix)) as [po|] eqn:E; constructor. split; [by destruct po|]. split; [by eapply LR|]. intros b. exists 0. lia.
Qed.
Lemma moved_gauge k dx dy s : ereach s -> gauge s (moved k dx dy s).
Proof.
  intros R. pose proof (ereach_indexed _ R) as IX. unfold moved. destruct (st_pools s !! k) as [p|] eqn:EP; [|by apply gauge_refl]. destruct (liq_ranges _ R) as [PR LR].
  exists (fun k => match st_pools s !! k with Some p => p_tick p | None => 0 end), (fun (k' : pool_key) (b : bool) => if decide (k' = k) then (if b then dx else dy) else 0),
    (fun (k' : pool_key) (j : Z) (b : bool) => if decide (k' = k) then (if b then dx else dy) else 0). constructor; try done; cbn.
  - intros k'. destruct (decide (k' = k)) as [->|N].
    + rewrite EP, lookup_insert. constructor. split; [split; [done|split; [by eapply PR|]]|by rewrite EP]. intros b. rewrite decide_True by done.
      destruct b; cbn; apply (cong_of_mod _).
    + rewrite lookup_insert_ne by congruence. destruct (st_pools s !! k') as [q|] eqn:E; constructor. split; [split; [by destruct q|split; [by eapply PR|]]|by rewrite E].
      intros b. rewrite decide_False by done. exists 0. lia.
  - intros k' j. rewrite map_lookup_imap. destruct (st_ticks s !! (k', j)) as [t|] eqn:E; cbn; constructor.
    pose proof (IX _ _ _ E) as I. destruct (decide (k' = k)) as [->|N].
    + rewrite bool_decide_eq_true_2 by done. cbn [andb]. destruct (j <=? p_tick p) eqn:J.
      * split; [by split|]. split; [by left|]. intros b. unfold side. rewrite EP, J, !decide_True by done. destruct b; cbn; apply (cong_of_mod _).
      * split; [split; [by destruct t|done]|]. split; [by left|]. intros b. unfold side. rewrite EP, J, !decide_True by done. exists 0. lia.
    + rewrite bool_decide_eq_false_2 by done. cbn [andb]. split; [split; [by destruct t|done]|]. split; [by left|]. intros b. unfold side. rewrite !decide_False by done.
      exists 0. destruct (_ <=? _); lia.
  - intros a ix. destruct (st_positions s !! (a, ix)) as [po|] eqn:E; constructor. split; [by destruct po|]. split; [by eapply LR|]. intros b. exists 0. lia.
Qed.

(** C107: move the counters of a pool anywhere, and nobody will ever notice. *)
Theorem C107_counters zs k dx dy s : clean_history s -> clean_play zs s -> fst (play zs (moved k dx dy s)) = fst (play zs s).
Proof.
  intros CH CP. apply gauge_play; [done..|]. by apply moved_gauge, creach_ereach, clean_history_creach.
Qed.
(** what is quoted to traders meanwhile *)
Definition same_quote (r q : quote_result) : Prop :=
  q_in q = q_in r /\ q_out q = q_out r /\ q_target q = q_target r /\ map t_index (q_ticks q) = map t_index (q_ticks r).
Lemma gauge_quote s t e k d a b lim : gauge s t -> both same_quote (query_quote e s k d a b lim) (query_quote e t k d a b lim).
Proof.
  intros (cur & D & B & G).
  unfold query_quote. eapply both_bind; [by apply (gk_calc cur D B)|]. intros r q (E1 & E2 & E3 & E4 & E5 & [H _] & F). cbn.
  unfold same_quote. cbn. split_and!; try done; [by rewrite H|]. clear - F. induction F as [|x y l l' [j [[X _] _]] F IH]; [done|]. cbn. rewrite IH, X. done.
Qed.
Theorem C107_quotes zs k dx dy s e k' d a b lim : clean_history s -> clean_play zs s ->
  both same_quote (query_quote e (snd (play zs s)) k' d a b lim) (query_quote e (snd (play zs (moved k dx dy s))) k' d a b lim).
Proof.
  intros CH CP. apply gauge_quote, gauge_play; [done..|]. by apply moved_gauge, creach_ereach, clean_history_creach.
Qed.

(** * Examples *)
Fixpoint clean_playb (zs : list call) (s : store) : bool :=
  match zs with
  | [] => true
  | c :: zs' => (let '(e, i, m) := c in clean_callb e s m) && clean_playb zs' (after c s)
  end.
Lemma clean_playb_sound zs : forall s, reachable s -> clean_playb zs s = true -> clean_play zs s.
Proof.
  induction zs as [|[[e i] m] zs IH]; intros s R H; cbn [clean_playb clean_play] in *; [done|]. apply andb_true_iff in H as [H1 H2]. split.
  - apply clean_callb_sound; [by apply reachable_ereach|done].
  - apply IH; [|exact H2]. cbn [after]. destruct (execute e i s m) as [[[s1 ms] at']| |] eqn:E; try exact R. by eapply reach_call.
Qed.
(** The counter of token x stands at its last value before it starts again from zero.  Then carol trades, and alice collects and leaves. *)
Definition ga_dx : Z := match st_pools sc0 !! v_key with Some p => 2 ^ 128 - 1 - p_fgx p | None => 0 end.
Definition ga_calls : list call :=
  [(v_env, v_info "carol", Swap v_key true 2000 true MIN_SQRT_PRICE); (v_env, v_info "alice", ClaimFee 0);
   (v_env, v_info "carol", Swap v_key false 14000 true MAX_SQRT_PRICE); (v_env, v_info "alice", RemovePosition 0); (v_env, v_info "bob", ClaimFee 0)].
Definition fgx_of (s : store) : Z := match st_pools s !! v_key with Some p => p_fgx p | None => 0 end.
(** a trade that stops exactly at a tick does not cross it; after that the counters do matter *)
Definition gb_calls : list (string * exec_msg) :=
  [("alice", AddFeeTier v_tier);
   ("alice", CreatePool "tokeny" "tokenx" v_tier SP_ONE 0);
   ("alice", CreatePosition v_key (-10) 30 1000000000000 SP_ONE SP_ONE);
   ("bob", CreatePosition v_key 10 20 20000000000000000 SP_ONE SP_ONE)]%string.
Definition gb_late : list call :=
  [(v_env, v_info "carol", Swap v_key false 499 false 1000500100010000000000000); (v_env, v_info "bob", ClaimFee 0)].
Theorem C107_unclean_refuted : exists zs s k dx dy, clean_history s /\ fst (play zs (moved k dx dy s)) <> fst (play zs s).
Proof.
  destruct (done_inv (fun s => is_ok (clean_start 10000000000 gb_calls) = true /\
     last (fst (play gb_late s)) = Some (Ok ([Cw20Transfer "tokeny" "bob" 60000], [("amount_x"%string, 0); ("amount_y"%string, 60000)])) /\
     last (fst (play gb_late (moved v_key 0 (10 ^ 20) s))) = Some (Ok ([Cw20Transfer "tokeny" "bob" 60200], [("amount_x"%string, 0); ("amount_y"%string, 60200)])))
    (start 10000000000 gb_calls)) as (s & E & CL & A & A').
  { vm_compute. repeat split; reflexivity. }
  exists gb_late, s, v_key, 0, (10 ^ 20). split; [exact (clean_by_check _ _ _ E CL)|]. intros X. rewrite X, A in A'. discriminate A'.
Qed.
Example ex_C107 : clean_history sc0 /\ clean_play ga_calls sc0 /\ fgx_of (moved v_key ga_dx 5 sc0) = 2 ^ 128 - 1 /\
  fgx_of (snd (play ga_calls (moved v_key ga_dx 5 sc0))) = 4398944253379188994640 /\
  map (fun r => match r with Ok (ms, _) => ms | _ => [] end) (fst (play ga_calls (moved v_key ga_dx 5 sc0))) =
    [[Cw20TransferFrom "tokenx" "carol" "self" 2000; Cw20Transfer "tokeny" "carol" 1987]; [Cw20Transfer "tokenx" "alice" 22];
     [Cw20TransferFrom "tokeny" "carol" "self" 14000; Cw20Transfer "tokenx" "carol" 13913];
     [Cw20Transfer "tokenx" "alice" 2844; Cw20Transfer "tokeny" "alice" 17224]; []]%string.
Proof.
  split; [apply sc0_clean|]. split; [apply clean_playb_sound; [apply sc0_reachable|vm_compute; reflexivity]|].
  split; [vm_compute; reflexivity|]. split; [vm_compute; reflexivity|]. vm_compute. reflexivity.
Qed.
Print Assumptions C107_counters.
Print Assumptions C107_quotes.
