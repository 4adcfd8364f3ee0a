(** C105: claiming in between. *)
From Verif Require Import Base Decimal SqrtPrice Clamm Log FeeGrowth Types Tick Pool Position
  Tickmap Keys State Swap Exec Query Tactics PriceProofs ClammProofs BitmapProofs Frame Handlers History Basic PosList Ledger Scenario SwapInv SwapGeo SwapLoop Modify PSum LiqInv
  Vectors Geo Ops PropTrade PropLiq PropSwap Growth Value Fund Flow PropSolv PropExit PropPerm PropLocal PropProt PropClock PropOk PropSplit PropOrder PropLeave.
From stdpp Require Import gmap strings.
From Coq Require Import Lia.
Open Scope Z_scope.

(** * Two runs that differ in a claim of [a] *)
(** every pool, and everybody but [a] *)
Notation besides a := (agree (fun _ => True) (fun b : string => b <> a)).
(** [u]: the run with the claim; [w]: the run without. They differ in the sign of zeros, in what [a]'s positions have been paid, and in recorded times. *)
Definition twin (T : Z) (a : string) (u w : store) : Prop :=
  exists X Y, same_store u X /\ besides a X Y /\ alike Y w /\ begun T Y /\ begun T w.
Lemma begun_later T T' s : T <= T' -> begun T s -> begun T' s.
Proof. intros L B k p E. specialize (B k p E). lia. Qed.
Lemma twin_later T T' a u w : T <= T' -> twin T a u w -> twin T' a u w.
Proof. intros L (X & Y & A & B & C & D & E). exists X, Y. split_and!; try done; by eapply begun_later. Qed.
(** what [a] holds and permits *)
Definition kept (a : string) (s s' : store) : Prop :=
  (forall j, st_positions s' !! (a, j) = st_positions s !! (a, j)) /\ st_poslen s' !! a = st_poslen s !! a /\
  forall b, st_operators s' !! (a, b) = st_operators s !! (a, b).
Lemma kept_refl a s : kept a s s.
Proof. done. Qed.
Lemma kept_trans a s t u : kept a s t -> kept a t u -> kept a s u.
Proof. intros (A & B & C) (A' & B' & C'). split_and!; intros; by rewrite ?A', ?B', ?C'. Qed.
Lemma twin_step T a u w e i m : reachable u -> twin T a u w -> T <= e_millis e -> env_typed e i = true -> ~ concerns i m a ->
  match execute e i u m, execute e i w m with
  | Ok (u', ms, at'), Ok (w', ms', at'') => ms' = ms /\ at'' = at' /\ twin (e_millis e) a u' w' /\ kept a u u' /\ kept a w w'
  | Err x, Err y => x = y
  | Panic, Panic => True
  | _, _ => False
  end.
Proof.
  intros R (X & Y & SX & AY & AW & BY & BW) LT TY NC.
  pose proof (C101_invisible e i u X m R SX) as Q1.
  pose proof (C72_depends_only e i m X Y (fun _ => True) (fun b => b <> a) (fun _ _ => Logic.I)) as Q2.
  specialize (Q2 ltac:(intros b Hb ->; exact (NC Hb)) AY).
  assert (OT : other_time e e) by done.
  assert (J : by_permission m -> judged e e Y m) by (intros _; split_and!; try done; destruct m; try exact Logic.I; destruct expires; done).
  pose proof (C74_time e e i Y w m AW (begun_later _ _ _ LT BY) (begun_later _ _ _ LT BW) OT TY TY J) as Q3.
  destruct (execute e i u m) as [[[u' mu] au]|x|] eqn:EU, (execute e i X m) as [[[X' mx] ax]|x1|], (execute e i Y m) as [[[Y' my] ay]|x2|], (execute e i w m) as [[[w' mw] aw]|x3|] eqn:EW; try done; try congruence.
  destruct Q1 as (-> & -> & S1). destruct Q2 as (-> & -> & S2). destruct Q3 as (-> & -> & S3 & S4 & S5).
  split; [done|]. split; [done|]. split; [exists X', Y'; split_and!; done|].
  pose proof (C72_changes_only _ _ _ _ _ _ _ EU) as F. pose proof (C72_changes_only _ _ _ _ _ _ _ EW) as F'.
  split; split_and!; intros; [by apply (ou_position _ _ _ _ _ F)|by apply (ou_len _ _ _ _ _ F)|by apply (ou_operator _ _ _ _ _ F)|
    by apply (ou_position _ _ _ _ _ F')|by apply (ou_len _ _ _ _ _ F')|by apply (ou_operator _ _ _ _ _ F')].
Qed.
(** calls that are not about [a] *)
Definition not_about (a : string) (c : call) : Prop := let '(e, i, m) := c in ~ concerns i m a.
Lemma twin_play zs ys : forall T a u w, reachable u -> twin (T / 1000000) a u w -> in_order T (zs ++ ys) -> Forall (not_about a) zs ->
  fst (play zs u) = fst (play zs w) /\ (exists T', twin (T' / 1000000) a (snd (play zs u)) (snd (play zs w)) /\ in_order T' ys) /\ reachable (snd (play zs u)) /\
  kept a u (snd (play zs u)) /\ kept a w (snd (play zs w)).
Proof.
  induction zs as [|[[e i] m] zs IH]; intros T a u w R TW O NA; [split_and!; try done; eauto|].
  inversion NA as [|? ? N1 N2]; subst. destruct O as (O1 & O2 & O3). cbn in N1.
  assert (M : T / 1000000 <= e_millis e) by (unfold e_millis; apply Z.div_le_mono; lia).
  pose proof (twin_step _ _ _ _ e i m R TW M O2 N1) as Q. cbn [play].
  destruct (execute e i u m) as [[[u' mu] au]|x|] eqn:EU, (execute e i w m) as [[[w' mw] aw]|y|] eqn:EW; try done.
  - destruct Q as (-> & -> & TW' & PU & PW). specialize (IH (e_nanos e) a u' w' (reach_call _ _ _ _ _ _ _ R EU) TW' O3 N2).
    destruct IH as (I1 & I2 & I3 & I4 & I5). destruct (play zs u') as [o v], (play zs w') as [o' v']. cbn in *. subst o'.
    split; [done|]. split; [done|]. split; [done|]. split; by eapply kept_trans.
  - subst y. specialize (IH (e_nanos e) a u w R (twin_later _ _ _ _ _ M TW) O3 N2).
    destruct IH as (I1 & I2 & I3 & I4 & I5). destruct (play zs u) as [o v], (play zs w) as [o' v']. cbn in *. by subst o'.
  - specialize (IH (e_nanos e) a u w R (twin_later _ _ _ _ _ M TW) O3 N2).
    destruct IH as (I1 & I2 & I3 & I4 & I5). destruct (play zs u) as [o v], (play zs w) as [o' v']. cbn in *. by subst o'.
Qed.
Lemma play_reach zs : forall s, reachable s -> reachable (snd (play zs s)).
Proof.
  induction zs as [|[[e i] m] zs IH]; intros s R; cbn [play]; [done|]. destruct (execute e i s m) as [[[s' ms] at']|x|] eqn:E.
  - specialize (IH s' (reach_call _ _ _ _ _ _ _ R E)). by destruct (play zs s').
  - specialize (IH s R). by destruct (play zs s).
  - specialize (IH s R). by destruct (play zs s).
Qed.

(** * After a claim *)
Lemma same_of_net t t' : akin t t' -> t_gross t' = t_gross t -> net t' = net t -> 0 <= t_change t -> 0 <= t_change t' -> same_tick t' t.
Proof.
  intros A G N C C'. apply akin_parts in A as (A1 & A2 & A3 & A4 & A5). unfold net in N.
  assert (Q : t_change t' = t_change t /\ (t_sign t' = t_sign t \/ t_change t = 0)) by (destruct (t_sign t), (t_sign t'); (split; [lia|]); try (by left); right; lia).
  destruct Q as [Q1 Q2]. split; [destruct t, t'; cbn in *; by subst|]. destruct Q2 as [->|Q2]; [by left|right; lia].
Qed.
Lemma claim_twin e i s ix s' ms at' : reachable s -> begun (e_millis e) s -> execute e i s (ClaimFee ix) = Ok (s', ms, at') ->
  twin (e_millis e) (i_sender i) s' s.
Proof.
  intros R B H. apply reachable_ereach in R. unfold execute in H. destruct (_ && _); [|done]. cbn [dispatch] in H.
  destruct (took_claim _ _ _ _ _ _ _ R H) as (po0 & p0 & K).
  destruct (claim_inv _ _ _ _ _ _ _ R H) as (po & p & lt & ut & po1 & p' & lt' & ut' & zx & zy & ox & oy & []).
  exists (set_ticks s' (st_ticks s)), (set_positions (set_ticks s' (st_ticks s)) (st_positions s) (st_poslen s')).
  pose proof (mf_gross_l _ _ _ _ _ _ _ _ _ _ _ _ _ _ _ _ cl_mod) as [GL _]. pose proof (mf_gross_u _ _ _ _ _ _ _ _ _ _ _ _ _ _ _ _ cl_mod) as [GU _].
  pose proof (mf_net_l _ _ _ _ _ _ _ _ _ _ _ _ _ _ _ _ cl_mod) as [NL CL]. pose proof (mf_net_u _ _ _ _ _ _ _ _ _ _ _ _ _ _ _ _ cl_mod) as [NU CU].
  pose proof (akin_of _ _ (mf_low _ _ _ _ _ _ _ _ _ _ _ _ _ _ _ _ cl_mod)) as ML. pose proof (akin_of _ _ (mf_up _ _ _ _ _ _ _ _ _ _ _ _ _ _ _ _ cl_mod)) as MU.
  unfold pm in *. rewrite Z.add_0_r in *. rewrite Z.sub_0_r in NU.
  assert (SL : same_tick lt' lt) by (apply same_of_net; try done; apply (tp_change _ _ _ _ cl_lowp)).
  assert (SU : same_tick ut' ut) by (apply same_of_net; try done; apply (tp_change _ _ _ _ cl_upp)).
  assert (PP : st_pools s' = <[po_key po := mark_pool p (e_millis e) (po_lower po) (po_upper po) 0]> (st_pools s)).
  { pose proof (tk_po _ _ _ _ _ _ _ _ _ _ K) as A. rewrite cl_pos in A. injection A as <-. pose proof (tk_p _ _ _ _ _ _ _ _ _ _ K) as A. rewrite cl_pool in A. injection A as <-.
    exact (tk_pools _ _ _ _ _ _ _ _ _ _ K). }
  clear K. split_and!.
  - split_and!; try done. cbn [st_ticks set_ticks]. rewrite cl_store. cbn [st_ticks]. intros k j.
    destruct (decide ((k, j) = (po_key po, po_lower po))) as [->|N1]; [rewrite lookup_insert, cl_low; by constructor|rewrite lookup_insert_ne by congruence].
    destruct (decide ((k, j) = (po_key po, po_upper po))) as [->|N2]; [rewrite lookup_insert, cl_up; by constructor|rewrite lookup_insert_ne by congruence].
    destruct (st_ticks s !! (k, j)); constructor. apply same_tick_refl.
  - constructor; cbn; try done. intros b j NB. rewrite cl_store. cbn [st_positions]. by rewrite lookup_insert_ne by congruence.
  - rewrite cl_store in *. constructor; cbn [st_config st_pools st_ticks st_bitmap st_positions st_poslen st_operators set_positions set_ticks] in *; try done.
    + intros k. rewrite PP. destruct (decide (k = po_key po)) as [->|N]; [|rewrite lookup_insert_ne by congruence; destruct (st_pools s !! k) as [q|]; constructor; by destruct q].
      rewrite lookup_insert, cl_pool. constructor. unfold peq, mark_pool. destruct p. cbn. f_equal. destruct (in_range_tick _ _ _); lia.
    + intros k j. destruct (st_ticks s !! (k, j)) as [q|]; constructor. by destruct q.
    + intros b j. destruct (st_positions s !! (b, j)) as [q|]; constructor. by destruct q.
  - intros k q. cbn [st_pools set_positions set_ticks]. rewrite PP. destruct (decide (k = po_key po)) as [->|N]; [|rewrite lookup_insert_ne by congruence; apply B].
    rewrite lookup_insert. intros [= <-]. exact (B _ _ cl_pool).
  - done.
Qed.

(** * No difference but signs of zeros and recorded times *)
Definition tkin (t t' : tick) : Prop :=
  t_index t' = t_index t /\ t_change t' = t_change t /\ t_gross t' = t_gross t /\ t_price t' = t_price t /\ t_fox t' = t_fox t /\ t_foy t' = t_foy t /\
  (t_sign t' = t_sign t \/ t_change t = 0).
Record kin (u w : store) : Prop := {
  kn_config : st_config w = st_config u;
  kn_pool k : option_Forall2 peq (st_pools u !! k) (st_pools w !! k);
  kn_tick k j : option_Forall2 tkin (st_ticks u !! (k, j)) (st_ticks w !! (k, j));
  kn_bitmap : st_bitmap w = st_bitmap u;
  kn_position a ix : option_Forall2 poeq (st_positions u !! (a, ix)) (st_positions w !! (a, ix));
  kn_len : st_poslen w = st_poslen u;
  kn_operators : st_operators w = st_operators u
}.
Lemma kin_mid u w : kin u w -> exists Z, alike u Z /\ same_store w Z.
Proof.
  intros [K1 K2 K3 K4 K5 K6 K7].
  set (f := fun (x : pool_key * Z) (t' : tick) => match st_ticks u !! x with
    | Some t => Some (mkTick (t_index t') (t_sign t) (t_change t') (t_gross t') (t_price t') (t_fox t') (t_foy t') (t_secs t')) | None => None end).
  exists (set_ticks w (map_imap f (st_ticks w))). split.
  - constructor; cbn [st_config st_pools st_ticks st_bitmap st_positions st_poslen st_operators set_ticks]; try done.
    intros k j. rewrite map_lookup_imap. specialize (K3 k j). destruct (st_ticks u !! (k, j)) as [t|] eqn:T.
    + apply of2_some in K3 as (t' & -> & (A & B & C & D & E & F & _)). cbn. unfold f. rewrite T. constructor. unfold tkeq. rewrite A, B, C, D, E, F. done.
    + apply of2_none in K3 as ->. constructor.
  - split_and!; try done. cbn [st_ticks set_ticks]. intros k j. rewrite map_lookup_imap. specialize (K3 k j). destruct (st_ticks u !! (k, j)) as [t|] eqn:T.
    + apply of2_some in K3 as (t' & -> & (A & B & C & D & E & F & G)). cbn. unfold f. rewrite T. constructor. split; [done|]. cbn. destruct G as [G|G]; [by left|right; lia].
    + apply of2_none in K3 as ->. constructor.
Qed.
Lemma mid_kin u w Z : alike u Z -> same_store w Z -> kin u w.
Proof.
  intros [A1 A2 A3 A4 A5 A6 A7] (B1 & B2 & B3 & B4 & B5 & B6 & B7). constructor; try congruence.
  - intros k. rewrite <- B2. apply A2.
  - intros k j. specialize (A3 k j). specialize (B7 k j). destruct B7 as [t' z B7|]; inversion A3 as [t ? A|]; subst; constructor.
    unfold tkeq in A. destruct B7 as [B8 B9]. rewrite A in B8, B9. clear A. destruct t, t'. cbn in *. injection B8 as <- <- <- <- <- <- <-. unfold tkin. cbn. split_and!; try done.
    destruct B9; [left; by symmetry|by right].
  - intros a ix. rewrite <- B4. apply A5.
Qed.
Lemma kin_play zs : forall T u w, reachable w -> kin u w -> begun (T / 1000000) u -> begun (T / 1000000) w -> in_order T zs -> fst (play zs u) = fst (play zs w).
Proof.
  induction zs as [|[[e i] m] zs IH]; intros T u w R K BU BW O; [done|]. destruct O as (O1 & O2 & O3).
  assert (M : T / 1000000 <= e_millis e) by (unfold e_millis; apply Z.div_le_mono; lia).
  destruct (kin_mid u w K) as (Z & AU & SW). pose proof (C101_invisible e i w Z m R SW) as Q.
  assert (BZ : begun (T / 1000000) Z) by (intros k p E; destruct SW as (_ & S2 & _); rewrite S2 in E; by apply (BW k p)).
  assert (OT : other_time e e) by done.
  assert (J : by_permission m -> judged e e u m) by (intros _; split_and!; try done; destruct m; try exact Logic.I; destruct expires; done).
  pose proof (C74_time e e i u Z m AU (begun_later _ _ _ M BU) (begun_later _ _ _ M BZ) OT O2 O2 J) as Q3. cbn [play].
  destruct (execute e i u m) as [[[u' mu] au]|x|] eqn:EU, (execute e i Z m) as [[[Z' mz] az]|x1|], (execute e i w m) as [[[w' mw] aw]|x2|] eqn:EW; try done.
  - destruct Q3 as (-> & -> & AU' & BU' & BZ'). destruct Q as (-> & -> & SW').
    assert (BW' : begun (e_millis e) w') by (intros k p E; destruct SW' as (_ & S2 & _); rewrite <- S2 in E; by apply (BZ' k p)).
    specialize (IH (e_nanos e) u' w' (reach_call _ _ _ _ _ _ _ R EW) (mid_kin _ _ _ AU' SW') BU' BW' O3).
    destruct (play zs u'), (play zs w'). cbn in *. by rewrite IH.
  - subst. specialize (IH (e_nanos e) u w R K (begun_later _ _ _ M BU) (begun_later _ _ _ M BW) O3).
    destruct (play zs u), (play zs w). cbn in *. by rewrite IH.
  - specialize (IH (e_nanos e) u w R K (begun_later _ _ _ M BU) (begun_later _ _ _ M BW) O3).
    destruct (play zs u), (play zs w). cbn in *. by rewrite IH.
Qed.

(** what is left of a twin once [a] has settled the position *)
Lemma twin_near T a u w : twin T a u w ->
  st_config w = st_config u /\ (forall k, option_Forall2 peq (st_pools u !! k) (st_pools w !! k)) /\
  (forall k j, option_Forall2 tkin (st_ticks u !! (k, j)) (st_ticks w !! (k, j))) /\ st_bitmap w = st_bitmap u /\
  (forall b j, b <> a -> option_Forall2 poeq (st_positions u !! (b, j)) (st_positions w !! (b, j))) /\
  (forall b, b <> a -> st_poslen w !! b = st_poslen u !! b) /\ (forall b o, b <> a -> st_operators w !! (b, o) = st_operators u !! (b, o)).
Proof.
  intros (X & Y & (S1 & S2 & S3 & S4 & S5 & S6 & S7) & AY & AW & _ & _). split_and!.
  - by rewrite (al_config _ _ AW), (ag_config _ _ _ _ AY), S1.
  - intros k. rewrite <- S2, <- (ag_pool _ _ _ _ AY) by done. apply AW.
  - intros k j. specialize (S7 k j). pose proof (al_tick _ _ AW k j) as Z. rewrite (ag_tick _ _ _ _ AY) in Z by done.
    destruct S7 as [t t1 [S8 S9]|]; inversion Z as [? t2 Z'|]; subst; constructor. unfold tkeq in Z'. rewrite S8 in Z'. cbn in Z'. rewrite Z'.
    unfold tkin. cbn. split_and!; done.
  - rewrite (al_bitmap _ _ AW), <- S3. apply map_eq. intros [k c]. by apply AY.
  - intros b j NB. rewrite <- S4, <- (ag_position _ _ _ _ AY) by done. apply AW.
  - intros b NB. by rewrite (al_len _ _ AW), (ag_len _ _ _ _ AY), S5 by done.
  - intros b o NB. by rewrite (al_operators _ _ AW), (ag_operator _ _ _ _ AY), S6 by done.
Qed.
Lemma psum_like (f : position -> Z) : (forall p q, poeq p q -> f q = f p) -> forall m m' : gmap (string * Z) position,
  (forall x, option_Forall2 poeq (m !! x) (m' !! x)) -> psum f m' = psum f m.
Proof.
  intros F m. induction m as [|x po m N IH] using map_ind; intros m' H.
  - assert (m' = ∅) as ->; [|by rewrite !psum_empty]. apply map_eq. intros x. specialize (H x). rewrite lookup_empty in *. by apply of2_none in H.
  - pose proof (H x) as HX. rewrite lookup_insert in HX. apply of2_some in HX as (q & HX & E). rewrite (psum_delete f m' x q HX), (psum_new f m x po N).
    rewrite (F _ _ E). f_equal. apply IH. intros y. specialize (H y). destruct (decide (y = x)) as [->|NE].
    + rewrite N, lookup_delete. constructor.
    + by rewrite lookup_insert_ne in H by congruence; rewrite lookup_delete_ne by congruence.
Qed.
Lemma act_settled (b : bool) (a : string) (ix n : Z) (po : position) (m m' : gmap (string * Z) position) : (forall j, j <> ix -> m' !! (a, j) = m !! (a, j)) -> (ix < n -> is_Some (m !! (a, n))) ->
  forall j, act b a ix n po m' !! (a, j) = act b a ix n po m !! (a, j).
Proof.
  intros E L j. unfold act, strip. destruct b.
  - destruct (Z.ltb_spec ix n) as [LT|].
    + rewrite E by lia. destruct (L LT) as [last ->]. destruct (decide (j = ix)) as [->|N]; [by rewrite !lookup_insert|]. rewrite !lookup_insert_ne by congruence.
      destruct (decide (j = n)) as [->|N']; [by rewrite !lookup_delete|]. rewrite !lookup_delete_ne by congruence. by apply E.
    + destruct (decide (j = ix)) as [->|N]; [by rewrite !lookup_delete|]. rewrite !lookup_delete_ne by congruence. by apply E.
  - destruct (decide (j = ix)) as [->|N]; [by rewrite !lookup_insert|]. rewrite !lookup_insert_ne by congruence. by apply E.
Qed.
Lemma poeq_refl po : poeq po po.
Proof. by destruct po. Qed.
Lemma settled_kin b T e i u w ix u' w' mu au mw aw pa po : ereach u -> ereach w -> ereach u' -> ereach w' -> twin T (i_sender i) u w ->
  st_positions u !! (i_sender i, ix) = Some pa -> st_positions w !! (i_sender i, ix) = Some po ->
  pa = mkPosition (po_key po) (po_liq po) (po_lower po) (po_upper po) (po_fgx pa) (po_fgy pa) (po_block po) (po_owedx pa) (po_owedy pa) (po_approvals po) ->
  (forall j, j <> ix -> st_positions w !! (i_sender i, j) = st_positions u !! (i_sender i, j)) ->
  st_poslen w !! i_sender i = st_poslen u !! i_sender i -> (forall o, st_operators w !! (i_sender i, o) = st_operators u !! (i_sender i, o)) ->
  takes b e i u ix = Ok (u', mu, au) -> takes b e i w ix = Ok (w', mw, aw) -> kin u' w'.
Proof.
  intros RU RW RU' RW' TW EA EO PA OTH LEN OPS HU HW. set (a := i_sender i) in *.
  destruct (twin_near _ _ _ _ TW) as (N1 & N2 & N3 & N4 & N5 & N6 & N7).
  destruct (took_of _ _ _ _ _ _ _ _ RU HU) as (pa' & pu & KU). destruct (took_of _ _ _ _ _ _ _ _ RW HW) as (po' & pw & KW).
  assert (pa' = pa) as -> by (pose proof (tk_po _ _ _ _ _ _ _ _ _ _ KU) as A; fold a in A; congruence).
  assert (po' = po) as -> by (pose proof (tk_po _ _ _ _ _ _ _ _ _ _ KW) as A; fold a in A; congruence).
  pose proof (tk_p _ _ _ _ _ _ _ _ _ _ KU) as PU. pose proof (tk_p _ _ _ _ _ _ _ _ _ _ KW) as PW.
  assert (KK : po_key pa = po_key po /\ po_lower pa = po_lower po /\ po_upper pa = po_upper po /\ po_liq pa = po_liq po) by (rewrite PA; done). destruct KK as (K1 & K2 & K3 & K4).
  pose proof (N2 (po_key po)) as PE. rewrite PW in PE. rewrite <- K1 in PE. rewrite PU in PE. inversion PE as [? ? PE'|]; subst. clear PE. rename PE' into PE.
  assert (PL : plen w a = plen u a) by (unfold plen, get_position_length; by rewrite LEN).
  assert (RN : renew w pw po = renew u pu pa).
  { unfold renew. rewrite K1, K2, K3. pose proof (N3 (po_key po) (po_lower po)) as TL. pose proof (N3 (po_key po) (po_upper po)) as TU.
    destruct (bounds_of w _ po RW EO) as (lw & uw & ELW & EUW & _). rewrite ELW in TL. rewrite EUW in TU.
    inversion TL as [lu ? TL' Q1|]; inversion TU as [uu ? TU' Q2|]; subst. rewrite ELW, EUW.
    destruct TL' as (A1 & _ & _ & _ & A2 & A3 & _), TU' as (B1 & _ & _ & _ & B2 & B3 & _).
    unfold inside_x, inside_y. rewrite PE. cbn [p_tick p_fgx p_fgy]. rewrite A1, A2, A3, B1, B2, B3. rewrite PA. done. }
  assert (POS : forall x, option_Forall2 poeq (st_positions u' !! x) (st_positions w' !! x)).
  { intros [c j]. rewrite (tk_pos _ _ _ _ _ _ _ _ _ _ KU), (tk_pos _ _ _ _ _ _ _ _ _ _ KW). fold a. rewrite RN, PL.
    destruct (decide (c = a)) as [->|NC]; [|rewrite !act_other by done; by apply N5].
    rewrite (act_settled b a ix _ _ (st_positions u) (st_positions w) OTH); [destruct (act _ _ _ _ _ _ !! _); constructor; apply poeq_refl|].
    intros LT. apply (ct_some _ _ (ereach_pos_ok _ RU) a). pose proof (proj1 (ct_some _ _ (ereach_pos_ok _ RU) a ix) ltac:(eauto)). lia. }
  assert (TK : forall k j, option_Forall2 tkin (st_ticks u' !! (k, j)) (st_ticks w' !! (k, j))).
  { intros k j. pose proof (lq_tick _ (ereach_liq _ RU') k j) as G. pose proof (lq_tick _ (ereach_liq _ RW') k j) as G'.
    assert (PG : psum (gross_at k j) (st_positions w') = psum (gross_at k j) (st_positions u')) by (apply psum_like; [intros p q ->; done|exact POS]).
    assert (PN : psum (net_at k j) (st_positions w') = psum (net_at k j) (st_positions u')) by (apply psum_like; [intros p q ->; done|exact POS]).
    destruct (st_ticks u' !! (k, j)) as [t|] eqn:TU, (st_ticks w' !! (k, j)) as [t'|] eqn:TW'; cbn in G, G'.
    - constructor. destruct G as [G _], G' as [G' _].
      pose proof (tp_gross _ _ _ _ G) as X1. pose proof (tp_gross _ _ _ _ G') as X2. pose proof (tp_net _ _ _ _ G) as Y1. pose proof (tp_net _ _ _ _ G') as Y2.
      pose proof (tp_change _ _ _ _ G) as Z1. pose proof (tp_change _ _ _ _ G') as Z2. rewrite PG, <- X1 in X2. rewrite PN, <- Y1 in Y2. clear X1 Y1 G G'.
      destruct (tk_ticks _ _ _ _ _ _ _ _ _ _ KU _ _ _ TU) as (t0 & T0 & A0). destruct (tk_ticks _ _ _ _ _ _ _ _ _ _ KW _ _ _ TW') as (t1 & T1 & A1).
      pose proof (N3 k j) as Q. rewrite T0, T1 in Q. inversion Q as [? ? Q'|]; subst. destruct Q' as (q1 & _ & _ & q2 & q3 & q4 & _).
      apply akin_parts in A0 as (r1 & r2 & r3 & r4 & _). apply akin_parts in A1 as (s1 & s2 & s3 & s4 & _).
      unfold net in Y2. unfold tkin. split; [congruence|].
      assert (C : t_change t' = t_change t /\ (t_sign t' = t_sign t \/ t_change t = 0)) by (destruct (t_sign t), (t_sign t'); (split; [lia|]); try (by left); right; lia).
      destruct C as [C1 C2]. split_and!; try done; congruence.
    - destruct G as [G GG]. rewrite (tp_gross _ _ _ _ G) in GG. lia.
    - destruct G' as [G' GG]. rewrite (tp_gross _ _ _ _ G') in GG. lia.
    - constructor. }
  constructor.
  - destruct (tk_rest _ _ _ _ _ _ _ _ _ _ KU) as [-> _], (tk_rest _ _ _ _ _ _ _ _ _ _ KW) as [-> _]. done.
  - intros k. rewrite (tk_pools _ _ _ _ _ _ _ _ _ _ KU), (tk_pools _ _ _ _ _ _ _ _ _ _ KW), K1. destruct (decide (k = po_key po)) as [->|NK]; [|rewrite !lookup_insert_ne by congruence; apply N2].
    rewrite !lookup_insert. constructor. unfold peq, mark_pool, taken in *. rewrite K2, K3, K4, PE. done.
  - exact TK.
  - apply map_eq. intros [k c].
    assert (D : is_Some (st_bitmap w' !! (k, c)) <-> is_Some (st_bitmap u' !! (k, c))) by (rewrite (tk_chunks _ _ _ _ _ _ _ _ _ _ KU), (tk_chunks _ _ _ _ _ _ _ _ _ _ KW), N4; done).
    assert (B : bitmap_chunk w' k c = bitmap_chunk u' k c).
    { assert (Q : forall n, 0 <= n -> Z.testbit (bitmap_chunk w' k c) n = true <-> Z.testbit (bitmap_chunk u' k c) n = true).
      { intros n N0. rewrite (tk_bits _ _ _ _ _ _ _ _ _ _ KU) by done. rewrite (tk_bits _ _ _ _ _ _ _ _ _ _ KW) by done.
        assert (W : forall j, st_ticks w' !! (k, j) = None <-> st_ticks u' !! (k, j) = None) by (intros j; destruct (TK k j); done).
        assert (W' : forall j, is_Some (st_ticks w !! (k, j)) <-> is_Some (st_ticks u !! (k, j))) by (intros j; destruct (N3 k j); split; intros [? ?]; eauto; done).
        setoid_rewrite W. setoid_rewrite W'. unfold bitmap_chunk. rewrite N4. done. }
      apply Z.bits_inj'. intros n N0. specialize (Q n N0). destruct (Z.testbit _ n), (Z.testbit _ n); tauto || (symmetry; tauto) || intuition congruence. }
    unfold bitmap_chunk in B. destruct (st_bitmap w' !! (k, c)) as [v|], (st_bitmap u' !! (k, c)) as [v'|]; cbn in B; [by rewrite B| | |done].
    + destruct D as [D _]. destruct (D ltac:(by exists v)) as [? X]. discriminate X.
    + destruct D as [_ D]. destruct (D ltac:(by exists v')) as [? X]. discriminate X.
  - intros c j. apply POS.
  - rewrite (tk_len _ _ _ _ _ _ _ _ _ _ KU), (tk_len _ _ _ _ _ _ _ _ _ _ KW). fold a. rewrite PL.
    assert (E : st_poslen w = st_poslen u) by (apply map_eq; intros c; destruct (decide (c = a)) as [->|]; [done|by apply N6]). by rewrite E.
  - destruct (tk_rest _ _ _ _ _ _ _ _ _ _ KU) as [_ ->], (tk_rest _ _ _ _ _ _ _ _ _ _ KW) as [_ ->].
    apply map_eq. intros [c o]. destruct (decide (c = a)) as [->|]; [done|by apply N7].
Qed.

(** * The two sums *)
Lemma twin_accrued T a u w po pu pw : twin T a u w -> st_pools u !! po_key po = Some pu -> st_pools w !! po_key po = Some pw ->
  accrued_x w pw po = accrued_x u pu po /\ accrued_y w pw po = accrued_y u pu po /\ stake pw po = stake pu po.
Proof.
  intros (X & Y & SX & AY & AW & _ & _) PU PW. destruct SX as (_ & S2 & _ & _ & _ & _ & S7).
  assert (PX : st_pools X !! po_key po = Some pu) by (by rewrite S2). rewrite <- (ag_pool _ _ _ _ AY) in PX by done.
  pose proof (al_pool _ _ AW (po_key po)) as Q. rewrite PX, PW in Q. inversion Q as [? ? PE|]; subst. unfold peq in PE.
  assert (TK : forall j, match st_ticks u !! (po_key po, j), st_ticks w !! (po_key po, j) with
     | Some t, Some t' => t_fox t' = t_fox t /\ t_foy t' = t_foy t | None, None => True | _, _ => False end).
  { intros j. specialize (S7 (po_key po) j). pose proof (al_tick _ _ AW (po_key po) j) as Z. rewrite (ag_tick _ _ _ _ AY) in Z by done.
    destruct S7 as [t t1 S7|]; inversion Z as [? t2 Z'|]; subst; [|done]. unfold tkeq in Z'. rewrite Z'. cbn. destruct S7 as [-> _]. done. }
  pose proof (TK (po_lower po)) as TL. pose proof (TK (po_upper po)) as TU. unfold accrued_x, accrued_y, stake, split_price.
  assert (E : p_tick pw = p_tick pu /\ p_fgx pw = p_fgx pu /\ p_fgy pw = p_fgy pu /\ p_price pw = p_price pu) by (rewrite PE; done). destruct E as (-> & -> & -> & ->).
  destruct (st_ticks u !! (po_key po, po_lower po)), (st_ticks w !! (po_key po, po_lower po)); try done.
  destruct (st_ticks u !! (po_key po, po_upper po)), (st_ticks w !! (po_key po, po_upper po)); try done. destruct TL as [-> ->], TU as [-> ->]. done.
Qed.
Lemma two_floors g0 g1 g2 L c1 c2 c : 0 <= L ->
  c1 = (g1 - g0) mod 2 ^ 128 * L / 10 ^ 34 -> c2 = (g2 - g1) mod 2 ^ 128 * L / 10 ^ 34 -> c = (g2 - g0) mod 2 ^ 128 * L / 10 ^ 34 ->
  c <= c1 + c2 + 1 /\ ((c1 + c2 + 2) * 10 ^ 34 <= 2 ^ 128 * L -> c1 + c2 <= c).
Proof.
  intros HL E1 E2 E. set (M := 2 ^ 128) in *. assert (M0 : 0 < M) by reflexivity. set (D := 10 ^ 34) in *. assert (D0 : 0 < D) by reflexivity. clearbody M D.
  pose proof (Z.mod_pos_bound (g1 - g0) M M0) as B1. pose proof (Z.mod_pos_bound (g2 - g1) M M0) as B2.
  assert (S : (g2 - g0) mod M = ((g1 - g0) mod M + (g2 - g1) mod M) mod M) by (rewrite <- Z.add_mod by lia; f_equal; lia).
  set (x := (g1 - g0) mod M) in *. set (y := (g2 - g1) mod M) in *. rewrite S in E. clearbody x y. clear S.
  pose proof (Z.mul_div_le (x * L) D D0) as X1. pose proof (Z.mul_succ_div_gt (x * L) D D0) as X2. rewrite <- E1 in X1, X2.
  pose proof (Z.mul_div_le (y * L) D D0) as Y1. pose proof (Z.mul_succ_div_gt (y * L) D D0) as Y2. rewrite <- E2 in Y1, Y2.
  set (z := (x + y) mod M) in *. assert (ZL : 0 <= z <= x + y) by (unfold z; split; [apply Z.mod_pos_bound; lia|apply Z.mod_le; lia]).
  pose proof (Z.mul_div_le (z * L) D D0) as Z1. pose proof (Z.mul_succ_div_gt (z * L) D D0) as Z2. rewrite <- E in Z1, Z2.
  assert (ZM : z * L <= (x + y) * L) by (apply Z.mul_le_mono_nonneg_r; lia).
  split.
  - assert (D * c < D * (c1 + c2 + 2)) by lia. apply Z.mul_lt_mono_pos_l in H; lia.
  - intros W. assert (NW : x + y < M).
    { destruct (Z.lt_ge_cases (x + y) M) as [|G]; [done|]. assert (M * L <= (x + y) * L) by (apply Z.mul_le_mono_nonneg_r; lia). lia. }
    assert (ZE : z = x + y) by (unfold z; apply Z.mod_small; lia). rewrite ZE in *.
    assert (D * (c1 + c2) < D * (c + 1)) by lia. apply Z.mul_lt_mono_pos_l in H; lia.
Qed.
(** how one gets what has accrued: claiming it, or withdrawing the position *)
Definition settles (m : exec_msg) (ix : Z) : Prop := m = ClaimFee ix \/ m = RemovePosition ix.
Lemma settles_execute m ix : settles m ix -> exists b, forall e i s r, execute e i s m = Ok r -> takes b e i s ix = Ok r.
Proof. intros [->| ->]; [exists false|exists true]; intros e i s r; unfold execute; destruct (_ && _); cbn [dispatch takes]; done. Qed.
Lemma begun_took b e i s ix s' ms at' po p now : took b e i s ix s' ms at' po p -> begun now s -> begun now s'.
Proof.
  intros K B k q E. rewrite (tk_pools _ _ _ _ _ _ _ _ _ _ K) in E. destruct (decide (k = po_key po)) as [->|N].
  - rewrite lookup_insert in E. injection E as <-. exact (B _ _ (tk_p _ _ _ _ _ _ _ _ _ _ K)).
  - rewrite lookup_insert_ne in E by congruence. by apply (B k).
Qed.
Lemma twin_begun T a u w : twin T a u w -> begun T u /\ begun T w.
Proof.
  intros (X & Y & SX & AY & _ & BY & BW). split; [|done]. intros k p E. destruct SX as (_ & S2 & _). rewrite <- S2, <- (ag_pool _ _ _ _ AY) in E by done. by apply (BY k).
Qed.
(** Claiming fees in between is not noticed by anybody else, and leaves no trace: the calls that follow and are not about the claimant's own positions are
    answered exactly as if there had been no claim, and once the claimant has claimed again or withdrawn, everything is answered so. The claimant gets in the two
    calls what the last one alone would have brought, up to one unit of each token: never more than that is lost, and nothing is won unless the fees approach the
    wrap-around of the counters. *)
Theorem C105_claim e i s ix s1 m1 a1 zs e' i' fin ys : reachable s -> begun (e_millis e) s ->
  execute e i s (ClaimFee ix) = Ok (s1, m1, a1) -> in_order (e_nanos e) (zs ++ (e', i', fin) :: ys) -> Forall (not_about (i_sender i)) zs ->
  i_sender i' = i_sender i -> settles fin ix ->
  fst (play zs s1) = fst (play zs s) /\
  forall u m2 a2 w m a, execute e' i' (snd (play zs s1)) fin = Ok (u, m2, a2) -> execute e' i' (snd (play zs s)) fin = Ok (w, m, a) ->
    fst (play ys u) = fst (play ys w) /\
    exists po x1 y1 x2 y2 x y, st_positions s !! (i_sender i, ix) = Some po /\
      m1 = asset_transfer e i (pk_x (po_key po)) x1 ++ asset_transfer e i (pk_y (po_key po)) y1 /\
      m2 = asset_transfer e' i' (pk_x (po_key po)) x2 ++ asset_transfer e' i' (pk_y (po_key po)) y2 /\
      m = asset_transfer e' i' (pk_x (po_key po)) x ++ asset_transfer e' i' (pk_y (po_key po)) y /\
      x <= x1 + x2 + 1 /\ y <= y1 + y2 + 1 /\
      ((x1 + x2 + 2) * 10 ^ 34 <= 2 ^ 128 * po_liq po -> x1 + x2 <= x) /\ ((y1 + y2 + 2) * 10 ^ 34 <= 2 ^ 128 * po_liq po -> y1 + y2 <= y).
Proof.
  intros R B H O N I ST. pose proof (reach_call _ _ _ _ _ _ _ R H) as R1.
  pose proof (claim_twin _ _ _ _ _ _ _ R B H) as TW. destruct (twin_play zs _ (e_nanos e) _ _ _ R1 TW O N) as (E & (T' & TW' & O') & RU & PU & PW).
  split; [done|]. intros u m2 a2 w m a HU HW. destruct O' as (O1 & O2 & O3).
  assert (M : T' / 1000000 <= e_millis e') by (unfold e_millis; apply Z.div_le_mono; lia).
  pose proof (play_reach zs s R) as RW. set (U := snd (play zs s1)) in *. set (W := snd (play zs s)) in *. clearbody U W.
  pose proof (reach_call _ _ _ _ _ _ _ RU HU) as RU'. pose proof (reach_call _ _ _ _ _ _ _ RW HW) as RW'.
  destruct (settles_execute _ _ ST) as [b SE]. apply SE in HU, HW.
  assert (H0 : claim_fee e i s ix = Ok (s1, m1, a1)) by (unfold execute in H; destruct (_ && _); [exact H|done]).
  destruct (took_claim _ _ _ _ _ _ _ (reachable_ereach _ R) H0) as (po & p & K0). destruct (took_of _ _ _ _ _ _ _ _ (reachable_ereach _ RU) HU) as (pu & qu & K2).
  destruct (took_of _ _ _ _ _ _ _ _ (reachable_ereach _ RW) HW) as (pw & qw & K3).
  pose proof (tk_po _ _ _ _ _ _ _ _ _ _ K0) as E0. pose proof (tk_po _ _ _ _ _ _ _ _ _ _ K2) as E2. pose proof (tk_po _ _ _ _ _ _ _ _ _ _ K3) as E3.
  pose proof E2 as E2'. pose proof E3 as E3'.
  rewrite I, (proj1 PU), (tk_pos _ _ _ _ _ _ _ _ _ _ K0) in E2. unfold act in E2. rewrite lookup_insert in E2. rewrite I, (proj1 PW) in E3.
  assert (pw = po) as -> by congruence.
  destruct (bounds_of s _ po (reachable_ereach _ R) E0) as (lt & ut & TL & TU & IL & IU).
  destruct (lq_pos _ (ereach_liq _ (reachable_ereach _ R)) _ _ E0) as [(V1 & _) _].
  unfold renew in E2. rewrite TL, TU in E2.
  split.
  { destruct (twin_begun _ _ _ _ TW') as [BU BW]. apply (kin_play ys (e_nanos e')); [done| |by eapply begun_took, begun_later|by eapply begun_took, begun_later|done].
    rewrite <- I in TW'. apply (settled_kin b (T' / 1000000) e' i' U W ix u w m2 a2 m a pu po); try done; try by apply reachable_ereach.
    - injection E2 as <-. done.
    - intros j NJ. rewrite I, (proj1 PU), (proj1 PW), (tk_pos _ _ _ _ _ _ _ _ _ _ K0). unfold act. by rewrite lookup_insert_ne by congruence.
    - rewrite I. destruct PU as (_ & PU & _), PW as (_ & PW & _). rewrite PU, PW, (tk_len _ _ _ _ _ _ _ _ _ _ K0). done.
    - intros o. rewrite I. destruct PU as (_ & _ & PU), PW as (_ & _ & PW). rewrite PU, PW, (proj2 (tk_rest _ _ _ _ _ _ _ _ _ _ K0)). done. }
  injection E2 as <-.
  pose proof (tk_p _ _ _ _ _ _ _ _ _ _ K2) as P2. pose proof (tk_p _ _ _ _ _ _ _ _ _ _ K3) as P3. cbn [po_key] in P2.
  destruct (twin_accrued _ _ _ _ po qu qw TW' P2 P3) as (AX & AY & AS).
  destruct (stake_value W _ po qw (reachable_ereach _ RW) E3' P3) as (_ & S1 & S2).
  pose proof (tk_ms _ _ _ _ _ _ _ _ _ _ K0) as A0. pose proof (tk_ms _ _ _ _ _ _ _ _ _ _ K2) as A2. pose proof (tk_ms _ _ _ _ _ _ _ _ _ _ K3) as A3. unfold pays in A0, A2, A3.
  rewrite AX, AY, AS in A3. rewrite AS in S1, S2. cbn [po_key] in A2.
  match type of A2 with context [stake qu ?z] => change (stake qu z) with (stake qu po) in A2 end.
  destruct (bounds_of U (i_sender i', ix) _ (reachable_ereach _ RU) E2') as (lu & uu & TLU & TUU & _ & _). cbn [po_key po_lower po_upper] in TLU, TUU.
  do 7 eexists. split; [exact E0|]. split; [exact A0|]. split; [exact A2|]. split; [exact A3|].
  set (sx := if b then (stake qu po).1 else 0). set (sy := if b then (stake qu po).2 else 0).
  assert (Q1 : 0 <= sx) by (unfold sx; destruct b; lia). assert (Q2 : 0 <= sy) by (unfold sy; destruct b; lia). clearbody sx sy.
  unfold accrued_x, accrued_y. cbn [po_key po_lower po_upper po_liq po_fgx po_fgy]. rewrite TL, TU, TLU, TUU.
  destruct (inside_xy p lt ut) as [-> ->]. rewrite <- !collected_inside, IL, IU. cbn [fg fo].
  match goal with |- sx + ?c <= 0 + ?c1 + (sx + ?c2) + 1 /\ sy + ?d <= 0 + ?d1 + (sy + ?d2) + 1 /\ _ =>
    pose proof (fun g0 g1 g2 => two_floors g0 g1 g2 (po_liq po) c1 c2 c ltac:(lia)) as FX; pose proof (fun g0 g1 g2 => two_floors g0 g1 g2 (po_liq po) d1 d2 d ltac:(lia)) as FY end.
  destruct (FX _ _ _ eq_refl eq_refl eq_refl) as [X1 X2]. destruct (FY _ _ _ eq_refl eq_refl eq_refl) as [Y1 Y2]. clear FX FY.
  clear - X1 X2 Y1 Y2 Q1 Q2. split; [lia|]. split; [lia|]. split; intros; [apply Z.add_le_mono_l with (p := sx) in X2; lia|apply Z.add_le_mono_l with (p := sy) in Y2; lia].
Qed.

(** * Examples *)
(** After two trades alice claims; carol trades twice more and bob claims; then alice claims again, or withdraws. Without her first claim she would have
    got 30 and 72 in the end; with it she gets 22 + 8 and 66 + 5: a unit of the second token is lost to rounding. *)
Definition of_run : Prop :=
  let zs := [(v_env, v_info "carol", Swap v_key true 1700 true MIN_SQRT_PRICE); (v_env, v_info "carol", Swap v_key false 1300 true MAX_SQRT_PRICE); (v_env, v_info "bob", ClaimFee 0)] in
  let ys := [(v_env, v_info "carol", Swap v_key true 900 true MIN_SQRT_PRICE); (v_env, v_info "alice", RemovePosition 0); (v_env, v_info "bob", RemovePosition 0)] in
  match lv_start with
  | Ok (s, _, _) =>
      match execute v_env (v_info "alice") s (ClaimFee 0) with
      | Ok (s1, m1, _) =>
          let '(o1, t1) := play zs s1 in let '(o, t) := play zs s in
          match execute v_env (v_info "alice") t1 (ClaimFee 0), execute v_env (v_info "alice") t (ClaimFee 0), execute v_env (v_info "alice") t1 (RemovePosition 0) with
          | Ok (u, m2, _), Ok (w, m, _), Ok (_, m3, _) =>
              o1 = o /\ forallb is_ok o = true /\ m1 = [Cw20Transfer "tokenx" "alice" 22; Cw20Transfer "tokeny" "alice" 66] /\
              m2 = [Cw20Transfer "tokenx" "alice" 8; Cw20Transfer "tokeny" "alice" 5] /\ m = [Cw20Transfer "tokenx" "alice" 30; Cw20Transfer "tokeny" "alice" 72] /\
              length m3 = 2%nat /\ fst (play ys u) = fst (play ys w) /\ forallb is_ok (fst (play ys u)) = true
          | _, _, _ => False
          end
      | _ => False
      end
  | _ => False
  end%string.
Example ex_C105 : of_run.
Proof. vm_compute. repeat split. Qed.
