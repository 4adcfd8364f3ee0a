(** Tick records, bitmap and live positions agree in every reachable state. *)
From Verif Require Import Base Decimal SqrtPrice Clamm Log FeeGrowth Types Tick Pool Position
  Tickmap Keys State Swap Exec Tactics PriceProofs ClammProofs BitmapProofs PropBitmap Frame Handlers History Basic
  SwapGeo SwapLoop Modify PSum.
From stdpp Require Import gmap strings.
From Coq Require Import Lia.
Open Scope Z_scope.

(** liquidity of a position of pool [k] counted at its bounds, and where it is active *)
Definition at_key (k : pool_key) (po : position) (v : Z) : Z := if decide (po_key po = k) then v else 0.
Definition gross_at (k : pool_key) (t : Z) (po : position) : Z :=
  at_key k po ((if po_lower po =? t then po_liq po else 0) + (if po_upper po =? t then po_liq po else 0)).
Definition net_at (k : pool_key) (t : Z) (po : position) : Z :=
  at_key k po ((if po_lower po =? t then po_liq po else 0) - (if po_upper po =? t then po_liq po else 0)).
Definition active_at (k : pool_key) (c : Z) (po : position) : Z :=
  at_key k po (if in_range_tick (po_lower po) (po_upper po) c then po_liq po else 0).

(** ** Bits *)
Lemma is_init_ext a b k sp t : st_bitmap a = st_bitmap b -> is_init a k sp t <-> is_init b k sp t.
Proof. unfold is_init, get_bitmap, bitmap_chunk. intros ->. done. Qed.

Lemma flip_init a b v i k s' : 1 <= spacing k -> flip_bitmap a v i (spacing k) k = Ok s' -> st_bitmap b = st_bitmap s' ->
  forall k' t, 1 <= spacing k' ->
  (is_init b k' (spacing k') t <-> if decide (k' = k /\ t = i) then v = true else is_init a k' (spacing k') t).
Proof.
  intros S1 F E k' t S2. rewrite (is_init_ext b s') by done.
  destruct (C09_flip_changes_one_flag a v i (spacing k) k S1) as [_ C]. destruct (C _ F) as (C1 & C2 & C3 & _).
  destruct (decide _) as [[-> ->]|N].
  - unfold is_init. rewrite C1. split; congruence.
  - destruct (decide (k' = k)) as [->|NK].
    + unfold is_init. rewrite C2; [done|]. intros ->. by apply N.
    + unfold is_init. by rewrite C3.
Qed.
Lemma init_bitmap_init s k i bm bm' a b : 1 <= spacing k -> st_bitmap a = bm -> st_bitmap b = bm' ->
  init_bitmap s k i bm bm' -> forall k' t, 1 <= spacing k' ->
  (is_init b k' (spacing k') t <-> is_init a k' (spacing k') t \/ (st_ticks s !! (k, i) = None /\ k' = k /\ t = i)).
Proof.
  intros S1 <- <- H k' t S2. unfold init_bitmap in H. destruct (st_ticks s !! (k, i)) eqn:E.
  - rewrite (is_init_ext b a) by done. split; [tauto|]. intros [|[? _]]; done.
  - destruct H as (s' & F & Q). rewrite (flip_init _ b _ _ _ _ S1 F Q k' t S2).
    destruct (decide _); [tauto|]. rewrite (is_init_ext (set_bitmap s (st_bitmap a)) a) by done. tauto.
Qed.
Lemma clear_bitmap_init x k i bm bm' a b : 1 <= spacing k -> st_bitmap a = bm -> st_bitmap b = bm' ->
  clear_bitmap x k i bm bm' -> forall k' t, 1 <= spacing k' ->
  (is_init b k' (spacing k') t <-> is_init a k' (spacing k') t /\ ~ (x = true /\ k' = k /\ t = i)).
Proof.
  intros S1 <- <- H k' t S2. unfold clear_bitmap in H. destruct x.
  - destruct H as (s & s' & F & Q1 & Q). rewrite (flip_init _ b _ _ _ _ S1 F Q k' t S2).
    rewrite (is_init_ext a s) by done. destruct (decide _); [|tauto]. split; [done|tauto].
  - rewrite (is_init_ext b a) by done. split; [|tauto]. intros. split; [done|]. by intros [? _].
Qed.

Lemma flip_bits v i k a s' : 1 <= spacing k -> flip_bitmap a v i (spacing k) k = Ok s' ->
  forall k' c, is_Some (st_bitmap s' !! (k', c)) -> k' = k \/ is_Some (st_bitmap a !! (k', c)).
Proof.
  intros S1 F k' c H. apply flip_bitmap_ok in F; [|done]. destruct F as (_ & _ & ->). cbn in H.
  destruct (decide (k' = k)) as [->|N]; [by left|]. rewrite lookup_insert_ne in H by congruence. by right.
Qed.
Lemma init_bits s k i bm bm' : 1 <= spacing k -> init_bitmap s k i bm bm' ->
  forall k' c, is_Some (bm' !! (k', c)) -> k' = k \/ is_Some (bm !! (k', c)).
Proof.
  intros S1 H k' c X. unfold init_bitmap in H. destruct (st_ticks s !! (k, i)); [subst; by right|].
  destruct H as (s' & F & ->). by apply (flip_bits _ _ _ _ _ S1 F k' c) in X.
Qed.
Lemma clear_bits x k i bm bm' : 1 <= spacing k -> clear_bitmap x k i bm bm' ->
  forall k' c, is_Some (bm' !! (k', c)) -> k' = k \/ is_Some (bm !! (k', c)).
Proof.
  intros S1 H k' c X. unfold clear_bitmap in H. destruct x; [|subst; by right].
  destruct H as (a & s' & F & <- & ->). by apply (flip_bits _ _ _ _ _ S1 F k' c) in X.
Qed.
Lemma no_bits_no_init s k sp t : (forall c, st_bitmap s !! (k, c) = None) -> ~ is_init s k sp t.
Proof.
  intros H I. unfold is_init, get_bitmap in I. inv_bind I as [c b] E. unfold bitmap_chunk in I. rewrite H in I. cbn in I.
  unfold get_bit_at_position in I. apply Ok_inj in I. rewrite Z.shiftr_0_l in I. done.
Qed.

(** ** The invariant *)
Definition pos_valid (po : position) : Prop :=
  0 < po_liq po <= U128MAX /\ legal_tick (spacing (po_key po)) (po_lower po) /\
  legal_tick (spacing (po_key po)) (po_upper po) /\ po_lower po < po_upper po.
Record tick_pre (m : posmap) (k : pool_key) (t : Z) (tk : tick) : Prop := {
  tp_index : t_index tk = t;
  tp_legal : legal_tick (spacing k) t;
  tp_change : 0 <= t_change tk;
  tp_gross : t_gross tk = psum (gross_at k t) m;
  tp_net : net tk = psum (net_at k t) m;
  tp_price : t_price tk = tprice t
}.
Definition tick_good (m : posmap) (k : pool_key) (t : Z) (o : option tick) : Prop :=
  match o with
  | Some tk => tick_pre m k t tk /\ 0 < t_gross tk < calculate_max_liquidity_per_tick (spacing k)
  | None => psum (gross_at k t) m = 0
  end.
Record liq_inv (s : store) : Prop := {
  lq_pos : forall x po, st_positions s !! x = Some po -> pos_valid po /\ is_Some (st_pools s !! po_key po);
  lq_tick : forall k t, tick_good (st_positions s) k t (st_ticks s !! (k, t));
  lq_pool : forall k t, is_Some (st_ticks s !! (k, t)) -> is_Some (st_pools s !! k);
  lq_init : forall k t, is_Some (st_pools s !! k) -> (is_init s k (spacing k) t <-> is_Some (st_ticks s !! (k, t)));
  lq_bits : forall k c, is_Some (st_bitmap s !! (k, c)) -> is_Some (st_pools s !! k)
}.

Lemma net_le_gross k t po : pos_valid po -> - gross_at k t po <= net_at k t po <= gross_at k t po /\ 0 <= gross_at k t po.
Proof.
  intros (P & _). unfold gross_at, net_at, at_key. destruct (decide _); [|lia]. destruct (_ =? _), (_ =? _); lia.
Qed.
Lemma gross_nonneg s k t : (forall x po, st_positions s !! x = Some po -> pos_valid po) ->
  forall x po, st_positions s !! x = Some po -> 0 <= gross_at k t po.
Proof. intros H x po E. apply net_le_gross. eauto. Qed.
Lemma net_zero s k t : (forall x po, st_positions s !! x = Some po -> pos_valid po) ->
  psum (gross_at k t) (st_positions s) = 0 -> psum (net_at k t) (st_positions s) = 0.
Proof.
  intros H Z0.
  assert (psum (net_at k t) (st_positions s) <= psum (gross_at k t) (st_positions s)).
  { apply psum_le. intros x po E. apply net_le_gross. eauto. }
  assert (psum (fun po => -1 * gross_at k t po) (st_positions s) <= psum (net_at k t) (st_positions s)).
  { apply psum_le. intros x po E. pose proof (net_le_gross k t po (H _ _ E)). lia. }
  rewrite psum_scale in *. lia.
Qed.

Lemma check_tick_legal i sp : 1 <= sp -> check_tick i sp = Ok tt -> legal_tick sp i.
Proof.
  intros S1. unfold check_tick. destruct (Z.eqb_spec (Z.rem i sp) 0) as [R|]; [|done]. cbn. destruct (_ || _) eqn:B; [done|]. intros _.
  apply orb_false_iff in B. destruct B as [B1 B2]. rewrite Z.ltb_ge in *. rewrite get_min_top, get_max_top in * by done.
  apply legal_mid; [done| |lia]. apply Z.rem_divide in R; [|lia]. by apply Z.mod_divide; [lia|].
Qed.

Lemma tick_create_inv i p now t : tick_create i p now = Ok t ->
  t_index t = i /\ t_change t = 0 /\ t_gross t = 0 /\ t_sign t = true /\ -MAX_TICK <= i <= MAX_TICK /\ t_price t = tprice i /\
  t_fox t = (if i <=? p_tick p then p_fgx p else 0) /\ t_foy t = (if i <=? p_tick p then p_fgy p else 0).
Proof.
  unfold tick_create. intros H. inv_bind H as pr EP. apply (proj1 (unwrap_ok _ _)) in EP. apply calculate_sqrt_price_inv in EP. destruct EP as [R ->].
  inv_bind H as sec ES. apply Ok_inj in H. subst t. cbn. repeat (split; [done|]). done.
Qed.

Lemma max_per_tick_pos sp : 1 <= sp <= 100 -> 0 < calculate_max_liquidity_per_tick sp.
Proof.
  intros S1. unfold calculate_max_liquidity_per_tick. apply Z.div_str_pos.
  assert (1 <= (2 * MAX_TICK + 1) / sp) by (apply Z.div_le_lower_bound; unfold MAX_TICK; lia).
  assert ((2 * MAX_TICK + 1) / sp <= 2 * MAX_TICK + 1) by (apply Z.div_le_upper_bound; unfold MAX_TICK; lia).
  unfold U128MAX, MAX_TICK in *. lia.
Qed.

Lemma stored_pre s now k p i t : liq_inv s -> 1 <= spacing k <= 100 -> stored_or_new s now k p i t ->
  tick_pre (st_positions s) k i t /\ 0 <= t_gross t < calculate_max_liquidity_per_tick (spacing k).
Proof.
  intros [HP HT _ _ _] S1 [E|(E & C & N)]; pose proof (HT k i) as T; rewrite E in T; cbn in T.
  - destruct T. split; [done|lia].
  - apply tick_create_inv in N. destruct N as (N1 & N2 & N3 & N4 & N5 & N6 & _). split.
    + constructor; [done| |lia|lia| |done].
      * apply check_tick_legal; [lia|done].
      * unfold net. rewrite N4, N2. symmetry. apply net_zero; [|done]. intros x po Q. apply (HP _ _ Q).
    + pose proof (max_per_tick_pos _ S1). lia.
Qed.

(** ** Preservation *)
(** functions of pool, bounds and liquidity only *)
Definition core_fun (f : position -> Z) : Prop :=
  forall po po', po_key po' = po_key po -> po_liq po' = po_liq po -> po_lower po' = po_lower po -> po_upper po' = po_upper po -> f po' = f po.
Lemma gross_core k t : core_fun (gross_at k t).
Proof. intros po po' E1 E2 E3 E4. unfold gross_at, at_key. by rewrite E1, E2, E3, E4. Qed.
Lemma net_core k t : core_fun (net_at k t).
Proof. intros po po' E1 E2 E3 E4. unfold net_at, at_key. by rewrite E1, E2, E3, E4. Qed.
Lemma active_core k t : core_fun (active_at k t).
Proof. intros po po' E1 E2 E3 E4. unfold active_at, at_key. by rewrite E1, E2, E3, E4. Qed.

Lemma tick_good_ext m m' k t o : (forall f, core_fun f -> psum f m' = psum f m) -> tick_good m k t o -> tick_good m' k t o.
Proof.
  intros H. destruct o; cbn; [|rewrite H by apply gross_core; done].
  intros [[] G]. split; [|done]. constructor; rewrite ?H by apply gross_core; rewrite ?H by apply net_core; done.
Qed.

(** a change of positions that keeps every position's pool, bounds and liquidity *)
Record cores_kept (m m' : posmap) : Prop := {
  ck_sum : forall f, core_fun f -> psum f m' = psum f m;
  ck_pos : forall x po', m' !! x = Some po' -> exists y po, m !! y = Some po /\
    po_key po' = po_key po /\ po_liq po' = po_liq po /\ po_lower po' = po_lower po /\ po_upper po' = po_upper po
}.
Lemma cores_kept_write m x po po' : m !! x = Some po ->
  po_key po' = po_key po -> po_liq po' = po_liq po -> po_lower po' = po_lower po -> po_upper po' = po_upper po ->
  cores_kept m (<[x := po']> m).
Proof.
  intros E E1 E2 E3 E4. constructor.
  - intros f F. rewrite (psum_update f m x po po' E). rewrite (F po po') by done. lia.
  - intros y q Q. apply lookup_insert_Some in Q. destruct Q as [[_ <-]|[_ Q]]; [eauto 10|]. exists y, q. done.
Qed.
Lemma cores_kept_transfer a i n m m1 b j po po' : m !! (a, i) = Some po -> swap_removed a i n m m1 -> m1 !! (b, j) = None ->
  po_key po' = po_key po -> po_liq po' = po_liq po -> po_lower po' = po_lower po -> po_upper po' = po_upper po ->
  cores_kept m (<[(b, j) := po']> m1).
Proof.
  intros E SR N E1 E2 E3 E4. constructor.
  - intros f F. rewrite psum_new by done. rewrite (psum_removed f a i n m m1 po E SR). rewrite (F po po') by done. lia.
  - intros y q Q. apply lookup_insert_Some in Q. destruct Q as [[_ <-]|[_ Q]]; [eauto 10|].
    destruct (removed_sub _ _ _ _ _ _ _ SR Q) as [z Z]. exists z, q. done.
Qed.
Lemma cores_kept_valid (m m' : posmap) (ps : gmap pool_key pool) : cores_kept m m' ->
  (forall x po, m !! x = Some po -> pos_valid po /\ is_Some (ps !! po_key po)) ->
  (forall x po, m' !! x = Some po -> pos_valid po /\ is_Some (ps !! po_key po)).
Proof.
  intros [_ C] H x po' E. destruct (C x po' E) as (y & po & Q & E1 & E2 & E3 & E4). destruct (H y po Q) as [V S].
  unfold pos_valid in *. rewrite E1, E2, E3, E4. done.
Qed.

Lemma same_liq_net t t' : same_liq t t' -> net t' = net t.
Proof. intros (_ & A & B & _). unfold net. by rewrite A, B. Qed.
Lemma tick_good_kept m k t o o' : tick_kept o o' -> tick_good m k t o -> tick_good m k t o'.
Proof.
  destruct o as [a|], o' as [b|]; cbn; try done. intros SL [[] G]. pose proof (same_liq_net _ _ SL).
  destruct SL as (A & B & C & D & E). split; [|lia]. constructor; congruence || lia.
Qed.
Lemma tick_kept_some o o' : tick_kept o o' -> is_Some o <-> is_Some o'.
Proof. destruct o, o'; cbn; try done. Qed.

(** moving a position's liquidity [d] in or out of a tick *)
Lemma tick_pre_step m m' k t (tk tk' : tick) g n : tick_pre m k t tk ->
  t_index tk' = t_index tk -> t_price tk' = t_price tk -> 0 <= t_change tk' ->
  t_gross tk' = t_gross tk + g -> net tk' = net tk + n ->
  psum (gross_at k t) m' = psum (gross_at k t) m + g -> psum (net_at k t) m' = psum (net_at k t) m + n ->
  tick_pre m' k t tk'.
Proof. intros [] ? ? ? ? ? ? ?. constructor; congruence || lia. Qed.

Lemma pos_fresh s a : pos_ok s -> st_positions s !! (a, plen s a) = None.
Proof.
  intros [R S]. destruct (st_positions s !! (a, plen s a)) eqn:E; [|done].
  assert (0 <= plen s a < plen s a) by (apply S; eauto). lia.
Qed.
Lemma pos_fresh_removed s a i b m : pos_ok s -> is_Some (st_positions s !! (a, i)) -> swap_removed a i (plen s a - 1) (st_positions s) m ->
  m !! (b, if decide (b = a) then plen s a - 1 else plen s b) = None.
Proof.
  intros P I SR. pose proof (swap_removed_contiguous _ a i (plen s a - 1) m (plen s) P eq_refl I SR) as [R S].
  specialize (S b (if decide (b = a) then plen s a - 1 else plen s b)).
  destruct (m !! (b, _)) eqn:E; [|done]. assert (X : is_Some (Some p)) by eauto. apply S in X. lia.
Qed.

Lemma effect_pools_some e i s s' ms k : ticks_indexed s -> effect e i s s' ms -> is_Some (st_pools s !! k) -> is_Some (st_pools s' !! k).
Proof. intros IX H [p E]. destruct (effect_pool _ _ _ _ _ _ _ IX H E) as (p' & Q & _). eauto. Qed.

(** only positions change, keeping bounds and liquidity *)
Lemma liq_inv_cores s s' : liq_inv s -> cores_kept (st_positions s) (st_positions s') ->
  st_ticks s' = st_ticks s -> st_bitmap s' = st_bitmap s -> (forall k, is_Some (st_pools s' !! k) <-> is_Some (st_pools s !! k)) ->
  liq_inv s'.
Proof.
  intros [HP HT HK HI HB] C E1 E2 E3. constructor.
  - intros x po Q. destruct (cores_kept_valid _ _ (st_pools s) C HP x po Q) as [V S]. split; [done|]. by apply E3.
  - intros k t. rewrite E1. eapply tick_good_ext; [apply C|apply HT].
  - intros k t. rewrite E1. intros X. apply E3. eauto.
  - intros k t X. rewrite E1. rewrite (is_init_ext s' s) by done. apply HI. by apply E3.
  - intros k c. rewrite E2. intros X. apply E3. eauto.
Qed.
Lemma cores_kept_refl m : cores_kept m m.
Proof. constructor; [done|]. intros x po E. eauto 10. Qed.

Lemma effect_liq e i s s' ms : ticks_indexed s -> pos_ok s -> pools_ok s -> effect e i s s' ms -> liq_inv s -> liq_inv s'.
Proof.
  intros IX PO KO H I. pose proof I as [HP HT HK HI HB].
  assert (PS : forall k p p', st_pools s !! k = Some p -> forall k', is_Some (<[k := p']> (st_pools s) !! k') <-> is_Some (st_pools s !! k')).
  { intros k p p' E k'. destruct (decide (k = k')) as [->|N]; [rewrite lookup_insert, E; split; eauto|by rewrite lookup_insert_ne]. }
  destruct H as [c A C|k p E R|k p r A E|k p b t0 t1 price tick E T N B CT PR PC|k d a by_in lim s' ms r Ha Hl H
                |k lower upper liq sl su s' ms at' Hq Hlo Hup H|ix s' ms at' H|ix s' ms at' H
                |o ix po s1 r s' ms E R A M|o ix po l E|m].
  - eapply liq_inv_cores; [exact I|apply cores_kept_refl|done|done|done].
  - eapply liq_inv_cores; [exact I|apply cores_kept_refl|done|done|]. by eapply PS.
  - eapply liq_inv_cores; [exact I|apply cores_kept_refl|done|done|]. by eapply PS.
  - constructor; cbn.
    + intros x po Q. destruct (HP x po Q) as [V S]. split; [done|]. rewrite lookup_insert_is_Some. destruct (decide (k = po_key po)); [by left|by right].
    + exact HT.
    + intros kk t X. rewrite lookup_insert_is_Some. destruct (decide (k = kk)); [by left|right; eauto].
    + intros kk t X. rewrite (is_init_ext _ s) by done. destruct (decide (k = kk)) as [<-|NK].
      * split; intros Y; exfalso.
        -- revert Y. apply no_bits_no_init. intros c. destruct (st_bitmap s !! (k, c)) eqn:Q; [|done].
           destruct (HB k c ltac:(eauto)) as [? Q2]. congruence.
        -- destruct (HK k t Y) as [? Q]. congruence.
      * rewrite lookup_insert_ne in X by done. by apply HI.
    + intros kk c X. rewrite lookup_insert_is_Some. destruct (decide (k = kk)); [by left|right; eauto].
  - (* swap *)
    apply swap_internal_kept in H; [|done]. destruct H. constructor.
    + intros x po. rewrite sk_positions. intros Q. destruct (HP x po Q) as [V [q S]]. split; [done|].
      destruct (sk_pool _ _ S) as (p' & Q' & _). eauto.
    + intros kk t. rewrite sk_positions. eapply tick_good_kept; [apply sk_tick|apply HT].
    + intros kk t X. apply (tick_kept_some _ _ (sk_tick kk t)) in X. destruct (HK _ _ X) as [q S].
      destruct (sk_pool _ _ S) as (p' & Q' & _). eauto.
    + intros kk t X. rewrite (is_init_ext _ s) by done. rewrite <- (tick_kept_some _ _ (sk_tick kk t)). apply HI.
      destruct (st_pools s !! kk) eqn:Q; [eauto|]. rewrite (sk_pool' _ Q) in X. by destruct X.
    + intros kk c. rewrite sk_bitmap. intros X. destruct (HB _ _ X) as [q S]. destruct (sk_pool _ _ S) as (p' & Q' & _). eauto.
  - (* create *)
    apply create_position_inv in H; [|done].
    destruct H as (p0 & lt & ut & po & p' & lt' & ut' & x & y & bm1 & bm2 & m0 & m1 & HL & HN & Ep & Sl & Su & B1 & B2 & PC & PL & _ & _ & _ & _ & ->).
    destruct (kv_tier _ (KO _ _ Ep)) as [S1 _].
    destruct (stored_pre _ _ _ _ _ _ I S1 Sl) as [TL GL]. destruct (stored_pre _ _ _ _ _ _ I S1 Su) as [TU GU].
    unfold position_create in PC. destruct (_ || _); [done|]. inv_bind PC as [[[[[po1 p1] u1] l1] x1] y1] EM.
    apply Ok_inj in PC. injection PC as <- <- <- <- <- <-.
    apply position_modify_inv in EM; [|lia|apply TU|apply TL]. destruct EM as (ox & oy & F). destruct F.
    cbn in *. rewrite (tp_index _ _ _ _ TL), (tp_index _ _ _ _ TU) in mf_order, mf_pos.
    assert (PK : po_key po1 = k /\ po_lower po1 = lower /\ po_upper po1 = upper /\ po_liq po1 = liq) by (rewrite mf_pos; done).
    destruct PK as (PK1 & PK2 & PK3 & PK4).
    assert (PV : pos_valid po1).
    { unfold pos_valid. rewrite PK1, PK2, PK3, PK4. split; [lia|]. split; [apply TL|]. split; [apply TU|]. lia. }
    pose proof (pos_fresh s (i_sender i) PO) as FR.
    assert (GS : forall kk t, psum (gross_at kk t) (<[(i_sender i, plen s (i_sender i)) := po1]> (st_positions s))
               = psum (gross_at kk t) (st_positions s) + gross_at kk t po1) by (intros; rewrite psum_new by done; lia).
    assert (NS : forall kk t, psum (net_at kk t) (<[(i_sender i, plen s (i_sender i)) := po1]> (st_positions s))
               = psum (net_at kk t) (st_positions s) + net_at kk t po1) by (intros; rewrite psum_new by done; lia).
    assert (S1' : 1 <= spacing k) by lia.
    constructor; cbn.
    + intros z q Q. rewrite (PS k p0) by done. apply lookup_insert_Some in Q. destruct Q as [[_ <-]|[_ Q]]; [|by apply (HP z)].
      split; [done|]. rewrite PK1. eauto.
    + intros kk t. destruct (decide ((kk, t) = (k, upper))) as [Q|N1].
      { injection Q as -> ->. rewrite lookup_insert. cbn. destruct mf_up as (U1 & U2 & _). destruct mf_max as [_ MX]; [done|].
        split; [|lia]. eapply (tick_pre_step _ _ _ _ ut u1 liq (- liq)); try done; try (unfold pm in *; lia).
        - rewrite GS. unfold gross_at, at_key. rewrite PK1, PK2, PK3, PK4, decide_True by done.
          rewrite (proj2 (Z.eqb_neq lower upper)) by done. rewrite Z.eqb_refl. lia.
        - rewrite NS. unfold net_at, at_key. rewrite PK1, PK2, PK3, PK4, decide_True by done.
          rewrite (proj2 (Z.eqb_neq lower upper)) by done. rewrite Z.eqb_refl. lia. }
      rewrite lookup_insert_ne by congruence. destruct (decide ((kk, t) = (k, lower))) as [Q|N2].
      { injection Q as -> ->. rewrite lookup_insert. cbn. destruct mf_low as (U1 & U2 & _). destruct mf_max as [MX _]; [done|].
        split; [|lia]. eapply (tick_pre_step _ _ _ _ lt l1 liq liq); try done; try (unfold pm in *; lia).
        - rewrite GS. unfold gross_at, at_key. rewrite PK1, PK2, PK3, PK4, decide_True by done.
          rewrite (proj2 (Z.eqb_neq upper lower)) by done. rewrite Z.eqb_refl. lia.
        - rewrite NS. unfold net_at, at_key. rewrite PK1, PK2, PK3, PK4, decide_True by done.
          rewrite (proj2 (Z.eqb_neq upper lower)) by done. rewrite Z.eqb_refl. lia. }
      rewrite lookup_insert_ne by congruence.
      assert (ZG : gross_at kk t po1 = 0 /\ net_at kk t po1 = 0).
      { unfold gross_at, net_at, at_key. rewrite PK1, PK2, PK3, PK4. destruct (decide (k = kk)) as [<-|]; [|done].
        rewrite (proj2 (Z.eqb_neq lower t)) by congruence. rewrite (proj2 (Z.eqb_neq upper t)) by congruence. done. }
      destruct ZG as [ZG ZN]. specialize (HT kk t). destruct (st_ticks s !! (kk, t)) as [tk|]; cbn in *.
      * destruct HT as [[] ?]. split; [|done]. constructor; rewrite ?GS, ?NS; try done; lia.
      * rewrite GS. lia.
    + intros kk t X. rewrite (PS k p0) by done. destruct (decide (kk = k)) as [->|N]; [eauto|].
      rewrite !lookup_insert_ne in X by congruence. eauto.
    + intros kk t X. rewrite (PS k p0) in X by done. destruct X as [pk X]. destruct (kv_tier _ (KO _ _ X)) as [S2 _].
      assert (S2' : 1 <= spacing kk) by lia.
      match goal with |- is_init ?S _ _ _ <-> _ =>
        rewrite (init_bitmap_init s k upper bm1 bm2 (set_bitmap s bm1) S S1' eq_refl eq_refl B2 kk t S2') end.
      rewrite (init_bitmap_init s k lower (st_bitmap s) bm1 s (set_bitmap s bm1) S1' eq_refl eq_refl B1 kk t S2').
      rewrite (HI kk t) by eauto. rewrite !lookup_insert_is_Some.
      destruct (decide ((k, upper) = (kk, t))) as [Q|N1]; [injection Q as -> ->; split; [by left|]|].
      { intros _. destruct (st_ticks s !! (kk, t)) eqn:Q; [left; left; eauto|right; done]. }
      destruct (decide ((k, lower) = (kk, t))) as [Q|N2]; [injection Q as -> ->; split; [right; split; [done|by left]|]|].
      { intros _. left. destruct (st_ticks s !! (kk, t)) eqn:Q; [left; eauto|right; done]. }
      split; [intros [[Q|(_ & -> & ->)]|(_ & -> & ->)]; [|done|done]; right; split; [done|]; by right|].
      intros [Q|[_ [Q|[_ Q]]]]; [by destruct N1|by destruct N2|]. by left; left.
    + intros kk c X. rewrite (PS k p0) by done. apply (init_bits _ _ _ _ _ S1' B2) in X. destruct X as [->|X]; [eauto|].
      apply (init_bits _ _ _ _ _ S1' B1) in X. destruct X as [->|X]; eauto.
  - (* claim *)
    apply claim_fee_inv in H; [|done].
    destruct H as (po & lt & ut & p0 & po' & p' & lt' & ut' & x & y & Epo & _ & El & Eu & Ep & PC & _ & _ & Iu & Il & ->).
    pose proof (HT (po_key po) (po_lower po)) as TL. rewrite El in TL. destruct TL as [TL GL].
    pose proof (HT (po_key po) (po_upper po)) as TU. rewrite Eu in TU. destruct TU as [TU GU].
    unfold position_claim_fee in PC. inv_bind PC as [[[[[po1 p1] u1] l1] x1] y1] EM. apply Ok_inj in PC. injection PC as <- <- <- <- <- <-.
    apply position_modify_inv in EM; [|lia|apply TU|apply TL]. destruct EM as (ox & oy & F). destruct F. cbn in *.
    assert (CK : cores_kept (st_positions s) (<[(i_sender i, ix) := mkPosition (po_key po1) (po_liq po1) (po_lower po1) (po_upper po1)
       (po_fgx po1) (po_fgy po1) (po_block po1) 0 0 (po_approvals po1)]> (st_positions s))).
    { eapply cores_kept_write; [exact Epo|..]; rewrite mf_pos; cbn; lia || done. }
    assert (TG : forall t tk tk', tick_pre (st_positions s) (po_key po) t tk -> t_index tk' = t_index tk -> t_price tk' = t_price tk ->
      0 <= t_change tk' -> t_gross tk' = t_gross tk + 0 -> net tk' = net tk + 0 -> 0 < t_gross tk < calculate_max_liquidity_per_tick (spacing (po_key po)) ->
      tick_good (st_positions s) (po_key po) t (Some tk')).
    { intros t tk tk' TP ? ? ? ? ? ?. cbn. split; [|lia]. eapply tick_pre_step; try eassumption; lia. }
    constructor; cbn.
    + intros z q Q. rewrite (PS (po_key po) p0) by done. eapply (cores_kept_valid _ _ (st_pools s) CK); eassumption.
    + intros kk t. eapply tick_good_ext; [apply CK|].
      destruct (decide ((kk, t) = (po_key po, po_lower po))) as [Q|N1].
      { injection Q as -> ->. rewrite lookup_insert. destruct mf_low as (U1 & U2 & _). eapply TG; try exact TL; try tauto; unfold pm in *; lia. }
      rewrite lookup_insert_ne by congruence. destruct (decide ((kk, t) = (po_key po, po_upper po))) as [Q|N2].
      { injection Q as -> ->. rewrite lookup_insert. destruct mf_up as (U1 & U2 & _). eapply TG; try exact TU; try tauto; unfold pm in *; lia. }
      rewrite lookup_insert_ne by congruence. apply HT.
    + intros kk t X. rewrite (PS (po_key po) p0) by done. destruct (decide (kk = po_key po)) as [->|N]; [eauto|].
      rewrite !lookup_insert_ne in X by congruence. eauto.
    + intros kk t X. rewrite (PS (po_key po) p0) in X by done. rewrite (is_init_ext _ s) by done. rewrite (HI kk t X).
      rewrite !lookup_insert_is_Some. split; [|intros [Q|[_ [Q|[_ Q]]]]; [injection Q as <- <-; eauto..|done]].
      intros Q. destruct (decide ((po_key po, po_lower po) = (kk, t))); [by left|]. right. split; [done|].
      destruct (decide ((po_key po, po_upper po) = (kk, t))); [by left|]. right. done.
    + intros kk c X. rewrite (PS (po_key po) p0) by done. eauto.
  - (* remove *)
    apply remove_position_exec_inv in H; [|done].
    destruct H as (po & lt & ut & p0 & po' & p' & lt' & ut' & x & y & dl & du & bm1 & bm2 & m' & Epo & _ & El & Eu & Ep & PC & _ & _ & Iu & Il & B1 & B2 & SR & ->).
    pose proof (HT (po_key po) (po_lower po)) as TL. rewrite El in TL. destruct TL as [TL GL].
    pose proof (HT (po_key po) (po_upper po)) as TU. rewrite Eu in TU. destruct TU as [TU GU].
    destruct (HP _ _ Epo) as [PV _]. pose proof PV as (V1 & V2 & V3 & V4).
    destruct (kv_tier _ (KO _ _ Ep)) as [S1 _]. assert (S1' : 1 <= spacing (po_key po)) by lia.
    unfold position_remove in PC. inv_bind PC as [[[[[po1 p1] u1] l1] x1] y1] EM. inv_bind PC as x2 EX. inv_bind PC as y2 EY.
    apply Ok_inj in PC. injection PC as <- <- <- <- <- <- <- <-.
    apply position_modify_inv in EM; [|lia|apply TU|apply TL]. destruct EM as (ox & oy & F). destruct F. cbn in *.
    assert (GS : forall kk t, psum (gross_at kk t) m' = psum (gross_at kk t) (st_positions s) - gross_at kk t po)
      by (intros; eapply psum_removed; eassumption).
    assert (NS : forall kk t, psum (net_at kk t) m' = psum (net_at kk t) (st_positions s) - net_at kk t po)
      by (intros; eapply psum_removed; eassumption).
    assert (QL : gross_at (po_key po) (po_lower po) po = po_liq po /\ net_at (po_key po) (po_lower po) po = po_liq po).
    { unfold gross_at, net_at, at_key. rewrite !decide_True by done. rewrite Z.eqb_refl, (proj2 (Z.eqb_neq (po_upper po) _)) by lia. lia. }
    assert (QU : gross_at (po_key po) (po_upper po) po = po_liq po /\ net_at (po_key po) (po_upper po) po = - po_liq po).
    { unfold gross_at, net_at, at_key. rewrite !decide_True by done. rewrite Z.eqb_refl, (proj2 (Z.eqb_neq (po_lower po) _)) by lia. lia. }
    assert (PL1 : tick_pre m' (po_key po) (po_lower po) l1).
    { destruct mf_low as (U1 & U2 & _). eapply (tick_pre_step _ _ _ _ lt l1 (- po_liq po) (- po_liq po)); try done; try (unfold pm in *; lia); rewrite ?GS, ?NS; lia. }
    assert (PU1 : tick_pre m' (po_key po) (po_upper po) u1).
    { destruct mf_up as (U1 & U2 & _). eapply (tick_pre_step _ _ _ _ ut u1 (- po_liq po) (po_liq po)); try done; try (unfold pm in *; lia); rewrite ?GS, ?NS; lia. }
    unfold pm in *.
    constructor; cbn.
    + intros z q Q. rewrite (PS (po_key po) p0) by done. destruct (removed_sub _ _ _ _ _ _ _ SR Q) as [w W]. eapply HP, W.
    + intros kk t. unfold clear_tick.
      assert (OTH : (kk, t) <> (po_key po, po_lower po) -> (kk, t) <> (po_key po, po_upper po) -> tick_good m' kk t (st_ticks s !! (kk, t))).
      { intros N1 N2. assert (ZG : gross_at kk t po = 0 /\ net_at kk t po = 0).
        { unfold gross_at, net_at, at_key. destruct (decide (po_key po = kk)) as [<-|]; [|done].
          rewrite (proj2 (Z.eqb_neq _ t)) by congruence. rewrite (proj2 (Z.eqb_neq _ t)) by congruence. done. }
        destruct ZG as [ZG ZN]. specialize (HT kk t). destruct (st_ticks s !! (kk, t)) as [tk|]; cbn in *.
        * destruct HT as [[] ?]. split; [|done]. constructor; rewrite ?GS, ?NS; try done; lia.
        * rewrite GS. lia. }
      assert (FL : tick_good m' (po_key po) (po_lower po) (if t_gross l1 =? 0 then None else Some l1)).
      { destruct (Z.eqb_spec (t_gross l1) 0); cbn; [destruct PL1; lia|]. split; [done|]. lia. }
      assert (FU : tick_good m' (po_key po) (po_upper po) (if t_gross u1 =? 0 then None else Some u1)).
      { destruct (Z.eqb_spec (t_gross u1) 0); cbn; [destruct PU1; lia|]. split; [done|]. lia. }
      assert (LKU : (if t_gross u1 =? 0 then delete (po_key po, po_upper po) (if t_gross l1 =? 0 then delete (po_key po, po_lower po) (st_ticks s) else <[(po_key po, po_lower po):=l1]> (st_ticks s))
                     else <[(po_key po, po_upper po):=u1]> (if t_gross l1 =? 0 then delete (po_key po, po_lower po) (st_ticks s) else <[(po_key po, po_lower po):=l1]> (st_ticks s))) !! (kk, t)
             = if decide ((kk, t) = (po_key po, po_upper po)) then (if t_gross u1 =? 0 then None else Some u1) else
               if decide ((kk, t) = (po_key po, po_lower po)) then (if t_gross l1 =? 0 then None else Some l1) else st_ticks s !! (kk, t)).
      { destruct (decide ((kk, t) = (po_key po, po_upper po))) as [Q|N1].
        { rewrite Q. destruct (t_gross u1 =? 0); [apply lookup_delete|apply lookup_insert]. }
        destruct (t_gross u1 =? 0); [rewrite lookup_delete_ne by congruence|rewrite lookup_insert_ne by congruence];
          (destruct (decide ((kk, t) = (po_key po, po_lower po))) as [Q|N2];
            [rewrite Q; destruct (t_gross l1 =? 0); [apply lookup_delete|apply lookup_insert]
            |destruct (t_gross l1 =? 0); [rewrite lookup_delete_ne by congruence|rewrite lookup_insert_ne by congruence]; done]). }
      rewrite LKU. destruct (decide _) as [Q|N1]; [injection Q as -> ->; exact FU|]. destruct (decide _) as [Q|N2]; [injection Q as -> ->; exact FL|].
      by apply OTH.
    + intros kk t X. rewrite (PS (po_key po) p0) by done. destruct (decide (kk = po_key po)) as [->|N]; [eauto|].
      apply (HK kk t). unfold clear_tick in X. destruct (t_gross u1 =? 0), (t_gross l1 =? 0);
        repeat first [rewrite lookup_delete_ne in X by congruence|rewrite lookup_insert_ne in X by congruence]; exact X.
    + intros kk t X. rewrite (PS (po_key po) p0) in X by done. destruct X as [pk X]. destruct (kv_tier _ (KO _ _ X)) as [S2 _].
      assert (S2' : 1 <= spacing kk) by lia.
      match goal with |- is_init ?S _ _ _ <-> _ =>
        rewrite (clear_bitmap_init _ _ _ bm1 bm2 (set_bitmap s bm1) S S1' eq_refl eq_refl B2 kk t S2') end.
      rewrite (clear_bitmap_init _ _ _ (st_bitmap s) bm1 s (set_bitmap s bm1) S1' eq_refl eq_refl B1 kk t S2').
      rewrite (HI kk t) by eauto. unfold clear_tick.
      destruct (decide ((kk, t) = (po_key po, po_upper po))) as [Q|N1].
      { injection Q as -> ->. destruct (t_gross u1 =? 0).
        - rewrite lookup_delete. split; [intros [_ N]; exfalso; by apply N|by intros [? ?]].
        - rewrite lookup_insert. split; [eauto|]. intros _. split; [|by intros [? _]]. split; [eauto|]. intros (_ & _ & ?). lia. }
      destruct (decide ((kk, t) = (po_key po, po_lower po))) as [Q|N2].
      { injection Q as -> ->. destruct (t_gross u1 =? 0); [rewrite lookup_delete_ne by congruence|rewrite lookup_insert_ne by congruence];
        (destruct (t_gross l1 =? 0);
         [rewrite lookup_delete; split; [intros [[_ N] _]; exfalso; by apply N|by intros [? ?]]
         |rewrite lookup_insert; split; [eauto|]; intros _; split; [split; [eauto|by intros [? _]]|intros (_ & _ & ?); lia]]). }
      destruct (t_gross u1 =? 0), (t_gross l1 =? 0); repeat first [rewrite lookup_delete_ne by congruence|rewrite lookup_insert_ne by congruence];
        (split; [tauto|]; intros Q; split; [split; [done|]|]; intros (_ & -> & ->); congruence).
    + intros kk c X. rewrite (PS (po_key po) p0) by done. apply (clear_bits _ _ _ _ _ S1' B2) in X. destruct X as [->|X]; [eauto|].
      apply (clear_bits _ _ _ _ _ S1' B1) in X. destruct X as [->|X]; eauto.
  - (* transfer *)
    apply remove_position_inv in R. destruct R as (_ & PL & m & SR & ->).
    apply add_position_inv in A. destruct A as (-> & _).
    eapply liq_inv_cores; [exact I| |done|done|done]. cbn.
    rewrite plen_insert. eapply cores_kept_transfer; [exact E|exact SR| |done..].
    eapply pos_fresh_removed; eauto.
  - eapply liq_inv_cores; [exact I| |done|done|done]. cbn. eapply cores_kept_write; [exact E|done..].
  - eapply liq_inv_cores; [exact I|apply cores_kept_refl|done|done|done].
Qed.

Lemma ereach_liq s : ereach s -> liq_inv s.
Proof.
  induction 1 as [i f s H|e i s s' ms R IH H].
  - apply instantiate_inv in H. destruct H as [-> _]. constructor; cbn.
    + intros x po E. by rewrite lookup_empty in E.
    + intros k t. rewrite lookup_empty. cbn. apply psum_empty.
    + intros k t [x E]. by rewrite lookup_empty in E.
    + intros k t [x E]. by rewrite lookup_empty in E.
    + intros k t [x E]. by rewrite lookup_empty in E.
  - eapply effect_liq; [..|exact H|exact IH]; [by apply ereach_indexed|by apply ereach_pos_ok|by apply ereach_pools].
Qed.
