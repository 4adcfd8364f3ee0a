(** C83: splitting a deposit. *)
From Verif Require Import Base Decimal SqrtPrice Clamm Log FeeGrowth Types Tick Pool Position
  Tickmap Keys State Swap Exec Query Tactics PriceProofs ClammProofs PropClamm BitmapProofs PropBitmap KeysProofs Frame Handlers History Basic PosList
  Ledger Vectors Scenario SwapGeo SwapLoop Modify PSum LiqInv Geo Ops Clean PropLiq Growth Value Fund Flow PropSolv Forward PropExit PropFunds PropProt PropBlock PropClock PropAuth PropTrade PropOk.
From stdpp Require Import gmap strings.
From Coq Require Import Lia.
Open Scope Z_scope.

(** ** Ticks *)
Lemma tick_update_twice t L1 L2 mx up t1 t2 t' : 0 <= t_change t -> 0 <= L1 -> 0 <= L2 ->
  tick_update t L1 mx up true = Ok t1 -> tick_update t1 L2 mx up true = Ok t2 -> tick_update t (L1 + L2) mx up true = Ok t' -> t' = t2.
Proof.
  intros C P1 P2. unfold tick_update, calculate_new_liquidity_gross, update_liquidity_change, add_e, add_p, sub_p. cbn [negb andb].
  intros H1 H2 H'. inv_bind H1 as g1 G1. inv_bind H1 as [sg1 c1] U1. apply Ok_inj in H1. subst t1. cbn [t_gross t_sign t_change t_index t_price t_fox t_foy t_secs] in *.
  inv_bind H2 as g2 G2. inv_bind H2 as [sg2 c2] U2. apply Ok_inj in H2. subst t2.
  inv_bind H' as g' G'. inv_bind H' as [sg' c'] U'. apply Ok_inj in H'. subst t'.
  assert (G : g' = g2).
  { inv_bind G1 as a1 A1. inv_bind G2 as a2 A2. inv_bind G' as a' A'. apply ck_ok in A1, A2, A'.
    destruct (mx <=? a1); [done|]. destruct (mx <=? a2); [done|]. destruct (mx <=? a'); [done|].
    apply Ok_inj in G1, G2, G'. lia. }
  assert (Q : sg' = sg2 /\ c' = c2).
  { destruct (t_sign t) eqn:SG, up; cbn [xorb negb] in *;
      repeat match goal with
      | H : context [?a <? ?b] |- _ => destruct (Z.ltb_spec a b); cbn [xorb negb] in *
      | H : context [let* _ := ?m in _] |- _ => let A := fresh "A" in let x := fresh "x" in inv_bind H as x A; apply ckp_ok in A
      | H : Ok _ = Ok _ |- _ => apply Ok_inj in H; injection H as <- <-; cbn [xorb negb] in *
      end; (split; [reflexivity || (exfalso; lia)|lia]). }
  destruct Q as [-> ->]. by rewrite G.
Qed.

(** ** Rounding *)
Lemma ceil_split n1 n2 d : 0 < d -> let c n := (n + d - 1) / d in c n1 + c n2 - 1 <= c (n1 + n2) <= c n1 + c n2.
Proof.
  intros D c. unfold c.
  pose proof (Z.div_mod (n1 + d - 1) d ltac:(lia)). pose proof (Z.mod_pos_bound (n1 + d - 1) d D).
  pose proof (Z.div_mod (n2 + d - 1) d ltac:(lia)). pose proof (Z.mod_pos_bound (n2 + d - 1) d D).
  split.
  - apply Z.div_le_lower_bound; [lia|]. lia.
  - apply Z.lt_succ_r. apply Z.div_lt_upper_bound; [lia|]. lia.
Qed.
Lemma floor_split n1 n2 d : 0 < d -> n1 / d + n2 / d <= (n1 + n2) / d <= n1 / d + n2 / d + 1.
Proof.
  intros D.
  pose proof (Z.div_mod n1 d ltac:(lia)). pose proof (Z.mod_pos_bound n1 d D).
  pose proof (Z.div_mod n2 d ltac:(lia)). pose proof (Z.mod_pos_bound n2 d D).
  split.
  - apply Z.div_le_lower_bound; [lia|]. lia.
  - apply Z.lt_succ_r. apply Z.div_lt_upper_bound; [lia|]. lia.
Qed.
Lemma floor_split3 n1 n2 n d : 0 < d -> n1 + n2 <= n <= n1 + n2 + 1 -> n1 / d + n2 / d <= n / d <= n1 / d + n2 / d + 1.
Proof.
  intros D N.
  pose proof (Z.div_mod n1 d ltac:(lia)). pose proof (Z.mod_pos_bound n1 d D).
  pose proof (Z.div_mod n2 d ltac:(lia)). pose proof (Z.mod_pos_bound n2 d D).
  split.
  - apply Z.div_le_lower_bound; [lia|]. lia.
  - apply Z.lt_succ_r. apply Z.div_lt_upper_bound; [lia|]. lia.
Qed.
Lemma ceil_split3 n1 n2 n d : 0 < d -> n1 + n2 <= n <= n1 + n2 + 1 -> let c n := (n + d - 1) / d in c n1 + c n2 - 1 <= c n <= c n1 + c n2 + 1.
Proof.
  intros D N c. unfold c.
  pose proof (Z.div_mod (n1 + d - 1) d ltac:(lia)). pose proof (Z.mod_pos_bound (n1 + d - 1) d D).
  pose proof (Z.div_mod (n2 + d - 1) d ltac:(lia)). pose proof (Z.mod_pos_bound (n2 + d - 1) d D).
  split.
  - apply Z.div_le_lower_bound; [lia|]. lia.
  - apply Z.lt_succ_r. apply Z.div_lt_upper_bound; [lia|]. lia.
Qed.
Lemma square_pos a b : price_ok a -> price_ok b -> 0 < a * b / 10 ^ 24.
Proof.
  intros A B. assert (P2 : MIN_SQRT_PRICE * MIN_SQRT_PRICE <= a * b) by (apply Z.mul_le_mono_nonneg; unfold price_ok, MIN_SQRT_PRICE in *; lia).
  assert (10 ^ 14 <= a * b / 10 ^ 24) by (apply Z.div_le_lower_bound; [reflexivity|]; unfold MIN_SQRT_PRICE in P2; lia). lia.
Qed.

(** what the whole costs and pays, against the parts *)
Lemma costs_split L1 L2 a b : price_ok a -> price_ok b -> a <= b ->
  cost_x L1 a b + cost_x L2 a b - 1 <= cost_x (L1 + L2) a b <= cost_x L1 a b + cost_x L2 a b + 1 /\
  cost_y L1 a b + cost_y L2 a b - 1 <= cost_y (L1 + L2) a b <= cost_y L1 a b + cost_y L2 a b.
Proof.
  intros A B AB. unfold cost_x, cost_y. cbv zeta. rewrite Z.mul_add_distr_r. split.
  - apply ceil_split3; [by apply square_pos|]. apply floor_split. reflexivity.
  - apply ceil_split. reflexivity.
Qed.
Lemma gains_split L1 L2 a b : price_ok a -> price_ok b -> a <= b ->
  gain_x L1 a b + gain_x L2 a b <= gain_x (L1 + L2) a b <= gain_x L1 a b + gain_x L2 a b + 1 /\
  gain_y L1 a b + gain_y L2 a b <= gain_y (L1 + L2) a b <= gain_y L1 a b + gain_y L2 a b + 1.
Proof.
  intros A B AB. unfold gain_x, gain_y. rewrite Z.mul_add_distr_r. split; [|apply floor_split; reflexivity].
  apply floor_split3; [|apply floor_split; reflexivity].
  pose proof (square_pos _ _ A B) as Q. set (u := 10 ^ 24) in *. assert (U : 0 < u) by reflexivity. clearbody u.
  enough (a * b / u <= (a * b + u - 1) / u) by lia. apply Z.div_le_mono; lia.
Qed.

(** ** Deposits, down to the records they write *)
Definition mark_pool (p : pool) (now lower upper L : Z) : pool :=
  p_set_liq (p_set_last p now) (p_liq p + (if in_range_tick lower upper (p_tick p) then L else 0)).
Lemma create_raw e i s k lower upper L sl su s' ms at' : ereach s -> 0 <= L <= U128MAX ->
  create_position e i s k lower upper L sl su = Ok (s', ms, at') ->
  let mx := calculate_max_liquidity_per_tick (spacing k) in
  exists p lt ut lt' ut' bm1 bm2,
    st_pools s !! k = Some p /\ lower < upper /\
    (stored_or_new s (e_millis e) k p lower lt /\ tick_pre (st_positions s) k lower lt /\ tick_update lt L mx false true = Ok lt') /\
    (stored_or_new s (e_millis e) k p upper ut /\ tick_pre (st_positions s) k upper ut /\ tick_update ut L mx true true = Ok ut') /\
    init_bitmap s k lower (st_bitmap s) bm1 /\ init_bitmap s k upper bm1 bm2 /\
    st_positions s !! (i_sender i, plen s (i_sender i)) = None /\
    s' = mkStore (st_config s) (<[k := mark_pool p (e_millis e) lower upper L]> (st_pools s))
           (<[(k, upper) := ut']> (<[(k, lower) := lt']> (st_ticks s))) bm2
           (<[(i_sender i, plen s (i_sender i)) :=
              mkPosition k L lower upper (inside_x p lt ut) (inside_y p lt ut) (e_height e) 0 0 []]> (st_positions s))
           (<[i_sender i := plen s (i_sender i) + 1]> (st_poslen s)) (st_operators s).
Proof.
  intros R Hq H mx. apply create_position_inv in H; [|by apply ereach_indexed].
  destruct H as (p0 & lt & ut & po & p' & lt' & ut' & x & y & bm1 & bm2 & m0 & m1 & HL & HN & Ep & Sl & Su & B1 & B2 & PC & PL & A0 & A1 & EM & _ & ->).
  pose proof (ereach_liq _ R) as LI. destruct (kv_tier _ (ereach_pools _ R _ _ Ep)) as [S1 _].
  destruct (stored_pre _ _ _ _ _ _ LI S1 Sl) as [TL GL]. destruct (stored_pre _ _ _ _ _ _ LI S1 Su) as [TU GU].
  unfold position_create in PC. destruct (_ || _) eqn:SLP; [done|].
  inv_bind PC as [[[[[po1 p1] u1] l1] x1] y1] EMo.
  apply Ok_inj in PC. injection PC as <- <- <- <- <- <-.
  assert (TK : tick_update lt L mx false true = Ok l1 /\ tick_update ut L mx true true = Ok u1).
  { pose proof EMo as Q. unfold position_modify in Q. inv_bind Q as l2 EL. inv_bind Q as u2 EU. inv_bind Q as po2 EP. inv_bind Q as [[p2 x2] y2] EQ.
    apply Ok_inj in Q. injection Q as <- <- <- <- <- <-. done. }
  destruct TK as [TKL TKU].
  apply position_modify_inv in EMo; [|lia|apply TU|apply TL]. destruct EMo as (ox & oy & F).
  rewrite (tp_index _ _ _ _ TL), (tp_index _ _ _ _ TU) in F.
  pose proof (to_fee_zero _ _ (mf_ox _ _ _ _ _ _ _ _ _ _ _ _ _ _ _ _ F)) as ->.
  pose proof (to_fee_zero _ _ (mf_oy _ _ _ _ _ _ _ _ _ _ _ _ _ _ _ _ F)) as ->.
  pose proof (mf_order _ _ _ _ _ _ _ _ _ _ _ _ _ _ _ _ F) as O. rewrite (tp_index _ _ _ _ TL), (tp_index _ _ _ _ TU) in O.
  pose proof (mf_pool _ _ _ _ _ _ _ _ _ _ _ _ _ _ _ _ F) as PP. rewrite (tp_index _ _ _ _ TL), (tp_index _ _ _ _ TU) in PP.
  pose proof (mf_pos _ _ _ _ _ _ _ _ _ _ _ _ _ _ _ _ F) as PO. cbn [po_key po_liq po_lower po_upper po_block po_owedx po_owedy po_approvals] in PO.
  subst p1 po1. exists p0, lt, ut, l1, u1, bm1, bm2. split; [done|]. split; [lia|]. split; [done|]. split; [done|]. split; [done|]. split; [done|].
  split; [apply pos_fresh; by apply ereach_pos_ok|]. reflexivity.
Qed.

Lemma stored_fun s now k p i t t' : stored_or_new s now k p i t -> stored_or_new s now k p i t' -> t' = t.
Proof. intros [A|(A & _ & A')] [B|(B & _ & B')]; congruence. Qed.
Lemma init_fun s k i bm a b : init_bitmap s k i bm a -> init_bitmap s k i bm b -> a = b.
Proof. unfold init_bitmap. destruct (st_ticks s !! (k, i)); [congruence|]. intros (x & X & ->) (y & Y & ->). congruence. Qed.
Lemma mark_pool_twice p now lower upper L1 L2 :
  mark_pool (mark_pool p now lower upper L1) now lower upper L2 = mark_pool p now lower upper (L1 + L2).
Proof.
  unfold mark_pool. cbn [p_liq p_tick p_set_liq p_set_last]. destruct p; cbn. f_equal. destruct (in_range_tick _ _ _); lia.
Qed.
Lemma fog_update t L mx up t' : tick_update t L mx up true = Ok t' -> t_index t' = t_index t /\ t_fox t' = t_fox t /\ t_foy t' = t_foy t.
Proof.
  unfold tick_update. intros H. inv_bind H as g G. inv_bind H as [a b] U. apply Ok_inj in H. by subst t'.
Qed.

(** the two stores agree on all that prices, fees and trades depend on *)
Lemma deposits_add e i1 i2 i s k lower upper L1 L2 sl1 su1 sl2 su2 sl su s1 m1 a1 s2 m2 a2 s' m' a' :
  ereach s -> ereach s1 -> 0 <= L1 <= U128MAX -> 0 <= L2 <= U128MAX -> 0 <= L1 + L2 <= U128MAX ->
  create_position e i1 s k lower upper L1 sl1 su1 = Ok (s1, m1, a1) ->
  create_position e i2 s1 k lower upper L2 sl2 su2 = Ok (s2, m2, a2) ->
  create_position e i s k lower upper (L1 + L2) sl su = Ok (s', m', a') ->
  st_pools s' = st_pools s2 /\ st_ticks s' = st_ticks s2 /\ st_bitmap s' = st_bitmap s2 /\
  (exists gx gy, st_positions s' !! (i_sender i, plen s (i_sender i)) = Some (mkPosition k (L1 + L2) lower upper gx gy (e_height e) 0 0 []) /\
     st_positions s2 !! (i_sender i1, plen s (i_sender i1)) = Some (mkPosition k L1 lower upper gx gy (e_height e) 0 0 []) /\
     st_positions s2 !! (i_sender i2, plen s1 (i_sender i2)) = Some (mkPosition k L2 lower upper gx gy (e_height e) 0 0 [])) /\
  (exists p p1, st_pools s !! k = Some p /\ st_pools s1 !! k = Some p1 /\ p_price p1 = p_price p).
Proof.
  intros R R1 H1 H2 H12 E1 E2 E. apply create_raw in E1; [|done..]. apply create_raw in E2; [|done..]. apply create_raw in E; [|done..].
  cbv zeta in *. destruct E1 as (p & lt & ut & lt1 & ut1 & bm1 & bm2 & P & O & (Sl & Tl & Ul) & (Su & Tu & Uu) & B1 & B2 & FR & ->).
  destruct E2 as (p1 & ltx & utx & lt2 & ut2 & bm1x & bm2x & P1 & _ & (Slx & Tlx & Ulx) & (Sux & Tux & Uux) & B1x & B2x & FRx & ->).
  destruct E as (p_ & lt_ & ut_ & lt' & ut' & bm1' & bm2' & P' & _ & (Sl' & Tl' & Ul') & (Su' & Tu' & Uu') & B1' & B2' & FR' & ->).
  cbn [st_pools st_ticks st_bitmap st_positions st_poslen st_config st_operators] in *.
  rewrite P in P'. injection P' as <-. rewrite lookup_insert in P1. injection P1 as <-.
  rewrite (stored_fun _ _ _ _ _ _ _ Sl Sl') in *. rewrite (stored_fun _ _ _ _ _ _ _ Su Su') in *.
  assert (NE : (k, upper) <> (k, lower)) by (intros X; injection X; lia).
  set (s1 := mkStore _ _ _ _ _ _ _) in *.
  assert (TL1 : st_ticks s1 !! (k, lower) = Some lt1) by (cbn; rewrite lookup_insert_ne by done; apply lookup_insert).
  assert (TU1 : st_ticks s1 !! (k, upper) = Some ut1) by (cbn; apply lookup_insert).
  destruct Slx as [Slx|[Slx _]]; [|congruence]. destruct Sux as [Sux|[Sux _]]; [|congruence].
  rewrite TL1 in Slx. injection Slx as <-. rewrite TU1 in Sux. injection Sux as <-.
  unfold init_bitmap in B1x, B2x. rewrite TL1 in B1x. rewrite TU1 in B2x. subst bm1x bm2x.
  pose proof (init_fun _ _ _ _ _ _ B1 B1') as <-. pose proof (init_fun _ _ _ _ _ _ B2 B2') as <-.
  pose proof (tick_update_twice _ _ _ _ _ _ _ _ (tp_change _ _ _ _ Tl) (proj1 H1) (proj1 H2) Ul Ulx Ul') as ->.
  pose proof (tick_update_twice _ _ _ _ _ _ _ _ (tp_change _ _ _ _ Tu) (proj1 H1) (proj1 H2) Uu Uux Uu') as ->.
  assert (PP : p_price (mark_pool p (e_millis e) lower upper L1) = p_price p) by reflexivity.
  split; [|split; [|split; [|split]]].
  - rewrite mark_pool_twice. cbn. by rewrite insert_insert.
  - cbn. apply map_eq. intros x. destruct (decide (x = (k, upper))) as [->|A]; [by rewrite !lookup_insert|].
    rewrite !(lookup_insert_ne _ (k, upper)) by done. destruct (decide (x = (k, lower))) as [->|B]; [by rewrite !lookup_insert|].
    rewrite !(lookup_insert_ne _ (k, lower)) by done. by rewrite lookup_insert_ne, lookup_insert_ne by done.
  - done.
  - destruct (fog_update _ _ _ _ _ Ul) as (I1 & X1 & Y1). destruct (fog_update _ _ _ _ _ Uu) as (I2 & X2 & Y2).
    assert (GX : inside_x (mark_pool p (e_millis e) lower upper L1) lt1 ut1 = inside_x p lt ut) by (unfold inside_x; cbn [p_tick p_fgx mark_pool p_set_liq p_set_last]; by rewrite I1, X1, I2, X2).
    assert (GY : inside_y (mark_pool p (e_millis e) lower upper L1) lt1 ut1 = inside_y p lt ut) by (unfold inside_y; cbn [p_tick p_fgy mark_pool p_set_liq p_set_last]; by rewrite I1, Y1, I2, Y2).
    exists (inside_x p lt ut), (inside_y p lt ut). rewrite GX, GY. split; [apply lookup_insert|]. split; [|apply lookup_insert].
    rewrite lookup_insert_ne; [apply lookup_insert|]. intros X. change (st_positions s1) with
      (<[(i_sender i1, plen s (i_sender i1)) := mkPosition k L1 lower upper (inside_x p lt ut) (inside_y p lt ut) (e_height e) 0 0 []]> (st_positions s)) in FRx.
    rewrite X, lookup_insert in FRx. discriminate FRx.
  - exists p, (mark_pool p (e_millis e) lower upper L1). split; [done|]. split; [apply lookup_insert|done].
Qed.

(** ** C83 *)
Definition deposit (m : exec_msg) (k : pool_key) (lower upper L : Z) : Prop :=
  exists sl su, m = CreatePosition k lower upper L sl su \/ m = Mint k lower upper L sl su.
Lemma deposit_execute e i s m k lower upper L s' ms at' : deposit m k lower upper L -> execute e i s m = Ok (s', ms, at') ->
  exists sl su, create_position e i s k lower upper L sl su = Ok (s', ms, at') /\ 0 <= L <= U128MAX /\ env_typed e i = true /\
    (m = CreatePosition k lower upper L sl su \/ m = Mint k lower upper L sl su).
Proof.
  intros (sl & su & M) H. unfold execute in H. destruct (env_typed e i && msg_typed m) eqn:T; [|done]. exists sl, su.
  apply andb_prop in T as [T0 T]. destruct M as [-> | ->]; cbn [dispatch msg_typed] in *; (split; [done|]);
      repeat (apply andb_prop in T as [T ?]); (split; [by apply in_range_spec|auto]).
Qed.

(** two deposits over one range at one time leave the pools, ticks and bitmap just as one deposit of the sum does; the new positions
    start from the same fee marks; the sum costs as much as the parts up to one unit of each token, and never more of the second *)
Theorem C83_deposits_add e i1 i2 i s k lower upper L1 L2 d1 d2 d s1 m1 a1 s2 m2 a2 s' m' a' : reachable s ->
  deposit d1 k lower upper L1 -> deposit d2 k lower upper L2 -> deposit d k lower upper (L1 + L2) ->
  execute e i1 s d1 = Ok (s1, m1, a1) -> execute e i2 s1 d2 = Ok (s2, m2, a2) -> execute e i s d = Ok (s', m', a') ->
  (st_pools s' = st_pools s2 /\ st_ticks s' = st_ticks s2 /\ st_bitmap s' = st_bitmap s2) /\
  (exists po po1 po2 n n1 n2,
     st_positions s' !! (i_sender i, n) = Some po /\ st_positions s2 !! (i_sender i1, n1) = Some po1 /\ st_positions s2 !! (i_sender i2, n2) = Some po2 /\
     st_positions s !! (i_sender i, n) = None /\ st_positions s !! (i_sender i1, n1) = None /\ st_positions s1 !! (i_sender i2, n2) = None /\
     (po_liq po, po_liq po1, po_liq po2) = (L1 + L2, L1, L2) /\
     po_fgx po1 = po_fgx po /\ po_fgy po1 = po_fgy po /\ po_fgx po2 = po_fgx po /\ po_fgy po2 = po_fgy po) /\
  exists x1 y1 x2 y2 x y,
    m1 = collects e i1 (pk_x k) x1 ++ collects e i1 (pk_y k) y1 /\ m2 = collects e i2 (pk_x k) x2 ++ collects e i2 (pk_y k) y2 /\
    m' = collects e i (pk_x k) x ++ collects e i (pk_y k) y /\
    x1 + x2 - 1 <= x <= x1 + x2 + 1 /\ y1 + y2 - 1 <= y <= y1 + y2.
Proof.
  intros R D1 D2 D E1 E2 E. pose proof (reach_call _ _ _ _ _ _ _ R E1) as R1. apply reachable_ereach in R, R1.
  destruct (deposit_execute _ _ _ _ _ _ _ _ _ _ _ D1 E1) as (sl1 & su1 & C1 & T1 & _).
  destruct (deposit_execute _ _ _ _ _ _ _ _ _ _ _ D2 E2) as (sl2 & su2 & C2 & T2 & _).
  destruct (deposit_execute _ _ _ _ _ _ _ _ _ _ _ D E) as (sl & su & C & T & _).
  destruct (deposits_add _ _ _ _ _ _ _ _ _ _ _ _ _ _ _ _ _ _ _ _ _ _ _ _ _ R R1 T1 T2 T C1 C2 C) as (A1 & A2 & A3 & (gx & gy & Q & Q1 & Q2) & p & p1 & P & P1 & PE).
  split; [done|]. split.
  { pose proof (pos_fresh _ (i_sender i) (ereach_pos_ok _ R)). pose proof (pos_fresh _ (i_sender i1) (ereach_pos_ok _ R)).
    pose proof (pos_fresh _ (i_sender i2) (ereach_pos_ok _ R1)). do 6 eexists. split; [exact Q|]. split; [exact Q1|]. split; [exact Q2|]. done. }
  destruct (deposit_inv _ _ _ _ _ _ _ _ _ _ _ _ R T1 C1) as [DP M1]. specialize (M1 _ P).
  pose proof (proj2 (deposit_inv _ _ _ _ _ _ _ _ _ _ _ _ R1 T2 C2) _ P1) as M2.
  pose proof (proj2 (deposit_inv _ _ _ _ _ _ _ _ _ _ _ _ R T C) _ P) as M'.
  unfold price_of_deposit, split_price in *. cbn [fst snd] in *. rewrite PE in M2.
  do 6 eexists. split; [exact M1|]. split; [exact M2|]. split; [exact M'|].
  destruct DP as (_ & _ & _ & O & VL & VU & _).
  pose proof (legal_price_range _ _ VL) as PL. pose proof (legal_price_range _ _ VU) as PU. pose proof (legal_price_lt _ _ _ VL VU O) as PO.
  set (lo := tprice lower) in *. set (hi := tprice upper) in *. clearbody lo hi. unfold clamp. set (c := Z.max lo (Z.min (p_price p) hi)).
  assert (CB : lo <= c <= hi) by lia. clearbody c.
  split; [apply (costs_split L1 L2 c hi)|apply (costs_split L1 L2 lo c)]; unfold price_ok; lia.
Qed.

(** if the parts can be deposited, so can the sum: by whoever has room for another position and asks for no narrower price window
    than the first part, unless a native coin is short *)
Theorem C83_sum_possible e i1 i2 i s k lower upper L1 L2 sl su d2 s1 m1 a1 s2 m2 a2 : reachable s -> begun (e_millis e) s -> env_typed e i = true ->
  plen s (i_sender i) < 2 ^ 32 - 1 -> e_addr_ok e (pk_x k) = true -> e_addr_ok e (pk_y k) = true ->
  deposit d2 k lower upper L2 ->
  execute e i1 s (CreatePosition k lower upper L1 sl su) = Ok (s1, m1, a1) -> execute e i2 s1 d2 = Ok (s2, m2, a2) ->
  exists s' m' a', execute e i s (CreatePosition k lower upper (L1 + L2) sl su) = Ok (s', m', a').
Proof.
  intros R BG ET RM CX CY D2 E1 E2. pose proof (reach_call _ _ _ _ _ _ _ R E1) as R1. apply reachable_ereach in R, R1.
  assert (MT : in_range 0 U128MAX L1 = true /\ msg_typed (CreatePosition k lower upper L1 sl su) = true).
  { unfold execute in E1. destruct (env_typed e i1 && msg_typed (CreatePosition k lower upper L1 sl su)) eqn:T; [|done].
    apply andb_prop in T as [_ T]. split; [|done]. cbn [msg_typed] in T. repeat (apply andb_prop in T as [T ?]). done. }
  destruct MT as [T1 MT]. apply in_range_spec in T1.
  assert (C1 : create_position e i1 s k lower upper L1 sl su = Ok (s1, m1, a1)).
  { unfold execute in E1. destruct (env_typed e i1 && _); [exact E1|done]. }
  destruct (deposit_execute _ _ _ _ _ _ _ _ _ _ _ D2 E2) as (sl2 & su2 & C2 & T2 & _).
  destruct (deposit_inv _ _ _ _ _ _ _ _ _ _ _ _ R T1 C1) as [(p & P & L0 & O & VL & VU & SLP & _ & _ & _ & _ & _) _].
  destruct (deposit_inv _ _ _ _ _ _ _ _ _ _ _ _ R1 T2 C2) as [(p1 & P1 & L0' & _ & _ & _ & _ & _ & _ & PL & _) _].
  pose proof (create_raw _ _ _ _ _ _ _ _ _ _ _ _ R T1 C1) as Q1. pose proof (create_raw _ _ _ _ _ _ _ _ _ _ _ _ R1 T2 C2) as Q2. cbv zeta in Q1, Q2.
  destruct Q1 as (p_ & lt & ut & lt1 & ut1 & bm1 & bm2 & P_ & _ & (Sl & Tl & Ul) & (Su & Tu & Uu) & _ & _ & _ & S1).
  destruct Q2 as (q_ & ltx & utx & lt2 & ut2 & bm1x & bm2x & _ & _ & (Slx & Tlx & Ulx) & (Sux & Tux & Uux) & _).
  rewrite P in P_. injection P_ as <-.
  assert (TL1 : st_ticks s1 !! (k, lower) = Some lt1) by (rewrite S1; cbn; rewrite lookup_insert_ne by (intros X; injection X; lia); apply lookup_insert).
  assert (TU1 : st_ticks s1 !! (k, upper) = Some ut1) by (rewrite S1; cbn; apply lookup_insert).
  destruct Slx as [Slx|[Slx _]]; [|congruence]. destruct Sux as [Sux|[Sux _]]; [|congruence].
  rewrite TL1 in Slx. injection Slx as <-. rewrite TU1 in Sux. injection Sux as <-.
  apply tick_update_inv in Ul; [|lia|apply (tp_change _ _ _ _ Tl)]. apply tick_update_inv in Ulx; [|lia|apply (tp_change _ _ _ _ Tlx)].
  apply tick_update_inv in Uu; [|lia|apply (tp_change _ _ _ _ Tu)]. apply tick_update_inv in Uux; [|lia|apply (tp_change _ _ _ _ Tux)].
  assert (GL : ending_at s k lower + (L1 + L2) < calculate_max_liquidity_per_tick (spacing k)).
  { unfold ending_at. rewrite <- (tp_gross _ _ _ _ Tl). unfold pm in *. destruct Ul as (_ & _ & _ & _ & _ & G1 & _), Ulx as (_ & _ & _ & _ & _ & G2 & _ & G3 & _).
    try specialize (G3 eq_refl). lia. }
  assert (GU : ending_at s k upper + (L1 + L2) < calculate_max_liquidity_per_tick (spacing k)).
  { unfold ending_at. rewrite <- (tp_gross _ _ _ _ Tu). unfold pm in *. destruct Uu as (_ & _ & _ & _ & _ & G1 & _), Uux as (_ & _ & _ & _ & _ & G2 & _ & G3 & _).
    try specialize (G3 eq_refl). lia. }
  pose proof (ereach_liq _ R) as LI. destruct (kv_tier _ (ereach_pools _ R _ _ P)) as [SP _].
  assert (SUM : 0 <= L1 + L2 <= U128MAX).
  { split; [lia|]. destruct (stored_pre _ _ _ _ _ _ LI SP Sl) as [_ G0]. unfold pm in *.
    destruct Ul as (_ & _ & _ & _ & _ & G1 & _), Ulx as (_ & _ & _ & _ & _ & G2 & G3 & _). lia. }
  assert (PL' : lower <= p_tick p < upper -> p_liq p + (L1 + L2) < 2 ^ 128).
  { intros IR. rewrite S1 in P1. cbn in P1. rewrite lookup_insert in P1. injection P1 as <-. cbn [p_tick p_liq mark_pool p_set_liq p_set_last] in PL.
    specialize (PL IR). unfold in_range_tick in PL. rewrite (proj2 (Z.leb_le _ _)), (proj2 (Z.ltb_lt _ _)) in PL by lia. cbn in PL. lia. }
  assert (OK : is_ok (create_position e i s k lower upper (L1 + L2) sl su) = true).
  { apply deposit_iff; [done|done|done|done|]. exists p. split; [done|]. split; [lia|]. split; [done|]. split; [done|]. split; [done|]. split; [done|].
    split; [exact GL|]. split; [exact GU|]. split; [done|]. split; [done|]. split; right; by left. }
  assert (MT' : msg_typed (CreatePosition k lower upper (L1 + L2) sl su) = true).
  { cbn [msg_typed] in *. unfold u128_ok in *. assert (I : in_range 0 U128MAX (L1 + L2) = true) by (by apply in_range_spec). rewrite I. by rewrite (proj2 (in_range_spec 0 U128MAX L1) T1) in MT. }
  unfold execute. rewrite ET, MT'. cbn [andb dispatch]. apply is_ok_ex in OK as [[[s' m'] a'] OK]. exists s', m', a'. exact OK.
Qed.

(** a position of liquidity [L1 + L2] against two of [L1] and [L2] over the same range with the same fee marks, in states with the same
    pools and ticks: withdrawing pays at least what the parts pay, and at most two units more of each token *)
Theorem C83_withdrawals_add e e1 e2 i i1 i2 s t n n1 n2 po po1 po2 s' s1 s2 ms m1 m2 at' a1 a2 : reachable s -> reachable t ->
  st_pools t = st_pools s -> st_ticks t = st_ticks s ->
  st_positions s !! (i_sender i, n) = Some po -> st_positions t !! (i_sender i1, n1) = Some po1 -> st_positions t !! (i_sender i2, n2) = Some po2 ->
  (forall q, q = po1 \/ q = po2 -> po_key q = po_key po /\ po_lower q = po_lower po /\ po_upper q = po_upper po /\ po_fgx q = po_fgx po /\ po_fgy q = po_fgy po) ->
  po_liq po = po_liq po1 + po_liq po2 ->
  execute e i s (RemovePosition n) = Ok (s', ms, at') -> execute e1 i1 t (RemovePosition n1) = Ok (s1, m1, a1) ->
  execute e2 i2 t (RemovePosition n2) = Ok (s2, m2, a2) ->
  exists x y x1 y1 x2 y2, pays (i_sender i) (po_key po) x y ms /\ pays (i_sender i1) (po_key po) x1 y1 m1 /\ pays (i_sender i2) (po_key po) x2 y2 m2 /\
    x1 + x2 <= x <= x1 + x2 + 2 /\ y1 + y2 <= y <= y1 + y2 + 2.
Proof.
  intros R RT EP ETK Q Q1 Q2 SAME LQ E E1 E2.
  destruct (SAME po1 (or_introl eq_refl)) as (K1 & A1 & B1 & X1 & Y1). destruct (SAME po2 (or_intror eq_refl)) as (K2 & A2 & B2 & X2 & Y2). clear SAME.
  assert (P : exists p, st_pools s !! po_key po = Some p).
  { apply reachable_ereach in R. destruct (lq_pos _ (ereach_liq _ R) _ _ Q) as [_ [p P]]. eauto. }
  destruct P as [p P].
  pose proof (C80_withdraw _ _ _ _ _ _ _ _ _ R E Q P) as W. assert (P1 : st_pools t !! po_key po1 = Some p) by (by rewrite K1, EP).
  pose proof (C80_withdraw _ _ _ _ _ _ _ _ _ RT E1 Q1 P1) as W1. assert (P2 : st_pools t !! po_key po2 = Some p) by (by rewrite K2, EP).
  pose proof (C80_withdraw _ _ _ _ _ _ _ _ _ RT E2 Q2 P2) as W2. cbv zeta in W, W1, W2.
  rewrite K1, A1, B1 in W1. rewrite K2, A2, B2 in W2. do 6 eexists. split; [exact W|]. split; [exact W1|]. split; [exact W2|].
  assert (FX : accrued_x t p po1 + accrued_x t p po2 <= accrued_x s p po <= accrued_x t p po1 + accrued_x t p po2 + 1).
  { unfold accrued_x. rewrite K1, A1, B1, X1, K2, A2, B2, X2, ETK, LQ. destruct (st_ticks s !! (po_key po, po_lower po)); [|lia].
    destruct (st_ticks s !! (po_key po, po_upper po)); [|lia]. rewrite Z.mul_add_distr_l. apply floor_split. reflexivity. }
  assert (FY : accrued_y t p po1 + accrued_y t p po2 <= accrued_y s p po <= accrued_y t p po1 + accrued_y t p po2 + 1).
  { unfold accrued_y. rewrite K1, A1, B1, Y1, K2, A2, B2, Y2, ETK, LQ. destruct (st_ticks s !! (po_key po, po_lower po)); [|lia].
    destruct (st_ticks s !! (po_key po, po_upper po)); [|lia]. rewrite Z.mul_add_distr_l. apply floor_split. reflexivity. }
  apply reachable_ereach in R. destruct (lq_pos _ (ereach_liq _ R) _ _ Q) as [(_ & VL & VU & O) _]. rewrite LQ.
  pose proof (legal_price_range _ _ VL) as PL. pose proof (legal_price_range _ _ VU) as PU. pose proof (legal_price_lt _ _ _ VL VU O) as PO.
  set (lo := tprice (po_lower po)) in *. set (hi := tprice (po_upper po)) in *. clearbody lo hi. set (c := Z.max lo (Z.min (p_price p) hi)).
  assert (CB : lo <= c <= hi) by lia. clearbody c.
  destruct (gains_split (po_liq po1) (po_liq po2) c hi) as [GX _]; [unfold price_ok; lia..|].
  destruct (gains_split (po_liq po1) (po_liq po2) lo c) as [_ GY]; [unfold price_ok; lia..|]. lia.
Qed.

(** ** Examples *)
(** the sum saves a unit of the second token, and earns the same fee marks *)
Definition sp_dan : exec_msg := CreatePosition v_key (-10) 30 900000000000 0 MAX_SQRT_PRICE.
Definition sp_eve : exec_msg := Mint v_key (-10) 30 400000000000 0 MAX_SQRT_PRICE.
Definition sp_fay : exec_msg := CreatePosition v_key (-10) 30 1300000000000 0 MAX_SQRT_PRICE.
Example ex_C83 :
  deposit sp_dan v_key (-10) 30 900000000000 /\ deposit sp_eve v_key (-10) 30 400000000000 /\ deposit sp_fay v_key (-10) 30 (900000000000 + 400000000000) /\
  match execute v_env (v_info "dan") sc0 sp_dan, execute v_env (v_info "fay") sc0 sp_fay with
  | Ok (s1, m1, _), Ok (s', m', _) =>
      m1 = [Cw20TransferFrom "tokenx" "dan" "self" 1457; Cw20TransferFrom "tokeny" "dan" "self" 343]%string /\
      m' = [Cw20TransferFrom "tokenx" "fay" "self" 2104; Cw20TransferFrom "tokeny" "fay" "self" 495]%string /\
      match execute v_env (v_info "eve") s1 sp_eve with
      | Ok (s2, m2, _) =>
          m2 = [Cw20TransferFrom "tokenx" "eve" "self" 648; Cw20TransferFrom "tokeny" "eve" "self" 153]%string /\
          match execute v_env (v_info "fay") s' (RemovePosition 0), execute v_env (v_info "dan") s2 (RemovePosition 0), execute v_env (v_info "eve") s2 (RemovePosition 0) with
          | Ok (_, w, _), Ok (_, w1, _), Ok (_, w2, _) =>
              w = [Cw20Transfer "tokenx" "fay" 2103; Cw20Transfer "tokeny" "fay" 494]%string /\
              w1 = [Cw20Transfer "tokenx" "dan" 1456; Cw20Transfer "tokeny" "dan" 342]%string /\
              w2 = [Cw20Transfer "tokenx" "eve" 647; Cw20Transfer "tokeny" "eve" 152]%string
          | _, _, _ => False
          end
      | _ => False
      end
  | _, _ => False
  end.
Proof.
  split; [do 2 eexists; left; reflexivity|]. split; [do 2 eexists; right; reflexivity|]. split; [do 2 eexists; left; reflexivity|].
  vm_compute. repeat split.
Qed.
(** the sum can also cost a unit more of the first token than the parts *)
Definition sp_store : store :=
  match start 0 [("alice", AddFeeTier v_tier); ("alice", CreatePool "tokenx" "tokeny" v_tier (SP_ONE - 1) (-10))]%string with Ok s => s | _ => sc0 end.
Definition sp_part (n : Z) : exec_msg := CreatePosition v_key (-10) 0 (n * ((SP_ONE - 1) * 10 ^ 6 + 600000)) 0 MAX_SQRT_PRICE.
Example ex_C83_dearer :
  match execute v_env (v_info "dan") sp_store (sp_part 1), execute v_env (v_info "fay") sp_store (sp_part 2) with
  | Ok (s1, [Cw20TransferFrom "tokenx" "dan" "self" x1; _], _), Ok (s', [Cw20TransferFrom "tokenx" "fay" "self" x; _], _) =>
      match execute v_env (v_info "eve") s1 (sp_part 1) with
      | Ok (s2, [Cw20TransferFrom "tokenx" "eve" "self" x2; _], _) => (x1, x2, x) = (1, 1, 3)
      | _ => False
      end
  | _, _ => False
  end%string.
Proof. vm_compute. reflexivity. Qed.
