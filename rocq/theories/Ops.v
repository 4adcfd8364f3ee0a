(** What a successful create, claim or remove does, in one place. *)
From Verif Require Import Base Decimal SqrtPrice Clamm Log FeeGrowth Types Tick Pool Position
  Tickmap Keys State Swap Exec Tactics PriceProofs ClammProofs BitmapProofs Frame Handlers History Basic
  SwapGeo SwapLoop Modify PSum LiqInv Geo.
From stdpp Require Import gmap strings.
From Coq Require Import Lia.
Open Scope Z_scope.

Record create_facts (e : env) (i : msg_info) (s : store) (k : pool_key) (lower upper liq sl su : Z) (s' : store) (ms : list out_msg)
    (p : pool) (lt ut : tick) (po : position) (p' : pool) (lt' ut' : tick) (x y : Z) (bm1 bm2 : gmap (pool_key * Z) Z) (m0 m1 : list out_msg) : Prop := {
  cx_liq : 0 < liq <= U128MAX;
  cx_order : lower < upper;
  cx_pool : st_pools s !! k = Some p;
  cx_slip : sl <= p_price p <= su;
  cx_low : stored_or_new s (e_millis e) k p lower lt;
  cx_up : stored_or_new s (e_millis e) k p upper ut;
  cx_lowp : tick_pre (st_positions s) k lower lt;
  cx_upp : tick_pre (st_positions s) k upper ut;
  cx_bit1 : init_bitmap s k lower (st_bitmap s) bm1;
  cx_bit2 : init_bitmap s k upper bm1 bm2;
  cx_mod : modify_facts (mkPosition k 0 lower upper 0 0 (e_height e) 0 0 []) p ut lt liq true (e_millis e) (spacing k) po p' ut' lt' x y 0 0;
  cx_fresh : st_positions s !! (i_sender i, plen s (i_sender i)) = None;
  cx_payx : asset_transfer_from e i (pk_x k) x = Ok m0;
  cx_payy : asset_transfer_from e i (pk_y k) y = Ok m1;
  cx_msgs : ms = m0 ++ m1;
  cx_store : s' = mkStore (st_config s) (<[k := p']> (st_pools s))
           (<[(k, upper) := ut']> (<[(k, lower) := lt']> (st_ticks s))) bm2
           (<[(i_sender i, plen s (i_sender i)) := po]> (st_positions s))
           (<[i_sender i := plen s (i_sender i) + 1]> (st_poslen s)) (st_operators s)
}.
Lemma to_fee_zero g o : to_fee g 0 = Ok o -> o = 0.
Proof.
  unfold to_fee. intros H. rewrite Z.mul_0_r in H. cbn in H. by apply Ok_inj in H.
Qed.
Lemma create_inv e i s k lower upper liq sl su s' ms at' : ereach s -> 0 <= liq <= U128MAX ->
  create_position e i s k lower upper liq sl su = Ok (s', ms, at') ->
  exists p lt ut po p' lt' ut' x y bm1 bm2 m0 m1,
    create_facts e i s k lower upper liq sl su s' ms p lt ut po p' lt' ut' x y bm1 bm2 m0 m1.
Proof.
  intros R Hq H. apply create_position_inv in H; [|by apply ereach_indexed].
  destruct H as (p0 & lt & ut & po & p' & lt' & ut' & x & y & bm1 & bm2 & m0 & m1 & HL & HN & Ep & Sl & Su & B1 & B2 & PC & PL & A0 & A1 & EM & _ & ->).
  pose proof (ereach_liq _ R) as LI. destruct (kv_tier _ (ereach_pools _ R _ _ Ep)) as [S1 _].
  destruct (stored_pre _ _ _ _ _ _ LI S1 Sl) as [TL GL]. destruct (stored_pre _ _ _ _ _ _ LI S1 Su) as [TU GU].
  unfold position_create in PC. destruct (_ || _) eqn:SLP; [done|]. apply orb_false_iff in SLP. rewrite !Z.ltb_ge in SLP.
  inv_bind PC as [[[[[po1 p1] u1] l1] x1] y1] EMo.
  apply Ok_inj in PC. injection PC as <- <- <- <- <- <-.
  apply position_modify_inv in EMo; [|lia|apply TU|apply TL]. destruct EMo as (ox & oy & F).
  rewrite (tp_index _ _ _ _ TL), (tp_index _ _ _ _ TU) in F.
  pose proof (to_fee_zero _ _ (mf_ox _ _ _ _ _ _ _ _ _ _ _ _ _ _ _ _ F)) as ->.
  pose proof (to_fee_zero _ _ (mf_oy _ _ _ _ _ _ _ _ _ _ _ _ _ _ _ _ F)) as ->.
  pose proof (mf_order _ _ _ _ _ _ _ _ _ _ _ _ _ _ _ _ F) as O. rewrite (tp_index _ _ _ _ TL), (tp_index _ _ _ _ TU) in O.
  exists p0, lt, ut, po1, p1, l1, u1, x1, y1, bm1, bm2, m0, m1. constructor; try done; try lia.
  apply pos_fresh. by apply ereach_pos_ok.
Qed.

Record claim_facts (e : env) (i : msg_info) (s : store) (ix : Z) (s' : store) (ms : list out_msg) (at' : list (string * Z))
    (po : position) (p : pool) (lt ut : tick) (po1 : position) (p' : pool) (lt' ut' : tick) (zx zy ox oy : Z) : Prop := {
  cl_pos : st_positions s !! (i_sender i, ix) = Some po;
  cl_valid : pos_valid po;
  cl_pool : st_pools s !! po_key po = Some p;
  cl_low : st_ticks s !! (po_key po, po_lower po) = Some lt;
  cl_up : st_ticks s !! (po_key po, po_upper po) = Some ut;
  cl_lowp : tick_pre (st_positions s) (po_key po) (po_lower po) lt;
  cl_upp : tick_pre (st_positions s) (po_key po) (po_upper po) ut;
  cl_mod : modify_facts po p ut lt 0 true (e_millis e) (spacing (po_key po)) po1 p' ut' lt' zx zy ox oy;
  cl_msgs : ms = asset_transfer e i (pk_x (po_key po)) (po_owedx po + ox) ++ asset_transfer e i (pk_y (po_key po)) (po_owedy po + oy);
  cl_attr : at' = [("amount_x"%string, po_owedx po + ox); ("amount_y"%string, po_owedy po + oy)];
  cl_store : s' = mkStore (st_config s) (<[(po_key po) := p']> (st_pools s))
           (<[((po_key po), po_lower po) := lt']> (<[((po_key po), po_upper po) := ut']> (st_ticks s))) (st_bitmap s)
           (<[(i_sender i, ix) := mkPosition (po_key po1) (po_liq po1) (po_lower po1) (po_upper po1)
              (po_fgx po1) (po_fgy po1) (po_block po1) 0 0 (po_approvals po1)]> (st_positions s)) (st_poslen s) (st_operators s)
}.
Lemma claim_inv e i s ix s' ms at' : ereach s -> claim_fee e i s ix = Ok (s', ms, at') ->
  exists po p lt ut po1 p' lt' ut' zx zy ox oy, claim_facts e i s ix s' ms at' po p lt ut po1 p' lt' ut' zx zy ox oy.
Proof.
  intros R H. apply claim_fee_inv in H; [|by apply ereach_indexed].
  destruct H as (po & lt & ut & p0 & po' & p' & lt' & ut' & x & y & Epo & _ & El & Eu & Ep & PC & Em & Ea & Iu & Il & ->).
  pose proof (ereach_liq _ R) as LI.
  pose proof (lq_tick _ LI (po_key po) (po_lower po)) as TL. rewrite El in TL. destruct TL as [TL GL].
  pose proof (lq_tick _ LI (po_key po) (po_upper po)) as TU. rewrite Eu in TU. destruct TU as [TU GU].
  unfold position_claim_fee in PC. inv_bind PC as [[[[[po1 p1] u1] l1] x1] y1] EM. apply Ok_inj in PC. injection PC as <- <- <- <- <- <-.
  apply position_modify_inv in EM; [|lia|apply TU|apply TL]. destruct EM as (ox & oy & F).
  pose proof (mf_pos _ _ _ _ _ _ _ _ _ _ _ _ _ _ _ _ F) as P1.
  destruct (lq_pos _ LI _ _ Epo) as [PV _].
  exists po, p0, lt, ut, po1, p1, l1, u1, x1, y1, ox, oy. constructor; try done.
  - by rewrite Em, P1.
  - by rewrite Ea, P1.
Qed.

Record remove_facts (e : env) (i : msg_info) (s : store) (ix : Z) (s' : store) (ms : list out_msg)
    (po : position) (p : pool) (lt ut : tick) (po1 : position) (p' : pool) (lt' ut' : tick) (x y ox oy : Z) (bm1 bm2 : gmap (pool_key * Z) Z) (m' : posmap) : Prop := {
  rx_pos : st_positions s !! (i_sender i, ix) = Some po;
  rx_valid : pos_valid po;
  rx_pool : st_pools s !! po_key po = Some p;
  rx_low : st_ticks s !! (po_key po, po_lower po) = Some lt;
  rx_up : st_ticks s !! (po_key po, po_upper po) = Some ut;
  rx_lowp : tick_pre (st_positions s) (po_key po) (po_lower po) lt;
  rx_upp : tick_pre (st_positions s) (po_key po) (po_upper po) ut;
  rx_mod : modify_facts po p ut lt (po_liq po) false (e_millis e) (spacing (po_key po)) po1 p' ut' lt' x y ox oy;
  rx_msgs : ms = asset_transfer e i (pk_x (po_key po)) (x + (po_owedx po + ox)) ++ asset_transfer e i (pk_y (po_key po)) (y + (po_owedy po + oy));
  rx_bit1 : clear_bitmap (t_gross lt' =? 0) (po_key po) (po_lower po) (st_bitmap s) bm1;
  rx_bit2 : clear_bitmap (t_gross ut' =? 0) (po_key po) (po_upper po) bm1 bm2;
  rx_list : swap_removed (i_sender i) ix (plen s (i_sender i) - 1) (st_positions s) m';
  rx_store : s' = mkStore (st_config s) (<[(po_key po) := p']> (st_pools s))
           (clear_tick (t_gross ut' =? 0) (po_key po) (po_upper po) ut' (clear_tick (t_gross lt' =? 0) (po_key po) (po_lower po) lt' (st_ticks s))) bm2
           m' (<[i_sender i := plen s (i_sender i) - 1]> (st_poslen s)) (st_operators s)
}.
Lemma remove_inv e i s ix s' ms at' : ereach s -> remove_position_exec e i s ix = Ok (s', ms, at') ->
  exists po p lt ut po1 p' lt' ut' x y ox oy bm1 bm2 m', remove_facts e i s ix s' ms po p lt ut po1 p' lt' ut' x y ox oy bm1 bm2 m'.
Proof.
  intros R H. apply remove_position_exec_inv in H; [|by apply ereach_indexed].
  destruct H as (po & lt & ut & p0 & po' & p' & lt' & ut' & x & y & dl & du & bm1 & bm2 & m' & Epo & _ & El & Eu & Ep & PC & Em & _ & Iu & Il & B1 & B2 & SR & ->).
  pose proof (ereach_liq _ R) as LI.
  pose proof (lq_tick _ LI (po_key po) (po_lower po)) as TL. rewrite El in TL. destruct TL as [TL GL].
  pose proof (lq_tick _ LI (po_key po) (po_upper po)) as TU. rewrite Eu in TU. destruct TU as [TU GU].
  destruct (lq_pos _ LI _ _ Epo) as [PV _]. pose proof PV as (V1 & _).
  unfold position_remove in PC. inv_bind PC as [[[[[po1 p1] u1] l1] x1] y1] EM. inv_bind PC as x2 EX. inv_bind PC as y2 EY.
  apply Ok_inj in PC. injection PC as <- <- <- <- <- <- <- <-.
  apply position_modify_inv in EM; [|lia|apply TU|apply TL]. destruct EM as (ox & oy & F).
  pose proof (mf_pos _ _ _ _ _ _ _ _ _ _ _ _ _ _ _ _ F) as P1.
  assert (x2 = x1 + (po_owedx po + ox)) by (rewrite P1 in EX; cbn in EX; ckinv; done).
  assert (y2 = y1 + (po_owedy po + oy)) by (rewrite P1 in EY; cbn in EY; ckinv; done). subst x2 y2.
  exists po, p0, lt, ut, po1, p1, l1, u1, x1, y1, ox, oy, bm1, bm2, m'. constructor; done.
Qed.

(** ** Bounds of positions are initialized *)
Lemma gross_core_nonneg s k t : liq_inv s -> forall x po, st_positions s !! x = Some po -> 0 <= gross_at k t po.
Proof.
  intros I x po E. apply (lq_pos _ I) in E. destruct E as [(V & _) _]. unfold gross_at, at_key. destruct (decide _); [|lia].
  destruct (_ =? t), (_ =? t); lia.
Qed.
Lemma bound_tick s x po t : liq_inv s -> st_positions s !! x = Some po -> t = po_lower po \/ t = po_upper po ->
  exists tk, st_ticks s !! (po_key po, t) = Some tk.
Proof.
  intros I E B. pose proof (lq_tick _ I (po_key po) t) as T. destruct (st_ticks s !! (po_key po, t)); [eauto|]. cbn in T. exfalso.
  pose proof (psum_ge _ _ x po (gross_core_nonneg s (po_key po) t I) E) as G. rewrite T in G.
  apply (lq_pos _ I) in E. destruct E as [(V1 & _ & _ & V4) _]. unfold gross_at, at_key in G. rewrite decide_True in G by done.
  destruct B as [->| ->]; rewrite Z.eqb_refl in G; [rewrite (proj2 (Z.eqb_neq _ (po_lower po))) in G by lia|rewrite (proj2 (Z.eqb_neq _ (po_upper po))) in G by lia]; lia.
Qed.
Lemma bound_init s x po t : liq_inv s -> st_positions s !! x = Some po -> t = po_lower po \/ t = po_upper po ->
  is_init s (po_key po) (spacing (po_key po)) t.
Proof.
  intros I E B. destruct (bound_tick s x po t I E B) as [tk T]. apply (lq_init _ I); [|eauto]. apply (lq_pos _ I) in E; tauto.
Qed.
(** an initialized tick is a bound of some position *)
Lemma init_bound s k t : liq_inv s -> is_Some (st_pools s !! k) -> is_init s k (spacing k) t ->
  exists x po, st_positions s !! x = Some po /\ po_key po = k /\ (t = po_lower po \/ t = po_upper po).
Proof.
  intros I P H. apply (lq_init _ I) in H; [|done]. destruct H as [tk T]. pose proof (lq_tick _ I k t) as G. rewrite T in G. destruct G as [[] [G _]].
  rewrite tp_gross in G. apply psum_pos in G; [|by apply gross_core_nonneg]. destruct G as (x & po & E & V).
  exists x, po. split; [done|]. unfold gross_at, at_key in V. destruct (decide (po_key po = k)); [|lia]. split; [done|].
  destruct (Z.eqb_spec (po_lower po) t); [by left|]. destruct (Z.eqb_spec (po_upper po) t); [by right|lia].
Qed.
