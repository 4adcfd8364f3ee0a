(** C102: more liquidity never worsens a trade. *)
From Verif Require Import Base Decimal SqrtPrice Clamm FeeGrowth Types Tick Pool Position Keys State Swap Exec Tactics
  PriceProofs ClammProofs PropClamm BitmapProofs Frame Handlers History Basic PosList Ledger Scenario SwapInv SwapGeo SwapLoop Modify PSum LiqInv
  Vectors Geo Ops Clean PropTrade PropLiq PropSwap Growth Value Fund Flow PropSolv Forward PropExit PropFees PropFair PropCost.
From stdpp Require Import gmap strings.
From Coq Require Import Lia.
Open Scope Z_scope.

(** every position of pool [k] in [s] is there in [t] too, with its range and liquidity (whatever else [t] holds) *)
Definition deeper (k : pool_key) (s t : store) : Prop :=
  forall x po, st_positions s !! x = Some po -> po_key po = k ->
    exists po', st_positions t !! x = Some po' /\ po_key po' = k /\ po_liq po' = po_liq po /\ po_lower po' = po_lower po /\ po_upper po' = po_upper po.

Lemma psum_within (f g : position -> Z) (m : posmap) : forall m' : posmap,
  (forall x po, m !! x = Some po -> f po <= 0 \/ exists po', m' !! x = Some po' /\ f po <= g po') ->
  (forall x po, m' !! x = Some po -> 0 <= g po) -> psum f m <= psum g m'.
Proof.
  revert m. apply (psum_ind (fun m => forall m' : posmap,
    (forall x po, m !! x = Some po -> f po <= 0 \/ exists po', m' !! x = Some po' /\ f po <= g po') ->
    (forall x po, m' !! x = Some po -> 0 <= g po) -> psum f m <= psum g m')).
  - intros m' _ G. rewrite psum_empty. by apply psum_nonneg.
  - intros x po m N IH m' H G. rewrite psum_new by done.
    destruct (H x po (lookup_insert _ _ _)) as [F0|(po' & E & F)].
    + assert (psum f m <= psum g m'); [|lia]. apply IH; [|done]. intros y q Q. apply H. rewrite lookup_insert_ne; [done|]. intros ->. congruence.
    + rewrite (psum_delete g m' x po' E). assert (psum f m <= psum g (delete x m')); [|lia]. apply IH.
      * intros y q Q. assert (NE : x <> y) by (intros ->; congruence). destruct (H y q) as [?|(q' & E' & F')]; [by rewrite lookup_insert_ne|by left|].
        right. exists q'. by rewrite lookup_delete_ne.
      * intros y q Q. apply lookup_delete_Some in Q as [_ Q]. by eapply G.
Qed.

(** ** One position
    what holding the amounts a position has at price [x] is worth at price [r], the negative of: it is worth least at [r] itself *)
Definition worth (r c : Z) : Z := E100 * c + r * r * rho c.
Lemma worth_least r lo hi x : 0 < lo -> lo <= hi -> 0 < r -> worth r (clampp lo hi r) <= worth r (clampp lo hi x) + r * r.
Proof.
  intros L0 LH R0. unfold worth. set (c := clampp lo hi x). set (e := clampp lo hi r).
  assert (C : 0 < c /\ 0 < e) by (unfold c, e, clampp; lia).
  assert (S : (c = e) \/ (e < c /\ r <= e) \/ (c < e /\ e <= r)) by (unfold c, e, clampp; lia).
  clearbody c e. clear lo hi x L0 LH. destruct C as [C0 E0].
  assert (RR : 0 < r * r) by lia.
  destruct S as [->|S]; [lia|].
  assert (K : (c - e) * (c * e - r * r) >= 0).
  { destruct S as [[S1 S2]|[S1 S2]].
    - assert (r * r <= c * e) by (apply Z.mul_le_mono_nonneg; lia). assert (0 <= (c - e) * (c * e - r * r)) by (apply Z.mul_nonneg_nonneg; lia). lia.
    - assert (c * e <= r * r) by (apply Z.mul_le_mono_nonneg; lia). assert (0 <= (e - c) * (r * r - c * e)) by (apply Z.mul_nonneg_nonneg; lia). lia. }
  (* rho c >= E100/c - 1, rho e <= E100/e *)
  pose proof (rho_spec c C0) as [_ A]. pose proof (rho_spec e E0) as [B _].
  set (u := rho c) in *. set (v := rho e) in *. clearbody u v.
  assert (A' : e * E100 < e * (c * (u + 1))) by (apply Z.mul_lt_mono_pos_l; lia).
  assert (B' : c * (e * v) <= c * E100) by (apply Z.mul_le_mono_nonneg_l; lia).
  assert (D : (e - c) * E100 <= c * e * (u - v + 1)) by lia.
  assert (D' : r * r * ((e - c) * E100) <= r * r * (c * e * (u - v + 1))) by (apply Z.mul_le_mono_nonneg_l; lia).
  assert (K' : 0 <= E100 * ((c - e) * (c * e - r * r))) by (apply Z.mul_nonneg_nonneg; [discriminate|lia]).
  assert (CE : 0 < c * e) by lia.
  apply (Z.mul_le_mono_pos_l _ _ (c * e)); [done|]. lia.
Qed.

(** what moving the price of pool [k] from [p] to [x] takes from the trader less what it gives them, valued at price [r] *)
Definition give (d : bool) (r : Z) : Z := if d then 10 ^ 48 else r * r.
Definition take (d : bool) (r : Z) : Z := if d then r * r else 10 ^ 48.
Lemma span_worth d s k p x r : 
  give d r * span (negb d) s k x p - take d r * span d s k p x =
  psum (fun po => at_key k po (po_liq po * (worth r (clampp (tprice (po_lower po)) (tprice (po_upper po)) p) - worth r (clampp (tprice (po_lower po)) (tprice (po_upper po)) x)))) (st_positions s).
Proof.
  unfold span. rewrite <- !psum_scale, <- psum_sub. apply psum_ext. intros y po _. unfold at_key. destruct (decide _); [|lia].
  fold (clampp (tprice (po_lower po)) (tprice (po_upper po)) x). fold (clampp (tprice (po_lower po)) (tprice (po_upper po)) p).
  cbv zeta. fold (clampp (tprice (po_lower po)) (tprice (po_upper po)) x). fold (clampp (tprice (po_lower po)) (tprice (po_upper po)) p).
  set (a := clampp _ _ p). set (b := clampp _ _ x). unfold give, take, curve, worth. change (10 ^ 100 / a) with (rho a). change (10 ^ 100 / b) with (rho b).
  destruct d; cbn [negb]; unfold E100; set (u := rho a); set (v := rho b); clearbody u v a b; lia.
Qed.

(** ** The curve of a deeper pool *)
Lemma deeper_curve d k s t p x r al be E : liq_inv s -> liq_inv t -> deeper k s t -> 0 < r -> 0 <= al <= be ->
  al * span d s k p x <= be * (span d t k p r + E) ->
  al * (give d r * span (negb d) s k x p) <= be * (give d r * span (negb d) t k r p + take d r * E + r * r * pool_liq t k).
Proof.
  intros LS LT D R0 AB H.
  assert (PV : forall (s : store) y po, liq_inv s -> st_positions s !! y = Some po -> 0 < po_liq po /\ 0 < tprice (po_lower po) /\ tprice (po_lower po) <= tprice (po_upper po)).
  { intros s0 y po LI E0. destruct (lq_pos _ LI _ _ E0) as [(V & [V2 _] & [V3 _] & V4) _]. split; [lia|].
    pose proof (tprice_lt (po_lower po) (po_upper po) ltac:(lia) ltac:(lia) ltac:(lia)).
    pose proof (tprice_range (po_lower po) ltac:(lia)) as [A _]. unfold MIN_SQRT_PRICE in A. lia. }
  set (w := fun po y => worth r (clampp (tprice (po_lower po)) (tprice (po_upper po)) y)).
  assert (X : psum (fun po => al * at_key k po (po_liq po * (w po p - w po x))) (st_positions s) <=
              psum (fun po => be * at_key k po (po_liq po * (w po p - w po r + r * r))) (st_positions t)).
  { assert (LEAST : forall po, 0 < tprice (po_lower po) -> tprice (po_lower po) <= tprice (po_upper po) -> forall y, 0 <= w po y - w po r + r * r).
    { intros po A B y. unfold w. pose proof (worth_least r _ _ y A B R0). lia. }
    apply psum_within.
    - intros y po E0. destruct (PV _ _ _ LS E0) as (L & P1 & P2). unfold at_key. destruct (decide (po_key po = k)) as [K|N]; [|left; lia].
      destruct (D _ _ E0 K) as (po' & E1 & K' & L' & A & B). right. exists po'. split; [done|]. rewrite decide_True by done.
      assert (WE : forall y, w po' y = w po y) by (intros; unfold w; by rewrite A, B). rewrite !WE, L'.
      pose proof (LEAST po P1 P2 x) as W1. pose proof (LEAST po P1 P2 p) as W2.
      assert (po_liq po * (w po p - w po x) <= po_liq po * (w po p - w po r + r * r)) as Q by (apply Z.mul_le_mono_nonneg_l; lia).
      assert (0 <= po_liq po * (w po p - w po r + r * r)) by (apply Z.mul_nonneg_nonneg; lia).
      etransitivity; [apply Z.mul_le_mono_nonneg_l; [lia|exact Q]|]. apply Z.mul_le_mono_nonneg_r; lia.
    - intros y po E0. destruct (PV _ _ _ LT E0) as (L & P1 & P2). unfold at_key. destruct (decide _); [|lia].
      apply Z.mul_nonneg_nonneg; [lia|]. apply Z.mul_nonneg_nonneg; [lia|]. by apply LEAST. }
  rewrite !psum_scale in X. unfold w in X. rewrite <- (span_worth d s k p x r) in X.
  assert (Y : psum (fun po => at_key k po (po_liq po * (worth r (clampp (tprice (po_lower po)) (tprice (po_upper po)) p) - worth r (clampp (tprice (po_lower po)) (tprice (po_upper po)) r) + r * r))) (st_positions t)
    = give d r * span (negb d) t k r p - take d r * span d t k p r + r * r * pool_liq t k).
  { rewrite (span_worth d t k p r r). unfold pool_liq. rewrite <- psum_scale, <- psum_add. apply psum_ext. intros y po _. unfold at_key. destruct (decide _); lia. }
  rewrite Y in X.
  assert (T0 : 0 <= take d r) by (unfold take; destruct d; [apply Z.mul_nonneg_nonneg; lia|discriminate]).
  assert (Z : take d r * (al * span d s k p x) <= take d r * (be * (span d t k p r + E))) by (apply Z.mul_le_mono_nonneg_l; done).
  set (g := give d r) in *. set (h := take d r) in *. set (a := span d s k p x) in *. set (b := span d t k p r) in *. set (a' := span _ s k x p) in *. set (b' := span _ t k r p) in *.
  clearbody g h a b a' b'. lia.
Qed.

(** ** More liquidity, more out
    Two clean states with the same price in pool [k], the second with the same positions and more. Whoever pays no less there, in any number of swaps, gets
    no less, up to the square of the fee, one part in 10^13 and rounding: a token per place of what is paid out, and per place the worth, at the price [r]
    reached, of three tokens of what is paid in and of moving the price by one unit. *)
Lemma more_algebra (f A A' n n' X Y W : Z) : 0 <= f <= E12 -> A <= A' -> 0 <= n ->
  (E12 + f) * E14 * X <= E12 * UNIT * ((E14 + 1) * A + 2 * E14 * n) ->
  A' * (E12 - f) * UNIT * (E14 - 1) <= E12 * E14 * (Y + n' * W) ->
  (10 ^ 24 - f ^ 2) * (E14 - 1) * X <= 10 ^ 24 * (E14 + 1) * (Y + n' * W + 2 * UNIT * n).
Proof.
  intros FE AA N0 L U.
  change (10 ^ 24) with (E12 * E12).
  set (g := E12 - f) in *. assert (G0 : 0 <= g <= E12) by lia.
  replace (E12 * E12 - f ^ 2) with ((E12 + f) * g) by (unfold g; ring).
  assert (P1 : g * (E14 - 1) * ((E12 + f) * E14 * X) <= g * (E14 - 1) * (E12 * UNIT * ((E14 + 1) * A + 2 * E14 * n))).
  { apply Z.mul_le_mono_nonneg_l; [|done]. apply Z.mul_nonneg_nonneg; [lia|discriminate]. }
  assert (P2 : E12 * (E14 + 1) * (A' * g * UNIT * (E14 - 1)) <= E12 * (E14 + 1) * (E12 * E14 * (Y + n' * W))) by (apply Z.mul_le_mono_nonneg_l; [discriminate|done]).
  assert (P3 : E12 * (E14 + 1) * UNIT * (E14 - 1) * (A * g) <= E12 * (E14 + 1) * UNIT * (E14 - 1) * (A' * g)).
  { apply Z.mul_le_mono_nonneg_l; [discriminate|]. apply Z.mul_le_mono_nonneg_r; lia. }
  assert (P4 : 2 * E14 * E12 * UNIT * (E14 - 1) * (g * n) <= 2 * E14 * E12 * UNIT * (E14 + 1) * (E12 * n)).
  { apply Z.mul_le_mono_nonneg; [discriminate|unfold E14, E12, UNIT; lia| |apply Z.mul_le_mono_nonneg_r; lia]. apply Z.mul_nonneg_nonneg; lia. }
  apply (Z.mul_le_mono_pos_l _ _ E14); [done|].
  replace (E14 * ((E12 + f) * g * (E14 - 1) * X)) with (g * (E14 - 1) * ((E12 + f) * E14 * X)) by ring.
  etransitivity; [exact P1|].
  replace (g * (E14 - 1) * (E12 * UNIT * ((E14 + 1) * A + 2 * E14 * n))) with (E12 * (E14 + 1) * UNIT * (E14 - 1) * (A * g) + 2 * E14 * E12 * UNIT * (E14 - 1) * (g * n)) by ring.
  replace (E14 * (E12 * E12 * (E14 + 1) * (Y + n' * W + 2 * UNIT * n))) with (E12 * (E14 + 1) * (E12 * E14 * (Y + n' * W)) + 2 * E14 * E12 * UNIT * (E14 + 1) * (E12 * n)) by ring.
  replace (E12 * (E14 + 1) * (A' * g * UNIT * (E14 - 1))) with (E12 * (E14 + 1) * UNIT * (E14 - 1) * (A' * g)) in P2 by ring. lia.
Qed.

Lemma places_nonneg k m p p' : 0 <= m -> 1 <= spacing k -> 0 <= places k m p p'.
Proof. intros M S. unfold places. assert (0 <= Z.abs (p_tick p - p_tick p') / ft_spacing (pk_tier k)) by (apply Z.div_pos; lia). lia. Qed.
Lemma trades_count d k m s A O s' : trades d k m s A O s' -> 0 <= m.
Proof. induction 1; lia. Qed.

(** Missing: swaps that are not clean; swaps of an exact output. *)
Theorem C102_more_partial d k m m' s t A A' O O' s1 t1 p q p1 q1 : clean_history s -> clean_history t -> deeper k s t ->
  st_pools s !! k = Some p -> st_pools t !! k = Some q -> p_price p = p_price q ->
  trades d k m s A O s1 -> trades d k m' t A' O' t1 -> A <= A' -> st_pools s1 !! k = Some p1 -> st_pools t1 !! k = Some q1 ->
  let n := places k m p p1 in let n' := places k m' q q1 in let r := p_price q1 in
  let cut := (10 ^ 24 - ft_fee (pk_tier k) ^ 2) * (10 ^ 14 - 1) in
  let lost := n' * (3 * 10 ^ 82 + pool_liq t k * unit_worth d) + 2 * 10 ^ 82 * n in
  10 ^ 14 * cut * give d r * (10 ^ 82 * O - n * pool_liq s k) <=
  10 ^ 24 * (10 ^ 14 + 1) * (give d r * ((10 ^ 14 + 1) * 10 ^ 82 * (O' + n') + 10 ^ 14 * (n' * pool_liq t k)) + 10 ^ 14 * (take d r * lost + r * r * pool_liq t k)).
Proof.
  intros CS CT D Ep Eq PQ T T' AA Ep1 Eq1 n n' r cut lost.
  pose proof (C94_cost_partial _ _ _ _ _ _ _ _ _ CS T Ep Ep1) as [L _ OS _]. pose proof (C94_cost_partial _ _ _ _ _ _ _ _ _ CT T' Eq Eq1) as [_ U _ LT].
  rewrite <- PQ in U, LT. fold n in L, OS. fold n' in U, LT. fold r in U, LT.
  pose proof (creach_ereach _ (clean_history_creach _ CS)) as RS. pose proof (creach_ereach _ (clean_history_creach _ CT)) as RT.
  pose proof (ereach_store_geo _ _ _ RS Ep) as G.
  assert (FE : 0 <= ft_fee (pk_tier k) <= E12) by (destruct G; unfold E12, PCT_ONE in *; lia).
  assert (N0 : 0 <= n) by (apply places_nonneg; [by eapply trades_count|apply (sg_sp _ _ G)]).
  pose proof (more_algebra _ _ _ _ _ _ _ _ FE AA N0 L U) as M.
  assert (R1 : ereach t1).
  { clear - CT T'. assert (H : clean_history t1); [|exact (creach_ereach _ (clean_history_creach _ H))]. induction T'; [done|]. apply IHT'. by eapply ch_call. }
  assert (R0 : 0 < r).
  { unfold r. pose proof (ereach_geo _ R1 _ _ Eq1) as [PG _]. pose proof (legal_price_range _ _ (proj1 PG)). destruct PG as (_ & PG & _). unfold MIN_SQRT_PRICE in *. lia. }
  change (10 ^ 14) with E14 in *. change (10 ^ 82) with UNIT in *.
  assert (CB : 0 <= cut <= 10 ^ 24 * (E14 + 1)).
  { unfold cut. assert (0 <= ft_fee (pk_tier k) ^ 2 <= 10 ^ 24) by (unfold E12 in FE; split; [apply Z.pow_nonneg; lia|change (10 ^ 24) with ((10 ^ 12) ^ 2); apply Z.pow_le_mono_l; lia]).
    split; [apply Z.mul_nonneg_nonneg; [lia|discriminate]|]. apply Z.mul_le_mono_nonneg; unfold E14; lia. }
  pose proof (deeper_curve d k s t (p_price p) (p_price p1) r cut (10 ^ 24 * (E14 + 1)) lost (ereach_liq _ RS) (ereach_liq _ RT) D R0 CB) as X.
  specialize (X ltac:(unfold lost; change (10 ^ 14) with E14 in *; rewrite Z.add_assoc; exact M)).
  assert (GV : 0 <= give d r) by (unfold give; destruct d; [discriminate|apply Z.mul_nonneg_nonneg; lia]).
  set (g := give d r) in *. set (h := take d r) in *. set (a := span (negb d) s k _ _) in *. set (b := span (negb d) t k _ _) in *. set (be := 10 ^ 24 * (E14 + 1)) in *.
  set (ps := pool_liq s k) in *. set (pt := pool_liq t k) in *.
  assert (Y1 : E14 * (cut * g) * (UNIT * O - n * ps) <= E14 * (cut * g) * a).
  { apply Z.mul_le_mono_nonneg_l; [|lia]. apply Z.mul_nonneg_nonneg; [discriminate|]. apply Z.mul_nonneg_nonneg; lia. }
  assert (Y2 : be * g * (E14 * b) <= be * g * ((E14 + 1) * UNIT * (O' + n') + E14 * (n' * pt))).
  { apply Z.mul_le_mono_nonneg_l; [|exact LT]. apply Z.mul_nonneg_nonneg; [discriminate|lia]. }
  assert (Y3 : E14 * (cut * (g * a)) <= E14 * (be * (g * b + h * lost + r * r * pt))) by (apply Z.mul_le_mono_nonneg_l; [discriminate|exact X]).
  clearbody g h a b be ps pt cut lost n n' r. clear - Y1 Y2 Y3.
  set (e := E14) in *. set (u := UNIT) in *. clearbody e u. lia.
Qed.

(** ** Deposits
    Any number of deposits, by anyone, into any pools, make every pool deeper and move no price; so do they in between the trades of the theorem above. *)
Inductive deposits : store -> store -> Prop :=
| dp_none s : deposits s s
| dp_one e i s k l u q sl su s1 ms at' t : execute e i s (CreatePosition k l u q sl su) = Ok (s1, ms, at') -> deposits s1 t -> deposits s t.
Lemma deeper_trans k s t u : deeper k s t -> deeper k t u -> deeper k s u.
Proof.
  intros A B x po E K. destruct (A _ _ E K) as (po1 & E1 & K1 & L1 & A1 & B1). destruct (B _ _ E1 K1) as (po2 & E2 & K2 & L2 & A2 & B2).
  exists po2. repeat split; congruence.
Qed.
Theorem C102_deposits s t : clean_history s -> deposits s t -> clean_history t /\ forall k, deeper k s t /\
  forall p, st_pools s !! k = Some p -> exists q, st_pools t !! k = Some q /\ p_price q = p_price p /\ p_tick q = p_tick p.
Proof.
  intros CH D. induction D as [s|e i s k l u q sl su s1 ms at' t X D IH]; [split; [done|]; intros k; split; [intros x po E K; by exists po|intros p E; by exists p]|].
  pose proof (creach_ereach _ (clean_history_creach _ CH)) as R.
  assert (CH1 : clean_history s1) by (eapply ch_call; [exact CH| |exact X]; exact I).
  destruct (IH CH1) as [CT H]. split; [done|]. intros k0. destruct (H k0) as [DE PR].
  unfold execute in X. destruct (_ && _); [|done]. cbn in X. apply create_position_inv in X; [|by apply ereach_indexed].
  destruct X as (p0 & lt & ut & po & p' & lt' & ut' & x & y & bm1 & bm2 & m0 & m1 & _ & _ & E1 & _ & _ & _ & _ & E5 & _ & _ & _ & _ & _ & ->).
  unfold position_create in E5. destruct (_ || _); [done|]. inv_bind E5 as [[[[[po1 p1] u1] l1] x1] y1] EM. apply Ok_inj in E5. simplify_eq.
  apply position_modify_frame in EM as [[q0 ->] _]. cbn in DE, PR. split.
  - eapply deeper_trans; [|exact DE]. intros z po0 E K. exists po0. split; [|done]. cbn. rewrite lookup_insert_ne; [done|].
    intros <-. by rewrite (pos_fresh _ _ (ereach_pos_ok _ R)) in E.
  - intros p E. destruct (decide (k0 = k)) as [->|N].
    + rewrite lookup_insert in PR. rewrite E1 in E. injection E as <-. destruct (PR _ eq_refl) as (q1 & E2 & P1 & P2). exists q1. split; [done|]. by rewrite P1, P2.
    + rewrite lookup_insert_ne in PR by congruence. exact (PR _ E).
Qed.

(** ** A deposit can make a trade worse
    A trade that reaches a tick pays the fee on top of what the curve takes up to there. With 1% more liquidity it stops short of the tick and pays the fee
    as a share of the whole. At a fee of 50% the same payment then yields 5% less. *)
Definition d_run (c : list (string * exec_msg)) (k : pool_key) (m : exec_msg) (a : Z) :=
  let* s := start 10000000000 c in
  let* '(t, m0, a0) := execute v_env (v_info "dave") s m in
  let* '(s1, m1, a1) := execute v_env (v_info "erin") s (buy k a) in
  let* '(t1, m2, a2) := execute v_env (v_info "erin") t (buy k a) in
  Ok (s, (t, m0, a0), (s1, m1, a1), (t1, m2, a2), (clean_callb v_env s (buy k a), clean_callb v_env t (buy k a))).
Lemma d_ok c k l u q a o o' : 
  match d_run c k (CreatePosition k l u q SP_ONE SP_ONE) a with
  | Ok (s, _, (s1, m1, a1), (t1, m2, a2), (b1, b2)) =>
      is_ok (clean_start 10000000000 c) = true /\ a1 = [("amount_in", a); ("amount_out", o)]%string /\ a2 = [("amount_in", a); ("amount_out", o')]%string /\ b1 = true /\ b2 = true
  | _ => False end ->
  exists s t s1 t1, clean_history s /\ deposits s t /\ trades false k 1 s a o s1 /\ trades false k 1 t a o' t1.
Proof.
  intros H. destruct (d_run _ _ _ _) as [[[[[s [[t m0] a0]] [[s1 m1] a1]] [[t1 m2] a2]] [b1 b2]]| |] eqn:E; [|done|done].
  destruct H as (CL & -> & -> & -> & ->).
  unfold d_run in E. inv_bind E as s0 E0. inv_bind E as [[s4 m4] a4] E1. inv_bind E as [[s5 m5] a5] E2. inv_bind E as [[s6 m6] a6] E3.
  apply Ok_inj in E. injection E as -> -> -> -> -> -> -> -> -> -> B1 B2. pose proof (start_reachable _ _ _ E0) as R.
  assert (R1 : reachable t) by (eapply reach_call; [exact R|exact E1]).
  pose proof (clean_callb_sound v_env (v_info "erin") s (buy k a) (reachable_ereach _ R) B1) as C1.
  pose proof (clean_callb_sound v_env (v_info "erin") t (buy k a) (reachable_ereach _ R1) B2) as C2.
  exists s, t, s1, t1. split; [exact (clean_by_check _ _ _ E0 CL)|]. split; [eapply dp_one; [exact E1|constructor]|].
  change 1 with (0 + 1). split.
  - replace (trades false k (0 + 1) s a o s1) with (trades false k (0 + 1) s (a + 0) (o + 0) s1) by (f_equal; lia). eapply tr_swap; [exact C1|exact E2|constructor].
  - replace (trades false k (0 + 1) t a o' t1) with (trades false k (0 + 1) t (a + 0) (o' + 0) t1) by (f_equal; lia). eapply tr_swap; [exact C2|exact E3|constructor].
Qed.
Theorem C102_refuted : exists s t s1 t1, clean_history s /\ deposits s t /\ trades false h_key 1 s 5200000 764655 s1 /\ trades false h_key 1 t 5200000 727423 t1.
Proof. apply (d_ok h_calls h_key (-200000) 200000 10000000000). vm_compute. repeat split; reflexivity. Qed.

(** ** Example: the same payment over several ticks, before and after a deposit at the current price *)
Example ex_C102 : exists s t s1 t1, clean_history s /\ deposits s t /\ trades false v_key 1 s 5000 4954 s1 /\ trades false v_key 1 t 5000 4961 t1.
Proof. apply (d_ok fair_calls v_key (-30) 30 2000000000000). vm_compute. repeat split; reflexivity. Qed.
