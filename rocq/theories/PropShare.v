(** C89, C90: who gets the fees. *)
From Verif Require Import Base Decimal SqrtPrice Clamm FeeGrowth Types Tick Pool Position Keys State Swap Exec Tactics
  PriceProofs ClammProofs BitmapProofs Frame Handlers History Basic PosList Ledger Scenario SwapInv SwapGeo SwapLoop Modify PSum LiqInv
  Vectors Geo Ops Clean PropTrade PropLiq PropSwap Growth Value Fund Flow PropSolv Forward PropExit PropFees PropOthers.
From stdpp Require Import gmap strings.
From Coq Require Import Lia.
Open Scope Z_scope.

(** * What a position has earned
    per unit of liquidity since its last checkpoint, of token x ([true]) or y, as a claim would count it; 128 bits *)
Definition earned (b : bool) (s : store) (po : position) : Z :=
  match st_pools s !! po_key po with Some p => growth b (st_ticks s) p po | None => 0 end.

(** somebody has the stake: a position with this pool, range, liquidity and checkpoints *)
Definition holds (po : position) (s : store) : Prop := exists x po', st_positions s !! x = Some po' /\ same_stake po po'.

Lemma earned_same b s po po' : same_stake po po' -> earned b s po' = earned b s po.
Proof. intros (A & B & C & D & E & F). unfold earned, growth. rewrite A, B, C. destruct b; by rewrite ?E, ?F. Qed.

(** everything about a stake that is held in a reachable state *)
Lemma held_facts s po : reachable s -> holds po s ->
  exists p l u, st_pools s !! po_key po = Some p /\ st_ticks s !! (po_key po, po_lower po) = Some l /\ st_ticks s !! (po_key po, po_upper po) = Some u /\
    t_index l = po_lower po /\ t_index u = po_upper po /\ po_lower po < po_upper po /\ 0 < po_liq po /\
    forall b, earned b s po = grow b (p_tick p) (fg b p) l u po.
Proof.
  intros R (x & po' & E & S). apply reachable_ereach in R. pose proof (ereach_liq _ R) as LI. pose proof S as (A & B & C & D & F & G).
  destruct (lq_pos _ LI _ _ E) as [(V1 & V2 & V3 & V4) [p EP]]. rewrite A in EP. pose proof (store_bounded s (po_key po) LI) as BD.
  destruct (growth_grow true _ _ _ p x po' BD E A) as (l & u & El & Eu & Il & Iu & O & _). rewrite B in El, Il, O. rewrite C in Eu, Iu, O.
  exists p, l, u. repeat (split; [first [done|lia]|]). intros b. unfold earned, growth, grow. rewrite EP, El, Eu, <- collected_inside, Il, Iu. by destruct b.
Qed.

Lemma earned_range b s po : 0 <= earned b s po < 2 ^ 128.
Proof. unfold earned. destruct (st_pools s !! _); [apply growth_range|done]. Qed.

(** what a claim pays is the earned figure times the liquidity, cut to whole tokens *)
Lemma claim_earned e i s ix s' ms at' : reachable s -> execute e i s (ClaimFee ix) = Ok (s', ms, at') ->
  exists po, st_positions s !! (i_sender i, ix) = Some po /\
    at' = [("amount_x"%string, earned true s po * po_liq po / 10 ^ 34); ("amount_y"%string, earned false s po * po_liq po / 10 ^ 34)].
Proof.
  intros R H. destruct (C44_claim _ _ _ _ _ _ _ R H) as (po & p & E & EP & _ & -> & _). exists po. split; [done|].
  destruct (held_facts s po R) as (p' & l & u & EP' & El & Eu & _ & _ & _ & _ & _). { exists (i_sender i, ix), po. split; [done|]. unfold same_stake. auto 10. }
  unfold accrued_x, accrued_y, earned, growth. rewrite EP, El, Eu. done.
Qed.

(** * C89: positions with the same range *)
(** Two stakes with the same range earn the same per unit of liquidity between any two states in which both exist, whatever happened in between. *)
Theorem C89_same_range s s' a b tok : reachable s -> reachable s' -> po_key a = po_key b -> po_lower a = po_lower b -> po_upper a = po_upper b ->
  holds a s -> holds b s -> holds a s' -> holds b s' ->
  (earned tok s' a - earned tok s a) mod 2 ^ 128 = (earned tok s' b - earned tok s b) mod 2 ^ 128.
Proof.
  intros R R' K L U A B A' B'.
  destruct (held_facts s a R A) as (p & l & u & EP & EL & EU & _ & _ & _ & _ & Xa). destruct (held_facts s b R B) as (q & l1 & u1 & EQ & EL1 & EU1 & _ & _ & _ & _ & Xb).
  destruct (held_facts s' a R' A') as (p' & l' & u' & EP' & EL' & EU' & _ & _ & _ & _ & Xa'). destruct (held_facts s' b R' B') as (q' & l1' & u1' & EQ' & EL1' & EU1' & _ & _ & _ & _ & Xb').
  rewrite <- K, <- ?L, <- ?U in *. rewrite EP in EQ. rewrite EL in EL1. rewrite EU in EU1. rewrite EP' in EQ'. rewrite EL' in EL1'. rewrite EU' in EU1'. simplify_eq.
  rewrite Xa, Xb, Xa', Xb'. unfold grow. change U128 with (2 ^ 128). rewrite <- !Zminus_mod. f_equal. lia.
Qed.

(** and what a position over two adjacent ranges earns is the sum of what the parts earn *)
Theorem C89_adjacent s s' a b c tok : reachable s -> reachable s' -> po_key b = po_key a -> po_key c = po_key a ->
  po_lower c = po_lower a -> po_upper a = po_lower b -> po_upper c = po_upper b ->
  holds a s -> holds b s -> holds c s -> holds a s' -> holds b s' -> holds c s' ->
  (earned tok s' c - earned tok s c) mod 2 ^ 128 = ((earned tok s' a - earned tok s a) + (earned tok s' b - earned tok s b)) mod 2 ^ 128.
Proof.
  intros R R' K1 K2 L M U A B C A' B' C'.
  destruct (held_facts s a R A) as (p & l & u & EP & EL & EU & _ & _ & _ & _ & Xa). destruct (held_facts s b R B) as (q & l1 & u1 & EQ & EL1 & EU1 & _ & _ & _ & _ & Xb).
  destruct (held_facts s c R C) as (r & l2 & u2 & ER & EL2 & EU2 & _ & _ & _ & _ & Xc).
  destruct (held_facts s' a R' A') as (p' & l' & u' & EP' & EL' & EU' & _ & _ & _ & _ & Xa'). destruct (held_facts s' b R' B') as (q' & l1' & u1' & EQ' & EL1' & EU1' & _ & _ & _ & _ & Xb').
  destruct (held_facts s' c R' C') as (r' & l2' & u2' & ER' & EL2' & EU2' & _ & _ & _ & _ & Xc').
  rewrite K1, K2, ?L, ?U, <- ?M in *. rewrite EP in EQ, ER. rewrite EL in EL2. rewrite EU in EL1. rewrite EU1 in EU2. rewrite EP' in EQ', ER'. rewrite EL' in EL2'. rewrite EU' in EL1'. rewrite EU1' in EU2'.
  simplify_eq. rewrite Xa, Xb, Xc, Xa', Xb', Xc'. rewrite !grow_mod. change U128 with (2 ^ 128).
  match goal with |- _ = (?x + ?y) mod _ => rewrite (Zplus_mod x y) end. rewrite <- !Zminus_mod, <- Zplus_mod. f_equal. lia.
Qed.

(** So claims are in proportion to liquidity: two stakes with the same range that had earned equally (nothing, say, both having just
    claimed) are later paid in proportion to their liquidity, up to the fraction of a token that is cut off. *)
Theorem C89_proportional s s' a b ia ib ea ema eb emb sa sb ma mb xa ya xb yb : reachable s -> reachable s' ->
  po_key a = po_key b -> po_lower a = po_lower b -> po_upper a = po_upper b -> holds a s -> holds b s ->
  (forall tok, earned tok s a = earned tok s b) ->
  st_positions s' !! (i_sender ema, ia) = Some a -> st_positions s' !! (i_sender emb, ib) = Some b ->
  execute ea ema s' (ClaimFee ia) = Ok (sa, ma, [("amount_x"%string, xa); ("amount_y"%string, ya)]) ->
  execute eb emb s' (ClaimFee ib) = Ok (sb, mb, [("amount_x"%string, xb); ("amount_y"%string, yb)]) ->
  (po_liq a <= po_liq b -> xa <= xb /\ ya <= yb) /\
  xa * po_liq b < (xb + 1) * po_liq a /\ xb * po_liq a < (xa + 1) * po_liq b /\
  ya * po_liq b < (yb + 1) * po_liq a /\ yb * po_liq a < (ya + 1) * po_liq b.
Proof.
  intros R R' K L U A B EQ E1 E2 C1 C2.
  assert (SS : forall q, same_stake q q) by (intros; unfold same_stake; auto 10).
  assert (A' : holds a s') by (eexists _, a; eauto). assert (B' : holds b s') by (eexists _, b; eauto).
  assert (EG : forall tok, earned tok s' a = earned tok s' b).
  { intros tok. pose proof (C89_same_range s s' a b tok R R' K L U A B A' B') as X. rewrite (EQ tok) in X.
    pose proof (earned_range tok s' a) as Ra. pose proof (earned_range tok s' b) as Rb. set (c := earned tok s b) in *.
    assert (Y : ((earned tok s' a - c) mod 2 ^ 128 + c) mod 2 ^ 128 = ((earned tok s' b - c) mod 2 ^ 128 + c) mod 2 ^ 128) by (by rewrite X).
    rewrite !Zplus_mod_idemp_l in Y. replace (earned tok s' a - c + c) with (earned tok s' a) in Y by lia. replace (earned tok s' b - c + c) with (earned tok s' b) in Y by lia.
    rewrite !Z.mod_small in Y by done. exact Y. }
  destruct (claim_earned _ _ _ _ _ _ _ R' C1) as (a' & Ea & X1). rewrite E1 in Ea. injection Ea as <-. injection X1 as -> ->.
  destruct (claim_earned _ _ _ _ _ _ _ R' C2) as (b' & Eb & X2). rewrite E2 in Eb. injection Eb as <-. injection X2 as -> ->.
  destruct (held_facts s' a R' A') as (_ & _ & _ & _ & _ & _ & _ & _ & _ & La & _). destruct (held_facts s' b R' B') as (_ & _ & _ & _ & _ & _ & _ & _ & _ & Lb & _).
  rewrite (EG true), (EG false). pose proof (earned_range true s' b) as [Gx _]. pose proof (earned_range false s' b) as [Gy _].
  assert (E0 : 0 < 10 ^ 34) by reflexivity.
  assert (P : forall g La Lb, 0 <= g -> 0 < La -> 0 < Lb -> (g * La / 10 ^ 34) * Lb < (g * Lb / 10 ^ 34 + 1) * La).
  { clear - E0. generalize dependent (10 ^ 34). intros D E0 g La Lb G A B. pose proof (Z.mul_div_le (g * La) D E0) as X. pose proof (Z.mul_succ_div_gt (g * Lb) D E0) as Y.
    set (u := g * La / D) in *. set (v := g * Lb / D) in *. apply (Z.mul_lt_mono_pos_l D); [done|].
    assert (D * u * Lb <= g * La * Lb) by (apply Z.mul_le_mono_nonneg_r; lia). assert (g * Lb * La < D * Z.succ v * La) by (apply Z.mul_lt_mono_pos_r; lia). lia. }
  split; [|split; [|split; [|split]]]; try (apply P; lia).
  intros LE. split; apply Z.div_le_mono; try done; apply Z.mul_le_mono_nonneg_l; lia.
Qed.

(** * The fees of a history
    one entry per charge: which token, where the price was, and the amount per unit of liquidity *)
Record fee := mkFee { fe_tok : bool; fe_tick : Z; fe_share : Z }.
Definition at_range (tok : bool) (lo up : Z) (c : fee) : bool := Bool.eqb (fe_tok c) tok && ((lo <=? fe_tick c) && (fe_tick c <? up)).
Definition shares (tok : bool) (lo up : Z) (l : list fee) : Z := sumZ (map (fun c => if at_range tok lo up c then fe_share c else 0) l).

Lemma shares_app tok lo up l l' : shares tok lo up (l ++ l') = shares tok lo up l + shares tok lo up l'.
Proof. unfold shares, sumZ. induction l as [|c l IH]; cbn [map app foldr]; [done|]. rewrite IH. lia. Qed.

(** what a call pays into pool [k] in the token sold in direction [tok] ([true] for x): the amounts in of its swaps *)
Fixpoint hops_in (e : env) (i : msg_info) (s : store) (a : Z) (hops : list swap_hop) (k : pool_key) (tok : bool) : Z :=
  match hops with
  | [] => 0
  | h :: rest =>
      match swap_internal e i s (hop_key h) (hop_x_to_y h) a true (hop_limit (hop_x_to_y h)) with
      | Ok (s1, _, r) => (if decide (k = hop_key h) then (if Bool.eqb tok (hop_x_to_y h) then cr_in r else 0) else 0) + hops_in e i s1 (cr_out r) rest k tok
      | _ => 0
      end
  end.
Definition paid_in (e : env) (i : msg_info) (s : store) (m : exec_msg) (k : pool_key) (tok : bool) : Z :=
  match m with
  | Swap k' d a by_in lim =>
      match calculate_swap (e_gas e) s (e_millis e) k' d a by_in lim with
      | Ok r => if decide (k = k') then (if Bool.eqb tok d then cr_in r else 0) else 0
      | _ => 0
      end
  | SwapRoute a _ _ hops => hops_in e i s a hops k tok
  | _ => 0
  end.

(** successful clean calls, with the states they lead to and what they paid into pool [k] *)
Inductive trace (k : pool_key) : store -> list store -> (bool -> Z) -> store -> Prop :=
| tr_nil s : trace k s [] (fun _ => 0) s
| tr_step e i s m s1 ms at' l paid s2 : clean_call e i s m -> execute e i s m = Ok (s1, ms, at') -> trace k s1 l paid s2 ->
    trace k s (s1 :: l) (fun tok => paid_in e i s m k tok + paid tok) s2.

(** what the list [l] of charges in pool [k] says about the stakes held in both states *)
Definition accounted (k : pool_key) (s s' : store) (paid : bool -> Z) (l : list fee) : Prop :=
  Forall (fun c => 0 <= fe_share c) l /\
  forall po tok, po_key po = k -> holds po s -> holds po s' ->
    earned tok s' po = (earned tok s po + shares tok (po_lower po) (po_upper po) l) mod 2 ^ 128 /\
    shares tok (po_lower po) (po_upper po) l * po_liq po <= 10 ^ 34 * paid tok.

Lemma accounted_nil k s s' paid : (forall tok, 0 <= paid tok) ->
  (forall po tok, po_key po = k -> holds po s -> holds po s' -> earned tok s' po = earned tok s po) -> accounted k s s' paid [].
Proof.
  intros P H. split; [constructor|]. intros po tok K A B. rewrite (H po tok K A B). unfold shares. cbn [map sumZ foldr].
  rewrite Z.add_0_r, Z.mod_small; [|apply earned_range]. split; [done|]. specialize (P tok). rewrite Z.mul_0_l. apply Z.mul_nonneg_nonneg; [|done]. apply Z.pow_nonneg. lia.
Qed.
Lemma accounted_app k s s1 s2 p1 p2 l l' : (forall po, po_key po = k -> holds po s -> holds po s2 -> holds po s1) ->
  accounted k s s1 p1 l -> accounted k s1 s2 p2 l' -> accounted k s s2 (fun tok => p1 tok + p2 tok) (l ++ l').
Proof.
  intros M [P A] [Q B]. split; [by apply Forall_app|]. intros po tok K H H2. pose proof (M po K H H2) as H1.
  destruct (B po tok K H1 H2) as [B1 B2]. destruct (A po tok K H H1) as [A1 A2].
  rewrite B1, A1, shares_app, Zplus_mod_idemp_l. split; [f_equal; lia|]. rewrite Z.mul_add_distr_r, Z.mul_add_distr_l. lia.
Qed.
Lemma accounted_ext k s s' p1 p2 l : (forall tok, p1 tok = p2 tok) -> accounted k s s' p1 l -> accounted k s s' p2 l.
Proof. intros E [P A]. split; [done|]. intros po tok K H1 H2. rewrite <- E. by apply A. Qed.

Lemma core_earned k s s' po tok : reachable s -> reachable s' -> core_kept k s s' -> po_key po = k -> holds po s -> holds po s' -> earned tok s' po = earned tok s po.
Proof.
  intros R R' [CP CT] K A B. destruct (held_facts s po R A) as (p & l & u & EP & EL & EU & IL & IU & _ & _ & X).
  destruct (held_facts s' po R' B) as (p' & l' & u' & EP' & EL' & EU' & IL' & IU' & _ & _ & X'). rewrite K in *.
  destruct (CP _ EP) as (q & Eq & C). rewrite EP' in Eq. injection Eq as <-. unfold core in C. injection C as C1 C2 C3 C4.
  destruct (CT _ _ _ EL EL') as [A1 A2]. destruct (CT _ _ _ EU EU') as [B1 B2].
  rewrite X, X'. unfold grow, inside, fg, fo. rewrite C1, C3, C4, A1, A2, B1, B2, IL, IL', IU, IU'. done.
Qed.

Lemma held_positions s s' po : st_positions s' = st_positions s -> holds po s <-> holds po s'.
Proof. intros E. unfold holds. by rewrite E. Qed.

Lemma swap_accounted e i s k d a by_in lim s' ms r k0 : creach s -> 0 <= a <= U128MAX -> clean_swap e s k d a by_in lim ->
  swap_internal e i s k d a by_in lim = Ok (s', ms, r) ->
  exists l, accounted k0 s s' (fun tok => if decide (k0 = k) then (if Bool.eqb tok d then cr_in r else 0) else 0) l.
Proof.
  intros CR Ha CS H. pose proof (creach_ereach _ CR) as R.
  pose proof (swap_internal_kept _ _ _ _ _ _ _ _ _ _ _ (ereach_indexed _ R) H) as SK.
  destruct (decide (k0 = k)) as [->|N].
  - destruct (swap_distributed _ _ _ _ _ _ _ _ _ _ _ CR Ha CS H) as (p & p' & pr & fees & left & C & E & E' & _ & [[DT D0] _ DL DG _ _ _ _]).
    set (f := cf_protocol_fee (st_config s)) in *. pose proof (ereach_liq _ R) as LI.
    assert (IN : 10 ^ 34 * charges (fees ++ left) <= 10 ^ 34 * cr_in r) by (rewrite charges_app; lia). clear DT D0.
    set (cs := fees ++ left) in *. exists (map (fun c => mkFee d (ch_tick c) (ch_share f c)) cs).
    assert (NN : forall c x po, st_positions s !! x = Some po -> 0 <= (if decide (po_key po = k) then
         (if (po_lower po <=? ch_tick c) && (ch_tick c <? po_upper po) then po_liq po else 0) else 0)).
    { intros c x po Q. destruct (decide _); [|done]. destruct (_ && _); [|done]. destruct (lq_pos _ LI _ _ Q) as [(V & _) _]. lia. }
    assert (SH : Forall (fun c => 0 <= ch_share f c /\ 0 <= 10 ^ 34 * ch_amount c /\ ch_share f c * ch_liq c <= 10 ^ 34 * ch_amount c) cs).
    { eapply Forall_impl; [exact DL|]. cbn. intros c (A0 & A1 & _ & A2). unfold ch_share. destruct (Z.eqb_spec (ch_liq c) 0) as [Z0|Z0]; [lia|].
      assert (0 < ch_liq c). { assert (0 <= ch_liq c); [|lia]. rewrite A2. apply psum_nonneg. apply NN. }
      pose proof (floor_spec ((ch_amount c - ch_cut f c) * 10 ^ 34) (ch_liq c) ltac:(lia)) as [F1 F2].
      split; [apply Z.div_pos; [apply Z.mul_nonneg_nonneg; [lia|done]|lia]|]. split; [lia|]. set (q := _ / ch_liq c) in *. rewrite (Z.mul_comm q). lia. }
    split. { apply Forall_map. eapply Forall_impl; [exact SH|]. cbn. tauto. }
    intros po tok K (x & po' & Q & S) _. pose proof S as (S1 & S2 & S3 & S4 & _). rewrite K in S1.
    assert (G : gain f (po_lower po) (po_upper po) cs = shares d (po_lower po) (po_upper po) (map (fun c => mkFee d (ch_tick c) (ch_share f c)) cs)).
    { unfold gain, shares. rewrite map_map. f_equal. apply map_ext. intros c. unfold at_range. cbn [fe_tok fe_tick fe_share]. rewrite Bool.eqb_reflx. cbn [andb]. done. }
    assert (Z : Bool.eqb tok d = false -> shares tok (po_lower po) (po_upper po) (map (fun c => mkFee d (ch_tick c) (ch_share f c)) cs) = 0).
    { intros BD. unfold shares. rewrite map_map. clear - BD. induction cs as [|c l IH]; [done|]. cbn [map sumZ foldr]. unfold sumZ in IH.
      unfold at_range at 1. cbn [fe_tok]. assert (Bool.eqb d tok = false) as -> by (by destruct d, tok). cbn [andb]. lia. }
    split.
    + rewrite <- !(earned_same tok _ _ _ S). unfold earned. rewrite S1, E, E'. rewrite (DG tok x po' Q S1), S2, S3. f_equal. f_equal.
      destruct (Bool.eqb tok d) eqn:BD; [apply Bool.eqb_prop in BD as ->; exact G|]. by rewrite Z.
    + destruct (Bool.eqb tok d) eqn:BD; [apply Bool.eqb_prop in BD as ->|rewrite Z by done; lia].
      rewrite <- G. etransitivity; [|exact IN]. clear G Z IN DG. unfold gain, charges, sumZ.
      assert (PL : Forall (fun c => (po_lower po <=? ch_tick c) && (ch_tick c <? po_upper po) = true -> po_liq po <= ch_liq c) cs).
      { eapply Forall_impl; [exact DL|]. cbn. intros c (_ & _ & _ & A2) B. rewrite A2. pose proof (psum_ge _ _ _ _ (NN c) Q) as X. cbn in X.
        rewrite decide_True in X by done. rewrite S2, S3, B, S4 in X. exact X. }
      clear - SH PL. induction cs as [|c cs IH]; [cbn; lia|]. apply Forall_cons in SH as [(A0 & A1 & A2) SH]. apply Forall_cons in PL as [L PL]. specialize (IH SH PL).
      cbn [map foldr]. destruct (_ && _); [|lia]. assert (ch_share f c * po_liq po <= ch_share f c * ch_liq c) by (apply Z.mul_le_mono_nonneg_l; [lia|by apply L]). lia.
  - exists []. apply accounted_nil; [done|]. intros po tok K A B. unfold earned, growth. rewrite K.
    assert (NI : k0 ∉ [k]) by (by rewrite elem_of_list_singleton). rewrite (sk_pools _ _ _ SK _ NI), !(sk_ticks _ _ _ SK _ _ NI). done.
Qed.

Lemma hops_accounted e i k0 hops : forall s a s' ms out, creach s -> 0 <= a <= U128MAX -> clean_hops e i s a hops ->
  swap_route_internal e i s a hops = Ok (s', ms, out) -> st_positions s' = st_positions s /\ exists l, accounted k0 s s' (hops_in e i s a hops k0) l.
Proof.
  induction hops as [|h hops IH]; intros s a s' ms out R Ha C H; cbn in H.
  - simplify_eq. split; [done|]. exists []. by apply accounted_nil.
  - inv_bind H as [[s1 m1] r] E. inv_bind H as [[s2 m2] o] E2. apply Ok_inj in H. simplify_eq. destruct C as [C1 C2].
    destruct (swap_accounted _ _ _ _ _ _ _ _ _ _ _ k0 R Ha C1 E) as [l A].
    pose proof (swap_internal_kept _ _ _ _ _ _ _ _ _ _ _ (ereach_indexed _ (creach_ereach _ R)) E) as SK.
    destruct (IH s1 (cr_out r) s' m2 out) as [P (l' & A')].
    + eapply cr_step; [exact R|]. eapply ce_swap; [exact Ha| |exact E|exact C1].
      destruct (hop_x_to_y h); cbn; unfold MIN_SQRT_PRICE, MAX_SQRT_PRICE, U128MAX; lia.
    + pose proof E as E3. apply swap_internal_inv in E3 as (E3 & _). apply calculate_swap_out in E3. tauto.
    + by eapply C2.
    + exact E2.
    + pose proof (sk_positions _ _ _ SK) as P1. split; [congruence|]. exists (l ++ l'). eapply accounted_ext; [|eapply accounted_app; [|exact A|exact A']].
      * intros tok. cbn [hops_in]. rewrite E. done.
      * intros po _ H _. by apply (held_positions s s1 po P1).
Qed.

Lemma hops_in_nonneg e i k tok hops : forall s a, 0 <= hops_in e i s a hops k tok.
Proof.
  induction hops as [|h hops IH]; intros s a; [done|]. cbn [hops_in]. destruct (swap_internal _ _ _ _ _ _ _ _) as [[[s1 m1] r]| |] eqn:E; [|done|done].
  specialize (IH s1 (cr_out r)). apply swap_internal_inv in E as (E & _). apply calculate_swap_out in E. destruct (decide _); [|lia]. destruct (Bool.eqb _ _); lia.
Qed.
Lemma paid_in_nonneg e i s m k tok : 0 <= paid_in e i s m k tok.
Proof.
  destruct m; try done; cbn [paid_in]; [|apply hops_in_nonneg].
  destruct (calculate_swap _ _ _ _ _ _ _ _) as [r| |] eqn:E; [|done|done]. apply calculate_swap_out in E. destruct (decide _); [|lia]. destruct (Bool.eqb _ _); lia.
Qed.

Lemma call_accounted e i s m s' ms at' k0 : clean_history s -> clean_call e i s m -> execute e i s m = Ok (s', ms, at') ->
  exists l, accounted k0 s s' (paid_in e i s m k0) l.
Proof.
  intros CH C H. pose proof (clean_history_reachable _ CH) as R. assert (R' : reachable s') by (by eapply reach_call). pose proof (clean_history_creach _ CH) as CR.
  apply execute_split in H. destruct H as [H|[(k & d & a & by_in & lim & r & -> & Ha & Hl & H)|(a & x & sl & hops & out & -> & Ha & H)]].
  - exists []. apply accounted_nil.
    + apply paid_in_nonneg.
    + intros po tok K A B. eapply core_earned; [done|done| |exact K|done|done]. eapply effect0_core; [by apply reachable_ereach|exact H].
  - destruct (swap_accounted _ _ _ _ _ _ _ _ _ _ _ k0 CR Ha C H) as [l A]. exists l. eapply accounted_ext; [|exact A]. intros tok. cbn [paid_in].
    apply swap_internal_inv in H as (H & _). rewrite H. done.
  - eapply hops_accounted; [exact CR|exact Ha|exact C|exact H].
Qed.

(** Over every history of clean calls there is one list of charges for a pool such that whoever keeps a stake through it earns the
    charges made while the price was in the stake's range, and these are paid for by the traders. *)
Theorem C89_charges_partial k s l paid s' : clean_history s -> trace k s l paid s' ->
  exists fees, Forall (fun c => 0 <= fe_share c) fees /\
    forall po tok, po_key po = k -> holds po s -> Forall (holds po) l ->
      earned tok s' po = (earned tok s po + shares tok (po_lower po) (po_upper po) fees) mod 2 ^ 128 /\
      shares tok (po_lower po) (po_upper po) fees * po_liq po <= 10 ^ 34 * paid tok.
Proof.
  intros CH T. induction T as [s|e i s m s1 ms at' l paid s2 C X T IH].
  - exists []. split; [constructor|]. intros po tok K H _. unfold shares. cbn [map sumZ foldr]. rewrite Z.add_0_r, Z.mod_small; [|apply earned_range]. split; [done|lia].
  - assert (CH1 : clean_history s1) by (by eapply ch_call). destruct (IH CH1) as (f2 & P2 & A2). destruct (call_accounted _ _ _ _ _ _ _ k CH C X) as (f1 & P1 & A1).
    exists (f1 ++ f2). split; [by apply Forall_app|]. intros po tok K H F. apply Forall_cons in F as [H1 F].
    destruct (A2 po tok K H1 F) as [B1 B2]. destruct (A1 po tok K H H1) as [D1 D2].
    rewrite B1, D1, shares_app, Zplus_mod_idemp_l. split; [f_equal; lia|]. rewrite Z.mul_add_distr_r, Z.mul_add_distr_l. lia.
Qed.

Lemma shares_nonneg tok lo up l : Forall (fun c => 0 <= fe_share c) l -> 0 <= shares tok lo up l.
Proof. intros F. induction F as [|c l A F IH]; [done|]. unfold shares, sumZ in *. cbn [map foldr]. destruct (at_range _ _ _ _); lia. Qed.
Lemma shares_wider tok lo up lo' up' l : Forall (fun c => 0 <= fe_share c) l -> lo' <= lo -> up <= up' -> shares tok lo up l <= shares tok lo' up' l.
Proof.
  intros F L U. induction F as [|c l A F IH]; [done|]. unfold shares, sumZ in *. cbn [map foldr].
  unfold at_range at 1 3. destruct (Bool.eqb _ _); cbn [andb]; [|lia].
  destruct (Z.leb_spec lo (fe_tick c)), (Z.ltb_spec (fe_tick c) up), (Z.leb_spec lo' (fe_tick c)), (Z.ltb_spec (fe_tick c) up'); cbn [andb]; lia.
Qed.

(** A wider range never earns less per unit of liquidity, as long as the 128-bit counters have not been lapped: the traders paid
    less than 2^128 / 10^34 tokens for each unit of the wider stake's liquidity. Missing: swaps that are not clean, see [C89_wider_refuted]. *)
Theorem C89_wider_partial k s l paid s' a b tok : clean_history s -> trace k s l paid s' ->
  po_key a = k -> po_key b = k -> holds a s -> Forall (holds a) l -> holds b s -> Forall (holds b) l ->
  po_lower b <= po_lower a -> po_upper a <= po_upper b -> earned tok s a = 0 -> earned tok s b = 0 ->
  10 ^ 34 * paid tok < 2 ^ 128 * po_liq b -> earned tok s' a <= earned tok s' b.
Proof.
  intros CH T Ka Kb Ha Fa Hb Fb L U Za Zb X. destruct (C89_charges_partial k s l paid s' CH T) as (fees & P & A).
  destruct (A a tok Ka Ha Fa) as [-> _]. destruct (A b tok Kb Hb Fb) as [-> B]. rewrite Za, Zb, !Z.add_0_l.
  pose proof (shares_wider tok (po_lower a) (po_upper a) (po_lower b) (po_upper b) fees P L U). pose proof (shares_nonneg tok (po_lower a) (po_upper a) fees P).
  assert (shares tok (po_lower b) (po_upper b) fees < 2 ^ 128).
  { assert (0 < po_liq b). { destruct (held_facts s b (clean_history_reachable _ CH) Hb) as (? & ? & ? & _ & _ & _ & _ & _ & _ & LB & _). done. }
    apply (Z.mul_lt_mono_pos_r (po_liq b)); [done|]. lia. }
  rewrite !Z.mod_small by lia. lia.
Qed.

(** Not so when a swap stops exactly on a tick without crossing it: carol's swap brings the price to tick 10, where bob's range begins, and bob's
    counter jumps by all that was earned below tick 10, five times what alice's wider stake earns. *)
Definition wide_calls : list (string * exec_msg) :=
  [("alice", AddFeeTier v_tier);
   ("alice", CreatePool "tokeny" "tokenx" v_tier SP_ONE 0);
   ("alice", CreatePosition v_key (-10) 30 1000000000000 SP_ONE SP_ONE);
   ("bob", CreatePosition v_key 10 20 1000000000000 SP_ONE SP_ONE);
   ("carol", Swap v_key false 400 true MAX_SQRT_PRICE);
   ("carol", Swap v_key true 400 true MIN_SQRT_PRICE);
   ("carol", Swap v_key false 400 true MAX_SQRT_PRICE);
   ("carol", Swap v_key true 200 true MIN_SQRT_PRICE);
   ("alice", ClaimFee 0)]%string.
Definition wide_run : res (store * store * list (string * Z)) :=
  let* s := start 10000000000 wide_calls in
  let* '(s1, _, a) := execute v_env (v_info "carol") s (Swap v_key false 301 false 1000500100010000000000000) in
  Ok (s, s1, a).
Theorem C89_wider_refuted : exists s s' ms at' a b, reachable s /\
  execute v_env (v_info "carol") s (Swap v_key false 301 false 1000500100010000000000000) = Ok (s', ms, at') /\
  st_positions s !! ("alice"%string, 0) = Some a /\ st_positions s !! ("bob"%string, 0) = Some b /\
  st_positions s' !! ("alice"%string, 0) = Some a /\ st_positions s' !! ("bob"%string, 0) = Some b /\
  po_key a = po_key b /\ po_lower a <= po_lower b /\ po_upper b <= po_upper a /\
  earned false s a = 0 /\ earned false s b = 0 /\ earned false s' b = 5 * earned false s' a /\ 0 < earned false s' a.
Proof.
  destruct (done_inv (fun '(s, s1, a) =>
     match st_positions s !! ("alice"%string, 0), st_positions s !! ("bob"%string, 0) with
     | Some a, Some b => po_key a = po_key b /\ po_lower a <= po_lower b /\ po_upper b <= po_upper a /\
         earned false s a = 0 /\ earned false s b = 0 /\ earned false s1 b = 5 * earned false s1 a /\ 0 < earned false s1 a
     | _, _ => False end) wide_run) as ([[s s1] a1] & E & P).
  { vm_compute. repeat split; try reflexivity; discriminate. }
  unfold wide_run in E. inv_bind E as s0 E0. inv_bind E as [[s3 m3] a3] E1. apply Ok_inj in E. injection E as -> -> ->.
  apply (some_inv (fun a : position => _)) in P. destruct P as (a & Ea & P). apply (some_inv (fun b : position => _)) in P. destruct P as (b & Eb & P).
  pose proof (start_reachable _ _ _ E0) as R. exists s, s1, m3, a1, a, b.
  assert (SP : st_positions s1 = st_positions s).
  { unfold execute in E1. destruct (_ && _); [|discriminate E1]. cbn [dispatch] in E1. unfold swap in E1. inv_bind E1 as [[s2 m2] r] H1.
    apply Ok_inj in E1. injection E1 as -> _ _. exact (sk_positions _ _ _ (swap_internal_kept _ _ _ _ _ _ _ _ _ _ _ (ereach_indexed _ (reachable_ereach _ R)) H1)). }
  rewrite SP. auto 10.
Qed.

(** * C90: every fee charged goes to somebody *)
(** The charges of a swap reach the positions in range and the protocol except for less than [ch_liq c / 10^34] of a token at each charge - less than
    one smallest unit as long as the active liquidity is below 10^28 - provided no counter is lapped.
    Missing: swaps that are not clean, see [C90_fees_lost_refuted]. *)
Theorem C90_all_distributed_partial e i s k (d : bool) a by_in lim s' ms at' :
  clean_history s -> clean_call e i s (Swap k d a by_in lim) -> execute e i s (Swap k d a by_in lim) = Ok (s', ms, at') ->
  exists r p p' principal cs, calculate_swap (e_gas e) s (e_millis e) k d a by_in lim = Ok r /\
    st_pools s !! k = Some p /\ st_pools s' !! k = Some p' /\
    at' = [("amount_in"%string, cr_in r); ("amount_out"%string, cr_out r)] /\
    cr_in r = principal + charges cs /\ 0 <= principal /\ cr_fee r <= charges cs /\
    Forall (fun c => 0 <= ch_amount c /\
       ch_liq c = psum (fun po => if decide (po_key po = k) then
                 (if (po_lower po <=? ch_tick c) && (ch_tick c <? po_upper po) then po_liq po else 0) else 0) (st_positions s)) cs /\
    ((forall x po, st_positions s !! x = Some po -> po_key po = k ->
        growth d (st_ticks s) p po + gain (cf_protocol_fee (st_config s)) (po_lower po) (po_upper po) cs < 2 ^ 128) ->
     let before := unpaid d s k p + 10 ^ 34 * prot d p in let after := unpaid d s' k p' + 10 ^ 34 * prot d p' in
     before + 10 ^ 34 * charges cs - sumZ (map ch_liq cs) <= after <= before + 10 ^ 34 * charges cs).
Proof.
  intros CH CS H. destruct (C16_distribution_partial _ _ _ _ _ _ _ _ _ _ _ CH CS H) as (r & p & p' & pr & fees & left & C & E & E' & -> & CF & D).
  pose proof (ereach_liq _ (reachable_ereach _ (clean_history_reachable _ CH))) as LI.
  pose proof (distributed_total _ _ _ _ _ _ _ _ _ _ _ d LI D) as TD. rewrite Bool.eqb_reflx in TD. destruct D as [[DT D0] _ DL DG _ DX DY DP].
  set (f := cf_protocol_fee (st_config s)) in *. set (l := fees ++ left) in *.
  exists r, p, p', pr, l. split; [done|]. split; [done|]. split; [done|]. split; [done|]. split; [unfold l; rewrite charges_app; lia|]. split; [done|].
  assert (CN : forall l, Forall (fun c => 0 <= ch_amount c) l -> 0 <= charges l).
  { clear. intros l F. induction F as [|c l A F IH]; [done|]. unfold charges, sumZ in *. cbn [map foldr]. lia. }
  assert (DA : Forall (fun c => 0 <= ch_amount c) l) by (eapply Forall_impl; [exact DL|]; cbn; tauto).
  split. { unfold l. rewrite charges_app. unfold l in DA. apply Forall_app in DA. pose proof (CN left (proj2 DA)). lia. }
  split. { eapply Forall_impl; [exact DL|]. cbn. tauto. }
  intros NL before after. split; [|unfold before, after, l; rewrite charges_app; lia].
  assert (PR : prot d p' = prot d p + cuts f l) by (destruct d; unfold prot; [rewrite DX|rewrite DY]; done).
  set (mine := fun c po => if decide (po_key po = k) then (if (po_lower po <=? ch_tick c) && (ch_tick c <? po_upper po) then po_liq po else 0) else 0) in *.
  assert (PSN : forall c, 0 <= psum (mine c) (st_positions s)).
  { intros c. apply psum_nonneg. intros x po Q. unfold mine. destruct (decide _); [|done]. destruct (_ && _); [|done].
    destruct (lq_pos _ LI _ _ Q) as [(V & _) _]. lia. }
  assert (SH : Forall (fun c => 10 ^ 34 * ch_amount c - ch_liq c <= ch_share f c * psum (mine c) (st_positions s) + 10 ^ 34 * ch_prot f c) l).
  { eapply Forall_impl; [exact DL|]. cbn. intros c (A0 & A1 & A2 & A3). fold (mine c) in A3. specialize (PSN c). rewrite <- A3. rewrite <- A3 in PSN.
    unfold ch_share, ch_prot. destruct (Z.eqb_spec (ch_liq c) 0) as [Z0|Z0]; [rewrite A2 by done; lia|].
    pose proof (floor_spec ((ch_amount c - ch_cut f c) * 10 ^ 34) (ch_liq c) ltac:(lia)) as [F1 F2]. set (q := _ / ch_liq c) in *. rewrite (Z.mul_comm q). lia. }
  assert (TOT : 10 ^ 34 * charges l - sumZ (map ch_liq l) <= sumZ (map (fun c => ch_share f c * psum (mine c) (st_positions s)) l) + 10 ^ 34 * cuts f l).
  { clear - SH. induction SH as [|c l A F IH]; [done|]. unfold cuts, charges, sumZ in *. cbn [map foldr]. lia. }
  assert (UN : unpaid d s' k p' = unpaid d s k p + sumZ (map (fun c => ch_share f c * psum (mine c) (st_positions s)) l)).
  { unfold unpaid. rewrite DP. pose proof (gain_total f k (st_positions s) l) as GT. unfold mine. rewrite <- GT, <- psum_add. apply psum_ext. intros x po Q.
    destruct (decide (po_key po = k)) as [K|]; [|done]. rewrite (DG d x po Q K), Bool.eqb_reflx. rewrite Z.mod_small; [lia|].
    split; [|by apply (NL x po)]. pose proof (growth_range d (st_ticks s) p po) as GR. unfold l.
    assert (0 <= gain f (po_lower po) (po_upper po) (fees ++ left)); [|lia]. fold l. clear - DL PSN.
    induction DL as [|c l (A0 & A1 & _ & A3) F IH]; [done|]. rewrite gain_cons. assert (0 <= gain f (po_lower po) (po_upper po) [c]); [|lia].
    unfold gain. cbn [map sumZ foldr]. fold (mine c) in A3. specialize (PSN c). rewrite <- A3 in PSN. destruct (_ && _); [|lia]. unfold ch_share. destruct (Z.eqb_spec (ch_liq c) 0) as [Z0|Z0]; [lia|].
    rewrite Z.add_0_r. apply Z.div_pos; [apply Z.mul_nonneg_nonneg; [lia|done]|lia]. }
  unfold before, after. rewrite PR, UN. lia.
Qed.

(** Where a swap has stopped on a tick without crossing it, fees vanish: of 60 tokens charged to dave fewer than four reach anybody. *)
Definition lost_calls : list (string * exec_msg) :=
  [("alice", AddFeeTier v_tier);
   ("alice", CreatePool "tokeny" "tokenx" v_tier SP_ONE 0);
   ("alice", CreatePosition v_key (-10) 30 1000000000000 SP_ONE SP_ONE);
   ("bob", CreatePosition v_key (-10) 10 20000000000000 SP_ONE SP_ONE);
   ("carol", Swap v_key false 10496 false 1000500100010000000000000)]%string.
Definition lost_run : res (store * store * list out_msg * list (string * Z) * Z) :=
  let* s := start 10000000000 lost_calls in
  let* '(s1, m1, a1) := execute v_env (v_info "dave") s (Swap v_key false 10000 true MAX_SQRT_PRICE) in
  let* r := calculate_swap (e_gas v_env) s (e_millis v_env) v_key false 10000 true MAX_SQRT_PRICE in
  Ok (s, s1, m1, a1, cr_fee r).
Theorem C90_fees_lost_refuted : exists s s' ms out p p', reachable s /\
  execute v_env (v_info "dave") s (Swap v_key false 10000 true MAX_SQRT_PRICE) = Ok (s', ms, [("amount_in"%string, 10000); ("amount_out"%string, out)]) /\
  (exists r, calculate_swap (e_gas v_env) s (e_millis v_env) v_key false 10000 true MAX_SQRT_PRICE = Ok r /\ cr_fee r = 60) /\
  st_pools s !! v_key = Some p /\ st_pools s' !! v_key = Some p' /\
  unpaid false s' v_key p' + 10 ^ 34 * prot false p' < unpaid false s v_key p + 10 ^ 34 * prot false p + 10 ^ 34 * 4.
Proof.
  destruct (done_inv (fun '(s, s1, m1, a1, fe) => a1 = [("amount_in"%string, 10000); ("amount_out"%string, 9925)] /\ fe = 60 /\
     match st_pools s !! v_key, st_pools s1 !! v_key with
     | Some p, Some p1 => unpaid false s1 v_key p1 + 10 ^ 34 * prot false p1 < unpaid false s v_key p + 10 ^ 34 * prot false p + 10 ^ 34 * 4
     | _, _ => False end) lost_run) as ([[[[s s1] m1] a1] fe] & E & A1 & A2 & P).
  { vm_compute. repeat split; reflexivity. }
  unfold lost_run in E. inv_bind E as s0 E0. inv_bind E as [[s3 m3] a3] E1. inv_bind E as r E2. apply Ok_inj in E. injection E as -> -> -> -> <-.
  apply (some_inv (fun p : pool => _)) in P. destruct P as (p & Ep & P). apply (some_inv (fun p2 : pool => _)) in P. destruct P as (p2 & Ep2 & P).
  subst a1. exists s, s1, m1, 9925, p, p2. split; [exact (start_reachable _ _ _ E0)|]. split; [exact E1|]. split; [exists r; split; [exact E2|exact A2]|].
  exact (conj Ep (conj Ep2 P)).
Qed.

(** ** Example
    Alice and bob hold the range -20..20, carol its lower half and dave its upper half. Of two swaps, one in each direction, bob earns three times
    what alice does; per unit of liquidity alice earns what carol and dave earn together, and neither of these more than alice. *)
Definition share_calls : list (string * exec_msg) :=
  [("alice", AddFeeTier v_tier);
   ("alice", CreatePool "tokeny" "tokenx" v_tier SP_ONE 0);
   ("alice", CreatePosition v_key (-20) 20 1000000000000 SP_ONE SP_ONE);
   ("bob", CreatePosition v_key (-20) 20 3000000000000 SP_ONE SP_ONE);
   ("carol", CreatePosition v_key (-20) 0 500000000000 SP_ONE SP_ONE);
   ("dave", CreatePosition v_key 0 20 700000000000 SP_ONE SP_ONE)]%string.
Definition share_run :=
  let* s := start 10000000000 share_calls in
  let* '(s1, m1, a1) := execute v_env (v_info "erin") s (Swap v_key false 3000 true MAX_SQRT_PRICE) in
  let* '(s2, m2, a2) := execute v_env (v_info "erin") s1 (Swap v_key true 4000 true MIN_SQRT_PRICE) in
  let* '(sa, ma, aa) := execute v_env (v_info "alice") s2 (ClaimFee 0) in
  let* '(sb, mb, ab) := execute v_env (v_info "bob") s2 (ClaimFee 0) in
  Ok (s, s1, s2, (m1, a1), (m2, a2), (sa, ma, aa), (sb, mb, ab)).
Definition pick (s : store) (a : string) : res position := match st_positions s !! (a, 0) with Some po => Ok po | None => Panic end.
Example ex_C89 : exists s s1 s2 l paid a b c d, clean_history s /\ trace v_key s l paid s2 /\ paid true = 4000 /\ paid false = 3000 /\
  st_positions s2 !! ("alice"%string, 0) = Some a /\ st_positions s2 !! ("bob"%string, 0) = Some b /\
  Forall (fun po => po_key po = v_key /\ holds po s /\ Forall (holds po) l /\ (forall tok, earned tok s po = 0) /\ 10 ^ 34 * paid true < 2 ^ 128 * po_liq po) [a; b; c; d] /\
  po_lower a = -20 /\ po_upper a = 20 /\ po_lower b = -20 /\ po_upper b = 20 /\ po_lower c = -20 /\ po_upper c = 0 /\ po_lower d = 0 /\ po_upper d = 20 /\
  earned true s2 a = 49503546099290780141843 /\ earned true s2 b = 49503546099290780141843 /\
  earned true s2 c = 13333333333333333333333 /\ earned true s2 d = 36170212765957446808510 /\
  (exists sa ma sb mb, execute v_env (v_info "alice") s2 (ClaimFee 0) = Ok (sa, ma, [("amount_x"%string, 4); ("amount_y"%string, 3)]) /\
     execute v_env (v_info "bob") s2 (ClaimFee 0) = Ok (sb, mb, [("amount_x"%string, 14); ("amount_y"%string, 10)])) /\ 
  (* and the first swap meets the hypotheses of [C90_all_distributed_partial]: of its 18 tokens of fees all but a fraction is distributed *)
  exists p p1 ms at1, execute v_env (v_info "erin") s (Swap v_key false 3000 true MAX_SQRT_PRICE) = Ok (s1, ms, at1) /\
    clean_call v_env (v_info "erin") s (Swap v_key false 3000 true MAX_SQRT_PRICE) /\
    st_pools s !! v_key = Some p /\ st_pools s1 !! v_key = Some p1 /\
    unpaid false s v_key p + 10 ^ 34 * prot false p = 0 /\ 10 ^ 34 * 18 - 4700000000000 <= unpaid false s1 v_key p1 + 10 ^ 34 * prot false p1 <= 10 ^ 34 * 18.
Proof.
  set (m1 := Swap v_key false 3000 true MAX_SQRT_PRICE). set (m2 := Swap v_key true 4000 true MIN_SQRT_PRICE).
  destruct (done_inv (fun '(s, s1, s2, (x1, a1), (x2, a2), (sa, ma, aa), (sb, mb, ab)) =>
    is_ok (clean_start 10000000000 share_calls) = true /\ clean_callb v_env s m1 = true /\ clean_callb v_env s1 m2 = true /\
    paid_in v_env (v_info "erin") s m1 v_key true + (paid_in v_env (v_info "erin") s1 m2 v_key true + 0) = 4000 /\
    paid_in v_env (v_info "erin") s m1 v_key false + (paid_in v_env (v_info "erin") s1 m2 v_key false + 0) = 3000 /\
    aa = [("amount_x"%string, 4); ("amount_y"%string, 3)] /\ ab = [("amount_x"%string, 14); ("amount_y"%string, 10)] /\
    match pick s "alice", pick s "bob", pick s "carol", pick s "dave" with
    | Ok a, Ok b, Ok c, Ok d =>
       foldr (fun po P => (po_key po = v_key /\ earned true s po = 0 /\ earned false s po = 0 /\ 10 ^ 34 * 4000 < 2 ^ 128 * po_liq po) /\ P) True [a; b; c; d] /\
       (po_lower a = -20 /\ po_upper a = 20 /\ po_lower b = -20 /\ po_upper b = 20 /\ po_lower c = -20 /\ po_upper c = 0 /\ po_lower d = 0 /\ po_upper d = 20) /\
       earned true s2 a = 49503546099290780141843 /\ earned true s2 b = 49503546099290780141843 /\
       earned true s2 c = 13333333333333333333333 /\ earned true s2 d = 36170212765957446808510
    | _, _, _, _ => False end /\
    match st_pools s !! v_key, st_pools s1 !! v_key with
    | Some p, Some p1 => unpaid false s v_key p + 10 ^ 34 * prot false p = 0 /\
        10 ^ 34 * 18 - 4700000000000 <= unpaid false s1 v_key p1 + 10 ^ 34 * prot false p1 <= 10 ^ 34 * 18
    | _, _ => False end) share_run)
    as ([[[[[[s s1] s2] [x1 a1]] [x2 a2]] [[sa ma] aa]] [[sb mb] ab]] & E & CL & C1 & C2 & P1 & P2 & A1 & A2 & P & Q).
  { vm_compute. repeat split; try reflexivity; discriminate. }
  unfold share_run in E. inv_bind E as s0 E0. inv_bind E as [[s3 m3] a3] E1. inv_bind E as [[s4 m4] a4] E2. inv_bind E as [[s5 m5] a5] E3. inv_bind E as [[s6 m6] a6] E4.
  apply Ok_inj in E. injection E as -> -> -> -> -> -> -> -> -> -> -> -> ->.
  unfold pick in P. destruct (st_positions s !! ("alice"%string, 0)) as [a|] eqn:Ea; [|destruct P]. destruct (st_positions s !! ("bob"%string, 0)) as [b|] eqn:Eb; [|destruct P].
  destruct (st_positions s !! ("carol"%string, 0)) as [c|] eqn:Ec; [|destruct P]. destruct (st_positions s !! ("dave"%string, 0)) as [d|] eqn:Ed; [|destruct P].
  apply (some_inv (fun p : pool => _)) in Q. destruct Q as (p & Ep & Q). apply (some_inv (fun p2 : pool => _)) in Q. destruct Q as (p2 & Ep2 & Q).
  pose proof (start_reachable _ _ _ E0) as R. assert (R1 : reachable s1) by (eapply reach_call; [exact R|exact E1]).
  assert (S1 : st_positions s1 = st_positions s).
  { clear - E1 R m1. unfold execute in E1. destruct (_ && _); [|discriminate E1]. unfold m1 in E1. cbn [dispatch] in E1. unfold swap in E1. inv_bind E1 as [[s3 m3] r] H1.
    apply Ok_inj in E1. injection E1 as -> _ _. exact (sk_positions _ _ _ (swap_internal_kept _ _ _ _ _ _ _ _ _ _ _ (ereach_indexed _ (reachable_ereach _ R)) H1)). }
  assert (S2 : st_positions s2 = st_positions s1).
  { clear - E2 R1 m2. unfold execute in E2. destruct (_ && _); [|discriminate E2]. unfold m2 in E2. cbn [dispatch] in E2. unfold swap in E2. inv_bind E2 as [[s3 m3] r] H1.
    apply Ok_inj in E2. injection E2 as -> _ _. exact (sk_positions _ _ _ (swap_internal_kept _ _ _ _ _ _ _ _ _ _ _ (ereach_indexed _ (reachable_ereach _ R1)) H1)). }
  pose proof (clean_callb_sound v_env (v_info "erin") s m1 (reachable_ereach _ R) C1) as CC1.
  pose proof (clean_callb_sound v_env (v_info "erin") s1 m2 (reachable_ereach _ R1) C2) as CC2.
  exists s, s1, s2, [s1; s2], (fun tok => paid_in v_env (v_info "erin") s m1 v_key tok + (paid_in v_env (v_info "erin") s1 m2 v_key tok + 0)), a, b, c, d.
  split; [exact (clean_by_check _ _ _ E0 CL)|].
  split. { eapply tr_step; [exact CC1|exact E1|]. eapply tr_step; [exact CC2|exact E2|]. apply tr_nil. }
  split; [exact P1|]. split; [exact P2|]. rewrite S2, S1. split; [exact Ea|]. split; [exact Eb|].
  destruct P as (F & PA & PB). rewrite P1.
  split.
  { assert (HO : forall x po, st_positions s !! x = Some po -> holds po s /\ Forall (holds po) [s1; s2]).
    { intros x po X. assert (S : same_stake po po) by (unfold same_stake; repeat split). split; [exists x, po; exact (conj X S)|].
      repeat constructor; exists x, po; [rewrite S1|rewrite S2, S1]; exact (conj X S). }
    cbn [foldr] in F. destruct F as ((Fa & Fa1 & Fa2 & Fa3) & (Fb & Fb1 & Fb2 & Fb3) & (Fc & Fc1 & Fc2 & Fc3) & (Fd & Fd1 & Fd2 & Fd3) & _).
    destruct (HO _ _ Ea), (HO _ _ Eb), (HO _ _ Ec), (HO _ _ Ed).
    repeat (apply Forall_cons; split; [repeat split; try assumption; intros [|]; assumption|]). constructor. }
  destruct PA as (PA1 & PA2 & PA3 & PA4 & PA5 & PA6 & PA7 & PA8). destruct PB as (PB1 & PB2 & PB3 & PB4).
  repeat (split; [assumption|]). split; [exists sa, ma, sb, mb; rewrite <- A1, <- A2; split; assumption|].
  exists p, p2, x1, a1. destruct Q as [Q1 Q2]. repeat (split; [assumption|]). exact Q2.
Qed.
