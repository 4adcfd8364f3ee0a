(** C87: who acts alone, leaves every price where it was and nobody worse off has gained nothing. *)
From Verif Require Import Base Decimal SqrtPrice Clamm Log FeeGrowth Types Tick Pool Position
  Tickmap Keys State Swap Exec Tactics PriceProofs ClammProofs BitmapProofs Frame Handlers History Basic PosList Ledger Vectors Scenario
  SwapInv SwapGeo SwapLoop Modify PSum LiqInv Geo Ops Clean CleanSuff PropTrade PropLiq PropSwap Growth Value Fund Flow PropSolv Forward PropExit
  PropFees PropFunds PropBlock PropEvent PropMove PropOk World PropWorld.
From stdpp Require Import gmap strings.
From Coq Require Import Lia.
Open Scope Z_scope.

(** ** One call *)
Lemma call_covers V e i s m s' ms at' T c : creach s -> clean_single V e i s m -> execute e i s m = Ok (s', ms, at') -> (forall t, e_addr_ok e t = V t) ->
  covers s T c -> creach s' /\ covers s' T (c + UNIT * (brought e i T + received (e_self e) T ms - sent T ms) + cost e m * LOSS).
Proof.
  intros R [CC SU] H VE C. assert (TY : env_typed e i = true) by (unfold execute in H; destruct (env_typed e i); done).
  assert (CE : ceffect e i s s' ms -> effort e <= cost e m -> creach s' /\ covers s' T (c + UNIT * (brought e i T + received (e_self e) T ms - sent T ms) + cost e m * LOSS)).
  { intros X L. split; [by eapply cr_step|]. eapply covers_le; [|by eapply ceffect_covers].
    assert (effort e * LOSS <= cost e m * LOSS) by (apply Z.mul_le_mono_nonneg_r; [discriminate|exact L]). lia. }
  pose proof (effort_pos e).
  apply execute_split in H. destruct H as [H|[(k & d & a & by_in & lim & r & -> & Ha & Hl & H)|(a & x & sl & hops & out & -> & Ha & H)]].
  - apply CE; [by apply ce_other|]. destruct m; cbn [cost]; nia || lia.
  - apply CE; [eapply ce_swap; [exact Ha|exact Hl|exact H|exact CC]|cbn [cost]; lia].
  - split; [by eapply clean_hops_creach|]. cbn [cost].
    eapply covers_le; [|eapply (route_covers _ _ T hops TY); [exact R|exact Ha|exact CC|exact H|exact C]].
    assert (HB : hops_in T hops * brought e i T <= brought e i T).
    { pose proof (brought_nonneg e i T TY) as B0. destruct (V T) eqn:VT.
      - unfold brought. rewrite VE, VT. lia.
      - specialize (SU T VT). nia. }
    assert (0 <= effort e * LOSS) by (apply Z.mul_nonneg_nonneg; [lia|discriminate]).
    set (w := hops_in T hops * brought e i T) in *. clearbody w.
    assert (UNIT * (w + received (e_self e) T ms - sent T ms) <= UNIT * (brought e i T + received (e_self e) T ms - sent T ms)); [|lia].
    apply Z.mul_le_mono_nonneg_l; [discriminate|lia].
Qed.
Lemma own_charged e i T ms : Forall (own (e_addr_ok e) (e_self e) (i_sender i)) ms ->
  charged e i T ms = brought e i T + received (e_self e) T ms - sent T ms.
Proof.
  intros OW.
  assert (PS : paid (i_sender i) T ms = sent T ms /\ pulled (e_self e) (i_sender i) T ms = received (e_self e) T ms).
  { induction OW as [|x ms O F [IH1 IH2]]; [done|]. unfold paid, pulled, sent, received in *. cbn [map sumZ foldr]. unfold sumZ in *. rewrite IH1, IH2.
    destruct x as [t r v|t o r v|r t v|]; cbn [own paid1 pulled1 sent1 received1] in *; [destruct O as [-> _]; rewrite !String.eqb_refl; by cbn [andb]..| |destruct O as [-> _]; rewrite !String.eqb_refl; by cbn [andb]|done].
    destruct O as (-> & -> & _). rewrite !String.eqb_refl. cbn [andb]. by rewrite !andb_true_r. }
  destruct PS as [P1 P2]. unfold charged, brought. rewrite P1, P2. destruct (e_addr_ok e T) eqn:VT; [lia|].
  rewrite <- P2, (paid_own_cw20 _ _ _ _ _ OW VT). lia.
Qed.

(** ** One account's calls *)
Section alone.
  Context (ok : env -> msg_info -> store -> exec_msg -> Prop) (self : string) (V : string -> bool) (a : string).
  (** [a] makes any number of successful calls, nobody else does anything; [n] counts iterations of swap loops *)
  Inductive alone : world -> world -> Z -> Prop :=
  | al_nil w : alone w w 0
  | al_call e i w m w1 at' w2 n : ok e i (w_store w) m -> world_call e i w m = Done w1 at' -> e_self e = self -> (forall t, e_addr_ok e t = V t) ->
      i_sender i = a -> a <> self -> alone w1 w2 n -> alone w w2 (cost e m + n).
End alone.

Lemma alone_reach ok self V a w w' n : alone ok self V a w w' n -> reachable (w_store w) -> reachable (w_store w').
Proof.
  induction 1 as [|e i w m w1 at' w2 n _ H SE VE SA NS _ IH]; [done|]. intros R. apply IH.
  subst a. destruct (C84_exchange _ _ _ _ _ _ R ltac:(by rewrite SE) H) as (ms & E & _). by eapply reach_call.
Qed.
Lemma alone_covers V self a w w' n T c : alone (clean_single V) self V a w w' n -> reachable (w_store w) -> creach (w_store w) -> covers (w_store w) T c ->
  0 <= n /\ creach (w_store w') /\ covers (w_store w') T (c + UNIT * (wealth V w T a - wealth V w' T a) + n * LOSS).
Proof.
  intros H. revert c. induction H as [w|e i w m w1 at' w2 n O H SE VE SA NS _ IH]; intros c R CR C.
  - split; [lia|]. split; [done|]. eapply covers_le; [|exact C]. lia.
  - subst a. assert (NS' : i_sender i <> e_self e) by (by rewrite SE). destruct (C84_exchange _ _ _ _ _ _ R NS' H) as (ms & E & Q).
    destruct (call_covers V _ _ _ _ _ _ _ T c CR O E VE C) as [CR1 C1]. destruct (Q T) as (Q1 & _).
    assert (VW : forall w0 b, wealth (e_addr_ok e) w0 T b = wealth V w0 T b) by (intros; unfold wealth; by rewrite VE). rewrite !VW in Q1.
    rewrite <- (own_charged e i T ms (execute_own _ _ _ _ _ _ _ R E)) in C1.
    assert (R1 : reachable (w_store w1)) by (by eapply reach_call).
    destruct (IH _ R1 CR1 C1) as (N & CR2 & C2). pose proof (effort_pos e).
    assert (0 <= cost e m) by (destruct m; cbn [cost]; nia || lia).
    split; [lia|]. split; [done|]. eapply covers_le; [|exact C2]. lia.
Qed.

(** ** Unharmed *)
(** a position's uncollected fees, in units of 10^-34 token *)
Definition uncollected_x (s : store) (p : pool) (po : position) : Z :=
  match st_ticks s !! (po_key po, po_lower po), st_ticks s !! (po_key po, po_upper po) with
  | Some l, Some u => (collected (p_tick p) (p_fgx p) (po_lower po) (t_fox l) (po_upper po) (t_fox u) - po_fgx po) mod 2 ^ 128 * po_liq po
  | _, _ => 0
  end.
Definition uncollected_y (s : store) (p : pool) (po : position) : Z :=
  match st_ticks s !! (po_key po, po_lower po), st_ticks s !! (po_key po, po_upper po) with
  | Some l, Some u => (collected (p_tick p) (p_fgy p) (po_lower po) (t_foy l) (po_upper po) (t_foy u) - po_fgy po) mod 2 ^ 128 * po_liq po
  | _, _ => 0
  end.
Definition same_range (po po' : position) : Prop :=
  po_key po' = po_key po /\ po_liq po' = po_liq po /\ po_lower po' = po_lower po /\ po_upper po' = po_upper po.
(** In each pool of token [T] the price is the same, there are no less protocol fees in [T], and every position other than those in the
    list [mine] is still there, with at least the fees in [T] it had. *)
Definition unharmed (mine : list (string * Z)) (T : string) (s s' : store) : Prop := forall k p, st_pools s !! k = Some p -> pk_x k = T \/ pk_y k = T ->
  exists p', st_pools s' !! k = Some p' /\ p_price p' = p_price p /\
    (pk_x k = T -> p_protx p <= p_protx p') /\ (pk_y k = T -> p_proty p <= p_proty p') /\
    forall x po, st_positions s !! x = Some po -> po_key po = k -> x ∉ mine -> exists po', st_positions s' !! x = Some po' /\ same_range po po' /\
      (pk_x k = T -> uncollected_x s p po <= uncollected_x s' p' po') /\ (pk_y k = T -> uncollected_y s p po <= uncollected_y s' p' po').
(** what a position would be paid in [T] *)
Definition worth_now (s : store) (T : string) (x : string * Z) : Z :=
  match st_positions s !! x with
  | Some po => match st_pools s !! po_key po with
               | Some p => (if String.eqb (pk_x (po_key po)) T then due_x s p po else 0) + (if String.eqb (pk_y (po_key po)) T then due_y s p po else 0)
               | None => 0
               end
  | None => 0
  end.

(** ** Sums *)
Lemma psum_more (f g : position -> Z) (l : list (string * Z)) : forall m m', NoDup l -> (forall x, x ∈ l -> m !! x = None) -> (forall x po, m' !! x = Some po -> 0 <= g po) ->
  (forall x po, m !! x = Some po -> f po <= 0 \/ exists po', m' !! x = Some po' /\ f po <= g po') ->
  psum f m + sumZ (map (fun x => match m' !! x with Some po => g po | None => 0 end) l) <= psum g m'.
Proof.
  induction l as [|x l IH]; intros m m' ND NI G S.
  - cbn. rewrite Z.add_0_r. clear NI. revert m' G S. induction m as [|x po m E IH] using psum_ind; intros m' G S.
    + rewrite psum_empty. by apply psum_nonneg.
    + rewrite psum_new by done.
      assert (S' : forall y q, m !! y = Some q -> f q <= 0 \/ exists po', m' !! y = Some po' /\ f q <= g po').
      { intros y q Q. assert (y <> x) by congruence. apply (S y). by rewrite lookup_insert_ne. }
      destruct (S x po) as [L|(po' & E' & L)]; [by rewrite lookup_insert|pose proof (IH m' G S'); lia|]. rewrite (psum_delete g m' x po' E').
      assert (psum f m <= psum g (delete x m')); [|lia]. apply IH.
      * intros y q Q. apply lookup_delete_Some in Q as [_ Q]. by eapply G.
      * intros y q Q. destruct (decide (y = x)) as [->|N]; [congruence|]. rewrite lookup_delete_ne by done. by apply S'.
  - apply NoDup_cons in ND as [NX ND]. cbn [map sumZ foldr].
    assert (REST : forall m2, m2 = delete x m' -> psum f m + sumZ (map (fun x => match m' !! x with Some po => g po | None => 0 end) l) <= psum g m2).
    { intros m2 ->. assert (Q : map (fun x => match m' !! x with Some po => g po | None => 0 end) l = map (fun y => match delete x m' !! y with Some po => g po | None => 0 end) l).
      { apply map_ext_in. intros y Y. apply elem_of_list_In in Y. rewrite lookup_delete_ne by (intros ->; done). done. }
      rewrite Q. apply IH; [done|intros; apply NI; by right| |].
      - intros y q Y. apply lookup_delete_Some in Y as [_ Y]. by eapply G.
      - intros y q Y. assert (x <> y) by (intros ->; rewrite (NI y ltac:(left)) in Y; done). rewrite lookup_delete_ne by done. by apply S. }
    specialize (REST _ eq_refl). unfold sumZ in *. destruct (m' !! x) as [po|] eqn:E.
    + rewrite (psum_delete g m' x po E). lia.
    + rewrite (delete_notin m' x E) in REST. lia.
Qed.
Lemma psum_drop (f : position -> Z) (q : list (string * Z)) : forall m, (forall x po, m !! x = Some po -> 0 <= f po) ->
  psum f m <= psum f (foldr delete m q) + sumZ (map (fun x => match m !! x with Some po => f po | None => 0 end) q).
Proof.
  induction q as [|x q IH]; intros m P; cbn; [lia|]. specialize (IH m P). unfold sumZ in *.
  set (m1 := foldr delete m q) in *. assert (L : forall y po, m1 !! y = Some po -> m !! y = Some po).
  { intros y po. unfold m1. clear. induction q as [|z q IH]; cbn; [done|]. intros H. apply lookup_delete_Some in H as [_ H]. by apply IH. }
  destruct (m1 !! x) as [po|] eqn:E.
  - rewrite (psum_delete f m1 x po E) in IH. rewrite (L _ _ E). lia.
  - rewrite (delete_notin m1 x E). destruct (m !! x) as [po|] eqn:E2; [specialize (P _ _ E2)|]; lia.
Qed.
Lemma lookup_drop (q : list (string * Z)) (m : posmap) x : foldr delete m q !! x = if decide (x ∈ q) then None else m !! x.
Proof.
  induction q as [|y q IH]; cbn; [done|]. destruct (decide (x = y)) as [->|N].
  - rewrite lookup_delete. rewrite decide_True by left. done.
  - rewrite lookup_delete_ne by done. rewrite IH. destruct (decide (x ∈ q)), (decide (x ∈ y :: q)) as [I|I]; try done; exfalso.
    + apply I. by right.
    + apply elem_of_cons in I as [I|I]; done.
Qed.
Local Notation total := PropSolv.total.
Lemma total_sub f l K : NoDup l -> (forall k, 0 <= f k) -> (forall k, k ∈ l -> k ∉ K -> f k = 0) -> total f l <= total f K.
Proof.
  intros ND P. revert K. induction l as [|k l IH]; intros K Z0.
  - unfold total. cbn. induction K as [|k K IHK]; cbn; [lia|]. specialize (P k). unfold sumZ in *. 
    assert (0 <= foldr Z.add 0 (map f K)) by (apply IHK; intros k' Hk'; by apply elem_of_nil in Hk'). lia.
  - apply NoDup_cons in ND as [NI ND]. rewrite total_cons. destruct (decide (k ∈ K)) as [I|I].
    + apply elem_of_list_split in I as (K1 & K2 & ->).
      assert (T : total f (K1 ++ k :: K2) = f k + total f (K1 ++ K2)).
      { unfold total. rewrite !map_app. cbn. clear. induction (map f K1) as [|z r IH]; cbn; [done|]. unfold sumZ in *. lia. }
      rewrite T. assert (total f l <= total f (K1 ++ K2)); [|lia]. apply IH; [done|]. intros k' I' N'. apply Z0; [by right|].
      intros X. apply N'. apply elem_of_app in X as [X|X]; [apply elem_of_app; by left|]. apply elem_of_cons in X as [->|X]; [done|]. apply elem_of_app. by right.
    + rewrite (Z0 k); [|left|done]. assert (total f l <= total f K); [|lia]. apply IH; [done|]. intros k' I' N'. apply Z0; [by right|done].
Qed.
Lemma total_plus f g l : total (fun k => f k + g k) l = total f l + total g l.
Proof. unfold total. induction l as [|k l IH]; cbn; [done|]. unfold sumZ in *. lia. Qed.
Lemma total_scale c f l : total (fun k => c * f k) l = c * total f l.
Proof. unfold total. induction l as [|k l IH]; cbn; [lia|]. unfold sumZ in *. lia. Qed.

Definition stake_fund (b : bool) (s : store) (p : pool) (po : position) : Z :=
  val b (p_price p) po + E48 * pend b (st_ticks s) (p_tick p) (fg b p) po + UNIT * owed b po.
Lemma fund_psum b s k p : fund b s k p = psum (fun po => at_key k po (stake_fund b s p po)) (st_positions s) + UNIT * prot b p.
Proof.
  unfold fund, vals, pends, oweds, stake_fund. rewrite Z.mul_add_distr_l, Z.add_assoc. f_equal.
  rewrite <- !psum_scale, <- !psum_add. apply psum_ext. intros x po _. unfold at_key. destruct (decide _); lia.
Qed.
Lemma pend_uncollected (b : bool) s p x po : liq_inv s -> st_positions s !! x = Some po ->
  pend b (st_ticks s) (p_tick p) (fg b p) po = if b then uncollected_x s p po else uncollected_y s p po.
Proof.
  intros LI E. destruct (store_bounded s _ LI x po E eq_refl) as (_ & _ & l & u & El & Il & Eu & Iu).
  unfold uncollected_x, uncollected_y, pend, grow. rewrite El, Eu. rewrite <- collected_inside, Il, Iu. change (2 ^ 128) with U128. by destruct b.
Qed.
Lemma val_same b pr po po' : same_range po po' -> val b pr po' = val b pr po.
Proof. intros (_ & A & B & C). unfold val. by rewrite A, B, C. Qed.
Lemma stake_nonneg b s p x po : ereach s -> st_positions s !! x = Some po -> 0 <= stake_fund b s p po.
Proof.
  intros R E. pose proof (ereach_liq _ R) as LI. unfold stake_fund. destruct (lq_pos _ LI _ _ E) as [V _]. pose proof (val_nonneg b (p_price p) po V).
  assert (0 <= pend b (st_ticks s) (p_tick p) (fg b p) po).
  { unfold pend. destruct (st_ticks s !! _) as [l|]; [|lia]. destruct (st_ticks s !! _) as [u|]; [|lia].
    apply Z.mul_nonneg_nonneg; [apply grow_range|]. destruct V as [? _]. lia. }
  destruct (ereach_unowed _ R _ _ E). assert (owed b po = 0) as -> by (by destruct b).
  assert (0 <= E48 * pend b (st_ticks s) (p_tick p) (fg b p) po) by (apply Z.mul_nonneg_nonneg; [discriminate|done]). lia.
Qed.
(** the part of [worth_now] that is in the pool [k] *)
Definition share (s : store) (T : string) (x : string * Z) (k : pool_key) : Z :=
  match st_positions s !! x with Some po => if decide (po_key po = k) then worth_now s T x else 0 | None => 0 end.

(** what a position is worth is rounded down by less than three *)
Lemma stake_upper (b : bool) s p x po : liq_inv s -> st_positions s !! x = Some po ->
  stake_fund b s p po <= UNIT * ((if b then due_x s p po else due_y s p po) + 3).
Proof.
  intros LI E. destruct (lq_pos _ LI _ _ E) as [(V1 & V2 & V3 & V4) _].
  destruct (store_bounded s _ LI x po E eq_refl) as (_ & _ & l & u & El & Il & Eu & Iu).
  pose proof (pend_uncollected b s p x po LI E) as PU. unfold stake_fund. rewrite PU. clear PU.
  assert (PE : forall z, E48 * z <= UNIT * (z / 10 ^ 34 + 1)).
  { intros z. pose proof (floor_spec z E34 ltac:(reflexivity)) as [_ F]. change (10 ^ 34) with E34. change UNIT with (E48 * E34). rewrite <- Z.mul_assoc.
    apply Z.mul_le_mono_nonneg_l; [discriminate|]. lia. }
  assert (PL := legal_price_range _ _ V2). assert (PH := legal_price_range _ _ V3). assert (OP := legal_price_lt _ _ _ V2 V3 V4).
  assert (M0 : 0 < MIN_SQRT_PRICE) by done.
  unfold due_x, due_y, uncollected_x, uncollected_y. rewrite El, Eu. destruct b; cbn [owed].
  - pose proof (PE ((collected (p_tick p) (p_fgx p) (po_lower po) (t_fox l) (po_upper po) (t_fox u) - po_fgx po) mod 2 ^ 128 * po_liq po)) as PE'.
    set (z := _ mod 2 ^ 128 * po_liq po) in *. clearbody z.
    enough (val true (p_price p) po <= UNIT * (worth_x (po_liq po) (p_price p) (tprice (po_lower po)) (tprice (po_upper po)) + 2)) by lia.
    clear PE PE'. unfold val, worth_x, pf, clampp. set (lo := tprice (po_lower po)) in *. set (hi := tprice (po_upper po)) in *.
    set (c := Z.max lo (Z.min (p_price p) hi)). assert (C : lo <= c <= hi) by (unfold c; lia). clearbody c lo hi.
    pose proof (rho_spec c ltac:(lia)) as [R1 _]. pose proof (rho_spec hi ltac:(lia)) as [_ R2].
    set (L := po_liq po) in *. clearbody L. change (10 ^ 18) with E18.
    pose proof (floor_spec (L * (hi - c) * E18) (c * hi) ltac:(nia)) as [_ F]. set (q := L * (hi - c) * E18 / (c * hi)) in *. clearbody q.
    set (rc := rho c) in *. set (rh := rho hi) in *. clearbody rc rh.
    assert (CH : 0 < c * hi) by nia.
    assert (X : c * hi * (rc - rh - 1) <= E100 * (hi - c)) by nia.
    assert (X2 : c * hi * (L * (rc - rh - 1)) <= UNIT * (c * hi * (q + 1))).
    { replace (c * hi * (L * (rc - rh - 1))) with (L * (c * hi * (rc - rh - 1))) by ring.
      transitivity (L * (E100 * (hi - c))); [apply Z.mul_le_mono_nonneg_l; lia|].
      replace (L * (E100 * (hi - c))) with (UNIT * (L * (hi - c) * E18)) by (change E100 with (UNIT * E18); ring).
      apply Z.mul_le_mono_nonneg_l; [discriminate|]. lia. }
    replace (UNIT * (c * hi * (q + 1))) with (c * hi * (UNIT * (q + 1))) in X2 by ring. apply Z.mul_le_mono_pos_l in X2; [|done].
    assert (2 * L <= UNIT) by (transitivity (2 * U128MAX); [lia|vm_compute; discriminate]). lia.
  - pose proof (PE ((collected (p_tick p) (p_fgy p) (po_lower po) (t_foy l) (po_upper po) (t_foy u) - po_fgy po) mod 2 ^ 128 * po_liq po)) as PE'.
    set (z := _ mod 2 ^ 128 * po_liq po) in *. clearbody z.
    enough (val false (p_price p) po <= UNIT * (worth_y (po_liq po) (p_price p) (tprice (po_lower po)) (tprice (po_upper po)) + 2)) by lia.
    clear PE PE'. unfold val, worth_y, pf, clampp. set (lo := tprice (po_lower po)) in *. set (hi := tprice (po_upper po)) in *. set (c := Z.max _ _). clearbody c lo hi.
    set (L := po_liq po) in *. clearbody L. change (10 ^ 30) with E30.
    pose proof (floor_spec (L * (c - lo)) E30 ltac:(reflexivity)) as [_ F]. set (q := L * (c - lo) / E30) in *. clearbody q.
    replace (L * (E52 * c - E52 * lo)) with (E52 * (L * (c - lo))) by ring.
    transitivity (E52 * (E30 * (q + 1))); [apply Z.mul_le_mono_nonneg_l; [discriminate|lia]|]. change UNIT with (E52 * E30).
    rewrite Z.mul_assoc. apply Z.mul_le_mono_nonneg_l; [discriminate|lia].
Qed.

(** [worth_now] and three more for each position of a list, in the pool [k] *)
Definition share3 (s : store) (T : string) (x : string * Z) (k : pool_key) : Z :=
  match st_positions s !! x with Some po => if decide (po_key po = k) then worth_now s T x + 3 else 0 | None => 0 end.
Lemma share_off s k f l : (forall x po, st_positions s !! x = Some po -> po_key po = k -> f x = 0) -> (forall x, st_positions s !! x = None -> f x = 0) ->
  (forall x po, st_positions s !! x = Some po -> po_key po <> k -> f x = 0) -> sumZ (map f l) = 0.
Proof.
  intros A B C. induction l as [|x l IH]; [done|]. cbn. unfold sumZ in *. rewrite IH. destruct (st_positions s !! x) as [po|] eqn:E; [|by rewrite (B x E)].
  destruct (decide (po_key po = k)) as [K|K]; [by rewrite (A x po E K)|by rewrite (C x po E K)].
Qed.
Lemma sumZ_nonneg {A} (f : A -> Z) l : (forall x, 0 <= f x) -> 0 <= sumZ (map f l).
Proof. intros H. induction l as [|x l IH]; [done|]. cbn. unfold sumZ in *. specialize (H x). lia. Qed.
Lemma sumZ_le {A} (f g : A -> Z) l : (forall x, f x <= g x) -> sumZ (map f l) <= sumZ (map g l).
Proof. intros H. induction l as [|x l IH]; [done|]. cbn. unfold sumZ in *. specialize (H x). lia. Qed.
Lemma sumZ_scale {A} c (f : A -> Z) l : sumZ (map (fun x => c * f x) l) = c * sumZ (map f l).
Proof. induction l as [|x l IH]; cbn; [lia|]. unfold sumZ in *. lia. Qed.
Lemma due_nonneg s p x po : ereach s -> st_positions s !! x = Some po -> 0 <= due_x s p po /\ 0 <= due_y s p po.
Proof.
  intros R E. pose proof (ereach_liq _ R) as LI. destruct (lq_pos _ LI _ _ E) as [(V1 & V2 & V3 & V4) _]. destruct (ereach_unowed _ R _ _ E) as [O1 O2].
  assert (PL := legal_price_range _ _ V2). assert (PH := legal_price_range _ _ V3). assert (OP := legal_price_lt _ _ _ V2 V3 V4).
  assert (M0 : 0 < MIN_SQRT_PRICE) by done.
  unfold due_x, due_y. rewrite O1, O2. destruct (st_ticks s !! _) as [l|]; [|lia]. destruct (st_ticks s !! _) as [u|]; [|lia].
  assert (F : forall z, 0 <= z mod 2 ^ 128 * po_liq po / 10 ^ 34).
  { intros z. apply Z.div_pos; [|reflexivity]. apply Z.mul_nonneg_nonneg; [|lia]. apply Z.mod_pos_bound. reflexivity. }
  unfold worth_x, worth_y. set (c := Z.max _ _). set (lo := tprice (po_lower po)) in *. set (hi := tprice (po_upper po)) in *.
  assert (C : lo <= c <= hi) by (unfold c; lia). clearbody c.
  assert (0 <= po_liq po * (hi - c) * 10 ^ 18 / (c * hi)).
  { apply Z.div_pos; [|nia]. apply Z.mul_nonneg_nonneg; [|discriminate]. apply Z.mul_nonneg_nonneg; lia. }
  assert (0 <= po_liq po * (c - lo) / 10 ^ 30) by (apply Z.div_pos; [apply Z.mul_nonneg_nonneg; lia|reflexivity]).
  split; apply Z.add_nonneg_nonneg; [lia|apply F|lia|apply F].
Qed.
Lemma worth_nonneg s T x : ereach s -> 0 <= worth_now s T x.
Proof.
  intros R. unfold worth_now. destruct (st_positions s !! x) as [po|] eqn:E; [|lia]. destruct (st_pools s !! _) as [p|]; [|lia].
  destruct (due_nonneg s p x po R E). destruct (String.eqb _ _), (String.eqb _ _); lia.
Qed.

Lemma tfund_more s s' T mine l k : ereach s -> ereach s' -> unharmed mine T s s' -> NoDup l -> (forall x, x ∈ l -> st_positions s !! x = None \/ x ∈ mine) ->
  tfund T s k + UNIT * sumZ (map (fun x => share s' T x k) l) <= tfund T s' k + UNIT * sumZ (map (fun x => share3 s T x k) mine).
Proof.
  intros R R' U ND NI. pose proof (ereach_liq _ R) as LI. pose proof (ereach_liq _ R') as LI'.
  assert (S3 : 0 <= UNIT * sumZ (map (fun x => share3 s T x k) mine)).
  { apply Z.mul_nonneg_nonneg; [discriminate|]. apply sumZ_nonneg. intros x. unfold share3. destruct (st_positions s !! x) as [po|]; [|lia].
    destruct (decide _); [|lia]. pose proof (worth_nonneg s T x R). lia. }
  destruct (decide (pk_x k = T \/ pk_y k = T)) as [KT|KT].
  2: { unfold tfund. rewrite (proj2 (String.eqb_neq (pk_x k) T)), (proj2 (String.eqb_neq (pk_y k) T)) by tauto.
       assert (sumZ (map (fun x => share s' T x k) l) = 0) as ->; [|lia]. apply (share_off s' k).
       - intros x po E <-. unfold share, worth_now. rewrite E, decide_True by done.
         destruct (st_pools s' !! po_key po); [|done]. rewrite (proj2 (String.eqb_neq (pk_x (po_key po)) T)), (proj2 (String.eqb_neq (pk_y (po_key po)) T)) by tauto. done.
       - intros x E. unfold share. by rewrite E.
       - intros x po E N. unfold share. by rewrite E, decide_False. }
  destruct (st_pools s' !! k) as [p'|] eqn:Ep'.
  2: { assert (st_pools s !! k = None) as Ep. { destruct (st_pools s !! k) as [p|] eqn:Ep; [|done]. destruct (U k p Ep KT) as (? & ? & _). congruence. }
       assert (sumZ (map (fun x => share s' T x k) l) = 0) as ->.
       { apply (share_off s' k).
         - intros x po E <-. unfold share, worth_now. by rewrite E, decide_True, Ep' by done.
         - intros x E. unfold share. by rewrite E.
         - intros x po E N. unfold share. by rewrite E, decide_False. }
       unfold tfund, funds. rewrite Ep, Ep'. destruct (String.eqb _ _), (String.eqb _ _); lia. }
  (* one side *)
  set (dueb := fun (b : bool) (x : string * Z) => match st_positions s' !! x with Some po => if decide (po_key po = k) then (if b then due_x s' p' po else due_y s' p' po) else 0 | None => 0 end).
  assert (SIDE : forall b : bool, tok b k = T -> funds b s k + UNIT * sumZ (map (dueb b) l) <= funds b s' k +
     UNIT * sumZ (map (fun x => match st_positions s !! x, st_pools s !! k with Some po, Some p => if decide (po_key po = k) then (if b then due_x s p po else due_y s p po) + 3 else 0 | _, _ => 0 end) mine)).
  { intros b TB. unfold funds. rewrite Ep'. rewrite fund_psum.
    assert (P' : 0 <= prot b p') by (destruct (ereach_prot _ R' _ _ Ep'); by destruct b).
    assert (DU : UNIT * sumZ (map (dueb b) l) <= sumZ (map (fun x => match st_positions s' !! x with Some po => at_key k po (stake_fund b s' p' po) | None => 0 end) l)).
    { rewrite <- sumZ_scale. apply sumZ_le. intros x. unfold dueb. destruct (st_positions s' !! x) as [po|] eqn:E; [|lia].
      unfold at_key. destruct (decide (po_key po = k)) as [K|]; [|lia]. pose proof (due_fund s' b k p' x po LI' E K) as D. fold (stake_fund b s' p' po) in D. lia. }
    destruct (st_pools s !! k) as [p|] eqn:Ep.
    - rewrite fund_psum. destruct (U k p Ep KT) as (q & Eq & PR & PX & PY & PO). assert (q = p') as -> by congruence.
      assert (PB : prot b p <= prot b p') by (destruct b; cbn [prot tok] in *; auto).
      set (f := fun po => at_key k po (stake_fund b s p po)).
      pose proof (psum_more f (fun po => at_key k po (stake_fund b s' p' po)) l (foldr delete (st_positions s) mine) (st_positions s') ND) as M.
      assert (UNIT * prot b p <= UNIT * prot b p') by (apply Z.mul_le_mono_nonneg_l; [discriminate|done]).
      pose proof (psum_drop f mine (st_positions s)) as DR.
      assert (UP : sumZ (map (fun x => match st_positions s !! x with Some po => f po | None => 0 end) mine) <=
        UNIT * sumZ (map (fun x => match st_positions s !! x with Some po => if decide (po_key po = k) then (if b then due_x s p po else due_y s p po) + 3 else 0 | None => 0 end) mine)).
      { rewrite <- sumZ_scale. apply sumZ_le. intros x. unfold f, at_key. destruct (st_positions s !! x) as [po|] eqn:E; [|lia].
        destruct (decide (po_key po = k)) as [K|]; [|lia]. by eapply stake_upper. }
      enough (psum f (st_positions s) <= psum f (foldr delete (st_positions s) mine) + sumZ (map (fun x => match st_positions s !! x with Some po => f po | None => 0 end) mine) /\
         psum f (foldr delete (st_positions s) mine) + sumZ (map (fun x => match st_positions s' !! x with Some po => at_key k po (stake_fund b s' p' po) | None => 0 end) l)
         <= psum (fun po => at_key k po (stake_fund b s' p' po)) (st_positions s')) by lia.
      split; [apply DR|apply M].
      + intros x po E. unfold f, at_key. destruct (decide _); [|lia]. by eapply stake_nonneg.
      + intros x I. rewrite lookup_drop. destruct (decide (x ∈ mine)); [done|]. by destruct (NI x I).
      + intros x po E. unfold at_key. destruct (decide _); [|lia]. by eapply stake_nonneg.
      + intros x po E. rewrite lookup_drop in E. destruct (decide (x ∈ mine)) as [|NM]; [done|]. unfold f, at_key. destruct (decide (po_key po = k)) as [K|NK]; [|by left].
        right. destruct (PO x po E K NM) as (po' & E' & SR & UX & UY). exists po'. split; [done|]. destruct SR as (SK & SR). rewrite SK. destruct (decide (po_key po = k)); [|done].
        unfold stake_fund. rewrite PR. rewrite (val_same b (p_price p) po po') by (split; done).
        destruct (ereach_unowed _ R _ _ E) as [O1 O2]. destruct (ereach_unowed _ R' _ _ E') as [O3 O4].
        assert (owed b po = 0 /\ owed b po' = 0) as [-> ->] by (by destruct b).
        rewrite (pend_uncollected b s p x po LI E), (pend_uncollected b s' p' x po' LI' E').
        assert ((if b then uncollected_x s p po else uncollected_y s p po) <= (if b then uncollected_x s' p' po' else uncollected_y s' p' po')).
        { destruct b; cbn [tok] in TB; [by apply UX|by apply UY]. }
        assert (E48 * (if b then uncollected_x s p po else uncollected_y s p po) <= E48 * (if b then uncollected_x s' p' po' else uncollected_y s' p' po'))
          by (apply Z.mul_le_mono_nonneg_l; [discriminate|done]). lia.
    - pose proof (psum_more (fun _ => 0) (fun po => at_key k po (stake_fund b s' p' po)) l ∅ (st_positions s') ND) as M. rewrite psum_empty in M.
      assert (0 <= UNIT * prot b p') by (apply Z.mul_nonneg_nonneg; [discriminate|done]).
      assert (sumZ (map (fun x => match st_positions s !! x with Some _ => 0 | None => 0 end) mine) = 0) as ->.
      { clear. induction mine as [|x r IH]; [done|]. cbn. unfold sumZ in *. rewrite IH. by destruct (_ !! x). }
      enough (0 + sumZ (map (fun x => match st_positions s' !! x with Some po => at_key k po (stake_fund b s' p' po) | None => 0 end) l)
         <= psum (fun po => at_key k po (stake_fund b s' p' po)) (st_positions s')) by lia.
      apply M.
      + intros x _. apply lookup_empty.
      + intros x po E. unfold at_key. destruct (decide _); [|lia]. by eapply stake_nonneg.
      + intros x po E. by rewrite lookup_empty in E. }
  assert (SUM : sumZ (map (fun x => share s' T x k) l) = (if String.eqb (pk_x k) T then sumZ (map (dueb true) l) else 0) + (if String.eqb (pk_y k) T then sumZ (map (dueb false) l) else 0)).
  { clear ND NI SIDE. induction l as [|x l IH]; [by destruct (String.eqb _ _), (String.eqb _ _)|]. cbn [map sumZ foldr]. unfold sumZ in *. rewrite IH.
    unfold share, dueb, worth_now. destruct (st_positions s' !! x) as [po|] eqn:E; [|destruct (String.eqb _ _), (String.eqb _ _); lia].
    destruct (decide (po_key po = k)) as [->|]; [|destruct (String.eqb _ _), (String.eqb _ _); lia]. rewrite Ep'. destruct (String.eqb _ _), (String.eqb _ _); lia. }
  rewrite SUM. unfold tfund. pose proof (SIDE true) as S1. pose proof (SIDE false) as S2. cbn [tok] in S1, S2.
  assert (KD : pk_x k <> pk_y k) by (apply (pool_distinct s'); [done|eauto]).
  assert (UP : forall b : bool, tok b k = T -> UNIT * sumZ (map (fun x => match st_positions s !! x, st_pools s !! k with Some po, Some p => if decide (po_key po = k) then (if b then due_x s p po else due_y s p po) + 3 else 0 | _, _ => 0 end) mine)
     <= UNIT * sumZ (map (fun x => share3 s T x k) mine)).
  { intros b TB. apply Z.mul_le_mono_nonneg_l; [discriminate|]. apply sumZ_le. intros x. unfold share3, worth_now. destruct (st_positions s !! x) as [po|] eqn:E; [|lia].
    destruct (decide (po_key po = k)) as [->|]; [|destruct (st_pools s !! k); lia]. destruct (st_pools s !! k) as [p|]; [|lia]. destruct (due_nonneg s p x po R E).
    destruct b; cbn [tok] in TB; rewrite (proj2 (String.eqb_eq _ _) TB); [destruct (String.eqb (pk_y k) T)|destruct (String.eqb (pk_x k) T)]; cbn iota; lia. }
  pose proof (UP true) as U1. pose proof (UP false) as U2. cbn [tok] in U1, U2.
  destruct (String.eqb_spec (pk_x k) T) as [E1|N1], (String.eqb_spec (pk_y k) T) as [E2|N2]; [congruence| | |tauto].
  - specialize (S1 E1). specialize (U1 E1). lia.
  - specialize (S2 E2). specialize (U2 E2). lia.
Qed.
Lemma share_total s (f : string * Z -> Z) l K : ereach s -> NoDup K -> (forall k p, st_pools s !! k = Some p -> k ∈ K) -> (forall x, st_positions s !! x = None -> f x = 0) ->
  total (fun k => sumZ (map (fun x => match st_positions s !! x with Some po => if decide (po_key po = k) then f x else 0 | None => 0 end) l)) K = sumZ (map f l).
Proof.
  intros R ND A F0. pose proof (ereach_liq _ R) as LI. induction l as [|x l IH].
  - cbn. unfold total. clear. induction K as [|k K IHK]; cbn; [done|]. unfold sumZ in *. lia.
  - cbn [map sumZ foldr].
    set (g := fun k x => match st_positions s !! x with Some po => if decide (po_key po = k) then f x else 0 | None => 0 end) in *.
    assert (Q : total (fun k => g k x + sumZ (map (g k) l)) K = f x + sumZ (map f l)); [|exact Q].
    rewrite total_plus. etransitivity; [apply f_equal; exact IH|]. f_equal.
    unfold g. destruct (st_positions s !! x) as [po|] eqn:E.
    2: { rewrite (F0 x E). unfold total. clear. induction K as [|k K IHK]; cbn; [done|]. unfold sumZ in *. lia. }
    destruct (lq_pos _ LI _ _ E) as [_ [p Ep]]. pose proof (lsum_single (po_key po) (f x) K ND (A _ _ Ep)) as S. etransitivity; [|exact S].
    unfold total, sumZ, lsum. clear. induction K as [|k K IHK]; cbn [map foldr]; [done|]. rewrite IHK. f_equal. destruct (decide (po_key po = k)), (decide (k = po_key po)); congruence.
Qed.

(** what a position would be paid, and three more *)
Definition at_most (s : store) (T : string) (x : string * Z) : Z := match st_positions s !! x with Some _ => worth_now s T x + 3 | None => 0 end.
(** What holds: if all trades, before and during, crossed every tick they passed, and no route took the same native coin twice, then
    after any calls of [a] alone that left every pool of [T] unharmed, [a] has no more of [T] than before plus what the positions in the
    list [mine] were worth (less than three more for each, because [worth_now] rounds down), even counting what new positions, and
    those of [mine], are worth now. *)
Theorem C87_no_free_lunch_partial V self a w w' n T mine l : clean_history (w_store w) -> alone (clean_single V) self V a w w' n -> n < 10 ^ 14 ->
  unharmed mine T (w_store w) (w_store w') -> NoDup l -> (forall x, x ∈ l -> st_positions (w_store w) !! x = None \/ x ∈ mine) ->
  wealth V w' T a + sumZ (map (worth_now (w_store w') T) l) <= wealth V w T a + sumZ (map (at_most (w_store w) T) mine).
Proof.
  intros CH AL N U ND NI. pose proof (clean_history_reachable _ CH) as R. pose proof (clean_history_creach _ CH) as CR.
  set (K := map fst (map_to_list (st_pools (w_store w'))) ++ filter (fun k => st_pools (w_store w') !! k = None) (map fst (map_to_list (st_pools (w_store w))))).
  assert (NK : NoDup K).
  { unfold K. apply NoDup_app. split; [apply NoDup_fst_map_to_list|]. split; [|apply NoDup_filter, NoDup_fst_map_to_list].
    intros k I J. apply elem_of_list_filter in J as [J _]. apply elem_of_list_fmap in I as ([k' p] & -> & I). apply elem_of_map_to_list in I. cbn in J. congruence. }
  assert (IK' : forall k p, st_pools (w_store w') !! k = Some p -> k ∈ K).
  { intros k p E. unfold K. apply elem_of_app. left. apply elem_of_list_fmap. exists (k, p). split; [done|]. by apply elem_of_map_to_list. }
  assert (IK : forall k p, st_pools (w_store w) !! k = Some p -> k ∈ K).
  { intros k p E. destruct (st_pools (w_store w') !! k) as [p'|] eqn:E'; [by eapply IK'|]. unfold K. apply elem_of_app. right. apply elem_of_list_filter.
    split; [done|]. apply elem_of_list_fmap. exists (k, p). split; [done|]. by apply elem_of_map_to_list. }
  assert (C : covers (w_store w) T (total (tfund T (w_store w)) K)).
  { intros l' ND'. apply total_sub; [done|intros; apply tfund_nonneg; by apply creach_ereach|]. intros k _ NIK. unfold tfund, funds.
    destruct (st_pools (w_store w) !! k) as [p|] eqn:Ep; [exfalso; apply NIK; by eapply IK|]. by destruct (String.eqb _ _), (String.eqb _ _). }
  destruct (alone_covers _ _ _ _ _ _ _ _ AL R CR C) as (N0 & CR' & C'). specialize (C' K NK).
  assert (M : total (fun k => tfund T (w_store w) k + UNIT * sumZ (map (fun x => share (w_store w') T x k) l)) K <=
     total (fun k => tfund T (w_store w') k + UNIT * sumZ (map (fun x => share3 (w_store w) T x k) mine)) K).
  { apply total_le. intros k _. by apply tfund_more; try apply creach_ereach. }
  rewrite !total_plus, !total_scale in M.
  assert (Q1 : total (fun k => sumZ (map (fun x => share (w_store w') T x k) l)) K = sumZ (map (worth_now (w_store w') T) l)).
  { apply (share_total (w_store w') (worth_now (w_store w') T)); [by apply creach_ereach|done|done|]. intros x E. unfold worth_now. by rewrite E. }
  assert (Q2 : total (fun k => sumZ (map (fun x => share3 (w_store w) T x k) mine)) K = sumZ (map (at_most (w_store w) T) mine)).
  { rewrite <- (share_total (w_store w) (at_most (w_store w) T) mine K); [|by apply creach_ereach|done|done|intros x E; unfold at_most; by rewrite E].
    unfold total. f_equal. apply map_ext. intros k. f_equal. apply map_ext. intros x. unfold share3, at_most. by destruct (_ !! x). }
  rewrite Q1, Q2 in M. clear Q1 Q2.
  assert (n * LOSS < UNIT).
  { apply Z.lt_le_trans with (10 ^ 14 * LOSS); [apply Z.mul_lt_mono_pos_r; [reflexivity|exact N]|vm_compute; discriminate]. }
  set (z := sumZ (map (worth_now _ _) l)) in *. clearbody z. set (y := sumZ (map (at_most _ _) mine)) in *. clearbody y. set (t := total _ _) in *. set (t' := total _ _) in *. clearbody t t'.
  assert (Q : UNIT * (z + wealth V w' T a) < UNIT * (wealth V w T a + y + 1)) by lia. apply Z.mul_lt_mono_pos_l in Q; [lia|reflexivity].
Qed.
(** who starts without any position has nothing to gain at all *)
Corollary C87_outsider_partial V self a w w' n T l : clean_history (w_store w) -> alone (clean_single V) self V a w w' n -> n < 10 ^ 14 ->
  unharmed [] T (w_store w) (w_store w') -> NoDup l -> (forall x, x ∈ l -> st_positions (w_store w) !! x = None) ->
  wealth V w' T a + sumZ (map (worth_now (w_store w') T) l) <= wealth V w T a.
Proof. intros CH AL N U ND NI. pose proof (C87_no_free_lunch_partial _ _ _ _ _ _ _ [] l CH AL N U ND ltac:(auto)) as Q. cbn in Q. lia. Qed.

(** ** Concrete worlds *)
Lemma w_run_alone (chk : bool) (ok : env -> msg_info -> store -> exec_msg -> Prop) e a l : (forall i s m, ereach s -> (chk = true -> clean_callb e s m = true) -> ok e i s m) ->
  forallb (fun im : msg_info * exec_msg => String.eqb (i_sender im.1) a) l = true -> a <> e_self e ->
  forall w n w' n', reachable (w_store w) -> w_run chk e l w n = Ok (w', n') -> alone ok (e_self e) (e_addr_ok e) a w w' (n' - n).
Proof.
  intros K A NS. induction l as [|[i m] l IH]; intros w n w' n' R H; cbn [w_run] in H.
  { injection H as <- <-. rewrite Z.sub_diag. constructor. }
  cbn in A. apply andb_prop in A as [A1 A]. apply String.eqb_eq in A1. cbn in A1.
  destruct ((chk && negb (clean_callb e (w_store w) m)) || String.eqb (i_sender i) (e_self e)) eqn:C; [done|].
  apply orb_false_iff in C as [C1 C2]. destruct (world_call e i w m) as [w1 at'| | |] eqn:E; try done.
  assert (R1 : reachable (w_store w1)).
  { destruct (C84_exchange _ _ _ _ _ _ R ltac:(by apply String.eqb_neq) E) as (ms & E1 & _). by eapply reach_call. }
  specialize (IH A _ _ _ _ R1 H). replace (n' - n) with (cost e m + (n' - (n + cost e m))) by lia.
  eapply al_call; [|exact E|done|done|done|done|exact IH].
  apply K; [by apply reachable_ereach|]. intros ->. cbn in C1. by destruct (clean_callb e _ m).
Qed.
Definition same_rangeb (po po' : position) : bool :=
  bool_decide (po_key po' = po_key po) && (po_liq po' =? po_liq po) && (po_lower po' =? po_lower po) && (po_upper po' =? po_upper po).
Definition unharmedb (mine : list (string * Z)) (T : string) (s s' : store) : bool :=
  forallb (fun kp : pool_key * pool => let '(k, p) := kp in
    match st_pools s' !! k with
    | Some p' => (p_price p' =? p_price p) && (p_protx p <=? p_protx p') && (p_proty p <=? p_proty p') &&
        forallb (fun xp : string * Z * position => let '(x, po) := xp in
          negb (bool_decide (po_key po = k)) || bool_decide (x ∈ mine) ||
          match st_positions s' !! x with
          | Some po' => same_rangeb po po' && (uncollected_x s p po <=? uncollected_x s' p' po') && (uncollected_y s p po <=? uncollected_y s' p' po')
          | None => false
          end) (map_to_list (st_positions s))
    | None => false
    end) (map_to_list (st_pools s)).
Lemma unharmedb_sound mine T s s' : unharmedb mine T s s' = true -> unharmed mine T s s'.
Proof.
  intros H k p E _. unfold unharmedb in H. rewrite forallb_forall in H. specialize (H (k, p)). cbn beta iota in H.
  assert (I : In (k, p) (map_to_list (st_pools s))) by (by apply elem_of_list_In, elem_of_map_to_list). specialize (H I).
  destruct (st_pools s' !! k) as [p'|]; [|done]. exists p'. split; [done|]. apply andb_prop in H as [H HP]. apply andb_prop in H as [H H3]. apply andb_prop in H as [H1 H2].
  split; [lia|]. split; [lia|]. split; [lia|]. intros x po Ex K NM. rewrite forallb_forall in HP. specialize (HP (x, po)). cbn beta iota in HP.
  assert (Ix : In (x, po) (map_to_list (st_positions s))) by (by apply elem_of_list_In, elem_of_map_to_list). specialize (HP Ix).
  rewrite (bool_decide_eq_true_2 (po_key po = k)), (bool_decide_eq_false_2 (x ∈ mine)) in HP by done. cbn in HP. destruct (st_positions s' !! x) as [po'|]; [|done]. exists po'. split; [done|].
  apply andb_prop in HP as [HP U2]. apply andb_prop in HP as [HP U1]. unfold same_rangeb in HP. apply andb_prop in HP as [HP S4]. apply andb_prop in HP as [HP S3].
  apply andb_prop in HP as [S1 S2]. apply bool_decide_eq_true in S1. unfold same_range. repeat split; lia || done.
Qed.

(** Without clean trades it is false: carol's two swaps of [C27_cycle_refuted] leave every price, every position, all fees; carol has 49705
    tokeny more.  What they gave for it is tokenx. *)
Definition solo_start (l : list (string * exec_msg)) : res (world * Z) :=
  w_start true v_env 10000000000 ["tokenx"; "tokeny"]%string 1000000000 (map (fun um => (v_info um.1, um.2)) l).
Definition solo (chk : bool) (l : list exec_msg) (w : world) : res (world * Z) := w_run chk v_env (map (fun m => (v_info "carol", m)) l) w 0.
Lemma solo_alone chk (ok : env -> msg_info -> store -> exec_msg -> Prop) l w w' n : (forall i s m, ereach s -> (chk = true -> clean_callb v_env s m = true) -> ok v_env i s m) -> reachable (w_store w) ->
  solo chk l w = Ok (w', n) -> alone ok "self" (e_addr_ok v_env) "carol" w w' n.
Proof.
  intros K R H. replace n with (n - 0) by lia. eapply (w_run_alone chk ok v_env "carol"); [exact K| |done|exact R|exact H].
  clear. induction l as [|m l IH]; [done|]. exact IH.
Qed.
Lemma solo_clean l w n : solo_start l = Ok (w, n) -> clean_history (w_store w).
Proof.
  intros H. unfold solo_start, w_start in H. inv_bind H as s E.
  assert (R : clean_history s) by (by eapply ch_init).
  revert H. match goal with |- w_run _ _ _ ?w0 _ = _ -> _ => change s with (w_store w0) in R; generalize dependent w0 end. generalize 0. clear E s.
  induction l as [|[u m] l IH]; intros n0 w0 R H; cbn [map w_run fst snd] in H; [by injection H as <- _|].
  destruct ((true && negb (clean_callb v_env (w_store w0) m)) || _) eqn:C; [done|]. apply orb_false_iff in C as [C C2]. cbn [andb] in C. apply negb_false_iff in C.
  destruct (world_call _ _ _ _) as [w1 at'| | |] eqn:WC; try done. eapply IH; [|exact H].
  pose proof (clean_history_reachable _ R) as RR. destruct (C84_exchange _ _ _ _ _ _ RR ltac:(by apply String.eqb_neq) WC) as (ms & E1 & _).
  eapply ch_call; [exact R| |exact E1]. apply clean_callb_sound; [by apply reachable_ereach|done].
Qed.
Theorem C87_no_free_lunch_refuted : exists w w' n, clean_history (w_store w) /\ alone true_call "self" (fun _ => true) "carol" w w' n /\ n = 2000 /\
  unharmed [] "tokeny" (w_store w) (w_store w') /\ unharmed [] "tokenx" (w_store w) (w_store w') /\
  wealth (fun _ => true) w' "tokeny" "carol" = wealth (fun _ => true) w "tokeny" "carol" + 49705 /\
  wealth (fun _ => true) w' "tokenx" "carol" = wealth (fun _ => true) w "tokenx" "carol" - 50589.
Proof.
  destruct (done_inv (fun '(w, n) => match solo false [Swap v_key false 50484 false 1000500100010000000000000; Swap v_key true 100520 false SP_ONE] w with
    | Ok (w', n') => n' = 2000 /\ unharmedb [] "tokeny" (w_store w) (w_store w') = true /\
        wealth (fun _ => true) w' "tokeny" "carol" = wealth (fun _ => true) w "tokeny" "carol" + 49705 /\
        wealth (fun _ => true) w' "tokenx" "carol" = wealth (fun _ => true) w "tokenx" "carol" - 50589
    | _ => False end) (solo_start cycle_calls)) as ([w n] & E & X).
  { vm_compute. repeat split; reflexivity. }
  pose proof (solo_clean _ _ _ E) as CH.
  destruct (solo _ _ w) as [[w' n']| |] eqn:S; [|destruct X..]. exists w, w', n'. destruct X as (X1 & X2 & X3 & X4).
  split; [exact CH|]. split; [eapply (solo_alone false true_call); [by intros|exact (clean_history_reachable _ CH)|exact S]|].
  split; [exact X1|]. split; [by apply unharmedb_sound|]. split; [by apply (unharmedb_sound [] "tokenx")|]. split; [exact X3|exact X4].
Qed.
(** carol deposits, trades 40400 tokeny there and back, and withdraws; before the withdrawal they are 50729 tokenx out of pocket and
    their position is worth 50603, afterwards they have 126 less than in the beginning *)
Definition solo_calls : list exec_msg :=
  [CreatePosition v_key (-10) 10 101000000000000 SP_ONE SP_ONE; Swap v_key true 40400 false 999800000000000000000000; Swap v_key false 40408 false SP_ONE].
Example ex_C87 : exists w w1 n1 w2 n2, clean_history (w_store w) /\ st_positions (w_store w) !! ("carol"%string, 0) = None /\
  alone (clean_single (fun _ => true)) "self" (fun _ => true) "carol" w w1 n1 /\ n1 = 3000 /\ unharmed [] "tokenx" (w_store w) (w_store w1) /\
  wealth (fun _ => true) w1 "tokenx" "carol" = wealth (fun _ => true) w "tokenx" "carol" - 50729 /\ worth_now (w_store w1) "tokenx" ("carol"%string, 0) = 50603 /\
  alone (clean_single (fun _ => true)) "self" (fun _ => true) "carol" w1 w2 n2 /\ n2 = 1000 /\ unharmed [("carol"%string, 0)] "tokenx" (w_store w1) (w_store w2) /\
  wealth (fun _ => true) w2 "tokenx" "carol" = wealth (fun _ => true) w "tokenx" "carol" - 126.
Proof.
  destruct (done_inv (fun '(w, n) => match st_positions (w_store w) !! ("carol"%string, 0) with None => true | _ => false end = true /\ match solo true solo_calls w with
    | Ok (w1, n1) => n1 = 3000 /\ unharmedb [] "tokenx" (w_store w) (w_store w1) = true /\
        wealth (fun _ => true) w1 "tokenx" "carol" = wealth (fun _ => true) w "tokenx" "carol" - 50729 /\ worth_now (w_store w1) "tokenx" ("carol"%string, 0) = 50603 /\
        match solo true [RemovePosition 0] w1 with
        | Ok (w2, n2) => n2 = 1000 /\ unharmedb [("carol"%string, 0)] "tokenx" (w_store w1) (w_store w2) = true /\
           wealth (fun _ => true) w2 "tokenx" "carol" = wealth (fun _ => true) w "tokenx" "carol" - 126
        | _ => False end
    | _ => False end) (solo_start cycle_calls)) as ([w n] & E & X0 & X).
  { vm_compute. repeat split; reflexivity. }
  pose proof (solo_clean _ _ _ E) as CH. pose proof (clean_history_reachable _ CH) as R.
  destruct (solo _ _ w) as [[w1 n1]| |] eqn:S; [|destruct X..]. destruct X as (X1 & X2 & X3 & X4 & X).
  destruct (solo _ _ w1) as [[w2 n2]| |] eqn:S2; [|destruct X..]. destruct X as (X5 & X6 & X7). exists w, w1, n1, w2, n2.
  assert (KK : forall i s m, ereach s -> (true = true -> clean_callb v_env s m = true) -> clean_single (fun _ => true) v_env i s m).
  { intros i s m Rs C. split; [apply clean_callb_sound; [done|by apply C]|by destruct m]. }
  pose proof (solo_alone true _ _ _ _ _ KK R S) as A1.
  assert (R1 : reachable (w_store w1)) by (by eapply alone_reach).
  pose proof (solo_alone true _ _ _ _ _ KK R1 S2) as A2.
  split; [exact CH|]. split; [destruct (st_positions (w_store w) !! _); [discriminate X0|done]|]. split; [exact A1|]. split; [exact X1|].
  split; [by apply unharmedb_sound|]. split; [exact X3|]. split; [exact X4|]. split; [exact A2|]. split; [exact X5|]. split; [by apply unharmedb_sound|exact X7].
Qed.
