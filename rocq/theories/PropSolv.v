(** C15: what the contract holds covers everything it owes. *)
From Verif Require Import Base Decimal SqrtPrice Clamm Log FeeGrowth Types Tick Pool Position
  Tickmap Keys State Swap Exec Query Tactics PriceProofs ClammProofs Frame Handlers History Basic Ledger Vectors Scenario
  SwapGeo SwapLoop Modify PSum LiqInv Geo Ops Clean PropLiq Growth Value Fund Flow.
From stdpp Require Import gmap strings.
From Coq Require Import Lia.
Open Scope Z_scope.

(** ** What is owed *)
(** tokens in a position of liquidity [l] (6 decimals) between the prices [lo] and [hi] (24 decimals) at the price [p], rounded down:
    y is liquidity times price difference, x is liquidity times difference of the reciprocal prices *)
Definition worth_y (l p lo hi : Z) : Z := let c := Z.max lo (Z.min p hi) in l * (c - lo) / 10 ^ 30.
Definition worth_x (l p lo hi : Z) : Z := let c := Z.max lo (Z.min p hi) in l * (hi - c) * 10 ^ 18 / (c * hi).
(** fees per unit of liquidity collected between two ticks, from the three counters, modulo 2^128 *)
Definition collected (current global lower outl upper outu : Z) : Z :=
  (global - (if lower <=? current then outl else global - outl) - (if current <? upper then outu else global - outu)) mod 2 ^ 128.
Definition due_x (s : store) (p : pool) (po : position) : Z :=
  match st_ticks s !! (po_key po, po_lower po), st_ticks s !! (po_key po, po_upper po) with
  | Some l, Some u =>
      worth_x (po_liq po) (p_price p) (tprice (po_lower po)) (tprice (po_upper po)) + po_owedx po
      + (collected (p_tick p) (p_fgx p) (po_lower po) (t_fox l) (po_upper po) (t_fox u) - po_fgx po) mod 2 ^ 128 * po_liq po / 10 ^ 34
  | _, _ => 0
  end.
Definition due_y (s : store) (p : pool) (po : position) : Z :=
  match st_ticks s !! (po_key po, po_lower po), st_ticks s !! (po_key po, po_upper po) with
  | Some l, Some u =>
      worth_y (po_liq po) (p_price p) (tprice (po_lower po)) (tprice (po_upper po)) + po_owedy po
      + (collected (p_tick p) (p_fgy p) (po_lower po) (t_foy l) (po_upper po) (t_foy u) - po_fgy po) mod 2 ^ 128 * po_liq po / 10 ^ 34
  | _, _ => 0
  end.
(** everything pool [k] owes, in its token x and its token y *)
Definition owes_x (s : store) (k : pool_key) : Z :=
  match st_pools s !! k with
  | Some p => p_protx p + psum (fun po => if decide (po_key po = k) then due_x s p po else 0) (st_positions s)
  | None => 0
  end.
Definition owes_y (s : store) (k : pool_key) : Z :=
  match st_pools s !! k with
  | Some p => p_proty p + psum (fun po => if decide (po_key po = k) then due_y s p po else 0) (st_positions s)
  | None => 0
  end.
Definition owes (s : store) (T : string) (k : pool_key) : Z :=
  (if String.eqb (pk_x k) T then owes_x s k else 0) + (if String.eqb (pk_y k) T then owes_y s k else 0).

Lemma worth_y_val pr po : pos_valid po -> UNIT * worth_y (po_liq po) pr (tprice (po_lower po)) (tprice (po_upper po)) <= val false pr po.
Proof.
  intros V. unfold worth_y, val, pf, clampp. set (c := Z.max _ _). set (lo := tprice (po_lower po)).
  pose proof (floor_spec (po_liq po * (c - lo)) E30 ltac:(reflexivity)) as [F _]. change (10 ^ 30) with E30.
  set (q := _ / E30) in *. change UNIT with (E52 * E30). rewrite <- Z.mul_assoc.
  transitivity (E52 * (po_liq po * (c - lo))); [apply Z.mul_le_mono_nonneg_l; [discriminate|exact F]|]. lia.
Qed.
Lemma worth_x_val pr po : pos_valid po -> UNIT * worth_x (po_liq po) pr (tprice (po_lower po)) (tprice (po_upper po)) <= val true pr po.
Proof.
  intros (V1 & V2 & V3 & V4). unfold worth_x, val, pf, clampp.
  assert (PL := legal_price_range _ _ V2). assert (PU := legal_price_range _ _ V3). assert (OP := legal_price_lt _ _ _ V2 V3 V4).
  assert (M0 : 0 < MIN_SQRT_PRICE) by done.
  set (lo := tprice (po_lower po)) in *. set (hi := tprice (po_upper po)) in *. set (c := Z.max lo (Z.min pr hi)).
  assert (C : lo <= c <= hi) by (unfold c; lia).
  replace (rho c - (rho hi - 1)) with (rho c - rho hi + 1) by lia. apply x_down_covered; [lia|lia|lia|].
  pose proof (floor_spec (po_liq po * (hi - c) * E18) (c * hi) ltac:(nia)) as [F _]. change (10 ^ 18) with E18. lia.
Qed.
Lemma collected_inside b c G l u : collected c G (t_index l) (fo b l) (t_index u) (fo b u) = inside b c G l u.
Proof.
  unfold collected, inside, fee_growth_inside, wsub. change (2 ^ 128) with U128. rewrite Zminus_mod_idemp_l.
  destruct (t_index l <=? c), (c <? t_index u); [done|..].
  - by rewrite Zminus_mod_idemp_r.
  - rewrite !(Zminus_mod (G - _)), (Zminus_mod G ((G - fo b l) mod U128)), Zmod_mod, <- (Zminus_mod G). done.
  - rewrite Zminus_mod_idemp_r. rewrite !(Zminus_mod (G - _)), (Zminus_mod G ((G - fo b l) mod U128)), Zmod_mod, <- (Zminus_mod G). done.
Qed.
Lemma pend_unit b T c G po : 0 <= pend b T c G po -> UNIT * (pend b T c G po / 10 ^ 34) <= E48 * pend b T c G po.
Proof.
  intros H. pose proof (floor_spec (pend b T c G po) E34 ltac:(reflexivity)) as [F _]. change (10 ^ 34) with E34.
  set (q := Z.div (pend b T c G po) E34) in *. change UNIT with (E48 * E34). rewrite <- Z.mul_assoc. apply Z.mul_le_mono_nonneg_l; [discriminate|exact F].
Qed.

Lemma due_fund s (b : bool) k p x po : liq_inv s -> st_positions s !! x = Some po -> po_key po = k ->
  UNIT * (if b then due_x s p po else due_y s p po)
  <= val b (p_price p) po + E48 * pend b (st_ticks s) (p_tick p) (fg b p) po + UNIT * owed b po.
Proof.
  intros LI E K. destruct (lq_pos _ LI _ _ E) as [V _].
  destruct (store_bounded s k LI x po E K) as (_ & _ & l & u & El & Il & Eu & Iu). rewrite <- K in El, Eu.
  assert (P0 : 0 <= pend b (st_ticks s) (p_tick p) (fg b p) po).
  { unfold pend. rewrite El, Eu. apply Z.mul_nonneg_nonneg; [apply grow_range|destruct V; lia]. }
  pose proof (pend_unit _ _ _ _ _ P0) as PU. unfold pend in PU. rewrite El, Eu in PU. unfold grow in PU.
  rewrite <- collected_inside, Il, Iu in PU. unfold due_x, due_y, pend, grow. rewrite El, Eu. rewrite <- collected_inside, Il, Iu.
  destruct b; cbn [fg fo pofg owed] in *.
  - pose proof (worth_x_val (p_price p) po V). change (2 ^ 128) with U128. lia.
  - pose proof (worth_y_val (p_price p) po V). change (2 ^ 128) with U128. lia.
Qed.
Lemma owes_fund s (b : bool) k : liq_inv s -> UNIT * (if b then owes_x s k else owes_y s k) <= funds b s k.
Proof.
  intros LI. unfold owes_x, owes_y, funds. destruct (st_pools s !! k) as [p|]; [|by destruct b].
  transitivity (UNIT * (prot b p + psum (fun po => at_key k po (if b then due_x s p po else due_y s p po)) (st_positions s))).
  { destruct b; cbn [prot]; apply Z.eq_le_incl; do 2 f_equal; apply psum_ext; intros; reflexivity. }
  unfold fund, vals, pends, oweds.
  assert (S : psum (fun po => UNIT * at_key k po (if b then due_x s p po else due_y s p po)) (st_positions s)
     <= psum (fun po => at_key k po (val b (p_price p) po) + E48 * at_key k po (pend b (st_ticks s) (p_tick p) (fg b p) po) + UNIT * at_key k po (owed b po)) (st_positions s)).
  { apply psum_le. intros x po E. unfold at_key. destruct (decide (po_key po = k)) as [K|]; [|lia]. by eapply due_fund. }
  rewrite !psum_add, !psum_scale in S. lia.
Qed.
(** ** Money in and out of the contract *)
Definition sent1 (T : string) (m : out_msg) : Z :=
  match m with
  | Cw20Transfer t _ v | BankSend _ t v => if String.eqb t T then v else 0
  | _ => 0
  end.
Definition received1 (self T : string) (m : out_msg) : Z :=
  match m with Cw20TransferFrom t _ r v => if String.eqb t T && String.eqb r self then v else 0 | _ => 0 end.
Definition sent (T : string) (ms : list out_msg) : Z := sumZ (map (sent1 T) ms).
Definition received (self T : string) (ms : list out_msg) : Z := sumZ (map (received1 self T) ms).
Lemma sent_app T l l' : sent T (l ++ l') = sent T l + sent T l'.
Proof. unfold sent. by rewrite map_app, sumZ_app. Qed.
Lemma received_app self T l l' : received self T (l ++ l') = received self T l + received self T l'.
Proof. unfold received. by rewrite map_app, sumZ_app. Qed.
Lemma sent_transfer e i t v T : sent T (asset_transfer e i t v) = if String.eqb t T then v else 0.
Proof.
  unfold asset_transfer. destruct (Z.eqb_spec v 0) as [->|]; [cbn; by destruct (String.eqb t T)|].
  destruct (e_addr_ok e t); cbn; destruct (String.eqb t T); lia.
Qed.
Lemma received_transfer e i t v T self : received self T (asset_transfer e i t v) = 0.
Proof. unfold asset_transfer. destruct (v =? 0); [done|]. by destruct (e_addr_ok e t). Qed.

(** coins a native token adds to the contract with a call *)
Definition brought (e : env) (i : msg_info) (T : string) : Z := if e_addr_ok e T then 0 else attached i T.

Lemma brought_nonneg e i T : env_typed e i = true -> 0 <= brought e i T.
Proof.
  unfold env_typed, brought, attached. intros H. destruct (e_addr_ok e T); [lia|].
  destruct (List.find _ (i_funds i)) as [c|] eqn:F; [|lia]. apply List.find_some in F. destruct F as [F _].
  apply andb_prop in H. destruct H as [_ H]. rewrite forallb_forall in H. specialize (H _ F). unfold u128_ok in H. apply andb_prop in H. lia.
Qed.
Lemma move_net e i t v m T : move e i t v m ->
  (if String.eqb t T then v else 0)
  <= received (e_self e) T m - sent T m + (if String.eqb t T && (0 <? v) then brought e i T else 0).
Proof.
  intros [[V0 H]|[V0 ->]].
  - unfold asset_transfer_from in H. destruct (Z.eqb_spec v 0) as [->|N].
    { apply Ok_inj in H. subst m. cbn. rewrite andb_false_r. destruct (String.eqb t T); lia. }
    rewrite (proj2 (Z.ltb_lt 0 v)) by lia. rewrite andb_true_r. destruct (String.eqb_spec t T) as [->|NT].
    + unfold brought. destruct (e_addr_ok e T).
      * apply Ok_inj in H. subst m. cbn. rewrite !String.eqb_refl. cbn. lia.
      * unfold attached. destruct (List.find _ _) as [c|]; [|done]. destruct (Z.leb_spec v (c_amount c)); [|done].
        apply Ok_inj in H. subst m. destruct (Z.eqb_spec (c_amount c - v) 0); unfold received, sent; cbn; rewrite ?String.eqb_refl; lia.
    + apply String.eqb_neq in NT. destruct (e_addr_ok e t).
      * apply Ok_inj in H. subst m. cbn. rewrite NT. cbn. lia.
      * destruct (List.find _ _) as [c|]; [|done]. destruct (Z.leb_spec v (c_amount c)); [|done].
        apply Ok_inj in H. subst m. destruct (Z.eqb_spec (c_amount c - v) 0); cbn; rewrite ?NT; lia.
  - rewrite received_transfer, sent_transfer. rewrite (proj2 (Z.ltb_ge 0 v)) by lia. rewrite andb_false_r. destruct (String.eqb t T); lia.
Qed.
Definition used (k : pool_key) (T : string) (dx dy : Z) : bool :=
  (String.eqb (pk_x k) T && (0 <? dx)) || (String.eqb (pk_y k) T && (0 <? dy)).
Lemma moves_net e i k ms dx dy T : pk_x k <> pk_y k -> moves e i k ms dx dy ->
  (if String.eqb (pk_x k) T then dx else 0) + (if String.eqb (pk_y k) T then dy else 0)
  <= received (e_self e) T ms - sent T ms + (if used k T dx dy then brought e i T else 0).
Proof.
  intros N (mx & my & MX & MY & MS). apply (move_net _ _ _ _ _ T) in MX. apply (move_net _ _ _ _ _ T) in MY.
  assert (RS : received (e_self e) T ms = received (e_self e) T mx + received (e_self e) T my /\ sent T ms = sent T mx + sent T my).
  { destruct MS as [->| ->]; rewrite received_app, sent_app; lia. }
  destruct RS as [-> ->]. unfold used. destruct (String.eqb_spec (pk_x k) T) as [E1|E1], (String.eqb_spec (pk_y k) T) as [E2|E2]; try congruence;
    cbn [andb orb] in *; rewrite ?orb_false_r; lia.
Qed.

(** ** Sums over pools *)
Definition tfund (T : string) (s : store) (k : pool_key) : Z :=
  (if String.eqb (pk_x k) T then funds true s k else 0) + (if String.eqb (pk_y k) T then funds false s k else 0).
Definition total (f : pool_key -> Z) (l : list pool_key) : Z := sumZ (map f l).
Lemma total_le f g l : (forall k, k ∈ l -> f k <= g k) -> total f l <= total g l.
Proof.
  unfold total. induction l as [|k l IH]; intros H; cbn; [lia|]. pose proof (H k ltac:(left)).
  assert (sumZ (map f l) <= sumZ (map g l)) by (apply IH; intros; apply H; by right). unfold sumZ in *. lia.
Qed.
Lemma total_change f g l k d : NoDup l -> k ∈ l -> (forall k', k' <> k -> g k' = f k') -> g k <= f k + d -> total g l <= total f l + d.
Proof.
  unfold total. induction l as [|a l IH]; intros ND I O H; [by apply elem_of_nil in I|]. apply NoDup_cons in ND. destruct ND as [NI ND]. cbn.
  destruct (decide (a = k)) as [->|N].
  - assert (total g l <= total f l); [|unfold total, sumZ in *; lia]. apply total_le. intros k' I'. rewrite O; [done|]. by intros ->.
  - assert (k ∈ l) by (apply elem_of_cons in I; destruct I; [congruence|done]).
    assert (sumZ (map g l) <= sumZ (map f l) + d) by (by apply IH). rewrite (O a) by done. unfold sumZ in *. lia.
Qed.
Lemma total_cons f k l : total f (k :: l) = f k + total f l.
Proof. done. Qed.
Lemma tfund_nonneg T s k : ereach s -> 0 <= tfund T s k.
Proof. intros R. unfold tfund. pose proof (funds_nonneg true s k R). pose proof (funds_nonneg false s k R). destruct (String.eqb _ _), (String.eqb _ _); lia. Qed.

(** the contract covers, up to [c], what the pools of any list owe *)
Definition covers (s : store) (T : string) (c : Z) : Prop := forall l, NoDup l -> total (tfund T s) l <= c.
Lemma covers_step e i s s' ms k dx dy n T c : ereach s' -> 0 <= n -> step_fund e i s s' ms k dx dy n -> covers s T c ->
  covers s' T (c + UNIT * (received (e_self e) T ms - sent T ms + (if used k T dx dy then brought e i T else 0)) + n * LOSS).
Proof.
  intros R' N0 [O TH M KD] C.
  set (g := (if String.eqb (pk_x k) T then dx else 0) + (if String.eqb (pk_y k) T then dy else 0)).
  assert (G : g <= received (e_self e) T ms - sent T ms + (if used k T dx dy then brought e i T else 0)).
  { destruct M as [(x & o & t & a & -> & -> & ->)|M]; [|by apply moves_net].
    unfold g, used. rewrite !andb_false_r. cbn. destruct (String.eqb _ _), (String.eqb _ _); lia. }
  set (z := received (e_self e) T ms - sent T ms + _) in *. clearbody z.
  assert (OT : forall k', k' <> k -> tfund T s' k' = tfund T s k') by (intros k' Nk; unfold tfund; by rewrite !O).
  assert (DT : tfund T s' k <= tfund T s k + (UNIT * g + n * LOSS)).
  { pose proof (TH true) as X. pose proof (TH false) as Y. unfold tfund, g. cbn [loss] in X, Y.
    assert (0 <= n * LOSS) by (apply Z.mul_nonneg_nonneg; [done|discriminate]).
    destruct (String.eqb_spec (pk_x k) T), (String.eqb_spec (pk_y k) T); try congruence; lia. }
  assert (UG : UNIT * g <= UNIT * z) by (apply Z.mul_le_mono_nonneg_l; [discriminate|exact G]).
  intros l ND.
  assert (IN : forall l, NoDup l -> k ∈ l -> total (tfund T s') l <= c + UNIT * z + n * LOSS).
  { intros l' ND' I. specialize (C l' ND'). pose proof (total_change _ _ _ _ _ ND' I OT DT). lia. }
  destruct (decide (k ∈ l)) as [I|I]; [by apply IN|].
  specialize (IN (k :: l) ltac:(by constructor) ltac:(left)). rewrite total_cons in IN. pose proof (tfund_nonneg T s' k R'). lia.
Qed.

(** ** Balances of the contract *)
(** the token a hop of a route takes from the caller *)
Definition hop_in (h : swap_hop) : string := if hop_x_to_y h then pk_x (hop_key h) else pk_y (hop_key h).
Fixpoint hops_in (T : string) (hops : list swap_hop) : Z :=
  match hops with [] => 0 | h :: r => (if String.eqb (hop_in h) T then 1 else 0) + hops_in T r end.
(** no native coin is the input of two hops of the same route *)
Definition single_use (V : string -> bool) (m : exec_msg) : Prop :=
  match m with SwapRoute _ _ _ hops => forall T, V T = false -> hops_in T hops <= 1 | _ => True end.
(** upper bound for the iterations of swap loops in a call *)
Definition cost (e : env) (m : exec_msg) : Z :=
  match m with SwapRoute _ _ _ hops => (1 + Z.of_nat (length hops)) * effort e | _ => effort e end.

(** Histories of successful calls together with the balances of the contract: each call adds the native coins that come with it,
    the CW20 tokens its messages pull into the contract, and subtracts what its messages send.  Anybody may send the contract tokens.
    [V] tells CW20 addresses from native denominations; [ok] restricts the calls considered. *)
Inductive accounts (ok : env -> msg_info -> store -> exec_msg -> Prop) (self : string) (V : string -> bool) :
  store -> (string -> Z) -> Z -> Prop :=
| ac_init i f s : instantiate i f = Ok s -> accounts ok self V s (fun _ => 0) 0
| ac_gift s bal n T v : accounts ok self V s bal n -> 0 <= v -> accounts ok self V s (fun t => bal t + (if String.eqb t T then v else 0)) n
| ac_call e i s m s' ms at' bal n : accounts ok self V s bal n -> ok e i s m -> execute e i s m = Ok (s', ms, at') ->
    e_self e = self -> (forall t, e_addr_ok e t = V t) -> i_sender i <> self ->
    accounts ok self V s' (fun t => bal t + brought e i t + received self t ms - sent t ms) (n + cost e m).

Lemma effort_pos e : 1 <= effort e.
Proof. unfold effort. lia. Qed.
Lemma used_le e i k T dx dy : env_typed e i = true -> (if used k T dx dy then brought e i T else 0) <= brought e i T.
Proof. intros H. pose proof (brought_nonneg e i T H). destruct (used _ _ _ _); lia. Qed.
Lemma covers_le s T c c' : c <= c' -> covers s T c -> covers s T c'.
Proof. intros L C l ND. specialize (C l ND). lia. Qed.
Lemma ceffect_covers e i s s' ms T c : env_typed e i = true -> creach s -> ceffect e i s s' ms -> covers s T c ->
  covers s' T (c + UNIT * (brought e i T + received (e_self e) T ms - sent T ms) + effort e * LOSS).
Proof.
  intros TY R H C. assert (R' : creach s') by (by eapply cr_step).
  destruct (ceffect_fund _ _ _ _ _ R H) as (k & dx & dy & F). pose proof (effort_pos e).
  eapply covers_le; [|eapply (covers_step _ _ _ _ _ _ _ _ _ T c); [by apply creach_ereach| |exact F|exact C]; lia].
  assert (UNIT * (received (e_self e) T ms - sent T ms + (if used k T dx dy then brought e i T else 0)) <= UNIT * (brought e i T + received (e_self e) T ms - sent T ms)); [|lia].
  apply Z.mul_le_mono_nonneg_l; [discriminate|]. pose proof (used_le e i k T dx dy TY). lia.
Qed.
Lemma hop_covers e i s k (d : bool) a by_in lim s' ms r T c : env_typed e i = true -> creach s -> 0 <= a <= U128MAX -> 0 <= lim <= U128MAX ->
  swap_internal e i s k d a by_in lim = Ok (s', ms, r) -> clean_swap e s k d a by_in lim -> covers s T c ->
  covers s' T (c + UNIT * ((if String.eqb (if d then pk_x k else pk_y k) T then 1 else 0) * brought e i T + received (e_self e) T ms - sent T ms) + effort e * LOSS).
Proof.
  intros TY R Ha Hl H CS C. assert (R' : creach s') by (eapply cr_step; [exact R|]; eapply ce_swap; [exact Ha|exact Hl|exact H|exact CS]).
  destruct (swap_fund _ _ _ _ _ _ _ _ _ _ _ (creach_ereach _ R) (creach_act _ R) Ha H CS) as [F (I & Fe & p & _ & IN & I0 & F0 & O0 & _)].
  apply (step_fund_weak _ _ _ _ _ _ _ _ _ (effort e)) in F; [|unfold effort; lia]. pose proof (effort_pos e).
  eapply covers_le; [|eapply (covers_step _ _ _ _ _ _ _ _ _ T c); [by apply creach_ereach| |exact F|exact C]; lia].
  set (u := used _ _ _ _).
  assert (UL : (if u then brought e i T else 0) <= (if String.eqb (if d then pk_x k else pk_y k) T then 1 else 0) * brought e i T).
  { pose proof (brought_nonneg e i T TY). unfold u, used, flow. destruct d; cbn [Bool.eqb].
    - rewrite (proj2 (Z.ltb_ge 0 (- cr_out r))) by lia. rewrite andb_false_r, orb_false_r.
      destruct (String.eqb _ _); cbn [andb]; [|lia]. destruct (0 <? cr_in r); lia.
    - rewrite (proj2 (Z.ltb_ge 0 (- cr_out r))) by lia. rewrite andb_false_r. cbn [orb].
      destruct (String.eqb _ _); cbn [andb]; [|lia]. destruct (0 <? cr_in r); lia. }
  set (w := _ * brought e i T) in *. clearbody w.
  assert (UNIT * (received (e_self e) T ms - sent T ms + (if u then brought e i T else 0)) <= UNIT * (w + received (e_self e) T ms - sent T ms)); [|lia].
  apply Z.mul_le_mono_nonneg_l; [discriminate|]. lia.
Qed.
Lemma route_covers e i T hops : env_typed e i = true -> forall s a s' ms out c, creach s -> 0 <= a <= U128MAX -> clean_hops e i s a hops ->
  swap_route_internal e i s a hops = Ok (s', ms, out) -> covers s T c ->
  covers s' T (c + UNIT * (hops_in T hops * brought e i T + received (e_self e) T ms - sent T ms) + Z.of_nat (length hops) * effort e * LOSS).
Proof.
  intros TY. induction hops as [|h hops IH]; intros s a s' ms out c R Ha CH H C; cbn in H.
  - simplify_eq. eapply covers_le; [|exact C]. cbn. lia.
  - inv_bind H as [[s1 m1] r] E. inv_bind H as [[s2 m2] o] E2. apply Ok_inj in H. simplify_eq. destruct CH as [C1 C2].
    assert (HL : 0 <= hop_limit (hop_x_to_y h) <= U128MAX) by (destruct (hop_x_to_y h); cbn; unfold MIN_SQRT_PRICE, MAX_SQRT_PRICE, U128MAX; lia).
    pose proof (hop_covers _ _ _ _ _ _ _ _ _ _ _ T c TY R Ha HL E C1 C) as CV. fold (hop_in h) in CV.
    assert (R1 : creach s1) by (eapply cr_step; [exact R|]; eapply ce_swap; [exact Ha|exact HL|exact E|exact C1]).
    assert (HA : 0 <= cr_out r <= U128MAX) by (apply swap_internal_inv in E as (E & _); apply calculate_swap_out in E; tauto).
    specialize (IH _ _ _ _ _ _ R1 HA (C2 _ _ _ E) E2 CV). eapply covers_le; [|exact IH].
    rewrite received_app, sent_app. cbn [hops_in length]. rewrite Nat2Z.inj_succ. lia.
Qed.

Lemma accounts_covers V self s bal n : accounts (fun e i s m => clean_call e i s m /\ single_use V m) self V s bal n ->
  creach s /\ 0 <= n /\ forall T, covers s T (UNIT * bal T + n * LOSS).
Proof.
  induction 1 as [i f s H|s bal n T v _ (R & N & C) Hv|e i s m s' ms at' bal n _ (R & N & C) [CC SU] H SE VE _].
  - split; [eapply cr_init, H|]. split; [lia|]. intros T l _. apply instantiate_inv in H. destruct H as [-> _].
    assert (total (tfund T (mkStore (mkConfig (i_sender i) [] f) ∅ ∅ ∅ ∅ ∅ ∅)) l = 0) as ->; [|lia].
    induction l as [|k l IH]; [done|]. rewrite total_cons, IH. unfold tfund, funds. cbn. rewrite lookup_empty. by destruct (String.eqb _ _), (String.eqb _ _).
  - split; [done|]. split; [done|]. intros t. eapply covers_le; [|apply (C t)].
    assert (0 <= UNIT) by discriminate. destruct (String.eqb t T); nia.
  - assert (TY : env_typed e i = true) by (unfold execute in H; destruct (env_typed e i); done).
    assert (CE : forall T, ceffect e i s s' ms -> covers s' T (UNIT * (bal T + brought e i T + received self T ms - sent T ms) + (n + effort e) * LOSS)).
    { intros T X. eapply covers_le; [|eapply (ceffect_covers _ _ _ _ _ T); [exact TY|exact R|exact X|apply (C T)]]. subst self. lia. }
    pose proof (effort_pos e).
    apply execute_split in H. destruct H as [H|[(k & d & a & by_in & lim & r & -> & Ha & Hl & H)|(a & x & sl & hops & out & -> & Ha & H)]].
    + assert (X : ceffect e i s s' ms) by (by apply ce_other).
      assert (CO : effort e <= cost e m) by (destruct m; cbn [cost]; nia || lia).
      split; [by eapply cr_step|]. split; [lia|]. intros T. eapply covers_le; [|apply (CE T X)].
      assert (0 <= LOSS) by discriminate. nia.
    + assert (X : ceffect e i s s' ms) by (eapply ce_swap; [exact Ha|exact Hl|exact H|exact CC]).
      split; [by eapply cr_step|]. cbn [cost]. split; [lia|]. intros T. apply (CE T X).
    + split; [by eapply clean_hops_creach|]. cbn [cost]. split; [lia|]. intros T.
      eapply covers_le; [|eapply (route_covers _ _ T hops TY); [exact R|exact Ha|exact CC|exact H|apply (C T)]].
      assert (HB : hops_in T hops * brought e i T <= brought e i T).
      { pose proof (brought_nonneg e i T TY) as B0. destruct (V T) eqn:VT.
        - unfold brought. rewrite VE, VT. lia.
        - specialize (SU T VT). nia. }
      assert (0 <= effort e * LOSS) by (apply Z.mul_nonneg_nonneg; [lia|discriminate]).
      subst self. set (w := hops_in T hops * brought e i T) in *. clearbody w.
      assert (UNIT * (w + received (e_self e) T ms - sent T ms) <= UNIT * (brought e i T + received (e_self e) T ms - sent T ms)); [|lia].
      apply Z.mul_le_mono_nonneg_l; [discriminate|lia].
Qed.

Lemma total_owes s T l : liq_inv s -> UNIT * total (owes s T) l <= total (tfund T s) l.
Proof.
  intros LI. unfold total. induction l as [|k l IH]; cbn; [lia|].
  assert (UNIT * owes s T k <= tfund T s k); [|unfold sumZ in *; lia].
  pose proof (owes_fund s true k LI) as X. pose proof (owes_fund s false k LI) as Y. unfold owes, tfund. cbn beta iota in X, Y.
  destruct (String.eqb _ _), (String.eqb _ _); lia.
Qed.

(** What holds: if every swap was clean (crossed every initialized tick it passed) and no route took the same native coin in two
    hops, then at every moment the contract's balance of every token covers what all pools owe in that token, provided the swap
    loops ran less than 10^14 times in total (each run may give away up to 10^-14 of one token x by rounding). *)
Theorem C15_contract_solvent_partial V self s bal n :
  accounts (fun e i s m => clean_call e i s m /\ single_use V m) self V s bal n -> n < 10 ^ 14 ->
  forall T l, NoDup l -> sumZ (map (owes s T) l) <= bal T.
Proof.
  intros H N T l ND. destruct (accounts_covers _ _ _ _ _ H) as (R & N0 & C). specialize (C T l ND).
  pose proof (total_owes s T l (ereach_liq _ (creach_ereach _ R))) as Q. change (sumZ (map (owes s T) l)) with (total (owes s T) l).
  assert (n * LOSS < UNIT).
  { apply Z.lt_le_trans with (10 ^ 14 * LOSS); [apply Z.mul_lt_mono_pos_r; [reflexivity|exact N]|vm_compute; discriminate]. }
  set (z := total (owes s T) l) in *. clearbody z. set (c := total _ _) in *. clearbody c.
  assert (UNIT * z < UNIT * (bal T + 1)) by lia. apply Z.mul_lt_mono_pos_l in H1; [lia|reflexivity].
Qed.

(** ** Pool by pool *)
(** the pool whose tokens a call moves *)
Definition call_pool (i : msg_info) (s : store) (m : exec_msg) : option pool_key :=
  match m with
  | WithdrawProtocolFee k | CreatePosition k _ _ _ _ _ | Mint k _ _ _ _ _ | Swap k _ _ _ _ => Some k
  | ClaimFee ix | RemovePosition ix => option_map po_key (st_positions s !! (i_sender i, ix))
  | Burn tid => match split_token tid with Some (_, ix) => option_map po_key (st_positions s !! (i_sender i, ix)) | None => None end
  | _ => None
  end.
Definition is_route (m : exec_msg) : bool := match m with SwapRoute _ _ _ _ => true | _ => false end.

Lemma call_fund e i s m s' ms at' : creach s -> clean_call e i s m -> is_route m = false -> execute e i s m = Ok (s', ms, at') ->
  exists k dx dy, step_fund e i s s' ms k dx dy (effort e) /\
    (call_pool i s m = Some k \/ call_pool i s m = None /\ (ms = [] \/ exists c o t x, ms = [NftReceive c o t x])).
Proof.
  intros R CC NR H. pose proof (creach_ereach _ R) as R0. pose proof (effort_pos e) as EP.
  pose proof (execute_split _ _ _ _ _ _ _ H) as X.
  assert (R' : ereach s').
  { destruct X as [X|[(k & d & a & by_in & lim & r & -> & Ha & Hl & X)|(a & x & sl & hops & out & -> & _)]]; [..|done].
    - eapply er_step; [exact R0|]. by apply effect0_effect.
    - eapply er_step; [exact R0|]. eapply ef_swap; [exact Ha|exact Hl|exact X]. }
  unfold execute in H. destruct (env_typed e i && msg_typed m) eqn:ET; [|done].
  apply andb_true_iff in ET. destruct ET as [_ ET].
  assert (NONE : call_pool i s m = None -> (ms = [] \/ exists c o t x, ms = [NftReceive c o t x]) ->
     exists k dx dy, step_fund e i s s' ms k dx dy (effort e) /\
     (call_pool i s m = Some k \/ call_pool i s m = None /\ (ms = [] \/ exists c o t x, ms = [NftReceive c o t x]))).
  { intros N M. destruct X as [X|[(k & d & a & by_in & lim & r & -> & _)|(a & x & sl & hops & out & -> & _)]]; [..|done|done].
    destruct (effect0_fund _ _ _ _ _ R0 X) as (k & dx & dy & F). exists k, dx, dy. split; [by eapply step_fund_weak|]. by right. }
  assert (REM : forall ix, remove_position_exec e i s ix = Ok (s', ms, at') -> option_map po_key (st_positions s !! (i_sender i, ix)) = call_pool i s m ->
     exists k dx dy, step_fund e i s s' ms k dx dy (effort e) /\
     (call_pool i s m = Some k \/ call_pool i s m = None /\ (ms = [] \/ exists c o t x, ms = [NftReceive c o t x]))).
  { intros ix Q C. destruct (remove_fund _ _ _ _ _ _ _ R0 R' Q) as (po & dx & dy & E & F). exists (po_key po), dx, dy.
    split; [by eapply step_fund_weak|]. left. rewrite <- C, E. done. }
  assert (CRE : forall k l u q sl su, 0 <= q <= U128MAX -> create_position e i s k l u q sl su = Ok (s', ms, at') -> call_pool i s m = Some k ->
     exists k dx dy, step_fund e i s s' ms k dx dy (effort e) /\
     (call_pool i s m = Some k \/ call_pool i s m = None /\ (ms = [] \/ exists c o t x, ms = [NftReceive c o t x]))).
  { intros k l u q sl su Hq Q C. destruct (create_fund _ _ _ _ _ _ _ _ _ _ _ _ R0 Hq Q) as (dx & dy & F). exists k, dx, dy.
    split; [by eapply step_fund_weak|]. by left. }
  destruct m; cbn [dispatch] in H; cbn [msg_typed] in ET.
  - apply NONE; [done|left]. unfold change_admin in H. rinv H; by simplify_eq.
  - unfold withdraw_protocol_fee, get_pool in H. destruct (st_pools s !! k) as [p|] eqn:E; [|done]. cbn [bind] in H.
    destruct (negb _); [done|]. apply Ok_inj in H. injection H as <- <- <-. eexists k, _, _. split; [|by left].
    eapply step_fund_weak; [|by apply withdraw_fund]. lia.
  - apply NONE; [done|left]. unfold change_protocol_fee in H. rinv H; by simplify_eq.
  - apply NONE; [done|left]. unfold change_fee_receiver in H. rinv H; by simplify_eq.
  - repeat (apply andb_true_iff in ET; destruct ET as [ET ?]). eapply CRE; [|exact H|done]. by apply in_range_spec.
  - unfold swap in H. inv_bind H as [[s1 m1] r] E. apply Ok_inj in H. injection H as -> -> <-.
    repeat (apply andb_true_iff in ET; destruct ET as [ET ?]). assert (Ha : 0 <= amount <= U128MAX) by (by apply in_range_spec).
    destruct (swap_fund _ _ _ _ _ _ _ _ _ _ _ R0 (creach_act _ R) Ha E CC) as [F _]. eexists k, _, _. split; [|by left].
    eapply step_fund_weak; [|exact F]. unfold effort. lia.
  - done.
  - apply NONE; [done|left]. unfold transfer_position in H. inv_bind H as po E1. inv_bind H as [s1 po1] E2. destruct (negb _); [done|]. inv_bind H as s2 E3. apply Ok_inj in H. by simplify_eq.
  - destruct (claim_fund _ _ _ _ _ _ _ R0 H) as (po & dx & dy & E & F). exists (po_key po), dx, dy.
    split; [by eapply step_fund_weak|]. left. cbn. by rewrite E.
  - by eapply REM.
  - apply NONE; [done|left]. unfold create_pool in H. destruct (negb _); [done|]. inv_bind H as [] E1. inv_bind H as k E2. inv_bind H as b E3.
    destruct (st_pools s !! k); [done|]. inv_bind H as p E4. apply Ok_inj in H. by simplify_eq.
  - apply NONE; [done|left]. unfold add_fee_tier in H. rinv H; by simplify_eq.
  - apply NONE; [done|left]. unfold remove_fee_tier in H. rinv H; by simplify_eq.
  - apply NONE; [done|left]. unfold handle_transfer_nft in H. inv_bind H as s1 E. apply Ok_inj in H. by simplify_eq.
  - repeat (apply andb_true_iff in ET; destruct ET as [ET ?]). eapply CRE; [|exact H|done]. by apply in_range_spec.
  - unfold handle_burn in H. inv_bind H as po EG. destruct (split_token token_id) as [[o ix]|] eqn:ST; [|done].
    inv_bind H as [] EC. eapply REM; [exact H|]. cbn. by rewrite ST.
  - apply NONE; [done|right]. unfold handle_send_nft in H. inv_bind H as s1 E. apply Ok_inj in H. simplify_eq. eauto.
  - apply NONE; [done|left]. unfold handle_approve in H. inv_bind H as s1 E. apply Ok_inj in H. by simplify_eq.
  - apply NONE; [done|left]. unfold handle_revoke in H. inv_bind H as s1 E. apply Ok_inj in H. by simplify_eq.
  - apply NONE; [done|left]. unfold handle_approve_all in H. rinv H; by simplify_eq.
  - apply NONE; [done|left]. unfold handle_revoke_all in H. rinv H; by simplify_eq.
Qed.

(** The money of one pool [k] of two CW20 tokens: a call that works on [k] adds what its messages pull into the contract
    in the tokens of [k] and subtracts what they send; routes are taken hop by hop. *)
Inductive books (self : string) (k : pool_key) : store -> Z -> Z -> Z -> Prop :=
| bk_init i f s : instantiate i f = Ok s -> books self k s 0 0 0
| bk_call e i s m s' ms at' x y n : books self k s x y n -> clean_call e i s m -> is_route m = false ->
    execute e i s m = Ok (s', ms, at') ->
    e_self e = self -> e_addr_ok e (pk_x k) = true -> e_addr_ok e (pk_y k) = true -> i_sender i <> self ->
    books self k s' (x + (if decide (call_pool i s m = Some k) then received self (pk_x k) ms - sent (pk_x k) ms else 0))
                    (y + (if decide (call_pool i s m = Some k) then received self (pk_y k) ms - sent (pk_y k) ms else 0)) (n + effort e)
| bk_hop e i s k' d a by_in lim s' ms r x y n : books self k s x y n -> 0 <= a <= U128MAX -> 0 <= lim <= U128MAX ->
    clean_swap e s k' d a by_in lim -> swap_internal e i s k' d a by_in lim = Ok (s', ms, r) ->
    e_self e = self -> e_addr_ok e (pk_x k) = true -> e_addr_ok e (pk_y k) = true -> i_sender i <> self ->
    books self k s' (x + (if decide (k' = k) then received self (pk_x k) ms - sent (pk_x k) ms else 0))
                    (y + (if decide (k' = k) then received self (pk_y k) ms - sent (pk_y k) ms else 0)) (n + effort e).

Lemma step_pool e i s s' ms k0 dx dy n k b : step_fund e i s s' ms k0 dx dy n ->
  e_addr_ok e (pk_x k) = true -> e_addr_ok e (pk_y k) = true ->
  funds b s' k <= funds b s k + UNIT * (if decide (k0 = k) then received (e_self e) (tok b k) ms - sent (tok b k) ms else 0) + n * loss b \/ n < 0.
Proof.
  intros [O TH M KD] VX VY. destruct (Z.lt_ge_cases n 0) as [N|N]; [by right|left].
  assert (0 <= n * loss b) by (apply Z.mul_nonneg_nonneg; [done|apply loss_nonneg]).
  destruct (decide (k0 = k)) as [->|NK]; [|rewrite O by congruence; lia].
  specialize (TH b). set (T := tok b k).
  assert (G : (if b then dx else dy) <= received (e_self e) T ms - sent T ms).
  { destruct M as [(x & o & t & a & -> & -> & ->)|M]; [cbn; destruct b; lia|].
    apply (moves_net _ _ _ _ _ _ T KD) in M. unfold brought in M.
    assert (VT : e_addr_ok e T = true) by (unfold T; by destruct b). rewrite VT in M.
    assert (ZZ : (if used k T dx dy then 0 else 0) = 0) by (by destruct (used _ _ _ _)). rewrite ZZ in M.
    unfold T in M |- *. destruct b; cbn [tok] in *; rewrite String.eqb_refl in M.
    - rewrite (proj2 (String.eqb_neq (pk_y k) (pk_x k))) in M by congruence. lia.
    - rewrite (proj2 (String.eqb_neq (pk_x k) (pk_y k))) in M by congruence. lia. }
  assert (UNIT * (if b then dx else dy) <= UNIT * (received (e_self e) T ms - sent T ms)) by (apply Z.mul_le_mono_nonneg_l; [discriminate|exact G]).
  lia.
Qed.
Lemma books_covered self k s x y n : books self k s x y n ->
  creach s /\ 0 <= n /\ forall b, funds b s k <= UNIT * (if b then x else y) + n * loss b.
Proof.
  induction 1 as [i f s H|e i s m s' ms at' x y n _ (R & N & C) CC NR H SE VX VY _|e i s k' d a by_in lim s' ms r x y n _ (R & N & C) Ha Hl CS H SE VX VY _].
  - split; [eapply cr_init, H|]. split; [lia|]. intros b. apply instantiate_inv in H. destruct H as [-> _]. unfold funds. cbn. rewrite lookup_empty. by destruct b.
  - assert (R' : creach s').
    { pose proof (execute_split _ _ _ _ _ _ _ H) as X.
      destruct X as [X|[(k1 & d & a & by_in & lim & r & -> & Ha & Hl & X)|(a & x1 & sl & hops & out & -> & _)]]; [..|done].
      - eapply cr_step; [exact R|]. by apply ce_other.
      - eapply cr_step; [exact R|]. eapply ce_swap; [exact Ha|exact Hl|exact X|exact CC]. }
    pose proof (effort_pos e) as EP. split; [done|]. split; [lia|]. intros b.
    destruct (call_fund _ _ _ _ _ _ _ R CC NR H) as (k0 & dx & dy & F & W).
    destruct (step_pool _ _ _ _ _ _ _ _ _ k b F VX VY) as [Q|Q]; [|lia]. specialize (C b). subst self.
    assert (EQ : (if decide (call_pool i s m = Some k) then received (e_self e) (tok b k) ms - sent (tok b k) ms else 0)
        = (if decide (k0 = k) then received (e_self e) (tok b k) ms - sent (tok b k) ms else 0)).
    { destruct W as [W|[W M]].
      - rewrite W. destruct (decide (k0 = k)) as [->|NK]; [by rewrite decide_True|]. rewrite decide_False by congruence. done.
      - rewrite W. rewrite decide_False by congruence. destruct (decide (k0 = k)); [|done].
        destruct M as [->|(c & o & t & z & ->)]; done. }
    rewrite <- EQ in Q. destruct b; cbn [tok] in *; lia.
  - assert (R' : creach s') by (eapply cr_step; [exact R|]; eapply ce_swap; [exact Ha|exact Hl|exact H|exact CS]).
    pose proof (effort_pos e) as EP. split; [done|]. split; [lia|]. intros b.
    destruct (swap_fund _ _ _ _ _ _ _ _ _ _ _ (creach_ereach _ R) (creach_act _ R) Ha H CS) as [F _].
    apply (step_fund_weak _ _ _ _ _ _ _ _ _ (effort e)) in F; [|unfold effort; lia].
    destruct (step_pool _ _ _ _ _ _ _ _ _ k b F VX VY) as [Q|Q]; [|lia]. specialize (C b). subst self.
    destruct b; cbn [tok] in *; lia.
Qed.

(** What holds for one pool after a clean history: its token y is covered exactly, without any allowance;
    its token x as long as swap loops ran less than 10^14 times. *)
Theorem C15_pool_solvent_partial self k s x y n : books self k s x y n ->
  owes_y s k <= y /\ (n < 10 ^ 14 -> owes_x s k <= x).
Proof.
  intros H. destruct (books_covered _ _ _ _ _ _ H) as (R & N0 & C). pose proof (ereach_liq _ (creach_ereach _ R)) as LI.
  pose proof (owes_fund s true k LI) as OX. pose proof (owes_fund s false k LI) as OY. cbn beta iota in OX, OY.
  pose proof (C true) as CX. pose proof (C false) as CY. cbn [loss] in CX, CY. split.
  - assert (UNIT * owes_y s k <= UNIT * y) by lia. apply Z.mul_le_mono_pos_l in H0; [lia|reflexivity].
  - intros N. assert (n * LOSS < UNIT).
    { apply Z.lt_le_trans with (10 ^ 14 * LOSS); [apply Z.mul_lt_mono_pos_r; [reflexivity|exact N]|vm_compute; discriminate]. }
    assert (UNIT * owes_x s k < UNIT * (x + 1)) by lia. apply Z.mul_lt_mono_pos_l in H1; [lia|reflexivity].
Qed.
(** ... and every history of calls as in [C15_contract_solvent_partial] has such books. *)
Lemma route_books self k e i hops : e_self e = self -> e_addr_ok e (pk_x k) = true -> e_addr_ok e (pk_y k) = true -> i_sender i <> self ->
  forall s a s' ms out x y n, books self k s x y n -> 0 <= a <= U128MAX -> clean_hops e i s a hops ->
  swap_route_internal e i s a hops = Ok (s', ms, out) -> exists x' y', books self k s' x' y' (n + Z.of_nat (length hops) * effort e).
Proof.
  intros SE VX VY NS. induction hops as [|h hops IH]; intros s a s' ms out x y n B Ha CH H; cbn in H.
  - simplify_eq. exists x, y. replace (n + Z.of_nat (length []) * effort e) with n by (cbn; lia). done.
  - inv_bind H as [[s1 m1] r] E. inv_bind H as [[s2 m2] o] E2. apply Ok_inj in H. simplify_eq. destruct CH as [C1 C2].
    assert (HL : 0 <= hop_limit (hop_x_to_y h) <= U128MAX) by (destruct (hop_x_to_y h); cbn; unfold MIN_SQRT_PRICE, MAX_SQRT_PRICE, U128MAX; lia).
    assert (HA : 0 <= cr_out r <= U128MAX) by (pose proof E as E0; apply swap_internal_inv in E0 as (E0 & _); apply calculate_swap_out in E0; tauto).
    pose proof (bk_hop _ _ e i _ _ _ _ _ _ _ _ _ _ _ _ B Ha HL C1 E eq_refl VX VY NS) as B1.
    destruct (IH _ _ _ _ _ _ _ _ B1 HA (C2 _ _ _ E) E2) as (x' & y' & B2). exists x', y'.
    replace (n + Z.of_nat (length (h :: hops)) * effort e) with (n + effort e + Z.of_nat (length hops) * effort e) by (cbn [length]; lia). done.
Qed.
Theorem C15_books_exist V self s bal n k : accounts (fun e i s m => clean_call e i s m /\ single_use V m) self V s bal n ->
  V (pk_x k) = true -> V (pk_y k) = true -> exists x y n', n' <= n /\ books self k s x y n'.
Proof.
  intros A VX VY. induction A as [i f s H|s bal n T v _ IH Hv|e i s m s' ms at' bal n _ IH [CC SU] H SE VE NS].
  - exists 0, 0, 0. split; [lia|]. eapply bk_init, H.
  - exact IH.
  - destruct IH as (x & y & n' & L & B). pose proof (effort_pos e) as EP. pose proof VX as VX'. pose proof VY as VY'. rewrite <- VE in VX', VY'.
    destruct (is_route m) eqn:NR.
    + destruct m; try done. pose proof (execute_split _ _ _ _ _ _ _ H) as X.
      unfold execute in H. destruct (env_typed e i && msg_typed _) eqn:ET; [|done].
      apply andb_true_iff in ET. destruct ET as [_ ET]. cbn [dispatch] in H. cbn [msg_typed] in ET.
      unfold swap_route in H. inv_bind H as [[s1 m1] r] E. inv_bind H as min EM. destruct (_ <? _); [done|].
      apply Ok_inj in H. simplify_eq. repeat (apply andb_true_iff in ET; destruct ET as [ET ?]).
      assert (AI : 0 <= amount_in <= U128MAX) by (apply Z.leb_le in ET; match goal with Q : (amount_in <=? U128MAX) = true |- _ => apply Z.leb_le in Q; lia end).
      destruct (route_books _ k e i swaps eq_refl VX' VY' NS _ _ _ _ _ _ _ _ B AI CC E) as (x' & y' & B').
      eexists x', y', _. split; [|exact B']. cbn [cost]. lia.
    + pose proof (bk_call _ _ _ _ _ _ _ _ _ _ _ _ B CC NR H SE VX' VY' NS) as B'. eexists _, _, _. split; [|exact B'].
      assert (cost e m = effort e) as -> by (by destruct m). lia.
Qed.

(** ** Concrete histories *)
Fixpoint ac_run (chk : bool) (e : env) (l : list (msg_info * exec_msg)) (s : store) (bal : string -> Z) (n : Z) : res (store * (string -> Z) * Z) :=
  match l with
  | [] => Ok (s, bal, n)
  | (i, m) :: l' =>
      if (chk && negb (clean_callb e s m)) || String.eqb (i_sender i) (e_self e) then Err StdErr
      else let* '(s', ms, _) := execute e i s m in
           ac_run chk e l' s' (fun t => bal t + brought e i t + received (e_self e) t ms - sent t ms) (n + cost e m)
  end.
Lemma ac_run_accounts (chk : bool) (ok : env -> msg_info -> store -> exec_msg -> Prop) e l : (forall i s m, ereach s -> (chk = true -> clean_callb e s m = true) -> ok e i s m) ->
  forall s bal n s' bal' n', ereach s -> accounts ok (e_self e) (e_addr_ok e) s bal n -> ac_run chk e l s bal n = Ok (s', bal', n') ->
  accounts ok (e_self e) (e_addr_ok e) s' bal' n'.
Proof.
  intros K. induction l as [|[i m] l IH]; intros s bal n s' bal' n' R A H; cbn [ac_run] in H; [by simplify_eq|].
  destruct ((chk && negb (clean_callb e s m)) || String.eqb (i_sender i) (e_self e)) eqn:C; [done|].
  apply orb_false_iff in C. destruct C as [C1 C2]. inv_bind H as [[s1 ms] at'] E.
  assert (R1 : ereach s1).
  { apply execute_effects in E. clear - R E. induction E as [|s s1 s2 m1 m2 X Y IH]; [done|]. apply IH. by eapply er_step. }
  eapply IH; [exact R1| |exact H]. eapply ac_call; [exact A| |exact E|done|done|by apply String.eqb_neq].
  apply K; [done|]. intros ->. cbn in C1. by destruct (clean_callb e s m).
Qed.
Definition ac_start (chk : bool) (e : env) (f : Z) (l : list (msg_info * exec_msg)) : res (store * (string -> Z) * Z) :=
  let* s := instantiate (v_info "alice") f in ac_run chk e l s (fun _ => 0) 0.
Definition true_call (e : env) (i : msg_info) (s : store) (m : exec_msg) : Prop := True.
Definition clean_single (V : string -> bool) (e : env) (i : msg_info) (s : store) (m : exec_msg) : Prop := clean_call e i s m /\ single_use V m.
Lemma ac_start_true e f l s bal n : ac_start false e f l = Ok (s, bal, n) -> accounts true_call (e_self e) (e_addr_ok e) s bal n.
Proof.
  unfold ac_start. intros H. inv_bind H as s0 E. eapply (ac_run_accounts false true_call e l); [done| | |exact H].
  - eapply er_init, E.
  - eapply ac_init, E.
Qed.
Lemma ac_start_clean e f l s bal n : ac_start true e f l = Ok (s, bal, n) -> accounts (clean_single (e_addr_ok e)) (e_self e) (e_addr_ok e) s bal n.
Proof.
  unfold ac_start. intros H. inv_bind H as s0 E. eapply (ac_run_accounts true (clean_single (e_addr_ok e)) e l); [| | |exact H].
  - intros i s1 m R C. specialize (C eq_refl). split; [by apply clean_callb_sound|]. by destruct m.
  - eapply er_init, E.
  - eapply ac_init, E.
Qed.
(** tokenx is a CW20 token, orai a native coin *)
Definition o_env : env := mkEnv 1 1000000000 "self" 1000 (fun t => negb (String.eqb t "orai")) (fun _ => true).
Definition o_key : pool_key := mkPoolKey "orai" "tokenx" v_tier.
Definition with_orai (a : string) (v : Z) : msg_info := mkInfo a [mkCoin "orai" v].
Definition o_calls : list (msg_info * exec_msg) :=
  [(v_info "alice", AddFeeTier v_tier);
   (v_info "alice", CreatePool "tokenx" "orai" v_tier SP_ONE 0);
   (with_orai "alice" 30000, CreatePosition o_key (-10) 10 20006000000000 SP_ONE SP_ONE);
   (with_orai "bob" 5000, CreatePosition o_key (-30) 30 3000000000000 SP_ONE SP_ONE);
   (with_orai "carol" 4000, Swap o_key true 3000 true MIN_SQRT_PRICE);
   (v_info "carol", Swap o_key false 1500 false MAX_SQRT_PRICE);
   (v_info "bob", ClaimFee 0);
   (v_info "alice", RemovePosition 0)]%string.
Lemma done_inv {A} (P : A -> Prop) (r : res A) : match r with Ok x => P x | _ => False end -> exists x, r = Ok x /\ P x.
Proof. destruct r; [eauto|done..]. Qed.
Example C15_contract_example : exists s bal n, accounts (clean_single (e_addr_ok o_env)) "self" (e_addr_ok o_env) s bal n /\
  n = 8000 /\ bal "orai"%string = 4693 /\ sumZ (map (owes s "orai") [o_key]) = 4690 /\ bal "tokenx"%string = 4307 /\ sumZ (map (owes s "tokenx") [o_key]) = 4304.
Proof.
  destruct (done_inv (fun '(s, bal, n) => n = 8000 /\ bal "orai"%string = 4693 /\ sumZ (map (owes s "orai") [o_key]) = 4690 /\
     bal "tokenx"%string = 4307 /\ sumZ (map (owes s "tokenx") [o_key]) = 4304) (ac_start true o_env 10000000000 o_calls)) as ([[s bal] n] & E & X).
  { vm_compute. repeat split; reflexivity. }
  exists s, bal, n. exact (conj (ac_start_clean _ _ _ _ _ _ E) X).
Qed.

(** ** What does not hold *)
(** dave provides liquidity in a second pool of the same tokens; nothing ever happens there.  bob adds 200000000 liquidity between
    the ticks 10 and 30 of the first pool, worth 199791 tokenx, and moves the price twice: exactly to tick 10 and exactly to tick 30,
    each time with that price as limit, paying 505 + 1008 tokeny for 499 + 998 tokenx out of a small position of their own.
    Neither tick is crossed, so the large position is never traded against, but closing it now pays 200190 tokeny.
    The contract is left with 301674 tokeny and owes dave 499850. *)
Definition thin_tier : fee_tier := mkFeeTier 6000000000 1.
Definition thin_key : pool_key := mkPoolKey "tokenx" "tokeny" thin_tier.
Definition theft_calls : list (msg_info * exec_msg) :=
  [(v_info "alice", AddFeeTier v_tier); (v_info "alice", AddFeeTier thin_tier);
   (v_info "alice", CreatePool "tokeny" "tokenx" v_tier SP_ONE 0);
   (v_info "alice", CreatePool "tokeny" "tokenx" thin_tier SP_ONE 0);
   (v_info "dave", CreatePosition thin_key (-10) 10 1000000000000000 SP_ONE SP_ONE);
   (v_info "bob", CreatePosition v_key (-10) 40 1000000000000 SP_ONE SP_ONE);
   (v_info "bob", CreatePosition v_key 10 30 200000000000000 SP_ONE SP_ONE);
   (v_info "bob", Swap v_key false 499 false 1000500100010000000000000);
   (v_info "bob", Swap v_key false 998 false 1001501050455000000000000);
   (v_info "bob", RemovePosition 1)]%string.
Theorem C15_solvent_refuted : exists s bal n, accounts true_call "self" (fun _ => true) s bal n /\
  n = 10000 /\ bal "tokenx"%string = 700143 /\ bal "tokeny"%string = 301674 /\ owes_y s thin_key = 499850.
Proof.
  destruct (done_inv (fun '(s, bal, n) => n = 10000 /\ bal "tokenx"%string = 700143 /\ bal "tokeny"%string = 301674 /\ owes_y s thin_key = 499850)
     (ac_start false v_env 10000000000 theft_calls)) as ([[s bal] n] & E & X).
  { vm_compute. repeat split; reflexivity. }
  exists s, bal, n. exact (conj (ac_start_true _ _ _ _ _ _ E) X).
Qed.

(** A route that takes the same native coin twice gets the unused part back twice: bob attaches 1000000 orai to a route
    orai -> tokenx -> orai -> tokenx and gets almost all of it back twice. *)
Definition refund_calls : list (msg_info * exec_msg) :=
  [(v_info "alice", AddFeeTier v_tier);
   (v_info "alice", CreatePool "tokenx" "orai" v_tier SP_ONE 0);
   (with_orai "alice" 30000000, CreatePosition o_key (-10) 10 20006000000000000 SP_ONE SP_ONE);
   (with_orai "bob" 1000000, SwapRoute 100 1 0 [mkHop o_key true; mkHop o_key false; mkHop o_key true])]%string.
Theorem C15_double_refund_refuted : exists s bal n, accounts true_call "self" (e_addr_ok o_env) s bal n /\
  n = 7000 /\ bal "orai"%string = 9000100 /\ owes_x s o_key = 10000099.
Proof.
  destruct (done_inv (fun '(s, bal, n) => n = 7000 /\ bal "orai"%string = 9000100 /\ owes_x s o_key = 10000099)
     (ac_start false o_env 10000000000 refund_calls)) as ([[s bal] n] & E & X).
  { vm_compute. repeat split; reflexivity. }
  exists s, bal, n. exact (conj (ac_start_true _ _ _ _ _ _ E) X).
Qed.

(** the history of [sc0], for [C15_pool_solvent_partial] *)
Example C15_pool_example : exists s x y n, books "self" v_key s x y n /\ n < 10 ^ 14 /\ owes_x s v_key = 20841 /\ owes_y s v_key = 12015.
Proof.
  destruct (done_inv (fun '(s, bal, n) => n = 8000 /\ owes_x s v_key = 20841 /\ owes_y s v_key = 12015)
     (ac_start true v_env 10000000000 (map (fun '(a, m) => (v_info a, m)) sc0_calls))) as ([[s bal] n] & E & N & X).
  { vm_compute. repeat split; reflexivity. }
  destruct (C15_books_exist (e_addr_ok v_env) "self" s bal n v_key (ac_start_clean _ _ _ _ _ _ E) eq_refl eq_refl) as (x & y & n' & L & B).
  exists s, x, y, n'. split; [exact B|]. split; [subst n; lia|exact X].
Qed.
