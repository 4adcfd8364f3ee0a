(** C60-C62: what the attributes of responses tell a reader. *)
From Verif Require Import Base Decimal SqrtPrice Clamm FeeGrowth Types Tick Pool Position Keys State Swap Exec Event Query Tactics
  KeysProofs Frame Handlers History Basic PosList Ledger Vectors Scenario PropAuth PropQuery PropSwap PropFunds LiqInv SwapGeo Geo Ops Forward Flow PropExit PropSolv PropNft PropPerm.
From stdpp Require Import gmap strings.
From Coq Require Import Lia.
Open Scope Z_scope.

(** ** Reading numbers *)
Definition point : Ascii.ascii := Ascii.ascii_of_N 46.
Definition minus : Ascii.ascii := Ascii.ascii_of_N 45.
Definition digit_value (c : Ascii.ascii) : option Z :=
  let n := Z.of_N (Ascii.N_of_ascii c) in if (48 <=? n) && (n <=? 57) then Some (n - 48) else None.
Fixpoint read_fraction (s : string) (acc : Z) (places : nat) : option (Z * nat) :=
  match s with
  | EmptyString => Some (acc, places)
  | String c r => match digit_value c with Some d => read_fraction r (acc * 10 + d) (S places) | None => None end
  end.
Fixpoint read_whole (s : string) (acc : Z) : option (Z * nat) :=
  match s with
  | EmptyString => Some (acc, O)
  | String c r =>
      if Ascii.eqb c point then read_fraction r acc O
      else match digit_value c with Some d => read_whole r (acc * 10 + d) | None => None end
  end.
(** a sign, digits, a point, digits: the number is the first component over ten to the second *)
Definition read_number (s : string) : option (Z * nat) :=
  match s with
  | String c r => if Ascii.eqb c minus then match read_whole r 0 with Some (n, k) => Some (- n, k) | None => None end else read_whole s 0
  | EmptyString => None
  end.
(** the text denotes [v / 10 ^ scale] *)
Definition denotes (text : string) (v : Z) (scale : nat) : Prop :=
  exists n k, read_number text = Some (n, k) /\ n * 10 ^ Z.of_nat scale = v * 10 ^ Z.of_nat k.

Lemma digit_ok d : 0 <= d < 10 -> digit_value (digit d) = Some d /\ Ascii.eqb (digit d) point = false /\ Ascii.eqb (digit d) minus = false.
Proof.
  intros H. assert (d = 0 \/ d = 1 \/ d = 2 \/ d = 3 \/ d = 4 \/ d = 5 \/ d = 6 \/ d = 7 \/ d = 8 \/ d = 9) as Q by lia.
  repeat (destruct Q as [->|Q]; [done|]). by subst d.
Qed.
(** number of digits printed *)
Fixpoint ndigits (fuel : nat) (n : Z) : nat :=
  match fuel with O => O | S f => if n / 10 =? 0 then 1%nat else S (ndigits f (n / 10)) end.
Lemma read_whole_digits f n acc a : 0 <= n < 10 ^ Z.of_nat f ->
  read_whole (digits f n acc) a = read_whole acc (a * 10 ^ Z.of_nat (ndigits f n) + n).
Proof.
  revert n acc. induction f as [|f IH]; intros n acc H.
  { change (10 ^ Z.of_nat 0) with 1 in H. assert (n = 0) as -> by lia. cbn. f_equal. lia. }
  cbn [digits ndigits]. pose proof (Z.mod_pos_bound n 10 ltac:(lia)) as M. pose proof (Z.div_mod n 10 ltac:(lia)) as DM.
  destruct (digit_ok (n mod 10) M) as (D1 & D2 & _).
  destruct (Z.eqb_spec (n / 10) 0) as [E|E].
  - cbn [read_whole]. rewrite D2, D1. f_equal. change (10 ^ Z.of_nat 1) with 10. lia.
  - rewrite Nat2Z.inj_succ, Z.pow_succ_r in H by lia. rewrite IH.
    + cbn [read_whole]. rewrite D2, D1. f_equal. rewrite Nat2Z.inj_succ, Z.pow_succ_r by lia. nia.
    + split; [apply Z.div_pos; lia|]. apply Z.div_lt_upper_bound; lia.
Qed.
Lemma read_fraction_digits f n acc a p : 0 <= n < 10 ^ Z.of_nat f ->
  read_fraction (digits f n acc) a p = read_fraction acc (a * 10 ^ Z.of_nat (ndigits f n) + n) (p + ndigits f n).
Proof.
  revert n acc. induction f as [|f IH]; intros n acc H.
  { change (10 ^ Z.of_nat 0) with 1 in H. assert (n = 0) as -> by lia. cbn. f_equal; lia. }
  cbn [digits ndigits]. pose proof (Z.mod_pos_bound n 10 ltac:(lia)) as M. pose proof (Z.div_mod n 10 ltac:(lia)) as DM.
  destruct (digit_ok (n mod 10) M) as (D1 & _).
  destruct (Z.eqb_spec (n / 10) 0) as [E|E].
  - cbn [read_fraction]. rewrite D1. f_equal; [|lia]. change (10 ^ Z.of_nat 1) with 10. lia.
  - rewrite Nat2Z.inj_succ, Z.pow_succ_r in H by lia. rewrite IH.
    + cbn [read_fraction]. rewrite D1. f_equal; [|lia]. rewrite Nat2Z.inj_succ, Z.pow_succ_r by lia. nia.
    + split; [apply Z.div_pos; lia|]. apply Z.div_lt_upper_bound; lia.
Qed.
Lemma digits_app f n acc r : digits f n (String.append acc r) = String.append (digits f n acc) r.
Proof.
  revert n acc. induction f as [|f IH]; intros n acc; [done|]. cbn [digits]. destruct (_ =? 0); [done|].
  apply (IH _ (String (digit (n mod 10)) acc)).
Qed.
Lemma fuel_ok n : 0 <= n -> 0 <= n < 10 ^ Z.of_nat (S (Z.to_nat (Z.log2 n))).
Proof.
  intros N. split; [done|]. pose proof (Z.log2_nonneg n). rewrite Nat2Z.inj_succ, Z2Nat.id by done.
  destruct (Z.eq_dec n 0) as [->|]; [done|]. pose proof (Z.log2_spec n ltac:(lia)) as [_ L].
  eapply Z.lt_le_trans; [exact L|]. apply Z.pow_le_mono_l. lia.
Qed.
Lemma read_whole_uint n r a : 0 <= n -> read_whole (String.append (show_uint n) r) a =
  read_whole r (a * 10 ^ Z.of_nat (ndigits (S (Z.to_nat (Z.log2 n))) n) + n).
Proof. intros N. unfold show_uint. rewrite <- digits_app. apply (read_whole_digits _ _ r), fuel_ok, N. Qed.
Lemma append_nil s : String.append s EmptyString = s.
Proof. induction s as [|c s IH]; [done|]. exact (f_equal (String c) IH). Qed.
Lemma append_assoc a b c : String.append (String.append a b) c = String.append a (String.append b c).
Proof. induction a as [|x a IH]; [done|]. exact (f_equal (String x) IH). Qed.
Lemma read_zeros z r a p : read_fraction (String.append (zeros z) r) a p = read_fraction r (a * 10 ^ Z.of_nat z) (p + z).
Proof.
  revert a p. induction z as [|z IH]; intros a p.
  { cbn [zeros String.append]. change (10 ^ Z.of_nat 0) with 1. f_equal; lia. }
  change (read_fraction (String (digit 0) (String.append (zeros z) r)) a p = read_fraction r (a * 10 ^ Z.of_nat (S z)) (p + S z)).
  cbn [read_fraction]. destruct (digit_ok 0 ltac:(lia)) as [D _]. rewrite D, IH, Nat2Z.inj_succ, Z.pow_succ_r by lia.
  f_equal; lia.
Qed.
(** the printed text starts with a digit *)
Lemma digits_head f n acc : exists c r, digits (S f) n acc = String c r /\ Ascii.eqb c minus = false.
Proof.
  revert n acc. induction f as [|f IH]; intros n acc.
  - cbn. pose proof (Z.mod_pos_bound n 10 ltac:(lia)) as M. destruct (digit_ok _ M) as (_ & _ & D). destruct (_ =? 0); eauto.
  - cbn [digits]. destruct (_ =? 0); [|apply IH].
    pose proof (Z.mod_pos_bound n 10 ltac:(lia)) as M. destruct (digit_ok _ M) as (_ & _ & D). eauto.
Qed.
Lemma read_uint n r : read_number (String.append (show_uint n) r) = read_whole (String.append (show_uint n) r) 0.
Proof.
  unfold show_uint. destruct (digits_head (Z.to_nat (Z.log2 n)) n EmptyString) as (c & q & -> & C).
  change (String.append (String c q) r) with (String c (String.append q r)). unfold read_number. by rewrite C.
Qed.
Lemma denotes_uint n : 0 <= n -> denotes (show_uint n) n 0.
Proof.
  intros N. exists n, O. split; [|done]. pose proof (read_uint n EmptyString) as R. rewrite (read_whole_uint _ _ _ N), append_nil in R.
  rewrite R. cbn [read_whole]. rewrite Z.mul_0_l. done.
Qed.
Lemma denotes_int n : denotes (show_int n) n 0.
Proof.
  unfold show_int. destruct (Z.ltb_spec n 0); [|by apply denotes_uint]. exists n, O. split; [|done].
  pose proof (read_whole_uint (- n) EmptyString 0 ltac:(lia)) as R. rewrite append_nil in R. change (String.append "-" (show_uint (- n))) with (String minus (show_uint (- n))). unfold read_number.
  change (Ascii.eqb minus minus) with true. cbn iota. rewrite R. cbn [read_whole]. rewrite Z.mul_0_l, Z.add_0_l, Z.opp_involutive. done.
Qed.
Lemma tail_ndigits f n : 0 < n < 10 ^ Z.of_nat f -> tail_digits f n = ndigits f n.
Proof.
  revert n. induction f as [|f IH]; intros n H; [done|]. cbn [tail_digits ndigits]. rewrite (proj2 (Z.eqb_neq n 0)) by lia.
  rewrite Nat2Z.inj_succ, Z.pow_succ_r in H by lia. destruct (Z.eqb_spec (n / 10) 0) as [E|E].
  - rewrite E. destruct f; [|done]. done.
  - f_equal. apply IH. assert (0 <= n / 10) by (apply Z.div_pos; lia). split; [lia|]. apply Z.div_lt_upper_bound; lia.
Qed.
Lemma ndigits_le f n sc : 0 <= n < 10 ^ Z.of_nat f -> n < 10 ^ Z.of_nat sc -> (1 <= sc)%nat -> (ndigits f n <= sc)%nat.
Proof.
  revert n sc. induction f as [|f IH]; intros n sc H L S; [cbn; lia|]. cbn [ndigits]. destruct (Z.eqb_spec (n / 10) 0) as [E|E]; [lia|].
  destruct sc as [|sc]; [lia|]. rewrite Nat2Z.inj_succ, Z.pow_succ_r in H, L by lia.
  assert (0 < n / 10) by (assert (0 <= n / 10) by (apply Z.div_pos; lia); lia). apply le_n_S, IH.
  - split; [lia|]. apply Z.div_lt_upper_bound; lia.
  - apply Z.div_lt_upper_bound; lia.
  - destruct sc; [|lia]. exfalso. change (10 ^ Z.of_nat 0) with 1 in L. assert (n / 10 < 1) by (apply Z.div_lt_upper_bound; lia). lia.
Qed.
(** Printed decimals read back as the value, whatever the number of places. *)
Lemma denotes_decimal sc v : 0 <= v -> denotes (show_decimal sc v) v sc.
Proof.
  intros V. destruct sc as [|sc']; [by apply denotes_uint|]. set (sc := S sc') in *. cbv [show_decimal]. fold sc. cbn iota.
  change (match sc with O => show_uint v | S _ => ?x end) with x.
  set (one := 10 ^ Z.of_nat sc). assert (O1 : 0 < one) by (apply Z.pow_pos_nonneg; lia).
  pose proof (Z.mod_pos_bound v one O1) as M. pose proof (Z.div_mod v one ltac:(lia)) as DM.
  assert (D0 : 0 <= v / one) by (apply Z.div_pos; lia). set (fr := v mod one) in *. set (w := v / one) in *.
  unfold denotes. rewrite read_uint, read_whole_uint by done. rewrite Z.mul_0_l, Z.add_0_l.
  change (String.append "." ?r) with (String point r). cbn [read_whole]. change (Ascii.eqb point point) with true. cbn iota.
  rewrite read_zeros. unfold show_uint. rewrite read_fraction_digits by (apply fuel_ok; lia). cbn [read_fraction].
  set (F := S (Z.to_nat (Z.log2 fr))) in *. eexists _, _. split; [reflexivity|].
  destruct (Z.eq_dec fr 0) as [Z0|NZ].
  - rewrite Z0 in *. subst F. cbn [Z.log2 Z.to_nat tail_digits Z.eqb ndigits]. change (0 / 10 =? 0) with true. cbn iota.
    rewrite Nat.sub_0_r, Nat.add_0_l, Nat2Z.inj_add, Z.pow_add_r by lia. fold one. lia.
  - assert (FB : 0 <= fr < 10 ^ Z.of_nat F) by (apply fuel_ok; lia). rewrite (tail_ndigits F fr) by lia.
    assert (LE : (ndigits F fr <= sc)%nat) by (apply ndigits_le; [done|apply M|lia]).
    rewrite Nat.add_0_l, Nat.sub_add by done. fold one. rewrite <- Z.mul_assoc, <- Z.pow_add_r by lia.
    rewrite <- Nat2Z.inj_add, Nat.sub_add by done. fold one. lia.
Qed.
Lemma denotes_inj t v v' sc : denotes t v sc -> denotes t v' sc -> v = v'.
Proof.
  intros (n & k & R & E) (n' & k' & R' & E'). rewrite R in R'. injection R' as <- <-.
  assert (0 < 10 ^ Z.of_nat k) by (apply Z.pow_pos_nonneg; lia). nia.
Qed.

(** ** C60 *)
Definition attr (l : list (string * string)) (name : string) : option string :=
  option_map snd (List.find (fun a => String.eqb (fst a) name) l).
(** the attribute is there and denotes [v / 10 ^ scale] *)
Definition tells (l : list (string * string)) (name : string) (v : Z) (scale : nat) : Prop :=
  exists t, attr l name = Some t /\ denotes t v scale.
(** the attributes describe position [po] in a pool with price [price] *)
Definition describes (l : list (string * string)) (act owner : string) (po : position) (price : Z) : Prop :=
  attr l "action" = Some act /\ attr l "address" = Some owner /\
  tells l "liquidity" (po_liq po) 6 /\ tells l "lower_tick" (po_lower po) 0 /\ tells l "upper_tick" (po_upper po) 0 /\
  tells l "current_sqrt_price" price 24.
Lemma event_describes act owner liq lower upper price po : 0 <= liq -> 0 <= price -> po_liq po = liq -> po_lower po = lower -> po_upper po = upper ->
  describes ([("action", act); ("address", owner)]%string ++ map show_attr (position_event liq lower upper price)) act owner po price.
Proof.
  intros L P <- <- <-. split; [done|]. split; [done|].
  assert (D : forall n v, denotes (show_decimal n v) v n -> denotes (show_decimal n v) v n) by done.
  split; [eexists; split; [reflexivity|by apply denotes_decimal]|]. split; [eexists; split; [reflexivity|apply denotes_int]|].
  split; [eexists; split; [reflexivity|apply denotes_int]|]. eexists. split; [reflexivity|by apply denotes_decimal].
Qed.

Lemma from_exact e i t v m : asset_transfer_from e i t v = Ok m -> 0 < v -> charged e i t m = v.
Proof.
  intros H V. unfold charged, asset_transfer_from in *. rewrite (proj2 (Z.eqb_neq v 0)) in H by lia. destruct (e_addr_ok e t).
  - apply Ok_inj in H. subst m. cbn. rewrite !String.eqb_refl. cbn. lia.
  - unfold attached. destruct (List.find _ (i_funds i)) as [c|]; [|done]. destruct (Z.leb_spec v (c_amount c)); [|done].
    apply Ok_inj in H. subst m. destruct (Z.eqb_spec (c_amount c - v) 0); cbn; [lia|]. rewrite !String.eqb_refl. cbn. lia.
Qed.

Lemma pool_price_pos s k p : ereach s -> st_pools s !! k = Some p -> 0 <= p_price p.
Proof.
  intros R E. destruct (ereach_geo _ R _ _ E) as [(G1 & G2 & _) _]. pose proof (legal_price_range _ _ G1) as B. unfold MIN_SQRT_PRICE in B. lia.
Qed.

(** The attributes of a response tell the truth about what the call did: which position was created or removed and at which price, and what
    was charged and paid. *)
Theorem C60_events e i s m s' ms at' : reachable s -> execute e i s m = Ok (s', ms, at') ->
  let l := attributes i m at' in
  match m with
  | CreatePosition k _ _ _ _ _ | Mint k _ _ _ _ _ => exists po p,
      st_positions s' !! (i_sender i, get_position_length s (i_sender i)) = Some po /\ po_key po = k /\ st_pools s' !! k = Some p /\
      describes l "create_position" (i_sender i) po (p_price p)
  | RemovePosition ix => exists po p,
      st_positions s !! (i_sender i, ix) = Some po /\ st_pools s' !! po_key po = Some p /\
      describes l "remove_position" (i_sender i) po (p_price p)
  | Burn t => exists a ix po p,
      t = position_key_bytes a ix /\ st_positions s !! (i_sender i, ix) = Some po /\ st_pools s' !! po_key po = Some p /\
      describes l "remove_position" (i_sender i) po (p_price p)
  | Swap k d _ _ _ => exists total out, tells l "amount_in" total 0 /\ tells l "amount_out" out 0 /\
      paid (i_sender i) (if d then pk_y k else pk_x k) ms = out /\ (0 < total -> charged e i (if d then pk_x k else pk_y k) ms = total)
  | ClaimFee ix => exists po x y, st_positions s !! (i_sender i, ix) = Some po /\ tells l "amount_x" x 0 /\ tells l "amount_y" y 0 /\
      pays (i_sender i) (po_key po) x y ms
  | _ => True
  end.
Proof.
  intros R H l. subst l. assert (R' : reachable s') by (by eapply reach_call). pose proof H as X.
  assert (CR : forall k lo hi liq sl su, create_position e i s k lo hi liq sl su = Ok (s', ms, at') -> 0 <= liq <= U128MAX -> exists po p,
      st_positions s' !! (i_sender i, get_position_length s (i_sender i)) = Some po /\ po_key po = k /\ st_pools s' !! k = Some p /\
      describes ([("action", "create_position"); ("address", i_sender i)]%string ++ map show_attr at') "create_position" (i_sender i) po (p_price p)).
  { clear X H. intros k lo hi liq sl su H HQ. apply reachable_ereach in R, R'. pose proof H as H'.
    apply create_position_inv in H; [|by apply ereach_indexed].
    destruct H as (p0 & lt & ut & po & p' & lt' & ut' & x & y & bm1 & bm2 & m0 & m1 & HL & HN & Ep & Sl & Su & _ & _ & PC & PL & _ & _ & _ & -> & ES).
    exists po, p'. assert (E' : st_positions s' !! (i_sender i, get_position_length s (i_sender i)) = Some po) by (rewrite ES; cbn; apply lookup_insert).
    assert (P' : st_pools s' !! k = Some p') by (rewrite ES; cbn; apply lookup_insert).
    unfold position_create in PC. destruct (_ || _); [done|]. inv_bind PC as [[[[[po1 p1] u1] l1] x1] y1] EM. apply Ok_inj in PC. simplify_eq.
    pose proof (position_modify_liq _ _ _ _ _ _ _ _ _ _ _ _ _ _ EM) as QL. apply position_modify_frame in EM. destruct EM as (_ & _ & _ & _ & _ & _ & _ & _ & _ & K1 & K2 & K3 & _).
    cbn in QL, K1, K2, K3. assert (IX : ticks_indexed s) by (by apply ereach_indexed). apply stored_or_new_index in Sl, Su; [|done..].
    split; [done|]. split; [done|]. split; [done|]. apply event_describes; try congruence; try lia.
    eapply pool_price_pos; [exact R'|exact P']. }
  assert (RM : forall ix, remove_position_exec e i s ix = Ok (s', ms, at') -> exists po p,
      st_positions s !! (i_sender i, ix) = Some po /\ st_pools s' !! po_key po = Some p /\
      describes ([("action", "remove_position"); ("address", i_sender i)]%string ++ map show_attr at') "remove_position" (i_sender i) po (p_price p)).
  { clear X H CR. intros ix H. apply reachable_ereach in R, R'. apply remove_position_exec_inv in H; [|by apply ereach_indexed].
    destruct H as (po & lt & ut & p0 & po' & p' & lt' & ut' & x & y & dl & du & bm1 & bm2 & m' & Epo & _ & _ & _ & Ep & PC & _ & -> & Iu & Il & _ & _ & SR & ES).
    assert (P' : st_pools s' !! po_key po = Some p') by (rewrite ES; cbn; apply lookup_insert).
    exists po, p'. split; [done|]. split; [done|]. destruct (lq_pos _ (ereach_liq _ R) _ _ Epo) as [(V1 & _) _].
    apply event_describes; try done; [lia|]. eapply pool_price_pos; [exact R'|exact P']. }
  unfold execute in H. destruct (env_typed e i && msg_typed m) eqn:ET; [|done]. apply andb_prop in ET. destruct ET as [_ ET].
  assert (U : forall v, u128_ok v = true -> 0 <= v <= U128MAX) by (intros v V; by apply in_range_spec in V).
  destruct m; try exact I; cbn [dispatch] in H; unfold attributes; cbn [echo].
  - eapply CR; [exact H|]. cbn [msg_typed] in ET. repeat (apply andb_prop in ET; destruct ET as [ET ?]). by apply U.
  - destruct (execute_swap_inv _ _ _ _ _ _ _ _ _ _ _ R X) as (r & p & C & -> & Ep & _ & _ & _ & PO).
    unfold swap in H. inv_bind H as [[s1 m1] r1] E. apply Ok_inj in H. injection H as <- <- Q1 Q2.
    exists (cr_in r), (cr_out r). split; [eexists; split; [reflexivity|apply denotes_int]|]. split; [eexists; split; [reflexivity|apply denotes_int]|].
    split; [exact PO|]. intros V. apply swap_internal_inv in E. destruct E as (_ & _ & m0 & AT & ->). rewrite Q1 in AT.
    pose proof (pool_distinct s k (reachable_ereach _ R) ltac:(eauto)) as N. unfold charged. rewrite paid_app, pulled_app, pulled_transfer, paid_transfer.
    assert (String.eqb (if x_to_y then pk_y k else pk_x k) (if x_to_y then pk_x k else pk_y k) = false) as -> by (apply String.eqb_neq; destruct x_to_y; congruence).
    rewrite andb_false_r. pose proof (from_exact _ _ _ _ _ AT V) as FE. unfold charged in FE. destruct (e_addr_ok e _); lia.
  - destruct (C44_claim _ _ _ _ _ _ _ R X) as (po & p & Epo & Ep & PY & -> & _). exists po, (accrued_x s p po), (accrued_y s p po).
    split; [done|]. split; [eexists; split; [reflexivity|apply denotes_int]|]. split; [eexists; split; [reflexivity|apply denotes_int]|]. done.
  - by apply RM.
  - eapply CR; [exact H|]. cbn [msg_typed] in ET. repeat (apply andb_prop in ET; destruct ET as [ET ?]). by apply U.
  - unfold handle_burn in H. inv_bind H as po EG. destruct (split_token token_id) as [[o ix]|] eqn:T; [|done].
    inv_bind H as [] EC. destruct (RM _ H) as (po1 & p & A & B & C). exists o, ix, po1, p. apply split_token_inv in T. destruct T as [T _]. done.
Qed.

(** ** Sums over positions and their owners *)
Definition held (f : string -> position -> Z) (m : gmap (string * Z) position) : Z := map_fold (fun x po acc => f x.1 po + acc) 0 m.
Lemma held_empty f : held f ∅ = 0.
Proof. apply map_fold_empty. Qed.
Lemma held_new f m a j po : m !! (a, j) = None -> held f (<[(a, j) := po]> m) = f a po + held f m.
Proof. intros H. unfold held. rewrite map_fold_insert_L; [done| |done]. intros. lia. Qed.
Lemma held_delete f m a j po : m !! (a, j) = Some po -> held f m = f a po + held f (delete (a, j) m).
Proof. intros H. rewrite <- (insert_delete m (a, j) po H) at 1. rewrite held_new; [done|apply lookup_delete]. Qed.
Lemma held_update f m a j po po' : m !! (a, j) = Some po -> held f (<[(a, j) := po']> m) = held f m - f a po + f a po'.
Proof.
  intros H. rewrite (held_delete f m a j po H). rewrite (held_delete f (<[(a, j) := po']> m) a j po' (lookup_insert _ _ _)).
  rewrite delete_insert_delete. lia.
Qed.
Lemma held_removed f a j n m m' po : m !! (a, j) = Some po -> swap_removed a j n m m' -> held f m' = held f m - f a po.
Proof.
  intros E [(L & last & EL & ->)|(L & ->)].
  - assert ((a, n) <> (a, j)) by (injection; lia).
    rewrite (held_update f _ a j po last) by (rewrite lookup_delete_ne; done). rewrite (held_delete f m a n last EL). lia.
  - rewrite (held_delete f m a j po E). lia.
Qed.

Definition moves (m : exec_msg) : bool := match m with TransferPosition _ _ | TransferNft _ _ | SendNft _ _ _ => true | _ => false end.
(** the position a call creates (+) or takes away (-), as reported *)
Inductive reported (i : msg_info) (m : exec_msg) (at' : list (string * Z)) (s : store) : Z -> position -> Prop :=
| rep_create po p : 0 <= po_liq po -> 0 <= p -> echo i m = [("action", "create_position"); ("address", i_sender i)]%string ->
    at' = position_event (po_liq po) (po_lower po) (po_upper po) p -> reported i m at' s 1 po
| rep_remove po p : 0 <= po_liq po -> 0 <= p -> echo i m = [("action", "remove_position"); ("address", i_sender i)]%string ->
    at' = position_event (po_liq po) (po_lower po) (po_upper po) p -> reported i m at' s (-1) po
| rep_none po act l : echo i m = ("action"%string, act) :: l -> act <> "create_position"%string -> act <> "remove_position"%string -> reported i m at' s 0 po.
Lemma execute_held e i s m s' ms at' : reachable s -> execute e i s m = Ok (s', ms, at') ->
  exists c po, reported i m at' s c po /\
    forall f : string -> position -> Z, (forall o p q, same_record p q -> f o p = f o q) ->
      (moves m = true -> forall a b p, f a p = f b p) ->
      held f (st_positions s') = held f (st_positions s) + c * f (i_sender i) po.
Proof.
  intros R H. pose proof R as R0. apply reachable_ereach in R. pose proof (ereach_pos_ok _ R) as P. pose proof (ereach_indexed _ R) as IX.
  assert (R' : ereach s') by (apply reachable_ereach; by eapply reach_call).
  assert (SM : st_positions s' = st_positions s -> forall po f, held f (st_positions s') = held f (st_positions s) + 0 * f (i_sender i) po) by (intros -> ??; lia).
  assert (CR : forall k lo hi liq sl su, create_position e i s k lo hi liq sl su = Ok (s', ms, at') -> 0 <= liq ->
     echo i m = [("action", "create_position"); ("address", i_sender i)]%string -> exists c po, reported i m at' s c po /\
     forall f : string -> position -> Z, (forall o p q, same_record p q -> f o p = f o q) -> (moves m = true -> forall a b p, f a p = f b p) ->
      held f (st_positions s') = held f (st_positions s) + c * f (i_sender i) po).
  { clear H SM. intros k lo hi liq sl su H HQ EE. apply create_position_inv in H; [|done].
    destruct H as (p0 & lt & ut & po & p' & lt' & ut' & x & y & bm1 & bm2 & m0 & m1 & HL & HN & Ep & Sl & Su & _ & _ & PC & PL & _ & _ & _ & -> & ES).
    assert (P' : st_pools s' !! k = Some p') by (rewrite ES; cbn; apply lookup_insert).
    unfold position_create in PC. destruct (_ || _); [done|]. inv_bind PC as [[[[[po1 p1] u1] l1] x1] y1] EM. apply Ok_inj in PC. injection PC as -> -> -> -> -> ->.
    pose proof (position_modify_liq _ _ _ _ _ _ _ _ _ _ _ _ _ _ EM) as QL. apply position_modify_frame in EM. destruct EM as (_ & _ & _ & _ & _ & _ & _ & _ & _ & K1 & K2 & K3 & _).
    cbn in QL, K1, K2, K3. apply stored_or_new_index in Sl, Su; [|done..]. exists 1, po. split.
    - apply (rep_create _ _ _ _ _ (p_price p')); [lia|by eapply pool_price_pos|done|].
      rewrite QL, K2, K3, Sl, Su. done.
    - intros f _ _. rewrite ES. cbn [st_positions]. rewrite held_new; [lia|]. destruct (st_positions s !! (i_sender i, plen s (i_sender i))) eqn:Q; [|done].
      pose proof (proj1 (ct_some _ _ P (i_sender i) (plen s (i_sender i))) ltac:(eauto)). lia. }
  assert (RM : forall ix, remove_position_exec e i s ix = Ok (s', ms, at') ->
     echo i m = [("action", "remove_position"); ("address", i_sender i)]%string -> exists c po, reported i m at' s c po /\
     forall f : string -> position -> Z, (forall o p q, same_record p q -> f o p = f o q) -> (moves m = true -> forall a b p, f a p = f b p) ->
      held f (st_positions s') = held f (st_positions s) + c * f (i_sender i) po).
  { clear H SM CR. intros ix H EE. apply remove_position_exec_inv in H; [|done].
    destruct H as (po & lt & ut & p0 & po' & p' & lt' & ut' & x & y & dl & du & bm1 & bm2 & m' & Epo & _ & _ & _ & Ep & PC & _ & -> & Iu & Il & _ & _ & SR & ES).
    assert (P' : st_pools s' !! po_key po = Some p') by (rewrite ES; cbn; apply lookup_insert).
    destruct (lq_pos _ (ereach_liq _ R) _ _ Epo) as [(V1 & _) _]. exists (-1), po. split.
    - apply (rep_remove _ _ _ _ _ (p_price p')); [lia|by eapply pool_price_pos|done|done].
    - intros f _ _. rewrite ES. cbn [st_positions]. rewrite (held_removed _ _ _ _ _ _ _ Epo SR). lia. }
  assert (UA : forall a t add x, update_approvals e i s a t add x = Ok s' ->
     forall po f, (forall o p q, same_record p q -> f o p = f o q) -> held f (st_positions s') = held f (st_positions s) + 0 * f (i_sender i) po).
  { clear H SM CR RM. intros a t add x H po0 f C. unfold update_approvals, get_position_by_key, get_position in H.
    destruct (split_token t) as [[o ix]|] eqn:T; [|done]. destruct (st_positions s !! (o, ix)) as [po|] eqn:E; [|done]. cbn [bind] in H. inv_bind H as [] CC.
    inv_bind H as l EL. apply Ok_inj in H. subst s'. cbn [st_positions set_positions]. rewrite (held_update _ _ _ _ _ _ E).
    rewrite (C o po (po_set_approvals po l)) by done. lia. }
  assert (MV : forall o ix po s1 r, remove_position s o ix = Ok (s1, po) -> add_position s1 r (po_set_approvals po []) = Ok s' ->
     forall po f, (forall o p q, same_record p q -> f o p = f o q) -> (forall a b p, f a p = f b p) -> held f (st_positions s') = held f (st_positions s) + 0 * f (i_sender i) po).
  { clear H SM CR RM UA. intros o ix po s1 r E1 E2 po0 f C U. apply remove_position_inv in E1. destruct E1 as (Epo & PL & m' & SR & ->).
    pose proof (pos_fresh_removed s o ix r _ P ltac:(eauto) SR) as FR.
    apply add_position_inv in E2. destruct E2 as [-> _]. cbn [st_positions set_positions].
    assert (LN : plen (set_positions s m' (<[o := plen s o - 1]> (st_poslen s))) r = if decide (r = o) then plen s o - 1 else plen s r).
    { unfold plen, get_position_length. cbn. destruct (decide (r = o)) as [->|N]; [by rewrite lookup_insert|by rewrite lookup_insert_ne]. }
    rewrite LN, held_new; [|exact FR]. rewrite (held_removed _ _ _ _ _ _ _ Epo SR). rewrite (U r o), (C o po (po_set_approvals po [])) by done. lia. }
  assert (po0 : position) by exact (mkPosition (mkPoolKey "" "" (mkFeeTier 0 0)) 0 0 0 0 0 0 0 0 []).
  unfold execute in H. destruct (env_typed e i && msg_typed m) eqn:ET; [|done]. apply andb_prop in ET. destruct ET as [_ ET].
  assert (U : forall v, u128_ok v = true -> 0 <= v) by (intros v V; apply in_range_spec in V; lia).
  assert (TN : forall r t, transfer_nft e i s r t = Ok s' ->
     forall po f, (forall o p q, same_record p q -> f o p = f o q) -> (forall a b p, f a p = f b p) -> held f (st_positions s') = held f (st_positions s) + 0 * f (i_sender i) po).
  { intros r t HT. apply transfer_nft_moved in HT. destruct HT as (o & ix & po & s1 & ST & _ & E & E1 & E2). eapply MV; [exact E1|exact E2]. }
  destruct m; cbn [dispatch] in H.
  5: { eapply CR; [exact H| |done]. cbn [msg_typed] in ET. repeat (apply andb_prop in ET; destruct ET as [ET ?]). by apply U. }
  9: { eapply RM; [exact H|done]. }
  13: { eapply CR; [exact H| |done]. cbn [msg_typed] in ET. repeat (apply andb_prop in ET; destruct ET as [ET ?]). by apply U. }
  13: { unfold handle_burn in H. inv_bind H as po EG. destruct (split_token token_id) as [[o ix]|] eqn:T; [|done]. inv_bind H as [] EC. eapply RM; [exact H|done]. }
  all: exists 0, po0; (split; [by eapply rep_none|]); intros f C MM.
  - apply SM. unfold change_admin in H. rinv H. by simplify_eq.
  - apply SM. unfold withdraw_protocol_fee in H. rinv H. by simplify_eq.
  - apply SM. unfold change_protocol_fee in H. rinv H. by simplify_eq.
  - apply SM. unfold change_fee_receiver in H. rinv H. by simplify_eq.
  - apply SM. unfold swap in H. inv_bind H as [[s1 m1] r] E. apply Ok_inj in H. simplify_eq. apply swap_internal_kept in E; [|done]. apply E.
  - apply SM. unfold swap_route in H. inv_bind H as [[s1 m1] r] E. inv_bind H as min EM. destruct (_ <? _); [done|].
    apply Ok_inj in H. simplify_eq. apply swap_route_internal_kept in E; [|done]. apply E.
  - unfold transfer_position, get_position in H. destruct (st_positions s !! (i_sender i, index)) as [po|] eqn:E; [|done]. cbn [bind] in H.
    inv_bind H as [s1 po1] ER. destruct (negb _); [done|]. inv_bind H as s2 EA. apply Ok_inj in H. injection H as -> _ _.
    assert (po1 = po). { apply remove_position_inv in ER. destruct ER as (E' & _). congruence. } subst po1.
    eapply MV; [exact ER|exact EA|exact C|by apply MM].
  - apply claim_fee_inv in H; [|done]. destruct H as (po & lt & ut & p0 & po' & p' & lt' & ut' & x & y & Epo & _ & _ & _ & Ep & PC & _ & _ & Iu & Il & ES).
    unfold position_claim_fee in PC. inv_bind PC as [[[[[po1 p1] u1] l1] x1] y1] EM. apply Ok_inj in PC. injection PC as EPO _ _ _ _ _.
    pose proof (position_modify_liq _ _ _ _ _ _ _ _ _ _ _ _ _ _ EM) as QL. apply position_modify_frame in EM. destruct EM as (_ & _ & _ & _ & _ & _ & _ & _ & _ & K1 & K2 & K3 & K4 & K5).
    rewrite ES. cbn [st_positions]. rewrite (held_update _ _ _ _ _ _ Epo). rewrite (C _ po po'); [lia|]. subst po'. unfold same_record. cbn. repeat split; try done. rewrite QL. lia.
  - apply SM. unfold create_pool in H. rinv H. by simplify_eq.
  - apply SM. unfold add_fee_tier in H. rinv H. by simplify_eq.
  - apply SM. unfold remove_fee_tier in H. rinv H. by simplify_eq.
  - unfold handle_transfer_nft in H. inv_bind H as s1 E. apply Ok_inj in H. injection H as -> _ _. eapply TN; [exact E|done|by apply MM].
  - unfold handle_send_nft in H. inv_bind H as s1 E. apply Ok_inj in H. injection H as -> _ _. eapply TN; [exact E|done|by apply MM].
  - unfold handle_approve in H. inv_bind H as s1 E. apply Ok_inj in H. injection H as -> _ _. by eapply UA.
  - unfold handle_revoke in H. inv_bind H as s1 E. apply Ok_inj in H. injection H as -> _ _. by eapply UA.
  - apply SM. unfold handle_approve_all in H. rinv H. by simplify_eq.
  - apply SM. unfold handle_revoke_all in H. rinv H. by simplify_eq.
Qed.

(** ** C61, C62: rebuilding liquidity from responses *)
(** a history with the attributes of its successful calls, latest first *)
Inductive logged : store -> list (list (string * string)) -> Prop :=
| log_init i f s : instantiate i f = Ok s -> logged s []
| log_call e i s m s' ms at' l : logged s l -> execute e i s m = Ok (s', ms, at') -> logged s' (attributes i m at' :: l).
Lemma logged_reachable s l : logged s l -> reachable s.
Proof. induction 1; [by eapply reach_init|by eapply reach_call]. Qed.

(** what a reader makes of an attribute: its number in units of [10 ^ -scale] *)
Definition read_attr (ev : list (string * string)) (name : string) (scale : nat) : option Z :=
  match attr ev name with
  | Some t => match read_number t with Some (n, k) => Some (n * 10 ^ Z.of_nat scale / 10 ^ Z.of_nat k) | None => None end
  | None => None
  end.
(** liquidity added to ([lower], [upper]) by the addresses [who], as read from one response *)
Definition added (who : string -> bool) (lower upper : Z) (ev : list (string * string)) : Z :=
  match attr ev "action", attr ev "address", read_attr ev "lower_tick" 0, read_attr ev "upper_tick" 0, read_attr ev "liquidity" 6 with
  | Some act, Some a, Some lo, Some hi, Some liq =>
      if (lo =? lower) && (hi =? upper) && who a
      then if String.eqb act "create_position" then liq else if String.eqb act "remove_position" then - liq else 0
      else 0
  | _, _, _, _, _ => 0
  end.
Fixpoint total (f : list (string * string) -> Z) (l : list (list (string * string))) : Z :=
  match l with [] => 0 | ev :: l => f ev + total f l end.
Definition in_ticks (who : string -> bool) (lower upper : Z) (o : string) (po : position) : Z :=
  if (po_lower po =? lower) && (po_upper po =? upper) && who o then po_liq po else 0.

Lemma tells_read l name v sc : tells l name v sc -> read_attr l name sc = Some v.
Proof.
  intros (t & A & n & k & R & E). unfold read_attr. rewrite A, R, E. rewrite Z.div_mul; [done|]. apply Z.pow_nonzero; lia.
Qed.
Lemma added_reported i m at' s c po who lower upper : reported i m at' s c po ->
  added who lower upper (attributes i m at') = c * in_ticks who lower upper (i_sender i) po.
Proof.
  assert (D : forall act p, 0 <= po_liq po -> 0 <= p -> echo i m = [("action", act); ("address", i_sender i)]%string ->
    at' = position_event (po_liq po) (po_lower po) (po_upper po) p ->
    added who lower upper (attributes i m at') = (if String.eqb act "create_position" then 1 else if String.eqb act "remove_position" then -1 else 0)
      * in_ticks who lower upper (i_sender i) po).
  { intros act p L P E ->. unfold attributes. rewrite E.
    destruct (event_describes act (i_sender i) _ _ _ p po L P eq_refl eq_refl eq_refl) as (D1 & D2 & D3 & D4 & D5 & _).
    unfold added. rewrite D1, D2. rewrite (tells_read _ _ _ _ D3), (tells_read _ _ _ _ D4), (tells_read _ _ _ _ D5).
    unfold in_ticks. destruct (_ && _); [|lia]. destruct (String.eqb act "create_position"); [lia|]. destruct (String.eqb act _); lia. }
  destruct 1 as [po p L P E A|po p L P E A|po act l E N1 N2].
  - exact (D _ p L P E A).
  - exact (D _ p L P E A).
  - unfold added, attributes. rewrite E. cbn [app]. unfold attr at 1. cbn [List.find fst]. rewrite String.eqb_refl. cbn [option_map snd].
    rewrite Z.mul_0_l. repeat case_match; try done; subst; exfalso.
    + apply N1. by apply String.eqb_eq.
    + apply N2. by apply String.eqb_eq.
Qed.
Lemma in_ticks_same who lower upper o p q : same_record p q -> in_ticks who lower upper o p = in_ticks who lower upper o q.
Proof. intros (_ & A & B & C & _). unfold in_ticks. by rewrite A, B, C. Qed.

(** The liquidity added and removed according to the responses is, for each range, the liquidity of all positions with that range. *)
Theorem C61_liquidity_from_events s l lower upper : logged s l ->
  total (added (fun _ => true) lower upper) l = held (in_ticks (fun _ => true) lower upper) (st_positions s).
Proof.
  induction 1 as [i f s H|e i s m s' ms at' l H IH X].
  - apply instantiate_inv in H. destruct H as [-> _]. cbn. by rewrite held_empty.
  - destruct (execute_held _ _ _ _ _ _ _ (logged_reachable _ _ H) X) as (c & po & RP & HD). cbn [total].
    rewrite (HD _ (in_ticks_same _ _ _)); [|done]. rewrite (added_reported _ _ _ _ _ _ _ _ _ RP), IH. lia.
Qed.

(** Missing from C62: positions that changed hands. *)
Inductive unmoved : store -> list (list (string * string)) -> Prop :=
| unm_init i f s : instantiate i f = Ok s -> unmoved s []
| unm_call e i s m s' ms at' l : unmoved s l -> moves m = false -> execute e i s m = Ok (s', ms, at') -> unmoved s' (attributes i m at' :: l).
Theorem C62_holdings_from_events_partial s l a lower upper : unmoved s l ->
  total (added (String.eqb a) lower upper) l = held (in_ticks (String.eqb a) lower upper) (st_positions s).
Proof.
  intros U. assert (L : logged s l) by (induction U; [by eapply log_init|by eapply log_call]). apply logged_reachable in L.
  induction U as [i f s H|e i s m s' ms at' l H IH N X].
  - apply instantiate_inv in H. destruct H as [-> _]. cbn. by rewrite held_empty.
  - assert (L0 : reachable s) by (clear - H; induction H; [by eapply reach_init|by eapply reach_call]).
    destruct (execute_held _ _ _ _ _ _ _ L0 X) as (c & po & RP & HD). cbn [total].
    rewrite (HD _ (in_ticks_same _ _ _)); [|congruence]. rewrite (added_reported _ _ _ _ _ _ _ _ _ RP), (IH L0). lia.
Qed.
Lemma reachable_logged s : reachable s -> exists l, logged s l.
Proof. induction 1 as [i f s H|e i s m s' ms at' H [l IH] X]; eexists; [by eapply log_init|by eapply log_call]. Qed.
Definition moved_to_zed (ix : Z) : res (Z * list (string * string)) :=
  let m := TransferPosition ix "zed"%string in
  let* '(s, _, at') := execute (env_at 3) (v_info "alice") sc0 m in
  Ok (held (in_ticks (String.eqb "alice") (-10) 10) (st_positions s), attributes (v_info "alice") m at').
Lemma moved_to_zed_run ix x l : moved_to_zed ix = Ok (x, l) -> forall l0, logged sc0 l0 ->
  exists s, logged s (l :: l0) /\ held (in_ticks (String.eqb "alice") (-10) 10) (st_positions s) = x.
Proof.
  unfold moved_to_zed. intros H l0 L. inv_bind H as [[s ms] at'] E. apply Ok_inj in H. injection H as <- <-.
  exists s. split; [|done]. by eapply log_call.
Qed.
(** False as stated: giving away one position or another leaves the same responses and different holdings. *)
Theorem C62_holdings_from_events_refuted : exists s1 s2 l a lower upper, logged s1 l /\ logged s2 l /\
  held (in_ticks (String.eqb a) lower upper) (st_positions s1) <> held (in_ticks (String.eqb a) lower upper) (st_positions s2).
Proof.
  destruct (reachable_logged _ sc0_reachable) as [l0 L].
  assert (M0 : moved_to_zed 0 = Ok (0, [("action", "transfer_position")]%string)) by (vm_compute; reflexivity).
  assert (M1 : moved_to_zed 1 = Ok (20006000000000, [("action", "transfer_position")]%string)) by (vm_compute; reflexivity).
  destruct (moved_to_zed_run _ _ _ M0 _ L) as (s1 & L1 & H1). destruct (moved_to_zed_run _ _ _ M1 _ L) as (s2 & L2 & H2).
  exists s1, s2, ([("action", "transfer_position")]%string :: l0), "alice"%string, (-10), 10.
  split; [exact L1|]. split; [exact L2|]. rewrite H1, H2. discriminate.
Qed.

(** bob opens a position and swaps; the responses as text *)
Example ex_C60 : reachable sc0 /\
  match (let m := CreatePosition v_key (-30) 10 700000500000 1 MAX_SQRT_PRICE in
         let* '(_, _, at') := execute (env_at 3) (v_info "bob") sc0 m in Ok (attributes (v_info "bob") m at')) with
  | Ok l => l = [("action", "create_position"); ("address", "bob"); ("liquidity", "700000.500000"); ("lower_tick", "-30"); ("upper_tick", "10");
                 ("current_sqrt_price", "0.999880762839527014734147")]%string
  | _ => False end.
Proof. split; [exact sc0_reachable|]. vm_compute. reflexivity. Qed.
Fixpoint run_log (l : list (string * exec_msg)) (s : store) (log : list (list (string * string))) : res (store * list (list (string * string))) :=
  match l with
  | [] => Ok (s, log)
  | (a, m) :: l => let* '(s', _, at') := execute v_env (v_info a) s m in run_log l s' (attributes (v_info a) m at' :: log)
  end.
Lemma run_log_unmoved l s log s' log' : unmoved s log -> forallb (fun x => negb (moves x.2)) l = true -> run_log l s log = Ok (s', log') -> unmoved s' log'.
Proof.
  revert s log. induction l as [|[a m] l IH]; intros s log U F H; cbn in H.
  - apply Ok_inj in H. by injection H as <- <-.
  - cbn in F. apply andb_prop in F. destruct F as [F1 F2]. inv_bind H as [[s1 ms] at'] E. eapply IH; [|exact F2|exact H].
    eapply unm_call; [exact U| |exact E]. by destruct (moves m).
Qed.
Definition log_calls : list (string * exec_msg) :=
  sc0_calls ++ [("bob", CreatePosition v_key (-10) 10 300000000000 1 MAX_SQRT_PRICE); ("alice", CreatePosition v_key (-10) 10 40000000000 1 MAX_SQRT_PRICE);
                 ("alice", RemovePosition 0)]%string.
(** alice opens two positions from -10 to 10 and closes the larger, bob opens one: the responses add up to what is left *)
Example ex_C61_C62 : exists s l, unmoved s l /\ logged s l /\
  total (added (fun _ => true) (-10) 10) l = 340000000000 /\ total (added (String.eqb "alice") (-10) 10) l = 40000000000.
Proof.
  assert (X : match (let* s := instantiate (v_info "alice") 10000000000 in run_log log_calls s []) with
              | Ok (_, l) => (total (added (fun _ => true) (-10) 10) l, total (added (String.eqb "alice") (-10) 10) l) = (340000000000, 40000000000)
              | _ => False end) by (vm_compute; reflexivity).
  destruct (instantiate (v_info "alice") 10000000000) as [s0| |] eqn:I; [|destruct X|destruct X]. cbn [bind] in X.
  destruct (run_log log_calls s0 []) as [[s l]| |] eqn:R; [|destruct X|destruct X].
  assert (U : unmoved s l) by (refine (run_log_unmoved log_calls _ _ _ _ _ _ R); [by eapply unm_init|vm_compute; reflexivity]).
  exists s, l. split; [exact U|]. injection X as X1 X2. split; [|split; [exact X1|exact X2]].
  clear - U. induction U; [by eapply log_init|by eapply log_call].
Qed.
