(** C38, C39, C40, C41: listing and tickmap queries. *)
From Verif Require Import Base Decimal SqrtPrice Clamm Log FeeGrowth Types Tick Pool Position
  Tickmap Keys State Swap Exec Query Tactics BitmapProofs KeysProofs Frame Handlers History Basic PosList
  Vectors Scenario SwapGeo SwapLoop LiqInv Geo PropLiq PropSwap.
From stdpp Require Import gmap strings sorting.
From Coq Require Import Lia.
Open Scope Z_scope.

(** * C40 *)
Fixpoint cnt (f : Z -> bool) (lo : Z) (n : nat) : Z :=
  match n with O => 0 | S n' => (if f lo then 1 else 0) + cnt f (lo + 1) n' end.
Lemma cnt_app f lo n m : cnt f lo (n + m) = cnt f lo n + cnt f (lo + Z.of_nat n) m.
Proof.
  revert lo. induction n as [|n IH]; intros lo; cbn [cnt Nat.add]; [replace (lo + Z.of_nat 0) with lo by lia; lia|].
  rewrite IH. replace (lo + 1 + Z.of_nat n) with (lo + Z.of_nat (S n)) by lia. lia.
Qed.
Lemma cnt_ext f g lo lo' n : (forall j, 0 <= j < Z.of_nat n -> f (lo + j) = g (lo' + j)) -> cnt f lo n = cnt g lo' n.
Proof.
  revert lo lo'. induction n as [|n IH]; intros lo lo' H; cbn [cnt]; [done|].
  f_equal; [specialize (H 0 ltac:(lia)); rewrite !Z.add_0_r in H; by rewrite H|].
  apply IH. intros j J. specialize (H (j + 1) ltac:(lia)). by replace (lo + 1 + j) with (lo + (j + 1)) by lia; replace (lo' + 1 + j) with (lo' + (j + 1)) by lia.
Qed.
Lemma cnt_false f lo n : (forall j, 0 <= j < Z.of_nat n -> f (lo + j) = false) -> cnt f lo n = 0.
Proof.
  revert lo. induction n as [|n IH]; intros lo H; cbn [cnt]; [done|]. pose proof (H 0 ltac:(lia)) as H0. rewrite Z.add_0_r in H0. rewrite H0, IH; [done|].
  intros j J. specialize (H (j + 1) ltac:(lia)). by replace (lo + 1 + j) with (lo + (j + 1)) by lia.
Qed.
Lemma ones_cnt n : forall v, count_ones_aux n v = cnt (Z.testbit v) 0 n.
Proof.
  induction n as [|n IH]; intros v; cbn [count_ones_aux cnt]; [done|]. rewrite IH. f_equal.
  - rewrite Zmod_odd, Z.bit0_odd. done.
  - apply cnt_ext. intros j J. rewrite Z.div2_bits by lia. f_equal. lia.
Qed.
Lemma active_bits_cnt v b0 b1 n : 0 <= b0 -> active_bits_in_range v b0 b1 = Ok n ->
  0 <= b1 - b0 < 63 /\ n = cnt (Z.testbit v) b0 (Z.to_nat (b1 - b0 + 1)).
Proof.
  unfold active_bits_in_range. intros B H. inv_bind H as dd E1. apply ckp_ok in E1. destruct E1 as [-> E1].
  inv_bind H as w E2. apply ckp_ok in E2. destruct E2 as [-> E2]. apply Ok_inj in H. subst n. split; [lia|].
  set (w := b1 - b0 + 1) in *. unfold count_ones. rewrite ones_cnt.
  replace 64%nat with (Z.to_nat w + (64 - Z.to_nat w))%nat by lia. rewrite cnt_app.
  assert (T : forall j, 0 <= j -> Z.testbit (Z.land (Z.shiftr v b0) (Z.shiftl 1 w - 1)) j = Z.testbit v (b0 + j) && (j <? w)).
  { intros j J. rewrite Z.land_spec, Z.shiftr_spec by lia. rewrite (Z.add_comm j b0). f_equal.
    rewrite Z.shiftl_1_l. change (2 ^ w - 1) with (Z.pred (2 ^ w)). rewrite <- Z.ones_equiv. apply Z.testbit_ones_nonneg; lia. }
  rewrite (cnt_false _ (0 + _)).
  - rewrite Z.add_0_r. apply cnt_ext. intros j J. rewrite T by lia. rewrite Z.add_0_l, (proj2 (Z.ltb_lt j w)) by lia. apply andb_true_r.
  - intros j J. rewrite T by lia. rewrite (proj2 (Z.ltb_ge _ w)) by lia. apply andb_false_r.
Qed.
Lemma active_bits_ok v b0 b1 : 0 <= b0 -> 0 <= b1 - b0 < 63 -> is_ok (active_bits_in_range v b0 b1) = true.
Proof. intros B H. unfold active_bits_in_range. rewrite (proj2 (ckp_ok 255 _ (b1 - b0))) by lia. cbn [bind]. rewrite (proj2 (ckp_ok 63 _ (b1 - b0 + 1))) by lia. done. Qed.
Lemma active_bits_whole v b0 b1 : b1 - b0 = 63 -> active_bits_in_range v b0 b1 = Panic.
Proof. intros E. unfold active_bits_in_range. by rewrite E. Qed.
Lemma chunk_cnt st k c lo n : 0 <= lo -> lo + Z.of_nat n <= 64 ->
  cnt (Z.testbit (bitmap_chunk st k c)) lo n = cnt (bit_set st k) (c * 64 + lo) n.
Proof.
  intros H1 H2. apply cnt_ext. intros j J. unfold bit_set. rewrite <- Z.add_assoc, div64, mod64 by lia. done.
Qed.
Lemma fold_cnt st k n : forall c acc,
  fold_left (fun acc c => acc + count_ones (bitmap_chunk st k c)) (seqZ c (Z.of_nat n)) acc = acc + cnt (bit_set st k) (c * 64) (n * 64).
Proof.
  induction n as [|n IH]; intros c acc; [change (0 * 64)%nat with 0%nat; cbn [cnt]; rewrite Z.add_0_r; done|].
  rewrite seqZ_cons by lia. cbn [fold_left]. replace (Z.pred (Z.of_nat (S n))) with (Z.of_nat n) by lia. rewrite IH.
  unfold count_ones. rewrite ones_cnt, chunk_cnt by lia. change (S n * 64)%nat with (64 + n * 64)%nat. rewrite cnt_app.
  replace (c * 64 + Z.of_nat 64) with (Z.succ c * 64) by lia. rewrite Z.add_0_r. lia.
Qed.
Lemma cnt_list f lo n : exists l, NoDup l /\ (forall j, j ∈ l <-> lo <= j < lo + Z.of_nat n /\ f j = true) /\ cnt f lo n = Z.of_nat (length l).
Proof.
  revert lo. induction n as [|n IH]; intros lo.
  - exists []. split; [constructor|]. split; [|done]. intros j. rewrite elem_of_nil. lia.
  - destruct (IH (lo + 1)) as (l & ND & M & C). cbn [cnt]. rewrite C. destruct (f lo) eqn:F.
    + exists (lo :: l). split; [constructor; [|done]; rewrite M; lia|]. split; [|cbn [length]; lia].
      intros j. rewrite elem_of_cons, M. split; [intros [->|H]; [split; [lia|done]|split; [lia|tauto]]|].
      intros [H1 H2]. destruct (Z.eq_dec j lo); [by left|]. right. split; [lia|done].
    + exists l. split; [done|]. split; [|lia]. intros j. rewrite M. split; [intros [? ?]; split; [lia|done]|].
      intros [H1 H2]. split; [|done]. destruct (Z.eq_dec j lo); [congruence|lia].
Qed.

(** Whenever the query answers, the answer is the number of initialized ticks in the range; it answers except in the case excluded
    by the second part.  Missing from C40: ranges of 64 or more ticks that start on the first or end on the last tick of a 64-tick
    chunk; there the call always aborts (third part). *)
Theorem C40_tick_count_partial s k p lower upper : reachable s -> st_pools s !! k = Some p ->
  let sp := ft_spacing (pk_tier k) in
  -221818 <= lower -> lower <= upper -> upper <= 221818 -> lower mod sp = 0 -> upper mod sp = 0 ->
  (forall n, query_liquidity_ticks_amount s k lower upper = Ok n ->
     exists l, NoDup l /\ (forall t, t ∈ l <-> lower <= t <= upper /\ get_bitmap s t sp k = Ok true) /\ n = Z.of_nat (length l)) /\
  (let c t := (t + 221818) / sp in
   (upper - lower < 63 * sp \/ c lower mod 64 <> 0 /\ c upper mod 64 <> 63) ->
   is_ok (query_liquidity_ticks_amount s k lower upper) = true) /\
  (let c t := (t + 221818) / sp in
   63 * sp <= upper - lower -> c lower mod 64 = 0 \/ c upper mod 64 = 63 ->
   query_liquidity_ticks_amount s k lower upper = Panic).
Proof.
  intros R E sp Hl Ho Hu Ml Mu. apply reachable_ereach in R. destruct (sg_sp _ _ (ereach_store_geo _ _ _ R E)) as [S1 _].
  change (spacing k) with sp in S1.
  assert (LL : legal_tick sp lower) by (split; [change MAX_TICK with 221818; lia|done]).
  assert (LU : legal_tick sp upper) by (split; [change MAX_TICK with 221818; lia|done]).
  pose proof (legal_top _ _ S1 LL) as TL. pose proof (legal_top _ _ S1 LU) as TU.
  assert (Q : query_liquidity_ticks_amount s k lower upper =
    (let B0 := bit_index sp lower in let B1 := bit_index sp upper in
     if B1 / 64 =? B0 / 64 then active_bits_in_range (bitmap_chunk s k (B0 / 64)) (B0 mod 64) (B1 mod 64)
     else let* a0 := active_bits_in_range (bitmap_chunk s k (B0 / 64)) (B0 mod 64) 63 in
          let* a1 := active_bits_in_range (bitmap_chunk s k (B1 / 64)) 0 (B1 mod 64) in
          Ok (fold_left (fun acc c => acc + count_ones (bitmap_chunk s k c)) (seqZ (B0 / 64 + 1) (B1 / 64 - B0 / 64 - 1)) (a0 + a1)))).
  { unfold query_liquidity_ticks_amount. fold sp. rewrite (proj2 (Z.eqb_neq sp 0)) by lia.
    assert (RM : forall t, t mod sp = 0 -> (Z.rem t sp =? 0) = true).
    { intros t Ht. apply Z.eqb_eq. apply Z.rem_divide; [lia|]. apply Z.mod_divide; [lia|done]. }
    rewrite !RM by done. cbn [negb orb]. rewrite get_min_top, get_max_top by lia.
    rewrite (proj2 (Z.ltb_ge lower _)), (proj2 (Z.ltb_ge (SwapGeo.top sp) _)) by lia. cbn [orb].
    rewrite !tick_to_position_ok by (lia || done). cbn [bind]. done. }
  pose proof (bit_index_range sp lower S1 LL) as R0. pose proof (bit_index_range sp upper S1 LU) as R1.
  assert (OB : bit_index sp upper - bit_index sp lower = upper / sp - lower / sp) by (unfold bit_index; lia).
  pose proof (legal_mult sp lower S1 LL) as EL. pose proof (legal_mult sp upper S1 LU) as EU.
  assert (OB' : (upper / sp - lower / sp) * sp = upper - lower) by lia.
  assert (OB2 : lower / sp <= upper / sp) by (apply Z.div_le_mono; lia).
  assert (BI : forall t, legal_tick sp t -> (t + 221818) / sp = bit_index sp t).
  { intros t Lt. pose proof (legal_mult sp t S1 Lt) as Et. unfold bit_index. rewrite Et at 1. change MAX_TICK with 221818. rewrite Z.add_comm, Z.div_add by lia. lia. }
  set (B0 := bit_index sp lower) in *. set (B1 := bit_index sp upper) in *.
  pose proof (split64 B0) as [D0 M0]. pose proof (split64 B1) as [D1 M1].
  split; [|split].
  - intros n H. rewrite Q in H. cbv zeta in H.
    assert (C : n = cnt (bit_set s k) B0 (Z.to_nat (B1 - B0 + 1))).
    { destruct (Z.eqb_spec (B1 / 64) (B0 / 64)) as [X|X].
      - apply active_bits_cnt in H; [|lia]. destruct H as [H ->]. rewrite chunk_cnt by lia. rewrite D0. f_equal. lia.
      - inv_bind H as a0 A0. inv_bind H as a1 A1. apply Ok_inj in H. subst n.
        apply active_bits_cnt in A0; [|lia]. apply active_bits_cnt in A1; [|lia]. destruct A0 as [A0 ->], A1 as [A1 ->].
        rewrite !chunk_cnt by lia. rewrite D0, Z.add_0_r.
        assert (X' : B0 / 64 < B1 / 64) by lia.
        replace (B1 / 64 - B0 / 64 - 1) with (Z.of_nat (Z.to_nat (B1 / 64 - B0 / 64 - 1))) by lia. rewrite fold_cnt.
        replace (Z.to_nat (B1 - B0 + 1)) with (Z.to_nat (63 - B0 mod 64 + 1) + (Z.to_nat (B1 / 64 - B0 / 64 - 1) * 64 + Z.to_nat (B1 mod 64 - 0 + 1)))%nat by lia.
        rewrite !cnt_app.
        replace (B0 + Z.of_nat (Z.to_nat (63 - B0 mod 64 + 1))) with ((B0 / 64 + 1) * 64) by lia.
        replace ((B0 / 64 + 1) * 64 + Z.of_nat (Z.to_nat (B1 / 64 - B0 / 64 - 1) * 64)) with (B1 / 64 * 64) by lia. lia. }
    destruct (cnt_list (bit_set s k) B0 (Z.to_nat (B1 - B0 + 1))) as (l & ND & ML & CL).
    exists (map (fun b => (b - MAX_TICK / sp) * sp) l). split; [|split; [|rewrite map_length; lia]].
    + assert (IJ : Inj (=) (=) (fun b => (b - MAX_TICK / sp) * sp)) by (intros a b Hab; nia). exact (NoDup_fmap_2 _ l ND).
    + intros t. rewrite elem_of_list_In, in_map_iff. setoid_rewrite <- elem_of_list_In. split.
      * intros (b & <- & Hb). apply ML in Hb. destruct Hb as [Hb1 Hb2].
        assert (LT : legal_tick sp ((b - MAX_TICK / sp) * sp)).
        { pose proof (div_range sp lower S1 LL). pose proof (div_range sp upper S1 LU). apply legal_of_div; [done|]. unfold B0, B1, bit_index in Hb1. lia. }
        split; [unfold B0, B1, bit_index in Hb1; nia|]. rewrite get_bitmap_ok by done. unfold bit_index. rewrite div_mul_id by done.
        replace (b - MAX_TICK / sp + MAX_TICK / sp) with b by lia. by rewrite Hb2.
      * intros [Ht Hg]. assert (LT : legal_tick sp t) by (exact (is_init_legal s k sp t S1 Hg)). rewrite get_bitmap_ok in Hg by done. apply Ok_inj in Hg.
        exists (bit_index sp t). split; [by apply bit_decode|]. apply ML. split; [|done].
        assert (lower / sp <= t / sp) by (apply Z.div_le_mono; lia). assert (t / sp <= upper / sp) by (apply Z.div_le_mono; lia).
        unfold B0, B1, bit_index. lia.
  - intros c H. unfold c in H. rewrite !BI in H by done. fold B0 B1 in H. rewrite Q. cbv zeta.
    assert (W : upper - lower < 63 * sp -> B1 - B0 < 63) by nia.
    destruct (Z.eqb_spec (B1 / 64) (B0 / 64)) as [X|X].
    + apply active_bits_ok; [lia|]. split; [lia|]. destruct H as [H|H]; [specialize (W H); lia|lia].
    + assert (Y0 : is_ok (active_bits_in_range (bitmap_chunk s k (B0 / 64)) (B0 mod 64) 63) = true).
      { apply active_bits_ok; [lia|]. split; [lia|]. destruct H as [H|[H _]]; [specialize (W H)|]; lia. }
      assert (Y1 : is_ok (active_bits_in_range (bitmap_chunk s k (B1 / 64)) 0 (B1 mod 64)) = true).
      { apply active_bits_ok; [lia|]. split; [lia|]. destruct H as [H|[_ H]]; [specialize (W H)|]; lia. }
      destruct (active_bits_in_range (bitmap_chunk s k (B0 / 64)) (B0 mod 64) 63); [|done..].
      destruct (active_bits_in_range (bitmap_chunk s k (B1 / 64)) 0 (B1 mod 64)); [|done..]. done.
  - intros c Hd H. unfold c in H. rewrite !BI in H by done. fold B0 B1 in H. rewrite Q. cbv zeta.
    assert (W : 63 <= B1 - B0) by nia.
    destruct (Z.eqb_spec (B1 / 64) (B0 / 64)) as [X|X].
    + apply active_bits_whole; lia.
    + destruct (decide (B0 mod 64 = 0)) as [Z0|Z0]; [by rewrite active_bits_whole by lia|].
      assert (Y0 : is_ok (active_bits_in_range (bitmap_chunk s k (B0 / 64)) (B0 mod 64) 63) = true) by (apply active_bits_ok; lia).
      destruct (active_bits_in_range (bitmap_chunk s k (B0 / 64)) (B0 mod 64) 63); [|done..]. cbn [bind].
      by rewrite active_bits_whole by lia.
Qed.

(** A range with an end that is no multiple of the spacing, or that leaves the tick range, is refused. *)
Theorem C40_refuses s k lower upper :
  let sp := ft_spacing (pk_tier k) in
  0 < sp -> lower mod sp <> 0 \/ upper mod sp <> 0 \/ lower < -221818 \/ 221818 < upper ->
  query_liquidity_ticks_amount s k lower upper = Err InvalidTickIndex.
Proof.
  intros sp S0 H. unfold query_liquidity_ticks_amount. fold sp. rewrite (proj2 (Z.eqb_neq sp 0)) by lia.
  assert (RM : forall t, (Z.rem t sp =? 0) = (t mod sp =? 0)).
  { intros t. apply Bool.eq_iff_eq_true. rewrite !Z.eqb_eq, Z.rem_divide, Z.mod_divide by lia. done. }
  rewrite !RM. destruct (Z.eqb_spec (lower mod sp) 0) as [A|A]; [|done]. destruct (Z.eqb_spec (upper mod sp) 0) as [B|B]; [|done].
  cbn [negb orb]. destruct H as [H|[H|H]]; [done..|].
  pose proof (Z.quot_rem' (-221818) sp) as Q. pose proof (Z.quot_rem' 221818 sp) as Q2.
  rewrite get_min_top, get_max_top by lia. unfold SwapGeo.top.
  assert (T : 221818 / sp * sp <= 221818) by (pose proof (Z.mul_div_le 221818 sp S0); lia).
  apply Z.mod_divide in A, B; [|lia..]. destruct A as [a ->], B as [b ->]. change MAX_TICK with 221818.
  assert (U : a * sp < -221818 -> a * sp < - (221818 / sp * sp)) by lia.
  assert (V : 221818 < b * sp -> 221818 / sp * sp < b * sp) by lia.
  destruct H as [H|H].
  - rewrite (proj2 (Z.ltb_lt _ _)) by lia. done.
  - rewrite (proj2 (Z.ltb_lt (221818 / sp * sp) _)) by lia. rewrite orb_true_r. done.
Qed.

(** [-221810 .. -221170] is a legal range of exactly 65 ticks that starts on the first tick of chunk 0 of the pool with spacing 10:
    the query aborts.  So does every single chunk asked for as a whole. *)
Theorem C40_tick_count_refuted : exists s k p lower upper, reachable s /\ st_pools s !! k = Some p /\
  -221818 <= lower /\ lower <= upper /\ upper <= 221818 /\
  lower mod ft_spacing (pk_tier k) = 0 /\ upper mod ft_spacing (pk_tier k) = 0 /\
  query_liquidity_ticks_amount s k lower upper = Panic.
Proof.
  destruct (some_inv (fun _ => True) (st_pools sc0 !! v_key)) as (p & E & _); [vm_compute; exact I|].
  exists sc0, v_key, p, (-221810), (-221170). split; [exact sc0_reachable|]. split; [exact E|].
  split; [lia|]. split; [lia|]. split; [lia|]. split; [reflexivity|]. split; [reflexivity|]. vm_compute. reflexivity.
Qed.

Example C40_example : query_liquidity_ticks_amount sc0 v_key (-200) 200 = Ok 5 /\ query_liquidity_ticks_amount sc0 v_key (-10) 10 = Ok 2 /\
  query_liquidity_ticks_amount sc0 v_key (-9) 10 = Err InvalidTickIndex /\ query_liquidity_ticks_amount sc0 v_key (-221820) 10 = Err InvalidTickIndex.
Proof. vm_compute. done. Qed.

(** * C41 *)
Lemma seqZ_sorted a n : StronglySorted Z.lt (seqZ a (Z.of_nat n)).
Proof.
  revert a. induction n as [|n IH]; intros a; [constructor|]. rewrite seqZ_cons by lia.
  replace (Z.pred (Z.of_nat (S n))) with (Z.of_nat n) by lia. constructor; [apply IH|].
  apply Forall_forall. intros x Hx. apply elem_of_seqZ in Hx. lia.
Qed.
Lemma sorted_snoc {A} (R : A -> A -> Prop) l x : StronglySorted R l -> Forall (fun y => R y x) l -> StronglySorted R (l ++ [x]).
Proof.
  induction 1 as [|y l S IH F]; intros H; cbn; [by repeat constructor|]. inversion_clear H. constructor; [by apply IH|].
  apply Forall_app; split; [done|by repeat constructor].
Qed.
Lemma sorted_rev {A} (R : A -> A -> Prop) l : StronglySorted R l -> StronglySorted (fun a b => R b a) (rev l).
Proof.
  induction 1 as [|y l S IH F]; cbn; [constructor|]. apply sorted_snoc; [done|]. apply List.Forall_rev. exact F.
Qed.
Lemma sorted_omap {A B} (R : A -> A -> Prop) (g : A -> option B) (h : B -> A) l :
  (forall a b, g a = Some b -> h b = a) -> StronglySorted R l -> StronglySorted (fun a b => R (h a) (h b)) (omap g l).
Proof.
  intros G. induction 1 as [|y l S IH F]; cbn; [constructor|]. destruct (g y) eqn:E; [|done]. constructor; [done|].
  apply Forall_forall. intros x Hx. apply elem_of_list_omap in Hx. destruct Hx as (z & Hz & Gz). rewrite (G _ _ E), (G _ _ Gz).
  rewrite Forall_forall in F. by apply F.
Qed.
Lemma sorted_map {A B} (R : A -> A -> Prop) (h : B -> A) l : StronglySorted (fun a b => R (h a) (h b)) l -> StronglySorted R (map h l).
Proof. induction 1 as [|y l S IH F]; cbn; [constructor|]. constructor; [done|]. by apply Forall_map. Qed.

Theorem C41_tickmap_exact s k p lower upper (d : bool) : reachable s -> st_pools s !! k = Some p ->
  let sp := ft_spacing (pk_tier k) in let chunk t := (t + 221818) / sp / 64 in
  -221818 <= lower <= 221818 -> -221818 <= upper <= 221818 -> lower mod sp = 0 -> upper mod sp = 0 ->
  exists l, query_tickmap s k lower upper d = Ok l /\
    Z.of_nat (length l) <= 1638 /\
    StronglySorted (fun a b => if d then b < a else a < b) (map fst l) /\
    (forall c v, (c, v) ∈ l -> chunk lower <= c <= chunk upper /\ st_bitmap s !! (k, c) = Some v /\
       forall t, -221818 <= t <= 221818 -> t mod sp = 0 -> chunk t = c ->
         get_bitmap s t sp k = Ok (Z.testbit v ((t + 221818) / sp mod 64))) /\
    (forall t, get_bitmap s t sp k = Ok true -> chunk lower <= chunk t <= chunk upper ->
       (exists v, (chunk t, v) ∈ l) \/
       Z.of_nat (length l) = 1638 /\ forall c v, (c, v) ∈ l -> if d then chunk t < c else c < chunk t).
Proof.
  intros R E sp chunk Hl Hu Ml Mu. apply reachable_ereach in R. destruct (sg_sp _ _ (ereach_store_geo _ _ _ R E)) as [S1 S2].
  change (spacing k) with sp in S1, S2. assert (MT : MAX_TICK = 221818) by reflexivity.
  assert (LEG : forall t, -221818 <= t <= 221818 -> t mod sp = 0 -> legal_tick sp t) by (intros t H1 H2; split; [lia|done]).
  assert (BI : forall t, legal_tick sp t -> (t + 221818) / sp = bit_index sp t).
  { intros t Lt. pose proof (legal_mult sp t S1 Lt) as Et. unfold bit_index. rewrite Et at 1. rewrite MT, Z.add_comm, Z.div_add by lia. lia. }
  pose proof (LEG _ Hl Ml) as LL. pose proof (LEG _ Hu Mu) as LU.
  assert (CR : forall t, legal_tick sp t -> chunk t = bit_index sp t / 64 /\ get_min_chunk sp <= chunk t <= get_max_chunk sp).
  { intros t Lt. unfold chunk. rewrite BI by done. split; [done|]. pose proof (div_range sp t S1 Lt) as DR.
    assert (B : 0 <= bit_index sp t <= 2 * (MAX_TICK / sp)) by (unfold bit_index; lia).
    assert (T0 : 0 <= MAX_TICK / sp <= MAX_TICK).
    { split; [apply Z.div_pos; lia|]. apply Z.div_le_upper_bound; [lia|]. nia. }
    pose proof (Z.mul_div_le MAX_TICK sp ltac:(lia)) as T1. pose proof (Z.mod_pos_bound MAX_TICK sp ltac:(lia)) as T2.
    pose proof (Z.div_mod MAX_TICK sp ltac:(lia)) as T3.
    unfold get_min_chunk, get_max_chunk. rewrite get_max_top by done. unfold SwapGeo.top, CHUNK_SIZE.
    rewrite (Z.quot_div_nonneg _ sp) by lia. rewrite (Z.quot_div_nonneg (MAX_TICK / sp * sp + MAX_TICK) sp) by lia.
    replace ((MAX_TICK - MAX_TICK / sp * sp) / sp) with 0 by (symmetry; apply Z.div_small; lia).
    rewrite Z.add_comm, Z.div_add by lia. split; [change (Z.quot 0 64 mod 65536) with 0; apply Z.div_pos; lia|].
    rewrite Z.quot_div_nonneg by lia. rewrite Z.mod_small.
    - apply Z.div_le_mono; lia.
    - split; [apply Z.div_pos; lia|]. apply Z.div_lt_upper_bound; lia. }
  destruct (CR _ LL) as [CL BL]. destruct (CR _ LU) as [CU BU].
  set (range := seqZ (chunk lower) (chunk upper - chunk lower + 1)).
  set (g := fun c => match get_bitmap_item s c k with Ok v => Some (c, v) | _ => None end).
  set (big := omap g (if d then rev range else range)).
  assert (G : forall c b, g c = Some b -> fst b = c).
  { intros c b. unfold g. destruct (get_bitmap_item s c k); [|done..]. by intros [= <-]. }
  assert (NX : exists n, Z.to_nat MAX_TICKMAP_QUERY_SIZE = n /\ Z.of_nat n = 1638) by (exists (Z.to_nat 1638); split; [reflexivity|apply Z2Nat.id; lia]).
  destruct NX as (n & N1 & N2). exists (take n big). split.
  { unfold query_tickmap. fold sp. rewrite !tick_to_position_ok by done. cbn [bind]. rewrite <- CL, <- CU.
    rewrite Z.max_r, Z.min_r by lia. unfold tickmap_slice. fold range. rewrite N1. done. }
  assert (SS : StronglySorted (fun a b => if d then fst b < fst a else fst a < fst b) big).
  { assert (SR : StronglySorted Z.lt range).
    { unfold range. destruct (Z.leb_spec 0 (chunk upper - chunk lower + 1)).
      - rewrite <- (Z2Nat.id (_ - _ + 1)) by lia. apply seqZ_sorted.
      - rewrite seqZ_nil by lia. constructor. }
    unfold big. destruct d.
    - apply (sorted_omap (fun a b => b < a) g fst); [done|]. by apply (sorted_rev Z.lt).
    - apply (sorted_omap Z.lt g fst); done. }
  assert (MEM : forall c v, (c, v) ∈ big <-> chunk lower <= c <= chunk upper /\ st_bitmap s !! (k, c) = Some v).
  { intros c v. unfold big. rewrite elem_of_list_omap. transitivity (exists x, x ∈ range /\ g x = Some (c, v)).
    - destruct d; [|done]. setoid_rewrite elem_of_list_In. setoid_rewrite <- in_rev. done.
    - unfold range, g. setoid_rewrite elem_of_seqZ. unfold get_bitmap_item. split.
      + intros (x & H1 & H2). destruct (st_bitmap s !! (k, x)) eqn:Q; [|done]. injection H2 as -> ->. split; [lia|done].
      + intros (H1 & H2). exists c. rewrite H2. split; [lia|done]. }
  split; [rewrite take_length; lia|]. rewrite <- (take_drop n big) in SS. split.
  { apply sorted_map. apply StronglySorted_app_inv_l in SS. destruct d; exact SS. }
  assert (INC : forall x, x ∈ take n big -> x ∈ big).
  { intros x Hx. rewrite <- (take_drop n big). apply elem_of_app. by left. }
  split.
  - intros c v H. apply INC, MEM in H. destruct H as [H1 H2]. split; [done|]. split; [done|].
    intros t T1 T2 T3. pose proof (LEG _ T1 T2) as LT. rewrite get_bitmap_ok by done. unfold bit_set. rewrite <- BI by done.
    unfold chunk in T3. rewrite T3. unfold bitmap_chunk. by rewrite H2.
  - intros t T1 T2. pose proof (is_init_legal s k sp t S1 T1) as LT. rewrite get_bitmap_ok in T1 by done. apply Ok_inj in T1.
    unfold bit_set in T1. rewrite <- BI in T1 by done. change ((t + 221818) / sp / 64) with (chunk t) in T1.
    unfold bitmap_chunk in T1. destruct (st_bitmap s !! (k, chunk t)) as [v|] eqn:Q; [|cbn in T1; rewrite Z.testbit_0_l in T1; done].
    assert (M : (chunk t, v) ∈ take n big ++ drop n big) by (rewrite take_drop; by apply MEM).
    apply elem_of_app in M. destruct M as [M|M]; [left; eauto|]. right. split.
    + rewrite take_length. destruct (decide (n <= length big)%nat); [lia|]. rewrite drop_ge in M by lia. by apply elem_of_nil in M.
    + intros c w H. pose proof (elem_of_StronglySorted_app _ _ _ _ _ SS H M) as X. cbn in X. destruct d; exact X.
Qed.

Example C41_example :
  (let* l := query_tickmap sc0 v_key (-221810) 221810 true in Ok (map fst l)) = Ok [346] /\
  (let* l := query_tickmap sc0 v_key (-221810) 221810 false in Ok (map (fun cv => count_ones (snd cv)) l)) = Ok [5].
Proof. vm_compute. done. Qed.

(** * C39 *)
(** What holds: with no limit or one of at most 100 the page has at most 100 entries and the call does not abort, provided offset plus
    limit stays below 2^32.  Missing from C39: larger limits are honoured, and offset + limit beyond 2^32 - 1 aborts. *)
Theorem C39_positions_page_partial s a limit offset : reachable s ->
  let n := default 100 limit in let o := default 0 offset in
  0 <= n <= 100 -> 0 <= o -> o + n <= 4294967295 ->
  exists l, query_positions s a limit offset = Ok l /\
    Z.of_nat (length l) = Z.min n (Z.max 0 (get_position_length s a - o)).
Proof.
  intros R n o Hn Ho Hs. apply reachable_ereach, ereach_pos_ok in R. pose proof (ct_range _ _ R a) as L.
  eexists. split; [apply query_positions_page; [done|done|change (0 <= n); lia|change (o + n <= U32MAX); change U32MAX with 4294967295; lia]|].
  rewrite take_length, drop_length, owner_list_length by done. change (default MAX_LIMIT limit) with n. fold o. unfold plen in *. lia.
Qed.

Theorem C39_abort_refuted : exists s a limit offset, reachable s /\ 0 <= limit <= 4294967295 /\ 0 <= offset <= 4294967295 /\
  query_positions s a (Some limit) (Some offset) = Panic.
Proof. exists sc0, "alice"%string, 4294967295, 1. split; [exact sc0_reachable|]. split; [lia|]. split; [lia|]. vm_compute. reflexivity. Qed.

Definition many_calls : list (string * exec_msg) :=
  [("alice", AddFeeTier v_tier);
   ("alice", CreatePool "tokeny" "tokenx" v_tier SP_ONE 0)]%string ++
  repeat ("alice"%string, CreatePosition v_key (-10) 10 1000000 SP_ONE SP_ONE) 101.
Theorem C39_length_refuted : exists s a limit l, reachable s /\ 0 <= limit <= 4294967295 /\
  query_positions s a (Some limit) None = Ok l /\ (length l > 100)%nat.
Proof.
  destruct (ok_inv (A:=store) (fun s => get_position_length s "alice"%string = 101) (start 10000000000 many_calls)) as (s & E & L); [vm_compute; reflexivity|].
  apply start_reachable in E. exists s, "alice"%string, 101. pose proof (ereach_pos_ok _ (reachable_ereach _ E)) as P.
  eexists. split; [done|]. split; [lia|]. split; [apply query_positions_page; [done|change (0 <= 0); lia|change (0 <= 101); lia|change (0 + 101 <= 4294967295); lia]|].
  rewrite take_length, drop_length, owner_list_length by done. unfold plen. rewrite L. change (Z.to_nat (default MAX_LIMIT (Some 101))) with 101%nat. change (Z.to_nat (default 0 None)) with 0%nat. lia.
Qed.

Example C39_example : (let* l := query_positions sc0 "alice" (Some 1) (Some 1) in Ok (map po_lower l)) = Ok [-20].
Proof. vm_compute. done. Qed.

(** * C38 *)
Lemma string_lt_trans : forall a b c, String.compare a b = Lt -> String.compare b c = Lt -> String.compare a c = Lt.
Proof.
  induction a as [|x a IH]; intros [|y b] [|z c]; cbn; try done. unfold Ascii.compare.
  destruct (N.compare_spec (Ascii.N_of_ascii x) (Ascii.N_of_ascii y)) as [E1|E1|E1]; try done; intros H1;
  destruct (N.compare_spec (Ascii.N_of_ascii y) (Ascii.N_of_ascii z)) as [E2|E2|E2]; try done; intros H2;
  destruct (N.compare_spec (Ascii.N_of_ascii x) (Ascii.N_of_ascii z)) as [E3|E3|E3]; try done; try lia.
  by apply (IH b c).
Qed.
Lemma leb_cases a b : String.leb a b = true <-> a = b \/ String.compare a b = Lt.
Proof.
  unfold String.leb. destruct (String.compare a b) eqn:C.
  - split; [|done]. intros _. left. by apply String.compare_eq_iff.
  - split; [tauto|done].
  - split; [done|]. intros [->|]; [|done]. pose proof (String.compare_antisym b b) as Q. rewrite C in Q. done.
Qed.
Global Instance key_le_trans {A} : Transitive (@key_le A).
Proof.
  intros a b c. unfold key_le. rewrite !leb_cases. intros [->|H1] [H2|H2]; try tauto; [rewrite <- H2; tauto|]. right. by eapply string_lt_trans.
Qed.
Global Instance key_le_total {A} : Total (@key_le A).
Proof. intros a b. unfold key_le. apply String.leb_total. Qed.

(** every page of the listing, the next one starting after the last pool of the previous one *)
Inductive pools_listing (s : store) (limit : option Z) : option pool_key -> list (pool_key * pool) -> Prop :=
| listing_end start : query_pools s limit start = Ok [] -> pools_listing s limit start []
| listing_page start l k p rest : query_pools s limit start = Ok (l ++ [(k, p)]) -> pools_listing s limit (Some k) rest ->
    pools_listing s limit start (l ++ (k, p) :: rest).

Lemma filter_none {A} (f : A -> bool) l : Forall (fun x => f x = false) l -> List.filter f l = [].
Proof. induction 1 as [|x l H F IH]; cbn; [done|]. by rewrite H. Qed.
Lemma filter_all {A} (f : A -> bool) l : Forall (fun x => f x = true) l -> List.filter f l = l.
Proof. induction 1 as [|x l H F IH]; cbn; [done|]. by rewrite H, IH. Qed.



Theorem C38_paging_complete s : reachable s ->
  exists l, NoDup (map fst l) /\ (forall k p, (k, p) ∈ l <-> st_pools s !! k = Some p) /\
    forall limit, 1 <= default 100 limit -> forall l', pools_listing s limit None l' <-> l' = l.
Proof.
  intros R. apply reachable_ereach in R. pose proof (ereach_pools _ R) as PO.
  set (enc := fun k => match pool_key_bytes k with Ok b => b | _ => EmptyString end).
  set (srt := merge_sort key_le (raw_pools s)).
  assert (PM : Permutation srt (raw_pools s)) by apply merge_sort_Permutation.
  assert (EN : forall k p, st_pools s !! k = Some p -> pool_key_bytes k = Ok (enc k) /\ pool_key_from_bytes (enc k) = Ok k).
  { intros k p E. destruct (PO _ _ E) as [T _ [b B]]. unfold enc. rewrite B. split; [done|].
    apply pool_key_round; [|done]. destruct T as [T1 T2]. change PCT_ONE with 1000000000000 in T2. split; lia. }
  set (dec := fun kp : string * pool => match pool_key_from_bytes (fst kp) with Ok k => (k, snd kp) | _ => (v_key, snd kp) end).
  assert (MR : forall b p, (b, p) ∈ srt <-> exists k, st_pools s !! k = Some p /\ b = enc k).
  { intros b p. rewrite PM. unfold raw_pools. rewrite elem_of_list_In, in_map_iff. split.
    - intros ([k q] & Q & H). cbn in Q. injection Q as <- <-. exists k. split; [|done]. apply elem_of_map_to_list. by apply elem_of_list_In.
    - intros (k & H & ->). exists (k, p). split; [done|]. apply elem_of_list_In. by apply elem_of_map_to_list. }
  assert (ND0 : NoDup (map fst srt)).
  { assert (P2 : Permutation (map fst (raw_pools s)) (map fst srt)) by (apply Permutation_map; by symmetry). rewrite <- P2.
    unfold raw_pools. rewrite map_map. cbn [fst].
    assert (IJ : forall a b, a ∈ map_to_list (st_pools s) -> b ∈ map_to_list (st_pools s) -> enc (fst a) = enc (fst b) -> fst a = fst b).
    { intros [k p] [k' p'] Ha Hb. apply elem_of_map_to_list in Ha, Hb. cbn. intros Q. destruct (EN _ _ Ha) as [_ D1], (EN _ _ Hb) as [_ D2]. rewrite Q in D1. congruence. }
    pose proof (NoDup_fst_map_to_list (st_pools s)) as N. revert IJ N. generalize (map_to_list (st_pools s)). fold enc.
    intros l IJ. change (list_fmap _ _ fst l) with (map fst l). induction l as [|x l IH]; cbn; intros N; [constructor|]. inversion_clear N as [|? ? N1 N2]. constructor.
    - rewrite elem_of_list_In, in_map_iff. intros (y & Q & Hy). apply N1. apply elem_of_list_fmap. exists y. split; [|by apply elem_of_list_In].
      apply IJ; [apply elem_of_list_here|apply elem_of_list_further; by apply elem_of_list_In|]. by symmetry.
    - apply IH; [|done]. intros a b Ha Hb. apply IJ; by apply elem_of_list_further. }
  assert (SS : StronglySorted (fun a b : string * pool => String.compare (fst a) (fst b) = Lt) srt).
  { assert (S0 : StronglySorted key_le srt) by (apply StronglySorted_merge_sort; apply _).
    revert S0 ND0. clear. induction 1 as [|x l S IH F]; cbn; intros N; [constructor|]. inversion_clear N as [|? ? N1 N2]. constructor; [by apply IH|].
    rewrite Forall_forall in F |- *. intros y Hy. specialize (F y Hy). unfold key_le in F. apply leb_cases in F. destruct F as [Q|]; [|done].
    exfalso. apply N1. rewrite Q. apply elem_of_list_fmap. eauto. }
  assert (COL : forall l, (forall x, x ∈ l -> x ∈ srt) -> collect (fun kp => let* k := pool_key_from_bytes (fst kp) in Ok (k, snd kp)) l = Ok (map dec l)).
  { induction l as [|[b p] l IH]; intros H; cbn [collect map]; [done|]. unfold dec at 1. cbn [fst snd].
    destruct (proj1 (MR b p) (H _ (elem_of_list_here _ _))) as (k & Q & ->). destruct (EN _ _ Q) as [_ D]. rewrite D. cbn [bind].
    rewrite IH; [done|]. intros x Hx. apply H. by apply elem_of_list_further. }
  assert (AFT : forall pre x suf, srt = pre ++ x :: suf -> after (Some (fst x)) srt = suf).
  { intros pre x suf Q. cbn [after]. rewrite Q, List.filter_app. cbn [List.filter].
    rewrite string_ltb_irrefl. pose proof SS as S2. rewrite Q in S2.
    rewrite filter_none, filter_all; [done| |].
    - replace (pre ++ x :: suf) with ((pre ++ [x]) ++ suf) in S2 by (by rewrite <- app_assoc). apply Forall_forall. intros y Hy.
      pose proof (elem_of_StronglySorted_app _ _ _ x y S2 ltac:(set_solver) Hy) as L. unfold String.ltb. by rewrite L.
    - apply Forall_forall. intros y Hy. pose proof (elem_of_StronglySorted_app _ _ _ y x S2 Hy ltac:(set_solver)) as L.
      unfold String.ltb. rewrite String.compare_antisym, L. done. }
  exists (map dec srt). split; [|split].
  - rewrite map_map. assert (IJ : forall a b, a ∈ srt -> b ∈ srt -> fst (dec a) = fst (dec b) -> fst a = fst b).
    { intros [b p] [b' p'] Ha Hb. apply MR in Ha, Hb. destruct Ha as (k & H1 & ->), Hb as (k' & H2 & ->). unfold dec. cbn [fst snd].
      destruct (EN _ _ H1) as [_ D1], (EN _ _ H2) as [_ D2]. rewrite D1, D2. cbn. by intros ->. }
    revert IJ ND0. clear. induction srt as [|x l IH]; cbn; intros IJ N; [constructor|]. inversion_clear N as [|? ? N1 N2]. constructor.
    + rewrite elem_of_list_In, in_map_iff. intros (y & Q & Hy). apply N1. apply elem_of_list_fmap. exists y. split; [|by apply elem_of_list_In].
      apply IJ; [apply elem_of_list_here|apply elem_of_list_further; by apply elem_of_list_In|]. by symmetry.
    + apply IH; [|done]. intros a b Ha Hb. apply IJ; by apply elem_of_list_further.
  - intros k p. rewrite elem_of_list_In, in_map_iff. split.
    + intros ([b q] & Q & H). apply elem_of_list_In, MR in H. destruct H as (k' & H & ->). destruct (EN _ _ H) as [_ D]. unfold dec in Q. cbn [fst snd] in Q. rewrite D in Q. by injection Q as <- <-.
    + intros H. exists (enc k, p). destruct (EN _ _ H) as [_ D]. unfold dec. cbn [fst snd]. rewrite D. split; [done|]. apply elem_of_list_In, MR. eauto.
  - intros limit HL.
    assert (PS : (0 < page_size limit)%nat).
    { unfold page_size. change MAX_LIMIT with 100. lia. }
    (* the query at any point of the listing *)
    assert (QP : forall pre suf start, srt = pre ++ suf -> (pre = [] /\ start = None \/ exists pre' x, pre = pre' ++ [x] /\ start = Some (fst (dec x))) ->
      query_pools s limit start = Ok (map dec (take (page_size limit) suf))).
    { intros pre suf start Q HS. unfold query_pools. destruct HS as [[-> ->]|(pre' & [b p] & -> & ->)].
      - cbn [bind]. unfold range_raw. cbn [after]. fold srt. rewrite Q. cbn [app]. apply COL. intros x Hx. rewrite Q. cbn. rewrite <- (take_drop (page_size limit) suf). set_solver.
      - assert (Hx : (b, p) ∈ srt) by (rewrite Q; set_solver). apply MR in Hx. destruct Hx as (k & Hk & ->). destruct (EN _ _ Hk) as [B D].
        unfold dec at 1. cbn [fst snd]. rewrite D. cbn [fst]. rewrite B. cbn [bind]. unfold range_raw. fold srt.
        pose proof (AFT pre' (enc k, p) suf) as AF. cbn [fst] in AF. rewrite AF by (rewrite Q; by rewrite <- app_assoc). apply COL. intros x Hx. rewrite Q. apply elem_of_app. right. rewrite <- (take_drop (page_size limit) suf). set_solver. }
    assert (ALL : forall n pre suf start, (length suf <= n)%nat -> srt = pre ++ suf -> (pre = [] /\ start = None \/ exists pre' x, pre = pre' ++ [x] /\ start = Some (fst (dec x))) ->
      forall l', pools_listing s limit start l' <-> l' = map dec suf).
    { induction n as [|n IH]; intros pre suf start Hn Q HS l'; pose proof (QP _ _ _ Q HS) as QQ.
      - destruct suf; [|cbn in Hn; lia]. rewrite take_nil in QQ. cbn [map] in QQ |- *. split.
        + intros L. inversion L as [? Q1|? l0 k p rest Q1]; subst; [done|]. rewrite QQ in Q1. apply Ok_inj in Q1. by destruct l0.
        + intros ->. by constructor.
      - destruct suf as [|y suf'].
        { rewrite take_nil in QQ. cbn [map] in QQ |- *. split.
          - intros L. inversion L as [? Q1|? l0 k p rest Q1]; subst; [done|]. rewrite QQ in Q1. apply Ok_inj in Q1. by destruct l0.
          - intros ->. by constructor. }
        set (suf := y :: suf') in *. assert (NE : take (page_size limit) suf <> []).
        { unfold suf. destruct (page_size limit); [lia|]. done. }
        destruct (exists_last NE) as (pg & z & Z). rewrite Z in QQ. rewrite map_app in QQ. cbn [map] in QQ.
        assert (SP : suf = (pg ++ [z]) ++ drop (page_size limit) suf) by (rewrite <- Z; by rewrite take_drop).
        assert (NX : forall l'', pools_listing s limit (Some (fst (dec z))) l'' <-> l'' = map dec (drop (page_size limit) suf)).
        { apply (IH (pre ++ pg ++ [z])).
          - rewrite drop_length. unfold suf in *. cbn [length] in *. lia.
          - rewrite Q. rewrite SP at 1. by rewrite !app_assoc.
          - right. exists (pre ++ pg), z. split; [by rewrite app_assoc|done]. }
        rewrite SP, !map_app, <- app_assoc. cbn [map app]. split.
        + intros L. inversion L as [? Q1|? l0 k p rest Q1 L1]; subst.
          * rewrite QQ in Q1. apply Ok_inj in Q1. by destruct (map dec pg).
          * rewrite QQ in Q1. apply Ok_inj in Q1. apply app_inj_tail in Q1. destruct Q1 as [<- Q1]. f_equal.
            rewrite Q1 in NX. cbn [fst] in NX. apply NX in L1. rewrite L1. by rewrite Q1.
        + intros ->. destruct (dec z) as [k p] eqn:DZ. apply listing_page; [done|]. by apply NX. }
    apply (ALL (length srt) [] srt None); [lia|done|by left].
Qed.

Example C38_example : exists s, reachable s /\
  (let* l := query_pools s (Some 1) None in Ok (map (fun kp => pk_tier (fst kp)) l)) = Ok [mkFeeTier 6000000000 1] /\
  (let* l := query_pools s (Some 1) (Some (mkPoolKey "tokenx" "tokeny" (mkFeeTier 6000000000 1))) in Ok (map fst l)) = Ok [v_key] /\
  query_pools s (Some 1) (Some v_key) = Ok [].
Proof.
  destruct (ok_inv (fun s =>
  (let* l := query_pools s (Some 1) None in Ok (map (fun kp => pk_tier (fst kp)) l)) = Ok [mkFeeTier 6000000000 1] /\
  (let* l := query_pools s (Some 1) (Some (mkPoolKey "tokenx" "tokeny" (mkFeeTier 6000000000 1))) in Ok (map fst l)) = Ok [v_key] /\
  query_pools s (Some 1) (Some v_key) = Ok []) (start 10000000000 (
   [("alice", AddFeeTier v_tier); ("alice", AddFeeTier (mkFeeTier 6000000000 1));
    ("alice", CreatePool "tokeny" "tokenx" v_tier SP_ONE 0);
    ("alice", CreatePool "tokeny" "tokenx" (mkFeeTier 6000000000 1) SP_ONE 0)]%string))) as (s & E & H); [vm_compute; repeat split; reflexivity|].
  exists s. split; [by eapply start_reachable|exact H].
Qed.

Print Assumptions C38_paging_complete.
Print Assumptions C39_positions_page_partial.
Print Assumptions C40_tick_count_partial.
Print Assumptions C41_tickmap_exact.
