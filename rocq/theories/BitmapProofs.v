(** Tick bitmap: position arithmetic and both searches (storage/tickmap.rs, state.rs:249-426). *)
From Verif Require Import Base SqrtPrice Types Tickmap State Tactics.
From stdpp Require Import gmap.
From Coq Require Import Lia.
Open Scope Z_scope.

Definition legal_tick (s t : Z) : Prop := - MAX_TICK <= t <= MAX_TICK /\ t mod s = 0.

(** global bit number of a tick *)
Definition bit_index (s t : Z) : Z := t / s + MAX_TICK / s.

Definition chunks_u64 (st : store) : Prop :=
  forall key v, st_bitmap st !! key = Some v -> 0 <= v < 2 ^ 64.

Definition bit_set (st : store) (k : pool_key) (b : Z) : bool :=
  Z.testbit (bitmap_chunk st k (b / 64)) (b mod 64).

Lemma chunk_range st k c : chunks_u64 st -> 0 <= bitmap_chunk st k c < 2 ^ 64.
Proof.
  intros H. unfold bitmap_chunk. destruct (st_bitmap st !! (k, c)) eqn:E; cbn.
  - exact (H _ _ E).
  - lia.
Qed.

Lemma legal_mult s t : 1 <= s -> legal_tick s t -> t = (t / s) * s.
Proof. intros Hs [_ H]. pose proof (Z.div_mod t s ltac:(lia)). lia. Qed.

Lemma bit_index_range s t : 1 <= s -> legal_tick s t -> 0 <= bit_index s t <= 2 * MAX_TICK.
Proof.
  intros Hs H. pose proof (legal_mult s t Hs H) as E. destruct H as [H _]. unfold bit_index.
  assert (- (MAX_TICK / s) <= t / s).
  { assert (- (t / s) <= MAX_TICK / s); [|lia]. apply Z.div_le_lower_bound; lia. }
  assert (t / s <= MAX_TICK / s) by (apply Z.div_le_mono; lia).
  assert (MAX_TICK / s <= MAX_TICK) by (apply Z.div_le_upper_bound; unfold MAX_TICK in *; nia).
  lia.
Qed.

Lemma tick_to_position_ok s t : 1 <= s -> legal_tick s t ->
  tick_to_position t s = Ok (bit_index s t / 64, bit_index s t mod 64).
Proof.
  intros Hs H. pose proof (legal_mult s t Hs H) as E. pose proof (bit_index_range s t Hs H) as R.
  unfold tick_to_position. rewrite (proj2 (in_range_spec _ _ _)) by apply H.
  cbn [negb]. rewrite (proj2 (Z.eqb_neq s 0)) by lia.
  assert (Hrem : Z.rem t s = 0).
  { apply Z.rem_divide; [lia|]. exists (t / s). exact E. }
  rewrite Hrem. cbn [Z.eqb negb].
  assert (Hq : Z.quot (t + MAX_TICK) s = bit_index s t).
  { rewrite Z.quot_div_nonneg; [|destruct H; lia|lia]. unfold bit_index.
    rewrite E at 1. rewrite Z.add_comm, Z.div_add by lia. lia. }
  rewrite Hq. unfold CHUNK_SIZE.
  rewrite Z.quot_div_nonneg by lia. rewrite Z.rem_mod_nonneg by lia.
  pose proof (Z.mod_pos_bound (bit_index s t) 64 ltac:(lia)).
  rewrite (Z.mod_small (bit_index s t mod 64)) by lia.
  rewrite Z.mod_small; [reflexivity|].
  split; [apply Z.div_pos; lia|]. apply Z.div_lt_upper_bound; unfold MAX_TICK in *; lia.
Qed.

Lemma tick_to_position_inv s t c b : 1 <= s -> tick_to_position t s = Ok (c, b) ->
  legal_tick s t /\ c = bit_index s t / 64 /\ b = bit_index s t mod 64.
Proof.
  intros Hs H.
  assert (HL : legal_tick s t).
  { unfold tick_to_position in H. destruct (in_range (- MAX_TICK) MAX_TICK t) eqn:E; [|discriminate].
    cbn [negb] in H. apply in_range_spec in E. split; [exact E|].
    rewrite (proj2 (Z.eqb_neq s 0)) in H by lia.
    destruct (Z.eqb_spec (Z.rem t s) 0) as [R|R]; [|discriminate].
    apply Z.rem_divide in R; [|lia]. apply Z.mod_divide in R; lia. }
  rewrite (tick_to_position_ok s t Hs HL) in H. injection H as <- <-. auto.
Qed.

(** decoding a bit number *)
Lemma bit_decode s t : 1 <= s -> legal_tick s t ->
  (bit_index s t - MAX_TICK / s) * s = t.
Proof. intros Hs H. pose proof (legal_mult s t Hs H). unfold bit_index. lia. Qed.

Lemma bit_index_inj s t u : 1 <= s -> legal_tick s t -> legal_tick s u ->
  bit_index s t = bit_index s u -> t = u.
Proof. intros Hs Ht Hu E. rewrite <- (bit_decode s t), <- (bit_decode s u), E by assumption. reflexivity. Qed.

Lemma get_bit_testbit v b : 0 <= b -> (get_bit_at_position v b =? 1) = Z.testbit v b.
Proof.
  intros Hb. unfold get_bit_at_position.
  change 1 with (Z.ones 1) at 1. rewrite Z.land_ones by lia. change (2 ^ 1) with 2.
  rewrite Zmod_odd, <- Z.bit0_odd, Z.shiftr_spec, Z.add_0_l by lia.
  destruct (Z.testbit v b); reflexivity.
Qed.
Lemma get_bit_testbit0 v b : 0 <= b -> (get_bit_at_position v b =? 0) = negb (Z.testbit v b).
Proof.
  intros Hb. unfold get_bit_at_position.
  change 1 with (Z.ones 1) at 1. rewrite Z.land_ones by lia. change (2 ^ 1) with 2.
  rewrite Zmod_odd, <- Z.bit0_odd, Z.shiftr_spec, Z.add_0_l by lia.
  destruct (Z.testbit v b); reflexivity.
Qed.

Lemma get_bitmap_ok st s t k : 1 <= s -> legal_tick s t ->
  get_bitmap st t s k = Ok (bit_set st k (bit_index s t)).
Proof.
  intros Hs H. unfold get_bitmap. rewrite (tick_to_position_ok s t Hs H). cbn [bind].
  rewrite get_bit_testbit; [reflexivity|]. apply Z.mod_pos_bound. lia.
Qed.

(** * Searching up *)
Lemma skip_up_spec n v bit : 0 <= bit -> 0 <= v -> v <> 0 -> v < 2 ^ Z.of_nat n ->
  exists j, 0 <= j < Z.of_nat n /\ skip_up n v bit = bit + j /\ Z.testbit v j = true /\
            forall i, 0 <= i < j -> Z.testbit v i = false.
Proof.
  revert v bit. induction n as [|n IH]; intros v bit Hb Hv Hv0 Hlt.
  - exfalso. change (Z.of_nat 0) with 0 in Hlt. rewrite Z.pow_0_r in Hlt. lia.
  - cbn [skip_up]. rewrite Nat2Z.inj_succ in *. rewrite Z.pow_succ_r in Hlt by lia.
    rewrite Zmod_odd. rewrite <- Z.bit0_odd.
    destruct (Z.testbit v 0) eqn:E; cbn [Z.eqb].
    + exists 0. repeat split; auto; lia.
    + assert (Hs : Z.shiftr v 1 = v / 2) by (rewrite Z.shiftr_div_pow2; [reflexivity|lia]).
      assert (Hv2 : v = 2 * (v / 2)).
      { rewrite Z.bit0_odd in E. pose proof (Zdiv.Z_div_mod_eq_full v 2) as D. rewrite Zmod_odd, E in D. lia. }
      destruct (IH (Z.shiftr v 1) (bit + 1)) as (j & Hj & Hr & Hjt & Hji); rewrite ?Hs; try lia.
      exists (j + 1). rewrite <- Hs. split; [lia|]. split; [rewrite Hr; lia|].
      rewrite Z.shiftr_spec in Hjt by lia. split; [exact Hjt|].
      intros i Hi. destruct (Z.eq_dec i 0) as [->|]; [exact E|].
      specialize (Hji (i - 1) ltac:(lia)). rewrite Z.shiftr_spec in Hji by lia.
      replace (i - 1 + 1) with i in Hji by lia. exact Hji.
Qed.

Lemma split64 b : b / 64 * 64 + b mod 64 = b /\ 0 <= b mod 64 < 64.
Proof. pose proof (Z.div_mod b 64 ltac:(lia)). pose proof (Z.mod_pos_bound b 64 ltac:(lia)). lia. Qed.
Lemma div64 c b : 0 <= b < 64 -> (c * 64 + b) / 64 = c.
Proof. intros. rewrite Z.add_comm, Z.div_add, Z.div_small by lia. lia. Qed.
Lemma mod64 c b : 0 <= b < 64 -> (c * 64 + b) mod 64 = b.
Proof. intros. rewrite Z.add_comm, Z.mod_add, Z.mod_small by lia. lia. Qed.

(** result of a search over bit numbers [lo..hi] from below *)
Definition first_up (st : store) (k : pool_key) (lo hi : Z) (r : option Z) : Prop :=
  match r with
  | Some b => lo <= b <= hi /\ bit_set st k b = true /\ forall j, lo <= j < b -> bit_set st k j = false
  | None => forall j, lo <= j <= hi -> bit_set st k j = false
  end.

Lemma next_loop_spec n st k sp chunk bit lchunk lbit :
  chunks_u64 st -> 0 <= bit < 64 -> 0 <= lbit < 64 -> lchunk - chunk + 1 <= Z.of_nat n ->
  exists r, first_up st k (chunk * 64 + bit) (lchunk * 64 + lbit) r /\
    next_loop n st k sp chunk bit lchunk lbit =
      option_map (fun b => (b - Z.quot MAX_TICK sp) * sp) r.
Proof.
  intros HU. revert chunk bit. induction n as [|n IH]; intros chunk bit Hb Hlb Hn.
  - exists None. split; [|reflexivity]. cbn. intros j Hj. lia.
  - cbn [next_loop].
    destruct ((chunk <? lchunk) || ((chunk =? lchunk) && (bit <=? lbit))) eqn:EC.
    + pose proof (chunk_range st k chunk HU) as HV. set (v := bitmap_chunk st k chunk) in *.
      assert (Hsh : Z.shiftr v bit = v / 2 ^ bit) by (apply Z.shiftr_div_pow2; lia).
      assert (Hbits : forall j, 0 <= j < 64 - bit -> bit_set st k (chunk * 64 + (bit + j)) = Z.testbit (Z.shiftr v bit) j).
      { intros j Hj. unfold bit_set. rewrite div64, mod64 by lia. fold v.
        rewrite Z.shiftr_spec by lia. f_equal. lia. }
      destruct (Z.eqb_spec (Z.shiftr v bit) 0) as [E0|E0]; cbn [negb].
      * destruct (IH (chunk + 1) 0 ltac:(lia) Hlb ltac:(lia)) as (r & Hr & Heq).
        exists r. split; [|exact Heq].
        assert (Hz : forall j, chunk * 64 + bit <= j < (chunk + 1) * 64 -> bit_set st k j = false).
        { intros j Hj. replace j with (chunk * 64 + (bit + (j - chunk * 64 - bit))) by lia.
          rewrite Hbits by lia. rewrite E0. apply Z.testbit_0_l. }
        destruct r as [b|]; cbn in Hr |- *.
        -- destruct Hr as (H1 & H2 & H3). split; [lia|]. split; [exact H2|].
           intros j Hj. destruct (Z.lt_ge_cases j ((chunk + 1) * 64)); [apply Hz; lia|apply H3; lia].
        -- intros j Hj. destruct (Z.lt_ge_cases j ((chunk + 1) * 64)); [apply Hz; lia|apply Hr; lia].
      * destruct (skip_up_spec 64 (Z.shiftr v bit) bit) as (j & Hj & Hr & Hjt & Hji); try lia.
        { rewrite Hsh. apply Z.div_pos; [lia|]. apply Z.pow_pos_nonneg; lia. }
        { rewrite Hsh. apply Z.div_lt_upper_bound; [apply Z.pow_pos_nonneg; lia|].
          change (2 ^ Z.of_nat 64) with (2 ^ 64).
          assert (1 <= 2 ^ bit) by (apply (Z.pow_le_mono_r 2 0 bit); lia). nia. }
        rewrite Hr.
        assert (Hj64 : j < 64 - bit).
        { destruct (Z.lt_ge_cases j (64 - bit)); [assumption|exfalso].
          rewrite Z.shiftr_spec in Hjt by lia.
          rewrite Z.bits_above_log2 in Hjt; [discriminate|lia|].
          destruct (Z.eq_dec v 0) as [->|]; [cbn; lia|].
          apply Z.log2_lt_pow2; [lia|]. apply Z.lt_le_trans with (2 ^ 64); [lia|].
          apply Z.pow_le_mono_r; lia. }
        assert (Hset : bit_set st k (chunk * 64 + (bit + j)) = true) by (rewrite Hbits by lia; exact Hjt).
        assert (Hbelow : forall i, chunk * 64 + bit <= i < chunk * 64 + (bit + j) -> bit_set st k i = false).
        { intros i Hi. replace i with (chunk * 64 + (bit + (i - chunk * 64 - bit))) by lia.
          rewrite Hbits by lia. apply Hji. lia. }
        destruct ((chunk <? lchunk) || ((chunk =? lchunk) && (bit + j <=? lbit))) eqn:EC2.
        -- exists (Some (chunk * 64 + (bit + j))). split; [|cbn; unfold CHUNK_SIZE; f_equal; lia].
           cbn. apply orb_true_iff in EC2. rewrite andb_true_iff, Z.ltb_lt, Z.eqb_eq, Z.leb_le in EC2.
           split; [lia|]. split; [exact Hset|exact Hbelow].
        -- exists None. split; [|reflexivity]. cbn. intros i Hi.
           apply orb_false_iff in EC2. rewrite andb_false_iff, Z.ltb_ge, Z.eqb_neq, Z.leb_gt in EC2.
           apply orb_true_iff in EC. rewrite andb_true_iff, Z.ltb_lt, Z.eqb_eq, Z.leb_le in EC.
           apply Hbelow. lia.
    + exists None. split; [|reflexivity]. cbn. intros j Hj.
      apply orb_false_iff in EC. rewrite andb_false_iff, Z.ltb_ge, Z.eqb_neq, Z.leb_gt in EC. lia.
Qed.

(** * Searching down *)
Lemma skip_down_spec n v bit j :
  0 <= j <= bit -> bit - j < Z.of_nat n -> Z.testbit v j = true ->
  (forall i, j < i <= bit -> Z.testbit v i = false) -> skip_down n v bit = j.
Proof.
  revert bit. induction n as [|n IH]; intros bit Hj Hn Ht Hi; [lia|].
  cbn [skip_down]. destruct (Z.eq_dec j bit) as [->|Hne]; [rewrite Ht; reflexivity|].
  rewrite Hi by lia. apply IH; auto; try lia. intros i Hi'. apply Hi. lia.
Qed.

Lemma top_bit v : 0 < v -> exists j, 0 <= j /\ Z.testbit v j = true /\ (forall i, j < i -> Z.testbit v i = false) /\ j = Z.log2 v.
Proof.
  intros H. exists (Z.log2 v). split; [apply Z.log2_nonneg|]. split; [apply Z.bit_log2; exact H|].
  split; [|reflexivity]. intros i Hi. apply Z.bits_above_log2; lia.
Qed.

Definition first_down (st : store) (k : pool_key) (hi lo : Z) (r : option Z) : Prop :=
  match r with
  | Some b => lo <= b <= hi /\ bit_set st k b = true /\ forall j, b < j <= hi -> bit_set st k j = false
  | None => forall j, lo <= j <= hi -> bit_set st k j = false
  end.

Lemma prev_loop_spec n st k sp chunk bit lchunk lbit :
  chunks_u64 st -> 0 <= bit < 64 -> 0 <= lbit < 64 -> 0 <= lchunk -> chunk - lchunk + 1 <= Z.of_nat n ->
  exists r, first_down st k (chunk * 64 + bit) (lchunk * 64 + lbit) r /\
    prev_loop n st k sp chunk bit lchunk lbit =
      option_map (fun b => (b - Z.quot MAX_TICK sp) * sp) r.
Proof.
  intros HU. revert chunk bit. induction n as [|n IH]; intros chunk bit Hb Hlb Hl0 Hn.
  - exists None. split; [|reflexivity]. cbn. intros j Hj. lia.
  - cbn [prev_loop].
    destruct ((lchunk <? chunk) || ((chunk =? lchunk) && (lbit <=? bit))) eqn:EC.
    + pose proof (chunk_range st k chunk HU) as HV. set (v := bitmap_chunk st k chunk) in *.
      assert (Hm : Z.shiftl 1 (bit + 1) = 2 ^ (bit + 1)) by (rewrite Z.shiftl_1_l; reflexivity).
      rewrite Hm.
      assert (Hbits : forall j, 0 <= j <= bit -> bit_set st k (chunk * 64 + j) = Z.testbit (v mod 2 ^ (bit + 1)) j).
      { intros j Hj. unfold bit_set. rewrite div64, mod64 by lia. fold v.
        rewrite Z.mod_pow2_bits_low by lia. reflexivity. }
      destruct (Z.ltb_spec 0 (v mod 2 ^ (bit + 1))) as [E0|E0].
      * destruct (top_bit _ E0) as (j & Hj0 & Hjt & Hji & Hjl).
        assert (Hjb : j <= bit).
        { destruct (Z.le_gt_cases j bit); [assumption|exfalso].
          rewrite Z.mod_pow2_bits_high in Hjt by lia. discriminate. }
        assert (Hs : skip_down 64 v bit = j).
        { apply skip_down_spec; try lia.
          - rewrite <- Hjt. rewrite Z.mod_pow2_bits_low by lia. reflexivity.
          - intros i Hi. specialize (Hji i ltac:(lia)). rewrite Z.mod_pow2_bits_low in Hji by lia. exact Hji. }
        rewrite Hs.
        assert (Hset : bit_set st k (chunk * 64 + j) = true) by (rewrite Hbits by lia; exact Hjt).
        assert (Habove : forall i, chunk * 64 + j < i <= chunk * 64 + bit -> bit_set st k i = false).
        { intros i Hi. replace i with (chunk * 64 + (i - chunk * 64)) by lia. rewrite Hbits by lia. apply Hji. lia. }
        destruct ((lchunk <? chunk) || ((chunk =? lchunk) && (lbit <=? j))) eqn:EC2.
        -- exists (Some (chunk * 64 + j)). split; [|cbn; unfold CHUNK_SIZE; f_equal; lia].
           cbn. apply orb_true_iff in EC2. rewrite andb_true_iff, Z.ltb_lt, Z.eqb_eq, Z.leb_le in EC2.
           split; [lia|]. split; [exact Hset|exact Habove].
        -- exists None. split; [|reflexivity]. cbn. intros i Hi.
           apply orb_false_iff in EC2. rewrite andb_false_iff, Z.ltb_ge, Z.eqb_neq, Z.leb_gt in EC2.
           apply orb_true_iff in EC. rewrite andb_true_iff, Z.ltb_lt, Z.eqb_eq, Z.leb_le in EC.
           apply Habove. lia.
      * assert (E1 : v mod 2 ^ (bit + 1) = 0).
        { pose proof (Z.mod_pos_bound v (2 ^ (bit + 1)) ltac:(apply Z.pow_pos_nonneg; lia)). lia. }
        assert (Hz : forall j, chunk * 64 <= j <= chunk * 64 + bit -> bit_set st k j = false).
        { intros j Hj. replace j with (chunk * 64 + (j - chunk * 64)) by lia. rewrite Hbits by lia.
          rewrite E1. apply Z.testbit_0_l. }
        apply orb_true_iff in EC. rewrite andb_true_iff, Z.ltb_lt, Z.eqb_eq, Z.leb_le in EC.
        destruct (Z.eqb_spec chunk 0) as [->|Hc0].
        -- exists None. split; [|reflexivity]. cbn. intros j Hj. apply Hz. lia.
        -- destruct (IH (chunk - 1) (CHUNK_SIZE - 1) ltac:(unfold CHUNK_SIZE; lia) Hlb Hl0 ltac:(lia)) as (r & Hr & Heq).
           exists r. split; [|exact Heq]. unfold CHUNK_SIZE in Hr.
           destruct r as [b|]; cbn in Hr |- *.
           ++ destruct Hr as (H1 & H2 & H3). split; [lia|]. split; [exact H2|].
              intros j Hj. destruct (Z.lt_ge_cases j (chunk * 64)); [apply H3; lia|apply Hz; lia].
           ++ intros j Hj. destruct (Z.lt_ge_cases j (chunk * 64)); [apply Hr; lia|apply Hz; lia].
    + exists None. split; [|reflexivity]. cbn. intros j Hj.
      apply orb_false_iff in EC. rewrite andb_false_iff, Z.ltb_ge, Z.eqb_neq, Z.leb_gt in EC. lia.
Qed.

(** * The searches on ticks *)
Definition up_limit (s t : Z) : Z := Z.min (t / s + 256) (MAX_TICK / s) * s.
Definition down_limit (s t : Z) : Z := Z.max (t / s - 256) (- (MAX_TICK / s)) * s.

Lemma quot_exact s t : 1 <= s -> t mod s = 0 -> Z.quot t s = t / s.
Proof.
  intros Hs H. pose proof (Z.div_mod t s ltac:(lia)) as E. rewrite H in E.
  rewrite E at 1. rewrite Z.add_0_r, Z.mul_comm, Z.quot_mul by lia. reflexivity.
Qed.
Lemma quot_max s : 1 <= s -> Z.quot MAX_TICK s = MAX_TICK / s.
Proof. intros. apply Z.quot_div_nonneg; unfold MAX_TICK; lia. Qed.

Lemma search_limit_up s t : 1 <= s -> t mod s = 0 -> get_search_limit t s true = up_limit s t.
Proof.
  intros Hs H. unfold get_search_limit, up_limit. rewrite quot_exact, quot_max by assumption.
  unfold TICK_SEARCH_RANGE. reflexivity.
Qed.
Lemma search_limit_down s t : 1 <= s -> t mod s = 0 -> get_search_limit t s false = down_limit s t.
Proof.
  intros Hs H. unfold get_search_limit, down_limit. rewrite quot_exact by assumption.
  rewrite Z.quot_opp_l, quot_max by lia. unfold TICK_SEARCH_RANGE. reflexivity.
Qed.

Lemma div_range s t : 1 <= s -> legal_tick s t -> - (MAX_TICK / s) <= t / s <= MAX_TICK / s.
Proof.
  intros Hs H. pose proof (legal_mult s t Hs H) as E. destruct H as [H _]. split.
  - assert (- (t / s) <= MAX_TICK / s); [|lia]. apply Z.div_le_lower_bound; lia.
  - apply Z.div_le_mono; lia.
Qed.

Lemma legal_of_div s q : 1 <= s -> - (MAX_TICK / s) <= q <= MAX_TICK / s -> legal_tick s (q * s).
Proof.
  intros Hs Hq. split; [|apply Z.mod_mul; lia].
  pose proof (Z.mul_div_le MAX_TICK s ltac:(lia)). nia.
Qed.
Lemma div_mul_id s q : 1 <= s -> (q * s) / s = q.
Proof. intros. apply Z.div_mul. lia. Qed.

Definition is_init (st : store) (k : pool_key) (s t : Z) : Prop := get_bitmap st t s k = Ok true.

Lemma is_init_bit st k s t : 1 <= s -> legal_tick s t ->
  is_init st k s t <-> bit_set st k (bit_index s t) = true.
Proof.
  intros Hs H. unfold is_init. rewrite get_bitmap_ok by assumption. split; [congruence|intros ->; reflexivity].
Qed.
Lemma is_init_legal st k s t : 1 <= s -> is_init st k s t -> legal_tick s t.
Proof.
  intros Hs H. unfold is_init, get_bitmap in H. apply bind_ok in H as ([c b] & H & _).
  apply tick_to_position_inv in H; tauto.
Qed.

(** an initialized tick number [t/s] as a bit *)
Lemma init_num st k s q : 1 <= s -> - (MAX_TICK / s) <= q <= MAX_TICK / s ->
  is_init st k s (q * s) <-> bit_set st k (q + MAX_TICK / s) = true.
Proof.
  intros Hs Hq. rewrite is_init_bit by (try apply legal_of_div; assumption).
  unfold bit_index. rewrite div_mul_id by assumption. reflexivity.
Qed.

Definition nearest_up (st : store) (k : pool_key) (s t : Z) (r : option Z) : Prop :=
  match r with
  | Some i => t < i <= up_limit s t /\ is_init st k s i /\
              forall j, t < j < i -> ~ is_init st k s j
  | None => forall j, t < j <= up_limit s t -> ~ is_init st k s j
  end.
Definition nearest_down (st : store) (k : pool_key) (s t : Z) (r : option Z) : Prop :=
  match r with
  | Some i => down_limit s t <= i <= t /\ is_init st k s i /\
              forall j, i < j <= t -> ~ is_init st k s j
  | None => forall j, down_limit s t <= j <= t -> ~ is_init st k s j
  end.

Lemma not_init st k s j : 1 <= s -> legal_tick s j ->
  bit_set st k (bit_index s j) = false -> ~ is_init st k s j.
Proof. intros Hs Hj E H. apply is_init_bit in H; [congruence|assumption|assumption]. Qed.

Lemma next_initialized_spec st k s t : chunks_u64 st -> 1 <= s -> - MAX_TICK <= t + s -> t <= MAX_TICK -> t mod s = 0 ->
  exists r, next_initialized st t s k = Ok r /\ nearest_up st k s t r.
Proof.
  intros HU Hs Hlo Hhi Hm. unfold next_initialized. rewrite (proj2 (Z.eqb_neq s 0)) by lia.
  rewrite search_limit_up by assumption.
  assert (Et : t = t / s * s) by (pose proof (Z.div_mod t s ltac:(lia)); lia).
  destruct (Z.ltb_spec MAX_TICK (t + s)) as [Hgt|Hle].
  - exists None. split; [reflexivity|]. cbn. intros j Hj Hi. unfold up_limit in Hj.
    apply is_init_legal in Hi; [|assumption]. pose proof (legal_mult s j Hs Hi) as Ej.
    destruct Hi as [Hi _]. set (a := t / s) in *. set (b := j / s) in *.
    assert (a < b) by nia. nia.
  - assert (HL1 : legal_tick s (t + s)).
    { split; [lia|]. rewrite Z.add_mod, Hm, Z.mod_same, Z.mod_0_l by lia. reflexivity. }
    pose proof (div_range s (t + s) Hs HL1) as R1.
    assert (Ed : (t + s) / s = t / s + 1).
    { rewrite Et at 1. replace (t / s * s + s) with ((t / s + 1) * s) by lia. apply Z.div_mul. lia. }
    assert (HL2 : legal_tick s (up_limit s t)) by (apply legal_of_div; [assumption|lia]).
    rewrite (tick_to_position_ok s _ Hs HL1), (tick_to_position_ok s _ Hs HL2). cbn [bind].
    set (b := bit_index s (t + s)). set (lb := bit_index s (up_limit s t)).
    assert (Eb : b = t / s + 1 + MAX_TICK / s) by (unfold b, bit_index; lia).
    assert (Elb : lb = Z.min (t / s + 256) (MAX_TICK / s) + MAX_TICK / s).
    { unfold lb, bit_index, up_limit. rewrite div_mul_id by assumption. reflexivity. }
    pose proof (split64 b) as [Sb Rb]. pose proof (split64 lb) as [Slb Rlb].
    destruct (next_loop_spec (Z.to_nat (lb / 64 - b / 64 + 1)) st k s (b / 64) (b mod 64) (lb / 64) (lb mod 64)
                HU Rb Rlb ltac:(lia)) as (r & Hr & Heq).
    rewrite Sb, Slb in Hr. exists (option_map (fun b => (b - MAX_TICK ÷ s) * s) r).
    split; [rewrite Heq; reflexivity|]. rewrite quot_max by assumption.
    assert (Hno : forall hi, hi <= lb + 1 -> (forall j, b <= j < hi -> bit_set st k j = false) ->
              forall j, t < j < (hi - MAX_TICK / s) * s -> ~ is_init st k s j).
    { intros hi Hhi' Hf j Hj Hi. pose proof (is_init_legal _ _ _ _ Hs Hi) as HLj.
      pose proof (legal_mult s j Hs HLj) as Ej. revert Hi. apply not_init; [assumption|assumption|].
      apply Hf. unfold bit_index. assert (t / s < j / s) by nia. assert (j / s < hi - MAX_TICK / s) by nia. lia. }
    destruct r as [b'|]; cbn in Hr |- *.
    + destruct Hr as (H1 & H2 & H3). split; [|split].
      * rewrite Et at 1. unfold up_limit. split; [apply Z.mul_lt_mono_pos_r; lia|apply Z.mul_le_mono_nonneg_r; lia].
      * apply init_num; [assumption|lia|]. rewrite Z.sub_add. exact H2.
      * intros j Hj. apply (Hno b'); [lia|exact H3|lia].
    + intros j Hj. apply (Hno (lb + 1)); [lia|intros i Hi; apply Hr; lia|].
      split; [lia|]. rewrite Elb. unfold up_limit in Hj. nia.
Qed.

Lemma prev_initialized_spec st k s t : chunks_u64 st -> 1 <= s -> legal_tick s t ->
  exists r, prev_initialized st t s k = Ok r /\ nearest_down st k s t r.
Proof.
  intros HU Hs HL. unfold prev_initialized. rewrite (proj2 (Z.eqb_neq s 0)) by lia.
  rewrite search_limit_down by (try apply HL; assumption).
  pose proof (legal_mult s t Hs HL) as Et. pose proof (div_range s t Hs HL) as R1.
  assert (HL2 : legal_tick s (down_limit s t)) by (apply legal_of_div; [assumption|lia]).
  rewrite (tick_to_position_ok s _ Hs HL), (tick_to_position_ok s _ Hs HL2). cbn [bind].
  set (b := bit_index s t). set (lb := bit_index s (down_limit s t)).
  assert (Eb : b = t / s + MAX_TICK / s) by reflexivity.
  assert (Elb : lb = Z.max (t / s - 256) (- (MAX_TICK / s)) + MAX_TICK / s).
  { unfold lb, bit_index, down_limit. rewrite div_mul_id by assumption. reflexivity. }
  pose proof (split64 b) as [Sb Rb]. pose proof (split64 lb) as [Slb Rlb].
  assert (Hl0 : 0 <= lb / 64) by (apply Z.div_pos; lia).
  destruct (prev_loop_spec (Z.to_nat (b / 64 - lb / 64 + 1)) st k s (b / 64) (b mod 64) (lb / 64) (lb mod 64)
              HU Rb Rlb Hl0 ltac:(lia)) as (r & Hr & Heq).
  rewrite Sb, Slb in Hr. exists (option_map (fun b => (b - MAX_TICK ÷ s) * s) r).
  split; [rewrite Heq; reflexivity|]. rewrite quot_max by assumption.
  assert (Hno : forall lo, lb - 1 <= lo -> (forall j, lo < j <= b -> bit_set st k j = false) ->
            forall j, (lo - MAX_TICK / s) * s < j <= t -> ~ is_init st k s j).
  { intros lo Hlo Hf j Hj Hi. pose proof (is_init_legal _ _ _ _ Hs Hi) as HLj.
    pose proof (legal_mult s j Hs HLj) as Ej. revert Hi. apply not_init; [assumption|assumption|].
    apply Hf. unfold bit_index. assert (j / s <= t / s) by nia. assert (lo - MAX_TICK / s < j / s) by nia. lia. }
  destruct r as [b'|]; cbn in Hr |- *.
  + destruct Hr as (H1 & H2 & H3). split; [|split].
    * rewrite Et at 2. unfold down_limit. split; apply Z.mul_le_mono_nonneg_r; lia.
    * apply init_num; [assumption|lia|]. rewrite Z.sub_add. exact H2.
    * intros j Hj. apply (Hno b'); [lia|exact H3|lia].
  + intros j Hj. apply (Hno (lb - 1)); [lia|intros i Hi; apply Hr; lia|].
    split; [|lia]. rewrite Elb. unfold down_limit in Hj. nia.
Qed.

(** * Flipping *)
Lemma flip_bitmap_ok st v t s k st' : 1 <= s -> flip_bitmap st v t s k = Ok st' ->
  legal_tick s t /\ bit_set st k (bit_index s t) = negb v /\
  st' = set_bitmap st (<[(k, bit_index s t / 64) :=
          Z.lxor (bitmap_chunk st k (bit_index s t / 64)) (2 ^ (bit_index s t mod 64))]> (st_bitmap st)).
Proof.
  intros Hs H. unfold flip_bitmap in H. apply bind_ok in H as ([c b] & E & H).
  apply tick_to_position_inv in E as (HL & -> & ->); [|assumption].
  pose proof (split64 (bit_index s t)) as [_ R].
  rewrite get_bit_testbit0 in H by lia. unfold bit_set.
  set (x := Z.testbit _ _) in *. split; [assumption|].
  destruct (Bool.eqb (negb x) v) eqn:Ex; cbn [negb] in H; [|discriminate].
  apply Bool.eqb_prop in Ex. split; [subst v; destruct x; reflexivity|].
  injection H as <-. unfold flip_bit_at_position. rewrite Z.shiftl_1_l. reflexivity.
Qed.

Lemma bit_set_flip st k t s k' b : 1 <= s -> 0 <= bit_index s t ->
  bit_set (set_bitmap st (<[(k, bit_index s t / 64) :=
          Z.lxor (bitmap_chunk st k (bit_index s t / 64)) (2 ^ (bit_index s t mod 64))]> (st_bitmap st))) k' b
  = if decide (k' = k /\ b = bit_index s t) then negb (bit_set st k b) else bit_set st k' b.
Proof.
  intros Hs Hi. set (i := bit_index s t) in *.
  pose proof (split64 i) as [Si Ri]. pose proof (split64 b) as [Sb Rb].
  unfold bit_set at 1, bitmap_chunk at 1. cbn [st_bitmap set_bitmap].
  destruct (decide (k' = k /\ b / 64 = i / 64)) as [[-> E]|N].
  - rewrite E, lookup_insert. cbn. rewrite Z.lxor_spec.
    rewrite Z.pow2_bits_eqb by lia.
    destruct (decide (k = k /\ b = i)) as [[_ ->]|N].
    + rewrite Z.eqb_refl. unfold bit_set. destruct (Z.testbit _ _); reflexivity.
    + rewrite (proj2 (Z.eqb_neq _ _)) by (intro; apply N; split; [reflexivity|lia]).
      unfold bit_set. rewrite E. destruct (Z.testbit _ _); reflexivity.
  - rewrite lookup_insert_ne by (intros X; apply N; injection X; intros; split; congruence).
    rewrite decide_False; [reflexivity|]. intros [-> ->]. apply N. auto.
Qed.

Lemma flip_u64 st v t s k st' : 1 <= s -> chunks_u64 st -> flip_bitmap st v t s k = Ok st' -> chunks_u64 st'.
Proof.
  intros Hs HU H. apply flip_bitmap_ok in H as (HL & _ & ->); [|assumption].
  intros key w. cbn [st_bitmap set_bitmap]. intros Hw.
  apply lookup_insert_Some in Hw as [[_ <-]|[_ Hw]]; [|exact (HU _ _ Hw)].
  pose proof (chunk_range st k (bit_index s t / 64) HU) as HV. pose proof (split64 (bit_index s t)) as [_ R].
  set (c := bitmap_chunk _ _ _) in *. set (b := bit_index s t mod 64) in *.
  split; [apply Z.lxor_nonneg; split; intros; try lia; apply Z.pow_nonneg; lia|].
  destruct (Z.eq_dec (Z.lxor c (2 ^ b)) 0) as [->|N]; [lia|].
  assert (0 <= Z.lxor c (2 ^ b)) by (apply Z.lxor_nonneg; split; intros; try lia; apply Z.pow_nonneg; lia).
  apply Z.log2_lt_pow2; [lia|]. eapply Z.le_lt_trans; [apply Z.log2_lxor; [lia|apply Z.pow_nonneg; lia]|].
  rewrite Z.log2_pow2 by lia. apply Z.max_lub_lt; [|lia].
  destruct (Z.eq_dec c 0) as [->|]; [cbn; lia|]. apply Z.log2_lt_pow2; lia.
Qed.
