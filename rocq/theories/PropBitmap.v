(** Properties C08 and C09: the tick bitmap. *)
From Verif Require Import Base SqrtPrice Types Tickmap State Tactics BitmapProofs.
From stdpp Require Import gmap strings.
From Coq Require Import Lia.
Open Scope Z_scope.

(** every stored chunk is a u64, as the Rust type says; the flag of a tick is what
    [is_tick_initialized] reports *)
Definition stored_u64 (st : store) : Prop :=
  forall k c v, st_bitmap st !! (k, c) = Some v -> 0 <= v < 2 ^ 64.
Definition initialized (st : store) (k : pool_key) (s t : Z) : Prop := get_bitmap st t s k = Ok true.

Definition legal (s t : Z) : Prop := -221818 <= t <= 221818 /\ t mod s = 0.

(** C08 upward: strictly above [t], at most 256 spacings away *)
Theorem C08_search_up :
  forall st k s t, stored_u64 st -> 1 <= s -> legal s t ->
  exists r, next_initialized st t s k = Ok r /\
  match r with
  | Some i => t < i <= t + 256 * s /\ initialized st k s i /\
              (forall j, t < j < i -> ~ initialized st k s j)
  | None => forall j, t < j <= t + 256 * s -> ~ initialized st k s j
  end.
Proof.
  intros st k s t HU Hs [Ht Hm].
  assert (HU' : chunks_u64 st) by (intros [k' c'] v' H; exact (HU _ _ _ H)).
  destruct (next_initialized_spec st k s t HU' Hs) as (r & Hr & HN); [unfold MAX_TICK; lia|unfold MAX_TICK; lia|exact Hm|].
  exists r. split; [exact Hr|].
  assert (Et : t = t / s * s) by (pose proof (Z.div_mod t s ltac:(lia)); lia).
  destruct r as [i|]; cbn in HN.
  - destruct HN as (H1 & H2 & H3). split; [|split; assumption].
    unfold up_limit in H1. nia.
  - intros j Hj Hi. apply (HN j); [|exact Hi].
    pose proof (is_init_legal _ _ _ _ Hs Hi) as HL. pose proof (legal_mult s j Hs HL) as Ej.
    pose proof (div_range s j Hs HL) as [_ R].
    assert (j / s <= t / s + 256) by nia. unfold up_limit. nia.
Qed.

(** C08 downward: at or below [t], at most 256 spacings away *)
Theorem C08_search_down :
  forall st k s t, stored_u64 st -> 1 <= s -> legal s t ->
  exists r, prev_initialized st t s k = Ok r /\
  match r with
  | Some i => t - 256 * s <= i <= t /\ initialized st k s i /\
              (forall j, i < j <= t -> ~ initialized st k s j)
  | None => forall j, t - 256 * s <= j <= t -> ~ initialized st k s j
  end.
Proof.
  intros st k s t HU Hs [Ht Hm].
  assert (HU' : chunks_u64 st) by (intros [k' c'] v' H; exact (HU _ _ _ H)).
  destruct (prev_initialized_spec st k s t HU' Hs) as (r & Hr & HN); [split; [unfold MAX_TICK; lia|exact Hm]|].
  exists r. split; [exact Hr|].
  assert (Et : t = t / s * s) by (pose proof (Z.div_mod t s ltac:(lia)); lia).
  destruct r as [i|]; cbn in HN.
  - destruct HN as (H1 & H2 & H3). split; [|split; assumption].
    unfold down_limit in H1. nia.
  - intros j Hj Hi. apply (HN j); [|exact Hi].
    pose proof (is_init_legal _ _ _ _ Hs Hi) as HL. pose proof (legal_mult s j Hs HL) as Ej.
    pose proof (div_range s j Hs HL) as [R _].
    assert (t / s - 256 <= j / s) by nia. unfold down_limit. nia.
Qed.

(** C09 *)
Theorem C09_flag_defined :
  forall st k s t, 1 <= s -> legal s t <-> exists b, get_bitmap st t s k = Ok b.
Proof.
  intros st k s t Hs. split.
  - intros H. exists (bit_set st k (bit_index s t)). apply get_bitmap_ok; assumption.
  - intros [b H]. unfold get_bitmap in H. apply bind_ok in H as ([c b'] & H & _).
    apply tick_to_position_inv in H; tauto.
Qed.

Theorem C09_flip_changes_one_flag :
  forall st v t s k, 1 <= s ->
  ((exists st', flip_bitmap st v t s k = Ok st') <-> get_bitmap st t s k = Ok (negb v)) /\
  (forall st', flip_bitmap st v t s k = Ok st' ->
     get_bitmap st' t s k = Ok v /\
     (forall t', t' <> t -> get_bitmap st' t' s k = get_bitmap st t' s k) /\
     (forall k' s' t', 1 <= s' -> k' <> k -> get_bitmap st' t' s' k' = get_bitmap st t' s' k') /\
     st_config st' = st_config st /\ st_pools st' = st_pools st /\ st_ticks st' = st_ticks st /\
     st_positions st' = st_positions st /\ st_poslen st' = st_poslen st /\
     st_operators st' = st_operators st /\
     flip_bitmap st' v t s k = Err TickReInitialize).
Proof.
  intros st v t s k Hs. split.
  - split.
    + intros [st' H]. apply flip_bitmap_ok in H as (HL & Hb & _); [|assumption].
      rewrite get_bitmap_ok, Hb by assumption. reflexivity.
    + intros H. assert (HL : legal_tick s t) by (apply (C09_flag_defined st k); eauto).
      rewrite get_bitmap_ok in H by assumption. injection H as H.
      unfold flip_bitmap. rewrite tick_to_position_ok by assumption. cbn [bind].
      pose proof (split64 (bit_index s t)) as [_ R].
      rewrite get_bit_testbit0 by lia. unfold bit_set in H. rewrite H, Bool.negb_involutive, Bool.eqb_reflx.
      cbn. eauto.
  - intros st' H. pose proof H as H0. apply flip_bitmap_ok in H as (HL & Hb & ->); [|assumption].
    pose proof (bit_index_range s t Hs HL) as [R _].
    assert (Hsame : forall k' s' t', 1 <= s' -> ~ (k' = k /\ s' = s /\ t' = t) ->
      (k' = k -> s' = s) ->
      get_bitmap (set_bitmap st (<[(k, bit_index s t / 64) :=
        Z.lxor (bitmap_chunk st k (bit_index s t / 64)) (2 ^ (bit_index s t mod 64))]> (st_bitmap st))) t' s' k'
      = get_bitmap st t' s' k').
    { intros k' s' t' Hs' N Hk.
      destruct (decide (legal_tick s' t')) as [HL'|NL].
      - rewrite !get_bitmap_ok by assumption. f_equal.
        rewrite bit_set_flip by assumption. rewrite decide_False; [reflexivity|].
        intros [-> E]. specialize (Hk eq_refl) as ->. apply N. repeat split.
        apply (bit_index_inj s); assumption.
      - unfold get_bitmap. destruct (tick_to_position t' s') as [[c b]| |] eqn:E; [|reflexivity|reflexivity].
        exfalso. apply NL. apply tick_to_position_inv in E; tauto. }
    set (st1 := set_bitmap _ _) in *.
    assert (H1 : get_bitmap st1 t s k = Ok v).
    { rewrite get_bitmap_ok by assumption. unfold st1. rewrite bit_set_flip by assumption.
      rewrite decide_True by auto. rewrite Hb, Bool.negb_involutive. reflexivity. }
    split; [exact H1|]. split; [intros t' Ht; apply Hsame; [assumption|tauto|reflexivity]|].
    split; [intros k' s' t' Hs' Hk; apply Hsame; [assumption|tauto|tauto]|].
    do 6 (split; [reflexivity|]).
    rewrite get_bitmap_ok in H1 by assumption. injection H1 as H1.
    unfold flip_bitmap. rewrite tick_to_position_ok by assumption. cbn [bind].
    pose proof (split64 (bit_index s t)) as [_ R'].
    rewrite get_bit_testbit0 by lia. unfold bit_set in H1. rewrite H1.
    destruct v; reflexivity.
Qed.

(** a bitmap with ticks -100, 30 and 2560 set (spacing 10) *)
Definition ex_key : pool_key := mkPoolKey "a" "b" (mkFeeTier 1 10).
Definition ex_store : res store :=
  let s0 := mkStore (mkConfig "" [] 0) ∅ ∅ ∅ ∅ ∅ ∅ in
  let* s1 := flip_bitmap s0 true (-100) 10 ex_key in
  let* s2 := flip_bitmap s1 true 30 10 ex_key in
  flip_bitmap s2 true 2560 10 ex_key.
Example C08_example :
  match ex_store with
  | Ok st => next_initialized st (-100) 10 ex_key = Ok (Some 30) /\
             next_initialized st 30 10 ex_key = Ok (Some 2560) /\
             next_initialized st 2560 10 ex_key = Ok None /\
             prev_initialized st 2550 10 ex_key = Ok (Some 30) /\
             prev_initialized st (-100) 10 ex_key = Ok (Some (-100)) /\
             prev_initialized st (-110) 10 ex_key = Ok None /\
             next_initialized st (-2670) 10 ex_key = Ok None /\
             next_initialized st (-2660) 10 ex_key = Ok (Some (-100)) /\
             flip_bitmap st true 30 10 ex_key = Err TickReInitialize
  | _ => False
  end.
Proof. vm_compute. repeat split; reflexivity. Qed.

Print Assumptions C08_search_up.
Print Assumptions C08_search_down.
Print Assumptions C09_flag_defined.
Print Assumptions C09_flip_changes_one_flag.
