(** Property C10: storage keys. *)
From Verif Require Import Base Types Keys Tactics KeysProofs.
From Coq Require Import Lia.
From stdpp Require Import strings.
Open Scope Z_scope.

(** numeric fields within their Rust types *)
Definition key_typed (k : storage_key) : Prop :=
  match k with
  | KConfig | KPosLen _ | KOperator _ _ => True
  | KPool k => 0 <= ft_fee (pk_tier k) < 2 ^ 64 /\ 0 <= ft_spacing (pk_tier k) < 2 ^ 16
  | KTick k i => (0 <= ft_fee (pk_tier k) < 2 ^ 64 /\ 0 <= ft_spacing (pk_tier k) < 2 ^ 16) /\
                 - 2 ^ 31 <= i < 2 ^ 31
  | KBitmap k c => (0 <= ft_fee (pk_tier k) < 2 ^ 64 /\ 0 <= ft_spacing (pk_tier k) < 2 ^ 16) /\
                   0 <= c < 2 ^ 16
  | KPosition _ i => 0 <= i < 2 ^ 32
  end.

(** No two storage cells of the contract share a raw key. *)
Theorem C10_no_collision :
  forall a b r, key_typed a -> key_typed b -> raw_key a = Ok r -> raw_key b = Ok r -> a = b.
Proof.
  assert (HC : forall n ns a, slen n < 256 -> in_namespace (n :: ns) a <> Ok "config"%string).
  { intros n ns a Hlt H. unfold in_namespace in H. apply bind_ok in H as (p & E & H).
    apply length_prefixed_cons in E as (Hs & q & E & ->). apply Ok_inj in H.
    change (be_bytes 2 (slen n)) with
      (String (byte (slen n / 256)) (String (byte (slen n / 1)) "")) in H.
    rewrite !cons_app in H. injection H as Hb _.
    rewrite Z.div_small in Hb by (pose proof (slen_nonneg n); lia). discriminate. }
  assert (HF : forall n ns m ms a b r, n <> m -> in_namespace (n :: ns) a = Ok r ->
             in_namespace (m :: ms) b = Ok r -> False).
  { intros n ns m ms a b r N H1 H2. apply N. eapply in_namespace_first; eassumption. }
  intros a b r Ha Hb H1 H2.
  destruct a, b; cbn [raw_key key_typed] in *;
    repeat match goal with
    | H : bind _ _ = Ok _ |- _ => apply bind_ok in H; destruct H as (?x & ?E & H)
    end;
    try reflexivity;
    try (exfalso; match goal with
         | H1 : Ok _ = Ok r, H2 : in_namespace (?n :: _) _ = Ok r |- _ =>
             apply Ok_inj in H1; subst r; revert H2; apply HC; reflexivity
         | H1 : in_namespace (?n :: _) _ = Ok r, H2 : in_namespace (?m :: _) _ = Ok r |- _ =>
             refine (HF n _ m _ _ _ _ _ H1 H2); discriminate
         end);
    match goal with
    | H1 : in_namespace ?n _ = Ok r, H2 : in_namespace ?m _ = Ok r |- _ =>
        let E := fresh "E" in
        pose proof (in_namespace_inj n m _ _ _ eq_refl H1 H2) as [?N E]; try subst
    end.
  - f_equal. eapply pool_key_bytes_inj; eassumption.
  - match goal with H : tick_key_bytes _ _ = Ok ?y |- _ =>
      destruct (tick_key_inj k k0 index index0 y) as [-> ->]; try reflexivity; unfold tier_ok; try tauto end.
  - match goal with H : bitmap_key_bytes _ _ = Ok ?y |- _ =>
      destruct (bitmap_key_inj k k0 chunk chunk0 y) as [-> ->]; try reflexivity; unfold tier_ok; try tauto end.
  - destruct (position_key_inj owner owner0 index index0) as [-> ->]; try reflexivity; unfold tier_ok; try tauto.
  - reflexivity.
  - injection N as ->. reflexivity.
Qed.

(** Decoding gives back the encoded pool key; encoding fails only for names over 65535 bytes. *)
Theorem C10_pool_key_roundtrip :
  forall k r, key_typed (KPool k) -> pool_key_bytes k = Ok r -> pool_key_from_bytes r = Ok k.
Proof. intros k r Hk H. apply pool_key_round; assumption. Qed.

Theorem C10_pool_key_encodable :
  forall k, Z.of_nat (String.length (pk_x k)) <= 65535 -> Z.of_nat (String.length (pk_y k)) <= 65535 ->
  exists r, pool_key_bytes k = Ok r.
Proof.
  intros k Hx Hy. unfold pool_key_bytes. cbn [length_prefixed]. unfold slen.
  destruct (Z.ltb_spec 65535 (Z.of_nat (String.length (pk_x k)))); [lia|].
  destruct (Z.ltb_spec 65535 (Z.of_nat (String.length (pk_y k)))); [lia|].
  unfold fee_tier_key. rewrite str_app_length, !be_bytes_length. cbn. eauto.
Qed.

(** A token id is the owner followed by the index: the two directions are inverse. *)
Theorem C10_token_id_roundtrip :
  (forall owner i, 0 <= i < 2 ^ 32 -> split_token (position_key_bytes owner i) = Some (owner, i)) /\
  (forall tid owner i, split_token tid = Some (owner, i) ->
     position_key_bytes owner i = tid /\ 0 <= i < 2 ^ 32) /\
  (forall tid, split_token tid = None <-> (String.length tid < 4)%nat).
Proof.
  split; [exact split_token_round|]. split; [exact split_token_inv|].
  intros tid. unfold split_token. destruct (Nat.ltb_spec (String.length tid) 4); split; intros; try congruence; lia.
Qed.

Example C10_example :
  pool_key_bytes (mkPoolKey "ab" "c" (mkFeeTier 3 10)) =
    Ok (be_bytes 2 2 +:+ "ab" +:+ be_bytes 2 1 +:+ "c" +:+ be_bytes 2 10 +:+ be_bytes 8 3 +:+ be_bytes 2 10)%string /\
  split_token (position_key_bytes "alice" 258) = Some ("alice"%string, 258) /\
  (* the concatenation of names is the same, the keys are not *)
  pool_key_bytes (mkPoolKey "ab" "c" (mkFeeTier 3 10)) <> pool_key_bytes (mkPoolKey "a" "bc" (mkFeeTier 3 10)).
Proof. vm_compute. repeat split; try reflexivity. discriminate. Qed.

Print Assumptions C10_no_collision.
Print Assumptions C10_pool_key_roundtrip.
Print Assumptions C10_pool_key_encodable.
Print Assumptions C10_token_id_roundtrip.
