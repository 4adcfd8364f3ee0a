(** C112: no account and no token is special: rename them all, and everything happens as before under the new names. *)
From Verif Require Import Base Decimal SqrtPrice Clamm Log FeeGrowth Types Tick Pool Position
  Tickmap Keys State Swap Exec Query Tactics Frame Handlers History Basic KeysProofs Vectors Scenario PropTrade PropPerm PropLocal PropClock.
From stdpp Require Import gmap strings.
From Coq Require Import Lia.
Open Scope Z_scope.

Section Name.
(** the new names of accounts and of tokens *)
Context (f g : string -> string).
Definition named_approval (a : approval) : approval := mkApproval (f (ap_spender a)) (ap_expires a).
Definition named_pool (p : pool) : pool := p_set_receiver p (f (p_receiver p)).
Definition named_key (k : pool_key) : pool_key := mkPoolKey (g (pk_x k)) (g (pk_y k)) (pk_tier k).
Definition named_position (p : position) : position :=
  mkPosition (named_key (po_key p)) (po_liq p) (po_lower p) (po_upper p) (po_fgx p) (po_fgy p)
             (po_block p) (po_owedx p) (po_owedy p) (map named_approval (po_approvals p)).
Definition named_config (c : config) : config := mkConfig (f (cf_admin c)) (cf_fee_tiers c) (cf_protocol_fee c).
(** a token id names the owner *)
Definition named_token (tid : string) : string :=
  match split_token tid with
  | Some (a, ix) => position_key_bytes (f a) ix
  | None => tid
  end.
Definition named_info (i : msg_info) : msg_info := 
  mkInfo (f (i_sender i)) (map (fun c => mkCoin (g (c_denom c)) (c_amount c)) (i_funds i)).
Definition named_hop (h : swap_hop) : swap_hop := mkHop (named_key (hop_key h)) (hop_x_to_y h).
Definition named_msg (m : exec_msg) : exec_msg :=
  match m with
  | ChangeAdmin a => ChangeAdmin (f a)
  | WithdrawProtocolFee k => WithdrawProtocolFee (named_key k)
  | ChangeFeeReceiver k r => ChangeFeeReceiver (named_key k) (f r)
  | CreatePosition k l u q sl su => CreatePosition (named_key k) l u q sl su
  | Mint k l u q sl su => Mint (named_key k) l u q sl su
  | Swap k d a b lim => Swap (named_key k) d a b lim
  | SwapRoute a x sl hops => SwapRoute a x sl (map named_hop hops)
  | CreatePool a b t p ix => CreatePool (g a) (g b) t p ix
  | TransferPosition ix r => TransferPosition ix (f r)
  | TransferNft r tid => TransferNft (f r) (named_token tid)
  | Burn tid => Burn (named_token tid)
  | SendNft c tid x => SendNft (f c) (named_token tid) x
  | Approve a tid x => Approve (f a) (named_token tid) x
  | Revoke a tid => Revoke (f a) (named_token tid)
  | ApproveAll o x => ApproveAll (f o) x
  | RevokeAll o => RevokeAll (f o)
  | _ => m
  end.
Definition named_out (m : out_msg) : out_msg :=
  match m with
  | Cw20Transfer c r v => Cw20Transfer (g c) (f r) v
  | Cw20TransferFrom c o r v => Cw20TransferFrom (g c) (f o) (f r) v
  | BankSend r c v => BankSend (f r) (g c) v
  | NftReceive c o tid x => NftReceive (f c) (f o) (named_token tid) x
  end.
(** [t] holds under the new names what [s] holds under the old *)
Record named (s t : store) : Prop := {
  nm_config : st_config t = named_config (st_config s);
  nm_pool k : st_pools t !! named_key k = named_pool <$> st_pools s !! k;
  nm_tick k j : st_ticks t !! (named_key k, j) = st_ticks s !! (k, j);
  nm_bitmap k c : st_bitmap t !! (named_key k, c) = st_bitmap s !! (k, c);
  nm_position a ix : st_positions t !! (f a, ix) = named_position <$> st_positions s !! (a, ix);
  nm_len a : st_poslen t !! f a = st_poslen s !! a;
  nm_operator a b : st_operators t !! (f a, f b) = st_operators s !! (a, b)
}.
(** different accounts have different new names; the chain takes a new name for an address or a text
    whenever it took the old one; the contract keeps its name *)
Definition fair_names (e : env) : Prop :=
  f (e_self e) = e_self e /\ (forall a, e_addr_ok e (f a) = e_addr_ok e a) /\ (forall a, e_utf8_ok e (f a) = e_utf8_ok e a) /\
  (forall c, e_addr_ok e (g c) = e_addr_ok e c).
(** the names of a new pool's tokens are still in the same order, and not too long if they were not *)
Definition fair_pair (m : exec_msg) : Prop :=
  match m with
  | CreatePool a b _ _ _ => String.ltb (g a) (g b) = String.ltb a b /\ slen (g a) <= 65535 /\ slen (g b) <= 65535 /\
      slen a <= 65535 /\ slen b <= 65535
  | _ => True
  end.
Hypothesis inj : forall a b, f a = f b -> a = b.
Hypothesis injg : forall a b, g a = g b -> a = b.

Lemma key_inj k k' : named_key k = named_key k' -> k = k'.
Proof. destruct k, k'. intros [= A B C]. apply injg in A, B. congruence. Qed.
Lemma eqb_g a b : String.eqb (g a) (g b) = String.eqb a b.
Proof.
  destruct (String.eqb a b) eqn:E; [apply String.eqb_eq in E; subst; apply String.eqb_refl|].
  apply String.eqb_neq. apply String.eqb_neq in E. auto.
Qed.

Lemma eqb_f a b : String.eqb (f a) (f b) = String.eqb a b.
Proof.
  destruct (String.eqb a b) eqn:E; [apply String.eqb_eq in E; subst; apply String.eqb_refl|].
  apply String.eqb_neq. apply String.eqb_neq in E. auto.
Qed.
Lemma split_named tid : split_token (named_token tid) = match split_token tid with Some (a, ix) => Some (f a, ix) | None => None end.
Proof.
  unfold named_token. destruct (split_token tid) as [[a ix]|] eqn:E; [|exact E].
  apply split_token_round. exact (proj2 (split_token_inv _ _ _ E)).
Qed.
Notation sk := named.
Definition pr (p q : pool) : Prop := q = named_pool p.
Definition qr (p q : position) : Prop := q = named_position p.

Lemma n_pool s t k p q : sk s t -> pr p q -> sk (save_pool s k p) (save_pool t (named_key k) q).
Proof.
  intros A E. destruct A. constructor; cbn; try done. intros k'. rewrite E. destruct (decide (k' = k)) as [->|N];
    [by rewrite !lookup_insert|rewrite !lookup_insert_ne; [done|congruence|]]. intros X. apply key_inj in X. congruence.
Qed.
Lemma n_ins {A} (m m' : gmap (pool_key * Z) A) k j x : (forall k j, m' !! (named_key k, j) = m !! (k, j)) ->
  forall k' j', <[(named_key k, j) := x]> m' !! (named_key k', j') = <[(k, j) := x]> m !! (k', j').
Proof.
  intros E k' j'. destruct (decide ((k', j') = (k, j))) as [Q|N].
  - injection Q as -> ->. by rewrite !lookup_insert.
  - rewrite !lookup_insert_ne; [apply E|congruence|]. intros [= X Y Z W]. apply injg in X, Y. destruct k, k'; cbn in *. congruence.
Qed.
Lemma n_out {A} (m m' : gmap (pool_key * Z) A) k j : (forall k j, m' !! (named_key k, j) = m !! (k, j)) ->
  forall k' j', delete (named_key k, j) m' !! (named_key k', j') = delete (k, j) m !! (k', j').
Proof.
  intros E k' j'. destruct (decide ((k', j') = (k, j))) as [Q|N].
  - injection Q as -> ->. by rewrite !lookup_delete.
  - rewrite !lookup_delete_ne; [apply E|congruence|]. intros [= X Y Z W]. apply injg in X, Y. destruct k, k'; cbn in *. congruence.
Qed.
Lemma n_ticks s t l l' : sk s t -> (forall k j, l' !! (named_key k, j) = l !! (k, j)) -> sk (set_ticks s l) (set_ticks t l').
Proof. intros A E. destruct A. by constructor. Qed.
Lemma n_set_bitmap s t b b' : sk s t -> (forall k j, b' !! (named_key k, j) = b !! (k, j)) -> sk (set_bitmap s b) (set_bitmap t b').
Proof. intros A E. destruct A. by constructor. Qed.
Lemma n_set_config s t c c' : sk s t -> c' = named_config c -> sk (set_config s c) (set_config t c').
Proof. intros A E. destruct A. by constructor. Qed.
Lemma n_positions s t m m' l l' : sk s t ->
  (forall a ix, m' !! (f a, ix) = named_position <$> m !! (a, ix)) -> (forall a, l' !! f a = l !! a) ->
  sk (set_positions s m l) (set_positions t m' l').
Proof. intros A E F. destruct A. by constructor. Qed.
Lemma n_put (m m' : gmap (string * Z) position) a ix po : (forall a ix, m' !! (f a, ix) = named_position <$> m !! (a, ix)) ->
  forall b j, <[(f a, ix) := named_position po]> m' !! (f b, j) = named_position <$> <[(a, ix) := po]> m !! (b, j).
Proof.
  intros E b j. destruct (decide ((b, j) = (a, ix))) as [Q|N].
  - injection Q as -> ->. by rewrite !lookup_insert.
  - rewrite !lookup_insert_ne; [apply E|congruence|]. intros [= X Y]. apply inj in X. congruence.
Qed.
Lemma n_del (m m' : gmap (string * Z) position) a ix : (forall a ix, m' !! (f a, ix) = named_position <$> m !! (a, ix)) ->
  forall b j, delete (f a, ix) m' !! (f b, j) = named_position <$> delete (a, ix) m !! (b, j).
Proof.
  intros E b j. destruct (decide ((b, j) = (a, ix))) as [Q|N].
  - injection Q as -> ->. by rewrite !lookup_delete.
  - rewrite !lookup_delete_ne; [apply E|congruence|]. intros [= X Y]. apply inj in X. congruence.
Qed.
Lemma n_len (l l' : gmap string Z) a (v : Z) : (forall a, l' !! f a = l !! a) -> forall b, <[f a := v]> l' !! f b = <[a := v]> l !! b.
Proof.
  intros E b. destruct (decide (b = a)) as [->|N]; [by rewrite !lookup_insert|].
  rewrite !lookup_insert_ne; [apply E|congruence|]. intros X. apply inj in X. congruence.
Qed.
Lemma n_length s t a : sk s t -> get_position_length t (f a) = get_position_length s a.
Proof. intros L. unfold get_position_length. by rewrite (nm_len _ _ L). Qed.

Lemma n_get_pool s t k : sk s t -> both pr (get_pool s k) (get_pool t (named_key k)).
Proof. intros A. unfold get_pool. rewrite (nm_pool _ _ A). by destruct (st_pools s !! k). Qed.
Lemma n_get_tick s t k j : sk s t -> get_tick t (named_key k) j = get_tick s k j.
Proof. intros A. unfold get_tick. by rewrite (nm_tick _ _ A). Qed.
Lemma n_get_position s t a ix : sk s t -> both qr (get_position s a ix) (get_position t (f a) ix).
Proof. intros A. unfold get_position. rewrite (nm_position _ _ A). by destruct (st_positions s !! (a, ix)). Qed.
Lemma n_update_tick s t k j x : sk s t -> both sk (update_tick s k j x) (update_tick t (named_key k) j x).
Proof. intros L. unfold update_tick. rewrite (nm_tick _ _ L). destruct (st_ticks s !! (k, j)); [|done]. apply n_ticks; [done|]. apply n_ins, L. Qed.
Lemma n_add_tick s t k j x : sk s t -> both sk (add_tick s k j x) (add_tick t (named_key k) j x).
Proof. intros L. unfold add_tick. rewrite (nm_tick _ _ L). destruct (st_ticks s !! (k, j)); [done|]. apply n_ticks; [done|]. apply n_ins, L. Qed.
Lemma n_remove_tick s t k j : sk s t -> both sk (remove_tick s k j) (remove_tick t (named_key k) j).
Proof. intros L. unfold remove_tick. rewrite (nm_tick _ _ L). destruct (st_ticks s !! (k, j)); [|done]. apply n_ticks; [done|]. apply n_out, L. Qed.
Lemma n_chunk s t k c : sk s t -> bitmap_chunk t (named_key k) c = bitmap_chunk s k c.
Proof. intros A. unfold bitmap_chunk. by rewrite (nm_bitmap _ _ A). Qed.
Lemma n_flip s t v j sp k : sk s t -> both sk (flip_bitmap s v j sp k) (flip_bitmap t v j sp (named_key k)).
Proof.
  intros L. unfold flip_bitmap. apply both_eq; [done|]. intros [c b] _. rewrite (n_chunk _ _ _ _ L).
  destruct (negb _); cbn; [done|]. apply n_set_bitmap; [done|]. apply n_ins, L.
Qed.
Lemma n_next s t k m : sk s t -> forall sp c b lc lb, next_loop m t (named_key k) sp c b lc lb = next_loop m s k sp c b lc lb.
Proof. intros L. induction m as [|m IH]; intros; cbn; [done|]. by rewrite (n_chunk _ _ _ _ L), IH. Qed.
Lemma n_prev s t k m : sk s t -> forall sp c b lc lb, prev_loop m t (named_key k) sp c b lc lb = prev_loop m s k sp c b lc lb.
Proof. intros L. induction m as [|m IH]; intros; cbn; [done|]. by rewrite (n_chunk _ _ _ _ L), IH. Qed.
Lemma n_limit s t k lim d cur sp : sk s t -> get_closer_limit t lim d cur sp (named_key k) = get_closer_limit s lim d cur sp k.
Proof.
  intros L. unfold get_closer_limit. f_equal. destruct d.
  - unfold prev_initialized. destruct (sp =? 0); [done|]. apply bind_ext. intros [c b]. apply bind_ext.
    intros [lc lb]. by rewrite (n_prev _ _ _ _ L).
  - unfold next_initialized. destruct (sp =? 0); [done|]. destruct (_ <? _); [done|]. apply bind_ext. intros [c b]. apply bind_ext.
    intros [lc lb]. by rewrite (n_next _ _ _ _ L).
Qed.

Lemma n_add_fee p q a x v : pr p q -> both pr (add_fee p a x v) (add_fee q a x v).
Proof.
  intros E. unfold add_fee. apply both_eq; [done|]. intros pt _. apply both_eq; [done|]. intros pf _.
  rewrite E. cbn. destruct (_ || _); [done|]. apply both_eq; [done|]. intros gr _.
  destruct x; (apply both_eq; [done|]); intros r _; cbn; done.
Qed.
Context (now : Z).
Definition tp (a b : tick * pool) : Prop := fst b = fst a /\ pr (snd a) (snd b).
Lemma n_cross x p q : pr p q -> both tp (tick_cross x p now) (tick_cross x q now).
Proof.
  intros H. unfold tick_cross. rewrite H. cbn. apply both_eq; [done|]. intros ? _.
  apply both_eq; [done|]. intros ? _. done.
Qed.
Definition put_rel (a b : pool * update_pool_tick * Z * Z * bool) : Prop :=
  let '(p, tk, tot, rem, cr) := a in let '(q, tk', tot', rem', cr') := b in
  pr p q /\ tk' = tk /\ tot' = tot /\ rem' = rem /\ cr' = cr.
Lemma n_put_tick p q r lim tk rem by_in d v ft : pr p q ->
  both put_rel (pool_update_tick p r lim tk rem by_in d now v ft) (pool_update_tick q r lim tk rem by_in d now v ft).
Proof.
  intros H. unfold pool_update_tick. destruct (_ || _).
  - apply both_eq; [done|]. intros j _. by rewrite H.
  - replace (p_liq q) with (p_liq p) by (rewrite H; done).
    apply both_eq; [done|]. intros en _.
    eapply (both_bind (fun a b : pool * update_pool_tick * Z * Z * bool * Z => put_rel (fst a) (fst b) /\ snd b = snd a)).
    + destruct tk as [|x|j]; try done.
      destruct (negb d || en).
      * eapply (both_bind tp).
        { pose proof (n_cross x p q H) as C. unfold both in *.
          destruct (tick_cross x p now), (tick_cross x q now); cbn; done. }
        intros [x' p'] [y' q'] (A & B). cbn in A, B. subst. done.
      * destruct (negb (rem =? 0)); [|done]. destruct by_in; [|done].
        eapply both_bind; [by apply n_add_fee|]. intros p' q' H'. done.
    + intros [[[[[p1 tk1] tot1] rem1] cr1] ix1] [[[[[q1 tk2] tot2] rem2] cr2] ix2] ((H1 & -> & -> & -> & ->) & I).
      cbn in I. subst. cbn. split_and!; try done. rewrite H1. done.
Qed.
Definition wr (w v : swap_state) : Prop :=
  v = mkSwapState (named_pool (sw_pool w)) (sw_remaining w) (sw_in w) (sw_out w) (sw_fee w) (sw_ticks w).
Lemma n_iter s t k d b lim tl w v : sk s t -> wr w v ->
  both wr (swap_iter s now k d b lim tl w) (swap_iter t now (named_key k) d b lim tl v).
Proof.
  intros L ->. unfold swap_iter. rewrite (n_limit _ _ _ _ _ _ _ L), (nm_config _ _ L). cbn.
  apply both_eq; [done|]. intros [sl li] _. do 3 (apply both_eq; [done|]; intros ? _).
  eapply both_bind; [by apply n_add_fee|]. intros p q H1. do 3 (apply both_eq; [done|]; intros ? _).
  destruct (_ && _); [done|].
  eapply (both_bind eq).
  { destruct li as [[j []]|]; try done. rewrite (n_get_tick _ _ _ _ L). by apply both_same. }
  intros tk ? <-. eapply both_bind; [apply (n_put_tick _ (p_set_price q (sr_next a))); rewrite H1; done|].
  intros [[[[p1 tk1] tot1] rem1] cr1] [[[[q1 tk2] tot2] rem2] cr2] (H2 & -> & -> & -> & ->).
  apply both_eq; [done|]. intros tin _. rewrite H2. cbn.
  destruct (if d then _ else _); done.
Qed.
Lemma n_loop s t k d b lim tl gas : sk s t -> forall w v, wr w v ->
  both wr (swap_loop gas s now k d b lim tl w) (swap_loop gas t now (named_key k) d b lim tl v).
Proof.
  intros L. induction gas as [|gas IH]; intros w v W; cbn; pose proof W as E; rewrite E; cbn; destruct (_ =? _); try done.
  rewrite <- E. eapply both_bind; [by apply n_iter|]. exact IH.
Qed.
Definition cr (a b : calc_result) : Prop :=
  b = mkCalc (cr_in a) (cr_out a) (cr_start a) (cr_target a) (cr_fee a) (named_pool (cr_pool a)) (cr_ticks a).
Lemma n_calc s t gas k d a b lim : sk s t ->
  both cr (calculate_swap gas s now k d a b lim) (calculate_swap gas t now (named_key k) d a b lim).
Proof.
  intros L. unfold calculate_swap. destruct (a =? 0); [done|]. eapply both_bind; [by apply n_get_pool|].
  intros p q H. replace (p_price q) with (p_price p) by (rewrite H; done).
  destruct (if d then _ else _); [done|]. eapply both_bind; [apply n_loop; [exact L|]; rewrite H; done|].
  intros w v ->. cbn. destruct (_ =? 0); done.
Qed.
Lemma n_update_ticks k l : forall s t, sk s t -> both sk (update_ticks s k l) (update_ticks t (named_key k) l).
Proof.
  induction l as [|x l IH]; intros s t L; cbn; [done|]. eapply both_bind; [by apply n_update_tick|]. auto.
Qed.
Definition sk3 {B} (R : B -> B -> Prop) (p q : store * list out_msg * B) : Prop :=
  sk (fst (fst p)) (fst (fst q)) /\ snd (fst q) = map named_out (snd (fst p)) /\ R (snd p) (snd q).
Definition sk2 {A} (R : A -> A -> Prop) (p q : store * A) : Prop := sk (fst p) (fst q) /\ R (snd p) (snd q).

Context (e : env) (FN : fair_names e) (En : e_millis e = now).
Lemma n_transfer i a v : asset_transfer e (named_info i) (g a) v = map named_out (asset_transfer e i a v).
Proof. unfold asset_transfer. rewrite (proj2 (proj2 (proj2 FN))). destruct (v =? 0); [done|]. by destruct (e_addr_ok e a). Qed.
Lemma n_from i a v : both (fun x y => y = map named_out x) (asset_transfer_from e i a v) (asset_transfer_from e (named_info i) (g a) v).
Proof.
  unfold asset_transfer_from. rewrite (proj2 (proj2 (proj2 FN))). destruct (v =? 0); [done|]. destruct (e_addr_ok e a).
  { cbn. rewrite (proj1 FN). done. }
  cbn [named_info i_funds i_sender].
  replace (List.find (fun c => String.eqb (c_denom c) (g a)) (map (fun c => mkCoin (g (c_denom c)) (c_amount c)) (i_funds i)))
    with (option_map (fun c => mkCoin (g (c_denom c)) (c_amount c)) (List.find (fun c => String.eqb (c_denom c) a) (i_funds i))).
  2: { induction (i_funds i) as [|c l IH]; cbn; [done|]. rewrite eqb_g. by destruct (String.eqb _ _). }
  destruct (List.find _ _); [|done]. cbn [option_map c_amount]. destruct (_ <=? _); [|done]. cbn. by destruct (_ =? 0).
Qed.

Lemma n_swap_internal i s t k d a b lim : sk s t ->
  both (sk3 cr) (swap_internal e i s k d a b lim) (swap_internal e (named_info i) t (named_key k) d a b lim).
Proof.
  intros L. unfold swap_internal. rewrite En.
  eapply both_bind; [by apply n_calc|]. intros r q ->. cbn.
  eapply both_bind; [by apply n_update_ticks|]. intros s1 t1 L1.
  destruct d; (eapply both_bind; [apply n_from|]); intros m ? ->; rewrite n_transfer, <- map_app;
    (split_and!; [by apply n_pool|done|done]).
Qed.
Lemma n_route i hops : forall s t a, sk s t ->
  both (sk3 eq) (swap_route_internal e i s a hops) (swap_route_internal e (named_info i) t a (map named_hop hops)).
Proof.
  induction hops as [|h hops IH]; intros s t a L; cbn [swap_route_internal]; [done|].
  eapply both_bind; [by apply n_swap_internal|].
  intros [[s1 m1] r1] [[t1 n1] q1] (L1 & E1 & E2). cbn in E1, E2. rewrite E1, E2. cbn.
  eapply both_bind; [apply IH; exact L1|].
  intros [[s2 m2] r2] [[t2 n2] q2] (L2 & F1 & F2). cbn in F1, F2. subst. split_and!; [done|cbn; by rewrite map_app|done].
Qed.
Lemma n_create_tick s t k j : sk s t -> both (sk2 eq) (create_tick s now k j) (create_tick t now (named_key k) j).
Proof.
  intros L. unfold create_tick. apply both_eq; [done|]. intros _ _. eapply both_bind; [by apply n_get_pool|].
  intros p q ->. eapply (both_bind eq); [by apply both_same|].
  intros x ? <-. eapply both_bind; [by apply n_add_tick|]. intros s1 t1 L1.
  eapply both_bind; [by apply n_flip|]. intros s2 t2 L2. done.
Qed.
Lemma n_get_or_create s t k j : sk s t -> both (sk2 eq) (get_or_create_tick s now k j) (get_or_create_tick t now (named_key k) j).
Proof.
  intros L. unfold get_or_create_tick. rewrite (n_get_tick _ _ _ _ L).
  destruct (get_tick s k j); try done; by apply n_create_tick.
Qed.
Lemma n_add_position s t a po qo : sk s t -> qr po qo -> both sk (add_position s a po) (add_position t (f a) qo).
Proof.
  intros L ->. unfold add_position. rewrite (n_length _ _ _ L). apply both_eq; [done|].
  intros m _. apply n_positions; [done|apply n_put; apply L|apply n_len; apply L].
Qed.
Lemma n_update_position s t a ix po qo : sk s t -> qr po qo -> both sk (update_position s a ix po) (update_position t (f a) ix qo).
Proof.
  intros L ->. unfold update_position. rewrite (n_length _ _ _ L).
  destruct (_ <=? _); [done|]. apply n_positions; [done|apply n_put; apply L|apply L].
Qed.
Lemma n_remove_position s t a ix : sk s t -> both (sk2 qr) (remove_position s a ix) (remove_position t (f a) ix).
Proof.
  intros L. unfold remove_position. rewrite (n_length _ _ _ L). apply both_eq; [done|].
  intros m _. rewrite !(nm_position _ _ L).
  destruct (st_positions s !! (a, ix)) as [po|]; [|done]. cbn [fmap option_fmap option_map].
  destruct (ix <? m).
  - destruct (st_positions s !! (a, m)) as [la|]; [|done]. cbn. split; [|done].
    apply n_positions; [done| |apply n_len; apply L]. apply n_put, n_del. apply L.
  - cbn. split; [|done]. apply n_positions; [done| |apply n_len; apply L]. apply n_del. apply L.
Qed.
Lemma n_remove_flip s t k x : sk s t ->
  both sk (remove_tick_and_flip_bitmap s k x) (remove_tick_and_flip_bitmap t (named_key k) x).
Proof.
  intros L. unfold remove_tick_and_flip_bitmap. destruct (negb _); [done|].
  eapply both_bind; [by apply n_flip|]. intros. by apply n_remove_tick.
Qed.
Definition mod_rel (a b : position * pool * tick * tick * Z * Z) : Prop :=
  let '(po, p, u, l, x, y) := a in b = (named_position po, named_pool p, u, l, x, y).
Lemma n_modify po po' p p' u l dl a sp : qr po po' -> pr p p' ->
  both mod_rel (position_modify po p u l dl a now sp) (position_modify po' p' u l dl a now sp).
Proof.
  intros -> ->. unfold position_modify. apply both_eq; [done|]. intros l1 _. apply both_eq; [done|]. intros u1 _.
  eapply (both_bind qr).
  { unfold position_update. cbn. destruct (_ && _); [done|].
    do 5 (apply both_eq; [done|]; intros ? _). done. }
  intros po1 ? ->. eapply (both_bind (fun a b : pool * Z * Z => b = (named_pool (fst (fst a)), snd (fst a), snd a))).
  { unfold update_liquidity. cbn. apply both_eq; [done|]. intros [[x y] []] _; [|done].
    apply both_eq; [done|]. intros q _. done. }
  intros [[p1 x1] y1] ? ->. done.
Qed.
Lemma n_create_position i s t k l u q sl su : sk s t ->
  both (sk3 eq) (create_position e i s k l u q sl su) (create_position e (named_info i) t (named_key k) l u q sl su).
Proof.
  intros L. unfold create_position. destruct (q =? 0); [done|]. destruct (l =? u); [done|]. rewrite En.
  eapply (both_bind pr).
  { pose proof (n_get_pool s t k L) as H. unfold both in H. by destruct (get_pool s k), (get_pool t (named_key k)). }
  intros p ? ->. eapply both_bind; [by apply n_get_or_create|]. intros [s1 x1] [t1 y1] (L1 & X1).
  eapply both_bind; [by apply n_get_or_create|]. intros [s2 x2] [t2 y2] (L2 & X2). cbn in X1, X2. subst y1 y2.
  eapply (both_bind (fun a b => let '(po, p, l, u, x, y) := a in b = (named_position po, named_pool p, l, u, x, y))).
  { unfold position_create. cbn [p_price named_pool p_set_receiver]. destruct (_ || _); [done|].
    eapply both_bind; [by apply n_modify|].
    intros [[[[[a1 a2] a3] a4] a5] a6] ? ->. done. }
  intros [[[[[po p1] l1] u1] x] y] ? ->.
  eapply both_bind; [apply n_add_position; [by apply n_pool|done]|]. intros s3 t3 L3.
  eapply both_bind; [by apply n_update_tick|]. intros s4 t4 L4.
  eapply both_bind; [by apply n_update_tick|]. intros s5 t5 L5.
  eapply both_bind; [apply n_from|]. intros m0 ? ->. eapply both_bind; [apply n_from|]. intros m1 ? ->.
  split_and!; [done|cbn; by rewrite map_app|done].
Qed.
Lemma n_claim i s t ix : sk s t -> both (sk3 eq) (claim_fee e i s ix) (claim_fee e (named_info i) t ix).
Proof.
  intros L. unfold claim_fee. rewrite En. eapply both_bind; [by apply n_get_position|]. intros po ? ->.
  cbn [po_key po_lower po_upper named_position]. rewrite !(n_get_tick _ _ _ _ L).
  apply both_eq; [done|]. intros lt _. apply both_eq; [done|]. intros ut _.
  eapply both_bind; [by apply n_get_pool|]. intros p ? ->.
  eapply (both_bind mod_rel).
  { unfold position_claim_fee. cbn [po_key named_position named_key pk_tier]. eapply both_bind; [by apply n_modify|].
    intros [[[[[a1 a2] a3] a4] a5] a6] ? ->. done. }
  intros [[[[[q p1] u1] l1] x] y] ? ->.
  eapply both_bind; [by apply n_update_position|]. intros s1 t1 L1.
  eapply both_bind; [apply n_update_tick; by apply n_pool|]. intros s2 t2 L2.
  eapply both_bind; [by apply n_update_tick|]. intros s3 t3 L3. cbn [pk_x pk_y named_key]. rewrite !n_transfer, <- map_app. done.
Qed.
Lemma n_remove i s t ix : sk s t -> both (sk3 eq) (remove_position_exec e i s ix) (remove_position_exec e (named_info i) t ix).
Proof.
  intros L. unfold remove_position_exec. rewrite En. eapply both_bind; [by apply n_get_position|]. intros po ? ->.
  cbn [po_key po_lower po_upper po_liq named_position named_key pk_tier ft_spacing]. rewrite !(n_get_tick _ _ _ _ L).
  apply both_eq; [done|]. intros lt _. apply both_eq; [done|]. intros ut _.
  eapply both_bind; [by apply n_get_pool|]. intros p ? ->.
  eapply (both_bind (fun a b => let '(po, p, l, u, x, y, dl, du) := a in b = (named_position po, named_pool p, l, u, x, y, dl, du))).
  { unfold position_remove. cbn [po_liq named_position].
    eapply both_bind; [by apply n_modify|]. intros [[[[[a1 a2] a3] a4] a5] a6] ? ->. cbn.
    do 2 (apply both_eq; [done|]; intros ? _). done. }
  intros [[[[[[[q p1] l1] u1] x] y] dl] du] ? ->.
  eapply (both_bind sk); [destruct dl; [apply n_remove_flip|apply n_update_tick]; by apply n_pool|]. intros s1 t1 L1.
  eapply (both_bind sk); [destruct du; [apply n_remove_flip|apply n_update_tick]; done|]. intros s2 t2 L2.
  eapply both_bind; [by apply n_remove_position|]. intros [s3 r3] [t3 q3] (L3 & E3). cbn in E3. rewrite E3. cbn.
  rewrite !n_transfer, <- map_app. done.
Qed.
Lemma n_by_key s t tid : sk s t -> both qr (get_position_by_key s tid) (get_position_by_key t (named_token tid)).
Proof.
  intros L. unfold get_position_by_key. rewrite split_named. destruct (split_token tid) as [[a ix]|]; [|done].
  by apply n_get_position.
Qed.
Lemma n_can_approve i s t a : sk s t -> check_can_approve e (named_info i) t (f a) = check_can_approve e i s a.
Proof. intros L. unfold check_can_approve. cbn. by rewrite eqb_f, (nm_operator _ _ L). Qed.
Lemma n_exists i l : existsb (fun a => String.eqb (ap_spender a) (f i) && negb (is_expired e (ap_expires a))) (map named_approval l) =
  existsb (fun a => String.eqb (ap_spender a) i && negb (is_expired e (ap_expires a))) l.
Proof. induction l as [|a l IH]; cbn; [done|]. by rewrite eqb_f, IH. Qed.
Lemma n_can_send i s t a po : sk s t -> check_can_send e (named_info i) t (f a) (named_position po) = check_can_send e i s a po.
Proof. intros L. unfold check_can_send. cbn. by rewrite eqb_f, (nm_operator _ _ L), n_exists. Qed.
Lemma n_transfer_nft i s t r tid : sk s t ->
  both sk (transfer_nft e i s r tid) (transfer_nft e (named_info i) t (f r) (named_token tid)).
Proof.
  intros L. unfold transfer_nft. rewrite split_named. destruct (split_token tid) as [[a ix]|] eqn:E; [|done].
  rewrite (proj1 (proj2 (proj2 FN))). destruct (negb _); [done|].
  eapply both_bind; [by apply n_by_key|]. intros po ? ->. rewrite (n_can_send i s t a po L). apply both_eq; [done|]. intros _ _.
  eapply both_bind; [by apply n_remove_position|]. intros [s1 p1] [t1 q1] (L1 & _).
  by apply n_add_position.
Qed.
Lemma n_filter sp l : List.filter (fun a => negb (String.eqb (ap_spender a) (f sp))) (map named_approval l) =
  map named_approval (List.filter (fun a => negb (String.eqb (ap_spender a) sp)) l).
Proof. induction l as [|a l IH]; cbn; [done|]. rewrite eqb_f, IH. by destruct (String.eqb _ _). Qed.
Lemma n_approvals i s t sp tid add x : sk s t ->
  both sk (update_approvals e i s sp tid add x) (update_approvals e (named_info i) t (f sp) (named_token tid) add x).
Proof.
  intros L. unfold update_approvals. rewrite split_named. destruct (split_token tid) as [[a ix]|] eqn:E; [|done].
  eapply both_bind; [by apply n_by_key|]. intros po ? ->. rewrite (n_can_approve i s t a L).
  apply both_eq; [done|]. intros _ _. cbn [po_approvals named_position]. rewrite n_filter.
  eapply (both_bind (fun l l' => l' = map named_approval l)).
  - destruct add; [|done]. cbv zeta. destruct (is_expired e _); [done|]. cbn. by rewrite map_app.
  - intros l ? ->. apply n_positions; [done| |apply L]. apply (n_put _ _ a ix (po_set_approvals po l)). apply L.
Qed.
Lemma n_key_new a b ft p ix : fair_pair (CreatePool a b ft p ix) ->
  both (fun k k' => k' = named_key k /\ slen (pk_x k) <= 65535 /\ slen (pk_y k) <= 65535 /\ slen (g (pk_x k)) <= 65535 /\ slen (g (pk_y k)) <= 65535)
    (pool_key_new a b ft) (pool_key_new (g a) (g b) ft).
Proof.
  intros (O & A & B & C & D). unfold pool_key_new. rewrite eqb_g, O. destruct (String.eqb a b); [done|].
  destruct (String.ltb a b); done.
Qed.
Lemma n_dispatch i s t m : fair_pair m -> sk s t -> both (sk3 eq) (dispatch e i s m) (dispatch e (named_info i) t (named_msg m)).
Proof.
  intros FP L. pose proof (nm_config _ _ L) as CF.
  destruct m; cbn [dispatch named_msg].
  - unfold change_admin. rewrite CF. cbn. rewrite eqb_f. destruct (negb _); [done|]. split_and!; [by apply n_set_config|done|done].
  - unfold withdraw_protocol_fee. eapply both_bind; [by apply n_get_pool|]. intros p ? ->. cbn [p_receiver named_pool p_set_receiver p_protx p_proty].
    cbn [named_info i_sender]. rewrite eqb_f. destruct (negb _); [done|]. change (mkInfo (f (i_sender i)) (map (fun c => mkCoin (g (c_denom c)) (c_amount c)) (i_funds i))) with (named_info i).
    cbn [pk_x pk_y named_key].    rewrite !n_transfer, <- map_app. split_and!; [by apply n_pool|done|done].
  - unfold change_protocol_fee. rewrite CF. cbn. rewrite eqb_f. destruct (negb _); [done|]. split_and!; [by apply n_set_config|done|done].
  - unfold change_fee_receiver. rewrite CF. cbn. rewrite eqb_f. destruct (negb _); [done|].
    eapply both_bind; [by apply n_get_pool|]. intros p ? ->. split_and!; [by apply n_pool|done|done].
  - by apply n_create_position.
  - unfold swap. eapply both_bind; [by apply n_swap_internal|].
    intros [[s1 m1] r1] [[t1 n1] q1] (L1 & E1 & E2). cbn in E1, E2. rewrite E1, E2. done.
  - unfold swap_route. eapply both_bind; [by apply n_route|].
    intros [[s1 m1] r1] [[t1 n1] q1] (L1 & E1 & E2). cbn in E1, E2. subst.
    apply both_eq; [done|]. intros mn _. destruct (_ <? _); done.
  - unfold transfer_position. cbn [named_info i_sender]. eapply both_bind; [by apply n_get_position|]. intros po ? ->.
    eapply both_bind; [by apply n_remove_position|]. intros [s1 p1] [t1 q1] (L1 & _).
    rewrite (proj1 (proj2 FN)). destruct (negb _); [done|].
    eapply both_bind; [apply n_add_position; [exact L1|done]|]. intros s2 t2 L2. done.
  - by apply n_claim.
  - by apply n_remove.
  - unfold create_pool. rewrite CF, En. cbn [cf_fee_tiers cf_admin named_config]. destruct (negb _); [done|].
    apply both_eq; [done|]. intros _ _. eapply both_bind; [exact (n_key_new _ _ _ _ _ FP)|]. intros k ? (-> & A & B & C & D).
    eapply (both_bind (fun _ _ => True)).
    { unfold pool_key_bytes. cbn [length_prefixed named_key pk_x pk_y pk_tier].
      rewrite (proj2 (Z.ltb_ge _ _) A), (proj2 (Z.ltb_ge _ _) B), (proj2 (Z.ltb_ge _ _) C), (proj2 (Z.ltb_ge _ _) D).
      destruct (65535 <? slen (fee_tier_key (pk_tier k))); cbn; exact Logic.I. }
    intros _ _ _. rewrite (nm_pool _ _ L k). destruct (st_pools s !! k); [done|]. cbn [fmap option_fmap option_map].
    eapply (both_bind pr).
    { unfold pool_create. destruct (check_tick_to_sqrt_price_relationship _ _ _) as [[]| |]; cbn; done. }
    intros p p' PP. split_and!; [by apply n_pool|done|done].
  - unfold add_fee_tier. rewrite CF. cbn. rewrite eqb_f. destruct (negb _); [done|]. destruct (_ || _); [done|]. destruct (_ <=? _); [done|].
    split_and!; [by apply n_set_config|done|done].
  - unfold remove_fee_tier. rewrite CF. cbn. rewrite eqb_f. destruct (negb _); [done|]. destruct (remove_first _ _); [|done].
    split_and!; [by apply n_set_config|done|done].
  - unfold handle_transfer_nft. eapply both_bind; [by eapply n_transfer_nft|]. intros s1 t1 L1. done.
  - by apply n_create_position.
  - unfold handle_burn. rewrite split_named. eapply both_bind; [by apply n_by_key|]. intros po ? ->.
    destruct (split_token token_id) as [[a ix]|]; [|done].
    rewrite (n_can_send i s t a po L). apply both_eq; [done|]. intros _ _. by apply n_remove.
  - unfold handle_send_nft. eapply both_bind; [by eapply n_transfer_nft|]. intros s1 t1 L1. done.
  - unfold handle_approve. eapply both_bind; [by eapply n_approvals|]. intros s1 t1 L1. done.
  - unfold handle_revoke. eapply both_bind; [by eapply n_approvals|]. intros s1 t1 L1. done.
  - unfold handle_approve_all. cbv zeta. destruct (is_expired e _); [done|]. split_and!; [|done|done].
    destruct L. constructor; cbn; try done. intros a b. destruct (decide ((a, b) = (i_sender i, operator))) as [Q|N].
    + injection Q as -> ->. by rewrite !lookup_insert.
    + rewrite !lookup_insert_ne; [done|congruence|]. intros [= X Y]. apply inj in X, Y. congruence.
  - unfold handle_revoke_all. split_and!; [|done|done].
    destruct L. constructor; cbn; try done. intros a b. destruct (decide ((a, b) = (i_sender i, operator))) as [Q|N].
    + injection Q as -> ->. by rewrite !lookup_delete.
    + rewrite !lookup_delete_ne; [done|congruence|]. intros [= X Y]. apply inj in X, Y. congruence.
Qed.
Lemma n_execute i s t m : fair_pair m -> sk s t -> both (sk3 eq) (execute e i s m) (execute e (named_info i) t (named_msg m)).
Proof.
  intros FP L. unfold execute. replace (env_typed e (named_info i)) with (env_typed e i).
  2: { unfold env_typed. f_equal. cbn. induction (i_funds i) as [|c l IH]; cbn; [done|]. by rewrite IH. }
  replace (msg_typed (named_msg m)) with (msg_typed m).
  2: { destruct m; try done. cbn. f_equal. induction swaps as [|h l IH]; cbn; [done|]. by rewrite IH. } destruct (_ && _); [|done]. by apply n_dispatch.
Qed.
End Name.

(** * Whole histories *)
Definition named_call (f g : string -> string) (c : call) : call :=
  let '(e, i, m) := c in (e, named_info f g i, named_msg f g m).
Definition named_reply (f g : string -> string) (r : res (list out_msg * list (string * Z))) : res (list out_msg * list (string * Z)) :=
  match r with Ok (ms, at') => Ok (map (named_out f g) ms, at') | Err x => Err x | Panic => Panic end.
Definition fair_calls (f g : string -> string) (zs : list call) : Prop :=
  Forall (fun c : call => let '(e, _, m) := c in fair_names f g e /\ fair_pair g m) zs.
Definition one_to_one (f : string -> string) : Prop := forall a b, f a = f b -> a = b.

Theorem C112_names f g zs s t : one_to_one f -> one_to_one g -> fair_calls f g zs -> named f g s t ->
  fst (play (map (named_call f g) zs) t) = map (named_reply f g) (fst (play zs s)) /\
  named f g (snd (play zs s)) (snd (play (map (named_call f g) zs) t)).
Proof.
  intros FI GI. revert s t. induction zs as [|[[e i] m] zs IH]; intros s t FA L; [done|].
  apply Forall_cons in FA as [[F P] FA]. cbn [map named_call play].
  pose proof (n_execute f g FI GI (e_millis e) e F eq_refl i s t m P L) as H. unfold both in H.
  destruct (execute e i s m) as [[[s1 ms] at1]|x|], (execute e (named_info f g i) t (named_msg f g m)) as [[[t1 ns] at2]|y|]; try done.
  - destruct H as (L1 & E1 & E2). cbn in L1, E1, E2. subst ns at2. specialize (IH s1 t1 FA L1).
    destruct (play zs s1) as [o s2], (play (map (named_call f g) zs) t1) as [o' t2]. cbn in IH |- *. destruct IH as [-> N]. done.
  - subst y. specialize (IH s t FA L).
    destruct (play zs s) as [o s2], (play (map (named_call f g) zs) t) as [o' t2]. cbn in IH |- *. destruct IH as [-> N]. done.
  - specialize (IH s t FA L).
    destruct (play zs s) as [o s2], (play (map (named_call f g) zs) t) as [o' t2]. cbn in IH |- *. destruct IH as [-> N]. done.
Qed.

(** two contracts, instantiated by an account and its namesake *)
Theorem C112_genesis f g i fee s : one_to_one f -> one_to_one g -> instantiate i fee = Ok s ->
  exists t, instantiate (named_info f g i) fee = Ok t /\ named f g s t.
Proof.
  intros FI GI. unfold instantiate. destruct (u64_ok fee); [|done]. intros H. apply Ok_inj in H as <-.
  eexists. split; [done|]. constructor; intros; cbn; rewrite ?lookup_empty; done.
Qed.
Theorem C112_history f g i fee s zs : one_to_one f -> one_to_one g -> fair_calls f g zs -> instantiate i fee = Ok s ->
  exists t, instantiate (named_info f g i) fee = Ok t /\
    fst (play (map (named_call f g) zs) t) = map (named_reply f g) (fst (play zs s)) /\
    named f g (snd (play zs s)) (snd (play (map (named_call f g) zs) t)).
Proof.
  intros FI GI FA H. destruct (C112_genesis f g i fee s FI GI H) as (t & T & L). exists t. split; [done|]. by apply C112_names.
Qed.

(** * Queries *)
Definition res_map {A B} (h : A -> B) (r : res A) : res B := match r with Ok a => Ok (h a) | Err x => Err x | Panic => Panic end.
Lemma both_map {A B} (h : A -> B) r q : both (fun a b => b = h a) r q <-> q = res_map h r.
Proof. destruct r, q; cbn; split; intros H; try done; try (by injection H as ->); try congruence; by subst. Qed.
Lemma collect_map {A B C} (u : B -> C) (h : A -> res B) (h' : A -> res C) l :
  (forall a, h' a = res_map u (h a)) -> collect h' l = res_map (map u) (collect h l).
Proof.
  intros E. induction l as [|a l IH]; cbn; [done|]. rewrite E, IH. destruct (h a); cbn; [|done|done]. by destruct (collect h l).
Qed.

Theorem C112_queries f g e s t : one_to_one f -> one_to_one g -> fair_names f g e -> named f g s t ->
  query_admin t = f (query_admin s) /\
  (forall k, get_pool t (named_key g k) = res_map (named_pool f) (get_pool s k)) /\
  (forall a ix, get_position t (f a) ix = res_map (named_position f g) (get_position s a ix)) /\
  (forall a l o, query_positions t (f a) l o = res_map (map (named_position f g)) (query_positions s a l o)) /\
  (forall a o, query_position_ticks t (f a) o = query_position_ticks s a o) /\
  (forall k j, get_tick t (named_key g k) j = get_tick s k j) /\
  (forall tid b, query_owner_of e t (named_token f tid) b =
     res_map (fun r => (f (fst r), map (named_approval f) (snd r))) (query_owner_of e s tid b)) /\
  (forall tid, query_nft_info t (named_token f tid) = res_map (named_position f g) (query_nft_info s tid)) /\
  (forall k d a b lim, query_quote e t (named_key g k) d a b lim = query_quote e s k d a b lim) /\
  (forall a hops, query_quote_route e t a (map (named_hop g) hops) = query_quote_route e s a hops).
Proof.
  intros FI GI FN L. assert (GP : forall a ix, get_position t (f a) ix = res_map (named_position f g) (get_position s a ix)).
  { intros a ix. apply both_map. exact (n_get_position f g s t a ix L). }
  assert (GK : forall tid, get_position_by_key t (named_token f tid) = res_map (named_position f g) (get_position_by_key s tid)).
  { intros tid. apply both_map. exact (n_by_key f g s t tid L). }
  refine (conj _ (conj _ (conj GP (conj _ (conj _ (conj _ (conj _ (conj GK (conj _ _))))))))).
  - unfold query_admin. by rewrite (nm_config _ _ _ _ L).
  - intros k. apply both_map. exact (n_get_pool f g s t k L).
  - intros a l o. unfold query_positions, position_page. rewrite (n_length f g s t a L). destruct (ckp _ _); cbn; [|done|done].
    apply collect_map. exact (GP a).
  - intros a o. unfold query_position_ticks. rewrite (n_length f g s t a L). destruct (_ <? o); [done|]. f_equal.
    generalize (@nil position_tick). induction (seqZ o _) as [|j l IH]; intros acc; cbn; [done|].
    rewrite GP. destruct (get_position s a j) as [po| |]; cbn; rewrite ?(n_get_tick f g s t _ _ L); destruct (_ <=? _); auto.
  - intros k j. exact (n_get_tick f g s t k j L).
  - intros tid b. unfold query_owner_of. rewrite (split_named f). destruct (split_token tid) as [[a ix]|]; [|done].
    rewrite (proj1 (proj2 (proj2 FN))). destruct (negb _); [done|]. rewrite GK. destruct (get_position_by_key s tid) as [po| |]; cbn; [|done|done].
    do 2 f_equal. unfold humanize_approvals. cbn. induction (po_approvals po) as [|x l IH]; cbn; [done|]. rewrite IH.
    by destruct (_ || _).
  - intros k d a b lim. unfold query_quote. pose proof (n_calc f g (e_millis e) s t (e_gas e) k d a b lim L) as H.
    unfold both in H. destruct (calculate_swap _ s _ _ _ _ _ _) as [r| |], (calculate_swap _ t _ _ _ _ _ _) as [q| |]; try done; [|by subst].
    rewrite H. done.
  - intros a hops. unfold query_quote_route. revert a. induction hops as [|h hops IH]; intros a; cbn; [done|].
    pose proof (n_calc f g (e_millis e) s t (e_gas e) (hop_key h) (hop_x_to_y h) a true (hop_limit (hop_x_to_y h)) L) as H.
    unfold both in H. destruct (calculate_swap _ s _ _ _ _ _ _) as [r| |], (calculate_swap _ t _ _ _ _ _ _) as [q| |]; try done; [|by subst].
    rewrite H. cbn. apply IH.
Qed.

(** * Strangers *)
(** the contract has never heard of [a] *)
Definition stranger (a : string) (s : store) : Prop :=
  cf_admin (st_config s) <> a /\ (forall k p, st_pools s !! k = Some p -> p_receiver p <> a) /\
  (forall ix, st_positions s !! (a, ix) = None) /\ st_poslen s !! a = None /\
  (forall o po x, st_positions s !! o = Some po -> In x (po_approvals po) -> ap_spender x <> a) /\
  (forall b, st_operators s !! (a, b) = None) /\ (forall b, st_operators s !! (b, a) = None).
Definition swap_names (a b x : string) : string := if decide (x = a) then b else if decide (x = b) then a else x.
Lemma swap_names_inj a b : one_to_one (swap_names a b).
Proof. intros x y. unfold swap_names. repeat case_decide; congruence. Qed.
Definition same_name (x : string) : string := x.
Lemma same_key k : named_key same_name k = k.
Proof. by destruct k. Qed.
Lemma stranger_named a b s : stranger a s -> stranger b s -> named (swap_names a b) same_name s s.
Proof.
  intros (A1 & A2 & A3 & A4 & A5 & A6 & A7) (B1 & B2 & B3 & B4 & B5 & B6 & B7).
  assert (K : forall x, x <> a -> x <> b -> swap_names a b x = x) by (intros x N M; unfold swap_names; repeat case_decide; congruence).
  assert (SA : swap_names a b a = b) by (unfold swap_names; case_decide; congruence).
  assert (SB : swap_names a b b = a) by (unfold swap_names; repeat case_decide; congruence).
  constructor; intros *; rewrite ?same_key; try done.
  - unfold named_config. rewrite K by done. by destruct (st_config s).
  - destruct (st_pools s !! k) as [p|] eqn:E; [|done]. cbn. unfold named_pool.
    rewrite K; [by destruct p|by eapply A2|by eapply B2].
  - rename a0 into x. destruct (decide (x = a)) as [->|Na]; [rewrite SA, A3, B3; done|].
    destruct (decide (x = b)) as [->|Nb]; [rewrite SB, A3, B3; done|]. rewrite K by done.
    destruct (st_positions s !! (x, ix)) as [po|] eqn:E; [|done]. cbn. f_equal. unfold named_position. rewrite same_key.
    replace (map (named_approval (swap_names a b)) (po_approvals po)) with (po_approvals po); [by destruct po|].
    assert (X : forall v, In v (po_approvals po) -> ap_spender v <> a /\ ap_spender v <> b) by (intros v I; split; [by eapply A5|by eapply B5]).
    revert X. generalize (po_approvals po). intros l X. induction l as [|v l IH]; cbn; [done|].
    rewrite <- IH by (intros w I; apply X; by right). f_equal. unfold named_approval.
    destruct (X v (or_introl eq_refl)) as [Y Z']. rewrite K by done. by destruct v.
  - unfold swap_names. repeat case_decide; subst; congruence.
  - unfold swap_names. repeat case_decide; subst; rewrite ?A6, ?A7, ?B6, ?B7; done.
Qed.
(** whatever one newcomer can do, so can any other, now and later *)
Theorem C112_strangers a b s zs : stranger a s -> stranger b s -> fair_calls (swap_names a b) same_name zs ->
  let renamed := map (named_call (swap_names a b) same_name) zs in
  fst (play renamed s) = map (named_reply (swap_names a b) same_name) (fst (play zs s)) /\
  named (swap_names a b) same_name (snd (play zs s)) (snd (play renamed s)).
Proof. intros A B F. apply C112_names; [exact (swap_names_inj a b)|intros x y E; exact E|exact F|by apply stranger_named]. Qed.

(** the sample history told of zoe instead of alice and of gold instead of tokenx, with a transfer by dave, whom alice
    had approved *)
Definition na_f := swap_names "alice" "zoe".
Definition na_g := swap_names "tokenx" "gold".
Definition na_calls : list call :=
  map (fun c => (v_env, v_info (fst c), snd c))
    (sc0_calls ++ [("dave", TransferNft "erin" (position_key_bytes "alice" 0)); ("alice", ClaimFee 0); ("bob", ChangeProtocolFee 1)]%string).
Example ex_C112 : one_to_one na_f /\ one_to_one na_g /\ fair_calls na_f na_g na_calls /\
  is_ok (instantiate (v_info "alice") 10000000000) = true /\
  named_msg na_f na_g (TransferNft "erin" (position_key_bytes "alice" 0)) = TransferNft "erin" (position_key_bytes "zoe" 0) /\
  (exists s, instantiate (v_info "zoe") 10000000000 = Ok s /\
    drop 8 (fst (play (map (named_call na_f na_g) na_calls) s)) =
      [Ok ([], []); Ok ([Cw20Transfer "gold" "zoe" 3], [("amount_x", 3); ("amount_y", 0)]); Err Unauthorized]%string).
Proof.
  split; [exact (swap_names_inj _ _)|]. split; [exact (swap_names_inj _ _)|]. split; [|].
  { unfold na_calls. cbn [map app sc0_calls].
    repeat (apply Forall_cons; split; [split; [split; [vm_compute; reflexivity|split; [|split]; intros; reflexivity]|vm_compute; repeat split; congruence]|]).
    constructor. }
  split; [vm_compute; reflexivity|]. split; [vm_compute; reflexivity|].
  eexists. split; [vm_compute; reflexivity|]. vm_compute. reflexivity.
Qed.
(** two strangers to the sample store *)
Definition other (a b : string) : bool := negb (String.eqb a b).
Definition strangerb (a : string) (s : store) : bool :=
  other (cf_admin (st_config s)) a &&
  forallb (fun e : pool_key * pool => other (p_receiver (snd e)) a) (map_to_list (st_pools s)) &&
  forallb (fun e : string * Z * position => other (fst (fst e)) a && forallb (fun x => other (ap_spender x) a) (po_approvals (snd e)))
    (map_to_list (st_positions s)) &&
  forallb (fun e : string * Z => other (fst e) a) (map_to_list (st_poslen s)) &&
  forallb (fun e : string * string * expiration => other (fst (fst e)) a && other (snd (fst e)) a) (map_to_list (st_operators s)).
Lemma other_ne a b : other a b = true -> a <> b.
Proof. unfold other. rewrite negb_true_iff. apply String.eqb_neq. Qed.
Lemma all_listed {K A} `{Countable K} (m : gmap K A) (P : K * A -> bool) k x :
  forallb P (map_to_list m) = true -> m !! k = Some x -> P (k, x) = true.
Proof. rewrite forallb_forall. intros F E. apply F, elem_of_list_In. by apply elem_of_map_to_list. Qed.
Lemma strangerb_ok a s : strangerb a s = true -> stranger a s.
Proof.
  unfold strangerb. rewrite !andb_true_iff. intros ((((A & B) & C) & D) & E). repeat split.
  - by apply other_ne.
  - intros k p P. apply (all_listed _ _ _ _ B) in P. by apply other_ne in P.
  - intros ix. destruct (st_positions s !! (a, ix)) eqn:P; [|done]. apply (all_listed _ _ _ _ C) in P.
    apply andb_true_iff in P as [P _]. by apply other_ne in P.
  - destruct (st_poslen s !! a) eqn:P; [|done]. apply (all_listed _ _ _ _ D) in P. by apply other_ne in P.
  - intros o po x P I. apply (all_listed _ _ _ _ C) in P. apply andb_true_iff in P as [_ P]. rewrite forallb_forall in P.
    by apply other_ne, P.
  - intros b. destruct (st_operators s !! (a, b)) eqn:P; [|done]. apply (all_listed _ _ _ _ E) in P.
    apply andb_true_iff in P as [P _]. by apply other_ne in P.
  - intros b. destruct (st_operators s !! (b, a)) eqn:P; [|done]. apply (all_listed _ _ _ _ E) in P.
    apply andb_true_iff in P as [_ P]. by apply other_ne in P.
Qed.
Definition na_new : list call :=
  [(v_env, v_info "erin", CreatePosition v_key (-20) 20 40000000000 0 MAX_SQRT_PRICE);
   (v_env, v_info "erin", Swap v_key true 1000 true MIN_SQRT_PRICE);
   (v_env, v_info "erin", TransferPosition 0 "frank"); (v_env, v_info "erin", RemovePosition 0)]%string.
Example ex_C112_strangers : stranger "erin" sc0 /\ stranger "frank" sc0 /\
  fair_calls (swap_names "erin" "frank") same_name na_new /\
  map is_ok (fst (play na_new sc0)) = [true; true; true; false] /\
  map (named_call (swap_names "erin" "frank") same_name) [List.nth 2 na_new (v_env, v_info "", ClaimFee 0)] =
    [(v_env, v_info "frank", TransferPosition 0 "erin"%string)].
Proof.
  split; [apply strangerb_ok; vm_compute; reflexivity|]. split; [apply strangerb_ok; vm_compute; reflexivity|].
  split; [|split; vm_compute; reflexivity].
  unfold na_new. repeat (apply Forall_cons; split; [split; [split; [vm_compute; reflexivity|split; [|split]; intros; reflexivity]|exact Logic.I]|]).
  constructor.
Qed.
(** the alphabetical order of the two tokens does matter: it decides which of them is [x] *)
Theorem C112_order_refuted : exists g zs s, one_to_one g /\ Forall (fun c : call => let '(e, _, _) := c in fair_names same_name g e) zs /\
  named same_name g s s /\ fst (play (map (named_call same_name g) zs) s) <> map (named_reply same_name g) (fst (play zs s)).
Proof.
  exists (swap_names "tokenx" "zinc"),
    (map (fun c => (v_env, v_info (fst c), snd c)) [("alice", AddFeeTier v_tier); ("alice", CreatePool "tokeny" "tokenx" v_tier SP_ONE 0);
       ("alice", CreatePosition v_key (-10) 10 20006000000000 SP_ONE SP_ONE)]%string),
    (mkStore (mkConfig "alice" [] 10000000000) ∅ ∅ ∅ ∅ ∅ ∅).
  split; [exact (swap_names_inj _ _)|]. split.
  { cbn [map]. repeat (apply Forall_cons; split; [split; [vm_compute; reflexivity|split; [|split]; intros; reflexivity]|]). constructor. }
  split; [constructor; intros; cbn; rewrite ?lookup_empty; done|].
  intros H. assert (X : map is_ok (fst (play (map (named_call same_name (swap_names "tokenx" "zinc"))
    (map (fun c => (v_env, v_info (fst c), snd c)) [("alice", AddFeeTier v_tier); ("alice", CreatePool "tokeny" "tokenx" v_tier SP_ONE 0);
       ("alice", CreatePosition v_key (-10) 10 20006000000000 SP_ONE SP_ONE)]%string))
    (mkStore (mkConfig "alice" [] 10000000000) ∅ ∅ ∅ ∅ ∅ ∅))) = [true; true; false]) by (vm_compute; reflexivity).
  rewrite H in X. vm_compute in X. discriminate X.
Qed.
Print Assumptions C112_names.
Print Assumptions C112_queries.
Print Assumptions C112_strangers.
