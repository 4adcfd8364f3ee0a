(** C84-C86: the contract among token ledgers. *)
From Verif Require Import Base Decimal SqrtPrice Clamm Log FeeGrowth Types Tick Pool Position
  Tickmap Keys State Swap Exec Tactics PriceProofs ClammProofs BitmapProofs Frame Handlers History Basic PosList Ledger Vectors Scenario
  SwapInv SwapGeo SwapLoop Modify PSum LiqInv Geo Ops Clean CleanSuff PropTrade PropLiq PropSwap Growth Value Fund Flow PropSolv Forward PropExit
  PropFunds PropBlock PropEvent PropMove PropOk World.
From stdpp Require Import gmap strings.
From Coq Require Import Lia.
Open Scope Z_scope.

(** ** Ledgers *)
Definition only (b a : string) (v : Z) : Z := if String.eqb b a then v else 0.
Lemma amount_credit m T a v T' b : amount_of (credit m T a v) T' b = amount_of m T' b + (if String.eqb T' T then only b a v else 0).
Proof.
  unfold credit, only. destruct (String.eqb_spec T' T) as [->|N1].
  - destruct (String.eqb_spec b a) as [->|N2].
    + unfold amount_of at 1. by rewrite lookup_insert.
    + unfold amount_of. rewrite lookup_insert_ne by congruence. lia.
  - unfold amount_of. rewrite lookup_insert_ne by congruence. lia.
Qed.
Lemma amount_hand m T a c v T' b : amount_of (hand m T a c v) T' b = amount_of m T' b + (if String.eqb T' T then only b c v - only b a v else 0).
Proof. unfold hand. rewrite !amount_credit. destruct (String.eqb T' T); [|lia]. unfold only. destruct (String.eqb b a), (String.eqb b c); lia. Qed.

(** ** Messages between the caller and the contract *)
Definition own (V : string -> bool) (self a : string) (m : out_msg) : Prop :=
  match m with
  | Cw20Transfer T r _ => r = a /\ V T = true
  | Cw20TransferFrom T o r _ => o = a /\ r = self /\ V T = true
  | BankSend r T _ => r = a /\ V T = false
  | NftReceive _ _ _ _ => True
  end.
Lemma own_transfer e i T v : Forall (own (e_addr_ok e) (e_self e) (i_sender i)) (asset_transfer e i T v).
Proof. unfold asset_transfer. destruct (v =? 0); [done|]. destruct (e_addr_ok e T) eqn:E; by repeat constructor. Qed.
Lemma own_from e i T v m : asset_transfer_from e i T v = Ok m -> Forall (own (e_addr_ok e) (e_self e) (i_sender i)) m.
Proof.
  unfold asset_transfer_from. destruct (v =? 0); [intros H; apply Ok_inj in H; subst; done|]. destruct (e_addr_ok e T) eqn:E.
  - intros H. apply Ok_inj in H. subst. by repeat constructor.
  - destruct (List.find _ _) as [c|]; [|done]. destruct (v <=? c_amount c); [|done]. intros H. apply Ok_inj in H. subst. destruct (_ =? 0); by repeat constructor.
Qed.
Lemma effect_own e i s s' ms : ereach s -> effect e i s s' ms -> Forall (own (e_addr_ok e) (e_self e) (i_sender i)) ms.
Proof.
  intros R H. destruct H as [c|k p _ _|k p r|k p b t0 t1 price tick|k d a by_in lim s' ms r _ _ H|k lower upper liq sl su s' ms at' Q _ _ H|ix s' ms at' H|ix s' ms at' H
    |o ix po s1 r s' ms _ _ _ [-> | (c & t & x & ->)]|o ix po l|m]; try done.
  - apply Forall_app. split; apply own_transfer.
  - apply swap_internal_inv in H as (_ & _ & m0 & H & ->). apply Forall_app. split; [by eapply own_from|apply own_transfer].
  - destruct (create_inv _ _ _ _ _ _ _ _ _ _ _ _ R Q H) as (p & lt & ut & po & p' & lt' & ut' & x & y & bm1 & bm2 & m0 & m1 & []).
    subst ms. apply Forall_app. split; by eapply own_from.
  - destruct (claim_inv _ _ _ _ _ _ _ R H) as (po & p & lt & ut & po1 & p' & lt' & ut' & zx & zy & ox & oy & []).
    subst ms. apply Forall_app. split; apply own_transfer.
  - apply remove_position_exec_inv in H; [|by apply ereach_indexed].
    destruct H as (po & lt & ut & p0 & po' & p' & lt' & ut' & x & y & dl & du & bm1 & bm2 & m' & _ & _ & _ & _ & _ & _ & -> & _).
    apply Forall_app. split; apply own_transfer.
  - by repeat constructor.
Qed.
Lemma execute_own e i s m s' ms at' : reachable s -> execute e i s m = Ok (s', ms, at') -> Forall (own (e_addr_ok e) (e_self e) (i_sender i)) ms.
Proof.
  intros R H. apply reachable_ereach in R. apply execute_effects in H. revert R. induction H as [s|s s1 s2 m1 m2 H _ IH]; intros R; [done|].
  apply Forall_app. split; [by eapply effect_own|]. apply IH. by eapply er_step.
Qed.

(** ** What settling does to the ledgers *)
Lemma paid_own_cw20 V self a T ms : Forall (own V self a) ms -> V T = false -> pulled self a T ms = 0.
Proof.
  intros F N. induction F as [|m ms O F IH]; [done|]. unfold pulled in *. cbn [map sumZ foldr]. unfold sumZ in IH. rewrite IH.
  destruct m as [T' r v|T' o r v|r T' v|]; try done. destruct O as (_ & _ & VT). cbn. destruct (String.eqb_spec T' T); [congruence|]. by rewrite andb_false_r.
Qed.
Lemma settle_done V self a ms : a <> self -> Forall (own V self a) ms -> forall at' w w' at2, settle self ms at' w = Done w' at2 ->
  at2 = at' /\ w_store w' = w_store w /\ forall T b,
    amount_of (w_cw20 w') T b = amount_of (w_cw20 w) T b + (let v := if V T then paid a T ms - pulled self a T ms else 0 in only b a v - only b self v) /\
    amount_of (w_bank w') T b = amount_of (w_bank w) T b + (let v := if V T then 0 else paid a T ms in only b a v - only b self v) /\
    amount_of (w_allow w') T b = amount_of (w_allow w) T b - only b a (pulled self a T ms).
Proof.
  intros NS F. induction F as [|m ms O F IH]; intros at' w w' at2 H.
  { cbn in H. injection H as <- <-. split; [done|]. split; [done|]. intros T b. unfold paid, pulled, only. cbn.
    destruct (V T), (String.eqb b a), (String.eqb b self); lia. }
  destruct m as [T' r v|T' o r v|r T' v|c z t x]; cbn [settle] in H.
  - destruct (_ <? _); [done|]. destruct O as [-> VT]. destruct (IH _ _ _ _ H) as (A & B & Q). split; [done|]. split; [done|].
    intros T b. destruct (Q T b) as (Q1 & Q2 & Q3). cbn [w_cw20 w_bank w_allow] in *. rewrite Q1, Q2, Q3, amount_hand. clear Q Q1 Q2 Q3.
    unfold paid, pulled in *. cbn [map sumZ foldr paid1 pulled1]. rewrite String.eqb_refl. cbn [andb]. unfold sumZ. rewrite (String.eqb_sym T' T).
    destruct (String.eqb_spec T T') as [EQ|N]; [rewrite EQ, VT|destruct (V T)]; unfold only; destruct (String.eqb_spec b a), (String.eqb_spec b self); try congruence; repeat split; lia.
  - destruct (_ || _); [done|]. destruct O as (-> & -> & VT). destruct (IH _ _ _ _ H) as (A & B & Q). split; [done|]. split; [done|].
    intros T b. destruct (Q T b) as (Q1 & Q2 & Q3). cbn [w_cw20 w_bank w_allow] in *. rewrite Q1, Q2, Q3, amount_hand, amount_credit. clear Q Q1 Q2 Q3.
    unfold paid, pulled in *. cbn [map sumZ foldr paid1 pulled1]. rewrite !String.eqb_refl. cbn [andb]. unfold sumZ. rewrite (String.eqb_sym T' T), andb_true_r.
    destruct (String.eqb_spec T T') as [EQ|N]; [rewrite EQ, VT|destruct (V T)]; unfold only; destruct (String.eqb_spec b a), (String.eqb_spec b self); try congruence; repeat split; lia.
  - destruct (_ <? _); [done|]. destruct O as [-> VT]. destruct (IH _ _ _ _ H) as (A & B & Q). split; [done|]. split; [done|].
    intros T b. destruct (Q T b) as (Q1 & Q2 & Q3). cbn [w_cw20 w_bank w_allow] in *. rewrite Q1, Q2, Q3, amount_hand. clear Q Q1 Q2 Q3.
    unfold paid, pulled in *. cbn [map sumZ foldr paid1 pulled1]. rewrite String.eqb_refl. cbn [andb]. unfold sumZ. rewrite (String.eqb_sym T' T).
    destruct (String.eqb_spec T T') as [EQ|N]; [rewrite EQ, VT|destruct (V T)]; unfold only; destruct (String.eqb_spec b a), (String.eqb_spec b self); try congruence; repeat split; lia.
  - destruct (IH _ _ _ _ H) as (A & B & Q). split; [done|]. split; [done|]. intros T b. destruct (Q T b) as (Q1 & Q2 & Q3). rewrite Q1, Q2, Q3.
    unfold paid, pulled in *. cbn [map sumZ foldr paid1 pulled1]. unfold sumZ. rewrite !Z.add_0_l. done.
Qed.
Definition coins_of (T : string) (cs : list coin) : Z :=
  match List.find (fun c => String.eqb (c_denom c) T) cs with Some c => c_amount c | None => 0 end.
Lemma pay_in_some a self cs : NoDup (map c_denom cs) -> a <> self -> forall m m', pay_in a self cs m = Some m' -> forall T b,
  amount_of m' T b = amount_of m T b + only b self (coins_of T cs) - only b a (coins_of T cs).
Proof.
  intros ND NS. induction cs as [|c cs IH]; intros m m' H T b; cbn [pay_in] in H.
  { injection H as <-. unfold coins_of, only. cbn. destruct (String.eqb b a), (String.eqb b self); lia. }
  destruct (_ <? _); [done|]. cbn [map] in ND. apply NoDup_cons in ND as [NI ND]. rewrite (IH ND _ _ H T b), amount_hand.
  unfold coins_of. cbn [List.find]. destruct (String.eqb_spec (c_denom c) T) as [E|E].
  - rewrite E, String.eqb_refl. destruct (List.find _ cs) as [c'|] eqn:FD.
    { exfalso. apply List.find_some in FD as [I Q]. apply String.eqb_eq in Q. apply NI. rewrite E, <- Q. apply elem_of_list_In. by apply in_map. }
    unfold only. destruct (String.eqb b a), (String.eqb b self); lia.
  - rewrite (proj2 (String.eqb_neq T (c_denom c))) by congruence. lia.
Qed.

(** ** C84 *)
Lemma world_call_inv e i w m w' at' : world_call e i w m = Done w' at' ->
  NoDup (map c_denom (i_funds i)) /\ exists bank s ms, pay_in (i_sender i) (e_self e) (i_funds i) (w_bank w) = Some bank /\
    execute e i (w_store w) m = Ok (s, ms, at') /\ settle (e_self e) ms at' (mkWorld s (w_cw20 w) (w_allow w) bank) = Done w' at'.
Proof.
  unfold world_call, coins_ok. destruct (bool_decide _) eqn:ND; [|done]. apply bool_decide_eq_true in ND. cbn [negb].
  destruct (pay_in _ _ _ _) as [bank|]; [|done]. destruct (execute _ _ _ _) as [[[s ms] at2]| |] eqn:E; try done. intros H. split; [done|].
  assert (at2 = at').
  { clear -H. revert H. generalize (mkWorld s (w_cw20 w) (w_allow w) bank). induction ms as [|x ms IH]; cbn [settle]; intros w0 H; [by injection H|].
    destruct x; try (by eapply IH); destruct (_ <? _); try done; try (by eapply IH). cbn [orb] in H. destruct (_ <? _); [done|]. by eapply IH. }
  subst at2. eauto 10.
Qed.
(** all that a call does to the ledgers *)
Theorem C84_ledgers e i w m w' at' : reachable (w_store w) -> i_sender i <> e_self e -> world_call e i w m = Done w' at' ->
  exists ms, execute e i (w_store w) m = Ok (w_store w', ms, at') /\ forall T b,
    let a := i_sender i in let self := e_self e in let V := e_addr_ok e in
    amount_of (w_cw20 w') T b = amount_of (w_cw20 w) T b + (let v := if V T then paid a T ms - pulled self a T ms else 0 in only b a v - only b self v) /\
    amount_of (w_bank w') T b = amount_of (w_bank w) T b + (let v := (if V T then 0 else paid a T ms) - attached i T in only b a v - only b self v) /\
    amount_of (w_allow w') T b = amount_of (w_allow w) T b - only b a (pulled self a T ms).
Proof.
  intros R NS H. apply world_call_inv in H as (ND & bank & s & ms & PI & E & H). exists ms.
  destruct (settle_done (e_addr_ok e) (e_self e) (i_sender i) ms NS (execute_own _ _ _ _ _ _ _ R E) _ _ _ _ H) as (_ & S & Q). cbn in S. subst s.
  split; [done|]. intros T b. cbv zeta. destruct (Q T b) as (Q1 & Q2 & Q3). cbn [w_cw20 w_bank w_allow] in *. rewrite Q1, Q2, Q3.
  split; [done|]. split; [|done]. rewrite (pay_in_some _ _ _ ND NS _ _ PI T b). change (coins_of T (i_funds i)) with (attached i T).
  unfold only. destruct (e_addr_ok e T), (String.eqb_spec b (i_sender i)), (String.eqb_spec b (e_self e)); subst; try done; lia.
Qed.
(** nobody but the caller and the contract is touched *)
Theorem C84_nobody_else e i w m w' at' b : reachable (w_store w) -> i_sender i <> e_self e -> world_call e i w m = Done w' at' ->
  b <> i_sender i -> b <> e_self e -> forall T,
    amount_of (w_cw20 w') T b = amount_of (w_cw20 w) T b /\ amount_of (w_bank w') T b = amount_of (w_bank w) T b /\
    amount_of (w_allow w') T b = amount_of (w_allow w) T b.
Proof.
  intros R NS H N1 N2 T. destruct (C84_ledgers _ _ _ _ _ _ R NS H) as (ms & _ & Q). destruct (Q T b) as (Q1 & Q2 & Q3). cbv zeta in *. rewrite Q1, Q2, Q3.
  unfold only. rewrite (proj2 (String.eqb_neq b _) N1), (proj2 (String.eqb_neq b _) N2). lia.
Qed.
(** what the caller loses the contract gains, in every token; the contract never takes more than it may *)
Theorem C84_exchange e i w m w' at' : reachable (w_store w) -> i_sender i <> e_self e -> world_call e i w m = Done w' at' ->
  exists ms, execute e i (w_store w) m = Ok (w_store w', ms, at') /\ forall T,
    wealth (e_addr_ok e) w' T (i_sender i) = wealth (e_addr_ok e) w T (i_sender i) - charged e i T ms /\
    wealth (e_addr_ok e) w' T (e_self e) = wealth (e_addr_ok e) w T (e_self e) + charged e i T ms /\
    amount_of (w_allow w') T (i_sender i) = amount_of (w_allow w) T (i_sender i) - pulled (e_self e) (i_sender i) T ms.
Proof.
  intros R NS H. destruct (C84_ledgers _ _ _ _ _ _ R NS H) as (ms & E & Q). exists ms. split; [done|]. intros T.
  destruct (Q T (i_sender i)) as (Q1 & Q2 & Q3). destruct (Q T (e_self e)) as (Q4 & Q5 & _). cbv zeta in *. unfold wealth, charged. rewrite Q1, Q2, Q3, Q4, Q5.
  unfold only. rewrite !String.eqb_refl, (proj2 (String.eqb_neq _ _) NS), (proj2 (String.eqb_neq (e_self e) (i_sender i))) by congruence.
  destruct (e_addr_ok e T); lia.
Qed.
(** a swap costs the caller what it reports as [amount_in], and pays what it reports as [amount_out] *)
Theorem C84_swap e i w k (d : bool) a by_in lim w' at' : reachable (w_store w) -> i_sender i <> e_self e ->
  let I := if d then pk_x k else pk_y k in let O := if d then pk_y k else pk_x k in
  (e_addr_ok e O = false -> attached i O = 0) ->
  world_call e i w (Swap k d a by_in lim) = Done w' at' ->
  exists total out, at' = [("amount_in"%string, total); ("amount_out"%string, out)] /\ 0 < total /\ 0 < out /\
    wealth (e_addr_ok e) w' I (i_sender i) = wealth (e_addr_ok e) w I (i_sender i) - total /\
    wealth (e_addr_ok e) w' O (i_sender i) = wealth (e_addr_ok e) w O (i_sender i) + out /\
    wealth (e_addr_ok e) w' I (e_self e) = wealth (e_addr_ok e) w I (e_self e) + total /\
    wealth (e_addr_ok e) w' O (e_self e) = wealth (e_addr_ok e) w O (e_self e) - out.
Proof.
  intros R NS I O AT H. destruct (C84_exchange _ _ _ _ _ _ R NS H) as (ms & E & Q).
  destruct (C69_swap_effect _ _ _ _ _ _ _ _ _ _ _ R E) as (p & p' & total & out & Ep & _ & -> & T0 & CH & O0 & PD & _).
  fold I in CH. fold O in PD. exists total, out. split; [done|]. split; [done|]. split; [done|].
  destruct (Q I) as (-> & -> & _). destruct (Q O) as (-> & -> & _). rewrite CH.
  assert (CO : charged e i O ms = - out); [|lia].
  unfold charged. rewrite PD. unfold execute in E. destruct (env_typed e i && _); [|done]. cbn [dispatch] in E. unfold swap in E. inv_bind E as [[s1 m1] r1] E1.
  apply Ok_inj in E. injection E as _ <- _ _. apply swap_internal_inv in E1 as (_ & _ & m0 & TF & ->). fold I O in TF |- *.
  destruct (e_addr_ok e O) eqn:VO; [|rewrite AT by done; lia]. rewrite pulled_app, pulled_transfer.
  assert (NO : I <> O). { pose proof (pool_distinct _ _ (reachable_ereach _ R) ltac:(eauto) : pk_x k <> pk_y k). unfold I, O. destruct d; congruence. }
  assert (pulled (e_self e) (i_sender i) O m0 = 0); [|lia]. clear -TF NO.
  unfold asset_transfer_from in TF. destruct (_ =? 0); [apply Ok_inj in TF; by subst|]. destruct (e_addr_ok e I).
  - apply Ok_inj in TF. subst m0. cbn. rewrite (proj2 (String.eqb_neq I O)) by done. by rewrite andb_false_r.
  - destruct (List.find _ _) as [c|]; [|done]. destruct (_ <=? _); [|done]. apply Ok_inj in TF. subst m0. by destruct (_ =? 0).
Qed.

(** a deposit costs the caller exactly the amounts of [C80_deposit]; coins sent for a token that is not needed are lost *)
Lemma collects_charged e i T v t : covered e i T v -> let ms := collects e i T v in
  (if e_addr_ok e t then pulled (e_self e) (i_sender i) t ms else 0) - paid (i_sender i) t ms =
    if String.eqb t T then v - (if e_addr_ok e T || (v =? 0) then 0 else attached i T) else 0.
Proof.
  intros C ms. unfold ms, collects, attached. rewrite (String.eqb_sym t T). destruct C as [->|[C|(c & C & LE)]].
  - cbn. destruct (e_addr_ok e t), (String.eqb T t), (e_addr_ok e T); done.
  - rewrite C. destruct (Z.eqb_spec v 0) as [->|]; [cbn; by destruct (e_addr_ok e t), (String.eqb T t)|]. unfold pulled, paid. cbn. rewrite !String.eqb_refl. cbn [andb]. rewrite andb_true_r.
    destruct (String.eqb_spec T t) as [<-|]; [rewrite C; lia|]. destruct (e_addr_ok e t); lia.
  - rewrite C. destruct (Z.eqb_spec v 0) as [->|]; [cbn; destruct (e_addr_ok e t), (String.eqb T t), (e_addr_ok e T); done|].
    destruct (e_addr_ok e T) eqn:VT; cbn [orb].
    + unfold pulled, paid. cbn. rewrite !String.eqb_refl. cbn [andb]. rewrite andb_true_r. destruct (String.eqb_spec T t) as [<-|]; [rewrite VT; lia|]. destruct (e_addr_ok e t); lia.
    + destruct (Z.eqb_spec (c_amount c) v); unfold pulled, paid; cbn; rewrite ?String.eqb_refl; cbn [andb]; destruct (String.eqb T t), (e_addr_ok e t); lia.
Qed.
Theorem C84_deposit e i w k lower upper L sl su w' at' m : reachable (w_store w) -> i_sender i <> e_self e ->
  m = CreatePosition k lower upper L sl su \/ m = Mint k lower upper L sl su -> world_call e i w m = Done w' at' ->
  exists p, st_pools (w_store w) !! k = Some p /\ let c := Z.max (tprice lower) (Z.min (p_price p) (tprice upper)) in
    let x := cost_x L c (tprice upper) in let y := cost_y L (tprice lower) c in
    let given T v := if negb (e_addr_ok e T) && (v =? 0) then attached i T else v in
    wealth (e_addr_ok e) w' (pk_x k) (i_sender i) = wealth (e_addr_ok e) w (pk_x k) (i_sender i) - given (pk_x k) x /\
    wealth (e_addr_ok e) w' (pk_y k) (i_sender i) = wealth (e_addr_ok e) w (pk_y k) (i_sender i) - given (pk_y k) y /\
    forall T, T <> pk_x k -> T <> pk_y k -> wealth (e_addr_ok e) w' T (i_sender i) = wealth (e_addr_ok e) w T (i_sender i) - (if e_addr_ok e T then 0 else attached i T).
Proof.
  intros R NS M H. destruct (C84_exchange _ _ _ _ _ _ R NS H) as (ms & E & Q). pose proof (reachable_ereach _ R) as R0.
  unfold execute in E. destruct (env_typed e i && msg_typed m) eqn:T; [|done].
  assert (H' : create_position e i (w_store w) k lower upper L sl su = Ok (w_store w', ms, at') /\ 0 <= L <= U128MAX).
  { apply andb_prop in T as [_ T]. destruct M as [-> | ->]; cbn [dispatch msg_typed] in *; (split; [done|]);
      repeat (apply andb_prop in T as [T ?]); by apply in_range_spec. }
  destruct H' as [H' HL]. destruct (deposit_inv _ _ _ _ _ _ _ _ _ _ _ _ R0 HL H') as [(p & EP & D) MS]. specialize (MS p EP).
  exists p. split; [done|]. destruct D as (_ & _ & _ & _ & _ & _ & _ & _ & _ & CX & CY). unfold price_of_deposit, split_price in *. cbn [fst snd] in *. cbv zeta in *.
  set (x := cost_x _ _ _) in *. set (y := cost_y _ _ _) in *. clearbody x y.
  assert (ND : pk_x k <> pk_y k) by (apply (pool_distinct (w_store w)); eauto).
  assert (CH : forall t, charged e i t ms = (if e_addr_ok e t then 0 else attached i t) +
     (if String.eqb t (pk_x k) then x - (if e_addr_ok e (pk_x k) || (x =? 0) then 0 else attached i (pk_x k)) else 0) +
     (if String.eqb t (pk_y k) then y - (if e_addr_ok e (pk_y k) || (y =? 0) then 0 else attached i (pk_y k)) else 0)).
  { intros t. pose proof (collects_charged e i _ _ t CX) as QX. pose proof (collects_charged e i _ _ t CY) as QY. cbv zeta in QX, QY.
    unfold charged. rewrite MS, paid_app, pulled_app. destruct (e_addr_ok e t); lia. }
  split; [|split].
  - destruct (Q (pk_x k)) as (-> & _). rewrite CH, String.eqb_refl, (proj2 (String.eqb_neq (pk_x k) (pk_y k)) ND).
    destruct (e_addr_ok e (pk_x k)), (Z.eqb_spec x 0) as [X0|X0]; cbn [orb negb andb]; rewrite ?X0; lia.
  - destruct (Q (pk_y k)) as (-> & _). rewrite CH, String.eqb_refl, (proj2 (String.eqb_neq (pk_y k) (pk_x k))) by congruence.
    destruct (e_addr_ok e (pk_y k)), (Z.eqb_spec y 0) as [X0|X0]; cbn [orb negb andb]; rewrite ?X0; lia.
  - intros t N1 N2. destruct (Q t) as (-> & _). rewrite CH, (proj2 (String.eqb_neq _ _) N1), (proj2 (String.eqb_neq _ _) N2). lia.
Qed.

(** ** C85 *)
Section worlds.
  Context (ok : env -> msg_info -> store -> exec_msg -> Prop) (self : string) (V : string -> bool).
  (** Worlds in which the contract has only made calls of a certain kind.  What others do to the ledgers in between is arbitrary, except
      that they take nothing from the contract. *)
  Inductive history : world -> Z -> Prop :=
  | wh_init i f w : instantiate i f = Ok (w_store w) -> (forall T, 0 <= wealth V w T self) -> history w 0
  | wh_outside w w' n : history w n -> w_store w' = w_store w -> (forall T, wealth V w T self <= wealth V w' T self) -> history w' n
  | wh_call e i w m w' at' n : history w n -> ok e i (w_store w) m -> world_call e i w m = Done w' at' ->
      e_self e = self -> (forall t, e_addr_ok e t = V t) -> i_sender i <> self -> history w' (n + cost e m).
End worlds.

Lemma history_reachable ok self V w n : history ok self V w n -> reachable (w_store w).
Proof.
  induction 1 as [i f w H _|w w' n _ IH -> _|e i w m w' at' n _ IH _ H _ _ _]; [by eapply reach_init|done|].
  apply world_call_inv in H as (_ & bank & s & ms & _ & E & H).
  assert (w_store w' = s).
  { clear -H. assert (Q : forall w0, settle (e_self e) ms at' w0 = Done w' at' -> w_store w' = w_store w0); [|by apply (Q _ H)]. clear H.
    induction ms as [|x ms IH]; cbn [settle]; intros w0 H; [by injection H as ->|].
    destruct x; try (by apply (IH _ H)); destruct (_ <? _); try done; try (by apply (IH _ H)). cbn [orb] in H. destruct (_ <? _); [done|]. by apply (IH _ H). }
  subst s. by eapply reach_call.
Qed.
(** the contract's books, kept from its messages ([accounts], PropSolv.v), never exceed its real balances *)
Lemma history_accounts ok self V w n : history ok self V w n ->
  exists bal, accounts ok self V (w_store w) bal n /\ forall T, bal T <= wealth V w T self.
Proof.
  intros H. induction H as [i f w H P|w w' n _ (bal & A & B) E P|e i w m w' at' n HW (bal & A & B) O H SE VE NS].
  - exists (fun _ => 0). split; [by eapply ac_init|done].
  - exists bal. rewrite E. split; [done|]. intros T. specialize (B T). specialize (P T). lia.
  - pose proof (history_reachable _ _ _ _ _ HW) as R. assert (NS' : i_sender i <> e_self e) by (by rewrite SE). destruct (C84_exchange _ _ _ _ _ _ R NS' H) as (ms & E & Q).
    pose proof (execute_own _ _ _ _ _ _ _ R E) as OW.
    eexists. split; [eapply (ac_call ok self V e i (w_store w) m); eassumption|]. intros T. cbn beta. specialize (B T). destruct (Q T) as (_ & Q2 & _).
    assert (VW : forall w0 b, wealth (e_addr_ok e) w0 T b = wealth V w0 T b) by (intros; unfold wealth; by rewrite VE).
    rewrite !VW, SE in Q2. rewrite Q2.
    assert (CH : charged e i T ms = brought e i T + received self T ms - sent T ms); [|lia].
    assert (PS : paid (i_sender i) T ms = sent T ms /\ pulled (e_self e) (i_sender i) T ms = received (e_self e) T ms).
    { clear -OW. induction OW as [|x ms O F [IH1 IH2]]; [done|]. unfold paid, pulled, sent, received in *. cbn [map sumZ foldr]. unfold sumZ in *. rewrite IH1, IH2. 
      destruct x as [t r v|t o r v|r t v|]; cbn [own paid1 pulled1 sent1 received1] in *; [destruct O as [-> _]; rewrite !String.eqb_refl; by cbn [andb]..| |destruct O as [-> _]; rewrite !String.eqb_refl; by cbn [andb]|done].
      destruct O as (-> & -> & _). rewrite !String.eqb_refl. cbn [andb]. by rewrite !andb_true_r. }
    destruct PS as [PS PL]. unfold charged, brought. rewrite PS, PL, SE. destruct (e_addr_ok e T) eqn:VT; [lia|].
    rewrite <- SE, <- PL, (paid_own_cw20 _ _ _ _ _ OW VT). lia.
Qed.

(** what the contract has of [T] after a first part of the messages *)
Definition net (self T : string) (ms : list out_msg) : Z := received self T ms - sent T ms.
Definition safe (self T : string) (h : Z) (ms : list out_msg) : Prop := forall p q, ms = p ++ q -> 0 <= h + net self T p.
Lemma net_app self T l l' : net self T (l ++ l') = net self T l + net self T l'.
Proof. unfold net. rewrite received_app, sent_app. lia. Qed.
Lemma settle_safe V self a ms : a <> self -> Forall (own V self a) ms -> forall at' w, (forall T, safe self T (wealth V w T self) ms) ->
  settle self ms at' w <> ContractShort.
Proof.
  intros NS F. induction F as [|m ms O F IH]; intros at' w S; [done|]. cbn [settle].
  assert (ONE : forall T, 0 <= wealth V w T self + net self T [m]) by (intros T; exact (S T [m] ms eq_refl)).
  assert (REST : forall w', (forall T, wealth V w' T self = wealth V w T self + net self T [m]) -> settle self ms at' w' <> ContractShort).
  { intros w' W. apply IH. intros T p q ->. specialize (S T (m :: p) q eq_refl). change (m :: p) with ([m] ++ p) in S. rewrite net_app in S. rewrite W. lia. }
  destruct m as [T' r v|T' o r v|r T' v|c z t x].
  - destruct O as [-> VT]. destruct (Z.ltb_spec (amount_of (w_cw20 w) T' self) v) as [L|L].
    + exfalso. specialize (ONE T'). unfold wealth, net, received, sent in ONE. rewrite VT in ONE. cbn in ONE. rewrite String.eqb_refl in ONE. lia.
    + apply REST. intros T. unfold wealth, net, received, sent. cbn. rewrite amount_hand, (String.eqb_sym T' T). unfold only. rewrite String.eqb_refl, (proj2 (String.eqb_neq self a)) by congruence.
      destruct (String.eqb_spec T T') as [->|N]; [rewrite VT; lia|destruct (V T); lia].
  - destruct O as (-> & -> & VT). destruct (_ || _); [done|]. apply REST. intros T. unfold wealth, net, received, sent. cbn.
    rewrite amount_hand, (String.eqb_sym T' T). unfold only. rewrite String.eqb_refl, (proj2 (String.eqb_neq self a)), andb_true_r by congruence.
    destruct (String.eqb_spec T T') as [->|N]; [rewrite VT; lia|destruct (V T); lia].
  - destruct O as [-> VT]. destruct (Z.ltb_spec (amount_of (w_bank w) T' self) v) as [L|L].
    + exfalso. specialize (ONE T'). unfold wealth, net, received, sent in ONE. rewrite VT in ONE. cbn in ONE. rewrite String.eqb_refl in ONE. lia.
    + apply REST. intros T. unfold wealth, net, received, sent. cbn. rewrite amount_hand, (String.eqb_sym T' T). unfold only. rewrite String.eqb_refl, (proj2 (String.eqb_neq self a)) by congruence.
      destruct (String.eqb_spec T T') as [->|N]; [rewrite VT; lia|destruct (V T); lia].
  - apply REST. intros T. unfold net, received, sent. cbn. lia.
Qed.

(** the messages of one step touch each token at most once *)
Lemma move_short e i t v m : move e i t v m -> m = [] \/ exists x, m = [x].
Proof.
  intros [[_ H]|[_ ->]].
  - unfold asset_transfer_from in H. destruct (v =? 0); [apply Ok_inj in H; by left|]. destruct (e_addr_ok e t); [apply Ok_inj in H; subst; eauto|].
    destruct (List.find _ _) as [c|]; [|done]. destruct (_ <=? _); [|done]. apply Ok_inj in H. subst. destruct (_ =? 0); eauto.
  - unfold asset_transfer. destruct (_ =? 0); [by left|]. destruct (e_addr_ok e t); eauto.
Qed.
Lemma move_other e i t v m self T : move e i t v m -> t <> T -> net self T m = 0.
Proof.
  intros H N. apply String.eqb_neq in N. unfold net, received, sent. destruct H as [[_ H]|[_ ->]].
  - unfold asset_transfer_from in H. destruct (v =? 0); [apply Ok_inj in H; by subst|]. destruct (e_addr_ok e t); [apply Ok_inj in H; subst; cbn; by rewrite N|].
    destruct (List.find _ _) as [c|]; [|done]. destruct (_ <=? _); [|done]. apply Ok_inj in H. subst. destruct (_ =? 0); cbn; by rewrite ?N.
  - unfold asset_transfer. destruct (_ =? 0); [done|]. destruct (e_addr_ok e t); cbn; by rewrite N.
Qed.
Lemma prefix_short {A} (l p q : list A) : l = [] \/ (exists x, l = [x]) -> l = p ++ q -> p = [] \/ p = l.
Proof.
  intros [->|[x ->]] H; [left; by destruct p|]. destruct p as [|y p]; [by left|]. right. cbn in H. injection H as -> H. by destruct p.
Qed.
Lemma prefix_pair {A} (l l' p q : list A) : l = [] \/ (exists x, l = [x]) -> l' = [] \/ (exists x, l' = [x]) -> l ++ l' = p ++ q ->
  p = [] \/ p = l \/ p = l ++ l'.
Proof.
  intros H H' E. destruct H as [->|[x ->]].
  - cbn in *. destruct (prefix_short _ _ _ H' E); tauto.
  - destruct p as [|y p]; [by left|]. cbn in E. injection E as -> E. right. destruct (prefix_short _ _ _ H' E) as [->| ->]; [by left|by right].
Qed.
Lemma step_safe e i s s' ms k dx dy n self T h : step_fund e i s s' ms k dx dy n -> 0 <= h -> 0 <= h + net self T ms -> safe self T h ms.
Proof.
  intros F H0 H1 p q E. pose proof (sq_key _ _ _ _ _ _ _ _ _ F) as KD.
  assert (Q : net self T p = 0 \/ net self T p = net self T ms); [|lia].
  destruct (sq_moves _ _ _ _ _ _ _ _ _ F) as [(x & o & t & c & -> & _)|(mx & my & MX & MY & MS)].
  - destruct (prefix_short _ _ _ ltac:(eauto) E) as [->| ->]; [by left|by right].
  - pose proof (move_short _ _ _ _ _ MX) as SX. pose proof (move_short _ _ _ _ _ MY) as SY.
    assert (Z0 : net self T mx = 0 \/ net self T my = 0).
    { destruct (decide (pk_x k = T)) as [<-|]; [right|left]; by eapply move_other. }
    destruct MS as [->| ->].
    + destruct (prefix_pair _ _ _ _ SX SY E) as [->|[->| ->]]; [by left| |by right]. rewrite net_app. lia.
    + destruct (prefix_pair _ _ _ _ SY SX E) as [->|[->| ->]]; [by left| |by right]. rewrite net_app. lia.
Qed.
Lemma safe_app self T h l l' : safe self T h l -> safe self T (h + net self T l) l' -> safe self T h (l ++ l').
Proof.
  intros A B p q E. apply app_eq_app in E as (z & [[-> ->]|[-> ->]]); [by eapply A|]. rewrite net_app. specialize (B z q eq_refl). lia.
Qed.
Lemma covers_nonneg s T h n : covers s T (UNIT * h + n * LOSS) -> n < 10 ^ 14 -> 0 <= h.
Proof.
  intros C N. specialize (C [] ltac:(constructor)). cbn in C.
  assert (n * LOSS < UNIT).
  { apply Z.lt_le_trans with (10 ^ 14 * LOSS); [apply Z.mul_lt_mono_pos_r; [reflexivity|exact N]|vm_compute; discriminate]. }
  assert (UNIT * (-1) < UNIT * h) by lia. apply Z.mul_lt_mono_pos_l in H0; [lia|reflexivity].
Qed.
Lemma route_safe e i T hops : env_typed e i = true -> forall s a s' ms out h n H, creach s -> 0 <= a <= U128MAX -> clean_hops e i s a hops ->
  swap_route_internal e i s a hops = Ok (s', ms, out) -> covers s T (UNIT * h + n * LOSS) -> n + Z.of_nat (length hops) * effort e < 10 ^ 14 ->
  h + hops_in T hops * brought e i T <= H -> safe (e_self e) T H ms.
Proof.
  intros TY. pose proof (brought_nonneg e i T TY) as B0. pose proof (effort_pos e) as EP.
  assert (HN : forall l, 0 <= hops_in T l) by (induction l as [|x l IH]; cbn; [lia|destruct (String.eqb _ _); lia]).
  induction hops as [|hp hops IH]; intros s a s' ms out h n H R Ha CH E C N L; cbn in E.
  { apply Ok_inj in E. injection E as <- <- <-. intros p q E. destruct p; [|done]. cbn in *. pose proof (covers_nonneg _ _ _ _ C ltac:(lia)). unfold net. cbn. lia. }
  inv_bind E as [[s1 m1] r] E1. inv_bind E as [[s2 m2] o] E2. apply Ok_inj in E. injection E as -> <- <-. destruct CH as [C1 C2].
  assert (HL : 0 <= hop_limit (hop_x_to_y hp) <= U128MAX) by (destruct (hop_x_to_y hp); cbn; unfold MIN_SQRT_PRICE, MAX_SQRT_PRICE, U128MAX; lia).
  pose proof (hop_covers _ _ _ _ _ _ _ _ _ _ _ T _ TY R Ha HL E1 C1 C) as CV. fold (hop_in hp) in CV.
  assert (X : ceffect e i s s1 m1) by (eapply ce_swap; [exact Ha|exact HL|exact E1|exact C1]).
  assert (R1 : creach s1) by (by eapply cr_step).
  assert (HA : 0 <= cr_out r <= U128MAX) by (apply swap_internal_inv in E1 as (E1 & _); apply calculate_swap_out in E1; tauto).
  destruct (ceffect_fund _ _ _ _ _ R X) as (k & dx & dy & F). cbn [hops_in length] in *. rewrite Nat2Z.inj_succ in N.
  set (c := (if String.eqb (hop_in hp) T then 1 else 0) * brought e i T) in *.
  assert (C0 : 0 <= c) by (unfold c; destruct (String.eqb _ _); lia). set (b := brought e i T) in *.
  assert (CV' : covers s1 T (UNIT * (h + c + net (e_self e) T m1) + (n + effort e) * LOSS)).
  { eapply covers_le; [|exact CV]. unfold net. lia. }
  assert (N1 : 0 <= Z.of_nat (length hops) * effort e) by (apply Z.mul_nonneg_nonneg; lia).
  pose proof (covers_nonneg _ _ _ _ C ltac:(lia)) as P0. pose proof (covers_nonneg _ _ _ _ CV' ltac:(lia)) as P1.
  assert (LE : h + c + hops_in T hops * b <= H) by (unfold c; lia). clearbody c.
  assert (0 <= hops_in T hops * b) by (apply Z.mul_nonneg_nonneg; [apply HN|done]).
  apply safe_app; [eapply step_safe; [exact F|lia|lia]|].
  eapply IH; [exact R1|exact HA|exact (C2 _ _ _ E1)|exact E2|exact CV'|lia|lia].
Qed.
(** The contract always has what it sends: in a world all of whose trades were clean and in which no route used the same native coin
    twice, no call of that kind is undone because the contract is short. *)
Theorem C85_never_short_partial V self w n e i m : history (clean_single V) self V w n -> clean_single V e i (w_store w) m ->
  n + cost e m < 10 ^ 14 -> e_self e = self -> (forall t, e_addr_ok e t = V t) -> i_sender i <> self ->
  world_call e i w m <> ContractShort.
Proof.
  intros HW [CC SU] N SE VE NS. destruct (history_accounts _ _ _ _ _ HW) as (bal & A & B). pose proof (history_reachable _ _ _ _ _ HW) as R.
  destruct (accounts_covers _ _ _ _ _ A) as (CR & N0 & C).
  unfold world_call, coins_ok. destruct (bool_decide _) eqn:ND; [|done]. apply bool_decide_eq_true in ND. cbn [negb].
  destruct (pay_in _ _ _ _) as [bank|] eqn:PI; [|done]. destruct (execute _ _ _ _) as [[[s ms] at2]| |] eqn:E; try done.
  assert (NS' : i_sender i <> e_self e) by (by rewrite SE).
  pose proof (execute_own _ _ _ _ _ _ _ R E) as OW. apply (settle_safe _ _ _ _ NS' OW). intros T.
  set (H := wealth (e_addr_ok e) _ T (e_self e)).
  assert (HE : H = wealth V w T self + brought e i T).
  { unfold H, wealth, brought. rewrite VE. cbn. destruct (V T); [rewrite SE; lia|]. rewrite (pay_in_some _ _ _ ND NS' _ _ PI T (e_self e)).
    unfold only. rewrite String.eqb_refl, (proj2 (String.eqb_neq (e_self e) (i_sender i))) by congruence. unfold attached, coins_of. rewrite SE. lia. }
  rewrite HE. clear H HE. specialize (B T). specialize (C T).
  assert (TY : env_typed e i = true) by (unfold execute in E; destruct (env_typed e i); done).
  pose proof (brought_nonneg e i T TY) as B0. pose proof (effort_pos e) as EP.
  assert (ONE : n + effort e < 10 ^ 14 -> ceffect e i (w_store w) s ms -> safe (e_self e) T (wealth V w T self + brought e i T) ms).
  { intros NE X. destruct (ceffect_fund _ _ _ _ _ CR X) as (k & dx & dy & F).
    pose proof (ceffect_covers _ _ _ _ _ T _ TY CR X C) as C'. pose proof (covers_nonneg _ _ _ _ C ltac:(lia)) as P0.
    assert (C2 : covers s T (UNIT * (bal T + brought e i T + net (e_self e) T ms) + (n + effort e) * LOSS)).
    { eapply covers_le; [|exact C']. unfold net. lia. }
    pose proof (covers_nonneg _ _ _ _ C2 NE) as P1. eapply step_safe; [exact F|lia|lia]. }
  pose proof E as E0. apply execute_split in E. destruct E as [X|[(k & d & a & by_in & lim & r & -> & Ha & Hl & X)|(a & x & sl & hops & out & -> & Ha & X)]].
  - apply ONE; [|by apply ce_other]. assert (effort e <= cost e m) by (destruct m; cbn [cost]; nia || lia). lia.
  - apply ONE; [exact N|]. eapply ce_swap; [exact Ha|exact Hl|exact X|exact CC].
  - eapply (route_safe e i T hops TY); [exact CR|exact Ha|exact CC|exact X|exact C|cbn [cost] in N; lia|].
    destruct (V T) eqn:VT.
    + unfold brought. rewrite VE, VT. lia.
    + specialize (SU T VT). assert (hops_in T hops * brought e i T <= 1 * brought e i T) by (apply Z.mul_le_mono_nonneg_r; lia). lia.
Qed.
(** what the pools owe is there, in real balances *)
Theorem C85_solvent_partial V self w n : history (clean_single V) self V w n -> n < 10 ^ 14 ->
  forall T l, NoDup l -> sumZ (map (owes (w_store w) T) l) <= wealth V w T self.
Proof.
  intros HW N T l ND. destruct (history_accounts _ _ _ _ _ HW) as (bal & A & B). specialize (B T).
  pose proof (C15_contract_solvent_partial V self _ bal n A N T l ND). lia.
Qed.
(** and whoever owns a position can have it paid out *)
Theorem C85_withdraw_partial V self w n e i ix po : history (clean_single V) self V w n -> n + effort e < 10 ^ 14 ->
  e_self e = self -> (forall t, e_addr_ok e t = V t) -> i_sender i <> self -> env_typed e i = true -> i_funds i = [] ->
  st_positions (w_store w) !! (i_sender i, ix) = Some po -> (forall T, wealth V w T self < 2 ^ 128) ->
  exists p w' at' x, st_pools (w_store w) !! po_key po = Some p /\ world_call e i w (RemovePosition ix) = Done w' at' /\
    pays_x x (po_liq po) (p_price p) (tprice (po_lower po)) (tprice (po_upper po)) /\
    let y := worth_y (po_liq po) (p_price p) (tprice (po_lower po)) (tprice (po_upper po)) in
    forall T, wealth V w' T (i_sender i) = wealth V w T (i_sender i) +
      (if String.eqb T (pk_x (po_key po)) then x + accrued_x (w_store w) p po else if String.eqb T (pk_y (po_key po)) then y + accrued_y (w_store w) p po else 0).
Proof.
  intros HW N SE VE NS TY FN E U. destruct (history_accounts _ _ _ _ _ HW) as (bal & A & B). pose proof (history_reachable _ _ _ _ _ HW) as R.
  pose proof (effort_pos e) as EP.
  destruct (C17_withdraw_partial V self _ bal n e i ix po A ltac:(lia) TY E) as (p & s' & ms & x & EPo & EX & PX & PP & _).
  { specialize (B (pk_x (po_key po))). specialize (U (pk_x (po_key po))). lia. }
  { specialize (B (pk_y (po_key po))). specialize (U (pk_y (po_key po))). lia. }
  assert (NC : world_call e i w (RemovePosition ix) <> ContractShort).
  { eapply (C85_never_short_partial V self w n); try done. }
  assert (NS' : i_sender i <> e_self e) by (by rewrite SE). pose proof (execute_own _ _ _ _ _ _ _ R EX) as OW.
  assert (PL : forall T, pulled (e_self e) (i_sender i) T ms = 0).
  { intros T. apply reachable_ereach in R. clear -EX R. unfold execute in EX. destruct (_ && _); [|done]. cbn [dispatch] in EX.
    apply remove_position_exec_inv in EX; [|by apply ereach_indexed].
    destruct EX as (po' & lt & ut & p0 & po'' & p' & lt' & ut' & x' & y & dl & du & bm1 & bm2 & m' & _ & _ & _ & _ & _ & _ & -> & _).
    rewrite pulled_app, !pulled_transfer. done. }
  destruct (world_call e i w (RemovePosition ix)) as [w' at'| | |] eqn:WC; [|..|done].
  - exists p, w', at', x. split; [done|]. split; [done|]. split; [done|]. cbv zeta. intros T.
    destruct (C84_exchange _ _ _ _ _ _ R NS' WC) as (ms' & EX' & Q). rewrite EX in EX'. apply Ok_inj in EX'. injection EX' as _ <- _.
    destruct (Q T) as (Q1 & _). unfold wealth in *. rewrite VE in Q1. rewrite Q1. unfold charged, attached. rewrite FN, PL, VE. cbn [List.find].
    rewrite (PP (i_sender i) T), String.eqb_refl. destruct (V T), (String.eqb T (pk_x (po_key po))), (String.eqb T (pk_y (po_key po))); lia.
  - exfalso. unfold world_call in WC. rewrite FN, EX in WC. cbn in WC. clear -WC. revert WC. generalize (mkWorld s' (w_cw20 w) (w_allow w) (w_bank w)).
    generalize (position_event (po_liq po) (po_lower po) (po_upper po) (p_price p)). intros at0. induction ms as [|m ms IH]; intros w0 H; [done|].
    cbn [settle] in H. destruct m; try (by apply (IH _ H)); destruct (_ <? _); try done; try (by apply (IH _ H)). cbn [orb] in H. destruct (_ <? _); [done|]. by apply (IH _ H).
  - exfalso. unfold world_call in WC. rewrite FN, EX in WC. cbn in WC.
    assert (NF : Forall (fun m => match m with Cw20TransferFrom _ _ _ _ => False | _ => True end) ms).
    { apply reachable_ereach in R. clear -EX R. unfold execute in EX. destruct (_ && _); [|done]. cbn [dispatch] in EX.
      apply remove_position_exec_inv in EX; [|by apply ereach_indexed].
      destruct EX as (po' & lt & ut & p0 & po'' & p' & lt' & ut' & x' & y & dl & du & bm1 & bm2 & m' & _ & _ & _ & _ & _ & _ & -> & _).
      assert (TR : forall t v, Forall (fun m => match m with Cw20TransferFrom _ _ _ _ => False | _ => True end) (asset_transfer e i t v)).
      { intros t v. unfold asset_transfer. destruct (v =? 0); [done|]. destruct (e_addr_ok e t); by repeat constructor. }
      apply Forall_app. split; apply TR. }
    clear -WC NF. revert WC. generalize (mkWorld s' (w_cw20 w) (w_allow w) (w_bank w)).
    generalize (position_event (po_liq po) (po_lower po) (po_upper po) (p_price p)). intros at0. induction NF as [|m ms F NF IH]; intros w0 H; [done|].
    cbn [settle] in H. destruct m; try done; try (by apply (IH _ H)); destruct (_ <? _); try done; by apply (IH _ H).
Qed.

(** ** Concrete worlds *)
Fixpoint w_run (chk : bool) (e : env) (l : list (msg_info * exec_msg)) (w : world) (n : Z) : res (world * Z) :=
  match l with
  | [] => Ok (w, n)
  | (i, m) :: l' =>
      if (chk && negb (clean_callb e (w_store w) m)) || String.eqb (i_sender i) (e_self e) then Err StdErr
      else match world_call e i w m with Done w' _ => w_run chk e l' w' (n + cost e m) | _ => Err StdErr end
  end.
Lemma w_run_history (chk : bool) (ok : env -> msg_info -> store -> exec_msg -> Prop) e l : (forall i s m, ereach s -> (chk = true -> clean_callb e s m = true) -> ok e i s m) ->
  forall w n w' n', history ok (e_self e) (e_addr_ok e) w n -> w_run chk e l w n = Ok (w', n') -> history ok (e_self e) (e_addr_ok e) w' n'.
Proof.
  intros K. induction l as [|[i m] l IH]; intros w n w' n' A H; cbn [w_run] in H; [by simplify_eq|].
  destruct ((chk && negb (clean_callb e (w_store w) m)) || String.eqb (i_sender i) (e_self e)) eqn:C; [done|].
  apply orb_false_iff in C. destruct C as [C1 C2]. destruct (world_call e i w m) as [w1 at'| | |] eqn:E; try done.
  eapply IH; [|exact H]. eapply wh_call; [exact A| |exact E|done|done|by apply String.eqb_neq].
  apply K; [exact (reachable_ereach _ (history_reachable _ _ _ _ _ A))|]. intros ->. cbn in C1. by destruct (clean_callb e _ m).
Qed.
Definition fill (Ts us : list string) (v : Z) : ledger := list_to_map (flat_map (fun T => map (fun u => ((T, u), v)) us) Ts).
Definition users : list string := ["alice"; "bob"; "carol"; "dave"]%string.
(** everybody has 10^9 of each of the tokens [Ts] and of the coin orai, and allows the contract [al] of each token *)
Definition w_start (chk : bool) (e : env) (f : Z) (Ts : list string) (al : Z) (l : list (msg_info * exec_msg)) : res (world * Z) :=
  let* s := instantiate (v_info "alice") f in
  w_run chk e l (mkWorld s (fill Ts users 1000000000) (fill Ts users al) (fill ["orai"%string] users 1000000000)) 0.
Lemma lookup_fill Ts us v k x : fill Ts us v !! k = Some x -> k.2 ∈ us /\ x = v.
Proof.
  unfold fill. intros H. apply elem_of_list_to_map_2 in H. apply elem_of_list_In, in_flat_map in H as (T & _ & H). apply in_map_iff in H as (u & [= <- <-] & I).
  split; [by apply elem_of_list_In|done].
Qed.
Lemma fill_self Ts v T : amount_of (fill Ts users v) T "self" = 0.
Proof.
  unfold amount_of. destruct (fill _ _ _ !! _) eqn:E; [|done]. exfalso. apply lookup_fill in E as [E _]. cbn in E.
  unfold users in E. repeat (apply elem_of_cons in E as [E|E]; [done|]). by apply elem_of_nil in E.
Qed.
Lemma w_start_history (ok : env -> msg_info -> store -> exec_msg -> Prop) chk e f Ts al l w n : e_self e = "self"%string -> (forall i s m, ereach s -> (chk = true -> clean_callb e s m = true) -> ok e i s m) ->
  w_start chk e f Ts al l = Ok (w, n) -> history ok (e_self e) (e_addr_ok e) w n.
Proof.
  unfold w_start. intros SE K H. inv_bind H as s E. eapply w_run_history; [exact K| |exact H]. eapply wh_init; [exact E|].
  intros T. unfold wealth. rewrite SE. cbn [w_cw20 w_bank]. destruct (e_addr_ok e T); by rewrite fill_self.
Qed.
Lemma w_start_true e f Ts al l w n : e_self e = "self"%string -> w_start false e f Ts al l = Ok (w, n) -> history true_call (e_self e) (e_addr_ok e) w n.
Proof. intros SE. by apply w_start_history. Qed.
Lemma w_start_clean e f Ts al l w n : e_self e = "self"%string -> w_start true e f Ts al l = Ok (w, n) -> history (clean_single (e_addr_ok e)) (e_self e) (e_addr_ok e) w n.
Proof. intros SE. apply w_start_history; [done|]. intros i s m R C. specialize (C eq_refl). split; [by apply clean_callb_sound|]. by destruct m. Qed.

(** Without clean trades the contract runs out of tokens: after the history of [C15_solvent_refuted] dave's position, in a pool in which
    nobody ever traded, is worth 499850 tokeny, the contract has 301674, and dave's withdrawal is undone. *)
Theorem C85_never_short_refuted : exists w n, history true_call "self" (fun _ => true) w n /\ n < 10 ^ 14 /\
  wealth (fun _ => true) w "tokeny" "self" = 301674 /\ owes_y (w_store w) thin_key = 499850 /\
  is_Some (st_positions (w_store w) !! ("dave"%string, 0)) /\ world_call v_env (v_info "dave") w (RemovePosition 0) = ContractShort.
Proof.
  destruct (done_inv (fun '(w, n) => n = 10000 /\ wealth (fun _ => true) w "tokeny" "self" = 301674 /\ owes_y (w_store w) thin_key = 499850 /\
     (match st_positions (w_store w) !! ("dave"%string, 0) with Some _ => true | None => false end) = true /\
     world_call v_env (v_info "dave") w (RemovePosition 0) = ContractShort)
     (w_start false v_env 10000000000 ["tokenx"; "tokeny"]%string 1000000000 theft_calls)) as ([w n] & E & X).
  { vm_compute. repeat split; reflexivity. }
  exists w, n. split; [exact (w_start_true v_env _ _ _ _ _ _ eq_refl E)|]. destruct X as (-> & X1 & X2 & X3 & X4).
  split; [reflexivity|]. split; [exact X1|]. split; [exact X2|]. split; [|exact X4]. destruct (st_positions (w_store w) !! _); [eauto|discriminate X3].
Qed.
(** A clean world with a native coin: what is owed and what is there; bob's withdrawal goes through and brings them 4689 orai and 4303 tokenx. *)
Example ex_C85 : exists w n w' at', history (clean_single (e_addr_ok o_env)) "self" (e_addr_ok o_env) w n /\ n = 8000 /\
  wealth (e_addr_ok o_env) w "orai" "self" = 4693 /\ sumZ (map (owes (w_store w) "orai") [o_key]) = 4690 /\
  wealth (e_addr_ok o_env) w "tokenx" "self" = 4307 /\ sumZ (map (owes (w_store w) "tokenx") [o_key]) = 4304 /\
  world_call o_env (v_info "bob") w (RemovePosition 0) = Done w' at' /\
  wealth (e_addr_ok o_env) w' "orai" "bob" - wealth (e_addr_ok o_env) w "orai" "bob" = 4689 /\
  wealth (e_addr_ok o_env) w' "tokenx" "bob" - wealth (e_addr_ok o_env) w "tokenx" "bob" = 4303 /\
  wealth (e_addr_ok o_env) w' "orai" "self" = 4.
Proof.
  destruct (done_inv (fun '(w, n) => n = 8000 /\ wealth (e_addr_ok o_env) w "orai" "self" = 4693 /\ sumZ (map (owes (w_store w) "orai") [o_key]) = 4690 /\
    wealth (e_addr_ok o_env) w "tokenx" "self" = 4307 /\ sumZ (map (owes (w_store w) "tokenx") [o_key]) = 4304 /\
    match world_call o_env (v_info "bob") w (RemovePosition 0) with
    | Done w' _ => wealth (e_addr_ok o_env) w' "orai" "bob" - wealth (e_addr_ok o_env) w "orai" "bob" = 4689 /\
        wealth (e_addr_ok o_env) w' "tokenx" "bob" - wealth (e_addr_ok o_env) w "tokenx" "bob" = 4303 /\ wealth (e_addr_ok o_env) w' "orai" "self" = 4
    | _ => False end) (w_start true o_env 10000000000 ["tokenx"]%string 1000000000 o_calls)) as ([w n] & E & X).
  { vm_compute. repeat split; reflexivity. }
  destruct X as (X1 & X2 & X3 & X4 & X5 & X6). destruct (world_call o_env (v_info "bob") w (RemovePosition 0)) as [w' at'| | |] eqn:WC; [|destruct X6..].
  exists w, n, w', at'. pose proof (w_start_clean o_env _ _ _ _ _ _ eq_refl E) as HW. tauto.
Qed.

(** ** C86 *)
Definition hop_out (h : swap_hop) : string := if hop_x_to_y h then pk_y (hop_key h) else pk_x (hop_key h).
(** each hop takes what the hop before it gives: the route leads from [T] to [L] *)
Fixpoint chain (T : string) (hops : list swap_hop) (L : string) : Prop :=
  match hops with [] => T = L | h :: r => hop_in h = T /\ chain (hop_out h) r L end.
Lemma pull_msgs e i T v m0 : e_addr_ok e T = true -> asset_transfer_from e i T v = Ok m0 ->
  m0 = if v =? 0 then [] else [Cw20TransferFrom T (i_sender i) (e_self e) v].
Proof. unfold asset_transfer_from. intros -> H. destruct (v =? 0); by apply Ok_inj in H. Qed.
Lemma pulled_pull e i T v m0 t : e_addr_ok e T = true -> asset_transfer_from e i T v = Ok m0 ->
  pulled (e_self e) (i_sender i) t m0 = (if String.eqb t T then v else 0) /\ paid (i_sender i) t m0 = 0.
Proof.
  intros V H. apply pull_msgs in H; [|done]. subst m0. rewrite (String.eqb_sym t T). destruct (Z.eqb_spec v 0) as [->|]; [by destruct (String.eqb _ _)|]. cbn. rewrite !String.eqb_refl.
  cbn [andb]. rewrite andb_true_r. split; [|done]. destruct (String.eqb T t); lia.
Qed.
Lemma chain_net e i hops : forall s I L a s' ms out, 0 <= a <= U128MAX -> chain I hops L -> Forall (fun h => e_addr_ok e (hop_in h) = true) hops ->
  swap_route_internal e i s a hops = Ok (s', ms, out) -> forall T,
  pulled (e_self e) (i_sender i) T ms - paid (i_sender i) T ms = (if String.eqb T I then a else 0) - (if String.eqb T L then out else 0) /\
  (e_addr_ok e T = false -> pulled (e_self e) (i_sender i) T ms = 0).
Proof.
  induction hops as [|h hops IH]; intros s I L a s' ms out Ha C F E T; cbn in E.
  { apply Ok_inj in E. injection E as <- <- <-. cbn in C. subst L. cbn. split; [lia|done]. }
  inv_bind E as [[s1 m1] r] E1. inv_bind E as [[s2 m2] o] E2. apply Ok_inj in E. injection E as -> <- <-. cbn [chain] in C. destruct C as [<- C].
  apply Forall_cons in F as [F0 F]. apply swap_internal_inv in E1 as (E1 & _ & m0 & TF & ->). fold (hop_in h) in TF. fold (hop_out h).
  pose proof (calculate_swap_exact_in _ _ _ _ _ _ _ _ (proj1 Ha) E1) as EX. rewrite EX in TF.
  apply calculate_swap_out in E1 as [O1 _]. destruct (IH _ _ _ _ _ _ _ O1 C F E2 T) as [Q1 Q2].
  destruct (pulled_pull _ _ _ _ _ T F0 TF) as [P1 P2]. rewrite !pulled_app, !paid_app, pulled_transfer, paid_transfer, String.eqb_refl, P1, P2. cbn [andb].
  rewrite (String.eqb_sym (hop_out h) T). split; [lia|]. intros VT. rewrite Q2 by done. destruct (String.eqb_spec T (hop_in h)); [congruence|lia].
Qed.
Lemma route_exec e i s a ex sl hops s' ms at' : execute e i s (SwapRoute a ex sl hops) = Ok (s', ms, at') ->
  0 <= a <= U128MAX /\ exists out, at' = [("amount_out"%string, out)] /\ swap_route_internal e i s a hops = Ok (s', ms, out) /\ ex * (10 ^ 12 - sl) <= out * 10 ^ 12.
Proof.
  intros H. destruct (C23_route_delivers _ _ _ _ _ _ _ _ _ _ H) as (out & -> & _ & _ & LE). unfold execute in H. destruct (_ && _) eqn:TY; [|done].
  apply andb_prop in TY as [TE TY]. cbn [dispatch msg_typed] in H, TY.
  assert (HA : 0 <= a <= U128MAX). { do 3 (apply andb_prop in TY; destruct TY as [TY ?]). by apply in_range_spec in TY. }
  split; [done|]. exists out. unfold swap_route in H. inv_bind H as [[s1 m1] o] E. inv_bind H as mn E2. destruct (o <? mn); [done|]. apply Ok_inj in H. injection H as <- <- ->. done.
Qed.
(** Through CW20 tokens a route exchanges exactly the offered amount of its first token for its result in the last one; the tokens in
    between come out even. *)
Theorem C86_route e i w a ex sl hops I L w' at' : reachable (w_store w) -> i_sender i <> e_self e -> i_funds i = [] ->
  chain I hops L -> Forall (fun h => e_addr_ok e (hop_in h) = true) hops -> world_call e i w (SwapRoute a ex sl hops) = Done w' at' ->
  exists out, at' = [("amount_out"%string, out)] /\ ex * (10 ^ 12 - sl) <= out * 10 ^ 12 /\
    forall T, wealth (e_addr_ok e) w' T (i_sender i) = wealth (e_addr_ok e) w T (i_sender i) - (if String.eqb T I then a else 0) + (if String.eqb T L then out else 0).
Proof.
  intros R NS FN C F H. destruct (C84_exchange _ _ _ _ _ _ R NS H) as (ms & E & Q).
  destruct (route_exec _ _ _ _ _ _ _ _ _ _ E) as (Ha & out & -> & ER & LE). exists out. split; [done|]. split; [done|]. intros T.
  destruct (chain_net _ _ _ _ _ _ _ _ _ _ Ha C F ER T) as [N1 N2]. destruct (Q T) as (-> & _). unfold charged, attached. rewrite FN. cbn [List.find].
  destruct (e_addr_ok e T); [lia|]. specialize (N2 eq_refl). lia.
Qed.
(** It can be paid with the offered amount of the first token, provided the contract may take, from each token, what the hops that
    start from that token take. *)
Theorem C86_affordable_partial e i w a ex sl hops I L s' ms at' : i_sender i <> e_self e -> i_funds i = [] ->
  chain I hops L -> Forall (fun h => e_addr_ok e (hop_in h) = true) hops -> execute e i (w_store w) (SwapRoute a ex sl hops) = Ok (s', ms, at') ->
  (forall T, 0 <= amount_of (w_cw20 w) T (i_sender i)) -> a <= wealth (e_addr_ok e) w I (i_sender i) ->
  (forall T, pulled (e_self e) (i_sender i) T ms <= amount_of (w_allow w) T (i_sender i)) ->
  world_call e i w (SwapRoute a ex sl hops) <> CallerShort.
Proof.
  intros NS FN C F E NN BI AL. unfold world_call. rewrite FN, E. cbn.
  destruct (route_exec _ _ _ _ _ _ _ _ _ _ E) as (Ha & out & -> & ER & _). clear E.
  assert (B0 : hops = [] \/ a <= amount_of (w_cw20 w) I (i_sender i)).
  { destruct hops as [|h hops]; [by left|right]. cbn in C. destruct C as [<- _]. apply Forall_cons in F as [F _]. unfold wealth in BI. by rewrite F in BI. }
  clear BI. generalize ([("amount_out"%string, out)]). intros at'.
  set (w0 := mkWorld s' (w_cw20 w) (w_allow w) (w_bank w)).
  change (w_cw20 w) with (w_cw20 w0) in B0, NN. change (w_allow w) with (w_allow w0) in AL. clearbody w0.
  generalize dependent (w_store w). clear w. revert w0 a out I ms C F B0 NN AL Ha.
  induction hops as [|h hops IH]; intros w a out I ms C F B0 NN AL Ha s ER; cbn in ER.
  { apply Ok_inj in ER. by injection ER as <- <- <-. }
  inv_bind ER as [[s1 m1] r] E1. inv_bind ER as [[s2 m2] o] E2. apply Ok_inj in ER. injection ER as -> <- <-. cbn [chain] in C. destruct C as [<- C].
  destruct B0 as [?|B0]; [done|]. apply Forall_cons in F as [F0 F]. apply swap_internal_inv in E1 as (E1 & _ & m0 & TF & ->). fold (hop_in h) in TF. fold (hop_out h) in AL |- *.
  pose proof (calculate_swap_exact_in _ _ _ _ _ _ _ _ (proj1 Ha) E1) as EX. rewrite EX in TF.
  apply calculate_swap_out in E1 as [O1 _].
  assert (AL' : forall T, (if String.eqb T (hop_in h) then a else 0) + pulled (e_self e) (i_sender i) T m2 <= amount_of (w_allow w) T (i_sender i)).
  { intros T. specialize (AL T). rewrite !pulled_app, pulled_transfer in AL. destruct (pulled_pull _ _ _ _ _ T F0 TF) as [P1 _]. rewrite P1 in AL. lia. }
  assert (PN : forall T, 0 <= pulled (e_self e) (i_sender i) T m2).
  { clear -E2 O1 F. revert s1 o m2 E2 O1. generalize (cr_out r). induction hops as [|h hops IH]; intros a s o m2 E O1 T; cbn in E.
    - apply Ok_inj in E. by injection E as <- <- <-.
    - inv_bind E as [[s1 m1] r1] E1. inv_bind E as [[s2 m3] o1] E2. apply Ok_inj in E. injection E as -> <- <-.
      apply Forall_cons in F as [F0 F]. apply swap_internal_inv in E1 as (E1 & _ & m0 & TF & ->). fold (hop_in h) in TF.
      apply calculate_swap_out in E1 as [O2 O3]. rewrite !pulled_app, pulled_transfer. destruct (pulled_pull _ _ _ _ _ T F0 TF) as [P1 _]. rewrite P1.
      specialize (IH F _ _ _ _ E2 O2 T). destruct (String.eqb _ _); lia. }
  apply pull_msgs in TF; [|done].
  assert (NEXT : forall w1, (forall T, (if String.eqb T (hop_in h) then a else 0) + amount_of (w_allow w1) T (i_sender i) = amount_of (w_allow w) T (i_sender i)) ->
     (forall T, 0 <= amount_of (w_cw20 w1) T (i_sender i)) ->
     settle (e_self e) (asset_transfer e i (hop_out h) (cr_out r) ++ m2) at' w1 <> CallerShort).
  { intros w1 A1 N1. unfold asset_transfer.
    assert (A2 : forall T, pulled (e_self e) (i_sender i) T m2 <= amount_of (w_allow w1) T (i_sender i)).
    { intros T. specialize (A1 T). specialize (AL' T). lia. }
    assert (HO : hops = [] \/ e_addr_ok e (hop_out h) = true).
    { destruct hops as [|h2 hops]; [by left|right]. cbn in C. destruct C as [<- _]. by apply Forall_cons in F as [F _]. }
    destruct (Z.eqb_spec (cr_out r) 0) as [Z0|Z0].
    - cbn [app]. eapply IH; [exact C|exact F| |exact N1|exact A2|exact O1|exact E2]. right. rewrite Z0. apply N1.
    - destruct (e_addr_ok e (hop_out h)) eqn:VO; cbn [app settle]; destruct (_ <? _); try done.
      + assert (N2 : forall T, amount_of (hand (w_cw20 w1) (hop_out h) (e_self e) (i_sender i) (cr_out r)) T (i_sender i) = amount_of (w_cw20 w1) T (i_sender i) + (if String.eqb T (hop_out h) then cr_out r else 0)).
        { intros T. rewrite amount_hand. unfold only. rewrite String.eqb_refl, (proj2 (String.eqb_neq (i_sender i) (e_self e))) by done. destruct (String.eqb _ _); lia. }
        eapply IH; [exact C|exact F| | |exact A2|exact O1|exact E2].
        * right. cbn [w_cw20]. rewrite N2, String.eqb_refl. specialize (N1 (hop_out h)). lia.
        * intros T. cbn [w_cw20]. rewrite N2. specialize (N1 T). destruct (String.eqb _ _); lia.
      + eapply IH; [exact C|exact F| |exact N1|exact A2|exact O1|exact E2]. destruct HO as [->|HO]; [by left|congruence]. }
  subst m0. destruct (Z.eqb_spec a 0) as [->|A0].
  - cbn [app]. apply NEXT; [intros T; destruct (String.eqb _ _); lia|done].
  - cbn [app settle]. rewrite (proj2 (Z.ltb_ge (amount_of (w_cw20 w) (hop_in h) (i_sender i)) a)) by lia.
    rewrite (proj2 (Z.ltb_ge (amount_of (w_allow w) (hop_in h) (i_sender i)) a)).
    2: { specialize (AL' (hop_in h)). rewrite String.eqb_refl in AL'. specialize (PN (hop_in h)). lia. }
    cbn [orb]. apply NEXT; cbn [w_allow w_cw20]; intros T.
    + rewrite amount_credit. unfold only. rewrite String.eqb_refl. destruct (String.eqb _ _); lia.
    + rewrite amount_hand. unfold only. rewrite String.eqb_refl, (proj2 (String.eqb_neq (i_sender i) (e_self e))) by done. specialize (NN T).
      destruct (String.eqb_spec T (hop_in h)) as [EQ|N]; [rewrite EQ; lia|lia].
Qed.
(** every call: what the contract takes it must have been allowed, and the caller must have had *)
Theorem C86_allowance_needed e i w m w' at' : reachable (w_store w) -> i_sender i <> e_self e -> world_call e i w m = Done w' at' ->
  (forall T, 0 <= amount_of (w_allow w) T (i_sender i)) -> exists ms, execute e i (w_store w) m = Ok (w_store w', ms, at') /\
  forall T, pulled (e_self e) (i_sender i) T ms <= amount_of (w_allow w) T (i_sender i).
Proof.
  intros R NS H A0. destruct (C84_exchange _ _ _ _ _ _ R NS H) as (ms & E & Q). exists ms. split; [done|]. intros T. destruct (Q T) as (_ & _ & Q3).
  enough (0 <= amount_of (w_allow w') T (i_sender i)) by lia. clear Q Q3.
  apply world_call_inv in H as (_ & bank & s & ms' & _ & E' & H). rewrite E in E'. apply Ok_inj in E'. injection E' as <- <-.
  pose proof (execute_own _ _ _ _ _ _ _ R E) as OW. revert H. generalize (eq_refl : w_allow (mkWorld (w_store w') (w_cw20 w) (w_allow w) bank) = w_allow w).
  generalize (mkWorld (w_store w') (w_cw20 w) (w_allow w) bank). intros w0 EW H. rewrite <- EW in A0. clear -OW H A0. revert w0 A0 H.
  induction OW as [|x ms O F IH]; intros w0 A0 H; cbn [settle] in H; [by injection H as ->|]. destruct x as [t r v|t o r v|r t v|].
  - destruct (_ <? _); [done|]. by refine (IH _ _ H).
  - destruct O as (-> & -> & _). destruct (_ || _) eqn:CK; [done|]. apply orb_false_iff in CK as [CK _]. apply Z.ltb_ge in CK.
    refine (IH _ _ H). cbn [w_allow]. intros t'. rewrite amount_credit. unfold only. rewrite String.eqb_refl. specialize (A0 t').
    destruct (String.eqb_spec t' t) as [EQ|]; [rewrite EQ; lia|lia].
  - destruct (_ <? _); [done|]. by refine (IH _ _ H).
  - by refine (IH _ _ H).
Qed.

(** Refutations: a caller with more than enough of the first token who has allowed the contract to take it gets nothing, because the
    contract takes the second token back from them ... *)
Definition t_key : pool_key := mkPoolKey "tokeny" "tokenz" v_tier.
Definition w_calls : list (msg_info * exec_msg) :=
  [(v_info "alice", AddFeeTier v_tier);
   (v_info "alice", CreatePool "tokeny" "tokenx" v_tier SP_ONE 0);
   (v_info "alice", CreatePool "tokeny" "tokenz" v_tier SP_ONE 0);
   (v_info "alice", CreatePosition v_key (-10) 10 20006000000000 SP_ONE SP_ONE);
   (v_info "alice", CreatePosition t_key (-10) 10 20006000000000 SP_ONE SP_ONE)]%string.
Definition x_to_z : exec_msg := SwapRoute 3000 1 0 [mkHop v_key true; mkHop t_key true].
(** [carol] allows the contract [v] of tokeny *)
Definition allow_y (v : Z) (w : world) : world := mkWorld (w_store w) (w_cw20 w) (<[("tokeny", "carol")%string := v]> (w_allow w)) (w_bank w).
Definition gains (V : string -> bool) (a : string) (w : world) (o : outcome) (Ts : list string) : option (list Z) :=
  match o with Done w' _ => Some (map (fun T => wealth V w' T a - wealth V w T a) Ts) | _ => None end.
Lemma w_reach chk e f Ts al l w n : w_start chk e f Ts al l = Ok (w, n) -> reachable (w_store w).
Proof.
  unfold w_start. intros H. inv_bind H as s E. assert (R : reachable s) by (by eapply reach_init).
  revert H. match goal with |- w_run _ _ _ ?w0 _ = _ -> _ => change s with (w_store w0) in R; generalize dependent w0 end. generalize 0. clear E s. induction l as [|[i m] l IH]; intros n0 w0 R H; cbn [w_run] in H; [by simplify_eq|].
  destruct (_ || _) eqn:C; [done|]. apply orb_false_iff in C as [_ C]. apply String.eqb_neq in C. destruct (world_call e i w0 m) as [w1 at'| | |] eqn:E; try done.
  refine (IH _ _ _ H). destruct (C84_ledgers _ _ _ _ _ _ R C E) as (ms & X & _). by eapply reach_call.
Qed.
Theorem C86_first_token_refuted : exists w, reachable (w_store w) /\ chain "tokenx" [mkHop v_key true; mkHop t_key true] "tokenz" /\
  wealth (fun _ => true) w "tokenx" "carol" = 1000000000 /\ amount_of (w_allow w) "tokenx" "carol" = 1000000000 /\
  world_call v_env (v_info "carol") w x_to_z = CallerShort /\
  world_call v_env (v_info "carol") (allow_y 2980 w) x_to_z = CallerShort /\
  gains (fun _ => true) "carol" w (world_call v_env (v_info "carol") (allow_y 2981 w) x_to_z) ["tokenx"; "tokeny"; "tokenz"]%string = Some [-3000; 0; 2962].
Proof.
  destruct (done_inv (fun '(w, n) => wealth (fun _ => true) (allow_y 0 w) "tokenx" "carol" = 1000000000 /\ amount_of (w_allow (allow_y 0 w)) "tokenx" "carol" = 1000000000 /\
     world_call v_env (v_info "carol") (allow_y 0 w) x_to_z = CallerShort /\
     world_call v_env (v_info "carol") (allow_y 2980 (allow_y 0 w)) x_to_z = CallerShort /\
     gains (fun _ => true) "carol" (allow_y 0 w) (world_call v_env (v_info "carol") (allow_y 2981 (allow_y 0 w)) x_to_z) ["tokenx"; "tokeny"; "tokenz"]%string = Some [-3000; 0; 2962])
     (w_start false v_env 10000000000 ["tokenx"; "tokeny"; "tokenz"]%string 1000000000 w_calls)) as ([w n] & E & X).
  { vm_compute. repeat split; reflexivity. }
  exists (allow_y 0 w). split; [exact (w_reach _ _ _ _ _ _ _ _ E)|]. split; [repeat split|]. exact X.
Qed.
(** ... and if the second token is a native coin they must send along what only the first hop would give them: without it the route is
    refused, with it the coins come back together with the output of the first hop. *)
Definition there_and_back : exec_msg := SwapRoute 3000 1 0 [mkHop o_key false; mkHop o_key true].
Theorem C86_native_middle_refuted : exists w, reachable (w_store w) /\ chain "tokenx" [mkHop o_key false; mkHop o_key true] "tokenx" /\
  world_call o_env (v_info "carol") w there_and_back = Refused /\
  gains (e_addr_ok o_env) "carol" w (world_call o_env (with_orai "carol" 2981) w there_and_back) ["orai"; "tokenx"]%string = Some [0; -37].
Proof.
  destruct (done_inv (fun '(w, n) => world_call o_env (v_info "carol") w there_and_back = Refused /\
     gains (e_addr_ok o_env) "carol" w (world_call o_env (with_orai "carol" 2981) w there_and_back) ["orai"; "tokenx"]%string = Some [0; -37])
     (w_start false o_env 10000000000 ["tokenx"]%string 1000000000 (removelast o_calls))) as ([w n] & E & X).
  { vm_compute. repeat split; reflexivity. }
  exists w. split; [exact (w_reach _ _ _ _ _ _ _ _ E)|]. split; [repeat split|]. exact X.
Qed.
(** The hops need not fit together: here the second hop takes 2981 more tokenx, the number of tokeny that the first hop gave. *)
Theorem C86_loose_hops_refuted : exists w, reachable (w_store w) /\
  gains (fun _ => true) "carol" w (world_call v_env (v_info "carol") w (SwapRoute 3000 1 0 [mkHop v_key true; mkHop v_key true])) ["tokenx"; "tokeny"]%string = Some [-5981; 5942].
Proof.
  destruct (done_inv (fun '(w, n) => gains (fun _ => true) "carol" w (world_call v_env (v_info "carol") w (SwapRoute 3000 1 0 [mkHop v_key true; mkHop v_key true])) ["tokenx"; "tokeny"]%string = Some [-5981; 5942])
     (w_start false v_env 10000000000 ["tokenx"; "tokeny"; "tokenz"]%string 1000000000 w_calls)) as ([w n] & E & X).
  { vm_compute. reflexivity. }
  exists w. split; [exact (w_reach _ _ _ _ _ _ _ _ E)|exact X].
Qed.
(** C84: carol sends 4000 orai and swaps 3000 of them; 1000 come back.  dave is not concerned. *)
Example ex_C84 : exists w w', reachable (w_store w) /\ (exists at', world_call o_env (with_orai "carol" 4000) w (Swap o_key true 3000 true MIN_SQRT_PRICE) = Done w' at') /\
  map (fun T => wealth (e_addr_ok o_env) w' T "carol" - wealth (e_addr_ok o_env) w T "carol") ["orai"; "tokenx"]%string = [-3000; 2981] /\
  map (fun T => wealth (e_addr_ok o_env) w' T "self" - wealth (e_addr_ok o_env) w T "self") ["orai"; "tokenx"]%string = [3000; -2981] /\
  map (fun T => wealth (e_addr_ok o_env) w' T "dave" - wealth (e_addr_ok o_env) w T "dave") ["orai"; "tokenx"]%string = [0; 0].
Proof.
  destruct (done_inv (fun '(w, n) => match world_call o_env (with_orai "carol" 4000) w (Swap o_key true 3000 true MIN_SQRT_PRICE) with
    | Done w' _ => map (fun T => wealth (e_addr_ok o_env) w' T "carol" - wealth (e_addr_ok o_env) w T "carol") ["orai"; "tokenx"]%string = [-3000; 2981] /\
        map (fun T => wealth (e_addr_ok o_env) w' T "self" - wealth (e_addr_ok o_env) w T "self") ["orai"; "tokenx"]%string = [3000; -2981] /\
        map (fun T => wealth (e_addr_ok o_env) w' T "dave" - wealth (e_addr_ok o_env) w T "dave") ["orai"; "tokenx"]%string = [0; 0]
    | _ => False end) (w_start false o_env 10000000000 ["tokenx"]%string 1000000000 (firstn 4 o_calls))) as ([w n] & E & X).
  { vm_compute. repeat split; reflexivity. }
  destruct (world_call _ _ w _) as [w' at'| | |] eqn:WC; [|destruct X..]. exists w, w'. split; [exact (w_reach _ _ _ _ _ _ _ _ E)|]. split; [by eexists|exact X].
Qed.
