(** C91: hostile tokens and receivers. *)
From Verif Require Import Base Decimal SqrtPrice Clamm Log FeeGrowth Types Tick Pool Position
  Tickmap Keys State Swap Exec Tactics PriceProofs ClammProofs BitmapProofs Frame Handlers History Basic PosList Ledger Vectors Scenario
  SwapInv SwapGeo SwapLoop Modify PSum LiqInv Geo Ops Clean CleanSuff PropTrade PropLiq PropSwap Growth Value Fund Flow PropSolv Forward PropExit
  PropFunds PropBlock PropEvent PropMove PropOk World PropWorld Reentry.
From stdpp Require Import gmap strings.
From Coq Require Import Lia.
Open Scope Z_scope.

(** a waiting message concerns the contract and an account that acts *)
Definition waits (V : string -> bool) (self : string) (actor : string -> Prop) (x : out_msg) : Prop := exists a, actor a /\ own V self a x.

(** what a message between honest parties does *)
Lemma settle_one V self a x w w' : a <> self -> own V self a x -> settle self [x] [] w = Done w' [] ->
  w_store w' = w_store w /\ forall T b,
    wealth V w' T b = wealth V w T b + only b a (paid a T [x] - pulled self a T [x]) + only b self (net self T [x]) /\
    (b <> a -> amount_of (w_allow w') T b = amount_of (w_allow w) T b).
Proof.
  intros NS O H. destruct (settle_done V self a [x] NS ltac:(by repeat constructor) _ _ _ _ H) as (_ & S & Q). split; [done|]. intros T b.
  destruct (Q T b) as (Q1 & Q2 & Q3). cbv zeta in *.
  assert (NE : net self T [x] = pulled self a T [x] - paid a T [x]).
  { unfold net, pulled, paid, received, sent. cbn [map sumZ foldr].
    destruct x as [t r v|t o r v|r t v|]; cbn [own paid1 pulled1 sent1 received1] in *; [destruct O as [-> _]| |destruct O as [-> _]|done];
      [rewrite !String.eqb_refl; cbn [andb]; lia|destruct O as (-> & -> & _); rewrite !String.eqb_refl; cbn [andb]; rewrite !andb_true_r; lia|rewrite !String.eqb_refl; cbn [andb]; lia]. }
  split.
  - rewrite NE. unfold wealth. destruct (V T) eqn:VT.
    + rewrite Q1. unfold only. destruct (String.eqb b a), (String.eqb b self); lia.
    + rewrite Q2, (paid_own_cw20 V self a T [x]) by (done || by repeat constructor). unfold only. destruct (String.eqb b a), (String.eqb b self); lia.
  - intros N. rewrite Q3. unfold only. rewrite (proj2 (String.eqb_neq b a) N). lia.
Qed.
Lemma hostile_net hostile self V a T x : own V self a x -> hostile T = false -> message_to_hostile hostile x = true -> net self T [x] = 0.
Proof.
  intros O HT M. unfold net, received, sent. cbn [map sumZ foldr].
  destruct x as [t r v|t o r v|r t v|]; cbn [message_to_hostile received1 sent1] in *; try done;
    (destruct (String.eqb_spec t T) as [EQ|N]; [rewrite EQ, HT in M; discriminate|cbn [andb]; lia]).
Qed.
Lemma net_charged e i s m s' ms at' T : reachable s -> execute e i s m = Ok (s', ms, at') -> brought e i T + net (e_self e) T ms = charged e i T ms.
Proof.
  intros R E. pose proof (execute_own _ _ _ _ _ _ _ R E) as OW.
  assert (PS : paid (i_sender i) T ms = sent T ms /\ pulled (e_self e) (i_sender i) T ms = received (e_self e) T ms).
  { clear -OW. induction OW as [|x ms O F [IH1 IH2]]; [done|]. unfold paid, pulled, sent, received in *. cbn [map sumZ foldr]. unfold sumZ in *. rewrite IH1, IH2.
    destruct x as [t r v|t o r v|r t v|]; cbn [own paid1 pulled1 sent1 received1] in *; [destruct O as [-> _]; rewrite !String.eqb_refl; by cbn [andb]..| |destruct O as [-> _]; rewrite !String.eqb_refl; by cbn [andb]|done].
    destruct O as (-> & -> & _). rewrite !String.eqb_refl. cbn [andb]. by rewrite !andb_true_r. }
  destruct PS as [PS PL]. unfold net, charged, brought. rewrite PS, PL. destruct (e_addr_ok e T) eqn:VT; [lia|].
  rewrite <- PL, (paid_own_cw20 _ _ _ _ _ OW VT). lia.
Qed.

Section storm.
  Context (ok : env -> msg_info -> store -> exec_msg -> Prop).
  Context (self : string) (V hostile : string -> bool) (actor : string -> Prop) (NA : ~ actor self).
  Notation step := (step ok self V hostile actor).
  Notation steps := (steps ok self V hostile actor).

  Lemma step_facts w P c w' P' : reachable (w_store w) -> Forall (waits V self actor) P -> step w P c w' P' ->
    Forall (waits V self actor) P' /\
    match c with
    | None => w_store w' = w_store w
    | Some x => actor (i_sender (mc_info x)) /\ exists at', execute (mc_env x) (mc_info x) (w_store w) (mc_msg x) = Ok (w_store w', mc_out x, at')
    end /\
    forall T, hostile T = false ->
      wealth V w T self + net self T P + match c with Some x => charged (mc_env x) (mc_info x) T (mc_out x) | None => 0 end <= wealth V w' T self + net self T P' /\
      forall b, ~ actor b -> b <> self -> wealth V w T b <= wealth V w' T b /\ amount_of (w_allow w') T b = amount_of (w_allow w) T b.
  Proof.
    intros R F H. destruct H as [e i m w P bank s ms at' OK A SE VE CO PI E|x P1 P2 w w' H|w w' P S Q].
    - cbn [mc_env mc_info mc_msg mc_out w_store]. assert (NS : i_sender i <> self) by congruence. assert (NS' : i_sender i <> e_self e) by congruence.
      pose proof (execute_own _ _ _ _ _ _ _ R E) as OW. apply bool_decide_eq_true in CO. rewrite <- SE in PI.
      split. { apply Forall_app. split; [done|]. eapply Forall_impl; [exact OW|]. intros x O. exists (i_sender i). split; [done|].
        destruct x as [t r v|t o r v|r t v|]; cbn [own] in *; rewrite ?VE, ?SE in O; exact O. }
      split; [split; [done|by exists at']|]. intros T HT. pose proof (pay_in_some _ _ _ CO NS' _ _ PI T) as PB. split.
      + pose proof (net_charged _ _ _ _ _ _ _ T R E) as NC. rewrite net_app. rewrite SE in NC. 
        assert (wealth V (mkWorld s (w_cw20 w) (w_allow w) bank) T self = wealth V w T self + brought e i T); [|lia].
        unfold wealth, brought. cbn [w_cw20 w_bank]. rewrite VE. destruct (V T); [lia|]. rewrite (PB self). unfold only. rewrite SE, String.eqb_refl.
        rewrite (proj2 (String.eqb_neq self (i_sender i))) by congruence. unfold attached, coins_of. lia.
      + intros b NB NB2. cbn [w_allow]. split; [|done]. unfold wealth. cbn [w_cw20 w_bank]. destruct (V T); [lia|]. rewrite (PB b). unfold only.
        rewrite SE, (proj2 (String.eqb_neq b self) NB2). destruct (String.eqb_spec b (i_sender i)); [congruence|lia].
    - apply Forall_app in F as [F1 F]. apply Forall_cons in F as [(a & A & O) F2]. assert (NS : a <> self) by congruence.
      split; [by apply Forall_app|]. 
      assert (NP : forall T, net self T (P1 ++ x :: P2) = net self T [x] + net self T (P1 ++ P2)).
      { intros T. change (x :: P2) with ([x] ++ P2). rewrite !net_app. lia. }
      destruct (message_to_hostile hostile x) eqn:M.
      + subst w'. split; [done|]. intros T HT. split; [|intros; lia]. rewrite NP, (hostile_net hostile self V a T x O HT M). lia.
      + destruct (settle_one V self a x w w' NS O H) as [S Q]. split; [done|]. intros T HT. destruct (Q T self) as [QS _]. split.
        * rewrite NP, QS. unfold only. rewrite String.eqb_refl, (proj2 (String.eqb_neq self a)) by congruence. lia.
        * intros b NB NB2. destruct (Q T b) as [QB QA]. rewrite QB, QA by congruence. unfold only.
          rewrite (proj2 (String.eqb_neq b self) NB2). destruct (String.eqb_spec b a); [congruence|]. split; [lia|done].
    - split; [done|]. split; [done|]. intros T HT. split; [destruct (Q T self HT NA); lia|]. intros b NB NB2. destruct (Q T b HT NB) as [Q1 Q2]. auto.
  Qed.

  Lemma steps_facts w P l w' P' : steps w P l w' P' -> reachable (w_store w) -> Forall (waits V self actor) P ->
    Forall (waits V self actor) P' /\ in_sequence (w_store w) l (w_store w') /\ Forall (fun c => actor (i_sender (mc_info c))) l /\
    forall T, hostile T = false ->
      wealth V w T self + net self T P + sumZ (map (fun c => charged (mc_env c) (mc_info c) T (mc_out c)) l) <= wealth V w' T self + net self T P' /\
      forall b, ~ actor b -> b <> self -> wealth V w T b <= wealth V w' T b /\ amount_of (w_allow w') T b = amount_of (w_allow w) T b.
  Proof.
    induction 1 as [w P|w P c w1 P1 l w2 P2 H T IH]; intros R F.
    - split; [done|]. split; [done|]. split; [constructor|]. intros T HT. split; [cbn; lia|]. intros; lia.
    - destruct (step_facts _ _ _ _ _ R F H) as (F1 & C & Q). destruct c as [c|].
      + destruct C as (A & at' & E). destruct IH as (F2 & SQ & AC & Q2); [by eapply reach_call|done|]. split; [done|].
        split; [cbn [in_sequence]; by exists (w_store w1), at'|]. split; [by constructor|]. intros t HT. destruct (Q t HT) as [Q3 Q4]. destruct (Q2 t HT) as [Q5 Q6]. split.
        * unfold sumZ in *. cbn [map foldr]. lia.
        * intros b B1 B2. destruct (Q4 b B1 B2), (Q6 b B1 B2). split; [lia|congruence].
      + destruct IH as (F2 & SQ & AC & Q2); [by rewrite C|done|]. rewrite C in SQ. split; [done|]. split; [done|]. split; [done|].
        intros t HT. destruct (Q t HT) as [Q3 Q4]. destruct (Q2 t HT) as [Q5 Q6]. split; [lia|].
        intros b B1 B2. destruct (Q4 b B1 B2), (Q6 b B1 B2). split; [lia|congruence].
  Qed.
End storm.

(** ** C91 *)
(** Whatever hostile tokens and receivers do in the midst of calls: the contract's state afterwards is the one its calls lead to when made one after the
    other, its balances of the other tokens are at least what these calls leave it when honestly settled, and nobody who does not act loses any of them. *)
Theorem C91_as_in_sequence ok self V hostile actor w l w' : ~ actor self -> reachable (w_store w) -> steps ok self V hostile actor w [] l w' [] ->
  in_sequence (w_store w) l (w_store w') /\ Forall (fun c => actor (i_sender (mc_info c))) l /\
  forall T, hostile T = false ->
    wealth V w T self + sumZ (map (fun c => charged (mc_env c) (mc_info c) T (mc_out c)) l) <= wealth V w' T self /\
    forall b, ~ actor b -> b <> self -> wealth V w T b <= wealth V w' T b /\ amount_of (w_allow w') T b = amount_of (w_allow w) T b.
Proof.
  intros NA R H. destruct (steps_facts _ _ _ _ _ NA _ _ _ _ _ H R ltac:(constructor)) as (_ & S & A & Q). split; [done|]. split; [done|].
  intros T HT. destruct (Q T HT) as [Q1 Q2]. split; [|done]. unfold net, received, sent in Q1. cbn [map sumZ foldr] in Q1. unfold sumZ in *. lia.
Qed.

(** histories from the beginning, with the waiting messages and a count of loop iterations *)
Inductive storm (ok : env -> msg_info -> store -> exec_msg -> Prop) (self : string) (V hostile : string -> bool) (actor : string -> Prop) :
  world -> list out_msg -> Z -> Prop :=
| sm_init i f w : instantiate i f = Ok (w_store w) -> (forall T, 0 <= wealth V w T self) -> storm ok self V hostile actor w [] 0
| sm_step w P n c w' P' : storm ok self V hostile actor w P n -> step ok self V hostile actor w P c w' P' ->
    storm ok self V hostile actor w' P' (n + match c with Some x => cost (mc_env x) (mc_msg x) | None => 0 end).

Lemma storm_accounts ok self V hostile actor w P n : ~ actor self -> storm ok self V hostile actor w P n ->
  reachable (w_store w) /\ Forall (waits V self actor) P /\
  exists bal, accounts ok self V (w_store w) bal n /\ forall T, hostile T = false -> bal T <= wealth V w T self + net self T P.
Proof.
  intros NA H. induction H as [i f w H W|w P n c w' P' _ (R & F & bal & A & B) S].
  - split; [by eapply reach_init|]. split; [constructor|]. exists (fun _ => 0). split; [by eapply ac_init|]. intros T _. specialize (W T). unfold net, received, sent. cbn. lia.
  - destruct (step_facts _ _ _ _ _ NA _ _ _ _ _ R F S) as (F' & C & Q). destruct c as [c|].
    + destruct C as (AC & at' & E). split; [by eapply reach_call|]. split; [done|].
      inversion S as [e i m w0 P0 bank s ms at2 OK A2 SE VE CO PI E2| |]; subst c w0 P0 w' P'. cbn [mc_env mc_info mc_msg mc_out w_store] in *.
      eexists. split; [eapply ac_call; [exact A|exact OK|exact E|exact SE|exact VE|congruence]|]. cbn beta. intros T HT. specialize (B T HT). destruct (Q T HT) as [Q1 _].
      pose proof (net_charged _ _ _ _ _ _ _ T R E) as NC. rewrite SE in NC. unfold net in *. lia.
    + rewrite C, Z.add_0_r. split; [done|]. split; [done|]. exists bal. split; [done|]. intros T HT. specialize (B T HT). destruct (Q T HT) as [Q1 _]. lia.
Qed.

(** ** C92 *)
(** In clean histories, whenever no message waits, the contract has at least what all pools together owe of every token that is not hostile -
    those with a hostile token on the other side included. *)
Theorem C92_solvent_partial self V hostile actor w n : ~ actor self -> storm (clean_single V) self V hostile actor w [] n -> n < 10 ^ 14 ->
  forall T l, hostile T = false -> NoDup l -> sumZ (map (owes (w_store w) T) l) <= wealth V w T self.
Proof.
  intros NA H N T l HT ND. destruct (storm_accounts _ _ _ _ _ _ _ _ NA H) as (_ & _ & bal & A & B). specialize (B T HT).
  pose proof (C15_contract_solvent_partial V self _ bal n A N T l ND). unfold net, received, sent in B. cbn in B. lia.
Qed.

Lemma steps_storm ok self V hostile actor w P l w' P' : steps ok self V hostile actor w P l w' P' -> forall n, storm ok self V hostile actor w P n ->
  storm ok self V hostile actor w' P' (n + sumZ (map (fun c => cost (mc_env c) (mc_msg c)) l)).
Proof.
  induction 1 as [w P|w P c w1 P1 l w2 P2 H T IH]; intros n S; [by rewrite Z.add_0_r|]. pose proof (sm_step _ _ _ _ _ _ _ _ _ _ _ S H) as S1. specialize (IH _ S1).
  destruct c as [c|]; [|by rewrite Z.add_0_r in IH]. unfold sumZ in *. cbn [map foldr]. by rewrite <- Z.add_assoc in IH.
Qed.

(** Ordinary calls among plain ledgers ([history], PropWorld.v) are a special case, so the refutation for them stands here too. *)
Lemma deliver_all ok self V actor ms : forall at' w w', settle self ms at' w = Done w' at' -> steps ok self V (fun _ => false) actor w ms [] w' [].
Proof.
  induction ms as [|x ms IH]; intros at' w w' H; [injection H as <-; constructor|].
  assert (X : exists w1, (if message_to_hostile (fun _ => false) x then w1 = w else settle self [x] [] w = Done w1 []) /\ settle self ms at' w1 = Done w' at').
  { destruct x; cbn [message_to_hostile settle] in *; repeat (match type of H with (if ?c then _ else _) = _ => destruct c; [done|] end); by eexists. }
  destruct X as (w1 & X & H1). pose proof (sp_message ok self V (fun _ => false) actor x [] ms w w1 X) as ST. cbn [app] in ST.
  exact (ss_cons _ _ _ _ _ _ _ None _ _ _ _ _ ST (IH _ _ _ H1)).
Qed.
Theorem history_storm ok self V w n : history ok self V w n -> storm ok self V (fun _ => false) (fun a => a <> self) w [] n.
Proof.
  intros H. induction H as [i f w H P|w w' n _ S E P|e i w m w' at' n _ S O H SE VE NS].
  - by eapply sm_init.
  - assert (ST : step ok self V (fun _ => false) (fun a => a <> self) w [] None w' []).
    { constructor; [done|]. intros T b _ NB. destruct (String.eqb_spec b self) as [->|N]; [|done]. split; [apply P|done]. }
    pose proof (sm_step _ _ _ _ _ _ _ _ _ _ _ S ST) as S1. by rewrite Z.add_0_r in S1.
  - apply world_call_inv in H as (ND & bank & s & ms & PI & E & H). rewrite SE in PI, H.
    assert (ST : step ok self V (fun _ => false) (fun a => a <> self) w [] (Some (mkCall e i m ms)) (mkWorld s (w_cw20 w) (w_allow w) bank) ([] ++ ms)).
    { eapply sp_call; try done; by apply bool_decide_eq_true. }
    pose proof (sm_step _ _ _ _ _ _ _ _ _ _ _ S ST) as S1. cbn [app mc_env mc_msg] in S1.
    pose proof (steps_storm _ _ _ _ _ _ _ _ _ _ (deliver_all ok self V (fun a => a <> self) ms _ _ _ H) _ S1) as S2. by rewrite Z.add_0_r in S2.
Qed.

Theorem C92_solvent_refuted : exists w n, let V := fun _ => true in storm true_call "self" V (fun _ => false) (fun a => a <> "self"%string) w [] n /\ n < 10 ^ 14 /\
  exists k, pk_x k <> pk_y k /\ wealth V w (pk_y k) "self" < owes (w_store w) (pk_y k) k.
Proof.
  destruct C85_never_short_refuted as (w & n & H & N & W & O & _). exists w, n. cbv zeta. split; [by apply history_storm|]. split; [exact N|]. exists thin_key.
  split; [done|]. change (pk_y thin_key) with "tokeny"%string. rewrite W.
  assert (owes (w_store w) "tokeny" thin_key = 499850) as ->; [|done]. rewrite <- O. unfold owes. change (pk_x thin_key) with "tokenx"%string. change (pk_y thin_key) with "tokeny"%string. cbn [String.eqb Ascii.eqb Bool.eqb]. lia.
Qed.

(** ** Example *)
Inductive move1 := MCall (i : msg_info) (m : exec_msg) | MDeliver (n : nat).
Fixpoint play (As : list string) (e : env) (hostile : string -> bool) (chk : bool) (l : list move1) (w : world) (P : list out_msg) (n : Z) : option (world * list out_msg * Z) :=
  match l with
  | [] => Some (w, P, n)
  | MCall i m :: l =>
      if negb (coins_ok (i_funds i)) || negb (existsb (String.eqb (i_sender i)) As) || (chk && negb (clean_callb e (w_store w) m)) then None
      else match pay_in (i_sender i) (e_self e) (i_funds i) (w_bank w), execute e i (w_store w) m with
           | Some bank, Ok (s, ms, _) => play As e hostile chk l (mkWorld s (w_cw20 w) (w_allow w) bank) (P ++ ms) (n + cost e m)
           | _, _ => None
           end
  | MDeliver k :: l =>
      match nth_error P k with
      | Some x =>
          let P' := firstn k P ++ skipn (S k) P in
          if message_to_hostile hostile x then play As e hostile chk l w P' n
          else match settle (e_self e) [x] [] w with Done w' _ => play As e hostile chk l w' P' n | _ => None end
      | None => None
      end
  end.
Lemma nth_split_at {A} (P : list A) k x : nth_error P k = Some x -> P = firstn k P ++ x :: skipn (S k) P.
Proof. revert P. induction k as [|k IH]; intros [|y P] H; cbn in *; try done; [by injection H as ->|]. f_equal. by apply IH. Qed.
Lemma settle_store self x w w' a : settle self [x] [] w = Done w' a -> w_store w' = w_store w /\ a = [].
Proof. intros SE. destruct x; cbn [settle] in SE; repeat (match type of SE with context [if ?c then _ else _] => destruct c; try done end); by injection SE as <- <-. Qed.
Lemma play_steps As (chk : bool) (ok : env -> msg_info -> store -> exec_msg -> Prop) e hostile l :
  (forall i s m, ereach s -> (chk = true -> clean_callb e s m = true) -> ok e i s m) ->
  let actor := fun a => In a As in
  forall w P n w' P' n', reachable (w_store w) -> play As e hostile chk l w P n = Some (w', P', n') ->
    exists cs, steps ok (e_self e) (e_addr_ok e) hostile actor w P cs w' P' /\ n' = n + sumZ (map (fun c => cost (mc_env c) (mc_msg c)) cs).
Proof.
  intros K actor. induction l as [|[i m|k] l IH]; intros w P n w' P' n' R H; cbn [play] in H.
  - injection H as <- <- <-. exists []. split; [constructor|]. cbn. lia.
  - destruct (negb _ || _ || _) eqn:C; [done|]. apply orb_false_iff in C as [C C3]. apply orb_false_iff in C as [C1 C2]. apply negb_false_iff in C1.
    apply negb_false_iff, existsb_exists in C2 as (a0 & C2 & EQ). apply String.eqb_eq in EQ. rewrite <- EQ in C2. clear a0 EQ.
    destruct (pay_in _ _ _ _) as [bank|] eqn:PI; [|done]. destruct (execute _ _ _ _) as [[[s ms] at']| |] eqn:E; try done.
    assert (ST : step ok (e_self e) (e_addr_ok e) hostile actor w P (Some (mkCall e i m ms)) (mkWorld s (w_cw20 w) (w_allow w) bank) (P ++ ms)).
    { eapply sp_call; [|exact C2|done|done|exact C1|exact PI|exact E]. apply K; [by apply reachable_ereach|]. intros ->. cbn in C3. by destruct (clean_callb e _ m). }
    apply IH in H as (cs & T & N); [|by eapply reach_call].
    eexists. split; [exact (ss_cons _ _ _ _ _ _ _ (Some (mkCall e i m ms)) _ _ _ _ _ ST T)|]. unfold sumZ in *. cbn [map foldr mc_env mc_msg]. lia.
  - destruct (nth_error P k) as [x|] eqn:NX; [|done]. apply nth_split_at in NX.
    assert (X : exists w1, (if message_to_hostile hostile x then w1 = w else settle (e_self e) [x] [] w = Done w1 []) /\ w_store w1 = w_store w /\
       play As e hostile chk l w1 (firstn k P ++ skipn (Datatypes.S k) P) n = Some (w', P', n')).
    { destruct (message_to_hostile hostile x); [by exists w|]. destruct (settle _ _ _ _) as [w1 a1| | |] eqn:SE; try done. exists w1.
      destruct (settle_store _ _ _ _ _ SE) as [S ->]. done. }
    destruct X as (w1 & X & WS & H1).
    assert (ST : step ok (e_self e) (e_addr_ok e) hostile actor w P None w1 (firstn k P ++ skipn (Datatypes.S k) P)) by (rewrite NX at 1; by constructor).
    apply IH in H1 as (cs & T & N); [|by rewrite WS]. exists cs. split; [exact (ss_cons _ _ _ _ _ _ _ None _ _ _ _ _ ST T)|done].
Qed.
(** Tokeny is hostile and does nothing when asked to move. Carol sells tokenx for tokeny and, before anything is settled, sells the tokeny back; the contract
    pays out tokenx before it has received any, and nobody ever pays any tokeny.  Alice's other pool is not touched, and the contract has
    all the tokenx and tokenz it owes. *)
Definition y_hostile (T : string) : bool := String.eqb T "tokeny".
Definition storm_calls : list move1 :=
  [MCall (v_info "alice") (AddFeeTier v_tier);
   MCall (v_info "alice") (CreatePool "tokeny" "tokenx" v_tier SP_ONE 0);
   MCall (v_info "alice") (CreatePool "tokenz" "tokenx" v_tier SP_ONE 0);
   MCall (v_info "alice") (CreatePosition v_key (-10) 10 20006000000000 SP_ONE SP_ONE); MDeliver 0; MDeliver 0;
   MCall (v_info "bob") (CreatePosition (mkPoolKey "tokenx" "tokenz" v_tier) (-10) 10 20006000000000 SP_ONE SP_ONE); MDeliver 0; MDeliver 0]%string.
Definition storm_moves : list move1 :=
  [MCall (v_info "carol") (Swap v_key true 3000 true MIN_SQRT_PRICE);
   MCall (v_info "carol") (Swap v_key false 3000 true MAX_SQRT_PRICE);
   MDeliver 3; MDeliver 0; MDeliver 0; MDeliver 0]%string.
Definition storm_run (As : list string) : option (world * Z * world) :=
  match instantiate (v_info "alice") 10000000000 with
  | Ok s =>
      let Ts := ["tokenx"; "tokeny"; "tokenz"]%string in
      match play ["alice"; "bob"; "carol"]%string v_env y_hostile true storm_calls (mkWorld s (fill Ts users 1000000000) (fill Ts users 1000000000) (fill ["orai"%string] users 1000000000)) [] 0 with
      | Some (w, [], n) => match play As v_env y_hostile true storm_moves w [] n with Some (w', [], _) => Some (w, n, w') | _ => None end
      | _ => None
      end
  | _ => None
  end.
Example ex_C91 : exists w w' n l, let V := e_addr_ok v_env in
  storm (clean_single V) "self" V y_hostile (fun a => In a ["alice"; "bob"; "carol"]%string) w [] n /\ n = 5000 /\
  steps (clean_single V) "self" V y_hostile (fun a => In a ["carol"]%string) w [] l w' [] /\ ~ In "bob"%string ["carol"]%string /\
  wealth V w "tokenx" "self" = 20000 /\ wealth V w' "tokenx" "self" = 20018 /\ sumZ (map (owes (w_store w') "tokenx") [v_key; mkPoolKey "tokenx" "tokenz" v_tier]) = 20015 /\
  wealth V w' "tokeny" "self" = 0 /\ sumZ (map (owes (w_store w') "tokeny") [v_key]) = 10017.
Proof.
  destruct (instantiate (v_info "alice") 10000000000) as [s| |] eqn:I; [|exfalso; discriminate I..].
  set (Ts := ["tokenx"; "tokeny"; "tokenz"]%string). set (w0 := mkWorld s (fill Ts users 1000000000) (fill Ts users 1000000000) (fill ["orai"%string] users 1000000000)).
  assert (X : match storm_run ["carol"%string] with Some (w, n, w') => n = 5000 /\
     wealth (e_addr_ok v_env) w "tokenx" "self" = 20000 /\ wealth (e_addr_ok v_env) w' "tokenx" "self" = 20018 /\
     sumZ (map (owes (w_store w') "tokenx") [v_key; mkPoolKey "tokenx" "tokenz" v_tier]) = 20015 /\
     wealth (e_addr_ok v_env) w' "tokeny" "self" = 0 /\ sumZ (map (owes (w_store w') "tokeny") [v_key]) = 10017 | None => False end).
  { vm_compute. repeat split; reflexivity. }
  unfold storm_run in X. rewrite I in X. fold Ts in X. fold w0 in X.
  destruct (play _ v_env y_hostile true storm_calls w0 [] 0) as [[[w [|? ?]] n]|] eqn:P1; [|destruct X..].
  destruct (play ["carol"%string] v_env y_hostile true storm_moves w [] n) as [[[w' [|? ?]] n']|] eqn:P2; [|destruct X..].
  assert (K : forall i s m, ereach s -> (true = true -> clean_callb v_env s m = true) -> clean_single (e_addr_ok v_env) v_env i s m).
  { intros i s0 m R C. specialize (C eq_refl). split; [by apply clean_callb_sound|]. by destruct m. }
  assert (NI : forall As, existsb (String.eqb "self") As = false -> ~ In (e_self v_env) As).
  { intros As H HI. change (e_self v_env) with "self"%string in HI. assert (existsb (String.eqb "self") As = true); [|congruence].
    apply existsb_exists. exists "self"%string. split; [done|apply String.eqb_refl]. }
  assert (S0 : storm (clean_single (e_addr_ok v_env)) (e_self v_env) (e_addr_ok v_env) y_hostile (fun a => In a ["alice"; "bob"; "carol"]%string) w0 [] 0).
  { eapply sm_init; [exact I|]. intros T. unfold wealth. unfold w0. cbn [w_cw20 w_bank]. change (e_self v_env) with "self"%string.
    destruct (e_addr_ok v_env T); by rewrite fill_self. }
  destruct (play_steps _ true _ v_env y_hostile _ K _ _ _ _ _ _ (reach_init _ _ _ I : reachable (w_store w0)) P1) as (l0 & T0 & N0).
  pose proof (steps_storm _ _ _ _ _ _ _ _ _ _ T0 _ S0) as S1. rewrite <- N0 in S1.
  pose proof (proj1 (storm_accounts _ _ _ _ _ _ _ _ (NI ["alice"; "bob"; "carol"]%string eq_refl) S1)) as R.
  destruct (play_steps _ true _ v_env y_hostile _ K _ _ _ _ _ _ R P2) as (l & T & _).
  destruct X as (X0 & X). exists w, w', n, l. cbv zeta. split; [exact S1|]. split; [exact X0|]. split; [exact T|]. split; [by intros [Z|[]]|]. exact X.
Qed.
