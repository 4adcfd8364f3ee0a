(** C116: a deposit can be undone. *)
From Verif Require Import Base Decimal SqrtPrice Clamm Log FeeGrowth Types Tick Pool Position
  Tickmap Keys State Swap Exec Query Tactics PriceProofs ClammProofs PropClamm BitmapProofs PropBitmap KeysProofs Frame Handlers History Basic PosList
  Ledger Vectors Scenario SwapGeo SwapLoop Modify PSum LiqInv Geo Ops Clean PropLiq Growth Value Fund Flow PropSolv Forward PropExit PropFees PropFunds PropProt PropBlock PropClock PropAuth PropTrade PropOk
  PropSplit PropOthers PropShare PropCurve PropRange.
From stdpp Require Import gmap strings.
From Coq Require Import Lia.
Open Scope Z_scope.

(** the value of a position fits into 128 bits *)
Lemma gain_x_small L a b : liq_ok L -> price_ok a -> price_ok b -> a <= b -> gain_x L a b <= L.
Proof.
  intros HL A B AB. destruct (gain_x_bounds L a b (proj1 HL) A B AB) as (G0 & G1 & _). set (g := gain_x L a b) in *. clearbody g.
  assert (a * b * g <= 10 ^ 18 * L * b) by (transitivity (10 ^ 18 * L * (b - a)); [lia|]; apply Z.mul_le_mono_nonneg_l; unfold price_ok, liq_ok, MIN_SQRT_PRICE in *; lia).
  assert (X : a * g <= 10 ^ 18 * L) by (apply (Z.mul_le_mono_pos_r _ _ b); unfold price_ok, MIN_SQRT_PRICE in *; lia).
  assert (Y : 10 ^ 18 * g <= a * g) by (apply Z.mul_le_mono_nonneg_r; [done|]; unfold price_ok, MIN_SQRT_PRICE in A; lia). lia.
Qed.
Lemma gain_y_small L a b : liq_ok L -> price_ok a -> price_ok b -> a <= b -> gain_y L a b <= L.
Proof.
  intros HL A B AB. unfold gain_y. apply Z.div_le_upper_bound; [reflexivity|]. rewrite (Z.mul_comm _ L). apply Z.mul_le_mono_nonneg_l; [apply HL|].
  unfold price_ok, MIN_SQRT_PRICE, MAX_SQRT_PRICE in *. lia.
Qed.

(** Whoever has just made a deposit can take it out again as the next call, in any block, whatever has gone on in the pool before. They get back what
    they paid except for at most one unit of the second token and, of the first, two units and one part in 10^14. *)
Theorem C116_undo e i s d k l u L s1 m1 a1 e' i' : reachable s -> deposit d k l u L -> execute e i s d = Ok (s1, m1, a1) ->
  i_sender i' = i_sender i -> env_typed e' i' = true ->
  exists s2 m2 a2 x y x' y', execute e' i' s1 (RemovePosition (get_position_length s (i_sender i))) = Ok (s2, m2, a2) /\
    m1 = collects e i (pk_x k) x ++ collects e i (pk_y k) y /\ pays (i_sender i) k x' y' m2 /\
    x' <= x /\ 10 ^ 14 * (x - x' - 2) <= x /\ y' <= y <= y' + 1.
Proof.
  intros R D E SI TY. pose proof (reach_call _ _ _ _ _ _ _ R E) as R1. pose proof R1 as RR1. pose proof R as RR. apply reachable_ereach in R, R1.
  destruct (deposit_execute _ _ _ _ _ _ _ _ _ _ _ D E) as (sl & su & C & T & _).
  destruct (deposit_inv _ _ _ _ _ _ _ _ _ _ _ _ R T C) as [DP M1].
  apply create_raw in C; [|done..]. cbv zeta in C. destruct C as (p & lt & ut & lt' & ut' & bm1 & bm2 & P & O & (Sl & Tl & Ul) & (Su & Tu & Uu) & _ & _ & _ & ES).
  specialize (M1 _ P). destruct DP as (p0 & P0 & L0 & _ & VL & VU & _ & _ & _ & _ & RM & _). rewrite P in P0. injection P0 as <-.
  set (po := mkPosition k L l u (inside_x p lt ut) (inside_y p lt ut) (e_height e) 0 0 []) in *. set (p1 := mark_pool p (e_millis e) l u L) in *.
  assert (Q : st_positions s1 !! (i_sender i', plen s (i_sender i)) = Some po) by (rewrite SI, ES; apply lookup_insert).
  assert (P1 : st_pools s1 !! po_key po = Some p1) by (rewrite ES; apply lookup_insert).
  assert (NE : (k, u) <> (k, l)) by (intros X; injection X; lia).
  assert (TL : st_ticks s1 !! (k, l) = Some lt') by (rewrite ES; cbn; rewrite lookup_insert_ne by done; apply lookup_insert).
  assert (TU : st_ticks s1 !! (k, u) = Some ut') by (rewrite ES; cbn; apply lookup_insert).
  destruct (fog_update _ _ _ _ _ Ul) as (I1 & X1 & Y1). destruct (fog_update _ _ _ _ _ Uu) as (I2 & X2 & Y2).
  pose proof (tp_index _ _ _ _ Tl) as IL. pose proof (tp_index _ _ _ _ Tu) as IU.
  assert (AX : accrued_x s1 p1 po = 0 /\ accrued_y s1 p1 po = 0).
  { assert (HD : holds po s1) by (exists (i_sender i', plen s (i_sender i)), po; split; [done|]; unfold same_stake; auto 10).
    destruct (held_facts s1 po RR1 HD) as (q & l0 & u0 & EQ & EL & EU & _ & _ & _ & _ & EE). rewrite P1 in EQ. injection EQ as <-.
    cbn [po_key po_lower po_upper po] in EL, EU. rewrite TL in EL. injection EL as <-. rewrite TU in EU. injection EU as <-.
    pose proof (EE true) as ET. pose proof (EE false) as EF. unfold earned, growth in ET, EF. rewrite P1 in ET, EF. unfold accrued_x, accrued_y.
    cbn [po_key po_lower po_upper po] in *. rewrite TL, TU in *. rewrite ET, EF.
    assert (GT : grow true (p_tick p1) (fg true p1) lt' ut' po = 0).
    { unfold grow. change (pofg true po) with (inside_x p lt ut). rewrite (proj1 (inside_xy p lt ut)). unfold inside. cbn [fo fg p1 mark_pool p_set_liq p_set_last p_tick p_fgx]. rewrite I1, X1, I2, X2, Z.sub_diag. reflexivity. }
    assert (GF : grow false (p_tick p1) (fg false p1) lt' ut' po = 0).
    { unfold grow. change (pofg false po) with (inside_y p lt ut). rewrite (proj2 (inside_xy p lt ut)). unfold inside. cbn [fo fg p1 mark_pool p_set_liq p_set_last p_tick p_fgy]. rewrite I1, Y1, I2, Y2, Z.sub_diag. reflexivity. }
    rewrite GT, GF. done. }
  destruct AX as [AX AY].
  pose proof (legal_price_range _ _ VL) as PL. pose proof (legal_price_range _ _ VU) as PU. pose proof (legal_price_lt _ _ _ VL VU O) as PO.
  assert (ST : stake p1 po = (gain_x L (split_price p l u) (tprice u), gain_y L (tprice l) (split_price p l u))) by reflexivity.
  unfold price_of_deposit in M1. cbn [fst snd] in M1.
  set (lo := tprice l) in *. set (hi := tprice u) in *.
  assert (CB : lo <= split_price p l u <= hi) by (unfold split_price, clamp; fold lo hi; lia).
  set (c := split_price p l u) in *. clearbody c lo hi.
  assert (RE : removable s1 (i_sender i') (plen s (i_sender i))).
  { exists po, p1. split; [exact Q|]. split; [exact P1|]. rewrite AX, AY, ST. cbn [fst snd].
    pose proof (gain_x_small L c hi T) as GX. pose proof (gain_y_small L lo c T) as GY. unfold price_ok in *. change (2 ^ 128) with (U128MAX + 1).
    split; [lia|]. split; [lia|]. cbn [po_lower po_upper po_liq po]. intros IR. unfold p1, mark_pool. cbn [p_liq p_tick p_set_liq p_set_last] in *.
    pose proof (ereach_geo _ R _ _ P) as [_ PN]. unfold in_range_tick. cbn [p1 mark_pool p_tick p_set_liq p_set_last] in IR. rewrite (proj2 (Z.leb_le _ _)), (proj2 (Z.ltb_lt _ _)) by lia. cbn. lia. }
  destruct (remove_iff e' i' s1 (plen s (i_sender i)) R1) as [RI RV]. apply RI in RE. apply is_ok_ex in RE as [[[s2 m2] a2] RE].
  assert (EX : execute e' i' s1 (RemovePosition (plen s (i_sender i))) = Ok (s2, m2, a2)).
  { unfold execute. rewrite TY. cbn [msg_typed andb dispatch]. unfold u32_ok. unfold room in RM. rewrite (proj2 (in_range_spec _ _ _)); [exact RE|].
    split; [exact (proj1 (proj1 (C34_contiguous s (i_sender i) RR)))|unfold U32MAX; lia]. }
  pose proof (C80_withdraw _ _ _ _ _ _ _ _ _ RR1 EX Q P1) as W. cbv zeta in W. rewrite AX, AY, !Z.add_0_r in W.
  destruct (C80_round_trip L c hi) as (_ & RX1 & RX2); [lia|unfold price_ok; lia..|]. destruct (C80_round_trip L lo c) as (RY & _); [lia|unfold price_ok; lia..|].
  assert (W' : pays (i_sender i) k (stake p1 po).1 (stake p1 po).2 m2) by (rewrite <- SI; exact W). rewrite ST in W'. cbn [fst snd] in W'.
  exists s2, m2, a2. do 4 eexists. split; [exact EX|]. split; [exact M1|]. split; [exact W'|]. done.
Qed.

(** It has to be the next call about the pool, though, where a swap has stopped on a tick before: bob's liquidity is not counted in this pool (C13), and
    when dan has made a deposit, bob can take out what the pool counts of dan's; then dan cannot leave, though nobody has traded since. *)
Definition un_dan : exec_msg := CreatePosition v_key 10 20 1500000000000 0 MAX_SQRT_PRICE.
Theorem C116_later_refuted : exists s d k l u L s1 s2 (r1 r2 : list out_msg * list (string * Z)), reachable s /\ deposit d k l u L /\
  execute v_env (v_info "dan") s d = Ok (s1, r1.1, r1.2) /\ execute v_env (v_info "bob") s1 (RemovePosition 0) = Ok (s2, r2.1, r2.2) /\
  execute v_env (v_info "dan") s2 (RemovePosition (get_position_length s "dan")) = Err UpdateLiquidityMinusOverflow.
Proof.
  assert (H : exists r q, (execute v_env (v_info "dan") lim_store un_dan = Ok r /\ execute v_env (v_info "bob") r.1.1 (RemovePosition 0) = Ok q) /\
    execute v_env (v_info "dan") q.1.1 (RemovePosition 0) = Err UpdateLiquidityMinusOverflow).
  { assert (H : (let* r := execute v_env (v_info "dan") lim_store un_dan in let* q := execute v_env (v_info "bob") r.1.1 (RemovePosition 0) in
        match execute v_env (v_info "dan") q.1.1 (RemovePosition 0) with Err UpdateLiquidityMinusOverflow => Ok true | _ => Ok false end) = Ok true) by (vm_compute; reflexivity).
    destruct (execute v_env (v_info "dan") lim_store un_dan) as [r| |]; [|discriminate H..]. exists r. cbn [bind] in H.
    destruct (execute v_env (v_info "bob") r.1.1 (RemovePosition 0)) as [q| |]; [|discriminate H..]. exists q. cbn [bind] in H. split; [split; reflexivity|].
    destruct (execute v_env (v_info "dan") q.1.1 (RemovePosition 0)) as [z|[]|]; try discriminate H. reflexivity. }
  destruct H as ([[s1 m1] a1] & [[s2 m2] a2] & (E1 & E2) & E3). cbn [fst] in E2, E3.
  exists lim_store, un_dan, v_key, 10, 20, 1500000000000, s1, s2, (m1, a1), (m2, a2). split; [exact lim_store_reachable|].
  split; [exists 0, MAX_SQRT_PRICE; left; reflexivity|]. split; [exact E1|]. split; [exact E2|].
  assert (G : get_position_length lim_store "dan" = 0) by (vm_compute; reflexivity). rewrite G. exact E3.
Qed.

(** *** Example: the undoing in that same pool *)
Example ex_C116 : exists s1 m1 a1, reachable lim_store /\ deposit un_dan v_key 10 20 1500000000000 /\ execute v_env (v_info "dan") lim_store un_dan = Ok (s1, m1, a1) /\
  env_typed v_env (v_info "dan") = true.
Proof.
  assert (H : is_ok (execute v_env (v_info "dan") lim_store un_dan) = true) by (vm_compute; reflexivity).
  destruct (execute v_env (v_info "dan") lim_store un_dan) as [[[s1 m1] a1]| |]; [|discriminate H..]. exists s1, m1, a1.
  split; [exact lim_store_reachable|]. split; [exists 0, MAX_SQRT_PRICE; left; reflexivity|]. split; reflexivity.
Qed.
