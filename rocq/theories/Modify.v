(** Exact effect of the position operations on ticks, pool and position record. *)
From Verif Require Import Base Decimal SqrtPrice Clamm Log FeeGrowth Types Tick Pool Position
  Tickmap Keys State Swap Exec Tactics PriceProofs ClammProofs BitmapProofs PropBitmap Frame Handlers History Basic SwapGeo SwapLoop.
From stdpp Require Import gmap strings.
From Coq Require Import Lia.
Open Scope Z_scope.

Definition pm (b : bool) (v : Z) : Z := if b then v else - v.

Lemma tick_update_inv t delta mx up dep t' : 0 <= delta -> 0 <= t_change t ->
  tick_update t delta mx up dep = Ok t' ->
  t_index t' = t_index t /\ t_price t' = t_price t /\ t_fox t' = t_fox t /\ t_foy t' = t_foy t /\ t_secs t' = t_secs t /\
  t_gross t' = t_gross t + pm dep delta /\ 0 <= t_gross t' <= U128MAX /\ (dep = true -> t_gross t' < mx) /\
  net t' = net t + pm (xorb dep up) delta /\ 0 <= t_change t'.
Proof.
  intros HD HC. unfold tick_update. intros H. inv_bind H as g EG. inv_bind H as [sg c] EC. apply Ok_inj in H. subst t'. cbn.
  repeat (split; [done|]).
  assert (G : g = t_gross t + pm dep delta /\ 0 <= g <= U128MAX /\ (dep = true -> g < mx)).
  { unfold calculate_new_liquidity_gross in EG. destruct (_ && _) eqn:B; [done|]. inv_bind EG as n EN.
    destruct (dep && (mx <=? n)) eqn:B2; [done|]. apply Ok_inj in EG. subst n. unfold pm. destruct dep; ckinv.
    - cbn in B2. apply Z.leb_gt in B2. split; [lia|]. split; [lia|]. intros _. lia.
    - split; [lia|]. split; [lia|]. done. }
  destruct G as (G1 & G2 & G3). split; [done|]. split; [done|]. split; [done|].
  unfold net, update_liquidity_change, pm in *. cbn. destruct (xorb (t_sign t) (xorb dep up)) eqn:X.
  - destruct (Z.ltb_spec delta (t_change t)); inv_bind EC as cc E; apply Ok_inj in EC; simplify_eq; ckinv;
      destruct (t_sign t), (xorb dep up); cbn in *; try done; lia.
  - inv_bind EC as cc E; apply Ok_inj in EC; simplify_eq; ckinv. destruct (t_sign t), (xorb dep up); cbn in *; try done; lia.
Qed.

(** inside fee growth of a range, as stored ticks and pool give it *)
Definition inside_x (p : pool) (l u : tick) : Z :=
  fee_growth_inside (t_index l) (t_fox l) (t_index u) (t_fox u) (p_tick p) (p_fgx p).
Definition inside_y (p : pool) (l u : tick) : Z :=
  fee_growth_inside (t_index l) (t_foy l) (t_index u) (t_foy u) (p_tick p) (p_fgy p).

Definition in_range_tick (lower upper c : Z) : bool := (lower <=? c) && (c <? upper).

Lemma amount_delta_upd c pr L sg u l x y b : calculate_amount_delta c pr L sg u l = Ok (x, y, b) ->
  l <= u /\ b = in_range_tick l u c.
Proof.
  unfold calculate_amount_delta, in_range_tick. destruct (Z.ltb_spec u l); [done|]. intros E. split; [done|].
  destruct (Z.ltb_spec c l).
  - rewrite (proj2 (Z.leb_gt _ _)) by lia. cbn. rinv E; simplify_eq; done.
  - rewrite (proj2 (Z.leb_le _ _)) by lia. cbn. destruct (Z.ltb_spec c u); rinv E; simplify_eq; done.
Qed.

Record modify_facts (po : position) (p : pool) (u l : tick) (delta : Z) (add : bool) (now s : Z)
    (po' : position) (p' : pool) (u' l' : tick) (x y ox oy : Z) : Prop := {
  mf_low : t_index l' = t_index l /\ t_price l' = t_price l /\ t_fox l' = t_fox l /\ t_foy l' = t_foy l /\ t_secs l' = t_secs l;
  mf_up : t_index u' = t_index u /\ t_price u' = t_price u /\ t_fox u' = t_fox u /\ t_foy u' = t_foy u /\ t_secs u' = t_secs u;
  mf_gross_l : t_gross l' = t_gross l + pm add delta /\ 0 <= t_gross l' <= U128MAX;
  mf_gross_u : t_gross u' = t_gross u + pm add delta /\ 0 <= t_gross u' <= U128MAX;
  mf_max : add = true -> t_gross l' < calculate_max_liquidity_per_tick s /\ t_gross u' < calculate_max_liquidity_per_tick s;
  mf_net_l : net l' = net l + pm add delta /\ 0 <= t_change l';
  mf_net_u : net u' = net u - pm add delta /\ 0 <= t_change u';
  mf_liq : po_liq po' = po_liq po + pm add delta /\ 0 <= po_liq po' <= U128MAX;
  mf_poke : delta <> 0 \/ po_liq po <> 0;
  mf_order : t_index l <= t_index u;
  mf_pool : p' = p_set_liq (p_set_last p now)
                   (p_liq p + (if in_range_tick (t_index l) (t_index u) (p_tick p) then pm add delta else 0));
  mf_pliq : 0 <= p_liq p <= U128MAX -> 0 <= p_liq p' <= U128MAX;
  mf_amount : calculate_amount_delta (p_tick p) (p_price p) delta add (t_index u) (t_index l)
              = Ok (x, y, in_range_tick (t_index l) (t_index u) (p_tick p));
  mf_ox : to_fee (wsub (inside_x p l u) (po_fgx po)) (po_liq po) = Ok ox;
  mf_oy : to_fee (wsub (inside_y p l u) (po_fgy po)) (po_liq po) = Ok oy;
  mf_owed : 0 <= po_owedx po + ox <= U128MAX /\ 0 <= po_owedy po + oy <= U128MAX;
  mf_pos : po' = mkPosition (po_key po) (po_liq po + pm add delta) (po_lower po) (po_upper po) (inside_x p l u) (inside_y p l u)
                   (po_block po) (po_owedx po + ox) (po_owedy po + oy) (po_approvals po)
}.

Lemma position_modify_inv po p u l delta add now s po' p' u' l' x y :
  0 <= delta -> 0 <= t_change u -> 0 <= t_change l ->
  position_modify po p u l delta add now s = Ok (po', p', u', l', x, y) ->
  exists ox oy, modify_facts po p u l delta add now s po' p' u' l' x y ox oy.
Proof.
  intros HD HU HL. unfold position_modify. intros H. inv_bind H as l1 EL. inv_bind H as u1 EU.
  inv_bind H as po1 EP. inv_bind H as [[p1 x1] y1] EQ. apply Ok_inj in H. injection H as <- <- <- <- <- <-.
  apply tick_update_inv in EL; [|done|done]. apply tick_update_inv in EU; [|done|done].
  destruct EL as (L1 & L2 & L3 & L4 & L5 & L6 & L7 & L8 & L9 & L10).
  destruct EU as (U1 & U2 & U3 & U4 & U5 & U6 & U7 & U8 & U9 & U10).
  rewrite L1, L3, L4, U1, U3, U4 in EP. cbn [p_tick p_fgx p_fgy p_set_last] in EP.
  fold (inside_x p l u) in EP. fold (inside_y p l u) in EP.
  unfold position_update in EP. destruct (_ && _) eqn:PK; [done|].
  inv_bind EP as ox EX. inv_bind EP as oy EY. inv_bind EP as q ELq. inv_bind EP as tx ETX. inv_bind EP as ty ETY.
  apply Ok_inj in EP. subst po1. exists ox, oy.
  assert (Q : q = po_liq po + pm add delta /\ 0 <= q <= U128MAX).
  { unfold calculate_new_liquidity in ELq. destruct (negb add && _); [done|]. unfold pm. destruct add; ckinv; lia. }
  destruct Q as [-> Q].
  unfold update_liquidity in EQ. cbn [p_tick p_price p_set_last p_liq] in EQ. rewrite L1, U1 in EQ.
  inv_bind EQ as [[xx yy] upd] EA. pose proof (amount_delta_upd _ _ _ _ _ _ _ _ _ EA) as [OR ->].
  assert (PQ : p1 = p_set_liq (p_set_last p now)
                   (p_liq p + (if in_range_tick (t_index l) (t_index u) (p_tick p) then pm add delta else 0)) /\ x1 = xx /\ y1 = yy
            /\ (0 <= p_liq p <= U128MAX -> 0 <= p_liq p1 <= U128MAX)).
  { destruct (in_range_tick _ _ _).
    - inv_bind EQ as q2 E2. apply Ok_inj in EQ. injection EQ as <- <- <-.
      assert (q2 = p_liq p + pm add delta /\ 0 <= q2 <= U128MAX) as [-> R] by (unfold pm; destruct add; ckinv; lia).
      split; [done|]. split; [done|]. split; [done|]. intros _. exact R.
    - apply Ok_inj in EQ. injection EQ as <- <- <-. split; [|done]. rewrite Z.add_0_r. by destruct p. }
  destruct PQ as (-> & -> & -> & PL). clear EQ.
  assert (ETX' : tx = po_owedx po + ox /\ 0 <= tx <= U128MAX) by (ckinv; lia).
  assert (ETY' : ty = po_owedy po + oy /\ 0 <= ty <= U128MAX) by (ckinv; lia).
  destruct ETX' as [-> RX]. destruct ETY' as [-> RY].
  constructor; try done.
  - auto.
  - by rewrite xorb_false_r in L9.
  - rewrite xorb_true_r in U9. split; [|done]. rewrite U9. unfold pm. destruct add; cbn; lia.
  - apply andb_false_iff in PK. rewrite !Z.eqb_neq in PK. done.
Qed.
