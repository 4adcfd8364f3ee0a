(** C81-C82: asking for more costs more, and how far paying more yields more. *)
From Verif Require Import Base Decimal SqrtPrice Clamm Log FeeGrowth Types Tick Pool Position Tickmap Keys State Swap Exec Tactics
  PriceProofs LogProofs ClammProofs PropClamm BitmapProofs Frame Handlers History Basic PosList Ledger Vectors Scenario SwapInv SwapGeo SwapLoop Modify PSum LiqInv Geo
  PropTrade PropLiq PropSwap Fund Forward Flow PropSolv PropFunds PropExit PropBlock PropEvent PropMove.
From stdpp Require Import gmap strings.
From Coq Require Import Lia.
Open Scope Z_scope.

(** ** One step, two amounts *)
Lemma nin_down_mono P L x x' n n' : MIN_SQRT_PRICE <= P -> 0 < L -> 0 <= x <= x' ->
  get_next_sqrt_price_from_input P L x true = Ok n -> get_next_sqrt_price_from_input P L x' true = Ok n' -> n' <= n.
Proof.
  intros HP HL X H H'. pose proof (next_in_side P L x' true n' HP HL ltac:(lia) H') as S'. cbn in S'.
  unfold get_next_sqrt_price_from_input in *. destruct (Z.eq_dec x 0) as [->|X0].
  { unfold get_next_sqrt_price_x_up in H. cbn in H. apply Ok_inj in H. lia. }
  unfold MIN_SQRT_PRICE in *. apply next_x_in in H, H'; [|lia..]. destruct H as (N0 & _ & H), H' as (_ & H' & _).
  set (q := pl_up P L) in *. clearbody q.
  assert (A : P * x <= P * x') by (apply Z.mul_le_mono_nonneg_l; lia).
  assert (B : n * (L * E18 + P * x) <= n * (L * E18 + P * x')) by (apply Z.mul_le_mono_nonneg_l; lia).
  assert (D : 0 < L * E18 + P * x') by (unfold E18; nia).
  assert (C : (n' - 1) * (L * E18 + P * x') < n * (L * E18 + P * x')) by lia.
  apply Z.mul_lt_mono_pos_r in C; lia.
Qed.
Lemma nin_up_mono P L x x' n n' : 0 <= P -> 0 < L -> 0 <= x <= x' ->
  get_next_sqrt_price_from_input P L x false = Ok n -> get_next_sqrt_price_from_input P L x' false = Ok n' -> n <= n'.
Proof.
  intros HP HL X H H'. unfold get_next_sqrt_price_from_input in *. apply next_y_in in H, H'; [|lia..]. destruct H as (_ & H & _), H' as (_ & _ & H').
  assert (A : x * E30 <= x' * E30) by (unfold E30; lia).
  assert (C : (n - P) * L < (n' - P + 1) * L) by lia. apply Z.mul_lt_mono_pos_r in C; lia.
Qed.
Lemma nout_down_mono P L x x' n n' : 0 <= P -> 0 < L -> 0 <= x <= x' ->
  get_next_sqrt_price_from_output P L x true = Ok n -> get_next_sqrt_price_from_output P L x' true = Ok n' -> n' <= n.
Proof.
  intros HP HL X H H'. unfold get_next_sqrt_price_from_output in *. apply next_y_out in H, H'; [|lia..]. destruct H as (_ & H & _), H' as (_ & _ & H').
  assert (A : x * E30 <= x' * E30) by (unfold E30; lia).
  assert (C : (P - n - 1) * L < (P - n') * L) by lia. apply Z.mul_lt_mono_pos_r in C; lia.
Qed.
Lemma fee_mono a a' f x x' : 0 <= f -> a <= a' -> big_mul_up PCT_ONE a f = Ok x -> big_mul_up PCT_ONE a' f = Ok x' -> x <= x'.
Proof.
  intros F A H H'. apply ceil_pct in H, H'. assert (a * f <= a' * f) by (apply Z.mul_le_mono_nonneg_r; lia). unfold PCT_ONE in *. lia.
Qed.
Lemma floor_mono a a' f x x' : 0 <= f -> a <= a' -> big_mul PCT_ONE a f = Ok x -> big_mul PCT_ONE a' f = Ok x' -> x <= x'.
Proof.
  intros F A H H'. apply floor_pct in H, H'. assert (a * f <= a' * f) by (apply Z.mul_le_mono_nonneg_r; lia). unfold PCT_ONE in *. lia.
Qed.

(** an input just short of what the target takes leads hardly beyond the target *)
Lemma overshoot cur target L x n a :
  MIN_SQRT_PRICE <= target <= cur -> 0 < L -> 0 <= x ->
  get_delta_x target cur L true = Ok a -> x < a ->
  get_next_sqrt_price_from_input cur L x true = Ok n -> (target - n) * L <= LIQ_ONE * x.
Proof.
  intros Hc HL Hx Ha Hlt H. unfold MIN_SQRT_PRICE in *.
  apply delta_x_up in Ha as (_ & Hd & Ha); [|lia|lia].
  pose proof (numx_spec target cur L) as HN.
  pose proof (floor_spec (target * cur) SP_ONE ltac:(reflexivity)) as HD.
  set (d := target * cur / SP_ONE) in *. set (N := numx target cur L) in *. clearbody d N.
  rewrite Z.abs_neq in HN by lia.
  unfold get_next_sqrt_price_from_input in H.
  destruct (Z.eq_dec x 0) as [->|Hx0].
  - unfold get_next_sqrt_price_x_up in H. cbn in H. apply Ok_inj in H. subst n. assert ((target - cur) * L <= 0) by nia. lia.
  - apply next_x_in in H as (Hn & H); [|lia|lia|lia].
    pose proof (pl_up_spec cur L) as HP. set (p := pl_up cur L) in *. clearbody p.
    assert (d * x <= d * (a - 1)) by (apply Z.mul_le_mono_nonneg_l; lia).
    assert (target * cur * x <= SP_ONE * (d + 1) * x) by (apply Z.mul_le_mono_nonneg_r; lia).
    assert (K : (target - n) * (L * E18 + cur * x) <= SP_ONE * x - SP_ONE)
      by (unfold LIQ_ONE, SP_ONE, E18 in *; lia).
    destruct (Z.le_gt_cases (target - n) 0) as [Q|Q]. { assert ((target - n) * L <= 0) by nia. unfold LIQ_ONE. lia. }
    assert (0 <= (target - n) * (cur * x)) by (apply Z.mul_nonneg_nonneg; [lia|apply Z.mul_nonneg_nonneg; lia]).
    unfold LIQ_ONE, SP_ONE, E18 in *. lia.
Qed.

(** what a rising step pays, against a step that goes farther *)
Lemma gain_farther cur t t' L o o' : MIN_SQRT_PRICE <= cur -> cur <= t <= t' -> 0 <= L ->
  get_delta_x cur t L false = Ok o -> get_delta_x cur t' L false = Ok o' -> 10 ^ 14 * (o - o' - 1) <= o.
Proof.
  intros HC HT HL H H'. unfold MIN_SQRT_PRICE in *. apply delta_x_down in H, H'; [|lia..]. cbv zeta in H, H'.
  destruct H as (R & D & H & _), H' as (R' & D' & _ & H').
  pose proof (numx_spec cur t L) as N. pose proof (numx_spec cur t' L) as N'.
  pose proof (ceil_spec (cur * t) SP_ONE ltac:(reflexivity)) as C. pose proof (ceil_spec (cur * t') SP_ONE ltac:(reflexivity)) as C'.
  set (n := numx cur t L) in *. set (n' := numx cur t' L) in *. clearbody n n'.
  set (q := (cur * t + (SP_ONE - 1)) / SP_ONE) in *. set (q' := (cur * t' + (SP_ONE - 1)) / SP_ONE) in *. clearbody q q'.
  rewrite Z.abs_neq in N, N' by lia. change (10 ^ 14) with 100000000000000.
  destruct (Z.le_gt_cases o o') as [|GT]; [lia|].
  (* o cur t <= (t - cur) L 10^18 and (t' - cur) L 10^18 < (cur t' + 10^24)(o' + 1) *)
  assert (A : o * (cur * t) <= (t - cur) * L * E18).
  { assert (cur * t * o <= SP_ONE * q * o) by (apply Z.mul_le_mono_nonneg_r; lia). unfold SP_ONE, LIQ_ONE, E18 in *. lia. }
  assert (B : (t' - cur) * L * E18 <= (cur * t' + SP_ONE) * (o' + 1)).
  { assert (SP_ONE * q' * (o' + 1) <= (cur * t' + SP_ONE) * (o' + 1)) by (apply Z.mul_le_mono_nonneg_r; unfold SP_ONE in *; lia).
    unfold SP_ONE, LIQ_ONE, E18 in *. lia. }
  assert (E : (t - cur) * t' <= (t' - cur) * t) by nia.
  assert (LE : 0 <= L * E18) by (unfold E18; lia).
  assert (F : (t - cur) * t' * (L * E18) <= (t' - cur) * t * (L * E18)) by (apply Z.mul_le_mono_nonneg_r; lia).
  assert (A' : o * (cur * t) * t' <= (t - cur) * L * E18 * t') by (apply Z.mul_le_mono_nonneg_r; lia).
  assert (B' : (t' - cur) * L * E18 * t <= (cur * t' + SP_ONE) * (o' + 1) * t) by (apply Z.mul_le_mono_nonneg_r; lia).
  assert (X : t * (o * (cur * t')) <= t * ((cur * t' + SP_ONE) * (o' + 1))) by lia.
  apply Z.mul_le_mono_pos_l in X; [|lia].
  assert (M : 15258932000000000000 * 15258932000000000000 <= cur * t') by (apply Z.mul_le_mono_nonneg; lia).
  set (m := cur * t') in *. clearbody m.
  assert (Y : 15258932000000000000 * 15258932000000000000 * (o - o' - 1) <= m * (o - o' - 1)) by (apply Z.mul_le_mono_nonneg_r; lia).
  assert (W : m * (o - o' - 1) <= SP_ONE * (o' + 1)) by lia. unfold SP_ONE in *. lia.
Qed.

(** [smaller d by_in r r']: what the step with the smaller amount did, against the step with the bigger one *)
Definition smaller (d by_in : bool) (r r' : swap_result) : Prop :=
  if by_in then
    if d then sr_out r <= sr_out r' + 1 /\ sr_next r' <= sr_next r + 65536
    else 10 ^ 14 * (sr_out r - sr_out r' - 1) <= sr_out r /\ sr_next r <= sr_next r'
  else sr_in r + sr_fee r <= sr_in r' + sr_fee r' /\ sr_next r' <= sr_next r.

Lemma step_twin cur sl L a a' (d by_in : bool) fee r r' : step_args cur sl L a fee -> step_args cur sl L a' fee -> a < a' ->
  (if d then sl <= cur else cur < sl) -> by_in = true \/ d = true -> (by_in = true -> d = true -> a' <= 10 ^ 14) ->
  compute_swap_step cur sl L a by_in fee = Ok r -> compute_swap_step cur sl L a' by_in fee = Ok r' ->
  r = r' \/ ((if by_in then sr_in r + sr_fee r else sr_out r) = a /\ smaller d by_in r r').
Proof.
  intros SA SA' AA SD M SM ST ST'. destruct (Z.eq_dec L 0) as [->|L0].
  { left. unfold compute_swap_step in ST, ST'. cbn in ST, ST'. congruence. }
  pose proof (step_next_pos _ _ _ _ _ _ _ SA ST) as NP. pose proof (step_next_pos _ _ _ _ _ _ _ SA' ST') as NP'.
  destruct SA as (A1 & A2 & A3 & A4 & A5). clear SA'.
  assert (D : (sl <=? cur) = d) by (destruct d; [apply Z.leb_le|apply Z.leb_gt]; lia).
  assert (HM : MIN_SQRT_PRICE <= cur) by (unfold MIN_SQRT_PRICE; lia).
  apply step_inv in ST, ST'; [|done..]. destruct ST as [N I (o & O & OE) F], ST' as [N' I' (o' & O' & OE') F']. rewrite D in *.
  assert (LP : 0 < L) by lia.
  destruct by_in.
  - destruct N as [(_ & x & b & PC & X & B & N)|(? & _)]; [|done]. destruct N' as [(_ & x' & b' & _ & X' & B' & N')|(? & _)]; [|done].
    rewrite B in B'. apply Ok_inj in B'. subst b'.
    assert (XX : x <= x') by (eapply floor_mono; [|exact (Z.lt_le_incl _ _ AA)|exact X|exact X']; lia).
    pose proof (proj1 (floor_pct _ _ _ X)) as X0. pose proof (proj1 (floor_pct _ _ _ X')) as X0'.
    assert (XA' : x' <= a').
    { apply floor_pct in X'. unfold PCT_ONE in *. assert (a' * (1000000000000 - fee) <= a' * 1000000000000) by (apply Z.mul_le_mono_nonneg_l; lia). lia. }
    destruct (Z.eq_dec (sr_next r) sl) as [Q|Q], (Z.eq_dec (sr_next r') sl) as [Q'|Q'].
    + left. rewrite Q in *. rewrite Q' in *. destruct F as [(_ & ? & _)|[_ F]]; [done|]. destruct F' as [(_ & ? & _)|[_ F']]; [done|].
      rewrite I in I'. apply Ok_inj in I'. rewrite O in O'. apply Ok_inj in O'. rewrite I' in F. rewrite F in F'. apply Ok_inj in F'.
      destruct r as [n1 i1 o1 f1], r' as [n2 i2 o2 f2]; cbn in *. congruence.
    + exfalso. destruct N' as [[_ ?]|[NL' N']]; [done|]. destruct N as [[? _]|[NL N]]; [lia|]. destruct d.
      * assert (sr_next r' <= sr_next r) by (eapply nin_down_mono; [exact HM|exact LP| |exact N|exact N']; lia).
        rewrite Q in N. pose proof (partial_in_down cur L x sl b HM LP ltac:(lia) ltac:(lia) N B) as PD. specialize (SM eq_refl eq_refl).
        destruct (Z.eq_dec x x') as [<-|NX]. { rewrite N in N'. apply Ok_inj in N'. congruence. }
        assert (DL : 10 ^ 14 <= sl * cur / SP_ONE).
        { apply Z.div_le_lower_bound; [reflexivity|]. transitivity (15258932000000000000 * 15258932000000000000); [unfold SP_ONE; lia|]. apply Z.mul_le_mono_nonneg; lia. }
        assert (sl * cur / SP_ONE * 1 <= sl * cur / SP_ONE * (b - 1 - x)) by (apply Z.mul_le_mono_nonneg_l; lia). lia.
      * pose proof (next_in_target_up cur sl L x (sr_next r) b ltac:(lia) LP ltac:(lia) B NL N). lia.
    + right. destruct F as [(_ & _ & F & _)|[[?|?] _]]; [|done..]. split; [lia|]. rewrite Q' in *. cbn. destruct N as [[_ ?]|[NL N]]; [done|].
      pose proof (next_in_side cur L x d (sr_next r) HM LP ltac:(lia) N) as SI. destruct d.
      * pose proof (next_in_target_down cur sl L x (sr_next r) b ltac:(unfold MIN_SQRT_PRICE; lia) LP ltac:(lia) B NL N) as OV.
        pose proof (overshoot cur sl L x (sr_next r) b ltac:(unfold MIN_SQRT_PRICE; lia) LP ltac:(lia) B NL N) as OL. specialize (SM eq_refl eq_refl).
        rewrite OE, OE'. unfold delta_out in *. apply delta_y_down in O, O'. rewrite Z.abs_neq in O, O' by lia. split.
        -- unfold E30, LIQ_ONE in *. lia.
        -- destruct (Z.le_gt_cases sl (sr_next r)); [lia|].
           assert ((sl - sr_next r) * 15258932000000000000 <= (sl - sr_next r) * cur) by (apply Z.mul_le_mono_nonneg_l; lia). unfold SP_ONE in *. lia.
      * pose proof (next_in_target_up cur sl L x (sr_next r) b ltac:(lia) LP ltac:(lia) B NL N) as OV. rewrite OE, OE'. split; [|lia].
        eapply (gain_farther cur (sr_next r) sl L); [done|lia|lia|exact O|exact O'].
    + right. destruct F as [(_ & _ & F & _)|[[?|?] _]]; [|done..]. split; [lia|]. destruct N as [[_ ?]|[NL N]]; [done|]. destruct N' as [[_ ?]|[NL' N']]; [done|]. cbn.
      pose proof (next_in_side cur L x d (sr_next r) HM LP ltac:(lia) N) as SI. rewrite OE, OE'. destruct d.
      * pose proof (nin_down_mono _ _ _ _ _ _ HM LP (conj (proj1 X0) XX) N N') as NN. split; [|lia].
        assert (o <= o') by (eapply (delta_out_farther cur (sr_next r) (sr_next r') L); [lia|lia|exact O|exact O']). lia.
      * pose proof (nin_up_mono cur L _ _ _ _ ltac:(lia) LP (conj (proj1 X0) XX) N N') as NN. split; [|done].
        eapply (gain_farther cur (sr_next r) (sr_next r') L); [done|lia|lia|exact O|exact O'].
  - destruct M as [?|M]; [done|]. subst d. destruct N as [(? & _)|(_ & b & B & N)]; [done|]. destruct N' as [(? & _)|(_ & b' & B' & N')]; [done|].
    rewrite B in B'. apply Ok_inj in B'. subst b'.
    destruct F as [(? & _)|[_ F]]; [done|]. destruct F' as [(? & _)|[_ F']]; [done|].
    destruct N as [[NL N]|[NL N]].
    + left. destruct N' as [[NL' N']|[NL' _]]; [|lia]. rewrite N in *. rewrite N' in *. rewrite B in O, O'. apply Ok_inj in O, O'.
      rewrite I in I'. apply Ok_inj in I'. rewrite I' in F. rewrite F in F'. apply Ok_inj in F'.
      destruct r as [n1 i1 o1 f1], r' as [n2 i2 o2 f2]; cbn in *. f_equal; [congruence|congruence| |congruence]. lia.
    + right. cbn. pose proof (next_out_side cur L a true (sr_next r) HM LP ltac:(lia) N) as SI. cbn in SI.
      pose proof (partial_out_down cur L a (sr_next r) o ltac:(lia) LP ltac:(lia) N O). split; [lia|].
      assert (NN : sr_next r' <= sr_next r).
      { destruct N' as [[_ N']|[NL' N']].
        - rewrite N'. eapply (next_out_target_down cur sl L a _ b); [lia|done|lia|exact B|done|exact N].
        - eapply nout_down_mono; [| |split; [|exact (Z.lt_le_incl _ _ AA)]|exact N|exact N']; lia. }
      split; [|done].
      assert (II : sr_in r <= sr_in r') by (eapply (delta_in_farther true cur (sr_next r) (sr_next r') L); [..|exact I|exact I']; cbn; lia).
      pose proof (fee_mono (sr_in r) (sr_in r') fee (sr_fee r) (sr_fee r') ltac:(lia) II F F'). lia.
Qed.

(** ** One iteration, two amounts *)
Lemma enough_mono rm rm' P L fee (by_in : bool) en en' : MIN_SQRT_PRICE <= P -> 0 <= L -> 0 <= rm < rm' -> 0 <= PCT_ONE - fee ->
  is_enough_amount_to_change_price rm P L fee by_in true = Ok en ->
  is_enough_amount_to_change_price rm' P L fee by_in true = Ok en' -> en = true -> en' = true.
Proof.
  intros HP HL RR FE H H' ->. unfold is_enough_amount_to_change_price in *. destruct (Z.eqb_spec L 0) as [|L0]; [congruence|].
  inv_bind H as n E. inv_bind H' as n' E'. apply Ok_inj in H, H'. subst en'. apply negb_true_iff, Z.eqb_neq. apply negb_true_iff, Z.eqb_neq in H.
  destruct by_in.
  - inv_bind E as c EC. inv_bind E as x EX. inv_bind E' as c' EC'. inv_bind E' as x' EX'. rewrite EC in EC'. apply Ok_inj in EC'. subst c'.
    apply pct_complement_ok in EC. destruct EC as [-> _].
    assert (XX : x <= x') by (eapply (floor_mono rm rm'); [exact FE|lia|exact EX|exact EX']).
    pose proof (proj1 (floor_pct _ _ _ EX)) as X0.
    pose proof (next_in_side P L x true n HP ltac:(lia) ltac:(lia) E) as S1. cbn in S1.
    pose proof (nin_down_mono P L x x' n n' HP ltac:(lia) ltac:(lia) E E'). lia.
  - unfold get_next_sqrt_price_from_output, MIN_SQRT_PRICE in *. apply next_y_out in E'; [|lia..]. unfold E30 in *. nia.
Qed.

Lemma update_twin p r sl tk rm rm' (by_in d : bool) now f ft p1 tk1 add rm1 c p1' tk1' add' rm1' c' :
  MIN_SQRT_PRICE <= sr_next r -> 0 <= p_liq p -> 0 <= rm < rm' -> 0 <= PCT_ONE - ft_fee ft -> by_in = true \/ d = true ->
  pool_update_tick p r sl tk rm by_in d now f ft = Ok (p1, tk1, add, rm1, c) ->
  pool_update_tick p r sl tk rm' by_in d now f ft = Ok (p1', tk1', add', rm1', c') ->
  (p1 = p1' /\ add = 0 /\ add' = 0 /\ rm1 < rm1') \/
  (rm1 = 0 /\ (by_in = false -> add = 0)) \/
  (by_in = true /\ d = true /\ exists i, tk = TickUninitialized i /\ sl = sr_next r /\ add = 0 /\ add' = 0 /\ rm1 = rm /\ rm1' = rm' /\
     p1 = p_set_tick p i /\ p1' = p_set_tick p (i - ft_spacing ft) /\
     is_enough_amount_to_change_price rm (sr_next r) (p_liq p) (ft_fee ft) true true = Ok false).
Proof.
  intros HP HL RR FE M H H'. unfold pool_update_tick in H, H'.
  destruct ((match tk with NoTick => true | _ => false end) || negb (sl =? sr_next r)) eqn:B.
  { inv_bind H as j E. inv_bind H' as j' E'. rewrite E in E'. apply Ok_inj in E'. subst j'.
    apply Ok_inj in H, H'. injection H as <- <- <- <- <-. injection H' as <- <- <- <- <-. left. lia || (split; [done|lia]). }
  apply orb_false_iff in B. destruct B as [B1 B2]. apply negb_false_iff, Z.eqb_eq in B2.
  inv_bind H as en EN. inv_bind H' as en' EN'.
  inv_bind H as [[[[[q u] tot] m] x] ix] E. inv_bind H' as [[[[[q' u'] tot'] m'] x'] ix'] E'.
  apply Ok_inj in H, H'. injection H as <- <- <- <- <-. injection H' as <- <- <- <- <-.
  destruct d.
  - pose proof (enough_mono _ _ _ _ _ _ _ _ HP HL RR FE EN EN') as EM. cbn [andb negb orb] in *.
    destruct tk as [|t|i]; [done| |].
    + destruct en.
      * rewrite (EM eq_refl) in *. inv_bind E as [t1 q1] E1. inv_bind E' as [t2 q2] E2. rewrite E1 in E2. apply Ok_inj in E2. injection E2 as <- <-.
        apply Ok_inj in E, E'. injection E as <- <- <- <- <- <-. injection E' as <- <- <- <- <- <-. left. split; [done|lia].
      * right. left. destruct (Z.eqb_spec rm 0) as [Q|Q]; cbn [negb] in E.
        { apply Ok_inj in E. injection E as <- <- <- <- <- <-. done. }
        destruct by_in; [inv_bind E as q1 E1|]; apply Ok_inj in E; injection E as <- <- <- <- <- <-; done.
    + apply Ok_inj in E, E'. injection E as <- <- <- <- <- <-. injection E' as <- <- <- <- <- <-.
      destruct en.
      * rewrite (EM eq_refl). left. split; [done|lia].
      * destruct by_in.
        -- destruct en'; [|left; split; [done|lia]]. right. right. split; [done|]. split; [done|]. exists i. done.
        -- right. left. split; [|done]. destruct (Z.eq_dec rm 0); [done|]. exfalso.
           pose proof (proj2 (enough_true rm (sr_next r) (p_liq p) (ft_fee ft) false false HL HP ltac:(lia) EN) eq_refl ltac:(lia)). done.
  - destruct tk as [|t|i]; [done| |]; cbn [andb negb orb] in *.
    + inv_bind E as [t1 q1] E1. inv_bind E' as [t2 q2] E2. rewrite E1 in E2. apply Ok_inj in E2. injection E2 as <- <-.
      apply Ok_inj in E, E'. injection E as <- <- <- <- <- <-. injection E' as <- <- <- <- <- <-. left. split; [done|lia].
    + apply Ok_inj in E, E'. injection E as <- <- <- <- <- <-. injection E' as <- <- <- <- <- <-. left. split; [done|lia].
Qed.

(** the same swap with a bigger amount left *)
Record twin (w v : swap_state) : Prop := {
  tw_pool : sw_pool w = sw_pool v;
  tw_in : sw_in w = sw_in v;
  tw_out : sw_out w = sw_out v;
  tw_rem : sw_remaining w < sw_remaining v
}.
(** the swap with the smaller amount has ended in [w], the other got to [v] *)
Definition ended (d by_in : bool) (w v : swap_state) : Prop :=
  if by_in then
    if d then sw_out w <= sw_out v + 1 /\ p_price (sw_pool v) <= p_price (sw_pool w) + 65536
    else 10 ^ 14 * (sw_out w - sw_out v - 1) <= sw_out w /\ p_price (sw_pool w) <= p_price (sw_pool v)
  else sw_in w <= sw_in v /\ p_price (sw_pool v) <= p_price (sw_pool w).
(** the smaller amount is too small to move the price away from an uninitialized tick, the bigger one is not *)
Record stuck (s : store) (k : pool_key) (w v : swap_state) : Prop := {
  st_legal : legal_tick (spacing k) (p_tick (sw_pool w));
  st_none : ~ is_init s k (spacing k) (p_tick (sw_pool w));
  st_at : p_price (sw_pool w) = tprice (p_tick (sw_pool w));
  st_tick : p_tick (sw_pool v) = p_tick (sw_pool w) - spacing k;
  st_price : p_price (sw_pool v) = p_price (sw_pool w);
  st_liq : p_liq (sw_pool v) = p_liq (sw_pool w);
  st_out : sw_out v = sw_out w;
  st_rem : 0 <= sw_remaining w < sw_remaining v;
  st_small : is_enough_amount_to_change_price (sw_remaining w) (p_price (sw_pool w)) (p_liq (sw_pool w)) (ft_fee (pk_tier k)) true true = Ok false
}.

Lemma closer_down s lim c sp k sl li : chunks_u64 s -> 1 <= sp -> legal_tick sp c ->
  get_closer_limit s lim true c sp k = Ok (sl, li) ->
  exists t, legal_tick sp t /\ t <= c /\ (forall j, t < j <= c -> ~ is_init s k sp j) /\ (is_init s k sp c \/ t < c) /\
    sl = Z.max (tprice t) lim /\ down_limit sp c <= t /\ (is_init s k sp t \/ t = down_limit sp c).
Proof.
  intros U H L E. unfold get_closer_limit in E. cbn [negb] in E. inv_bind E as cl EC. inv_bind E as [t init] ET. inv_bind E as pr EP.
  apply calculate_sqrt_price_inv in EP. destruct EP as [_ ->].
  destruct (prev_initialized_spec s k sp c U H L) as (r & R1 & R2). rewrite R1 in EC. apply Ok_inj in EC. subst cl.
  assert (SL : sl = Z.max (tprice t) lim) by (cbn [andb orb] in E; rewrite orb_false_r in E; destruct (Z.ltb_spec lim (tprice t)); apply Ok_inj in E; injection E as <- _; lia).
  exists t. destruct r as [i|]; cbn in R2.
  - apply Ok_inj in ET. injection ET as <- <-. destruct R2 as (A & B & C). split; [by eapply is_init_legal|]. split; [lia|]. split; [exact C|].
    split; [|split; [done|]; split; [lia|by left]]. destruct (Z.eq_dec i c) as [->|]; [by left|right; lia].
  - rewrite search_limit_down in ET by (try apply L; done). destruct (Z.eqb_spec c (down_limit sp c)) as [|NE]; [done|].
    apply Ok_inj in ET. injection ET as <- <-. destruct (down_limit_legal sp c H L) as [D1 D2].
    split; [done|]. split; [lia|]. split; [intros j J; apply R2; lia|]. split; [right; lia|]. split; [done|]. split; [lia|by right].
Qed.
Lemma down_limit_mono sp c c' : 1 <= sp -> c <= c' -> down_limit sp c <= down_limit sp c'.
Proof.
  intros S C. unfold down_limit. apply Z.mul_le_mono_nonneg_r; [lia|]. pose proof (Z.div_le_mono c c' sp ltac:(lia) C). lia.
Qed.

(** everything an iteration needs to know about its step *)
Lemma iter_step s now k (d by_in : bool) lim w w' sl li : store_geo s k -> loop_inv k d lim w -> sw_remaining w <> 0 ->
  get_closer_limit s lim d (p_tick (sw_pool w)) (spacing k) k = Ok (sl, li) ->
  swap_iter s now k d by_in lim (end_tick d k) w = Ok w' ->
  step_args (p_price (sw_pool w)) sl (p_liq (sw_pool w)) (sw_remaining w) (ft_fee (pk_tier k)) /\
  (if d then sl <= p_price (sw_pool w) else p_price (sw_pool w) < sl).
Proof.
  intros G I NR CL H. pose proof (loop_pre s k d lim w G I NR) as PRE. pose proof (iter_cases _ _ _ _ _ _ _ _ _ H PRE) as (t0 & _ & sl0 & r0 & _ & _ & _ & _ & (SA1 & _ & SA3) & _).
  destruct PRE as [U HS HF HL HW HR HLim HRem]. pose proof HW as (WL & WP & WU).
  apply closer_limit in CL; [|done|lia|done]. destruct CL as (t & init & T & CL). fold (spacing k) in *.
  assert (SL : sl = if d then Z.max (tprice t) lim else Z.min (tprice t) lim).
  { destruct CL as [(_ & -> & X)|(_ & -> & X)]; destruct d; lia. }
  assert (SIDE : if d then sl <= p_price (sw_pool w) else p_price (sw_pool w) < sl).
  { subst sl. destruct T as (TL1 & _ & T). destruct d.
    - pose proof (legal_price_le _ _ _ TL1 WL ltac:(lia)). lia.
    - destruct (HR eq_refl) as (_ & _ & R3). assert (S1 : 1 <= spacing k) by lia. pose proof (legal_top _ _ S1 TL1).
      pose proof (legal_gap _ _ _ S1 WL TL1 ltac:(lia)). specialize (R3 ltac:(lia)).
      pose proof (legal_price_le _ _ _ (legal_next _ _ S1 WL ltac:(lia)) TL1 ltac:(lia)). lia. }
  split; [|exact SIDE]. pose proof (legal_price_range _ _ (proj1 T)) as TR.
  split; [exact SA1|]. split; [|exact SA3]. unfold MIN_SQRT_PRICE, MAX_SQRT_PRICE in *. subst sl. destruct d; lia.
Qed.

Lemma is_enough_false rm P L fee : is_enough_amount_to_change_price rm P L fee true true = Ok false ->
  L <> 0 /\ exists x, big_mul PCT_ONE rm (PCT_ONE - fee) = Ok x /\ get_next_sqrt_price_from_input P L x true = Ok P.
Proof.
  unfold is_enough_amount_to_change_price. destruct (Z.eqb_spec L 0) as [|L0]; [done|]. intros H. split; [done|].
  inv_bind H as n E. apply Ok_inj in H. apply negb_false_iff, Z.eqb_eq in H. subst n.
  inv_bind E as c EC. inv_bind E as x EX. apply pct_complement_ok in EC. destruct EC as [-> _]. eauto.
Qed.

(** an amount too small to move the price can only reach targets one price unit away *)
Lemma small_reach P t L x a : MIN_SQRT_PRICE <= t -> t < P -> 0 < L -> 0 <= x ->
  get_next_sqrt_price_from_input P L x true = Ok P -> get_delta_x t P L true = Ok a -> a <= x -> L * (P - t - 1) < 2 * LIQ_ONE.
Proof.
  intros HT TP HL HX N A AX. unfold MIN_SQRT_PRICE in *. apply delta_x_up in A; [|lia..]. destruct A as (A0 & D & _ & A).
  pose proof (numx_spec t P L) as NS. rewrite Z.abs_neq in NS by lia.
  pose proof (floor_spec (t * P) SP_ONE ltac:(reflexivity)) as DS. set (n := numx t P L) in *. set (q := t * P / SP_ONE) in *. clearbody n q.
  unfold get_next_sqrt_price_from_input in N. destruct (Z.eq_dec x 0) as [->|X0].
  { assert (n <= 0) by (assert (a = 0) by lia; subst a; lia). unfold LIQ_ONE in *. lia. }
  apply next_x_in in N; [|lia..]. destruct N as (_ & N & _). pose proof (pl_up_spec P L) as PU. set (u := pl_up P L) in *. clearbody u.
  assert (Q1 : (P - 1) * (P * x) < L * E18 + SP_ONE) by (unfold LIQ_ONE, SP_ONE, E18 in *; lia).
  assert (Q2 : q * a <= q * x) by (apply Z.mul_le_mono_nonneg_l; lia).
  assert (Q3 : SP_ONE * q * x <= t * P * x) by (apply Z.mul_le_mono_nonneg_r; lia).
  assert (Q4 : t * (P * x) <= (P - 1) * (P * x)) by (apply Z.mul_le_mono_nonneg_r; [apply Z.mul_nonneg_nonneg|]; lia).
  unfold LIQ_ONE, SP_ONE, E18 in *. lia.
Qed.

Lemma iter_amounts s now k (d by_in : bool) lim tl w w' : swap_iter s now k d by_in lim tl w = Ok w' ->
  exists sl li r, get_closer_limit s lim d (p_tick (sw_pool w)) (spacing k) k = Ok (sl, li) /\
    compute_swap_step (p_price (sw_pool w)) sl (p_liq (sw_pool w)) (sw_remaining w) by_in (ft_fee (pk_tier k)) = Ok r /\
    p_price (sw_pool w') = sr_next r /\ sw_out w' = sw_out w + sr_out r /\ sw_in w + (sr_in r + sr_fee r) <= sw_in w'.
Proof.
  intros H. apply swap_iter_inv in H. destruct H as (sl & li & r & p0 & tk & p1 & tk' & ad & rm0 & rm1 & c & CL & ST & E0 & R0 & AF & NL & LT & UT & -> & _).
  exists sl, li, r. split; [exact CL|]. split; [exact ST|]. cbn. rewrite (pool_update_tick_price _ _ _ _ _ _ _ _ _ _ _ _ _ _ _ UT).
  apply pool_update_tick_amounts in UT; [|done]. split; [done|]. split; [done|lia].
Qed.

(** a swap that is stuck ends where it is *)
Lemma stuck_run s now k lim w v wf vf : store_geo s k -> loop_inv k true lim w -> loop_inv k true lim v -> stuck s k w v ->
  run s now k true true lim w wf -> run s now k true true lim v vf ->
  sw_out wf = sw_out w /\ p_price (sw_pool wf) = p_price (sw_pool w).
Proof.
  intros G I J [S1 S2 S3 S4 S5 S6 S7 S8 S9] RW RV. destruct RW as [w Z0|w w1 w2 NZ E RW]; [done|].
  pose proof (iter_amounts _ _ _ _ _ _ _ _ _ E) as (sl & li & r & CL & ST & PR & OU & _).
  pose proof (iter_step _ _ _ _ _ _ _ _ _ _ G I NZ CL E) as [SA SD].
  pose proof (loop_pre s k true lim w G I NZ) as [U HS HF HL HW _ HLim HRem]. fold (spacing k) in HS.
  pose proof (closer_down _ _ _ _ _ _ _ U (proj1 HS) S1 CL) as (t & T1 & T2 & T3 & T4 & T5 & T6 & T7).
  destruct T4 as [?|T4]; [done|]. pose proof (legal_price_lt _ _ _ T1 S1 T4) as TP. rewrite <- S3 in TP.
  assert (SL : sl < p_price (sw_pool w)) by lia.
  destruct (is_enough_false _ _ _ _ S9) as (L0 & x & X & NX). pose proof (proj1 (floor_pct _ _ _ X)) as X0.
  pose proof ST as ST0. apply step_inv in ST; [|done]. destruct ST as [N IN (o & O & OE) F].
  assert (DD : (sl <=? p_price (sw_pool w)) = true) by (apply Z.leb_le; lia). rewrite DD in *.
  destruct N as [(_ & x1 & a & PC & X1 & A & N)|(? & _)]; [|done]. rewrite X in X1. apply Ok_inj in X1. subst x1.
  destruct SA as (B1 & B2 & B3 & B4 & B5).
  destruct N as [[AX N]|[XA N]].
  - (* the target is reached: it must be the limit *)
    exfalso. pose proof (small_reach (p_price (sw_pool w)) sl (p_liq (sw_pool w)) x a ltac:(unfold MIN_SQRT_PRICE; lia) SL ltac:(lia) ltac:(lia) NX A AX) as SR.
    assert (SLL : sl = lim).
    { destruct (Z.le_gt_cases (tprice t) lim) as [Q|Q]; [lia|]. exfalso. assert (sl = tprice t) as -> by lia. rewrite S3 in SR, TP.
      destruct (tprice_mult t) as [m1 M1], (tprice_mult (p_tick (sw_pool w))) as [m2 M2]. rewrite M1, M2 in SR, TP. unfold FP_ONE, LIQ_ONE in *.
      assert (1000000000000 <= m2 * 1000000000000 - m1 * 1000000000000) by lia.
      assert (1 * (1000000000000 - 1) <= p_liq (sw_pool w) * (m2 * 1000000000000 - m1 * 1000000000000 - 1)) by (apply Z.mul_le_mono_nonneg; lia). lia. }
    destruct RV as [v Z0|v v1 v2 NZ' E' RV]; [lia|].
    pose proof (iter_amounts _ _ _ _ _ _ _ _ _ E') as (sl' & li' & r' & CL' & ST' & _).
    pose proof (loop_pre s k true lim v G J NZ') as [_ _ _ _ (VL & _) _ _ HRem'].
    pose proof (closer_down _ _ _ _ _ _ _ U (proj1 HS) VL CL') as (t' & T1' & T2' & T3' & T4' & T5' & T6' & T7').
    assert (TT : t' <= t).
    { destruct (Z.le_gt_cases t' t) as [|Q]; [done|]. exfalso. destruct T7' as [T7'|T7']; [by apply (T3 t' ltac:(lia))|].
      pose proof (down_limit_mono (spacing k) (p_tick (sw_pool v)) (p_tick (sw_pool w)) (proj1 HS) ltac:(lia)). lia. }
    pose proof (legal_price_le _ _ _ T1' T1 TT) as PP. assert (SL' : sl' = lim) by lia. clear T5 T5'. subst sl'. rewrite SLL in *. rewrite S5, S6 in ST'.
    apply swap_iter_inv in E, E'. destruct E as (slw & li1 & r1 & p0 & tk & p1 & tk' & ad & rm0 & rm1 & c & CL1 & ST1 & Q1 & Q2 & _).
    destruct E' as (sl' & li1' & r1' & p0' & tk0 & p1' & tk0' & ad' & rm0' & rm1' & c' & CL1' & ST1' & Q1' & _ & _ & NL' & _).
    fold (spacing k) in CL1, CL1'. rewrite CL in CL1. apply Ok_inj in CL1. injection CL1 as <- <-. rewrite CL' in CL1'. apply Ok_inj in CL1'. injection CL1' as <- <-.
    rewrite ST0 in ST1. apply Ok_inj in ST1. subst r1. rewrite S5, S6, ST' in ST1'. apply Ok_inj in ST1'. subst r1'.
    apply step_inv in ST'; [|done]. destruct ST' as [N' IN' _ F']. rewrite DD in *.
    destruct N' as [(_ & x1 & a1 & _ & X1 & A1 & N')|(? & _)]; [|done]. rewrite A in A1. apply Ok_inj in A1. subst a1.
    assert (XX : x <= x1) by (eapply (floor_mono (sw_remaining w) (sw_remaining v)); [|lia|exact X|exact X1]; lia).
    destruct N' as [[_ N']|[? _]]; [|lia]. rewrite N in *. rewrite N' in *. rewrite A in IN, IN'. apply Ok_inj in IN, IN'.
    destruct F as [(_ & ? & _)|[_ F]]; [done|]. destruct F' as [(_ & ? & _)|[_ F']]; [done|]. rewrite <- IN in F. rewrite <- IN', F in F'. apply Ok_inj in F'.
    apply NL'. split; [done|]. lia.
  - rewrite NX in N. apply Ok_inj in N. rewrite <- N in *. unfold delta_out in O. apply delta_y_down in O. rewrite Z.sub_diag in O. cbn in O.
    unfold delta_in in IN. apply delta_x_up in IN; [|lia..]. destruct IN as (I0 & ID & I1 & _). pose proof (numx_spec (p_price (sw_pool w)) (p_price (sw_pool w)) (p_liq (sw_pool w))) as NS.
    rewrite Z.sub_diag in NS. cbn [Z.abs Z.mul] in NS.
    destruct F as [(_ & _ & F & _)|[[?|?] _]]; [|done|lia].
    assert (RM : sw_remaining w1 = 0).
    { apply swap_iter_inv in E. destruct E as (sl1 & li1 & r1 & p0 & tk & p1 & tk' & ad & rm0 & rm1 & c & CL1 & ST1 & Q1 & Q2 & _ & _ & _ & UT & -> & _).
      fold (spacing k) in CL1. rewrite CL in CL1. apply Ok_inj in CL1. injection CL1 as <- <-. rewrite ST0 in ST1. apply Ok_inj in ST1. subst r1. cbn.
      assert (rm0 = 0) by lia. clear Q1. subst rm0. apply pool_update_tick_amounts in UT; [|done]. destruct UT as (UA & ? & ?). specialize (UA eq_refl). lia. }
    inversion RW as [? Z1|]; [|done]. subst w2. rewrite PR, OU. split; [|done]. rewrite OE. unfold E30 in O. lia.
Qed.

Lemma iter_twin s now k (d by_in : bool) lim w v w' v' : store_geo s k -> loop_inv k d lim w -> loop_inv k d lim v -> sw_remaining w <> 0 ->
  twin w v -> by_in = true \/ d = true -> (by_in = true -> d = true -> sw_remaining v <= 10 ^ 14) -> 0 <= sw_out w ->
  swap_iter s now k d by_in lim (end_tick d k) w = Ok w' -> swap_iter s now k d by_in lim (end_tick d k) v = Ok v' ->
  twin w' v' \/ (sw_remaining w' = 0 /\ ended d by_in w' v') \/ (by_in = true /\ d = true /\ stuck s k w' v').
Proof.
  intros G I J NZ [TP TI TO TR] M SM O0 E E'.
  assert (NZ' : sw_remaining v <> 0) by (destruct I; lia).
  pose proof (loop_pre s k d lim w G I NZ) as [U HS HF HL HW _ HLim HRem]. fold (spacing k) in HS. pose proof HW as (WL & _).
  pose proof (iter_effect _ _ _ _ _ _ _ _ G I NZ E) as (_ & OP & _).
  pose proof E as E1. pose proof E' as E1'. apply swap_iter_inv in E1, E1'.
  destruct E1 as (sl & li & r & p0 & tk & p1 & tk' & ad & rm0 & rm1 & c & CL & ST & Q1 & Q2 & AF & NL & LT & UT & -> & _ & _ & OB).
  destruct E1' as (sl' & li' & r' & p0' & tk0 & p1' & tk0' & ad' & rm0' & rm1' & c' & CL' & ST' & Q1' & Q2' & AF' & NL' & LT' & UT' & -> & _).
  fold (spacing k) in CL, CL'. pose proof (iter_step _ _ _ _ _ _ _ _ _ _ G I NZ CL E) as [SA SD]. pose proof (iter_step _ _ _ _ _ _ _ _ _ _ G J NZ' CL' E') as [SA' _].
  cbn [sw_out] in OP. rewrite <- TP in *. rewrite CL in CL'. apply Ok_inj in CL'. injection CL' as <- <-.
  pose proof (step_next_pos _ _ _ _ _ _ _ SA ST) as NP.
  pose proof (step_twin _ _ _ _ _ _ _ _ _ _ SA SA' TR SD M SM ST ST') as [<-|[SP SMA]].
  - rewrite AF in AF'. apply Ok_inj in AF'. subst p0'.
    assert (tk0 = tk) as ->.
    { unfold limiting_tick in LT, LT'. destruct li as [[i []]|]; [|congruence..]. destruct LT as (t1 & T1 & ->), LT' as (t2 & T2 & ->). congruence. }
    pose proof (add_fee_keeps _ _ _ _ _ AF) as (K1 & _ & _).
    pose proof (pool_update_tick_price _ _ _ _ _ _ _ _ _ _ _ _ _ _ _ UT) as PP. pose proof (pool_update_tick_price _ _ _ _ _ _ _ _ _ _ _ _ _ _ _ UT') as PP'.
    destruct (Z.le_gt_cases MIN_SQRT_PRICE (sr_next r)) as [MN|MN].
    + pose proof (update_twin (p_set_price p0 (sr_next r)) r sl tk rm0 rm0' by_in d now (cf_protocol_fee (st_config s)) (pk_tier k) p1 tk' ad rm1 c p1' tk0' ad' rm1' c' MN ltac:(cbn; lia) ltac:(lia) ltac:(lia) M UT UT')
        as [(-> & -> & -> & RR)|[[-> AD]|(-> & -> & i & -> & SN & -> & -> & -> & -> & -> & -> & EN)]].
      * left. constructor; cbn; done || lia.
      * right. left. split; [done|]. apply pool_update_tick_amounts in UT'; [|lia]. unfold ended. cbn. rewrite PP, PP'. cbn. rewrite <- TI, <- TO.
        destruct by_in; [destruct d; (split; [lia|]); lia|]. specialize (AD eq_refl). destruct M as [?| ->]; [done|]. split; lia.
      * right. right. split; [done|]. split; [done|].
        unfold limiting_tick in LT. destruct li as [[j []]|]; [destruct LT as (? & _ & ?); done| |done]. injection LT as ->.
        pose proof (closer_limit _ _ _ _ _ _ _ _ U (proj1 HS) WL CL) as (t & init & (T1 & T2 & _) & [(LI & SL & _)|(? & _)]); [|done]. injection LI as -> <-.
        constructor; cbn; try done; try lia.
    + (* no such step *) exfalso. destruct SA as (B1 & B2 & _). unfold MIN_SQRT_PRICE in MN.
      destruct d.
      * destruct (Z.eq_dec (sr_next r) sl) as [|NS]; [lia|]. pose proof (partial_consumes _ _ _ _ _ _ _ SA' ltac:(lia) ST' NS) as C. destruct by_in; lia.
      * apply C03_step_bounds_partial in ST'; [|done]. destruct ST' as (_ & X & _). specialize (X ltac:(lia)). lia.
  - right. left. assert (rm0 = 0) by lia. clear Q1. subst rm0.
    pose proof (pool_update_tick_price _ _ _ _ _ _ _ _ _ _ _ _ _ _ _ UT) as PP. pose proof (pool_update_tick_price _ _ _ _ _ _ _ _ _ _ _ _ _ _ _ UT') as PP'.
    apply pool_update_tick_amounts in UT'; [|lia]. cbn.
    assert (ZZ : rm1 = 0 /\ ad = 0).
    { clear - UT. unfold pool_update_tick in UT. destruct (_ || _); [inv_bind UT as j E; apply Ok_inj in UT; injection UT as <- <- <- <- <-; done|].
      inv_bind UT as en EN. inv_bind UT as [[[[[q u] tot] m] x] ix] E. apply Ok_inj in UT. injection UT as <- <- <- <- <-.
      destruct tk as [|t|i]; [done| |]; [|apply Ok_inj in E; injection E as <- <- <- <- <- <-; done].
      destruct (negb d || en); [inv_bind E as [t1 q1] E1|cbn in E]; apply Ok_inj in E; injection E as <- <- <- <- <- <-; done. }
    destruct ZZ as [-> ->]. split; [done|]. unfold ended, smaller in *. cbn. rewrite PP, PP'. cbn. rewrite <- TI, <- TO.
    destruct by_in; [destruct d; destruct SMA; (split; [lia|]); lia|]. destruct M as [?| ->]; [done|]. destruct SMA. split; lia.
Qed.

Lemma run_more s now k (d by_in : bool) lim w w' : store_geo s k -> loop_inv k d lim w -> run s now k d by_in lim w w' ->
  sw_in w <= sw_in w' /\ sw_out w <= sw_out w' /\
  (if d then p_price (sw_pool w') <= p_price (sw_pool w) else p_price (sw_pool w) <= p_price (sw_pool w')).
Proof.
  intros G I R. induction R as [w Z0|w w1 w2 NZ E _ IH]; [split; [lia|]; split; [lia|]; destruct d; lia|].
  pose proof (loop_step _ _ _ _ _ _ _ _ G I NZ E) as [PO I1]. specialize (IH I1).
  pose proof (iter_effect _ _ _ _ _ _ _ _ G I NZ E) as (A & B & _). pose proof (io_dir _ _ _ _ _ _ PO). destruct d; lia.
Qed.
Lemma ended_later d by_in w v v' : by_in = true \/ d = true -> ended d by_in w v -> sw_in v <= sw_in v' -> sw_out v <= sw_out v' ->
  (if d then p_price (sw_pool v') <= p_price (sw_pool v) else p_price (sw_pool v) <= p_price (sw_pool v')) -> ended d by_in w v'.
Proof. unfold ended. intros M E A B C. destruct by_in; [destruct d; lia|]. destruct M as [?| ->]; [done|]. lia. Qed.

Lemma run_twin s now k (d by_in : bool) lim w wf : store_geo s k -> by_in = true \/ d = true -> run s now k d by_in lim w wf ->
  forall v vf, loop_inv k d lim w -> loop_inv k d lim v -> twin w v -> 0 <= sw_out w -> (by_in = true -> d = true -> sw_remaining v <= 10 ^ 14) ->
  run s now k d by_in lim v vf -> ended d by_in wf vf.
Proof.
  intros G M R. induction R as [w Z0|w w1 w2 NZ E R IH]; intros v vf I J TW O0 SM RV.
  - pose proof (run_more _ _ _ _ _ _ _ _ G J RV) as (A & B & C). eapply ended_later; [done| |exact A|exact B|exact C].
    destruct TW as [TP TI TO _]. unfold ended. rewrite TP, TI, TO in *. destruct by_in; [destruct d; lia|lia].
  - assert (NV : sw_remaining v <> 0) by (destruct I, TW; lia).
    destruct RV as [v ?|v v1 v2 _ E' RV]; [done|].
    pose proof (loop_step _ _ _ _ _ _ _ _ G I NZ E) as [PO I1]. pose proof (loop_step _ _ _ _ _ _ _ _ G J NV E') as [PO' J1].
    pose proof (iter_effect _ _ _ _ _ _ _ _ G I NZ E) as (_ & OO & _).
    pose proof (run_more _ _ _ _ _ _ _ _ G J1 RV) as (A & B & C).
    pose proof (iter_twin _ _ _ _ _ _ _ _ _ _ G I J NZ TW M SM O0 E E') as [T1|[[Z1 ED]|(-> & -> & SK)]].
    + eapply IH; [exact I1|exact J1|exact T1|lia| |exact RV]. intros X Y. specialize (SM X Y). pose proof (io_rem _ _ _ _ _ _ PO'). lia.
    + inversion R; [|done]. subst. eapply ended_later; [done|exact ED|exact A|exact B|exact C].
    + pose proof (stuck_run _ _ _ _ _ _ _ _ G I1 J1 SK R RV) as [X Y]. destruct SK. unfold ended. rewrite X, Y. lia.
Qed.

Lemma twin_swaps e i i' s k (d by_in : bool) a a' lim s1 m1 at1 s2 m2 at2 p1 p2 : reachable s ->
  execute e i s (Swap k d a by_in lim) = Ok (s1, m1, at1) -> execute e i' s (Swap k d a' by_in lim) = Ok (s2, m2, at2) ->
  st_pools s1 !! k = Some p1 -> st_pools s2 !! k = Some p2 -> a < a' ->
  by_in = true \/ d = true -> (by_in = true -> d = true -> a' <= 10 ^ 14) ->
  exists in1 out1 in2 out2, at1 = [("amount_in", in1); ("amount_out", out1)]%string /\ at2 = [("amount_in", in2); ("amount_out", out2)]%string /\
    if by_in then if d then out1 <= out2 + 1 /\ p_price p2 <= p_price p1 + 65536
                  else 10 ^ 14 * (out1 - out2 - 1) <= out1 /\ p_price p1 <= p_price p2
    else in1 <= in2 /\ p_price p2 <= p_price p1.
Proof.
  intros R H H' P1 P2 AA M SM.
  destruct (execute_swap_inv _ _ _ _ _ _ _ _ _ _ _ R H) as (r & p & C & -> & Ep & Ep1 & Ha & _).
  destruct (execute_swap_inv _ _ _ _ _ _ _ _ _ _ _ R H') as (r' & q & C' & -> & Eq & Eq1 & Ha' & _).
  rewrite Ep in Eq. injection Eq as <-. rewrite P1 in Ep1. injection Ep1 as ->. rewrite P2 in Eq1. injection Eq1 as ->.
  apply reachable_ereach in R. pose proof (ereach_store_geo _ _ _ R Ep) as G. pose proof (ereach_geo _ R _ _ Ep) as PG.
  apply calculate_swap_run in C, C'. destruct C as (p' & w & Ep' & _ & D & RW & _ & ->), C' as (q' & v & Eq' & _ & _ & RV & _ & ->).
  rewrite Ep in Ep', Eq'. injection Ep' as <-. injection Eq' as <-. cbn.
  pose proof (loop_start k d lim p a PG Ha D) as I. pose proof (loop_start k d lim p a' PG Ha' D) as J.
  assert (TW : twin (mkSwapState p a 0 0 0 []) (mkSwapState p a' 0 0 0 [])) by (constructor; done).
  pose proof (run_twin _ _ _ _ _ _ _ _ G M RW _ _ I J TW (Z.le_refl 0) SM RV) as ED. unfold ended in ED.
  eexists _, _, _, _. split; [done|]. split; [done|]. exact ED.
Qed.

(** ** C81: asking for more never costs less *)
(** Of two swaps for an exact output that lower the price, the one for more costs at least as much and lowers the price at least as far.
    Missing from C81: swaps that raise the price, for which it is false, see the counterexample below. *)
Theorem C81_more_out_partial e i i' s k b b' lim s1 m1 in1 out1 p1 s2 m2 in2 out2 p2 : reachable s ->
  execute e i s (Swap k true b false lim) = Ok (s1, m1, [("amount_in", in1); ("amount_out", out1)]%string) -> st_pools s1 !! k = Some p1 ->
  execute e i' s (Swap k true b' false lim) = Ok (s2, m2, [("amount_in", in2); ("amount_out", out2)]%string) -> st_pools s2 !! k = Some p2 ->
  b < b' -> in1 <= in2 /\ p_price p2 <= p_price p1.
Proof.
  intros R H P1 H' P2 AA. destruct (twin_swaps _ _ _ _ _ _ _ _ _ _ _ _ _ _ _ _ _ _ R H H' P1 P2 AA (or_intror eq_refl) ltac:(done)) as (a1 & o1 & a2 & o2 & A1 & A2 & ?).
  injection A1 as -> ->. injection A2 as -> ->. done.
Qed.
Definition mo_tier : fee_tier := mkFeeTier 10000000000 100.
Definition mo_key : pool_key := mkPoolKey "tokenx" "tokeny" mo_tier.
Definition mo_calls : list (string * exec_msg) :=
  [("alice", AddFeeTier mo_tier);
   ("alice", CreatePool "tokenx" "tokeny" mo_tier 1005012269622000000000000 100);
   ("alice", CreatePosition mo_key (-20000) 20000 1000000000000 15258932000000000000 65535383934512647000000000000)]%string.
Definition mo_store : store :=
  match start 10000000000 mo_calls with Ok s => s | _ => mkStore (mkConfig "" [] 0) ∅ ∅ ∅ ∅ ∅ ∅ end.
Lemma mo_store_ok : start 10000000000 mo_calls = Ok mo_store.
Proof. unfold mo_store. destruct (start 10000000000 mo_calls) eqn:E; [reflexivity|exfalso|exfalso];
  assert (is_ok (start 10000000000 mo_calls) = true) as X by (vm_compute; reflexivity); rewrite E in X; discriminate. Qed.
Definition mo_swap (s : store) (k : pool_key) (d : bool) (a : Z) (by_in : bool) : res response :=
  execute v_env (v_info "carol") s (Swap k d a by_in (if d then 15258932000000000000 else 65535383934512647000000000000)).
Definition mo_amounts (s : store) (k : pool_key) (d : bool) (a : Z) (by_in : bool) : list (string * Z) :=
  match mo_swap s k d a by_in with Ok (_, _, l) => l | _ => [] end.
Example ex_C81 : reachable mo_store /\
  mo_amounts mo_store mo_key true 888 false = [("amount_in", 889); ("amount_out", 888)]%string /\
  mo_amounts mo_store mo_key true 889 false = [("amount_in", 890); ("amount_out", 889)]%string.
Proof. split; [eapply start_reachable, mo_store_ok|]. vm_compute. split; reflexivity. Qed.

(** False for swaps that raise the price: the price computed for an output of 888 yields only 887 after rounding.  So the swap takes a second
    step for the last unit, and each step rounds its amounts up.  For 889 one step is enough. *)
Theorem C81_more_out_refuted : exists s k b b' s1 m1 in1 s2 m2 in2, reachable s /\ b < b' /\
  execute v_env (v_info "carol") s (Swap k false b false 65535383934512647000000000000) = Ok (s1, m1, [("amount_in", in1); ("amount_out", b)]%string) /\
  execute v_env (v_info "carol") s (Swap k false b' false 65535383934512647000000000000) = Ok (s2, m2, [("amount_in", in2); ("amount_out", b')]%string) /\
  in2 < in1.
Proof.
  assert (X : match mo_swap mo_store mo_key false 888 false, mo_swap mo_store mo_key false 889 false with
    | Ok (_, _, a1), Ok (_, _, a2) => a1 = [("amount_in", 910); ("amount_out", 888)]%string /\ a2 = [("amount_in", 908); ("amount_out", 889)]%string
    | _, _ => False end) by (vm_compute; split; reflexivity).
  destruct (mo_swap mo_store mo_key false 888 false) as [[[s1 m1] a1]| |] eqn:E1; [|destruct X..].
  destruct (mo_swap mo_store mo_key false 889 false) as [[[s2 m2] a2]| |] eqn:E2; [|destruct X..]. destruct X as [-> ->].
  exists mo_store, mo_key, 888, 889, s1, m1, 910, s2, m2, 908. split; [eapply start_reachable, mo_store_ok|]. split; [done|]. split; [exact E1|]. split; [exact E2|done].
Qed.

(** ** C82: paying more never yields less *)
(** Of two swaps with an exact input that raise the price, the one with the bigger input raises the price at least as far; it yields at least as
    much but for one unit and the 10^14th part.
    Of two that lower the price, with inputs of at most 10^14 units, the one with the bigger input yields at least as much but for one unit,
    and lowers the price as far but for 65536 * 10^-24.
    Missing from C82: these exceptions, and bigger inputs of swaps that lower the price.  See the counterexamples below. *)
Theorem C82_more_in_partial e i i' s k (d : bool) a a' lim s1 m1 in1 out1 p1 s2 m2 in2 out2 p2 : reachable s ->
  execute e i s (Swap k d a true lim) = Ok (s1, m1, [("amount_in", in1); ("amount_out", out1)]%string) -> st_pools s1 !! k = Some p1 ->
  execute e i' s (Swap k d a' true lim) = Ok (s2, m2, [("amount_in", in2); ("amount_out", out2)]%string) -> st_pools s2 !! k = Some p2 ->
  a < a' ->
  if d then a' <= 10 ^ 14 -> out1 <= out2 + 1 /\ p_price p2 <= p_price p1 + 65536
  else 10 ^ 14 * (out1 - out2 - 1) <= out1 /\ p_price p1 <= p_price p2.
Proof.
  intros R H P1 H' P2 AA. destruct d; [intros SM|];
    (destruct (twin_swaps _ _ _ _ _ _ _ _ _ _ _ _ _ _ _ _ _ _ R H H' P1 P2 AA (or_introl eq_refl) ltac:(done)) as (a1 & o1 & a2 & o2 & A1 & A2 & ?);
     injection A1 as -> ->; injection A2 as -> ->; done).
Qed.
Example ex_C82 :
  mo_amounts mo_store mo_key true 1000 true = [("amount_in", 1000); ("amount_out", 998)]%string /\
  mo_amounts mo_store mo_key true 2000 true = [("amount_in", 2000); ("amount_out", 1995)]%string /\
  mo_amounts mo_store mo_key false 1000 true = [("amount_in", 1000); ("amount_out", 979)]%string /\
  mo_amounts mo_store mo_key false 2000 true = [("amount_in", 2000); ("amount_out", 1956)]%string.
Proof. vm_compute. repeat split; reflexivity. Qed.

(** False for swaps that lower the price, by 99 of 999873 units for one unit more: the first input takes the price exactly to the next tick; the swap
    goes on with the part of the input that the fee for that much did not take.  The bigger input is one unit short of what that tick
    is said to take, and takes the price just beyond it; the swap ends there and the rest of the input is the fee. *)
Definition md_tier : fee_tier := mkFeeTier 10000000000 1.
Definition md_key : pool_key := mkPoolKey "tokenx" "tokeny" md_tier.
Definition md_calls : list (string * exec_msg) :=
  [("alice", AddFeeTier md_tier);
   ("alice", CreatePool "tokenx" "tokeny" md_tier 26299182986607431733 (-210930));
   ("alice", CreatePosition md_key (-210932) (-210922) 380000000000000000000 15258932000000000000 65535383934512647000000000000);
   ("alice", CreatePosition md_key (-210942) (-210932) 380000000000000000000 15258932000000000000 65535383934512647000000000000)]%string.
Definition md_store : store :=
  match start 10000000000 md_calls with Ok s => s | _ => mkStore (mkConfig "" [] 0) ∅ ∅ ∅ ∅ ∅ ∅ end.
Lemma md_store_ok : start 10000000000 md_calls = Ok md_store.
Proof. unfold md_store. destruct (start 10000000000 md_calls) eqn:E; [reflexivity|exfalso|exfalso];
  assert (is_ok (start 10000000000 md_calls) = true) as X by (vm_compute; reflexivity); rewrite E in X; discriminate. Qed.
(** ... and for swaps that raise the price, by rounding *)
Definition mu_calls : list (string * exec_msg) :=
  [("alice", AddFeeTier lm_tier);
   ("alice", CreatePool "tokenx" "tokeny" lm_tier 16628270106275927664 (-220100));
   ("alice", CreatePosition lm_key (-220200) (-200100) 50000000000000000000000000 15258932000000000000 65535383934512647000000000000)]%string.
Definition mu_store : store :=
  match start 10000000000 mu_calls with Ok s => s | _ => mkStore (mkConfig "" [] 0) ∅ ∅ ∅ ∅ ∅ ∅ end.
Lemma mu_store_ok : start 10000000000 mu_calls = Ok mu_store.
Proof. unfold mu_store. destruct (start 10000000000 mu_calls) eqn:E; [reflexivity|exfalso|exfalso];
  assert (is_ok (start 10000000000 mu_calls) = true) as X by (vm_compute; reflexivity); rewrite E in X; discriminate. Qed.

Definition yields_less (d : bool) (lim : Z) : Prop := exists s k a s1 m1 out1 s2 m2 out2, reachable s /\
  execute v_env (v_info "carol") s (Swap k d a true lim) = Ok (s1, m1, [("amount_in", a); ("amount_out", out1)]%string) /\
  execute v_env (v_info "carol") s (Swap k d (a + 1) true lim) = Ok (s2, m2, [("amount_in", a + 1); ("amount_out", out2)]%string) /\
  out2 < out1.
Theorem C82_more_in_refuted : yields_less true 15258932000000000000 /\ yields_less false 65535383934512647000000000000.
Proof.
  split.
  - assert (X : match mo_swap md_store md_key true 1460245830852671 true, mo_swap md_store md_key true 1460245830852672 true with
      | Ok (_, _, a1), Ok (_, _, a2) => a1 = [("amount_in", 1460245830852671); ("amount_out", 999873)]%string /\ a2 = [("amount_in", 1460245830852672); ("amount_out", 999774)]%string
      | _, _ => False end) by (vm_compute; split; reflexivity).
    destruct (mo_swap md_store md_key true 1460245830852671 true) as [[[s1 m1] a1]| |] eqn:E1; [|destruct X..].
    destruct (mo_swap md_store md_key true 1460245830852672 true) as [[[s2 m2] a2]| |] eqn:E2; [|destruct X..]. destruct X as [-> ->].
    exists md_store, md_key, 1460245830852671, s1, m1, 999873, s2, m2, 999774. split; [eapply start_reachable, md_store_ok|]. split; [exact E1|]. split; [exact E2|done].
  - assert (X : match mo_swap mu_store lm_key false 594171703743596 true, mo_swap mu_store lm_key false 594171703743597 true with
      | Ok (_, _, a1), Ok (_, _, a2) => a1 = [("amount_in", 594171703743596); ("amount_out", 1251066074542391433868093)]%string /\
          a2 = [("amount_in", 594171703743597); ("amount_out", 1251066074542390903641927)]%string
      | _, _ => False end) by (vm_compute; split; reflexivity).
    destruct (mo_swap mu_store lm_key false 594171703743596 true) as [[[s1 m1] a1]| |] eqn:E1; [|destruct X..].
    destruct (mo_swap mu_store lm_key false 594171703743597 true) as [[[s2 m2] a2]| |] eqn:E2; [|destruct X..]. destruct X as [-> ->].
    exists mu_store, lm_key, 594171703743596, s1, m1, 1251066074542391433868093, s2, m2, 1251066074542390903641927.
    split; [eapply start_reachable, mu_store_ok|]. split; [exact E1|]. split; [exact E2|done].
Qed.
