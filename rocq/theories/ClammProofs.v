(** Rounding behaviour of math/clamm.rs. *)
From Verif Require Import Base Decimal SqrtPrice Clamm Tactics.
From Coq Require Import Lia.
Open Scope Z_scope.

Definition E18 : Z := 1000000000000000000.
Definition E30 : Z := 1000000000000000000000000000000.

(** * Token amounts *)
Definition numx (pa pb L : Z) : Z := Z.abs (pa - pb) * L / LIQ_ONE.

Lemma numx_spec pa pb L : LIQ_ONE * numx pa pb L <= Z.abs (pa - pb) * L < LIQ_ONE * (numx pa pb L + 1).
Proof. apply floor_spec. reflexivity. Qed.

Lemma delta_x_up pa pb L r : 0 <= pa -> 0 <= pb -> get_delta_x pa pb L true = Ok r ->
  0 <= r <= U128MAX /\ 0 < pa * pb / SP_ONE /\
  (pa * pb / SP_ONE) * (r - 1) < numx pa pb L <= (pa * pb / SP_ONE) * r.
Proof.
  intros Ha Hb H. unfold get_delta_x, big_div_values_to_token_up, mul_to_value in H.
  fold (numx pa pb L) in H. set (n := numx pa pb L) in *. set (d := pa * pb / SP_ONE) in *.
  assert (Hd : 0 <= d) by (apply Z.div_pos; [nia|reflexivity]).
  inv_bind H as m Em. apply ck_ok in Em as [-> Hm].
  inv_bind H as d1 Ed. apply ckp_ok in Ed as [-> Hd1].
  inv_bind H as a Ea. apply ck_ok in Ea as [-> Ha1].
  inv_bind H as q Eq. apply cdiv_ok in Eq as [Hd0 ->].
  inv_bind H as q2 Eq. apply ck_ok in Eq as [-> Hq].
  inv_bind H as q3 Eq. apply ck_ok in Eq as [-> Hq3].
  apply ck_ok in H as [-> Hr].
  pose proof (ceil_spec (n * SP_ONE) d ltac:(lia)) as C1.
  set (q := (n * SP_ONE + (d - 1)) / d) in *.
  pose proof (ceil_spec q SP_ONE ltac:(reflexivity)) as C2.
  set (r := (q + (SP_ONE - 1)) / SP_ONE) in *. clearbody q r.
  split; [exact Hr|]. split; [lia|]. unfold SP_ONE in *. nia.
Qed.

Lemma delta_x_down pa pb L r : 0 <= pa -> 0 <= pb -> get_delta_x pa pb L false = Ok r ->
  let d := (pa * pb + (SP_ONE - 1)) / SP_ONE in
  0 <= r <= U128MAX /\ 0 < d /\ d * r <= numx pa pb L < d * (r + 1).
Proof.
  intros Ha Hb H d. unfold get_delta_x, big_div_values_to_token, mul_to_value, mul_to_value_up in H.
  fold (numx pa pb L) in H. fold d in H. set (n := numx pa pb L) in *.
  assert (Hd : 0 <= d) by (apply Z.div_pos; [unfold SP_ONE; nia|reflexivity]). clearbody d.
  inv_bind H as m Em. apply ck_ok in Em as [-> Hm].
  inv_bind H as q Eq. apply cdiv_ok in Eq as [Hd0 ->].
  inv_bind H as q2 Eq. apply ck_ok in Eq as [-> Hq].
  apply ck_ok in H as [-> Hr].
  pose proof (floor_spec (n * SP_ONE) d ltac:(lia)) as C1.
  set (q := n * SP_ONE / d) in *.
  pose proof (floor_spec q SP_ONE ltac:(reflexivity)) as C2.
  set (r := q / SP_ONE) in *. clearbody q r.
  split; [exact Hr|]. split; [lia|]. unfold SP_ONE in *. nia.
Qed.

Lemma delta_y_up pa pb L r : get_delta_y pa pb L true = Ok r ->
  0 <= r <= U128MAX /\ E30 * (r - 1) < Z.abs (pa - pb) * L <= E30 * r.
Proof.
  intros H. unfold get_delta_y, mul_to_value_up in H.
  inv_bind H as a Ea. apply ck_ok in Ea as [-> Ha]. apply ck_ok in H as [-> Hr].
  pose proof (ceil_spec (Z.abs (pa - pb) * L) LIQ_ONE ltac:(reflexivity)) as C1.
  set (q := (Z.abs (pa - pb) * L + (LIQ_ONE - 1)) / LIQ_ONE) in *.
  pose proof (ceil_spec q SP_ONE ltac:(reflexivity)) as C2.
  set (r := (q + (SP_ONE - 1)) / SP_ONE) in *. clearbody q r.
  split; [exact Hr|]. unfold LIQ_ONE, SP_ONE, E30 in *. lia.
Qed.

Lemma delta_y_down pa pb L r : get_delta_y pa pb L false = Ok r ->
  0 <= r <= U128MAX /\ E30 * r <= Z.abs (pa - pb) * L < E30 * (r + 1).
Proof.
  intros H. unfold get_delta_y, mul_to_value in H. apply ck_ok in H as [-> Hr].
  pose proof (floor_spec (Z.abs (pa - pb) * L) LIQ_ONE ltac:(reflexivity)) as C1.
  set (q := Z.abs (pa - pb) * L / LIQ_ONE) in *.
  pose proof (floor_spec q SP_ONE ltac:(reflexivity)) as C2.
  set (r := q / SP_ONE) in *. clearbody q r.
  split; [exact Hr|]. unfold LIQ_ONE, SP_ONE, E30 in *. lia.
Qed.

(** ... against the exact amounts L|a-b|10^18/(ab) and L|a-b|/10^30 *)
Lemma delta_x_up_exact pa pb L r : 0 <= pa -> 0 <= pb -> get_delta_x pa pb L true = Ok r ->
  L * Z.abs (pa - pb) * E18 < r * (pa * pb) + SP_ONE.
Proof.
  intros Ha Hb H. destruct (delta_x_up pa pb L r Ha Hb H) as (Hr & Hd & Hn).
  pose proof (numx_spec pa pb L) as HN. pose proof (floor_spec (pa * pb) SP_ONE ltac:(reflexivity)) as HD.
  set (n := numx pa pb L) in *. set (d := pa * pb / SP_ONE) in *. clearbody n d.
  unfold LIQ_ONE, SP_ONE, E18 in *. nia.
Qed.

Lemma delta_x_down_exact pa pb L r : 0 <= pa -> 0 <= pb -> get_delta_x pa pb L false = Ok r ->
  r * (pa * pb) <= L * Z.abs (pa - pb) * E18.
Proof.
  intros Ha Hb H. destruct (delta_x_down pa pb L r Ha Hb H) as (Hr & Hd & Hn).
  pose proof (numx_spec pa pb L) as HN. pose proof (ceil_spec (pa * pb) SP_ONE ltac:(reflexivity)) as HD.
  set (n := numx pa pb L) in *. set (d := (pa * pb + (SP_ONE - 1)) / SP_ONE) in *. clearbody n d.
  unfold LIQ_ONE, SP_ONE, E18 in *. nia.
Qed.

Lemma delta_y_up_exact pa pb L r : get_delta_y pa pb L true = Ok r ->
  L * Z.abs (pa - pb) <= r * E30.
Proof. intros H. apply delta_y_up in H as [_ H]. lia. Qed.
Lemma delta_y_down_exact pa pb L r : get_delta_y pa pb L false = Ok r ->
  r * E30 <= L * Z.abs (pa - pb).
Proof. intros H. apply delta_y_down in H as [_ H]. lia. Qed.

(** rounding up is exact enough when the price difference is a multiple of 10^-18, as between ticks *)
Lemma delta_x_up_ticks pa pb L r : 0 <= pa -> 0 <= pb -> get_delta_x pa pb L true = Ok r ->
  (pa - pb) mod LIQ_ONE = 0 ->
  L * Z.abs (pa - pb) * E18 <= r * (pa * pb).
Proof.
  intros Ha Hb H Hm. destruct (delta_x_up pa pb L r Ha Hb H) as (Hr & Hd & Hn).
  assert (HN : Z.abs (pa - pb) * L = LIQ_ONE * numx pa pb L).
  { unfold numx. apply Z.div_exact; [discriminate|].
    apply Z.mod_divide; [discriminate|]. apply Z.divide_mul_l, Z.divide_abs_r.
    apply Z.mod_divide; [discriminate|exact Hm]. }
  pose proof (floor_spec (pa * pb) SP_ONE ltac:(reflexivity)) as HD.
  set (n := numx pa pb L) in *. set (d := pa * pb / SP_ONE) in *. clearbody n d.
  unfold LIQ_ONE, SP_ONE, E18 in *. nia.
Qed.

(** paying in is never cheaper than paying out *)
Lemma delta_x_in_ge_out pa pb L i o : 0 <= pa -> 0 <= pb -> 0 <= L ->
  get_delta_x pa pb L true = Ok i -> get_delta_x pa pb L false = Ok o -> o <= i.
Proof.
  intros Ha Hb HL Hi Ho. destruct (delta_x_up pa pb L i Ha Hb Hi) as (Hr & Hd & Hn).
  destruct (delta_x_down pa pb L o Ha Hb Ho) as (Hr' & Hd' & Hn').
  pose proof (ceil_spec (pa * pb) SP_ONE ltac:(reflexivity)) as HD'.
  pose proof (floor_spec (pa * pb) SP_ONE ltac:(reflexivity)) as HD.
  set (n := numx pa pb L) in *. set (d := pa * pb / SP_ONE) in *.
  set (d' := (pa * pb + (SP_ONE - 1)) / SP_ONE) in *. clearbody n d d'.
  unfold LIQ_ONE, SP_ONE, E18 in *. nia.
Qed.

Lemma delta_y_in_ge_out pa pb L i o :
  get_delta_y pa pb L true = Ok i -> get_delta_y pa pb L false = Ok o -> o <= i.
Proof.
  intros Hi Ho. apply delta_y_up in Hi as [_ Hi]. apply delta_y_down in Ho as [_ Ho].
  unfold E30 in *. lia.
Qed.

(** * Next price *)
Lemma next_y_in P L y n : 0 <= P -> 0 < L -> 0 <= y ->
  get_next_sqrt_price_y_down P L y true = Ok n ->
  P <= n <= U128MAX /\ (n - P) * L <= y * E30 < (n - P + 1) * L.
Proof.
  intros HP HL Hy H. unfold get_next_sqrt_price_y_down, checked_big_div_values, add_e in H.
  inv_bind H as num En. apply ckp_ok in En as [-> Hnum].
  inv_bind H as den Ed. apply ck_ok in Ed as [-> Hden].
  inv_bind H as q Eq. inv_bind Eq as m Em. apply ck_ok in Em as [-> Hm].
  inv_bind Eq as q1 Eq1. apply cdiv_ok in Eq1 as [_ ->]. apply ck_ok in Eq as [-> Hq].
  apply ck_ok in H as [-> Hn].
  pose proof (floor_spec (y * SP_ONE * SP_ONE) (L * 1000000000000000000) ltac:(lia)) as F.
  set (q := y * SP_ONE * SP_ONE / (L * 1000000000000000000)) in *. clearbody q.
  unfold SP_ONE, E30 in *. split; [lia|]. nia.
Qed.

Lemma next_y_out P L y n : 0 <= P -> 0 < L -> 0 <= y ->
  get_next_sqrt_price_y_down P L y false = Ok n ->
  0 <= n <= P /\ (P - n - 1) * L < y * E30 <= (P - n) * L.
Proof.
  intros HP HL Hy H. unfold get_next_sqrt_price_y_down, checked_big_div_values_up, sub_e in H.
  inv_bind H as num En. apply ckp_ok in En as [-> Hnum].
  inv_bind H as den Ed. apply ck_ok in Ed as [-> Hden].
  inv_bind H as q Eq. inv_bind Eq as m Em. apply ck_ok in Em as [-> Hm].
  inv_bind Eq as d1 Ed1. apply ck_ok in Ed1 as [-> Hd1].
  inv_bind Eq as a Ea. apply ck_ok in Ea as [-> Ha].
  inv_bind Eq as q1 Eq1. apply cdiv_ok in Eq1 as [_ ->]. apply ck_ok in Eq as [-> Hq].
  apply ck_ok in H as [-> Hn].
  pose proof (ceil_spec (y * SP_ONE * SP_ONE) (L * 1000000000000000000) ltac:(lia)) as F.
  set (q := (y * SP_ONE * SP_ONE + (L * 1000000000000000000 - 1)) / (L * 1000000000000000000)) in *.
  clearbody q. unfold SP_ONE, E30 in *. split; [lia|]. nia.
Qed.

(** ceil(P L / 10^6) *)
Definition pl_up (P L : Z) : Z := (P * L + (LIQ_ONE - 1)) / LIQ_ONE.
Lemma pl_up_spec P L : LIQ_ONE * (pl_up P L - 1) < P * L <= LIQ_ONE * pl_up P L.
Proof. apply ceil_spec. reflexivity. Qed.

Lemma next_x_in P L x n : 0 <= P -> 0 < L -> 0 < x ->
  get_next_sqrt_price_x_up P L x true = Ok n ->
  0 <= n <= U128MAX /\
  (n - 1) * (L * E18 + P * x) < pl_up P L * SP_ONE <= n * (L * E18 + P * x).
Proof.
  intros HP HL Hx H. unfold get_next_sqrt_price_x_up in H.
  rewrite (proj2 (Z.eqb_neq _ _)) in H by lia.
  inv_bind H as pd Ep. apply ck_ok in Ep as [-> Hpd].
  inv_bind H as den Ed. apply ck_ok in Ed as [-> Hden].
  unfold checked_big_div_values_up, mul_to_value, mul_to_value_up in H. fold (pl_up P L) in H.
  rewrite Z.div_1_r in *.
  inv_bind H as m Em. apply ck_ok in Em as [-> Hm].
  inv_bind H as d1 Ed1. apply ck_ok in Ed1 as [-> Hd1].
  inv_bind H as a Ea. apply ck_ok in Ea as [-> Ha].
  inv_bind H as q1 Eq1. apply cdiv_ok in Eq1 as [_ ->]. apply ck_ok in H as [-> Hq].
  change 1000000000000000000 with E18 in *.
  assert (Hd : 0 < L * E18 + P * x) by (unfold E18 in *; nia).
  pose proof (ceil_spec (pl_up P L * SP_ONE) _ Hd) as F.
  split; [exact Hq|]. lia.
Qed.

Lemma next_x_out P L x n : 0 <= P -> 0 < L -> 0 < x ->
  get_next_sqrt_price_x_up P L x false = Ok n ->
  0 <= n <= U128MAX /\ 0 < L * E18 - P * x /\
  (n - 1) * (L * E18 - P * x) < pl_up P L * SP_ONE <= n * (L * E18 - P * x).
Proof.
  intros HP HL Hx H. unfold get_next_sqrt_price_x_up in H.
  rewrite (proj2 (Z.eqb_neq _ _)) in H by lia.
  inv_bind H as pd Ep. apply ck_ok in Ep as [-> Hpd].
  inv_bind H as den Ed. apply ck_ok in Ed as [-> Hden].
  unfold checked_big_div_values_up, mul_to_value, mul_to_value_up in H. fold (pl_up P L) in H.
  rewrite Z.div_1_r in *.
  inv_bind H as m Em. apply ck_ok in Em as [-> Hm].
  inv_bind H as d1 Ed1. apply ck_ok in Ed1 as [-> Hd1].
  inv_bind H as a Ea. apply ck_ok in Ea as [-> Ha].
  inv_bind H as q1 Eq1. apply cdiv_ok in Eq1 as [_ ->]. apply ck_ok in H as [-> Hq].
  change 1000000000000000000 with E18 in *.
  assert (Hd : 0 < L * E18 - P * x) by lia.
  pose proof (ceil_spec (pl_up P L * SP_ONE) _ Hd) as F.
  split; [exact Hq|]. split; [exact Hd|]. lia.
Qed.

(** * One swap step *)
Definition delta_in (down : bool) (cur next L : Z) : res Z :=
  if down then get_delta_x next cur L true else get_delta_y cur next L true.
Definition delta_out (down : bool) (cur next L : Z) : res Z :=
  if down then get_delta_y next cur L false else get_delta_x cur next L false.

Lemma pct_complement_ok f c : pct_complement f = Ok c <-> c = PCT_ONE - f /\ 0 <= PCT_ONE - f <= U64MAX.
Proof. apply ckp_ok. Qed.

Lemma ceil_pct a f r : big_mul_up PCT_ONE a f = Ok r ->
  0 <= r <= U128MAX /\ PCT_ONE * (r - 1) < a * f <= PCT_ONE * r.
Proof.
  intros H. apply ckp_ok in H as [-> Hr]. split; [exact Hr|]. apply ceil_spec. reflexivity.
Qed.
Lemma floor_pct a f r : big_mul PCT_ONE a f = Ok r ->
  0 <= r <= U128MAX /\ PCT_ONE * r <= a * f < PCT_ONE * (r + 1).
Proof.
  intros H. apply ckp_ok in H as [-> Hr]. split; [exact Hr|]. apply floor_spec. reflexivity.
Qed.

Lemma fee_fits S a x fe amount f : 0 < S -> 0 <= f <= S -> 0 <= a -> 0 <= amount -> a <= x ->
  S * x <= amount * (S - f) -> S * (fe - 1) < a * f -> a + fe <= amount.
Proof.
  intros HS Hf Ha Ham Hle Hx Hfe.
  assert (H1 : a * S * (S + f) <= amount * (S - f) * (S + f)) by (apply Z.mul_le_mono_nonneg_r; nia).
  assert (H2 : 0 <= amount * (f * f)) by nia.
  assert (H3 : a * (S + f) <= amount * S) by nia.
  nia.
Qed.

(** what a successful step over non-zero liquidity did *)
Record step_facts (cur target L amount : Z) (by_in : bool) (fee : Z) (r : swap_result) : Prop := {
  sf_next :
    (by_in = true /\ exists x a, 0 <= PCT_ONE - fee <= U64MAX /\ big_mul PCT_ONE amount (PCT_ONE - fee) = Ok x /\
        delta_in (target <=? cur) cur target L = Ok a /\
        (a <= x /\ sr_next r = target \/
         x < a /\ get_next_sqrt_price_from_input cur L x (target <=? cur) = Ok (sr_next r))) \/
    (by_in = false /\ exists a, delta_out (target <=? cur) cur target L = Ok a /\
        (a <= amount /\ sr_next r = target \/
         amount < a /\ get_next_sqrt_price_from_output cur L amount (target <=? cur) = Ok (sr_next r)));
  sf_in : delta_in (target <=? cur) cur (sr_next r) L = Ok (sr_in r);
  sf_out : exists o, delta_out (target <=? cur) cur (sr_next r) L = Ok o /\
             sr_out r = if by_in then o else Z.min o amount;
  sf_fee : (by_in = true /\ sr_next r <> target /\ sr_fee r = amount - sr_in r /\ 0 <= sr_fee r <= U128MAX) \/
           ((by_in = false \/ sr_next r = target) /\ big_mul_up PCT_ONE (sr_in r) fee = Ok (sr_fee r))
}.

Lemma step_inv cur target L amount by_in fee r :
  L <> 0 -> compute_swap_step cur target L amount by_in fee = Ok r ->
  step_facts cur target L amount by_in fee r.
Proof.
  intros HL H. unfold compute_swap_step in H. rewrite (proj2 (Z.eqb_neq _ _) HL) in H.
  inv_bind H as [[n a0] o0] E1. inv_bind H as ain E2. inv_bind H as aout E3. inv_bind H as fe E4.
  injection H as <-.
  assert (G : sr_next (mkSwapResult n ain
     (if negb by_in && (amount <? aout) then amount else aout) fe) = n) by reflexivity.
  assert (E2' : delta_in (target <=? cur) cur n L = Ok ain).
  { unfold delta_in. destruct (Z.eqb_spec target n) as [<-|Hn], by_in; cbn [negb orb] in E2; try exact E2.
    inv_bind E1 as c Ec. inv_bind E1 as x Ex. inv_bind E1 as a Ea.
    destruct (a <=? x).
    - injection E1 as <- <-. injection E2 as <-. exact Ea.
    - inv_bind E1 as n' En. injection E1 as -> <- <-. injection E2 as <-. exact Ea. }
  assert (E3' : delta_out (target <=? cur) cur n L = Ok aout).
  { unfold delta_out. destruct (Z.eqb_spec target n) as [<-|Hn], by_in; cbn [negb orb] in E3; try exact E3.
    inv_bind E1 as a Ea. destruct (a <=? amount).
    - injection E1 as <- <-. injection E3 as <-. exact Ea.
    - inv_bind E1 as n' En. injection E1 as -> <- <-. injection E3 as <-. exact Ea. }
  constructor; cbn [sr_next sr_in sr_out sr_fee].
  - destruct by_in; [left|right]; (split; [reflexivity|]).
    + inv_bind E1 as c Ec. apply pct_complement_ok in Ec as [-> Hc].
      inv_bind E1 as x Ex. inv_bind E1 as a Ea. exists x, a.
      split; [exact Hc|]. split; [exact Ex|]. split; [exact Ea|].
      destruct (Z.leb_spec a x).
      * injection E1 as <- _ _. left. auto.
      * inv_bind E1 as n' En. injection E1 as -> _ _. right. auto.
    + inv_bind E1 as a Ea. exists a. split; [exact Ea|].
      destruct (Z.leb_spec a amount).
      * injection E1 as <- _ _. left. auto.
      * inv_bind E1 as n' En. injection E1 as -> _ _. right. auto.
  - exact E2'.
  - exists aout. split; [exact E3'|]. destruct by_in; cbn [negb andb]; [reflexivity|].
    destruct (Z.ltb_spec amount aout); lia.
  - destruct (Z.eqb_spec target n) as [<-|Hn]; cbn [negb andb] in E4.
    + right. split; [right; reflexivity|]. destruct by_in; exact E4.
    + destruct by_in; cbn [negb andb] in E4.
      * left. apply ckp_ok in E4 as [-> Hf]. repeat split; try congruence; lia.
      * right. split; [left; reflexivity|exact E4].
Qed.

Lemma delta_in_range down cur next L a : 0 <= cur -> 0 <= next ->
  delta_in down cur next L = Ok a -> 0 <= a <= U128MAX.
Proof.
  unfold delta_in. destruct down; intros Hc Hn H.
  - apply delta_x_up in H; tauto.
  - apply delta_y_up in H; tauto.
Qed.
Lemma delta_out_range down cur next L a : 0 <= cur -> 0 <= next ->
  delta_out down cur next L = Ok a -> 0 <= a <= U128MAX.
Proof.
  unfold delta_out. destruct down; intros Hc Hn H.
  - apply delta_y_down in H; tauto.
  - apply delta_x_down in H; tauto.
Qed.

(** the next price computed from an amount lies on the right side of the current price *)
Lemma next_in_side cur L x down n : MIN_SQRT_PRICE <= cur -> 0 < L -> 0 <= x ->
  get_next_sqrt_price_from_input cur L x down = Ok n ->
  if down then 0 <= n <= cur else cur <= n.
Proof.
  intros Hc HL Hx H. unfold get_next_sqrt_price_from_input in H. destruct down.
  - destruct (Z.eq_dec x 0) as [->|Hx0].
    + unfold get_next_sqrt_price_x_up in H. cbn in H. injection H as <-. unfold MIN_SQRT_PRICE in *. lia.
    + apply next_x_in in H as [Hn H]; [|unfold MIN_SQRT_PRICE in *; lia|lia|lia].
      pose proof (pl_up_spec cur L) as HP. split; [lia|].
      destruct (Z.le_gt_cases n cur) as [|Hgt]; [assumption|exfalso].
      set (p := pl_up cur L) in *. clearbody p.
      assert (cur * (L * E18 + cur * x) <= (n - 1) * (L * E18 + cur * x))
        by (apply Z.mul_le_mono_nonneg_r; unfold E18, MIN_SQRT_PRICE in *; nia).
      assert (15258932000000000000 * 15258932000000000000 <= cur * cur)
        by (unfold MIN_SQRT_PRICE in *; nia).
      assert (cur * cur * 1 <= cur * cur * x) by (apply Z.mul_le_mono_nonneg_l; lia).
      unfold LIQ_ONE, SP_ONE, E18 in *. lia.
  - apply next_y_in in H; [lia|unfold MIN_SQRT_PRICE in *; lia|lia|lia].
Qed.

Lemma next_out_side cur L x down n : MIN_SQRT_PRICE <= cur -> 0 < L -> 0 <= x ->
  get_next_sqrt_price_from_output cur L x down = Ok n ->
  if down then 0 <= n <= cur else cur <= n.
Proof.
  intros Hc HL Hx H. unfold get_next_sqrt_price_from_output in H. destruct down.
  - apply next_y_out in H; [lia|unfold MIN_SQRT_PRICE in *; lia|lia|lia].
  - destruct (Z.eq_dec x 0) as [->|Hx0].
    + unfold get_next_sqrt_price_x_up in H. cbn in H. injection H as <-. lia.
    + apply next_x_out in H as (Hn & Hd & H); [|unfold MIN_SQRT_PRICE in *; lia|lia|lia].
      pose proof (pl_up_spec cur L) as HP.
      destruct (Z.le_gt_cases cur n) as [|Hgt]; [assumption|exfalso].
      set (p := pl_up cur L) in *. clearbody p.
      assert (n * (L * E18 - cur * x) <= cur * (L * E18 - cur * x))
        by (apply Z.mul_le_mono_nonneg_r; lia).
      assert (0 < cur * (cur * x)) by (unfold MIN_SQRT_PRICE in *; nia).
      unfold LIQ_ONE, SP_ONE, E18 in *. lia.
Qed.

(** ... and never beyond the target, except for exact input downwards, where the overshoot is
    below 10^24 / cur *)
Lemma next_in_target_up cur target L x n a :
  0 <= cur <= target -> 0 < L -> 0 <= x ->
  get_delta_y cur target L true = Ok a -> x < a ->
  get_next_sqrt_price_from_input cur L x false = Ok n -> n < target.
Proof.
  intros Hc HL Hx Ha Hlt H. apply delta_y_up in Ha as [_ Ha].
  apply next_y_in in H as [Hn H]; [|lia|lia|lia].
  rewrite Z.abs_neq in Ha by lia. unfold E30 in *. nia.
Qed.

Lemma next_out_target_down cur target L x n a :
  0 <= target <= cur -> 0 < L -> 0 <= x ->
  get_delta_y target cur L false = Ok a -> x < a ->
  get_next_sqrt_price_from_output cur L x true = Ok n -> target <= n.
Proof.
  intros Hc HL Hx Ha Hlt H. apply delta_y_down in Ha as [_ Ha].
  apply next_y_out in H as [Hn H]; [|lia|lia|lia].
  rewrite Z.abs_neq in Ha by lia. unfold E30 in *. nia.
Qed.

Lemma next_out_target_up cur target L x n a :
  MIN_SQRT_PRICE <= cur <= target -> 0 < L -> 0 <= x ->
  get_delta_x cur target L false = Ok a -> x < a ->
  get_next_sqrt_price_from_output cur L x false = Ok n -> n <= target.
Proof.
  intros Hc HL Hx Ha Hlt H. unfold MIN_SQRT_PRICE in *.
  apply delta_x_down_exact in Ha; [|lia|lia].
  rewrite Z.abs_neq in Ha by lia.
  unfold get_next_sqrt_price_from_output in H.
  destruct (Z.eq_dec x 0) as [->|Hx0].
  - unfold get_next_sqrt_price_x_up in H. cbn in H. injection H as <-. lia.
  - apply next_x_out in H as (Hn & Hd & H); [|lia|lia|lia].
    pose proof (pl_up_spec cur L) as HP. set (p := pl_up cur L) in *. clearbody p.
    destruct (Z.le_gt_cases n target) as [|Hgt]; [assumption|exfalso].
    assert (target * (L * E18 - cur * x) <= (n - 1) * (L * E18 - cur * x))
      by (apply Z.mul_le_mono_nonneg_r; lia).
    assert ((x + 1) * (cur * target) <= a * (cur * target))
      by (apply Z.mul_le_mono_nonneg_r; nia).
    assert (15258932000000000000 * 15258932000000000000 <= cur * target) by nia.
    unfold LIQ_ONE, SP_ONE, E18 in *. lia.
Qed.

Lemma next_in_target_down cur target L x n a :
  MIN_SQRT_PRICE <= target <= cur -> 0 < L -> 0 <= x ->
  get_delta_x target cur L true = Ok a -> x < a ->
  get_next_sqrt_price_from_input cur L x true = Ok n -> (target - n) * cur < SP_ONE.
Proof.
  intros Hc HL Hx Ha Hlt H. unfold MIN_SQRT_PRICE in *.
  apply delta_x_up in Ha as (_ & Hd & Ha); [|lia|lia].
  pose proof (numx_spec target cur L) as HN.
  pose proof (floor_spec (target * cur) SP_ONE ltac:(reflexivity)) as HD.
  set (d := target * cur / SP_ONE) in *. set (N := numx target cur L) in *. clearbody d N.
  rewrite Z.abs_neq in HN by lia.
  unfold get_next_sqrt_price_from_input in H.
  destruct (Z.eq_dec x 0) as [->|Hx0].
  - unfold get_next_sqrt_price_x_up in H. cbn in H. injection H as <-. unfold SP_ONE. nia.
  - apply next_x_in in H as (Hn & H); [|lia|lia|lia].
    pose proof (pl_up_spec cur L) as HP. set (p := pl_up cur L) in *. clearbody p.
    assert (d * x <= d * (a - 1)) by (apply Z.mul_le_mono_nonneg_l; lia).
    assert (target * cur * x <= SP_ONE * (d + 1) * x) by (apply Z.mul_le_mono_nonneg_r; lia).
    (* (target - n) * (L E18 + cur x) <= SP_ONE x *)
    assert (K : (target - n) * (L * E18 + cur * x) <= SP_ONE * x - SP_ONE)
      by (unfold LIQ_ONE, SP_ONE, E18 in *; lia).
    destruct (Z.le_gt_cases ((target - n) * cur) 0); [unfold SP_ONE; lia|].
    assert (0 < target - n) by nia.
    assert (0 < (target - n) * (L * E18)) by (unfold E18; nia).
    unfold SP_ONE in *. nia.
Qed.

(** recomputed input of a partial step *)
Lemma partial_in_up cur L x n a :
  0 <= cur -> 0 < L -> 0 <= x ->
  get_next_sqrt_price_from_input cur L x false = Ok n ->
  get_delta_y cur n L true = Ok a -> a <= x.
Proof.
  intros Hc HL Hx H Ha. apply delta_y_up in Ha as [_ Ha].
  apply next_y_in in H as [Hn H]; [|lia|lia|lia].
  rewrite Z.abs_neq in Ha by lia. unfold E30 in *. nia.
Qed.

Lemma partial_in_down cur L x n a :
  MIN_SQRT_PRICE <= cur -> 0 < L -> 0 <= x -> 0 <= n ->
  get_next_sqrt_price_from_input cur L x true = Ok n ->
  get_delta_x n cur L true = Ok a -> (n * cur / SP_ONE) * (a - 1 - x) < x.
Proof.
  intros Hc HL Hx Hn0 H Ha. pose proof (next_in_side cur L x true n Hc HL Hx H) as Hs. cbn in Hs.
  unfold MIN_SQRT_PRICE in *.
  apply delta_x_up in Ha as (Hr & Hd & Ha); [|lia|lia].
  pose proof (numx_spec n cur L) as HN.
  pose proof (floor_spec (n * cur) SP_ONE ltac:(reflexivity)) as HD.
  set (d := n * cur / SP_ONE) in *. set (N := numx n cur L) in *. clearbody d N.
  rewrite Z.abs_neq in HN by lia.
  unfold get_next_sqrt_price_from_input in H.
  destruct (Z.eq_dec x 0) as [->|Hx0].
  - unfold get_next_sqrt_price_x_up in H. cbn in H. injection H as <-.
    assert (N = 0) by (unfold LIQ_ONE in *; lia). nia.
  - apply next_x_in in H as (_ & H); [|lia|lia|lia].
    pose proof (pl_up_spec cur L) as HP. set (p := pl_up cur L) in *. clearbody p.
    assert (n * cur * x <= SP_ONE * (d + 1) * x - x) by (unfold SP_ONE in *; nia).
    assert (SP_ONE * N <= SP_ONE * (d + 1) * x - x) by (unfold LIQ_ONE, SP_ONE, E18 in *; lia).
    assert (N < (d + 1) * x) by (unfold SP_ONE in *; nia). lia.
Qed.

Lemma partial_out_down cur L x n a :
  0 <= cur -> 0 < L -> 0 <= x ->
  get_next_sqrt_price_from_output cur L x true = Ok n ->
  get_delta_y n cur L false = Ok a -> x <= a.
Proof.
  intros Hc HL Hx H Ha. apply delta_y_down in Ha as [_ Ha].
  apply next_y_out in H as [Hn H]; [|lia|lia|lia].
  rewrite Z.abs_neq in Ha by lia. unfold E30 in *. nia.
Qed.
