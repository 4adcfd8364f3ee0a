(** Properties C01 and C02: ticks and prices. *)
From Verif Require Import Base Decimal SqrtPrice Log PriceProofs LogProofs.
From Coq Require Import Lia.
Open Scope Z_scope.

(** C01.  The conversion succeeds exactly on the legal ticks, stays in the published price range
    (whose ends it attains) and is strictly increasing. *)
Theorem C01_tick_to_price :
  (forall i, -221818 <= i <= 221818 ->
     exists p, calculate_sqrt_price i = Ok p /\
               15258932000000000000 <= p <= 65535383934512647000000000000) /\
  (forall i, i < -221818 \/ 221818 < i -> calculate_sqrt_price i = Err TickOverBounds) /\
  (forall i j p q, calculate_sqrt_price i = Ok p -> calculate_sqrt_price j = Ok q ->
     (i < j <-> p < q)) /\
  calculate_sqrt_price (-221818) = Ok 15258932000000000000 /\
  calculate_sqrt_price 0 = Ok (10 ^ 24) /\
  calculate_sqrt_price 221818 = Ok 65535383934512647000000000000.
Proof.
  split; [|split; [|split; [|split; [|split]]]].
  - intros i Hi. exists (tprice i). split.
    + apply calculate_sqrt_price_ok. unfold MAX_TICK. lia.
    + apply (tprice_range i). unfold MAX_TICK. lia.
  - intros i Hi. apply calculate_sqrt_price_err. unfold MAX_TICK. lia.
  - intros i j p q H H0. apply calculate_sqrt_price_inv in H as [Hi ->].
    apply calculate_sqrt_price_inv in H0 as [Hj ->]. split; intros Hlt.
    + apply tprice_lt; lia.
    + destruct (Z.lt_ge_cases i j); [assumption|]. pose proof (tprice_le j i). lia.
  - vm_compute. reflexivity.
  - vm_compute. reflexivity.
  - vm_compute. reflexivity.
Qed.

(** the price of a legal tick; an illegal tick has none *)
Definition price_of_tick (i p : Z) : Prop := calculate_sqrt_price i = Ok p.

(** C02.  For a legal price and spacing the call returns the largest multiple of the spacing whose
    price does not exceed the given one; outside the price range it is an error. *)
Theorem C02_price_to_tick :
  forall p s, 15258932000000000000 <= p <= 65535383934512647000000000000 -> 1 <= s <= 100 ->
  exists t, get_tick_at_sqrt_price p s = Ok t /\
            t mod s = 0 /\
            (forall q, price_of_tick t q -> q <= p) /\
            (forall q, price_of_tick (t + s) q -> p < q) /\
            -221818 - s < t <= 221818.
Proof.
  intros p s Hp Hs.
  destruct (get_tick_ok p s Hp ltac:(lia)) as (i & (Hi & Hlo & Hhi) & Hok).
  exists (s * (i / s)). split; [exact Hok|].
  pose proof (Z.div_mod i s ltac:(lia)) as D. pose proof (Z.mod_pos_bound i s ltac:(lia)) as M.
  unfold MAX_TICK in *. repeat split.
  - rewrite Z.mul_comm. apply Z.mod_mul. lia.
  - intros q Hq. apply calculate_sqrt_price_inv in Hq as [Hq ->].
    pose proof (tprice_le (s * (i / s)) i ltac:(lia) ltac:(lia) ltac:(unfold MAX_TICK; lia)). lia.
  - intros q Hq. apply calculate_sqrt_price_inv in Hq as [Hq ->]. unfold MAX_TICK in *.
    pose proof (tprice_le (i + 1) (s * (i / s) + s) ltac:(unfold MAX_TICK; lia) ltac:(lia)
                  ltac:(unfold MAX_TICK; lia)).
    specialize (Hhi ltac:(lia)). lia.
  - lia.
  - lia.
Qed.

Theorem C02_exact_at_spacing_one :
  forall p, 15258932000000000000 <= p <= 65535383934512647000000000000 ->
  exists t q, get_tick_at_sqrt_price p 1 = Ok t /\ price_of_tick t q /\ q <= p /\
              forall q', price_of_tick (t + 1) q' -> p < q'.
Proof.
  intros p Hp. destruct (get_tick_ok p 1 Hp ltac:(lia)) as (i & (Hi & Hlo & Hhi) & Hok).
  rewrite Z.div_1_r, Z.mul_1_l in Hok. exists i, (tprice i).
  split; [exact Hok|]. split; [apply calculate_sqrt_price_ok; exact Hi|]. split; [exact Hlo|].
  intros q Hq. apply calculate_sqrt_price_inv in Hq as [Hq ->]. apply Hhi. lia.
Qed.

Theorem C02_out_of_range :
  forall p s, p < 15258932000000000000 \/ 65535383934512647000000000000 < p ->
  get_tick_at_sqrt_price p s = Err SqrtPriceOutOfRange.
Proof. intros p s H. apply get_tick_err. exact H. Qed.

Example C02_example_neg :
  get_tick_at_sqrt_price 999999999999999999999999 10 = Ok (-10) /\
  get_tick_at_sqrt_price 15258932000000000000 100 = Ok (-221900) /\
  get_tick_at_sqrt_price 65535383934512647000000000000 100 = Ok 221800 /\
  get_tick_at_sqrt_price 1500000000000000000000000 1 = Ok 8109.
Proof. vm_compute. auto. Qed.

Print Assumptions C01_tick_to_price.
Print Assumptions C02_price_to_tick.
Print Assumptions C02_exact_at_spacing_one.
Print Assumptions C02_out_of_range.
