(** Fee growth inside a range, per token, and how the loop's operations change what a position can claim. *)
From Verif Require Import Base Decimal SqrtPrice Clamm FeeGrowth Types Tick Pool Position State Swap Tactics
  PriceProofs ClammProofs Frame SwapGeo SwapLoop Modify PSum LiqInv.
From stdpp Require Import gmap strings.
From Coq Require Import Lia.
Open Scope Z_scope.

(** both tokens alike: [true] is token x *)
Definition fg (b : bool) (p : pool) : Z := if b then p_fgx p else p_fgy p.
Definition prot (b : bool) (p : pool) : Z := if b then p_protx p else p_proty p.
Definition fo (b : bool) (t : tick) : Z := if b then t_fox t else t_foy t.
Definition pofg (b : bool) (po : position) : Z := if b then po_fgx po else po_fgy po.
Definition owed (b : bool) (po : position) : Z := if b then po_owedx po else po_owedy po.
Definition tok (b : bool) (k : pool_key) : string := if b then pk_x k else pk_y k.
Notation tickmap := (gmap (pool_key * Z) tick).

Definition inside (b : bool) (c G : Z) (l u : tick) : Z :=
  fee_growth_inside (t_index l) (fo b l) (t_index u) (fo b u) c G.
Lemma inside_xy p l u : inside_x p l u = inside true (p_tick p) (fg true p) l u /\ inside_y p l u = inside false (p_tick p) (fg false p) l u.
Proof. split; reflexivity. Qed.

(** growth below a tick *)
Definition below (b : bool) (c G : Z) (t : tick) : Z := if t_index t <=? c then fo b t else G - fo b t.
Lemma inside_below b c G l u : inside b c G l u = (below b c G u - below b c G l) mod U128.
Proof.
  unfold inside, fee_growth_inside, wsub, below.
  rewrite Zminus_mod_idemp_l.
  destruct (Z.leb_spec (t_index l) c), (Z.ltb_spec c (t_index u)), (Z.leb_spec (t_index u) c); try lia;
    rewrite ?(Z.add_opp_r _ _), ?Zminus_mod_idemp_l, ?Zminus_mod_idemp_r;
    try (rewrite <- (Zminus_mod_idemp_l _ _ U128), Zminus_mod_idemp_r, Zminus_mod_idemp_l); f_equal; lia.
Qed.

(** what a position can claim, in units of 10^-34 token *)
Definition grow (b : bool) (c G : Z) (l u : tick) (po : position) : Z := (inside b c G l u - pofg b po) mod U128.
Definition pend (b : bool) (T : tickmap) (c G : Z) (po : position) : Z :=
  match T !! (po_key po, po_lower po), T !! (po_key po, po_upper po) with
  | Some l, Some u => grow b c G l u po * po_liq po
  | _, _ => 0
  end.

Lemma grow_mod b c G l u po : grow b c G l u po = (below b c G u - below b c G l - pofg b po) mod U128.
Proof. unfold grow. rewrite inside_below. apply Zminus_mod_idemp_l. Qed.
Lemma grow_range b c G l u po : 0 <= grow b c G l u po < U128.
Proof. apply Z.mod_pos_bound. reflexivity. Qed.
Lemma grow_cong b c G l u c' G' l' u' po q :
  below b c' G' u' - below b c' G' l' = below b c G u - below b c G l + q * U128 ->
  grow b c' G' l' u' po = grow b c G l u po.
Proof.
  intros E. rewrite !grow_mod. replace (below b c' G' u' - below b c' G' l' - pofg b po) with
    (below b c G u - below b c G l - pofg b po + q * U128) by lia. apply Z.mod_add. discriminate.
Qed.

(** adding growth [g]: only ranges around the current tick gain, by at most [g] *)
Lemma grow_fee b c G g l u po : 0 <= g -> t_index l < t_index u ->
  grow b c (wadd G g) l u po <= grow b c G l u po + (if in_range_tick (t_index l) (t_index u) c then g else 0).
Proof.
  intros Hg O. set (X := below b c G u - below b c G l - pofg b po).
  assert (E : exists q, below b c (wadd G g) u - below b c (wadd G g) l - pofg b po
                    = X + (if in_range_tick (t_index l) (t_index u) c then g else 0) + q * U128).
  { unfold wadd. pose proof (Z.div_mod (G + g) U128 ltac:(discriminate)) as D. set (r := (G + g) mod U128) in *. set (q := (G + g) / U128) in *.
    clearbody q r. unfold X, below, in_range_tick.
    destruct (Z.leb_spec (t_index l) c), (Z.leb_spec (t_index u) c), (Z.ltb_spec c (t_index u)); try lia; cbn;
      [exists 0|exists (-q)|exists 0]; lia. }
  destruct E as [q E]. rewrite !grow_mod, E. fold X. rewrite Z.mod_add by discriminate.
  destruct (in_range_tick _ _ _); [|rewrite !Z.add_0_r; lia].
  rewrite <- Zplus_mod_idemp_l. apply Z.mod_le; [|reflexivity]. pose proof (Z.mod_pos_bound X U128 ltac:(reflexivity)). lia.
Qed.
Lemma grow_fee_out b c G g l u po : t_index l < t_index u -> in_range_tick (t_index l) (t_index u) c = false ->
  grow b c (wadd G g) l u po = grow b c G l u po.
Proof.
  intros O R. unfold wadd. pose proof (Z.div_mod (G + g) U128 ltac:(discriminate)) as D. set (r := (G + g) mod U128) in *. set (q := (G + g) / U128) in *.
  clearbody q r. apply (grow_cong _ _ _ _ _ _ _ _ _ _ 0). unfold below, in_range_tick in *.
  destruct (Z.leb_spec (t_index l) c), (Z.leb_spec (t_index u) c), (Z.ltb_spec c (t_index u)); try lia; done.
Qed.
Lemma grow_fee_in b c G g l u po : t_index l < t_index u -> in_range_tick (t_index l) (t_index u) c = true ->
  grow b c (wadd G g) l u po = (grow b c G l u po + g) mod U128.
Proof.
  intros O R. rewrite !grow_mod, Zplus_mod_idemp_l. unfold wadd. pose proof (Z.div_mod (G + g) U128 ltac:(discriminate)) as D. set (r := (G + g) mod U128) in *. set (q := (G + g) / U128) in *.
  clearbody q r. unfold below, in_range_tick in *.
  destruct (Z.leb_spec (t_index l) c), (Z.leb_spec (t_index u) c), (Z.ltb_spec c (t_index u)); try lia; try done.
  replace (r - fo b u - fo b l - pofg b po) with (G - fo b u - fo b l - pofg b po + g + (-q) * U128) by lia.
  rewrite Z.mod_add by discriminate. done.
Qed.
(** moving the current tick past neither bound *)
Lemma grow_move b c c' G l u po : (t_index l <= c <-> t_index l <= c') -> (t_index u <= c <-> t_index u <= c') ->
  grow b c' G l u po = grow b c G l u po.
Proof.
  intros A B. apply (grow_cong _ _ _ _ _ _ _ _ _ _ 0). unfold below.
  destruct (Z.leb_spec (t_index l) c), (Z.leb_spec (t_index l) c'), (Z.leb_spec (t_index u) c), (Z.leb_spec (t_index u) c'); lia.
Qed.
(** a crossing keeps the growth below the crossed tick *)
Lemma below_cross b c c' G t t' : t_index t' = t_index t -> fo b t' = wsub G (fo b t) ->
  (t_index t <= c <-> c' < t_index t) -> exists q, below b c' G t' = below b c G t + q * U128.
Proof.
  intros E F M. unfold below. rewrite E, F. unfold wsub.
  pose proof (Z.div_mod (G - fo b t) U128 ltac:(discriminate)) as D. set (r := (G - fo b t) mod U128) in *. set (q := (G - fo b t) / U128) in *. clearbody q r.
  destruct (Z.leb_spec (t_index t) c), (Z.leb_spec (t_index t) c'); try lia; [exists q|exists (-q)]; lia.
Qed.
Lemma below_move b c c' G t : (t_index t <= c <-> t_index t <= c') -> below b c' G t = below b c G t.
Proof. intros A. unfold below. destruct (Z.leb_spec (t_index t) c), (Z.leb_spec (t_index t) c'); lia. Qed.
