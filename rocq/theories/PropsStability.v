(** Properties C91 - C93: how far interpolated values, factors and bond values move with the data. *)
From Coq Require Import ZArith Reals List Arith Lia Lra.
From Verif Require Import Base Chrono DateModel DateFacts Value RealValue DayCountModel InterpModel InterpFacts CurveModel BondModel
  Gregorian Grid PropsDate PropsDayCount PropsLinear PropsHermite PropsCatmullRom PropsNaturalCubic PropsCurve PropsBond PropsShift PropsRisk.
Import ListNotations.
Open Scope R_scope.

(** ** Specification *)

(** The same abscissas, and ordinates at most [eps] apart. *)
Definition near (eps : R) (p p' : list (R * R)) : Prop :=
  length p' = length p /\ forall i, (i < length p)%nat -> gx p' i = gx p i /\ Rabs (gy p' i - gy p i) <= eps.

(** The same for points with slopes, which are at most [dlt] apart. *)
Definition h_near (eps dlt : R) (p p' : list (R * R * R)) : Prop :=
  length p' = length p /\ forall i, (i < length p)%nat ->
    hx p' i = hx p i /\ Rabs (hy p' i - hy p i) <= eps /\ Rabs (hm p' i - hm p i) <= dlt.

(** ** Lemmas *)

Lemma div_ge0 a b : 0 <= a -> 0 < b -> 0 <= a / b.
Proof. intros H1 H2. apply Rmult_le_pos; [exact H1 |]. left. now apply Rinv_0_lt_compat. Qed.

Lemma abs_inv a b : Rabs a <= b -> - b <= a <= b.
Proof. intros H. split; unfold Rabs in H; destruct (Rcase_abs a); lra. Qed.

(** Fraction of cell [a, b] up to [x]. *)
Lemma fraction a b x : a < b -> a <= x <= b -> exists d, 0 <= d <= 1 /\ x - a = d * (b - a).
Proof.
  intros H Hx. exists ((x - a) / (b - a)). split; [| field; lra].
  split; [apply div_ge0; lra |]. apply Rmult_le_reg_r with (b - a); [lra |]. field_simplify; lra.
Qed.

Lemma near_inc eps p p' : near eps p p' -> increasing p -> increasing p'.
Proof.
  intros (L & N) H i j Hij. destruct (N i ltac:(lia)) as (-> & _), (N j ltac:(lia)) as (-> & _). apply H. lia.
Qed.

(** The cubics of the first and of an inner cell, in the fraction [d] of the cell. *)
Definition cr_first (beta d y0 y1 y2 : R) : R :=
  y0 + d * (y1 - y0) + (d ^ 3 - d ^ 2) * ((1 - beta) * y0 - y1 + beta * y2).
Definition cr_inner (alpha beta d ym y0 y1 y2 : R) : R :=
  (1 - d ^ 2 * (3 - 2 * d)) * y0 + d ^ 2 * (3 - 2 * d) * y1 + d * (1 - d) ^ 2 * (alpha * (y1 - ym))
  - d ^ 2 * (1 - d) * (beta * (y2 - y0)).

Lemma cubic_top d : 0 <= d <= 1 -> d * (1 - d) * (1 + d) <= 2 / 5.
Proof.
  intros H. destruct (Rle_lt_dec d (2 / 5)) as [C | C]; [nra |].
  assert (0 <= (d - 3 / 5) ^ 2 * (d + 6 / 5)) by (apply Rmult_le_pos; [apply pow2_ge_0 | lra]). nra.
Qed.

Lemma square_top d : 0 <= d <= 1 -> 0 <= d ^ 2 * (1 - d) <= 1 / 5.
Proof. intros H. pose proof (cubic_top d H). assert (0 <= d ^ 2 * (1 - d)) by (apply Rmult_le_pos; [apply pow2_ge_0 | lra]). split; nra. Qed.

Lemma quarter d : 0 <= d <= 1 -> 0 <= d * (1 - d) <= 1 / 4.
Proof. intros H. pose proof (pow2_ge_0 (d - 1 / 2)). split; [apply Rmult_le_pos; lra | lra]. Qed.

Lemma mix_le s a b hi : 0 <= s <= 1 -> a <= hi -> b <= hi -> (1 - s) * a + s * b <= hi.
Proof. intros. nra. Qed.

Lemma prod_le a b u v : 0 <= a -> a <= u -> b <= v -> 0 <= v -> a * b <= u * v.
Proof.
  intros H1 H2 H3 H4. apply Rle_trans with (a * v); [apply Rmult_le_compat_l; assumption | apply Rmult_le_compat_r; assumption].
Qed.

Lemma first_le beta d y0 y1 y2 lo hi : 0 <= beta <= 1 -> 0 <= d <= 1 ->
  lo <= y0 <= hi -> lo <= y1 <= hi -> lo <= y2 <= hi -> cr_first beta d y0 y1 y2 <= hi + (hi - lo) / 5.
Proof.
  intros B D Y0 Y1 Y2. unfold cr_first. pose proof (square_top d D) as (S0 & S1).
  pose proof (mix_le d y0 y1 hi D (proj2 Y0) (proj2 Y1)) as M.
  assert (y1 - ((1 - beta) * y0 + beta * y2) <= hi - lo) as A by nra.
  pose proof (prod_le _ _ _ _ S0 S1 A ltac:(lra)) as P.
  replace (y0 + d * (y1 - y0) + (d ^ 3 - d ^ 2) * ((1 - beta) * y0 - y1 + beta * y2))
    with ((1 - d) * y0 + d * y1 + d ^ 2 * (1 - d) * (y1 - ((1 - beta) * y0 + beta * y2))) by ring. lra.
Qed.

Lemma inner_le alpha beta d ym y0 y1 y2 lo hi : 0 <= alpha <= 1 / 2 -> 0 <= beta <= 1 -> 0 <= d <= 1 ->
  lo <= ym <= hi -> lo <= y0 <= hi -> lo <= y1 <= hi -> lo <= y2 <= hi ->
  cr_inner alpha beta d ym y0 y1 y2 <= hi + (hi - lo) / 5.
Proof.
  intros A B D Ym Y0 Y1 Y2. unfold cr_inner. pose proof (cubic_top d D) as T.
  assert (0 <= d ^ 2 * (3 - 2 * d) <= 1) as S.
  { split; [apply Rmult_le_pos; [apply pow2_ge_0 | lra] |].
    assert (0 <= (1 - d) ^ 2 * (1 + 2 * d)) by (apply Rmult_le_pos; [apply pow2_ge_0 | lra]). nra. }
  pose proof (mix_le _ y0 y1 hi S (proj2 Y0) (proj2 Y1)) as M.
  assert (alpha * (y1 - ym) <= (hi - lo) / 2) as A1 by nra.
  assert (- (beta * (y2 - y0)) <= hi - lo) as A2 by nra.
  assert (0 <= d * (1 - d) ^ 2) as D1 by (apply Rmult_le_pos; [lra | apply pow2_ge_0]).
  assert (0 <= d ^ 2 * (1 - d)) as D2 by (apply Rmult_le_pos; [apply pow2_ge_0 | lra]).
  pose proof (Rmult_le_compat_l _ _ _ D1 A1) as P1. pose proof (Rmult_le_compat_l _ _ _ D2 A2) as P2.
  assert (d * (1 - d) ^ 2 * ((hi - lo) / 2) + d ^ 2 * (1 - d) * (hi - lo) <= (hi - lo) / 5) as P3.
  { replace (d * (1 - d) ^ 2 * ((hi - lo) / 2) + d ^ 2 * (1 - d) * (hi - lo))
      with (d * (1 - d) * (1 + d) * ((hi - lo) / 2)) by field.
    replace ((hi - lo) / 5) with (2 / 5 * ((hi - lo) / 2)) by field. apply Rmult_le_compat_r; [lra | exact T]. }
  lra.
Qed.

Lemma cr_first_opp beta d y0 y1 y2 : cr_first beta d (- y0) (- y1) (- y2) = - cr_first beta d y0 y1 y2.
Proof. unfold cr_first. ring. Qed.
Lemma cr_inner_opp alpha beta d ym y0 y1 y2 :
  cr_inner alpha beta d (- ym) (- y0) (- y1) (- y2) = - cr_inner alpha beta d ym y0 y1 y2.
Proof. unfold cr_inner. ring. Qed.

Lemma first_within beta d y0 y1 y2 lo hi : 0 <= beta <= 1 -> 0 <= d <= 1 ->
  lo <= y0 <= hi -> lo <= y1 <= hi -> lo <= y2 <= hi ->
  lo - (hi - lo) / 5 <= cr_first beta d y0 y1 y2 <= hi + (hi - lo) / 5.
Proof.
  intros B D Y0 Y1 Y2. split; [| now apply first_le].
  pose proof (first_le beta d (- y0) (- y1) (- y2) (- hi) (- lo) B D ltac:(lra) ltac:(lra) ltac:(lra)) as L.
  rewrite cr_first_opp in L. lra.
Qed.

Lemma inner_within alpha beta d ym y0 y1 y2 lo hi : 0 <= alpha <= 1 / 2 -> 0 <= beta <= 1 -> 0 <= d <= 1 ->
  lo <= ym <= hi -> lo <= y0 <= hi -> lo <= y1 <= hi -> lo <= y2 <= hi ->
  lo - (hi - lo) / 5 <= cr_inner alpha beta d ym y0 y1 y2 <= hi + (hi - lo) / 5.
Proof.
  intros A B D Ym Y0 Y1 Y2. split; [| now apply inner_le].
  pose proof (inner_le alpha beta d (- ym) (- y0) (- y1) (- y2) (- hi) (- lo) A B D ltac:(lra) ltac:(lra) ltac:(lra) ltac:(lra)) as L.
  rewrite cr_inner_opp in L. lra.
Qed.

Lemma ratio_01 a b : 0 < a -> 0 < b -> 0 <= a / (a + b) <= 1.
Proof.
  intros Ha Hb. split; [apply div_ge0; lra |]. apply Rmult_le_reg_r with (a + b); [lra |]. field_simplify; lra.
Qed.

(** The value of Catmull-Rom in a cell other than the last one. *)
Lemma cr_shape p i x : increasing p -> (i + 2 < length p)%nat -> gx p i <= x <= gx p (i + 1) ->
  exists d, 0 <= d <= 1 /\ x - gx p i = d * ch p i /\ 0 <= cbeta p i <= 1 /\
  (i = 0%nat /\ cpiece p i x = cr_first (cbeta p i) d (gy p i) (gy p (i + 1)) (gy p (i + 2))
   \/ (0 < i)%nat /\ 0 <= calpha p i <= 1 / 2
      /\ cpiece p i x = cr_inner (calpha p i) (cbeta p i) d (gy p (i - 1)) (gy p i) (gy p (i + 1)) (gy p (i + 2))).
Proof.
  intros H Hi Hx. assert (gx p i < gx p (i + 1)) as L by (apply H; lia).
  assert (gx p (i + 1) < gx p (i + 2)) as L2 by (apply H; lia).
  destruct (fraction _ _ x L Hx) as (d & Hd & Ed). exists d. split; [exact Hd |]. split; [exact Ed |].
  assert (ch p i <> 0) as Nz by (unfold ch; lra).
  split; [unfold cbeta, ch; apply ratio_01; lra |]. unfold cpiece. fold (ch p i) in Ed. rewrite Ed. unfold k3, k2, k1.
  destruct (Nat.eqb_spec i 0) as [E | N0].
  - left. split; [exact E |]. unfold cr_first. field. exact Nz.
  - right. split; [lia |]. assert (gx p (i - 1) < gx p i) as L0 by (apply H; lia). split.
    + unfold calpha, ch. split; [apply div_ge0; lra |].
      apply Rmult_le_reg_r with (gx p (i + 1) - gx p i + (gx p (i + 1) - gx p (i - 1))); [lra |]. field_simplify; lra.
    + destruct (Nat.eqb_spec (i + 2) (length p)) as [E2 | N2]; [lia |]. unfold cr_inner. field. exact Nz.
Qed.

(** Up to the last knot but one, a cell other than the last one. *)
Lemma early_cell p x : increasing p -> (3 <= length p)%nat -> gx p 0 <= x <= gx p (last_of p - 1) ->
  exists i, (i + 2 < length p)%nat /\ gx p i <= x <= gx p (i + 1).
Proof.
  intros H Hl Hx. unfold last_of in Hx. assert (gx p (length p - 1 - 1) < gx p (length p - 1)) as Lt by (apply H; lia).
  assert (gx p 0 <= x <= gx p (last_of p)) as Hr by (unfold last_of; lra).
  destruct (g_cell p x H ltac:(lia) Hr) as (i & Hi & Ci).
  destruct (Nat.eq_dec (i + 2) (length p)) as [E | N]; [| exists i; split; [lia | exact Ci]].
  exists (i - 1)%nat. split; [lia |]. replace (length p - 1 - 1)%nat with i in Hx by lia.
  replace (i - 1 + 1)%nat with i by lia. split; [| lra]. apply Rle_trans with (gx p i); [| lra]. left. apply H. lia.
Qed.

(** The cubic of the last cell, where the ordinates do not add up to the right weight. *)
Definition cr_last (alpha d ym y0 y1 : R) : R :=
  - (alpha * (d * (1 - d) ^ 2)) * ym + (1 - d) * (1 + d - d ^ 2) * y0 + d * (alpha * (1 - 2 * d - d ^ 2) + 2 * d) * y1.

Lemma cr_last_shape p i x : increasing p -> (3 <= length p)%nat -> (i + 2 = length p)%nat -> gx p i <= x <= gx p (i + 1) ->
  exists d, 0 <= d <= 1 /\ x - gx p i = d * ch p i /\ 0 <= calpha p i <= 1 / 2
    /\ cpiece p i x = cr_last (calpha p i) d (gy p (i - 1)) (gy p i) (gy p (i + 1)).
Proof.
  intros H Hl Hi Hx. assert (gx p i < gx p (i + 1)) as L by (apply H; lia).
  assert (gx p (i - 1) < gx p i) as L0 by (apply H; lia).
  destruct (fraction _ _ x L Hx) as (d & Hd & Ed). exists d. split; [exact Hd |]. split; [exact Ed |].
  assert (ch p i <> 0) as Nz by (unfold ch; lra). split.
  - unfold calpha, ch. split; [apply div_ge0; lra |].
    apply Rmult_le_reg_r with (gx p (i + 1) - gx p i + (gx p (i + 1) - gx p (i - 1))); [lra |]. field_simplify; lra.
  - unfold cpiece. fold (ch p i) in Ed. rewrite Ed. unfold k3, k2, k1. destruct (Nat.eqb_spec i 0) as [E | N0]; [lia |].
    destruct (Nat.eqb_spec (i + 2) (length p)) as [E2 | N2]; [| lia]. unfold cr_last. field. exact Nz.
Qed.

Lemma cr_last_small alpha d ym y0 y1 m : 0 <= alpha <= 1 / 2 -> 0 <= d <= 1 -> Rabs ym <= m -> Rabs y0 <= m -> Rabs y1 <= m ->
  Rabs (cr_last alpha d ym y0 y1) <= 2 * m.
Proof.
  intros A D Ym Y0 Y1. assert (0 <= m) as Pm by (pose proof (Rabs_pos ym); lra).
  assert (0 <= d * (1 - d) ^ 2) as P1 by (apply Rmult_le_pos; [lra | apply pow2_ge_0]).
  assert (0 <= alpha * (d * (1 - d) ^ 2)) as Wm by (apply Rmult_le_pos; lra).
  assert (0 <= (1 - d) * (1 + d - d ^ 2)) as W0 by (apply Rmult_le_pos; [lra | nra]).
  assert (0 <= alpha * (1 - 2 * d - d ^ 2) + 2 * d) as P2.
  { assert (0 <= alpha * (1 - d ^ 2)) by (apply Rmult_le_pos; [lra | nra]). assert (alpha * d <= 1 / 2 * d) by (apply Rmult_le_compat_r; lra). lra. }
  assert (0 <= d * (alpha * (1 - 2 * d - d ^ 2) + 2 * d)) as W1 by (apply Rmult_le_pos; lra).
  assert (alpha * (d * (1 - d) ^ 2) + (1 - d) * (1 + d - d ^ 2) + d * (alpha * (1 - 2 * d - d ^ 2) + 2 * d) <= 2) as S.
  { replace (alpha * (d * (1 - d) ^ 2) + (1 - d) * (1 + d - d ^ 2) + d * (alpha * (1 - 2 * d - d ^ 2) + 2 * d))
      with (1 + d ^ 3 + 2 * alpha * (d * (1 - 2 * d))) by ring.
    assert (0 <= d ^ 3 <= 1) as D3 by (split; [apply pow_le; lra | rewrite <- (pow1 3); apply pow_incr; lra]).
    destruct (Rle_lt_dec 0 (1 - 2 * d)) as [C | C].
    - assert (0 <= d * (1 - 2 * d)) as Q by (apply Rmult_le_pos; lra).
      assert (2 * alpha * (d * (1 - 2 * d)) <= 1 * (d * (1 - 2 * d))) by (apply Rmult_le_compat_r; lra).
      assert (d ^ 3 + d * (1 - 2 * d) = d * (1 - d) ^ 2) as E by ring.
      assert (d * (1 - d) ^ 2 <= 1 * 1); [| lra]. apply Rmult_le_compat; [lra | apply pow2_ge_0 | lra |].
      rewrite <- (pow1 2). apply pow_incr. lra.
    - assert (d * (1 - 2 * d) <= 0) as Q by nra. assert (2 * alpha * (d * (1 - 2 * d)) <= 0) by nra. lra. }
  unfold cr_last. set (wm := alpha * (d * (1 - d) ^ 2)) in *. set (w0 := (1 - d) * (1 + d - d ^ 2)) in *.
  set (w1 := d * (alpha * (1 - 2 * d - d ^ 2) + 2 * d)) in *.
  apply Rle_trans with (wm * m + w0 * m + w1 * m).
  - eapply Rle_trans; [apply Rabs_triang |]. apply Rplus_le_compat; [eapply Rle_trans; [apply Rabs_triang |]; apply Rplus_le_compat |];
      rewrite Rabs_mult, ?Rabs_Ropp, Rabs_pos_eq by lra; apply Rmult_le_compat_l; lra.
  - replace (wm * m + w0 * m + w1 * m) with ((wm + w0 + w1) * m) by ring. apply Rmult_le_compat_r; lra.
Qed.

(** A point in range is up to the last knot but one or in the last cell. *)
Lemma early_or_last p x : increasing p -> (3 <= length p)%nat -> gx p 0 <= x <= gx p (last_of p) ->
  gx p 0 <= x <= gx p (last_of p - 1) \/ exists i, (i + 2 = length p)%nat /\ gx p i <= x <= gx p (i + 1).
Proof.
  intros H Hl Hx. destruct (Rle_lt_dec x (gx p (last_of p - 1))) as [C | C]; [left; lra |]. right. exists (last_of p - 1)%nat.
  unfold last_of in *. split; [lia |]. replace (length p - 1 - 1 + 1)%nat with (length p - 1)%nat by lia. lra.
Qed.

(** ** C91 *)

(** Linear: the value moves by no more than the ordinates. *)
Theorem C91_linear : forall eps p p' x, near eps p p' -> increasing p -> (2 <= length p)%nat ->
  gx p 0 <= x <= gx p (last_of p) ->
  exists v v', fit_eval (Linear RV) p x = Ret (Ok v) /\ fit_eval (Linear RV) p' x = Ret (Ok v') /\ Rabs (v' - v) <= eps.
Proof.
  intros eps p p' x N H Hl Hx. destruct (g_cell p x H Hl Hx) as (i & Hi & Ci).
  pose proof (near_inc eps p p' N H) as H'. destruct N as (L & N).
  destruct (N i ltac:(lia)) as (X0 & Y0), (N (i + 1)%nat Hi) as (X1 & Y1).
  exists (chord p i x), (chord p' i x). split; [now apply linear_closed |].
  split; [apply linear_closed; [exact H' | lia | now rewrite X0, X1] |].
  assert (gx p i < gx p (i + 1)) as Lt by (apply H; lia). destruct (fraction _ _ x Lt Ci) as (d & Hd & Ed).
  unfold chord. rewrite X0, X1, Ed. apply abs_inv in Y0, Y1. apply Rabs_le.
  replace (gy p' i + (gy p' (i + 1) - gy p' i) / (gx p (i + 1) - gx p i) * (d * (gx p (i + 1) - gx p i))
    - (gy p i + (gy p (i + 1) - gy p i) / (gx p (i + 1) - gx p i) * (d * (gx p (i + 1) - gx p i))))
    with ((1 - d) * (gy p' i - gy p i) + d * (gy p' (i + 1) - gy p (i + 1))) by (field; lra).
  split; nra.
Qed.
Print Assumptions C91_linear.

(** Catmull-Rom: by no more than 7/5 of it, up to the last knot but one. *)
Theorem C91_catmull_rom_inner : forall eps p p' x, near eps p p' -> increasing p -> (3 <= length p)%nat ->
  gx p 0 <= x <= gx p (last_of p - 1) ->
  exists v v', fit_eval (CatmullRom RV) p x = Ret (Ok v) /\ fit_eval (CatmullRom RV) p' x = Ret (Ok v')
    /\ Rabs (v' - v) <= 7 / 5 * eps.
Proof.
  intros eps p p' x N H Hl Hx. destruct (early_cell p x H Hl Hx) as (i & Hi & Ci).
  pose proof (near_inc eps p p' N H) as H'. destruct N as (L & N).
  assert (forall j, (j < length p)%nat -> - eps <= gy p' j - gy p j <= eps) as Y.
  { intros j Hj. apply abs_inv, N, Hj. }
  destruct (N i ltac:(lia)) as (X0 & _), (N (i + 1)%nat ltac:(lia)) as (X1 & _), (N (i + 2)%nat ltac:(lia)) as (X2 & _),
    (N (i - 1)%nat ltac:(lia)) as (Xm & _).
  assert (gx p' i <= x <= gx p' (i + 1)) as Ci' by now rewrite X0, X1.
  exists (cpiece p i x), (cpiece p' i x). split; [apply cr_closed; (assumption || lia) |].
  split; [apply cr_closed; (assumption || lia) |].
  destruct (cr_shape p i x H Hi Ci) as (d & Hd & Ed & Hb & S).
  destruct (cr_shape p' i x H' ltac:(lia) Ci') as (d' & Hd' & Ed' & _ & S').
  assert (ch p' i = ch p i) as Ec by (unfold ch; now rewrite X0, X1).
  assert (cbeta p' i = cbeta p i) as Eb by (unfold cbeta; now rewrite Ec, X1, X2).
  assert (calpha p' i = calpha p i) as Ea by (unfold calpha; now rewrite Ec, X1, Xm).
  assert (d' = d) as ->.
  { rewrite X0, Ed, Ec in Ed'. apply Rmult_eq_reg_r with (ch p i); [symmetry; exact Ed' |]. unfold ch.
    assert (gx p i < gx p (i + 1)) by (apply H; lia). lra. }
  pose proof (Y i ltac:(lia)) as Y0. pose proof (Y (i + 1)%nat ltac:(lia)) as Y1. pose proof (Y (i + 2)%nat ltac:(lia)) as Y2.
  pose proof (Y (i - 1)%nat ltac:(lia)) as Ym. apply Rabs_le.
  destruct S as [(Z & ->) | (P & Ha & ->)], S' as [(Z' & ->) | (P' & _ & ->)]; [| lia | lia |].
  - rewrite Eb. pose proof (first_within (cbeta p i) d _ _ _ _ _ Hb Hd Y0 Y1 Y2) as W.
    replace (cr_first (cbeta p i) d (gy p' i) (gy p' (i + 1)) (gy p' (i + 2)) - cr_first (cbeta p i) d (gy p i) (gy p (i + 1)) (gy p (i + 2)))
      with (cr_first (cbeta p i) d (gy p' i - gy p i) (gy p' (i + 1) - gy p (i + 1)) (gy p' (i + 2) - gy p (i + 2)))
      by (unfold cr_first; ring). lra.
  - rewrite Eb, Ea. pose proof (inner_within (calpha p i) (cbeta p i) d _ _ _ _ _ _ Ha Hb Hd Ym Y0 Y1 Y2) as W.
    replace (cr_inner (calpha p i) (cbeta p i) d (gy p' (i - 1)) (gy p' i) (gy p' (i + 1)) (gy p' (i + 2))
       - cr_inner (calpha p i) (cbeta p i) d (gy p (i - 1)) (gy p i) (gy p (i + 1)) (gy p (i + 2)))
      with (cr_inner (calpha p i) (cbeta p i) d (gy p' (i - 1) - gy p (i - 1)) (gy p' i - gy p i) (gy p' (i + 1) - gy p (i + 1))
              (gy p' (i + 2) - gy p (i + 2))) by (unfold cr_inner; ring). lra.
Qed.
Print Assumptions C91_catmull_rom_inner.

(** And by no more than twice it on the whole range. *)
Theorem C91_catmull_rom : forall eps p p' x, near eps p p' -> increasing p -> (3 <= length p)%nat ->
  gx p 0 <= x <= gx p (last_of p) ->
  exists v v', fit_eval (CatmullRom RV) p x = Ret (Ok v) /\ fit_eval (CatmullRom RV) p' x = Ret (Ok v')
    /\ Rabs (v' - v) <= 2 * eps.
Proof.
  intros eps p p' x N H Hl Hx.
  assert (0 <= eps) as Pe by (destruct N as (_ & N); destruct (N 0%nat ltac:(lia)) as (_ & B); pose proof (Rabs_pos (gy p' 0 - gy p 0)); lra).
  destruct (early_or_last p x H Hl Hx) as [Early | (i & Hi & Ci)].
  - destruct (C91_catmull_rom_inner eps p p' x N H Hl Early) as (v & v' & E & E' & B). exists v, v'.
    split; [exact E |]. split; [exact E' |]. lra.
  - pose proof (near_inc eps p p' N H) as H'. destruct N as (L & N).
    destruct (N i ltac:(lia)) as (X0 & Y0), (N (i + 1)%nat ltac:(lia)) as (X1 & Y1), (N (i - 1)%nat ltac:(lia)) as (Xm & Ym).
    assert (gx p' i <= x <= gx p' (i + 1)) as Ci' by now rewrite X0, X1.
    exists (cpiece p i x), (cpiece p' i x). split; [apply cr_closed; (assumption || lia) |].
    split; [apply cr_closed; (assumption || lia) |].
    destruct (cr_last_shape p i x H Hl Hi Ci) as (d & Hd & Ed & Ha & ->).
    destruct (cr_last_shape p' i x H' ltac:(lia) ltac:(lia) Ci') as (d' & Hd' & Ed' & _ & ->).
    assert (ch p' i = ch p i) as Ec by (unfold ch; now rewrite X0, X1).
    assert (calpha p' i = calpha p i) as Ea by (unfold calpha; now rewrite Ec, X1, Xm).
    assert (d' = d) as ->.
    { rewrite X0, Ed, Ec in Ed'. apply Rmult_eq_reg_r with (ch p i); [symmetry; exact Ed' |]. unfold ch.
      assert (gx p i < gx p (i + 1)) by (apply H; lia). lra. }
    rewrite Ea.
    replace (cr_last (calpha p i) d (gy p' (i - 1)) (gy p' i) (gy p' (i + 1)) - cr_last (calpha p i) d (gy p (i - 1)) (gy p i) (gy p (i + 1)))
      with (cr_last (calpha p i) d (gy p' (i - 1) - gy p (i - 1)) (gy p' i - gy p i) (gy p' (i + 1) - gy p (i + 1))) by (unfold cr_last; ring).
    now apply cr_last_small.
Qed.
Print Assumptions C91_catmull_rom.

(** Two is the best constant: with the first of three points far away the last value comes close to doubling a change of the last ordinate. *)
Theorem C91_sharp : forall c, 0 <= c < 2 -> exists p p' x v v', near 1 p p' /\ increasing p /\ (3 <= length p)%nat
  /\ gx p 0 <= x <= gx p (last_of p) /\ fit_eval (CatmullRom RV) p x = Ret (Ok v) /\ fit_eval (CatmullRom RV) p' x = Ret (Ok v')
  /\ c < Rabs (v' - v).
Proof.
  intros c Hc. set (k := 2 / (2 - c)). assert (0 < k) as Pk by (apply Rdiv_lt_0_compat; lra).
  set (pts := fun y : R => [(0, 0); (k, 0); (k + 1, y)]).
  assert (forall y, increasing (pts y)) as H.
  { intros y i j Hij. unfold gx, pts. simpl in Hij. destruct i as [| [| [| i]]], j as [| [| [| j]]]; simpl; try lra; lia. }
  exists (pts 0), (pts 1), (k + 1), (cpiece (pts 0) 1 (k + 1)), (cpiece (pts 1) 1 (k + 1)).
  assert (forall y, cpiece (pts y) 1 (k + 1) = (2 - 2 / (k + 2)) * y) as E.
  { intros y. unfold cpiece, k3, k2, k1, calpha, ch, gx, gy, pts. simpl. field. split; lra. }
  split; [| split; [apply H |]].
  - split; [reflexivity |]. intros [| [| [| i]]] Hi; unfold gx, gy; simpl in *; try lia; (split; [reflexivity |]); apply Rabs_le; lra.
  - split; [simpl; lia |]. split; [unfold gx, last_of; simpl; lra |].
    split; [apply cr_closed; [apply H | simpl; lia | simpl; lia | unfold gx; simpl; lra] |].
    split; [apply cr_closed; [apply H | simpl; lia | simpl; lia | unfold gx; simpl; lra] |].
    rewrite !E. replace ((2 - 2 / (k + 2)) * 1 - (2 - 2 / (k + 2)) * 0) with (2 - 2 / (k + 2)) by ring.
    eapply Rlt_le_trans; [| apply Rle_abs]. apply Rplus_lt_reg_l with (2 / (k + 2) - c). ring_simplify.
    apply Rmult_lt_reg_r with (k + 2); [lra |]. replace (2 / (k + 2) * (k + 2)) with 2 by (field; lra).
    assert (k * (2 - c) = 2) as Ek by (unfold k; field; lra). nra.
Qed.
Print Assumptions C91_sharp.

(** Hermite: by no more than the ordinates plus a quarter of the cell width times the move of the slopes. *)
Theorem C91_hermite : forall eps dlt w p p' x, h_near eps dlt p p' -> h_increasing p -> (2 <= length p)%nat ->
  (forall i, (i + 1 < length p)%nat -> hx p (i + 1) - hx p i <= w) ->
  hx p 0 <= x <= hx p (h_last p) ->
  exists v v', hermite_eval (V := RV) p x = Ret (Ok v) /\ hermite_eval (V := RV) p' x = Ret (Ok v')
    /\ Rabs (v' - v) <= eps + w / 4 * dlt.
Proof.
  intros eps dlt w p p' x (L & N) H Hl Hw Hx. destruct (h_cell p x H Hl Hx) as (i & Hi & Ci).
  assert (h_increasing p') as H'.
  { intros a b Hab. destruct (N a ltac:(lia)) as (-> & _), (N b ltac:(lia)) as (-> & _). apply H. lia. }
  destruct (N i ltac:(lia)) as (X0 & Y0 & M0), (N (i + 1)%nat Hi) as (X1 & Y1 & M1).
  exists (hpiece p i x), (hpiece p' i x). split; [now apply hermite_closed |].
  split; [apply hermite_closed; [exact H' | lia | now rewrite X0, X1] |].
  assert (hx p i < hx p (i + 1)) as Lt by (apply H; lia). destruct (fraction _ _ x Lt Ci) as (d & Hd & Ed).
  specialize (Hw i Hi). unfold hpiece, hA, hB. rewrite X0, X1, Ed. set (h := hx p (i + 1) - hx p i) in *.
  apply abs_inv in Y0, Y1, M0, M1. apply Rabs_le.
  replace ((2 * hy p' i - 2 * hy p' (i + 1) + hm p' i * h + hm p' (i + 1) * h) / h ^ 3 * (d * h) ^ 3
    + (-3 * hy p' i + 3 * hy p' (i + 1) - 2 * hm p' i * h - hm p' (i + 1) * h) / h ^ 2 * (d * h) ^ 2 + hm p' i * (d * h) + hy p' i
    - ((2 * hy p i - 2 * hy p (i + 1) + hm p i * h + hm p (i + 1) * h) / h ^ 3 * (d * h) ^ 3
    + (-3 * hy p i + 3 * hy p (i + 1) - 2 * hm p i * h - hm p (i + 1) * h) / h ^ 2 * (d * h) ^ 2 + hm p i * (d * h) + hy p i))
    with ((1 - d ^ 2 * (3 - 2 * d)) * (hy p' i - hy p i) + d ^ 2 * (3 - 2 * d) * (hy p' (i + 1) - hy p (i + 1))
          + h * (d * (1 - d) * ((1 - d) * (hm p' i - hm p i) - d * (hm p' (i + 1) - hm p (i + 1))))) by (field; unfold h; lra).
  set (a := hy p' i - hy p i) in *. set (b := hy p' (i + 1) - hy p (i + 1)) in *.
  set (m := hm p' i - hm p i) in *. set (n := hm p' (i + 1) - hm p (i + 1)) in *.
  assert (0 <= d ^ 2 * (3 - 2 * d) <= 1) as S.
  { split; [apply Rmult_le_pos; [apply pow2_ge_0 | lra] |].
    assert (0 <= (1 - d) ^ 2 * (1 + 2 * d)) by (apply Rmult_le_pos; [apply pow2_ge_0 | lra]). nra. }
  set (s := d ^ 2 * (3 - 2 * d)) in *. clearbody s.
  assert (- eps <= (1 - s) * a + s * b <= eps) as V by (split; nra).
  assert (- dlt <= (1 - d) * m - d * n <= dlt) as T by (split; nra).
  pose proof (quarter d Hd) as Q.
  assert (0 <= dlt) as Pd by lra. assert (0 < h) as Ph by (unfold h; lra).
  set (z := (1 - d) * m - d * n) in *. clearbody z h. set (e := d * (1 - d)) in *. clearbody e.
  assert (0 <= h * e <= w / 4) as He by (split; nra).
  replace (h * (e * z)) with (h * e * z) by ring. set (g := h * e) in *. clearbody g.
  assert (- (w / 4 * dlt) <= g * z <= w / 4 * dlt) by (split; nra). lra.
Qed.
Print Assumptions C91_hermite.

(** In the last cell of Catmull-Rom the move can be magnified more than that. *)
Theorem C91_last_cell_refuted : exists eps p p' x v v', near eps p p' /\ increasing p /\ (3 <= length p)%nat
  /\ gx p 0 <= x <= gx p (last_of p)
  /\ fit_eval (CatmullRom RV) p x = Ret (Ok v) /\ fit_eval (CatmullRom RV) p' x = Ret (Ok v') /\ 7 / 5 * eps < Rabs (v' - v).
Proof.
  set (p := [(0, 5); (2, 7); (3, 11)]).
  assert (increasing p) as H.
  { intros i j H. unfold gx, p. simpl in H. destruct i as [| [| [| i]]], j as [| [| [| j]]]; simpl; try lra; lia. }
  pose proof (raised_map 1 p) as Ra. set (p' := map (fun xy => (fst xy, snd xy + 1)) p) in Ra.
  destruct (C69_catmull_rom_last_cell 1 p p' 3 Ra H ltac:(simpl; lia)) as (Ha & v & E1 & E2).
  { unfold last_of, gx, p. simpl. lra. }
  exists 1, p, p', 3, v. eexists. split.
  { destruct Ra as (L & Ra). split; [exact L |]. intros i Hi. destruct (Ra i Hi) as (-> & ->). split; [reflexivity |].
    apply Rabs_le. lra. }
  split; [exact H |]. split; [simpl; lia |]. split; [unfold last_of, gx, p; simpl; lra |].
  split; [exact E1 |]. split; [exact E2 |].
  unfold last_of, gx, p. simpl. eapply Rlt_le_trans; [| apply Rle_abs]. lra.
Qed.
Print Assumptions C91_last_cell_refuted.

(** Points a tenth apart. *)
Example C91_case : exists p p', near (1 / 10) p p' /\ increasing p /\ (3 <= length p)%nat /\ gx p 0 <= 3 / 2 <= gx p (last_of p - 1).
Proof.
  exists [(1, 5); (2, 7); (4, 11)], [(1, 5 + 1 / 20); (2, 7 - 1 / 10); (4, 11)]. split.
  - split; [reflexivity |]. intros [| [| [| i]]] Hi; unfold gx, gy; simpl in *; try lia; (split; [reflexivity |]); apply Rabs_le; lra.
  - split; [apply C24_case |]. split; [simpl; lia |]. unfold gx, last_of. simpl. lra.
Qed.

(** ** C92 *)

(** Up to the last knot but one, Catmull-Rom leaves the range of the nearest four ordinates by at most a fifth of it. *)
Theorem C92_catmull_rom_inner : forall p i x lo hi, increasing p -> (i + 2 < length p)%nat ->
  gx p i <= x <= gx p (i + 1) ->
  (forall j, (i <= j + 1 /\ j <= i + 2)%nat -> lo <= gy p j <= hi) ->
  exists v, fit_eval (CatmullRom RV) p x = Ret (Ok v) /\ lo - (hi - lo) / 5 <= v <= hi + (hi - lo) / 5.
Proof.
  intros p i x lo hi H Hi Ci Y. exists (cpiece p i x). split; [apply cr_closed; (assumption || lia) |].
  pose proof (Y i ltac:(lia)) as Y0. pose proof (Y (i + 1)%nat ltac:(lia)) as Y1. pose proof (Y (i + 2)%nat ltac:(lia)) as Y2.
  destruct (cr_shape p i x H Hi Ci) as (d & Hd & Ed & Hb & [(Z & ->) | (P & Ha & ->)]).
  - now apply first_within.
  - pose proof (Y (i - 1)%nat ltac:(lia)) as Ym. now apply inner_within.
Qed.
Print Assumptions C92_catmull_rom_inner.

(** On the whole range Catmull-Rom is at most twice as large as the ordinates. *)
Theorem C92_catmull_rom_size : forall p x m, increasing p -> (3 <= length p)%nat -> gx p 0 <= x <= gx p (last_of p) ->
  (forall j, (j < length p)%nat -> Rabs (gy p j) <= m) ->
  exists v, fit_eval (CatmullRom RV) p x = Ret (Ok v) /\ Rabs v <= 2 * m.
Proof.
  intros p x m H Hl Hx Y. assert (0 <= m) as Pm by (pose proof (Y 0%nat ltac:(lia)); pose proof (Rabs_pos (gy p 0)); lra).
  destruct (early_or_last p x H Hl Hx) as [Early | (i & Hi & Ci)].
  - destruct (early_cell p x H Hl Early) as (i & Hi & Ci).
    destruct (C92_catmull_rom_inner p i x (- m) m H Hi Ci) as (v & E & B).
    + intros j Hj. pose proof (Y j ltac:(lia)) as B. apply abs_inv in B. lra.
    + exists v. split; [exact E |]. apply Rabs_le. lra.
  - exists (cpiece p i x). split; [apply cr_closed; (assumption || lia) |].
    destruct (cr_last_shape p i x H Hl Hi Ci) as (d & Hd & _ & Ha & ->). apply cr_last_small; try assumption; apply Y; lia.
Qed.
Print Assumptions C92_catmull_rom_size.

(** Hermite leaves the range of the two ordinates by at most a quarter of the cell width times the larger slope. *)
Theorem C92_hermite : forall p i x lo hi m, h_increasing p -> (i + 1 < length p)%nat -> hx p i <= x <= hx p (i + 1) ->
  lo <= hy p i <= hi -> lo <= hy p (i + 1) <= hi -> Rabs (hm p i) <= m -> Rabs (hm p (i + 1)) <= m ->
  let w := hx p (i + 1) - hx p i in
  exists v, hermite_eval (V := RV) p x = Ret (Ok v) /\ lo - w / 4 * m <= v <= hi + w / 4 * m.
Proof.
  intros p i x lo hi m H Hi Ci Y0 Y1 M0 M1 w. exists (hpiece p i x). split; [now apply hermite_closed |].
  assert (hx p i < hx p (i + 1)) as Lt by (apply H; lia). destruct (fraction _ _ x Lt Ci) as (d & Hd & Ed).
  unfold hpiece, hA, hB. rewrite Ed. fold w. apply abs_inv in M0, M1.
  replace ((2 * hy p i - 2 * hy p (i + 1) + hm p i * w + hm p (i + 1) * w) / w ^ 3 * (d * w) ^ 3
    + (-3 * hy p i + 3 * hy p (i + 1) - 2 * hm p i * w - hm p (i + 1) * w) / w ^ 2 * (d * w) ^ 2 + hm p i * (d * w) + hy p i)
    with ((1 - d ^ 2 * (3 - 2 * d)) * hy p i + d ^ 2 * (3 - 2 * d) * hy p (i + 1)
          + w * (d * (1 - d)) * ((1 - d) * hm p i - d * hm p (i + 1))) by (field; unfold w; lra).
  assert (0 <= d ^ 2 * (3 - 2 * d) <= 1) as S.
  { split; [apply Rmult_le_pos; [apply pow2_ge_0 | lra] |].
    assert (0 <= (1 - d) ^ 2 * (1 + 2 * d)) by (apply Rmult_le_pos; [apply pow2_ge_0 | lra]). nra. }
  set (s := d ^ 2 * (3 - 2 * d)) in *. clearbody s.
  assert (lo <= (1 - s) * hy p i + s * hy p (i + 1) <= hi) as V by (split; nra).
  assert (- m <= (1 - d) * hm p i - d * hm p (i + 1) <= m) as T by (split; nra).
  pose proof (quarter d Hd) as Q.
  assert (0 < w) as Pw by (unfold w; lra).
  set (z := (1 - d) * hm p i - d * hm p (i + 1)) in *. clearbody z. set (e := d * (1 - d)) in *. clearbody e. clearbody w.
  assert (0 <= w * e <= w / 4) as He by (split; nra). set (g := w * e) in *. clearbody g.
  assert (- (w / 4 * m) <= g * z <= w / 4 * m) by (split; nra). lra.
Qed.
Print Assumptions C92_hermite.

(** Not so in Catmull-Rom's last cell, even through equal ordinates. *)
Theorem C92_last_cell_refuted : exists p x y v, increasing p /\ (3 <= length p)%nat /\ gx p 0 <= x <= gx p (last_of p)
  /\ (forall j, (j < length p)%nat -> gy p j = y) /\ fit_eval (CatmullRom RV) p x = Ret (Ok v) /\ y < v.
Proof.
  set (p := [(0, 1); (2, 1); (3, 1)]).
  assert (increasing p) as H.
  { intros i j H. unfold gx, p. simpl in H. destruct i as [| [| [| i]]], j as [| [| [| j]]]; simpl; try lra; lia. }
  pose proof (C30_last_knot p H ltac:(simpl; lia)) as (E & _). cbv zeta in E. unfold last_of, gx, gy in E. simpl in E.
  exists p, 3, 1. eexists. split; [exact H |]. split; [simpl; lia |]. split; [unfold last_of, gx; simpl; lra |].
  split; [intros [| [| [| j]]] Hj; simpl in Hj; try lia; reflexivity |]. split; [exact E |]. lra.
Qed.
Print Assumptions C92_last_cell_refuted.

(** Through ordinates 0, 1, 1, 0: the range [0, 1] is indeed left. *)
Example C92_case : exists p i x lo hi, increasing p /\ (i + 2 < length p)%nat /\ gx p i <= x <= gx p (i + 1)
  /\ (forall j, (i <= j + 1 /\ j <= i + 2)%nat -> lo <= gy p j <= hi)
  /\ exists v, fit_eval (CatmullRom RV) p x = Ret (Ok v) /\ hi < v.
Proof.
  set (p := [(0, 0); (1, 1); (2, 1); (3, 0); (4, 0)]).
  assert (increasing p) as H.
  { intros i j H. unfold gx, p. simpl in H.
    destruct i as [| [| [| [| [| i]]]]], j as [| [| [| [| [| j]]]]]; simpl; try lra; lia. }
  exists p, 1%nat, (3 / 2), 0, 1. split; [exact H |]. split; [simpl; lia |]. split; [unfold gx; simpl; lra |]. split.
  - intros j Hj. assert (j < 4)%nat as L by lia. destruct j as [| [| [| [| j]]]]; try lia; unfold gy; simpl; lra.
  - exists (cpiece p 1 (3 / 2)). split; [apply cr_closed; [exact H | simpl; lia | simpl; lia | unfold gx; simpl; lra] |].
    unfold cpiece, k3, k2, k1, calpha, cbeta, ch, gx, gy. simpl. lra.
Qed.

(** ** C93 *)

(** Yields for the same maturities, at most [eps] apart. *)
Definition yields_near (eps : R) (ys ys' : list R) : Prop :=
  length ys' = length ys /\ forall i y y', nth_error ys i = Some y -> nth_error ys' i = Some y' -> Rabs (y' - y) <= eps.

Lemma points_near eps t ms ys ys' : length ms = length ys -> yields_near eps ys ys' ->
  near eps (curve_points t ms ys) (curve_points t ms ys').
Proof.
  intros Hl (L & N). split; [rewrite !curve_points_length; congruence |].
  intros i Hi. rewrite curve_points_length in Hi by exact Hl.
  destruct (nth_error ms i) as [m |] eqn:Em; [| apply nth_error_None in Em; lia].
  destruct (nth_error ys i) as [y |] eqn:Ey; [| apply nth_error_None in Ey; lia].
  destruct (nth_error ys' i) as [y' |] eqn:Ey'; [| apply nth_error_None in Ey'; lia].
  destruct (curve_points_nth t ms ys i m y Hl Em Ey) as (_ & -> & ->).
  destruct (curve_points_nth t ms ys' i m y') as (_ & -> & ->); auto; [congruence |]. split; [reflexivity |]. eauto.
Qed.

(** [v'] is [v] up to a factor between exp(-k) and exp(k). *)
Definition within_factor (k v v' : R) : Prop := v * exp (- k) <= v' <= v * exp k.

Lemma exp_le_mono a b : a <= b -> exp a <= exp b.
Proof. intros [H | ->]; [left; now apply exp_increasing | right; reflexivity]. Qed.

Lemma exp_within k a b : - k <= b - a <= k -> within_factor k (exp a) (exp b).
Proof. intros H. split; rewrite <- exp_plus; apply exp_le_mono; lra. Qed.

(** Two curves whose yields are within [k] of each other at the times [Q]. *)
Lemma near_curves (D : DayCount RV) (I : Interpolator RV) s ms (ys ys' : list R) (t : Date -> R) (Q : R -> Prop) k :
  length ms = length ys -> length ys' = length ys -> (forall m, D s m = Ret (Ok (t m))) -> t s = 0 ->
  (forall x v, Q x -> fit_eval I (curve_points t ms ys) x = Ret (Ok v) ->
     exists v', fit_eval I (curve_points t ms ys') x = Ret (Ok v') /\ Rabs (v' - v) <= k) ->
  (exists x v, Q x /\ fit_eval I (curve_points t ms ys) x = Ret (Ok v)) ->
  exists c c', curve_new D I s ms ys = Ret (Ok c) /\ curve_new D I s ms ys' = Ret (Ok c')
    /\ forall d1 d2 v, discount_factor D c d1 d2 = Ret (Ok v) -> 0 <= t d1 -> 0 <= t d2 -> (d1 = s \/ Q (t d1)) -> Q (t d2) ->
       exists v', discount_factor D c' d1 d2 = Ret (Ok v') /\ within_factor (k * (t d1 + t d2)) v v'.
Proof.
  intros Hl L Ht Ts Mv (x0 & v0 & Q0 & E0). assert (length ms = length ys') as Hl' by congruence.
  pose proof (C43_fit RV D I s ms ys t Hl (fun m _ => Ht m)) as F. pose proof (C43_fit RV D I s ms ys' t Hl' (fun m _ => Ht m)) as F'.
  cbv zeta in F, F'. change (combine (map t ms) ys) with (curve_points t ms ys) in F.
  change (combine (map t ms) ys') with (curve_points t ms ys') in F'.
  destruct (Mv _ _ Q0 E0) as (v0' & E0' & _). unfold fit_eval in E0, E0'.
  destruct (i_try_fit I (i_default I) (curve_points t ms ys)) as [[f | e] | |]; try discriminate.
  destruct (i_try_fit I (i_default I) (curve_points t ms ys')) as [[f' | e] | |]; try discriminate.
  destruct F as (c & Ec & Es & Ev). destruct F' as (c' & Ec' & Es' & Ev').
  exists c, c'. split; [exact Ec |]. split; [exact Ec' |]. intros d1 d2 v H P1 P2 Q1 Q2.
  apply df_ok in H. rewrite Es in H. destruct H as (O1 & O2 & t2 & y2 & E2 & Y2 & C).
  pose proof (eq_trans (eq_sym (Ht d2)) E2) as T2. injection T2 as <-.
  assert (~ earlier d2 s) as O3 by (unfold earlier in *; lia).
  rewrite <- Ev in Y2. destruct (Mv _ _ Q2 Y2) as (y2' & Y2' & B2). rewrite Ev' in Y2'. apply abs_inv in B2.
  rewrite <- Es' in O2, O3, E2.
  destruct (df_intro D I c' d1 d2 (t d2) y2' O1 O2 O3 E2 Y2') as (K1 & K2). rewrite Es' in K1, K2.
  destruct C as [(-> & ->) | (Nd & t1 & y1 & E1 & Y1 & ->)].
  - eexists. split; [now apply K1 |]. apply exp_within. rewrite Ts. split; nra.
  - pose proof (eq_trans (eq_sym (Ht d1)) E1) as T1. injection T1 as <-.
    destruct Q1 as [Q1 | Q1]; [contradiction |].
    rewrite <- Ev in Y1. destruct (Mv _ _ Q1 Y1) as (y1' & Y1' & B1). rewrite Ev' in Y1'. apply abs_inv in B1.
    eexists. split; [now apply (K2 (t d1) y1') |]. apply exp_within.
    assert (- (k * t d1) <= t d1 * (y1' - y1) <= k * t d1) by (split; nra).
    assert (- (k * t d2) <= t d2 * (y2' - y2) <= k * t d2) by (split; nra). lra.
Qed.

Lemma act_clock (D : DayCount RV) s : D = act_360 RV \/ D = act_365 RV -> a_date s ->
  exists t, (forall m, D s m = Ret (Ok (t m))) /\ t s = 0
    /\ (forall a b, a_date a -> a_date b -> (earlier a b <-> t a < t b)).
Proof.
  intros HD As. destruct (C19_laws D HD) as (f & Hf & _ & _ & Mono & Zero). exists (f s).
  split; [intros m; apply Hf |]. split; [now apply Zero |]. intros a b Ha Hb. now apply Mono.
Qed.

Lemma clock_increasing (D : DayCount RV) s ms (ys : list R) t : D = act_360 RV \/ D = act_365 RV -> (forall m, D s m = Ret (Ok (t m))) ->
  length ms = length ys -> (forall m, In m ms -> a_date m) ->
  (forall i j mi mj, (i < j)%nat -> nth_error ms i = Some mi -> nth_error ms j = Some mj -> earlier mi mj) ->
  increasing (curve_points t ms ys).
Proof.
  intros HD Ht Hl Am Om. destruct (C42_actual_times D s ms ys HD Hl Am Om) as (t' & Ht' & Inc).
  assert (curve_points t ms ys = curve_points t' ms ys) as E.
  { unfold curve_points. f_equal. apply map_ext. intros m. pose proof (eq_trans (eq_sym (Ht m)) (Ht' m)) as Q. now injection Q. }
  rewrite E. exact Inc.
Qed.

Lemma not_before (D : DayCount RV) (I : Interpolator RV) s ms (ys : list R) c d1 d2 v : curve_new D I s ms ys = Ret (Ok c) ->
  settlement_date c = s -> discount_factor D c d1 d2 = Ret (Ok v) -> ~ earlier d1 s /\ ~ earlier d2 s.
Proof.
  intros Hc Es H. apply df_ok in H. rewrite Es in H. destruct H as (O1 & O2 & _). unfold earlier in *. lia.
Qed.

Lemma built_at (D : DayCount RV) (I : Interpolator RV) s ms (ys : list R) (t : Date -> R) c : length ms = length ys ->
  (forall m, D s m = Ret (Ok (t m))) -> curve_new D I s ms ys = Ret (Ok c) -> settlement_date c = s.
Proof.
  intros Hl Ht Hc. pose proof (C43_fit RV D I s ms ys t Hl (fun m _ => Ht m)) as F. cbv zeta in F.
  change (combine (map t ms) ys) with (curve_points t ms ys) in F.
  destruct (i_try_fit I (i_default I) (curve_points t ms ys)) as [[f | e] | |].
  - destruct F as (c' & E' & Es & _). rewrite E' in Hc. injection Hc as <-. exact Es.
  - rewrite F in Hc. discriminate.
  - rewrite F in Hc. discriminate.
  - rewrite F in Hc. discriminate.
Qed.

(** Linear curves: yields at most [eps] apart give factors apart by at most exp(eps * (t1 + t2)), where [t1] and [t2] are
    the times of the two dates (so t1 = 0 for a factor from the curve's settlement). *)
Theorem C93_linear : forall D s (ms : list Date) (ys ys' : list R) eps, D = act_360 RV \/ D = act_365 RV ->
  length ms = length ys -> (2 <= length ms)%nat -> a_date s -> (forall m, In m ms -> a_date m) ->
  (forall i j mi mj, (i < j)%nat -> nth_error ms i = Some mi -> nth_error ms j = Some mj -> earlier mi mj) ->
  yields_near eps ys ys' ->
  exists c c' t, curve_new D (Linear RV) s ms ys = Ret (Ok c) /\ curve_new D (Linear RV) s ms ys' = Ret (Ok c')
    /\ (forall d, D s d = Ret (Ok (t d)))
    /\ forall d1 d2 v, a_date d1 -> a_date d2 -> discount_factor D c d1 d2 = Ret (Ok v) ->
       exists v', discount_factor D c' d1 d2 = Ret (Ok v') /\ within_factor (eps * (t d1 + t d2)) v v'.
Proof.
  intros D s ms ys ys' eps HD Hl H2 As Am Om N. destruct (act_clock D s HD As) as (t & Ht & Ts & Mono).
  pose proof (clock_increasing D s ms ys t HD Ht Hl Am Om) as Inc. pose proof (curve_points_length t ms ys Hl) as Lp.
  destruct (near_curves D (Linear RV) s ms ys ys' t (fun _ => True) eps Hl (proj1 N) Ht Ts) as (c & c' & Ec & Ec' & Mv).
  - intros x v _ E. pose proof (linear_ok_range _ x v (increasing_sorted _ Inc) E) as Hx.
    assert (2 <= length (curve_points t ms ys))%nat as L2 by (rewrite Lp; exact H2).
    destruct (C91_linear eps _ _ x (points_near eps t ms ys ys' Hl N) Inc L2 Hx) as (u & u' & E1 & E2 & B).
    rewrite E in E1. injection E1 as ->. eauto.
  - exists (gx (curve_points t ms ys) 0), (gy (curve_points t ms ys) 0). split; [exact Logic.I |].
    apply C24_knots; [exact Inc | lia | lia].
  - exists c, c', t. split; [exact Ec |]. split; [exact Ec' |]. split; [exact Ht |]. intros d1 d2 v A1 A2 H.
    destruct (not_before D (Linear RV) s ms ys c d1 d2 v Ec (built_at D _ s ms ys t c Hl Ht Ec) H) as (O1 & O2).
    rewrite Mono, Ts in O1, O2 by assumption. apply Mv; auto; lra.
Qed.
Print Assumptions C93_linear.

(** Catmull-Rom curves: 7/5 of that, for dates up to the last maturity but one. *)
Theorem C93_catmull_rom_inner : forall D s (ms : list Date) (ys ys' : list R) eps m1, D = act_360 RV \/ D = act_365 RV ->
  length ms = length ys -> (3 <= length ms)%nat -> a_date s -> (forall m, In m ms -> a_date m) ->
  (forall i j mi mj, (i < j)%nat -> nth_error ms i = Some mi -> nth_error ms j = Some mj -> earlier mi mj) ->
  yields_near eps ys ys' -> nth_error ms (length ms - 2) = Some m1 ->
  exists c c' t, curve_new D (CatmullRom RV) s ms ys = Ret (Ok c) /\ curve_new D (CatmullRom RV) s ms ys' = Ret (Ok c')
    /\ (forall d, D s d = Ret (Ok (t d)))
    /\ forall d1 d2 v, a_date d1 -> a_date d2 -> ~ earlier m1 d2 -> discount_factor D c d1 d2 = Ret (Ok v) ->
       exists v', discount_factor D c' d1 d2 = Ret (Ok v') /\ within_factor (7 / 5 * eps * (t d1 + t d2)) v v'.
Proof.
  intros D s ms ys ys' eps m1 HD Hl H2 As Am Om N E1. destruct (act_clock D s HD As) as (t & Ht & Ts & Mono).
  pose proof (clock_increasing D s ms ys t HD Ht Hl Am Om) as Inc. pose proof (curve_points_length t ms ys Hl) as Lp.
  assert (gx (curve_points t ms ys) (last_of (curve_points t ms ys) - 1) = t m1) as X1.
  { unfold last_of. rewrite Lp. replace (length ms - 1 - 1)%nat with (length ms - 2)%nat by lia.
    destruct (nth_error ys (length ms - 2)) as [y |] eqn:Ey; [| apply nth_error_None in Ey; lia].
    exact (proj1 (proj2 (curve_points_nth t ms ys _ m1 y Hl E1 Ey))). }
  assert (a_date m1) as A1 by (apply Am; exact (nth_error_In _ _ E1)).
  destruct (near_curves D (CatmullRom RV) s ms ys ys' t (fun x => x <= t m1) (7 / 5 * eps) Hl (proj1 N) Ht Ts) as (c & c' & Ec & Ec' & Mv).
  - intros x v Qx E. assert (3 <= length (curve_points t ms ys))%nat as L3 by (rewrite Lp; exact H2).
    pose proof (cr_ok_range _ x v Inc L3 E) as (Hx & _).
    destruct (C91_catmull_rom_inner eps _ _ x (points_near eps t ms ys ys' Hl N) Inc L3) as (u & u' & Eu & E2 & B);
      [rewrite X1; split; assumption |].
    rewrite E in Eu. injection Eu as ->. eauto.
  - exists (gx (curve_points t ms ys) 0), (cpiece (curve_points t ms ys) 0 (gx (curve_points t ms ys) 0)). split.
    + rewrite <- X1. left. apply Inc. unfold last_of. lia.
    + apply cr_closed; [exact Inc | lia | lia |]. split; [lra | left; apply Inc; lia].
  - exists c, c', t. split; [exact Ec |]. split; [exact Ec' |]. split; [exact Ht |]. intros d1 d2 v B1 B2 O H.
    destruct (not_before D _ s ms ys c d1 d2 v Ec (built_at D _ s ms ys t c Hl Ht Ec) H) as (O1 & O2).
    pose proof (df_ok D _ c d1 d2 v H) as (O12 & _). rewrite Mono in O, O1, O2, O12 by assumption.
    rewrite Ts in O1, O2. apply Mv; auto; try lra.
Qed.
Print Assumptions C93_catmull_rom_inner.

(** And for all dates with twice the change of the yields. *)
Theorem C93_catmull_rom : forall D s (ms : list Date) (ys ys' : list R) eps, D = act_360 RV \/ D = act_365 RV ->
  length ms = length ys -> (3 <= length ms)%nat -> a_date s -> (forall m, In m ms -> a_date m) ->
  (forall i j mi mj, (i < j)%nat -> nth_error ms i = Some mi -> nth_error ms j = Some mj -> earlier mi mj) ->
  yields_near eps ys ys' ->
  exists c c' t, curve_new D (CatmullRom RV) s ms ys = Ret (Ok c) /\ curve_new D (CatmullRom RV) s ms ys' = Ret (Ok c')
    /\ (forall d, D s d = Ret (Ok (t d)))
    /\ forall d1 d2 v, a_date d1 -> a_date d2 -> discount_factor D c d1 d2 = Ret (Ok v) ->
       exists v', discount_factor D c' d1 d2 = Ret (Ok v') /\ within_factor (2 * eps * (t d1 + t d2)) v v'.
Proof.
  intros D s ms ys ys' eps HD Hl H2 As Am Om N. destruct (act_clock D s HD As) as (t & Ht & Ts & Mono).
  pose proof (clock_increasing D s ms ys t HD Ht Hl Am Om) as Inc. pose proof (curve_points_length t ms ys Hl) as Lp.
  assert (3 <= length (curve_points t ms ys))%nat as L3 by (rewrite Lp; exact H2).
  destruct (near_curves D (CatmullRom RV) s ms ys ys' t (fun _ => True) (2 * eps) Hl (proj1 N) Ht Ts) as (c & c' & Ec & Ec' & Mv).
  - intros x v _ E. pose proof (cr_ok_range _ x v Inc L3 E) as Hx.
    destruct (C91_catmull_rom eps _ _ x (points_near eps t ms ys ys' Hl N) Inc L3 Hx) as (u & u' & Eu & E2 & B).
    rewrite E in Eu. injection Eu as ->. eauto.
  - exists (gx (curve_points t ms ys) 0), (cpiece (curve_points t ms ys) 0 (gx (curve_points t ms ys) 0)). split; [exact Logic.I |].
    apply cr_closed; [exact Inc | lia | lia |]. split; [lra | left; apply Inc; lia].
  - exists c, c', t. split; [exact Ec |]. split; [exact Ec' |]. split; [exact Ht |]. intros d1 d2 v A1 A2 H.
    destruct (not_before D (CatmullRom RV) s ms ys c d1 d2 v Ec (built_at D _ s ms ys t c Hl Ht Ec) H) as (O1 & O2).
    rewrite Mono, Ts in O1, O2 by assumption. apply Mv; auto; lra.
Qed.
Print Assumptions C93_catmull_rom.

(** Past the last maturity but one there is no such bound: a last maturity one day after the one before. *)
Theorem C93_last_cell_refuted : exists s ms (ys ys' : list R) eps c c' d (t : Date -> R) v v',
  length ms = length ys /\ (3 <= length ms)%nat /\ a_date s /\ (forall m, In m ms -> a_date m)
  /\ (forall i j mi mj, (i < j)%nat -> nth_error ms i = Some mi -> nth_error ms j = Some mj -> earlier mi mj)
  /\ yields_near eps ys ys' /\ (forall d, act_365 RV s d = Ret (Ok (t d)))
  /\ curve_new (act_365 RV) (CatmullRom RV) s ms ys = Ret (Ok c)
  /\ curve_new (act_365 RV) (CatmullRom RV) s ms ys' = Ret (Ok c')
  /\ discount_factor (act_365 RV) c s d = Ret (Ok v) /\ discount_factor (act_365 RV) c' s d = Ret (Ok v')
  /\ ~ within_factor (7 / 5 * eps * (t s + t d)) v v'.
Proof.
  set (s := mkDate 2024 2 29). set (ms := [mkDate 2025 2 28; mkDate 2028 2 27; mkDate 2028 2 28]). set (d := mkDate 2028 2 28).
  assert (a_date s) as As by now apply valid_a_date.
  assert (forall m, In m ms -> a_date m) as Am by (intros m [<- | [<- | [<- | []]]]; now apply valid_a_date).
  assert (forall i j mi mj, (i < j)%nat -> nth_error ms i = Some mi -> nth_error ms j = Some mj -> earlier mi mj) as Om.
  { intros [| [| [| i]]] [| [| [| j]]] mi mj Hij Ei Ej; simpl in Ei, Ej; try lia;
      try (destruct i; discriminate Ei); try (destruct j; discriminate Ej);
      injection Ei as <-; injection Ej as <-; unfold earlier; simpl; lia. }
  destruct (act_clock (act_365 RV) s (or_intror eq_refl) As) as (t & Ht & Ts & Mono).
  assert (forall m k, date_sub m s = k -> t m = IZR k / 365) as T.
  { intros m k Q. specialize (Ht m). unfold act_365 in Ht. rewrite Q in Ht. simpl in Ht. injection Ht as <-. reflexivity. }
  assert (forall y, exists c, curve_new (act_365 RV) (CatmullRom RV) s ms [y; y; y] = Ret (Ok c)
    /\ discount_factor (act_365 RV) c s d = Ret (Ok (exp (- t d * ((2 - 2 * (1 / 1096)) * y))))) as G.
  { intros y. assert (length ms = length [y; y; y]) as Hl by reflexivity.
    pose proof (clock_increasing (act_365 RV) s ms [y; y; y] t (or_intror eq_refl) Ht Hl Am Om) as Iy.
    pose proof (C30_last_knot (curve_points t ms [y; y; y]) Iy ltac:(simpl; lia)) as (E & _). cbv zeta in E.
    change (last_of (curve_points t ms [y; y; y])) with 2%nat in *.
    change (2 - 1)%nat with 1%nat in *. change (2 - 2)%nat with 0%nat in *.
    change (gx (curve_points t ms [y; y; y]) 2) with (t d) in E.
    change (gx (curve_points t ms [y; y; y]) 1) with (t (mkDate 2028 2 27)) in E.
    change (gx (curve_points t ms [y; y; y]) 0) with (t (mkDate 2025 2 28)) in E.
    change (gy (curve_points t ms [y; y; y]) 2) with y in E.
    replace ((t d - t (mkDate 2028 2 27)) / (t d - t (mkDate 2028 2 27) + (t d - t (mkDate 2025 2 28)))) with (1 / 1096) in E.
    2: { rewrite (T d 1460%Z eq_refl), (T (mkDate 2028 2 27) 1459%Z eq_refl), (T (mkDate 2025 2 28) 365%Z eq_refl). lra. }
    assert (forall m, In m ms -> act_365 RV s m = Ret (Ok (t m))) as Ht' by (intros m _; apply Ht).
    pose proof (C43_fit RV (act_365 RV) (CatmullRom RV) s ms [y; y; y] t eq_refl Ht') as F. cbv zeta in F.
    change (combine (map t ms) [y; y; y]) with (curve_points t ms [y; y; y]) in F.
    unfold fit_eval in E, F.
    destruct (i_try_fit (CatmullRom RV) (i_default (CatmullRom RV)) (curve_points t ms [y; y; y])) as [[f | e] | |]; try discriminate.
    destruct F as (c & Ec & Es & Ev). exists c. split; [exact Ec |].
    assert (~ earlier d s) as O by (unfold earlier, d, s; simpl; lia).
    rewrite <- Es in O |- *. apply (df_intro (act_365 RV) (CatmullRom RV) c (settlement_date c) d (t d)); auto;
      [apply not_earlier_refl | rewrite Es; apply Ht |]. rewrite <- Ev. exact E. }
  destruct (G 0) as (c & Ec & E1), (G (1 / 100)) as (c' & Ec' & E2).
  exists s, ms, [0; 0; 0], [1 / 100; 1 / 100; 1 / 100], (1 / 100), c, c', d, t. do 2 eexists.
  split; [reflexivity |]. split; [simpl; lia |]. split; [exact As |]. split; [exact Am |]. split; [exact Om |].
  split.
  { split; [reflexivity |]. intros [| [| [| i]]] y y' E E'; simpl in E, E'; try (destruct i; discriminate E);
      injection E as <-; injection E' as <-; apply Rabs_le; lra. }
  split; [exact Ht |]. split; [exact Ec |]. split; [exact Ec' |]. split; [exact E1 |]. split; [exact E2 |].
  intros (W & _). rewrite <- exp_plus in W. apply Rle_not_lt in W. apply W. apply exp_increasing.
  rewrite Ts, (T d 1460%Z eq_refl). lra.
Qed.
Print Assumptions C93_last_cell_refuted.

(** The value of a bond with non-negative flows moves by at most the factor of its last open payment. *)
Theorem C93_value : forall D s (ms : list Date) (ys ys' : list R) eps, D = act_360 RV \/ D = act_365 RV ->
  length ms = length ys -> (2 <= length ms)%nat -> a_date s -> (forall m, In m ms -> a_date m) ->
  (forall i j mi mj, (i < j)%nat -> nth_error ms i = Some mi -> nth_error ms j = Some mj -> earlier mi mj) ->
  yields_near eps ys ys' ->
  exists c c' t, curve_new D (Linear RV) s ms ys = Ret (Ok c) /\ curve_new D (Linear RV) s ms ys' = Ret (Ok c')
    /\ (forall d, D s d = Ret (Ok (t d)))
    /\ forall (b : Bond R) settle (v : R) T, a_date settle ->
       (forall f, In f (bond_cash_flows b) -> a_date (payment_date f) /\ 0 <= payment_amount f) ->
       (forall f, In f (bond_cash_flows b) -> earlier settle (due_date f) -> t settle + t (payment_date f) <= T) ->
       discounted_value (V := RV) D b settle c = Ret (Ok v) ->
       exists v', discounted_value (V := RV) D b settle c' = Ret (Ok v') /\ within_factor (eps * T) v v'.
Proof.
  intros D s ms ys ys' eps HD Hl H2 As Am Om N.
  assert (0 <= eps) as Pe.
  { destruct N as (L & N). destruct ys as [| y ys]; [simpl in Hl; lia |]. destruct ys' as [| y' ys']; [discriminate |].
    eapply Rle_trans; [apply Rabs_pos | apply (N 0%nat); reflexivity]. }
  destruct (C93_linear D s ms ys ys' eps HD Hl H2 As Am Om N) as (c & c' & t & Ec & Ec' & Ht & Mv).
  exists c, c', t. split; [exact Ec |]. split; [exact Ec' |]. split; [exact Ht |]. intros b settle v T Ast Hf HT Hv.
  destruct (value_total D (Linear RV) b settle c v Hv) as (Ev & Df).
  assert (forall f, In f (bond_cash_flows b) -> earlier settle (due_date f) ->
    discount_factor D c' settle (payment_date f) = Ret (Ok (df_of D (Linear RV) c' settle (payment_date f)))
    /\ within_factor (eps * T) (df_of D (Linear RV) c settle (payment_date f)) (df_of D (Linear RV) c' settle (payment_date f))) as Df'.
  { intros f Hif Of. destruct (Hf f Hif) as (Ap & _). destruct (Mv _ _ _ Ast Ap (Df f Hif Of)) as (u & Eu & W).
    unfold df_of at 1 3. rewrite Eu. split; [reflexivity |].
    pose proof (C40_positive D (Linear RV) c settle _ _ (Df f Hif Of)) as P. specialize (HT f Hif Of).
    destruct W as (W1 & W2). split; [eapply Rle_trans; [| exact W1] | eapply Rle_trans; [exact W2 |]];
      (apply Rmult_le_compat_l; [lra |]; apply exp_le_mono; nra). }
  eexists. split; [apply (C50_sum D (Linear RV) b settle c' (df_of D (Linear RV) c' settle)); intros f Hif Of; now apply Df' |].
  rewrite Ev. unfold within_factor.
  assert (forall k (l : list (BondCashFlow R)), total (map (fun f => df_of D (Linear RV) c settle (payment_date f) * payment_amount f) l) * k
    = total (map (fun f => df_of D (Linear RV) c settle (payment_date f) * payment_amount f * k) l)) as Sc.
  { clear. intros k l. unfold total. induction l as [| f l IH]; simpl; [ring |]. simpl in IH. rewrite <- IH. ring. }
  rewrite !Sc. split; apply total_le; intros f Hfl; apply filter_In in Hfl; destruct Hfl as (Hif & Of); apply open_flow_spec in Of;
    destruct (Hf f Hif) as (_ & Pa), (Df' f Hif Of) as (_ & W1 & W2).
  - apply (Rmult_le_compat_r _ _ _ Pa) in W1. lra.
  - apply (Rmult_le_compat_r _ _ _ Pa) in W2. lra.
Qed.
Print Assumptions C93_value.

(** The curve and bond of [C75_case], with one yield quoted a tenth of a point higher: both values exist. *)
Example C93_case : exists c c' (b : Bond R) (v v' : R), yields_near (1 / 1000) ex_yields [2 / 100; 26 / 1000; 3 / 100]
  /\ curve_new (act_365 RV) (Linear RV) ex_settle ex_maturities ex_yields = Ret (Ok c)
  /\ curve_new (act_365 RV) (Linear RV) ex_settle ex_maturities [2 / 100; 26 / 1000; 3 / 100] = Ret (Ok c')
  /\ discounted_value (V := RV) (act_365 RV) b ex_settle c = Ret (Ok v)
  /\ discounted_value (V := RV) (act_365 RV) b ex_settle c' = Ret (Ok v') /\ within_factor (1 / 1000 * 3) v v'.
Proof.
  destruct C75_case as (c & v & Ec & Hb & Ev). set (b := mkBond _ _) in *.
  assert (yields_near (1 / 1000) ex_yields [2 / 100; 26 / 1000; 3 / 100]) as N.
  { split; [reflexivity |]. intros [| [| [| i]]] y y' E E'; simpl in E, E'; try (destruct i; discriminate E);
      injection E as <-; injection E' as <-; apply Rabs_le; lra. }
  destruct (C93_value (act_365 RV) ex_settle ex_maturities ex_yields [2 / 100; 26 / 1000; 3 / 100] (1 / 1000)) as (c1 & c' & t & Ec1 & Ec' & Ht & Mv).
  { now right. } { reflexivity. } { simpl; lia. }
  { now apply valid_a_date. }
  { intros m [<- | [<- | [<- | []]]]; now apply valid_a_date. }
  { intros [| [| [| i]]] [| [| [| j]]] mi mj Hij Ei Ej; simpl in Ei, Ej; try lia;
      try (destruct i; discriminate Ei); try (destruct j; discriminate Ej);
      injection Ei as <-; injection Ej as <-; unfold earlier; simpl; lia. }
  { exact N. }
  assert (c1 = c) as -> by congruence.
  assert (forall d k, date_sub d ex_settle = k -> t d = IZR k / 365) as T.
  { intros d k Q. specialize (Ht d). unfold act_365 in Ht. rewrite Q in Ht. simpl in Ht. injection Ht as <-. reflexivity. }
  destruct (Mv b ex_settle v 3) as (v' & Ev' & W).
  { now apply valid_a_date. } { exact Hb. }
  { intros f [<- | [<- | []]] _; simpl payment_date; rewrite (T ex_settle 0%Z eq_refl).
    - rewrite (T (mkDate 2025 9 1) 549%Z eq_refl). lra.
    - rewrite (T (mkDate 2026 3 2) 731%Z eq_refl). lra. }
  { exact Ev. }
  exists c, c', b, v, v'. repeat split; try assumption; try apply N; apply W.
Qed.
