(** Property C111: which interpolators keep the shape of the data. *)
From Coq Require Import ZArith Reals List Arith Lia Lra Psatz.
From Verif Require Import Base Value RealValue InterpModel InterpFacts Grid Piecewise PropsLinear PropsHermite PropsCatmullRom PropsNaturalCubic
  PropsStability PropsForward.
Import ListNotations.
Open Scope R_scope.

(** The slopes of the segments through the data do not fall. *)
Definition bends_up (p : list (R * R)) : Prop := forall i, (i + 2 < length p)%nat ->
  (gy p (i + 1) - gy p i) / (gx p (i + 1) - gx p i) <= (gy p (i + 2) - gy p (i + 1)) / (gx p (i + 2) - gx p (i + 1)).

(** A function below its chords between [a] and [b]. *)
Definition convex_on (a b : R) (F : R -> R) : Prop := forall x y l, a <= x <= b -> a <= y <= b -> 0 <= l <= 1 ->
  F ((1 - l) * x + l * y) <= (1 - l) * F x + l * F y.

(** A function that does not fall between [a] and [b]. *)
Definition rising_on (a b : R) (F : R -> R) : Prop := forall x y, a <= x -> x <= y -> y <= b -> F x <= F y.

(** Slope of segment [i] of Hermite data. *)
Definition h_slope (p : list (R * R * R)) (i : nat) : R := (hy p (i + 1) - hy p i) / (hx p (i + 1) - hx p i).

(** ** Tangents from below make a function convex *)

Lemma tangents_convex a b F : (forall z, a <= z <= b -> exists k, forall x, a <= x <= b -> F z + k * (x - z) <= F x) -> convex_on a b F.
Proof.
  intros T x y l Hx Hy Hl. set (z := (1 - l) * x + l * y).
  assert (a <= z <= b) as Hz by (unfold z; nra). destruct (T z Hz) as (k & Hk).
  pose proof (Hk x Hx) as A. pose proof (Hk y Hy) as B.
  assert (F z = (1 - l) * (F z + k * (x - z)) + l * (F z + k * (y - z))) as -> by (unfold z; ring). nra.
Qed.

(** A sequence of cells: knots [X], values [Y] at the knots, and slopes that bound the growth across each cell. *)
Lemma support_right (X Y : nat -> R) (L : nat -> R) n i c k : (forall j, (j + 1 < n)%nat -> X j < X (j + 1)%nat) ->
  (forall j, (j + 1 < n)%nat -> Y j + L j * (X (j + 1)%nat - X j) <= Y (j + 1)%nat) ->
  (forall j, (i <= j)%nat -> (j + 1 < n)%nat -> k <= L j) -> (i < n)%nat -> c <= Y i ->
  forall j, (i <= j < n)%nat -> c + k * (X j - X i) <= Y j.
Proof.
  intros HX HY HL Hi Hc. induction j as [| j IH]; intros Hj.
  - replace i with 0%nat in * by lia. lra.
  - destruct (Nat.eq_dec i (S j)) as [-> | N]; [lra |]. specialize (IH ltac:(lia)).
    pose proof (HX j ltac:(lia)) as A. pose proof (HY j ltac:(lia)) as B. pose proof (HL j ltac:(lia) ltac:(lia)) as C.
    replace (S j) with (j + 1)%nat by lia. nra.
Qed.

Lemma support_left (X Y : nat -> R) (L : nat -> R) n i c k : (forall j, (j + 1 < n)%nat -> X j < X (j + 1)%nat) ->
  (forall j, (j + 1 < n)%nat -> Y (j + 1)%nat - L j * (X (j + 1)%nat - X j) <= Y j) ->
  (forall j, (j < i)%nat -> L j <= k) -> (i < n)%nat -> c <= Y i ->
  forall d j, (j + d = i)%nat -> c + k * (X j - X i) <= Y j.
Proof.
  intros HX HY HL Hi Hc. induction d as [| d IH]; intros j Hj.
  - replace j with i by lia. lra.
  - specialize (IH (j + 1)%nat ltac:(lia)).
    pose proof (HX j ltac:(lia)) as A. pose proof (HY j ltac:(lia)) as B. pose proof (HL j ltac:(lia)) as C. nra.
Qed.

(** ** Linear *)

Lemma slope_of_chord p i x y : chord p i y = chord p i x + (gy p (i + 1) - gy p i) / (gx p (i + 1) - gx p i) * (y - x).
Proof. unfold chord. ring. Qed.

Notation cslope p i := ((gy p (i + 1) - gy p i) / (gx p (i + 1) - gx p i)).

Lemma slopes_up p i j : bends_up p -> (i <= j)%nat -> (j + 1 < length p)%nat -> cslope p i <= cslope p j.
Proof.
  intros H Hij. induction Hij as [| j Hij IH]; intros Hj; [lra |].
  eapply Rle_trans; [apply IH; lia |]. pose proof (H j ltac:(lia)) as A.
  replace (S j) with (j + 1)%nat by lia. replace (j + 1 + 1)%nat with (j + 2)%nat by lia. exact A.
Qed.

Lemma chord_below p i j x : increasing p -> bends_up p -> (i + 1 < length p)%nat -> (j + 1 < length p)%nat -> gx p j <= x <= gx p (j + 1) ->
  chord p i x <= chord p j x.
Proof.
  intros H B Hi Hj Hx.
  assert (forall k, (k + 1 < length p)%nat -> gx p k < gx p (k + 1)) as HX by (intros; apply H; lia).
  assert (forall k, (k < length p)%nat -> chord p i (gx p k) <= gy p k) as K.
  { intros k Hk. destruct (le_lt_dec (i + 1) k) as [C | C].
    - rewrite (slope_of_chord p i (gx p (i + 1))), chord_right by (apply HX; lia).
      apply (support_right (gx p) (gy p) (fun m => cslope p m) (length p) (i + 1)); [exact HX | | | lia | lra | lia].
      + intros m Hm. pose proof (HX m Hm). right. field. lra.
      + intros m Hm Hm'. apply slopes_up; auto; lia.
    - rewrite (slope_of_chord p i (gx p i)), chord_left.
      apply (support_left (gx p) (gy p) (fun m => cslope p m) (length p) i) with (d := (i - k)%nat); [exact HX | | | lia | lra | lia].
      + intros m Hm. pose proof (HX m Hm). right. field. lra.
      + intros m Hm. apply slopes_up; auto; lia. }
  pose proof (K j ltac:(lia)) as K0. pose proof (K (j + 1)%nat ltac:(lia)) as K1.
  destruct (fraction (gx p j) (gx p (j + 1)) x (HX j Hj) Hx) as (d & Hd & Ed).
  assert (forall m, chord p m x = (1 - d) * chord p m (gx p j) + d * chord p m (gx p (j + 1))) as Lin.
  { intros m. rewrite (slope_of_chord p m (gx p j) x), (slope_of_chord p m (gx p j) (gx p (j + 1))), Ed. ring. }
  rewrite (Lin i), (Lin j), chord_left, chord_right by now apply HX. nra.
Qed.

(** ** C111: linear interpolation *)

(** Linear interpolation of data that bends upwards is convex. *)
Theorem C111_linear_convex : forall p F, increasing p -> (2 <= length p)%nat -> bends_up p ->
  (forall x, gx p 0 <= x <= gx p (last_of p) -> fit_eval (Linear RV) p x = Ret (Ok (F x))) ->
  convex_on (gx p 0) (gx p (last_of p)) F.
Proof.
  intros p F H Hl B HF.
  assert (forall x, gx p 0 <= x <= gx p (last_of p) -> exists i, (i + 1 < length p)%nat /\ gx p i <= x <= gx p (i + 1) /\ F x = chord p i x) as Cell.
  { intros x Hx. assert (exists i, (i + 1 < length p)%nat /\ gx p i <= x <= gx p (i + 1)) as (i & Hi & Ci).
    { destruct (Rle_lt_or_eq_dec _ _ (proj1 Hx)) as [L | <-].
      - destruct (cell_left (gx p) (length p) Hl H x) as (i & Hi & Ci); [unfold last_of in Hx; lra |].
        exists i. split; [exact Hi | lra].
      - exists 0%nat. split; [lia |]. split; [lra | left; apply H; lia]. }
    exists i. split; [exact Hi |]. split; [exact Ci |]. specialize (HF x Hx). rewrite (linear_closed p x i H Hi Ci) in HF. now injection HF. }
  apply tangents_convex. intros z Hz. destruct (Cell z Hz) as (i & Hi & _ & Ez). exists (cslope p i). intros x Hx.
  destruct (Cell x Hx) as (j & Hj & Cj & Ex). rewrite Ez, Ex, <- (slope_of_chord p i z x). now apply chord_below.
Qed.
Print Assumptions C111_linear_convex.

(** It is never steeper than the steepest segment. *)
Theorem C111_linear_steepness : forall p L x y v w, increasing p -> (2 <= length p)%nat ->
  (forall i, (i + 1 < length p)%nat -> Rabs (gy p (i + 1) - gy p i) <= L * (gx p (i + 1) - gx p i)) ->
  fit_eval (Linear RV) p x = Ret (Ok v) -> fit_eval (Linear RV) p y = Ret (Ok w) -> Rabs (v - w) <= L * Rabs (x - y).
Proof.
  intros p L x y v w H Hl S.
  (* to the interior *)
  assert (forall z u, fit_eval (Linear RV) p z = Ret (Ok u) -> exists i, (i + 1 < length p)%nat /\ gx p i <= z <= gx p (i + 1) /\ u = chord p i z) as Cell.
  { intros z u E. assert (p <> []) as N by (intros ->; simpl in Hl; lia).
    pose proof (C24_errors p z (increasing_sorted p H) N) as (E1 & E2).
    assert (gx p 0 <= z <= gx p (last_of p)) as Hz.
    { split; apply Rnot_lt_le; intros C; [rewrite (E1 C) in E | rewrite (E2 C) in E]; discriminate. }
    assert (exists i, (i + 1 < length p)%nat /\ gx p i <= z <= gx p (i + 1)) as (i & Hi & Ci).
    { destruct (Rle_lt_or_eq_dec _ _ (proj1 Hz)) as [Lt | <-].
      - destruct (cell_left (gx p) (length p) Hl H z) as (i & Hi & Ci); [unfold last_of in Hz; lra |].
        exists i. split; [exact Hi | lra].
      - exists 0%nat. split; [lia |]. split; [lra | left; apply H; lia]. }
    exists i. split; [exact Hi |]. split; [exact Ci |]. rewrite (linear_closed p z i H Hi Ci) in E. now injection E. }
  assert (forall k, (k + 1 < length p)%nat -> gx p k < gx p (k + 1)) as HX by (intros; apply H; lia).
  assert (forall i a b, (i + 1 < length p)%nat -> a <= b -> Rabs (chord p i b - chord p i a) <= L * (b - a)) as One.
  { intros i a b Hi Hab. rewrite (slope_of_chord p i a b). replace (chord p i a + cslope p i * (b - a) - chord p i a) with (cslope p i * (b - a)) by ring.
    rewrite Rabs_mult, (Rabs_pos_eq (b - a)) by lra. apply Rmult_le_compat_r; [lra |].
    unfold Rdiv. rewrite Rabs_mult, Rabs_inv, (Rabs_pos_eq (gx p (i + 1) - gx p i)) by (pose proof (HX i Hi); lra).
    pose proof (HX i Hi). apply Rmult_le_reg_r with (gx p (i + 1) - gx p i); [lra |]. rewrite Rmult_assoc, Rinv_l, Rmult_1_r by lra. now apply S. }
  assert (forall d i, (i + d < length p)%nat -> Rabs (gy p (i + d) - gy p i) <= L * (gx p (i + d) - gx p i)) as Knots.
  { induction d as [| d IH]; intros i Hd.
    - replace (i + 0)%nat with i by lia. rewrite !Rminus_diag_eq, Rabs_R0 by reflexivity. lra.
    - specialize (IH i ltac:(lia)). pose proof (S (i + d)%nat ltac:(lia)) as T. replace (i + Datatypes.S d)%nat with (i + d + 1)%nat by lia.
      apply Rabs_le. apply abs_inv in IH, T. lra. }
  assert (forall a b u t, a <= b -> fit_eval (Linear RV) p a = Ret (Ok u) -> fit_eval (Linear RV) p b = Ret (Ok t) -> Rabs (t - u) <= L * (b - a)) as Main.
  { intros a b u t Hab Ea Eb. destruct (Cell a u Ea) as (i & Hi & Ci & ->). destruct (Cell b t Eb) as (j & Hj & Cj & ->).
    destruct (lt_eq_lt_dec i j) as [[C | <-] | C].
    - pose proof (One i a (gx p (i + 1)) Hi ltac:(lra)) as A. rewrite chord_right in A by now apply HX.
      pose proof (One j (gx p j) b Hj ltac:(lra)) as B. rewrite chord_left in B.
      pose proof (Knots (j - (i + 1))%nat (i + 1)%nat ltac:(lia)) as K. replace (i + 1 + (j - (i + 1)))%nat with j in K by lia.
      apply Rabs_le. apply abs_inv in A, B, K. lra.
    - now apply One.
    - assert (gx p (j + 1) <= gx p i) as Le by (apply (increasing_sorted p H); lia). assert (a = b) by lra. subst b.
      rewrite Ea in Eb. injection Eb as ->. rewrite !Rminus_diag_eq, Rabs_R0 by reflexivity. lra. }
  intros Ev Ew. destruct (Rle_lt_dec x y) as [C | C].
  - rewrite (Rabs_minus_sym v), (Rabs_minus_sym x), (Rabs_pos_eq (y - x)) by lra. now apply Main.
  - rewrite (Rabs_pos_eq (x - y)) by lra. apply Main; auto. lra.
Qed.
Print Assumptions C111_linear_steepness.

(** ** Hermite *)

Definition hpiece'' (p : list (R * R * R)) (i : nat) (x : R) : R := 6 * hA p i * (x - hx p i) + 2 * hB p i.

Lemma hpiece'_form p i x d : hx p i < hx p (i + 1) -> x - hx p i = d * (hx p (i + 1) - hx p i) ->
  hpiece' p i x = 6 * h_slope p i * d * (1 - d) + hm p i * (1 - d) * (1 - 3 * d) + hm p (i + 1) * d * (3 * d - 2).
Proof. intros H E. unfold hpiece', hA, hB, h_slope. rewrite E. field. lra. Qed.

Lemma hpiece'_nonneg D a b d : 0 <= d <= 1 -> 0 <= a <= 3 * D -> 0 <= b <= 3 * D ->
  0 <= 6 * D * d * (1 - d) + a * (1 - d) * (1 - 3 * d) + b * d * (3 * d - 2).
Proof.
  intros Hd Ha Hb. destruct (Rle_lt_dec D 0) as [Z | P].
  { assert (a = 0) by lra. assert (b = 0) by lra. assert (D = 0) by lra. subst. lra. }
  set (s := a / (3 * D)). set (t := b / (3 * D)).
  assert (a = s * (3 * D)) as Es by (unfold s; field; lra). assert (b = t * (3 * D)) as Et by (unfold t; field; lra).
  assert (0 <= s <= 1) as Hs.
  { unfold s. split; [apply Rle_mult_inv_pos; lra |]. apply Rmult_le_reg_r with (3 * D); [lra |]. unfold Rdiv. rewrite Rmult_assoc, Rinv_l by lra. lra. }
  assert (0 <= t <= 1) as Ht.
  { unfold t. split; [apply Rle_mult_inv_pos; lra |]. apply Rmult_le_reg_r with (3 * D); [lra |]. unfold Rdiv. rewrite Rmult_assoc, Rinv_l by lra. lra. }
  rewrite Es, Et.
  replace (6 * D * d * (1 - d) + s * (3 * D) * (1 - d) * (1 - 3 * d) + t * (3 * D) * d * (3 * d - 2))
    with (D * ((1 - s) * (1 - t) * (6 * (d * (1 - d))) + s * (1 - t) * (3 * (1 - d) ^ 2) + (1 - s) * t * (3 * d ^ 2) + s * t * (3 * (1 - 2 * d) ^ 2))) by ring.
  apply Rmult_le_pos; [lra |].
  assert (0 <= d * (1 - d)) by nra. pose proof (pow2_ge_0 (1 - d)). pose proof (pow2_ge_0 d). pose proof (pow2_ge_0 (1 - 2 * d)).
  assert (0 <= (1 - s) * (1 - t)) by nra. assert (0 <= s * (1 - t)) by nra. assert (0 <= (1 - s) * t) by nra. assert (0 <= s * t) by nra.
  repeat apply Rplus_le_le_0_compat; apply Rmult_le_pos; lra.
Qed.

Lemma h_cell_rising p i x y : hx p i < hx p (i + 1) -> 0 <= hm p i <= 3 * h_slope p i -> 0 <= hm p (i + 1) <= 3 * h_slope p i ->
  hx p i <= x -> x <= y -> y <= hx p (i + 1) -> hpiece p i x <= hpiece p i y.
Proof.
  intros H A B H1 H2 H3. destruct (Rle_lt_or_eq_dec _ _ H2) as [L | <-]; [| lra].
  destruct (MVT_cor2 (hpiece p i) (hpiece' p i) x y L) as (c & E & Hc); [intros; apply hpiece_deriv |].
  assert (0 <= hpiece' p i c) as N.
  { destruct (fraction _ _ c H ltac:(lra)) as (d & Hd & Ed). rewrite (hpiece'_form p i c d H Ed). now apply hpiece'_nonneg. }
  nra.
Qed.

(** A Hermite spline does not fall if no slope is negative or more than three times that of a neighbouring segment. *)
Theorem C111_hermite_rising : forall p F, h_increasing p -> (2 <= length p)%nat ->
  (forall i, (i + 1 < length p)%nat -> 0 <= hm p i <= 3 * h_slope p i /\ 0 <= hm p (i + 1) <= 3 * h_slope p i) ->
  (forall x, hx p 0 <= x <= hx p (h_last p) -> hermite_eval (V := RV) p x = Ret (Ok (F x))) ->
  rising_on (hx p 0) (hx p (h_last p)) F.
Proof.
  intros p F H Hl S HF x y H1 H2 H3.
  assert (forall k, (k + 1 < length p)%nat -> hx p k < hx p (k + 1)) as HX by (intros; apply H; lia).
  assert (forall i z, (i + 1 < length p)%nat -> hx p 0 <= z <= hx p (h_last p) -> hx p i <= z <= hx p (i + 1) -> F z = hpiece p i z) as Cell.
  { intros i z Hi Hz Ci. specialize (HF z Hz). rewrite (hermite_closed p i z H Hi Ci) in HF. now injection HF. }
  assert (forall d i, (i + d < length p)%nat -> hy p i <= hy p (i + d)) as Knots.
  { induction d as [| d IH]; intros i Hd; [replace (i + 0)%nat with i by lia; lra |].
    eapply Rle_trans; [apply IH; lia |]. replace (i + Datatypes.S d)%nat with (i + d + 1)%nat by lia.
    pose proof (HX (i + d)%nat ltac:(lia)) as A. destruct (S (i + d)%nat ltac:(lia)) as (B & C).
    pose proof (h_cell_rising p (i + d) _ _ A B C (Rle_refl _) (Rlt_le _ _ A) (Rle_refl _)) as M.
    rewrite (proj1 (hpiece_left p (i + d))), (proj1 (hpiece_right p (i + d) A)) in M. exact M. }
  destruct (h_cell p x H Hl ltac:(lra)) as (i & Hi & Ci). destruct (h_cell p y H Hl ltac:(lra)) as (j & Hj & Cj).
  rewrite (Cell i x Hi ltac:(lra) Ci), (Cell j y Hj ltac:(lra) Cj).
  destruct (S i Hi) as (A & B). destruct (S j Hj) as (A' & B').
  destruct (lt_eq_lt_dec i j) as [[C | <-] | C].
  - apply Rle_trans with (hy p (i + 1)); [| apply Rle_trans with (hy p j)].
    + rewrite <- (proj1 (hpiece_right p i (HX i Hi))). apply h_cell_rising; auto; lra.
    + pose proof (Knots (j - (i + 1))%nat (i + 1)%nat ltac:(lia)) as K. replace (i + 1 + (j - (i + 1)))%nat with j in K by lia. exact K.
    + rewrite <- (proj1 (hpiece_left p j)). apply h_cell_rising; auto; lra.
  - apply h_cell_rising; auto; lra.
  - assert (hx p (j + 1) <= hx p i) as Le.
    { destruct (Nat.eq_dec (j + 1) i) as [<- | N]; [lra |]. left. apply H. lia. }
    assert (x = y) as <- by lra. right. rewrite <- (Cell i x), <- (Cell j x); auto; lra.
Qed.
Print Assumptions C111_hermite_rising.

(** Three is the largest factor for which this holds. *)
Theorem C111_three_refuted : forall k, 3 < k -> exists p x y v w, h_increasing p /\ (2 <= length p)%nat
  /\ (forall i, (i + 1 < length p)%nat -> 0 <= hm p i <= k * h_slope p i /\ 0 <= hm p (i + 1) <= k * h_slope p i)
  /\ x < y /\ hermite_eval (V := RV) p x = Ret (Ok v) /\ hermite_eval (V := RV) p y = Ret (Ok w) /\ w < v.
Proof.
  intros k Hk. set (p := [(0, 0, k); (1, 1, k)]).
  assert (h_increasing p) as H.
  { intros i j Hij. unfold hx, p. simpl in Hij. destruct i as [| [| i]], j as [| [| j]]; simpl; try lra; lia. }
  (* the cubic is point symmetric about (1/2, 1/2), with slope 3/2 - k/2 < 0 there *)
  set (e := Rmin (1 / 4) ((k - 3) / (8 * k))). assert (0 < (k - 3) / (8 * k)) as Pk by (apply Rdiv_lt_0_compat; lra).
  assert (0 < e <= 1 / 4) as He by (unfold e; split; [apply Rmin_pos; lra | apply Rmin_l]).
  assert (e <= (k - 3) / (8 * k)) as He2 by apply Rmin_r.
  assert (8 * k * e <= k - 3) as He3.
  { replace (k - 3) with (8 * k * ((k - 3) / (8 * k))) by (field; lra). apply Rmult_le_compat_l; lra. }
  exists p, (1 / 2 - e), (1 / 2 + e), (hpiece p 0 (1 / 2 - e)), (hpiece p 0 (1 / 2 + e)).
  split; [exact H |]. split; [simpl; lia |]. split.
  { intros [| i] Hi; [| simpl in Hi; lia]. unfold hm, h_slope, hx, hy. simpl. split; split; lra. }
  split; [lra |]. split; [apply hermite_closed; [exact H | simpl; lia | unfold hx; simpl; lra] |].
  split; [apply hermite_closed; [exact H | simpl; lia | unfold hx; simpl; lra] |].
  unfold hpiece, hA, hB, hx, hy, hm. simpl.
  match goal with |- ?w < ?v => apply Rplus_lt_reg_r with (- w); replace (w + - w) with 0 by ring end.
  match goal with |- 0 < ?a => replace a with (e * ((k - 3) - 4 * (k - 1) * (e * e))) by (field; lra) end.
  assert (e * e <= e / 4) by nra. assert (4 * (k - 1) * (e * e) <= k * e) by nra. apply Rmult_lt_0_compat; lra.
Qed.
Print Assumptions C111_three_refuted.

(** Convexity on one cell: the second derivative, linear, is not negative at either end. *)
Lemma hpiece''_ends p i : hx p i < hx p (i + 1) -> 2 * hm p i + hm p (i + 1) <= 3 * h_slope p i <= hm p i + 2 * hm p (i + 1) ->
  forall x, hx p i <= x <= hx p (i + 1) -> 0 <= hpiece'' p i x.
Proof.
  intros H C x Hx. destruct (fraction _ _ x H Hx) as (d & Hd & Ed). set (h := hx p (i + 1) - hx p i) in *.
  assert (hpiece'' p i x = / h * (2 * ((1 - d) * (3 * h_slope p i - (2 * hm p i + hm p (i + 1))) + d * ((hm p i + 2 * hm p (i + 1)) - 3 * h_slope p i)))) as ->.
  { unfold hpiece'', hA, hB, h_slope. fold h. rewrite Ed. field. unfold h. lra. }
  apply Rmult_le_pos; [left; apply Rinv_0_lt_compat; unfold h; lra |]. nra.
Qed.

Lemma hpiece_tangent p i x z : hpiece p i x = hpiece p i z + hpiece' p i z * (x - z) + (x - z) ^ 2 * ((2 * hpiece'' p i z + hpiece'' p i x) / 6).
Proof. unfold hpiece, hpiece', hpiece''. field. Qed.

Lemma hpiece'_gap p i x z : hpiece' p i x = hpiece' p i z + (x - z) * ((hpiece'' p i z + hpiece'' p i x) / 2).
Proof. unfold hpiece', hpiece''. field. Qed.

(** A Hermite spline is convex if over each segment the slopes at the ends are in this relation to the segment's. *)
Theorem C111_hermite_convex : forall p F, h_increasing p -> (2 <= length p)%nat ->
  (forall i, (i + 1 < length p)%nat -> 2 * hm p i + hm p (i + 1) <= 3 * h_slope p i <= hm p i + 2 * hm p (i + 1)) ->
  (forall x, hx p 0 <= x <= hx p (h_last p) -> hermite_eval (V := RV) p x = Ret (Ok (F x))) ->
  convex_on (hx p 0) (hx p (h_last p)) F.
Proof.
  intros p F H Hl S HF.
  assert (forall k, (k + 1 < length p)%nat -> hx p k < hx p (k + 1)) as HX by (intros; apply H; lia).
  assert (forall i x, (i + 1 < length p)%nat -> hx p i <= x <= hx p (i + 1) -> 0 <= hpiece'' p i x) as Curv.
  { intros i x Hi Hx. apply hpiece''_ends; auto. }
  assert (forall i x z, (i + 1 < length p)%nat -> hx p i <= x <= hx p (i + 1) -> hx p i <= z <= hx p (i + 1) ->
    hpiece p i z + hpiece' p i z * (x - z) <= hpiece p i x) as Tan.
  { intros i x z Hi Hx Hz. rewrite (hpiece_tangent p i x z). pose proof (Curv i x Hi Hx). pose proof (Curv i z Hi Hz). pose proof (pow2_ge_0 (x - z)).
    assert (0 <= (x - z) ^ 2 * ((2 * hpiece'' p i z + hpiece'' p i x) / 6)) by (apply Rmult_le_pos; lra). lra. }
  assert (forall i x z, (i + 1 < length p)%nat -> hx p i <= z -> z <= x -> x <= hx p (i + 1) -> hpiece' p i z <= hpiece' p i x) as Up.
  { intros i x z Hi H1 H2 H3. rewrite (hpiece'_gap p i x z). pose proof (Curv i x Hi ltac:(lra)). pose proof (Curv i z Hi ltac:(lra)).
    assert (0 <= (x - z) * ((hpiece'' p i z + hpiece'' p i x) / 2)) by (apply Rmult_le_pos; lra). lra. }
  assert (forall d i, (i + d < length p)%nat -> hm p i <= hm p (i + d)) as Slopes.
  { induction d as [| d IH]; intros i Hd; [replace (i + 0)%nat with i by lia; lra |].
    eapply Rle_trans; [apply IH; lia |]. replace (i + Datatypes.S d)%nat with (i + d + 1)%nat by lia. pose proof (S (i + d)%nat ltac:(lia)). lra. }
  assert (forall i j, (i <= j)%nat -> (j < length p)%nat -> hm p i <= hm p j) as Slopes'.
  { intros i j Hij Hj. pose proof (Slopes (j - i)%nat i ltac:(lia)) as A. replace (i + (j - i))%nat with j in A by lia. exact A. }
  assert (forall i z, (i + 1 < length p)%nat -> hx p 0 <= z <= hx p (h_last p) -> hx p i <= z <= hx p (i + 1) -> F z = hpiece p i z) as Cell.
  { intros i z Hi Hz Ci. specialize (HF z Hz). rewrite (hermite_closed p i z H Hi Ci) in HF. now injection HF. }
  apply tangents_convex. intros z Hz. destruct (h_cell p z H Hl Hz) as (i & Hi & Ci). rewrite (Cell i z Hi Hz Ci).
  exists (hpiece' p i z). set (k := hpiece' p i z). intros x Hx. destruct (h_cell p x H Hl Hx) as (j & Hj & Cj). rewrite (Cell j x Hj Hx Cj).
  pose proof (HX i Hi) as HXi. pose proof (HX j Hj) as HXj.
  destruct (lt_eq_lt_dec i j) as [[C | <-] | C]; [| now apply Tan |].
  - pose proof (Tan i (hx p (i + 1)) z Hi ltac:(lra) Ci) as T. rewrite (proj1 (hpiece_right p i HXi)) in T. fold k in T.
    pose proof (Up i (hx p (i + 1)) z Hi ltac:(lra) ltac:(lra) ltac:(lra)) as U. rewrite (proj2 (hpiece_right p i HXi)) in U. fold k in U.
    assert (hpiece p i z + k * (hx p (i + 1) - z) + k * (hx p j - hx p (i + 1)) <= hy p j) as A.
    { apply (support_right (hx p) (hy p) (hm p) (length p) (i + 1)); [exact HX | | | lia | exact T | lia].
      - intros m Hm. pose proof (HX m Hm). pose proof (Tan m (hx p (m + 1)) (hx p m) Hm ltac:(lra) ltac:(lra)) as B.
        rewrite (proj1 (hpiece_left p m)), (proj2 (hpiece_left p m)), (proj1 (hpiece_right p m (HX m Hm))) in B. exact B.
      - intros m Hm Hm'. eapply Rle_trans; [exact U |]. apply Slopes'; lia. }
    pose proof (Tan j x (hx p j) Hj Cj ltac:(lra)) as B. rewrite (proj1 (hpiece_left p j)), (proj2 (hpiece_left p j)) in B.
    pose proof (Slopes' (i + 1)%nat j ltac:(lia) ltac:(lia)) as M. nra.
  - pose proof (Tan i (hx p i) z Hi ltac:(lra) Ci) as T. rewrite (proj1 (hpiece_left p i)) in T. fold k in T.
    pose proof (Up i z (hx p i) Hi ltac:(lra) ltac:(lra) ltac:(lra)) as U. rewrite (proj2 (hpiece_left p i)) in U. fold k in U.
    assert (hpiece p i z + k * (hx p i - z) + k * (hx p (j + 1) - hx p i) <= hy p (j + 1)) as A.
    { apply (support_left (hx p) (hy p) (fun m => hm p (m + 1)) (length p) i) with (d := (i - (j + 1))%nat); [exact HX | | | lia | exact T | lia].
      - intros m Hm. pose proof (HX m Hm). pose proof (Tan m (hx p m) (hx p (m + 1)) Hm ltac:(lra) ltac:(lra)) as B.
        rewrite (proj1 (hpiece_left p m)), (proj2 (hpiece_right p m (HX m Hm))), (proj1 (hpiece_right p m (HX m Hm))) in B. lra.
      - intros m Hm. eapply Rle_trans; [| exact U]. apply Slopes'; lia. }
    pose proof (Tan j x (hx p (j + 1)) Hj Cj ltac:(lra)) as B. rewrite (proj1 (hpiece_right p j HXj)), (proj2 (hpiece_right p j HXj)) in B.
    pose proof (Slopes' (j + 1)%nat i ltac:(lia) ltac:(lia)) as M. nra.
Qed.
Print Assumptions C111_hermite_convex.

(** ** The other splines keep neither *)

Definition step_up : list (R * R) := [(0, 0); (1, 1); (2, 1); (3, 1); (4, 1)].
Definition kink : list (R * R) := [(0, 1); (1, 0); (2, 0); (3, 0); (4, 0)].

Lemma step_up_inc : increasing step_up.
Proof. intros i j H. unfold gx, step_up. simpl in H. destruct i as [| [| [| [| [| i]]]]], j as [| [| [| [| [| j]]]]]; simpl; try lra; lia. Qed.
Lemma kink_inc : increasing kink.
Proof. intros i j H. unfold gx, kink. simpl in H. destruct i as [| [| [| [| [| i]]]]], j as [| [| [| [| [| j]]]]]; simpl; try lra; lia. Qed.
Lemma step_up_rising : rising step_up.
Proof. intros i j H. unfold gy, step_up. simpl in H. destruct i as [| [| [| [| [| i]]]]], j as [| [| [| [| [| j]]]]]; simpl; try lra; lia. Qed.
Lemma kink_bends : bends_up kink.
Proof. intros i H. unfold gx, gy, kink. simpl in H. destruct i as [| [| [| i]]]; simpl; try lra; lia. Qed.

(** Natural cubic: between knots of equal ordinate it is not constant. *)
Lemma nc_flat_cell p s c : p = step_up /\ c = 1 \/ p = kink /\ c = 0 -> solved p s ->
  q p s 1 (4 / 3) <> c \/ q p s 1 (5 / 3) <> c.
Proof.
  intros Hp (S0 & _ & _ & S4 & _).
  assert (jump p s 0 = 0) as J by (destruct Hp as [(-> & _) | (-> & _)]; apply S4; simpl; lia).
  destruct (Req_dec (q p s 1 (4 / 3)) c) as [A | A]; [| now left]. destruct (Req_dec (q p s 1 (5 / 3)) c) as [B | B]; [| now right]. exfalso.
  destruct Hp as [(-> & ->) | (-> & ->)]; unfold jump, q1, q, qa, qc, gx, gy in *; simpl in *; lra.
Qed.

Theorem C111_natural_cubic_refuted : exists p r F G, increasing p /\ (4 <= length p)%nat /\ rising p /\ spline_of p F
  /\ ~ rising_on (gx p 0) (gx p (last_of p)) F
  /\ increasing r /\ (4 <= length r)%nat /\ bends_up r /\ spline_of r G /\ ~ convex_on (gx r 0) (gx r (last_of r)) G.
Proof.
  destruct (C34_total step_up step_up_inc ltac:(simpl; lia)) as (F & HF). destruct (C34_total kink kink_inc ltac:(simpl; lia)) as (G & HG).
  exists step_up, kink, F, G. split; [exact step_up_inc |]. split; [simpl; lia |]. split; [exact step_up_rising |]. split; [exact HF |].
  split; [| split; [exact kink_inc |]; split; [simpl; lia |]; split; [exact kink_bends |]; split; [exact HG |]].
  - intros Up. destruct (spline_pieces step_up F step_up_inc ltac:(simpl; lia) HF) as (s & Sv & P).
    pose proof (C34_interpolates step_up F step_up_inc ltac:(simpl; lia) HF) as K.
    assert (forall x, 1 <= x <= 2 -> q step_up s 1 x = 1) as Flat.
    { intros x Hx. rewrite <- (P 1%nat x) by (simpl; lia || (unfold gx; simpl; lra)).
      assert (F 1 = 1 /\ F 2 = 1) as [F1 F2].
      { rewrite (P 1%nat 1), (P 1%nat 2) by (simpl; lia || (unfold gx; simpl; lra)). unfold q, qa, qc, gx, gy. simpl. split; field. }
      assert (F 1 <= F x) by (apply Up; unfold gx, last_of; simpl; lra).
      assert (F x <= F 2) by (apply Up; unfold gx, last_of; simpl; lra). lra. }
    destruct (nc_flat_cell step_up s 1 (or_introl (conj eq_refl eq_refl)) Sv) as [N | N]; apply N, Flat; lra.
  - intros Cv. destruct (spline_pieces kink G kink_inc ltac:(simpl; lia) HG) as (s & Sv & P).
    assert (G 1 = 0 /\ G 2 = 0 /\ G 3 = 0) as (G1 & G2 & G3).
    { rewrite (P 1%nat 1), (P 1%nat 2), (P 2%nat 3) by (simpl; lia || (unfold gx; simpl; lra)). unfold q, qa, qc, gx, gy. simpl. repeat split; field. }
    assert (forall x, 1 <= x < 2 -> q kink s 1 x = 0) as Flat.
    { intros x Hx. rewrite <- (P 1%nat x) by (simpl; lia || (unfold gx; simpl; lra)).
      assert (G x <= 0) as A.
      { pose proof (Cv 1 2 (x - 1)) as C. unfold gx, last_of in C. simpl in C. specialize (C ltac:(lra) ltac:(lra) ltac:(lra)).
        replace ((1 - (x - 1)) * 1 + (x - 1) * 2) with x in C by ring. rewrite G1, G2 in C. lra. }
      assert (0 <= G x) as B.
      { set (l := (2 - x) / (3 - x)). assert (0 <= l < 1) as Hl.
        { unfold l. split; [apply Rle_mult_inv_pos; lra |]. apply Rmult_lt_reg_r with (3 - x); [lra |]. unfold Rdiv. rewrite Rmult_assoc, Rinv_l by lra. lra. }
        pose proof (Cv x 3 l) as C. unfold gx, last_of in C. simpl in C. specialize (C ltac:(lra) ltac:(lra) ltac:(lra)).
        replace ((1 - l) * x + l * 3) with 2 in C by (unfold l; field; lra). rewrite G2, G3 in C. nra. }
      lra. }
    destruct (nc_flat_cell kink s 0 (or_intror (conj eq_refl eq_refl)) Sv) as [N | N]; apply N, Flat; lra.
Qed.
Print Assumptions C111_natural_cubic_refuted.

(** Catmull-Rom on data that bends upwards (rising data: C94), away from its last cell. *)
Theorem C111_catmull_rom_refuted : exists p, increasing p /\ (3 <= length p)%nat /\ bends_up p
  /\ forall F, (forall x, gx p 0 <= x <= gx p (last_of p) -> fit_eval (CatmullRom RV) p x = Ret (Ok (F x))) ->
     ~ convex_on (gx p 0) (gx p (last_of p - 1)) F.
Proof.
  exists kink. split; [exact kink_inc |]. split; [simpl; lia |]. split; [exact kink_bends |]. intros F HF Cv.
  assert (forall i x, (i < 3)%nat -> INR i <= x <= INR i + 1 -> F x = cpiece kink i x) as P.
  { intros i x Hi Hx. assert (gx kink i = INR i /\ gx kink (i + 1) = INR i + 1) as [X0 X1].
    { unfold gx, kink. destruct i as [| [| [| i]]]; simpl; try lia; split; lra. }
    assert (fit_eval (CatmullRom RV) kink x = Ret (Ok (F x))) as E.
    { apply HF. unfold gx, last_of. simpl. pose proof (pos_INR i). apply lt_INR in Hi. simpl in Hi.
      destruct i as [| [| [| i]]]; simpl in *; try lra. }
    rewrite (cr_closed kink i x kink_inc) in E; [now injection E | simpl; lia | simpl; lia | lra]. }
  pose proof (Cv (3 / 2) 3 (1 / 3)) as C. unfold gx, last_of in C. simpl in C. specialize (C ltac:(lra) ltac:(lra) ltac:(lra)).
  replace ((1 - 1 / 3) * (3 / 2) + 1 / 3 * 3) with 2 in C by field.
  rewrite (P 1%nat (3 / 2)), (P 1%nat 2), (P 2%nat 3) in C by (lia || (simpl; lra)).
  unfold cpiece, k3, k2, k1, calpha, cbeta, ch, gx, gy in C. simpl in C. lra.
Qed.
Print Assumptions C111_catmull_rom_refuted.

(** Data for each: squares at 0, 1, 3 bend upwards; with the derivatives of x^2 and of x^3 + x as slopes the Hermite conditions hold. *)
Example C111_case : let p := [(0, 0); (1, 1); (3, 9)] in let h := [(0, 0, 0); (1, 1, 2); (3, 9, 6)] in let r := [(0, 0, 1); (1, 2, 4); (2, 10, 13)] in
  increasing p /\ bends_up p /\ h_increasing h /\ h_increasing r
  /\ (forall i, (i + 1 < length h)%nat -> 2 * hm h i + hm h (i + 1) <= 3 * h_slope h i <= hm h i + 2 * hm h (i + 1))
  /\ (forall i, (i + 1 < length r)%nat -> 0 <= hm r i <= 3 * h_slope r i /\ 0 <= hm r (i + 1) <= 3 * h_slope r i).
Proof.
  cbv zeta. split; [| split; [| split; [| split; [| split]]]].
  - intros i j H. unfold gx. simpl in H. destruct i as [| [| [| i]]], j as [| [| [| j]]]; simpl; try lra; lia.
  - intros i H. unfold gx, gy. simpl in H. destruct i as [| i]; simpl; try lra; lia.
  - intros i j H. unfold hx. simpl in H. destruct i as [| [| [| i]]], j as [| [| [| j]]]; simpl; try lra; lia.
  - intros i j H. unfold hx. simpl in H. destruct i as [| [| [| i]]], j as [| [| [| j]]]; simpl; try lra; lia.
  - intros i H. unfold hm, h_slope, hx, hy. simpl in H. destruct i as [| [| i]]; simpl; try lra; lia.
  - intros i H. unfold hm, h_slope, hx, hy. simpl in H. destruct i as [| [| i]]; simpl; try lra; lia.
Qed.
