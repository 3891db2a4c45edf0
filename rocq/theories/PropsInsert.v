(** Property C115: adding a point the interpolator already passes through. *)
From Coq Require Import ZArith Reals List Arith Lia Lra.
From Verif Require Import Base Chrono DateModel DateFacts Value RealValue DayCountModel InterpModel InterpFacts CurveModel BondModel
  Gregorian Grid Piecewise TriFacts PropsTri NcFacts PropsDate PropsDayCount PropsLinear PropsHermite PropsCatmullRom PropsNaturalCubic
  PropsCurve PropsShift PropsBuckets PropsFade PropsMirror.
Import ListNotations.
Open Scope R_scope.

(** ** Specification *)

(** The answers of a Hermite interpolator as a function. *)
Definition h_answers (p : list (R * R * R)) (F : R -> R) : Prop :=
  forall x, hx p 0 <= x <= hx p (h_last p) -> hermite_eval (V := RV) p x = Ret (Ok (F x)).

(** ** The points around the new one *)

Lemma nth_ins {A} (l r : list A) a d : 
  (forall i, (i < length l)%nat -> nth i (l ++ a :: r) d = nth i (l ++ r) d) /\ nth (length l) (l ++ a :: r) d = a
  /\ (forall i, (length l <= i)%nat -> nth (i + 1) (l ++ a :: r) d = nth i (l ++ r) d).
Proof.
  split; [| split].
  - intros i H. now rewrite !app_nth1.
  - rewrite app_nth2, Nat.sub_diag by lia. reflexivity.
  - intros i H. rewrite !app_nth2 by lia. replace (i + 1 - length l)%nat with (S (i - length l)) by lia. reflexivity.
Qed.

Lemma len_ins {A} (l r : list A) a : length (l ++ a :: r) = (length (l ++ r) + 1)%nat.
Proof. rewrite !app_length. simpl. lia. Qed.

Section Points.
Context (l r : list (R * R)) (x0 y0 : R).
Let p := l ++ r.
Let p' := l ++ (x0, y0) :: r.
Let k := length l.

Lemma g_before i : (i < k)%nat -> gx p' i = gx p i /\ gy p' i = gy p i.
Proof. intros H. unfold gx, gy, p, p'. now rewrite (proj1 (nth_ins l r (x0, y0) (0, 0)) i H). Qed.
Lemma g_here : gx p' k = x0 /\ gy p' k = y0.
Proof. unfold gx, gy, p', k. rewrite (proj1 (proj2 (nth_ins l r (x0, y0) (0, 0)))). split; reflexivity. Qed.
Lemma g_after i : (k <= i)%nat -> gx p' (i + 1) = gx p i /\ gy p' (i + 1) = gy p i.
Proof. intros H. unfold gx, gy, p, p'. now rewrite (proj2 (proj2 (nth_ins l r (x0, y0) (0, 0))) i H). Qed.
Lemma g_len : length p' = (length p + 1)%nat.
Proof. apply len_ins. Qed.

Lemma g_inc : increasing p' -> increasing p.
Proof.
  intros H i j Hij. pose proof g_len as L.
  destruct (Nat.lt_ge_cases j k).
  - rewrite <- (proj1 (g_before i ltac:(lia))), <- (proj1 (g_before j ltac:(lia))). apply H. lia.
  - rewrite <- (proj1 (g_after j ltac:(lia))). destruct (Nat.lt_ge_cases i k).
    + rewrite <- (proj1 (g_before i ltac:(lia))). apply H. lia.
    + rewrite <- (proj1 (g_after i ltac:(lia))). apply H. lia.
Qed.

(** The new point lies inside when the old interpolator answers there. *)
Lemma g_inside : increasing p' -> (1 <= length p)%nat -> in_range p x0 ->
  (1 <= k)%nat /\ (k < length p)%nat /\ gx p (k - 1) < x0 < gx p k.
Proof.
  intros H Hl Hx. pose proof g_len as L. pose proof (proj1 g_here) as X. unfold in_range, last_of in Hx.
  assert (1 <= k)%nat as K1.
  { destruct (Nat.eq_dec k 0) as [Z | N]; [| lia].
    pose proof (proj1 (g_after 0 ltac:(lia))) as G. assert (gx p' k < gx p' (0 + 1)) by (apply H; lia). lra. }
  assert (k < length p)%nat as K2.
  { destruct (Nat.lt_ge_cases k (length p)); [assumption |]. assert (k = length p) as Z by (unfold p, k in *; rewrite app_length in *; lia).
    pose proof (proj1 (g_before (length p - 1) ltac:(lia))) as G. assert (gx p' (length p - 1) < gx p' k) by (apply H; lia). lra. }
  split; [exact K1 |]. split; [exact K2 |]. split.
  - rewrite <- (proj1 (g_before (k - 1) ltac:(lia))), <- X. apply H. lia.
  - rewrite <- (proj1 (g_after k ltac:(lia))), <- X. apply H. lia.
Qed.

(** Where a query falls among the new points. *)
Lemma g_split x : increasing p' -> (1 <= k)%nat -> (k < length p)%nat -> in_range p x ->
  exists i, (i + 1 < length p)%nat /\ gx p i <= x <= gx p (i + 1) /\
    ((i + 1 < k)%nat \/ i = (k - 1)%nat /\ x <= x0 \/ i = (k - 1)%nat /\ x0 <= x \/ (k <= i)%nat).
Proof.
  intros H K1 K2 Hx. destruct (g_cell p x (g_inc H) ltac:(lia) Hx) as (i & Hi & Ci). exists i. split; [exact Hi |]. split; [exact Ci |].
  destruct (Nat.lt_ge_cases (i + 1) k); [now left |]. destruct (Nat.lt_ge_cases i k); [| now do 3 right].
  destruct (Rle_lt_dec x x0); [right; left | do 2 right; left]; split; (lia || lra).
Qed.

Lemma g_range x : (1 <= k)%nat -> (k < length p)%nat -> in_range p' x <-> in_range p x.
Proof.
  intros K1 K2. unfold in_range, last_of. rewrite g_len. rewrite (proj1 (g_before 0 ltac:(lia))).
  replace (length p + 1 - 1)%nat with (length p - 1 + 1)%nat by lia. rewrite (proj1 (g_after (length p - 1) ltac:(lia))). reflexivity.
Qed.
End Points.

Lemma in_or_out p x : in_range p x \/ x < gx p 0 \/ gx p (last_of p) < x.
Proof. unfold in_range. destruct (Rlt_le_dec x (gx p 0)), (Rlt_le_dec (gx p (last_of p)) x); auto. Qed.

Lemma nonempty {A} (p : list A) : (1 <= length p)%nat -> p <> [].
Proof. destruct p; simpl; [lia | discriminate]. Qed.

Lemma linear_range p x v : increasing p -> (1 <= length p)%nat -> fit_eval (Linear RV) p x = Ret (Ok v) -> in_range p x.
Proof.
  intros H Hl E. destruct (in_or_out p x) as [I | [O | O]]; [exact I | |].
  - rewrite (proj1 (C24_errors p x (increasing_sorted p H) (nonempty p Hl)) O) in E. discriminate.
  - rewrite (proj2 (C24_errors p x (increasing_sorted p H) (nonempty p Hl)) O) in E. discriminate.
Qed.

(** ** C115 *)

(** Linear interpolation: the same answers and the same errors, everywhere. *)
Theorem C115_linear : forall l r x0 y0, increasing (l ++ (x0, y0) :: r) -> (2 <= length (l ++ r))%nat ->
  fit_eval (Linear RV) (l ++ r) x0 = Ret (Ok y0) ->
  forall x, fit_eval (Linear RV) (l ++ (x0, y0) :: r) x = fit_eval (Linear RV) (l ++ r) x.
Proof.
  intros l r x0 y0 H' Hl E x. pose proof (g_inc l r x0 y0 H') as H. pose proof (linear_range _ _ _ H ltac:(lia) E) as R0.
  pose proof (g_len l r x0 y0) as L.
  destruct (g_inside l r x0 y0 H' ltac:(lia) R0) as (K1 & K2 & Kx).
  destruct (in_or_out (l ++ r) x) as [I | O].
  - pose proof (g_here l r x0 y0) as (X0 & Y0).
    destruct (g_split l r x0 y0 x H' K1 K2 I) as (i & Hi & Ci & Cs). rewrite (linear_closed (l ++ r) x i H Hi Ci).
    destruct Cs as [C | [(C & Cx) | [(C & Cx) | C]]].
    + destruct (g_before l r x0 y0 i ltac:(lia)) as (A1 & A2), (g_before l r x0 y0 (i + 1) ltac:(lia)) as (B1 & B2).
      rewrite (linear_closed (l ++ (x0, y0) :: r) x i H' ltac:(lia)) by lra. unfold chord. now rewrite A1, A2, B1, B2.
    + destruct (g_before l r x0 y0 i ltac:(lia)) as (A1 & A2). assert (length l = (i + 1)%nat) as Kl by lia. rewrite Kl in X0, Y0, Kx.
      rewrite (linear_closed (l ++ (x0, y0) :: r) x i H' ltac:(lia)) by lra.
      replace (i + 1 - 1)%nat with i in Kx by lia. rewrite (linear_closed (l ++ r) x0 i H Hi) in E by lra. injection E as <-.
      ret_eq. unfold chord at 1. rewrite A1, A2, X0, Y0. unfold chord. field. split; lra.
    + destruct (g_after l r x0 y0 (i + 1) ltac:(lia)) as (A1 & A2). assert (length l = (i + 1)%nat) as Kl by lia. rewrite Kl in X0, Y0, Kx.
      rewrite (linear_closed (l ++ (x0, y0) :: r) x (i + 1) H' ltac:(lia)) by lra.
      replace (i + 1 - 1)%nat with i in Kx by lia. rewrite (linear_closed (l ++ r) x0 i H Hi) in E by lra. injection E as <-.
      ret_eq. unfold chord at 1. rewrite A1, A2, X0, Y0. unfold chord. field. split; lra.
    + destruct (g_after l r x0 y0 i ltac:(lia)) as (A1 & A2), (g_after l r x0 y0 (i + 1) ltac:(lia)) as (B1 & B2).
      rewrite (linear_closed (l ++ (x0, y0) :: r) x (i + 1) H' ltac:(lia)) by lra. unfold chord. now rewrite A1, A2, B1, B2.
  - destruct (g_before l r x0 y0 0 ltac:(lia)) as (F1 & _).
    assert (gx (l ++ (x0, y0) :: r) (last_of (l ++ (x0, y0) :: r)) = gx (l ++ r) (last_of (l ++ r))) as F2.
    { unfold last_of. rewrite L. replace (length (l ++ r) + 1 - 1)%nat with (length (l ++ r) - 1 + 1)%nat by lia.
      apply g_after. lia. }
    destruct (C24_errors (l ++ (x0, y0) :: r) x (increasing_sorted _ H') (nonempty (l ++ (x0, y0) :: r) ltac:(lia))) as (D1 & D2).
    destruct (C24_errors (l ++ r) x (increasing_sorted _ H) (nonempty (l ++ r) ltac:(lia))) as (D3 & D4).
    rewrite F1 in D1. rewrite F2 in D2. destruct O as [O | O]; [now rewrite D1, D3 | now rewrite D2, D4].
Qed.
Print Assumptions C115_linear.

(** *** Hermite *)

Section HPoints.
Context (l r : list (R * R * R)) (x0 y0 m0 : R).
Let p := l ++ r.
Let p' := l ++ (x0, y0, m0) :: r.
Let k := length l.

Lemma h_before i : (i < k)%nat -> hx p' i = hx p i /\ hy p' i = hy p i /\ hm p' i = hm p i.
Proof. intros H. unfold hx, hy, hm, p, p'. rewrite (proj1 (nth_ins l r (x0, y0, m0) (0, 0, 0)) i H). auto. Qed.
Lemma h_here : hx p' k = x0 /\ hy p' k = y0 /\ hm p' k = m0.
Proof. unfold hx, hy, hm, p', k. rewrite (proj1 (proj2 (nth_ins l r (x0, y0, m0) (0, 0, 0)))). repeat split; reflexivity. Qed.
Lemma h_after i : (k <= i)%nat -> hx p' (i + 1) = hx p i /\ hy p' (i + 1) = hy p i /\ hm p' (i + 1) = hm p i.
Proof. intros H. unfold hx, hy, hm, p, p'. rewrite (proj2 (proj2 (nth_ins l r (x0, y0, m0) (0, 0, 0))) i H). auto. Qed.
Lemma h_len : length p' = (length p + 1)%nat.
Proof. apply len_ins. Qed.

Lemma h_inc : h_increasing p' -> h_increasing p.
Proof.
  intros H i j Hij. pose proof h_len as L.
  destruct (Nat.lt_ge_cases j k).
  - rewrite <- (proj1 (h_before i ltac:(lia))), <- (proj1 (h_before j ltac:(lia))). apply H. lia.
  - rewrite <- (proj1 (h_after j ltac:(lia))). destruct (Nat.lt_ge_cases i k).
    + rewrite <- (proj1 (h_before i ltac:(lia))). apply H. lia.
    + rewrite <- (proj1 (h_after i ltac:(lia))). apply H. lia.
Qed.

Lemma h_inside : h_increasing p' -> (1 <= length p)%nat -> hx p 0 <= x0 <= hx p (h_last p) ->
  (1 <= k)%nat /\ (k < length p)%nat /\ hx p (k - 1) < x0 < hx p k.
Proof.
  intros H Hl Hx. pose proof h_len as L. pose proof (proj1 h_here) as X. unfold h_last in Hx.
  assert (1 <= k)%nat as K1.
  { destruct (Nat.eq_dec k 0) as [Z | N]; [| lia].
    pose proof (proj1 (h_after 0 ltac:(lia))) as G. assert (hx p' k < hx p' (0 + 1)) by (apply H; lia). lra. }
  assert (k < length p)%nat as K2.
  { destruct (Nat.lt_ge_cases k (length p)); [assumption |]. assert (k = length p) as Z by (unfold p, k in *; rewrite app_length in *; lia).
    pose proof (proj1 (h_before (length p - 1) ltac:(lia))) as G. assert (hx p' (length p - 1) < hx p' k) by (apply H; lia). lra. }
  split; [exact K1 |]. split; [exact K2 |]. split.
  - rewrite <- (proj1 (h_before (k - 1) ltac:(lia))), <- X. apply H. lia.
  - rewrite <- (proj1 (h_after k ltac:(lia))), <- X. apply H. lia.
Qed.
End HPoints.

Lemma h_in_or_out p x : hx p 0 <= x <= hx p (h_last p) \/ x < hx p 0 \/ hx p (h_last p) < x.
Proof. destruct (Rlt_le_dec x (hx p 0)), (Rlt_le_dec (hx p (h_last p)) x); auto. Qed.

Theorem C115_hermite : forall l r x0 y0 m0 F, h_increasing (l ++ (x0, y0, m0) :: r) -> (2 <= length (l ++ r))%nat ->
  h_answers (l ++ r) F -> hermite_eval (V := RV) (l ++ r) x0 = Ret (Ok y0) -> derivable_pt_lim F x0 m0 ->
  forall x, hermite_eval (V := RV) (l ++ (x0, y0, m0) :: r) x = hermite_eval (V := RV) (l ++ r) x.
Proof.
  intros l r x0 y0 m0 F H' Hl HF E Dv x. pose proof (h_inc l r x0 y0 m0 H') as H. pose proof (h_len l r x0 y0 m0) as L.
  destruct (C28_errors (l ++ r) x0 H (nonempty (l ++ r) ltac:(lia))) as (O1 & O2).
  assert (hx (l ++ r) 0 <= x0 <= hx (l ++ r) (h_last (l ++ r))) as R0.
  { destruct (h_in_or_out (l ++ r) x0) as [I | [O | O]]; [exact I | rewrite (O1 O) in E; discriminate | rewrite (O2 O) in E; discriminate]. }
  destruct (h_inside l r x0 y0 m0 H' ltac:(lia) R0) as (K1 & K2 & Kx). pose proof (h_here l r x0 y0 m0) as (X0 & Y0 & M0).
  set (j := (length l - 1)%nat) in *. assert (length l = (j + 1)%nat) as Kj by lia. rewrite Kj in *.
  rewrite (hermite_closed (l ++ r) j x0 H ltac:(lia)) in E by lra. injection E as E.
  assert (m0 = hpiece' (l ++ r) j x0) as Em.
  { apply (uniqueness_limite F x0); [exact Dv |]. intros e He. destruct (hpiece_deriv (l ++ r) j x0 e He) as (d & Hd).
    assert (0 < Rmin d (Rmin (x0 - hx (l ++ r) j) (hx (l ++ r) (j + 1) - x0))) as Pd.
    { apply Rmin_pos; [apply cond_pos | apply Rmin_pos; lra]. }
    exists (mkposreal _ Pd). simpl. intros h Nh Hh. unfold Rmin in Hh.
    assert (forall y, hx (l ++ r) j <= y <= hx (l ++ r) (j + 1) -> F y = hpiece (l ++ r) j y) as Fp.
    { intros y Hy. assert (hx (l ++ r) 0 <= y <= hx (l ++ r) (h_last (l ++ r))) as Ry.
      { assert (hx (l ++ r) 0 <= hx (l ++ r) j) by (destruct (Nat.eq_dec j 0) as [-> |]; [lra | apply Rlt_le, H; lia]).
        assert (hx (l ++ r) (j + 1) <= hx (l ++ r) (h_last (l ++ r))) by (unfold h_last; destruct (Nat.eq_dec (j + 1) (length (l ++ r) - 1)) as [-> |]; [lra | apply Rlt_le, H; lia]).
        lra. }
      specialize (HF y Ry). rewrite (hermite_closed (l ++ r) j y H ltac:(lia) Hy) in HF. now injection HF as ->. }
    assert (Rabs h < d /\ Rabs h < x0 - hx (l ++ r) j /\ Rabs h < hx (l ++ r) (j + 1) - x0) as (B1 & B2 & B3).
    { destruct (Rle_dec (x0 - hx (l ++ r) j) (hx (l ++ r) (j + 1) - x0)) in Hh;
        match type of Hh with context [Rle_dec ?a ?b] => destruct (Rle_dec a b) in Hh end; lra. }
    pose proof (Rle_abs h). pose proof (Rle_abs (- h)) as Q. rewrite Rabs_Ropp in Q.
    rewrite !Fp by lra. now apply Hd. }
  destruct (h_in_or_out (l ++ r) x) as [I | O].
  - destruct (h_cell (l ++ r) x H Hl I) as (i & Hi & Ci). rewrite (hermite_closed (l ++ r) i x H Hi Ci).
    destruct (Nat.lt_ge_cases i j); [| destruct (Nat.eq_dec i j) as [-> |]].
    + destruct (h_before l r x0 y0 m0 i ltac:(lia)) as (A1 & A2 & A3), (h_before l r x0 y0 m0 (i + 1) ltac:(lia)) as (B1 & B2 & B3).
      rewrite (hermite_closed (l ++ (x0, y0, m0) :: r) i x H' ltac:(lia)) by lra. unfold hpiece, hA, hB. now rewrite A1, A2, A3, B1, B2, B3.
    + destruct (Rle_lt_dec x x0).
      * destruct (h_before l r x0 y0 m0 j ltac:(lia)) as (A1 & A2 & A3).
        rewrite (hermite_closed (l ++ (x0, y0, m0) :: r) j x H' ltac:(lia)) by lra.
        ret_eq. unfold hpiece at 1. unfold hA, hB. rewrite A1, A2, A3, X0, Y0, M0, Em, <- E. unfold hpiece', hpiece, hA, hB. field. split; lra.
      * destruct (h_after l r x0 y0 m0 (j + 1) ltac:(lia)) as (A1 & A2 & A3).
        rewrite (hermite_closed (l ++ (x0, y0, m0) :: r) (j + 1) x H' ltac:(lia)) by lra.
        ret_eq. unfold hpiece at 1. unfold hA, hB. rewrite A1, A2, A3, X0, Y0, M0, Em, <- E. unfold hpiece', hpiece, hA, hB. field. split; lra.
    + destruct (h_after l r x0 y0 m0 i ltac:(lia)) as (A1 & A2 & A3), (h_after l r x0 y0 m0 (i + 1) ltac:(lia)) as (B1 & B2 & B3).
      rewrite (hermite_closed (l ++ (x0, y0, m0) :: r) (i + 1) x H' ltac:(lia)) by lra. unfold hpiece, hA, hB. now rewrite A1, A2, A3, B1, B2, B3.
  - destruct (h_before l r x0 y0 m0 0 ltac:(lia)) as (F1 & _).
    assert (hx (l ++ (x0, y0, m0) :: r) (h_last (l ++ (x0, y0, m0) :: r)) = hx (l ++ r) (h_last (l ++ r))) as F2.
    { unfold h_last. rewrite L. replace (length (l ++ r) + 1 - 1)%nat with (length (l ++ r) - 1 + 1)%nat by lia.
      apply h_after. lia. }
    destruct (C28_errors (l ++ (x0, y0, m0) :: r) x H' (nonempty (l ++ (x0, y0, m0) :: r) ltac:(lia))) as (D1 & D2).
    destruct (C28_errors (l ++ r) x H (nonempty (l ++ r) ltac:(lia))) as (D3 & D4).
    rewrite F1 in D1. rewrite F2 in D2. destruct O as [O | O]; [now rewrite D1, D3 | now rewrite D2, D4].
Qed.
Print Assumptions C115_hermite.

(** *** Natural cubic *)

(** What the code computes is the natural spline whenever that spline has no second derivative at the last point but one. *)
Lemma nc_unique p s t : increasing p -> (4 <= length p)%nat -> solved p s ->
  t 0%nat = 0 -> t (length p - 2)%nat = 0 -> t (length p - 1)%nat = 0 -> (forall i, (i + 2 < length p)%nat -> jump p t i = 0) ->
  forall j, (j < length p)%nat -> s j = t j.
Proof.
  intros H H4 Sv T0 T2 T1 J.
  assert (forall i, (i + 2 < length p)%nat ->
    (gx p (i + 1) - gx p i) * t i + 2 * (gx p (i + 1) - gx p i + (gx p (i + 2) - gx p (i + 1))) * t (i + 1)%nat
    + (gx p (i + 2) - gx p (i + 1)) * t (i + 2)%nat = 6 * turn p (i + 1)) as Rt.
  { intros i Hi. assert (gx p i < gx p (i + 1)) as G1 by (apply H; lia). assert (gx p (i + 1) < gx p (i + 2)) as G2 by (apply H; lia).
    pose proof (J i Hi) as E. rewrite (jump_eq p t i G1 G2) in E. unfold turn. replace (i + 1 + 1)%nat with (i + 2)%nat by lia.
    replace (i + 1 - 1)%nat with i by lia. replace (i + 2 - 1)%nat with (i + 1)%nat by lia. lra. }
  assert (forall j, (j <= length p - 2)%nat -> front p s j - t j = 0) as Fr.
  { apply (rows_zero (gx p) (fun j => front p s j - t j)).
    - intros r Hr. apply H. lia.
    - rewrite (front_0 p s Sv), T0. ring.
    - rewrite (front_end p s), T2. ring.
    - intros i Hi. pose proof (Rt i ltac:(lia)) as E1. pose proof (front_row p s H H4 Sv (i + 1) ltac:(lia)) as E2.
      replace (i + 1 - 1)%nat with i in E2 by lia. replace (i + 1 + 1)%nat with (i + 2)%nat in E2 by lia.
      replace (i + 2 - 1)%nat with (i + 1)%nat in E2 by lia. lra. }
  assert (s (length p - 2)%nat = 0) as S2.
  { destruct (last_row p s H H4 Sv) as (c & Hc & E).
    pose proof (Rt (length p - 3)%nat ltac:(lia)) as E1. replace (length p - 3 + 1)%nat with (length p - 2)%nat in E1 by lia.
    replace (length p - 3 + 2)%nat with (length p - 1)%nat in E1 by lia.
    replace (length p - 2 - 1)%nat with (length p - 3)%nat in E by lia. replace (length p - 1 - 1)%nat with (length p - 2)%nat in E by lia.
    pose proof (Fr (length p - 3)%nat ltac:(lia)) as E2. rewrite front_is in E2 by lia. rewrite T2, T1 in E1.
    assert (gx p (length p - 3) < gx p (length p - 2)) by (apply H; lia). assert (gx p (length p - 2) < gx p (length p - 1)) by (apply H; lia).
    apply (Rmult_eq_reg_l (2 * (gx p (length p - 2) - gx p (length p - 3) + (gx p (length p - 1) - gx p (length p - 2)))
      - (gx p (length p - 2) - gx p (length p - 3)) * c)).
    - replace (s (length p - 3)%nat) with (t (length p - 3)%nat) in E by lra. lra.
    - assert (-1 <= c <= 1) by (revert Hc; unfold Rabs; destruct (Rcase_abs c); lra).
      assert ((gx p (length p - 2) - gx p (length p - 3)) * c <= (gx p (length p - 2) - gx p (length p - 3)) * 1) by (apply Rmult_le_compat_l; lra).
      lra. }
  intros j Hj. destruct (Nat.lt_ge_cases j (length p - 2)).
  - pose proof (Fr j ltac:(lia)) as E. rewrite front_is in E by lia. lra.
  - destruct (Nat.eq_dec j (length p - 2)) as [-> |]; [now rewrite S2, T2 |].
    replace j with (length p - 1)%nat by lia. rewrite T1. exact (proj1 (proj2 Sv)).
Qed.

(** Smooth answers leave no second derivative at the last point but one. *)
Lemma smooth_last p s : increasing p -> (4 <= length p)%nat -> solved p s -> (forall i, (i + 2 < length p)%nat -> jump p s i = 0) ->
  s (length p - 2)%nat = 0.
Proof.
  intros H H4 Sv J. set (i := (length p - 4)%nat).
  assert (gx p i < gx p (i + 1)) as G1 by (apply H; lia). assert (gx p (i + 1) < gx p (i + 2)) as G2 by (apply H; lia).
  pose proof (J i ltac:(lia)) as E. rewrite (jump_eq p s i G1 G2) in E.
  pose proof (front_row p s H H4 Sv (i + 1) ltac:(lia)) as E2. unfold turn in E2.
  replace (i + 1 - 1)%nat with i in E2 by lia. replace (i + 1 + 1)%nat with (i + 2)%nat in E2 by lia.
  replace (i + 2 - 1)%nat with (i + 1)%nat in E2 by lia.
  rewrite (front_is p s i), (front_is p s (i + 1)) in E2 by lia. replace (front p s (i + 2)) with 0 in E2 by (replace (i + 2)%nat with (length p - 2)%nat by lia; symmetry; apply front_end).
  replace (length p - 2)%nat with (i + 2)%nat by lia.
  apply (Rmult_eq_reg_l (gx p (i + 2) - gx p (i + 1))); lra.
Qed.

Lemma q_cell p p' s t i k x : gx p' k = gx p i -> gx p' (k + 1) = gx p (i + 1) -> gy p' k = gy p i -> gy p' (k + 1) = gy p (i + 1) ->
  t k = s i -> t (k + 1)%nat = s (i + 1)%nat -> q p' t k x = q p s i x /\ q1 p' t k x = q1 p s i x.
Proof. intros A B C D E G. unfold q, q1, qa, qc. rewrite A, B, C, D, E, G. auto. Qed.

Lemma q_left_half p p' s t i k x x0 : gx p i < x0 < gx p (i + 1) -> gx p' k = gx p i -> gx p' (k + 1) = x0 -> gy p' k = gy p i -> gy p' (k + 1) = q p s i x0 ->
  t k = s i -> t (k + 1)%nat = q2 p s i x0 -> q p' t k x = q p s i x /\ q1 p' t k x = q1 p s i x.
Proof.
  intros Hx A B C D E G. unfold q at 1, q1 at 1, qa, qc. rewrite A, B, C, D, E, G. unfold q, q1, q2, qa, qc. split; field; split; lra.
Qed.

Lemma q_right_half p p' s t i k x x0 : gx p i < x0 < gx p (i + 1) -> gx p' k = x0 -> gx p' (k + 1) = gx p (i + 1) -> gy p' k = q p s i x0 -> gy p' (k + 1) = gy p (i + 1) ->
  t k = q2 p s i x0 -> t (k + 1)%nat = s (i + 1)%nat -> q p' t k x = q p s i x /\ q1 p' t k x = q1 p s i x.
Proof.
  intros Hx A B C D E G. unfold q at 1, q1 at 1, qa, qc. rewrite A, B, C, D, E, G. unfold q, q1, q2, qa, qc. split; field; split; lra.
Qed.

Theorem C115_natural_cubic : forall l r x0 y0 F, increasing (l ++ (x0, y0) :: r) -> (4 <= length (l ++ r))%nat ->
  spline_of (l ++ r) F -> smooth_answers (l ++ r) F -> in_range (l ++ r) x0 -> y0 = F x0 ->
  forall x, fit_eval (NaturalCubic RV) (l ++ (x0, y0) :: r) x = fit_eval (NaturalCubic RV) (l ++ r) x.
Proof.
  intros l r x0 y0 F H' H4 HF Sm R0 Ey x. pose proof (g_inc l r x0 y0 H') as H. pose proof (g_len l r x0 y0) as L.
  destruct (g_inside l r x0 y0 H' ltac:(lia) R0) as (K1 & K2 & Kx). pose proof (g_here l r x0 y0) as (X0 & Y0).
  set (k := length l) in *. set (p := l ++ r) in *. set (p' := l ++ (x0, y0) :: r) in *.
  assert (k = (k - 1 + 1)%nat) as Kk by lia. set (j := (k - 1)%nat) in *.
  destruct (spline_pieces p F H ltac:(lia) HF) as (s & Sv & Pc).
  assert (forall i, (i + 2 < length p)%nat -> jump p s i = 0) as J.
  { intros i Hi. apply (knot_diff p F s i H ltac:(lia) Pc Hi). apply Sm; lia. }
  pose proof (smooth_last p s H H4 Sv J) as S2. pose proof (proj1 Sv) as S0. pose proof (proj1 (proj2 Sv)) as S1.
  assert (y0 = q p s j x0) as Eq by (rewrite Ey; apply Pc; [lia | rewrite <- Kk; lra]).
  set (t := fun i => if (i <? k)%nat then s i else if (i =? k)%nat then q2 p s j x0 else s (i - 1)%nat).
  assert (forall i, (i < k)%nat -> t i = s i) as Tb by (intros i Hi; unfold t; destruct (Nat.ltb_spec i k); [reflexivity | lia]).
  assert (t k = q2 p s j x0) as Th by (unfold t; now rewrite Nat.ltb_irrefl, Nat.eqb_refl).
  assert (forall i, (k <= i)%nat -> t (i + 1)%nat = s i) as Ta.
  { intros i Hi. unfold t. destruct (Nat.ltb_spec (i + 1) k); [lia |]. destruct (Nat.eqb_spec (i + 1) k); [lia |]. f_equal. lia. }
  assert (forall i, (i < k)%nat -> gx p' i = gx p i /\ gy p' i = gy p i) as Gb by apply g_before.
  assert (forall i, (k <= i)%nat -> gx p' (i + 1) = gx p i /\ gy p' (i + 1) = gy p i) as Ga by apply g_after.
  (* every new cell carries the polynomial of the old one *)
  assert (forall i z, (i + 1 < k)%nat -> q p' t i z = q p s i z /\ q1 p' t i z = q1 p s i z) as P1.
  { intros i z Hi. apply q_cell; try apply Gb; try apply Tb; lia. }
  assert (forall z, q p' t j z = q p s j z /\ q1 p' t j z = q1 p s j z) as P2.
  { intros z. apply (q_left_half p p' s t j j z x0); rewrite <- ?Kk; try assumption; try (apply Gb; lia); [congruence | apply Tb; lia]. }
  assert (forall z, q p' t k z = q p s j z /\ q1 p' t k z = q1 p s j z) as P3.
  { intros z. apply (q_right_half p p' s t j k z x0); rewrite <- ?Kk; try assumption; try (apply Ga; lia); [congruence | apply Ta; lia]. }
  assert (forall i z, (k <= i)%nat -> q p' t (i + 1) z = q p s i z /\ q1 p' t (i + 1) z = q1 p s i z) as P4.
  { intros i z Hi. apply q_cell; try apply Ga; try apply Ta; lia. }
  destruct (C34_total p' H' ltac:(lia)) as (F' & HF'). destruct (spline_pieces p' F' H' ltac:(lia) HF') as (s' & Sv' & Pc').
  assert (forall i, (i < length p')%nat -> s' i = t i) as Et.
  { apply (nc_unique p' s' t H' ltac:(lia) Sv').
    - rewrite Tb by lia. exact S0.
    - rewrite L. replace (length p + 1 - 2)%nat with (length p - 2 + 1)%nat by lia. destruct (Nat.lt_ge_cases (length p - 2) k).
      + replace (length p - 2 + 1)%nat with k by lia. rewrite Th. unfold q2, qa. replace (j + 1)%nat with (length p - 1)%nat by lia.
        replace j with (length p - 2)%nat by lia. rewrite S1, S2. unfold Rdiv. ring.
      + rewrite Ta by lia. exact S2.
    - rewrite L. replace (length p + 1 - 1)%nat with (length p - 1 + 1)%nat by lia. rewrite Ta by lia. exact S1.
    - intros i Hi. unfold jump. destruct (Nat.lt_ge_cases (i + 2) k); [| destruct (Nat.eq_dec (i + 2) k) as [Ei |]; [| destruct (Nat.eq_dec i j) as [-> |]; [| destruct (Nat.eq_dec i k) as [-> |]]]].
      + rewrite (proj2 (P1 i _ ltac:(lia))), (proj2 (P1 (i + 1)%nat _ ltac:(lia))), (proj1 (Gb (i + 1)%nat ltac:(lia))). apply J. lia.
      + rewrite (proj2 (P1 i _ ltac:(lia))). replace (i + 1)%nat with j by lia. rewrite (proj2 (P2 _)), (proj1 (Gb j ltac:(lia))).
        replace j with (i + 1)%nat by lia. apply J. lia.
      + rewrite <- Kk, (proj2 (P2 _)), (proj2 (P3 _)). ring.
      + rewrite (proj2 (P3 _)), (proj2 (P4 k _ ltac:(lia))), (proj1 (Ga k ltac:(lia))). pose proof (J j ltac:(lia)) as Jj. unfold jump in Jj. rewrite <- Kk in Jj. exact Jj.
      + replace i with (i - 1 + 1)%nat by lia. rewrite (proj2 (P4 (i - 1)%nat _ ltac:(lia))), (proj2 (P4 (i - 1 + 1)%nat _ ltac:(lia))), (proj1 (Ga (i - 1 + 1)%nat ltac:(lia))).
        apply J. lia. }
  assert (forall i z, (i + 1 < length p')%nat -> q p' s' i z = q p' t i z) as Qt.
  { intros i z Hi. unfold q, qa, qc. now rewrite !Et by lia. }
  destruct (in_or_out p x) as [I | O].
  - rewrite (HF x I), (HF' x (proj2 (g_range l r x0 y0 x K1 K2) I)). ret_eq.
    destruct (g_split l r x0 y0 x H' K1 K2 I) as (i & Hi & Ci & Cs). change (length l) with k in Cs. fold p in Hi, Ci. rewrite (Pc i x Hi Ci).
    destruct Cs as [C | [(C & Cx) | [(C & Cx) | C]]].
    + rewrite (Pc' i x ltac:(lia)), (Qt i x ltac:(lia)); [apply P1; lia |].
      rewrite (proj1 (Gb i ltac:(lia))), (proj1 (Gb (i + 1)%nat ltac:(lia))). exact Ci.
    + assert (i = j) as -> by lia. rewrite (Pc' j x ltac:(lia)), (Qt j x ltac:(lia)); [apply P2 |].
      rewrite (proj1 (Gb j ltac:(lia))), <- Kk, X0. lra.
    + assert (i = j) as -> by lia. rewrite (Pc' k x ltac:(lia)), (Qt k x ltac:(lia)); [apply P3 |].
      rewrite (proj1 (Ga k ltac:(lia))), X0. rewrite <- Kk in Ci. lra.
    + rewrite (Pc' (i + 1)%nat x ltac:(lia)), (Qt (i + 1)%nat x ltac:(lia)); [apply P4; lia |].
      rewrite (proj1 (Ga i ltac:(lia))), (proj1 (Ga (i + 1)%nat ltac:(lia))). exact Ci.
  - destruct (Gb 0%nat ltac:(lia)) as (F1 & _).
    assert (gx p' (last_of p') = gx p (last_of p)) as F2.
    { unfold last_of. rewrite L. replace (length p + 1 - 1)%nat with (length p - 1 + 1)%nat by lia. apply Ga. lia. }
    destruct (C34_errors p' x H' ltac:(lia)) as (D1 & D2). destruct (C34_errors p x H ltac:(lia)) as (D3 & D4).
    rewrite F1 in D1. rewrite F2 in D2. destruct O as [O | O]; [now rewrite D1, D3 | now rewrite D2, D4].
Qed.
Print Assumptions C115_natural_cubic.

(** *** Where it fails *)

Theorem C115_natural_cubic_refuted : exists l r x0 y0 x v v', increasing (l ++ (x0, y0) :: r) /\ (4 <= length (l ++ r))%nat
  /\ fit_eval (NaturalCubic RV) (l ++ r) x0 = Ret (Ok y0)
  /\ fit_eval (NaturalCubic RV) (l ++ r) x = Ret (Ok v) /\ fit_eval (NaturalCubic RV) (l ++ (x0, y0) :: r) x = Ret (Ok v') /\ v' <> v.
Proof.
  exists [(0, 0)], [(1, 0); (2, 0); (3, 1)], (1 / 2), 0, (9 / 4), (13 / 80), (41 / 256). cbn [app].
  assert (increasing [(0, 0); (1 / 2, 0); (1, 0); (2, 0); (3, 1)]) as H'.
  { intros i j H. simpl in H. destruct i as [| [| [| [| [| i]]]]], j as [| [| [| [| [| j]]]]]; try lia; unfold gx; simpl; lra. }
  destruct rise_fall as (_ & H & _). unfold rise in H.
  split; [exact H' |]. split; [simpl; lia |]. split; [| split; [| split; [| lra]]].
  - rewrite (nc_value_ds _ 0 (1 / 2) H ltac:(simpl; lia) ltac:(simpl; lia)) by (unfold gx; simpl; lra). ret_eq.
    unfold q, qa, qc. rewrite !nc_ds_nth by (simpl; lia). simpl. unfold nc_sol, xsol. simpl.
    unfold nc_rhs, nc_off, nc_diag, mul_entry, nc_coff, nc_cdiag, nc_mm, v_recip, nx, ny, gx, gy. simpl. field.
  - rewrite (nc_value_ds _ 2 (9 / 4) H ltac:(simpl; lia) ltac:(simpl; lia)) by (unfold gx; simpl; lra). ret_eq.
    unfold q, qa, qc. rewrite !nc_ds_nth by (simpl; lia). simpl. unfold nc_sol, xsol. simpl.
    unfold nc_rhs, nc_off, nc_diag, mul_entry, nc_coff, nc_cdiag, nc_mm, v_recip, nx, ny, gx, gy. simpl. field.
  - rewrite (nc_value_ds _ 3 (9 / 4) H' ltac:(simpl; lia) ltac:(simpl; lia)) by (unfold gx; simpl; lra). ret_eq.
    unfold q, qa, qc. rewrite !nc_ds_nth by (simpl; lia). simpl. unfold nc_sol, xsol. simpl.
    unfold nc_rhs, nc_off, nc_diag, mul_entry, nc_coff, nc_cdiag, nc_mm, v_recip, nx, ny, gx, gy. simpl. field.
Qed.
Print Assumptions C115_natural_cubic_refuted.

Theorem C115_catmull_rom_refuted : exists l r x0 y0 x v v', increasing (l ++ (x0, y0) :: r) /\ (3 <= length (l ++ r))%nat
  /\ fit_eval (CatmullRom RV) (l ++ r) x0 = Ret (Ok y0)
  /\ fit_eval (CatmullRom RV) (l ++ r) x = Ret (Ok v) /\ fit_eval (CatmullRom RV) (l ++ (x0, y0) :: r) x = Ret (Ok v') /\ v' <> v.
Proof.
  exists [(0, 0)], [(1, 0); (2, 1)], (1 / 2), (-1 / 16), (1 / 4), (-3 / 128), (-5 / 128). cbn [app].
  assert (increasing [(0, 0); (1 / 2, -1 / 16); (1, 0); (2, 1)]) as H'.
  { intros i j H. simpl in H. destruct i as [| [| [| [| i]]]], j as [| [| [| [| j]]]]; try lia; unfold gx; simpl; lra. }
  assert (increasing [(0, 0); (1, 0); (2, 1)]) as H.
  { intros i j H. simpl in H. destruct i as [| [| [| i]]], j as [| [| [| j]]]; try lia; unfold gx; simpl; lra. }
  split; [exact H' |]. split; [simpl; lia |]. split; [| split; [| split; [| lra]]].
  - rewrite (cr_closed _ 0 (1 / 2) H ltac:(simpl; lia) ltac:(simpl; lia)) by (unfold gx; simpl; lra). ret_eq.
    unfold cpiece, k3, k2, k1, calpha, cbeta, ch, gx, gy. simpl. field.
  - rewrite (cr_closed _ 0 (1 / 4) H ltac:(simpl; lia) ltac:(simpl; lia)) by (unfold gx; simpl; lra). ret_eq.
    unfold cpiece, k3, k2, k1, calpha, cbeta, ch, gx, gy. simpl. field.
  - rewrite (cr_closed _ 0 (1 / 4) H' ltac:(simpl; lia) ltac:(simpl; lia)) by (unfold gx; simpl; lra). ret_eq.
    unfold cpiece, k3, k2, k1, calpha, cbeta, ch, gx, gy. simpl. field.
Qed.
Print Assumptions C115_catmull_rom_refuted.

(** *** Yield curves *)

Lemma combine_split {A B} (a a' : list A) (b b' : list B) : length a = length b -> combine (a ++ a') (b ++ b') = combine a b ++ combine a' b'.
Proof. revert b. induction a as [| x a IH]; intros [| y b] H; simpl in *; try discriminate; [reflexivity |]. f_equal. apply IH. lia. Qed.

Lemma same_factor (D : DayCount RV) (c c' : YieldCurve RV (Linear RV)) : settlement_date c' = settlement_date c ->
  (forall x, i_try_value (Linear RV) (interpolator c') x = i_try_value (Linear RV) (interpolator c) x) ->
  forall d1 d2, discount_factor D c' d1 d2 = discount_factor D c d1 d2.
Proof.
  intros S E d1 d2. unfold discount_factor, curve_yield. rewrite S.
  destruct (date_ltb d2 d1); [reflexivity |]. destruct (_ || _)%bool; [reflexivity |].
  destruct (D (settlement_date c) d2) as [[t2 | e] | |]; cbn [bind try_res]; try reflexivity. rewrite E.
  destruct (i_try_value (Linear RV) (interpolator c) t2) as [[y2 | e] | |]; cbn [bind try_res lift_interp]; try reflexivity.
  destruct (date_eqb d1 (settlement_date c)); [reflexivity |].
  destruct (D (settlement_date c) d1) as [[t1 | e] | |]; cbn [bind try_res]; try reflexivity. now rewrite E.
Qed.

(** A maturity added with the yield the curve already gives it changes no discount factor and no bond value. *)
Theorem C115_curve : forall D s lm rm (ly ry : list R) m0 y0 c v t0, D = act_360 RV \/ D = act_365 RV ->
  length lm = length ly -> length rm = length ry -> (2 <= length (lm ++ rm))%nat -> (forall m, In m (lm ++ m0 :: rm) -> a_date m) -> a_date s ->
  (forall i j mi mj, (i < j)%nat -> nth_error (lm ++ m0 :: rm) i = Some mi -> nth_error (lm ++ m0 :: rm) j = Some mj -> earlier mi mj) ->
  curve_new D (Linear RV) s (lm ++ rm) (ly ++ ry) = Ret (Ok c) ->
  earlier s m0 -> D s m0 = Ret (Ok t0) -> discount_factor D c s m0 = Ret (Ok v) -> v = exp (- t0 * y0) ->
  exists c', curve_new D (Linear RV) s (lm ++ m0 :: rm) (ly ++ y0 :: ry) = Ret (Ok c')
    /\ (forall d1 d2, discount_factor D c' d1 d2 = discount_factor D c d1 d2)
    /\ forall b settle, discounted_value D b settle c' = discounted_value D b settle c.
Proof.
  intros D s lm rm ly ry m0 y0 c v t0 HD Ll Lr H2 Am As Om Ec O0 E0 Ev Hv.
  assert (length (lm ++ m0 :: rm) = length (ly ++ y0 :: ry)) as L' by (rewrite !app_length; simpl; lia).
  assert (length (lm ++ rm) = length (ly ++ ry)) as L by (rewrite !app_length; lia).
  destruct (C42_actual_times D s (lm ++ m0 :: rm) (ly ++ y0 :: ry) HD L' Am Om) as (t & Ht & Inc').
  destruct (C19_laws D HD) as (f & Hf & _ & _ & Mono & Zero).
  assert (t m0 = t0) as T0 by (pose proof (eq_trans (eq_sym (Ht m0)) E0) as Q; now injection Q).
  assert (0 < t0) as P0.
  { pose proof (eq_trans (eq_sym (Hf s m0)) E0) as Q. injection Q as <-.
    pose proof (proj1 (Mono s s m0 As (Am m0 ltac:(apply in_or_app; right; now left))) O0) as Q. rewrite (proj2 (Zero s s As As) eq_refl) in Q. exact Q. }
  set (cl := curve_points t lm ly). set (cr := curve_points t rm ry).
  assert (curve_points t (lm ++ m0 :: rm) (ly ++ y0 :: ry) = cl ++ (t0, y0) :: cr) as P'.
  { unfold curve_points. rewrite map_app, combine_split by (rewrite map_length; exact Ll). simpl. now rewrite T0. }
  assert (curve_points t (lm ++ rm) (ly ++ ry) = cl ++ cr) as P.
  { unfold curve_points. rewrite map_app, combine_split by (rewrite map_length; exact Ll). reflexivity. }
  assert (length (cl ++ cr) = length (lm ++ rm)) as Lp by (rewrite <- P; apply curve_points_length; exact L).
  rewrite P' in Inc'. pose proof (g_inc cl cr t0 y0 Inc') as Inc.
  assert (interpolates (Linear RV) 2) as Hi by (left; split; reflexivity).
  destruct (built D (Linear RV) s (lm ++ rm) (ly ++ ry) t L (fun m _ => Ht m)) as (c0 & Ec0 & Sc & Rc).
  { rewrite P. apply (answers _ _ _ Hi Inc). lia. }
  rewrite Ec in Ec0. injection Ec0 as <-.
  destruct (built D (Linear RV) s (lm ++ m0 :: rm) (ly ++ y0 :: ry) t L' (fun m _ => Ht m)) as (c' & Ec' & Sc' & Rc').
  { rewrite P'. apply (answers _ _ _ Hi Inc'). rewrite len_ins. lia. }
  rewrite P in Rc. rewrite P' in Rc'.
  assert (fit_eval (Linear RV) (cl ++ cr) t0 = Ret (Ok y0)) as E.
  { destruct (df_ok D (Linear RV) c s m0 v Ev) as (_ & _ & t2 & y2 & Q1 & Q2 & Q3). rewrite Sc in *.
    pose proof (eq_trans (eq_sym Q1) E0) as Q. injection Q as ->. rewrite Rc, Q2. do 2 f_equal.
    destruct Q3 as [(_ & Q3) | (N & _)]; [| now elim N]. rewrite Hv in Q3. apply exp_inv in Q3.
    apply (Rmult_eq_reg_l (- t0)); [exact (eq_sym Q3) | lra]. }
  assert (forall d1 d2, discount_factor D c' d1 d2 = discount_factor D c d1 d2) as Df.
  { apply same_factor; [congruence |]. intros x. rewrite <- Rc, <- Rc'. apply (C115_linear cl cr t0 y0 Inc' ltac:(lia) E). }
  exists c'. split; [exact Ec' |]. split; [exact Df |]. intros b settle. unfold discounted_value.
  apply same_value. intros g _ _. apply Df.
Qed.
Print Assumptions C115_curve.

(** Two points, and the middle of the chord. *)
Example C115_linear_case : increasing ([(0, 0)] ++ (1, 3) :: [(2, 6)]) /\ fit_eval (Linear RV) ([(0, 0)] ++ [(2, 6)]) 1 = Ret (Ok 3).
Proof.
  split.
  - intros i j H. simpl in H. destruct i as [| [| [| i]]], j as [| [| [| j]]]; try lia; unfold gx; simpl; lra.
  - assert (increasing ([(0, 0)] ++ [(2, 6)])) as H.
    { intros i j H. simpl in H. destruct i as [| [| i]], j as [| [| j]]; try lia; unfold gx; simpl; lra. }
    rewrite (linear_closed _ 1 0 H ltac:(simpl; lia)) by (unfold gx; simpl; lra). ret_eq. unfold chord, gx, gy. simpl. field.
Qed.

(** The parabola through (0, 0) with slope 0 and (2, 4) with slope 4, at 1. *)
Example C115_hermite_case : exists F, h_increasing ([(0, 0, 0)] ++ (1, 1, 2) :: [(2, 4, 4)]) /\ h_answers ([(0, 0, 0)] ++ [(2, 4, 4)]) F
  /\ hermite_eval (V := RV) ([(0, 0, 0)] ++ [(2, 4, 4)]) 1 = Ret (Ok 1) /\ derivable_pt_lim F 1 2.
Proof.
  exists (fun x => x ^ 2).
  assert (h_increasing ([(0, 0, 0)] ++ [(2, 4, 4)])) as H.
  { intros i j H. simpl in H. destruct i as [| [| i]], j as [| [| j]]; try lia; unfold hx; simpl; lra. }
  assert (h_answers ([(0, 0, 0)] ++ [(2, 4, 4)]) (fun x => x ^ 2)) as A.
  { intros x Hx. unfold h_last, hx in Hx. simpl in Hx.
    rewrite (hermite_closed _ 0 x H ltac:(simpl; lia)) by (unfold hx; simpl; lra). ret_eq. unfold hpiece, hA, hB, hx, hy, hm. simpl. field. }
  split; [| split; [exact A | split]].
  - intros i j Hj. simpl in Hj. destruct i as [| [| [| i]]], j as [| [| [| j]]]; try lia; unfold hx; simpl; lra.
  - rewrite A by (unfold h_last, hx; simpl; lra). ret_eq. simpl. ring.
  - apply (derive_as_cubic _ 0 1 0 0 0); [intros y; ring | ring].
Qed.

(** A point on the line through four. *)
Example C115_natural_cubic_case : exists F, increasing ([(0, 0); (1, 1)] ++ (3 / 2, F (3 / 2)) :: [(2, 2); (3, 3)])
  /\ spline_of ([(0, 0); (1, 1)] ++ [(2, 2); (3, 3)]) F /\ smooth_answers ([(0, 0); (1, 1)] ++ [(2, 2); (3, 3)]) F
  /\ in_range ([(0, 0); (1, 1)] ++ [(2, 2); (3, 3)]) (3 / 2).
Proof.
  destruct C114_smooth_case as (F & _ & A & _ & B & _). exists F. cbn [app]. split; [| split; [exact A | split; [exact B |]]].
  - intros i j H. simpl in H. destruct i as [| [| [| [| [| i]]]]], j as [| [| [| [| [| j]]]]]; try lia; unfold gx; simpl; lra.
  - unfold in_range, last_of, gx. simpl. lra.
Qed.

(** Two maturities and one between them. *)
Example C115_curve_case : exists c v t0 y0,
  curve_new (act_365 RV) (Linear RV) ex_settle ([mkDate 2025 3 1] ++ [mkDate 2028 2 29]) ([2/100] ++ [3/100]) = Ret (Ok c)
  /\ earlier ex_settle (mkDate 2026 3 1) /\ act_365 RV ex_settle (mkDate 2026 3 1) = Ret (Ok t0)
  /\ discount_factor (act_365 RV) c ex_settle (mkDate 2026 3 1) = Ret (Ok v) /\ v = exp (- t0 * y0)
  /\ a_date ex_settle /\ (forall m, In m ([mkDate 2025 3 1] ++ mkDate 2026 3 1 :: [mkDate 2028 2 29]) -> a_date m).
Proof.
  assert (forall m, In m ([mkDate 2025 3 1] ++ mkDate 2026 3 1 :: [mkDate 2028 2 29]) -> a_date m) as Am.
  { intros m [<- | [<- | [<- | []]]]; apply valid_a_date; reflexivity. }
  assert (a_date ex_settle) as As by (apply valid_a_date; reflexivity).
  assert (earlier ex_settle (mkDate 2026 3 1)) as O0 by (unfold earlier, ex_settle; simpl; lia).
  destruct (C42_actual_times (act_365 RV) ex_settle [mkDate 2025 3 1; mkDate 2028 2 29] [2/100; 3/100] (or_intror eq_refl) eq_refl) as (t & Ht & Inc).
  - intros m [<- | [<- | []]]; apply Am; simpl; auto.
  - intros i j mi mj Hij Hi Hj.
    destruct i as [| [| i]]; destruct j as [| [| j]]; try lia; simpl in Hi, Hj;
      try (destruct i; discriminate); try (destruct j; discriminate);
      injection Hi as <-; injection Hj as <-; unfold earlier; simpl; lia.
  - destruct (C19_laws (act_365 RV) (or_intror eq_refl)) as (f & Hf & _ & _ & Mono & _).
    assert (forall d, t d = f ex_settle d) as Tf by (intros d; pose proof (eq_trans (eq_sym (Ht d)) (Hf ex_settle d)) as Q; now injection Q).
    destruct (built (act_365 RV) (Linear RV) ex_settle [mkDate 2025 3 1; mkDate 2028 2 29] [2/100; 3/100] t eq_refl (fun m _ => Ht m)) as (c & Ec & Sc & Rc).
    { apply (answers _ 2 _); [left; split; reflexivity | exact Inc | simpl; lia]. }
    set (p := curve_points t [mkDate 2025 3 1; mkDate 2028 2 29] [2/100; 3/100]) in *. set (m0 := mkDate 2026 3 1) in *.
    assert (fit_eval (Linear RV) p (t m0) = Ret (Ok (chord p 0 (t m0)))) as E.
    { apply linear_closed; [exact Inc | simpl; lia |]. rewrite !Tf. unfold p, curve_points, gx. cbn [map combine nth fst Nat.add]. rewrite !Tf.
      split; apply Rlt_le, Mono; try (apply Am; simpl; auto); unfold earlier; simpl; lia. }
    exists c, (exp (- t m0 * chord p 0 (t m0))), (t m0), (chord p 0 (t m0)).
    split; [exact Ec |]. split; [exact O0 |]. split; [apply Ht |]. split; [| split; [reflexivity | split; [exact As | exact Am]]].
    rewrite Rc in E. rewrite <- Sc in O0 |- *.
    apply (df_intro (act_365 RV) (Linear RV) c); try reflexivity; try exact E; rewrite ?Sc; try (unfold earlier, ex_settle; simpl; lia). apply Ht.
Qed.
