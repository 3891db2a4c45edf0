(** Property C100: discount factors and bond values of Catmull-Rom curves in binary64 against exact arithmetic. *)
From Coq Require Import String ZArith Reals Bool List Arith Lia Lra Psatz.
From Flocq Require Import Core BinarySingleNaN Relative.
From Verif Require Import Base Chrono Gregorian DateModel DateFacts Value RealValue FloatValue FloatFacts DayCountModel InterpModel InterpFacts Grid
  CurveModel BondModel PropsDate PropsDayCount PropsDayCountFloat PropsLinear PropsCatmullRom PropsCurve PropsBond PropsFloat PropsFloatKnots PropsFloatLinear PropsCurveFloat
  PropsBondFloat PropsCurveError PropsSplineFloat.
Import ListNotations.
Open Scope R_scope.

(** ** Real numbers *)

Lemma weigh w y Y W : Rabs w <= W -> Rabs y <= Y -> Rabs (w * y) <= W * Y.
Proof. intros H1 H2. rewrite Rabs_mult. apply Rmult_le_compat; auto using Rabs_pos. Qed.

(** The value of a cell is at most twice the data. *)
Lemma creal_range d a b k ym y0 y1 y2 Y : 0 <= d <= 1 -> 0 <= a <= / 2 -> 0 <= b <= 1 ->
  Rabs ym <= Y -> Rabs y0 <= Y -> Rabs y1 <= Y -> Rabs y2 <= Y -> Rabs (creal d a b k ym y0 y1 y2) <= 2 * Y.
Proof.
  intros Hd Ha Hb Ym Y0 Y1 Y2. assert (0 <= Y) as PY by (eapply Rle_trans; [apply Rabs_pos | exact Ym]).
  assert (forall wm w0 w1 w2 Wm W0 W1 W2, Rabs wm <= Wm -> Rabs w0 <= W0 -> Rabs w1 <= W1 -> Rabs w2 <= W2 -> Wm + W0 + W1 + W2 <= 2 ->
    Rabs (wm * ym + w0 * y0 + w1 * y1 + w2 * y2) <= 2 * Y) as Sum.
  { intros wm w0 w1 w2 Wm W0 W1 W2 Em E0 E1 E2 ES.
    pose proof (weigh _ _ _ _ Em Ym). pose proof (weigh _ _ _ _ E0 Y0). pose proof (weigh _ _ _ _ E1 Y1). pose proof (weigh _ _ _ _ E2 Y2).
    pose proof (Rabs_triang (wm * ym + w0 * y0 + w1 * y1) (w2 * y2)). pose proof (Rabs_triang (wm * ym + w0 * y0) (w1 * y1)).
    pose proof (Rabs_triang (wm * ym) (w0 * y0)).
    assert ((Wm + W0 + W1 + W2) * Y <= 2 * Y) by (apply Rmult_le_compat_r; assumption). lra. }
  assert (forall x y, 0 <= x -> 0 <= y -> 0 <= x * y) as P by (intros; now apply Rmult_le_pos).
  assert (0 <= d * d) as D2 by (apply P; lra). assert (0 <= d * (1 - d)) as D2' by (apply P; lra).
  assert (0 <= d * (d * d)) as D3 by (apply P; lra). assert (0 <= d * (d * (1 - d))) as Q1' by (apply P; lra).
  assert (0 <= d * ((1 - d) * (1 - d))) as Q2' by (apply P; [lra | apply P; lra]).
  assert (0 <= (1 - d) * ((1 - d) * (1 + 2 * d))) as Q3' by (apply P; [lra | apply P; lra]).
  assert (0 <= (1 - d) * ((1 - d) * (1 + d))) as Q4' by (apply P; [lra | apply P; lra]).
  assert (0 <= (1 - d) * (1 + d * (1 - d))) as Q5' by (apply P; lra).
  assert (0 <= d * d - d * d * d) as Q1 by lra. assert (0 <= d - 2 * (d * d) + d * d * d) as Q2 by lra.
  assert (0 <= a * (d - 2 * (d * d) + d * d * d) <= / 2 * (d - 2 * (d * d) + d * d * d)) as QA
    by (split; [apply Rmult_le_pos; lra | apply Rmult_le_compat_r; lra]).
  assert (0 <= b * (d * d - d * d * d) <= 1 * (d * d - d * d * d)) as QB by (split; [apply Rmult_le_pos; lra | apply Rmult_le_compat_r; lra]).
  assert (0 <= 1 - 3 * (d * d) + 2 * (d * d * d)) as Q3 by lra.
  assert (0 <= 1 - d - d * d + d * d * d) as Q4 by lra.
  assert (0 <= 1 - 2 * (d * d) + d * d * d) as Q5 by lra.
  destruct k as [| [| k]]; cbn [creal].
  - match goal with |- Rabs ?x <= _ => replace x with (0 * ym + (1 - d - d * d + d * d * d + b * (d * d - d * d * d)) * y0
      + (d + (d * d - d * d * d)) * y1 + (- (b * (d * d - d * d * d))) * y2) by ring end.
    apply (Sum _ _ _ _ 0 (1 - d - d * d + d * d * d + b * (d * d - d * d * d)) (d + (d * d - d * d * d)) (b * (d * d - d * d * d)));
      [rewrite Rabs_R0; lra | rewrite Rabs_pos_eq; lra | rewrite Rabs_pos_eq; lra | rewrite Rabs_Ropp, Rabs_pos_eq; lra | lra].
  - match goal with |- Rabs ?x <= _ => replace x with ((- (a * (d - 2 * (d * d) + d * d * d))) * ym + (1 - 3 * (d * d) + 2 * (d * d * d) + b * (d * d - d * d * d)) * y0
      + (3 * (d * d) - 2 * (d * d * d) + a * (d - 2 * (d * d) + d * d * d)) * y1 + (- (b * (d * d - d * d * d))) * y2) by ring end.
    apply (Sum _ _ _ _ (a * (d - 2 * (d * d) + d * d * d)) (1 - 3 * (d * d) + 2 * (d * d * d) + b * (d * d - d * d * d))
      (3 * (d * d) - 2 * (d * d * d) + a * (d - 2 * (d * d) + d * d * d)) (b * (d * d - d * d * d)));
      [rewrite Rabs_Ropp, Rabs_pos_eq; lra | rewrite Rabs_pos_eq; lra | rewrite Rabs_pos_eq; lra | rewrite Rabs_Ropp, Rabs_pos_eq; lra | lra].
  - assert (0 <= 2 * (d * d) + a * (d - 2 * (d * d) - d * d * d)) as Q7.
    { assert (0 <= (1 - 2 * a) * (d * d)) by (apply Rmult_le_pos; lra). assert (0 <= a * (d - d * d * d)) by (apply Rmult_le_pos; lra).
      lra. }
    match goal with |- Rabs ?x <= _ => replace x with ((- (a * (d - 2 * (d * d) + d * d * d))) * ym + (1 - 2 * (d * d) + d * d * d) * y0
      + (2 * (d * d) + a * (d - 2 * (d * d) - d * d * d)) * y1 + 0 * y2) by ring end.
    apply (Sum _ _ _ _ (a * (d - 2 * (d * d) + d * d * d)) (1 - 2 * (d * d) + d * d * d) (2 * (d * d) + a * (d - 2 * (d * d) - d * d * d)) 0);
      [rewrite Rabs_Ropp, Rabs_pos_eq; lra | rewrite Rabs_pos_eq; lra | rewrite Rabs_pos_eq; lra | rewrite Rabs_R0; lra |].
    assert (1 + d * d * d + a * (2 * d - 4 * (d * d)) <= 2); [| lra].
    destruct (Rle_dec d (/ 2)) as [Lo | Up].
    + assert (a * (2 * d - 4 * (d * d)) <= / 2 * (2 * d - 4 * (d * d))) by (apply Rmult_le_compat_r; nra). nra.
    + assert (a * (2 * d - 4 * (d * d)) <= 0) by (assert (0 <= a * (4 * (d * d) - 2 * d)) by (apply Rmult_le_pos; nra); lra). nra.
Qed.

(** The value of a cell changes little when its position and the two ratios of widths do. *)
Lemma creal_lip d a b d' a' b' k ym y0 y1 y2 Y ed ea eb : 0 <= d <= 1 -> 0 <= a <= / 2 -> 0 <= b <= 1 ->
  0 <= d' <= 1 -> 0 <= a' <= / 2 -> 0 <= b' <= 1 ->
  Rabs ym <= Y -> Rabs y0 <= Y -> Rabs y1 <= Y -> Rabs y2 <= Y -> Rabs (d' - d) <= ed -> Rabs (a' - a) <= ea -> Rabs (b' - b) <= eb ->
  Rabs (creal d' a' b' k ym y0 y1 y2 - creal d a b k ym y0 y1 y2) <= Y * (25 * ed + 8 * ea + 2 * eb).
Proof.
  intros Hd Ha Hb Hd' Ha' Hb' Ym Y0 Y1 Y2 Ed Ea Eb.
  assert (0 <= Y) as PY by (eapply Rle_trans; [apply Rabs_pos | exact Ym]).
  assert (Rabs (d' * d' - d * d) <= 2 * ed) as Ed2.
  { replace (d' * d' - d * d) with ((d' + d) * (d' - d)) by ring. apply weigh; [rewrite Rabs_pos_eq; lra | exact Ed]. }
  assert (Rabs (d' * d' * d' - d * d * d) <= 3 * ed) as Ed3.
  { replace (d' * d' * d' - d * d * d) with ((d' * d' + d' * d + d * d) * (d' - d)) by ring. apply weigh; [| exact Ed].
    assert (0 <= d' * d' <= 1) by nra. assert (0 <= d' * d <= 1) by nra. assert (0 <= d * d <= 1) by nra. rewrite Rabs_pos_eq; lra. }
  assert (0 <= d * d <= 1) as D2 by nra. assert (0 <= d * d * d <= 1) as D3 by nra.
  assert (forall w1 w2 w3 W1 W2 W3, Rabs w1 <= W1 * Y -> Rabs w2 <= W2 * Y -> Rabs w3 <= W3 * Y -> 3 * W3 + 2 * W2 + W1 <= 25 ->
    Rabs (w3 * (d' * d' * d' - d * d * d) + w2 * (d' * d' - d * d) + w1 * (d' - d)) <= 25 * Y * ed) as InD.
  { intros w1 w2 w3 W1 W2 W3 E1 E2 E3 ES. pose proof (weigh _ _ _ _ E3 Ed3). pose proof (weigh _ _ _ _ E2 Ed2). pose proof (weigh _ _ _ _ E1 Ed).
    pose proof (Rabs_triang (w3 * (d' * d' * d' - d * d * d) + w2 * (d' * d' - d * d)) (w1 * (d' - d))).
    pose proof (Rabs_triang (w3 * (d' * d' * d' - d * d * d)) (w2 * (d' * d' - d * d))).
    assert (0 <= ed) by (eapply Rle_trans; [apply Rabs_pos | exact Ed]). assert (0 <= Y * ed) by (apply Rmult_le_pos; lra).
    assert ((3 * W3 + 2 * W2 + W1) * (Y * ed) <= 25 * (Y * ed)) by (apply Rmult_le_compat_r; lra). lra. }
  assert (forall v3 v2 v1, Rabs v3 <= 2 * Y -> Rabs v2 <= 4 * Y -> Rabs v1 <= 2 * Y ->
    Rabs ((a' - a) * (v3 * (d * d * d) + v2 * (d * d) + v1 * d)) <= ea * (8 * Y)) as InA.
  { intros v3 v2 v1 E3 E2 E1. apply weigh; [exact Ea |].
    assert (Rabs (v3 * (d * d * d)) <= 2 * Y * 1) by (apply weigh; [exact E3 | rewrite Rabs_pos_eq; lra]).
    assert (Rabs (v2 * (d * d)) <= 4 * Y * 1) by (apply weigh; [exact E2 | rewrite Rabs_pos_eq; lra]).
    assert (Rabs (v1 * d) <= 2 * Y * 1) by (apply weigh; [exact E1 | rewrite Rabs_pos_eq; lra]).
    pose proof (Rabs_triang (v3 * (d * d * d) + v2 * (d * d)) (v1 * d)). pose proof (Rabs_triang (v3 * (d * d * d)) (v2 * (d * d))). lra. }
  assert (Rabs ((b' - b) * ((y2 - y0) * (d * d * d - d * d))) <= eb * (2 * Y)) as InB.
  { apply weigh; [exact Eb |]. replace (2 * Y) with (2 * Y * 1) by ring. apply weigh.
    - apply Rabs_le_inv in Y0, Y2. apply Rabs_le. lra.
    - apply Rabs_le. nra. }
  apply Rabs_le_inv in Ym, Y0, Y1, Y2.
  assert (forall A Bq C, Rabs A <= 25 * Y * ed -> Rabs Bq <= ea * (8 * Y) -> Rabs C <= eb * (2 * Y) -> Rabs (A + Bq + C) <= Y * (25 * ed + 8 * ea + 2 * eb)) as Fin.
  { intros A Bq C EA EB EC. pose proof (Rabs_triang (A + Bq) C). pose proof (Rabs_triang A Bq). lra. }
  assert (0 <= ea /\ 0 <= eb) as (Pa & Pb) by (split; eapply Rle_trans; [apply Rabs_pos | exact Ea | apply Rabs_pos | exact Eb]).
  destruct k as [| [| k]]; cbn [creal].
  - match goal with |- Rabs ?x <= _ => replace x with
      ((((1 - b') * y0 - y1 + b' * y2) * (d' * d' * d' - d * d * d) + ((b' - 1) * y0 + y1 - b' * y2) * (d' * d' - d * d) + (y1 - y0) * (d' - d))
       + 0 + (b' - b) * ((y2 - y0) * (d * d * d - d * d))) by ring end.
    apply Fin; [| rewrite Rabs_R0; apply Rmult_le_pos; lra | exact InB].
    apply (InD _ _ _ 2 3 3); [apply Rabs_le; lra | apply Rabs_le; nra | apply Rabs_le; nra | lra].
  - match goal with |- Rabs ?x <= _ => replace x with
      (((- a' * ym + (2 - b') * y0 + (a' - 2) * y1 + b' * y2) * (d' * d' * d' - d * d * d)
        + (2 * a' * ym + (b' - 3) * y0 + (3 - 2 * a') * y1 - b' * y2) * (d' * d' - d * d) + a' * (y1 - ym) * (d' - d))
       + (a' - a) * ((y1 - ym) * (d * d * d) + (2 * (ym - y1)) * (d * d) + (y1 - ym) * d) + (b' - b) * ((y2 - y0) * (d * d * d - d * d))) by ring end.
    apply Fin; [| apply InA; apply Rabs_le; lra | exact InB].
    apply (InD _ _ _ 1 6 4); [apply Rabs_le; nra | apply Rabs_le; nra | apply Rabs_le; nra | lra].
  - match goal with |- Rabs ?x <= _ => replace x with
      (((- a' * ym + y0 - a' * y1) * (d' * d' * d' - d * d * d)
        + (2 * a' * ym - 2 * y0 + (2 - 2 * a') * y1) * (d' * d' - d * d) + a' * (y1 - ym) * (d' - d))
       + (a' - a) * ((- ym - y1) * (d * d * d) + (2 * (ym - y1)) * (d * d) + (y1 - ym) * d) + 0) by ring end.
    apply Fin; [| apply InA; apply Rabs_le; lra | rewrite Rabs_R0; apply Rmult_le_pos; lra].
    apply (InD _ _ _ 1 4 2); [apply Rabs_le; nra | apply Rabs_le; nra | apply Rabs_le; nra | lra].
Qed.

(** A quotient of differences of moved numbers. *)
Lemma moved p q p' q' wp wq w h k : 0 <= p <= q -> 0 < h -> k * h <= q -> 0 < k -> Rabs (p' - p) <= wp -> Rabs (q' - q) <= wq -> wp <= wq -> wq = k * w -> 2 * w <= h ->
  Rabs (p' / q' - p / q) <= 4 * w / h.
Proof.
  intros Hp Ph Hq Hk Ep Eq Wp Wq Hw. assert (0 < k * h) as Pkh by (apply Rmult_lt_0_compat; lra).
  assert (0 <= wq) as Pw by (eapply Rle_trans; [apply Rabs_pos | exact Eq]).
  replace p' with (p + (p' - p)) by ring. replace q' with (q + (q' - q)) by ring.
  eapply Rle_trans; [apply (quotient_error p q (p' - p) (q' - q) wq); [lra | lra | lra | lra |] |].
  - apply Rle_trans with (k * h); [| exact Hq]. rewrite Wq. assert (k * (2 * w) <= k * h) by (apply Rmult_le_compat_l; lra). lra.
  - apply Rle_trans with (4 * wq / (k * h)); [| right; rewrite Wq; field; lra].
    unfold Rdiv. apply Rmult_le_compat_l; [lra |]. apply Rinv_le; lra.
Qed.

(** The cubic of a cell after moving the knots of the cell, its neighbours and the query. *)
Lemma creal_moved k x xm x0 x1 x2 r rm r0 r1 r2 w h ym y0 y1 y2 Y :
  x0 <= x <= x1 -> r0 <= r <= r1 -> 0 < h -> h <= x1 - x0 -> (k <> 0%nat -> h <= x0 - xm /\ rm < r0) -> (k = 0%nat \/ k = 1%nat -> h <= x2 - x1 /\ r1 < r2) -> r0 < r1 ->
  Rabs (r - x) <= w -> Rabs (r0 - x0) <= w -> Rabs (r1 - x1) <= w -> (k <> 0%nat -> Rabs (rm - xm) <= w) -> (k = 0%nat \/ k = 1%nat -> Rabs (r2 - x2) <= w) -> 8 * w <= h ->
  Rabs ym <= Y -> Rabs y0 <= Y -> Rabs y1 <= Y -> Rabs y2 <= Y ->
  let al x0 x1 xm := if (k =? 0)%nat then 0 else (x1 - x0) / ((x1 - x0) + (x1 - xm)) in
  let be x0 x1 x2 := if (k <=? 1)%nat then (x1 - x0) / ((x1 - x0) + (x2 - x1)) else 0 in
  Rabs (creal ((r - r0) / (r1 - r0)) (al r0 r1 rm) (be r0 r1 r2) k ym y0 y1 y2
    - creal ((x - x0) / (x1 - x0)) (al x0 x1 xm) (be x0 x1 x2) k ym y0 y1 y2) <= Y * (256 * (w / h))
  /\ Rabs (creal ((x - x0) / (x1 - x0)) (al x0 x1 xm) (be x0 x1 x2) k ym y0 y1 y2) <= 2 * Y.
Proof.
  intros Hx Hr Ph H01 Hm H2 R01 Nx N0 N1 Nm N2 Hw Ym Y0 Y1 Y2 al be.
  assert (0 <= w) as Pw by (eapply Rle_trans; [apply Rabs_pos | exact Nx]). assert (0 <= w / h) as Pq by (apply Rle_mult_inv_pos; lra).
  apply Rabs_le_inv in Nx, N0, N1.
  pose proof (unit_range x x0 x1 Hx ltac:(lra)) as Rd. pose proof (unit_range r r0 r1 Hr R01) as Rd'.
  assert (Rabs ((r - r0) / (r1 - r0) - (x - x0) / (x1 - x0)) <= 8 * (w / h)) as Ed.
  { replace (8 * (w / h)) with (4 * (2 * w) / h) by (field; lra).
    apply (moved _ _ _ _ (2 * w) (2 * w) (2 * w) h 1); try lra; apply Rabs_le; lra. }
  assert (0 <= al x0 x1 xm <= / 2 /\ 0 <= al r0 r1 rm <= / 2 /\ Rabs (al r0 r1 rm - al x0 x1 xm) <= 6 * (w / h)) as (Ra & Ra' & Ea).
  { unfold al. destruct (Nat.eqb_spec k 0) as [_ | K0]; [rewrite Rminus_0_r, Rabs_R0; lra |].
    destruct (Hm K0) as (Hm1 & Hm2). specialize (Nm K0). apply Rabs_le_inv in Nm.
    split; [apply half_range; lra |]. split; [apply half_range; lra |].
    apply Rle_trans with (4 * (4 / 3 * w) / h); [| unfold Rdiv in *; lra].
    apply (moved _ _ _ _ (4 * w) (4 * w) (4 / 3 * w) h 3); try lra; apply Rabs_le; lra. }
  assert (0 <= be x0 x1 x2 <= 1 /\ 0 <= be r0 r1 r2 <= 1 /\ Rabs (be r0 r1 r2 - be x0 x1 x2) <= 4 * (w / h)) as (Rb & Rb' & Eb).
  { unfold be. destruct (Nat.leb_spec k 1) as [K1 | K1]; [| rewrite Rminus_0_r, Rabs_R0; lra].
    assert (k = 0%nat \/ k = 1%nat) as K2 by lia.
    destruct (H2 K2) as (H21 & H22). specialize (N2 K2). apply Rabs_le_inv in N2.
    split; [apply one_range; lra |]. split; [apply one_range; lra |].
    replace (4 * (w / h)) with (4 * w / h) by (field; lra).
    apply (moved _ _ _ _ (2 * w) (2 * w) w h 2); try lra; apply Rabs_le; lra. }
  split; [| now apply creal_range].
  eapply Rle_trans; [apply (creal_lip _ _ _ _ _ _ k ym y0 y1 y2 Y (8 * (w / h)) (6 * (w / h)) (4 * (w / h))); assumption |]. right. ring.
Qed.

(** The cubic of a cell as a function of the position in the cell. *)
Lemma cpiece_creal p i x : increasing p -> (3 <= List.length p)%nat -> (i + 1 < List.length p)%nat ->
  let k := if (i =? 0)%nat then 0%nat else if (i + 2 =? List.length p)%nat then 2%nat else 1%nat in
  let al x0 x1 xm := if (k =? 0)%nat then 0 else (x1 - x0) / ((x1 - x0) + (x1 - xm)) in
  let be x0 x1 x2 := if (k <=? 1)%nat then (x1 - x0) / ((x1 - x0) + (x2 - x1)) else 0 in
  cpiece p i x = creal ((x - gx p i) / (gx p (i + 1) - gx p i)) (al (gx p i) (gx p (i + 1)%nat) (gx p (i - 1)%nat)) (be (gx p i) (gx p (i + 1)%nat) (gx p (i + 2)%nat)) k
    (if (k =? 0)%nat then 0 else gy p (i - 1)) (gy p i) (gy p (i + 1)) (if (k <=? 1)%nat then gy p (i + 2) else 0).
Proof.
  intros Inc L Hi k al be. pose proof (Inc i (i + 1)%nat ltac:(lia)) as L01.
  unfold cpiece, k3, k2, k1, calpha, cbeta, ch, al, be, k.
  destruct (Nat.eqb_spec i 0) as [E0 | N0]; [| destruct (Nat.eqb_spec (i + 2) (List.length p)) as [E2 | N2]]; cbn [Nat.eqb Nat.leb creal].
  - pose proof (Inc (i + 1)%nat (i + 2)%nat ltac:(lia)). field. lra.
  - pose proof (Inc (i - 1)%nat i ltac:(lia)). field. lra.
  - pose proof (Inc (i + 1)%nat (i + 2)%nat ltac:(lia)). pose proof (Inc (i - 1)%nat i ltac:(lia)). field. lra.
Qed.

(** A query that is answered is in range. *)
Lemma catmull_in_range prec emax Hp He e (pts : list (binary_float prec emax * binary_float prec emax)) x v :
  rising (map fst pts) -> is_finite x = true -> (3 <= List.length pts)%nat ->
  fit_eval (CatmullRom (FV prec emax Hp He e)) pts x = Ret (Ok v) ->
  gx (reals pts) 0 <= B2R x <= gx (reals pts) (List.length pts - 1).
Proof.
  intros Rs Fx L E. set (z := (B754_nan, B754_nan) : binary_float prec emax * binary_float prec emax).
  pose proof (rising_line prec emax (map fst pts) Rs) as Ln.
  assert (map fst pts <> []) as Ne by (destruct pts; [simpl in L; lia | discriminate]).
  destruct (find_line prec emax Hp He e (map fst pts) x Ln Ne (not_nan prec emax x Fx)) as (A & B & _).
  destruct (cells_catmull_rom (V := FV prec emax Hp He e) pts x (fv_constants prec emax Hp He e) (fv_irr prec emax Hp He e) L
    (line_in_order prec emax Hp He e fst pts Ln)) as (w & W).
  assert (forall k, nth k (map fst pts) B754_nan = fst (nth k pts z)) as En by (intros k; apply (map_nth fst pts z k)).
  assert (forall k, (k < List.length pts)%nat -> is_finite (fst (nth k pts z)) = true) as Fk.
  { intros k Hk. rewrite <- En. apply (proj1 Rs), nth_In. rewrite map_length. exact Hk. }
  destruct (Bltb x (hd B754_nan (map fst pts))) eqn:Lo; [pose proof (eq_trans (eq_sym E) (eq_trans W (f_equal (by_cell w) (A eq_refl)))); discriminate |].
  destruct (Bltb (last (map fst pts) B754_nan) x) eqn:Up; [pose proof (eq_trans (eq_sym E) (eq_trans W (f_equal (by_cell w) (B eq_refl)))); discriminate |].
  assert (hd B754_nan (map fst pts) = fst (nth 0 pts z)) as Eh by (rewrite <- En; now destruct pts).
  assert (last (map fst pts) B754_nan = fst (nth (List.length pts - 1) pts z)) as El.
  { rewrite <- En. rewrite (last_nth (map fst pts)), map_length. reflexivity. }
  rewrite Eh in Lo. rewrite El in Up. rewrite !gx_reals. fold z.
  rewrite Bltb_correct in Lo, Up by (try apply Fk; auto; lia).
  split; [revert Lo | revert Up]; case Rlt_bool_spec; easy.
Qed.

(** ** Curves *)

Section Spline.
Variables (e : f64 -> f64) (D : DayCount (F64 e)) (D' : DayCount RV) (K : Z) (s : Date) (ms : list Date) (ys : list f64) (g M Y : R).
Hypothesis HD : same_count e D D' K.
Hypothesis HL : List.length ms = List.length ys.
Hypothesis H3 : (3 <= List.length ms)%nat.
Hypothesis HM : laid_out s ms g M.
Hypothesis Hg : 1 <= g.
Hypothesis HMb : M <= 268435456.
Hypothesis HS : sized ys Y.
Hypothesis HY : bpow radix2 (-900) <= Y <= bpow radix2 899.
Notation tfs := (tf K s).
Notation trs := (tr K s).
Notation pts := (combine (map tfs ms) ys).
Notation pts' := (curve_points trs ms (map B2R ys)).

Definition cr_growth : R := 156 + 128 * (M / g).

Lemma spline_yield_near (c : YieldCurve (F64 e) (CatmullRom (F64 e))) (c' : YieldCurve RV (CatmullRom RV)) d (yh : f64) :
  curve_new D (CatmullRom (F64 e)) s ms ys = Ret (Ok c) -> curve_new D' (CatmullRom RV) s ms (map B2R ys) = Ret (Ok c') -> a_date d ->
  i_try_value (CatmullRom (F64 e)) (interpolator c) (tfs d) = Ret (Ok yh) ->
  exists y : R, i_try_value (CatmullRom RV) (interpolator c') (trs d) = Ret (Ok y) /\ is_finite yh = true
    /\ Rabs (B2R yh - y) <= u64 * (2 * Y) * cr_growth /\ Rabs y <= 2 * Y.
Proof.
  intros Hc Hc' A E. assert (2 <= List.length ms)%nat as H2 by lia.
  rewrite <- (proj2 (fitted_f e D D' K s ms ys HD HL _ c Hc)) in E. rewrite <- (proj2 (fitted_r e D D' K s ms ys HD HL _ c' Hc')).
  pose proof (pts_length K s ms ys HL H2) as Lp. pose proof (pts'_length K s ms ys HL) as Lp'.
  destruct (K_real e D D' K ms ys HD HL H2) as (HKr & HKi). pose proof (gap_pos e D D' K ms ys g HD HL H2 Hg) as Gpos.
  pose proof (rising_f e D D' K s ms ys g M HD HL H2 HM Hg) as Rs. pose proof (increasing_r e D D' K s ms ys g M HD HL H2 HM Hg) as Inc'.
  pose proof (proj1 (tf_value e D D' K s HD (proj1 HM) d A)) as Fx.
  assert (forall j, (j < List.length ms)%nat -> gx (reals pts) j = B2R (tfs (nth j ms s))) as Ax
    by (intros j Hj; now rewrite gx_reals, (pts_nth K s ms ys HL j Hj)).
  assert (forall j, (j < List.length ms)%nat -> gx pts' j = trs (nth j ms s)) as Ax' by (intros j Hj; apply (pts'_nth K s ms ys HL H2 j Hj)).
  assert (forall j, (j < List.length ms)%nat -> gy (reals pts) j = gy pts' j) as Ay
    by (intros j Hj; rewrite (proj2 (pts'_nth K s ms ys HL H2 j Hj)); now rewrite gy_reals, (pts_nth K s ms ys HL j Hj)).
  assert (forall j, (j < List.length ms)%nat -> Rabs (gy pts' j) <= Y) as Ab
    by (intros j Hj; rewrite (proj2 (pts'_nth K s ms ys HL H2 j Hj)); apply HS, nth_In; lia).
  pose proof (catmull_in_range 53 1024 Hp53 He1024 e pts (tfs d) yh Rs Fx ltac:(lia) E) as Hx.
  destruct (C99_catmull_rom 53 1024 Hp53 He1024 e pts (tfs d) ltac:(lia) ltac:(lia) Rs) as (i & v & C & Hi & Bx & Ev & EC & Er); [| exact Fx | exact Hx |].
  { intros p Hp. destruct (In_nth _ _ (B754_nan, B754_nan) Hp) as (j & Hj & <-). rewrite Lp in Hj. rewrite (pts_nth K s ms ys HL j Hj). cbn [fst snd].
    destruct (maturity s ms g M HM j Hj) as (Aj & _). split; [| apply HS, nth_In; lia].
    rewrite (proj2 (tf_value e D D' K s HD (proj1 HM) _ Aj)). apply Rle_trans with (bpow radix2 20); [| apply bpow_le; lia]. unfold to_f64.
    apply abs_round_le_generic; [apply FLT_exp_valid; reflexivity | apply valid_rnd_N | | now apply (tr_small e D D' K s HD (proj1 HM))].
    apply generic_format_bpow'; [apply FLT_exp_valid; reflexivity | unfold FLT_exp; lia]. }
  pose proof (eq_trans (eq_sym E) Ev) as Q. injection Q as <-. rewrite Lp in Hi.
  assert (increasing (reals pts)) as Inc by (apply rising_increasing; exact Rs).
  assert (List.length (reals pts) = List.length ms) as Lr by (unfold reals; rewrite map_length; exact Lp).
  rewrite (cr_closed (reals pts) i _ Inc ltac:(lia) ltac:(lia) Bx) in EC. injection EC as <-.
  assert (Y <= bpow radix2 (1024 - 7)) as Yl by (eapply Rle_trans; [apply HY | apply bpow_le; lia]).
  destruct (Er Y Yl) as (Fv & Nv).
  { intros k _ Hk. rewrite Lp in Hk. rewrite Ay by exact Hk. now apply Ab. }
  clear Er. rewrite !Ax in Bx by lia.
  assert (forall j, (j < List.length ms)%nat -> a_date (nth j ms s)) as Am by (intros j Hj; apply (maturity s ms g M HM j Hj)).
  assert (trs (nth i ms s) <= trs d <= trs (nth (i + 1) ms s)) as Bt.
  { split; apply Rnot_lt_le; intros Cn; apply (tf_order e D D' K s HD (proj1 HM)) in Cn; try lra; try exact A; apply Am; lia. }
  exists (cpiece pts' i (trs d)).
  split. { apply cr_closed; [exact Inc' | lia | lia |]. rewrite !Ax' by lia. exact Bt. }
  split; [exact Fv |].
  set (w := u64 * (M / IZR K)). pose proof (time_small e D D' K s ms ys g M HD HL H2 HM Hg HMb) as Ws. fold w in Ws.
  assert (forall j, (j < List.length ms)%nat -> Rabs (B2R (tfs (nth j ms s)) - trs (nth j ms s)) <= w) as Nj.
  { intros j Hj. apply (time_near e D D' K s ms g M HD HM); [now apply Am | now apply (maturity_time e D D' K s ms ys g M HD HL H2 HM)]. }
  assert (Rabs (B2R (tfs d) - trs d) <= w) as Nd.
  { apply (time_near e D D' K s ms g M HD HM); [exact A |]. pose proof (maturity_time e D D' K s ms ys g M HD HL H2 HM i ltac:(lia)) as T0.
    pose proof (maturity_time e D D' K s ms ys g M HD HL H2 HM (i + 1) Hi) as T1. apply Rabs_le_inv in T0, T1. apply Rabs_le. lra. }
  assert (forall j, (j + 1 < List.length ms)%nat -> g / IZR K <= trs (nth (j + 1) ms s) - trs (nth j ms s)) as Gp
    by (intros j Hj; apply (gap e D D' K s ms ys g M HD HL H2 HM j Hj)).
  assert (forall j, (j + 1 < List.length ms)%nat -> B2R (tfs (nth j ms s)) < B2R (tfs (nth (j + 1) ms s))) as Lt.
  { intros j Hj. pose proof (Inc j (j + 1)%nat ltac:(lia)) as Q. now rewrite !Ax in Q by lia. }
  rewrite (cpiece_creal (reals pts) i _ Inc ltac:(lia) ltac:(lia)) in Nv.
  rewrite (cpiece_creal pts' i _ Inc' ltac:(lia) ltac:(lia)). rewrite Lr in Nv. rewrite Lp'. cbv zeta in Nv |- *.
  set (k := if (i =? 0)%nat then 0%nat else if (i + 2 =? List.length ms)%nat then 2%nat else 1%nat) in *.
  assert ((k <> 0 -> i <> 0) /\ (k <= 1 -> i + 2 < List.length ms))%nat as (Ki & Kl)
    by (unfold k; destruct (Nat.eqb_spec i 0); [lia |]; destruct (Nat.eqb_spec (i + 2) (List.length ms)); lia).
  assert (Rabs (if (k =? 0)%nat then 0 else gy pts' (i - 1)) <= Y) as Ym.
  { destruct (k =? 0)%nat; [rewrite Rabs_R0; pose proof (bpow_gt_0 radix2 (-900)); lra |]. apply Ab. lia. }
  assert (Rabs (if (k <=? 1)%nat then gy pts' (i + 2) else 0) <= Y) as Y2.
  { destruct (Nat.leb_spec k 1); [apply Ab; lia | rewrite Rabs_R0; pose proof (bpow_gt_0 radix2 (-900)); lra]. }
  assert ((if (k =? 0)%nat then 0 else gy (reals pts) (i - 1)) = (if (k =? 0)%nat then 0 else gy pts' (i - 1))) as Em
    by (destruct (k =? 0)%nat; [reflexivity | apply Ay; lia]).
  assert ((if (k <=? 1)%nat then gy (reals pts) (i + 2) else 0) = (if (k <=? 1)%nat then gy pts' (i + 2) else 0)) as E2
    by (destruct (Nat.leb_spec k 1); [apply Ay; lia | reflexivity]).
  rewrite Em, E2, !Ay in Nv by lia.
  destruct (creal_moved k (trs d) (gx pts' (i - 1)) (gx pts' i) (gx pts' (i + 1)) (gx pts' (i + 2)) (B2R (tfs d)) (gx (reals pts) (i - 1)) (gx (reals pts) i)
    (gx (reals pts) (i + 1)) (gx (reals pts) (i + 2)) w (g / IZR K) (if (k =? 0)%nat then 0 else gy pts' (i - 1)) (gy pts' i) (gy pts' (i + 1))
    (if (k <=? 1)%nat then gy pts' (i + 2) else 0) Y) as (Mv & Rg).
  - rewrite !Ax' by lia. exact Bt.
  - rewrite !Ax by lia. exact Bx.
  - lra.
  - rewrite !Ax' by lia. now apply Gp.
  - intros K0. specialize (Ki K0). rewrite !Ax', !Ax by lia.
    pose proof (Gp (i - 1)%nat ltac:(lia)) as G1. pose proof (Lt (i - 1)%nat ltac:(lia)) as G2. replace (i - 1 + 1)%nat with i in G1, G2 by lia. auto.
  - intros K1. specialize (Kl ltac:(lia)). rewrite !Ax', !Ax by lia. replace (i + 2)%nat with (i + 1 + 1)%nat by lia.
    split; [apply Gp; lia | apply Lt; lia].
  - rewrite !Ax by lia. apply Lt; lia.
  - exact Nd.
  - rewrite Ax', Ax by lia. apply Nj; lia.
  - rewrite Ax', Ax by lia. now apply Nj.
  - intros K0. specialize (Ki K0). rewrite Ax', Ax by lia. apply Nj; lia.
  - intros K1. specialize (Kl ltac:(lia)). rewrite Ax', Ax by lia. apply Nj; lia.
  - lra.
  - exact Ym.
  - apply Ab; lia.
  - apply Ab; exact Hi.
  - exact Y2.
  - split; [| exact Rg].
    match type of Nv with Rabs (_ - ?a) <= _ => match type of Mv with Rabs (_ - ?b) <= _ => replace (B2R yh - b) with ((B2R yh - a) + (a - b)) by ring end end.
    eapply Rle_trans; [apply Rabs_triang |]. eapply Rle_trans; [apply Rplus_le_compat; [exact Nv | exact Mv] |].
    replace (w / (g / IZR K)) with (u64 * (M / g)) by (unfold w; field; lra). change (bpow radix2 (- (53))) with u64.
    assert (bpow radix2 (2 - 1024 - 53) <= u64 * Y * / 1024) as Tiny.
    { apply Rle_trans with (u64 * bpow radix2 (-900) * bpow radix2 (-10)); [rewrite <- !bpow_plus; apply bpow_le; lia |].
      change (bpow radix2 (-10)) with (/ 1024). apply Rmult_le_compat_r; [lra |]. apply Rmult_le_compat_l; [apply bpow_ge_0 | lra]. }
    assert (0 <= u64 * Y) as PuY by (apply Rmult_le_pos; [apply bpow_ge_0 | pose proof (bpow_gt_0 radix2 (-900)); lra]).
    unfold cr_growth. lra.
Qed.
End Spline.

(** ** C100 *)

(** The binary64 factor of a Catmull-Rom curve against the exact one for the same dates and yields. *)
Theorem C100_factor : forall e D D' K s ms (ys : list f64) g M Y X eps c c' d1 d2 (v : f64),
  same_count e D D' K -> List.length ms = List.length ys -> (3 <= List.length ms)%nat -> laid_out s ms g M -> 1 <= g -> M <= 268435456 ->
  sized ys Y -> bpow radix2 (-900) <= Y <= bpow radix2 899 -> accurate e X eps -> 0 <= eps ->
  curve_new D (CatmullRom (F64 e)) s ms ys = Ret (Ok c) -> curve_new D' (CatmullRom RV) s ms (map B2R ys) = Ret (Ok c') ->
  a_date d1 -> a_date d2 -> discount_factor D c d1 d2 = Ret (Ok v) ->
  let years d := IZR (serial_date d - serial_date s) / IZR K in
  let B := bpow radix2 (-53) * (2 * Y) * ((161 + 128 * (M / g)) * (years d1 + years d2) + 3) in
  2 * Y * (years d1 + years d2) + B <= X ->
  exists v' : R, discount_factor D' c' d1 d2 = Ret (Ok v') /\ is_finite v = true /\ 0 < v'
    /\ Rabs (B2R v - v') <= ((1 + eps) * exp B - 1) * v'.
Proof.
  intros e D D' K s ms ys g M Y X eps c c' d1 d2 v HD HL H3 HM Hg HMb HS HY Hac He0 Hc Hc' A1 A2 E years B HX.
  pose proof (fitted_f e D D' K s ms ys HD HL _ c Hc) as (Es & _). pose proof (fitted_r e D D' K s ms ys HD HL _ c' Hc') as (Es' & _).
  assert (spread_error (2 * Y) (cr_growth g M) (years d1 + years d2) = B) as EB by (unfold spread_error, cr_growth, B; ring).
  rewrite <- EB in *.
  assert (2 * bpow radix2 899 = bpow radix2 900) as E900 by (change 900%Z with (1 + 899)%Z; now rewrite bpow_plus).
  pose proof (bpow_gt_0 radix2 (-900)) as P900.
  assert (14 <= cr_growth g M <= 40000000000) as Gr by (pose proof (ratio_range s ms ys g M HL ltac:(lia) HM Hg HMb); unfold cr_growth; lra).
  apply (factor_near e D D' K s (2 * Y) (cr_growth g M) HD (proj1 HM) ltac:(lra) Gr _ _ c c' Es Es'
    (fun d yh => spline_yield_near e D D' K s ms ys g M Y HD HL H3 HM Hg HMb HS HY c c' d yh Hc Hc') X eps d1 d2 v Hac He0 A1 A2 E HX).
Qed.
Print Assumptions C100_factor.

(** The binary64 value of a bond on a Catmull-Rom curve against its exact value. *)
Theorem C100_value : forall e D D' K s ms (ys : list f64) g M Y X eps c c' (b : Bond f64) settle T (v : f64),
  same_count e D D' K -> List.length ms = List.length ys -> (3 <= List.length ms)%nat -> laid_out s ms g M -> 1 <= g -> M <= 268435456 ->
  sized ys Y -> bpow radix2 (-900) <= Y <= bpow radix2 899 -> accurate e X eps -> 0 <= eps ->
  curve_new D (CatmullRom (F64 e)) s ms ys = Ret (Ok c) -> curve_new D' (CatmullRom RV) s ms (map B2R ys) = Ret (Ok c') ->
  let years d := IZR (serial_date d - serial_date s) / IZR K in
  a_date settle -> (forall f, In f (bond_cash_flows b) -> a_date (payment_date f) /\ years settle + years (payment_date f) <= T) ->
  let B := bpow radix2 (-53) * (2 * Y) * ((161 + 128 * (M / g)) * T + 3) in
  2 * Y * T + B <= X ->
  discounted_value (V := F64 e) D b settle c = Ret (Ok v) -> is_finite v = true ->
  let n := List.length (filter (open_flow settle) (bond_cash_flows b)) in
  let u := bpow radix2 (-53) in
  exists v' G : R, discounted_value (V := RV) D' (real_bond b) settle c' = Ret (Ok v')
    /\ discounted_value (V := RV) D' (gross_bond b) settle c' = Ret (Ok G)
    /\ Rabs (B2R v - v') <= ((1 + u) ^ (n + 1) * ((1 + eps) * exp B) - 1) * G + INR n * bpow radix2 (-1075) * (1 + u) ^ n.
Proof.
  intros e D D' K s ms ys g M Y X eps c c' b settle T v HD HL H3 HM Hg HMb HS HY Hac He0 Hc Hc' years As Af B HX Ev Fv.
  apply (value_near e D D' _ _ c c' b settle ((1 + eps) * exp B) v); [| exact Ev | exact Fv].
  intros f x Hf Ex. destruct (Af f Hf) as (Ap & Tp). pose proof (ratio_range s ms ys g M HL ltac:(lia) HM Hg HMb) as Gr.
  pose proof (bpow_gt_0 radix2 (-900)) as P900. pose proof (bpow_gt_0 radix2 (-53)) as Pu.
  assert (0 <= bpow radix2 (-53) * (2 * Y)) as PuY by (apply Rmult_le_pos; lra).
  set (B1 := bpow radix2 (-53) * (2 * Y) * ((161 + 128 * (M / g)) * (years settle + years (payment_date f)) + 3)).
  assert (B1 <= B) as LB.
  { unfold B1, B. apply Rmult_le_compat_l; [exact PuY |]. apply Rplus_le_compat_r. apply Rmult_le_compat_l; lra. }
  assert (2 * Y * (years settle + years (payment_date f)) <= 2 * Y * T) as LY by (apply Rmult_le_compat_l; lra).
  destruct (C100_factor e D D' K s ms ys g M Y X eps c c' settle (payment_date f) x HD HL H3 HM Hg HMb HS HY Hac He0 Hc Hc' As Ap Ex)
    as (x' & V' & Fx & P & N).
  { change (2 * Y * (years settle + years (payment_date f)) + B1 <= X). lra. }
  change (Rabs (B2R x - x') <= ((1 + eps) * exp B1 - 1) * x') in N. exists x'. split; [exact V' |]. split; [exact Fx |]. split; [exact P |].
  eapply Rle_trans; [exact N |]. apply Rmult_le_compat_r; [lra |]. apply Rplus_le_compat_r. apply Rmult_le_compat_l; [lra |].
  destruct LB as [LB | ->]; [left; now apply exp_increasing | right; reflexivity].
Qed.
Print Assumptions C100_value.

Example C100_case : let i := of_int 53 1024 Hp53 He1024 in let V := F64 ex_exp in
  let ys := [Bdiv (prec_gt_0_ := Hp53) (prec_lt_emax_ := He1024) mode_NE (i 1) (i 32); Bdiv (prec_gt_0_ := Hp53) (prec_lt_emax_ := He1024) mode_NE (i 1) (i 16);
    Bdiv (prec_gt_0_ := Hp53) (prec_lt_emax_ := He1024) mode_NE (i 1) (i 8)]%Z in
  let b := mkBond (V := f64) ""
    [mkFlow (mkDate 2025 3 3) (mkDate 2025 3 3) (i 5%Z); mkFlow (mkDate 2025 9 1) (mkDate 2025 9 1) (i 105%Z)] in
  let years d := IZR (serial_date d - serial_date ex_settle) / 365 in
  let B := bpow radix2 (-53) * (2 * / 8) * ((161 + 128 * (1460 / 365)) * (9 / 5) + 3) in
  same_count ex_exp (act_365 V) (act_365 RV) 365 /\ laid_out ex_settle ex_maturities 365 1460 /\ sized ys (/ 8) /\ accurate ex_exp (/ 2) (/ 2)
  /\ 2 * / 8 * (9 / 5) + B <= / 2
  /\ (forall f, In f (bond_cash_flows b) -> a_date (payment_date f) /\ years ex_settle + years (payment_date f) <= 9 / 5)
  /\ exists c c' v, curve_new (act_365 V) (CatmullRom V) ex_settle ex_maturities ys = Ret (Ok c)
    /\ curve_new (act_365 RV) (CatmullRom RV) ex_settle ex_maturities (map B2R ys) = Ret (Ok c')
    /\ discounted_value (V := V) (act_365 V) b ex_settle c = Ret (Ok v) /\ is_finite v = true.
Proof.
  intros i V ys b years B. destruct C98_case as (H1 & H2 & H3 & H4 & _).
  split; [exact H1 |]. split; [exact H2 |]. split; [exact H3 |]. split; [exact H4 |].
  split; [unfold B; pose proof u64_val as Eu; rewrite Eu; lra |].
  split.
  { intros f [<- | [<- | []]]; (split; [now apply valid_a_date |]); unfold years; cbn [payment_date];
      repeat match goal with |- context [IZR (?a - ?b)] => let k := eval vm_compute in (a - b)%Z in change (a - b)%Z with k end; lra. }
  assert (match curve_new (act_365 V) (CatmullRom V) ex_settle ex_maturities ys with
    | Ret (Ok c) => match discounted_value (V := V) (act_365 V) b ex_settle c with Ret (Ok v) => is_finite v | _ => false end
    | _ => false end = true) as H by (vm_compute; reflexivity).
  destruct (curve_new (act_365 V) (CatmullRom V) ex_settle ex_maturities ys) as [[c | er] | |] eqn:Ec; try discriminate.
  destruct (discounted_value (V := V) (act_365 V) b ex_settle c) as [[v | er] | |] eqn:Ev; try discriminate.
  set (tt := fun d => IZR (date_sub d ex_settle) / 365).
  pose proof (C43_fit RV (act_365 RV) (CatmullRom RV) ex_settle ex_maturities (map B2R ys) tt eq_refl (fun m _ => eq_refl)) as F. cbv zeta in F.
  change (combine (map tt ex_maturities) (map B2R ys)) with (curve_points tt ex_maturities (map B2R ys)) in F.
  rewrite cr_fit in F; [| | simpl; lia].
  - destruct F as (c' & Ec' & _). exists c, c', v. auto.
  - apply increasing_sorted. exact (increasing_r ex_exp (act_365 V) (act_365 RV) 365 ex_settle ex_maturities ys 365 1460 H1 eq_refl ltac:(simpl; lia) H2 ltac:(lra)).
Qed.
