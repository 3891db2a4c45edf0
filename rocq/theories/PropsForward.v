(** Property C94: rising yields. *)
From Coq Require Import ZArith Reals List Arith Lia Lra.
From Verif Require Import Base Chrono DateModel DateFacts Value RealValue DayCountModel InterpModel InterpFacts CurveModel BondModel
  Gregorian Grid PropsDate PropsDayCount PropsLinear PropsCatmullRom PropsNaturalCubic PropsCurve PropsBond PropsShift PropsRisk PropsStability.
Import ListNotations.
Open Scope R_scope.

(** ** Specification *)

(** Ordinates that never fall. *)
Definition rising (p : list (R * R)) : Prop := forall i j, (i <= j < length p)%nat -> gy p i <= gy p j.

(** Numbers that never fall and are not negative. *)
Definition rising_rates (ys : list R) : Prop :=
  (forall y, In y ys -> 0 <= y)
  /\ forall i j yi yj, (i <= j)%nat -> nth_error ys i = Some yi -> nth_error ys j = Some yj -> yi <= yj.

(** ** Lemmas *)

Lemma chord_between p i x : increasing p -> rising p -> (i + 1 < length p)%nat -> gx p i <= x <= gx p (i + 1) ->
  gy p i <= chord p i x <= gy p (i + 1).
Proof.
  intros H Up Hi Ci. assert (gx p i < gx p (i + 1)) as Lt by (apply H; lia). destruct (fraction _ _ x Lt Ci) as (d & Hd & Ed).
  unfold chord. rewrite Ed.
  replace (gy p i + (gy p (i + 1) - gy p i) / (gx p (i + 1) - gx p i) * (d * (gx p (i + 1) - gx p i)))
    with (gy p i + d * (gy p (i + 1) - gy p i)) by (field; lra).
  assert (gy p i <= gy p (i + 1)) by (apply Up; lia). split; nra.
Qed.

Lemma chord_mono p i x x' : increasing p -> rising p -> (i + 1 < length p)%nat -> x <= x' -> chord p i x <= chord p i x'.
Proof.
  intros H Up Hi Hx. unfold chord. assert (gx p i < gx p (i + 1)) as Lt by (apply H; lia).
  assert (0 <= (gy p (i + 1) - gy p i) / (gx p (i + 1) - gx p i)) as S.
  { apply div_ge0; [| lra]. assert (gy p i <= gy p (i + 1)) by (apply Up; lia). lra. }
  apply Rplus_le_compat_l, Rmult_le_compat_l; lra.
Qed.

(** ** C94 *)

(** Linear interpolation of ordinates that never fall never falls. *)
Theorem C94_interpolation : forall p x x' v v', increasing p -> rising p -> (2 <= length p)%nat -> x <= x' ->
  fit_eval (Linear RV) p x = Ret (Ok v) -> fit_eval (Linear RV) p x' = Ret (Ok v') -> gy p 0 <= v <= v' /\ v' <= gy p (last_of p).
Proof.
  intros p x x' v v' H Up Hl Hx E E'.
  pose proof (linear_ok_range p x v (increasing_sorted _ H) E) as R1. pose proof (linear_ok_range p x' v' (increasing_sorted _ H) E') as R2.
  destruct (g_cell p x H Hl R1) as (i & Hi & Ci), (g_cell p x' H Hl R2) as (j & Hj & Cj).
  rewrite (linear_closed p x i H Hi Ci) in E. rewrite (linear_closed p x' j H Hj Cj) in E'. injection E as <-. injection E' as <-.
  pose proof (chord_between p i x H Up Hi Ci) as Bi. pose proof (chord_between p j x' H Up Hj Cj) as Bj.
  assert (gy p 0 <= gy p i) as B0 by (apply Up; lia).
  assert (gy p (j + 1) <= gy p (last_of p)) as B1 by (apply Up; unfold last_of; lia).
  split; [split; [lra |] | lra].
  destruct (lt_eq_lt_dec i j) as [[L | ->] | L].
  - assert (gy p (i + 1) <= gy p j) by (apply Up; lia). lra.
  - now apply chord_mono.
  - assert (gx p (j + 1) <= gx p i) as G.
    { destruct (Nat.eq_dec (j + 1) i) as [<- | N]; [lra |]. left. apply H. lia. }
    assert (x' = x) as -> by lra.
    pose proof (eq_trans (eq_sym (linear_closed p x i H Hi Ci)) (linear_closed p x j H Hj Cj)) as Q. injection Q as ->. lra.
Qed.
Print Assumptions C94_interpolation.

(** With yields that are not negative and never fall, no factor of a linear curve exceeds 1, and factors from a common
    date never rise with the other date. *)
Theorem C94_linear : forall D s (ms : list Date) (ys : list R), D = act_360 RV \/ D = act_365 RV ->
  length ms = length ys -> (2 <= length ms)%nat -> a_date s -> (forall m, In m ms -> a_date m) ->
  (forall i j mi mj, (i < j)%nat -> nth_error ms i = Some mi -> nth_error ms j = Some mj -> earlier mi mj) ->
  rising_rates ys ->
  exists c, curve_new D (Linear RV) s ms ys = Ret (Ok c)
    /\ (forall d1 d2 v, a_date d1 -> a_date d2 -> discount_factor D c d1 d2 = Ret (Ok v) -> 0 < v <= 1)
    /\ forall d1 d2 d3 v2 v3, a_date d1 -> a_date d2 -> a_date d3 -> ~ earlier d3 d2 ->
       discount_factor D c d1 d2 = Ret (Ok v2) -> discount_factor D c d1 d3 = Ret (Ok v3) -> v3 <= v2.
Proof.
  intros D s ms ys HD Hl H2 As Am Om (Pos & Ord). destruct (act_clock D s HD As) as (t & Ht & Ts & Mono).
  pose proof (clock_increasing D s ms ys t HD Ht Hl Am Om) as Inc. pose proof (curve_points_length t ms ys Hl) as Lp.
  assert (2 <= length (curve_points t ms ys))%nat as L2 by (rewrite Lp; exact H2).
  set (p := curve_points t ms ys) in *.
  assert (forall i, (i < length p)%nat -> nth_error ys i = Some (gy p i)) as Py.
  { intros i Hi. rewrite Lp in Hi.
    destruct (nth_error ms i) as [m |] eqn:Em; [| apply nth_error_None in Em; lia].
    destruct (nth_error ys i) as [y |] eqn:Ey; [| apply nth_error_None in Ey; lia].
    destruct (curve_points_nth t ms ys i m y Hl Em Ey) as (_ & _ & Q). fold p in Q. now rewrite Q. }
  assert (rising p) as Up.
  { intros i j Hij. apply (Ord i j); [lia | apply Py; lia | apply Py; lia]. }
  assert (0 <= gy p 0) as P0 by (apply Pos; apply (nth_error_In ys 0); apply Py; lia).
  pose proof (C43_fit RV D (Linear RV) s ms ys t Hl (fun m _ => Ht m)) as F. cbv zeta in F.
  change (combine (map t ms) ys) with p in F.
  assert (fit_eval (Linear RV) p (gx p 0) = Ret (Ok (gy p 0))) as E0 by (apply C24_knots; [exact Inc | lia | lia]).
  unfold fit_eval in E0. destruct (i_try_fit (Linear RV) (i_default (Linear RV)) p) as [[f | e] | |]; try discriminate.
  destruct F as (c & Ec & Es & Ev). exists c. split; [exact Ec |].
  (* the exponent grows with the time *)
  assert (forall x x' y y', 0 <= x <= x' -> i_try_value (Linear RV) (interpolator c) x = Ret (Ok y) ->
    i_try_value (Linear RV) (interpolator c) x' = Ret (Ok y') -> x * y <= x' * y') as G.
  { intros x x' y y' Hx Y Y'. rewrite <- Ev in Y, Y'.
    destruct (C94_interpolation p x x' y y' Inc Up L2 (proj2 Hx) Y Y') as ((A & B) & _). nra. }
  assert (forall x y, 0 <= x -> i_try_value (Linear RV) (interpolator c) x = Ret (Ok y) -> 0 <= x * y) as G0.
  { intros x y Hx Y. rewrite <- Ev in Y.
    destruct (C94_interpolation p x x y y Inc Up L2 (Rle_refl x) Y Y) as ((A & _) & _). nra. }
  split.
  - intros d1 d2 v A1 A2 H. split; [exact (C40_positive D _ c d1 d2 v H) |].
    destruct (not_before D _ s ms ys c d1 d2 v Ec Es H) as (O1 & O2). apply df_ok in H. rewrite Es in H.
    destruct H as (O12 & _ & t2 & y2 & E2 & Y2 & C). rewrite Mono in O1, O2, O12 by assumption. rewrite Ts in O1, O2.
    pose proof (eq_trans (eq_sym (Ht d2)) E2) as T2. injection T2 as <-. rewrite <- exp_0.
    destruct C as [(_ & ->) | (_ & t1 & y1 & E1 & Y1 & ->)]; apply exp_le_mono.
    + pose proof (G0 (t d2) y2 ltac:(lra) Y2). lra.
    + pose proof (eq_trans (eq_sym (Ht d1)) E1) as T1. injection T1 as <-.
      pose proof (G (t d1) (t d2) y1 y2 ltac:(lra) Y1 Y2). lra.
  - intros d1 d2 d3 v2 v3 A1 A2 A3 O H H'.
    destruct (not_before D _ s ms ys c d1 d2 v2 Ec Es H) as (O1 & O2). apply df_ok in H, H'. rewrite Es in H, H'.
    destruct H as (_ & _ & t2 & y2 & E2 & Y2 & C), H' as (_ & _ & t3 & y3 & E3 & Y3 & C').
    rewrite Mono in O, O1, O2 by assumption. rewrite Ts in O1, O2.
    pose proof (eq_trans (eq_sym (Ht d2)) E2) as T2. injection T2 as <-.
    pose proof (eq_trans (eq_sym (Ht d3)) E3) as T3. injection T3 as <-.
    pose proof (G (t d2) (t d3) y2 y3 ltac:(lra) Y2 Y3) as Le.
    destruct C as [(Q & ->) | (Q & t1 & y1 & E1 & Y1 & ->)], C' as [(Q' & ->) | (Q' & t1' & y1' & E1' & Y1' & ->)];
      try contradiction; apply exp_le_mono; [lra |].
    rewrite E1 in E1'. injection E1' as <-. rewrite Y1 in Y1'. injection Y1' as <-. lra.
Qed.
Print Assumptions C94_linear.

(** Catmull-Rom does not keep this: data that never fall, a value above the last one. *)
Theorem C94_catmull_rom_refuted : exists p x x' v v', increasing p /\ rising p /\ (3 <= length p)%nat /\ x <= x'
  /\ x' <= gx p (last_of p - 1)
  /\ fit_eval (CatmullRom RV) p x = Ret (Ok v) /\ fit_eval (CatmullRom RV) p x' = Ret (Ok v') /\ v' < v.
Proof.
  set (p := [(0, 0); (1, 1); (2, 1); (3, 1); (4, 1)]).
  assert (increasing p) as H.
  { intros i j H. unfold gx, p. simpl in H.
    destruct i as [| [| [| [| [| i]]]]], j as [| [| [| [| [| j]]]]]; simpl; try lra; lia. }
  exists p, (3 / 2), 2, (cpiece p 1 (3 / 2)), (cpiece p 1 2). split; [exact H |]. split.
  { intros i j Hij. unfold gy, p. simpl in Hij.
    destruct i as [| [| [| [| [| i]]]]], j as [| [| [| [| [| j]]]]]; simpl; try lra; lia. }
  split; [simpl; lia |]. split; [lra |]. split; [unfold gx, last_of; simpl; lra |].
  split; [apply cr_closed; [exact H | simpl; lia | simpl; lia | unfold gx; simpl; lra] |].
  split; [apply cr_closed; [exact H | simpl; lia | simpl; lia | unfold gx; simpl; lra] |].
  unfold cpiece, k3, k2, k1, calpha, cbeta, ch, gx, gy. simpl. lra.
Qed.
Print Assumptions C94_catmull_rom_refuted.

(** The yields of the standing example qualify. *)
Example C94_case : rising_rates ex_yields /\ rising [(1, 5); (2, 7); (4, 11)] /\ increasing [(1, 5); (2, 7); (4, 11)].
Proof.
  split; [split |].
  - intros y [<- | [<- | [<- | []]]]; lra.
  - intros [| [| [| i]]] [| [| [| j]]] yi yj Hij Ei Ej; simpl in Ei, Ej; try lia;
      try (destruct i; discriminate Ei); try (destruct j; discriminate Ej); injection Ei as <-; injection Ej as <-; lra.
  - split; [| apply C24_case]. intros i j H. unfold gy. simpl in H.
    destruct i as [| [| [| i]]], j as [| [| [| j]]]; simpl; try lra; lia.
Qed.
