(** Properties C40 to C44: the yield curve. *)
From Coq Require Import ZArith Reals Bool List Arith Lia Lra.
From Verif Require Import Base Chrono Gregorian DateModel DateFacts Value RealValue DayCountModel InterpModel InterpFacts
  CurveModel Grid PropsDate PropsDayCount PropsLinear PropsNaturalCubic PropsCatmullRom.
Import ListNotations.
Open Scope R_scope.

(** A day count that gives 0 from a date to itself. *)
Definition zero_on_diagonal (D : DayCount RV) : Prop := forall d, a_date d -> D d d = Ret (Ok 0).

(** The three conventions provided qualify. *)
Theorem C40_day_counts : forall b,
  zero_on_diagonal (act_360 RV) /\ zero_on_diagonal (act_365 RV) /\ zero_on_diagonal (thirty_360 b RV).
Proof.
  intros b. split; [| split]; intros d Hd.
  - unfold act_360, date_sub, diff_days. rewrite Z.sub_diag. simpl. ret_eq. field.
  - unfold act_365, date_sub, diff_days. rewrite Z.sub_diag. simpl. ret_eq. field.
  - unfold thirty_360. rewrite diff_checked; [| exact Hd | exact Hd | | lia].
    + rewrite Z.sub_diag. simpl. ret_eq. field.
    + rewrite <- date_ltb_earlier. pose proof (serial_lt_iff d d) as S.
      rewrite date_ltb_earlier, S by (apply valid_proper; now apply valid_a_date). lia.
Qed.
Print Assumptions C40_day_counts.

Section Curve.
Context (D : DayCount RV) (I : Interpolator RV) (c : YieldCurve RV I).
Notation s := (settlement_date c).

(** What a successful factor is made of. *)
Lemma df_ok d1 d2 v : discount_factor D c d1 d2 = Ret (Ok v) ->
  ~ earlier d2 d1 /\ ~ earlier d1 s /\ exists t2 y2,
  D s d2 = Ret (Ok t2) /\ i_try_value I (interpolator c) t2 = Ret (Ok y2) /\
  ((d1 = s /\ v = exp (- t2 * y2))
   \/ (d1 <> s /\ exists t1 y1, D s d1 = Ret (Ok t1) /\ i_try_value I (interpolator c) t1 = Ret (Ok y1)
       /\ v = exp (t1 * y1 - t2 * y2))).
Proof.
  unfold discount_factor, curve_yield.
  destruct (date_ltb d2 d1) eqn:L1; [discriminate |].
  destruct (date_ltb d1 s) eqn:L2; [discriminate |]. destruct (date_ltb d2 s) eqn:L3; [discriminate |].
  simpl orb. cbn match. intros H.
  split; [rewrite <- date_ltb_earlier; congruence |]. split; [rewrite <- date_ltb_earlier; congruence |].
  destruct (D s d2) as [[t2 | e] | |] eqn:E2; try discriminate. simpl in H.
  destruct (i_try_value I (interpolator c) t2) as [[y2 | e] | |] eqn:Y2; try discriminate. simpl in H.
  exists t2, y2. split; [reflexivity |]. split; [exact Y2 |].
  destruct (date_eqb d1 s) eqn:E.
  - left. apply date_eqb_eq in E. injection H as <-. auto.
  - right. split; [intros Q; apply date_eqb_eq in Q; congruence |].
    destruct (D s d1) as [[t1 | e] | |] eqn:E1; try discriminate. simpl in H.
    destruct (i_try_value I (interpolator c) t1) as [[y1 | e] | |] eqn:Y1; try discriminate. simpl in H.
    injection H as <-. exists t1, y1. auto.
Qed.

Lemma df_intro d1 d2 t2 y2 : ~ earlier d2 d1 -> ~ earlier d1 s -> ~ earlier d2 s ->
  D s d2 = Ret (Ok t2) -> i_try_value I (interpolator c) t2 = Ret (Ok y2) ->
  (d1 = s -> discount_factor D c d1 d2 = Ret (Ok (exp (- t2 * y2))))
  /\ forall t1 y1, d1 <> s -> D s d1 = Ret (Ok t1) -> i_try_value I (interpolator c) t1 = Ret (Ok y1) ->
     discount_factor D c d1 d2 = Ret (Ok (exp (t1 * y1 - t2 * y2))).
Proof.
  intros O1 O2 O3 E2 Y2. unfold discount_factor, curve_yield.
  rewrite <- date_ltb_earlier in O1, O2, O3. apply not_true_iff_false in O1, O2, O3. rewrite O1, O2, O3.
  simpl orb. cbn match. rewrite E2. simpl. rewrite Y2. simpl. split.
  - intros E. apply date_eqb_eq in E. rewrite E. reflexivity.
  - intros t1 y1 N E1 Y1. destruct (date_eqb d1 s) eqn:E; [apply date_eqb_eq in E; contradiction |].
    rewrite E1. simpl. rewrite Y1. reflexivity.
Qed.

End Curve.

Lemma not_earlier_trans a b c : a_date a -> a_date b -> a_date c -> ~ earlier b a -> ~ earlier c b -> ~ earlier c a.
Proof.
  intros Ha Hb Hc. rewrite (proj1 (C02_serial_order b a Hb Ha)), (proj1 (C02_serial_order c b Hc Hb)),
    (proj1 (C02_serial_order c a Hc Ha)). lia.
Qed.

Lemma not_earlier_refl a : ~ earlier a a.
Proof. unfold earlier. lia. Qed.

(** ** C40 *)

(** Factors over adjoining periods multiply, and the product is defined whenever both factors are; for any
    interpolator and any day count that is 0 on the diagonal. *)
Theorem C40_compose : forall D I (c : YieldCurve RV I) d1 d2 d3 v12 v23,
  zero_on_diagonal D -> a_date (settlement_date c) -> a_date d1 -> a_date d2 -> a_date d3 ->
  discount_factor D c d1 d2 = Ret (Ok v12) -> discount_factor D c d2 d3 = Ret (Ok v23) ->
  discount_factor D c d1 d3 = Ret (Ok (v12 * v23)).
Proof.
  intros D I c d1 d2 d3 v12 v23 Z As A1 A2 A3 H12 H23.
  apply df_ok in H12. apply df_ok in H23.
  destruct H12 as (O1 & O2 & t2 & y2 & E2 & Y2 & C12). destruct H23 as (O3 & O4 & t3 & y3 & E3 & Y3 & C23).
  assert (~ earlier d3 (settlement_date c)) as O5.
  { apply (not_earlier_trans _ d2); assumption. }
  assert (~ earlier d3 d1) as O6.
  { apply (not_earlier_trans _ d2); assumption. }
  destruct (df_intro D I c d1 d3 t3 y3 O6 O2 O5 E3 Y3) as (K1 & K2).
  destruct C12 as [(E1 & ->) | (N1 & t1 & y1 & E1 & Y1 & ->)].
  - rewrite (K1 E1). ret_eq. destruct C23 as [(Ed2 & ->) | (N2 & t2' & y2' & E2' & Y2' & ->)].
    + rewrite Ed2 in E2. rewrite (Z _ As) in E2. injection E2 as <-. rewrite <- exp_plus. f_equal. ring.
    + rewrite E2 in E2'. injection E2' as <-. rewrite Y2 in Y2'. injection Y2' as <-.
      rewrite <- exp_plus. f_equal. ring.
  - rewrite (K2 t1 y1 N1 E1 Y1). ret_eq. destruct C23 as [(Ed2 & ->) | (N2 & t2' & y2' & E2' & Y2' & ->)].
    + exfalso. apply N1. apply (C02_serial_order d1 (settlement_date c) A1 As).
      rewrite (proj1 (C02_serial_order d1 _ A1 As)) in O2. rewrite Ed2, (proj1 (C02_serial_order _ d1 As A1)) in O1. lia.
    + rewrite E2 in E2'. injection E2' as <-. rewrite Y2 in Y2'. injection Y2' as <-.
      rewrite <- exp_plus. f_equal. ring.
Qed.
Print Assumptions C40_compose.

Theorem C40_positive : forall D I (c : YieldCurve RV I) d1 d2 v,
  discount_factor D c d1 d2 = Ret (Ok v) -> 0 < v.
Proof.
  intros D I c d1 d2 v H. apply df_ok in H.
  destruct H as (_ & _ & t2 & y2 & _ & _ & [(_ & ->) | (_ & t1 & y1 & _ & _ & ->)]); apply exp_pos.
Qed.
Print Assumptions C40_positive.

Theorem C40_same_day : forall D I (c : YieldCurve RV I) d v,
  zero_on_diagonal D -> a_date (settlement_date c) ->
  discount_factor D c d d = Ret (Ok v) -> v = 1.
Proof.
  intros D I c d v Z As H. apply df_ok in H.
  destruct H as (_ & _ & t2 & y2 & E2 & Y2 & [(E & ->) | (_ & t1 & y1 & E1 & Y1 & ->)]).
  - rewrite E, (Z _ As) in E2. injection E2 as <-. rewrite <- exp_0. f_equal. ring.
  - rewrite E2 in E1. injection E1 as <-. rewrite Y2 in Y1. injection Y1 as <-. rewrite <- exp_0. f_equal. ring.
Qed.
Print Assumptions C40_same_day.

(** ** C41 *)

(** Ill-ordered dates are rejected before anything is looked up, for any Value type. *)
Theorem C41_rejects : forall (V : Value) (D : DayCount V) I (c : YieldCurve V I) d1 d2,
  earlier d2 d1 \/ earlier d1 (settlement_date c) \/ earlier d2 (settlement_date c) ->
  exists msg, discount_factor D c d1 d2 = Ret (Err (InvalidInput msg)).
Proof.
  intros V D I c d1 d2 H. unfold discount_factor. rewrite <- !date_ltb_earlier in H.
  destruct (date_ltb d2 d1); [eauto |]. destruct H as [H | H]; [discriminate |].
  apply orb_true_iff in H. rewrite H. eauto.
Qed.
Print Assumptions C41_rejects.

(** Well-ordered dates with an actual/360 or actual/365 count never give InvalidInput, and fail only when the
    curve cannot be read at one of the two times. *)
Theorem C41_accepts : forall D I (c : YieldCurve RV I) d1 d2, (D = act_360 RV \/ D = act_365 RV) ->
  ~ earlier d2 d1 -> ~ earlier d1 (settlement_date c) -> ~ earlier d2 (settlement_date c) ->
  (forall t, exists r, i_try_value I (interpolator c) t = Ret r) ->
  exists t1 t2, D (settlement_date c) d1 = Ret (Ok t1) /\ D (settlement_date c) d2 = Ret (Ok t2)
    /\ ((exists v, discount_factor D c d1 d2 = Ret (Ok v))
        \/ (discount_factor D c d1 d2 = Ret (Err InterpolationFailed)
            /\ exists t e, (t = t1 \/ t = t2) /\ i_try_value I (interpolator c) t = Ret (Err e))).
Proof.
  intros D I c d1 d2 HD O1 O2 O3 Tot. destruct (C19_laws D HD) as (f & Hf & _).
  exists (f (settlement_date c) d1), (f (settlement_date c) d2). split; [apply Hf |]. split; [apply Hf |].
  set (t1 := f (settlement_date c) d1). set (t2 := f (settlement_date c) d2).
  unfold discount_factor, curve_yield.
  rewrite <- date_ltb_earlier in O1, O2, O3. apply not_true_iff_false in O1, O2, O3. rewrite O1, O2, O3.
  simpl orb. cbn match. rewrite !Hf. fold t1 t2. simpl.
  destruct (Tot t2) as ([y2 | e2] & E2); rewrite E2; simpl.
  - destruct (date_eqb d1 (settlement_date c)); [left; eauto |]. fold t1.
    destruct (Tot t1) as ([y1 | e1] & E1); rewrite E1; simpl; [left; eauto |].
    right. split; [reflexivity |]. exists t1, e1. auto.
  - right. split; [reflexivity |]. exists t2, e2. auto.
Qed.
Print Assumptions C41_accepts.

(** Only the readings at the two times matter: curves with the same settlement date that agree there, even
    with different interpolators, give the same factor. *)
Theorem C41_depends : forall (V : Value) (D : DayCount V) I I' (c : YieldCurve V I) (c' : YieldCurve V I') d1 d2,
  settlement_date c = settlement_date c' ->
  (forall t, D (settlement_date c) d1 = Ret (Ok t) \/ D (settlement_date c) d2 = Ret (Ok t) ->
     i_try_value I (interpolator c) t = i_try_value I' (interpolator c') t) ->
  discount_factor D c d1 d2 = discount_factor D c' d1 d2.
Proof.
  intros V D I I' c c' d1 d2 Es H. unfold discount_factor, curve_yield. rewrite <- Es.
  destruct (date_ltb d2 d1); [reflexivity |]. destruct (_ || _); [reflexivity |].
  destruct (D (settlement_date c) d2) as [[t2 | e] | |] eqn:E2; try reflexivity. simpl. rewrite (H t2) by auto.
  destruct (i_try_value I' (interpolator c') t2) as [[y2 | e] | |]; try reflexivity. simpl.
  destruct (date_eqb d1 _); [reflexivity |].
  destruct (D (settlement_date c) d1) as [[t1 | e] | |] eqn:E1; try reflexivity. simpl. rewrite (H t1) by auto.
  reflexivity.
Qed.
Print Assumptions C41_depends.

(** ** C43 *)

Lemma collect_ok {A B E} (f : A -> M (result B E)) (g : A -> B) l :
  (forall a, In a l -> f a = Ret (Ok (g a))) -> collect f l = Ret (Ok (map g l)).
Proof.
  induction l as [| a t IH]; intros H; [reflexivity |]. simpl. rewrite (H a) by now left. simpl.
  rewrite IH; [reflexivity |]. intros x Hx. apply H. now right.
Qed.

Theorem C43_lengths : forall (V : Value) (D : DayCount V) I s ms ys, length ms <> length ys ->
  exists msg, curve_new D I s ms ys = Ret (Err (InvalidInput msg)).
Proof.
  intros V D I s ms ys H. unfold curve_new. destruct (Nat.eqb_spec (length ms) (length ys)); [contradiction |]. simpl. eauto.
Qed.
Print Assumptions C43_lengths.

(** With matching lengths and day counts [t m] for every maturity, construction succeeds exactly when
    the fit of the points (t m_i, y_i) does, keeps the settlement date, and reads values off that fit. *)
Theorem C43_fit : forall (V : Value) (D : DayCount V) I s ms (ys : list V) (t : Date -> V),
  length ms = length ys -> (forall m, In m ms -> D s m = Ret (Ok (t m))) ->
  let pts := combine (map t ms) ys in
  match i_try_fit I (i_default I) pts with
  | Ret (Ok f) => exists c, curve_new D I s ms ys = Ret (Ok c) /\ settlement_date c = s
                   /\ forall x, fit_eval I pts x = i_try_value I (interpolator c) x
  | Ret (Err _) => curve_new D I s ms ys = Ret (Err InterpolationFailed)
  | Panic => curve_new D I s ms ys = Panic
  | OutOfFuel => curve_new D I s ms ys = OutOfFuel
  end.
Proof.
  intros V D I s ms ys t Hl Ht pts. unfold curve_new. rewrite Hl, Nat.eqb_refl. cbn [negb].
  rewrite (collect_ok _ t) by exact Ht. simpl. fold pts.
  destruct (i_try_fit I (i_default I) pts) as [[f | e] | |] eqn:E; try reflexivity. simpl.
  exists (mkCurve I s f). split; [reflexivity |]. split; [reflexivity |].
  intros x. unfold fit_eval. rewrite E. reflexivity.
Qed.
Print Assumptions C43_fit.

(** A failing day count is passed on. *)
Theorem C43_day_count_error : forall (V : Value) (D : DayCount V) I s before m after (ys : list V) e,
  length (before ++ m :: after) = length ys ->
  (forall m', In m' before -> exists t, D s m' = Ret (Ok t)) -> D s m = Ret (Err e) ->
  curve_new D I s (before ++ m :: after) ys = Ret (Err e).
Proof.
  intros V D I s before m after ys e Hl Hb Hm. unfold curve_new. rewrite Hl, Nat.eqb_refl. cbn [negb].
  assert (collect (fun m => D s m) (before ++ m :: after) = Ret (Err e)) as ->; [| reflexivity].
  clear Hl. induction before as [| b t IH]; simpl.
  - rewrite Hm. reflexivity.
  - destruct (Hb b) as (t0 & ->); [now left |]. simpl. rewrite IH; [reflexivity |]. intros m' Hm'. apply Hb. now right.
Qed.
Print Assumptions C43_day_count_error.

(** Two points are too few for a natural cubic curve; a maturity before settlement is refused under 30/360; and
    lists of different lengths are refused. *)
Example C43_case :
  curve_new (act_365 RV) (NaturalCubic RV) (mkDate 2024 3 1) [mkDate 2025 3 1; mkDate 2026 3 1] [1/100; 2/100]
    = Ret (Err InterpolationFailed)
  /\ (exists msg, curve_new (thirty_360 Checked RV) (Linear RV) (mkDate 2024 3 1) [mkDate 2025 3 1; mkDate 2023 3 1] [1/100; 2/100]
    = Ret (Err (InvalidInput msg)))
  /\ exists msg, curve_new (act_365 RV) (Linear RV) (mkDate 2024 3 1) [mkDate 2025 3 1] [1/100; 2/100] = Ret (Err (InvalidInput msg)).
Proof. split; [reflexivity |]. split; eexists; reflexivity. Qed.

(** ** C42 *)

(** The points fitted for maturities [ms] and yields [ys] under day count fractions [t]. *)
Definition curve_points (t : Date -> R) (ms : list Date) (ys : list R) : list (R * R) := combine (map t ms) ys.

Lemma curve_points_nth t ms ys i m y : length ms = length ys -> nth_error ms i = Some m -> nth_error ys i = Some y ->
  (i < length (curve_points t ms ys))%nat /\ gx (curve_points t ms ys) i = t m /\ gy (curve_points t ms ys) i = y.
Proof.
  intros Hl Hm Hy. unfold curve_points, gx, gy.
  assert (i < length ms)%nat by (apply nth_error_Some; congruence).
  split; [rewrite combine_length, map_length; lia |].
  rewrite (combine_nth (map t ms) ys i 0 0) by (rewrite map_length; exact Hl). simpl.
  apply (nth_error_nth _ _ 0) in Hy. apply (map_nth_error t) in Hm. apply (nth_error_nth _ _ 0) in Hm. auto.
Qed.

(** Any interpolator that returns its ordinate at knot [i] reprices maturity [i]. *)
Lemma reprices (D : DayCount RV) (I : Interpolator RV) s ms (ys : list R) (t : Date -> R) c i m (y : R) : length ms = length ys -> (forall m, In m ms -> D s m = Ret (Ok (t m))) ->
  curve_new D I s ms ys = Ret (Ok c) -> nth_error ms i = Some m -> nth_error ys i = Some y -> ~ earlier m s ->
  fit_eval I (curve_points t ms ys) (t m) = Ret (Ok y) ->
  discount_factor D c s m = Ret (Ok (exp (- t m * y))).
Proof.
  intros Hl Ht Hc Hm Hy O Hk. pose proof (C43_fit RV D I s ms ys t Hl Ht) as F. cbv zeta in F.
  change (combine (map t ms) ys) with (curve_points t ms ys) in F. unfold fit_eval in *.
  destruct (i_try_fit I (i_default I) (curve_points t ms ys)) as [[f | e] | |] eqn:E; try discriminate.
  destruct F as (c' & E' & Es & Ev). rewrite E' in Hc. injection Hc as <-.
  pose proof (Ev (t m)) as Em. rewrite Hk in Em. symmetry in Em.
  rewrite <- Es at 1. rewrite <- Es in O.
  apply (df_intro D I c' (settlement_date c') m (t m) y); auto.
  - apply not_earlier_refl.
  - rewrite Es. apply Ht. now apply nth_error_In with i.
Qed.

Lemma fitted (D : DayCount RV) (I : Interpolator RV) s ms (ys : list R) (t : Date -> R) x v : length ms = length ys ->
  (forall m, In m ms -> D s m = Ret (Ok (t m))) -> fit_eval I (curve_points t ms ys) x = Ret (Ok v) ->
  exists c, curve_new D I s ms ys = Ret (Ok c).
Proof.
  intros Hl Ht E. pose proof (C43_fit RV D I s ms ys t Hl Ht) as F. cbv zeta in F.
  change (combine (map t ms) ys) with (curve_points t ms ys) in F. unfold fit_eval in E.
  destruct (i_try_fit I (i_default I) (curve_points t ms ys)) as [[f | e] | |]; try discriminate.
  destruct F as (c & Hc & _). eauto.
Qed.

(** Any interpolator that returns its ordinates at the knots below [n] reprices the first [n] maturities. *)
Lemma all_repriced (D : DayCount RV) (I : Interpolator RV) s ms (ys : list R) (t : Date -> R) n : length ms = length ys ->
  (forall m, In m ms -> D s m = Ret (Ok (t m)) /\ ~ earlier m s) -> (0 < n <= length ms)%nat ->
  (forall i, (i < n)%nat ->
     fit_eval I (curve_points t ms ys) (gx (curve_points t ms ys) i) = Ret (Ok (gy (curve_points t ms ys) i))) ->
  exists c, curve_new D I s ms ys = Ret (Ok c)
    /\ forall i m y, (i < n)%nat -> nth_error ms i = Some m -> nth_error ys i = Some y ->
       discount_factor D c s m = Ret (Ok (exp (- t m * y))).
Proof.
  intros Hl Ht Hn Hk.
  destruct (fitted D I s ms ys t _ _ Hl (fun m H => proj1 (Ht m H)) (Hk 0%nat ltac:(lia))) as (c & Hc).
  exists c. split; [exact Hc |]. intros i m y Hi Hm Hy.
  destruct (curve_points_nth t ms ys i m y Hl Hm Hy) as (_ & Ex & Ey).
  apply (reprices D I s ms ys t c i); auto.
  - intros m' H'. now apply Ht.
  - apply Ht. now apply nth_error_In with i.
  - rewrite <- Ex, <- Ey. now apply Hk.
Qed.

Lemma curve_points_length t ms ys : length ms = length ys -> length (curve_points t ms ys) = length ms.
Proof. intros H. unfold curve_points. rewrite combine_length, map_length. lia. Qed.

(** The factor to every input maturity is the one quoted, with linear interpolation and any day count whose
    times increase. *)
Theorem C42_linear : forall (D : DayCount RV) s ms (ys : list R) (t : Date -> R),
  length ms = length ys -> (2 <= length ms)%nat ->
  (forall m, In m ms -> D s m = Ret (Ok (t m)) /\ ~ earlier m s) -> increasing (curve_points t ms ys) ->
  exists c, curve_new D (Linear RV) s ms ys = Ret (Ok c)
    /\ forall i m y, nth_error ms i = Some m -> nth_error ys i = Some y ->
       discount_factor D c s m = Ret (Ok (exp (- t m * y))).
Proof.
  intros D s ms ys t Hl H2 Ht Inc. pose proof (curve_points_length t ms ys Hl) as Lp.
  destruct (all_repriced D (Linear RV) s ms ys t (length ms) Hl Ht) as (c & Hc & K); [lia | |].
  - intros i Hi. apply C24_knots; [exact Inc | lia | lia].
  - exists c. split; [exact Hc |]. intros i m y Hm Hy. apply (K i); auto. apply nth_error_Some. congruence.
Qed.
Print Assumptions C42_linear.

(** The same with natural cubic interpolation, despite its wrong slopes. *)
Theorem C42_natural_cubic : forall (D : DayCount RV) s ms (ys : list R) (t : Date -> R),
  length ms = length ys -> (3 <= length ms)%nat ->
  (forall m, In m ms -> D s m = Ret (Ok (t m)) /\ ~ earlier m s) -> increasing (curve_points t ms ys) ->
  exists c, curve_new D (NaturalCubic RV) s ms ys = Ret (Ok c)
    /\ forall i m y, nth_error ms i = Some m -> nth_error ys i = Some y ->
       discount_factor D c s m = Ret (Ok (exp (- t m * y))).
Proof.
  intros D s ms ys t Hl H3 Ht Inc. pose proof (curve_points_length t ms ys Hl) as Lp.
  assert (3 <= length (curve_points t ms ys))%nat as L3 by lia.
  destruct (C34_total _ Inc L3) as (F & HF). destruct (C34_interpolates _ F Inc L3 HF) as (K & _).
  destruct (all_repriced D (NaturalCubic RV) s ms ys t (length ms) Hl Ht) as (c & Hc & Kc); [lia | |].
  - intros i Hi. rewrite HF; [rewrite K by lia; reflexivity |]. unfold in_range, last_of.
    assert (forall a b, (a <= b < length (curve_points t ms ys))%nat -> gx (curve_points t ms ys) a <= gx (curve_points t ms ys) b) as Mo.
    { intros a b Hab. destruct (Nat.eq_dec a b) as [-> | N]; [lra |]. left. apply Inc. lia. }
    split; apply Mo; lia.
  - exists c. split; [exact Hc |]. intros i m y Hm Hy. apply (Kc i); auto. apply nth_error_Some. congruence.
Qed.
Print Assumptions C42_natural_cubic.

(** With Catmull-Rom interpolation all maturities but the last are repriced. *)
Theorem C64_catmull_rom_partial : forall (D : DayCount RV) s ms (ys : list R) (t : Date -> R),
  length ms = length ys -> (3 <= length ms)%nat ->
  (forall m, In m ms -> D s m = Ret (Ok (t m)) /\ ~ earlier m s) -> increasing (curve_points t ms ys) ->
  exists c, curve_new D (CatmullRom RV) s ms ys = Ret (Ok c)
    /\ forall i m y, (i + 1 < length ms)%nat -> nth_error ms i = Some m -> nth_error ys i = Some y ->
       discount_factor D c s m = Ret (Ok (exp (- t m * y))).
Proof.
  intros D s ms ys t Hl H3 Ht Inc. pose proof (curve_points_length t ms ys Hl) as Lp.
  destruct (all_repriced D (CatmullRom RV) s ms ys t (length ms - 1) Hl Ht) as (c & Hc & Kc); [lia | |].
  - intros i Hi. apply C30_knots_partial; [exact Inc | lia | unfold last_of; lia].
  - exists c. split; [exact Hc |]. intros i m y Hi Hm Hy. apply (Kc i); auto. lia.
Qed.
Print Assumptions C64_catmull_rom_partial.

(** With the actual/360 and actual/365 conventions, distinct maturities in date order are all it takes for the
    times to increase. *)
Theorem C42_actual_times : forall D s (ms : list Date) (ys : list R), D = act_360 RV \/ D = act_365 RV -> length ms = length ys ->
  (forall m, In m ms -> a_date m) ->
  (forall i j mi mj, (i < j)%nat -> nth_error ms i = Some mi -> nth_error ms j = Some mj -> earlier mi mj) ->
  exists t, (forall m, D s m = Ret (Ok (t m))) /\ increasing (curve_points t ms ys).
Proof.
  intros D s ms ys HD Hl Hd Ho. destruct (C19_laws D HD) as (f & Hf & _ & _ & Mono & _).
  exists (f s). split; [intros m; apply Hf |]. intros i j Hij. rewrite curve_points_length in Hij by exact Hl.
  destruct (nth_error ms i) as [mi |] eqn:Ei; [| apply nth_error_None in Ei; lia].
  destruct (nth_error ms j) as [mj |] eqn:Ej; [| apply nth_error_None in Ej; lia].
  destruct (nth_error ys i) as [yi |] eqn:Yi; [| apply nth_error_None in Yi; lia].
  destruct (nth_error ys j) as [yj |] eqn:Yj; [| apply nth_error_None in Yj; lia].
  destruct (curve_points_nth (f s) ms ys i mi yi Hl Ei Yi) as (_ & -> & _).
  destruct (curve_points_nth (f s) ms ys j mj yj Hl Ej Yj) as (_ & -> & _).
  apply Mono; [apply Hd; now apply nth_error_In with i | apply Hd; now apply nth_error_In with j | ].
  apply (Ho i j); auto. lia.
Qed.
Print Assumptions C42_actual_times.

(** A curve used in the examples: settled on 1 March 2024, with one-, two- and four-year maturities. *)
Definition ex_settle : Date := mkDate 2024 3 1.
Definition ex_maturities : list Date := [mkDate 2025 3 1; mkDate 2026 3 1; mkDate 2028 2 29].
Definition ex_yields : list R := [2/100; 25/1000; 3/100].

Lemma ex_hyps : forall D, D = act_360 RV \/ D = act_365 RV -> exists t,
  (forall m, D ex_settle m = Ret (Ok (t m))) /\ increasing (curve_points t ex_maturities ex_yields)
  /\ (forall m, In m ex_maturities -> D ex_settle m = Ret (Ok (t m)) /\ ~ earlier m ex_settle).
Proof.
  intros D HD. destruct (C42_actual_times D ex_settle ex_maturities ex_yields HD eq_refl) as (t & Ht & Inc).
  - intros m [<- | [<- | [<- | []]]]; apply valid_a_date; reflexivity.
  - intros i j mi mj Hij Hi Hj.
    destruct i as [| [| [| i]]]; destruct j as [| [| [| j]]]; try lia; simpl in Hi, Hj;
      try (destruct i; discriminate); try (destruct j; discriminate);
      injection Hi as <-; injection Hj as <-; unfold earlier, ex_settle; simpl; lia.
  - exists t. split; [exact Ht |]. split; [exact Inc |]. intros m Hm. split; [apply Ht |].
    destruct Hm as [<- | [<- | [<- | []]]]; unfold earlier, ex_settle; simpl; lia.
Qed.

Example C42_case : exists c, curve_new (act_365 RV) (Linear RV) ex_settle ex_maturities ex_yields = Ret (Ok c)
  /\ discount_factor (act_365 RV) c ex_settle (mkDate 2026 3 1) = Ret (Ok (exp (- (730 / 365) * (25 / 1000)))).
Proof.
  destruct (ex_hyps (act_365 RV)) as (t & Ht & Inc & K); [now right |].
  destruct (C42_linear (act_365 RV) ex_settle ex_maturities ex_yields t eq_refl) as (c & Hc & Df); auto; [simpl; lia |].
  exists c. split; [exact Hc |]. rewrite (Df 1%nat (mkDate 2026 3 1) (25/1000)) by reflexivity.
  ret_eq. f_equal. f_equal. f_equal. specialize (Ht (mkDate 2026 3 1)). unfold act_365 in Ht.
  assert (date_sub (mkDate 2026 3 1) ex_settle = 730%Z) as E by reflexivity. rewrite E in Ht. simpl in Ht.
  injection Ht as <-. reflexivity.
Qed.

Example C42_cubic_case : exists c,
  curve_new (act_360 RV) (NaturalCubic RV) ex_settle ex_maturities ex_yields = Ret (Ok c)
  /\ exists t, act_360 RV ex_settle (mkDate 2028 2 29) = Ret (Ok t)
     /\ discount_factor (act_360 RV) c ex_settle (mkDate 2028 2 29) = Ret (Ok (exp (- t * (3 / 100)))).
Proof.
  destruct (ex_hyps (act_360 RV)) as (t & Ht & Inc & K); [now left |].
  destruct (C42_natural_cubic (act_360 RV) ex_settle ex_maturities ex_yields t eq_refl) as (c & Hc & Df); auto.
  exists c. split; [exact Hc |]. exists (t (mkDate 2028 2 29)). split; [apply Ht |]. now apply (Df 2%nat).
Qed.

(** The last maturity of a Catmull-Rom curve is not repriced. *)
Theorem C64_catmull_rom_refuted : exists (D : DayCount RV) s ms (ys : list R) (t : Date -> R) c i m y,
  length ms = length ys /\ (3 <= length ms)%nat
  /\ (forall m, In m ms -> D s m = Ret (Ok (t m)) /\ ~ earlier m s) /\ increasing (curve_points t ms ys)
  /\ curve_new D (CatmullRom RV) s ms ys = Ret (Ok c)
  /\ nth_error ms i = Some m /\ nth_error ys i = Some y
  /\ discount_factor D c s m <> Ret (Ok (exp (- t m * y))).
Proof.
  destruct (ex_hyps (act_365 RV)) as (t & Ht & Inc & K); [now right |].
  destruct (C64_catmull_rom_partial (act_365 RV) ex_settle ex_maturities ex_yields t eq_refl) as (c & Hc & _); auto.
  exists (act_365 RV), ex_settle, ex_maturities, ex_yields, t, c, 2%nat, (mkDate 2028 2 29), (3/100).
  split; [reflexivity |]. split; [simpl; lia |]. split; [exact K |]. split; [exact Inc |]. split; [exact Hc |].
  split; [reflexivity |]. split; [reflexivity |]. intros E.
  pose proof (C43_fit RV (act_365 RV) (CatmullRom RV) ex_settle ex_maturities ex_yields t eq_refl (fun m _ => Ht m)) as F.
  cbv zeta in F. change (combine (map t ex_maturities) ex_yields) with (curve_points t ex_maturities ex_yields) in F.
  destruct (i_try_fit (CatmullRom RV) (i_default (CatmullRom RV)) (curve_points t ex_maturities ex_yields)) as [[f | e] | |];
    try congruence.
  destruct F as (c' & Hc' & Es & Ev). rewrite Hc in Hc'. injection Hc' as <-.
  set (p := curve_points t ex_maturities ex_yields) in *.
  assert (gx p 2 = t (mkDate 2028 2 29)) as G2 by reflexivity.
  destruct (C30_last_knot p Inc ltac:(simpl; lia)) as (L & (A0 & A1) & _). cbv zeta in L.
  change (last_of p) with 2%nat in *. cbn [Nat.sub] in *.
  rewrite Ev in L. rewrite G2 in L at 1.
  set (a := (gx p 2 - gx p 1) / (gx p 2 - gx p 1 + (gx p 2 - gx p 0))) in *.
  pose proof (df_intro (act_365 RV) (CatmullRom RV) c ex_settle (mkDate 2028 2 29) (t (mkDate 2028 2 29)) ((2 - 2 * a) * gy p 2)
    (proj2 (K _ (or_intror (or_intror (or_introl eq_refl))))) ) as DI.
  rewrite Es in DI. destruct (DI (not_earlier_refl _) (proj2 (K _ (or_intror (or_intror (or_introl eq_refl))))) (Ht _) L) as (D1 & _).
  rewrite (D1 eq_refl) in E. injection E as E. apply exp_inv in E.
  change (gy p 2) with (3 / 100) in E.
  assert (t (mkDate 2028 2 29) = 1460 / 365) as Et.
  { specialize (Ht (mkDate 2028 2 29)). unfold act_365 in Ht.
    assert (date_sub (mkDate 2028 2 29) ex_settle = 1460%Z) as Q by reflexivity. rewrite Q in Ht. simpl in Ht.
    injection Ht as <-. reflexivity. }
  rewrite Et in E. nra.
Qed.
Print Assumptions C64_catmull_rom_refuted.

(** The example's curve, fitted by Catmull-Rom, at its second maturity. *)
Example C64_case : exists c t, curve_new (act_365 RV) (CatmullRom RV) ex_settle ex_maturities ex_yields = Ret (Ok c)
  /\ act_365 RV ex_settle (mkDate 2026 3 1) = Ret (Ok t)
  /\ exists y, nth_error ex_yields 1 = Some y /\ discount_factor (act_365 RV) c ex_settle (mkDate 2026 3 1) = Ret (Ok (exp (- t * y))).
Proof.
  destruct (ex_hyps (act_365 RV)) as (t & Ht & Inc & K); [now right |].
  destruct (C64_catmull_rom_partial (act_365 RV) ex_settle ex_maturities ex_yields t eq_refl) as (c & Ec & Rp); [simpl; lia | | exact Inc |].
  - intros m Hm. split; [apply Ht |]. simpl in Hm. unfold earlier, ex_settle. repeat (destruct Hm as [<- | Hm]; [simpl; lia |]). contradiction.
  - exists c, (t (mkDate 2026 3 1)). split; [exact Ec |]. split; [apply Ht |]. eexists. split; [reflexivity |].
    apply (Rp 1%nat); [simpl; lia | reflexivity | reflexivity].
Qed.

Example C40_case : exists c v12 v23,
  curve_new (act_365 RV) (Linear RV) ex_settle ex_maturities ex_yields = Ret (Ok c)
  /\ zero_on_diagonal (act_365 RV) /\ a_date (settlement_date c)
  /\ discount_factor (act_365 RV) c ex_settle (mkDate 2025 3 1) = Ret (Ok v12)
  /\ discount_factor (act_365 RV) c (mkDate 2025 3 1) (mkDate 2026 3 1) = Ret (Ok v23)
  /\ v12 <> 1 /\ v23 <> 1.
Proof.
  destruct (ex_hyps (act_365 RV)) as (t & Ht & Inc & K); [now right |].
  assert (t (mkDate 2025 3 1) = 1) as E1.
  { specialize (Ht (mkDate 2025 3 1)). unfold act_365 in Ht.
    assert (date_sub (mkDate 2025 3 1) ex_settle = 365%Z) as Q by reflexivity. rewrite Q in Ht. simpl in Ht.
    injection Ht as <-. change (@eq (carrier RV)) with (@eq R). field. }
  assert (t (mkDate 2026 3 1) = 2) as E2.
  { specialize (Ht (mkDate 2026 3 1)). unfold act_365 in Ht.
    assert (date_sub (mkDate 2026 3 1) ex_settle = 730%Z) as Q by reflexivity. rewrite Q in Ht. simpl in Ht.
    injection Ht as <-. change (@eq (carrier RV)) with (@eq R). field. }
  pose proof (C43_fit RV (act_365 RV) (Linear RV) ex_settle ex_maturities ex_yields t eq_refl (fun m _ => Ht m)) as F.
  simpl in F. destruct F as (c & Hc & Es & Ev).
  change (combine _ _) with (curve_points t ex_maturities ex_yields) in Ev.
  assert (i_try_value (Linear RV) (interpolator c) 1 = Ret (Ok (2/100))) as Y1.
  { rewrite <- E1. transitivity (fit_eval (Linear RV) (curve_points t ex_maturities ex_yields) (gx (curve_points t ex_maturities ex_yields) 0));
      [symmetry; apply Ev |]. rewrite C24_knots; [reflexivity | exact Inc | simpl; lia | simpl; lia]. }
  assert (i_try_value (Linear RV) (interpolator c) 2 = Ret (Ok (25/1000))) as Y2.
  { rewrite <- E2. transitivity (fit_eval (Linear RV) (curve_points t ex_maturities ex_yields) (gx (curve_points t ex_maturities ex_yields) 1));
      [symmetry; apply Ev |]. rewrite C24_knots; [reflexivity | exact Inc | simpl; lia | simpl; lia]. }
  pose proof (Ht (mkDate 2025 3 1)) as T1. rewrite E1 in T1. pose proof (Ht (mkDate 2026 3 1)) as T2. rewrite E2 in T2.
  rewrite <- Es in T1, T2.
  destruct (df_intro (act_365 RV) (Linear RV) c ex_settle (mkDate 2025 3 1) 1 (2/100)) as (D1 & _); auto;
    try (try rewrite Es; unfold earlier, ex_settle; simpl; lia).
  destruct (df_intro (act_365 RV) (Linear RV) c (mkDate 2025 3 1) (mkDate 2026 3 1) 2 (25/1000)) as (_ & D2); auto;
    try (try rewrite Es; unfold earlier, ex_settle; simpl; lia).
  exists c, (exp (- 1 * (2/100))), (exp (1 * (2/100) - 2 * (25/1000))). split; [exact Hc |].
  split; [apply (C40_day_counts Checked) |]. split; [rewrite Es; apply valid_a_date; reflexivity |].
  split; [apply D1; congruence |]. split; [apply D2; auto; rewrite Es; discriminate |].
  split; intros E; symmetry in E; pose proof (eq_trans exp_0 E) as E'; apply exp_inv in E'; lra.
Qed.

Example C41_case : exists c, curve_new (act_365 RV) (Linear RV) ex_settle ex_maturities ex_yields = Ret (Ok c)
  /\ ~ earlier (mkDate 2026 3 1) (mkDate 2025 3 1) /\ ~ earlier (mkDate 2025 3 1) (settlement_date c)
  /\ (forall t, exists r, i_try_value (Linear RV) (interpolator c) t = Ret r).
Proof.
  destruct (ex_hyps (act_365 RV)) as (t & Ht & Inc & K); [now right |].
  pose proof (C43_fit RV (act_365 RV) (Linear RV) ex_settle ex_maturities ex_yields t eq_refl (fun m _ => Ht m)) as F.
  simpl in F. destruct F as (c & Hc & Es & Ev). exists c. split; [exact Hc |]. rewrite Es.
  split; [unfold earlier, ex_settle; simpl; lia |]. split; [unfold earlier; simpl; lia |]. intros x.
  destruct (C25_panics_iff RV (combine [t (mkDate 2025 3 1); t (mkDate 2026 3 1); t (mkDate 2028 2 29)] ex_yields) x)
    as [(r & H) | (_ & x0 & y0 & E)]; [| discriminate]. exists r. rewrite <- H. symmetry. apply Ev.
Qed.

(** ** C44 *)

(** The factor from settlement to settlement is 1 when the curve can be read at 0, and fails otherwise. *)
Theorem C44_settlement_partial : forall D I (c : YieldCurve RV I), zero_on_diagonal D -> a_date (settlement_date c) ->
  (forall y, i_try_value I (interpolator c) 0 = Ret (Ok y) ->
     discount_factor D c (settlement_date c) (settlement_date c) = Ret (Ok 1))
  /\ (forall e, i_try_value I (interpolator c) 0 = Ret (Err e) ->
     discount_factor D c (settlement_date c) (settlement_date c) = Ret (Err InterpolationFailed)).
Proof.
  intros D I c Z As. split.
  - intros y Y. destruct (df_intro D I c (settlement_date c) (settlement_date c) 0 y) as (K & _); auto using not_earlier_refl.
    rewrite (K eq_refl). ret_eq. rewrite <- exp_0. f_equal. ring.
  - intros e Y. pose proof (not_earlier_refl (settlement_date c)) as O. rewrite <- date_ltb_earlier in O.
    apply not_true_iff_false in O. unfold discount_factor, curve_yield. rewrite O. simpl orb. cbn match.
    rewrite (Z _ As). simpl. rewrite Y. reflexivity.
Qed.
Print Assumptions C44_settlement_partial.

(** On a curve whose first maturity is after settlement it does fail, for every such curve. *)
Theorem C44_first_maturity : forall D s m (ms : list Date) (ys : list R) c,
  (D = act_360 RV \/ D = act_365 RV) -> a_date s -> (forall m', In m' (m :: ms) -> a_date m') -> earlier s m ->
  (forall i j mi mj, (i < j)%nat -> nth_error (m :: ms) i = Some mi -> nth_error (m :: ms) j = Some mj -> earlier mi mj) ->
  curve_new D (Linear RV) s (m :: ms) ys = Ret (Ok c) ->
  discount_factor D c s s = Ret (Err InterpolationFailed).
Proof.
  intros D s m ms ys c HD As Am Hs Ho Hc.
  assert (length (m :: ms) = length ys) as Hl.
  { destruct (Nat.eq_dec (length (m :: ms)) (length ys)) as [E | N]; [exact E |]. destruct (C43_lengths RV D (Linear RV) s (m :: ms) ys N) as [msg X]. rewrite X in Hc. discriminate. }
  destruct (C19_laws D HD) as (f & Hf & _ & _ & Mono & Zero).
  destruct (C42_actual_times D s (m :: ms) ys HD Hl Am Ho) as (t & Ht & Inc).
  pose proof (C43_fit RV D (Linear RV) s (m :: ms) ys t Hl (fun m _ => Ht m)) as F. cbv zeta in F. 
  change (combine _ _) with (curve_points t (m :: ms) ys) in F.
  destruct (i_try_fit (Linear RV) (i_default (Linear RV)) (curve_points t (m :: ms) ys)) as [[f' | e] | |];
    try congruence.
  destruct F as (c' & Hc' & Es & Ev). rewrite Hc in Hc'. injection Hc' as <-.
  assert (zero_on_diagonal D) as Z.
  { destruct (C40_day_counts Checked) as (Z1 & Z2 & _). destruct HD as [-> | ->]; assumption. }
  rewrite <- Es. destruct (C44_settlement_partial D (Linear RV) c Z) as (_ & K); [rewrite Es; exact As |].
  apply (K (OutOfLowerBound 0)). rewrite <- Ev.
  assert (0 < t m) as Pos.
  { assert (t m = f s m) as -> by (pose proof (Ht m) as E; rewrite Hf in E; injection E as <-; reflexivity).
    assert (f s s = 0) as <- by (apply Zero; auto). apply Mono; auto. apply Am. now left. }
  apply C24_errors.
  - intros i j Hij. destruct (Nat.eq_dec i j) as [-> | N]; [lra |]. left. apply Inc. lia.
  - destruct ys; [discriminate |]. discriminate.
  - destruct ys; [discriminate |]. exact Pos.
Qed.
Print Assumptions C44_first_maturity.

Theorem C44_settlement_refuted : exists c,
  curve_new (act_365 RV) (Linear RV) ex_settle ex_maturities ex_yields = Ret (Ok c)
  /\ discount_factor (act_365 RV) c ex_settle ex_settle = Ret (Err InterpolationFailed).
Proof.
  destruct (ex_hyps (act_365 RV)) as (t & Ht & Inc & K); [now right |].
  destruct (C42_linear (act_365 RV) ex_settle ex_maturities ex_yields t eq_refl) as (c & Hc & _); auto; [simpl; lia |].
  exists c. split; [exact Hc |].
  apply (C44_first_maturity (act_365 RV) ex_settle (mkDate 2025 3 1) [mkDate 2026 3 1; mkDate 2028 2 29] ex_yields).
  - now right.
  - apply valid_a_date; reflexivity.
  - intros m [<- | [<- | [<- | []]]]; apply valid_a_date; reflexivity.
  - unfold earlier, ex_settle; simpl; lia.
  - intros i j mi mj Hij Hi Hj.
    destruct i as [| [| [| i]]]; destruct j as [| [| [| j]]]; try lia; simpl in Hi, Hj;
      try (destruct i; discriminate); try (destruct j; discriminate);
      injection Hi as <-; injection Hj as <-; unfold earlier, ex_settle; simpl; lia.
  - exact Hc.
Qed.
Print Assumptions C44_settlement_refuted.

(** C44_settlement_partial has content: a curve with a maturity on the settlement date. *)
Example C44_case : exists c y,
  curve_new (act_365 RV) (Linear RV) ex_settle [ex_settle; mkDate 2025 3 1] [1/100; 2/100] = Ret (Ok c)
  /\ i_try_value (Linear RV) (interpolator c) 0 = Ret (Ok y)
  /\ discount_factor (act_365 RV) c ex_settle ex_settle = Ret (Ok 1).
Proof.
  destruct (C42_actual_times (act_365 RV) ex_settle [ex_settle; mkDate 2025 3 1] [1/100; 2/100]) as (t & Ht & Inc);
    [now right | reflexivity | | |].
  - intros m [<- | [<- | []]]; apply valid_a_date; reflexivity.
  - intros i j mi mj Hij Hi Hj.
    destruct i as [| [| i]]; destruct j as [| [| j]]; try lia; simpl in Hi, Hj;
      try (destruct i; discriminate); try (destruct j; discriminate);
      injection Hi as <-; injection Hj as <-; unfold earlier, ex_settle; simpl; lia.
  - pose proof (C43_fit RV (act_365 RV) (Linear RV) ex_settle [ex_settle; mkDate 2025 3 1] [1/100; 2/100] t eq_refl (fun m _ => Ht m)) as F.
    simpl in F. destruct F as (c & Hc & Es & Ev).
    change [(t ex_settle, 1 / 100); (t (mkDate 2025 3 1), 2 / 100)]
      with (curve_points t [ex_settle; mkDate 2025 3 1] [1/100; 2/100]) in Ev.
    destruct (C40_day_counts Checked) as (_ & Z & _).
    assert (a_date ex_settle) as As by (apply valid_a_date; reflexivity).
    assert (t ex_settle = 0) as T0.
    { pose proof (Ht ex_settle) as E. rewrite (Z _ As) in E. injection E as <-. reflexivity. }
    assert (i_try_value (Linear RV) (interpolator c) 0 = Ret (Ok (1/100))) as Y.
    { rewrite <- T0. transitivity (fit_eval (Linear RV) (curve_points t [ex_settle; mkDate 2025 3 1] [1/100; 2/100])
        (gx (curve_points t [ex_settle; mkDate 2025 3 1] [1/100; 2/100]) 0)); [symmetry; apply Ev |].
      rewrite C24_knots; [reflexivity | exact Inc | simpl; lia | simpl; lia]. }
    exists c, (1/100). split; [exact Hc |]. split; [exact Y |].
    destruct (C44_settlement_partial (act_365 RV) (Linear RV) c Z) as (K & _); [rewrite Es; exact As |].
    rewrite Es in K. exact (K _ Y).
Qed.
