(** Property C109: how far the three day counts are from one another. *)
From Coq Require Import ZArith Reals Bool List Lia Lra.
From Verif Require Import Base Chrono Gregorian DateModel DateFacts Value RealValue DayCountModel PropsDate PropsDayCount.
Import ListNotations.
Open Scope R_scope.

(** An answer of 30/360, in whatever build, is the difference of 30/360 days over 360. *)
Lemma thirty_answer b d1 d2 x : a_date d1 -> a_date d2 -> thirty_360 b RV d1 d2 = Ret (Ok x) ->
  ~ earlier d2 d1 /\ x = IZR (days_30_360 d2 - days_30_360 d1) / 360.
Proof.
  intros H1 H2 E.
  assert (~ earlier d2 d1) as N.
  { intros C. destruct (C21_order_error b d1 d2 C) as [msg E']. rewrite E in E'. discriminate. }
  split; [exact N |].
  assert (b = Wrapping \/ (month d1 <= month d2)%Z) as C.
  { destruct b; [| now left]. right. destruct (Z_lt_ge_dec (month d2) (month d1)) as [C | C]; [exfalso | lia].
    pose proof (proj2 (C22_checked_panics d1 d2 H1 H2) (conj N C)) as P. rewrite E in P. discriminate. }
  rewrite C21_value in E by assumption. now injection E as <-.
Qed.

(** ** One date *)

Lemma leap_parts c b a t : (0 <= b <= 3 -> 0 <= a <= 24 -> 0 <= t <= 3 ->
  is_leap (400 * c + 100 * b + 4 * a + t + 1) = (t =? 3) && ((a <? 24) || (b =? 3)))%Z.
Proof.
  intros Hb Ha Ht. unfold is_leap.
  destruct (Z.eqb_spec t 3), (Z.ltb_spec a 24), (Z.eqb_spec b 3); simpl;
  destruct (Z.eqb_spec ((400 * c + 100 * b + 4 * a + t + 1) mod 4) 0), (Z.eqb_spec ((400 * c + 100 * b + 4 * a + t + 1) mod 100) 0),
    (Z.eqb_spec ((400 * c + 100 * b + 4 * a + t + 1) mod 400) 0); simpl; try reflexivity; exfalso; lia.
Qed.

Lemma year_parts y : exists c b a t, (0 <= b <= 3 /\ 0 <= a <= 24 /\ 0 <= t <= 3 /\ y = 400 * c + 100 * b + 4 * a + t + 1)%Z.
Proof.
  exists ((y - 1) / 400)%Z, ((y - 1) mod 400 / 100)%Z, ((y - 1) mod 100 / 4)%Z, ((y - 1) mod 4)%Z. lia.
Qed.

Lemma year_start c b a t : (0 <= b <= 3 -> 0 <= a <= 24 -> 0 <= t <= 3 ->
  days_before_year (400 * c + 100 * b + 4 * a + t + 1) = 146097 * c + 36524 * b + 1461 * a + 365 * t)%Z.
Proof. intros Hb Ha Ht. unfold days_before_year. cbv zeta. lia. Qed.

(** Days of the year so far, less 30/360 days of the year so far. *)
Definition excess (d : Date) : Z := (ordinal d - (30 * (month d - 1) + Z.min (day d) 30))%Z.

Lemma serial_excess d : (serial_date d - days_30_360 d = days_before_year (year d) - 360 * year d + excess d)%Z.
Proof. unfold excess, serial_date, num_days_from_ce, days_30_360, year, month, day. lia. Qed.

Lemma month_cases m : (1 <= m <= 12 -> m = 1 \/ m = 2 \/ m = 3 \/ m = 4 \/ m = 5 \/ m = 6 \/ m = 7 \/ m = 8 \/ m = 9 \/ m = 10 \/ m = 11 \/ m = 12)%Z.
Proof. lia. Qed.

Lemma excess_range d : proper d ->
  (- 1 + (if is_leap (year d) then 1 else 0) <= excess d <= 5 + (if is_leap (year d) then 1 else 0))%Z.
Proof.
  intros [Hm Hd]. unfold excess, ordinal, days_before_month, month_len, year, month, day in *.
  destruct d as [y m d]; simpl nd_year in *; simpl nd_month in *; simpl nd_day in *.
  destruct (is_leap y); destruct (month_cases m Hm) as [E | [E | [E | [E | [E | [E | [E | [E | [E | [E | [E | E]]]]]]]]]]]; rewrite E in *; cbv beta iota in *; lia.
Qed.

(** In units of 1/52594920 of a year, how far ahead of the mean Gregorian year the 30/360 count is on a given date. *)
Lemma mean_one d : proper d -> (52410150 <= 146097 * days_30_360 d - 144000 * serial_date d <= 53105490)%Z.
Proof.
  intros [Hm Hd]. destruct (year_parts (year d)) as (c & b & a & t & Hb & Ha & Ht & Ey).
  pose proof (leap_parts c b a t Hb Ha Ht) as L. pose proof (year_start c b a t Hb Ha Ht) as Y. rewrite <- Ey in L, Y.
  unfold days_30_360, serial_date, num_days_from_ce, ordinal, days_before_month, month_len, year, month, day in *.
  destruct d as [y m d]; simpl nd_year in *; simpl nd_month in *; simpl nd_day in *.
  rewrite Y, L in *. clear Y L. rewrite Ey. clear Ey.
  destruct (Z.eqb_spec t 3), (Z.ltb_spec a 24), (Z.eqb_spec b 3); simpl andb in *; simpl orb in *; cbv beta iota in *;
  destruct (month_cases m Hm) as [E | [E | [E | [E | [E | [E | [E | [E | [E | [E | [E | E]]]]]]]]]]]; rewrite E in *; cbv beta iota in *; lia.
Qed.

(** ** Two dates *)

Lemma year_step y : (days_before_year (y + 1) = days_before_year y + 365 + (if is_leap y then 1 else 0))%Z.
Proof. exact (days_before_year_succ y). Qed.

Lemma years_apart y n : (days_before_year y + 365 * Z.of_nat n <= days_before_year (y + Z.of_nat n))%Z.
Proof.
  induction n as [| n IH]; [replace (y + Z.of_nat 0)%Z with y by lia; lia |].
  replace (y + Z.of_nat (S n))%Z with (y + Z.of_nat n + 1)%Z by lia. rewrite year_step.
  destruct (is_leap (y + Z.of_nat n)); lia.
Qed.

Lemma later_year y1 y2 : (y1 < y2 ->
  days_before_year y1 + 365 * (y2 - y1) + (if is_leap y1 then 1 else 0) <= days_before_year y2)%Z.
Proof.
  intros L. pose proof (years_apart (y1 + 1) (Z.to_nat (y2 - y1 - 1))) as A. rewrite year_step in A.
  rewrite Z2Nat.id in A by lia. replace (y1 + 1 + (y2 - y1 - 1))%Z with y2 in A by lia. lia.
Qed.

Lemma excess_drop y m1 d1 m2 d2 : proper (mkDate y m1 d1) -> proper (mkDate y m2 d2) -> (m1 < m2 \/ m1 = m2 /\ d1 <= d2)%Z ->
  (excess (mkDate y m1 d1) <= excess (mkDate y m2 d2) + 2)%Z.
Proof.
  intros [M1 D1] [M2 D2] O. unfold excess, ordinal, days_before_month, month_len, year, month, day in *.
  simpl nd_year in *; simpl nd_month in *; simpl nd_day in *.
  destruct (is_leap y); destruct (month_cases m1 M1) as [E | [E | [E | [E | [E | [E | [E | [E | [E | [E | [E | E]]]]]]]]]]]; rewrite E in *; cbv beta iota in *;
  destruct (month_cases m2 M2) as [F | [F | [F | [F | [F | [F | [F | [F | [F | [F | [F | F]]]]]]]]]]]; rewrite F in *; cbv beta iota in *; lia.
Qed.

Lemma two_days d1 d2 : proper d1 -> proper d2 -> ~ earlier d2 d1 ->
  (days_30_360 d2 - days_30_360 d1 <= serial_date d2 - serial_date d1 + 2)%Z.
Proof.
  intros P1 P2 O. pose proof (serial_excess d1) as E1. pose proof (serial_excess d2) as E2.
  destruct (Z.eq_dec (year d1) (year d2)) as [E | E].
  - rewrite E in E1. destruct d1 as [y1 m1 a1], d2 as [y2 m2 a2]. unfold year in *. simpl in E, E1, E2. subst y2.
    pose proof (excess_drop y1 m1 a1 m2 a2 P1 P2) as X. unfold earlier in O. simpl in O. lia.
  - assert (year d1 < year d2)%Z as L by (unfold earlier, year in *; lia).
    pose proof (later_year _ _ L) as Y. pose proof (excess_range d1 P1) as X1. pose proof (excess_range d2 P2) as X2.
    destruct (is_leap (year d1)), (is_leap (year d2)); lia.
Qed.

(** The same for years of 365 days, in units of 1/131400 of a year. *)
Definition excess_365 (d : Date) : Z := (365 * (30 * (month d - 1) + Z.min (day d) 30) - 360 * ordinal d)%Z.

Lemma excess_365_range d : proper d ->
  (if is_leap (year d) then -360 <= excess_365 d <= 450 else -210 <= excess_365 d <= 810)%Z.
Proof.
  intros [Hm Hd]. unfold excess_365, ordinal, days_before_month, month_len, year, month, day in *.
  destruct d as [y m d]; simpl nd_year in *; simpl nd_month in *; simpl nd_day in *.
  destruct (is_leap y); destruct (month_cases m Hm) as [E | [E | [E | [E | [E | [E | [E | [E | [E | [E | [E | E]]]]]]]]]]]; rewrite E in *; cbv beta iota in *; lia.
Qed.

Lemma against_365 d1 d2 : proper d1 -> proper d2 -> ~ earlier d2 d1 ->
  (365 * (days_30_360 d2 - days_30_360 d1) <= 360 * (serial_date d2 - serial_date d1) + 1020)%Z.
Proof.
  intros P1 P2 O. pose proof (excess_365_range d1 P1) as X1. pose proof (excess_365_range d2 P2) as X2.
  assert (forall d, 365 * days_30_360 d - 360 * serial_date d = 360 * (365 * year d - days_before_year (year d)) + excess_365 d)%Z as F
    by (intros d; unfold excess_365, serial_date, num_days_from_ce, days_30_360, year, month, day; lia).
  pose proof (F d1) as F1. pose proof (F d2) as F2. destruct (Z.eq_dec (year d1) (year d2)) as [E | E].
  - rewrite E in F1, X1. destruct (is_leap (year d2)); lia.
  - assert (year d1 < year d2)%Z as L by (unfold earlier, year in *; lia). pose proof (later_year _ _ L) as Y.
    destruct (is_leap (year d1)), (is_leap (year d2)); lia.
Qed.

(** ** C109 *)

Lemma an_a_date d : a_date d -> proper d.
Proof. intros H. now apply valid_proper, valid_a_date. Qed.

(** Against the mean Gregorian year of 146097/400 days: however far apart the dates, 30/360 is off by at most 3863/292194 of a
    year, that is 4.83 days. *)
Theorem C109_mean_year : forall b d1 d2 n x, a_date d1 -> a_date d2 -> days_later n d1 d2 -> thirty_360 b RV d1 d2 = Ret (Ok x) ->
  Rabs (x - INR n / (146097 / 400)) <= 3863 / 292194.
Proof.
  intros b d1 d2 n x H1 H2 Hn E. destruct (thirty_answer b d1 d2 x H1 H2 E) as [_ ->].
  destruct (C03_sub_counts_days n d1 d2 H1 Hn) as [En _]. rewrite INR_IZR_INZ, <- En.
  pose proof (mean_one d1 (an_a_date d1 H1)) as M1. pose proof (mean_one d2 (an_a_date d2 H2)) as M2.
  change (date_sub d2 d1) with (serial_date d2 - serial_date d1)%Z.
  assert (- 695340 <= 146097 * (days_30_360 d2 - days_30_360 d1) - 144000 * (serial_date d2 - serial_date d1) <= 695340)%Z as M by lia.
  set (p := (days_30_360 d2 - days_30_360 d1)%Z) in *. set (q := (serial_date d2 - serial_date d1)%Z) in *.
  destruct M as [Ma Mb]. apply IZR_le in Ma, Mb. rewrite minus_IZR, !mult_IZR in Ma, Mb. apply Rabs_le. lra.
Qed.
Print Assumptions C109_mean_year.

(** 30/360 never exceeds Act/360 by more than two days, nor Act/365 by more than 17/2190 of a year, that is 2.84 days. *)
Theorem C109_against_actual : forall b d1 d2 x y z, a_date d1 -> a_date d2 -> thirty_360 b RV d1 d2 = Ret (Ok x) ->
  act_360 RV d1 d2 = Ret (Ok y) -> act_365 RV d1 d2 = Ret (Ok z) ->
  x <= y + 2 / 360 /\ x <= z + 17 / 2190 /\ y * 360 = z * 365.
Proof.
  intros b d1 d2 x y z H1 H2 E Ey Ez. destruct (thirty_answer b d1 d2 x H1 H2 E) as [N ->].
  rewrite (proj2 (act_value _ 360 (or_introl (conj eq_refl eq_refl)))) in Ey. rewrite (proj2 (act_value _ 365 (or_intror (conj eq_refl eq_refl)))) in Ez.
  injection Ey as <-. injection Ez as <-. change (date_sub d2 d1) with (serial_date d2 - serial_date d1)%Z.
  pose proof (two_days d1 d2 (an_a_date d1 H1) (an_a_date d2 H2) N) as A. pose proof (against_365 d1 d2 (an_a_date d1 H1) (an_a_date d2 H2) N) as B.
  set (p := (days_30_360 d2 - days_30_360 d1)%Z) in *. set (q := (serial_date d2 - serial_date d1)%Z) in *.
  apply IZR_le in A, B. rewrite plus_IZR in A, B. rewrite !mult_IZR in B. lra.
Qed.
Print Assumptions C109_against_actual.

(** Adding [n] months advances 30/360 by [n] twelfths, less the up to two days by which the day of the month was cut to fit. *)
Theorem C109_months : forall b d1 d2 n x, a_date d1 -> (0 <= n)%Z -> date_add_months d1 n = Some d2 -> thirty_360 b RV d1 d2 = Ret (Ok x) ->
  IZR n / 12 - 2 / 360 <= x <= IZR n / 12 /\ (day d2 = day d1 \/ month d2 <> 2%Z -> x = IZR n / 12).
Proof.
  intros b d1 d2 n x H1 Hn A E. assert (a_date d2) as H2.
  { apply C06_add_months in A; [| assumption | assumption]. destruct A as (R & M & E2 & L & HL & ED). split; [exact R |].
    exists L. split; [exact HL |]. destruct H1 as (_ & L1 & HL1 & B1). pose proof (month_length_month _ _ _ HL) as Hm.
    fold (day d1) in B1. fold (day d2). inversion HL; subst; lia. }
  destruct (thirty_answer b d1 d2 x H1 H2 E) as [_ ->]. apply C06_add_months in A; [| assumption | assumption].
  destruct A as (R & M & E2 & L & HL & ED).
  assert (1 <= day d1 <= 31)%Z as D1 by (destruct H1 as (_ & L1 & HL1 & B1); fold (day d1) in B1; inversion HL1; subst; lia).
  set (k := (Z.min (day d1) 30 - Z.min (day d2) 30)%Z).
  assert (days_30_360 d2 - days_30_360 d1 = 30 * n - k)%Z as -> by (unfold days_30_360, k; lia).
  assert (0 <= k <= 2 /\ (day d2 = day d1 \/ month d2 <> 2%Z -> k = 0))%Z as [K K0].
  { unfold k. fold (month d2) in HL. inversion HL; subst; lia. }
  rewrite minus_IZR, mult_IZR. split.
  - destruct K as [Ka Kb]. apply IZR_le in Ka, Kb. lra.
  - intros C. rewrite (K0 C). lra.
Qed.
Print Assumptions C109_months.

(** Each of these bounds is met, in builds of either kind. *)
Theorem C109_bounds_met : forall b,
  (exists d1 d2 n x, a_date d1 /\ a_date d2 /\ days_later n d1 d2 /\ thirty_360 b RV d1 d2 = Ret (Ok x)
    /\ x - INR n / (146097 / 400) = 3863 / 292194)
  /\ (exists d1 d2 x y, a_date d1 /\ a_date d2 /\ thirty_360 b RV d1 d2 = Ret (Ok x) /\ act_360 RV d1 d2 = Ret (Ok y) /\ x = y + 2 / 360)
  /\ (exists d1 d2 x z, a_date d1 /\ a_date d2 /\ thirty_360 b RV d1 d2 = Ret (Ok x) /\ act_365 RV d1 d2 = Ret (Ok z) /\ x = z + 17 / 2190)
  /\ (exists d1 d2 x, a_date d1 /\ date_add_months d1 1 = Some d2 /\ thirty_360 b RV d1 d2 = Ret (Ok x) /\ x = 1 / 12 - 2 / 360).
Proof.
  intros b.
  assert (forall d1 d2, a_date d1 -> a_date d2 -> (date_ltb d2 d1 = false)%Z -> (month d1 <= month d2)%Z ->
    thirty_360 b RV d1 d2 = Ret (Ok (IZR (days_30_360 d2 - days_30_360 d1) / 360))) as T.
  { intros d1 d2 H1 H2 N M. apply C21_value; auto. rewrite <- date_ltb_earlier. congruence. }
  split; [| split; [| split]].
  - assert (a_date (mkDate 2097 1 31)) as H1 by now apply valid_a_date. assert (a_date (mkDate 2303 3 30)) as H2 by now apply valid_a_date.
    destruct (C03_sub_complete _ _ H1 H2) as [C _]. eexists _, _, _, _. split; [exact H1 |]. split; [exact H2 |].
    split; [apply C; vm_compute; discriminate |]. split; [apply T; auto; vm_compute; discriminate |].
    rewrite INR_IZR_INZ, Z2Nat.id by (vm_compute; discriminate).
    change (date_sub (mkDate 2303 3 30) (mkDate 2097 1 31)) with 75296%Z.
    change (days_30_360 (mkDate 2303 3 30) - days_30_360 (mkDate 2097 1 31))%Z with 74220%Z. lra.
  - assert (a_date (mkDate 2023 2 28)) as H1 by now apply valid_a_date. assert (a_date (mkDate 2023 3 1)) as H2 by now apply valid_a_date.
    eexists _, _, _, _. split; [exact H1 |]. split; [exact H2 |]. split; [apply T; auto; vm_compute; discriminate |]. split; [reflexivity |].
    change (date_sub (mkDate 2023 3 1) (mkDate 2023 2 28)) with 1%Z.
    change (days_30_360 (mkDate 2023 3 1) - days_30_360 (mkDate 2023 2 28))%Z with 3%Z. simpl. lra.
  - assert (a_date (mkDate 2023 1 31)) as H1 by now apply valid_a_date. assert (a_date (mkDate 2023 3 30)) as H2 by now apply valid_a_date.
    eexists _, _, _, _. split; [exact H1 |]. split; [exact H2 |]. split; [apply T; auto; vm_compute; discriminate |]. split; [reflexivity |].
    change (date_sub (mkDate 2023 3 30) (mkDate 2023 1 31)) with 58%Z.
    change (days_30_360 (mkDate 2023 3 30) - days_30_360 (mkDate 2023 1 31))%Z with 60%Z. simpl. lra.
  - assert (a_date (mkDate 2023 1 31)) as H1 by now apply valid_a_date. assert (a_date (mkDate 2023 2 28)) as H2 by now apply valid_a_date.
    eexists _, _, _. split; [exact H1 |]. split; [vm_compute; reflexivity |]. split; [apply T; auto; vm_compute; discriminate |].
    change (days_30_360 (mkDate 2023 2 28) - days_30_360 (mkDate 2023 1 31))%Z with 28%Z. lra.
Qed.
Print Assumptions C109_bounds_met.

(** Ten years from the end of January: 30/360 gives ten years, Act/365 a little more. *)
Example C109_case : a_date (mkDate 2023 1 31) /\ date_add_months (mkDate 2023 1 31) 120 = Some (mkDate 2033 1 31)
  /\ thirty_360 Checked RV (mkDate 2023 1 31) (mkDate 2033 1 31) = Ret (Ok (3600 / 360))
  /\ act_360 RV (mkDate 2023 1 31) (mkDate 2033 1 31) = Ret (Ok (3653 / 360))
  /\ act_365 RV (mkDate 2023 1 31) (mkDate 2033 1 31) = Ret (Ok (3653 / 365)).
Proof. split; [now apply valid_a_date |]. repeat split; reflexivity. Qed.
