(** Properties C01-C13 of dates.  Specification vocabulary: Gregorian.v. *)
From Coq Require Import ZArith Znumtheory Bool List Lia.
From Verif Require Import Base Chrono Gregorian DateModel DateFacts.
Import ListNotations.
Open Scope Z_scope.

Ltac Zify.zify_post_hook ::= Z.div_mod_to_equations.
Arguments Z.add : simpl never.
Arguments Z.sub : simpl never.
Arguments Z.mul : simpl never.

(** ** C01 *)

Theorem C01_from_ymd_some : forall y m d r,
  from_ymd y m d = Some r
  <-> representable y /\ gregorian y m d /\ year r = y /\ month r = m /\ day r = d.
Proof.
  intros y m d [ry rm rd]. unfold from_ymd, year, month, day. cbn [nd_year nd_month nd_day].
  rewrite from_ymd_opt_some, valid_a_date. unfold a_date. cbn [nd_year nd_month nd_day].
  split.
  - intros [[= -> -> ->] H]. tauto.
  - intros (H1 & H2 & -> & -> & ->). tauto.
Qed.
Print Assumptions C01_from_ymd_some.

Theorem C01_from_ymd_none : forall y m d,
  from_ymd y m d = None <-> ~ (representable y /\ gregorian y m d).
Proof.
  intros y m d. unfold from_ymd. rewrite from_ymd_opt_none, valid_a_date. reflexivity.
Qed.
Print Assumptions C01_from_ymd_none.

Example C01_leap_day : from_ymd 2024 2 29 = Some (mkDate 2024 2 29).
Proof. reflexivity. Qed.
Example C01_no_leap_day : from_ymd 1900 2 29 = None.
Proof. reflexivity. Qed.
Example C01_last_day : from_ymd 262142 12 31 = Some (mkDate 262142 12 31) /\ from_ymd 262143 1 1 = None.
Proof. split; reflexivity. Qed.

(** ** C02 *)

Theorem C02_serial_origin : serial_date (mkDate 1 1 1) = 1.
Proof. reflexivity. Qed.
Print Assumptions C02_serial_origin.

Theorem C02_serial_next : forall a b,
  a_date a -> next_day a b -> serial_date b = serial_date a + 1.
Proof.
  intros a b Ha H. apply valid_a_date, valid_proper in Ha.
  now destruct (next_day_serial _ _ H Ha).
Qed.
Print Assumptions C02_serial_next.

Theorem C02_serial_order : forall a b,
  a_date a -> a_date b ->
  (earlier a b <-> serial_date a < serial_date b) /\ (a = b <-> serial_date a = serial_date b).
Proof.
  intros a b Ha Hb. apply valid_a_date, valid_proper in Ha. apply valid_a_date, valid_proper in Hb.
  split; [now apply serial_lt_iff |]. split; [now intros -> | now apply serial_inj].
Qed.
Print Assumptions C02_serial_order.

(** The comparison operators of Date ([<], [<=], [==]) are the chronological order. *)
Theorem C02_comparison : forall a b,
  (date_ltb a b = true <-> earlier a b)
  /\ (date_leb a b = true <-> ~ earlier b a)
  /\ (date_eqb a b = true <-> a = b).
Proof.
  intros a b. split; [apply date_ltb_earlier |]. split; [apply date_leb_not_earlier | apply date_eqb_eq].
Qed.
Print Assumptions C02_comparison.

(** serial_date always fits in i32. *)
Theorem C02_serial_fits : forall a, a_date a -> in_i32 (serial_date a) = true.
Proof.
  intros a Ha. apply valid_a_date in Ha. pose proof (valid_proper _ Ha) as P.
  apply valid_serial in Ha; [| exact P].
  assert (MIN_SERIAL = -95746129) as E1 by reflexivity.
  assert (MAX_SERIAL = 95745399) as E2 by reflexivity.
  unfold in_i32, i32_min, i32_max, serial_date. rewrite andb_true_iff, !Z.leb_le. lia.
Qed.
Print Assumptions C02_serial_fits.

Example C02_case : a_date (mkDate 2023 3 1) /\ serial_date (mkDate 2023 3 1) = 738580.
Proof. split; [now apply valid_a_date | reflexivity]. Qed.

(** ** C03 *)

Theorem C03_sub_counts_days : forall n a b,
  a_date a -> days_later n a b -> date_sub b a = Z.of_nat n /\ date_sub a b = - Z.of_nat n.
Proof.
  intros n a b Ha H. apply valid_a_date, valid_proper in Ha.
  apply days_later_serial in H; [| exact Ha]. unfold date_sub, diff_days. lia.
Qed.
Print Assumptions C03_sub_counts_days.

(** Any two dates are a whole number of days apart, in the direction of the sign. *)
Theorem C03_sub_complete : forall a b,
  a_date a -> a_date b ->
  (0 <= date_sub b a -> days_later (Z.to_nat (date_sub b a)) a b)
  /\ (date_sub b a <= 0 -> days_later (Z.to_nat (date_sub a b)) b a).
Proof.
  intros a b Ha Hb. apply valid_a_date, valid_proper in Ha. apply valid_a_date, valid_proper in Hb.
  unfold date_sub, diff_days. split; intros H; apply days_later_serial; auto; split; auto; lia.
Qed.
Print Assumptions C03_sub_complete.

Theorem C03_sub_laws : forall a b c,
  a_date a -> a_date b -> a_date c ->
  date_sub b a = serial_date b - serial_date a
  /\ date_sub a b = - date_sub b a
  /\ date_sub c a = date_sub c b + date_sub b a
  /\ (date_sub b a = 0 <-> a = b)
  /\ (0 < date_sub b a <-> earlier a b).
Proof.
  intros a b c Ha Hb Hc.
  destruct (C02_serial_order a b Ha Hb) as [O1 O2].
  unfold date_sub, diff_days, serial_date in *. rewrite O1, O2. repeat split; lia.
Qed.
Print Assumptions C03_sub_laws.

Example C03_case : date_sub (mkDate 2024 3 1) (mkDate 2024 2 1) = 29.
Proof. reflexivity. Qed.

(** ** C04 *)

Lemma span : MAX_SERIAL - MIN_SERIAL < i32_max.
Proof. reflexivity. Qed.

Lemma add_days_of_serial d n :
  valid d -> 0 <= n -> date_add_days d n = of_serial (num_days_from_ce d + n).
Proof.
  intros V Hn. unfold date_add_days, checked_add_days. destruct (Z.leb_spec n i32_max); [reflexivity |].
  symmetry. apply of_serial_none. apply valid_serial in V; [| now apply valid_proper].
  pose proof span. lia.
Qed.

Lemma sub_days_of_serial d n :
  valid d -> 0 <= n -> date_sub_days d n = of_serial (num_days_from_ce d - n).
Proof.
  intros V Hn. unfold date_sub_days, checked_sub_days. destruct (Z.leb_spec n i32_max); [reflexivity |].
  symmetry. apply of_serial_none. apply valid_serial in V; [| now apply valid_proper].
  pose proof span. lia.
Qed.

Theorem C04_add_days : forall d n r,
  a_date d -> 0 <= n ->
  (date_add_days d n = Some r <-> a_date r /\ days_later (Z.to_nat n) d r).
Proof.
  intros d n r Hd Hn. apply valid_a_date in Hd. rewrite add_days_of_serial, of_serial_some by assumption.
  rewrite valid_a_date, days_later_serial by now apply valid_proper.
  rewrite Z2Nat.id by exact Hn. split.
  - intros [H E]. repeat split; try apply H; auto; apply proper_gregorian; apply H.
  - tauto.
Qed.
Print Assumptions C04_add_days.

Theorem C04_sub_days : forall d n r,
  a_date d -> 0 <= n ->
  (date_sub_days d n = Some r <-> a_date r /\ days_later (Z.to_nat n) r d).
Proof.
  intros d n r Hd Hn. apply valid_a_date in Hd. rewrite sub_days_of_serial, of_serial_some by assumption.
  rewrite valid_a_date. split.
  - intros [H E]. split; [exact H |]. apply days_later_serial.
    + now apply valid_proper, valid_a_date.
    + split; [now apply valid_proper | lia].
  - intros [H E]. split; [exact H |]. apply days_later_serial in E; [lia |].
    now apply valid_proper, valid_a_date.
Qed.
Print Assumptions C04_sub_days.

(** None is returned exactly when no representable date is that far away. *)
Theorem C04_days_none : forall d n,
  a_date d -> 0 <= n ->
  (date_add_days d n = None <-> ~ exists r, a_date r /\ days_later (Z.to_nat n) d r)
  /\ (date_sub_days d n = None <-> ~ exists r, a_date r /\ days_later (Z.to_nat n) r d).
Proof.
  intros d n Hd Hn. split.
  - destruct (date_add_days d n) as [r |] eqn:E; split; try congruence.
    + apply C04_add_days in E; auto. intros H. exfalso. eauto.
    + intros _ [r H]. apply C04_add_days in H; auto. congruence.
  - destruct (date_sub_days d n) as [r |] eqn:E; split; try congruence.
    + apply C04_sub_days in E; auto. intros H. exfalso. eauto.
    + intros _ [r H]. apply C04_sub_days in H; auto. congruence.
Qed.
Print Assumptions C04_days_none.

Theorem C04_round_trip : forall d n r,
  a_date d -> 0 <= n ->
  (date_add_days d n = Some r -> date_sub_days r n = Some d)
  /\ (date_sub_days d n = Some r -> date_add_days r n = Some d).
Proof.
  intros d n r Hd Hn. split; intros H.
  - apply C04_add_days in H; auto. apply C04_sub_days; tauto.
  - apply C04_sub_days in H; auto. apply C04_add_days; tauto.
Qed.
Print Assumptions C04_round_trip.

(** n calls of succ_opt (or pred_opt), stopping at None. *)
Definition repeat_step (step : Date -> option Date) (n : nat) (d : Date) : option Date :=
  Nat.iter n (fun o => match o with Some x => step x | None => None end) (Some d).

Theorem C04_n_fold_succ : forall d n,
  a_date d -> date_add_days d (Z.of_nat n) = repeat_step date_succ n d.
Proof.
  intros d n Hd. apply valid_a_date in Hd. induction n as [| n IH].
  - rewrite add_days_of_serial by (auto; lia). simpl.
    replace (num_days_from_ce d + 0) with (num_days_from_ce d) by lia. now apply of_serial_serial.
  - unfold repeat_step in *. simpl Nat.iter. rewrite <- IH. clear IH.
    rewrite !add_days_of_serial by (auto; lia).
    destruct (of_serial (num_days_from_ce d + Z.of_nat n)) as [x |] eqn:E.
    + apply of_serial_some in E. destruct E as [V E]. unfold date_succ.
      rewrite succ_of_serial by exact V. f_equal. lia.
    + apply of_serial_none in E. apply of_serial_none.
      apply valid_serial in Hd; [lia | now apply valid_proper].
Qed.
Print Assumptions C04_n_fold_succ.

Theorem C04_n_fold_pred : forall d n,
  a_date d -> date_sub_days d (Z.of_nat n) = repeat_step date_pred n d.
Proof.
  intros d n Hd. apply valid_a_date in Hd. induction n as [| n IH].
  - rewrite sub_days_of_serial by (auto; lia). simpl.
    replace (num_days_from_ce d - 0) with (num_days_from_ce d) by lia. now apply of_serial_serial.
  - unfold repeat_step in *. simpl Nat.iter. rewrite <- IH. clear IH.
    rewrite !sub_days_of_serial by (auto; lia).
    destruct (of_serial (num_days_from_ce d - Z.of_nat n)) as [x |] eqn:E.
    + apply of_serial_some in E. destruct E as [V E]. unfold date_pred.
      rewrite pred_of_serial by exact V. f_equal. lia.
    + apply of_serial_none in E. apply of_serial_none.
      apply valid_serial in Hd; [lia | now apply valid_proper].
Qed.
Print Assumptions C04_n_fold_pred.

Example C04_case :
  date_add_days (mkDate 2023 12 31) 366 = Some (mkDate 2024 12 31)
  /\ date_add_days (mkDate 2023 12 31) u64_max = None
  /\ date_sub_days (mkDate 1 1 1) 1 = Some (mkDate 0 12 31).
Proof. repeat split; reflexivity. Qed.

(** ** C05 *)

Theorem C05_succ : forall d r, a_date d -> (date_succ d = Some r <-> a_date r /\ next_day d r).
Proof.
  intros d r Hd. apply valid_a_date in Hd. unfold date_succ.
  rewrite succ_opt_spec by exact Hd. rewrite valid_a_date. split; intros [H1 H2]; split; auto.
  - apply next_day_intro; auto; [now apply valid_proper | now apply valid_proper, valid_a_date].
  - now destruct (next_day_serial _ _ H2 (valid_proper _ Hd)).
Qed.
Print Assumptions C05_succ.

Theorem C05_pred : forall d r, a_date d -> (date_pred d = Some r <-> a_date r /\ next_day r d).
Proof.
  intros d r Hd. apply valid_a_date in Hd. unfold date_pred.
  rewrite pred_opt_spec by exact Hd. rewrite valid_a_date. split; intros [H1 H2]; split; auto.
  - apply next_day_intro; auto;
      [now apply valid_proper, valid_a_date | now apply valid_proper | lia].
  - apply valid_a_date, valid_proper in H1. destruct (next_day_serial _ _ H2 H1). lia.
Qed.
Print Assumptions C05_pred.

Theorem C05_ends : forall d, a_date d ->
  (date_succ d = None <-> d = mkDate 262142 12 31)
  /\ (date_pred d = None <-> d = mkDate (-262143) 1 1).
Proof.
  intros d Hd. apply valid_a_date in Hd. split; [now apply succ_opt_none | now apply pred_opt_none].
Qed.
Print Assumptions C05_ends.

Theorem C05_inverse : forall d r, a_date d ->
  (date_succ d = Some r -> date_pred r = Some d) /\ (date_pred d = Some r -> date_succ r = Some d).
Proof.
  intros d r Hd. split; intros H.
  - apply C05_succ in H; auto. apply C05_pred; tauto.
  - apply C05_pred in H; auto. apply C05_succ; tauto.
Qed.
Print Assumptions C05_inverse.

Example C05_case : date_succ (mkDate 2100 2 28) = Some (mkDate 2100 3 1)
                   /\ date_pred (mkDate 2000 3 1) = Some (mkDate 2000 2 29).
Proof. split; reflexivity. Qed.

(** ** C06, C07: months.  [r] is [d] moved by [k] months, the day clamped to the month's length. *)

Definition months_moved (d : Date) (k : Z) (r : Date) : Prop :=
  1 <= month r <= 12
  /\ 12 * year r + month r = 12 * year d + month d + k
  /\ exists L, month_length (year r) (month r) L /\ day r = Z.min (day d) L.

Lemma diff_months_some d k r :
  proper d -> (diff_months d k = Some r <-> representable (year r) /\ months_moved d k r).
Proof.
  intros [Pm Pd]. unfold diff_months, months_moved, year, month, day. cbv zeta.
  set (t := nd_year d * 12 + (nd_month d - 1) + k).
  rewrite from_ymd_opt_some, valid_iff. unfold proper, representable, MIN_YEAR, MAX_YEAR.
  cbn [nd_year nd_month nd_day].
  assert (1 <= t mod 12 + 1 <= 12) as Tm by lia.
  pose proof (month_len_range (t / 12) (t mod 12 + 1) Tm) as ML.
  split.
  - intros [-> [H1 H2]]. cbn [nd_year nd_month nd_day]. split; [lia |].
    split; [lia |]. split; [lia |]. eexists. split; [now apply month_len_spec | reflexivity].
  - intros [H1 [H2 [H3 [L [H4 H5]]]]]. apply month_len_spec in H4; [| exact H2]. subst L.
    assert (nd_year r = t / 12 /\ nd_month r = t mod 12 + 1) as [Y Mo] by lia.
    rewrite Y, Mo in *. split.
    + destruct r as [ry rm rd]. cbn [nd_year nd_month nd_day] in *. congruence.
    + lia.
Qed.

Lemma diff_months_none d k :
  proper d ->
  (diff_months d k = None <-> ~ representable ((12 * year d + month d - 1 + k) / 12)).
Proof.
  intros [Pm Pd]. unfold diff_months, year, month, day. cbv zeta.
  replace (12 * nd_year d + nd_month d - 1 + k) with (nd_year d * 12 + (nd_month d - 1) + k) by lia.
  set (t := nd_year d * 12 + (nd_month d - 1) + k).
  assert (1 <= t mod 12 + 1 <= 12) as Tm by lia.
  pose proof (month_len_range (t / 12) (t mod 12 + 1) Tm) as ML.
  rewrite from_ymd_opt_none, valid_iff. unfold proper, representable, MIN_YEAR, MAX_YEAR.
  cbn [nd_year nd_month nd_day]. split; intros H F; apply H; [| tauto]. split; [exact F | lia].
Qed.

Lemma with_day_proper d x r : with_day d x = Some r ->
  proper r /\ nd_year r = nd_year d /\ nd_month r = nd_month d.
Proof.
  unfold with_day. rewrite from_ymd_opt_some. intros [-> V]. split; [now apply valid_proper | easy].
Qed.

Lemma add_months_diff d n :
  valid d -> 0 <= n -> date_add_months d n = diff_months d n.
Proof.
  intros V Hn. pose proof (valid_proper _ V) as P. rewrite valid_iff in V.
  assert (forall x, proper x -> nd_year x = nd_year d -> nd_month x = nd_month d ->
          diff_months d n = None -> diff_months x n = None) as F.
  { intros x Px Ey Em H. apply diff_months_none in H; auto. apply diff_months_none; auto.
    unfold year, month in *. now rewrite Ey, Em. }
  assert (checked_add_months d n = diff_months d n) as C.
  { unfold checked_add_months. destruct (Z.eqb_spec n 0) as [-> | N].
    - symmetry. apply diff_months_some; auto. split; [apply V |].
      destruct P as [P1 P2]. unfold months_moved, year, month, day. split; [exact P1 |]. split; [lia |].
      eexists. split; [now apply month_len_spec | lia].
    - destruct (Z.leb_spec n i32_max); [reflexivity |]. symmetry. apply diff_months_none; auto.
      unfold representable, year, month, i32_max, MIN_YEAR, MAX_YEAR in *. destruct P. lia. }
  unfold date_add_months. rewrite C. destruct (diff_months d n) eqn:E; [reflexivity |].
  destruct (days_in_month _ _); [| reflexivity]. destruct (with_day d z) as [x |] eqn:W; [| reflexivity].
  apply with_day_proper in W. destruct W as (Px & Ey & Em).
  unfold checked_add_months. destruct (n =? 0) eqn:Z0.
  - exfalso. apply Z.eqb_eq in Z0. subst n. unfold checked_add_months in C. simpl in C. congruence.
  - destruct (n <=? i32_max); [now apply F | reflexivity].
Qed.

Lemma sub_months_diff d n :
  valid d -> 0 <= n -> date_sub_months d n = diff_months d (- n).
Proof.
  intros V Hn. pose proof (valid_proper _ V) as P. rewrite valid_iff in V.
  assert (forall x, proper x -> nd_year x = nd_year d -> nd_month x = nd_month d ->
          diff_months d (- n) = None -> diff_months x (- n) = None) as F.
  { intros x Px Ey Em H. apply diff_months_none in H; auto. apply diff_months_none; auto.
    unfold year, month in *. now rewrite Ey, Em. }
  assert (checked_sub_months d n = diff_months d (- n)) as C.
  { unfold checked_sub_months. destruct (Z.eqb_spec n 0) as [-> | N].
    - symmetry. apply diff_months_some; auto. split; [apply V |].
      destruct P as [P1 P2]. unfold months_moved, year, month, day. split; [exact P1 |]. split; [lia |].
      eexists. split; [now apply month_len_spec | lia].
    - destruct (Z.leb_spec n i32_max); [reflexivity |]. symmetry. apply diff_months_none; auto.
      unfold representable, year, month, i32_max, MIN_YEAR, MAX_YEAR in *. destruct P. lia. }
  unfold date_sub_months. rewrite C. destruct (diff_months d (- n)) eqn:E; [reflexivity |].
  destruct (days_in_month _ _); [| reflexivity]. destruct (with_day d z) as [x |] eqn:W; [| reflexivity].
  apply with_day_proper in W. destruct W as (Px & Ey & Em).
  unfold checked_sub_months. destruct (n =? 0) eqn:Z0.
  - exfalso. apply Z.eqb_eq in Z0. subst n. unfold checked_sub_months in C. simpl in C. congruence.
  - destruct (n <=? i32_max); [now apply F | reflexivity].
Qed.

Theorem C06_add_months : forall d n r,
  a_date d -> 0 <= n ->
  (date_add_months d n = Some r <-> representable (year r) /\ months_moved d n r).
Proof.
  intros d n r Hd Hn. apply valid_a_date in Hd. rewrite add_months_diff by assumption.
  now apply diff_months_some, valid_proper.
Qed.
Print Assumptions C06_add_months.

Theorem C06_add_months_none : forall d n,
  a_date d -> 0 <= n ->
  (date_add_months d n = None <-> 12 * 262142 + 12 < 12 * year d + month d + n).
Proof.
  intros d n Hd Hn. apply valid_a_date in Hd. rewrite add_months_diff by assumption.
  rewrite diff_months_none by now apply valid_proper.
  rewrite valid_iff in Hd. destruct Hd as [Hy [Hm _]].
  unfold representable, year, month, MIN_YEAR, MAX_YEAR in *. lia.
Qed.
Print Assumptions C06_add_months_none.

Example C06_case :
  a_date (mkDate 2023 1 31)
  /\ date_add_months (mkDate 2023 1 31) 1 = Some (mkDate 2023 2 28)
  /\ date_add_months (mkDate 2023 1 31) 13 = Some (mkDate 2024 2 29)
  /\ date_add_months (mkDate 2023 1 31) u32_max = None.
Proof. split; [now apply valid_a_date |]. repeat split; reflexivity. Qed.

Theorem C07_sub_months : forall d n r,
  a_date d -> 0 <= n ->
  (date_sub_months d n = Some r <-> representable (year r) /\ months_moved d (- n) r).
Proof.
  intros d n r Hd Hn. apply valid_a_date in Hd. rewrite sub_months_diff by assumption.
  now apply diff_months_some, valid_proper.
Qed.
Print Assumptions C07_sub_months.

Theorem C07_sub_months_none : forall d n,
  a_date d -> 0 <= n ->
  (date_sub_months d n = None <-> 12 * year d + month d - n < 12 * (-262143) + 1).
Proof.
  intros d n Hd Hn. apply valid_a_date in Hd. rewrite sub_months_diff by assumption.
  rewrite diff_months_none by now apply valid_proper.
  rewrite valid_iff in Hd. destruct Hd as [Hy [Hm _]].
  unfold representable, year, month, MIN_YEAR, MAX_YEAR in *. lia.
Qed.
Print Assumptions C07_sub_months_none.

Example C07_case :
  date_sub_months (mkDate 2024 3 31) 1 = Some (mkDate 2024 2 29)
  /\ date_sub_months (mkDate 2024 1 15) 13 = Some (mkDate 2022 12 15).
Proof. split; reflexivity. Qed.

(** ** C08 *)

Lemma months_moved_proper d k r : proper d -> months_moved d k r -> proper r.
Proof.
  intros [P1 P2] (H1 & H2 & L & H3 & H4). apply month_len_spec in H3; [| exact H1]. subst L.
  pose proof (month_len_range (year r) (month r) H1). unfold proper, year, month, day in *. lia.
Qed.

Lemma months_moved_day d k r : months_moved d k r -> proper d -> day d <= 28 -> day r = day d.
Proof.
  intros (H1 & H2 & L & H3 & H4) P D. apply month_len_spec in H3; [| exact H1].
  pose proof (month_len_range (year r) (month r) H1). lia.
Qed.

Lemma ymd_eq (a b : Date) : year a = year b -> month a = month b -> day a = day b -> a = b.
Proof. destruct a, b. unfold year, month, day. cbn. congruence. Qed.

Theorem C08_add_months_compose : forall d m n r1 r2 r3,
  a_date d -> 0 <= m -> 0 <= n ->
  date_add_months d m = Some r1 -> date_add_months r1 n = Some r2 ->
  date_add_months d (m + n) = Some r3 ->
  year r2 = year r3 /\ month r2 = month r3 /\ day r2 <= day r3
  /\ (day d <= 28 -> r2 = r3).
Proof.
  intros d m n r1 r2 r3 Hd Hm Hn E1 E2 E3.
  pose proof (proj2 (valid_a_date d) Hd) as V. pose proof (valid_proper _ V) as P.
  apply C06_add_months in E1; auto. destruct E1 as [R1 M1].
  pose proof (months_moved_proper _ _ _ P M1) as P1.
  assert (a_date r1) as A1.
  { split; [exact R1 | now apply proper_gregorian]. }
  apply C06_add_months in E2; auto. destruct E2 as [R2 M2].
  apply C06_add_months in E3; auto; [| lia]. destruct E3 as [R3 M3].
  pose proof M1 as (H1 & H2 & L1 & H3 & H4).
  pose proof M2 as (I1 & I2 & L2 & I3 & I4).
  pose proof M3 as (J1 & J2 & L3 & J3 & J4).
  assert (year r2 = year r3) as EY by lia. assert (month r2 = month r3) as EM by lia.
  rewrite EY, EM in I3. apply month_len_spec in I3; [| exact J1]. apply month_len_spec in J3; [| exact J1].
  split; [exact EY |]. split; [exact EM |]. split; [lia |].
  intros D. apply ymd_eq; auto.
  pose proof (months_moved_day _ _ _ M1 P D) as D1.
  pose proof (months_moved_day _ _ _ M2 P1 ltac:(lia)) as D2.
  pose proof (months_moved_day _ _ _ M3 P D). lia.
Qed.
Print Assumptions C08_add_months_compose.

Theorem C08_add_sub_months : forall d n r1 r2,
  a_date d -> 0 <= n ->
  date_add_months d n = Some r1 -> date_sub_months r1 n = Some r2 ->
  year r2 = year d /\ month r2 = month d /\ day r2 <= day d /\ (day d <= 28 -> r2 = d).
Proof.
  intros d n r1 r2 Hd Hn E1 E2.
  pose proof (proj2 (valid_a_date d) Hd) as V. pose proof (valid_proper _ V) as P.
  apply C06_add_months in E1; auto. destruct E1 as [R1 M1].
  pose proof (months_moved_proper _ _ _ P M1) as P1.
  assert (a_date r1) as A1.
  { split; [exact R1 | now apply proper_gregorian]. }
  apply C07_sub_months in E2; auto. destruct E2 as [R2 M2].
  pose proof M1 as (H1 & H2 & L1 & H3 & H4).
  pose proof M2 as (I1 & I2 & L2 & I3 & I4).
  destruct P as [Pm Pd]. fold (month d) (day d) in Pm, Pd.
  assert (year r2 = year d) as EY by lia. assert (month r2 = month d) as EM by lia.
  split; [exact EY |]. split; [exact EM |]. split; [lia |].
  intros D. apply ymd_eq; auto.
  pose proof (months_moved_day _ _ _ M1 ltac:(split; assumption) D) as D1.
  pose proof (months_moved_day _ _ _ M2 P1 ltac:(lia)) as D2. lia.
Qed.
Print Assumptions C08_add_sub_months.

(** For days 29 to 31 the two laws fail: month-end drift. *)
Theorem C08_drift_refuted :
  (exists d m n r1 r2 r3, a_date d /\ date_add_months d m = Some r1 /\ date_add_months r1 n = Some r2
     /\ date_add_months d (m + n) = Some r3 /\ r2 <> r3)
  /\ (exists d n r1 r2, a_date d /\ date_add_months d n = Some r1 /\ date_sub_months r1 n = Some r2
     /\ r2 <> d).
Proof.
  split.
  - exists (mkDate 2023 1 31), 1, 1. do 3 eexists.
    split; [now apply valid_a_date |]. do 3 (split; [reflexivity |]). discriminate.
  - exists (mkDate 2023 3 31), 1. do 2 eexists.
    split; [now apply valid_a_date |]. do 2 (split; [reflexivity |]). discriminate.
Qed.
Print Assumptions C08_drift_refuted.

(** 15 January by one month twice and by two at once; there and back. *)
Example C08_case : a_date (mkDate 2023 1 15) /\ date_add_months (mkDate 2023 1 15) 1 = Some (mkDate 2023 2 15)
  /\ date_add_months (mkDate 2023 2 15) 1 = Some (mkDate 2023 3 15) /\ date_add_months (mkDate 2023 1 15) (1 + 1) = Some (mkDate 2023 3 15)
  /\ date_sub_months (mkDate 2023 2 15) 1 = Some (mkDate 2023 1 15).
Proof. split; [now apply valid_a_date |]. repeat split. Qed.

(** ** C09, C10: years *)

(** The date [k] years on, the missing 29 February replaced by the 28th. *)
Definition years_moved (d : Date) (k : Z) (r : Date) : Prop :=
  year r = year d + k /\ month r = month d
  /\ ((gregorian (year r) (month d) (day d) /\ day r = day d)
      \/ (~ gregorian (year r) (month d) (day d) /\ month d = 2 /\ day d = 29 /\ day r = 28)).

Lemma with_year_none_feb d y :
  proper d -> MIN_YEAR <= y <= MAX_YEAR -> with_year d y = None ->
  nd_month d = 2 /\ nd_day d = 29 /\ ~ proper (mkDate y (nd_month d) (nd_day d)).
Proof.
  intros [Pm Pd] Hy H. unfold with_year in H. apply from_ymd_opt_none in H.
  rewrite valid_iff in H. cbn [nd_year] in H.
  assert (~ proper (mkDate y (nd_month d) (nd_day d))) as NP by tauto.
  pose proof NP as N. unfold proper in N. cbn [nd_year nd_month nd_day] in N.
  assert (month_len y (nd_month d) < nd_day d) as L by lia.
  assert (nd_month d = 2) as E.
  { destruct (Z.eq_dec (nd_month d) 2) as [E | E]; [exact E |]. exfalso.
    replace (month_len y (nd_month d)) with (month_len (nd_year d) (nd_month d)) in L; [lia |].
    clear - Pm E. generalize dependent (nd_month d). intros m Pm E. split_month m; try reflexivity. lia. }
  split; [exact E |]. split; [| exact NP].
  rewrite E in *. unfold month_len in *. destruct (is_leap y), (is_leap (nd_year d)); lia.
Qed.

Lemma add_years_value b d k :
  valid d -> in_i32 (year d + k) = true ->
  date_add_years b d k
  = Ret (match with_year d (year d + k) with
         | Some r => Some r
         | None => with_year (mkDate (nd_year d) (nd_month d) 28) (year d + k)
         end).
Proof.
  intros V I. unfold date_add_years, i32_of. fold (year d). rewrite I. simpl.
  destruct (with_year d (year d + k)); [reflexivity |].
  assert (with_day d 28 = Some (mkDate (nd_year d) (nd_month d) 28)) as ->; [| reflexivity].
  unfold with_day. apply from_ymd_opt_some. split; [reflexivity |].
  rewrite valid_iff in *. unfold proper in *. cbn [nd_year nd_month nd_day].
  pose proof (month_len_range (nd_year d) (nd_month d)). tauto || lia.
Qed.

Theorem C09_add_years : forall b d k,
  a_date d -> in_i32 (year d + k) = true ->
  exists o, date_add_years b d k = Ret o
    /\ (forall r, o = Some r <-> representable (year d + k) /\ years_moved d k r).
Proof.
  intros b d k Hd I. apply valid_a_date in Hd. rewrite add_years_value by assumption.
  eexists. split; [reflexivity |]. intros r. pose proof (valid_proper _ Hd) as P.
  unfold years_moved.
  destruct (with_year d (year d + k)) as [x |] eqn:W.
  - unfold with_year in W. apply from_ymd_opt_some in W. destruct W as [-> V].
    apply valid_a_date in V. destruct V as [V1 V2]. cbn [nd_year nd_month nd_day] in *.
    split.
    + intros [= <-]. unfold year, month, day in *. cbn [nd_year nd_month nd_day]. tauto.
    + intros [R (Y & Mo & D)]. f_equal. apply ymd_eq; unfold year, month, day in *;
        cbn [nd_year nd_month nd_day]; try congruence.
      rewrite Y in D. destruct D as [[_ D] | [D _]]; [congruence | tauto].
  - split.
    + unfold with_year. cbn [nd_month nd_day]. rewrite from_ymd_opt_some. intros [-> V].
      apply valid_a_date in V. destruct V as [V1 V2]. cbn [nd_year nd_month nd_day] in *.
      pose proof (with_year_none_feb _ _ P V1 W) as (F1 & F2 & F3).
      split; [exact V1 |]. unfold year, month, day in *. cbn [nd_year nd_month nd_day].
      split; [reflexivity |]. split; [reflexivity |]. right.
      rewrite proper_gregorian in F3. cbn [nd_year nd_month nd_day] in F3. tauto.
    + intros [R (Y & Mo & D)].
      pose proof (with_year_none_feb _ _ P R W) as (F1 & F2 & F3).
      rewrite proper_gregorian in F3. cbn [nd_year nd_month nd_day] in F3.
      rewrite Y in D.
      destruct D as [[D _] | (_ & _ & _ & D)]; [tauto |].
      unfold with_year. cbn [nd_month nd_day]. apply from_ymd_opt_some. split.
      * apply ymd_eq; unfold year, month, day in *; cbn [nd_year nd_month nd_day]; congruence.
      * rewrite valid_iff. unfold proper. cbn [nd_year nd_month nd_day]. rewrite F1.
        split; [exact R |]. unfold month_len. destruct (is_leap _); lia.
Qed.
Print Assumptions C09_add_years.

(** None is returned only when the target year is not representable. *)
Theorem C09_add_years_none : forall b d k,
  a_date d -> in_i32 (year d + k) = true ->
  (date_add_years b d k = Ret None <-> ~ representable (year d + k)).
Proof.
  intros b d k Hd I. destruct (C09_add_years b d k Hd I) as (o & E & S). rewrite E. split.
  - intros [= ->] R.
    assert (exists r, years_moved d k r) as [r Hr].
    { pose proof Hd as [_ G]. apply proper_gregorian in G.
      destruct (validb (mkDate (year d + k) (month d) (day d))) eqn:V.
      - exists (mkDate (year d + k) (month d) (day d)). apply valid_a_date in V. destruct V as [_ V].
        cbn [nd_year nd_month nd_day] in V. unfold years_moved, year, month, day in *.
        cbn [nd_year nd_month nd_day]. tauto.
      - assert (with_year d (year d + k) = None) as W.
        { unfold with_year, from_ymd_opt. unfold year, month, day in V. unfold year. now rewrite V. }
        destruct (with_year_none_feb _ _ G R W) as (F1 & F2 & F3).
        rewrite proper_gregorian in F3. cbn [nd_year nd_month nd_day] in F3.
        exists (mkDate (year d + k) 2 28). unfold years_moved, year, month, day in *.
        cbn [nd_year nd_month nd_day]. split; [reflexivity |]. split; [congruence |]. right. tauto. }
    assert (@None Date = Some r) as F by (apply S; tauto). discriminate.
  - intros N. destruct o as [r |]; [| reflexivity]. exfalso. apply N. now apply (S r).
Qed.
Print Assumptions C09_add_years_none.

(** The doc comment (date.rs:59-60) promises None when 29 February meets a non-leap year. *)
Theorem C09_doc_refuted : forall b,
  exists d k r, a_date d /\ ~ gregorian (year d + k) (month d) (day d)
                /\ date_add_years b d k = Ret (Some r).
Proof.
  intros b. exists (mkDate 2024 2 29), 1, (mkDate 2025 2 28).
  split; [now apply valid_a_date |]. split; [| destruct b; reflexivity].
  intros G. apply (proper_gregorian (mkDate 2025 2 29)) in G. destruct G as [_ [_ G]]. now apply G.
Qed.
Print Assumptions C09_doc_refuted.

Example C09_case :
  date_add_years Checked (mkDate 2024 2 29) 4 = Ret (Some (mkDate 2028 2 29))
  /\ date_add_years Checked (mkDate 2023 7 1) (-3) = Ret (Some (mkDate 2020 7 1)).
Proof. split; reflexivity. Qed.

(** C10: with overflow checks off every i32 argument gives an answer, None when the sum leaves i32. *)
Theorem C10_add_years_total_wrapping_partial : forall d k,
  a_date d -> in_i32 k = true ->
  exists o, date_add_years Wrapping d k = Ret o
            /\ (in_i32 (year d + k) = false -> o = None).
Proof.
  intros d k Hd K. destruct (in_i32 (year d + k)) eqn:I.
  - destruct (C09_add_years Wrapping d k Hd I) as (o & E & _). exists o. split; [exact E | discriminate].
  - exists None. split; [| reflexivity].
    unfold date_add_years, i32_of. fold (year d). rewrite I. simpl.
    destruct Hd as [[Y1 Y2] _]. fold (year d) in Y1, Y2.
    unfold in_i32, i32_min, i32_max in *. apply andb_true_iff in K. rewrite !Z.leb_le in K.
    apply andb_false_iff in I. rewrite !Z.leb_gt in I.
    assert (forall x, with_year x (wrap_i32 (year d + k)) = None) as N.
    { intros x. unfold with_year. apply from_ymd_opt_none. rewrite valid_iff.
      unfold wrap_i32, MIN_YEAR, MAX_YEAR. cbn [nd_year]. lia. }
    rewrite N. destruct (with_day d 28); [| reflexivity]. now rewrite N.
Qed.
Print Assumptions C10_add_years_total_wrapping_partial.

(** With overflow checks on it panics exactly when year + k leaves i32. *)
Theorem C10_add_years_checked_panics : forall d k,
  a_date d -> (date_add_years Checked d k = Panic <-> in_i32 (year d + k) = false).
Proof.
  intros d k Hd. destruct (in_i32 (year d + k)) eqn:I.
  - destruct (C09_add_years Checked d k Hd I) as (o & E & _). rewrite E. split; discriminate.
  - unfold date_add_years, i32_of. fold (year d). rewrite I. simpl. tauto.
Qed.
Print Assumptions C10_add_years_checked_panics.

Theorem C10_never_panics_refuted :
  exists d k, a_date d /\ in_i32 k = true /\ date_add_years Checked d k = Panic.
Proof.
  exists (mkDate 2024 1 1), 2147483647. split; [now apply valid_a_date |]. split; reflexivity.
Qed.
Print Assumptions C10_never_panics_refuted.

(** Both builds agree where the sum of the years fits. *)
Example C10_case : a_date (mkDate 2024 2 29) /\ date_add_years Wrapping (mkDate 2024 2 29) 2147483647 = Ret None
  /\ date_add_years Checked (mkDate 2024 2 29) 4 = Ret (Some (mkDate 2028 2 29)).
Proof. split; [now apply valid_a_date |]. split; vm_compute; reflexivity. Qed.

(** ** C11 *)

Theorem C11_leap_year : forall d, a_date d ->
  (leap_year d = true <-> leap (year d))
  /\ (leap_year d = true <-> gregorian (year d) 2 29).
Proof.
  intros d Hd. unfold leap_year. fold (year d). rewrite is_leap_iff. split; [reflexivity |].
  rewrite <- (proper_gregorian (mkDate (year d) 2 29)). unfold proper. cbn [nd_year nd_month nd_day].
  rewrite <- is_leap_iff. unfold month_len. destruct (is_leap (year d)); split; intros; try lia; congruence.
Qed.
Print Assumptions C11_leap_year.

(** Its year has 366 days (1 January to the next 1 January), otherwise 365. *)
Theorem C11_year_length : forall d, a_date d ->
  days_later (if leap_year d then 366 else 365) (mkDate (year d) 1 1) (mkDate (year d + 1) 1 1).
Proof.
  intros d Hd. apply days_later_serial; [split; cbn; lia |]. split; [split; cbn; lia |].
  unfold num_days_from_ce, ordinal, leap_year. cbn [nd_year nd_month nd_day]. fold (year d).
  rewrite days_before_year_succ. unfold leap01, days_before_month. destruct (is_leap (year d)); lia.
Qed.
Print Assumptions C11_year_length.
(** The private table of month lengths, for every month number and kind of year. *)
Theorem C11_month_lengths : forall d m L, a_date d ->
  (days_in_month m (leap_year d) = Some L <-> month_length (year d) m L).
Proof.
  intros d m L Hd. pose proof (proj1 (C11_leap_year d Hd)) as Lp. split.
  - intros H.
    assert (m = 1 \/ m = 2 \/ m = 3 \/ m = 4 \/ m = 5 \/ m = 6 \/ m = 7 \/ m = 8 \/ m = 9 \/ m = 10 \/ m = 11 \/ m = 12) as K.
    { destruct (Z_le_dec 1 m); [destruct (Z_le_dec m 12); [lia |] |]; exfalso;
        destruct m as [| [[[[? | ? |] | [? | ? |] |] | [[? | ? |] | [? | ? |] |] |] | [[[? | ? |] | [? | ? |] |] | [[? | ? |] | [? | ? |] |] |] |] | ?];
        try discriminate H; lia. }
    repeat (destruct K as [-> | K]); try subst m; simpl in H.
    2: { destruct (leap_year d) eqn:E; injection H as <-; constructor; [now apply Lp | rewrite <- Lp; discriminate]. }
    all: injection H as <-; constructor; simpl; tauto.
  - intros H. destruct H as [m Hm | m Hm | Hm | Hm].
    + simpl in Hm. repeat (destruct Hm as [<- | Hm]); reflexivity || contradiction.
    + simpl in Hm. repeat (destruct Hm as [<- | Hm]); reflexivity || contradiction.
    + simpl. now rewrite (proj2 Lp Hm).
    + simpl. destruct (leap_year d); [exfalso; apply Hm, Lp; reflexivity | reflexivity].
Qed.


Example C11_case : leap_year (mkDate 2000 1 1) = true /\ leap_year (mkDate 1900 1 1) = false.
Proof. split; reflexivity. Qed.

(** ** C12, C13: weekdays *)

(** Weekdays cycle through the days of the week, starting from Monday 0001-01-01. *)
Theorem C12_weekday : weekday (mkDate 1 1 1) = Mon
  /\ forall a b, a_date a -> next_day a b -> weekday b = next_weekday (weekday a).
Proof.
  split; [reflexivity |]. intros a b Ha H. apply weekday_next. now apply C02_serial_next.
Qed.
Print Assumptions C12_weekday.

Definition weekend (d : Date) : Prop := weekday d = Sat \/ weekday d = Sun.

Lemma weekend_num d : weekend d <-> 4 < (num_days_from_ce d - 1) mod 7.
Proof.
  unfold weekend. rewrite <- weekday_num_weekday. destruct (weekday d); simpl; split; intros H;
    try lia; try tauto; destruct H; discriminate.
Qed.

Lemma weekend_roll_value d :
  weekend_roll d =
  let w := (num_days_from_ce d - 1) mod 7 in
  if 4 <? w then date_add_days d (7 - w) else Some d.
Proof.
  unfold weekend_roll. rewrite weekday_num_weekday. cbv zeta. destruct (4 <? _); [reflexivity |].
  rewrite Z.ltb_irrefl. destruct (Z.eqb_spec (nd_month d) 12) as [-> |]; reflexivity.
Qed.

(** The roll is the earliest non-weekend date that is not before the start. *)
Theorem C12_weekend_roll : forall d r, a_date d ->
  (weekend_roll d = Some r <->
   a_date r /\ ~ weekend r /\ ~ earlier r d
   /\ forall x, a_date x -> ~ earlier x d -> earlier x r -> weekend x).
Proof.
  intros d r Hd. pose proof Hd as Vd. apply valid_a_date in Vd.
  pose proof (valid_proper _ Vd) as Pd.
  set (w := (num_days_from_ce d - 1) mod 7).
  assert (0 <= w < 7) as Hw by (apply Z.mod_pos_bound; lia).
  (* the date [r0] the roll must reach, as a serial number *)
  set (s := if 4 <? w then num_days_from_ce d + (7 - w) else num_days_from_ce d).
  assert (weekend_roll d = of_serial s) as ->.
  { rewrite weekend_roll_value. cbv zeta. fold w. subst s. destruct (4 <? w); [apply add_days_of_serial; [exact Vd | lia] |].
    symmetry. now apply of_serial_serial. }
  rewrite of_serial_some, valid_a_date.
  assert (num_days_from_ce d <= s /\ (s - 1) mod 7 <= 4
          /\ forall x, num_days_from_ce d <= x < s -> 4 < (x - 1) mod 7) as (S1 & S2 & S3).
  { subst s w. destruct (Z.ltb_spec 4 ((num_days_from_ce d - 1) mod 7)); repeat split; try lia. }
  clearbody s. split.
  - intros [Hr E]. pose proof (valid_proper _ (proj2 (valid_a_date _) Hr)) as Pr.
    split; [exact Hr |]. split; [rewrite weekend_num; lia |].
    split; [rewrite serial_lt_iff by assumption; lia |].
    intros x Hx. pose proof (valid_proper _ (proj2 (valid_a_date _) Hx)) as Px.
    rewrite !serial_lt_iff, weekend_num by assumption. intros. apply S3. lia.
  - intros (Hr & N & L & F). split; [exact Hr |].
    pose proof (valid_proper _ (proj2 (valid_a_date _) Hr)) as Pr.
    rewrite serial_lt_iff in L by assumption. rewrite weekend_num in N.
    assert (~ num_days_from_ce r < s) as G1 by (intros C; apply N; apply S3; lia).
    destruct (Z.eq_dec (num_days_from_ce r) s) as [E | E]; [exact E |]. exfalso.
    destruct (civil_correct s) as [C1 C2].
    assert (valid (civil_of_serial s)) as Vs.
    { apply valid_serial; [exact C2 |].
      apply valid_serial in Vd; [| exact Pd].
      apply valid_a_date in Hr. apply valid_serial in Hr; [| exact Pr]. lia. }
    pose proof (F (civil_of_serial s) (proj1 (valid_a_date _) Vs)) as F'.
    rewrite !serial_lt_iff, weekend_num, C1 in F' by assumption.
    specialize (F' ltac:(lia) ltac:(lia)). lia.
Qed.
Print Assumptions C12_weekend_roll.

Theorem C12_weekend_roll_cases : forall d, a_date d ->
  (~ weekend d -> weekend_roll d = Some d)
  /\ (weekday d = Sat -> weekend_roll d = date_add_days d 2)
  /\ (weekday d = Sun -> weekend_roll d = date_add_days d 1)
  /\ (forall r, weekend_roll d = Some r -> weekend_roll r = Some r)
  /\ (weekend d -> forall r, weekend_roll d = Some r -> weekday r = Mon).
Proof.
  intros d Hd. pose proof (weekday_num_weekday d) as W. split; [| split; [| split; [| split]]].
  - intros N. rewrite weekend_num in N. rewrite weekend_roll_value. cbv zeta.
    destruct (Z.ltb_spec 4 ((num_days_from_ce d - 1) mod 7)); [lia | reflexivity].
  - intros E. rewrite E in W. rewrite weekend_roll_value, <- W. reflexivity.
  - intros E. rewrite E in W. rewrite weekend_roll_value, <- W. reflexivity.
  - intros r H. apply C12_weekend_roll in H; [| exact Hd]. destruct H as (Hr & N & L & F).
    apply C12_weekend_roll; [exact Hr |]. split; [exact Hr |]. split; [exact N |].
    split; [unfold earlier; lia |]. intros x _ A B. tauto.
  - intros K r H. rewrite weekend_num in K. rewrite weekend_roll_value in H. cbv zeta in H.
    destruct (Z.ltb_spec 4 ((num_days_from_ce d - 1) mod 7)); [| lia].
    apply valid_a_date in Hd. rewrite add_days_of_serial in H by (auto; lia).
    apply of_serial_some in H. destruct H as [_ H].
    apply weekday_num_inj. rewrite weekday_num_weekday, H. simpl. lia.
Qed.
Print Assumptions C12_weekend_roll_cases.

(** None only when the Monday is not representable: never for dates before the last week. *)
Theorem C12_weekend_roll_none : forall d, a_date d ->
  (weekend_roll d = None <-> ~ exists r, a_date r /\ ~ weekend r /\ ~ earlier r d).
Proof.
  intros d Hd. split.
  - intros E [r (Hr & N & L)]. pose proof Hd as Vd. apply valid_a_date in Vd.
    pose proof (valid_proper _ Vd) as Pd. pose proof (valid_proper _ (proj2 (valid_a_date _) Hr)) as Pr.
    rewrite weekend_roll_value in E. cbv zeta in E.
    destruct (Z.ltb_spec 4 ((num_days_from_ce d - 1) mod 7)); [| discriminate].
    rewrite add_days_of_serial in E by (auto; lia). apply of_serial_none in E.
    rewrite serial_lt_iff in L by assumption. rewrite weekend_num in N.
    apply valid_serial in Vd; [| exact Pd].
    apply valid_a_date in Hr. apply valid_serial in Hr; [| exact Pr]. lia.
  - intros N. destruct (weekend_roll d) as [r |] eqn:E; [| reflexivity]. exfalso.
    apply C12_weekend_roll in E; [| exact Hd]. apply N. exists r. tauto.
Qed.
Print Assumptions C12_weekend_roll_none.

Example C12_case :
  a_date (mkDate 2023 9 30) /\ weekend (mkDate 2023 9 30)
  /\ weekend_roll (mkDate 2023 9 30) = Some (mkDate 2023 10 2)
  /\ weekend_roll (mkDate 2023 10 2) = Some (mkDate 2023 10 2).
Proof. split; [now apply valid_a_date |]. split; [left; reflexivity |]. split; reflexivity. Qed.

(** C13: the documented roll back at month end never happens ... *)
Theorem C13_never_rolls_back : forall d r, a_date d -> weekend_roll d = Some r -> ~ earlier r d.
Proof. intros d r Hd H. apply C12_weekend_roll in H; tauto. Qed.
Print Assumptions C13_never_rolls_back.

(** ... so a month-end weekend rolls into the next month. *)
Theorem C13_stays_in_month_refuted :
  exists d r, a_date d /\ weekend_roll d = Some r /\ month r <> month d.
Proof.
  exists (mkDate 2023 9 30), (mkDate 2023 10 2).
  split; [now apply valid_a_date |]. split; [reflexivity | discriminate].
Qed.
Print Assumptions C13_stays_in_month_refuted.

(** A Saturday in mid-month, a Saturday at the end of one, and a weekday. *)
Example C13_case : a_date (mkDate 2023 9 16) /\ weekend_roll (mkDate 2023 9 16) = Some (mkDate 2023 9 18)
  /\ a_date (mkDate 2023 9 30) /\ weekend_roll (mkDate 2023 9 30) = Some (mkDate 2023 10 2)
  /\ weekend_roll (mkDate 2023 9 15) = Some (mkDate 2023 9 15).
Proof. repeat split; now apply valid_a_date. Qed.
