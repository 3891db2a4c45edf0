(** Properties C19, C21, C22: day count fractions in exact arithmetic. *)
From Coq Require Import ZArith Reals Bool List Lia Lra.
From Verif Require Import Base Chrono Gregorian DateModel DateFacts Value RealValue DayCountModel PropsDate.
Import ListNotations.
Open Scope R_scope.

(** ** C19 *)

(** [n] days later is [n/360] (resp. [n/365]) of a year, in both directions of time. *)
Theorem C19_value : forall d1 d2 n,
  a_date d1 -> days_later n d1 d2 ->
  act_360 RV d1 d2 = Ret (Ok (INR n / 360)) /\ act_360 RV d2 d1 = Ret (Ok (- (INR n / 360)))
  /\ act_365 RV d1 d2 = Ret (Ok (INR n / 365)) /\ act_365 RV d2 d1 = Ret (Ok (- (INR n / 365))).
Proof.
  intros d1 d2 n H1 Hn. destruct (C03_sub_counts_days n d1 d2 H1 Hn) as [E1 E2].
  unfold act_360, act_365. rewrite E1, E2. simpl. rewrite opp_IZR, <- INR_IZR_INZ.
  repeat split; do 2 f_equal; field.
Qed.
Print Assumptions C19_value.

Lemma act_value (c : DayCount RV) (K : R) :
  (c = act_360 RV /\ K = 360 \/ c = act_365 RV /\ K = 365) ->
  0 < K /\ forall d1 d2, c d1 d2 = Ret (Ok (IZR (date_sub d2 d1) / K)).
Proof. intros [[-> ->] | [-> ->]]; (split; [lra | reflexivity]). Qed.

(** Every pair of dates has a fraction; it is antisymmetric, additive, strictly increasing in the second
    date, and zero exactly for equal dates. *)
Theorem C19_laws : forall c, c = act_360 RV \/ c = act_365 RV ->
  exists f : Date -> Date -> R,
    (forall d1 d2, c d1 d2 = Ret (Ok (f d1 d2)))
    /\ (forall d1 d2, f d2 d1 = - f d1 d2)
    /\ (forall d1 d2 d3, f d1 d3 = f d1 d2 + f d2 d3)
    /\ (forall d1 d2 d3, a_date d2 -> a_date d3 -> (earlier d2 d3 <-> f d1 d2 < f d1 d3))
    /\ (forall d1 d2, a_date d1 -> a_date d2 -> (f d1 d2 = 0 <-> d1 = d2)).
Proof.
  intros c Hc.
  assert (exists K, c = act_360 RV /\ K = 360 \/ c = act_365 RV /\ K = 365) as [K HK].
  { destruct Hc; eauto. }
  destruct (act_value c K HK) as [HK0 V]. exists (fun d1 d2 => IZR (date_sub d2 d1) / K).
  split; [exact V |]. split; [| split; [| split]].
  - intros d1 d2. unfold date_sub, diff_days. rewrite !minus_IZR. field. lra.
  - intros d1 d2 d3. unfold date_sub, diff_days. rewrite !minus_IZR. field. lra.
  - intros d1 d2 d3 H2 H3. rewrite (proj1 (C02_serial_order d2 d3 H2 H3)).
    unfold serial_date, date_sub, diff_days.
    assert (0 < / K) as KI by now apply Rinv_0_lt_compat.
    split; intros H.
    + apply Rmult_lt_compat_r; [exact KI |]. apply IZR_lt. lia.
    + apply Rmult_lt_reg_r in H; [| exact KI]. apply lt_IZR in H. lia.
  - intros d1 d2 H1 H2. rewrite (proj2 (C02_serial_order d1 d2 H1 H2)).
    unfold serial_date, date_sub, diff_days. split; intros H.
    + assert (IZR (num_days_from_ce d2 - num_days_from_ce d1) = 0) as E.
      { replace 0 with (0 * K) by ring. rewrite <- H. field. lra. }
      apply eq_IZR in E. lia.
    + rewrite H, Z.sub_diag. field. lra.
Qed.
Print Assumptions C19_laws.

Example C19_case : a_date (mkDate 2023 1 1)
  /\ act_365 RV (mkDate 2023 1 1) (mkDate 2023 12 31) = Ret (Ok (364 / 365)).
Proof. split; [now apply valid_a_date | reflexivity]. Qed.

(** ** C21, C22 *)

(** Days of the 360-day year with twelve 30-day months: the 31st counts as the 30th. *)
Definition days_30_360 (d : Date) : Z := (360 * year d + 30 * (month d - 1) + Z.min (day d) 30)%Z.

Lemma days_30_360_mono d1 d2 : proper d1 -> proper d2 -> ~ earlier d2 d1 ->
  (days_30_360 d1 <= days_30_360 d2)%Z.
Proof.
  intros [P1 P2] [Q1 Q2] N. unfold earlier in N. unfold days_30_360, year, month, day.
  pose proof (month_len_range (nd_year d1) (nd_month d1) P1).
  pose proof (month_len_range (nd_year d2) (nd_month d2) Q1).
  destruct (Z.lt_trichotomy (nd_year d1) (nd_year d2)) as [L | [L | L]];
    destruct (Z.lt_trichotomy (nd_month d1) (nd_month d2)) as [L' | [L' | L']]; lia.
Qed.

Lemma days_30_360_range d : a_date d -> (-94371500 <= days_30_360 d <= 94371600)%Z.
Proof.
  intros [Y G]. apply proper_gregorian in G. destruct G as [P1 P2].
  pose proof (month_len_range (nd_year d) (nd_month d) P1).
  unfold representable in Y. unfold days_30_360, year, month, day. lia.
Qed.

Lemma u32_ok b z : (0 <= z <= u32_max)%Z -> u32_of b z = Ret z.
Proof.
  intros H. unfold u32_of, in_u32. assert (((0 <=? z) && (z <=? u32_max))%Z%bool = true) as ->; [| reflexivity].
  apply andb_true_iff. rewrite !Z.leb_le. exact H.
Qed.

Lemma i32_ok b z : (i32_min <= z <= i32_max)%Z -> i32_of b z = Ret z.
Proof.
  intros H. unfold i32_of, in_i32. assert (((i32_min <=? z) && (z <=? i32_max))%Z%bool = true) as ->; [| reflexivity].
  apply andb_true_iff. rewrite !Z.leb_le. exact H.
Qed.

Lemma u32_wrapping z : u32_of Wrapping z = Ret (z mod 4294967296)%Z.
Proof.
  unfold u32_of. destruct (in_u32 z) eqn:E; [| reflexivity].
  unfold in_u32, u32_max in E. apply andb_true_iff in E. rewrite !Z.leb_le in E.
  f_equal. symmetry. apply Z.mod_small. lia.
Qed.

Lemma diff_wrapping d1 d2 : a_date d1 -> a_date d2 -> ~ earlier d2 d1 ->
  thirty_360_diff Wrapping d1 d2 = Ret (Ok (days_30_360 d2 - days_30_360 d1)%Z).
Proof.
  intros H1 H2 N.
  pose proof (days_30_360_mono d1 d2 (valid_proper _ (proj2 (valid_a_date _) H1))
                (valid_proper _ (proj2 (valid_a_date _) H2)) N) as Mo.
  pose proof (days_30_360_range _ H1). pose proof (days_30_360_range _ H2).
  unfold thirty_360_diff. destruct (date_ltb d2 d1) eqn:L; [apply date_ltb_earlier in L; tauto |].
  destruct H1 as [Y1 _], H2 as [Y2 _]. fold (year d1) in Y1. fold (year d2) in Y2. unfold representable in *.
  rewrite (i32_ok Wrapping) by (unfold i32_min, i32_max; lia). simpl bind.
  repeat (rewrite !u32_wrapping; simpl bind). do 2 f_equal.
  unfold wrap_u32.
  unfold days_30_360 in *. Z.div_mod_to_equations. lia.
Qed.

Lemma diff_checked b d1 d2 : a_date d1 -> a_date d2 -> ~ earlier d2 d1 -> (month d1 <= month d2)%Z ->
  thirty_360_diff b d1 d2 = Ret (Ok (days_30_360 d2 - days_30_360 d1)%Z).
Proof.
  intros H1 H2 N Hm.
  pose proof (days_30_360_mono d1 d2 (valid_proper _ (proj2 (valid_a_date _) H1))
                (valid_proper _ (proj2 (valid_a_date _) H2)) N) as Mo.
  pose proof (days_30_360_range _ H1). pose proof (days_30_360_range _ H2).
  unfold thirty_360_diff. destruct (date_ltb d2 d1) eqn:L; [apply date_ltb_earlier in L; tauto |].
  destruct H1 as [Y1 G1], H2 as [Y2 G2]. fold (year d1) in Y1. fold (year d2) in Y2. unfold representable in *.
  apply proper_gregorian in G1. apply proper_gregorian in G2. destruct G1 as [M1 D1], G2 as [M2 D2].
  fold (month d1) (day d1) in M1, D1. fold (month d2) (day d2) in M2, D2.
  assert (year d1 <= year d2)%Z.
  { unfold earlier in N. fold (year d1) (year d2) in N. lia. }
  assert (wrap_u32 (year d2 - year d1) = year d2 - year d1)%Z as W by (apply Z.mod_small; lia).
  rewrite i32_ok by (unfold i32_min, i32_max; lia). simpl bind. rewrite W.
  unfold days_30_360 in *.
  rewrite u32_ok by (unfold u32_max; lia). simpl bind.
  rewrite u32_ok by (unfold u32_max; lia). simpl bind.
  rewrite u32_ok by (unfold u32_max; lia). simpl bind.
  rewrite u32_ok by (unfold u32_max; lia). simpl bind.
  rewrite u32_ok by (unfold u32_max; lia). simpl bind.
  rewrite u32_ok by (unfold u32_max; lia). simpl bind.
  do 2 f_equal. lia.
Qed.

(** C21.  In every build where no month subtraction underflows, and in wrapping builds always, the fraction
    is the 30/360 day difference over 360. *)
Theorem C21_value : forall b d1 d2,
  a_date d1 -> a_date d2 -> ~ earlier d2 d1 -> (b = Wrapping \/ (month d1 <= month d2)%Z) ->
  thirty_360 b RV d1 d2 = Ret (Ok (IZR (days_30_360 d2 - days_30_360 d1) / 360)).
Proof.
  intros b d1 d2 H1 H2 N C. unfold thirty_360.
  assert (thirty_360_diff b d1 d2 = Ret (Ok (days_30_360 d2 - days_30_360 d1)%Z)) as ->.
  { destruct C as [-> | C]; [now apply diff_wrapping | now apply diff_checked]. }
  reflexivity.
Qed.
Print Assumptions C21_value.

Theorem C21_order_error : forall b d1 d2,
  earlier d2 d1 -> exists msg, thirty_360 b RV d1 d2 = Ret (Err (InvalidInput msg)).
Proof.
  intros b d1 d2 E. unfold thirty_360, thirty_360_diff.
  apply date_ltb_earlier in E. rewrite E. eexists. reflexivity.
Qed.
Print Assumptions C21_order_error.

(** Non-negative, monotone in the second date, additive over adjoining periods. *)
Theorem C21_laws : forall d1 d2 d3 x12 x13 x23,
  a_date d1 -> a_date d2 -> a_date d3 ->
  ~ earlier d2 d1 -> ~ earlier d3 d2 ->
  thirty_360 Wrapping RV d1 d2 = Ret (Ok x12) ->
  thirty_360 Wrapping RV d1 d3 = Ret (Ok x13) ->
  thirty_360 Wrapping RV d2 d3 = Ret (Ok x23) ->
  0 <= x12 /\ x12 <= x13 /\ x13 = x12 + x23.
Proof.
  intros d1 d2 d3 x12 x13 x23 H1 H2 H3 N1 N2.
  assert (~ earlier d3 d1) as N3.
  { unfold earlier in *. lia. }
  rewrite !C21_value by auto. intros [= <-] [= <-] [= <-].
  pose proof (days_30_360_mono d1 d2 (valid_proper _ (proj2 (valid_a_date _) H1))
                (valid_proper _ (proj2 (valid_a_date _) H2)) N1) as M1.
  pose proof (days_30_360_mono d2 d3 (valid_proper _ (proj2 (valid_a_date _) H2))
                (valid_proper _ (proj2 (valid_a_date _) H3)) N2) as M2.
  apply IZR_le in M1, M2. rewrite !minus_IZR. lra.
Qed.
Print Assumptions C21_laws.

Example C21_case :
  a_date (mkDate 2022 8 31) /\ a_date (mkDate 2023 2 28)
  /\ thirty_360 Wrapping RV (mkDate 2022 8 31) (mkDate 2023 2 28) = Ret (Ok (178 / 360)).
Proof. split; [now apply valid_a_date |]. split; [now apply valid_a_date |]. reflexivity. Qed.

(** C22.  With overflow checks on it panics exactly when the month decreases. *)
Theorem C22_checked_panics : forall d1 d2,
  a_date d1 -> a_date d2 ->
  (thirty_360 Checked RV d1 d2 = Panic <-> ~ earlier d2 d1 /\ (month d2 < month d1)%Z).
Proof.
  intros d1 d2 H1 H2. split.
  - intros P. destruct (date_ltb d2 d1) eqn:L.
    + apply date_ltb_earlier in L. destruct (C21_order_error Checked d1 d2 L) as [msg E]. rewrite E in P. discriminate.
    + assert (~ earlier d2 d1) as N by (rewrite <- date_ltb_earlier; congruence).
      split; [exact N |]. destruct (Z_lt_ge_dec (month d2) (month d1)) as [C | C]; [exact C |].
      rewrite C21_value in P; auto; [discriminate | right; lia].
  - intros [N C]. unfold thirty_360, thirty_360_diff.
    destruct (date_ltb d2 d1) eqn:L; [apply date_ltb_earlier in L; tauto |].
    destruct H1 as [Y1 G1], H2 as [Y2 G2]. fold (year d1) in Y1. fold (year d2) in Y2.
    unfold representable in *.
    assert (year d1 <= year d2)%Z by (unfold earlier in N; fold (year d1) (year d2) in N; lia).
    assert (wrap_u32 (year d2 - year d1) = year d2 - year d1)%Z as W by (apply Z.mod_small; lia).
    rewrite i32_ok by (unfold i32_min, i32_max; lia). simpl bind. rewrite W.
    rewrite u32_ok by (unfold u32_max; lia). simpl bind.
    assert (u32_of Checked (month d2 - month d1) = Panic) as ->; [| reflexivity].
    unfold u32_of, in_u32. destruct (Z.leb_spec 0 (month d2 - month d1)); [lia | reflexivity].
Qed.
Print Assumptions C22_checked_panics.

Theorem C22_never_panics_refuted :
  exists d1 d2, a_date d1 /\ a_date d2 /\ earlier d1 d2 /\ thirty_360 Checked RV d1 d2 = Panic.
Proof.
  exists (mkDate 2022 12 31), (mkDate 2023 1 1).
  split; [now apply valid_a_date |]. split; [now apply valid_a_date |].
  split; [unfold earlier; cbn; lia | reflexivity].
Qed.
Print Assumptions C22_never_panics_refuted.

Theorem C22_wrapping_total_partial : forall d1 d2,
  a_date d1 -> a_date d2 -> exists r, thirty_360 Wrapping RV d1 d2 = Ret r.
Proof.
  intros d1 d2 H1 H2. destruct (date_ltb d2 d1) eqn:L.
  - apply date_ltb_earlier in L. destruct (C21_order_error Wrapping d1 d2 L) as [msg E]. rewrite E. eauto.
  - rewrite C21_value; eauto. rewrite <- date_ltb_earlier. congruence.
Qed.
Print Assumptions C22_wrapping_total_partial.

(** Half a year within one year does not panic, from one year to the next it does. *)
Example C22_case : a_date (mkDate 2023 1 15) /\ a_date (mkDate 2023 7 15) /\ a_date (mkDate 2024 1 14)
  /\ thirty_360 Checked RV (mkDate 2023 1 15) (mkDate 2023 7 15) <> Panic
  /\ thirty_360 Checked RV (mkDate 2023 7 15) (mkDate 2024 1 14) = Panic.
Proof. do 3 (split; [now apply valid_a_date |]). split; [discriminate | reflexivity]. Qed.
