(** Property C110: the three day counts in every binary format in which 360 and 365 are exact. *)
From Coq Require Import ZArith Reals Bool List Lia Lra.
From Flocq Require Import Core BinarySingleNaN Relative.
From Verif Require Import Base Chrono Gregorian DateModel DateFacts Value RealValue FloatValue FloatFacts DayCountModel
  PropsDate PropsDayCount PropsDayCountFloat PropsDayCountF32.
Import ListNotations.
Open Scope R_scope.

Section Any.
Variables (prec emax : Z) (Hp : Prec_gt_0 prec) (He : Prec_lt_emax prec emax).
Hypothesis fmt : (9 <= prec)%Z /\ (32 <= emax)%Z.
Notation fl := (binary_float prec emax).
Notation un := (bpow radix2 (- prec)).

(** Round to nearest, ties to even, with [prec] digits and the format's smallest exponent. *)
Definition nearest (x : R) : R := round radix2 (FLT_exp (3 - emax - prec) prec) ZnearestE x.

Definition quot (n K : Z) : fl := Bdiv mode_NE (of_int prec emax Hp He n) (of_int prec emax Hp He K).

Lemma nearest_mono x y : x <= y -> nearest x <= nearest y.
Proof. intros H. apply round_le; [apply FLT_exp_valid; exact Hp | apply valid_rnd_N | exact H]. Qed.

Lemma nearest_opp x : nearest (- x) = - nearest x.
Proof. apply round_NE_opp. Qed.

Lemma nearest_int n : (Z.abs n <= 2 ^ prec)%Z -> nearest (IZR n) = IZR n.
Proof. intros H. apply (rnd_int prec emax Hp); [exact H | destruct fmt; lia]. Qed.

Lemma nearest_small x k : (0 <= k)%Z -> Rabs x <= bpow radix2 k -> Rabs (nearest x) <= bpow radix2 k.
Proof.
  intros Hk H. destruct fmt. apply abs_round_le_generic; [apply FLT_exp_valid; exact Hp | apply valid_rnd_N | | exact H].
  apply generic_format_bpow'; [apply FLT_exp_valid; exact Hp | unfold FLT_exp; lia].
Qed.

(** Away from the smallest numbers, the relative error of one rounding. *)
Lemma nearest_error x : x = 0 \/ bpow radix2 (-10) <= Rabs x -> Rabs (nearest x - x) <= un * Rabs x.
Proof.
  destruct fmt. intros [-> | H1].
  - unfold nearest. rewrite round_0 by apply valid_rnd_N. rewrite Rminus_0_r, Rabs_R0. lra.
  - eapply Rle_trans.
    + apply (relative_error_N_FLT radix2 (3 - emax - prec) prec Hp (fun z => negb (Z.even z))).
      eapply Rle_trans; [| exact H1]. apply bpow_le. lia.
    + apply Rmult_le_compat_r; [apply Rabs_pos |]. rewrite bpow_plus. change (bpow radix2 1) with 2. lra.
Qed.

Lemma of_int_value n : (Z.abs n < 2 ^ 29)%Z ->
  B2R (of_int prec emax Hp He n) = nearest (IZR n) /\ is_finite (of_int prec emax Hp He n) = true /\ Rabs (nearest (IZR n)) <= bpow radix2 29.
Proof.
  intros H. destruct fmt as [F1 F2]. pose proof (binary_normalize_correct prec emax Hp He mode_NE n 0 false) as C.
  assert (F2R (Float radix2 n 0) = IZR n) as F by (unfold F2R; simpl; ring).
  rewrite F in C. cbv zeta in C. change (round_mode mode_NE) with ZnearestE in C.
  change (round radix2 (SpecFloat.fexp prec emax) ZnearestE (IZR n)) with (nearest (IZR n)) in C.
  assert (Rabs (nearest (IZR n)) <= bpow radix2 29) as B.
  { apply nearest_small; [lia |]. rewrite <- abs_IZR. change (bpow radix2 29) with (IZR (2 ^ 29)). apply IZR_le. lia. }
  rewrite Rlt_bool_true in C; [tauto |]. eapply Rle_lt_trans; [exact B |]. apply bpow_lt. lia.
Qed.

Lemma quot_value n K : (Z.abs n < 2 ^ 29)%Z -> (360 <= K <= 365)%Z ->
  is_finite (quot n K) = true /\ B2R (quot n K) = nearest (nearest (IZR n) / IZR K).
Proof.
  intros Hn HK. destruct fmt as [F1 F2]. destruct (of_int_value n Hn) as (E1 & G1 & B1).
  destruct (of_int_value K) as (E2 & G2 & _); [lia |].
  assert (2 ^ 9 <= 2 ^ prec)%Z as P by (apply Z.pow_le_mono_r; lia). change (2 ^ 9)%Z with 512%Z in P.
  rewrite nearest_int in E2 by lia.
  assert (360 <= IZR K <= 365) as HKr by (split; apply IZR_le; lia).
  assert (B2R (of_int prec emax Hp He K) <> 0) as N by (rewrite E2; lra).
  pose proof (Bdiv_correct prec emax Hp He mode_NE (of_int prec emax Hp He n) (of_int prec emax Hp He K) N) as B.
  change (round_mode mode_NE) with ZnearestE in B. rewrite E1, E2 in B.
  change (round radix2 (SpecFloat.fexp prec emax) ZnearestE (nearest (IZR n) / IZR K)) with (nearest (nearest (IZR n) / IZR K)) in B.
  rewrite Rlt_bool_true in B.
  - destruct B as (E & F & _). unfold quot. rewrite F, E. auto.
  - apply Rle_lt_trans with (bpow radix2 29); [| apply bpow_lt; lia]. apply nearest_small; [lia |].
    unfold Rdiv. rewrite Rabs_mult, (Rabs_pos_eq (/ IZR K)) by (left; apply Rinv_0_lt_compat; lra).
    rewrite <- (Rmult_1_r (bpow radix2 29)). apply Rmult_le_compat; [apply Rabs_pos | left; apply Rinv_0_lt_compat; lra | exact B1 |].
    rewrite <- Rinv_1. apply Rinv_le; lra.
Qed.

Lemma quot_once n K : (Z.abs n < 2 ^ 29)%Z -> (Z.abs n <= 2 ^ prec)%Z -> (360 <= K <= 365)%Z -> B2R (quot n K) = nearest (IZR n / IZR K).
Proof. intros H1 H2 HK. rewrite (proj2 (quot_value n K H1 HK)), nearest_int by assumption. reflexivity. Qed.

Lemma quot_error n K : (Z.abs n < 2 ^ 29)%Z -> (360 <= K <= 365)%Z ->
  Rabs (B2R (quot n K) - IZR n / IZR K) <= (2 + un) * un * Rabs (IZR n / IZR K).
Proof.
  intros Hn HK. rewrite (proj2 (quot_value n K Hn HK)).
  assert (360 <= IZR K <= 365) as HKr by (split; apply IZR_le; lia). assert (0 < un) as U by apply bpow_gt_0.
  destruct fmt as [F1 F2].
  assert (un <= / 512) as Us by (change (/ 512) with (bpow radix2 (-9)); apply bpow_le; lia).
  destruct (Z.eq_dec n 0) as [-> | N].
  { unfold Rdiv, nearest. rewrite !round_0, !Rmult_0_l, ?round_0 by apply valid_rnd_N. rewrite Rminus_0_r, Rabs_R0. lra. }
  assert (1 <= Rabs (IZR n)) as Ln by (rewrite <- abs_IZR; apply IZR_le; lia).
  assert (Rabs (nearest (IZR n) - IZR n) <= un * Rabs (IZR n)) as A.
  { apply nearest_error. right. eapply Rle_trans; [| exact Ln]. change 1 with (bpow radix2 0). apply bpow_le. lia. }
  set (m := nearest (IZR n)) in *.
  assert (Rabs m >= (1 - un) * Rabs (IZR n)) as Lm.
  { pose proof (Rabs_triang_inv (IZR n) (IZR n - m)) as T. replace (IZR n - (IZR n - m)) with m in T by ring.
    rewrite (Rabs_minus_sym (IZR n) m) in T. lra. }
  assert (Rabs m <= (1 + un) * Rabs (IZR n)) as Um.
  { pose proof (Rabs_triang (m - IZR n) (IZR n)) as T. replace (m - IZR n + IZR n) with m in T by ring. lra. }
  assert (0 < / IZR K) as KI by (apply Rinv_0_lt_compat; lra).
  assert (forall x, Rabs (x / IZR K) = Rabs x * / IZR K) as AK by (intros x; unfold Rdiv; rewrite Rabs_mult, (Rabs_pos_eq (/ IZR K)); lra).
  assert (Rabs (nearest (m / IZR K) - m / IZR K) <= un * Rabs (m / IZR K)) as B.
  { apply nearest_error. right. rewrite AK. apply Rle_trans with (/ 2 * / 365); [change (bpow radix2 (-10)) with (/ 1024); lra |].
    apply Rmult_le_compat; [lra | lra | nra | apply Rinv_le; lra]. }
  replace (nearest (m / IZR K) - IZR n / IZR K) with (nearest (m / IZR K) - m / IZR K + (m - IZR n) / IZR K) by (field; lra).
  eapply Rle_trans; [apply Rabs_triang |]. rewrite !AK in *.
  replace ((2 + un) * un * (Rabs (IZR n) * / IZR K)) with (un * ((1 + un) * Rabs (IZR n) * / IZR K) + un * Rabs (IZR n) * / IZR K) by ring.
  apply Rplus_le_compat.
  - eapply Rle_trans; [exact B |]. apply Rmult_le_compat_l; [lra |]. apply Rmult_le_compat_r; [lra | exact Um].
  - apply Rmult_le_compat_r; [lra | exact A].
Qed.

Lemma quot_mono n m K : (Z.abs n < 2 ^ 29)%Z -> (Z.abs m < 2 ^ 29)%Z -> (360 <= K <= 365)%Z -> (n <= m)%Z -> B2R (quot n K) <= B2R (quot m K).
Proof.
  intros Hn Hm HK L. rewrite (proj2 (quot_value n K Hn HK)), (proj2 (quot_value m K Hm HK)). apply nearest_mono.
  apply Rmult_le_compat_r; [left; apply Rinv_0_lt_compat, IZR_lt; lia |]. apply nearest_mono. now apply IZR_le.
Qed.

Lemma quot_opp n K : (Z.abs n < 2 ^ 29)%Z -> (360 <= K <= 365)%Z -> B2R (quot (- n) K) = - B2R (quot n K).
Proof.
  intros Hn HK. rewrite (proj2 (quot_value n K Hn HK)), (proj2 (quot_value (- n) K ltac:(lia) HK)).
  rewrite opp_IZR, nearest_opp, <- (nearest_opp (_ / _)). unfold Rdiv. now rewrite Ropp_mult_distr_l.
Qed.

Lemma nearest_close n K : (Z.abs n < 2 ^ (prec - 1))%Z -> (360 <= K <= 365)%Z ->
  Rabs (nearest (IZR n / IZR K) - IZR n / IZR K) <= / 1024.
Proof.
  intros Hn HK. assert (360 <= IZR K <= 365) as HKr by (split; apply IZR_le; lia). destruct fmt as [F1 F2].
  destruct (Z.eq_dec n 0) as [-> | N].
  { unfold Rdiv, nearest. rewrite Rmult_0_l, round_0 by apply valid_rnd_N. rewrite Rminus_0_r, Rabs_R0. lra. }
  assert (IZR n / IZR K <> 0) as Nz.
  { intros Z. apply N, eq_IZR. replace (IZR n) with (IZR n / IZR K * IZR K) by (field; lra). rewrite Z. ring. }
  eapply Rle_trans; [apply (error_le_half_ulp radix2 (FLT_exp (3 - emax - prec) prec) (fun z => negb (Z.even z))) |].
  rewrite ulp_neq_0 by exact Nz. unfold cexp, FLT_exp.
  assert (mag radix2 (IZR n / IZR K) <= prec - 9)%Z as Hm.
  { apply mag_le_bpow; [exact Nz |]. unfold Rdiv. rewrite Rabs_mult, (Rabs_pos_eq (/ IZR K)) by (left; apply Rinv_0_lt_compat; lra).
    apply IZR_lt in Hn. rewrite abs_IZR, (IZR_Zpower radix2) in Hn by lia.
    apply Rlt_le_trans with (bpow radix2 (prec - 1) * / IZR K); [apply Rmult_lt_compat_r; [apply Rinv_0_lt_compat; lra | exact Hn] |].
    replace (prec - 9)%Z with (prec - 1 + -8)%Z by lia. rewrite bpow_plus. apply Rmult_le_compat_l; [apply bpow_ge_0 |].
    change (bpow radix2 (-8)) with (/ 256). apply Rinv_le; lra. }
  apply Rle_trans with (/ 2 * bpow radix2 (-9)); [| change (bpow radix2 (-9)) with (/ 512); lra].
  apply Rmult_le_compat_l; [lra |]. apply bpow_le. lia.
Qed.

Lemma quot_strict n m K : (Z.abs n < 2 ^ 29)%Z -> (Z.abs m < 2 ^ 29)%Z -> (Z.abs n < 2 ^ (prec - 1))%Z -> (Z.abs m < 2 ^ (prec - 1))%Z ->
  (360 <= K <= 365)%Z ->
  ((n < m)%Z <-> B2R (quot n K) < B2R (quot m K)).
Proof.
  intros Hn Hm Sn Sm HK. split; intros L.
  - assert (2 ^ (prec - 1) <= 2 ^ prec)%Z as P by (destruct fmt; apply Z.pow_le_mono_r; lia).
    rewrite !quot_once by lia. assert (360 <= IZR K <= 365) as HKr by (split; apply IZR_le; lia).
    pose proof (nearest_close n K Sn HK) as En. pose proof (nearest_close m K Sm HK) as Em.
    assert (IZR n + 1 <= IZR m) as L' by (rewrite <- plus_IZR; apply IZR_le; lia).
    assert (IZR n / IZR K + / 365 <= IZR m / IZR K) as D.
    { assert (/ 365 <= / IZR K) as I by (apply Rinv_le; lra).
      apply Rle_trans with ((IZR n + 1) * / IZR K).
      - unfold Rdiv. lra.
      - apply Rmult_le_compat_r; [left; apply Rinv_0_lt_compat; lra | exact L']. }
    apply Rabs_le_inv in En, Em. lra.
  - destruct (Z_lt_ge_dec n m) as [C | C]; [exact C | exfalso].
    pose proof (quot_mono m n K Hm Hn HK ltac:(lia)). lra.
Qed.

(** ** The day counts *)

Lemma act_quot e (c : DayCount (FV prec emax Hp He e)) K :
  c = act_360 (FV prec emax Hp He e) /\ K = 360%Z \/ c = act_365 (FV prec emax Hp He e) /\ K = 365%Z ->
  (360 <= K <= 365)%Z /\ forall d1 d2, c d1 d2 = Ret (Ok (quot (serial_date d2 - serial_date d1) K)).
Proof. intros [[-> ->] | [-> ->]]; (split; [lia | reflexivity]). Qed.

Lemma apart d1 d2 : a_date d1 -> a_date d2 -> (Z.abs (serial_date d2 - serial_date d1) < 2 ^ 29)%Z.
Proof. intros H1 H2. pose proof (date_sub_range d1 d2 H1 H2) as D. change (date_sub d2 d1) with (serial_date d2 - serial_date d1)%Z in D. lia. Qed.

Lemma apart_30 d1 d2 : a_date d1 -> a_date d2 -> (Z.abs (days_30_360 d2 - days_30_360 d1) < 2 ^ 29)%Z.
Proof. intros H1 H2. pose proof (days_30_360_bound d1 H1). pose proof (days_30_360_bound d2 H2). lia. Qed.

Lemma thirty_quot e b d1 d2 : a_date d1 -> a_date d2 -> ~ earlier d2 d1 -> b = Wrapping \/ (month d1 <= month d2)%Z ->
  thirty_360 b (FV prec emax Hp He e) d1 d2 = Ret (Ok (quot (days_30_360 d2 - days_30_360 d1) 360)).
Proof.
  intros H1 H2 N C.
  assert (thirty_360_diff b d1 d2 = Ret (Ok (days_30_360 d2 - days_30_360 d1)%Z)) as E.
  { destruct C as [-> | C]; [now apply diff_wrapping | now apply diff_checked]. }
  unfold thirty_360. rewrite E. reflexivity.
Qed.

Lemma thirty_quot_inv e b d1 d2 f : a_date d1 -> a_date d2 -> thirty_360 b (FV prec emax Hp He e) d1 d2 = Ret (Ok f) ->
  f = quot (days_30_360 d2 - days_30_360 d1) 360.
Proof.
  intros H1 H2 E. assert (~ earlier d2 d1) as N.
  { intros C. unfold thirty_360, thirty_360_diff in E. apply date_ltb_earlier in C. rewrite C in E. discriminate. }
  assert (b = Wrapping \/ (month d1 <= month d2)%Z) as C.
  { destruct b; [| now left]. right. destruct (Z_lt_ge_dec (month d2) (month d1)) as [C | C]; [exfalso | lia].
    pose proof (proj2 (C22_checked_panics d1 d2 H1 H2) (conj N C)) as P. unfold thirty_360 in E, P.
    destruct (thirty_360_diff Checked d1 d2) as [[z | er] | |]; discriminate. }
  rewrite (thirty_quot e b d1 d2 H1 H2 N C) in E. now injection E as <-.
Qed.
End Any.

(** ** C110 *)

(** A binary format in which 360 and 365 are exact and no number of days overflows; binary32 and binary64 are such. *)
Definition wide (prec emax : Z) : Prop := (9 <= prec)%Z /\ (32 <= emax)%Z.

(** Between any two dates Act/360 and Act/365 are finite, within two roundings of the exact fraction, the exact fraction rounded once
    if the number of days is at most [2 ^ prec], and change sign when the dates change places. *)
Theorem C110_actual : forall prec emax Hp He e c K, wide prec emax ->
  c = act_360 (FV prec emax Hp He e) /\ K = 360%Z \/ c = act_365 (FV prec emax Hp He e) /\ K = 365%Z ->
  forall d1 d2, a_date d1 -> a_date d2 ->
  let n := (serial_date d2 - serial_date d1)%Z in let u := bpow radix2 (- prec) in
  exists f g : binary_float prec emax, c d1 d2 = Ret (Ok f) /\ c d2 d1 = Ret (Ok g)
    /\ is_finite f = true /\ is_finite g = true /\ B2R g = - B2R f
    /\ Rabs (B2R f - IZR n / IZR K) <= (2 + u) * u * Rabs (IZR n / IZR K)
    /\ ((Z.abs n <= 2 ^ prec)%Z -> B2R f = nearest prec emax (IZR n / IZR K)).
Proof.
  intros prec emax Hp He e c K W H d1 d2 H1 H2 n u. destruct (act_quot prec emax Hp He e c K H) as (HK & V).
  pose proof (apart d1 d2 H1 H2) as A. fold n in A.
  exists (quot prec emax Hp He n K), (quot prec emax Hp He (- n) K).
  split; [apply V |]. split; [rewrite V; do 3 f_equal; unfold n; lia |].
  split; [now apply quot_value |]. split; [apply quot_value; [exact W | lia | exact HK] |].
  split; [now apply quot_opp |]. split; [now apply quot_error |]. intros S. now apply quot_once.
Qed.
Print Assumptions C110_actual.

(** A later date never has the smaller fraction, and within [2 ^ (prec - 1)] days no two dates have the same. *)
Theorem C110_actual_order : forall prec emax Hp He e c, wide prec emax ->
  c = act_360 (FV prec emax Hp He e) \/ c = act_365 (FV prec emax Hp He e) ->
  forall d1 d2 d3 (f g : binary_float prec emax), a_date d1 -> a_date d2 -> a_date d3 ->
  c d1 d2 = Ret (Ok f) -> c d1 d3 = Ret (Ok g) ->
  (earlier d2 d3 -> B2R f <= B2R g)
  /\ ((Z.abs (serial_date d2 - serial_date d1) < 2 ^ (prec - 1))%Z -> (Z.abs (serial_date d3 - serial_date d1) < 2 ^ (prec - 1))%Z ->
      (earlier d2 d3 <-> B2R f < B2R g)).
Proof.
  intros prec emax Hp He e c W Hc d1 d2 d3 f g H1 H2 H3 Ef Eg.
  assert (exists K, c = act_360 (FV prec emax Hp He e) /\ K = 360%Z \/ c = act_365 (FV prec emax Hp He e) /\ K = 365%Z) as [K HK].
  { destruct Hc; eauto. }
  destruct (act_quot prec emax Hp He e c K HK) as (HK0 & V). rewrite V in Ef, Eg. injection Ef as <-. injection Eg as <-.
  pose proof (apart d1 d2 H1 H2) as A2. pose proof (apart d1 d3 H1 H3) as A3.
  rewrite (proj1 (C02_serial_order d2 d3 H2 H3)). split.
  - intros L. apply quot_mono; auto. lia.
  - intros S2 S3. rewrite <- (quot_strict prec emax Hp He W _ _ K A2 A3 S2 S3 HK0). lia.
Qed.
Print Assumptions C110_actual_order.

(** The same for 30/360, when the dates are in order and the subtraction of months does not underflow in a checked build. *)
Theorem C110_thirty : forall prec emax Hp He e b d1 d2, wide prec emax -> a_date d1 -> a_date d2 -> ~ earlier d2 d1 ->
  b = Wrapping \/ (month d1 <= month d2)%Z ->
  let n := (days_30_360 d2 - days_30_360 d1)%Z in let u := bpow radix2 (- prec) in
  exists f : binary_float prec emax, thirty_360 b (FV prec emax Hp He e) d1 d2 = Ret (Ok f) /\ is_finite f = true
    /\ Rabs (B2R f - IZR n / 360) <= (2 + u) * u * (IZR n / 360)
    /\ ((n <= 2 ^ prec)%Z -> B2R f = nearest prec emax (IZR n / 360)).
Proof.
  intros prec emax Hp He e b d1 d2 W H1 H2 N C n u.
  pose proof (apart_30 d1 d2 H1 H2) as A. fold n in A.
  pose proof (days_30_360_mono d1 d2 (valid_proper _ (proj2 (valid_a_date _) H1)) (valid_proper _ (proj2 (valid_a_date _) H2)) N) as M.
  assert (0 <= n)%Z as P by (unfold n; lia).
  exists (quot prec emax Hp He n 360). split; [now apply thirty_quot |].
  split; [apply quot_value; [exact W | exact A | lia] |]. split.
  - assert (0 <= IZR n / 360) as P' by (apply IZR_le in P; lra). rewrite <- (Rabs_pos_eq _ P') at 2. apply quot_error; [exact W | exact A | lia].
  - intros S. apply quot_once; [exact W | exact A | lia | lia].
Qed.
Print Assumptions C110_thirty.

Theorem C110_thirty_order : forall prec emax Hp He e b d1 d2 d3 (f g : binary_float prec emax), wide prec emax ->
  a_date d1 -> a_date d2 -> a_date d3 ->
  thirty_360 b (FV prec emax Hp He e) d1 d2 = Ret (Ok f) -> thirty_360 b (FV prec emax Hp He e) d1 d3 = Ret (Ok g) -> ~ earlier d3 d2 ->
  B2R f <= B2R g
  /\ ((days_30_360 d3 - days_30_360 d1 < 2 ^ (prec - 1))%Z ->
      (B2R f = B2R g <-> year d2 = year d3 /\ month d2 = month d3 /\ Z.min (day d2) 30 = Z.min (day d3) 30)).
Proof.
  intros prec emax Hp He e b d1 d2 d3 f g W H1 H2 H3 Ef Eg O.
  assert (forall d (h : binary_float prec emax), a_date d -> thirty_360 b (FV prec emax Hp He e) d1 d = Ret (Ok h) -> ~ earlier d d1) as N.
  { intros d h Hd E C. unfold thirty_360, thirty_360_diff in E. apply date_ltb_earlier in C. rewrite C in E. discriminate. }
  pose proof (N d2 f H2 Ef) as N2. clear N.
  rewrite (thirty_quot_inv prec emax Hp He e b d1 d2 f H1 H2 Ef), (thirty_quot_inv prec emax Hp He e b d1 d3 g H1 H3 Eg). clear Ef Eg f g.
  pose proof (apart_30 d1 d2 H1 H2) as A2. pose proof (apart_30 d1 d3 H1 H3) as A3.
  pose proof (valid_proper _ (proj2 (valid_a_date _) H1)) as P1. pose proof (valid_proper _ (proj2 (valid_a_date _) H2)) as P2.
  pose proof (valid_proper _ (proj2 (valid_a_date _) H3)) as P3.
  pose proof (days_30_360_mono d1 d2 P1 P2 N2) as M1. pose proof (days_30_360_mono d2 d3 P2 P3 O) as M2.
  split; [apply quot_mono; auto; lia |]. intros S.
  assert (days_30_360 d2 = days_30_360 d3 <-> year d2 = year d3 /\ month d2 = month d3 /\ Z.min (day d2) 30 = Z.min (day d3) 30) as Q.
  { destruct P2 as [Q1 Q2], P3 as [Q3 Q4]. unfold days_30_360, year, month, day in *. lia. }
  rewrite <- Q. split; intros E; [| now rewrite E].
  destruct (Z.eq_dec (days_30_360 d2) (days_30_360 d3)) as [G | G]; [exact G | exfalso].
  assert (360 <= 360 <= 365)%Z as HK by lia.
  pose proof (proj1 (quot_strict prec emax Hp He W _ _ 360 A2 A3 ltac:(lia) ltac:(lia) HK) ltac:(lia)). lra.
Qed.
Print Assumptions C110_thirty_order.

(** binary32: a sixth of a year, rounded, under 30/360; 60 days over 360 under Act/360, the same. *)
Example C110_case : wide 24 128 /\ wide 53 1024 /\ forall e, exists f g : binary_float 24 128,
  thirty_360 Checked (F32 e) (mkDate 2024 1 31) (mkDate 2024 3 31) = Ret (Ok f)
  /\ act_360 (F32 e) (mkDate 2024 1 31) (mkDate 2024 3 31) = Ret (Ok g)
  /\ B2R f = nearest 24 128 (60 / 360) /\ B2R g = B2R f.
Proof.
  split; [unfold wide; lia |]. split; [unfold wide; lia |]. intros e.
  assert (a_date (mkDate 2024 1 31) /\ a_date (mkDate 2024 3 31)) as (A1 & A2) by (rewrite <- !valid_a_date; repeat split; reflexivity).
  destruct (C110_thirty 24 128 Hp24 He128 e Checked _ _ ltac:(unfold wide; lia) A1 A2) as (f & Ef & _ & _ & Vf);
    [unfold earlier; simpl; lia | right; simpl; lia |].
  destruct (C110_actual 24 128 Hp24 He128 e (act_360 (F32 e)) 360 ltac:(unfold wide; lia) (or_introl (conj eq_refl eq_refl)) _ _ A1 A2)
    as (g & _ & Eg & _ & _ & _ & _ & _ & Vg).
  exists f, g. split; [exact Ef |]. split; [exact Eg |].
  rewrite Vf by (vm_compute; discriminate). rewrite Vg by (vm_compute; discriminate). split; reflexivity.
Qed.
