(** Properties C89 and C90: 30/360 in binary64, and the actual day counts in binary32. *)
From Coq Require Import ZArith Reals Bool List Lia Lra.
From Flocq Require Import Core BinarySingleNaN.
From Verif Require Import Base Chrono Gregorian DateModel DateFacts Value FloatValue FloatFacts DayCountModel
  PropsDate PropsRoll PropsDayCount PropsDayCountFloat.
Import ListNotations.
Open Scope R_scope.

(** ** C89 *)

Lemma days_30_360_bound d : a_date d -> (Z.abs (days_30_360 d) < 100000000)%Z.
Proof. intros H. pose proof (days_30_360_range d H). lia. Qed.

Lemma thirty_f64 e b d1 d2 : a_date d1 -> a_date d2 -> ~ earlier d2 d1 -> b = Wrapping \/ (month d1 <= month d2)%Z ->
  exists f : binary_float 53 1024, thirty_360 b (F64 e) d1 d2 = Ret (Ok f) /\ is_finite f = true
    /\ B2R f = to_f64 (IZR (days_30_360 d2 - days_30_360 d1) / 360).
Proof.
  intros H1 H2 N C.
  assert (thirty_360_diff b d1 d2 = Ret (Ok (days_30_360 d2 - days_30_360 d1)%Z)) as E.
  { destruct C as [-> | C]; [now apply diff_wrapping | now apply diff_checked]. }
  pose proof (days_30_360_bound d1 H1) as B1. pose proof (days_30_360_bound d2 H2) as B2.
  set (n := (days_30_360 d2 - days_30_360 d1)%Z) in *.
  exists (Bdiv mode_NE (of_int 53 1024 Hp53 He1024 n) (of_int 53 1024 Hp53 He1024 360)).
  split; [unfold thirty_360; rewrite E; reflexivity |].
  destruct (of_int_correct 53 1024 Hp53 He1024 n) as [E1 F1]; [lia | lia |].
  destruct (of_int_correct 53 1024 Hp53 He1024 360) as [E2 F2]; [lia | lia |].
  destruct (div_correct 53 1024 Hp53 He1024 (of_int 53 1024 Hp53 He1024 n) (of_int 53 1024 Hp53 He1024 360) F1) as [Ed Fd].
  - rewrite E2. lra.
  - rewrite E1, E2. apply rnd_lt_emax with 20%Z; try exact _; [lia | | left; apply quotient_range; [lia | lra]].
    unfold SpecFloat.fexp, SpecFloat.emin. lia.
  - rewrite Fd, Ed, E1, E2. split; reflexivity.
Qed.

(** The fraction is the exact one, rounded once. *)
Theorem C89_rounded_once : forall e b d1 d2, a_date d1 -> a_date d2 -> ~ earlier d2 d1 ->
  b = Wrapping \/ (month d1 <= month d2)%Z ->
  exists f : binary_float 53 1024, thirty_360 b (F64 e) d1 d2 = Ret (Ok f) /\ is_finite f = true
    /\ B2R f = to_f64 (IZR (days_30_360 d2 - days_30_360 d1) / 360).
Proof. exact thirty_f64. Qed.
Print Assumptions C89_rounded_once.

(** Rounding keeps the order of 30/360 days: a later date never gives a smaller fraction, and the fractions are equal
    only for dates that 30/360 does not tell apart, that is the 30th and 31st of one month. *)
Theorem C89_order : forall e b d1 d2 d3 (f g : binary_float 53 1024), a_date d1 -> a_date d2 -> a_date d3 ->
  thirty_360 b (F64 e) d1 d2 = Ret (Ok f) -> thirty_360 b (F64 e) d1 d3 = Ret (Ok g) -> ~ earlier d3 d2 ->
  B2R f <= B2R g
  /\ (B2R f = B2R g <-> year d2 = year d3 /\ month d2 = month d3 /\ Z.min (day d2) 30 = Z.min (day d3) 30).
Proof.
  intros e b d1 d2 d3 f g H1 H2 H3 Ef Eg O.
  assert (forall d (h : binary_float 53 1024), a_date d -> thirty_360 b (F64 e) d1 d = Ret (Ok h) ->
    B2R h = to_f64 (IZR (days_30_360 d - days_30_360 d1) / 360)) as V.
  { intros d h Hd E. assert (~ earlier d d1) as N.
    { intros C. unfold thirty_360, thirty_360_diff in E. apply date_ltb_earlier in C. rewrite C in E. discriminate. }
    assert (b = Wrapping \/ (month d1 <= month d)%Z) as C.
    { destruct b; [| now left]. right. destruct (Z_lt_ge_dec (month d) (month d1)) as [C | C]; [exfalso | lia].
      pose proof (proj2 (C22_checked_panics d1 d H1 Hd) (conj N C)) as P. unfold thirty_360 in E, P.
      destruct (thirty_360_diff Checked d1 d) as [[z | er] | |]; discriminate. }
    destruct (thirty_f64 e b d1 d H1 Hd N C) as (h' & E' & _ & W). rewrite E in E'. injection E' as <-. exact W. }
  rewrite (V d2 f H2 Ef), (V d3 g H3 Eg). clear V Ef Eg.
  pose proof (days_30_360_bound d1 H1) as B1. pose proof (days_30_360_bound d2 H2) as B2. pose proof (days_30_360_bound d3 H3) as B3.
  pose proof (days_30_360_mono d2 d3 (valid_proper _ (proj2 (valid_a_date _) H2)) (valid_proper _ (proj2 (valid_a_date _) H3)) O) as M.
  assert (days_30_360 d2 = days_30_360 d3 <-> year d2 = year d3 /\ month d2 = month d3 /\ Z.min (day d2) 30 = Z.min (day d3) 30) as Q.
  { apply valid_a_date, valid_proper in H2, H3. destruct H2 as [P1 P2], H3 as [P3 P4].
    unfold days_30_360, year, month, day in *. lia. }
  rewrite <- Q. destruct (Z.eq_dec (days_30_360 d2) (days_30_360 d3)) as [E | E].
  - rewrite E. split; [apply Rle_refl | tauto].
  - assert (to_f64 (IZR (days_30_360 d2 - days_30_360 d1) / 360) < to_f64 (IZR (days_30_360 d3 - days_30_360 d1) / 360)) as L.
    { apply to_f64_strict; [lia | lia | lra | lia]. }
    split; [lra |]. split; intros; [lra | contradiction].
Qed.
Print Assumptions C89_order.

(** Two months on: a sixth, rounded. *)
Example C89_case : forall e, exists f g : binary_float 53 1024,
  thirty_360 Checked (F64 e) (mkDate 2024 1 31) (mkDate 2024 3 30) = Ret (Ok f)
  /\ thirty_360 Checked (F64 e) (mkDate 2024 1 31) (mkDate 2024 3 31) = Ret (Ok g)
  /\ B2R f = to_f64 (60 / 360) /\ B2R g = B2R f.
Proof.
  intros e. assert (a_date (mkDate 2024 1 31) /\ a_date (mkDate 2024 3 30) /\ a_date (mkDate 2024 3 31)) as (A1 & A2 & A3)
    by (rewrite <- !valid_a_date; repeat split; reflexivity).
  destruct (C89_rounded_once e Checked _ _ A1 A2) as (f & Ef & _ & Vf); [unfold earlier; simpl; lia | right; simpl; lia |].
  destruct (C89_rounded_once e Checked _ _ A1 A3) as (g & Eg & _ & Vg); [unfold earlier; simpl; lia | right; simpl; lia |].
  exists f, g. rewrite Vf, Vg. repeat split; assumption.
Qed.

(** ** C90 *)

(** Round to nearest, ties to even, in binary32 (unbounded exponent above). *)
Definition to_f32 (x : R) : R := round radix2 (FLT_exp (-149) 24) ZnearestE x.

Lemma quotient_range_f32 n K : (Z.abs n < 8388608)%Z -> 360 <= K -> Rabs (IZR n / K) < bpow radix2 15.
Proof.
  intros Hn HK. apply IZR_lt in Hn. rewrite abs_IZR in Hn.
  unfold Rdiv. rewrite Rabs_mult, (Rabs_pos_eq (/ K)).
  2:{ left. apply Rinv_0_lt_compat. lra. }
  change (bpow radix2 15) with 32768.
  apply Rmult_lt_reg_r with K; [lra |]. rewrite Rmult_assoc, Rinv_l, Rmult_1_r by lra.
  apply Rlt_le_trans with 8388608; [exact Hn | lra].
Qed.

Lemma to_f32_error x : Rabs x < bpow radix2 15 -> Rabs (to_f32 x - x) <= bpow radix2 (-10).
Proof.
  intros Hx. destruct (Req_dec x 0) as [-> | Nz].
  - unfold to_f32. rewrite round_0 by apply valid_rnd_N. rewrite Rminus_0_r, Rabs_R0. apply bpow_ge_0.
  - eapply Rle_trans; [apply (error_le_half_ulp radix2 (FLT_exp (-149) 24) (fun z => negb (Z.even z)) x) |].
    rewrite ulp_neq_0 by exact Nz. unfold cexp, FLT_exp.
    assert (mag radix2 x <= 15)%Z as Hm by (apply mag_le_bpow; [exact Nz | exact Hx]).
    replace (bpow radix2 (-10)) with (/ 2 * bpow radix2 (-9)).
    + apply Rmult_le_compat_l; [lra |]. apply bpow_le. lia.
    + change (/ 2) with (bpow radix2 (-1)). rewrite <- bpow_plus. reflexivity.
Qed.

Lemma to_f32_strict n m K : (Z.abs n < 8388608)%Z -> (Z.abs m < 8388608)%Z -> 360 <= K <= 365 ->
  (n < m)%Z -> to_f32 (IZR n / K) < to_f32 (IZR m / K).
Proof.
  intros Hn Hm HK L.
  pose proof (to_f32_error _ (quotient_range_f32 n K Hn (proj1 HK))) as En.
  pose proof (to_f32_error _ (quotient_range_f32 m K Hm (proj1 HK))) as Em.
  assert (IZR n + 1 <= IZR m) as L' by (rewrite <- plus_IZR; apply IZR_le; lia).
  assert (IZR n / K + / 365 <= IZR m / K) as D.
  { assert (/ 365 <= / K) as I by (apply Rinv_le; lra).
    apply Rle_trans with ((IZR n + 1) * / K).
    - unfold Rdiv. lra.
    - apply Rmult_le_compat_r; [left; apply Rinv_0_lt_compat; lra | exact L']. }
  change (bpow radix2 (-10)) with (/ 1024) in En, Em.
  apply Rabs_le_inv in En, Em. lra.
Qed.

Lemma act_f32 e (c : DayCount (F32 e)) K :
  (c = act_360 (F32 e) /\ K = 360%Z \/ c = act_365 (F32 e) /\ K = 365%Z) ->
  (360 <= K <= 365)%Z /\
  forall d1 d2, (Z.abs (date_sub d2 d1) < 8388608)%Z ->
  exists f : binary_float 24 128, c d1 d2 = Ret (Ok f) /\ is_finite f = true
    /\ B2R f = to_f32 (IZR (date_sub d2 d1) / IZR K).
Proof.
  intros H. assert (360 <= K <= 365)%Z as HK by (destruct H as [[_ ->] | [_ ->]]; lia).
  split; [exact HK |]. intros d1 d2 Hr.
  exists (Bdiv mode_NE (of_int 24 128 Hp24 He128 (date_sub d2 d1)) (of_int 24 128 Hp24 He128 K)).
  split; [destruct H as [[-> ->] | [-> ->]]; reflexivity |].
  destruct (of_int_correct 24 128 Hp24 He128 (date_sub d2 d1)) as [E1 F1]; [lia | lia |].
  destruct (of_int_correct 24 128 Hp24 He128 K) as [E2 F2]; [lia | lia |].
  assert (IZR 360 <= IZR K) by (apply IZR_le; lia).
  destruct (div_correct 24 128 Hp24 He128 (of_int 24 128 Hp24 He128 (date_sub d2 d1))
    (of_int 24 128 Hp24 He128 K) F1) as [E F].
  - rewrite E2. lra.
  - rewrite E1, E2. apply rnd_lt_emax with 15%Z; try exact _; [lia | | left; now apply quotient_range_f32].
    unfold SpecFloat.fexp, SpecFloat.emin. lia.
  - rewrite F, E, E1, E2. split; reflexivity.
Qed.

(** Up to 2^23 days (about 22966 years) the fraction is finite and the exact quotient, rounded once. *)
Theorem C90_rounded_once : forall e d1 d2, (Z.abs (serial_date d2 - serial_date d1) < 2 ^ 23)%Z ->
  (exists f : binary_float 24 128, act_360 (F32 e) d1 d2 = Ret (Ok f) /\ is_finite f = true
    /\ B2R f = to_f32 (IZR (serial_date d2 - serial_date d1) / 360))
  /\ (exists f : binary_float 24 128, act_365 (F32 e) d1 d2 = Ret (Ok f) /\ is_finite f = true
    /\ B2R f = to_f32 (IZR (serial_date d2 - serial_date d1) / 365)).
Proof.
  intros e d1 d2 H. split.
  - now apply (act_f32 e (act_360 (F32 e)) 360); auto.
  - now apply (act_f32 e (act_365 (F32 e)) 365); auto.
Qed.
Print Assumptions C90_rounded_once.

(** At these distances no two dates are confused. *)
Theorem C90_strict_order : forall e c, c = act_360 (F32 e) \/ c = act_365 (F32 e) ->
  forall d1 d2 d3 (f g : binary_float 24 128), a_date d2 -> a_date d3 ->
  (Z.abs (serial_date d2 - serial_date d1) < 2 ^ 23)%Z -> (Z.abs (serial_date d3 - serial_date d1) < 2 ^ 23)%Z ->
  c d1 d2 = Ret (Ok f) -> c d1 d3 = Ret (Ok g) ->
  (earlier d2 d3 <-> B2R f < B2R g).
Proof.
  intros e c Hc d1 d2 d3 f g H2 H3 R2 R3 Ef Eg.
  assert (exists K, c = act_360 (F32 e) /\ K = 360%Z \/ c = act_365 (F32 e) /\ K = 365%Z) as [K HK].
  { destruct Hc; eauto. }
  destruct (act_f32 e c K HK) as [HK0 V].
  destruct (V d1 d2 R2) as (f' & Ef' & _ & Vf). rewrite Ef in Ef'. injection Ef' as <-.
  destruct (V d1 d3 R3) as (g' & Eg' & _ & Vg). rewrite Eg in Eg'. injection Eg' as <-.
  assert (360 <= IZR K <= 365) as HKr by (split; apply IZR_le; lia).
  change (date_sub d2 d1) with (serial_date d2 - serial_date d1)%Z in Vf.
  change (date_sub d3 d1) with (serial_date d3 - serial_date d1)%Z in Vg.
  rewrite Vf, Vg, (proj1 (C02_serial_order d2 d3 H2 H3)). split; intros L; [apply to_f32_strict; auto; lia |].
  destruct (Z.lt_trichotomy (serial_date d2) (serial_date d3)) as [C | [C | C]]; [exact C | exfalso | exfalso].
  - rewrite C in L. lra.
  - assert (to_f32 (IZR (serial_date d3 - serial_date d1) / IZR K) < to_f32 (IZR (serial_date d2 - serial_date d1) / IZR K))
      by (apply to_f32_strict; auto; lia). lra.
Qed.
Print Assumptions C90_strict_order.

(** Further apart, neighbouring days give the same fraction. *)
Theorem C90_strict_order_refuted : exists d1 d2 d3, a_date d1 /\ a_date d2 /\ a_date d3 /\ earlier d2 d3
  /\ forall e, exists f g : binary_float 24 128, act_365 (F32 e) d1 d2 = Ret (Ok f) /\ act_365 (F32 e) d1 d3 = Ret (Ok g)
     /\ B2R f = B2R g.
Proof.
  exists (mkDate 1 1 1), (mkDate 40000 1 1), (mkDate 40000 1 2).
  split; [apply valid_a_date; reflexivity |]. split; [apply valid_a_date; reflexivity |].
  split; [apply valid_a_date; reflexivity |]. split; [unfold earlier; simpl; lia |]. intros e.
  eexists. eexists. split; [reflexivity |]. split; [reflexivity |].
  rewrite <- !SF2R_B2SF. f_equal.
Qed.
Print Assumptions C90_strict_order_refuted.

(** Between any two dates the fraction is finite: the number of days and the quotient are both rounded. *)
Lemma of_int_f32 n : (Z.abs n < 2 ^ 30)%Z ->
  B2R (of_int 24 128 Hp24 He128 n) = to_f32 (IZR n) /\ is_finite (of_int 24 128 Hp24 He128 n) = true
  /\ Rabs (to_f32 (IZR n)) <= bpow radix2 30.
Proof.
  intros H. pose proof (binary_normalize_correct 24 128 Hp24 He128 mode_NE n 0 false) as C.
  assert (F2R (Float radix2 n 0) = IZR n) as F by (unfold F2R; simpl; ring).
  rewrite F in C. cbv zeta in C. change (round_mode mode_NE) with ZnearestE in C.
  change (round radix2 (SpecFloat.fexp 24 128) ZnearestE (IZR n)) with (to_f32 (IZR n)) in C.
  assert (Rabs (to_f32 (IZR n)) <= bpow radix2 30) as B.
  { apply abs_round_le_generic; [apply FLT_exp_valid; reflexivity | apply valid_rnd_N | |].
    - apply generic_format_bpow'; [apply FLT_exp_valid; reflexivity | unfold FLT_exp; lia].
    - rewrite <- abs_IZR. change (bpow radix2 30) with (IZR (2 ^ 30)). apply IZR_le. lia. }
  rewrite Rlt_bool_true in C; [tauto |]. eapply Rle_lt_trans; [exact B |]. now apply bpow_lt.
Qed.

Lemma act_f32_any e (c : DayCount (F32 e)) K :
  (c = act_360 (F32 e) /\ K = 360%Z \/ c = act_365 (F32 e) /\ K = 365%Z) ->
  forall d1 d2, a_date d1 -> a_date d2 ->
  exists f : binary_float 24 128, c d1 d2 = Ret (Ok f) /\ is_finite f = true
    /\ B2R f = to_f32 (to_f32 (IZR (serial_date d2 - serial_date d1)) / IZR K).
Proof.
  intros H d1 d2 A1 A2. assert (360 <= K <= 365)%Z as HK by (destruct H as [[_ ->] | [_ ->]]; lia).
  assert (Z.abs (date_sub d2 d1) < 2 ^ 30)%Z as Hr.
  { pose proof (serial_bounds d1 A1) as B1. pose proof (serial_bounds d2 A2) as B2.
    change MIN_SERIAL with (-95746129)%Z in *. change MAX_SERIAL with 95745399%Z in *.
    change (date_sub d2 d1) with (num_days_from_ce d2 - num_days_from_ce d1)%Z. lia. }
  exists (Bdiv mode_NE (of_int 24 128 Hp24 He128 (date_sub d2 d1)) (of_int 24 128 Hp24 He128 K)).
  split; [destruct H as [[-> ->] | [-> ->]]; reflexivity |].
  destruct (of_int_f32 (date_sub d2 d1) Hr) as (E1 & F1 & B1).
  destruct (of_int_correct 24 128 Hp24 He128 K) as [E2 F2]; [lia | lia |].
  assert (IZR 360 <= IZR K) as G by (apply IZR_le; lia).
  destruct (div_correct 24 128 Hp24 He128 (of_int 24 128 Hp24 He128 (date_sub d2 d1))
    (of_int 24 128 Hp24 He128 K) F1) as [E F].
  - rewrite E2. lra.
  - rewrite E1, E2. apply rnd_lt_emax with 30%Z; try exact _; [lia | | ].
    + unfold SpecFloat.fexp, SpecFloat.emin. lia.
    + unfold Rdiv. rewrite Rabs_mult, (Rabs_pos_eq (/ IZR K)) by (left; apply Rinv_0_lt_compat; lra).
      rewrite <- (Rmult_1_r (bpow radix2 30)). apply Rmult_le_compat; [apply Rabs_pos | left; apply Rinv_0_lt_compat; lra | exact B1 |].
      rewrite <- Rinv_1. apply Rinv_le; lra.
  - rewrite F, E, E1, E2. split; reflexivity.
Qed.

Theorem C90_rounded_twice : forall e d1 d2, a_date d1 -> a_date d2 ->
  (exists f : binary_float 24 128, act_360 (F32 e) d1 d2 = Ret (Ok f) /\ is_finite f = true
    /\ B2R f = to_f32 (to_f32 (IZR (serial_date d2 - serial_date d1)) / 360))
  /\ (exists f : binary_float 24 128, act_365 (F32 e) d1 d2 = Ret (Ok f) /\ is_finite f = true
    /\ B2R f = to_f32 (to_f32 (IZR (serial_date d2 - serial_date d1)) / 365)).
Proof.
  intros e d1 d2 A1 A2. split.
  - now apply (act_f32_any e (act_360 (F32 e)) 360); auto.
  - now apply (act_f32_any e (act_365 (F32 e)) 365); auto.
Qed.
Print Assumptions C90_rounded_twice.

(** However far apart, a later date never has a smaller fraction. *)
Theorem C90_weak_order : forall e c, c = act_360 (F32 e) \/ c = act_365 (F32 e) ->
  forall d1 d2 d3, a_date d1 -> a_date d2 -> a_date d3 -> earlier d2 d3 ->
  exists f g : binary_float 24 128, c d1 d2 = Ret (Ok f) /\ c d1 d3 = Ret (Ok g) /\ B2R f <= B2R g.
Proof.
  intros e c Hc d1 d2 d3 H1 H2 H3 L.
  assert (exists K, c = act_360 (F32 e) /\ K = 360%Z \/ c = act_365 (F32 e) /\ K = 365%Z) as [K HK].
  { destruct Hc; eauto. }
  assert (0 < IZR K) as PK by (apply IZR_lt; destruct HK as [[_ ->] | [_ ->]]; lia).
  destruct (act_f32_any e c K HK d1 d2 H1 H2) as (f & Ef & _ & Vf), (act_f32_any e c K HK d1 d3 H1 H3) as (g & Eg & _ & Vg).
  exists f, g. split; [exact Ef |]. split; [exact Eg |]. rewrite Vf, Vg.
  apply (proj1 (C02_serial_order d2 d3 H2 H3)) in L.
  assert (forall x y, x <= y -> to_f32 x <= to_f32 y) as Mono.
  { intros x y Hxy. apply round_le; [apply FLT_exp_valid; reflexivity | apply valid_rnd_N | exact Hxy]. }
  apply Mono. apply Rmult_le_compat_r; [left; now apply Rinv_0_lt_compat |]. apply Mono. apply IZR_le. lia.
Qed.
Print Assumptions C90_weak_order.

(** The years 1 to 9999 are within reach of one another. *)
Example C90_case : forall e, exists f g : binary_float 24 128,
  act_365 (F32 e) (mkDate 1 1 1) (mkDate 9999 12 30) = Ret (Ok f) /\ act_365 (F32 e) (mkDate 1 1 1) (mkDate 9999 12 31) = Ret (Ok g)
  /\ B2R f < B2R g.
Proof.
  intros e. destruct (C90_rounded_once e (mkDate 1 1 1) (mkDate 9999 12 30)) as (_ & f & Ef & _); [vm_compute; reflexivity |].
  destruct (C90_rounded_once e (mkDate 1 1 1) (mkDate 9999 12 31)) as (_ & g & Eg & _); [vm_compute; reflexivity |].
  exists f, g. split; [exact Ef |]. split; [exact Eg |].
  apply (C90_strict_order e (act_365 (F32 e)) (or_intror eq_refl) (mkDate 1 1 1) (mkDate 9999 12 30) (mkDate 9999 12 31)); auto.
  - apply valid_a_date; reflexivity.
  - apply valid_a_date; reflexivity.
  - vm_compute; reflexivity.
  - vm_compute; reflexivity.
  - unfold earlier. simpl. lia.
Qed.
