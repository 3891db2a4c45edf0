(** Property C20: Act/360 and Act/365 computed in binary64. *)
From Coq Require Import ZArith Reals Bool List Lia Lra.
From Flocq Require Import Core BinarySingleNaN.
From Verif Require Import Base Chrono Gregorian DateModel DateFacts Value FloatValue FloatFacts DayCountModel
  PropsDate.
Import ListNotations.
Open Scope R_scope.

(** Round to nearest, ties to even, in binary64 (unbounded exponent above). *)
Definition to_f64 (x : R) : R := round radix2 (FLT_exp (-1074) 53) ZnearestE x.

Lemma date_sub_range d1 d2 : a_date d1 -> a_date d2 -> (Z.abs (date_sub d2 d1) < 268435456)%Z.
Proof.
  intros H1 H2. apply valid_a_date in H1, H2. apply valid_serial in H1; [| now apply valid_proper].
  apply valid_serial in H2; [| now apply valid_proper].
  unfold date_sub, diff_days. unfold MIN_SERIAL, MAX_SERIAL in *.
  assert (- 100000000 < num_days_from_ce MIN_DATE)%Z as E1 by reflexivity.
  assert (num_days_from_ce MAX_DATE < 100000000)%Z as E2 by reflexivity.
  lia.
Qed.

Lemma quotient_range n K : (Z.abs n < 268435456)%Z -> 360 <= K -> Rabs (IZR n / K) < bpow radix2 20.
Proof.
  intros Hn HK. apply IZR_lt in Hn. rewrite abs_IZR in Hn.
  unfold Rdiv. rewrite Rabs_mult, (Rabs_pos_eq (/ K)).
  2:{ left. apply Rinv_0_lt_compat. lra. }
  change (bpow radix2 20) with 1048576.
  apply Rmult_lt_reg_r with K; [lra |]. rewrite Rmult_assoc, Rinv_l, Rmult_1_r by lra.
  apply Rlt_le_trans with 268435456; [exact Hn | lra].
Qed.

Lemma act_f64 e (c : DayCount (F64 e)) K :
  (c = act_360 (F64 e) /\ K = 360%Z \/ c = act_365 (F64 e) /\ K = 365%Z) ->
  (360 <= K <= 365)%Z /\
  forall d1 d2, a_date d1 -> a_date d2 ->
  exists f : binary_float 53 1024, c d1 d2 = Ret (Ok f) /\ is_finite f = true
    /\ B2R f = to_f64 (IZR (date_sub d2 d1) / IZR K).
Proof.
  intros H. assert (360 <= K <= 365)%Z as HK by (destruct H as [[_ ->] | [_ ->]]; lia).
  split; [exact HK |]. intros d1 d2 H1 H2.
  exists (Bdiv mode_NE (of_int 53 1024 Hp53 He1024 (date_sub d2 d1)) (of_int 53 1024 Hp53 He1024 K)).
  split; [destruct H as [[-> ->] | [-> ->]]; reflexivity |].
  pose proof (date_sub_range d1 d2 H1 H2) as Hr.
  destruct (of_int_correct 53 1024 Hp53 He1024 (date_sub d2 d1)) as [E1 F1]; [lia | lia |].
  destruct (of_int_correct 53 1024 Hp53 He1024 K) as [E2 F2]; [lia | lia |].
  assert (IZR 360 <= IZR K) by (apply IZR_le; lia).
  destruct (div_correct 53 1024 Hp53 He1024 (of_int 53 1024 Hp53 He1024 (date_sub d2 d1))
    (of_int 53 1024 Hp53 He1024 K) F1) as [E F].
  - rewrite E2. lra.
  - rewrite E1, E2. apply rnd_lt_emax with 20%Z; try exact _; [lia | | left; now apply quotient_range].
    unfold SpecFloat.fexp, SpecFloat.emin. lia.
  - rewrite F, E, E1, E2. split; reflexivity.
Qed.

(** The result is finite and is the exact quotient, rounded once. *)
Theorem C20_rounded_once : forall e d1 d2, a_date d1 -> a_date d2 ->
  (exists f : binary_float 53 1024, act_360 (F64 e) d1 d2 = Ret (Ok f) /\ is_finite f = true
    /\ B2R f = to_f64 (IZR (serial_date d2 - serial_date d1) / 360))
  /\ (exists f : binary_float 53 1024, act_365 (F64 e) d1 d2 = Ret (Ok f) /\ is_finite f = true
    /\ B2R f = to_f64 (IZR (serial_date d2 - serial_date d1) / 365)).
Proof.
  intros e d1 d2 H1 H2. split.
  - now apply (act_f64 e (act_360 (F64 e)) 360); auto.
  - now apply (act_f64 e (act_365 (F64 e)) 365); auto.
Qed.
Print Assumptions C20_rounded_once.

Lemma to_f64_error x : Rabs x < bpow radix2 20 -> Rabs (to_f64 x - x) <= bpow radix2 (-34).
Proof.
  intros Hx. destruct (Req_dec x 0) as [-> | Nz].
  - unfold to_f64. rewrite round_0 by apply valid_rnd_N. rewrite Rminus_0_r, Rabs_R0. apply bpow_ge_0.
  - eapply Rle_trans; [apply (error_le_half_ulp radix2 (FLT_exp (-1074) 53) (fun z => negb (Z.even z)) x) |].
    rewrite ulp_neq_0 by exact Nz. unfold cexp, FLT_exp.
    assert (mag radix2 x <= 20)%Z as Hm by (apply mag_le_bpow; [exact Nz | exact Hx]).
    replace (bpow radix2 (-34)) with (/ 2 * bpow radix2 (-33)).
    + apply Rmult_le_compat_l; [lra |]. apply bpow_le. lia.
    + change (/ 2) with (bpow radix2 (-1)). rewrite <- bpow_plus. reflexivity.
Qed.

Lemma to_f64_strict n m K : (Z.abs n < 268435456)%Z -> (Z.abs m < 268435456)%Z -> 360 <= K <= 365 ->
  (n < m)%Z -> to_f64 (IZR n / K) < to_f64 (IZR m / K).
Proof.
  intros Hn Hm HK L.
  pose proof (to_f64_error _ (quotient_range n K Hn (proj1 HK))) as En.
  pose proof (to_f64_error _ (quotient_range m K Hm (proj1 HK))) as Em.
  assert (IZR n + 1 <= IZR m) as L' by (rewrite <- plus_IZR; apply IZR_le; lia).
  assert (IZR n / K + / 365 <= IZR m / K) as D.
  { assert (/ 365 <= / K) as I by (apply Rinv_le; lra).
    apply Rle_trans with ((IZR n + 1) * / K).
    - unfold Rdiv. lra.
    - apply Rmult_le_compat_r; [left; apply Rinv_0_lt_compat; lra | exact L']. }
  assert (bpow radix2 (-34) <= / 1000) as B.
  { change (bpow radix2 (-34)) with (/ 17179869184). apply Rinv_le; lra. }
  apply Rabs_le_inv in En, Em. lra.
Qed.

(** Rounding loses nothing: the binary64 fraction orders dates exactly, is antisymmetric, and is zero only
    for equal dates. *)
Theorem C20_strict_order : forall e c, c = act_360 (F64 e) \/ c = act_365 (F64 e) ->
  exists f : Date -> Date -> binary_float 53 1024,
    (forall d1 d2, c d1 d2 = Ret (Ok (f d1 d2)))
    /\ (forall d1 d2 d3, a_date d1 -> a_date d2 -> a_date d3 ->
          (earlier d2 d3 <-> B2R (f d1 d2) < B2R (f d1 d3)))
    /\ (forall d1 d2, a_date d1 -> a_date d2 -> B2R (f d2 d1) = - B2R (f d1 d2))
    /\ (forall d1 d2, a_date d1 -> a_date d2 -> (B2R (f d1 d2) = 0 <-> d1 = d2)).
Proof.
  intros e c Hc.
  assert (exists K, c = act_360 (F64 e) /\ K = 360%Z \/ c = act_365 (F64 e) /\ K = 365%Z) as [K HK].
  { destruct Hc; eauto. }
  destruct (act_f64 e c K HK) as [HK0 V].
  exists (fun d1 d2 => Bdiv mode_NE (of_int 53 1024 Hp53 He1024 (date_sub d2 d1)) (of_int 53 1024 Hp53 He1024 K)).
  assert (forall d1 d2, c d1 d2 = Ret (Ok (Bdiv mode_NE (of_int 53 1024 Hp53 He1024 (date_sub d2 d1)) (of_int 53 1024 Hp53 He1024 K)))) as E.
  { intros d1 d2. destruct HK as [[-> ->] | [-> ->]]; reflexivity. }
  assert (forall d1 d2, a_date d1 -> a_date d2 ->
    B2R (Bdiv mode_NE (of_int 53 1024 Hp53 He1024 (date_sub d2 d1)) (of_int 53 1024 Hp53 He1024 K))
    = to_f64 (IZR (date_sub d2 d1) / IZR K)) as W.
  { intros d1 d2 H1 H2. destruct (V d1 d2 H1 H2) as (f & Ef & _ & Vf). rewrite E in Ef.
    injection Ef as <-. exact Vf. }
  assert (360 <= IZR K <= 365) as HKr by (split; apply IZR_le; lia).
  split; [exact E |]. split; [| split].
  - intros d1 d2 d3 H1 H2 H3. rewrite !W by assumption.
    pose proof (date_sub_range d1 d2 H1 H2) as R2. pose proof (date_sub_range d1 d3 H1 H3) as R3.
    rewrite (proj1 (C02_serial_order d2 d3 H2 H3)).
    assert (serial_date d2 < serial_date d3 <-> date_sub d2 d1 < date_sub d3 d1)%Z as ->.
    { unfold serial_date, date_sub, diff_days. lia. }
    split; intros L; [now apply to_f64_strict |].
    destruct (Z.lt_trichotomy (date_sub d2 d1) (date_sub d3 d1)) as [C | [C | C]]; [exact C | exfalso | exfalso].
    + rewrite C in L. lra.
    + pose proof (to_f64_strict _ _ (IZR K) R3 R2 HKr C). lra.
  - intros d1 d2 H1 H2. rewrite !W by assumption. unfold to_f64. rewrite <- round_NE_opp. f_equal.
    unfold date_sub, diff_days. rewrite !minus_IZR. field. lra.
  - intros d1 d2 H1 H2. rewrite !W by assumption.
    pose proof (date_sub_range d1 d2 H1 H2) as R2.
    assert (to_f64 (IZR 0 / IZR K) = 0) as Z0.
    { replace (IZR 0 / IZR K) with 0 by (field; lra). apply round_0. apply valid_rnd_N. }
    rewrite (proj2 (C02_serial_order d1 d2 H1 H2)).
    assert (serial_date d1 = serial_date d2 <-> date_sub d2 d1 = 0)%Z as ->.
    { unfold serial_date, date_sub, diff_days. lia. }
    split; intros L.
    + destruct (Z.lt_trichotomy (date_sub d2 d1) 0) as [C | [C | C]]; [exfalso | exact C | exfalso].
      * pose proof (to_f64_strict _ 0 (IZR K) R2 ltac:(lia) HKr C). lra.
      * pose proof (to_f64_strict 0 _ (IZR K) ltac:(lia) R2 HKr C). lra.
    + rewrite L. exact Z0.
Qed.
Print Assumptions C20_strict_order.

(** One year of 365 days is 1.0 in binary64, whatever the exponential. *)
Example C20_case : forall e, a_date (mkDate 2023 1 1) /\ a_date (mkDate 2024 1 1) /\
  exists f : binary_float 53 1024,
    act_365 (F64 e) (mkDate 2023 1 1) (mkDate 2024 1 1) = Ret (Ok f)
    /\ B2SF f = B2SF (of_int 53 1024 Hp53 He1024 1).
Proof.
  intros e. split; [now apply valid_a_date |]. split; [now apply valid_a_date |].
  eexists. split; [reflexivity |]. vm_compute. reflexivity.
Qed.
