(** Property C108: discount factors and bond values against exact arithmetic in every binary format at least as wide as binary32. *)
From Coq Require Import String ZArith Reals Bool List Arith Lia Lra Psatz.
From Flocq Require Import Core BinarySingleNaN Relative.
From Verif Require Import Base Chrono Gregorian DateModel DateFacts Value RealValue FloatValue FloatFacts DayCountModel InterpModel InterpFacts Grid
  CurveModel BondModel PropsDate PropsDayCount PropsDayCountFloat PropsLinear PropsCurve PropsBond PropsFloatKnots PropsFloatLinear PropsCurveFloat
  PropsBondFloat.
From Verif Require Import PropsCatmullRom PropsShift PropsSplineFloat PropsCurveError PropsCurveErrorSpline NcError PropsNaturalCubic PropsFloat PropsNcFloat PropsCurveErrorNatural.
From Verif Require PropsNcStability.
Import ListNotations.
Open Scope R_scope.

Section Any.
Variables (prec emax : Z) (Hp : Prec_gt_0 prec) (He : Prec_lt_emax prec emax).
Hypothesis fmt : (24 <= prec)%Z /\ (128 <= emax)%Z.
Notation fl := (binary_float prec emax).
Notation un := (bpow radix2 (- prec)).

Lemma u_pos : 0 < un.
Proof. apply bpow_gt_0. Qed.

Lemma u_small : un <= / 16777216.
Proof. destruct fmt. change (/ 16777216) with (bpow radix2 (-24)). apply bpow_le. lia. Qed.

(** Yields lie between [2 ^ -EL] and [2 ^ EL]. *)
Variable EL : Z.
Hypothesis HLe : (0 <= EL /\ EL + 40 <= emax)%Z.

(** ** Operations that do not overflow *)

Lemma rnd_small r k : (0 <= k < emax)%Z -> Rabs r <= bpow radix2 k ->
  Rabs (rnd prec emax r) <= bpow radix2 k /\ Rlt_bool (Rabs (rnd prec emax r)) (bpow radix2 emax) = true.
Proof.
  intros Hk H. assert (Rabs (rnd prec emax r) <= bpow radix2 k) as B.
  { apply abs_round_le_generic; [apply fexp_correct; exact Hp | apply valid_rnd_N | | exact H].
    apply generic_format_bpow'; [apply fexp_correct; exact Hp | unfold SpecFloat.fexp, SpecFloat.emin; lia]. }
  split; [exact B |]. apply Rlt_bool_true. eapply Rle_lt_trans; [exact B | apply bpow_lt; lia].
Qed.

Lemma safe_plus (a b : fl) k : is_finite a = true -> is_finite b = true -> (0 <= k < emax)%Z -> Rabs (B2R a + B2R b) <= bpow radix2 k ->
  is_finite (Bplus (prec_gt_0_ := Hp) (prec_lt_emax_ := He) mode_NE a b) = true
  /\ Rabs (B2R (Bplus (prec_gt_0_ := Hp) (prec_lt_emax_ := He) mode_NE a b)) <= bpow radix2 k.
Proof.
  intros Fa Fb Hk H. destruct (rnd_small _ k Hk H) as (B & O). pose proof (Bplus_correct prec emax Hp He mode_NE a b Fa Fb) as C.
  change (round_mode mode_NE) with ZnearestE in C. fold (rnd prec emax (B2R a + B2R b)) in C. rewrite O in C.
  destruct C as (E & F & _). split; [exact F | now rewrite E].
Qed.

Lemma safe_minus (a b : fl) k : is_finite a = true -> is_finite b = true -> (0 <= k < emax)%Z -> Rabs (B2R a - B2R b) <= bpow radix2 k ->
  is_finite (Bminus (prec_gt_0_ := Hp) (prec_lt_emax_ := He) mode_NE a b) = true
  /\ B2R (Bminus (prec_gt_0_ := Hp) (prec_lt_emax_ := He) mode_NE a b) = rnd prec emax (B2R a - B2R b)
  /\ Rabs (B2R (Bminus (prec_gt_0_ := Hp) (prec_lt_emax_ := He) mode_NE a b)) <= bpow radix2 k.
Proof.
  intros Fa Fb Hk H. destruct (rnd_small _ k Hk H) as (B & O). pose proof (Bminus_correct prec emax Hp He mode_NE a b Fa Fb) as C.
  change (round_mode mode_NE) with ZnearestE in C. fold (rnd prec emax (B2R a - B2R b)) in C. rewrite O in C.
  destruct C as (E & F & _). split; [exact F |]. split; [exact E | now rewrite E].
Qed.

Lemma safe_mult (a b : fl) k : is_finite a = true -> is_finite b = true -> (0 <= k < emax)%Z -> Rabs (B2R a * B2R b) <= bpow radix2 k ->
  is_finite (Bmult (prec_gt_0_ := Hp) (prec_lt_emax_ := He) mode_NE a b) = true
  /\ Rabs (B2R (Bmult (prec_gt_0_ := Hp) (prec_lt_emax_ := He) mode_NE a b)) <= bpow radix2 k.
Proof.
  intros Fa Fb Hk H. destruct (rnd_small _ k Hk H) as (B & O). pose proof (Bmult_correct prec emax Hp He mode_NE a b) as C.
  change (round_mode mode_NE) with ZnearestE in C. fold (rnd prec emax (B2R a * B2R b)) in C. rewrite O in C.
  destruct C as (E & F & _). split; [now rewrite F, Fa, Fb | now rewrite E].
Qed.

Lemma safe_div (a b : fl) k : is_finite a = true -> B2R b <> 0 -> (0 <= k < emax)%Z -> Rabs (B2R a / B2R b) <= bpow radix2 k ->
  is_finite (Bdiv (prec_gt_0_ := Hp) (prec_lt_emax_ := He) mode_NE a b) = true
  /\ Rabs (B2R (Bdiv (prec_gt_0_ := Hp) (prec_lt_emax_ := He) mode_NE a b)) <= bpow radix2 k.
Proof.
  intros Fa Nb Hk H. destruct (rnd_small _ k Hk H) as (B & O). pose proof (Bdiv_correct prec emax Hp He mode_NE a b Nb) as C.
  change (round_mode mode_NE) with ZnearestE in C. fold (rnd prec emax (B2R a / B2R b)) in C. rewrite O in C.
  destruct C as (E & F & _). split; [now rewrite F | now rewrite E].
Qed.

Lemma twice k : bpow radix2 k + bpow radix2 k = bpow radix2 (k + 1).
Proof. rewrite bpow_plus. change (bpow radix2 1) with 2. ring. Qed.

(** The six operations of linear interpolation. *)
Lemma lform_safe (x x0 y0 x1 y1 : fl) :
  is_finite x = true -> is_finite x0 = true -> is_finite y0 = true -> is_finite x1 = true -> is_finite y1 = true ->
  Rabs (B2R y0) <= bpow radix2 EL -> Rabs (B2R y1) <= bpow radix2 EL ->
  B2R x0 <= B2R x <= B2R x1 -> bpow radix2 (-10) <= B2R x1 - B2R x0 <= bpow radix2 21 ->
  is_finite (Bminus (prec_gt_0_ := Hp) (prec_lt_emax_ := He) mode_NE x1 x0) = true
  /\ is_finite (lform prec emax Hp He x x0 y0 x1 y1) = true.
Proof.
  intros Fx F0 G0 F1 G1 Y0 Y1 Hx Hh. apply Rabs_le_inv in Y0, Y1. pose proof (bpow_gt_0 radix2 EL) as PL. pose proof fmt as (F24 & F128).
  pose proof (bpow_gt_0 radix2 (-10)) as P10.
  destruct (safe_minus y1 y0 (EL + 1) G1 G0 ltac:(lia)) as (FD & _ & BD).
  { rewrite <- (twice EL). apply Rabs_le. lra. }
  destruct (safe_minus x1 x0 21 F1 F0 ltac:(lia)) as (FH & EH & BH).
  { apply Rabs_le. lra. }
  split; [exact FH |].
  assert (bpow radix2 (-10) <= B2R (Bminus (prec_gt_0_ := Hp) (prec_lt_emax_ := He) mode_NE x1 x0)) as LH.
  { rewrite EH. apply round_ge_generic; [apply fexp_correct; exact Hp | apply valid_rnd_N | | lra].
    apply generic_format_bpow'; [apply fexp_correct; exact Hp | unfold SpecFloat.fexp, SpecFloat.emin; lia]. }
  destruct (safe_minus x x0 21 Fx F0 ltac:(lia)) as (FT & _ & BT).
  { apply Rabs_le. lra. }
  assert (B2R (Bminus (prec_gt_0_ := Hp) (prec_lt_emax_ := He) mode_NE x1 x0) <> 0) as NH by lra.
  destruct (safe_div _ _ (EL + 1 + 10) FD NH ltac:(lia)) as (FQ & BQ).
  { unfold Rdiv. rewrite Rabs_mult, Rabs_inv. rewrite (bpow_plus radix2 (EL + 1) 10).
    apply Rmult_le_compat; [apply Rabs_pos | left; apply Rinv_0_lt_compat; rewrite Rabs_pos_eq; lra | exact BD |].
    change (bpow radix2 10) with (bpow radix2 (- -10)). rewrite bpow_opp. apply Rinv_le; [exact P10 |]. rewrite Rabs_pos_eq; lra. }
  destruct (safe_mult _ _ (EL + 1 + 10 + 21) FQ FT ltac:(lia)) as (FP & BP).
  { rewrite Rabs_mult. rewrite (bpow_plus radix2 (EL + 1 + 10) 21). apply Rmult_le_compat; auto using Rabs_pos. }
  unfold lform. apply (safe_plus _ _ (EL + 1 + 10 + 21 + 1) G0 FP ltac:(lia)). rewrite <- (twice (EL + 1 + 10 + 21)).
  assert (bpow radix2 EL <= bpow radix2 (EL + 1 + 10 + 21)) by (apply bpow_le; lia). apply Rabs_le_inv in BP. apply Rabs_le. lra.
Qed.

(** ** Specification *)

(** [e] computes the exponential with relative error at most [eps] on finite arguments up to [X]. *)
Definition accurate_at (e : fl -> fl) (X eps : R) : Prop :=
  forall x, is_finite x = true -> Rabs (B2R x) <= X -> is_finite (e x) = true /\ Rabs (B2R (e x) - exp (B2R x)) <= eps * exp (B2R x).

(** Finite yields of size at most [Y]. *)
Definition sized_at (ys : list fl) (Y : R) : Prop := forall y, In y ys -> is_finite y = true /\ Rabs (B2R y) <= Y.

(** The same day count in both arithmetics, and its days per year. *)
Definition counts_at e (D : DayCount (FV prec emax Hp He e)) (D' : DayCount RV) (K : Z) : Prop :=
  D = act_360 (FV prec emax Hp He e) /\ D' = act_360 RV /\ K = 360%Z \/ D = act_365 (FV prec emax Hp He e) /\ D' = act_365 RV /\ K = 365%Z.

(** A date whose distance from [s] the format tells apart from that of every other such date. *)
Definition counted (s d : Date) : Prop := a_date d /\ (Z.abs (serial_date d - serial_date s) < 2 ^ (prec - 1))%Z.

(** ** Times *)

Section Times.
Variables (e : fl -> fl) (D : DayCount (FV prec emax Hp He e)) (D' : DayCount RV) (K : Z) (s : Date).
Hypothesis HD : counts_at e D D' K.
Hypothesis Hs : a_date s.

Definition tf (d : Date) : fl := Bdiv mode_NE (of_int prec emax Hp He (date_sub d s)) (of_int prec emax Hp He K).
Definition tr (d : Date) : R := IZR (date_sub d s) / IZR K.

Lemma K_range : (360 <= K <= 365)%Z.
Proof. destruct HD as [(_ & _ & ->) | (_ & _ & ->)]; lia. Qed.

Lemma count_f d : D s d = Ret (Ok (tf d)).
Proof. unfold tf. destruct HD as [(-> & _ & ->) | (-> & _ & ->)]; reflexivity. Qed.
Lemma count_r d : D' s d = Ret (Ok (tr d)).
Proof. unfold tr. destruct HD as [(_ & -> & ->) | (_ & -> & ->)]; reflexivity. Qed.

Lemma K_reals : 360 <= IZR K <= 365.
Proof. pose proof K_range. split; apply IZR_le; lia. Qed.

Lemma tr_small d : a_date d -> Rabs (tr d) <= bpow radix2 20.
Proof.
  intros A. left. apply quotient_range; [apply date_sub_range; [exact Hs | exact A] |]. apply K_reals.
Qed.

Lemma tf_value d : counted s d -> is_finite (tf d) = true /\ B2R (tf d) = rnd prec emax (tr d).
Proof.
  intros (A & C). pose proof fmt as (F24 & F128). pose proof K_range as HK. pose proof K_reals as HKr.
  assert (2 ^ 24 <= 2 ^ prec)%Z as P24 by (apply Z.pow_le_mono_r; lia). change (2 ^ 24)%Z with 16777216%Z in P24.
  assert (2 ^ (prec - 1) <= 2 ^ prec)%Z as P1 by (apply Z.pow_le_mono_r; lia).
  destruct (of_int_correct prec emax Hp He (date_sub d s)) as (E1 & F1); [unfold date_sub, diff_days, serial_date in *; lia | lia |].
  destruct (of_int_correct prec emax Hp He K) as (E2 & F2); [lia | lia |].
  assert (B2R (of_int prec emax Hp He K) <> 0) as N by (rewrite E2; lra).
  pose proof (Bdiv_correct prec emax Hp He mode_NE (of_int prec emax Hp He (date_sub d s)) (of_int prec emax Hp He K) N) as B.
  change (round_mode mode_NE) with ZnearestE in B. rewrite E1, E2 in B. fold (tr d) in B. fold (rnd prec emax (tr d)) in B.
  rewrite (proj2 (rnd_small (tr d) 20 ltac:(lia) (tr_small d A))) in B. destruct B as (E & F & _). fold (tf d) in E, F. rewrite F. auto.
Qed.

Lemma tf_near d : counted s d -> Rabs (B2R (tf d) - tr d) <= un * Rabs (tr d).
Proof.
  intros C. rewrite (proj2 (tf_value d C)). unfold tr. pose proof K_reals as HK. pose proof fmt as (F24 & F128).
  destruct (Z.eq_dec (date_sub d s) 0) as [-> | N].
  - unfold Rdiv. rewrite Rmult_0_l. unfold rnd. rewrite round_0 by apply valid_rnd_N. rewrite Rminus_0_r, Rabs_R0. lra.
  - unfold rnd. eapply Rle_trans.
    + apply (relative_error_N_FLT radix2 (3 - emax - prec) prec Hp (fun z => negb (Z.even z))). unfold Rdiv. rewrite Rabs_mult, Rabs_inv, (Rabs_pos_eq (IZR K)) by lra.
      assert (1 <= Rabs (IZR (date_sub d s))) as Ln by (rewrite <- abs_IZR; apply IZR_le; lia).
      apply Rle_trans with (1 * / 365).
      * apply Rle_trans with (bpow radix2 (-10)); [apply bpow_le; lia |]. change (bpow radix2 (-10)) with (/ 1024). lra.
      * apply Rmult_le_compat; [lra | lra | exact Ln | apply Rinv_le; lra].
    + right. replace (- prec + 1)%Z with (1 + - prec)%Z by ring. rewrite bpow_plus. change (bpow radix2 1) with 2. field.
Qed.

Lemma tf_order d d' : counted s d -> counted s d' -> (tr d < tr d' -> B2R (tf d) < B2R (tf d')).
Proof.
  intros C C' L0. pose proof (tf_near d C) as N. pose proof (tf_near d' C') as N'. pose proof K_reals as HK. pose proof fmt as (F24 & F128).
  assert (forall d, counted s d -> un * Rabs (tr d) < / 2 * / IZR K) as Sm.
  { intros d0 (_ & C0). unfold tr, Rdiv. rewrite Rabs_mult, Rabs_inv, (Rabs_pos_eq (IZR K)), <- Rmult_assoc by lra.
    apply Rmult_lt_compat_r; [apply Rinv_0_lt_compat; lra |]. rewrite <- abs_IZR. apply IZR_lt in C0.
    change 2%Z with (radix_val radix2) in C0. rewrite IZR_Zpower in C0 by lia.
    apply Rlt_le_trans with (un * bpow radix2 (prec - 1)); [apply Rmult_lt_compat_l; [apply u_pos | exact C0] |].
    rewrite <- bpow_plus. replace (- prec + (prec - 1))%Z with (-1)%Z by lia. change (bpow radix2 (-1)) with (/ 2). lra. }
  pose proof (Sm d C) as S. pose proof (Sm d' C') as S'.
  assert (tr d + / IZR K <= tr d') as G.
  { unfold tr, Rdiv in L0 |- *. apply Rmult_lt_reg_r in L0; [| apply Rinv_0_lt_compat; lra]. apply lt_IZR in L0.
    assert (IZR (date_sub d s + 1) <= IZR (date_sub d' s)) as Q by (apply IZR_le; lia). rewrite plus_IZR in Q.
    apply (Rmult_le_compat_r (/ IZR K)) in Q; [lra | left; apply Rinv_0_lt_compat; lra]. }
  apply Rabs_le_inv in N, N'. lra.
Qed.
End Times.

Section Exponents.
Variable Y : R.
Hypothesis HY : bpow radix2 (- EL) <= Y <= bpow radix2 EL.

(** ** Exponents *)

Lemma product_near (th yh : fl) (t y q : R) : is_finite th = true -> is_finite yh = true -> Rabs (B2R th - t) <= un * Rabs t ->
  Rabs t <= bpow radix2 20 -> Rabs (B2R yh - y) <= un * Y * q -> Rabs y <= Y -> 14 <= q /\ un * q <= 0.02 ->
  let x := Bmult (prec_gt_0_ := Hp) (prec_lt_emax_ := He) mode_NE th yh in
  is_finite x = true /\ Rabs (B2R x - t * y) <= un * Y * (Rabs t * (q + 3) + 1) /\ Rabs (B2R x) <= Y * (1.03 * Rabs t + 0.002).
Proof.
  intros Ft Fy Ht Hb Hy Yb Hq x. pose proof (bpow_gt_0 radix2 (- EL)) as PE.
  pose proof (Rabs_pos t) as Pt. pose proof fmt as (F24 & F128). pose proof u_pos as Pu. pose proof u_small as Su.
  destruct Hq as (Hq & Huq).
  assert (Rabs (B2R th) <= Rabs t + un * Rabs t) as Bt.
  { replace (B2R th) with (t + (B2R th - t)) by ring. eapply Rle_trans; [apply Rabs_triang | lra]. }
  assert (Rabs (B2R yh) <= 1.02 * Y) as By.
  { replace (B2R yh) with (y + (B2R yh - y)) by ring. eapply Rle_trans; [apply Rabs_triang |]. 
    assert (un * Y * q <= 0.02 * Y) by (replace (un * Y * q) with (un * q * Y) by ring; apply Rmult_le_compat_r; lra). lra. }
  assert (Rabs (B2R th) <= 1.001 * Rabs t) as Bt' by (assert (un * Rabs t <= 0.0001 * Rabs t) by (apply Rmult_le_compat_r; lra); lra).
  assert (Rabs (B2R th * B2R yh) <= 1.022 * (Rabs t * Y)) as BP.
  { rewrite Rabs_mult. apply Rle_trans with (1.001 * Rabs t * (1.02 * Y)); [apply Rmult_le_compat; auto using Rabs_pos |].
    assert (0 <= Rabs t * Y) by (apply Rmult_le_pos; lra). lra. }
  assert (Rabs t * Y <= bpow radix2 (20 + EL)) as Bty.
  { rewrite bpow_plus. apply Rmult_le_compat; lra. }
  destruct (safe_mult th yh (20 + EL + 1) Ft Fy ltac:(lia)) as (Fx & _).
  { rewrite <- twice. pose proof (bpow_gt_0 radix2 (20 + EL)). lra. }
  fold x in Fx. split; [exact Fx |].
  destruct (mult_error prec emax Hp He th yh Fx) as (_ & _ & d & n & Hd & Hn & Ex). fold x in Ex. change (unit_roundoff prec) with un in Hd.
  assert (half_tiny prec emax <= un * Y * 0.001) as Tiny.
  { apply Rle_trans with (un * bpow radix2 (- EL) * bpow radix2 (-10)).
    - unfold half_tiny. rewrite <- !bpow_plus. apply bpow_le. lia.
    - apply Rmult_le_compat; [| apply bpow_ge_0 | apply Rmult_le_compat_l; lra | change (bpow radix2 (-10)) with (/ 1024); lra].
      apply Rmult_le_pos; [lra | apply bpow_ge_0]. }
  assert (0 <= un * Y) as PuY by (apply Rmult_le_pos; lra).
  assert (Rabs (B2R th * B2R yh - t * y) <= un * Y * (Rabs t * (q + 1.03))) as E1.
  { replace (B2R th * B2R yh - t * y) with (B2R th * (B2R yh - y) + (B2R th - t) * y) by ring.
    eapply Rle_trans; [apply Rabs_triang |]. rewrite !Rabs_mult.
    assert (Rabs (B2R th) * Rabs (B2R yh - y) <= (Rabs t + un * Rabs t) * (un * Y * q)) by (apply Rmult_le_compat; auto using Rabs_pos).
    assert (Rabs (B2R th - t) * Rabs y <= un * Rabs t * Y) by (apply Rmult_le_compat; auto using Rabs_pos).
    assert (un * Rabs t * (un * Y * q) <= un * Y * Rabs t * 0.02).
    { replace (un * Rabs t * (un * Y * q)) with (un * Y * Rabs t * (un * q)) by ring. apply Rmult_le_compat_l; [| exact Huq].
      apply Rmult_le_pos; lra. }
    assert (0 <= un * Y * Rabs t) by (apply Rmult_le_pos; lra). lra. }
  assert (Rabs (B2R x - B2R th * B2R yh) <= un * Y * (1.022 * Rabs t + 0.001)) as E2.
  { rewrite Ex. replace (B2R th * B2R yh * (1 + d) + n - B2R th * B2R yh) with (B2R th * B2R yh * d + n) by ring.
    eapply Rle_trans; [apply Rabs_triang |]. rewrite Rabs_mult.
    assert (Rabs (B2R th * B2R yh) * Rabs d <= 1.022 * (Rabs t * Y) * un) by (apply Rmult_le_compat; auto using Rabs_pos). lra. }
  assert (0 <= un * Y * Rabs t) as P3 by (apply Rmult_le_pos; lra).
  split.
  - replace (B2R x - t * y) with ((B2R x - B2R th * B2R yh) + (B2R th * B2R yh - t * y)) by ring.
    eapply Rle_trans; [apply Rabs_triang |]. lra.
  - replace (B2R x) with ((B2R x - B2R th * B2R yh) + B2R th * B2R yh) by ring. eapply Rle_trans; [apply Rabs_triang |].
    assert (un * Y * (1.022 * Rabs t + 0.001) <= 0.001 * Y * (1.022 * Rabs t + 0.001)).
    { apply Rmult_le_compat_r; [lra |]. apply Rmult_le_compat_r; lra. }
    assert (0 <= Rabs t * Y) by (apply Rmult_le_pos; lra). lra.
Qed.

Lemma difference_near (x1 x2 : fl) (t1 t2 z1 z2 q : R) : is_finite x1 = true -> is_finite x2 = true -> 14 <= q -> 0 <= t1 <= bpow radix2 20 -> 0 <= t2 <= bpow radix2 20 ->
  Rabs (B2R x1 - z1) <= un * Y * (t1 * (q + 3) + 1) -> Rabs (B2R x2 - z2) <= un * Y * (t2 * (q + 3) + 1) ->
  Rabs (B2R x1) <= Y * (1.03 * t1 + 0.002) -> Rabs (B2R x2) <= Y * (1.03 * t2 + 0.002) ->
  let x := Bminus (prec_gt_0_ := Hp) (prec_lt_emax_ := He) mode_NE x1 x2 in
  is_finite x = true /\ Rabs (B2R x - (z1 - z2)) <= un * Y * ((q + 5) * (t1 + t2) + 3).
Proof.
  intros F1 F2 Hq T1 T2 E1 E2 B1 B2 x. pose proof (bpow_gt_0 radix2 (- EL)) as PE. pose proof u_pos as Pu. pose proof fmt as (F24 & F128).
  assert (Rabs (B2R x1 - B2R x2) <= Y * (1.03 * (t1 + t2) + 0.004)) as Bd.
  { unfold Rminus. eapply Rle_trans; [apply Rabs_triang |]. rewrite Rabs_Ropp. lra. }
  destruct (safe_minus x1 x2 (EL + 22) F1 F2 ltac:(lia)) as (Fx & _).
  { eapply Rle_trans; [exact Bd |]. rewrite bpow_plus. change (bpow radix2 20) with 1048576 in T1, T2.
    change (bpow radix2 22) with 4194304. apply Rmult_le_compat; lra. }
  split; [exact Fx |]. destruct (minus_error prec emax Hp He x1 x2 Fx) as (_ & _ & d & Hd & Ex). fold x in Ex. change (unit_roundoff prec) with un in Hd.
  rewrite Ex. replace ((B2R x1 - B2R x2) * (1 + d) - (z1 - z2)) with ((B2R x1 - z1) - (B2R x2 - z2) + (B2R x1 - B2R x2) * d) by ring.
  eapply Rle_trans; [apply Rabs_triang |]. rewrite Rabs_mult.
  assert (Rabs (B2R x1 - z1 - (B2R x2 - z2)) <= un * Y * (t1 * (q + 3) + 1) + un * Y * (t2 * (q + 3) + 1)).
  { unfold Rminus at 1. eapply Rle_trans; [apply Rabs_triang |]. rewrite Rabs_Ropp. lra. }
  assert (Rabs (B2R x1 - B2R x2) * Rabs d <= Y * (1.03 * (t1 + t2) + 0.004) * un) by (apply Rmult_le_compat; auto using Rabs_pos).
  assert (0 <= un * Y) by (apply Rmult_le_pos; lra). assert (0 <= un * Y * (t1 + t2)) by (apply Rmult_le_pos; lra). lra.
Qed.
End Exponents.

(** ** Factors *)

Definition spread_error (Y q T : R) : R := un * Y * ((q + 5) * T + 3).

Section Factor.
Variables (e : fl -> fl) (D : DayCount (FV prec emax Hp He e)) (D' : DayCount RV) (K : Z) (s : Date) (Y q : R).
Hypothesis HD : counts_at e D D' K.
Hypothesis Hs : a_date s.
Hypothesis HY : bpow radix2 (- EL) <= Y <= bpow radix2 EL.
Hypothesis Gr : 14 <= q /\ un * q <= 0.02.
Variables (I : Interpolator (FV prec emax Hp He e)) (I' : Interpolator RV) (c : YieldCurve (FV prec emax Hp He e) I) (c' : YieldCurve RV I').
Hypothesis Es : settlement_date c = s.
Hypothesis Es' : settlement_date c' = s.
(** Each yield the binary64 curve gives is near the one the exact curve gives. *)
Hypothesis Near : forall d (yh : fl), counted s d -> i_try_value I (interpolator c) (tf K s d) = Ret (Ok yh) ->
  exists y : R, i_try_value I' (interpolator c') (tr K s d) = Ret (Ok y) /\ is_finite yh = true
    /\ Rabs (B2R yh - y) <= un * Y * q /\ Rabs y <= Y.
Notation spread := (spread_error Y q).

Lemma factor_near X eps d1 d2 (v : fl) :
  accurate_at e X eps -> 0 <= eps -> counted s d1 -> counted s d2 ->
  discount_factor D c d1 d2 = Ret (Ok v) -> Y * (tr K s d1 + tr K s d2) + spread (tr K s d1 + tr K s d2) <= X ->
  exists v' : R, discount_factor D' c' d1 d2 = Ret (Ok v') /\ is_finite v = true /\ 0 < v'
    /\ Rabs (B2R v - v') <= ((1 + eps) * exp (spread (tr K s d1 + tr K s d2)) - 1) * v'.
Proof.
  intros Hac He0 A1 A2 E HX. pose proof (bpow_gt_0 radix2 (- EL)) as PE. pose proof u_pos as Pu.
  unfold discount_factor in *. rewrite Es in E. rewrite Es'.
  destruct (date_ltb d2 d1) eqn:O1; [discriminate E |]. destruct (date_ltb d1 s) eqn:O2; [discriminate E |].
  destruct (date_ltb d2 s) eqn:O3; [discriminate E |]. cbn [orb] in *.
  rewrite (count_f e D D' K s HD) in E. rewrite (count_r e D D' K s HD). cbn [bind try_res] in *. unfold curve_yield in *.
  assert (forall d, a_date d -> date_ltb d s = false -> 0 <= tr K s d) as Pos.
  { intros d A O. apply not_true_iff_false in O. rewrite date_ltb_earlier in O. rewrite (proj1 (C02_serial_order d s A Hs)) in O.
    unfold tr. pose proof (K_range e D D' K HD) as HK. apply Rle_mult_inv_pos; [| apply IZR_lt; lia]. apply IZR_le. unfold date_sub, diff_days, serial_date in *. lia. }
  pose proof (Pos d1 (proj1 A1) O2) as P1. pose proof (Pos d2 (proj1 A2) O3) as P2.
  destruct (i_try_value I (interpolator c) (tf K s d2)) as [[y2h | er] | |] eqn:E2; try discriminate E.
  destruct (Near d2 y2h A2 E2) as (y2 & V2 & F2 & N2 & B2). rewrite V2. cbn [bind try_res lift_interp] in *.
  pose proof (tf_near e D D' K s HD Hs d2 A2) as T2. pose proof (proj1 (tf_value e D D' K s HD Hs d2 A2)) as Ft2. pose proof (tr_small e D D' K s HD Hs d2 (proj1 A2)) as S2.
  assert (0 <= un * Y) as PuY by (apply Rmult_le_pos; lra).
  assert (forall (x : fl) z, v = e x -> is_finite x = true -> Rabs (B2R x - z) <= spread (tr K s d1 + tr K s d2) -> Rabs z <= Y * (tr K s d1 + tr K s d2) ->
    is_finite v = true /\ 0 < exp z /\ Rabs (B2R v - exp z) <= ((1 + eps) * exp (spread (tr K s d1 + tr K s d2)) - 1) * exp z) as Fin.
  { intros x z -> Fx Nx Bz. destruct (Hac x Fx) as (Fe & Ee).
    - replace (B2R x) with ((B2R x - z) + z) by ring. eapply Rle_trans; [apply Rabs_triang |]. lra.
    - split; [exact Fe |]. split; [apply exp_pos |]. eapply exp_error; eauto. }
  destruct (date_eqb d1 s) eqn:Eq.
  - eexists. split; [reflexivity |]. apply date_eqb_eq in Eq.
    assert (tr K s d1 = 0) as Z1 by (rewrite Eq; unfold tr, date_sub, diff_days; rewrite Z.sub_diag; unfold Rdiv; apply Rmult_0_l).
    destruct (product_near Y HY (Bopp (tf K s d2)) y2h (- tr K s d2) y2 q) as (Fx & Nx & _).
    + now rewrite is_finite_Bopp.
    + exact F2.
    + rewrite B2R_Bopp, Rabs_Ropp. replace (- B2R (tf K s d2) - - tr K s d2) with (- (B2R (tf K s d2) - tr K s d2)) by ring. now rewrite Rabs_Ropp.
    + now rewrite Rabs_Ropp.
    + exact N2.
    + exact B2.
    + exact Gr.
    + rewrite Rabs_Ropp, (Rabs_pos_eq (tr K s d2)) in Nx by exact P2. injection E as E.
      refine (Fin _ _ (eq_sym E) Fx _ _).
      * eapply Rle_trans; [exact Nx |]. unfold spread_error. apply Rmult_le_compat_l; [exact PuY |]. rewrite Z1.
        assert (0 <= tr K s d2 * q) by (apply Rmult_le_pos; lra). lra.
      * rewrite Rabs_mult, Rabs_Ropp, (Rabs_pos_eq (tr K s d2)) by exact P2. rewrite Z1, Rplus_0_l, Rmult_comm. apply Rmult_le_compat_r; lra.
  - rewrite (count_f e D D' K s HD) in E. rewrite (count_r e D D' K s HD). cbn [bind try_res] in *.
    destruct (i_try_value I (interpolator c) (tf K s d1)) as [[y1h | er] | |] eqn:E1; try discriminate E.
    destruct (Near d1 y1h A1 E1) as (y1 & V1 & F1 & N1 & B1). rewrite V1. cbn [bind try_res lift_interp] in *.
    pose proof (tf_near e D D' K s HD Hs d1 A1) as T1. pose proof (proj1 (tf_value e D D' K s HD Hs d1 A1)) as Ft1. pose proof (tr_small e D D' K s HD Hs d1 (proj1 A1)) as S1.
    destruct (product_near Y HY (tf K s d1) y1h (tr K s d1) y1 q Ft1 F1 T1 S1 N1 B1 Gr) as (Fx1 & Nx1 & Bx1).
    destruct (product_near Y HY (tf K s d2) y2h (tr K s d2) y2 q Ft2 F2 T2 S2 N2 B2 Gr) as (Fx2 & Nx2 & Bx2).
    rewrite (Rabs_pos_eq (tr K s d1)) in Nx1, Bx1, S1 by exact P1. rewrite (Rabs_pos_eq (tr K s d2)) in Nx2, Bx2, S2 by exact P2.
    destruct (difference_near Y HY _ _ (tr K s d1) (tr K s d2) (tr K s d1 * y1) (tr K s d2 * y2) q Fx1 Fx2 (proj1 Gr) (conj P1 S1) (conj P2 S2) Nx1 Nx2 Bx1 Bx2) as (Fx & Nx).
    eexists. split; [reflexivity |]. injection E as E. refine (Fin _ _ (eq_sym E) Fx Nx _).
    unfold Rminus. eapply Rle_trans; [apply Rabs_triang |]. rewrite Rabs_Ropp, !Rabs_mult, (Rabs_pos_eq (tr K s d1)), (Rabs_pos_eq (tr K s d2)) by assumption.
    assert (tr K s d1 * Rabs y1 <= tr K s d1 * Y) by (apply Rmult_le_compat_l; lra). assert (tr K s d2 * Rabs y2 <= tr K s d2 * Y) by (apply Rmult_le_compat_l; lra). lra.
Qed.
End Factor.

(** ** Curves *)

Section Curve.
Variables (e : fl -> fl) (D : DayCount (FV prec emax Hp He e)) (D' : DayCount RV) (K : Z) (s : Date) (ms : list Date) (ys : list fl) (g M Y : R).
Hypothesis HD : counts_at e D D' K.
Hypothesis HL : List.length ms = List.length ys.
Hypothesis H2 : (2 <= List.length ms)%nat.
Hypothesis HM : laid_out s ms g M.
Hypothesis Hg : 1 <= g.
Hypothesis HMb : M < bpow radix2 (prec - 1).
Notation tfs := (tf K s).
Notation trs := (tr K s).
Notation value_f := (tf_value e D D' K s HD (proj1 HM)).
Notation order_f := (tf_order e D D' K s HD (proj1 HM)).
Notation near_f := (tf_near e D D' K s HD (proj1 HM)).
Notation small_r := (tr_small e D D' K s HD (proj1 HM)).
Notation pts := (combine (map tfs ms) ys).
Notation pts' := (curve_points trs ms (map B2R ys)).
Notation z := (B754_nan : fl, B754_nan : fl).

Lemma ratio_range : 0 <= M /\ 0 <= M / g.
Proof.
  assert (0 <= M) as PM.
  { destruct (nth_error ms 0) as [m |] eqn:E; [| apply nth_error_None in E; lia].
    eapply Rle_trans; [apply Rabs_pos | apply (proj1 (proj2 HM) m (nth_error_In _ _ E))]. }
  split; [exact PM |].
  apply Rle_mult_inv_pos; lra.
Qed.

Lemma same_length : List.length ms = List.length (map (B2R (prec := prec) (emax := emax)) ys).
Proof. now rewrite map_length. Qed.

Lemma pts_length : List.length pts = List.length ms.
Proof. rewrite combine_length, map_length. lia. Qed.

Lemma pts'_length : List.length pts' = List.length ms.
Proof. now rewrite curve_points_length by exact same_length. Qed.

Lemma pts_fst : map fst pts = map tfs ms.
Proof.
  clear - HL. revert ys HL. induction ms as [| m l IH]; intros [| y ys] Hl; try discriminate; [reflexivity |].
  cbn [map combine fst]. f_equal. apply IH. now injection Hl.
Qed.

Lemma pts_nth i : (i < List.length ms)%nat -> nth i pts z = (tfs (nth i ms s), nth i ys B754_nan).
Proof.
  intros Hi. rewrite combine_nth by (rewrite map_length; exact HL). f_equal.
  rewrite (nth_indep _ _ (tfs s)) by (rewrite map_length; exact Hi). apply map_nth.
Qed.

Lemma pts'_nth i : (i < List.length ms)%nat -> gx pts' i = trs (nth i ms s) /\ gy pts' i = B2R (nth i ys B754_nan).
Proof.
  intros Hi. destruct (curve_points_nth trs ms (map B2R ys) i (nth i ms s) (B2R (nth i ys B754_nan)) same_length) as (_ & B & C); [now apply nth_error_nth' | | auto].
  rewrite nth_error_map, (nth_error_nth' ys B754_nan) by lia. reflexivity.
Qed.

Lemma near_maturity m : In m ms -> counted s m.
Proof.
  intros Hm. destruct (proj1 (proj2 HM) m Hm) as (A & B). split; [exact A |]. pose proof fmt as (F24 & F128).
  apply lt_IZR. change 2%Z with (radix_val radix2). rewrite IZR_Zpower, abs_IZR by lia. lra.
Qed.

Lemma maturity i : (i < List.length ms)%nat -> counted s (nth i ms s) /\ Rabs (IZR (date_sub (nth i ms s) s)) <= M.
Proof. intros Hi. split; [apply near_maturity, nth_In, Hi | apply (proj1 (proj2 HM)), nth_In, Hi]. Qed.

Lemma K_real : 360 <= IZR K <= 365 /\ / 365 <= / IZR K <= / 360.
Proof.
  pose proof (K_range e D D' K HD) as HK. assert (360 <= IZR K <= 365) as HKr by (split; apply IZR_le; lia).
  split; [exact HKr |]. split; apply Rinv_le; lra.
Qed.

Lemma gap i : (i + 1 < List.length ms)%nat -> g / IZR K <= trs (nth (i + 1) ms s) - trs (nth i ms s).
Proof.
  intros Hi. destruct K_real as (HKr & _). unfold tr, Rdiv. rewrite <- Rmult_minus_distr_r. apply Rmult_le_compat_r; [left; apply Rinv_0_lt_compat; lra |].
  rewrite <- minus_IZR. pose proof (proj2 (proj2 HM) i (nth i ms s) (nth (i + 1) ms s)) as G.
  specialize (G ltac:(apply nth_error_nth'; lia)). replace (S i) with (i + 1)%nat in G by lia.
  specialize (G ltac:(apply nth_error_nth'; lia)).
  replace (date_sub (nth (i + 1) ms s) s - date_sub (nth i ms s) s)%Z with (serial_date (nth (i + 1) ms s) - serial_date (nth i ms s))%Z; [exact G |].
  unfold date_sub, diff_days, serial_date. lia.
Qed.

Lemma gap_pos : / 365 <= g / IZR K.
Proof. destruct K_real as (_ & HKi). unfold Rdiv. nra. Qed.

Lemma increasing_r : increasing pts'.
Proof.
  intros i j H. rewrite pts'_length in H. destruct H as (Hij & Hj). induction j as [| j IHj]; [lia |].
  assert (gx pts' j < gx pts' (S j)) as L.
  { rewrite (proj1 (pts'_nth j ltac:(lia))), (proj1 (pts'_nth (S j) Hj)). pose proof (gap j ltac:(lia)) as G. pose proof gap_pos.
    replace (j + 1)%nat with (S j) in G by lia. lra. }
  destruct (Nat.eq_dec i j) as [-> | N]; [exact L |]. eapply Rlt_trans; [apply IHj; lia | exact L].
Qed.

Lemma rising_f : rising (map fst pts).
Proof.
  rewrite pts_fst. split.
  - intros y Hy. apply in_map_iff in Hy. destruct Hy as (m & <- & Hm). apply value_f. now apply near_maturity.
  - intros i a b Ha Hb. rewrite nth_error_map in Ha, Hb.
    destruct (nth_error ms i) as [mi |] eqn:Ei; cbn [option_map] in Ha; [| discriminate Ha].
    destruct (nth_error ms (S i)) as [mj |] eqn:Ej; cbn [option_map] in Hb; [| discriminate Hb].
    injection Ha as <-. injection Hb as <-.
    pose proof (near_maturity mi (nth_error_In _ _ Ei)) as Ai. pose proof (near_maturity mj (nth_error_In _ _ Ej)) as Aj.
    rewrite Bltb_correct by now apply value_f. apply Rlt_bool_true. apply order_f; auto.
    assert (S i < List.length ms)%nat as Hi by (apply nth_error_Some; congruence).
    pose proof (gap i ltac:(lia)) as G. pose proof gap_pos. replace (i + 1)%nat with (S i) in G by lia.
    rewrite (nth_error_nth _ _ _ Ei), (nth_error_nth _ _ _ Ej) in G. lra.
Qed.

(** The times of maturities and of dates between them, in both arithmetics. *)
Lemma time_near m : counted s m -> Rabs (trs m) <= M / IZR K -> Rabs (B2R (tfs m) - trs m) <= un * (M / IZR K).
Proof. intros Hm Hb. eapply Rle_trans; [now apply near_f |]. apply Rmult_le_compat_l; [apply bpow_ge_0 | exact Hb]. Qed.

Hypothesis HMg : un * (M / g) <= / 1024.

Lemma time_small : un * (M / IZR K) <= / 1024 * (g / IZR K).
Proof.
  destruct K_real as (HKr & HKi). replace (un * (M / IZR K)) with (un * (M / g) * (g / IZR K)) by (field; lra).
  apply Rmult_le_compat_r; [apply Rle_mult_inv_pos; lra | exact HMg].
Qed.

Lemma maturity_time i : (i < List.length ms)%nat -> Rabs (trs (nth i ms s)) <= M / IZR K.
Proof.
  intros Hi. destruct K_real as (HKr & HKi). unfold tr, Rdiv. rewrite Rabs_mult, Rabs_inv, (Rabs_pos_eq (IZR K)) by lra.
  apply Rmult_le_compat_r; [lra | now apply maturity].
Qed.

Lemma fitted_f I (c : YieldCurve (FV prec emax Hp He e) I) : curve_new D I s ms ys = Ret (Ok c) ->
  settlement_date c = s /\ forall x, fit_eval I pts x = i_try_value I (interpolator c) x.
Proof.
  intros Hc. pose proof (C43_fit (FV prec emax Hp He e) D I s ms ys tfs HL (fun m _ => count_f e D D' K s HD m)) as F. cbv zeta in F.
  match type of F with match ?x with _ => _ end => destruct x as [[f | er] | |] end; [| pose proof (eq_trans (eq_sym F) Hc) as Q; discriminate Q ..].
  destruct F as (c0 & Ec & S & Ev). pose proof (eq_trans (eq_sym Ec) Hc) as Q. injection Q as ->. auto.
Qed.

Lemma fitted_r I' (c' : YieldCurve RV I') : curve_new D' I' s ms (map B2R ys) = Ret (Ok c') ->
  settlement_date c' = s /\ forall x, fit_eval I' pts' x = i_try_value I' (interpolator c') x.
Proof.
  intros Hc. pose proof (C43_fit RV D' I' s ms (map B2R ys) trs same_length (fun m _ => count_r e D D' K s HD m)) as F. cbv zeta in F.
  change (combine (map trs ms) (map B2R ys)) with pts' in F.
  match type of F with match ?x with _ => _ end => destruct x as [[f | er] | |] end; [| pose proof (eq_trans (eq_sym F) Hc) as Q; discriminate Q ..].
  destruct F as (c0 & Ec & S & Ev). pose proof (eq_trans (eq_sym Ec) Hc) as Q. injection Q as ->. auto.
Qed.

Lemma width_range i : (i + 1 < List.length ms)%nat ->
  bpow radix2 (-10) <= B2R (tfs (nth (i + 1) ms s)) - B2R (tfs (nth i ms s)) <= bpow radix2 21.
Proof.
  intros Hi. destruct (maturity i ltac:(lia)) as (A0 & B0). destruct (maturity (i + 1)%nat Hi) as (A1 & B1).
  pose proof (maturity_time i ltac:(lia)) as T0. pose proof (maturity_time (i + 1)%nat Hi) as T1.
  pose proof (time_near _ A0 T0) as N0. pose proof (time_near _ A1 T1) as N1. pose proof time_small as Wb.
  pose proof (gap i Hi) as G. pose proof gap_pos as Gpos.
  change (bpow radix2 (-10)) with (/ 1024). change (bpow radix2 21) with 2097152.
  apply Rabs_le_inv in N0, N1. split; [lra |].
  assert (forall m, counted s m -> Rabs (B2R (tfs m)) <= 1048576) as Q.
  { intros m Hm. rewrite (proj2 (value_f m Hm)). change 1048576 with (bpow radix2 20).
    apply (rnd_small (trs m) 20 ltac:(lia)). apply small_r, Hm. }
  pose proof (Q _ A0) as Q0. pose proof (Q _ A1) as Q1. apply Rabs_le_inv in Q0, Q1. lra.
Qed.

Hypothesis HS : sized_at ys Y.
Hypothesis HY : bpow radix2 (- EL) <= Y <= bpow radix2 EL.

Definition growth : R := 14 + 16 * (M / g).

Lemma growth_range : un * (M / g) <= / 2048 -> 14 <= growth /\ un * growth <= 0.02.
Proof. intros Q. pose proof ratio_range. pose proof u_small. unfold growth. split; lra. Qed.

Lemma yield_near (c : YieldCurve (FV prec emax Hp He e) (Linear (FV prec emax Hp He e))) (c' : YieldCurve RV (Linear RV)) d (yh : fl) :
  curve_new D (Linear (FV prec emax Hp He e)) s ms ys = Ret (Ok c) -> curve_new D' (Linear RV) s ms (map B2R ys) = Ret (Ok c') -> counted s d ->
  i_try_value (Linear (FV prec emax Hp He e)) (interpolator c) (tfs d) = Ret (Ok yh) ->
  exists y : R, i_try_value (Linear RV) (interpolator c') (trs d) = Ret (Ok y) /\ is_finite yh = true
    /\ Rabs (B2R yh - y) <= un * Y * growth /\ Rabs y <= Y.
Proof.
  intros Hc Hc' A E. rewrite <- (proj2 (fitted_f _ c Hc)) in E.
  pose proof pts_length as Lp. pose proof pts'_length as Lp'. destruct K_real as (HKr & HKi). pose proof gap_pos as Gpos.
  destruct (linear_in_cell prec emax Hp He e pts (tfs d) yh rising_f (proj1 (value_f d A)) ltac:(lia) E) as (i & Hi & Bx & _ & Ev).
  cbv zeta in Ev. rewrite !gx_reals in Bx. rewrite Lp in Hi. rewrite !pts_nth in Bx, Ev by lia. cbn [fst snd] in Bx, Ev.
  pose proof (width_range i Hi) as Hh. pose proof (gap i Hi) as G.
  pose proof (pts'_nth i ltac:(lia)) as P0. pose proof (pts'_nth (i + 1) Hi) as P1.
  pose proof (maturity_time i ltac:(lia)) as T0. pose proof (maturity_time (i + 1) Hi) as T1.
  destruct (maturity i ltac:(lia)) as (A0 & B0). destruct (maturity (i + 1)%nat Hi) as (A1 & B1).
  set (m0 := nth i ms s) in *. set (m1 := nth (i + 1) ms s) in *. set (y0 := nth i ys B754_nan) in *. set (y1 := nth (i + 1) ys B754_nan) in *.
  destruct (HS y0 ltac:(apply nth_In; lia)) as (Fy0 & Yb0). destruct (HS y1 ltac:(apply nth_In; lia)) as (Fy1 & Yb1).
  assert (trs m0 <= trs d <= trs m1) as Bt.
  { split; apply Rnot_lt_le; intros C; apply order_f in C; auto; lra. }
  exists (chord pts' i (trs d)). rewrite <- (proj2 (fitted_r _ c' Hc')).
  split. { apply linear_closed; [exact increasing_r | lia |]. rewrite (proj1 P0), (proj1 P1). exact Bt. }
  unfold chord. rewrite (proj1 P0), (proj2 P0), (proj1 P1), (proj2 P1).
  assert (Rabs (trs d) <= M / IZR K) as Td by (apply Rabs_le_inv in T0, T1; apply Rabs_le; lra).
  pose proof u_pos as Pu.
  pose proof (time_near m0 A0 T0) as N0. pose proof (time_near m1 A1 T1) as N1. pose proof (time_near d A Td) as Nd.
  pose proof (proj1 ratio_range) as PM. pose proof time_small as Wb.
  assert (B2R (tfs m0) < B2R (tfs m1)) as Lt by (apply order_f; auto; lra).
  destruct (lform_safe (tfs d) (tfs m0) y0 (tfs m1) y1 (proj1 (value_f d A)) (proj1 (value_f m0 A0)) Fy0 (proj1 (value_f m1 A1)) Fy1
    ltac:(lra) ltac:(lra) Bx Hh) as (Fh & Fl).
  pose proof (lform_error prec emax Hp He (tfs d) (tfs m0) y0 (tfs m1) y1 ltac:(lia) (proj1 (value_f m0 A0)) (proj1 (value_f m1 A1)) Lt Bx Fh Fl) as Le.
  cbv zeta in Le. rewrite <- Ev in Le, Fl. split; [exact Fl |].
  pose proof (chord_near (B2R y0) (B2R y1) (trs d) (trs m0) (trs m1) (B2R (tfs d)) (B2R (tfs m0)) (B2R (tfs m1)) (un * (M / IZR K)) (g / IZR K)
    Bt ltac:(lra) Nd N0 N1 ltac:(lra)) as Cn.
  pose proof (chord_range (B2R y0) (B2R y1) (B2R (tfs d)) (B2R (tfs m0)) (B2R (tfs m1)) Y Bx Lt Yb0 Yb1) as Cr.
  pose proof (chord_range (B2R y0) (B2R y1) (trs d) (trs m0) (trs m1) Y Bt ltac:(lra) Yb0 Yb1) as Cr'.
  split; [| exact Cr'].
  set (Lh := B2R y0 + (B2R y1 - B2R y0) / (B2R (tfs m1) - B2R (tfs m0)) * (B2R (tfs d) - B2R (tfs m0))) in *.
  set (L := B2R y0 + (B2R y1 - B2R y0) / (trs m1 - trs m0) * (trs d - trs m0)) in *.
  assert (Rabs (B2R y1 - B2R y0) <= 2 * Y) as Dy by (apply Rabs_le_inv in Yb0, Yb1; apply Rabs_le; lra).
  assert (8 * (un * (M / IZR K)) / (g / IZR K) = 8 * un * (M / g)) as Eq by (field; lra).
  rewrite Eq in Cn.
  assert (0 <= 8 * un * (M / g)) as Pq by (apply Rmult_le_pos; [lra | apply Rle_mult_inv_pos; lra]).
  assert (2 * half_tiny prec emax * (B2R (tfs d) - B2R (tfs m0) + 1) <= un * Y) as Tiny.
  { apply Rle_trans with (2 * half_tiny prec emax * bpow radix2 22).
    - apply Rmult_le_compat_l; [pose proof (bpow_gt_0 radix2 (2 - emax - prec)); unfold half_tiny; lra |].
      change (bpow radix2 21) with 2097152 in Hh. change (bpow radix2 22) with 4194304. lra.
    - apply Rle_trans with (un * bpow radix2 (- EL)); [| apply Rmult_le_compat_l; lra].
      unfold half_tiny. change 2 with (bpow radix2 1) at 1. rewrite <- !bpow_plus. apply bpow_le. lia. }
  change (unit_roundoff prec) with un in Le.
  replace (B2R yh - L) with ((B2R yh - Lh) + (Lh - L)) by ring. eapply Rle_trans; [apply Rabs_triang |].
  assert (un * Rabs Lh <= un * Y) by (apply Rmult_le_compat_l; lra).
  assert (6 * un * Rabs (B2R y1 - B2R y0) <= 6 * un * (2 * Y)) by (apply Rmult_le_compat_l; lra).
  assert (Rabs (B2R y1 - B2R y0) * (8 * un * (M / g)) <= 2 * Y * (8 * un * (M / g))) by (apply Rmult_le_compat_r; lra).
  unfold growth. lra.
Qed.
End Curve.

(** ** C108 *)

(** With actual day counts, linear interpolation and an exponential accurate to [eps], the factor is the exact one for the same
    dates and yields up to a relative error that is explicit in the layout of the curve, the times and the format. *)
Theorem C108_factor : forall e D D' K s ms (ys : list fl) g M Y X eps c c' d1 d2 (v : fl),
  counts_at e D D' K -> List.length ms = List.length ys -> (2 <= List.length ms)%nat -> laid_out s ms g M -> 1 <= g -> M < bpow radix2 (prec - 1) ->
  M / g <= bpow radix2 (prec - 11) ->
  sized_at ys Y -> bpow radix2 (- EL) <= Y <= bpow radix2 EL -> accurate_at e X eps -> 0 <= eps ->
  curve_new D (Linear (FV prec emax Hp He e)) s ms ys = Ret (Ok c) -> curve_new D' (Linear RV) s ms (map B2R ys) = Ret (Ok c') ->
  counted s d1 -> counted s d2 -> discount_factor D c d1 d2 = Ret (Ok v) ->
  let years d := IZR (serial_date d - serial_date s) / IZR K in
  let B := bpow radix2 (- prec) * Y * ((19 + 16 * (M / g)) * (years d1 + years d2) + 3) in
  Y * (years d1 + years d2) + B <= X ->
  exists v' : R, discount_factor D' c' d1 d2 = Ret (Ok v') /\ is_finite v = true /\ 0 < v'
    /\ Rabs (B2R v - v') <= ((1 + eps) * exp B - 1) * v'.
Proof.
  intros e D D' K s ms ys g M Y X eps c c' d1 d2 v HD HL H2 HM Hg HMb Hr HS HY Hac He0 Hc Hc' A1 A2 E years B HX.
  pose proof (fitted_f e D D' K s ms ys HD HL _ c Hc) as (Es & _). pose proof (fitted_r e D D' K s ms ys HD HL _ c' Hc') as (Es' & _).
  assert (spread_error Y (growth g M) (years d1 + years d2) = B) as EB by (unfold spread_error, growth, B; ring).
  rewrite <- EB in *.
  assert (un * (M / g) <= / 2048) as Q.
  { apply Rle_trans with (un * bpow radix2 (prec - 11)); [apply Rmult_le_compat_l; [apply bpow_ge_0 | exact Hr] |].
    rewrite <- bpow_plus. replace (- prec + (prec - 11))%Z with (-11)%Z by lia. right. reflexivity. }
  apply (factor_near e D D' K s Y (growth g M) HD (proj1 HM) HY (growth_range s ms ys g M HL H2 HM Hg Q) _ _ c c' Es Es'
    (fun d yh => yield_near e D D' K s ms ys g M Y HD HL H2 HM Hg HMb ltac:(lra) HS HY c c' d yh Hc Hc') X eps d1 d2 v Hac He0 A1 A2 E HX).
Qed.

(** The bond with its amounts as real numbers, and with their absolute values. *)
Definition bond_reals (b : Bond fl) : Bond R :=
  mkBond (bond_id_field b) (map (fun f => mkFlow (due_date f) (payment_date f) (B2R (payment_amount f))) (bond_cash_flows b)).
Definition bond_gross (b : Bond fl) : Bond R :=
  mkBond (bond_id_field b) (map (fun f => mkFlow (due_date f) (payment_date f) (Rabs (B2R (payment_amount f)))) (bond_cash_flows b)).

Lemma total_near (l : list (BondCashFlow fl)) (p : BondCashFlow fl -> R) (p' : BondCashFlow fl -> R) r :
  (forall f, In f l -> 0 < p' f /\ Rabs (p f - p' f) <= r * p' f) ->
  let G := total (map (fun f => p' f * Rabs (B2R (payment_amount f))) l) in
  Rabs (total (map (fun f => p f * B2R (payment_amount f)) l) - total (map (fun f => p' f * B2R (payment_amount f)) l)) <= r * G
  /\ total (map (fun f => Rabs (p f * B2R (payment_amount f))) l) <= (1 + r) * G.
Proof.
  intros H G. unfold G. clear G. unfold total. induction l as [| f l IH]; simpl.
  - rewrite Rminus_0_r, Rabs_R0. lra.
  - destruct IH as (I1 & I2); [intros f' Hf; apply H; now right |]. destruct (H f (or_introl eq_refl)) as (P & N).
    set (a := B2R (payment_amount f)) in *. pose proof (Rabs_pos a) as Pa. split.
    + match goal with |- Rabs (?x + ?y - (?x' + ?y')) <= _ => replace (x + y - (x' + y')) with ((p f - p' f) * a + (y - y')) by (unfold a; ring) end.
      eapply Rle_trans; [apply Rabs_triang |]. rewrite Rabs_mult.
      assert (Rabs (p f - p' f) * Rabs a <= r * p' f * Rabs a) by (apply Rmult_le_compat_r; lra). lra.
    + assert (Rabs (p f * a) <= (1 + r) * (p' f * Rabs a)); [| lra]. rewrite Rabs_mult.
      replace ((1 + r) * (p' f * Rabs a)) with ((p' f + r * p' f) * Rabs a) by ring. apply Rmult_le_compat_r; [lra |].
      replace (p f) with (p' f + (p f - p' f)) by ring. eapply Rle_trans; [apply Rabs_triang |]. rewrite (Rabs_pos_eq (p' f)) by lra. lra.
Qed.

Lemma open_map settle (h : BondCashFlow fl -> R) (q : Date -> R -> R) (l : list (BondCashFlow fl)) :
  map (fun f => q (payment_date f) (payment_amount f)) (filter (open_flow settle) (map (fun f => mkFlow (due_date f) (payment_date f) (h f)) l))
  = map (fun f => q (payment_date f) (h f)) (filter (open_flow settle) l).
Proof.
  induction l as [| f l IH]; [reflexivity |]. cbn [map].
  destruct (date_ltb settle (due_date f)) eqn:L.
  - rewrite !filter_open by exact L. cbn [map]. f_equal. exact IH.
  - rewrite !filter_closed by exact L. exact IH.
Qed.

(** Values are near when factors are. *)
Lemma value_near e (D : DayCount (FV prec emax Hp He e)) (D' : DayCount RV) I I' (c : YieldCurve (FV prec emax Hp He e) I) (c' : YieldCurve RV I') (b : Bond fl) settle r (v : fl) :
  (forall f (x : fl), In f (bond_cash_flows b) -> discount_factor D c settle (payment_date f) = Ret (Ok x) ->
    exists x' : R, discount_factor D' c' settle (payment_date f) = Ret (Ok x') /\ is_finite x = true /\ 0 < x' /\ Rabs (B2R x - x') <= (r - 1) * x') ->
  discounted_value (V := (FV prec emax Hp He e)) D b settle c = Ret (Ok v) -> is_finite v = true ->
  let n := List.length (filter (open_flow settle) (bond_cash_flows b)) in
  let u := bpow radix2 (- prec) in
  exists v' G : R, discounted_value (V := RV) D' (bond_reals b) settle c' = Ret (Ok v')
    /\ discounted_value (V := RV) D' (bond_gross b) settle c' = Ret (Ok G)
    /\ Rabs (B2R v - v') <= ((1 + u) ^ (n + 1) * r - 1) * G + INR n * bpow radix2 (2 - emax - prec) * (1 + u) ^ n.
Proof.
  intros HF Ev Fv n u.
  destruct (C97_rounding prec emax Hp He e D I b settle c v Ev) as (df & Hdf & Hr). specialize (Hr Fv). cbv zeta in Hr.
  fold n in Hr. fold u in Hr.
  set (df' := fun d => match discount_factor D' c' settle d with Ret (Ok x) => x : R | _ => 0 end).
  assert (forall f, In f (bond_cash_flows b) -> earlier settle (due_date f) ->
    discount_factor D' c' settle (payment_date f) = Ret (Ok (df' (payment_date f))) /\ 0 < df' (payment_date f)
    /\ Rabs (B2R (df (payment_date f)) - df' (payment_date f)) <= (r - 1) * df' (payment_date f)) as Near.
  { intros f Hf Of. destruct (HF f _ Hf (Hdf f Hf Of)) as (v' & V' & _ & P & N). unfold df'. rewrite V'. auto. }
  set (l := filter (open_flow settle) (bond_cash_flows b)).
  set (G := total (map (fun f => df' (payment_date f) * Rabs (B2R (payment_amount f))) l)).
  exists (total (map (fun f => df' (payment_date f) * B2R (payment_amount f)) l)), G.
  assert (forall h : BondCashFlow fl -> R, discounted_value (V := RV) D'
    (mkBond (bond_id_field b) (map (fun f => mkFlow (due_date f) (payment_date f) (h f)) (bond_cash_flows b))) settle c'
    = Ret (Ok (total (map (fun f => df' (payment_date f) * h f) l)))) as Val.
  { intros h. rewrite (C50_sum D' I' _ settle c' df').
    - cbn [bond_cash_flows]. unfold l. now rewrite (open_map settle h (fun d a => df' d * a)).
    - intros f Hf Of. cbn [bond_cash_flows] in Hf. apply in_map_iff in Hf. destruct Hf as (f0 & <- & Hf). now apply Near. }
  split; [apply (Val (fun f => B2R (payment_amount f))) |]. split; [apply (Val (fun f => Rabs (B2R (payment_amount f)))) |].
  destruct (total_near l (fun f => B2R (df (payment_date f))) (fun f => df' (payment_date f)) (r - 1)) as (N1 & N2).
  { intros f Hf. apply filter_In in Hf. destruct Hf as (Hf & Of). apply open_flow_spec in Of. now apply Near. }
  fold G in N1, N2. unfold exact_value, gross_value in Hr. fold l in Hr.
  set (ex := total (map (fun f => B2R (df (payment_date f)) * B2R (payment_amount f)) l)) in *.
  set (gr := total (map (fun f => Rabs (B2R (df (payment_date f)) * B2R (payment_amount f))) l)) in *.
  match goal with |- Rabs (?a - ?b) <= _ => replace (a - b) with ((a - ex) + (ex - b)) by ring end.
  eapply Rle_trans; [apply Rabs_triang |].
  assert (1 <= (1 + u) ^ (n + 1)) as Pn by (apply pow_R1_Rle; pose proof u_pos; unfold u; lra).
  assert (((1 + u) ^ (n + 1) - 1) * gr <= ((1 + u) ^ (n + 1) - 1) * (r * G)) as Q by (apply Rmult_le_compat_l; lra). lra.
Qed.

(** The value of a bond against its exact value, end to end. *)
Theorem C108_value : forall e D D' K s ms (ys : list fl) g M Y X eps c c' (b : Bond fl) settle T (v : fl),
  counts_at e D D' K -> List.length ms = List.length ys -> (2 <= List.length ms)%nat -> laid_out s ms g M -> 1 <= g -> M < bpow radix2 (prec - 1) ->
  M / g <= bpow radix2 (prec - 11) ->
  sized_at ys Y -> bpow radix2 (- EL) <= Y <= bpow radix2 EL -> accurate_at e X eps -> 0 <= eps ->
  curve_new D (Linear (FV prec emax Hp He e)) s ms ys = Ret (Ok c) -> curve_new D' (Linear RV) s ms (map B2R ys) = Ret (Ok c') ->
  let years d := IZR (serial_date d - serial_date s) / IZR K in
  counted s settle -> (forall f, In f (bond_cash_flows b) -> counted s (payment_date f) /\ years settle + years (payment_date f) <= T) ->
  let B := bpow radix2 (- prec) * Y * ((19 + 16 * (M / g)) * T + 3) in
  Y * T + B <= X ->
  discounted_value (V := (FV prec emax Hp He e)) D b settle c = Ret (Ok v) -> is_finite v = true ->
  let n := List.length (filter (open_flow settle) (bond_cash_flows b)) in
  let u := bpow radix2 (- prec) in
  exists v' G : R, discounted_value (V := RV) D' (bond_reals b) settle c' = Ret (Ok v')
    /\ discounted_value (V := RV) D' (bond_gross b) settle c' = Ret (Ok G)
    /\ Rabs (B2R v - v') <= ((1 + u) ^ (n + 1) * ((1 + eps) * exp B) - 1) * G + INR n * bpow radix2 (2 - emax - prec) * (1 + u) ^ n.
Proof.
  intros e D D' K s ms ys g M Y X eps c c' b settle T v HD HL H2 HM Hg HMb Hr HS HY Hac He0 Hc Hc' years As Af B HX Ev Fv.
  apply (value_near e D D' _ _ c c' b settle ((1 + eps) * exp B) v); [| exact Ev | exact Fv].
  intros f x Hf Ex. destruct (Af f Hf) as (Ap & Tp). pose proof (ratio_range s ms ys g M HL H2 HM Hg) as Gr.
  pose proof (bpow_gt_0 radix2 (- EL)) as PE. pose proof u_pos as Pu.
  assert (0 <= un * Y) as PuY by (apply Rmult_le_pos; lra).
  set (B1 := un * Y * ((19 + 16 * (M / g)) * (years settle + years (payment_date f)) + 3)).
  assert (B1 <= B) as LB.
  { unfold B1, B. apply Rmult_le_compat_l; [exact PuY |]. apply Rplus_le_compat_r. apply Rmult_le_compat_l; lra. }
  assert (Y * (years settle + years (payment_date f)) <= Y * T) as LY by (apply Rmult_le_compat_l; lra).
  destruct (C108_factor e D D' K s ms ys g M Y X eps c c' settle (payment_date f) x HD HL H2 HM Hg HMb Hr HS HY Hac He0 Hc Hc' As Ap Ex)
    as (x' & V' & Fx & P & N).
  { change (Y * (years settle + years (payment_date f)) + B1 <= X). lra. }
  change (Rabs (B2R x - x') <= ((1 + eps) * exp B1 - 1) * x') in N. exists x'. split; [exact V' |]. split; [exact Fx |]. split; [exact P |].
  eapply Rle_trans; [exact N |]. apply Rmult_le_compat_r; [lra |]. apply Rplus_le_compat_r. apply Rmult_le_compat_l; [lra |].
  destruct LB as [LB | ->]; [left; now apply exp_increasing | right; reflexivity].
Qed.
(** ** Catmull-Rom curves *)

Section Spline.
Variables (e : fl -> fl) (D : DayCount (FV prec emax Hp He e)) (D' : DayCount RV) (K : Z) (s : Date) (ms : list Date) (ys : list fl) (g M Y : R).
Hypothesis HD : counts_at e D D' K.
Hypothesis HL : List.length ms = List.length ys.
Hypothesis H3 : (3 <= List.length ms)%nat.
Hypothesis HM : laid_out s ms g M.
Hypothesis Hg : 1 <= g.
Hypothesis HMb : M < bpow radix2 (prec - 1).
Hypothesis HMg : un * (M / g) <= / 1024.
Hypothesis HS : sized_at ys Y.
Hypothesis HY : bpow radix2 (- EL) <= Y <= bpow radix2 (EL - 1).
Notation tfs := (tf K s).
Notation trs := (tr K s).
Notation pts := (combine (map tfs ms) ys).
Notation pts' := (curve_points trs ms (map B2R ys)).

Definition cr_growth : R := 156 + 128 * (M / g).

Lemma spline_yield_near (c : YieldCurve (FV prec emax Hp He e) (CatmullRom (FV prec emax Hp He e))) (c' : YieldCurve RV (CatmullRom RV)) d (yh : fl) :
  curve_new D (CatmullRom (FV prec emax Hp He e)) s ms ys = Ret (Ok c) -> curve_new D' (CatmullRom RV) s ms (map B2R ys) = Ret (Ok c') -> counted s d ->
  i_try_value (CatmullRom (FV prec emax Hp He e)) (interpolator c) (tfs d) = Ret (Ok yh) ->
  exists y : R, i_try_value (CatmullRom RV) (interpolator c') (trs d) = Ret (Ok y) /\ is_finite yh = true
    /\ Rabs (B2R yh - y) <= un * (2 * Y) * cr_growth /\ Rabs y <= 2 * Y.
Proof.
  intros Hc Hc' A E. pose proof fmt as (F24 & F128). assert (2 <= List.length ms)%nat as H2 by lia.
  rewrite <- (proj2 (fitted_f e D D' K s ms ys HD HL _ c Hc)) in E. rewrite <- (proj2 (fitted_r e D D' K s ms ys HD HL _ c' Hc')).
  pose proof (pts_length K s ms ys HL H2) as Lp. pose proof (pts'_length K s ms ys HL) as Lp'.
  destruct (K_real e D D' K ms ys HD HL H2) as (HKr & HKi). pose proof (gap_pos e D D' K ms ys g HD HL H2 Hg) as Gpos.
  pose proof (rising_f e D D' K s ms ys g M HD HL H2 HM Hg HMb) as Rs. pose proof (increasing_r e D D' K s ms ys g M HD HL H2 HM Hg) as Inc'.
  pose proof (proj1 (tf_value e D D' K s HD (proj1 HM) d A)) as Fx.
  assert (forall j, (j < List.length ms)%nat -> gx (reals pts) j = B2R (tfs (nth j ms s))) as Ax
    by (intros j Hj; now rewrite gx_reals, (pts_nth K s ms ys HL j Hj)).
  assert (forall j, (j < List.length ms)%nat -> gx pts' j = trs (nth j ms s)) as Ax' by (intros j Hj; apply (pts'_nth K s ms ys HL H2 j Hj)).
  assert (forall j, (j < List.length ms)%nat -> gy (reals pts) j = gy pts' j) as Ay
    by (intros j Hj; rewrite (proj2 (pts'_nth K s ms ys HL H2 j Hj)); now rewrite gy_reals, (pts_nth K s ms ys HL j Hj)).
  assert (forall j, (j < List.length ms)%nat -> Rabs (gy pts' j) <= Y) as Ab
    by (intros j Hj; rewrite (proj2 (pts'_nth K s ms ys HL H2 j Hj)); apply HS, nth_In; lia).
  pose proof (catmull_in_range prec emax Hp He e pts (tfs d) yh Rs Fx ltac:(lia) E) as Hx.
  destruct (C99_catmull_rom prec emax Hp He e pts (tfs d) ltac:(lia) ltac:(lia) Rs) as (i & v & C & Hi & Bx & Ev & EC & Er); [| exact Fx | exact Hx |].
  { intros p Ip. destruct (In_nth _ _ (B754_nan, B754_nan) Ip) as (j & Hj & <-). rewrite Lp in Hj. rewrite (pts_nth K s ms ys HL j Hj). cbn [fst snd].
    destruct (maturity s ms ys g M HL H2 HM HMb j Hj) as (Aj & _). split; [| apply HS, nth_In; lia].
    rewrite (proj2 (tf_value e D D' K s HD (proj1 HM) _ Aj)).
    apply Rle_trans with (bpow radix2 20); [| apply bpow_le; lia].
    apply (rnd_small _ 20 ltac:(lia)), (tr_small e D D' K s HD (proj1 HM)), Aj. }
  pose proof (eq_trans (eq_sym E) Ev) as Q. injection Q as <-. rewrite Lp in Hi.
  assert (increasing (reals pts)) as Inc by (apply rising_increasing; exact Rs).
  assert (List.length (reals pts) = List.length ms) as Lr by (unfold reals; rewrite map_length; exact Lp).
  rewrite (cr_closed (reals pts) i _ Inc ltac:(lia) ltac:(lia) Bx) in EC. injection EC as <-.
  assert (Y <= bpow radix2 (emax - 7)) as Yl by (eapply Rle_trans; [apply HY | apply bpow_le; lia]).
  destruct (Er Y Yl) as (Fv & Nv).
  { intros k _ Hk. rewrite Lp in Hk. rewrite Ay by exact Hk. now apply Ab. }
  clear Er. rewrite !Ax in Bx by lia.
  assert (forall j, (j < List.length ms)%nat -> counted s (nth j ms s)) as Am by (intros j Hj; apply (maturity s ms ys g M HL H2 HM HMb j Hj)).
  assert (trs (nth i ms s) <= trs d <= trs (nth (i + 1) ms s)) as Bt.
  { split; apply Rnot_lt_le; intros Cn; apply (tf_order e D D' K s HD (proj1 HM)) in Cn; try lra; try exact A; apply Am; lia. }
  exists (cpiece pts' i (trs d)).
  split. { apply cr_closed; [exact Inc' | lia | lia |]. rewrite !Ax' by lia. exact Bt. }
  split; [exact Fv |].
  set (w := un * (M / IZR K)). pose proof (time_small e D D' K ms ys g M HD HL H2 Hg HMg) as Ws. fold w in Ws.
  assert (forall j, (j < List.length ms)%nat -> Rabs (B2R (tfs (nth j ms s)) - trs (nth j ms s)) <= w) as Nj.
  { intros j Hj. apply (time_near e D D' K s ms g M HD HM); [now apply Am | now apply (maturity_time e D D' K s ms ys g M HD HL H2 HM HMb)]. }
  assert (Rabs (B2R (tfs d) - trs d) <= w) as Nd.
  { apply (time_near e D D' K s ms g M HD HM); [exact A |]. pose proof (maturity_time e D D' K s ms ys g M HD HL H2 HM HMb i ltac:(lia)) as T0.
    pose proof (maturity_time e D D' K s ms ys g M HD HL H2 HM HMb (i + 1) Hi) as T1. apply Rabs_le_inv in T0, T1. apply Rabs_le. lra. }
  assert (forall j, (j + 1 < List.length ms)%nat -> g / IZR K <= trs (nth (j + 1) ms s) - trs (nth j ms s)) as Gp
    by (intros j Hj; apply (gap e D D' K s ms ys g M HD HL H2 HM j Hj)).
  assert (forall j, (j + 1 < List.length ms)%nat -> B2R (tfs (nth j ms s)) < B2R (tfs (nth (j + 1) ms s))) as Lt.
  { intros j Hj. pose proof (Inc j (j + 1)%nat ltac:(lia)) as Q. now rewrite !Ax in Q by lia. }
  rewrite (cpiece_creal (reals pts) i _ Inc ltac:(lia) ltac:(lia)) in Nv.
  rewrite (cpiece_creal pts' i _ Inc' ltac:(lia) ltac:(lia)). rewrite Lr in Nv. rewrite Lp'. cbv zeta in Nv |- *.
  set (k := if (i =? 0)%nat then 0%nat else if (i + 2 =? List.length ms)%nat then 2%nat else 1%nat) in *.
  assert ((k <> 0 -> i <> 0) /\ (k <= 1 -> i + 2 < List.length ms))%nat as (Ki & Kl)
    by (unfold k; destruct (Nat.eqb_spec i 0); [lia |]; destruct (Nat.eqb_spec (i + 2) (List.length ms)); lia).
  assert (Rabs (if (k =? 0)%nat then 0 else gy pts' (i - 1)) <= Y) as Ym.
  { destruct (k =? 0)%nat; [rewrite Rabs_R0; pose proof (bpow_gt_0 radix2 (- EL)); lra |]. apply Ab. lia. }
  assert (Rabs (if (k <=? 1)%nat then gy pts' (i + 2) else 0) <= Y) as Y2.
  { destruct (Nat.leb_spec k 1); [apply Ab; lia | rewrite Rabs_R0; pose proof (bpow_gt_0 radix2 (- EL)); lra]. }
  assert ((if (k =? 0)%nat then 0 else gy (reals pts) (i - 1)) = (if (k =? 0)%nat then 0 else gy pts' (i - 1))) as Em
    by (destruct (k =? 0)%nat; [reflexivity | apply Ay; lia]).
  assert ((if (k <=? 1)%nat then gy (reals pts) (i + 2) else 0) = (if (k <=? 1)%nat then gy pts' (i + 2) else 0)) as E2
    by (destruct (Nat.leb_spec k 1); [apply Ay; lia | reflexivity]).
  rewrite Em, E2, !Ay in Nv by lia.
  destruct (creal_moved k (trs d) (gx pts' (i - 1)) (gx pts' i) (gx pts' (i + 1)) (gx pts' (i + 2)) (B2R (tfs d)) (gx (reals pts) (i - 1)) (gx (reals pts) i)
    (gx (reals pts) (i + 1)) (gx (reals pts) (i + 2)) w (g / IZR K) (if (k =? 0)%nat then 0 else gy pts' (i - 1)) (gy pts' i) (gy pts' (i + 1))
    (if (k <=? 1)%nat then gy pts' (i + 2) else 0) Y) as (Mv & Rg).
  - rewrite !Ax' by lia. exact Bt.
  - rewrite !Ax by lia. exact Bx.
  - lra.
  - rewrite !Ax' by lia. now apply Gp.
  - intros K0. specialize (Ki K0). rewrite !Ax', !Ax by lia.
    pose proof (Gp (i - 1)%nat ltac:(lia)) as G1. pose proof (Lt (i - 1)%nat ltac:(lia)) as G2. replace (i - 1 + 1)%nat with i in G1, G2 by lia. auto.
  - intros K1. specialize (Kl ltac:(lia)). rewrite !Ax', !Ax by lia. replace (i + 2)%nat with (i + 1 + 1)%nat by lia.
    split; [apply Gp; lia | apply Lt; lia].
  - rewrite !Ax by lia. apply Lt; lia.
  - exact Nd.
  - rewrite Ax', Ax by lia. apply Nj; lia.
  - rewrite Ax', Ax by lia. now apply Nj.
  - intros K0. specialize (Ki K0). rewrite Ax', Ax by lia. apply Nj; lia.
  - intros K1. specialize (Kl ltac:(lia)). rewrite Ax', Ax by lia. apply Nj; lia.
  - lra.
  - exact Ym.
  - apply Ab; lia.
  - apply Ab; exact Hi.
  - exact Y2.
  - split; [| exact Rg].
    match type of Nv with Rabs (_ - ?a) <= _ => match type of Mv with Rabs (_ - ?b) <= _ => replace (B2R yh - b) with ((B2R yh - a) + (a - b)) by ring end end.
    eapply Rle_trans; [apply Rabs_triang |]. eapply Rle_trans; [apply Rplus_le_compat; [exact Nv | exact Mv] |].
    replace (w / (g / IZR K)) with (un * (M / g)) by (unfold w; field; lra). change (un) with un.
    assert (bpow radix2 (2 - emax - prec) <= un * Y * / 1024) as Tiny.
    { apply Rle_trans with (un * bpow radix2 (- EL) * bpow radix2 (-10)); [rewrite <- !bpow_plus; apply bpow_le; lia |].
      change (bpow radix2 (-10)) with (/ 1024). apply Rmult_le_compat_r; [lra |]. apply Rmult_le_compat_l; [apply bpow_ge_0 | lra]. }
    assert (0 <= un * Y) as PuY by (apply Rmult_le_pos; [apply bpow_ge_0 | pose proof (bpow_gt_0 radix2 (- EL)); lra]).
    unfold cr_growth. lra.
Qed.
End Spline.

(** The factor of a Catmull-Rom curve against the exact one for the same dates and yields. *)
Theorem C108_catmull_rom_factor : forall e D D' K s ms (ys : list fl) g M Y X eps c c' d1 d2 (v : fl),
  counts_at e D D' K -> List.length ms = List.length ys -> (3 <= List.length ms)%nat -> laid_out s ms g M -> 1 <= g -> M < bpow radix2 (prec - 1) ->
  M / g <= bpow radix2 (prec - 15) ->
  sized_at ys Y -> bpow radix2 (- EL) <= Y <= bpow radix2 (EL - 1) -> accurate_at e X eps -> 0 <= eps ->
  curve_new D (CatmullRom (FV prec emax Hp He e)) s ms ys = Ret (Ok c) -> curve_new D' (CatmullRom RV) s ms (map B2R ys) = Ret (Ok c') ->
  counted s d1 -> counted s d2 -> discount_factor D c d1 d2 = Ret (Ok v) ->
  let years d := IZR (serial_date d - serial_date s) / IZR K in
  let B := bpow radix2 (- prec) * (2 * Y) * ((161 + 128 * (M / g)) * (years d1 + years d2) + 3) in
  2 * Y * (years d1 + years d2) + B <= X ->
  exists v' : R, discount_factor D' c' d1 d2 = Ret (Ok v') /\ is_finite v = true /\ 0 < v'
    /\ Rabs (B2R v - v') <= ((1 + eps) * exp B - 1) * v'.
Proof.
  intros e D D' K s ms ys g M Y X eps c c' d1 d2 v HD HL H3 HM Hg HMb Hr HS HY Hac He0 Hc Hc' A1 A2 E years B HX.
  pose proof (fitted_f e D D' K s ms ys HD HL _ c Hc) as (Es & _). pose proof (fitted_r e D D' K s ms ys HD HL _ c' Hc') as (Es' & _).
  assert (spread_error (2 * Y) (cr_growth g M) (years d1 + years d2) = B) as EB by (unfold spread_error, cr_growth, B; ring).
  rewrite <- EB in *.
  assert (2 * bpow radix2 (EL - 1) = bpow radix2 EL) as EE by (replace EL with (1 + (EL - 1))%Z at 2 by ring; now rewrite bpow_plus).
  pose proof (bpow_gt_0 radix2 (- EL)) as PE.
  assert (un * (M / g) <= / 32768) as Q.
  { apply Rle_trans with (un * bpow radix2 (prec - 15)); [apply Rmult_le_compat_l; [apply bpow_ge_0 | exact Hr] |].
    rewrite <- bpow_plus. replace (- prec + (prec - 15))%Z with (-15)%Z by lia. right. reflexivity. }
  assert (14 <= cr_growth g M /\ un * cr_growth g M <= 0.02) as Gr
    by (pose proof (ratio_range s ms ys g M HL ltac:(lia) HM Hg); pose proof u_small; unfold cr_growth; lra).
  apply (factor_near e D D' K s (2 * Y) (cr_growth g M) HD (proj1 HM) ltac:(lra) Gr _ _ c c' Es Es'
    (fun d yh => spline_yield_near e D D' K s ms ys g M Y HD HL H3 HM Hg HMb ltac:(lra) HS HY c c' d yh Hc Hc') X eps d1 d2 v Hac He0 A1 A2 E HX).
Qed.

(** The value of a bond on a Catmull-Rom curve against its exact value. *)
Theorem C108_catmull_rom_value : forall e D D' K s ms (ys : list fl) g M Y X eps c c' (b : Bond fl) settle T (v : fl),
  counts_at e D D' K -> List.length ms = List.length ys -> (3 <= List.length ms)%nat -> laid_out s ms g M -> 1 <= g -> M < bpow radix2 (prec - 1) ->
  M / g <= bpow radix2 (prec - 15) ->
  sized_at ys Y -> bpow radix2 (- EL) <= Y <= bpow radix2 (EL - 1) -> accurate_at e X eps -> 0 <= eps ->
  curve_new D (CatmullRom (FV prec emax Hp He e)) s ms ys = Ret (Ok c) -> curve_new D' (CatmullRom RV) s ms (map B2R ys) = Ret (Ok c') ->
  let years d := IZR (serial_date d - serial_date s) / IZR K in
  counted s settle -> (forall f, In f (bond_cash_flows b) -> counted s (payment_date f) /\ years settle + years (payment_date f) <= T) ->
  let B := bpow radix2 (- prec) * (2 * Y) * ((161 + 128 * (M / g)) * T + 3) in
  2 * Y * T + B <= X ->
  discounted_value (V := (FV prec emax Hp He e)) D b settle c = Ret (Ok v) -> is_finite v = true ->
  let n := List.length (filter (open_flow settle) (bond_cash_flows b)) in
  let u := bpow radix2 (- prec) in
  exists v' G : R, discounted_value (V := RV) D' (bond_reals b) settle c' = Ret (Ok v')
    /\ discounted_value (V := RV) D' (bond_gross b) settle c' = Ret (Ok G)
    /\ Rabs (B2R v - v') <= ((1 + u) ^ (n + 1) * ((1 + eps) * exp B) - 1) * G + INR n * bpow radix2 (2 - emax - prec) * (1 + u) ^ n.
Proof.
  intros e D D' K s ms ys g M Y X eps c c' b settle T v HD HL H3 HM Hg HMb Hr HS HY Hac He0 Hc Hc' years As Af B HX Ev Fv.
  apply (value_near e D D' _ _ c c' b settle ((1 + eps) * exp B) v); [| exact Ev | exact Fv].
  intros f x Hf Ex. destruct (Af f Hf) as (Ap & Tp). pose proof (ratio_range s ms ys g M HL ltac:(lia) HM Hg) as Gr.
  pose proof (bpow_gt_0 radix2 (- EL)) as PE. pose proof u_pos as Pu.
  assert (0 <= bpow radix2 (- prec) * (2 * Y)) as PuY by (apply Rmult_le_pos; lra).
  set (B1 := bpow radix2 (- prec) * (2 * Y) * ((161 + 128 * (M / g)) * (years settle + years (payment_date f)) + 3)).
  assert (B1 <= B) as LB.
  { unfold B1, B. apply Rmult_le_compat_l; [exact PuY |]. apply Rplus_le_compat_r. apply Rmult_le_compat_l; lra. }
  assert (2 * Y * (years settle + years (payment_date f)) <= 2 * Y * T) as LY by (apply Rmult_le_compat_l; lra).
  destruct (C108_catmull_rom_factor e D D' K s ms ys g M Y X eps c c' settle (payment_date f) x HD HL H3 HM Hg HMb Hr HS HY Hac He0 Hc Hc' As Ap Ex)
    as (x' & V' & Fx & P & N).
  { change (2 * Y * (years settle + years (payment_date f)) + B1 <= X). lra. }
  change (Rabs (B2R x - x') <= ((1 + eps) * exp B1 - 1) * x') in N. exists x'. split; [exact V' |]. split; [exact Fx |]. split; [exact P |].
  eapply Rle_trans; [exact N |]. apply Rmult_le_compat_r; [lra |]. apply Rplus_le_compat_r. apply Rmult_le_compat_l; [lra |].
  destruct LB as [LB | ->]; [left; now apply exp_increasing | right; reflexivity].
Qed.
(** ** Natural cubic curves *)

Lemma rounded_difference (a b : fl) ra rb om W k : is_finite a = true -> is_finite b = true -> Rabs (B2R a) <= bpow radix2 20 -> Rabs (B2R b) <= bpow radix2 20 ->
  Rabs (B2R a - ra) <= om -> Rabs (B2R b - rb) <= om -> 0 <= ra - rb <= W -> om <= un * k * W -> 0 <= k -> un * (1 + 3 * k) <= / 50000 ->
  NcError.near prec emax (un * (1 + 3 * k)) W (Bminus (prec_gt_0_ := Hp) (prec_lt_emax_ := He) mode_NE a b) (ra - rb) 1 1.
Proof.
  intros Fa Fb Ba Bb Na Nb D Om Pk Ek.
  assert (bpow radix2 20 <= large emax) as Lg by (apply bpow_le; lia).
  destruct (diff_error prec emax Hp He ltac:(lia) a b Fa Fb ltac:(lra) ltac:(lra)) as (F & d & Hd & E).
  split; [exact F |]. split; [rewrite Rabs_pos_eq; lra |]. rewrite E.
  change (unit_roundoff prec) with un in Hd. pose proof u_small as Eu.
  assert (0 <= om) as Po by (eapply Rle_trans; [apply Rabs_pos | exact Na]).
  set (x := B2R a) in *. set (y := B2R b) in *.
  assert (Rabs (x - y - (ra - rb)) <= 2 * om) as N.
  { replace (x - y - (ra - rb)) with ((x - ra) + - (y - rb)) by ring. eapply Rle_trans; [apply Rabs_triang |]. rewrite Rabs_Ropp. lra. }
  replace ((x - y) * (1 + d) - (ra - rb)) with ((x - y - (ra - rb)) * (1 + d) + (ra - rb) * d) by ring.
  eapply Rle_trans; [apply Rabs_triang |]. rewrite !Rabs_mult.
  assert (Rabs (1 + d) <= 1 + un) as H1 by (apply Rabs_le_inv in Hd; apply Rabs_le; lra).
  assert (Rabs (x - y - (ra - rb)) * Rabs (1 + d) <= 2 * om * (1 + un)) as P1 by (apply Rmult_le_compat; auto using Rabs_pos).
  assert (Rabs (ra - rb) * Rabs d <= W * un) as P2 by (apply Rmult_le_compat; auto using Rabs_pos; rewrite Rabs_pos_eq; lra).
  assert (2 * om * (1 + un) <= 2 * (un * k * W) * (3 / 2)) as P3.
  { pose proof u_pos. assert (1 + un <= 3 / 2) by lra. apply Rmult_le_compat; lra. }
  replace (1 * (un * (1 + 3 * k) * W)) with (W * un + 2 * (un * k * W) * (3 / 2)) by field. lra.
Qed.

Lemma spline_ratio x : x <= bpow radix2 (prec - 18) -> un * x <= / 262144.
Proof.
  intros H. apply Rle_trans with (un * bpow radix2 (prec - 18)); [apply Rmult_le_compat_l; [apply bpow_ge_0 | exact H] |].
  rewrite <- bpow_plus. replace (- prec + (prec - 18))%Z with (-18)%Z by lia. right. reflexivity.
Qed.

Section Natural.
Variables (e : fl -> fl) (D : DayCount (FV prec emax Hp He e)) (D' : DayCount RV) (K : Z) (s : Date) (ms : list Date) (ys : list fl) (g M r Y : R).
Hypothesis HD : counts_at e D D' K.
Hypothesis HL : List.length ms = List.length ys.
Hypothesis H3 : (3 <= List.length ms)%nat.
Hypothesis HM : laid_out s ms g M.
Hypothesis HG : spaced ms (r * g).
Hypothesis Hg : 1 <= g.
Hypothesis HMb : M < bpow radix2 (prec - 1).
Hypothesis HMg : M / g <= bpow radix2 (prec - 18).
Variable NL : Z.
Hypothesis HN : (9 <= NL /\ 9 * NL + 20 <= emax)%Z.
Hypothesis Hw : r * g <= 360 * bpow radix2 NL.
Hypothesis HS : sized_at ys Y.
Hypothesis HY : bpow radix2 (- NL) <= Y <= bpow radix2 NL.
Notation tfs := (tf K s).
Notation trs := (tr K s).
Notation pts := (combine (map tfs ms) ys).
Notation pts' := (curve_points trs ms (map B2R ys)).

Definition nc_growth : R := 1125 * (1 + 3 * (M / g)).

Lemma ratio_one : 1 <= r.
Proof.
  destruct (nth_error ms 0) as [m |] eqn:E0; [| apply nth_error_None in E0; lia].
  destruct (nth_error ms 1) as [m' |] eqn:E1; [| apply nth_error_None in E1; lia].
  pose proof (proj2 (proj2 HM) 0%nat m m' E0 E1). pose proof (HG 0%nat m m' E0 E1). nra.
Qed.

Lemma wide i : (i + 1 < List.length ms)%nat -> trs (nth (i + 1) ms s) - trs (nth i ms s) <= r * (g / IZR K).
Proof.
  intros Hi. destruct (K_real e D D' K ms ys HD HL ltac:(lia)) as (HKr & HKi).
  pose proof (HG i (nth i ms s) (nth (i + 1) ms s) (nth_error_nth2 ms i s ltac:(lia))) as Q.
  replace (S i) with (i + 1)%nat in Q by lia. specialize (Q (nth_error_nth2 ms (i + 1) s Hi)). unfold tr.
  replace (IZR (date_sub (nth (i + 1) ms s) s) / IZR K - IZR (date_sub (nth i ms s) s) / IZR K) with
    (IZR (serial_date (nth (i + 1) ms s) - serial_date (nth i ms s)) / IZR K).
  - unfold Rdiv. rewrite <- Rmult_assoc. apply Rmult_le_compat_r; lra.
  - unfold Rdiv. rewrite <- Rmult_minus_distr_r, <- minus_IZR. do 2 f_equal. unfold date_sub, diff_days, serial_date. lia.
Qed.

Lemma natural_yield_near (c : YieldCurve (FV prec emax Hp He e) (NaturalCubic (FV prec emax Hp He e))) (c' : YieldCurve RV (NaturalCubic RV)) d (yh : fl) :
  curve_new D (NaturalCubic (FV prec emax Hp He e)) s ms ys = Ret (Ok c) -> curve_new D' (NaturalCubic RV) s ms (map B2R ys) = Ret (Ok c') -> counted s d ->
  i_try_value (NaturalCubic (FV prec emax Hp He e)) (interpolator c) (tfs d) = Ret (Ok yh) ->
  exists y : R, i_try_value (NaturalCubic RV) (interpolator c') (trs d) = Ret (Ok y) /\ is_finite yh = true
    /\ Rabs (B2R yh - y) <= un * (4 * r ^ 2 * Y) * nc_growth /\ Rabs y <= 4 * r ^ 2 * Y.
Proof.
  intros Hc Hc' A E. pose proof fmt as (F24 & F128). assert (2 <= List.length ms)%nat as H2 by lia.
  rewrite <- (proj2 (fitted_f e D D' K s ms ys HD HL _ c Hc)) in E. rewrite <- (proj2 (fitted_r e D D' K s ms ys HD HL _ c' Hc')).
  pose proof (pts_length K s ms ys HL H2) as Lp. pose proof (pts'_length K s ms ys HL) as Lp'.
  destruct (K_real e D D' K ms ys HD HL H2) as (HKr & HKi). pose proof (gap_pos e D D' K ms ys g HD HL H2 Hg) as Gpos.
  pose proof (rising_f e D D' K s ms ys g M HD HL H2 HM Hg HMb) as Rs. pose proof (increasing_r e D D' K s ms ys g M HD HL H2 HM Hg) as Inc'.
  pose proof (proj1 (tf_value e D D' K s HD (proj1 HM) d A)) as Fx.
  assert (forall j, (j < List.length ms)%nat -> gx (reals pts) j = B2R (tfs (nth j ms s))) as Ax
    by (intros j Hj; now rewrite gx_reals, (pts_nth K s ms ys HL j Hj)).
  assert (forall j, (j < List.length ms)%nat -> gx pts' j = trs (nth j ms s)) as Ax' by (intros j Hj; apply (pts'_nth K s ms ys HL H2 j Hj)).
  assert (forall j, (j < List.length ms)%nat -> Rabs (gy pts' j) <= Y) as Ab
    by (intros j Hj; rewrite (proj2 (pts'_nth K s ms ys HL H2 j Hj)); apply HS, nth_In; lia).
  pose proof (natural_in_range prec emax Hp He e pts (tfs d) yh Rs Fx ltac:(lia) E) as Hx.
  destruct (nc_float_eval prec emax Hp He e pts (tfs d) ltac:(lia) Rs Fx Hx) as (i & Hi & Bx & Ev).
  pose proof (eq_trans (eq_sym E) Ev) as Q. injection Q as ->. clear E Ev. rewrite Lp in Hi. rewrite !Ax in Bx by lia.
  assert (forall j, (j < List.length ms)%nat -> counted s (nth j ms s)) as Am by (intros j Hj; apply (maturity s ms ys g M HL H2 HM HMb j Hj)).
  assert (trs (nth i ms s) <= trs d <= trs (nth (i + 1) ms s)) as Bt.
  { split; apply Rnot_lt_le; intros Cn; apply (tf_order e D D' K s HD (proj1 HM)) in Cn; try lra; try exact A; apply Am; lia. }
  assert (gx pts' i <= trs d <= gx pts' (i + 1)) as Bt' by (rewrite !Ax' by lia; exact Bt).
  pose proof (nc_value_ds pts' i (trs d) Inc' ltac:(lia) ltac:(lia) Bt') as Er.
  exists (q pts' (second_of (nc_ds pts')) i (trs d)). split; [exact Er |].
  set (om := un * (M / IZR K)).
  assert (forall j, (j < List.length ms)%nat -> Rabs (B2R (tfs (nth j ms s)) - trs (nth j ms s)) <= om) as Nj.
  { intros j Hj. apply (time_near e D D' K s ms g M HD HM); [now apply Am | now apply (maturity_time e D D' K s ms ys g M HD HL H2 HM HMb)]. }
  assert (Rabs (B2R (tfs d) - trs d) <= om) as Nd.
  { apply (time_near e D D' K s ms g M HD HM); [exact A |]. pose proof (maturity_time e D D' K s ms ys g M HD HL H2 HM HMb i ltac:(lia)) as T0.
    pose proof (maturity_time e D D' K s ms ys g M HD HL H2 HM HMb (i + 1) Hi) as T1. apply Rabs_le_inv in T0, T1. apply Rabs_le. lra. }
  assert (forall m, counted s m -> is_finite (tfs m) = true /\ Rabs (B2R (tfs m)) <= bpow radix2 20) as Sm.
  { intros m Hm. destruct (tf_value e D D' K s HD (proj1 HM) m Hm) as (F & V). split; [exact F |]. rewrite V.
    apply (rnd_small _ 20 ltac:(lia)), (tr_small e D D' K s HD (proj1 HM)), Hm. }
  pose proof (ratio_range s ms ys g M HL H2 HM Hg) as (PM & RM). pose proof u_small as Eu. pose proof u_pos as Pu. pose proof (spline_ratio _ HMg) as Sr.
  set (k := M / g) in *. set (h := g / IZR K) in *.
  assert (un * (1 + 3 * k) <= / 50000) as Ek by lra.
  assert (unit_roundoff prec <= un * (1 + 3 * k) <= / 50000) as Ue.
  { split; [| exact Ek]. change (unit_roundoff prec) with un. nra. }
  assert (forall W, h <= W -> om <= un * k * W) as Om.
  { intros W HW. replace om with (un * k * h) by (unfold om, k, h; field; lra). apply Rmult_le_compat_l; [| exact HW].
    apply Rmult_le_pos; lra. }
  assert (forall j, (j + 1 < List.length ms)%nat -> h <= w pts' j <= r * h) as Gw.
  { intros j Hj. unfold w. rewrite !Ax' by lia. split; [apply (gap e D D' K s ms ys g M HD HL H2 HM j Hj) | now apply wide]. }
  assert (forall j, (j + 1 < List.length ms)%nat -> w pts' j <= bpow radix2 NL) as Wl.
  { intros j Hj. eapply Rle_trans; [apply (Gw j Hj) |]. unfold h. pose proof (bpow_gt_0 radix2 NL) as PN.
    apply Rle_trans with (360 * bpow radix2 NL * / IZR K); [unfold Rdiv; rewrite <- Rmult_assoc; apply Rmult_le_compat_r; lra |].
    apply Rle_trans with (360 * bpow radix2 NL * / 360); [apply Rmult_le_compat_l; lra | lra]. }
  set (m := bpow radix2 NL). assert (8 <= m) as M8 by (change 8 with (bpow radix2 3); apply bpow_le; lia).
  assert (forall k, m ^ k = bpow radix2 (Z.of_nat k * NL)) as Pw.
  { induction k0 as [| k0 IHk]; [reflexivity |]. rewrite <- tech_pow_Rmult, IHk. unfold m. rewrite <- bpow_plus. f_equal. lia. }
  assert (forall k, / m ^ k = bpow radix2 (- (Z.of_nat k * NL))) as Pi by (intros k0; now rewrite Pw, bpow_opp).
  assert (forall S, mag m 9 S -> mild emax S) as Mild.
  { intros S [S1 S2]. rewrite Pi in S1. rewrite Pw in S2. split; [eapply Rle_trans; [| exact S1] | eapply Rle_trans; [exact S2 |]]; apply bpow_le; lia. }
  assert (mag m 1 h) as Mh.
  { split; [rewrite Pi | rewrite Pw]; rewrite Z.mul_1_l.
    - apply Rle_trans with (bpow radix2 (-9)); [apply bpow_le; lia |]. change (bpow radix2 (-9)) with (/ 512). lra.
    - eapply Rle_trans; [apply (Gw 0%nat); lia | apply Wl; lia]. }
  assert (mag m 1 Y) as MY by (split; [rewrite Pi | rewrite Pw]; rewrite Z.mul_1_l; apply HY).
  assert (List.length pts' = List.length pts) as Ll by lia.
  set (z := (B754_nan, B754_nan) : fl * fl).
  assert (forall j, (j < List.length ms)%nat -> fst (nth j pts z) = tfs (nth j ms s)) as Fz by (intros j Hj; unfold z; now rewrite (pts_nth K s ms ys HL j Hj)).
  pose proof (nform_near prec emax Hp He (un * (1 + 3 * k)) Ue ltac:(lia) e pts pts' Ll ltac:(lia) m h Y M8 Mild Mh MY) as NF.
  specialize (NF ltac:(intros j Hj; rewrite Lp in Hj; split; [apply Gw; exact Hj | apply Wl; exact Hj])).
  assert (forall j : nat, (j + 1 < List.length pts)%nat -> NcError.near prec emax (un * (1 + 3 * k)) (w pts' j)
    (Bminus (prec_gt_0_ := Hp) (prec_lt_emax_ := He) mode_NE (fst (nth (j + 1) pts z)) (fst (nth j pts z))) (w pts' j) 1 1) as Wn.
  { intros j Hj. rewrite Lp in Hj. rewrite !Fz by lia. unfold w at 2. rewrite !Ax' by lia.
    destruct (Sm _ (Am j ltac:(lia))) as (F0 & B0). destruct (Sm _ (Am (j + 1)%nat Hj)) as (F1 & B1).
    destruct (Gw j Hj) as (G1 & _). apply (rounded_difference _ _ _ _ om); try assumption; try lra; [apply Nj; lia | apply Nj; lia | | now apply Om].
    unfold w in *. rewrite !Ax' in * by lia. lra. }
  specialize (NF Wn).
  specialize (NF ltac:(intros j Hj; rewrite Lp in Hj; unfold z; rewrite (pts_nth K s ms ys HL j Hj); cbn [snd];
    split; [apply HS, nth_In; lia | split; [symmetry; apply (pts'_nth K s ms ys HL H2 j Hj) | now apply Ab]])).
  specialize (NF i (tfs d) (trs d) ltac:(lia)).
  destruct (Gw i Hi) as (G1 & G2). destruct (Sm _ A) as (Fd & Bd). fold z.
  destruct (Sm _ (Am i ltac:(lia))) as (F0 & B0). destruct (Sm _ (Am (i + 1)%nat Hi)) as (F1 & B1).
  destruct NF as (Fv & _ & Nv).
  { fold z. rewrite Fz, Ax' by lia. apply (rounded_difference _ _ _ _ om); try assumption; try lra; [now apply Nj | | now apply Om].
    unfold w. rewrite !Ax' by lia. lra. }
  { fold z. rewrite Fz, Ax' by lia. apply (rounded_difference _ _ _ _ om); try assumption; try lra; [apply Nj; lia | | now apply Om].
    unfold w. rewrite !Ax' by lia. lra. }
  fold z in Fv, Nv. split; [exact Fv |].
  assert (0 < Y) as PY by (pose proof (bpow_gt_0 radix2 (- NL)); lra). pose proof ratio_one as R1.
  assert (w pts' i * w pts' i * (Y / h / h) <= r ^ 2 * Y) as Sc.
  { replace (r ^ 2 * Y) with (r * h * (r * h) * (Y / h / h)) by (field; lra). apply Rmult_le_compat_r; [| apply Rmult_le_compat; lra].
    unfold Rdiv. repeat apply Rmult_le_pos; try lra; left; apply Rinv_0_lt_compat; lra. }
  split.
  - eapply Rle_trans; [exact Nv |]. unfold nc_growth. fold k.
    assert (un * (1 + 3 * k) * (w pts' i * w pts' i * (Y / h / h)) <= un * (1 + 3 * k) * (r ^ 2 * Y)) as P
      by (apply Rmult_le_compat_l; [apply Rmult_le_pos; lra | exact Sc]). lra.
  - destruct (PropsNcStability.C92_natural_cubic_size h r pts' (trs d) Y) as (y & Ey & By); try assumption; try lia; try lra.
    + intros j Hj. rewrite Lp' in Hj. apply (Gw j Hj).
    + unfold last_of. rewrite Lp'. split; [destruct i as [| i']; [lra |]; pose proof (Inc' 0%nat (S i') ltac:(lia)); lra |].
      destruct (Nat.eq_dec (i + 1) (List.length ms - 1)) as [<- | N]; [lra |]. pose proof (Inc' (i + 1)%nat (List.length ms - 1)%nat ltac:(lia)). lra.
    + intros j Hj. rewrite Lp' in Hj. now apply Ab.
    + pose proof (eq_trans (eq_sym Er) Ey) as Q. injection Q as <-. eapply Rle_trans; [exact By |]. apply Rmult_le_compat_r; [lra |]. simpl. nra.
Qed.
End Natural.

(** The factor of a natural cubic curve against the exact one for the same dates and yields. *)
Theorem C108_natural_cubic_factor : forall NL e D D' K s ms (ys : list fl) g M r Y X eps c c' d1 d2 (v : fl),
  counts_at e D D' K -> List.length ms = List.length ys -> (3 <= List.length ms)%nat -> laid_out s ms g M -> spaced ms (r * g) ->
  1 <= g -> M < bpow radix2 (prec - 1) -> M / g <= bpow radix2 (prec - 18) ->
  (9 <= NL)%Z -> (9 * NL + 20 <= emax)%Z -> r * g <= 360 * bpow radix2 NL ->
  sized_at ys Y -> bpow radix2 (- NL) <= Y <= bpow radix2 NL -> bpow radix2 (- EL) <= 4 * r ^ 2 * Y <= bpow radix2 EL -> accurate_at e X eps -> 0 <= eps ->
  curve_new D (NaturalCubic (FV prec emax Hp He e)) s ms ys = Ret (Ok c) -> curve_new D' (NaturalCubic RV) s ms (map B2R ys) = Ret (Ok c') ->
  counted s d1 -> counted s d2 -> discount_factor D c d1 d2 = Ret (Ok v) ->
  let years d := IZR (serial_date d - serial_date s) / IZR K in
  let B := bpow radix2 (- prec) * (4 * r ^ 2 * Y) * ((1130 + 3375 * (M / g)) * (years d1 + years d2) + 3) in
  4 * r ^ 2 * Y * (years d1 + years d2) + B <= X ->
  exists v' : R, discount_factor D' c' d1 d2 = Ret (Ok v') /\ is_finite v = true /\ 0 < v'
    /\ Rabs (B2R v - v') <= ((1 + eps) * exp B - 1) * v'.
Proof.
  intros NL e D D' K s ms ys g M r Y X eps c c' d1 d2 v HD HL H3 HM HG Hg HMb HMg HN1 HN2 Hw HS HY HY' Hac He0 Hc Hc' A1 A2 E years B HX.
  pose proof (fitted_f e D D' K s ms ys HD HL _ c Hc) as (Es & _). pose proof (fitted_r e D D' K s ms ys HD HL _ c' Hc') as (Es' & _).
  assert (spread_error (4 * r ^ 2 * Y) (nc_growth g M) (years d1 + years d2) = B) as EB by (unfold spread_error, nc_growth, B; ring).
  rewrite <- EB in *. pose proof (ratio_one s ms ys g M r HL H3 HM HG Hg) as R1.
  assert (14 <= nc_growth g M /\ un * nc_growth g M <= 0.02) as Gr.
  { pose proof (ratio_range s ms ys g M HL ltac:(lia) HM Hg) as (PM & RM). pose proof (spline_ratio _ HMg). pose proof u_small. unfold nc_growth. lra. }
  apply (factor_near e D D' K s (4 * r ^ 2 * Y) (nc_growth g M) HD (proj1 HM) HY' Gr _ _ c c' Es Es'
    (fun d yh => natural_yield_near e D D' K s ms ys g M r Y HD HL H3 HM HG Hg HMb HMg NL (conj HN1 HN2) Hw HS HY c c' d yh Hc Hc') X eps d1 d2 v Hac He0 A1 A2 E HX).
Qed.

(** The value of a bond on a natural cubic curve against its exact value. *)
Theorem C108_natural_cubic_value : forall NL e D D' K s ms (ys : list fl) g M r Y X eps c c' (b : Bond fl) settle T (v : fl),
  counts_at e D D' K -> List.length ms = List.length ys -> (3 <= List.length ms)%nat -> laid_out s ms g M -> spaced ms (r * g) ->
  1 <= g -> M < bpow radix2 (prec - 1) -> M / g <= bpow radix2 (prec - 18) ->
  (9 <= NL)%Z -> (9 * NL + 20 <= emax)%Z -> r * g <= 360 * bpow radix2 NL ->
  sized_at ys Y -> bpow radix2 (- NL) <= Y <= bpow radix2 NL -> bpow radix2 (- EL) <= 4 * r ^ 2 * Y <= bpow radix2 EL -> accurate_at e X eps -> 0 <= eps ->
  curve_new D (NaturalCubic (FV prec emax Hp He e)) s ms ys = Ret (Ok c) -> curve_new D' (NaturalCubic RV) s ms (map B2R ys) = Ret (Ok c') ->
  let years d := IZR (serial_date d - serial_date s) / IZR K in
  counted s settle -> (forall f, In f (bond_cash_flows b) -> counted s (payment_date f) /\ years settle + years (payment_date f) <= T) ->
  let B := bpow radix2 (- prec) * (4 * r ^ 2 * Y) * ((1130 + 3375 * (M / g)) * T + 3) in
  4 * r ^ 2 * Y * T + B <= X ->
  discounted_value (V := (FV prec emax Hp He e)) D b settle c = Ret (Ok v) -> is_finite v = true ->
  let n := List.length (filter (open_flow settle) (bond_cash_flows b)) in
  let u := bpow radix2 (- prec) in
  exists v' G : R, discounted_value (V := RV) D' (bond_reals b) settle c' = Ret (Ok v')
    /\ discounted_value (V := RV) D' (bond_gross b) settle c' = Ret (Ok G)
    /\ Rabs (B2R v - v') <= ((1 + u) ^ (n + 1) * ((1 + eps) * exp B) - 1) * G + INR n * bpow radix2 (2 - emax - prec) * (1 + u) ^ n.
Proof.
  intros NL e D D' K s ms ys g M r Y X eps c c' b settle T v HD HL H3 HM HG Hg HMb HMg HN1 HN2 Hw HS HY HY' Hac He0 Hc Hc' years As Af B HX Ev Fv.
  apply (value_near e D D' _ _ c c' b settle ((1 + eps) * exp B) v); [| exact Ev | exact Fv].
  intros f x Hf Ex. destruct (Af f Hf) as (Ap & Tp). pose proof (ratio_range s ms ys g M HL ltac:(lia) HM Hg) as Gr.
  pose proof (bpow_gt_0 radix2 (- NL)) as PN. pose proof u_pos as Pu.
  assert (0 <= 4 * r ^ 2 * Y) as Pr by (apply Rmult_le_pos; [| lra]; pose proof (pow2_ge_0 r); lra).
  assert (0 <= bpow radix2 (- prec) * (4 * r ^ 2 * Y)) as PuY by (apply Rmult_le_pos; lra).
  set (B1 := bpow radix2 (- prec) * (4 * r ^ 2 * Y) * ((1130 + 3375 * (M / g)) * (years settle + years (payment_date f)) + 3)).
  assert (B1 <= B) as LB.
  { unfold B1, B. apply Rmult_le_compat_l; [exact PuY |]. apply Rplus_le_compat_r. apply Rmult_le_compat_l; lra. }
  assert (4 * r ^ 2 * Y * (years settle + years (payment_date f)) <= 4 * r ^ 2 * Y * T) as LY by (apply Rmult_le_compat_l; lra).
  destruct (C108_natural_cubic_factor NL e D D' K s ms ys g M r Y X eps c c' settle (payment_date f) x HD HL H3 HM HG Hg HMb HMg HN1 HN2 Hw HS HY HY' Hac He0 Hc Hc' As Ap Ex)
    as (x' & V' & Fx & P & N).
  { change (4 * r ^ 2 * Y * (years settle + years (payment_date f)) + B1 <= X). lra. }
  change (Rabs (B2R x - x') <= ((1 + eps) * exp B1 - 1) * x') in N. exists x'. split; [exact V' |]. split; [exact Fx |]. split; [exact P |].
  eapply Rle_trans; [exact N |]. apply Rmult_le_compat_r; [lra |]. apply Rplus_le_compat_r. apply Rmult_le_compat_l; [lra |].
  destruct LB as [LB | ->]; [left; now apply exp_increasing | right; reflexivity].
Qed.
End Any.
Print Assumptions C108_factor.
Print Assumptions C108_value.

Print Assumptions C108_catmull_rom_factor.
Print Assumptions C108_catmull_rom_value.
Print Assumptions C108_natural_cubic_factor.
Print Assumptions C108_natural_cubic_value.

(** One plus the argument, in binary32. *)
Definition ex_exp32 (x : binary_float 24 128) : binary_float 24 128 :=
  Bplus (prec_gt_0_ := Hp24) (prec_lt_emax_ := He128) mode_NE (of_int 24 128 Hp24 He128 1) x.

Lemma fmt32 : (24 <= 24)%Z /\ (128 <= 128)%Z.
Proof. lia. Qed.

Lemma ex_exp32_accurate : accurate_at 24 128 ex_exp32 (/ 2) (3 / 5).
Proof.
  intros x Fx Bx. apply Rabs_le_inv in Bx. destruct (of_int_correct 24 128 Hp24 He128 1) as (E1 & F1); [reflexivity | lia |].
  destruct (safe_plus 24 128 Hp24 He128 fmt32 (of_int 24 128 Hp24 He128 1) x 1 F1 Fx ltac:(lia)) as (Ff & _).
  { rewrite E1. change (bpow radix2 1) with 2. apply Rabs_le. lra. }
  fold (ex_exp32 x) in Ff. split; [exact Ff |]. destruct (plus_error 24 128 Hp24 He128 _ _ Ff) as (_ & _ & d & Hd & Ex). fold (ex_exp32 x) in Ex.
  rewrite Ex, E1. change (unit_roundoff 24) with (/ 16777216) in Hd. apply Rabs_le_inv in Hd.
  pose proof (one_plus_near (B2R x) 0 Bx ltac:(lra)) as N. rewrite Rplus_0_r, Rmult_1_r in N.
  replace ((1 + B2R x) * (1 + d) - exp (B2R x)) with ((1 + B2R x - exp (B2R x)) + (1 + B2R x) * d) by ring.
  eapply Rle_trans; [apply Rabs_triang |]. rewrite (Rabs_mult (1 + B2R x)), (Rabs_pos_eq (1 + B2R x)) by lra.
  assert ((1 + B2R x) * Rabs d <= (1 + B2R x) * / 16777216) by (apply Rmult_le_compat_l; [lra | apply Rabs_le; lra]).
  assert (1 + B2R x <= exp (B2R x)) by (destruct (Req_dec (B2R x) 0) as [-> | Nz]; [rewrite exp_0; lra | left; now apply exp_ineq1]). lra.
Qed.

(** Yields of 1/512, 1/256 and 1/128 one, two and four years out and two flows, in binary32, for the three interpolators. *)
Example C108_case : let i := of_int 24 128 Hp24 He128 in let V := F32 ex_exp32 in
  let q k := Bdiv (prec_gt_0_ := Hp24) (prec_lt_emax_ := He128) mode_NE (i 1%Z) (i k) in let ys := [q 512; q 256; q 128]%Z in
  let b := mkBond (V := binary_float 24 128) ""
    [mkFlow (mkDate 2025 3 3) (mkDate 2025 3 3) (i 5%Z); mkFlow (mkDate 2025 9 1) (mkDate 2025 9 1) (i 105%Z)] in
  let years d := IZR (serial_date d - serial_date ex_settle) / 365 in
  let B := bpow radix2 (- 24) * (4 * 2 ^ 2 * / 128) * ((1130 + 3375 * (1460 / 365)) * (9 / 5) + 3) in
  counts_at 24 128 Hp24 He128 ex_exp32 (act_365 V) (act_365 RV) 365 /\ laid_out ex_settle ex_maturities 365 1460 /\ spaced ex_maturities (2 * 365)
  /\ 1460 < bpow radix2 (24 - 1) /\ 1460 / 365 <= bpow radix2 (24 - 18) /\ 2 * 365 <= 360 * bpow radix2 12
  /\ sized_at 24 128 ys (/ 128) /\ bpow radix2 (- 12) <= / 128 <= bpow radix2 12
  /\ bpow radix2 (- 87) <= / 128 <= bpow radix2 87 /\ bpow radix2 (- 88) <= 4 * 2 ^ 2 * / 128 <= bpow radix2 88
  /\ accurate_at 24 128 ex_exp32 (/ 2) (3 / 5) /\ 4 * 2 ^ 2 * / 128 * (9 / 5) + B <= / 2
  /\ (forall f, In f (bond_cash_flows b) -> counted 24 ex_settle (payment_date f) /\ years ex_settle + years (payment_date f) <= 9 / 5)
  /\ counted 24 ex_settle ex_settle
  /\ (exists c c' v, curve_new (act_365 V) (Linear V) ex_settle ex_maturities ys = Ret (Ok c)
    /\ curve_new (act_365 RV) (Linear RV) ex_settle ex_maturities (map B2R ys) = Ret (Ok c')
    /\ discounted_value (V := V) (act_365 V) b ex_settle c = Ret (Ok v) /\ is_finite v = true)
  /\ (exists c c' v, curve_new (act_365 V) (CatmullRom V) ex_settle ex_maturities ys = Ret (Ok c)
    /\ curve_new (act_365 RV) (CatmullRom RV) ex_settle ex_maturities (map B2R ys) = Ret (Ok c')
    /\ discounted_value (V := V) (act_365 V) b ex_settle c = Ret (Ok v) /\ is_finite v = true)
  /\ (exists c c' v, curve_new (act_365 V) (NaturalCubic V) ex_settle ex_maturities ys = Ret (Ok c)
    /\ curve_new (act_365 RV) (NaturalCubic RV) ex_settle ex_maturities (map B2R ys) = Ret (Ok c')
    /\ discounted_value (V := V) (act_365 V) b ex_settle c = Ret (Ok v) /\ is_finite v = true).
Proof.
  intros i V q ys b years B. destruct C98_case as (_ & H2 & _).
  assert (counts_at 24 128 Hp24 He128 ex_exp32 (act_365 V) (act_365 RV) 365) as H1 by (right; auto).
  split; [exact H1 |]. split; [exact H2 |].
  split.
  { intros [| [| [| k]]] m m' Hm Hm'; try discriminate; injection Hm as <-; injection Hm' as <-;
      match goal with |- IZR ?z <= _ => let k := eval vm_compute in z in change z with k end; lra. }
  split; [change (bpow radix2 (24 - 1)) with 8388608; lra |].
  split; [change (bpow radix2 (24 - 18)) with 64; lra |].
  split; [change (bpow radix2 12) with 4096; lra |].
  split.
  { assert (forall k, (k = 512 \/ k = 256 \/ k = 128)%Z -> is_finite (q k) = true /\ Rabs (B2R (q k)) <= / 128) as Q.
    { intros k Hk. destruct (of_int_correct 24 128 Hp24 He128 1) as (E1 & F1); [reflexivity | lia |].
      destruct (of_int_correct 24 128 Hp24 He128 k) as (Ek & Fk); [lia | lia |].
      assert (128 <= IZR k) as Lk by (apply IZR_le; lia).
      assert (Rabs (B2R (i 1%Z) / B2R (i k)) <= bpow radix2 (-7)) as Bd.
      { unfold i. rewrite E1, Ek. unfold Rdiv. rewrite Rmult_1_l, Rabs_inv, Rabs_pos_eq by lra. change (bpow radix2 (-7)) with (/ 128). apply Rinv_le; lra. }
      assert (B2R (i k) <> 0) as Nk by (unfold i; rewrite Ek; lra).
      destruct (safe_div 24 128 Hp24 He128 fmt32 (i 1%Z) (i k) 0 F1 Nk ltac:(lia)) as (Fd & _).
      { eapply Rle_trans; [exact Bd |]. apply bpow_le. lia. }
      split; [exact Fd |].
      pose proof (Bdiv_correct 24 128 Hp24 He128 mode_NE (i 1%Z) (i k) Nk) as C. change (round_mode mode_NE) with ZnearestE in C.
      fold (rnd 24 128 (B2R (i 1%Z) / B2R (i k))) in C.
      assert (Rabs (rnd 24 128 (B2R (i 1%Z) / B2R (i k))) <= bpow radix2 (-7)) as Br.
      { apply abs_round_le_generic; [apply fexp_correct; exact Hp24 | apply valid_rnd_N | | exact Bd].
        apply generic_format_bpow'; [apply fexp_correct; exact Hp24 | unfold SpecFloat.fexp, SpecFloat.emin; lia]. }
      rewrite Rlt_bool_true in C by (eapply Rle_lt_trans; [exact Br | apply bpow_lt; lia]). unfold q. destruct C as (-> & _). exact Br. }
    intros y [<- | [<- | [<- | []]]]; apply Q; auto. }
  assert (bpow radix2 (- 12) = / 4096 /\ bpow radix2 12 = 4096) as (T1 & T2) by (split; reflexivity).
  split; [lra |].
  assert (forall n, (12 <= n)%Z -> bpow radix2 (- n) <= / 4096 /\ 4096 <= bpow radix2 n) as Wd by (intros n Hn; rewrite <- T1, <- T2; split; apply bpow_le; lia).
  assert (bpow radix2 (- 87) <= / 4096 /\ 4096 <= bpow radix2 87) by exact (Wd 87%Z ltac:(lia)).
  assert (bpow radix2 (- 88) <= / 4096 /\ 4096 <= bpow radix2 88) by exact (Wd 88%Z ltac:(lia)).
  split; [lra |]. split; [simpl; lra |].
  split; [exact ex_exp32_accurate |].
  split; [unfold B; change (bpow radix2 (- 24)) with (/ 16777216); lra |].
  split.
  { intros f [<- | [<- | []]]; (split; [split; [now apply valid_a_date | reflexivity] |]); unfold years; cbn [payment_date];
      repeat match goal with |- context [IZR (?a - ?b)] => let k := eval vm_compute in (a - b)%Z in change (a - b)%Z with k end; lra. }
  split; [split; [now apply valid_a_date | reflexivity] |].
  set (tt := fun d => IZR (date_sub d ex_settle) / 365).
  assert (increasing (curve_points tt ex_maturities (map B2R ys))) as Inc
    by (exact (increasing_r 24 128 Hp24 He128 ex_exp32 (act_365 V) (act_365 RV) 365 ex_settle ex_maturities ys 365 1460 H1 eq_refl ltac:(simpl; lia) H2 ltac:(lra))).
  split; [| split].
  - assert (match curve_new (act_365 V) (Linear V) ex_settle ex_maturities ys with
      | Ret (Ok c) => match discounted_value (V := V) (act_365 V) b ex_settle c with Ret (Ok v) => is_finite v | _ => false end
      | _ => false end = true) as Q by (vm_compute; reflexivity).
    destruct (curve_new (act_365 V) (Linear V) ex_settle ex_maturities ys) as [[c | er] | |] eqn:Ec; try discriminate.
    destruct (discounted_value (V := V) (act_365 V) b ex_settle c) as [[v | er] | |] eqn:Ev; try discriminate.
    exists c. eexists. exists v. split; [reflexivity |]. split; [reflexivity |]. split; [exact Ev | exact Q].
  - assert (match curve_new (act_365 V) (CatmullRom V) ex_settle ex_maturities ys with
      | Ret (Ok c) => match discounted_value (V := V) (act_365 V) b ex_settle c with Ret (Ok v) => is_finite v | _ => false end
      | _ => false end = true) as Q by (vm_compute; reflexivity).
    destruct (curve_new (act_365 V) (CatmullRom V) ex_settle ex_maturities ys) as [[c | er] | |] eqn:Ec; try discriminate.
    destruct (discounted_value (V := V) (act_365 V) b ex_settle c) as [[v | er] | |] eqn:Ev; try discriminate.
    pose proof (C43_fit RV (act_365 RV) (CatmullRom RV) ex_settle ex_maturities (map B2R ys) tt eq_refl (fun m _ => eq_refl)) as F. cbv zeta in F.
    change (combine (map tt ex_maturities) (map B2R ys)) with (curve_points tt ex_maturities (map B2R ys)) in F.
    rewrite cr_fit in F; [| | simpl; lia].
    + destruct F as (c' & Ec' & _). exists c, c', v. auto.
    + now apply increasing_sorted.
  - assert (match curve_new (act_365 V) (NaturalCubic V) ex_settle ex_maturities ys with
      | Ret (Ok c) => match discounted_value (V := V) (act_365 V) b ex_settle c with Ret (Ok v) => is_finite v | _ => false end
      | _ => false end = true) as Q by (vm_compute; reflexivity).
    destruct (curve_new (act_365 V) (NaturalCubic V) ex_settle ex_maturities ys) as [[c | er] | |] eqn:Ec; try discriminate.
    destruct (discounted_value (V := V) (act_365 V) b ex_settle c) as [[v | er] | |] eqn:Ev; try discriminate.
    pose proof (C43_fit RV (act_365 RV) (NaturalCubic RV) ex_settle ex_maturities (map B2R ys) tt eq_refl (fun m _ => eq_refl)) as F. cbv zeta in F.
    change (combine (map tt ex_maturities) (map B2R ys)) with (curve_points tt ex_maturities (map B2R ys)) in F.
    rewrite (nc_fit_seconds (V := RV) _ (0, 0) 6 3) in F; [| reflexivity | reflexivity | intros x; apply Rltb_false; simpl; lra | simpl; lia |].
    + destruct F as (c' & Ec' & _). exists c, c', v. auto.
    + apply (in_order_real fst _ (0, 0)). now apply increasing_sorted.
Qed.
