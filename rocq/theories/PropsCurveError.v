(** Property C98: discount factors and bond values in binary64 against exact arithmetic. *)
From Coq Require Import String ZArith Reals Bool List Arith Lia Lra Psatz.
From Flocq Require Import Core BinarySingleNaN Relative.
From Verif Require Import Base Chrono Gregorian DateModel DateFacts Value RealValue FloatValue FloatFacts DayCountModel InterpModel InterpFacts Grid
  CurveModel BondModel PropsDate PropsDayCount PropsDayCountFloat PropsLinear PropsCurve PropsBond PropsFloatKnots PropsFloatLinear PropsCurveFloat
  PropsBondFloat.
Import ListNotations.
Open Scope R_scope.

Notation f64 := (binary_float 53 1024).
Notation u64 := (bpow radix2 (-53)).

(** ** Real numbers *)

(** A quotient of perturbed differences. *)
Lemma quotient_error a g al ga w : 0 <= a <= g -> 0 < g -> Rabs al <= w -> Rabs ga <= w -> 2 * w <= g ->
  Rabs ((a + al) / (g + ga) - a / g) <= 4 * w / g.
Proof.
  intros Ha Hg Hal Hga Hw. apply Rabs_le_inv in Hal, Hga.
  replace ((a + al) / (g + ga) - a / g) with ((al * g - a * ga) * / (g * (g + ga))) by (field; lra).
  rewrite Rabs_mult, Rabs_inv, (Rabs_pos_eq (g * (g + ga))) by (apply Rmult_le_pos; lra).
  apply Rle_trans with (2 * w * g * / (g * (g / 2))).
  - apply Rmult_le_compat; [apply Rabs_pos | left; apply Rinv_0_lt_compat, Rmult_lt_0_compat; lra | apply Rabs_le; split; nra |].
    apply Rinv_le; [apply Rmult_lt_0_compat; lra | apply Rmult_le_compat_l; lra].
  - right. field. lra.
Qed.

(** Two factors near each other when their logarithms are. *)
Lemma exp_near x x' B : Rabs (x' - x) <= B -> exp x * exp (- B) <= exp x' <= exp x * exp B.
Proof.
  intros H. apply Rabs_le_inv in H. rewrite <- !exp_plus.
  assert (forall a b, a <= b -> exp a <= exp b) as M by (intros a b [L | ->]; [left; now apply exp_increasing | right; reflexivity]).
  split; apply M; lra.
Qed.

Lemma exp_error x x' B eps v : Rabs (x' - x) <= B -> 0 <= eps -> Rabs (v - exp x') <= eps * exp x' ->
  Rabs (v - exp x) <= ((1 + eps) * exp B - 1) * exp x.
Proof.
  intros H He Hv. destruct (exp_near x x' B H) as (L & U). apply Rabs_le_inv in Hv.
  pose proof (exp_pos x) as P. pose proof (exp_pos x') as P'. pose proof (Rabs_pos (x' - x)) as Pb.
  assert (1 + B <= exp B) as E1 by (destruct (Req_dec B 0) as [-> | N]; [rewrite exp_0; lra | left; now apply exp_ineq1]).
  assert (1 - B <= exp (- B)) as E2 by (destruct (Req_dec B 0) as [-> | N]; [rewrite Ropp_0, exp_0; lra | left; apply (exp_ineq1 (- B)); lra]).
  assert (exp (- B) * exp B = 1) as E3 by (rewrite <- exp_plus; replace (- B + B) with 0 by ring; apply exp_0).
  pose proof (exp_pos (- B)) as Pm. set (q := exp B) in *. set (r := exp (- B)) in *.
  assert (2 - q <= r) as Q by nra.
  apply Rabs_le. split.
  - apply Rle_trans with ((1 - eps) * exp x' - exp x); [| lra].
    destruct (Rle_lt_dec eps 1) as [C | C].
    + assert ((1 - eps) * (exp x * r) <= (1 - eps) * exp x') by (apply Rmult_le_compat_l; lra). 
      assert (- ((1 + eps) * q - 1) <= (1 - eps) * r - 1) as W by nra.
      apply (Rmult_le_compat_r (exp x)) in W; [| lra]. nra.
    + assert ((1 - eps) * (exp x * q) <= (1 - eps) * exp x') by nra. nra.
  - apply Rle_trans with ((1 + eps) * exp x' - exp x); [lra |].
    assert ((1 + eps) * exp x' <= (1 + eps) * (exp x * q)) by (apply Rmult_le_compat_l; lra). lra.
Qed.

(** ** Operations that do not overflow *)

Lemma rnd_small r k : (0 <= k < 1024)%Z -> Rabs r <= bpow radix2 k ->
  Rabs (rnd 53 1024 r) <= bpow radix2 k /\ Rlt_bool (Rabs (rnd 53 1024 r)) (bpow radix2 1024) = true.
Proof.
  intros Hk H. assert (Rabs (rnd 53 1024 r) <= bpow radix2 k) as B.
  { apply abs_round_le_generic; [apply fexp_correct; exact Hp53 | apply valid_rnd_N | | exact H].
    apply generic_format_bpow'; [apply fexp_correct; exact Hp53 | unfold SpecFloat.fexp, SpecFloat.emin; lia]. }
  split; [exact B |]. apply Rlt_bool_true. eapply Rle_lt_trans; [exact B | apply bpow_lt; lia].
Qed.

Lemma safe_plus (a b : f64) k : is_finite a = true -> is_finite b = true -> (0 <= k < 1024)%Z -> Rabs (B2R a + B2R b) <= bpow radix2 k ->
  is_finite (Bplus (prec_gt_0_ := Hp53) (prec_lt_emax_ := He1024) mode_NE a b) = true
  /\ Rabs (B2R (Bplus (prec_gt_0_ := Hp53) (prec_lt_emax_ := He1024) mode_NE a b)) <= bpow radix2 k.
Proof.
  intros Fa Fb Hk H. destruct (rnd_small _ k Hk H) as (B & O). pose proof (Bplus_correct 53 1024 Hp53 He1024 mode_NE a b Fa Fb) as C.
  change (round_mode mode_NE) with ZnearestE in C. fold (rnd 53 1024 (B2R a + B2R b)) in C. rewrite O in C.
  destruct C as (E & F & _). split; [exact F | now rewrite E].
Qed.

Lemma safe_minus (a b : f64) k : is_finite a = true -> is_finite b = true -> (0 <= k < 1024)%Z -> Rabs (B2R a - B2R b) <= bpow radix2 k ->
  is_finite (Bminus (prec_gt_0_ := Hp53) (prec_lt_emax_ := He1024) mode_NE a b) = true
  /\ B2R (Bminus (prec_gt_0_ := Hp53) (prec_lt_emax_ := He1024) mode_NE a b) = rnd 53 1024 (B2R a - B2R b)
  /\ Rabs (B2R (Bminus (prec_gt_0_ := Hp53) (prec_lt_emax_ := He1024) mode_NE a b)) <= bpow radix2 k.
Proof.
  intros Fa Fb Hk H. destruct (rnd_small _ k Hk H) as (B & O). pose proof (Bminus_correct 53 1024 Hp53 He1024 mode_NE a b Fa Fb) as C.
  change (round_mode mode_NE) with ZnearestE in C. fold (rnd 53 1024 (B2R a - B2R b)) in C. rewrite O in C.
  destruct C as (E & F & _). split; [exact F |]. split; [exact E | now rewrite E].
Qed.

Lemma safe_mult (a b : f64) k : is_finite a = true -> is_finite b = true -> (0 <= k < 1024)%Z -> Rabs (B2R a * B2R b) <= bpow radix2 k ->
  is_finite (Bmult (prec_gt_0_ := Hp53) (prec_lt_emax_ := He1024) mode_NE a b) = true
  /\ Rabs (B2R (Bmult (prec_gt_0_ := Hp53) (prec_lt_emax_ := He1024) mode_NE a b)) <= bpow radix2 k.
Proof.
  intros Fa Fb Hk H. destruct (rnd_small _ k Hk H) as (B & O). pose proof (Bmult_correct 53 1024 Hp53 He1024 mode_NE a b) as C.
  change (round_mode mode_NE) with ZnearestE in C. fold (rnd 53 1024 (B2R a * B2R b)) in C. rewrite O in C.
  destruct C as (E & F & _). split; [now rewrite F, Fa, Fb | now rewrite E].
Qed.

Lemma safe_div (a b : f64) k : is_finite a = true -> B2R b <> 0 -> (0 <= k < 1024)%Z -> Rabs (B2R a / B2R b) <= bpow radix2 k ->
  is_finite (Bdiv (prec_gt_0_ := Hp53) (prec_lt_emax_ := He1024) mode_NE a b) = true
  /\ Rabs (B2R (Bdiv (prec_gt_0_ := Hp53) (prec_lt_emax_ := He1024) mode_NE a b)) <= bpow radix2 k.
Proof.
  intros Fa Nb Hk H. destruct (rnd_small _ k Hk H) as (B & O). pose proof (Bdiv_correct 53 1024 Hp53 He1024 mode_NE a b Nb) as C.
  change (round_mode mode_NE) with ZnearestE in C. fold (rnd 53 1024 (B2R a / B2R b)) in C. rewrite O in C.
  destruct C as (E & F & _). split; [now rewrite F | now rewrite E].
Qed.

Lemma twice k : bpow radix2 k + bpow radix2 k = bpow radix2 (k + 1).
Proof. rewrite bpow_plus. change (bpow radix2 1) with 2. ring. Qed.

(** The six operations of linear interpolation. *)
Lemma lform_safe (x x0 y0 x1 y1 : f64) :
  is_finite x = true -> is_finite x0 = true -> is_finite y0 = true -> is_finite x1 = true -> is_finite y1 = true ->
  Rabs (B2R y0) <= bpow radix2 900 -> Rabs (B2R y1) <= bpow radix2 900 ->
  B2R x0 <= B2R x <= B2R x1 -> bpow radix2 (-10) <= B2R x1 - B2R x0 <= bpow radix2 21 ->
  is_finite (Bminus (prec_gt_0_ := Hp53) (prec_lt_emax_ := He1024) mode_NE x1 x0) = true
  /\ is_finite (lform 53 1024 Hp53 He1024 x x0 y0 x1 y1) = true.
Proof.
  intros Fx F0 G0 F1 G1 Y0 Y1 Hx Hh. apply Rabs_le_inv in Y0, Y1. pose proof (bpow_gt_0 radix2 900) as P900.
  pose proof (bpow_gt_0 radix2 (-10)) as P10.
  destruct (safe_minus y1 y0 901 G1 G0 ltac:(lia)) as (FD & _ & BD).
  { change 901%Z with (900 + 1)%Z. rewrite <- (twice 900). apply Rabs_le. lra. }
  destruct (safe_minus x1 x0 21 F1 F0 ltac:(lia)) as (FH & EH & BH).
  { apply Rabs_le. lra. }
  split; [exact FH |].
  assert (bpow radix2 (-10) <= B2R (Bminus (prec_gt_0_ := Hp53) (prec_lt_emax_ := He1024) mode_NE x1 x0)) as LH.
  { rewrite EH. apply round_ge_generic; [apply fexp_correct; exact Hp53 | apply valid_rnd_N | | lra].
    apply generic_format_bpow'; [apply fexp_correct; exact Hp53 | unfold SpecFloat.fexp, SpecFloat.emin; lia]. }
  destruct (safe_minus x x0 21 Fx F0 ltac:(lia)) as (FT & _ & BT).
  { apply Rabs_le. lra. }
  assert (B2R (Bminus (prec_gt_0_ := Hp53) (prec_lt_emax_ := He1024) mode_NE x1 x0) <> 0) as NH by lra.
  destruct (safe_div _ _ 911 FD NH ltac:(lia)) as (FQ & BQ).
  { unfold Rdiv. rewrite Rabs_mult, Rabs_inv. change 911%Z with (901 + 10)%Z. rewrite bpow_plus.
    apply Rmult_le_compat; [apply Rabs_pos | left; apply Rinv_0_lt_compat; rewrite Rabs_pos_eq; lra | exact BD |].
    change (bpow radix2 10) with (bpow radix2 (- -10)). rewrite bpow_opp. apply Rinv_le; [exact P10 |]. rewrite Rabs_pos_eq; lra. }
  destruct (safe_mult _ _ 932 FQ FT ltac:(lia)) as (FP & BP).
  { rewrite Rabs_mult. change 932%Z with (911 + 21)%Z. rewrite bpow_plus. apply Rmult_le_compat; auto using Rabs_pos. }
  unfold lform. apply (safe_plus _ _ 933 G0 FP ltac:(lia)). change 933%Z with (932 + 1)%Z. rewrite <- (twice 932).
  assert (bpow radix2 900 <= bpow radix2 932) by (apply bpow_le; lia). apply Rabs_le_inv in BP. apply Rabs_le. lra.
Qed.

(** Times are accurate to half a unit in the last place. *)
Lemma to_f64_rel n K : 360 <= K <= 365 -> Rabs (to_f64 (IZR n / K) - IZR n / K) <= u64 * Rabs (IZR n / K).
Proof.
  intros HK. destruct (Z.eq_dec n 0) as [-> | N].
  - unfold Rdiv. rewrite Rmult_0_l. unfold to_f64. rewrite round_0 by apply valid_rnd_N. rewrite Rminus_0_r, Rabs_R0. lra.
  - unfold to_f64. eapply Rle_trans.
    + apply (relative_error_N_FLT radix2 (-1074) 53 ltac:(lia) (fun z => negb (Z.even z))). unfold Rdiv. rewrite Rabs_mult, Rabs_inv, (Rabs_pos_eq K) by lra.
      assert (1 <= Rabs (IZR n)) as L by (rewrite <- abs_IZR; apply IZR_le; lia).
      apply Rle_trans with (1 * / 365).
      * apply Rle_trans with (bpow radix2 (-10)); [apply bpow_le; lia |]. change (bpow radix2 (-10)) with (/ 1024). lra.
      * apply Rmult_le_compat; [lra | lra | exact L | apply Rinv_le; lra].
    + right. change (-53 + 1)%Z with (1 + -53)%Z. rewrite bpow_plus. change (bpow radix2 1) with 2. change (bpow radix2 (- (53))) with u64. field.
Qed.

(** A chord through points whose first coordinates are perturbed. *)
Lemma chord_near y0 y1 t t0 t1 r r0 r1 w h : t0 <= t <= t1 -> 0 < h <= t1 - t0 -> Rabs (r - t) <= w -> Rabs (r0 - t0) <= w -> Rabs (r1 - t1) <= w ->
  4 * w <= h ->
  Rabs ((y0 + (y1 - y0) / (r1 - r0) * (r - r0)) - (y0 + (y1 - y0) / (t1 - t0) * (t - t0))) <= Rabs (y1 - y0) * (8 * w / h).
Proof.
  intros Ht Hh Er E0 E1 Hw. pose proof (Rabs_pos (r - t)) as Pw.
  apply Rabs_le_inv in Er, E0, E1.
  pose proof (quotient_error (t - t0) (t1 - t0) ((r - t) - (r0 - t0)) ((r1 - t1) - (r0 - t0)) (2 * w)
    ltac:(lra) ltac:(lra) ltac:(apply Rabs_le; lra) ltac:(apply Rabs_le; lra) ltac:(lra)) as Q.
  replace (t - t0 + (r - t - (r0 - t0))) with (r - r0) in Q by ring.
  replace (t1 - t0 + (r1 - t1 - (r0 - t0))) with (r1 - r0) in Q by ring.
  replace ((y0 + (y1 - y0) / (r1 - r0) * (r - r0)) - (y0 + (y1 - y0) / (t1 - t0) * (t - t0)))
    with ((y1 - y0) * ((r - r0) / (r1 - r0) - (t - t0) / (t1 - t0))) by (field; lra).
  rewrite Rabs_mult. apply Rmult_le_compat_l; [apply Rabs_pos |]. eapply Rle_trans; [exact Q |].
  replace (4 * (2 * w)) with (8 * w) by ring. unfold Rdiv. apply Rmult_le_compat_l; [lra |]. apply Rinv_le; lra.
Qed.

Lemma chord_range y0 y1 t t0 t1 Y : t0 <= t <= t1 -> t0 < t1 -> Rabs y0 <= Y -> Rabs y1 <= Y ->
  Rabs (y0 + (y1 - y0) / (t1 - t0) * (t - t0)) <= Y.
Proof.
  intros Ht Hl H0 H1. apply Rabs_le_inv in H0, H1.
  set (f := (t - t0) / (t1 - t0)).
  assert (0 <= f <= 1) as Hf.
  { unfold f. split; [apply Rle_mult_inv_pos; lra |]. apply Rmult_le_reg_r with (t1 - t0); [lra |]. unfold Rdiv. rewrite Rmult_assoc, Rinv_l by lra. lra. }
  replace (y0 + (y1 - y0) / (t1 - t0) * (t - t0)) with ((1 - f) * y0 + f * y1) by (unfold f; field; lra).
  apply Rabs_le. split; nra.
Qed.

(** ** Specification *)

(** [e] computes the exponential with relative error at most [eps] on finite arguments up to [X]. *)
Definition accurate (e : f64 -> f64) (X eps : R) : Prop :=
  forall x, is_finite x = true -> Rabs (B2R x) <= X -> is_finite (e x) = true /\ Rabs (B2R (e x) - exp (B2R x)) <= eps * exp (B2R x).

(** Maturities at least [g] days apart and at most [M] days from [s]. *)
Definition laid_out (s : Date) (ms : list Date) (g M : R) : Prop :=
  a_date s /\ (forall m, In m ms -> a_date m /\ Rabs (IZR (serial_date m - serial_date s)) <= M)
  /\ forall i m m', nth_error ms i = Some m -> nth_error ms (S i) = Some m' -> g <= IZR (serial_date m' - serial_date m).

(** Finite yields of size at most [Y]. *)
Definition sized (ys : list f64) (Y : R) : Prop := forall y, In y ys -> is_finite y = true /\ Rabs (B2R y) <= Y.

(** The same day count in both arithmetics, and its days per year. *)
Definition same_count e (D : DayCount (F64 e)) (D' : DayCount RV) (K : Z) : Prop :=
  D = act_360 (F64 e) /\ D' = act_360 RV /\ K = 360%Z \/ D = act_365 (F64 e) /\ D' = act_365 RV /\ K = 365%Z.

(** ** Yields *)

Lemma nth_error_nth2 {A} (l : list A) i d : (i < List.length l)%nat -> nth_error l i = Some (nth i l d).
Proof. apply nth_error_nth'. Qed.

Lemma u64_val : u64 = / 9007199254740992.
Proof. reflexivity. Qed.

Section Times.
Variables (e : f64 -> f64) (D : DayCount (F64 e)) (D' : DayCount RV) (K : Z) (s : Date).
Hypothesis HD : same_count e D D' K.
Hypothesis Hs : a_date s.

Definition tf (d : Date) : f64 := Bdiv mode_NE (of_int 53 1024 Hp53 He1024 (date_sub d s)) (of_int 53 1024 Hp53 He1024 K).
Definition tr (d : Date) : R := IZR (date_sub d s) / IZR K.

Lemma K_range : (360 <= K <= 365)%Z.
Proof. destruct HD as [(_ & _ & ->) | (_ & _ & ->)]; lia. Qed.

Lemma count_f d : D s d = Ret (Ok (tf d)).
Proof. unfold tf. destruct HD as [(-> & _ & ->) | (-> & _ & ->)]; reflexivity. Qed.
Lemma count_r d : D' s d = Ret (Ok (tr d)).
Proof. unfold tr. destruct HD as [(_ & -> & ->) | (_ & -> & ->)]; reflexivity. Qed.

Lemma tf_value d : a_date d -> is_finite (tf d) = true /\ B2R (tf d) = to_f64 (tr d).
Proof.
  intros A. assert (D = act_360 (F64 e) /\ K = 360%Z \/ D = act_365 (F64 e) /\ K = 365%Z) as HK by (destruct HD as [(-> & _ & ->) | (-> & _ & ->)]; auto).
  destruct (act_f64 e D K HK) as (_ & V). destruct (V s d Hs A) as (f & Ef & Ff & Vf).
  pose proof (eq_trans (eq_sym (count_f d)) Ef) as Q. injection Q as ->. auto.
Qed.

Lemma tf_order d d' : a_date d -> a_date d' -> (tr d < tr d' -> B2R (tf d) < B2R (tf d')).
Proof.
  intros A A' L. rewrite (proj2 (tf_value d A)), (proj2 (tf_value d' A')). pose proof K_range as HK.
  assert (360 <= IZR K <= 365) as HKr by (split; apply IZR_le; lia).
  apply to_f64_strict; [apply date_sub_range; [exact Hs | assumption] | apply date_sub_range; [exact Hs | assumption] | exact HKr |].
  apply lt_IZR. unfold tr in L. apply Rmult_lt_reg_r with (/ IZR K); [apply Rinv_0_lt_compat; lra | exact L].
Qed.

Lemma tf_near d : a_date d -> Rabs (B2R (tf d) - tr d) <= u64 * Rabs (tr d).
Proof.
  intros A. rewrite (proj2 (tf_value d A)). pose proof K_range as HK. apply to_f64_rel. split; apply IZR_le; lia.
Qed.

Lemma tr_small d : a_date d -> Rabs (tr d) <= bpow radix2 20.
Proof.
  intros A. left. apply quotient_range; [apply date_sub_range; [exact Hs | exact A] |]. pose proof K_range. apply IZR_le; lia.
Qed.
End Times.

Section Exponents.
Variable Y : R.
Hypothesis HY : bpow radix2 (-900) <= Y <= bpow radix2 900.

(** ** Exponents *)

Lemma product_near (th yh : f64) (t y q : R) : is_finite th = true -> is_finite yh = true -> Rabs (B2R th - t) <= u64 * Rabs t ->
  Rabs t <= bpow radix2 20 -> Rabs (B2R yh - y) <= u64 * Y * q -> Rabs y <= Y -> 14 <= q <= 40000000000 ->
  let x := Bmult (prec_gt_0_ := Hp53) (prec_lt_emax_ := He1024) mode_NE th yh in
  is_finite x = true /\ Rabs (B2R x - t * y) <= u64 * Y * (Rabs t * (q + 3) + 1) /\ Rabs (B2R x) <= Y * (1.01 * Rabs t + 0.001).
Proof.
  intros Ft Fy Ht Hb Hy Yb Hq x. pose proof (bpow_gt_0 radix2 (-900)) as P900.
  pose proof (Rabs_pos t) as Pt. pose proof u64_val as Eu.
  assert (0 < u64 <= / 9007199254740992) as Hu by lra.
  assert (u64 * q <= 0.00001) as Huq by (rewrite Eu; lra).
  assert (Rabs (B2R th) <= Rabs t + u64 * Rabs t) as Bt.
  { replace (B2R th) with (t + (B2R th - t)) by ring. eapply Rle_trans; [apply Rabs_triang | lra]. }
  assert (Rabs (B2R yh) <= 1.001 * Y) as By.
  { replace (B2R yh) with (y + (B2R yh - y)) by ring. eapply Rle_trans; [apply Rabs_triang |]. 
    assert (u64 * Y * q <= 0.00001 * Y) by (replace (u64 * Y * q) with (u64 * q * Y) by ring; apply Rmult_le_compat_r; lra). lra. }
  assert (Rabs (B2R th) <= 1.001 * Rabs t) as Bt' by (assert (u64 * Rabs t <= / 9007199254740992 * Rabs t) by (apply Rmult_le_compat_r; lra); lra).
  assert (Rabs (B2R th * B2R yh) <= 1.003 * (Rabs t * Y)) as BP.
  { rewrite Rabs_mult. apply Rle_trans with (1.001 * Rabs t * (1.001 * Y)); [apply Rmult_le_compat; auto using Rabs_pos |].
    assert (0 <= Rabs t * Y) by (apply Rmult_le_pos; lra). lra. }
  assert (Rabs t * Y <= bpow radix2 920) as Bty.
  { change 920%Z with (20 + 900)%Z. rewrite bpow_plus. apply Rmult_le_compat; lra. }
  destruct (safe_mult th yh 921 Ft Fy ltac:(lia)) as (Fx & _).
  { change 921%Z with (920 + 1)%Z. rewrite <- twice. pose proof (bpow_gt_0 radix2 920). lra. }
  fold x in Fx. split; [exact Fx |].
  destruct (mult_error 53 1024 Hp53 He1024 th yh Fx) as (_ & _ & d & n & Hd & Hn & Ex). fold x in Ex. change (unit_roundoff 53) with u64 in Hd.
  assert (half_tiny 53 1024 <= u64 * Y * 0.001) as Tiny.
  { apply Rle_trans with (u64 * bpow radix2 (-900) * bpow radix2 (-10)).
    - unfold half_tiny. rewrite <- !bpow_plus. apply bpow_le. lia.
    - apply Rmult_le_compat; [| apply bpow_ge_0 | apply Rmult_le_compat_l; lra | change (bpow radix2 (-10)) with (/ 1024); lra].
      apply Rmult_le_pos; [lra | apply bpow_ge_0]. }
  assert (0 <= u64 * Y) as PuY by (apply Rmult_le_pos; lra).
  assert (Rabs (B2R th * B2R yh - t * y) <= u64 * Y * (Rabs t * (q + 1.01))) as E1.
  { replace (B2R th * B2R yh - t * y) with (B2R th * (B2R yh - y) + (B2R th - t) * y) by ring.
    eapply Rle_trans; [apply Rabs_triang |]. rewrite !Rabs_mult.
    assert (Rabs (B2R th) * Rabs (B2R yh - y) <= (Rabs t + u64 * Rabs t) * (u64 * Y * q)) by (apply Rmult_le_compat; auto using Rabs_pos).
    assert (Rabs (B2R th - t) * Rabs y <= u64 * Rabs t * Y) by (apply Rmult_le_compat; auto using Rabs_pos).
    assert (u64 * Rabs t * (u64 * Y * q) <= u64 * Y * Rabs t * 0.00001).
    { replace (u64 * Rabs t * (u64 * Y * q)) with (u64 * Y * Rabs t * (u64 * q)) by ring. apply Rmult_le_compat_l; [| exact Huq].
      apply Rmult_le_pos; lra. }
    assert (0 <= u64 * Y * Rabs t) by (apply Rmult_le_pos; lra). lra. }
  assert (Rabs (B2R x - B2R th * B2R yh) <= u64 * Y * (1.003 * Rabs t + 0.001)) as E2.
  { rewrite Ex. replace (B2R th * B2R yh * (1 + d) + n - B2R th * B2R yh) with (B2R th * B2R yh * d + n) by ring.
    eapply Rle_trans; [apply Rabs_triang |]. rewrite Rabs_mult.
    assert (Rabs (B2R th * B2R yh) * Rabs d <= 1.003 * (Rabs t * Y) * u64) by (apply Rmult_le_compat; auto using Rabs_pos). lra. }
  assert (0 <= u64 * Y * Rabs t) as P3 by (apply Rmult_le_pos; lra).
  split.
  - replace (B2R x - t * y) with ((B2R x - B2R th * B2R yh) + (B2R th * B2R yh - t * y)) by ring.
    eapply Rle_trans; [apply Rabs_triang |]. lra.
  - replace (B2R x) with ((B2R x - B2R th * B2R yh) + B2R th * B2R yh) by ring. eapply Rle_trans; [apply Rabs_triang |].
    assert (u64 * Y * (1.003 * Rabs t + 0.001) <= 0.000001 * Y * (1.003 * Rabs t + 0.001)).
    { apply Rmult_le_compat_r; [lra |]. apply Rmult_le_compat_r; lra. }
    assert (0 <= Rabs t * Y) by (apply Rmult_le_pos; lra). lra.
Qed.

Lemma difference_near (x1 x2 : f64) (t1 t2 z1 z2 q : R) : is_finite x1 = true -> is_finite x2 = true -> 14 <= q -> 0 <= t1 <= bpow radix2 20 -> 0 <= t2 <= bpow radix2 20 ->
  Rabs (B2R x1 - z1) <= u64 * Y * (t1 * (q + 3) + 1) -> Rabs (B2R x2 - z2) <= u64 * Y * (t2 * (q + 3) + 1) ->
  Rabs (B2R x1) <= Y * (1.01 * t1 + 0.001) -> Rabs (B2R x2) <= Y * (1.01 * t2 + 0.001) ->
  let x := Bminus (prec_gt_0_ := Hp53) (prec_lt_emax_ := He1024) mode_NE x1 x2 in
  is_finite x = true /\ Rabs (B2R x - (z1 - z2)) <= u64 * Y * ((q + 5) * (t1 + t2) + 3).
Proof.
  intros F1 F2 Hq T1 T2 E1 E2 B1 B2 x. pose proof (bpow_gt_0 radix2 (-900)) as P900. pose proof (bpow_gt_0 radix2 (-53)) as Pu.
  assert (Rabs (B2R x1 - B2R x2) <= Y * (1.01 * (t1 + t2) + 0.002)) as Bd.
  { unfold Rminus. eapply Rle_trans; [apply Rabs_triang |]. rewrite Rabs_Ropp. lra. }
  destruct (safe_minus x1 x2 922 F1 F2 ltac:(lia)) as (Fx & _).
  { eapply Rle_trans; [exact Bd |]. change 922%Z with (900 + 22)%Z. rewrite bpow_plus. change (bpow radix2 20) with 1048576 in T1, T2.
    change (bpow radix2 22) with 4194304. apply Rmult_le_compat; lra. }
  split; [exact Fx |]. destruct (minus_error 53 1024 Hp53 He1024 x1 x2 Fx) as (_ & _ & d & Hd & Ex). fold x in Ex. change (unit_roundoff 53) with u64 in Hd.
  rewrite Ex. replace ((B2R x1 - B2R x2) * (1 + d) - (z1 - z2)) with ((B2R x1 - z1) - (B2R x2 - z2) + (B2R x1 - B2R x2) * d) by ring.
  eapply Rle_trans; [apply Rabs_triang |]. rewrite Rabs_mult.
  assert (Rabs (B2R x1 - z1 - (B2R x2 - z2)) <= u64 * Y * (t1 * (q + 3) + 1) + u64 * Y * (t2 * (q + 3) + 1)).
  { unfold Rminus at 1. eapply Rle_trans; [apply Rabs_triang |]. rewrite Rabs_Ropp. lra. }
  assert (Rabs (B2R x1 - B2R x2) * Rabs d <= Y * (1.01 * (t1 + t2) + 0.002) * u64) by (apply Rmult_le_compat; auto using Rabs_pos).
  assert (0 <= u64 * Y) by (apply Rmult_le_pos; lra). assert (0 <= u64 * Y * (t1 + t2)) by (apply Rmult_le_pos; lra). lra.
Qed.
End Exponents.

(** ** Factors *)

Definition spread_error (Y q T : R) : R := bpow radix2 (-53) * Y * ((q + 5) * T + 3).

Section Factor.
Variables (e : f64 -> f64) (D : DayCount (F64 e)) (D' : DayCount RV) (K : Z) (s : Date) (Y q : R).
Hypothesis HD : same_count e D D' K.
Hypothesis Hs : a_date s.
Hypothesis HY : bpow radix2 (-900) <= Y <= bpow radix2 900.
Hypothesis Gr : 14 <= q <= 40000000000.
Variables (I : Interpolator (F64 e)) (I' : Interpolator RV) (c : YieldCurve (F64 e) I) (c' : YieldCurve RV I').
Hypothesis Es : settlement_date c = s.
Hypothesis Es' : settlement_date c' = s.
(** Each yield the binary64 curve gives is near the one the exact curve gives. *)
Hypothesis Near : forall d (yh : f64), a_date d -> i_try_value I (interpolator c) (tf K s d) = Ret (Ok yh) ->
  exists y : R, i_try_value I' (interpolator c') (tr K s d) = Ret (Ok y) /\ is_finite yh = true
    /\ Rabs (B2R yh - y) <= u64 * Y * q /\ Rabs y <= Y.
Notation spread := (spread_error Y q).

Lemma factor_near X eps d1 d2 (v : f64) :
  accurate e X eps -> 0 <= eps -> a_date d1 -> a_date d2 ->
  discount_factor D c d1 d2 = Ret (Ok v) -> Y * (tr K s d1 + tr K s d2) + spread (tr K s d1 + tr K s d2) <= X ->
  exists v' : R, discount_factor D' c' d1 d2 = Ret (Ok v') /\ is_finite v = true /\ 0 < v'
    /\ Rabs (B2R v - v') <= ((1 + eps) * exp (spread (tr K s d1 + tr K s d2)) - 1) * v'.
Proof.
  intros Hac He0 A1 A2 E HX. pose proof (bpow_gt_0 radix2 (-900)) as P900. pose proof (bpow_gt_0 radix2 (-53)) as Pu.
  unfold discount_factor in *. rewrite Es in E. rewrite Es'.
  destruct (date_ltb d2 d1) eqn:O1; [discriminate E |]. destruct (date_ltb d1 s) eqn:O2; [discriminate E |].
  destruct (date_ltb d2 s) eqn:O3; [discriminate E |]. cbn [orb] in *.
  rewrite (count_f e D D' K s HD) in E. rewrite (count_r e D D' K s HD). cbn [bind try_res] in *. unfold curve_yield in *.
  assert (forall d, a_date d -> date_ltb d s = false -> 0 <= tr K s d) as Pos.
  { intros d A O. apply not_true_iff_false in O. rewrite date_ltb_earlier in O. rewrite (proj1 (C02_serial_order d s A Hs)) in O.
    unfold tr. pose proof (K_range e D D' K HD) as HK. apply Rle_mult_inv_pos; [| apply IZR_lt; lia]. apply IZR_le. unfold date_sub, diff_days, serial_date in *. lia. }
  pose proof (Pos d1 A1 O2) as P1. pose proof (Pos d2 A2 O3) as P2.
  destruct (i_try_value I (interpolator c) (tf K s d2)) as [[y2h | er] | |] eqn:E2; try discriminate E.
  destruct (Near d2 y2h A2 E2) as (y2 & V2 & F2 & N2 & B2). rewrite V2. cbn [bind try_res lift_interp] in *.
  pose proof (tf_near e D D' K s HD Hs d2 A2) as T2. pose proof (proj1 (tf_value e D D' K s HD Hs d2 A2)) as Ft2. pose proof (tr_small e D D' K s HD Hs d2 A2) as S2.
  assert (0 <= u64 * Y) as PuY by (apply Rmult_le_pos; lra).
  assert (forall (x : f64) z, v = e x -> is_finite x = true -> Rabs (B2R x - z) <= spread (tr K s d1 + tr K s d2) -> Rabs z <= Y * (tr K s d1 + tr K s d2) ->
    is_finite v = true /\ 0 < exp z /\ Rabs (B2R v - exp z) <= ((1 + eps) * exp (spread (tr K s d1 + tr K s d2)) - 1) * exp z) as Fin.
  { intros x z -> Fx Nx Bz. destruct (Hac x Fx) as (Fe & Ee).
    - replace (B2R x) with ((B2R x - z) + z) by ring. eapply Rle_trans; [apply Rabs_triang |]. lra.
    - split; [exact Fe |]. split; [apply exp_pos |]. eapply exp_error; eauto. }
  destruct (date_eqb d1 s) eqn:Eq.
  - eexists. split; [reflexivity |]. apply date_eqb_eq in Eq.
    assert (tr K s d1 = 0) as Z1 by (rewrite Eq; unfold tr, date_sub, diff_days; rewrite Z.sub_diag; unfold Rdiv; apply Rmult_0_l).
    destruct (product_near Y HY (Bopp (tf K s d2)) y2h (- tr K s d2) y2 q) as (Fx & Nx & _).
    + now rewrite is_finite_Bopp.
    + exact F2.
    + rewrite B2R_Bopp, Rabs_Ropp. replace (- B2R (tf K s d2) - - tr K s d2) with (- (B2R (tf K s d2) - tr K s d2)) by ring. now rewrite Rabs_Ropp.
    + now rewrite Rabs_Ropp.
    + exact N2.
    + exact B2.
    + exact Gr.
    + rewrite Rabs_Ropp, (Rabs_pos_eq (tr K s d2)) in Nx by exact P2. injection E as E.
      refine (Fin _ _ (eq_sym E) Fx _ _).
      * eapply Rle_trans; [exact Nx |]. unfold spread_error. apply Rmult_le_compat_l; [exact PuY |]. rewrite Z1.
        assert (0 <= tr K s d2 * q) by (apply Rmult_le_pos; lra). lra.
      * rewrite Rabs_mult, Rabs_Ropp, (Rabs_pos_eq (tr K s d2)) by exact P2. rewrite Z1, Rplus_0_l, Rmult_comm. apply Rmult_le_compat_r; lra.
  - rewrite (count_f e D D' K s HD) in E. rewrite (count_r e D D' K s HD). cbn [bind try_res] in *.
    destruct (i_try_value I (interpolator c) (tf K s d1)) as [[y1h | er] | |] eqn:E1; try discriminate E.
    destruct (Near d1 y1h A1 E1) as (y1 & V1 & F1 & N1 & B1). rewrite V1. cbn [bind try_res lift_interp] in *.
    pose proof (tf_near e D D' K s HD Hs d1 A1) as T1. pose proof (proj1 (tf_value e D D' K s HD Hs d1 A1)) as Ft1. pose proof (tr_small e D D' K s HD Hs d1 A1) as S1.
    destruct (product_near Y HY (tf K s d1) y1h (tr K s d1) y1 q Ft1 F1 T1 S1 N1 B1 Gr) as (Fx1 & Nx1 & Bx1).
    destruct (product_near Y HY (tf K s d2) y2h (tr K s d2) y2 q Ft2 F2 T2 S2 N2 B2 Gr) as (Fx2 & Nx2 & Bx2).
    rewrite (Rabs_pos_eq (tr K s d1)) in Nx1, Bx1, S1 by exact P1. rewrite (Rabs_pos_eq (tr K s d2)) in Nx2, Bx2, S2 by exact P2.
    destruct (difference_near Y HY _ _ (tr K s d1) (tr K s d2) (tr K s d1 * y1) (tr K s d2 * y2) q Fx1 Fx2 (proj1 Gr) (conj P1 S1) (conj P2 S2) Nx1 Nx2 Bx1 Bx2) as (Fx & Nx).
    eexists. split; [reflexivity |]. injection E as E. refine (Fin _ _ (eq_sym E) Fx Nx _).
    unfold Rminus. eapply Rle_trans; [apply Rabs_triang |]. rewrite Rabs_Ropp, !Rabs_mult, (Rabs_pos_eq (tr K s d1)), (Rabs_pos_eq (tr K s d2)) by assumption.
    assert (tr K s d1 * Rabs y1 <= tr K s d1 * Y) by (apply Rmult_le_compat_l; lra). assert (tr K s d2 * Rabs y2 <= tr K s d2 * Y) by (apply Rmult_le_compat_l; lra). lra.
Qed.
End Factor.

(** ** Curves *)

Section Curve.
Variables (e : f64 -> f64) (D : DayCount (F64 e)) (D' : DayCount RV) (K : Z) (s : Date) (ms : list Date) (ys : list f64) (g M Y : R).
Hypothesis HD : same_count e D D' K.
Hypothesis HL : List.length ms = List.length ys.
Hypothesis H2 : (2 <= List.length ms)%nat.
Hypothesis HM : laid_out s ms g M.
Hypothesis Hg : 1 <= g.
Hypothesis HMb : M <= 268435456.
Notation tfs := (tf K s).
Notation trs := (tr K s).
Notation value_f := (tf_value e D D' K s HD (proj1 HM)).
Notation order_f := (tf_order e D D' K s HD (proj1 HM)).
Notation near_f := (tf_near e D D' K s HD (proj1 HM)).
Notation small_r := (tr_small e D D' K s HD (proj1 HM)).
Notation pts := (combine (map tfs ms) ys).
Notation pts' := (curve_points trs ms (map B2R ys)).
Notation z := (B754_nan : f64, B754_nan : f64).

Lemma ratio_range : 0 <= M /\ 0 <= M / g <= 268435456.
Proof.
  assert (0 <= M) as PM.
  { destruct (nth_error ms 0) as [m |] eqn:E; [| apply nth_error_None in E; lia].
    eapply Rle_trans; [apply Rabs_pos | apply (proj1 (proj2 HM) m (nth_error_In _ _ E))]. }
  split; [exact PM |].
  split; [apply Rle_mult_inv_pos; lra |]. apply Rmult_le_reg_r with g; [lra |]. unfold Rdiv. rewrite Rmult_assoc, Rinv_l by lra. nra.
Qed.

Lemma same_length : List.length ms = List.length (map (B2R (prec := 53) (emax := 1024)) ys).
Proof. now rewrite map_length. Qed.

Lemma pts_length : List.length pts = List.length ms.
Proof. rewrite combine_length, map_length. lia. Qed.

Lemma pts'_length : List.length pts' = List.length ms.
Proof. now rewrite curve_points_length by exact same_length. Qed.

Lemma pts_fst : map fst pts = map tfs ms.
Proof.
  clear - HL. revert ys HL. induction ms as [| m l IH]; intros [| y ys] Hl; try discriminate; [reflexivity |].
  cbn [map combine fst]. f_equal. apply IH. now injection Hl.
Qed.

Lemma pts_nth i : (i < List.length ms)%nat -> nth i pts z = (tfs (nth i ms s), nth i ys B754_nan).
Proof.
  intros Hi. rewrite combine_nth by (rewrite map_length; exact HL). f_equal.
  rewrite (nth_indep _ _ (tfs s)) by (rewrite map_length; exact Hi). apply map_nth.
Qed.

Lemma pts'_nth i : (i < List.length ms)%nat -> gx pts' i = trs (nth i ms s) /\ gy pts' i = B2R (nth i ys B754_nan).
Proof.
  intros Hi. destruct (curve_points_nth trs ms (map B2R ys) i (nth i ms s) (B2R (nth i ys B754_nan)) same_length) as (_ & B & C); [now apply nth_error_nth' | | auto].
  rewrite nth_error_map, (nth_error_nth' ys B754_nan) by lia. reflexivity.
Qed.

Lemma maturity i : (i < List.length ms)%nat -> a_date (nth i ms s) /\ Rabs (IZR (date_sub (nth i ms s) s)) <= M.
Proof. intros Hi. apply (proj1 (proj2 HM)), nth_In, Hi. Qed.

Lemma K_real : 360 <= IZR K <= 365 /\ / 365 <= / IZR K <= / 360.
Proof.
  pose proof (K_range e D D' K HD) as HK. assert (360 <= IZR K <= 365) as HKr by (split; apply IZR_le; lia).
  split; [exact HKr |]. split; apply Rinv_le; lra.
Qed.

Lemma gap i : (i + 1 < List.length ms)%nat -> g / IZR K <= trs (nth (i + 1) ms s) - trs (nth i ms s).
Proof.
  intros Hi. destruct K_real as (HKr & _). unfold tr, Rdiv. rewrite <- Rmult_minus_distr_r. apply Rmult_le_compat_r; [left; apply Rinv_0_lt_compat; lra |].
  rewrite <- minus_IZR. pose proof (proj2 (proj2 HM) i (nth i ms s) (nth (i + 1) ms s)) as G.
  specialize (G ltac:(apply nth_error_nth'; lia)). replace (S i) with (i + 1)%nat in G by lia.
  specialize (G ltac:(apply nth_error_nth'; lia)).
  replace (date_sub (nth (i + 1) ms s) s - date_sub (nth i ms s) s)%Z with (serial_date (nth (i + 1) ms s) - serial_date (nth i ms s))%Z; [exact G |].
  unfold date_sub, diff_days, serial_date. lia.
Qed.

Lemma gap_pos : / 365 <= g / IZR K.
Proof. destruct K_real as (_ & HKi). unfold Rdiv. nra. Qed.

Lemma increasing_r : increasing pts'.
Proof.
  intros i j H. rewrite pts'_length in H. destruct H as (Hij & Hj). induction j as [| j IHj]; [lia |].
  assert (gx pts' j < gx pts' (S j)) as L.
  { rewrite (proj1 (pts'_nth j ltac:(lia))), (proj1 (pts'_nth (S j) Hj)). pose proof (gap j ltac:(lia)) as G. pose proof gap_pos.
    replace (j + 1)%nat with (S j) in G by lia. lra. }
  destruct (Nat.eq_dec i j) as [-> | N]; [exact L |]. eapply Rlt_trans; [apply IHj; lia | exact L].
Qed.

Lemma rising_f : rising (map fst pts).
Proof.
  rewrite pts_fst. split.
  - intros y Hy. apply in_map_iff in Hy. destruct Hy as (m & <- & Hm). apply value_f. now apply (proj1 (proj2 HM)).
  - intros i a b Ha Hb. rewrite nth_error_map in Ha, Hb.
    destruct (nth_error ms i) as [mi |] eqn:Ei; cbn [option_map] in Ha; [| discriminate Ha].
    destruct (nth_error ms (S i)) as [mj |] eqn:Ej; cbn [option_map] in Hb; [| discriminate Hb].
    injection Ha as <-. injection Hb as <-.
    pose proof (proj1 (proj1 (proj2 HM) mi (nth_error_In _ _ Ei))) as Ai. pose proof (proj1 (proj1 (proj2 HM) mj (nth_error_In _ _ Ej))) as Aj.
    rewrite Bltb_correct by now apply value_f. apply Rlt_bool_true. apply order_f; auto.
    assert (S i < List.length ms)%nat as Hi by (apply nth_error_Some; congruence).
    pose proof (gap i ltac:(lia)) as G. pose proof gap_pos. replace (i + 1)%nat with (S i) in G by lia.
    rewrite (nth_error_nth _ _ _ Ei), (nth_error_nth _ _ _ Ej) in G. lra.
Qed.

(** The times of maturities and of dates between them, in both arithmetics. *)
Lemma time_near m : a_date m -> Rabs (trs m) <= M / IZR K -> Rabs (B2R (tfs m) - trs m) <= u64 * (M / IZR K).
Proof. intros Hm Hb. eapply Rle_trans; [now apply near_f |]. apply Rmult_le_compat_l; [apply bpow_ge_0 | exact Hb]. Qed.

Lemma time_small : u64 * (M / IZR K) <= / 12079595520.
Proof.
  destruct K_real as (HKr & HKi). pose proof (proj1 ratio_range) as PM. rewrite u64_val.
  assert (M / IZR K <= 268435456 * / 360) by (unfold Rdiv; apply Rmult_le_compat; lra). lra.
Qed.

Lemma maturity_time i : (i < List.length ms)%nat -> Rabs (trs (nth i ms s)) <= M / IZR K.
Proof.
  intros Hi. destruct K_real as (HKr & HKi). unfold tr, Rdiv. rewrite Rabs_mult, Rabs_inv, (Rabs_pos_eq (IZR K)) by lra.
  apply Rmult_le_compat_r; [lra | now apply maturity].
Qed.

Lemma fitted_f I (c : YieldCurve (F64 e) I) : curve_new D I s ms ys = Ret (Ok c) ->
  settlement_date c = s /\ forall x, fit_eval I pts x = i_try_value I (interpolator c) x.
Proof.
  intros Hc. pose proof (C43_fit (F64 e) D I s ms ys tfs HL (fun m _ => count_f e D D' K s HD m)) as F. cbv zeta in F.
  match type of F with match ?x with _ => _ end => destruct x as [[f | er] | |] end; [| pose proof (eq_trans (eq_sym F) Hc) as Q; discriminate Q ..].
  destruct F as (c0 & Ec & S & Ev). pose proof (eq_trans (eq_sym Ec) Hc) as Q. injection Q as ->. auto.
Qed.

Lemma fitted_r I' (c' : YieldCurve RV I') : curve_new D' I' s ms (map B2R ys) = Ret (Ok c') ->
  settlement_date c' = s /\ forall x, fit_eval I' pts' x = i_try_value I' (interpolator c') x.
Proof.
  intros Hc. pose proof (C43_fit RV D' I' s ms (map B2R ys) trs same_length (fun m _ => count_r e D D' K s HD m)) as F. cbv zeta in F.
  change (combine (map trs ms) (map B2R ys)) with pts' in F.
  match type of F with match ?x with _ => _ end => destruct x as [[f | er] | |] end; [| pose proof (eq_trans (eq_sym F) Hc) as Q; discriminate Q ..].
  destruct F as (c0 & Ec & S & Ev). pose proof (eq_trans (eq_sym Ec) Hc) as Q. injection Q as ->. auto.
Qed.

Lemma width_range i : (i + 1 < List.length ms)%nat ->
  bpow radix2 (-10) <= B2R (tfs (nth (i + 1) ms s)) - B2R (tfs (nth i ms s)) <= bpow radix2 21.
Proof.
  intros Hi. destruct (maturity i ltac:(lia)) as (A0 & B0). destruct (maturity (i + 1)%nat Hi) as (A1 & B1).
  pose proof (maturity_time i ltac:(lia)) as T0. pose proof (maturity_time (i + 1)%nat Hi) as T1.
  pose proof (time_near _ A0 T0) as N0. pose proof (time_near _ A1 T1) as N1. pose proof time_small as Wb.
  pose proof (gap i Hi) as G. pose proof gap_pos as Gpos.
  change (bpow radix2 (-10)) with (/ 1024). change (bpow radix2 21) with 2097152.
  apply Rabs_le_inv in N0, N1. split; [lra |].
  assert (forall m, a_date m -> Rabs (B2R (tfs m)) <= 1048576) as Q.
  { intros m Hm. rewrite (proj2 (value_f m Hm)). change 1048576 with (bpow radix2 20). unfold to_f64.
    apply abs_round_le_generic; [apply FLT_exp_valid; reflexivity | apply valid_rnd_N | | now apply small_r].
    apply generic_format_bpow'; [apply FLT_exp_valid; reflexivity | unfold FLT_exp; lia]. }
  pose proof (Q _ A0) as Q0. pose proof (Q _ A1) as Q1. apply Rabs_le_inv in Q0, Q1. lra.
Qed.

Hypothesis HS : sized ys Y.
Hypothesis HY : bpow radix2 (-900) <= Y <= bpow radix2 900.

Definition growth : R := 14 + 16 * (M / g).

Lemma growth_range : 14 <= growth <= 40000000000.
Proof. pose proof ratio_range. unfold growth. lra. Qed.

Lemma yield_near (c : YieldCurve (F64 e) (Linear (F64 e))) (c' : YieldCurve RV (Linear RV)) d (yh : f64) :
  curve_new D (Linear (F64 e)) s ms ys = Ret (Ok c) -> curve_new D' (Linear RV) s ms (map B2R ys) = Ret (Ok c') -> a_date d ->
  i_try_value (Linear (F64 e)) (interpolator c) (tfs d) = Ret (Ok yh) ->
  exists y : R, i_try_value (Linear RV) (interpolator c') (trs d) = Ret (Ok y) /\ is_finite yh = true
    /\ Rabs (B2R yh - y) <= u64 * Y * growth /\ Rabs y <= Y.
Proof.
  intros Hc Hc' A E. rewrite <- (proj2 (fitted_f _ c Hc)) in E.
  pose proof pts_length as Lp. pose proof pts'_length as Lp'. destruct K_real as (HKr & HKi). pose proof gap_pos as Gpos.
  destruct (linear_in_cell 53 1024 Hp53 He1024 e pts (tfs d) yh rising_f (proj1 (value_f d A)) ltac:(lia) E) as (i & Hi & Bx & _ & Ev).
  cbv zeta in Ev. rewrite !gx_reals in Bx. rewrite Lp in Hi. rewrite !pts_nth in Bx, Ev by lia. cbn [fst snd] in Bx, Ev.
  pose proof (width_range i Hi) as Hh. pose proof (gap i Hi) as G.
  pose proof (pts'_nth i ltac:(lia)) as P0. pose proof (pts'_nth (i + 1) Hi) as P1.
  pose proof (maturity_time i ltac:(lia)) as T0. pose proof (maturity_time (i + 1) Hi) as T1.
  destruct (maturity i ltac:(lia)) as (A0 & B0). destruct (maturity (i + 1)%nat Hi) as (A1 & B1).
  set (m0 := nth i ms s) in *. set (m1 := nth (i + 1) ms s) in *. set (y0 := nth i ys B754_nan) in *. set (y1 := nth (i + 1) ys B754_nan) in *.
  destruct (HS y0 ltac:(apply nth_In; lia)) as (Fy0 & Yb0). destruct (HS y1 ltac:(apply nth_In; lia)) as (Fy1 & Yb1).
  assert (trs m0 <= trs d <= trs m1) as Bt.
  { split; apply Rnot_lt_le; intros C; apply order_f in C; auto; lra. }
  exists (chord pts' i (trs d)). rewrite <- (proj2 (fitted_r _ c' Hc')).
  split. { apply linear_closed; [exact increasing_r | lia |]. rewrite (proj1 P0), (proj1 P1). exact Bt. }
  unfold chord. rewrite (proj1 P0), (proj2 P0), (proj1 P1), (proj2 P1).
  assert (Rabs (trs d) <= M / IZR K) as Td by (apply Rabs_le_inv in T0, T1; apply Rabs_le; lra).
  pose proof (bpow_gt_0 radix2 (-53)) as Pu.
  pose proof (time_near m0 A0 T0) as N0. pose proof (time_near m1 A1 T1) as N1. pose proof (time_near d A Td) as Nd.
  pose proof (proj1 ratio_range) as PM. pose proof time_small as Wb.
  assert (B2R (tfs m0) < B2R (tfs m1)) as Lt by (apply order_f; auto; lra).
  destruct (lform_safe (tfs d) (tfs m0) y0 (tfs m1) y1 (proj1 (value_f d A)) (proj1 (value_f m0 A0)) Fy0 (proj1 (value_f m1 A1)) Fy1
    ltac:(lra) ltac:(lra) Bx Hh) as (Fh & Fl).
  pose proof (lform_error 53 1024 Hp53 He1024 (tfs d) (tfs m0) y0 (tfs m1) y1 ltac:(lia) (proj1 (value_f m0 A0)) (proj1 (value_f m1 A1)) Lt Bx Fh Fl) as Le.
  cbv zeta in Le. rewrite <- Ev in Le, Fl. split; [exact Fl |].
  pose proof (chord_near (B2R y0) (B2R y1) (trs d) (trs m0) (trs m1) (B2R (tfs d)) (B2R (tfs m0)) (B2R (tfs m1)) (u64 * (M / IZR K)) (g / IZR K)
    Bt ltac:(lra) Nd N0 N1 ltac:(lra)) as Cn.
  pose proof (chord_range (B2R y0) (B2R y1) (B2R (tfs d)) (B2R (tfs m0)) (B2R (tfs m1)) Y Bx Lt Yb0 Yb1) as Cr.
  pose proof (chord_range (B2R y0) (B2R y1) (trs d) (trs m0) (trs m1) Y Bt ltac:(lra) Yb0 Yb1) as Cr'.
  split; [| exact Cr'].
  set (Lh := B2R y0 + (B2R y1 - B2R y0) / (B2R (tfs m1) - B2R (tfs m0)) * (B2R (tfs d) - B2R (tfs m0))) in *.
  set (L := B2R y0 + (B2R y1 - B2R y0) / (trs m1 - trs m0) * (trs d - trs m0)) in *.
  assert (Rabs (B2R y1 - B2R y0) <= 2 * Y) as Dy by (apply Rabs_le_inv in Yb0, Yb1; apply Rabs_le; lra).
  assert (8 * (u64 * (M / IZR K)) / (g / IZR K) = 8 * u64 * (M / g)) as Eq by (field; lra).
  rewrite Eq in Cn.
  assert (0 <= 8 * u64 * (M / g)) as Pq by (apply Rmult_le_pos; [lra | apply Rle_mult_inv_pos; lra]).
  assert (2 * half_tiny 53 1024 * (B2R (tfs d) - B2R (tfs m0) + 1) <= u64 * Y) as Tiny.
  { apply Rle_trans with (2 * half_tiny 53 1024 * bpow radix2 22).
    - apply Rmult_le_compat_l; [pose proof (bpow_gt_0 radix2 (2 - 1024 - 53)); unfold half_tiny; lra |].
      change (bpow radix2 21) with 2097152 in Hh. change (bpow radix2 22) with 4194304. lra.
    - apply Rle_trans with (u64 * bpow radix2 (-900)); [| apply Rmult_le_compat_l; lra].
      unfold half_tiny. change 2 with (bpow radix2 1) at 1. rewrite <- !bpow_plus. apply bpow_le. lia. }
  change (unit_roundoff 53) with u64 in Le.
  replace (B2R yh - L) with ((B2R yh - Lh) + (Lh - L)) by ring. eapply Rle_trans; [apply Rabs_triang |].
  assert (u64 * Rabs Lh <= u64 * Y) by (apply Rmult_le_compat_l; lra).
  assert (6 * u64 * Rabs (B2R y1 - B2R y0) <= 6 * u64 * (2 * Y)) by (apply Rmult_le_compat_l; lra).
  assert (Rabs (B2R y1 - B2R y0) * (8 * u64 * (M / g)) <= 2 * Y * (8 * u64 * (M / g))) by (apply Rmult_le_compat_r; lra).
  unfold growth. lra.
Qed.
End Curve.

(** ** C98 *)

(** With actual day counts, linear interpolation and an exponential accurate to [eps], the binary64 factor is the exact one
    for the same dates and yields up to a relative error that is explicit in the layout of the curve and the times. *)
Theorem C98_factor : forall e D D' K s ms (ys : list f64) g M Y X eps c c' d1 d2 (v : f64),
  same_count e D D' K -> List.length ms = List.length ys -> (2 <= List.length ms)%nat -> laid_out s ms g M -> 1 <= g -> M <= 268435456 ->
  sized ys Y -> bpow radix2 (-900) <= Y <= bpow radix2 900 -> accurate e X eps -> 0 <= eps ->
  curve_new D (Linear (F64 e)) s ms ys = Ret (Ok c) -> curve_new D' (Linear RV) s ms (map B2R ys) = Ret (Ok c') ->
  a_date d1 -> a_date d2 -> discount_factor D c d1 d2 = Ret (Ok v) ->
  let years d := IZR (serial_date d - serial_date s) / IZR K in
  let B := bpow radix2 (-53) * Y * ((19 + 16 * (M / g)) * (years d1 + years d2) + 3) in
  Y * (years d1 + years d2) + B <= X ->
  exists v' : R, discount_factor D' c' d1 d2 = Ret (Ok v') /\ is_finite v = true /\ 0 < v'
    /\ Rabs (B2R v - v') <= ((1 + eps) * exp B - 1) * v'.
Proof.
  intros e D D' K s ms ys g M Y X eps c c' d1 d2 v HD HL H2 HM Hg HMb HS HY Hac He0 Hc Hc' A1 A2 E years B HX.
  pose proof (fitted_f e D D' K s ms ys HD HL _ c Hc) as (Es & _). pose proof (fitted_r e D D' K s ms ys HD HL _ c' Hc') as (Es' & _).
  assert (spread_error Y (growth g M) (years d1 + years d2) = B) as EB by (unfold spread_error, growth, B; ring).
  rewrite <- EB in *.
  apply (factor_near e D D' K s Y (growth g M) HD (proj1 HM) HY (growth_range s ms ys g M HL H2 HM Hg HMb) _ _ c c' Es Es'
    (fun d yh => yield_near e D D' K s ms ys g M Y HD HL H2 HM Hg HMb HS HY c c' d yh Hc Hc') X eps d1 d2 v Hac He0 A1 A2 E HX).
Qed.
Print Assumptions C98_factor.

(** The bond with its amounts as real numbers, and with their absolute values. *)
Definition real_bond (b : Bond f64) : Bond R :=
  mkBond (bond_id_field b) (map (fun f => mkFlow (due_date f) (payment_date f) (B2R (payment_amount f))) (bond_cash_flows b)).
Definition gross_bond (b : Bond f64) : Bond R :=
  mkBond (bond_id_field b) (map (fun f => mkFlow (due_date f) (payment_date f) (Rabs (B2R (payment_amount f)))) (bond_cash_flows b)).

Lemma total_near (l : list (BondCashFlow f64)) (p : BondCashFlow f64 -> R) (p' : BondCashFlow f64 -> R) r :
  (forall f, In f l -> 0 < p' f /\ Rabs (p f - p' f) <= r * p' f) ->
  let G := total (map (fun f => p' f * Rabs (B2R (payment_amount f))) l) in
  Rabs (total (map (fun f => p f * B2R (payment_amount f)) l) - total (map (fun f => p' f * B2R (payment_amount f)) l)) <= r * G
  /\ total (map (fun f => Rabs (p f * B2R (payment_amount f))) l) <= (1 + r) * G.
Proof.
  intros H G. unfold G. clear G. unfold total. induction l as [| f l IH]; simpl.
  - rewrite Rminus_0_r, Rabs_R0. lra.
  - destruct IH as (I1 & I2); [intros f' Hf; apply H; now right |]. destruct (H f (or_introl eq_refl)) as (P & N).
    set (a := B2R (payment_amount f)) in *. pose proof (Rabs_pos a) as Pa. split.
    + match goal with |- Rabs (?x + ?y - (?x' + ?y')) <= _ => replace (x + y - (x' + y')) with ((p f - p' f) * a + (y - y')) by (unfold a; ring) end.
      eapply Rle_trans; [apply Rabs_triang |]. rewrite Rabs_mult.
      assert (Rabs (p f - p' f) * Rabs a <= r * p' f * Rabs a) by (apply Rmult_le_compat_r; lra). lra.
    + assert (Rabs (p f * a) <= (1 + r) * (p' f * Rabs a)); [| lra]. rewrite Rabs_mult.
      replace ((1 + r) * (p' f * Rabs a)) with ((p' f + r * p' f) * Rabs a) by ring. apply Rmult_le_compat_r; [lra |].
      replace (p f) with (p' f + (p f - p' f)) by ring. eapply Rle_trans; [apply Rabs_triang |]. rewrite (Rabs_pos_eq (p' f)) by lra. lra.
Qed.

Lemma open_map settle (h : BondCashFlow f64 -> R) (q : Date -> R -> R) (l : list (BondCashFlow f64)) :
  map (fun f => q (payment_date f) (payment_amount f)) (filter (open_flow settle) (map (fun f => mkFlow (due_date f) (payment_date f) (h f)) l))
  = map (fun f => q (payment_date f) (h f)) (filter (open_flow settle) l).
Proof.
  induction l as [| f l IH]; [reflexivity |]. cbn [map].
  destruct (date_ltb settle (due_date f)) eqn:L.
  - rewrite !filter_open by exact L. cbn [map]. f_equal. exact IH.
  - rewrite !filter_closed by exact L. exact IH.
Qed.

(** Values are near when factors are. *)
Lemma value_near e (D : DayCount (F64 e)) (D' : DayCount RV) I I' (c : YieldCurve (F64 e) I) (c' : YieldCurve RV I') (b : Bond f64) settle r (v : f64) :
  (forall f (x : f64), In f (bond_cash_flows b) -> discount_factor D c settle (payment_date f) = Ret (Ok x) ->
    exists x' : R, discount_factor D' c' settle (payment_date f) = Ret (Ok x') /\ is_finite x = true /\ 0 < x' /\ Rabs (B2R x - x') <= (r - 1) * x') ->
  discounted_value (V := F64 e) D b settle c = Ret (Ok v) -> is_finite v = true ->
  let n := List.length (filter (open_flow settle) (bond_cash_flows b)) in
  let u := bpow radix2 (-53) in
  exists v' G : R, discounted_value (V := RV) D' (real_bond b) settle c' = Ret (Ok v')
    /\ discounted_value (V := RV) D' (gross_bond b) settle c' = Ret (Ok G)
    /\ Rabs (B2R v - v') <= ((1 + u) ^ (n + 1) * r - 1) * G + INR n * bpow radix2 (-1075) * (1 + u) ^ n.
Proof.
  intros HF Ev Fv n u.
  destruct (C97_rounding 53 1024 Hp53 He1024 e D I b settle c v Ev) as (df & Hdf & Hr). specialize (Hr Fv). cbv zeta in Hr.
  fold n in Hr. change (bpow radix2 (- (53))) with u in Hr. change (2 - 1024 - 53)%Z with (-1075)%Z in Hr.
  set (df' := fun d => match discount_factor D' c' settle d with Ret (Ok x) => x : R | _ => 0 end).
  assert (forall f, In f (bond_cash_flows b) -> earlier settle (due_date f) ->
    discount_factor D' c' settle (payment_date f) = Ret (Ok (df' (payment_date f))) /\ 0 < df' (payment_date f)
    /\ Rabs (B2R (df (payment_date f)) - df' (payment_date f)) <= (r - 1) * df' (payment_date f)) as Near.
  { intros f Hf Of. destruct (HF f _ Hf (Hdf f Hf Of)) as (v' & V' & _ & P & N). unfold df'. rewrite V'. auto. }
  set (l := filter (open_flow settle) (bond_cash_flows b)).
  set (G := total (map (fun f => df' (payment_date f) * Rabs (B2R (payment_amount f))) l)).
  exists (total (map (fun f => df' (payment_date f) * B2R (payment_amount f)) l)), G.
  assert (forall h : BondCashFlow f64 -> R, discounted_value (V := RV) D'
    (mkBond (bond_id_field b) (map (fun f => mkFlow (due_date f) (payment_date f) (h f)) (bond_cash_flows b))) settle c'
    = Ret (Ok (total (map (fun f => df' (payment_date f) * h f) l)))) as Val.
  { intros h. rewrite (C50_sum D' I' _ settle c' df').
    - cbn [bond_cash_flows]. unfold l. now rewrite (open_map settle h (fun d a => df' d * a)).
    - intros f Hf Of. cbn [bond_cash_flows] in Hf. apply in_map_iff in Hf. destruct Hf as (f0 & <- & Hf). now apply Near. }
  split; [apply (Val (fun f => B2R (payment_amount f))) |]. split; [apply (Val (fun f => Rabs (B2R (payment_amount f)))) |].
  destruct (total_near l (fun f => B2R (df (payment_date f))) (fun f => df' (payment_date f)) (r - 1)) as (N1 & N2).
  { intros f Hf. apply filter_In in Hf. destruct Hf as (Hf & Of). apply open_flow_spec in Of. now apply Near. }
  fold G in N1, N2. unfold exact_value, gross_value in Hr. fold l in Hr.
  set (ex := total (map (fun f => B2R (df (payment_date f)) * B2R (payment_amount f)) l)) in *.
  set (gr := total (map (fun f => Rabs (B2R (df (payment_date f)) * B2R (payment_amount f))) l)) in *.
  match goal with |- Rabs (?a - ?b) <= _ => replace (a - b) with ((a - ex) + (ex - b)) by ring end.
  eapply Rle_trans; [apply Rabs_triang |].
  assert (1 <= (1 + u) ^ (n + 1)) as Pn by (apply pow_R1_Rle; pose proof (bpow_gt_0 radix2 (-53)); unfold u; lra).
  assert (((1 + u) ^ (n + 1) - 1) * gr <= ((1 + u) ^ (n + 1) - 1) * (r * G)) as Q by (apply Rmult_le_compat_l; lra). lra.
Qed.

(** The binary64 value of a bond against its exact value, end to end. *)
Theorem C98_value : forall e D D' K s ms (ys : list f64) g M Y X eps c c' (b : Bond f64) settle T (v : f64),
  same_count e D D' K -> List.length ms = List.length ys -> (2 <= List.length ms)%nat -> laid_out s ms g M -> 1 <= g -> M <= 268435456 ->
  sized ys Y -> bpow radix2 (-900) <= Y <= bpow radix2 900 -> accurate e X eps -> 0 <= eps ->
  curve_new D (Linear (F64 e)) s ms ys = Ret (Ok c) -> curve_new D' (Linear RV) s ms (map B2R ys) = Ret (Ok c') ->
  let years d := IZR (serial_date d - serial_date s) / IZR K in
  a_date settle -> (forall f, In f (bond_cash_flows b) -> a_date (payment_date f) /\ years settle + years (payment_date f) <= T) ->
  let B := bpow radix2 (-53) * Y * ((19 + 16 * (M / g)) * T + 3) in
  Y * T + B <= X ->
  discounted_value (V := F64 e) D b settle c = Ret (Ok v) -> is_finite v = true ->
  let n := List.length (filter (open_flow settle) (bond_cash_flows b)) in
  let u := bpow radix2 (-53) in
  exists v' G : R, discounted_value (V := RV) D' (real_bond b) settle c' = Ret (Ok v')
    /\ discounted_value (V := RV) D' (gross_bond b) settle c' = Ret (Ok G)
    /\ Rabs (B2R v - v') <= ((1 + u) ^ (n + 1) * ((1 + eps) * exp B) - 1) * G + INR n * bpow radix2 (-1075) * (1 + u) ^ n.
Proof.
  intros e D D' K s ms ys g M Y X eps c c' b settle T v HD HL H2 HM Hg HMb HS HY Hac He0 Hc Hc' years As Af B HX Ev Fv.
  apply (value_near e D D' _ _ c c' b settle ((1 + eps) * exp B) v); [| exact Ev | exact Fv].
  intros f x Hf Ex. destruct (Af f Hf) as (Ap & Tp). pose proof (ratio_range s ms ys g M HL H2 HM Hg HMb) as Gr.
  pose proof (bpow_gt_0 radix2 (-900)) as P900. pose proof (bpow_gt_0 radix2 (-53)) as Pu.
  assert (0 <= bpow radix2 (-53) * Y) as PuY by (apply Rmult_le_pos; lra).
  set (B1 := bpow radix2 (-53) * Y * ((19 + 16 * (M / g)) * (years settle + years (payment_date f)) + 3)).
  assert (B1 <= B) as LB.
  { unfold B1, B. apply Rmult_le_compat_l; [exact PuY |]. apply Rplus_le_compat_r. apply Rmult_le_compat_l; lra. }
  assert (Y * (years settle + years (payment_date f)) <= Y * T) as LY by (apply Rmult_le_compat_l; lra).
  destruct (C98_factor e D D' K s ms ys g M Y X eps c c' settle (payment_date f) x HD HL H2 HM Hg HMb HS HY Hac He0 Hc Hc' As Ap Ex)
    as (x' & V' & Fx & P & N).
  { change (Y * (years settle + years (payment_date f)) + B1 <= X). lra. }
  change (Rabs (B2R x - x') <= ((1 + eps) * exp B1 - 1) * x') in N. exists x'. split; [exact V' |]. split; [exact Fx |]. split; [exact P |].
  eapply Rle_trans; [exact N |]. apply Rmult_le_compat_r; [lra |]. apply Rplus_le_compat_r. apply Rmult_le_compat_l; [lra |].
  destruct LB as [LB | ->]; [left; now apply exp_increasing | right; reflexivity].
Qed.
Print Assumptions C98_value.

(** An exponential accurate enough near zero: one plus the argument. *)
Definition ex_exp (x : f64) : f64 := Bplus (prec_gt_0_ := Hp53) (prec_lt_emax_ := He1024) mode_NE (of_int 53 1024 Hp53 He1024 1) x.

Lemma one_plus_near x d : - / 2 <= x <= / 2 -> - / 9007199254740992 <= d <= / 9007199254740992 -> Rabs ((1 + x) * (1 + d) - exp x) <= / 2 * exp x.
Proof.
  intros Bx Hd.
  pose proof (exp_pos x) as P.
  assert (1 + x <= exp x) as L1 by (destruct (Req_dec x 0) as [-> | N]; [rewrite exp_0; lra | left; now apply exp_ineq1]).
  assert (1 - x <= exp (- x)) as L2 by (destruct (Req_dec x 0) as [-> | N]; [rewrite Ropp_0, exp_0; lra | left; apply (exp_ineq1 (- x)); lra]).
  assert (exp x * exp (- x) = 1) as L3 by (rewrite <- exp_plus; replace (x + - x) with 0 by ring; apply exp_0).
  assert (exp x * (1 - x) <= 1) as L4 by (rewrite <- L3; apply Rmult_le_compat_l; lra).
  assert ((1 + x) * (exp x * (1 - x)) <= (1 + x) * 1) as L5 by (apply Rmult_le_compat_l; lra).
  assert (x * x <= / 4) as L6 by nra. assert (x * x * exp x <= / 4 * exp x) as L7 by (apply Rmult_le_compat_r; lra).
  assert (Rabs ((1 + x) * d) <= (1 + x) * / 1000) as L8.
  { rewrite Rabs_mult, (Rabs_pos_eq (1 + x)) by lra. apply Rmult_le_compat_l; [lra |]. apply Rabs_le. lra. }
  apply Rabs_le_inv in L8. apply Rabs_le. lra.
Qed.

Lemma ex_exp_accurate : accurate ex_exp (/ 2) (/ 2).
Proof.
  intros x Fx Bx. apply Rabs_le_inv in Bx. destruct (of_int_correct 53 1024 Hp53 He1024 1) as (E1 & F1); [reflexivity | lia |].
  destruct (safe_plus (of_int 53 1024 Hp53 He1024 1) x 1 F1 Fx ltac:(lia)) as (Ff & _).
  { rewrite E1. change (bpow radix2 1) with 2. apply Rabs_le. lra. }
  fold (ex_exp x) in Ff. split; [exact Ff |]. destruct (plus_error 53 1024 Hp53 He1024 _ _ Ff) as (_ & _ & d & Hd & Ex). fold (ex_exp x) in Ex.
  rewrite Ex, E1. change (unit_roundoff 53) with u64 in Hd. pose proof u64_val as Eu. rewrite Eu in Hd. apply Rabs_le_inv in Hd.
  now apply one_plus_near.
Qed.

(** Yields of 1/32, 1/16 and 1/8 on the curve of the earlier examples, and two flows. *)
Example C98_case : let i := of_int 53 1024 Hp53 He1024 in let V := F64 ex_exp in
  let ys := [Bdiv (prec_gt_0_ := Hp53) (prec_lt_emax_ := He1024) mode_NE (i 1) (i 32); Bdiv (prec_gt_0_ := Hp53) (prec_lt_emax_ := He1024) mode_NE (i 1) (i 16);
    Bdiv (prec_gt_0_ := Hp53) (prec_lt_emax_ := He1024) mode_NE (i 1) (i 8)]%Z in
  let b := mkBond (V := f64) ""
    [mkFlow (mkDate 2025 9 1) (mkDate 2025 9 1) (i 5%Z); mkFlow (mkDate 2026 3 2) (mkDate 2026 3 2) (i 105%Z)] in
  let years d := IZR (serial_date d - serial_date ex_settle) / 365 in
  let B := bpow radix2 (-53) * / 8 * ((19 + 16 * (1460 / 365)) * (5 / 2) + 3) in
  same_count ex_exp (act_365 V) (act_365 RV) 365 /\ laid_out ex_settle ex_maturities 365 1460 /\ sized ys (/ 8) /\ accurate ex_exp (/ 2) (/ 2)
  /\ / 8 * (5 / 2) + B <= / 2
  /\ (forall f, In f (bond_cash_flows b) -> a_date (payment_date f) /\ years ex_settle + years (payment_date f) <= 5 / 2)
  /\ exists c c' v, curve_new (act_365 V) (Linear V) ex_settle ex_maturities ys = Ret (Ok c)
    /\ curve_new (act_365 RV) (Linear RV) ex_settle ex_maturities (map B2R ys) = Ret (Ok c')
    /\ discounted_value (V := V) (act_365 V) b ex_settle c = Ret (Ok v) /\ is_finite v = true.
Proof.
  intros i V ys b years B. split; [right; auto |].
  split.
  { split; [now apply valid_a_date |]. split.
    - intros m [<- | [<- | [<- | []]]]; (split; [now apply valid_a_date |]);
        match goal with |- Rabs (IZR ?z) <= _ => let k := eval vm_compute in z in change z with k end; apply Rabs_le; lra.
    - intros [| [| [| k]]] m m' Hm Hm'; try discriminate; injection Hm as <-; injection Hm' as <-;
        match goal with |- _ <= IZR ?z => let k := eval vm_compute in z in change z with k end; lra. }
  split.
  { assert (forall k, (k = 32 \/ k = 16 \/ k = 8)%Z -> is_finite (Bdiv (prec_gt_0_ := Hp53) (prec_lt_emax_ := He1024) mode_NE (i 1%Z) (i k)) = true
      /\ Rabs (B2R (Bdiv (prec_gt_0_ := Hp53) (prec_lt_emax_ := He1024) mode_NE (i 1%Z) (i k))) <= / 8) as Q.
    { intros k Hk. destruct (of_int_correct 53 1024 Hp53 He1024 1) as (E1 & F1); [reflexivity | lia |].
      destruct (of_int_correct 53 1024 Hp53 He1024 k) as (Ek & Fk); [lia | lia |].
      assert (8 <= IZR k) as Lk by (apply IZR_le; lia).
      assert (Rabs (B2R (i 1%Z) / B2R (i k)) <= bpow radix2 (-3)) as Bd.
      { unfold i. rewrite E1, Ek. unfold Rdiv. rewrite Rmult_1_l, Rabs_inv, Rabs_pos_eq by lra. change (bpow radix2 (-3)) with (/ 8). apply Rinv_le; lra. }
      assert (B2R (i k) <> 0) as Nk by (unfold i; rewrite Ek; lra).
      destruct (safe_div (i 1%Z) (i k) 0 F1 Nk ltac:(lia)) as (Fd & _).
      { eapply Rle_trans; [exact Bd |]. apply bpow_le. lia. }
      split; [exact Fd |].
      pose proof (Bdiv_correct 53 1024 Hp53 He1024 mode_NE (i 1%Z) (i k) Nk) as C. change (round_mode mode_NE) with ZnearestE in C.
      fold (rnd 53 1024 (B2R (i 1%Z) / B2R (i k))) in C.
      assert (Rabs (rnd 53 1024 (B2R (i 1%Z) / B2R (i k))) <= bpow radix2 (-3)) as Br.
      { apply abs_round_le_generic; [apply fexp_correct; exact Hp53 | apply valid_rnd_N | | exact Bd].
        apply generic_format_bpow'; [apply fexp_correct; exact Hp53 | unfold SpecFloat.fexp, SpecFloat.emin; lia]. }
      rewrite Rlt_bool_true in C by (eapply Rle_lt_trans; [exact Br | apply bpow_lt; lia]). destruct C as (-> & _). exact Br. }
    intros y [<- | [<- | [<- | []]]]; apply Q; auto. }
  split; [exact ex_exp_accurate |].
  split; [unfold B; pose proof u64_val as Eu; rewrite Eu; lra |].
  split.
  { intros f [<- | [<- | []]]; (split; [now apply valid_a_date |]); unfold years; cbn [payment_date];
      repeat match goal with |- context [IZR (?a - ?b)] => let k := eval vm_compute in (a - b)%Z in change (a - b)%Z with k end; lra. }
  assert (match curve_new (act_365 V) (Linear V) ex_settle ex_maturities ys with
    | Ret (Ok c) => match discounted_value (V := V) (act_365 V) b ex_settle c with Ret (Ok v) => is_finite v | _ => false end
    | _ => false end = true) as H by (vm_compute; reflexivity).
  destruct (curve_new (act_365 V) (Linear V) ex_settle ex_maturities ys) as [[c | er] | |] eqn:Ec; try discriminate.
  destruct (discounted_value (V := V) (act_365 V) b ex_settle c) as [[v | er] | |] eqn:Ev; try discriminate.
  exists c. eexists. exists v. split; [reflexivity |]. split; [reflexivity |]. split; [exact Ev | exact H].
Qed.
