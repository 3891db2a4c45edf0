(** Property C102: discount factors and bond values of natural cubic curves in binary64 against exact arithmetic. *)
From Coq Require Import String ZArith Reals Bool List Arith Lia Lra Psatz.
From Flocq Require Import Core BinarySingleNaN Relative.
From Verif Require Import Base Chrono Gregorian DateModel DateFacts Value RealValue FloatValue FloatFacts DayCountModel InterpModel InterpFacts Grid
  CurveModel BondModel PropsDate PropsDayCount PropsDayCountFloat PropsLinear PropsNaturalCubic PropsCurve PropsBond PropsFloat PropsFloatKnots PropsFloatLinear
  PropsCurveFloat PropsBondFloat PropsShift PropsCurveError PropsSplineFloat NcError PropsNcFloat.
From Verif Require PropsNcStability.
Import ListNotations.
Open Scope R_scope.

(** A query that is answered is in range. *)
Lemma natural_in_range prec emax Hp He e (pts : list (binary_float prec emax * binary_float prec emax)) x v :
  rising (map fst pts) -> is_finite x = true -> (3 <= List.length pts)%nat ->
  fit_eval (NaturalCubic (FV prec emax Hp He e)) pts x = Ret (Ok v) ->
  gx (reals pts) 0 <= B2R x <= gx (reals pts) (List.length pts - 1).
Proof.
  intros Rs Fx L E. set (z := (B754_nan, B754_nan) : binary_float prec emax * binary_float prec emax).
  pose proof (rising_line prec emax (map fst pts) Rs) as Ln.
  assert (map fst pts <> []) as Ne by (destruct pts; [simpl in L; lia | discriminate]).
  destruct (find_line prec emax Hp He e (map fst pts) x Ln Ne (not_nan prec emax x Fx)) as (A & B & _).
  destruct (cells_natural_cubic (V := FV prec emax Hp He e) pts x (fv_constants prec emax Hp He e) (fv_irr prec emax Hp He e) L
    (line_in_order prec emax Hp He e fst pts Ln)) as (w & W).
  assert (forall k, nth k (map fst pts) B754_nan = fst (nth k pts z)) as En by (intros k; apply (map_nth fst pts z k)).
  assert (forall k, (k < List.length pts)%nat -> is_finite (fst (nth k pts z)) = true) as Fk.
  { intros k Hk. rewrite <- En. apply (proj1 Rs), nth_In. rewrite map_length. exact Hk. }
  destruct (Bltb x (hd B754_nan (map fst pts))) eqn:Lo; [pose proof (eq_trans (eq_sym E) (eq_trans W (f_equal (by_cell w) (A eq_refl)))); discriminate |].
  destruct (Bltb (last (map fst pts) B754_nan) x) eqn:Up; [pose proof (eq_trans (eq_sym E) (eq_trans W (f_equal (by_cell w) (B eq_refl)))); discriminate |].
  assert (hd B754_nan (map fst pts) = fst (nth 0 pts z)) as Eh by (rewrite <- En; now destruct pts).
  assert (last (map fst pts) B754_nan = fst (nth (List.length pts - 1) pts z)) as El.
  { rewrite <- En. rewrite (last_nth (map fst pts)), map_length. reflexivity. }
  rewrite Eh in Lo. rewrite El in Up. rewrite !gx_reals. fold z.
  rewrite Bltb_correct in Lo, Up by (try apply Fk; auto; lia).
  split; [revert Lo | revert Up]; case Rlt_bool_spec; easy.
Qed.

(** The difference of two rounded times. *)
Lemma rounded_difference (a b : f64) ra rb om W k : is_finite a = true -> is_finite b = true -> Rabs (B2R a) <= bpow radix2 20 -> Rabs (B2R b) <= bpow radix2 20 ->
  Rabs (B2R a - ra) <= om -> Rabs (B2R b - rb) <= om -> 0 <= ra - rb <= W -> om <= u64 * k * W -> 0 <= k -> u64 * (1 + 3 * k) <= / 50000 ->
  NcError.near 53 1024 (u64 * (1 + 3 * k)) W (Bminus (prec_gt_0_ := Hp53) (prec_lt_emax_ := He1024) mode_NE a b) (ra - rb) 1 1.
Proof.
  intros Fa Fb Ba Bb Na Nb D Om Pk Ek.
  assert (bpow radix2 20 <= large 1024) as Lg by (apply bpow_le; lia).
  destruct (diff_error 53 1024 Hp53 He1024 ltac:(lia) a b Fa Fb ltac:(lra) ltac:(lra)) as (F & d & Hd & E).
  split; [exact F |]. split; [rewrite Rabs_pos_eq; lra |]. rewrite E.
  change (unit_roundoff 53) with u64 in Hd. pose proof u64_val as Eu.
  assert (0 <= om) as Po by (eapply Rle_trans; [apply Rabs_pos | exact Na]).
  set (x := B2R a) in *. set (y := B2R b) in *.
  assert (Rabs (x - y - (ra - rb)) <= 2 * om) as N.
  { replace (x - y - (ra - rb)) with ((x - ra) + - (y - rb)) by ring. eapply Rle_trans; [apply Rabs_triang |]. rewrite Rabs_Ropp. lra. }
  replace ((x - y) * (1 + d) - (ra - rb)) with ((x - y - (ra - rb)) * (1 + d) + (ra - rb) * d) by ring.
  eapply Rle_trans; [apply Rabs_triang |]. rewrite !Rabs_mult.
  assert (Rabs (1 + d) <= 1 + u64) as H1 by (apply Rabs_le_inv in Hd; apply Rabs_le; lra).
  assert (Rabs (x - y - (ra - rb)) * Rabs (1 + d) <= 2 * om * (1 + u64)) as P1 by (apply Rmult_le_compat; auto using Rabs_pos).
  assert (Rabs (ra - rb) * Rabs d <= W * u64) as P2 by (apply Rmult_le_compat; auto using Rabs_pos; rewrite Rabs_pos_eq; lra).
  assert (2 * om * (1 + u64) <= 2 * (u64 * k * W) * (3 / 2)) as P3.
  { assert (0 <= u64) by (rewrite Eu; lra). assert (1 + u64 <= 3 / 2) by (rewrite Eu; lra). apply Rmult_le_compat; lra. }
  replace (1 * (u64 * (1 + 3 * k) * W)) with (W * u64 + 2 * (u64 * k * W) * (3 / 2)) by field. lra.
Qed.

(** ** Curves *)

(** Gaps of at most [G] days. *)
Definition spaced (ms : list Date) (G : R) : Prop :=
  forall i m m', nth_error ms i = Some m -> nth_error ms (S i) = Some m' -> IZR (serial_date m' - serial_date m) <= G.

Section Natural.
Variables (e : f64 -> f64) (D : DayCount (F64 e)) (D' : DayCount RV) (K : Z) (s : Date) (ms : list Date) (ys : list f64) (g M r Y : R).
Hypothesis HD : same_count e D D' K.
Hypothesis HL : List.length ms = List.length ys.
Hypothesis H3 : (3 <= List.length ms)%nat.
Hypothesis HM : laid_out s ms g M.
Hypothesis HG : spaced ms (r * g).
Hypothesis Hg : 1 <= g.
Hypothesis HMb : M <= 268435456.
Hypothesis HS : sized ys Y.
Hypothesis HY : bpow radix2 (-100) <= Y <= bpow radix2 100.
Notation tfs := (tf K s).
Notation trs := (tr K s).
Notation pts := (combine (map tfs ms) ys).
Notation pts' := (curve_points trs ms (map B2R ys)).

Definition nc_growth : R := 1125 * (1 + 3 * (M / g)).

Lemma ratio_one : 1 <= r.
Proof.
  destruct (nth_error ms 0) as [m |] eqn:E0; [| apply nth_error_None in E0; lia].
  destruct (nth_error ms 1) as [m' |] eqn:E1; [| apply nth_error_None in E1; lia].
  pose proof (proj2 (proj2 HM) 0%nat m m' E0 E1). pose proof (HG 0%nat m m' E0 E1). nra.
Qed.

Lemma wide i : (i + 1 < List.length ms)%nat -> trs (nth (i + 1) ms s) - trs (nth i ms s) <= r * (g / IZR K).
Proof.
  intros Hi. destruct (K_real e D D' K ms ys HD HL ltac:(lia)) as (HKr & HKi).
  pose proof (HG i (nth i ms s) (nth (i + 1) ms s) (nth_error_nth2 ms i s ltac:(lia))) as Q.
  replace (S i) with (i + 1)%nat in Q by lia. specialize (Q (nth_error_nth2 ms (i + 1) s Hi)). unfold tr.
  replace (IZR (date_sub (nth (i + 1) ms s) s) / IZR K - IZR (date_sub (nth i ms s) s) / IZR K) with
    (IZR (serial_date (nth (i + 1) ms s) - serial_date (nth i ms s)) / IZR K).
  - unfold Rdiv. rewrite <- Rmult_assoc. apply Rmult_le_compat_r; lra.
  - unfold Rdiv. rewrite <- Rmult_minus_distr_r, <- minus_IZR. do 2 f_equal. unfold date_sub, diff_days, serial_date. lia.
Qed.

Lemma natural_yield_near (c : YieldCurve (F64 e) (NaturalCubic (F64 e))) (c' : YieldCurve RV (NaturalCubic RV)) d (yh : f64) :
  curve_new D (NaturalCubic (F64 e)) s ms ys = Ret (Ok c) -> curve_new D' (NaturalCubic RV) s ms (map B2R ys) = Ret (Ok c') -> a_date d ->
  i_try_value (NaturalCubic (F64 e)) (interpolator c) (tfs d) = Ret (Ok yh) ->
  exists y : R, i_try_value (NaturalCubic RV) (interpolator c') (trs d) = Ret (Ok y) /\ is_finite yh = true
    /\ Rabs (B2R yh - y) <= u64 * (4 * r ^ 2 * Y) * nc_growth /\ Rabs y <= 4 * r ^ 2 * Y.
Proof.
  intros Hc Hc' A E. assert (2 <= List.length ms)%nat as H2 by lia.
  rewrite <- (proj2 (fitted_f e D D' K s ms ys HD HL _ c Hc)) in E. rewrite <- (proj2 (fitted_r e D D' K s ms ys HD HL _ c' Hc')).
  pose proof (pts_length K s ms ys HL H2) as Lp. pose proof (pts'_length K s ms ys HL) as Lp'.
  destruct (K_real e D D' K ms ys HD HL H2) as (HKr & HKi). pose proof (gap_pos e D D' K ms ys g HD HL H2 Hg) as Gpos.
  pose proof (rising_f e D D' K s ms ys g M HD HL H2 HM Hg) as Rs. pose proof (increasing_r e D D' K s ms ys g M HD HL H2 HM Hg) as Inc'.
  pose proof (proj1 (tf_value e D D' K s HD (proj1 HM) d A)) as Fx.
  assert (forall j, (j < List.length ms)%nat -> gx (reals pts) j = B2R (tfs (nth j ms s))) as Ax
    by (intros j Hj; now rewrite gx_reals, (pts_nth K s ms ys HL j Hj)).
  assert (forall j, (j < List.length ms)%nat -> gx pts' j = trs (nth j ms s)) as Ax' by (intros j Hj; apply (pts'_nth K s ms ys HL H2 j Hj)).
  assert (forall j, (j < List.length ms)%nat -> Rabs (gy pts' j) <= Y) as Ab
    by (intros j Hj; rewrite (proj2 (pts'_nth K s ms ys HL H2 j Hj)); apply HS, nth_In; lia).
  pose proof (natural_in_range 53 1024 Hp53 He1024 e pts (tfs d) yh Rs Fx ltac:(lia) E) as Hx.
  destruct (nc_float_eval 53 1024 Hp53 He1024 e pts (tfs d) ltac:(lia) Rs Fx Hx) as (i & Hi & Bx & Ev).
  pose proof (eq_trans (eq_sym E) Ev) as Q. injection Q as ->. clear E Ev. rewrite Lp in Hi. rewrite !Ax in Bx by lia.
  assert (forall j, (j < List.length ms)%nat -> a_date (nth j ms s)) as Am by (intros j Hj; apply (maturity s ms g M HM j Hj)).
  assert (trs (nth i ms s) <= trs d <= trs (nth (i + 1) ms s)) as Bt.
  { split; apply Rnot_lt_le; intros Cn; apply (tf_order e D D' K s HD (proj1 HM)) in Cn; try lra; try exact A; apply Am; lia. }
  assert (gx pts' i <= trs d <= gx pts' (i + 1)) as Bt' by (rewrite !Ax' by lia; exact Bt).
  pose proof (nc_value_ds pts' i (trs d) Inc' ltac:(lia) ltac:(lia) Bt') as Er.
  exists (q pts' (second_of (nc_ds pts')) i (trs d)). split; [exact Er |].
  set (om := u64 * (M / IZR K)).
  assert (forall j, (j < List.length ms)%nat -> Rabs (B2R (tfs (nth j ms s)) - trs (nth j ms s)) <= om) as Nj.
  { intros j Hj. apply (time_near e D D' K s ms g M HD HM); [now apply Am | now apply (maturity_time e D D' K s ms ys g M HD HL H2 HM)]. }
  assert (Rabs (B2R (tfs d) - trs d) <= om) as Nd.
  { apply (time_near e D D' K s ms g M HD HM); [exact A |]. pose proof (maturity_time e D D' K s ms ys g M HD HL H2 HM i ltac:(lia)) as T0.
    pose proof (maturity_time e D D' K s ms ys g M HD HL H2 HM (i + 1) Hi) as T1. apply Rabs_le_inv in T0, T1. apply Rabs_le. lra. }
  assert (forall m, a_date m -> is_finite (tfs m) = true /\ Rabs (B2R (tfs m)) <= bpow radix2 20) as Sm.
  { intros m Hm. destruct (tf_value e D D' K s HD (proj1 HM) m Hm) as (F & V). split; [exact F |]. rewrite V. unfold to_f64.
    apply abs_round_le_generic; [apply FLT_exp_valid; reflexivity | apply valid_rnd_N | | now apply (tr_small e D D' K s HD (proj1 HM))].
    apply generic_format_bpow'; [apply FLT_exp_valid; reflexivity | unfold FLT_exp; lia]. }
  pose proof (ratio_range s ms ys g M HL H2 HM Hg HMb) as (PM & RM). pose proof u64_val as Eu.
  set (k := M / g) in *. set (h := g / IZR K) in *.
  assert (u64 * (1 + 3 * k) <= / 50000) as Ek by (rewrite Eu; lra).
  assert (unit_roundoff 53 <= u64 * (1 + 3 * k) <= / 50000) as Ue.
  { split; [| exact Ek]. change (unit_roundoff 53) with u64. assert (0 < u64) by (rewrite Eu; lra). nra. }
  assert (forall W, h <= W -> om <= u64 * k * W) as Om.
  { intros W HW. replace om with (u64 * k * h) by (unfold om, k, h; field; lra). apply Rmult_le_compat_l; [| exact HW].
    apply Rmult_le_pos; [rewrite Eu |]; lra. }
  assert (forall j, (j + 1 < List.length ms)%nat -> h <= w pts' j <= r * h) as Gw.
  { intros j Hj. unfold w. rewrite !Ax' by lia. split; [apply (gap e D D' K s ms ys g M HD HL H2 HM j Hj) | now apply wide]. }
  assert (forall j, (j + 1 < List.length ms)%nat -> w pts' j <= bpow radix2 100) as Wl.
  { intros j Hj. unfold w. rewrite !Ax' by lia. pose proof (tr_small e D D' K s HD (proj1 HM) _ (Am j ltac:(lia))) as S0.
    pose proof (tr_small e D D' K s HD (proj1 HM) _ (Am (j + 1)%nat Hj)) as S1. apply Rabs_le_inv in S0, S1.
    apply Rle_trans with (bpow radix2 21); [change (bpow radix2 21) with 2097152; change (bpow radix2 20) with 1048576 in *; lra | apply bpow_le; lia]. }
  set (m := bpow radix2 100). assert (8 <= m) as M8 by (change 8 with (bpow radix2 3); apply bpow_le; lia).
  assert (forall k, m ^ k = bpow radix2 (Z.of_nat k * 100)) as Pw.
  { induction k0 as [| k0 IHk]; [reflexivity |]. rewrite <- tech_pow_Rmult, IHk. unfold m. rewrite <- bpow_plus. f_equal. lia. }
  assert (forall k, / m ^ k = bpow radix2 (- (Z.of_nat k * 100))) as Pi by (intros k0; now rewrite Pw, bpow_opp).
  assert (forall S, mag m 9 S -> mild 1024 S) as Mild.
  { intros S [S1 S2]. rewrite Pi in S1. rewrite Pw in S2. split; [eapply Rle_trans; [| exact S1] | eapply Rle_trans; [exact S2 |]]; apply bpow_le; lia. }
  assert (mag m 1 h) as Mh.
  { split; [rewrite Pi | rewrite Pw]; rewrite Z.mul_1_l.
    - apply Rle_trans with (bpow radix2 (-9)); [apply bpow_le; lia |]. change (bpow radix2 (-9)) with (/ 512). lra.
    - eapply Rle_trans; [apply (Gw 0%nat); lia | apply Wl; lia]. }
  assert (mag m 1 Y) as MY by (split; [rewrite Pi | rewrite Pw]; rewrite Z.mul_1_l; apply HY).
  assert (List.length pts' = List.length pts) as Ll by lia.
  set (z := (B754_nan, B754_nan) : f64 * f64).
  assert (forall j, (j < List.length ms)%nat -> fst (nth j pts z) = tfs (nth j ms s)) as Fz by (intros j Hj; unfold z; now rewrite (pts_nth K s ms ys HL j Hj)).
  pose proof (nform_near 53 1024 Hp53 He1024 (u64 * (1 + 3 * k)) Ue ltac:(lia) e pts pts' Ll ltac:(lia) m h Y M8 Mild Mh MY) as NF.
  specialize (NF ltac:(intros j Hj; rewrite Lp in Hj; split; [apply Gw; exact Hj | apply Wl; exact Hj])).
  assert (forall j : nat, (j + 1 < List.length pts)%nat -> NcError.near 53 1024 (u64 * (1 + 3 * k)) (w pts' j)
    (Bminus (prec_gt_0_ := Hp53) (prec_lt_emax_ := He1024) mode_NE (fst (nth (j + 1) pts z)) (fst (nth j pts z))) (w pts' j) 1 1) as Wn.
  { intros j Hj. rewrite Lp in Hj. rewrite !Fz by lia. unfold w at 2. rewrite !Ax' by lia.
    destruct (Sm _ (Am j ltac:(lia))) as (F0 & B0). destruct (Sm _ (Am (j + 1)%nat Hj)) as (F1 & B1).
    destruct (Gw j Hj) as (G1 & _). apply (rounded_difference _ _ _ _ om); try assumption; try lra; [apply Nj; lia | apply Nj; lia | | now apply Om].
    unfold w in *. rewrite !Ax' in * by lia. lra. }
  specialize (NF Wn).
  specialize (NF ltac:(intros j Hj; rewrite Lp in Hj; unfold z; rewrite (pts_nth K s ms ys HL j Hj); cbn [snd];
    split; [apply HS, nth_In; lia | split; [symmetry; apply (pts'_nth K s ms ys HL H2 j Hj) | now apply Ab]])).
  specialize (NF i (tfs d) (trs d) ltac:(lia)).
  destruct (Gw i Hi) as (G1 & G2). destruct (Sm _ A) as (Fd & Bd). fold z.
  destruct (Sm _ (Am i ltac:(lia))) as (F0 & B0). destruct (Sm _ (Am (i + 1)%nat Hi)) as (F1 & B1).
  destruct NF as (Fv & _ & Nv).
  { fold z. rewrite Fz, Ax' by lia. apply (rounded_difference _ _ _ _ om); try assumption; try lra; [now apply Nj | | now apply Om].
    unfold w. rewrite !Ax' by lia. lra. }
  { fold z. rewrite Fz, Ax' by lia. apply (rounded_difference _ _ _ _ om); try assumption; try lra; [apply Nj; lia | | now apply Om].
    unfold w. rewrite !Ax' by lia. lra. }
  fold z in Fv, Nv. split; [exact Fv |].
  assert (0 < Y) as PY by (pose proof (bpow_gt_0 radix2 (-100)); lra). pose proof ratio_one as R1.
  assert (w pts' i * w pts' i * (Y / h / h) <= r ^ 2 * Y) as Sc.
  { replace (r ^ 2 * Y) with (r * h * (r * h) * (Y / h / h)) by (field; lra). apply Rmult_le_compat_r; [| apply Rmult_le_compat; lra].
    unfold Rdiv. repeat apply Rmult_le_pos; try lra; left; apply Rinv_0_lt_compat; lra. }
  split.
  - eapply Rle_trans; [exact Nv |]. unfold nc_growth. fold k.
    assert (u64 * (1 + 3 * k) * (w pts' i * w pts' i * (Y / h / h)) <= u64 * (1 + 3 * k) * (r ^ 2 * Y)) as P
      by (apply Rmult_le_compat_l; [apply Rmult_le_pos; [rewrite Eu |]; lra | exact Sc]). lra.
  - destruct (PropsNcStability.C92_natural_cubic_size h r pts' (trs d) Y) as (y & Ey & By); try assumption; try lia; try lra.
    + intros j Hj. rewrite Lp' in Hj. apply (Gw j Hj).
    + unfold last_of. rewrite Lp'. split; [destruct i as [| i']; [lra |]; pose proof (Inc' 0%nat (S i') ltac:(lia)); lra |].
      destruct (Nat.eq_dec (i + 1) (List.length ms - 1)) as [<- | N]; [lra |]. pose proof (Inc' (i + 1)%nat (List.length ms - 1)%nat ltac:(lia)). lra.
    + intros j Hj. rewrite Lp' in Hj. now apply Ab.
    + pose proof (eq_trans (eq_sym Er) Ey) as Q. injection Q as <-. eapply Rle_trans; [exact By |]. apply Rmult_le_compat_r; [lra |]. simpl. nra.
Qed.
End Natural.

(** ** C102 *)

(** The binary64 factor of a natural cubic curve against the exact one for the same dates and yields. *)
Theorem C102_factor : forall e D D' K s ms (ys : list f64) g M r Y X eps c c' d1 d2 (v : f64),
  same_count e D D' K -> List.length ms = List.length ys -> (3 <= List.length ms)%nat -> laid_out s ms g M -> spaced ms (r * g) ->
  1 <= g -> M <= 268435456 -> M <= 10000000 * g -> r <= 1000000000 ->
  sized ys Y -> bpow radix2 (-100) <= Y <= bpow radix2 100 -> accurate e X eps -> 0 <= eps ->
  curve_new D (NaturalCubic (F64 e)) s ms ys = Ret (Ok c) -> curve_new D' (NaturalCubic RV) s ms (map B2R ys) = Ret (Ok c') ->
  a_date d1 -> a_date d2 -> discount_factor D c d1 d2 = Ret (Ok v) ->
  let years d := IZR (serial_date d - serial_date s) / IZR K in
  let B := bpow radix2 (-53) * (4 * r ^ 2 * Y) * ((1130 + 3375 * (M / g)) * (years d1 + years d2) + 3) in
  4 * r ^ 2 * Y * (years d1 + years d2) + B <= X ->
  exists v' : R, discount_factor D' c' d1 d2 = Ret (Ok v') /\ is_finite v = true /\ 0 < v'
    /\ Rabs (B2R v - v') <= ((1 + eps) * exp B - 1) * v'.
Proof.
  intros e D D' K s ms ys g M r Y X eps c c' d1 d2 v HD HL H3 HM HG Hg HMb HMg Hr HS HY Hac He0 Hc Hc' A1 A2 E years B HX.
  pose proof (fitted_f e D D' K s ms ys HD HL _ c Hc) as (Es & _). pose proof (fitted_r e D D' K s ms ys HD HL _ c' Hc') as (Es' & _).
  assert (spread_error (4 * r ^ 2 * Y) (nc_growth g M) (years d1 + years d2) = B) as EB by (unfold spread_error, nc_growth, B; ring).
  rewrite <- EB in *. pose proof (ratio_one s ms ys g M r HL H3 HM HG Hg) as R1.
  assert (14 <= nc_growth g M <= 40000000000) as Gr.
  { pose proof (ratio_range s ms ys g M HL ltac:(lia) HM Hg HMb) as (PM & RM). unfold nc_growth.
    assert (M / g <= 10000000); [| lra]. apply Rmult_le_reg_r with g; [lra |]. unfold Rdiv. rewrite Rmult_assoc, Rinv_l by lra. lra. }
  assert (1 <= r ^ 2 <= 1000000000 ^ 2) as R2 by (split; [simpl; nra | apply pow_incr; lra]).
  assert (bpow radix2 (-900) <= 4 * r ^ 2 * Y <= bpow radix2 900) as HY'.
  { pose proof (bpow_gt_0 radix2 (-100)) as P100. split.
    - apply Rle_trans with (bpow radix2 (-100)); [apply bpow_le; lia |]. apply Rle_trans with (1 * Y); [lra |]. apply Rmult_le_compat_r; lra.
    - apply Rle_trans with (bpow radix2 70 * bpow radix2 100); [| rewrite <- bpow_plus; apply bpow_le; lia].
      apply Rmult_le_compat; try lra. change (bpow radix2 70) with 1180591620717411303424. lra. }
  apply (factor_near e D D' K s (4 * r ^ 2 * Y) (nc_growth g M) HD (proj1 HM) HY' Gr _ _ c c' Es Es'
    (fun d yh => natural_yield_near e D D' K s ms ys g M r Y HD HL H3 HM HG Hg HMb HS HY c c' d yh Hc Hc') X eps d1 d2 v Hac He0 A1 A2 E HX).
Qed.
Print Assumptions C102_factor.

(** The binary64 value of a bond on a natural cubic curve against its exact value. *)
Theorem C102_value : forall e D D' K s ms (ys : list f64) g M r Y X eps c c' (b : Bond f64) settle T (v : f64),
  same_count e D D' K -> List.length ms = List.length ys -> (3 <= List.length ms)%nat -> laid_out s ms g M -> spaced ms (r * g) ->
  1 <= g -> M <= 268435456 -> M <= 10000000 * g -> r <= 1000000000 ->
  sized ys Y -> bpow radix2 (-100) <= Y <= bpow radix2 100 -> accurate e X eps -> 0 <= eps ->
  curve_new D (NaturalCubic (F64 e)) s ms ys = Ret (Ok c) -> curve_new D' (NaturalCubic RV) s ms (map B2R ys) = Ret (Ok c') ->
  let years d := IZR (serial_date d - serial_date s) / IZR K in
  a_date settle -> (forall f, In f (bond_cash_flows b) -> a_date (payment_date f) /\ years settle + years (payment_date f) <= T) ->
  let B := bpow radix2 (-53) * (4 * r ^ 2 * Y) * ((1130 + 3375 * (M / g)) * T + 3) in
  4 * r ^ 2 * Y * T + B <= X ->
  discounted_value (V := F64 e) D b settle c = Ret (Ok v) -> is_finite v = true ->
  let n := List.length (filter (open_flow settle) (bond_cash_flows b)) in
  let u := bpow radix2 (-53) in
  exists v' G : R, discounted_value (V := RV) D' (real_bond b) settle c' = Ret (Ok v')
    /\ discounted_value (V := RV) D' (gross_bond b) settle c' = Ret (Ok G)
    /\ Rabs (B2R v - v') <= ((1 + u) ^ (n + 1) * ((1 + eps) * exp B) - 1) * G + INR n * bpow radix2 (-1075) * (1 + u) ^ n.
Proof.
  intros e D D' K s ms ys g M r Y X eps c c' b settle T v HD HL H3 HM HG Hg HMb HMg Hr HS HY Hac He0 Hc Hc' years As Af B HX Ev Fv.
  apply (value_near e D D' _ _ c c' b settle ((1 + eps) * exp B) v); [| exact Ev | exact Fv].
  intros f x Hf Ex. destruct (Af f Hf) as (Ap & Tp). pose proof (ratio_range s ms ys g M HL ltac:(lia) HM Hg HMb) as Gr.
  pose proof (bpow_gt_0 radix2 (-100)) as P100. pose proof (bpow_gt_0 radix2 (-53)) as Pu.
  assert (0 <= 4 * r ^ 2 * Y) as Pr by (apply Rmult_le_pos; [| lra]; pose proof (pow2_ge_0 r); lra).
  assert (0 <= bpow radix2 (-53) * (4 * r ^ 2 * Y)) as PuY by (apply Rmult_le_pos; lra).
  set (B1 := bpow radix2 (-53) * (4 * r ^ 2 * Y) * ((1130 + 3375 * (M / g)) * (years settle + years (payment_date f)) + 3)).
  assert (B1 <= B) as LB.
  { unfold B1, B. apply Rmult_le_compat_l; [exact PuY |]. apply Rplus_le_compat_r. apply Rmult_le_compat_l; lra. }
  assert (4 * r ^ 2 * Y * (years settle + years (payment_date f)) <= 4 * r ^ 2 * Y * T) as LY by (apply Rmult_le_compat_l; lra).
  destruct (C102_factor e D D' K s ms ys g M r Y X eps c c' settle (payment_date f) x HD HL H3 HM HG Hg HMb HMg Hr HS HY Hac He0 Hc Hc' As Ap Ex)
    as (x' & V' & Fx & P & N).
  { change (4 * r ^ 2 * Y * (years settle + years (payment_date f)) + B1 <= X). lra. }
  change (Rabs (B2R x - x') <= ((1 + eps) * exp B1 - 1) * x') in N. exists x'. split; [exact V' |]. split; [exact Fx |]. split; [exact P |].
  eapply Rle_trans; [exact N |]. apply Rmult_le_compat_r; [lra |]. apply Rplus_le_compat_r. apply Rmult_le_compat_l; [lra |].
  destruct LB as [LB | ->]; [left; now apply exp_increasing | right; reflexivity].
Qed.
Print Assumptions C102_value.

(** Yields of 1/512, 1/256 and 1/128 one, two and four years out; two flows. *)
Example C102_case : let i := of_int 53 1024 Hp53 He1024 in let V := F64 ex_exp in
  let ys := [Bdiv (prec_gt_0_ := Hp53) (prec_lt_emax_ := He1024) mode_NE (i 1) (i 512); Bdiv (prec_gt_0_ := Hp53) (prec_lt_emax_ := He1024) mode_NE (i 1) (i 256);
    Bdiv (prec_gt_0_ := Hp53) (prec_lt_emax_ := He1024) mode_NE (i 1) (i 128)]%Z in
  let b := mkBond (V := f64) ""
    [mkFlow (mkDate 2025 3 3) (mkDate 2025 3 3) (i 5%Z); mkFlow (mkDate 2025 9 1) (mkDate 2025 9 1) (i 105%Z)] in
  let years d := IZR (serial_date d - serial_date ex_settle) / 365 in
  let B := bpow radix2 (-53) * (4 * 2 ^ 2 * / 128) * ((1130 + 3375 * (1460 / 365)) * (9 / 5) + 3) in
  same_count ex_exp (act_365 V) (act_365 RV) 365 /\ laid_out ex_settle ex_maturities 365 1460 /\ spaced ex_maturities (2 * 365)
  /\ sized ys (/ 128) /\ accurate ex_exp (/ 2) (/ 2)
  /\ 4 * 2 ^ 2 * / 128 * (9 / 5) + B <= / 2
  /\ (forall f, In f (bond_cash_flows b) -> a_date (payment_date f) /\ years ex_settle + years (payment_date f) <= 9 / 5)
  /\ exists c c' v, curve_new (act_365 V) (NaturalCubic V) ex_settle ex_maturities ys = Ret (Ok c)
    /\ curve_new (act_365 RV) (NaturalCubic RV) ex_settle ex_maturities (map B2R ys) = Ret (Ok c')
    /\ discounted_value (V := V) (act_365 V) b ex_settle c = Ret (Ok v) /\ is_finite v = true.
Proof.
  intros i V ys b years B. destruct C98_case as (H1 & H2 & _ & H4 & _).
  split; [exact H1 |]. split; [exact H2 |].
  split.
  { intros [| [| [| k]]] m m' Hm Hm'; try discriminate; injection Hm as <-; injection Hm' as <-;
      match goal with |- IZR ?z <= _ => let k := eval vm_compute in z in change z with k end; lra. }
  split.
  { assert (forall k, (k = 512 \/ k = 256 \/ k = 128)%Z -> is_finite (Bdiv (prec_gt_0_ := Hp53) (prec_lt_emax_ := He1024) mode_NE (i 1%Z) (i k)) = true
      /\ Rabs (B2R (Bdiv (prec_gt_0_ := Hp53) (prec_lt_emax_ := He1024) mode_NE (i 1%Z) (i k))) <= / 128) as Q.
    { intros k Hk. destruct (of_int_correct 53 1024 Hp53 He1024 1) as (E1 & F1); [reflexivity | lia |].
      destruct (of_int_correct 53 1024 Hp53 He1024 k) as (Ek & Fk); [lia | lia |].
      assert (128 <= IZR k) as Lk by (apply IZR_le; lia).
      assert (Rabs (B2R (i 1%Z) / B2R (i k)) <= bpow radix2 (-7)) as Bd.
      { unfold i. rewrite E1, Ek. unfold Rdiv. rewrite Rmult_1_l, Rabs_inv, Rabs_pos_eq by lra. change (bpow radix2 (-7)) with (/ 128). apply Rinv_le; lra. }
      assert (B2R (i k) <> 0) as Nk by (unfold i; rewrite Ek; lra).
      destruct (safe_div (i 1%Z) (i k) 0 F1 Nk ltac:(lia)) as (Fd & _).
      { eapply Rle_trans; [exact Bd |]. apply bpow_le. lia. }
      split; [exact Fd |].
      pose proof (Bdiv_correct 53 1024 Hp53 He1024 mode_NE (i 1%Z) (i k) Nk) as C. change (round_mode mode_NE) with ZnearestE in C.
      fold (rnd 53 1024 (B2R (i 1%Z) / B2R (i k))) in C.
      assert (Rabs (rnd 53 1024 (B2R (i 1%Z) / B2R (i k))) <= bpow radix2 (-7)) as Br.
      { apply abs_round_le_generic; [apply fexp_correct; exact Hp53 | apply valid_rnd_N | | exact Bd].
        apply generic_format_bpow'; [apply fexp_correct; exact Hp53 | unfold SpecFloat.fexp, SpecFloat.emin; lia]. }
      rewrite Rlt_bool_true in C by (eapply Rle_lt_trans; [exact Br | apply bpow_lt; lia]). destruct C as (-> & _). exact Br. }
    intros y [<- | [<- | [<- | []]]]; apply Q; auto. }
  split; [exact H4 |].
  split; [unfold B; pose proof u64_val as Eu; rewrite Eu; lra |].
  split.
  { intros f [<- | [<- | []]]; (split; [now apply valid_a_date |]); unfold years; cbn [payment_date];
      repeat match goal with |- context [IZR (?a - ?b)] => let k := eval vm_compute in (a - b)%Z in change (a - b)%Z with k end; lra. }
  assert (match curve_new (act_365 V) (NaturalCubic V) ex_settle ex_maturities ys with
    | Ret (Ok c) => match discounted_value (V := V) (act_365 V) b ex_settle c with Ret (Ok v) => is_finite v | _ => false end
    | _ => false end = true) as H by (vm_compute; reflexivity).
  destruct (curve_new (act_365 V) (NaturalCubic V) ex_settle ex_maturities ys) as [[c | er] | |] eqn:Ec; try discriminate.
  destruct (discounted_value (V := V) (act_365 V) b ex_settle c) as [[v | er] | |] eqn:Ev; try discriminate.
  set (tt := fun d => IZR (date_sub d ex_settle) / 365).
  pose proof (C43_fit RV (act_365 RV) (NaturalCubic RV) ex_settle ex_maturities (map B2R ys) tt eq_refl (fun m _ => eq_refl)) as F. cbv zeta in F.
  change (combine (map tt ex_maturities) (map B2R ys)) with (curve_points tt ex_maturities (map B2R ys)) in F.
  rewrite (nc_fit_seconds (V := RV) _ (0, 0) 6 3) in F; [| reflexivity | reflexivity | intros x; apply Rltb_false; simpl; lra | simpl; lia |].
  - destruct F as (c' & Ec' & _). exists c, c', v. auto.
  - apply (in_order_real fst _ (0, 0)). apply increasing_sorted.
    exact (increasing_r ex_exp (act_365 V) (act_365 RV) 365 ex_settle ex_maturities ys 365 1460 H1 eq_refl ltac:(simpl; lia) H2 ltac:(lra)).
Qed.
