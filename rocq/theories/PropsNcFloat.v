(** Property C101: rounding errors of the natural cubic interpolation. *)
From Coq Require Import ZArith Reals List Bool Arith Lia Lra Psatz.
From Flocq Require Import Core BinarySingleNaN.
From Verif Require Import Base Value FloatValue FloatFacts RealValue InterpModel InterpFacts Grid TriFacts PropsTri NcFacts
  PropsLinear PropsNaturalCubic PropsShift PropsFloat PropsFloatKnots PropsFloatLinear PropsSplineFloat NcError.
Import ListNotations.
Open Scope R_scope.

Section Fit.
Variables prec emax : Z.
Context (Hp : Prec_gt_0 prec) (He : Prec_lt_emax prec emax).
Notation fl := (binary_float prec emax).
Variable e : R.
Hypothesis Ue : unit_roundoff prec <= e <= / 50000.
Hypothesis H7 : (7 <= prec)%Z.
Variable ex : fl -> fl.
Notation V := (FV prec emax Hp He ex).
Notation c6 := (of_int prec emax Hp He 6).
Notation c3 := (of_int prec emax Hp He 3).
Notation c1 := (of_int prec emax Hp He 1).
Notation near := (near prec emax e).

(** The points in floating point, and points in the reals with nearly the same widths and the same ordinates. *)
Variables (pts : list (fl * fl)) (pr : list (R * R)).
Notation n := (length pts).
Hypothesis Ln : length pr = n.
Hypothesis N3 : (3 <= n)%nat.
Variables m h Yb : R.
Hypothesis M8 : 8 <= m.
Hypothesis Mild : forall S, mag m 9 S -> mild emax S.
Hypothesis Mh : mag m 1 h.
Hypothesis MY : mag m 1 Yb.
Notation z0 := ((B754_nan, B754_nan) : fl * fl).
Notation xF j := (fst (nth j pts z0)).
Notation yF j := (snd (nth j pts z0)).
Definition w (j : nat) : R := gx pr (j + 1) - gx pr j.
Hypothesis Wd : forall j, (j + 1 < n)%nat -> h <= w j <= m.
Hypothesis Wn : forall j, (j + 1 < n)%nat -> near (w j) (Bminus mode_NE (xF (j + 1)) (xF j)) (w j) 1 1.
Hypothesis Yn : forall j, (j < n)%nat -> is_finite (yF j) = true /\ B2R (yF j) = gy pr j /\ Rabs (gy pr j) <= Yb.
(** Scales of slopes and of second derivatives. *)
Notation G := (Yb / h).
Notation Z2 := (Yb / h / h).

Definition WF (j : nat) : fl := Bminus mode_NE (xF (j + 1)) (xF j).
Definition s (j : nat) : R := w j + w (j + 1).

Lemma ph : 0 < h.
Proof. exact (mag_pos m M8 _ _ Mh). Qed.

Lemma pY : 0 < Yb.
Proof. exact (mag_pos m M8 _ _ MY). Qed.

Lemma pG : 0 < G.
Proof. apply Rdiv_lt_0_compat; [apply pY | apply ph]. Qed.

Lemma pZ : 0 < Z2.
Proof. apply Rdiv_lt_0_compat; [apply pG | apply ph]. Qed.

Lemma mild_of k S : (k <= 9)%nat -> mag m k S -> mild emax S.
Proof. intros H HS. apply Mild. now apply (mag_le m M8 k). Qed.

Lemma mw j : (j + 1 < n)%nat -> mag m 1 (w j).
Proof.
  intros H. destruct (Wd j H). destruct Mh as (L & _). split; [lra |]. rewrite pow_1. lra.
Qed.

Lemma pw j : (j + 1 < n)%nat -> 0 < w j.
Proof. intros H. exact (mag_pos m M8 _ _ (mw j H)). Qed.

Lemma mid_mag a : h / 2 <= a <= 2 * m -> mag m 2 a.
Proof.
  intros H. destruct Mh as (L & _). rewrite pow_1 in L. unfold mag. assert (2 * m <= m ^ 2) by nra. split; [| lra].
  assert (/ m ^ 2 <= / m / 2); [| lra]. replace (/ m / 2) with (/ (2 * m)) by (field; lra). apply Rinv_le_contravar; lra.
Qed.

Lemma ms j : (j + 2 < n)%nat -> mag m 2 (s j).
Proof.
  intros H. pose proof (Wd j ltac:(lia)). pose proof (Wd (j + 1)%nat ltac:(lia)). pose proof ph. apply mid_mag. unfold s. lra.
Qed.

Lemma mG : mag m 2 G.
Proof. apply (mag_div m M8 1 1); assumption. Qed.

Lemma mZ : mag m 3 Z2.
Proof. apply (mag_div m M8 2 1); [exact mG | exact Mh]. Qed.

Lemma WF_near j : (j + 1 < n)%nat -> near (w j) (WF j) (w j) 1 1.
Proof. apply Wn. Qed.

(** *** The matrix *)

Definition offF : nat -> fl := nc_off (V := V) pts z0 c6.
Definition diagF : nat -> fl := nc_diag (V := V) pts z0 c3.
Definition offR : nat -> R := nc_off (V := RV) pr (0, 0) 6.
Definition diagR : nat -> R := nc_diag (V := RV) pr (0, 0) 3.

Lemma two j : (j + 1 + 1 = j + 2)%nat.
Proof. lia. Qed.

Lemma offF_eq j : offF j = Bdiv mode_NE (WF (j + 1)) c6.
Proof. unfold WF. rewrite two. reflexivity. Qed.

Lemma diagF_eq j : diagF j = Bdiv mode_NE (Bplus mode_NE (WF j) (WF (j + 1))) c3.
Proof. unfold WF. rewrite two. reflexivity. Qed.

Lemma offR_eq j : offR j = w (j + 1) / 6.
Proof. unfold w. rewrite two. reflexivity. Qed.

Lemma diagR_eq j : diagR j = s j / 3.
Proof. unfold s, w. rewrite two. reflexivity. Qed.

Lemma off_near j : (j + 2 < n)%nat -> near (w (j + 1)) (offF j) (offR j) (1 / 6) 0.34.
Proof.
  intros H. rewrite offF_eq, offR_eq. apply (near_divc prec emax Hp He e Ue (w (j + 1)) (WF (j + 1)) (w (j + 1)) 1 1 0.34 6); try lia; try lra.
  - apply (mild_of 1); [lia | apply mw; lia].
  - apply (mild_of 2); [lia |]. apply (mag_div m M8 1 1); [apply mw; lia | apply (mag_const m M8); lra].
  - apply WF_near. lia.
Qed.

Lemma diag_near j : (j + 2 < n)%nat -> near (s j) (diagF j) (diagR j) (1 / 3) 1.7.
Proof.
  intros H. rewrite diagF_eq, diagR_eq. pose proof (pw j ltac:(lia)) as P0. pose proof (pw (j + 1)%nat ltac:(lia)) as P1.
  assert (0 < s j) as Ps by (unfold s; lra).
  assert (mild emax (s j)) as Ms by (apply (mild_of 2); [lia | now apply ms]).
  assert (near (s j) (Bplus mode_NE (WF j) (WF (j + 1))) (s j) (1 + 1) 4.02) as N.
  { unfold s at 2. apply (near_add prec emax Hp He e Ue (s j) _ _ _ _ 1 1 1 1); auto; try lra.
    - apply (near_scale prec emax e Ue 1 (w j) (s j) _ _ 1 1); try lra; [apply WF_near; lia | unfold s; lra].
    - apply (near_scale prec emax e Ue 1 (w (j + 1)) (s j) _ _ 1 1); try lra; [apply WF_near; lia | unfold s; lra]. }
  apply (near_bound prec emax e Ue _ _ _ _ _ 1) in N; [| rewrite Rabs_pos_eq; lra].
  apply (near_divc prec emax Hp He e Ue (s j) _ (s j) 1 4.02 1.7 3); auto; try lia; try lra.
  apply (mild_of 3); [lia |]. apply (mag_div m M8 2 1); [now apply ms | apply (mag_const m M8); lra].
Qed.

(** *** Pivots and multipliers *)

Definition scR : nat -> R := sc (V := RV) offR diagR offR.
Definition scF : nat -> fl := sc (V := V) offF diagF offF.
Definition pivR (i : nat) : R := match i with O => diagR 0 | S k => diagR (S k) - offR k * scR k end.
Definition pivF (i : nat) : fl := match i with O => diagF 0 | S k => Bminus mode_NE (diagF (S k)) (Bmult mode_NE (offF k) (scF k)) end.

Lemma scR_eq i : scR i = offR i / pivR i.
Proof. destruct i; reflexivity. Qed.

Lemma scF_eq i : scF i = Bdiv mode_NE (offF i) (pivF i).
Proof. destruct i; reflexivity. Qed.

Lemma piv_real i : (i + 2 < n)%nat -> s i / 4 <= pivR i <= s i / 3 /\ w (i + 1) / 3 <= pivR i /\ 0 <= scR i <= / 2.
Proof.
  induction i as [| k IH]; intros H.
  - pose proof (pw 0 ltac:(lia)). pose proof (pw 1 ltac:(lia)). unfold pivR. rewrite scR_eq. unfold pivR. rewrite offR_eq, diagR_eq. change (0 + 1)%nat with 1%nat.
    assert (s 0 = w 0 + w 1) as Es by reflexivity. split; [lra |]. split; [lra |]. split.
    + apply Rmult_le_pos; [lra | left; apply Rinv_0_lt_compat; lra].
    + apply Rmult_le_reg_r with (s 0 / 3); [lra |]. unfold Rdiv at 1. rewrite Rmult_assoc, Rinv_l by lra. lra.
  - destruct (IH ltac:(lia)) as (_ & _ & S0 & S1). pose proof (pw (k + 1) ltac:(lia)) as P1. pose proof (pw (S k + 1) ltac:(lia)) as P2.
    assert (s (S k) = w (k + 1) + w (S k + 1)) as Es by (unfold s; now replace (k + 1)%nat with (S k) by lia).
    assert (s (S k) / 3 - w (k + 1) / 12 <= pivR (S k) <= s (S k) / 3) as B by (unfold pivR; rewrite offR_eq, diagR_eq; nra).
    assert (0 < pivR (S k)) as Pp by lra.
    split; [lra |]. split; [lra |]. rewrite scR_eq, offR_eq. split.
    + apply Rmult_le_pos; [lra | left; apply Rinv_0_lt_compat; lra].
    + apply Rmult_le_reg_r with (pivR (S k)); [lra |]. unfold Rdiv at 1. rewrite Rmult_assoc, Rinv_l by lra. lra.
Qed.

Lemma mpiv i : (i + 2 < n)%nat -> mag m 2 (pivR i).
Proof.
  intros H. destruct (piv_real i H) as (B & _). pose proof (Wd i ltac:(lia)). pose proof (Wd (i + 1)%nat ltac:(lia)).
  apply mid_mag. unfold s in B. lra.
Qed.

Lemma piv_sc : forall i, (i + 2 < n)%nat -> near (pivR i) (pivF i) (pivR i) 1 16.4 /\ near 1 (scF i) (scR i) (/ 2) 10.
Proof.
  assert (forall i, (i + 2 < n)%nat -> near (s i) (pivF i) (pivR i) (5 / 12) 4.1 ->
    near (pivR i) (pivF i) (pivR i) 1 16.4 /\ near 1 (scF i) (scR i) (/ 2) 10) as St.
  { intros i H N. destruct (piv_real i H) as (B & Bw & Bs). pose proof (mag_pos m M8 _ _ (ms i H)) as Ps.
    pose proof (pw (i + 1) ltac:(lia)) as P1.
    assert (near (pivR i) (pivF i) (pivR i) 1 16.4) as Np.
    { apply (near_rel prec emax e Ue 4 (s i) _ _ (5 / 12) 4.1); auto; lra. }
    split; [exact Np |]. rewrite scR_eq, scF_eq.
    assert (near (w (i + 1) / pivR i) (Bdiv mode_NE (offF i) (pivF i)) (offR i / pivR i) (1 / 6) 3.29) as Nd.
    { apply (near_div prec emax Hp He e Ue (w (i + 1)) _ _ _ _ _ _ 0.34 16.4); auto; try lra; [| now apply off_near].
      apply (mild_of 3); [lia |]. apply (mag_div m M8 1 2); [apply mw; lia | now apply mpiv]. }
    assert (0 < pivR i) as Pp by lra.
    assert (w (i + 1) / pivR i <= 3) as L3.
    { apply Rmult_le_reg_r with (pivR i); [exact Pp |]. unfold Rdiv. rewrite Rmult_assoc, Rinv_l by lra. lra. }
    apply (near_scale prec emax e Ue 3 (w (i + 1) / pivR i) 1 _ _ (1 / 6) 3.29); auto; try lra.
    left. now apply Rdiv_lt_0_compat. }
  induction i as [| k IH]; intros H.
  - apply St; [exact H |]. pose proof (mag_pos m M8 _ _ (ms 0 H)). apply (near_weaken prec emax e Ue _ _ _ (1 / 3) 1.7); try lra.
    now apply diag_near.
  - apply St; [exact H |]. destruct (IH ltac:(lia)) as (_ & Ns). destruct (piv_real k ltac:(lia)) as (_ & _ & Bs).
    pose proof (mag_pos m M8 _ _ (ms (S k) H)) as Ps. pose proof (pw (k + 1) ltac:(lia)) as P1. pose proof (pw (S k + 1) ltac:(lia)) as P2.
    assert (w (k + 1) <= s (S k)) as L by (unfold s; replace (k + 1)%nat with (S k) in * by lia; lra).
    assert (near (w (k + 1)) (Bmult mode_NE (offF k) (scF k)) (offR k * scR k) (1 / 6 * / 2) 1.94) as Nm.
    { apply (near_mul prec emax Hp He e Ue (w (k + 1)) 1 _ _ _ _ _ _ 0.34 _ 10); auto; try lra.
      - apply (mild_of 1); [lia | apply mw; lia].
      - apply off_near. lia. }
    apply (near_weaken prec emax e Ue _ _ _ (1 / 3 + 1 / 6 * / 2) 4.1); try lra.
    unfold pivF, pivR. apply (near_sub prec emax Hp He e Ue (s (S k)) _ _ _ _ (1 / 3) 1.7 (1 / 6 * / 2) 1.94); try lra.
    + apply (mild_of 2); [lia | now apply ms].
    + now apply diag_near.
    + apply (near_scale prec emax e Ue 1 (w (k + 1)) (s (S k)) _ _ (1 / 6 * / 2) 1.94); auto; lra.
Qed.

(** *** The right-hand side *)

Notation cof := (nc_coff (V := V) pts z0).
Notation cor := (nc_coff (V := RV) pr (0, 0)).

Lemma c1_near : near 1 c1 1 1 0.
Proof.
  assert (2 ^ 7 <= 2 ^ prec)%Z as H2 by (apply Z.pow_le_mono_r; lia). change (2 ^ 7)%Z with 128%Z in H2.
  destruct (of_int_correct prec emax Hp He 1 ltac:(lia) ltac:(unfold Prec_lt_emax in He; lia)) as (E & F).
  split; [exact F |]. rewrite E, Rminus_diag_eq by reflexivity. rewrite Rabs_R0, Rabs_pos_eq by lra. split; lra.
Qed.

Lemma rec_near j : (j + 1 < n)%nat -> near (/ h) (Bdiv mode_NE c1 (WF j)) (1 / w j) 1 2.03.
Proof.
  intros H. pose proof ph as Ph. destruct (Wd j H) as (L & _). pose proof (pw j H) as Pw.
  apply (near_scale prec emax e Ue 1 (1 / w j) (/ h) _ _ 1 2.03); try lra.
  - apply (near_div prec emax Hp He e Ue 1 _ _ _ _ _ _ 0 1); auto; try lra; [| exact c1_near | now apply WF_near].
    apply (mild_of 2); [lia |]. apply (mag_div m M8 1 1); [apply (mag_const m M8); lra | now apply mw].
  - left. apply Rdiv_lt_0_compat; lra.
  - unfold Rdiv. rewrite !Rmult_1_l. now apply Rinv_le_contravar.
  - left. now apply Rinv_0_lt_compat.
Qed.

Lemma mhi : mag m 1 (/ h).
Proof. apply (mag_inv m M8 1), Mh. Qed.

Lemma cdiag_near j : (j + 2 < n)%nat -> near (/ h) (nc_cdiag (V := V) pts z0 j) (nc_cdiag (V := RV) pr (0, 0) j) 2 6.08.
Proof.
  intros H. unfold nc_cdiag. change (nc_cdiag (V := V) pts z0 j) with (nc_cdiag (V := V) pts z0 j).
  pose proof (rec_near j ltac:(lia)) as N0. pose proof (rec_near (j + 1) ltac:(lia)) as N1. unfold WF, w in N0, N1. rewrite two in N1.
  pose proof (near_add prec emax Hp He e Ue (/ h) _ _ _ _ 1 2.03 1 2.03 6.08 (mild_of 1 _ ltac:(lia) mhi) N0 N1
    ltac:(lra) ltac:(lra) ltac:(lra) ltac:(lra) ltac:(lra) ltac:(lra) ltac:(lra)) as N.
  apply (near_weaken prec emax e Ue _ _ _ (1 + 1) 6.08); try lra; [left; apply (mag_pos m M8 _ _ mhi) |].
  exact (near_opp prec emax e _ _ _ _ _ N).
Qed.

Lemma y_near j : (j < n)%nat -> near Yb (yF j) (gy pr j) 1 0.
Proof.
  intros H. destruct (Yn j H) as (F & E & B). apply (near_value prec emax e _ _ (B2R (yF j))); [| exact E].
  apply near_exact; [exact F | rewrite E; lra].
Qed.

Lemma Gd : / h * Yb = G.
Proof. unfold Rdiv. ring. Qed.

Lemma mmG : mild emax G.
Proof. apply (mild_of 2); [lia | exact mG]. Qed.

Lemma rec_y j k : (j + 1 < n)%nat -> (k < n)%nat ->
  near G (Bmult mode_NE (Bdiv mode_NE c1 (WF j)) (yF k)) (1 / w j * gy pr k) 1 3.06.
Proof.
  intros H Hk. pose proof pY. pose proof (mag_pos m M8 _ _ mhi).
  apply (near_weaken prec emax e Ue _ _ _ (1 * 1) 3.06); try lra; [left; apply pG |].
  apply (near_mul prec emax Hp He e Ue (/ h) Yb _ _ _ _ _ 1 2.03 1 0); try lra; [exact mmG | now apply rec_near | now apply y_near].
Qed.

Lemma y_div j k : (j + 1 < n)%nat -> (k < n)%nat -> near G (Bdiv mode_NE (yF k) (WF j)) (gy pr k / w j) 1 2.03.
Proof.
  intros H Hk. pose proof ph as Ph. pose proof pY as PY. destruct (Wd j H) as (L & _). pose proof (pw j H) as Pw. pose proof pG as PG.
  apply (near_scale prec emax e Ue 1 (Yb / w j) G _ _ 1 2.03); try lra.
  - apply (near_div prec emax Hp He e Ue Yb _ _ _ _ _ _ 0 1); auto; try lra; [| now apply y_near | now apply WF_near].
    apply (mild_of 2); [lia |]. apply (mag_div m M8 1 1); [exact MY | now apply mw].
  - left. apply Rdiv_lt_0_compat; lra.
  - rewrite Rmult_1_l. apply Rmult_le_compat_l; [lra |]. now apply Rinv_le_contravar.
Qed.

Definition rhsF : nat -> fl := nc_rhs (V := V) pts z0.
Definition rhsR : nat -> R := nc_rhs (V := RV) pr (0, 0).

Lemma LnV : @length (carrier RV * carrier RV) pr = n.
Proof. exact Ln. Qed.

Lemma mm_near j : (j + 2 < n)%nat -> near G (nc_mm (V := V) pts z0 j) (nc_mm (V := RV) pr (0, 0) j) 1 2.03.
Proof.
  intros H. unfold nc_mm. rewrite LnV. change (@length (carrier V * carrier V) pts) with n. pose proof pG.
  destruct (Nat.eqb_spec j 0) as [E | N]; [| destruct (Nat.eqb_spec (j + 3) n) as [E3 | N3']].
  - exact (y_div 0 0 ltac:(lia) ltac:(lia)).
  - pose proof (y_div (j + 1) (j + 2) ltac:(lia) ltac:(lia)) as Q. unfold WF, w in Q. rewrite two in Q. exact Q.
  - apply (near_weaken prec emax e Ue _ _ _ 0 0); try lra. apply near_zero.
Qed.

Lemma rhs_near j : (j + 2 < n)%nat -> near G (rhsF j) (rhsR j) 5 29.
Proof.
  intros H. unfold rhsF, rhsR, nc_rhs. rewrite LnV. change (@length (carrier V * carrier V) pts) with n. pose proof pG as PG. pose proof pY. pose proof (mag_pos m M8 _ _ mhi).
  assert (near G (Bmult mode_NE (nc_cdiag (V := V) pts z0 j) (yF (j + 1))) (nc_cdiag (V := RV) pr (0, 0) j * gy pr (j + 1)) 2 8.1) as T0.
  { apply (near_weaken prec emax e Ue _ _ _ (2 * 1) 8.1); try lra.
    apply (near_mul prec emax Hp He e Ue (/ h) Yb _ _ _ _ _ 2 6.08 1 0); try lra; [exact mmG | now apply cdiag_near | apply y_near; lia]. }
  assert (exists tF tR, (tF : fl) = (if (j + 1 <? n - 2)%nat
      then Bplus mode_NE (Bmult mode_NE (nc_cdiag (V := V) pts z0 j) (yF (j + 1))) (Bmult mode_NE (cof j) (yF (j + 1 + 1)))
      else Bmult mode_NE (nc_cdiag (V := V) pts z0 j) (yF (j + 1)))
    /\ tR = (if (j + 1 <? n - 2)%nat then nc_cdiag (V := RV) pr (0, 0) j * gy pr (j + 1) + cor j * gy pr (j + 1 + 1)
             else nc_cdiag (V := RV) pr (0, 0) j * gy pr (j + 1))
    /\ near G tF tR 3 14.2) as (tF & tR & EF & ER & T1).
  { do 2 eexists. split; [reflexivity |]. split; [reflexivity |]. destruct (Nat.ltb_spec (j + 1) (n - 2)) as [L | L].
    - apply (near_weaken prec emax e Ue _ _ _ (2 + 1) 14.2); try lra.
      apply (near_add prec emax Hp He e Ue G _ _ _ _ 2 8.1 1 3.06); try lra; [exact mmG | exact T0 |].
      pose proof (rec_y (j + 1) (j + 1 + 1) ltac:(lia) ltac:(lia)) as Q. unfold WF, w in Q. rewrite two in Q. rewrite two. exact Q.
    - apply (near_weaken prec emax e Ue _ _ _ 2 8.1); try lra. exact T0. }
  assert (exists vF vR, (vF : fl) = (if (0 <? j)%nat then Bplus mode_NE tF (Bmult mode_NE (cof (j - 1)) (yF (j - 1 + 1))) else tF)
    /\ vR = (if (0 <? j)%nat then tR + cor (j - 1) * gy pr (j - 1 + 1) else tR)
    /\ near G vF vR 4 21.3) as (vF & vR & EF' & ER' & T2).
  { do 2 eexists. split; [reflexivity |]. split; [reflexivity |]. destruct (Nat.ltb_spec 0 j) as [L | L].
    - apply (near_weaken prec emax e Ue _ _ _ (3 + 1) 21.3); try lra.
      apply (near_add prec emax Hp He e Ue G _ _ _ _ 3 14.2 1 3.06); try lra; [exact mmG | exact T1 |].
      pose proof (rec_y j j ltac:(lia) ltac:(lia)) as Q. unfold WF, w in Q. unfold nc_coff.
      replace (j - 1 + 2)%nat with (j + 1)%nat by lia. replace (j - 1 + 1)%nat with j by lia. exact Q.
    - apply (near_weaken prec emax e Ue _ _ _ 3 14.2); try lra. exact T1. }
  assert (mul_entry (V := V) cof (nc_cdiag (V := V) pts z0) cof (fun j => ny (V := V) pts z0 (j + 1)) (n - 2) j = vF) as ->.
  { rewrite EF', EF. reflexivity. }
  assert (mul_entry (V := RV) cor (nc_cdiag (V := RV) pr (0, 0)) cor (fun j => ny (V := RV) pr (0, 0) (j + 1)) (n - 2) j = vR) as ->.
  { rewrite ER', ER. reflexivity. }
  apply (near_weaken prec emax e Ue _ _ _ (4 + 1) 28.5); try lra.
  apply (near_add prec emax Hp He e Ue G _ _ _ _ 4 21.3 1 2.03); try lra; [exact mmG | exact T2 | now apply mm_near].
Qed.

(** *** The solution *)

Notation xfF := (xf (V := V) offF diagF offF rhsF).
Notation xfR := (xf (V := RV) offR diagR offR rhsR).

Lemma hG : G = h * Z2.
Proof. pose proof ph. field. lra. Qed.

Lemma quot_le a b c : 0 < b -> a <= c * b -> a / b <= c.
Proof. intros Pb H. apply Rmult_le_reg_r with b; [exact Pb |]. unfold Rdiv. rewrite Rmult_assoc, Rinv_l by lra. lra. Qed.

Lemma xf_near i : (i + 2 < n)%nat -> near Z2 (xfF i) (xfR i) 30 2200.
Proof.
  induction i as [| k IH]; intros H; pose proof ph as Ph; pose proof pZ as PZ; pose proof pG as PG.
  - destruct (piv_sc 0 H) as (Np & _). destruct (piv_real 0 H) as ((B & _) & _).
    pose proof (Wd 0 ltac:(lia)). pose proof (Wd 1 ltac:(lia)). assert (s 0 = w 0 + w 1) as Es by reflexivity.
    assert (h / 2 <= pivR 0) as Lp by lra.
    assert (G / pivR 0 <= 2 * Z2) as L.
    { apply quot_le; [lra |]. rewrite (hG : G = _) at 1. replace (2 * Z2 * pivR 0) with (2 * pivR 0 * Z2) by ring.
      apply Rmult_le_compat_r; lra. }
    apply (near_scale prec emax e Ue 2 (G / pivR 0) Z2 _ _ 5 120); try lra; [| left; apply Rdiv_lt_0_compat; lra].
    change (xfF 0%nat) with (Bdiv mode_NE (rhsF 0) (pivF 0)). change (xfR 0%nat) with (rhsR 0 / pivR 0).
    apply (near_div prec emax Hp He e Ue G _ _ _ _ _ _ 29 16.4); auto; try lra; [| now apply rhs_near].
    apply (mild_of 4); [lia |]. apply (mag_div m M8 2 2); [exact mG | now apply mpiv].
  - specialize (IH ltac:(lia)). destruct (piv_sc (S k) H) as (Np & _). destruct (piv_real (S k) H) as ((B & _) & _).
    pose proof (Wd (k + 1) ltac:(lia)) as W1. pose proof (Wd (S k + 1) ltac:(lia)) as W2.
    assert (s (S k) = w (k + 1) + w (S k + 1)) as Es by (unfold s; now replace (k + 1)%nat with (S k) by lia).
    assert (0 < s (S k)) as Ps by lra. set (S0 := s (S k) * Z2). assert (0 < S0) as PS by (unfold S0; nra).
    assert (mag m 5 S0) as MS by (apply (mag_mul m M8 2 3); [now apply ms | exact mZ]).
    assert (0 < w (k + 1)) as Pw by lra.
    assert (near S0 (Bmult mode_NE (offF k) (xfF k)) (offR k * xfR k) 5 383) as Nm.
    { apply (near_scale prec emax e Ue 1 (w (k + 1) * Z2) S0 _ _ (1 / 6 * 30) 383); try lra; try nra; [| unfold S0; nra].
      apply (near_mul prec emax Hp He e Ue (w (k + 1)) Z2 _ _ _ _ _ (1 / 6) 0.34 30 2200); auto; try lra.
      - apply (mild_of 4); [lia |]. apply (mag_mul m M8 1 3); [apply mw; lia | exact mZ].
      - apply off_near. lia. }
    assert (near S0 (rhsF (S k)) (rhsR (S k)) 2.5 14.5) as Nr.
    { apply (near_scale prec emax e Ue (1 / 2) G S0 _ _ 5 29); try lra; [now apply rhs_near |]. unfold S0. rewrite (hG : G = _) at 1.
      replace (1 / 2 * (s (S k) * Z2)) with (1 / 2 * s (S k) * Z2) by ring. apply Rmult_le_compat_r; lra. }
    assert (near S0 (Bminus mode_NE (rhsF (S k)) (Bmult mode_NE (offF k) (xfF k))) (rhsR (S k) - offR k * xfR k) 7.5 406) as Nn.
    { apply (near_weaken prec emax e Ue _ _ _ (2.5 + 5) 406); try lra.
      apply (near_sub prec emax Hp He e Ue S0 _ _ _ _ 2.5 14.5 5 383); auto; try lra. apply (mild_of 5); [lia | exact MS]. }
    change (xfF (S k)) with (Bdiv mode_NE (Bminus mode_NE (rhsF (S k)) (Bmult mode_NE (offF k) (xfF k))) (pivF (S k))).
    change (xfR (S k)) with ((rhsR (S k) - offR k * xfR k) / pivR (S k)).
    assert (0 < pivR (S k)) as Pp by lra.
    assert (S0 / pivR (S k) <= 4 * Z2) as L.
    { apply quot_le; [lra |]. unfold S0. replace (4 * Z2 * pivR (S k)) with (4 * pivR (S k) * Z2) by ring. apply Rmult_le_compat_r; lra. }
    apply (near_scale prec emax e Ue 4 (S0 / pivR (S k)) Z2 _ _ 7.5 550); try lra; [| left; now apply Rdiv_lt_0_compat].
    apply (near_div prec emax Hp He e Ue S0 _ _ _ _ _ _ 406 16.4); auto; try lra.
    apply (mild_of 7); [lia |]. apply (mag_div m M8 5 2); [exact MS | now apply mpiv].
Qed.

Lemma xback_near k : forall i, (i + k + 2 < n)%nat ->
  near Z2 (xback (V := V) offF diagF offF rhsF k i) (xback (V := RV) offR diagR offR rhsR k i) 60 6000.
Proof.
  induction k as [| k IH]; intros i H; pose proof pZ as PZ.
  - apply (near_weaken prec emax e Ue _ _ _ 30 2200); try lra. apply xf_near. lia.
  - specialize (IH (S i) ltac:(lia)). destruct (piv_sc i ltac:(lia)) as (_ & Ns).
    assert (mild emax Z2) as MZ by (apply (mild_of 3); [lia | exact mZ]).
    set (XF := xback (V := V) offF diagF offF rhsF k (S i)) in *. set (XR := xback (V := RV) offR diagR offR rhsR k (S i)) in *.
    change (near Z2 (Bminus mode_NE (xfF i) (Bmult mode_NE (scF i) XF)) (xfR i - scR i * XR) 60 6000).
    apply (near_weaken prec emax e Ue _ _ _ (30 + / 2 * 60) 6000); try lra.
    apply (near_sub prec emax Hp He e Ue Z2 _ _ _ _ 30 2200 (/ 2 * 60) 3635); auto; try lra; [apply xf_near; lia |].
    apply (near_mul prec emax Hp He e Ue 1 Z2 _ _ _ _ _ (/ 2) 10 60 6000); auto; try lra.
Qed.

(** What the solver returns, and the second derivatives at all knots. *)
Definition solF (j : nat) : fl :=
  if (n =? 3)%nat then Bdiv mode_NE (rhsF 0) (diagF 0) else xsol (V := V) (n - 2) offF diagF offF rhsF j.

Lemma sol_near j : (j + 2 < n)%nat -> near Z2 (solF j) (nc_sol pr j) 60 6000.
Proof.
  intros H. pose proof pZ. unfold solF, nc_sol. rewrite Ln. destruct (Nat.eqb_spec n 3) as [E | N].
  - apply (near_weaken prec emax e Ue _ _ _ 30 2200); try lra. exact (xf_near 0 ltac:(lia)).
  - unfold xsol. destruct (Nat.le_gt_cases (n - 2) j) as [L | L]; [lia |]. apply xback_near. lia.
Qed.

Definition dsF : list fl := [B754_zero false] ++ tab solF (n - 2) ++ [B754_zero false].

Lemma dsF_length : length dsF = n.
Proof. unfold dsF. rewrite !app_length, tab_length. simpl. lia. Qed.

Lemma ds_near j : (j < n)%nat -> near Z2 (nth j dsF B754_nan) (second_of (nc_ds pr) j) 60 6000.
Proof.
  intros H. pose proof pZ. rewrite nc_ds_nth by lia. rewrite Ln.
  assert (near Z2 (B754_zero false) 0 60 6000) as N0 by (apply (near_weaken prec emax e Ue _ _ _ 0 0); try lra; apply near_zero).
  destruct j as [| j]; [exact N0 |]. change (S j =? 0)%nat with false. cbv iota. unfold dsF. cbn [app nth].
  destruct (Nat.ltb_spec (S j) (n - 1)) as [L | L].
  - rewrite app_nth1 by (rewrite tab_length; lia). rewrite tab_nth by lia. replace (S j - 1)%nat with j by lia. apply sol_near. lia.
  - rewrite app_nth2 by (rewrite tab_length; lia). rewrite tab_length. replace (j - (n - 2))%nat with 0%nat by lia. exact N0.
Qed.

(** *** Evaluation *)

(** The formula of natural_cubic.rs:121-132 for one cell. *)
Definition nform (x x0 y0 s0 x1 y1 s1 : fl) : fl :=
  let T1 := Bminus mode_NE x1 x in let T0 := Bminus mode_NE x x0 in let H := Bminus mode_NE x1 x0 in
  Bplus mode_NE (Bplus mode_NE (Bplus mode_NE
    (Bmult mode_NE (Bdiv mode_NE (Bdiv mode_NE (Bmult mode_NE (Bmult mode_NE T1 T1) T1) c6) H) s0)
    (Bmult mode_NE (Bdiv mode_NE (Bdiv mode_NE (Bmult mode_NE (Bmult mode_NE T0 T0) T0) c6) H) s1))
    (Bmult mode_NE T1 (Bminus mode_NE (Bdiv mode_NE y0 H) (Bmult mode_NE (Bdiv mode_NE H c6) s0))))
    (Bmult mode_NE T0 (Bminus mode_NE (Bdiv mode_NE y1 H) (Bmult mode_NE (Bdiv mode_NE H c6) s1))).

Lemma cubic_near j T t sF sR : (j + 1 < n)%nat -> near (w j) T t 1 1 -> near Z2 sF sR 60 6000 ->
  near (w j * w j * Z2) (Bmult mode_NE (Bdiv mode_NE (Bdiv mode_NE (Bmult mode_NE (Bmult mode_NE T T) T) c6) (WF j)) sF)
    (t * t * t / 6 / w j * sR) 10 1100.
Proof.
  intros H NT Ns. pose proof (pw j H) as Pw. pose proof pZ as PZ. pose proof (mw j H) as M1.
  assert (mag m 2 (w j * w j)) as M2 by (apply (mag_mul m M8 1 1); assumption).
  assert (mag m 3 (w j * w j * w j)) as M3 by (apply (mag_mul m M8 2 1); assumption).
  pose proof (mag_pos m M8 _ _ M2) as P2. pose proof (mag_pos m M8 _ _ M3) as P3.
  pose proof (near_mul prec emax Hp He e Ue (w j) (w j) _ _ _ _ _ 1 1 1 1 3.02 eq_refl (mild_of 2 _ ltac:(lia) M2) Pw Pw NT NT
    ltac:(lra) ltac:(lra) ltac:(lra) ltac:(lra) ltac:(lra) ltac:(lra) ltac:(lra)) as N2.
  pose proof (near_mul prec emax Hp He e Ue _ (w j) _ _ _ _ _ _ _ 1 1 5.05 eq_refl (mild_of 3 _ ltac:(lia) M3) P2 Pw N2 NT
    ltac:(lra) ltac:(lra) ltac:(lra) ltac:(lra) ltac:(lra) ltac:(lra) ltac:(lra)) as N3'.
  assert (mild emax (w j * w j * w j / 6)) as M3'.
  { apply (mild_of 4); [lia |]. apply (mag_div m M8 3 1); [exact M3 | apply (mag_const m M8); lra]. }
  pose proof (near_divc prec emax Hp He e Ue _ _ _ _ _ 1.03 6 (mild_of 3 _ ltac:(lia) M3) M3' ltac:(lia) H7 N3' ltac:(lra) ltac:(lra)
    ltac:(lra) ltac:(lra) ltac:(lra)) as N4.
  assert (near (w j * w j) (Bdiv mode_NE (Bdiv mode_NE (Bmult mode_NE (Bmult mode_NE T T) T) c6) (WF j)) (t * t * t / 6 / w j) (1 / 6) 1.4) as N5.
  { apply (near_weaken prec emax e Ue _ _ _ (1 * 1 * 1 / 6) 1.4); try lra.
    apply (near_div prec emax Hp He e Ue (w j * w j * w j) _ _ _ _ _ _ 1.03 1); auto; try lra.
    - field. lra.
    - apply (mild_of 2); [lia | exact M2].
    - now apply WF_near. }
  apply (near_weaken prec emax e Ue _ _ _ (1 / 6 * 60) 1100); try lra; [nra |].
  apply (near_mul prec emax Hp He e Ue (w j * w j) Z2 _ _ _ _ _ (1 / 6) 1.4 60 6000); auto; try lra.
  apply (mild_of 5); [lia |]. apply (mag_mul m M8 2 3); [exact M2 | exact mZ].
Qed.

Lemma slope_part j T t k sF sR : (j + 1 < n)%nat -> (k < n)%nat -> near (w j) T t 1 1 -> near Z2 sF sR 60 6000 ->
  near (w j * w j * Z2) (Bmult mode_NE T (Bminus mode_NE (Bdiv mode_NE (yF k) (WF j)) (Bmult mode_NE (Bdiv mode_NE (WF j) c6) sF)))
    (t * (gy pr k / w j - w j / 6 * sR)) 11 1080.
Proof.
  intros H Hk NT Ns. pose proof (pw j H) as Pw. pose proof pZ as PZ. pose proof (mw j H) as M1. destruct (Wd j H) as (Lh & _). pose proof ph as Ph.
  pose proof pG as PG.
  assert (mag m 4 (w j * Z2)) as M4 by (apply (mag_mul m M8 1 3); [exact M1 | exact mZ]).
  pose proof (mag_pos m M8 _ _ M4) as P4.
  assert (near (w j * Z2) (Bdiv mode_NE (yF k) (WF j)) (gy pr k / w j) 1 2.03) as N1.
  { apply (near_scale prec emax e Ue 1 G (w j * Z2) _ _ 1 2.03); try lra; [now apply y_div |].
    rewrite (hG : G = _) at 1. rewrite Rmult_1_l. apply Rmult_le_compat_r; lra. }
  assert (near (w j * Z2) (Bmult mode_NE (Bdiv mode_NE (WF j) c6) sF) (w j / 6 * sR) 10 1035) as N2.
  { apply (near_weaken prec emax e Ue _ _ _ (1 / 6 * 60) 1035); try lra.
    apply (near_mul prec emax Hp He e Ue (w j) Z2 _ _ _ _ _ (1 / 6) 0.34 60 6000); auto; try lra; [apply (mild_of 4); [lia | exact M4] |].
    apply (near_divc prec emax Hp He e Ue (w j) (WF j) (w j) 1 1 0.34 6); try lia; try lra.
    - apply (mild_of 1); [lia | exact M1].
    - apply (mild_of 2); [lia |]. apply (mag_div m M8 1 1); [exact M1 | apply (mag_const m M8); lra].
    - now apply WF_near. }
  pose proof (near_sub prec emax Hp He e Ue (w j * Z2) _ _ _ _ 1 2.03 10 1035 1050 (mild_of 4 _ ltac:(lia) M4) N1 N2
    ltac:(lra) ltac:(lra) ltac:(lra) ltac:(lra) ltac:(lra) ltac:(lra) ltac:(lra)) as N3'.
  apply (near_weaken prec emax e Ue _ _ _ (1 * (1 + 10)) 1080); try lra; [nra |].
  apply (near_mul prec emax Hp He e Ue (w j) (w j * Z2) _ _ _ _ _ 1 1 (1 + 10) 1050); auto; try lra.
  apply (mild_of 5); [lia |]. rewrite Rmult_assoc. apply (mag_mul m M8 1 4); assumption.
Qed.

(** An interpolated value is off by at most 4500 errors. *)
Lemma nform_near j x xr : (j + 1 < n)%nat -> near (w j) (Bminus mode_NE (xF (j + 1)) x) (gx pr (j + 1) - xr) 1 1 ->
  near (w j) (Bminus mode_NE x (xF j)) (xr - gx pr j) 1 1 ->
  near (w j * w j * Z2) (nform x (xF j) (yF j) (nth j dsF B754_nan) (xF (j + 1)) (yF (j + 1)) (nth (j + 1) dsF B754_nan))
    (q pr (second_of (nc_ds pr)) j xr) 42 4500.
Proof.
  intros H N1 N0. pose proof (pw j H) as Pw. pose proof (mw j H) as M1.
  assert (mag m 5 (w j * w j * Z2)) as M5 by (apply (mag_mul m M8 2 3); [apply (mag_mul m M8 1 1); exact M1 | exact mZ]).
  pose proof (mag_pos m M8 _ _ M5) as P5. assert (mild emax (w j * w j * Z2)) as MM by (apply (mild_of 5); [lia | exact M5]).
  pose proof (ds_near j ltac:(lia)) as D0. pose proof (ds_near (j + 1) ltac:(lia)) as D1.
  pose proof (cubic_near j _ _ _ _ H N1 D0) as A1. pose proof (cubic_near j _ _ _ _ H N0 D1) as A2.
  pose proof (slope_part j _ _ j _ _ H ltac:(lia) N1 D0) as A3. pose proof (slope_part j _ _ (j + 1) _ _ H ltac:(lia) N0 D1) as A4.
  pose proof (near_add prec emax Hp He e Ue _ _ _ _ _ _ _ _ _ 2230 MM A1 A2 ltac:(lra) ltac:(lra) ltac:(lra) ltac:(lra) ltac:(lra) ltac:(lra) ltac:(lra)) as B1.
  pose proof (near_add prec emax Hp He e Ue _ _ _ _ _ _ _ _ _ 3350 MM B1 A3 ltac:(lra) ltac:(lra) ltac:(lra) ltac:(lra) ltac:(lra) ltac:(lra) ltac:(lra)) as B2.
  pose proof (near_add prec emax Hp He e Ue _ _ _ _ _ _ _ _ _ 4500 MM B2 A4 ltac:(lra) ltac:(lra) ltac:(lra) ltac:(lra) ltac:(lra) ltac:(lra) ltac:(lra)) as B3.
  apply (near_weaken prec emax e Ue _ _ _ (10 + 10 + 11 + 11) 4500); try lra.
  eapply near_value; [exact B3 |]. unfold q, qa, qc. unfold w in *. field. lra.
Qed.

End Fit.

(** ** Fitting and evaluating, for any Value type *)

Definition nc_second {V : Value} (pts : list (V * V)) d0 c6 c3 (j : nat) : V :=
  if (length pts =? 3)%nat then (nc_rhs pts d0 0 / nc_diag pts d0 c3 0)%V
  else xsol (length pts - 2) (nc_off pts d0 c6) (nc_diag pts d0 c3) (nc_off pts d0 c6) (nc_rhs pts d0) j.

Definition nc_seconds {V : Value} (pts : list (V * V)) d0 c6 c3 : list V :=
  [v_zero] ++ tab (nc_second pts d0 c6 c3) (length pts - 2) ++ [v_zero].

Lemma nc_seconds_length {V : Value} (pts : list (V * V)) d0 c6 c3 : (3 <= length pts)%nat -> length (nc_seconds pts d0 c6 c3) = length pts.
Proof. intros H. unfold nc_seconds. rewrite !app_length, tab_length. simpl. lia. Qed.

Lemma nc_fit_seconds {V : Value} (pts : list (V * V)) d0 c6 c3 self : v_const 6 = Ret c6 -> v_const 3 = Ret c3 -> (forall x : V, v_ltb x x = false) ->
  (3 <= length pts)%nat -> in_order fst pts ->
  i_try_fit (NaturalCubic V) self pts = Ret (Ok (nc_points pts (nc_seconds pts d0 c6 c3))).
Proof.
  intros E6 E3 Irr L O. cbn [i_try_fit NaturalCubic]. rewrite (nc_fit pts d0 c6 c3) by assumption.
  assert (tri_solve (nc_matrix pts d0 c6 c3) (tab (nc_rhs pts d0) (length pts - 2)) = Ret (tab (nc_second pts d0 c6 c3) (length pts - 2))) as ->.
  { unfold tri_solve, nc_matrix. cbn [InterpModel.size diagonal upper_diagonal lower_diagonal]. unfold nc_second.
    destruct (Nat.eqb_spec (length pts) 3) as [E | N].
    - rewrite E. reflexivity.
    - destruct (Nat.eqb_spec (length pts - 2) 1) as [C | _]; [lia |].
      replace (length pts - 3)%nat with (length pts - 2 - 1)%nat by lia. apply thomas_computes. lia. }
  cbn [bind]. fold (nc_seconds pts d0 c6 c3). fold (nc_points pts (nc_seconds pts d0 c6 c3)).
  pose proof (nc_seconds_length pts d0 c6 c3 L) as Ld. set (ds := nc_seconds pts d0 c6 c3) in *.
  destruct (check_order_spec s_x (nc_points pts ds) (nx pts d0 0)) as [(-> & _) | (_ & Q)]; [reflexivity | exfalso].
  destruct Q as [Q | (p & Hp & Lp)]; [apply Q; now apply (nc_points_order pts ds Ld) |].
  destruct pts as [| [x y] t]; [simpl in L; lia |]. destruct ds as [| d ds]; [discriminate |].
  unfold nc_points in Hp. simpl in Hp. injection Hp as <-. simpl in Lp. unfold nx in Lp. simpl in Lp. rewrite Irr in Lp. discriminate.
Qed.

Definition nc_formula {V : Value} (c6 x x0 y0 s0 x1 y1 s1 : V) : V :=
  ((x1 - x) * (x1 - x) * (x1 - x) / c6 / (x1 - x0) * s0 + (x - x0) * (x - x0) * (x - x0) / c6 / (x1 - x0) * s1
   + (x1 - x) * (y0 / (x1 - x0) - (x1 - x0) / c6 * s0) + (x - x0) * (y1 / (x1 - x0) - (x1 - x0) / c6 * s1))%V.

Lemma nc_points_at {V : Value} (pts : list (V * V)) ds i z d : length ds = length pts ->
  nth i (nc_points pts ds) (slope_new (fst z) (snd z) d) = slope_new (fst (nth i pts z)) (snd (nth i pts z)) (nth i ds d).
Proof.
  intros H. unfold nc_points.
  change (slope_new (fst z) (snd z) d) with ((fun '((x, y), d) => slope_new x y d) ((fst z, snd z), d)).
  rewrite map_nth. rewrite <- surjective_pairing. rewrite (combine_nth pts ds i z d) by (now symmetry). now destruct (nth i pts z).
Qed.

Lemma nc_cell {V : Value} (pts : list (V * V)) z c6 c3 x i : v_const 6 = Ret c6 -> v_const 3 = Ret c3 -> (forall x : V, v_ltb x x = false) ->
  (3 <= length pts)%nat -> in_order fst pts -> (i + 1 < length pts)%nat -> find_index (fun y => y) (map fst pts) x = Ret (Ok i) ->
  let s k := nth k (nc_seconds pts z c6 c3) (fst z) in
  fit_eval (NaturalCubic V) pts x = Ret (Ok (nc_formula c6 x (fst (nth i pts z)) (snd (nth i pts z)) (s i)
    (fst (nth (i + 1) pts z)) (snd (nth (i + 1) pts z)) (s (i + 1)%nat))).
Proof.
  intros E6 E3 Irr L O Hi Fi s. unfold fit_eval. rewrite (nc_fit_seconds pts z c6 c3) by assumption. cbn [bind try_res i_try_value NaturalCubic].
  pose proof (nc_seconds_length pts z c6 c3 L) as Ld.
  unfold natural_cubic_try_value. set (l := nc_points pts (nc_seconds pts z c6 c3)).
  assert (length l = length pts) as Ll by (unfold l, nc_points; rewrite map_length, combine_length; lia).
  assert (find_index s_x l x = Ret (Ok i)) as ->.
  { rewrite (find_index_map (V := V)). unfold l. rewrite nc_points_x by exact Ld. exact Fi. }
  cbn [bind try_res].
  rewrite !(index_some l _ (slope_new (fst z) (snd z) (fst z))) by lia. unfold l. rewrite !nc_points_at by exact Ld. cbn [bind]. rewrite E6. reflexivity.
Qed.

(** In floating point. *)
Lemma nc_float_eval prec emax Hp He e (pts : list (binary_float prec emax * binary_float prec emax)) x :
  (3 <= length pts)%nat -> rising (map fst pts) -> is_finite x = true ->
  gx (reals pts) 0 <= B2R x <= gx (reals pts) (length pts - 1) ->
  let z := (B754_nan, B754_nan) in
  exists i, (i + 1 < length pts)%nat /\ gx (reals pts) i <= B2R x <= gx (reals pts) (i + 1)
  /\ fit_eval (NaturalCubic (FV prec emax Hp He e)) pts x = Ret (Ok (nform prec emax Hp He x (fst (nth i pts z)) (snd (nth i pts z))
       (nth i (dsF prec emax Hp He e pts) B754_nan) (fst (nth (i + 1) pts z)) (snd (nth (i + 1) pts z)) (nth (i + 1) (dsF prec emax Hp He e pts) B754_nan))).
Proof.
  intros L3 Rs Fx Hx z.
  set (xs := map fst pts) in *. assert (length xs = length pts) as Lx by apply map_length.
  assert (forall k, nth k xs B754_nan = fst (nth k pts z)) as En by (intros k; apply (map_nth fst pts z k)).
  rewrite !gx_reals in Hx. fold z in Hx. rewrite <- !En, <- Lx in Hx.
  destruct (rising_find prec emax Hp He e xs x Rs Fx ltac:(lia) Hx) as (i & Fi & Hi & Bx). rewrite Lx in Hi.
  pose proof (line_in_order prec emax Hp He e fst pts (rising_line prec emax xs Rs)) as O.
  exists i. split; [exact Hi |]. split; [rewrite !gx_reals; fold z; now rewrite <- !En |].
  pose proof (nc_cell (V := FV prec emax Hp He e) pts z (of_int prec emax Hp He 6) (of_int prec emax Hp He 3) x i
    eq_refl eq_refl (fv_irr prec emax Hp He e) L3 O Hi Fi) as Ev. cbv zeta in Ev.
  assert (nc_seconds (V := FV prec emax Hp He e) pts z (of_int prec emax Hp He 6) (of_int prec emax Hp He 3) = dsF prec emax Hp He e pts) as Es.
  { unfold nc_seconds, dsF. f_equal. }
  rewrite Es in Ev. clear Es. rewrite Ev. clear. unfold nc_formula, nform. reflexivity.
Qed.

(** ** C101 *)

(** A natural cubic interpolation through points whose gaps are all at least [h] is finite and off by at most 4500
    rounding errors of the largest ordinate, times the square of the ratio of the queried gap to [h]; gaps and
    ordinates are of moderate size.  The bound holds for any number of points. *)
Theorem C101_natural_cubic : forall prec emax Hp He e (pts : list (binary_float prec emax * binary_float prec emax)) x L h Y,
  (20 <= prec)%Z -> (3 <= L)%Z -> (9 * L + 20 <= emax)%Z -> (3 <= length pts)%nat -> rising (map fst pts) ->
  (forall p, In p pts -> Rabs (B2R (fst p)) <= bpow radix2 (emax - 7) /\ is_finite (snd p) = true /\ Rabs (B2R (snd p)) <= Y) ->
  (forall i, (i + 1 < length pts)%nat -> h <= gx (reals pts) (i + 1) - gx (reals pts) i <= bpow radix2 L) ->
  bpow radix2 (- L) <= h -> bpow radix2 (- L) <= Y <= bpow radix2 L ->
  is_finite x = true -> gx (reals pts) 0 <= B2R x <= gx (reals pts) (length pts - 1) ->
  exists i v C, (i + 1 < length pts)%nat /\ gx (reals pts) i <= B2R x <= gx (reals pts) (i + 1)
    /\ fit_eval (NaturalCubic (FV prec emax Hp He e)) pts x = Ret (Ok v)
    /\ fit_eval (NaturalCubic RV) (reals pts) (B2R x) = Ret (Ok C)
    /\ is_finite v = true
    /\ Rabs (B2R v - C) <= 4500 * (bpow radix2 (- prec) * ((gx (reals pts) (i + 1) - gx (reals pts) i) / h) ^ 2 * Y).
Proof.
  intros prec emax Hp He e pts x L h Y H20 HL HE L3 Rs HP Wd Hh HY Fx Hx.
  set (z := (B754_nan, B754_nan) : binary_float prec emax * binary_float prec emax).
  set (xs := map fst pts) in *. assert (length xs = length pts) as Lx by apply map_length.
  assert (forall k, nth k xs B754_nan = fst (nth k pts z)) as En by (intros k; apply (map_nth fst pts z k)).
  destruct (nc_float_eval prec emax Hp He e pts x L3 Rs Fx Hx) as (i & Hi & Bx' & Ev). fold z in Ev.
  match type of Ev with _ = Ret (Ok ?v) => exists i, v, (q (reals pts) (second_of (nc_ds (reals pts))) i (B2R x)) end.
  split; [exact Hi |]. split; [exact Bx' |]. split; [exact Ev |]. clear Ev.
  pose proof (rising_increasing prec emax pts Rs) as Inc. assert (length (reals pts) = length pts) as Lr by apply map_length.
  split; [apply nc_value_ds; [exact Inc | lia | lia | exact Bx'] |].
  assert (forall k, (k < length pts)%nat -> In (nth k pts z) pts) as Ik by (intros k Hk; now apply nth_In).
  assert (forall k, (k < length pts)%nat -> is_finite (fst (nth k pts z)) = true) as Fk
    by (intros k Hk; apply (proj1 Rs); unfold xs; apply in_map, Ik, Hk).
  assert (forall k, (k < length pts)%nat -> Rabs (B2R (fst (nth k pts z))) <= large emax) as Bk by (intros k Hk; apply (HP _ (Ik k Hk))).
  pose proof (bpow_gt_0 radix2 L) as PL. pose proof (bpow_gt_0 radix2 (- L)) as PmL.
  assert (8 <= bpow radix2 L) as M8 by (change 8 with (bpow radix2 3); apply bpow_le; lia).
  assert (forall k, (bpow radix2 L) ^ k = bpow radix2 (Z.of_nat k * L)) as Pw.
  { induction k as [| k IHk]; [reflexivity |]. rewrite <- tech_pow_Rmult, IHk, <- bpow_plus. f_equal. lia. }
  assert (forall k, / (bpow radix2 L) ^ k = bpow radix2 (- (Z.of_nat k * L))) as Pi by (intros k; now rewrite Pw, bpow_opp).
  assert (forall S, mag (bpow radix2 L) 9 S -> mild emax S) as Mild.
  { intros S [S1 S2]. rewrite Pi in S1. rewrite Pw in S2. split.
    - eapply Rle_trans; [| exact S1]. apply bpow_le. lia.
    - eapply Rle_trans; [exact S2 |]. apply bpow_le. lia. }
  destruct (Wd 0%nat ltac:(lia)) as (W1 & W2).
  assert (mag (bpow radix2 L) 1 h) as Mh by (split; [rewrite Pi, Z.mul_1_l; exact Hh | rewrite Pw, Z.mul_1_l; lra]).
  assert (mag (bpow radix2 L) 1 Y) as MY by (split; [rewrite Pi, Z.mul_1_l; lra | rewrite Pw, Z.mul_1_l; lra]).
  assert (unit_roundoff prec <= unit_roundoff prec <= / 50000) as Ue.
  { split; [lra |]. unfold unit_roundoff. assert (bpow radix2 (- prec) <= bpow radix2 (-20)) by (apply bpow_le; lia).
    assert (bpow radix2 (-20) = / 1048576) by reflexivity. lra. }
  assert (forall (a b : binary_float prec emax) W, is_finite a = true -> is_finite b = true -> Rabs (B2R a) <= large emax -> Rabs (B2R b) <= large emax ->
    0 <= B2R a - B2R b <= W -> near prec emax (unit_roundoff prec) W (Bminus mode_NE a b) (B2R a - B2R b) 1 1) as Dn.
  { intros a b W Fa Fb Ba Bb D. destruct (diff_error prec emax Hp He ltac:(lia) a b Fa Fb Ba Bb) as (F & d & Hd & E).
    split; [exact F |]. split; [rewrite Rabs_pos_eq; lra |]. rewrite E.
    replace ((B2R a - B2R b) * (1 + d) - (B2R a - B2R b)) with (d * (B2R a - B2R b)) by ring. rewrite Rabs_mult, (Rabs_pos_eq (B2R a - B2R b)) by lra.
    rewrite Rmult_1_l. apply Rmult_le_compat; [apply Rabs_pos | lra | exact Hd | lra]. }
  assert (Rabs (B2R x) <= large emax) as BX.
  { rewrite !gx_reals in Bx'. fold z in Bx'. pose proof (Rabs_le_inv _ _ (Bk i ltac:(lia))). pose proof (Rabs_le_inv _ _ (Bk (i + 1)%nat ltac:(lia))).
    apply Rabs_le. lra. }
  assert (forall k, (k + 1 < length pts)%nat -> near prec emax (unit_roundoff prec) (w (reals pts) k) (Bminus mode_NE (fst (nth (k + 1) pts z)) (fst (nth k pts z))) (w (reals pts) k) 1 1) as Wn.
  { intros k Hk. unfold w. pose proof (Inc k (k + 1)%nat ltac:(lia)) as Q. rewrite !gx_reals in *. fold z in Q. fold z.
    apply Dn; try (apply Fk; lia); try (apply Bk; lia). lra. }
  assert (forall k, (k < length pts)%nat -> is_finite (snd (nth k pts z)) = true /\ B2R (snd (nth k pts z)) = gy (reals pts) k /\ Rabs (gy (reals pts) k) <= Y) as Yn.
  { intros k Hk. destruct (HP _ (Ik k Hk)) as (_ & A & B). rewrite gy_reals. fold z. auto. }
  pose proof (nform_near prec emax Hp He (unit_roundoff prec) Ue ltac:(lia) e pts (reals pts) Lr L3 (bpow radix2 L) h Y M8 Mild Mh MY Wd Wn Yn i x (B2R x) Hi) as NF.
  assert (near prec emax (unit_roundoff prec) (w (reals pts) i) (Bminus mode_NE (fst (nth (i + 1) pts z)) x) (gx (reals pts) (i + 1) - B2R x) 1 1) as T1.
  { unfold w. rewrite !gx_reals in *. fold z in Bx' |- *. apply Dn; try (apply Fk; lia); try (apply Bk; lia); try assumption. lra. }
  assert (near prec emax (unit_roundoff prec) (w (reals pts) i) (Bminus mode_NE x (fst (nth i pts z))) (B2R x - gx (reals pts) i) 1 1) as T0.
  { unfold w. rewrite !gx_reals in *. fold z in Bx' |- *. apply Dn; try (apply Fk; lia); try (apply Bk; lia); try assumption. lra. }
  destruct (NF T1 T0) as (F & _ & Er). split; [exact F |].
  eapply Rle_trans; [exact Er |]. apply Req_le. unfold unit_roundoff, w.
  field. lra.
Qed.
Print Assumptions C101_natural_cubic.

(** Four points at 0, 2, 49, 60 in binary64, queried at 1. *)
Example C101_case : forall e, let i z := of_int 53 1024 Hp53 He1024 z in
  exists v C, fit_eval (NaturalCubic (F64 e)) [(i 0, i 1); (i 2, i 3); (i 49, i 10); (i 60, i (-7))]%Z (i 1%Z) = Ret (Ok v)
     /\ fit_eval (NaturalCubic RV) [(0, 1); (2, 3); (49, 10); (60, -7)] 1 = Ret (Ok C) /\ is_finite v = true /\ Rabs (B2R v - C) <= bpow radix2 (-37).
Proof.
  intros e i.
  assert (forall z, (Z.abs z < 1000)%Z -> B2R (i z) = IZR z /\ is_finite (i z) = true) as I by (intros z Hz; apply of_int_correct; lia).
  assert (forall z, (Z.abs z < 1000)%Z -> Rabs (B2R (i z)) <= bpow radix2 (1024 - 7)) as B.
  { intros z Hz. rewrite (proj1 (I z Hz)), <- abs_IZR. apply Rle_trans with (bpow radix2 10); [| apply bpow_le; lia].
    change (bpow radix2 10) with (IZR 1024). apply IZR_le. lia. }
  set (pts := [(i 0, i 1); (i 2, i 3); (i 49, i 10); (i 60, i (-7))]%Z).
  assert (reals pts = [(0, 1); (2, 3); (49, 10); (60, -7)]) as Er.
  { unfold reals, pts. cbn [map fst snd]. now rewrite (proj1 (I (0)%Z eq_refl)), (proj1 (I (1)%Z eq_refl)), (proj1 (I (2)%Z eq_refl)),
      (proj1 (I (3)%Z eq_refl)), (proj1 (I (49)%Z eq_refl)), (proj1 (I (10)%Z eq_refl)), (proj1 (I (60)%Z eq_refl)), (proj1 (I (-7)%Z eq_refl)). }
  assert (bpow radix2 6 = 64) as E6 by reflexivity. assert (bpow radix2 (- (6)) = / 64) as E6' by reflexivity.
  destruct (C101_natural_cubic 53 1024 Hp53 He1024 e pts (i 1%Z) 6 2 10) as (k & v & C & Hk & Bx & Ev & EC & Fv & Nv); try rewrite Er; rewrite ?E6, ?E6';
    try lia; try lra.
  - simpl; lia.
  - split.
    + intros y [<- | [<- | [<- | [<- | []]]]]; vm_compute; reflexivity.
    + intros [| [| [| [| k]]]] a b Ha Hb; try discriminate Hb; try (destruct k; discriminate Hb);
        injection Ha as <-; injection Hb as <-; vm_compute; reflexivity.
  - intros p [<- | [<- | [<- | [<- | []]]]]; (split; [apply B; lia | split; [apply I; lia |]]); cbn [snd]; match goal with |- context [i ?q] => rewrite (proj1 (I q ltac:(lia))) end; apply Rabs_le; lra.
  - intros j Hj. unfold gx. destruct j as [| [| [| j]]]; [| | | simpl in Hj; lia]; simpl; lra.
  - apply I; lia.
  - rewrite (proj1 (I 1%Z eq_refl)). unfold gx. simpl. lra.
  - rewrite Er, (proj1 (I 1%Z eq_refl)) in EC. rewrite Er in Bx, Nv. exists v, C. split; [exact Ev |]. split; [exact EC |]. split; [exact Fv |].
    rewrite (proj1 (I 1%Z eq_refl)) in Bx. unfold gx in Bx, Nv. destruct k as [| [| [| k]]]; [| simpl in Bx; lra | simpl in Bx; lra | simpl in Hk; lia].
    simpl nth in Nv. simpl fst in Nv. eapply Rle_trans; [exact Nv |]. change (bpow radix2 (-37)) with (bpow radix2 (- (53) + 16)). rewrite bpow_plus.
    change (bpow radix2 16) with 65536. pose proof (bpow_gt_0 radix2 (- (53))). simpl pow. lra.
Qed.
