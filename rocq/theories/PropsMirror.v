(** Property C114: interpolation of mirrored points. *)
From Coq Require Import Reals List Arith Lia Lra.
From Verif Require Import Base Value RealValue InterpModel InterpFacts Grid Piecewise TriFacts PropsTri NcFacts
  PropsLinear PropsHermite PropsCatmullRom PropsNaturalCubic PropsShift PropsFade.
Import ListNotations.
Open Scope R_scope.

(** ** Specification *)

(** [p'] is [p] seen in a mirror at [c / 2]: the abscissas run backwards. *)
Definition mirrored (c : R) (p p' : list (R * R)) : Prop :=
  length p' = length p
  /\ forall i, (i < length p)%nat -> gx p' (length p - 1 - i) = c - gx p i /\ gy p' (length p - 1 - i) = gy p i.

(** With slopes, which change sign. *)
Definition h_mirrored (c : R) (p p' : list (R * R * R)) : Prop :=
  length p' = length p
  /\ forall i, (i < length p)%nat -> hx p' (length p - 1 - i) = c - hx p i /\ hy p' (length p - 1 - i) = hy p i
       /\ hm p' (length p - 1 - i) = - hm p i.

(** The answers [F] have a derivative at every interior point. *)
Definition smooth_answers (p : list (R * R)) (F : R -> R) : Prop :=
  forall i, (0 < i)%nat -> (i + 1 < length p)%nat -> exists l, derivable_pt_lim F (gx p i) l.

(** ** Lemmas *)

Lemma mirrored_inc c p p' : mirrored c p p' -> increasing p -> increasing p'.
Proof.
  intros (L & A) H i j Hij. rewrite L in Hij.
  destruct (A (length p - 1 - i)%nat ltac:(lia)) as (X & _). destruct (A (length p - 1 - j)%nat ltac:(lia)) as (X' & _).
  replace (length p - 1 - (length p - 1 - i))%nat with i in X by lia. replace (length p - 1 - (length p - 1 - j))%nat with j in X' by lia.
  rewrite X, X'. assert (gx p (length p - 1 - j) < gx p (length p - 1 - i)) by (apply H; lia). lra.
Qed.

Lemma h_mirrored_inc c p p' : h_mirrored c p p' -> h_increasing p -> h_increasing p'.
Proof.
  intros (L & A) H i j Hij. rewrite L in Hij.
  destruct (A (length p - 1 - i)%nat ltac:(lia)) as (X & _). destruct (A (length p - 1 - j)%nat ltac:(lia)) as (X' & _).
  replace (length p - 1 - (length p - 1 - i))%nat with i in X by lia. replace (length p - 1 - (length p - 1 - j))%nat with j in X' by lia.
  rewrite X, X'. assert (hx p (length p - 1 - j) < hx p (length p - 1 - i)) by (apply H; lia). lra.
Qed.

(** Rows with nothing on the right and zero ends have the zero solution only. *)
Lemma rows_zero (X D : nat -> R) N : (forall r, (r < N)%nat -> X r < X (r + 1)%nat) -> D 0%nat = 0 -> D N = 0 ->
  (forall i, (i + 2 <= N)%nat ->
    (X (i + 1)%nat - X i) * D i + 2 * (X (i + 1)%nat - X i + (X (i + 2)%nat - X (i + 1)%nat)) * D (i + 1)%nat
    + (X (i + 2)%nat - X (i + 1)%nat) * D (i + 2)%nat = 0) ->
  forall j, (j <= N)%nat -> D j = 0.
Proof.
  intros Inc D0 DN Rows.
  assert (forall j, (j + 1 <= N)%nat -> Rabs (D j) <= Rabs (D (j + 1)%nat) / 2) as Hv.
  { induction j as [| j IH]; intros Hj.
    - rewrite D0, Rabs_R0. pose proof (Rabs_pos (D (0 + 1)%nat)). lra.
    - specialize (IH ltac:(lia)). pose proof (Rows j ltac:(lia)) as Rw. pose proof (Inc j ltac:(lia)) as I1.
      pose proof (Inc (j + 1)%nat ltac:(lia)) as I2. replace (j + 1 + 1)%nat with (j + 2)%nat in I2 by lia.
      replace (S j + 1)%nat with (j + 2)%nat by lia. replace (S j) with (j + 1)%nat by lia.
      refine (halve _ _ _ _ _ _ _ Rw IH); lra. }
  assert (forall m j, (j + m = N)%nat -> D j = 0) as Z.
  { induction m as [| m IH]; intros j Hj; [now replace j with N by lia |].
    specialize (IH (j + 1)%nat ltac:(lia)). specialize (Hv j ltac:(lia)). rewrite IH, Rabs_R0 in Hv.
    destruct (Req_dec (D j) 0) as [Z0 | N0]; [exact Z0 |]. apply Rabs_pos_lt in N0. lra. }
  intros j Hj. apply (Z (N - j)%nat). lia.
Qed.

(** The second derivatives of two smooth natural splines through the same points are the same. *)
Lemma smooth_unique p s t : increasing p -> (2 <= length p)%nat -> s 0%nat = 0 -> t 0%nat = 0 -> s (length p - 1)%nat = 0 -> t (length p - 1)%nat = 0 ->
  (forall i, (i + 2 < length p)%nat -> jump p s i = 0) -> (forall i, (i + 2 < length p)%nat -> jump p t i = 0) ->
  forall j, (j < length p)%nat -> s j = t j.
Proof.
  intros H Hl S0 T0 S1 T1 Js Jt j Hj.
  cut (s j - t j = 0); [lra |]. apply (rows_zero (gx p) (fun j => s j - t j) (length p - 1)); try lia.
  - intros r Hr. apply H. lia.
  - lra.
  - lra.
  - intros i Hi. assert (gx p i < gx p (i + 1)) as G1 by (apply H; lia). assert (gx p (i + 1) < gx p (i + 2)) as G2 by (apply H; lia).
    pose proof (Js i ltac:(lia)) as J1. rewrite (jump_eq p s i G1 G2) in J1.
    pose proof (Jt i ltac:(lia)) as J2. rewrite (jump_eq p t i G1 G2) in J2. lra.
Qed.

(** ** C114 *)

Theorem C114_linear : forall c p p' x, mirrored c p p' -> increasing p -> (2 <= length p)%nat -> in_range p x ->
  exists v, fit_eval (Linear RV) p x = Ret (Ok v) /\ fit_eval (Linear RV) p' (c - x) = Ret (Ok v).
Proof.
  intros c p p' x Mi H Hl Hx. destruct (g_cell p x H Hl Hx) as (i & Hi & Ci).
  exists (chord p i x). split; [now apply linear_closed |]. pose proof (mirrored_inc c p p' Mi H) as H'. destruct Mi as (L & A).
  destruct (A i ltac:(lia)) as (X0 & Y0), (A (i + 1)%nat ltac:(lia)) as (X1 & Y1).
  set (k := (length p - 1 - (i + 1))%nat) in *. replace (length p - 1 - i)%nat with (k + 1)%nat in * by lia.
  rewrite (linear_closed p' (c - x) k H' ltac:(lia)) by lra. ret_eq.
  unfold chord. rewrite X0, X1, Y0, Y1. assert (gx p i < gx p (i + 1)) by (apply H; lia). field. lra.
Qed.
Print Assumptions C114_linear.

Theorem C114_hermite : forall c p p' x, h_mirrored c p p' -> h_increasing p -> (2 <= length p)%nat -> hx p 0 <= x <= hx p (h_last p) ->
  exists v, hermite_eval (V := RV) p x = Ret (Ok v) /\ hermite_eval (V := RV) p' (c - x) = Ret (Ok v).
Proof.
  intros c p p' x Mi H Hl Hx. destruct (h_cell p x H Hl Hx) as (i & Hi & Ci).
  exists (hpiece p i x). split; [now apply hermite_closed |]. pose proof (h_mirrored_inc c p p' Mi H) as H'. destruct Mi as (L & A).
  destruct (A i ltac:(lia)) as (X0 & Y0 & M0), (A (i + 1)%nat ltac:(lia)) as (X1 & Y1 & M1).
  set (k := (length p - 1 - (i + 1))%nat) in *. replace (length p - 1 - i)%nat with (k + 1)%nat in * by lia.
  rewrite (hermite_closed p' k (c - x) H' ltac:(lia)) by lra. ret_eq.
  unfold hpiece, hA, hB. rewrite X0, X1, Y0, Y1, M0, M1. assert (hx p i < hx p (i + 1)) by (apply H; lia). field. lra.
Qed.
Print Assumptions C114_hermite.

Lemma q_mirrored c p p' s s' i k x : gx p i < gx p (i + 1) -> gx p' k = c - gx p (i + 1) -> gx p' (k + 1) = c - gx p i ->
  gy p' k = gy p (i + 1) -> gy p' (k + 1) = gy p i -> s' k = s (i + 1)%nat -> s' (k + 1)%nat = s i ->
  q p' s' k (c - x) = q p s i x /\ q1 p' s' k (c - x) = - q1 p s i x.
Proof.
  intros H X1 X0 Y1 Y0 S1 S0. unfold q, q1, qa, qc. rewrite X0, X1, Y0, Y1, S0, S1. split; field; lra.
Qed.

(** A natural cubic, when its answers are smooth both ways. *)
Theorem C114_natural_cubic : forall c p p' F F', mirrored c p p' -> increasing p -> (4 <= length p)%nat ->
  spline_of p F -> spline_of p' F' -> smooth_answers p F -> smooth_answers p' F' ->
  forall x, in_range p x -> F' (c - x) = F x.
Proof.
  intros c p p' F F' Mi H H4 HF HF' Sm Sm' x Hx.
  pose proof (mirrored_inc c p p' Mi H) as H'. destruct Mi as (L & A).
  destruct (spline_pieces p F H ltac:(lia) HF) as (s & Sv & Pc). destruct (spline_pieces p' F' H' ltac:(lia) HF') as (s' & Sv' & Pc').
  assert (forall i, (i + 2 < length p)%nat -> jump p s i = 0) as J.
  { intros i Hi. apply (knot_diff p F s i H ltac:(lia) Pc Hi). apply Sm; lia. }
  assert (forall i, (i + 2 < length p')%nat -> jump p' s' i = 0) as J'.
  { intros i Hi. apply (knot_diff p' F' s' i H' ltac:(lia) Pc' Hi). apply Sm'; lia. }
  destruct Sv as (S0 & S1 & _), Sv' as (S0' & S1' & _).
  assert (forall j, (j < length p')%nat -> s' j = s (length p - 1 - j)%nat) as Eq.
  { apply (smooth_unique p' s' (fun j => s (length p - 1 - j)%nat)); try assumption; try lia.
    - now rewrite Nat.sub_0_r.
    - rewrite L. now replace (length p - 1 - (length p - 1))%nat with 0%nat by lia.
    - intros k Hk. set (i := (length p - 3 - k)%nat). pose proof (J i ltac:(lia)) as Ji. unfold jump in *.
      destruct (A i ltac:(lia)) as (X0 & Y0), (A (i + 1)%nat ltac:(lia)) as (X1 & Y1), (A (i + 2)%nat ltac:(lia)) as (X2 & Y2).
      replace (length p - 1 - i)%nat with (k + 1 + 1)%nat in * by lia. replace (length p - 1 - (i + 1))%nat with (k + 1)%nat in * by lia.
      replace (length p - 1 - (i + 2))%nat with k in * by lia. replace (i + 2)%nat with (i + 1 + 1)%nat in * by lia.
      rewrite X1.
      destruct (q_mirrored c p p' s (fun j => s (length p - 1 - j)%nat) (i + 1) k (gx p (i + 1))) as (_ & Q0); try assumption;
        [apply H; lia | f_equal; lia | f_equal; lia |].
      destruct (q_mirrored c p p' s (fun j => s (length p - 1 - j)%nat) i (k + 1) (gx p (i + 1))) as (_ & Q1); try assumption;
        [apply H; lia | f_equal; lia | f_equal; lia |].
      rewrite Q0, Q1. lra. }
  destruct (g_cell p x H ltac:(lia) Hx) as (i & Hi & Ci). rewrite (Pc i x Hi Ci).
  destruct (A i ltac:(lia)) as (X0 & Y0), (A (i + 1)%nat ltac:(lia)) as (X1 & Y1).
  set (k := (length p - 1 - (i + 1))%nat) in *. replace (length p - 1 - i)%nat with (k + 1)%nat in * by lia.
  rewrite (Pc' k (c - x)) by (lia || lra).
  apply q_mirrored; try assumption; [apply H; lia | |]; (rewrite Eq by lia; f_equal; lia).
Qed.
Print Assumptions C114_natural_cubic.

(** In general neither spline has this symmetry. *)
Definition rise : list (R * R) := [(0, 0); (1, 0); (2, 0); (3, 1)].
Definition fall : list (R * R) := [(0, 1); (1, 0); (2, 0); (3, 0)].

Lemma rise_fall : mirrored 3 rise fall /\ increasing rise /\ increasing fall.
Proof.
  split; [| split].
  - split; [reflexivity |]. intros i Hi. simpl in Hi. destruct i as [| [| [| [| i]]]]; [.. | lia]; unfold gx, gy; simpl; lra.
  - intros i j H. simpl in H. destruct i as [| [| [| [| i]]]], j as [| [| [| [| j]]]]; try lia; unfold gx; simpl; lra.
  - intros i j H. simpl in H. destruct i as [| [| [| [| i]]]], j as [| [| [| [| j]]]]; try lia; unfold gx; simpl; lra.
Qed.

Theorem C114_catmull_rom_refuted : exists c p p' x v v', mirrored c p p' /\ increasing p /\ (3 <= length p)%nat /\ in_range p x
  /\ fit_eval (CatmullRom RV) p x = Ret (Ok v) /\ fit_eval (CatmullRom RV) p' (c - x) = Ret (Ok v') /\ v' <> v.
Proof.
  destruct rise_fall as (M & H & H').
  exists 3, rise, fall, (3 / 2), (-1 / 16), (-1 / 24). split; [exact M |]. split; [exact H |]. split; [simpl; lia |].
  split; [unfold in_range, last_of, gx; simpl; lra |]. split; [| split; [| lra]].
  - rewrite (cr_closed rise 1 (3 / 2) H ltac:(simpl; lia) ltac:(simpl; lia)) by (unfold gx; simpl; lra). ret_eq.
    unfold cpiece, k3, k2, k1, calpha, cbeta, ch, gx, gy. simpl. field.
  - rewrite (cr_closed fall 1 (3 - 3 / 2) H' ltac:(simpl; lia) ltac:(simpl; lia)) by (unfold gx; simpl; lra). ret_eq.
    unfold cpiece, k3, k2, k1, calpha, cbeta, ch, gx, gy. simpl. field.
Qed.
Print Assumptions C114_catmull_rom_refuted.

Theorem C114_natural_cubic_refuted : exists c p p' x v v', mirrored c p p' /\ increasing p /\ (4 <= length p)%nat /\ in_range p x
  /\ fit_eval (NaturalCubic RV) p x = Ret (Ok v) /\ fit_eval (NaturalCubic RV) p' (c - x) = Ret (Ok v') /\ v' <> v.
Proof.
  destruct rise_fall as (M & H & H').
  exists 3, rise, fall, (1 / 2), 0, (1 / 40). split; [exact M |]. split; [exact H |]. split; [simpl; lia |].
  split; [unfold in_range, last_of, gx; simpl; lra |]. split; [| split; [| lra]].
  - rewrite (nc_value_ds rise 0 (1 / 2) H ltac:(simpl; lia) ltac:(simpl; lia)) by (unfold gx; simpl; lra). ret_eq.
    unfold q, qa, qc. rewrite !nc_ds_nth by (simpl; lia). simpl. unfold nc_sol, xsol. simpl.
    unfold nc_rhs, nc_off, nc_diag, mul_entry, nc_coff, nc_cdiag, nc_mm, v_recip, nx, ny, gx, gy. simpl. field.
  - rewrite (nc_value_ds fall 2 (3 - 1 / 2) H' ltac:(simpl; lia) ltac:(simpl; lia)) by (unfold gx; simpl; lra). ret_eq.
    unfold q, qa, qc. rewrite !nc_ds_nth by (simpl; lia). simpl. unfold nc_sol, xsol. simpl.
    unfold nc_rhs, nc_off, nc_diag, mul_entry, nc_coff, nc_cdiag, nc_mm, v_recip, nx, ny, gx, gy. simpl. field.
Qed.
Print Assumptions C114_natural_cubic_refuted.

Example C114_case : mirrored 6 [(1, 5); (2, 7); (4, 11)] [(2, 11); (4, 7); (5, 5)]
  /\ h_mirrored 6 [(1, 5, 2); (2, 7, -1)] [(4, 7, 1); (5, 5, -2)].
Proof.
  split; (split; [reflexivity |]); intros i Hi; simpl in Hi.
  - destruct i as [| [| [| i]]]; [.. | lia]; unfold gx, gy; simpl; lra.
  - destruct i as [| [| i]]; [.. | lia]; unfold hx, hy, hm; simpl; lra.
Qed.

(** A line has smooth answers, and so has its mirror image. *)
Example C114_smooth_case : exists F F', spline_of [(0, 0); (1, 1); (2, 2); (3, 3)] F /\ spline_of [(0, 3); (1, 2); (2, 1); (3, 0)] F'
  /\ smooth_answers [(0, 0); (1, 1); (2, 2); (3, 3)] F /\ smooth_answers [(0, 3); (1, 2); (2, 1); (3, 0)] F'.
Proof.
  assert (forall a b, increasing [(0, a); (1, a + b); (2, a + 2 * b); (3, a + 3 * b)]) as Inc.
  { intros a b i j H. simpl in H. destruct i as [| [| [| [| i]]]], j as [| [| [| [| j]]]]; try lia; unfold gx; simpl; lra. }
  assert (forall a b, exists F, spline_of [(0, a); (1, a + b); (2, a + 2 * b); (3, a + 3 * b)] F
    /\ smooth_answers [(0, a); (1, a + b); (2, a + 2 * b); (3, a + 3 * b)] F) as Ln.
  { intros a b. exists (fun x => b * x + a). split.
    - intros x Hx. rewrite (C36_lines_partial _ b a x (Inc a b) ltac:(simpl; lia)); [reflexivity | | exact Hx].
      intros i Hi. simpl in Hi. destruct i as [| [| [| [| i]]]]; [.. | lia]; unfold gx, gy; simpl; lra.
    - intros i _ _. exists b. apply (derive_as_cubic _ 0 0 b a 0); [intros y; ring | ring]. }
  destruct (Ln 0 1) as (F & A1 & A2). destruct (Ln 3 (-1)) as (F' & B1 & B2). exists F, F'.
  replace [(0, 0); (1, 1); (2, 2); (3, 3)] with [(0, 0); (1, 0 + 1); (2, 0 + 2 * 1); (3, 0 + 3 * 1)] by (repeat f_equal; lra).
  replace [(0, 3); (1, 2); (2, 1); (3, 0)] with [(0, 3); (1, 3 + -1); (2, 3 + 2 * -1); (3, 3 + 3 * -1)] by (repeat f_equal; lra).
  auto.
Qed.
