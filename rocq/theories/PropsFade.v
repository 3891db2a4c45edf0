(** Property C113: how far a change of one point is felt by a natural cubic. *)
From Coq Require Import ZArith Reals List Arith Lia Lra Psatz.
From Verif Require Import Base Chrono DateModel DateFacts Value RealValue DayCountModel InterpModel InterpFacts CurveModel
  Gregorian Grid Piecewise PropsDate PropsDayCount PropsLinear PropsCatmullRom PropsNaturalCubic PropsCurve PropsShift PropsStability PropsBuckets.
Import ListNotations.
Open Scope R_scope.

(** ** Specification *)

(** [p'] is [p] with the ordinate of point [k] raised by [e]. *)
Definition moved (k : nat) (e : R) (p p' : list (R * R)) : Prop :=
  length p' = length p
  /\ forall i, (i < length p)%nat -> gx p' i = gx p i /\ gy p' i = if (i =? k)%nat then gy p i + e else gy p i.

(** Every cell is at least [h] wide. *)
Definition wide (h : R) (p : list (R * R)) : Prop :=
  0 < h /\ forall i, (i + 1 < length p)%nat -> h <= gx p (i + 1) - gx p i.

(** Cell [i] has [d] cells between it and the two that meet at point [k]. *)
Definition cells_between (d i k : nat) : Prop := (i + 2 + d = k \/ k + 1 + d = i)%nat.

(** ** Rows of the system *)

Lemma row_abs a b u v w r : 0 < a -> 0 < b -> a * u + 2 * (a + b) * v + b * w = r ->
  2 * (a + b) * Rabs v <= Rabs r + a * Rabs u + b * Rabs w.
Proof.
  intros Ha Hb E. replace (2 * (a + b) * Rabs v) with (Rabs (2 * (a + b) * v)).
  2: { rewrite Rabs_mult, (Rabs_pos_eq (2 * (a + b))) by lra. reflexivity. }
  replace (2 * (a + b) * v) with (r + - (a * u) + - (b * w)) by lra.
  eapply Rle_trans; [apply Rabs_triang |]. rewrite Rabs_Ropp, Rabs_mult, (Rabs_pos_eq b) by lra.
  apply Rplus_le_compat_r. eapply Rle_trans; [apply Rabs_triang |]. rewrite Rabs_Ropp, Rabs_mult, (Rabs_pos_eq a) by lra. lra.
Qed.

Lemma halve a b u v w : 0 < a -> 0 < b -> a * u + 2 * (a + b) * v + b * w = 0 -> Rabs u <= Rabs v / 2 -> Rabs v <= Rabs w / 2.
Proof.
  intros Ha Hb E Hu. pose proof (row_abs a b u v w 0 Ha Hb E) as M. rewrite Rabs_R0 in M.
  pose proof (Rabs_pos v). assert (a * Rabs u <= a * (Rabs v / 2)) by (apply Rmult_le_compat_l; lra).
  assert (0 <= a * Rabs v) by (apply Rmult_le_pos; lra).
  apply (Rmult_le_reg_l b); [exact Hb |]. lra.
Qed.

Lemma greatest (f : nat -> R) N : exists m, (m <= N)%nat /\ forall j, (j <= N)%nat -> f j <= f m.
Proof.
  induction N as [| N (m & Hm & Mx)].
  - exists 0%nat. split; [lia |]. intros j Hj. replace j with 0%nat by lia. lra.
  - destruct (Rle_lt_dec (f m) (f (S N))) as [C | C].
    + exists (S N). split; [lia |]. intros j Hj. destruct (Nat.eq_dec j (S N)) as [-> | N']; [lra |]. specialize (Mx j ltac:(lia)). lra.
    + exists m. split; [lia |]. intros j Hj. destruct (Nat.eq_dec j (S N)) as [-> | N']; [lra |]. apply Mx. lia.
Qed.

Section System.
Context (p : list (R * R)) (s : nat -> R).
Hypothesis Hinc : increasing p.
Hypothesis H4 : (4 <= length p)%nat.
Hypothesis Sv : solved p s.
Notation n := (length p).
Notation X := (gx p).
Notation Y := (gy p).
Notation gap_ i := (X i - X (i - 1)%nat).

(** The stored second derivatives up to the third point from the end, and zero after it. *)
Definition front (j : nat) : R := if (j <? n - 2)%nat then s j else 0.

Definition turn (r : nat) : R := (Y (r + 1)%nat - Y r) / gap_ (r + 1) - (Y r - Y (r - 1)%nat) / gap_ r.

Lemma gap_pos r : (1 <= r < n)%nat -> 0 < gap_ r.
Proof. intros H. assert (X (r - 1)%nat < X r) by (apply Hinc; lia). lra. Qed.

Lemma front_0 : front 0 = 0.
Proof. unfold front. destruct (0 <? n - 2)%nat; [exact (proj1 Sv) | reflexivity]. Qed.

Lemma front_end : front (n - 2) = 0.
Proof. unfold front. now rewrite Nat.ltb_irrefl. Qed.

(** They solve the equations of the natural spline through all points but the last. *)
Lemma front_row r : (1 <= r <= n - 3)%nat ->
  gap_ r * front (r - 1) + 2 * (gap_ r + gap_ (r + 1)) * front r + gap_ (r + 1) * front (r + 1) = 6 * turn r.
Proof.
  intros Hr. destruct Sv as (_ & _ & _ & Eq & _). destruct (Eq H4) as (E1 & E2 & _).
  destruct r as [| i]; [lia |]. replace (S i - 1)%nat with i by lia. replace (S i + 1)%nat with (i + 2)%nat by lia.
  unfold turn. replace (S i + 1)%nat with (i + 2)%nat by lia. replace (S i - 1)%nat with i by lia.
  replace (i + 2 - 1)%nat with (i + 1)%nat by lia. replace (S i) with (i + 1)%nat by lia.
  assert (X i < X (i + 1)%nat) as G1 by (apply Hinc; lia). assert (X (i + 1)%nat < X (i + 2)%nat) as G2 by (apply Hinc; lia).
  pose proof (jump_eq p s i G1 G2) as J. unfold front.
  destruct (Nat.ltb_spec i (n - 2)) as [_ | C]; [| lia]. destruct (Nat.ltb_spec (i + 1) (n - 2)) as [_ | C]; [| lia].
  destruct (Nat.ltb_spec (i + 2) (n - 2)) as [C | C].
  - rewrite (E1 i) in J by lia. lra.
  - replace (n - 4)%nat with i in E2 by lia. replace (n - 3)%nat with (i + 1)%nat in E2 by lia.
    replace (n - 2)%nat with (i + 2)%nat in E2 by lia. replace (i + 1 + 1)%nat with (i + 2)%nat in E2 by lia. rewrite E2 in J. lra.
Qed.

(** The last equation, with its wrong neighbour. *)
Lemma last_row : exists c, Rabs c <= 1 /\
  gap_ (n - 2) * s (n - 3)%nat + (2 * (gap_ (n - 2) + gap_ (n - 1)) - gap_ (n - 2) * c) * s (n - 2)%nat = 6 * turn (n - 2).
Proof.
  destruct Sv as (_ & Z & _ & Eq & _). destruct (Eq H4) as (_ & _ & pv & (Np & Le) & E3).
  set (i := (n - 3)%nat) in *. unfold turn. replace (n - 2)%nat with (i + 1)%nat in * by lia. replace (i + 1 - 1)%nat with i by lia.
  replace (n - 1)%nat with (i + 2)%nat in * by lia. replace (i + 1 + 1)%nat with (i + 2)%nat in * by lia.
  replace (i + 2 - 1)%nat with (i + 1)%nat by lia.
  assert (X i < X (i + 1)%nat) as G1 by (apply Hinc; lia). assert (X (i + 1)%nat < X (i + 2)%nat) as G2 by (apply Hinc; lia).
  pose proof (jump_eq p s i G1 G2) as J. rewrite Z in J.
  exists ((X (i + 1)%nat - X i) / 6 / pv). split.
  - unfold Rdiv at 1. rewrite Rabs_mult, Rabs_inv, (Rabs_pos_eq ((X (i + 1)%nat - X i) / 6)) by lra.
    assert (0 < Rabs pv) as Pp by now apply Rabs_pos_lt.
    apply (Rmult_le_reg_r (Rabs pv)); [exact Pp |]. rewrite Rmult_assoc, Rinv_l by lra. lra.
  - rewrite E3 in J. set (w := (X (i + 1)%nat - X i) / 6 / pv) in *. lra.
Qed.

Lemma front_left k : (forall r, (1 <= r <= n - 3)%nat -> (r + 1 < k)%nat -> turn r = 0) ->
  forall j, (j + 2 <= k)%nat -> (j + 1 <= n - 2)%nat -> Rabs (front j) <= Rabs (front (j + 1)) / 2.
Proof.
  intros T. induction j as [| j IH]; intros Hk Hj.
  - rewrite front_0, Rabs_R0. pose proof (Rabs_pos (front (0 + 1))). lra.
  - specialize (IH ltac:(lia) ltac:(lia)). pose proof (front_row (S j) ltac:(lia)) as Rw. rewrite T, Rmult_0_r in Rw by lia.
    replace (S j - 1)%nat with j in Rw by lia. replace (j + 1)%nat with (S j) in IH by lia.
    refine (halve _ _ _ _ _ _ _ Rw IH).
    + assert (X j < X (S j)) by (apply Hinc; lia). lra.
    + apply gap_pos. lia.
Qed.

Lemma front_right k : (forall r, (1 <= r <= n - 3)%nat -> (k + 1 < r)%nat -> turn r = 0) ->
  forall m j, (j + m = n - 2)%nat -> (k + 2 <= j)%nat -> Rabs (front j) <= Rabs (front (j - 1)) / 2.
Proof.
  intros T. induction m as [| m IH]; intros j Hj Hk.
  - replace j with (n - 2)%nat by lia. rewrite front_end, Rabs_R0. pose proof (Rabs_pos (front (n - 2 - 1))). lra.
  - specialize (IH (j + 1)%nat ltac:(lia) ltac:(lia)). replace (j + 1 - 1)%nat with j in IH by lia.
    pose proof (front_row j ltac:(lia)) as Rw. rewrite T, Rmult_0_r in Rw by lia.
    refine (halve (gap_ (j + 1)) (gap_ j) _ _ _ _ _ _ IH); [apply gap_pos; lia | apply gap_pos; lia |]. rewrite <- Rw. ring.
Qed.

Lemma front_bound B : 0 <= B -> (forall r, (1 <= r <= n - 3)%nat -> Rabs (6 * turn r) <= B * (gap_ r + gap_ (r + 1))) ->
  forall j, (j <= n - 2)%nat -> Rabs (front j) <= B.
Proof.
  intros HB T. destruct (greatest (fun j => Rabs (front j)) (n - 2)) as (m & Hm & Mx). cbv beta in Mx.
  intros j Hj. eapply Rle_trans; [exact (Mx j Hj) |].
  destruct (Nat.eq_dec m 0) as [-> | N0]; [rewrite front_0, Rabs_R0; exact HB |].
  destruct (Nat.eq_dec m (n - 2)) as [-> | N2]; [rewrite front_end, Rabs_R0; exact HB |].
  pose proof (gap_pos m ltac:(lia)) as G1. pose proof (gap_pos (m + 1) ltac:(lia)) as G2.
  pose proof (row_abs _ _ _ _ _ _ G1 G2 (front_row m ltac:(lia))) as M. specialize (T m ltac:(lia)).
  pose proof (Rmult_le_compat_l _ _ _ (Rlt_le _ _ G1) (Mx (m - 1)%nat ltac:(lia))) as M1.
  pose proof (Rmult_le_compat_l _ _ _ (Rlt_le _ _ G2) (Mx (m + 1)%nat ltac:(lia))) as M2.
  apply (Rmult_le_reg_l (gap_ m + gap_ (m + 1))); lra.
Qed.

End System.

(** ** A change of one ordinate *)

(** The points with one ordinate [e] and the others zero. *)
Definition spike (k : nat) (e : R) (p : list (R * R)) : list (R * R) :=
  map (fun i => (gx p i, if (i =? k)%nat then e else 0)) (seq 0 (length p)).

Lemma spike_length k e p : length (spike k e p) = length p.
Proof. unfold spike. now rewrite map_length, seq_length. Qed.

Lemma spike_at k e p i : (i < length p)%nat -> gx (spike k e p) i = gx p i /\ gy (spike k e p) i = if (i =? k)%nat then e else 0.
Proof.
  intros H. unfold gx at 1, gy, spike.
  rewrite (nth_indep _ (0, 0) ((fun i => (gx p i, if (i =? k)%nat then e else 0)) 0%nat)) by (rewrite map_length, seq_length; exact H).
  rewrite (map_nth (fun i => (gx p i, if (i =? k)%nat then e else 0)) (seq 0 (length p)) 0%nat i), seq_nth by exact H.
  simpl. split; reflexivity.
Qed.

Lemma moved_superposed k e p p' : moved k e p p' -> superposed 1 1 p (spike k e p) p'.
Proof.
  intros (L & A). split; [now symmetry |]. split; [now rewrite spike_length |].
  intros i Hi. rewrite L in Hi. destruct (spike_at k e p i Hi) as (-> & ->), (A i Hi) as (-> & ->).
  split; [reflexivity |]. split; [reflexivity |]. destruct (i =? k)%nat; lra.
Qed.

Lemma spike_inc k e p : increasing p -> increasing (spike k e p).
Proof.
  intros H i j Hij. rewrite spike_length in Hij. rewrite (proj1 (spike_at k e p i ltac:(lia))), (proj1 (spike_at k e p j ltac:(lia))).
  apply H. lia.
Qed.

(** A cubic with zero ends, from its second derivatives. *)
Lemma empty_cell p s i x : gx p i < gx p (i + 1) -> gx p i <= x <= gx p (i + 1) -> gy p i = 0 -> gy p (i + 1) = 0 ->
  let w := gx p (i + 1) - gx p i in
  (forall M, Rabs (s i) <= M -> Rabs (s (i + 1)%nat) <= M -> Rabs (q p s i x) <= w * w / 8 * M)
  /\ (s (i + 1)%nat = 0 -> Rabs (q p s i x) <= w * w / 12 * Rabs (s i)).
Proof.
  intros Hw Hx Y0 Y1 w. destruct (fraction _ _ x Hw Hx) as (d & Hd & Ed). fold w in Ed. assert (0 < w) as Pw by (unfold w; lra).
  assert (q p s i x = - (w * w * (d * (1 - d) * (2 - d) / 6 * s i + d * (1 - d) * (1 + d) / 6 * s (i + 1)%nat))) as ->.
  { unfold q, qa, qc. rewrite Y0, Y1, Ed. fold w. field. lra. }
  assert (0 <= d * (1 - d)) as P by (apply Rmult_le_pos; lra).
  assert (d * (1 - d) <= 1 / 4) as P4 by (pose proof (pow2_ge_0 (d - 1 / 2)); nra).
  assert (0 <= d * (1 - d) * (2 - d) / 6) as PA by (apply Rmult_le_pos; [apply Rmult_le_pos; lra | lra]).
  assert (0 <= d * (1 - d) * (1 + d) / 6) as PB by (apply Rmult_le_pos; [apply Rmult_le_pos; lra | lra]).
  assert (0 < w * w) as W2 by (apply Rmult_lt_0_compat; assumption).
  split.
  - intros M M0 M1. assert (0 <= M) as HM by (pose proof (Rabs_pos (s i)); lra).
    rewrite Rabs_Ropp, Rabs_mult, (Rabs_pos_eq (w * w)) by lra.
    replace (w * w / 8 * M) with (w * w * (M / 8)) by field. apply Rmult_le_compat_l; [lra |].
    eapply Rle_trans; [apply Rabs_triang |]. rewrite !Rabs_mult, (Rabs_pos_eq _ PA), (Rabs_pos_eq _ PB).
    apply Rle_trans with (d * (1 - d) * (2 - d) / 6 * M + d * (1 - d) * (1 + d) / 6 * M).
    + apply Rplus_le_compat; apply Rmult_le_compat_l; assumption.
    + replace (d * (1 - d) * (2 - d) / 6 * M + d * (1 - d) * (1 + d) / 6 * M) with (d * (1 - d) * (M / 2)) by field.
      apply Rle_trans with (1 / 4 * (M / 2)); [apply Rmult_le_compat_r; lra | lra].
  - intros Z. rewrite Z, Rmult_0_r, Rplus_0_r, Rabs_Ropp, !Rabs_mult, (Rabs_pos_eq w), (Rabs_pos_eq _ PA) by lra.
    replace (w * w / 12 * Rabs (s i)) with (w * w * (1 / 12 * Rabs (s i))) by field. apply Rmult_le_compat_l; [lra |].
    apply Rmult_le_compat_r; [apply Rabs_pos |].
    assert (d * (1 - d) * (2 - d) <= 1 / 4 * (2 - 0)) by (apply Rmult_le_compat; lra). lra.
Qed.

Lemma front_is p s j : (j < length p - 2)%nat -> front p s j = s j.
Proof. intros H. unfold front. destruct (Nat.ltb_spec j (length p - 2)); [reflexivity | lia]. Qed.

Section Spike.
Context (p : list (R * R)) (s : nat -> R) (k : nat) (e h : R).
Hypothesis Hinc : increasing p.
Hypothesis H4 : (4 <= length p)%nat.
Hypothesis Sv : solved p s.
Hypothesis Hw : wide h p.
Hypothesis Hy : forall i, (i < length p)%nat -> gy p i = if (i =? k)%nat then e else 0.
Hypothesis Hk : (k < length p)%nat.
Notation n := (length p).
Notation X := (gx p).
Notation gap_ i := (X i - X (i - 1)%nat).
Notation B := (6 * Rabs e / (h * h)).

Lemma gap_wide r : (1 <= r < n)%nat -> h <= gap_ r.
Proof. intros Hr. destruct Hw as (_ & W). specialize (W (r - 1)%nat ltac:(lia)). replace (r - 1 + 1)%nat with r in W by lia. exact W. Qed.

Lemma B_pos : 0 <= B.
Proof.
  destruct Hw as (P & _). apply Rmult_le_pos; [pose proof (Rabs_pos e); lra |].
  left. apply Rinv_0_lt_compat, Rmult_lt_0_compat; exact P.
Qed.

Lemma turn_far r : (1 <= r)%nat -> (r + 1 < n)%nat -> (r + 1 < k \/ k + 1 < r)%nat -> turn p r = 0.
Proof.
  intros H1 H2 F. unfold turn. rewrite !Hy by lia.
  destruct (Nat.eqb_spec (r + 1) k); [lia |]. destruct (Nat.eqb_spec r k); [lia |]. destruct (Nat.eqb_spec (r - 1) k); [lia |].
  unfold Rdiv. ring.
Qed.

Lemma B_of a : h <= a -> 6 * Rabs e / a <= B * a.
Proof.
  intros Ha. destruct Hw as (P & _). apply (Rmult_le_reg_r (a * (h * h))); [apply Rmult_lt_0_compat; [lra | now apply Rmult_lt_0_compat] |].
  replace (6 * Rabs e / a * (a * (h * h))) with (6 * Rabs e * (h * h)) by (field; lra).
  replace (B * a * (a * (h * h))) with (6 * Rabs e * (a * a)) by (field; lra).
  apply Rmult_le_compat_l; [pose proof (Rabs_pos e); lra |]. apply Rmult_le_compat; lra.
Qed.

Lemma turn_size r : (1 <= r)%nat -> (r + 1 < n)%nat -> Rabs (6 * turn p r) <= B * (gap_ r + gap_ (r + 1)).
Proof.
  intros H1 H2. pose proof (gap_wide r ltac:(lia)) as G1. pose proof (gap_wide (r + 1) ltac:(lia)) as G2.
  set (a := gap_ r) in *. set (b := gap_ (r + 1)) in *. destruct Hw as (P & _).
  assert (Rabs (turn p r) <= Rabs e / a + Rabs e / b) as T.
  { assert (forall c, h <= c -> 0 < / c) as Iv by (intros c Hc; apply Rinv_0_lt_compat; lra).
    pose proof (Iv a G1) as Ia. pose proof (Iv b G2) as Ib. pose proof (Rabs_pos e) as Pe.
    assert (0 <= Rabs e * / a) by (apply Rmult_le_pos; lra). assert (0 <= Rabs e * / b) by (apply Rmult_le_pos; lra).
    unfold turn. fold a. fold b. rewrite !Hy by lia. unfold Rdiv.
    destruct (Nat.eqb_spec (r + 1) k); [| destruct (Nat.eqb_spec r k); [| destruct (Nat.eqb_spec (r - 1) k)]].
    - destruct (Nat.eqb_spec r k); [lia |]. destruct (Nat.eqb_spec (r - 1) k); [lia |].
      replace ((e - 0) * / b - (0 - 0) * / a) with (e * / b) by ring. rewrite Rabs_mult, (Rabs_pos_eq (/ b)) by lra. lra.
    - destruct (Nat.eqb_spec (r - 1) k); [lia |].
      replace ((0 - e) * / b - (e - 0) * / a) with (- (e * (/ a + / b))) by ring.
      rewrite Rabs_Ropp, Rabs_mult, (Rabs_pos_eq (/ a + / b)) by lra. lra.
    - replace ((0 - 0) * / b - (0 - e) * / a) with (e * / a) by ring. rewrite Rabs_mult, (Rabs_pos_eq (/ a)) by lra. lra.
    - replace ((0 - 0) * / b - (0 - 0) * / a) with 0 by ring. rewrite Rabs_R0. lra. }
  rewrite Rabs_mult, (Rabs_pos_eq 6) by lra.
  pose proof (B_of a G1). pose proof (B_of b G2). lra.
Qed.

Lemma front_max j : (j <= n - 2)%nat -> Rabs (front p s j) <= B.
Proof. apply front_bound; try assumption; [apply B_pos |]. intros r Hr. apply turn_size; lia. Qed.

Lemma over_pow2 u v d : u <= v / 2 -> v <= B / 2 ^ d -> u <= B / 2 ^ S d.
Proof.
  intros Hu Hv. replace (B / 2 ^ S d) with (B / 2 ^ d / 2); [lra |]. simpl. field.
  split; [destruct Hw; lra | apply pow_nonzero; lra].
Qed.

Lemma fade_left d : forall j, (j + 1 + d = k)%nat -> Rabs (front p s j) <= B / 2 ^ d.
Proof.
  induction d as [| d IH]; intros j Hj.
  - replace (B / 2 ^ 0) with B by (simpl; field; destruct Hw; lra). apply front_max. lia.
  - apply (over_pow2 _ (Rabs (front p s (j + 1)))); [| apply IH; lia].
    apply (front_left p s Hinc H4 Sv k); [intros r Hr1 Hr2; apply turn_far; lia | lia | lia].
Qed.

Lemma fade_right d : forall j, (k + 1 + d = j)%nat -> (j <= n - 2)%nat -> Rabs (front p s j) <= B / 2 ^ d.
Proof.
  induction d as [| d IH]; intros j Hj Lj.
  - replace (B / 2 ^ 0) with B by (simpl; field; destruct Hw; lra). apply front_max. lia.
  - apply (over_pow2 _ (Rabs (front p s (j - 1)))); [| apply IH; lia].
    apply (front_right p s Hinc H4 Sv k) with (n - 2 - j)%nat; [intros r Hr1 Hr2; apply turn_far; lia | lia | lia].
Qed.

Lemma last_size : (gap_ (n - 2) + 2 * gap_ (n - 1)) * Rabs (s (n - 2)%nat) <= Rabs (6 * turn p (n - 2)) + gap_ (n - 2) * Rabs (s (n - 3)%nat).
Proof.
  destruct (last_row p s Hinc H4 Sv) as (c & Hc & E).
  pose proof (gap_wide (n - 2) ltac:(lia)) as G1. pose proof (gap_wide (n - 1) ltac:(lia)) as G2. destruct Hw as (P & _).
  set (a := gap_ (n - 2)) in *. set (b := gap_ (n - 1)) in *. apply abs_inv in Hc.
  assert (a * c <= a) as Ac by (rewrite <- (Rmult_1_r a) at 2; apply Rmult_le_compat_l; lra).
  apply Rle_trans with ((2 * (a + b) - a * c) * Rabs (s (n - 2)%nat)).
  - apply Rmult_le_compat_r; [apply Rabs_pos | lra].
  - rewrite <- (Rabs_pos_eq (2 * (a + b) - a * c)) at 1 by lra. rewrite <- Rabs_mult.
    replace ((2 * (a + b) - a * c) * s (n - 2)%nat) with (6 * turn p (n - 2) + - (a * s (n - 3)%nat)) by lra.
    eapply Rle_trans; [apply Rabs_triang |]. rewrite Rabs_Ropp, (Rabs_mult a), (Rabs_pos_eq a) by lra. lra.
Qed.

(** The value in a cell with [d] cells between it and the spike. *)
Lemma spike_value i d x : cells_between d i k -> (i + 1 < n)%nat -> X i <= x <= X (i + 1)%nat ->
  Rabs (q p s i x) <= ((X (i + 1)%nat - X i) / h) ^ 2 * Rabs e / 2 ^ d.
Proof.
  intros Cb Hi Hx. assert (X i < X (i + 1)%nat) as Gi by (apply Hinc; lia). pose proof Hw as (P & _).
  assert (0 < 2 ^ d) as P2 by (apply pow_lt; lra). pose proof (Rabs_pos e) as Pe. pose proof B_pos as PB.
  assert (gy p i = 0 /\ gy p (i + 1) = 0) as (Y0 & Y1).
  { rewrite !Hy by lia. unfold cells_between in Cb. destruct (Nat.eqb_spec i k); [lia |]. destruct (Nat.eqb_spec (i + 1) k); [lia |]. auto. }
  destruct (empty_cell p s i x Gi Hx Y0 Y1) as (V1 & V2). set (w := X (i + 1)%nat - X i) in *. assert (0 < w) as Pw by (unfold w; lra).
  assert (0 <= (w / h) ^ 2 * Rabs e / 2 ^ d) as Pos.
  { apply Rmult_le_pos; [apply Rmult_le_pos; [apply pow2_ge_0 | exact Pe] |]. left. now apply Rinv_0_lt_compat. }
  assert (Rabs (s i) <= B / 2 ^ d -> Rabs (s (i + 1)%nat) <= B / 2 ^ d -> Rabs (q p s i x) <= (w / h) ^ 2 * Rabs e / 2 ^ d) as Inner.
  { intros A1 A2. eapply Rle_trans; [apply (V1 _ A1 A2) |].
    replace (w * w / 8 * (B / 2 ^ d)) with (3 / 4 * ((w / h) ^ 2 * Rabs e / 2 ^ d)) by (field; split; lra). lra. }
  assert ((i + 2)%nat = n -> Rabs (s i) <= 2 * (B / 2 ^ d) -> Rabs (q p s i x) <= (w / h) ^ 2 * Rabs e / 2 ^ d) as Last.
  { intros En A. destruct Sv as (_ & Z & _). replace (n - 1)%nat with (i + 1)%nat in Z by lia.
    eapply Rle_trans; [apply (V2 Z) |]. apply Rle_trans with (w * w / 12 * (2 * (B / 2 ^ d))).
    - apply Rmult_le_compat_l; [apply Rmult_le_pos; [apply Rmult_le_pos |]; lra | exact A].
    - right. field. split; lra. }
  pose proof last_size as Ls. pose proof (gap_wide (n - 2) ltac:(lia)) as G1. pose proof (gap_wide (n - 1) ltac:(lia)) as G2.
  pose proof (Rabs_pos (s (n - 2)%nat)) as Ps.
  assert (B / 2 ^ S d = B / 2 ^ d / 2) as Half by (simpl; field; split; lra).
  assert (0 <= B / 2 ^ d) as PBd by (apply Rmult_le_pos; [exact PB | left; now apply Rinv_0_lt_compat]).
  destruct Cb as [Cl | Cr].
  - (* left of the spike *)
    pose proof (fade_left (S d) i ltac:(lia)) as F0. pose proof (fade_left d (i + 1)%nat ltac:(lia)) as F1.
    rewrite front_is in F0 by lia. rewrite Half in F0.
    destruct (Nat.lt_ge_cases (i + 1) (n - 2)) as [C | C].
    + rewrite front_is in F1 by lia. apply Inner; [lra | exact F1].
    + assert (i = n - 3 /\ k = n - 1 /\ d = 0)%nat as (Ei & Ek & Ed) by lia. apply Inner; [lra |].
      replace (i + 1)%nat with (n - 2)%nat by lia.
      assert (s (n - 3)%nat = 0) as Z3.
      { pose proof (front_left p s Hinc H4 Sv k (fun r Hr1 Hr2 => turn_far r ltac:(lia) ltac:(lia) ltac:(lia)) (n - 3)%nat ltac:(lia) ltac:(lia)) as Q.
        replace (n - 3 + 1)%nat with (n - 2)%nat in Q by lia. rewrite front_end, Rabs_R0 in Q by assumption.
        rewrite front_is in Q by lia. destruct (Req_dec (s (n - 3)%nat) 0) as [Z0 | N0]; [exact Z0 |]. apply Rabs_pos_lt in N0. lra. }
      rewrite Z3, Rabs_R0, Rmult_0_r, Rplus_0_r in Ls. pose proof (turn_size (n - 2) ltac:(lia) ltac:(lia)) as T.
      replace (n - 2 + 1)%nat with (n - 1)%nat in T by lia. rewrite Ed. simpl pow. unfold Rdiv. rewrite Rinv_1, Rmult_1_r.
      fold (B). apply (Rmult_le_reg_l (gap_ (n - 2) + 2 * gap_ (n - 1))); [lra |].
      eapply Rle_trans; [exact Ls |]. eapply Rle_trans; [exact T |]. rewrite (Rmult_comm B). apply Rmult_le_compat_r; [exact PB | lra].
  - (* right of the spike *)
    destruct (Nat.lt_ge_cases i (n - 2)) as [C | C].
    + pose proof (fade_right d i ltac:(lia) ltac:(lia)) as F0. rewrite front_is in F0 by lia.
      apply Inner; [exact F0 |]. destruct (Nat.lt_ge_cases (i + 1) (n - 2)) as [C' | C'].
      * pose proof (fade_right (S d) (i + 1)%nat ltac:(lia) ltac:(lia)) as F1. rewrite front_is in F1 by lia. rewrite Half in F1. lra.
      * replace (i + 1)%nat with (n - 2)%nat by lia. replace i with (n - 3)%nat in F0 by lia.
        rewrite (turn_far (n - 2)), Rmult_0_r, Rabs_R0, Rplus_0_l in Ls by lia.
        apply Rle_trans with (Rabs (s (n - 3)%nat)); [| exact F0].
        apply (Rmult_le_reg_l (gap_ (n - 2))); [lra |]. eapply Rle_trans; [| exact Ls]. apply Rmult_le_compat_r; [exact Ps | lra].
    + assert (i = n - 2)%nat as Ei by lia. apply Last; [lia |]. rewrite Ei.
      destruct d as [| d].
      * pose proof (front_max (n - 3) ltac:(lia)) as F. rewrite front_is in F by lia.
        pose proof (turn_size (n - 2) ltac:(lia) ltac:(lia)) as T. replace (n - 2 + 1)%nat with (n - 1)%nat in T by lia.
        replace (2 * (B / 2 ^ 0)) with (2 * B) by (simpl; field; lra).
        apply (Rmult_le_reg_l (gap_ (n - 2) + 2 * gap_ (n - 1))); [lra |].
        assert (gap_ (n - 2) * Rabs (s (n - 3)%nat) <= gap_ (n - 2) * B) by (apply Rmult_le_compat_l; lra).
        assert (0 <= B * gap_ (n - 1)) by (apply Rmult_le_pos; lra). lra.
      * pose proof (fade_right d (n - 3)%nat ltac:(lia) ltac:(lia)) as F. rewrite front_is in F by lia.
        rewrite (turn_far (n - 2)), Rmult_0_r, Rabs_R0, Rplus_0_l in Ls by lia.
        apply Rle_trans with (Rabs (s (n - 3)%nat)).
        -- apply (Rmult_le_reg_l (gap_ (n - 2))); [lra |]. eapply Rle_trans; [| exact Ls]. apply Rmult_le_compat_r; [exact Ps | lra].
        -- eapply Rle_trans; [exact F |]. right. simpl. field. split; [lra | apply pow_nonzero; lra].
Qed.

End Spike.

(** ** C113 *)

Lemma moved_range k e p p' x : moved k e p p' -> (1 <= length p)%nat -> in_range p x -> in_range p' x.
Proof.
  intros (L & A) H Hx. unfold in_range, last_of in *. rewrite L.
  rewrite (proj1 (A 0%nat ltac:(lia))), (proj1 (A (length p - 1)%nat ltac:(lia))). exact Hx.
Qed.

Lemma moved_inc k e p p' : moved k e p p' -> increasing p -> increasing p'.
Proof. intros (L & A) H i j Hij. rewrite (proj1 (A i ltac:(lia))), (proj1 (A j ltac:(lia))). apply H. lia. Qed.

(** The change of one ordinate is felt half as much in each further cell. *)
Theorem C113_natural_cubic : forall p p' k e h i d x, moved k e p p' -> increasing p -> (4 <= length p)%nat -> (k < length p)%nat ->
  wide h p -> cells_between d i k -> (i + 1 < length p)%nat -> gx p i <= x <= gx p (i + 1) ->
  exists v v', fit_eval (NaturalCubic RV) p x = Ret (Ok v) /\ fit_eval (NaturalCubic RV) p' x = Ret (Ok v')
    /\ Rabs (v' - v) <= ((gx p (i + 1) - gx p i) / h) ^ 2 * Rabs e / 2 ^ d.
Proof.
  intros p p' k e h i d x Mv H H4 Hk (Hh & Hw) Cb Hi Hx.
  pose proof (cell_in_range p i x H Hi Hx) as Hr. pose proof (moved_superposed k e p p' Mv) as Sp.
  destruct (C68_natural_cubic 1 1 p (spike k e p) p' x Sp) as (u & v & E1 & E2 & E3);
    [now apply (moved_inc k e p) | rewrite (proj1 Mv); lia | exact (moved_range k e p p' x Mv ltac:(lia) Hr) |].
  exists u, (1 * u + 1 * v). split; [exact E1 |]. split; [exact E3 |]. rewrite ((fun a b : R => ltac:(ring) : 1 * a + 1 * b - a = b) u v).
  pose proof (spike_inc k e p H) as Hs. pose proof (spike_length k e p) as Ls.
  destruct (nc_eval (spike k e p) Hs ltac:(lia)) as (ds & Ld & Sv & E).
  destruct (spike_at k e p i ltac:(lia)) as (X0 & _). destruct (spike_at k e p (i + 1) ltac:(lia)) as (X1 & _).
  rewrite E, (nc_closed (spike k e p) ds i x Ld Hs ltac:(lia)) in E2 by (rewrite X0, X1; exact Hx). injection E2 as <-.
  rewrite <- X0, <- X1. apply (spike_value (spike k e p) (second_of ds) k e h Hs); rewrite ?Ls; try assumption.
  - split; [exact Hh |]. intros j Hj. rewrite Ls in Hj.
    rewrite (proj1 (spike_at k e p j ltac:(lia))), (proj1 (spike_at k e p (j + 1) ltac:(lia))). apply Hw. lia.
  - intros j Hj. apply spike_at. exact Hj.
  - rewrite X0, X1. exact Hx.
Qed.
Print Assumptions C113_natural_cubic.

(** Up to the third point from the end the last point is not felt at all. *)
Theorem C113_last_point : forall p p' x, increasing p -> increasing p' -> (4 <= length p)%nat -> length p' = length p ->
  (forall i, (i + 1 < length p)%nat -> gx p' i = gx p i /\ gy p' i = gy p i) ->
  gx p 0 <= x <= gx p (length p - 3) ->
  exists v, fit_eval (NaturalCubic RV) p x = Ret (Ok v) /\ fit_eval (NaturalCubic RV) p' x = Ret (Ok v).
Proof.
  intros p p' x H H' H4 L A Hx. set (n := length p) in *.
  destruct (nc_eval p H ltac:(fold n; lia)) as (ds & Ld & Sv & E). destruct (nc_eval p' H' ltac:(lia)) as (ds' & Ld' & Sv' & E').
  assert (exists i, (i + 3 < n)%nat /\ gx p i <= x <= gx p (i + 1)) as (i & Hi & Ci).
  { assert (forall m, (m + 3 <= n)%nat -> (1 <= m)%nat -> x <= gx p m -> exists i, (i < m)%nat /\ gx p i <= x <= gx p (i + 1)) as Q.
    { induction m as [| m IH]; intros Hm H1 Hxm; [lia |]. destruct (Rle_lt_dec (gx p m) x) as [C | C].
      - exists m. replace (m + 1)%nat with (S m) by lia. split; [lia | lra].
      - destruct m as [| m]; [lra |]. destruct (IH ltac:(lia) ltac:(lia) ltac:(lra)) as (i & Hi & Ci). exists i. split; [lia | exact Ci]. }
    destruct (Q (n - 3)%nat ltac:(lia) ltac:(lia) (proj2 Hx)) as (i & Hi & Ci). exists i. split; [lia | exact Ci]. }
  set (D := fun j => front p (second_of ds) j - front p' (second_of ds') j).
  assert (forall r, (1 <= r)%nat -> (r <= n - 3)%nat ->
    (gx p r - gx p (r - 1)) * D (r - 1)%nat + 2 * (gx p r - gx p (r - 1) + (gx p (r + 1) - gx p (r + 1 - 1))) * D r
    + (gx p (r + 1) - gx p (r + 1 - 1)) * D (r + 1)%nat = 0) as Rows.
  { intros r R1 R2. pose proof (front_row p (second_of ds) H ltac:(fold n; lia) Sv r ltac:(fold n; lia)) as F.
    pose proof (front_row p' (second_of ds') H' ltac:(lia) Sv' r ltac:(lia)) as F'. unfold turn in F, F'.
    destruct (A (r - 1)%nat ltac:(lia)) as (-> & ->) in F'. destruct (A r ltac:(lia)) as (-> & ->) in F'.
    destruct (A (r + 1)%nat ltac:(lia)) as (Xn & Yn). destruct (A (r + 1 - 1)%nat ltac:(lia)) as (Xm & Ym).
    rewrite Xn, Yn, Xm in F'. unfold D. lra. }
  assert (forall j, (j + 1 <= n - 2)%nat -> Rabs (D j) <= Rabs (D (j + 1)%nat) / 2) as Hv.
  { induction j as [| j IH]; intros Hj.
    - unfold D at 1. rewrite !front_0 by assumption. rewrite Rminus_0_r, Rabs_R0. pose proof (Rabs_pos (D (0 + 1)%nat)). lra.
    - specialize (IH ltac:(lia)). pose proof (Rows (S j) ltac:(lia) ltac:(lia)) as Rw. replace (S j - 1)%nat with j in Rw by lia.
      replace (j + 1)%nat with (S j) in IH by lia. refine (halve _ _ _ _ _ _ _ Rw IH).
      + assert (gx p j < gx p (S j)) by (apply H; fold n; lia). lra.
      + assert (gx p (S j + 1 - 1) < gx p (S j + 1)) by (apply H; fold n; lia). lra. }
  assert (forall m j, (j + m = n - 2)%nat -> D j = 0) as Zero.
  { induction m as [| m IH]; intros j Hj.
    - unfold D. replace j with (length p - 2)%nat by (fold n; lia). rewrite front_end.
      replace (length p - 2)%nat with (length p' - 2)%nat by (fold n; lia). rewrite front_end. ring.
    - specialize (IH (j + 1)%nat ltac:(lia)). specialize (Hv j ltac:(lia)). rewrite IH, Rabs_R0 in Hv.
      destruct (Req_dec (D j) 0) as [Z0 | N0]; [exact Z0 |]. apply Rabs_pos_lt in N0. lra. }
  assert (forall j, (j + 2 < n)%nat -> second_of ds' j = second_of ds j) as Same.
  { intros j Hj. pose proof (Zero (n - 2 - j)%nat j ltac:(lia)) as Z. unfold D in Z. rewrite !front_is in Z by (fold n; lia). lra. }
  exists (q p (second_of ds) i x). split; [rewrite E; apply nc_closed; try assumption; fold n; lia |].
  destruct (A i ltac:(lia)) as (X0 & Y0), (A (i + 1)%nat ltac:(lia)) as (X1 & Y1).
  rewrite E', (nc_closed p' ds' i x Ld' H' ltac:(lia)) by (rewrite X0, X1; exact Ci). ret_eq.
  unfold q, qa, qc. rewrite X0, X1, Y0, Y1, !Same by lia. reflexivity.
Qed.
Print Assumptions C113_last_point.

(** Yields but for number [k], which is [e] higher. *)
Definition one_raised (k : nat) (e : R) (ys ys' : list R) : Prop :=
  length ys' = length ys
  /\ forall i y y', nth_error ys i = Some y -> nth_error ys' i = Some y' -> y' = if (i =? k)%nat then y + e else y.

Theorem C113_curve : forall D s ms (ys ys' : list R) k e h, D = act_360 RV \/ D = act_365 RV -> one_raised k e ys ys' ->
  length ms = length ys -> (4 <= length ms)%nat -> (k < length ms)%nat -> a_date s -> (forall m, In m ms -> a_date m) ->
  (forall i j mi mj, (i < j)%nat -> nth_error ms i = Some mi -> nth_error ms j = Some mj -> earlier mi mj) ->
  0 < h -> (forall i m m', nth_error ms i = Some m -> nth_error ms (i + 1) = Some m' -> exists w, D m m' = Ret (Ok w) /\ h <= w) ->
  exists c c', curve_new D (NaturalCubic RV) s ms ys = Ret (Ok c) /\ curve_new D (NaturalCubic RV) s ms ys' = Ret (Ok c')
    /\ forall i n m m' w d t, cells_between n i k -> nth_error ms i = Some m -> nth_error ms (i + 1) = Some m' -> D m m' = Ret (Ok w) ->
       a_date d -> ~ earlier d m -> ~ earlier m' d -> ~ earlier d s -> D s d = Ret (Ok t) ->
       exists v v', discount_factor D c s d = Ret (Ok v) /\ discount_factor D c' s d = Ret (Ok v')
         /\ Rabs (ln v' - ln v) <= t * ((w / h) ^ 2 * Rabs e / 2 ^ n).
Proof.
  intros D s ms ys ys' k e h HD (L & Rs) Hl H4 Hk As Am Om Hh Wd.
  destruct (C19_laws D HD) as (f & Hf & _ & Add & Mono & Zero).
  destruct (C42_actual_times D s ms ys HD Hl Am Om) as (t & Ht & Inc).
  assert (length ms = length ys') as Hl' by congruence.
  assert (forall d, t d = f s d) as Tf by (intros d; pose proof (eq_trans (eq_sym (Ht d)) (Hf s d)) as Q; now injection Q).
  assert (length (curve_points t ms ys) = length ms) as Lp by (apply curve_points_length; exact Hl).
  assert (length (curve_points t ms ys') = length ms) as Lp' by (apply curve_points_length; exact Hl').
  assert (moved k e (curve_points t ms ys) (curve_points t ms ys')) as Mv.
  { split; [congruence |]. intros i Hi. rewrite Lp in Hi.
    destruct (nth_error ms i) as [m |] eqn:Em; [| apply nth_error_None in Em; lia].
    destruct (nth_error ys i) as [y |] eqn:Ey; [| apply nth_error_None in Ey; lia].
    destruct (nth_error ys' i) as [y' |] eqn:Ey'; [| apply nth_error_None in Ey'; lia].
    destruct (curve_points_nth t ms ys i m y Hl Em Ey) as (_ & -> & ->).
    destruct (curve_points_nth t ms ys' i m y' Hl' Em Ey') as (_ & -> & ->). split; [reflexivity | now apply Rs]. }
  pose proof (moved_inc _ _ _ _ Mv Inc) as Inc'.
  assert (forall i m, nth_error ms i = Some m -> gx (curve_points t ms ys) i = f s m) as Gx.
  { intros i m Em. assert (i < length ms)%nat by (apply nth_error_Some; congruence).
    destruct (nth_error ys i) as [y |] eqn:Ey; [| apply nth_error_None in Ey; lia].
    destruct (curve_points_nth t ms ys i m y Hl Em Ey) as (_ & -> & _). apply Tf. }
  assert (forall m m' w, D m m' = Ret (Ok w) -> f s m' - f s m = w) as Wf.
  { intros m m' w E. rewrite (Add s m m'). pose proof (eq_trans (eq_sym E) (Hf m m')) as Q. injection Q as ->. ring. }
  assert (wide h (curve_points t ms ys)) as Hw.
  { split; [exact Hh |]. intros i Hi. rewrite Lp in Hi.
    destruct (nth_error ms i) as [m |] eqn:Em; [| apply nth_error_None in Em; lia].
    destruct (nth_error ms (i + 1)) as [m' |] eqn:Em'; [| apply nth_error_None in Em'; lia].
    destruct (Wd i m m' Em Em') as (w & Ew & Lw). rewrite (Gx i m Em), (Gx (i + 1)%nat m' Em'), (Wf m m' w Ew). exact Lw. }
  assert (interpolates (NaturalCubic RV) 3) as Hi by (right; right; split; reflexivity).
  destruct (built D (NaturalCubic RV) s ms ys t Hl (fun m _ => Ht m) (answers _ _ _ Hi Inc ltac:(lia))) as (c & Ec & Sc & Rc).
  destruct (built D (NaturalCubic RV) s ms ys' t Hl' (fun m _ => Ht m) (answers _ _ _ Hi Inc' ltac:(lia))) as (c' & Ec' & Sc' & Rc').
  exists c, c'. split; [exact Ec |]. split; [exact Ec' |].
  intros i n m m' w d td Cb Em Em' Ew Ad O1 O2 O3 Et.
  assert (td = f s d) as -> by (pose proof (eq_trans (eq_sym Et) (Hf s d)) as Q; now injection Q).
  assert (i + 1 < length ms)%nat as Li by (apply nth_error_Some; congruence).
  assert (a_date m /\ a_date m') as (Am1 & Am2) by (split; apply Am; eapply nth_error_In; eassumption).
  assert (gx (curve_points t ms ys) i <= f s d <= gx (curve_points t ms ys) (i + 1)) as Ci.
  { rewrite (Gx i m Em), (Gx (i + 1)%nat m' Em'). split; apply Rnot_lt_le; intros C; apply Mono in C; auto. }
  destruct (C113_natural_cubic _ _ k e h i n (f s d) Mv Inc ltac:(lia) ltac:(lia) Hw Cb ltac:(lia) Ci) as (y & y' & E & E' & Bd).
  rewrite (Gx i m Em), (Gx (i + 1)%nat m' Em'), (Wf m m' w Ew) in Bd. rewrite Rc in E. rewrite Rc' in E'.
  destruct (df_intro D (NaturalCubic RV) c s d (f s d) y) as (K & _); rewrite ?Sc; try assumption; [apply not_earlier_refl |].
  destruct (df_intro D (NaturalCubic RV) c' s d (f s d) y') as (K' & _); rewrite ?Sc'; try assumption; [apply not_earlier_refl |].
  exists (exp (- f s d * y)), (exp (- f s d * y')). split; [apply K; now rewrite Sc |]. split; [apply K'; now rewrite Sc' |].
  rewrite !ln_exp. replace (- f s d * y' - - f s d * y) with (- (f s d * (y' - y))) by ring.
  assert (0 <= f s d) as P.
  { assert (f s s = 0) as <- by (apply (proj2 (Zero s s As As)); reflexivity). apply Rnot_lt_le. intros Q. apply Mono in Q; auto. }
  rewrite Rabs_Ropp, Rabs_mult, (Rabs_pos_eq (f s d) P). apply Rmult_le_compat_l; assumption.
Qed.
Print Assumptions C113_curve.

(** Raising the second of seven ordinates changes the last cell by at most an eighth of the rise. *)
Example C113_case : exists p', moved 1 1 [(0, 1); (1, 3); (2, 2); (3, 5); (4, 0); (5, 1); (6, 1)] p'
  /\ wide 1 [(0, 1); (1, 3); (2, 2); (3, 5); (4, 0); (5, 1); (6, 1)] /\ cells_between 3 5 1
  /\ increasing [(0, 1); (1, 3); (2, 2); (3, 5); (4, 0); (5, 1); (6, 1)].
Proof.
  exists [(0, 1); (1, 4); (2, 2); (3, 5); (4, 0); (5, 1); (6, 1)]. split; [| split; [| split]].
  - split; [reflexivity |]. intros i Hi. simpl in Hi.
    destruct i as [| [| [| [| [| [| [| i]]]]]]]; [.. | lia]; unfold gx, gy; simpl; lra.
  - split; [lra |]. intros i Hi. simpl in Hi.
    destruct i as [| [| [| [| [| [| i]]]]]]; [.. | lia]; unfold gx; simpl; lra.
  - right. reflexivity.
  - intros i j H. simpl in H. destruct i as [| [| [| [| [| [| [| i]]]]]]], j as [| [| [| [| [| [| [| j]]]]]]]; try lia; unfold gx; simpl; lra.
Qed.
