(** C103: how close the interpolants are to the function the points were taken from. *)
From Coq Require Import ZArith Reals List Arith Lia Lra.
From Verif Require Import Base Value RealValue InterpModel InterpFacts Grid Piecewise PropsLinear PropsHermite PropsCatmullRom PropsNaturalCubic
  PropsStability TriFacts PropsTri NcFacts PropsNcStability.
Import ListNotations.
Open Scope R_scope.

(** ** Specification *)

(** The points lie on the graph of [f]. *)
Definition sampled (f : R -> R) (p : list (R * R)) : Prop := forall i, (i < length p)%nat -> gy p i = f (gx p i).

(** [f] changes by at most [L] per unit between [a] and [b]. *)
Definition lipschitz (L : R) (f : R -> R) (a b : R) : Prop :=
  forall u v, a <= u <= b -> a <= v <= b -> Rabs (f u - f v) <= L * Rabs (u - v).

(** The second derivative of [f] is at most [M] in size between [a] and [b]. *)
Definition bent (M : R) (f : R -> R) (a b : R) : Prop :=
  exists f1 f2, forall t, a <= t <= b -> derivable_pt_lim f t (f1 t) /\ derivable_pt_lim f1 t (f2 t) /\ Rabs (f2 t) <= M.

(** The points lie on the graph of [f], the slopes are its derivative, and its fourth derivative is at most [M] in size. *)
Definition h_sampled (M : R) (f : R -> R) (p : list (R * R * R)) : Prop :=
  exists f1 f2 f3 f4,
    (forall t, hx p 0 <= t <= hx p (h_last p) -> derivable_pt_lim f t (f1 t) /\ derivable_pt_lim f1 t (f2 t)
       /\ derivable_pt_lim f2 t (f3 t) /\ derivable_pt_lim f3 t (f4 t) /\ Rabs (f4 t) <= M)
    /\ forall i, (i < length p)%nat -> hy p i = f (hx p i) /\ hm p i = f1 (hx p i).

(** [n + 1] evenly spaced points of [f] between 0 and 1. *)
Definition even_grid (f : R -> R) (n : nat) : list (R * R) := map (fun i => (INR i / INR n, f (INR i / INR n))) (seq 0 (n + 1)).

(** ** Lemmas *)

Lemma rolle f f' a b : a < b -> (forall t, a <= t <= b -> derivable_pt_lim f t (f' t)) -> f a = f b -> exists c, a < c < b /\ f' c = 0.
Proof.
  intros H D E. destruct (MVT_cor2 f f' a b H D) as (c & Ec & Hc). exists c. split; [exact Hc |].
  assert (f' c * (b - a) = 0) as Z by lra. apply Rmult_integral in Z. destruct Z; lra.
Qed.

Lemma lim_eq f x l l' : derivable_pt_lim f x l -> l = l' -> derivable_pt_lim f x l'.
Proof. now intros H <-. Qed.

(** What is left of a function after a multiple of another has been taken off. *)
Lemma lim_less f g k x l m : derivable_pt_lim f x l -> derivable_pt_lim g x m ->
  derivable_pt_lim (fun t => f t - k * g t) x (l - k * m).
Proof. intros F G. apply (derivable_pt_lim_minus f (fun t => k * g t)); [exact F |]. now apply (derivable_pt_lim_scal g k). Qed.

Lemma lim_gap f g x l m : derivable_pt_lim f x l -> derivable_pt_lim g x m -> derivable_pt_lim (fun t => f t - g t) x (l - m).
Proof. intros F G. now apply (derivable_pt_lim_minus f g). Qed.

(** The error of the chord, as the second derivative somewhere. *)
Lemma chord_error f f1 f2 a b x : a < x < b ->
  (forall t, a <= t <= b -> derivable_pt_lim f t (f1 t) /\ derivable_pt_lim f1 t (f2 t)) ->
  exists c, a < c < b /\ f x - (f a + (f b - f a) / (b - a) * (x - a)) = f2 c / 2 * ((x - a) * (x - b)).
Proof.
  intros Hx D. set (m := (f b - f a) / (b - a)).
  set (e := fun t => f t - (0 * (t - a) ^ 3 + 0 * (t - a) ^ 2 + m * (t - a) + f a)).
  set (w := fun t => 0 * (t - a) ^ 3 + 1 * (t - a) ^ 2 + (a - b) * (t - a) + 0).
  set (w1 := fun t => 3 * 0 * (t - a) ^ 2 + 2 * 1 * (t - a) + (a - b)).
  set (k := e x / w x).
  assert (w x <> 0) as W.
  { unfold w. replace (0 * (x - a) ^ 3 + 1 * (x - a) ^ 2 + (a - b) * (x - a) + 0) with ((x - a) * (x - b)) by ring.
    apply Rmult_integral_contrapositive_currified; lra. }
  set (g := fun t => e t - k * w t). set (g1 := fun t => f1 t - (3 * 0 * (t - a) ^ 2 + 2 * 0 * (t - a) + m) - k * w1 t).
  set (g2 := fun t => f2 t - 0 - k * 2).
  assert (forall t, a <= t <= b -> derivable_pt_lim g t (g1 t)) as G1.
  { intros t Ht. unfold g, g1. apply lim_less; [| apply derive_cubic]. unfold e. apply lim_gap; [apply (D t Ht) | apply derive_cubic]. }
  assert (forall t, a <= t <= b -> derivable_pt_lim g1 t (g2 t)) as G2.
  { intros t Ht. unfold g1, g2. apply lim_less.
    - apply lim_gap; [apply (D t Ht) |]. apply (derive_as_cubic _ 0 0 0 m a); [intros y; ring | ring].
    - unfold w1. apply (derive_as_cubic _ 0 0 2 (a - b) a); [intros y; ring | ring]. }
  assert (g a = 0) as Za by (unfold g, e, w; ring).
  assert (g b = 0) as Zb by (unfold g, e, w, m; field; lra).
  assert (g x = 0) as Zx by (unfold g, k; field; exact W).
  destruct (rolle g g1 a x) as (c1 & H1 & E1); [lra | intros t Ht; apply G1; lra | lra |].
  destruct (rolle g g1 x b) as (c2 & H2 & E2); [lra | intros t Ht; apply G1; lra | lra |].
  destruct (rolle g1 g2 c1 c2) as (c & Hc & E); [lra | intros t Ht; apply G2; lra | lra |].
  exists c. split; [lra |]. unfold g2 in E. assert (k = f2 c / 2) as Ek by lra.
  transitivity (e x); [unfold e; ring |]. replace (e x) with (k * w x) by (unfold k; field; exact W). rewrite Ek. unfold w. ring.
Qed.

(** The error of the cubic with both values and both slopes, as the fourth derivative somewhere. *)
Lemma hermite_error f f1 f2 f3 f4 a b A B x : a < x < b ->
  (forall t, a <= t <= b -> derivable_pt_lim f t (f1 t) /\ derivable_pt_lim f1 t (f2 t)
     /\ derivable_pt_lim f2 t (f3 t) /\ derivable_pt_lim f3 t (f4 t)) ->
  let c t := A * (t - a) ^ 3 + B * (t - a) ^ 2 + f1 a * (t - a) + f a in
  c b = f b -> 3 * A * (b - a) ^ 2 + 2 * B * (b - a) + f1 a = f1 b ->
  exists z, a < z < b /\ f x - c x = f4 z / 24 * ((x - a) ^ 2 * (x - b) ^ 2).
Proof.
  intros Hx D c Cb Cb1. set (h := b - a).
  set (e := fun t => f t - c t).
  set (w := fun t => (t - a) ^ 2 * (t - b) ^ 2).
  set (w1 := fun t => 4 * (t - a) ^ 3 + (-6 * h) * (t - a) ^ 2 + 2 * h ^ 2 * (t - a) + 0).
  set (w2 := fun t => 3 * 4 * (t - a) ^ 2 + 2 * (-6 * h) * (t - a) + 2 * h ^ 2).
  set (w3 := fun t => 24 * (t - a) - 12 * h).
  set (k := e x / w x).
  assert (w x <> 0) as W.
  { unfold w. apply Rmult_integral_contrapositive_currified; apply pow_nonzero; lra. }
  assert (forall t, derivable_pt_lim w t (w1 t)) as Dw.
  { intros t. apply (derivable_pt_lim_ext (fun y => (0 * (y - a) ^ 3 + 1 * (y - a) ^ 2 + 0 * (y - a) + 0) * (0 * (y - b) ^ 3 + 1 * (y - b) ^ 2 + 0 * (y - b) + 0)) w).
    - intros y. unfold w. ring.
    - eapply lim_eq; [apply (derivable_pt_lim_mult (fun y => 0 * (y - a) ^ 3 + 1 * (y - a) ^ 2 + 0 * (y - a) + 0) (fun y => 0 * (y - b) ^ 3 + 1 * (y - b) ^ 2 + 0 * (y - b) + 0)); apply derive_cubic |].
      unfold w1, h. ring. }
  set (g := fun t => e t - k * w t).
  set (g1 := fun t => f1 t - (3 * A * (t - a) ^ 2 + 2 * B * (t - a) + f1 a) - k * w1 t).
  set (g2 := fun t => f2 t - (6 * A * (t - a) + 2 * B) - k * w2 t).
  set (g3 := fun t => f3 t - 6 * A - k * w3 t).
  set (g4 := fun t => f4 t - 0 - k * 24).
  assert (forall t, a <= t <= b -> derivable_pt_lim g t (g1 t)) as G1.
  { intros t Ht. unfold g, g1. apply lim_less; [| apply Dw]. unfold e. apply lim_gap; [apply (D t Ht) | apply derive_cubic]. }
  assert (forall t, a <= t <= b -> derivable_pt_lim g1 t (g2 t)) as G2.
  { intros t Ht. unfold g1, g2. apply lim_less.
    - apply lim_gap; [apply (D t Ht) |]. apply (derive_as_cubic _ 0 (3 * A) (2 * B) (f1 a) a); [intros y; ring | ring].
    - apply derive_cubic. }
  assert (forall t, a <= t <= b -> derivable_pt_lim g2 t (g3 t)) as G3.
  { intros t Ht. unfold g2, g3. apply lim_less.
    - apply lim_gap; [apply (D t Ht) |]. apply (derive_as_cubic _ 0 0 (6 * A) (2 * B) a); [intros y; ring | ring].
    - unfold w2, w3. apply (derive_as_cubic _ 0 12 (-12 * h) (2 * h ^ 2) a); [intros y; ring | ring]. }
  assert (forall t, a <= t <= b -> derivable_pt_lim g3 t (g4 t)) as G4.
  { intros t Ht. unfold g3, g4. apply lim_less.
    - apply lim_gap; [apply (D t Ht) |]. apply (derive_as_cubic _ 0 0 0 (6 * A) a); [intros y; ring | ring].
    - unfold w3. apply (derive_as_cubic _ 0 0 24 (-12 * h) a); [intros y; ring | ring]. }
  assert (g a = 0) as Za by (unfold g, e, w, c; ring).
  assert (g b = 0) as Zb by (unfold g, e, w; rewrite Cb; ring).
  assert (g x = 0) as Zx by (unfold g, k; field; exact W).
  assert (g1 a = 0) as Ya by (unfold g1, w1; ring).
  assert (g1 b = 0) as Yb by (unfold g1, w1; rewrite Cb1; unfold h; ring).
  destruct (rolle g g1 a x) as (p1 & P1 & E1); [lra | intros t Ht; apply G1; lra | lra |].
  destruct (rolle g g1 x b) as (p2 & P2 & E2); [lra | intros t Ht; apply G1; lra | lra |].
  destruct (rolle g1 g2 a p1) as (q1 & Q1 & F1); [lra | intros t Ht; apply G2; lra | lra |].
  destruct (rolle g1 g2 p1 p2) as (q2 & Q2 & F2); [lra | intros t Ht; apply G2; lra | lra |].
  destruct (rolle g1 g2 p2 b) as (q3 & Q3 & F3); [lra | intros t Ht; apply G2; lra | lra |].
  destruct (rolle g2 g3 q1 q2) as (r1 & R1 & I1); [lra | intros t Ht; apply G3; lra | lra |].
  destruct (rolle g2 g3 q2 q3) as (r2 & R2 & I2); [lra | intros t Ht; apply G3; lra | lra |].
  destruct (rolle g3 g4 r1 r2) as (z & Hz & E); [lra | intros t Ht; apply G4; lra | lra |].
  exists z. split; [lra |]. unfold g4 in E. assert (k = f4 z / 24) as Ek by lra.
  transitivity (e x); [unfold e; ring |]. replace (e x) with (k * w x) by (unfold k; field; exact W). rewrite Ek. unfold w. ring.
Qed.

Lemma parabola a b x : a <= x <= b -> 0 <= (x - a) * (b - x) <= (b - a) ^ 2 / 4.
Proof.
  intros H. split; [apply Rmult_le_pos; lra |]. pose proof (pow2_ge_0 (2 * x - a - b)). simpl in *. lra.
Qed.

Lemma chord_form p i x : chord p i x = gy p i + (gy p (i + 1) - gy p i) / (gx p (i + 1) - gx p i) * (x - gx p i).
Proof. unfold chord. unfold Rdiv. ring. Qed.

Lemma chord_bent M f a b x : a <= x <= b -> a < b -> bent M f a b ->
  Rabs (f a + (f b - f a) / (b - a) * (x - a) - f x) <= M / 2 * ((x - a) * (b - x)).
Proof.
  intros Hx Hab (f1 & f2 & D). assert (0 <= M) as PM by (destruct (D x Hx) as (_ & _ & B); pose proof (Rabs_pos (f2 x)); lra).
  destruct (Req_dec x a) as [-> | Na]; [| destruct (Req_dec x b) as [-> | Nb]].
  - replace (f a + (f b - f a) / (b - a) * (a - a) - f a) with 0 by ring. rewrite Rabs_R0. right. ring.
  - replace (f a + (f b - f a) / (b - a) * (b - a) - f b) with 0 by (field; lra). rewrite Rabs_R0. right. ring.
  - destruct (chord_error f f1 f2 a b x) as (c & Hc & E); [lra | intros t Ht; split; apply (D t Ht) |].
    rewrite Rabs_minus_sym, E. destruct (D c ltac:(lra)) as (_ & _ & B). pose proof (parabola a b x Hx) as P.
    replace (f2 c / 2 * ((x - a) * (x - b))) with (- (f2 c / 2 * ((x - a) * (b - x)))) by ring.
    rewrite Rabs_Ropp, Rabs_mult, (Rabs_pos_eq ((x - a) * (b - x))) by lra. apply Rmult_le_compat_r; [lra |].
    unfold Rdiv. rewrite Rabs_mult, (Rabs_pos_eq (/ 2)) by lra. lra.
Qed.

Lemma bent_within M f a b a' b' : a <= a' -> b' <= b -> bent M f a b -> bent M f a' b'.
Proof. intros Ha Hb (f1 & f2 & D). exists f1, f2. intros t Ht. apply D. lra. Qed.

Lemma lipschitz_within L f a b a' b' : a <= a' -> b' <= b -> lipschitz L f a b -> lipschitz L f a' b'.
Proof. intros Ha Hb D u v Hu Hv. apply D; lra. Qed.

Lemma chord_lipschitz L f a b x : a <= x <= b -> a < b -> lipschitz L f a b ->
  Rabs (f a + (f b - f a) / (b - a) * (x - a) - f x) <= 2 * L / (b - a) * ((x - a) * (b - x)).
Proof.
  intros Hx Hab D. pose proof (D a x ltac:(lra) ltac:(lra)) as A. pose proof (D b x ltac:(lra) ltac:(lra)) as B.
  rewrite (Rabs_left1 (a - x)) in A by lra. rewrite (Rabs_pos_eq (b - x)) in B by lra.
  set (t := (x - a) / (b - a)). assert (0 <= t <= 1) as Ht.
  { unfold t. split; [apply div_ge0; lra |]. apply Rmult_le_reg_r with (b - a); [lra |]. unfold Rdiv. rewrite Rmult_assoc, Rinv_l; lra. }
  replace (f a + (f b - f a) / (b - a) * (x - a) - f x) with ((1 - t) * (f a - f x) + t * (f b - f x)) by (unfold t; field; lra).
  replace (2 * L / (b - a) * ((x - a) * (b - x))) with ((1 - t) * (L * - (a - x)) + t * (L * (b - x))) by (unfold t; field; lra).
  eapply Rle_trans; [apply Rabs_triang |]. rewrite !Rabs_mult, (Rabs_pos_eq (1 - t)), (Rabs_pos_eq t) by lra.
  apply Rplus_le_compat; apply Rmult_le_compat_l; lra.
Qed.

Lemma lipschitz_pos L f a b : a < b -> lipschitz L f a b -> 0 <= L.
Proof.
  intros H D. pose proof (D b a ltac:(lra) ltac:(lra)) as E. rewrite (Rabs_pos_eq (b - a)) in E by lra.
  pose proof (Rabs_pos (f b - f a)). apply Rmult_le_reg_r with (b - a); lra.
Qed.

(** The knots around a cell are in range. *)
Lemma knots_range p i : increasing p -> (i < length p)%nat -> gx p 0 <= gx p i <= gx p (last_of p).
Proof. intros H Hi. split; apply (increasing_sorted p H); unfold last_of; lia. Qed.

(** ** C103 *)

(** Linear: half the cell width times the steepest change. *)
Theorem C103_linear_lipschitz : forall L f p i x, increasing p -> (i + 1 < length p)%nat -> sampled f p ->
  lipschitz L f (gx p i) (gx p (i + 1)) -> gx p i <= x <= gx p (i + 1) ->
  exists v, fit_eval (Linear RV) p x = Ret (Ok v) /\ Rabs (v - f x) <= L * (gx p (i + 1) - gx p i) / 2.
Proof.
  intros L f p i x H Hi Sf D Hx. exists (chord p i x). split; [now apply linear_closed |].
  assert (gx p i < gx p (i + 1)) as Lt by (apply H; lia). rewrite chord_form, !Sf by lia.
  eapply Rle_trans; [apply chord_lipschitz; [exact Hx | exact Lt | exact D] |].
  pose proof (parabola _ _ _ Hx) as P. pose proof (lipschitz_pos _ _ _ _ Lt D) as PL.
  set (w := gx p (i + 1) - gx p i) in *. assert (0 < w) as Pw by (unfold w; lra).
  apply Rle_trans with (2 * L / w * (w ^ 2 / 4)); [| right; field; lra].
  apply Rmult_le_compat_l; [apply div_ge0; lra | lra].
Qed.
Print Assumptions C103_linear_lipschitz.

(** Linear: an eighth of the squared cell width times the largest second derivative. *)
Theorem C103_linear_smooth : forall M f p i x, increasing p -> (i + 1 < length p)%nat -> sampled f p ->
  bent M f (gx p i) (gx p (i + 1)) -> gx p i <= x <= gx p (i + 1) ->
  exists v, fit_eval (Linear RV) p x = Ret (Ok v) /\ Rabs (v - f x) <= M * (gx p (i + 1) - gx p i) ^ 2 / 8.
Proof.
  intros M f p i x H Hi Sf D Hx. exists (chord p i x). split; [now apply linear_closed |].
  assert (gx p i < gx p (i + 1)) as Lt by (apply H; lia). rewrite chord_form, !Sf by lia.
  eapply Rle_trans; [apply chord_bent; [exact Hx | exact Lt | exact D] |].
  pose proof (parabola _ _ _ Hx) as P.
  assert (0 <= M) as PM by (destruct D as (f1 & f2 & D); destruct (D x Hx) as (_ & _ & B); pose proof (Rabs_pos (f2 x)); lra).
  apply Rle_trans with (M / 2 * ((gx p (i + 1) - gx p i) ^ 2 / 4)); [apply Rmult_le_compat_l; lra | right; field].
Qed.
Print Assumptions C103_linear_smooth.

(** Hermite: the fourth power of the cell width times the largest fourth derivative, over 384. *)
Theorem C103_hermite : forall M f p i x, h_increasing p -> (i + 1 < length p)%nat -> h_sampled M f p -> hx p i <= x <= hx p (i + 1) ->
  exists v, hermite_eval (V := RV) p x = Ret (Ok v) /\ Rabs (v - f x) <= M * (hx p (i + 1) - hx p i) ^ 4 / 384.
Proof.
  intros M f p i x H Hi (f1 & f2 & f3 & f4 & D & Sf) Hx. exists (hpiece p i x). split; [now apply hermite_closed |].
  assert (hx p i < hx p (i + 1)) as Lt by (apply H; lia).
  assert (forall k, (k < length p)%nat -> hx p 0 <= hx p k <= hx p (h_last p)) as In.
  { intros k Hk. unfold h_last. split.
    - destruct (Nat.eq_dec k 0) as [-> | N]; [lra |]. left. apply H. lia.
    - destruct (Nat.eq_dec k (length p - 1)) as [-> | N]; [lra |]. left. apply H. lia. }
  pose proof (In i ltac:(lia)) as I0. pose proof (In (i + 1)%nat Hi) as I1.
  set (a := hx p i) in *. set (b := hx p (i + 1)) in *.
  assert (0 <= M) as PM by (destruct (D x ltac:(lra)) as (_ & _ & _ & _ & B); pose proof (Rabs_pos (f4 x)); lra).
  assert (0 <= M * (b - a) ^ 4 / 384) as PB.
  { assert (0 <= M * (b - a) ^ 4) by (apply Rmult_le_pos; [exact PM | apply pow_le; lra]). lra. }
  destruct (hpiece_right p i Lt) as (Er & Er'). destruct (hpiece_left p i) as (El & _).
  destruct (Sf i ltac:(lia)) as (Y0 & M0), (Sf (i + 1)%nat Hi) as (Y1 & M1). fold a in Y0, M0, El. fold b in Y1, M1, Er, Er'.
  destruct (Req_dec x a) as [-> | Na]; [| destruct (Req_dec x b) as [-> | Nb]].
  - rewrite El, Y0, Rminus_diag_eq, Rabs_R0 by reflexivity. exact PB.
  - rewrite Er, Y1, Rminus_diag_eq, Rabs_R0 by reflexivity. exact PB.
  - destruct (hermite_error f f1 f2 f3 f4 a b (hA p i) (hB p i) x) as (z & Hz & E); [lra | | | |].
    + intros t Ht. destruct (D t ltac:(lra)) as (D1 & D2 & D3 & D4 & _). auto.
    + unfold hpiece in Er. fold a in Er. rewrite M0, Y0, Y1 in Er. exact Er.
    + unfold hpiece' in Er'. fold a in Er'. rewrite M0, M1 in Er'. exact Er'.
    + cbv beta in E. unfold hpiece. fold a. rewrite M0, Y0, Rabs_minus_sym, E. destruct (D z ltac:(lra)) as (_ & _ & _ & _ & B).
      pose proof (parabola a b x Hx) as P.
      replace (f4 z / 24 * ((x - a) ^ 2 * (x - b) ^ 2)) with (f4 z / 24 * ((x - a) * (b - x)) ^ 2) by ring.
      rewrite Rabs_mult, (Rabs_pos_eq (((x - a) * (b - x)) ^ 2)) by apply pow2_ge_0.
      apply Rle_trans with (M / 24 * ((b - a) ^ 2 / 4) ^ 2); [| right; field].
      apply Rmult_le_compat; [apply Rabs_pos | apply pow2_ge_0 | | apply pow_incr; lra].
      unfold Rdiv. rewrite Rabs_mult, (Rabs_pos_eq (/ 24)) by lra. lra.
Qed.
Print Assumptions C103_hermite.

(** Catmull-Rom up to the last knot but one: [14/5] times the widest of the neighbouring cells times the steepest change. *)
Theorem C103_catmull_rom : forall L w f p i x, increasing p -> (i + 2 < length p)%nat -> sampled f p ->
  lipschitz L f (gx p 0) (gx p (last_of p)) ->
  (forall j, (i <= j + 1 /\ j <= i + 1)%nat -> gx p (j + 1) - gx p j <= w) -> gx p i <= x <= gx p (i + 1) ->
  exists v, fit_eval (CatmullRom RV) p x = Ret (Ok v) /\ Rabs (v - f x) <= 14 / 5 * (L * w).
Proof.
  intros L w f p i x H Hi Sf D Hw Hx.
  pose proof (knots_range p i H ltac:(lia)) as K0. pose proof (knots_range p (i + 1) H ltac:(lia)) as K1.
  assert (gx p 0 < gx p (last_of p)) as Lt by (apply H; unfold last_of; lia).
  pose proof (lipschitz_pos _ _ _ _ Lt D) as PL.
  destruct (C92_catmull_rom_inner p i x (f x - 2 * (L * w)) (f x + 2 * (L * w)) H Hi Hx) as (v & E & B).
  - intros j Hj. rewrite Sf by lia. pose proof (knots_range p j H ltac:(lia)) as Kj.
    pose proof (D (gx p j) x Kj ltac:(lra)) as B.
    assert (Rabs (gx p j - x) <= 2 * w) as W.
    { apply Rabs_le. pose proof (Hw i ltac:(lia)) as W1. pose proof (Hw (i + 1)%nat ltac:(lia)) as W2.
      replace (i + 1 + 1)%nat with (i + 2)%nat in W2 by lia.
      assert (gx p (i + 1) < gx p (i + 2)) as L2 by (apply H; lia).
      assert (j + 1 = i \/ j = i \/ j = i + 1 \/ j = i + 2)%nat as [Ej | [-> | [-> | ->]]] by lia; try lra.
      pose proof (Hw j ltac:(lia)) as W0. rewrite Ej in W0.
      assert (gx p j < gx p i) by (apply H; lia). lra. }
    apply (Rmult_le_compat_l L _ _ PL) in W. assert (Rabs (f (gx p j) - f x) <= 2 * (L * w)) as B' by lra.
    apply abs_inv in B'. lra.
  - exists v. split; [exact E |]. apply Rabs_le. lra.
Qed.
Print Assumptions C103_catmull_rom.

Lemma even_length f n : length (even_grid f n) = (n + 1)%nat.
Proof. unfold even_grid. now rewrite map_length, seq_length. Qed.

Lemma even_nth f n i : (i <= n)%nat -> gx (even_grid f n) i = INR i / INR n /\ gy (even_grid f n) i = f (INR i / INR n).
Proof.
  intros Hi. unfold gx, gy, even_grid. set (F := fun i => (INR i / INR n, f (INR i / INR n))).
  rewrite (nth_indep _ (0, 0) (F 0%nat)) by (rewrite map_length, seq_length; lia).
  rewrite map_nth, seq_nth by lia. split; reflexivity.
Qed.

Lemma even_increasing f n : (0 < n)%nat -> increasing (even_grid f n).
Proof.
  intros Hn i j Hij. rewrite even_length in Hij. rewrite (proj1 (even_nth f n i ltac:(lia))), (proj1 (even_nth f n j ltac:(lia))).
  apply Rmult_lt_compat_r; [apply Rinv_0_lt_compat, lt_0_INR; lia | apply lt_INR; lia].
Qed.

Lemma even_sampled f n : sampled f (even_grid f n).
Proof. intros i Hi. rewrite even_length in Hi. destruct (even_nth f n i ltac:(lia)) as (-> & ->). reflexivity. Qed.

(** That bound is of the right order: on evenly spaced points of the identity the error is [4/81] of the width. *)
Theorem C103_catmull_rom_order : forall n, (3 <= n)%nat ->
  increasing (even_grid (fun t => t) n) /\ sampled (fun t => t) (even_grid (fun t => t) n)
  /\ exists x v, 0 <= x <= 1 /\ fit_eval (CatmullRom RV) (even_grid (fun t => t) n) x = Ret (Ok v) /\ x - v = 4 / 81 * (1 / INR n).
Proof.
  intros n Hn. split; [apply even_increasing; lia |]. split; [apply even_sampled |].
  assert (3 <= INR n) as Pn by (apply le_INR in Hn; simpl in Hn; lra). set (p := even_grid (fun t => t) n).
  assert (increasing p) as H by (apply even_increasing; lia).
  assert (length p = n + 1)%nat as Lp by apply even_length.
  assert (gx p 0 = 0) as X0 by (unfold p; rewrite (proj1 (even_nth _ n 0 ltac:(lia))); simpl; field; lra).
  assert (gx p 1 = 1 / INR n) as X1 by (unfold p; rewrite (proj1 (even_nth _ n 1 ltac:(lia))); simpl; field; lra).
  assert (gx p 2 = 2 / INR n) as X2 by (unfold p; rewrite (proj1 (even_nth _ n 2 ltac:(lia))); simpl; field; lra).
  assert (on_line 1 0 p) as On.
  { intros i Hi. rewrite Lp in Hi. unfold p. destruct (even_nth (fun t => t) n i ltac:(lia)) as (-> & ->). ring. }
  assert (0 < 1 / INR n <= 1 / 3) as Pw.
  { split; [apply Rdiv_lt_0_compat; lra |]. apply Rmult_le_compat_l; [lra |]. apply Rinv_le_contravar; lra. }
  assert (gx p 1 <= 4 / 3 * (1 / INR n) <= gx p 2) as Hx by (rewrite X1, X2; unfold Rdiv in *; lra).
  exists (4 / 3 * (1 / INR n)). eexists. split; [lra |]. split.
  - exact (C31_inner_cell_deviation p 1 0 1 _ H On ltac:(lia) ltac:(lia) Hx).
  - cbn [Nat.add Nat.sub]. rewrite X0, X1, X2. field. lra.
Qed.
Print Assumptions C103_catmull_rom_order.

(** In the last cell there is no convergence: however many evenly spaced points of the constant 1 are fitted, the value at 1 is [4/3]. *)
Theorem C103_last_cell_refuted : exists f : R -> R, lipschitz 0 f 0 1 /\ forall n, (2 <= n)%nat ->
  increasing (even_grid f n) /\ sampled f (even_grid f n)
  /\ exists v, fit_eval (CatmullRom RV) (even_grid f n) 1 = Ret (Ok v) /\ Rabs (v - f 1) = 1 / 3.
Proof.
  exists (fun _ => 1). split; [intros u v _ _; rewrite Rminus_diag_eq, Rabs_R0 by reflexivity; lra |].
  intros n Hn. split; [apply even_increasing; lia |]. split; [apply even_sampled |].
  set (p := even_grid (fun _ => 1) n). assert (increasing p) as H by (apply even_increasing; lia).
  assert (length p = n + 1)%nat as Lp by apply even_length. assert (0 < INR n) as Pn by (apply lt_0_INR; lia).
  destruct (C30_last_knot p H ltac:(lia)) as (E & _). unfold last_of in E. rewrite Lp in E.
  replace (n + 1 - 1)%nat with n in E by lia. unfold p in E.
  rewrite (proj1 (even_nth _ n n ltac:(lia))), (proj1 (even_nth _ n (n - 1) ltac:(lia))), (proj1 (even_nth _ n (n - 2) ltac:(lia))),
    (proj2 (even_nth _ n n ltac:(lia))), !minus_INR in E by lia.
  replace (INR n / INR n) with 1 in E by (field; lra). eexists. split; [exact E |].
  simpl (INR 1). simpl (INR 2). replace (_ - 1) with (1 / 3) by (field; lra). apply Rabs_pos_eq. lra.
Qed.
Print Assumptions C103_last_cell_refuted.

(** The cubic part of a cell of the spline. *)
Lemma nc_bulge S p s i x : gx p i < gx p (i + 1) -> gx p i <= x <= gx p (i + 1) -> Rabs (s i) <= S -> Rabs (s (i + 1)%nat) <= S ->
  Rabs (q p s i x - chord p i x) <= S / 2 * ((x - gx p i) * (gx p (i + 1) - x)).
Proof.
  intros Lt Ci B0 B1. destruct (fraction _ _ x Lt Ci) as (d & Hd & Ed).
  rewrite (q_fraction p s i x d Lt Ed), chord_form. set (w := gx p (i + 1) - gx p i) in *.
  replace (gx p (i + 1) - x) with ((1 - d) * w) by (unfold w in *; lra). rewrite Ed.
  replace (gy p i + (gy p (i + 1) - gy p i) / w * (d * w)) with ((1 - d) * gy p i + d * gy p (i + 1)) by (field; unfold w; lra).
  match goal with |- Rabs (?A - ?B - ?A) <= _ => replace (A - B - A) with (- B) by ring end. rewrite Rabs_Ropp.
  pose proof (quarter d Hd) as Qd. assert (0 <= w ^ 2 / 6 * (d * (1 - d))) as P by (apply Rmult_le_pos; [pose proof (pow2_ge_0 w); lra | lra]).
  rewrite Rabs_mult, (Rabs_pos_eq (w ^ 2 / 6 * (d * (1 - d)))) by exact P.
  replace (S / 2 * (d * w * ((1 - d) * w))) with (w ^ 2 / 6 * (d * (1 - d)) * (3 * S)) by (field).
  apply Rmult_le_compat_l; [exact P |]. apply abs_inv in B0, B1. apply Rabs_le. split; nra.
Qed.

(** The change of slope over two cells. *)
Lemma bend_bent M f a m b : a < m < b -> bent M f a b -> Rabs ((f b - f m) / (b - m) - (f m - f a) / (m - a)) <= M / 2 * ((m - a) + (b - m)).
Proof.
  intros H D. pose proof (chord_bent M f a b m ltac:(lra) ltac:(lra) D) as B.
  replace ((f b - f m) / (b - m) - (f m - f a) / (m - a))
    with ((b - a) / ((m - a) * (b - m)) * (f a + (f b - f a) / (b - a) * (m - a) - f m)) by (field; lra).
  assert (0 < (m - a) * (b - m)) as P by (apply Rmult_lt_0_compat; lra).
  assert (0 < (b - a) / ((m - a) * (b - m))) as P' by (apply Rdiv_lt_0_compat; lra).
  rewrite Rabs_mult, Rabs_pos_eq by lra.
  apply Rle_trans with ((b - a) / ((m - a) * (b - m)) * (M / 2 * ((m - a) * (b - m)))); [apply Rmult_le_compat_l; lra | right; field; lra].
Qed.

(** Natural cubic from four points on: [7/8] of the squared cell width times the largest second derivative, on any grid. *)
Theorem C103_natural_cubic_smooth : forall M f p i x, increasing p -> (4 <= length p)%nat -> (i + 1 < length p)%nat -> sampled f p ->
  bent M f (gx p 0) (gx p (last_of p)) -> gx p i <= x <= gx p (i + 1) ->
  exists v, fit_eval (NaturalCubic RV) p x = Ret (Ok v) /\ Rabs (v - f x) <= 7 / 8 * (M * (gx p (i + 1) - gx p i) ^ 2).
Proof.
  intros M f p i x H Hn Hi Sf D Hx. destruct (nc_eval p H ltac:(lia)) as (ds & Ld & Sv & E).
  rewrite E, (nc_closed p ds i x Ld H Hi Hx). set (s := second_of ds) in *. eexists. split; [reflexivity |].
  pose proof (knots_range p i H ltac:(lia)) as K0. pose proof (knots_range p (i + 1) H ltac:(lia)) as K1.
  assert (0 <= M) as PM by (destruct D as (f1 & f2 & D); destruct (D x ltac:(lra)) as (_ & _ & B); pose proof (Rabs_pos (f2 x)); lra).
  assert (forall j, (j < length p)%nat -> Rabs (s j) <= 24 * (M / 4)) as Bs.
  { apply (bounded_seconds (M / 4) p s H Hn Sv ltac:(lra)). intros j Hj. rewrite !Sf by lia.
    replace (2 * (M / 4)) with (M / 2) by field. apply bend_bent; [split; apply H; lia |].
    pose proof (knots_range p j H ltac:(lia)) as Kj. pose proof (knots_range p (j + 2) H ltac:(lia)) as Kj2.
    apply (bent_within M f (gx p 0) (gx p (last_of p))); [lra | lra | exact D]. }
  assert (gx p i < gx p (i + 1)) as Lt by (apply H; lia).
  pose proof (nc_bulge (24 * (M / 4)) p s i x Lt Hx (Bs i ltac:(lia)) (Bs (i + 1)%nat Hi)) as B1.
  assert (Rabs (chord p i x - f x) <= M / 2 * ((x - gx p i) * (gx p (i + 1) - x))) as B2.
  { rewrite chord_form, !Sf by lia. apply chord_bent; [exact Hx | exact Lt |].
    apply (bent_within M f (gx p 0) (gx p (last_of p))); [lra | lra | exact D]. }
  pose proof (parabola _ _ _ Hx) as P. set (z := (x - gx p i) * (gx p (i + 1) - x)) in *. set (w := gx p (i + 1) - gx p i) in *.
  assert (M * z <= M * (w ^ 2 / 4)) as Bz by (apply Rmult_le_compat_l; lra).
  replace (q p s i x - f x) with ((q p s i x - chord p i x) + (chord p i x - f x)) by ring.
  eapply Rle_trans; [apply Rabs_triang |]. lra.
Qed.
Print Assumptions C103_natural_cubic_smooth.

(** And for functions of bounded change: [1/2 + 3/2 w/h] times the change over a cell, [w] its width, [h] the smallest width. *)
Theorem C103_natural_cubic_lipschitz : forall L h f p i x, increasing p -> (4 <= length p)%nat -> (i + 1 < length p)%nat -> sampled f p ->
  lipschitz L f (gx p 0) (gx p (last_of p)) -> 0 < h -> (forall j, (j + 1 < length p)%nat -> h <= gx p (j + 1) - gx p j) ->
  gx p i <= x <= gx p (i + 1) ->
  let w := gx p (i + 1) - gx p i in
  exists v, fit_eval (NaturalCubic RV) p x = Ret (Ok v) /\ Rabs (v - f x) <= (1 / 2 + 3 / 2 * (w / h)) * (L * w).
Proof.
  intros L h f p i x H Hn Hi Sf D Hh Hs Hx w. destruct (nc_eval p H ltac:(lia)) as (ds & Ld & Sv & E).
  rewrite E, (nc_closed p ds i x Ld H Hi Hx). set (s := second_of ds) in *. eexists. split; [reflexivity |].
  pose proof (knots_range p i H ltac:(lia)) as K0. pose proof (knots_range p (i + 1) H ltac:(lia)) as K1.
  assert (gx p i < gx p (i + 1)) as Lt by (apply H; lia).
  pose proof (lipschitz_pos L f (gx p 0) (gx p (last_of p)) ltac:(lra) D) as PL.
  assert (forall u v, gx p 0 <= u <= gx p (last_of p) -> gx p 0 <= v <= gx p (last_of p) -> u < v -> Rabs ((f v - f u) / (v - u)) <= L) as Sl.
  { intros u v Hu Hv Huv. eapply Rle_trans; [apply (div_abs _ (L * (v - u))); [lra |] |].
    - pose proof (D v u Hv Hu) as Q. now rewrite (Rabs_pos_eq (v - u)) in Q by lra.
    - right. field. lra. }
  assert (0 <= L / (2 * h)) as Pe by (apply div_ge0; lra).
  assert (forall j, (j < length p)%nat -> Rabs (s j) <= 24 * (L / (2 * h))) as Bs.
  { apply (bounded_seconds (L / (2 * h)) p s H Hn Sv Pe). intros j Hj. rewrite !Sf by lia.
    pose proof (Hs j ltac:(lia)) as G1. pose proof (Hs (j + 1)%nat ltac:(lia)) as G2. replace (j + 1 + 1)%nat with (j + 2)%nat in G2 by lia.
    pose proof (Sl (gx p j) (gx p (j + 1)) (knots_range p j H ltac:(lia)) (knots_range p (j + 1) H ltac:(lia)) ltac:(lra)) as S1.
    pose proof (Sl (gx p (j + 1)) (gx p (j + 2)) (knots_range p (j + 1) H ltac:(lia)) (knots_range p (j + 2) H ltac:(lia)) ltac:(lra)) as S2.
    apply Rle_trans with (2 * (L / (2 * h)) * (2 * h)).
    - replace (2 * (L / (2 * h)) * (2 * h)) with (2 * L) by (field; lra). apply abs_inv in S1, S2. apply Rabs_le. lra.
    - apply Rmult_le_compat_l; lra. }
  pose proof (nc_bulge _ p s i x Lt Hx (Bs i ltac:(lia)) (Bs (i + 1)%nat Hi)) as B1.
  assert (Rabs (chord p i x - f x) <= 2 * L / w * ((x - gx p i) * (gx p (i + 1) - x))) as B2.
  { rewrite chord_form, !Sf by lia. apply chord_lipschitz; [exact Hx | exact Lt |].
    apply (lipschitz_within L f (gx p 0) (gx p (last_of p))); [lra | lra | exact D]. }
  pose proof (parabola _ _ _ Hx) as P. set (z := (x - gx p i) * (gx p (i + 1) - x)) in *. fold w in P. assert (0 < w) as Pw by (unfold w; lra).
  assert (24 * (L / (2 * h)) / 2 * z <= 24 * (L / (2 * h)) / 2 * (w ^ 2 / 4)) as Bz1 by (apply Rmult_le_compat_l; lra).
  assert (2 * L / w * z <= 2 * L / w * (w ^ 2 / 4)) as Bz2 by (apply Rmult_le_compat_l; [apply div_ge0; lra | lra]).
  replace (q p s i x - f x) with ((q p s i x - chord p i x) + (chord p i x - f x)) by ring.
  eapply Rle_trans; [apply Rabs_triang |].
  replace ((1 / 2 + 3 / 2 * (w / h)) * (L * w)) with (24 * (L / (2 * h)) / 2 * (w ^ 2 / 4) + 2 * L / w * (w ^ 2 / 4)) by (field; lra). lra.
Qed.
Print Assumptions C103_natural_cubic_lipschitz.

(** Three points are different: on the constant 1 the value in the middle of the first cell is [35/32] whatever the width. *)
Theorem C103_three_points_refuted : exists f : R -> R, (forall a b, bent 0 f a b) /\ forall w, 0 < w -> exists p v,
  length p = 3%nat /\ increasing p /\ sampled f p /\ gx p 0 = 0 /\ gx p (last_of p) = 2 * w
  /\ fit_eval (NaturalCubic RV) p (w / 2) = Ret (Ok v) /\ Rabs (v - f (w / 2)) = 3 / 32.
Proof.
  exists (fun _ => 1). split.
  { intros a b. exists (fun _ => 0), (fun _ => 0). intros t _. split; [apply derivable_pt_lim_const |].
    split; [apply derivable_pt_lim_const | rewrite Rabs_R0; lra]. }
  intros w Pw. set (p := [(0, 1); (w, 1); (2 * w, 1)]).
  assert (increasing p) as H.
  { intros i j H. unfold gx. simpl in H. destruct i as [| [| [| i]]], j as [| [| [| j]]]; simpl; try lra; lia. }
  destruct (nc_eval p H) as (ds & Ld & Sv & E); [simpl; lia |].
  exists p. eexists. split; [reflexivity |]. split; [exact H |].
  split; [intros i Hi; simpl in Hi; destruct i as [| [| [| i]]]; [reflexivity .. | lia] |].
  split; [reflexivity |]. split; [reflexivity |].
  split; [rewrite E; apply (nc_closed p ds 0 _ Ld H); [simpl; lia | unfold gx; simpl; lra] |].
  destruct Sv as (S0 & S1 & S3 & _). specialize (S3 eq_refl). set (s := second_of ds) in *.
  rewrite jump_eq in S3 by (unfold gx; simpl; lra). simpl in S1.
  unfold gx, gy in S3. simpl in S3. rewrite S0, S1 in S3.
  assert (s 1%nat = - 3 / (2 * w ^ 2)) as E1.
  { assert (2 * w / 3 * s 1%nat = - (1 / w)) as Q.
    { assert ((1 - 1) / (2 * w - w) - (1 - 1) / (w - 0) = 0) as Z by (field; lra).
      assert (1 / (2 * w - w) = 1 / w) as Z2 by (field; lra). rewrite Z, Z2 in S3. lra. }
    apply Rmult_eq_reg_l with (2 * w / 3); [| lra]. rewrite Q. field. lra. }
  rewrite (q_fraction p s 0 (w / 2) (1 / 2)); [| unfold gx; simpl; lra | unfold gx; simpl; lra].
  cbn [Nat.add]. rewrite S0, E1. unfold gx, gy. simpl. match goal with |- Rabs ?A = _ => replace A with (3 / 32) by (field; lra) end.
  apply Rabs_pos_eq. lra.
Qed.
Print Assumptions C103_three_points_refuted.

(** The constants of the linear and the Hermite bound cannot be smaller. *)
Theorem C103_sharp : forall M,
  (forall a b, 0 <= M -> bent M (fun t => M / 2 * t ^ 2) a b)
  /\ (forall p i, increasing p -> (i + 1 < length p)%nat -> sampled (fun t => M / 2 * t ^ 2) p ->
       let x := (gx p i + gx p (i + 1)) / 2 in
       exists v, fit_eval (Linear RV) p x = Ret (Ok v) /\ v - M / 2 * x ^ 2 = M * (gx p (i + 1) - gx p i) ^ 2 / 8)
  /\ (forall p i, h_increasing p -> (i + 1 < length p)%nat ->
       (forall k, (k < length p)%nat -> hy p k = M / 24 * hx p k ^ 4 /\ hm p k = M / 6 * hx p k ^ 3) ->
       (0 <= M -> h_sampled M (fun t => M / 24 * t ^ 4) p) /\
       let x := (hx p i + hx p (i + 1)) / 2 in
       exists v, hermite_eval (V := RV) p x = Ret (Ok v) /\ M / 24 * x ^ 4 - v = M * (hx p (i + 1) - hx p i) ^ 4 / 384).
Proof.
  intros M. split; [| split].
  - intros a b PM. exists (fun t => M * t), (fun _ => M). intros t _. split; [| split].
    + apply (derive_as_cubic _ 0 (M / 2) 0 0 0); [intros y; ring | field].
    + apply (derive_as_cubic _ 0 0 M 0 0); [intros y; ring | ring].
    + rewrite Rabs_pos_eq by exact PM. lra.
  - intros p i H Hi Sf x. assert (gx p i < gx p (i + 1)) as Lt by (apply H; lia). exists (chord p i x).
    split; [apply linear_closed; [exact H | exact Hi | unfold x; lra] |]. rewrite chord_form, !Sf by lia. unfold x. field. lra.
  - intros p i H Hi Sf. split.
    + intros PM. exists (fun t => M / 6 * t ^ 3), (fun t => M / 2 * t ^ 2), (fun t => M * t), (fun _ => M). split; [| exact Sf].
      intros t _. split.
      { eapply lim_eq; [apply (derivable_pt_lim_scal (fun y => y ^ 4) (M / 24)), derivable_pt_lim_pow | simpl; field]. }
      split; [apply (derive_as_cubic _ (M / 6) 0 0 0 0); [intros y; ring | field] |].
      split; [apply (derive_as_cubic _ 0 (M / 2) 0 0 0); [intros y; ring | field] |].
      split; [apply (derive_as_cubic _ 0 0 M 0 0); [intros y; ring | ring] |]. rewrite Rabs_pos_eq by exact PM. lra.
    + intros x. assert (hx p i < hx p (i + 1)) as Lt by (apply H; lia). exists (hpiece p i x).
      split; [apply hermite_closed; [exact H | exact Hi | unfold x; lra] |].
      destruct (Sf i ltac:(lia)) as (Y0 & M0), (Sf (i + 1)%nat Hi) as (Y1 & M1).
      unfold hpiece, hA, hB. rewrite Y0, Y1, M0, M1. unfold x. field. lra.
Qed.
Print Assumptions C103_sharp.

(** Four points of the square with cell widths 1, 2, 1, and the points with slopes of the fourth power over the same abscissas. *)
Example C103_case : exists p hp, increasing p /\ (4 <= length p)%nat /\ sampled (fun t => 1 * t ^ 2) p
  /\ bent 2 (fun t => 1 * t ^ 2) (gx p 0) (gx p (last_of p)) /\ lipschitz 8 (fun t => 1 * t ^ 2) (gx p 0) (gx p (last_of p))
  /\ h_increasing hp /\ (4 <= length hp)%nat /\ h_sampled 24 (fun t => 24 / 24 * t ^ 4) hp.
Proof.
  exists [(0, 0); (1, 1); (3, 9); (4, 16)], [(0, 0, 0); (1, 1, 4); (3, 81, 108); (4, 256, 256)].
  split; [| split; [simpl; lia | split; [| split; [| split; [| split; [| split; [simpl; lia |]]]]]]].
  - intros i j H. unfold gx. simpl in H. destruct i as [| [| [| [| i]]]], j as [| [| [| [| j]]]]; simpl; try lra; lia.
  - intros i Hi. unfold gx, gy. simpl in Hi. destruct i as [| [| [| [| i]]]]; simpl; try lra; lia.
  - pose proof (proj1 (C103_sharp 2) (gx [(0, 0); (1, 1); (3, 9); (4, 16)] 0) (gx [(0, 0); (1, 1); (3, 9); (4, 16)] 3) ltac:(lra)) as B.
    replace (2 / 2) with 1 in B by field. exact B.
  - unfold gx. simpl. intros u v Hu Hv. replace (1 * (u * (u * 1)) - 1 * (v * (v * 1))) with ((u + v) * (u - v)) by ring.
    rewrite Rabs_mult, (Rabs_pos_eq (u + v)) by lra. apply Rmult_le_compat_r; [apply Rabs_pos | lra].
  - intros i j H. unfold hx. simpl in H. destruct i as [| [| [| [| i]]]], j as [| [| [| [| j]]]]; simpl; try lra; lia.
  - apply (proj2 (proj2 (C103_sharp 24)) _ 0%nat).
    + intros i j H. unfold hx. simpl in H. destruct i as [| [| [| [| i]]]], j as [| [| [| [| j]]]]; simpl; try lra; lia.
    + simpl. lia.
    + intros i Hi. unfold hx, hy, hm. simpl in Hi. destruct i as [| [| [| [| i]]]]; simpl; try lra; lia.
    + lra.
Qed.
