(** Continuity and derivatives on a closed interval, and functions given cell by cell.  Specification and
    lemmas only; nothing here is part of the model. *)
From Coq Require Import Reals Arith Lia Lra.
Open Scope R_scope.

(** [F] is continuous at [x] as a function on [a, b]. *)
Definition cont_within (a b : R) (F : R -> R) (x : R) : Prop :=
  forall eps, 0 < eps -> exists del, 0 < del /\
    forall x', a <= x' <= b -> Rabs (x' - x) < del -> Rabs (F x' - F x) < eps.

(** [F] has derivative [l] at [x] as a function on [a, b] (one-sided at the ends). *)
Definition deriv_within (a b : R) (F : R -> R) (x l : R) : Prop :=
  forall eps, 0 < eps -> exists del, 0 < del /\
    forall h, h <> 0 -> Rabs h < del -> a <= x + h <= b -> Rabs ((F (x + h) - F x) / h - l) < eps.

Lemma deriv_within_lim a b F x l : derivable_pt_lim F x l -> deriv_within a b F x l.
Proof.
  intros H eps He. destruct (H eps He) as [del Hd]. exists del. split; [apply cond_pos |].
  intros h Hh Hl _. now apply Hd.
Qed.

(** In the interior the two notions agree. *)
Lemma deriv_within_interior a b F x l : a < x < b -> deriv_within a b F x l -> derivable_pt_lim F x l.
Proof.
  intros Hx H eps He. destruct (H eps He) as (del & Hd & Hh).
  assert (0 < Rmin del (Rmin (x - a) (b - x))) as Hm by (repeat apply Rmin_glb_lt; lra).
  exists (mkposreal _ Hm). simpl. intros h Nz Hl. apply Hh; [exact Nz | |].
  - eapply Rlt_le_trans; [exact Hl | apply Rmin_l].
  - assert (Rabs h < x - a /\ Rabs h < b - x) as [L1 L2].
    { split; (eapply Rlt_le_trans; [exact Hl |]); (eapply Rle_trans; [apply Rmin_r |]);
        [apply Rmin_l | apply Rmin_r]. }
    apply Rabs_def2 in L1, L2. lra.
Qed.

(** Derivatives on an interval are unique. *)
Lemma deriv_within_unique a b F x l1 l2 : a < b -> a <= x <= b ->
  deriv_within a b F x l1 -> deriv_within a b F x l2 -> l1 = l2.
Proof.
  intros Hab Hx H1 H2. destruct (Req_dec l1 l2) as [E | N]; [exact E | exfalso].
  set (eps := Rabs (l1 - l2) / 2).
  assert (0 < eps) as He by (unfold eps; assert (0 < Rabs (l1 - l2)) by (apply Rabs_pos_lt; lra); lra).
  destruct (H1 eps He) as (d1 & P1 & Q1). destruct (H2 eps He) as (d2 & P2 & Q2).
  assert (exists h, h <> 0 /\ Rabs h < d1 /\ Rabs h < d2 /\ a <= x + h <= b) as (h & Nz & L1 & L2 & R).
  { assert (0 < Rmin d1 d2) as Hm by (apply Rmin_glb_lt; lra).
    pose proof (Rmin_l d1 d2). pose proof (Rmin_r d1 d2).
    destruct (Rlt_le_dec x b) as [C | C].
    - exists (Rmin (Rmin d1 d2 / 2) (b - x)).
      pose proof (Rmin_l (Rmin d1 d2 / 2) (b - x)). pose proof (Rmin_r (Rmin d1 d2 / 2) (b - x)).
      assert (0 < Rmin (Rmin d1 d2 / 2) (b - x)) by (apply Rmin_glb_lt; lra).
      rewrite Rabs_pos_eq by lra. repeat split; lra.
    - exists (- Rmin (Rmin d1 d2 / 2) (x - a)).
      pose proof (Rmin_l (Rmin d1 d2 / 2) (x - a)). pose proof (Rmin_r (Rmin d1 d2 / 2) (x - a)).
      assert (0 < Rmin (Rmin d1 d2 / 2) (x - a)) by (apply Rmin_glb_lt; lra).
      rewrite Rabs_Ropp, Rabs_pos_eq by lra. repeat split; lra. }
  specialize (Q1 h Nz L1 R). specialize (Q2 h Nz L2 R).
  set (q := (F (x + h) - F x) / h) in *. unfold eps in *.
  assert (Rabs (l1 - l2) <= Rabs (q - l2) + Rabs (q - l1)).
  { replace (l1 - l2) with ((q - l2) - (q - l1)) by ring. eapply Rle_trans; [apply Rabs_triang |].
    rewrite Rabs_Ropp. lra. }
  lra.
Qed.

(** Gluing at [x]: behaviour to the left and to the right. *)
Lemma cont_within_glue a b F x :
  cont_within a x F x -> cont_within x b F x -> cont_within a b F x.
Proof.
  intros H1 H2 eps He. destruct (H1 eps He) as (d1 & P1 & Q1). destruct (H2 eps He) as (d2 & P2 & Q2).
  exists (Rmin d1 d2). split; [apply Rmin_glb_lt; lra |]. intros x' Hx' L.
  pose proof (Rmin_l d1 d2). pose proof (Rmin_r d1 d2).
  destruct (Rle_lt_dec x' x); [apply Q1 | apply Q2]; lra.
Qed.

Lemma deriv_within_glue a b F x l :
  deriv_within a x F x l -> deriv_within x b F x l -> deriv_within a b F x l.
Proof.
  intros H1 H2 eps He. destruct (H1 eps He) as (d1 & P1 & Q1). destruct (H2 eps He) as (d2 & P2 & Q2).
  exists (Rmin d1 d2). split; [apply Rmin_glb_lt; lra |]. intros h Nz L Hx.
  pose proof (Rmin_l d1 d2). pose proof (Rmin_r d1 d2).
  destruct (Rle_lt_dec h 0); [apply Q1 | apply Q2]; lra.
Qed.

(** Both notions are local and depend only on values in the interval. *)
Lemma cont_within_local a b a' b' F G x : (a' < x \/ a' <= a) -> (x < b' \/ b <= b') ->
  F x = G x -> (forall y, a' <= y <= b' -> a <= y <= b -> F y = G y) -> cont_within a b G x -> cont_within a b F x.
Proof.
  intros Ha Hb E0 E H eps He. destruct (H eps He) as (d & P & Q).
  assert (exists d', 0 < d' /\ d' <= d /\ forall y, a <= y <= b -> Rabs (y - x) < d' -> a' <= y <= b') as (d' & P' & L' & R').
  { assert (0 < (if Rlt_dec a' x then x - a' else 1)) as A1 by (destruct (Rlt_dec a' x); lra).
    assert (0 < (if Rlt_dec x b' then b' - x else 1)) as A2 by (destruct (Rlt_dec x b'); lra).
    exists (Rmin d (Rmin (if Rlt_dec a' x then x - a' else 1) (if Rlt_dec x b' then b' - x else 1))).
    split; [repeat apply Rmin_glb_lt; lra |]. split; [apply Rmin_l |].
    intros y Hy L.
    assert (Rabs (y - x) < (if Rlt_dec a' x then x - a' else 1)) as L1.
    { eapply Rlt_le_trans; [exact L |]. eapply Rle_trans; [apply Rmin_r | apply Rmin_l]. }
    assert (Rabs (y - x) < (if Rlt_dec x b' then b' - x else 1)) as L2.
    { eapply Rlt_le_trans; [exact L |]. eapply Rle_trans; [apply Rmin_r | apply Rmin_r]. }
    apply Rabs_def2 in L1, L2. destruct (Rlt_dec a' x), (Rlt_dec x b'); lra. }
  exists d'. split; [exact P' |]. intros y Hy L. rewrite E0, (E y (R' y Hy L) Hy). apply Q; [exact Hy | lra].
Qed.

Lemma deriv_within_local a b a' b' F G x l : (a' < x \/ a' <= a) -> (x < b' \/ b <= b') ->
  F x = G x -> (forall y, a' <= y <= b' -> a <= y <= b -> F y = G y) ->
  deriv_within a b G x l -> deriv_within a b F x l.
Proof.
  intros Ha Hb E0 E H eps He. destruct (H eps He) as (d & P & Q).
  assert (exists d', 0 < d' /\ d' <= d /\ forall y, a <= y <= b -> Rabs (y - x) < d' -> a' <= y <= b') as (d' & P' & L' & R').
  { assert (0 < (if Rlt_dec a' x then x - a' else 1)) as A1 by (destruct (Rlt_dec a' x); lra).
    assert (0 < (if Rlt_dec x b' then b' - x else 1)) as A2 by (destruct (Rlt_dec x b'); lra).
    exists (Rmin d (Rmin (if Rlt_dec a' x then x - a' else 1) (if Rlt_dec x b' then b' - x else 1))).
    split; [repeat apply Rmin_glb_lt; lra |]. split; [apply Rmin_l |].
    intros y Hy L.
    assert (Rabs (y - x) < (if Rlt_dec a' x then x - a' else 1)) as L1.
    { eapply Rlt_le_trans; [exact L |]. eapply Rle_trans; [apply Rmin_r | apply Rmin_l]. }
    assert (Rabs (y - x) < (if Rlt_dec x b' then b' - x else 1)) as L2.
    { eapply Rlt_le_trans; [exact L |]. eapply Rle_trans; [apply Rmin_r | apply Rmin_r]. }
    apply Rabs_def2 in L1, L2. destruct (Rlt_dec a' x), (Rlt_dec x b'); lra. }
  exists d'. split; [exact P' |]. intros h Nz L Hh. rewrite E0, (E (x + h)); [apply Q; auto; lra | | exact Hh].
  apply R'; [exact Hh |]. replace (x + h - x) with h by ring. exact L.
Qed.

Lemma cont_within_pt a b F x : continuity_pt F x -> cont_within a b F x.
Proof.
  intros H eps He. destruct (H eps He) as (d & Hd & Q). exists d. split; [exact Hd |].
  intros y Hy L. destruct (Req_dec y x) as [-> | N].
  - rewrite Rminus_diag_eq, Rabs_R0 by reflexivity. exact He.
  - apply Q. split; [| exact L]. split; [exact I | auto].
Qed.

(** ** Cells *)

(** Piece [k] applies right of knot [k], smaller pieces before. *)
Fixpoint pw (X : nat -> R) (P : nat -> R -> R) (k : nat) (x : R) : R :=
  match k with
  | O => P O x
  | S k' => if Rle_dec x (X k) then pw X P k' x else P k x
  end.

Section Pieces.
Context (X : nat -> R) (P : nat -> R -> R) (n : nat).
Hypothesis Hn : (2 <= n)%nat.
Hypothesis HX : forall i j, (i < j < n)%nat -> X i < X j.

Lemma X_le i j : (i <= j < n)%nat -> X i <= X j.
Proof.
  intros H. destruct (Nat.eq_dec i j) as [-> | N]; [apply Rle_refl |]. left. apply HX. lia.
Qed.

(** Right of a knot, and at the first knot, the piece is that of the cell. *)
Lemma pw_open : forall k i x, (i <= k)%nat -> (k + 1 < n)%nat ->
  X i < x <= X (i + 1) -> pw X P k x = P i x.
Proof.
  induction k as [| k IH]; intros i x Hi Hk Hx; simpl.
  - replace i with 0%nat by lia. reflexivity.
  - destruct (Rle_dec x (X (S k))) as [C | C].
    + destruct (Nat.eq_dec i (S k)) as [-> | N]; [lra |]. apply IH; [lia | lia | exact Hx].
    + destruct (Nat.eq_dec i (S k)) as [-> | N]; [reflexivity |]. exfalso.
      pose proof (X_le (i + 1) (S k) ltac:(lia)). lra.
Qed.

Lemma pw_first : forall k, (k + 1 < n)%nat -> pw X P k (X 0%nat) = P 0%nat (X 0%nat).
Proof.
  induction k as [| k IH]; intros Hk; simpl; [reflexivity |].
  destruct (Rle_dec (X 0%nat) (X (S k))) as [C | C]; [apply IH; lia |].
  exfalso. apply C. apply X_le. lia.
Qed.

(** If neighbouring pieces meet, a piece applies on its closed cell. *)
Lemma pw_closed : (forall i, (i + 2 < n)%nat -> P i (X (i + 1)%nat) = P (i + 1)%nat (X (i + 1)%nat)) ->
  forall i x, (i + 1 < n)%nat -> X i <= x <= X (i + 1)%nat -> pw X P (n - 2) x = P i x.
Proof.
  intros HP i x Hi [H1 H2]. destruct (Rle_lt_or_eq_dec _ _ H1) as [L | <-].
  - apply pw_open; [lia | lia | tauto].
  - destruct i as [| i].
    + apply pw_first. lia.
    + rewrite (pw_open (n - 2) i); [| lia | lia |].
      * replace (S i) with (i + 1)%nat by lia. apply HP. lia.
      * split; [apply HX; lia |]. replace (i + 1)%nat with (S i) by lia. lra.
Qed.

Lemma cell_left x : X 0%nat < x <= X (n - 1)%nat ->
  exists i, (i + 1 < n)%nat /\ X i < x <= X (i + 1)%nat.
Proof using Hn HX. clear P.
  intros [H0 H1].
  assert (forall k, (k < n)%nat -> x <= X k -> exists i, (i + 1 < n)%nat /\ X i < x <= X (i + 1)%nat) as G.
  { induction k as [| k IH]; intros Hk Hx; [lra |].
    destruct (Rle_lt_dec x (X k)) as [C | C]; [apply IH; [lia | exact C] |].
    exists k. replace (k + 1)%nat with (S k) by lia. split; [lia | tauto]. }
  apply (G (n - 1)%nat); [lia | exact H1].
Qed.

Lemma cell_right x : X 0%nat <= x < X (n - 1)%nat ->
  exists i, (i + 1 < n)%nat /\ X i <= x < X (i + 1)%nat.
Proof using Hn HX. clear P.
  intros [H0 H1].
  assert (forall k, (k < n)%nat -> x < X k -> exists i, (i + 1 < n)%nat /\ X i <= x < X (i + 1)%nat) as G.
  { induction k as [| k IH]; intros Hk Hx; [lra |].
    destruct (Rlt_le_dec x (X k)) as [C | C]; [apply IH; [lia | exact C] |].
    exists k. replace (k + 1)%nat with (S k) by lia. split; [lia | tauto]. }
  apply (G (n - 1)%nat); [lia | exact H1].
Qed.

Context (F : R -> R).
Hypothesis HF : forall i x, (i + 1 < n)%nat -> X i <= x <= X (i + 1)%nat -> F x = P i x.

Lemma pieces_cont : (forall i, (i + 1 < n)%nat -> continuity (P i)) ->
  forall x, X 0%nat <= x <= X (n - 1)%nat -> cont_within (X 0%nat) (X (n - 1)%nat) F x.
Proof using Hn HX HF.
  intros HP x Hx. apply cont_within_glue.
  - destruct (Rle_lt_or_eq_dec _ _ (proj1 Hx)) as [L | <-].
    + destruct (cell_left x) as (i & Hi & Ci); [lra |].
      apply (cont_within_local _ _ (X i) (X (i + 1)%nat) F (P i));
        [lra | right; lra | apply HF; [exact Hi | lra] | |].
      * intros y Hy _. apply HF; [exact Hi | exact Hy].
      * apply cont_within_pt. now apply HP.
    + intros eps He. exists 1. split; [lra |]. intros y Hy _. replace y with (X 0%nat) by lra.
      rewrite Rminus_diag_eq, Rabs_R0 by reflexivity. exact He.
  - destruct (Rle_lt_or_eq_dec _ _ (proj2 Hx)) as [L | ->].
    + destruct (cell_right x) as (i & Hi & Ci); [lra |].
      apply (cont_within_local _ _ (X i) (X (i + 1)%nat) F (P i));
        [right; lra | lra | apply HF; [exact Hi | lra] | |].
      * intros y Hy _. apply HF; [exact Hi | exact Hy].
      * apply cont_within_pt. now apply HP.
    + intros eps He. exists 1. split; [lra |]. intros y Hy _. replace y with (X (n - 1)%nat) by lra.
      rewrite Rminus_diag_eq, Rabs_R0 by reflexivity. exact He.
Qed.

(** One-sided derivatives are those of the pieces. *)
Lemma pieces_deriv_left i x l : (i + 1 < n)%nat -> X i < x <= X (i + 1)%nat ->
  derivable_pt_lim (P i) x l -> forall a, deriv_within a x F x l.
Proof.
  intros Hi Hx H a. apply (deriv_within_local _ _ (X i) (X (i + 1)%nat) F (P i));
    [lra | right; lra | apply HF; [exact Hi | lra] | |].
  - intros y Hy _. apply HF; [exact Hi | exact Hy].
  - now apply deriv_within_lim.
Qed.

Lemma pieces_deriv_right i x l : (i + 1 < n)%nat -> X i <= x < X (i + 1)%nat ->
  derivable_pt_lim (P i) x l -> forall b, deriv_within x b F x l.
Proof.
  intros Hi Hx H b. apply (deriv_within_local _ _ (X i) (X (i + 1)%nat) F (P i));
    [right; lra | lra | apply HF; [exact Hi | lra] | |].
  - intros y Hy _. apply HF; [exact Hi | exact Hy].
  - now apply deriv_within_lim.
Qed.

Lemma deriv_within_point a F0 l : deriv_within a a F0 a l.
Proof. intros eps He. exists 1. split; [lra |]. intros h Nz _ Hh. exfalso. apply Nz. lra. Qed.

(** With pieces [P' i] for the derivative that meet at the knots, [F] is differentiable on the whole range. *)
Lemma pieces_deriv (P' : nat -> R -> R) (F' : R -> R) :
  (forall i x, (i + 1 < n)%nat -> X i <= x <= X (i + 1)%nat -> F' x = P' i x) ->
  (forall i x, (i + 1 < n)%nat -> X i <= x <= X (i + 1)%nat -> derivable_pt_lim (P i) x (P' i x)) ->
  forall x, X 0%nat <= x <= X (n - 1)%nat -> deriv_within (X 0%nat) (X (n - 1)%nat) F x (F' x).
Proof using Hn HX HF.
  intros HF' HD x Hx. apply deriv_within_glue.
  - destruct (Rle_lt_or_eq_dec _ _ (proj1 Hx)) as [L | <-].
    + destruct (cell_left x) as (i & Hi & Ci); [lra |].
      rewrite (HF' i x Hi) by lra. apply (pieces_deriv_left i); [exact Hi | exact Ci |].
      apply HD; [exact Hi | lra].
    + apply deriv_within_point.
  - destruct (Rle_lt_or_eq_dec _ _ (proj2 Hx)) as [L | ->].
    + destruct (cell_right x) as (i & Hi & Ci); [lra |].
      rewrite (HF' i x Hi) by lra. apply (pieces_deriv_right i); [exact Hi | exact Ci |].
      apply HD; [exact Hi | lra].
    + apply deriv_within_point.
Qed.

End Pieces.

(** ** Derivatives of cubics *)

Lemma derive_cubic a b c d x0 x :
  derivable_pt_lim (fun x => a * (x - x0) ^ 3 + b * (x - x0) ^ 2 + c * (x - x0) + d) x
    (3 * a * (x - x0) ^ 2 + 2 * b * (x - x0) + c).
Proof.
  replace (3 * a * (x - x0) ^ 2 + 2 * b * (x - x0) + c)
    with (a * ((INR 3 * (x - x0) ^ Nat.pred 3) * (1 - 0)) + b * ((INR 2 * (x - x0) ^ Nat.pred 2) * (1 - 0))
          + c * (1 - 0) + 0) by (simpl; ring).
  assert (derivable_pt_lim (fun x => x - x0) x (1 - 0)) as D1.
  { apply (derivable_pt_lim_minus id (fct_cte x0)); [apply derivable_pt_lim_id | apply derivable_pt_lim_const]. }
  apply (derivable_pt_lim_plus (fun x => a * (x - x0) ^ 3 + b * (x - x0) ^ 2 + c * (x - x0)) (fct_cte d));
    [| apply derivable_pt_lim_const].
  apply (derivable_pt_lim_plus (fun x => a * (x - x0) ^ 3 + b * (x - x0) ^ 2) (fun x => c * (x - x0))).
  - apply (derivable_pt_lim_plus (fun x => a * (x - x0) ^ 3) (fun x => b * (x - x0) ^ 2)).
    + apply (derivable_pt_lim_scal (fun x => (x - x0) ^ 3)).
      apply (derivable_pt_lim_comp (fun x => x - x0) (fun y => y ^ 3)); [exact D1 | apply derivable_pt_lim_pow].
    + apply (derivable_pt_lim_scal (fun x => (x - x0) ^ 2)).
      apply (derivable_pt_lim_comp (fun x => x - x0) (fun y => y ^ 2)); [exact D1 | apply derivable_pt_lim_pow].
  - apply (derivable_pt_lim_scal (fun x => x - x0)). exact D1.
Qed.

Lemma derive_ext f g x l : (forall y, f y = g y) -> derivable_pt_lim g x l -> derivable_pt_lim f x l.
Proof.
  intros E H eps He. destruct (H eps He) as [d Hd]. exists d. intros h Nz L. rewrite !E. now apply Hd.
Qed.

Lemma derive_continuous f f' : (forall x, derivable_pt_lim f x (f' x)) -> continuity f.
Proof.
  intros H x. apply derivable_continuous_pt. exists (f' x). apply H.
Qed.

Lemma derive_as_cubic f a b c d x0 x l :
  (forall y, f y = a * (y - x0) ^ 3 + b * (y - x0) ^ 2 + c * (y - x0) + d) ->
  l = 3 * a * (x - x0) ^ 2 + 2 * b * (x - x0) + c -> derivable_pt_lim f x l.
Proof.
  intros E ->. eapply derive_ext; [exact E |]. apply derive_cubic.
Qed.
