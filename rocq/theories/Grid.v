(** Specification vocabulary for interpolation: grids of points and "fit, then evaluate". *)
From Coq Require Import Reals List Arith.
From Verif Require Import Base Value RealValue InterpModel.
Import ListNotations.
Open Scope R_scope.

(** The i-th abscissa and ordinate of a point list. *)
Definition gx (pts : list (R * R)) (i : nat) : R := fst (nth i pts (0, 0)).
Definition gy (pts : list (R * R)) (i : nat) : R := snd (nth i pts (0, 0)).

(** Abscissas never decrease; strictly increase. *)
Definition sorted (pts : list (R * R)) : Prop :=
  forall i j, (i <= j < length pts)%nat -> gx pts i <= gx pts j.
Definition increasing (pts : list (R * R)) : Prop :=
  forall i j, (i < j < length pts)%nat -> gx pts i < gx pts j.

(** The last index. *)
Definition last_of (pts : list (R * R)) : nat := (length pts - 1)%nat.

(** What a user sees: fit the points, then evaluate at [x]. *)
Definition fit_eval {V : Value} (I : Interpolator V) (pts : list (V * V)) (x : V) : M (IResult V V) :=
  r <- i_try_fit I (i_default I) pts ;;
  try_res r (fun f => i_try_value I f x).

Lemma increasing_sorted pts : increasing pts -> sorted pts.
Proof.
  intros H i j Hij. destruct (Nat.eq_dec i j) as [-> | N]; [apply Rle_refl |].
  left. apply H. destruct Hij as [A B]. split; [| exact B].
  apply Nat.lt_eq_cases in A. destruct A; [assumption | contradiction].
Qed.

(** Sampled from the line [a*x + b]. *)
Definition on_line (a b : R) (pts : list (R * R)) : Prop :=
  forall i, (i < length pts)%nat -> gy pts i = a * gx pts i + b.
