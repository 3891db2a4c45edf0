(** The real numbers as a [Value]: the exact arithmetic the formulas stand for. *)
From Coq Require Import ZArith Reals Bool Lra.
From Verif Require Import Base Value.
Open Scope R_scope.

(** Real comparison as a boolean (crates/qlab-math/src/value.rs:6-22, exact arithmetic). *)
Definition Rltb (x y : R) : bool := if Rlt_dec x y then true else false.
(** Real comparison as a boolean (crates/qlab-math/src/value.rs:6-22). *)
Definition Rleb (x y : R) : bool := if Rle_dec x y then true else false.

(** crates/qlab-math/src/value.rs:6-22 instantiated with exact reals instead of f32/f64
    (value.rs:24-26).  Every integer converts. *)
Definition RV : Value :=
  mkValue R 0 1 Rplus Rminus Rmult Rdiv Ropp Rltb Rleb exp (fun z => Some (IZR z)).

Lemma Rltb_true x y : Rltb x y = true <-> x < y.
Proof. unfold Rltb. destruct (Rlt_dec x y); split; intros; congruence || tauto. Qed.
Lemma Rltb_false x y : Rltb x y = false <-> y <= x.
Proof. unfold Rltb. destruct (Rlt_dec x y); split; intros; try congruence; lra. Qed.
Lemma Rleb_true x y : Rleb x y = true <-> x <= y.
Proof. unfold Rleb. destruct (Rle_dec x y); split; intros; congruence || tauto. Qed.
Lemma Rleb_false x y : Rleb x y = false <-> y < x.
Proof. unfold Rleb. destruct (Rle_dec x y); split; intros; try congruence; lra. Qed.
