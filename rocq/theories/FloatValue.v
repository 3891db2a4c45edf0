(** IEEE 754 binary floats as a [Value], via Flocq (round to nearest even, one NaN). *)
From Coq Require Import ZArith Reals Bool.
From Flocq Require Import Core BinarySingleNaN.
From Verif Require Import Base Value.

(** crates/qlab-math/src/value.rs:24-26  impl Value for f32, f64: IEEE arithmetic of the given precision.
    The exponential is a parameter: libm's exp is not specified bit for bit.  Integer conversion rounds to
    nearest even, as the Rust [as] cast used by num_traits does, and always succeeds. *)
Definition FV (prec emax : Z) (Hp : Prec_gt_0 prec) (He : Prec_lt_emax prec emax)
    (fexp_ : binary_float prec emax -> binary_float prec emax) : Value :=
  let of_int z := binary_normalize prec emax Hp He mode_NE z 0 false in
  mkValue (binary_float prec emax)
    (B754_zero false) (of_int 1%Z)
    (Bplus mode_NE) (Bminus mode_NE) (Bmult mode_NE) (Bdiv mode_NE) Bopp
    Bltb Bleb fexp_ (fun z => Some (of_int z)).

(** binary64 has 53 significant bits (value.rs:26). *)
#[export] Instance Hp53 : Prec_gt_0 53. Proof. reflexivity. Qed.
(** Exponent range of binary64 (value.rs:26). *)
#[export] Instance He1024 : Prec_lt_emax 53 1024. Proof. reflexivity. Qed.
(** binary32 has 24 significant bits (value.rs:24). *)
#[export] Instance Hp24 : Prec_gt_0 24. Proof. reflexivity. Qed.
(** Exponent range of binary32 (value.rs:24). *)
#[export] Instance He128 : Prec_lt_emax 24 128. Proof. reflexivity. Qed.

(** value.rs:26  impl Value for f64. *)
Definition F64 (e : binary_float 53 1024 -> binary_float 53 1024) : Value := FV 53 1024 Hp53 He1024 e.
(** value.rs:24  impl Value for f32. *)
Definition F32 (e : binary_float 24 128 -> binary_float 24 128) : Value := FV 24 128 Hp24 He128 e.
