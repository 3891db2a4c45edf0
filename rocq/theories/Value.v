(** The numeric trait [Value] and the error types. *)
From Coq Require Import ZArith Bool List.
From Coq Require String.
From Verif Require Import Base.
Import ListNotations.

(** crates/qlab-math/src/value.rs:6-22  trait Value: the operations of Num, Neg, PartialOrd, Real and
    FromPrimitive that /repo uses.  Simplifications: from_i8, from_u8, from_i32, from_u32 and from_i64 are
    one operation [v_of_int] on the integer passed; the compound assignments (+= etc.) are the
    corresponding binary operations. *)
Record Value := mkValue {
  carrier :> Type;
  v_zero : carrier;
  v_one : carrier;
  v_add : carrier -> carrier -> carrier;
  v_sub : carrier -> carrier -> carrier;
  v_mul : carrier -> carrier -> carrier;
  v_div : carrier -> carrier -> carrier;
  v_neg : carrier -> carrier;
  v_ltb : carrier -> carrier -> bool;
  v_leb : carrier -> carrier -> bool;
  v_exp : carrier -> carrier;
  v_of_int : Z -> option carrier
}.

Arguments v_zero {v}.
Arguments v_one {v}.
Arguments v_add {v}.
Arguments v_sub {v}.
Arguments v_mul {v}.
Arguments v_div {v}.
Arguments v_neg {v}.
Arguments v_ltb {v}.
Arguments v_leb {v}.
Arguments v_exp {v}.
Arguments v_of_int {v}.

Declare Scope value_scope.
Delimit Scope value_scope with V.
Infix "+" := v_add : value_scope.
Infix "-" := v_sub : value_scope.
Infix "*" := v_mul : value_scope.
Infix "/" := v_div : value_scope.
Notation "- x" := (v_neg x) : value_scope.

(** num_traits Real::recip, used at
    crates/qlab-math/src/interpolation/spline/natural_cubic.rs:52, 56, 66; 1/x for f32 and f64. *)
Definition v_recip {V : Value} (x : V) : V := v_div v_one x.

(** [V::from_i8(k).unwrap()] and the like, e.g. natural_cubic.rs:51, catmull_rom.rs:116. *)
Definition v_const {V : Value} (k : Z) : M V := unwrap (v_of_int k).

(** crates/qlab-error/src/lib.rs:57-67  InterpolationError. *)
Inductive InterpolationError (V : Type) : Type :=
| PointOrderError
| OutOfLowerBound (x : V)
| OutOfUpperBound (x : V)
| InsufficientPointsError (n : nat).
Arguments PointOrderError {V}.
Arguments OutOfLowerBound {V} x.
Arguments OutOfUpperBound {V} x.
Arguments InsufficientPointsError {V} n.

(** crates/qlab-error/src/lib.rs:39-55  QLabError / ComputeError.  Simplification: the two nested enums are
    one; ErrString (lib.rs:7-37) is its string. *)
Inductive QLabError : Type :=
| ZeroDivisionError
| CastNumberError (msg : String.string)
| InvalidInput (msg : String.string)
| InterpolationFailed.

(** crates/qlab-error/src/lib.rs:75  QLabResult. *)
Definition QLabResult (A : Type) : Type := result A QLabError.

(** crates/qlab-error/src/lib.rs:69-73  From<InterpolationError<T>> for QLabError, applied by [?]. *)
Definition lift_interp {A V} (r : result A (InterpolationError V)) : QLabResult A :=
  match r with Ok a => Ok a | Err _ => Err InterpolationFailed end.
