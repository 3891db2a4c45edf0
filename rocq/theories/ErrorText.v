(** The text of errors, crates/qlab-error/src/lib.rs. *)
From Coq Require Import ZArith String.
From Verif Require Import Base Value TextModel.
Open Scope string_scope.

(** crates/qlab-error/src/lib.rs:39-55  Display for QLabError (transparent) and ComputeError; that of ErrString
    (lib.rs:33-37) is its string. *)
Definition show_error (e : QLabError) : string :=
  match e with
  | ZeroDivisionError => "Zero division occurred"
  | CastNumberError msg => msg ++ " cannot cast to a primitive type"
  | InvalidInput msg => "Invalid inputs are passed by: " ++ msg
  | InterpolationFailed => "interpolation failed"
  end.

(** crates/qlab-error/src/lib.rs:57-67  Display for InterpolationError; [show] is Display for V. *)
Definition show_interpolation_error {V : Type} (show : V -> string) (e : InterpolationError V) : string :=
  match e with
  | PointOrderError => "points must be sorted"
  | OutOfLowerBound x => "out of lower bound: " ++ show x
  | OutOfUpperBound x => "out of upper bound: " ++ show x
  | InsufficientPointsError n => "length of inputs: " ++ show_int (Z.of_nat n) ++ " is not enough points for construction"
  end.
