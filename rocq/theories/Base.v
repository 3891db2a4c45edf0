(** Outcomes, machine integers and loops used by the whole model. *)
From Coq Require Import ZArith Bool List Lia.
Import ListNotations.
Open Scope Z_scope.

(** Outcome of running Rust code. [Ret] is normal return, [Panic] any Rust panic,
    [OutOfFuel] the model's "loop did not finish" marker (excluded by theorems).
    Not in /repo: it models the language semantics used by every file there. *)
Inductive M (A : Type) : Type :=
| Ret (a : A)
| Panic
| OutOfFuel.
Arguments Ret {A} a.
Arguments Panic {A}.
Arguments OutOfFuel {A}.

(** Sequencing of outcomes (language semantics, no source lines). *)
Definition bind {A B} (m : M A) (f : A -> M B) : M B :=
  match m with Ret a => f a | Panic => Panic | OutOfFuel => OutOfFuel end.

Declare Scope m_scope.
Delimit Scope m_scope with M.
Notation "x <- e ;; k" := (bind e (fun x => k))
  (at level 60, e at next level, right associativity) : m_scope.
Open Scope m_scope.

(** Rust's [Result] (language prelude, no source lines). *)
Inductive result (A E : Type) : Type :=
| Ok (a : A)
| Err (e : E).
Arguments Ok {A E} a.
Arguments Err {A E} e.

(** The [?] operator on [Option] inside a function returning [Option]
    (e.g. crates/qlab-time/src/date.rs:101, 269, 271). *)
Definition try_opt {A B} (o : option A) (f : A -> M (option B)) : M (option B) :=
  match o with Some a => f a | None => Ret None end.

(** The [?] operator on [Result]
    (e.g. crates/qlab-termstructure/src/yield_curve.rs:49, 55, 100). *)
Definition try_res {A B E} (r : result A E) (f : A -> M (result B E)) : M (result B E) :=
  match r with Ok a => f a | Err e => Ret (Err e) end.

(** [Option::unwrap] (e.g. third-parties/calendar/src/lib.rs:169, 171). *)
Definition unwrap {A} (o : option A) : M A :=
  match o with Some a => Ret a | None => Panic end.

(** Slice/Vec indexing [v[i]] with its bounds check
    (e.g. crates/qlab-math/src/interpolation/linear.rs:78-81). *)
Definition index {A} (l : list A) (i : nat) : M A := unwrap (nth_error l i).

(** Writing [v[i] = a] with its bounds check
    (e.g. crates/qlab-math/src/linear_algebra/tridiagonal_matrix.rs:84, 93, 100). *)
Fixpoint update {A} (l : list A) (i : nat) (a : A) : M (list A) :=
  match l, i with
  | [], _ => Panic
  | _ :: t, O => Ret (a :: t)
  | h :: t, S i' => t' <- update t i' a ;; Ret (h :: t')
  end.

(** Cargo profile: are integer overflow checks on ([Checked], debug profile) or off
    ([Wrapping], release profile)?  Language semantics; matters for
    crates/qlab-time/src/date.rs:73,76 and crates/qlab-time/src/day_count/thirty_360.rs:21. *)
Inductive build : Type := Checked | Wrapping.

(** i32::MIN (language semantics; years are i32, crates/qlab-time/src/date.rs:28, 72). *)
Definition i32_min : Z := -2147483648.
(** i32::MAX (language semantics; as above). *)
Definition i32_max : Z := 2147483647.
(** u32::MAX (language semantics; months and days are u32, crates/qlab-time/src/date.rs:28). *)
Definition u32_max : Z := 4294967295.
(** u64::MAX (language semantics; the argument of Days, crates/qlab-time/src/period/days.rs:1-18). *)
Definition u64_max : Z := 18446744073709551615.
(** Is [z] an i32 (language semantics; crates/qlab-time/src/date.rs:73)? *)
Definition in_i32 (z : Z) : bool := (i32_min <=? z) && (z <=? i32_max).
(** Is [z] a u32 (language semantics; crates/qlab-time/src/day_count/thirty_360.rs:21)? *)
Definition in_u32 (z : Z) : bool := (0 <=? z) && (z <=? u32_max).

(** Two's complement wrapping to i32 (language semantics; crates/qlab-time/src/date.rs:73). *)
Definition wrap_i32 (z : Z) : Z := (z + 2147483648) mod 4294967296 - 2147483648.
(** Wrapping to u32 and the cast [as u32] (crates/qlab-time/src/day_count/thirty_360.rs:21). *)
Definition wrap_u32 (z : Z) : Z := z mod 4294967296.

(** i32 arithmetic: the mathematical result [z] of an operation as the machine delivers it in the
    given build (language semantics; crates/qlab-time/src/date.rs:73, 76). *)
Definition i32_of (b : build) (z : Z) : M Z :=
  if in_i32 z then Ret z
  else match b with Checked => Panic | Wrapping => Ret (wrap_i32 z) end.
(** u32 arithmetic, likewise (crates/qlab-time/src/day_count/thirty_360.rs:21). *)
Definition u32_of (b : build) (z : Z) : M Z :=
  if in_u32 z then Ret z
  else match b with Checked => Panic | Wrapping => Ret (wrap_u32 z) end.

(** A [while] loop with binary fuel: runs [body] at most [p] times, stopping at the first
    [inr].  [inl s] is "fuel used up in state s".  Simplification: Rust loops have no fuel;
    every use below comes with a theorem that the fuel never runs out. *)
Fixpoint loop {S R} (p : positive) (body : S -> S + R) (s : S) : S + R :=
  match p with
  | xH => body s
  | xO q => match loop q body s with inl s' => loop q body s' | inr r => inr r end
  | xI q =>
      match body s with
      | inl s0 => match loop q body s0 with inl s' => loop q body s' | inr r => inr r end
      | inr r => inr r
      end
  end.

(** [loop] with the result of an exhausted loop mapped to [OutOfFuel]
    (loops at crates/qlab-time/src/date.rs:270, crates/qlab-instrument/src/bond.rs:73). *)
Definition while {S R} (p : positive) (body : S -> S + M R) (s : S) : M R :=
  match loop p body s with inl _ => OutOfFuel | inr r => r end.

(** A counted [for] loop over a list of indices with an M-valued body
    (e.g. tridiagonal_matrix.rs:87, 98; natural_cubic.rs:47). *)
Fixpoint for_each {A S} (l : list A) (body : A -> S -> M S) (s : S) : M S :=
  match l with
  | [] => Ret s
  | a :: t => s' <- body a s ;; for_each t body s'
  end.
