(** crates/qlab-termstructure/src/yield_curve.rs, function by function. *)
From Coq Require Import ZArith Bool List Arith.
From Verif Require Import Base Chrono DateModel TextModel Value DayCountModel InterpModel.
Import ListNotations.

(** yield_curve.rs:13-17  struct YieldCurve; the PhantomData field is the parameter [D] of the functions
    below. *)
Record YieldCurve (V : Value) (I : Interpolator V) := mkCurve {
  settlement_date : Date;
  interpolator : i_self I
}.
Arguments mkCurve {V} I.
Arguments settlement_date {V I}.
Arguments interpolator {V I}.

(** yield_curve.rs:46-49  iter().map(f).collect::<Result<Vec<_>, _>>()?: maps in order and stops at the
    first error. *)
Fixpoint collect {A B E} (f : A -> M (result B E)) (l : list A) : M (result (list B) E) :=
  match l with
  | [] => Ret (Ok [])
  | a :: t =>
      r <- f a ;;
      try_res r (fun b =>
      rs <- collect f t ;;
      try_res rs (fun bs => Ret (Ok (b :: bs))))
  end.

(** yield_curve.rs:36-61  YieldCurve::new. *)
Definition curve_new {V : Value} (D : DayCount V) (I : Interpolator V) (settlement : Date)
  (maturities : list Date) (spot_yields : list V) : M (QLabResult (YieldCurve V I)) :=
  if negb (length maturities =? length spot_yields)%nat then Ret (Err (InvalidInput msg_lengths))
  else
    ts <- collect (fun maturity => D settlement maturity) maturities ;;
    try_res ts (fun ts =>
    r <- i_try_fit I (i_default I) (combine ts spot_yields) ;;
    try_res (lift_interp r) (fun interp => Ret (Ok (mkCurve I settlement interp)))).

(** yield_curve.rs:111-113  YieldCurve::yield_curve. *)
Definition curve_yield {V : Value} {I : Interpolator V} (self : YieldCurve V I) (t : V) : M (QLabResult V) :=
  r <- i_try_value I (interpolator self) t ;;
  Ret (lift_interp r).

(** yield_curve.rs:84-108  YieldCurve::discount_factor. *)
Definition discount_factor {V : Value} (D : DayCount V) {I : Interpolator V} (self : YieldCurve V I)
  (d1 d2 : Date) : M (QLabResult V) :=
  if date_ltb d2 d1 then Ret (Err (InvalidInput (msg_smaller d1 d2)))
  else if date_ltb d1 (settlement_date self) || date_ltb d2 (settlement_date self)
  then Ret (Err (InvalidInput (msg_settlement d1 d2 (settlement_date self))))
  else
    t2 <- D (settlement_date self) d2 ;;
    try_res t2 (fun t2 =>
    y2 <- curve_yield self t2 ;;
    try_res y2 (fun y2 =>
    if date_eqb d1 (settlement_date self) then Ret (Ok (v_exp (- t2 * y2)%V))
    else
      t1 <- D (settlement_date self) d1 ;;
      try_res t1 (fun t1 =>
      y1 <- curve_yield self t1 ;;
      try_res y1 (fun y1 => Ret (Ok (v_exp (t1 * y1 - t2 * y2)%V)))))).
