(** Specification of the proleptic Gregorian calendar, independent of the model's arithmetic. *)
From Coq Require Import ZArith Bool List Lia.
From Verif Require Import Chrono.
Import ListNotations.
Open Scope Z_scope.

(** Divisible by 4, but of the centuries only those divisible by 400. *)
Definition leap (y : Z) : Prop := (4 | y) /\ (~ (100 | y) \/ (400 | y)).

Inductive month_length (y : Z) : Z -> Z -> Prop :=
| len31 m : In m [1; 3; 5; 7; 8; 10; 12] -> month_length y m 31
| len30 m : In m [4; 6; 9; 11] -> month_length y m 30
| len29 : leap y -> month_length y 2 29
| len28 : ~ leap y -> month_length y 2 28.

(** (y, m, d) names a day. *)
Definition gregorian (y m d : Z) : Prop := exists L, month_length y m L /\ 1 <= d <= L.

(** Years the library can represent. *)
Definition representable (y : Z) : Prop := -262143 <= y <= 262142.

(** The calendar day after another, from the month lengths only. *)
Inductive next_day : NaiveDate -> NaiveDate -> Prop :=
| next_in_month y m d L :
    month_length y m L -> 1 <= d < L -> next_day (mkDate y m d) (mkDate y m (d + 1))
| next_month y m L :
    month_length y m L -> m < 12 -> next_day (mkDate y m L) (mkDate y (m + 1) 1)
| next_year y : next_day (mkDate y 12 31) (mkDate (y + 1) 1 1).

(** [days_later n a b]: b is n calendar days after a. *)
Inductive days_later : nat -> NaiveDate -> NaiveDate -> Prop :=
| later_0 d : days_later 0 d d
| later_S n a b c : days_later n a b -> next_day b c -> days_later (S n) a c.

(** A date that the library can represent. *)
Definition a_date (d : NaiveDate) : Prop :=
  representable (nd_year d) /\ gregorian (nd_year d) (nd_month d) (nd_day d).

(** Chronological order, lexicographic on (year, month, day). *)
Definition earlier (a b : NaiveDate) : Prop :=
  nd_year a < nd_year b
  \/ (nd_year a = nd_year b /\ nd_month a < nd_month b)
  \/ (nd_year a = nd_year b /\ nd_month a = nd_month b /\ nd_day a < nd_day b).

(** Weekdays by counting: 0001-01-01 was a Monday and each next day has the next weekday. *)
Definition next_weekday (w : Weekday) : Weekday :=
  match w with
  | Mon => Tue | Tue => Wed | Wed => Thu | Thu => Fri | Fri => Sat | Sat => Sun | Sun => Mon
  end.
