(** Text of dates and of errors. *)
From Coq Require Import ZArith Bool Ascii String DecimalString.
From Verif Require Import Base Chrono.
Open Scope string_scope.
Open Scope Z_scope.

(** Display of Rust integers in decimal, used by format! at act_360.rs:12, act_365.rs:12, thirty_360.rs:31 and by
    qlab-error/src/lib.rs:65. *)
Definition show_int (z : Z) : string := NilEmpty.string_of_int (Z.to_int z).

(** One decimal digit; internal to chrono's write_hundreds, reached from date.rs:251. *)
Definition digit (d : Z) : ascii := ascii_of_nat (Z.to_nat (48 + d)).

(** chrono's write_hundreds (two digits of a number below 100), reached from date.rs:251. *)
Definition write_hundreds (n : Z) : string := String (digit (n / 10)) (String (digit (n mod 10)) EmptyString).

(** Zeros up to a width: the 05 of chrono's format {:+05}, reached from date.rs:251. *)
Fixpoint zeros (n : nat) : string := match n with O => "" | S k => String "0" (zeros k) end.

(** chrono's year in Display for NaiveDate, reached from date.rs:251: four digits for 0 to 9999, otherwise {:+05}. *)
Definition show_year (y : Z) : string :=
  if (0 <=? y) && (y <=? 9999) then write_hundreds (y / 100) ++ write_hundreds (y mod 100)
  else
    let digits := show_int (Z.abs y) in
    (if y <? 0 then "-" else "+") ++ zeros (4 - length digits) ++ digits.

(** crates/qlab-time/src/date.rs:249-253  Display for Date, chrono's Display for NaiveDate. *)
Definition show_date (d : NaiveDate) : string :=
  show_year (nd_year d) ++ "-" ++ write_hundreds (nd_month d) ++ "-" ++ write_hundreds (nd_day d).

(** crates/qlab-time/src/date.rs:11  derived Debug for Date; chrono's Debug for NaiveDate is its Display. *)
Definition debug_date (d : NaiveDate) : string := "Date(" ++ show_date d ++ ")".

(** crates/qlab-time/src/day_count/thirty_360.rs:15. *)
Definition msg_precede (date1 date2 : NaiveDate) : string :=
  "date1: " ++ show_date date1 ++ " must precede date2: " ++ show_date date2.

(** crates/qlab-time/src/day_count/thirty_360.rs:33. *)
Definition msg_360 : string := "360".

(** crates/qlab-termstructure/src/yield_curve.rs:43. *)
Definition msg_lengths : string := "maturities and spot_yields are different lengths".

(** crates/qlab-termstructure/src/yield_curve.rs:87. *)
Definition msg_smaller (d1 d2 : NaiveDate) : string :=
  "d1: " ++ show_date d1 ++ " must be smaller than d2: " ++ show_date d2.

(** crates/qlab-termstructure/src/yield_curve.rs:92-95. *)
Definition msg_settlement (d1 d2 settlement_date : NaiveDate) : string :=
  "Either " ++ show_date d1 ++ " or " ++ show_date d2 ++ " exceeds settlement date: " ++ debug_date settlement_date.
