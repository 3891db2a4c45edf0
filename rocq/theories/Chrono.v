(** Contract of the chrono 0.4.38 functions that /repo calls.  chrono itself is not in /repo;
    the comments cite the call sites.  Trusted: see DESIGN.md. *)
From Coq Require Import ZArith Bool List Lia.
From Verif Require Import Base.
Import ListNotations.
Open Scope Z_scope.

(** chrono::NaiveDate, used by crates/qlab-time/src/date.rs:12 and by every calendar.
    Simplification: chrono packs (year, ordinal, flags); the model keeps year, month, day.
    Values met in the code are the valid ones, [valid] below. *)
Record NaiveDate := mkDate { nd_year : Z; nd_month : Z; nd_day : Z }.

(** First year of chrono's range (NaiveDate::MIN), reachable from date.rs:29, 73, 97, 118, 142. *)
Definition MIN_YEAR : Z := -262143.
(** Last year of chrono's range (NaiveDate::MAX), reachable as above. *)
Definition MAX_YEAR : Z := 262142.

(** NaiveDate::leap_year, called at date.rs:54. *)
Definition is_leap (y : Z) : bool :=
  ((y mod 4 =? 0) && negb (y mod 100 =? 0)) || (y mod 400 =? 0).

(** Length of a month, internal to chrono's from_ymd_opt / checked_add_months (date.rs:29, 97). *)
Definition month_len (y m : Z) : Z :=
  match m with
  | 1 => 31 | 2 => if is_leap y then 29 else 28 | 3 => 31 | 4 => 30 | 5 => 31 | 6 => 30
  | 7 => 31 | 8 => 31 | 9 => 30 | 10 => 31 | 11 => 30 | 12 => 31 | _ => 0
  end.

(** Which triples are NaiveDate values (chrono's representation invariant; date.rs:12). *)
Definition validb (d : NaiveDate) : bool :=
  (MIN_YEAR <=? nd_year d) && (nd_year d <=? MAX_YEAR)
  && (1 <=? nd_month d) && (nd_month d <=? 12)
  && (1 <=? nd_day d) && (nd_day d <=? month_len (nd_year d) (nd_month d)).
(** [validb] as a proposition (date.rs:12). *)
Definition valid (d : NaiveDate) : Prop := validb d = true.

(** NaiveDate::from_ymd_opt, called at date.rs:29 and third-parties/calendar/src/lib.rs:168-169. *)
Definition from_ymd_opt (y m d : Z) : option NaiveDate :=
  let x := mkDate y m d in if validb x then Some x else None.

(** Datelike::with_year, called at date.rs:73, 76. *)
Definition with_year (d : NaiveDate) (y : Z) : option NaiveDate :=
  from_ymd_opt y (nd_month d) (nd_day d).

(** Datelike::with_day, called at date.rs:75, 101, 122. *)
Definition with_day (d : NaiveDate) (day : Z) : option NaiveDate :=
  from_ymd_opt (nd_year d) (nd_month d) day.

(** Days before the first of the month; part of Datelike::ordinal,
    called at third-parties/calendar/src/lib.rs:161. *)
Definition days_before_month (y m : Z) : Z :=
  let l := if is_leap y then 1 else 0 in
  match m with
  | 1 => 0 | 2 => 31 | 3 => 59 + l | 4 => 90 + l | 5 => 120 + l | 6 => 151 + l
  | 7 => 181 + l | 8 => 212 + l | 9 => 243 + l | 10 => 273 + l | 11 => 304 + l | _ => 334 + l
  end.

(** Datelike::ordinal (day of year from 1), called at third-parties/calendar/src/lib.rs:161. *)
Definition ordinal (d : NaiveDate) : Z := days_before_month (nd_year d) (nd_month d) + nd_day d.

(** Days before 1 January of a year, part of Datelike::num_days_from_ce, called at date.rs:210. *)
Definition days_before_year (y : Z) : Z :=
  let p := y - 1 in 365 * p + p / 4 - p / 100 + p / 400.

(** Datelike::num_days_from_ce, called at date.rs:210. *)
Definition num_days_from_ce (d : NaiveDate) : Z := days_before_year (nd_year d) + ordinal d.

(** NaiveDate::MIN, the lower end of the range check behind date.rs:142, 158. *)
Definition MIN_DATE : NaiveDate := mkDate MIN_YEAR 1 1.
(** NaiveDate::MAX, the upper end of the same check. *)
Definition MAX_DATE : NaiveDate := mkDate MAX_YEAR 12 31.
(** Day number of NaiveDate::MIN (date.rs:142, 158). *)
Definition MIN_SERIAL : Z := num_days_from_ce MIN_DATE.
(** Day number of NaiveDate::MAX (date.rs:142, 158). *)
Definition MAX_SERIAL : Z := num_days_from_ce MAX_DATE.

(** The calendar date with a given day number (chrono: from_num_days_from_ce_opt without the
    range check); the arithmetic inside checked_add_days / Add<Duration>.
    Closed form counted from 1 March of year 0. *)
Definition civil_of_serial (n : Z) : NaiveDate :=
  let z := n + 305 in
  let era := z / 146097 in
  let doe := z mod 146097 in
  let yoe := (doe - doe / 1460 + doe / 36524 - doe / 146096) / 365 in
  let doy := doe - (365 * yoe + yoe / 4 - yoe / 100) in
  let mp := (5 * doy + 2) / 153 in
  let d := doy - (153 * mp + 2) / 5 + 1 in
  let m := if mp <? 10 then mp + 3 else mp - 9 in
  let y := yoe + 400 * era + (if m <=? 2 then 1 else 0) in
  mkDate y m d.

(** Day number to NaiveDate, None outside MIN..MAX: the range check behind date.rs:142, 158. *)
Definition of_serial (n : Z) : option NaiveDate :=
  if (MIN_SERIAL <=? n) && (n <=? MAX_SERIAL) then Some (civil_of_serial n) else None.

(** NaiveDate::checked_add_days(Days(n)), n : u64, called at date.rs:142. *)
Definition checked_add_days (d : NaiveDate) (n : Z) : option NaiveDate :=
  if n <=? i32_max then of_serial (num_days_from_ce d + n) else None.

(** NaiveDate::checked_sub_days, called at date.rs:158. *)
Definition checked_sub_days (d : NaiveDate) (n : Z) : option NaiveDate :=
  if n <=? i32_max then of_serial (num_days_from_ce d - n) else None.

(** NaiveDate::succ_opt, called at date.rs:167. *)
Definition succ_opt (d : NaiveDate) : option NaiveDate :=
  if nd_day d <? month_len (nd_year d) (nd_month d)
  then Some (mkDate (nd_year d) (nd_month d) (nd_day d + 1))
  else if nd_month d <? 12 then Some (mkDate (nd_year d) (nd_month d + 1) 1)
  else if nd_year d <? MAX_YEAR then Some (mkDate (nd_year d + 1) 1 1)
  else None.

(** NaiveDate::pred_opt, called at date.rs:175 and third-parties/calendar/src/lib.rs:170. *)
Definition pred_opt (d : NaiveDate) : option NaiveDate :=
  if 1 <? nd_day d then Some (mkDate (nd_year d) (nd_month d) (nd_day d - 1))
  else if 1 <? nd_month d
  then Some (mkDate (nd_year d) (nd_month d - 1) (month_len (nd_year d) (nd_month d - 1)))
  else if MIN_YEAR <? nd_year d then Some (mkDate (nd_year d - 1) 12 31)
  else None.

(** NaiveDate::diff_months, shared by checked_add_months / checked_sub_months (date.rs:97, 118):
    month arithmetic with the day clamped to the length of the target month. *)
Definition diff_months (d : NaiveDate) (k : Z) : option NaiveDate :=
  let t := nd_year d * 12 + (nd_month d - 1) + k in
  let y := t / 12 in
  let m := t mod 12 + 1 in
  from_ymd_opt y m (Z.min (nd_day d) (month_len y m)).

(** NaiveDate::checked_add_months(Months(n)), n : u32, called at date.rs:97, 103.
    n above i32::MAX gives None; otherwise i32 overflow inside chrono also gives None, which
    is covered by the year range check. *)
Definition checked_add_months (d : NaiveDate) (n : Z) : option NaiveDate :=
  if n =? 0 then Some d
  else if n <=? i32_max then diff_months d n else None.

(** NaiveDate::checked_sub_months, called at date.rs:118, 124. *)
Definition checked_sub_months (d : NaiveDate) (n : Z) : option NaiveDate :=
  if n =? 0 then Some d
  else if n <=? i32_max then diff_months d (- n) else None.

(** chrono::Weekday, used at date.rs:224 and by every calendar.  Discriminants Mon = 0 .. Sun = 6. *)
Inductive Weekday := Mon | Tue | Wed | Thu | Fri | Sat | Sun.

(** [weekday as u32] (date.rs:225-226). *)
Definition weekday_num (w : Weekday) : Z :=
  match w with Mon => 0 | Tue => 1 | Wed => 2 | Thu => 3 | Fri => 4 | Sat => 5 | Sun => 6 end.

(** Equality on weekdays, derived PartialEq, used in every calendar. *)
Definition weekday_eqb (a b : Weekday) : bool :=
  match a, b with
  | Mon, Mon | Tue, Tue | Wed, Wed | Thu, Thu | Fri, Fri | Sat, Sat | Sun, Sun => true
  | _, _ => false
  end.

(** Weekday with a given number modulo 7 (inverse of [weekday_num]; date.rs:224). *)
Definition weekday_of_num (k : Z) : Weekday :=
  match k with
  | 0 => Mon | 1 => Tue | 2 => Wed | 3 => Thu | 4 => Fri | 5 => Sat | _ => Sun
  end.

(** Datelike::weekday, called at date.rs:224, calendar lib.rs:158, 191.  0001-01-01 is a Monday. *)
Definition weekday (d : NaiveDate) : Weekday := weekday_of_num ((num_days_from_ce d - 1) mod 7).

(** Derived Ord/Eq of NaiveDate (date.rs:11; calendar lib.rs:209): chrono compares
    (year, ordinal), which on valid dates is the lexicographic order of (year, month, day). *)
Definition date_compare (a b : NaiveDate) : comparison :=
  match nd_year a ?= nd_year b with
  | Eq => match nd_month a ?= nd_month b with
          | Eq => nd_day a ?= nd_day b
          | c => c
          end
  | c => c
  end.
(** [a < b] on dates (calendar lib.rs:209). *)
Definition date_ltb (a b : NaiveDate) : bool := match date_compare a b with Lt => true | _ => false end.
(** [a <= b] on dates (bond.rs:73). *)
Definition date_leb (a b : NaiveDate) : bool := match date_compare a b with Gt => false | _ => true end.
(** [a == b] on dates (yield_curve.rs:102). *)
Definition date_eqb (a b : NaiveDate) : bool := match date_compare a b with Eq => true | _ => false end.

(** NaiveDate - NaiveDate in whole days, used at date.rs:245 and calendar lib.rs:215-217.
    A difference of two NaiveDates always fits chrono's Duration. *)
Definition diff_days (a b : NaiveDate) : Z := num_days_from_ce a - num_days_from_ce b.

(** NaiveDate + Duration::days(n): panics when out of range (calendar lib.rs:215, 216, 218). *)
Definition add_duration (d : NaiveDate) (n : Z) : M NaiveDate :=
  unwrap (of_serial (num_days_from_ce d + n)).
