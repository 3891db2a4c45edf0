(** The [Calendar] trait of third-parties/calendar/src/lib.rs and the joint calendar.
    Line numbers are relative to third-parties/calendar/src. *)
From Coq Require Import ZArith Bool List.
From Verif Require Import Base Chrono EasterTables.
Local Open Scope Z_scope.
Local Open Scope bool_scope.

(** lib.rs:155-163 Calendar::naive_date_to_dkmy. *)
Definition naive_date_to_dkmy (date : NaiveDate) : Z * Weekday * Z * Z * Z :=
  (nd_day date, weekday date, nd_month date, nd_year date, ordinal date).

(** Slice indexing [table[i]] with [i : usize] (lib.rs:183, 187): panics when out of bounds. *)
Definition index_usize (table : list Z) (i : Z) : M Z :=
  if i <? Z.of_nat (length table) then index table (Z.to_nat i) else Panic.

(** [year as usize - 1901usize] (lib.rs:183, 187), [year : i32], 64-bit usize.  In a build with
    overflow checks a negative difference panics at once; here it wraps to an index which is out
    of bounds and panics in [index_usize], so the two builds cannot be told apart. *)
Definition easter_index (year : Z) : Z :=
  (year mod 18446744073709551616 - 1901) mod 18446744073709551616.

(** lib.rs:182-184 Calendar::easter_monday. *)
Definition easter_monday (year : Z) : M Z := index_usize EASTER_MONDAY (easter_index year).

(** lib.rs:186-188 Calendar::orthodox_easter_monday. *)
Definition orthodox_easter_monday (year : Z) : M Z :=
  index_usize ORTHODOX_EASTER_MONDAY (easter_index year).

(** lib.rs:190-193 Calendar::is_weekend. *)
Definition is_weekend (date : NaiveDate) : bool :=
  match weekday date with Sat | Sun => true | _ => false end.

(** A calendar is its [is_business_day] (lib.rs:195), the only required method of the trait; the
    remaining methods are the trait's default ones, which no calendar overrides. *)
Definition cal := NaiveDate -> M bool.

(** A calendar whose [is_business_day] cannot panic (e.g. weekendsonly.rs:10-12), as a [cal]. *)
Definition pure_cal (f : NaiveDate -> bool) : cal := fun date => Ret (f date).

(** lib.rs:197-199 Calendar::is_holiday. *)
Definition is_holiday (c : cal) (date : NaiveDate) : M bool := b <- c date ;; Ret (negb b).

(** lib.rs:165-172 Calendar::last_day_of_month.  The argument of [unwrap_or] is evaluated eagerly.
    [year + 1] and [month + 1] cannot overflow. *)
Definition last_day_of_month (date : NaiveDate) : M NaiveDate :=
  let year := nd_year date in
  let month := nd_month date in
  let a := from_ymd_opt year (month + 1) 1 in
  dflt <- unwrap (from_ymd_opt (year + 1) 1 1) ;;
  unwrap (pred_opt (match a with Some x => x | None => dflt end)).

(** Fuel of the loop at lib.rs:176-178: more than the number of representable dates. *)
Definition eom_fuel : positive := 268435456.

(** One round of the loop at lib.rs:176-178. *)
Definition eom_step (c : cal) (date : NaiveDate) : NaiveDate + M NaiveDate :=
  match is_holiday c date with
  | Ret true => match add_duration date (-1) with
                | Ret date' => inl date'
                | Panic => inr Panic
                | OutOfFuel => inr OutOfFuel
                end
  | Ret false => inr (Ret date)
  | Panic => inr Panic
  | OutOfFuel => inr OutOfFuel
  end.

(** lib.rs:174-180 Calendar::end_of_month. *)
Definition end_of_month (c : cal) (date : NaiveDate) : M NaiveDate :=
  l <- last_day_of_month date ;; while eom_fuel (eom_step c) l.

(** [i64::from(bool)] (lib.rs:215, 216, 218). *)
Definition i64_from (b : bool) : Z := if b then 1 else 0.

(** The loop at lib.rs:218-225: the first [n] dates of [date.iter_days()].  The iterator computes
    the following day before it yields the current one and stops when there is none. *)
Fixpoint count_days (c : cal) (date : NaiveDate) (n : nat) (day_count : Z) : M Z :=
  match n with
  | O => Ret day_count
  | S n' =>
      match succ_opt date with
      | None => Ret day_count
      | Some date' =>
          b <- c date ;;
          count_days c date' n' (if b then day_count + 1 else day_count)
      end
  end.

(** lib.rs:212-226, the part of Calendar::business_days_between after the swap.
    [usize::try_from(day_diff).unwrap()] panics on a negative count. *)
Definition business_days_ordered (c : cal) (from to : NaiveDate)
    (include_first include_last : option bool) : M Z :=
  let include_first := match include_first with Some b => b | None => true end in
  let include_last := match include_last with Some b => b | None => false end in
  t <- add_duration to (i64_from include_last) ;;
  f <- add_duration from (i64_from include_first) ;;
  let day_diff := diff_days t f in
  f' <- add_duration from (i64_from include_first) ;;
  if day_diff <? 0 then Panic else count_days c f' (Z.to_nat day_diff) 0.

(** lib.rs:202-227 Calendar::business_days_between.  The recursive call has its dates in order, so
    it does not recurse again. *)
Definition business_days_between (c : cal) (from to : NaiveDate)
    (include_first include_last : option bool) : M Z :=
  if date_ltb to from
  then r <- business_days_ordered c to from include_first include_last ;; Ret (- r)
  else business_days_ordered c from to include_first include_last.

(** jointcalendar.rs:17-21 JointCalendar::is_business_day; [&&] does not consult [c2] when [c1] is
    closed.  The struct (jointcalendar.rs:6-15) is the pair of its arguments. *)
Definition joint_calendar (c1 c2 : cal) : cal :=
  fun date => b <- c1 date ;; if b then c2 date else Ret false.

(** crates/qlab-time/src/calendar.rs:12-14 is_business_day of the blanket impl: [Date] is a wrapper
    around NaiveDate and is modelled by it. *)
Definition wrapped_is_business_day (c : cal) (date : NaiveDate) : M bool := c date.

(** crates/qlab-time/src/calendar.rs:16-18 is_holiday of the blanket impl. *)
Definition wrapped_is_holiday (c : cal) (date : NaiveDate) : M bool := is_holiday c date.
