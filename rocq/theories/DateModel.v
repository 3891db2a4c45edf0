(** crates/qlab-time/src/date.rs, function by function. *)
From Coq Require Import ZArith Bool List Lia.
From Verif Require Import Base Chrono.
Import ListNotations.
Open Scope Z_scope.

(** date.rs:12  pub struct Date(pub(crate) NaiveDate).  The newtype is transparent in the model. *)
Definition Date := NaiveDate.

(** date.rs:28-30  Date::from_ymd. *)
Definition from_ymd (y m d : Z) : option Date := from_ymd_opt y m d.

(** date.rs:31-44  Date::days_in_month. *)
Definition days_in_month (month : Z) (leap : bool) : option Z :=
  match month with
  | 1 | 3 | 5 | 7 | 8 | 10 | 12 => Some 31
  | 4 | 6 | 9 | 11 => Some 30
  | 2 => if leap then Some 29 else Some 28
  | _ => None
  end.

(** date.rs:53-55  Date::leap_year. *)
Definition leap_year (d : Date) : bool := is_leap (nd_year d).

(** date.rs:181-183  Date::year. *)
Definition year (d : Date) : Z := nd_year d.
(** date.rs:187-189  Date::month. *)
Definition month (d : Date) : Z := nd_month d.
(** date.rs:197-199  Date::day. *)
Definition day (d : Date) : Z := nd_day d.

(** date.rs:72-82  Date::checked_add_years.  [year + rhs] is an i32 addition whose overflow depends
    on the build; it is evaluated again inside the closure at line 76 with the same outcome. *)
Definition date_add_years (b : build) (d : Date) (k : Z) : M (option Date) :=
  y <- i32_of b (nd_year d + k) ;;
  match with_year d y with
  | Some r => Ret (Some r)
  | None =>
      match with_day d 28 with
      | Some d28 => y' <- i32_of b (nd_year d + k) ;; Ret (with_year d28 y')
      | None => Ret None
      end
  end.

(** date.rs:96-107  Date::checked_add_months, with its fallback branch. *)
Definition date_add_months (d : Date) (n : Z) : option Date :=
  match checked_add_months d n with
  | Some r => Some r
  | None =>
      match days_in_month (month d) (leap_year d) with
      | None => None
      | Some len =>
          match with_day d len with
          | None => None
          | Some r => checked_add_months r n
          end
      end
  end.

(** date.rs:117-128  Date::checked_sub_months. *)
Definition date_sub_months (d : Date) (n : Z) : option Date :=
  match checked_sub_months d n with
  | Some r => Some r
  | None =>
      match days_in_month (month d) (leap_year d) with
      | None => None
      | Some len =>
          match with_day d len with
          | None => None
          | Some r => checked_sub_months r n
          end
      end
  end.

(** date.rs:140-144  Date::checked_add_days. *)
Definition date_add_days (d : Date) (n : Z) : option Date := checked_add_days d n.
(** date.rs:156-160  Date::checked_sub_days. *)
Definition date_sub_days (d : Date) (n : Z) : option Date := checked_sub_days d n.
(** date.rs:166-168  Date::succ_opt. *)
Definition date_succ (d : Date) : option Date := succ_opt d.
(** date.rs:174-176  Date::pred_opt. *)
Definition date_pred (d : Date) : option Date := pred_opt d.

(** date.rs:209-211  Date::serial_date. *)
Definition serial_date (d : Date) : Z := num_days_from_ce d.

(** date.rs:222-232  Date::weekend_roll, including the branch of lines 228-230. *)
Definition weekend_roll (d : Date) : option Date :=
  let original_month := nd_month d in
  let w := weekday_num (weekday d) in
  if 4 <? w then date_add_days d (7 - w)
  else if (original_month <? nd_month d) || ((original_month =? 12) && (nd_month d =? 1))
  then date_sub_days d 3
  else Some d.

(** date.rs:241-247  impl Sub for Date. *)
Definition date_sub (a b : Date) : Z := diff_days a b.

(** crates/qlab-time/src/period.rs:1-9 and period/{days,months,years}.rs:1-18: a Period is anything
    with [checked_add]; the three provided implementations follow.  A user-defined Period may
    panic, hence M. *)
Definition Period := Date -> M (option Date).
(** crates/qlab-time/src/period/days.rs:1-18. *)
Definition Days (n : Z) : Period := fun d => Ret (date_add_days d n).
(** crates/qlab-time/src/period/months.rs:1-18. *)
Definition Months (n : Z) : Period := fun d => Ret (date_add_months d n).
(** crates/qlab-time/src/period/years.rs:1-18. *)
Definition Years (b : build) (k : Z) : Period := fun d => date_add_years b d k.

(** crates/qlab-time/src/calendar.rs:3-19: a calendar is its business-day test; it may panic
    (the Easter tables do). *)
Definition Calendar := Date -> M bool.
(** crates/qlab-time/src/calendar.rs:3-19 provided method is_holiday. *)
Definition date_is_holiday (c : Calendar) (d : Date) : M bool := b <- c d ;; Ret (negb b).

(** crates/qlab-time/src/date_rolling.rs:1-8. *)
Inductive DateRolling := Unadjusted | Following | ModifiedFollowing | Preceding | ModifiedPreceding.

(** Loop fuel: more than the number of representable dates (191,493,000 or so). *)
Definition roll_fuel : positive := 268435456.

(** date.rs:270-273: while !calendar.is_business_day(ret) { ret = ret.succ_opt()?; } Some(ret). *)
Definition roll_step (next : Date -> option Date) (c : Calendar) (ret : Date)
  : Date + M (option Date) :=
  match c ret with
  | Ret true => inr (Ret (Some ret))
  | Ret false => match next ret with Some r => inl r | None => inr (Ret None) end
  | Panic => inr Panic
  | OutOfFuel => inr OutOfFuel
  end.

(** date.rs:268-274 (Following) and 283-289 (Preceding): add the period, then step. *)
Definition roll_along (next : Date -> option Date) (d : Date) (p : Period) (c : Calendar)
  : M (option Date) :=
  o <- p d ;;
  match o with
  | None => Ret None
  | Some r0 => while roll_fuel (roll_step next c) r0
  end.

(** date.rs:260-299  Date::checked_roll.  The recursive calls with Unadjusted/Following/Preceding
    are unfolded. *)
Definition checked_roll (d : Date) (p : Period) (c : Calendar) (r : DateRolling) : M (option Date) :=
  match r with
  | Unadjusted => p d
  | Following => roll_along date_succ d p c
  | Preceding => roll_along date_pred d p c
  | ModifiedFollowing =>
      o <- roll_along date_succ d p c ;;
      match o with
      | None => Ret None
      | Some ret => if month ret =? month d then Ret (Some ret) else roll_along date_pred d p c
      end
  | ModifiedPreceding =>
      o <- roll_along date_pred d p c ;;
      match o with
      | None => Ret None
      | Some ret => if month ret =? month d then Ret (Some ret) else roll_along date_succ d p c
      end
  end.
