(** crates/qlab-time/src/day_count.rs and its three conventions. *)
From Coq Require Import ZArith Bool List.
From Verif Require Import Base Chrono DateModel TextModel Value.
Import ListNotations.
Open Scope Z_scope.

(** crates/qlab-time/src/day_count.rs:9-30  trait DayCount, at one Value type. *)
Definition DayCount (V : Value) := Date -> Date -> M (QLabResult V).

(** crates/qlab-time/src/day_count/act_360.rs:9-17. *)
Definition act_360 (V : Value) : DayCount V := fun date1 date2 =>
  match v_of_int (date_sub date2 date1) with
  | None => Ret (Err (CastNumberError (show_int (date_sub date2 date1))))
  | Some date_diff =>
      denomination <- v_const 360 ;;
      Ret (Ok (v_div date_diff denomination))
  end.

(** crates/qlab-time/src/day_count/act_365.rs:9-17. *)
Definition act_365 (V : Value) : DayCount V := fun date1 date2 =>
  match v_of_int (date_sub date2 date1) with
  | None => Ret (Err (CastNumberError (show_int (date_sub date2 date1))))
  | Some date_diff =>
      denomination <- v_const 365 ;;
      Ret (Ok (v_div date_diff denomination))
  end.

(** crates/qlab-time/src/day_count/thirty_360.rs:12-24  Thirty360::date_diff.  Every intermediate step is
    machine arithmetic: i32 subtraction of years, the cast [as u32], u32 products, sums, differences,
    evaluated left to right. *)
Definition thirty_360_diff (b : build) (date1 date2 : Date) : M (QLabResult Z) :=
  if date_ltb date2 date1 then Ret (Err (InvalidInput (msg_precede date1 date2)))
  else
    let d1 := Z.min (day date1) 30 in
    let d2 := Z.min (day date2) 30 in
    dy <- i32_of b (year date2 - year date1) ;;
    t1 <- u32_of b (360 * wrap_u32 dy) ;;
    dm <- u32_of b (month date2 - month date1) ;;
    t2 <- u32_of b (30 * dm) ;;
    t3 <- u32_of b (t1 + t2) ;;
    t4 <- u32_of b (t3 + d2) ;;
    t5 <- u32_of b (t4 - d1) ;;
    Ret (Ok t5).

(** crates/qlab-time/src/day_count/thirty_360.rs:27-36. *)
Definition thirty_360 (b : build) (V : Value) : DayCount V := fun date1 date2 =>
  r <- thirty_360_diff b date1 date2 ;;
  match r with
  | Err e => Ret (Err e)
  | Ok date_diff =>
      match v_of_int date_diff with
      | None => Ret (Err (CastNumberError (show_int date_diff)))
      | Some dd =>
          match v_of_int 360 with
          | None => Ret (Err (CastNumberError msg_360))
          | Some denomination => Ret (Ok (v_div dd denomination))
          end
      end
  end.
