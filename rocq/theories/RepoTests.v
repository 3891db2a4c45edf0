(** The remaining unit, documentation and integration tests of /repo, run on the model.  They are tests of the model,
    not theorems about it: the expected answers were written by the authors of the code. *)
From Coq Require Import ZArith Bool List String Lia.
From Flocq Require Import Core BinarySingleNaN.
From Verif Require Import Base Chrono DateModel Value DayCountModel FloatValue InterpModel CurveModel BondModel CalLib
  Calendars.
Import ListNotations.
Open Scope Z_scope.

(** date.rs:308-316 test_from_ymd_opt_valid_date. *)
Example test_from_ymd_opt_valid_date :
  option_map (fun d => (year d, month d, day d)) (from_ymd 2023 8 15) = Some (2023, 8, 15).
Proof. reflexivity. Qed.

(** date.rs:318-322 test_from_ymd_opt_invalid_year. *)
Example test_from_ymd_opt_invalid_year : from_ymd 2023 2 29 = None.
Proof. reflexivity. Qed.

(** date.rs:324-347 test_days_in_month_february, _april, _january, _out_of_range. *)
Example test_days_in_month :
  (days_in_month 2 true, days_in_month 2 false, days_in_month 4 true, days_in_month 4 false)
  = (Some 29, Some 28, Some 30, Some 30)
  /\ (days_in_month 1 true, days_in_month 1 false) = (Some 31, Some 31)
  /\ days_in_month 13 false = None.
Proof. repeat split. Qed.

(** date.rs:349-356 test_leap_year. *)
Example test_leap_year :
  (option_map leap_year (from_ymd 2023 12 27), option_map leap_year (from_ymd 2024 12 27)) = (Some false, Some true).
Proof. reflexivity. Qed.

(** date.rs:358-373 test_add_years. *)
Example test_add_years : forall b,
  date_add_years b (mkDate 2023 12 31) 1 = Ret (Some (mkDate 2024 12 31))
  /\ date_add_years b (mkDate 2024 2 29) 1 = Ret (Some (mkDate 2025 2 28)).
Proof. intros b. split; reflexivity. Qed.

(** date.rs:375-384 test_add_months. *)
Example test_add_months : date_add_months (mkDate 2023 12 31) 2 = Some (mkDate 2024 2 29).
Proof. reflexivity. Qed.

(** date.rs:386-395 test_sub_months. *)
Example test_sub_months : date_sub_months (mkDate 2023 2 1) 2 = Some (mkDate 2022 12 1).
Proof. reflexivity. Qed.

(** date.rs:397-406 test_add_days. *)
Example test_add_days : date_add_days (mkDate 2023 2 28) 2 = Some (mkDate 2023 3 2).
Proof. reflexivity. Qed.

(** date.rs:408-417 test_sub_days. *)
Example test_sub_days : date_sub_days (mkDate 2023 3 1) 2 = Some (mkDate 2023 2 27).
Proof. reflexivity. Qed.

(** date.rs:419-423 test_serial_date. *)
Example test_serial_date : serial_date (mkDate 2023 3 1) = 738580.
Proof. reflexivity. Qed.

(** date.rs:425-444 test_weekend_roll. *)
Example test_weekend_roll :
  weekday (mkDate 2023 3 5) = Sun /\ weekend_roll (mkDate 2023 3 5) = Some (mkDate 2023 3 6)
  /\ weekday (mkDate 2023 3 4) = Sat /\ weekend_roll (mkDate 2023 3 4) = Some (mkDate 2023 3 6).
Proof. repeat split. Qed.

(** An exponential for running the tests that need one (yield_curve.rs:101, 106): [exp x] by its series in fixed point
    with 120 bits, rounded at the end.  Not part of the model, which leaves [exp] open. *)
Definition test_exp (x : binary_float 53 1024) : binary_float 53 1024 :=
  let fix series (n : nat) (k t acc fx : Z) : Z :=
    match n with
    | O => acc
    | S n' => let t' := t * fx / k / 2 ^ 120 in series n' (k + 1) t' (acc + t') fx
    end in
  match x with
  | B754_finite s m e _ =>
      let a := Z.shiftl (if s then - Z.pos m else Z.pos m) (120 + e) in
      binary_normalize 53 1024 Hp53 He1024 mode_NE (series 80%nat 1 (2 ^ 120) (2 ^ 120) a) (-120) false
  | _ => binary_normalize 53 1024 Hp53 He1024 mode_NE 1 0 false
  end.

(** f64 of the tests (value.rs:26). *)
Definition V64 : Value := F64 test_exp.

(** The literal n/d: the nearest f64 when n and d are exact (natural_cubic.rs:146 and the like). *)
Definition lit (n d : Z) : V64 :=
  match @v_of_int V64 n, @v_of_int V64 d with Some a, Some b => v_div a b | _, _ => v_zero end.

(** [(f - n/d).abs() < en/ed], computed exactly (act_360.rs:30 and the like). *)
Definition near (f : V64) (n d en ed : Z) : bool :=
  match (f : binary_float 53 1024) with
  | B754_finite s m e _ =>
      let m' := if s then - Z.pos m else Z.pos m in
      let (p, q) := if e <? 0 then (m', 2 ^ (- e)) else (m' * 2 ^ e, 1) in
      Z.abs (p * d - n * q) * ed <? en * (q * d)
  | _ => false
  end.

(** [near] on the result of a call (as above). *)
Definition gives_near {E} (r : M (result V64 E)) (n d en ed : Z) : bool :=
  match r with Ret (Ok f) => near f n d en ed | _ => false end.

(** act_360.rs:25-31. *)
Example test_act_360 :
  gives_near (act_360 V64 (mkDate 2023 1 1) (mkDate 2023 12 31)) 101111 100000 1 1000 = true.
Proof. vm_compute. reflexivity. Qed.

(** act_365.rs:25-31. *)
Example test_act_365 :
  gives_near (act_365 V64 (mkDate 2023 1 1) (mkDate 2023 12 31)) 99726 100000 1 1000 = true.
Proof. vm_compute. reflexivity. Qed.

(** thirty_360.rs:44-50. *)
Example test_thirty_360 : forall b,
  gives_near (thirty_360 b V64 (mkDate 2023 1 1) (mkDate 2023 12 31)) 997222 1000000 1 1000 = true.
Proof. intros [|]; vm_compute; reflexivity. Qed.

(** linear.rs:14-22 documentation test, in f32. *)
Example test_linear_doc : forall e,
  let V := F32 e in
  let f := fun z => binary_normalize 24 128 Hp24 He128 mode_NE z 0 false : V in
  exists r : binary_float 24 128,
    (match linear_try_fit [] [(f 1, f 2); (f 3, f 4)] with
     | Ret (Ok l) => linear_try_value l (f 2)
     | _ => Panic
     end) = Ret (Ok r) /\ B2SF r = B2SF (f 3).
Proof. intros e. eexists. split; [reflexivity | vm_compute; reflexivity]. Qed.

(** catmull_rom.rs:171-177 test_f64. *)
Example test_catmull_rom :
  (match catmull_rom_try_fit [] [(lit 0 1, lit 1 1); (lit 1 2, lit 1 2); (lit 1 1, lit 0 1)] with
   | Ret (Ok l) => gives_near (catmull_rom_try_value l (lit 3 4)) 27083333333333337 (10 ^ 17) 1 (2 ^ 52)
   | _ => false
   end) = true.
Proof. vm_compute. reflexivity. Qed.

(** natural_cubic.rs:144-150 test_f64: passes because (0.25 - val) / 0.25 is bounded on one side only. *)
Example test_natural_cubic :
  (match natural_cubic_try_fit [] [(lit 0 1, lit 1 1); (lit 1 2, lit 1 2); (lit 1 1, lit 0 1)] with
   | Ret (Ok l) =>
       match natural_cubic_try_value l (lit 3 4) with
       | Ret (Ok val) => v_ltb ((lit 1 4 - val) / lit 1 4)%V (lit 1 (2 ^ 52))
       | _ => false
       end
   | _ => false
   end) = true.
Proof. vm_compute. reflexivity. Qed.

(** yield_curve.rs:121-134  struct Flat of the tests; Default gives 0. *)
Definition Flat : Interpolator V64 :=
  mkInterpolator V64 V64 v_zero (fun self _ => Ret (Ok self)) (fun self _ => Ret (Ok self)).

(** yield_curve.rs:136-149 test_discount_factor. *)
Example test_discount_factor :
  (match curve_new (act_365 V64) Flat (mkDate 2022 12 31) [mkDate 2022 12 31] [lit 2 100] with
   | Ret (Ok c) => gives_near (discount_factor (act_365 V64) c (mkDate 2023 1 1) (mkDate 2023 12 31)) 1 1 1 (2 ^ 52)
   | _ => false
   end) = true.
Proof. vm_compute. reflexivity. Qed.

(** crates/qlab/tests/calculate_bond.rs:37-40  the spot yields. *)
Definition test_yields : list V64 :=
  map (fun n => lit n 10000) [200; 219; 237; 267; 312; 343; 378; 393; 400; 401; 401; 400].

(** crates/qlab/tests/calculate_bond.rs:23-36  the maturities. *)
Definition test_maturities : list Date :=
  [mkDate 2023 10 11; mkDate 2024 1 10; mkDate 2024 4 10; mkDate 2024 10 10; mkDate 2025 10 10; mkDate 2026 10 12;
   mkDate 2028 10 10; mkDate 2030 10 10; mkDate 2033 10 10; mkDate 2038 10 11; mkDate 2043 10 12; mkDate 2053 10 10].

(** crates/qlab/tests/calculate_bond.rs:9-50  the value printed at the end. *)
Definition test_bond_value : M (QLabResult V64) :=
  bond <- bond_new "20 yr bond" (mkDate 2023 5 8) (mkDate 2023 11 7) (mkDate 2042 5 7) (mkDate 2042 11 7) SA
            (lit 62 1000) (lit 1000 1) ;;
  curve <- curve_new (act_365 V64) (NaturalCubic V64) (mkDate 2023 10 10) test_maturities test_yields ;;
  match bond, curve with
  | Some bond, Ok curve => discounted_value (act_365 V64) bond (mkDate 2023 10 10) curve
  | _, _ => Panic
  end.

(** crates/qlab/tests/calculate_bond.rs:53: "1314.5577192000126" is the shortest decimal of the double computed here.
    It is within half a unit in the last place. *)
Example test_calculate_bond : gives_near test_bond_value 13145577192000126 (10 ^ 13) 1 (2 ^ 43) = true.
Proof. vm_compute. reflexivity. Qed.

(** third-parties/calendar/src/lib.rs:236-243 test_business_days_between. *)
Example test_business_days_between :
  let c := country_cal (UnitedKingdom None) in
  business_days_between c (mkDate 2023 4 1) (mkDate 2023 4 30) None None = Ret 18
  /\ business_days_between c (mkDate 2023 4 30) (mkDate 2023 4 1) None None = Ret (-18).
Proof. split; vm_compute; reflexivity. Qed.

(** third-parties/calendar/src/unitedkingdom.rs:98-108 test_easter_monday. *)
Example test_easter_monday : easter_monday 2023 = Ret (ordinal (mkDate 2023 4 10)).
Proof. vm_compute. reflexivity. Qed.

(** third-parties/calendar/src/weekendsonly.rs:21-32 test_weekends_only. *)
Example test_weekends_only :
  forallb (fun n =>
    match add_duration (mkDate 2023 1 1) (Z.of_nat n) with
    | Ret d =>
        match country_cal WeekendsOnly d with
        | Ret b => Bool.eqb b (negb (match weekday d with Sat | Sun => true | _ => false end))
        | _ => false
        end
    | _ => false
    end) (seq 0 365) = true.
Proof. vm_compute. reflexivity. Qed.
