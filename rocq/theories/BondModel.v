(** crates/qlab-instrument/src/bond.rs, function by function. *)
From Coq Require Import ZArith Bool List String.
From Verif Require Import Base Chrono DateModel Value DayCountModel InterpModel CurveModel.
Import ListNotations.
Open Scope Z_scope.

(** crates/qlab-time/src/frequency.rs:1-4. *)
Inductive Frequency := SA.

(** frequency.rs:3  the discriminant, read by [coupon_frequency as u32] and [as u8] at bond.rs:67-68. *)
Definition frequency_num (f : Frequency) : Z := match f with SA => 2 end.

(** bond.rs:11-15  struct BondCashFlow. *)
Record BondCashFlow (V : Type) := mkFlow { due_date : Date; payment_date : Date; payment_amount : V }.
Arguments mkFlow {V}.
Arguments due_date {V}.
Arguments payment_date {V}.
Arguments payment_amount {V}.

(** bond.rs:27-30  struct Bond. *)
Record Bond (V : Type) := mkBond { bond_id_field : string; bond_cash_flows : list (BondCashFlow V) }.
Arguments mkBond {V}.
Arguments bond_id_field {V}.
Arguments bond_cash_flows {V}.

(** bond.rs:73-82  one round of the while loop; the state is (regular_due_date, bond_cash_flows). *)
Definition schedule_step {V : Value} (penultimate : Date) (months : Z) (regular : V)
  (s : Date * list (BondCashFlow V))
  : (Date * list (BondCashFlow V)) + M (option (list (BondCashFlow V))) :=
  let (due, flows) := s in
  if date_leb due penultimate then
    match weekend_roll due with
    | None => inr (Ret None)
    | Some payment =>
        match date_add_months due months with
        | None => inr (Ret None)
        | Some due' => inl (due', flows ++ [mkFlow due payment regular])
        end
    end
  else inr (Ret (Some flows)).

(** bond.rs:104-128  Bond::first_cash_flow.  The mutated slice is returned. *)
Definition first_cash_flow {V : Value} (issue first : Date) (months : Z) (regular : V)
  (flows : list (BondCashFlow V)) : M (option (list (BondCashFlow V))) :=
  try_opt (date_sub_months first months) (fun first_prior =>
  match date_compare first_prior issue with
  | Lt =>
      try_opt (v_of_int (date_sub first issue)) (fun n =>
      try_opt (v_of_int (date_sub first first_prior)) (fun m =>
      let coupon_fraction := (n / m)%V in
      f0 <- index flows 0 ;;
      flows' <- update flows 0 (mkFlow (due_date f0) (payment_date f0) (payment_amount f0 * coupon_fraction)%V) ;;
      Ret (Some flows')))
  | Gt =>
      try_opt (date_sub_months first_prior months) (fun second_prior =>
      try_opt (v_of_int (date_sub first_prior issue)) (fun n =>
      try_opt (v_of_int (date_sub first_prior second_prior)) (fun m =>
      let coupon_fraction := (n / m)%V in
      f0 <- index flows 0 ;;
      flows' <- update flows 0
        (mkFlow (due_date f0) (payment_date f0) (payment_amount f0 + coupon_fraction * regular)%V) ;;
      Ret (Some flows'))))
  | Eq => Ret (Some flows)
  end).

(** bond.rs:130-160  Bond::final_cash_flow. *)
Definition final_cash_flow {V : Value} (penultimate maturity : Date) (face : V) (months : Z) (regular : V)
  : M (option (BondCashFlow V)) :=
  try_opt (date_add_months penultimate months) (fun maturity_regular =>
  let flow c := Ret (Some (mkFlow maturity maturity (face + c)%V)) in
  match date_compare maturity maturity_regular with
  | Lt =>
      try_opt (v_of_int (date_sub maturity penultimate)) (fun n =>
      try_opt (v_of_int (date_sub maturity_regular penultimate)) (fun m =>
      flow (regular * (n / m))%V))
  | Gt =>
      try_opt (date_add_months maturity_regular months) (fun next_regular =>
      try_opt (v_of_int (date_sub maturity maturity_regular)) (fun n =>
      try_opt (v_of_int (date_sub next_regular maturity_regular)) (fun m =>
      flow (regular + n / m * regular)%V)))
  | Eq => flow regular
  end).

(** bond.rs:57-102  Bond::new.  The loop is given fuel [roll_fuel]. *)
Definition bond_new {V : Value} (bond_id : string) (issue first penultimate maturity : Date)
  (frequency : Frequency) (coupon_rate face_value : V) : M (option (Bond V)) :=
  let months := 12 / frequency_num frequency in
  try_opt (v_of_int (frequency_num frequency)) (fun f =>
  let regular := (coupon_rate * face_value / f)%V in
  flows <- while roll_fuel (schedule_step penultimate months regular) (first, []) ;;
  try_opt flows (fun flows =>
  flows <- first_cash_flow issue first months regular flows ;;
  try_opt flows (fun flows =>
  last <- final_cash_flow penultimate maturity face_value months regular ;;
  try_opt last (fun last => Ret (Some (mkBond bond_id (flows ++ [last]))))))).

(** bond.rs:188-194  body of the loop over the cash flows; the [?] leaves the function, hence the result
    in the state. *)
Definition value_step {V : Value} (D : DayCount V) {I : Interpolator V} (settle : Date) (curve : YieldCurve V I)
  (flow : BondCashFlow V) (pv : QLabResult V) : M (QLabResult V) :=
  try_res pv (fun pv =>
  if date_ltb settle (due_date flow) then
    df <- discount_factor D curve settle (payment_date flow) ;;
    try_res df (fun df => Ret (Ok (pv + df * payment_amount flow)%V))
  else Ret (Ok pv)).

(** bond.rs:182-196  Bond::discounted_value. *)
Definition discounted_value {V : Value} (D : DayCount V) {I : Interpolator V} (self : Bond V) (settle : Date)
  (curve : YieldCurve V I) : M (QLabResult V) :=
  for_each (bond_cash_flows self) (value_step D settle curve) (Ok v_zero).

(** bond.rs:198-200  Bond::bond_id. *)
Definition bond_id {V} (self : Bond V) : string := bond_id_field self.
