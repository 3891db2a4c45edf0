(** Properties C76-C77: the provided periods without adjustment, and the order of the rolling conventions. *)
From Coq Require Import ZArith Bool List Lia.
From Verif Require Import Base Chrono Gregorian DateModel DateFacts LoopFacts PropsDate PropsRoll.
Import ListNotations.
Open Scope Z_scope.

(** ** C76: Unadjusted adds the period and asks the calendar nothing. *)

Theorem C76_days : forall d n c r, a_date d -> 0 <= n ->
  (checked_roll d (Days n) c Unadjusted = Ret (Some r) <-> a_date r /\ days_later (Z.to_nat n) d r)
  /\ (checked_roll d (Days n) c Unadjusted = Ret None <-> ~ exists x, a_date x /\ days_later (Z.to_nat n) d x).
Proof.
  intros d n c r Hd Hn. unfold checked_roll, Days. split.
  - rewrite <- C04_add_days by assumption. split; congruence.
  - rewrite <- (proj1 (C04_days_none d n Hd Hn)). split; congruence.
Qed.

Theorem C76_months : forall d n c r, a_date d -> 0 <= n ->
  (checked_roll d (Months n) c Unadjusted = Ret (Some r) <-> representable (year r) /\ months_moved d n r)
  /\ (checked_roll d (Months n) c Unadjusted = Ret None <-> 12 * 262142 + 12 < 12 * year d + month d + n).
Proof.
  intros d n c r Hd Hn. unfold checked_roll, Months. split.
  - rewrite <- C06_add_months by assumption. split; congruence.
  - rewrite <- C06_add_months_none by assumption. split; congruence.
Qed.

Theorem C76_years : forall b d k c r, a_date d -> in_i32 (year d + k) = true ->
  (checked_roll d (Years b k) c Unadjusted = Ret (Some r) <-> representable (year d + k) /\ years_moved d k r)
  /\ (checked_roll d (Years b k) c Unadjusted = Ret None <-> ~ representable (year d + k)).
Proof.
  intros b d k c r Hd I. unfold checked_roll, Years. split.
  - destruct (C09_add_years b d k Hd I) as (o & E & S). rewrite E, <- S. split; congruence.
  - now apply C09_add_years_none.
Qed.

Example C76_case :
  checked_roll (mkDate 2023 9 1) (Days 29) (fun _ => Panic) Unadjusted = Ret (Some (mkDate 2023 9 30))
  /\ checked_roll (mkDate 2023 8 31) (Months 6) (fun _ => Panic) Unadjusted = Ret (Some (mkDate 2024 2 29))
  /\ checked_roll (mkDate 2024 2 29) (Years Checked (-1)) (fun _ => Panic) Unadjusted = Ret (Some (mkDate 2023 2 28)).
Proof. repeat split; vm_compute; reflexivity. Qed.

(** ** C77: the order of the conventions. *)

(** Preceding and Following enclose the unadjusted date; no open day lies strictly between them. *)
Theorem C77_enclose : forall d p c d0 q f, p d = Ret (Some d0) -> a_date d0 ->
  checked_roll d p c Preceding = Ret (Some q) -> checked_roll d p c Following = Ret (Some f) ->
  ~ earlier d0 q /\ ~ earlier f d0 /\ (forall x, a_date x -> earlier q x -> earlier x f -> c x = Ret false)
  /\ (c d0 = Ret true <-> q = f).
Proof.
  intros d p c d0 q f Hp H0 Q F.
  apply (C15_preceding d p c d0 Hp H0) in Q. apply (C14_following d p c d0 Hp H0) in F.
  destruct Q as (Q1 & Q2 & Q3 & Q4), F as (F1 & F2 & F3 & F4).
  split; [exact Q2 |]. split; [exact F2 |]. split.
  - intros x Hx E1 E2. destruct (earlier_trichotomy d0 x) as [E | [<- | E]].
    + apply F4; auto. unfold earlier in *. lia.
    + apply F4; auto. unfold earlier in *. lia.
    + apply Q4; auto. unfold earlier in *. lia.
  - split.
    + intros O. destruct (earlier_trichotomy q d0) as [E | [<- | E]]; [| | tauto].
      * rewrite (Q4 d0 H0) in O; [discriminate | unfold earlier; lia | exact E].
      * destruct (earlier_trichotomy q f) as [E | [<- | E]]; [| reflexivity | tauto].
        rewrite (F4 q H0) in O; [discriminate | unfold earlier; lia | exact E].
    + intros <-. destruct (earlier_trichotomy q d0) as [E | [<- | E]]; tauto.
Qed.

(** A later unadjusted date never rolls to an earlier day. *)
Theorem C77_monotone : forall d p d' p' c d0 d0' k r r', k = Following \/ k = Preceding ->
  p d = Ret (Some d0) -> p' d' = Ret (Some d0') -> a_date d0 -> a_date d0' -> ~ earlier d0' d0 ->
  checked_roll d p c k = Ret (Some r) -> checked_roll d' p' c k = Ret (Some r') -> ~ earlier r' r.
Proof.
  intros d p d' p' c d0 d0' k r r' [-> | ->] Hp Hp' H0 H0' O R R' E.
  - apply (C14_following d p c d0 Hp H0) in R. apply (C14_following d' p' c d0' Hp' H0') in R'.
    destruct R as (A1 & A2 & A3 & A4), R' as (B1 & B2 & B3 & B4).
    rewrite (A4 r' B1) in B3; [discriminate | unfold earlier in *; lia | exact E].
  - apply (C15_preceding d p c d0 Hp H0) in R. apply (C15_preceding d' p' c d0' Hp' H0') in R'.
    destruct R as (A1 & A2 & A3 & A4), R' as (B1 & B2 & B3 & B4).
    rewrite (B4 r A1) in A3; [discriminate | unfold earlier in *; lia | exact E].
Qed.

(** The modified conventions choose between the two neighbours. *)
Theorem C77_modified : forall d p c k r, k = ModifiedFollowing \/ k = ModifiedPreceding ->
  checked_roll d p c k = Ret (Some r) ->
  checked_roll d p c Following = Ret (Some r) \/ checked_roll d p c Preceding = Ret (Some r).
Proof.
  intros d p c k r [-> | ->]; simpl.
  - destruct (roll_along date_succ d p c) as [[f |] | |]; simpl; try discriminate.
    destruct (_ =? _); [intros [= <-]; now left | now right].
  - destruct (roll_along date_pred d p c) as [[f |] | |]; simpl; try discriminate.
    destruct (_ =? _); [intros [= <-]; now right | now left].
Qed.

(** Rolling the result once more, by no days and under any convention, leaves it. *)
Theorem C77_idempotent : forall d p c d0 k k' r, k <> Unadjusted ->
  p d = Ret (Some d0) -> a_date d0 -> checked_roll d p c k = Ret (Some r) ->
  checked_roll r (Days 0) c k' = Ret (Some r).
Proof.
  intros d p c d0 k k' r Hk Hp H0 R.
  destruct (C16_result_is_business_day d p c k d0 r Hp H0 Hk R) as [O A].
  apply C16_business_day_unmoved with (d0 := r); auto. unfold Days. f_equal.
  apply C04_add_days; [exact A | lia |]. split; [exact A | constructor].
Qed.

(** The modified conventions can reverse the order of two dates: the code compares with the month of the start date. *)
Theorem C77_modified_order_refuted : exists d d' p d0 d0' r r',
  earlier d d' /\ p d = Ret (Some d0) /\ p d' = Ret (Some d0') /\ earlier d0 d0'
  /\ checked_roll d p weekdays_only ModifiedFollowing = Ret (Some r)
  /\ checked_roll d' p weekdays_only ModifiedFollowing = Ret (Some r') /\ earlier r' r.
Proof.
  exists (mkDate 2022 10 31), (mkDate 2022 11 1), (Months 11), (mkDate 2023 9 30), (mkDate 2023 10 1),
    (mkDate 2023 10 2), (mkDate 2023 9 29).
  repeat split; try (vm_compute; reflexivity); unfold earlier; simpl; lia.
Qed.

Example C77_case :
  checked_roll (mkDate 2023 9 30) (Days 1) weekdays_only Preceding = Ret (Some (mkDate 2023 9 29))
  /\ checked_roll (mkDate 2023 9 30) (Days 1) weekdays_only Following = Ret (Some (mkDate 2023 10 2))
  /\ weekdays_only (mkDate 2023 10 1) = Ret false
  /\ checked_roll (mkDate 2023 10 2) (Days 0) weekdays_only ModifiedPreceding = Ret (Some (mkDate 2023 10 2)).
Proof. repeat split; vm_compute; reflexivity. Qed.
