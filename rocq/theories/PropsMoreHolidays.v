(** Property C116: calendars with more holidays. *)
From Coq Require Import ZArith Bool List Lia.
From Verif Require Import Base Chrono Gregorian DateModel DateFacts LoopFacts PropsDate PropsRoll CalLib PropsCalLib.
Import ListNotations.
Open Scope Z_scope.

#[local] Hint Resolve a_date_proper : core.

(** ** Specification *)

(** Every day open under [c'] is open under [c]: [c'] has all the holidays of [c], and perhaps more. *)
Definition more_holidays (c c' : cal) : Prop := forall d, a_date d -> c' d = Ret true -> c d = Ret true.

(** ** C116 *)

(** More holidays: Following rolls no less far, and Preceding no less far back. *)
Theorem C116_following : forall c c' d p d0 r r', more_holidays c c' -> p d = Ret (Some d0) -> a_date d0 ->
  checked_roll d p c Following = Ret (Some r) -> checked_roll d p c' Following = Ret (Some r') -> ~ earlier r' r.
Proof.
  intros c c' d p d0 r r' M Hp H0 R R' E.
  apply (C14_following d p c d0 Hp H0) in R. apply (C14_following d p c' d0 Hp H0) in R'.
  destruct R as (A1 & A2 & A3 & A4), R' as (B1 & B2 & B3 & B4).
  pose proof (A4 r' B1 B2 E). pose proof (M r' B1 B3). congruence.
Qed.

Theorem C116_preceding : forall c c' d p d0 r r', more_holidays c c' -> p d = Ret (Some d0) -> a_date d0 ->
  checked_roll d p c Preceding = Ret (Some r) -> checked_roll d p c' Preceding = Ret (Some r') -> ~ earlier r r'.
Proof.
  intros c c' d p d0 r r' M Hp H0 R R' E.
  apply (C15_preceding d p c d0 Hp H0) in R. apply (C15_preceding d p c' d0 Hp H0) in R'.
  destruct R as (A1 & A2 & A3 & A4), R' as (B1 & B2 & B3 & B4).
  pose proof (A4 r' B1 B2 E). pose proof (M r' B1 B3). congruence.
Qed.

(** The two agree exactly when the day reached under the fewer holidays is open under the more. *)
Theorem C116_agree : forall c c' d p d0 r, more_holidays c c' -> (forall x, a_date x -> c' x = Ret true \/ c' x = Ret false) ->
  p d = Ret (Some d0) -> a_date d0 -> checked_roll d p c Following = Ret (Some r) ->
  (checked_roll d p c' Following = Ret (Some r) <-> c' r = Ret true).
Proof.
  intros c c' d p d0 r M T Hp H0 R. apply (C14_following d p c d0 Hp H0) in R. destruct R as (A1 & A2 & A3 & A4).
  rewrite (proj1 (C14_following d p c' d0 Hp H0) r). split; [intros (_ & _ & O & _); exact O |]. intros O.
  split; [exact A1 |]. split; [exact A2 |]. split; [exact O |]. intros x X N E.
  destruct (T x X) as [Q | Q]; [| exact Q]. pose proof (M x X Q). pose proof (A4 x X N E). congruence.
Qed.

(** The last business day of the month comes no later. *)
Theorem C116_end_of_month : forall c c' d r r', more_holidays c c' -> a_date d ->
  (forall x, c x <> OutOfFuel) -> (forall x, c' x <> OutOfFuel) ->
  end_of_month c d = Ret r -> end_of_month c' d = Ret r' -> ~ earlier r r'.
Proof.
  intros c c' d r r' M H F F' R R' E.
  apply (C61_end_of_month c d r H F) in R. apply (C61_end_of_month c' d r' H F') in R'.
  destruct R as (l & Hl & A1 & A2 & A3 & A4), R' as (l' & Hl' & B1 & B2 & B3 & B4).
  rewrite Hl in Hl'. injection Hl' as <-. pose proof (A4 r' B1 B2 E). pose proof (M r' B1 B3). congruence.
Qed.

Lemma succ_a_date d d' : a_date d -> succ_opt d = Some d' -> a_date d'.
Proof. intros H E. apply succ_opt_spec in E; [| now apply valid_a_date]. now apply valid_a_date. Qed.

Lemma count_fewer c c' : more_holidays c c' -> forall n d a a' x x', a_date d -> a' <= a ->
  count_days c d n a = Ret x -> count_days c' d n a' = Ret x' -> x' <= x.
Proof.
  intros M. induction n as [| n IH]; intros d a a' x x' H L E E'; cbn [count_days] in E, E'.
  - injection E as <-. injection E' as <-. exact L.
  - destruct (succ_opt d) as [d' |] eqn:S; [| injection E as <-; injection E' as <-; exact L].
    destruct (c d) as [b | |] eqn:C; try discriminate. destruct (c' d) as [b' | |] eqn:C'; try discriminate. cbn [bind] in E, E'.
    refine (IH d' _ _ x x' (succ_a_date d d' H S) _ E E').
    destruct b'; [assert (b = true) as -> by (pose proof (M d H C'); congruence); lia | destruct b; lia].
Qed.

(** There are no more business days between two dates. *)
Theorem C116_counts : forall c c' from to i l n n', more_holidays c c' -> a_date from -> a_date to -> ~ earlier to from ->
  business_days_between c from to i l = Ret n -> business_days_between c' from to i l = Ret n' -> n' <= n.
Proof.
  intros c c' from to i l n n' M Hf Ht O E E'. unfold business_days_between in *.
  destruct (date_ltb to from) eqn:Q; [apply date_ltb_earlier in Q; contradiction |].
  unfold business_days_ordered in *.
  destruct (add_duration to _) as [t | |]; try discriminate. cbn [bind] in E, E'.
  destruct (add_duration from _) as [f | |] eqn:Ef; try discriminate. cbn [bind] in E, E'.
  apply add_duration_shift in Ef; [| exact Hf]. destruct (diff_days t f <? 0); try discriminate.
  exact (count_fewer c c' M _ f 0 0 n n' (proj1 Ef) (Z.le_refl 0) E E').
Qed.

(** *** Joint calendars *)

(** A joint calendar has the holidays of each of its calendars. *)
Lemma joint_more n c : leaf_of c n -> more_holidays c (nest_cal n).
Proof. intros L d _ E. exact (proj1 (C56_open n d) E c L). Qed.

Theorem C116_joint_rolls : forall n c d p d0 r r', leaf_of c n -> p d = Ret (Some d0) -> a_date d0 ->
  (checked_roll d p c Following = Ret (Some r) -> checked_roll d p (nest_cal n) Following = Ret (Some r') -> ~ earlier r' r)
  /\ (checked_roll d p c Preceding = Ret (Some r) -> checked_roll d p (nest_cal n) Preceding = Ret (Some r') -> ~ earlier r r').
Proof.
  intros n c d p d0 r r' L Hp H0. split; intros R R'.
  - exact (C116_following c (nest_cal n) d p d0 r r' (joint_more n c L) Hp H0 R R').
  - exact (C116_preceding c (nest_cal n) d p d0 r r' (joint_more n c L) Hp H0 R R').
Qed.

Lemma joint_count c1 c2 : forall n d a1 a2 a x1 x2 x, a_date d ->
  count_days c1 d n a1 = Ret x1 -> count_days c2 d n a2 = Ret x2 -> count_days (joint_calendar c1 c2) d n a = Ret x ->
  x1 - a1 + (x2 - a2) <= x - a + Z.of_nat n.
Proof.
  induction n as [| n IH]; intros d a1 a2 a x1 x2 x H E1 E2 E; cbn [count_days] in E1, E2, E.
  - injection E1 as <-. injection E2 as <-. injection E as <-. lia.
  - destruct (succ_opt d) as [d' |] eqn:S; [| injection E1 as <-; injection E2 as <-; injection E as <-; lia].
    unfold joint_calendar at 1 in E.
    destruct (c1 d) as [b1 | |]; try discriminate. destruct (c2 d) as [b2 | |]; try discriminate. cbn [bind] in E1, E2, E.
    assert (a_date d') as H' by exact (succ_a_date d d' H S).
    destruct b1, b2; cbn [bind] in E.
    + pose proof (IH d' _ _ _ _ _ _ H' E1 E2 E). lia.
    + pose proof (IH d' _ _ _ _ _ _ H' E1 E2 E). lia.
    + pose proof (IH d' _ _ _ _ _ _ H' E1 E2 E). lia.
    + pose proof (IH d' _ _ _ _ _ _ H' E1 E2 E). lia.
Qed.

(** A joint calendar has no more business days than either, and at least the sum of both less the number of days. *)
Theorem C116_joint_counts : forall c1 c2 from to i n1 n2 n k, a_date from -> a_date to -> days_later k from to ->
  business_days_between c1 from to (Some i) (Some i) = Ret n1 -> business_days_between c2 from to (Some i) (Some i) = Ret n2 ->
  business_days_between (joint_calendar c1 c2) from to (Some i) (Some i) = Ret n ->
  n <= n1 /\ n <= n2 /\ n1 + n2 - Z.of_nat k <= n.
Proof.
  intros c1 c2 from to i n1 n2 n k Hf Ht K E1 E2 E. apply days_later_serial in K; [| auto]. destruct K as (_ & K).
  assert (~ earlier to from) as O by (rewrite serial_lt_iff by auto; lia).
  split; [| split].
  - apply (C116_counts c1 (joint_calendar c1 c2) from to (Some i) (Some i) n1 n); auto. exact (joint_more (Both (Leaf c1) (Leaf c2)) c1 ltac:(repeat constructor)).
  - apply (C116_counts c2 (joint_calendar c1 c2) from to (Some i) (Some i) n2 n); auto. exact (joint_more (Both (Leaf c1) (Leaf c2)) c2 ltac:(apply leaf_r; constructor)).
  - unfold business_days_between in *. destruct (date_ltb to from) eqn:Q; [apply date_ltb_earlier in Q; contradiction |].
    unfold business_days_ordered in *.
    destruct (add_duration to _) as [t | |] eqn:Et; try discriminate. cbn [bind] in E1, E2, E.
    destruct (add_duration from _) as [f | |] eqn:Ef; try discriminate. cbn [bind] in E1, E2, E.
    apply add_duration_shift in Ef; [| exact Hf]. apply add_duration_shift in Et; [| exact Ht].
    destruct Ef as (Af & Sf), Et as (At & St). unfold shift in Sf, St. apply days_later_serial in Sf, St; auto.
    destruct (diff_days t f <? 0); try discriminate.
    pose proof (joint_count c1 c2 _ f 0 0 0 n1 n2 n Af E1 E2 E) as J.
    unfold diff_days in J. lia.
Qed.

(** A calendar of weekends, and one that also closes on the 3rd of the month. *)
Example C116_case :
  let a := pure_cal (fun d => negb (is_weekend d)) in
  let b := pure_cal (fun d => negb (is_weekend d) && negb (nd_day d =? 3)) in
  more_holidays a b
  /\ checked_roll (mkDate 2024 6 1) (Days 0) a Following = Ret (Some (mkDate 2024 6 3))
  /\ checked_roll (mkDate 2024 6 1) (Days 0) b Following = Ret (Some (mkDate 2024 6 4))
  /\ business_days_between a (mkDate 2024 6 1) (mkDate 2024 6 8) None None = Ret 5
  /\ business_days_between b (mkDate 2024 6 1) (mkDate 2024 6 8) None None = Ret 4
  /\ days_later 7 (mkDate 2024 6 1) (mkDate 2024 6 8).
Proof.
  cbv zeta. split; [| split; [vm_compute; reflexivity | split; [vm_compute; reflexivity | split; [vm_compute; reflexivity | split; [vm_compute; reflexivity |]]]]].
  - intros d _. unfold pure_cal. intros [= E]. apply andb_prop in E. now rewrite (proj1 E).
  - apply days_later_serial; [apply valid_proper; reflexivity |]. split; [apply valid_proper; reflexivity | vm_compute; reflexivity].
Qed.
