(** Properties C14-C18: business-day rolling.  Calendars and periods are arbitrary functions that
    may panic; a period that returns a date returns a representable one (guaranteed by the type). *)
From Coq Require Import ZArith Bool List Lia.
From Verif Require Import Base Chrono Gregorian DateModel DateFacts LoopFacts PropsDate.
Import ListNotations.
Open Scope Z_scope.

(** What the code computes when searching forward from [d0]: the first date not before [d0] on which
    the calendar does not say "closed".  [answer o]: the calendar's reply there. *)
Definition first_not_closed (c : Calendar) (d0 r : Date) : Prop :=
  a_date r /\ ~ earlier r d0 /\ c r <> Ret false
  /\ forall x, a_date x -> ~ earlier x d0 -> earlier x r -> c x = Ret false.

Definition last_not_closed (c : Calendar) (d0 r : Date) : Prop :=
  a_date r /\ ~ earlier d0 r /\ c r <> Ret false
  /\ forall x, a_date x -> ~ earlier d0 x -> earlier r x -> c x = Ret false.

(** First business day on or after, last business day on or before. *)
Definition first_business_day (c : Calendar) (d0 r : Date) : Prop :=
  a_date r /\ ~ earlier r d0 /\ c r = Ret true
  /\ forall x, a_date x -> ~ earlier x d0 -> earlier x r -> c x = Ret false.

Definition last_business_day (c : Calendar) (d0 r : Date) : Prop :=
  a_date r /\ ~ earlier d0 r /\ c r = Ret true
  /\ forall x, a_date x -> ~ earlier d0 x -> earlier r x -> c x = Ret false.

Lemma a_date_proper d : a_date d -> proper d.
Proof. intros H. now apply valid_proper, valid_a_date. Qed.
#[local] Hint Resolve a_date_proper : core.

Lemma not_earlier_leb a b : proper a -> proper b ->
  (~ earlier a b <-> num_days_from_ce b <= num_days_from_ce a).
Proof. intros Ha Hb. rewrite serial_lt_iff by assumption. lia. Qed.

Lemma serial_bounds d : a_date d -> MIN_SERIAL <= num_days_from_ce d <= MAX_SERIAL.
Proof. intros H. apply valid_serial; [auto | now apply valid_a_date]. Qed.

Definition answer (c : Calendar) (d : Date) : M (option Date) :=
  match c d with Ret true => Ret (Some d) | Ret false => Ret None
               | Panic => Panic | OutOfFuel => OutOfFuel end.

(** The forward search, as a dichotomy. *)
Lemma forward_search c d0 : a_date d0 ->
  (exists t, first_not_closed c d0 t /\ while roll_fuel (roll_step date_succ c) d0 = answer c t)
  \/ ((forall x, a_date x -> ~ earlier x d0 -> c x = Ret false)
      /\ while roll_fuel (roll_step date_succ c) d0 = Ret None).
Proof.
  intros H0.
  set (Inv := fun t => a_date t /\ num_days_from_ce d0 <= num_days_from_ce t
                       /\ forall x, a_date x -> ~ earlier x d0 -> earlier x t -> c x = Ret false).
  destruct (loop_terminates (roll_step date_succ c) Inv
              (fun t => MAX_SERIAL - num_days_from_ce t) roll_fuel d0) as (r & t & L & _ & It & B).
  - intros a b (Ia & Ib & Ic) E. unfold roll_step in E. destruct (c a) as [[|] | |] eqn:Ca; try discriminate.
    destruct (date_succ a) as [s |] eqn:Es; [| discriminate]. injection E as <-.
    unfold date_succ in Es. apply succ_opt_spec in Es; [| now apply valid_a_date].
    destruct Es as [Vs Ss]. apply valid_a_date in Vs.
    pose proof (serial_bounds _ Vs) as Bs.
    split; [| lia]. split; [exact Vs |]. split; [lia |].
    intros x Hx Nx Ex. rewrite serial_lt_iff in Ex by auto.
    destruct (Z.eq_dec (num_days_from_ce x) (num_days_from_ce a)) as [Q | Q].
    + replace x with a; [exact Ca |]. apply serial_inj; auto.
    + apply Ic; auto. rewrite serial_lt_iff by auto. lia.
  - split; [exact H0 |]. split; [lia |]. intros x Hx N E. tauto.
  - pose proof (serial_bounds _ H0).
    assert (MAX_SERIAL - MIN_SERIAL < Z.pos roll_fuel) by reflexivity. lia.
  - unfold while. rewrite L. destruct It as (It & Lt & Ft).
    unfold roll_step in B. destruct (c t) as [[|] | |] eqn:Ct.
    + left. exists t. injection B as <-. split; [| unfold answer; now rewrite Ct].
      split; [exact It |]. split; [rewrite not_earlier_leb by auto; lia |].
      split; [rewrite Ct; discriminate | exact Ft].
    + destruct (date_succ t) eqn:Es; [discriminate |]. injection B as <-. right.
      split; [| reflexivity]. unfold date_succ in Es.
      apply succ_opt_none in Es; [| now apply valid_a_date]. subst t.
      intros x Hx Nx. destruct (earlier_trichotomy x MAX_DATE) as [E | [-> | E]]; [now apply Ft | exact Ct |].
      exfalso. rewrite serial_lt_iff in E by auto. pose proof (serial_bounds _ Hx). unfold MAX_SERIAL in *. lia.
    + left. exists t. injection B as <-. split; [| unfold answer; now rewrite Ct].
      split; [exact It |]. split; [rewrite not_earlier_leb by auto; lia |].
      split; [rewrite Ct; discriminate | exact Ft].
    + left. exists t. injection B as <-. split; [| unfold answer; now rewrite Ct].
      split; [exact It |]. split; [rewrite not_earlier_leb by auto; lia |].
      split; [rewrite Ct; discriminate | exact Ft].
Qed.

Lemma backward_search c d0 : a_date d0 ->
  (exists t, last_not_closed c d0 t /\ while roll_fuel (roll_step date_pred c) d0 = answer c t)
  \/ ((forall x, a_date x -> ~ earlier d0 x -> c x = Ret false)
      /\ while roll_fuel (roll_step date_pred c) d0 = Ret None).
Proof.
  intros H0.
  set (Inv := fun t => a_date t /\ num_days_from_ce t <= num_days_from_ce d0
                       /\ forall x, a_date x -> ~ earlier d0 x -> earlier t x -> c x = Ret false).
  destruct (loop_terminates (roll_step date_pred c) Inv
              (fun t => num_days_from_ce t - MIN_SERIAL) roll_fuel d0) as (r & t & L & _ & It & B).
  - intros a b (Ia & Ib & Ic) E. unfold roll_step in E. destruct (c a) as [[|] | |] eqn:Ca; try discriminate.
    destruct (date_pred a) as [s |] eqn:Es; [| discriminate]. injection E as <-.
    unfold date_pred in Es. apply pred_opt_spec in Es; [| now apply valid_a_date].
    destruct Es as [Vs Ss]. apply valid_a_date in Vs.
    pose proof (serial_bounds _ Vs) as Bs.
    split; [| lia]. split; [exact Vs |]. split; [lia |].
    intros x Hx Nx Ex. rewrite serial_lt_iff in Ex by auto.
    destruct (Z.eq_dec (num_days_from_ce x) (num_days_from_ce a)) as [Q | Q].
    + replace x with a; [exact Ca |]. apply serial_inj; auto.
    + apply Ic; auto. rewrite serial_lt_iff by auto. lia.
  - split; [exact H0 |]. split; [lia |]. intros x Hx N E. tauto.
  - pose proof (serial_bounds _ H0).
    assert (MAX_SERIAL - MIN_SERIAL < Z.pos roll_fuel) by reflexivity. lia.
  - unfold while. rewrite L. destruct It as (It & Lt & Ft).
    unfold roll_step in B. destruct (c t) as [[|] | |] eqn:Ct.
    + left. exists t. injection B as <-. split; [| unfold answer; now rewrite Ct].
      split; [exact It |]. split; [rewrite not_earlier_leb by auto; lia |].
      split; [rewrite Ct; discriminate | exact Ft].
    + destruct (date_pred t) eqn:Es; [discriminate |]. injection B as <-. right.
      split; [| reflexivity]. unfold date_pred in Es.
      apply pred_opt_none in Es; [| now apply valid_a_date]. subst t.
      intros x Hx Nx. destruct (earlier_trichotomy MIN_DATE x) as [E | [<- | E]]; [now apply Ft | exact Ct |].
      exfalso. rewrite serial_lt_iff in E by auto. pose proof (serial_bounds _ Hx). unfold MIN_SERIAL in *. lia.
    + left. exists t. injection B as <-. split; [| unfold answer; now rewrite Ct].
      split; [exact It |]. split; [rewrite not_earlier_leb by auto; lia |].
      split; [rewrite Ct; discriminate | exact Ft].
    + left. exists t. injection B as <-. split; [| unfold answer; now rewrite Ct].
      split; [exact It |]. split; [rewrite not_earlier_leb by auto; lia |].
      split; [rewrite Ct; discriminate | exact Ft].
Qed.

Lemma first_unique c d0 a b :
  first_not_closed c d0 a -> first_not_closed c d0 b -> a = b.
Proof.
  intros (A1 & A2 & A3 & A4) (B1 & B2 & B3 & B4).
  destruct (earlier_trichotomy a b) as [E | [E | E]]; [| exact E |]; exfalso; auto.
Qed.

Lemma last_unique c d0 a b :
  last_not_closed c d0 a -> last_not_closed c d0 b -> a = b.
Proof.
  intros (A1 & A2 & A3 & A4) (B1 & B2 & B3 & B4).
  destruct (earlier_trichotomy a b) as [E | [E | E]]; [| exact E |]; exfalso; auto.
Qed.

Lemma first_business_is c d0 r : first_business_day c d0 r -> first_not_closed c d0 r /\ c r = Ret true.
Proof.
  intros (A & B & C & D). split; [| exact C].
  split; [exact A |]. split; [exact B |]. split; [rewrite C; discriminate | exact D].
Qed.

Lemma last_business_is c d0 r : last_business_day c d0 r -> last_not_closed c d0 r /\ c r = Ret true.
Proof.
  intros (A & B & C & D). split; [| exact C].
  split; [exact A |]. split; [exact B |]. split; [rewrite C; discriminate | exact D].
Qed.

(** ** C14 *)

Theorem C14_following : forall d p c d0,
  p d = Ret (Some d0) -> a_date d0 ->
  (forall r, checked_roll d p c Following = Ret (Some r) <-> first_business_day c d0 r)
  /\ (checked_roll d p c Following = Ret None
      <-> forall x, a_date x -> ~ earlier x d0 -> c x = Ret false)
  /\ (checked_roll d p c Following = Panic <-> exists r, first_not_closed c d0 r /\ c r = Panic)
  /\ (checked_roll d p c Following = OutOfFuel <-> exists r, first_not_closed c d0 r /\ c r = OutOfFuel).
Proof.
  intros d p c d0 Hp H0. simpl. unfold roll_along. rewrite Hp. simpl.
  destruct (forward_search c d0 H0) as [(t & Ft & ->) | [A ->]].
  - unfold answer. pose proof Ft as (F1 & F2 & F3 & F4).
    split; [| split; [| split]].
    + intros r. split.
      * destruct (c t) as [[|] | |] eqn:Ct; try discriminate. intros [= <-]. repeat split; auto; apply F1.
      * intros Hr. apply first_business_is in Hr. destruct Hr as [Hr Cr].
        pose proof (first_unique _ _ _ _ Ft Hr). subst r. now rewrite Cr.
    + split; [destruct (c t) as [[|] | |]; try discriminate; congruence |].
      intros A. exfalso. apply F3. now apply A.
    + split.
      * destruct (c t) as [[|] | |] eqn:Ct; try discriminate. eauto.
      * intros (r & Hr & Cr). pose proof (first_unique _ _ _ _ Ft Hr). subst r. now rewrite Cr.
    + split.
      * destruct (c t) as [[|] | |] eqn:Ct; try discriminate. eauto.
      * intros (r & Hr & Cr). pose proof (first_unique _ _ _ _ Ft Hr). subst r. now rewrite Cr.
  - split; [| split; [| split]].
    + intros r. split; [discriminate |]. intros (R1 & R2 & R3 & _). specialize (A r R1 R2). congruence.
    + tauto.
    + split; [discriminate |]. intros (r & (R1 & R2 & R3 & _) & _). exfalso. auto.
    + split; [discriminate |]. intros (r & (R1 & R2 & R3 & _) & _). exfalso. auto.
Qed.
Print Assumptions C14_following.

(** When the period cannot be added, every convention gives None; a panicking period panics. *)
Theorem C14_period_fails : forall d p c k,
  (p d = Ret None -> checked_roll d p c k = Ret None)
  /\ (p d = Panic -> checked_roll d p c k = Panic).
Proof.
  intros d p c k. unfold checked_roll, roll_along. split; intros ->; destruct k; reflexivity.
Qed.
Print Assumptions C14_period_fails.

(** For a calendar that never panics the search always ends with an answer. *)
Theorem C14_terminates : forall d p c k d0 open,
  p d = Ret (Some d0) -> a_date d0 -> (forall x, a_date x -> c x = Ret (open x)) ->
  exists o, checked_roll d p c k = Ret o.
Proof.
  intros d p c k d0 open Hp H0 Hc.
  assert (exists o, roll_along date_succ d p c = Ret o) as [o1 E1].
  { unfold roll_along. rewrite Hp. simpl.
    destruct (forward_search c d0 H0) as [(t & (F1 & _) & ->) | [A ->]]; [| eauto].
    unfold answer. rewrite (Hc _ F1). destruct (open t); eauto. }
  assert (exists o, roll_along date_pred d p c = Ret o) as [o2 E2].
  { unfold roll_along. rewrite Hp. simpl.
    destruct (backward_search c d0 H0) as [(t & (F1 & _) & ->) | [A ->]]; [| eauto].
    unfold answer. rewrite (Hc _ F1). destruct (open t); eauto. }
  unfold checked_roll. destruct k; rewrite ?E1, ?E2; simpl; eauto.
  - destruct o1 as [r |]; eauto. destruct (_ =? _); eauto.
  - destruct o2 as [r |]; eauto. destruct (_ =? _); eauto.
Qed.
Print Assumptions C14_terminates.

(** Test calendar: open on weekdays. *)
Definition weekdays_only : Calendar := fun d => Ret (weekday_num (weekday d) <? 5).

Example C14_case :
  Days 0 (mkDate 2023 9 30) = Ret (Some (mkDate 2023 9 30)) /\ a_date (mkDate 2023 9 30)
  /\ checked_roll (mkDate 2023 9 30) (Days 0) weekdays_only Following = Ret (Some (mkDate 2023 10 2)).
Proof. split; [reflexivity |]. split; [now apply valid_a_date | vm_compute; reflexivity]. Qed.

(** ** C15 *)

Theorem C15_preceding : forall d p c d0,
  p d = Ret (Some d0) -> a_date d0 ->
  (forall r, checked_roll d p c Preceding = Ret (Some r) <-> last_business_day c d0 r)
  /\ (checked_roll d p c Preceding = Ret None
      <-> forall x, a_date x -> ~ earlier d0 x -> c x = Ret false)
  /\ (checked_roll d p c Preceding = Panic <-> exists r, last_not_closed c d0 r /\ c r = Panic)
  /\ (checked_roll d p c Preceding = OutOfFuel <-> exists r, last_not_closed c d0 r /\ c r = OutOfFuel).
Proof.
  intros d p c d0 Hp H0. simpl. unfold roll_along. rewrite Hp. simpl.
  destruct (backward_search c d0 H0) as [(t & Ft & ->) | [A ->]].
  - unfold answer. pose proof Ft as (F1 & F2 & F3 & F4).
    split; [| split; [| split]].
    + intros r. split.
      * destruct (c t) as [[|] | |] eqn:Ct; try discriminate. intros [= <-]. repeat split; auto; apply F1.
      * intros Hr. apply last_business_is in Hr. destruct Hr as [Hr Cr].
        pose proof (last_unique _ _ _ _ Ft Hr). subst r. now rewrite Cr.
    + split; [destruct (c t) as [[|] | |]; try discriminate; congruence |].
      intros A. exfalso. apply F3. now apply A.
    + split.
      * destruct (c t) as [[|] | |] eqn:Ct; try discriminate. eauto.
      * intros (r & Hr & Cr). pose proof (last_unique _ _ _ _ Ft Hr). subst r. now rewrite Cr.
    + split.
      * destruct (c t) as [[|] | |] eqn:Ct; try discriminate. eauto.
      * intros (r & Hr & Cr). pose proof (last_unique _ _ _ _ Ft Hr). subst r. now rewrite Cr.
  - split; [| split; [| split]].
    + intros r. split; [discriminate |]. intros (R1 & R2 & R3 & _). specialize (A r R1 R2). congruence.
    + tauto.
    + split; [discriminate |]. intros (r & (R1 & R2 & R3 & _) & _). exfalso. auto.
    + split; [discriminate |]. intros (r & (R1 & R2 & R3 & _) & _). exfalso. auto.
Qed.
Print Assumptions C15_preceding.

Example C15_case :
  checked_roll (mkDate 2023 9 30) (Days 1) weekdays_only Preceding = Ret (Some (mkDate 2023 9 29)).
Proof. vm_compute. reflexivity. Qed.

(** ** C16 *)

Theorem C16_result_is_business_day : forall d p c k d0 r,
  p d = Ret (Some d0) -> a_date d0 -> k <> Unadjusted ->
  checked_roll d p c k = Ret (Some r) -> c r = Ret true /\ a_date r.
Proof.
  intros d p c k d0 r Hp H0 Hk H.
  pose proof (proj1 (C14_following d p c d0 Hp H0)) as Fo.
  pose proof (proj1 (C15_preceding d p c d0 Hp H0)) as Pr.
  assert (forall r, roll_along date_succ d p c = Ret (Some r) -> c r = Ret true /\ a_date r) as F1.
  { intros x Hx. apply Fo in Hx. destruct Hx as (? & ? & ? & ?). tauto. }
  assert (forall r, roll_along date_pred d p c = Ret (Some r) -> c r = Ret true /\ a_date r) as P1.
  { intros x Hx. apply Pr in Hx. destruct Hx as (? & ? & ? & ?). tauto. }
  destruct k; simpl in H; auto; try congruence.
  - destruct (roll_along date_succ d p c) as [[x |] | |] eqn:E; simpl in H; try discriminate.
    destruct (_ =? _); [| auto]. injection H as <-. auto.
  - destruct (roll_along date_pred d p c) as [[x |] | |] eqn:E; simpl in H; try discriminate.
    destruct (_ =? _); [| auto]. injection H as <-. auto.
Qed.
Print Assumptions C16_result_is_business_day.

Theorem C16_business_day_unmoved : forall d p c d0,
  p d = Ret (Some d0) -> a_date d0 -> c d0 = Ret true ->
  forall k, checked_roll d p c k = Ret (Some d0).
Proof.
  intros d p c d0 Hp H0 Hc.
  assert (roll_along date_succ d p c = Ret (Some d0)) as E1.
  { apply (C14_following d p c d0 Hp H0). repeat split; try apply H0; auto.
    - unfold earlier. lia.
    - intros x _ N E. tauto. }
  assert (roll_along date_pred d p c = Ret (Some d0)) as E2.
  { apply (C15_preceding d p c d0 Hp H0). repeat split; try apply H0; auto.
    - unfold earlier. lia.
    - intros x _ N E. tauto. }
  intros k. unfold checked_roll. destruct k; rewrite ?E1, ?E2; simpl; auto; destruct (_ =? _); auto.
Qed.
Print Assumptions C16_business_day_unmoved.

Example C16_case : weekdays_only (mkDate 2023 10 2) = Ret true
  /\ checked_roll (mkDate 2023 9 30) (Days 2) weekdays_only ModifiedPreceding = Ret (Some (mkDate 2023 10 2)).
Proof. split; vm_compute; reflexivity. Qed.

(** ** C17, C18: the modified conventions.
    Market convention: move forward unless that leaves the month of the unadjusted date [d0]. *)

Definition same_month (a b : Date) : Prop := year a = year b /\ month a = month b.

Definition modified_following_spec (c : Calendar) (d0 r : Date) : Prop :=
  (first_business_day c d0 r /\ same_month r d0)
  \/ (exists f, first_business_day c d0 f /\ ~ same_month f d0 /\ last_business_day c d0 r).

Definition modified_preceding_spec (c : Calendar) (d0 r : Date) : Prop :=
  (last_business_day c d0 r /\ same_month r d0)
  \/ (exists f, last_business_day c d0 f /\ ~ same_month f d0 /\ first_business_day c d0 r).

(** What the code does: the month compared with is the START date's, the year is ignored. *)
Theorem C17_actual : forall d p c d0 r,
  p d = Ret (Some d0) -> a_date d0 ->
  (checked_roll d p c ModifiedFollowing = Ret (Some r) <->
   (first_business_day c d0 r /\ month r = month d)
   \/ (exists f, first_business_day c d0 f /\ month f <> month d /\ last_business_day c d0 r)).
Proof.
  intros d p c d0 r Hp H0.
  pose proof (proj1 (C14_following d p c d0 Hp H0)) as Fo.
  pose proof (proj1 (C15_preceding d p c d0 Hp H0)) as Pr.
  simpl in Fo, Pr |- *.
  destruct (roll_along date_succ d p c) as [[f |] | |] eqn:E; simpl.
  - assert (first_business_day c d0 f) as Hf by now apply Fo.
    assert (forall x, first_business_day c d0 x -> x = f) as U.
    { intros x Hx. apply Fo in Hx. congruence. }
    destruct (Z.eqb_spec (month f) (month d)) as [Q | Q].
    + split.
      * intros [= <-]. tauto.
      * intros [[Hr _] | (x & Hx & N & _)]; [apply U in Hr; congruence | apply U in Hx; congruence].
    + split.
      * intros H. right. exists f. apply Pr in H. tauto.
      * intros [[Hr N] | (x & Hx & _ & H)]; [apply U in Hr; congruence | now apply Pr].
  - split; [discriminate |]. intros [[Hr _] | (x & Hx & _)]; [apply Fo in Hr | apply Fo in Hx]; discriminate.
  - split; [discriminate |]. intros [[Hr _] | (x & Hx & _)]; [apply Fo in Hr | apply Fo in Hx]; discriminate.
  - split; [discriminate |]. intros [[Hr _] | (x & Hx & _)]; [apply Fo in Hr | apply Fo in Hx]; discriminate.
Qed.
Print Assumptions C17_actual.

Theorem C18_actual : forall d p c d0 r,
  p d = Ret (Some d0) -> a_date d0 ->
  (checked_roll d p c ModifiedPreceding = Ret (Some r) <->
   (last_business_day c d0 r /\ month r = month d)
   \/ (exists f, last_business_day c d0 f /\ month f <> month d /\ first_business_day c d0 r)).
Proof.
  intros d p c d0 r Hp H0.
  pose proof (proj1 (C14_following d p c d0 Hp H0)) as Fo.
  pose proof (proj1 (C15_preceding d p c d0 Hp H0)) as Pr.
  simpl in Fo, Pr |- *.
  destruct (roll_along date_pred d p c) as [[f |] | |] eqn:E; simpl.
  - assert (last_business_day c d0 f) as Hf by now apply Pr.
    assert (forall x, last_business_day c d0 x -> x = f) as U.
    { intros x Hx. apply Pr in Hx. congruence. }
    destruct (Z.eqb_spec (month f) (month d)) as [Q | Q].
    + split.
      * intros [= <-]. tauto.
      * intros [[Hr _] | (x & Hx & N & _)]; [apply U in Hr; congruence | apply U in Hx; congruence].
    + split.
      * intros H. right. exists f. apply Fo in H. tauto.
      * intros [[Hr N] | (x & Hx & _ & H)]; [apply U in Hr; congruence | now apply Fo].
  - split; [discriminate |]. intros [[Hr _] | (x & Hx & _)]; [apply Pr in Hr | apply Pr in Hx]; discriminate.
  - split; [discriminate |]. intros [[Hr _] | (x & Hx & _)]; [apply Pr in Hr | apply Pr in Hx]; discriminate.
  - split; [discriminate |]. intros [[Hr _] | (x & Hx & _)]; [apply Pr in Hr | apply Pr in Hx]; discriminate.
Qed.
Print Assumptions C18_actual.

Lemma days_before_month_close y y' m :
  -1 <= days_before_month y m - days_before_month y' m <= 1.
Proof.
  unfold days_before_month.
  destruct (is_leap y), (is_leap y'); cbv zeta;
    repeat match goal with |- context [match ?x with _ => _ end] => destruct x end; lia.
Qed.

(** Missing from the full claim: start dates in another month than date + period (refuted below), and
    calendars closed for eleven months or more. *)
Theorem C17_same_month_partial : forall d p c d0 r,
  p d = Ret (Some d0) -> a_date d0 -> month d0 = month d ->
  (forall f, first_business_day c d0 f -> date_sub f d0 < 300) ->
  (checked_roll d p c ModifiedFollowing = Ret (Some r) <-> modified_following_spec c d0 r).
Proof.
  intros d p c d0 r Hp H0 Hm Hgap. rewrite C17_actual by eassumption.
  assert (forall f, first_business_day c d0 f -> (month f = month d <-> same_month f d0)) as K.
  { intros f Hf. specialize (Hgap f Hf). destruct Hf as (Hf & Nf & _).
    rewrite not_earlier_leb in Nf by auto. unfold same_month. rewrite <- Hm. split; [| tauto].
    intros E. split; [| exact E]. unfold date_sub, diff_days in Hgap.
    apply a_date_proper in Hf, H0.
    destruct (Z.lt_trichotomy (year f) (year d0)) as [L | [L | L]]; [| exact L |]; exfalso.
    - assert (earlier f d0) by (unfold earlier, year in *; lia).
      rewrite serial_lt_iff in H by auto. lia.
    - pose proof (days_before_year_succ (year d0)) as Y1. unfold leap01 in Y1.
      pose proof (days_before_year_mono (year d0 + 1) (year f) ltac:(lia)) as Y2.
      unfold num_days_from_ce, ordinal in Hgap. fold (year f) (year d0) (month f) (month d0) in Hgap.
      rewrite E in Hgap. unfold month in Hgap. destruct H0 as [P1 P2], Hf as [Q1 Q2].
      pose proof (month_len_range (nd_year d0) (nd_month d0) P1).
      pose proof (days_before_month_close (nd_year f) (nd_year d0) (nd_month d0)).
      unfold year in *. destruct (is_leap (nd_year f)), (is_leap (nd_year d0)); lia. }
  unfold modified_following_spec. split.
  - intros [[Hf E] | (f & Hf & N & Hl)]; [left | right].
    + split; [exact Hf | now apply K].
    + exists f. rewrite <- (K f Hf). tauto.
  - intros [[Hf E] | (f & Hf & N & Hl)]; [left | right].
    + split; [exact Hf | now apply K].
    + exists f. rewrite (K f Hf). tauto.
Qed.
Print Assumptions C17_same_month_partial.

Theorem C18_same_month_partial : forall d p c d0 r,
  p d = Ret (Some d0) -> a_date d0 -> month d0 = month d ->
  (forall f, last_business_day c d0 f -> date_sub d0 f < 300) ->
  (checked_roll d p c ModifiedPreceding = Ret (Some r) <-> modified_preceding_spec c d0 r).
Proof.
  intros d p c d0 r Hp H0 Hm Hgap. rewrite C18_actual by eassumption.
  assert (forall f, last_business_day c d0 f -> (month f = month d <-> same_month f d0)) as K.
  { intros f Hf. specialize (Hgap f Hf). destruct Hf as (Hf & Nf & _).
    rewrite not_earlier_leb in Nf by auto. unfold same_month. rewrite <- Hm. split; [| tauto].
    intros E. split; [| exact E]. unfold date_sub, diff_days in Hgap.
    apply a_date_proper in Hf, H0.
    destruct (Z.lt_trichotomy (year d0) (year f)) as [L | [L | L]]; [| congruence |]; exfalso.
    - assert (earlier d0 f) by (unfold earlier, year in *; lia).
      rewrite serial_lt_iff in H by auto. lia.
    - pose proof (days_before_year_succ (year f)) as Y1. unfold leap01 in Y1.
      pose proof (days_before_year_mono (year f + 1) (year d0) ltac:(lia)) as Y2.
      unfold num_days_from_ce, ordinal in Hgap. fold (year f) (year d0) (month f) (month d0) in Hgap.
      rewrite E in Hgap. unfold month in Hgap, E. destruct H0 as [P1 P2], Hf as [Q1 Q2].
      pose proof (month_len_range (nd_year f) (nd_month f) Q1).
      pose proof (days_before_month_close (nd_year f) (nd_year d0) (nd_month d0)).
      unfold year in *. destruct (is_leap (nd_year f)), (is_leap (nd_year d0)); lia. }
  unfold modified_preceding_spec. split.
  - intros [[Hf E] | (f & Hf & N & Hl)]; [left | right].
    + split; [exact Hf | now apply K].
    + exists f. rewrite <- (K f Hf). tauto.
  - intros [[Hf E] | (f & Hf & N & Hl)]; [left | right].
    + split; [exact Hf | now apply K].
    + exists f. rewrite (K f Hf). tauto.
Qed.
Print Assumptions C18_same_month_partial.

(** 2023-08-31 + 1 month = 2023-09-30, a Saturday.  The convention asks for Friday 29 September ... and
    gets it only because October differs from August too; 2023-08-31 + 17 days = Sunday 2023-09-17 shows
    the error: the convention asks for Monday 18 September, the code goes back to Friday 15 September. *)
Theorem C17_modified_following_refuted :
  exists d p c d0 r r', p d = Ret (Some d0) /\ a_date d0
    /\ checked_roll d p c ModifiedFollowing = Ret (Some r)
    /\ modified_following_spec c d0 r' /\ r <> r'.
Proof.
  exists (mkDate 2023 8 31), (Days 17), weekdays_only, (mkDate 2023 9 17),
    (mkDate 2023 9 15), (mkDate 2023 9 18).
  split; [reflexivity |]. split; [now apply valid_a_date |]. split; [vm_compute; reflexivity |].
  split; [| discriminate]. left. split; [| split; reflexivity].
  apply (C14_following (mkDate 2023 9 17) (Days 0)); [reflexivity | now apply valid_a_date |].
  vm_compute. reflexivity.
Qed.
Print Assumptions C17_modified_following_refuted.

Theorem C18_modified_preceding_refuted :
  exists d p c d0 r r', p d = Ret (Some d0) /\ a_date d0
    /\ checked_roll d p c ModifiedPreceding = Ret (Some r)
    /\ modified_preceding_spec c d0 r' /\ r <> r'.
Proof.
  exists (mkDate 2023 8 31), (Days 17), weekdays_only, (mkDate 2023 9 17),
    (mkDate 2023 9 18), (mkDate 2023 9 15).
  split; [reflexivity |]. split; [now apply valid_a_date |]. split; [vm_compute; reflexivity |].
  split; [| discriminate]. left. split; [| split; reflexivity].
  apply (C15_preceding (mkDate 2023 9 17) (Days 0)); [reflexivity | now apply valid_a_date |].
  vm_compute. reflexivity.
Qed.
Print Assumptions C18_modified_preceding_refuted.

Example C18_case :
  let d := mkDate 2023 10 1 in
  Days 0 d = Ret (Some d) /\ a_date d /\ month d = month d
  /\ (forall f, last_business_day weekdays_only d f -> date_sub d f < 300)
  /\ checked_roll d (Days 0) weekdays_only ModifiedPreceding = Ret (Some (mkDate 2023 10 2)).
Proof.
  cbv zeta. split; [reflexivity |]. split; [now apply valid_a_date |]. split; [reflexivity |]. split; [| vm_compute; reflexivity].
  intros f Hf. apply (C15_preceding (mkDate 2023 10 1) (Days 0)) in Hf; [| reflexivity | now apply valid_a_date].
  vm_compute in Hf. injection Hf as <-. reflexivity.
Qed.

(** The hypotheses of [C17_same_month_partial] are met by ordinary cases. *)
Example C17_partial_case :
  let d := mkDate 2023 9 30 in
  Days 0 d = Ret (Some d) /\ a_date d /\ month d = month d
  /\ forall f, first_business_day weekdays_only d f -> date_sub f d < 300.
Proof.
  cbv zeta. split; [reflexivity |]. split; [now apply valid_a_date |]. split; [reflexivity |].
  intros f Hf.
  apply (C14_following (mkDate 2023 9 30) (Days 0)) in Hf; [| reflexivity | now apply valid_a_date].
  vm_compute in Hf. injection Hf as <-. reflexivity.
Qed.

(** Even with period 0 the code stays in the month: the case where the convention is met. *)
Example C17_case :
  checked_roll (mkDate 2023 9 30) (Days 0) weekdays_only ModifiedFollowing = Ret (Some (mkDate 2023 9 29))
  /\ checked_roll (mkDate 2023 10 1) (Days 0) weekdays_only ModifiedPreceding = Ret (Some (mkDate 2023 10 2)).
Proof. split; vm_compute; reflexivity. Qed.
