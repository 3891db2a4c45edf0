(** The days of a year as a list, for checks that go through all days from 1901 to 2199. *)
From Coq Require Import ZArith Bool List Lia.
From Verif Require Import Base Chrono Gregorian DateFacts.
Import ListNotations.
Local Open Scope Z_scope.

(** Month, day, day of the year. *)
Fixpoint month_days (m d dd : Z) (n : nat) (rest : Z -> list (Z * Z * Z)) : list (Z * Z * Z) :=
  match n with
  | O => rest dd
  | S n => (m, d, dd) :: month_days m (d + 1) (dd + 1) n rest
  end.

Fixpoint months (m dd : Z) (sizes : list nat) : list (Z * Z * Z) :=
  match sizes with
  | [] => []
  | n :: sizes => month_days m 1 dd n (fun dd => months (m + 1) dd sizes)
  end.

Definition common_year : list (Z * Z * Z) :=
  Eval vm_compute in months 1 1 [31; 28; 31; 30; 31; 30; 31; 31; 30; 31; 30; 31]%nat.
Definition leap_year : list (Z * Z * Z) :=
  Eval vm_compute in months 1 1 [31; 29; 31; 30; 31; 30; 31; 31; 30; 31; 30; 31]%nat.

Definition day := (Z * Z * Z * Weekday)%type.

Fixpoint weeks (w : Weekday) (l : list (Z * Z * Z)) : list day :=
  match l with [] => [] | x :: l => (x, w) :: weeks (next_weekday w) l end.

Definition year_days (y : Z) : list day :=
  weeks (weekday (mkDate y 1 1)) (if is_leap y then leap_year else common_year).

(** The entry for a date. *)
Definition day_of (x : NaiveDate) : day := (nd_month x, nd_day x, ordinal x, weekday x).

Fixpoint okdays (y i : Z) (l : list (Z * Z * Z)) : bool :=
  match l with
  | [] => true
  | (m, d, dd) :: l => validb (mkDate y m d) && (dd =? i) && (ordinal (mkDate y m d) =? i) && okdays y (i + 1) l
  end.

Lemma okdays_nth y : forall l i k, okdays y i l = true -> (k < length l)%nat ->
  exists m d, nth_error l k = Some (m, d, i + Z.of_nat k) /\ proper (mkDate y m d)
              /\ ordinal (mkDate y m d) = i + Z.of_nat k.
Proof.
  induction l as [| [[m d] dd] l IH]; intros i k H K; [cbn in K; lia |].
  cbn [okdays] in H. rewrite !andb_true_iff, !Z.eqb_eq in H. destruct H as (((V & D) & O) & H).
  destruct k as [| k].
  - exists m, d. cbn [nth_error]. rewrite D. replace (i + Z.of_nat 0) with i by lia. split; [reflexivity |].
    split; [now apply valid_proper | exact O].
  - cbn [length] in K. destruct (IH (i + 1) k H ltac:(lia)) as (m' & d' & N & P & O').
    exists m', d'. cbn [nth_error]. replace (i + Z.of_nat (S k)) with (i + 1 + Z.of_nat k) by lia. auto.
Qed.

Lemma ordinal_leap y y' m d : is_leap y = is_leap y' -> ordinal (mkDate y m d) = ordinal (mkDate y' m d).
Proof. intros H. unfold ordinal, days_before_month. cbn [nd_year nd_month nd_day]. now rewrite H. Qed.

Lemma proper_leap y y' m d : is_leap y = is_leap y' -> proper (mkDate y' m d) -> proper (mkDate y m d).
Proof. intros H. unfold proper, month_len. cbn [nd_year nd_month nd_day]. now rewrite H. Qed.

Lemma days_nth y k : Z.of_nat k < 365 + leap01 y ->
  exists m d, nth_error (if is_leap y then leap_year else common_year) k = Some (m, d, 1 + Z.of_nat k)
    /\ proper (mkDate y m d) /\ ordinal (mkDate y m d) = 1 + Z.of_nat k.
Proof.
  intros K. unfold leap01 in K. destruct (is_leap y) eqn:L.
  - assert (okdays 2000 1 leap_year = true) as OK by (vm_compute; reflexivity).
    destruct (okdays_nth 2000 leap_year 1 k OK) as (m & d & N & P & O).
    { change (length leap_year) with 366%nat. lia. }
    exists m, d. split; [exact N |]. split; [now apply (proper_leap y 2000) | now rewrite (ordinal_leap y 2000)].
  - assert (okdays 2001 1 common_year = true) as OK by (vm_compute; reflexivity).
    destruct (okdays_nth 2001 common_year 1 k OK) as (m & d & N & P & O).
    { change (length common_year) with 365%nat. lia. }
    exists m, d. split; [exact N |]. split; [now apply (proper_leap y 2001) | now rewrite (ordinal_leap y 2001)].
Qed.

Fixpoint weekday_after (w : Weekday) (k : nat) : Weekday :=
  match k with O => w | S k => weekday_after (next_weekday w) k end.

Lemma weeks_nth : forall l w k x, nth_error l k = Some x -> nth_error (weeks w l) k = Some (x, weekday_after w k).
Proof.
  induction l as [| a l IH]; intros w [| k] x H; cbn [nth_error weeks weekday_after] in *; try discriminate.
  - now injection H as ->.
  - now apply IH.
Qed.

Lemma weekday_after_serial : forall k a b, num_days_from_ce b = num_days_from_ce a + Z.of_nat k ->
  weekday_after (weekday a) k = weekday b.
Proof.
  induction k as [| k IH]; intros a b S.
  - cbn [weekday_after]. apply weekday_num_inj. rewrite !weekday_num_weekday. f_equal. lia.
  - cbn [weekday_after]. pose (c := civil_of_serial (num_days_from_ce a + 1)).
    destruct (civil_correct (num_days_from_ce a + 1)) as [C _]. fold c in C.
    rewrite <- (weekday_next a c C). apply IH. lia.
Qed.

(** The k-th entry is the date k days after 1 January. *)
Lemma year_days_nth y k : Z.of_nat k < 365 + leap01 y ->
  exists x, proper x /\ nd_year x = y /\ ordinal x = 1 + Z.of_nat k
            /\ num_days_from_ce x = days_before_year y + 1 + Z.of_nat k
            /\ nth_error (year_days y) k = Some (day_of x).
Proof.
  intros K. destruct (days_nth y k K) as (m & d & N & P & O). exists (mkDate y m d).
  assert (num_days_from_ce (mkDate y m d) = days_before_year y + 1 + Z.of_nat k) as S.
  { unfold num_days_from_ce. rewrite O. cbn [nd_year]. lia. }
  split; [exact P |]. split; [reflexivity |]. split; [exact O |]. split; [exact S |].
  unfold year_days. rewrite (weeks_nth _ _ _ _ N). unfold day_of. rewrite O. cbn [nd_month nd_day]. do 2 f_equal.
  apply weekday_after_serial. rewrite S.
  change (num_days_from_ce (mkDate y 1 1)) with (days_before_year y + 1). lia.
Qed.

Lemma weeks_length : forall l w, length (weeks w l) = length l.
Proof. induction l as [| a l IH]; intros w; [reflexivity | cbn [weeks length]; now rewrite IH]. Qed.

Lemma year_days_length y : Z.of_nat (length (year_days y)) = 365 + leap01 y.
Proof.
  unfold year_days, leap01. rewrite weeks_length. destruct (is_leap y); reflexivity.
Qed.

Lemma year_days_in x : proper x -> In (day_of x) (year_days (nd_year x)).
Proof.
  intros P. pose proof (ordinal_range x P) as R.
  destruct (year_days_nth (nd_year x) (Z.to_nat (ordinal x - 1))) as (x' & P' & Y & O & S & N).
  { lia. }
  assert (x = x') as <-.
  { apply serial_inj; [assumption.. |]. rewrite S. unfold num_days_from_ce. lia. }
  now apply nth_error_In in N.
Qed.
