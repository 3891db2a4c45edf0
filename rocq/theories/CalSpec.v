(** Specifications for the country calendars, independent of the model: Easter from the ecclesiastical
    rules, days counted from Easter, n-th and last weekdays of a month, weekends. *)
From Coq Require Import ZArith Bool List Lia FinFun Permutation.
From Verif Require Import Base Chrono Gregorian DateFacts EasterTables CalLib CalFacts.
Import ListNotations.
Local Open Scope Z_scope.

Ltac Zify.zify_post_hook ::= Z.div_mod_to_equations.

(** ** Easter *)

(** Golden number: the year's place in the 19-year lunar cycle. *)
Definition golden (y : Z) : Z := y mod 19 + 1.

(** Gregorian epact: the age of the moon on 1 January, from the golden number with the solar and
    lunar corrections per century and the two exceptions of the reformed calendar. *)
Definition epact (y : Z) : Z :=
  let century := y / 100 + 1 in
  let solar := 3 * century / 4 - 12 in
  let lunar := (8 * century + 5) / 25 - 5 in
  let e := (11 * golden y + 20 + lunar - solar) mod 30 in
  if ((e =? 25) && (11 <? golden y)) || (e =? 24) then e + 1 else e.

(** Western paschal full moon, as a day of March (32 is 1 April): not before 21 March. *)
Definition full_moon (y : Z) : Z := if 44 - epact y <? 21 then 74 - epact y else 44 - epact y.

(** Julian paschal full moon, as a day of March of the Gregorian calendar: the 19-year cycle without
    corrections, counted from 21 March of the Julian calendar, which is y/100 - y/400 - 2 days late. *)
Definition julian_full_moon (y : Z) : Z :=
  21 + (19 * (y mod 19) + 15) mod 30 + (y / 100 - y / 400 - 2).

(** The Sunday strictly after a day of March of year y. *)
Definition sunday_after (y n : Z) (e : NaiveDate) : Prop :=
  weekday e = Sun /\ exists k, 1 <= k <= 7 /\ days_later (Z.to_nat (n - 1 + k)) (mkDate y 3 1) e.

Definition western_easter (y : Z) (e : NaiveDate) : Prop := sunday_after y (full_moon y) e.
Definition orthodox_easter (y : Z) (e : NaiveDate) : Prop := sunday_after y (julian_full_moon y) e.

(** [day_of_year d n]: d is the n-th day of its year. *)
Definition day_of_year (d : NaiveDate) (n : Z) : Prop :=
  1 <= n /\ days_later (Z.to_nat (n - 1)) (mkDate (nd_year d) 1 1) d.

(** [days_from e k d]: d lies k days after e (before it if k is negative). *)
Definition days_from (e : NaiveDate) (k : Z) (d : NaiveDate) : Prop :=
  (0 <= k /\ days_later (Z.to_nat k) e d) \/ (k < 0 /\ days_later (Z.to_nat (- k)) d e).

(** d is the feast k days after Easter Sunday of its year. *)
Definition western_feast (k : Z) (d : NaiveDate) : Prop :=
  exists e, western_easter (nd_year d) e /\ days_from e k d.
Definition orthodox_feast (k : Z) (d : NaiveDate) : Prop :=
  exists e, orthodox_easter (nd_year d) e /\ days_from e k d.

(** ** Weekdays of a month *)

Definition same_month (x d : NaiveDate) : Prop := nd_year x = nd_year d /\ nd_month x = nd_month d.

(** d is the n-th w of month m: n days of the month up to and including d are a w. *)
Definition nth_weekday (n : nat) (w : Weekday) (m : Z) (d : NaiveDate) : Prop :=
  nd_month d = m /\ weekday d = w /\
  exists ds, NoDup ds /\ length ds = n /\
    forall x, In x ds <-> gregorian (nd_year x) (nd_month x) (nd_day x) /\ same_month x d
                          /\ ~ earlier d x /\ weekday x = w.

(** d is the last w of month m. *)
Definition last_weekday (w : Weekday) (m : Z) (d : NaiveDate) : Prop :=
  nd_month d = m /\ weekday d = w /\
  forall x, gregorian (nd_year x) (nd_month x) (nd_day x) -> same_month x d -> earlier d x ->
    weekday x <> w.

(** ** Weekends *)

Definition on_weekend (d : NaiveDate) : Prop := weekday d = Sat \/ weekday d = Sun.

(** ** Lemmas connecting these with the model *)

Lemma serial_of_ordinal d : num_days_from_ce d = days_before_year (nd_year d) + ordinal d.
Proof. reflexivity. Qed.

Lemma march_first y : num_days_from_ce (mkDate y 3 1) = days_before_year y + 60 + leap01 y.
Proof.
  unfold num_days_from_ce, ordinal, days_before_month, leap01. cbn [nd_year nd_month nd_day].
  destruct (is_leap y); simpl; lia.
Qed.

Lemma proper_first y m : 1 <= m <= 12 -> proper (mkDate y m 1).
Proof.
  intros H. unfold proper. cbn [nd_month nd_day nd_year]. pose proof (month_len_range y m H). lia.
Qed.

Lemma weekday_sunday d : weekday d = Sun <-> (num_days_from_ce d - 1) mod 7 = 6.
Proof.
  rewrite <- weekday_num_weekday. destruct (weekday d); simpl; split; congruence || lia.
Qed.

(** Easter Sunday is the day before the table entry. *)
Definition easter_check (table : list Z) (moon : Z -> Z) (y : Z) : bool :=
  let em := entry table y in
  let k := em - 1 - (60 + leap01 y) - (moon y - 1) in
  (1 <=? k) && (k <=? 7) && ((days_before_year y + em - 2) mod 7 =? 6) && (1 <=? moon y)
  && (82 <=? em) && (em <=? 130).

Lemma western_sweep : sweep (easter_check EASTER_MONDAY full_moon) 299 1901 = true.
Proof. vm_cast_no_check (eq_refl true). Qed.

Lemma orthodox_sweep : sweep (easter_check ORTHODOX_EASTER_MONDAY julian_full_moon) 299 1901 = true.
Proof. vm_cast_no_check (eq_refl true). Qed.

Lemma sunday_after_serial y n e : 1 <= n ->
  (sunday_after y n e <-> proper e /\ (num_days_from_ce e - 1) mod 7 = 6
     /\ 1 <= num_days_from_ce e - (days_before_year y + 60 + leap01 y) - (n - 1) <= 7).
Proof.
  intros Hn. unfold sunday_after. rewrite weekday_sunday. split.
  - intros (W & k & Hk & D). apply days_later_serial in D; [| apply proper_first; lia].
    rewrite march_first in D. destruct D as [P S]. split; [exact P |]. split; [exact W | lia].
  - intros (P & W & K). split; [exact W |].
    exists (num_days_from_ce e - (days_before_year y + 60 + leap01 y) - (n - 1)). split; [exact K |].
    apply days_later_serial; [apply proper_first; lia |]. rewrite march_first. split; [exact P | lia].
Qed.

Lemma easter_serial table moon y e : easter_check table moon y = true ->
  (sunday_after y (moon y) e <->
   proper e /\ num_days_from_ce e = days_before_year y + entry table y - 1).
Proof.
  unfold easter_check. cbv zeta. rewrite !andb_true_iff, !Z.leb_le, Z.eqb_eq.
  intros (((((K1 & K2) & W) & M) & _) & _). rewrite sunday_after_serial by lia. split.
  - intros (P & W' & K'). split; [exact P | lia].
  - intros (P & S). split; [exact P |]. rewrite S. split; [| lia].
    replace (days_before_year y + entry table y - 1 - 1) with (days_before_year y + entry table y - 2) by lia.
    exact W.
Qed.

Lemma western_check y : 1901 <= y <= 2199 -> easter_check EASTER_MONDAY full_moon y = true.
Proof. intros H. apply (sweep_spec _ _ _ western_sweep). lia. Qed.

Lemma orthodox_check y : 1901 <= y <= 2199 ->
  easter_check ORTHODOX_EASTER_MONDAY julian_full_moon y = true.
Proof. intros H. apply (sweep_spec _ _ _ orthodox_sweep). lia. Qed.

Lemma entry_range table moon y : easter_check table moon y = true -> 82 <= entry table y <= 130.
Proof. unfold easter_check. cbv zeta. rewrite !andb_true_iff, !Z.leb_le. lia. Qed.

Lemma days_from_serial e k d : proper e -> proper d ->
  (days_from e k d <-> num_days_from_ce d = num_days_from_ce e + k).
Proof.
  intros Pe Pd. unfold days_from. rewrite !days_later_serial by assumption. split.
  - intros [(? & ? & ?) | (? & ? & ?)]; lia.
  - intros H. destruct (Z_lt_le_dec k 0); [right | left]; (split; [lia |]; split; [assumption | lia]).
Qed.

Lemma exists_serial n : exists d, proper d /\ num_days_from_ce d = n.
Proof. exists (civil_of_serial n). destruct (civil_correct n). auto. Qed.

(** A feast is recognised by its day of the year. *)
Lemma western_feast_ordinal k d : proper d -> 1901 <= nd_year d <= 2199 ->
  (western_feast k d <-> ordinal d = entry EASTER_MONDAY (nd_year d) + (k - 1)).
Proof.
  intros P H. unfold western_feast, western_easter.
  pose proof (western_check _ H) as C.
  assert (num_days_from_ce d = days_before_year (nd_year d) + ordinal d) as S by reflexivity.
  split.
  - intros (e & E & D). apply (easter_serial _ _ _ _ C) in E. destruct E as [Pe Se].
    apply days_from_serial in D; [lia | assumption..].
  - intros O.
    destruct (exists_serial (days_before_year (nd_year d) + entry EASTER_MONDAY (nd_year d) - 1)) as (e & Pe & Se).
    exists e. split; [apply (easter_serial _ _ _ _ C); auto |]. apply days_from_serial; [assumption.. | lia].
Qed.

Lemma orthodox_feast_ordinal k d : proper d -> 1901 <= nd_year d <= 2199 ->
  (orthodox_feast k d <-> ordinal d = entry ORTHODOX_EASTER_MONDAY (nd_year d) + (k - 1)).
Proof.
  intros P H. unfold orthodox_feast, orthodox_easter.
  pose proof (orthodox_check _ H) as C.
  assert (num_days_from_ce d = days_before_year (nd_year d) + ordinal d) as S by reflexivity.
  split.
  - intros (e & E & D). apply (easter_serial _ _ _ _ C) in E. destruct E as [Pe Se].
    apply days_from_serial in D; [lia | assumption..].
  - intros O.
    destruct (exists_serial (days_before_year (nd_year d) + entry ORTHODOX_EASTER_MONDAY (nd_year d) - 1)) as (e & Pe & Se).
    exists e. split; [apply (easter_serial _ _ _ _ C); auto |]. apply days_from_serial; [assumption.. | lia].
Qed.

(** Serial numbers within a month. *)
Lemma serial_same_month x d : same_month x d ->
  num_days_from_ce x = num_days_from_ce d + (nd_day x - nd_day d).
Proof.
  intros [Y M]. unfold num_days_from_ce, ordinal. rewrite Y, M. lia.
Qed.

Lemma weekday_eq_iff x d : weekday x = weekday d <->
  (num_days_from_ce x - num_days_from_ce d) mod 7 = 0.
Proof.
  split.
  - intros E. apply (f_equal weekday_num) in E. rewrite !weekday_num_weekday in E. lia.
  - intros E. apply weekday_num_inj. rewrite !weekday_num_weekday. lia.
Qed.

Lemma nth_weekday_iff n w m d : proper d ->
  (nth_weekday n w m d <->
   nd_month d = m /\ weekday d = w /\ 7 * (Z.of_nat n - 1) < nd_day d <= 7 * Z.of_nat n).
Proof.
  intros P. pose proof P as [Pm Pd]. unfold nth_weekday.
  set (cnt := Z.to_nat ((nd_day d + 6) / 7)).
  set (ls := map (fun j => mkDate (nd_year d) (nd_month d) (nd_day d - 7 * Z.of_nat j)) (seq 0 cnt)).
  assert (NoDup ls) as N.
  { apply FinFun.Injective_map_NoDup; [| apply seq_NoDup].
    intros a b E. injection E. lia. }
  assert (length ls = cnt) as L by (unfold ls; rewrite map_length, seq_length; reflexivity).
  assert (forall x, In x ls <-> gregorian (nd_year x) (nd_month x) (nd_day x) /\ same_month x d
                          /\ ~ earlier d x /\ weekday x = weekday d) as I.
  { intros x. unfold ls. rewrite in_map_iff. split.
    - intros (j & <- & J). apply in_seq in J. unfold cnt in J. rewrite <- proper_gregorian.
      assert (same_month (mkDate (nd_year d) (nd_month d) (nd_day d - 7 * Z.of_nat j)) d) as SM
          by (split; reflexivity).
      split; [unfold proper; cbn [nd_year nd_month nd_day]; lia |]. split; [exact SM |].
      split; [unfold earlier; cbn [nd_year nd_month nd_day]; lia |].
      apply weekday_eq_iff. rewrite (serial_same_month _ _ SM). cbn [nd_day].
      replace (num_days_from_ce d + (nd_day d - 7 * Z.of_nat j - nd_day d) - num_days_from_ce d)
        with ((- Z.of_nat j) * 7) by lia. apply Z_mod_mult.
    - intros (G & SM & E & W). rewrite <- proper_gregorian in G. destruct G as [Gm Gd].
      apply weekday_eq_iff in W. rewrite (serial_same_month _ _ SM) in W.
      destruct SM as [Y M]. unfold earlier in E. rewrite Y, M in *.
      exists (Z.to_nat ((nd_day d - nd_day x) / 7)). split.
      + destruct x as [xy xm xd]. cbn [nd_year nd_month nd_day] in *. subst. f_equal. lia.
      + apply in_seq. unfold cnt. lia. }
  split.
  - intros (M & W & ds & Nd & Ld & Id). split; [exact M |]. split; [exact W |].
    assert (length ds = length ls) as E.
    { apply Permutation.Permutation_length. apply Permutation.NoDup_Permutation; auto.
      intros x. rewrite Id, I, W. reflexivity. }
    rewrite L in E. unfold cnt in E. lia.
  - intros (M & W & B). split; [exact M |]. split; [exact W |]. exists ls. split; [exact N |]. split.
    + rewrite L. unfold cnt. lia.
    + intros x. rewrite I, W. reflexivity.
Qed.

Lemma last_weekday_iff w m d : proper d ->
  (last_weekday w m d <->
   nd_month d = m /\ weekday d = w /\ month_len (nd_year d) m - 7 < nd_day d).
Proof.
  intros P. pose proof P as [Pm Pd]. unfold last_weekday. split.
  - intros (M & W & H). split; [exact M |]. split; [exact W |].
    destruct (Z_lt_le_dec (month_len (nd_year d) m - 7) (nd_day d)) as [L | L]; [exact L |]. exfalso.
    assert (same_month (mkDate (nd_year d) (nd_month d) (nd_day d + 7)) d) as SM by (split; reflexivity).
    apply (H (mkDate (nd_year d) (nd_month d) (nd_day d + 7))).
    + rewrite <- proper_gregorian. unfold proper. cbn [nd_year nd_month nd_day]. rewrite M in *. lia.
    + exact SM.
    + unfold earlier. cbn [nd_year nd_month nd_day]. lia.
    + rewrite <- W. apply weekday_eq_iff. rewrite (serial_same_month _ _ SM). cbn [nd_day].
      replace (num_days_from_ce d + (nd_day d + 7 - nd_day d) - num_days_from_ce d) with 7 by lia. reflexivity.
  - intros (M & W & L). split; [exact M |]. split; [exact W |]. intros x G SM E Q.
    rewrite <- proper_gregorian in G. destruct G as [Gm Gd]. rewrite <- W in Q. apply weekday_eq_iff in Q.
    rewrite (serial_same_month _ _ SM) in Q. destruct SM as [Y Mx]. unfold earlier in E.
    rewrite Y, Mx, M in *. lia.
Qed.
