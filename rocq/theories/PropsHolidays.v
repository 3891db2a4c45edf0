(** Properties C59, C60, C66 and C67: the closing days of every calendar, exactly. *)
From Coq Require Import ZArith Bool List Lia.
From Verif Require Import Base Chrono Gregorian DateFacts EasterTables CalLib Calendars CalCore CalFacts CalSpec.
From Verif Require Import PropsRoll PropsCountries HolidayRules HolidayDates HolidayTables HolidayCheck.
Import ListNotations.
Local Open Scope Z_scope.

Lemma eqb_if (b : bool) d x z : (d =? (if b then x else z)) = if b then d =? x else d =? z.
Proof. now destruct b. Qed.
Lemma eqb_if_plus (b : bool) d x z k : (d =? (if b then x else z) + k) = if b then d =? x + k else d =? z + k.
Proof. now destruct b. Qed.
Lemma eqb_plus_if (b : bool) d x z k : (d + k =? (if b then x else z)) = if b then d =? x - k else d =? z - k.
Proof. destruct b; apply Bool.eq_iff_eq_true; rewrite !Z.eqb_eq; lia. Qed.
Lemma date_eqb_split y m d y' m' d' :
  date_eqb (mkDate y m d) (mkDate y' m' d') = (y =? y') && (m =? m') && (d =? d').
Proof.
  apply Bool.eq_iff_eq_true. rewrite date_eqb_eq, !andb_true_iff, !Z.eqb_eq. split.
  - intros H. injection H. auto.
  - intros ((-> & ->) & ->). reflexivity.
Qed.
Lemma eqb_plus_0 d e : (d =? e) = (d =? e + 0).
Proof. now rewrite Z.add_0_r. Qed.

Lemma core_weekend_fm w : core_weekend w = weekday_eqb w Sat || weekday_eqb w Sun.
Proof. now destruct w. Qed.

Definition every_weekday : list Weekday := [Mon; Tue; Wed; Thu; Fri; Sat; Sun].
Lemma in_every_weekday w : In w every_weekday.
Proof. destruct w; cbn; tauto. Qed.

(** What the rules say about a day: open if it is a working day in spite of the rules, or none of
    the days of rest and holidays. *)
Definition open_by_rules (c : Country) (d : Z) (w : Weekday) (m y dd em oem : Z) : bool :=
  rulesb (working_rules c) d w m y dd em oem
  || negb (rulesb (rest_rules c ++ closing_rules c) d w m y dd em oem).

Definition open_fm (c : Country) : fm :=
  Or (rules_fm (working_rules c)) (Not (rules_fm (rest_rules c ++ closing_rules c))).

Lemma open_fm_eval c d w m y dd em oem :
  eval (open_fm c) (mkEnv d w m y dd em oem) = open_by_rules c d w m y dd em oem.
Proof. unfold open_fm, open_by_rules. cbn [eval]. now rewrite !rules_fm_eval. Qed.

Ltac core_formula :=
  rewrite <- open_fm_eval;
  cal_unfold;
  lazymatch goal with |- _ = eval _ (mkEnv _ ?w _ _ _ _ _) => fold (core_weekend w) end;
  rewrite ?core_weekend_fm, ?date_eqb_split, ?eqb_if_plus, ?eqb_plus_if, ?eqb_if;
  lazymatch goal with
  | |- ?t = eval ?g (mkEnv ?d ?w ?m ?y ?dd ?em ?oem) =>
      rewrite ?(eqb_plus_0 dd em), ?(eqb_plus_0 dd oem)
  end;
  lazymatch goal with
  | |- ?t = eval ?g (mkEnv ?d ?w ?m ?y ?dd ?em ?oem) =>
      let f := reify_bool d w m y dd em oem t in
      change (eval f (mkEnv d w m y dd em oem) = eval g (mkEnv d w m y dd em oem))
  end.

(** The cores say what the rules say. *)
Lemma core_rules c d w m y dd em oem :
  1 <= m <= 12 -> 1 <= d <= most_days m -> 1901 <= y <= 2199 -> dd = ordinal (mkDate y m d) ->
  country_core c d w m y dd em oem = open_by_rules c d w m y dd em oem.
Proof.
  intros M D Y O. pose proof (in_every_weekday w) as W.
  destruct c; all_markets; core_formula;
    (apply (same_spec every_weekday);
       [vm_cast_no_check (eq_refl true) |
        unfold dated; cbn [e_m e_d e_w e_y e_dd]; clear - M D W Y O; intuition lia]).
Qed.

Lemma core_rules_all_years c d w m y dd em oem : needs_easter c = false ->
  1 <= m <= 12 -> 1 <= d <= most_days m ->
  country_core c d w m y dd em oem = open_by_rules c d w m y dd em oem.
Proof.
  intros N M D. pose proof (in_every_weekday w) as W.
  destruct c; all_markets; try discriminate; core_formula;
    (apply (same_ageless every_weekday);
      [vm_cast_no_check (eq_refl true) | vm_cast_no_check (eq_refl true) | vm_cast_no_check (eq_refl true) | assumption..]).
Qed.

(** The tables are within reach of the procedure. *)
Lemma tables_wf c : forallb wf_rule (rest_rules c ++ closing_rules c) = true
  /\ forallb wf_rule (working_rules c) = true /\ forallb plain (working_rules c) = true
  /\ (needs_easter c = false -> forallb plain (rest_rules c ++ closing_rules c) = true).
Proof.
  destruct c; all_markets; (split; [vm_compute; reflexivity |]); (split; [vm_compute; reflexivity |]);
    (split; [vm_compute; reflexivity |]);
    cbn [needs_easter]; try discriminate; intros _; vm_compute; reflexivity.
Qed.

(** ** C66: the closing days, exactly *)

(** A closing day of a calendar: a weekly day of rest or a holiday, unless declared a working day. *)
Definition closing_day (c : Country) (d : NaiveDate) : Prop :=
  ~ holiday (working_rules c) d /\ (rest_day c (weekday d) \/ holiday (closing_rules c) d).

Lemma holiday_app a b d : holiday (a ++ b) d <-> holiday a d \/ holiday b d.
Proof.
  unfold holiday. split.
  - intros (r & I & K). apply in_app_iff in I. destruct I; [left | right]; eauto.
  - intros [(r & I & K) | (r & I & K)]; exists r; rewrite in_app_iff; auto.
Qed.

Lemma rest_rules_day c d : holiday (rest_rules c) d <-> rest_day c (weekday d).
Proof.
  assert (forall a b, holiday [Weekly a; Weekly b] d <-> weekday d = a \/ weekday d = b) as H.
  { intros a b. unfold holiday. cbn [In]. split.
    - intros (r & [<- | [<- | []]] & K); auto.
    - intros [K | K]; [exists (Weekly a) | exists (Weekly b)]; auto. }
  destruct c; apply H.
Qed.

Lemma closing_day_b c d : a_date d -> needs_easter c = false \/ 1901 <= nd_year d <= 2199 ->
  (closing_day c d <->
   open_by_rules c (nd_day d) (weekday d) (nd_month d) (nd_year d) (ordinal d)
     (entry EASTER_MONDAY (nd_year d)) (entry ORTHODOX_EASTER_MONDAY (nd_year d)) = false).
Proof.
  intros A Y. pose proof (a_date_proper d A) as P. destruct (tables_wf c) as (W1 & W2 & P2 & P1).
  unfold closing_day, open_by_rules. rewrite <- rest_rules_day, <- holiday_app.
  rewrite (rulesb_holiday _ d W1 P) by tauto. rewrite (rulesb_holiday _ d W2 P) by tauto.
  rewrite orb_false_iff, negb_false_iff, not_true_iff_false. tauto.
Qed.

(** Every calendar is closed on its closing days and open on all other days: in every year if it does
    not look up Easter, from 1901 to 2199 if it does. *)
Theorem C66_closing_days : forall c d, a_date d ->
  needs_easter c = false \/ 1901 <= nd_year d <= 2199 ->
  (country_cal c d = Ret false <-> closing_day c d) /\ (country_cal c d = Ret true <-> ~ closing_day c d).
Proof.
  intros c d A Y. rewrite (closing_day_b c d A Y). pose proof (a_date_proper d A) as [Pm Pd].
  assert (1 <= nd_day d <= most_days (nd_month d)) as Pd'.
  { pose proof (most_days_len (nd_year d) (nd_month d)). lia. }
  assert (country_cal c d = Ret (open_by_rules c (nd_day d) (weekday d) (nd_month d) (nd_year d) (ordinal d)
              (entry EASTER_MONDAY (nd_year d)) (entry ORTHODOX_EASTER_MONDAY (nd_year d)))) as ->.
  { destruct (needs_easter c) eqn:N.
    - destruct Y as [Y | Y]; [discriminate |]. destruct (easter_monday_in (nd_year d) Y) as [E1 E2].
      rewrite (country_core_eq c d _ _ E1 E2). f_equal.
      apply core_rules; try assumption. destruct d; reflexivity.
    - rewrite (country_core_free c d (entry EASTER_MONDAY (nd_year d)) (entry ORTHODOX_EASTER_MONDAY (nd_year d)) N).
      f_equal. now apply core_rules_all_years. }
  destruct (open_by_rules _ _ _ _ _ _ _ _); split; split; congruence.
Qed.

(** Without working weekends. *)
Lemma closing_day_plain c d : working_rules c = [] ->
  (closing_day c d <-> rest_day c (weekday d) \/ holiday (closing_rules c) d).
Proof.
  intros E. unfold closing_day. rewrite E. assert (~ holiday [] d) by (intros (r & [] & _)). tauto.
Qed.

(** Thanksgiving 2024 at the New York exchange and the day after; Columbus Day 1970 and 1971; Easter
    Monday 2024 in Paris; the bridge holiday of 20 September 2026 in Japan; the Chinese New Year of
    2020; a Sunday in Tel Aviv; a working Saturday in Moscow. *)
Example C66_case :
  closing_rules (UnitedStates (Some UnitedStatesMarket_NYSE)) = us_nyse
  /\ holiday us_nyse (mkDate 2024 11 28) /\ ~ holiday us_nyse (mkDate 2024 11 29)
  /\ country_cal (UnitedStates (Some UnitedStatesMarket_NYSE)) (mkDate 2024 11 28) = Ret false
  /\ country_cal (UnitedStates (Some UnitedStatesMarket_NYSE)) (mkDate 2024 11 29) = Ret true
  /\ country_cal (UnitedStates None) (mkDate 1970 10 12) = Ret true
  /\ country_cal (UnitedStates None) (mkDate 1971 10 11) = Ret false
  /\ country_cal (France None) (mkDate 2024 4 1) = Ret false
  /\ country_cal Japan (mkDate 2026 9 22) = Ret false /\ country_cal Japan (mkDate 2025 9 22) = Ret true
  /\ country_cal China (mkDate 2020 1 24) = Ret false /\ country_cal China (mkDate 2024 1 24) = Ret true
  /\ country_cal Israel (mkDate 2023 6 4) = Ret true /\ country_cal Israel (mkDate 2023 4 6) = Ret false
  /\ country_cal (Russia (Some RussiaMarket_Exchange)) (mkDate 2018 6 9) = Ret true
  /\ holiday (working_rules (Russia (Some RussiaMarket_Exchange))) (mkDate 2018 6 9).
Proof.
  assert (a_date (mkDate 2024 11 28)) as A1 by (apply valid_a_date; reflexivity).
  assert (a_date (mkDate 2024 11 29)) as A2 by (apply valid_a_date; reflexivity).
  split; [reflexivity |].
  split; [apply (rulesb_holiday us_nyse (mkDate 2024 11 28)); [vm_compute; reflexivity | now apply a_date_proper | cbn; lia | vm_compute; reflexivity] |].
  split; [rewrite (rulesb_holiday us_nyse (mkDate 2024 11 29)); [vm_compute; discriminate | vm_compute; reflexivity | now apply a_date_proper | cbn; lia] |].
  do 12 (split; [vm_compute; reflexivity |]).
  exists (InYears [2018] (Fixed 6 9)). split; [vm_compute; tauto |]. split; [now left |].
  split; [apply valid_a_date; reflexivity | split; reflexivity].
Qed.

(** ** C67: the years of the announced holidays *)

Definition single_date (a b : Z) (r : rule) : bool :=
  match r with InYears [y] (Fixed _ _) => (a <=? y) && (y <=? b) | _ => false end.

Lemma single_dates_years a b l d : forallb (single_date a b) l = true -> holiday l d -> a <= nd_year d <= b.
Proof.
  rewrite forallb_forall. intros H (r & I & K). specialize (H r I).
  destruct r as [| | | | | | | | | | ys r | |]; try discriminate. destruct ys as [| y [|]]; try discriminate.
  destruct r; try discriminate. cbn [single_date kept In] in *. rewrite andb_true_iff, !Z.leb_le in H.
  destruct K as [[-> | []] _]. exact H.
Qed.

Lemma announced_split c reg lst a b : announced c = Some (reg, lst, a, b) ->
  closing_rules c = reg ++ lst /\ forallb (single_date a b) lst = true /\ forallb (single_date a b) (working_rules c) = true.
Proof.
  intros E. destruct c; all_markets; try discriminate; injection E as <- <- <- <-;
    (split; [reflexivity | split; vm_compute; reflexivity]).
Qed.

(** Before the first and after the last year with announced days, such a calendar is closed on its days
    of rest and regular holidays only. *)
Theorem C67_announced_years : forall c reg lst a b d, announced c = Some (reg, lst, a, b) -> a_date d ->
  needs_easter c = false \/ 1901 <= nd_year d <= 2199 -> ~ a <= nd_year d <= b ->
  (country_cal c d = Ret false <-> rest_day c (weekday d) \/ holiday reg d)
  /\ (country_cal c d = Ret true <-> ~ (rest_day c (weekday d) \/ holiday reg d)).
Proof.
  intros c reg lst a b d E A Y N. destruct (announced_split c reg lst a b E) as (S & L & W).
  assert (closing_day c d <-> rest_day c (weekday d) \/ holiday reg d) as <-.
  { unfold closing_day. rewrite S, holiday_app.
    pose proof (single_dates_years a b lst d L). pose proof (single_dates_years a b _ d W). tauto. }
  now apply C66_closing_days.
Qed.

Definition announced_only (c : Country) (reg : list rule) (y : Z) (d : NaiveDate) : bool :=
  (nd_year d =? y) && validb d
  && negb (rulesb (rest_rules c ++ reg) (nd_day d) (weekday d) (nd_month d) (nd_year d) (ordinal d)
             (entry EASTER_MONDAY (nd_year d)) (entry ORTHODOX_EASTER_MONDAY (nd_year d)))
  && match country_cal c d with Ret false => true | _ => false end.

Definition the_date (r : rule) : list NaiveDate :=
  match r with InYears [y] (Fixed m d) => [mkDate y m d] | _ => [] end.

Lemma announced_found c reg lst a b : announced c = Some (reg, lst, a, b) ->
  forallb wf_rule (rest_rules c ++ reg) = true /\ (1901 <= a <= 2199 /\ 1901 <= b <= 2199)
  /\ existsb (announced_only c reg a) (flat_map the_date lst) = true
  /\ existsb (announced_only c reg b) (flat_map the_date lst) = true.
Proof.
  intros E. destruct c; all_markets; try discriminate; injection E as <- <- <- <-;
    (split; [vm_compute; reflexivity |]); (split; [lia |]); split; vm_compute; reflexivity.
Qed.

(** Those years are sharp: in the first and in the last the calendar closes on a day that is neither. *)
Theorem C67_sharp : forall c reg lst a b y, announced c = Some (reg, lst, a, b) -> y = a \/ y = b ->
  exists d, a_date d /\ nd_year d = y /\ country_cal c d = Ret false
            /\ ~ rest_day c (weekday d) /\ ~ holiday reg d.
Proof.
  intros c reg lst a b y E Hy. destruct (announced_found c reg lst a b E) as (Wf & [Ra Rb] & Xa & Xb).
  assert (existsb (announced_only c reg y) (flat_map the_date lst) = true) as X.
  { destruct Hy as [-> | ->]; [exact Xa | exact Xb]. }
  assert (1901 <= y <= 2199) as Y by (destruct Hy as [-> | ->]; assumption).
  apply existsb_exists in X. destruct X as (d & _ & X). unfold announced_only in X.
  rewrite !andb_true_iff, negb_true_iff, Z.eqb_eq in X. destruct X as (((Ey & V) & R) & C).
  apply valid_a_date in V. exists d. split; [exact V |]. split; [exact Ey |].
  split; [destruct (country_cal c d) as [[|] | |]; discriminate || reflexivity |].
  rewrite <- not_true_iff_false, <- rulesb_holiday, holiday_app, rest_rules_day in R;
    [tauto | exact Wf | now apply a_date_proper | left; lia].
Qed.

(** Indonesia closed for Idul Fitri in 2014, and in 2015 only on regular holidays. *)
Example C67_case :
  announced Indonesia = Some (indonesia_regular, indonesia_listed, 2005, 2014)
  /\ country_cal Indonesia (mkDate 2014 7 29) = Ret false /\ country_cal Indonesia (mkDate 2015 7 17) = Ret true
  /\ country_cal Indonesia (mkDate 2015 8 17) = Ret false.
Proof. split; [reflexivity |]. vm_compute. tauto. Qed.

(** ** C59: TARGET *)

Theorem C59_target : forall d, a_date d -> 2000 <= nd_year d <= 2199 ->
  (country_cal Target d = Ret false <->
     on_weekend d \/ on_day 1 1 d \/ western_feast (-2) d \/ western_feast 1 d \/ on_day 5 1 d
     \/ on_day 12 25 d \/ on_day 12 26 d \/ d = mkDate 2001 12 31)
  /\ (country_cal Target d = Ret false \/ country_cal Target d = Ret true).
Proof.
  intros d A Y. assert (1901 <= nd_year d <= 2199) as Y' by lia.
  split.
  - rewrite (proj1 (C66_closing_days Target d A (or_intror Y'))), (closing_day_plain Target d eq_refl).
    change (rest_day Target (weekday d)) with (on_weekend d). unfold holiday. cbn [closing_rules In].
    assert (d = mkDate 2001 12 31 <-> kept (InYears [1998; 1999; 2001] new_years_eve) d) as ->.
    { cbn [kept In]. unfold new_years_eve, on_day. cbn [kept]. unfold on_day. destruct A as [_ G].
      destruct d as [y m dd]; cbn [nd_year nd_month nd_day] in *. split.
      - intros E. injection E as -> -> ->. intuition.
      - intros (I & _ & -> & ->). f_equal. intuition lia. }
    change (on_day 1 1 d) with (kept new_year d). change (on_day 12 25 d) with (kept christmas d).
    assert (forall r, 2000 <= nd_year d -> kept r d <-> kept (From 2000 r) d) as F by (cbn [kept]; tauto).
    change (on_day 5 1 d) with (kept labour_day d). change (on_day 12 26 d) with (kept boxing_day d).
    change (western_feast (-2) d) with (kept good_friday d). change (western_feast 1 d) with (kept easter_mon d).
    rewrite (F labour_day), (F boxing_day), (F good_friday), (F easter_mon) by lia.
    split.
    + intros [W | (r & I & K)]; [tauto |]. right.
      repeat (destruct I as [<- | I]; [tauto |]). destruct I.
    + intros [W | [K | [K | [K | [K | [K | [K | K]]]]]]]; [tauto | right; eexists; split; [| exact K]; tauto ..].
  - destruct (C53_answers_partial Target d A (or_intror Y')) as [[|] E]; rewrite E; auto.
Qed.

Example C59_case :
  country_cal Target (mkDate 2024 3 29) = Ret false /\ western_feast (-2) (mkDate 2024 3 29)
  /\ country_cal Target (mkDate 2024 12 31) = Ret true /\ country_cal Target (mkDate 2001 12 31) = Ret false.
Proof.
  split; [vm_compute; reflexivity |]. split; [| vm_compute; tauto].
  apply western_feast_ordinal; [apply a_date_proper, valid_a_date; reflexivity | cbn; lia | vm_compute; reflexivity].
Qed.

(** ** C60: n-th and last weekdays *)

(** Each year has exactly one n-th w of month m, and exactly one last. *)
Theorem C60_one_each_year : forall w m y, 1 <= m <= 12 ->
  (forall n, (1 <= n <= 4)%nat ->
     exists d, (gregorian y (nd_month d) (nd_day d) /\ nd_year d = y /\ nth_weekday n w m d)
       /\ forall x, gregorian y (nd_month x) (nd_day x) -> nd_year x = y -> nth_weekday n w m x -> x = d)
  /\ exists d, (gregorian y (nd_month d) (nd_day d) /\ nd_year d = y /\ last_weekday w m d)
       /\ forall x, gregorian y (nd_month x) (nd_day x) -> nd_year x = y -> last_weekday w m x -> x = d.
Proof.
  intros w m y Hm. pose proof (month_len_range y m Hm) as ML.
  set (s := num_days_from_ce (mkDate y m 0)).
  assert (forall d, num_days_from_ce (mkDate y m d) = s + d) as S.
  { intros d. unfold s, num_days_from_ce, ordinal. cbn [nd_year nd_month nd_day]. lia. }
  assert (forall d, weekday (mkDate y m d) = w <-> (s + d - 1) mod 7 = weekday_num w) as W.
  { intros d. rewrite <- S, <- weekday_num_weekday. split; [now intros -> |].
    destruct (weekday (mkDate y m d)), w; cbn; congruence. }
  assert (0 <= weekday_num w < 7) as Wr by (destruct w; cbn; lia).
  assert (forall a, 0 <= a -> a + 7 <= month_len y m ->
    exists d, a < d <= a + 7 /\ weekday (mkDate y m d) = w /\
      forall e, a < e <= a + 7 -> weekday (mkDate y m e) = w -> e = d) as One.
  { intros a A1 A2. exists (a + 1 + (weekday_num w - (s + a)) mod 7). split; [lia |]. split.
    - rewrite W. lia.
    - intros e E. rewrite W. lia. }
  assert (forall d, proper (mkDate y m d) <-> 1 <= d <= month_len y m) as Pr.
  { intros d. unfold proper. cbn [nd_year nd_month nd_day]. lia. }
  split.
  - intros n N. destruct (One (7 * (Z.of_nat n - 1))) as (d & D & Wd & U); [lia | lia |].
    assert (proper (mkDate y m d)) as P by (apply Pr; lia).
    exists (mkDate y m d). cbn [nd_year nd_month nd_day]. split.
    + split; [now apply proper_gregorian in P |]. split; [reflexivity |].
      apply nth_weekday_iff; [exact P |]. cbn [nd_month nd_day]. split; [reflexivity |]. split; [exact Wd | lia].
    + intros [yx mx dx] G Ex K. cbn [nd_year nd_month nd_day] in *. subst yx.
      apply nth_weekday_iff in K; [| now apply proper_gregorian]. cbn [nd_month nd_day] in K.
      destruct K as (-> & Kw & Kd). f_equal. apply U; [lia | exact Kw].
  - destruct (One (month_len y m - 7)) as (d & D & Wd & U); [lia | lia |].
    assert (proper (mkDate y m d)) as P by (apply Pr; lia).
    exists (mkDate y m d). cbn [nd_year nd_month nd_day]. split.
    + split; [now apply proper_gregorian in P |]. split; [reflexivity |].
      apply last_weekday_iff; [exact P |]. cbn [nd_year nd_month nd_day]. split; [reflexivity |]. split; [exact Wd | lia].
    + intros [yx mx dx] G Ex K. cbn [nd_year nd_month nd_day] in *. subst yx.
      apply last_weekday_iff in K; [| now apply proper_gregorian]. cbn [nd_year nd_month nd_day] in K.
      destruct K as (-> & Kw & Kd).
      apply (proper_gregorian (mkDate y m dx)) in G. apply Pr in G. f_equal. apply U; [lia | exact Kw].
Qed.


(** Decide a claim about a rule-based calendar from the weekday [W], the month [M] and bounds on day and year. *)
Ltac by_rules d A W M :=
  lazymatch goal with
  | |- country_cal ?c _ = Ret false <-> _ =>
      rewrite (proj1 (C66_closing_days c d A ltac:(first [left; reflexivity | right; assumption])));
      rewrite (closing_day_plain c d eq_refl); unfold rest_day;
      rewrite (rulesb_holiday _ d); [| vm_compute; reflexivity | now apply a_date_proper
        | first [left; assumption | right; vm_compute; reflexivity]]
  end;
  rewrite ?nth_weekday_iff, ?last_weekday_iff by (now apply a_date_proper);
  unfold on_weekend; rewrite W, M;
  repeat match goal with |- context [entry ?t ?y] => generalize dependent (entry t y); intros end; cbn;
  repeat match goal with
  | |- context [shifted ?a ?b ?k] => let v := eval vm_compute in (shifted a b k) in change (shifted a b k) with v
  | |- context [weekday_plus ?a ?k] => let v := eval vm_compute in (weekday_plus a k) in change (weekday_plus a k) with v
  end; cbn;
  match goal with |- (?a = Sat \/ _) \/ ?Q <-> ?m = ?m /\ ?w = ?w /\ ?R =>
    assert (Q <-> R) as ->; [| split; [intros [[X | X] | X]; [discriminate | discriminate | auto] | tauto]]
  end.

(** Settlement in the United States, every year: the Mondays of September, May, February, January and
    October and the Thursdays of November on which it is closed. *)
Theorem C60_united_states : forall d, a_date d ->
  (weekday d = Mon -> nd_month d = 9 ->
     (country_cal (UnitedStates None) d = Ret false <-> nth_weekday 1 Mon 9 d))
  /\ (weekday d = Mon -> nd_month d = 5 -> 1971 <= nd_year d ->
     (country_cal (UnitedStates None) d = Ret false <-> last_weekday Mon 5 d))
  /\ (weekday d = Mon -> nd_month d = 2 -> 1971 <= nd_year d ->
     (country_cal (UnitedStates None) d = Ret false <-> nth_weekday 3 Mon 2 d))
  /\ (weekday d = Mon -> nd_month d = 1 -> 1983 <= nd_year d -> 3 <= nd_day d ->
     (country_cal (UnitedStates None) d = Ret false <-> nth_weekday 3 Mon 1 d))
  /\ (weekday d = Mon -> nd_month d = 10 -> 1978 <= nd_year d ->
     (country_cal (UnitedStates None) d = Ret false <-> nth_weekday 2 Mon 10 d))
  /\ (weekday d = Thu -> nd_month d = 11 -> nd_day d <> 11 ->
     (country_cal (UnitedStates None) d = Ret false <-> nth_weekday 4 Thu 11 d)).
Proof.
  intros d A. pose proof (a_date_proper d A) as [_ P].
  repeat match goal with |- _ /\ _ => split end; intros W M; intros; by_rules d A W M; lia.
Qed.

(** The Mondays of August on which the United Kingdom is closed, in the years of the Easter table. *)
Theorem C60_united_kingdom : forall market d, a_date d -> 1901 <= nd_year d <= 2199 ->
  weekday d = Mon -> nd_month d = 8 ->
  (country_cal (UnitedKingdom market) d = Ret false <-> last_weekday Mon 8 d).
Proof.
  intros k d A Y W M. pose proof (a_date_proper d A) as [_ P].
  pose proof (entry_range _ _ _ (western_check _ Y)) as E.
  assert (213 <= ordinal d) as O.
  { clear - P M. unfold ordinal, days_before_month. rewrite M in *. destruct (is_leap (nd_year d)); cbn; lia. }
  by_rules d A W M. lia.
Qed.

(** 2 September 2024 is the first Monday of its month, 26 May 1975 the last; 26 August 2024 the last. *)
Example C60_case :
  nth_weekday 1 Mon 9 (mkDate 2024 9 2) /\ country_cal (UnitedStates None) (mkDate 2024 9 2) = Ret false
  /\ country_cal (UnitedStates None) (mkDate 2024 9 9) = Ret true
  /\ last_weekday Mon 5 (mkDate 1975 5 26) /\ country_cal (UnitedStates None) (mkDate 1975 5 26) = Ret false
  /\ nth_weekday 4 Thu 11 (mkDate 2500 11 25) /\ country_cal (UnitedStates None) (mkDate 2500 11 25) = Ret false
  /\ last_weekday Mon 8 (mkDate 2024 8 26) /\ country_cal (UnitedKingdom None) (mkDate 2024 8 26) = Ret false
  /\ country_cal (UnitedKingdom None) (mkDate 2024 8 19) = Ret true.
Proof.
  rewrite !nth_weekday_iff, !last_weekday_iff by (apply a_date_proper, valid_a_date; reflexivity).
  vm_compute. intuition congruence.
Qed.
