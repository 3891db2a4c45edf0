(** Property C117: which calendars have the holidays of which. *)
From Coq Require Import ZArith Bool List Lia.
From Verif Require Import Base Chrono Gregorian DateModel DateFacts EasterTables CalLib Calendars CalCore CalFacts CalSpec.
From Verif Require Import PropsDate PropsRoll PropsCalLib PropsCountries HolidayRules HolidayDates HolidayTables HolidayCheck PropsHolidays PropsMoreHolidays.
Import ListNotations.
Local Open Scope Z_scope.

(** ** Specification *)

(** One name for calendars with the same business days: each default market, the three markets of the United Kingdom, Frankfurt
    and Xetra, Paris and Eurex. *)
Definition known_as (c : Country) : Country :=
  match c with
  | Austria None => Austria (Some AustriaMarket_Settlement)
  | Australia None => Australia (Some AustraliaMarket_Settlement)
  | Brazil None => Brazil (Some BrazilMarket_Settlement)
  | Canada None => Canada (Some CanadaMarket_Settlement)
  | France None => France (Some FranceMarket_Settlement)
  | Germany None | Germany (Some GermanyMarket_Xetra) => Germany (Some GermanyMarket_FrankfurtStockExchange)
  | Germany (Some GermanyMarket_Eurex) => France (Some FranceMarket_Exchange)
  | Italy None => Italy (Some ItalyMarket_Settlement)
  | Russia None => Russia (Some RussiaMarket_Settlement)
  | UnitedKingdom _ => UnitedKingdom None
  | UnitedStates None => UnitedStates (Some UnitedStatesMarket_Settlement)
  | _ => c
  end.

(** The calendars with all the holidays of the given one, and more. *)
Definition stricter (c : Country) : list Country :=
  match c with
  | Australia (Some AustraliaMarket_ASX) => [Australia (Some AustraliaMarket_Settlement)]
  | Brazil (Some BrazilMarket_Settlement) => [Brazil (Some BrazilMarket_Exchange)]
  | Canada (Some CanadaMarket_TSX) => [Canada (Some CanadaMarket_Settlement)]
  | France (Some FranceMarket_Exchange) => [Austria (Some AustriaMarket_Exchange); Italy (Some ItalyMarket_Exchange); Sweden]
  | Target => [Austria (Some AustriaMarket_Exchange); Italy (Some ItalyMarket_Exchange); Sweden; France (Some FranceMarket_Exchange)]
  | Germany (Some GermanyMarket_Euwax) => [Austria (Some AustriaMarket_Exchange); Germany (Some GermanyMarket_Settlement)]
  | Germany (Some GermanyMarket_FrankfurtStockExchange) =>
      [Austria (Some AustriaMarket_Exchange); Italy (Some ItalyMarket_Exchange); Slovakia; Finland; Sweden;
       France (Some FranceMarket_Exchange); Germany (Some GermanyMarket_Settlement); Germany (Some GermanyMarket_Euwax)]
  | UnitedStates (Some UnitedStatesMarket_Libor) => [UnitedStates (Some UnitedStatesMarket_Settlement)]
  | UnitedStates (Some UnitedStatesMarket_GovernmentBond) => [UnitedStates (Some UnitedStatesMarket_SOFR)]
  | UnitedStates (Some UnitedStatesMarket_FederalReserve) =>
      [UnitedStates (Some UnitedStatesMarket_GovernmentBond); UnitedStates (Some UnitedStatesMarket_SOFR);
       UnitedStates (Some UnitedStatesMarket_Settlement)]
  | UnitedStates (Some UnitedStatesMarket_NERC) =>
      [UnitedStates (Some UnitedStatesMarket_NYSE); UnitedStates (Some UnitedStatesMarket_GovernmentBond);
       UnitedStates (Some UnitedStatesMarket_SOFR); UnitedStates (Some UnitedStatesMarket_FederalReserve);
       UnitedStates (Some UnitedStatesMarket_Settlement)]
  | _ => []
  end.

(** [b] has all the holidays of [a]; every calendar but Israel's and the Russian exchange has the weekends. *)
Definition holidays_of (a b : Country) : Prop :=
  known_as a = known_as b \/ In (known_as b) (stricter (known_as a))
  \/ a = WeekendsOnly /\ b <> Israel /\ b <> Russia (Some RussiaMarket_Exchange).

(** ** Deciding it *)

Definition country_eq_dec (a b : Country) : {a = b} + {a <> b}.
Proof. repeat decide equality. Defined.

Definition known (c : Country) (l : list Country) : bool := existsb (fun x => if country_eq_dec x c then true else false) l.

Lemma known_in c l : known c l = true <-> In c l.
Proof.
  unfold known. rewrite existsb_exists. split.
  - intros (x & H & E). destruct (country_eq_dec x c); [now subst | discriminate].
  - intros H. exists c. split; [exact H |]. now destruct (country_eq_dec c c).
Qed.

Definition weekends (a : Country) : bool := match a with WeekendsOnly => true | _ => false end.

Definition holidays_ofb (a b : Country) : bool :=
  known (known_as a) [known_as b] || known (known_as b) (stricter (known_as a))
  || weekends a && negb (known b [Israel; Russia (Some RussiaMarket_Exchange)]).

Lemma holidays_ofb_iff a b : holidays_ofb a b = true <-> holidays_of a b.
Proof.
  unfold holidays_ofb, holidays_of. rewrite !orb_true_iff, andb_true_iff, negb_true_iff, !known_in, <- not_true_iff_false, known_in. cbn [In].
  split.
  - intros [[[E | []] | I] | (W & N)]; [now left | right; now left |]. right; right. destruct a; try discriminate. intuition.
  - intros [E | [I | (-> & N1 & N2)]]; [left; left; left; now symmetry | left; now right |]. right. split; [reflexivity |].
    intros [E | [E | []]]; congruence.
Qed.

(** All calendars. *)
Definition every_calendar : list Country :=
  [Argentina;
   Austria None;
   Austria (Some AustriaMarket_Settlement);
   Austria (Some AustriaMarket_Exchange);
   Australia None;
   Australia (Some AustraliaMarket_Settlement);
   Australia (Some AustraliaMarket_ASX);
   Botswana;
   Brazil None;
   Brazil (Some BrazilMarket_Settlement);
   Brazil (Some BrazilMarket_Exchange);
   Canada None;
   Canada (Some CanadaMarket_Settlement);
   Canada (Some CanadaMarket_TSX);
   Chile;
   China;
   CzechRepublic;
   Denmark;
   Finland;
   France None;
   France (Some FranceMarket_Settlement);
   France (Some FranceMarket_Exchange);
   Germany None;
   Germany (Some GermanyMarket_Settlement);
   Germany (Some GermanyMarket_FrankfurtStockExchange);
   Germany (Some GermanyMarket_Xetra);
   Germany (Some GermanyMarket_Eurex);
   Germany (Some GermanyMarket_Euwax);
   HongKong;
   Hungary;
   Iceland;
   India;
   Indonesia;
   Israel;
   Italy None;
   Italy (Some ItalyMarket_Settlement);
   Italy (Some ItalyMarket_Exchange);
   Japan;
   Mexico;
   NewZealand;
   Norway;
   Poland;
   Romania;
   Russia None;
   Russia (Some RussiaMarket_Settlement);
   Russia (Some RussiaMarket_Exchange);
   Singapore;
   Slovakia;
   SouthAfrica;
   SouthKorea;
   Sweden;
   Switzerland;
   Taiwan;
   Target;
   Thailand;
   Turkey;
   Ukraine;
   UnitedKingdom None;
   UnitedKingdom (Some UnitedKingdomMarket_Settlement);
   UnitedKingdom (Some UnitedKingdomMarket_Exchange);
   UnitedKingdom (Some UnitedKingdomMarket_Metals);
   UnitedStates None;
   UnitedStates (Some UnitedStatesMarket_Settlement);
   UnitedStates (Some UnitedStatesMarket_Libor);
   UnitedStates (Some UnitedStatesMarket_NYSE);
   UnitedStates (Some UnitedStatesMarket_GovernmentBond);
   UnitedStates (Some UnitedStatesMarket_SOFR);
   UnitedStates (Some UnitedStatesMarket_NERC);
   UnitedStates (Some UnitedStatesMarket_FederalReserve);
   WeekendsOnly].

Lemma every_calendar_all c : In c every_calendar.
Proof. destruct c; all_markets; cbv [every_calendar In]; repeat first [left; reflexivity | right]. Qed.

(** *** What is contained *)

Definition day_env (d : NaiveDate) : env :=
  mkEnv (nd_day d) (weekday d) (nd_month d) (nd_year d) (ordinal d) (entry EASTER_MONDAY (nd_year d)) (entry ORTHODOX_EASTER_MONDAY (nd_year d)).

Lemma open_formula c d : a_date d -> needs_easter c = false \/ 1901 <= nd_year d <= 2199 ->
  country_cal c d = Ret (eval (open_fm c) (day_env d)).
Proof.
  intros A Y. pose proof (a_date_proper d A) as [Pm Pd].
  assert (1 <= nd_day d <= most_days (nd_month d)) as Pd'.
  { pose proof (most_days_len (nd_year d) (nd_month d)). lia. }
  unfold day_env. rewrite open_fm_eval. destruct (needs_easter c) eqn:N.
  - destruct Y as [Y | Y]; [discriminate |]. destruct (easter_monday_in (nd_year d) Y) as [E1 E2].
    rewrite (country_core_eq c d _ _ E1 E2). f_equal. apply core_rules; try assumption. destruct d; reflexivity.
  - rewrite (country_core_free c d (entry EASTER_MONDAY (nd_year d)) (entry ORTHODOX_EASTER_MONDAY (nd_year d)) N).
    f_equal. now apply core_rules_all_years.
Qed.

Lemma implied f g e : same every_weekday (And f g) g = true -> dated every_weekday e -> eval g e = true -> eval f e = true.
Proof. intros S D G. pose proof (same_spec _ _ _ e S D) as Q. cbn [eval] in Q. now rewrite G, andb_true_r in Q. Qed.

Lemma implied_ageless f g d w m y dd em oem : same every_weekday (And f g) g = true -> ageless f = true -> ageless g = true ->
  1 <= m <= 12 -> 1 <= d <= most_days m -> In w every_weekday ->
  eval g (mkEnv d w m y dd em oem) = true -> eval f (mkEnv d w m y dd em oem) = true.
Proof.
  intros S Af Ag M D W G. assert (ageless (And f g) = true) as Afg by (cbn [ageless]; now rewrite Af, Ag).
  pose proof (same_ageless _ _ _ d w m y dd em oem S Afg Ag M D W) as Q. cbn [eval] in Q. now rewrite G, andb_true_r in Q.
Qed.

Lemma open_iff c d b : a_date d -> needs_easter c = false \/ 1901 <= nd_year d <= 2199 ->
  (country_cal c d = Ret b <-> eval (open_fm c) (day_env d) = b).
Proof. intros A Y. rewrite (open_formula c d A Y). generalize (eval (open_fm c) (day_env d)). intros x. split; congruence. Qed.

(** The formula of the stricter calendar implies that of the other; without Easter it does so in every year. *)
Lemma when (x y : bool) : x = true -> (if x then y else true) = true -> y = true.
Proof. now intros ->. Qed.

Lemma right_of (x y : bool) : x = false -> x || y = true -> y = true.
Proof. now intros ->. Qed.

Lemma then_of (x y : bool) : x = true -> negb x || y = true -> y = true.
Proof. now intros ->. Qed.

Lemma within_sound a b : same every_weekday (And (open_fm a) (open_fm b)) (open_fm b)
    && (if needs_easter b then true else negb (needs_easter a) && ageless (open_fm a) && ageless (open_fm b)) = true ->
  more_holidays (country_cal a) (country_cal b).
Proof.
  intros W d A. apply andb_prop in W. destruct W as (S & U).
  pose proof (a_date_proper d A) as [Pm Pd].
  assert (1 <= nd_day d <= most_days (nd_month d)) as Pd'.
  { pose proof (most_days_len (nd_year d) (nd_month d)). lia. }
  pose proof (in_every_weekday (weekday d)) as W.
  destruct (needs_easter b) eqn:Nb.
  - intros E. assert (1901 <= nd_year d <= 2199) as Y.
    { destruct (C53_panics_iff b d A) as [P _].
      destruct (Z_le_gt_dec 1901 (nd_year d)); [destruct (Z_le_gt_dec (nd_year d) 2199) |]; [lia | |];
        exfalso; (assert (country_cal b d = Panic) by (apply P; split; [assumption | lia])); congruence. }
    apply (open_iff a d true A (or_intror Y)). apply (open_iff b d true A (or_intror Y)) in E.
    refine (implied (open_fm a) (open_fm b) (day_env d) S _ E).
    clear - Pm Pd' Y W. assert (ordinal d = ordinal (mkDate (nd_year d) (nd_month d) (nd_day d))) by (destruct d; reflexivity).
    unfold dated, day_env. cbn [e_m e_d e_w e_y e_dd]. intuition lia.
  - apply andb_prop in U. destruct U as (U & U2). apply andb_prop in U. destruct U as (U0 & U1). apply negb_true_iff in U0.
    rewrite (open_iff a d true A (or_introl U0)), (open_iff b d true A (or_introl Nb)).
    exact (implied_ageless (open_fm a) (open_fm b) _ _ _ _ _ _ _ S U1 U2 Pm Pd' W).
Qed.

Lemma weekends_within b : b <> Israel -> b <> Russia (Some RussiaMarket_Exchange) -> more_holidays (country_cal WeekendsOnly) (country_cal b).
Proof.
  intros N1 N2 d A E. cbn [country_cal]. unfold pure_cal, weekendsonly_is_business_day.
  destruct (is_weekend d) eqn:W; [| reflexivity]. exfalso. refine (C54_rest_days_closed b d A _ N2 E).
  assert (weekday d = Sat \/ weekday d = Sun) as Q by (unfold is_weekend in W; destruct (weekday d); try discriminate; auto).
  destruct b; try exact Q; congruence.
Qed.

Lemma all_within :
  forallb (fun a => if weekends a then true else forallb (fun b => if holidays_ofb a b
    then same every_weekday (And (open_fm a) (open_fm b)) (open_fm b)
        && (if needs_easter b then true else negb (needs_easter a) && ageless (open_fm a) && ageless (open_fm b)) else true) every_calendar) every_calendar = true.
Proof. vm_cast_no_check (eq_refl true). Qed.

(** *** What is not *)

(** Days that tell the calendars apart. *)
Definition telling_days : list NaiveDate :=
  [mkDate 1905 6 12; mkDate 1969 8 15; mkDate 1995 1 2; mkDate 1995 4 17; mkDate 1995 11 10; mkDate 1998 5 21;
   mkDate 1998 5 25; mkDate 1998 12 24; mkDate 1998 12 31; mkDate 2007 1 2; mkDate 2007 2 23; mkDate 2007 4 1;
   mkDate 2007 4 5; mkDate 2007 4 6; mkDate 2007 4 9; mkDate 2007 10 1; mkDate 2007 11 22; mkDate 2010 2 15;
   mkDate 2010 3 15; mkDate 2010 11 17; mkDate 2010 12 24; mkDate 2013 4 25; mkDate 2016 2 20; mkDate 2016 5 16;
   mkDate 2016 7 6; mkDate 2016 11 11; mkDate 2016 12 6; mkDate 2019 5 1; mkDate 2022 1 3; mkDate 2022 6 16;
   mkDate 2020 7 3; mkDate 2021 7 5; mkDate 2023 4 7].

Definition openb (c : Country) (d : NaiveDate) : bool := match country_cal c d with Ret true => true | _ => false end.

Fixpoint told_apart (a b : list bool) : bool :=
  match a, b with
  | x :: a, y :: b => negb x && y || told_apart a b
  | _, _ => false
  end.

Definition rows : list (Country * list bool) := map (fun c => (c, map (openb c) telling_days)) every_calendar.
Lemma all_told : (fun r => forallb (fun a => forallb (fun b => holidays_ofb (fst a) (fst b) || told_apart (snd a) (snd b)) r) r) rows = true.
Proof. vm_cast_no_check (eq_refl true). Qed.

Lemma told_apart_day a b l : told_apart (map (openb a) l) (map (openb b) l) = true -> exists d, In d l /\ openb a d = false /\ openb b d = true.
Proof.
  induction l as [| d l IH]; cbn [map told_apart]; [discriminate |]. intros H. apply orb_prop in H. destruct H as [H | H].
  - apply andb_prop in H. destruct H as (H1 & H2). exists d. split; [now left |]. split; [now apply negb_true_iff in H1 | exact H2].
  - destruct (IH H) as (x & I & E). exists x. split; [now right | exact E].
Qed.

Lemma telling_days_real : forallb validb telling_days = true.
Proof. reflexivity. Qed.

(** ** C117 *)

(** One shipped calendar has all the holidays of another in exactly these cases. *)
Theorem C117_holidays_of : forall a b, more_holidays (country_cal a) (country_cal b) <-> holidays_of a b.
Proof.
  intros a b. rewrite <- holidays_ofb_iff. pose proof (every_calendar_all a) as Ia. pose proof (every_calendar_all b) as Ib. split.
  - intros M. destruct (holidays_ofb a b) eqn:H; [reflexivity |]. exfalso.
    pose proof all_told as T. cbv beta in T. rewrite forallb_forall in T.
    assert (In (a, map (openb a) telling_days) rows) as Ra by (unfold rows; now apply (in_map (fun c => (c, map (openb c) telling_days)))).
    assert (In (b, map (openb b) telling_days) rows) as Rb by (unfold rows; now apply (in_map (fun c => (c, map (openb c) telling_days)))).
    specialize (T _ Ra). rewrite forallb_forall in T. specialize (T _ Rb). apply right_of in T; [| exact H].
    destruct (told_apart_day a b _ T) as (d & Id & Ea & Eb). pose proof telling_days_real as V. rewrite forallb_forall in V.
    assert (a_date d) as A by (apply valid_a_date; now apply V). unfold openb in Ea, Eb.
    destruct (country_cal b d) as [[|] | |] eqn:Q; try discriminate. rewrite (M d A Q) in Ea. discriminate.
  - intros H. pose proof all_within as T. rewrite forallb_forall in T. specialize (T a Ia).
    destruct (weekends a) eqn:W.
    + destruct a; try discriminate. apply holidays_ofb_iff in H. destruct H as [E | [[] | (_ & N1 & N2)]]; [| now apply weekends_within].
      apply weekends_within; intros ->; discriminate.
    + rewrite forallb_forall in T. specialize (T b Ib). apply when in T; [| exact H]. exact (within_sound a b T).
Qed.
Print Assumptions C117_holidays_of.

(** Two of them have the same business days exactly when they are known by the same name. *)
Theorem C117_same_days : forall a b,
  (forall d, a_date d -> (country_cal a d = Ret true <-> country_cal b d = Ret true)) <-> known_as a = known_as b.
Proof.
  intros a b. split.
  - intros E. assert (holidays_of a b) as H1 by (apply C117_holidays_of; intros d A; apply E; exact A).
    assert (holidays_of b a) as H2 by (apply C117_holidays_of; intros d A; apply E; exact A).
    apply holidays_ofb_iff in H1, H2.
    destruct (country_eq_dec (known_as a) (known_as b)) as [Q | N]; [exact Q | exfalso].
    assert (forallb (fun a => forallb (fun b => negb (holidays_ofb a b && holidays_ofb b a) || known (known_as a) [known_as b]) every_calendar) every_calendar = true) as T
      by (vm_cast_no_check (eq_refl true)).
    rewrite forallb_forall in T. specialize (T a (every_calendar_all a)). rewrite forallb_forall in T. specialize (T b (every_calendar_all b)).
    apply then_of in T; [| now rewrite H1, H2]. apply known_in in T. destruct T as [T | []]. now apply N.
  - intros E d A. split.
    + apply (proj2 (C117_holidays_of b a)); [left; now symmetry | exact A].
    + apply (proj2 (C117_holidays_of a b)); [now left | exact A].
Qed.
Print Assumptions C117_same_days.

(** So rolling by the stricter calendar goes no less far. *)
Theorem C117_rolls : forall a b d p d0 r r', holidays_of a b -> p d = Ret (Some d0) -> a_date d0 ->
  (checked_roll d p (country_cal a) Following = Ret (Some r) -> checked_roll d p (country_cal b) Following = Ret (Some r') -> ~ earlier r' r)
  /\ (checked_roll d p (country_cal a) Preceding = Ret (Some r) -> checked_roll d p (country_cal b) Preceding = Ret (Some r') -> ~ earlier r r').
Proof.
  intros a b d p d0 r r' H Hp H0. apply C117_holidays_of in H. split; intros R R'.
  - exact (C116_following _ _ d p d0 r r' H Hp H0 R R').
  - exact (C116_preceding _ _ d p d0 r r' H Hp H0 R R').
Qed.
Print Assumptions C117_rolls.

(** And counting by it counts no more days. *)
Theorem C117_counts : forall a b from to i l n n', holidays_of a b -> a_date from -> a_date to -> ~ earlier to from ->
  business_days_between (country_cal a) from to i l = Ret n -> business_days_between (country_cal b) from to i l = Ret n' -> n' <= n.
Proof. intros a b from to i l n n' H. apply C117_holidays_of in H. now apply C116_counts. Qed.
Print Assumptions C117_counts.

(** New Year's Eve 2024 in Sweden and on TARGET. *)
Example C117_case : holidays_of Target Sweden /\ ~ holidays_of Sweden Target
  /\ country_cal Sweden (mkDate 2024 12 31) = Ret false /\ country_cal Target (mkDate 2024 12 31) = Ret true
  /\ checked_roll (mkDate 2024 12 31) (Days 0) (country_cal Sweden) Following = Ret (Some (mkDate 2025 1 2))
  /\ checked_roll (mkDate 2024 12 31) (Days 0) (country_cal Target) Following = Ret (Some (mkDate 2024 12 31)).
Proof.
  split; [apply holidays_ofb_iff; reflexivity |]. split; [rewrite <- holidays_ofb_iff; discriminate |].
  repeat split; vm_compute; reflexivity.
Qed.
