(** Properties C53 and C54: every country calendar on every date. *)
From Coq Require Import ZArith Bool List Lia.
From Verif Require Import Base Chrono Gregorian DateFacts EasterTables CalLib Calendars CalCore CalFacts CalSpec.
Import ListNotations.
Local Open Scope Z_scope.

(** The calendars that look up an Easter table. *)
Definition needs_easter (c : Country) : bool :=
  match c with
  | China | Israel | Japan | Russia _ | SouthKorea | Taiwan | Turkey | WeekendsOnly => false
  | UnitedStates (Some UnitedStatesMarket_NYSE)
  | UnitedStates (Some UnitedStatesMarket_GovernmentBond)
  | UnitedStates (Some UnitedStatesMarket_SOFR) => true
  | UnitedStates _ => false
  | _ => true
  end.

(** The calendars that do not are their core in every year. *)
Lemma country_core_free c date em oem : needs_easter c = false ->
  country_cal c date
  = Ret (country_core c (nd_day date) (weekday date) (nd_month date) (nd_year date) (ordinal date)
           em oem).
Proof.
  intros N. destruct date as [y m d]; cbn [nd_year nd_month nd_day] in *.
  destruct c; all_markets; try discriminate; cal_unfold; reflexivity.
Qed.

Lemma easter_panics c date : needs_easter c = true ->
  easter_monday (nd_year date) = Panic -> orthodox_easter_monday (nd_year date) = Panic ->
  country_cal c date = Panic
  \/ (c = UnitedStates (Some UnitedStatesMarket_SOFR) /\ date = mkDate 2023 4 7).
Proof.
  intros N E O. destruct c; all_markets; try discriminate;
    try (left; cbv beta iota zeta delta [country_cal
      argentina_is_business_day austria_is_business_day austria_settlement_is_business_day
      austria_exchange_is_business_day australia_is_business_day australia_settlement_is_business_day
      australia_asx_is_business_day australia_shared_holiday botswana_is_business_day brazil_is_business_day
      brazil_settlement_is_business_day brazil_exchange_is_business_day canada_is_business_day
      canada_settlement_is_business_day canada_tsx_is_business_day canada_shared_holiday
      chile_is_business_day czechrepublic_is_business_day denmark_is_business_day finland_is_business_day
      france_is_business_day france_settlement_is_business_day france_exchange_is_business_day
      germany_is_business_day germany_settlement_is_business_day
      germany_frankfurt_stock_exchange_is_business_day germany_eurex_is_business_day
      germany_euwax_is_business_day hongkong_is_business_day hungary_is_business_day iceland_is_business_day
      india_is_business_day indonesia_is_business_day italy_is_business_day italy_settlement_is_business_day
      italy_exchange_is_business_day mexico_is_business_day newzealand_is_business_day norway_is_business_day
      poland_is_business_day romania_is_business_day singapore_is_business_day slovakia_is_business_day
      southafrica_is_business_day sweden_is_business_day switzerland_is_business_day target_is_business_day
      thailand_is_business_day ukraine_is_business_day unitedkingdom_is_business_day
      unitedkingdom_settlement_is_business_day unitedkingdom_exchange_is_business_day
      unitedkingdom_metals_is_business_day unitedstates_is_business_day unitedstates_nyse_is_business_day
      unitedstates_government_bond_is_business_day naive_date_to_dkmy];
      rewrite ?E, ?O; reflexivity).
  cbn [country_cal]. unfold unitedstates_is_business_day, unitedstates_sofr_is_business_day.
  destruct (date_eqb date (mkDate 2023 4 7)) eqn:D; [apply date_eqb_eq in D; auto |].
  left. unfold unitedstates_government_bond_is_business_day, naive_date_to_dkmy. rewrite E. reflexivity.
Qed.

(** ** C53: when the calendars answer *)

(** A calendar panics exactly when it looks up Easter and the year is outside 1901-2199. *)
Theorem C53_panics_iff : forall c d, a_date d ->
  (country_cal c d = Panic <-> needs_easter c = true /\ ~ 1901 <= nd_year d <= 2199)
  /\ (country_cal c d <> Panic -> exists b, country_cal c d = Ret b).
Proof.
  intros c d [R G]. unfold representable in R.
  destruct (needs_easter c) eqn:N.
  - destruct (Z_le_gt_dec 1901 (nd_year d)) as [L | L]; [destruct (Z_le_gt_dec (nd_year d) 2199) as [U | U] |].
    + destruct (easter_monday_in (nd_year d)) as [E O]; [lia |].
      rewrite (country_core_eq c d _ _ E O). split; [split; [discriminate | intros [_ Q]; lia] | eauto].
    + destruct (easter_monday_out (nd_year d)) as [E O]; [lia | lia |].
      destruct (easter_panics c d N E O) as [-> | [-> ->]]; [| cbn in U; lia].
      split; [split; [intros _; split; [reflexivity | lia] | reflexivity] | congruence].
    + destruct (easter_monday_out (nd_year d)) as [E O]; [lia | lia |].
      destruct (easter_panics c d N E O) as [-> | [-> ->]]; [| cbn in L; lia].
      split; [split; [intros _; split; [reflexivity | lia] | reflexivity] | congruence].
  - rewrite (country_core_free c d 0 0 N). split; [split; [discriminate | intros [? _]; discriminate] | eauto].
Qed.

(** Hence: an answer on every date for the calendars without Easter, on every date from 1901 to 2199
    for the others; what is missing from the property is the other years. *)
Theorem C53_answers_partial : forall c d, a_date d ->
  needs_easter c = false \/ 1901 <= nd_year d <= 2199 -> exists b, country_cal c d = Ret b.
Proof.
  intros c d H A. destruct (C53_panics_iff c d H) as [P Q]. apply Q. intros E. apply P in E.
  destruct E as [E1 E2]. destruct A; [congruence | contradiction].
Qed.

Theorem C53_never_panics_refuted : exists c d, a_date d /\ country_cal c d = Panic.
Proof.
  exists Target, (mkDate 2200 6 3).
  assert (a_date (mkDate 2200 6 3)) as H by (apply valid_a_date; reflexivity).
  split; [exact H |]. apply C53_panics_iff; [exact H |]. split; [reflexivity | cbn; lia].
Qed.

Example C53_case :
  country_cal Japan (mkDate 2500 6 3) = Ret true /\ country_cal (Germany None) (mkDate 1900 12 31) = Panic
  /\ needs_easter (UnitedStates (Some UnitedStatesMarket_Libor)) = false.
Proof. split; [vm_compute; reflexivity |]. split; [vm_compute; reflexivity | reflexivity]. Qed.

(** ** C54: weekends are closed *)

(** The days of the week on which a calendar is always closed. *)
Definition rest_day (c : Country) (w : Weekday) : Prop :=
  match c with Israel => w = Fri \/ w = Sat | _ => w = Sat \/ w = Sun end.

(** The Saturdays and Sundays on which Russia's exchange works. *)
Definition working_weekends : list NaiveDate :=
  [mkDate 2012 3 11; mkDate 2012 4 28; mkDate 2012 5 5; mkDate 2012 5 12; mkDate 2012 6 9;
   mkDate 2016 2 20; mkDate 2018 4 28; mkDate 2018 6 9; mkDate 2018 12 29].

Lemma core_rest_day c d w m y dd em oem : rest_day c w -> c <> Russia (Some RussiaMarket_Exchange) ->
  country_core c d w m y dd em oem = false.
Proof.
  intros W N. destruct c; all_markets; try congruence; cbn [rest_day] in W;
    destruct W as [-> | ->]; cal_unfold; cbn [weekday_eqb orb andb negb];
    rewrite ?andb_false_r, ?andb_false_l, ?orb_true_r, ?orb_false_r; cbn [orb andb negb];
    try reflexivity; repeat match goal with |- context [if ?b then _ else _] => destruct b end; try reflexivity.
Qed.

Theorem C54_rest_days_closed : forall c d, a_date d -> rest_day c (weekday d) ->
  c <> Russia (Some RussiaMarket_Exchange) -> country_cal c d <> Ret true.
Proof.
  intros c d H W N E. destruct (needs_easter c) eqn:U.
  - assert (1901 <= nd_year d <= 2199) as Y.
    { destruct (C53_panics_iff c d H) as [P _].
      destruct (Z_le_gt_dec 1901 (nd_year d)); [destruct (Z_le_gt_dec (nd_year d) 2199) |]; [lia | |];
        exfalso; (assert (country_cal c d = Panic) by (apply P; split; [assumption | lia])); congruence. }
    destruct (easter_monday_in (nd_year d) Y) as [E1 E2].
    rewrite (country_core_eq c d _ _ E1 E2), core_rest_day in E by assumption. discriminate.
  - rewrite (country_core_free c d 0 0 U), core_rest_day in E by assumption. discriminate.
Qed.

(** With C53: closed, rather than panicking, wherever the calendar answers. *)
Theorem C54_rest_days_answer : forall c d, a_date d -> rest_day c (weekday d) ->
  c <> Russia (Some RussiaMarket_Exchange) -> needs_easter c = false \/ 1901 <= nd_year d <= 2199 ->
  country_cal c d = Ret false.
Proof.
  intros c d H W N A. destruct (C53_answers_partial c d H A) as [[|] E]; [| exact E].
  destruct (C54_rest_days_closed c d H W N E).
Qed.

Lemma working_weekend_iff d : russia_is_working_weekend d = true <-> In d working_weekends.
Proof.
  destruct d as [y m d]. unfold russia_is_working_weekend, naive_date_to_dkmy; cbn [nd_year nd_month nd_day].
  split.
  - intros H.
    assert ((y = 2012 /\ m = 3 /\ d = 11) \/ (y = 2012 /\ m = 4 /\ d = 28) \/ (y = 2012 /\ m = 5 /\ d = 5)
      \/ (y = 2012 /\ m = 5 /\ d = 12) \/ (y = 2012 /\ m = 6 /\ d = 9) \/ (y = 2016 /\ m = 2 /\ d = 20)
      \/ (y = 2018 /\ m = 4 /\ d = 28) \/ (y = 2018 /\ m = 6 /\ d = 9) \/ (y = 2018 /\ m = 12 /\ d = 29)) as C.
    { destruct (Z.eqb_spec y 2012) as [Y | _]; [| destruct (Z.eqb_spec y 2016) as [Y | _];
        [| destruct (Z.eqb_spec y 2018) as [Y | _]; [| discriminate]]];
        clear - H Y;
        repeat match type of H with
          | _ || _ = true => apply orb_true_iff in H; destruct H as [H | H]
          | _ && _ = true => apply andb_true_iff in H; let H1 := fresh in destruct H as [H1 H]
          end; rewrite ?Z.eqb_eq in *; intuition lia. }
    unfold working_weekends; cbn [In].
    repeat (destruct C as [(-> & -> & ->) | C]; [tauto |]). destruct C as (-> & -> & ->); tauto.
  - intros H. unfold working_weekends in H; cbn [In] in H.
    repeat (destruct H as [E | H]; [injection E as <- <- <-; reflexivity |]). destruct H.
Qed.

(** Russia's exchange opens on a Saturday or Sunday exactly if it is a listed working weekend day. *)
Theorem C54_russia_exchange : forall d, on_weekend d ->
  (country_cal (Russia (Some RussiaMarket_Exchange)) d = Ret true <-> In d working_weekends)
  /\ (country_cal (Russia (Some RussiaMarket_Exchange)) d = Ret false <-> ~ In d working_weekends).
Proof.
  intros d W. rewrite <- working_weekend_iff.
  assert (is_weekend d = true) as E.
  { unfold is_weekend. destruct W as [-> | ->]; reflexivity. }
  cbn [country_cal]. unfold pure_cal, russia_is_business_day, russia_exchange_is_business_day, naive_date_to_dkmy.
  rewrite E. cbn [orb]. destruct (russia_is_working_weekend d); split; split; congruence.
Qed.

Theorem C54_listed_days_are_weekends : forall d, In d working_weekends -> a_date d /\ on_weekend d.
Proof.
  intros d H. unfold working_weekends in H; cbn [In] in H.
  repeat (destruct H as [<- | H];
    [split; [apply valid_a_date; reflexivity | first [left; vm_compute; reflexivity | right; vm_compute; reflexivity]] |]).
  destruct H.
Qed.

(** Hence the unqualified property is false, for Israel's Sundays as well. *)
Theorem C54_weekends_closed_refuted :
  (exists d, a_date d /\ on_weekend d /\ country_cal (Russia (Some RussiaMarket_Exchange)) d = Ret true)
  /\ (exists d, a_date d /\ on_weekend d /\ country_cal Israel d = Ret true).
Proof.
  split; [exists (mkDate 2018 12 29) | exists (mkDate 2023 6 4)];
    (split; [apply valid_a_date; reflexivity |]);
    (split; [first [left; vm_compute; reflexivity | right; vm_compute; reflexivity] | vm_compute; reflexivity]).
Qed.

Example C54_case :
  country_cal Israel (mkDate 2023 6 2) = Ret false /\ weekday (mkDate 2023 6 2) = Fri
  /\ country_cal (Austria None) (mkDate 2023 6 4) = Ret false /\ country_cal (Austria None) (mkDate 2023 6 5) = Ret true
  /\ country_cal (Russia (Some RussiaMarket_Exchange)) (mkDate 2018 6 9) = Ret true
  /\ country_cal (Russia (Some RussiaMarket_Exchange)) (mkDate 2018 6 10) = Ret false
  /\ country_cal (Russia (Some RussiaMarket_Settlement)) (mkDate 2018 6 9) = Ret false.
Proof. vm_compute. tauto. Qed.
