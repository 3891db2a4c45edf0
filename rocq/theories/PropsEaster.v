(** Properties C52 and C58: the Easter tables and the feasts counted from Easter. *)
From Coq Require Import ZArith Bool List Lia.
From Verif Require Import Base Chrono Gregorian DateFacts EasterTables CalLib Calendars CalCore CalFacts CalSpec.
Import ListNotations.
Local Open Scope Z_scope.

(** ** C52: the tables are the computus *)

(** An i32. *)
Definition i32_year (y : Z) : Prop := -2147483648 <= y <= 2147483647.

(** The lookups answer exactly from 1901 to 2199 and panic otherwise. *)
Theorem C52_range : forall y, i32_year y ->
  ((exists em, easter_monday y = Ret em) <-> 1901 <= y <= 2199)
  /\ ((exists em, orthodox_easter_monday y = Ret em) <-> 1901 <= y <= 2199)
  /\ (~ 1901 <= y <= 2199 -> easter_monday y = Panic /\ orthodox_easter_monday y = Panic).
Proof.
  intros y H. pose proof (easter_monday_in y) as I. pose proof (easter_monday_out y H) as O.
  destruct (Z_le_gt_dec 1901 y) as [L | L]; [destruct (Z_le_gt_dec y 2199) as [G | G] |].
  - destruct I as [I1 I2]; [lia |]. split; [| split]; [split; eauto | split; eauto | lia].
  - destruct O as [O1 O2]; [lia |]. rewrite O1, O2.
    split; [| split]; [split; [intros [? ?]; discriminate | lia] | split; [intros [? ?]; discriminate | lia] | auto].
  - destruct O as [O1 O2]; [lia |]. rewrite O1, O2.
    split; [| split]; [split; [intros [? ?]; discriminate | lia] | split; [intros [? ?]; discriminate | lia] | auto].
Qed.

Lemma entry_in_year y em : 82 <= em <= 130 -> exists d, proper d /\ nd_year d = y /\ day_of_year d em
  /\ num_days_from_ce d = days_before_year y + em.
Proof.
  intros H. destruct (exists_serial (days_before_year y + em)) as (d & P & S). exists d.
  assert (nd_year d = y) as Y.
  { pose proof (ordinal_range d P) as O. rewrite serial_of_ordinal in S.
    pose proof (days_before_year_succ y) as U. pose proof (days_before_year_succ (nd_year d)) as U'.
    assert (0 <= leap01 y <= 1 /\ 0 <= leap01 (nd_year d) <= 1) as B
        by (unfold leap01; destruct (is_leap y), (is_leap (nd_year d)); lia).
    destruct (Z_lt_le_dec (nd_year d) y) as [L | L].
    - pose proof (days_before_year_mono (nd_year d + 1) y). lia.
    - destruct (Z_lt_le_dec y (nd_year d)) as [L' | L']; [| lia].
      pose proof (days_before_year_mono (y + 1) (nd_year d)). lia. }
  split; [exact P |]. split; [exact Y |]. split; [| exact S].
  split; [lia |]. apply days_later_serial; [apply proper_first; lia |]. split; [exact P |].
  rewrite Y, S. unfold num_days_from_ce, ordinal, days_before_month. cbn [nd_year nd_month nd_day].
  simpl. lia.
Qed.

Lemma table_meaning table moon y em : easter_check table moon y = true -> em = entry table y ->
  exists e d, sunday_after y (moon y) e /\ next_day e d /\ nd_year d = y /\ day_of_year d em.
Proof.
  intros C ->. pose proof (entry_range _ _ _ C) as R.
  destruct (entry_in_year y (entry table y) R) as (d & P & Y & D & S).
  destruct (exists_serial (days_before_year y + entry table y - 1)) as (e & Pe & Se).
  exists e, d. split; [apply (easter_serial _ _ _ _ C); auto |].
  split; [apply next_day_intro; auto; lia |]. split; [exact Y | exact D].
Qed.

(** The entry is the day of the year of the Monday after Easter Sunday. *)
Theorem C52_western : forall y em, i32_year y -> easter_monday y = Ret em ->
  exists e d, western_easter y e /\ next_day e d /\ nd_year d = y /\ day_of_year d em.
Proof.
  intros y em H E. assert (1901 <= y <= 2199) as R by (apply (proj1 (proj1 (C52_range y H))); eauto).
  destruct (easter_monday_in y R) as [E' _].
  apply (table_meaning EASTER_MONDAY full_moon); [now apply western_check | congruence].
Qed.

Theorem C52_orthodox : forall y em, i32_year y -> orthodox_easter_monday y = Ret em ->
  exists e d, orthodox_easter y e /\ next_day e d /\ nd_year d = y /\ day_of_year d em.
Proof.
  intros y em H E. assert (1901 <= y <= 2199) as R by (apply (proj1 (proj1 (proj2 (C52_range y H)))); eauto).
  destruct (easter_monday_in y R) as [_ E'].
  apply (table_meaning ORTHODOX_EASTER_MONDAY julian_full_moon); [now apply orthodox_check | congruence].
Qed.

(** Each year has only one Easter, so the entries are determined. *)
Theorem C52_unique : forall y e e',
  (western_easter y e -> western_easter y e' -> 1901 <= y <= 2199 -> e = e')
  /\ (orthodox_easter y e -> orthodox_easter y e' -> 1901 <= y <= 2199 -> e = e').
Proof.
  intros y e e'. split; intros H H' R.
  - apply (easter_serial _ _ _ _ (western_check y R)) in H, H'. apply serial_inj; [tauto | tauto | lia].
  - apply (easter_serial _ _ _ _ (orthodox_check y R)) in H, H'. apply serial_inj; [tauto | tauto | lia].
Qed.

Example C52_case : easter_monday 2024 = Ret 92 /\ orthodox_easter_monday 2024 = Ret 127
  /\ western_easter 2024 (mkDate 2024 3 31) /\ orthodox_easter 2024 (mkDate 2024 5 5)
  /\ easter_monday 2200 = Panic /\ easter_monday (-5) = Panic.
Proof.
  split; [reflexivity |]. split; [reflexivity |].
  split; [apply (easter_serial _ _ _ _ (western_check 2024 ltac:(lia))); vm_compute; intuition congruence |].
  split; [apply (easter_serial _ _ _ _ (orthodox_check 2024 ltac:(lia))); vm_compute; intuition congruence |].
  split; reflexivity.
Qed.

(** ** C58: the feasts each calendar keeps *)

(** Days kept, counted from Easter Sunday: -48 and -47 Carnival, -3 Maundy Thursday, -2 Good Friday,
    -1 Holy Saturday, 1 Easter Monday, 26 General Prayer Day, 39 Ascension, 40 the day after,
    50 Whit Monday, 60 Corpus Christi. *)
Definition western_feasts (c : Country) (y : Z) : list Z :=
  match c with
  | Argentina => [-3; -2]
  | Australia _ => [-2; 1]
  | Austria (Some AustriaMarket_Exchange) => [-2; 1; 50]
  | Austria _ => [1; 39; 50; 60]
  | Botswana => [-2; 1; 39]
  | Brazil _ => [-48; -47; -2; 60]
  | Canada _ => [-2]
  | Chile => [-2; -1]
  | CzechRepublic => if 2016 <=? y then [-2; 1] else [1]
  | Denmark => [-3; -2; 1; 39; 50] ++ (if y <=? 2023 then [26] else []) ++ (if 2009 <=? y then [40] else [])
  | Finland => [-2; 1; 39]
  | France (Some FranceMarket_Exchange) => [-2; 1]
  | France _ => [1]
  | Germany (Some GermanyMarket_Settlement) => [-2; 1; 39; 50; 60]
  | Germany (Some GermanyMarket_Euwax) => [-2; 1; 50]
  | Germany _ => [-2; 1]
  | HongKong => [-2; 1]
  | Hungary => if 2017 <=? y then [-2; 1; 50] else [1; 50]
  | Iceland => [-3; -2; 1; 39; 50]
  | India => [-2]
  | Indonesia => [-2; 39]
  | Italy (Some ItalyMarket_Exchange) => [-2; 1]
  | Italy _ => [1]
  | Mexico => [-3; -2]
  | NewZealand => [-2; 1]
  | Norway => [-3; -2; 1; 39; 50]
  | Poland => [1; 60]
  | Singapore => [-2]
  | Slovakia => [-2; 1]
  | SouthAfrica => [-2; 1]
  | Sweden => if y <? 2005 then [-2; 1; 39; 50] else [-2; 1; 39]
  | Switzerland => [-2; 1; 39; 50]
  | Target => if 2000 <=? y then [-2; 1] else []
  | UnitedKingdom _ => [-2; 1]
  | UnitedStates (Some UnitedStatesMarket_NYSE) => [-2]
  | UnitedStates (Some UnitedStatesMarket_GovernmentBond) =>
      if (y =? 2015) || (y =? 2021) || (y =? 2023) then [] else [-2]
  | UnitedStates (Some UnitedStatesMarket_SOFR) => if (y =? 2015) || (y =? 2021) then [] else [-2]
  | _ => []
  end.

Definition orthodox_feasts (c : Country) : list Z :=
  match c with Romania => [1; 50] | _ => [] end.

(** A disjunction of conditions is true as soon as one of them is. *)
Ltac find_true H :=
  repeat match type of H with ?a || ?b = false => apply orb_false_iff in H; destruct H as [? H] end.

Lemma core_closed_by (b : bool) : b = true -> (if b then false else true) = false.
Proof. now intros ->. Qed.

Ltac feast_case :=
  match goal with
  | O : _ = ?em + ?k |- _ =>
      let k' := eval compute in k in
      cal_unfold;
      repeat match goal with
      | |- context [?dd =? em - ?j] => rewrite (proj2 (Z.eqb_eq dd (em - j))) by lia
      | |- context [?dd =? em + ?j] => rewrite (proj2 (Z.eqb_eq dd (em + j))) by lia
      | |- context [?dd =? em] => rewrite (proj2 (Z.eqb_eq dd em)) by lia
      end;
      repeat match goal with
      | H : ?x = true |- context [?x] => rewrite H
      | H : ?x = false |- context [?x] => rewrite H
      end;
      cbn [orb andb negb];
      rewrite ?orb_true_r, ?orb_true_l; cbn [orb andb negb];
      rewrite ?orb_true_r, ?andb_false_r; cbn [orb andb negb]; rewrite ?orb_true_r;
      repeat match goal with |- context [if ?b then _ else _] => destruct b end; reflexivity
  end.

Lemma western_core c d w m y dd em oem k : In k (western_feasts c y) -> dd = em + (k - 1) ->
  (c = UnitedStates (Some UnitedStatesMarket_SOFR) -> y = 2023 -> m = 4 /\ d = 7) ->
  country_core c d w m y dd em oem = false.
Proof.
  intros I O S. destruct c; all_markets; cbn [western_feasts] in I; try contradiction;
    repeat match type of I with
    | context [if ?b then _ else _] => destruct b eqn:?
    end; cbn [app] in I; cbn [In] in I;
    repeat (destruct I as [<- | I]; [try feast_case |]); try contradiction.
  - apply orb_false_iff in Heqb. destruct Heqb as [Heqb ?]. apply orb_false_iff in Heqb. destruct Heqb.
    feast_case.
  - apply orb_false_iff in Heqb. destruct Heqb. destruct (y =? 2023) eqn:Y.
    + apply Z.eqb_eq in Y. destruct (S eq_refl Y) as [-> ->]. subst. reflexivity.
    + cbv beta iota delta [country_core unitedstates_is_business_day_core unitedstates_sofr_is_business_day_core].
      destruct (date_eqb _ _); [reflexivity |]. feast_case.
Qed.

Lemma romania_core d w m y dd em oem k : In k [1; 50] -> dd = oem + (k - 1) ->
  country_core Romania d w m y dd em oem = false.
Proof.
  intros I O. cbn [In] in I. destruct I as [<- | [<- | []]]; feast_case.
Qed.

(** Every date on a kept feast is a holiday. *)
Theorem C58_western_partial : forall c d k, a_date d -> 1901 <= nd_year d <= 2199 ->
  In k (western_feasts c (nd_year d)) -> western_feast k d -> country_cal c d = Ret false.
Proof.
  intros c d k H R I F. pose proof H as [_ G]. apply proper_gregorian in G.
  apply western_feast_ordinal in F; [| exact G | exact R].
  destruct (easter_monday_in _ R) as [E O]. rewrite (country_core_eq _ _ _ _ E O). f_equal.
  apply (western_core _ _ _ _ _ _ _ _ k I F). intros -> Y. cbn [western_feasts] in I. rewrite Y in *.
  cbn in I. destruct I as [<- | []].
  assert (d = mkDate 2023 4 7) as ->; [| split; reflexivity].
  apply serial_inj; [exact G | apply proper_gregorian; exists 30; cbn; split; [constructor; cbn; tauto | lia] |].
  rewrite serial_of_ordinal, Y, F. reflexivity.
Qed.

Theorem C58_orthodox : forall c d k, a_date d -> 1901 <= nd_year d <= 2199 ->
  In k (orthodox_feasts c) -> orthodox_feast k d -> country_cal c d = Ret false.
Proof.
  intros c d k H R I F. pose proof H as [_ G]. apply proper_gregorian in G.
  apply orthodox_feast_ordinal in F; [| exact G | exact R].
  destruct (easter_monday_in _ R) as [E O]. rewrite (country_core_eq _ _ _ _ E O). f_equal.
  destruct c; cbn [orthodox_feasts In] in I; try contradiction.
  exact (romania_core _ _ _ _ _ _ _ k I F).
Qed.

(** France's settlement calendar does not close on Ascension and Whit Monday (it closes on 10 and 21
    May instead), and Ukraine's closes on the western instead of the orthodox Easter Monday. *)
Theorem C58_france_refuted : exists d d',
  western_feast 39 d /\ country_cal (France None) d = Ret true
  /\ western_feast 50 d' /\ country_cal (France None) d' = Ret true
  /\ country_cal (France None) (mkDate 2023 5 10) = Ret false
  /\ ~ western_feast 39 (mkDate 2023 5 10).
Proof.
  assert (forall m d, validb (mkDate 2023 m d) = true -> proper (mkDate 2023 m d)) as P.
  { intros m d V. now apply valid_proper. }
  exists (mkDate 2023 5 18), (mkDate 2023 5 29).
  split; [apply western_feast_ordinal; [apply P; reflexivity | cbn; lia | reflexivity] |].
  split; [vm_compute; reflexivity |].
  split; [apply western_feast_ordinal; [apply P; reflexivity | cbn; lia | reflexivity] |].
  split; [vm_compute; reflexivity |]. split; [vm_compute; reflexivity |].
  rewrite western_feast_ordinal; [| apply P; reflexivity | cbn; lia].
  vm_compute. discriminate.
Qed.

Theorem C58_ukraine_refuted : exists d d',
  orthodox_feast 1 d /\ country_cal Ukraine d = Ret true
  /\ western_feast 1 d' /\ ~ orthodox_feast 1 d' /\ country_cal Ukraine d' = Ret false.
Proof.
  assert (forall m d, validb (mkDate 2023 m d) = true -> proper (mkDate 2023 m d)) as P.
  { intros m d V. now apply valid_proper. }
  exists (mkDate 2023 4 17), (mkDate 2023 4 10).
  split; [apply orthodox_feast_ordinal; [apply P; reflexivity | cbn; lia | reflexivity] |].
  split; [vm_compute; reflexivity |].
  split; [apply western_feast_ordinal; [apply P; reflexivity | cbn; lia | reflexivity] |].
  split; [| vm_compute; reflexivity].
  rewrite orthodox_feast_ordinal; [| apply P; reflexivity | cbn; lia]. vm_compute. discriminate.
Qed.

Example C58_case :
  western_feast (-2) (mkDate 2024 3 29) /\ In (-2) (western_feasts (Germany None) 2024)
  /\ country_cal (Germany None) (mkDate 2024 3 29) = Ret false
  /\ country_cal (Germany None) (mkDate 2024 3 28) = Ret true
  /\ orthodox_feast 1 (mkDate 2024 5 6) /\ country_cal Romania (mkDate 2024 5 6) = Ret false.
Proof.
  assert (forall m d, validb (mkDate 2024 m d) = true -> proper (mkDate 2024 m d)) as P.
  { intros m d V. now apply valid_proper. }
  split; [apply western_feast_ordinal; [apply P; reflexivity | cbn; lia | reflexivity] |].
  split; [cbn; tauto |]. split; [vm_compute; reflexivity |]. split; [vm_compute; reflexivity |].
  split; [apply orthodox_feast_ordinal; [apply P; reflexivity | cbn; lia | reflexivity] |].
  vm_compute. reflexivity.
Qed.
