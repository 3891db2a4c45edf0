(** The closing days of the calendars, other than their weekly days of rest: what they are claimed to
    do, written as holiday rules and single dates rather than as day ranges. *)
From Coq Require Import ZArith Bool List.
From Verif Require Import Base Chrono Calendars HolidayRules HolidayDates.
Import ListNotations.
Local Open Scope Z_scope.

(** Holidays several calendars share. *)
Definition new_year := Fixed 1 1.
Definition epiphany := Fixed 1 6.
Definition maundy_thursday := Western (-3).
Definition good_friday := Western (-2).
Definition easter_mon := Western 1.
Definition ascension := Western 39.
Definition whit_monday := Western 50.
Definition corpus_christi := Western 60.
Definition labour_day := Fixed 5 1.
Definition assumption := Fixed 8 15.
Definition all_saints := Fixed 11 1.
Definition immaculate := Fixed 12 8.
Definition christmas_eve := Fixed 12 24.
Definition christmas := Fixed 12 25.
Definition boxing_day := Fixed 12 26.
Definition new_years_eve := Fixed 12 31.

(** A day, and the Monday after it in the years when it is a Sunday. *)
Definition sunday_to_monday (m d : Z) : list rule := [Fixed m d; Moved Sun 1 m d].
(** A day, and the Monday after it in the years when it is on a weekend. *)
Definition weekend_to_monday (m d : Z) : list rule := [Fixed m d; Moved Sat 2 m d; Moved Sun 1 m d].
(** Two days running: each, when on a weekend, is made up for two days later. *)
Definition pair_made_up (m d : Z) : list rule :=
  [Fixed m d; Moved Sat 2 m d; Moved Sun 2 m d;
   Fixed m (d + 1); Moved Sat 2 m (d + 1); Moved Sun 2 m (d + 1)].
(** A day, or the nearest weekday when it is on a weekend. *)
Definition nearest_weekday (m d : Z) : list rule := [Fixed m d; Moved Sun 1 m d; Moved Sat (-1) m d].

(** ** United States *)

Definition washington : list rule :=
  From 1971 (Nth 3 Mon 2) :: map (Until 1970) (nearest_weekday 2 22).
Definition memorial : list rule :=
  From 1971 (Last Mon 5) :: map (Until 1970) (nearest_weekday 5 30).
Definition juneteenth : list rule := map (From 2022) (nearest_weekday 6 19).
Definition labor_day := Nth 1 Mon 9.
Definition columbus := From 1971 (Nth 2 Mon 10).
Definition martin_luther_king (y : Z) := From y (Nth 3 Mon 1).
Definition thanksgiving := Nth 4 Thu 11.
(** 11 November, but the fourth Monday of October from 1971 to 1977. *)
Definition veterans (day : list rule) : list rule :=
  map (Until 1970) day ++ map (From 1978) day ++ [From 1971 (Until 1977 (Nth 4 Mon 10))].

Definition us_settlement (independence : list rule) : list rule :=
  nearest_weekday 1 1 ++ [martin_luther_king 1983] ++ washington ++ memorial ++ juneteenth
  ++ independence ++ [labor_day; columbus] ++ veterans (nearest_weekday 11 11)
  ++ [thanksgiving] ++ nearest_weekday 12 25.

Definition us_nyse : list rule :=
  sunday_to_monday 1 1 ++ washington ++ [good_friday] ++ memorial ++ juneteenth ++ nearest_weekday 7 4
  ++ [labor_day; thanksgiving] ++ nearest_weekday 12 25 ++ [martin_luther_king 1998;
      (* elections: the first Tuesday of November, every year to 1968, then every fourth to 1980 *)
      Until 1968 (Nth 1 Tue 11); InYears [1972; 1976; 1980] (Nth 1 Tue 11);
      (* the paperwork crisis: every Wednesday from 11 June 1968 *)
      InYears [1968] (Since 6 11 (Weekly Wed));
      (* single closures *)
      InYears [2018] (Fixed 12 5); InYears [2012] (Fixed 10 29); InYears [2012] (Fixed 10 30);
      InYears [2007] (Fixed 1 2); InYears [2004] (Fixed 6 11);
      InYears [2001] (Fixed 9 11); InYears [2001] (Fixed 9 12); InYears [2001] (Fixed 9 13); InYears [2001] (Fixed 9 14);
      InYears [1994] (Fixed 4 27); InYears [1985] (Fixed 9 27); InYears [1977] (Fixed 7 14);
      InYears [1973] (Fixed 1 25); InYears [1972] (Fixed 12 28); InYears [1969] (Fixed 7 21);
      InYears [1969] (Fixed 3 31); InYears [1969] (Fixed 2 10); InYears [1968] (Fixed 7 5);
      InYears [1968] (Fixed 4 9); InYears [1963] (Fixed 11 25); InYears [1961] (Fixed 5 29);
      InYears [1958] (Fixed 12 26); InYears [1954; 1956; 1965] christmas_eve].

Definition us_bonds (open_good_fridays : list Z) : list rule :=
  sunday_to_monday 1 1 ++ [martin_luther_king 1983] ++ washington ++ [NotIn open_good_fridays good_friday]
  ++ memorial ++ juneteenth ++ nearest_weekday 7 4 ++ [labor_day; columbus]
  ++ veterans (sunday_to_monday 11 11) ++ [thanksgiving] ++ nearest_weekday 12 25
  ++ [InYears [2018] (Fixed 12 5); InYears [2012] (Fixed 10 30); InYears [2004] (Fixed 6 11)].

Definition us_nerc : list rule :=
  sunday_to_monday 1 1 ++ memorial ++ sunday_to_monday 7 4 ++ [labor_day; thanksgiving] ++ sunday_to_monday 12 25.

Definition us_fed : list rule :=
  sunday_to_monday 1 1 ++ [martin_luther_king 1983] ++ washington ++ memorial ++ juneteenth
  ++ sunday_to_monday 7 4 ++ [labor_day; columbus] ++ veterans (sunday_to_monday 11 11)
  ++ [thanksgiving] ++ sunday_to_monday 12 25.

(** ** Japan *)

Definition japan_rules : list rule :=
  [Fixed 1 1; Fixed 1 2; Fixed 1 3; From 2000 (Nth 2 Mon 1)] ++ map (Until 1999) (sunday_to_monday 1 15)
  ++ sunday_to_monday 2 11
  ++ map (From 2020) (sunday_to_monday 2 23)
  ++ map (fun r => From 1989 (Until 2018 r)) (sunday_to_monday 12 23)
  (* equinoxes *)
  ++ map (InYears [2014; 2015; 2018; 2019; 2022; 2023; 2027]) (sunday_to_monday 3 21)
  ++ map (NotIn [2014; 2015; 2018; 2019; 2022; 2023; 2027]) (sunday_to_monday 3 20)
  ++ map (InYears [2020; 2024; 2028]) (sunday_to_monday 9 22)
  ++ map (NotIn [2020; 2024; 2028]) (sunday_to_monday 9 23)
  ++ sunday_to_monday 4 29
  (* 3, 4 and 5 May, and 6 May when one of them was a Sunday *)
  ++ [Fixed 5 3; Fixed 5 4; Fixed 5 5; Moved Sun 3 5 3; Moved Sun 2 5 4; Moved Sun 1 5 5]
  ++ map (fun r => From 1996 (Until 2002 r)) (sunday_to_monday 7 20)
  ++ [From 2003 (Until 2019 (Nth 3 Mon 7)); From 2022 (Nth 3 Mon 7);
      InYears [2020] (Fixed 7 23); InYears [2021] (Fixed 7 22)]
  ++ map (fun r => From 2016 (Until 2019 r)) (sunday_to_monday 8 11) ++ map (From 2022) (sunday_to_monday 8 11)
  ++ [InYears [2020] (Fixed 8 10); InYears [2021] (Fixed 8 9)]
  ++ [From 2003 (Nth 3 Mon 9)] ++ map (Until 2002) (sunday_to_monday 9 15)
  (* the Tuesday before an equinox on a Wednesday *)
  ++ [From 2003 (InYears [2020; 2024; 2028] (Moved Wed (-1) 9 22));
      From 2003 (NotIn [2020; 2024; 2028] (Moved Wed (-1) 9 23))]
  ++ [From 2000 (Until 2019 (Nth 2 Mon 10)); From 2022 (Nth 2 Mon 10);
      InYears [2020] (Fixed 7 24); InYears [2021] (Fixed 7 23)]
  ++ map (Until 1999) (sunday_to_monday 10 10)
  ++ sunday_to_monday 11 3 ++ sunday_to_monday 11 23 ++ [Fixed 12 31]
  (* imperial occasions *)
  ++ [InYears [1959] (Fixed 4 10); InYears [1989] (Fixed 2 24); InYears [1990] (Fixed 11 12);
      InYears [1993] (Fixed 6 9); InYears [2019] (Fixed 4 30); InYears [2019] (Fixed 5 1);
      InYears [2019] (Fixed 5 2); InYears [2019] (Fixed 10 22)].

(** ** Europe and the rest *)

Definition uk_rules : list rule :=
  weekend_to_monday 1 1 ++ [good_friday; easter_mon;
    NotIn [1995; 2020] (Nth 1 Mon 5); InYears [1995; 2020] (Fixed 5 8);
    NotIn [2002; 2012; 2022] (Last Mon 5);
    InYears [2002] (Fixed 6 3); InYears [2002] (Fixed 6 4); InYears [2012] (Fixed 6 4); InYears [2012] (Fixed 6 5);
    InYears [2022] (Fixed 6 2); InYears [2022] (Fixed 6 3);
    Last Mon 8; InYears [2011] (Fixed 4 29); InYears [2022] (Fixed 9 19); InYears [2023] (Fixed 5 8)]
  ++ pair_made_up 12 25 ++ [InYears [1999] (Fixed 12 31)].

Definition australia_shared : list rule :=
  weekend_to_monday 1 1 ++ weekend_to_monday 1 26 ++ [good_friday; easter_mon; Fixed 4 25; Nth 2 Mon 6]
  ++ pair_made_up 12 25 ++ [InYears [2022] (Fixed 9 22)].

Definition canada_shared : list rule :=
  weekend_to_monday 1 1 ++ [From 2008 (Nth 3 Mon 2); good_friday; FirstFrom Mon 5 18]
  ++ weekend_to_monday 7 1 ++ [Nth 1 Mon 8; Nth 1 Mon 9] ++ map (From 2021) (weekend_to_monday 9 30)
  ++ [Nth 2 Mon 10] ++ pair_made_up 12 25.

(** The Monday nearest a day that falls from Tuesday to Friday. *)
Definition to_near_monday (m d : Z) : list rule :=
  [Moved Mon 0 m d; Moved Tue (-1) m d; Moved Wed (-2) m d; Moved Thu (-3) m d; Moved Fri 3 m d].

Definition chile_rules : list rule :=
  [new_year; From 2017 (Moved Sun 1 1 1); good_friday; Western (-1); labour_day; Fixed 5 21; From 2021 (Fixed 6 21)]
  ++ to_near_monday 6 29 ++ [Fixed 7 16; assumption;
      From 2007 (Moved Tue (-1) 9 18); From 2017 (Moved Sat (-1) 9 18); Fixed 9 18; Fixed 9 19;
      From 2007 (Moved Thu 1 9 19)]
  ++ to_near_monday 10 12
  (* 31 October, moved to the Friday before from a Tuesday and to the Friday after from a Wednesday *)
  ++ map (From 2008) [Moved Mon 0 10 31; Moved Tue (-4) 10 31; Moved Wed 2 10 31; Moved Thu 0 10 31; Moved Fri 0 10 31]
  ++ [all_saints; immaculate; christmas].

Definition matariki : list rule :=
  [InYears [2025] (Fixed 6 20); InYears [2030; 2052] (Fixed 6 21); InYears [2022; 2033; 2044] (Fixed 6 24);
   InYears [2027; 2038; 2049] (Fixed 6 25); InYears [2024] (Fixed 6 28); InYears [2035; 2046] (Fixed 6 29);
   InYears [2051] (Fixed 6 30); InYears [2032] (Fixed 7 2); InYears [2043; 2048] (Fixed 7 3);
   InYears [2029; 2040] (Fixed 7 6); InYears [2034; 2045] (Fixed 7 7); InYears [2026; 2037] (Fixed 7 10);
   InYears [2031; 2042] (Fixed 7 11); InYears [2023; 2028] (Fixed 7 14); InYears [2039; 2050] (Fixed 7 15);
   InYears [2036] (Fixed 7 18); InYears [2041; 2047] (Fixed 7 19)].

Definition frankfurt : list rule :=
  [new_year; good_friday; easter_mon; labour_day; christmas_eve; christmas; boxing_day].

Definition russia_settlement_regular : list rule :=
  [new_year; Fixed 1 2; From 2005 (Fixed 1 3); From 2005 (Fixed 1 4); From 2005 (Fixed 1 5)]
  ++ weekend_to_monday 1 7 ++ weekend_to_monday 2 23 ++ weekend_to_monday 3 8 ++ weekend_to_monday 5 1
  ++ weekend_to_monday 5 9 ++ weekend_to_monday 6 12 ++ weekend_to_monday 11 4.
Definition russia_settlement_listed : list rule :=
  dates 2012 [(1, [6])] ++ dates 2017 [(2, [24]); (5, [8]); (11, [6])]
  ++ dates 2018 [(3, [9]); (4, [30]); (5, [2]); (6, [11]); (12, [31])] ++ dates 2019 [(5, [2; 3; 9])]
  ++ dates 2020 [(3, [30; 31]); (4, [1; 2; 3])].

Definition russia_exchange_regular : list rule :=
  [Fixed 2 23] ++ weekend_to_monday 3 8 ++ [labour_day] ++ weekend_to_monday 5 9 ++ [Fixed 6 12]
  ++ weekend_to_monday 11 4 ++ [new_years_eve].
Definition russia_exchange_listed : list rule :=
  dates 2012 [(1, [2]); (3, [9]); (4, [30]); (6, [11])] ++ dates 2013 [(1, [1; 2; 3; 4; 7])]
  ++ dates 2014 [(1, [1; 2; 3; 7])] ++ dates 2015 [(1, [1; 2; 7])]
  ++ dates 2016 [(1, [1; 7; 8]); (5, [2; 3]); (6, [13]); (12, [30])] ++ dates 2017 [(1, [2]); (5, [8])]
  ++ dates 2018 [(1, [1; 2; 8]); (12, [31])] ++ dates 2019 [(1, [1; 2; 7]); (12, [31])]
  ++ dates 2020 [(1, [1; 2; 7]); (2, [24]); (6, [24]); (7, [1])].

Definition closing_rules (c : Country) : list rule :=
  match c with
  | Argentina => (
      [new_year; maundy_thursday; good_friday; labour_day; Fixed 5 25; Nth 3 Mon 6; Fixed 7 9; Nth 3 Mon 8;
       (* 12 October, on the Monday before from Tuesday or Wednesday, after from Thursday or Friday *)
       Moved Mon 0 10 12; Moved Tue (-1) 10 12; Moved Wed (-2) 10 12; Moved Thu 4 10 12; Moved Fri 3 10 12;
       immaculate; christmas_eve; new_years_eve; Moved Sat (-1) 12 31])
  | Austria (Some AustriaMarket_Exchange) => (
      [new_year; good_friday; easter_mon; whit_monday; labour_day; From 1967 (Fixed 10 26);
       From 1919 (Until 1934 (Fixed 11 12)); christmas_eve; christmas; boxing_day; new_years_eve])
  | Austria _ => (
      [new_year; epiphany; easter_mon; ascension; whit_monday; corpus_christi; labour_day; assumption;
       From 1967 (Fixed 10 26); From 1919 (Until 1934 (Fixed 11 12)); all_saints; immaculate; christmas; boxing_day])
  | Australia (Some AustraliaMarket_ASX) => australia_shared
  | Australia _ => (australia_shared ++ [Nth 1 Mon 8; Nth 1 Mon 10])
  | Botswana => (
      sunday_to_monday 1 1 ++ [Moved Sun 2 1 1; good_friday; easter_mon] ++ sunday_to_monday 5 1
      ++ [ascension] ++ sunday_to_monday 7 1 ++ [Nth 3 Mon 7] ++ sunday_to_monday 9 30
      ++ sunday_to_monday 10 1 ++ [Moved Sun 2 10 1; christmas] ++ sunday_to_monday 12 26)
  | Brazil (Some BrazilMarket_Exchange) => (
      [new_year; Fixed 1 25; Fixed 4 21; labour_day; Fixed 7 9; Fixed 9 7; Fixed 10 12; Fixed 11 2; Fixed 11 15;
       From 2007 (Fixed 11 20); christmas_eve; christmas; Western (-48); Western (-47); good_friday; corpus_christi;
       new_years_eve; Moved Sat (-1) 12 31; Moved Sun (-2) 12 31])
  | Brazil _ => (
      [new_year; Fixed 4 21; labour_day; Fixed 9 7; Fixed 10 12; Fixed 11 2; Fixed 11 15; christmas;
       Western (-48); Western (-47); good_friday; corpus_christi])
  | Canada (Some CanadaMarket_TSX) => canada_shared
  | Canada _ => (canada_shared ++ weekend_to_monday 11 11)
  | Chile => chile_rules
  | China => china_rules
  | CzechRepublic => (
      [new_year; From 2016 good_friday; easter_mon; labour_day; Fixed 5 8; Fixed 7 5; Fixed 7 6; Fixed 9 28; Fixed 10 28;
       Fixed 11 17; christmas_eve; christmas; boxing_day; InYears [2004] (Fixed 1 2); InYears [2004] new_years_eve])
  | Denmark => (
      [new_year; maundy_thursday; good_friday; easter_mon; Until 2023 (Western 26); ascension; From 2009 (Western 40);
       whit_monday; Fixed 6 5; christmas_eve; christmas; boxing_day; new_years_eve])
  | Finland => (
      [new_year; epiphany; good_friday; easter_mon; ascension; labour_day; FirstFrom Fri 6 19; Fixed 12 6;
       christmas_eve; christmas; boxing_day])
  | France (Some FranceMarket_Exchange) => (frankfurt ++ [new_years_eve])
  | France _ => (
      [new_year; easter_mon; labour_day; Fixed 5 8; Fixed 5 10; Fixed 5 21; Fixed 7 14; assumption; all_saints;
       Fixed 11 11; christmas])
  | Germany (Some GermanyMarket_Settlement) => (
      [new_year; good_friday; easter_mon; ascension; whit_monday; corpus_christi; labour_day; Fixed 10 3;
       christmas_eve; christmas; boxing_day])
  | Germany (Some GermanyMarket_Eurex) => (frankfurt ++ [new_years_eve])
  | Germany (Some GermanyMarket_Euwax) => (frankfurt ++ [whit_monday])
  | Germany _ => frankfurt
  | HongKong => hongkong_rules
  | Hungary => (
      [new_year; From 2017 good_friday; easter_mon; whit_monday; Fixed 3 15; labour_day; Fixed 8 20; Fixed 10 23;
       all_saints; christmas; boxing_day])
  | Iceland => (
      [new_year; maundy_thursday; good_friday; easter_mon; FirstFrom Thu 4 19; ascension; whit_monday; labour_day;
       Fixed 6 17; Nth 1 Mon 8; christmas; boxing_day])
  | India => india_rules
  | Indonesia => indonesia_rules
  | Israel => israel_rules
  | Italy (Some ItalyMarket_Exchange) => (frankfurt ++ [assumption; new_years_eve])
  | Italy _ => (
      [new_year; epiphany; easter_mon; Fixed 4 25; labour_day; From 2000 (Fixed 6 2); assumption; all_saints; immaculate;
       christmas; boxing_day; InYears [1999] new_years_eve])
  | Japan => japan_rules
  | Mexico => (
      [new_year; Until 2005 (Fixed 2 5); From 2006 (Nth 1 Mon 2); Until 2005 (Fixed 3 21); From 2006 (Nth 3 Mon 3);
       maundy_thursday; good_friday; labour_day; Fixed 9 16; Fixed 11 2; Until 2005 (Fixed 11 20);
       From 2006 (Nth 3 Mon 11); Fixed 12 12; christmas])
  | NewZealand => (
      pair_made_up 1 1 ++ [FirstFrom Mon 1 19; Fixed 2 6; From 2014 (Moved Sat 2 2 6); From 2014 (Moved Sun 1 2 6);
        good_friday; easter_mon; Fixed 4 25; From 2014 (Moved Sat 2 4 25); From 2014 (Moved Sun 1 4 25);
        Nth 1 Mon 6; Nth 4 Mon 10] ++ pair_made_up 12 25 ++ matariki)
  | Norway => (
      [new_year; maundy_thursday; good_friday; easter_mon; ascension; whit_monday; labour_day; Fixed 5 17;
       From 2002 christmas_eve; christmas; boxing_day])
  | Poland => (
      [new_year; From 2011 epiphany; easter_mon; corpus_christi; labour_day; Fixed 5 3; assumption; all_saints;
       Fixed 11 11; christmas; boxing_day])
  | Romania => (
      [new_year; Fixed 1 2; Fixed 1 24; Orthodox 1; labour_day; Orthodox 50; From 2017 (Fixed 6 1); assumption;
       Fixed 11 30; Fixed 12 1; christmas; boxing_day])
  | Russia (Some RussiaMarket_Exchange) => russia_exchange_regular ++ russia_exchange_listed
  | Russia _ => russia_settlement_regular ++ russia_settlement_listed
  | Singapore => singapore_rules
  | Slovakia => (
      [new_year; epiphany; good_friday; easter_mon; labour_day; Fixed 5 8; Fixed 7 5; Fixed 8 29; Fixed 9 1; Fixed 9 15;
       all_saints; Fixed 11 17; christmas_eve; christmas; boxing_day]
      ++ map (InYears [2004; 2005]) [Fixed 12 27; Fixed 12 28; Fixed 12 29; Fixed 12 30; Fixed 12 31])
  | SouthAfrica => (
      sunday_to_monday 1 1 ++ [good_friday; easter_mon] ++ sunday_to_monday 3 21 ++ sunday_to_monday 4 27
      ++ sunday_to_monday 5 1 ++ sunday_to_monday 6 16 ++ sunday_to_monday 8 9 ++ sunday_to_monday 9 24
      ++ sunday_to_monday 12 16 ++ [christmas] ++ sunday_to_monday 12 26
      ++ [InYears [2004] (Fixed 4 14); InYears [2009] (Fixed 4 22); InYears [2016] (Fixed 8 3);
          InYears [2021] (Fixed 11 1); InYears [2022] (Fixed 12 27)])
  | SouthKorea => southkorea_rules
  | Sweden => (
      [new_year; epiphany; good_friday; easter_mon; ascension; Until 2004 whit_monday; labour_day; From 2005 (Fixed 6 6);
       FirstFrom Fri 6 19; christmas_eve; christmas; boxing_day; new_years_eve])
  | Switzerland => (
      [new_year; Fixed 1 2; good_friday; easter_mon; ascension; whit_monday; labour_day; Fixed 8 1; christmas; boxing_day])
  | Taiwan => taiwan_rules
  | Target => (
      [new_year; From 2000 good_friday; From 2000 easter_mon; From 2000 labour_day; christmas; From 2000 boxing_day;
       InYears [1998; 1999; 2001] new_years_eve])
  | Thailand => thailand_rules
  | Turkey => turkey_rules
  | Ukraine => (
      weekend_to_monday 1 1 ++ weekend_to_monday 1 7 ++ weekend_to_monday 3 8 ++ [easter_mon; whit_monday]
      ++ [labour_day; Fixed 5 2; Moved Sun 1 5 2] ++ weekend_to_monday 5 9
      ++ [Fixed 6 28; Fixed 8 24; From 2015 (Fixed 10 14)])
  | UnitedKingdom _ => uk_rules
  | UnitedStates (Some UnitedStatesMarket_NYSE) => us_nyse
  | UnitedStates (Some UnitedStatesMarket_GovernmentBond) => (us_bonds [2015; 2021; 2023])
  | UnitedStates (Some UnitedStatesMarket_SOFR) =>
      (us_bonds [2015; 2021; 2023] ++ [InYears [2023] (Fixed 4 7)])
  | UnitedStates (Some UnitedStatesMarket_NERC) => us_nerc
  | UnitedStates (Some UnitedStatesMarket_FederalReserve) => us_fed
  | UnitedStates (Some UnitedStatesMarket_Libor) => (
      us_settlement (Fixed 7 4 :: map (Until 2014) [Moved Sun 1 7 4; Moved Sat (-1) 7 4]))
  | UnitedStates _ => (us_settlement (nearest_weekday 7 4))
  | WeekendsOnly => []
  end.

(** The weekly days of rest. *)
Definition rest_rules (c : Country) : list rule :=
  match c with Israel => [Weekly Fri; Weekly Sat] | _ => [Weekly Sat; Weekly Sun] end.

(** Days of work in spite of these: the working Saturdays and Sundays of Russia's exchange. *)
Definition working_rules (c : Country) : list rule :=
  match c with
  | Russia (Some RussiaMarket_Exchange) =>
      dates 2012 [(3, [11]); (4, [28]); (5, [5; 12]); (6, [9])] ++ dates 2016 [(2, [20])]
      ++ dates 2018 [(4, [28]); (6, [9]); (12, [29])]
  | _ => []
  end.

(** The calendars with holidays announced year by year: the regular rules, the announced days, and
    the first and last year with an announced day. *)
Definition announced (c : Country) : option (list rule * list rule * Z * Z) :=
  match c with
  | China => Some (china_regular, china_listed, 2004, 2023)
  | HongKong => Some (hongkong_regular, hongkong_listed, 2004, 2024)
  | India => Some (india_regular, india_listed, 2005, 2025)
  | Indonesia => Some (indonesia_regular, indonesia_listed, 2005, 2014)
  | Israel => Some (israel_regular, israel_listed, 2013, 2044)
  | Russia (Some RussiaMarket_Exchange) => Some (russia_exchange_regular, russia_exchange_listed, 2012, 2020)
  | Russia _ => Some (russia_settlement_regular, russia_settlement_listed, 2012, 2020)
  | Singapore => Some (singapore_regular, singapore_listed, 2004, 2023)
  | SouthKorea => Some (southkorea_regular, southkorea_listed, 2004, 2050)
  | Taiwan => Some (taiwan_regular, taiwan_listed, 2002, 2024)
  | Thailand => Some (thailand_regular, thailand_listed, 2000, 2018)
  | Turkey => Some (turkey_regular, turkey_listed, 2004, 2034)
  | _ => None
  end.
