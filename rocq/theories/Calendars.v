(* The country calendars of third-parties/calendar/src, translated function by function by
   tools/gen_calendars.py, which is run by hand and whose output is committed.  File names in the
   comments are relative to third-parties/calendar/src.
   - A function that looks up an Easter table can panic and is in M; all others are plain functions.
   - `self` appears only as the market selector.
   - u32/i32 arithmetic is in Z: the only arithmetic is em + k, em - k, d + k and y % 4 (as Z.rem)
     on table entries, days and years; entry_range in CalSpec shows em - k cannot underflow.
   - NaiveDate::from_ymd_opt(y, m, d).unwrap() with literal arguments is that date.
   - `a | b` and `a & b` on bool evaluate both operands, which are pure, and are || and &&. *)
From Coq Require Import ZArith Bool List.
From Verif Require Import Base Chrono CalLib.
Local Open Scope Z_scope.
Local Open Scope bool_scope.

(* argentina.rs:10-44 Argentina::is_business_day *)
Definition argentina_is_business_day (date : NaiveDate) : M bool :=
  let '(d, w, m, y, dd) := naive_date_to_dkmy date in
  em <- easter_monday y ;;
  if ((is_weekend date)
   || ((d =? 1) && (m =? 1))
   || (dd =? em - 4)
   || (dd =? em - 3)
   || ((d =? 1) && (m =? 5))
   || ((d =? 25) && (m =? 5))
   || (((15 <=? d) && (d <=? 21)) && (weekday_eqb w Mon) && (m =? 6))
   || ((d =? 9) && (m =? 7))
   || (((15 <=? d) && (d <=? 21)) && (weekday_eqb w Mon) && (m =? 8))
   || (((d =? 10)
   || (d =? 11)
   || (d =? 12)
   || (d =? 15)
   || (d =? 16)) && (weekday_eqb w Mon) && (m =? 10))
   || ((d =? 8) && (m =? 12))
   || ((d =? 24) && (m =? 12))
   || (((d =? 31)
   || ((d =? 30) && (weekday_eqb w Fri))) && (m =? 12)))
  then Ret (false)
  else Ret (true).

(* austria.rs:8-11 enum AustriaMarket *)
Inductive AustriaMarket := AustriaMarket_Settlement | AustriaMarket_Exchange.

(* austria.rs:19-55 Austria::settlement_is_business_day *)
Definition austria_settlement_is_business_day (date : NaiveDate) : M bool :=
  let '(d, _, m, y, dd) := naive_date_to_dkmy date in
  em <- easter_monday y ;;
  if ((is_weekend date)
   || ((d =? 1) && (m =? 1))
   || ((d =? 6) && (m =? 1))
   || (dd =? em)
   || (dd =? em + 38)
   || (dd =? em + 49)
   || (dd =? em + 59)
   || ((d =? 1) && (m =? 5))
   || ((d =? 15) && (m =? 8))
   || ((d =? 26) && (m =? 10) && (1967 <=? y))
   || ((d =? 12) && (m =? 11) && ((1919 <=? y) && (y <=? 1934)))
   || ((d =? 1) && (m =? 11))
   || ((d =? 8) && (m =? 12))
   || ((d =? 25) && (m =? 12))
   || ((d =? 26) && (m =? 12)))
  then Ret (false)
  else Ret (true).

(* austria.rs:57-87 Austria::exchange_is_business_day *)
Definition austria_exchange_is_business_day (date : NaiveDate) : M bool :=
  let '(d, _, m, y, dd) := naive_date_to_dkmy date in
  em <- easter_monday y ;;
  if ((is_weekend date)
   || ((d =? 1) && (m =? 1))
   || (dd =? em - 3)
   || (dd =? em)
   || (dd =? em + 49)
   || ((d =? 1) && (m =? 5))
   || ((d =? 26) && (m =? 10) && (1967 <=? y))
   || ((d =? 12) && (m =? 11) && ((1919 <=? y) && (y <=? 1934)))
   || ((d =? 24) && (m =? 12))
   || ((d =? 25) && (m =? 12))
   || ((d =? 26) && (m =? 12))
   || ((d =? 31) && (m =? 12)))
  then Ret (false)
  else Ret (true).

(* austria.rs:91-97 Austria::is_business_day *)
Definition austria_is_business_day (market : option AustriaMarket) (date : NaiveDate) : M bool :=
  match market with
  | Some AustriaMarket_Settlement => austria_settlement_is_business_day date
  | Some AustriaMarket_Exchange => austria_exchange_is_business_day date
  | None => austria_settlement_is_business_day date
  end.

(* australia.rs:7-10 enum AustraliaMarket *)
Inductive AustraliaMarket := AustraliaMarket_Settlement | AustraliaMarket_ASX.

(* australia.rs:18-48 Australia::shared_holiday *)
Definition australia_shared_holiday (date : NaiveDate) : M bool :=
  let '(d, w, m, y, dd) := naive_date_to_dkmy date in
  em <- easter_monday y ;;
  if ((is_weekend date)
   || (((d =? 1)
   || (((d =? 2)
   || (d =? 3)) && (weekday_eqb w Mon))) && (m =? 1))
   || (((d =? 26)
   || (((d =? 27)
   || (d =? 28)) && (weekday_eqb w Mon))) && (m =? 1))
   || (dd =? em - 3)
   || (dd =? em)
   || ((d =? 25) && (m =? 4))
   || ((7 <? d) && (d <=? 14) && (weekday_eqb w Mon) && (m =? 6))
   || (((d =? 25)
   || ((d =? 27) && ((weekday_eqb w Mon)
   || (weekday_eqb w Tue)))) && (m =? 12))
   || (((d =? 26)
   || ((d =? 28) && ((weekday_eqb w Mon)
   || (weekday_eqb w Tue)))) && (m =? 12))
   || ((d =? 22) && (m =? 9) && (y =? 2022)))
  then Ret (true)
  else Ret (false).

(* australia.rs:49-55 Australia::extra_holiday *)
Definition australia_extra_holiday (date : NaiveDate) : bool :=
  let '(d, w, m, _, _) := naive_date_to_dkmy date in
  (((m =? 10)
   || (m =? 8)) && (weekday_eqb w Mon) && (d <=? 7)).

(* australia.rs:56-58 Australia::settlement_is_business_day *)
Definition australia_settlement_is_business_day (date : NaiveDate) : M bool :=
  r0 <- australia_shared_holiday date ;;
  Ret (negb (r0
   || (australia_extra_holiday date))).

(* australia.rs:59-61 Australia::asx_is_business_day *)
Definition australia_asx_is_business_day (date : NaiveDate) : M bool :=
  r0 <- australia_shared_holiday date ;;
  Ret (negb r0).

(* australia.rs:65-71 Australia::is_business_day *)
Definition australia_is_business_day (market : option AustraliaMarket) (date : NaiveDate) : M bool :=
  match market with
  | Some AustraliaMarket_Settlement => australia_settlement_is_business_day date
  | Some AustraliaMarket_ASX => australia_asx_is_business_day date
  | None => australia_settlement_is_business_day date
  end.

(* botswana.rs:11-48 Botswana::is_business_day *)
Definition botswana_is_business_day (date : NaiveDate) : M bool :=
  let '(d, w, m, y, dd) := naive_date_to_dkmy date in
  em <- easter_monday y ;;
  if ((is_weekend date)
   || (((d =? 1)
   || ((d =? 2) && (weekday_eqb w Mon))
   || ((d =? 3) && (weekday_eqb w Tue))) && (m =? 1))
   || (dd =? em - 3)
   || (dd =? em)
   || (((d =? 1)
   || ((d =? 2) && (weekday_eqb w Mon))) && (m =? 5))
   || (dd =? em + 38)
   || (((d =? 1)
   || ((d =? 2) && (weekday_eqb w Mon))) && (m =? 7))
   || (((15 <=? d) && (d <=? 21)) && (weekday_eqb w Mon) && (m =? 7))
   || (((d =? 30) && (m =? 9))
   || ((d =? 1) && (weekday_eqb w Mon) && (m =? 10)))
   || (((d =? 1)
   || ((d =? 2) && (weekday_eqb w Mon))
   || ((d =? 3) && (weekday_eqb w Tue))) && (m =? 10))
   || ((d =? 25) && (m =? 12))
   || (((d =? 26)
   || ((d =? 27) && (weekday_eqb w Mon))) && (m =? 12)))
  then Ret (false)
  else Ret (true).

(* brazil.rs:8-11 enum BrazilMarket *)
Inductive BrazilMarket := BrazilMarket_Settlement | BrazilMarket_Exchange.

(* brazil.rs:19-50 Brazil::settlement_is_business_day *)
Definition brazil_settlement_is_business_day (date : NaiveDate) : M bool :=
  let '(d, _, m, y, dd) := naive_date_to_dkmy date in
  em <- easter_monday y ;;
  if ((is_weekend date)
   || ((d =? 1) && (m =? 1))
   || ((d =? 21) && (m =? 4))
   || ((d =? 1) && (m =? 5))
   || ((d =? 7) && (m =? 9))
   || ((d =? 12) && (m =? 10))
   || ((d =? 2) && (m =? 11))
   || ((d =? 15) && (m =? 11))
   || ((d =? 25) && (m =? 12))
   || (dd =? em - 3)
   || ((dd =? em - 49)
   || (dd =? em - 48))
   || (dd =? em + 59))
  then Ret (false)
  else Ret (true).

(* brazil.rs:52-94 Brazil::exchange_is_business_day *)
Definition brazil_exchange_is_business_day (date : NaiveDate) : M bool :=
  let '(d, w, m, y, dd) := naive_date_to_dkmy date in
  em <- easter_monday y ;;
  if ((is_weekend date)
   || ((d =? 1) && (m =? 1))
   || ((d =? 25) && (m =? 1))
   || ((d =? 21) && (m =? 4))
   || ((d =? 1) && (m =? 5))
   || ((d =? 9) && (m =? 7))
   || ((d =? 7) && (m =? 9))
   || ((d =? 12) && (m =? 10))
   || ((d =? 2) && (m =? 11))
   || ((d =? 15) && (m =? 11))
   || ((d =? 20) && (m =? 11) && (2007 <=? y))
   || ((d =? 24) && (m =? 12))
   || ((d =? 25) && (m =? 12))
   || (dd =? em - 3)
   || ((dd =? em - 49)
   || (dd =? em - 48))
   || (dd =? em + 59)
   || ((m =? 12) && ((d =? 31)
   || ((29 <=? d) && (weekday_eqb w Fri)))))
  then Ret (false)
  else Ret (true).

(* brazil.rs:98-104 Brazil::is_business_day *)
Definition brazil_is_business_day (market : option BrazilMarket) (date : NaiveDate) : M bool :=
  match market with
  | Some BrazilMarket_Settlement => brazil_settlement_is_business_day date
  | Some BrazilMarket_Exchange => brazil_exchange_is_business_day date
  | None => brazil_settlement_is_business_day date
  end.

(* canada.rs:8-11 enum CanadaMarket *)
Inductive CanadaMarket := CanadaMarket_Settlement | CanadaMarket_TSX.

(* canada.rs:19-54 Canada::shared_holiday *)
Definition canada_shared_holiday (date : NaiveDate) : M bool :=
  let '(d, w, m, y, dd) := naive_date_to_dkmy date in
  em <- easter_monday y ;;
  if ((is_weekend date)
   || (((d =? 1)
   || (((d =? 2)
   || (d =? 3)) && (weekday_eqb w Mon))) && (m =? 1))
   || (((15 <=? d) && (d <=? 21)) && (weekday_eqb w Mon) && (m =? 2) && (2008 <=? y))
   || (dd =? em - 3)
   || ((17 <? d) && (d <=? 24) && (weekday_eqb w Mon) && (m =? 5))
   || (((d =? 1)
   || (((d =? 2)
   || (d =? 3)) && (weekday_eqb w Mon))) && (m =? 7))
   || ((d <=? 7) && (weekday_eqb w Mon) && (m =? 8))
   || ((d <=? 7) && (weekday_eqb w Mon) && (m =? 9))
   || ((((d =? 30) && (m =? 9))
   || ((d <=? 2) && (m =? 10) && (weekday_eqb w Mon))) && (2021 <=? y))
   || ((7 <? d) && (d <=? 14) && (weekday_eqb w Mon) && (m =? 10))
   || (((d =? 25)
   || ((d =? 27) && ((weekday_eqb w Mon)
   || (weekday_eqb w Tue)))) && (m =? 12))
   || (((d =? 26)
   || ((d =? 28) && ((weekday_eqb w Mon)
   || (weekday_eqb w Tue)))) && (m =? 12)))
  then Ret (true)
  else Ret (false).

(* canada.rs:56-60 Canada::extra_holiday *)
Definition canada_extra_holiday (date : NaiveDate) : bool :=
  let '(d, w, m, _, _) := naive_date_to_dkmy date in
  (((d =? 11)
   || (((d =? 12)
   || (d =? 13)) && (weekday_eqb w Mon))) && (m =? 11)).

(* canada.rs:62-64 Canada::settlement_is_business_day *)
Definition canada_settlement_is_business_day (date : NaiveDate) : M bool :=
  r0 <- canada_shared_holiday date ;;
  Ret (negb (r0
   || (canada_extra_holiday date))).

(* canada.rs:66-68 Canada::tsx_is_business_day *)
Definition canada_tsx_is_business_day (date : NaiveDate) : M bool :=
  r0 <- canada_shared_holiday date ;;
  Ret (negb r0).

(* canada.rs:72-78 Canada::is_business_day *)
Definition canada_is_business_day (market : option CanadaMarket) (date : NaiveDate) : M bool :=
  match market with
  | Some CanadaMarket_Settlement => canada_settlement_is_business_day date
  | Some CanadaMarket_TSX => canada_tsx_is_business_day date
  | None => canada_settlement_is_business_day date
  end.

(* chile.rs:11-59 Chile::is_business_day *)
Definition chile_is_business_day (date : NaiveDate) : M bool :=
  let '(d, w, m, y, dd) := naive_date_to_dkmy date in
  em <- easter_monday y ;;
  if ((is_weekend date)
   || ((d =? 1) && (m =? 1))
   || ((d =? 2) && (m =? 1) && (weekday_eqb w Mon) && (2016 <? y))
   || (dd =? em - 3)
   || (dd =? em - 2)
   || ((d =? 1) && (m =? 5))
   || ((d =? 21) && (m =? 5))
   || ((d =? 21) && (m =? 6) && (2021 <=? y))
   || (((26 <=? d) && (d <=? 29)) && (m =? 6) && (weekday_eqb w Mon))
   || ((d =? 2) && (m =? 7) && (weekday_eqb w Mon))
   || ((d =? 16) && (m =? 7))
   || ((d =? 15) && (m =? 8))
   || ((d =? 17) && (m =? 9) && (((weekday_eqb w Mon) && (2007 <=? y))
   || ((weekday_eqb w Fri) && (2016 <? y))))
   || ((d =? 18) && (m =? 9))
   || ((d =? 19) && (m =? 9))
   || ((d =? 20) && (m =? 9) && (weekday_eqb w Fri) && (2007 <=? y))
   || (((9 <=? d) && (d <=? 12)) && (m =? 10) && (weekday_eqb w Mon))
   || ((d =? 15) && (m =? 10) && (weekday_eqb w Mon))
   || ((((d =? 27) && (m =? 10) && (weekday_eqb w Fri))
   || ((d =? 31) && (m =? 10) && (negb (weekday_eqb w Tue)) && (negb (weekday_eqb w Wed)))
   || ((d =? 2) && (m =? 11) && (weekday_eqb w Fri))) && (2008 <=? y))
   || ((d =? 1) && (m =? 11))
   || ((d =? 8) && (m =? 12))
   || ((d =? 25) && (m =? 12)))
  then Ret (false)
  else Ret (true).

(* china.rs:10-152 China::is_business_day *)
Definition china_is_business_day (date : NaiveDate) : bool :=
  let '(d, _, m, y, _) := naive_date_to_dkmy date in
  if ((is_weekend date)
   || ((d =? 1) && (m =? 1))
   || ((y =? 2005) && (d =? 3) && (m =? 1))
   || ((y =? 2006) && ((d =? 2)
   || (d =? 3)) && (m =? 1))
   || ((y =? 2007) && (d <=? 3) && (m =? 1))
   || ((y =? 2007) && (d =? 31) && (m =? 12))
   || ((y =? 2009) && (d =? 2) && (m =? 1))
   || ((y =? 2011) && (d =? 3) && (m =? 1))
   || ((y =? 2012) && ((d =? 2)
   || (d =? 3)) && (m =? 1))
   || ((y =? 2013) && (d <=? 3) && (m =? 1))
   || ((y =? 2014) && (d =? 1) && (m =? 1))
   || ((y =? 2015) && (d <=? 3) && (m =? 1))
   || ((y =? 2017) && (d =? 2) && (m =? 1))
   || ((y =? 2018) && (d =? 1) && (m =? 1))
   || ((y =? 2018) && (d =? 31) && (m =? 12))
   || ((y =? 2019) && (d =? 1) && (m =? 1))
   || ((y =? 2020) && (d =? 1) && (m =? 1))
   || ((y =? 2021) && (d =? 1) && (m =? 1))
   || ((y =? 2022) && (d =? 3) && (m =? 1))
   || ((y =? 2023) && (d =? 2) && (m =? 1))
   || ((y =? 2004) && ((19 <=? d) && (d <=? 28)) && (m =? 1))
   || ((y =? 2005) && ((7 <=? d) && (d <=? 15)) && (m =? 2))
   || ((y =? 2006) && (((26 <=? d) && (m =? 1))
   || ((d <=? 3) && (m =? 2))))
   || ((y =? 2007) && ((17 <=? d) && (d <=? 25)) && (m =? 2))
   || ((y =? 2008) && ((6 <=? d) && (d <=? 12)) && (m =? 2))
   || ((y =? 2009) && ((26 <=? d) && (d <=? 30)) && (m =? 1))
   || ((y =? 2010) && ((15 <=? d) && (d <=? 19)) && (m =? 2))
   || ((y =? 2011) && ((2 <=? d) && (d <=? 8)) && (m =? 2))
   || ((y =? 2012) && ((23 <=? d) && (d <=? 28)) && (m =? 1))
   || ((y =? 2013) && ((11 <=? d) && (d <=? 15)) && (m =? 2))
   || ((y =? 2014) && (31 <=? d) && (m =? 1))
   || ((y =? 2014) && (d <=? 6) && (m =? 2))
   || ((y =? 2015) && ((18 <=? d) && (d <=? 24)) && (m =? 2))
   || ((y =? 2016) && ((8 <=? d) && (d <=? 12)) && (m =? 2))
   || ((y =? 2017) && (((27 <=? d) && (m =? 1))
   || ((d <=? 2) && (m =? 2))))
   || ((y =? 2018) && (((15 <=? d) && (d <=? 21)) && (m =? 2)))
   || ((y =? 2019) && ((4 <=? d) && (d <=? 8)) && (m =? 2))
   || ((y =? 2020) && ((d =? 24)
   || ((27 <=? d) && (d <=? 31))) && (m =? 1))
   || ((y =? 2021) && ((d =? 11)
   || (d =? 12)
   || (d =? 15)
   || (d =? 16)
   || (d =? 17)) && (m =? 2))
   || ((y =? 2022) && (((d =? 31) && (m =? 1))
   || ((d <=? 4) && (m =? 2))))
   || ((y =? 2023) && ((23 <=? d) && (d <=? 27)) && (m =? 1))
   || ((y <=? 2008) && (d =? 4) && (m =? 4))
   || ((y =? 2009) && (d =? 6) && (m =? 4))
   || ((y =? 2010) && (d =? 5) && (m =? 4))
   || ((y =? 2011) && ((3 <=? d) && (d <=? 5)) && (m =? 4))
   || ((y =? 2012) && ((2 <=? d) && (d <=? 4)) && (m =? 4))
   || ((y =? 2013) && ((4 <=? d) && (d <=? 5)) && (m =? 4))
   || ((y =? 2014) && (d =? 7) && (m =? 4))
   || ((y =? 2015) && ((5 <=? d) && (d <=? 6)) && (m =? 4))
   || ((y =? 2016) && (d =? 4) && (m =? 4))
   || ((y =? 2017) && ((3 <=? d) && (d <=? 4)) && (m =? 4))
   || ((y =? 2018) && ((5 <=? d) && (d <=? 6)) && (m =? 4))
   || ((y =? 2019) && (d =? 5) && (m =? 4))
   || ((y =? 2020) && (d =? 6) && (m =? 4))
   || ((y =? 2021) && (d =? 5) && (m =? 4))
   || ((y =? 2022) && ((4 <=? d) && (d <=? 5)) && (m =? 4))
   || ((y =? 2023) && (d =? 5) && (m =? 4))
   || ((y <=? 2007) && ((1 <=? d) && (d <=? 7)) && (m =? 5))
   || ((y =? 2008) && ((1 <=? d) && (d <=? 2)) && (m =? 5))
   || ((y =? 2009) && (d =? 1) && (m =? 5))
   || ((y =? 2010) && (d =? 3) && (m =? 5))
   || ((y =? 2011) && (d =? 2) && (m =? 5))
   || ((y =? 2012) && (((d =? 30) && (m =? 4))
   || ((d =? 1) && (m =? 5))))
   || ((y =? 2013) && (((29 <=? d) && (m =? 4))
   || ((d =? 1) && (m =? 5))))
   || ((y =? 2014) && ((1 <=? d) && (d <=? 3)) && (m =? 5))
   || ((y =? 2015) && (d =? 1) && (m =? 5))
   || ((y =? 2016) && ((1 <=? d) && (d <=? 2)) && (m =? 5))
   || ((y =? 2017) && (d =? 1) && (m =? 5))
   || ((y =? 2018) && (((d =? 30) && (m =? 4))
   || ((d =? 1) && (m =? 5))))
   || ((y =? 2019) && ((1 <=? d) && (d <=? 3)) && (m =? 5))
   || ((y =? 2020) && ((d =? 1)
   || (d =? 4)
   || (d =? 5)) && (m =? 5))
   || ((y =? 2021) && ((d =? 3)
   || (d =? 4)
   || (d =? 5)) && (m =? 5))
   || ((y =? 2022) && ((2 <=? d) && (d <=? 4)) && (m =? 5))
   || ((y =? 2023) && ((1 <=? d) && (d <=? 3)) && (m =? 5))
   || ((y <=? 2008) && (d =? 9) && (m =? 6))
   || ((y =? 2009) && ((d =? 28)
   || (d =? 29)) && (m =? 5))
   || ((y =? 2010) && ((14 <=? d) && (d <=? 16)) && (m =? 6))
   || ((y =? 2011) && ((4 <=? d) && (d <=? 6)) && (m =? 6))
   || ((y =? 2012) && ((22 <=? d) && (d <=? 24)) && (m =? 6))
   || ((y =? 2013) && ((10 <=? d) && (d <=? 12)) && (m =? 6))
   || ((y =? 2014) && (d =? 2) && (m =? 6))
   || ((y =? 2015) && (d =? 22) && (m =? 6))
   || ((y =? 2016) && ((9 <=? d) && (d <=? 10)) && (m =? 6))
   || ((y =? 2017) && ((29 <=? d) && (d <=? 30)) && (m =? 5))
   || ((y =? 2018) && (d =? 18) && (m =? 6))
   || ((y =? 2019) && (d =? 7) && (m =? 6))
   || ((y =? 2020) && ((25 <=? d) && (d <=? 26)) && (m =? 6))
   || ((y =? 2021) && (d =? 14) && (m =? 6))
   || ((y =? 2022) && (d =? 3) && (m =? 6))
   || ((y =? 2023) && ((22 <=? d) && (d <=? 23)) && (m =? 6))
   || ((y <=? 2008) && (d =? 15) && (m =? 9))
   || ((y =? 2010) && ((22 <=? d) && (d <=? 24)) && (m =? 9))
   || ((y =? 2011) && ((10 <=? d) && (d <=? 12)) && (m =? 9))
   || ((y =? 2012) && (d =? 30) && (m =? 9))
   || ((y =? 2013) && ((19 <=? d) && (d <=? 20)) && (m =? 9))
   || ((y =? 2014) && (d =? 8) && (m =? 9))
   || ((y =? 2015) && (d =? 27) && (m =? 9))
   || ((y =? 2016) && ((15 <=? d) && (d <=? 16)) && (m =? 9))
   || ((y =? 2018) && (d =? 24) && (m =? 9))
   || ((y =? 2019) && (d =? 13) && (m =? 9))
   || ((y =? 2021) && ((d =? 20)
   || (d =? 21)) && (m =? 9))
   || ((y =? 2022) && (d =? 12) && (m =? 9))
   || ((y =? 2023) && (d =? 29) && (m =? 9))
   || ((y <=? 2007) && ((1 <=? d) && (d <=? 7)) && (m =? 10))
   || ((y =? 2008) && (((29 <=? d) && (m =? 9))
   || ((d <=? 3) && (m =? 10))))
   || ((y =? 2009) && ((1 <=? d) && (d <=? 8)) && (m =? 10))
   || ((y =? 2010) && ((1 <=? d) && (d <=? 7)) && (m =? 10))
   || ((y =? 2011) && ((1 <=? d) && (d <=? 7)) && (m =? 10))
   || ((y =? 2012) && ((1 <=? d) && (d <=? 7)) && (m =? 10))
   || ((y =? 2013) && ((1 <=? d) && (d <=? 7)) && (m =? 10))
   || ((y =? 2014) && ((1 <=? d) && (d <=? 7)) && (m =? 10))
   || ((y =? 2015) && ((1 <=? d) && (d <=? 7)) && (m =? 10))
   || ((y =? 2016) && ((3 <=? d) && (d <=? 7)) && (m =? 10))
   || ((y =? 2017) && ((2 <=? d) && (d <=? 6)) && (m =? 10))
   || ((y =? 2018) && ((1 <=? d) && (d <=? 5)) && (m =? 10))
   || ((y =? 2019) && ((1 <=? d) && (d <=? 7)) && (m =? 10))
   || ((y =? 2020) && ((1 <=? d) && (d <=? 2)) && (m =? 10))
   || ((y =? 2020) && ((5 <=? d) && (d <=? 8)) && (m =? 10))
   || ((y =? 2021) && ((d =? 1)
   || (d =? 4)
   || (d =? 5)
   || (d =? 6)
   || (d =? 7)) && (m =? 10))
   || ((y =? 2022) && ((3 <=? d) && (d <=? 7)) && (m =? 10))
   || ((y =? 2023) && ((2 <=? d) && (d <=? 6)) && (m =? 10))
   || ((y =? 2015) && ((3 <=? d) && (d <=? 4)) && (m =? 9)))
  then false
  else true.

(* czechrepublic.rs:11-50 CzechRepublic::is_business_day *)
Definition czechrepublic_is_business_day (date : NaiveDate) : M bool :=
  let '(d, _, m, y, dd) := naive_date_to_dkmy date in
  em <- easter_monday y ;;
  if ((is_weekend date)
   || ((d =? 1) && (m =? 1))
   || ((dd =? em - 3) && (2016 <=? y))
   || (dd =? em)
   || ((d =? 1) && (m =? 5))
   || ((d =? 8) && (m =? 5))
   || ((d =? 5) && (m =? 7))
   || ((d =? 6) && (m =? 7))
   || ((d =? 28) && (m =? 9))
   || ((d =? 28) && (m =? 10))
   || ((d =? 17) && (m =? 11))
   || ((d =? 24) && (m =? 12))
   || ((d =? 25) && (m =? 12))
   || ((d =? 26) && (m =? 12))
   || ((d =? 2) && (m =? 1) && (y =? 2004))
   || ((d =? 31) && (m =? 12) && (y =? 2004)))
  then Ret (false)
  else Ret (true).

(* denmark.rs:10-46 Denmark::is_business_day *)
Definition denmark_is_business_day (date : NaiveDate) : M bool :=
  let '(d, _, m, y, dd) := naive_date_to_dkmy date in
  em <- easter_monday y ;;
  if ((is_weekend date)
   || (dd =? em - 4)
   || (dd =? em - 3)
   || (dd =? em)
   || ((dd =? em + 25) && (y <=? 2023))
   || (dd =? em + 38)
   || ((dd =? em + 39) && (2009 <=? y))
   || (dd =? em + 49)
   || ((d =? 1) && (m =? 1))
   || ((d =? 5) && (m =? 6))
   || ((d =? 24) && (m =? 12))
   || ((d =? 25) && (m =? 12))
   || ((d =? 26) && (m =? 12))
   || ((d =? 31) && (m =? 12)))
  then Ret (false)
  else Ret (true).

(* finland.rs:11-43 Finland::is_business_day *)
Definition finland_is_business_day (date : NaiveDate) : M bool :=
  let '(d, w, m, y, dd) := naive_date_to_dkmy date in
  em <- easter_monday y ;;
  if ((is_weekend date)
   || ((d =? 1) && (m =? 1))
   || ((d =? 6) && (m =? 1))
   || (dd =? em - 3)
   || (dd =? em)
   || (dd =? em + 38)
   || ((d =? 1) && (m =? 5))
   || ((weekday_eqb w Fri) && ((19 <=? d) && (d <=? 25)) && (m =? 6))
   || ((d =? 6) && (m =? 12))
   || ((d =? 24) && (m =? 12))
   || ((d =? 25) && (m =? 12))
   || ((d =? 26) && (m =? 12)))
  then Ret (false)
  else Ret (true).

(* france.rs:8-11 enum FranceMarket *)
Inductive FranceMarket := FranceMarket_Settlement | FranceMarket_Exchange.

(* france.rs:19-50 France::settlement_is_business_day *)
Definition france_settlement_is_business_day (date : NaiveDate) : M bool :=
  let '(d, _, m, y, dd) := naive_date_to_dkmy date in
  em <- easter_monday y ;;
  if ((is_weekend date)
   || ((d =? 1) && (m =? 1))
   || (dd =? em)
   || ((d =? 1) && (m =? 5))
   || ((d =? 8) && (m =? 5))
   || ((d =? 10) && (m =? 5))
   || ((d =? 21) && (m =? 5))
   || ((d =? 14) && (m =? 7))
   || ((d =? 15) && (m =? 8))
   || ((d =? 1) && (m =? 11))
   || ((d =? 11) && (m =? 11))
   || ((d =? 25) && (m =? 12)))
  then Ret (false)
  else Ret (true).

(* france.rs:52-78 France::exchange_is_business_day *)
Definition france_exchange_is_business_day (date : NaiveDate) : M bool :=
  let '(d, _, m, y, dd) := naive_date_to_dkmy date in
  em <- easter_monday y ;;
  if ((is_weekend date)
   || ((d =? 1) && (m =? 1))
   || (dd =? em - 3)
   || (dd =? em)
   || ((d =? 1) && (m =? 5))
   || ((d =? 24) && (m =? 12))
   || ((d =? 25) && (m =? 12))
   || ((d =? 26) && (m =? 12))
   || ((d =? 31) && (m =? 12)))
  then Ret (false)
  else Ret (true).

(* france.rs:82-88 France::is_business_day *)
Definition france_is_business_day (market : option FranceMarket) (date : NaiveDate) : M bool :=
  match market with
  | Some FranceMarket_Settlement => france_settlement_is_business_day date
  | Some FranceMarket_Exchange => france_exchange_is_business_day date
  | None => france_settlement_is_business_day date
  end.

(* germany.rs:8-14 enum GermanyMarket *)
Inductive GermanyMarket := GermanyMarket_Settlement | GermanyMarket_FrankfurtStockExchange | GermanyMarket_Xetra | GermanyMarket_Eurex | GermanyMarket_Euwax.

(* germany.rs:22-53 Germany::settlement_is_business_day *)
Definition germany_settlement_is_business_day (date : NaiveDate) : M bool :=
  let '(d, _, m, y, dd) := naive_date_to_dkmy date in
  em <- easter_monday y ;;
  if ((is_weekend date)
   || ((d =? 1) && (m =? 1))
   || (dd =? em - 3)
   || (dd =? em)
   || (dd =? em + 38)
   || (dd =? em + 49)
   || (dd =? em + 59)
   || ((d =? 1) && (m =? 5))
   || ((d =? 3) && (m =? 10))
   || ((d =? 24) && (m =? 12))
   || ((d =? 25) && (m =? 12))
   || ((d =? 26) && (m =? 12)))
  then Ret (false)
  else Ret (true).

(* germany.rs:55-78 Germany::frankfurt_stock_exchange_is_business_day *)
Definition germany_frankfurt_stock_exchange_is_business_day (date : NaiveDate) : M bool :=
  let '(d, _, m, y, dd) := naive_date_to_dkmy date in
  em <- easter_monday y ;;
  if ((is_weekend date)
   || ((d =? 1) && (m =? 1))
   || (dd =? em - 3)
   || (dd =? em)
   || ((d =? 1) && (m =? 5))
   || ((d =? 24) && (m =? 12))
   || ((d =? 25) && (m =? 12))
   || ((d =? 26) && (m =? 12)))
  then Ret (false)
  else Ret (true).

(* germany.rs:80-84 Germany::eurex_is_business_day *)
Definition germany_eurex_is_business_day (date : NaiveDate) : M bool :=
  let '(d, _, m, _, _) := naive_date_to_dkmy date in
  r0 <- germany_frankfurt_stock_exchange_is_business_day date ;;
  Ret (negb (negb r0
   || ((d =? 31) && (m =? 12)))).

(* germany.rs:86-91 Germany::euwax_is_business_day *)
Definition germany_euwax_is_business_day (date : NaiveDate) : M bool :=
  let '(_, _, _, y, dd) := naive_date_to_dkmy date in
  em <- easter_monday y ;;
  r0 <- germany_frankfurt_stock_exchange_is_business_day date ;;
  Ret ((r0 && (negb (dd =? em + 49)))).

(* germany.rs:95-106 Germany::is_business_day *)
Definition germany_is_business_day (market : option GermanyMarket) (date : NaiveDate) : M bool :=
  match market with
  | Some GermanyMarket_Settlement => germany_settlement_is_business_day date
  | Some GermanyMarket_FrankfurtStockExchange => germany_frankfurt_stock_exchange_is_business_day date
  | Some GermanyMarket_Xetra => germany_frankfurt_stock_exchange_is_business_day date
  | Some GermanyMarket_Eurex => germany_eurex_is_business_day date
  | Some GermanyMarket_Euwax => germany_euwax_is_business_day date
  | None => germany_frankfurt_stock_exchange_is_business_day date
  end.

(* hongkong.rs:11-370 HongKong::is_business_day *)
Definition hongkong_is_business_day (date : NaiveDate) : M bool :=
  let '(d, w, m, y, dd) := naive_date_to_dkmy date in
  em <- easter_monday y ;;
  if ((is_weekend date)
   || (((d =? 1)
   || ((d =? 2) && (weekday_eqb w Mon))) && (m =? 1))
   || (dd =? em - 3)
   || (dd =? em)
   || (((d =? 1)
   || ((d =? 2) && (weekday_eqb w Mon))) && (m =? 5))
   || (((d =? 1)
   || ((d =? 2) && (weekday_eqb w Mon))) && (m =? 7))
   || (((d =? 1)
   || ((d =? 2) && (weekday_eqb w Mon))) && (m =? 10))
   || ((d =? 25) && (m =? 12))
   || ((d =? 26) && (m =? 12)))
  then Ret (false)
  else if ((y =? 2004) && ((((d =? 22)
   || (d =? 23)
   || (d =? 24)) && (m =? 1))
   || ((d =? 5) && (m =? 4))
   || ((d =? 26) && (m =? 5))
   || ((d =? 22) && (m =? 6))
   || ((d =? 29) && (m =? 9))
   || ((d =? 22) && (m =? 10))))
  then Ret (false)
  else if ((y =? 2005) && ((((d =? 9)
   || (d =? 10)
   || (d =? 11)) && (m =? 2))
   || ((d =? 5) && (m =? 4))
   || ((d =? 16) && (m =? 5))
   || ((d =? 11) && (m =? 6))
   || ((d =? 19) && (m =? 9))
   || ((d =? 11) && (m =? 10))))
  then Ret (false)
  else if ((y =? 2006) && ((((28 <=? d) && (d <=? 31)) && (m =? 1))
   || ((d =? 5) && (m =? 4))
   || ((d =? 5) && (m =? 5))
   || ((d =? 31) && (m =? 5))
   || ((d =? 7) && (m =? 10))
   || ((d =? 30) && (m =? 10))))
  then Ret (false)
  else if ((y =? 2007) && ((((17 <=? d) && (d <=? 20)) && (m =? 2))
   || ((d =? 5) && (m =? 4))
   || ((d =? 24) && (m =? 5))
   || ((d =? 19) && (m =? 6))
   || ((d =? 26) && (m =? 9))
   || ((d =? 19) && (m =? 10))))
  then Ret (false)
  else if ((y =? 2008) && ((((7 <=? d) && (d <=? 9)) && (m =? 2))
   || ((d =? 4) && (m =? 4))
   || ((d =? 12) && (m =? 5))
   || ((d =? 9) && (m =? 6))
   || ((d =? 15) && (m =? 9))
   || ((d =? 7) && (m =? 10))))
  then Ret (false)
  else if ((y =? 2009) && ((((26 <=? d) && (d <=? 28)) && (m =? 1))
   || ((d =? 4) && (m =? 4))
   || ((d =? 2) && (m =? 5))
   || ((d =? 28) && (m =? 5))
   || ((d =? 3) && (m =? 10))
   || ((d =? 26) && (m =? 10))))
  then Ret (false)
  else if ((y =? 2010) && ((((d =? 15)
   || (d =? 16)) && (m =? 2))
   || ((d =? 6) && (m =? 4))
   || ((d =? 21) && (m =? 5))
   || ((d =? 16) && (m =? 6))
   || ((d =? 23) && (m =? 9))))
  then Ret (false)
  else if ((y =? 2011) && ((((d =? 3)
   || (d =? 4)) && (m =? 2))
   || ((d =? 5) && (m =? 4))
   || ((d =? 10) && (m =? 5))
   || ((d =? 6) && (m =? 6))
   || ((d =? 13) && (m =? 9))
   || ((d =? 5) && (m =? 10))
   || ((d =? 27) && (m =? 12))))
  then Ret (false)
  else if ((y =? 2012) && ((((23 <=? d) && (d <=? 25)) && (m =? 1))
   || ((d =? 4) && (m =? 4))
   || ((d =? 10) && (m =? 5))
   || ((d =? 1) && (m =? 10))
   || ((d =? 23) && (m =? 10))))
  then Ret (false)
  else if ((y =? 2013) && ((((11 <=? d) && (d <=? 13)) && (m =? 2))
   || ((d =? 4) && (m =? 4))
   || ((d =? 17) && (m =? 5))
   || ((d =? 12) && (m =? 6))
   || ((d =? 20) && (m =? 9))
   || ((d =? 14) && (m =? 10))))
  then Ret (false)
  else if ((y =? 2014) && (((d =? 31) && (m =? 1))
   || ((d <=? 3) && (m =? 2))
   || ((d =? 6) && (m =? 5))
   || ((d =? 2) && (m =? 6))
   || ((d =? 9) && (m =? 9))
   || ((d =? 2) && (m =? 10))))
  then Ret (false)
  else if ((y =? 2015) && (negb ((negb (m =? 2))
   || ((negb (d =? 19)) && (negb (d =? 20))))
   || ((d =? 7) && (m =? 4))
   || ((d =? 25) && (m =? 5))
   || ((d =? 20) && (m =? 6))
   || ((d =? 3) && (m =? 9))
   || ((d =? 28) && (m =? 9))
   || ((d =? 21) && (m =? 10))))
  then Ret (false)
  else if ((y =? 2016) && ((((8 <=? d) && (d <=? 10)) && (m =? 2))
   || ((d =? 4) && (m =? 4))
   || ((d =? 9) && (m =? 6))
   || ((d =? 16) && (m =? 9))
   || ((d =? 10) && (m =? 10))
   || ((d =? 27) && (m =? 12))))
  then Ret (false)
  else if ((y =? 2017) && ((((d =? 30)
   || (d =? 31)) && (m =? 1))
   || ((d =? 4) && (m =? 4))
   || ((d =? 3) && (m =? 5))
   || ((d =? 30) && (m =? 5))
   || ((d =? 5) && (m =? 10))))
  then Ret (false)
  else if ((y =? 2018) && (negb ((negb (m =? 2))
   || ((negb (d =? 16)) && (negb (d =? 19))))
   || ((d =? 5) && (m =? 4))
   || ((d =? 22) && (m =? 5))
   || ((d =? 18) && (m =? 6))
   || ((d =? 25) && (m =? 9))
   || ((d =? 17) && (m =? 10))))
  then Ret (false)
  else if ((y =? 2019) && ((((5 <=? d) && (d <=? 7)) && (m =? 2))
   || ((d =? 5) && (m =? 4))
   || ((d =? 7) && (m =? 6))
   || ((d =? 7) && (m =? 10))))
  then Ret (false)
  else if ((y =? 2020) && ((((d =? 27)
   || (d =? 28)) && (m =? 1))
   || ((d =? 4) && (m =? 4))
   || ((d =? 30) && (m =? 4))
   || ((d =? 25) && (m =? 6))
   || ((d =? 2) && (m =? 10))
   || ((d =? 26) && (m =? 10))))
  then Ret (false)
  else if ((y =? 2021) && ((((d =? 12)
   || (d =? 15)) && (m =? 2))
   || ((d =? 5) && (m =? 4))
   || ((d =? 19) && (m =? 5))
   || ((d =? 14) && (m =? 6))
   || ((d =? 22) && (m =? 9))
   || ((d =? 14) && (m =? 10))))
  then Ret (false)
  else if ((y =? 2022) && ((((1 <=? d) && (d <=? 3)) && (m =? 2))
   || ((d =? 5) && (m =? 4))
   || ((d =? 9) && (m =? 5))
   || ((d =? 3) && (m =? 6))
   || ((d =? 12) && (m =? 9))
   || ((d =? 4) && (m =? 10))))
  then Ret (false)
  else if ((y =? 2023) && ((((23 <=? d) && (d <=? 25)) && (m =? 1))
   || ((d =? 5) && (m =? 4))
   || ((d =? 26) && (m =? 5))
   || ((d =? 22) && (m =? 6))
   || ((d =? 23) && (m =? 10))))
  then Ret (false)
  else if ((y =? 2024) && ((((d =? 12)
   || (d =? 13)) && (m =? 2))
   || ((d =? 4) && (m =? 4))
   || ((d =? 15) && (m =? 5))
   || ((d =? 10) && (m =? 6))
   || ((d =? 18) && (m =? 9))
   || ((d =? 11) && (m =? 10))))
  then Ret (false)
  else Ret (true).

(* hungary.rs:11-46 Hungary::is_business_day *)
Definition hungary_is_business_day (date : NaiveDate) : M bool :=
  let '(d, _, m, y, dd) := naive_date_to_dkmy date in
  em <- easter_monday y ;;
  if ((is_weekend date)
   || ((dd =? em - 3) && (2017 <=? y))
   || (dd =? em)
   || (dd =? em + 49)
   || ((d =? 1) && (m =? 1))
   || ((d =? 15) && (m =? 3))
   || ((d =? 1) && (m =? 5))
   || ((d =? 20) && (m =? 8))
   || ((d =? 23) && (m =? 10))
   || ((d =? 1) && (m =? 11))
   || ((d =? 25) && (m =? 12))
   || ((d =? 26) && (m =? 12)))
  then Ret (false)
  else Ret (true).

(* iceland.rs:11-44 Iceland::is_business_day *)
Definition iceland_is_business_day (date : NaiveDate) : M bool :=
  let '(d, w, m, y, dd) := naive_date_to_dkmy date in
  em <- easter_monday y ;;
  if ((is_weekend date)
   || ((d =? 1) && (m =? 1))
   || (dd =? em - 4)
   || (dd =? em - 3)
   || (dd =? em)
   || (((19 <=? d) && (d <=? 25)) && (weekday_eqb w Thu) && (m =? 4))
   || (dd =? em + 38)
   || (dd =? em + 49)
   || ((d =? 1) && (m =? 5))
   || ((d =? 17) && (m =? 6))
   || ((d <=? 7) && (weekday_eqb w Mon) && (m =? 8))
   || ((d =? 25) && (m =? 12))
   || ((d =? 26) && (m =? 12)))
  then Ret (false)
  else Ret (true).

(* india.rs:11-428 India::is_business_day *)
Definition india_is_business_day (date : NaiveDate) : M bool :=
  let '(d, _, m, y, dd) := naive_date_to_dkmy date in
  em <- easter_monday y ;;
  if ((is_weekend date)
   || ((d =? 26) && (m =? 1))
   || (dd =? em - 3)
   || ((d =? 14) && (m =? 4))
   || ((d =? 1) && (m =? 5))
   || ((d =? 15) && (m =? 8))
   || ((d =? 2) && (m =? 10))
   || ((d =? 25) && (m =? 12)))
  then Ret (false)
  else if ((y =? 2005) && (((d =? 21) && (m =? 1))
   || ((d =? 7) && (m =? 9))
   || ((d =? 12) && (m =? 10))
   || ((d =? 1) && (m =? 11))
   || ((d =? 3) && (m =? 11))
   || ((d =? 15) && (m =? 11))))
  then Ret (false)
  else if ((y =? 2006) && (((d =? 11) && (m =? 1))
   || ((d =? 9) && (m =? 2))
   || ((d =? 15) && (m =? 3))
   || ((d =? 6) && (m =? 4))
   || ((d =? 11) && (m =? 4))
   || ((d =? 1) && (m =? 5))
   || ((d =? 24) && (m =? 10))
   || ((d =? 25) && (m =? 10))))
  then Ret (false)
  else if ((y =? 2007) && (negb ((negb (m =? 1))
   || ((negb (d =? 1)) && (negb (d =? 30))))
   || ((d =? 16) && (m =? 2))
   || ((d =? 27) && (m =? 3))
   || ((d =? 1) && (m =? 5))
   || ((d =? 2) && (m =? 5))
   || ((d =? 9) && (m =? 11))
   || ((d =? 21) && (m =? 12))))
  then Ret (false)
  else if ((y =? 2008) && (negb ((negb (m =? 3))
   || ((negb (d =? 6)) && (negb (d =? 20))))
   || ((d =? 18) && (m =? 4))
   || ((d =? 1) && (m =? 5))
   || ((d =? 19) && (m =? 5))
   || ((d =? 3) && (m =? 9))
   || ((d =? 2) && (m =? 10))
   || ((d =? 9) && (m =? 10))
   || ((d =? 28) && (m =? 10))
   || ((d =? 30) && (m =? 10))
   || ((d =? 13) && (m =? 11))
   || ((d =? 9) && (m =? 12))))
  then Ret (false)
  else if ((y =? 2009) && (((d =? 8) && (m =? 1))
   || ((d =? 23) && (m =? 2))
   || ((d =? 10) && (m =? 3))
   || ((d =? 11) && (m =? 3))
   || ((d =? 3) && (m =? 4))
   || ((d =? 7) && (m =? 4))
   || ((d =? 1) && (m =? 5))
   || ((d =? 21) && (m =? 9))
   || ((d =? 28) && (m =? 9))
   || ((d =? 19) && (m =? 10))
   || ((d =? 2) && (m =? 11))
   || ((d =? 28) && (m =? 12))))
  then Ret (false)
  else if ((y =? 2010) && (((d =? 1) && (m =? 1))
   || ((d =? 12) && (m =? 2))
   || ((d =? 1) && (m =? 3))
   || ((d =? 24) && (m =? 3))
   || ((d =? 10) && (m =? 9))
   || ((d =? 5) && (m =? 11))
   || ((d =? 17) && (m =? 11))
   || ((d =? 17) && (m =? 12))))
  then Ret (false)
  else if ((y =? 2011) && (((d =? 2) && (m =? 3))
   || ((d =? 12) && (m =? 4))
   || ((d =? 31) && (m =? 8))
   || ((d =? 1) && (m =? 9))
   || ((d =? 6) && (m =? 10))
   || ((d =? 26) && (m =? 10))
   || ((d =? 27) && (m =? 10))
   || ((d =? 7) && (m =? 11))
   || ((d =? 10) && (m =? 11))
   || ((d =? 6) && (m =? 12))))
  then Ret (false)
  else if ((y =? 2012) && (((d =? 20) && (m =? 2))
   || ((d =? 8) && (m =? 3))
   || ((d =? 5) && (m =? 4))
   || ((d =? 20) && (m =? 8))
   || ((d =? 19) && (m =? 9))
   || ((d =? 24) && (m =? 10))
   || ((d =? 14) && (m =? 11))
   || ((d =? 28) && (m =? 11))))
  then Ret (false)
  else if ((y =? 2013) && (((d =? 27) && (m =? 3))
   || ((d =? 19) && (m =? 4))
   || ((d =? 24) && (m =? 4))
   || ((d =? 9) && (m =? 8))
   || ((d =? 9) && (m =? 9))
   || ((d =? 16) && (m =? 10))
   || ((d =? 4) && (m =? 11))
   || ((d =? 14) && (m =? 11))))
  then Ret (false)
  else if ((y =? 2014) && (((d =? 27) && (m =? 2))
   || ((d =? 17) && (m =? 3))
   || ((d =? 8) && (m =? 4))
   || ((d =? 29) && (m =? 7))
   || ((d =? 29) && (m =? 8))
   || ((d =? 3) && (m =? 10))
   || ((d =? 6) && (m =? 10))
   || ((d =? 24) && (m =? 10))
   || ((d =? 4) && (m =? 11))
   || ((d =? 6) && (m =? 11))))
  then Ret (false)
  else if ((y =? 2019) && (((d =? 19) && (m =? 2))
   || ((d =? 4) && (m =? 3))
   || ((d =? 21) && (m =? 3))
   || ((d =? 1) && (m =? 4))
   || ((d =? 17) && (m =? 4))
   || ((d =? 29) && (m =? 4))
   || ((d =? 5) && (m =? 6))
   || ((d =? 12) && (m =? 8))
   || ((d =? 2) && (m =? 9))
   || ((d =? 10) && (m =? 9))
   || ((d =? 8) && (m =? 10))
   || ((d =? 21) && (m =? 10))
   || ((d =? 28) && (m =? 10))
   || ((d =? 12) && (m =? 11))))
  then Ret (false)
  else if ((y =? 2020) && (negb ((negb (m =? 2))
   || ((negb (d =? 19)) && (negb (d =? 21))))
   || ((d =? 10) && (m =? 3))
   || ((d =? 25) && (m =? 3))
   || ((d =? 1) && (m =? 4))
   || ((d =? 2) && (m =? 4))
   || ((d =? 6) && (m =? 4))
   || ((d =? 7) && (m =? 5))
   || ((d =? 25) && (m =? 5))
   || ((d =? 30) && (m =? 10))
   || ((d =? 16) && (m =? 11))
   || ((d =? 30) && (m =? 11))))
  then Ret (false)
  else if ((y =? 2021) && (((d =? 19) && (m =? 2))
   || ((d =? 11) && (m =? 3))
   || ((d =? 29) && (m =? 3))
   || ((d =? 13) && (m =? 4))
   || ((d =? 14) && (m =? 4))
   || ((d =? 21) && (m =? 4))
   || ((d =? 26) && (m =? 5))
   || ((d =? 21) && (m =? 7))
   || ((d =? 10) && (m =? 9))
   || ((d =? 15) && (m =? 10))
   || ((d =? 19) && (m =? 10))
   || ((d =? 5) && (m =? 11))
   || ((d =? 19) && (m =? 11))))
  then Ret (false)
  else if ((y =? 2022) && (negb ((negb (m =? 3))
   || ((negb (d =? 1)) && (negb (d =? 18))))
   || ((d =? 3) && (m =? 5))
   || ((d =? 16) && (m =? 5))
   || ((d =? 31) && (m =? 8))
   || ((d =? 5) && (m =? 10))
   || ((d =? 26) && (m =? 10))
   || ((d =? 8) && (m =? 11))))
  then Ret (false)
  else if ((y =? 2023) && (negb ((negb (m =? 3))
   || ((negb (d =? 8)) && (negb (d =? 22)) && (negb (d =? 30))))
   || ((d =? 4) && (m =? 4))
   || ((d =? 5) && (m =? 5))
   || ((d =? 28) && (m =? 6))
   || ((d =? 19) && (m =? 9))
   || ((d =? 28) && (m =? 9))
   || ((d =? 24) && (m =? 10))
   || ((d =? 14) && (m =? 11))
   || ((d =? 27) && (m =? 11))))
  then Ret (false)
  else if ((y =? 2024) && (((d =? 19) && (m =? 2))
   || ((d =? 8) && (m =? 3))
   || ((d =? 25) && (m =? 3))
   || ((d =? 9) && (m =? 4))
   || ((d =? 17) && (m =? 4))
   || ((d =? 21) && (m =? 4))
   || ((d =? 23) && (m =? 5))
   || ((d =? 17) && (m =? 6))
   || ((d =? 27) && (m =? 8))
   || ((d =? 16) && (m =? 9))
   || ((d =? 15) && (m =? 11))))
  then Ret (false)
  else if ((y =? 2025) && (negb ((negb (m =? 2))
   || ((negb (d =? 19)) && (negb (d =? 26))))
   || ((d =? 14) && (m =? 3))
   || ((d =? 31) && (m =? 3))
   || ((d =? 10) && (m =? 4))
   || ((d =? 12) && (m =? 5))
   || ((d =? 5) && (m =? 9))
   || ((d =? 2) && (m =? 10))
   || ((d =? 22) && (m =? 10))
   || ((d =? 5) && (m =? 11))))
  then Ret (false)
  else Ret (true).

(* indonesia.rs:11-228 Indonesia::is_business_day *)
Definition indonesia_is_business_day (date : NaiveDate) : M bool :=
  let '(d, _, m, y, dd) := naive_date_to_dkmy date in
  em <- easter_monday y ;;
  if ((is_weekend date)
   || ((d =? 1) && (m =? 1))
   || (dd =? em - 3)
   || (dd =? em + 38)
   || ((d =? 17) && (m =? 8))
   || ((d =? 25) && (m =? 12)))
  then Ret (false)
  else if ((y =? 2005) && (((d =? 21) && (m =? 1))
   || ((d =? 9) && (m =? 2))
   || ((d =? 10) && (m =? 2))
   || ((d =? 11) && (m =? 3))
   || ((d =? 22) && (m =? 4))
   || ((d =? 24) && (m =? 5))
   || ((d =? 2) && (m =? 9))
   || (((d =? 3)
   || (d =? 4)) && (m =? 11))
   || (((d =? 2)
   || (d =? 7)
   || (d =? 8)) && (m =? 11))
   || ((d =? 26) && (m =? 12))))
  then Ret (false)
  else if ((y =? 2006) && (negb ((negb (m =? 1))
   || ((negb (d =? 10)) && (negb (d =? 31))))
   || ((d =? 30) && (m =? 3))
   || ((d =? 10) && (m =? 4))
   || ((d =? 21) && (m =? 8))
   || (((d =? 24)
   || (d =? 25)) && (m =? 10))
   || (((d =? 23)
   || (d =? 26)
   || (d =? 27)) && (m =? 10))))
  then Ret (false)
  else if ((y =? 2007) && (((d =? 19) && (m =? 3))
   || ((d =? 1) && (m =? 6))
   || ((d =? 20) && (m =? 12))
   || ((d =? 18) && (m =? 5))
   || (((d =? 12)
   || (d =? 15)
   || (d =? 16)) && (m =? 10))
   || (((d =? 21)
   || (d =? 24)) && (m =? 10))))
  then Ret (false)
  else if ((y =? 2008) && ((((d =? 10)
   || (d =? 11)) && (m =? 1))
   || (((d =? 7)
   || (d =? 8)) && (m =? 2))
   || ((d =? 7) && (m =? 3))
   || ((d =? 20) && (m =? 3))
   || ((d =? 20) && (m =? 5))
   || ((d =? 30) && (m =? 7))
   || ((d =? 18) && (m =? 8))
   || ((d =? 30) && (m =? 9))
   || (((d =? 1)
   || (d =? 2)
   || (d =? 3)) && (m =? 10))
   || ((d =? 8) && (m =? 12))
   || ((d =? 29) && (m =? 12))
   || ((d =? 31) && (m =? 12))))
  then Ret (false)
  else if ((y =? 2009) && (negb ((negb (m =? 1))
   || ((negb (d =? 2)) && (negb (d =? 26))))
   || ((d =? 9) && (m =? 3))
   || ((d =? 26) && (m =? 3))
   || ((d =? 9) && (m =? 4))
   || ((d =? 20) && (m =? 7))
   || (((18 <=? d) && (d <=? 23)) && (m =? 9))
   || ((d =? 27) && (m =? 11))
   || ((d =? 18) && (m =? 12))
   || ((d =? 24) && (m =? 12))
   || ((d =? 31) && (m =? 12))))
  then Ret (false)
  else if ((y =? 2010) && (((d =? 26) && (m =? 2))
   || ((d =? 16) && (m =? 3))
   || ((d =? 28) && (m =? 5))
   || (((8 <=? d) && (d <=? 14)) && (m =? 9))
   || ((d =? 17) && (m =? 11))
   || ((d =? 7) && (m =? 12))
   || ((d =? 24) && (m =? 12))
   || ((d =? 31) && (m =? 12))))
  then Ret (false)
  else if ((y =? 2011) && (negb ((negb (m =? 2))
   || ((negb (d =? 3)) && (negb (d =? 15))))
   || ((d =? 17) && (m =? 5))
   || ((d =? 29) && (m =? 6))
   || ((29 <=? d) && (m =? 8))
   || ((d <=? 2) && (m =? 9))
   || ((d =? 26) && (m =? 12))))
  then Ret (false)
  else if ((y =? 2012) && (negb ((negb (d =? 23))
   || ((negb (m =? 1)) && (negb (m =? 3))))
   || (((20 <=? d) && (d <=? 22)) && (m =? 8))
   || ((d =? 26) && (m =? 10))
   || (((15 <=? d) && (d <=? 16)) && (m =? 11))
   || ((d =? 24) && (m =? 12))
   || ((d =? 31) && (m =? 12))))
  then Ret (false)
  else if ((y =? 2013) && (((d =? 24) && (m =? 1))
   || ((d =? 12) && (m =? 3))
   || ((d =? 6) && (m =? 6))
   || (((5 <=? d) && (d <=? 9)) && (m =? 8))
   || (((14 <=? d) && (d <=? 15)) && (m =? 10))
   || ((d =? 5) && (m =? 11))
   || ((d =? 26) && (m =? 12))
   || ((d =? 31) && (m =? 12))))
  then Ret (false)
  else if ((y =? 2014) && (negb ((negb (m =? 1))
   || ((negb (d =? 14)) && (negb (d =? 31))))
   || ((d =? 31) && (m =? 3))
   || ((d =? 1) && (m =? 5))
   || ((d =? 15) && (m =? 5))
   || ((d =? 27) && (m =? 5))
   || ((d =? 29) && (m =? 5))
   || (((28 <=? d) && (m =? 7))
   || ((d =? 1) && (m =? 8)))
   || ((d =? 26) && (m =? 12))
   || ((d =? 31) && (m =? 12))))
  then Ret (false)
  else Ret (true).

(* israel.rs:11-317 Israel::is_business_day *)
Definition israel_is_business_day (date : NaiveDate) : bool :=
  let '(d, w, m, y, _) := naive_date_to_dkmy date in
  if ((weekday_eqb w Fri)
   || (weekday_eqb w Sat)
   || ((d =? 24) && (m =? 2) && (y =? 2013))
   || ((d =? 16) && (m =? 3) && (y =? 2014))
   || ((d =? 5) && (m =? 3) && (y =? 2015))
   || ((d =? 24) && (m =? 3) && (y =? 2016))
   || ((d =? 12) && (m =? 3) && (y =? 2017))
   || ((d =? 1) && (m =? 3) && (y =? 2018))
   || ((d =? 21) && (m =? 3) && (y =? 2019))
   || ((d =? 10) && (m =? 3) && (y =? 2020))
   || ((d =? 26) && (m =? 2) && (y =? 2021))
   || ((d =? 17) && (m =? 3) && (y =? 2022))
   || ((d =? 7) && (m =? 3) && (y =? 2023))
   || ((d =? 24) && (m =? 3) && (y =? 2024))
   || ((d =? 14) && (m =? 3) && (y =? 2025))
   || ((d =? 3) && (m =? 3) && (y =? 2026))
   || ((d =? 23) && (m =? 3) && (y =? 2027))
   || ((d =? 12) && (m =? 3) && (y =? 2028))
   || ((d =? 1) && (m =? 3) && (y =? 2029))
   || ((d =? 19) && (m =? 3) && (y =? 2030))
   || ((d =? 9) && (m =? 3) && (y =? 2031))
   || ((d =? 26) && (m =? 2) && (y =? 2032))
   || ((d =? 15) && (m =? 3) && (y =? 2033))
   || ((d =? 5) && (m =? 3) && (y =? 2034))
   || ((d =? 25) && (m =? 3) && (y =? 2035))
   || ((d =? 13) && (m =? 3) && (y =? 2036))
   || ((d =? 1) && (m =? 3) && (y =? 2037))
   || ((d =? 21) && (m =? 3) && (y =? 2038))
   || ((d =? 10) && (m =? 3) && (y =? 2039))
   || ((d =? 28) && (m =? 2) && (y =? 2040))
   || ((d =? 17) && (m =? 3) && (y =? 2041))
   || ((d =? 6) && (m =? 3) && (y =? 2042))
   || ((d =? 26) && (m =? 3) && (y =? 2043))
   || ((d =? 13) && (m =? 3) && (y =? 2044))
   || (((((d =? 25)
   || (d =? 26)
   || (d =? 31)) && (m =? 3))
   || ((d =? 1) && (m =? 4))) && (y =? 2013))
   || (((d =? 14)
   || (d =? 15)
   || (d =? 20)
   || (d =? 21)) && (m =? 4) && (y =? 2014))
   || (((d =? 3)
   || (d =? 4)
   || (d =? 9)
   || (d =? 10)) && (m =? 4) && (y =? 2015))
   || (((d =? 22)
   || (d =? 23)
   || (d =? 28)
   || (d =? 29)) && (m =? 4) && (y =? 2016))
   || (((d =? 10)
   || (d =? 11)
   || (d =? 16)
   || (d =? 17)) && (m =? 4) && (y =? 2017))
   || ((((d =? 31) && (m =? 3))
   || (((d =? 5)
   || (d =? 6)) && (m =? 4))) && (y =? 2018))
   || (((d =? 20)
   || (d =? 25)
   || (d =? 26)) && (m =? 4) && (y =? 2019))
   || (((d =? 8)
   || (d =? 9)
   || (d =? 14)
   || (d =? 15)) && (m =? 4) && (y =? 2020))
   || ((((d =? 28) && (m =? 3))
   || ((d =? 3) && (m =? 4))) && (y =? 2021))
   || (((d =? 16)
   || (d =? 22)) && (m =? 4) && (y =? 2022))
   || (((d =? 6)
   || (d =? 12)) && (m =? 4) && (y =? 2023))
   || (((d =? 23)
   || (d =? 29)) && (m =? 4) && (y =? 2024))
   || (((d =? 13)
   || (d =? 19)) && (m =? 4) && (y =? 2025))
   || (((d =? 2)
   || (d =? 8)) && (m =? 4) && (y =? 2026))
   || (((d =? 22)
   || (d =? 28)) && (m =? 4) && (y =? 2027))
   || (((d =? 11)
   || (d =? 17)) && (m =? 4) && (y =? 2028))
   || ((((d =? 31) && (m =? 3))
   || ((d =? 6) && (m =? 4))) && (y =? 2029))
   || (((d =? 18)
   || (d =? 24)) && (m =? 4) && (y =? 2030))
   || (((d =? 8)
   || (d =? 14)) && (m =? 4) && (y =? 2031))
   || ((((d =? 27) && (m =? 3))
   || ((d =? 2) && (m =? 4))) && (y =? 2032))
   || (((d =? 14)
   || (d =? 20)) && (m =? 4) && (y =? 2033))
   || (((d =? 4)
   || (d =? 10)) && (m =? 4) && (y =? 2034))
   || (((d =? 24)
   || (d =? 30)) && (m =? 4) && (y =? 2035))
   || (((d =? 12)
   || (d =? 18)) && (m =? 4) && (y =? 2036))
   || ((((d =? 31) && (m =? 3))
   || ((d =? 6) && (m =? 4))) && (y =? 2037))
   || (((d =? 20)
   || (d =? 26)) && (m =? 4) && (y =? 2038))
   || (((d =? 9)
   || (d =? 15)) && (m =? 4) && (y =? 2039))
   || ((((d =? 29) && (m =? 3))
   || ((d =? 4) && (m =? 4))) && (y =? 2040))
   || (((d =? 16)
   || (d =? 22)) && (m =? 4) && (y =? 2041))
   || (((d =? 5)
   || (d =? 11)) && (m =? 4) && (y =? 2042))
   || ((((d =? 25) && (m =? 4))
   || ((d =? 1) && (m =? 5))) && (y =? 2043))
   || (((d =? 12)
   || (d =? 18)) && (m =? 4) && (y =? 2044))
   || (((d =? 15)
   || (d =? 16)) && (m =? 4) && (y =? 2013))
   || (((d =? 5)
   || (d =? 6)) && (m =? 5) && (y =? 2014))
   || (((d =? 22)
   || (d =? 23)) && (m =? 4) && (y =? 2015))
   || (((d =? 11)
   || (d =? 12)) && (m =? 5) && (y =? 2016))
   || (((d =? 1)
   || (d =? 2)) && (m =? 5) && (y =? 2017))
   || (((d =? 18)
   || (d =? 19)) && (m =? 4) && (y =? 2018))
   || (((d =? 8)
   || (d =? 9)) && (m =? 5) && (y =? 2019))
   || (((d =? 28)
   || (d =? 29)) && (m =? 4) && (y =? 2020))
   || (((d =? 14)
   || (d =? 15)) && (m =? 4) && (y =? 2021))
   || (((d =? 4)
   || (d =? 5)) && (m =? 5) && (y =? 2022))
   || (((d =? 25)
   || (d =? 26)) && (m =? 4) && (y =? 2023))
   || (((d =? 13)
   || (d =? 14)) && (m =? 5) && (y =? 2024))
   || ((((d =? 30) && (m =? 4))
   || ((d =? 1) && (m =? 5))) && (y =? 2025))
   || (((d =? 21)
   || (d =? 22)) && (m =? 4) && (y =? 2026))
   || (((d =? 11)
   || (d =? 12)) && (m =? 5) && (y =? 2027))
   || (((d =? 1)
   || (d =? 2)) && (m =? 5) && (y =? 2028))
   || (((d =? 18)
   || (d =? 19)) && (m =? 4) && (y =? 2029))
   || (((d =? 7)
   || (d =? 8)) && (m =? 5) && (y =? 2030))
   || (((d =? 28)
   || (d =? 29)) && (m =? 4) && (y =? 2031))
   || (((d =? 14)
   || (d =? 15)) && (m =? 4) && (y =? 2032))
   || (((d =? 3)
   || (d =? 4)) && (m =? 5) && (y =? 2033))
   || (((d =? 24)
   || (d =? 25)) && (m =? 4) && (y =? 2034))
   || (((d =? 14)
   || (d =? 15)) && (m =? 5) && (y =? 2035))
   || ((((d =? 30) && (m =? 4))
   || ((d =? 1) && (m =? 5))) && (y =? 2036))
   || (((d =? 20)
   || (d =? 21)) && (m =? 4) && (y =? 2037))
   || (((d =? 9)
   || (d =? 10)) && (m =? 5) && (y =? 2038))
   || (((d =? 27)
   || (d =? 28)) && (m =? 4) && (y =? 2039))
   || (((d =? 17)
   || (d =? 18)) && (m =? 4) && (y =? 2040))
   || (((d =? 6)
   || (d =? 7)) && (m =? 5) && (y =? 2041))
   || (((d =? 23)
   || (d =? 24)) && (m =? 4) && (y =? 2042))
   || (((d =? 13)
   || (d =? 14)) && (m =? 5) && (y =? 2043))
   || (((d =? 2)
   || (d =? 3)) && (m =? 5) && (y =? 2044))
   || (((d =? 14)
   || (d =? 15)) && (m =? 5) && (y =? 2013))
   || (((d =? 3)
   || (d =? 4)) && (m =? 6) && (y =? 2014))
   || (((d =? 23)
   || (d =? 24)) && (m =? 5) && (y =? 2015))
   || (((d =? 11)
   || (d =? 12)) && (m =? 6) && (y =? 2016))
   || (((d =? 30)
   || (d =? 31)) && (m =? 5) && (y =? 2017))
   || (((d =? 19)
   || (d =? 20)) && (m =? 5) && (y =? 2018))
   || (((d =? 8)
   || (d =? 9)) && (m =? 6) && (y =? 2019))
   || (((d =? 28)
   || (d =? 29)) && (m =? 5) && (y =? 2020))
   || ((d =? 17) && (m =? 5) && (y =? 2021))
   || ((d =? 5) && (m =? 6) && (y =? 2022))
   || ((d =? 26) && (m =? 5) && (y =? 2023))
   || ((d =? 12) && (m =? 6) && (y =? 2024))
   || ((d =? 2) && (m =? 6) && (y =? 2025))
   || ((d =? 22) && (m =? 5) && (y =? 2026))
   || ((d =? 11) && (m =? 6) && (y =? 2027))
   || ((d =? 31) && (m =? 5) && (y =? 2028))
   || ((d =? 20) && (m =? 5) && (y =? 2029))
   || ((d =? 7) && (m =? 6) && (y =? 2030))
   || ((d =? 28) && (m =? 5) && (y =? 2031))
   || ((d =? 16) && (m =? 5) && (y =? 2032))
   || ((d =? 3) && (m =? 6) && (y =? 2033))
   || ((d =? 24) && (m =? 5) && (y =? 2034))
   || ((d =? 13) && (m =? 6) && (y =? 2035))
   || ((d =? 1) && (m =? 6) && (y =? 2036))
   || ((d =? 20) && (m =? 5) && (y =? 2037))
   || ((d =? 9) && (m =? 6) && (y =? 2038))
   || ((d =? 29) && (m =? 5) && (y =? 2039))
   || ((d =? 18) && (m =? 5) && (y =? 2040))
   || ((d =? 5) && (m =? 6) && (y =? 2041))
   || ((d =? 25) && (m =? 5) && (y =? 2042))
   || ((d =? 14) && (m =? 6) && (y =? 2043))
   || ((d =? 1) && (m =? 6) && (y =? 2044))
   || ((d =? 16) && (m =? 7) && (y =? 2013))
   || ((d =? 5) && (m =? 8) && (y =? 2014))
   || ((d =? 26) && (m =? 7) && (y =? 2015))
   || ((d =? 14) && (m =? 8) && (y =? 2016))
   || ((d =? 1) && (m =? 8) && (y =? 2017))
   || ((d =? 22) && (m =? 7) && (y =? 2018))
   || ((d =? 11) && (m =? 8) && (y =? 2019))
   || ((d =? 30) && (m =? 7) && (y =? 2020))
   || ((d =? 18) && (m =? 7) && (y =? 2021))
   || ((d =? 7) && (m =? 8) && (y =? 2022))
   || ((d =? 27) && (m =? 7) && (y =? 2023))
   || ((d =? 13) && (m =? 8) && (y =? 2024))
   || ((d =? 3) && (m =? 8) && (y =? 2025))
   || ((d =? 23) && (m =? 7) && (y =? 2026))
   || ((d =? 12) && (m =? 8) && (y =? 2027))
   || ((d =? 1) && (m =? 8) && (y =? 2028))
   || ((d =? 22) && (m =? 7) && (y =? 2029))
   || ((d =? 8) && (m =? 8) && (y =? 2030))
   || ((d =? 29) && (m =? 7) && (y =? 2031))
   || ((d =? 18) && (m =? 7) && (y =? 2032))
   || ((d =? 4) && (m =? 8) && (y =? 2033))
   || ((d =? 25) && (m =? 7) && (y =? 2034))
   || ((d =? 14) && (m =? 8) && (y =? 2035))
   || ((d =? 3) && (m =? 8) && (y =? 2036))
   || ((d =? 21) && (m =? 7) && (y =? 2037))
   || ((d =? 10) && (m =? 8) && (y =? 2038))
   || ((d =? 31) && (m =? 7) && (y =? 2039))
   || ((d =? 19) && (m =? 7) && (y =? 2040))
   || ((d =? 6) && (m =? 8) && (y =? 2041))
   || ((d =? 27) && (m =? 7) && (y =? 2042))
   || ((d =? 16) && (m =? 8) && (y =? 2043))
   || ((d =? 2) && (m =? 8) && (y =? 2044))
   || (((d =? 4)
   || (d =? 5)
   || (d =? 6)) && (m =? 9) && (y =? 2013))
   || (((d =? 24)
   || (d =? 25)
   || (d =? 26)) && (m =? 9) && (y =? 2014))
   || (((d =? 13)
   || (d =? 14)
   || (d =? 15)) && (m =? 9) && (y =? 2015))
   || (((d =? 2)
   || (d =? 3)
   || (d =? 4)) && (m =? 10) && (y =? 2016))
   || (((d =? 20)
   || (d =? 21)
   || (d =? 22)) && (m =? 9) && (y =? 2017))
   || (((d =? 9)
   || (d =? 10)
   || (d =? 11)) && (m =? 9) && (y =? 2018))
   || (((((d =? 29)
   || (d =? 30)) && (m =? 9))
   || ((d =? 1) && (m =? 10))) && (y =? 2019))
   || (((d =? 19)
   || (d =? 20)) && (m =? 9) && (y =? 2020))
   || (((d =? 7)
   || (d =? 8)) && (m =? 9) && (y =? 2021))
   || (((d =? 26)
   || (d =? 27)) && (m =? 9) && (y =? 2022))
   || (((d =? 16)
   || (d =? 17)) && (m =? 9) && (y =? 2023))
   || (((d =? 3)
   || (d =? 4)) && (m =? 10) && (y =? 2024))
   || (((d =? 23)
   || (d =? 24)) && (m =? 9) && (y =? 2025))
   || (((d =? 12)
   || (d =? 13)) && (m =? 9) && (y =? 2026))
   || (((d =? 2)
   || (d =? 3)) && (m =? 10) && (y =? 2027))
   || (((d =? 21)
   || (d =? 22)) && (m =? 9) && (y =? 2028))
   || (((d =? 10)
   || (d =? 11)) && (m =? 9) && (y =? 2029))
   || (((d =? 28)
   || (d =? 29)) && (m =? 9) && (y =? 2030))
   || (((d =? 18)
   || (d =? 19)) && (m =? 9) && (y =? 2031))
   || (((d =? 6)
   || (d =? 7)) && (m =? 9) && (y =? 2032))
   || (((d =? 24)
   || (d =? 25)) && (m =? 9) && (y =? 2033))
   || (((d =? 14)
   || (d =? 15)) && (m =? 9) && (y =? 2034))
   || (((d =? 4)
   || (d =? 5)) && (m =? 10) && (y =? 2035))
   || (((d =? 22)
   || (d =? 23)) && (m =? 9) && (y =? 2036))
   || (((d =? 10)
   || (d =? 11)) && (m =? 9) && (y =? 2037))
   || ((((d =? 30) && (m =? 9))
   || ((d =? 1) && (m =? 10))) && (y =? 2038))
   || (((d =? 19)
   || (d =? 20)) && (m =? 9) && (y =? 2039))
   || (((d =? 8)
   || (d =? 9)) && (m =? 9) && (y =? 2040))
   || (((d =? 26)
   || (d =? 27)) && (m =? 9) && (y =? 2041))
   || (((d =? 15)
   || (d =? 16)) && (m =? 9) && (y =? 2042))
   || (((d =? 5)
   || (d =? 6)) && (m =? 10) && (y =? 2043))
   || (((d =? 22)
   || (d =? 23)) && (m =? 9) && (y =? 2044))
   || (((d =? 13)
   || (d =? 14)) && (m =? 9) && (y =? 2013))
   || (((d =? 3)
   || (d =? 4)) && (m =? 10) && (y =? 2014))
   || (((d =? 22)
   || (d =? 23)) && (m =? 9) && (y =? 2015))
   || (((d =? 11)
   || (d =? 12)) && (m =? 10) && (y =? 2016))
   || (((d =? 29)
   || (d =? 30)) && (m =? 9) && (y =? 2017))
   || (((d =? 18)
   || (d =? 19)) && (m =? 9) && (y =? 2018))
   || (((d =? 8)
   || (d =? 9)) && (m =? 10) && (y =? 2019))
   || (((d =? 27)
   || (d =? 28)) && (m =? 9) && (y =? 2020))
   || (((d =? 15)
   || (d =? 16)) && (m =? 9) && (y =? 2021))
   || (((d =? 4)
   || (d =? 5)) && (m =? 10) && (y =? 2022))
   || (((d =? 24)
   || (d =? 25)) && (m =? 9) && (y =? 2023))
   || (((d =? 11)
   || (d =? 12)) && (m =? 10) && (y =? 2024))
   || (((d =? 1)
   || (d =? 2)) && (m =? 10) && (y =? 2025))
   || (((d =? 20)
   || (d =? 21)) && (m =? 9) && (y =? 2026))
   || (((d =? 10)
   || (d =? 11)) && (m =? 10) && (y =? 2027))
   || (((d =? 29)
   || (d =? 30)) && (m =? 9) && (y =? 2028))
   || (((d =? 18)
   || (d =? 19)) && (m =? 9) && (y =? 2029))
   || (((d =? 6)
   || (d =? 7)) && (m =? 10) && (y =? 2030))
   || (((d =? 26)
   || (d =? 27)) && (m =? 9) && (y =? 2031))
   || (((d =? 14)
   || (d =? 15)) && (m =? 9) && (y =? 2032))
   || (((d =? 2)
   || (d =? 3)) && (m =? 10) && (y =? 2033))
   || (((d =? 22)
   || (d =? 23)) && (m =? 9) && (y =? 2034))
   || (((d =? 12)
   || (d =? 13)) && (m =? 10) && (y =? 2035))
   || ((((d =? 30) && (m =? 9))
   || ((d =? 1) && (m =? 10))) && (y =? 2036))
   || (((d =? 18)
   || (d =? 19)) && (m =? 9) && (y =? 2037))
   || (((d =? 8)
   || (d =? 9)) && (m =? 10) && (y =? 2038))
   || (((d =? 27)
   || (d =? 28)) && (m =? 9) && (y =? 2039))
   || (((d =? 16)
   || (d =? 17)) && (m =? 9) && (y =? 2040))
   || (((d =? 4)
   || (d =? 5)) && (m =? 10) && (y =? 2041))
   || (((d =? 23)
   || (d =? 24)) && (m =? 9) && (y =? 2042))
   || (((d =? 13)
   || (d =? 14)) && (m =? 10) && (y =? 2043))
   || ((((d =? 30) && (m =? 9))
   || ((d =? 1) && (m =? 10))) && (y =? 2044))
   || (((d =? 18)
   || (d =? 19)) && (m =? 9) && (y =? 2013))
   || (((d =? 8)
   || (d =? 9)) && (m =? 10) && (y =? 2014))
   || (((d =? 27)
   || (d =? 28)) && (m =? 9) && (y =? 2015))
   || (((d =? 16)
   || (d =? 17)) && (m =? 10) && (y =? 2016))
   || (((d =? 4)
   || (d =? 5)) && (m =? 10) && (y =? 2017))
   || (((d =? 23)
   || (d =? 24)) && (m =? 9) && (y =? 2018))
   || (((d =? 13)
   || (d =? 14)) && (m =? 10) && (y =? 2019))
   || (((d =? 2)
   || (d =? 3)) && (m =? 10) && (y =? 2020))
   || (((d =? 20)
   || (d =? 21)) && (m =? 9) && (y =? 2021))
   || (((d =? 9)
   || (d =? 10)) && (m =? 10) && (y =? 2022))
   || (((d =? 29)
   || (d =? 30)) && (m =? 9) && (y =? 2023))
   || (((d =? 16)
   || (d =? 17)) && (m =? 10) && (y =? 2024))
   || (((d =? 6)
   || (d =? 7)) && (m =? 10) && (y =? 2025))
   || (((d =? 25)
   || (d =? 26)) && (m =? 9) && (y =? 2026))
   || (((d =? 15)
   || (d =? 16)) && (m =? 10) && (y =? 2027))
   || (((d =? 4)
   || (d =? 5)) && (m =? 10) && (y =? 2028))
   || (((d =? 23)
   || (d =? 24)) && (m =? 9) && (y =? 2029))
   || (((d =? 11)
   || (d =? 12)) && (m =? 10) && (y =? 2030))
   || (((d =? 1)
   || (d =? 2)) && (m =? 10) && (y =? 2031))
   || (((d =? 19)
   || (d =? 20)) && (m =? 9) && (y =? 2032))
   || (((d =? 7)
   || (d =? 8)) && (m =? 10) && (y =? 2033))
   || (((d =? 27)
   || (d =? 28)) && (m =? 9) && (y =? 2034))
   || (((d =? 17)
   || (d =? 18)) && (m =? 10) && (y =? 2035))
   || (((d =? 5)
   || (d =? 6)) && (m =? 10) && (y =? 2036))
   || (((d =? 23)
   || (d =? 24)) && (m =? 9) && (y =? 2037))
   || (((d =? 13)
   || (d =? 14)) && (m =? 10) && (y =? 2038))
   || (((d =? 2)
   || (d =? 3)) && (m =? 10) && (y =? 2039))
   || (((d =? 21)
   || (d =? 22)) && (m =? 9) && (y =? 2040))
   || (((d =? 9)
   || (d =? 10)) && (m =? 10) && (y =? 2041))
   || (((d =? 28)
   || (d =? 29)) && (m =? 9) && (y =? 2042))
   || (((d =? 18)
   || (d =? 19)) && (m =? 10) && (y =? 2043))
   || (((d =? 5)
   || (d =? 6)) && (m =? 10) && (y =? 2044))
   || (((d =? 25)
   || (d =? 26)) && (m =? 9) && (y =? 2013))
   || (((d =? 15)
   || (d =? 16)) && (m =? 10) && (y =? 2014))
   || (((d =? 4)
   || (d =? 5)) && (m =? 10) && (y =? 2015))
   || (((d =? 23)
   || (d =? 24)) && (m =? 10) && (y =? 2016))
   || (((d =? 11)
   || (d =? 12)) && (m =? 10) && (y =? 2017))
   || ((((d =? 30) && (m =? 9))
   || ((d =? 1) && (m =? 10))) && (y =? 2018))
   || (((d =? 20)
   || (d =? 21)) && (m =? 10) && (y =? 2019))
   || (((d =? 9)
   || (d =? 10)) && (m =? 10) && (y =? 2020))
   || (((d =? 27)
   || (d =? 28)) && (m =? 9) && (y =? 2021))
   || (((d =? 16)
   || (d =? 17)) && (m =? 10) && (y =? 2022))
   || (((d =? 6)
   || (d =? 7)) && (m =? 10) && (y =? 2023))
   || (((d =? 23)
   || (d =? 24)) && (m =? 10) && (y =? 2024))
   || (((d =? 13)
   || (d =? 14)) && (m =? 10) && (y =? 2025))
   || (((d =? 2)
   || (d =? 3)) && (m =? 10) && (y =? 2026))
   || (((d =? 22)
   || (d =? 23)) && (m =? 10) && (y =? 2027))
   || (((d =? 11)
   || (d =? 12)) && (m =? 10) && (y =? 2028))
   || ((((d =? 30) && (m =? 9))
   || ((d =? 1) && (m =? 10))) && (y =? 2029))
   || (((d =? 18)
   || (d =? 19)) && (m =? 10) && (y =? 2030))
   || (((d =? 8)
   || (d =? 9)) && (m =? 10) && (y =? 2031))
   || (((d =? 26)
   || (d =? 27)) && (m =? 9) && (y =? 2032))
   || (((d =? 14)
   || (d =? 15)) && (m =? 10) && (y =? 2033))
   || (((d =? 4)
   || (d =? 5)) && (m =? 10) && (y =? 2034))
   || (((d =? 24)
   || (d =? 25)) && (m =? 10) && (y =? 2035))
   || (((d =? 12)
   || (d =? 13)) && (m =? 10) && (y =? 2036))
   || ((((d =? 30) && (m =? 9))
   || ((d =? 1) && (m =? 10))) && (y =? 2037))
   || (((d =? 20)
   || (d =? 21)) && (m =? 10) && (y =? 2038))
   || (((d =? 9)
   || (d =? 10)) && (m =? 10) && (y =? 2039))
   || (((d =? 28)
   || (d =? 29)) && (m =? 9) && (y =? 2040))
   || (((d =? 16)
   || (d =? 17)) && (m =? 10) && (y =? 2041))
   || (((d =? 5)
   || (d =? 6)) && (m =? 10) && (y =? 2042))
   || (((d =? 25)
   || (d =? 26)) && (m =? 10) && (y =? 2043))
   || (((d =? 12)
   || (d =? 13)) && (m =? 10) && (y =? 2044)))
  then false
  else true.

(* italy.rs:8-11 enum ItalyMarket *)
Inductive ItalyMarket := ItalyMarket_Settlement | ItalyMarket_Exchange.

(* italy.rs:19-52 Italy::settlement_is_business_day *)
Definition italy_settlement_is_business_day (date : NaiveDate) : M bool :=
  let '(d, _, m, y, dd) := naive_date_to_dkmy date in
  em <- easter_monday y ;;
  if ((is_weekend date)
   || ((d =? 1) && (m =? 1))
   || ((d =? 6) && (m =? 1))
   || (dd =? em)
   || ((d =? 25) && (m =? 4))
   || ((d =? 1) && (m =? 5))
   || ((d =? 2) && (m =? 6) && (2000 <=? y))
   || ((d =? 15) && (m =? 8))
   || ((d =? 1) && (m =? 11))
   || ((d =? 8) && (m =? 12))
   || ((d =? 25) && (m =? 12))
   || ((d =? 26) && (m =? 12))
   || ((d =? 31) && (m =? 12) && (y =? 1999)))
  then Ret (false)
  else Ret (true).

(* italy.rs:54-80 Italy::exchange_is_business_day *)
Definition italy_exchange_is_business_day (date : NaiveDate) : M bool :=
  let '(d, _, m, y, dd) := naive_date_to_dkmy date in
  em <- easter_monday y ;;
  if ((is_weekend date)
   || ((d =? 1) && (m =? 1))
   || (dd =? em - 3)
   || (dd =? em)
   || ((d =? 1) && (m =? 5))
   || ((d =? 15) && (m =? 8))
   || ((d =? 24) && (m =? 12))
   || ((d =? 25) && (m =? 12))
   || ((d =? 26) && (m =? 12))
   || ((d =? 31) && (m =? 12)))
  then Ret (false)
  else Ret (true).

(* italy.rs:84-90 Italy::is_business_day *)
Definition italy_is_business_day (market : option ItalyMarket) (date : NaiveDate) : M bool :=
  match market with
  | Some ItalyMarket_Settlement => italy_settlement_is_business_day date
  | Some ItalyMarket_Exchange => italy_exchange_is_business_day date
  | None => italy_settlement_is_business_day date
  end.

(* japan.rs:11-16 Japan::vernal_equinox_day *)
Definition japan_vernal_equinox_day (y : Z) : Z :=
  if (y =? 2014) || (y =? 2015) || (y =? 2018) || (y =? 2019) || (y =? 2022) || (y =? 2023) || (y =? 2027) then 21
  else 20.

(* japan.rs:17-22 Japan::autumnal_equinox_day *)
Definition japan_autumnal_equinox_day (y : Z) : Z :=
  if (y =? 2020) || (y =? 2024) || (y =? 2028) then 22
  else 23.

(* japan.rs:26-131 Japan::is_business_day *)
Definition japan_is_business_day (date : NaiveDate) : bool :=
  let '(d, w, m, y, _) := naive_date_to_dkmy date in
  let ve := (japan_vernal_equinox_day y) in
  let ae := (japan_autumnal_equinox_day y) in
  if ((is_weekend date)
   || ((d =? 1) && (m =? 1))
   || ((d =? 2) && (m =? 1))
   || ((d =? 3) && (m =? 1))
   || ((weekday_eqb w Mon) && ((8 <=? d) && (d <=? 14)) && (m =? 1) && (2000 <=? y))
   || (((d =? 15)
   || ((d =? 16) && (weekday_eqb w Mon))) && (m =? 1) && (y <? 2000))
   || (((d =? 11)
   || ((d =? 12) && (weekday_eqb w Mon))) && (m =? 2))
   || (((d =? 23)
   || ((d =? 24) && (weekday_eqb w Mon))) && (m =? 2) && (2020 <=? y))
   || (((d =? 23)
   || ((d =? 24) && (weekday_eqb w Mon))) && (m =? 12) && ((1989 <=? y) && (y <? 2019)))
   || (((d =? ve)
   || ((d =? ve + 1) && (weekday_eqb w Mon))) && (m =? 3))
   || (((d =? 29)
   || ((d =? 30) && (weekday_eqb w Mon))) && (m =? 4))
   || ((d =? 3) && (m =? 5))
   || ((d =? 4) && (m =? 5))
   || ((d =? 5) && (m =? 5))
   || ((d =? 6) && (m =? 5) && ((weekday_eqb w Mon)
   || (weekday_eqb w Tue)
   || (weekday_eqb w Wed)))
   || ((weekday_eqb w Mon) && ((15 <=? d) && (d <=? 21)) && (m =? 7) && (((2003 <=? y) && (y <? 2020))
   || (2022 <=? y)))
   || (((d =? 20)
   || ((d =? 21) && (weekday_eqb w Mon))) && (m =? 7) && ((1996 <=? y) && (y <? 2003)))
   || ((d =? 23) && (m =? 7) && (y =? 2020))
   || ((d =? 22) && (m =? 7) && (y =? 2021))
   || (((d =? 11)
   || ((d =? 12) && (weekday_eqb w Mon))) && (m =? 8) && (((2016 <=? y) && (y <? 2020))
   || (2022 <=? y)))
   || ((d =? 10) && (m =? 8) && (y =? 2020))
   || ((d =? 9) && (m =? 8) && (y =? 2021))
   || ((weekday_eqb w Mon) && ((15 <=? d) && (d <=? 21)) && (m =? 9) && (2003 <=? y))
   || (((d =? 15)
   || ((d =? 16) && (weekday_eqb w Mon))) && (m =? 9) && (y <? 2003))
   || ((weekday_eqb w Tue) && (d + 1 =? ae) && ((16 <=? d) && (d <=? 22)) && (m =? 9) && (2003 <=? y))
   || (((d =? ae)
   || ((d =? ae + 1) && (weekday_eqb w Mon))) && (m =? 9))
   || ((weekday_eqb w Mon) && ((8 <=? d) && (d <=? 14)) && (m =? 10) && (((2000 <=? y) && (y <? 2020))
   || (2022 <=? y)))
   || (((d =? 10)
   || ((d =? 11) && (weekday_eqb w Mon))) && (m =? 10) && (y <? 2000))
   || ((d =? 24) && (m =? 7) && (y =? 2020))
   || ((d =? 23) && (m =? 7) && (y =? 2021))
   || (((d =? 3)
   || ((d =? 4) && (weekday_eqb w Mon))) && (m =? 11))
   || (((d =? 23)
   || ((d =? 24) && (weekday_eqb w Mon))) && (m =? 11))
   || ((d =? 31) && (m =? 12))
   || ((d =? 10) && (m =? 4) && (y =? 1959))
   || ((d =? 24) && (m =? 2) && (y =? 1989))
   || ((d =? 12) && (m =? 11) && (y =? 1990))
   || ((d =? 9) && (m =? 6) && (y =? 1993))
   || ((d =? 30) && (m =? 4) && (y =? 2019))
   || ((d =? 1) && (m =? 5) && (y =? 2019))
   || ((d =? 2) && (m =? 5) && (y =? 2019))
   || ((d =? 22) && (m =? 10) && (y =? 2019)))
  then false
  else true.

(* mexico.rs:11-46 Mexico::is_business_day *)
Definition mexico_is_business_day (date : NaiveDate) : M bool :=
  let '(d, w, m, y, dd) := naive_date_to_dkmy date in
  em <- easter_monday y ;;
  if ((is_weekend date)
   || ((d =? 1) && (m =? 1))
   || ((y <=? 2005) && (d =? 5) && (m =? 2))
   || ((2006 <=? y) && (d <=? 7) && (weekday_eqb w Mon) && (m =? 2))
   || ((y <=? 2005) && (d =? 21) && (m =? 3))
   || ((2006 <=? y) && ((15 <=? d) && (d <=? 21)) && (weekday_eqb w Mon) && (m =? 3))
   || (dd =? em - 4)
   || (dd =? em - 3)
   || ((d =? 1) && (m =? 5))
   || ((d =? 16) && (m =? 9))
   || ((d =? 2) && (m =? 11))
   || ((y <=? 2005) && (d =? 20) && (m =? 11))
   || ((2006 <=? y) && ((15 <=? d) && (d <=? 21)) && (weekday_eqb w Mon) && (m =? 11))
   || ((d =? 12) && (m =? 12))
   || ((d =? 25) && (m =? 12)))
  then Ret (false)
  else Ret (true).

(* newzealand.rs:11-69 NewZealand::is_business_day *)
Definition newzealand_is_business_day (date : NaiveDate) : M bool :=
  let '(d, w, m, y, dd) := naive_date_to_dkmy date in
  em <- easter_monday y ;;
  if ((is_weekend date)
   || (((d =? 1)
   || ((d =? 3) && ((weekday_eqb w Mon)
   || (weekday_eqb w Tue)))) && (m =? 1))
   || (((d =? 2)
   || ((d =? 4) && ((weekday_eqb w Mon)
   || (weekday_eqb w Tue)))) && (m =? 1))
   || (((19 <=? d) && (d <=? 25)) && (weekday_eqb w Mon) && (m =? 1))
   || ((d =? 6) && (m =? 2))
   || (((d =? 7)
   || (d =? 8)) && (weekday_eqb w Mon) && (m =? 2) && (2013 <? y))
   || (dd =? em - 3)
   || (dd =? em)
   || ((d =? 25) && (m =? 4))
   || (((d =? 26)
   || (d =? 27)) && (weekday_eqb w Mon) && (m =? 4) && (2013 <? y))
   || ((d <=? 7) && (weekday_eqb w Mon) && (m =? 6))
   || (((22 <=? d) && (d <=? 28)) && (weekday_eqb w Mon) && (m =? 10))
   || (((d =? 25)
   || ((d =? 27) && ((weekday_eqb w Mon)
   || (weekday_eqb w Tue)))) && (m =? 12))
   || (((d =? 26)
   || ((d =? 28) && ((weekday_eqb w Mon)
   || (weekday_eqb w Tue)))) && (m =? 12))
   || ((d =? 20) && (m =? 6) && (y =? 2025))
   || ((d =? 21) && (m =? 6) && ((y =? 2030)
   || (y =? 2052)))
   || ((d =? 24) && (m =? 6) && ((y =? 2022)
   || (y =? 2033)
   || (y =? 2044)))
   || ((d =? 25) && (m =? 6) && ((y =? 2027)
   || (y =? 2038)
   || (y =? 2049)))
   || ((d =? 28) && (m =? 6) && (y =? 2024))
   || ((d =? 29) && (m =? 6) && ((y =? 2035)
   || (y =? 2046)))
   || ((d =? 30) && (m =? 6) && (y =? 2051))
   || ((d =? 2) && (m =? 7) && (y =? 2032))
   || ((d =? 3) && (m =? 7) && ((y =? 2043)
   || (y =? 2048)))
   || ((d =? 6) && (m =? 7) && ((y =? 2029)
   || (y =? 2040)))
   || ((d =? 7) && (m =? 7) && ((y =? 2034)
   || (y =? 2045)))
   || ((d =? 10) && (m =? 7) && ((y =? 2026)
   || (y =? 2037)))
   || ((d =? 11) && (m =? 7) && ((y =? 2031)
   || (y =? 2042)))
   || ((d =? 14) && (m =? 7) && ((y =? 2023)
   || (y =? 2028)))
   || ((d =? 15) && (m =? 7) && ((y =? 2039)
   || (y =? 2050)))
   || ((d =? 18) && (m =? 7) && (y =? 2036))
   || ((d =? 19) && (m =? 7) && ((y =? 2041)
   || (y =? 2047))))
  then Ret (false)
  else Ret (true).

(* norway.rs:11-43 Norway::is_business_day *)
Definition norway_is_business_day (date : NaiveDate) : M bool :=
  let '(d, _, m, y, dd) := naive_date_to_dkmy date in
  em <- easter_monday y ;;
  if ((is_weekend date)
   || (dd =? em - 4)
   || (dd =? em - 3)
   || (dd =? em)
   || (dd =? em + 38)
   || (dd =? em + 49)
   || ((d =? 1) && (m =? 1))
   || ((d =? 1) && (m =? 5))
   || ((d =? 17) && (m =? 5))
   || ((d =? 24) && (m =? 12) && (2002 <=? y))
   || ((d =? 25) && (m =? 12))
   || ((d =? 26) && (m =? 12)))
  then Ret (false)
  else Ret (true).

(* poland.rs:11-43 Poland::is_business_day *)
Definition poland_is_business_day (date : NaiveDate) : M bool :=
  let '(d, _, m, y, dd) := naive_date_to_dkmy date in
  em <- easter_monday y ;;
  if ((is_weekend date)
   || (dd =? em)
   || (dd =? em + 59)
   || ((d =? 1) && (m =? 1))
   || ((d =? 6) && (m =? 1) && (2011 <=? y))
   || ((d =? 1) && (m =? 5))
   || ((d =? 3) && (m =? 5))
   || ((d =? 15) && (m =? 8))
   || ((d =? 1) && (m =? 11))
   || ((d =? 11) && (m =? 11))
   || ((d =? 25) && (m =? 12))
   || ((d =? 26) && (m =? 12)))
  then Ret (false)
  else Ret (true).

(* romania.rs:11-45 Romania::is_business_day *)
Definition romania_is_business_day (date : NaiveDate) : M bool :=
  let '(d, _, m, y, dd) := naive_date_to_dkmy date in
  em <- orthodox_easter_monday y ;;
  if ((is_weekend date)
   || ((d =? 1) && (m =? 1))
   || ((d =? 2) && (m =? 1))
   || ((d =? 24) && (m =? 1))
   || (dd =? em)
   || ((d =? 1) && (m =? 5))
   || (dd =? em + 49)
   || ((d =? 1) && (m =? 6) && (2017 <=? y))
   || ((d =? 15) && (m =? 8))
   || ((d =? 30) && (m =? 11))
   || ((d =? 1) && (m =? 12))
   || ((d =? 25) && (m =? 12))
   || ((d =? 26) && (m =? 12)))
  then Ret (false)
  else Ret (true).

(* russia.rs:8-11 enum RussiaMarket *)
Inductive RussiaMarket := RussiaMarket_Settlement | RussiaMarket_Exchange.

(* russia.rs:19-28 Russia::is_extra_holiday_settlement *)
Definition russia_is_extra_holiday_settlement (date : NaiveDate) : bool :=
  let '(d, _, m, y, _) := naive_date_to_dkmy date in
  if (y =? 2017) then (((m =? 2) && (d =? 24)) || ((m =? 5) && (d =? 8)) || ((m =? 11) && (d =? 6)))
  else if (y =? 2018) then (((m =? 3) && (d =? 9)) || ((m =? 4) && (d =? 30)) || ((m =? 5) && (d =? 2)) || ((m =? 6) && (d =? 11)) || ((m =? 12) && (d =? 31)))
  else if (y =? 2019) then (((m =? 5) && ((d =? 2) || (d =? 3) || (d =? 9))))
  else if (y =? 2020) then (((m =? 3) && ((d =? 30) || (d =? 31))) || ((m =? 4) && ((1 <=? d) && (d <=? 3))))
  else false.

(* russia.rs:30-44 Russia::is_extra_holiday_exchange *)
Definition russia_is_extra_holiday_exchange (date : NaiveDate) : bool :=
  let '(d, _, m, y, _) := naive_date_to_dkmy date in
  if (y =? 2012) then (((m =? 1) && (d =? 2)) || ((m =? 3) && (d =? 9)) || ((m =? 4) && (d =? 30)) || ((m =? 6) && (d =? 11)))
  else if (y =? 2013) then (((m =? 1) && ((d =? 1) || (d =? 2) || (d =? 3) || (d =? 4) || (d =? 7))))
  else if (y =? 2014) then (((m =? 1) && ((d =? 1) || (d =? 2) || (d =? 3) || (d =? 7))))
  else if (y =? 2015) then (((m =? 1) && ((d =? 1) || (d =? 2) || (d =? 7))))
  else if (y =? 2016) then (((m =? 1) && ((d =? 1) || (d =? 7) || (d =? 8))) || ((m =? 5) && ((d =? 2) || (d =? 3))) || ((m =? 6) && (d =? 13)) || ((m =? 12) && (d =? 30)))
  else if (y =? 2017) then (((m =? 1) && (d =? 2)) || ((m =? 5) && (d =? 8)))
  else if (y =? 2018) then (((m =? 1) && ((d =? 1) || (d =? 2) || (d =? 8))) || ((m =? 12) && (d =? 31)))
  else if (y =? 2019) then (((m =? 1) && ((d =? 1) || (d =? 2) || (d =? 7))) || ((m =? 12) && (d =? 31)))
  else if (y =? 2020) then ((((m =? 1) || (m =? 7)) && (d =? 1)) || ((m =? 1) && ((d =? 2) || (d =? 7))) || (((m =? 2) || (m =? 6)) && (d =? 24)))
  else false.

(* russia.rs:46-54 Russia::is_working_weekend *)
Definition russia_is_working_weekend (date : NaiveDate) : bool :=
  let '(d, _, m, y, _) := naive_date_to_dkmy date in
  if (y =? 2012) then (((m =? 3) && (d =? 11)) || ((m =? 4) && (d =? 28)) || ((m =? 5) && ((d =? 5) || (d =? 12))) || ((m =? 6) && (d =? 9)))
  else if (y =? 2016) then (((m =? 2) && (d =? 20)))
  else if (y =? 2018) then (((m =? 4) && (d =? 28)) || ((m =? 6) && (d =? 9)) || ((m =? 12) && (d =? 29)))
  else false.

(* russia.rs:56-93 Russia::settlement_is_business_day *)
Definition russia_settlement_is_business_day (date : NaiveDate) : bool :=
  let '(d, w, m, y, _) := naive_date_to_dkmy date in
  if ((is_weekend date)
   || (russia_is_extra_holiday_settlement date)
   || ((y <=? 2005) && (d <=? 2) && (m =? 1))
   || ((2005 <=? y) && (d <=? 5) && (m =? 1))
   || ((y =? 2012) && (d =? 6) && (m =? 1))
   || (((d =? 7)
   || (((d =? 8)
   || (d =? 9)) && (weekday_eqb w Mon))) && (m =? 1))
   || (((d =? 23)
   || (((d =? 24)
   || (d =? 25)) && (weekday_eqb w Mon))) && (m =? 2))
   || (((d =? 8)
   || (((d =? 9)
   || (d =? 10)) && (weekday_eqb w Mon))) && (m =? 3))
   || (((d =? 1)
   || (((d =? 2)
   || (d =? 3)) && (weekday_eqb w Mon))) && (m =? 5))
   || (((d =? 9)
   || (((d =? 10)
   || (d =? 11)) && (weekday_eqb w Mon))) && (m =? 5))
   || (((d =? 12)
   || (((d =? 13)
   || (d =? 14)) && (weekday_eqb w Mon))) && (m =? 6))
   || (((d =? 4)
   || (((d =? 5)
   || (d =? 6)) && (weekday_eqb w Mon))) && (m =? 11)))
  then false
  else true.

(* russia.rs:95-124 Russia::exchange_is_business_day *)
Definition russia_exchange_is_business_day (date : NaiveDate) : bool :=
  let '(d, w, m, _, _) := naive_date_to_dkmy date in
  if (russia_is_working_weekend date)
  then true
  else if ((is_weekend date)
   || (russia_is_extra_holiday_exchange date)
   || ((d =? 23) && (m =? 2))
   || (((d =? 8)
   || (((d =? 9)
   || (d =? 10)) && (weekday_eqb w Mon))) && (m =? 3))
   || ((d =? 1) && (m =? 5))
   || (((d =? 9)
   || (((d =? 10)
   || (d =? 11)) && (weekday_eqb w Mon))) && (m =? 5))
   || ((d =? 12) && (m =? 6))
   || (((d =? 4)
   || (((d =? 5)
   || (d =? 6)) && (weekday_eqb w Mon))) && (m =? 11))
   || ((d =? 31) && (m =? 12)))
  then false
  else true.

(* russia.rs:128-134 Russia::is_business_day *)
Definition russia_is_business_day (market : option RussiaMarket) (date : NaiveDate) : bool :=
  match market with
  | Some RussiaMarket_Settlement => (russia_settlement_is_business_day date)
  | Some RussiaMarket_Exchange => (russia_exchange_is_business_day date)
  | None => (russia_settlement_is_business_day date)
  end.

(* singapore.rs:11-186 Singapore::is_business_day *)
Definition singapore_is_business_day (date : NaiveDate) : M bool :=
  let '(d, w, m, y, dd) := naive_date_to_dkmy date in
  em <- easter_monday y ;;
  if ((is_weekend date)
   || (((d =? 1)
   || ((d =? 2) && (weekday_eqb w Mon))) && (m =? 1))
   || (dd =? em - 3)
   || ((d =? 1) && (m =? 5))
   || (((d =? 9)
   || ((d =? 10) && (weekday_eqb w Mon))) && (m =? 8))
   || ((d =? 25) && (m =? 12))
   || (((d =? 22)
   || (d =? 23)) && (m =? 1) && (y =? 2004))
   || (((d =? 9)
   || (d =? 10)) && (m =? 2) && (y =? 2005))
   || (((d =? 30)
   || (d =? 31)) && (m =? 1) && (y =? 2006))
   || (((d =? 19)
   || (d =? 20)) && (m =? 2) && (y =? 2007))
   || (((d =? 7)
   || (d =? 8)) && (m =? 2) && (y =? 2008))
   || (((d =? 26)
   || (d =? 27)) && (m =? 1) && (y =? 2009))
   || (((d =? 15)
   || (d =? 16)) && (m =? 1) && (y =? 2010))
   || (((d =? 23)
   || (d =? 24)) && (m =? 1) && (y =? 2012))
   || (((d =? 11)
   || (d =? 12)) && (m =? 2) && (y =? 2013))
   || ((d =? 31) && (m =? 1) && (y =? 2014))
   || ((d =? 1) && (m =? 2) && (y =? 2014))
   || (((d =? 1)
   || (d =? 2)) && (m =? 2) && (y =? 2004))
   || ((d =? 21) && (m =? 1) && (y =? 2005))
   || ((d =? 10) && (m =? 1) && (y =? 2006))
   || ((d =? 2) && (m =? 1) && (y =? 2007))
   || ((d =? 20) && (m =? 12) && (y =? 2007))
   || ((d =? 8) && (m =? 12) && (y =? 2008))
   || ((d =? 27) && (m =? 11) && (y =? 2009))
   || ((d =? 17) && (m =? 11) && (y =? 2010))
   || ((d =? 26) && (m =? 10) && (y =? 2012))
   || ((d =? 15) && (m =? 10) && (y =? 2013))
   || ((d =? 6) && (m =? 10) && (y =? 2014))
   || ((d =? 2) && (m =? 6) && (y =? 2004))
   || ((d =? 22) && (m =? 5) && (y =? 2005))
   || ((d =? 12) && (m =? 5) && (y =? 2006))
   || ((d =? 31) && (m =? 5) && (y =? 2007))
   || ((d =? 18) && (m =? 5) && (y =? 2008))
   || ((d =? 9) && (m =? 5) && (y =? 2009))
   || ((d =? 28) && (m =? 5) && (y =? 2010))
   || ((d =? 5) && (m =? 5) && (y =? 2012))
   || ((d =? 24) && (m =? 5) && (y =? 2013))
   || ((d =? 13) && (m =? 5) && (y =? 2014))
   || ((d =? 11) && (m =? 11) && (y =? 2004))
   || ((d =? 8) && (m =? 11) && (y =? 2007))
   || ((d =? 28) && (m =? 10) && (y =? 2008))
   || ((d =? 16) && (m =? 11) && (y =? 2009))
   || ((d =? 5) && (m =? 11) && (y =? 2010))
   || ((d =? 13) && (m =? 11) && (y =? 2012))
   || ((d =? 2) && (m =? 11) && (y =? 2013))
   || ((d =? 23) && (m =? 10) && (y =? 2014))
   || ((d =? 1) && (m =? 11) && (y =? 2005))
   || (((d =? 14)
   || (d =? 15)) && (m =? 11) && (y =? 2004))
   || ((d =? 3) && (m =? 11) && (y =? 2005))
   || ((d =? 24) && (m =? 10) && (y =? 2006))
   || ((d =? 13) && (m =? 10) && (y =? 2007))
   || ((d =? 1) && (m =? 10) && (y =? 2008))
   || ((d =? 21) && (m =? 9) && (y =? 2009))
   || ((d =? 10) && (m =? 9) && (y =? 2010))
   || ((d =? 20) && (m =? 8) && (y =? 2012))
   || ((d =? 8) && (m =? 8) && (y =? 2013))
   || ((d =? 28) && (m =? 7) && (y =? 2014)))
  then Ret (false)
  else if ((y =? 2019) && ((((d =? 5)
   || (d =? 6)) && (m =? 2))
   || ((d =? 20) && (m =? 5))
   || ((d =? 5) && (m =? 6))
   || ((d =? 12) && (m =? 8))
   || ((d =? 28) && (m =? 10))))
  then Ret (false)
  else if ((y =? 2020) && (((d =? 27) && (m =? 1))
   || ((d =? 7) && (m =? 5))
   || ((d =? 25) && (m =? 5))
   || ((d =? 31) && (m =? 7))
   || ((d =? 14) && (m =? 11))))
  then Ret (false)
  else if ((y =? 2021) && (((d =? 12) && (m =? 2))
   || ((d =? 13) && (m =? 5))
   || ((d =? 26) && (m =? 5))
   || ((d =? 20) && (m =? 7))
   || ((d =? 4) && (m =? 11))))
  then Ret (false)
  else if ((y =? 2022) && ((((d =? 1)
   || (d =? 2)) && (m =? 2))
   || ((d =? 2) && (m =? 5))
   || ((d =? 3) && (m =? 5))
   || ((d =? 16) && (m =? 5))
   || ((d =? 11) && (m =? 7))
   || ((d =? 24) && (m =? 10))
   || ((d =? 26) && (m =? 12))))
  then Ret (false)
  else if ((y =? 2023) && ((((d =? 23)
   || (d =? 24)) && (m =? 1))
   || ((d =? 22) && (m =? 4))
   || ((d =? 2) && (m =? 6))
   || ((d =? 29) && (m =? 6))
   || ((d =? 13) && (m =? 11))))
  then Ret (false)
  else Ret (true).

(* slovakia.rs:11-53 Slovakia::is_business_day *)
Definition slovakia_is_business_day (date : NaiveDate) : M bool :=
  let '(d, _, m, y, dd) := naive_date_to_dkmy date in
  em <- easter_monday y ;;
  if ((is_weekend date)
   || ((d =? 1) && (m =? 1))
   || ((d =? 6) && (m =? 1))
   || (dd =? em - 3)
   || (dd =? em)
   || ((d =? 1) && (m =? 5))
   || ((d =? 8) && (m =? 5))
   || ((d =? 5) && (m =? 7))
   || ((d =? 29) && (m =? 8))
   || ((d =? 1) && (m =? 9))
   || ((d =? 15) && (m =? 9))
   || ((d =? 1) && (m =? 11))
   || ((d =? 17) && (m =? 11))
   || ((d =? 24) && (m =? 12))
   || ((d =? 25) && (m =? 12))
   || ((d =? 26) && (m =? 12))
   || (((24 <=? d) && (d <=? 31)) && (m =? 12) && (y =? 2004))
   || (((24 <=? d) && (d <=? 31)) && (m =? 12) && (y =? 2005)))
  then Ret (false)
  else Ret (true).

(* southafrica.rs:11-64 SouthAfrica::is_business_day *)
Definition southafrica_is_business_day (date : NaiveDate) : M bool :=
  let '(d, w, m, y, dd) := naive_date_to_dkmy date in
  em <- easter_monday y ;;
  if ((is_weekend date)
   || (((d =? 1)
   || ((d =? 2) && (weekday_eqb w Mon))) && (m =? 1))
   || (dd =? em - 3)
   || (dd =? em)
   || (((d =? 21)
   || ((d =? 22) && (weekday_eqb w Mon))) && (m =? 3))
   || (((d =? 27)
   || ((d =? 28) && (weekday_eqb w Mon))) && (m =? 4))
   || ((d =? 14) && (m =? 4) && (y =? 2004))
   || (((d =? 1)
   || ((d =? 2) && (weekday_eqb w Mon))) && (m =? 5))
   || (((d =? 16)
   || ((d =? 17) && (weekday_eqb w Mon))) && (m =? 6))
   || (((d =? 9)
   || ((d =? 10) && (weekday_eqb w Mon))) && (m =? 8))
   || (((d =? 24)
   || ((d =? 25) && (weekday_eqb w Mon))) && (m =? 9))
   || (((d =? 16)
   || ((d =? 17) && (weekday_eqb w Mon))) && (m =? 12))
   || ((d =? 25) && (m =? 12))
   || (((d =? 26)
   || ((d =? 27) && (weekday_eqb w Mon))) && (m =? 12))
   || ((d =? 22) && (m =? 4) && (y =? 2009))
   || ((d =? 3) && (m =? 8) && (y =? 2016))
   || ((d =? 1) && (m =? 11) && (y =? 2021))
   || ((d =? 27) && (m =? 12) && (y =? 2022)))
  then Ret (false)
  else Ret (true).

(* southkorea.rs:11-225 SouthKorea::is_business_day *)
Definition southkorea_is_business_day (date : NaiveDate) : bool :=
  let '(d, w, m, y, _) := naive_date_to_dkmy date in
  if ((is_weekend date)
   || ((d =? 1) && (m =? 1))
   || ((d =? 1) && (m =? 3))
   || ((weekday_eqb w Mon) && ((d =? 2)
   || (d =? 3)) && (m =? 3) && (2021 <? y))
   || ((d =? 5) && (m =? 4) && (y <=? 2005))
   || ((d =? 1) && (m =? 5))
   || ((d =? 5) && (m =? 5))
   || ((weekday_eqb w Mon) && ((d =? 6)
   || (d =? 7)) && (m =? 5) && (2013 <? y))
   || ((d =? 6) && (m =? 6))
   || ((d =? 17) && (m =? 7) && (y <=? 2007))
   || ((d =? 15) && (m =? 8))
   || ((weekday_eqb w Mon) && ((d =? 16)
   || (d =? 17)) && (m =? 8) && (2020 <? y))
   || ((d =? 3) && (m =? 10))
   || ((weekday_eqb w Mon) && ((d =? 4)
   || (d =? 5)) && (m =? 10) && (2020 <? y))
   || ((d =? 25) && (m =? 12))
   || ((weekday_eqb w Mon) && ((d =? 26)
   || (d =? 27)) && (m =? 12) && (2022 <? y))
   || (((d =? 21)
   || (d =? 22)
   || (d =? 23)) && (m =? 1) && (y =? 2004))
   || (((d =? 8)
   || (d =? 9)
   || (d =? 10)) && (m =? 2) && (y =? 2005))
   || (((d =? 28)
   || (d =? 29)
   || (d =? 30)) && (m =? 1) && (y =? 2006))
   || ((d =? 19) && (m =? 2) && (y =? 2007))
   || (((d =? 6)
   || (d =? 7)
   || (d =? 8)) && (m =? 2) && (y =? 2008))
   || (((d =? 25)
   || (d =? 26)
   || (d =? 27)) && (m =? 1) && (y =? 2009))
   || (((d =? 13)
   || (d =? 14)
   || (d =? 15)) && (m =? 2) && (y =? 2010))
   || (((d =? 2)
   || (d =? 3)
   || (d =? 4)) && (m =? 2) && (y =? 2011))
   || (((d =? 23)
   || (d =? 24)) && (m =? 1) && (y =? 2012))
   || ((d =? 11) && (m =? 2) && (y =? 2013))
   || (((d =? 30)
   || (d =? 31)) && (m =? 1) && (y =? 2014))
   || (((d =? 18)
   || (d =? 19)
   || (d =? 20)) && (m =? 2) && (y =? 2015))
   || (((7 <=? d) && (d <=? 10)) && (m =? 2) && (y =? 2016))
   || (((27 <=? d) && (d <=? 30)) && (m =? 1) && (y =? 2017))
   || (((d =? 15)
   || (d =? 16)
   || (d =? 17)) && (m =? 2) && (y =? 2018))
   || (((d =? 4)
   || (d =? 5)
   || (d =? 6)) && (m =? 2) && (y =? 2019))
   || (((24 <=? d) && (d <=? 27)) && (m =? 1) && (y =? 2020))
   || (((d =? 11)
   || (d =? 12)
   || (d =? 13)) && (m =? 2) && (y =? 2021))
   || ((((d =? 31) && (m =? 1))
   || (((d =? 1)
   || (d =? 2)) && (m =? 2))) && (y =? 2022))
   || (((d =? 23)
   || (d =? 24)) && (m =? 1) && (y =? 2023))
   || (((9 <=? d) && (d <=? 12)) && (m =? 2) && (y =? 2024))
   || (((d =? 28)
   || (d =? 29)
   || (d =? 30)) && (m =? 1) && (y =? 2025))
   || (((d =? 16)
   || (d =? 17)
   || (d =? 18)) && (m =? 2) && (y =? 2026))
   || (((d =? 8)
   || (d =? 9)) && (m =? 2) && (y =? 2027))
   || (((d =? 26)
   || (d =? 27)
   || (d =? 28)) && (m =? 1) && (y =? 2028))
   || (((d =? 12)
   || (d =? 13)
   || (d =? 14)) && (m =? 2) && (y =? 2029))
   || (((d =? 4)
   || (d =? 5)) && (m =? 2) && (y =? 2030))
   || (((d =? 22)
   || (d =? 23)
   || (d =? 24)) && (m =? 1) && (y =? 2031))
   || (((d =? 10)
   || (d =? 11)
   || (d =? 12)) && (m =? 2) && (y =? 2032))
   || ((((d =? 31) && (m =? 1))
   || (((d =? 1)
   || (d =? 2)) && (m =? 2))) && (y =? 2033))
   || (((d =? 20)
   || (d =? 21)) && (m =? 2) && (y =? 2034))
   || (((d =? 7)
   || (d =? 8)
   || (d =? 9)) && (m =? 2) && (y =? 2035))
   || (((d =? 28)
   || (d =? 29)
   || (d =? 30)) && (m =? 1) && (y =? 2036))
   || (((d =? 16)
   || (d =? 17)) && (m =? 2) && (y =? 2037))
   || (((d =? 3)
   || (d =? 4)
   || (d =? 5)) && (m =? 2) && (y =? 2038))
   || (((d =? 24)
   || (d =? 25)
   || (d =? 26)) && (m =? 1) && (y =? 2039))
   || (((d =? 13)
   || (d =? 14)) && (m =? 2) && (y =? 2040))
   || ((((d =? 31) && (m =? 1))
   || (((d =? 1)
   || (d =? 2)) && (m =? 2))) && (y =? 2041))
   || (((d =? 21)
   || (d =? 22)
   || (d =? 23)) && (m =? 1) && (y =? 2042))
   || (((d =? 9)
   || (d =? 10)
   || (d =? 11)) && (m =? 2) && (y =? 2043))
   || (((((d =? 29)
   || (d =? 30)
   || (d =? 31)) && (m =? 1))
   || ((d =? 1) && (m =? 2))) && (y =? 2044))
   || (((d =? 16)
   || (d =? 17)
   || (d =? 18)) && (m =? 2) && (y =? 2045))
   || (((d =? 5)
   || (d =? 6)
   || (d =? 7)) && (m =? 2) && (y =? 2046))
   || (((25 <=? d) && (d <=? 28)) && (m =? 1) && (y =? 2047))
   || (((d =? 13)
   || (d =? 14)
   || (d =? 15)) && (m =? 2) && (y =? 2048))
   || (((d =? 1)
   || (d =? 2)
   || (d =? 3)) && (m =? 2) && (y =? 2049))
   || (((d =? 24)
   || (d =? 25)) && (m =? 1) && (y =? 2050))
   || ((d =? 15) && (m =? 4) && (y =? 2004))
   || ((d =? 31) && (m =? 5) && (y =? 2006))
   || ((d =? 19) && (m =? 12) && (y =? 2007))
   || ((d =? 9) && (m =? 4) && (y =? 2008))
   || ((d =? 2) && (m =? 6) && (y =? 2010))
   || ((d =? 11) && (m =? 4) && (y =? 2012))
   || ((d =? 19) && (m =? 12) && (y =? 2012))
   || ((d =? 4) && (m =? 6) && (y =? 2014))
   || ((d =? 13) && (m =? 4) && (y =? 2016))
   || ((d =? 9) && (m =? 5) && (y =? 2017))
   || ((d =? 13) && (m =? 6) && (y =? 2018))
   || ((d =? 15) && (m =? 4) && (y =? 2020))
   || ((d =? 9) && (m =? 3) && (y =? 2022))
   || ((d =? 1) && (m =? 6) && (y =? 2022))
   || ((d =? 10) && (m =? 4) && (y =? 2024))
   || ((d =? 26) && (m =? 5) && (y =? 2004))
   || ((d =? 15) && (m =? 5) && (y =? 2005))
   || ((d =? 5) && (m =? 5) && (y =? 2006))
   || ((d =? 24) && (m =? 5) && (y =? 2007))
   || ((d =? 12) && (m =? 5) && (y =? 2008))
   || ((d =? 2) && (m =? 5) && (y =? 2009))
   || ((d =? 21) && (m =? 5) && (y =? 2010))
   || ((d =? 10) && (m =? 5) && (y =? 2011))
   || ((d =? 28) && (m =? 5) && (y =? 2012))
   || ((d =? 17) && (m =? 5) && (y =? 2013))
   || ((d =? 6) && (m =? 5) && (y =? 2014))
   || ((d =? 25) && (m =? 5) && (y =? 2015))
   || ((d =? 14) && (m =? 5) && (y =? 2016))
   || ((d =? 3) && (m =? 5) && (y =? 2017))
   || ((d =? 22) && (m =? 5) && (y =? 2018))
   || ((d =? 12) && (m =? 5) && (y =? 2019))
   || ((d =? 30) && (m =? 4) && (y =? 2020))
   || ((d =? 19) && (m =? 5) && (y =? 2021))
   || ((d =? 8) && (m =? 5) && (y =? 2022))
   || ((d =? 29) && (m =? 5) && (y =? 2023))
   || ((d =? 15) && (m =? 5) && (y =? 2024))
   || ((d =? 6) && (m =? 5) && (y =? 2025))
   || ((d =? 25) && (m =? 5) && (y =? 2026))
   || ((d =? 13) && (m =? 5) && (y =? 2027))
   || ((d =? 2) && (m =? 5) && (y =? 2028))
   || ((d =? 21) && (m =? 5) && (y =? 2029))
   || ((d =? 9) && (m =? 5) && (y =? 2030))
   || ((d =? 28) && (m =? 5) && (y =? 2031))
   || ((d =? 17) && (m =? 5) && (y =? 2032))
   || ((d =? 6) && (m =? 5) && (y =? 2033))
   || ((d =? 25) && (m =? 5) && (y =? 2034))
   || ((d =? 15) && (m =? 5) && (y =? 2035))
   || ((d =? 6) && (m =? 5) && (y =? 2036))
   || ((d =? 22) && (m =? 5) && (y =? 2037))
   || ((d =? 11) && (m =? 5) && (y =? 2038))
   || ((d =? 2) && (m =? 5) && (y =? 2039))
   || ((d =? 18) && (m =? 5) && (y =? 2040))
   || ((d =? 7) && (m =? 5) && (y =? 2041))
   || ((d =? 26) && (m =? 5) && (y =? 2042))
   || ((d =? 18) && (m =? 5) && (y =? 2043))
   || ((d =? 6) && (m =? 5) && (y =? 2044))
   || ((d =? 24) && (m =? 5) && (y =? 2045))
   || ((d =? 14) && (m =? 5) && (y =? 2046))
   || ((d =? 2) && (m =? 5) && (y =? 2047))
   || ((d =? 20) && (m =? 5) && (y =? 2048))
   || ((d =? 10) && (m =? 5) && (y =? 2049))
   || ((d =? 30) && (m =? 5) && (y =? 2050))
   || ((d =? 14) && (m =? 8) && (y =? 2015))
   || ((d =? 17) && (m =? 8) && (y =? 2020))
   || ((d =? 2) && (m =? 10) && (y =? 2023))
   || (((d =? 27)
   || (d =? 28)
   || (d =? 29)) && (m =? 9) && (y =? 2004))
   || (((d =? 17)
   || (d =? 18)
   || (d =? 19)) && (m =? 9) && (y =? 2005))
   || (((d =? 5)
   || (d =? 6)
   || (d =? 7)) && (m =? 10) && (y =? 2006))
   || (((d =? 24)
   || (d =? 25)
   || (d =? 26)) && (m =? 9) && (y =? 2007))
   || (((d =? 13)
   || (d =? 14)
   || (d =? 15)) && (m =? 9) && (y =? 2008))
   || (((d =? 2)
   || (d =? 3)
   || (d =? 4)) && (m =? 10) && (y =? 2009))
   || (((d =? 21)
   || (d =? 22)
   || (d =? 23)) && (m =? 9) && (y =? 2010))
   || (((d =? 12)
   || (d =? 13)) && (m =? 9) && (y =? 2011))
   || ((d =? 1) && (m =? 10) && (y =? 2012))
   || (((d =? 18)
   || (d =? 19)
   || (d =? 20)) && (m =? 9) && (y =? 2013))
   || (((d =? 8)
   || (d =? 9)
   || (d =? 10)) && (m =? 9) && (y =? 2014))
   || (((d =? 28)
   || (d =? 29)) && (m =? 9) && (y =? 2015))
   || (((d =? 14)
   || (d =? 15)
   || (d =? 16)) && (m =? 9) && (y =? 2016))
   || (((3 <=? d) && (d <=? 6)) && (m =? 10) && (y =? 2017))
   || (((23 <=? d) && (d <=? 26)) && (m =? 9) && (y =? 2018))
   || (((d =? 12)
   || (d =? 13)
   || (d =? 14)) && (m =? 9) && (y =? 2019))
   || ((((d =? 30) && (m =? 9))
   || (((d =? 1)
   || (d =? 2)) && (m =? 10))) && (y =? 2020))
   || (((d =? 20)
   || (d =? 21)
   || (d =? 22)) && (m =? 9) && (y =? 2021))
   || (((d =? 9)
   || (d =? 10)
   || (d =? 11)) && (m =? 9) && (y =? 2022))
   || (((9 <=? d) && (d <=? 12)) && (m =? 9) && (y =? 2022))
   || (((d =? 28)
   || (d =? 29)
   || (d =? 30)) && (m =? 9) && (y =? 2023))
   || (((d =? 16)
   || (d =? 17)
   || (d =? 18)) && (m =? 9) && (y =? 2024))
   || (((d =? 6)
   || (d =? 7)
   || (d =? 8)) && (m =? 10) && (y =? 2025))
   || (((d =? 24)
   || (d =? 25)
   || (d =? 26)) && (m =? 9) && (y =? 2026))
   || (((d =? 14)
   || (d =? 15)
   || (d =? 16)) && (m =? 9) && (y =? 2027))
   || (((2 <=? d) && (d <=? 5)) && (m =? 10) && (y =? 2028))
   || (((21 <=? d) && (d <=? 24)) && (m =? 9) && (y =? 2029))
   || (((d =? 11)
   || (d =? 12)
   || (d =? 13)) && (m =? 9) && (y =? 2030))
   || ((((d =? 30) && (m =? 9))
   || (((d =? 1)
   || (d =? 2)) && (m =? 10))) && (y =? 2031))
   || (((d =? 20)
   || (d =? 21)) && (m =? 9) && (y =? 2032))
   || (((d =? 7)
   || (d =? 8)
   || (d =? 9)) && (m =? 9) && (y =? 2033))
   || (((d =? 26)
   || (d =? 27)
   || (d =? 28)) && (m =? 9) && (y =? 2034))
   || (((d =? 17)
   || (d =? 18)) && (m =? 9) && (y =? 2035))
   || (((3 <=? d) && (d <=? 7)) && (m =? 10) && (y =? 2036))
   || (((d =? 23)
   || (d =? 24)
   || (d =? 25)) && (m =? 9) && (y =? 2037))
   || (((d =? 13)
   || (d =? 14)
   || (d =? 15)) && (m =? 9) && (y =? 2038))
   || (((d =? 3)
   || (d =? 4)
   || (d =? 5)) && (m =? 10) && (y =? 2039))
   || (((d =? 20)
   || (d =? 21)
   || (d =? 22)) && (m =? 9) && (y =? 2040))
   || (((d =? 9)
   || (d =? 10)
   || (d =? 11)) && (m =? 9) && (y =? 2041))
   || (((d =? 29)
   || (d =? 30)) && (m =? 9) && (y =? 2042))
   || (((d =? 16)
   || (d =? 17)
   || (d =? 18)) && (m =? 9) && (y =? 2043))
   || (((d =? 4)
   || (d =? 5)
   || (d =? 6)) && (m =? 10) && (y =? 2044))
   || (((d =? 25)
   || (d =? 26)
   || (d =? 27)) && (m =? 9) && (y =? 2045))
   || (((14 <=? d) && (d <=? 17)) && (m =? 9) && (y =? 2046))
   || (((d =? 4)
   || (d =? 5)
   || (d =? 7)) && (m =? 10) && (y =? 2047))
   || (((d =? 21)
   || (d =? 22)
   || (d =? 23)) && (m =? 9) && (y =? 2048))
   || (((10 <=? d) && (d <=? 13)) && (m =? 9) && (y =? 2049))
   || (((((d =? 29)
   || (d =? 30)) && (m =? 9))
   || ((d =? 1) && (m =? 10))) && (y =? 2050))
   || ((d =? 9) && (m =? 10) && (2013 <=? y))
   || ((weekday_eqb w Mon) && ((d =? 10)
   || (d =? 11)) && (m =? 10) && (2020 <? y)))
  then false
  else true.

(* sweden.rs:11-47 Sweden::is_business_day *)
Definition sweden_is_business_day (date : NaiveDate) : M bool :=
  let '(d, w, m, y, dd) := naive_date_to_dkmy date in
  em <- easter_monday y ;;
  if ((is_weekend date)
   || (dd =? em - 3)
   || (dd =? em)
   || (dd =? em + 38)
   || ((dd =? em + 49) && (y <? 2005))
   || ((d =? 1) && (m =? 1))
   || ((d =? 6) && (m =? 1))
   || ((d =? 1) && (m =? 5))
   || ((d =? 6) && (m =? 6) && (2005 <=? y))
   || ((weekday_eqb w Fri) && ((19 <=? d) && (d <=? 25)) && (m =? 6))
   || ((d =? 24) && (m =? 12))
   || ((d =? 25) && (m =? 12))
   || ((d =? 26) && (m =? 12))
   || ((d =? 31) && (m =? 12)))
  then Ret (false)
  else Ret (true).

(* switzerland.rs:11-40 Switzerland::is_business_day *)
Definition switzerland_is_business_day (date : NaiveDate) : M bool :=
  let '(d, _, m, y, dd) := naive_date_to_dkmy date in
  em <- easter_monday y ;;
  if ((is_weekend date)
   || ((d =? 1) && (m =? 1))
   || ((d =? 2) && (m =? 1))
   || (dd =? em - 3)
   || (dd =? em)
   || (dd =? em + 38)
   || (dd =? em + 49)
   || ((d =? 1) && (m =? 5))
   || ((d =? 1) && (m =? 8))
   || ((d =? 25) && (m =? 12))
   || ((d =? 26) && (m =? 12)))
  then Ret (false)
  else Ret (true).

(* taiwan.rs:10-394 Taiwan::is_business_day *)
Definition taiwan_is_business_day (date : NaiveDate) : bool :=
  let '(d, _, m, y, _) := naive_date_to_dkmy date in
  if ((is_weekend date)
   || ((d =? 1) && (m =? 1))
   || ((d =? 28) && (m =? 2))
   || ((d =? 5) && (m =? 4) && (negb (y =? 2008)) && (negb (y =? 2009)) && (negb (y =? 2012)) && (negb (y =? 2017)))
   || ((d =? 1) && (m =? 5))
   || ((d =? 10) && (m =? 10)))
  then false
  else if ((y =? 2002) && (((9 <=? d) && (d <=? 17)) && (m =? 2)))
  then false
  else if ((y =? 2003) && (((31 <=? d) && (m =? 1))
   || ((d <=? 5) && (m =? 2))
   || ((d =? 4) && (m =? 6))
   || ((d =? 11) && (m =? 9))))
  then false
  else if ((y =? 2004) && ((((21 <=? d) && (d <=? 26)) && (m =? 1))
   || ((d =? 22) && (m =? 6))
   || ((d =? 28) && (m =? 9))))
  then false
  else if ((y =? 2005) && ((((6 <=? d) && (d <=? 13)) && (m =? 2))
   || ((d =? 2) && (m =? 5))))
  then false
  else if ((y =? 2006) && (((28 <=? d) && (m =? 1))
   || ((d <=? 5) && (m =? 2))
   || ((d =? 31) && (m =? 5))
   || ((d =? 6) && (m =? 10))))
  then false
  else if ((y =? 2007) && ((((17 <=? d) && (d <=? 25)) && (m =? 2))
   || ((d =? 6) && (m =? 4))
   || ((d =? 18) && (m =? 6))
   || ((d =? 19) && (m =? 6))
   || ((d =? 24) && (m =? 9))
   || ((d =? 25) && (m =? 9))))
  then false
  else if ((y =? 2008) && ((((4 <=? d) && (d <=? 11)) && (m =? 2))
   || ((d =? 4) && (m =? 4))))
  then false
  else if ((y =? 2009) && ((((24 <=? d)
   || (d =? 2)) && (m =? 1))
   || ((d =? 4) && (m =? 4))
   || (((d =? 28)
   || (d =? 29)) && (m =? 5))
   || ((d =? 3) && (m =? 10))))
  then false
  else if ((y =? 2010) && ((((13 <=? d) && (d <=? 21)) && (m =? 1))
   || ((d =? 16) && (m =? 5))
   || ((d =? 22) && (m =? 9))))
  then false
  else if ((y =? 2011) && ((((2 <=? d) && (d <=? 7)) && (m =? 2))
   || ((d =? 4) && (m =? 4))
   || ((d =? 2) && (m =? 5))
   || ((d =? 6) && (m =? 6))
   || ((d =? 12) && (m =? 9))))
  then false
  else if ((y =? 2012) && ((((23 <=? d) && (d <=? 27)) && (m =? 1))
   || ((d =? 27) && (m =? 2))
   || ((d =? 4) && (m =? 4))
   || ((d =? 23) && (m =? 6))
   || ((d =? 30) && (m =? 9))
   || ((d =? 31) && (m =? 12))))
  then false
  else if ((y =? 2013) && ((((10 <=? d) && (d <=? 15)) && (m =? 2))
   || ((d =? 4) && (m =? 4))
   || ((d =? 12) && (m =? 6))
   || (((19 <=? d) && (d <=? 20)) && (m =? 9))))
  then false
  else if ((y =? 2014) && ((((28 <=? d) && (d <=? 30)) && (m =? 1))
   || (((d =? 31) && (m =? 1))
   || ((d <=? 4) && (m =? 2)))
   || ((d =? 4) && (m =? 4))
   || ((d =? 2) && (m =? 6))
   || ((d =? 8) && (m =? 9))))
  then false
  else if ((y =? 2015) && (((d =? 2) && (m =? 1))
   || (((18 <=? d) && (d <=? 23)) && (m =? 2))
   || ((d =? 27) && (m =? 2))
   || ((d =? 3) && (m =? 4))
   || ((d =? 6) && (m =? 4))
   || ((d =? 19) && (m =? 6))
   || ((d =? 28) && (m =? 9))
   || ((d =? 9) && (m =? 10))))
  then false
  else if ((y =? 2016) && ((((d =? 29)
   || ((8 <=? d) && (d <=? 12))) && (m =? 2))
   || ((d =? 4) && (m =? 4))
   || ((d =? 2) && (m =? 5))
   || ((d =? 9) && (m =? 6))
   || ((d =? 10) && (m =? 6))
   || ((d =? 15) && (m =? 9))
   || ((d =? 16) && (m =? 9))))
  then false
  else if ((y =? 2017) && (((d =? 2) && (m =? 1))
   || (((27 <=? d) && (m =? 1))
   || ((d =? 1) && (m =? 2)))
   || ((d =? 27) && (m =? 2))
   || ((d =? 3) && (m =? 4))
   || ((d =? 4) && (m =? 4))
   || ((d =? 29) && (m =? 5))
   || ((d =? 30) && (m =? 5))
   || ((d =? 4) && (m =? 10))
   || ((d =? 9) && (m =? 10))))
  then false
  else if ((y =? 2018) && ((((15 <=? d) && (d <=? 20)) && (m =? 2))
   || ((d =? 4) && (m =? 4))
   || ((d =? 6) && (m =? 4))
   || ((d =? 18) && (m =? 6))
   || ((d =? 24) && (m =? 9))
   || ((d =? 31) && (m =? 12))))
  then false
  else if ((y =? 2019) && ((((4 <=? d) && (d <=? 8)) && (m =? 2))
   || ((d =? 1) && (m =? 3))
   || ((d =? 4) && (m =? 4))
   || ((d =? 7) && (m =? 6))
   || ((d =? 13) && (m =? 9))
   || ((d =? 11) && (m =? 10))))
  then false
  else if ((y =? 2020) && (((((24 <=? d) && (d <=? 29))
   || (d =? 23)) && (m =? 1))
   || ((d =? 2) && (m =? 4))
   || ((d =? 3) && (m =? 4))
   || ((d =? 25) && (m =? 6))
   || ((d =? 26) && (m =? 6))
   || ((d =? 1) && (m =? 10))
   || ((d =? 2) && (m =? 10))
   || ((d =? 9) && (m =? 10))))
  then false
  else if ((y =? 2021) && (((((11 <=? d) && (d <=? 16))
   || (d =? 10)) && (m =? 2))
   || ((d =? 1) && (m =? 3))
   || ((d =? 2) && (m =? 4))
   || ((d =? 30) && (m =? 4))
   || ((d =? 14) && (m =? 6))
   || ((d =? 20) && (m =? 9))
   || ((d =? 21) && (m =? 9))
   || ((d =? 11) && (m =? 10))
   || ((d =? 31) && (m =? 12))))
  then false
  else if ((y =? 2022) && (((d =? 31) && (m =? 1))
   || ((d <=? 4) && (m =? 2))
   || ((d =? 4) && (m =? 4))
   || ((d =? 2) && (m =? 5))
   || ((d =? 3) && (m =? 6))
   || ((d =? 9) && (m =? 9))))
  then false
  else if ((y =? 2023) && (((((25 <=? d) && (d <=? 27))
   || (d =? 20)
   || (d =? 2)
   || ((21 <=? d) && (d <=? 24))) && (m =? 1))
   || ((d =? 27) && (m =? 2))
   || ((d =? 3) && (m =? 4))
   || ((d =? 4) && (m =? 4))
   || ((d =? 22) && (m =? 6))
   || ((d =? 23) && (m =? 6))
   || ((d =? 29) && (m =? 9))
   || ((d =? 9) && (m =? 10))))
  then false
  else if ((y =? 2024) && ((((d =? 28)
   || ((8 <=? d) && (d <=? 14))) && (m =? 2))
   || ((d =? 4) && (m =? 4))
   || ((d =? 10) && (m =? 6))
   || ((d =? 17) && (m =? 9))))
  then false
  else true.

(* target.rs:10-34 Target::is_business_day *)
Definition target_is_business_day (date : NaiveDate) : M bool :=
  let '(d, _, m, y, dd) := naive_date_to_dkmy date in
  em <- easter_monday y ;;
  if ((is_weekend date)
   || ((d =? 1) && (m =? 1))
   || ((dd =? em - 3) && (2000 <=? y))
   || ((dd =? em) && (2000 <=? y))
   || ((d =? 1) && (m =? 5) && (2000 <=? y))
   || ((d =? 25) && (m =? 12))
   || ((d =? 26) && (m =? 12) && (2000 <=? y))
   || ((d =? 31) && (m =? 12) && ((y =? 1998)
   || (y =? 1999)
   || (y =? 2001))))
  then Ret (false)
  else Ret (true).

(* thailand.rs:11-282 Thailand::is_business_day *)
Definition thailand_is_business_day (date : NaiveDate) : M bool :=
  let '(d, w, m, y, _) := naive_date_to_dkmy date in
  _ <- easter_monday y ;;
  if ((is_weekend date)
   || (((d =? 1)
   || ((d =? 3) && (weekday_eqb w Mon))) && (m =? 1))
   || (((d =? 6)
   || (((d =? 7)
   || (d =? 8)) && (weekday_eqb w Mon))) && (m =? 4))
   || (((d =? 13)
   || (d =? 14)
   || (d =? 15)) && (m =? 4))
   || ((d =? 16) && ((weekday_eqb w Mon)
   || (weekday_eqb w Tue)) && (m =? 4))
   || (((d =? 1)
   || (((d =? 2)
   || (d =? 3)) && (weekday_eqb w Mon))) && (m =? 5))
   || (((d =? 28)
   || (((d =? 29)
   || (d =? 30)) && (weekday_eqb w Mon))) && (m =? 7) && (2017 <=? y))
   || (((d =? 12)
   || (((d =? 13)
   || (d =? 14)) && (weekday_eqb w Mon))) && (m =? 8))
   || (((d =? 13)
   || (((d =? 14)
   || (d =? 15)) && (weekday_eqb w Mon))) && (m =? 10) && (2017 <=? y))
   || (((d =? 5)
   || (((d =? 6)
   || (d =? 7)) && (weekday_eqb w Mon))) && (m =? 12))
   || (((d =? 10)
   || (((d =? 11)
   || (d =? 12)) && (weekday_eqb w Mon))) && (m =? 12))
   || ((d =? 31) && (m =? 12))
   || (((d =? 1)
   || (d =? 2)) && (weekday_eqb w Mon) && (m =? 1)))
  then Ret (false)
  else if ((y =? 2000) && (((d =? 21) && (m =? 2))
   || ((d =? 5) && (m =? 5))
   || ((d =? 17) && (m =? 5))
   || ((d =? 17) && (m =? 7))
   || ((d =? 23) && (m =? 10))))
  then Ret (false)
  else if ((y =? 2001) && (((d =? 8) && (m =? 2))
   || ((d =? 7) && (m =? 5))
   || ((d =? 8) && (m =? 5))
   || ((d =? 6) && (m =? 7))
   || ((d =? 23) && (m =? 10))))
  then Ret (false)
  else if ((y =? 2005) && (((d =? 23) && (m =? 2))
   || ((d =? 5) && (m =? 5))
   || ((d =? 23) && (m =? 5))
   || ((d =? 1) && (m =? 7))
   || ((d =? 22) && (m =? 7))
   || ((d =? 24) && (m =? 10))))
  then Ret (false)
  else if ((y =? 2006) && (((d =? 13) && (m =? 2))
   || ((d =? 19) && (m =? 4))
   || ((d =? 5) && (m =? 5))
   || ((d =? 12) && (m =? 5))
   || ((d =? 12) && (m =? 6))
   || ((d =? 13) && (m =? 6))
   || ((d =? 11) && (m =? 7))
   || ((d =? 23) && (m =? 10))))
  then Ret (false)
  else if ((y =? 2007) && (((d =? 5) && (m =? 3))
   || ((d =? 7) && (m =? 5))
   || ((d =? 31) && (m =? 5))
   || ((d =? 30) && (m =? 7))
   || ((d =? 23) && (m =? 10))
   || ((d =? 24) && (m =? 12))))
  then Ret (false)
  else if ((y =? 2008) && (((d =? 21) && (m =? 2))
   || ((d =? 5) && (m =? 5))
   || ((d =? 19) && (m =? 5))
   || ((d =? 1) && (m =? 7))
   || ((d =? 17) && (m =? 7))
   || ((d =? 23) && (m =? 10))))
  then Ret (false)
  else if ((y =? 2009) && (((d =? 2) && (m =? 1))
   || ((d =? 9) && (m =? 2))
   || ((d =? 5) && (m =? 5))
   || ((d =? 8) && (m =? 5))
   || ((d =? 1) && (m =? 7))
   || ((d =? 6) && (m =? 7))
   || ((d =? 7) && (m =? 7))
   || ((d =? 23) && (m =? 10))))
  then Ret (false)
  else if ((y =? 2010) && (((d =? 1) && (m =? 3))
   || ((d =? 5) && (m =? 5))
   || ((d =? 20) && (m =? 5))
   || ((d =? 21) && (m =? 5))
   || ((d =? 28) && (m =? 5))
   || ((d =? 1) && (m =? 7))
   || ((d =? 26) && (m =? 7))
   || ((d =? 13) && (m =? 8))
   || ((d =? 25) && (m =? 10))))
  then Ret (false)
  else if ((y =? 2011) && (((d =? 18) && (m =? 2))
   || ((d =? 5) && (m =? 5))
   || ((d =? 16) && (m =? 5))
   || ((d =? 17) && (m =? 5))
   || ((d =? 1) && (m =? 7))
   || ((d =? 15) && (m =? 7))
   || ((d =? 24) && (m =? 10))))
  then Ret (false)
  else if ((y =? 2012) && (((d =? 3) && (m =? 1))
   || ((d =? 7) && (m =? 3))
   || ((d =? 9) && (m =? 4))
   || ((d =? 7) && (m =? 5))
   || ((d =? 4) && (m =? 6))
   || ((d =? 2) && (m =? 8))
   || ((d =? 23) && (m =? 10))))
  then Ret (false)
  else if ((y =? 2013) && (((d =? 25) && (m =? 2))
   || ((d =? 6) && (m =? 5))
   || ((d =? 24) && (m =? 5))
   || ((d =? 1) && (m =? 7))
   || ((d =? 22) && (m =? 7))
   || ((d =? 23) && (m =? 10))
   || ((d =? 30) && (m =? 12))))
  then Ret (false)
  else if ((y =? 2014) && (((d =? 14) && (m =? 2))
   || ((d =? 5) && (m =? 5))
   || ((d =? 13) && (m =? 5))
   || ((d =? 1) && (m =? 7))
   || ((d =? 11) && (m =? 7))
   || ((d =? 11) && (m =? 8))
   || ((d =? 23) && (m =? 10))))
  then Ret (false)
  else if ((y =? 2015) && (((d =? 2) && (m =? 1))
   || ((d =? 4) && (m =? 3))
   || ((d =? 4) && (m =? 5))
   || ((d =? 5) && (m =? 5))
   || ((d =? 1) && (m =? 6))
   || ((d =? 1) && (m =? 7))
   || ((d =? 30) && (m =? 7))
   || ((d =? 23) && (m =? 10))))
  then Ret (false)
  else if ((y =? 2016) && (((d =? 22) && (m =? 2))
   || ((d =? 5) && (m =? 5))
   || ((d =? 6) && (m =? 5))
   || ((d =? 20) && (m =? 5))
   || ((d =? 1) && (m =? 7))
   || ((d =? 18) && (m =? 7))
   || ((d =? 19) && (m =? 7))
   || ((d =? 24) && (m =? 10))))
  then Ret (false)
  else if ((y =? 2017) && (((d =? 13) && (m =? 2))
   || ((d =? 10) && (m =? 5))
   || ((d =? 10) && (m =? 7))
   || ((d =? 23) && (m =? 10))
   || ((d =? 26) && (m =? 10))))
  then Ret (false)
  else if ((y =? 2018) && (((d =? 1) && (m =? 3))
   || ((d =? 29) && (m =? 5))
   || ((d =? 27) && (m =? 7))
   || ((d =? 23) && (m =? 10))))
  then Ret (false)
  else Ret (true).

(* turkey.rs:11-293 Turkey::is_business_day *)
Definition turkey_is_business_day (date : NaiveDate) : bool :=
  let '(d, _, m, y, _) := naive_date_to_dkmy date in
  if ((is_weekend date)
   || ((d =? 1) && (m =? 1))
   || ((d =? 23) && (m =? 4))
   || ((d =? 1) && (m =? 5))
   || ((d =? 19) && (m =? 5))
   || ((d =? 15) && (m =? 7) && (2017 <=? y))
   || ((d =? 30) && (m =? 8))
   || ((d =? 29) && (m =? 10)))
  then false
  else if (y =? 2004)
  then if (((m =? 2) && (d <=? 4))
   || ((m =? 11) && ((14 <=? d) && (d <=? 16))))
  then false
  else true
  else if (y =? 2005)
  then if (((m =? 1) && ((19 <=? d) && (d <=? 21)))
   || ((m =? 11) && ((2 <=? d) && (d <=? 5))))
  then false
  else true
  else if (y =? 2006)
  then if (((m =? 1) && ((10 <=? d) && (d <=? 13)))
   || ((m =? 10) && ((23 <=? d) && (d <=? 25)))
   || ((m =? 12) && (d =? 31)))
  then false
  else true
  else if (y =? 2007)
  then if (((m =? 1) && (d <=? 3))
   || ((m =? 10) && ((12 <=? d) && (d <=? 14)))
   || ((m =? 12) && ((20 <=? d) && (d <=? 23))))
  then false
  else true
  else if (y =? 2008)
  then if (((m =? 9) && (d =? 30))
   || ((m =? 10) && (d <=? 2))
   || ((m =? 12) && ((8 <=? d) && (d <=? 11))))
  then false
  else true
  else if (y =? 2009)
  then if (((m =? 9) && ((20 <=? d) && (d <=? 22)))
   || ((m =? 11) && ((27 <=? d) && (d <=? 30))))
  then false
  else true
  else if (y =? 2010)
  then if (((m =? 9) && ((9 <=? d) && (d <=? 11)))
   || ((m =? 11) && ((16 <=? d) && (d <=? 19))))
  then false
  else true
  else if (y =? 2011)
  then if (((m =? 10) && (d =? 1))
   || ((m =? 11) && ((9 <=? d) && (d <=? 13))))
  then false
  else true
  else if (y =? 2012)
  then if (((m =? 8) && ((18 <=? d) && (d <=? 21)))
   || ((m =? 10) && ((24 <=? d) && (d <=? 28))))
  then false
  else true
  else if (y =? 2013)
  then if (((m =? 8) && ((7 <=? d) && (d <=? 10)))
   || ((m =? 10) && ((14 <=? d) && (d <=? 18)))
   || ((m =? 10) && (d =? 28)))
  then false
  else true
  else if (y =? 2014)
  then if (((m =? 7) && ((27 <=? d) && (d <=? 30)))
   || ((m =? 10) && ((4 <=? d) && (d <=? 7)))
   || ((m =? 10) && (d =? 29)))
  then false
  else true
  else if (y =? 2015)
  then if (((m =? 7) && ((17 <=? d) && (d <=? 19)))
   || ((m =? 10) && ((24 <=? d) && (d <=? 27))))
  then false
  else true
  else if (y =? 2016)
  then if (((m =? 7) && ((5 <=? d) && (d <=? 7)))
   || ((m =? 9) && ((12 <=? d) && (d <=? 15))))
  then false
  else true
  else if (y =? 2017)
  then if (((m =? 6) && ((25 <=? d) && (d <=? 27)))
   || ((m =? 9) && ((1 <=? d) && (d <=? 4))))
  then false
  else true
  else if (y =? 2018)
  then if (((m =? 6) && ((15 <=? d) && (d <=? 17)))
   || ((m =? 8) && ((21 <=? d) && (d <=? 24))))
  then false
  else true
  else if (y =? 2019)
  then if (((m =? 6) && ((4 <=? d) && (d <=? 6)))
   || ((m =? 8) && ((11 <=? d) && (d <=? 14))))
  then false
  else true
  else if (y =? 2020)
  then if (((m =? 5) && ((24 <=? d) && (d <=? 26)))
   || ((m =? 7) && (d =? 31))
   || ((m =? 8) && ((1 <=? d) && (d <=? 3))))
  then false
  else true
  else if (y =? 2021)
  then if (((m =? 5) && ((13 <=? d) && (d <=? 15)))
   || ((m =? 7) && ((20 <=? d) && (d <=? 23))))
  then false
  else true
  else if (y =? 2022)
  then if (((m =? 5) && ((2 <=? d) && (d <=? 4)))
   || ((m =? 7) && ((9 <=? d) && (d <=? 12))))
  then false
  else true
  else if (y =? 2023)
  then if (((m =? 4) && ((21 <=? d) && (d <=? 23)))
   || ((m =? 6) && ((28 <=? d) && (d <=? 30))))
  then false
  else true
  else if (y =? 2024)
  then if (((m =? 4) && ((10 <=? d) && (d <=? 12)))
   || ((m =? 6) && ((17 <=? d) && (d <=? 19))))
  then false
  else true
  else if (y =? 2025)
  then if (((m =? 3) && (d =? 31))
   || ((m =? 4) && ((1 <=? d) && (d <=? 2)))
   || ((m =? 6) && ((6 <=? d) && (d <=? 9))))
  then false
  else true
  else if (y =? 2026)
  then if (((m =? 3) && ((20 <=? d) && (d <=? 22)))
   || ((m =? 5) && ((26 <=? d) && (d <=? 29))))
  then false
  else true
  else if (y =? 2027)
  then if (((m =? 3) && ((10 <=? d) && (d <=? 12)))
   || ((m =? 5) && ((16 <=? d) && (d <=? 19))))
  then false
  else true
  else if (y =? 2028)
  then if (((m =? 2) && ((27 <=? d) && (d <=? 29)))
   || ((m =? 5) && ((4 <=? d) && (d <=? 7))))
  then false
  else true
  else if (y =? 2029)
  then if (((m =? 2) && ((15 <=? d) && (d <=? 17)))
   || ((m =? 4) && ((23 <=? d) && (d <=? 26))))
  then false
  else true
  else if (y =? 2030)
  then if (((m =? 2) && ((5 <=? d) && (d <=? 7)))
   || ((m =? 4) && ((13 <=? d) && (d <=? 16))))
  then false
  else true
  else if (y =? 2031)
  then if (((m =? 1) && ((25 <=? d) && (d <=? 27)))
   || ((m =? 4) && ((2 <=? d) && (d <=? 5))))
  then false
  else true
  else if (y =? 2032)
  then if (((m =? 1) && ((14 <=? d) && (d <=? 16)))
   || ((m =? 3) && ((21 <=? d) && (d <=? 24))))
  then false
  else true
  else if (y =? 2033)
  then if (((m =? 1) && ((3 <=? d) && (d <=? 5)))
   || ((m =? 12) && (d =? 23))
   || ((m =? 3) && ((11 <=? d) && (d <=? 14))))
  then false
  else true
  else if (y =? 2034)
  then if (((m =? 12) && ((12 <=? d) && (d <=? 14)))
   || ((m =? 2) && (d =? 28))
   || ((m =? 3) && ((1 <=? d) && (d <=? 3))))
  then false
  else true
  else true.

(* ukraine.rs:11-43 Ukraine::is_business_day *)
Definition ukraine_is_business_day (date : NaiveDate) : M bool :=
  let '(d, w, m, y, dd) := naive_date_to_dkmy date in
  em <- easter_monday y ;;
  if ((is_weekend date)
   || (((d =? 1)
   || (((d =? 2)
   || (d =? 3)) && (weekday_eqb w Mon))) && (m =? 1))
   || (((d =? 7)
   || (((d =? 8)
   || (d =? 9)) && (weekday_eqb w Mon))) && (m =? 1))
   || (((d =? 8)
   || (((d =? 9)
   || (d =? 10)) && (weekday_eqb w Mon))) && (m =? 3))
   || (dd =? em)
   || (dd =? em + 49)
   || (((d =? 1)
   || (d =? 2)
   || ((d =? 3) && (weekday_eqb w Mon))) && (m =? 5))
   || (((d =? 9)
   || (((d =? 10)
   || (d =? 11)) && (weekday_eqb w Mon))) && (m =? 5))
   || ((d =? 28) && (m =? 6))
   || ((d =? 24) && (m =? 8))
   || ((d =? 14) && (m =? 10) && (2015 <=? y)))
  then Ret (false)
  else Ret (true).

(* unitedkingdom.rs:7-11 enum UnitedKingdomMarket *)
Inductive UnitedKingdomMarket := UnitedKingdomMarket_Settlement | UnitedKingdomMarket_Exchange | UnitedKingdomMarket_Metals.

(* unitedkingdom.rs:19-47 UnitedKingdom::special_bank_holiday *)
Definition unitedkingdom_special_bank_holiday (date : NaiveDate) : bool :=
  let '(d, w, m, y, _) := naive_date_to_dkmy date in
  if (((d <=? 7) && (weekday_eqb w Mon) && (m =? 5) && (negb (y =? 1995)) && (negb (y =? 2020)))
   || ((d =? 8) && (m =? 5) && ((y =? 1995)
   || (y =? 2020)))
   || ((25 <=? d) && (weekday_eqb w Mon) && (m =? 5) && (negb (y =? 2002)) && (negb (y =? 2012)) && (negb (y =? 2022)))
   || (((d =? 3)
   || (d =? 4)) && (m =? 6) && (y =? 2002))
   || (((d =? 4)
   || (d =? 5)) && (m =? 6) && (y =? 2012))
   || (((d =? 2)
   || (d =? 3)) && (m =? 6) && (y =? 2022))
   || ((25 <=? d) && (weekday_eqb w Mon) && (m =? 8))
   || ((d =? 29) && (m =? 4) && (y =? 2011))
   || ((d =? 19) && (m =? 9) && (y =? 2022))
   || ((d =? 8) && (m =? 5) && (y =? 2023)))
  then true
  else false.

(* unitedkingdom.rs:49-71 UnitedKingdom::settlement_is_business_day *)
Definition unitedkingdom_settlement_is_business_day (date : NaiveDate) : M bool :=
  let '(d, w, m, y, dd) := naive_date_to_dkmy date in
  em <- easter_monday y ;;
  if ((is_weekend date)
   || (((d =? 1)
   || (((d =? 2)
   || (d =? 3)) && (weekday_eqb w Mon))) && (m =? 1))
   || (dd =? em - 3)
   || (dd =? em)
   || (unitedkingdom_special_bank_holiday date)
   || (((d =? 25)
   || ((d =? 27) && ((weekday_eqb w Mon)
   || (weekday_eqb w Tue)))) && (m =? 12))
   || (((d =? 26)
   || ((d =? 28) && ((weekday_eqb w Mon)
   || (weekday_eqb w Tue)))) && (m =? 12))
   || ((d =? 31) && (m =? 12) && (y =? 1999)))
  then Ret (false)
  else Ret (true).

(* unitedkingdom.rs:72-74 UnitedKingdom::exchange_is_business_day *)
Definition unitedkingdom_exchange_is_business_day (date : NaiveDate) : M bool :=
  unitedkingdom_settlement_is_business_day date.

(* unitedkingdom.rs:75-77 UnitedKingdom::metals_is_business_day *)
Definition unitedkingdom_metals_is_business_day (date : NaiveDate) : M bool :=
  unitedkingdom_settlement_is_business_day date.

(* unitedkingdom.rs:81-88 UnitedKingdom::is_business_day *)
Definition unitedkingdom_is_business_day (market : option UnitedKingdomMarket) (date : NaiveDate) : M bool :=
  match market with
  | Some UnitedKingdomMarket_Settlement => unitedkingdom_settlement_is_business_day date
  | Some UnitedKingdomMarket_Exchange => unitedkingdom_exchange_is_business_day date
  | Some UnitedKingdomMarket_Metals => unitedkingdom_metals_is_business_day date
  | None => unitedkingdom_settlement_is_business_day date
  end.

(* unitedstates.rs:7-15 enum UnitedStatesMarket *)
Inductive UnitedStatesMarket := UnitedStatesMarket_Settlement | UnitedStatesMarket_Libor | UnitedStatesMarket_NYSE | UnitedStatesMarket_GovernmentBond | UnitedStatesMarket_SOFR | UnitedStatesMarket_NERC | UnitedStatesMarket_FederalReserve.

(* unitedstates.rs:23-29 UnitedStates::is_washington_birthday *)
Definition unitedstates_is_washington_birthday (date : NaiveDate) : bool :=
  let '(d, w, m, y, _) := naive_date_to_dkmy date in
  (((1971 <=? y) && (((15 <=? d) && (d <=? 21)) && (weekday_eqb w Mon) && (m =? 2)))
   || ((y <? 1971) && ((d =? 22)
   || ((d =? 23) && (weekday_eqb w Mon))
   || ((d =? 21) && (weekday_eqb w Fri))) && (m =? 2))).

(* unitedstates.rs:31-37 UnitedStates::is_memorial_day *)
Definition unitedstates_is_memorial_day (date : NaiveDate) : bool :=
  let '(d, w, m, y, _) := naive_date_to_dkmy date in
  (((1971 <=? y) && ((25 <=? d) && (weekday_eqb w Mon) && (m =? 5)))
   || ((y <? 1971) && (((d =? 30)
   || ((d =? 31) && (weekday_eqb w Mon))
   || ((d =? 29) && (weekday_eqb w Fri))) && (m =? 5)))).

(* unitedstates.rs:39-42 UnitedStates::is_labor_day *)
Definition unitedstates_is_labor_day (date : NaiveDate) : bool :=
  let '(d, w, m, _, _) := naive_date_to_dkmy date in
  ((d <=? 7) && (weekday_eqb w Mon) && (m =? 9)).

(* unitedstates.rs:44-47 UnitedStates::is_columbus_day *)
Definition unitedstates_is_columbus_day (date : NaiveDate) : bool :=
  let '(d, w, m, y, _) := naive_date_to_dkmy date in
  (((8 <=? d) && (d <=? 14)) && (weekday_eqb w Mon) && (m =? 10) && (1971 <=? y)).

(* unitedstates.rs:49-57 UnitedStates::is_veterans_day *)
Definition unitedstates_is_veterans_day (date : NaiveDate) : bool :=
  let '(d, w, m, y, _) := naive_date_to_dkmy date in
  ((((y <=? 1970)
   || (1978 <=? y)) && (((d =? 11)
   || ((d =? 12) && (weekday_eqb w Mon))
   || ((d =? 10) && (weekday_eqb w Fri))) && (m =? 11)))
   || ((1970 <? y) && (y <? 1978) && (((22 <=? d) && (d <=? 28)) && (weekday_eqb w Mon) && (m =? 10)))).

(* unitedstates.rs:59-65 UnitedStates::is_veterans_day_no_saturday *)
Definition unitedstates_is_veterans_day_no_saturday (date : NaiveDate) : bool :=
  let '(d, w, m, y, _) := naive_date_to_dkmy date in
  ((((y <=? 1970)
   || (1978 <=? y)) && (((d =? 11)
   || ((d =? 12) && (weekday_eqb w Mon))) && (m =? 11)))
   || ((1970 <? y) && (y <? 1978) && (((22 <=? d) && (d <=? 28)) && (weekday_eqb w Mon) && (m =? 10)))).

(* unitedstates.rs:67-72 UnitedStates::is_juneteenth *)
Definition unitedstates_is_juneteenth (date : NaiveDate) : bool :=
  let '(d, w, m, y, _) := naive_date_to_dkmy date in
  (((d =? 19)
   || ((d =? 20) && (weekday_eqb w Mon))
   || ((d =? 18) && (weekday_eqb w Fri))) && (m =? 6) && (2022 <=? y)).

(* unitedstates.rs:74-107 UnitedStates::settlement_is_business_day *)
Definition unitedstates_settlement_is_business_day (date : NaiveDate) : bool :=
  let '(d, w, m, y, _) := naive_date_to_dkmy date in
  if ((is_weekend date)
   || (((d =? 1)
   || ((d =? 2) && (weekday_eqb w Mon))) && (m =? 1))
   || ((d =? 31) && (weekday_eqb w Fri) && (m =? 12))
   || (((15 <=? d) && (d <=? 21)) && (weekday_eqb w Mon) && (m =? 1) && (1983 <=? y))
   || (unitedstates_is_washington_birthday date)
   || (unitedstates_is_memorial_day date)
   || (unitedstates_is_juneteenth date)
   || (((d =? 4)
   || ((d =? 5) && (weekday_eqb w Mon))
   || ((d =? 3) && (weekday_eqb w Fri))) && (m =? 7))
   || (unitedstates_is_labor_day date)
   || (unitedstates_is_columbus_day date)
   || (unitedstates_is_veterans_day date)
   || (((22 <=? d) && (d <=? 28)) && (weekday_eqb w Thu) && (m =? 11))
   || (((d =? 25)
   || ((d =? 26) && (weekday_eqb w Mon))
   || ((d =? 24) && (weekday_eqb w Fri))) && (m =? 12)))
  then false
  else true.

(* unitedstates.rs:109-115 UnitedStates::libor_is_business_day *)
Definition unitedstates_libor_is_business_day (date : NaiveDate) : bool :=
  let '(d, w, m, y, _) := naive_date_to_dkmy date in
  if ((((d =? 5) && (weekday_eqb w Mon))
   || ((d =? 3) && (weekday_eqb w Fri))) && (m =? 7) && (2015 <=? y))
  then true
  else (unitedstates_settlement_is_business_day date).

(* unitedstates.rs:117-203 UnitedStates::nyse_is_business_day *)
Definition unitedstates_nyse_is_business_day (date : NaiveDate) : M bool :=
  let '(d, w, m, y, dd) := naive_date_to_dkmy date in
  em <- easter_monday y ;;
  if ((is_weekend date)
   || (((d =? 1)
   || ((d =? 2) && (weekday_eqb w Mon))) && (m =? 1))
   || (unitedstates_is_washington_birthday date)
   || (dd =? em - 3)
   || (unitedstates_is_memorial_day date)
   || (unitedstates_is_juneteenth date)
   || (((d =? 4)
   || ((d =? 5) && (weekday_eqb w Mon))
   || ((d =? 3) && (weekday_eqb w Fri))) && (m =? 7))
   || (unitedstates_is_labor_day date)
   || (((22 <=? d) && (d <=? 28)) && (weekday_eqb w Thu) && (m =? 11))
   || (((d =? 25)
   || ((d =? 26) && (weekday_eqb w Mon))
   || ((d =? 24) && (weekday_eqb w Fri))) && (m =? 12)))
  then Ret (false)
  else if ((1998 <=? y) && ((15 <=? d) && (d <=? 21)) && (weekday_eqb w Mon) && (m =? 1))
  then Ret (false)
  else if (((y <=? 1968)
   || ((y <=? 1980) && (Z.rem y 4 =? 0))) && (m =? 11) && (d <=? 7) && (weekday_eqb w Tue))
  then Ret (false)
  else if (((y =? 2018) && (m =? 12) && (d =? 5))
   || ((y =? 2012) && (m =? 10) && ((d =? 29)
   || (d =? 30)))
   || ((y =? 2007) && (m =? 1) && (d =? 2))
   || ((y =? 2004) && (m =? 6) && (d =? 11))
   || ((y =? 2001) && (m =? 9) && ((11 <=? d) && (d <=? 14)))
   || ((y =? 1994) && (m =? 4) && (d =? 27))
   || ((y =? 1985) && (m =? 9) && (d =? 27))
   || ((y =? 1977) && (m =? 7) && (d =? 14))
   || ((y =? 1973) && (m =? 1) && (d =? 25))
   || ((y =? 1972) && (m =? 12) && (d =? 28))
   || ((y =? 1969) && (m =? 7) && (d =? 21))
   || ((y =? 1969) && (m =? 3) && (d =? 31))
   || ((y =? 1969) && (m =? 2) && (d =? 10))
   || ((y =? 1968) && (m =? 7) && (d =? 5))
   || ((y =? 1968) && (163 <=? dd) && (weekday_eqb w Wed))
   || ((y =? 1968) && (m =? 4) && (d =? 9))
   || ((y =? 1963) && (m =? 11) && (d =? 25))
   || ((y =? 1961) && (m =? 5) && (d =? 29))
   || ((y =? 1958) && (m =? 12) && (d =? 26))
   || (((y =? 1954)
   || (y =? 1956)
   || (y =? 1965)) && (m =? 12) && (d =? 24)))
  then Ret (false)
  else Ret (true).

(* unitedstates.rs:205-252 UnitedStates::government_bond_is_business_day *)
Definition unitedstates_government_bond_is_business_day (date : NaiveDate) : M bool :=
  let '(d, w, m, y, dd) := naive_date_to_dkmy date in
  em <- easter_monday y ;;
  if ((is_weekend date)
   || (((d =? 1)
   || ((d =? 2) && (weekday_eqb w Mon))) && (m =? 1))
   || (((15 <=? d) && (d <=? 21)) && (weekday_eqb w Mon) && (m =? 1) && (1983 <=? y))
   || (unitedstates_is_washington_birthday date)
   || ((dd =? em - 3) && (negb (y =? 2015)) && (negb (y =? 2021)) && (negb (y =? 2023)))
   || (unitedstates_is_memorial_day date)
   || (unitedstates_is_juneteenth date)
   || (((d =? 4)
   || ((d =? 5) && (weekday_eqb w Mon))
   || ((d =? 3) && (weekday_eqb w Fri))) && (m =? 7))
   || (unitedstates_is_labor_day date)
   || (unitedstates_is_columbus_day date)
   || (unitedstates_is_veterans_day_no_saturday date)
   || (((22 <=? d) && (d <=? 28)) && (weekday_eqb w Thu) && (m =? 11))
   || (((d =? 25)
   || ((d =? 26) && (weekday_eqb w Mon))
   || ((d =? 24) && (weekday_eqb w Fri))) && (m =? 12)))
  then Ret (false)
  else if (((y =? 2018) && (m =? 12) && (d =? 5))
   || ((y =? 2012) && (m =? 10) && (d =? 30))
   || ((y =? 2004) && (m =? 6) && (d =? 11)))
  then Ret (false)
  else Ret (true).

(* unitedstates.rs:254-261 UnitedStates::sofr_is_business_day *)
Definition unitedstates_sofr_is_business_day (date : NaiveDate) : M bool :=
  if (date_eqb date (mkDate 2023 4 7))
  then Ret (false)
  else unitedstates_government_bond_is_business_day date.

(* unitedstates.rs:263-283 UnitedStates::nerc_is_business_day *)
Definition unitedstates_nerc_is_business_day (date : NaiveDate) : bool :=
  let '(d, w, m, _, _) := naive_date_to_dkmy date in
  if ((is_weekend date)
   || (((d =? 1)
   || ((d =? 2) && (weekday_eqb w Mon))) && (m =? 1))
   || (unitedstates_is_memorial_day date)
   || (((d =? 4)
   || ((d =? 5) && (weekday_eqb w Mon))) && (m =? 7))
   || (unitedstates_is_labor_day date)
   || (((22 <=? d) && (d <=? 28)) && (weekday_eqb w Thu) && (m =? 11))
   || (((d =? 25)
   || ((d =? 26) && (weekday_eqb w Mon))) && (m =? 12)))
  then false
  else true.

(* unitedstates.rs:285-316 UnitedStates::federal_reserve_is_holiday *)
Definition unitedstates_federal_reserve_is_holiday (date : NaiveDate) : bool :=
  let '(d, w, m, y, _) := naive_date_to_dkmy date in
  if ((is_weekend date)
   || (((d =? 1)
   || ((d =? 2) && (weekday_eqb w Mon))) && (m =? 1))
   || (((15 <=? d) && (d <=? 21)) && (weekday_eqb w Mon) && (m =? 1) && (1983 <=? y))
   || (unitedstates_is_washington_birthday date)
   || (unitedstates_is_memorial_day date)
   || (unitedstates_is_juneteenth date)
   || (((d =? 4)
   || ((d =? 5) && (weekday_eqb w Mon))) && (m =? 7))
   || (unitedstates_is_labor_day date)
   || (unitedstates_is_columbus_day date)
   || (unitedstates_is_veterans_day_no_saturday date)
   || (((22 <=? d) && (d <=? 28)) && (weekday_eqb w Thu) && (m =? 11))
   || (((d =? 25)
   || ((d =? 26) && (weekday_eqb w Mon))) && (m =? 12)))
  then false
  else true.

(* unitedstates.rs:320-331 UnitedStates::is_business_day *)
Definition unitedstates_is_business_day (market : option UnitedStatesMarket) (date : NaiveDate) : M bool :=
  match market with
  | Some UnitedStatesMarket_Settlement => Ret ((unitedstates_settlement_is_business_day date))
  | Some UnitedStatesMarket_Libor => Ret ((unitedstates_libor_is_business_day date))
  | Some UnitedStatesMarket_NYSE => unitedstates_nyse_is_business_day date
  | Some UnitedStatesMarket_GovernmentBond => unitedstates_government_bond_is_business_day date
  | Some UnitedStatesMarket_SOFR => unitedstates_sofr_is_business_day date
  | Some UnitedStatesMarket_NERC => Ret ((unitedstates_nerc_is_business_day date))
  | Some UnitedStatesMarket_FederalReserve => Ret ((unitedstates_federal_reserve_is_holiday date))
  | None => Ret ((unitedstates_settlement_is_business_day date))
  end.

(* weekendsonly.rs:10-12 WeekendsOnly::is_business_day *)
Definition weekendsonly_is_business_day (date : NaiveDate) : bool :=
  negb (is_weekend date).

(* One name per calendar type of lib.rs:69-151 other than jointcalendar, with its market field. *)
Inductive Country :=
| Argentina
| Austria (market : option AustriaMarket)
| Australia (market : option AustraliaMarket)
| Botswana
| Brazil (market : option BrazilMarket)
| Canada (market : option CanadaMarket)
| Chile
| China
| CzechRepublic
| Denmark
| Finland
| France (market : option FranceMarket)
| Germany (market : option GermanyMarket)
| HongKong
| Hungary
| Iceland
| India
| Indonesia
| Israel
| Italy (market : option ItalyMarket)
| Japan
| Mexico
| NewZealand
| Norway
| Poland
| Romania
| Russia (market : option RussiaMarket)
| Singapore
| Slovakia
| SouthAfrica
| SouthKorea
| Sweden
| Switzerland
| Taiwan
| Target
| Thailand
| Turkey
| Ukraine
| UnitedKingdom (market : option UnitedKingdomMarket)
| UnitedStates (market : option UnitedStatesMarket)
| WeekendsOnly.

(* impl Calendar for each of them: the is_business_day functions above (lib.rs:195). *)
Definition country_cal (c : Country) : cal :=
  match c with
  | Argentina => argentina_is_business_day
  | Austria market => austria_is_business_day market
  | Australia market => australia_is_business_day market
  | Botswana => botswana_is_business_day
  | Brazil market => brazil_is_business_day market
  | Canada market => canada_is_business_day market
  | Chile => chile_is_business_day
  | China => pure_cal china_is_business_day
  | CzechRepublic => czechrepublic_is_business_day
  | Denmark => denmark_is_business_day
  | Finland => finland_is_business_day
  | France market => france_is_business_day market
  | Germany market => germany_is_business_day market
  | HongKong => hongkong_is_business_day
  | Hungary => hungary_is_business_day
  | Iceland => iceland_is_business_day
  | India => india_is_business_day
  | Indonesia => indonesia_is_business_day
  | Israel => pure_cal israel_is_business_day
  | Italy market => italy_is_business_day market
  | Japan => pure_cal japan_is_business_day
  | Mexico => mexico_is_business_day
  | NewZealand => newzealand_is_business_day
  | Norway => norway_is_business_day
  | Poland => poland_is_business_day
  | Romania => romania_is_business_day
  | Russia market => pure_cal (russia_is_business_day market)
  | Singapore => singapore_is_business_day
  | Slovakia => slovakia_is_business_day
  | SouthAfrica => southafrica_is_business_day
  | SouthKorea => pure_cal southkorea_is_business_day
  | Sweden => sweden_is_business_day
  | Switzerland => switzerland_is_business_day
  | Taiwan => pure_cal taiwan_is_business_day
  | Target => target_is_business_day
  | Thailand => thailand_is_business_day
  | Turkey => pure_cal turkey_is_business_day
  | Ukraine => ukraine_is_business_day
  | UnitedKingdom market => unitedkingdom_is_business_day market
  | UnitedStates market => unitedstates_is_business_day market
  | WeekendsOnly => pure_cal weekendsonly_is_business_day
  end.
