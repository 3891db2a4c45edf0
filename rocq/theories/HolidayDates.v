(* Generated by tools/gen_holiday_dates.py.  For each calendar whose holidays are announced year by
   year: its regular rules, and the single dates on which it closes besides.  The dates are read off the Rust text by a second reader, not off Calendars.v. *)
From Coq Require Import ZArith Bool List.
From Verif Require Import Base Chrono HolidayRules.
Import ListNotations.
Local Open Scope Z_scope.

(** Single dates of a year, given by month and days. *)
Definition dates (y : Z) (l : list (Z * list Z)) : list rule :=
  flat_map (fun '(m, ds) => map (fun d => InYears [y] (Fixed m d)) ds) l.

Definition china_regular : list rule :=
  [Fixed 1 1; Until 2008 (Fixed 4 4); Until 2007 (Fixed 5 1); Until 2007 (Fixed 5 2); Until 2007 (Fixed 5 3);
   Until 2007 (Fixed 5 4); Until 2007 (Fixed 5 5); Until 2007 (Fixed 5 6); Until 2007 (Fixed 5 7);
   Until 2008 (Fixed 6 9); Until 2008 (Fixed 9 15); Until 2007 (Fixed 10 1); Until 2007 (Fixed 10 2);
   Until 2007 (Fixed 10 3); Until 2007 (Fixed 10 4); Until 2007 (Fixed 10 5); Until 2007 (Fixed 10 6);
   Until 2007 (Fixed 10 7)].
Definition china_listed : list rule :=
  dates 2004 [(1, [19; 20; 21; 22; 23; 24; 25; 26; 27; 28])]
  ++ dates 2005 [(1, [3]); (2, [7; 8; 9; 10; 11; 12; 13; 14; 15])]
  ++ dates 2006 [(1, [2; 3; 26; 27; 28; 29; 30; 31]); (2, [1; 2; 3])]
  ++ dates 2007 [(1, [2; 3]); (2, [17; 18; 19; 20; 21; 22; 23; 24; 25]); (12, [31])]
  ++ dates 2008 [(2, [6; 7; 8; 9; 10; 11; 12]); (5, [1; 2]); (9, [29; 30]); (10, [1; 2; 3])]
  ++ dates 2009 [(1, [2; 26; 27; 28; 29; 30]); (4, [6]); (5, [1; 28; 29]); (10, [1; 2; 3; 4; 5; 6; 7; 8])]
  ++ dates 2010 [(2, [15; 16; 17; 18; 19]); (4, [5]); (5, [3]); (6, [14; 15; 16]); (9, [22; 23; 24]);
       (10, [1; 2; 3; 4; 5; 6; 7])]
  ++ dates 2011 [(1, [3]); (2, [2; 3; 4; 5; 6; 7; 8]); (4, [3; 4; 5]); (5, [2]); (6, [4; 5; 6]);
       (9, [10; 11; 12]); (10, [1; 2; 3; 4; 5; 6; 7])]
  ++ dates 2012 [(1, [2; 3; 23; 24; 25; 26; 27; 28]); (4, [2; 3; 4; 30]); (5, [1]); (6, [22; 23; 24]);
       (9, [30]); (10, [1; 2; 3; 4; 5; 6; 7])]
  ++ dates 2013 [(1, [2; 3]); (2, [11; 12; 13; 14; 15]); (4, [4; 5; 29; 30]); (5, [1]); (6, [10; 11; 12]);
       (9, [19; 20]); (10, [1; 2; 3; 4; 5; 6; 7])]
  ++ dates 2014 [(1, [31]); (2, [1; 2; 3; 4; 5; 6]); (4, [7]); (5, [1; 2; 3]); (6, [2]); (9, [8]);
       (10, [1; 2; 3; 4; 5; 6; 7])]
  ++ dates 2015 [(1, [2; 3]); (2, [18; 19; 20; 21; 22; 23; 24]); (4, [5; 6]); (5, [1]); (6, [22]);
       (9, [3; 4; 27]); (10, [1; 2; 3; 4; 5; 6; 7])]
  ++ dates 2016 [(2, [8; 9; 10; 11; 12]); (4, [4]); (5, [1; 2]); (6, [9; 10]); (9, [15; 16]);
       (10, [3; 4; 5; 6; 7])]
  ++ dates 2017 [(1, [2; 27; 28; 29; 30; 31]); (2, [1; 2]); (4, [3; 4]); (5, [1; 29; 30]);
       (10, [2; 3; 4; 5; 6])]
  ++ dates 2018 [(2, [15; 16; 17; 18; 19; 20; 21]); (4, [5; 6; 30]); (5, [1]); (6, [18]); (9, [24]);
       (10, [1; 2; 3; 4; 5]); (12, [31])]
  ++ dates 2019 [(2, [4; 5; 6; 7; 8]); (4, [5]); (5, [1; 2; 3]); (6, [7]); (9, [13]);
       (10, [1; 2; 3; 4; 5; 6; 7])]
  ++ dates 2020 [(1, [24; 27; 28; 29; 30; 31]); (4, [6]); (5, [1; 4; 5]); (6, [25; 26]);
       (10, [1; 2; 5; 6; 7; 8])]
  ++ dates 2021 [(2, [11; 12; 15; 16; 17]); (4, [5]); (5, [3; 4; 5]); (6, [14]); (9, [20; 21]);
       (10, [1; 4; 5; 6; 7])]
  ++ dates 2022 [(1, [3; 31]); (2, [1; 2; 3; 4]); (4, [4; 5]); (5, [2; 3; 4]); (6, [3]); (9, [12]);
       (10, [3; 4; 5; 6; 7])]
  ++ dates 2023 [(1, [2; 23; 24; 25; 26; 27]); (4, [5]); (5, [1; 2; 3]); (6, [22; 23]); (9, [29]);
       (10, [2; 3; 4; 5; 6])].
Definition china_rules : list rule := china_regular ++ china_listed.

Definition hongkong_regular : list rule :=
  [Fixed 1 1; Moved Sun 1 1 1; Western (-2); Western 1; Fixed 5 1; Moved Sun 1 5 1; Fixed 7 1; Moved Sun 1 7 1;
   Fixed 10 1; Moved Sun 1 10 1; Fixed 12 25; Fixed 12 26].
Definition hongkong_listed : list rule :=
  dates 2004 [(1, [22; 23; 24]); (4, [5]); (5, [26]); (6, [22]); (9, [29]); (10, [22])]
  ++ dates 2005 [(2, [9; 10; 11]); (4, [5]); (5, [16]); (6, [11]); (9, [19]); (10, [11])]
  ++ dates 2006 [(1, [28; 29; 30; 31]); (4, [5]); (5, [5; 31]); (10, [7; 30])]
  ++ dates 2007 [(2, [17; 18; 19; 20]); (4, [5]); (5, [24]); (6, [19]); (9, [26]); (10, [19])]
  ++ dates 2008 [(2, [7; 8; 9]); (4, [4]); (5, [12]); (6, [9]); (9, [15]); (10, [7])]
  ++ dates 2009 [(1, [26; 27; 28]); (4, [4]); (5, [2; 28]); (10, [3; 26])]
  ++ dates 2010 [(2, [15; 16]); (4, [6]); (5, [21]); (6, [16]); (9, [23])]
  ++ dates 2011 [(2, [3; 4]); (4, [5]); (5, [10]); (6, [6]); (9, [13]); (10, [5]); (12, [27])]
  ++ dates 2012 [(1, [23; 24; 25]); (4, [4]); (5, [10]); (10, [23])]
  ++ dates 2013 [(2, [11; 12; 13]); (4, [4]); (5, [17]); (6, [12]); (9, [20]); (10, [14])]
  ++ dates 2014 [(1, [31]); (2, [1; 2; 3]); (5, [6]); (6, [2]); (9, [9]); (10, [2])]
  ++ dates 2015 [(2, [19; 20]); (4, [7]); (5, [25]); (6, [20]); (9, [3; 28]); (10, [21])]
  ++ dates 2016 [(2, [8; 9; 10]); (4, [4]); (6, [9]); (9, [16]); (10, [10]); (12, [27])]
  ++ dates 2017 [(1, [30; 31]); (4, [4]); (5, [3; 30]); (10, [5])]
  ++ dates 2018 [(2, [16; 19]); (4, [5]); (5, [22]); (6, [18]); (9, [25]); (10, [17])]
  ++ dates 2019 [(2, [5; 6; 7]); (4, [5]); (6, [7]); (10, [7])]
  ++ dates 2020 [(1, [27; 28]); (4, [4; 30]); (6, [25]); (10, [2; 26])]
  ++ dates 2021 [(2, [12; 15]); (4, [5]); (5, [19]); (6, [14]); (9, [22]); (10, [14])]
  ++ dates 2022 [(2, [1; 2; 3]); (4, [5]); (5, [9]); (6, [3]); (9, [12]); (10, [4])]
  ++ dates 2023 [(1, [23; 24; 25]); (4, [5]); (5, [26]); (6, [22]); (10, [23])]
  ++ dates 2024 [(2, [12; 13]); (4, [4]); (5, [15]); (6, [10]); (9, [18]); (10, [11])].
Definition hongkong_rules : list rule := hongkong_regular ++ hongkong_listed.

Definition india_regular : list rule :=
  [Fixed 1 26; Western (-2); Fixed 4 14; Fixed 5 1; Fixed 8 15; Fixed 10 2; Fixed 12 25].
Definition india_listed : list rule :=
  dates 2005 [(1, [21]); (9, [7]); (10, [12]); (11, [1; 3; 15])]
  ++ dates 2006 [(1, [11]); (2, [9]); (3, [15]); (4, [6; 11]); (10, [24; 25])]
  ++ dates 2007 [(1, [1; 30]); (2, [16]); (3, [27]); (5, [2]); (11, [9]); (12, [21])]
  ++ dates 2008 [(3, [6; 20]); (4, [18]); (5, [19]); (9, [3]); (10, [9; 28; 30]); (11, [13]); (12, [9])]
  ++ dates 2009 [(1, [8]); (2, [23]); (3, [10; 11]); (4, [3; 7]); (9, [21; 28]); (10, [19]); (11, [2]);
       (12, [28])]
  ++ dates 2010 [(1, [1]); (2, [12]); (3, [1; 24]); (9, [10]); (11, [5; 17]); (12, [17])]
  ++ dates 2011 [(3, [2]); (4, [12]); (8, [31]); (9, [1]); (10, [6; 26; 27]); (11, [7; 10]); (12, [6])]
  ++ dates 2012 [(2, [20]); (3, [8]); (4, [5]); (8, [20]); (9, [19]); (10, [24]); (11, [14; 28])]
  ++ dates 2013 [(3, [27]); (4, [19; 24]); (8, [9]); (9, [9]); (10, [16]); (11, [4; 14])]
  ++ dates 2014 [(2, [27]); (3, [17]); (4, [8]); (7, [29]); (8, [29]); (10, [3; 6; 24]); (11, [4; 6])]
  ++ dates 2019 [(2, [19]); (3, [4; 21]); (4, [1; 17; 29]); (6, [5]); (8, [12]); (9, [2; 10]);
       (10, [8; 21; 28]); (11, [12])]
  ++ dates 2020 [(2, [19; 21]); (3, [10; 25]); (4, [1; 2; 6]); (5, [7; 25]); (10, [30]); (11, [16; 30])]
  ++ dates 2021 [(2, [19]); (3, [11; 29]); (4, [13; 21]); (5, [26]); (7, [21]); (9, [10]); (10, [15; 19]);
       (11, [5; 19])]
  ++ dates 2022 [(3, [1; 18]); (5, [3; 16]); (8, [31]); (10, [5; 26]); (11, [8])]
  ++ dates 2023 [(3, [8; 22; 30]); (4, [4]); (5, [5]); (6, [28]); (9, [19; 28]); (10, [24]); (11, [14; 27])]
  ++ dates 2024 [(2, [19]); (3, [8; 25]); (4, [9; 17; 21]); (5, [23]); (6, [17]); (8, [27]); (9, [16]);
       (11, [15])]
  ++ dates 2025 [(2, [19; 26]); (3, [14; 31]); (4, [10]); (5, [12]); (9, [5]); (10, [22]); (11, [5])].
Definition india_rules : list rule := india_regular ++ india_listed.

Definition indonesia_regular : list rule :=
  [Fixed 1 1; Western (-2); Western 39; Fixed 8 17; Fixed 12 25].
Definition indonesia_listed : list rule :=
  dates 2005 [(1, [21]); (2, [9; 10]); (3, [11]); (4, [22]); (5, [24]); (9, [2]); (11, [2; 3; 4; 7; 8]);
       (12, [26])]
  ++ dates 2006 [(1, [10; 31]); (3, [30]); (4, [10]); (8, [21]); (10, [23; 24; 25; 26; 27])]
  ++ dates 2007 [(3, [19]); (5, [18]); (6, [1]); (10, [12; 15; 16; 21; 24]); (12, [20])]
  ++ dates 2008 [(1, [10; 11]); (2, [7; 8]); (3, [7; 20]); (5, [20]); (7, [30]); (8, [18]); (9, [30]);
       (10, [1; 2; 3]); (12, [8; 29; 31])]
  ++ dates 2009 [(1, [2; 26]); (3, [9; 26]); (4, [9]); (7, [20]); (9, [18; 19; 20; 21; 22; 23]); (11, [27]);
       (12, [18; 24; 31])]
  ++ dates 2010 [(2, [26]); (3, [16]); (5, [28]); (9, [8; 9; 10; 11; 12; 13; 14]); (11, [17]);
       (12, [7; 24; 31])]
  ++ dates 2011 [(2, [3; 15]); (5, [17]); (6, [29]); (8, [29; 30; 31]); (9, [1; 2]); (12, [26])]
  ++ dates 2012 [(1, [23]); (3, [23]); (8, [20; 21; 22]); (10, [26]); (11, [15; 16]); (12, [24; 31])]
  ++ dates 2013 [(1, [24]); (3, [12]); (6, [6]); (8, [5; 6; 7; 8; 9]); (10, [14; 15]); (11, [5]);
       (12, [26; 31])]
  ++ dates 2014 [(1, [14; 31]); (3, [31]); (5, [1; 15; 27; 29]); (7, [28; 29; 30; 31]); (8, [1]);
       (12, [26; 31])].
Definition indonesia_rules : list rule := indonesia_regular ++ indonesia_listed.

Definition israel_regular : list rule :=
  [].
Definition israel_listed : list rule :=
  dates 2013 [(2, [24]); (3, [25; 26; 31]); (4, [1; 15; 16]); (5, [14; 15]); (7, [16]);
       (9, [4; 5; 6; 13; 14; 18; 19; 25; 26])]
  ++ dates 2014 [(3, [16]); (4, [14; 15; 20; 21]); (5, [5; 6]); (6, [3; 4]); (8, [5]); (9, [24; 25; 26]);
       (10, [3; 4; 8; 9; 15; 16])]
  ++ dates 2015 [(3, [5]); (4, [3; 4; 9; 10; 22; 23]); (5, [23; 24]); (7, [26]);
       (9, [13; 14; 15; 22; 23; 27; 28]); (10, [4; 5])]
  ++ dates 2016 [(3, [24]); (4, [22; 23; 28; 29]); (5, [11; 12]); (6, [11; 12]); (8, [14]);
       (10, [2; 3; 4; 11; 12; 16; 17; 23; 24])]
  ++ dates 2017 [(3, [12]); (4, [10; 11; 16; 17]); (5, [1; 2; 30; 31]); (8, [1]); (9, [20; 21; 22; 29; 30]);
       (10, [4; 5; 11; 12])]
  ++ dates 2018 [(3, [1; 31]); (4, [5; 6; 18; 19]); (5, [19; 20]); (7, [22]);
       (9, [9; 10; 11; 18; 19; 23; 24; 30]); (10, [1])]
  ++ dates 2019 [(3, [21]); (4, [20; 25; 26]); (5, [8; 9]); (6, [8; 9]); (8, [11]); (9, [29; 30]);
       (10, [1; 8; 9; 13; 14; 20; 21])]
  ++ dates 2020 [(3, [10]); (4, [8; 9; 14; 15; 28; 29]); (5, [28; 29]); (7, [30]); (9, [19; 20; 27; 28]);
       (10, [2; 3; 9; 10])]
  ++ dates 2021 [(2, [26]); (3, [28]); (4, [3; 14; 15]); (5, [17]); (7, [18]);
       (9, [7; 8; 15; 16; 20; 21; 27; 28])]
  ++ dates 2022 [(3, [17]); (4, [16; 22]); (5, [4; 5]); (6, [5]); (8, [7]); (9, [26; 27]);
       (10, [4; 5; 9; 10; 16; 17])]
  ++ dates 2023 [(3, [7]); (4, [6; 12; 25; 26]); (5, [26]); (7, [27]); (9, [16; 17; 24; 25; 29; 30]);
       (10, [6; 7])]
  ++ dates 2024 [(3, [24]); (4, [23; 29]); (5, [13; 14]); (6, [12]); (8, [13]);
       (10, [3; 4; 11; 12; 16; 17; 23; 24])]
  ++ dates 2025 [(3, [14]); (4, [13; 19; 30]); (5, [1]); (6, [2]); (8, [3]); (9, [23; 24]);
       (10, [1; 2; 6; 7; 13; 14])]
  ++ dates 2026 [(3, [3]); (4, [2; 8; 21; 22]); (5, [22]); (7, [23]); (9, [12; 13; 20; 21; 25; 26]);
       (10, [2; 3])]
  ++ dates 2027 [(3, [23]); (4, [22; 28]); (5, [11; 12]); (6, [11]); (8, [12]);
       (10, [2; 3; 10; 11; 15; 16; 22; 23])]
  ++ dates 2028 [(3, [12]); (4, [11; 17]); (5, [1; 2; 31]); (8, [1]); (9, [21; 22; 29; 30]);
       (10, [4; 5; 11; 12])]
  ++ dates 2029 [(3, [1; 31]); (4, [6; 18; 19]); (5, [20]); (7, [22]); (9, [10; 11; 18; 19; 23; 24; 30]);
       (10, [1])]
  ++ dates 2030 [(3, [19]); (4, [18; 24]); (5, [7; 8]); (6, [7]); (8, [8]); (9, [28; 29]);
       (10, [6; 7; 11; 12; 18; 19])]
  ++ dates 2031 [(3, [9]); (4, [8; 14; 28; 29]); (5, [28]); (7, [29]); (9, [18; 19; 26; 27]);
       (10, [1; 2; 8; 9])]
  ++ dates 2032 [(2, [26]); (3, [27]); (4, [2; 14; 15]); (5, [16]); (7, [18]);
       (9, [6; 7; 14; 15; 19; 20; 26; 27])]
  ++ dates 2033 [(3, [15]); (4, [14; 20]); (5, [3; 4]); (6, [3]); (8, [4]); (9, [24; 25]);
       (10, [2; 3; 7; 8; 14; 15])]
  ++ dates 2034 [(3, [5]); (4, [4; 10; 24; 25]); (5, [24]); (7, [25]); (9, [14; 15; 22; 23; 27; 28]);
       (10, [4; 5])]
  ++ dates 2035 [(3, [25]); (4, [24; 30]); (5, [14; 15]); (6, [13]); (8, [14]);
       (10, [4; 5; 12; 13; 17; 18; 24; 25])]
  ++ dates 2036 [(3, [13]); (4, [12; 18; 30]); (5, [1]); (6, [1]); (8, [3]); (9, [22; 23; 30]);
       (10, [1; 5; 6; 12; 13])]
  ++ dates 2037 [(3, [1; 31]); (4, [6; 20; 21]); (5, [20]); (7, [21]); (9, [10; 11; 18; 19; 23; 24; 30]);
       (10, [1])]
  ++ dates 2038 [(3, [21]); (4, [20; 26]); (5, [9; 10]); (6, [9]); (8, [10]); (9, [30]);
       (10, [1; 8; 9; 13; 14; 20; 21])]
  ++ dates 2039 [(3, [10]); (4, [9; 15; 27; 28]); (5, [29]); (7, [31]); (9, [19; 20; 27; 28]);
       (10, [2; 3; 9; 10])]
  ++ dates 2040 [(2, [28]); (3, [29]); (4, [4; 17; 18]); (5, [18]); (7, [19]);
       (9, [8; 9; 16; 17; 21; 22; 28; 29])]
  ++ dates 2041 [(3, [17]); (4, [16; 22]); (5, [6; 7]); (6, [5]); (8, [6]); (9, [26; 27]);
       (10, [4; 5; 9; 10; 16; 17])]
  ++ dates 2042 [(3, [6]); (4, [5; 11; 23; 24]); (5, [25]); (7, [27]); (9, [15; 16; 23; 24; 28; 29]);
       (10, [5; 6])]
  ++ dates 2043 [(3, [26]); (4, [25]); (5, [1; 13; 14]); (6, [14]); (8, [16]);
       (10, [5; 6; 13; 14; 18; 19; 25; 26])]
  ++ dates 2044 [(3, [13]); (4, [12; 18]); (5, [2; 3]); (6, [1]); (8, [2]); (9, [22; 23; 30]);
       (10, [1; 5; 6; 12; 13])].
Definition israel_rules : list rule := israel_regular ++ israel_listed.

Definition singapore_regular : list rule :=
  [Fixed 1 1; Moved Sun 1 1 1; Western (-2); Fixed 5 1; Fixed 8 9; Moved Sun 1 8 9; Fixed 12 25].
Definition singapore_listed : list rule :=
  dates 2004 [(1, [22; 23]); (2, [1; 2]); (6, [2]); (11, [11; 14; 15])]
  ++ dates 2005 [(1, [21]); (2, [9; 10]); (5, [22]); (11, [1; 3])]
  ++ dates 2006 [(1, [10; 30; 31]); (5, [12]); (10, [24])]
  ++ dates 2007 [(1, [2]); (2, [19; 20]); (5, [31]); (10, [13]); (11, [8]); (12, [20])]
  ++ dates 2008 [(2, [7; 8]); (5, [18]); (10, [1; 28]); (12, [8])]
  ++ dates 2009 [(1, [26; 27]); (5, [9]); (9, [21]); (11, [16; 27])]
  ++ dates 2010 [(1, [15; 16]); (5, [28]); (9, [10]); (11, [5; 17])]
  ++ dates 2012 [(1, [23; 24]); (5, [5]); (8, [20]); (10, [26]); (11, [13])]
  ++ dates 2013 [(2, [11; 12]); (5, [24]); (8, [8]); (10, [15]); (11, [2])]
  ++ dates 2014 [(1, [31]); (2, [1]); (5, [13]); (7, [28]); (10, [6; 23])]
  ++ dates 2019 [(2, [5; 6]); (5, [20]); (6, [5]); (8, [12]); (10, [28])]
  ++ dates 2020 [(1, [27]); (5, [7; 25]); (7, [31]); (11, [14])]
  ++ dates 2021 [(2, [12]); (5, [13; 26]); (7, [20]); (11, [4])]
  ++ dates 2022 [(2, [1; 2]); (5, [2; 3; 16]); (7, [11]); (10, [24]); (12, [26])]
  ++ dates 2023 [(1, [23; 24]); (4, [22]); (6, [2; 29]); (11, [13])].
Definition singapore_rules : list rule := singapore_regular ++ singapore_listed.

Definition southkorea_regular : list rule :=
  [Fixed 1 1; Fixed 3 1; From 2022 (Moved Sat 2 3 1); From 2022 (Moved Sun 1 3 1); Until 2005 (Fixed 4 5);
   Fixed 5 1; Fixed 5 5; From 2014 (Moved Sat 2 5 5); From 2014 (Moved Sun 1 5 5); Fixed 6 6;
   Until 2007 (Fixed 7 17); Fixed 8 15; From 2021 (Moved Sat 2 8 15); From 2021 (Moved Sun 1 8 15); Fixed 10 3;
   From 2021 (Moved Sat 2 10 3); From 2021 (Moved Sun 1 10 3); From 2013 (Fixed 10 9);
   From 2021 (Moved Sat 2 10 9); From 2021 (Moved Sun 1 10 9); Fixed 12 25; From 2023 (Moved Sat 2 12 25);
   From 2023 (Moved Sun 1 12 25)].
Definition southkorea_listed : list rule :=
  dates 2004 [(1, [21; 22; 23]); (4, [15]); (5, [26]); (9, [27; 28; 29])]
  ++ dates 2005 [(2, [8; 9; 10]); (5, [15]); (9, [17; 18; 19])]
  ++ dates 2006 [(1, [28; 29; 30]); (5, [31]); (10, [5; 6; 7])]
  ++ dates 2007 [(2, [19]); (5, [24]); (9, [24; 25; 26]); (12, [19])]
  ++ dates 2008 [(2, [6; 7; 8]); (4, [9]); (5, [12]); (9, [13; 14; 15])]
  ++ dates 2009 [(1, [25; 26; 27]); (5, [2]); (10, [2; 4])]
  ++ dates 2010 [(2, [13; 14; 15]); (5, [21]); (6, [2]); (9, [21; 22; 23])]
  ++ dates 2011 [(2, [2; 3; 4]); (5, [10]); (9, [12; 13])]
  ++ dates 2012 [(1, [23; 24]); (4, [11]); (5, [28]); (10, [1]); (12, [19])]
  ++ dates 2013 [(2, [11]); (5, [17]); (9, [18; 19; 20])]
  ++ dates 2014 [(1, [30; 31]); (5, [6]); (6, [4]); (9, [8; 9; 10])]
  ++ dates 2015 [(2, [18; 19; 20]); (5, [25]); (8, [14]); (9, [28; 29])]
  ++ dates 2016 [(2, [7; 8; 9; 10]); (4, [13]); (5, [14]); (9, [14; 15; 16])]
  ++ dates 2017 [(1, [27; 28; 29; 30]); (5, [3; 9]); (10, [4; 5; 6])]
  ++ dates 2018 [(2, [15; 16; 17]); (5, [22]); (6, [13]); (9, [23; 24; 25; 26])]
  ++ dates 2019 [(2, [4; 5; 6]); (5, [12]); (9, [12; 13; 14])]
  ++ dates 2020 [(1, [24; 25; 26; 27]); (4, [15; 30]); (8, [17]); (9, [30]); (10, [1; 2])]
  ++ dates 2021 [(2, [11; 12; 13]); (5, [19]); (9, [20; 21; 22])]
  ++ dates 2022 [(1, [31]); (2, [1; 2]); (3, [9]); (5, [8]); (6, [1]); (9, [9; 10; 11; 12])]
  ++ dates 2023 [(1, [23; 24]); (5, [29]); (9, [28; 29; 30]); (10, [2])]
  ++ dates 2024 [(2, [9; 10; 11; 12]); (4, [10]); (5, [15]); (9, [16; 17; 18])]
  ++ dates 2025 [(1, [28; 29; 30]); (5, [6]); (10, [6; 7; 8])]
  ++ dates 2026 [(2, [16; 17; 18]); (5, [25]); (9, [24; 25; 26])]
  ++ dates 2027 [(2, [8; 9]); (5, [13]); (9, [14; 15; 16])]
  ++ dates 2028 [(1, [26; 27; 28]); (5, [2]); (10, [2; 4; 5])]
  ++ dates 2029 [(2, [12; 13; 14]); (5, [21]); (9, [21; 22; 23; 24])]
  ++ dates 2030 [(2, [4; 5]); (5, [9]); (9, [11; 12; 13])]
  ++ dates 2031 [(1, [22; 23; 24]); (5, [28]); (9, [30]); (10, [1; 2])]
  ++ dates 2032 [(2, [10; 11; 12]); (5, [17]); (9, [20; 21])]
  ++ dates 2033 [(1, [31]); (2, [1; 2]); (5, [6]); (9, [7; 8; 9])]
  ++ dates 2034 [(2, [20; 21]); (5, [25]); (9, [26; 27; 28])]
  ++ dates 2035 [(2, [7; 8; 9]); (5, [15]); (9, [17; 18])]
  ++ dates 2036 [(1, [28; 29; 30]); (5, [6]); (10, [4; 5; 6; 7])]
  ++ dates 2037 [(2, [16; 17]); (5, [22]); (9, [23; 24; 25])]
  ++ dates 2038 [(2, [3; 4; 5]); (5, [11]); (9, [13; 14; 15])]
  ++ dates 2039 [(1, [24; 25; 26]); (5, [2]); (10, [4; 5])]
  ++ dates 2040 [(2, [13; 14]); (5, [18]); (9, [20; 21; 22])]
  ++ dates 2041 [(1, [31]); (2, [1; 2]); (5, [7]); (9, [9; 10; 11])]
  ++ dates 2042 [(1, [21; 22; 23]); (5, [26]); (9, [29; 30])]
  ++ dates 2043 [(2, [9; 10; 11]); (5, [18]); (9, [16; 17; 18])]
  ++ dates 2044 [(1, [29; 30; 31]); (2, [1]); (5, [6]); (10, [4; 5; 6])]
  ++ dates 2045 [(2, [16; 17; 18]); (5, [24]); (9, [25; 26; 27])]
  ++ dates 2046 [(2, [5; 6; 7]); (5, [14]); (9, [14; 15; 16; 17])]
  ++ dates 2047 [(1, [25; 26; 27; 28]); (5, [2]); (10, [4; 5; 7])]
  ++ dates 2048 [(2, [13; 14; 15]); (5, [20]); (9, [21; 22; 23])]
  ++ dates 2049 [(2, [1; 2; 3]); (5, [10]); (9, [10; 11; 12; 13])]
  ++ dates 2050 [(1, [24; 25]); (5, [30]); (9, [29; 30]); (10, [1])].
Definition southkorea_rules : list rule := southkorea_regular ++ southkorea_listed.

Definition taiwan_regular : list rule :=
  [Fixed 1 1; Fixed 2 28; NotIn [2008; 2009; 2012; 2017] (Fixed 4 5); Fixed 5 1; Fixed 10 10].
Definition taiwan_listed : list rule :=
  dates 2002 [(2, [9; 10; 11; 12; 13; 14; 15; 16; 17])]
  ++ dates 2003 [(1, [31]); (2, [1; 2; 3; 4; 5]); (6, [4]); (9, [11])]
  ++ dates 2004 [(1, [21; 22; 23; 24; 25; 26]); (6, [22]); (9, [28])]
  ++ dates 2005 [(2, [6; 7; 8; 9; 10; 11; 12; 13]); (5, [2])]
  ++ dates 2006 [(1, [28; 29; 30; 31]); (2, [1; 2; 3; 4; 5]); (5, [31]); (10, [6])]
  ++ dates 2007 [(2, [17; 18; 19; 20; 21; 22; 23; 24; 25]); (4, [6]); (6, [18; 19]); (9, [24; 25])]
  ++ dates 2008 [(2, [4; 5; 6; 7; 8; 9; 10; 11]); (4, [4])]
  ++ dates 2009 [(1, [2; 24; 25; 26; 27; 28; 29; 30; 31]); (4, [4]); (5, [28; 29]); (10, [3])]
  ++ dates 2010 [(1, [13; 14; 15; 16; 17; 18; 19; 20; 21]); (5, [16]); (9, [22])]
  ++ dates 2011 [(2, [2; 3; 4; 5; 6; 7]); (4, [4]); (5, [2]); (6, [6]); (9, [12])]
  ++ dates 2012 [(1, [23; 24; 25; 26; 27]); (2, [27]); (4, [4]); (6, [23]); (9, [30]); (12, [31])]
  ++ dates 2013 [(2, [10; 11; 12; 13; 14; 15]); (4, [4]); (6, [12]); (9, [19; 20])]
  ++ dates 2014 [(1, [28; 29; 30; 31]); (2, [1; 2; 3; 4]); (4, [4]); (6, [2]); (9, [8])]
  ++ dates 2015 [(1, [2]); (2, [18; 19; 20; 21; 22; 23; 27]); (4, [3; 6]); (6, [19]); (9, [28]); (10, [9])]
  ++ dates 2016 [(2, [8; 9; 10; 11; 12; 29]); (4, [4]); (5, [2]); (6, [9; 10]); (9, [15; 16])]
  ++ dates 2017 [(1, [2; 27; 28; 29; 30; 31]); (2, [1; 27]); (4, [3; 4]); (5, [29; 30]); (10, [4; 9])]
  ++ dates 2018 [(2, [15; 16; 17; 18; 19; 20]); (4, [4; 6]); (6, [18]); (9, [24]); (12, [31])]
  ++ dates 2019 [(2, [4; 5; 6; 7; 8]); (3, [1]); (4, [4]); (6, [7]); (9, [13]); (10, [11])]
  ++ dates 2020 [(1, [23; 24; 25; 26; 27; 28; 29]); (4, [2; 3]); (6, [25; 26]); (10, [1; 2; 9])]
  ++ dates 2021 [(2, [10; 11; 12; 13; 14; 15; 16]); (3, [1]); (4, [2; 30]); (6, [14]); (9, [20; 21]);
       (10, [11]); (12, [31])]
  ++ dates 2022 [(1, [31]); (2, [1; 2; 3; 4]); (4, [4]); (5, [2]); (6, [3]); (9, [9])]
  ++ dates 2023 [(1, [2; 20; 21; 22; 23; 24; 25; 26; 27]); (2, [27]); (4, [3; 4]); (6, [22; 23]); (9, [29]);
       (10, [9])]
  ++ dates 2024 [(2, [8; 9; 10; 11; 12; 13; 14]); (4, [4]); (6, [10]); (9, [17])].
Definition taiwan_rules : list rule := taiwan_regular ++ taiwan_listed.

Definition thailand_regular : list rule :=
  [Fixed 1 1; Moved Sat 2 1 1; Moved Sun 1 1 1; Fixed 4 6; Moved Sat 2 4 6; Moved Sun 1 4 6; Fixed 4 13;
   Fixed 4 14; Fixed 4 15; Moved Fri 3 4 13; Moved Sat 3 4 13; Fixed 5 1; Moved Sat 2 5 1; Moved Sun 1 5 1;
   From 2017 (Fixed 7 28); From 2017 (Moved Sat 2 7 28); From 2017 (Moved Sun 1 7 28); Fixed 8 12;
   Moved Sat 2 8 12; Moved Sun 1 8 12; From 2017 (Fixed 10 13); From 2017 (Moved Sat 2 10 13);
   From 2017 (Moved Sun 1 10 13); Fixed 12 5; Moved Sat 2 12 5; Moved Sun 1 12 5; Fixed 12 10;
   Moved Sat 2 12 10; Moved Sun 1 12 10; Fixed 12 31; Moved Sat 2 12 31; Moved Sun 1 12 31].
Definition thailand_listed : list rule :=
  dates 2000 [(2, [21]); (5, [5; 17]); (7, [17]); (10, [23])]
  ++ dates 2001 [(2, [8]); (5, [7; 8]); (7, [6]); (10, [23])]
  ++ dates 2005 [(2, [23]); (5, [5; 23]); (7, [1; 22]); (10, [24])]
  ++ dates 2006 [(2, [13]); (4, [19]); (5, [5; 12]); (6, [12; 13]); (7, [11]); (10, [23])]
  ++ dates 2007 [(3, [5]); (5, [7; 31]); (7, [30]); (10, [23]); (12, [24])]
  ++ dates 2008 [(2, [21]); (5, [5; 19]); (7, [1; 17]); (10, [23])]
  ++ dates 2009 [(1, [2]); (2, [9]); (5, [5; 8]); (7, [1; 6; 7]); (10, [23])]
  ++ dates 2010 [(3, [1]); (5, [5; 20; 21; 28]); (7, [1; 26]); (8, [13]); (10, [25])]
  ++ dates 2011 [(2, [18]); (5, [5; 16; 17]); (7, [1; 15]); (10, [24])]
  ++ dates 2012 [(1, [3]); (3, [7]); (4, [9]); (5, [7]); (6, [4]); (8, [2]); (10, [23])]
  ++ dates 2013 [(2, [25]); (5, [6; 24]); (7, [1; 22]); (10, [23]); (12, [30])]
  ++ dates 2014 [(2, [14]); (5, [5; 13]); (7, [1; 11]); (8, [11]); (10, [23])]
  ++ dates 2015 [(1, [2]); (3, [4]); (5, [4; 5]); (6, [1]); (7, [1; 30]); (10, [23])]
  ++ dates 2016 [(2, [22]); (5, [5; 6; 20]); (7, [1; 18; 19]); (10, [24])]
  ++ dates 2017 [(2, [13]); (5, [10]); (7, [10]); (10, [23; 26])]
  ++ dates 2018 [(3, [1]); (5, [29]); (7, [27]); (10, [23])].
Definition thailand_rules : list rule := thailand_regular ++ thailand_listed.

Definition turkey_regular : list rule :=
  [Fixed 1 1; Fixed 4 23; Fixed 5 1; Fixed 5 19; From 2017 (Fixed 7 15); Fixed 8 30; Fixed 10 29].
Definition turkey_listed : list rule :=
  dates 2004 [(2, [1; 2; 3; 4]); (11, [14; 15; 16])]
  ++ dates 2005 [(1, [19; 20; 21]); (11, [2; 3; 4; 5])]
  ++ dates 2006 [(1, [10; 11; 12; 13]); (10, [23; 24; 25]); (12, [31])]
  ++ dates 2007 [(1, [2; 3]); (10, [12; 13; 14]); (12, [20; 21; 22; 23])]
  ++ dates 2008 [(9, [30]); (10, [1; 2]); (12, [8; 9; 10; 11])]
  ++ dates 2009 [(9, [20; 21; 22]); (11, [27; 28; 29; 30])]
  ++ dates 2010 [(9, [9; 10; 11]); (11, [16; 17; 18; 19])]
  ++ dates 2011 [(10, [1]); (11, [9; 10; 11; 12; 13])]
  ++ dates 2012 [(8, [18; 19; 20; 21]); (10, [24; 25; 26; 27; 28])]
  ++ dates 2013 [(8, [7; 8; 9; 10]); (10, [14; 15; 16; 17; 18; 28])]
  ++ dates 2014 [(7, [27; 28; 29; 30]); (10, [4; 5; 6; 7])]
  ++ dates 2015 [(7, [17; 18; 19]); (10, [24; 25; 26; 27])]
  ++ dates 2016 [(7, [5; 6; 7]); (9, [12; 13; 14; 15])]
  ++ dates 2017 [(6, [25; 26; 27]); (9, [1; 2; 3; 4])]
  ++ dates 2018 [(6, [15; 16; 17]); (8, [21; 22; 23; 24])]
  ++ dates 2019 [(6, [4; 5; 6]); (8, [11; 12; 13; 14])]
  ++ dates 2020 [(5, [24; 25; 26]); (7, [31]); (8, [1; 2; 3])]
  ++ dates 2021 [(5, [13; 14; 15]); (7, [20; 21; 22; 23])]
  ++ dates 2022 [(5, [2; 3; 4]); (7, [9; 10; 11; 12])]
  ++ dates 2023 [(4, [21; 22]); (6, [28; 29; 30])]
  ++ dates 2024 [(4, [10; 11; 12]); (6, [17; 18; 19])]
  ++ dates 2025 [(3, [31]); (4, [1; 2]); (6, [6; 7; 8; 9])]
  ++ dates 2026 [(3, [20; 21; 22]); (5, [26; 27; 28; 29])]
  ++ dates 2027 [(3, [10; 11; 12]); (5, [16; 17; 18])]
  ++ dates 2028 [(2, [27; 28; 29]); (5, [4; 5; 6; 7])]
  ++ dates 2029 [(2, [15; 16; 17]); (4, [24; 25; 26])]
  ++ dates 2030 [(2, [5; 6; 7]); (4, [13; 14; 15; 16])]
  ++ dates 2031 [(1, [25; 26; 27]); (4, [2; 3; 4; 5])]
  ++ dates 2032 [(1, [14; 15; 16]); (3, [21; 22; 23; 24])]
  ++ dates 2033 [(1, [3; 4; 5]); (3, [11; 12; 13; 14]); (12, [23])]
  ++ dates 2034 [(2, [28]); (3, [1; 2; 3]); (12, [12; 13; 14])].
Definition turkey_rules : list rule := turkey_regular ++ turkey_listed.

