(** The year-long unit tests of third-parties/calendar, transcribed by tools/gen_tests.py.  They are tests of the
    model, not theorems about it: the expected answers were written by the authors of the code. *)
From Coq Require Import ZArith Bool List String Ascii.
From Verif Require Import Base Chrono CalLib Calendars.
Import ListNotations.
Local Open Scope Z_scope.
Local Open Scope string_scope.

(** One test loop, e.g. argentina.rs:85-90: from [date] on, each answer of [is_business_day] is compared with the
    expected one ('o' for true, 'x' for false). *)
Fixpoint agrees (c : cal) (date : option NaiveDate) (expected : string) : bool :=
  match expected, date with
  | EmptyString, _ => true
  | String a rest, Some d =>
      match c d with
      | Ret b => Bool.eqb b (Ascii.eqb a "o"%char) && agrees c (succ_opt d) rest
      | _ => false
      end
  | _, None => false
  end.

(** argentina.rs:53-92 test_mexico_holiday. *)
Example test_argentina_53 :
  agrees (country_cal Argentina) (from_ymd_opt 2023 1 1)
    ("xoooooxxoooooxxoooooxxoooooxxoooooxxoooooxxoooooxxoooooxxoooooxxoooooxxoooooxxoooooxxooooox" ++
     "xoooxxxxoooooxxoooooxxoooooxxxooooxxoooooxxoooooxxoooxoxxoooooxxoooooxxoooooxxxooooxxooooox" ++
     "xoooooxxoooooxxoooooxxoooooxxoooooxxoooooxxoooooxxxooooxxoooooxxoooooxxoooooxxoooooxxooooox" ++
     "xoooooxxoooooxxxooooxxoooooxxoooooxxoooooxxoooooxxoooooxxoooooxxooooxxxoooooxxoooooxxooooox" ++
     "x") = true.
Proof. vm_compute. reflexivity. Qed.

(** australia.rs:81-126 test_australia_settlement_holiday. *)
Example test_australia_81 :
  agrees (country_cal (Australia (Some AustraliaMarket_Settlement))) (from_ymd_opt 2023 1 1)
    ("xxooooxxoooooxxoooooxxoooxoxxoooooxxoooooxxoooooxxoooooxxoooooxxoooooxxoooooxxoooooxxooooox" ++
     "xooooxxxxooooxxoooooxxoxoooxxoooooxxoooooxxoooooxxoooooxxoooooxxoooooxxxooooxxoooooxxooooox" ++
     "xoooooxxoooooxxoooooxxoooooxxoooooxxxooooxxoooooxxoooooxxoooooxxoooooxxoooooxxoooooxxooooox" ++
     "xxooooxxoooooxxoooooxxoooooxxoooooxxoooooxxoooooxxoooooxxoooooxxoooooxxoooooxxoooooxxxxooox" ++
     "x") = true.
Proof. vm_compute. reflexivity. Qed.

(** austria.rs:106-145 test_austria_holiday. *)
Example test_austria_106 :
  agrees (country_cal (Austria None)) (from_ymd_opt 2023 1 1)
    ("xooooxxxoooooxxoooooxxoooooxxoooooxxoooooxxoooooxxoooooxxoooooxxoooooxxoooooxxoooooxxooooox" ++
     "xoooooxxxooooxxoooooxxoooooxxxooooxxoooooxxoooxoxxoooooxxxooooxxoooxoxxoooooxxoooooxxooooox" ++
     "xoooooxxoooooxxoooooxxoooooxxoooooxxoooooxxoxoooxxoooooxxoooooxxoooooxxoooooxxoooooxxooooox" ++
     "xoooooxxoooooxxoooooxxoooxoxxooxooxxoooooxxoooooxxoooooxxoooooxxooooxxxoooooxxoooooxxxxooox" ++
     "x") = true.
Proof. vm_compute. reflexivity. Qed.

(** botswana.rs:57-96 test_botswana_holiday. *)
Example test_botswana_57 :
  agrees (country_cal Botswana) (from_ymd_opt 2023 1 1)
    ("xxxoooxxoooooxxoooooxxoooooxxoooooxxoooooxxoooooxxoooooxxoooooxxoooooxxoooooxxoooooxxooooox" ++
     "xooooxxxxooooxxoooooxxoooooxxxooooxxoooooxxoooxoxxoooooxxoooooxxoooooxxoooooxxoooooxxooooox" ++
     "xoooooxxoooooxxxooooxxoooooxxoooooxxoooooxxoooooxxoooooxxoooooxxoooooxxoooooxxoooooxxooooox" ++
     "xxxoooxxoooooxxoooooxxoooooxxoooooxxoooooxxoooooxxoooooxxoooooxxoooooxxoooooxxoooooxxxxooox" ++
     "x") = true.
Proof. vm_compute. reflexivity. Qed.

(** brazil.rs:113-152 test_brazil_holiday. *)
Example test_brazil_113 :
  agrees (country_cal (Brazil None)) (from_ymd_opt 2023 1 1)
    ("xoooooxxoooooxxoooooxxoooooxxoooooxxoooooxxoooooxxxxoooxxoooooxxoooooxxoooooxxoooooxxooooox" ++
     "xooooxxxoooooxxooooxxxoooooxxxooooxxoooooxxoooooxxoooooxxoooooxxoooxoxxoooooxxoooooxxooooox" ++
     "xoooooxxoooooxxoooooxxoooooxxoooooxxoooooxxoooooxxoooooxxoooooxxoooxoxxoooooxxoooooxxooooox" ++
     "xoooooxxoooxoxxoooooxxoooooxxoooxoxxoooooxxooxooxxoooooxxoooooxxoooooxxoooooxxoooooxxxoooox" ++
     "x") = true.
Proof. vm_compute. reflexivity. Qed.

(** canada.rs:87-126 test_canada_holiday. *)
Example test_canada_87 :
  agrees (country_cal (Canada None)) (from_ymd_opt 2023 1 1)
    ("xxooooxxoooooxxoooooxxoooooxxoooooxxoooooxxoooooxxxooooxxoooooxxoooooxxoooooxxoooooxxooooox" ++
     "xooooxxxoooooxxoooooxxoooooxxoooooxxoooooxxoooooxxxooooxxoooooxxoooooxxoooooxxoooooxxooooox" ++
     "xxooooxxoooooxxoooooxxoooooxxoooooxxxooooxxoooooxxoooooxxoooooxxxooooxxoooooxxoooooxxooooox" ++
     "xxooooxxxooooxxoooooxxoooooxxoooooxxoooooxxxooooxxoooooxxoooooxxoooooxxoooooxxoooooxxxxooox" ++
     "x") = true.
Proof. vm_compute. reflexivity. Qed.

(** chile.rs:68-107 test_chile_holiday. *)
Example test_chile_68 :
  agrees (country_cal Chile) (from_ymd_opt 2023 1 1)
    ("xxooooxxoooooxxoooooxxoooooxxoooooxxoooooxxoooooxxoooooxxoooooxxoooooxxoooooxxoooooxxooooox" ++
     "xooooxxxoooooxxoooooxxoooooxxxooooxxoooooxxoooooxxoooooxxoooooxxoooooxxoooooxxooxooxxxoooox" ++
     "xoooooxxoooooxxoooooxxoooooxxoooooxxoooooxxoxoooxxoooooxxoooooxxoooooxxoooooxxxxoooxxooooox" ++
     "xoooooxxxooooxxoooooxxooooxxxooxooxxoooooxxoooooxxoooooxxoooooxxooooxxxoooooxxoooooxxxoooox" ++
     "x") = true.
Proof. vm_compute. reflexivity. Qed.

(** china.rs:161-200 test_china_holiday. *)
Example test_china_161 :
  agrees (country_cal China) (from_ymd_opt 2023 1 1)
    ("xxooooxxoooooxxoooooxxxxxxxxxoooooxxoooooxxoooooxxoooooxxoooooxxoooooxxoooooxxoooooxxooooox" ++
     "xooxooxxoooooxxoooooxxoooooxxxxxooxxoooooxxoooooxxoooooxxoooooxxoooooxxoooooxxoooxxxxooooox" ++
     "xoooooxxoooooxxoooooxxoooooxxoooooxxoooooxxoooooxxoooooxxoooooxxoooooxxoooooxxoooooxxooooxx" ++
     "xxxxxxxxoooooxxoooooxxoooooxxoooooxxoooooxxoooooxxoooooxxoooooxxoooooxxoooooxxoooooxxooooox" ++
     "x") = true.
Proof. vm_compute. reflexivity. Qed.

(** czechrepublic.rs:59-98 test_czech_republic_holiday. *)
Example test_czechrepublic_59 :
  agrees (country_cal CzechRepublic) (from_ymd_opt 2023 1 1)
    ("xoooooxxoooooxxoooooxxoooooxxoooooxxoooooxxoooooxxoooooxxoooooxxoooooxxoooooxxoooooxxooooox" ++
     "xooooxxxxooooxxoooooxxoooooxxxooooxxxooooxxoooooxxoooooxxoooooxxoooooxxoooooxxoooooxxooooox" ++
     "xooxxoxxoooooxxoooooxxoooooxxoooooxxoooooxxoooooxxoooooxxoooooxxoooooxxoooooxxoooooxxoooxox" ++
     "xoooooxxoooooxxoooooxxoooooxxoooooxxoooooxxooooxxxoooooxxoooooxxoooooxxoooooxxoooooxxxxooox" ++
     "x") = true.
Proof. vm_compute. reflexivity. Qed.

(** denmark.rs:55-94 test_denmark_holiday. *)
Example test_denmark_55 :
  agrees (country_cal Denmark) (from_ymd_opt 2023 1 1)
    ("xoooooxxoooooxxoooooxxoooooxxoooooxxoooooxxoooooxxoooooxxoooooxxoooooxxoooooxxoooooxxooooox" ++
     "xoooxxxxxooooxxoooooxxoooooxxooooxxxoooooxxoooxxxxoooooxxxooooxxxooooxxoooooxxoooooxxooooox" ++
     "xoooooxxoooooxxoooooxxoooooxxoooooxxoooooxxoooooxxoooooxxoooooxxoooooxxoooooxxoooooxxooooox" ++
     "xoooooxxoooooxxoooooxxoooooxxoooooxxoooooxxoooooxxoooooxxoooooxxoooooxxoooooxxoooooxxxxooox" ++
     "x") = true.
Proof. vm_compute. reflexivity. Qed.

(** finland.rs:52-91 test_finland_holiday. *)
Example test_finland_52 :
  agrees (country_cal Finland) (from_ymd_opt 2023 1 1)
    ("xooooxxxoooooxxoooooxxoooooxxoooooxxoooooxxoooooxxoooooxxoooooxxoooooxxoooooxxoooooxxooooox" ++
     "xooooxxxxooooxxoooooxxoooooxxxooooxxoooooxxoooxoxxoooooxxoooooxxoooooxxoooooxxooooxxxooooox" ++
     "xoooooxxoooooxxoooooxxoooooxxoooooxxoooooxxoooooxxoooooxxoooooxxoooooxxoooooxxoooooxxooooox" ++
     "xoooooxxoooooxxoooooxxoooooxxoooooxxoooooxxoooooxxoooooxxoooooxxooxooxxoooooxxoooooxxxxooox" ++
     "x") = true.
Proof. vm_compute. reflexivity. Qed.

(** france.rs:97-136 test_france_holiday. *)
Example test_france_97 :
  agrees (country_cal (France None)) (from_ymd_opt 2023 1 1)
    ("xoooooxxoooooxxoooooxxoooooxxoooooxxoooooxxoooooxxoooooxxoooooxxoooooxxoooooxxoooooxxooooox" ++
     "xoooooxxxooooxxoooooxxoooooxxxooooxxxoxooxxoooooxxoooooxxoooooxxoooooxxoooooxxoooooxxooooox" ++
     "xoooooxxooooxxxoooooxxoooooxxoooooxxoooooxxoxoooxxoooooxxoooooxxoooooxxoooooxxoooooxxooooox" ++
     "xoooooxxoooooxxoooooxxoooooxxooxooxxoooooxxoooooxxoooooxxoooooxxoooooxxoooooxxoooooxxxoooox" ++
     "x") = true.
Proof. vm_compute. reflexivity. Qed.

(** germany.rs:115-160 test_germany_holiday. *)
Example test_germany_115 :
  agrees (country_cal (Germany (Some GermanyMarket_FrankfurtStockExchange))) (from_ymd_opt 2023 1 1)
    ("xoooooxxoooooxxoooooxxoooooxxoooooxxoooooxxoooooxxoooooxxoooooxxoooooxxoooooxxoooooxxooooox" ++
     "xooooxxxxooooxxoooooxxoooooxxxooooxxoooooxxoooooxxoooooxxoooooxxoooooxxoooooxxoooooxxooooox" ++
     "xoooooxxoooooxxoooooxxoooooxxoooooxxoooooxxoooooxxoooooxxoooooxxoooooxxoooooxxoooooxxooooox" ++
     "xoooooxxoooooxxoooooxxoooooxxoooooxxoooooxxoooooxxoooooxxoooooxxoooooxxoooooxxoooooxxxxooox" ++
     "x") = true.
Proof. vm_compute. reflexivity. Qed.

(** hongkong.rs:379-418 test_hongkong_holiday. *)
Example test_hongkong_379 :
  agrees (country_cal HongKong) (from_ymd_opt 2023 1 1)
    ("xxooooxxoooooxxoooooxxxxxooxxoooooxxoooooxxoooooxxoooooxxoooooxxoooooxxoooooxxoooooxxooooox" ++
     "xooxoxxxxooooxxoooooxxoooooxxxooooxxoooooxxoooooxxooooxxxoooooxxoooooxxoooooxxoooxoxxooooox" ++
     "xoooooxxoooooxxoooooxxoooooxxoooooxxoooooxxoooooxxoooooxxoooooxxoooooxxoooooxxoooooxxooooox" ++
     "xxooooxxoooooxxoooooxxxooooxxoooooxxoooooxxoooooxxoooooxxoooooxxoooooxxoooooxxoooooxxxxooox" ++
     "x") = true.
Proof. vm_compute. reflexivity. Qed.

(** hungary.rs:55-94 test_hungary_holiday. *)
Example test_hungary_55 :
  agrees (country_cal Hungary) (from_ymd_opt 2023 1 1)
    ("xoooooxxoooooxxoooooxxoooooxxoooooxxoooooxxoooooxxoooooxxoooooxxoooooxxooxooxxoooooxxooooox" ++
     "xooooxxxxooooxxoooooxxoooooxxxooooxxoooooxxoooooxxoooooxxxooooxxoooooxxoooooxxoooooxxooooox" ++
     "xoooooxxoooooxxoooooxxoooooxxoooooxxoooooxxoooooxxoooooxxoooooxxoooooxxoooooxxoooooxxooooox" ++
     "xoooooxxoooooxxoooooxxxooooxxooxooxxoooooxxoooooxxoooooxxoooooxxoooooxxoooooxxoooooxxxxooox" ++
     "x") = true.
Proof. vm_compute. reflexivity. Qed.

(** iceland.rs:53-92 test_iceland_holiday. *)
Example test_iceland_53 :
  agrees (country_cal Iceland) (from_ymd_opt 2023 1 1)
    ("xoooooxxoooooxxoooooxxoooooxxoooooxxoooooxxoooooxxoooooxxoooooxxoooooxxoooooxxoooooxxooooox" ++
     "xoooxxxxxooooxxoooxoxxoooooxxxooooxxoooooxxoooxoxxoooooxxxooooxxoooooxxoooooxxoooooxxooooox" ++
     "xoooooxxoooooxxoooooxxoooooxxoooooxxxooooxxoooooxxoooooxxoooooxxoooooxxoooooxxoooooxxooooox" ++
     "xoooooxxoooooxxoooooxxoooooxxoooooxxoooooxxoooooxxoooooxxoooooxxoooooxxoooooxxoooooxxxxooox" ++
     "x") = true.
Proof. vm_compute. reflexivity. Qed.

(** india.rs:437-477 test_india_holiday. *)
Example test_india_437 :
  agrees (country_cal India) (from_ymd_opt 2023 1 1)
    ("xoooooxxoooooxxoooooxxoooxoxxoooooxxoooooxxoooooxxoooooxxoooooxxooxooxxoooooxxooxooxxoooxox" ++
     "xoxooxxxooooxxxoooooxxoooooxxxoooxxxoooooxxoooooxxoooooxxoooooxxoooooxxoooooxxoooooxxooxoox" ++
     "xoooooxxoooooxxoooooxxoooooxxoooooxxoooooxxoxoooxxoooooxxoooooxxoooooxxoooooxxoxoooxxoooxox" ++
     "xxooooxxoooooxxoooooxxoxoooxxoooooxxoooooxxoxoooxxoooooxxxooooxxoooooxxoooooxxoooooxxxoooox" ++
     "x") = true.
Proof. vm_compute. reflexivity. Qed.

(** indonesia.rs:237-276 test_indonesia_holiday. *)
Example test_indonesia_237 :
  agrees (country_cal Indonesia) (from_ymd_opt 2023 1 1)
    ("xoooooxxoooooxxoooooxxoooooxxoooooxxoooooxxoooooxxoooooxxoooooxxoooooxxoooooxxoooooxxooooox" ++
     "xooooxxxoooooxxoooooxxoooooxxoooooxxoooooxxoooxoxxoooooxxoooooxxoooooxxoooooxxoooooxxooooox" ++
     "xoooooxxoooooxxoooooxxoooooxxoooooxxoooooxxoooxoxxoooooxxoooooxxoooooxxoooooxxoooooxxooooox" ++
     "xoooooxxoooooxxoooooxxoooooxxoooooxxoooooxxoooooxxoooooxxoooooxxoooooxxoooooxxoooooxxxoooox" ++
     "x") = true.
Proof. vm_compute. reflexivity. Qed.

(** israel.rs:326-365 test_israel_holiday. *)
Example test_israel_326 :
  agrees (country_cal Israel) (from_ymd_opt 2023 1 1)
    ("oooooxxoooooxxoooooxxoooooxxoooooxxoooooxxoooooxxoooooxxoooooxxooxooxxoooooxxoooooxxoooooxx" ++
     "ooooxxxoooxoxxoooooxxooxxoxxoooooxxoooooxxoooooxxoooooxxoooooxxoooooxxoooooxxoooooxxoooooxx" ++
     "oooooxxoooooxxoooooxxooooxxxoooooxxoooooxxoooooxxoooooxxoooooxxoooooxxoooooxxxooooxxxxoooxx" ++
     "oooooxxoooooxxoooooxxoooooxxoooooxxoooooxxoooooxxoooooxxoooooxxoooooxxoooooxxoooooxxoooooxx" ++
     "o") = true.
Proof. vm_compute. reflexivity. Qed.

(** italy.rs:99-138 test_italy_holiday. *)
Example test_italy_99 :
  agrees (country_cal (Italy None)) (from_ymd_opt 2023 1 1)
    ("xooooxxxoooooxxoooooxxoooooxxoooooxxoooooxxoooooxxoooooxxoooooxxoooooxxoooooxxoooooxxooooox" ++
     "xoooooxxxooooxxoooooxxoxoooxxxooooxxoooooxxoooooxxoooooxxooooxxxoooooxxoooooxxoooooxxooooox" ++
     "xoooooxxoooooxxoooooxxoooooxxoooooxxoooooxxoxoooxxoooooxxoooooxxoooooxxoooooxxoooooxxooooox" ++
     "xoooooxxoooooxxoooooxxoooooxxooxooxxoooooxxoooooxxoooooxxoooooxxooooxxxoooooxxoooooxxxxooox" ++
     "x") = true.
Proof. vm_compute. reflexivity. Qed.

(** japan.rs:140-179 test_japan_holiday. *)
Example test_japan_140 :
  agrees (country_cal Japan) (from_ymd_opt 2023 1 1)
    ("xxxoooxxxooooxxoooooxxoooooxxoooooxxoooooxxoooooxxoooxoxxoooooxxoooooxxoooooxxoxoooxxooooox" ++
     "xoooooxxoooooxxoooooxxoooooxxooxxxxxoooooxxoooooxxoooooxxoooooxxoooooxxoooooxxoooooxxooooox" ++
     "xoooooxxoooooxxxooooxxoooooxxoooooxxooooxxxoooooxxoooooxxoooooxxoooooxxoooooxxxooooxxooooox" ++
     "xoooooxxxooooxxoooooxxoooooxxooooxxxoooooxxoooooxxoooxoxxoooooxxoooooxxoooooxxoooooxxooooox" ++
     "x") = true.
Proof. vm_compute. reflexivity. Qed.

(** mexico.rs:55-94 test_mexico_holiday. *)
Example test_mexico_55 :
  agrees (country_cal Mexico) (from_ymd_opt 2023 1 1)
    ("xoooooxxoooooxxoooooxxoooooxxoooooxxxooooxxoooooxxoooooxxoooooxxoooooxxoooooxxxooooxxooooox" ++
     "xoooxxxxoooooxxoooooxxoooooxxxooooxxoooooxxoooooxxoooooxxoooooxxoooooxxoooooxxoooooxxooooox" ++
     "xoooooxxoooooxxoooooxxoooooxxoooooxxoooooxxoooooxxoooooxxoooooxxoooooxxoooooxxoooooxxooooox" ++
     "xoooooxxoooooxxoooooxxoooooxxoooxoxxoooooxxoooooxxxooooxxoooooxxoooooxxoxoooxxoooooxxxoooox" ++
     "x") = true.
Proof. vm_compute. reflexivity. Qed.

(** newzealand.rs:78-117 test_mexico_holiday. *)
Example test_newzealand_78 :
  agrees (country_cal NewZealand) (from_ymd_opt 2023 1 1)
    ("xxxoooxxoooooxxoooooxxxooooxxoooooxxxooooxxoooooxxoooooxxoooooxxoooooxxoooooxxoooooxxooooox" ++
     "xooooxxxxooooxxoooooxxoxoooxxoooooxxoooooxxoooooxxoooooxxoooooxxxooooxxoooooxxoooooxxooooox" ++
     "xoooooxxooooxxxoooooxxoooooxxoooooxxoooooxxoooooxxoooooxxoooooxxoooooxxoooooxxoooooxxooooox" ++
     "xoooooxxoooooxxoooooxxxooooxxoooooxxoooooxxoooooxxoooooxxoooooxxoooooxxoooooxxoooooxxxxooox" ++
     "x") = true.
Proof. vm_compute. reflexivity. Qed.

(** norway.rs:52-91 test_norway_holiday. *)
Example test_norway_52 :
  agrees (country_cal Norway) (from_ymd_opt 2023 1 1)
    ("xoooooxxoooooxxoooooxxoooooxxoooooxxoooooxxoooooxxoooooxxoooooxxoooooxxoooooxxoooooxxooooox" ++
     "xoooxxxxxooooxxoooooxxoooooxxxooooxxoooooxxooxxoxxoooooxxxooooxxoooooxxoooooxxoooooxxooooox" ++
     "xoooooxxoooooxxoooooxxoooooxxoooooxxoooooxxoooooxxoooooxxoooooxxoooooxxoooooxxoooooxxooooox" ++
     "xoooooxxoooooxxoooooxxoooooxxoooooxxoooooxxoooooxxoooooxxoooooxxoooooxxoooooxxoooooxxxxooox" ++
     "x") = true.
Proof. vm_compute. reflexivity. Qed.

(** poland.rs:52-91 test_poland_holiday. *)
Example test_poland_52 :
  agrees (country_cal Poland) (from_ymd_opt 2023 1 1)
    ("xooooxxxoooooxxoooooxxoooooxxoooooxxoooooxxoooooxxoooooxxoooooxxoooooxxoooooxxoooooxxooooox" ++
     "xoooooxxxooooxxoooooxxoooooxxxoxooxxoooooxxoooooxxoooooxxoooooxxoooxoxxoooooxxoooooxxooooox" ++
     "xoooooxxoooooxxoooooxxoooooxxoooooxxoooooxxoxoooxxoooooxxoooooxxoooooxxoooooxxoooooxxooooox" ++
     "xoooooxxoooooxxoooooxxoooooxxooxooxxoooooxxoooooxxoooooxxoooooxxoooooxxoooooxxoooooxxxxooox" ++
     "x") = true.
Proof. vm_compute. reflexivity. Qed.

(** romania.rs:54-93 test_romania_holiday. *)
Example test_romania_54 :
  agrees (country_cal Romania) (from_ymd_opt 2023 1 1)
    ("xxooooxxoooooxxoooooxxoxoooxxoooooxxoooooxxoooooxxoooooxxoooooxxoooooxxoooooxxoooooxxooooox" ++
     "xoooooxxoooooxxxooooxxoooooxxxooooxxoooooxxoooooxxoooooxxoooxoxxxooooxxoooooxxoooooxxooooox" ++
     "xoooooxxoooooxxoooooxxoooooxxoooooxxoooooxxoxoooxxoooooxxoooooxxoooooxxoooooxxoooooxxooooox" ++
     "xoooooxxoooooxxoooooxxoooooxxoooooxxoooooxxoooooxxoooooxxoooxxxxoooooxxoooooxxoooooxxxxooox" ++
     "x") = true.
Proof. vm_compute. reflexivity. Qed.

(** russia.rs:143-182 test_russia_holiday. *)
Example test_russia_143 :
  agrees (country_cal (Russia None)) (from_ymd_opt 2023 1 1)
    ("xxxxxoxxxooooxxoooooxxoooooxxoooooxxoooooxxoooooxxoooxoxxoooooxxooxooxxoooooxxoooooxxooooox" ++
     "xoooooxxoooooxxoooooxxoooooxxxooooxxoxoooxxoooooxxoooooxxoooooxxoooooxxxooooxxoooooxxooooox" ++
     "xoooooxxoooooxxoooooxxoooooxxoooooxxoooooxxoooooxxoooooxxoooooxxoooooxxoooooxxoooooxxooooox" ++
     "xoooooxxoooooxxoooooxxoooooxxoooooxxxooooxxoooooxxoooooxxoooooxxoooooxxoooooxxoooooxxooooox" ++
     "x") = true.
Proof. vm_compute. reflexivity. Qed.

(** singapore.rs:195-234 test_singapore_holiday. *)
Example test_singapore_195 :
  agrees (country_cal Singapore) (from_ymd_opt 2023 1 1)
    ("xxooooxxoooooxxoooooxxxxoooxxoooooxxoooooxxoooooxxoooooxxoooooxxoooooxxoooooxxoooooxxooooox" ++
     "xooooxxxoooooxxoooooxxoooooxxxooooxxoooooxxoooooxxoooooxxooooxxxoooooxxoooooxxoooooxxoooxox" ++
     "xoooooxxoooooxxoooooxxoooooxxoooooxxooxooxxoooooxxoooooxxoooooxxoooooxxoooooxxoooooxxooooox" ++
     "xoooooxxoooooxxoooooxxoooooxxoooooxxoooooxxxooooxxoooooxxoooooxxoooooxxoooooxxoooooxxxoooox" ++
     "x") = true.
Proof. vm_compute. reflexivity. Qed.

(** slovakia.rs:62-101 test_slovakia_holiday. *)
Example test_slovakia_62 :
  agrees (country_cal Slovakia) (from_ymd_opt 2023 1 1)
    ("xooooxxxoooooxxoooooxxoooooxxoooooxxoooooxxoooooxxoooooxxoooooxxoooooxxoooooxxoooooxxooooox" ++
     "xooooxxxxooooxxoooooxxoooooxxxooooxxxooooxxoooooxxoooooxxoooooxxoooooxxoooooxxoooooxxooooox" ++
     "xooxooxxoooooxxoooooxxoooooxxoooooxxoooooxxoooooxxoooooxxoxooxxxoooooxxooooxxxoooooxxooooox" ++
     "xoooooxxoooooxxoooooxxoooooxxooxooxxoooooxxooooxxxoooooxxoooooxxoooooxxoooooxxoooooxxxxooox" ++
     "x") = true.
Proof. vm_compute. reflexivity. Qed.

(** southafrica.rs:73-112 test_chile_holiday. *)
Example test_southafrica_73 :
  agrees (country_cal SouthAfrica) (from_ymd_opt 2023 1 1)
    ("xxooooxxoooooxxoooooxxoooooxxoooooxxoooooxxoooooxxoooooxxoooooxxoooooxxoooooxxoxoooxxooooox" ++
     "xooooxxxxooooxxoooooxxoooxoxxxooooxxoooooxxoooooxxoooooxxoooooxxoooooxxooooxxxoooooxxooooox" ++
     "xoooooxxoooooxxoooooxxoooooxxoooooxxooxooxxoooooxxoooooxxoooooxxoooooxxoooooxxoooooxxxoooox" ++
     "xoooooxxoooooxxoooooxxoooooxxoooooxxoooooxxoooooxxoooooxxoooooxxoooooxxoooooxxoooooxxxxooox" ++
     "x") = true.
Proof. vm_compute. reflexivity. Qed.

(** southkorea.rs:234-273 test_south_korea_holiday. *)
Example test_southkorea_234 :
  agrees (country_cal SouthKorea) (from_ymd_opt 2023 1 1)
    ("xoooooxxoooooxxoooooxxxxoooxxoooooxxoooooxxoooooxxoooooxxooxooxxoooooxxoooooxxoooooxxooooox" ++
     "xoooooxxoooooxxoooooxxoooooxxxoooxxxoooooxxoooooxxoooooxxxooooxxoxoooxxoooooxxoooooxxooooox" ++
     "xoooooxxoooooxxoooooxxoooooxxoooooxxoooooxxoxoooxxoooooxxoooooxxoooooxxoooooxxoooooxxoooxxx" ++
     "xxxoooxxxooooxxoooooxxoooooxxoooooxxoooooxxoooooxxoooooxxoooooxxoooooxxoooooxxoooooxxxoooox" ++
     "x") = true.
Proof. vm_compute. reflexivity. Qed.

(** sweden.rs:56-95 test_sweden_holiday. *)
Example test_sweden_56 :
  agrees (country_cal Sweden) (from_ymd_opt 2023 1 1)
    ("xooooxxxoooooxxoooooxxoooooxxoooooxxoooooxxoooooxxoooooxxoooooxxoooooxxoooooxxoooooxxooooox" ++
     "xooooxxxxooooxxoooooxxoooooxxxooooxxoooooxxoooxoxxoooooxxoooooxxoxoooxxoooooxxooooxxxooooox" ++
     "xoooooxxoooooxxoooooxxoooooxxoooooxxoooooxxoooooxxoooooxxoooooxxoooooxxoooooxxoooooxxooooox" ++
     "xoooooxxoooooxxoooooxxoooooxxoooooxxoooooxxoooooxxoooooxxoooooxxoooooxxoooooxxoooooxxxxooox" ++
     "x") = true.
Proof. vm_compute. reflexivity. Qed.

(** switzerland.rs:49-88 test_switzerland_holiday. *)
Example test_switzerland_49 :
  agrees (country_cal Switzerland) (from_ymd_opt 2023 1 1)
    ("xxooooxxoooooxxoooooxxoooooxxoooooxxoooooxxoooooxxoooooxxoooooxxoooooxxoooooxxoooooxxooooox" ++
     "xooooxxxxooooxxoooooxxoooooxxxooooxxoooooxxoooxoxxoooooxxxooooxxoooooxxoooooxxoooooxxooooox" ++
     "xoooooxxoooooxxoooooxxoooooxxoxoooxxoooooxxoooooxxoooooxxoooooxxoooooxxoooooxxoooooxxooooox" ++
     "xoooooxxoooooxxoooooxxoooooxxoooooxxoooooxxoooooxxoooooxxoooooxxoooooxxoooooxxoooooxxxxooox" ++
     "x") = true.
Proof. vm_compute. reflexivity. Qed.

(** taiwan.rs:403-446 test_taiwan_holiday. *)
Example test_taiwan_403 :
  agrees (country_cal Taiwan) (from_ymd_opt 2023 1 1)
    ("xxooooxxoooooxxooooxxxxxxxxxxoooooxxoooooxxoooooxxoooooxxxxoooxxoooooxxoooooxxoooooxxooooox" ++
     "xxxxooxxoooooxxoooooxxoooooxxxooooxxoooooxxoooooxxoooooxxoooooxxoooooxxoooooxxoooxxxxooooox" ++
     "xoooooxxoooooxxoooooxxoooooxxoooooxxoooooxxoooooxxoooooxxoooooxxoooooxxoooooxxoooooxxooooxx" ++
     "xoooooxxxxoooxxoooooxxoooooxxoooooxxoooooxxoooooxxoooooxxoooooxxoooooxxoooooxxoooooxxooooox" ++
     "x") = true.
Proof. vm_compute. reflexivity. Qed.

(** target.rs:43-82 test_target_holiday. *)
Example test_target_43 :
  agrees (country_cal Target) (from_ymd_opt 2023 1 1)
    ("xoooooxxoooooxxoooooxxoooooxxoooooxxoooooxxoooooxxoooooxxoooooxxoooooxxoooooxxoooooxxooooox" ++
     "xooooxxxxooooxxoooooxxoooooxxxooooxxoooooxxoooooxxoooooxxoooooxxoooooxxoooooxxoooooxxooooox" ++
     "xoooooxxoooooxxoooooxxoooooxxoooooxxoooooxxoooooxxoooooxxoooooxxoooooxxoooooxxoooooxxooooox" ++
     "xoooooxxoooooxxoooooxxoooooxxoooooxxoooooxxoooooxxoooooxxoooooxxoooooxxoooooxxoooooxxxxooox" ++
     "x") = true.
Proof. vm_compute. reflexivity. Qed.

(** thailand.rs:291-330 test_thailand_holiday. *)
Example test_thailand_291 :
  agrees (country_cal Thailand) (from_ymd_opt 2023 1 1)
    ("xxooooxxoooooxxoooooxxoooooxxoooooxxoooooxxoooooxxoooooxxoooooxxoooooxxoooooxxoooooxxooooox" ++
     "xoooxoxxoooxxxxoooooxxoooooxxxooooxxoooooxxoooooxxoooooxxoooooxxoooooxxoooooxxoooooxxooooox" ++
     "xoooooxxoooooxxoooooxxooooxxxoooooxxoooooxxxooooxxoooooxxoooooxxoooooxxoooooxxoooooxxooooox" ++
     "xoooooxxooooxxxoooooxxoooooxxoooooxxoooooxxoooooxxoooooxxoooooxxoxoooxxxooooxxoooooxxooooox" ++
     "x") = true.
Proof. vm_compute. reflexivity. Qed.

(** turkey.rs:302-341 test_turkey_holiday. *)
Example test_turkey_302 :
  agrees (country_cal Turkey) (from_ymd_opt 2023 1 1)
    ("xoooooxxoooooxxoooooxxoooooxxoooooxxoooooxxoooooxxoooooxxoooooxxoooooxxoooooxxoooooxxooooox" ++
     "xoooooxxoooooxxooooxxxoooooxxxooooxxoooooxxooooxxxoooooxxoooooxxoooooxxoooooxxoooooxxooxxxx" ++
     "xoooooxxoooooxxoooooxxoooooxxoooooxxoooooxxoooooxxoooooxxooxooxxoooooxxoooooxxoooooxxooooox" ++
     "xoooooxxoooooxxoooooxxoooooxxoooooxxoooooxxoooooxxoooooxxoooooxxoooooxxoooooxxoooooxxooooox" ++
     "x") = true.
Proof. vm_compute. reflexivity. Qed.

(** unitedkingdom.rs:110-152 test_uk_holiday. *)
Example test_unitedkingdom_110 :
  agrees (country_cal (UnitedKingdom None)) (from_ymd_opt 2023 1 1)
    ("xxooooxxoooooxxoooooxxoooooxxoooooxxoooooxxoooooxxoooooxxoooooxxoooooxxoooooxxoooooxxooooox" ++
     "xooooxxxxooooxxoooooxxoooooxxxooooxxxooooxxoooooxxoooooxxxooooxxoooooxxoooooxxoooooxxooooox" ++
     "xoooooxxoooooxxoooooxxoooooxxoooooxxoooooxxoooooxxoooooxxxooooxxoooooxxoooooxxoooooxxooooox" ++
     "xoooooxxoooooxxoooooxxoooooxxoooooxxoooooxxoooooxxoooooxxoooooxxoooooxxoooooxxoooooxxxxooox" ++
     "x") = true.
Proof. vm_compute. reflexivity. Qed.

(** unitedstates.rs:341-386 test_us_sofr_holiday. *)
Example test_unitedstates_341 :
  agrees (country_cal (UnitedStates (Some UnitedStatesMarket_SOFR))) (from_ymd_opt 2023 1 1)
    ("xxooooxxoooooxxxooooxxoooooxxoooooxxoooooxxoooooxxxooooxxoooooxxoooooxxoooooxxoooooxxooooox" ++
     "xooooxxxoooooxxoooooxxoooooxxoooooxxoooooxxoooooxxoooooxxxooooxxoooooxxoooooxxxooooxxooooox" ++
     "xoxoooxxoooooxxoooooxxoooooxxoooooxxoooooxxoooooxxoooooxxoooooxxxooooxxoooooxxoooooxxooooox" ++
     "xoooooxxxooooxxoooooxxoooooxxoooooxxoooooxxoooooxxoooxoxxoooooxxoooooxxoooooxxoooooxxxoooox" ++
     "x") = true.
Proof. vm_compute. reflexivity. Qed.
