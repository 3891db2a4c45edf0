(** Lemmas about the country calendars: the Easter tables and the equality of the calendars with
    their cores. *)
From Coq Require Import ZArith Bool List Lia.
From Verif Require Import Base Chrono DateFacts EasterTables CalLib Calendars CalCore.
Import ListNotations.
Local Open Scope Z_scope.

Lemma easter_index_in y : 1901 <= y <= 2199 -> easter_index y = y - 1901.
Proof.
  intros H. unfold easter_index. rewrite (Z.mod_small y) by lia. apply Z.mod_small. lia.
Qed.

Lemma easter_index_out y : - 2147483648 <= y <= 2147483647 -> ~ 1901 <= y <= 2199 ->
  299 <= easter_index y.
Proof.
  intros R H. unfold easter_index.
  destruct (Z_lt_le_dec y 0) as [N | N].
  - replace (y mod 18446744073709551616) with (y + 18446744073709551616).
    2:{ rewrite <- (Z_mod_plus_full y 1). symmetry. rewrite Z.mod_small; lia. }
    rewrite Z.mod_small by lia. lia.
  - rewrite (Z.mod_small y) by lia. destruct (Z_lt_le_dec y 1901) as [L | L].
    + rewrite <- (Z_mod_plus_full _ 1). rewrite Z.mod_small by lia. lia.
    + rewrite Z.mod_small by lia. lia.
Qed.

Lemma easter_monday_out y : - 2147483648 <= y <= 2147483647 -> ~ 1901 <= y <= 2199 ->
  easter_monday y = Panic /\ orthodox_easter_monday y = Panic.
Proof.
  intros R H. pose proof (easter_index_out y R H) as I.
  unfold easter_monday, orthodox_easter_monday, index_usize.
  change (Z.of_nat (length EASTER_MONDAY)) with 299.
  change (Z.of_nat (length ORTHODOX_EASTER_MONDAY)) with 299.
  destruct (easter_index y <? 299) eqn:E; [apply Z.ltb_lt in E; lia |]. split; reflexivity.
Qed.

(** The entry of a table for a year, with a default. *)
Definition entry (t : list Z) (y : Z) : Z := nth (Z.to_nat (y - 1901)) t 0.

Lemma easter_monday_in y : 1901 <= y <= 2199 ->
  easter_monday y = Ret (entry EASTER_MONDAY y)
  /\ orthodox_easter_monday y = Ret (entry ORTHODOX_EASTER_MONDAY y).
Proof.
  intros H. unfold easter_monday, orthodox_easter_monday, index_usize.
  rewrite (easter_index_in y H).
  change (Z.of_nat (length EASTER_MONDAY)) with 299.
  change (Z.of_nat (length ORTHODOX_EASTER_MONDAY)) with 299.
  destruct (y - 1901 <? 299) eqn:E; [| apply Z.ltb_ge in E; lia].
  unfold index, unwrap, entry. split.
  - rewrite nth_error_nth' with (d := 0); [reflexivity |].
    change (length EASTER_MONDAY) with 299%nat. lia.
  - rewrite nth_error_nth' with (d := 0); [reflexivity |].
    change (length ORTHODOX_EASTER_MONDAY) with 299%nat. lia.
Qed.

Lemma ret_if {A} (b : bool) (x y : A) :
  (if b then Ret x else Ret y) = Ret (if b then x else y).
Proof. now destruct b. Qed.

Lemma if_false_true (b : bool) : (if b then false else true) = negb b.
Proof. now destruct b. Qed.

Ltac all_markets :=
  repeat match goal with
  | m : option _ |- _ => destruct m as [[]|]
  end.

(** Inside the tables every calendar is its core. *)
Lemma country_core_eq c date em oem :
  easter_monday (nd_year date) = Ret em -> orthodox_easter_monday (nd_year date) = Ret oem ->
  country_cal c date
  = Ret (country_core c (nd_day date) (weekday date) (nd_month date) (nd_year date) (ordinal date)
           em oem).
Proof.
  intros E O. destruct date as [y m d]; cbn [nd_year nd_month nd_day] in *.
  destruct c; all_markets; cal_unfold; cbn [nd_year nd_month nd_day];
    rewrite ?E, ?O; cbn [bind]; rewrite ?E, ?O; cbn [bind]; rewrite ?ret_if; cbn [bind];
    rewrite ?ret_if; try reflexivity.
Time Qed.
