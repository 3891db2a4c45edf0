(** The limits of adding years, with the bounds of a 32-bit integer written out as numbers.  C09, C10
    and C76 state them through [in_i32], which is part of the model. *)
From Coq Require Import ZArith Lia Bool.
From Verif Require Import Base Chrono Gregorian DateModel DateFacts PropsDate.
Open Scope Z_scope.

Lemma in_i32_bounds z : in_i32 z = true <-> -2147483648 <= z <= 2147483647.
Proof. unfold in_i32, i32_min, i32_max. rewrite andb_true_iff, !Z.leb_le. lia. Qed.

(** Within the bounds both builds answer, and with a date exactly when the target year is representable. *)
Theorem C09_add_years_bounds : forall b d k, a_date d -> -2147483648 <= year d + k <= 2147483647 ->
  date_add_years b d k <> Panic /\ (date_add_years b d k = Ret None <-> ~ representable (year d + k)).
Proof.
  intros b d k Hd H. apply in_i32_bounds in H. split; [| now apply C09_add_years_none].
  destruct (C09_add_years b d k Hd H) as (o & E & _). rewrite E. discriminate.
Qed.
Print Assumptions C09_add_years_bounds.

(** With overflow checks the addition panics exactly outside the bounds. *)
Theorem C10_add_years_panic_bounds : forall d k, a_date d ->
  (date_add_years Checked d k = Panic <-> year d + k < -2147483648 \/ 2147483647 < year d + k).
Proof.
  intros d k Hd. rewrite (C10_add_years_checked_panics d k Hd), <- not_true_iff_false, in_i32_bounds. lia.
Qed.
Print Assumptions C10_add_years_panic_bounds.

(** The last values on either side of both bounds. *)
Example C10_bounds_case :
  date_add_years Checked (mkDate (-1) 3 1) (-2147483647) = Ret None
  /\ date_add_years Checked (mkDate (-2) 3 1) (-2147483647) = Panic
  /\ date_add_years Checked (mkDate 1 3 1) 2147483646 = Ret None
  /\ date_add_years Checked (mkDate 2 3 1) 2147483646 = Panic.
Proof. repeat split; vm_compute; reflexivity. Qed.
