(** C83 the text of dates; C84 the text of errors. *)
From Coq Require Import ZArith Lia Bool Ascii String DecimalString DecimalZ DecimalPos Reals.
From Verif Require Import Base Chrono DateModel Gregorian DateFacts TextModel Value ErrorText DayCountModel InterpModel CurveModel RealValue PropsDate PropsDayCount
  Grid InterpFacts PropsCatmullRom PropsNaturalCubic.
Open Scope string_scope.
Open Scope Z_scope.
Ltac Zify.zify_post_hook ::= Z.div_mod_to_equations.

(** ** Decimal numerals *)

(** The number a character stands for. *)
Definition digit_value (c : ascii) : option Z :=
  let n := Z.of_nat (nat_of_ascii c) - 48 in if (0 <=? n) && (n <=? 9) then Some n else None.

(** Read digits from the left, after the digits of [acc]. *)
Fixpoint read_digits (acc : Z) (s : string) : option Z :=
  match s with
  | EmptyString => Some acc
  | String c t => match digit_value c with Some d => read_digits (10 * acc + d) t | None => None end
  end.

(** [s] is a decimal numeral, digits only, of [z]. *)
Definition numeral (s : string) (z : Z) : Prop := s <> "" /\ read_digits 0 s = Some z.

Lemma digit_value_digit d : 0 <= d <= 9 -> digit_value (digit d) = Some d.
Proof.
  intros H. assert (d = 0 \/ d = 1 \/ d = 2 \/ d = 3 \/ d = 4 \/ d = 5 \/ d = 6 \/ d = 7 \/ d = 8 \/ d = 9) as C by lia.
  repeat (destruct C as [-> | C]; [reflexivity |]). now subst.
Qed.

Lemma read_app s : forall acc t, read_digits acc (s ++ t)
  = match read_digits acc s with Some v => read_digits v t | None => None end.
Proof. induction s as [| c s IH]; intros acc t; cbn; [reflexivity |]. destruct (digit_value c); [apply IH | reflexivity]. Qed.

Lemma read_hundreds acc n : 0 <= n <= 99 -> read_digits acc (write_hundreds n) = Some (100 * acc + n).
Proof. intros H. unfold write_hundreds. cbn [read_digits]. rewrite !digit_value_digit by lia. f_equal. lia. Qed.

Lemma read_zeros n t : read_digits 0 (zeros n ++ t) = read_digits 0 t.
Proof. induction n as [| n IH]; cbn; [reflexivity | exact IH]. Qed.

Lemma length_zeros n : length (zeros n) = n.
Proof. induction n; cbn; congruence. Qed.

Lemma length_app s t : length (s ++ t) = (length s + length t)%nat.
Proof. induction s; cbn; congruence. Qed.

Lemma read_uint d : forall p, read_digits (Zpos p) (NilEmpty.string_of_uint d) = Some (Zpos (Pos.of_uint_acc d p)).
Proof.
  induction d as [| d IH | d IH | d IH | d IH | d IH | d IH | d IH | d IH | d IH | d IH]; intros p; [reflexivity | ..];
    cbn [NilEmpty.string_of_uint read_digits Pos.of_uint_acc];
    (rewrite <- IH; change (digit_value "0") with (Some 0); change (digit_value "1") with (Some 1);
     change (digit_value "2") with (Some 2); change (digit_value "3") with (Some 3);
     change (digit_value "4") with (Some 4); change (digit_value "5") with (Some 5);
     change (digit_value "6") with (Some 6); change (digit_value "7") with (Some 7);
     change (digit_value "8") with (Some 8); change (digit_value "9") with (Some 9); cbv iota beta; f_equal; lia).
Qed.

Lemma read_uint0 d : read_digits 0 (NilEmpty.string_of_uint d) = Some (Z.of_N (Pos.of_uint d)).
Proof.
  induction d as [| d IH | d IH | d IH | d IH | d IH | d IH | d IH | d IH | d IH | d IH]; [reflexivity | exact IH | ..]; apply read_uint.
Qed.

Lemma show_int_read z : 0 <= z -> numeral (show_int z) z.
Proof.
  intros H. unfold show_int. destruct z as [| p | p]; [now split | | lia]. cbn [Z.to_int NilEmpty.string_of_int]. split.
  - intros E. pose proof (read_uint0 (Pos.to_uint p)) as R. rewrite E, Unsigned.of_to in R. discriminate.
  - rewrite read_uint0, Unsigned.of_to. reflexivity.
Qed.

Lemma show_int_inj a b : show_int a = show_int b -> a = b.
Proof.
  unfold show_int. intros E. apply to_int_inj. apply (f_equal NilEmpty.int_of_string) in E.
  rewrite !NilEmpty.isi in E. now injection E.
Qed.

(** ** C83 *)

(** The text of a date: a year, a month and a day, joined by hyphens; two digits for the month and the day; four
    digits for the years 0 to 9999, and a sign and at least four digits, but no more than needed, for the other years. *)
Definition four_or_needed (s : string) (z : Z) : Prop := length s = 4%nat \/ (4 < length s)%nat /\ 10 ^ (Z.of_nat (length s) - 1) <= z.

Inductive date_text (d : NaiveDate) : string -> Prop :=
| plain_text ys ms ds : 0 <= nd_year d <= 9999 -> length ys = 4%nat -> length ms = 2%nat -> length ds = 2%nat ->
    numeral ys (nd_year d) -> numeral ms (nd_month d) -> numeral ds (nd_day d) -> date_text d (ys ++ "-" ++ ms ++ "-" ++ ds)
| late_text ys ms ds : 9999 < nd_year d -> four_or_needed ys (nd_year d) -> length ms = 2%nat -> length ds = 2%nat ->
    numeral ys (nd_year d) -> numeral ms (nd_month d) -> numeral ds (nd_day d) -> date_text d ("+" ++ ys ++ "-" ++ ms ++ "-" ++ ds)
| early_text ys ms ds : nd_year d < 0 -> four_or_needed ys (- nd_year d) -> length ms = 2%nat -> length ds = 2%nat ->
    numeral ys (- nd_year d) -> numeral ms (nd_month d) -> numeral ds (nd_day d) -> date_text d ("-" ++ ys ++ "-" ++ ms ++ "-" ++ ds).

Lemma a_date_bounds d : a_date d -> 1 <= nd_month d <= 12 /\ 1 <= nd_day d <= 31 /\ -262143 <= nd_year d <= 262142.
Proof.
  intros Hd. split; [| split; [| apply Hd]]; apply valid_a_date, valid_proper in Hd; destruct Hd as [Hm Hr]; [exact Hm |].
  pose proof (month_len_range (nd_year d) (nd_month d) Hm). lia.
Qed.

Lemma hundreds_numeral n : 0 <= n <= 99 -> numeral (write_hundreds n) n.
Proof. intros H. split; [discriminate |]. rewrite read_hundreds by exact H. reflexivity. Qed.

Lemma read_bound s : forall acc v, 0 <= acc -> read_digits acc s = Some v -> v < (acc + 1) * 10 ^ Z.of_nat (length s).
Proof.
  induction s as [| c s IH]; intros acc v Ha E.
  - injection E as <-. cbn. lia.
  - cbn [read_digits] in E. destruct (digit_value c) as [k |] eqn:Ek; [| discriminate].
    assert (0 <= k <= 9) as Hk.
    { unfold digit_value in Ek. destruct (_ && _) eqn:B in Ek; [| discriminate]. apply andb_true_iff in B. rewrite !Z.leb_le in B.
      injection Ek as <-. exact B. }
    apply IH in E; [| lia]. cbn [length]. rewrite Nat2Z.inj_succ, Z.pow_succ_r by lia.
    pose proof (Z.pow_pos_nonneg 10 (Z.of_nat (length s)) ltac:(lia) ltac:(lia)) as P. nia.
Qed.

Lemma read_least s : forall acc v, 0 <= acc -> read_digits acc s = Some v -> acc * 10 ^ Z.of_nat (length s) <= v.
Proof.
  induction s as [| c s IH]; intros acc v Ha E.
  - injection E as <-. cbn. lia.
  - cbn [read_digits] in E. destruct (digit_value c) as [k |] eqn:Ek; [| discriminate].
    assert (0 <= k) as Hk.
    { unfold digit_value in Ek. destruct (_ && _) eqn:B in Ek; [| discriminate]. apply andb_true_iff in B. rewrite !Z.leb_le in B.
      injection Ek as <-. lia. }
    apply IH in E; [| lia]. cbn [length]. rewrite Nat2Z.inj_succ, Z.pow_succ_r by lia.
    pose proof (Z.pow_pos_nonneg 10 (Z.of_nat (length s)) ltac:(lia) ltac:(lia)) as P. nia.
Qed.

(** No leading zero. *)
Lemma show_int_least z : 0 < z -> 10 ^ (Z.of_nat (length (show_int z)) - 1) <= z.
Proof.
  intros H. destruct z as [| p | p]; try lia. pose proof (show_int_read (Zpos p) ltac:(lia)) as [_ R].
  unfold show_int in *. cbn [Z.to_int NilEmpty.string_of_int] in *.
  assert (forall t, Pos.to_uint p <> Decimal.D0 t) as N0.
  { intros t E. pose proof (Unsigned.of_to p) as O. pose proof (DecimalPos.Unsigned.to_of (Pos.to_uint p)) as T. rewrite O in T.
    cbn [N.to_uint] in T. unfold Decimal.unorm in T. destruct (Decimal.nzhead (Pos.to_uint p)) eqn:Z.
    - rewrite T in O. discriminate O.
    - now apply DecimalFacts.nzhead_nonzero in Z.
    - rewrite T in E. discriminate E.
    - rewrite T in E. discriminate E.
    - rewrite T in E. discriminate E.
    - rewrite T in E. discriminate E.
    - rewrite T in E. discriminate E.
    - rewrite T in E. discriminate E.
    - rewrite T in E. discriminate E.
    - rewrite T in E. discriminate E.
    - rewrite T in E. discriminate E. }
  assert (forall c t, digit_value c <> None -> digit_value c <> Some 0 -> read_digits 0 (String c t) = Some (Zpos p) ->
    10 ^ (Z.of_nat (length (String c t)) - 1) <= Zpos p) as L.
  { intros c t Nn Nz E. cbn [read_digits] in E. destruct (digit_value c) as [k |] eqn:Ek; [| discriminate].
    assert (1 <= k) as Hk.
    { assert (k <> 0) by congruence. unfold digit_value in Ek. destruct (_ && _) eqn:B in Ek; [| discriminate]. apply andb_true_iff in B. rewrite !Z.leb_le in B.
      injection Ek as <-. lia. }
    apply read_least in E; [| lia]. cbn [length]. rewrite Nat2Z.inj_succ. replace (Z.succ (Z.of_nat (length t)) - 1) with (Z.of_nat (length t)) by lia.
    pose proof (Z.pow_pos_nonneg 10 (Z.of_nat (length t)) ltac:(lia) ltac:(lia)) as P. nia. }
  destruct (Pos.to_uint p) as [| u | u | u | u | u | u | u | u | u | u]; cbn [NilEmpty.string_of_uint] in *;
    [discriminate R | now destruct (N0 u) | ..]; (apply L; [discriminate | discriminate | exact R]).
Qed.

Lemma padded z : 0 < z -> four_or_needed (zeros (4 - length (show_int z)) ++ show_int z) z.
Proof.
  intros H. unfold four_or_needed. rewrite length_app, length_zeros. pose proof (show_int_least z H) as L.
  destruct (Nat.le_gt_cases (length (show_int z)) 4) as [C | C]; [left; lia | right]. replace (4 - length (show_int z))%nat with 0%nat by lia.
  cbn [Nat.add]. split; [exact C | exact L].
Qed.

Theorem C83_text : forall d, a_date d -> date_text d (show_date d).
Proof.
  intros d H. apply a_date_bounds in H. destruct H as (Hm & Hd & Hy).
  unfold show_date, show_year. destruct (Z.leb_spec 0 (nd_year d)) as [L | L]; destruct (Z.leb_spec (nd_year d) 9999) as [U | U]; cbn [andb]; cbv zeta.
  - apply plain_text; try apply hundreds_numeral; try reflexivity; try lia.
    split; [discriminate |]. rewrite read_app, !read_hundreds by lia. f_equal. lia.
  - assert ((nd_year d <? 0) = false) as -> by (apply Z.ltb_ge; lia).
    rewrite Z.abs_eq by lia.
    change ("+" ++ ?a) with (String "+" a). cbn [append]. change (String "+" ?a) with ("+" ++ a).
    destruct (show_int_read (nd_year d) L) as [N R].
    apply late_text; try apply hundreds_numeral; try reflexivity; try lia.
    + apply padded. lia.
    + split; [| now rewrite read_zeros].
      intros E. apply (f_equal (read_digits 0)) in E. rewrite read_zeros, R in E. injection E. lia.
  - assert ((nd_year d <? 0) = true) as -> by (apply Z.ltb_lt; lia).
    rewrite Z.abs_neq by lia.
    cbn [append]. change (String "-" (?a ++ ?b)) with ("-" ++ a ++ b).
    destruct (show_int_read (- nd_year d) ltac:(lia)) as [N R].
    apply early_text; try apply hundreds_numeral; try reflexivity; try lia.
    + apply padded. lia.
    + split; [| now rewrite read_zeros].
      intros E. apply (f_equal (read_digits 0)) in E. rewrite read_zeros, R in E. injection E. lia.
  - lia.
Qed.
Print Assumptions C83_text.

Lemma app_inv s : forall s' t t', length s = length s' -> s ++ t = s' ++ t' -> s = s' /\ t = t'.
Proof.
  induction s as [| c s IH]; intros [| c' s'] t t' L E; try discriminate; [now split |].
  cbn in L, E. injection E as -> E. injection L as L. destruct (IH _ _ _ L E) as [-> ->]. now split.
Qed.

Lemma app_inv_end s s' t t' : length t = length t' -> s ++ t = s' ++ t' -> s = s' /\ t = t'.
Proof.
  intros L E. apply app_inv; [| exact E]. apply (f_equal length) in E. rewrite !length_app in E. lia.
Qed.

Lemma numeral_fun s a b : numeral s a -> numeral s b -> a = b.
Proof. intros [_ A] [_ B]. congruence. Qed.

Lemma numeral_head c s z : numeral (String c s) z -> digit_value c <> None.
Proof. intros [_ H]. cbn in H. now destruct (digit_value c). Qed.

(** Different dates have different texts. *)
Theorem C83_injective : forall d1 d2, a_date d1 -> a_date d2 -> show_date d1 = show_date d2 -> d1 = d2.
Proof.
  intros d1 d2 H1 H2 E. pose proof (C83_text d1 H1) as T1. pose proof (C83_text d2 H2) as T2. rewrite E in T1. clear E H1 H2.
  assert (forall ys ms ds ys' ms' ds' a b a' b', length ms = 2%nat -> length ds = 2%nat -> length ms' = 2%nat -> length ds' = 2%nat ->
    numeral ms a -> numeral ds b -> numeral ms' a' -> numeral ds' b' ->
    ys ++ "-" ++ ms ++ "-" ++ ds = ys' ++ "-" ++ ms' ++ "-" ++ ds' -> ys = ys' /\ a = a' /\ b = b') as Split.
  { intros ys ms ds ys' ms' ds' a b a' b' L1 L2 L3 L4 N1 N2 N3 N4 E.
    apply app_inv_end in E; [| cbn [length append]; rewrite !length_app; cbn [length append]; rewrite ?length_app; cbn [length]; lia].
    destruct E as [-> E]. cbn [append] in E. injection E as E. apply app_inv in E; [| congruence]. destruct E as [-> E].
    injection E as ->. split; [reflexivity |]. split; eapply numeral_fun; eassumption. }
  assert (forall c ys z t t', digit_value c = None -> numeral ys z -> String c t = ys ++ t' -> False) as Sign.
  { intros c ys z t t' D N E. destruct ys as [| c' ys]; [now destruct N |]. injection E as -> _. now apply numeral_head in N. }
  destruct d1 as [y1 m1 a1], d2 as [y2 m2 a2]. cbn [nd_year nd_month nd_day] in *.
  inversion T1 as [ys ms ds Y Ly Lm Ld Ny Nm Nd E | ys ms ds Y Ly Lm Ld Ny Nm Nd E | ys ms ds Y Ly Lm Ld Ny Nm Nd E];
    rewrite <- E in T2; clear E T1; cbn [nd_year nd_month nd_day] in *;
    inversion T2 as [ys' ms' ds' Y' Ly' Lm' Ld' Ny' Nm' Nd' E | ys' ms' ds' Y' Ly' Lm' Ld' Ny' Nm' Nd' E | ys' ms' ds' Y' Ly' Lm' Ld' Ny' Nm' Nd' E];
    clear T2; cbn [nd_year nd_month nd_day] in *.
  1: destruct (Split _ _ _ _ _ _ _ _ _ _ Lm' Ld' Lm Ld Nm' Nd' Nm Nd E) as (-> & -> & ->); f_equal; eapply numeral_fun; eassumption.
  1: exfalso; refine (Sign "+"%char ys _ _ _ eq_refl Ny E).
  1: exfalso; refine (Sign "-"%char ys _ _ _ eq_refl Ny E).
  1: exfalso; refine (Sign "+"%char ys' _ _ _ eq_refl Ny' (eq_sym E)).
  1: destruct (Split _ _ _ _ _ _ _ _ _ _ Lm' Ld' Lm Ld Nm' Nd' Nm Nd E) as (-> & -> & ->); f_equal; eapply numeral_fun; eassumption.
  1: exfalso; refine (Sign "-"%char ys' _ _ _ eq_refl Ny' (eq_sym E)).
  destruct (Split _ _ _ _ _ _ _ _ _ _ Lm' Ld' Lm Ld Nm' Nd' Nm Nd E) as (-> & -> & ->); f_equal.
  apply Z.opp_inj. eapply numeral_fun; eassumption.
Qed.
Print Assumptions C83_injective.

Lemma compare_app s : forall s' t t', length s = length s' ->
  String.compare (s ++ t) (s' ++ t') = match String.compare s s' with Eq => String.compare t t' | r => r end.
Proof.
  induction s as [| c s IH]; intros [| c' s'] t t' L; try discriminate; [reflexivity |].
  cbn. destruct (Ascii.compare c c'); try reflexivity. apply IH. now injection L.
Qed.

Lemma compare_digit a b : 0 <= a <= 9 -> 0 <= b <= 9 -> Ascii.compare (digit a) (digit b) = (a ?= b).
Proof.
  intros Ha Hb.
  assert (a = 0 \/ a = 1 \/ a = 2 \/ a = 3 \/ a = 4 \/ a = 5 \/ a = 6 \/ a = 7 \/ a = 8 \/ a = 9) as A by lia.
  assert (b = 0 \/ b = 1 \/ b = 2 \/ b = 3 \/ b = 4 \/ b = 5 \/ b = 6 \/ b = 7 \/ b = 8 \/ b = 9) as B by lia.
  clear Ha Hb. repeat (destruct A as [-> | A]; [repeat (destruct B as [-> | B]; [reflexivity |]); subst; reflexivity |]).
  subst a. repeat (destruct B as [-> | B]; [reflexivity |]); subst; reflexivity.
Qed.

Lemma compare_parts k a b : 0 < k ->
  match (a / k ?= b / k) with Eq => (a mod k ?= b mod k) | r => r end = (a ?= b).
Proof.
  intros K. pose proof (Z.div_mod a k ltac:(lia)) as A. pose proof (Z.div_mod b k ltac:(lia)) as B.
  pose proof (Z.mod_pos_bound a k K). pose proof (Z.mod_pos_bound b k K).
  symmetry. destruct (Z.compare_spec (a / k) (b / k)) as [E | E | E].
  - rewrite E in A. destruct (Z.compare_spec (a mod k) (b mod k)); [apply Z.compare_eq_iff | apply Z.compare_lt_iff | apply Z.compare_gt_iff]; lia.
  - apply Z.compare_lt_iff. nia.
  - apply Z.compare_gt_iff. nia.
Qed.

Lemma compare_hundreds a b : 0 <= a <= 99 -> 0 <= b <= 99 -> String.compare (write_hundreds a) (write_hundreds b) = (a ?= b).
Proof.
  intros Ha Hb. unfold write_hundreds. cbn [String.compare]. rewrite !compare_digit by lia.
  rewrite <- (compare_parts 10 a b) by lia. destruct (a / 10 ?= b / 10); try reflexivity. now destruct (a mod 10 ?= b mod 10).
Qed.

(** Between the years 0 and 9999, sorting texts sorts dates. *)
Theorem C83_sorted_partial : forall d1 d2, a_date d1 -> a_date d2 -> 0 <= nd_year d1 <= 9999 -> 0 <= nd_year d2 <= 9999 ->
  (String.compare (show_date d1) (show_date d2) = Lt <-> earlier d1 d2).
Proof.
  intros d1 d2 H1 H2 Y1 Y2. apply a_date_bounds in H1, H2.
  unfold show_date, show_year.
  assert ((0 <=? nd_year d1) && (nd_year d1 <=? 9999) = true) as -> by (apply andb_true_iff; rewrite !Z.leb_le; lia).
  assert ((0 <=? nd_year d2) && (nd_year d2 <=? 9999) = true) as -> by (apply andb_true_iff; rewrite !Z.leb_le; lia).
  rewrite compare_app by reflexivity. rewrite compare_app by reflexivity. rewrite !compare_hundreds by lia.
  rewrite compare_parts by lia. change ("-" ++ ?a) with (String "-" a). cbn [append].
  cbn [String.compare]. change (Ascii.compare "-" "-") with Eq. cbv iota.
  rewrite compare_app by reflexivity. rewrite compare_hundreds by lia.
  cbn [String.compare]. change (Ascii.compare "-" "-") with Eq. cbv iota. rewrite compare_hundreds by lia. unfold earlier.
  destruct (Z.compare_spec (nd_year d1) (nd_year d2)); [| split; [lia | reflexivity] | split; [discriminate | lia]].
  destruct (Z.compare_spec (nd_month d1) (nd_month d2)); [| split; [lia | reflexivity] | split; [discriminate | lia]].
  destruct (Z.compare_spec (nd_day d1) (nd_day d2)); [| split; [lia | reflexivity] |]; (split; [discriminate | lia]).
Qed.
Print Assumptions C83_sorted_partial.

(** Not outside them. *)
Theorem C83_sorted_refuted : exists d1 d2, a_date d1 /\ a_date d2 /\ 0 <= nd_year d1 /\ 0 <= nd_year d2
  /\ earlier d1 d2 /\ String.compare (show_date d2) (show_date d1) = Lt.
Proof.
  exists (mkDate 9999 12 31), (mkDate 10000 1 1). split; [now apply valid_a_date |]. split; [now apply valid_a_date |].
  cbn [nd_year]. split; [lia |]. split; [lia |]. split; [left; cbn; lia | reflexivity].
Qed.
Print Assumptions C83_sorted_refuted.

Example C83_case : a_date (mkDate 2024 2 29) /\ show_date (mkDate 2024 2 29) = "2024-02-29"
  /\ show_date (mkDate (-7) 12 1) = "-0007-12-01" /\ show_date (mkDate 12345 1 9) = "+12345-01-09"
  /\ numeral "0709" 709.
Proof. split; [now apply valid_a_date |]. repeat split; discriminate. Qed.

(** ** C84 *)

(** [c] does not occur in [s]. *)
Fixpoint without (c : ascii) (s : string) : Prop :=
  match s with EmptyString => True | String a t => a <> c /\ without c t end.

Lemma without_app c s t : without c s -> without c t -> without c (s ++ t).
Proof. induction s as [| a s IH]; cbn; [tauto |]. intros [N W] T. split; [exact N | now apply IH]. Qed.

Lemma read_without s c : digit_value c = None -> forall acc v, read_digits acc s = Some v -> without c s.
Proof.
  intros D. induction s as [| a s IH]; intros acc v R; [exact I |]. cbn in R. destruct (digit_value a) as [k |] eqn:K; [| discriminate].
  split; [congruence | eapply IH, R].
Qed.

Lemma show_int_without z : without " " (show_int z).
Proof.
  destruct (Z_le_gt_dec 0 z) as [H | H].
  - destruct (show_int_read z H) as [_ R]. eapply read_without, R. reflexivity.
  - destruct (show_int_read (- z) ltac:(lia)) as [_ R]. apply (read_without _ " ") in R; [| reflexivity].
    destruct z as [| p | p]; try lia. unfold show_int in *. cbn in *. split; [discriminate | exact R].
Qed.

Lemma show_date_without d : a_date d -> without " " (show_date d).
Proof.
  intros H. destruct (C83_text d H) as [ys ms ds Y Ly Lm Ld [_ Ny] [_ Nm] [_ Nd] | ys ms ds Y Ly Lm Ld [_ Ny] [_ Nm] [_ Nd] | ys ms ds Y Ly Lm Ld [_ Ny] [_ Nm] [_ Nd]];
    (apply (read_without _ " ") in Ny; [| reflexivity]; apply (read_without _ " ") in Nm; [| reflexivity];
     apply (read_without _ " ") in Nd; [| reflexivity]);
    repeat (apply without_app; [first [assumption | split; [discriminate | exact I]] |]); assumption.
Qed.

Lemma split_at c s : forall s' t t', without c s -> without c s' -> s ++ String c t = s' ++ String c t' -> s = s' /\ t = t'.
Proof.
  induction s as [| a s IH]; intros [| a' s'] t t' W W' E; cbn in *.
  - injection E as ->. now split.
  - injection E as -> _. now destruct W'.
  - injection E as -> _. now destruct W.
  - injection E as -> E. destruct W as [_ W], W' as [_ W']. destruct (IH _ _ _ W W' E) as [-> ->]. now split.
Qed.

(** The text of an error determines the error, when the message of a failed cast has no space in it. *)
Theorem C84_errors_partial : forall e1 e2,
  (forall m, e1 = CastNumberError m \/ e2 = CastNumberError m -> without " " m) ->
  show_error e1 = show_error e2 -> e1 = e2.
Proof.
  assert (forall m1 s2 t1 t2, without " " m1 -> without " " s2 -> m1 ++ String " " t1 = s2 ++ String " " t2 -> t1 <> t2 -> False) as X.
  { intros m1 s2 t1 t2 W W' E N. apply split_at in E; tauto. }
  intros e1 e2 C E.
  destruct e1 as [| m1 | m1 |], e2 as [| m2 | m2 |]; cbn [show_error] in E; try reflexivity; try discriminate.
  - exfalso. refine (X m2 "Zero" _ "division occurred" (C _ (or_intror eq_refl)) _ (eq_sym E) _); [repeat split | ]; discriminate.
  - exfalso. refine (X m1 "Zero" _ "division occurred" (C _ (or_introl eq_refl)) _ E _); [repeat split | ]; discriminate.
  - apply split_at in E; [now destruct E as [-> _] | apply C; tauto | apply C; tauto].
  - exfalso. refine (X m1 "Invalid" _ ("inputs are passed by: " ++ m2) (C _ (or_introl eq_refl)) _ E _); [repeat split | ]; discriminate.
  - exfalso. refine (X m1 "interpolation" _ "failed" (C _ (or_introl eq_refl)) _ E _); [repeat split | ]; discriminate.
  - exfalso. refine (X m2 "Invalid" _ ("inputs are passed by: " ++ m1) (C _ (or_intror eq_refl)) _ (eq_sym E) _); [repeat split | ]; discriminate.
  - apply app_inv in E; [now destruct E as [_ ->] | reflexivity].
  - exfalso. refine (X m2 "interpolation" _ "failed" (C _ (or_intror eq_refl)) _ (eq_sym E) _); [repeat split | ]; discriminate.
Qed.
Print Assumptions C84_errors_partial.

(** It does not in general. *)
Theorem C84_errors_refuted : exists e1 e2, e1 <> e2 /\ show_error e1 = show_error e2.
Proof.
  exists (CastNumberError "Invalid inputs are passed by: 7"), (InvalidInput "7 cannot cast to a primitive type").
  split; [discriminate | reflexivity].
Qed.
Print Assumptions C84_errors_refuted.

(** The day counts only give messages of the first kind. *)
Theorem C84_cast_messages : forall b (V : Value) d1 d2 m,
  (act_360 V d1 d2 = Ret (Err (CastNumberError m)) \/ act_365 V d1 d2 = Ret (Err (CastNumberError m))
   \/ thirty_360 b V d1 d2 = Ret (Err (CastNumberError m))) -> without " " m.
Proof.
  intros b V d1 d2 m [H | [H | H]].
  - unfold act_360 in H. destruct (v_of_int _); [destruct (v_const _); discriminate | injection H as <-; apply show_int_without].
  - unfold act_365 in H. destruct (v_of_int _); [destruct (v_const _); discriminate | injection H as <-; apply show_int_without].
  - unfold thirty_360 in H. destruct (thirty_360_diff b d1 d2) as [[z | e] | |] eqn:E; cbn in H; try discriminate.
    + destruct (v_of_int z); [| injection H as <-; apply show_int_without].
      destruct (v_of_int 360); [discriminate |]. injection H as <-. unfold msg_360. repeat split; discriminate.
    + exfalso. injection H as ->. unfold thirty_360_diff in E. destruct (date_ltb d2 d1); [discriminate |].
      repeat (match type of E with bind ?x _ = _ => destruct x; cbn [bind] in E end; try discriminate); discriminate.
Qed.
Print Assumptions C84_cast_messages.

(** The text of an interpolation error determines it, when the texts of numbers determine them. *)
Theorem C84_interpolation_errors : forall (V : Type) (show : V -> string), (forall x y, show x = show y -> x = y) ->
  forall e1 e2, show_interpolation_error show e1 = show_interpolation_error show e2 -> e1 = e2.
Proof.
  intros V show Inj e1 e2 E.
  destruct e1 as [| x | x | n], e2 as [| y | y | k]; cbn [show_interpolation_error] in E; try reflexivity; try discriminate.
  - apply app_inv in E; [| reflexivity]. f_equal. now apply Inj.
  - apply app_inv in E; [| reflexivity]. f_equal. now apply Inj.
  - apply app_inv in E; [| reflexivity]. destruct E as [_ E]. apply split_at in E; [| apply show_int_without ..].
    destruct E as [E _]. apply show_int_inj in E. f_equal. lia.
Qed.
Print Assumptions C84_interpolation_errors.

(** The text of a rejected 30/360 count determines the two dates. *)
Theorem C84_thirty_360 : forall b b' (V : Value) d1 d2 d1' d2' e e',
  a_date d1 -> a_date d2 -> a_date d1' -> a_date d2' -> earlier d2 d1 -> earlier d2' d1' ->
  thirty_360 b V d1 d2 = Ret (Err e) -> thirty_360 b' V d1' d2' = Ret (Err e') -> show_error e = show_error e' ->
  d1 = d1' /\ d2 = d2'.
Proof.
  intros b b' V d1 d2 d1' d2' e e' A1 A2 A3 A4 L L' H H' E. unfold thirty_360, thirty_360_diff in H, H'.
  apply date_ltb_earlier in L, L'. rewrite L in H. rewrite L' in H'. cbn in H, H'. injection H as <-. injection H' as <-.
  cbn [show_error] in E. apply app_inv in E; [| reflexivity]. destruct E as [_ E]. 
  apply (app_inv "date1: " "date1: ") in E; [| reflexivity]. destruct E as [_ E].
  apply split_at in E; [| now apply show_date_without ..]. destruct E as [E1 E].
  apply (app_inv "must precede date2: " "must precede date2: ") in E; [| reflexivity].
  destruct E as [_ E2]. split; now apply C83_injective.
Qed.
Print Assumptions C84_thirty_360.

(** The text of a rejected discount factor query determines the two dates, and which of the two rules was broken;
    for the second rule also the settlement date. *)
Theorem C84_discount_factor : forall (V : Value) (D D' : DayCount V) I I' (c : YieldCurve V I) (c' : YieldCurve V I') d1 d2 d1' d2' e e',
  a_date d1 -> a_date d2 -> a_date d1' -> a_date d2' -> a_date (settlement_date c) -> a_date (settlement_date c') ->
  earlier d2 d1 \/ earlier d1 (settlement_date c) -> earlier d2' d1' \/ earlier d1' (settlement_date c') ->
  discount_factor D c d1 d2 = Ret (Err e) -> discount_factor D' c' d1' d2' = Ret (Err e') -> show_error e = show_error e' ->
  d1 = d1' /\ d2 = d2' /\ (earlier d2 d1 \/ settlement_date c = settlement_date c').
Proof.
  intros V D D' I I' c c' d1 d2 d1' d2' e e' A1 A2 A3 A4 S S' L L' H H' E. unfold discount_factor in H, H'.
  rewrite <- !date_ltb_earlier in L, L'.
  destruct (date_ltb d2 d1) eqn:B; destruct (date_ltb d2' d1') eqn:B'.
  - injection H as <-. injection H' as <-. cbn [show_error] in E. apply app_inv in E; [| reflexivity]. destruct E as [_ E].
    unfold msg_smaller in E. apply app_inv in E; [| reflexivity]. destruct E as [_ E].
    apply split_at in E; [| now apply show_date_without ..]. destruct E as [E1 E].
    apply (app_inv "must be smaller than d2: " "must be smaller than d2: ") in E; [| reflexivity]. destruct E as [_ E2].
    split; [now apply C83_injective |]. split; [now apply C83_injective |]. left. now apply date_ltb_earlier.
  - exfalso. destruct L' as [L' | L']; [discriminate |]. rewrite L' in H'. cbn [orb] in H'. injection H as <-. injection H' as <-. discriminate.
  - exfalso. destruct L as [L | L]; [discriminate |]. rewrite L in H. cbn [orb] in H. injection H as <-. injection H' as <-. discriminate.
  - destruct L as [L | L]; [discriminate |]. destruct L' as [L' | L']; [discriminate |].
    rewrite L in H. rewrite L' in H'. cbn [orb] in H, H'. injection H as <-. injection H' as <-.
    cbn [show_error] in E. apply app_inv in E; [| reflexivity]. destruct E as [_ E]. unfold msg_settlement in E.
    apply app_inv in E; [| reflexivity]. destruct E as [_ E].
    apply split_at in E; [| now apply show_date_without ..]. destruct E as [E1 E].
    apply (app_inv "or " "or ") in E; [| reflexivity]. destruct E as [_ E].
    apply split_at in E; [| now apply show_date_without ..]. destruct E as [E2 E].
    apply (app_inv "exceeds settlement date: " "exceeds settlement date: ") in E; [| reflexivity]. destruct E as [_ E].
    unfold debug_date in E. apply (app_inv "Date(" "Date(") in E; [| reflexivity]. destruct E as [_ E].
    apply app_inv_end in E; [| reflexivity]. destruct E as [E3 _].
    split; [now apply C83_injective |]. split; [now apply C83_injective |]. right. now apply C83_injective.
Qed.
Print Assumptions C84_discount_factor.

(** Both texts name each date by its own label. *)
Theorem C84_labels : forall (V : Value) d1 d2, a_date d1 -> a_date d2 ->
  (forall b e, earlier d2 d1 -> thirty_360 b V d1 d2 = Ret (Err e) -> exists s1 s2 x y,
     date_text d1 s1 /\ date_text d2 s2 /\ show_error e = x ++ "date1: " ++ s1 ++ " " ++ y ++ "date2: " ++ s2)
  /\ (forall (D : DayCount V) I (c : YieldCurve V I) e, earlier d2 d1 -> discount_factor D c d1 d2 = Ret (Err e) -> exists s1 s2 x y,
     date_text d1 s1 /\ date_text d2 s2 /\ show_error e = x ++ "d1: " ++ s1 ++ " " ++ y ++ "d2: " ++ s2)
  /\ (forall (D : DayCount V) I (c : YieldCurve V I) e, a_date (settlement_date c) -> ~ earlier d2 d1 -> earlier d1 (settlement_date c) ->
     discount_factor D c d1 d2 = Ret (Err e) -> exists s1 s2 s x,
     date_text d1 s1 /\ date_text d2 s2 /\ date_text (settlement_date c) s
     /\ show_error e = x ++ "Either " ++ s1 ++ " or " ++ s2 ++ " exceeds settlement date: Date(" ++ s ++ ")").
Proof.
  intros V d1 d2 A1 A2. split; [| split].
  - intros b e L H. unfold thirty_360, thirty_360_diff in H. apply date_ltb_earlier in L. rewrite L in H. cbn in H. injection H as <-.
    exists (show_date d1), (show_date d2), "Invalid inputs are passed by: ", "must precede ".
    split; [now apply C83_text |]. split; [now apply C83_text | reflexivity].
  - intros D I c e L H. unfold discount_factor in H. apply date_ltb_earlier in L. rewrite L in H. injection H as <-.
    exists (show_date d1), (show_date d2), "Invalid inputs are passed by: ", "must be smaller than ".
    split; [now apply C83_text |]. split; [now apply C83_text | reflexivity].
  - intros D I c e A N L H. unfold discount_factor in H. rewrite <- date_ltb_earlier in N, L. apply Bool.not_true_is_false in N.
    rewrite N, L in H. cbn [orb] in H. injection H as <-.
    exists (show_date d1), (show_date d2), (show_date (settlement_date c)), "Invalid inputs are passed by: ".
    split; [now apply C83_text |]. split; [now apply C83_text |]. split; [now apply C83_text | reflexivity].
Qed.
Print Assumptions C84_labels.

(** The text of a failed cast names the number of days, with a minus sign for a negative one. *)
Definition signed (s : string) (z : Z) : Prop := 0 <= z /\ numeral s z \/ z < 0 /\ exists t, s = "-" ++ t /\ numeral t (- z).

Lemma show_int_signed z : signed (show_int z) z.
Proof.
  destruct (Z_le_gt_dec 0 z) as [H | H]; [left; split; [exact H | now apply show_int_read] |].
  right. split; [lia |]. pose proof (show_int_read (- z) ltac:(lia)) as N. destruct z as [| p | p]; try lia.
  exists (show_int (Zpos p)). split; [reflexivity | exact N].
Qed.

Theorem C84_cast_counts : forall b (V : Value) d1 d2 n, a_date d1 -> a_date d2 -> days_later n d1 d2 ->
  let failed r z := exists e s, r = Ret (Err e) /\ signed s z /\ show_error e = s ++ " cannot cast to a primitive type" in
  (v_of_int (v := V) (Z.of_nat n) = None -> failed (act_360 V d1 d2) (Z.of_nat n) /\ failed (act_365 V d1 d2) (Z.of_nat n))
  /\ (v_of_int (v := V) (- Z.of_nat n) = None -> failed (act_360 V d2 d1) (- Z.of_nat n) /\ failed (act_365 V d2 d1) (- Z.of_nat n))
  /\ (b = Wrapping \/ month d1 <= month d2 ->
      (v_of_int (v := V) (days_30_360 d2 - days_30_360 d1) = None -> failed (thirty_360 b V d1 d2) (days_30_360 d2 - days_30_360 d1))
      /\ (v_of_int (v := V) (days_30_360 d2 - days_30_360 d1) <> None -> v_of_int (v := V) 360 = None -> failed (thirty_360 b V d1 d2) 360)).
Proof.
  intros b V d1 d2 n A1 A2 L failed. destruct (C03_sub_counts_days n d1 d2 A1 L) as [E1 E2].
  assert (forall z, failed (Ret (Err (CastNumberError (show_int z)))) z) as F
    by (intros z; exists (CastNumberError (show_int z)), (show_int z); split; [reflexivity |]; split; [apply show_int_signed | reflexivity]).
  unfold act_360, act_365. rewrite E1, E2. split; [| split].
  - intros N. rewrite N. split; apply F.
  - intros N. rewrite N. split; apply F.
  - intros C. assert (~ earlier d2 d1) as O.
    { intros O. pose proof (proj2 (valid_a_date _) A1) as V1. pose proof (proj2 (valid_a_date _) A2) as V2.
      apply valid_proper in V1. apply valid_proper in V2.
      apply days_later_serial in L; [| exact V1]. apply serial_earlier in O; [lia | exact V2 | exact V1]. }
    assert (thirty_360_diff b d1 d2 = Ret (Ok (days_30_360 d2 - days_30_360 d1))) as E
      by (destruct C as [-> | C]; [now apply diff_wrapping | now apply diff_checked]).
    unfold thirty_360. rewrite E. cbn [bind]. split.
    + intros N. rewrite N. apply F.
    + intros N N'. destruct (v_of_int (v := V) (days_30_360 d2 - days_30_360 d1)); [| now destruct N]. rewrite N'. apply (F 360).
Qed.
Print Assumptions C84_cast_counts.

(** What a user of the natural cubic spline reads: too few points, points out of order, a query out of range. *)
Theorem C84_interpolation_texts : forall (show : R -> string) (pts : list (R * R)) (x : R),
  let reads t := exists e, fit_eval (NaturalCubic RV) pts x = Ret (Err e) /\ show_interpolation_error show e = t in
  let n := List.length pts in
  ((n < 3)%nat -> reads ("length of inputs: " ++ show_int (Z.of_nat n) ++ " is not enough points for construction"))
  /\ ((3 <= n)%nat -> ~ sorted pts -> reads "points must be sorted")
  /\ ((3 <= n)%nat -> increasing pts -> (x < gx pts 0)%R -> reads ("out of lower bound: " ++ show x))
  /\ ((3 <= n)%nat -> increasing pts -> (gx pts (last_of pts) < x)%R -> reads ("out of upper bound: " ++ show x)).
Proof.
  intros show pts x reads n. unfold reads, n. clear reads n.
  assert (in_order (V := RV) fst pts <-> sorted pts) as Io by exact (in_order_real fst pts (0, 0)%R).
  destruct (C37_fit RV pts (i_default (NaturalCubic RV)) (proj2 C33_case) (proj1 C33_case)) as [(L & E) | [(L & O & E) | (L & O & ds & E & _)]];
    change (carrier RV) with R in *.
  - split; [intros _ | split; [intros L'; lia | split; intros L'; lia]].
    exists (InsufficientPointsError (List.length pts)). split; [unfold fit_eval; now rewrite E | reflexivity].
  - split; [lia |]. split.
    + intros _ _. exists PointOrderError. split; [unfold fit_eval; now rewrite E | reflexivity].
    + split; intros _ H; exfalso; apply O, Io; now apply increasing_sorted.
  - split; [lia |]. split.
    + intros _ H. exfalso. apply H, Io, O.
    + split; intros _ H Hx; destruct (C34_errors pts x H L) as (A & B).
      * eexists. split; [exact (A Hx) | reflexivity].
      * eexists. split; [exact (B Hx) | reflexivity].
Qed.
Print Assumptions C84_interpolation_texts.

(** And what one reads who gives more yields than maturities, or fewer. *)
Theorem C84_lengths_text : forall (V : Value) (D : DayCount V) (I : Interpolator V) s ms (ys : list V),
  List.length ms <> List.length ys ->
  exists e, curve_new D I s ms ys = Ret (Err e)
    /\ show_error e = "Invalid inputs are passed by: maturities and spot_yields are different lengths".
Proof.
  intros V D I s ms ys N. exists (InvalidInput msg_lengths). split; [| reflexivity]. unfold curve_new.
  apply Nat.eqb_neq in N. now rewrite N.
Qed.
Print Assumptions C84_lengths_text.

Example C84_case :
  (exists e, thirty_360 Wrapping RV (mkDate 2024 3 1) (mkDate 2024 2 29) = Ret (Err e)
     /\ show_error e = "Invalid inputs are passed by: date1: 2024-03-01 must precede date2: 2024-02-29")
  /\ (forall I (c : YieldCurve RV I), settlement_date c = mkDate 2024 1 1 -> exists e,
     discount_factor (act_365 RV) c (mkDate 2023 12 31) (mkDate 2024 2 1) = Ret (Err e)
     /\ show_error e = "Invalid inputs are passed by: Either 2023-12-31 or 2024-02-01 exceeds settlement date: Date(2024-01-01)")
  /\ show_error (CastNumberError (show_int (-31))) = "-31 cannot cast to a primitive type"
  /\ show_interpolation_error show_int (OutOfLowerBound (-3)) = "out of lower bound: -3"
  /\ show_interpolation_error show_int (InsufficientPointsError 2) = "length of inputs: 2 is not enough points for construction".
Proof.
  split; [eexists; split; reflexivity |]. split; [| split; [reflexivity | split; reflexivity]].
  intros I c S. unfold discount_factor. rewrite S. eexists. split; reflexivity.
Qed.

Example C84_cast_case : let V := mkValue R 0%R 1%R Rplus Rminus Rmult Rdiv Ropp (fun _ _ => false) (fun _ _ => false) exp
    (fun z => if Z.abs z <=? 365 then Some (IZR z) else None) in
  (exists e, act_360 V (mkDate 2025 1 1) (mkDate 2024 1 1) = Ret (Err e) /\ show_error e = "-366 cannot cast to a primitive type")
  /\ exists e, thirty_360 Checked V (mkDate 2024 1 1) (mkDate 2025 3 31) = Ret (Err e) /\ show_error e = "449 cannot cast to a primitive type".
Proof. split; eexists; split; reflexivity. Qed.
