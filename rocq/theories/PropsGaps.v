(** Property C57: business days never run out. *)
From Coq Require Import ZArith Bool List Lia.
From Verif Require Import Base Chrono Gregorian DateModel DateFacts EasterTables CalLib Calendars CalCore CalFacts.
From Verif Require Import PropsRoll PropsCalLib PropsCountries YearSweep Gaps.
Import ListNotations.
Local Open Scope Z_scope.

Lemma in_tables c x : 1901 <= nd_year x <= 2199 -> country_cal c x = Ret (open_in_tables c x).
Proof. intros Y. destruct (easter_monday_in _ Y) as [E O]. exact (country_core_eq c x _ _ E O). Qed.

Lemma serial_year_bounds a b x : proper x ->
  (a <= nd_year x <= b <-> days_before_year a + 1 <= num_days_from_ce x <= days_before_year (b + 1)).
Proof.
  intros P. pose proof (ordinal_range x P) as O. unfold num_days_from_ce.
  pose proof (days_before_year_succ (nd_year x)) as S. split.
  - intros [A B]. pose proof (days_before_year_mono a (nd_year x) A).
    pose proof (days_before_year_mono (nd_year x + 1) (b + 1) ltac:(lia)). lia.
  - intros [A B].
    destruct (Z_lt_le_dec (nd_year x) a) as [Q | Q]; [pose proof (days_before_year_mono (nd_year x + 1) a ltac:(lia)); lia |].
    destruct (Z_lt_le_dec b (nd_year x)) as [R | R]; [pose proof (days_before_year_mono (b + 1) (nd_year x) ltac:(lia)); lia |].
    lia.
Qed.

Lemma a_date_of x : proper x -> 1901 <= nd_year x <= 2199 -> a_date x.
Proof. intros P Y. split; [unfold representable; lia | now apply proper_gregorian]. Qed.

(** Among any [window c] consecutive days from 1901 to 2199 there is a business day. *)
Theorem C57_windows : forall c d e, a_date d -> 1901 <= nd_year d -> nd_year e <= 2199 ->
  days_later (window c - 1) d e ->
  exists x, a_date x /\ ~ earlier x d /\ ~ earlier e x /\ country_cal c x = Ret true.
Proof.
  intros c d e A Yd Ye L. pose proof (a_date_proper d A) as P.
  apply days_later_serial in L; [| exact P]. destruct L as [Pe S]. pose proof (window_pos c) as W.
  assert (1901 <= nd_year d <= 2199) as Rd.
  { destruct (Z_le_gt_dec (nd_year d) 2199); [lia | exfalso].
    pose proof (proj1 (serial_year_bounds (nd_year d) (nd_year d) d P) ltac:(lia)) as Q.
    pose proof (proj1 (serial_year_bounds (nd_year e) (nd_year e) e Pe) ltac:(lia)) as Q'.
    pose proof (days_before_year_mono (nd_year e + 1) (nd_year d) ltac:(lia)). lia. }
  assert (1901 <= nd_year e <= 2199) as Re.
  { destruct (Z_le_gt_dec 1901 (nd_year e)); [lia | exfalso].
    pose proof (proj1 (serial_year_bounds (nd_year d) (nd_year d) d P) ltac:(lia)) as Q.
    pose proof (proj1 (serial_year_bounds (nd_year e) (nd_year e) e Pe) ltac:(lia)) as Q'.
    pose proof (days_before_year_mono (nd_year e + 1) (nd_year d) ltac:(lia)). lia. }
  apply (serial_year_bounds 1901 2199) in Rd; [| exact P]. apply (serial_year_bounds 1901 2199) in Re; [| exact Pe].
  change (2199 + 1) with 2200 in *.
  destruct (business_day_in_window c (num_days_from_ce d)) as (x & Px & Yx & Sx & O); [lia | lia |].
  exists x. split; [now apply a_date_of |]. rewrite !not_earlier_leb by assumption.
  split; [lia |]. split; [lia |]. rewrite in_tables by exact Yx. now rewrite O.
Qed.

(** The bounds cannot be lowered: a run of closed days one shorter than the window. *)
Definition longest_closure (c : Country) : NaiveDate :=
  match c with
  | Argentina | Denmark | Iceland | Norway => mkDate 1901 4 4
  | Botswana | Switzerland | UnitedKingdom _ => mkDate 1901 4 5
  | Austria (Some AustriaMarket_Exchange) | CzechRepublic | Finland | France (Some FranceMarket_Exchange) | Germany _
  | Italy (Some ItalyMarket_Exchange) | Sweden => mkDate 1902 12 24
  | Austria _ | Canada _ | Hungary | Italy _ | Poland | Romania => mkDate 1902 12 25
  | Australia _ | NewZealand => mkDate 1905 4 21
  | Brazil _ => mkDate 1901 2 16
  | Chile => mkDate 2007 9 15
  | China => mkDate 2004 1 17
  | France _ => mkDate 1901 4 6
  | HongKong => mkDate 2005 2 9
  | India => mkDate 2014 10 2
  | Indonesia => mkDate 2006 10 21
  | Israel => mkDate 2015 9 11
  | Japan => mkDate 2019 4 27
  | Mexico => mkDate 1951 3 21
  | Russia (Some RussiaMarket_Exchange) => mkDate 2012 12 29
  | Russia _ => mkDate 2006 12 30
  | Singapore => mkDate 2004 1 22
  | Slovakia => mkDate 2004 12 24
  | SouthAfrica => mkDate 1940 3 21
  | SouthKorea => mkDate 2017 10 3
  | Taiwan => mkDate 2008 2 2
  | Target => mkDate 1998 12 31
  | Thailand => mkDate 1903 4 11
  | Turkey => mkDate 2013 10 12
  | Ukraine => mkDate 1902 5 1
  | UnitedStates (Some UnitedStatesMarket_NYSE) => mkDate 2001 9 11
  | UnitedStates (Some UnitedStatesMarket_NERC) => mkDate 1901 8 31
  | UnitedStates _ => mkDate 1901 2 22
  | WeekendsOnly => mkDate 1901 1 5
  end.

Lemma closure_check c : validb (longest_closure c) = true
  /\ forallb (fun k => let x := civil_of_serial (num_days_from_ce (longest_closure c) + Z.of_nat k) in
                       (1901 <=? nd_year x) && (nd_year x <=? 2199) && negb (open_in_tables c x))
       (seq 0 (window c - 1)) = true.
Proof. destruct c; all_markets; split; vm_cast_no_check (eq_refl true). Qed.

Theorem C57_tight : forall c, exists d, a_date d /\
  forall k x, (k < window c - 1)%nat -> days_later k d x ->
    1901 <= nd_year x <= 2199 /\ country_cal c x = Ret false.
Proof.
  intros c. exists (longest_closure c). destruct (closure_check c) as [V F].
  apply valid_a_date in V. split; [exact V |]. intros k x K L.
  apply days_later_serial in L; [| now apply a_date_proper]. destruct L as [P S].
  rewrite forallb_forall in F. specialize (F k ltac:(apply in_seq; lia)). cbv beta zeta in F. rewrite <- S in F.
  destruct (civil_correct (num_days_from_ce x)) as [C PC].
  assert (civil_of_serial (num_days_from_ce x) = x) as E by (apply serial_inj; assumption).
  rewrite E, !andb_true_iff, !Z.leb_le, negb_true_iff in F. destruct F as ((F1 & F2) & F3).
  split; [lia |]. rewrite in_tables by lia. now rewrite F3.
Qed.

(** Hence Following and Preceding find a business day, fewer than [window c] days away. *)
Theorem C57_following : forall c d p d0 e, p d = Ret (Some d0) -> a_date d0 -> 1901 <= nd_year d0 ->
  days_later (window c - 1) d0 e -> nd_year e <= 2199 ->
  exists r k, checked_roll d p (country_cal c) Following = Ret (Some r)
    /\ (k < window c)%nat /\ days_later k d0 r /\ country_cal c r = Ret true.
Proof.
  intros c d p d0 e Hp A Y L Ye. pose proof (a_date_proper _ A) as P.
  destruct (C57_windows c d0 e A Y Ye L) as (x & Ax & N1 & N2 & O). pose proof (window_pos c) as W.
  destruct (C14_following d p (country_cal c) d0 Hp A) as (F1 & F2 & F3 & F4).
  pose proof (a_date_proper _ Ax) as Px. apply days_later_serial in L; [| exact P]. destruct L as [Pe S].
  assert (forall r, first_not_closed (country_cal c) d0 r -> ~ earlier x r) as B.
  { intros r (_ & _ & _ & Q) E. rewrite (Q x Ax N1 E) in O. discriminate. }
  assert (forall r, first_not_closed (country_cal c) d0 r -> country_cal c r <> Panic /\ country_cal c r <> OutOfFuel) as NP.
  { intros r R. pose proof (B r R) as Br. destruct R as (Ar & Nr & _). pose proof (a_date_proper _ Ar) as Pr.
    rewrite !not_earlier_leb in * by assumption.
    assert (1901 <= nd_year r <= 2199) as Yr.
    { apply serial_year_bounds; [exact Pr |].
      pose proof (proj1 (serial_year_bounds 1901 (nd_year d0) d0 P) ltac:(lia)).
      pose proof (proj1 (serial_year_bounds (nd_year e) 2199 e Pe) ltac:(lia)). lia. }
    rewrite in_tables by exact Yr. split; discriminate. }
  destruct (checked_roll d p (country_cal c) Following) as [[r |] | |] eqn:E.
  - exists r. pose proof (proj1 (F1 r) eq_refl) as (Ar & Nr & Or & Q). pose proof (a_date_proper _ Ar) as Pr.
    assert (~ earlier x r) as Br by (intros X; rewrite (Q x Ax N1 X) in O; discriminate).
    rewrite !not_earlier_leb in * by assumption.
    exists (Z.to_nat (num_days_from_ce r - num_days_from_ce d0)). split; [reflexivity |].
    split; [lia |]. split; [| exact Or]. apply days_later_serial; [exact P |]. split; [exact Pr | lia].
  - exfalso. pose proof (proj1 F2 eq_refl x Ax N1). congruence.
  - exfalso. destruct (proj1 F3 eq_refl) as (r & R & C). destruct (NP r R). contradiction.
  - exfalso. destruct (proj1 F4 eq_refl) as (r & R & C). destruct (NP r R). contradiction.
Qed.

Theorem C57_preceding : forall c d p d0 s, p d = Ret (Some d0) -> a_date d0 -> nd_year d0 <= 2199 ->
  a_date s -> days_later (window c - 1) s d0 -> 1901 <= nd_year s ->
  exists r k, checked_roll d p (country_cal c) Preceding = Ret (Some r)
    /\ (k < window c)%nat /\ days_later k r d0 /\ country_cal c r = Ret true.
Proof.
  intros c d p d0 s Hp A Y As L Ys. pose proof (a_date_proper _ A) as P. pose proof (a_date_proper _ As) as Ps.
  destruct (C57_windows c s d0 As Ys Y L) as (x & Ax & N2 & N1 & O). pose proof (window_pos c) as W.
  destruct (C15_preceding d p (country_cal c) d0 Hp A) as (F1 & F2 & F3 & F4).
  pose proof (a_date_proper _ Ax) as Px. apply days_later_serial in L; [| exact Ps]. destruct L as [_ S].
  assert (forall r, last_not_closed (country_cal c) d0 r -> country_cal c r <> Panic /\ country_cal c r <> OutOfFuel) as NP.
  { intros r R. assert (~ earlier r x) as Br.
    { destruct R as (_ & _ & _ & Q). intros E. rewrite (Q x Ax N1 E) in O. discriminate. }
    destruct R as (Ar & Nr & _). pose proof (a_date_proper _ Ar) as Pr.
    rewrite !not_earlier_leb in * by assumption.
    assert (1901 <= nd_year r <= 2199) as Yr.
    { apply serial_year_bounds; [exact Pr |].
      pose proof (proj1 (serial_year_bounds 1901 (nd_year s) s Ps) ltac:(lia)).
      pose proof (proj1 (serial_year_bounds (nd_year d0) 2199 d0 P) ltac:(lia)). lia. }
    rewrite in_tables by exact Yr. split; discriminate. }
  destruct (checked_roll d p (country_cal c) Preceding) as [[r |] | |] eqn:E.
  - exists r. pose proof (proj1 (F1 r) eq_refl) as (Ar & Nr & Or & Q). pose proof (a_date_proper _ Ar) as Pr.
    assert (~ earlier r x) as Br by (intros X; rewrite (Q x Ax N1 X) in O; discriminate).
    rewrite !not_earlier_leb in * by assumption.
    exists (Z.to_nat (num_days_from_ce d0 - num_days_from_ce r)). split; [reflexivity |].
    split; [lia |]. split; [| exact Or]. apply days_later_serial; [exact Pr |]. split; [exact P | lia].
  - exfalso. pose proof (proj1 F2 eq_refl x Ax N1). congruence.
  - exfalso. destruct (proj1 F3 eq_refl) as (r & R & C). destruct (NP r R). contradiction.
  - exfalso. destruct (proj1 F4 eq_refl) as (r & R & C). destruct (NP r R). contradiction.
Qed.

(** The New York exchange from 11 to 16 September 2001; Japan's ten days in 2019. *)
Example C57_case :
  window (UnitedStates (Some UnitedStatesMarket_NYSE)) = 7%nat
  /\ checked_roll (mkDate 2001 9 11) (fun d => Ret (Some d)) (country_cal (UnitedStates (Some UnitedStatesMarket_NYSE))) Following
     = Ret (Some (mkDate 2001 9 17))
  /\ window Japan = 11%nat
  /\ checked_roll (mkDate 2019 5 6) (fun d => Ret (Some d)) (country_cal Japan) Preceding = Ret (Some (mkDate 2019 4 26)).
Proof.
  vm_compute. tauto.
Qed.

(** ** C61 for the country calendars: the last business day of the month exists and is found *)

Lemma country_fueled c x : country_cal c x <> OutOfFuel.
Proof.
  assert ((easter_monday (nd_year x) = Panic /\ orthodox_easter_monday (nd_year x) = Panic)
    \/ exists em oem, easter_monday (nd_year x) = Ret em /\ orthodox_easter_monday (nd_year x) = Ret oem) as E.
  { unfold easter_monday, orthodox_easter_monday, index_usize.
    change (Z.of_nat (length EASTER_MONDAY)) with 299. change (Z.of_nat (length ORTHODOX_EASTER_MONDAY)) with 299.
    destruct (Z.ltb_spec (easter_index (nd_year x)) 299) as [L | L]; [right | left; auto].
    unfold index, unwrap. exists (nth (Z.to_nat (easter_index (nd_year x))) EASTER_MONDAY 0),
      (nth (Z.to_nat (easter_index (nd_year x))) ORTHODOX_EASTER_MONDAY 0).
    rewrite !nth_error_nth' with (d := 0); [auto | |].
    - change (length ORTHODOX_EASTER_MONDAY) with 299%nat. lia.
    - change (length EASTER_MONDAY) with 299%nat. lia. }
  destruct E as [[E O] | (em & oem & E & O)].
  - destruct (needs_easter c) eqn:N.
    + destruct (easter_panics c x N E O) as [-> | [-> ->]]; [discriminate | vm_compute; discriminate].
    + rewrite (country_core_free c x 0 0 N). discriminate.
  - rewrite (country_core_eq c x em oem E O). discriminate.
Qed.

Lemma window_max c : (window c <= 13)%nat.
Proof. destruct c; all_markets; cbn; lia. Qed.

Theorem C61_country_end_of_month : forall c d, a_date d -> 1901 <= nd_year d <= 2199 ->
  exists r, end_of_month (country_cal c) d = Ret r /\ a_date r /\ nd_year r = nd_year d /\ nd_month r = nd_month d
    /\ country_cal c r = Ret true
    /\ forall x, a_date x -> nd_year x = nd_year d -> nd_month x = nd_month d -> earlier r x ->
         country_cal c x = Ret false.
Proof.
  intros c d A Y. pose proof (a_date_proper d A) as [Pm Pd]. pose proof (month_len_range (nd_year d) _ Pm) as ML.
  pose proof (window_pos c) as W1. pose proof (window_max c) as W2.
  set (n := month_len (nd_year d) (nd_month d)) in *.
  set (l := mkDate (nd_year d) (nd_month d) n).
  set (s := mkDate (nd_year d) (nd_month d) (n - Z.of_nat (window c - 1))).
  assert (proper l) as Pl by (unfold proper, l, n; cbn [nd_year nd_month nd_day]; lia).
  assert (proper s) as Ps by (unfold proper, s, n in *; cbn [nd_year nd_month nd_day]; lia).
  assert (a_date l) as Al by (apply a_date_of; [exact Pl | exact Y]).
  assert (a_date s) as As by (apply a_date_of; [exact Ps | exact Y]).
  assert (last_day_of_month d = Ret l) as L.
  { apply C61_last_day; [exact A |]. unfold l; cbn [nd_year nd_month nd_day].
    split; [lia |]. split; [reflexivity |]. split; [reflexivity |]. apply month_len_spec; auto. }
  destruct (C57_windows c s l As) as (x & Ax & N1 & N2 & O); [cbn; lia | cbn; lia | |].
  { apply days_later_serial; [exact Ps |]. split; [exact Pl |].
    unfold num_days_from_ce, ordinal, l, s. cbn [nd_year nd_month nd_day]. lia. }
  pose proof (C61_end_of_month_panics (country_cal c) d A (country_fueled c)) as [Pn NF].
  assert (forall r, last_not_closed (country_cal c) l r ->
            ~ earlier r s /\ nd_year r = nd_year d /\ nd_month r = nd_month d) as In.
  { intros r (Ar & Nr & _ & Q). assert (~ earlier r x) as B.
    { intros E. rewrite (Q x Ax N2 E) in O. discriminate. }
    clear - Nr B N1 Pd. unfold earlier, l, s in *. cbn [nd_year nd_month nd_day] in *. lia. }
  destruct (end_of_month (country_cal c) d) as [r | |] eqn:E.
  - exists r. apply C61_end_of_month in E; [| exact A | apply country_fueled].
    destruct E as (l' & E' & B). rewrite L in E'. injection E' as <-.
    destruct (In r (proj1 (last_business_is _ _ _ B))) as (_ & Yr & Mr). destruct B as (Ar & Nr & Or & Q).
    split; [reflexivity |]. split; [exact Ar |]. split; [exact Yr |]. split; [exact Mr |]. split; [exact Or |].
    intros z Az Yz Mz Ez. apply Q; [exact Az | | exact Ez].
    pose proof (a_date_proper z Az) as [_ Zd]. clear - Zd Yz Mz. unfold earlier, l, n. cbn [nd_year nd_month nd_day].
    rewrite Yz, Mz in *. lia.
  - exfalso. destruct (proj1 Pn eq_refl) as [Q | (l' & L' & Q)]; [lia |]. rewrite L in L'. injection L' as <-.
    destruct Q as [Q | (t & T & Q)]; [rewrite (Q x Ax N2) in O; discriminate |].
    destruct (In t T) as (_ & Yt & _). rewrite in_tables in Q by (rewrite Yt; exact Y). discriminate.
  - now destruct NF.
Qed.

(** In March 2002 the last business day of TARGET was Thursday 28, the 29th being Good Friday. *)
Example C61_country_case : end_of_month (country_cal Target) (mkDate 2002 3 5) = Ret (mkDate 2002 3 28).
Proof. vm_compute. reflexivity. Qed.
