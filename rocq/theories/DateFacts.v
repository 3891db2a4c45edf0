(** Facts about the date arithmetic used by the property proofs. *)
From Coq Require Import ZArith Znumtheory Bool List Lia.
From Verif Require Import Base Chrono Gregorian DateModel.
Import ListNotations.
Open Scope Z_scope.

Ltac Zify.zify_post_hook ::= Z.div_mod_to_equations.
Arguments Z.add : simpl never.
Arguments Z.sub : simpl never.
Arguments Z.mul : simpl never.

(** ** Leap years and month lengths *)

Lemma is_leap_iff y : is_leap y = true <-> leap y.
Proof.
  unfold is_leap, leap.
  rewrite orb_true_iff, andb_true_iff, negb_true_iff, !Z.eqb_eq, Z.eqb_neq.
  rewrite !Z.mod_divide by lia.
  split.
  - intros [[H1 H2] | H]; [tauto |].
    split; [| tauto]. destruct H as [k ->]. exists (100 * k). lia.
  - tauto.
Qed.

Lemma month_len_range y m : 1 <= m <= 12 -> 28 <= month_len y m <= 31.
Proof.
  intros H.
  assert (m = 1 \/ m = 2 \/ m = 3 \/ m = 4 \/ m = 5 \/ m = 6 \/ m = 7 \/ m = 8 \/ m = 9
          \/ m = 10 \/ m = 11 \/ m = 12) as C by lia.
  repeat destruct C as [-> | C]; try subst m; simpl; try lia; destruct (is_leap y); lia.
Qed.

Ltac split_month m :=
  let C := fresh "C" in
  assert (m = 1 \/ m = 2 \/ m = 3 \/ m = 4 \/ m = 5 \/ m = 6 \/ m = 7 \/ m = 8 \/ m = 9
          \/ m = 10 \/ m = 11 \/ m = 12) as C by lia;
  repeat destruct C as [-> | C]; try subst m.

Lemma month_len_spec y m L : 1 <= m <= 12 -> (month_length y m L <-> L = month_len y m).
Proof.
  intros H. split.
  - intros HL. inversion HL as [m' I | m' I | I | I]; subst.
    + simpl in I. repeat destruct I as [<- | I]; try reflexivity. destruct I.
    + simpl in I. repeat destruct I as [<- | I]; try reflexivity. destruct I.
    + apply is_leap_iff in I. simpl. now rewrite I.
    + simpl. destruct (is_leap y) eqn:E; [apply is_leap_iff in E; tauto | reflexivity].
  - intros ->. split_month m;
      try (apply len31; simpl; tauto); try (apply len30; simpl; tauto).
    simpl. destruct (is_leap y) eqn:E.
    + apply len29. now apply is_leap_iff.
    + apply len28. intros F. apply is_leap_iff in F. congruence.
Qed.

Lemma month_length_month y m L : month_length y m L -> 1 <= m <= 12.
Proof.
  intros H. inversion H as [m' I | m' I | I | I]; subst; simpl in *; lia.
Qed.

(** ** Valid dates *)

Definition proper (d : NaiveDate) : Prop :=
  1 <= nd_month d <= 12 /\ 1 <= nd_day d <= month_len (nd_year d) (nd_month d).

Lemma valid_iff d :
  valid d <-> (MIN_YEAR <= nd_year d <= MAX_YEAR /\ proper d).
Proof.
  unfold valid, validb, proper. rewrite !andb_true_iff, !Z.leb_le. tauto.
Qed.

Lemma proper_gregorian d : proper d <-> gregorian (nd_year d) (nd_month d) (nd_day d).
Proof.
  unfold proper, gregorian. split.
  - intros [H1 H2]. exists (month_len (nd_year d) (nd_month d)).
    split; [now apply month_len_spec | exact H2].
  - intros [L [H1 H2]]. pose proof (month_length_month _ _ _ H1) as Hm.
    apply month_len_spec in H1; [| exact Hm]. subst. tauto.
Qed.

Lemma valid_a_date d : valid d <-> a_date d.
Proof.
  rewrite valid_iff, proper_gregorian. unfold a_date, representable, MIN_YEAR, MAX_YEAR. tauto.
Qed.

Lemma from_ymd_opt_some y m d r :
  from_ymd_opt y m d = Some r <-> r = mkDate y m d /\ valid (mkDate y m d).
Proof.
  unfold from_ymd_opt, valid. destruct (validb (mkDate y m d)); split; intros H;
    try congruence; try (destruct H; congruence); split; congruence.
Qed.

Lemma from_ymd_opt_none y m d :
  from_ymd_opt y m d = None <-> ~ valid (mkDate y m d).
Proof.
  unfold from_ymd_opt, valid. destruct (validb (mkDate y m d)); split; intros H; congruence.
Qed.

(** ** Order and serial numbers *)

Definition leap01 (y : Z) : Z := if is_leap y then 1 else 0.

Lemma is_leap_cases y :
  (is_leap y = true /\ (y mod 4 = 0 /\ y mod 100 <> 0 \/ y mod 400 = 0))
  \/ (is_leap y = false /\ y mod 400 <> 0 /\ (y mod 4 <> 0 \/ y mod 100 = 0)).
Proof.
  unfold is_leap.
  destruct (Z.eqb_spec (y mod 4) 0), (Z.eqb_spec (y mod 100) 0), (Z.eqb_spec (y mod 400) 0);
    simpl; tauto.
Qed.

Lemma days_before_year_succ y : days_before_year (y + 1) = days_before_year y + 365 + leap01 y.
Proof.
  unfold days_before_year, leap01.
  destruct (is_leap_cases y) as [[-> H] | [-> H]]; cbv zeta; lia.
Qed.

Lemma days_before_year_mono a b : a <= b -> days_before_year a <= days_before_year b.
Proof. unfold days_before_year. cbv zeta. lia. Qed.

Lemma days_before_month_succ y m :
  1 <= m < 12 -> days_before_month y (m + 1) = days_before_month y m + month_len y m.
Proof.
  intros H. unfold days_before_month, month_len.
  assert (m = 1 \/ m = 2 \/ m = 3 \/ m = 4 \/ m = 5 \/ m = 6 \/ m = 7 \/ m = 8 \/ m = 9
          \/ m = 10 \/ m = 11) as C by lia.
  repeat destruct C as [-> | C]; try subst m; simpl; destruct (is_leap y); reflexivity.
Qed.

Lemma days_before_month_mono y m m' :
  1 <= m -> m < m' -> m' <= 12 ->
  days_before_month y m + month_len y m <= days_before_month y m'.
Proof.
  intros H1 H2 H3. unfold days_before_month, month_len.
  split_month m; split_month m'; try lia; simpl; destruct (is_leap y); lia.
Qed.

Lemma ordinal_range d : proper d -> 1 <= ordinal d <= 365 + leap01 (nd_year d).
Proof.
  destruct d as [y m d]. unfold proper, ordinal, leap01. cbn [nd_year nd_month nd_day].
  intros [H1 H2]. revert H2. unfold days_before_month, month_len.
  split_month m; simpl; destruct (is_leap y); lia.
Qed.

Lemma serial_earlier a b :
  proper a -> proper b -> earlier a b -> num_days_from_ce a < num_days_from_ce b.
Proof.
  intros Ha Hb E. pose proof (ordinal_range _ Ha) as Oa. pose proof (ordinal_range _ Hb) as Ob.
  unfold num_days_from_ce. destruct E as [E | [[E1 E2] | [E1 [E2 E3]]]].
  - pose proof (days_before_year_succ (nd_year a)) as S.
    pose proof (days_before_year_mono (nd_year a + 1) (nd_year b) ltac:(lia)). lia.
  - rewrite E1. unfold ordinal. destruct Ha as [Ha1 Ha2], Hb as [Hb1 Hb2].
    pose proof (days_before_month_mono (nd_year a) (nd_month a) (nd_month b)
                  ltac:(lia) ltac:(lia) ltac:(lia)). rewrite <- E1. lia.
  - rewrite E1. unfold ordinal. rewrite E1, E2. lia.
Qed.

Lemma earlier_trichotomy a b : earlier a b \/ a = b \/ earlier b a.
Proof.
  destruct a as [y m d], b as [y' m' d']. unfold earlier. cbn [nd_year nd_month nd_day].
  assert (y < y' \/ y = y' \/ y' < y) as [?|[<-|?]] by lia; try tauto.
  assert (m < m' \/ m = m' \/ m' < m) as [?|[<-|?]] by lia; try tauto.
  assert (d < d' \/ d = d' \/ d' < d) as [?|[<-|?]] by lia; tauto.
Qed.

Lemma serial_lt_iff a b :
  proper a -> proper b -> (earlier a b <-> num_days_from_ce a < num_days_from_ce b).
Proof.
  intros Ha Hb. split; [now apply serial_earlier |].
  intros H. destruct (earlier_trichotomy a b) as [E | [-> | E]]; [exact E | lia |].
  apply serial_earlier in E; auto. lia.
Qed.

Lemma serial_inj a b :
  proper a -> proper b -> num_days_from_ce a = num_days_from_ce b -> a = b.
Proof.
  intros Ha Hb H. destruct (earlier_trichotomy a b) as [E | [-> | E]]; [| reflexivity |];
    apply serial_earlier in E; auto; lia.
Qed.

Lemma date_compare_spec a b :
  match date_compare a b with Lt => earlier a b | Eq => a = b | Gt => earlier b a end.
Proof.
  unfold date_compare, earlier. destruct a as [y m d], b as [y' m' d'].
  cbn [nd_year nd_month nd_day].
  destruct (Z.compare_spec y y'); subst; auto.
  destruct (Z.compare_spec m m'); subst; auto.
  destruct (Z.compare_spec d d'); subst; auto 6.
Qed.

Lemma date_compare_serial a b :
  proper a -> proper b -> date_compare a b = (num_days_from_ce a ?= num_days_from_ce b).
Proof.
  intros Ha Hb. pose proof (date_compare_spec a b) as H.
  destruct (date_compare a b); symmetry.
  - subst. apply Z.compare_refl.
  - apply Z.compare_lt_iff. now apply serial_earlier.
  - apply Z.compare_gt_iff. now apply serial_earlier.
Qed.

Lemma date_ltb_serial a b :
  proper a -> proper b -> date_ltb a b = (num_days_from_ce a <? num_days_from_ce b).
Proof. intros Ha Hb. unfold date_ltb, Z.ltb. now rewrite date_compare_serial. Qed.

Lemma date_leb_serial a b :
  proper a -> proper b -> date_leb a b = (num_days_from_ce a <=? num_days_from_ce b).
Proof. intros Ha Hb. unfold date_leb, Z.leb. now rewrite date_compare_serial. Qed.

Lemma date_eqb_serial a b :
  proper a -> proper b -> date_eqb a b = (num_days_from_ce a =? num_days_from_ce b).
Proof.
  intros Ha Hb. unfold date_eqb. rewrite date_compare_serial by assumption.
  destruct (Z.eqb_spec (num_days_from_ce a) (num_days_from_ce b)) as [-> | N].
  - now rewrite Z.compare_refl.
  - destruct (Z.compare_spec (num_days_from_ce a) (num_days_from_ce b)); congruence || reflexivity.
Qed.

Lemma date_ltb_earlier a b : date_ltb a b = true <-> earlier a b.
Proof.
  unfold date_ltb. pose proof (date_compare_spec a b) as H.
  assert (forall x y, earlier x y -> earlier y x -> False) as A
      by (unfold earlier; intros; lia).
  assert (forall x, earlier x x -> False) as I by (unfold earlier; intros; lia).
  destruct (date_compare a b); split; intros; try congruence; subst; try tauto; exfalso; eauto.
Qed.

Lemma date_leb_not_earlier a b : date_leb a b = true <-> ~ earlier b a.
Proof.
  unfold date_leb. pose proof (date_compare_spec a b) as H.
  assert (forall x y, earlier x y -> earlier y x -> False) as A
      by (unfold earlier; intros; lia).
  assert (forall x, earlier x x -> False) as I by (unfold earlier; intros; lia).
  destruct (date_compare a b); split; intros; try congruence; subst; try tauto; eauto.
Qed.

Lemma date_eqb_eq a b : date_eqb a b = true <-> a = b.
Proof.
  unfold date_eqb. pose proof (date_compare_spec a b) as H.
  assert (forall x, earlier x x -> False) as I by (unfold earlier; intros; lia).
  destruct (date_compare a b); split; intros; try congruence; subst; exfalso; eauto.
Qed.

(** ** From day numbers back to dates *)

(** A sweep of all numbers of one 400-year era (146097 days), run from the top. *)
Fixpoint sweep (f : Z -> bool) (p : positive) (z : Z) : bool :=
  match p with
  | xH => f z
  | xO q => sweep f q z && sweep f q (z + Z.pos q)
  | xI q => f z && sweep f q (z + 1) && sweep f q (z + 1 + Z.pos q)
  end.

Lemma sweep_spec f p : forall z,
  sweep f p z = true -> forall k, z <= k < z + Z.pos p -> f k = true.
Proof.
  induction p as [q IH | q IH |]; intros z; simpl.
  - rewrite !andb_true_iff. intros [[H0 H1] H2] k Hk.
    rewrite Pos2Z.inj_xI in Hk.
    assert (k = z \/ z + 1 <= k < z + 1 + Z.pos q \/
            z + 1 + Z.pos q <= k < z + 1 + Z.pos q + Z.pos q) as [-> | [C | C]] by lia; eauto.
  - rewrite !andb_true_iff. intros [H1 H2] k Hk. rewrite Pos2Z.inj_xO in Hk.
    assert (z <= k < z + Z.pos q \/ z + Z.pos q <= k < z + Z.pos q + Z.pos q) as [C | C] by lia;
      eauto.
  - intros H k Hk. replace k with z by lia. exact H.
Qed.

(** Year of a 400-year era (years starting 1 March) from the day of the era. *)
Definition yoe_of (doe : Z) : Z := (doe - doe / 1460 + doe / 36524 - doe / 146096) / 365.
Definition year_start (yoe : Z) : Z := 365 * yoe + yoe / 4 - yoe / 100.

Lemma yoe_mono a b : 0 <= a <= b -> b < 146097 -> yoe_of a <= yoe_of b.
Proof. unfold yoe_of. intros H1 H2. apply Z.div_le_mono; lia. Qed.

(** First and last day of each of the 400 years. *)
Lemma yoe_sweep :
  sweep (fun y => (yoe_of (year_start y) =? y) && (yoe_of (year_start (y + 1) - 1) =? y)) 400 0 = true.
Proof. vm_cast_no_check (eq_refl true). Qed.

Lemma yoe_spec doe : 0 <= doe < 146097 ->
  exists y, 0 <= y < 400 /\ yoe_of doe = y /\ year_start y <= doe
            /\ (doe < year_start (y + 1) \/ y = 399 /\ doe = 146096).
Proof.
  intros H.
  (* locate the year by its start days *)
  assert (exists y, 0 <= y < 400 /\ year_start y <= doe
                    /\ (doe < year_start (y + 1) \/ y = 399)) as (y & Hy & L & U).
  { assert (forall n : nat, Z.of_nat n <= 399 -> year_start (Z.of_nat n) <= doe ->
            exists y, 0 <= y < 400 /\ year_start y <= doe /\ (doe < year_start (y + 1) \/ y = 399)) as G.
    { intros n Hn. remember (Z.to_nat 399 - n)%nat as k eqn:K. revert n Hn K.
      induction k as [| k IH]; intros n Hn K L.
      - exists (Z.of_nat n). split; [lia |]. split; [exact L | lia].
      - destruct (Z_lt_ge_dec doe (year_start (Z.of_nat n + 1))) as [C | C].
        + exists (Z.of_nat n). split; [lia |]. split; [exact L | lia].
        + apply (IH (S n)); try lia. rewrite Nat2Z.inj_succ. unfold Z.succ. lia. }
    apply (G 0%nat); [lia |]. unfold year_start. lia. }
  exists y. split; [exact Hy |].
  pose proof (sweep_spec _ _ _ yoe_sweep y ltac:(lia)) as S. cbv beta in S.
  rewrite andb_true_iff, !Z.eqb_eq in S. destruct S as [S1 S2].
  assert (0 <= year_start y) as P0 by (unfold year_start; lia).
  assert (year_start (y + 1) <= 146096) as P1 by (unfold year_start; lia).
  assert (doe < year_start (y + 1) \/ y = 399 /\ doe = 146096) as Q.
  { destruct U as [U | ->]; [tauto |]. assert (year_start (399 + 1) = 146096) by reflexivity. lia. }
  pose proof (yoe_mono (year_start y) doe ltac:(lia) ltac:(lia)) as M1.
  split; [| tauto]. destruct Q as [Q | [-> ->]]; [| reflexivity].
  pose proof (yoe_mono doe (year_start (y + 1) - 1) ltac:(lia) ltac:(lia)) as M2. lia.
Qed.

Lemma civil_correct n :
  num_days_from_ce (civil_of_serial n) = n /\ proper (civil_of_serial n).
Proof.
  unfold civil_of_serial. cbv zeta.
  pose proof (Z.mod_pos_bound (n + 305) 146097 ltac:(lia)) as K.
  pose proof (Z.div_mod (n + 305) 146097 ltac:(lia)) as E.
  set (doe := (n + 305) mod 146097) in *. set (era := (n + 305) / 146097) in *. clearbody doe era.
  destruct (yoe_spec doe K) as (y & Hy & Y & L & U).
  fold (yoe_of doe). rewrite Y. fold (year_start y).
  assert (n = days_before_year (y + 400 * era + 1) + (doe - year_start y) - 305) as N.
  { unfold days_before_year, year_start in *. cbv zeta. lia. }
  set (Y0 := y + 400 * era) in *. set (doy := doe - year_start y) in *.
  assert (0 <= doy /\ doy < 365 + leap01 (Y0 + 1)) as D.
  { split; [subst doy; lia |]. unfold leap01. subst doy Y0.
    replace (y + 400 * era + 1) with (y + 1 + 400 * era) by ring.
    unfold is_leap.
    replace ((y + 1 + 400 * era) mod 4) with ((y + 1) mod 4) by lia.
    replace ((y + 1 + 400 * era) mod 100) with ((y + 1) mod 100) by lia.
    replace ((y + 1 + 400 * era) mod 400) with ((y + 1) mod 400) by lia.
    unfold year_start in *.
    destruct (Z.eqb_spec ((y + 1) mod 4) 0), (Z.eqb_spec ((y + 1) mod 100) 0),
      (Z.eqb_spec ((y + 1) mod 400) 0); cbn; lia. }
  clearbody doy Y0. clear K E Y L U Hy doe era y.
  pose proof (days_before_year_succ Y0) as S.
  assert (0 <= (5 * doy + 2) / 153 <= 11) as MP by (unfold leap01 in D; destruct (is_leap _); lia).
  set (mp := (5 * doy + 2) / 153) in *.
  assert (153 * mp <= 5 * doy + 2 < 153 * mp + 153) as B by (subst mp; lia).
  clearbody mp. unfold num_days_from_ce, ordinal, proper.
  assert (mp = 0 \/ mp = 1 \/ mp = 2 \/ mp = 3 \/ mp = 4 \/ mp = 5 \/ mp = 6 \/ mp = 7 \/ mp = 8 \/ mp = 9
          \/ mp = 10 \/ mp = 11) as C by lia.
  repeat destruct C as [-> | C]; try subst mp;
    match goal with |- context [if ?b then _ + 3 else _] => let v := eval vm_compute in b in change b with v end;
    cbv iota; cbn [nd_year nd_month nd_day];
    match goal with |- context [(153 * ?k + 2) / 5] =>
      let v := eval vm_compute in ((153 * k + 2) / 5) in change ((153 * k + 2) / 5) with v end.
  all: match goal with |- context [?a <=? 2] =>
      let w := eval vm_compute in a in change a with w; 
      let v := eval vm_compute in (w <=? 2) in change (w <=? 2) with v end; cbv iota.
  all: unfold leap01 in *; unfold days_before_month, month_len; rewrite ?Z.add_0_r.
  all: try (destruct (is_leap (Y0 + 1)); lia).
  all: destruct (is_leap Y0), (is_leap (Y0 + 1)); lia.
Qed.

Lemma civil_of_serial_serial d : proper d -> civil_of_serial (num_days_from_ce d) = d.
Proof.
  intros H. destruct (civil_correct (num_days_from_ce d)) as [H1 H2].
  now apply serial_inj.
Qed.

Lemma valid_proper d : valid d -> proper d.
Proof. rewrite valid_iff. tauto. Qed.

Lemma MIN_valid : valid MIN_DATE. Proof. reflexivity. Qed.
Lemma MAX_valid : valid MAX_DATE. Proof. reflexivity. Qed.

Lemma valid_serial d :
  proper d -> (valid d <-> MIN_SERIAL <= num_days_from_ce d <= MAX_SERIAL).
Proof.
  intros P. rewrite valid_iff. pose proof (valid_proper _ MIN_valid) as Pm.
  pose proof (valid_proper _ MAX_valid) as PM. unfold MIN_SERIAL, MAX_SERIAL.
  split.
  - intros [H _].
    assert (~ earlier d MIN_DATE) as N1.
    { unfold earlier. cbn [nd_year nd_month nd_day MIN_DATE]. destruct P. lia. }
    assert (~ earlier MAX_DATE d) as N2.
    { unfold earlier. cbn [nd_year nd_month nd_day MAX_DATE]. destruct P as [P1 P2].
      pose proof (month_len_range (nd_year d) (nd_month d) P1). lia. }
    rewrite serial_lt_iff in N1, N2 by assumption. lia.
  - intros H. split; [| exact P].
    assert (~ earlier d MIN_DATE) as N1 by (rewrite serial_lt_iff by assumption; lia).
    assert (~ earlier MAX_DATE d) as N2 by (rewrite serial_lt_iff by assumption; lia).
    unfold earlier in N1, N2. cbn [nd_year nd_month nd_day MIN_DATE MAX_DATE] in N1, N2. lia.
Qed.

Lemma of_serial_some n r :
  of_serial n = Some r <-> valid r /\ num_days_from_ce r = n.
Proof.
  unfold of_serial. destruct (civil_correct n) as [C1 C2].
  destruct (andb _ _) eqn:E.
  - rewrite andb_true_iff, !Z.leb_le in E. split.
    + intros [= <-]. split; [| exact C1]. apply valid_serial; [exact C2 | lia].
    + intros [V <-]. f_equal. apply civil_of_serial_serial. now apply valid_proper.
  - split; [discriminate |]. intros [V <-]. exfalso.
    apply andb_false_iff in E. rewrite !Z.leb_gt in E.
    apply valid_serial in V; [lia | now apply valid_proper].
Qed.

Lemma of_serial_none n : of_serial n = None <-> n < MIN_SERIAL \/ MAX_SERIAL < n.
Proof.
  unfold of_serial. destruct (andb _ _) eqn:E.
  - rewrite andb_true_iff, !Z.leb_le in E. split; [discriminate | lia].
  - apply andb_false_iff in E. rewrite !Z.leb_gt in E. tauto.
Qed.

(** ** Next day *)

Lemma succ_opt_spec d r :
  valid d -> (succ_opt d = Some r <-> valid r /\ num_days_from_ce r = num_days_from_ce d + 1).
Proof.
  intros V. assert (forall r, succ_opt d = Some r ->
                      valid r /\ num_days_from_ce r = num_days_from_ce d + 1) as F.
  { clear r. intros r H. pose proof V as V'. rewrite valid_iff in V'.
    destruct V' as [Vy [Vm Vd]]. destruct d as [y m d]. cbn [nd_year nd_month nd_day] in *.
    unfold succ_opt in H. cbn [nd_year nd_month nd_day] in H.
    destruct (Z.ltb_spec d (month_len y m)).
    { injection H as <-. split.
      - rewrite valid_iff. unfold proper. cbn [nd_year nd_month nd_day]. lia.
      - unfold num_days_from_ce, ordinal. cbn [nd_year nd_month nd_day]. lia. }
    destruct (Z.ltb_spec m 12).
    { injection H as <-. split.
      - rewrite valid_iff. unfold proper. cbn [nd_year nd_month nd_day].
        pose proof (month_len_range y (m + 1)). lia.
      - unfold num_days_from_ce, ordinal. cbn [nd_year nd_month nd_day].
        rewrite days_before_month_succ by lia. lia. }
    destruct (Z.ltb_spec y MAX_YEAR); [| discriminate].
    injection H as <-. replace m with 12 in * by lia.
    assert (d = 31) as -> by (cbn in *; lia). split.
    - rewrite valid_iff. unfold proper. cbn [nd_year nd_month nd_day].
      pose proof (month_len_range (y + 1) 1). lia.
    - unfold num_days_from_ce, ordinal. cbn [nd_year nd_month nd_day].
      rewrite days_before_year_succ. unfold days_before_month, leap01. destruct (is_leap y); lia. }
  split; [apply F |]. intros [Vr Sr].
  destruct (succ_opt d) as [r' |] eqn:E.
  - destruct (F r' eq_refl) as [V1 S1]. f_equal. apply serial_inj; try now apply valid_proper. lia.
  - exfalso. unfold succ_opt in E.
    destruct (Z.ltb_spec (nd_day d) (month_len (nd_year d) (nd_month d))); [discriminate |].
    destruct (Z.ltb_spec (nd_month d) 12); [discriminate |].
    destruct (Z.ltb_spec (nd_year d) MAX_YEAR); [discriminate |].
    assert (earlier d r) as L.
    { apply serial_lt_iff; try now apply valid_proper. lia. }
    rewrite valid_iff in V, Vr. destruct V as [V1 [V2 V3]], Vr as [R1 [R2 R3]].
    assert (nd_month d = 12) as M by lia. rewrite M in *.
    unfold earlier in L.
    assert (nd_year r = nd_year d /\ nd_month r = 12) as [Y Mr] by lia.
    rewrite Y, Mr in *. cbn in *. lia.
Qed.

Lemma succ_opt_none d : valid d -> (succ_opt d = None <-> d = MAX_DATE).
Proof.
  intros V. split.
  - intros E. unfold succ_opt in E.
    destruct (Z.ltb_spec (nd_day d) (month_len (nd_year d) (nd_month d))); [discriminate |].
    destruct (Z.ltb_spec (nd_month d) 12); [discriminate |].
    destruct (Z.ltb_spec (nd_year d) MAX_YEAR); [discriminate |].
    rewrite valid_iff in V. destruct V as [V1 [V2 V3]].
    assert (nd_month d = 12) as M by lia. rewrite M in *. cbn [month_len] in *.
    destruct d as [y m d]. cbn [nd_year nd_month nd_day] in *. unfold MAX_DATE. f_equal; lia.
  - intros ->. reflexivity.
Qed.

Lemma pred_opt_some d r : valid d -> pred_opt d = Some r ->
                          valid r /\ num_days_from_ce r = num_days_from_ce d - 1.
Proof.
  intros V H. pose proof V as V'. rewrite valid_iff in V'.
  destruct V' as [Vy [Vm Vd]]. destruct d as [y m d]. cbn [nd_year nd_month nd_day] in *.
  unfold pred_opt in H. cbn [nd_year nd_month nd_day] in H.
  destruct (Z.ltb_spec 1 d).
  { injection H as <-. split.
    - rewrite valid_iff. unfold proper. cbn [nd_year nd_month nd_day]. lia.
    - unfold num_days_from_ce, ordinal. cbn [nd_year nd_month nd_day]. lia. }
  destruct (Z.ltb_spec 1 m).
  { injection H as <-. split.
    - rewrite valid_iff. unfold proper. cbn [nd_year nd_month nd_day].
      pose proof (month_len_range y (m - 1)). lia.
    - unfold num_days_from_ce, ordinal. cbn [nd_year nd_month nd_day].
      pose proof (days_before_month_succ y (m - 1) ltac:(lia)) as D.
      replace (m - 1 + 1) with m in D by lia. lia. }
  destruct (Z.ltb_spec MIN_YEAR y); [| discriminate].
  injection H as <-. replace m with 1 in * by lia.
  assert (d = 1) as -> by lia. split.
  - rewrite valid_iff. unfold proper. cbn [nd_year nd_month nd_day month_len]. lia.
  - unfold num_days_from_ce, ordinal. cbn [nd_year nd_month nd_day].
    pose proof (days_before_year_succ (y - 1)) as D.
    replace (y - 1 + 1) with y in D by lia. rewrite D.
    unfold days_before_month, leap01. destruct (is_leap (y - 1)); lia.
Qed.

Lemma pred_opt_none d : valid d -> (pred_opt d = None <-> d = MIN_DATE).
Proof.
  intros V. split.
  - intros E. unfold pred_opt in E.
    destruct (Z.ltb_spec 1 (nd_day d)); [discriminate |].
    destruct (Z.ltb_spec 1 (nd_month d)); [discriminate |].
    destruct (Z.ltb_spec MIN_YEAR (nd_year d)); [discriminate |].
    rewrite valid_iff in V. destruct V as [V1 [V2 V3]].
    destruct d as [y m d]. cbn [nd_year nd_month nd_day] in *. unfold MIN_DATE. f_equal; lia.
  - intros ->. reflexivity.
Qed.

Lemma serial_min d : valid d -> d <> MIN_DATE -> MIN_SERIAL < num_days_from_ce d.
Proof.
  intros V N. pose proof (proj1 (valid_serial _ (valid_proper _ V)) V).
  assert (num_days_from_ce d <> MIN_SERIAL); [| lia].
  intros E. apply N. apply serial_inj; [now apply valid_proper | apply valid_proper, MIN_valid | exact E].
Qed.

Lemma serial_max d : valid d -> d <> MAX_DATE -> num_days_from_ce d < MAX_SERIAL.
Proof.
  intros V N. pose proof (proj1 (valid_serial _ (valid_proper _ V)) V).
  assert (num_days_from_ce d <> MAX_SERIAL); [| lia].
  intros E. apply N. apply serial_inj; [now apply valid_proper | apply valid_proper, MAX_valid | exact E].
Qed.

Lemma pred_opt_spec d r :
  valid d -> (pred_opt d = Some r <-> valid r /\ num_days_from_ce r = num_days_from_ce d - 1).
Proof.
  intros V. split; [now apply pred_opt_some |].
  intros [Vr Sr]. destruct (pred_opt d) as [r' |] eqn:E.
  - destruct (pred_opt_some _ _ V E) as [V1 S1].
    f_equal. apply serial_inj; try now apply valid_proper. lia.
  - exfalso. apply pred_opt_none in E; [| exact V]. subst d.
    apply valid_serial in Vr; [| now apply valid_proper]. unfold MIN_SERIAL in *. lia.
Qed.

Lemma succ_of_serial d : valid d -> succ_opt d = of_serial (num_days_from_ce d + 1).
Proof.
  intros V. destruct (succ_opt d) as [r |] eqn:E.
  - apply succ_opt_spec in E; [| exact V]. symmetry. now apply of_serial_some.
  - symmetry. apply of_serial_none. apply succ_opt_none in E; [| exact V]. subst d.
    fold MAX_SERIAL. lia.
Qed.

Lemma pred_of_serial d : valid d -> pred_opt d = of_serial (num_days_from_ce d - 1).
Proof.
  intros V. destruct (pred_opt d) as [r |] eqn:E.
  - apply pred_opt_spec in E; [| exact V]. symmetry. now apply of_serial_some.
  - symmetry. apply of_serial_none. apply pred_opt_none in E; [| exact V]. subst d.
    fold MIN_SERIAL. lia.
Qed.

Lemma of_serial_serial d : valid d -> of_serial (num_days_from_ce d) = Some d.
Proof. intros V. now apply of_serial_some. Qed.

(** ** The independent next-day relation *)

Lemma next_day_serial a b :
  next_day a b -> proper a -> num_days_from_ce b = num_days_from_ce a + 1 /\ proper b.
Proof.
  intros H P. destruct H as [y m d L HL Hd | y m L HL Hm | y].
  - pose proof (month_length_month _ _ _ HL) as Hm.
    apply month_len_spec in HL; [| exact Hm]. subst.
    split; [unfold num_days_from_ce, ordinal | unfold proper]; cbn [nd_year nd_month nd_day]; lia.
  - pose proof (month_length_month _ _ _ HL) as Hm'.
    apply month_len_spec in HL; [| exact Hm']. subst.
    split; [unfold num_days_from_ce, ordinal | unfold proper]; cbn [nd_year nd_month nd_day].
    + rewrite days_before_month_succ by lia. lia.
    + pose proof (month_len_range y (m + 1)). lia.
  - split; [unfold num_days_from_ce, ordinal | unfold proper]; cbn [nd_year nd_month nd_day].
    + rewrite days_before_year_succ. unfold days_before_month, leap01. destruct (is_leap y); lia.
    + cbn. lia.
Qed.

Lemma next_day_intro a b :
  proper a -> proper b -> num_days_from_ce b = num_days_from_ce a + 1 -> next_day a b.
Proof.
  intros Pa Pb E.
  assert (exists c, next_day a c) as [c Hc].
  { destruct a as [y m d]. destruct Pa as [Hm Hd]. cbn [nd_year nd_month nd_day] in *.
    assert (d < month_len y m \/ d = month_len y m) as [C | C] by lia.
    - eexists. eapply next_in_month; [apply month_len_spec; [exact Hm | reflexivity] | lia].
    - subst d. assert (m < 12 \/ m = 12) as [C | ->] by lia.
      + eexists. eapply next_month; [apply month_len_spec; [exact Hm | reflexivity] | lia].
      + eexists. apply next_year. }
  destruct (next_day_serial _ _ Hc Pa) as [E' Pc].
  replace b with c; [exact Hc |]. apply serial_inj; auto. lia.
Qed.

Lemma days_later_serial n a b :
  proper a ->
  (days_later n a b <-> proper b /\ num_days_from_ce b = num_days_from_ce a + Z.of_nat n).
Proof.
  intros Pa. split.
  - induction 1 as [d | n a b c H IH N].
    + split; [exact Pa | lia].
    + destruct (IH Pa) as [Pb Eb]. destruct (next_day_serial _ _ N Pb) as [E Pc].
      split; [exact Pc | lia].
  - revert b. induction n as [| n IH]; intros b [Pb E].
    + replace b with a; [constructor |]. apply serial_inj; auto. lia.
    + set (c := civil_of_serial (num_days_from_ce b - 1)).
      destruct (civil_correct (num_days_from_ce b - 1)) as [C1 C2]. fold c in C1, C2.
      apply later_S with c.
      * apply IH. split; [exact C2 | lia].
      * apply next_day_intro; auto. lia.
Qed.

(** ** Weekdays *)

Lemma weekday_num_of k : 0 <= k < 7 -> weekday_num (weekday_of_num k) = k.
Proof.
  intros H. assert (k = 0 \/ k = 1 \/ k = 2 \/ k = 3 \/ k = 4 \/ k = 5 \/ k = 6) as C by lia.
  repeat destruct C as [-> | C]; try subst k; reflexivity.
Qed.

Lemma weekday_of_num_num w : weekday_of_num (weekday_num w) = w.
Proof. now destruct w. Qed.

Lemma weekday_num_inj a b : weekday_num a = weekday_num b -> a = b.
Proof. intros H. now rewrite <- (weekday_of_num_num a), <- (weekday_of_num_num b), H. Qed.

Lemma weekday_num_weekday d : weekday_num (weekday d) = (num_days_from_ce d - 1) mod 7.
Proof. unfold weekday. apply weekday_num_of. apply Z.mod_pos_bound. lia. Qed.

Lemma weekday_num_range w : 0 <= weekday_num w <= 6.
Proof. destruct w; simpl; lia. Qed.

Lemma weekday_eqb_eq a b : weekday_eqb a b = true <-> a = b.
Proof. destruct a, b; simpl; split; congruence. Qed.

Lemma weekday_next a b :
  num_days_from_ce b = num_days_from_ce a + 1 -> weekday b = next_weekday (weekday a).
Proof.
  intros E. apply weekday_num_inj. rewrite weekday_num_weekday.
  pose proof (weekday_num_weekday a) as W. pose proof (weekday_num_range (weekday a)).
  destruct (weekday a); simpl in *; lia.
Qed.
