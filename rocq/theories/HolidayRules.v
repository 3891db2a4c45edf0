(** A language of holiday rules, its meaning on dates, and a decision procedure for it.  The meaning
    [kept] uses only the Gregorian calendar, weekdays and the two Easters of CalSpec. *)
From Coq Require Import ZArith Bool List Lia.
From Verif Require Import Base Chrono Gregorian DateFacts EasterTables CalFacts CalSpec.
Import ListNotations.
Local Open Scope Z_scope.

Inductive rule :=
| Fixed (m d : Z)                          (* every year on this day *)
| Western (k : Z)                          (* k days after western Easter Sunday *)
| Orthodox (k : Z)                         (* k days after orthodox Easter Sunday *)
| Nth (n : nat) (w : Weekday) (m : Z)      (* the n-th w of month m *)
| Last (w : Weekday) (m : Z)               (* the last w of month m *)
| FirstFrom (w : Weekday) (m d : Z)        (* the first w from day (m, d) on *)
| Moved (w : Weekday) (k m d : Z)          (* k days after (m, d) in the years when that is a w *)
| Weekly (w : Weekday)                     (* every w *)
| From (y : Z) (r : rule)                  (* since year y *)
| Until (y : Z) (r : rule)                 (* up to and including year y *)
| InYears (ys : list Z) (r : rule)
| NotIn (ys : list Z) (r : rule)
| Since (m d : Z) (r : rule).              (* from day (m, d) of the year on *)

(** A date on day (m, d) of its year. *)
Definition on_day (m d : Z) (e : NaiveDate) : Prop :=
  gregorian (nd_year e) (nd_month e) (nd_day e) /\ nd_month e = m /\ nd_day e = d.

Fixpoint kept (r : rule) (x : NaiveDate) : Prop :=
  match r with
  | Fixed m d => on_day m d x
  | Western k => western_feast k x
  | Orthodox k => orthodox_feast k x
  | Nth n w m => nth_weekday n w m x
  | Last w m => last_weekday w m x
  | FirstFrom w m d => weekday x = w /\ exists e k, on_day m d e /\ 0 <= k <= 6 /\ days_from e k x
  | Moved w k m d => exists e, on_day m d e /\ weekday e = w /\ days_from e k x
  | Weekly w => weekday x = w
  | From y r => y <= nd_year x /\ kept r x
  | Until y r => nd_year x <= y /\ kept r x
  | InYears ys r => In (nd_year x) ys /\ kept r x
  | NotIn ys r => ~ In (nd_year x) ys /\ kept r x
  | Since m d r => ~ earlier x (mkDate (nd_year x) m d) /\ kept r x
  end.

(** A date on which one of the rules holds. *)
Definition holiday (rs : list rule) (x : NaiveDate) : Prop := exists r, In r rs /\ kept r x.

(** ** Deciding the rules from day, weekday, month, year, day of the year and the Easter entries *)

Definition month_size (m : Z) : Z := month_len 2001 m.

(** The month and day k days after day (m, d), for small k. *)
Definition shifted (m d k : Z) : Z * Z :=
  if d + k <? 1 then if m =? 1 then (12, d + k + 31) else (m - 1, d + k + month_size (m - 1))
  else if month_size m <? d + k then if m =? 12 then (1, d + k - 31) else (m + 1, d + k - month_size m)
  else (m, d + k).

(** Change of the year. *)
Definition year_step (m d k : Z) : Z :=
  if (d + k <? 1) && (m =? 1) then -1 else if (31 <? d + k) && (m =? 12) then 1 else 0.

Definition weekday_plus (w : Weekday) (k : Z) : Weekday := weekday_of_num ((weekday_num w + k) mod 7).

Fixpoint ruleb (r : rule) (d : Z) (w : Weekday) (m y dd em oem : Z) : bool :=
  match r with
  | Fixed m' d' => (d =? d') && (m =? m')
  | Western k => dd =? em + (k - 1)
  | Orthodox k => dd =? oem + (k - 1)
  | Nth n w' m' => weekday_eqb w w' && ((m =? m') && ((7 * (Z.of_nat n - 1) <? d) && (d <=? 7 * Z.of_nat n)))
  | Last w' m' => weekday_eqb w w' && ((m =? m') && (month_size m' - 7 <? d))
  | FirstFrom w' m' d' => weekday_eqb w w' && ((m =? m') && ((d' <=? d) && (d <=? d' + 6)))
  | Moved w' k m' d' => (weekday_eqb w (weekday_plus w' k))
                        && ((d =? snd (shifted m' d' k)) && (m =? fst (shifted m' d' k)))
  | Weekly w' => weekday_eqb w w'
  | From y' r => (y' <=? y) && ruleb r d w m y dd em oem
  | Until y' r => (y <=? y') && ruleb r d w m y dd em oem
  | InYears ys r => existsb (Z.eqb y) ys && ruleb r d w m y dd em oem
  | NotIn ys r => negb (existsb (Z.eqb y) ys) && ruleb r d w m y dd em oem
  | Since m' d' r => ((m' <? m) || ((m' =? m) && (d' <=? d))) && ruleb r d w m y dd em oem
  end.

Definition rulesb (rs : list rule) (d : Z) (w : Weekday) (m y dd em oem : Z) : bool :=
  existsb (fun r => ruleb r d w m y dd em oem) rs.

(** Rules the procedure is right for: real days, small shifts that do not cross the end of February,
    years in the range of the Easter tables. *)
Definition year_in (y : Z) : bool := (1901 <=? y) && (y <=? 2199).
Definition month_in (m : Z) : bool := (1 <=? m) && (m <=? 12).
Definition day_in (m d : Z) : bool := month_in m && ((1 <=? d) && (d <=? month_size m)).

Fixpoint wf_rule (r : rule) : bool :=
  match r with
  | Fixed _ _ => true
  | Western _ | Orthodox _ | Weekly _ => true
  | Nth n _ m => month_in m && (1 <=? Z.of_nat n) && (Z.of_nat n <=? 4)
  | Last _ m => month_in m && negb (m =? 2)
  | FirstFrom _ m d => day_in m d && (d + 6 <=? month_size m)
  | Moved _ k m d => day_in m d && ((-10 <=? k) && (k <=? 10))
      && negb ((m =? 2) && (month_size m <? d + k)) && negb ((m =? 3) && (d + k <? 1))
  | From y r | Until y r => year_in y && wf_rule r
  | InYears ys r | NotIn ys r => forallb year_in ys && wf_rule r
  | Since m d r => day_in m d && wf_rule r
  end.

(** Rules that do not look at Easter. *)
Fixpoint plain (r : rule) : bool :=
  match r with
  | Western _ | Orthodox _ => false
  | Fixed _ _ | Nth _ _ _ | Last _ _ | FirstFrom _ _ _ | Moved _ _ _ _ | Weekly _ => true
  | From _ r | Until _ r | InYears _ r | NotIn _ r | Since _ _ r => plain r
  end.

(** ** Correctness of the procedure *)

Lemma month_size_len y m : m <> 2 -> month_len y m = month_size m.
Proof.
  intros H. unfold month_size, month_len. destruct m as [| p | p]; [reflexivity | | reflexivity].
  do 4 (try destruct p as [p | p |]); reflexivity || lia.
Qed.

Lemma month_size_le y m : month_size m <= month_len y m.
Proof.
  destruct (Z.eq_dec m 2) as [-> | N]; [| rewrite (month_size_len y m N); lia].
  unfold month_size, month_len. change (is_leap 2001) with false. destruct (is_leap y); lia.
Qed.

Lemma day_in_spec m d : day_in m d = true <-> 1 <= m <= 12 /\ 1 <= d <= month_size m.
Proof. unfold day_in, month_in. rewrite !andb_true_iff, !Z.leb_le. tauto. Qed.

Lemma day_in_proper y m d : day_in m d = true -> proper (mkDate y m d).
Proof.
  rewrite day_in_spec. intros [Hm Hd]. unfold proper. cbn [nd_year nd_month nd_day].
  pose proof (month_size_le y m). lia.
Qed.

Lemma on_day_iff m d e : on_day m d e <-> proper e /\ e = mkDate (nd_year e) m d.
Proof.
  unfold on_day. rewrite <- proper_gregorian. destruct e as [y m' d']; cbn [nd_year nd_month nd_day]. split.
  - intros (P & -> & ->). auto.
  - intros (P & E). injection E as -> ->. auto.
Qed.

Lemma weekday_eqb_eq a b : weekday_eqb a b = true <-> a = b.
Proof. destruct a, b; cbn; split; congruence. Qed.

Lemma shift_serial y m d k : wf_rule (Moved Mon k m d) = true ->
  proper (mkDate (y + year_step m d k) (fst (shifted m d k)) (snd (shifted m d k)))
  /\ num_days_from_ce (mkDate (y + year_step m d k) (fst (shifted m d k)) (snd (shifted m d k)))
     = num_days_from_ce (mkDate y m d) + k.
Proof.
  cbn [wf_rule]. rewrite !andb_true_iff, !negb_true_iff, !andb_false_iff, day_in_spec, !Z.leb_le,
    !Z.eqb_neq, !Z.ltb_ge.
  intros ((((Hm & Hd) & Hk) & F2) & F3).
  unfold shifted, year_step.
  destruct (Z.ltb_spec (d + k) 1) as [L | L].
  - destruct (Z.eqb_spec m 1) as [-> | N]; cbn [andb fst snd].
    + unfold proper, num_days_from_ce, ordinal. cbn [nd_year nd_month nd_day].
      change (month_len (y + -1) 12) with 31. change (month_size 1) with 31 in *.
      pose proof (days_before_year_succ (y + -1)) as S. replace (y + -1 + 1) with y in S by lia.
      rewrite S. unfold days_before_month, leap01. destruct (is_leap (y + -1)); simpl; lia.
    + replace (31 <? d + k) with false by (symmetry; apply Z.ltb_ge; lia). cbn [andb fst snd].
      rewrite Z.add_0_r. unfold proper, num_days_from_ce, ordinal. cbn [nd_year nd_month nd_day].
      assert (m - 1 <> 2) as M2 by lia.
      rewrite (month_size_len y _ M2).
      assert (days_before_month y m = days_before_month y (m - 1) + month_size (m - 1)) as B.
      { assert (m = 2 \/ m = 4 \/ m = 5 \/ m = 6 \/ m = 7 \/ m = 8 \/ m = 9 \/ m = 10 \/ m = 11 \/ m = 12) as C by lia.
        repeat (destruct C as [-> | C]; [unfold days_before_month; destruct (is_leap y); reflexivity |]).
        subst. unfold days_before_month; destruct (is_leap y); reflexivity. }
      assert (28 <= month_size (m - 1)) as G.
      { rewrite <- (month_size_len 2001 _ M2). apply month_len_range. lia. }
      rewrite B. lia.
  - cbn [andb].
    destruct (Z.ltb_spec (month_size m) (d + k)) as [U | U].
    + destruct (Z.eqb_spec m 12) as [-> | N].
      * change (month_size 12) with 31 in *. replace (31 <? d + k) with true by (symmetry; apply Z.ltb_lt; lia).
        cbn [andb fst snd]. unfold proper, num_days_from_ce, ordinal. cbn [nd_year nd_month nd_day].
        change (month_len (y + 1) 1) with 31. rewrite days_before_year_succ.
        unfold days_before_month, leap01. destruct (is_leap y); destruct (is_leap (y + 1)); simpl; lia.
      * rewrite andb_false_r. cbn [fst snd]. rewrite Z.add_0_r.
        unfold proper, num_days_from_ce, ordinal. cbn [nd_year nd_month nd_day].
        assert (m <> 2) as M2 by lia.
        assert (days_before_month y (m + 1) = days_before_month y m + month_size m) as B.
        { assert (m = 1 \/ m = 3 \/ m = 4 \/ m = 5 \/ m = 6 \/ m = 7 \/ m = 8 \/ m = 9 \/ m = 10 \/ m = 11) as C by lia.
          repeat (destruct C as [-> | C]; [unfold days_before_month; destruct (is_leap y); reflexivity |]).
          subst. unfold days_before_month; destruct (is_leap y); reflexivity. }
        pose proof (month_len_range y (m + 1) ltac:(lia)). rewrite B. lia.
    + cbn [fst snd]. assert ((31 <? d + k) && (m =? 12) = false) as ->.
      { destruct (Z.eqb_spec m 12) as [-> | N]; [| apply andb_false_r].
        change (month_size 12) with 31 in U. rewrite (proj2 (Z.ltb_ge 31 (d + k))) by lia. reflexivity. }
      rewrite Z.add_0_r. unfold proper, num_days_from_ce, ordinal. cbn [nd_year nd_month nd_day].
      pose proof (month_size_le y m). lia.
Qed.

Lemma weekday_shift e x k : num_days_from_ce x = num_days_from_ce e + k ->
  weekday x = weekday_plus (weekday e) k.
Proof.
  intros S. apply weekday_num_inj. unfold weekday_plus.
  rewrite weekday_num_of by (apply Z.mod_pos_bound; lia). rewrite !weekday_num_weekday, S.
  rewrite Zplus_mod_idemp_l. f_equal. lia.
Qed.

Lemma weekday_plus_inj a b k : weekday_plus a k = weekday_plus b k -> a = b.
Proof.
  unfold weekday_plus. intros E. apply (f_equal weekday_num) in E.
  rewrite !weekday_num_of in E by (apply Z.mod_pos_bound; lia).
  apply weekday_num_inj. pose proof (weekday_num_range a). pose proof (weekday_num_range b).
  pose proof (Z.div_mod (weekday_num a + k) 7). pose proof (Z.div_mod (weekday_num b + k) 7).
  pose proof (Z.mod_pos_bound (weekday_num a + k) 7). pose proof (Z.mod_pos_bound (weekday_num b + k) 7). lia.
Qed.

Lemma moved_iff w k m d x : wf_rule (Moved w k m d) = true -> proper x ->
  (kept (Moved w k m d) x <->
   weekday x = weekday_plus w k /\ nd_day x = snd (shifted m d k) /\ nd_month x = fst (shifted m d k)).
Proof.
  intros W P. cbn [kept]. split.
  - intros (e & O & We & D). apply on_day_iff in O. destruct O as [Pe E].
    apply days_from_serial in D; [| assumption..].
    destruct (shift_serial (nd_year e) m d k W) as [Ps Ss].
    rewrite <- E in Ss. rewrite (serial_inj _ _ P Ps) by lia. cbn [nd_day nd_month].
    split; [| auto]. rewrite <- We. apply weekday_shift. exact Ss.
  - intros (Wx & D & M). destruct x as [y m' d']; cbn [nd_day nd_month] in *. subst m' d'.
    exists (mkDate (y - year_step m d k) m d).
    assert (day_in m d = true) as DI.
    { cbn [wf_rule] in W. rewrite !andb_true_iff in W. tauto. }
    pose proof (day_in_proper (y - year_step m d k) m d DI) as Pe.
    destruct (shift_serial (y - year_step m d k) m d k W) as [Ps Ss].
    replace (y - year_step m d k + year_step m d k) with y in * by lia.
    split; [apply on_day_iff; auto |]. split.
    + rewrite (weekday_shift _ _ _ Ss) in Wx. now apply weekday_plus_inj in Wx.
    + apply days_from_serial; assumption.
Qed.

Lemma first_from_iff w m d x : wf_rule (FirstFrom w m d) = true -> proper x ->
  (kept (FirstFrom w m d) x <-> weekday x = w /\ nd_month x = m /\ d <= nd_day x <= d + 6).
Proof.
  cbn [wf_rule]. rewrite andb_true_iff, Z.leb_le. intros [DI L] P. cbn [kept].
  pose proof DI as DI'. apply day_in_spec in DI'. destruct DI' as [Hm Hd].
  enough ((exists e k, on_day m d e /\ 0 <= k <= 6 /\ days_from e k x) <-> nd_month x = m /\ d <= nd_day x <= d + 6)
    as -> by tauto.
  split.
  - intros (e & k & O & K & D). apply on_day_iff in O. destruct O as [Pe E].
    apply days_from_serial in D; [| assumption..].
    assert (proper (mkDate (nd_year e) m (d + k))) as Pk.
    { unfold proper. cbn [nd_year nd_month nd_day]. pose proof (month_size_le (nd_year e) m). lia. }
    rewrite (serial_inj x (mkDate (nd_year e) m (d + k)) P Pk); [cbn [nd_month nd_day]; lia |].
    rewrite D, E. unfold num_days_from_ce, ordinal. cbn [nd_year nd_month nd_day]. lia.
  - intros (M & D). exists (mkDate (nd_year x) m d), (nd_day x - d).
    pose proof (day_in_proper (nd_year x) m d DI) as Pe.
    split; [apply on_day_iff; auto |]. split; [lia |].
    apply days_from_serial; [assumption.. |]. unfold num_days_from_ce, ordinal. cbn [nd_year nd_month nd_day].
    rewrite M. lia.
Qed.

Lemma since_iff m d x : day_in m d = true -> proper x ->
  (~ earlier x (mkDate (nd_year x) m d) <-> m < nd_month x \/ (m = nd_month x /\ d <= nd_day x)).
Proof.
  intros _ _. unfold earlier. cbn [nd_year nd_month nd_day]. lia.
Qed.

Lemma existsb_in y ys : existsb (Z.eqb y) ys = true <-> In y ys.
Proof.
  rewrite existsb_exists. split.
  - intros (x & I & E). apply Z.eqb_eq in E. now subst.
  - intros I. exists y. split; [assumption | apply Z.eqb_refl].
Qed.

Lemma ruleb_kept r x : wf_rule r = true -> proper x -> 1901 <= nd_year x <= 2199 \/ plain r = true ->
  (kept r x <-> ruleb r (nd_day x) (weekday x) (nd_month x) (nd_year x) (ordinal x)
                  (entry EASTER_MONDAY (nd_year x)) (entry ORTHODOX_EASTER_MONDAY (nd_year x)) = true).
Proof.
  intros W P. induction r as [m d | k | k | n w m | w m | w m d | w k m d | w | y r IH | y r IH | ys r IH | ys r IH | m d r IH];
    intros Y; try (cbn [kept ruleb wf_rule plain] in *; rewrite andb_true_iff in *; specialize (IH (proj2 W) Y)).
  - cbn [kept ruleb]. rewrite andb_true_iff, !Z.eqb_eq. unfold on_day. rewrite <- proper_gregorian. tauto.
  - destruct Y as [Y | Y]; [| discriminate]. cbn [kept ruleb]. rewrite Z.eqb_eq.
    now apply western_feast_ordinal.
  - destruct Y as [Y | Y]; [| discriminate]. cbn [kept ruleb]. rewrite Z.eqb_eq.
    now apply orthodox_feast_ordinal.
  - cbn [kept ruleb]. rewrite nth_weekday_iff by assumption.
    rewrite !andb_true_iff, weekday_eqb_eq, Z.eqb_eq, Z.ltb_lt, Z.leb_le. tauto.
  - cbn [kept ruleb wf_rule] in *. rewrite last_weekday_iff by assumption.
    rewrite !andb_true_iff, negb_true_iff, Z.eqb_neq in W. rewrite month_size_len by tauto.
    rewrite !andb_true_iff, weekday_eqb_eq, Z.eqb_eq, Z.ltb_lt. tauto.
  - rewrite first_from_iff by assumption. cbn [ruleb].
    rewrite !andb_true_iff, weekday_eqb_eq, Z.eqb_eq, !Z.leb_le. tauto.
  - rewrite moved_iff by assumption. cbn [ruleb].
    rewrite !andb_true_iff, weekday_eqb_eq, !Z.eqb_eq. tauto.
  - cbn [kept ruleb]. now rewrite weekday_eqb_eq.
  - rewrite Z.leb_le. tauto.
  - rewrite Z.leb_le. tauto.
  - rewrite existsb_in. tauto.
  - rewrite negb_true_iff. rewrite <- not_true_iff_false, existsb_in. tauto.
  - rewrite since_iff by tauto. rewrite orb_true_iff, andb_true_iff, Z.ltb_lt, Z.eqb_eq, Z.leb_le. tauto.
Qed.

Lemma rulesb_holiday rs x : forallb wf_rule rs = true -> proper x ->
  1901 <= nd_year x <= 2199 \/ forallb plain rs = true ->
  (holiday rs x <-> rulesb rs (nd_day x) (weekday x) (nd_month x) (nd_year x) (ordinal x)
                  (entry EASTER_MONDAY (nd_year x)) (entry ORTHODOX_EASTER_MONDAY (nd_year x)) = true).
Proof.
  intros W P Y. unfold holiday, rulesb. rewrite existsb_exists. rewrite forallb_forall in W.
  assert (forall r, In r rs -> 1901 <= nd_year x <= 2199 \/ plain r = true) as Y'.
  { intros r I. destruct Y as [Y | Y]; [auto | right]. rewrite forallb_forall in Y. auto. }
  split; intros (r & I & K); exists r; (split; [exact I |]); apply (ruleb_kept r x (W r I) P (Y' r I)); exact K.
Qed.

(** Outside the tables the rules treat all years alike. *)
Definition clamp (y : Z) : Z := Z.max 1900 (Z.min y 2200).

Lemma clamp_eqb y k : 1901 <= k <= 2199 -> (clamp y =? k) = (y =? k).
Proof. intros H. apply Bool.eq_iff_eq_true. rewrite !Z.eqb_eq. unfold clamp. lia. Qed.
Lemma clamp_leb y k : 1901 <= k <= 2199 -> (clamp y <=? k) = (y <=? k).
Proof. intros H. apply Bool.eq_iff_eq_true. rewrite !Z.leb_le. unfold clamp. lia. Qed.
Lemma clamp_geb y k : 1901 <= k <= 2199 -> (k <=? clamp y) = (k <=? y).
Proof. intros H. apply Bool.eq_iff_eq_true. rewrite !Z.leb_le. unfold clamp. lia. Qed.
Lemma clamp_ltb y k : 1901 <= k <= 2199 -> (clamp y <? k) = (y <? k).
Proof. intros H. apply Bool.eq_iff_eq_true. rewrite !Z.ltb_lt. unfold clamp. lia. Qed.
Lemma clamp_gtb y k : 1901 <= k <= 2199 -> (k <? clamp y) = (k <? y).
Proof. intros H. apply Bool.eq_iff_eq_true. rewrite !Z.ltb_lt. unfold clamp. lia. Qed.

(** An example of each kind of rule: the fourth Thursday of November, 2 January after a Sunday, the
    Friday before Saturday 1 January, and midsummer eve. *)
Example kept_cases :
  kept (Nth 4 Thu 11) (mkDate 2024 11 28) /\ kept (Moved Sun 1 1 1) (mkDate 2023 1 2)
  /\ kept (Moved Sat (-1) 1 1) (mkDate 2021 12 31) /\ kept (FirstFrom Fri 6 19) (mkDate 2024 6 21)
  /\ ~ kept (Last Mon 5) (mkDate 2024 5 20) /\ kept (From 2000 (Western (-2))) (mkDate 2024 3 29).
Proof.
  assert (forall y m d, validb (mkDate y m d) = true -> proper (mkDate y m d)) as P.
  { intros y m d V. now apply valid_proper. }
  repeat match goal with |- _ /\ _ => split end;
    rewrite ruleb_kept by first [reflexivity | apply P; reflexivity | left; cbn; lia | right; reflexivity];
    vm_compute; congruence.
Qed.
