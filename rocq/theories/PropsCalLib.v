(** Properties C55, C56, C61-C63: the default methods of the [Calendar] trait and the joint calendar,
    for arbitrary calendars.  A calendar is a function from dates that may panic. *)
From Coq Require Import ZArith Bool List Lia Sorting.Sorted.
From Verif Require Import Base Chrono Gregorian DateModel DateFacts LoopFacts PropsDate PropsRoll CalLib.
Import ListNotations.
Open Scope Z_scope.

#[local] Hint Resolve a_date_proper : core.

(** ** C55: holiday is the complement of business day *)

(** On every date exactly one of the two is true, unless the calendar panics, and then both panic.
    The wrapper for [Date] agrees with the wrapped calendar and has the same complement. *)
Theorem C55_complement : forall (c : cal) (d : NaiveDate),
  (c d = Ret true <-> is_holiday c d = Ret false)
  /\ (c d = Ret false <-> is_holiday c d = Ret true)
  /\ (c d = Panic <-> is_holiday c d = Panic).
Proof.
  intros c d. unfold is_holiday. destruct (c d) as [[|] | |]; cbn [bind negb];
    split; [| split | | split | | split | | split]; split; congruence.
Qed.

Theorem C55_wrapper : forall (c : cal) (d : NaiveDate),
  (wrapped_is_business_day c d = Ret true <-> is_holiday c d = Ret false)
  /\ (wrapped_is_holiday c d = Ret true <-> c d = Ret false)
  /\ wrapped_is_holiday c d = date_is_holiday (wrapped_is_business_day c) d.
Proof.
  intros c d. unfold wrapped_is_business_day, wrapped_is_holiday, date_is_holiday.
  pose proof (C55_complement c d) as (A & B & _). split; [exact A |]. split; [tauto | reflexivity].
Qed.

Example C55_case :
  is_holiday (pure_cal (fun d => negb (is_weekend d))) (mkDate 2024 6 1) = Ret true
  /\ wrapped_is_business_day (pure_cal (fun d => negb (is_weekend d))) (mkDate 2024 6 3) = Ret true.
Proof. split; reflexivity. Qed.

(** ** C56: joint calendars *)

(** Joint calendars nested to any depth, and their leaves. *)
Inductive nest := Leaf (c : cal) | Both (a b : nest).

Fixpoint nest_cal (n : nest) : cal :=
  match n with Leaf c => c | Both a b => joint_calendar (nest_cal a) (nest_cal b) end.

Inductive leaf_of : cal -> nest -> Prop :=
| leaf_here c : leaf_of c (Leaf c)
| leaf_l c a b : leaf_of c a -> leaf_of c (Both a b)
| leaf_r c a b : leaf_of c b -> leaf_of c (Both a b).

(** Open exactly when every calendar in it is open. *)
Theorem C56_open : forall n d,
  nest_cal n d = Ret true <-> forall c, leaf_of c n -> c d = Ret true.
Proof.
  induction n as [c | a IHa b IHb]; intros d; cbn [nest_cal].
  - split; [intros H c' L; inversion L; subst; exact H | intros H; apply H; constructor].
  - unfold joint_calendar. destruct (nest_cal a d) as [[|] | |] eqn:A; cbn [bind].
    + rewrite IHb. split.
      * intros H c L. inversion L; subst; [now apply (proj1 (IHa d)) | now apply H].
      * intros H c L. apply H. now constructor.
    + split; [discriminate |]. intros H. exfalso.
      enough (nest_cal a d = Ret true) by congruence. apply IHa. intros c L. apply H. now constructor.
    + split; [discriminate |]. intros H. exfalso.
      enough (nest_cal a d = Ret true) by congruence. apply IHa. intros c L. apply H. now constructor.
    + split; [discriminate |]. intros H. exfalso.
      enough (nest_cal a d = Ret true) by congruence. apply IHa. intros c L. apply H. now constructor.
Qed.

(** When every calendar in it answers, the joint calendar answers, and is closed exactly when at
    least one is closed. *)
Theorem C56_answers : forall n d,
  (forall c, leaf_of c n -> exists b, c d = Ret b) ->
  (exists b, nest_cal n d = Ret b)
  /\ (nest_cal n d = Ret false <-> exists c, leaf_of c n /\ c d = Ret false).
Proof.
  induction n as [c | a IHa b IHb]; intros d H; cbn [nest_cal].
  - split; [apply H; constructor |]. split; [intros E; exists c; split; [constructor | exact E] |].
    intros (c' & L & E). inversion L; subst. exact E.
  - destruct (IHa d) as [[x X] FA]; [intros c L; apply H; now constructor |].
    destruct (IHb d) as [[y Y] FB]; [intros c L; apply H; now constructor |].
    unfold joint_calendar. rewrite X, Y in *. cbn [bind]. split; [destruct x; eauto |]. split.
    + destruct x.
      * intros E. apply FB in E. destruct E as (c & L & E). exists c. split; [now constructor | exact E].
      * intros _. destruct (proj1 FA eq_refl) as (c & L & E). exists c. split; [now constructor | exact E].
    + intros (c & L & E). inversion L; subst.
      * assert (Ret x = Ret false) as Q by (apply FA; eauto). injection Q as ->. reflexivity.
      * destruct x; [| reflexivity]. apply FB. eauto.
Qed.

(** Order and repetition do not matter. *)
Theorem C56_order : forall n n' d,
  (forall c, leaf_of c n <-> leaf_of c n') -> (forall c, leaf_of c n -> exists b, c d = Ret b) ->
  nest_cal n d = nest_cal n' d.
Proof.
  intros n n' d E A. destruct (C56_answers n d A) as [[x X] _].
  assert (forall c, leaf_of c n' -> exists b, c d = Ret b) as A' by (intros c L; apply A, E, L).
  destruct (C56_answers n' d A') as [[y Y] _]. rewrite X, Y. f_equal.
  assert (x = true <-> y = true) as Q; [| destruct x, y; intuition congruence].
  pose proof (C56_open n d) as O. pose proof (C56_open n' d) as O'. rewrite X in O. rewrite Y in O'.
  split; intros ->; [enough (Ret y = Ret true) by congruence; apply O'; intros c L; apply (proj1 O eq_refl), E, L |
                     enough (Ret x = Ret true) by congruence; apply O; intros c L; apply (proj1 O' eq_refl), E, L].
Qed.

(** With a calendar that panics the order matters: a closed first calendar hides the panic. *)
Theorem C56_order_refuted : exists c1 c2 d,
  joint_calendar c1 c2 d = Ret false /\ joint_calendar c2 c1 d = Panic.
Proof.
  exists (pure_cal (fun _ => false)), (fun _ => Panic), (mkDate 2024 1 1). split; reflexivity.
Qed.

Example C56_case :
  let a := pure_cal (fun d => negb (is_weekend d)) in
  let b := pure_cal (fun d => negb (nd_day d =? 3)) in
  nest_cal (Both (Leaf a) (Both (Leaf b) (Leaf a))) (mkDate 2024 6 4) = Ret true
  /\ nest_cal (Both (Leaf a) (Both (Leaf b) (Leaf a))) (mkDate 2024 6 3) = Ret false
  /\ (forall c, leaf_of c (Both (Leaf a) (Leaf b)) <-> leaf_of c (Both (Leaf b) (Leaf a))).
Proof.
  cbv zeta. split; [reflexivity |]. split; [reflexivity |].
  intros c. split; intros L; inversion L as [| ? ? ? K | ? ? ? K]; subst;
    (apply leaf_l + apply leaf_r); assumption.
Qed.

(** ** C61: end of month *)

(** The last day of the month, panicking exactly in the last representable year. *)
Theorem C61_last_day : forall d r, a_date d ->
  (last_day_of_month d = Ret r <->
   nd_year d < 262142 /\ nd_year r = nd_year d /\ nd_month r = nd_month d
   /\ month_length (nd_year d) (nd_month d) (nd_day r)).
Proof.
  intros d r H. pose proof H as [R G]. apply proper_gregorian in G. unfold representable in R.
  destruct d as [y m d], r as [y' m' d']. destruct G as [Gm Gd]. cbn [nd_year nd_month nd_day] in *.
  unfold last_day_of_month. cbn [nd_year nd_month nd_day]. cbv zeta.
  assert (month_length y m d' <-> d' = month_len y m) as ML by (apply month_len_spec; lia). rewrite ML.
  destruct (from_ymd_opt (y + 1) 1 1) as [dflt |] eqn:D; cbn [unwrap bind].
  - apply from_ymd_opt_some in D. destruct D as [-> D]. apply valid_iff in D. cbn [nd_year] in D.
    destruct D as [Dy _].
    assert (pred_opt (match from_ymd_opt y (m + 1) 1 with Some x => x | None => mkDate (y + 1) 1 1 end)
            = Some (mkDate y m (month_len y m))) as ->.
    { destruct (from_ymd_opt y (m + 1) 1) as [x |] eqn:X.
      - apply from_ymd_opt_some in X. destruct X as [-> X]. apply valid_iff in X.
        unfold proper in X. cbn [nd_year nd_month nd_day] in X.
        unfold pred_opt. cbn [nd_year nd_month nd_day].
        destruct (Z.ltb_spec 1 1); [lia |]. destruct (Z.ltb_spec 1 (m + 1)); [| lia].
        replace (m + 1 - 1) with m by lia. reflexivity.
      - rewrite from_ymd_opt_none in X. rewrite valid_iff in X. unfold proper in X.
        cbn [nd_year nd_month nd_day] in X. pose proof (month_len_range y (m + 1)).
        assert (m = 12) as -> by (unfold MIN_YEAR, MAX_YEAR in *; lia).
        unfold pred_opt. cbn [nd_year nd_month nd_day].
        destruct (Z.ltb_spec 1 1); [lia |]. destruct (Z.ltb_spec MIN_YEAR (y + 1)); [| unfold MIN_YEAR in *; lia].
        replace (y + 1 - 1) with y by lia. reflexivity. }
    cbn [unwrap]. split.
    + intros [= <- <- <-]. unfold MAX_YEAR in Dy. repeat split; lia.
    + intros (_ & -> & -> & ->). reflexivity.
  - rewrite from_ymd_opt_none in D. rewrite valid_iff in D. unfold proper in D.
    cbn [nd_year nd_month nd_day] in D. pose proof (month_len_range (y + 1) 1).
    split; [discriminate |]. intros [L _]. exfalso. apply D. unfold MIN_YEAR, MAX_YEAR. lia.
Qed.

Theorem C61_last_day_panics : forall d, a_date d ->
  (last_day_of_month d = Panic <-> nd_year d = 262142).
Proof.
  intros d H. pose proof H as [R G].
  destruct (Z.eq_dec (nd_year d) 262142) as [E | E].
  - split; [auto |]. intros _. unfold last_day_of_month. rewrite E. reflexivity.
  - split; [| tauto]. intros P. exfalso.
    apply proper_gregorian in G. destruct G as [Gm Gd].
    assert (last_day_of_month d
            = Ret (mkDate (nd_year d) (nd_month d) (month_len (nd_year d) (nd_month d)))) as Q.
    { apply C61_last_day; [exact H |]. cbn [nd_year nd_month nd_day]. unfold representable in R.
      split; [lia |]. split; [reflexivity |]. split; [reflexivity |]. apply month_len_spec; auto. }
    congruence.
Qed.

Lemma last_day_a_date d r : a_date d -> last_day_of_month d = Ret r -> a_date r.
Proof.
  intros H E. apply C61_last_day in E; [| exact H]. destruct E as (L & Y & M & ML).
  destruct H as [R _]. split; [rewrite Y; exact R |]. rewrite Y, M. exists (nd_day r). split; [exact ML |].
  pose proof (month_length_month _ _ _ ML) as Hm. apply month_len_spec in ML; [| exact Hm].
  pose proof (month_len_range (nd_year d) (nd_month d) Hm). lia.
Qed.

Definition eom_answer (c : cal) (d : NaiveDate) : M NaiveDate :=
  match c d with Ret true => Ret d | _ => Panic end.

(** The backward search from the last day. *)
Lemma eom_search c d0 : a_date d0 -> (forall x, c x <> OutOfFuel) ->
  exists t, a_date t /\ ~ earlier d0 t
    /\ (forall x, a_date x -> ~ earlier d0 x -> earlier t x -> c x = Ret false)
    /\ while eom_fuel (eom_step c) d0 = eom_answer c t
    /\ (c t = Ret false -> t = MIN_DATE).
Proof.
  intros H0 NF.
  set (Inv := fun t => a_date t /\ num_days_from_ce t <= num_days_from_ce d0
                       /\ forall x, a_date x -> ~ earlier d0 x -> earlier t x -> c x = Ret false).
  destruct (loop_terminates (eom_step c) Inv
              (fun t => num_days_from_ce t - MIN_SERIAL) eom_fuel d0) as (r & t & L & _ & It & B).
  - intros a b (Ia & Ib & Ic) E. unfold eom_step, is_holiday in E.
    destruct (c a) as [[|] | |] eqn:Ca; try discriminate. cbn [bind negb] in E.
    unfold add_duration, unwrap in E.
    destruct (of_serial (num_days_from_ce a + -1)) as [s |] eqn:Es; [| discriminate]. injection E as <-.
    apply of_serial_some in Es. destruct Es as [Vs Ss]. apply valid_a_date in Vs.
    pose proof (serial_bounds _ Vs) as Bs.
    split; [| lia]. split; [exact Vs |]. split; [lia |].
    intros x Hx Nx Ex. rewrite serial_lt_iff in Ex by auto.
    destruct (Z.eq_dec (num_days_from_ce x) (num_days_from_ce a)) as [Q | Q].
    + apply serial_inj in Q; auto. now subst.
    + apply Ic; auto. rewrite serial_lt_iff by auto. lia.
  - split; [exact H0 |]. split; [lia |]. intros x Hx Nx Ex. contradiction.
  - pose proof (serial_bounds _ H0) as Bs. split; [lia |].
    assert (MAX_SERIAL - MIN_SERIAL < Z.pos eom_fuel) by (vm_compute; reflexivity). lia.
  - destruct It as (Ia & Ib & Ic). exists t. split; [exact Ia |].
    split; [rewrite serial_lt_iff by auto; lia |]. split; [exact Ic |].
    unfold while. rewrite L. unfold eom_step, is_holiday in B. unfold eom_answer.
    specialize (NF t).
    destruct (c t) as [[|] | |] eqn:Ct; cbn [bind negb] in B.
    + injection B as <-. split; [reflexivity | discriminate].
    + unfold add_duration, unwrap in B.
      destruct (of_serial (num_days_from_ce t + -1)) as [s |] eqn:Es; [discriminate |].
      injection B as <-. split; [reflexivity |]. intros _.
      apply of_serial_none in Es. pose proof (serial_bounds _ Ia). pose proof (serial_bounds _ H0).
      apply serial_inj; [auto | apply valid_proper, MIN_valid |]. fold MIN_SERIAL. lia.
    + injection B as <-. split; [reflexivity | discriminate].
    + congruence.
Qed.

(** [end_of_month d] is the last business day not after the last day of [d]'s month. *)
Theorem C61_end_of_month : forall c d r, a_date d -> (forall x, c x <> OutOfFuel) ->
  (end_of_month c d = Ret r <->
   exists l, last_day_of_month d = Ret l /\ last_business_day c l r).
Proof.
  intros c d r H NF. unfold end_of_month.
  destruct (last_day_of_month d) as [l | |] eqn:L; cbn [bind].
  2, 3: split; [discriminate | intros (l & Q & _); discriminate].
  pose proof (last_day_a_date _ _ H L) as Hl.
  destruct (eom_search c l Hl NF) as (t & Ta & Tl & Tc & -> & Tm).
  unfold eom_answer. split.
  - destruct (c t) as [[|] | |] eqn:Ct; try discriminate. intros [= <-]. exists l.
    split; [reflexivity |]. unfold last_business_day. auto.
  - intros (l' & [= <-] & Ra & Rl & Rc & Ro).
    assert (t = r) as ->.
    { destruct (earlier_trichotomy t r) as [E | [E | E]]; [| exact E |].
      - specialize (Tc r Ra Rl E). congruence.
      - exfalso. specialize (Ro t Ta Tl E). specialize (Tm Ro). subst t.
        apply serial_earlier in E; auto. pose proof (serial_bounds _ Ra). fold MIN_SERIAL in E. lia. }
    rewrite Rc. reflexivity.
Qed.

(** It panics exactly in the last representable year, when every date up to the month's end is
    closed, or when the calendar panics before an open day is found; it always terminates. *)
Theorem C61_end_of_month_panics : forall c d, a_date d -> (forall x, c x <> OutOfFuel) ->
  (end_of_month c d = Panic <->
   nd_year d = 262142
   \/ (exists l, last_day_of_month d = Ret l
        /\ ((forall x, a_date x -> ~ earlier l x -> c x = Ret false)
            \/ exists t, last_not_closed c l t /\ c t = Panic)))
  /\ end_of_month c d <> OutOfFuel.
Proof.
  intros c d H NF. rewrite <- (C61_last_day_panics d H). unfold end_of_month.
  destruct (last_day_of_month d) as [l | |] eqn:L; cbn [bind].
  - pose proof (last_day_a_date _ _ H L) as Hl.
    destruct (eom_search c l Hl NF) as (t & Ta & Tl & Tc & -> & Tm).
    unfold eom_answer. pose proof (NF t) as Nt. destruct (c t) as [[|] | |] eqn:Ct; [| | | congruence].
    + split; [| discriminate]. split; [discriminate |]. intros [Q | (l' & [= <-] & [Q | (u & (U & Ul & Uc & Uo) & P)])].
      * discriminate.
      * rewrite (Q t Ta Tl) in Ct. discriminate.
      * exfalso. destruct (earlier_trichotomy t u) as [E | [E | E]].
        -- rewrite (Tc u U Ul E) in P. discriminate.
        -- congruence.
        -- rewrite (Uo t Ta Tl E) in Ct. discriminate.
    + split; [| discriminate]. split; [| reflexivity]. intros _. right. exists l. split; [reflexivity |]. left.
      intros x X Xl. specialize (Tm eq_refl). subst t.
      destruct (earlier_trichotomy MIN_DATE x) as [E | [E | E]]; [now apply Tc | now subst |].
      exfalso. apply serial_earlier in E; auto. pose proof (serial_bounds _ X). fold MIN_SERIAL in E. lia.
    + split; [| discriminate]. split; [| reflexivity]. intros _. right. exists l. split; [reflexivity |]. right.
      exists t. split; [| exact Ct]. unfold last_not_closed. rewrite Ct. split; [exact Ta |].
      split; [exact Tl |]. split; [discriminate | exact Tc].
  - split; [| discriminate]. tauto.
  - exfalso. unfold last_day_of_month in L.
    destruct (from_ymd_opt (nd_year d + 1) 1 1); cbn [unwrap bind] in L; [| discriminate].
    destruct (pred_opt _); discriminate.
Qed.

Example C61_case :
  (* June 2024 ends on a Sunday *)
  end_of_month (pure_cal (fun d => negb (is_weekend d))) (mkDate 2024 6 3) = Ret (mkDate 2024 6 28)
  /\ last_day_of_month (mkDate 2024 2 10) = Ret (mkDate 2024 2 29)
  /\ last_day_of_month (mkDate 262142 2 10) = Panic.
Proof. split; [| split]; vm_compute; reflexivity. Qed.

(** ** C62: counting business days *)

(** [counts c s e n]: there are exactly n open days from s (inclusive) to e (exclusive). *)
Definition counts (c : cal) (s e : NaiveDate) (n : Z) : Prop :=
  exists ds, StronglySorted earlier ds /\ n = Z.of_nat (length ds)
    /\ forall x, In x ds <-> a_date x /\ ~ earlier x s /\ earlier x e /\ c x = Ret true.

(** [shift b d r]: r is d itself or, if b, the day after. *)
Definition shift (b : bool) (d r : NaiveDate) : Prop := days_later (if b then 1 else 0) d r.

Lemma add_duration_shift b d r : a_date d ->
  (add_duration d (i64_from b) = Ret r <-> a_date r /\ shift b d r).
Proof.
  intros H. unfold add_duration, unwrap, shift.
  rewrite days_later_serial by auto.
  destruct (of_serial (num_days_from_ce d + i64_from b)) as [x |] eqn:E.
  - apply of_serial_some in E. destruct E as [V S]. apply valid_a_date in V. split.
    + intros [= <-]. split; [exact V |]. split; [auto |]. destruct b; cbn [i64_from] in S; lia.
    + intros [R [P Q]]. f_equal. apply serial_inj; auto. destruct b; cbn [i64_from] in S; lia.
  - split; [discriminate |]. intros [R [P Q]]. exfalso. apply of_serial_none in E.
    pose proof (serial_bounds _ R). destruct b; cbn [i64_from] in E; lia.
Qed.

Lemma count_days_spec c : forall n d acc, a_date d -> num_days_from_ce d + Z.of_nat n <= MAX_SERIAL ->
  (forall x, a_date x -> num_days_from_ce d <= num_days_from_ce x < num_days_from_ce d + Z.of_nat n ->
     exists b, c x = Ret b) ->
  exists ds, count_days c d n acc = Ret (acc + Z.of_nat (length ds)) /\ StronglySorted earlier ds
    /\ forall x, In x ds <-> a_date x /\ num_days_from_ce d <= num_days_from_ce x < num_days_from_ce d + Z.of_nat n
                             /\ c x = Ret true.
Proof.
  induction n as [| n IH]; intros d acc H M A; cbn [count_days].
  - exists []. cbn [length]. split; [f_equal; lia |]. split; [constructor |].
    intros x. split; [intros [] |]. intros (_ & Q & _). lia.
  - pose proof (proj2 (valid_a_date d) H) as V.
    destruct (succ_opt d) as [d' |] eqn:E.
    2:{ apply succ_opt_none in E; [| exact V]. subst d. fold MAX_SERIAL in M. lia. }
    apply succ_opt_spec in E; [| exact V]. destruct E as [V' S]. apply valid_a_date in V'.
    destruct (A d H) as [b B]; [lia |]. rewrite B. cbn [bind].
    destruct (IH d' (if b then acc + 1 else acc) V') as (ds & Q & Srt & I); [lia | |].
    { intros x X R. apply A; [exact X | lia]. }
    rewrite Q. destruct b.
    + exists (d :: ds). cbn [length]. split; [f_equal; lia |]. split.
      * constructor; [exact Srt |]. apply Forall_forall. intros x X. apply I in X.
        apply serial_lt_iff; [auto | now apply a_date_proper | lia].
      * intros x. cbn [In]. rewrite I. split.
        -- intros [<- | (X & R & O)]; [split; [exact H |]; split; [lia | exact B] | split; [exact X |]; split; [lia | exact O]].
        -- intros (X & R & O). destruct (Z.eq_dec (num_days_from_ce x) (num_days_from_ce d)) as [W | W].
           ++ left. symmetry. apply serial_inj; auto.
           ++ right. split; [exact X |]. split; [lia | exact O].
    + exists ds. split; [reflexivity |]. split; [exact Srt |]. intros x. rewrite I. split.
      * intros (X & R & O). split; [exact X |]. split; [lia | exact O].
      * intros (X & R & O). split; [exact X |]. split; [| exact O].
        enough (num_days_from_ce x <> num_days_from_ce d) by lia. intros W.
        apply serial_inj in W; auto. congruence.
Qed.

(** Strictly increasing lists with the same members are equal. *)
Lemma sorted_unique : forall a b : list NaiveDate,
  StronglySorted earlier a -> StronglySorted earlier b -> (forall x, In x a <-> In x b) -> a = b.
Proof.
  assert (forall x, ~ earlier x x) as Irr by (unfold earlier; intros; lia).
  assert (forall x y, earlier x y -> earlier y x -> False) as As by (unfold earlier; intros; lia).
  induction a as [| x a IH]; intros b Sa Sb E.
  - destruct b as [| y b]; [reflexivity |]. exfalso. apply (E y). now left.
  - destruct b as [| y b]; [exfalso; apply (E x); now left |].
    apply StronglySorted_inv in Sa, Sb. destruct Sa as [Sa Fa], Sb as [Sb Fb].
    rewrite Forall_forall in Fa, Fb.
    assert (x = y) as <-.
    { destruct (proj1 (E x) (or_introl eq_refl)) as [Q | Q]; [congruence |].
      destruct (proj2 (E y) (or_introl eq_refl)) as [P | P]; [congruence |].
      exfalso. eauto. }
    f_equal. apply IH; auto. intros z. split; intros Z.
    + destruct (proj1 (E z) (or_intror Z)) as [<- | Q]; [exfalso; apply (Irr x); auto | exact Q].
    + destruct (proj2 (E z) (or_intror Z)) as [<- | Q]; [exfalso; apply (Irr x); auto | exact Q].
Qed.

Lemma counts_unique c s e n m : counts c s e n -> counts c s e m -> n = m.
Proof.
  intros (ds & S1 & -> & I1) (es & S2 & -> & I2). do 2 f_equal. apply sorted_unique; auto.
  intros x. rewrite I1, I2. reflexivity.
Qed.

(** Both flags, as the method resolves them. *)
Definition flag (dflt : bool) (o : option bool) : bool := match o with Some b => b | None => dflt end.

Lemma ordered_spec c from to i l s e : a_date from -> a_date to ->
  a_date s -> a_date e -> shift (flag true i) from s -> shift (flag false l) to e -> ~ earlier e s ->
  (forall x, a_date x -> ~ earlier x s -> earlier x e -> exists b, c x = Ret b) ->
  exists n, business_days_ordered c from to i l = Ret n /\ counts c s e n.
Proof.
  intros Hf Ht Hs He Ss Se N A. unfold business_days_ordered.
  change (match i with Some b => b | None => true end) with (flag true i).
  change (match l with Some b => b | None => false end) with (flag false l). cbv zeta.
  rewrite (proj2 (add_duration_shift (flag false l) to e Ht) (conj He Se)).
  rewrite (proj2 (add_duration_shift (flag true i) from s Hf) (conj Hs Ss)). cbn [bind].
  rewrite serial_lt_iff in N by auto. unfold diff_days.
  destruct (Z.ltb_spec (num_days_from_ce e - num_days_from_ce s) 0); [lia |].
  pose proof (serial_bounds _ He). pose proof (serial_bounds _ Hs).
  destruct (count_days_spec c (Z.to_nat (num_days_from_ce e - num_days_from_ce s)) s 0 Hs)
    as (ds & Q & Srt & I); [lia | |].
  { intros x X R. apply A; [exact X | rewrite serial_lt_iff by auto; lia | rewrite serial_lt_iff by auto; lia]. }
  rewrite Q. exists (Z.of_nat (length ds)). split; [reflexivity |]. exists ds. split; [exact Srt |].
  split; [reflexivity |]. intros x. rewrite I. split.
  - intros (X & R & O). rewrite !serial_lt_iff by auto. split; [exact X |]. split; [lia |]. split; [lia | exact O].
  - intros (X & R1 & R2 & O). rewrite serial_lt_iff in R1, R2 by auto. split; [exact X |]. split; [lia | exact O].
Qed.

(** For dates in order the result counts the open days from [from] (the day after it when
    include_first resolves to true) up to but excluding [to] (the day after it when include_last
    resolves to true), provided the first is not after the second. *)
Theorem C62_counts : forall c from to i l s e, a_date from -> a_date to -> ~ earlier to from ->
  a_date s -> a_date e -> shift (flag true i) from s -> shift (flag false l) to e -> ~ earlier e s ->
  (forall x, a_date x -> ~ earlier x s -> earlier x e -> exists b, c x = Ret b) ->
  exists n, business_days_between c from to i l = Ret n /\ counts c s e n.
Proof.
  intros c from to i l s e Hf Ht O Hs He Ss Se N A. unfold business_days_between.
  destruct (date_ltb to from) eqn:E; [apply date_ltb_earlier in E; contradiction |].
  now apply ordered_spec.
Qed.

(** Swapping the dates negates the result, panics included. *)
Theorem C62_swap : forall c from to i l n, from <> to ->
  (business_days_between c from to i l = Ret n <-> business_days_between c to from i l = Ret (- n))
  /\ (business_days_between c from to i l = Panic <-> business_days_between c to from i l = Panic).
Proof.
  intros c from to i l n N. unfold business_days_between.
  destruct (date_ltb to from) eqn:E1, (date_ltb from to) eqn:E2.
  - apply date_ltb_earlier in E1, E2. exfalso. unfold earlier in *. lia.
  - destruct (business_days_ordered c to from i l) as [k | |]; cbn [bind]; split; split; try congruence.
    + intros [= <-]. f_equal. lia.
    + intros [= ->]. f_equal. lia.
  - destruct (business_days_ordered c from to i l) as [k | |]; cbn [bind]; split; split; try congruence.
    + intros [= E]. f_equal. lia.
  - exfalso. destruct (earlier_trichotomy from to) as [Q | [Q | Q]]; [| contradiction |];
      apply date_ltb_earlier in Q; congruence.
Qed.

(** Counts over adjoining intervals add up when both flags have the same value. *)
Theorem C62_additive : forall c a b d f m n k, a_date a -> a_date b -> a_date d ->
  ~ earlier b a -> ~ earlier d b ->
  (forall x, a_date x -> ~ earlier x a -> ~ earlier d x -> exists o, c x = Ret o) ->
  business_days_between c a b (Some f) (Some f) = Ret m ->
  business_days_between c b d (Some f) (Some f) = Ret n ->
  business_days_between c a d (Some f) (Some f) = Ret k ->
  k = m + n.
Proof.
  intros c a b d f m n k Ha Hb Hd O1 O2 A E1 E2 E3.
  assert (forall p q, a_date p -> a_date q -> ~ earlier q p -> ~ earlier p a -> ~ earlier d q ->
            forall r, business_days_between c p q (Some f) (Some f) = Ret r ->
            exists p' q', a_date p' /\ a_date q' /\ shift f p p' /\ shift f q q' /\ counts c p' q' r) as K.
  { intros p q P Q O U W r E.
    assert (exists p' q', a_date p' /\ a_date q' /\ shift f p p' /\ shift f q q') as (p' & q' & P' & Q' & Sp & Sq).
    { unfold business_days_between in E.
      destruct (date_ltb q p) eqn:L; [apply date_ltb_earlier in L; contradiction |].
      unfold business_days_ordered in E.
      destruct (add_duration q (i64_from f)) as [q' | |] eqn:Eq; try discriminate.
      cbn [bind] in E. destruct (add_duration p (i64_from f)) as [p' | |] eqn:Ep; try discriminate.
      apply add_duration_shift in Ep, Eq; auto. exists p', q'. tauto. }
    exists p', q'. split; [exact P' |]. split; [exact Q' |]. split; [exact Sp |]. split; [exact Sq |].
    pose proof Sp as Sp'. pose proof Sq as Sq'. unfold shift in Sp', Sq'.
    rewrite days_later_serial in Sp', Sq' by auto. rewrite serial_lt_iff in O, U, W by auto.
    destruct (C62_counts c p q (Some f) (Some f) p' q') as (r' & Er & Cr); auto.
    - rewrite serial_lt_iff by auto. lia.
    - rewrite serial_lt_iff by auto. destruct f; lia.
    - intros x X X1 X2. rewrite serial_lt_iff in X1, X2 by auto. apply A; [exact X | |];
        rewrite serial_lt_iff by auto; destruct f; lia.
    - assert (r' = r) as -> by congruence. exact Cr. }
  assert (~ earlier d a) as O3. { rewrite serial_lt_iff in * by auto. lia. }
  assert (forall z, ~ earlier z z) as Irr by (unfold earlier; intros; lia).
  destruct (K a b Ha Hb O1 (Irr a) O2 m E1) as (a1 & b1 & A1 & B1 & Sa1 & Sb1 & C1).
  destruct (K b d Hb Hd O2 O1 (Irr d) n E2) as (b2 & d2 & B2 & D2 & Sb2 & Sd2 & C2).
  destruct (K a d Ha Hd O3 (Irr a) (Irr d) k E3) as (a3 & d3 & A3 & D3 & Sa3 & Sd3 & C3).
  assert (forall z u v, a_date z -> a_date u -> a_date v -> shift f z u -> shift f z v -> u = v) as SU.
  { intros z u v Z U V S1 S2. unfold shift in S1, S2. rewrite days_later_serial in S1, S2 by auto.
    apply serial_inj; auto. lia. }
  assert (b2 = b1) as -> by eauto using SU.
  assert (a3 = a1) as -> by eauto using SU. assert (d3 = d2) as -> by eauto using SU.
  eapply counts_unique; [exact C3 |].
  assert (num_days_from_ce a1 <= num_days_from_ce b1 <= num_days_from_ce d2) as Ord.
  { unfold shift in *. rewrite days_later_serial in * by auto. rewrite serial_lt_iff in * by auto. lia. }
  destruct C1 as (x1 & S1 & -> & I1), C2 as (x2 & S2 & -> & I2).
  exists (x1 ++ x2). split; [| split; [rewrite app_length; lia |]].
  - assert (forall x y, In x x1 -> In y x2 -> earlier x y) as X.
    { intros x y X Y. apply I1 in X. apply I2 in Y. destruct X as (X & X1 & X2 & _), Y as (Y & Y1 & Y2 & _).
      rewrite serial_lt_iff in * by auto. lia. }
    clear - S1 S2 X. induction x1 as [| x x1 IH]; [exact S2 |]. apply StronglySorted_inv in S1. destruct S1 as [S1 F].
    cbn [app]. constructor; [apply IH; [exact S1 | intros; apply X; [now right | assumption]] |].
    apply Forall_app. split; [exact F |]. apply Forall_forall. intros y Y. apply X; [now left | exact Y].
  - intros x. rewrite in_app_iff, I1, I2. split.
    + intros [(X & X1 & X2 & O) | (X & X1 & X2 & O)]; rewrite serial_lt_iff in X1, X2 by auto;
        rewrite !serial_lt_iff by auto; (split; [exact X |]; split; [lia |]; split; [lia | exact O]).
    + intros (X & X1 & X2 & O). rewrite serial_lt_iff in X1, X2 by auto.
      destruct (Z_lt_le_dec (num_days_from_ce x) (num_days_from_ce b1)); [left | right];
        (split; [exact X |]); rewrite !serial_lt_iff by auto; (split; [lia |]; split; [lia | exact O]).
Qed.

Example C62_case :
  let c := pure_cal (fun d => negb (is_weekend d)) in
  (* Monday to Monday *)
  business_days_between c (mkDate 2024 6 3) (mkDate 2024 6 10) (Some false) (Some false) = Ret 5
  /\ business_days_between c (mkDate 2024 6 10) (mkDate 2024 6 17) (Some false) (Some false) = Ret 5
  /\ business_days_between c (mkDate 2024 6 17) (mkDate 2024 6 3) (Some false) (Some false) = Ret (-10)
  /\ business_days_between c (mkDate 2024 6 3) (mkDate 2024 6 10) (Some false) (Some true) = Ret 6.
Proof. cbv zeta. split; [| split; [| split]]; vm_compute; reflexivity. Qed.

(** ** C63: what the flags mean *)

(** include_first = true (also the default) excludes the first day and include_first = false includes
    it: on an interval whose first day is open the first is one less than the second. *)
Theorem C63_include_first_inverted : forall c from to l m n, a_date from -> a_date to -> earlier from to ->
  (forall x, a_date x -> ~ earlier x from -> ~ earlier to x -> exists b, c x = Ret b) ->
  business_days_between c from to (Some true) l = Ret m ->
  business_days_between c from to (Some false) l = Ret n ->
  c from = Ret true -> m = n - 1.
Proof.
  intros c from to l m n Hf Ht O A E1 E2 Of.
  assert (~ earlier to from) as O' by (unfold earlier in *; lia).
  assert (exists e, a_date e /\ shift (flag false l) to e) as (e & He & Se).
  { unfold business_days_between, business_days_ordered in E1.
    destruct (date_ltb to from) eqn:L; [apply date_ltb_earlier in L; contradiction |].
    change (match l with Some b => b | None => false end) with (flag false l) in E1. cbv zeta in E1.
    destruct (add_duration to (i64_from (flag false l))) as [e | |] eqn:Q; try discriminate.
    apply add_duration_shift in Q; [| exact Ht]. eauto. }
  assert (exists s, a_date s /\ shift true from s) as (s & Hs & Ss).
  { unfold shift. rewrite serial_lt_iff in O by auto. pose proof (serial_bounds _ Ht). pose proof (serial_bounds _ Hf).
    destruct (of_serial (num_days_from_ce from + 1)) as [s |] eqn:Q.
    - apply of_serial_some in Q. destruct Q as [V Q]. apply valid_a_date in V. exists s. split; [exact V |].
      apply days_later_serial; [auto |]. split; [auto | lia].
    - apply of_serial_none in Q. lia. }
  pose proof Se as Se'. pose proof Ss as Ss'. unfold shift in Se', Ss'.
  rewrite days_later_serial in Se', Ss' by auto. rewrite serial_lt_iff in O by auto.
  assert (forall x, a_date x -> ~ earlier x from -> earlier x e -> exists b, c x = Ret b) as A'.
  { intros x X X1 X2. apply A; auto. rewrite serial_lt_iff in * by auto.
    destruct (flag false l); lia. }
  destruct (C62_counts c from to (Some true) l s e) as (m' & Em & Cm); auto.
  { rewrite serial_lt_iff by auto. destruct (flag false l); lia. }
  { intros x X X1 X2. apply A'; auto. rewrite serial_lt_iff in * by auto. lia. }
  destruct (C62_counts c from to (Some false) l from e) as (n' & En & Cn); auto.
  { constructor. }
  { rewrite serial_lt_iff by auto. destruct (flag false l); lia. }
  assert (m' = m) as -> by congruence. assert (n' = n) as -> by congruence.
  enough (counts c from e (m + 1)) as C' by (rewrite (counts_unique _ _ _ _ _ Cn C'); lia).
  destruct Cm as (ds & Sd & -> & I). exists (from :: ds). split; [| split; [cbn [length]; lia |]].
  - constructor; [exact Sd |]. apply Forall_forall. intros x X. apply I in X. destruct X as (X & X1 & X2 & _).
    rewrite serial_lt_iff in * by auto. lia.
  - intros x. cbn [In]. rewrite I. split.
    + intros [<- | (X & X1 & X2 & Ox)].
      * split; [exact Hf |]. rewrite !serial_lt_iff by auto. split; [lia |]. split; [destruct (flag false l); lia | exact Of].
      * rewrite serial_lt_iff in X1, X2 by auto. rewrite !serial_lt_iff by auto.
        split; [exact X |]. split; [lia |]. split; [lia | exact Ox].
    + intros (X & X1 & X2 & Ox). rewrite serial_lt_iff in X1, X2 by auto.
      destruct (Z.eq_dec (num_days_from_ce x) (num_days_from_ce from)) as [W | W].
      * left. symmetry. apply serial_inj; auto.
      * right. split; [exact X |]. rewrite !serial_lt_iff by auto. split; [lia |]. split; [lia | exact Ox].
Qed.

(** With the default flags (or any that resolve to them) equal dates panic, for every calendar. *)
Theorem C63_equal_dates : forall c d i l, a_date d -> flag true i = true -> flag false l = false ->
  business_days_between c d d i l = Panic.
Proof.
  intros c d i l H I L. unfold business_days_between.
  destruct (date_ltb d d) eqn:E; [apply date_ltb_earlier in E; unfold earlier in E; lia |].
  unfold business_days_ordered.
  change (match i with Some b => b | None => true end) with (flag true i).
  change (match l with Some b => b | None => false end) with (flag false l). cbv zeta.
  rewrite I, L. cbn [i64_from].
  assert (add_duration d 0 = Ret d) as ->.
  { unfold add_duration. rewrite Z.add_0_r, of_serial_serial by now apply valid_a_date. reflexivity. }
  cbn [bind]. destruct (add_duration d 1) as [s | |] eqn:Q; cbn [bind]; [| reflexivity |].
  - change 1 with (i64_from true) in Q. apply add_duration_shift in Q; [| exact H].
    destruct Q as [Hs Ss]. unfold shift in Ss. rewrite days_later_serial in Ss by auto.
    unfold diff_days. destruct (Z.ltb_spec (num_days_from_ce d - num_days_from_ce s) 0); [reflexivity | lia].
  - exfalso. unfold add_duration, unwrap in Q. destruct (of_serial _); discriminate.
Qed.

(** The property as stated fails: including the first day does not count it, and equal dates panic. *)
Theorem C63_include_first_refuted : exists c d1 d2 d,
  a_date d1 /\ a_date d2 /\ earlier d1 d2 /\ c d1 = Ret true
  /\ business_days_between c d1 d2 (Some true) (Some false) = Ret 0
  /\ a_date d /\ business_days_between c d d None None = Panic.
Proof.
  exists (pure_cal (fun d => negb (is_weekend d))), (mkDate 2024 6 3), (mkDate 2024 6 4), (mkDate 2024 6 3).
  assert (forall y m d, valid (mkDate y m d) -> a_date (mkDate y m d)) as V by (intros; now apply valid_a_date).
  split; [apply V; reflexivity |]. split; [apply V; reflexivity |]. split; [unfold earlier; cbn; lia |].
  split; [reflexivity |]. split; [vm_compute; reflexivity |]. split; [apply V; reflexivity | vm_compute; reflexivity].
Qed.

Example C63_case :
  let c := pure_cal (fun d => negb (is_weekend d)) in
  business_days_between c (mkDate 2024 6 3) (mkDate 2024 6 7) (Some true) None = Ret 3
  /\ business_days_between c (mkDate 2024 6 3) (mkDate 2024 6 7) (Some false) None = Ret 4
  /\ business_days_between c (mkDate 2024 6 3) (mkDate 2024 6 3) None None = Panic.
Proof. cbv zeta. split; [| split]; vm_compute; reflexivity. Qed.
