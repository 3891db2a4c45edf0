(** Property C118: flat curves. *)
From Coq Require Import ZArith Reals List Arith Lia Lra.
From Verif Require Import Base Chrono DateModel DateFacts Value RealValue DayCountModel InterpModel InterpFacts CurveModel BondModel
  Gregorian Grid Piecewise PropsDate PropsDayCount PropsLinear PropsCatmullRom PropsNaturalCubic PropsCurve PropsBond PropsShift PropsRisk
  PropsValuation PropsSpread PropsStability PropsNcStability PropsApprox PropsCurveApprox.
Import ListNotations.
Open Scope R_scope.

(** ** Specification *)

(** The same yield at every maturity. *)
Definition level (y : R) (ms : list Date) : list R := map (fun _ => y) ms.

(** Dates in order. *)
Definition in_turn (s : Date) (ms : list Date) : Prop :=
  a_date s /\ (forall m, In m ms -> a_date m)
  /\ forall i j mi mj, (i < j)%nat -> nth_error ms i = Some mi -> nth_error ms j = Some mj -> earlier mi mj.

(** The factor of the yield [y] for the days from [d1] to [d2], of which the year has [K]. *)
Definition flat_factor (K : Z) (y : R) (d1 d2 : Date) : R := exp (- (y * (IZR (date_sub d2 d1) / IZR K))).

(** The curve gives these factors from its settlement date, or a date from [a] on, to every date between [a] and [b]. *)
Definition gives (K : Z) D (I : Interpolator RV) (c : YieldCurve RV I) (y : R) (a b : Date) : Prop :=
  forall d1 d2, a_date d1 -> a_date d2 -> ~ earlier d2 d1 -> ~ earlier d1 (settlement_date c) ->
    d1 = settlement_date c \/ ~ earlier d1 a -> ~ earlier d2 a -> ~ earlier b d2 ->
    discount_factor D c d1 d2 = Ret (Ok (flat_factor K y d1 d2)).

(** Interpolators, the number of maturities they need, and the last maturity up to which they are concerned, from the end. *)
Definition keeps_level (I : Interpolator RV) (n e : nat) : Prop :=
  I = Linear RV /\ n = 2%nat /\ e = 1%nat \/ I = NaturalCubic RV /\ n = 4%nat /\ e = 1%nat \/ I = CatmullRom RV /\ n = 3%nat /\ e = 2%nat.

(** The open flows, discounted. *)
Definition flat_value (K : Z) (y : R) (b : Bond R) (settle : Date) : R :=
  total (map (fun f => flat_factor K y settle (payment_date f) * payment_amount f) (filter (open_flow settle) (bond_cash_flows b))).

(** ** Lemmas *)

Lemma some_gap (ms : list Date) : exists G, forall i m m', nth_error ms i = Some m -> nth_error ms (S i) = Some m' -> (serial_date m' - serial_date m <= G)%Z.
Proof.
  induction ms as [| a ms (G & HG)]; [exists 0%Z; intros [| i] m m' E; discriminate |].
  destruct ms as [| b ms]; [exists 0%Z; intros [| i] m m' E E'; [discriminate | destruct i; discriminate] |].
  exists (Z.max G (serial_date b - serial_date a)). intros [| i] m m' E E'.
  - simpl in E, E'. injection E as <-. injection E' as <-. lia.
  - specialize (HG i m m' E E'). lia.
Qed.

Lemma level_quoted K y s ms : in_turn s ms -> exists G, quoted K (fun _ => y) s ms (level y ms) G.
Proof.
  intros (As & Am & Om). destruct (some_gap ms) as (G & HG). exists G. split; [exact As |]. split; [symmetry; apply map_length |]. split.
  - intros i m y' E Ey. split; [eapply Am, nth_error_In, E |]. unfold level in Ey. rewrite (map_nth_error _ _ _ E) in Ey. now injection Ey as <-.
  - intros i m m' E E'. split; [| now apply (HG i)]. pose proof (Om i (S i) m m' ltac:(lia) E E') as O.
    rewrite (proj1 (C02_serial_order m m' (Am m (nth_error_In _ _ E)) (Am m' (nth_error_In _ _ E')))) in O. lia.
Qed.

Lemma cr_level p y x : increasing p -> (3 <= length p)%nat -> (forall i, (i < length p)%nat -> gy p i = y) ->
  gx p 0 <= x <= gx p (length p - 2) -> fit_eval (CatmullRom RV) p x = Ret (Ok y).
Proof.
  intros H Hl Hy Hx.
  assert (gx p (length p - 2) < gx p (last_of p)) as Lt by (apply H; unfold last_of; lia).
  destruct (some_cell p x H ltac:(lia) ltac:(unfold in_range; lra)) as (i0 & Hi0 & Ci0).
  assert (exists i, (i + 2 < length p)%nat /\ gx p i <= x <= gx p (i + 1)) as (i & Hi & Ci).
  { destruct (Nat.lt_ge_cases (i0 + 2) (length p)) as [C | C]; [eauto |].
    exists (length p - 3)%nat. split; [lia |]. replace (length p - 3 + 1)%nat with (length p - 2)%nat by lia.
    replace i0 with (length p - 2)%nat in Ci0 by lia.
    assert (gx p (length p - 3) < gx p (length p - 2)) by (apply H; lia). lra. }
  assert (sampled (fun _ => y) p) as Sa by (intros j Hj; now apply Hy).
  assert (exists w, forall j, (i <= j + 1 /\ j <= i + 1)%nat -> gx p (j + 1) - gx p j <= w) as (w & Hw).
  { exists (Rmax (gx p (i - 1 + 1) - gx p (i - 1)) (Rmax (gx p (i + 1) - gx p i) (gx p (i + 1 + 1) - gx p (i + 1)))).
    intros j Hj. destruct (Nat.eq_dec j i) as [-> | N1]; [eapply Rle_trans; [apply Rmax_l | apply Rmax_r] |].
    destruct (Nat.eq_dec j (i + 1)) as [-> | N2]; [eapply Rle_trans; [apply Rmax_r | apply Rmax_r] |].
    replace j with (i - 1)%nat by lia. apply Rmax_l. }
  destruct (C103_catmull_rom 0 w (fun _ => y) p i x H Hi Sa) as (v & E & B); try assumption.
  { intros a b _ _. rewrite Rminus_diag_eq, Rabs_R0 by reflexivity. lra. }
  replace (14 / 5 * (0 * w)) with 0 in B by ring. pose proof (Rabs_pos (v - y)) as P.
  assert (v = y) as -> by (apply Rminus_diag_uniq; destruct (Req_dec (v - y) 0) as [Z | Z]; [exact Z | apply Rabs_pos_lt in Z; lra]).
  exact E.
Qed.

Lemma level_answers I n e p y x : keeps_level I n e -> increasing p -> (n <= length p)%nat -> (forall i, (i < length p)%nat -> gy p i = y) ->
  gx p 0 <= x <= gx p (length p - e) -> fit_eval I p x = Ret (Ok y).
Proof.
  intros HI H Hl Hy Hx. assert (on_line 0 y p) as On by (intros i Hi; rewrite Hy by exact Hi; ring).
  destruct HI as [(-> & -> & ->) | [(-> & -> & ->) | (-> & -> & ->)]].
  - rewrite (C24_lines p 0 y x H Hl On Hx). ret_eq. ring.
  - rewrite (C36_lines_partial p 0 y x H Hl On Hx). ret_eq. ring.
  - now apply cr_level.
Qed.

Lemma years_order K D s d d' : year_of K D -> a_date d -> a_date d' -> ~ earlier d' d -> years K s d <= years K s d'.
Proof.
  intros HD A A' O. rewrite (proj1 (C02_serial_order d' d A' A)) in O. pose proof (K_pos K D HD) as PK. unfold years.
  apply Rmult_le_compat_r; [left; now apply Rinv_0_lt_compat |]. apply IZR_le. lia.
Qed.

(** ** C118 *)

(** Whatever its settlement date and maturities, a flat curve discounts by the days between the two dates only. *)
Theorem C118_factor : forall K D I n e s ms y a b, year_of K D -> keeps_level I n e -> in_turn s ms -> (n <= length ms)%nat ->
  nth_error ms 0 = Some a -> nth_error ms (length ms - e) = Some b ->
  exists c, curve_new D I s ms (level y ms) = Ret (Ok c) /\ settlement_date c = s /\ gives K D I c y a b.
Proof.
  intros K D I n e s ms y a b HD HI HT Hn Ea Eb. destruct (level_quoted K y s ms HT) as (G & HQ).
  assert (length ms = length (level y ms)) as Hl by apply HQ. set (p := curve_points (years K s) ms (level y ms)).
  pose proof (quote_increasing K D _ s ms _ G HD HQ) as Inc. fold p in Inc.
  assert (length p = length ms) as Lp by now apply curve_points_length.
  assert (forall i, (i < length p)%nat -> gy p i = y) as Hy by (intros i Hi; destruct (quote_at K _ s ms _ G HQ i Hi) as (m & _ & _ & Y); exact Y).
  assert (forall i m, nth_error ms i = Some m -> gx p i = years K s m) as Hx.
  { intros i m E. assert (i < length p)%nat as Hi by (rewrite Lp; apply nth_error_Some; congruence).
    destruct (quote_at K _ s ms _ G HQ i Hi) as (m' & E' & X & _). rewrite E in E'. injection E' as <-. exact X. }
  assert (forall x, years K s a <= x <= years K s b -> fit_eval I p x = Ret (Ok y)) as An.
  { intros x X. apply (level_answers I n e p y x HI Inc ltac:(lia) Hy). rewrite (Hx _ _ Ea), Lp, (Hx _ _ Eb). exact X. }
  destruct HT as (As & Am & Om). pose proof (Am a (nth_error_In _ _ Ea)) as Aa. pose proof (Am b (nth_error_In _ _ Eb)) as Ab.
  assert (years K s a <= years K s b) as Xab.
  { rewrite <- (Hx _ _ Ea), <- (Hx _ _ Eb). apply (increasing_sorted p Inc). rewrite Lp.
    destruct HI as [(-> & -> & ->) | [(-> & -> & ->) | (-> & -> & ->)]]; lia. }
  pose proof (C43_fit RV D I s ms (level y ms) (years K s) Hl (fun m _ => count_in_years K D s HD m)) as F. cbv zeta in F.
  change (combine (map (years K s) ms) (level y ms)) with p in F.
  pose proof (An (years K s a) ltac:(lra)) as E0. unfold fit_eval in E0.
  destruct (i_try_fit I (i_default I) p) as [[g | er] | |]; try discriminate. destruct F as (c & Ec & Es & Ev). clear E0.
  exists c. split; [exact Ec |]. split; [exact Es |]. intros d1 d2 A1 A2 O1 O2 Q1 Q2 Q3. rewrite Es in O2, Q1.
  assert (~ earlier d2 s) as O3.
  { rewrite (proj1 (C02_serial_order d2 d1 A2 A1)) in O1. rewrite (proj1 (C02_serial_order d1 s A1 As)) in O2.
    rewrite (proj1 (C02_serial_order d2 s A2 As)). lia. }
  pose proof (years_order K D s a d2 HD Aa A2 Q2) as T2. pose proof (years_order K D s d2 b HD A2 Ab Q3) as T2'.
  pose proof (An (years K s d2) ltac:(lra)) as Y2. rewrite Ev in Y2. pose proof (K_pos K D HD) as PK.
  destruct (df_intro D I c d1 d2 (years K s d2) y) as (F0 & F1); rewrite ?Es; try assumption; [apply count_in_years; exact HD |].
  assert (years K s d2 - years K s d1 = IZR (date_sub d2 d1) / IZR K) as Df by (rewrite (years_diff K D s HD); reflexivity).
  unfold flat_factor. rewrite <- Df. rewrite Es in F0, F1.
  destruct Q1 as [-> | Q1].
  - rewrite F0 by reflexivity. ret_eq. f_equal. rewrite (years_start K D s HD). ring.
  - destruct (Z.eq_dec (serial_date d1) (serial_date s)) as [Eq | Ne].
    + assert (d1 = s) as -> by (apply serial_inj; [now apply valid_proper, valid_a_date | now apply valid_proper, valid_a_date | exact Eq]).
      rewrite F0 by reflexivity. ret_eq. f_equal. rewrite (years_start K D s HD). ring.
    + pose proof (years_order K D s a d1 HD Aa A1 Q1) as T1. pose proof (years_order K D s d1 d2 HD A1 A2 O1) as T1'.
      pose proof (An (years K s d1) ltac:(lra)) as Y1. rewrite Ev in Y1.
      rewrite (F1 (years K s d1) y); [| congruence | apply count_in_years; exact HD | exact Y1]. ret_eq. f_equal. ring.
Qed.
Print Assumptions C118_factor.

(** So with bonds. *)
Theorem C118_value : forall K D I c y a b (bond : Bond R) settle, gives K D I c y a b -> a_date settle -> ~ earlier settle (settlement_date c) ->
  settle = settlement_date c \/ ~ earlier settle a ->
  (forall f, In f (bond_cash_flows bond) -> earlier settle (due_date f) -> a_date (payment_date f) /\ ~ earlier (payment_date f) settle
     /\ ~ earlier (payment_date f) a /\ ~ earlier b (payment_date f)) ->
  discounted_value (V := RV) D bond settle c = Ret (Ok (flat_value K y bond settle)).
Proof.
  intros K D I c y a b bond settle G As O Q Hf. apply (C50_sum D I bond settle c (fun d => flat_factor K y settle d)).
  intros f Hi Ho. destruct (Hf f Hi Ho) as (Ap & O1 & O2 & O3). now apply G.
Qed.
Print Assumptions C118_value.

Lemma flat_split K y d1 d2 d3 : (0 < K)%Z -> flat_factor K y d1 d3 = flat_factor K y d1 d2 * flat_factor K y d2 d3.
Proof.
  intros HK. unfold flat_factor. rewrite <- exp_plus. f_equal.
  assert (date_sub d3 d1 = date_sub d2 d1 + date_sub d3 d2)%Z as -> by (unfold date_sub, diff_days; lia). rewrite plus_IZR. field.
  apply IZR_lt in HK. lra.
Qed.

(** While nothing falls due a bond grows at the yield. *)
Theorem C118_ageing : forall K y (bond : Bond R) s1 s2, (0 < K)%Z -> ~ earlier s2 s1 ->
  (forall f, In f (bond_cash_flows bond) -> earlier s1 (due_date f) -> earlier s2 (due_date f)) ->
  flat_value K y bond s2 = exp (y * (IZR (date_sub s2 s1) / IZR K)) * flat_value K y bond s1.
Proof.
  intros K y bond s1 s2 HK O N. unfold flat_value.
  assert (filter (open_flow s2) (bond_cash_flows bond) = filter (open_flow s1) (bond_cash_flows bond)) as ->.
  { clear - N O. induction (bond_cash_flows bond) as [| f l IH]; [reflexivity |]. simpl. rewrite IH by (intros g Hg; apply N; now right).
    destruct (open_flow s1 f) eqn:E1, (open_flow s2 f) eqn:E2; try reflexivity; exfalso.
    - apply open_flow_spec in E1. pose proof (N f ltac:(now left) E1) as Q. apply open_flow_spec in Q. congruence.
    - apply open_flow_spec in E2. assert (~ earlier s1 (due_date f)) as Q by (rewrite <- open_flow_spec; congruence).
      apply Q. unfold earlier in *. lia. }
  rewrite <- total_scale. f_equal. apply map_ext. intros f. rewrite (flat_split K y s1 s2 _ HK). unfold flat_factor at 2.
  rewrite <- Rmult_assoc, <- Rmult_assoc, <- exp_plus, Rplus_opp_r, exp_0. ring.
Qed.
Print Assumptions C118_ageing.

(** Every price belongs to one flat yield: the yield to maturity. *)
Theorem C118_yield : forall D (I : Interpolator RV) n e s ms (bond : Bond R) settle y0 c0 v0, keeps_level I n e -> D = act_360 RV \/ D = act_365 RV ->
  in_turn s ms -> (n <= length ms)%nat -> a_date settle -> sound bond -> pays bond settle ->
  curve_new D I s ms (level y0 ms) = Ret (Ok c0) -> discounted_value (V := RV) D bond settle c0 = Ret (Ok v0) ->
  let priced y P := exists c, curve_new D I s ms (level y ms) = Ret (Ok c) /\ discounted_value (V := RV) D bond settle c = Ret (Ok P) in
  (forall P, 0 < P -> exists y, priced y P /\ forall y', priced y' P -> y' = y)
  /\ forall y y' P P', priced y P -> priced y' P' -> 0 < P /\ (P < P' <-> y' < y).
Proof.
  intros D I n e s ms bond settle y0 c0 v0 HI HD (As & Am & Om) Hn At Sb Pb E0 V0 priced.
  assert (length ms = length (level y0 ms)) as Hl by (symmetry; apply map_length).
  assert (one_spread D I s ms (level y0 ms) bond settle /\ spread_order D I s ms (level y0 ms) bond settle) as (U & W).
  { destruct HI as [(-> & -> & _) | [(-> & -> & _) | (-> & -> & _)]].
    - destruct (C105_spread D (Linear RV) 2 s ms (level y0 ms)) as (c & Ec & R); try assumption; [now left |].
      rewrite E0 in Ec. injection Ec as <-. now apply (R bond settle v0).
    - destruct (C105_spread D (NaturalCubic RV) 4 s ms (level y0 ms)) as (c & Ec & R); try assumption; [now right |].
      rewrite E0 in Ec. injection Ec as <-. now apply (R bond settle v0).
    - destruct (C105_catmull_rom D s ms (level y0 ms)) as (c & Ec & R); try assumption.
      rewrite E0 in Ec. injection Ec as <-. now apply (R bond settle v0). }
  assert (forall y, level y ms = parallel (y - y0) (level y0 ms)) as Sh.
  { intros y. unfold level, parallel. rewrite map_map. apply map_ext. intros m. ring. }
  assert (forall y P, priced y P <-> prices D I s ms (level y0 ms) bond settle (y - y0) P) as Pr.
  { intros y P. unfold priced, prices. now rewrite <- Sh. }
  split.
  - intros P HP. destruct (U P HP) as (h & Hh & Un). exists (y0 + h). split.
    + apply Pr. now replace (y0 + h - y0) with h by ring.
    + intros y' Hy. apply Pr in Hy. pose proof (Un _ Hy). lra.
  - intros y y' P P' Hy Hy'. apply Pr in Hy, Hy'. destruct (W _ _ _ _ Hy Hy') as (Pp & Q). split; [exact Pp |]. rewrite Q. split; lra.
Qed.
Print Assumptions C118_yield.

(** A discount factor from the settlement date, from the answer of the interpolator. *)
Lemma factor_from K D (I : Interpolator RV) s ms (ys : list R) m (y : R) : year_of K D -> length ms = length ys -> ~ earlier m s ->
  fit_eval I (curve_points (years K s) ms ys) (years K s m) = Ret (Ok y) ->
  exists c, curve_new D I s ms ys = Ret (Ok c) /\ discount_factor D c s m = Ret (Ok (exp (- years K s m * y))).
Proof.
  intros HD Hl O E. pose proof (C43_fit RV D I s ms ys (years K s) Hl (fun m _ => count_in_years K D s HD m)) as F. cbv zeta in F.
  change (combine (map (years K s) ms) ys) with (curve_points (years K s) ms ys) in F. pose proof E as E0. unfold fit_eval in E0.
  destruct (i_try_fit I (i_default I) (curve_points (years K s) ms ys)) as [[g | er] | |]; try discriminate.
  destruct F as (c & Ec & Es & Ev). exists c. split; [exact Ec |]. rewrite Ev in E.
  apply (df_intro D I c s m (years K s m) y); rewrite ?Es; try assumption; try reflexivity;
    [unfold earlier; lia | apply count_in_years; exact HD].
Qed.

(** Three maturities, 360 days apart. *)
Definition ex_three : list Date := [mkDate 2025 2 24; mkDate 2026 2 19; mkDate 2027 2 14].

Lemma ex_three_turn : in_turn ex_settle ex_three.
Proof.
  split; [now apply valid_a_date |]. split.
  - intros m [<- | [<- | [<- | []]]]; now apply valid_a_date.
  - intros i j mi mj Hij Ei Ej. destruct i as [| [| [| i]]], j as [| [| [| j]]]; try lia; cbn in Ei, Ej;
      try (destruct i; discriminate Ei); try (destruct j; discriminate Ej); injection Ei as <-; injection Ej as <-; unfold earlier; cbn; lia.
Qed.

Lemma ex_three_points y : curve_points (years 360 ex_settle) ex_three (level y ex_three) = [(360 / 360, y); (720 / 360, y); (1080 / 360, y)].
Proof. reflexivity. Qed.

Lemma ex_three_inc y : increasing [(360 / 360, y); (720 / 360, y); (1080 / 360, y)].
Proof. intros i j H. unfold gx. simpl in H. destruct i as [| [| [| i]]], j as [| [| [| j]]]; simpl; try lra; lia. Qed.

(** Not so at the last maturity of a Catmull-Rom curve, which takes 5 % for 20/3 %. *)
Theorem C118_last_maturity_refuted : exists K D s ms y m c v, year_of K D /\ in_turn s ms /\ length ms = 3%nat /\ nth_error ms 2 = Some m
  /\ curve_new D (CatmullRom RV) s ms (level y ms) = Ret (Ok c) /\ discount_factor D c s m = Ret (Ok v) /\ v <> flat_factor K y s m.
Proof.
  set (y := 5 / 100). assert (year_of 360 (act_360 RV)) as HD by now left.
  destruct (C30_last_knot _ (ex_three_inc y) ltac:(simpl; lia)) as (E & _). unfold last_of, gx, gy in E. simpl in E.
  destruct (factor_from 360 (act_360 RV) (CatmullRom RV) ex_settle ex_three (level y ex_three) (mkDate 2027 2 14) (20 / 3 / 100) HD) as (c & Ec & Ed).
  - reflexivity.
  - unfold earlier. simpl. lia.
  - rewrite ex_three_points. change (years 360 ex_settle (mkDate 2027 2 14)) with (1080 / 360). rewrite E. ret_eq. unfold y. field.
  - exists 360%Z, (act_360 RV), ex_settle, ex_three, y, (mkDate 2027 2 14), c. eexists. split; [exact HD |]. split; [exact ex_three_turn |].
    split; [reflexivity |]. split; [reflexivity |]. split; [exact Ec |]. split; [exact Ed |].
    unfold flat_factor. intros Q. apply exp_inv in Q. change (years 360 ex_settle (mkDate 2027 2 14)) with (1080 / 360) in Q.
    change (date_sub (mkDate 2027 2 14) ex_settle) with 1080%Z in Q. unfold y in Q. lra.
Qed.
Print Assumptions C118_last_maturity_refuted.

(** Nor for a natural cubic curve of three maturities. *)
Theorem C118_three_maturities_refuted : exists K D s ms y d c v, year_of K D /\ in_turn s ms /\ length ms = 3%nat /\ a_date d
  /\ (forall m, nth_error ms 0 = Some m -> earlier m d) /\ (forall m, nth_error ms 1 = Some m -> earlier d m)
  /\ curve_new D (NaturalCubic RV) s ms (level y ms) = Ret (Ok c) /\ discount_factor D c s d = Ret (Ok v) /\ v <> flat_factor K y s d.
Proof.
  set (y := 32 / 1000). assert (year_of 360 (act_360 RV)) as HD by now left. set (d := mkDate 2025 8 23).
  assert (years 360 ex_settle d = 540 / 360) as Yd by reflexivity.
  set (p := [(360 / 360, y); (720 / 360, y); (1080 / 360, y)]). pose proof (ex_three_inc y) as H. fold p in H.
  destruct (nc_eval p H) as (ds & Ld & Sv & E); [simpl; lia |].
  assert (fit_eval (NaturalCubic RV) p (540 / 360) = Ret (Ok (35 / 1000))) as Ev.
  { rewrite E, (nc_closed p ds 0 _ Ld H); [| simpl; lia | unfold gx; simpl; lra]. ret_eq.
    destruct Sv as (S0 & S1 & S3 & _). specialize (S3 eq_refl). set (s := second_of ds) in *.
    rewrite jump_eq in S3 by (unfold gx; simpl; lra). simpl in S1. unfold gx, gy in S3. simpl in S3. rewrite S0, S1 in S3.
    rewrite (q_fraction p s 0 (540 / 360) (1 / 2)); [| unfold gx; simpl; lra | unfold gx; simpl; lra].
    cbn [Nat.add]. rewrite S0. unfold gx, gy, p. simpl. unfold y in *.
    assert (s 1%nat = - (3 * 32) / 2000) as ->; [| field].
    unfold Rdiv in S3. replace (720 * / 360 - 360 * / 360) with 1 in S3 by field. replace (1080 * / 360 - 720 * / 360) with 1 in S3 by field.
    rewrite Rinv_1 in S3. lra. }
  destruct (factor_from 360 (act_360 RV) (NaturalCubic RV) ex_settle ex_three (level y ex_three) d (35 / 1000) HD) as (c & Ec & Ed).
  - reflexivity.
  - unfold earlier. simpl. lia.
  - rewrite ex_three_points, Yd. exact Ev.
  - exists 360%Z, (act_360 RV), ex_settle, ex_three, y, d, c. eexists. split; [exact HD |]. split; [exact ex_three_turn |].
    split; [reflexivity |]. split; [now apply valid_a_date |]. split; [intros m Em; injection Em as <-; unfold earlier; simpl; lia |].
    split; [intros m Em; injection Em as <-; unfold earlier; simpl; lia |]. split; [exact Ec |]. split; [exact Ed |].
    unfold flat_factor. intros Q. apply exp_inv in Q. rewrite Yd in Q.
    change (date_sub d ex_settle) with 540%Z in Q. unfold y in Q. lra.
Qed.
Print Assumptions C118_three_maturities_refuted.

(** A linear curve of the three maturities at 4 %: 180 days cost two percent, as an exponential. *)
Example C118_case : let b := mkBond (V := R) String.EmptyString [mkFlow (mkDate 2025 8 23) (mkDate 2025 8 23) 10] in
  year_of 360 (act_360 RV) /\ keeps_level (Linear RV) 2 1 /\ in_turn ex_settle ex_three /\ sound b /\ pays b (mkDate 2025 2 24)
  /\ exists c, curve_new (act_360 RV) (Linear RV) ex_settle ex_three (level (4 / 100) ex_three) = Ret (Ok c)
       /\ discount_factor (act_360 RV) c (mkDate 2025 2 24) (mkDate 2025 8 23) = Ret (Ok (exp (- (2 / 100))))
       /\ discounted_value (V := RV) (act_360 RV) b (mkDate 2025 2 24) c = Ret (Ok (exp (- (2 / 100)) * 10)).
Proof.
  intros b. assert (year_of 360 (act_360 RV)) as HD by now left. assert (keeps_level (Linear RV) 2 1) as HI by now left.
  assert (a_date (mkDate 2025 2 24)) as A1 by now apply valid_a_date. assert (a_date (mkDate 2025 8 23)) as A2 by now apply valid_a_date.
  split; [exact HD |]. split; [exact HI |]. split; [exact ex_three_turn |].
  split; [intros f [<- | []]; cbn; repeat split; try apply A2; try lra; unfold earlier; cbn; lia |].
  split; [exists (mkFlow (mkDate 2025 8 23) (mkDate 2025 8 23) 10); split; [now left |]; cbn; split; [unfold earlier; cbn; lia | lra] |].
  destruct (C118_factor 360 (act_360 RV) (Linear RV) 2 1 ex_settle ex_three (4 / 100) (mkDate 2025 2 24) (mkDate 2027 2 14)
    HD HI ex_three_turn ltac:(simpl; lia) eq_refl eq_refl) as (c & Ec & Es & G).
  assert (flat_factor 360 (4 / 100) (mkDate 2025 2 24) (mkDate 2025 8 23) = exp (- (2 / 100))) as Ff.
  { unfold flat_factor. f_equal. change (date_sub (mkDate 2025 8 23) (mkDate 2025 2 24)) with 180%Z. lra. }
  exists c. split; [exact Ec |]. split.
  - rewrite <- Ff. apply G; rewrite ?Es; try assumption; try (right; unfold earlier; cbn; lia); unfold earlier; cbn; lia.
  - rewrite (C118_value 360 _ _ c (4 / 100) (mkDate 2025 2 24) (mkDate 2027 2 14) b (mkDate 2025 2 24) G A1).
    + ret_eq. unfold flat_value, b. cbn. rewrite Ff. ring.
    + rewrite Es. unfold earlier. cbn. lia.
    + right. unfold earlier. cbn. lia.
    + intros f [<- | []] _. cbn. split; [exact A2 |]. repeat split; unfold earlier; cbn; lia.
Qed.
