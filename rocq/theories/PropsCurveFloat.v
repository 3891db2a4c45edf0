(** Properties C85 and C86: yield curves in floating point. *)
From Coq Require Import ZArith Reals Bool List Arith Lia Lra.
From Flocq Require Import Core BinarySingleNaN.
From Verif Require Import Base Chrono Gregorian DateModel DateFacts Value RealValue FloatValue FloatFacts DayCountModel InterpModel InterpFacts Grid CurveModel
  PropsDate PropsDayCount PropsDayCountFloat PropsLinear PropsCatmullRom PropsNaturalCubic PropsCurve PropsFloat.
Import ListNotations.
Open Scope R_scope.

(** ** C85 *)

(** [c] quotes factors exactly between [first] and [final], and from its settlement date. *)
Definition quotes {V : Value} (D : DayCount V) {I : Interpolator V} (c : YieldCurve V I) (first final : Date) : Prop :=
  forall d1 d2, a_date d1 -> a_date d2 -> ~ earlier d2 d1 -> ~ earlier d1 (settlement_date c) ->
  let readable d := ~ earlier d first /\ ~ earlier final d in
  (readable d2 /\ (d1 = settlement_date c \/ readable d1) -> exists v, discount_factor D c d1 d2 = Ret (Ok v))
  /\ (~ (readable d2 /\ (d1 = settlement_date c \/ readable d1)) -> discount_factor D c d1 d2 = Ret (Err InterpolationFailed)).

(** Reading the curve at a date succeeds exactly between [first] and [final]. *)
Lemma quotes_if {V : Value} (D : DayCount V) {I : Interpolator V} (c : YieldCurve V I) (t : Date -> V) first final :
  (forall d, D (settlement_date c) d = Ret (Ok (t d))) ->
  (forall d, a_date d ->
    (~ earlier d first /\ ~ earlier final d -> exists v, i_try_value I (interpolator c) (t d) = Ret (Ok v))
    /\ (~ (~ earlier d first /\ ~ earlier final d) -> exists er, i_try_value I (interpolator c) (t d) = Ret (Err er))) ->
  quotes D c first final.
Proof.
  intros Hf Read.
  intros d1 d2 A1 A2 O1 O2 readable. set (s := settlement_date c) in *.
  assert (~ earlier d2 s) as O3 by (unfold earlier in *; lia).
  unfold discount_factor, curve_yield. fold s.
  rewrite <- date_ltb_earlier in O1, O2, O3. apply not_true_iff_false in O1, O2, O3. rewrite O1, O2, O3. cbn [orb].
  rewrite !Hf. cbn [bind try_res].
  destruct (Read d1 A1) as (R1 & R1'), (Read d2 A2) as (R2 & R2').
  split.
  - intros (Q2 & Q1). destruct (R2 Q2) as (y2 & ->). cbn. destruct (date_eqb d1 s) eqn:Eq; [eauto |].
    destruct Q1 as [Q1 | Q1]; [apply date_eqb_eq in Q1; congruence |]. cbn.
    destruct (R1 Q1) as (y1 & ->). cbn. eauto.
  - intros N. assert (readable d2 \/ ~ readable d2) as [Q2 | Q2].
    { unfold readable. rewrite <- !date_ltb_earlier. clear.
      destruct (date_ltb d2 first); [right; intros [A _]; now apply A |].
      destruct (date_ltb final d2); [right; intros [_ A]; now apply A | left; split; discriminate]. }
    + destruct (R2 Q2) as (y2 & ->). cbn. destruct (date_eqb d1 s) eqn:Eq.
      { exfalso. apply N. split; [exact Q2 |]. left. now apply date_eqb_eq. }
      cbn. destruct R1' as (er & ->); [intros Q1; apply N; split; [exact Q2 | now right] |]. reflexivity.
    + destruct (R2' Q2) as (er & ->). reflexivity.
Qed.

Lemma finite_not_nan {prec emax} (x : binary_float prec emax) : is_finite x = true -> is_nan x = false.
Proof. now destruct x. Qed.

Lemma nth_error_last {A} (l : list A) (d : A) : l <> [] -> nth_error l (length l - 1) = Some (last l d).
Proof.
  intros H. destruct (exists_last H) as (l' & x & ->). rewrite last_last, app_length, nth_error_app2 by (simpl; lia).
  replace (length l' + length [x] - 1 - length l')%nat with 0%nat by (simpl; lia). reflexivity.
Qed.

Lemma last_nth {A} (l : list A) d : last l d = nth (length l - 1) l d.
Proof.
  destruct l as [| a t] using rev_ind; [reflexivity |]. rewrite last_last, app_length, app_nth2 by (simpl; lia).
  replace (length t + length [a] - 1 - length t)%nat with 0%nat by (simpl; lia). reflexivity.
Qed.

Lemma curve_f64 e (D : DayCount (F64 e)) (I : Interpolator (F64 e)) s ms (ys : list (binary_float 53 1024)) m0 :
  D = act_360 (F64 e) \/ D = act_365 (F64 e) -> length ms = length ys -> ms <> [] -> a_date s -> (forall m, In m ms -> a_date m) ->
  (forall i j mi mj, (i < j)%nat -> nth_error ms i = Some mi -> nth_error ms j = Some mj -> ~ earlier mj mi) ->
  (forall pts : list (binary_float 53 1024 * binary_float 53 1024), length pts = length ms -> line (map fst pts) ->
     answers (fit_eval I pts) (map fst pts)) ->
  exists c, curve_new D I s ms ys = Ret (Ok c) /\ settlement_date c = s /\ quotes D c (hd m0 ms) (last ms m0).
Proof.
  intros HD Hl Hn As Am Om Ans. destruct (C20_strict_order e D HD) as (f & Hf & Ord & _).
  assert (forall d1 d2, a_date d1 -> a_date d2 -> is_finite (f d1 d2) = true) as Fin.
  { intros d1 d2 A1 A2. destruct (C20_rounded_once e d1 d2 A1 A2) as ((g1 & E1 & F1 & _) & (g2 & E2 & F2 & _)).
    destruct HD as [-> | ->]; rewrite Hf in *; [injection E1 as -> | injection E2 as ->]; assumption. }
  set (t := fun m : NaiveDate => f s m : binary_float 53 1024). set (pts := combine (map t ms) ys).
  assert (map fst pts = map t ms) as Efst.
  { unfold pts. clear - Hl. revert ys Hl. induction ms as [| m ms IH]; intros [| y ys] Hl; try discriminate; [reflexivity |].
    cbn [map combine fst]. f_equal. apply IH. now injection Hl. }
  assert (length pts = length ms) as Lp.
  { rewrite <- (map_length fst pts), Efst. apply map_length. }
  assert (line (map fst pts)) as Li.
  { rewrite Efst. split.
    - intros y Hy. apply in_map_iff in Hy. destruct Hy as (m & <- & Hm). apply finite_not_nan, Fin; [exact As | now apply Am].
    - intros i j a b Hij Ha Hb. rewrite nth_error_map in Ha, Hb.
      destruct (nth_error ms i) as [mi |] eqn:Ei; cbn [option_map] in Ha; [| discriminate Ha].
      destruct (nth_error ms j) as [mj |] eqn:Ej; cbn [option_map] in Hb; [| discriminate Hb].
      injection Ha as <-. injection Hb as <-. pose proof (Om i j mi mj Hij Ei Ej) as L.
      pose proof (Am mi (nth_error_In _ _ Ei)) as Ai. pose proof (Am mj (nth_error_In _ _ Ej)) as Aj.
      rewrite (Ord s mj mi As Aj Ai) in L. unfold t. rewrite Bltb_correct by now apply Fin. apply Rlt_bool_false. lra. }
  pose proof (Ans pts Lp Li) as (_ & An). rewrite Efst in An.
  assert (In (hd m0 ms) ms) as In0 by (destruct ms; [contradiction | now left]).
  assert (In (last ms m0) ms) as In1 by (eapply nth_error_In, nth_error_last, Hn).
  assert (hd B754_nan (map t ms) = t (hd m0 ms)) as E0 by (destruct ms; [contradiction | reflexivity]).
  assert (last (map t ms) B754_nan = t (last ms m0)) as E1.
  { rewrite !last_nth, map_length. rewrite (nth_indep _ _ (t m0)) by (rewrite map_length; destruct ms; [contradiction | simpl; lia]).
    apply map_nth. }
  rewrite E0, E1 in An.
  assert (forall d d', a_date d -> a_date d' -> (Bltb (t d) (t d') = true <-> earlier d d')) as Cmp.
  { intros d d' Ad Ad'. unfold t. rewrite Bltb_correct by now apply Fin. rewrite (Ord s d d' As Ad Ad').
    case Rlt_bool_spec; intros; split; intros; try easy; lra. }
  pose proof (C43_fit (F64 e) D I s ms ys t Hl (fun m _ => Hf s m)) as F. cbv zeta in F.
  change (combine (map t ms) ys) with pts in F.
  assert (exists v, fit_eval I pts (t (hd m0 ms)) = Ret (Ok v)) as (v0 & V0).
  { apply (An (t (hd m0 ms))).
    - apply finite_not_nan, Fin; [exact As | now apply Am].
    - apply not_true_iff_false. rewrite Cmp by now apply Am. unfold earlier. lia.
    - apply not_true_iff_false. rewrite Cmp by now apply Am. intros C.
      assert (hd m0 ms = last ms m0 \/ ~ earlier (last ms m0) (hd m0 ms)) as [Q | Q].
      { destruct (Nat.eq_dec (length ms) 1) as [L1 | L1].
        - left. destruct ms as [| a [| b ms]]; [contradiction | reflexivity | simpl in L1; lia].
        - right. apply (Om 0%nat (length ms - 1)%nat); [destruct ms as [| a [| b ms]]; simpl in *; try lia; contradiction | | now apply nth_error_last].
          destruct ms; [contradiction | reflexivity]. }
      + rewrite Q in C. unfold earlier in C. lia.
      + unfold earlier in C, Q. lia. }
  unfold fit_eval in V0, F. destruct (i_try_fit I (i_default I) pts) as [[g | er] | |] eqn:G; try discriminate.
  destruct F as (c & Ec & Es & Ev). exists c. split; [exact Ec |]. split; [exact Es |].
  assert (forall d, a_date d ->
    (~ earlier d (hd m0 ms) /\ ~ earlier (last ms m0) d -> exists v, i_try_value I (interpolator c) (t d) = Ret (Ok v))
    /\ (~ (~ earlier d (hd m0 ms) /\ ~ earlier (last ms m0) d) -> exists er, i_try_value I (interpolator c) (t d) = Ret (Err er))) as Read.
  { intros d Ad. rewrite <- Ev. fold (fit_eval I pts (t d)). unfold fit_eval in An. rewrite G in An.
    destruct (An (t d) (finite_not_nan _ (Fin s d As Ad))) as (B1 & B2 & B3).
    rewrite !Cmp in B1, B2 by (assumption || now apply Am). split.
    - intros (N1 & N2). apply B3; apply not_true_iff_false; rewrite Cmp by (assumption || now apply Am); assumption.
    - intros N. destruct (Bltb (t d) (t (hd m0 ms))) eqn:C1.
      + apply Cmp in C1; [| exact Ad | now apply Am]. rewrite (B1 C1). eauto.
      + destruct (Bltb (t (last ms m0)) (t d)) eqn:C2.
        * apply Cmp in C2; [| now apply Am | exact Ad]. rewrite (B2 C2). eauto.
        * exfalso. apply N. split; intros C; apply Cmp in C; try assumption; try (now apply Am); congruence. }
  apply (quotes_if D c t); [intros d; rewrite Es; apply Hf | exact Read].
Qed.

(** Maturities in order, repetitions allowed. *)
Definition in_sequence (ms : list Date) : Prop :=
  forall i j mi mj, (i < j)%nat -> nth_error ms i = Some mi -> nth_error ms j = Some mj -> ~ earlier mj mi.

Theorem C85_linear : forall e D s ms (ys : list (binary_float 53 1024)) m0,
  D = act_360 (F64 e) \/ D = act_365 (F64 e) -> length ms = length ys -> (2 <= length ms)%nat ->
  a_date s -> (forall m, In m ms -> a_date m) -> in_sequence ms ->
  exists c, curve_new D (Linear (F64 e)) s ms ys = Ret (Ok c) /\ settlement_date c = s /\ quotes D c (hd m0 ms) (last ms m0).
Proof.
  intros e D s ms ys m0 HD Hl L As Am Om. apply curve_f64; auto.
  - destruct ms; [simpl in L; lia | discriminate].
  - intros pts Lp. apply C78_linear. lia.
Qed.
Print Assumptions C85_linear.

Theorem C85_catmull_rom : forall e D s ms (ys : list (binary_float 53 1024)) m0,
  D = act_360 (F64 e) \/ D = act_365 (F64 e) -> length ms = length ys -> (3 <= length ms)%nat ->
  a_date s -> (forall m, In m ms -> a_date m) -> in_sequence ms ->
  exists c, curve_new D (CatmullRom (F64 e)) s ms ys = Ret (Ok c) /\ settlement_date c = s /\ quotes D c (hd m0 ms) (last ms m0).
Proof.
  intros e D s ms ys m0 HD Hl L As Am Om. apply curve_f64; auto.
  - destruct ms; [simpl in L; lia | discriminate].
  - intros pts Lp. apply C78_catmull_rom. lia.
Qed.
Print Assumptions C85_catmull_rom.

Theorem C85_natural_cubic : forall e D s ms (ys : list (binary_float 53 1024)) m0,
  D = act_360 (F64 e) \/ D = act_365 (F64 e) -> length ms = length ys -> (3 <= length ms)%nat ->
  a_date s -> (forall m, In m ms -> a_date m) -> in_sequence ms ->
  exists c, curve_new D (NaturalCubic (F64 e)) s ms ys = Ret (Ok c) /\ settlement_date c = s /\ quotes D c (hd m0 ms) (last ms m0).
Proof.
  intros e D s ms ys m0 HD Hl L As Am Om. apply curve_f64; auto.
  - destruct ms; [simpl in L; lia | discriminate].
  - intros pts Lp. apply C78_natural_cubic. lia.
Qed.
Print Assumptions C85_natural_cubic.

Lemma order_fails e (D : DayCount (F64 e)) (I : Interpolator (F64 e)) s ms (ys : list (binary_float 53 1024)) :
  D = act_360 (F64 e) \/ D = act_365 (F64 e) -> length ms = length ys -> a_date s -> (forall m, In m ms -> a_date m) -> ~ in_sequence ms ->
  (forall pts : list (binary_float 53 1024 * binary_float 53 1024), length pts = length ms ->
     (forall p, In p pts -> is_nan (fst p) = false) -> ~ line (map fst pts) ->
     i_try_fit I (i_default I) pts = Ret (Err PointOrderError)) ->
  curve_new D I s ms ys = Ret (Err InterpolationFailed).
Proof.
  intros HD Hl As Am N Fit. destruct (C20_strict_order e D HD) as (f & Hf & Ord & _).
  assert (forall d1 d2, a_date d1 -> a_date d2 -> is_finite (f d1 d2) = true) as Fin.
  { intros d1 d2 A1 A2. destruct (C20_rounded_once e d1 d2 A1 A2) as ((g1 & E1 & F1 & _) & (g2 & E2 & F2 & _)).
    destruct HD as [-> | ->]; rewrite Hf in *; [injection E1 as -> | injection E2 as ->]; assumption. }
  set (t := fun m : NaiveDate => f s m : binary_float 53 1024). set (pts := combine (map t ms) ys).
  assert (map fst pts = map t ms) as Efst.
  { unfold pts. clear - Hl. revert ys Hl. induction ms as [| m ms IH]; intros [| y ys] Hl; try discriminate; [reflexivity |].
    cbn [map combine fst]. f_equal. apply IH. now injection Hl. }
  assert (length pts = length ms) as Lp.
  { rewrite <- (map_length fst pts), Efst. apply map_length. }
  pose proof (C43_fit (F64 e) D I s ms ys t Hl (fun m _ => Hf s m)) as F. cbv zeta in F.
  change (combine (map t ms) ys) with pts in F. rewrite Fit in F; [exact F | exact Lp | |].
  - intros p Hp. apply (in_map fst) in Hp. rewrite Efst in Hp. apply in_map_iff in Hp. destruct Hp as (m & <- & Hm).
    apply finite_not_nan, Fin; [exact As | now apply Am].
  - intros (_ & O). apply N. intros i j mi mj Hij Ei Ej C. rewrite Efst in O.
    pose proof (Am mi (nth_error_In _ _ Ei)) as Ai. pose proof (Am mj (nth_error_In _ _ Ej)) as Aj.
    specialize (O i j (t mi) (t mj) Hij (map_nth_error t _ _ Ei) (map_nth_error t _ _ Ej)). unfold t in O.
    rewrite Bltb_correct in O by now apply Fin. apply (Ord s mj mi As Aj Ai) in C.
    rewrite Rlt_bool_true in O by exact C. discriminate.
Qed.

(** Out of order, the splines refuse. *)
Theorem C85_out_of_order : forall e D s ms (ys : list (binary_float 53 1024)),
  D = act_360 (F64 e) \/ D = act_365 (F64 e) -> length ms = length ys -> (3 <= length ms)%nat ->
  a_date s -> (forall m, In m ms -> a_date m) -> ~ in_sequence ms ->
  curve_new D (CatmullRom (F64 e)) s ms ys = Ret (Err InterpolationFailed)
  /\ curve_new D (NaturalCubic (F64 e)) s ms ys = Ret (Err InterpolationFailed).
Proof.
  intros e D s ms ys HD Hl L As Am N. split; apply order_fails; auto.
  - intros pts Lp Nn Nl. apply (C79_catmull_rom 53 1024 Hp53 He1024 e pts); [lia | assumption | assumption].
  - intros pts Lp Nn Nl. apply (C79_natural_cubic 53 1024 Hp53 He1024 e pts); [lia | assumption | assumption].
Qed.
Print Assumptions C85_out_of_order.

(** The example maturities, with infinite and not-a-number yields: the curve still answers on and between them. *)
Example C85_case : forall e, exists c,
  curve_new (act_365 (F64 e)) (NaturalCubic (F64 e)) ex_settle ex_maturities [B754_infinity false; B754_nan; B754_zero true] = Ret (Ok c)
  /\ (exists v, discount_factor (act_365 (F64 e)) c (mkDate 2025 3 1) (mkDate 2028 2 29) = Ret (Ok v))
  /\ discount_factor (act_365 (F64 e)) c (mkDate 2025 2 28) (mkDate 2028 2 29) = Ret (Err InterpolationFailed)
  /\ discount_factor (act_365 (F64 e)) c (mkDate 2025 3 1) (mkDate 2028 3 1) = Ret (Err InterpolationFailed).
Proof.
  intros e. destruct (C85_natural_cubic e (act_365 (F64 e)) ex_settle ex_maturities [B754_infinity false; B754_nan; B754_zero true] ex_settle)
    as (c & Ec & Es & Q).
  - now right.
  - reflexivity.
  - simpl. lia.
  - apply valid_a_date; reflexivity.
  - intros m [<- | [<- | [<- | []]]]; apply valid_a_date; reflexivity.
  - intros [| [| [| i]]] [| [| [| j]]] mi mj Hij Ei Ej; try lia; simpl in Ei, Ej; try discriminate;
      try (destruct j; discriminate Ej); injection Ei as <-; injection Ej as <-; unfold earlier; simpl; lia.
  - exists c. split; [exact Ec |]. unfold quotes in Q. rewrite Es in Q. cbv zeta in Q. split; [| split]; apply Q;
      try (apply valid_a_date; reflexivity); try (unfold earlier; simpl; lia).
    intros (_ & [C | (C & _)]); [discriminate C | apply C; unfold earlier; simpl; lia].
Qed.

(** In exact arithmetic the same holds. *)
Lemma curve_real (D : DayCount RV) (I : Interpolator RV) s ms (ys : list R) m0 :
  D = act_360 RV \/ D = act_365 RV -> length ms = length ys -> ms <> [] -> a_date s -> (forall m, In m ms -> a_date m) ->
  in_sequence ms ->
  (forall (pts : list (R * R)) x, length pts = length ms -> sorted pts ->
     exists w, fit_eval I pts x = by_cell (V := RV) w (find_index (V := RV) (fun y => y) (map fst pts) x)) ->
  exists c, curve_new D I s ms ys = Ret (Ok c) /\ settlement_date c = s /\ quotes D c (hd m0 ms) (last ms m0).
Proof.
  intros HD Hl Hn As Am Om Cell. destruct (C19_laws D HD) as (f & Hf & _ & _ & Mono & _).
  set (t := fun m : NaiveDate => f s m : R). set (pts := curve_points t ms ys).
  assert (length pts = length ms) as Lp by (unfold pts; rewrite curve_points_length by exact Hl; reflexivity).
  assert (forall i, (i < length ms)%nat -> gx pts i = t (nth i ms m0)) as G.
  { intros i Hi. destruct (nth_error ms i) as [mi |] eqn:Ei; [| apply nth_error_None in Ei; lia].
    destruct (nth_error ys i) as [yi |] eqn:Yi; [| apply nth_error_None in Yi; lia].
    destruct (curve_points_nth t ms ys i mi yi Hl Ei Yi) as (_ & Eg & _).
    fold pts in Eg. rewrite Eg. now rewrite (nth_error_nth _ _ _ Ei). }
  assert (forall i, (i < length ms)%nat -> a_date (nth i ms m0)) as An by (intros i Hi; now apply Am, nth_In).
  assert (sorted pts) as So.
  { intros i j Hij. rewrite !G by lia. destruct (Nat.eq_dec i j) as [-> | Ne]; [lra |].
    pose proof (Om i j (nth i ms m0) (nth j ms m0) ltac:(lia)) as O.
    specialize (O ltac:(apply nth_error_nth'; lia) ltac:(apply nth_error_nth'; lia)).
    unfold t. rewrite (Mono s) in O by (apply An; lia). lra. }
  assert (pts <> []) as Np by (intros E; rewrite E in Lp; destruct ms; [contradiction | discriminate]).
  assert (0 < length ms)%nat as L0 by (destruct ms; [contradiction | simpl; lia]).
  assert (hd m0 ms = nth 0 ms m0) as H0 by (destruct ms; reflexivity).
  assert (last ms m0 = nth (length ms - 1) ms m0) as H1 by apply last_nth.
  assert (forall x, (x < t (hd m0 ms) \/ t (last ms m0) < x -> exists er, fit_eval I pts x = Ret (Err er))
    /\ (t (hd m0 ms) <= x <= t (last ms m0) -> exists v, fit_eval I pts x = Ret (Ok v))) as Ev.
  { intros x. destruct (Cell pts x Lp So) as (w & ->). rewrite <- (find_index_map (V := RV) fst).
    destruct (C23_lookup pts x So) as (_ & B & A & M). unfold last_of in A, M. rewrite Lp in A, M.
    rewrite G in B, A, M by lia. rewrite G in M by lia. rewrite H0, H1. split.
    - intros [Q | Q]; [rewrite (B Np Q) | rewrite (A Np Q)]; eexists; reflexivity.
    - intros Q. destruct (M Np Q) as (i & -> & _). exists (w i). reflexivity. }
  pose proof (C43_fit RV D I s ms ys t Hl (fun m _ => Hf s m)) as F. cbv zeta in F.
  change (combine (map t ms) ys) with pts in F.
  assert (In (hd m0 ms) ms) as In0 by (rewrite H0; now apply nth_In).
  assert (In (last ms m0) ms) as In1 by (rewrite H1; apply nth_In; lia).
  assert (t (hd m0 ms) <= t (last ms m0)) as Le.
  { rewrite H0, H1, <- !G by lia. apply So. lia. }
  destruct (proj2 (Ev (t (hd m0 ms))) ltac:(lra)) as (v0 & V0).
  unfold fit_eval in V0. destruct (i_try_fit I (i_default I) pts) as [[g | er] | |] eqn:E; try discriminate.
  destruct F as (c & Ec & Es & Er). exists c. split; [exact Ec |]. split; [exact Es |].
  apply (quotes_if D c t); [intros d; rewrite Es; apply Hf |]. intros d Ad. rewrite <- Er.
  destruct (Ev (t d)) as (E1 & E2).
  pose proof (Mono s d (hd m0 ms) Ad (Am _ In0)) as M1. pose proof (Mono s (last ms m0) d (Am _ In1) Ad) as M2.
  fold (t d) (t (hd m0 ms)) in M1. fold (t d) (t (last ms m0)) in M2. split.
  - intros (N1 & N2). apply E2. rewrite M1 in N1. rewrite M2 in N2. lra.
  - intros N. apply E1. destruct (Rlt_le_dec (t d) (t (hd m0 ms))) as [C | C]; [now left | right].
    destruct (Rlt_le_dec (t (last ms m0)) (t d)) as [C' | C']; [exact C' | exfalso]. apply N. rewrite M1, M2. lra.
Qed.

Lemma sorted_in_order (pts : list (R * R)) : sorted pts -> in_order (V := RV) fst pts.
Proof.
  intros So i p q Hp Hq. assert (S i < length pts)%nat as L by (apply nth_error_Some; intros C; discriminate (eq_trans (eq_sym Hq) C)).
  specialize (So i (S i) ltac:(lia)). unfold gx in So.
  pose proof (nth_error_nth _ _ (0, 0) Hp) as Ep. pose proof (nth_error_nth _ _ (0, 0) Hq) as Eq. cbn in Ep, Eq. rewrite Ep, Eq in So.
  apply Rltb_false. exact So.
Qed.

Theorem C85_reals : forall D s ms (ys : list R) m0,
  D = act_360 RV \/ D = act_365 RV -> length ms = length ys ->
  a_date s -> (forall m, In m ms -> a_date m) -> in_sequence ms ->
  ((2 <= length ms)%nat ->
    exists c, curve_new D (Linear RV) s ms ys = Ret (Ok c) /\ settlement_date c = s /\ quotes D c (hd m0 ms) (last ms m0))
  /\ ((3 <= length ms)%nat ->
    (exists c, curve_new D (CatmullRom RV) s ms ys = Ret (Ok c) /\ settlement_date c = s /\ quotes D c (hd m0 ms) (last ms m0))
    /\ exists c, curve_new D (NaturalCubic RV) s ms ys = Ret (Ok c) /\ settlement_date c = s /\ quotes D c (hd m0 ms) (last ms m0)).
Proof.
  intros D s ms ys m0 HD Hl As Am Om.
  assert (forall n, (S n <= length ms)%nat -> ms <> []) as Ne by (intros n L ->; simpl in L; lia).
  split; [intros L | intros L; split]; apply curve_real; eauto; intros pts x Lp So.
  - apply (cells_linear (V := RV)). exact (eq_ind_r (fun n => (2 <= n)%nat) L Lp).
  - apply (cells_catmull_rom (V := RV)); [intros k _; simpl; eauto | intros y; apply Rltb_false; apply Rle_refl | exact (eq_ind_r (fun n => (3 <= n)%nat) L Lp) | now apply sorted_in_order].
  - apply (cells_natural_cubic (V := RV)); [intros k _; simpl; eauto | intros y; apply Rltb_false; apply Rle_refl | exact (eq_ind_r (fun n => (3 <= n)%nat) L Lp) | now apply sorted_in_order].
Qed.
Print Assumptions C85_reals.

(** ** C86 *)

(** With an exponential that is exactly 1 at both zeros, a factor from a date to itself is exactly 1 unless the
    time times the yield overflows. *)
Theorem C86_same_day : forall prec emax Hp He e (D : DayCount (FV prec emax Hp He e)) I (c : YieldCurve (FV prec emax Hp He e) I) d
    (t y : binary_float prec emax),
  let one := of_int prec emax Hp He 1 in
  e (B754_zero false) = one -> e (B754_zero true) = one ->
  ~ earlier d (settlement_date c) -> D (settlement_date c) d = Ret (Ok t) -> i_try_value I (interpolator c) t = Ret (Ok y) ->
  (d = settlement_date c -> B2R t = 0) -> is_finite (Bmult mode_NE t y) = true ->
  discount_factor D c d d = Ret (Ok one).
Proof.
  intros prec emax Hp He e D I c d t y one E0 E1 O Ht Hy Z Fin.
  assert (date_ltb d d = false) as O' by (apply not_true_iff_false; rewrite date_ltb_earlier; unfold earlier; lia).
  rewrite <- date_ltb_earlier in O. apply not_true_iff_false in O.
  unfold discount_factor, curve_yield. rewrite O', O. cbn [orb]. rewrite Ht. cbn [bind try_res]. rewrite Hy. cbn.
  destruct (date_eqb d (settlement_date c)) eqn:Eq.
  - apply date_eqb_eq in Eq. specialize (Z Eq). do 2 f_equal.
    assert (exists b, Bmult mode_NE (Bopp t) y = B754_zero b) as (b & ->).
    { destruct t as [b | b | | b m ex Hm]; [| destruct y; discriminate Fin | destruct y; discriminate Fin |].
      - destruct y; try discriminate Fin; cbn; eauto.
      - exfalso. apply (F2R_neq_0 radix2 (Float radix2 (cond_Zopp b (Zpos m)) ex)); [destruct b; discriminate | exact Z]. }
    destruct b; assumption.
  - do 2 f_equal.
    assert (exists b, Bminus mode_NE (Bmult mode_NE t y) (Bmult mode_NE t y) = B754_zero b) as (b & ->); [| destruct b; assumption].
    set (p := Bmult mode_NE t y) in *. pose proof (Bminus_correct prec emax Hp He mode_NE p p Fin Fin) as C.
    replace (B2R p - B2R p) with 0 in C by ring. rewrite round_0 in C by (apply valid_rnd_round_mode).
    rewrite Rabs_R0, Rlt_bool_true in C by apply bpow_gt_0. destruct C as (C0 & C1 & _).
    destruct (Bminus mode_NE p p) as [b | b | | b m ex Hm]; try discriminate C1; [eauto |].
    exfalso. apply (F2R_neq_0 radix2 (Float radix2 (cond_Zopp b (Zpos m)) ex)); [destruct b; discriminate | exact C0].
Qed.
Print Assumptions C86_same_day.

(** Both actual day counts give a zero time on the settlement date. *)
Theorem C86_actual : forall e D I (c : YieldCurve (F64 e) I) d,
  D = act_360 (F64 e) \/ D = act_365 (F64 e) -> let one := of_int 53 1024 Hp53 He1024 1 in
  e (B754_zero false) = one -> e (B754_zero true) = one ->
  a_date (settlement_date c) -> a_date d -> ~ earlier d (settlement_date c) ->
  exists t : binary_float 53 1024, D (settlement_date c) d = Ret (Ok t)
  /\ forall y, i_try_value I (interpolator c) t = Ret (Ok y) -> is_finite (Bmult mode_NE t y) = true ->
     discount_factor D c d d = Ret (Ok one).
Proof.
  intros e D I c d HD one E0 E1 As Ad O. destruct (C20_strict_order e D HD) as (f & Hf & _ & _ & Z).
  exists (f (settlement_date c) d). split; [apply Hf |]. intros y Hy Fin.
  apply (C86_same_day 53 1024 Hp53 He1024 e D I c d (f (settlement_date c) d) y); auto.
  intros ->. now apply Z.
Qed.
Print Assumptions C86_actual.

(** Without overflow: linear curve, yields 1, 2 and 3.  With it: yields 2^1023 at a time of two years. *)
Theorem C86_overflow_refuted : forall e, let i := of_int 53 1024 Hp53 He1024 in
  e B754_nan = B754_nan ->
  exists c, curve_new (act_365 (F64 e)) (Linear (F64 e)) ex_settle ex_maturities [i (2 ^ 1023); i (2 ^ 1023); i (2 ^ 1023)]%Z = Ret (Ok c)
  /\ is_finite (i (2 ^ 1023)%Z) = true
  /\ discount_factor (act_365 (F64 e)) c (mkDate 2026 3 1) (mkDate 2026 3 1) = Ret (Ok B754_nan).
Proof.
  intros e i En. destruct (C85_linear e (act_365 (F64 e)) ex_settle ex_maturities [i (2 ^ 1023); i (2 ^ 1023); i (2 ^ 1023)]%Z ex_settle)
    as (c & Ec & _).
  - now right.
  - reflexivity.
  - simpl. lia.
  - apply valid_a_date; reflexivity.
  - intros m [<- | [<- | [<- | []]]]; apply valid_a_date; reflexivity.
  - intros [| [| [| k]]] [| [| [| j]]] mi mj Hij Ei Ej; try lia; simpl in Ei, Ej; try discriminate;
      try (destruct j; discriminate Ej); injection Ei as <-; injection Ej as <-; unfold earlier; simpl; lia.
  - exists c. split; [exact Ec |]. split; [vm_compute; reflexivity |].
    transitivity (Ret (Ok (e B754_nan)) : M (QLabResult (F64 e))); [| now rewrite En].
    injection Ec as <-. vm_compute. reflexivity.
Qed.
Print Assumptions C86_overflow_refuted.

Example C86_case : forall e, let i := of_int 53 1024 Hp53 He1024 in
  e (B754_zero false) = i 1%Z -> e (B754_zero true) = i 1%Z ->
  exists c, curve_new (act_365 (F64 e)) (Linear (F64 e)) ex_settle ex_maturities [i 1; i 2; i 3]%Z = Ret (Ok c)
  /\ discount_factor (act_365 (F64 e)) c (mkDate 2027 8 15) (mkDate 2027 8 15) = Ret (Ok (i 1%Z)).
Proof.
  intros e i E0 E1. destruct (C85_linear e (act_365 (F64 e)) ex_settle ex_maturities [i 1; i 2; i 3]%Z ex_settle)
    as (c & Ec & Es & _).
  - now right.
  - reflexivity.
  - simpl. lia.
  - apply valid_a_date; reflexivity.
  - intros m [<- | [<- | [<- | []]]]; apply valid_a_date; reflexivity.
  - intros [| [| [| k]]] [| [| [| j]]] mi mj Hij Ei Ej; try lia; simpl in Ei, Ej; try discriminate;
      try (destruct j; discriminate Ej); injection Ei as <-; injection Ej as <-; unfold earlier; simpl; lia.
  - exists c. split; [exact Ec |].
    destruct (C86_actual e (act_365 (F64 e)) (Linear (F64 e)) c (mkDate 2027 8 15)) as (t & Et & Q); auto; rewrite ?Es.
    + apply valid_a_date; reflexivity.
    + apply valid_a_date; reflexivity.
    + unfold earlier. simpl. lia.
    + rewrite Es in Et.
      assert (match act_365 (F64 e) ex_settle (mkDate 2027 8 15) with
        | Ret (Ok t) => match i_try_value (Linear (F64 e)) (interpolator c) t with Ret (Ok y) => is_finite (Bmult mode_NE t y) | _ => false end
        | _ => false end = true) as H by (injection Ec as <-; vm_compute; reflexivity).
      rewrite Et in H. destruct (i_try_value (Linear (F64 e)) (interpolator c) t) as [[y | er] | |] eqn:Ey; try discriminate.
      exact (Q y eq_refl H).
Qed.
