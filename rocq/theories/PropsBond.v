(** Properties C45 to C51 and C65: bonds. *)
From Coq Require Import String ZArith Reals Bool List Arith Lia Lra.
From Verif Require Import Base Chrono Gregorian DateModel DateFacts LoopFacts Value RealValue DayCountModel InterpModel
  InterpFacts CurveModel BondModel PropsDate PropsCurve.
Import ListNotations.
Open Scope Z_scope.
Ltac Zify.zify_post_hook ::= Z.div_mod_to_equations.

(** ** Specification *)

(** [schedule p d ds]: [ds] starts at [d], each date is six calendar months after the one before, none is after
    [p], and the date six months after the last one is. *)
Inductive schedule (p : Date) : Date -> list Date -> Prop :=
| schedule_end d : earlier p d -> schedule p d []
| schedule_next d d' ds : ~ earlier p d -> a_date d' -> months_moved d 6 d' -> schedule p d' ds -> schedule p d (d :: ds).

(** The first weekday on or after [d]. *)
Definition first_weekday (d r : Date) : Prop :=
  a_date r /\ ~ weekend r /\ ~ earlier r d /\ forall x, a_date x -> ~ earlier x d -> earlier x r -> weekend x.

(** ** The loop *)

Definition flow_at {V : Type} (c : V) (d : Date) (f : BondCashFlow V) : Prop :=
  due_date f = d /\ weekend_roll d = Some (payment_date f) /\ payment_amount f = c.

Lemma moved_a_date d k r : a_date d -> representable (year r) -> months_moved d k r -> a_date r.
Proof.
  intros Hd Hr Hm. apply valid_a_date. apply valid_iff. split; [exact Hr |].
  apply (months_moved_proper d k); [apply valid_proper; now apply valid_a_date | exact Hm].
Qed.

Lemma a_date_range d : a_date d -> -262143 <= year d <= 262142 /\ 1 <= month d <= 12 /\ 1 <= day d <= 31.
Proof.
  intros Hd. split; [apply Hd |]. apply valid_a_date, valid_proper in Hd. destruct Hd as [Hm Hr]. unfold month, day.
  split; [exact Hm |]. pose proof (month_len_range (nd_year d) (nd_month d) Hm). lia.
Qed.

Section Loop.
Context {V : Value} (p : Date) (c : V).
Notation step := (schedule_step p 6 c).

Lemma visits_schedule s t : visits step s t -> forall r, step t = inr r -> a_date (fst s) ->
  r = Ret None
  \/ exists ds fl, r = Ret (Some (snd s ++ fl)) /\ schedule p (fst s) ds /\ Forall2 (flow_at c) ds fl.
Proof.
  induction 1 as [[d acc] | [d acc] s' t B _ IH]; intros r E Hd; simpl in *.
  - destruct (date_leb d p) eqn:L.
    + destruct (weekend_roll d); [| injection E as <-; now left].
      destruct (date_add_months d 6); [discriminate | injection E as <-; now left].
    + injection E as <-. right. exists [], []. rewrite app_nil_r. split; [reflexivity |]. split; [| constructor].
      constructor. destruct (date_leb_not_earlier d p) as [_ K]. pose proof (date_compare_spec d p) as C. unfold date_leb in L.
      destruct (date_compare d p); try discriminate. exact C.
  - destruct (date_leb d p) eqn:L; [| discriminate].
    destruct (weekend_roll d) as [pay |] eqn:W; [| discriminate].
    destruct (date_add_months d 6) as [d' |] eqn:A; [| discriminate]. injection B as <-. simpl in IH.
    apply C06_add_months in A; [| exact Hd | lia]. destruct A as [Rd' Md'].
    assert (a_date d') as Hd' by now apply (moved_a_date d 6).
    destruct (IH r E Hd') as [-> | (ds & fl & -> & S & F)]; [now left |]. right.
    exists (d :: ds), (mkFlow d pay c :: fl). rewrite <- app_assoc. split; [reflexivity |]. split.
    + apply (schedule_next p d d'); auto. now apply date_leb_not_earlier.
    + constructor; [| exact F]. split; [reflexivity |]. split; [exact W | reflexivity].
Qed.

Lemma roll_exists d : a_date d -> year d <= 262141 -> exists r, weekend_roll d = Some r.
Proof.
  intros Hd Hy. apply valid_a_date in Hd. pose proof (valid_proper _ Hd) as Pd.
  rewrite weekend_roll_value. cbv zeta. destruct (Z.ltb_spec 4 ((num_days_from_ce d - 1) mod 7)); [| eauto].
  rewrite add_days_of_serial by (auto; lia).
  destruct (of_serial _) eqn:E; [eauto |]. exfalso. apply of_serial_none in E.
  apply valid_serial in Hd; [| exact Pd].
  assert (num_days_from_ce d < num_days_from_ce (mkDate 262142 1 1)) as L.
  { apply serial_lt_iff; [exact Pd | apply valid_proper; reflexivity |]. left. unfold year in Hy. simpl. lia. }
  assert (num_days_from_ce (mkDate 262142 1 1) + 10 < MAX_SERIAL) as K by (vm_compute; reflexivity).
  lia.
Qed.

Lemma step_none s : a_date (fst s) -> step s = inr (Ret None) -> 262141 < year p.
Proof.
  destruct s as [d acc]. simpl. intros Hd H. destruct (Z.lt_ge_cases 262141 (year p)) as [L | L]; [exact L |]. exfalso.
  destruct (date_leb d p) eqn:Q; [| discriminate]. apply date_leb_not_earlier in Q.
  assert (year d <= 262141) as Y by (unfold earlier, year in *; lia).
  destruct (roll_exists d Hd Y) as (r & E). rewrite E in H.
  destruct (date_add_months d 6) eqn:A; [discriminate |]. apply C06_add_months_none in A; [| exact Hd | lia].
  pose proof (a_date_range d Hd). lia.
Qed.

Lemma schedule_loop (first : Date) : a_date first ->
  (while roll_fuel step (first, []) = Ret None /\ 262141 < year p)
  \/ exists ds fl, while roll_fuel step (first, []) = Ret (Some fl) /\ schedule p first ds /\ Forall2 (flow_at c) ds fl.
Proof.
  intros Hf.
  destruct (loop_terminates step (fun s => a_date (fst s)) (fun s => 12 * 262143 - (12 * year (fst s) + month (fst s)))
    roll_fuel (first, [])) as (r & t & E & Vt & At & B).
  - intros [d acc] [d' acc'] Hd Hs. simpl in *. destruct (date_leb d p); [| discriminate].
    destruct (weekend_roll d); [| discriminate]. destruct (date_add_months d 6) as [d2 |] eqn:A; [| discriminate].
    injection Hs as <- <-. apply C06_add_months in A; [| exact Hd | lia]. destruct A as [R M].
    split; [now apply (moved_a_date d 6) |]. destruct M as (M1 & M2 & _). destruct R. lia.
  - exact Hf.
  - simpl. pose proof (a_date_range first Hf). unfold roll_fuel. lia.
  - unfold while. rewrite E. destruct (visits_schedule _ _ Vt r B Hf) as [-> | (ds & fl & -> & S & F)].
    + left. split; [reflexivity | now apply (step_none t)].
    + right. exists ds, fl. auto.
Qed.

End Loop.

(** ** The shape of a bond *)

(** What [first_cash_flow] does to the amount of the first flow. *)
Definition adjusted {V : Value} (issue first : Date) (c a : V) : Prop :=
  exists prior, date_sub_months first 6 = Some prior /\
  ((earlier prior issue /\ exists n m, v_of_int (date_sub first issue) = Some n
      /\ v_of_int (date_sub first prior) = Some m /\ a = (c * (n / m))%V)
   \/ (prior = issue /\ a = c)
   \/ (earlier issue prior /\ exists prior2 n m, date_sub_months prior 6 = Some prior2
      /\ v_of_int (date_sub prior issue) = Some n /\ v_of_int (date_sub prior prior2) = Some m
      /\ a = (c + n / m * c)%V)).

(** What [final_cash_flow] computes. *)
Definition redeemed {V : Value} (pen mat : Date) (face c a : V) : Prop :=
  exists next, date_add_months pen 6 = Some next /\
  ((earlier mat next /\ exists n m, v_of_int (date_sub mat pen) = Some n
      /\ v_of_int (date_sub next pen) = Some m /\ a = (face + c * (n / m))%V)
   \/ (mat = next /\ a = (face + c)%V)
   \/ (earlier next mat /\ exists next2 n m, date_add_months next 6 = Some next2
      /\ v_of_int (date_sub mat next) = Some n /\ v_of_int (date_sub next2 next) = Some m
      /\ a = (face + (c + n / m * c))%V)).

Lemma final_shape {V : Value} pen mat (face c : V) f : final_cash_flow pen mat face 6 c = Ret (Some f) ->
  due_date f = mat /\ payment_date f = mat /\ redeemed pen mat face c (payment_amount f).
Proof.
  unfold final_cash_flow, redeemed. destruct (date_add_months pen 6) as [next |]; [| discriminate]. simpl.
  pose proof (date_compare_spec mat next) as C. destruct (date_compare mat next).
  - intros [= <-]. simpl. split; [reflexivity |]. split; [reflexivity |]. exists next. auto.
  - destruct (v_of_int (date_sub mat pen)) as [n |] eqn:En; [| discriminate]. simpl.
    destruct (v_of_int (date_sub next pen)) as [m |] eqn:Em; [| discriminate]. simpl.
    intros [= <-]. simpl. split; [reflexivity |]. split; [reflexivity |]. exists next. split; [reflexivity |].
    left. split; [exact C |]. exists n, m. auto.
  - destruct (date_add_months next 6) as [next2 |] eqn:E2; [| discriminate]. simpl.
    destruct (v_of_int (date_sub mat next)) as [n |] eqn:En; [| discriminate]. simpl.
    destruct (v_of_int (date_sub next2 next)) as [m |] eqn:Em; [| discriminate]. simpl.
    intros [= <-]. simpl. split; [reflexivity |]. split; [reflexivity |]. exists next. split; [reflexivity |].
    right. right. split; [exact C |]. exists next2, n, m. auto.
Qed.

Lemma first_shape {V : Value} issue first (c : V) fl fl' : (forall f, nth_error fl 0 = Some f -> payment_amount f = c) ->
  first_cash_flow issue first 6 c fl = Ret (Some fl') ->
  (fl = [] /\ fl' = [])
  \/ exists f a tl, fl = f :: tl /\ fl' = mkFlow (due_date f) (payment_date f) a :: tl /\ adjusted issue first c a.
Proof.
  intros Hc. unfold first_cash_flow, adjusted. destruct (date_sub_months first 6) as [prior |]; [| discriminate]. simpl.
  pose proof (date_compare_spec prior issue) as C. destruct (date_compare prior issue).
  - intros [= <-]. destruct fl as [| f tl]; [left; auto |]. right. exists f, c, tl. split; [reflexivity |].
    specialize (Hc f eq_refl). split; [destruct f; simpl in Hc; now rewrite Hc |]. exists prior. auto.
  - destruct (v_of_int (date_sub first issue)) as [n |] eqn:En; [| discriminate]. simpl.
    destruct (v_of_int (date_sub first prior)) as [m |] eqn:Em; [| discriminate]. simpl.
    destruct fl as [| f tl]; [discriminate |]. simpl. rewrite (Hc f eq_refl). intros [= <-]. right.
    exists f, (c * (n / m))%V, tl. split; [reflexivity |]. split; [reflexivity |]. exists prior. split; [reflexivity |].
    left. split; [exact C |]. exists n, m. auto.
  - destruct (date_sub_months prior 6) as [prior2 |] eqn:E2; [| discriminate]. simpl.
    destruct (v_of_int (date_sub prior issue)) as [n |] eqn:En; [| discriminate]. simpl.
    destruct (v_of_int (date_sub prior prior2)) as [m |] eqn:Em; [| discriminate]. simpl.
    destruct fl as [| f tl]; [discriminate |]. simpl. rewrite (Hc f eq_refl). intros [= <-]. right.
    exists f, (c + n / m * c)%V, tl. split; [reflexivity |]. split; [reflexivity |]. exists prior. split; [reflexivity |].
    right. right. split; [exact C |]. exists prior2, n, m. auto.
Qed.

Lemma flow_amounts {V : Type} (c : V) ds fl : Forall2 (flow_at c) ds fl ->
  forall f, nth_error fl 0 = Some f -> payment_amount f = c.
Proof. intros F f H. destruct F as [| d f' ds' fl' (_ & _ & E)]; [discriminate |]. simpl in H. now injection H as <-. Qed.

(** Everything a successful construction says. *)
Lemma bond_shape {V : Value} id issue first pen mat fr (rate face : V) b : a_date first ->
  bond_new id issue first pen mat fr rate face = Ret (Some b) ->
  exists two ds fl fl' f, v_of_int 2 = Some two /\ let c := (rate * face / two)%V in
  bond_id b = id /\ bond_cash_flows b = fl' ++ [f]
  /\ schedule pen first ds /\ Forall2 (flow_at c) ds fl
  /\ ((ds = [] /\ fl' = [])
      \/ exists f0 a tl, fl = f0 :: tl /\ fl' = mkFlow (due_date f0) (payment_date f0) a :: tl /\ adjusted issue first c a)
  /\ due_date f = mat /\ payment_date f = mat /\ redeemed pen mat face c (payment_amount f).
Proof.
  intros Hf. unfold bond_new. destruct fr. change (12 / frequency_num SA) with 6. change (frequency_num SA) with 2. cbv zeta.
  destruct (v_of_int 2) as [two |]; [| discriminate]. cbn [try_opt].
  destruct (schedule_loop pen (rate * face / two)%V first Hf) as [(E & _) | (ds & fl & E & S & F)]; rewrite E; [discriminate |].
  cbn [bind try_opt]. 
  destruct (first_cash_flow issue first 6 (rate * face / two)%V fl) as [[fl' |] | |] eqn:E1; try discriminate. cbn [bind try_opt].
  destruct (final_cash_flow pen mat face 6 (rate * face / two)%V) as [[f |] | |] eqn:E2; try discriminate. cbn [bind try_opt].
  intros [= <-]. exists two, ds, fl, fl', f. split; [reflexivity |]. cbv zeta.
  split; [reflexivity |]. split; [reflexivity |]. split; [exact S |]. split; [exact F |].
  split; [| now apply final_shape].
  destruct (first_shape issue first _ fl fl' (flow_amounts _ _ _ F) E1) as [(-> & ->) | K]; [left | right; exact K].
  inversion F. auto.
Qed.

Lemma flow_dues {V : Type} (c : V) ds fl : Forall2 (flow_at c) ds fl -> map due_date fl = ds.
Proof. induction 1 as [| d f ds fl (E & _) _ IH]; [reflexivity |]. simpl. now rewrite E, IH. Qed.

(** ** C45 *)

(** Due dates: the schedule, then maturity. *)
Theorem C45_due_dates : forall (V : Value) id issue first pen mat fr (rate face : V) b, a_date first ->
  bond_new id issue first pen mat fr rate face = Ret (Some b) ->
  bond_id b = id
  /\ exists ds, schedule pen first ds /\ map due_date (bond_cash_flows b) = ds ++ [mat].
Proof.
  intros V id issue first pen mat fr rate face b Hf H.
  destruct (bond_shape _ _ _ _ _ _ _ _ _ Hf H) as (two & ds & fl & fl' & f & _ & I & E & S & F & A & D & _).
  split; [exact I |]. exists ds. split; [exact S |]. rewrite E, map_app. simpl. rewrite D. f_equal.
  apply flow_dues in F. destruct A as [(-> & ->) | (f0 & a & tl & -> & -> & _)]; [reflexivity |]. rewrite <- F. reflexivity.
Qed.
Print Assumptions C45_due_dates.

Lemma moved_earlier d k r : proper d -> 0 < k -> months_moved d k r -> earlier d r.
Proof.
  intros [P _] K (M1 & M2 & _). unfold earlier, year, month in *. lia.
Qed.

(** A schedule is determined by its start and end; its dates strictly increase, none is after the penultimate
    date; the k-th one is in the month 6k months after the first, on the same day when that is at most the 28th. *)
Theorem C45_schedule : forall p d ds ds', schedule p d ds -> schedule p d ds' -> a_date d ->
  ds' = ds
  /\ (ds = [] <-> earlier p d)
  /\ (forall i j a b, (i < j)%nat -> nth_error ds i = Some a -> nth_error ds j = Some b -> earlier a b)
  /\ (forall k a, nth_error ds k = Some a -> a_date a /\ ~ earlier p a
        /\ 12 * year a + month a = 12 * year d + month d + 6 * Z.of_nat k
        /\ day a <= day d /\ (day d <= 28 -> day a = day d)
        /\ (S k = List.length ds -> forall a', months_moved a 6 a' -> earlier p a')).
Proof.
  intros p d ds ds' S. revert ds'. induction S as [d E | d d' ds N Hd' M S IH]; intros ds' S' Hd.
  - split; [inversion S'; [reflexivity | contradiction] |]. split; [tauto |]. split; intros i.
    + intros j a b _ H. destruct i; discriminate.
    + intros a H. destruct i; discriminate.
  - assert (ds' = d :: ds) as ->.
    { inversion S' as [? E | ? d2 ds2 _ _ M2 S2]; [contradiction |]. subst. f_equal.
      assert (d2 = d') as ->.
      { destruct d2, d'. destruct M as (A1 & A2 & L & A3 & A4), M2 as (B1 & B2 & L2 & B3 & B4).
        unfold year, month, day in *. simpl in *.
        assert (nd_year = nd_year0) as -> by lia. assert (nd_month = nd_month0) as -> by lia.
        apply month_len_spec in A3; [| exact A1]. apply month_len_spec in B3; [| exact A1]. congruence. }
      now apply IH. }
    assert (proper d) as Pd by (apply valid_proper; now apply valid_a_date).
    destruct (IH ds S Hd') as (_ & _ & Inc & K).
    pose proof (moved_earlier d 6 d' Pd ltac:(lia) M) as Ed.
    split; [reflexivity |]. split; [split; [discriminate | contradiction] |]. split.
    + intros i j a b Hij Ha Hb. destruct j as [| j]; [lia |]. simpl in Hb. destruct i as [| i].
      * simpl in Ha. injection Ha as <-. destruct j as [| j].
        -- destruct ds as [| x ds]; [discriminate |]. simpl in Hb. injection Hb as <-. inversion S; subst. exact Ed.
        -- destruct (K _ _ Hb) as (Ab & _ & Mb & _). destruct M as (M1 & M2 & _).
           pose proof (a_date_range d Hd). pose proof (a_date_range b Ab). unfold earlier, year, month in *. lia.
      * apply (Inc i j); auto; lia.
    + intros k a Ha. destruct k as [| k].
      * simpl in Ha. injection Ha as <-. split; [exact Hd |]. split; [exact N |]. split; [lia |]. split; [lia |].
        split; [auto |]. intros L a' Ma'. simpl in L. destruct ds as [| ? ?]; [| simpl in L; lia].
        inversion S as [? E |]; subst. 
        assert (a' = d') as ->; [| exact E].
        destruct a', d'. destruct M as (A1 & A2 & L1 & A3 & A4), Ma' as (B1 & B2 & L2 & B3 & B4).
        unfold year, month, day in *. simpl in *.
        assert (nd_year = nd_year0) as -> by lia. assert (nd_month = nd_month0) as -> by lia.
        apply month_len_spec in A3; [| exact A1]. apply month_len_spec in B3; [| exact A1]. congruence.
      * simpl in Ha. destruct (K k a Ha) as (K1 & K2 & K3 & K4 & K5 & K6). split; [exact K1 |]. split; [exact K2 |].
        destruct M as (M1 & M2 & L & ML & MD). split; [lia |]. 
        assert (28 <= L) by (inversion ML; lia).
        split; [lia |]. split; [intros; rewrite K5; lia |]. intros E. simpl in E. apply K6. lia.
Qed.
Print Assumptions C45_schedule.

(** Construction terminates on all dates, for any Value. *)
Theorem C45_terminates : forall (V : Value) id issue first pen mat fr (rate face : V), a_date first ->
  bond_new id issue first pen mat fr rate face <> OutOfFuel.
Proof.
  intros V id issue first pen mat fr rate face Hf. unfold bond_new. destruct fr. change (12 / frequency_num SA) with 6. change (frequency_num SA) with 2. cbv zeta.
  destruct (v_of_int 2) as [two |]; [| discriminate]. cbn [try_opt].
  destruct (schedule_loop pen (rate * face / two)%V first Hf) as [(E & _) | (ds & fl & E & S & F)]; rewrite E; [discriminate |].
  cbn [bind try_opt]. unfold first_cash_flow, final_cash_flow.
  repeat match goal with
  | |- context [date_sub_months ?a ?b] => destruct (date_sub_months a b); cbn [try_opt bind]; try discriminate
  | |- context [date_add_months ?a ?b] => destruct (date_add_months a b); cbn [try_opt bind]; try discriminate
  | |- context [date_compare ?a ?b] => destruct (date_compare a b); cbn [try_opt bind]; try discriminate
  | |- context [v_of_int ?a] => destruct (v_of_int a); cbn [try_opt bind]; try discriminate
  | |- context [index ?l 0] => destruct l; cbn [index nth_error bind update try_opt]; try discriminate
  end.
Qed.
Print Assumptions C45_terminates.

(** Construction succeeds for every ordered pair of first and penultimate dates two years inside the
    representable range. *)
Theorem C45_succeeds : forall id issue first pen mat fr (rate face : R), a_date first -> a_date pen ->
  ~ earlier pen first -> -262141 <= year first -> year pen <= 262140 ->
  exists b, bond_new (V := RV) id issue first pen mat fr rate face = Ret (Some b).
Proof.
  intros id issue first pen mat fr rate face Hf Hp O Y1 Y2.
  unfold bond_new. destruct fr. change (12 / frequency_num SA) with 6. change (frequency_num SA) with 2. cbv zeta.
  change (v_of_int (v := RV) 2) with (Some 2%R). cbn [try_opt].
  destruct (schedule_loop (V := RV) pen (rate * face / 2)%R first Hf) as [(_ & L) | (ds & fl & E & S & F)]; [lia |].
  simpl in E |- *. rewrite E. cbn [bind try_opt].
  inversion S as [? C | ? ? ? _ _ _ _]; subst; [contradiction |].
  inversion F as [| ? f0 ? fl0 _ _]; subst. clear F E S.
  unfold first_cash_flow.
  destruct (date_sub_months first 6) as [prior |] eqn:Ep.
  2:{ apply C07_sub_months_none in Ep; [| exact Hf | lia]. pose proof (a_date_range first Hf). lia. }
  apply C07_sub_months in Ep; [| exact Hf | lia]. destruct Ep as [Rp Mp].
  assert (a_date prior) as Ap by now apply (moved_a_date first (- 6)).
  assert (exists prior2, date_sub_months prior 6 = Some prior2) as (prior2 & Ep2).
  { destruct (date_sub_months prior 6) eqn:Q; [eauto |]. apply C07_sub_months_none in Q; [| exact Ap | lia].
    pose proof (a_date_range first Hf). destruct Mp. lia. }
  unfold final_cash_flow.
  destruct (date_add_months pen 6) as [next |] eqn:En.
  2:{ apply C06_add_months_none in En; [| exact Hp | lia]. pose proof (a_date_range pen Hp). lia. }
  apply C06_add_months in En; [| exact Hp | lia]. destruct En as [Rn Mn].
  assert (a_date next) as An by now apply (moved_a_date pen 6).
  assert (exists next2, date_add_months next 6 = Some next2) as (next2 & En2).
  { destruct (date_add_months next 6) eqn:Q; [eauto |]. apply C06_add_months_none in Q; [| exact An | lia].
    pose proof (a_date_range pen Hp). destruct Mn. lia. }
  cbn [try_opt]. rewrite Ep2, En2.
  destruct (date_compare prior issue), (date_compare mat next); simpl; eauto.
Qed.
Print Assumptions C45_succeeds.

(** ** C46, C47 *)

Definition flow_number {V : Type} (b : Bond V) (k : nat) (f : BondCashFlow V) : Prop := nth_error (bond_cash_flows b) k = Some f.

(** Every coupon between the first and the final flow is half the yearly rate on the face. *)
Theorem C46_regular : forall id issue first pen mat fr (rate face : R) b k f, a_date first ->
  bond_new (V := RV) id issue first pen mat fr rate face = Ret (Some b) ->
  flow_number b k f -> (0 < k)%nat -> (S k < List.length (bond_cash_flows b))%nat ->
  payment_amount f = (rate * face / 2)%R.
Proof.
  intros id issue first pen mat fr rate face b k f Hf H Hk K0 K1.
  destruct (bond_shape _ _ _ _ _ _ _ _ _ Hf H) as (two & ds & fl & fl' & fin & T & _ & E & S & F & A & _).
  injection T as <-. change (carrier RV) with R in *. unfold flow_number in Hk. rewrite E in Hk, K1. rewrite app_length in K1. simpl in K1.
  rewrite nth_error_app1 in Hk by lia.
  destruct A as [(-> & ->) | (f0 & a & tl & -> & -> & _)]; [simpl in K1; lia |].
  destruct k as [| k]; [lia |]. simpl in Hk.
  inversion F as [| d ? ds' ? F0 F1]; subst. clear - Hk F1. revert k Hk.
  induction F1 as [| d g ds gl (_ & _ & G) _ IH]; intros k Hk; [destruct k; discriminate |].
  destruct k as [| k]; simpl in Hk; [injection Hk as <-; exact G | eauto].
Qed.
Print Assumptions C46_regular.

Ltac clash := exfalso; subst; unfold earlier in *; lia.

Lemma sub_later a b n : a_date a -> days_later n a b -> date_sub b a = Z.of_nat n /\ date_sub a b = - Z.of_nat n.
Proof. intros. now apply C03_sub_counts_days. Qed.

Lemma later_pos n a b : a_date a -> a_date b -> days_later n a b -> earlier a b -> (0 < n)%nat.
Proof.
  intros Ha Hb H E. destruct n as [| n]; [| lia]. exfalso. inversion H; subst. now apply not_earlier_refl in E.
Qed.

Lemma moved_back d k r : proper d -> 0 < k -> months_moved d (- k) r -> earlier r d.
Proof. intros [P _] K (M1 & M2 & _). unfold earlier, year, month in *. lia. Qed.

Lemma same_moved d k a b : months_moved d k a -> months_moved d k b -> a = b.
Proof.
  destruct a, b. intros (A1 & A2 & L & A3 & A4) (B1 & B2 & L2 & B3 & B4). unfold year, month, day in *. simpl in *.
  assert (nd_year = nd_year0) as -> by lia. assert (nd_month = nd_month0) as -> by lia.
  apply month_len_spec in A3; [| exact A1]. apply month_len_spec in B3; [| exact A1]. congruence.
Qed.

(** The final flow pays the face and the final coupon at maturity.  [next] is six months after the penultimate
    date.  A final period that ends before [next] earns the fraction of days elapsed; one that ends later earns
    a full coupon and the fraction of the following six months. *)
Theorem C46_final : forall id issue first pen mat fr (rate face : R) b k f next, a_date first -> a_date pen -> a_date mat ->
  bond_new (V := RV) id issue first pen mat fr rate face = Ret (Some b) ->
  flow_number b k f -> List.length (bond_cash_flows b) = S k ->
  months_moved pen 6 next ->
  due_date f = mat /\ payment_date f = mat
  /\ (forall n m, earlier mat next -> days_later m pen next ->
        (0 < m)%nat
        /\ (days_later n pen mat -> payment_amount f = (face + rate * face / 2 * (INR n / INR m))%R)
        /\ (days_later n mat pen -> payment_amount f = (face - rate * face / 2 * (INR n / INR m))%R))
  /\ (mat = next -> payment_amount f = (face + rate * face / 2)%R)
  /\ (forall n m next2, earlier next mat -> months_moved next 6 next2 -> days_later n next mat -> days_later m next next2 ->
        (0 < m)%nat /\ payment_amount f = (face + rate * face / 2 * (1 + INR n / INR m))%R).
Proof.
  intros id issue first pen mat fr rate face b k f next Hf Hp Hm H Hk Hl Mn.
  destruct (bond_shape _ _ _ _ _ _ _ _ _ Hf H) as (two & ds & fl & fl' & fin & T & _ & E & S & F & _ & D1 & D2 & Q).
  injection T as <-. change (carrier RV) with R in *. unfold flow_number in Hk. rewrite E in Hk, Hl. rewrite app_length in Hl. simpl in Hl. assert (k = List.length fl') as -> by lia.
  rewrite nth_error_app2, Nat.sub_diag in Hk by lia. injection Hk as <-. split; [exact D1 |]. split; [exact D2 |].
  destruct Q as (next' & En & Q). apply C06_add_months in En; [| exact Hp | lia]. destruct En as [Rn Mn'].
  assert (next' = next) as -> by now apply (same_moved pen 6).
  assert (a_date next) as An by now apply (moved_a_date pen 6).
  assert (earlier pen next) as Ep by (apply (moved_earlier pen 6); auto; [apply valid_proper; now apply valid_a_date | lia]).
  split; [| split].
  - intros n m L Dm. split; [now apply (later_pos m pen next) |].
    destruct Q as [(_ & n' & m' & N & M & ->) | [(-> & _) | (C & _)]]; [| clash | clash].
    simpl in N, M. injection N as <-. injection M as <-.
    destruct (sub_later pen next m Hp Dm) as (-> & _). rewrite <- INR_IZR_INZ. split; intros Dn.
    + destruct (sub_later pen mat n Hp Dn) as (-> & _). rewrite <- INR_IZR_INZ. reflexivity.
    + destruct (sub_later mat pen n Hm Dn) as (_ & ->). rewrite opp_IZR, <- INR_IZR_INZ. simpl.
      unfold Rdiv. change (@eq (carrier RV)) with (@eq R). ring.
  - intros ->. destruct Q as [(C & _) | [(_ & ->) | (C & _)]]; [clash | reflexivity | clash].
  - intros n m next2 L Mn2 Dn Dm.
    destruct Q as [(C & _) | [(C & _) | (_ & next2' & n' & m' & E2 & N & M & ->)]];
      [clash | clash |].
    apply C06_add_months in E2; [| exact An | lia]. destruct E2 as [R2 M2].
    assert (next2' = next2) as -> by now apply (same_moved next 6).
    assert (a_date next2) as A2 by now apply (moved_a_date next 6).
    split.
    + apply (later_pos m next next2); auto. apply (moved_earlier next 6); auto; [apply valid_proper; now apply valid_a_date | lia].
    + simpl in N, M. injection N as <-. injection M as <-.
      destruct (sub_later next mat n An Dn) as (-> & _). destruct (sub_later next next2 m An Dm) as (-> & _).
      rewrite <- !INR_IZR_INZ. simpl. change (@eq (carrier RV)) with (@eq R). ring.
Qed.
Print Assumptions C46_final.

(** The first coupon.  [prior] is six months before the first coupon date. *)
Theorem C47_first_coupon : forall id issue first pen mat fr (rate face : R) b f prior,
  a_date issue -> a_date first -> ~ earlier pen first ->
  bond_new (V := RV) id issue first pen mat fr rate face = Ret (Some b) ->
  flow_number b 0 f -> months_moved first (-6) prior ->
  due_date f = first
  /\ (forall n m, earlier prior issue -> days_later m prior first ->
        (0 < m)%nat
        /\ (days_later n issue first -> payment_amount f = (rate * face / 2 * (INR n / INR m))%R)
        /\ (days_later n first issue -> payment_amount f = (- (rate * face / 2 * (INR n / INR m)))%R))
  /\ (issue = prior -> payment_amount f = (rate * face / 2)%R)
  /\ (forall n m prior2, earlier issue prior -> months_moved prior (-6) prior2 ->
        days_later n issue prior -> days_later m prior2 prior ->
        (0 < m)%nat /\ payment_amount f = (rate * face / 2 * (1 + INR n / INR m))%R).
Proof.
  intros id issue first pen mat fr rate face b f prior Hi Hf O H Hk Mp.
  destruct (bond_shape _ _ _ _ _ _ _ _ _ Hf H) as (two & ds & fl & fl' & fin & T & _ & E & S & F & A & _).
  injection T as <-. change (carrier RV) with R in *. unfold flow_number in Hk. rewrite E in Hk.
  destruct A as [(-> & ->) | (f0 & a & tl & -> & -> & Q)]; [inversion S; contradiction |].
  simpl in Hk. injection Hk as <-. simpl.
  inversion F as [| d ? ds' ? (F0 & _) _]; subst. inversion S; subst. split; [reflexivity |].
  destruct Q as (prior' & En & Q). apply C07_sub_months in En; [| exact Hf | lia]. destruct En as [Rn Mp'].
  assert (prior' = prior) as -> by now apply (same_moved (due_date f0) (- 6)).
  assert (a_date prior) as Ap by now apply (moved_a_date (due_date f0) (- 6)).
  assert (earlier prior (due_date f0)) as Ep by (apply (moved_back (due_date f0) 6); auto; [apply valid_proper; now apply valid_a_date | lia]).
  split; [| split].
  - intros n m L Dm. split; [now apply (later_pos m prior (due_date f0)) |].
    destruct Q as [(_ & n' & m' & N & M & ->) | [(-> & _) | (C & _)]]; [| clash | clash].
    simpl in N, M. injection N as <-. injection M as <-.
    destruct (sub_later prior (due_date f0) m Ap Dm) as (-> & _). rewrite <- INR_IZR_INZ. split; intros Dn.
    + destruct (sub_later issue (due_date f0) n Hi Dn) as (-> & _). rewrite <- INR_IZR_INZ. reflexivity.
    + destruct (sub_later (due_date f0) issue n Hf Dn) as (_ & ->). rewrite opp_IZR, <- INR_IZR_INZ. simpl.
      unfold Rdiv. change (@eq (carrier RV)) with (@eq R). ring.
  - intros ->. destruct Q as [(C & _) | [(_ & ->) | (C & _)]]; [clash | reflexivity | clash].
  - intros n m prior2 L Mn2 Dn Dm.
    destruct Q as [(C & _) | [(C & _) | (_ & prior2' & n' & m' & E2 & N & M & ->)]];
      [clash | clash |].
    apply C07_sub_months in E2; [| exact Ap | lia]. destruct E2 as [R2 M2].
    assert (prior2' = prior2) as -> by now apply (same_moved prior (- 6)).
    assert (a_date prior2) as A2 by now apply (moved_a_date prior (- 6)).
    split.
    + apply (later_pos m prior2 prior); auto. apply (moved_back prior 6); auto; [apply valid_proper; now apply valid_a_date | lia].
    + simpl in N, M. injection N as <-. injection M as <-.
      destruct (sub_later issue prior n Hi Dn) as (-> & _). destruct (sub_later prior2 prior m A2 Dm) as (-> & _).
      rewrite <- !INR_IZR_INZ. simpl. change (@eq (carrier RV)) with (@eq R). ring.
Qed.
Print Assumptions C47_first_coupon.

(** With a positive rate and face the first coupon is negative exactly when the bond is issued after it. *)
Theorem C47_sign : forall id issue first pen mat fr (rate face : R) b f,
  a_date issue -> a_date first -> ~ earlier pen first ->
  bond_new (V := RV) id issue first pen mat fr rate face = Ret (Some b) ->
  flow_number b 0 f -> (0 < rate)%R -> (0 < face)%R ->
  ((0 <= payment_amount f)%R <-> ~ earlier first issue).
Proof.
  intros id issue first pen mat fr rate face b f Hi Hf O H Hk P1 P2.
  assert (0 < rate * face / 2)%R as Pc by (apply Rmult_lt_0_compat; [now apply Rmult_lt_0_compat | lra]).
  destruct (bond_shape _ _ _ _ _ _ _ _ _ Hf H) as (two & ds & fl & fl' & fin & T & _ & E & S & F & A & _).
  destruct A as [(-> & ->) | (f0 & a & tl & -> & -> & prior & Q & Q1)]; [inversion S; contradiction |].
  apply C07_sub_months in Q; [| exact Hf | lia]. destruct Q as [Rp Mp].
  assert (a_date prior) as Ap by now apply (moved_a_date first (- 6)).
  assert (earlier prior first) as Ep by (apply (moved_back first 6); auto; [apply valid_proper; now apply valid_a_date | lia]).
  destruct (C47_first_coupon _ _ _ _ _ _ _ _ _ _ prior Hi Hf O H Hk Mp) as (_ & Sh & Rg & Lg).
  set (c := (rate * face / 2)%R) in *.
  destruct (C03_sub_complete prior first Ap Hf) as (Dm & _).
  pose proof (C03_sub_laws prior first first Ap Hf Hf) as (_ & _ & _ & _ & Pm).
  assert (0 < date_sub first prior) as Pm' by now apply Pm. specialize (Dm ltac:(lia)).
  assert (forall n k, (0 < k)%nat -> (0 <= INR n / INR k)%R) as Pos.
  { intros n k Hk0. apply Rmult_le_pos; [apply pos_INR | left; apply Rinv_0_lt_compat; now apply lt_0_INR]. }
  pose proof (date_compare_spec prior issue) as C. destruct (date_compare prior issue).
  - rewrite (Rg (eq_sym C)). subst prior. split; [intros _ | lra]. intros L. unfold earlier in *. lia.
  - destruct (C03_sub_complete issue first Hi Hf) as (D1 & D2).
    pose proof (C03_sub_laws first issue issue Hf Hi Hi) as (_ & Neg & _ & _ & Lt).
    rewrite <- Lt. destruct (Z.le_gt_cases (date_sub issue first) 0) as [L | L].
    + destruct (Sh (Z.to_nat (date_sub first issue)) _ C Dm) as (K0 & K1 & _). rewrite (K1 (D1 ltac:(lia))). split; [lia |]. intros _.
      apply Rmult_le_pos; [lra | now apply Pos].
    + destruct (Sh (Z.to_nat (date_sub issue first)) _ C Dm) as (K0 & _ & K2). rewrite (K2 (D2 ltac:(lia))).
      split; [| lia]. intros G. exfalso.
      assert (0 < INR (Z.to_nat (date_sub issue first)) / INR (Z.to_nat (date_sub first prior)))%R as P.
      { apply Rmult_lt_0_compat; [apply lt_0_INR; lia | apply Rinv_0_lt_compat; now apply lt_0_INR]. }
      apply (Rmult_lt_0_compat _ _ Pc) in P. lra.
  - destruct Q1 as [(C' & _) | [(C' & _) | (_ & prior2 & n' & m' & E2 & _)]];
      [unfold earlier in *; lia | subst prior; now apply not_earlier_refl in C |].
    apply C07_sub_months in E2; [| exact Ap | lia]. destruct E2 as [R2 M2].
    assert (a_date prior2) as A2 by now apply (moved_a_date prior (- 6)).
    assert (earlier prior2 prior) as Ep2 by (apply (moved_back prior 6); auto; [apply valid_proper; now apply valid_a_date | lia]).
    destruct (C03_sub_complete issue prior Hi Ap) as (D1 & _).
    pose proof (C03_sub_laws issue prior prior Hi Ap Ap) as (_ & _ & _ & _ & L1).
    apply L1 in C as L1'. specialize (D1 ltac:(lia)).
    destruct (C03_sub_complete prior2 prior A2 Ap) as (D2 & _).
    pose proof (C03_sub_laws prior2 prior prior A2 Ap Ap) as (_ & _ & _ & _ & L2).
    apply L2 in Ep2 as L2'. specialize (D2 ltac:(lia)).
    destruct (Lg _ _ prior2 C M2 D1 D2) as (K0 & ->).
    split; [intros _; unfold earlier in *; lia |]. intros _. pose proof (Pos (Z.to_nat (date_sub prior issue)) _ K0).
    apply Rmult_le_pos; lra.
Qed.
Print Assumptions C47_sign.

(** ** C48 *)

Lemma loop_stops {A B} (body : A -> A + B) s r : body s = inr r -> forall p, loop p body s = inr r.
Proof. intros H. induction p as [q IH | q IH |]; simpl; [now rewrite H | now rewrite IH | exact H]. Qed.

Lemma empty_loop {V : Value} pen (c : V) (first : Date) : earlier pen first ->
  while roll_fuel (schedule_step pen 6 c) (first, []) = Ret (Some []).
Proof.
  intros E. unfold while. rewrite (loop_stops _ _ (Ret (Some []))); [reflexivity |]. simpl.
  destruct (date_leb first pen) eqn:L; [apply date_leb_not_earlier in L; contradiction | reflexivity].
Qed.

(** Exactly when construction panics: the first coupon date is after the penultimate one, so no coupon exists,
    and the first period is not a regular one, so the missing first coupon is adjusted. *)
Theorem C48_panics_iff : forall id issue first pen mat fr (rate face : R), a_date first ->
  (bond_new (V := RV) id issue first pen mat fr rate face = Panic
   <-> earlier pen first /\ exists prior, representable (year prior) /\ months_moved first (-6) prior
       /\ (earlier prior issue
           \/ (earlier issue prior /\ exists prior2, representable (year prior2) /\ months_moved prior (-6) prior2))).
Proof.
  intros id issue first pen mat fr rate face Hf.
  unfold bond_new. destruct fr. change (12 / frequency_num SA) with 6. change (frequency_num SA) with 2. cbv zeta.
  change (v_of_int (v := RV) 2) with (Some 2%R). cbn [try_opt].
  set (c := v_div (v := RV) (v_mul (v := RV) rate face) 2%R).
  assert (forall fl, (r <- final_cash_flow (V := RV) pen mat face 6 c ;;
                      try_opt r (fun last => Ret (Some (mkBond id (fl ++ [last]))))) <> Panic) as NP.
  { intros fl. unfold final_cash_flow. destruct (date_add_months pen 6) as [next |]; cbn [try_opt bind]; [| discriminate].
    destruct (date_compare mat next); cbn; try discriminate. destruct (date_add_months next 6); cbn; discriminate. }
  destruct (date_ltb pen first) eqn:L.
  - apply date_ltb_earlier in L. rewrite empty_loop by exact L. cbn [bind try_opt]. unfold first_cash_flow.
    destruct (date_sub_months first 6) as [prior |] eqn:Ep; cbn [bind try_opt].
    + apply C07_sub_months in Ep; [| exact Hf | lia]. destruct Ep as [Rp Mp].
      assert (a_date prior) as Ap by now apply (moved_a_date first (- 6)).
      pose proof (date_compare_spec prior issue) as C. destruct (date_compare prior issue); cbn [bind try_opt].
      * split; [intros P; now apply NP in P |]. intros (_ & prior' & _ & Mp' & Q).
        assert (prior' = prior) as -> by now apply (same_moved first (- 6)). destruct Q as [Q | (Q & _)]; clash.
      * split; [| reflexivity]. intros _. split; [exact L |]. exists prior. auto.
      * destruct (date_sub_months prior 6) as [prior2 |] eqn:E2; cbn.
        -- split; [| reflexivity]. intros _. apply C07_sub_months in E2; [| exact Ap | lia].
           split; [exact L |]. exists prior. split; [exact Rp |]. split; [exact Mp |]. right. split; [exact C |]. exists prior2. exact E2.
        -- split; [discriminate |]. intros (_ & prior' & _ & Mp' & Q).
           assert (prior' = prior) as -> by now apply (same_moved first (- 6)). destruct Q as [Q | (_ & prior2 & Q)]; [clash |].
           apply (C07_sub_months prior 6) in Q; [congruence | exact Ap | lia].
    + split; [discriminate |]. intros (_ & prior & Rp & Mp & _).
      assert (date_sub_months first 6 = Some prior) by (apply C07_sub_months; auto; lia). congruence.
  - split; [| intros (C & _); apply date_ltb_earlier in C; congruence]. intros P. exfalso.
    assert (~ earlier pen first) as O by (rewrite <- date_ltb_earlier; congruence).
    destruct (schedule_loop (V := RV) pen c first Hf) as [(E & _) | (ds & fl & E & S & F)]; rewrite E in P; cbn [bind try_opt] in P;
      [discriminate |].
    assert (exists f0 tl, fl = f0 :: tl) as (f0 & tl & ->).
    { inversion S; subst; [contradiction |]. inversion F; subst; eauto. }
    unfold first_cash_flow in P.
    destruct (date_sub_months first 6) as [prior |]; cbn [bind try_opt] in P; [| discriminate].
    destruct (date_compare prior issue); cbn [bind try_opt] in P.
    + now apply NP in P.
    + exact (NP (_ :: tl) P).
    + destruct (date_sub_months prior 6) as [prior2 |]; cbn [bind try_opt] in P; [| discriminate]. exact (NP (_ :: tl) P).
Qed.
Print Assumptions C48_panics_iff.

(** No panic, for any Value, when the first coupon date is not after the penultimate one. *)
Theorem C48_ordered_partial : forall (V : Value) id issue first pen mat fr (rate face : V), a_date first ->
  ~ earlier pen first -> exists r, bond_new id issue first pen mat fr rate face = Ret r.
Proof.
  intros V id issue first pen mat fr rate face Hf O.
  unfold bond_new. destruct fr. change (12 / frequency_num SA) with 6. change (frequency_num SA) with 2. cbv zeta.
  destruct (v_of_int 2) as [two |]; cbn [try_opt]; [| eauto].
  destruct (schedule_loop pen (rate * face / two)%V first Hf) as [(E & _) | (ds & fl & E & S & F)]; rewrite E; cbn [bind try_opt]; [eauto |].
  assert (exists f0 tl, fl = f0 :: tl) as (f0 & tl & ->).
  { inversion S; subst; [contradiction |]. inversion F; subst; eauto. }
  assert (exists r, final_cash_flow pen mat face 6 (rate * face / two)%V = Ret r) as (r & Er).
  { unfold final_cash_flow. destruct (date_add_months pen 6) as [next |]; cbn [try_opt]; [| eauto].
    destruct (date_compare mat next); [eauto | |].
    - destruct (v_of_int _); cbn [try_opt]; [| eauto]. destruct (v_of_int _); cbn [try_opt]; eauto.
    - destruct (date_add_months next 6); cbn [try_opt]; [| eauto].
      destruct (v_of_int _); cbn [try_opt]; [| eauto]. destruct (v_of_int _); cbn [try_opt]; eauto. }
  assert (exists r, first_cash_flow issue first 6 (rate * face / two)%V (f0 :: tl) = Ret r) as (r' & Er').
  { unfold first_cash_flow. destruct (date_sub_months first 6) as [prior |]; cbn [try_opt]; [| eauto].
    destruct (date_compare prior issue); [eauto | |].
    - destruct (v_of_int _); cbn [try_opt]; [| eauto]. destruct (v_of_int _); cbn [try_opt]; [| eauto]. simpl. eauto.
    - destruct (date_sub_months prior 6); cbn [try_opt]; [| eauto].
      destruct (v_of_int _); cbn [try_opt]; [| eauto]. destruct (v_of_int _); cbn [try_opt]; [| eauto]. simpl. eauto. }
  rewrite Er'. cbn [bind]. destruct r' as [fl' |]; cbn [try_opt]; [| eauto]. rewrite Er. cbn [bind].
  destruct r; cbn [try_opt]; eauto.
Qed.
Print Assumptions C48_ordered_partial.

Theorem C48_never_panics_refuted : exists issue first pen mat, a_date issue /\ a_date first /\ a_date pen /\ a_date mat
  /\ earlier issue first /\ earlier first mat
  /\ bond_new (V := RV) "" issue first pen mat SA 1%R 100%R = Panic.
Proof.
  exists (mkDate 2024 1 1), (mkDate 2024 9 1), (mkDate 2024 3 1), (mkDate 2025 3 1).
  split; [apply valid_a_date; reflexivity |]. split; [apply valid_a_date; reflexivity |].
  split; [apply valid_a_date; reflexivity |]. split; [apply valid_a_date; reflexivity |].
  split; [unfold earlier; simpl; lia |]. split; [unfold earlier; simpl; lia |].
  apply C48_panics_iff; [apply valid_a_date; reflexivity |]. split; [unfold earlier; simpl; lia |].
  exists (mkDate 2024 3 1). split; [unfold representable; simpl; lia |].
  assert (date_sub_months (mkDate 2024 9 1) 6 = Some (mkDate 2024 3 1)) as E by reflexivity.
  apply C07_sub_months in E; [| apply valid_a_date; reflexivity | lia]. destruct E as [_ E]. split; [exact E |].
  right. split; [unfold earlier; simpl; lia |].
  assert (date_sub_months (mkDate 2024 3 1) 6 = Some (mkDate 2023 9 1)) as E2 by reflexivity.
  apply C07_sub_months in E2; [| apply valid_a_date; reflexivity | lia]. eauto.
Qed.
Print Assumptions C48_never_panics_refuted.

(** ** C49 *)

(** Each coupon before the final flow is paid on the first weekday on or after its due date. *)
Theorem C49_coupons_partial : forall (V : Value) id issue first pen mat fr (rate face : V) b k f, a_date first ->
  bond_new id issue first pen mat fr rate face = Ret (Some b) ->
  flow_number b k f -> (S k < List.length (bond_cash_flows b))%nat ->
  first_weekday (due_date f) (payment_date f).
Proof.
  intros V id issue first pen mat fr rate face b k f Hf H Hk K1.
  destruct (bond_shape _ _ _ _ _ _ _ _ _ Hf H) as (two & ds & fl & fl' & fin & T & _ & E & S & F & A & _).
  unfold flow_number in Hk. rewrite E in Hk, K1. rewrite app_length in K1. simpl in K1.
  rewrite nth_error_app1 in Hk by lia.
  assert (forall ds (fl : list (BondCashFlow V)) c, Forall2 (flow_at c) ds fl -> forall k f, nth_error fl k = Some f ->
    nth_error ds k = Some (due_date f) /\ weekend_roll (due_date f) = Some (payment_date f)) as G.
  { induction 1 as [| d g ds' gl (G1 & G2 & _) _ IH]; intros j h Hj; [destruct j; discriminate |].
    destruct j as [| j]; simpl in Hj |- *; [injection Hj as <-; now rewrite G1 | eauto]. }
  assert (nth_error ds k = Some (due_date f) /\ weekend_roll (due_date f) = Some (payment_date f)) as (Gd & Gw).
  { destruct A as [(-> & ->) | (f0 & a & tl & -> & -> & _)]; [simpl in K1; lia |].
    destruct k as [| k].
    - simpl in Hk. injection Hk as <-. simpl. exact (G _ _ _ F 0%nat f0 eq_refl).
    - exact (G _ _ _ F (Datatypes.S k) f Hk). }
  apply C12_weekend_roll; [| exact Gw]. now apply (C45_schedule pen first ds ds S S Hf) in Gd.
Qed.
Print Assumptions C49_coupons_partial.

Theorem C49_final_flow : forall (V : Value) id issue first pen mat fr (rate face : V) b k f, a_date first ->
  bond_new id issue first pen mat fr rate face = Ret (Some b) ->
  flow_number b k f -> List.length (bond_cash_flows b) = S k ->
  payment_date f = mat /\ (first_weekday (due_date f) (payment_date f) <-> a_date mat /\ ~ weekend mat).
Proof.
  intros V id issue first pen mat fr rate face b k f Hf H Hk K1.
  destruct (bond_shape _ _ _ _ _ _ _ _ _ Hf H) as (two & ds & fl & fl' & fin & T & _ & E & S & F & _ & D1 & D2 & _).
  unfold flow_number in Hk. rewrite E in Hk, K1. rewrite app_length in K1. simpl in K1.
  assert (k = List.length fl') as -> by lia. rewrite nth_error_app2, Nat.sub_diag in Hk by lia. injection Hk as <-.
  split; [exact D2 |]. rewrite D1, D2. unfold first_weekday. split; [tauto |]. intros (Am & W).
  split; [exact Am |]. split; [exact W |]. split; [apply not_earlier_refl |]. intros x _ N C. contradiction.
Qed.
Print Assumptions C49_final_flow.

(** The bond used in the examples, from crates/qlab/tests/calculate_bond.rs. *)
Definition ex_bond := bond_new (V := RV) "Test" (mkDate 2023 5 8) (mkDate 2023 11 7) (mkDate 2042 5 7) (mkDate 2042 11 7)
  SA (62/1000)%R 1000%R.

Example C45_case : exists b, ex_bond = Ret (Some b)
  /\ map due_date (firstn 2 (bond_cash_flows b)) = [mkDate 2023 11 7; mkDate 2024 5 7]
  /\ List.length (bond_cash_flows b) = 39%nat.
Proof. eexists. split; [vm_compute; reflexivity |]. split; vm_compute; reflexivity. Qed.

(** The example's first period is short by one day, and its final period is regular. *)
Example C47_case : exists b f, ex_bond = Ret (Some b) /\ flow_number b 0 f
  /\ months_moved (mkDate 2023 11 7) (-6) (mkDate 2023 5 7)
  /\ days_later 183 (mkDate 2023 5 8) (mkDate 2023 11 7) /\ days_later 184 (mkDate 2023 5 7) (mkDate 2023 11 7)
  /\ payment_amount f = (62/1000 * 1000 / 2 * (INR 183 / INR 184))%R.
Proof.
  assert (exists b, ex_bond = Ret (Some b)) as (b & E) by (eexists; vm_compute; reflexivity).
  assert (exists f, flow_number b 0 f) as (f & Ff).
  { destruct C45_case as (b' & E' & _ & L). rewrite E in E'. injection E' as <-.
    unfold flow_number. destruct (bond_cash_flows b); [discriminate | simpl; eauto]. }
  assert (a_date (mkDate 2023 5 8)) as A1 by (apply valid_a_date; reflexivity).
  assert (a_date (mkDate 2023 5 7)) as A2 by (apply valid_a_date; reflexivity).
  assert (a_date (mkDate 2023 11 7)) as A3 by (apply valid_a_date; reflexivity).
  assert (months_moved (mkDate 2023 11 7) (-6) (mkDate 2023 5 7)) as Mm.
  { apply (C07_sub_months (mkDate 2023 11 7) 6 (mkDate 2023 5 7) A3); [lia | reflexivity]. }
  pose proof (proj1 (C03_sub_complete _ _ A1 A3) ltac:(vm_compute; discriminate)) as D1.
  pose proof (proj1 (C03_sub_complete _ _ A2 A3) ltac:(vm_compute; discriminate)) as D2.
  change (Z.to_nat (date_sub (mkDate 2023 11 7) (mkDate 2023 5 8))) with 183%nat in D1.
  change (Z.to_nat (date_sub (mkDate 2023 11 7) (mkDate 2023 5 7))) with 184%nat in D2.
  exists b, f. split; [exact E |]. split; [exact Ff |]. split; [exact Mm |]. split; [exact D1 |]. split; [exact D2 |].
  destruct (C47_first_coupon _ _ _ (mkDate 2042 5 7) _ _ _ _ _ _ _ A1 A3 ltac:(unfold earlier; simpl; lia) E Ff Mm) as (_ & K & _).
  destruct (K 183%nat 184%nat ltac:(unfold earlier; simpl; lia) D2) as (_ & K1 & _). exact (K1 D1).
Qed.

Example C46_case : exists b f g, ex_bond = Ret (Some b) /\ flow_number b 5 f /\ flow_number b 38 g
  /\ payment_amount f = (62/1000 * 1000 / 2)%R /\ payment_amount g = (1000 + 62/1000 * 1000 / 2)%R.
Proof.
  destruct C45_case as (b & E & _ & L). 
  assert (forall k, (k < 39)%nat -> exists f, flow_number b k f) as X.
  { intros k Hk. unfold flow_number. destruct (nth_error (bond_cash_flows b) k) eqn:Q; [eauto |]. apply nth_error_None in Q.
    rewrite L in Q. lia. }
  destruct (X 5%nat ltac:(lia)) as (f & Ff). destruct (X 38%nat ltac:(lia)) as (g & Fg).
  exists b, f, g. split; [exact E |]. split; [exact Ff |]. split; [exact Fg |]. split.
  - apply (C46_regular _ _ _ _ _ _ _ _ _ 5 f (proj1 (valid_a_date (mkDate 2023 11 7)) eq_refl) E Ff); [lia |].
    refine (eq_ind_r (fun n => (6 < n)%nat) _ L). lia.
  - assert (a_date (mkDate 2042 5 7)) as A1 by (apply valid_a_date; reflexivity).
    assert (months_moved (mkDate 2042 5 7) 6 (mkDate 2042 11 7)) as Mm.
    { apply (C06_add_months (mkDate 2042 5 7) 6 (mkDate 2042 11 7) A1); [lia | reflexivity]. }
    refine (proj1 (proj2 (proj2 (proj2 (C46_final _ _ _ _ _ _ _ _ _ 38 g _
      (proj1 (valid_a_date (mkDate 2023 11 7)) eq_refl) A1 (proj1 (valid_a_date (mkDate 2042 11 7)) eq_refl) E Fg L Mm)))) eq_refl).
Qed.

(** A maturity on a Saturday is paid on that Saturday. *)
Theorem C49_final_refuted : exists issue first pen mat b k f, a_date first /\ a_date mat
  /\ bond_new (V := RV) "" issue first pen mat SA 1%R 100%R = Ret (Some b) /\ flow_number b k f
  /\ weekend (payment_date f).
Proof.
  exists (mkDate 2024 2 15), (mkDate 2024 8 15), (mkDate 2024 8 15), (mkDate 2025 2 15).
  assert (a_date (mkDate 2024 8 15)) as A1 by (apply valid_a_date; reflexivity).
  assert (a_date (mkDate 2025 2 15)) as A2 by (apply valid_a_date; reflexivity).
  eexists. exists 1%nat. eexists. split; [exact A1 |]. split; [exact A2 |].
  split; [vm_compute; reflexivity |]. split; [vm_compute; reflexivity |]. left. reflexivity.
Qed.
Print Assumptions C49_final_refuted.

(** The example's seventh coupon is due on a Saturday and paid on Monday; the redemption is paid on its due date. *)
Example C49_case : exists b f g, ex_bond = Ret (Some b) /\ flow_number b 6 f /\ flow_number b 38 g /\ List.length (bond_cash_flows b) = 39%nat
  /\ due_date f = mkDate 2026 11 7 /\ payment_date f = mkDate 2026 11 9 /\ due_date g = mkDate 2042 11 7 /\ payment_date g = mkDate 2042 11 7.
Proof. do 3 eexists. repeat (split; [vm_compute; reflexivity |]). vm_compute. reflexivity. Qed.

(** Dates in order give a bond, also with a first coupon on the penultimate date. *)
Example C48_case : exists first pen b, a_date first /\ ~ earlier pen first
  /\ bond_new (V := RV) "" (mkDate 2024 2 15) first pen (mkDate 2025 2 15) SA 1%R 100%R = Ret (Some b).
Proof.
  exists (mkDate 2024 8 15), (mkDate 2024 8 15). eexists. split; [apply valid_a_date; reflexivity |]. split; [apply not_earlier_refl |].
  vm_compute. reflexivity.
Qed.

(** ** C50 *)

(** Flows still due at [settle]. *)
Definition open_flow {V : Type} (settle : Date) (f : BondCashFlow V) : bool := date_ltb settle (due_date f).

Lemma open_flow_spec {V : Type} settle (f : BondCashFlow V) : open_flow settle f = true <-> earlier settle (due_date f).
Proof. apply date_ltb_earlier. Qed.

(** The sum of the list. *)
Definition total (l : list R) : R := fold_right Rplus 0%R l.

Lemma value_loop D (I : Interpolator RV) settle (c : YieldCurve RV I) (df : Date -> R) (fl : list (BondCashFlow R)) : forall pv : R,
  (forall f, In f fl -> earlier settle (due_date f) -> discount_factor D c settle (payment_date f) = Ret (Ok (df (payment_date f)))) ->
  for_each fl (value_step D settle c) (Ok pv)
  = Ret (Ok (pv + total (map (fun f => df (payment_date f) * payment_amount f) (filter (open_flow settle) fl)))%R).
Proof.
  induction fl as [| f t IH]; intros pv H; simpl.
  - unfold total. simpl. do 2 f_equal. change (@eq (carrier RV)) with (@eq R). ring.
  - unfold open_flow at 1. destruct (date_ltb settle (due_date f)) eqn:L.
    + rewrite (H f (or_introl eq_refl) (proj1 (date_ltb_earlier _ _) L)). simpl.
      rewrite IH by (intros g Hg; apply H; now right). do 2 f_equal.
      change (@eq (carrier RV)) with (@eq R). unfold total. simpl. ring.
    + simpl. rewrite IH by (intros g Hg; apply H; now right). reflexivity.
Qed.

(** The value is the sum of factor times amount over exactly the flows due after settlement. *)
Theorem C50_sum : forall D (I : Interpolator RV) (b : Bond R) settle (c : YieldCurve RV I) (df : Date -> R),
  (forall f, In f (bond_cash_flows b) -> earlier settle (due_date f) ->
     discount_factor D c settle (payment_date f) = Ret (Ok (df (payment_date f)))) ->
  discounted_value (V := RV) D b settle c
  = Ret (Ok (total (map (fun f => df (payment_date f) * payment_amount f)%R
                       (filter (open_flow settle) (bond_cash_flows b))))).
Proof.
  intros D I b settle c df H. unfold discounted_value. change (v_zero (v := RV)) with 0%R.
  rewrite (value_loop D I settle c df) by exact H. exact (f_equal (fun x : R => Ret (Ok x)) (Rplus_0_l _)).
Qed.
Print Assumptions C50_sum.

(** The first open flow whose factor fails decides the error, for any Value. *)
Theorem C50_first_error : forall (V : Value) D (I : Interpolator V) id before f after settle (c : YieldCurve V I) e,
  (forall g, In g before -> earlier settle (due_date g) -> exists v, discount_factor D c settle (payment_date g) = Ret (Ok v)) ->
  earlier settle (due_date f) -> discount_factor D c settle (payment_date f) = Ret (Err e) ->
  discounted_value D (mkBond id (before ++ f :: after)) settle c = Ret (Err e).
Proof.
  intros V D I id before f after settle c e Hb Hf He. unfold discounted_value. simpl. generalize (v_zero (v := V)).
  induction before as [| g t IH]; intros pv; simpl.
  - apply date_ltb_earlier in Hf. rewrite Hf, He. simpl.
    induction after as [| h u IHu]; [reflexivity |]. simpl. exact IHu.
  - destruct (date_ltb settle (due_date g)) eqn:L.
    + destruct (Hb g) as (v & ->); [now left | now apply date_ltb_earlier |]. simpl. apply IH.
      intros g' Hg'. apply Hb. now right.
    + simpl. apply IH. intros g' Hg'. apply Hb. now right.
Qed.
Print Assumptions C50_first_error.

(** Flows already due have no influence, for any Value; with none left the value is zero. *)
Theorem C50_past_flows : forall (V : Value) D (I : Interpolator V) id id' fl settle (c : YieldCurve V I),
  discounted_value D (mkBond id fl) settle c = discounted_value D (mkBond id' (filter (open_flow settle) fl)) settle c
  /\ ((forall f, In f fl -> ~ earlier settle (due_date f)) ->
      discounted_value D (mkBond id fl) settle c = Ret (Ok v_zero)).
Proof.
  intros V D I id id' fl settle c. unfold discounted_value. simpl. split.
  - generalize (Ok (E := QLabError) (v_zero (v := V))). induction fl as [| f t IH]; intros pv; [reflexivity |]. simpl.
    unfold open_flow at 1. destruct (date_ltb settle (due_date f)) eqn:L; simpl.
    + unfold value_step at 1 3. rewrite L. destruct pv as [v | e]; simpl; [| apply IH].
      destruct (discount_factor D c settle (payment_date f)) as [[d | e] | |]; simpl; try reflexivity; apply IH.
    + unfold value_step at 1. rewrite L. destruct pv as [v | e]; simpl; apply IH.
  - intros H. induction fl as [| f t IH]; [reflexivity |]. simpl.
    destruct (date_ltb settle (due_date f)) eqn:L; [exfalso; apply (H f); [now left | now apply date_ltb_earlier] |].
    simpl. apply IH. intros g Hg. apply H. now right.
Qed.
Print Assumptions C50_past_flows.

(** A past flow and two open ones, on the example curve. *)
Example C50_case : exists (b : Bond R) c (df : Date -> R),
  curve_new (act_365 RV) (Linear RV) ex_settle ex_maturities ex_yields = Ret (Ok c)
  /\ (exists f, In f (bond_cash_flows b) /\ earlier ex_settle (due_date f))
  /\ (exists f, In f (bond_cash_flows b) /\ ~ earlier ex_settle (due_date f))
  /\ (forall f, In f (bond_cash_flows b) -> earlier ex_settle (due_date f) ->
       discount_factor (act_365 RV) c ex_settle (payment_date f) = Ret (Ok (df (payment_date f)))).
Proof.
  destruct (ex_hyps (act_365 RV)) as (t & Ht & Inc & K); [now right |].
  destruct (C42_linear (act_365 RV) ex_settle ex_maturities ex_yields t eq_refl ltac:(simpl; lia) K Inc) as (c & Hc & Df).
  set (f0 := mkFlow (mkDate 2024 2 1) (mkDate 2024 2 1) 5%R).
  set (f1 := mkFlow (mkDate 2025 3 1) (mkDate 2025 3 1) 5%R).
  set (f2 := mkFlow (mkDate 2026 2 28) (mkDate 2026 3 1) 105%R).
  exists (mkBond "x" [f0; f1; f2]), c,
    (fun d => if date_eqb d (mkDate 2025 3 1) then exp (- t (mkDate 2025 3 1) * (2/100)) else exp (- t (mkDate 2026 3 1) * (25/1000)))%R.
  split; [exact Hc |].
  split; [exists f1; split; [right; now left | unfold earlier, ex_settle; simpl; lia] |].
  split; [exists f0; split; [now left | unfold earlier, ex_settle; simpl; lia] |].
  intros f [<- | [<- | [<- | []]]] E.
  - exfalso. revert E. unfold earlier, ex_settle; simpl; lia.
  - exact (Df 0%nat _ _ eq_refl eq_refl).
  - exact (Df 1%nat _ _ eq_refl eq_refl).
Qed.

(** ** C51 *)

Definition scale_flow (k : R) (f : BondCashFlow R) : BondCashFlow R := mkFlow (due_date f) (payment_date f) (k * payment_amount f)%R.
Definition scale (k : R) (b : Bond R) : Bond R := mkBond (bond_id_field b) (map (scale_flow k) (bond_cash_flows b)).

Lemma loop_sim {A A' B B'} (body : A -> A + B) (body' : A' -> A' + B') (g : A -> A') (h : B -> B') :
  (forall s, body' (g s) = match body s with inl t => inl (g t) | inr r => inr (h r) end) ->
  forall p s, loop p body' (g s) = match loop p body s with inl t => inl (g t) | inr r => inr (h r) end.
Proof.
  intros H. induction p as [q IH | q IH |]; intros s; simpl.
  - rewrite H. destruct (body s) as [s0 | r]; [| reflexivity]. rewrite IH. destruct (loop q body s0) as [s1 | r]; [| reflexivity]. apply IH.
  - rewrite IH. destruct (loop q body s) as [s1 | r]; [| reflexivity]. apply IH.
  - apply H.
Qed.

Definition over_some {A B} (h : A -> B) (m : M (option A)) : M (option B) :=
  match m with Ret (Some a) => Ret (Some (h a)) | Ret None => Ret None | Panic => Panic | OutOfFuel => OutOfFuel end.

Lemma scale_schedule k pen c (first : Date) :
  while roll_fuel (schedule_step (V := RV) pen 6 (k * c)%R) (first, [])
  = over_some (map (scale_flow k)) (while roll_fuel (schedule_step (V := RV) pen 6 c) (first, [])).
Proof.
  unfold while.
  rewrite (loop_sim (schedule_step (V := RV) pen 6 c) (schedule_step (V := RV) pen 6 (k * c)%R)
    (fun s => (fst s, map (scale_flow k) (snd s))) (over_some (map (scale_flow k))) ) with (s := (first, [])).
  - destruct (loop roll_fuel _ _); reflexivity.
  - intros [d fl]. simpl. destruct (date_leb d pen); [| reflexivity]. destruct (weekend_roll d); [| reflexivity].
    destruct (date_add_months d 6); [| reflexivity]. do 2 f_equal. symmetry. apply map_app.
Qed.

Lemma scale_first k issue first c fl :
  first_cash_flow (V := RV) issue first 6 (k * c)%R (map (scale_flow k) fl)
  = over_some (map (scale_flow k)) (first_cash_flow (V := RV) issue first 6 c fl).
Proof.
  unfold first_cash_flow. destruct (date_sub_months first 6) as [prior |]; [| reflexivity]. cbn [try_opt].
  destruct (date_compare prior issue); [reflexivity | |].
  - cbn [v_of_int RV try_opt]. destruct fl as [| f t]; [reflexivity |]. simpl. unfold scale_flow at 1; simpl.
    do 3 f_equal. unfold scale_flow; simpl. f_equal. change (@eq (carrier RV)) with (@eq R). ring.
  - destruct (date_sub_months prior 6); [| reflexivity]. cbn [v_of_int RV try_opt]. destruct fl as [| f t]; [reflexivity |].
    simpl. do 3 f_equal. unfold scale_flow; simpl. f_equal. change (@eq (carrier RV)) with (@eq R). ring.
Qed.

Lemma scale_final k pen mat face c :
  final_cash_flow (V := RV) pen mat (k * face)%R 6 (k * c)%R
  = over_some (scale_flow k) (final_cash_flow (V := RV) pen mat face 6 c).
Proof.
  unfold final_cash_flow. destruct (date_add_months pen 6) as [next |]; [| reflexivity]. cbn [try_opt].
  destruct (date_compare mat next).
  - simpl. do 2 f_equal. unfold scale_flow; simpl. f_equal. change (@eq (carrier RV)) with (@eq R). ring.
  - simpl. do 2 f_equal. unfold scale_flow; simpl. f_equal. change (@eq (carrier RV)) with (@eq R). ring.
  - destruct (date_add_months next 6); [| reflexivity]. simpl. do 2 f_equal. unfold scale_flow; simpl. f_equal.
    change (@eq (carrier RV)) with (@eq R). ring.
Qed.

(** Scaling the face scales every flow, and changes neither failure nor dates. *)
Theorem C51_flows : forall k id issue first pen mat fr rate face,
  bond_new (V := RV) id issue first pen mat fr rate (k * face)%R
  = match bond_new (V := RV) id issue first pen mat fr rate face with
    | Ret (Some b) => Ret (Some (scale k b))
    | r => r
    end.
Proof.
  intros k id issue first pen mat fr rate face. unfold bond_new. destruct fr.
  change (12 / frequency_num SA) with 6. change (frequency_num SA) with 2. cbv zeta.
  change (v_of_int (v := RV) 2) with (Some 2%R). cbn [try_opt].
  set (c := v_div (v := RV) (v_mul (v := RV) rate face) 2%R).
  assert (v_div (v := RV) (v_mul (v := RV) rate (k * face)%R) 2%R = (k * c)%R) as ->.
  { unfold c. simpl. change (@eq (carrier RV)) with (@eq R). field. }
  rewrite scale_schedule. destruct (while _ _ _) as [[fl |] | |]; try reflexivity. cbn [over_some bind try_opt].
  rewrite scale_first. destruct (first_cash_flow _ _ _ _ _) as [[fl' |] | |]; try reflexivity. cbn [over_some bind try_opt].
  rewrite scale_final. destruct (final_cash_flow _ _ _ _ _) as [[f |] | |]; try reflexivity. cbn [over_some bind try_opt].
  unfold scale. simpl. do 3 f_equal. symmetry. exact (map_app (scale_flow k) fl' [f]).
Qed.
Print Assumptions C51_flows.

(** The value of the scaled bond is the scaled value, on any curve. *)
Theorem C51_value : forall k (b : Bond R) D (I : Interpolator RV) settle (c : YieldCurve RV I),
  discounted_value (V := RV) D (scale k b) settle c
  = match discounted_value (V := RV) D b settle c with
    | Ret (Ok v) => Ret (Ok (k * v)%R)
    | r => r
    end.
Proof.
  intros k b D I settle c. unfold discounted_value, scale. simpl.
  assert (forall r : QLabResult R,
    for_each (map (scale_flow k) (bond_cash_flows b)) (value_step (V := RV) D settle c)
      (match r with Ok v => Ok (k * v)%R | Err e => Err e end)
    = match for_each (bond_cash_flows b) (value_step (V := RV) D settle c) r with
      | Ret (Ok v) => Ret (Ok (k * v)%R) | x => x end) as G.
  { induction (bond_cash_flows b) as [| f t IH]; intros r; simpl.
    - destruct r; reflexivity.
    - destruct r as [v | e]; simpl; [| exact (IH (Err e))].
      destruct (date_ltb settle (due_date f)); simpl; [| exact (IH (Ok v))].
      destruct (discount_factor D c settle (payment_date f)) as [[d | e] | |]; simpl; try reflexivity.
      + rewrite <- IH. do 2 f_equal. change (@eq (carrier RV)) with (@eq R). ring.
      + exact (IH (Err e)). }
  refine (eq_trans _ (G (Ok 0%R))). assert (k * 0 = 0)%R as Z0 by ring. rewrite Z0. reflexivity.
Qed.
Print Assumptions C51_value.

Example C51_case : exists b, ex_bond = Ret (Some b)
  /\ bond_new (V := RV) "Test" (mkDate 2023 5 8) (mkDate 2023 11 7) (mkDate 2042 5 7) (mkDate 2042 11 7)
       SA (62/1000)%R (3 * 1000)%R = Ret (Some (scale 3 b)).
Proof.
  destruct C45_case as (b & E & _). exists b. split; [exact E |]. rewrite C51_flows.
  change (bond_new (V := RV) "Test" (mkDate 2023 5 8) (mkDate 2023 11 7) (mkDate 2042 5 7) (mkDate 2042 11 7)
       SA (62/1000)%R 1000%R) with ex_bond. now rewrite E.
Qed.

(** ** C65 *)

(** Month [m] of year [y] is one of the months of the first [n] steps of six months from [d]. *)
Definition passed (d : Date) (n : nat) (y m : Z) : Prop :=
  1 <= m <= 12 /\ exists j, (j <= n)%nat /\ 12 * y + m = 12 * year d + month d + 6 * Z.of_nat j.

Lemma one_month y m y' m' : 1 <= m <= 12 -> 1 <= m' <= 12 -> 12 * y + m = 12 * y' + m' -> y = y' /\ m = m'.
Proof. lia. Qed.

Lemma month_length_fun y m L L' : month_length y m L -> month_length y m L' -> L = L'.
Proof. intros H H'. inversion H; subst; inversion H'; subst; simpl in *; try lia; try contradiction; tauto. Qed.

Lemma schedule_days p d ds : schedule p d ds -> a_date d -> forall k a, nth_error ds k = Some a ->
  day a <= day d /\ (forall y m L, passed d k y m -> month_length y m L -> day a <= L)
  /\ (day a = day d \/ exists y m, passed d k y m /\ month_length y m (day a)).
Proof.
  intros S. induction S as [d E | d d' ds N Hd' M S IH]; intros Hd k a Ha; [destruct k; discriminate |].
  pose proof (a_date_range d Hd) as (_ & Rm & _).
  assert (forall y m L, 1 <= m <= 12 -> 12 * y + m = 12 * year d + month d -> month_length y m L -> day d <= L) as Now.
  { intros y m L Hm Em ML. destruct (one_month y m (year d) (month d) Hm Rm Em) as (-> & ->).
    destruct Hd as (_ & L' & ML' & DL). pose proof (month_length_fun _ _ _ _ ML ML'). unfold year, month, day in *. lia. }
  destruct M as (Rm' & Em' & L' & ML' & Dm).
  destruct k as [| k]; simpl in Ha.
  - injection Ha as <-. split; [lia |]. split; [| now left]. intros y m L (Hm & j & Hj & Em) ML.
    apply (Now y m L Hm); [lia | exact ML].
  - destruct (IH Hd' k a Ha) as (Le & Mo & Eq). split; [lia |]. split.
    + intros y m L (Hm & j & Hj & Em) ML. destruct j as [| j].
      * pose proof (Now y m L Hm ltac:(lia) ML). lia.
      * apply (Mo y m L); [| exact ML]. split; [exact Hm |]. exists j. split; [lia |]. lia.
    + destruct Eq as [Eq | (y & m & (Hm & j & Hj & Em) & ML)].
      * destruct (Z.le_gt_cases (day d) L') as [C | C]; [left; lia |]. right. exists (year d'), (month d').
        split; [split; [exact Rm' |]; exists 1%nat; split; lia |]. replace (day a) with L' by lia. exact ML'.
      * right. exists y, m. split; [| exact ML]. split; [exact Hm |]. exists (Datatypes.S j). split; lia.
Qed.

Lemma coupon_due (V : Value) id issue first pen mat fr (rate face : V) b k f : a_date first ->
  bond_new id issue first pen mat fr rate face = Ret (Some b) -> flow_number b k f -> (S k < List.length (bond_cash_flows b))%nat ->
  exists ds, schedule pen first ds /\ nth_error ds k = Some (due_date f).
Proof.
  intros Hf H Hk K1. destruct (C45_due_dates V id issue first pen mat fr rate face b Hf H) as (_ & ds & S & E).
  exists ds. split; [exact S |]. pose proof (map_nth_error due_date k (bond_cash_flows b) Hk) as Q. rewrite E in Q.
  pose proof (f_equal (@List.length _) E) as L. rewrite map_length, app_length in L. simpl in L.
  rewrite nth_error_app1 in Q by lia. exact Q.
Qed.

(** The k-th coupon is due 6k months after the first, on the first coupon's day of the month or, if one of the months
    since then was shorter, on the number of days of the shortest. *)
Theorem C65_days : forall (V : Value) id issue first pen mat fr (rate face : V) b k f, a_date first ->
  bond_new id issue first pen mat fr rate face = Ret (Some b) -> flow_number b k f -> (S k < List.length (bond_cash_flows b))%nat ->
  12 * year (due_date f) + month (due_date f) = 12 * year first + month first + 6 * Z.of_nat k
  /\ day (due_date f) <= day first /\ (forall y m L, passed first k y m -> month_length y m L -> day (due_date f) <= L)
  /\ (day (due_date f) = day first \/ exists y m, passed first k y m /\ month_length y m (day (due_date f))).
Proof.
  intros V id issue first pen mat fr rate face b k f Hf H Hk K1.
  destruct (coupon_due V id issue first pen mat fr rate face b k f Hf H Hk K1) as (ds & S & E).
  split; [apply (C45_schedule pen first ds ds S S Hf) in E; tauto | exact (schedule_days pen first ds S Hf k _ E)].
Qed.
Print Assumptions C65_days.

(** With the first coupon on the 28th or earlier, the k-th is due on the first coupon date moved by 6k months. *)
Theorem C65_month_ends_partial : forall (V : Value) id issue first pen mat fr (rate face : V) b k f, a_date first -> day first <= 28 ->
  bond_new id issue first pen mat fr rate face = Ret (Some b) -> flow_number b k f -> (S k < List.length (bond_cash_flows b))%nat ->
  months_moved first (6 * Z.of_nat k) (due_date f).
Proof.
  intros V id issue first pen mat fr rate face b k f Hd L H Hk K1.
  destruct (coupon_due V id issue first pen mat fr rate face b k f Hd H Hk K1) as (ds & S & Ha).
  destruct (C45_schedule pen first ds ds S S Hd) as (_ & _ & _ & K).
  destruct (K k _ Ha) as (Aa & _ & Ma & _ & Da & _). specialize (Da L).
  pose proof (a_date_range _ Aa) as (_ & Rm & _). destruct Aa as (_ & Len & ML & DL). unfold months_moved.
  split; [exact Rm |]. split; [exact Ma |]. exists Len. split; [exact ML |].
  assert (28 <= Len) by (inversion ML; lia). lia.
Qed.
Print Assumptions C65_month_ends_partial.

(** The example's sixth coupon; a first coupon on 31 August 2023 is on the 29th a year later. *)
Example C65_case : (exists b f, ex_bond = Ret (Some b) /\ flow_number b 5 f /\ (6 < List.length (bond_cash_flows b))%nat /\ due_date f = mkDate 2026 5 7)
  /\ exists b f, bond_new (V := RV) "" (mkDate 2023 2 28) (mkDate 2023 8 31) (mkDate 2025 8 29) (mkDate 2026 2 28) SA 1%R 100%R = Ret (Some b)
     /\ flow_number b 2 f /\ (3 < List.length (bond_cash_flows b))%nat /\ due_date f = mkDate 2024 8 29.
Proof.
  split; eexists; eexists; (split; [vm_compute; reflexivity |]); (split; [vm_compute; reflexivity |]); (split; [vm_compute; lia | reflexivity]).
Qed.

(** A bond first paying on 31 August pays on 29 August from the next leap year on. *)
Theorem C65_month_ends_refuted : exists issue first pen mat b k f,
  bond_new (V := RV) "" issue first pen mat SA 1%R 100%R = Ret (Some b) /\ flow_number b k f
  /\ (S k < List.length (bond_cash_flows b))%nat
  /\ ~ months_moved first (6 * Z.of_nat k) (due_date f).
Proof.
  exists (mkDate 2023 2 28), (mkDate 2023 8 31), (mkDate 2025 2 28), (mkDate 2025 8 31).
  eexists. exists 2%nat. eexists. split; [vm_compute; reflexivity |]. split; [vm_compute; reflexivity |].
  split; [simpl; lia |]. simpl. intros (_ & _ & L & ML & DL). unfold day in DL. simpl in DL.
  apply month_len_spec in ML; [| simpl; lia]. vm_compute in ML. subst L. vm_compute in DL. discriminate.
Qed.
Print Assumptions C65_month_ends_refuted.
