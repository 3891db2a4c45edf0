(** Property C119: yields from discount factors and from bond prices. *)
From Coq Require Import ZArith Reals List Arith Lia Lra.
From Verif Require Import Base Chrono DateModel DateFacts Value RealValue DayCountModel InterpModel InterpFacts CurveModel BondModel
  Gregorian Grid Piecewise PropsDate PropsDayCount PropsLinear PropsCatmullRom PropsNaturalCubic PropsCurve PropsBond PropsShift PropsRisk
  PropsValuation PropsSpread PropsStability PropsNcStability PropsApprox PropsCurveApprox PropsFlat.
Import ListNotations.
Open Scope R_scope.

(** ** Specification *)

(** Interpolators and the number of maturities they need. *)
Definition fitted_by (I : Interpolator RV) (n : nat) : Prop :=
  I = Linear RV /\ n = 2%nat \/ I = NaturalCubic RV /\ n = 3%nat \/ I = CatmullRom RV /\ n = 3%nat.

(** Dates in order, all after [s]. *)
Definition ahead (s : Date) (ms : list Date) : Prop := in_turn s ms /\ forall m, In m ms -> earlier s m.

(** The curve of these yields gives these factors from its settlement date to its maturities. *)
Definition fits D (I : Interpolator RV) (s : Date) (ms : list Date) (ys fs : list R) : Prop :=
  length ys = length ms /\ length fs = length ms /\ exists c, curve_new D I s ms ys = Ret (Ok c)
  /\ forall i m f, nth_error ms i = Some m -> nth_error fs i = Some f -> discount_factor D c s m = Ret (Ok f).

(** One bond for each maturity: what falls due after [s] is paid at earlier maturities, except for the last payment. *)
Definition ladder (s : Date) (ms : list Date) (bonds : list (Bond R)) : Prop :=
  length bonds = length ms /\ forall k m b, nth_error ms k = Some m -> nth_error bonds k = Some b ->
    exists l f, bond_cash_flows b = l ++ [f] /\ earlier s (due_date f) /\ payment_date f = m /\ payment_amount f <> 0
      /\ forall g, In g l -> earlier s (due_date g) -> In (payment_date g) (firstn k ms).

(** ** Lemmas *)

(** At its maturities a curve shows multiples of the yields; only the last one of a Catmull-Rom curve is not the yield itself. *)
Lemma shown K D I n s ms : year_of K D -> fitted_by I n -> ahead s ms -> (n <= length ms)%nat ->
  exists w : nat -> R, (forall i, (i < length ms)%nat -> 0 < w i) /\ (I = CatmullRom RV \/ forall i, w i = 1) /\ (forall i, (i + 1 < length ms)%nat -> w i = 1) /\
    forall ys, length ys = length ms -> exists c, curve_new D I s ms ys = Ret (Ok c) /\
      forall i m y, nth_error ms i = Some m -> nth_error ys i = Some y -> discount_factor D c s m = Ret (Ok (exp (- years K s m * (w i * y)))).
Proof.
  intros HD HI ((As & Am & Om) & Hs) Hn.
  assert (forall ys : list R, length ys = length ms -> increasing (curve_points (years K s) ms ys)) as Inc.
  { intros ys Hl i j Hij. rewrite curve_points_length in Hij by congruence.
    destruct (nth_error ms i) as [mi |] eqn:Ei; [| apply nth_error_None in Ei; lia].
    destruct (nth_error ms j) as [mj |] eqn:Ej; [| apply nth_error_None in Ej; lia].
    destruct (nth_error ys i) as [yi |] eqn:Yi; [| apply nth_error_None in Yi; lia].
    destruct (nth_error ys j) as [yj |] eqn:Yj; [| apply nth_error_None in Yj; lia].
    destruct (curve_points_nth (years K s) ms ys i mi yi (eq_sym Hl) Ei Yi) as (_ & -> & _).
    destruct (curve_points_nth (years K s) ms ys j mj yj (eq_sym Hl) Ej Yj) as (_ & -> & _).
    pose proof (Om i j mi mj ltac:(lia) Ei Ej) as O.
    rewrite (proj1 (C02_serial_order mi mj (Am mi (nth_error_In _ _ Ei)) (Am mj (nth_error_In _ _ Ej)))) in O.
    pose proof (K_pos K D HD) as PK. unfold years. apply Rmult_lt_compat_r; [now apply Rinv_0_lt_compat |]. apply IZR_lt. lia. }
  set (x := fun i => years K s (nth i ms s)). set (N := (length ms - 1)%nat).
  set (a := (x N - x (N - 1)%nat) / ((x N - x (N - 1)%nat) + (x N - x (N - 2)%nat))).
  assert (forall (ys : list R) i, length ys = length ms -> (i < length ms)%nat -> gx (curve_points (years K s) ms ys) i = x i) as Gx.
  { intros ys i Hl Hi. destruct (nth_error ms i) as [mi |] eqn:Ei; [| apply nth_error_None in Ei; lia].
    destruct (nth_error ys i) as [yi |] eqn:Yi; [| apply nth_error_None in Yi; lia].
    destruct (curve_points_nth (years K s) ms ys i mi yi (eq_sym Hl) Ei Yi) as (_ & -> & _). unfold x. now rewrite (nth_error_nth ms i s Ei). }
  assert (exists w : nat -> R, (forall i, (i < length ms)%nat -> 0 < w i) /\ (I = CatmullRom RV \/ forall i, w i = 1) /\ (forall i, (i + 1 < length ms)%nat -> w i = 1) /\
    forall (ys : list R) i, length ys = length ms -> (i < length ms)%nat ->
      fit_eval I (curve_points (years K s) ms ys) (gx (curve_points (years K s) ms ys) i) = Ret (Ok (w i * gy (curve_points (years K s) ms ys) i))) as (w & Hw & W1 & W2 & E).
  { destruct HI as [(-> & ->) | [(-> & ->) | (-> & ->)]].
    - exists (fun _ => 1). split; [intros; lra |]. split; [now right |]. split; [reflexivity |]. intros ys i Hl Hi.
      pose proof (curve_points_length (years K s) ms ys (eq_sym Hl)) as Lp.
      rewrite Rmult_1_l. apply C24_knots; [now apply Inc | lia | lia].
    - exists (fun _ => 1). split; [intros; lra |]. split; [now right |]. split; [reflexivity |]. intros ys i Hl Hi.
      pose proof (curve_points_length (years K s) ms ys (eq_sym Hl)) as Lp. pose proof (Inc ys Hl) as H.
      assert (3 <= length (curve_points (years K s) ms ys))%nat as L3 by lia.
      destruct (C34_total _ H L3) as (F & HF). destruct (C34_interpolates _ F H L3 HF) as (Kn & _).
      rewrite Rmult_1_l, HF; [now rewrite Kn by lia |]. unfold in_range, last_of. split; apply (increasing_sorted _ H); lia.
    - exists (fun i => if Nat.eq_dec i N then 2 - 2 * a else 1). split; [| split; [now left | split]].
      + intros i Hi. destruct (Nat.eq_dec i N) as [-> | Ne]; [| lra].
        assert (length (map (fun _ => 0) ms) = length ms) as Hl by apply map_length.
        pose proof (curve_points_length (years K s) ms _ (eq_sym Hl)) as Lp.
        destruct (C30_last_knot _ (Inc _ Hl) ltac:(lia)) as (_ & A & _). unfold last_of in A. rewrite Lp in A. fold N in A.
        rewrite !Gx in A by (assumption || (unfold N; lia)). fold a in A. lra.
      + intros i Hi. destruct (Nat.eq_dec i N) as [-> | Ne]; [unfold N in Hi; lia | reflexivity].
      + intros ys i Hl Hi. pose proof (curve_points_length (years K s) ms ys (eq_sym Hl)) as Lp. destruct (Nat.eq_dec i N) as [-> | Ne].
        * destruct (C30_last_knot _ (Inc _ Hl) ltac:(lia)) as (A & _). unfold last_of in A. rewrite Lp in A. fold N in A.
          rewrite A, !Gx by (assumption || (unfold N; lia)). reflexivity.
        * rewrite Rmult_1_l. apply C30_knots_partial; [now apply Inc | lia |]. unfold last_of. unfold N in Ne. lia. }
  exists w. split; [exact Hw |]. split; [exact W1 |]. split; [exact W2 |]. intros ys Hl.
  assert (forall i m y, nth_error ms i = Some m -> nth_error ys i = Some y ->
    exists c, curve_new D I s ms ys = Ret (Ok c) /\ discount_factor D c s m = Ret (Ok (exp (- years K s m * (w i * y))))) as P.
  { intros i m y Ei Yi. assert (i < length ms)%nat as Hi by (apply nth_error_Some; congruence).
    destruct (curve_points_nth (years K s) ms ys i m y (eq_sym Hl) Ei Yi) as (_ & X & Y).
    apply factor_from; [exact HD | exact (eq_sym Hl) | pose proof (Hs m (nth_error_In _ _ Ei)) as Q; unfold earlier in *; lia |].
    specialize (E ys i Hl Hi). now rewrite X, Y in E. }
  assert (0 < length ms)%nat as L0 by (destruct HI as [(_ & ->) | [(_ & ->) | (_ & ->)]]; lia).
  destruct (nth_error ms 0) as [m0 |] eqn:E0; [| apply nth_error_None in E0; lia].
  destruct (nth_error ys 0) as [y0 |] eqn:Y0; [| apply nth_error_None in Y0; lia].
  destruct (P 0%nat m0 y0 E0 Y0) as (c & Ec & _). exists c. split; [exact Ec |]. intros i m y Ei Yi.
  destruct (P i m y Ei Yi) as (c' & Ec' & Ed). rewrite Ec in Ec'. now injection Ec' as <-.
Qed.

Lemma later_time K D s m : year_of K D -> a_date s -> a_date m -> earlier s m -> 0 < years K s m.
Proof.
  intros HD As Am O. rewrite (proj1 (C02_serial_order s m As Am)) in O. unfold years. apply Rmult_lt_0_compat; [apply IZR_lt; lia |].
  apply Rinv_0_lt_compat. exact (K_pos K D HD).
Qed.

Lemma same_list {A} (l l' : list A) : length l = length l' -> (forall i a b, nth_error l i = Some a -> nth_error l' i = Some b -> a = b) -> l = l'.
Proof.
  revert l'. induction l as [| a l IH]; intros [| b l'] Hl H; try discriminate; [reflexivity |]. f_equal.
  - now apply (H 0%nat).
  - apply IH; [now injection Hl |]. intros i. apply (H (S i)).
Qed.

Lemma built {A} (n : nat) (g : nat -> A) : exists l, length l = n /\ forall i, (i < n)%nat -> nth_error l i = Some (g i).
Proof.
  exists (map g (seq 0 n)). split; [rewrite map_length; apply seq_length |]. intros i Hi. apply map_nth_error.
  rewrite (nth_error_nth' _ 0%nat) by now rewrite seq_length. now rewrite seq_nth.
Qed.

(** ** C119 *)

(** Positive factors, and no others, are those of a curve. *)
Theorem C119_factors : forall K D I n s ms fs, year_of K D -> fitted_by I n -> ahead s ms -> (n <= length ms)%nat -> length fs = length ms ->
  (exists ys, fits D I s ms ys fs) <-> (forall f, In f fs -> 0 < f).
Proof.
  intros K D I n s ms fs HD HI HA Hn Hf. destruct (shown K D I n s ms HD HI HA Hn) as (w & Hw & _ & _ & Sh). split.
  - intros (ys & Hl & _ & c & Ec & Fc) f Hi. apply In_nth_error in Hi as (i & Ei).
    destruct (nth_error ms i) as [m |] eqn:Em; [| apply nth_error_None in Em; assert (i < length fs)%nat by (apply nth_error_Some; congruence); lia].
    exact (C40_positive D I c s m f (Fc i m f Em Ei)).
  - intros Hp. destruct (built (length ms) (fun i => - ln (nth i fs 0) / (years K s (nth i ms s) * w i))) as (ys & Hl & Hy).
    exists ys. split; [exact Hl |]. split; [exact Hf |]. destruct (Sh ys Hl) as (c & Ec & Fc). exists c. split; [exact Ec |]. intros i m f Em Ef.
    assert (i < length ms)%nat as Hi by (apply nth_error_Some; congruence). rewrite (Fc i m _ Em (Hy i Hi)). ret_eq.
    rewrite (nth_error_nth fs i 0 Ef), (nth_error_nth ms i s Em). destruct HA as ((As & Am & _) & Hs).
    pose proof (later_time K D s m HD As (Am m (nth_error_In _ _ Em)) (Hs m (nth_error_In _ _ Em))) as T. pose proof (Hw i Hi) as W.
    rewrite <- (exp_ln f (Hp f (nth_error_In _ _ Ef))) at 2. f_equal. field. lra.
Qed.
Print Assumptions C119_factors.

(** Each yield is read off its own factor: the greater the factor, the less the yield. *)
Theorem C119_order : forall K D I n s ms ys ys' fs fs' i y y' f f', year_of K D -> fitted_by I n -> ahead s ms -> (n <= length ms)%nat ->
  fits D I s ms ys fs -> fits D I s ms ys' fs' -> nth_error ys i = Some y -> nth_error ys' i = Some y' -> nth_error fs i = Some f -> nth_error fs' i = Some f' ->
  (f < f' <-> y' < y) /\ (f = f' <-> y = y').
Proof.
  intros K D I n s ms ys ys' fs fs' i y y' f f' HD HI HA Hn (Hl & _ & c & Ec & Fc) (Hl' & _ & c' & Ec' & Fc') Ey Ey' Ef Ef'.
  destruct (shown K D I n s ms HD HI HA Hn) as (w & Hw & _ & _ & Sh).
  assert (i < length ms)%nat as Hi by (rewrite <- Hl; apply nth_error_Some; congruence).
  destruct (nth_error ms i) as [m |] eqn:Em; [| apply nth_error_None in Em; lia].
  destruct (Sh ys Hl) as (c1 & Ec1 & F1). rewrite Ec in Ec1. injection Ec1 as <-.
  destruct (Sh ys' Hl') as (c2 & Ec2 & F2). rewrite Ec' in Ec2. injection Ec2 as <-.
  pose proof (Fc i m f Em Ef) as A. rewrite (F1 i m y Em Ey) in A. injection A as <-.
  pose proof (Fc' i m f' Em Ef') as A. rewrite (F2 i m y' Em Ey') in A. injection A as <-.
  destruct HA as ((As & Am & _) & Hs). pose proof (later_time K D s m HD As (Am m (nth_error_In _ _ Em)) (Hs m (nth_error_In _ _ Em))) as T.
  pose proof (Rmult_lt_0_compat _ _ T (Hw i Hi)) as P. set (k := years K s m * w i) in P.
  replace (- years K s m * (w i * y)) with (- (k * y)) by (unfold k; ring). replace (- years K s m * (w i * y')) with (- (k * y')) by (unfold k; ring).
  split; split; intros Q.
  - apply exp_lt_inv in Q. apply (Rmult_lt_reg_l k); lra.
  - apply exp_increasing. apply (Rmult_lt_compat_l k) in Q; lra.
  - apply exp_inv in Q. apply (Rmult_eq_reg_l k); lra.
  - now rewrite Q.
Qed.
Print Assumptions C119_order.

(** So the factors at the maturities determine the yields, and with them the curve. *)
Theorem C119_determined : forall K D I n s ms ys ys' fs, year_of K D -> fitted_by I n -> ahead s ms -> (n <= length ms)%nat ->
  fits D I s ms ys fs -> fits D I s ms ys' fs -> ys = ys'.
Proof.
  intros K D I n s ms ys ys' fs HD HI HA Hn F F'. apply same_list; [destruct F, F'; congruence |]. intros i y y' Ey Ey'.
  destruct (nth_error fs i) as [f |] eqn:Ef.
  - now apply (C119_order K D I n s ms ys ys' fs fs i y y' f f HD HI HA Hn F F').
  - apply nth_error_None in Ef. assert (i < length ys)%nat by (apply nth_error_Some; congruence). destruct F as (? & ? & _). lia.
Qed.
Print Assumptions C119_determined.

(** The yields are those the factors stand for, except the last of a Catmull-Rom curve. *)
Theorem C119_yields : forall K D I n s ms ys fs i m y f, year_of K D -> fitted_by I n -> ahead s ms -> (n <= length ms)%nat ->
  fits D I s ms ys fs -> nth_error ms i = Some m -> nth_error ys i = Some y -> nth_error fs i = Some f -> I <> CatmullRom RV \/ (i + 1 < length ms)%nat ->
  y = - ln f / (IZR (date_sub m s) / IZR K).
Proof.
  intros K D I n s ms ys fs i m y f HD HI HA Hn (Hl & _ & c & Ec & Fc) Em Ey Ef Q.
  destruct (shown K D I n s ms HD HI HA Hn) as (w & _ & W1 & W2 & Sh).
  assert (w i = 1) as W by (destruct Q as [Q | Q]; [destruct W1 as [W1 | W1]; [contradiction | apply W1] | now apply W2]).
  destruct (Sh ys Hl) as (c1 & Ec1 & F1). rewrite Ec in Ec1. injection Ec1 as <-.
  pose proof (Fc i m f Em Ef) as A. rewrite (F1 i m y Em Ey), W in A. injection A as <-. rewrite ln_exp.
  destruct HA as ((As & Am & _) & Hs). pose proof (later_time K D s m HD As (Am m (nth_error_In _ _ Em)) (Hs m (nth_error_In _ _ Em))) as T.
  change (IZR (date_sub m s) / IZR K) with (years K s m). field. lra.
Qed.
Print Assumptions C119_yields.

Lemma total_last l (x : R) : total (l ++ [x]) = total l + x.
Proof. unfold total. induction l as [| y l IH]; simpl; [ring | rewrite IH; ring]. Qed.

(** The value of the bond of a maturity, from the factors up to it. *)
Lemma rung D (I : Interpolator RV) (c : YieldCurve RV I) s ms (b : Bond R) (df : Date -> R) k l f :
  bond_cash_flows b = l ++ [f] -> earlier s (due_date f) -> (forall g, In g l -> earlier s (due_date g) -> In (payment_date g) (firstn k ms)) ->
  nth_error ms k = Some (payment_date f) -> (forall m, In m ms -> discount_factor D c s m = Ret (Ok (df m))) ->
  discounted_value (V := RV) D b s c
  = Ret (Ok (total (map (fun g => df (payment_date g) * payment_amount g) (filter (open_flow s) l)) + df (payment_date f) * payment_amount f)).
Proof.
  intros Eb O Hg Ek Hd. rewrite (C50_sum D I b s c df).
  - ret_eq. rewrite Eb, filter_app. simpl. rewrite (proj2 (open_flow_spec s f) O), map_app. simpl. apply total_last.
  - intros g Hi Og. apply Hd. rewrite Eb in Hi. apply in_app_or in Hi as [Hi | [<- | []]].
    + pose proof (Hg g Hi Og) as Q. rewrite <- (firstn_skipn k ms). apply in_or_app. now left.
    + eapply nth_error_In, Ek.
Qed.

(** The prices of a ladder of bonds determine the yields. *)
Theorem C119_bonds : forall K D I n s ms bonds ys ys' c c', year_of K D -> fitted_by I n -> ahead s ms -> (n <= length ms)%nat ->
  ladder s ms bonds -> length ys = length ms -> length ys' = length ms ->
  curve_new D I s ms ys = Ret (Ok c) -> curve_new D I s ms ys' = Ret (Ok c') ->
  (forall b, In b bonds -> discounted_value (V := RV) D b s c = discounted_value (V := RV) D b s c') -> ys = ys'.
Proof.
  intros K D I n s ms bonds ys ys' c c' HD HI HA Hn (Lb & Hb) Hl Hl' Ec Ec' Hv.
  destruct (shown K D I n s ms HD HI HA Hn) as (w & _ & _ & _ & Sh).
  set (val := fun (k : YieldCurve RV I) m => match discount_factor D k s m with Ret (Ok v) => v : R | _ => 0 end).
  assert (forall zs k, length zs = length ms -> curve_new D I s ms zs = Ret (Ok k) -> forall m, In m ms -> discount_factor D k s m = Ret (Ok (val k m))) as Kn.
  { intros zs k Lz Ez m Hi. apply In_nth_error in Hi as (i & Ei). destruct (Sh zs Lz) as (k' & Ek & Fk). rewrite Ez in Ek. injection Ek as <-.
    destruct (nth_error zs i) as [z |] eqn:Zi; [| apply nth_error_None in Zi; assert (i < length ms)%nat by (apply nth_error_Some; congruence); lia].
    unfold val. now rewrite (Fk i m z Ei Zi). }
  pose proof (Kn ys c Hl Ec) as Kc. pose proof (Kn ys' c' Hl' Ec') as Kc'.
  assert (forall k m, nth_error ms k = Some m -> val c m = val c' m) as Same.
  { induction k as [k IH] using lt_wf_ind. intros m Em. assert (k < length ms)%nat as Hk by (apply nth_error_Some; congruence).
    destruct (nth_error bonds k) as [b |] eqn:Bk; [| apply nth_error_None in Bk; lia].
    destruct (Hb k m b Em Bk) as (l & f & Eb & O & Pf & Nz & Hg). rewrite <- Pf in Em. pose proof (Hv b (nth_error_In _ _ Bk)) as V.
    rewrite (rung D I c s ms b (val c) k l f Eb O Hg Em Kc), (rung D I c' s ms b (val c') k l f Eb O Hg Em Kc') in V.
    assert (map (fun g => val c (payment_date g) * payment_amount g) (filter (open_flow s) l)
      = map (fun g => val c' (payment_date g) * payment_amount g) (filter (open_flow s) l)) as Q.
    { apply map_ext_in. intros g Hi. apply filter_In in Hi as (Hi & Og). apply open_flow_spec in Og.
      pose proof (Hg g Hi Og) as Q. apply In_nth_error in Q as (j & Ej).
      assert (j < k)%nat as Hj.
      { assert (j < length (firstn k ms))%nat as B by (apply nth_error_Some; congruence). rewrite firstn_length in B. lia. }
      rewrite (IH j Hj (payment_date g)); [reflexivity |]. rewrite <- (firstn_skipn k ms), nth_error_app1; [exact Ej |].
      apply nth_error_Some. congruence. }
    rewrite Q in V. injection V as V. rewrite <- Pf. apply (Rmult_eq_reg_r (payment_amount f)); [| exact Nz]. lra. }
  apply (C119_determined K D I n s ms ys ys' (map (val c) ms) HD HI HA Hn).
  - split; [exact Hl |]. split; [apply map_length |]. exists c. split; [exact Ec |]. intros i m f Em Ef.
    rewrite (map_nth_error _ _ _ Em) in Ef. injection Ef as <-. apply Kc. eapply nth_error_In, Em.
  - split; [exact Hl' |]. split; [apply map_length |]. exists c'. split; [exact Ec' |]. intros i m f Em Ef.
    rewrite (map_nth_error _ _ _ Em) in Ef. injection Ef as <-. rewrite (Same i m Em). apply Kc'. eapply nth_error_In, Em.
Qed.
Print Assumptions C119_bonds.

(** The factor at the settlement date says nothing about the yield there. *)
Theorem C119_settlement_refuted : exists K D s ms ys ys' fs, year_of K D /\ in_turn s ms /\ (2 <= length ms)%nat
  /\ fits D (Linear RV) s ms ys fs /\ fits D (Linear RV) s ms ys' fs /\ ys <> ys'.
Proof.
  set (m := mkDate 2025 2 24). set (ms := [ex_settle; m]). assert (year_of 360 (act_360 RV)) as HD by now left.
  assert (forall y, fits (act_360 RV) (Linear RV) ex_settle ms [y; 2 / 100] [1; exp (- (2 / 100))]) as F.
  { intros y. split; [reflexivity |]. split; [reflexivity |].
    assert (increasing (curve_points (years 360 ex_settle) ms [y; 2 / 100])) as Inc.
    { intros i j H. change (curve_points (years 360 ex_settle) ms [y; 2 / 100]) with [(0 / 360, y); (360 / 360, 2 / 100)] in *.
      unfold gx. simpl in H. destruct i as [| [| i]], j as [| [| j]]; simpl; try lra; lia. }
    destruct (C42_linear (act_360 RV) ex_settle ms [y; 2 / 100] (years 360 ex_settle)) as (c & Ec & Fc); try exact Inc; try reflexivity; try (simpl; lia).
    { intros m' Hm. split; [apply (count_in_years 360); exact HD |]. destruct Hm as [<- | [<- | []]]; unfold earlier; cbn; lia. }
    exists c. split; [exact Ec |]. intros [| [| i]] m' f Em Ef; try (destruct i; discriminate); injection Em as <-; injection Ef as <-.
    - rewrite (Fc 0%nat ex_settle y eq_refl eq_refl). ret_eq. rewrite <- exp_0. f_equal.
      change (years 360 ex_settle ex_settle) with (0 / 360). lra.
    - rewrite (Fc 1%nat m (2 / 100) eq_refl eq_refl). ret_eq. f_equal. change (years 360 ex_settle m) with (360 / 360). lra. }
  exists 360%Z, (act_360 RV), ex_settle, ms, [1; 2 / 100], [2; 2 / 100], [1; exp (- (2 / 100))].
  split; [exact HD |]. split; [| split; [simpl; lia |]; split; [apply F |]; split; [apply F |]; intros Q; injection Q as Q; lra].
  split; [now apply valid_a_date |]. split; [intros d [<- | [<- | []]]; now apply valid_a_date |].
  intros [| [| i]] [| [| j]] mi mj Hij Ei Ej; try lia; cbn in Ei, Ej; try (destruct i; discriminate Ei); try (destruct j; discriminate Ej).
  injection Ei as <-. injection Ej as <-. unfold earlier. cbn. lia.
Qed.
Print Assumptions C119_settlement_refuted.

Lemma ex_three_ahead : ahead ex_settle ex_three.
Proof. split; [exact ex_three_turn |]. intros m [<- | [<- | [<- | []]]]; unfold earlier; cbn; lia. Qed.

(** The last yield of a Catmull-Rom curve is not the one its factor stands for. *)
Theorem C119_last_yield_refuted : exists K D s ms ys fs i m y f, year_of K D /\ ahead s ms /\ (3 <= length ms)%nat /\ fits D (CatmullRom RV) s ms ys fs
  /\ nth_error ms i = Some m /\ nth_error ys i = Some y /\ nth_error fs i = Some f /\ y <> - ln f / (IZR (date_sub m s) / IZR K).
Proof.
  set (y := 3 / 100). assert (year_of 360 (act_360 RV)) as HD by now left. set (m := mkDate 2027 2 14). set (p := curve_points (years 360 ex_settle) ex_three (level y ex_three)).
  destruct (C30_last_knot _ (ex_three_inc y) ltac:(simpl; lia)) as (E & _). unfold last_of, gx, gy in E. simpl in E.
  assert (forall i d v, nth_error ex_three i = Some d -> nth_error [exp (- (3 / 100)); exp (- (6 / 100)); exp (- (12 / 100))] i = Some v ->
    exists c, curve_new (act_360 RV) (CatmullRom RV) ex_settle ex_three (level y ex_three) = Ret (Ok c)
      /\ discount_factor (act_360 RV) c ex_settle d = Ret (Ok v)) as P.
  { intros i d v Ed Ev.
    assert (exists q, fit_eval (CatmullRom RV) p (years 360 ex_settle d) = Ret (Ok q) /\ v = exp (- years 360 ex_settle d * q)) as (q & Eq & ->).
    { destruct i as [| [| [| i]]]; try (destruct i; discriminate); injection Ed as <-; injection Ev as <-.
      - exists y. split; [apply (C30_knots_partial p 0); [apply ex_three_inc | simpl; lia | unfold last_of; simpl; lia] |]. f_equal.
        change (years 360 ex_settle (mkDate 2025 2 24)) with (360 / 360). unfold y. lra.
      - exists y. split; [apply (C30_knots_partial p 1); [apply ex_three_inc | simpl; lia | unfold last_of; simpl; lia] |]. f_equal.
        change (years 360 ex_settle (mkDate 2026 2 19)) with (720 / 360). unfold y. lra.
      - exists (4 / 100). split; [unfold p; rewrite ex_three_points; change (years 360 ex_settle (mkDate 2027 2 14)) with (1080 / 360); rewrite E; ret_eq; unfold y; field |]. f_equal.
        change (years 360 ex_settle (mkDate 2027 2 14)) with (1080 / 360). lra. }
    apply factor_from; [exact HD | reflexivity | | exact Eq].
    pose proof (proj2 ex_three_ahead d (nth_error_In _ _ Ed)) as Q. unfold earlier in *. lia. }
  destruct (P 0%nat _ _ eq_refl eq_refl) as (c & Ec & _).
  exists 360%Z, (act_360 RV), ex_settle, ex_three, (level y ex_three), [exp (- (3 / 100)); exp (- (6 / 100)); exp (- (12 / 100))], 2%nat, m, y, (exp (- (12 / 100))).
  split; [exact HD |]. split; [exact ex_three_ahead |]. split; [simpl; lia |]. split.
  - split; [reflexivity |]. split; [reflexivity |]. exists c. split; [exact Ec |]. intros i d v Ed Ev. destruct (P i d v Ed Ev) as (c' & Ec' & Q).
    rewrite Ec in Ec'. now injection Ec' as <-.
  - split; [reflexivity |]. split; [reflexivity |]. split; [reflexivity |]. rewrite ln_exp. change (date_sub m ex_settle) with 1080%Z. unfold y. lra.
Qed.
Print Assumptions C119_last_yield_refuted.

(** Factors that fall by a tenth every 360 days belong to one yield; two coupon bonds and a note make a ladder. *)
Example C119_case : let fs := [9 / 10; 81 / 100; 729 / 1000] in
  let pay m a := mkFlow (V := R) m m a in
  let bond l := mkBond (V := R) String.EmptyString l in
  let m1 := mkDate 2025 2 24 in let m2 := mkDate 2026 2 19 in let m3 := mkDate 2027 2 14 in
  year_of 360 (act_360 RV) /\ fitted_by (CatmullRom RV) 3 /\ fitted_by (NaturalCubic RV) 3 /\ ahead ex_settle ex_three
  /\ ladder ex_settle ex_three [bond [pay m1 100]; bond [pay ex_settle 4; pay m1 4; pay m2 104]; bond [pay m1 5; pay m2 5; pay m3 105]]
  /\ fits (act_360 RV) (NaturalCubic RV) ex_settle ex_three (level (- ln (9 / 10)) ex_three) fs
  /\ ~ (exists ys, fits (act_360 RV) (CatmullRom RV) ex_settle ex_three ys [9 / 10; 0; 1]).
Proof.
  intros fs pay bond m1 m2 m3. assert (year_of 360 (act_360 RV)) as HD by now left.
  assert (fitted_by (CatmullRom RV) 3) as HC by (right; now right). assert (fitted_by (NaturalCubic RV) 3) as HN by (right; now left).
  split; [exact HD |]. split; [exact HC |]. split; [exact HN |]. split; [exact ex_three_ahead |]. split; [| split].
  - split; [reflexivity |]. intros [| [| [| k]]] m b Em Eb; try (destruct k; discriminate); injection Em as <-; injection Eb as <-.
    + exists [], (pay m1 100). split; [reflexivity |]. split; [unfold earlier; cbn; lia |]. split; [reflexivity |]. split; [cbn; lra |]. intros g [].
    + exists [pay ex_settle 4; pay m1 4], (pay m2 104). split; [reflexivity |]. split; [unfold earlier; cbn; lia |]. split; [reflexivity |]. split; [cbn; lra |].
      intros g [<- | [<- | []]] O; [unfold earlier in O; cbn in O; lia | now left].
    + exists [pay m1 5; pay m2 5], (pay m3 105). split; [reflexivity |]. split; [unfold earlier; cbn; lia |]. split; [reflexivity |]. split; [cbn; lra |].
      intros g [<- | [<- | []]] _; [now left | right; now left].
  - destruct (C119_factors 360 (act_360 RV) (NaturalCubic RV) 3 ex_settle ex_three fs HD HN ex_three_ahead ltac:(simpl; lia) eq_refl) as (_ & Ex).
    destruct Ex as (ys & F); [intros f [<- | [<- | [<- | []]]]; lra |].
    enough (level (- ln (9 / 10)) ex_three = ys) as -> by exact F. apply same_list; [destruct F as (-> & _); reflexivity |].
    assert (NaturalCubic RV <> CatmullRom RV \/ False) as Nq.
    { left. intros Q. pose proof (ex_three_inc 1) as H. destruct (C30_last_knot _ H ltac:(simpl; lia)) as (E & _). rewrite <- Q in E.
      destruct (C34_total _ H ltac:(simpl; lia)) as (G & HG). destruct (C34_interpolates _ G H ltac:(simpl; lia) HG) as (Kn & _).
      rewrite HG in E by (unfold in_range, last_of, gx; simpl; lra). rewrite Kn in E by (unfold last_of; simpl; lia).
      injection E as E. unfold last_of, gx, gy in E. simpl in E. lra. }
    assert (ln (81 / 100) = 2 * ln (9 / 10)) as L2 by (replace (81 / 100) with (9 / 10 * (9 / 10)) by lra; rewrite ln_mult by lra; ring).
    assert (ln (729 / 1000) = 3 * ln (9 / 10)) as L3 by (replace (729 / 1000) with (9 / 10 * (81 / 100)) by lra; rewrite ln_mult, L2 by lra; ring).
    intros i a b Ea Eb.
    assert (forall m f, nth_error ex_three i = Some m -> nth_error fs i = Some f -> b = - ln f / (IZR (date_sub m ex_settle) / IZR 360)) as Y.
    { intros m f Em Ef. apply (C119_yields 360 (act_360 RV) (NaturalCubic RV) 3 ex_settle ex_three ys fs i m b f HD HN ex_three_ahead ltac:(simpl; lia) F Em Eb Ef).
      destruct Nq as [Nq | []]. now left. }
    destruct i as [| [| [| i]]]; try (destruct i; discriminate); injection Ea as <-; rewrite (Y _ _ eq_refl eq_refl).
    + change (date_sub (mkDate 2025 2 24) ex_settle) with 360%Z. field.
    + change (date_sub (mkDate 2026 2 19) ex_settle) with 720%Z. rewrite L2. field.
    + change (date_sub (mkDate 2027 2 14) ex_settle) with 1080%Z. rewrite L3. field.
  - intros Ex. apply (C119_factors 360 (act_360 RV) (CatmullRom RV) 3 ex_settle ex_three [9 / 10; 0; 1] HD HC ex_three_ahead ltac:(simpl; lia) eq_refl) with (f := 0) in Ex;
      [lra | right; now left].
Qed.
