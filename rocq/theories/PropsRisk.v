(** Properties C72 - C75: how discount factors and bond values move with the yields. *)
From Coq Require Import ZArith Reals String List Arith Lia Lra.
From Verif Require Import Base Chrono DateModel DateFacts Value RealValue DayCountModel InterpModel InterpFacts CurveModel BondModel
  Gregorian Grid Piecewise TriFacts PropsTri NcFacts PropsDate PropsDayCount PropsLinear PropsCatmullRom PropsNaturalCubic PropsCurve PropsBond PropsShift.
Import ListNotations.
Open Scope R_scope.

(** ** Reading a factor twice *)

Lemma shift_df D (I : Interpolator RV) (c c' : YieldCurve RV I) sh (w : R -> R) d1 d2 v (t1 t2 : R) :
  settlement_date c' = settlement_date c -> zero_on_diagonal D -> a_date (settlement_date c) ->
  (forall x y : R, i_try_value I (interpolator c) x = Ret (Ok y) -> i_try_value I (interpolator c') x = Ret (Ok (y + sh * w x))) ->
  D (settlement_date c) d1 = Ret (Ok t1) -> D (settlement_date c) d2 = Ret (Ok t2) ->
  discount_factor D c d1 d2 = Ret (Ok v) ->
  discount_factor D c' d1 d2 = Ret (Ok (v * exp (- sh * (t2 * w t2 - t1 * w t1)))).
Proof.
  intros Es Z As Sh E1 E2 H. apply df_ok in H. destruct H as (O1 & O2 & t2' & y2 & E2' & Y2 & C).
  rewrite E2 in E2'. injection E2' as <-.
  assert (~ earlier d2 (settlement_date c)) as O3.
  { unfold earlier in *. lia. }
  rewrite <- Es in O2, O3. rewrite <- Es in E2. apply Sh in Y2.
  destruct (df_intro D I c' d1 d2 t2 (y2 + sh * w t2) O1 O2 O3 E2 Y2) as (K1 & K2).
  destruct C as [(Ed & ->) | (Nd & t1' & y1 & E1' & Y1 & ->)].
  - rewrite Ed, (Z _ As) in E1. injection E1 as <-. rewrite K1 by congruence. ret_eq. rewrite <- exp_plus. f_equal. ring.
  - rewrite E1 in E1'. injection E1' as <-. apply Sh in Y1. rewrite <- Es in E1.
    rewrite (K2 t1 (y1 + sh * w t1)) by (congruence || assumption). ret_eq. rewrite <- exp_plus. f_equal. ring.
Qed.

(** The yields [ys], each raised by [sh]. *)
Definition parallel (sh : R) (ys : list R) : list R := map (fun y => y + sh) ys.

Lemma parallel_raised sh t ms ys : length ms = length ys ->
  raised sh (curve_points t ms ys) (curve_points t ms (parallel sh ys)).
Proof.
  intros Hl. assert (length (parallel sh ys) = length ys) as Lp by apply map_length.
  split; [rewrite !curve_points_length; congruence |]. intros i Hi. rewrite curve_points_length in Hi by exact Hl.
  destruct (nth_error ms i) as [m |] eqn:Em; [| apply nth_error_None in Em; lia].
  destruct (nth_error ys i) as [y |] eqn:Ey; [| apply nth_error_None in Ey; lia].
  destruct (curve_points_nth t ms ys i m y Hl Em Ey) as (_ & -> & ->).
  destruct (curve_points_nth t ms (parallel sh ys) i m (y + sh)) as (_ & -> & ->); auto; [congruence |].
  unfold parallel. now apply (map_nth_error (fun y => y + sh)).
Qed.

(** Two curves over the same maturities: when raising the data raises the values by [sh * w], the factors move together. *)
Lemma two_curves_by D (I : Interpolator RV) s ms (ys : list R) (t : Date -> R) sh (w : R -> R) :
  length ms = length ys -> zero_on_diagonal D -> a_date s -> (0 < length ms)%nat ->
  (forall m, In m ms -> D s m = Ret (Ok (t m))) ->
  (forall x v, fit_eval I (curve_points t ms ys) x = Ret (Ok v) ->
     fit_eval I (curve_points t ms (parallel sh ys)) x = Ret (Ok (v + sh * w x))) ->
  (exists x v, fit_eval I (curve_points t ms ys) x = Ret (Ok v)) ->
  exists c c', curve_new D I s ms ys = Ret (Ok c) /\ curve_new D I s ms (parallel sh ys) = Ret (Ok c')
    /\ settlement_date c = s /\ settlement_date c' = s
    /\ forall d1 d2 v t1 t2, D s d1 = Ret (Ok t1) -> D s d2 = Ret (Ok t2) -> discount_factor D c d1 d2 = Ret (Ok v) ->
       discount_factor D c' d1 d2 = Ret (Ok (v * exp (- sh * (t2 * w t2 - t1 * w t1)))).
Proof.
  intros Hl Z As Hn Ht Sh (x0 & v0 & E0).
  assert (length ms = length (parallel sh ys)) as Hl' by (unfold parallel; rewrite map_length; exact Hl).
  pose proof (C43_fit RV D I s ms ys t Hl Ht) as F. pose proof (C43_fit RV D I s ms (parallel sh ys) t Hl' Ht) as F'.
  cbv zeta in F, F'. change (combine (map t ms) ys) with (curve_points t ms ys) in F.
  change (combine (map t ms) (parallel sh ys)) with (curve_points t ms (parallel sh ys)) in F'.
  pose proof (Sh _ _ E0) as E0'. unfold fit_eval in E0, E0'.
  destruct (i_try_fit I (i_default I) (curve_points t ms ys)) as [[f | e] | |]; try discriminate.
  destruct (i_try_fit I (i_default I) (curve_points t ms (parallel sh ys))) as [[f' | e] | |]; try discriminate.
  destruct F as (c & Ec & Es & Ev). destruct F' as (c' & Ec' & Es' & Ev').
  exists c, c'. split; [exact Ec |]. split; [exact Ec' |]. split; [exact Es |]. split; [exact Es' |].
  intros d1 d2 v t1 t2 E1 E2 H.
  apply (shift_df D I c c' sh w d1 d2 v t1 t2); rewrite ?Es, ?Es'; [reflexivity | exact Z | exact As | | exact E1 | exact E2 | exact H].
  intros x y Hy. rewrite <- Ev in Hy. rewrite <- Ev'. now apply Sh.
Qed.

Lemma two_curves D (I : Interpolator RV) s ms (ys : list R) (t : Date -> R) sh :
  length ms = length ys -> zero_on_diagonal D -> a_date s -> (0 < length ms)%nat ->
  (forall m, In m ms -> D s m = Ret (Ok (t m))) ->
  (forall x v, fit_eval I (curve_points t ms ys) x = Ret (Ok v) ->
     fit_eval I (curve_points t ms (parallel sh ys)) x = Ret (Ok (v + sh))) ->
  (exists x v, fit_eval I (curve_points t ms ys) x = Ret (Ok v)) ->
  exists c c', curve_new D I s ms ys = Ret (Ok c) /\ curve_new D I s ms (parallel sh ys) = Ret (Ok c')
    /\ settlement_date c = s /\ settlement_date c' = s
    /\ forall d1 d2 v t1 t2, D s d1 = Ret (Ok t1) -> D s d2 = Ret (Ok t2) -> discount_factor D c d1 d2 = Ret (Ok v) ->
       discount_factor D c' d1 d2 = Ret (Ok (v * exp (- sh * (t2 - t1)))).
Proof.
  intros Hl Z As Hn Ht Sh Ex.
  destruct (two_curves_by D I s ms ys t sh (fun _ => 1) Hl Z As Hn Ht) as (c & c' & Ec & Ec' & Es & Es' & Mv); [| exact Ex |].
  - intros x v E. rewrite (Sh x v E). ret_eq. ring.
  - exists c, c'. repeat split; auto. intros d1 d2 v t1 t2 E1 E2 H. rewrite (Mv d1 d2 v t1 t2 E1 E2 H). ret_eq. f_equal. f_equal. ring.
Qed.

Lemma linear_ok_range p x v : sorted p -> fit_eval (Linear RV) p x = Ret (Ok v) -> in_range p x.
Proof.
  intros Hs E. destruct p as [| p0 p'] eqn:Ep.
  - unfold fit_eval in E. simpl in E. discriminate.
  - rewrite <- Ep in *. assert (p <> []) as N by congruence. destruct (C24_errors p x Hs N) as (A & B).
    split; apply Rnot_lt_le; intros C; [rewrite (A C) in E | rewrite (B C) in E]; discriminate.
Qed.

Lemma nc_ok_range p x v : increasing p -> (3 <= length p)%nat -> fit_eval (NaturalCubic RV) p x = Ret (Ok v) -> in_range p x.
Proof.
  intros H Hn E. destruct (C34_errors p x H Hn) as (A & B).
  split; apply Rnot_lt_le; intros C; [rewrite (A C) in E | rewrite (B C) in E]; discriminate.
Qed.

Lemma first_in_range p : increasing p -> (2 <= length p)%nat -> in_range p (gx p 0).
Proof. intros H Hl. split; [lra |]. apply (increasing_sorted p H). unfold last_of. lia. Qed.

(** ** C72 *)

(** Raising every yield by [sh] multiplies the factor from [d1] to [d2] by exp(-sh * (t2 - t1)). *)
Theorem C72_linear : forall (D : DayCount RV) s ms (ys : list R) (t : Date -> R) sh,
  length ms = length ys -> (2 <= length ms)%nat -> zero_on_diagonal D -> a_date s ->
  (forall m, In m ms -> D s m = Ret (Ok (t m))) -> increasing (curve_points t ms ys) ->
  exists c c', curve_new D (Linear RV) s ms ys = Ret (Ok c) /\ curve_new D (Linear RV) s ms (parallel sh ys) = Ret (Ok c')
    /\ settlement_date c = s /\ settlement_date c' = s
    /\ forall d1 d2 v t1 t2, D s d1 = Ret (Ok t1) -> D s d2 = Ret (Ok t2) -> discount_factor D c d1 d2 = Ret (Ok v) ->
       discount_factor D c' d1 d2 = Ret (Ok (v * exp (- sh * (t2 - t1)))).
Proof.
  intros D s ms ys t sh Hl H2 Z As Ht Inc. pose proof (curve_points_length t ms ys Hl) as Lp.
  apply (two_curves D (Linear RV) s ms ys t sh); auto; [lia | |].
  - intros x v E. pose proof (linear_ok_range _ x v (increasing_sorted _ Inc) E) as Hx.
    destruct (C69_linear sh _ _ x (parallel_raised sh t ms ys Hl) Inc ltac:(lia) Hx) as (u & E1 & E2).
    rewrite E in E1. injection E1 as ->. exact E2.
  - exists (gx (curve_points t ms ys) 0), (gy (curve_points t ms ys) 0). apply C24_knots; [exact Inc | lia | lia].
Qed.

Theorem C72_natural_cubic_partial : forall (D : DayCount RV) s ms (ys : list R) (t : Date -> R) sh,
  length ms = length ys -> (4 <= length ms)%nat -> zero_on_diagonal D -> a_date s ->
  (forall m, In m ms -> D s m = Ret (Ok (t m))) -> increasing (curve_points t ms ys) ->
  exists c c', curve_new D (NaturalCubic RV) s ms ys = Ret (Ok c)
    /\ curve_new D (NaturalCubic RV) s ms (parallel sh ys) = Ret (Ok c')
    /\ settlement_date c = s /\ settlement_date c' = s
    /\ forall d1 d2 v t1 t2, D s d1 = Ret (Ok t1) -> D s d2 = Ret (Ok t2) -> discount_factor D c d1 d2 = Ret (Ok v) ->
       discount_factor D c' d1 d2 = Ret (Ok (v * exp (- sh * (t2 - t1)))).
Proof.
  intros D s ms ys t sh Hl H2 Z As Ht Inc. pose proof (curve_points_length t ms ys Hl) as Lp.
  apply (two_curves D (NaturalCubic RV) s ms ys t sh); auto; [lia | |].
  - intros x v E. pose proof (nc_ok_range _ x v Inc ltac:(lia) E) as Hx.
    destruct (C69_natural_cubic_partial sh _ _ x (parallel_raised sh t ms ys Hl) Inc ltac:(lia) Hx) as (u & E1 & E2).
    rewrite E in E1. injection E1 as ->. exact E2.
  - destruct (C34_total _ Inc ltac:(lia)) as (F & HF). eexists. eexists. apply HF. apply first_in_range; [exact Inc | lia].
Qed.

(** Not so for Catmull-Rom: the factor to the last maturity moves by more. *)
Theorem C72_catmull_rom_refuted : exists s ms (ys : list R) sh c c' d v td,
  curve_new (act_365 RV) (CatmullRom RV) s ms ys = Ret (Ok c)
  /\ curve_new (act_365 RV) (CatmullRom RV) s ms (parallel sh ys) = Ret (Ok c')
  /\ act_365 RV s d = Ret (Ok td) /\ discount_factor (act_365 RV) c s d = Ret (Ok v)
  /\ discount_factor (act_365 RV) c' s d <> Ret (Ok (v * exp (- sh * td))).
Proof.
  destruct (ex_hyps (act_365 RV)) as (t & Ht & Inc & K); [now right |].
  set (d := mkDate 2028 2 29).
  assert (0 < t d) as Pt.
  { specialize (Ht d). unfold act_365 in Ht. assert (date_sub d ex_settle = 1460%Z) as E by reflexivity.
    rewrite E in Ht. simpl in Ht. injection Ht as <-. lra. }
  assert (forall ys : list R, length ys = 3%nat -> increasing (curve_points t ex_maturities ys) ->
    forall a y, a = (gx (curve_points t ex_maturities ex_yields) 2 - gx (curve_points t ex_maturities ex_yields) 1)
      / (gx (curve_points t ex_maturities ex_yields) 2 - gx (curve_points t ex_maturities ex_yields) 1
         + (gx (curve_points t ex_maturities ex_yields) 2 - gx (curve_points t ex_maturities ex_yields) 0)) ->
    nth 2 ys 0 = y ->
    exists c, curve_new (act_365 RV) (CatmullRom RV) ex_settle ex_maturities ys = Ret (Ok c)
      /\ discount_factor (act_365 RV) c ex_settle d = Ret (Ok (exp (- t d * ((2 - 2 * a) * y))))
      /\ a < 1 / 2) as G.
  { intros ys Ly Iy a y Ea Ey. destruct ys as [| y0 [| y1 [| y2 [|]]]]; try discriminate. simpl in Ey. subst y2.
    pose proof (C30_last_knot (curve_points t ex_maturities [y0; y1; y]) Iy ltac:(simpl; lia)) as (E & Ha & _). cbv zeta in E, Ha.
    change (last_of (curve_points t ex_maturities [y0; y1; y])) with 2%nat in *.
    change (2 - 1)%nat with 1%nat in *. change (2 - 2)%nat with 0%nat in *.
    change (gx (curve_points t ex_maturities [y0; y1; y])) with (gx (curve_points t ex_maturities [y0; y1; y])) in *.
    assert (forall i, (i < 3)%nat -> gx (curve_points t ex_maturities [y0; y1; y]) i = gx (curve_points t ex_maturities ex_yields) i) as X.
    { intros [| [| [| i]]] Hi; [.. | lia]; reflexivity. }
    rewrite !X in E, Ha by lia. rewrite <- Ea in E, Ha.
    change (gy (curve_points t ex_maturities [y0; y1; y]) 2) with y in E.
    change (gx (curve_points t ex_maturities ex_yields) 2) with (t d) in E.
    assert (forall m, In m ex_maturities -> act_365 RV ex_settle m = Ret (Ok (t m))) as Ht' by (intros m _; apply Ht).
    pose proof (C43_fit RV (act_365 RV) (CatmullRom RV) ex_settle ex_maturities [y0; y1; y] t eq_refl Ht') as F. cbv zeta in F.
    change (combine (map t ex_maturities) [y0; y1; y]) with (curve_points t ex_maturities [y0; y1; y]) in F.
    unfold fit_eval in E, F.
    destruct (i_try_fit (CatmullRom RV) (i_default (CatmullRom RV)) (curve_points t ex_maturities [y0; y1; y])) as [[f | e] | |]; try discriminate.
    destruct F as (c & Ec & Es & Ev). exists c. split; [exact Ec |]. split; [| lra].
    assert (~ earlier d ex_settle) as O by (unfold earlier, d, ex_settle; simpl; lia).
    rewrite <- Es in O |- *. apply (df_intro (act_365 RV) (CatmullRom RV) c (settlement_date c) d (t d)); auto;
      [apply not_earlier_refl | rewrite Es; apply Ht |]. rewrite <- Ev. exact E. }
  set (a := (gx (curve_points t ex_maturities ex_yields) 2 - gx (curve_points t ex_maturities ex_yields) 1)
      / (gx (curve_points t ex_maturities ex_yields) 2 - gx (curve_points t ex_maturities ex_yields) 1
         + (gx (curve_points t ex_maturities ex_yields) 2 - gx (curve_points t ex_maturities ex_yields) 0))) in G.
  destruct (G ex_yields eq_refl Inc a _ eq_refl eq_refl) as (c & Ec & E1 & La).
  destruct (G (parallel (1 / 100) ex_yields) eq_refl) with (a := a) (y := 3 / 100 + 1 / 100) as (c' & Ec' & E2 & _); auto.
  { intros i j Hij. specialize (Inc i j Hij).
    destruct i as [| [| [| i]]], j as [| [| [| j]]]; simpl in Hij; try lia; exact Inc. }
  exists ex_settle, ex_maturities, ex_yields, (1 / 100), c, c', d, (exp (- t d * ((2 - 2 * a) * (3 / 100)))), (t d).
  split; [exact Ec |]. split; [exact Ec' |]. split; [apply Ht |]. split; [exact E1 |]. rewrite E2, <- exp_plus.
  intros C. injection C as C. apply exp_inv in C. simpl in C. clearbody a. nra.
Qed.

Example C72_case : exists t, (forall m, In m ex_maturities -> act_365 RV ex_settle m = Ret (Ok (t m)))
  /\ increasing (curve_points t ex_maturities ex_yields) /\ zero_on_diagonal (act_365 RV) /\ a_date ex_settle.
Proof.
  destruct (ex_hyps (act_365 RV)) as (t & Ht & Inc & _); [now right |]. exists t. split; [intros m _; apply Ht |].
  split; [exact Inc |]. split; [apply (C40_day_counts Checked) | apply valid_a_date; reflexivity].
Qed.

(** ** C73 *)

Lemma value_ok D (I : Interpolator RV) settle (c : YieldCurve RV I) : forall (fl : list (BondCashFlow R)) (pv v : R),
  for_each fl (value_step D settle c) (Ok pv) = Ret (Ok v) ->
  forall f, In f fl -> earlier settle (due_date f) -> exists u, discount_factor D c settle (payment_date f) = Ret (Ok u).
Proof.
  assert (forall (fl : list (BondCashFlow R)) e, for_each fl (value_step D settle c) (Err e) = Ret (Err e)) as Er.
  { induction fl as [| f t IH]; intros e; [reflexivity |]. simpl. apply IH. }
  induction fl as [| f t IH]; intros pv v H g Hg Og; [contradiction |].
  simpl in H. destruct (date_ltb settle (due_date f)) eqn:L.
  - destruct (discount_factor D c settle (payment_date f)) as [[u | e] | |] eqn:E; simpl in H;
      [| rewrite Er in H; discriminate | discriminate | discriminate].
    destruct Hg as [<- | Hg]; [eauto |]. exact (IH _ _ H g Hg Og).
  - destruct Hg as [<- | Hg]; [apply date_ltb_earlier in Og; congruence |]. exact (IH _ _ H g Hg Og).
Qed.

(** The factor, where there is one. *)
Definition df_of D (I : Interpolator RV) (c : YieldCurve RV I) settle (d : Date) : R :=
  match discount_factor D c settle d with Ret (Ok u) => u | _ => 0 end.

Lemma value_total D (I : Interpolator RV) (b : Bond R) settle (c : YieldCurve RV I) (v : R) :
  discounted_value (V := RV) D b settle c = Ret (Ok v) ->
  v = total (map (fun f => df_of D I c settle (payment_date f) * payment_amount f) (filter (open_flow settle) (bond_cash_flows b)))
  /\ forall f, In f (bond_cash_flows b) -> earlier settle (due_date f) ->
     discount_factor D c settle (payment_date f) = Ret (Ok (df_of D I c settle (payment_date f))).
Proof.
  intros H. assert (forall f, In f (bond_cash_flows b) -> earlier settle (due_date f) ->
     discount_factor D c settle (payment_date f) = Ret (Ok (df_of D I c settle (payment_date f)))) as A.
  { intros f Hf Of. destruct (value_ok D I settle c _ _ _ H f Hf Of) as (u & E). unfold df_of. now rewrite E. }
  split; [| exact A]. rewrite (C50_sum D I b settle c _ A) in H. now injection H as <-.
Qed.

Lemma total_le {A} (f g : A -> R) l : (forall a, In a l -> f a <= g a) -> total (map f l) <= total (map g l).
Proof.
  induction l as [| a t IH]; intros H; unfold total in *; simpl; [lra |].
  pose proof (H a (or_introl eq_refl)). assert (forall b, In b t -> f b <= g b) as Ht by (intros; apply H; now right).
  specialize (IH Ht). lra.
Qed.

Lemma total_lt {A} (f g : A -> R) l a : (forall a, In a l -> f a <= g a) -> In a l -> f a < g a ->
  total (map f l) < total (map g l).
Proof.
  induction l as [| b t IH]; intros H Ha L; [contradiction |].
  assert (forall b, In b t -> f b <= g b) as Ht by (intros; apply H; now right).
  pose proof (total_le f g t Ht) as Le. pose proof (H b (or_introl eq_refl)) as Lb. unfold total in *. simpl in *.
  destruct Ha as [-> | Ha]; [lra |]. specialize (IH Ht Ha L). lra.
Qed.

(** What a common rise of the yields does to the value of a bond whose flows are not negative. *)
Definition falls (D : DayCount RV) (I : Interpolator RV) (sh : R) (c c' : YieldCurve RV I) : Prop :=
  forall (b : Bond R) settle (v : R), a_date settle ->
  (forall f, In f (bond_cash_flows b) -> a_date (payment_date f) /\ 0 <= payment_amount f) ->
  discounted_value (V := RV) D b settle c = Ret (Ok v) ->
  exists v', discounted_value (V := RV) D b settle c' = Ret (Ok v') /\ 0 <= v' <= v
    /\ (0 < sh -> (exists f, In f (bond_cash_flows b) /\ earlier settle (due_date f) /\ earlier settle (payment_date f)
                     /\ 0 < payment_amount f) -> v' < v).

Lemma falls_if_by D (I : Interpolator RV) sh (w : R -> R) (c c' : YieldCurve RV I) s : (D = act_360 RV \/ D = act_365 RV) -> 0 <= sh ->
  (forall d1 d2 v t1 t2, D s d1 = Ret (Ok t1) -> D s d2 = Ret (Ok t2) -> discount_factor D c d1 d2 = Ret (Ok v) ->
       discount_factor D c' d1 d2 = Ret (Ok (v * exp (- sh * (t2 * w t2 - t1 * w t1))))) ->
  (forall d1 d2 v t1 t2, a_date d1 -> D s d1 = Ret (Ok t1) -> D s d2 = Ret (Ok t2) -> discount_factor D c d1 d2 = Ret (Ok v) -> t1 <= t2 ->
     t2 - t1 <= t2 * w t2 - t1 * w t1) ->
  falls D I sh c c'.
Proof.
  intros HD Hs Mv Up b settle v As Hf Hv. destruct (C19_laws D HD) as (t & Ht & _ & _ & Mono & _).
  destruct (value_total D I b settle c v Hv) as (Ev & Df).
  set (k := fun d => exp (- sh * (t s d * w (t s d) - t s settle * w (t s settle)))).
  assert (forall f, In f (bond_cash_flows b) -> earlier settle (due_date f) ->
    discount_factor D c' settle (payment_date f) = Ret (Ok (df_of D I c settle (payment_date f) * k (payment_date f)))) as Df'.
  { intros f Hif Of. apply Mv; [apply Ht | apply Ht | now apply Df]. }
  pose proof (C50_sum D I b settle c' (fun d => df_of D I c settle d * k d) Df') as Ev'.
  set (l := filter (open_flow settle) (bond_cash_flows b)) in *.
  assert (forall f, In f l -> 0 < df_of D I c settle (payment_date f) /\ t s settle <= t s (payment_date f)
    /\ 0 <= payment_amount f /\ (earlier settle (payment_date f) -> t s settle < t s (payment_date f))) as Fl.
  { intros f Hfl. apply filter_In in Hfl. destruct Hfl as (Hif & Of). apply open_flow_spec in Of.
    destruct (Hf f Hif) as (Ap & Pa). split; [exact (C40_positive D I c settle _ _ (Df f Hif Of)) |].
    pose proof (df_ok D I c settle (payment_date f) _ (Df f Hif Of)) as (O & _).
    split; [| split; [exact Pa | intros E; now apply Mono]].
    apply Rnot_lt_le. intros C. apply O. now apply (Mono s). }
  assert (forall f, In f l -> 0 < k (payment_date f) <= 1 /\ (0 < sh -> earlier settle (payment_date f) -> k (payment_date f) < 1)) as Kl.
  { intros f Hfl. destruct (Fl f Hfl) as (_ & T & _ & Ts).
    assert (discount_factor D c settle (payment_date f) = Ret (Ok (df_of D I c settle (payment_date f)))) as Ef.
    { apply filter_In in Hfl. destruct Hfl as (Hif & Of). apply open_flow_spec in Of. now apply Df. }
    pose proof (Up settle (payment_date f) _ _ _ As (Ht s settle) (Ht s (payment_date f)) Ef T) as U. unfold k.
    set (a := t s (payment_date f) * w (t s (payment_date f)) - t s settle * w (t s settle)) in *.
    split; [split; [apply exp_pos |] |].
    - rewrite <- exp_0. destruct (Req_dec (- sh * a) 0) as [-> | N]; [lra |]. left. apply exp_increasing. nra.
    - intros Ps E. rewrite <- exp_0. apply exp_increasing. specialize (Ts E). nra. }
  eexists. split; [exact Ev' |].
  assert (forall f, In f l -> 0 <= df_of D I c settle (payment_date f) * k (payment_date f) * payment_amount f
    <= df_of D I c settle (payment_date f) * payment_amount f) as Le.
  { intros f Hfl. destruct (Fl f Hfl) as (P & _ & Pa & _), (Kl f Hfl) as ((K0 & K1) & _).
    assert (0 <= df_of D I c settle (payment_date f) * payment_amount f) by nra. split; nra. }
  split; [split |].
  - assert (total (map (fun _ : BondCashFlow R => 0) l) = 0) as Z0.
    { clear. unfold total. induction l as [| f t IH]; simpl; [reflexivity | lra]. }
    rewrite <- Z0. apply total_le. intros f Hfl. apply Le, Hfl.
  - rewrite Ev. apply total_le. intros f Hfl. apply Le, Hfl.
  - intros Ps (f & Hif & Of & Pf & Pa). rewrite Ev.
    assert (In f l) as Hfl by (apply filter_In; split; [exact Hif | now apply open_flow_spec]).
    apply (total_lt _ _ l f); [intros g Hg; apply Le, Hg | exact Hfl |].
    destruct (Fl f Hfl) as (P & _), (Kl f Hfl) as ((K0 & K1) & Ks). specialize (Ks Ps Pf).
    assert (0 < df_of D I c settle (payment_date f) * payment_amount f) by nra. nra.
Qed.

Lemma falls_if D (I : Interpolator RV) sh (c c' : YieldCurve RV I) s : (D = act_360 RV \/ D = act_365 RV) -> 0 <= sh ->
  (forall d1 d2 v t1 t2, D s d1 = Ret (Ok t1) -> D s d2 = Ret (Ok t2) -> discount_factor D c d1 d2 = Ret (Ok v) ->
       discount_factor D c' d1 d2 = Ret (Ok (v * exp (- sh * (t2 - t1))))) ->
  falls D I sh c c'.
Proof.
  intros HD Hs Mv. apply (falls_if_by D I sh (fun _ => 1) c c' s HD Hs).
  - intros d1 d2 v t1 t2 E1 E2 H. rewrite (Mv d1 d2 v t1 t2 E1 E2 H). ret_eq. f_equal. f_equal. ring.
  - intros. lra.
Qed.

(** Raising every yield never raises the value of a bond with non-negative flows, and lowers it when some open
    flow is positive and paid after settlement. *)
Theorem C73_linear : forall D s ms (ys : list R) sh, D = act_360 RV \/ D = act_365 RV -> 0 <= sh ->
  length ms = length ys -> (2 <= length ms)%nat -> a_date s -> (forall m, In m ms -> a_date m) ->
  (forall i j mi mj, (i < j)%nat -> nth_error ms i = Some mi -> nth_error ms j = Some mj -> earlier mi mj) ->
  exists c c', curve_new D (Linear RV) s ms ys = Ret (Ok c) /\ curve_new D (Linear RV) s ms (parallel sh ys) = Ret (Ok c')
    /\ falls D (Linear RV) sh c c'.
Proof.
  intros D s ms ys sh HD Hs Hl H2 As Am Om. destruct (C42_actual_times D s ms ys HD Hl Am Om) as (t & Ht & Inc).
  assert (zero_on_diagonal D) as Z by (destruct HD as [-> | ->]; apply (C40_day_counts Checked)).
  destruct (C72_linear D s ms ys t sh Hl H2 Z As (fun m _ => Ht m) Inc) as (c & c' & Ec & Ec' & _ & _ & Mv).
  exists c, c'. split; [exact Ec |]. split; [exact Ec' |]. now apply (falls_if D (Linear RV) sh c c' s).
Qed.

Theorem C73_natural_cubic_partial : forall D s ms (ys : list R) sh, D = act_360 RV \/ D = act_365 RV -> 0 <= sh ->
  length ms = length ys -> (4 <= length ms)%nat -> a_date s -> (forall m, In m ms -> a_date m) ->
  (forall i j mi mj, (i < j)%nat -> nth_error ms i = Some mi -> nth_error ms j = Some mj -> earlier mi mj) ->
  exists c c', curve_new D (NaturalCubic RV) s ms ys = Ret (Ok c)
    /\ curve_new D (NaturalCubic RV) s ms (parallel sh ys) = Ret (Ok c') /\ falls D (NaturalCubic RV) sh c c'.
Proof.
  intros D s ms ys sh HD Hs Hl H2 As Am Om. destruct (C42_actual_times D s ms ys HD Hl Am Om) as (t & Ht & Inc).
  assert (zero_on_diagonal D) as Z by (destruct HD as [-> | ->]; apply (C40_day_counts Checked)).
  destruct (C72_natural_cubic_partial D s ms ys t sh Hl H2 Z As (fun m _ => Ht m) Inc) as (c & c' & Ec & Ec' & _ & _ & Mv).
  exists c, c'. split; [exact Ec |]. split; [exact Ec' |]. now apply (falls_if D (NaturalCubic RV) sh c c' s).
Qed.

Lemma cr_ok_range p x v : increasing p -> (3 <= length p)%nat -> fit_eval (CatmullRom RV) p x = Ret (Ok v) -> in_range p x.
Proof.
  intros H Hn E. assert (sorted p) as Hs by now apply increasing_sorted.
  unfold fit_eval in E. rewrite cr_fit in E by assumption. simpl bind in E. unfold try_res in E. simpl i_try_value in E.
  unfold catmull_rom_try_value in E.
  split; apply Rnot_lt_le; intros C.
  - rewrite (find_index_below p_x _ (mkPoint 0 0)) in E; [discriminate | now apply sorted_pt | rewrite map_length; lia |].
    change (mkPoint 0 0) with (pt (0, 0)). rewrite map_nth. exact C.
  - rewrite (find_index_above p_x _ (mkPoint 0 0)) in E; [discriminate | now apply sorted_pt | rewrite map_length; lia |].
    change (mkPoint 0 0) with (pt (0, 0)). rewrite map_nth, map_length. exact C.
Qed.

(** How much a Catmull-Rom value at [x] moves when the data move by one. *)
Definition cr_weight (p : list (R * R)) (x : R) : R :=
  let n := last_of p in
  let h := gx p n - gx p (n - 1) in
  if Rle_dec x (gx p (n - 1)) then 1
  else 1 + (1 - 2 * (h / (h + (gx p n - gx p (n - 2))))) * ((x - gx p (n - 1)) / h) ^ 3.

Lemma cr_weight_grows p x y : increasing p -> (3 <= length p)%nat -> x <= y -> 1 <= cr_weight p x <= cr_weight p y.
Proof.
  intros H Hl L. unfold cr_weight. cbv zeta. set (n := last_of p).
  assert (gx p (n - 2) < gx p (n - 1)) as L1 by (apply H; unfold n, last_of; lia).
  assert (gx p (n - 1) < gx p n) as L2 by (apply H; unfold n, last_of; lia).
  set (h := gx p n - gx p (n - 1)). set (a := 1 - 2 * (h / (h + (gx p n - gx p (n - 2))))).
  assert (0 < h) as Hh by (unfold h; lra).
  assert (0 <= a) as Ha.
  { unfold a. assert (h / (h + (gx p n - gx p (n - 2))) <= 1 / 2); [| lra].
    apply Rmult_le_reg_r with (h + (gx p n - gx p (n - 2))); [unfold h; lra |].
    unfold Rdiv. rewrite Rmult_assoc, Rinv_l by (unfold h; lra). unfold h. lra. }
  assert (forall z, gx p (n - 1) <= z -> 0 <= ((z - gx p (n - 1)) / h)) as D0.
  { intros z Hz. apply Rmult_le_pos; [lra |]. left. now apply Rinv_0_lt_compat. }
  destruct (Rle_dec x (gx p (n - 1))) as [X | X], (Rle_dec y (gx p (n - 1))) as [Y | Y]; try lra.
  - pose proof (pow_le _ 3 (D0 y ltac:(lra))). split; [lra |]. nra.
  - pose proof (pow_le _ 3 (D0 x ltac:(lra))) as P.
    assert (((x - gx p (n - 1)) / h) ^ 3 <= ((y - gx p (n - 1)) / h) ^ 3) as Q.
    { apply pow_incr. split; [apply D0; lra |]. apply Rmult_le_compat_r; [left; now apply Rinv_0_lt_compat | lra]. }
    split; nra.
Qed.

Lemma cr_two_curves D s ms (ys : list R) (t : Date -> R) sh : length ms = length ys -> (3 <= length ms)%nat ->
  zero_on_diagonal D -> a_date s -> (forall m, In m ms -> D s m = Ret (Ok (t m))) -> increasing (curve_points t ms ys) ->
  let w := cr_weight (curve_points t ms ys) in
  exists c c', curve_new D (CatmullRom RV) s ms ys = Ret (Ok c) /\ curve_new D (CatmullRom RV) s ms (parallel sh ys) = Ret (Ok c')
    /\ settlement_date c = s /\ settlement_date c' = s
    /\ forall d1 d2 v t1 t2, D s d1 = Ret (Ok t1) -> D s d2 = Ret (Ok t2) -> discount_factor D c d1 d2 = Ret (Ok v) ->
       discount_factor D c' d1 d2 = Ret (Ok (v * exp (- sh * (t2 * w t2 - t1 * w t1)))).
Proof.
  intros Hl H3 Z As Ht Inc w. set (p := curve_points t ms ys) in *.
  assert (3 <= length p)%nat as L3 by (unfold p; rewrite curve_points_length by exact Hl; exact H3).
  apply (two_curves_by D (CatmullRom RV) s ms ys t sh (cr_weight p) Hl Z As (Nat.lt_le_trans 0 3 _ (Nat.lt_0_succ 2) H3) Ht).
  - intros x v E. pose proof (cr_ok_range p x v Inc L3 E) as Hx. unfold cr_weight. cbv zeta.
    destruct (Rle_dec x (gx p (last_of p - 1))) as [X | X].
    + destruct (C69_catmull_rom_partial sh p _ x (parallel_raised sh t ms ys Hl) Inc L3) as (u & E1 & E2).
      { split; [apply Hx | exact X]. }
      pose proof (eq_trans (eq_sym E) E1) as E3. injection E3 as ->. rewrite E2. ret_eq. ring.
    + destruct (C69_catmull_rom_last_cell sh p _ x (parallel_raised sh t ms ys Hl) Inc L3) as (_ & u & E1 & E2).
      { fold p. split; [lra | apply Hx]. }
      pose proof (eq_trans (eq_sym E) E1) as E3. injection E3 as ->. exact E2.
  - exists (gx p 0), (gy p 0). apply C30_knots_partial; [exact Inc | exact L3 | unfold last_of; lia].
Qed.

(** Catmull-Rom factors move as they should up to the last maturity but one. *)
Theorem C72_catmull_rom_partial : forall (D : DayCount RV) s ms (ys : list R) (t : Date -> R) sh,
  length ms = length ys -> (3 <= length ms)%nat -> zero_on_diagonal D -> a_date s ->
  (forall m, In m ms -> D s m = Ret (Ok (t m))) -> increasing (curve_points t ms ys) ->
  exists c c', curve_new D (CatmullRom RV) s ms ys = Ret (Ok c)
    /\ curve_new D (CatmullRom RV) s ms (parallel sh ys) = Ret (Ok c')
    /\ settlement_date c = s /\ settlement_date c' = s
    /\ forall d1 d2 v t1 t2 m, D s d1 = Ret (Ok t1) -> D s d2 = Ret (Ok t2) ->
       nth_error ms (length ms - 2) = Some m -> t1 <= t m -> t2 <= t m -> discount_factor D c d1 d2 = Ret (Ok v) ->
       discount_factor D c' d1 d2 = Ret (Ok (v * exp (- sh * (t2 - t1)))).
Proof.
  intros D s ms ys t sh Hl H3 Z As Ht Inc.
  destruct (cr_two_curves D s ms ys t sh Hl H3 Z As Ht Inc) as (c & c' & Ec & Ec' & Es & Es' & Mv). cbv zeta in Mv.
  exists c, c'. repeat split; auto. intros d1 d2 v t1 t2 m E1 E2 Hm L1 L2 H.
  rewrite (Mv d1 d2 v t1 t2 E1 E2 H). ret_eq. f_equal. f_equal.
  assert (forall x, x <= t m -> cr_weight (curve_points t ms ys) x = 1) as W.
  { intros x Hx. unfold cr_weight. cbv zeta. destruct (Rle_dec _ _) as [_ | C]; [reflexivity |]. exfalso. apply C.
    destruct (nth_error ys (length ms - 2)) as [y |] eqn:Ey; [| apply nth_error_None in Ey; lia].
    destruct (curve_points_nth t ms ys (length ms - 2) m y Hl Hm Ey) as (_ & Eg & _).
    unfold last_of. rewrite curve_points_length by exact Hl. replace (length ms - 1 - 1)%nat with (length ms - 2)%nat by lia.
    rewrite Eg. exact Hx. }
  rewrite (W t1 L1), (W t2 L2). ring.
Qed.
Print Assumptions C72_catmull_rom_partial.

Theorem C73_catmull_rom : forall D s ms (ys : list R) sh, D = act_360 RV \/ D = act_365 RV -> 0 <= sh ->
  length ms = length ys -> (3 <= length ms)%nat -> a_date s -> (forall m, In m ms -> a_date m) ->
  (forall i j mi mj, (i < j)%nat -> nth_error ms i = Some mi -> nth_error ms j = Some mj -> earlier mi mj) ->
  exists c c', curve_new D (CatmullRom RV) s ms ys = Ret (Ok c)
    /\ curve_new D (CatmullRom RV) s ms (parallel sh ys) = Ret (Ok c') /\ falls D (CatmullRom RV) sh c c'.
Proof.
  intros D s ms ys sh HD Hs Hl H3 As Am Om. destruct (C42_actual_times D s ms ys HD Hl Am Om) as (t & Ht & Inc).
  assert (zero_on_diagonal D) as Z by (destruct HD as [-> | ->]; apply (C40_day_counts Checked)).
  set (p := curve_points t ms ys) in *.
  assert (3 <= length p)%nat as L3 by (unfold p; rewrite curve_points_length by exact Hl; exact H3).
  destruct (cr_two_curves D s ms ys t sh Hl H3 Z As (fun m _ => Ht m) Inc) as (c & c' & Ec & Ec' & Es & _ & Mv). cbv zeta in Mv. fold p in Mv.
  exists c, c'. split; [exact Ec |]. split; [exact Ec' |].
    apply (falls_if_by D (CatmullRom RV) sh (cr_weight p) c c' s HD Hs Mv).
    intros d1 d2 v t1 t2 A1 E1 E2 Hd Le.
    destruct (cr_weight_grows p t1 t2 Inc L3 Le) as (W1 & W2).
    assert (0 <= t1) as P1.
    { apply df_ok in Hd. destruct Hd as (_ & O & _). rewrite Es in O.
      destruct (C19_laws D HD) as (f & Hf & _ & _ & Mono & Zero). rewrite Hf in E1. injection E1 as <-.
      apply Rnot_lt_le. intros C. apply O. apply (Mono s); [exact A1 | exact As |]. rewrite (proj2 (Zero s s As As) eq_refl). exact C. }
    nra.
Qed.
Print Assumptions C73_catmull_rom.

(** With three maturities and the natural cubic spline a rise of the yields can raise the value. *)
Theorem C73_three_points_refuted : exists s ms (ys : list R) sh c c' (b : Bond R) settle v v',
  0 < sh /\ length ms = 3%nat /\ length ys = 3%nat
  /\ curve_new (act_365 RV) (NaturalCubic RV) s ms ys = Ret (Ok c)
  /\ curve_new (act_365 RV) (NaturalCubic RV) s ms (parallel sh ys) = Ret (Ok c')
  /\ (forall f, In f (bond_cash_flows b) -> a_date (payment_date f) /\ 0 < payment_amount f)
  /\ discounted_value (V := RV) (act_365 RV) b settle c = Ret (Ok v)
  /\ discounted_value (V := RV) (act_365 RV) b settle c' = Ret (Ok v') /\ v < v'.
Proof.
  set (s := mkDate 2021 3 1). set (ms := [mkDate 2022 3 1; mkDate 2023 3 1; mkDate 2023 5 13]).
  set (d1 := mkDate 2022 10 6). set (d2 := mkDate 2023 5 13).
  set (t := fun m : Date => (IZR (date_sub m s) / IZR 365)).
  assert (forall m, act_365 RV s m = Ret (Ok (t m))) as Ht by reflexivity.
  assert (t d1 = 8 / 5) as T1 by (unfold t; change (date_sub d1 s) with 584%Z; lra).
  assert (t d2 = 11 / 5) as T2 by (unfold t; change (date_sub d2 s) with 803%Z; lra).
  assert (forall y : R, exists c, curve_new (act_365 RV) (NaturalCubic RV) s ms [y; y; y] = Ret (Ok c)
    /\ discount_factor (act_365 RV) c d1 d2 = Ret (Ok (exp (8 / 5 * (9 / 5 * y) - 11 / 5 * y)))) as G.
  { intros y. set (p := curve_points t ms [y; y; y]).
    assert (p = [(1, y); (2, y); (11 / 5, y)]) as Ep.
    { unfold p, curve_points, ms, t. cbn [map combine]. change (date_sub (mkDate 2022 3 1) s) with 365%Z.
      change (date_sub (mkDate 2023 3 1) s) with 730%Z. change (date_sub (mkDate 2023 5 13) s) with 803%Z.
      replace (365 / 365) with 1 by lra. replace (730 / 365) with 2 by lra. replace (803 / 365) with (11 / 5) by lra. reflexivity. }
    assert (increasing p) as H.
    { rewrite Ep. intros i j H. unfold gx. simpl in H. destruct i as [| [| [| i]]], j as [| [| [| j]]]; simpl; try lra; lia. }
    assert (fit_eval (NaturalCubic RV) p (8 / 5) = Ret (Ok (9 / 5 * y))) as V1.
    { rewrite Ep in *. rewrite (nc_value_ds _ 0); [| exact H | simpl; lia | simpl; lia | unfold gx; simpl; lra].
      ret_eq. unfold q, qa, qc. rewrite !nc_ds_nth by (simpl; lia). simpl.
      unfold nc_sol, nc_rhs, nc_diag, mul_entry, nc_coff, nc_cdiag, nc_mm, v_recip, nx, ny, gx, gy. simpl. field. }
    assert (fit_eval (NaturalCubic RV) p (11 / 5) = Ret (Ok y)) as V2.
    { rewrite Ep in *. rewrite (nc_value_ds _ 1); [| exact H | simpl; lia | simpl; lia | unfold gx; simpl; lra].
      ret_eq. unfold q, qa, qc. rewrite !nc_ds_nth by (simpl; lia). simpl.
      unfold nc_sol, nc_rhs, nc_diag, mul_entry, nc_coff, nc_cdiag, nc_mm, v_recip, nx, ny, gx, gy. simpl. field. }
    pose proof (C43_fit RV (act_365 RV) (NaturalCubic RV) s ms [y; y; y] t eq_refl (fun m _ => Ht m)) as F. cbv zeta in F.
    change (combine (map t ms) [y; y; y]) with p in F. unfold fit_eval in V1, V2, F.
    destruct (i_try_fit (NaturalCubic RV) (i_default (NaturalCubic RV)) p) as [[f | e] | |]; try discriminate.
    destruct F as (c & Ec & Es & Ev). exists c. split; [exact Ec |].
    assert (~ earlier d1 s) as O1 by (unfold earlier, d1, s; simpl; lia).
    assert (~ earlier d2 s) as O2 by (unfold earlier, d2, s; simpl; lia).
    assert (~ earlier d2 d1) as O3 by (unfold earlier, d2, d1; simpl; lia).
    rewrite <- Es in O1, O2.
    refine (proj2 (df_intro (act_365 RV) (NaturalCubic RV) c d1 d2 (11 / 5) y O3 O1 O2 _ _) (8 / 5) (9 / 5 * y) _ _ _).
    - rewrite Es, Ht, T2. reflexivity.
    - rewrite <- Ev. exact V2.
    - rewrite Es. discriminate.
    - rewrite Es, Ht, T1. reflexivity.
    - rewrite <- Ev. exact V1. }
  destruct (G 0) as (c & Ec & Ed). destruct (G (0 + 1)) as (c' & Ec' & Ed').
  set (b := mkBond "b"%string [mkFlow d2 d2 1] : Bond R).
  assert (forall c0 (v : R), discount_factor (act_365 RV) c0 d1 d2 = Ret (Ok v) ->
    discounted_value (V := RV) (act_365 RV) (I := NaturalCubic RV) b d1 c0 = Ret (Ok v)) as Val.
  { intros c0 v E. rewrite (C50_sum (act_365 RV) (NaturalCubic RV) b d1 c0 (fun _ => v)).
    - ret_eq. unfold total. simpl. ring.
    - intros f [<- | []] _. exact E. }
  exists s, ms, [0; 0; 0], 1, c, c', b, d1, (exp (8 / 5 * (9 / 5 * 0) - 11 / 5 * 0)), (exp (8 / 5 * (9 / 5 * (0 + 1)) - 11 / 5 * (0 + 1))).
  split; [lra |]. split; [reflexivity |]. split; [reflexivity |]. split; [exact Ec |]. split; [exact Ec' |].
  split; [intros f [<- | []]; split; [now apply valid_a_date | simpl; lra] |].
  split; [now apply Val |]. split; [now apply Val |]. apply exp_increasing. lra.
Qed.
Print Assumptions C73_three_points_refuted.

(** ** C74 *)

(** With linear interpolation, yields between [lo] and [hi] give factors from settlement between exp(-hi*t) and
    exp(-lo*t); with [lo = 0], none above 1. *)
Theorem C74_linear : forall (D : DayCount RV) s ms (ys : list R) (t : Date -> R) lo hi,
  length ms = length ys -> (2 <= length ms)%nat ->
  (forall m, In m ms -> D s m = Ret (Ok (t m))) -> increasing (curve_points t ms ys) ->
  (forall y, In y ys -> lo <= y <= hi) ->
  exists c, curve_new D (Linear RV) s ms ys = Ret (Ok c)
    /\ forall d v td, D s d = Ret (Ok td) -> 0 <= td -> discount_factor D c s d = Ret (Ok v) ->
       exp (- td * hi) <= v <= exp (- td * lo).
Proof.
  intros D s ms ys t lo hi Hl H2 Ht Inc Hy. pose proof (curve_points_length t ms ys Hl) as Lp.
  destruct (fitted D (Linear RV) s ms ys t (gx (curve_points t ms ys) 0) (gy (curve_points t ms ys) 0) Hl Ht) as (c & Ec).
  { apply C24_knots; [exact Inc | lia | lia]. }
  exists c. split; [exact Ec |]. intros d v td Ed Pd H.
  pose proof (C43_fit RV D (Linear RV) s ms ys t Hl Ht) as F. cbv zeta in F.
  change (combine (map t ms) ys) with (curve_points t ms ys) in F.
  destruct (i_try_fit (Linear RV) (i_default (Linear RV)) (curve_points t ms ys)) as [[f | e] | |];
    [| rewrite F in Ec; discriminate | rewrite F in Ec; discriminate | rewrite F in Ec; discriminate].
  destruct F as (c0 & Ec0 & Es & Ev). rewrite Ec in Ec0. injection Ec0 as <-.
  apply df_ok in H. destruct H as (_ & _ & t2 & y2 & E2 & Y2 & C). rewrite Es in E2, C. rewrite Ed in E2. injection E2 as <-.
  destruct C as [(_ & ->) | (N & _)]; [| congruence].
  rewrite <- Ev in Y2. pose proof (linear_ok_range _ _ _ (increasing_sorted _ Inc) Y2) as Hx.
  destruct (g_cell _ td Inc ltac:(lia) Hx) as (i & Hi & Ci).
  destruct (C24_bracket _ i td Inc Hi Ci) as (u & Eu & Bu & _). rewrite Y2 in Eu. injection Eu as <-.
  assert (forall j, (j < length (curve_points t ms ys))%nat -> lo <= gy (curve_points t ms ys) j <= hi) as Yb.
  { intros j Hj. rewrite Lp in Hj.
    destruct (nth_error ms j) as [m |] eqn:Em; [| apply nth_error_None in Em; lia].
    destruct (nth_error ys j) as [y |] eqn:Ey; [| apply nth_error_None in Ey; lia].
    destruct (curve_points_nth t ms ys j m y Hl Em Ey) as (_ & _ & ->). apply Hy. now apply nth_error_In in Ey. }
  pose proof (Yb i ltac:(lia)) as B0. pose proof (Yb (i + 1)%nat ltac:(lia)) as B1.
  assert (lo <= y2 <= hi) as (L & U).
  { unfold Rmin, Rmax in Bu. destruct (Rle_dec _ _); lra. }
  assert (forall a b, a <= b -> exp a <= exp b) as Em.
  { intros a b [Lt | ->]; [left; now apply exp_increasing | lra]. }
  split; apply Em; nra.
Qed.

(** A curve with knots one to four years after settlement, under actual/365. *)
Definition years_out : list Date := [mkDate 2025 3 1; mkDate 2026 3 1; mkDate 2027 3 1; mkDate 2028 2 29].

Lemma years_hyps (ys : list R) : length ys = 4%nat -> exists t,
  (forall m, act_365 RV ex_settle m = Ret (Ok (t m))) /\ increasing (curve_points t years_out ys)
  /\ curve_points t years_out ys = combine [1; 2; 3; 4] ys.
Proof.
  intros Ly. destruct (C42_actual_times (act_365 RV) ex_settle years_out ys (or_intror eq_refl)) as (t & Ht & Inc).
  - rewrite Ly. reflexivity.
  - intros m [<- | [<- | [<- | [<- | []]]]]; apply valid_a_date; reflexivity.
  - intros i j mi mj Hij Hi Hj.
    destruct i as [| [| [| [| i]]]]; destruct j as [| [| [| [| j]]]]; try lia; simpl in Hi, Hj;
      try (destruct i; discriminate); try (destruct j; discriminate);
      injection Hi as <-; injection Hj as <-; unfold earlier; simpl; lia.
  - exists t. split; [exact Ht |]. split; [exact Inc |]. unfold curve_points. f_equal.
    assert (forall m k, date_sub m ex_settle = (365 * k)%Z -> t m = IZR k) as T.
    { intros m k Q. specialize (Ht m). unfold act_365 in Ht. rewrite Q in Ht.
      replace (v_of_int (v := RV) (365 * k)) with (Some (365 * IZR k)) in Ht by (simpl; rewrite mult_IZR; reflexivity).
      simpl in Ht. injection Ht as <-. change (@eq (carrier RV)) with (@eq R). field. }
    unfold years_out. simpl. repeat f_equal; apply T; reflexivity.
Qed.

Lemma reads (D : DayCount RV) (I : Interpolator RV) s ms (ys : list R) (t : Date -> R) c d (y : R) :
  length ms = length ys -> (forall m, In m ms -> D s m = Ret (Ok (t m))) ->
  curve_new D I s ms ys = Ret (Ok c) -> D s d = Ret (Ok (t d)) -> ~ earlier d s ->
  fit_eval I (curve_points t ms ys) (t d) = Ret (Ok y) ->
  settlement_date c = s /\ i_try_value I (interpolator c) (t d) = Ret (Ok y)
  /\ discount_factor D c s d = Ret (Ok (exp (- t d * y))).
Proof.
  intros Hl Ht Hc Hd O Hk. pose proof (C43_fit RV D I s ms ys t Hl Ht) as F. cbv zeta in F.
  change (combine (map t ms) ys) with (curve_points t ms ys) in F. unfold fit_eval in *.
  destruct (i_try_fit I (i_default I) (curve_points t ms ys)) as [[f | e] | |] eqn:E; try discriminate.
  destruct F as (c' & E' & Es & Ev). rewrite E' in Hc. injection Hc as <-.
  pose proof (Ev (t d)) as Em. rewrite Hk in Em. symmetry in Em. split; [exact Es |]. split; [exact Em |].
  rewrite <- Es at 1. rewrite <- Es in O, Hd.
  apply (df_intro D I c' (settlement_date c') d (t d) y); auto. apply not_earlier_refl.
Qed.

(** Positive yields do not bound the factor between two later dates by 1, even with linear interpolation. *)
Theorem C74_forward_refuted : exists ms (ys : list R) c d1 d2 v,
  curve_new (act_365 RV) (Linear RV) ex_settle ms ys = Ret (Ok c) /\ (forall y, In y ys -> 0 < y)
  /\ discount_factor (act_365 RV) c d1 d2 = Ret (Ok v) /\ 1 < v.
Proof.
  set (ys := [1 / 10; 4 / 100; 4 / 100; 4 / 100]).
  destruct (years_hyps ys eq_refl) as (t & Ht & Inc & Ep).
  assert (forall m, In m years_out -> act_365 RV ex_settle m = Ret (Ok (t m))) as Ht' by (intros m _; apply Ht).
  assert (forall i, (i < 4)%nat -> fit_eval (Linear RV) (curve_points t years_out ys) (gx (curve_points t years_out ys) i)
    = Ret (Ok (gy (curve_points t years_out ys) i))) as Kn.
  { intros i Hi. apply C24_knots; [exact Inc | simpl; lia | simpl; lia]. }
  destruct (fitted (act_365 RV) (Linear RV) ex_settle years_out ys t _ _ eq_refl Ht' (Kn 0%nat ltac:(lia))) as (c & Ec).
  set (d1 := mkDate 2025 3 1). set (d2 := mkDate 2026 3 1).
  assert (t d1 = 1 /\ t d2 = 2) as (T1 & T2).
  { change (t d1) with (gx (curve_points t years_out ys) 0). change (t d2) with (gx (curve_points t years_out ys) 1).
    rewrite Ep. split; reflexivity. }
  destruct (reads (act_365 RV) (Linear RV) ex_settle years_out ys t c d1 (1 / 10) eq_refl Ht' Ec (Ht d1)) as (Es & Y1 & _).
  { unfold earlier, d1, ex_settle. simpl. lia. }
  { exact (Kn 0%nat ltac:(lia)). }
  destruct (reads (act_365 RV) (Linear RV) ex_settle years_out ys t c d2 (4 / 100) eq_refl Ht' Ec (Ht d2)) as (_ & Y2 & _).
  { unfold earlier, d2, ex_settle. simpl. lia. }
  { exact (Kn 1%nat ltac:(lia)). }
  destruct (df_intro (act_365 RV) (Linear RV) c d1 d2 (t d2) (4 / 100)) as (_ & K); rewrite ?Es;
    [unfold earlier, d1, d2, ex_settle; simpl; lia .. | apply Ht | exact Y2 |].
  specialize (K (t d1) (1 / 10) ltac:(rewrite Es; discriminate) ltac:(rewrite Es; apply Ht) Y1).
  exists years_out, ys, c, d1, d2. eexists. split; [exact Ec |].
  split; [intros y [<- | [<- | [<- | [<- | []]]]]; lra |]. split; [exact K |].
  rewrite T1, T2. rewrite <- exp_0 at 1. apply exp_increasing. lra.
Qed.

(** Nor do non-negative yields bound the factor from settlement by 1 with a natural cubic, which dips below
    its data. *)
Theorem C74_natural_cubic_refuted : exists ms (ys : list R) c d v,
  curve_new (act_365 RV) (NaturalCubic RV) ex_settle ms ys = Ret (Ok c) /\ (forall y, In y ys -> 0 <= y)
  /\ discount_factor (act_365 RV) c ex_settle d = Ret (Ok v) /\ 1 < v.
Proof.
  set (ys := [1 / 10; 0; 0; 1 / 10]).
  destruct (years_hyps ys eq_refl) as (t & Ht & Inc & Ep).
  assert (forall m, In m years_out -> act_365 RV ex_settle m = Ret (Ok (t m))) as Ht' by (intros m _; apply Ht).
  set (d := mkDate 2026 5 13).
  assert (t d = 11 / 5) as Td.
  { specialize (Ht d). unfold act_365 in Ht. assert (date_sub d ex_settle = 803%Z) as Q by reflexivity. rewrite Q in Ht.
    simpl in Ht. injection Ht as <-. change (@eq (carrier RV)) with (@eq R). lra. }
  assert (exists y, y < 0 /\ fit_eval (NaturalCubic RV) (curve_points t years_out ys) (t d) = Ret (Ok y)) as (y & Ny & Ey).
  { rewrite (nc_value_ds _ 1 _ Inc); [| rewrite Ep; simpl; lia | rewrite Ep; simpl; lia | rewrite Ep, Td; unfold gx; simpl; lra].
    eexists. split; [| reflexivity]. rewrite Td. unfold q, qa, qc. rewrite !nc_ds_nth by (rewrite Ep; simpl; lia). rewrite Ep.
    simpl. unfold nc_sol, xsol. simpl.
    unfold nc_rhs, nc_off, nc_diag, mul_entry, nc_coff, nc_cdiag, nc_mm, v_recip, nx, ny, gx, gy. simpl. lra. }
  destruct (fitted (act_365 RV) (NaturalCubic RV) ex_settle years_out ys t _ _ eq_refl Ht' Ey) as (c & Ec).
  destruct (reads (act_365 RV) (NaturalCubic RV) ex_settle years_out ys t c d y eq_refl Ht' Ec (Ht d)) as (_ & _ & K).
  { unfold earlier, d, ex_settle. simpl. lia. }
  { exact Ey. }
  exists years_out, ys, c, d. eexists. split; [exact Ec |].
  split; [intros z [<- | [<- | [<- | [<- | []]]]]; lra |]. split; [exact K |].
  rewrite <- exp_0 at 1. apply exp_increasing. rewrite Td. nra.
Qed.

Example C74_case : exists t, (forall m, In m ex_maturities -> act_365 RV ex_settle m = Ret (Ok (t m)))
  /\ increasing (curve_points t ex_maturities ex_yields) /\ (forall y, In y ex_yields -> 0 <= y <= 3 / 100).
Proof.
  destruct (ex_hyps (act_365 RV)) as (t & Ht & Inc & _); [now right |]. exists t. split; [intros m _; apply Ht |].
  split; [exact Inc |]. intros y [<- | [<- | [<- | []]]]; lra.
Qed.

(** ** C75 *)

(** At the curve's own settlement date, with non-negative flows and yields between [lo] and [hi], the value lies
    between the flows discounted at [hi] and at [lo]; with [lo = 0] it never exceeds the sum of the open flows. *)
Theorem C75_linear : forall D s ms (ys : list R) lo hi, D = act_360 RV \/ D = act_365 RV ->
  length ms = length ys -> (2 <= length ms)%nat -> a_date s -> (forall m, In m ms -> a_date m) ->
  (forall i j mi mj, (i < j)%nat -> nth_error ms i = Some mi -> nth_error ms j = Some mj -> earlier mi mj) ->
  (forall y, In y ys -> lo <= y <= hi) ->
  exists c t, curve_new D (Linear RV) s ms ys = Ret (Ok c) /\ (forall d, D s d = Ret (Ok (t d)))
    /\ forall (b : Bond R) (v : R),
       (forall f, In f (bond_cash_flows b) -> a_date (payment_date f) /\ 0 <= payment_amount f) ->
       discounted_value (V := RV) D b s c = Ret (Ok v) ->
       let worth y := total (map (fun f => exp (- t (payment_date f) * y) * payment_amount f)
                              (filter (open_flow s) (bond_cash_flows b))) in
       worth hi <= v <= worth lo.
Proof.
  intros D s ms ys lo hi HD Hl H2 As Am Om Hy. destruct (C42_actual_times D s ms ys HD Hl Am Om) as (t & Ht & Inc).
  destruct (C74_linear D s ms ys t lo hi Hl H2 (fun m _ => Ht m) Inc Hy) as (c & Ec & Bd).
  exists c, t. split; [exact Ec |]. split; [exact Ht |]. intros b v Hf Hv.
  destruct (value_total D (Linear RV) b s c v Hv) as (Ev & Df). cbv zeta.
  assert (forall f, In f (filter (open_flow s) (bond_cash_flows b)) ->
    exp (- t (payment_date f) * hi) * payment_amount f <= df_of D (Linear RV) c s (payment_date f) * payment_amount f
    <= exp (- t (payment_date f) * lo) * payment_amount f) as Le.
  { intros f Hfl. apply filter_In in Hfl. destruct Hfl as (Hif & Of). apply open_flow_spec in Of.
    destruct (Hf f Hif) as (Ap & Pa). pose proof (Df f Hif Of) as E.
    assert (0 <= t (payment_date f)) as Pt.
    { pose proof (df_ok D (Linear RV) c s (payment_date f) _ E) as (O & _).
      destruct (C19_laws D HD) as (g & Hg & _ & _ & Mono & Zero).
      assert (t (payment_date f) = g s (payment_date f)) as -> by (specialize (Ht (payment_date f)); rewrite Hg in Ht; congruence).
      apply Rnot_lt_le. intros C. apply O. apply (Mono s); [exact Ap | exact As |].
      rewrite (proj2 (Zero s s As As) eq_refl). exact C. }
    destruct (Bd _ _ _ (Ht _) Pt E) as (B1 & B2). split; apply Rmult_le_compat_r; assumption. }
  rewrite Ev. split; apply total_le; intros f Hfl; apply Le, Hfl.
Qed.

(** A bond paying 5 and then 105 on weekdays. *)
Example C75_case : let b := mkBond (V := R) String.EmptyString [mkFlow (mkDate 2025 9 1) (mkDate 2025 9 1) 5; mkFlow (mkDate 2026 3 2) (mkDate 2026 3 2) 105] in
  exists c v, curve_new (act_365 RV) (Linear RV) ex_settle ex_maturities ex_yields = Ret (Ok c)
  /\ (forall f, In f (bond_cash_flows b) -> a_date (payment_date f) /\ 0 <= payment_amount f)
  /\ discounted_value (V := RV) (act_365 RV) b ex_settle c = Ret (Ok v).
Proof.
  destruct (ex_hyps (act_365 RV)) as (t & Ht & Inc & K); [now right |].
  assert (forall m, In m ex_maturities -> act_365 RV ex_settle m = Ret (Ok (t m))) as Ht' by (intros m _; apply Ht).
  destruct (C74_linear (act_365 RV) ex_settle ex_maturities ex_yields t 0 1 eq_refl ltac:(simpl; lia) Ht' Inc) as (c & Ec & _).
  { intros y [<- | [<- | [<- | []]]]; lra. }
  assert (forall d k, date_sub d ex_settle = k -> t d = IZR k / 365) as T.
  { intros d k Q. specialize (Ht d). unfold act_365 in Ht. rewrite Q in Ht. simpl in Ht. injection Ht as <-. reflexivity. }
  assert (forall d, ~ earlier d ex_settle -> (365 <= date_sub d ex_settle <= 1460)%Z ->
    exists v, discount_factor (act_365 RV) c ex_settle d = Ret (Ok v)) as Df.
  { intros d O Hd. assert (in_range (curve_points t ex_maturities ex_yields) (t d)) as Hr.
    { split; [change (t (mkDate 2025 3 1) <= t d) | change (t d <= t (mkDate 2028 2 29))].
      - rewrite (T d _ eq_refl), (T (mkDate 2025 3 1) 365%Z eq_refl). apply Rmult_le_compat_r; [lra |]. apply IZR_le. lia.
      - rewrite (T d _ eq_refl), (T (mkDate 2028 2 29) 1460%Z eq_refl). apply Rmult_le_compat_r; [lra |]. apply IZR_le. lia. }
    destruct (g_cell _ _ Inc ltac:(simpl; lia) Hr) as (i & Hi & Ci).
    exists (exp (- t d * chord (curve_points t ex_maturities ex_yields) i (t d))).
    apply (reads (act_365 RV) (Linear RV) ex_settle ex_maturities ex_yields t c d _ eq_refl Ht' Ec (Ht d) O).
    apply (linear_closed _ _ i Inc Hi Ci). }
  destruct (Df (mkDate 2025 9 1)) as (v1 & E1); [unfold earlier; simpl; lia | vm_compute; split; discriminate |].
  destruct (Df (mkDate 2026 3 2)) as (v2 & E2); [unfold earlier; simpl; lia | vm_compute; split; discriminate |].
  intros b. exists c. eexists. split; [exact Ec |]. split.
  - intros f [<- | [<- | []]]; split; try (apply valid_a_date; reflexivity); simpl; lra.
  - apply (C50_sum (act_365 RV) (Linear RV) b ex_settle c (df_of (act_365 RV) (Linear RV) c ex_settle)).
    intros f [<- | [<- | []]] _; unfold df_of; simpl payment_date; [rewrite E1 | rewrite E2]; reflexivity.
Qed.

(** The bond of [C75_case] under yields one percentage point higher. *)
Example C73_case : exists c c' (b : Bond R) v v', curve_new (act_365 RV) (Linear RV) ex_settle ex_maturities ex_yields = Ret (Ok c)
  /\ curve_new (act_365 RV) (Linear RV) ex_settle ex_maturities (parallel (1 / 100) ex_yields) = Ret (Ok c')
  /\ discounted_value (V := RV) (act_365 RV) b ex_settle c = Ret (Ok v)
  /\ discounted_value (V := RV) (act_365 RV) b ex_settle c' = Ret (Ok v') /\ v' < v.
Proof.
  destruct C75_case as (c & v & Ec & Hb & Ev). set (b := mkBond _ _) in *.
  destruct (ex_hyps (act_365 RV)) as (t & Ht & Inc & K); [now right |].
  destruct (C73_linear (act_365 RV) ex_settle ex_maturities ex_yields (1 / 100)) as (c1 & c' & Ec1 & Ec' & F).
  { now right. } { lra. } { reflexivity. } { simpl; lia. }
  { now apply valid_a_date. }
  { intros m [<- | [<- | [<- | []]]]; now apply valid_a_date. }
  { intros [| [| [| i]]] [| [| [| j]]] mi mj Hij Ei Ej; simpl in Ei, Ej; try lia;
      try (destruct i; discriminate Ei); try (destruct j; discriminate Ej);
      injection Ei as <-; injection Ej as <-; unfold earlier; simpl; lia. }
  assert (c1 = c) as -> by congruence.
  destruct (F b ex_settle v) as (v' & Ev' & _ & Lt).
  { now apply valid_a_date. } { exact Hb. } { exact Ev. }
  exists c, c', b, v, v'. repeat split; try assumption. apply Lt; [lra |].
  exists (mkFlow (mkDate 2025 9 1) (mkDate 2025 9 1) 5). repeat split; try (now left); try (unfold earlier; simpl; lia). simpl. lra.
Qed.
