(** C104: how close a curve built from quotes is to the yields the quotes were taken from. *)
From Coq Require Import ZArith Reals List Arith Lia Lra.
From Verif Require Import Base Chrono DateModel DateFacts Value RealValue DayCountModel InterpModel InterpFacts CurveModel BondModel
  Gregorian Grid Piecewise PropsDate PropsDayCount PropsLinear PropsHermite PropsCatmullRom PropsNaturalCubic PropsCurve PropsBond PropsShift PropsRisk
  PropsStability PropsNcStability PropsApprox.
Import ListNotations.
Open Scope R_scope.

(** ** Specification *)

(** A year has [K] days. *)
Definition year_of (K : Z) (D : DayCount RV) : Prop := (K = 360%Z /\ D = act_360 RV) \/ (K = 365%Z /\ D = act_365 RV).

(** The time from the settlement date. *)
Definition years (K : Z) (s d : Date) : R := IZR (serial_date d - serial_date s) / IZR K.

(** The quotes are the yields [f] at maturities one to [G] days apart. *)
Definition quoted (K : Z) (f : R -> R) (s : Date) (ms : list Date) (ys : list R) (G : Z) : Prop :=
  a_date s /\ length ms = length ys
  /\ (forall i m y, nth_error ms i = Some m -> nth_error ys i = Some y -> a_date m /\ y = f (years K s m))
  /\ forall i m m', nth_error ms i = Some m -> nth_error ms (S i) = Some m' -> (1 <= serial_date m' - serial_date m <= G)%Z.

(** All maturities lie between the times [a] and [b]. *)
Definition spanned (K : Z) (s : Date) (ms : list Date) (a b : R) : Prop := forall m, In m ms -> a <= years K s m <= b.

(** The factor between two dates when the yield for the time [t] is [f t]. *)
Definition true_factor (K : Z) (f : R -> R) (s d1 d2 : Date) : R :=
  exp (years K s d1 * f (years K s d1) - years K s d2 * f (years K s d2)).

(** ** Lemmas *)

Section Quotes.
Context (K : Z) (D : DayCount RV) (f : R -> R) (s : Date) (ms : list Date) (ys : list R) (G : Z).
Hypothesis HD : year_of K D.

Lemma count_in_years d : D s d = Ret (Ok (years K s d)).
Proof. unfold years. destruct HD as [(-> & ->) | (-> & ->)]; reflexivity. Qed.

Lemma K_pos : 0 < IZR K.
Proof. destruct HD as [(-> & _) | (-> & _)]; lra. Qed.

Lemma years_diff d d' : years K s d' - years K s d = IZR (serial_date d' - serial_date d) / IZR K.
Proof. unfold years. rewrite !minus_IZR. field. pose proof K_pos. lra. Qed.

Lemma years_start : years K s s = 0.
Proof. unfold years. rewrite Z.sub_diag. field. pose proof K_pos. lra. Qed.

Hypothesis HQ : quoted K f s ms ys G.

Let Hl : length ms = length ys := proj1 (proj2 HQ).

Let p := curve_points (years K s) ms ys.

Lemma quote_at i : (i < length p)%nat -> exists m, nth_error ms i = Some m /\ gx p i = years K s m /\ gy p i = f (years K s m).
Proof.
  intros Hi. unfold p in *. rewrite curve_points_length in Hi by exact Hl.
  destruct (nth_error ms i) as [m |] eqn:Em; [| apply nth_error_None in Em; lia].
  destruct (nth_error ys i) as [y |] eqn:Ey; [| apply nth_error_None in Ey; lia].
  destruct (curve_points_nth (years K s) ms ys i m y Hl Em Ey) as (_ & Ex & E). exists m. split; [reflexivity |]. split; [exact Ex |].
  rewrite E. exact (proj2 (proj1 (proj2 (proj2 HQ)) i m y Em Ey)).
Qed.

Lemma quote_widths i : (i + 1 < length p)%nat -> 0 < 1 / IZR K <= gx p (i + 1) - gx p i /\ gx p (i + 1) - gx p i <= IZR G / IZR K.
Proof.
  intros Hi. destruct (quote_at i ltac:(lia)) as (m & Em & X0 & _). destruct (quote_at (i + 1) Hi) as (m' & Em' & X1 & _). rewrite X0, X1.
  replace (i + 1)%nat with (S i) in Em' by lia. pose proof (proj2 (proj2 (proj2 HQ))) as Gap. destruct (Gap i m m' Em Em') as (G1 & G2).
  apply IZR_le in G1, G2. rewrite years_diff. pose proof K_pos as PK. pose proof (Rinv_0_lt_compat _ PK) as PI.
  unfold Rdiv. split; [split; [lra | apply Rmult_le_compat_r; lra] | apply Rmult_le_compat_r; lra].
Qed.

Lemma quote_increasing : increasing p.
Proof.
  intros i j (Hij & Hj). induction Hij as [| j Hij IH].
  - pose proof (quote_widths i ltac:(lia)). replace (i + 1)%nat with (S i) in * by lia. lra.
  - pose proof (quote_widths j ltac:(lia)). replace (j + 1)%nat with (S j) in * by lia. specialize (IH ltac:(lia)). lra.
Qed.

Lemma quote_sampled : sampled f p.
Proof. intros i Hi. destruct (quote_at i Hi) as (m & _ & X & Y). now rewrite X, Y. Qed.

Lemma quote_span a b : (1 <= length ms)%nat -> spanned K s ms a b -> a <= gx p 0 /\ gx p (last_of p) <= b.
Proof.
  intros H1 Sp. assert (length p = length ms) as Lp by (unfold p; now apply curve_points_length).
  destruct (quote_at 0 ltac:(lia)) as (m & Em & X0 & _). destruct (quote_at (last_of p) ltac:(unfold last_of; lia)) as (m' & Em' & X1 & _). rewrite X0, X1.
  split; apply Sp; eapply nth_error_In; eassumption.
Qed.

Lemma years_pos d1 d2 : a_date d1 -> a_date d2 -> ~ earlier d2 d1 -> ~ earlier d1 s -> 0 <= years K s d1 /\ 0 <= years K s d2.
Proof.
  intros A1 A2 O1 O2. rewrite (proj1 (C02_serial_order d2 d1 A2 A1)) in O1. rewrite (proj1 (C02_serial_order d1 s A1 (proj1 HQ))) in O2.
  unfold years. pose proof K_pos. split; (apply Rle_mult_inv_pos; [apply IZR_le; lia | assumption]).
Qed.

(** A curve whose yields are within [k] of [f] at the times [Q]. *)
Lemma close_curve (I : Interpolator RV) (Q : R -> Prop) k :
  (forall x v, Q x -> fit_eval I p x = Ret (Ok v) -> Rabs (v - f x) <= k) ->
  (exists x v, fit_eval I p x = Ret (Ok v)) ->
  exists c, curve_new D I s ms ys = Ret (Ok c)
    /\ forall d1 d2 v, a_date d1 -> a_date d2 -> discount_factor D c d1 d2 = Ret (Ok v) -> (d1 = s \/ Q (years K s d1)) -> Q (years K s d2) ->
       within_factor (k * (years K s d1 + years K s d2)) (true_factor K f s d1 d2) v.
Proof.
  intros Mv (x0 & v0 & E0). pose proof (C43_fit RV D I s ms ys (years K s) Hl (fun m _ => count_in_years m)) as F. cbv zeta in F.
  change (combine (map (years K s) ms) ys) with p in F. unfold fit_eval in E0.
  destruct (i_try_fit I (i_default I) p) as [[g | e] | |]; try discriminate. destruct F as (c & Ec & Es & Ev).
  exists c. split; [exact Ec |]. intros d1 d2 v A1 A2 H Q1 Q2. apply df_ok in H. rewrite Es in H. destruct H as (O1 & O2 & t2 & y2 & E2 & Y2 & C).
  pose proof (eq_trans (eq_sym (count_in_years d2)) E2) as T2. injection T2 as <-.
  rewrite <- Ev in Y2. pose proof (Mv _ _ Q2 Y2) as B2. apply abs_inv in B2. unfold true_factor. pose proof K_pos as PK.
  destruct (years_pos d1 d2 A1 A2 O1 O2) as (P1 & P2).
  destruct C as [(-> & ->) | (Nd & t1 & y1 & E1 & Y1 & ->)].
  - rewrite years_start. apply exp_within. split; nra.
  - pose proof (eq_trans (eq_sym (count_in_years d1)) E1) as T1. injection T1 as <-. destruct Q1 as [Q1 | Q1]; [contradiction |].
    rewrite <- Ev in Y1. pose proof (Mv _ _ Q1 Y1) as B1. apply abs_inv in B1.
    apply exp_within.
    assert (- (k * years K s d1) <= years K s d1 * (y1 - f (years K s d1)) <= k * years K s d1) by (split; nra).
    assert (- (k * years K s d2) <= years K s d2 * (y2 - f (years K s d2)) <= k * years K s d2) by (split; nra). lra.
Qed.

(** A bond on such a curve. *)
Lemma close_value (I : Interpolator RV) (c : YieldCurve RV I) k (b : Bond R) settle (v : R) T : 0 <= k -> a_date settle ->
  (forall d1 d2 v, a_date d1 -> a_date d2 -> discount_factor D c d1 d2 = Ret (Ok v) -> within_factor (k * (years K s d1 + years K s d2)) (true_factor K f s d1 d2) v) ->
  (forall g, In g (bond_cash_flows b) -> earlier settle (due_date g) -> a_date (payment_date g) /\ 0 <= payment_amount g /\ years K s settle + years K s (payment_date g) <= T) ->
  discounted_value (V := RV) D b settle c = Ret (Ok v) ->
  within_factor (k * T) (total (map (fun g => true_factor K f s settle (payment_date g) * payment_amount g) (filter (open_flow settle) (bond_cash_flows b)))) v.
Proof.
  intros Pk As Mv Hf Hv. destruct (value_total D I b settle c v Hv) as (-> & Df). unfold within_factor.
  assert (forall z (l : list (BondCashFlow R)), total (map (fun g => true_factor K f s settle (payment_date g) * payment_amount g) l) * z
    = total (map (fun g => true_factor K f s settle (payment_date g) * payment_amount g * z) l)) as Sc.
  { clear. intros z l. unfold total. induction l as [| g l IH]; simpl; [ring |]. simpl in IH. rewrite <- IH. ring. }
  rewrite !Sc. split; apply total_le; intros g Hg; apply filter_In in Hg; destruct Hg as (Hig & Og); apply open_flow_spec in Og;
    destruct (Hf g Hig Og) as (Ag & Pa & PT), (Mv _ _ _ As (proj1 (Hf g Hig Og)) (Df g Hig Og)) as (W1 & W2);
    pose proof (exp_pos (years K s settle * f (years K s settle) - years K s (payment_date g) * f (years K s (payment_date g)))) as Pf;
    fold (true_factor K f s settle (payment_date g)) in Pf;
    set (F := true_factor K f s settle (payment_date g)) in *.
  - assert (F * exp (- (k * T)) <= df_of D I c settle (payment_date g)) as W.
    { eapply Rle_trans; [| exact W1]. apply Rmult_le_compat_l; [lra |]. apply exp_le_mono. nra. }
    apply (Rmult_le_compat_r _ _ _ Pa) in W. lra.
  - assert (df_of D I c settle (payment_date g) <= F * exp (k * T)) as W.
    { eapply Rle_trans; [exact W2 |]. apply Rmult_le_compat_l; [lra |]. apply exp_le_mono. nra. }
    apply (Rmult_le_compat_r _ _ _ Pa) in W. lra.
Qed.

End Quotes.

Lemma bent_pos M f a b x : a <= x <= b -> bent M f a b -> 0 <= M.
Proof. intros Hx (f1 & f2 & D). destruct (D x Hx) as (_ & _ & B). pose proof (Rabs_pos (f2 x)). lra. Qed.

Lemma some_cell p x : increasing p -> (2 <= length p)%nat -> in_range p x ->
  exists i, (i + 1 < length p)%nat /\ gx p i <= x <= gx p (i + 1).
Proof.
  intros H Hl Hx. destruct (Rle_lt_or_eq_dec _ _ (proj1 Hx)) as [L | <-].
  - destruct (cell_left (gx p) (length p) Hl H x) as (i & Hi & Ci); [unfold in_range, last_of in Hx; lra |]. exists i. split; [exact Hi | lra].
  - exists 0%nat. split; [lia |]. split; [lra |]. left. apply H. lia.
Qed.

(** Values of the interpolants that exist are close to [f]. *)
Lemma linear_close k f p : increasing p -> (2 <= length p)%nat ->
  (forall i x, (i + 1 < length p)%nat -> gx p i <= x <= gx p (i + 1) ->
     exists v, fit_eval (Linear RV) p x = Ret (Ok v) /\ Rabs (v - f x) <= k) ->
  (forall x v, True -> fit_eval (Linear RV) p x = Ret (Ok v) -> Rabs (v - f x) <= k) /\ exists x v, fit_eval (Linear RV) p x = Ret (Ok v).
Proof.
  intros H Hl B. split.
  - intros x v _ E. pose proof (linear_ok_range p x v (increasing_sorted p H) E) as Hx.
    destruct (some_cell p x H Hl Hx) as (i & Hi & Ci). destruct (B i x Hi Ci) as (u & Eu & Bu). rewrite E in Eu. injection Eu as ->. exact Bu.
  - exists (gx p 0), (gy p 0). apply C24_knots; [exact H | lia | lia].
Qed.

Lemma natural_close k f p : increasing p -> (4 <= length p)%nat ->
  (forall i x, (i + 1 < length p)%nat -> gx p i <= x <= gx p (i + 1) ->
     exists v, fit_eval (NaturalCubic RV) p x = Ret (Ok v) /\ Rabs (v - f x) <= k) ->
  (forall x v, True -> fit_eval (NaturalCubic RV) p x = Ret (Ok v) -> Rabs (v - f x) <= k)
  /\ exists x v, fit_eval (NaturalCubic RV) p x = Ret (Ok v).
Proof.
  intros H Hl B. split.
  - intros x v _ E. pose proof (nc_ok_range p x v H ltac:(lia) E) as Hx.
    destruct (some_cell p x H ltac:(lia) Hx) as (i & Hi & Ci). destruct (B i x Hi Ci) as (u & Eu & Bu). rewrite E in Eu. injection Eu as ->. exact Bu.
  - destruct (B 0%nat (gx p 0) ltac:(lia)) as (v & E & _); [split; [lra | left; apply H; lia] |]. eauto.
Qed.

(** ** C104 *)

(** Linear curves: within exp(M (G/K)^2 / 8 (t1 + t2)) of the true factor when the second derivative of the yield is at most [M]. *)
Theorem C104_linear_smooth : forall K D f s ms (ys : list R) G M a b, year_of K D -> quoted K f s ms ys G -> (2 <= length ms)%nat ->
  spanned K s ms a b -> bent M f a b ->
  exists c, curve_new D (Linear RV) s ms ys = Ret (Ok c)
    /\ forall d1 d2 v, a_date d1 -> a_date d2 -> discount_factor D c d1 d2 = Ret (Ok v) ->
       within_factor (M * (IZR G / IZR K) ^ 2 / 8 * (years K s d1 + years K s d2)) (true_factor K f s d1 d2) v.
Proof.
  intros K D f s ms ys G M a b HD HQ H2 Sp Be. set (p := curve_points (years K s) ms ys).
  pose proof (quote_increasing K D f s ms ys G HD HQ) as Inc. fold p in Inc.
  assert (length p = length ms) as Lp by (apply curve_points_length, HQ).
  destruct (quote_span K f s ms ys G HQ a b ltac:(lia) Sp) as (Sa & Sb). fold p in Sa, Sb.
  destruct (linear_close (M * (IZR G / IZR K) ^ 2 / 8) f p Inc ltac:(lia)) as (B & Ex).
  - intros i x Hi Ci. pose proof (knots_range p i Inc ltac:(lia)) as K0. pose proof (knots_range p (i + 1) Inc Hi) as K1.
    assert (bent M f (gx p i) (gx p (i + 1))) as Bi by (apply (bent_within M f a b); [lra | lra | exact Be]).
    destruct (C103_linear_smooth M f p i x Inc Hi (quote_sampled K f s ms ys G HQ) Bi Ci) as (v & E & Bv). exists v. split; [exact E |].
    eapply Rle_trans; [exact Bv |]. pose proof (bent_pos _ _ _ _ x Ci Bi) as PM.
    destruct (quote_widths K D f s ms ys G HD HQ i Hi) as (W0 & W1). fold p in W0, W1.
    assert ((gx p (i + 1) - gx p i) ^ 2 <= (IZR G / IZR K) ^ 2) as W2 by (apply pow_incr; lra).
    apply (Rmult_le_compat_l M _ _ PM) in W2. lra.
  - destruct (close_curve K D f s ms ys G HD HQ (Linear RV) (fun _ => True) _ B Ex) as (c & Ec & Mv). exists c. split; [exact Ec |].
    intros d1 d2 v A1 A2 H. apply Mv; auto.
Qed.
Print Assumptions C104_linear_smooth.

(** Linear curves: within exp(L G/K / 2 (t1 + t2)) when the yield changes by at most [L] a year. *)
Theorem C104_linear_lipschitz : forall K D f s ms (ys : list R) G L a b, year_of K D -> quoted K f s ms ys G -> (2 <= length ms)%nat ->
  spanned K s ms a b -> lipschitz L f a b ->
  exists c, curve_new D (Linear RV) s ms ys = Ret (Ok c)
    /\ forall d1 d2 v, a_date d1 -> a_date d2 -> discount_factor D c d1 d2 = Ret (Ok v) ->
       within_factor (L * (IZR G / IZR K) / 2 * (years K s d1 + years K s d2)) (true_factor K f s d1 d2) v.
Proof.
  intros K D f s ms ys G L a b HD HQ H2 Sp Li. set (p := curve_points (years K s) ms ys).
  pose proof (quote_increasing K D f s ms ys G HD HQ) as Inc. fold p in Inc.
  assert (length p = length ms) as Lp by (apply curve_points_length, HQ).
  destruct (quote_span K f s ms ys G HQ a b ltac:(lia) Sp) as (Sa & Sb). fold p in Sa, Sb.
  destruct (linear_close (L * (IZR G / IZR K) / 2) f p Inc ltac:(lia)) as (B & Ex).
  - intros i x Hi Ci. pose proof (knots_range p i Inc ltac:(lia)) as K0. pose proof (knots_range p (i + 1) Inc Hi) as K1.
    assert (lipschitz L f (gx p i) (gx p (i + 1))) as Bi by (apply (lipschitz_within L f a b); [lra | lra | exact Li]).
    destruct (C103_linear_lipschitz L f p i x Inc Hi (quote_sampled K f s ms ys G HQ) Bi Ci) as (v & E & Bv). exists v. split; [exact E |].
    eapply Rle_trans; [exact Bv |]. assert (gx p i < gx p (i + 1)) as Lt by (apply Inc; lia). pose proof (lipschitz_pos _ _ _ _ Lt Bi) as PL.
    destruct (quote_widths K D f s ms ys G HD HQ i Hi) as (W0 & W1). fold p in W0, W1.
    apply (Rmult_le_compat_l L _ _ PL) in W1. lra.
  - destruct (close_curve K D f s ms ys G HD HQ (Linear RV) (fun _ => True) _ B Ex) as (c & Ec & Mv). exists c. split; [exact Ec |].
    intros d1 d2 v A1 A2 H. apply Mv; auto.
Qed.
Print Assumptions C104_linear_lipschitz.

(** Natural cubic curves from four quotes on: within exp(7/8 M (G/K)^2 (t1 + t2)). *)
Theorem C104_natural_cubic : forall K D f s ms (ys : list R) G M a b, year_of K D -> quoted K f s ms ys G -> (4 <= length ms)%nat ->
  spanned K s ms a b -> bent M f a b ->
  exists c, curve_new D (NaturalCubic RV) s ms ys = Ret (Ok c)
    /\ forall d1 d2 v, a_date d1 -> a_date d2 -> discount_factor D c d1 d2 = Ret (Ok v) ->
       within_factor (7 / 8 * (M * (IZR G / IZR K) ^ 2) * (years K s d1 + years K s d2)) (true_factor K f s d1 d2) v.
Proof.
  intros K D f s ms ys G M a b HD HQ H2 Sp Be. set (p := curve_points (years K s) ms ys).
  pose proof (quote_increasing K D f s ms ys G HD HQ) as Inc. fold p in Inc.
  assert (length p = length ms) as Lp by (apply curve_points_length, HQ).
  destruct (quote_span K f s ms ys G HQ a b ltac:(lia) Sp) as (Sa & Sb). fold p in Sa, Sb.
  assert (bent M f (gx p 0) (gx p (last_of p))) as Bp by (apply (bent_within M f a b); [lra | lra | exact Be]).
  destruct (natural_close (7 / 8 * (M * (IZR G / IZR K) ^ 2)) f p Inc ltac:(lia)) as (B & Ex).
  - intros i x Hi Ci.
    destruct (C103_natural_cubic_smooth M f p i x Inc ltac:(lia) Hi (quote_sampled K f s ms ys G HQ) Bp Ci) as (v & E & Bv).
    exists v. split; [exact E |]. eapply Rle_trans; [exact Bv |].
    pose proof (knots_range p 0 Inc ltac:(lia)) as K0. pose proof (bent_pos M f (gx p 0) (gx p (last_of p)) (gx p 0) ltac:(lra) Bp) as PM.
    destruct (quote_widths K D f s ms ys G HD HQ i Hi) as (W0 & W1). fold p in W0, W1.
    assert ((gx p (i + 1) - gx p i) ^ 2 <= (IZR G / IZR K) ^ 2) as W2 by (apply pow_incr; lra).
    apply (Rmult_le_compat_l M _ _ PM) in W2. lra.
  - destruct (close_curve K D f s ms ys G HD HQ (NaturalCubic RV) (fun _ => True) _ B Ex) as (c & Ec & Mv). exists c. split; [exact Ec |].
    intros d1 d2 v A1 A2 H. apply Mv; auto.
Qed.
Print Assumptions C104_natural_cubic.

(** Catmull-Rom curves up to the last maturity but one: within exp(14/5 L G/K (t1 + t2)). *)
Theorem C104_catmull_rom : forall K D f s ms (ys : list R) G L a b m1, year_of K D -> quoted K f s ms ys G -> (3 <= length ms)%nat ->
  spanned K s ms a b -> lipschitz L f a b -> nth_error ms (length ms - 2) = Some m1 ->
  exists c, curve_new D (CatmullRom RV) s ms ys = Ret (Ok c)
    /\ forall d1 d2 v, a_date d1 -> a_date d2 -> ~ earlier m1 d2 -> discount_factor D c d1 d2 = Ret (Ok v) ->
       within_factor (14 / 5 * (L * (IZR G / IZR K)) * (years K s d1 + years K s d2)) (true_factor K f s d1 d2) v.
Proof.
  intros K D f s ms ys G L a b m1 HD HQ H2 Sp Li E1. set (p := curve_points (years K s) ms ys).
  pose proof (quote_increasing K D f s ms ys G HD HQ) as Inc. fold p in Inc.
  assert (length p = length ms) as Lp by (apply curve_points_length, HQ).
  destruct (quote_span K f s ms ys G HQ a b ltac:(lia) Sp) as (Sa & Sb). fold p in Sa, Sb.
  assert (lipschitz L f (gx p 0) (gx p (last_of p))) as Bp by (apply (lipschitz_within L f a b); [lra | lra | exact Li]).
  assert (gx p (length p - 2) = years K s m1) as X1.
  { destruct (quote_at K f s ms ys G HQ (length p - 2)) as (m & Em & X & _); [fold p; lia |]. fold p in X. rewrite X.
    rewrite Lp, E1 in Em. now injection Em as ->. }
  assert (0 < gx p (last_of p) - gx p 0) as Wp by (apply Rlt_Rminus, Inc; unfold last_of; lia).
  pose proof (lipschitz_pos L f (gx p 0) (gx p (last_of p)) ltac:(lra) Bp) as PL.
  destruct (close_curve K D f s ms ys G HD HQ (CatmullRom RV) (fun x => x <= years K s m1) (14 / 5 * (L * (IZR G / IZR K)))) as (c & Ec & Mv).
  - intros x v Qx E. fold p in E. pose proof (cr_ok_range p x v Inc ltac:(lia) E) as Hx.
    assert (exists i, (i + 2 < length p)%nat /\ gx p i <= x <= gx p (i + 1)) as (i & Hi & Ci).
    { destruct (some_cell p x Inc ltac:(lia) Hx) as (i & Hi & Ci). destruct (Nat.lt_ge_cases (i + 2) (length p)) as [C | C]; [eauto |].
      exists (length p - 3)%nat. split; [lia |]. replace (length p - 3 + 1)%nat with (length p - 2)%nat by lia.
      replace i with (length p - 2)%nat in Ci by lia. rewrite X1 in *.
      assert (gx p (length p - 3) < gx p (length p - 2)) by (apply Inc; lia). lra. }
    destruct (C103_catmull_rom L (IZR G / IZR K) f p i x Inc Hi (quote_sampled K f s ms ys G HQ) Bp) as (u & Eu & Bu); [| exact Ci |].
    + intros j Hj. apply (quote_widths K D f s ms ys G HD HQ j). fold p. lia.
    + rewrite E in Eu. injection Eu as ->. exact Bu.
  - exists (gx p 0), (gy p 0). apply C30_knots_partial; [exact Inc | lia | unfold last_of; lia].
  - exists c. split; [exact Ec |]. intros d1 d2 v A1 A2 O2 H.
    assert (a_date m1) as Am.
    { destruct HQ as (_ & Hl & Hq & _). destruct (nth_error ys (length ms - 2)) as [y |] eqn:Ey; [| apply nth_error_None in Ey; lia].
      exact (proj1 (Hq _ _ _ E1 Ey)). }
    assert (years K s d2 <= years K s m1) as Q2.
    { rewrite (proj1 (C02_serial_order m1 d2 Am A2)) in O2. unfold years. pose proof (K_pos K D HD) as PK.
      apply Rmult_le_compat_r; [left; now apply Rinv_0_lt_compat |]. apply IZR_le. lia. }
    apply Mv; auto. right. pose proof H as H'. apply df_ok in H'. destruct H' as (O1 & _).
    rewrite (proj1 (C02_serial_order d2 d1 A2 A1)) in O1. apply Rle_trans with (years K s d2); [| exact Q2].
    unfold years. pose proof (K_pos K D HD) as PK. apply Rmult_le_compat_r; [left; now apply Rinv_0_lt_compat |]. apply IZR_le. lia.
Qed.
Print Assumptions C104_catmull_rom.

(** Bonds on linear curves: within exp(M (G/K)^2 / 8 T) of the sum of the amounts times the true factors, [T] at least
    the times of settlement and payment together. *)
Theorem C104_value : forall K D f s ms (ys : list R) G M a b, year_of K D -> quoted K f s ms ys G -> (2 <= length ms)%nat ->
  spanned K s ms a b -> bent M f a b ->
  exists c, curve_new D (Linear RV) s ms ys = Ret (Ok c)
    /\ forall (bond : Bond R) settle (v : R) T, a_date settle ->
       (forall g, In g (bond_cash_flows bond) -> earlier settle (due_date g) ->
          a_date (payment_date g) /\ 0 <= payment_amount g /\ years K s settle + years K s (payment_date g) <= T) ->
       discounted_value (V := RV) D bond settle c = Ret (Ok v) ->
       within_factor (M * (IZR G / IZR K) ^ 2 / 8 * T)
         (total (map (fun g => true_factor K f s settle (payment_date g) * payment_amount g)
                   (filter (open_flow settle) (bond_cash_flows bond)))) v.
Proof.
  intros K D f s ms ys G M a b HD HQ H2 Sp Be.
  destruct (C104_linear_smooth K D f s ms ys G M a b HD HQ H2 Sp Be) as (c & Ec & Mv). exists c. split; [exact Ec |].
  intros bond settle v T As Hf Hv. apply (close_value K D f s (Linear RV) c); auto.
  destruct ms as [| m ms]; [simpl in H2; lia |]. pose proof (bent_pos M f a b (years K s m) (Sp m ltac:(now left)) Be) as PM.
  assert (0 <= M * (IZR G / IZR K) ^ 2) by (apply Rmult_le_pos; [exact PM | apply pow2_ge_0]). lra.
Qed.
Print Assumptions C104_value.

(** At the last maturity Catmull-Rom is off by a third of the yield, however close the quotes are: a flat 5% is taken for 20/3 %. *)
Theorem C104_last_maturity_refuted : exists f : R -> R, (forall a b, lipschitz 0 f a b) /\
  forall K D s ms (ys : list R) G m2 m1 m, year_of K D -> quoted K f s ms ys G -> (3 <= length ms)%nat ->
    nth_error ms (length ms - 3) = Some m2 -> nth_error ms (length ms - 2) = Some m1 -> nth_error ms (length ms - 1) = Some m ->
    (serial_date m - serial_date m1 = serial_date m1 - serial_date m2)%Z -> earlier s m ->
    exists c v, curve_new D (CatmullRom RV) s ms ys = Ret (Ok c) /\ discount_factor D c s m = Ret (Ok v)
      /\ true_factor K f s s m = exp (- (years K s m * (5 / 100))) /\ v = exp (- (years K s m * (20 / 3 / 100))) /\ v < true_factor K f s s m.
Proof.
  exists (fun _ => 5 / 100). split; [intros a b u v _ _; rewrite Rminus_diag_eq, Rabs_R0 by reflexivity; lra |].
  intros K D s ms ys G m2 m1 m HD HQ H3 E2 E1 E0 Gap Os. set (f := fun _ : R => 5 / 100) in *. set (p := curve_points (years K s) ms ys).
  pose proof (quote_increasing K D f s ms ys G HD HQ) as Inc. fold p in Inc.
  assert (length p = length ms) as Lp by (apply curve_points_length, HQ).
  assert (forall k mk, nth_error ms k = Some mk -> gx p k = years K s mk /\ gy p k = 5 / 100) as At.
  { intros k mk Ek. assert (k < length p)%nat as Hk by (rewrite Lp; apply nth_error_Some; congruence).
    destruct (quote_at K f s ms ys G HQ k Hk) as (m' & Em & X & Y). fold p in X, Y. rewrite Ek in Em. injection Em as <-. split; assumption. }
  destruct (At _ _ E2) as (X2 & _), (At _ _ E1) as (X1 & _), (At _ _ E0) as (X0 & Y0).
  destruct (C30_last_knot p Inc ltac:(lia)) as (E & _). unfold last_of in E. rewrite Lp in E.
  replace (length ms - 1 - 1)%nat with (length ms - 2)%nat in E by lia. replace (length ms - 1 - 2)%nat with (length ms - 3)%nat in E by lia.
  rewrite X2, X1, X0, Y0 in E.
  assert (years K s m2 < years K s m1) as L2 by (rewrite <- X2, <- X1; apply Inc; lia).
  assert (years K s m - years K s m1 = years K s m1 - years K s m2) as Eg by (rewrite !(years_diff K D s HD); now rewrite Gap).
  replace (years K s m - years K s m2) with (2 * (years K s m - years K s m1)) in E by lra.
  match type of E with _ = Ret (Ok ?V) => replace V with (20 / 3 / 100) in E by (field; lra) end.
  pose proof (C43_fit RV D (CatmullRom RV) s ms ys (years K s) (proj1 (proj2 HQ)) (fun m _ => count_in_years K D s HD m)) as F. cbv zeta in F.
  change (combine (map (years K s) ms) ys) with p in F. pose proof E as E'. unfold fit_eval in E'.
  destruct (i_try_fit (CatmullRom RV) (i_default (CatmullRom RV)) p) as [[g | e] | |]; try discriminate. destruct F as (c & Ec & Es & Ev).
  assert (a_date m) as Am.
  { destruct HQ as (_ & Hl & Hq & _). destruct (nth_error ys (length ms - 1)) as [y |] eqn:Ey; [| apply nth_error_None in Ey; lia].
    exact (proj1 (Hq _ _ _ E0 Ey)). }
  pose proof Os as Os'. rewrite (proj1 (C02_serial_order s m (proj1 HQ) Am)) in Os'.
  assert (0 < years K s m) as Pm.
  { unfold years. apply Rdiv_lt_0_compat; [apply IZR_lt; lia | exact (K_pos K D HD)]. }
  exists c. eexists. split; [exact Ec |]. rewrite Ev in E. split.
  - refine (proj1 (df_intro D (CatmullRom RV) c s m (years K s m) (20 / 3 / 100) _ _ _ _ _) _); rewrite ?Es; try exact E; try reflexivity;
      try (apply count_in_years; exact HD); unfold earlier in *; lia.
  - unfold true_factor. rewrite (years_start K D s HD). unfold f.
    split; [f_equal; ring |]. split; [f_equal; ring |]. apply exp_increasing. lra.
Qed.
Print Assumptions C104_last_maturity_refuted.

(** Four quotes a year of 365 days apart, of a yield that grows with the square of the time and of a flat one. *)
Example C104_case :
  let ms := [mkDate 2025 3 1; mkDate 2026 3 1; mkDate 2027 3 1; mkDate 2028 2 29] in
  let f := fun t => (2 / 1000) / 2 * t ^ 2 in
  quoted 365 f ex_settle ms (map (fun m => f (years 365 ex_settle m)) ms) 365 /\ spanned 365 ex_settle ms 1 4
  /\ bent (2 / 1000) f 1 4 /\ lipschitz (8 / 1000) f 1 4
  /\ quoted 365 (fun _ => 5 / 100) ex_settle ms [5 / 100; 5 / 100; 5 / 100; 5 / 100] 365
  /\ exists c v, curve_new (act_365 RV) (Linear RV) ex_settle ms (map (fun m => f (years 365 ex_settle m)) ms) = Ret (Ok c)
       /\ discount_factor (act_365 RV) c ex_settle (mkDate 2026 9 1) = Ret (Ok v).
Proof.
  intros ms f.
  assert (forall k m, nth_error ms k = Some m -> a_date m /\ serial_date m = (serial_date ex_settle + 365 * (Z.of_nat k + 1))%Z) as At.
  { intros k m E. destruct k as [| [| [| [| k]]]]; simpl in E; try (destruct k; discriminate E); injection E as <-;
      (split; [now apply valid_a_date | reflexivity]). }
  assert (forall i m m', nth_error ms i = Some m -> nth_error ms (S i) = Some m' -> (1 <= serial_date m' - serial_date m <= 365)%Z) as Gap.
  { intros i m m' E E'. destruct (At _ _ E) as (_ & ->), (At _ _ E') as (_ & ->). lia. }
  assert (a_date ex_settle) as As by now apply valid_a_date.
  assert (quoted 365 f ex_settle ms (map (fun m => f (years 365 ex_settle m)) ms) 365) as Q.
  { split; [exact As |]. split; [reflexivity |]. split; [| exact Gap].
    intros i m y E Ey. split; [exact (proj1 (At _ _ E)) |]. rewrite (map_nth_error _ _ _ E) in Ey. now injection Ey as <-. }
  assert (spanned 365 ex_settle ms 1 4) as Sp.
  { intros m Hm. apply In_nth_error in Hm. destruct Hm as (k & E). assert (k < 4)%nat as Hk by (change 4%nat with (length ms); apply nth_error_Some; intros C; pose proof (eq_trans (eq_sym C) E) as C'; discriminate C').
    destruct (At _ _ E) as (_ & Es). unfold years. rewrite Es.
    replace (serial_date ex_settle + 365 * (Z.of_nat k + 1) - serial_date ex_settle)%Z with (365 * (Z.of_nat k + 1))%Z by lia.
    rewrite mult_IZR. replace (365 * IZR (Z.of_nat k + 1) / 365) with (IZR (Z.of_nat k + 1)) by (field). split; apply IZR_le; lia. }
  assert (bent (2 / 1000) f 1 4) as Be by (apply (C103_sharp (2 / 1000)); lra).
  split; [exact Q |]. split; [exact Sp |]. split; [exact Be |]. split.
  { intros u v Hu Hv. unfold f. replace (2 / 1000 / 2 * u ^ 2 - 2 / 1000 / 2 * v ^ 2) with ((u + v) / 1000 * (u - v)) by field.
    rewrite Rabs_mult, (Rabs_pos_eq ((u + v) / 1000)) by lra. apply Rmult_le_compat_r; [apply Rabs_pos | lra]. }
  split.
  { split; [exact As |]. split; [reflexivity |]. split; [| exact Gap].
    intros i m y E Ey. split; [exact (proj1 (At _ _ E)) |]. destruct i as [| [| [| [| i]]]]; simpl in Ey; try (destruct i; discriminate Ey); now injection Ey as <-. }
  assert (year_of 365 (act_365 RV)) as HD by now right.
  pose proof (quote_increasing 365 (act_365 RV) f ex_settle ms _ 365 HD Q) as Inc. set (ys := map (fun m : Date => f (years 365 ex_settle m)) ms) in *.
  set (p := curve_points (years 365 ex_settle) ms ys) in *. assert (length p = 4%nat) as Lp by reflexivity.
  assert (years 365 ex_settle (mkDate 2026 9 1) = 914 / 365) as T by reflexivity.
  assert (gx p 1 = 730 / 365) as X1 by reflexivity. assert (gx p 2 = 1095 / 365) as X2 by reflexivity.
  pose proof (linear_closed p (914 / 365) 1 Inc ltac:(lia) ltac:(rewrite X1; cbn [Nat.add]; rewrite X2; lra)) as E.
  pose proof (C43_fit RV (act_365 RV) (Linear RV) ex_settle ms ys (years 365 ex_settle) eq_refl (fun m _ => count_in_years 365 _ ex_settle HD m)) as F.
  cbv zeta in F. change (combine (map (years 365 ex_settle) ms) ys) with p in F. pose proof E as E'. unfold fit_eval in E'.
  destruct (i_try_fit (Linear RV) (i_default (Linear RV)) p) as [[g | e] | |]; try discriminate. destruct F as (c & Ec & Es & Ev).
  exists c. eexists. split; [exact Ec |]. rewrite Ev in E.
  refine (proj1 (df_intro (act_365 RV) (Linear RV) c ex_settle (mkDate 2026 9 1) (914 / 365) _ _ _ _ _ E) _); rewrite ?Es;
    try reflexivity; unfold earlier; simpl; lia.
Qed.
