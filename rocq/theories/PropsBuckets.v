(** Property C107: sums of yield curves, and changes of single yields. *)
From Coq Require Import ZArith Reals List Arith Lia Lra Psatz.
From Verif Require Import Base Chrono DateModel DateFacts Value RealValue DayCountModel InterpModel InterpFacts CurveModel BondModel
  Gregorian Grid PropsDate PropsDayCount PropsLinear PropsCatmullRom PropsNaturalCubic PropsCurve PropsBond PropsShift PropsRisk PropsSpread.
Import ListNotations.
Open Scope R_scope.

(** ** What is claimed of *)

(** Yields that are [a] times one list plus [b] times another. *)
Definition mixed (a b : R) (ys zs ws : list R) : Prop :=
  length ys = length ws /\ length zs = length ws
  /\ forall i y z w, nth_error ys i = Some y -> nth_error zs i = Some z -> nth_error ws i = Some w -> w = a * y + b * z.

(** The same yields but for number [k]. *)
Definition bumped (k : nat) (ys ys' : list R) : Prop :=
  length ys' = length ys /\ forall i, i <> k -> nth_error ys' i = nth_error ys i.

(** Date [d] is between two neighbouring maturities that are more than [n] maturities from number [k]. *)
Definition away (n : nat) (ms : list Date) (k : nat) (d : Date) : Prop :=
  exists i m m', nth_error ms i = Some m /\ nth_error ms (i + 1) = Some m' /\ ~ earlier d m /\ ~ earlier m' d
    /\ (k + n < i \/ i + 1 + n < k)%nat.

(** No yield is lower. *)
Definition raised_yields (ys ys' : list R) : Prop :=
  length ys' = length ys /\ forall i y y', nth_error ys i = Some y -> nth_error ys' i = Some y' -> y <= y'.

(** ** Reading curves *)

Lemma built (D : DayCount RV) (I : Interpolator RV) s ms (ys : list R) (t : Date -> R) : length ms = length ys ->
  (forall m, In m ms -> D s m = Ret (Ok (t m))) ->
  (exists x v, fit_eval I (curve_points t ms ys) x = Ret (Ok v)) ->
  exists c, curve_new D I s ms ys = Ret (Ok c) /\ settlement_date c = s
    /\ forall x, fit_eval I (curve_points t ms ys) x = i_try_value I (interpolator c) x.
Proof.
  intros Hl Ht (x0 & v0 & E0). pose proof (C43_fit RV D I s ms ys t Hl Ht) as F. cbv zeta in F.
  change (combine (map t ms) ys) with (curve_points t ms ys) in F. unfold fit_eval in E0.
  destruct (i_try_fit I (i_default I) (curve_points t ms ys)) as [[f | e] | |]; try discriminate.
  destruct F as (c & Ec & Es & Ev). eauto.
Qed.

(** The interpolators and the number of points each needs. *)
Definition interpolates (I : Interpolator RV) (n : nat) : Prop :=
  I = Linear RV /\ n = 2%nat \/ I = CatmullRom RV /\ n = 3%nat \/ I = NaturalCubic RV /\ n = 3%nat.

Lemma answers I n p : interpolates I n -> increasing p -> (n <= length p)%nat -> exists x v, fit_eval I p x = Ret (Ok v).
Proof.
  intros [(-> & ->) | [(-> & ->) | (-> & ->)]] H Hl.
  - exists (gx p 0), (gy p 0). apply C24_knots; [exact H | lia | lia].
  - exists (gx p 0), (gy p 0). apply C30_knots_partial; [exact H | lia | unfold last_of; lia].
  - destruct (C34_total p H Hl) as (F & HF). exists (gx p 0), (F (gx p 0)). apply HF. apply first_in_range; [exact H | lia].
Qed.

Lemma in_reach I n p x v : interpolates I n -> increasing p -> (n <= length p)%nat -> fit_eval I p x = Ret (Ok v) -> in_range p x.
Proof.
  intros [(-> & ->) | [(-> & ->) | (-> & ->)]] H Hl E.
  - exact (linear_ok_range p x v (increasing_sorted p H) E).
  - exact (cr_ok_range p x v H Hl E).
  - exact (nc_ok_range p x v H Hl E).
Qed.

Lemma mixed_points a b (t : Date -> R) ms ys zs ws : length ms = length ws -> mixed a b ys zs ws ->
  superposed a b (curve_points t ms ys) (curve_points t ms zs) (curve_points t ms ws).
Proof.
  intros Hl (L1 & L2 & A). assert (length ms = length ys) as M1 by congruence. assert (length ms = length zs) as M2 by congruence.
  split; [rewrite !curve_points_length by assumption; reflexivity |]. split; [rewrite !curve_points_length by assumption; reflexivity |].
  intros i Hi. rewrite curve_points_length in Hi by exact Hl.
  destruct (nth_error ms i) as [m |] eqn:Em; [| apply nth_error_None in Em; lia].
  destruct (nth_error ys i) as [y |] eqn:Ey; [| apply nth_error_None in Ey; lia].
  destruct (nth_error zs i) as [z |] eqn:Ez; [| apply nth_error_None in Ez; lia].
  destruct (nth_error ws i) as [w |] eqn:Ew; [| apply nth_error_None in Ew; lia].
  destruct (curve_points_nth t ms ys i m y M1 Em Ey) as (_ & -> & ->).
  destruct (curve_points_nth t ms zs i m z M2 Em Ez) as (_ & -> & ->).
  destruct (curve_points_nth t ms ws i m w Hl Em Ew) as (_ & -> & ->).
  specialize (A i y z w Ey Ez Ew). tauto.
Qed.

(** ** C107 *)

(** The factors of a mixed curve are the products of powers of the factors of its parts. *)
Theorem C107_product : forall D (I : Interpolator RV) n s ms (ys zs ws : list R) a b, interpolates I n -> D = act_360 RV \/ D = act_365 RV ->
  mixed a b ys zs ws -> length ms = length ws -> (n <= length ms)%nat -> a_date s -> (forall m, In m ms -> a_date m) ->
  (forall i j mi mj, (i < j)%nat -> nth_error ms i = Some mi -> nth_error ms j = Some mj -> earlier mi mj) ->
  exists cy cz cw, curve_new D I s ms ys = Ret (Ok cy) /\ curve_new D I s ms zs = Ret (Ok cz) /\ curve_new D I s ms ws = Ret (Ok cw)
    /\ forall d1 d2 v, discount_factor D cw d1 d2 = Ret (Ok v) ->
       exists u1 u2, discount_factor D cy d1 d2 = Ret (Ok u1) /\ discount_factor D cz d1 d2 = Ret (Ok u2)
         /\ v = Rpower u1 a * Rpower u2 b.
Proof.
  intros D I n s ms ys zs ws a b HI HD Mx Hl Hn As Am Om.
  destruct (C42_actual_times D s ms ws HD Hl Am Om) as (t & Ht & Inc).
  assert (length ms = length ys /\ length ms = length zs) as (Hy & Hz) by (destruct Mx as (M1 & M2 & _); split; congruence).
  pose proof (mixed_points a b t ms ys zs ws Hl Mx) as Sp.
  destruct (superposed_inc _ _ _ _ _ Sp Inc) as (Iy & Iz).
  assert (n <= length (curve_points t ms ws))%nat as Lw by (rewrite curve_points_length by exact Hl; exact Hn).
  assert (n <= length (curve_points t ms ys))%nat as Ly by (rewrite curve_points_length by exact Hy; exact Hn).
  assert (n <= length (curve_points t ms zs))%nat as Lz by (rewrite curve_points_length by exact Hz; exact Hn).
  destruct (built D I s ms ys t Hy (fun m _ => Ht m) (answers I n _ HI Iy Ly)) as (cy & Ey & Sy & Ry).
  destruct (built D I s ms zs t Hz (fun m _ => Ht m) (answers I n _ HI Iz Lz)) as (cz & Ez & Sz & Rz).
  destruct (built D I s ms ws t Hl (fun m _ => Ht m) (answers I n _ HI Inc Lw)) as (cw & Ew & Sw & Rw).
  exists cy, cz, cw. split; [exact Ey |]. split; [exact Ez |]. split; [exact Ew |].
  assert (forall x y, i_try_value I (interpolator cw) x = Ret (Ok y) ->
    exists u v, i_try_value I (interpolator cy) x = Ret (Ok u) /\ i_try_value I (interpolator cz) x = Ret (Ok v) /\ y = a * u + b * v) as Rd.
  { intros x y E. rewrite <- Rw in E. pose proof (in_reach I n _ x y HI Inc Lw E) as Hx.
    assert (exists u v, fit_eval I (curve_points t ms ys) x = Ret (Ok u) /\ fit_eval I (curve_points t ms zs) x = Ret (Ok v)
      /\ fit_eval I (curve_points t ms ws) x = Ret (Ok (a * u + b * v))) as (u & v & Eu & Ev & E').
    { destruct HI as [(-> & ->) | [(-> & ->) | (-> & ->)]]; [apply C68_linear | apply C68_catmull_rom | apply C68_natural_cubic]; assumption. }
    exists u, v. split; [rewrite <- Ry; exact Eu |]. split; [rewrite <- Rz; exact Ev |].
    pose proof (eq_trans (eq_sym E) E') as Q. now injection Q. }
  intros d1 d2 v H. apply df_ok in H. destruct H as (O1 & O2 & t2 & y2 & E2 & Y2 & C). rewrite Sw in *.
  assert (~ earlier d2 s) as O3 by (unfold earlier in *; lia).
  destruct (Rd t2 y2 Y2) as (p2 & q2 & P2 & Q2 & ->).
  destruct (df_intro D I cy d1 d2 t2 p2) as (K1 & K2); rewrite ?Sy; try assumption.
  destruct (df_intro D I cz d1 d2 t2 q2) as (J1 & J2); rewrite ?Sz; try assumption. rewrite Sy in *. rewrite Sz in *.
  destruct C as [(Ed & ->) | (Nd & t1 & y1 & E1 & Y1 & ->)].
  - exists (exp (- t2 * p2)), (exp (- t2 * q2)). split; [exact (K1 Ed) |]. split; [exact (J1 Ed) |].
    unfold Rpower. rewrite !ln_exp, <- exp_plus. f_equal. ring.
  - destruct (Rd t1 y1 Y1) as (p1 & q1 & P1 & Q1 & ->). exists (exp (t1 * p1 - t2 * p2)), (exp (t1 * q1 - t2 * q2)).
    split; [now apply K2 |]. split; [now apply J2 |]. unfold Rpower. rewrite !ln_exp, <- exp_plus. f_equal. ring.
Qed.
Print Assumptions C107_product.

Lemma bumped_points (t : Date -> R) ms (ys ys' : list R) k lo hi : length ms = length ys -> bumped k ys ys' -> (k < lo \/ hi < k)%nat ->
  agree lo hi (curve_points t ms ys) (curve_points t ms ys').
Proof.
  intros Hl (L & B) Far. assert (length ms = length ys') as Hl' by congruence.
  split; [rewrite !curve_points_length by assumption; reflexivity |]. intros j Hj Lj. rewrite curve_points_length in Lj by exact Hl.
  destruct (nth_error ms j) as [m |] eqn:Em; [| apply nth_error_None in Em; lia].
  destruct (nth_error ys j) as [y |] eqn:Ey; [| apply nth_error_None in Ey; lia].
  assert (nth_error ys' j = Some y) as Ey' by (rewrite B by lia; exact Ey).
  destruct (curve_points_nth t ms ys j m y Hl Em Ey) as (_ & -> & ->).
  destruct (curve_points_nth t ms ys' j m y Hl' Em Ey') as (_ & -> & ->). split; reflexivity.
Qed.

(** How far the change of one yield reaches: to the neighbouring maturities for linear, two on for Catmull-Rom. *)
Definition reaches (I : Interpolator RV) (least n : nat) : Prop :=
  I = Linear RV /\ least = 2%nat /\ n = 0%nat \/ I = CatmullRom RV /\ least = 3%nat /\ n = 1%nat.

Lemma same_value {V : Value} D {I : Interpolator V} (c c' : YieldCurve V I) settle (l : list (BondCashFlow V)) :
  (forall f, In f l -> earlier settle (due_date f) -> discount_factor D c settle (payment_date f) = discount_factor D c' settle (payment_date f)) ->
  forall r, for_each l (value_step D settle c) r = for_each l (value_step D settle c') r.
Proof.
  induction l as [| g l IH]; intros Fl r; [reflexivity |].
  cbn [for_each]. assert (value_step D settle c g r = value_step D settle c' g r) as ->.
  { unfold value_step. destruct r as [r | e]; [| reflexivity]. simpl try_res.
    match goal with |- (if ?b then _ else _) = _ => destruct b eqn:Q; [| reflexivity] end.
    apply date_ltb_earlier in Q. rewrite (Fl g (or_introl eq_refl) Q). reflexivity. }
  destruct (value_step D settle c' g r) as [r1 | |]; [| reflexivity ..]. simpl bind. apply IH. intros h Hh. apply Fl. now right.
Qed.

(** A changed yield leaves alone the factors between dates it does not reach, and the bonds that pay on such dates. *)
Theorem C107_bucket : forall D (I : Interpolator RV) least n s ms (ys ys' : list R) k, reaches I least n -> D = act_360 RV \/ D = act_365 RV ->
  bumped k ys ys' -> length ms = length ys -> (least <= length ms)%nat -> a_date s -> (forall m, In m ms -> a_date m) ->
  (forall i j mi mj, (i < j)%nat -> nth_error ms i = Some mi -> nth_error ms j = Some mj -> earlier mi mj) ->
  exists c c', curve_new D I s ms ys = Ret (Ok c) /\ curve_new D I s ms ys' = Ret (Ok c')
    /\ (forall d1 d2, a_date d1 -> a_date d2 -> d1 = s \/ away n ms k d1 -> away n ms k d2 ->
        discount_factor D c d1 d2 = discount_factor D c' d1 d2)
    /\ forall (b : Bond R) settle, a_date settle -> settle = s \/ away n ms k settle ->
       (forall f, In f (bond_cash_flows b) -> earlier settle (due_date f) -> a_date (payment_date f) /\ away n ms k (payment_date f)) ->
       discounted_value (V := RV) D b settle c = discounted_value (V := RV) D b settle c'.
Proof.
  intros D I least n s ms ys ys' k HI HD Bp Hl Hn As Am Om.
  destruct (C19_laws D HD) as (f & Hf & _ & _ & Mono & _).
  destruct (C42_actual_times D s ms ys HD Hl Am Om) as (t & Ht & Inc).
  assert (length ms = length ys') as Hl' by (destruct Bp; congruence).
  destruct (C42_actual_times D s ms ys' HD Hl' Am Om) as (t' & Ht' & Inc').
  assert (forall d, t d = f s d) as Tf by (intros d; pose proof (eq_trans (eq_sym (Ht d)) (Hf s d)) as Q; now injection Q).
  assert (forall d, t' d = t d) as Tt by (intros d; pose proof (eq_trans (eq_sym (Ht' d)) (Ht d)) as Q; now injection Q).
  assert (curve_points t' ms ys' = curve_points t ms ys') as Ep.
  { unfold curve_points. f_equal. apply map_ext. exact Tt. }
  rewrite Ep in Inc'. clear Ht' Ep Tt t'.
  assert (interpolates I least) as Hi by (destruct HI as [(-> & -> & _) | (-> & -> & _)]; [left | right; left]; split; reflexivity).
  assert (least <= length (curve_points t ms ys))%nat as L1 by (rewrite curve_points_length by exact Hl; exact Hn).
  assert (least <= length (curve_points t ms ys'))%nat as L2 by (rewrite curve_points_length by exact Hl'; exact Hn).
  destruct (built D I s ms ys t Hl (fun m _ => Ht m) (answers I least _ Hi Inc L1)) as (c & Ec & Sc & Rc).
  destruct (built D I s ms ys' t Hl' (fun m _ => Ht m) (answers I least _ Hi Inc' L2)) as (c' & Ec' & Sc' & Rc').
  exists c, c'. split; [exact Ec |]. split; [exact Ec' |].
  assert (forall d, a_date d -> away n ms k d -> i_try_value I (interpolator c) (t d) = i_try_value I (interpolator c') (t d)) as Same.
  { intros d Ad (i & m & m' & Em & Em' & O & O' & Far). rewrite <- Rc, <- Rc'.
    destruct (nth_error ys i) as [y |] eqn:Ey; [| apply nth_error_None in Ey; assert (i < length ms)%nat by (apply nth_error_Some; intros Q; discriminate (eq_trans (eq_sym Q) Em)); lia].
    destruct (nth_error ys (i + 1)) as [y' |] eqn:Ey'; [| apply nth_error_None in Ey'; assert (i + 1 < length ms)%nat by (apply nth_error_Some; intros Q; discriminate (eq_trans (eq_sym Q) Em')); lia].
    destruct (curve_points_nth t ms ys i m y Hl Em Ey) as (_ & X & _).
    destruct (curve_points_nth t ms ys (i + 1) m' y' Hl Em' Ey') as (Li & X' & _).
    assert (gx (curve_points t ms ys) i <= t d <= gx (curve_points t ms ys) (i + 1)) as Cell.
    { rewrite X, X', !Tf. split; apply Rnot_lt_le; intros C; apply Mono in C; try assumption; try contradiction;
        apply Am; eapply nth_error_In; eassumption. }
    destruct HI as [(-> & -> & ->) | (-> & -> & ->)].
    - destruct (C71_linear _ _ i (t d) (bumped_points t ms ys ys' k i (i + 1) Hl Bp ltac:(lia)) Inc Inc' ltac:(lia) Cell) as (v & E & E').
      exact (eq_trans E (eq_sym E')).
    - destruct (C71_catmull_rom _ _ i (t d) (bumped_points t ms ys ys' k (i - 1) (i + 2) Hl Bp ltac:(lia)) Inc Inc' L1 ltac:(lia) Cell) as (v & E & E').
      exact (eq_trans E (eq_sym E')). }
  assert (forall d1 d2, a_date d1 -> a_date d2 -> d1 = s \/ away n ms k d1 -> away n ms k d2 ->
        discount_factor D c d1 d2 = discount_factor D c' d1 d2) as Df.
  { intros d1 d2 A1 A2 H1 H2. unfold discount_factor, curve_yield. rewrite Sc, Sc', !Ht. simpl bind. rewrite (Same d2 A2 H2).
    destruct H1 as [-> | H1]; [| now rewrite (Same d1 A1 H1)].
    rewrite (proj2 (date_eqb_eq s s) eq_refl). reflexivity. }
  split; [exact Df |]. intros b settle Aset Hset Fl.
  exact (same_value D c c' settle (bond_cash_flows b) (fun f Hf Of => Df settle _ Aset (proj1 (Fl f Hf Of)) Hset (proj2 (Fl f Hf Of))) (Ok v_zero)).
Qed.
Print Assumptions C107_bucket.

Lemma chord_rises p p' i x : (forall j, (j = i \/ j = i + 1)%nat -> gx p' j = gx p j /\ gy p j <= gy p' j) -> gx p i < gx p (i + 1) ->
  gx p i <= x <= gx p (i + 1) -> chord p i x <= chord p' i x.
Proof.
  intros A Hx Hr. destruct (A i (or_introl eq_refl)) as (X & Y), (A (i + 1)%nat (or_intror eq_refl)) as (X' & Y'). unfold chord. rewrite X, X'.
  assert (forall u v, u + (v - u) / (gx p (i + 1) - gx p i) * (x - gx p i)
    = u * ((gx p (i + 1) - x) / (gx p (i + 1) - gx p i)) + v * ((x - gx p i) / (gx p (i + 1) - gx p i))) as F by (intros; field; lra).
  rewrite !F. apply Rplus_le_compat; apply Rmult_le_compat_r; try assumption; apply Rmult_le_pos; try lra; apply Rlt_le, Rinv_0_lt_compat; lra.
Qed.

(** With linear interpolation, higher yields make no discount factor from the settlement date greater, and no bond dearer. *)
Theorem C107_rise : forall D s ms (ys ys' : list R), D = act_360 RV \/ D = act_365 RV -> raised_yields ys ys' -> length ms = length ys -> (2 <= length ms)%nat ->
  a_date s -> (forall m, In m ms -> a_date m) ->
  (forall i j mi mj, (i < j)%nat -> nth_error ms i = Some mi -> nth_error ms j = Some mj -> earlier mi mj) ->
  exists c c', curve_new D (Linear RV) s ms ys = Ret (Ok c) /\ curve_new D (Linear RV) s ms ys' = Ret (Ok c')
    /\ (forall d v, a_date d -> discount_factor D c s d = Ret (Ok v) -> exists v', discount_factor D c' s d = Ret (Ok v') /\ v' <= v)
    /\ forall (b : Bond R) v, (forall f, In f (bond_cash_flows b) -> earlier s (due_date f) -> a_date (payment_date f) /\ 0 <= payment_amount f) ->
       discounted_value (V := RV) D b s c = Ret (Ok v) -> exists v', discounted_value (V := RV) D b s c' = Ret (Ok v') /\ v' <= v.
Proof.
  intros D s ms ys ys' HD (L & Rs) Hl Hn As Am Om.
  destruct (C19_laws D HD) as (f & Hf & _ & _ & Mono & Zero).
  destruct (C42_actual_times D s ms ys HD Hl Am Om) as (t & Ht & Inc).
  assert (length ms = length ys') as Hl' by congruence.
  destruct (C42_actual_times D s ms ys' HD Hl' Am Om) as (t' & Ht' & Inc').
  assert (forall d, t d = f s d) as Tf by (intros d; pose proof (eq_trans (eq_sym (Ht d)) (Hf s d)) as Q; now injection Q).
  assert (forall d, t' d = t d) as Tt by (intros d; pose proof (eq_trans (eq_sym (Ht' d)) (Ht d)) as Q; now injection Q).
  assert (curve_points t' ms ys' = curve_points t ms ys') as Ep.
  { unfold curve_points. f_equal. apply map_ext. exact Tt. }
  rewrite Ep in Inc'. clear Ht' Ep Tt t'.
  assert (interpolates (Linear RV) 2) as Hi by (left; split; reflexivity).
  assert (2 <= length (curve_points t ms ys))%nat as L1 by (rewrite curve_points_length by exact Hl; exact Hn).
  assert (2 <= length (curve_points t ms ys'))%nat as L2 by (rewrite curve_points_length by exact Hl'; exact Hn).
  destruct (built D (Linear RV) s ms ys t Hl (fun m _ => Ht m) (answers _ _ _ Hi Inc L1)) as (c & Ec & Sc & Rc).
  destruct (built D (Linear RV) s ms ys' t Hl' (fun m _ => Ht m) (answers _ _ _ Hi Inc' L2)) as (c' & Ec' & Sc' & Rc').
  exists c, c'. split; [exact Ec |]. split; [exact Ec' |].
  assert (forall d v, a_date d -> discount_factor D c s d = Ret (Ok v) -> exists v', discount_factor D c' s d = Ret (Ok v') /\ v' <= v) as Df.
  { intros d v Ad H. apply df_ok in H. destruct H as (O1 & _ & t2 & y2 & E2 & Y2 & C). rewrite Sc in *.
    destruct C as [(_ & ->) | (N & _)]; [| now destruct N].
    assert (t2 = t d) as -> by (pose proof (eq_trans (eq_sym E2) (Ht d)) as Q; now injection Q).
    rewrite <- Rc in Y2. destruct (g_cell _ (t d) Inc L1 (in_reach _ _ _ _ _ Hi Inc L1 Y2)) as (i & Hj & Ci).
    assert (length (curve_points t ms ys) = length ms) as Lp by (apply curve_points_length; exact Hl).
    assert (length (curve_points t ms ys') = length ms) as Lp' by (apply curve_points_length; exact Hl').
    assert (forall j, (j = i \/ j = i + 1)%nat ->
      gx (curve_points t ms ys') j = gx (curve_points t ms ys) j /\ gy (curve_points t ms ys) j <= gy (curve_points t ms ys') j) as Up.
    { intros j Jj. assert (j < length ms)%nat as Lj by lia.
      destruct (nth_error ms j) as [m |] eqn:Em; [| apply nth_error_None in Em; lia].
      destruct (nth_error ys j) as [y |] eqn:Ey; [| apply nth_error_None in Ey; lia].
      destruct (nth_error ys' j) as [y' |] eqn:Ey'; [| apply nth_error_None in Ey'; lia].
      destruct (curve_points_nth t ms ys j m y Hl Em Ey) as (_ & -> & ->).
      destruct (curve_points_nth t ms ys' j m y' Hl' Em Ey') as (_ & -> & ->). split; [reflexivity | eauto]. }
    assert (gx (curve_points t ms ys') i <= t d <= gx (curve_points t ms ys') (i + 1)) as Ci'
      by (rewrite (proj1 (Up i (or_introl eq_refl))), (proj1 (Up (i + 1)%nat (or_intror eq_refl))); exact Ci).
    pose proof (linear_closed _ (t d) i Inc Hj Ci) as V. pose proof (linear_closed _ (t d) i Inc' ltac:(lia) Ci') as V'.
    assert (y2 = chord (curve_points t ms ys) i (t d)) as -> by (pose proof (eq_trans (eq_sym Y2) V) as Q; now injection Q).
    pose proof (chord_rises _ (curve_points t ms ys') i (t d) Up (Inc i (i + 1)%nat ltac:(lia)) Ci) as Le.
    assert (0 <= t d) as P.
    { rewrite Tf. assert (f s s = 0) as <- by (apply (proj2 (Zero s s As As)); reflexivity). apply Rnot_lt_le. intros Q. apply Mono in Q; auto. }
    rewrite Rc' in V'. destruct (df_intro D (Linear RV) c' s d (t d) (chord (curve_points t ms ys') i (t d))) as (K & _); rewrite ?Sc'; try eassumption; try apply Ht; [apply not_earlier_refl |].
    eexists. split; [apply K; now rewrite Sc' |].
    assert (- t d * chord (curve_points t ms ys') i (t d) <= - t d * chord (curve_points t ms ys) i (t d)) as [Lt | ->]
      by (rewrite !Ropp_mult_distr_l_reverse; apply Ropp_le_contravar, Rmult_le_compat_l; assumption); [left; now apply exp_increasing | lra]. }
  split; [exact Df |]. intros b v Fl H. destruct (value_total D (Linear RV) b s c v H) as (Ev & Dv).
  assert (forall g, In g (bond_cash_flows b) -> earlier s (due_date g) ->
     discount_factor D c' s (payment_date g) = Ret (Ok (df_of D (Linear RV) c' s (payment_date g)))
     /\ df_of D (Linear RV) c' s (payment_date g) <= df_of D (Linear RV) c s (payment_date g)) as Dv'.
  { intros g Hg Og. destruct (Df _ _ (proj1 (Fl g Hg Og)) (Dv g Hg Og)) as (v' & E & Le).
    assert (df_of D (Linear RV) c' s (payment_date g) = v') as -> by (unfold df_of; now rewrite E). split; assumption. }
  eexists. split; [apply C50_sum; intros g Hg Og; exact (proj1 (Dv' g Hg Og)) |]. rewrite Ev. apply total_le.
  intros g Hg. apply filter_In in Hg. destruct Hg as (Hg & Og). apply open_flow_spec in Og.
  apply Rmult_le_compat_r; [exact (proj2 (Fl g Hg Og)) | exact (proj2 (Dv' g Hg Og))].
Qed.
Print Assumptions C107_rise.

(** Not so for Catmull-Rom: raising the first yield raises a factor between the second and third maturities. *)
Theorem C107_catmull_rom_refuted : exists s ms (ys ys' : list R) c c' d v v', raised_yields ys ys' /\ a_date d
  /\ curve_new (act_365 RV) (CatmullRom RV) s ms ys = Ret (Ok c) /\ curve_new (act_365 RV) (CatmullRom RV) s ms ys' = Ret (Ok c')
  /\ discount_factor (act_365 RV) c s d = Ret (Ok v) /\ discount_factor (act_365 RV) c' s d = Ret (Ok v') /\ v < v'.
Proof.
  set (s := mkDate 2021 3 1). set (ms := [mkDate 2022 3 1; mkDate 2023 3 1; mkDate 2024 2 29; mkDate 2025 2 28]). set (d := mkDate 2023 5 13).
  set (t := fun m : Date => (IZR (date_sub m s) / IZR 365)).
  assert (forall m, act_365 RV s m = Ret (Ok (t m))) as Ht by reflexivity.
  assert (t d = 11 / 5) as Td by (unfold t; change (date_sub d s) with 803%Z; lra).
  assert (forall y : R, exists c, curve_new (act_365 RV) (CatmullRom RV) s ms [y; 0; 0; 0] = Ret (Ok c)
    /\ discount_factor (act_365 RV) c s d = Ret (Ok (exp (- (11 / 5) * (- (16 / 375) * y))))) as G.
  { intros y. set (p := curve_points t ms [y; 0; 0; 0]).
    assert (p = [(1, y); (2, 0); (3, 0); (4, 0)]) as Ep.
    { unfold p, curve_points, ms, t. cbn [map combine]. change (date_sub (mkDate 2022 3 1) s) with 365%Z.
      change (date_sub (mkDate 2023 3 1) s) with 730%Z. change (date_sub (mkDate 2024 2 29) s) with 1095%Z. change (date_sub (mkDate 2025 2 28) s) with 1460%Z.
      replace (365 / 365) with 1 by lra. replace (730 / 365) with 2 by lra. replace (1095 / 365) with 3 by lra. replace (1460 / 365) with 4 by lra. reflexivity. }
    assert (increasing p) as H.
    { rewrite Ep. intros i j H. unfold gx. simpl in H. destruct i as [| [| [| [| i]]]], j as [| [| [| [| j]]]]; simpl; try lra; lia. }
    assert (fit_eval (CatmullRom RV) p (11 / 5) = Ret (Ok (- (16 / 375) * y))) as V.
    { rewrite (cr_closed p 1); [| exact H | rewrite Ep; simpl; lia | rewrite Ep; simpl; lia | rewrite Ep; unfold gx; simpl; lra].
      ret_eq. rewrite Ep. unfold cpiece, k3, k2, k1, calpha, cbeta, ch, gx, gy. simpl. field. }
    destruct (built (act_365 RV) (CatmullRom RV) s ms [y; 0; 0; 0] t eq_refl (fun m _ => Ht m) (ex_intro _ _ (ex_intro _ _ V))) as (c & Ec & Es & Ev).
    exists c. split; [exact Ec |]. fold p in Ev. rewrite Ev in V.
    refine (proj1 (df_intro (act_365 RV) (CatmullRom RV) c s d (11 / 5) (- (16 / 375) * y) _ _ _ _ V) _); rewrite ?Es; try reflexivity;
      try (unfold earlier, d, s; simpl; lia). rewrite Ht, Td. reflexivity. }
  destruct (G 0) as (c & Ec & Ed), (G 1) as (c' & Ec' & Ed').
  exists s, ms, [0; 0; 0; 0], [1; 0; 0; 0], c, c', d, (exp (- (11 / 5) * (- (16 / 375) * 0))), (exp (- (11 / 5) * (- (16 / 375) * 1))).
  split; [split; [reflexivity |]; intros [| [| [| [| [|]]]]] y y' E E'; simpl in E, E'; try discriminate; injection E as <-; injection E' as <-; lra |].
  split; [now apply valid_a_date |]. split; [exact Ec |]. split; [exact Ec' |]. split; [exact Ed |]. split; [exact Ed' |].
  apply exp_increasing. lra.
Qed.
Print Assumptions C107_catmull_rom_refuted.

(** ** The hypotheses are met *)

(** Two mixed lists of yields, one yield raised, and a date out of its reach. *)
Example C107_case : mixed 2 3 [1/100; 2/100; 3/100; 4/100] [1/100; 1/100; 2/100; 0] [5/100; 7/100; 12/100; 8/100]
  /\ bumped 3 [1/100; 2/100; 3/100; 4/100] [1/100; 2/100; 3/100; 5/100]
  /\ raised_yields [1/100; 2/100; 3/100; 4/100] [1/100; 2/100; 3/100; 5/100]
  /\ away 1 [mkDate 2022 3 1; mkDate 2023 3 1; mkDate 2024 2 29; mkDate 2025 2 28] 3 (mkDate 2022 10 6)
  /\ (forall m, In m [mkDate 2022 3 1; mkDate 2023 3 1; mkDate 2024 2 29; mkDate 2025 2 28] -> a_date m)
  /\ forall i j mi mj, (i < j)%nat -> nth_error [mkDate 2022 3 1; mkDate 2023 3 1; mkDate 2024 2 29; mkDate 2025 2 28] i = Some mi ->
       nth_error [mkDate 2022 3 1; mkDate 2023 3 1; mkDate 2024 2 29; mkDate 2025 2 28] j = Some mj -> earlier mi mj.
Proof.
  split; [| split; [| split; [| split; [| split]]]].
  - split; [reflexivity |]. split; [reflexivity |]. intros [| [| [| [| [|]]]]] y z w E E' E''; simpl in E, E', E''; try discriminate;
      injection E as <-; injection E' as <-; injection E'' as <-; lra.
  - split; [reflexivity |]. intros [| [| [| [| [|]]]]] N; try reflexivity. now destruct N.
  - split; [reflexivity |]. intros [| [| [| [| [|]]]]] y y' E E'; simpl in E, E'; try discriminate; injection E as <-; injection E' as <-; lra.
  - exists 0%nat, (mkDate 2022 3 1), (mkDate 2023 3 1). split; [reflexivity |]. split; [reflexivity |].
    split; [unfold earlier; simpl; lia |]. split; [unfold earlier; simpl; lia | right; simpl; lia].
  - intros m Hm. simpl in Hm. repeat (destruct Hm as [<- | Hm]; [now apply valid_a_date |]). contradiction.
  - intros [| [| [| [| [|]]]]] [| [| [| [| [|]]]]] mi mj L E E'; try lia; simpl in E, E'; try discriminate; injection E as <-; injection E' as <-;
      unfold earlier; simpl; lia.
Qed.
