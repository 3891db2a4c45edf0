(** Properties C105 and C106: the spread over a curve that matches a price, duration and convexity. *)
From Coq Require Import ZArith Reals List Arith Lia Lra Psatz.
From Verif Require Import Base Chrono DateModel DateFacts Value RealValue DayCountModel InterpModel InterpFacts CurveModel BondModel
  Gregorian Grid PropsDate PropsDayCount PropsLinear PropsCatmullRom PropsNaturalCubic PropsCurve PropsBond PropsShift PropsRisk PropsValuation PropsPayments.
Import ListNotations.
Open Scope R_scope.

(** ** What is claimed of *)

(** [P] is the value of [b] on the curve whose yields are all raised by [h]. *)
Definition prices D (I : Interpolator RV) s ms (ys : list R) (b : Bond R) settle (h P : R) : Prop :=
  exists c, curve_new D I s ms (parallel h ys) = Ret (Ok c) /\ discounted_value (V := RV) D b settle c = Ret (Ok P).

(** No flow is negative or paid before it is due. *)
Definition sound (b : Bond R) : Prop :=
  forall f, In f (bond_cash_flows b) -> a_date (payment_date f) /\ a_date (due_date f) /\ 0 <= payment_amount f
    /\ ~ earlier (payment_date f) (due_date f).

(** Something is still to come. *)
Definition pays (b : Bond R) settle : Prop :=
  exists f, In f (bond_cash_flows b) /\ earlier settle (due_date f) /\ 0 < payment_amount f.

(** The open flows, discounted, each times a power of its time to payment: value, duration and convexity for n = 0, 1, 2. *)
Definition moment D (I : Interpolator RV) (c : YieldCurve RV I) (t : Date -> R) (b : Bond R) settle (n : nat) : R :=
  total (map (fun f => df_of D I c settle (payment_date f) * payment_amount f * (t (payment_date f) - t settle) ^ n)
    (filter (open_flow settle) (bond_cash_flows b))).

(** ** Sums of falling exponentials *)

Section Sums.
Context {A : Type} (a k : A -> R).

Definition fading (l : list A) (h : R) : R := total (map (fun f => a f * exp (- h * k f)) l).

Lemma fading_cons f l h : fading (f :: l) h = a f * exp (- h * k f) + fading l h.
Proof. reflexivity. Qed.

Lemma fading_continuous l : continuity (fading l).
Proof.
  induction l as [| f l IH].
  - intros x. apply continuity_pt_const. intros u v. reflexivity.
  - intros x. unfold fading. simpl.
    apply (continuity_pt_plus (fun h => a f * exp (- h * k f)) (fading l) x); [| apply IH].
    apply derivable_continuous_pt. exists (a f * (exp (- x * k f) * (- k f))).
    apply (derivable_pt_lim_scal (fun h => exp (- h * k f)) (a f)).
    replace (exp (- x * k f) * - k f) with (exp (- x * k f) * - k f) by ring.
    apply (derivable_pt_lim_comp (fun h => - h * k f) exp x (- k f) (exp (- x * k f))); [| apply derivable_pt_lim_exp].
    replace (- k f) with (- (1) * k f + - x * 0) by ring.
    apply (derivable_pt_lim_mult (fun h => - h) (fun _ => k f)); [| apply derivable_pt_lim_const].
    apply (derivable_pt_lim_opp (fun h => h)). apply derivable_pt_lim_id.
Qed.

Definition lasting (l : list A) : Prop := forall f, In f l -> 0 <= a f /\ (0 < a f -> 0 < k f).

Lemma fade_term f x y : 0 <= a f -> (0 < a f -> 0 < k f) -> x <= y -> a f * exp (- y * k f) <= a f * exp (- x * k f)
  /\ (x < y -> 0 < a f -> a f * exp (- y * k f) < a f * exp (- x * k f)).
Proof.
  intros Pa Pk Hxy. split.
  - destruct (Rle_lt_or_eq_dec 0 (a f) Pa) as [P | <-]; [| lra]. specialize (Pk P). apply Rmult_le_compat_l; [lra |].
    destruct (Rle_lt_or_eq_dec x y Hxy) as [L | ->]; [| lra]. left. apply exp_increasing. nra.
  - intros L P. specialize (Pk P). apply Rmult_lt_compat_l; [lra |]. apply exp_increasing. nra.
Qed.

Lemma fading_falls l x y : lasting l -> (exists f, In f l /\ 0 < a f) -> x < y -> fading l y < fading l x.
Proof.
  intros H (f & Hf & Pf) L. apply (total_lt (fun f => a f * exp (- y * k f)) (fun f => a f * exp (- x * k f)) l f); [| exact Hf |].
  - intros g Hg. destruct (H g Hg) as (G1 & G2). apply fade_term; auto; lra.
  - destruct (H f Hf) as (G1 & G2). apply fade_term; auto; lra.
Qed.

Lemma fading_nonneg l x : lasting l -> 0 <= fading l x.
Proof.
  intros H. induction l as [| f l IH]; [unfold fading, total; simpl; lra |]. rewrite fading_cons.
  assert (0 <= fading l x) by (apply IH; intros g Hg; apply H; now right). destruct (H f (or_introl eq_refl)) as (G1 & _).
  pose proof (exp_pos (- x * k f)). nra.
Qed.

Lemma fading_weak l x y : lasting l -> x <= y -> fading l y <= fading l x.
Proof.
  intros H L. apply (total_le (fun f => a f * exp (- y * k f)) (fun f => a f * exp (- x * k f)) l).
  intros g Hg. destruct (H g Hg) as (G1 & G2). apply fade_term; auto; lra.
Qed.

(** They come down below any price, and up above it. *)
Lemma fading_low l P : lasting l -> 0 < P -> exists x, fading l x < P.
Proof.
  revert P. induction l as [| f l IH]; intros P H HP; [exists 0; exact HP |].
  destruct (H f (or_introl eq_refl)) as (G1 & G2).
  destruct (IH (P / 2)) as (x & Hx); [intros g Hg; apply H; now right | lra |].
  destruct (Rle_lt_or_eq_dec 0 (a f) G1) as [Pa | E0].
  - specialize (G2 Pa). set (z := 2 * a f / (P * k f)). assert (0 < z) as Pz by (unfold z; apply Rdiv_lt_0_compat; nra).
    exists (Rmax x z). rewrite fading_cons.
    assert (fading l (Rmax x z) <= fading l x) as L1 by (apply fading_weak; [intros g Hg; apply H; now right | apply Rmax_l]).
    assert (a f * exp (- Rmax x z * k f) < P / 2) as L2; [| lra].
    eapply Rle_lt_trans; [apply (proj1 (fade_term f z (Rmax x z) G1 (fun _ => G2) (Rmax_r x z))) |].
    rewrite Ropp_mult_distr_l_reverse, exp_Ropp.
    assert (1 + z * k f < exp (z * k f)) as E by (apply exp_ineq1; nra).
    assert (z * k f * P = 2 * a f) as Ez by (unfold z; field; lra).
    apply Rmult_lt_reg_r with (exp (z * k f)); [apply exp_pos |]. rewrite Rmult_assoc, Rinv_l by (pose proof (exp_pos (z * k f)); lra). nra.
  - exists x. rewrite fading_cons, <- E0. lra.
Qed.

Lemma fading_high l P : lasting l -> (exists f, In f l /\ 0 < a f) -> 0 < P -> exists x, P < fading l x.
Proof.
  intros H (f & Hf & Pf) HP. destruct (H f Hf) as (_ & Pk). specialize (Pk Pf).
  exists (- (P / (a f * k f))). apply Rlt_le_trans with (a f * exp (- - (P / (a f * k f)) * k f)).
  - rewrite Ropp_involutive. replace (P / (a f * k f) * k f) with (P / a f) by (field; lra).
    assert (0 < P / a f) as Q by (apply Rdiv_lt_0_compat; lra). assert (1 + P / a f < exp (P / a f)) as E by (apply exp_ineq1; lra).
    apply Rle_lt_trans with (a f * (P / a f)); [right; field; lra |]. apply Rmult_lt_compat_l; lra.
  - clear -Hf H. induction l as [| g l IH]; [contradiction |]. rewrite fading_cons.
    assert (lasting l) as H' by (intros q Hq; apply H; now right). destruct Hf as [-> | Hf].
    + pose proof (fading_nonneg l (- (P / (a f * k f))) H'). lra.
    + specialize (IH H' Hf). destruct (H g (or_introl eq_refl)) as (G1 & _). pose proof (exp_pos (- - (P / (a f * k f)) * k g)). nra.
Qed.

Lemma fading_meets l P : lasting l -> (exists f, In f l /\ 0 < a f) -> 0 < P -> exists x, fading l x = P.
Proof.
  intros H Ex HP. destruct (fading_low l P H HP) as (y & Hy), (fading_high l P H Ex HP) as (x & Hx).
  assert (x < y) as L. { apply Rnot_le_lt. intros C. pose proof (fading_weak l y x H C). lra. }
  destruct (IVT (fun h => P - fading l h) x y) as (z & _ & Ez).
  - intros u. apply (continuity_pt_minus (fun _ => P) (fading l)); [apply continuity_pt_const; intros p q; reflexivity | apply fading_continuous].
  - exact L.
  - lra.
  - lra.
  - exists z. lra.
Qed.

Lemma exp_convex u v lam : 0 <= lam <= 1 -> exp ((1 - lam) * u + lam * v) <= (1 - lam) * exp u + lam * exp v.
Proof.
  intros Hl. set (m := (1 - lam) * u + lam * v).
  assert (forall x, exp m * (1 + (x - m)) <= exp x) as T.
  { intros x. replace (exp x) with (exp m * exp (x - m)) by (rewrite <- exp_plus; f_equal; ring).
    apply Rmult_le_compat_l; [left; apply exp_pos |]. destruct (Req_dec (x - m) 0) as [-> | N]; [rewrite exp_0; lra |].
    left. apply exp_ineq1. exact N. }
  pose proof (T u) as Tu. pose proof (T v) as Tv.
  apply Rle_trans with ((1 - lam) * (exp m * (1 + (u - m))) + lam * (exp m * (1 + (v - m)))).
  - right. unfold m. ring.
  - apply Rplus_le_compat; apply Rmult_le_compat_l; lra.
Qed.

Lemma fading_convex l x y lam : lasting l -> 0 <= lam <= 1 ->
  fading l ((1 - lam) * x + lam * y) <= (1 - lam) * fading l x + lam * fading l y.
Proof.
  intros H Hl. induction l as [| f l IH]; [unfold fading, total; simpl; lra |]. rewrite !fading_cons.
  assert (lasting l) as H' by (intros q Hq; apply H; now right). specialize (IH H'). destruct (H f (or_introl eq_refl)) as (G1 & _).
  pose proof (exp_convex (- x * k f) (- y * k f) lam Hl) as E.
  replace (- ((1 - lam) * x + lam * y) * k f) with ((1 - lam) * (- x * k f) + lam * (- y * k f)) by ring. nra.
Qed.

(** Their tangents at zero. *)
Lemma exp_second y : 1 + y <= exp y <= 1 + y + y ^ 2 / 2 * exp (Rabs y).
Proof.
  split; [destruct (Req_dec y 0) as [-> | N]; [rewrite exp_0; lra | left; now apply exp_ineq1] |].
  destruct (Rle_lt_dec 0 y) as [P | N].
  - rewrite (Rabs_pos_eq y P).
    set (g := fun z => 1 + z + z ^ 2 / 2 * exp z - exp z). set (g' := fun z => 1 - exp z + z * exp z + z ^ 2 / 2 * exp z).
    assert (forall z, derivable_pt_lim g z (g' z)) as Dg.
    { intros z. unfold g, g'. replace (1 - exp z + z * exp z + z ^ 2 / 2 * exp z) with (1 + (z * exp z + z ^ 2 / 2 * exp z) - exp z) by ring.
      apply (derivable_pt_lim_minus (fun z => 1 + z + z ^ 2 / 2 * exp z) exp); [| apply derivable_pt_lim_exp].
      apply (derivable_pt_lim_plus (fun z => 1 + z) (fun z => z ^ 2 / 2 * exp z)).
      - replace 1 with (0 + 1) at 1 by ring. apply (derivable_pt_lim_plus (fun _ => 1) (fun z => z)); [apply derivable_pt_lim_const | apply derivable_pt_lim_id].
      - apply (derivable_pt_lim_mult (fun z => z ^ 2 / 2) exp); [| apply derivable_pt_lim_exp].
        replace z with (INR 2 * z ^ 1 * / 2 + z ^ 2 * 0) at 2 by (simpl; field).
        apply (derivable_pt_lim_mult (fun z => z ^ 2) (fun _ => / 2)); [apply derivable_pt_lim_pow | apply derivable_pt_lim_const]. }
    destruct (Rle_lt_or_eq_dec 0 y P) as [P' | <-]; [| rewrite exp_0; lra].
    destruct (MVT_cor2 g g' 0 y P') as (z & E & Hz); [intros; apply Dg |].
    assert (g 0 = 0) as G0 by (unfold g; rewrite exp_0; field).
    assert (0 <= g' z) as G1.
    { unfold g'. assert (1 + - z < exp (- z)) as I by (apply exp_ineq1; lra). pose proof (exp_pos z) as Pz.
      assert (exp z * exp (- z) = 1) as Inv by (rewrite <- exp_plus, Rplus_opp_r; apply exp_0).
      assert (0 <= z ^ 2 / 2 * exp z) by (apply Rmult_le_pos; [pose proof (pow2_ge_0 z); lra | lra]). nra. }
    assert (0 <= g y) as G by nra. unfold g in G. lra.
  - rewrite (Rabs_left y N). apply Rle_trans with (1 + y + y ^ 2 / 2).
    + set (g := fun z => 1 + z + z ^ 2 / 2 - exp z). set (g' := fun z => 1 + z - exp z).
      assert (forall z, derivable_pt_lim g z (g' z)) as Dg.
      { intros z. unfold g, g'. apply (derivable_pt_lim_minus (fun z => 1 + z + z ^ 2 / 2) exp); [| apply derivable_pt_lim_exp].
        apply (derivable_pt_lim_plus (fun z => 1 + z) (fun z => z ^ 2 / 2)).
        - replace 1 with (0 + 1) at 1 by ring. apply (derivable_pt_lim_plus (fun _ => 1) (fun z => z)); [apply derivable_pt_lim_const | apply derivable_pt_lim_id].
        - replace z with (INR 2 * z ^ 1 * / 2 + z ^ 2 * 0) at 2 by (simpl; field).
          apply (derivable_pt_lim_mult (fun z => z ^ 2) (fun _ => / 2)); [apply derivable_pt_lim_pow | apply derivable_pt_lim_const]. }
      destruct (MVT_cor2 g g' y 0 N) as (z & E & Hz); [intros; apply Dg |].
      assert (g 0 = 0) as G0 by (unfold g; rewrite exp_0; field).
      assert (g' z <= 0) as G1 by (unfold g'; assert (1 + z < exp z) by (apply exp_ineq1; lra); lra).
      assert (0 <= g y) as G by nra. unfold g in G. lra.
    + assert (1 <= exp (- y)) by (assert (1 + - y < exp (- y)) by (apply exp_ineq1; lra); lra).
      pose proof (pow2_ge_0 y). nra.
Qed.

Lemma fading_second l h T : lasting l -> (forall f, In f l -> 0 <= k f <= T) ->
  total (map a l) - h * total (map (fun f => a f * k f ^ 1) l) <= fading l h
    <= total (map a l) - h * total (map (fun f => a f * k f ^ 1) l) + h ^ 2 / 2 * exp (Rabs h * T) * total (map (fun f => a f * k f ^ 2) l).
Proof.
  intros H HT. induction l as [| f l IH]; [unfold fading, total; simpl; lra |].
  assert (lasting l) as H' by (intros q Hq; apply H; now right). specialize (IH H' (fun g Hg => HT g (or_intror Hg))).
  destruct (H f (or_introl eq_refl)) as (G1 & _). destruct (HT f (or_introl eq_refl)) as (K0 & KT).
  rewrite fading_cons. cbn [map]. rewrite !total_cons.
  destruct (exp_second (- h * k f)) as (E1 & E2).
  assert (exp (Rabs (- h * k f)) <= exp (Rabs h * T)) as E3.
  { rewrite Rabs_mult, Rabs_Ropp, (Rabs_pos_eq (k f) K0). pose proof (Rabs_pos h) as Ph.
    destruct (Rle_lt_or_eq_dec _ _ (Rmult_le_compat_l _ _ _ Ph KT)) as [L | ->]; [left; now apply exp_increasing | apply Rle_refl]. }
  assert (exp (- h * k f) <= 1 + - h * k f + h ^ 2 / 2 * exp (Rabs h * T) * k f ^ 2) as E4.
  { assert (0 <= (- h * k f) ^ 2 / 2) as P2 by (pose proof (pow2_ge_0 (- h * k f)); lra).
    assert ((- h * k f) ^ 2 / 2 * exp (Rabs (- h * k f)) <= (- h * k f) ^ 2 / 2 * exp (Rabs h * T)) by (apply Rmult_le_compat_l; assumption).
    replace (h ^ 2 / 2 * exp (Rabs h * T) * k f ^ 2) with ((- h * k f) ^ 2 / 2 * exp (Rabs h * T)) by (field). lra. }
  pose proof (Rmult_le_compat_l _ _ _ G1 E1) as M1. pose proof (Rmult_le_compat_l _ _ _ G1 E4) as M2. clear E1 E2 E3 E4.
  set (S0 := total (map a l)) in *. set (S1 := total (map (fun f => a f * k f ^ 1) l)) in *. set (S2 := total (map (fun f => a f * k f ^ 2) l)) in *.
  set (q := h ^ 2 / 2 * exp (Rabs h * T)) in *. clearbody S0 S1 S2 q. rewrite pow_1.
  replace (a f + S0 - h * (a f * k f + S1)) with (a f * (1 + - h * k f) + (S0 - h * S1)) by ring. split; [lra |].
  replace (q * (a f * k f ^ 2 + S2)) with (a f * (q * k f ^ 2) + q * S2) by ring.
  replace (a f * (1 + - h * k f + q * k f ^ 2)) with (a f * (1 + - h * k f) + a f * (q * k f ^ 2)) in M2 by ring. lra.
Qed.

End Sums.

(** ** From curves to such sums *)

(** Every positive price is the value at exactly one spread. *)
Definition one_spread D (I : Interpolator RV) s ms (ys : list R) (b : Bond R) settle : Prop :=
  forall P, 0 < P -> exists h, prices D I s ms ys b settle h P /\ forall h', prices D I s ms ys b settle h' P -> h' = h.

(** The higher the spread, the lower the price; and no price is negative or zero. *)
Definition spread_order D (I : Interpolator RV) s ms (ys : list R) (b : Bond R) settle : Prop :=
  forall h h' P P', prices D I s ms ys b settle h P -> prices D I s ms ys b settle h' P' -> 0 < P /\ (P < P' <-> h' < h).

(** The price is convex in the spread. *)
Definition convex D (I : Interpolator RV) s ms (ys : list R) (b : Bond R) settle : Prop :=
  forall h k lam P Q M, 0 <= lam <= 1 -> prices D I s ms ys b settle h P -> prices D I s ms ys b settle k Q ->
  prices D I s ms ys b settle ((1 - lam) * h + lam * k) M -> M <= (1 - lam) * P + lam * Q.

Section Profile.
Context (D : DayCount RV) (I : Interpolator RV) (s : Date) (ms : list Date) (ys : list R) (w : R -> R) (t : Date -> R) (c : YieldCurve RV I).
Hypothesis Ht : forall d, D s d = Ret (Ok (t d)).
Hypothesis Mono : forall d1 d2, a_date d1 -> a_date d2 -> (earlier d1 d2 <-> t d1 < t d2).
Hypothesis Mv : forall h, exists c', curve_new D I s ms (parallel h ys) = Ret (Ok c')
  /\ forall d1 d2 v t1 t2, D s d1 = Ret (Ok t1) -> D s d2 = Ret (Ok t2) -> discount_factor D c d1 d2 = Ret (Ok v) ->
     discount_factor D c' d1 d2 = Ret (Ok (v * exp (- h * (t2 * w t2 - t1 * w t1)))).
Hypothesis Up : forall d1 d2 v, a_date d1 -> discount_factor D c d1 d2 = Ret (Ok v) -> t d1 <= t d2 ->
  t d2 - t d1 <= t d2 * w (t d2) - t d1 * w (t d1).
Context (b : Bond R) (settle : Date) (v : R).
Hypothesis As : a_date settle.
Hypothesis Hb : sound b.
Hypothesis Hv : discounted_value (V := RV) D b settle c = Ret (Ok v).

Let weight (f : BondCashFlow R) : R := df_of D I c settle (payment_date f) * payment_amount f.
Let reach (f : BondCashFlow R) : R := t (payment_date f) * w (t (payment_date f)) - t settle * w (t settle).
Let flows := filter (open_flow settle) (bond_cash_flows b).

Lemma profile h P : prices D I s ms ys b settle h P <-> P = fading weight reach flows h.
Proof using Ht Mv Hv.
  destruct (Mv h) as (c' & Ec' & Mv'). destruct (value_total D I b settle c v Hv) as (_ & Df).
  assert (discounted_value (V := RV) D b settle c' = Ret (Ok (fading weight reach flows h))) as E.
  { rewrite (C50_sum D I b settle c' (fun d => df_of D I c settle d * exp (- h * (t d * w (t d) - t settle * w (t settle))))).
    - unfold fading, flows, weight, reach. ret_eq. f_equal. apply map_ext. intros f. ring.
    - intros f Hf Of. apply Mv'; [apply Ht | apply Ht | now apply Df]. }
  split.
  - intros (c1 & E1 & V1). rewrite Ec' in E1. injection E1 as <-. rewrite E in V1. now injection V1.
  - intros ->. exists c'. split; assumption.
Qed.

Lemma open_flows f : In f flows -> In f (bond_cash_flows b) /\ earlier settle (due_date f) /\ 0 <= weight f
  /\ (0 < payment_amount f -> 0 < weight f) /\ 0 < t (payment_date f) - t settle <= reach f.
Proof using Mono Up As Hb Hv.
  intros Hf. apply filter_In in Hf. destruct Hf as (Hf & Of). apply open_flow_spec in Of.
  destruct (Hb f Hf) as (Ap & Ad & Pa & Late). destruct (value_total D I b settle c v Hv) as (_ & Df). specialize (Df f Hf Of).
  pose proof (C40_positive D I c settle _ _ Df) as P. split; [exact Hf |]. split; [exact Of |].
  split; [unfold weight; nra |]. split; [intros Q; unfold weight; nra |].
  assert (earlier settle (payment_date f)) as L.
  { clear -Of Late. unfold earlier in *. lia. }
  apply Mono in L; [| exact As | exact Ap]. split; [lra |]. apply (Up settle (payment_date f) _ As Df). lra.
Qed.

Lemma flows_last : lasting weight reach flows.
Proof using Mono Up As Hb Hv. intros f Hf. destruct (open_flows f Hf) as (_ & _ & P & _ & R1 & R2). split; [exact P |]. intros _. lra. Qed.

Lemma flows_pay : pays b settle -> exists f, In f flows /\ 0 < weight f.
Proof using Mono Up As Hb Hv.
  intros (f & Hf & Of & Pf). assert (In f flows) as H by (apply filter_In; split; [exact Hf | now apply open_flow_spec]).
  exists f. split; [exact H |]. now apply open_flows.
Qed.

Lemma spread_if : pays b settle -> one_spread D I s ms ys b settle /\ spread_order D I s ms ys b settle.
Proof using Ht Mono Mv Up As Hb Hv.
  intros Py. pose proof flows_last as L. pose proof (flows_pay Py) as Ex. split.
  - intros P HP. destruct (fading_meets weight reach flows P L Ex HP) as (h & Eh). exists h.
    split; [now apply profile |]. intros h' Hh'. apply profile in Hh'.
    destruct (Rtotal_order h' h) as [C | [C | C]]; [| exact C |]; pose proof (fading_falls weight reach flows _ _ L Ex C); lra.
  - intros h h' P P' E E'. apply profile in E, E'. subst P P'. split.
    + pose proof (fading_falls weight reach flows h (h + 1) L Ex ltac:(lra)). pose proof (fading_nonneg weight reach flows (h + 1) L). lra.
    + split; intros C; [| now apply fading_falls]. apply Rnot_le_lt. intros N.
      pose proof (fading_weak weight reach flows _ _ L N). lra.
Qed.

Lemma convex_if : convex D I s ms ys b settle.
Proof using Ht Mono Mv Up As Hb Hv.
  intros h k lam P Q M Hl E1 E2 E3. apply profile in E1, E2, E3. subst P Q M. apply fading_convex; [apply flows_last | exact Hl].
Qed.

Lemma second_if h P T : (forall x, w x = 1) ->
  (forall f, In f (bond_cash_flows b) -> earlier settle (due_date f) -> t (payment_date f) - t settle <= T) ->
  prices D I s ms ys b settle h P ->
  v - h * moment D I c t b settle 1 <= P <= v - h * moment D I c t b settle 1 + h ^ 2 / 2 * exp (Rabs h * T) * moment D I c t b settle 2.
Proof using Ht Mono Mv Up As Hb Hv.
  intros W HT E. apply profile in E. subst P.
  assert (forall f, reach f = t (payment_date f) - t settle) as Er by (intros f; unfold reach; rewrite !W; ring).
  pose proof (fading_second weight reach flows h T flows_last) as F. cbv zeta in F.
  assert (forall n, total (map (fun f => weight f * reach f ^ n) flows) = moment D I c t b settle n) as Em.
  { intros n. unfold moment, weight. fold flows. f_equal. apply map_ext. intros f. now rewrite Er. }
  assert (total (map weight flows) = v) as Ev.
  { destruct (value_total D I b settle c v Hv) as (E & _). now rewrite E. }
  rewrite !Em, Ev in F. apply F. intros f Hf. destruct (open_flows f Hf) as (Hi & Of & _ & _ & R1 & R2). rewrite Er in *.
  split; [lra |]. now apply HT.
Qed.

End Profile.

(** Interpolations on which a parallel shift of the yields is one of the curve. *)
Definition shifts_evenly (I : Interpolator RV) (n : nat) : Prop := I = Linear RV /\ n = 2%nat \/ I = NaturalCubic RV /\ n = 4%nat.

Lemma even_profile D (I : Interpolator RV) n s ms (ys : list R) : shifts_evenly I n -> D = act_360 RV \/ D = act_365 RV ->
  length ms = length ys -> (n <= length ms)%nat -> a_date s -> (forall m, In m ms -> a_date m) ->
  (forall i j mi mj, (i < j)%nat -> nth_error ms i = Some mi -> nth_error ms j = Some mj -> earlier mi mj) ->
  exists c (t : Date -> R), curve_new D I s ms ys = Ret (Ok c) /\ (forall d, D s d = Ret (Ok (t d)))
    /\ (forall d1 d2, a_date d1 -> a_date d2 -> (earlier d1 d2 <-> t d1 < t d2))
    /\ forall h, exists c', curve_new D I s ms (parallel h ys) = Ret (Ok c')
       /\ forall d1 d2 v t1 t2, D s d1 = Ret (Ok t1) -> D s d2 = Ret (Ok t2) -> discount_factor D c d1 d2 = Ret (Ok v) ->
          discount_factor D c' d1 d2 = Ret (Ok (v * exp (- h * (t2 * 1 - t1 * 1)))).
Proof.
  intros HI HD Hl Hn As Am Om. destruct (C19_laws D HD) as (f & Hf & _ & _ & Mono & _).
  destruct (C42_actual_times D s ms ys HD Hl Am Om) as (t & Ht & Inc).
  assert (zero_on_diagonal D) as Z by (destruct HD as [-> | ->]; apply (C40_day_counts Checked)).
  assert (forall h, exists c c', curve_new D I s ms ys = Ret (Ok c) /\ curve_new D I s ms (parallel h ys) = Ret (Ok c')
    /\ forall d1 d2 v t1 t2, D s d1 = Ret (Ok t1) -> D s d2 = Ret (Ok t2) -> discount_factor D c d1 d2 = Ret (Ok v) ->
          discount_factor D c' d1 d2 = Ret (Ok (v * exp (- h * (t2 - t1))))) as Two.
  { intros h. destruct HI as [(-> & ->) | (-> & ->)].
    - destruct (C72_linear D s ms ys t h Hl Hn Z As (fun m _ => Ht m) Inc) as (c & c' & Ec & Ec' & _ & _ & Mv). eauto.
    - destruct (C72_natural_cubic_partial D s ms ys t h Hl Hn Z As (fun m _ => Ht m) Inc) as (c & c' & Ec & Ec' & _ & _ & Mv). eauto. }
  destruct (Two 0) as (c & _ & Ec & _). exists c, (f s). split; [exact Ec |]. split; [apply Hf |].
  split; [intros d1 d2 A1 A2; now apply Mono |]. intros h. destruct (Two h) as (c1 & c' & Ec1 & Ec' & Mv).
  rewrite Ec in Ec1. injection Ec1 as <-. exists c'. split; [exact Ec' |]. intros d1 d2 v t1 t2 E1 E2 E.
  rewrite !Rmult_1_r. now apply Mv.
Qed.

(** ** C105 *)

Theorem C105_spread : forall D (I : Interpolator RV) n s ms (ys : list R), shifts_evenly I n -> D = act_360 RV \/ D = act_365 RV ->
  length ms = length ys -> (n <= length ms)%nat -> a_date s -> (forall m, In m ms -> a_date m) ->
  (forall i j mi mj, (i < j)%nat -> nth_error ms i = Some mi -> nth_error ms j = Some mj -> earlier mi mj) ->
  exists c, curve_new D I s ms ys = Ret (Ok c) /\ forall (b : Bond R) settle (v : R), a_date settle -> sound b -> pays b settle ->
    discounted_value (V := RV) D b settle c = Ret (Ok v) ->
    one_spread D I s ms ys b settle /\ spread_order D I s ms ys b settle.
Proof.
  intros D I n s ms ys HI HD Hl Hn As Am Om.
  destruct (even_profile D I n s ms ys HI HD Hl Hn As Am Om) as (c & t & Ec & Ht & Mono & Mv).
  exists c. split; [exact Ec |]. intros b settle v Aset Hb Py Hv.
  apply (spread_if D I s ms ys (fun _ => 1) t c Ht Mono Mv) with (v := v); try assumption. intros. cbv beta. lra.
Qed.
Print Assumptions C105_spread.

(** With Catmull-Rom the factors of the last cell move too far, but a spread there is all the same. *)
Lemma cr_profile D s ms (ys : list R) : D = act_360 RV \/ D = act_365 RV ->
  length ms = length ys -> (3 <= length ms)%nat -> a_date s -> (forall m, In m ms -> a_date m) ->
  (forall i j mi mj, (i < j)%nat -> nth_error ms i = Some mi -> nth_error ms j = Some mj -> earlier mi mj) ->
  exists c (t : Date -> R) (w : R -> R), curve_new D (CatmullRom RV) s ms ys = Ret (Ok c) /\ (forall d, D s d = Ret (Ok (t d)))
    /\ (forall d1 d2, a_date d1 -> a_date d2 -> (earlier d1 d2 <-> t d1 < t d2))
    /\ (forall h, exists c', curve_new D (CatmullRom RV) s ms (parallel h ys) = Ret (Ok c')
       /\ forall d1 d2 v t1 t2, D s d1 = Ret (Ok t1) -> D s d2 = Ret (Ok t2) -> discount_factor D c d1 d2 = Ret (Ok v) ->
          discount_factor D c' d1 d2 = Ret (Ok (v * exp (- h * (t2 * w t2 - t1 * w t1)))))
    /\ forall d1 d2 v, a_date d1 -> discount_factor D c d1 d2 = Ret (Ok v) -> t d1 <= t d2 ->
       t d2 - t d1 <= t d2 * w (t d2) - t d1 * w (t d1).
Proof.
  intros HD Hl H3 As Am Om. destruct (C19_laws D HD) as (f & Hf & _ & _ & Mono & Zero).
  destruct (C42_actual_times D s ms ys HD Hl Am Om) as (t & Ht & Inc).
  assert (zero_on_diagonal D) as Z by (destruct HD as [-> | ->]; apply (C40_day_counts Checked)).
  set (p := curve_points t ms ys) in *.
  assert (3 <= length p)%nat as L3 by (unfold p; rewrite curve_points_length by exact Hl; exact H3).
  destruct (cr_two_curves D s ms ys t 0 Hl H3 Z As (fun m _ => Ht m) Inc) as (c & _ & Ec & _ & Es & _).
  exists c, (f s), (cr_weight p). split; [exact Ec |]. split; [apply Hf |].
  split; [intros d1 d2 A1 A2; now apply Mono |]. split.
  - intros h. destruct (cr_two_curves D s ms ys t h Hl H3 Z As (fun m _ => Ht m) Inc) as (c1 & c' & Ec1 & Ec' & _ & _ & Mv).
    rewrite Ec in Ec1. injection Ec1 as <-. exists c'. split; [exact Ec' | exact Mv].
  - intros d1 d2 v A1 Hd Le. destruct (cr_weight_grows p (f s d1) (f s d2) Inc L3 Le) as (W1 & W2).
    assert (0 <= f s d1) as P1.
    { apply df_ok in Hd. destruct Hd as (_ & O & _). rewrite Es in O.
      apply Rnot_lt_le. intros C. apply O. apply (Mono s); [exact A1 | exact As |]. rewrite (proj2 (Zero s s As As) eq_refl). exact C. }
    nra.
Qed.

Theorem C105_catmull_rom : forall D s ms (ys : list R), D = act_360 RV \/ D = act_365 RV ->
  length ms = length ys -> (3 <= length ms)%nat -> a_date s -> (forall m, In m ms -> a_date m) ->
  (forall i j mi mj, (i < j)%nat -> nth_error ms i = Some mi -> nth_error ms j = Some mj -> earlier mi mj) ->
  exists c, curve_new D (CatmullRom RV) s ms ys = Ret (Ok c) /\ forall (b : Bond R) settle (v : R), a_date settle -> sound b -> pays b settle ->
    discounted_value (V := RV) D b settle c = Ret (Ok v) ->
    one_spread D (CatmullRom RV) s ms ys b settle /\ spread_order D (CatmullRom RV) s ms ys b settle.
Proof.
  intros D s ms ys HD Hl Hn As Am Om.
  destruct (cr_profile D s ms ys HD Hl Hn As Am Om) as (c & t & w & Ec & Ht & Mono & Mv & Up).
  exists c. split; [exact Ec |]. intros b settle v Aset Hb Py Hv.
  apply (spread_if D (CatmullRom RV) s ms ys w t c Ht Mono Mv Up) with (v := v); assumption.
Qed.
Print Assumptions C105_catmull_rom.

(** Bonds as they are built are of this kind. *)
Theorem C105_bonds : forall id issue first pen mat fr (rate face : R) b, a_date issue -> a_date first -> a_date pen -> a_date mat ->
  ~ earlier first issue -> ~ earlier mat pen -> 0 <= rate -> 0 < face ->
  bond_new (V := RV) id issue first pen mat fr rate face = Ret (Some b) ->
  sound b /\ forall settle, earlier settle mat -> pays b settle.
Proof.
  intros id issue first pen mat fr rate face b Ai Af Ap Am O1 O2 Hr Hf E.
  destruct (C88_flows id issue first pen mat fr face rate b Af E) as (cs & k & Eb & Pos & _).
  destruct (Pos Ai Ap Am O1 O2 ltac:(lra)) as (Pk & Pc). pose proof (C95_coupons RV id issue first pen mat fr rate face b Af E) as Cd.
  pose proof (eq_trans (eq_sym (Eb rate)) E) as Q. injection Q as Q. change (carrier RV) with R in *.
  assert (bond_cash_flows b = map (at_rate rate) (map (fun q => (fst q, 0, snd q)) cs) ++ [at_rate rate (mat, mat, face, k)]) as Fl.
  { rewrite <- Q. simpl. now rewrite map_app. }
  assert (List.length (bond_cash_flows b) = S (List.length cs)) as Ln by (rewrite Fl, app_length, !map_length; simpl; lia).
  split.
  - intros f Hi. destruct (In_nth_error _ _ Hi) as (i & Hn).
    assert (i < S (List.length cs))%nat as Li by (rewrite <- Ln; apply nth_error_Some; intros C; discriminate (eq_trans (eq_sym Hn) C)).
    destruct (Nat.eq_dec i (List.length cs)) as [-> | N].
    + rewrite Fl, nth_error_app2 in Hn by (rewrite !map_length; lia). rewrite !map_length, Nat.sub_diag in Hn. injection Hn as <-. simpl.
      split; [exact Am |]. split; [exact Am |]. split; [nra |]. unfold earlier. lia.
    + destruct (Cd i f Hn ltac:(lia)) as (Ad & Apay & _ & Gap & _). split; [exact Apay |]. split; [exact Ad |]. split.
      * rewrite Fl, nth_error_app1 in Hn by (rewrite !map_length; lia). apply nth_error_In in Hn. rewrite map_map in Hn.
        apply in_map_iff in Hn. destruct Hn as (((du, pa), am) & <- & Hq). pose proof (Rmult_le_pos _ _ Hr (Pc _ Hq)) as M. simpl in *. lra.
      * intros L. apply (proj1 (C02_serial_order _ _ Apay Ad)) in L. unfold date_sub, diff_days in Gap. unfold serial_date in L. lia.
  - intros settle L. exists (at_rate rate (mat, mat, face, k)). split; [rewrite Fl; apply in_or_app; right; now left |].
    split; [exact L |]. simpl. nra.
Qed.
Print Assumptions C105_bonds.

(** ** C106 *)

Theorem C106_convex : forall D (I : Interpolator RV) n s ms (ys : list R), shifts_evenly I n \/ I = CatmullRom RV /\ n = 3%nat ->
  D = act_360 RV \/ D = act_365 RV ->
  length ms = length ys -> (n <= length ms)%nat -> a_date s -> (forall m, In m ms -> a_date m) ->
  (forall i j mi mj, (i < j)%nat -> nth_error ms i = Some mi -> nth_error ms j = Some mj -> earlier mi mj) ->
  exists c, curve_new D I s ms ys = Ret (Ok c) /\ forall (b : Bond R) settle (v : R), a_date settle -> sound b ->
    discounted_value (V := RV) D b settle c = Ret (Ok v) -> convex D I s ms ys b settle.
Proof.
  intros D I n s ms ys HI HD Hl Hn As Am Om. destruct HI as [HI | (-> & ->)].
  - destruct (even_profile D I n s ms ys HI HD Hl Hn As Am Om) as (c & t & Ec & Ht & Mono & Mv).
    exists c. split; [exact Ec |]. intros b settle v Aset Hb Hv.
    apply (convex_if D I s ms ys (fun _ => 1) t c Ht Mono Mv) with (v := v); try assumption. intros. cbv beta. lra.
  - destruct (cr_profile D s ms ys HD Hl Hn As Am Om) as (c & t & w & Ec & Ht & Mono & Mv & Up).
    exists c. split; [exact Ec |]. intros b settle v Aset Hb Hv.
    apply (convex_if D (CatmullRom RV) s ms ys w t c Ht Mono Mv Up) with (v := v); assumption.
Qed.
Print Assumptions C106_convex.

(** Duration from below, duration and convexity from above. *)
Theorem C106_duration : forall D (I : Interpolator RV) n s ms (ys : list R), shifts_evenly I n -> D = act_360 RV \/ D = act_365 RV ->
  length ms = length ys -> (n <= length ms)%nat -> a_date s -> (forall m, In m ms -> a_date m) ->
  (forall i j mi mj, (i < j)%nat -> nth_error ms i = Some mi -> nth_error ms j = Some mj -> earlier mi mj) ->
  exists c (t : Date -> R), curve_new D I s ms ys = Ret (Ok c) /\ (forall d, D s d = Ret (Ok (t d)))
    /\ forall (b : Bond R) settle (v h P T : R), a_date settle -> sound b -> discounted_value (V := RV) D b settle c = Ret (Ok v) ->
       (forall f, In f (bond_cash_flows b) -> earlier settle (due_date f) -> t (payment_date f) - t settle <= T) ->
       prices D I s ms ys b settle h P ->
       v - h * moment D I c t b settle 1 <= P
         <= v - h * moment D I c t b settle 1 + h ^ 2 / 2 * exp (Rabs h * T) * moment D I c t b settle 2.
Proof.
  intros D I n s ms ys HI HD Hl Hn As Am Om.
  destruct (even_profile D I n s ms ys HI HD Hl Hn As Am Om) as (c & t & Ec & Ht & Mono & Mv).
  exists c, t. split; [exact Ec |]. split; [exact Ht |]. intros b settle v h P T Aset Hb Hv HT E.
  apply (second_if D I s ms ys (fun _ => 1) t c Ht Mono Mv) with (v := v); try assumption; [intros; cbv beta; lra | reflexivity].
Qed.
Print Assumptions C106_duration.

(** The slope of the price is minus the duration. *)
Theorem C106_slope : forall D (I : Interpolator RV) n s ms (ys : list R), shifts_evenly I n -> D = act_360 RV \/ D = act_365 RV ->
  length ms = length ys -> (n <= length ms)%nat -> a_date s -> (forall m, In m ms -> a_date m) ->
  (forall i j mi mj, (i < j)%nat -> nth_error ms i = Some mi -> nth_error ms j = Some mj -> earlier mi mj) ->
  exists c (t : Date -> R), curve_new D I s ms ys = Ret (Ok c) /\ (forall d, D s d = Ret (Ok (t d)))
    /\ forall (b : Bond R) settle (v : R), a_date settle -> sound b -> discounted_value (V := RV) D b settle c = Ret (Ok v) ->
       exists price, (forall h, prices D I s ms ys b settle h (price h)) /\ price 0 = v
         /\ derivable_pt_lim price 0 (- moment D I c t b settle 1).
Proof.
  intros D I n s ms ys HI HD Hl Hn As Am Om.
  destruct (even_profile D I n s ms ys HI HD Hl Hn As Am Om) as (c & t & Ec & Ht & Mono & Mv).
  exists c, t. split; [exact Ec |]. split; [exact Ht |]. intros b settle v Aset Hb Hv.
  set (a := fun f : BondCashFlow R => df_of D I c settle (payment_date f) * payment_amount f).
  set (k := fun f : BondCashFlow R => t (payment_date f) * 1 - t settle * 1).
  set (l := filter (open_flow settle) (bond_cash_flows b)).
  exists (fading a k l). split; [| split].
  - intros h. apply (profile D I s ms ys (fun _ => 1) t c Ht Mv b settle v Hv). reflexivity.
  - unfold fading. destruct (value_total D I b settle c v Hv) as (-> & _). f_equal. apply map_ext. intros f.
    replace (- 0 * k f) with 0 by ring. rewrite exp_0. unfold a. ring.
  - unfold moment. fold l. clear. induction l as [| f l IH].
    + replace (- total _) with 0 by (unfold total; simpl; ring). apply (derivable_pt_lim_const 0).
    + simpl map. rewrite total_cons, Ropp_plus_distr.
      apply (derivable_pt_lim_plus (fun h => a f * exp (- h * k f)) (fading a k l)); [| exact IH].
      replace (- (df_of D I c settle (payment_date f) * payment_amount f * ((t (payment_date f) - t settle) * 1)))
        with (a f * (exp (- 0 * k f) * - k f)) by (replace (- 0 * k f) with 0 by ring; rewrite exp_0; unfold a, k; ring).
      apply (derivable_pt_lim_scal (fun h => exp (- h * k f)) (a f)).
      apply (derivable_pt_lim_comp (fun h => - h * k f) exp 0 (- k f) (exp (- 0 * k f))); [| apply derivable_pt_lim_exp].
      replace (- k f) with (- (1) * k f + - 0 * 0) by ring.
      apply (derivable_pt_lim_mult (fun h => - h) (fun _ => k f)); [| apply derivable_pt_lim_const].
      apply (derivable_pt_lim_opp (fun h => h)). apply derivable_pt_lim_id.
Qed.
Print Assumptions C106_slope.

(** The bond of [C75_case]: two coupons and a face, and a curve on which it has a value. *)
Example C105_case : exists c (b : Bond R) v, curve_new (act_365 RV) (Linear RV) ex_settle ex_maturities ex_yields = Ret (Ok c)
  /\ a_date ex_settle /\ sound b /\ pays b ex_settle /\ discounted_value (V := RV) (act_365 RV) b ex_settle c = Ret (Ok v)
  /\ one_spread (act_365 RV) (Linear RV) ex_settle ex_maturities ex_yields b ex_settle.
Proof.
  destruct C75_case as (c & v & Ec & Hb & Ev). set (b := mkBond _ _) in *. exists c, b, v.
  assert (a_date ex_settle) as As by now apply valid_a_date.
  assert (sound b) as Sb.
  { intros f [<- | [<- | []]]; (split; [apply valid_a_date; reflexivity |]); (split; [apply valid_a_date; reflexivity |]); simpl;
      (split; [lra |]); unfold earlier; simpl; lia. }
  assert (pays b ex_settle) as Pb.
  { exists (mkFlow (mkDate 2025 9 1) (mkDate 2025 9 1) 5). split; [now left |]. split; [unfold earlier; simpl; lia | simpl; lra]. }
  split; [exact Ec |]. split; [exact As |]. split; [exact Sb |]. split; [exact Pb |]. split; [exact Ev |].
  destruct (C105_spread (act_365 RV) (Linear RV) 2 ex_settle ex_maturities ex_yields) as (c1 & Ec1 & H).
  { now left. } { now right. } { reflexivity. } { simpl; lia. } { exact As. }
  { intros m [<- | [<- | [<- | []]]]; now apply valid_a_date. }
  { intros [| [| [| i]]] [| [| [| j]]] mi mj Hij Ei Ej; simpl in Ei, Ej; try lia;
      try (destruct i; discriminate Ei); try (destruct j; discriminate Ej);
      injection Ei as <-; injection Ej as <-; unfold earlier; simpl; lia. }
  assert (c1 = c) as -> by congruence. now apply (H b ex_settle v).
Qed.

(** Half a percent of spread on it: the price is above the tangent. *)
Example C106_case : exists c (t : Date -> R) (b : Bond R) (v P : R), curve_new (act_365 RV) (Linear RV) ex_settle ex_maturities ex_yields = Ret (Ok c)
  /\ discounted_value (V := RV) (act_365 RV) b ex_settle c = Ret (Ok v) /\ 0 < v
  /\ prices (act_365 RV) (Linear RV) ex_settle ex_maturities ex_yields b ex_settle (5 / 1000) P
  /\ v - 5 / 1000 * moment (act_365 RV) (Linear RV) c t b ex_settle 1 <= P < v.
Proof.
  destruct C105_case as (c & b & v & Ec & As & Sb & Pb & Ev & _).
  assert (forall m, In m ex_maturities -> a_date m) as Am by (intros m [<- | [<- | [<- | []]]]; now apply valid_a_date).
  assert (forall i j mi mj, (i < j)%nat -> nth_error ex_maturities i = Some mi -> nth_error ex_maturities j = Some mj -> earlier mi mj) as Om.
  { intros [| [| [| i]]] [| [| [| j]]] mi mj Hij Ei Ej; simpl in Ei, Ej; try lia;
      try (destruct i; discriminate Ei); try (destruct j; discriminate Ej);
      injection Ei as <-; injection Ej as <-; unfold earlier; simpl; lia. }
  destruct (C106_slope (act_365 RV) (Linear RV) 2 ex_settle ex_maturities ex_yields) as (c1 & t1 & Ec1 & _ & H1);
    [now left | now right | reflexivity | simpl; lia | exact As | exact Am | exact Om |].
  destruct (C106_duration (act_365 RV) (Linear RV) 2 ex_settle ex_maturities ex_yields) as (c2 & t & Ec2 & Ht & H2);
    [now left | now right | reflexivity | simpl; lia | exact As | exact Am | exact Om |].
  destruct (C105_spread (act_365 RV) (Linear RV) 2 ex_settle ex_maturities ex_yields) as (c3 & Ec3 & H3);
    [now left | now right | reflexivity | simpl; lia | exact As | exact Am | exact Om |].
  assert (c1 = c) as -> by congruence. assert (c2 = c) as -> by congruence. assert (c3 = c) as -> by congruence.
  destruct (H1 b ex_settle v As Sb Ev) as (price & Hp & E0 & _). exists c, t, b, v, (price (5 / 1000)).
  destruct (H3 b ex_settle v As Sb Pb Ev) as (_ & Or). pose proof (Hp 0) as P0. rewrite E0 in P0.
  destruct (Or _ _ _ _ P0 (Hp (5 / 1000))) as (Pv & _). destruct (Or _ _ _ _ (Hp (5 / 1000)) P0) as (_ & Lt).
  split; [exact Ec |]. split; [exact Ev |]. split; [exact Pv |]. split; [apply Hp |]. split; [| apply Lt; lra].
  set (T := fold_right Rmax 0 (map (fun f => t (payment_date f) - t ex_settle) (bond_cash_flows b))).
  apply (H2 b ex_settle v (5 / 1000) (price (5 / 1000)) T As Sb Ev); [| apply Hp].
  intros f Hf _. unfold T. clear -Hf. induction (bond_cash_flows b) as [| g l IH]; [contradiction |]. simpl.
  destruct Hf as [-> | Hf]; [apply Rmax_l |]. eapply Rle_trans; [now apply IH | apply Rmax_r].
Qed.
