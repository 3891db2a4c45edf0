(** Properties C68 - C71: how the interpolators respond to their data. *)
From Coq Require Import Reals List Arith Lia Lra.
From Verif Require Import Base Value RealValue InterpModel InterpFacts Grid Piecewise TriFacts PropsTri NcFacts
  PropsLinear PropsHermite PropsCatmullRom PropsNaturalCubic.
Import ListNotations.
Open Scope R_scope.

(** ** Specification *)

(** [p] has the abscissas of [p1] and [p2], and its ordinates are [a] times those of [p1] plus [b] times
    those of [p2]. *)
Definition superposed (a b : R) (p1 p2 p : list (R * R)) : Prop :=
  length p1 = length p /\ length p2 = length p
  /\ forall i, (i < length p)%nat -> gx p1 i = gx p i /\ gx p2 i = gx p i /\ gy p i = a * gy p1 i + b * gy p2 i.

(** [p'] is [p] with [s] added to every ordinate. *)
Definition raised (s : R) (p p' : list (R * R)) : Prop :=
  length p' = length p /\ forall i, (i < length p)%nat -> gx p' i = gx p i /\ gy p' i = gy p i + s.

(** [p'] is [p] with abscissas measured in another unit and from another origin. *)
Definition rescaled (k o : R) (p p' : list (R * R)) : Prop :=
  length p' = length p /\ forall i, (i < length p)%nat -> gx p' i = k * gx p i + o /\ gy p' i = gy p i.

(** The points [p] and [p'] of the same size agree from index [i] to index [k]. *)
Definition agree (i k : nat) (p p' : list (R * R)) : Prop :=
  length p' = length p
  /\ forall j, (i <= j <= k)%nat -> (j < length p)%nat -> gx p' j = gx p j /\ gy p' j = gy p j.

(** ** Lemmas *)

Lemma beyond (p : list (R * R)) i : (length p <= i)%nat -> gx p i = 0 /\ gy p i = 0.
Proof. intros H. unfold gx, gy. rewrite nth_overflow by exact H. auto. Qed.

Lemma superposed_all a b p1 p2 p : superposed a b p1 p2 p ->
  forall i, gx p1 i = gx p i /\ gx p2 i = gx p i /\ gy p i = a * gy p1 i + b * gy p2 i.
Proof.
  intros (L1 & L2 & H) i. destruct (Nat.lt_ge_cases i (length p)) as [C | C]; [now apply H |].
  destruct (beyond p i C) as (-> & ->). destruct (beyond p1 i ltac:(lia)) as (-> & ->).
  destruct (beyond p2 i ltac:(lia)) as (-> & ->). repeat split; ring.
Qed.

Lemma superposed_inc a b p1 p2 p : superposed a b p1 p2 p -> increasing p -> increasing p1 /\ increasing p2.
Proof.
  intros Sp H. pose proof (superposed_all _ _ _ _ _ Sp) as A. destruct Sp as (L1 & L2 & _).
  split; intros i j Hij; destruct (A i) as (E1 & E2 & _), (A j) as (E3 & E4 & _).
  - rewrite E1, E3. apply H. lia.
  - rewrite E2, E4. apply H. lia.
Qed.

Lemma rescaled_inc k o p p' : 0 < k -> rescaled k o p p' -> increasing p -> increasing p'.
Proof.
  intros Hk (L & A) H i j Hij. destruct (A i ltac:(lia)) as (-> & _), (A j ltac:(lia)) as (-> & _).
  assert (gx p i < gx p j) by (apply H; lia). nra.
Qed.

(** *** The second derivatives of the natural cubic, in closed form *)

(** Entry [j] of what the solver returns. *)
Definition nc_sol (p : list (R * R)) (j : nat) : R :=
  let n := length p in
  if (n =? 3)%nat then nc_rhs (V := RV) p (0, 0) 0 / nc_diag (V := RV) p (0, 0) 3 0
  else xsol (V := RV) (n - 2) (nc_off (V := RV) p (0, 0) 6) (nc_diag (V := RV) p (0, 0) 3)
         (nc_off (V := RV) p (0, 0) 6) (nc_rhs (V := RV) p (0, 0)) j.

Definition nc_ds (p : list (R * R)) : list R := [0] ++ tab (nc_sol p) (length p - 2) ++ [0].

Lemma nc_ds_length p : (3 <= length p)%nat -> length (nc_ds p) = length p.
Proof. intros H. unfold nc_ds. rewrite !app_length, tab_length. simpl. lia. Qed.

Lemma nc_ds_nth p i : (3 <= length p)%nat ->
  second_of (nc_ds p) i = if (i =? 0)%nat then 0 else if (i <? length p - 1)%nat then nc_sol p (i - 1) else 0.
Proof.
  intros H. unfold second_of, nc_ds. destruct i as [| i]; [reflexivity |]. simpl.
  destruct (Nat.ltb_spec (S i) (length p - 1)) as [C | C].
  - rewrite app_nth1 by (rewrite tab_length; lia). rewrite tab_nth by lia. f_equal. lia.
  - rewrite app_nth2 by (rewrite tab_length; lia). rewrite tab_length.
    destruct (i - (length p - 2))%nat as [| [| m]]; reflexivity.
Qed.

Lemma nc_eval_ds p x : increasing p -> (3 <= length p)%nat ->
  fit_eval (NaturalCubic RV) p x = natural_cubic_try_value (V := RV) (nc_points (V := RV) p (nc_ds p)) x.
Proof.
  intros H Hn. unfold fit_eval.
  assert (i_try_fit (NaturalCubic RV) (i_default (NaturalCubic RV)) p = Ret (Ok (nc_points (V := RV) p (nc_ds p)))) as ->;
    [| reflexivity].
  assert (tri_solve (V := RV) (nc_matrix (V := RV) p (0, 0) 6 3) (tab (nc_rhs (V := RV) p (0, 0)) (length p - 2))
    = Ret (tab (nc_sol p) (length p - 2))) as Es.
  { unfold tri_solve, nc_matrix. cbn [size diagonal upper_diagonal lower_diagonal]. change (carrier RV) with R.
    unfold nc_sol. destruct (Nat.eqb_spec (length p) 3) as [E | N].
    - rewrite E. reflexivity.
    - destruct (Nat.eqb_spec (length p - 2) 1) as [C | _]; [lia |].
      replace (length p - 3)%nat with (length p - 2 - 1)%nat by lia.
      apply (thomas_computes (V := RV)). lia. }
  cbn [i_try_fit NaturalCubic]. rewrite (nc_fit (V := RV) p (0, 0) 6 3) by (reflexivity || exact Hn).
  change (carrier RV) with R. change (carrier RV) with R in Es. rewrite Es. cbn [bind].
  change (v_zero (v := RV)) with 0. fold (nc_ds p). fold (nc_points (V := RV) p (nc_ds p)).
  pose proof (nc_ds_length p Hn) as Ld. set (l := nc_points (V := RV) p (nc_ds p)).
  destruct (check_order_spec (V := RV) (@s_x R) l (nx (V := RV) p (0, 0) 0)) as [(E & _) | (E & O)];
    [exact (f_equal (fun r => Ret r) E) |]. exfalso. destruct O as [O | (p0 & Hp & Lp)].
  - apply O. apply (in_order_real s_x l (slope_new 0 0 0)). now apply nc_points_sorted.
  - apply Rltb_true in Lp. apply (nth_error_nth _ _ (slope_new 0 0 0)) in Hp. unfold l in Hp.
    rewrite nc_points_nth in Hp by exact Ld. subst p0. unfold s_x, slope_new in Lp. simpl in Lp.
    change (nx (V := RV) p (0, 0) 0) with (gx p 0) in Lp. lra.
Qed.

Lemma nc_value_ds p i x : increasing p -> (3 <= length p)%nat -> (i + 1 < length p)%nat ->
  gx p i <= x <= gx p (i + 1) -> fit_eval (NaturalCubic RV) p x = Ret (Ok (q p (second_of (nc_ds p)) i x)).
Proof.
  intros H Hn Hi Hx. rewrite nc_eval_ds by assumption.
  apply nc_closed; [now apply nc_ds_length | exact H | exact Hi | exact Hx].
Qed.

(** Multiplying the matrix by [k] and the right-hand side by [m] multiplies the answer by [m / k]. *)
Section Scale.
Context (lo di up lo' di' up' : nat -> R) (k : R) (N : nat).
Hypothesis Hk : k <> 0.
Hypothesis Hlo : forall i, (i < N)%nat -> lo' i = k * lo i.
Hypothesis Hdi : forall i, (i < N)%nat -> di' i = k * di i.
Hypothesis Hup : forall i, (i < N)%nat -> up' i = k * up i.

Lemma cancel_k x y : k * x / (k * y) = x / y.
Proof using Hk. unfold Rdiv. rewrite Rinv_mult. generalize (/ y). intros z. field. exact Hk. Qed.

Lemma sc_scale : forall i, (i < N)%nat -> sc (V := RV) lo' di' up' i = sc (V := RV) lo di up i.
Proof using Hk Hlo Hdi Hup.
  induction i as [| i IH]; intros Hi; cbn [sc]; simpl.
  - rewrite Hup, Hdi by lia. apply cancel_k.
  - rewrite IH, Hup, Hdi, Hlo by lia. rewrite Rmult_assoc, <- Rmult_minus_distr_l. apply cancel_k.
Qed.

Context (b b' : nat -> R) (m : R).
Hypothesis Hb : forall i, (i < N)%nat -> b' i = m * b i.

Lemma xf_scale : forall i, (i < N)%nat -> xf (V := RV) lo' di' up' b' i = m / k * xf (V := RV) lo di up b i.
Proof using Hk Hlo Hdi Hup Hb.
  induction i as [| i IH]; intros Hi; cbn [xf]; simpl.
  - rewrite Hb, Hdi by lia. unfold Rdiv. rewrite Rinv_mult. ring.
  - rewrite IH, sc_scale, Hb, Hdi, Hlo by lia. set (s := sc (V := RV) lo di up i).
    replace (k * di (S i) - k * lo i * s) with (k * (di (S i) - lo i * s)) by ring.
    unfold Rdiv. rewrite Rinv_mult. generalize (/ (di (S i) - lo i * s)). intros z. field. exact Hk.
Qed.

Lemma xback_scale : forall j i, (i + j < N)%nat ->
  xback (V := RV) lo' di' up' b' j i = m / k * xback (V := RV) lo di up b j i.
Proof using Hk Hlo Hdi Hup Hb.
  induction j as [| j IH]; intros i Hi; cbn [xback]; [apply xf_scale; lia |].
  simpl. rewrite IH, xf_scale, sc_scale by lia. ring.
Qed.
End Scale.

(** The answer is linear in the right-hand side. *)
Section Superpose.
Context (lo di up b b1 b2 : nat -> R) (a c : R).
Hypothesis Hb : forall i, b i = a * b1 i + c * b2 i.

Lemma xf_superpose : forall i, xf (V := RV) lo di up b i = a * xf (V := RV) lo di up b1 i + c * xf (V := RV) lo di up b2 i.
Proof using Hb.
  induction i as [| i IH]; cbn [xf]; simpl; rewrite ?IH, Hb; unfold Rdiv; ring.
Qed.

Lemma xback_superpose : forall j i, xback (V := RV) lo di up b j i
  = a * xback (V := RV) lo di up b1 j i + c * xback (V := RV) lo di up b2 j i.
Proof using Hb.
  induction j as [| j IH]; intros i; cbn [xback]; [apply xf_superpose |]. simpl. rewrite IH, xf_superpose. ring.
Qed.
End Superpose.

Ltac rhs_cases :=
  unfold nc_rhs, mul_entry, nc_coff, nc_cdiag, nc_mm, v_recip;
  repeat match goal with |- context [nx (V := RV) ?p (0, 0)] => change (nx (V := RV) p (0, 0)) with (gx p) end;
  repeat match goal with |- context [ny (V := RV) ?p (0, 0)] => change (ny (V := RV) p (0, 0)) with (gy p) end;
  change (carrier RV) with R.

Lemma rhs_superpose a b p1 p2 p j : superposed a b p1 p2 p ->
  nc_rhs (V := RV) p (0, 0) j = a * nc_rhs (V := RV) p1 (0, 0) j + b * nc_rhs (V := RV) p2 (0, 0) j.
Proof.
  intros Sp. pose proof (superposed_all _ _ _ _ _ Sp) as A. destruct Sp as (L1 & L2 & _). rhs_cases. rewrite L1, L2.
  assert (forall i, gx p1 i = gx p i) as X1 by apply A. assert (forall i, gx p2 i = gx p i) as X2 by apply A.
  assert (forall i, gy p i = a * gy p1 i + b * gy p2 i) as Y by apply A.
  rewrite !X1, !X2, !Y. simpl v_div. simpl v_sub. simpl v_add. simpl v_mul. simpl v_neg. simpl v_zero. simpl v_one.
  unfold Rdiv.
  destruct (0 <? j)%nat, (j + 1 <? length p - 2)%nat, (j =? 0)%nat, (j + 3 =? length p)%nat; ring.
Qed.

Lemma rhs_rescale k o p p' j : 0 < k -> rescaled k o p p' -> (j + 2 < length p)%nat ->
  nc_rhs (V := RV) p' (0, 0) j = / k * nc_rhs (V := RV) p (0, 0) j.
Proof.
  intros Hk (L & A) Hj. rhs_cases. rewrite L.
  assert (forall i, (i < length p)%nat -> gx p' i = k * gx p i + o) as X by (intros i Hi; now apply A).
  assert (forall i, (i < length p)%nat -> gy p' i = gy p i) as Y by (intros i Hi; now apply A).
  assert (forall x y, / (k * x + o - (k * y + o)) = / k * / (x - y)) as Inv.
  { intros x y. replace (k * x + o - (k * y + o)) with (k * (x - y)) by ring. apply Rinv_mult. }
  simpl v_div. simpl v_sub. simpl v_add. simpl v_mul. simpl v_neg. simpl v_zero. simpl v_one. unfold Rdiv.
  destruct (Nat.ltb_spec 0 j), (Nat.ltb_spec (j + 1) (length p - 2)), (Nat.eqb_spec j 0), (Nat.eqb_spec (j + 3) (length p));
    rewrite ?X, ?Y by lia; rewrite ?Inv; ring.
Qed.

Lemma sol_superpose a b p1 p2 p j : superposed a b p1 p2 p -> (j + 2 < length p)%nat ->
  nc_sol p j = a * nc_sol p1 j + b * nc_sol p2 j.
Proof.
  intros Sp Hj. pose proof (superposed_all _ _ _ _ _ Sp) as A. pose proof Sp as (L1 & L2 & _).
  unfold nc_sol. rewrite L1, L2.
  assert (forall p', (forall i, gx p' i = gx p i) ->
    (forall i, nc_off (V := RV) p' (0, 0) 6 i = 1 * nc_off (V := RV) p (0, 0) 6 i)
    /\ (forall i, nc_diag (V := RV) p' (0, 0) 3 i = 1 * nc_diag (V := RV) p (0, 0) 3 i)) as M.
  { intros p' X. unfold nc_off, nc_diag. change (nx (V := RV) p' (0, 0)) with (gx p').
    change (nx (V := RV) p (0, 0)) with (gx p). split; intros i; rewrite !X; simpl; ring. }
  destruct (M p1 ltac:(intros i; apply A)) as (O1 & D1). destruct (M p2 ltac:(intros i; apply A)) as (O2 & D2).
  destruct (length p =? 3)%nat.
  - rewrite D1, D2, (rhs_superpose a b p1 p2 p 0 Sp), !Rmult_1_l. unfold Rdiv. ring.
  - unfold xsol.
    rewrite (xback_superpose _ _ _ _ (nc_rhs (V := RV) p1 (0, 0)) (nc_rhs (V := RV) p2 (0, 0)) a b)
      by (intros i; now apply rhs_superpose).
    assert (forall p' i, nc_rhs (V := RV) p' (0, 0) i = 1 * nc_rhs (V := RV) p' (0, 0) i) as R1 by (intros; symmetry; apply Rmult_1_l).
    f_equal; f_equal; symmetry.
    + rewrite (xback_scale _ _ _ _ _ _ 1 (length p) R1_neq_R0
        (fun i _ => O1 i) (fun i _ => D1 i) (fun i _ => O1 i)
        (nc_rhs (V := RV) p1 (0, 0)) (nc_rhs (V := RV) p1 (0, 0)) 1 (fun i _ => R1 p1 i)) by lia.
      unfold Rdiv. rewrite Rinv_1, !Rmult_1_l. reflexivity.
    + rewrite (xback_scale _ _ _ _ _ _ 1 (length p) R1_neq_R0
        (fun i _ => O2 i) (fun i _ => D2 i) (fun i _ => O2 i)
        (nc_rhs (V := RV) p2 (0, 0)) (nc_rhs (V := RV) p2 (0, 0)) 1 (fun i _ => R1 p2 i)) by lia.
      unfold Rdiv. rewrite Rinv_1, !Rmult_1_l. reflexivity.
Qed.

Lemma sol_rescale k o p p' j : 0 < k -> rescaled k o p p' -> (j + 2 < length p)%nat ->
  nc_sol p' j = / (k * k) * nc_sol p j.
Proof.
  intros Hk Rs Hj. pose proof Rs as (L & A). unfold nc_sol. rewrite L.
  assert (forall i, (i < length p)%nat -> gx p' i = k * gx p i + o) as X by (intros i Hi; now apply A).
  assert (forall i, (i < length p - 2)%nat -> nc_off (V := RV) p' (0, 0) 6 i = k * nc_off (V := RV) p (0, 0) 6 i) as O.
  { intros i Hi. unfold nc_off. change (nx (V := RV) p' (0, 0)) with (gx p'). change (nx (V := RV) p (0, 0)) with (gx p).
    rewrite !X by lia. simpl. field. }
  assert (forall i, (i < length p - 2)%nat -> nc_diag (V := RV) p' (0, 0) 3 i = k * nc_diag (V := RV) p (0, 0) 3 i) as Di.
  { intros i Hi. unfold nc_diag. change (nx (V := RV) p' (0, 0)) with (gx p'). change (nx (V := RV) p (0, 0)) with (gx p).
    rewrite !X by lia. simpl. field. }
  destruct (Nat.eqb_spec (length p) 3) as [E | N].
  - rewrite Di, (rhs_rescale k o p p' 0 Hk Rs) by lia. unfold Rdiv. rewrite !Rinv_mult. ring.
  - unfold xsol.
    rewrite (xback_scale _ _ _ _ _ _ k (length p - 2)
      ltac:(lra) O Di O (nc_rhs (V := RV) p (0, 0)) (nc_rhs (V := RV) p' (0, 0)) (/ k) (fun i Hi => rhs_rescale k o p p' i Hk Rs ltac:(lia))) by lia.
    rewrite Rinv_mult. unfold Rdiv. ring.
Qed.

(** ** C68 *)

Lemma superposed_range a b p1 p2 p i x : superposed a b p1 p2 p -> gx p i <= x <= gx p (i + 1) ->
  gx p1 i <= x <= gx p1 (i + 1) /\ gx p2 i <= x <= gx p2 (i + 1).
Proof.
  intros Sp Hx. pose proof (superposed_all _ _ _ _ _ Sp) as A.
  destruct (A i) as (-> & -> & _), (A (i + 1)%nat) as (-> & -> & _). auto.
Qed.

(** Interpolating a combination of two data sets gives the combination of the two interpolants. *)
Theorem C68_linear : forall a b p1 p2 p x, superposed a b p1 p2 p -> increasing p -> (2 <= length p)%nat ->
  in_range p x -> exists u v, fit_eval (Linear RV) p1 x = Ret (Ok u) /\ fit_eval (Linear RV) p2 x = Ret (Ok v)
    /\ fit_eval (Linear RV) p x = Ret (Ok (a * u + b * v)).
Proof.
  intros a b p1 p2 p x Sp H Hl Hx. destruct (g_cell p x H Hl Hx) as (i & Hi & Ci).
  destruct (superposed_inc _ _ _ _ _ Sp H) as (H1 & H2). destruct (superposed_range _ _ _ _ _ i x Sp Ci) as (C1 & C2).
  pose proof (superposed_all _ _ _ _ _ Sp) as A. destruct Sp as (L1 & L2 & _).
  exists (chord p1 i x), (chord p2 i x).
  split; [apply linear_closed; auto; lia |]. split; [apply linear_closed; auto; lia |].
  rewrite (linear_closed p x i H Hi Ci). ret_eq. unfold chord.
  destruct (A i) as (-> & -> & ->), (A (i + 1)%nat) as (-> & -> & ->). unfold Rdiv. ring.
Qed.

Theorem C68_catmull_rom : forall a b p1 p2 p x, superposed a b p1 p2 p -> increasing p -> (3 <= length p)%nat ->
  in_range p x -> exists u v, fit_eval (CatmullRom RV) p1 x = Ret (Ok u) /\ fit_eval (CatmullRom RV) p2 x = Ret (Ok v)
    /\ fit_eval (CatmullRom RV) p x = Ret (Ok (a * u + b * v)).
Proof.
  intros a b p1 p2 p x Sp H Hl Hx. destruct (g_cell p x H ltac:(lia) Hx) as (i & Hi & Ci).
  destruct (superposed_inc _ _ _ _ _ Sp H) as (H1 & H2). destruct (superposed_range _ _ _ _ _ i x Sp Ci) as (C1 & C2).
  pose proof (superposed_all _ _ _ _ _ Sp) as A. destruct Sp as (L1 & L2 & _).
  exists (cpiece p1 i x), (cpiece p2 i x).
  split; [apply cr_closed; auto; lia |]. split; [apply cr_closed; auto; lia |].
  rewrite (cr_closed p i x H Hl Hi Ci). ret_eq. unfold cpiece, k3, k2, k1, calpha, cbeta, ch. rewrite L1, L2.
  assert (forall i, gx p1 i = gx p i) as X1 by apply A. assert (forall i, gx p2 i = gx p i) as X2 by apply A.
  assert (forall i, gy p i = a * gy p1 i + b * gy p2 i) as Y by apply A. rewrite !X1, !X2, !Y. unfold Rdiv.
  destruct (i =? 0)%nat, (i + 2 =? length p)%nat; ring.
Qed.

Theorem C68_natural_cubic : forall a b p1 p2 p x, superposed a b p1 p2 p -> increasing p -> (3 <= length p)%nat ->
  in_range p x -> exists u v, fit_eval (NaturalCubic RV) p1 x = Ret (Ok u) /\ fit_eval (NaturalCubic RV) p2 x = Ret (Ok v)
    /\ fit_eval (NaturalCubic RV) p x = Ret (Ok (a * u + b * v)).
Proof.
  intros a b p1 p2 p x Sp H Hl Hx. destruct (g_cell p x H ltac:(lia) Hx) as (i & Hi & Ci).
  destruct (superposed_inc _ _ _ _ _ Sp H) as (H1 & H2). destruct (superposed_range _ _ _ _ _ i x Sp Ci) as (C1 & C2).
  pose proof (superposed_all _ _ _ _ _ Sp) as A. pose proof Sp as (L1 & L2 & _).
  exists (q p1 (second_of (nc_ds p1)) i x), (q p2 (second_of (nc_ds p2)) i x).
  split; [apply nc_value_ds; auto; lia |]. split; [apply nc_value_ds; auto; lia |].
  rewrite (nc_value_ds p i x H Hl Hi Ci). ret_eq.
  assert (forall j, second_of (nc_ds p) j = a * second_of (nc_ds p1) j + b * second_of (nc_ds p2) j) as S.
  { intros j. rewrite !nc_ds_nth by lia. rewrite L1, L2. destruct (Nat.eqb_spec j 0) as [-> | N]; [ring |].
    destruct (Nat.ltb_spec j (length p - 1)) as [C | C]; [| ring]. apply sol_superpose; [exact Sp | lia]. }
  unfold q, qa, qc. rewrite !S.
  destruct (A i) as (-> & -> & ->), (A (i + 1)%nat) as (-> & -> & ->). unfold Rdiv. ring.
Qed.

(** The same for Hermite interpolation, where the slopes are data too. *)
Definition h_superposed (a b : R) (p1 p2 p : list (R * R * R)) : Prop :=
  length p1 = length p /\ length p2 = length p
  /\ forall i, (i < length p)%nat -> hx p1 i = hx p i /\ hx p2 i = hx p i
     /\ hy p i = a * hy p1 i + b * hy p2 i /\ hm p i = a * hm p1 i + b * hm p2 i.

Theorem C68_hermite : forall a b p1 p2 p x, h_superposed a b p1 p2 p -> h_increasing p -> (2 <= length p)%nat ->
  hx p 0 <= x <= hx p (h_last p) ->
  exists u v, hermite_eval (V := RV) p1 x = Ret (Ok u) /\ hermite_eval (V := RV) p2 x = Ret (Ok v)
    /\ hermite_eval (V := RV) p x = Ret (Ok (a * u + b * v)).
Proof.
  intros a b p1 p2 p x (L1 & L2 & A) H Hl Hx. destruct (h_cell p x H Hl Hx) as (i & Hi & Ci).
  assert (h_increasing p1) as H1.
  { intros j k Hjk. destruct (A j ltac:(lia)) as (-> & _), (A k ltac:(lia)) as (-> & _). apply H. lia. }
  assert (h_increasing p2) as H2.
  { intros j k Hjk. destruct (A j ltac:(lia)) as (_ & -> & _), (A k ltac:(lia)) as (_ & -> & _). apply H. lia. }
  destruct (A i ltac:(lia)) as (X1 & X2 & Y & M), (A (i + 1)%nat ltac:(lia)) as (X1' & X2' & Y' & M').
  exists (hpiece p1 i x), (hpiece p2 i x).
  split; [apply hermite_closed; [exact H1 | lia | rewrite X1, X1'; exact Ci] |].
  split; [apply hermite_closed; [exact H2 | lia | rewrite X2, X2'; exact Ci] |].
  rewrite (hermite_closed p i x H Hi Ci). ret_eq. unfold hpiece, hA, hB. cbv zeta.
  rewrite X1, X2, X1', X2', Y, Y', M, M'. unfold Rdiv. ring.
Qed.

(** One unit of the first set plus twice the second. *)
Example C68_case : superposed 1 2 [(0, 1); (1, 3); (2, 2); (4, 5); (5, 0)] [(0, 1); (1, 0); (2, 0); (4, 1); (5, 7)]
    [(0, 3); (1, 3); (2, 2); (4, 7); (5, 14)]
  /\ h_superposed 1 2 [(0, 1, 2); (1, 0, -1); (3, 5, 0)] [(0, 0, 1); (1, 1, 1); (3, 2, 3)] [(0, 1, 4); (1, 2, 1); (3, 9, 6)].
Proof.
  split; (split; [reflexivity |]; split; [reflexivity |]; intros i Hi; simpl in Hi).
  - destruct i as [| [| [| [| [| i]]]]]; [.. | lia]; unfold gx, gy; simpl; lra.
  - destruct i as [| [| [| i]]]; [.. | lia]; unfold hx, hy, hm; simpl; lra.
Qed.

(** ** C69 *)

(** The abscissas of [p] with all ordinates 1. *)
Definition ones (p : list (R * R)) : list (R * R) := map (fun xy => (fst xy, 1)) p.

Lemma ones_at p i : (i < length p)%nat -> gx (ones p) i = gx p i /\ gy (ones p) i = 1.
Proof.
  intros Hi. unfold gx, gy, ones. rewrite (nth_indep _ (0, 0) (fst (0, 0), 1)) by (rewrite map_length; lia).
  rewrite (map_nth (fun xy : R * R => (fst xy, 1)) p (0, 0) i). auto.
Qed.

Lemma ones_length p : length (ones p) = length p.
Proof. apply map_length. Qed.

Lemma ones_inc p : increasing p -> increasing (ones p).
Proof.
  intros H i j Hij. rewrite ones_length in Hij. rewrite (proj1 (ones_at p i ltac:(lia))), (proj1 (ones_at p j ltac:(lia))).
  apply H. lia.
Qed.

Lemma ones_line p : on_line 0 1 (ones p).
Proof. intros i Hi. rewrite ones_length in Hi. destruct (ones_at p i Hi) as (_ & ->). ring. Qed.

Lemma raised_superposed s p p' : raised s p p' -> superposed 1 s p (ones p) p'.
Proof.
  intros (L & A). split; [now symmetry |]. split; [rewrite ones_length; now symmetry |]. intros i Hi.
  destruct (A i ltac:(lia)) as (X & Y). destruct (ones_at p i ltac:(lia)) as (-> & ->). rewrite X, Y.
  split; [reflexivity |]. split; [reflexivity | ring].
Qed.

Lemma raised_inc s p p' : raised s p p' -> increasing p -> increasing p'.
Proof.
  intros (L & A) H i j Hij. destruct (A i ltac:(lia)) as (-> & _), (A j ltac:(lia)) as (-> & _). apply H. lia.
Qed.

Lemma raised_range s p p' x : raised s p p' -> (0 < length p)%nat -> in_range p x -> in_range p' x.
Proof.
  intros (L & A) N. unfold in_range, last_of. rewrite L. destruct (A 0%nat ltac:(lia)) as (-> & _).
  destruct (A (length p - 1)%nat ltac:(lia)) as (-> & _). auto.
Qed.

Lemma ones_range p x : (0 < length p)%nat -> in_range p x -> in_range (ones p) x.
Proof.
  intros N. unfold in_range, last_of. rewrite ones_length, (proj1 (ones_at p 0 N)).
  rewrite (proj1 (ones_at p (length p - 1) ltac:(lia))). auto.
Qed.

(** Adding [s] to every ordinate adds [s] to every value. *)
Theorem C69_linear : forall s p p' x, raised s p p' -> increasing p -> (2 <= length p)%nat -> in_range p x ->
  exists v, fit_eval (Linear RV) p x = Ret (Ok v) /\ fit_eval (Linear RV) p' x = Ret (Ok (v + s)).
Proof.
  intros s p p' x Ra H Hl Hx.
  destruct (C68_linear 1 s _ _ p' x (raised_superposed s p p' Ra)) as (u & w & E1 & E2 & E3).
  - now apply (raised_inc s p p').
  - rewrite (proj1 Ra). exact Hl.
  - apply (raised_range s p p'); [exact Ra | lia | exact Hx].
  - exists u. split; [exact E1 |]. rewrite E3. ret_eq.
    rewrite (C24_lines _ 0 1 x (ones_inc p H)) in E2;
      [| rewrite ones_length; exact Hl | apply ones_line | apply ones_range; [lia | exact Hx]].
    injection E2 as <-. ring.
Qed.

Theorem C69_natural_cubic_partial : forall s p p' x, raised s p p' -> increasing p -> (4 <= length p)%nat -> in_range p x ->
  exists v, fit_eval (NaturalCubic RV) p x = Ret (Ok v) /\ fit_eval (NaturalCubic RV) p' x = Ret (Ok (v + s)).
Proof.
  intros s p p' x Ra H Hl Hx.
  destruct (C68_natural_cubic 1 s _ _ p' x (raised_superposed s p p' Ra)) as (u & w & E1 & E2 & E3).
  - now apply (raised_inc s p p').
  - rewrite (proj1 Ra). lia.
  - apply (raised_range s p p'); [exact Ra | lia | exact Hx].
  - exists u. split; [exact E1 |]. rewrite E3. ret_eq.
    rewrite (C36_lines_partial _ 0 1 x (ones_inc p H)) in E2;
      [| rewrite ones_length; exact Hl | apply ones_line | apply ones_range; [lia | exact Hx]].
    injection E2 as <-. ring.
Qed.

(** Catmull-Rom: up to the last knot but one the value moves by [s]. *)
Theorem C69_catmull_rom_partial : forall s p p' x, raised s p p' -> increasing p -> (3 <= length p)%nat ->
  gx p 0 <= x <= gx p (last_of p - 1) ->
  exists v, fit_eval (CatmullRom RV) p x = Ret (Ok v) /\ fit_eval (CatmullRom RV) p' x = Ret (Ok (v + s)).
Proof.
  intros s p p' x Ra H Hl Hx. unfold last_of in Hx.
  assert (gx p (length p - 1 - 1) < gx p (length p - 1)) as Lt by (apply H; lia).
  assert (in_range p x) as Hr by (unfold in_range, last_of; lra).
  destruct (C68_catmull_rom 1 s _ _ p' x (raised_superposed s p p' Ra)) as (u & w & E1 & E2 & E3).
  - now apply (raised_inc s p p').
  - rewrite (proj1 Ra). lia.
  - apply (raised_range s p p'); [exact Ra | lia | exact Hr].
  - exists u. split; [exact E1 |]. rewrite E3. ret_eq.
    assert (exists i, (i + 2 < length p)%nat /\ gx p i <= x <= gx p (i + 1)) as (i & Hi & Ci).
    { destruct (g_cell p x H ltac:(lia) Hr) as (i & Hi & Ci).
      destruct (Nat.eq_dec (i + 2) (length p)) as [E | N]; [| exists i; split; [lia | exact Ci]].
      exists (i - 1)%nat. split; [lia |]. replace (length p - 1 - 1)%nat with i in Hx by lia.
      replace (i - 1 + 1)%nat with i by lia. split; [| lra]. apply Rle_trans with (gx p i); [| lra].
      left. apply H. lia. }
    assert (gx (ones p) i <= x <= gx (ones p) (i + 1)) as Ci'.
    { rewrite (proj1 (ones_at p i ltac:(lia))), (proj1 (ones_at p (i + 1) ltac:(lia))). exact Ci. }
    destruct (Nat.eq_dec i 0) as [-> | N0].
    + rewrite (C31_first_cell_partial _ 0 1 x (ones_inc p H)) in E2;
        [| rewrite ones_length; exact Hl | apply ones_line | exact Ci']. injection E2 as <-. ring.
    + rewrite (C31_inner_cell_deviation _ 0 1 i x (ones_inc p H)) in E2;
        [| apply ones_line | lia | rewrite ones_length; exact Hi | exact Ci'].
      injection E2 as <-. ring.
Qed.

(** In the last cell it moves by more: by [s * (1 + (1 - 2 * alpha) * d ^ 3)], with [alpha < 1/2]. *)
Theorem C69_catmull_rom_last_cell : forall s p p' x, raised s p p' -> increasing p -> (3 <= length p)%nat ->
  let n := last_of p in
  gx p (n - 1) <= x <= gx p n ->
  let h := gx p n - gx p (n - 1) in
  let d := (x - gx p (n - 1)) / h in
  let alpha := h / (h + (gx p n - gx p (n - 2))) in
  0 < alpha < 1 / 2
  /\ exists v, fit_eval (CatmullRom RV) p x = Ret (Ok v)
    /\ fit_eval (CatmullRom RV) p' x = Ret (Ok (v + s * (1 + (1 - 2 * alpha) * d ^ 3))).
Proof.
  intros s p p' x Ra H Hl n Hx h d alpha.
  split; [apply (C30_last_knot p H Hl) |].
  assert (in_range p x) as Hr.
  { unfold in_range. split; [| apply Hx]. apply Rle_trans with (gx p (n - 1)); [| apply Hx].
    apply (increasing_sorted p H). unfold n, last_of. lia. }
  destruct (C68_catmull_rom 1 s _ _ p' x (raised_superposed s p p' Ra)) as (u & w & E1 & E2 & E3).
  - now apply (raised_inc s p p').
  - rewrite (proj1 Ra). lia.
  - apply (raised_range s p p'); [exact Ra | lia | exact Hr].
  - exists u. split; [exact E1 |]. rewrite E3. ret_eq.
    pose proof (C31_last_cell_deviation (ones p) 0 1 x (ones_inc p H)) as D.
    rewrite ones_length in D. specialize (D Hl (ones_line p)). cbv zeta in D.
    unfold last_of in D. rewrite ones_length in D. fold (last_of p) in D. fold n in D.
    destruct (ones_at p n ltac:(unfold n, last_of; lia)) as (X0 & Y0).
    destruct (ones_at p (n - 1) ltac:(unfold n, last_of; lia)) as (X1 & _).
    destruct (ones_at p (n - 2) ltac:(unfold n, last_of; lia)) as (X2 & _).
    rewrite X0, X1, X2, Y0 in D. specialize (D Hx). fold h in D. fold d in D. fold alpha in D.
    rewrite D in E2. injection E2 as <-. ring.
Qed.

Lemma raised_map s p : raised s p (map (fun xy => (fst xy, snd xy + s)) p).
Proof.
  split; [apply map_length |]. intros i Hi. unfold gx, gy.
  rewrite (nth_indep _ (0, 0) (fst (0, 0), snd (0, 0) + s)) by (rewrite map_length; lia).
  rewrite (map_nth (fun xy : R * R => (fst xy, snd xy + s)) p (0, 0) i). auto.
Qed.

(** So Catmull-Rom does not commute with a common shift of the data; nor does the natural cubic through three
    points. *)
Theorem C69_catmull_rom_refuted : exists s p p' x v, raised s p p' /\ increasing p /\ (3 <= length p)%nat /\ in_range p x
  /\ fit_eval (CatmullRom RV) p x = Ret (Ok v) /\ fit_eval (CatmullRom RV) p' x <> Ret (Ok (v + s)).
Proof.
  set (p := [(1, 5); (2, 7); (4, 11)]). assert (increasing p) as H by apply C24_case.
  destruct (C69_catmull_rom_last_cell 1 p _ 4 (raised_map 1 p) H ltac:(simpl; lia)) as (Ha & v & E1 & E2).
  { unfold last_of, gx, p. simpl. lra. }
  exists 1, p, (map (fun xy => (fst xy, snd xy + 1)) p), 4, v. split; [apply raised_map |]. split; [exact H |].
  split; [simpl; lia |]. split; [unfold in_range, last_of, gx, p; simpl; lra |]. split; [exact E1 |].
  rewrite E2. intros E. injection E. unfold last_of, gx, p. simpl. lra.
Qed.

Theorem C69_three_points_refuted : exists s p p' x v, raised s p p' /\ increasing p /\ length p = 3%nat /\ in_range p x
  /\ fit_eval (NaturalCubic RV) p x = Ret (Ok v) /\ fit_eval (NaturalCubic RV) p' x <> Ret (Ok (v + s)).
Proof.
  destruct (C36_lines_refuted) as (p0 & a & b & x & H0 & Hl0 & On0 & Hx0 & N0).
  set (p := [(0, 0); (1, 0); (2, 0)]).
  assert (increasing p) as H.
  { intros i j H. unfold gx, p. simpl in H. destruct i as [| [| [| i]]], j as [| [| [| j]]]; simpl; try lra; lia. }
  clear p0 a b x H0 Hl0 On0 Hx0 N0.
  assert (in_range p (1 / 2)) as Hr by (unfold in_range, last_of, gx, p; simpl; lra).
  pose proof (raised_map 1 p) as Ra. set (p' := map (fun xy => (fst xy, snd xy + 1)) p) in Ra.
  assert (fit_eval (NaturalCubic RV) p (1 / 2) = Ret (Ok 0)) as E.
  { assert (on_line 0 0 p) as On.
    { intros i Hi. unfold gx, gy, p. simpl in Hi. destruct i as [| [| [| i]]]; simpl; try lra; lia. }
    rewrite (proj2 (C36_three_points p 0 0 H eq_refl On) eq_refl (1 / 2) Hr). ret_eq. ring. }
  exists 1, p, p', (1 / 2), 0. split; [exact Ra |]. split; [exact H |]. split; [reflexivity |]. split; [exact Hr |].
  split; [exact E |].
  rewrite (nc_value_ds p' 0); [| now apply (raised_inc 1 p) | simpl; lia | simpl; lia | unfold gx, p', p; simpl; lra].
  intros C. injection C. unfold q, qa, qc. rewrite !nc_ds_nth by (simpl; lia). simpl.
  unfold nc_sol, nc_rhs, nc_diag, mul_entry, nc_coff, nc_cdiag, nc_mm, v_recip, nx, ny, gx, gy, p', p. simpl. lra.
Qed.

Example C69_case : exists p', raised (1/100) [(0, 1); (1, 3); (2, 2); (4, 5); (5, 0)] p'
  /\ in_range [(0, 1); (1, 3); (2, 2); (4, 5); (5, 0)] 3.
Proof. eexists. split; [apply raised_map | apply C34_case]. Qed.

(** ** C70 *)

Lemma rescaled_cell k o p p' i x : 0 < k -> rescaled k o p p' -> (i + 1 < length p)%nat ->
  gx p i <= x <= gx p (i + 1) -> gx p' i <= k * x + o <= gx p' (i + 1).
Proof.
  intros Hk (L & A) Hi Hx. destruct (A i ltac:(lia)) as (-> & _), (A (i + 1)%nat ltac:(lia)) as (-> & _). nra.
Qed.

(** Measuring the abscissas in another unit, or from another origin, does not change the values. *)
Theorem C70_linear : forall k o p p' x, 0 < k -> rescaled k o p p' -> increasing p -> (2 <= length p)%nat -> in_range p x ->
  exists v, fit_eval (Linear RV) p x = Ret (Ok v) /\ fit_eval (Linear RV) p' (k * x + o) = Ret (Ok v).
Proof.
  intros k o p p' x Hk Rs H Hl Hx. destruct (g_cell p x H Hl Hx) as (i & Hi & Ci).
  exists (chord p i x). split; [now apply linear_closed |].
  rewrite (linear_closed p' _ i); [| now apply (rescaled_inc k o p) | rewrite (proj1 Rs); exact Hi | now apply (rescaled_cell k o p)].
  ret_eq. destruct Rs as (L & A). unfold chord. destruct (A i ltac:(lia)) as (-> & ->), (A (i + 1)%nat ltac:(lia)) as (-> & ->).
  assert (gx p i < gx p (i + 1)) by (apply H; lia). field. split; [lra |].
  replace (k * gx p (i + 1) + o - (k * gx p i + o)) with (k * (gx p (i + 1) - gx p i)) by ring.
  apply Rmult_integral_contrapositive_currified; lra.
Qed.

Theorem C70_catmull_rom : forall k o p p' x, 0 < k -> rescaled k o p p' -> increasing p -> (3 <= length p)%nat -> in_range p x ->
  exists v, fit_eval (CatmullRom RV) p x = Ret (Ok v) /\ fit_eval (CatmullRom RV) p' (k * x + o) = Ret (Ok v).
Proof.
  intros k o p p' x Hk Rs H Hl Hx. destruct (g_cell p x H ltac:(lia) Hx) as (i & Hi & Ci).
  exists (cpiece p i x). split; [now apply cr_closed |].
  rewrite (cr_closed p' i); [| now apply (rescaled_inc k o p) | rewrite (proj1 Rs); lia | rewrite (proj1 Rs); exact Hi
    | now apply (rescaled_cell k o p)].
  ret_eq. pose proof Rs as (L & A). unfold cpiece.
  assert (forall j, (j < length p)%nat -> gx p' j = k * gx p j + o) as X by (intros j Hj; now apply A).
  assert (forall j, (j < length p)%nat -> gy p' j = gy p j) as Y by (intros j Hj; now apply A).
  assert (ch p' i = k * ch p i) as Ech by (unfold ch; rewrite !X by lia; ring).
  assert (0 < ch p i) as Pc by (unfold ch; assert (gx p i < gx p (i + 1)) by (apply H; lia); lra).
  assert (forall u v, k * u / (k * u + k * v) = u / (u + v)) as Rt.
  { intros u w. unfold Rdiv. rewrite <- Rmult_plus_distr_l, Rinv_mult. generalize (/ (u + w)). intros z. field. lra. }
  assert (calpha p' i = calpha p i) as Ea.
  { unfold calpha. rewrite Ech. rewrite !X by lia. etransitivity; [| apply Rt]. f_equal. f_equal. ring. }
  assert ((i + 2 < length p)%nat -> cbeta p' i = cbeta p i) as Eb.
  { intros C. unfold cbeta. rewrite Ech. rewrite !X by lia. etransitivity; [| apply Rt]. f_equal. f_equal. ring. }
  assert (k3 p' i = k3 p i /\ k2 p' i = k2 p i /\ k1 p' i = k1 p i) as (-> & -> & ->).
  { unfold k3, k2, k1. rewrite L, Ea.
    destruct (Nat.eqb_spec i 0) as [E0 | N0]; [| destruct (Nat.eqb_spec (i + 2) (length p)) as [E2 | N2]].
    - rewrite Eb, !Y by lia. auto.
    - rewrite !Y by lia. auto.
    - rewrite Eb, !Y by lia. auto. }
  rewrite Ech, (Y i), (X i) by lia. field. lra.
Qed.

Theorem C70_natural_cubic : forall k o p p' x, 0 < k -> rescaled k o p p' -> increasing p -> (3 <= length p)%nat -> in_range p x ->
  exists v, fit_eval (NaturalCubic RV) p x = Ret (Ok v) /\ fit_eval (NaturalCubic RV) p' (k * x + o) = Ret (Ok v).
Proof.
  intros k o p p' x Hk Rs H Hl Hx. destruct (g_cell p x H ltac:(lia) Hx) as (i & Hi & Ci).
  exists (q p (second_of (nc_ds p)) i x). split; [now apply nc_value_ds |].
  rewrite (nc_value_ds p' i); [| now apply (rescaled_inc k o p) | rewrite (proj1 Rs); lia | rewrite (proj1 Rs); exact Hi
    | now apply (rescaled_cell k o p)].
  ret_eq. pose proof Rs as (L & A).
  assert (forall j, second_of (nc_ds p') j = / (k * k) * second_of (nc_ds p) j) as S.
  { intros j. rewrite !nc_ds_nth by lia. rewrite L. destruct (Nat.eqb_spec j 0) as [-> | N]; [ring |].
    destruct (Nat.ltb_spec j (length p - 1)) as [C | C]; [| ring]. apply (sol_rescale k o); [exact Hk | exact Rs | lia]. }
  unfold q, qa, qc. rewrite !S. destruct (A i ltac:(lia)) as (-> & ->), (A (i + 1)%nat ltac:(lia)) as (-> & ->).
  assert (gx p i < gx p (i + 1)) by (apply H; lia).
  replace (k * gx p (i + 1) + o - (k * gx p i + o)) with (k * (gx p (i + 1) - gx p i)) by ring.
  replace (k * x + o - (k * gx p i + o)) with (k * (x - gx p i)) by ring. field. lra.
Qed.

(** From years to days, counted from another day. *)
Example C70_case : rescaled 365 (-10) [(0, 1); (1, 3); (2, 2)] [(-10, 1); (355, 3); (720, 2)].
Proof.
  split; [reflexivity |]. intros i Hi. simpl in Hi.
  destruct i as [| [| [| i]]]; [.. | lia]; unfold gx, gy; simpl; lra.
Qed.

(** ** C71 *)

(** Locality: the linear value depends only on the two ends of the cell, the Catmull-Rom value on the ends and
    their neighbours. *)
Theorem C71_linear : forall p p' i x, agree i (i + 1) p p' -> increasing p -> increasing p' -> (i + 1 < length p)%nat ->
  gx p i <= x <= gx p (i + 1) -> exists v, fit_eval (Linear RV) p x = Ret (Ok v) /\ fit_eval (Linear RV) p' x = Ret (Ok v).
Proof.
  intros p p' i x (L & A) H H' Hi Hx. exists (chord p i x). split; [now apply linear_closed |].
  destruct (A i ltac:(lia) ltac:(lia)) as (X0 & Y0), (A (i + 1)%nat ltac:(lia) ltac:(lia)) as (X1 & Y1).
  rewrite (linear_closed p' x i); [| exact H' | lia | rewrite X0, X1; exact Hx]. ret_eq.
  unfold chord. rewrite X0, X1, Y0, Y1. reflexivity.
Qed.

Theorem C71_catmull_rom : forall p p' i x, agree (i - 1) (i + 2) p p' -> increasing p -> increasing p' ->
  (3 <= length p)%nat -> (i + 1 < length p)%nat -> gx p i <= x <= gx p (i + 1) ->
  exists v, fit_eval (CatmullRom RV) p x = Ret (Ok v) /\ fit_eval (CatmullRom RV) p' x = Ret (Ok v).
Proof.
  intros p p' i x (L & A) H H' Hl Hi Hx. exists (cpiece p i x). split; [now apply cr_closed |].
  destruct (A (i - 1)%nat ltac:(lia) ltac:(lia)) as (Xm & Ym), (A i ltac:(lia) ltac:(lia)) as (X0 & Y0),
    (A (i + 1)%nat ltac:(lia) ltac:(lia)) as (X1 & Y1).
  assert (gx p' (i + 2) = gx p (i + 2) /\ gy p' (i + 2) = gy p (i + 2)) as (X2 & Y2).
  { destruct (Nat.lt_ge_cases (i + 2) (length p)) as [C | C]; [apply A; lia |].
    destruct (beyond p (i + 2) C) as (-> & ->). apply beyond. lia. }
  rewrite (cr_closed p' i x); [| exact H' | lia | lia | rewrite X0, X1; exact Hx]. ret_eq.
  unfold cpiece, k3, k2, k1, calpha, cbeta, ch. rewrite L, Xm, X0, X1, X2, Ym, Y0, Y1, Y2. reflexivity.
Qed.

Theorem C71_hermite : forall p p' i x, h_increasing p -> h_increasing p' -> (i + 1 < length p)%nat -> (i + 1 < length p')%nat ->
  (forall j, (j = i \/ j = i + 1)%nat -> hx p' j = hx p j /\ hy p' j = hy p j /\ hm p' j = hm p j) ->
  hx p i <= x <= hx p (i + 1) ->
  exists v, hermite_eval (V := RV) p x = Ret (Ok v) /\ hermite_eval (V := RV) p' x = Ret (Ok v).
Proof.
  intros p p' i x H H' Hi Hi' A Hx. exists (hpiece p i x). split; [now apply hermite_closed |].
  destruct (A i ltac:(auto)) as (X0 & Y0 & M0), (A (i + 1)%nat ltac:(auto)) as (X1 & Y1 & M1).
  rewrite (hermite_closed p' i x); [| exact H' | exact Hi' | rewrite X0, X1; exact Hx]. ret_eq.
  unfold hpiece, hA, hB. rewrite X0, X1, Y0, Y1, M0, M1. reflexivity.
Qed.

(** The natural cubic is not local in this sense: moving the fourth point changes values in the first cell. *)
Theorem C71_natural_cubic_refuted : exists p p' x v, agree 0 2 p p' /\ increasing p /\ increasing p'
  /\ gx p 0 <= x <= gx p 1 /\ fit_eval (NaturalCubic RV) p x = Ret (Ok v)
  /\ fit_eval (NaturalCubic RV) p' x <> Ret (Ok v).
Proof.
  set (f := fun y : R => [(0, 0); (1, 0); (2, 0); (3, y); (4, 0)]).
  assert (forall y, increasing (f y)) as H.
  { intros y i j H. unfold gx, f. simpl in H.
    destruct i as [| [| [| [| [| i]]]]], j as [| [| [| [| [| j]]]]]; simpl; try lra; lia. }
  assert (forall y, fit_eval (NaturalCubic RV) (f y) (1 / 2) = Ret (Ok (y / 40))) as E.
  { intros y. rewrite (nc_value_ds (f y) 0); [| apply H | simpl; lia | simpl; lia | unfold gx, f; simpl; lra].
    ret_eq. unfold q, qa, qc. rewrite !nc_ds_nth by (simpl; lia). simpl. unfold nc_sol, xsol. simpl.
    unfold nc_rhs, nc_off, nc_diag, mul_entry, nc_coff, nc_cdiag, nc_mm, v_recip, nx, ny, gx, gy, f. simpl. field. }
  exists (f 0), (f 1), (1 / 2), (0 / 40). split; [| split; [apply H | split; [apply H |]]].
  - split; [reflexivity |]. intros [| [| [| j]]] Hj _; [.. | lia]; auto.
  - split; [unfold gx, f; simpl; lra |]. split; [apply E |]. rewrite E. intros C. injection C. lra.
Qed.

Example C71_case : agree 1 4 [(0, 1); (1, 3); (2, 2); (4, 5); (5, 0)] [(-3, 4); (1, 3); (2, 2); (4, 5); (5, 0)].
Proof.
  split; [reflexivity |]. intros i Hi _.
  destruct i as [| [| [| [| [| i]]]]]; try lia; unfold gx, gy; simpl; lra.
Qed.
