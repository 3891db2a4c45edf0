(** Properties C34 to C37: the natural cubic spline. *)
From Coq Require Import ZArith Reals List Arith Bool Lia Lra.
From Verif Require Import Base Value RealValue InterpModel InterpFacts Grid Piecewise TriFacts PropsTri NcFacts
  PropsCatmullRom.
Import ListNotations.
Open Scope R_scope.

(** ** The fitted points *)

Definition nc_points {V : Value} (pts : list (V * V)) (ds : list V) : list (Point2DWithSlope V) :=
  map (fun '((x, y), d) => slope_new x y d) (combine pts ds).

Lemma in_order_map {V : Value} {P} (g : P -> V) l : in_order g l <-> in_order (fun x => x) (map g l).
Proof.
  unfold in_order. split; intros O i p q Hp Hq.
  - rewrite nth_error_map in Hp, Hq. destruct (nth_error l i) eqn:A; [| discriminate].
    destruct (nth_error l (S i)) eqn:B; [| discriminate]. injection Hp as <-. injection Hq as <-. eauto.
  - exact (O i _ _ (map_nth_error _ i l Hp) (map_nth_error _ (S i) l Hq)).
Qed.

Lemma nc_points_x {V : Value} (pts : list (V * V)) : forall ds, length ds = length pts ->
  map s_x (nc_points pts ds) = map fst pts.
Proof.
  unfold nc_points. induction pts as [| [x y] t IH]; intros [| d ds] H; try discriminate; [reflexivity |].
  simpl. f_equal. apply IH. simpl in H. lia.
Qed.

Lemma nc_points_order {V : Value} (pts : list (V * V)) ds : length ds = length pts ->
  in_order s_x (nc_points pts ds) <-> in_order fst pts.
Proof. intros H. rewrite in_order_map, nc_points_x, <- in_order_map by exact H. reflexivity. Qed.

(** ** C37 *)

Lemma nc_solver_total {V : Value} (pts : list (V * V)) d0 c6 c3 : (3 <= length pts)%nat ->
  exists y2, tri_solve (nc_matrix pts d0 c6 c3) (tab (nc_rhs pts d0) (length pts - 2)) = Ret y2
    /\ length y2 = (length pts - 2)%nat.
Proof.
  intros Hn. unfold nc_matrix.
  destruct (tri_solve_total (mkTri (tab (nc_off pts d0 c6) (length pts - 3)) (tab (nc_diag pts d0 c3) (length pts - 2))
     (tab (nc_off pts d0 c6) (length pts - 3)) (length pts - 2))
     (tab (nc_off pts d0 c6) (length pts - 3)) (tab (nc_diag pts d0 c3) (length pts - 2))
     (tab (nc_off pts d0 c6) (length pts - 3)) (tab (nc_rhs pts d0) (length pts - 2))) as (y2 & E & L).
  - unfold tri_try_new. rewrite !tab_length, Nat.eqb_refl.
    replace (length pts - 3 + 1)%nat with (length pts - 2)%nat by lia. now rewrite Nat.eqb_refl.
  - now rewrite !tab_length.
  - exists y2. split; [exact E |]. now rewrite L, tab_length.
Qed.

(** For any Value type holding the small constants: exact conditions for each outcome of the fit. *)
Theorem C37_fit : forall (V : Value) (pts : list (V * V)) self,
  small_constants V -> (forall x : V, v_ltb x x = false) ->
  ((length pts < 3)%nat /\ i_try_fit (NaturalCubic V) self pts = Ret (Err (InsufficientPointsError (length pts))))
  \/ ((3 <= length pts)%nat /\ ~ in_order fst pts /\ i_try_fit (NaturalCubic V) self pts = Ret (Err PointOrderError))
  \/ ((3 <= length pts)%nat /\ in_order fst pts
      /\ exists ds, i_try_fit (NaturalCubic V) self pts = Ret (Ok (nc_points pts ds)) /\ length ds = length pts).
Proof.
  intros V pts self Cst Irr. simpl. destruct (Nat.lt_ge_cases (length pts) 3) as [L | L].
  - left. split; [exact L |]. unfold natural_cubic_try_fit. now rewrite (proj2 (Nat.ltb_lt _ _) L).
  - right. destruct pts as [| p0 t] eqn:Ep; [simpl in L; lia |]. rewrite <- Ep in *.
    destruct (Cst 6%Z ltac:(lia)) as [c6 E6], (Cst 3%Z ltac:(lia)) as [c3 E3].
    rewrite (nc_fit pts p0 c6 c3) by (exact L || unfold v_const; now rewrite ?E6, ?E3).
    destruct (nc_solver_total pts p0 c6 c3 L) as (y2 & -> & Ly). simpl bind.
    set (ds := [v_zero] ++ y2 ++ [v_zero]).
    assert (length ds = length pts) as Ld by (unfold ds; rewrite !app_length; simpl; lia).
    change (v_zero :: y2 ++ [v_zero]) with ds. fold (nc_points pts ds).
    destruct (check_order_spec s_x (nc_points pts ds) (nx pts p0 0)) as [(E & O & _) | (E & O)]; rewrite E.
    + right. split; [exact L |]. split; [now apply (nc_points_order pts ds Ld) |]. exists ds. auto.
    + left. split; [exact L |]. split; [| reflexivity].
      destruct O as [O | (q & Hq & Lq)]; [now rewrite <- (nc_points_order pts ds Ld) |].
      exfalso. subst pts. destruct p0 as [x0 y0]. unfold ds in Hq. simpl in Hq. injection Hq as <-.
      simpl in Lq. unfold nx in Lq. simpl in Lq. rewrite Irr in Lq. discriminate.
Qed.
Print Assumptions C37_fit.

(** Fitting and evaluating never panic, NaN included. *)
Theorem C37_never_panics : forall (V : Value) (pts : list (V * V)) x,
  small_constants V -> exists r, fit_eval (NaturalCubic V) pts x = Ret r.
Proof.
  intros V pts x Cst. unfold fit_eval. simpl. destruct (Nat.lt_ge_cases (length pts) 3) as [L | L].
  - unfold natural_cubic_try_fit. rewrite (proj2 (Nat.ltb_lt _ _) L). simpl. eauto.
  - destruct pts as [| p0 t] eqn:Ep; [simpl in L; lia |]. rewrite <- Ep in *.
    destruct (Cst 6%Z ltac:(lia)) as [c6 E6], (Cst 3%Z ltac:(lia)) as [c3 E3].
    rewrite (nc_fit pts p0 c6 c3) by (exact L || unfold v_const; now rewrite ?E6, ?E3).
    destruct (nc_solver_total pts p0 c6 c3 L) as (y2 & -> & Ly). simpl bind.
    set (ds := v_zero :: y2 ++ [v_zero]).
    assert (length ds = length pts) as Ld by (unfold ds; simpl; rewrite app_length; simpl; lia).
    fold (nc_points pts ds). set (l := nc_points pts ds).
    assert (length l = length pts) as Hll.
    { unfold l, nc_points. rewrite map_length, combine_length. lia. }
    destruct (check_order_spec s_x l (nx pts p0 0)) as [(E & O & _) | (E & O)]; rewrite E; [| simpl; eauto].
    simpl. unfold natural_cubic_try_value.
    destruct (find_index_total s_x l x) as (r & Ef & B & _). rewrite Ef. simpl bind.
    destruct r as [i | e]; [| simpl; eauto]. unfold try_res.
    destruct (B i eq_refl) as [Hi Hi1]. set (q0 := slope_new (fst p0) (snd p0) v_zero).
    rewrite (index_some l i q0) by lia. simpl bind. rewrite (index_some l (i + 1) q0) by lia. simpl bind.
    unfold v_const. rewrite E6. simpl bind. eauto.
Qed.
Print Assumptions C37_never_panics.

Example C37_case : small_constants RV /\ (forall x : RV, v_ltb x x = false)
  /\ ~ in_order (V := RV) fst [(1, 2); (0, 5); (3, 4)] /\ in_order (V := RV) fst [(0, 2); (0, 5); (3, 4)].
Proof.
  split; [apply C33_case |]. split; [apply C33_case |]. split.
  - intros O. specialize (O 0%nat _ _ eq_refl eq_refl). apply Rltb_false in O. simpl in O. lra.
  - intros [| [| [| i]]] p q Hp Hq; simpl in Hp, Hq; try discriminate;
      try (destruct i; discriminate); injection Hp as <-; injection Hq as <-; apply Rltb_false; simpl; lra.
Qed.

(** ** The pieces *)

Section Pieces.
Context (pts : list (R * R)) (s : nat -> R).
Notation X := (gx pts).
Notation Y := (gy pts).

(** Slope at the left end of cell [i]. *)
Definition qc (i : nat) : R :=
  let h := X (i + 1)%nat - X i in (Y (i + 1)%nat - Y i) / h - h / 6 * (2 * s i + s (i + 1)%nat).
Definition qa (i : nat) : R := (s (i + 1)%nat - s i) / (6 * (X (i + 1)%nat - X i)).
Definition q (i : nat) (x : R) : R := qa i * (x - X i) ^ 3 + s i / 2 * (x - X i) ^ 2 + qc i * (x - X i) + Y i.
Definition q1 (i : nat) (x : R) : R := 3 * qa i * (x - X i) ^ 2 + s i * (x - X i) + qc i.
Definition q2 (i : nat) (x : R) : R := 6 * qa i * (x - X i) + s i.

Lemma q_deriv i x : derivable_pt_lim (q i) x (q1 i x).
Proof. apply (derive_as_cubic _ (qa i) (s i / 2) (qc i) (Y i) (X i)); [reflexivity | unfold q1; field]. Qed.

Lemma q1_deriv i x : derivable_pt_lim (q1 i) x (q2 i x).
Proof.
  apply (derive_as_cubic _ 0 (3 * qa i) (s i) (qc i) (X i)); [intros y; unfold q1; ring | unfold q2; ring].
Qed.

Lemma q_cont i : continuity (q i).
Proof. apply derive_continuous with (q1 i). apply q_deriv. Qed.

Lemma q2_cont i : continuity (q2 i).
Proof.
  apply derive_continuous with (fun _ => 6 * qa i). intros x.
  apply (derive_as_cubic _ 0 0 (6 * qa i) (s i) (X i)); [intros y; unfold q2; ring | ring].
Qed.

Lemma q_left i : q i (X i) = Y i /\ q2 i (X i) = s i.
Proof. unfold q, q2. rewrite Rminus_diag_eq by reflexivity. split; ring. Qed.

Lemma q_right i : X i < X (i + 1)%nat -> q i (X (i + 1)%nat) = Y (i + 1)%nat /\ q2 i (X (i + 1)%nat) = s (i + 1)%nat.
Proof. intros H. unfold q, q2, qa, qc. split; field; lra. Qed.

(** The jump of the first derivative at knot [k = i + 1]. *)
Definition jump (i : nat) : R := q1 i (X (i + 1)%nat) - q1 (i + 1) (X (i + 1)%nat).

Lemma jump_eq i : X i < X (i + 1)%nat -> X (i + 1)%nat < X (i + 2)%nat ->
  jump i = (X (i + 1)%nat - X i) / 6 * s i + (X (i + 1)%nat - X i + (X (i + 2)%nat - X (i + 1)%nat)) / 3 * s (i + 1)%nat
    + (X (i + 2)%nat - X (i + 1)%nat) / 6 * s (i + 2)%nat
    - ((Y (i + 2)%nat - Y (i + 1)%nat) / (X (i + 2)%nat - X (i + 1)%nat) - (Y (i + 1)%nat - Y i) / (X (i + 1)%nat - X i)).
Proof.
  intros H1 H2. unfold jump, q1, qa, qc. replace (i + 1 + 1)%nat with (i + 2)%nat by lia. field. lra.
Qed.

End Pieces.

(** ** The fit over the reals *)

Definition second_of (ds : list R) (i : nat) : R := nth i ds 0.

Lemma nc_points_nth (pts : list (R * R)) (ds : list R) i : length ds = length pts ->
  nth i (nc_points (V := RV) pts ds) (slope_new 0 0 0) = slope_new (gx pts i) (gy pts i) (second_of ds i).
Proof.
  intros H. unfold nc_points.
  change (slope_new 0 0 0) with ((fun '((x, y), d) => slope_new (V := R) x y d) (0, 0, 0)).
  change (carrier RV) with R. rewrite map_nth, (combine_nth pts ds i (0, 0) 0) by (now symmetry).
  unfold gx, gy, second_of. destruct (nth i pts (0, 0)). reflexivity.
Qed.

Lemma nc_points_length (pts : list (R * R)) (ds : list R) : length ds = length pts ->
  length (nc_points (V := RV) pts ds) = length pts.
Proof.
  intros H. unfold nc_points. change (carrier RV) with R. rewrite map_length, combine_length, H. apply Nat.min_id.
Qed.

Lemma nc_points_sorted (pts : list (R * R)) (ds : list R) : length ds = length pts -> increasing pts ->
  forall i j, (i <= j < length (nc_points (V := RV) pts ds))%nat ->
  s_x (nth i (nc_points (V := RV) pts ds) (slope_new 0 0 0)) <= s_x (nth j (nc_points (V := RV) pts ds) (slope_new 0 0 0)).
Proof.
  intros Hd H i j Hij. rewrite !nc_points_nth by exact Hd. unfold s_x, slope_new. simpl.
  apply (increasing_sorted pts H). rewrite nc_points_length in Hij by exact Hd. exact Hij.
Qed.

(** Values of the fitted spline. *)
Lemma nc_value (pts : list (R * R)) (ds : list R) i x : length ds = length pts -> increasing pts -> (i + 1 < length pts)%nat ->
  find_index (V := RV) s_x (nc_points (V := RV) pts ds) x = Ret (Ok i) ->
  natural_cubic_try_value (V := RV) (nc_points (V := RV) pts ds) x = Ret (Ok (q pts (second_of ds) i x)).
Proof.
  intros Hd H Hi E. unfold natural_cubic_try_value. rewrite E. simpl bind. unfold try_res.
  rewrite (index_some _ i (slope_new 0 0 0)) by (rewrite nc_points_length; lia). simpl bind.
  rewrite (index_some _ (i + 1) (slope_new 0 0 0)) by (rewrite nc_points_length; lia). simpl bind.
  rewrite !nc_points_nth by exact Hd. unfold s_x, slope_new. cbn [coordinate p_x p_y dydx]. ret_eq.
  assert (gx pts i < gx pts (i + 1)) by (apply H; lia).
  unfold q, qa, qc. simpl. field. lra.
Qed.

Lemma nc_closed (pts : list (R * R)) (ds : list R) i x : length ds = length pts -> increasing pts -> (i + 1 < length pts)%nat ->
  gx pts i <= x <= gx pts (i + 1) ->
  natural_cubic_try_value (V := RV) (nc_points (V := RV) pts ds) x = Ret (Ok (q pts (second_of ds) i x)).
Proof.
  intros Hd H Hi [H1 H2].
  assert (forall k y, (k + 1 < length pts)%nat -> gx pts k < y <= gx pts (k + 1) ->
    natural_cubic_try_value (V := RV) (nc_points (V := RV) pts ds) y = Ret (Ok (q pts (second_of ds) k y))) as Open.
  { intros k y Hk Hy. apply nc_value; [exact Hd | exact H | exact Hk |].
    apply (find_index_in s_x _ (slope_new 0 0 0)); [now apply nc_points_sorted | now rewrite nc_points_length |].
    rewrite !nc_points_nth by exact Hd. exact Hy. }
  destruct (Rle_lt_or_eq_dec _ _ H1) as [L | <-]; [now apply Open |].
  destruct i as [| i].
  - apply nc_value; [exact Hd | exact H | exact Hi |].
    apply (find_index_first s_x _ (slope_new 0 0 0)); [now apply nc_points_sorted | rewrite nc_points_length; lia |].
    rewrite nc_points_nth by exact Hd. reflexivity.
  - rewrite (Open i); [| lia |].
    + ret_eq. rewrite (proj1 (q_left pts (second_of ds) (S i))).
      replace (S i) with (i + 1)%nat by lia. apply q_right. apply H. lia.
    + replace (i + 1)%nat with (S i) by lia. split; [apply H; lia | lra].
Qed.

Notation spread pts i := (gx pts (i + 1) - gx pts i).

(** The second derivatives the fit stores, and the equations they meet. *)
Definition solved (pts : list (R * R)) (s : nat -> R) : Prop :=
  let n := length pts in
  s 0%nat = 0 /\ s (n - 1)%nat = 0
  /\ (n = 3%nat -> jump pts s 0 = - (gy pts 2 / spread pts 1))
  /\ ((4 <= n)%nat ->
      (forall i, (i < n - 4)%nat -> jump pts s i = 0)
      /\ jump pts s (n - 4) = spread pts (n - 3) / 6 * s (n - 2)%nat
      /\ exists p, (p <> 0 /\ spread pts (n - 3) / 6 <= Rabs p) /\ jump pts s (n - 3) = spread pts (n - 3) / 6 * (spread pts (n - 3) / 6 / p) * s (n - 2)%nat)
  /\ ((4 <= n)%nat -> (forall i, (i + 2 < n)%nat ->
        (gy pts (i + 2) - gy pts (i + 1)) / (gx pts (i + 2) - gx pts (i + 1)) = (gy pts (i + 1) - gy pts i) / spread pts i)
      -> forall i, s i = 0).

Section Solve.
Context (pts : list (R * R)).
Hypothesis Hinc : increasing pts.
Hypothesis Hn : (3 <= length pts)%nat.
Notation n := (length pts).
Notation X := (gx pts).
Notation Y := (gy pts).
Notation off := (nc_off (V := RV) pts (0, 0) 6).
Notation diag := (nc_diag (V := RV) pts (0, 0) 3).
Notation rhs := (nc_rhs (V := RV) pts (0, 0)).

Lemma gap i : (i + 1 < n)%nat -> X i < X (i + 1)%nat.
Proof. intros H. apply Hinc. lia. Qed.

Lemma off_eq j : off j = (X (j + 2)%nat - X (j + 1)%nat) / 6.
Proof. reflexivity. Qed.

Lemma diag_eq j : diag j = (X (j + 1)%nat - X j + (X (j + 2)%nat - X (j + 1)%nat)) / 3.
Proof. reflexivity. Qed.

Definition target (j : nat) : R :=
  (Y (j + 2)%nat - Y (j + 1)%nat) / (X (j + 2)%nat - X (j + 1)%nat) - (Y (j + 1)%nat - Y j) / (X (j + 1)%nat - X j).

Lemma rhs_eq j : (j + 2 < n)%nat -> (4 <= n)%nat -> rhs j = target j.
Proof.
  intros Hj H4. unfold nc_rhs, mul_entry, nc_coff, nc_cdiag, nc_mm, target, v_recip.
  pose proof (gap j ltac:(lia)) as G1. pose proof (gap (j + 1) ltac:(lia)) as G2.
  replace (j + 1 + 1)%nat with (j + 2)%nat in * by lia.
  change (nx (V := RV) pts (0, 0)) with X. change (ny (V := RV) pts (0, 0)) with Y. simpl v_div. simpl v_sub.
  simpl v_add. simpl v_mul. simpl v_neg. simpl v_zero. simpl v_one.
  destruct (Nat.eqb_spec j 0) as [-> | N0].
  - change (0 <? 0)%nat with false. cbn match.
    replace (0 + 1 <? n - 2)%nat with true by (symmetry; apply Nat.ltb_lt; lia). cbn in *. field. lra.
  - replace (0 <? j)%nat with true by (symmetry; apply Nat.ltb_lt; lia). cbn match.
    replace (j - 1 + 2)%nat with (j + 1)%nat by lia. replace (j - 1 + 1)%nat with j by lia.
    destruct (Nat.eqb_spec (j + 3) n) as [E | N].
    + replace (j + 1 <? n - 2)%nat with false by (symmetry; apply Nat.ltb_ge; lia). cbn match.
      change (@eq (carrier RV)) with (@eq R). field. lra.
    + replace (j + 1 <? n - 2)%nat with true by (symmetry; apply Nat.ltb_lt; lia).
      replace (j + 1 + 1)%nat with (j + 2)%nat by lia. cbn match.
      change (@eq (carrier RV)) with (@eq R). field. lra.
Qed.

Lemma rhs_three : n = 3%nat -> rhs 0%nat = target 0 - Y 2%nat / (X 2%nat - X 1%nat).
Proof.
  intros E. unfold nc_rhs, mul_entry, nc_coff, nc_cdiag, nc_mm, target, v_recip.
  change (carrier RV) with R. rewrite E.
  pose proof (gap 0 ltac:(lia)) as G1. pose proof (gap 1 ltac:(lia)) as G2.
  change (nx (V := RV) pts (0, 0)) with X. change (ny (V := RV) pts (0, 0)) with Y. cbn in *. field. lra.
Qed.

Lemma nc_dominant : dominant (tab off (n - 3)) (tab diag (n - 2)) (tab off (n - 3)).
Proof.
  intros i Hi. rewrite tab_length in *. unfold at_.
  pose proof (gap i ltac:(lia)) as G1. pose proof (gap (i + 1) ltac:(lia)) as G2.
  replace (i + 1 + 1)%nat with (i + 2)%nat in * by lia.
  rewrite (tab_nth diag (n - 2) i) by lia. rewrite diag_eq, (Rabs_pos_eq ((_ + _) / 3)) by lra.
  destruct (Nat.ltb_spec 0 i) as [L | L].
  - rewrite (tab_nth off (n - 3) (i - 1)) by lia. rewrite off_eq.
    replace (i - 1 + 2)%nat with (i + 1)%nat by lia. replace (i - 1 + 1)%nat with i by lia.
    rewrite Rabs_pos_eq by lra.
    destruct (Nat.ltb_spec (i + 1) (n - 2)) as [L' | L']; [| lra].
    rewrite (tab_nth off (n - 3) i) by lia. rewrite off_eq, Rabs_pos_eq by lra. lra.
  - destruct (Nat.ltb_spec (i + 1) (n - 2)) as [L' | L']; [| lra].
    rewrite (tab_nth off (n - 3) i) by lia. rewrite off_eq, Rabs_pos_eq by lra. lra.
Qed.

Lemma nc_fit_real : exists ds : list R, length ds = n
  /\ i_try_fit (NaturalCubic RV) (i_default (NaturalCubic RV)) pts = Ret (Ok (nc_points (V := RV) pts ds))
  /\ solved pts (second_of ds).
Proof.
  assert (forall y2 : list R, length y2 = (n - 2)%nat ->
    let ds := [0] ++ y2 ++ [0] in
    length ds = n /\ second_of ds 0 = 0 /\ second_of ds (n - 1) = 0
    /\ (forall j, (j < n - 2)%nat -> second_of ds (j + 1) = at_ y2 j)
    /\ (forall j, (j < n - 2)%nat -> row (tab off (n - 3)) (tab diag (n - 2)) (tab off (n - 3)) y2 j
          = jump pts (second_of ds) j + target j)) as G.
  { intros y2 Ly ds.
    assert (second_of ds 0 = 0) as S0 by reflexivity.
    assert (second_of ds (n - 1) = 0) as S1.
    { unfold second_of, ds. simpl. replace (n - 1)%nat with (S (n - 2)) by lia.
      rewrite app_nth2 by lia. replace (n - 2 - length y2)%nat with 0%nat by lia. reflexivity. }
    assert (forall j, (j < n - 2)%nat -> second_of ds (j + 1) = at_ y2 j) as SJ.
    { intros j Hj. unfold second_of, ds, at_. rewrite Nat.add_1_r. simpl. apply app_nth1. lia. }
    split; [unfold ds; rewrite !app_length; simpl; lia |]. split; [exact S0 |]. split; [exact S1 |].
    split; [exact SJ |]. intros j Hj.
    pose proof (gap j ltac:(lia)) as G1. pose proof (gap (j + 1) ltac:(lia)) as G2.
    replace (j + 1 + 1)%nat with (j + 2)%nat in * by lia.
    rewrite jump_eq by assumption. unfold row, target. rewrite tab_length.
    assert (forall (f : nat -> R) m k, (k < m)%nat -> at_ (tab f m) k = f k) as At.
    { intros f m k Hk. unfold at_. now apply tab_nth. }
    rewrite (At diag) by lia. rewrite diag_eq, <- (SJ j Hj).
    assert ((if (0 <? j)%nat then at_ (tab off (n - 3)) (j - 1) * at_ y2 (j - 1) else 0)
      = (X (j + 1)%nat - X j) / 6 * second_of ds j) as ->.
    { destruct (Nat.ltb_spec 0 j) as [L | L].
      - rewrite (At off) by lia. rewrite off_eq, <- (SJ (j - 1)%nat) by lia.
        replace (j - 1 + 2)%nat with (j + 1)%nat by lia. now replace (j - 1 + 1)%nat with j by lia.
      - replace j with 0%nat by lia. rewrite S0. ring. }
    assert ((if (j + 1 <? n - 2)%nat then at_ (tab off (n - 3)) j * at_ y2 (j + 1) else 0)
      = (X (j + 2)%nat - X (j + 1)%nat) / 6 * second_of ds (j + 2)) as ->.
    { destruct (Nat.ltb_spec (j + 1) (n - 2)) as [L | L].
      - rewrite (At off) by lia. rewrite off_eq, <- (SJ (j + 1)%nat) by lia.
        now replace (j + 1 + 1)%nat with (j + 2)%nat by lia.
      - assert (second_of ds (j + 2) = 0) as -> by (rewrite <- S1; f_equal; lia). ring. }
    ring. }
  assert (forall y2 : list R, length y2 = (n - 2)%nat ->
    tri_solve (V := RV) (nc_matrix (V := RV) pts (0, 0) 6 3) (tab rhs (n - 2)) = Ret y2 ->
    i_try_fit (NaturalCubic RV) (i_default (NaturalCubic RV)) pts
    = Ret (Ok (nc_points (V := RV) pts ([0] ++ y2 ++ [0])))) as Fit.
  { intros y2 Ly E. destruct (G y2 Ly) as (Ld & _). cbv zeta in Ld. cbn [i_try_fit NaturalCubic].
    rewrite (nc_fit (V := RV) pts (0, 0) 6 3) by (reflexivity || exact Hn).
    change (carrier RV) with R. change (carrier RV) with R in E. rewrite E. cbn [bind].
    change (v_zero (v := RV)) with 0. fold (nc_points (V := RV) pts ([0] ++ y2 ++ [0])).
    set (l := nc_points (V := RV) pts ([0] ++ y2 ++ [0])).
    destruct (check_order_spec (V := RV) (@s_x R) l (nx (V := RV) pts (0, 0) 0)) as [(E' & _) | (E' & O)];
      [exact (f_equal (fun r => Ret r) E') |]. exfalso. destruct O as [O | (p & Hp & Lp)].
    - apply O. apply (in_order_real s_x l (slope_new 0 0 0)). now apply nc_points_sorted.
    - apply Rltb_true in Lp. apply (nth_error_nth _ _ (slope_new 0 0 0)) in Hp. unfold l in Hp.
      rewrite nc_points_nth in Hp by exact Ld. subst p. unfold s_x, slope_new in Lp. simpl in Lp.
      change (nx (V := RV) pts (0, 0) 0) with (X 0%nat) in Lp. lra. }
  assert (tri_try_new (tab off (n - 3)) (tab diag (n - 2)) (tab off (n - 3)) = Some (nc_matrix (V := RV) pts (0, 0) 6 3)) as Enew.
  { unfold tri_try_new. rewrite !tab_length, Nat.eqb_refl.
    replace (n - 3 + 1)%nat with (n - 2)%nat by lia. rewrite Nat.eqb_refl. reflexivity. }
  destruct (Nat.eq_dec n 3) as [E3 | N3].
  - destruct (C38_size_one (tab off (n - 3)) (tab diag (n - 2)) (tab off (n - 3)) (tab rhs (n - 2)) _ Enew)
      as (x & E & Ex); [rewrite tab_length; lia | rewrite tab_length; lia | |].
    { apply (fun H => C38_dominant (tab off (n - 3)) (tab diag (n - 2)) (tab off (n - 3)) H nc_dominant 0%nat);
        rewrite !tab_length; lia. }
    assert (length [x] = n - 2)%nat as Lx by (simpl; lia).
    destruct (G [x] Lx) as (Ld & S0 & S1 & SJ & SR). cbv zeta in *.
    exists ([0] ++ [x] ++ [0]). split; [exact Ld |]. split; [now apply Fit |].
    split; [exact S0 |]. split; [exact S1 |]. split; [| split; intros; lia].
    intros _. specialize (SR 0%nat ltac:(lia)). unfold row in SR. rewrite tab_length in SR.
    replace (0 + 1 <? n - 2)%nat with false in SR by (symmetry; apply Nat.ltb_ge; lia).
    change (0 <? 0)%nat with false in SR. cbn match in SR.
    change (at_ [x] 0) with x in SR. rewrite Ex in SR. unfold at_ at 1 in SR.
    rewrite (tab_nth rhs (n - 2) 0) in SR by lia. rewrite rhs_three in SR by exact E3.
    replace (1 + 1)%nat with 2%nat by lia. change (carrier RV) with R in SR. change (carrier RV) with R. lra.
  - assert (4 <= n)%nat as H4 by lia.
    assert (regular (tab off (n - 3)) (tab diag (n - 2)) (tab off (n - 3))) as Reg.
    { apply C38_dominant; [rewrite !tab_length; lia | exact nc_dominant]. }
    destruct (C38_solve_rows (tab off (n - 3)) (tab diag (n - 2)) (tab off (n - 3)) (tab rhs (n - 2)) _ Enew)
      as (y2 & E & Ly & R1 & R2 & R3 & _); [now rewrite !tab_length | rewrite tab_length; lia | exact Reg |].
    rewrite tab_length in *. destruct (G y2 Ly) as (Ld & S0 & S1 & SJ & SR). cbv zeta in *.
    assert (forall j, (j < n - 2)%nat -> at_ (tab rhs (n - 2)) j = target j) as Rt.
    { intros j Hj. unfold at_. rewrite (tab_nth rhs (n - 2) j) by exact Hj. apply rhs_eq; lia. }
    assert (at_ (tab off (n - 3)) (n - 4) = spread pts (n - 3) / 6) as Eo.
    { unfold at_. rewrite (tab_nth off (n - 3) (n - 4)) by lia. rewrite off_eq.
      replace (n - 4 + 2)%nat with (n - 3 + 1)%nat by lia. now replace (n - 4 + 1)%nat with (n - 3)%nat by lia. }
    exists ([0] ++ y2 ++ [0]). split; [exact Ld |]. split; [now apply Fit |].
    split; [exact S0 |]. split; [exact S1 |]. split; [intros; lia |]. split.
    + intros _. replace (n - 2 - 2)%nat with (n - 4)%nat in * by lia. replace (n - 2 - 1)%nat with (n - 3)%nat in * by lia.
      rewrite <- (SJ (n - 3)%nat) in R2, R3 by lia. replace (n - 3 + 1)%nat with (n - 2)%nat in R2, R3 by lia.
      rewrite Eo in R2, R3. split; [| split].
      * intros i Hi. specialize (R1 i Hi). rewrite SR, Rt in R1 by lia. lra.
      * rewrite SR, Rt in R2 by lia. lra.
      * exists (pivot (tab off (n - 3)) (tab diag (n - 2)) (tab off (n - 3)) (n - 4)).
        split; [| rewrite SR, Rt in R3 by lia; lra].
        destruct (dominant_pivots _ _ _ nc_dominant (n - 4)%nat) as (Np & Lp); [rewrite tab_length; lia |]. split; [exact Np |].
        rewrite tab_length in Lp. specialize (Lp ltac:(lia)). rewrite Eo in Lp. pose proof (Rle_abs (spread pts (n - 3) / 6)). lra.
    + intros _ Z. destruct (C38_zero (tab off (n - 3)) (tab diag (n - 2)) (tab off (n - 3)) (tab rhs (n - 2)) _ Enew)
        as (y2' & E' & _ & Z'); [now rewrite !tab_length | rewrite tab_length; lia | exact Reg | |].
      * intros i. destruct (Nat.lt_ge_cases i (n - 2)) as [C | C].
        -- rewrite Rt by exact C. unfold target. rewrite (Z i) by lia. ring.
        -- unfold at_. apply nth_overflow. now rewrite tab_length.
      * rewrite E' in E. injection E as ->. intros i.
        destruct (Nat.lt_ge_cases i n) as [C | C].
        -- destruct (Nat.eq_dec i 0) as [-> | N0]; [exact S0 |].
           destruct (Nat.eq_dec i (n - 1)) as [-> | N1]; [exact S1 |].
           replace i with (i - 1 + 1)%nat by lia. rewrite SJ by lia. apply Z'.
        -- unfold second_of. apply nth_overflow. lia.
Qed.

End Solve.

Definition in_range (pts : list (R * R)) (x : R) : Prop := gx pts 0 <= x <= gx pts (last_of pts).

(** [F] is the function a user evaluates after fitting [pts]. *)
Definition spline_of (pts : list (R * R)) (F : R -> R) : Prop :=
  forall x, in_range pts x -> fit_eval (NaturalCubic RV) pts x = Ret (Ok (F x)).

(** [G] is the second derivative of [F] inside every cell, and continuous on the whole range. *)
Definition second_derivative (pts : list (R * R)) (F G : R -> R) : Prop :=
  (forall x, in_range pts x -> cont_within (gx pts 0) (gx pts (last_of pts)) G x)
  /\ forall i, (i + 1 < length pts)%nat -> exists D : R -> R,
       forall x, gx pts i < x < gx pts (i + 1) -> derivable_pt_lim F x (D x) /\ derivable_pt_lim D x (G x).

Lemma nc_eval pts : increasing pts -> (3 <= length pts)%nat -> exists ds : list R, length ds = length pts
  /\ solved pts (second_of ds)
  /\ forall x, fit_eval (NaturalCubic RV) pts x = natural_cubic_try_value (V := RV) (nc_points (V := RV) pts ds) x.
Proof.
  intros H Hn. destruct (nc_fit_real pts H Hn) as (ds & Ld & E & Sv). exists ds.
  split; [exact Ld |]. split; [exact Sv |]. intros x. unfold fit_eval. rewrite E. reflexivity.
Qed.

Lemma nc_cell pts x : increasing pts -> (3 <= length pts)%nat -> in_range pts x ->
  exists i, (i + 1 < length pts)%nat /\ gx pts i <= x <= gx pts (i + 1).
Proof.
  intros H Hl Hx. destruct (Rle_lt_or_eq_dec _ _ (proj1 Hx)) as [L | <-].
  - destruct (cell_left (gx pts) (length pts) ltac:(lia) H x) as (i & Hi & Ci); [unfold in_range, last_of in Hx; lra |].
    exists i. split; [exact Hi | lra].
  - exists 0%nat. split; [lia |]. split; [lra | left; apply H; lia].
Qed.

Lemma cell_in_range pts i x : increasing pts -> (i + 1 < length pts)%nat ->
  gx pts i <= x <= gx pts (i + 1) -> in_range pts x.
Proof.
  intros H Hi Hx. unfold in_range, last_of.
  pose proof (increasing_sorted pts H 0%nat i ltac:(lia)).
  pose proof (increasing_sorted pts H (i + 1)%nat (length pts - 1)%nat ltac:(lia)). lra.
Qed.

Lemma spline_pieces pts F : increasing pts -> (3 <= length pts)%nat -> spline_of pts F ->
  exists s, solved pts s /\ forall i x, (i + 1 < length pts)%nat -> gx pts i <= x <= gx pts (i + 1) -> F x = q pts s i x.
Proof.
  intros H Hn HF. destruct (nc_eval pts H Hn) as (ds & Ld & Sv & E). exists (second_of ds).
  split; [exact Sv |]. intros i x Hi Hx. specialize (HF x (cell_in_range pts i x H Hi Hx)).
  rewrite E, (nc_closed pts ds i x Ld H Hi Hx) in HF. now injection HF as ->.
Qed.

Lemma piece_diff pts F s i x l : increasing pts -> (3 <= length pts)%nat ->
  (forall i x, (i + 1 < length pts)%nat -> gx pts i <= x <= gx pts (i + 1) -> F x = q pts s i x) ->
  (i + 1 < length pts)%nat -> gx pts i < x < gx pts (i + 1) -> l = q1 pts s i x -> derivable_pt_lim F x l.
Proof.
  intros H Hn HF Hi Hx ->. apply (deriv_within_interior (x - 1) (x + 1)); [lra |]. apply deriv_within_glue.
  - apply (pieces_deriv_left (gx pts) (q pts s) (length pts) F HF i); [exact Hi | lra | apply q_deriv].
  - apply (pieces_deriv_right (gx pts) (q pts s) (length pts) F HF i); [exact Hi | lra | apply q_deriv].
Qed.

(** Differentiability at the knot between cells [i] and [i + 1]. *)
Lemma knot_diff pts F s i : increasing pts -> (3 <= length pts)%nat ->
  (forall i x, (i + 1 < length pts)%nat -> gx pts i <= x <= gx pts (i + 1) -> F x = q pts s i x) ->
  (i + 2 < length pts)%nat -> (exists l, derivable_pt_lim F (gx pts (i + 1)) l) <-> jump pts s i = 0.
Proof.
  intros H Hn HF Hi.
  assert (gx pts i < gx pts (i + 1)) as G1 by (apply H; lia).
  assert (gx pts (i + 1) < gx pts (i + 1 + 1)) as G2 by (apply H; lia).
  assert (forall a, deriv_within a (gx pts (i + 1)) F (gx pts (i + 1)) (q1 pts s i (gx pts (i + 1)))) as Dl.
  { apply (pieces_deriv_left (gx pts) (q pts s) (length pts) F HF i); [lia | lra | apply q_deriv]. }
  assert (forall b, deriv_within (gx pts (i + 1)) b F (gx pts (i + 1)) (q1 pts s (i + 1) (gx pts (i + 1)))) as Dr.
  { apply (pieces_deriv_right (gx pts) (q pts s) (length pts) F HF (i + 1)); [lia | lra | apply q_deriv]. }
  unfold jump. split.
  - intros (l & Dl0).
    pose proof (deriv_within_unique (gx pts i) (gx pts (i + 1)) F (gx pts (i + 1)) _ _ G1 ltac:(lra)
      (deriv_within_lim _ _ F _ l Dl0) (Dl (gx pts i))).
    pose proof (deriv_within_unique (gx pts (i + 1)) (gx pts (i + 1 + 1)) F (gx pts (i + 1)) _ _ G2 ltac:(lra)
      (deriv_within_lim _ _ F _ l Dl0) (Dr (gx pts (i + 1 + 1)))). lra.
  - intros Z. exists (q1 pts s i (gx pts (i + 1))).
    apply (deriv_within_interior (gx pts i) (gx pts (i + 1 + 1))); [lra |]. apply deriv_within_glue; [apply Dl |].
    replace (q1 pts s i (gx pts (i + 1))) with (q1 pts s (i + 1) (gx pts (i + 1))) by lra. apply Dr.
Qed.

(** The second derivative built from the stored values. *)
Lemma second_exists pts F s : increasing pts -> (3 <= length pts)%nat -> 
  (forall i x, (i + 1 < length pts)%nat -> gx pts i <= x <= gx pts (i + 1) -> F x = q pts s i x) ->
  exists G, second_derivative pts F G /\ forall i, (i < length pts)%nat -> G (gx pts i) = s i.
Proof.
  intros H Hn HF. set (G := pw (gx pts) (q2 pts s) (length pts - 2)).
  assert (forall i x, (i + 1 < length pts)%nat -> gx pts i <= x <= gx pts (i + 1) -> G x = q2 pts s i x) as HG.
  { apply pw_closed; [lia | exact H |]. intros i Hi.
    rewrite (proj2 (q_left pts s (i + 1))). apply q_right. apply H. lia. }
  exists G. split; [split |].
  - intros x Hx. apply (pieces_cont (gx pts) (q2 pts s) (length pts) ltac:(lia) H G HG); [| exact Hx].
    intros i _. apply q2_cont.
  - intros i Hi. exists (q1 pts s i). intros x Hx. split.
    + now apply (piece_diff pts F s i).
    + rewrite (HG i x Hi) by lra. apply q1_deriv.
  - intros i Hi. destruct i as [| i].
    + rewrite (HG 0%nat); [apply q_left | lia |]. split; [lra | left; apply H; lia].
    + replace (S i) with (i + 1)%nat by lia.
      rewrite (HG i); [apply q_right; apply H; lia | lia |]. split; [left; apply H; lia | lra].
Qed.

(** ** C34 *)

(** The fit and all evaluations in the range succeed. *)
Theorem C34_total : forall pts, increasing pts -> (3 <= length pts)%nat -> exists F, spline_of pts F.
Proof.
  intros pts H Hn. destruct (nc_eval pts H Hn) as (ds & Ld & Sv & E).
  exists (pw (gx pts) (q pts (second_of ds)) (length pts - 2)). intros x Hx.
  destruct (nc_cell pts x H Hn Hx) as (i & Hi & Ci). rewrite E, (nc_closed pts ds i x Ld H Hi Ci). ret_eq.
  symmetry. apply pw_closed; [lia | exact H | | exact Hi | exact Ci]. intros j Hj.
  rewrite (proj1 (q_left pts (second_of ds) (j + 1))). apply q_right. apply H. lia.
Qed.
Print Assumptions C34_total.

Theorem C34_interpolates : forall pts F, increasing pts -> (3 <= length pts)%nat -> spline_of pts F ->
  (forall i, (i < length pts)%nat -> F (gx pts i) = gy pts i)
  /\ (forall x, in_range pts x -> cont_within (gx pts 0) (gx pts (last_of pts)) F x).
Proof.
  intros pts F H Hn HF. destruct (spline_pieces pts F H Hn HF) as (s & _ & P). split.
  - intros i Hi. destruct i as [| i].
    + rewrite (P 0%nat); [apply q_left | lia |]. split; [lra | left; apply H; lia].
    + replace (S i) with (i + 1)%nat by lia.
      rewrite (P i); [apply q_right; apply H; lia | lia |]. split; [left; apply H; lia | lra].
  - intros x Hx. apply (pieces_cont (gx pts) (q pts s) (length pts) ltac:(lia) H F P); [| exact Hx].
    intros i _. apply q_cont.
Qed.
Print Assumptions C34_interpolates.

(** The second derivative is continuous throughout and zero at both ends. *)
Theorem C34_second_derivative : forall pts F, increasing pts -> (3 <= length pts)%nat -> spline_of pts F ->
  exists G, second_derivative pts F G /\ G (gx pts 0) = 0 /\ G (gx pts (last_of pts)) = 0.
Proof.
  intros pts F H Hn HF. destruct (spline_pieces pts F H Hn HF) as (s & (S0 & S1 & _) & P).
  destruct (second_exists pts F s H Hn P) as (G & HG & Gs). exists G. split; [exact HG |].
  unfold last_of. rewrite !Gs by lia. auto.
Qed.
Print Assumptions C34_second_derivative.

Theorem C34_errors : forall pts x, increasing pts -> (3 <= length pts)%nat ->
  (x < gx pts 0 -> fit_eval (NaturalCubic RV) pts x = Ret (Err (OutOfLowerBound x)))
  /\ (gx pts (last_of pts) < x -> fit_eval (NaturalCubic RV) pts x = Ret (Err (OutOfUpperBound x))).
Proof.
  intros pts x H Hn. destruct (nc_eval pts H Hn) as (ds & Ld & _ & E). rewrite E.
  unfold natural_cubic_try_value. split; intros Hx.
  - rewrite (find_index_below s_x _ (slope_new 0 0 0)); [reflexivity | now apply nc_points_sorted | rewrite nc_points_length; lia |].
    rewrite nc_points_nth by exact Ld. exact Hx.
  - rewrite (find_index_above s_x _ (slope_new 0 0 0)); [reflexivity | now apply nc_points_sorted | rewrite nc_points_length; lia |].
    rewrite nc_points_nth, nc_points_length by exact Ld. exact Hx.
Qed.
Print Assumptions C34_errors.

Example C34_case : increasing [(0, 1); (1, 3); (2, 2); (4, 5); (5, 0)] /\ in_range [(0, 1); (1, 3); (2, 2); (4, 5); (5, 0)] 3.
Proof.
  split; [| unfold in_range, gx; simpl; lra].
  intros i j H. unfold gx. simpl in H.
  destruct i as [| [| [| [| [| i]]]]], j as [| [| [| [| [| j]]]]]; simpl; try lra; lia.
Qed.

(** ** C35 *)

(** At all interior knots but the last two the spline is differentiable.  Missing: those two. *)
Theorem C35_differentiable_partial : forall pts F k, increasing pts -> (3 <= length pts)%nat -> spline_of pts F ->
  (0 < k)%nat -> (k + 3 < length pts)%nat -> exists l, derivable_pt_lim F (gx pts k) l.
Proof.
  intros pts F k H Hn HF H0 Hk. destruct (spline_pieces pts F H Hn HF) as (s & (_ & _ & _ & E4 & _) & P).
  destruct (E4 ltac:(lia)) as (J & _). replace k with (k - 1 + 1)%nat by lia.
  apply (knot_diff pts F s (k - 1) H Hn P); [lia |]. apply J. lia.
Qed.
Print Assumptions C35_differentiable_partial.

(** With four or more points, at each of the last two interior knots it is differentiable exactly when the
    second derivative vanishes at the last interior knot. *)
Theorem C35_last_two_knots : forall pts F, increasing pts -> (4 <= length pts)%nat -> spline_of pts F ->
  exists G, second_derivative pts F G /\
    ((exists l, derivable_pt_lim F (gx pts (length pts - 3)) l) <-> G (gx pts (length pts - 2)) = 0)
    /\ ((exists l, derivable_pt_lim F (gx pts (length pts - 2)) l) <-> G (gx pts (length pts - 2)) = 0).
Proof.
  intros pts F H Hn HF. destruct (spline_pieces pts F H ltac:(lia) HF) as (s & (_ & _ & _ & E4 & _) & P).
  destruct (second_exists pts F s H ltac:(lia) P) as (G & HG & Gs). exists G. split; [exact HG |].
  destruct (E4 Hn) as (_ & J1 & p & (Np & _) & J2). rewrite Gs by lia.
  assert (0 < spread pts (length pts - 3)) as Pos.
  { assert (gx pts (length pts - 3) < gx pts (length pts - 3 + 1)) by (apply H; lia). lra. }
  assert (spread pts (length pts - 3) / 6 <> 0) as Nz by lra. split.
  - pose proof (knot_diff pts F s (length pts - 4) H ltac:(lia) P ltac:(lia)) as K.
    replace (length pts - 4 + 1)%nat with (length pts - 3)%nat in K by lia. rewrite K. rewrite J1. split; intros Z.
    + apply Rmult_integral in Z. tauto.
    + rewrite Z. ring.
  - pose proof (knot_diff pts F s (length pts - 3) H ltac:(lia) P ltac:(lia)) as K.
    replace (length pts - 3 + 1)%nat with (length pts - 2)%nat in K by lia. rewrite K. rewrite J2. split; intros Z.
    + apply Rmult_integral in Z. destruct Z as [Z | Z]; [| exact Z]. exfalso.
      apply Rmult_integral in Z. destruct Z as [Z | Z]; [contradiction |].
      unfold Rdiv at 1 in Z. apply Rmult_integral in Z. destruct Z as [Z | Z]; [contradiction |].
      now apply (Rinv_neq_0_compat p).
    + rewrite Z. ring.
Qed.
Print Assumptions C35_last_two_knots.

(** With three points it is differentiable at the middle knot exactly when the last ordinate is zero. *)
Theorem C35_three_points : forall pts F, increasing pts -> length pts = 3%nat -> spline_of pts F ->
  (exists l, derivable_pt_lim F (gx pts 1) l) <-> gy pts 2 = 0.
Proof.
  intros pts F H Hn HF. destruct (spline_pieces pts F H ltac:(lia) HF) as (s & (_ & _ & E3 & _) & P).
  rewrite (knot_diff pts F s 0 H ltac:(lia) P) by lia. rewrite (E3 Hn).
  assert (gx pts 1 < gx pts (1 + 1)) by (apply H; lia). split; intros Z.
  - replace (gy pts 2) with (- - (gy pts 2 / spread pts 1) * spread pts 1) by (field; lra). rewrite Z. ring.
  - rewrite Z. unfold Rdiv. ring.
Qed.
Print Assumptions C35_three_points.

Lemma case3 : increasing [(0, 0); (1, 1); (2, 1)].
Proof.
  intros i j H. unfold gx. simpl in H. destruct i as [| [| [| i]]], j as [| [| [| j]]]; simpl; try lra; lia.
Qed.

Theorem C35_smooth_refuted : exists pts F, increasing pts /\ (3 <= length pts)%nat /\ spline_of pts F
  /\ exists k, (0 < k)%nat /\ (k + 1 < length pts)%nat /\ ~ exists l, derivable_pt_lim F (gx pts k) l.
Proof.
  destruct (C34_total _ case3 ltac:(simpl; lia)) as (F & HF).
  exists [(0, 0); (1, 1); (2, 1)], F. split; [exact case3 |]. split; [simpl; lia |]. split; [exact HF |].
  exists 1%nat. split; [lia |]. split; [simpl; lia |].
  rewrite (C35_three_points _ F case3 eq_refl HF). unfold gy. simpl. lra.
Qed.
Print Assumptions C35_smooth_refuted.

(** Five points, of which the second knot is not one of the last two. *)
Example C35_case : exists F l, spline_of [(0, 1); (1, 3); (2, 2); (4, 5); (5, 0)] F /\ derivable_pt_lim F 1 l.
Proof.
  destruct C34_case as (H & _). destruct (C34_total _ H ltac:(simpl; lia)) as (F & HF). exists F.
  assert (spline_of [(0, 1); (1, 3); (2, 2); (4, 5); (5, 0)] F) as Sp by exact HF.
  destruct (C35_differentiable_partial _ F 1 H ltac:(simpl; lia) Sp ltac:(lia) ltac:(simpl; lia)) as (l & D). exists l. split; [exact Sp | exact D].
Qed.

(** ** C36 *)

Lemma line_slopes a b pts i : increasing pts -> on_line a b pts -> (i + 1 < length pts)%nat ->
  (gy pts (i + 1) - gy pts i) / spread pts i = a.
Proof.
  intros H On Hi. assert (gx pts i < gx pts (i + 1)) by (apply H; lia).
  rewrite (On (i + 1)%nat), (On i) by lia. field. lra.
Qed.

Lemma line_value a b pts s x : increasing pts -> on_line a b pts -> (3 <= length pts)%nat -> (forall i, s i = 0) ->
  forall i, (i + 1 < length pts)%nat -> q pts s i x = a * x + b.
Proof.
  intros H On Hn Z i Hi. unfold q, qa, qc. rewrite (line_slopes a b) by assumption. rewrite !Z, (On i) by lia.
  unfold Rdiv. ring.
Qed.

(** Four points or more on a line give back the line. *)
Theorem C36_lines_partial : forall pts a b x, increasing pts -> (4 <= length pts)%nat -> on_line a b pts ->
  in_range pts x -> fit_eval (NaturalCubic RV) pts x = Ret (Ok (a * x + b)).
Proof.
  intros pts a b x H Hn On Hx. destruct (nc_eval pts H ltac:(lia)) as (ds & Ld & (_ & _ & _ & _ & E0) & E).
  destruct (nc_cell pts x H ltac:(lia) Hx) as (i & Hi & Ci). rewrite E, (nc_closed pts ds i x Ld H Hi Ci). ret_eq.
  apply line_value; [exact H | exact On | lia | | exact Hi].
  apply (E0 Hn). intros j Hj. pose proof (line_slopes a b pts (j + 1) H On ltac:(lia)) as L1.
  replace (j + 1 + 1)%nat with (j + 2)%nat in L1 by lia. rewrite L1. symmetry. now apply (line_slopes a b); [| | lia].
Qed.
Print Assumptions C36_lines_partial.

(** Three points on a line give back the line exactly when the last ordinate is zero. *)
Theorem C36_three_points : forall pts a b, increasing pts -> length pts = 3%nat -> on_line a b pts ->
  (forall x, in_range pts x -> fit_eval (NaturalCubic RV) pts x = Ret (Ok (a * x + b))) <-> gy pts 2 = 0.
Proof.
  intros pts a b H Hn On. split.
  - intros L. assert (spline_of pts (fun x => a * x + b)) as HF by exact L.
    apply (C35_three_points pts _ H Hn HF). exists a.
    apply (derive_as_cubic _ 0 0 a b 0); [intros y; ring | ring].
  - intros Z x Hx. destruct (nc_eval pts H ltac:(lia)) as (ds & Ld & (S0 & S2 & J & _) & E).
    destruct (nc_cell pts x H ltac:(lia) Hx) as (i & Hi & Ci). rewrite E, (nc_closed pts ds i x Ld H Hi Ci). ret_eq.
    assert (gx pts 0 < gx pts (0 + 1)) as G1 by (apply H; lia).
    assert (gx pts (0 + 1) < gx pts (0 + 2)) as G2 by (apply H; simpl; lia).
    specialize (J Hn). rewrite jump_eq, Z in J by assumption.
    pose proof (line_slopes a b pts 0 H On ltac:(lia)) as L0. pose proof (line_slopes a b pts 1 H On ltac:(lia)) as L1.
    rewrite Hn in S2. change (3 - 1)%nat with 2%nat in S2.
    change (0 + 1)%nat with 1%nat in *. change (0 + 2)%nat with 2%nat in *. change (1 + 1)%nat with 2%nat in *.
    rewrite S0, S2, L0, L1 in J.
    assert (second_of ds 1 = 0) as S1.
    { assert ((gx pts 1 - gx pts 0 + (gx pts 2 - gx pts 1)) / 3 * second_of ds 1 = 0) as M.
      { unfold Rdiv in *. lra. }
      apply Rmult_integral in M. destruct M as [M | M]; [lra | exact M]. }
    apply line_value; [exact H | exact On | lia | | exact Hi].
    intros k. destruct k as [| [| [| k]]]; [exact S0 | exact S1 | exact S2 |].
    unfold second_of. apply nth_overflow. lia.
Qed.
Print Assumptions C36_three_points.

Theorem C36_lines_refuted : exists pts a b x, increasing pts /\ (3 <= length pts)%nat /\ on_line a b pts
  /\ in_range pts x /\ fit_eval (NaturalCubic RV) pts x <> Ret (Ok (a * x + b)).
Proof.
  set (pts := [(0, 1); (1, 1); (2, 1)]).
  assert (increasing pts) as H.
  { intros i j H. unfold gx, pts. simpl in H. destruct i as [| [| [| i]]], j as [| [| [| j]]]; simpl; try lra; lia. }
  assert (on_line 0 1 pts) as On.
  { intros i Hi. unfold gx, gy, pts. simpl in Hi. destruct i as [| [| [| i]]]; simpl; try lra; lia. }
  destruct (nc_eval pts H ltac:(simpl; lia)) as (ds & Ld & (S0 & S2 & J & _) & E).
  exists pts, 0, 1, (1 / 2). split; [exact H |]. split; [simpl; lia |]. split; [exact On |].
  split; [unfold in_range, gx, last_of, pts; simpl; lra |].
  rewrite E, (nc_closed pts ds 0 (1 / 2) Ld H) by (unfold gx, pts; simpl; lia || lra).
  specialize (J eq_refl). rewrite jump_eq in J by (unfold gx, pts; simpl; lra).
  change (length pts - 1)%nat with 2%nat in S2. change (0 + 2)%nat with 2%nat in J. change (0 + 1)%nat with 1%nat in J.
  rewrite S0, S2 in J. unfold gx, gy, pts in J. simpl in J.
  intros C. injection C as C. unfold q, qa, qc in C. change (0 + 1)%nat with 1%nat in C. rewrite S0 in C.
  unfold gx, gy, pts in C. simpl in C. lra.
Qed.
Print Assumptions C36_lines_refuted.

Example C36_case : increasing [(0, 1); (1, 3); (2, 5); (4, 9)] /\ on_line 2 1 [(0, 1); (1, 3); (2, 5); (4, 9)].
Proof.
  split.
  - intros i j H. unfold gx. simpl in H. destruct i as [| [| [| [| i]]]], j as [| [| [| [| j]]]]; simpl; try lra; lia.
  - intros i Hi. unfold gx, gy. simpl in Hi. destruct i as [| [| [| [| i]]]]; simpl; try lra; lia.
Qed.
