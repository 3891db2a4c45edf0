(** Properties C28, C29: the Hermite spline. *)
From Coq Require Import ZArith Reals List Arith Lia Lra.
From Verif Require Import Base Value RealValue InterpModel InterpFacts Grid Piecewise.
Import ListNotations.
Open Scope R_scope.

(** Knots of a Hermite spline: abscissa, ordinate, slope. *)
Definition hx (pts : list (R * R * R)) (i : nat) : R := fst (fst (nth i pts (0, 0, 0))).
Definition hy (pts : list (R * R * R)) (i : nat) : R := snd (fst (nth i pts (0, 0, 0))).
Definition hm (pts : list (R * R * R)) (i : nat) : R := snd (nth i pts (0, 0, 0)).
Definition h_increasing (pts : list (R * R * R)) : Prop :=
  forall i j, (i < j < length pts)%nat -> hx pts i < hx pts j.
Definition h_last (pts : list (R * R * R)) : nat := (length pts - 1)%nat.

(** Construct, then evaluate. *)
Definition hermite_eval {V : Value} (pts : list (V * V * V)) (x : V) : M (IResult V V) :=
  r <- hermite_try_new pts ;; try_res r (fun f => hermite_try_value f x).

Definition hp (p : R * R * R) : Point2DWithSlope R := slope_new (fst (fst p)) (snd (fst p)) (snd p).

Lemma hp_map pts : map (fun '(x, y, d) => slope_new x y d) pts = map hp pts.
Proof. apply map_ext. intros [[x y] d]. reflexivity. Qed.

Lemma nth_hp pts i : nth i (map hp pts) (slope_new 0 0 0) = slope_new (hx pts i) (hy pts i) (hm pts i).
Proof. change (slope_new 0 0 0) with (hp (0, 0, 0)). rewrite map_nth. reflexivity. Qed.

Definition hmat : mat4 R :=
  ((2, -2, 1, 1), (-3, 3, -2, - (1)), (0, 0, 1, 0), (1, 0, 0, 0)).

Lemma h_sorted pts : h_increasing pts ->
  forall i j, (i <= j < length (map hp pts))%nat ->
  s_x (nth i (map hp pts) (slope_new 0 0 0)) <= s_x (nth j (map hp pts) (slope_new 0 0 0)).
Proof.
  intros H i j Hij. rewrite map_length in Hij. rewrite !nth_hp. unfold s_x, slope_new. simpl.
  destruct (Nat.eq_dec i j) as [-> | N]; [lra |]. left. apply H. lia.
Qed.

Lemma h_new pts : h_increasing pts -> pts <> [] ->
  hermite_try_new (V := RV) pts = Ret (Ok (mkHermite (V := RV) (map hp pts) hmat)).
Proof.
  intros H N. unfold hermite_try_new. change (carrier RV) with R. rewrite hp_map.
  destruct pts as [| p t] eqn:Ep; [congruence |]. rewrite <- Ep in *.
  rewrite (index_some pts 0 (0, 0, 0)) by (subst; simpl; lia). simpl bind.
  change (fst (fst (nth 0 pts (0, 0, 0)))) with (hx pts 0).
  destruct (check_order_spec (V := RV) (@s_x R) (map hp pts) (hx pts 0)) as [(E & _) | (E & [O | (q & Hq & Lq)])].
  - rewrite E. reflexivity.
  - exfalso. apply O. apply (in_order_real s_x (map hp pts) (slope_new 0 0 0)). now apply h_sorted.
  - exfalso. subst pts. simpl in Hq. injection Hq as <-. apply Rltb_true in Lq.
    unfold hx, s_x, hp in Lq. simpl in Lq. lra.
Qed.

(** The cubic of cell [i] in powers of [x - x_i], and its derivative. *)
Definition hA (pts : list (R * R * R)) (i : nat) : R :=
  let h := hx pts (i + 1) - hx pts i in
  (2 * hy pts i - 2 * hy pts (i + 1) + hm pts i * h + hm pts (i + 1) * h) / h ^ 3.
Definition hB (pts : list (R * R * R)) (i : nat) : R :=
  let h := hx pts (i + 1) - hx pts i in
  (-3 * hy pts i + 3 * hy pts (i + 1) - 2 * hm pts i * h - hm pts (i + 1) * h) / h ^ 2.
Definition hpiece (pts : list (R * R * R)) (i : nat) (x : R) : R :=
  hA pts i * (x - hx pts i) ^ 3 + hB pts i * (x - hx pts i) ^ 2 + hm pts i * (x - hx pts i) + hy pts i.
Definition hpiece' (pts : list (R * R * R)) (i : nat) (x : R) : R :=
  3 * hA pts i * (x - hx pts i) ^ 2 + 2 * hB pts i * (x - hx pts i) + hm pts i.

Lemma hpiece_deriv pts i x : derivable_pt_lim (hpiece pts i) x (hpiece' pts i x).
Proof. apply derive_cubic. Qed.

Lemma hpiece'_cont pts i : continuity (hpiece' pts i).
Proof.
  apply derive_continuous with (f' := fun x => 2 * (3 * hA pts i) * (x - hx pts i) + 2 * hB pts i).
  intros x. apply (derive_as_cubic _ 0 (3 * hA pts i) (2 * hB pts i) (hm pts i) (hx pts i)).
  - intros y. unfold hpiece'. ring.
  - ring.
Qed.

Lemma hpiece_left pts i : hpiece pts i (hx pts i) = hy pts i /\ hpiece' pts i (hx pts i) = hm pts i.
Proof. unfold hpiece, hpiece'. rewrite Rminus_diag_eq by reflexivity. split; ring. Qed.

Lemma hpiece_right pts i : hx pts i < hx pts (i + 1) ->
  hpiece pts i (hx pts (i + 1)) = hy pts (i + 1) /\ hpiece' pts i (hx pts (i + 1)) = hm pts (i + 1).
Proof. intros H. unfold hpiece, hpiece', hA, hB. split; field; lra. Qed.

Lemma hermite_at pts i x : h_increasing pts -> (i + 1 < length pts)%nat ->
  find_index (V := RV) s_x (map hp pts) x = Ret (Ok i) ->
  hermite_eval (V := RV) pts x = Ret (Ok (hpiece pts i x)).
Proof.
  intros H Hi E. unfold hermite_eval. rewrite h_new; [| exact H | intros ->; simpl in Hi; lia].
  simpl bind. unfold try_res, hermite_try_value. cbn [he_points he_m]. rewrite E. simpl bind. unfold try_res.
  rewrite (index_some (map hp pts) i (slope_new 0 0 0)) by (rewrite map_length; lia). simpl bind.
  rewrite (index_some (map hp pts) (i + 1) (slope_new 0 0 0)) by (rewrite map_length; lia). simpl bind.
  rewrite !nth_hp. unfold s_x, slope_new. cbn [coordinate p_x p_y dydx]. ret_eq.
  assert (hx pts i < hx pts (i + 1)) by (apply H; lia).
  unfold hpiece, hA, hB. simpl. field. lra.
Qed.

Lemma hermite_closed pts i x : h_increasing pts -> (i + 1 < length pts)%nat ->
  hx pts i <= x <= hx pts (i + 1) -> hermite_eval (V := RV) pts x = Ret (Ok (hpiece pts i x)).
Proof.
  intros H Hi [H1 H2].
  assert (forall k y, (k + 1 < length pts)%nat -> hx pts k < y <= hx pts (k + 1) ->
    hermite_eval (V := RV) pts y = Ret (Ok (hpiece pts k y))) as Open.
  { intros k y Hk Hy. apply hermite_at; [exact H | exact Hk |].
    apply (find_index_in s_x (map hp pts) (slope_new 0 0 0)); [now apply h_sorted | now rewrite map_length |].
    rewrite !nth_hp. exact Hy. }
  destruct (Rle_lt_or_eq_dec _ _ H1) as [L | <-]; [now apply Open |].
  destruct i as [| i].
  - apply hermite_at; [exact H | exact Hi |].
    apply (find_index_first s_x (map hp pts) (slope_new 0 0 0)); [now apply h_sorted | rewrite map_length; lia |].
    rewrite nth_hp. reflexivity.
  - rewrite (Open i); [| lia |].
    + ret_eq. rewrite (proj1 (hpiece_left pts (S i))).
      replace (S i) with (i + 1)%nat by lia. apply hpiece_right. apply H. lia.
    + replace (i + 1)%nat with (S i) by lia. split; [apply H; lia | lra].
Qed.

Lemma h_cell pts x : h_increasing pts -> (2 <= length pts)%nat -> hx pts 0 <= x <= hx pts (h_last pts) ->
  exists i, (i + 1 < length pts)%nat /\ hx pts i <= x <= hx pts (i + 1).
Proof.
  intros H Hl Hx. destruct (Rle_lt_or_eq_dec _ _ (proj1 Hx)) as [L | <-].
  - destruct (cell_left (hx pts) (length pts) Hl H x) as (i & Hi & Ci); [unfold h_last in Hx; lra |].
    exists i. split; [exact Hi | lra].
  - exists 0%nat. split; [lia |]. split; [lra | left; apply H; lia].
Qed.

(** ** C28 *)

Theorem C28_knots : forall pts i, h_increasing pts -> (2 <= length pts)%nat -> (i < length pts)%nat ->
  hermite_eval (V := RV) pts (hx pts i) = Ret (Ok (hy pts i)).
Proof.
  intros pts i H Hl Hi. destruct i as [| i].
  - rewrite (hermite_closed pts 0); [rewrite (proj1 (hpiece_left pts 0)); reflexivity | exact H | lia |].
    split; [lra | left; apply H; lia].
  - replace (S i) with (i + 1)%nat by lia.
    rewrite (hermite_closed pts i); [rewrite (proj1 (hpiece_right pts i ltac:(apply H; lia))); reflexivity | exact H | lia |].
    split; [left; apply H; lia | lra].
Qed.
Print Assumptions C28_knots.

(** On the whole range the spline is continuously differentiable, with the given slope at every knot
    (one-sided at the two ends). *)
Theorem C28_smooth : forall pts, h_increasing pts -> (2 <= length pts)%nat ->
  exists F F' : R -> R,
    (forall x, hx pts 0 <= x <= hx pts (h_last pts) ->
       hermite_eval (V := RV) pts x = Ret (Ok (F x))
       /\ deriv_within (hx pts 0) (hx pts (h_last pts)) F x (F' x)
       /\ cont_within (hx pts 0) (hx pts (h_last pts)) F' x)
    /\ (forall i, (i < length pts)%nat -> F' (hx pts i) = hm pts i).
Proof.
  intros pts H Hl.
  set (F := pw (hx pts) (hpiece pts) (length pts - 2)).
  set (F' := pw (hx pts) (hpiece' pts) (length pts - 2)). exists F, F'.
  assert (forall i x, (i + 1 < length pts)%nat -> hx pts i <= x <= hx pts (i + 1) -> F x = hpiece pts i x) as HF.
  { apply pw_closed; [exact Hl | exact H |]. intros i Hi.
    rewrite (proj1 (hpiece_left pts (i + 1))). apply hpiece_right. apply H. lia. }
  assert (forall i x, (i + 1 < length pts)%nat -> hx pts i <= x <= hx pts (i + 1) -> F' x = hpiece' pts i x) as HF'.
  { apply pw_closed; [exact Hl | exact H |]. intros i Hi.
    rewrite (proj2 (hpiece_left pts (i + 1))). apply hpiece_right. apply H. lia. }
  split.
  - intros x Hx. split; [| split].
    + destruct (h_cell pts x H Hl Hx) as (i & Hi & Ci). rewrite (HF i x Hi Ci). now apply hermite_closed.
    + apply (pieces_deriv (hx pts) (hpiece pts) (length pts) Hl H F HF (hpiece' pts) F' HF'); [| exact Hx].
      intros i y _ _. apply hpiece_deriv.
    + apply (pieces_cont (hx pts) (hpiece' pts) (length pts) Hl H F' HF'); [| exact Hx].
      intros i _. apply hpiece'_cont.
  - intros i Hi. destruct i as [| i].
    + rewrite (HF' 0%nat); [apply hpiece_left | lia |]. split; [lra | left; apply H; lia].
    + replace (S i) with (i + 1)%nat by lia.
      rewrite (HF' i); [apply hpiece_right; apply H; lia | lia |]. split; [left; apply H; lia | lra].
Qed.
Print Assumptions C28_smooth.

(** Values and slopes taken from a cubic give that cubic back. *)
Theorem C28_cubics : forall pts a b c d x, h_increasing pts -> (2 <= length pts)%nat ->
  (forall i, (i < length pts)%nat ->
     hy pts i = a * hx pts i ^ 3 + b * hx pts i ^ 2 + c * hx pts i + d
     /\ hm pts i = 3 * a * hx pts i ^ 2 + 2 * b * hx pts i + c) ->
  hx pts 0 <= x <= hx pts (h_last pts) ->
  hermite_eval (V := RV) pts x = Ret (Ok (a * x ^ 3 + b * x ^ 2 + c * x + d)).
Proof.
  intros pts a b c d x H Hl On Hx. destruct (h_cell pts x H Hl Hx) as (i & Hi & Ci).
  rewrite (hermite_closed pts i x H Hi Ci). ret_eq.
  assert (hx pts i < hx pts (i + 1)) by (apply H; lia).
  destruct (On i ltac:(lia)) as [Y0 M0]. destruct (On (i + 1)%nat ltac:(lia)) as [Y1 M1].
  unfold hpiece, hA, hB. rewrite Y0, Y1, M0, M1. field. lra.
Qed.
Print Assumptions C28_cubics.

Theorem C28_errors : forall pts x, h_increasing pts -> pts <> [] ->
  (x < hx pts 0 -> hermite_eval (V := RV) pts x = Ret (Err (OutOfLowerBound x)))
  /\ (hx pts (h_last pts) < x -> hermite_eval (V := RV) pts x = Ret (Err (OutOfUpperBound x))).
Proof.
  intros pts x H N. assert (0 < length pts)%nat by (destruct pts; simpl; [congruence | lia]).
  unfold hermite_eval. rewrite h_new by assumption. simpl bind. unfold try_res, hermite_try_value. cbn [he_points].
  split; intros Hx.
  - rewrite (find_index_below s_x (map hp pts) (slope_new 0 0 0)); [reflexivity | now apply h_sorted | now rewrite map_length |].
    rewrite nth_hp. exact Hx.
  - rewrite (find_index_above s_x (map hp pts) (slope_new 0 0 0)); [reflexivity | now apply h_sorted | now rewrite map_length |].
    rewrite nth_hp, map_length. exact Hx.
Qed.
Print Assumptions C28_errors.

Example C28_case : h_increasing [(0, 1, 2); (1, 0, -1); (3, 5, 0)].
Proof.
  intros i j H. unfold hx. simpl in H.
  destruct i as [| [| [| i]]], j as [| [| [| j]]]; simpl; try lra; lia.
Qed.

(** ** C29 *)

(** For any Value type with an irreflexive order that holds the constants used: a non-empty slice is
    accepted exactly when no x is smaller than its predecessor, with no lower limit on the number of points. *)
Theorem C29_order : forall (V : Value) (pts : list (V * V * V)),
  (forall x : V, v_ltb x x = false) ->
  (forall k, (-128 <= k <= 127)%Z -> exists c : V, v_of_int k = Some c) ->
  pts <> [] ->
  (in_order (fun p => fst (fst p)) pts /\ exists f, hermite_try_new pts = Ret (Ok f)
     /\ he_points f = map (fun '(x, y, d) => slope_new x y d) pts)
  \/ (~ in_order (fun p => fst (fst p)) pts /\ hermite_try_new pts = Ret (Err PointOrderError)).
Proof.
  intros V pts Irr Cst N. unfold hermite_try_new.
  destruct pts as [| p0 t] eqn:Ep; [congruence |]. rewrite <- Ep in *.
  rewrite (index_some pts 0 p0) by (subst; simpl; lia). simpl bind.
  set (l := map _ pts).
  assert (in_order s_x l <-> in_order (fun p : V * V * V => fst (fst p)) pts) as Eo.
  { unfold in_order, l. split; intros O i p q Hp Hq.
    - pose proof (map_nth_error (fun '(x, y, d) => slope_new x y d) i pts Hp) as Hp'.
      pose proof (map_nth_error (fun '(x, y, d) => slope_new x y d) (S i) pts Hq) as Hq'.
      specialize (O i _ _ Hp' Hq'). destruct p as [[? ?] ?], q as [[? ?] ?]. exact O.
    - rewrite nth_error_map in Hp, Hq. destruct (nth_error pts i) as [[[? ?] ?] |] eqn:A; [| discriminate].
      destruct (nth_error pts (S i)) as [[[? ?] ?] |] eqn:B; [| discriminate].
      injection Hp as <-. injection Hq as <-. exact (O i _ _ A B). }
  destruct (check_order_spec s_x l (fst (fst (nth 0 pts p0)))) as [(E & O & _) | (E & O)].
  - left. split; [now apply Eo |]. rewrite E. unfold v_const.
    destruct (Cst 2%Z ltac:(lia)) as [? ->], (Cst (-2)%Z ltac:(lia)) as [? ->],
      (Cst (-3)%Z ltac:(lia)) as [? ->], (Cst 3%Z ltac:(lia)) as [? ->]. simpl. eauto.
  - right. rewrite E. split; [| reflexivity]. destruct O as [O | (q & Hq & Lq)]; [now rewrite <- Eo |].
    exfalso. subst pts. destruct p0 as [[? ?] ?]. simpl in Hq. injection Hq as <-. simpl in Lq.
    rewrite Irr in Lq. discriminate.
Qed.
Print Assumptions C29_order.

Theorem C29_empty_panics_refuted : exists pts : list (R * R * R), hermite_try_new (V := RV) pts = Panic.
Proof. exists []. reflexivity. Qed.
Print Assumptions C29_empty_panics_refuted.

(** The documented error for fewer than three points is never returned, for any Value. *)
Theorem C29_too_few_refuted : forall (V : Value) (pts : list (V * V * V)) n,
  hermite_try_new pts <> Ret (Err (InsufficientPointsError n)).
Proof.
  intros V pts n. unfold hermite_try_new. destruct (index pts 0) as [p | |]; [| discriminate | discriminate].
  simpl bind. match goal with |- context [check_order ?f ?a ?l] =>
    destruct (check_order_spec f l a) as [(E & _) | (E & _)]; rewrite E end; [| discriminate].
  unfold v_const. repeat (destruct (v_of_int _); [| discriminate]; simpl bind). discriminate.
Qed.
Print Assumptions C29_too_few_refuted.

Example C29_case : (forall x : RV, v_ltb x x = false)
  /\ (forall k, (-128 <= k <= 127)%Z -> exists c : RV, v_of_int k = Some c)
  /\ hermite_try_new (V := RV) [(1, 2, 3); (0, 5, 6)] = Ret (Err PointOrderError).
Proof.
  split; [intros x; apply Rltb_false; simpl; lra |]. split; [intros k _; simpl; eauto |].
  destruct (C29_order RV [(1, 2, 3); (0, 5, 6)]) as [[O _] | [_ E]].
  - intros x. apply Rltb_false. simpl. lra.
  - intros k _. simpl. eauto.
  - discriminate.
  - exfalso. specialize (O 0%nat _ _ eq_refl eq_refl). apply Rltb_false in O. simpl in O. lra.
  - exact E.
Qed.
