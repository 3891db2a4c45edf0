(** Properties C23 - C26: grid lookup and linear interpolation. *)
From Coq Require Import Reals List Arith Lia Lra.
From Verif Require Import Base Value RealValue InterpModel InterpFacts Grid Piecewise.
Import ListNotations.
Open Scope R_scope.

Definition pt (xy : R * R) : Point2D R := mkPoint (fst xy) (snd xy).

Lemma nth_pt pts i : nth i (map pt pts) (mkPoint 0 0) = mkPoint (gx pts i) (gy pts i).
Proof. change (mkPoint 0 0) with (pt (0, 0)). rewrite map_nth. reflexivity. Qed.

(** ** C23 *)

(** Lookup answers with the cell containing [x], or the error saying on which side [x] lies. *)
Theorem C23_lookup : forall pts x, sorted pts ->
  (pts = [] -> find_index (V := RV) fst pts x = Ret (Err (InsufficientPointsError 0)))
  /\ (pts <> [] -> x < gx pts 0 -> find_index (V := RV) fst pts x = Ret (Err (OutOfLowerBound x)))
  /\ (pts <> [] -> gx pts (last_of pts) < x -> find_index (V := RV) fst pts x = Ret (Err (OutOfUpperBound x)))
  /\ (pts <> [] -> gx pts 0 <= x <= gx pts (last_of pts) ->
       exists i, find_index (V := RV) fst pts x = Ret (Ok i) /\
         ((i = 0%nat /\ x = gx pts 0) \/ ((i + 1 < length pts)%nat /\ gx pts i < x <= gx pts (i + 1)))).
Proof.
  intros pts x Hs.
  assert (pts <> [] -> (0 < length pts)%nat) as Hl by (destruct pts; simpl; [congruence | lia]).
  split; [intros ->; reflexivity |]. split; [| split].
  - intros N Hx. apply (find_index_below fst pts (0, 0)); auto.
  - intros N Hx. apply (find_index_above fst pts (0, 0)); auto.
  - intros N Hx. destruct (cell_exists fst pts (0, 0) Hs x) as [E | (i & Hi & Ci)]; auto.
    + exists 0%nat. split; [apply (find_index_first fst pts (0, 0)); auto | auto].
    + exists i. split; [apply (find_index_in fst pts (0, 0)); auto | auto].
Qed.
Print Assumptions C23_lookup.

Example C23_case : sorted [(1, 5); (2, 6); (2, 7); (4, 8)].
Proof.
  intros i j H. unfold gx. simpl in H.
  destruct i as [| [| [| [| i]]]], j as [| [| [| [| j]]]]; simpl; try lra; lia.
Qed.

(** ** C24 *)

(** The chord through points [i] and [i+1]. *)
Definition chord (pts : list (R * R)) (i : nat) (x : R) : R :=
  gy pts i + (gy pts (i + 1) - gy pts i) / (gx pts (i + 1) - gx pts i) * (x - gx pts i).

Lemma linear_eval pts x i : (i + 1 < length pts)%nat ->
  find_index (V := RV) p_x (map pt pts) x = Ret (Ok i) ->
  fit_eval (Linear RV) pts x = Ret (Ok (chord pts i x)).
Proof.
  intros Hi E. unfold fit_eval. simpl. unfold linear_try_value.
  change (fun xy : R * R => mkPoint (fst xy) (snd xy)) with pt.
  rewrite E. simpl bind. unfold try_res.
  rewrite (index_some (map pt pts) i (mkPoint 0 0)) by (rewrite map_length; lia).
  simpl bind. rewrite (index_some (map pt pts) (i + 1) (mkPoint 0 0)) by (rewrite map_length; lia).
  simpl bind. rewrite !nth_pt. reflexivity.
Qed.

Lemma sorted_pt pts : sorted pts -> forall i j, (i <= j < length (map pt pts))%nat ->
  p_x (nth i (map pt pts) (mkPoint 0 0)) <= p_x (nth j (map pt pts) (mkPoint 0 0)).
Proof. intros Hs i j H. rewrite map_length in H. rewrite !nth_pt. simpl. now apply Hs. Qed.

Lemma linear_cell pts x i : sorted pts -> (i + 1 < length pts)%nat -> gx pts i < x <= gx pts (i + 1) ->
  fit_eval (Linear RV) pts x = Ret (Ok (chord pts i x)).
Proof.
  intros Hs Hi Hx. apply linear_eval; [exact Hi |].
  apply (find_index_in p_x (map pt pts) (mkPoint 0 0)); [now apply sorted_pt | now rewrite map_length |].
  rewrite !nth_pt. exact Hx.
Qed.

Lemma linear_first pts : sorted pts -> (2 <= length pts)%nat ->
  fit_eval (Linear RV) pts (gx pts 0) = Ret (Ok (chord pts 0 (gx pts 0))).
Proof.
  intros Hs Hl. apply linear_eval; [lia |].
  apply (find_index_first p_x (map pt pts) (mkPoint 0 0)); [now apply sorted_pt | rewrite map_length; lia |].
  rewrite nth_pt. reflexivity.
Qed.

Lemma chord_left pts i : chord pts i (gx pts i) = gy pts i.
Proof. unfold chord. ring. Qed.

Lemma chord_right pts i : gx pts i < gx pts (i + 1) -> chord pts i (gx pts (i + 1)) = gy pts (i + 1).
Proof. intros H. unfold chord. field. lra. Qed.

(** The value on a closed cell is the chord. *)
Lemma linear_closed pts x i : increasing pts -> (i + 1 < length pts)%nat ->
  gx pts i <= x <= gx pts (i + 1) -> fit_eval (Linear RV) pts x = Ret (Ok (chord pts i x)).
Proof.
  intros H Hi [H1 H2]. pose proof (increasing_sorted _ H) as Hs.
  destruct (Rle_lt_or_eq_dec _ _ H1) as [L | <-]; [now apply linear_cell |].
  destruct i as [| i]; [apply linear_first; [exact Hs | lia] |].
  rewrite (linear_cell pts (gx pts (S i)) i); [| exact Hs | lia |].
  - do 2 f_equal. rewrite chord_left. replace (S i) with (i + 1)%nat by lia. apply chord_right. apply H. lia.
  - replace (i + 1)%nat with (S i) by lia. split; [apply H; lia | lra].
Qed.

Theorem C24_knots : forall pts i, increasing pts -> (2 <= length pts)%nat -> (i < length pts)%nat ->
  fit_eval (Linear RV) pts (gx pts i) = Ret (Ok (gy pts i)).
Proof.
  intros pts i H Hl Hi. destruct i as [| i].
  - rewrite (linear_closed pts _ 0%nat); [now rewrite chord_left | exact H | lia |].
    split; [lra | left; apply H; lia].
  - replace (S i) with (i + 1)%nat by lia.
    rewrite (linear_closed pts _ i); [rewrite chord_right; [reflexivity | apply H; lia] | exact H | lia |].
    split; [left; apply H; lia | lra].
Qed.
Print Assumptions C24_knots.

Theorem C24_bracket : forall pts i x, increasing pts -> (i + 1 < length pts)%nat ->
  gx pts i <= x <= gx pts (i + 1) ->
  exists v, fit_eval (Linear RV) pts x = Ret (Ok v)
    /\ Rmin (gy pts i) (gy pts (i + 1)) <= v <= Rmax (gy pts i) (gy pts (i + 1))
    /\ (v - gy pts i) * (gx pts (i + 1) - gx pts i) = (gy pts (i + 1) - gy pts i) * (x - gx pts i).
Proof.
  intros pts i x H Hi Hx. exists (chord pts i x). split; [now apply linear_closed |].
  assert (gx pts i < gx pts (i + 1)) as L by (apply H; lia).
  split; [| unfold chord; field; lra].
  set (t := (x - gx pts i) / (gx pts (i + 1) - gx pts i)).
  assert (0 <= t <= 1) as Ht.
  { unfold t. split.
    - apply Rmult_le_pos; [lra | left; apply Rinv_0_lt_compat; lra].
    - apply Rmult_le_reg_r with (gx pts (i + 1) - gx pts i); [lra |].
      unfold Rdiv. rewrite Rmult_assoc, Rinv_l by lra. lra. }
  assert (chord pts i x = (1 - t) * gy pts i + t * gy pts (i + 1)) as -> by (unfold chord, t; field; lra).
  unfold Rmin, Rmax. destruct (Rle_dec (gy pts i) (gy pts (i + 1))); nra.
Qed.
Print Assumptions C24_bracket.

Theorem C24_errors : forall pts x, sorted pts -> pts <> [] ->
  (x < gx pts 0 -> fit_eval (Linear RV) pts x = Ret (Err (OutOfLowerBound x)))
  /\ (gx pts (last_of pts) < x -> fit_eval (Linear RV) pts x = Ret (Err (OutOfUpperBound x))).
Proof.
  intros pts x Hs N. assert (0 < length pts)%nat by (destruct pts; simpl; [congruence | lia]).
  unfold fit_eval. simpl. unfold linear_try_value.
  change (fun xy : R * R => mkPoint (fst xy) (snd xy)) with pt. split; intros Hx.
  - rewrite (find_index_below p_x (map pt pts) (mkPoint 0 0)); [reflexivity | now apply sorted_pt | now rewrite map_length |].
    rewrite nth_pt. exact Hx.
  - rewrite (find_index_above p_x (map pt pts) (mkPoint 0 0)); [reflexivity | now apply sorted_pt | now rewrite map_length |].
    rewrite nth_pt, map_length. exact Hx.
Qed.
Print Assumptions C24_errors.

(** On the whole range there is a value, and it depends continuously on [x]. *)
Theorem C24_continuous : forall pts, increasing pts -> (2 <= length pts)%nat ->
  exists F : R -> R,
    (forall x, gx pts 0 <= x <= gx pts (last_of pts) -> fit_eval (Linear RV) pts x = Ret (Ok (F x)))
    /\ (forall x, gx pts 0 <= x <= gx pts (last_of pts) ->
          cont_within (gx pts 0) (gx pts (last_of pts)) F x).
Proof.
  intros pts H Hl. set (F := pw (gx pts) (chord pts) (length pts - 2)). exists F.
  assert (forall i x, (i + 1 < length pts)%nat -> gx pts i <= x <= gx pts (i + 1) -> F x = chord pts i x) as HF.
  { apply pw_closed; [exact Hl | exact H |]. intros i Hi. rewrite chord_left. apply chord_right. apply H. lia. }
  split.
  - intros x Hx. destruct (Rle_lt_or_eq_dec _ _ (proj1 Hx)) as [L | <-].
    + destruct (cell_left (gx pts) (length pts) Hl H x) as (i & Hi & Ci); [unfold last_of in Hx; lra |].
      rewrite (HF i x Hi) by lra. apply linear_closed; [exact H | exact Hi | lra].
    + assert (gx pts 0 <= gx pts 0 <= gx pts (0 + 1)) as C.
      { split; [lra | left; apply H; simpl; lia]. }
      rewrite (HF 0%nat) by (lia || exact C). apply linear_closed; [exact H | lia | exact C].
  - apply (pieces_cont (gx pts) (chord pts) (length pts) Hl H F HF).
    intros i Hi x. apply (derivable_continuous_pt (chord pts i)).
    exists ((gy pts (i + 1) - gy pts i) / (gx pts (i + 1) - gx pts i)).
    apply (derive_as_cubic _ 0 0 ((gy pts (i + 1) - gy pts i) / (gx pts (i + 1) - gx pts i)) (gy pts i) (gx pts i)).
    + intros y. unfold chord. ring.
    + ring.
Qed.
Print Assumptions C24_continuous.

Theorem C24_lines : forall pts a b x, increasing pts -> (2 <= length pts)%nat -> on_line a b pts ->
  gx pts 0 <= x <= gx pts (last_of pts) ->
  fit_eval (Linear RV) pts x = Ret (Ok (a * x + b)).
Proof.
  intros pts a b x H Hl On Hx.
  assert (exists i, (i + 1 < length pts)%nat /\ gx pts i <= x <= gx pts (i + 1)) as (i & Hi & Ci).
  { destruct (Rle_lt_or_eq_dec _ _ (proj1 Hx)) as [L | <-].
    - destruct (cell_left (gx pts) (length pts) Hl H x) as (i & Hi & Ci); [unfold last_of in Hx; lra |].
      exists i. split; [exact Hi | lra].
    - exists 0%nat. split; [lia |]. split; [lra | left; apply H; lia]. }
  rewrite (linear_closed pts x i H Hi Ci). do 2 f_equal. unfold chord. rewrite !On by lia.
  assert (gx pts i < gx pts (i + 1)) by (apply H; lia). field. lra.
Qed.
Print Assumptions C24_lines.

Example C24_case : increasing [(1, 5); (2, 7); (4, 11)] /\ on_line 2 3 [(1, 5); (2, 7); (4, 11)].
Proof.
  split.
  - intros i j H. unfold gx. simpl in H.
    destruct i as [| [| [| i]]], j as [| [| [| j]]]; simpl; try lra; lia.
  - intros i H. unfold gx, gy. simpl in H. destruct i as [| [| [| i]]]; simpl; try lra; lia.
Qed.

(** ** C25 *)

(** For any Value type whatsoever (so also for floats with NaN) and any points in any order. *)
Theorem C25_panics_iff : forall (V : Value) (pts : list (V * V)) x,
  (exists r, fit_eval (Linear V) pts x = Ret r)
  \/ (fit_eval (Linear V) pts x = Panic /\ exists x0 y0, pts = [(x0, y0)]).
Proof.
  intros V pts x. unfold fit_eval. simpl. unfold linear_try_value.
  set (l := map _ pts).
  destruct (find_index_total p_x l x) as (r & E & B & _). rewrite E. simpl bind.
  destruct r as [i | e]; [| left; simpl; eauto]. simpl.
  destruct (B i eq_refl) as [Hi [-> | Hi1]].
  - destruct l as [| p [| q t]] eqn:El; [simpl in Hi; lia | | left; unfold index; simpl; eauto].
    right. split; [reflexivity |]. unfold l in El. destruct pts as [| [x0 y0] [| ? ?]]; try discriminate. eauto.
  - left. destruct l as [| d0 t] eqn:El; [simpl in Hi; lia |]. rewrite <- El in *.
    rewrite (index_some l i d0) by lia. simpl bind.
    rewrite (index_some l (i + 1) d0) by lia. simpl bind. eauto.
Qed.
Print Assumptions C25_panics_iff.

Theorem C25_one_point : forall x0 y0 x : R,
  fit_eval (Linear RV) [(x0, y0)] x = Panic <-> x = x0.
Proof.
  intros x0 y0 x.
  assert (sorted [(x0, y0)]) as Hs.
  { intros i j H. simpl in H. replace i with 0%nat by lia. replace j with 0%nat by lia. lra. }
  destruct (C24_errors _ x Hs ltac:(discriminate)) as [E1 E2]. unfold last_of, gx in *. simpl in E1, E2.
  split.
  - intros P. destruct (Rtotal_order x x0) as [C | [C | C]]; [| exact C |].
    + rewrite E1 in P by exact C. discriminate.
    + rewrite E2 in P by exact C. discriminate.
  - intros ->. unfold fit_eval. simpl. unfold linear_try_value.
    rewrite (find_index_first p_x [mkPoint x0 y0] (mkPoint 0 0)).
    + reflexivity.
    + intros i j H. simpl in H. replace i with 0%nat by lia. replace j with 0%nat by lia. lra.
    + simpl. lia.
    + reflexivity.
Qed.
Print Assumptions C25_one_point.

Theorem C25_never_panics_refuted : exists pts x, fit_eval (Linear RV) pts x = Panic.
Proof. exists [(1, 2)], 1. now apply C25_one_point. Qed.
Print Assumptions C25_never_panics_refuted.

(** ** C26 *)

(** Beyond the last point the answer is an error, for every grid, instead of the documented last y. *)
Theorem C26_flat_right_refuted : exists pts x,
  increasing pts /\ (2 <= length pts)%nat /\ gx pts (last_of pts) <= x /\
  fit_eval (Linear RV) pts x <> Ret (Ok (gy pts (last_of pts))).
Proof.
  exists [(1, 5); (2, 7); (4, 11)], 5. split; [apply C24_case |]. split; [simpl; lia |].
  split; [unfold gx, last_of; simpl; lra |].
  rewrite (proj2 (C24_errors [(1, 5); (2, 7); (4, 11)] 5 (increasing_sorted _ (proj1 C24_case)) ltac:(discriminate))).
  - discriminate.
  - unfold gx, last_of; simpl; lra.
Qed.
Print Assumptions C26_flat_right_refuted.

(** The documented value is returned at the last point itself and nowhere beyond. *)
Theorem C26_flat_right_partial : forall pts x, increasing pts -> (2 <= length pts)%nat ->
  gx pts (last_of pts) <= x ->
  (fit_eval (Linear RV) pts x = Ret (Ok (gy pts (last_of pts))) <-> x = gx pts (last_of pts)).
Proof.
  intros pts x H Hl Hx. split.
  - intros E. destruct (Rle_lt_or_eq_dec _ _ Hx) as [L | <-]; [| reflexivity].
    rewrite (proj2 (C24_errors pts x (increasing_sorted _ H) ltac:(intros ->; simpl in Hl; lia)) L) in E. discriminate.
  - intros ->. apply C24_knots; [exact H | exact Hl | unfold last_of; lia].
Qed.
Print Assumptions C26_flat_right_partial.

(** One point; two points, at the last of them and beyond. *)
Example C25_case : fit_eval (Linear RV) [(1, 5)] 1 = Panic /\ fit_eval (Linear RV) [(1, 5)] 2 <> Panic.
Proof. split; [now apply C25_one_point |]. intros C. apply C25_one_point in C. lra. Qed.

Example C26_case : increasing [(1, 5); (2, 7); (4, 11)] /\ gx [(1, 5); (2, 7); (4, 11)] (last_of [(1, 5); (2, 7); (4, 11)]) <= 4
  /\ fit_eval (Linear RV) [(1, 5); (2, 7); (4, 11)] 4 = Ret (Ok 11) /\ fit_eval (Linear RV) [(1, 5); (2, 7); (4, 11)] 9 <> Ret (Ok 11).
Proof.
  assert (increasing [(1, 5); (2, 7); (4, 11)]) as H.
  { intros i j H. unfold gx. simpl in H. destruct i as [| [| [| i]]], j as [| [| [| j]]]; simpl; try lra; lia. }
  assert (forall x, 4 <= x -> (fit_eval (Linear RV) [(1, 5); (2, 7); (4, 11)] x = Ret (Ok 11) <-> x = 4)) as K.
  { intros x Hx. apply (C26_flat_right_partial _ x H); [simpl; lia | exact Hx]. }
  split; [exact H |]. split; [unfold gx; simpl; lra |]. split; [apply K; lra |]. intros C. apply K in C; lra.
Qed.
