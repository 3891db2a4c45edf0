(** Properties C30 - C33: the Catmull-Rom spline. *)
From Coq Require Import ZArith Reals List Arith Bool Lia Lra.
From Verif Require Import Base Value RealValue InterpModel InterpFacts Grid Piecewise PropsLinear.
Import ListNotations.
Open Scope R_scope.

(** Cell width, and the spacing ratios the code computes in cell [i]. *)
Definition ch (pts : list (R * R)) (i : nat) : R := gx pts (i + 1) - gx pts i.
Definition calpha (pts : list (R * R)) (i : nat) : R :=
  ch pts i / (ch pts i + (gx pts (i + 1) - gx pts (i - 1))).
Definition cbeta (pts : list (R * R)) (i : nat) : R :=
  ch pts i / (ch pts i + (gx pts (i + 2) - gx pts (i + 1))).

(** Coefficients of the code's cubic in cell [i], in powers of (x - x_i)/h. *)
Definition k3 (pts : list (R * R)) (i : nat) : R :=
  if (i =? 0)%nat then (1 - cbeta pts i) * gy pts i - gy pts (i + 1) + cbeta pts i * gy pts (i + 2)
  else if (i + 2 =? length pts)%nat then
    - calpha pts i * gy pts (i - 1) + gy pts i - calpha pts i * gy pts (i + 1)
  else - calpha pts i * gy pts (i - 1) + (2 - cbeta pts i) * gy pts i + (-2 + calpha pts i) * gy pts (i + 1)
       + cbeta pts i * gy pts (i + 2).
Definition k2 (pts : list (R * R)) (i : nat) : R :=
  if (i =? 0)%nat then (-1 + cbeta pts i) * gy pts i + gy pts (i + 1) - cbeta pts i * gy pts (i + 2)
  else if (i + 2 =? length pts)%nat then
    2 * calpha pts i * gy pts (i - 1) - 2 * gy pts i + (2 - 2 * calpha pts i) * gy pts (i + 1)
  else 2 * calpha pts i * gy pts (i - 1) + (cbeta pts i - 3) * gy pts i
       + (3 - 2 * calpha pts i) * gy pts (i + 1) - cbeta pts i * gy pts (i + 2).
Definition k1 (pts : list (R * R)) (i : nat) : R :=
  if (i =? 0)%nat then gy pts (i + 1) - gy pts i
  else calpha pts i * (gy pts (i + 1) - gy pts (i - 1)).

(** The cubic of cell [i] in powers of [x - x_i]. *)
Definition cpiece (pts : list (R * R)) (i : nat) (x : R) : R :=
  k3 pts i / ch pts i ^ 3 * (x - gx pts i) ^ 3 + k2 pts i / ch pts i ^ 2 * (x - gx pts i) ^ 2
  + k1 pts i / ch pts i * (x - gx pts i) + gy pts i.
Definition cpiece' (pts : list (R * R)) (i : nat) (x : R) : R :=
  3 * (k3 pts i / ch pts i ^ 3) * (x - gx pts i) ^ 2 + 2 * (k2 pts i / ch pts i ^ 2) * (x - gx pts i)
  + k1 pts i / ch pts i.

Lemma cr_fit (pts : list (R * R)) : sorted pts -> (3 <= length pts)%nat ->
  i_try_fit (CatmullRom RV) (i_default (CatmullRom RV)) pts = Ret (Ok (map pt pts)).
Proof.
  intros Hs Hl. simpl. unfold catmull_rom_try_fit. change (carrier RV) with R.
  destruct (Nat.ltb_spec (length pts) 3); [lia |].
  rewrite (index_some pts 0 (0, 0)) by lia. simpl bind.
  change (fun xy : R * R => mkPoint (fst xy) (snd xy)) with pt. fold (gx pts 0).
  destruct (check_order_spec (V := RV) (@p_x R) (map pt pts) (gx pts 0)) as [(E & _) | (E & [O | (q & Hq & Lq)])].
  - change (carrier RV) with R in E. rewrite E. reflexivity.
  - exfalso. apply O. apply (in_order_real p_x (map pt pts) (mkPoint 0 0)). now apply sorted_pt.
  - exfalso. destruct pts as [| p t]; [simpl in Hl; lia |]. simpl in Hq. injection Hq as <-.
    apply Rltb_true in Lq. unfold gx in Lq. simpl in Lq. lra.
Qed.

Lemma cr_at pts i x : increasing pts -> (3 <= length pts)%nat -> (i + 1 < length pts)%nat ->
  find_index (V := RV) p_x (map pt pts) x = Ret (Ok i) ->
  fit_eval (CatmullRom RV) pts x = Ret (Ok (cpiece pts i x)).
Proof.
  intros H Hl Hi E. unfold fit_eval. rewrite cr_fit; [| now apply increasing_sorted | exact Hl].
  simpl bind. unfold try_res. simpl i_try_value. unfold catmull_rom_try_value. change (carrier RV) with R.
  change (carrier RV) with R in E. rewrite E. simpl bind. unfold try_res.
  rewrite (index_some (map pt pts) i (mkPoint 0 0)) by (rewrite map_length; lia). simpl bind.
  rewrite (index_some (map pt pts) (i + 1) (mkPoint 0 0)) by (rewrite map_length; lia). simpl bind.
  rewrite !nth_pt. cbn [p_x p_y]. rewrite map_length.
  assert (gx pts i < gx pts (i + 1)) as L by (apply H; lia).
  unfold cpiece, k3, k2, k1, calpha, cbeta, ch.
  destruct (Nat.eqb_spec i 0) as [-> | N0].
  - rewrite (index_some (map pt pts) (0 + 2) (mkPoint 0 0)) by (rewrite map_length; lia). simpl bind.
    rewrite nth_pt. cbn [p_x p_y]. assert (gx pts (0 + 1) < gx pts (0 + 2)) by (apply H; lia).
    ret_eq. simpl. field. simpl in *. lra.
  - assert (gx pts (i - 1) < gx pts i) as L0 by (apply H; lia).
    destruct (Nat.eqb_spec (i + 2) (length pts)) as [E2 | N2].
    + rewrite (index_some (map pt pts) (i - 1) (mkPoint 0 0)) by (rewrite map_length; lia). simpl bind.
      rewrite nth_pt. cbn [p_x p_y]. ret_eq. simpl. field. lra.
    + rewrite (index_some (map pt pts) (i - 1) (mkPoint 0 0)) by (rewrite map_length; lia). simpl bind.
      rewrite (index_some (map pt pts) (i + 2) (mkPoint 0 0)) by (rewrite map_length; lia). simpl bind.
      rewrite !nth_pt. cbn [p_x p_y]. assert (gx pts (i + 1) < gx pts (i + 2)) by (apply H; lia).
      ret_eq. simpl. field. lra.
Qed.

Lemma cpiece_left pts i : cpiece pts i (gx pts i) = gy pts i /\ cpiece' pts i (gx pts i) = k1 pts i / ch pts i.
Proof. unfold cpiece, cpiece'. rewrite Rminus_diag_eq by reflexivity. split; ring. Qed.

(** In all cells but the last the right end is hit, with the proper Catmull-Rom tangent. *)
Lemma cpiece_right pts i : increasing pts -> (i + 2 < length pts)%nat ->
  cpiece pts i (gx pts (i + 1)) = gy pts (i + 1)
  /\ cpiece' pts i (gx pts (i + 1)) = (gy pts (i + 2) - gy pts i) / (gx pts (i + 2) - gx pts i).
Proof.
  intros H Hi. assert (gx pts i < gx pts (i + 1)) by (apply H; lia).
  assert (gx pts (i + 1) < gx pts (i + 2)) by (apply H; lia).
  unfold cpiece, cpiece', k3, k2, k1.
  replace (gx pts (i + 1) - gx pts i) with (ch pts i) by reflexivity.
  assert (ch pts i <> 0) as Nz by (unfold ch; lra).
  destruct (Nat.eqb_spec i 0) as [-> | N0].
  - split; [field; exact Nz |]. unfold cbeta, ch in *. field. simpl in *. lra.
  - destruct (Nat.eqb_spec (i + 2) (length pts)) as [E2 | N2]; [lia |].
    split; [field; exact Nz |]. unfold cbeta.
    replace (gx pts (i + 2) - gx pts i) with (ch pts i + (gx pts (i + 2) - gx pts (i + 1))) by (unfold ch; ring).
    field. split; [unfold ch; lra | exact Nz].
Qed.

Lemma cr_open pts i x : increasing pts -> (3 <= length pts)%nat -> (i + 1 < length pts)%nat ->
  gx pts i < x <= gx pts (i + 1) -> fit_eval (CatmullRom RV) pts x = Ret (Ok (cpiece pts i x)).
Proof.
  intros H Hl Hi Hx. apply cr_at; [exact H | exact Hl | exact Hi |].
  apply (find_index_in p_x (map pt pts) (mkPoint 0 0));
    [now apply sorted_pt, increasing_sorted | now rewrite map_length |].
  rewrite !nth_pt. exact Hx.
Qed.

Lemma cr_closed pts i x : increasing pts -> (3 <= length pts)%nat -> (i + 1 < length pts)%nat ->
  gx pts i <= x <= gx pts (i + 1) -> fit_eval (CatmullRom RV) pts x = Ret (Ok (cpiece pts i x)).
Proof.
  intros H Hl Hi [H1 H2].
  destruct (Rle_lt_or_eq_dec _ _ H1) as [L | <-]; [now apply cr_open |].
  destruct i as [| i].
  - apply cr_at; [exact H | exact Hl | exact Hi |].
    apply (find_index_first p_x (map pt pts) (mkPoint 0 0));
      [now apply sorted_pt, increasing_sorted | rewrite map_length; lia |].
    rewrite nth_pt. reflexivity.
  - rewrite (cr_open pts i); [| exact H | exact Hl | lia |].
    + ret_eq. rewrite (proj1 (cpiece_left pts (S i))).
      replace (S i) with (i + 1)%nat by lia. apply cpiece_right; [exact H | lia].
    + replace (i + 1)%nat with (S i) by lia. split; [apply H; lia | lra].
Qed.

Lemma g_cell pts x : increasing pts -> (2 <= length pts)%nat -> gx pts 0 <= x <= gx pts (last_of pts) ->
  exists i, (i + 1 < length pts)%nat /\ gx pts i <= x <= gx pts (i + 1).
Proof.
  intros H Hl Hx. destruct (Rle_lt_or_eq_dec _ _ (proj1 Hx)) as [L | <-].
  - destruct (cell_left (gx pts) (length pts) Hl H x) as (i & Hi & Ci); [unfold last_of in Hx; lra |].
    exists i. split; [exact Hi | lra].
  - exists 0%nat. split; [lia |]. split; [lra | left; apply H; lia].
Qed.

(** ** C30 *)

(** All knots but the last are hit. *)
Theorem C30_knots_partial : forall pts i, increasing pts -> (3 <= length pts)%nat -> (i < last_of pts)%nat ->
  fit_eval (CatmullRom RV) pts (gx pts i) = Ret (Ok (gy pts i)).
Proof.
  intros pts i H Hl Hi. unfold last_of in Hi.
  rewrite (cr_closed pts i); [| exact H | exact Hl | lia |].
  - now rewrite (proj1 (cpiece_left pts i)).
  - split; [lra | left; apply H; lia].
Qed.
Print Assumptions C30_knots_partial.

(** At the last knot the value is [(2 - 2a) * y] with [a < 1/2], so it is right only for [y = 0]. *)
Theorem C30_last_knot : forall pts, increasing pts -> (3 <= length pts)%nat ->
  let n := last_of pts in
  let a := (gx pts n - gx pts (n - 1)) / ((gx pts n - gx pts (n - 1)) + (gx pts n - gx pts (n - 2))) in
  fit_eval (CatmullRom RV) pts (gx pts n) = Ret (Ok ((2 - 2 * a) * gy pts n))
  /\ 0 < a < 1 / 2
  /\ (fit_eval (CatmullRom RV) pts (gx pts n) = Ret (Ok (gy pts n)) <-> gy pts n = 0).
Proof.
  intros pts H Hl n a. unfold last_of in n.
  assert (gx pts (n - 2) < gx pts (n - 1)) as L1 by (apply H; lia).
  assert (gx pts (n - 1) < gx pts n) as L2 by (apply H; lia).
  assert (fit_eval (CatmullRom RV) pts (gx pts n) = Ret (Ok ((2 - 2 * a) * gy pts n))) as E.
  { rewrite (cr_closed pts (n - 1)); [| exact H | exact Hl | lia |].
    2:{ replace (n - 1 + 1)%nat with n by lia. lra. }
    ret_eq. unfold cpiece, k3, k2, k1.
    destruct (Nat.eqb_spec (n - 1) 0) as [C | _]; [lia |].
    destruct (Nat.eqb_spec (n - 1 + 2) (length pts)) as [_ | C]; [| lia].
    unfold calpha, ch, a. replace (n - 1 + 1)%nat with n by lia. replace (n - 1 - 1)%nat with (n - 2)%nat by lia.
    field. lra. }
  assert (0 < a < 1 / 2) as Ha.
  { unfold a. split.
    - apply Rdiv_lt_0_compat; lra.
    - apply Rmult_lt_reg_r with ((gx pts n - gx pts (n - 1)) + (gx pts n - gx pts (n - 2))); [lra |].
      unfold Rdiv. rewrite Rmult_assoc, Rinv_l by lra. lra. }
  split; [exact E |]. split; [exact Ha |]. rewrite E. split.
  - intros [= Q]. assert ((1 - 2 * a) * gy pts n = 0) as Z by lra.
    apply Rmult_integral in Z. destruct Z; lra.
  - intros Z. rewrite Z. ret_eq. ring.
Qed.
Print Assumptions C30_last_knot.

Theorem C30_last_knot_refuted : exists pts, increasing pts /\ (3 <= length pts)%nat /\
  fit_eval (CatmullRom RV) pts (gx pts (last_of pts)) <> Ret (Ok (gy pts (last_of pts))).
Proof.
  exists [(1, 5); (2, 7); (4, 11)]. split; [apply C24_case |]. split; [simpl; lia |].
  intros E. apply C30_last_knot in E; [| apply C24_case | simpl; lia]. unfold gy, last_of in E. simpl in E. lra.
Qed.
Print Assumptions C30_last_knot_refuted.

(** ** C31 *)

(** Lines are reproduced in the first cell. *)
Theorem C31_first_cell_partial : forall pts a b x, increasing pts -> (3 <= length pts)%nat -> on_line a b pts ->
  gx pts 0 <= x <= gx pts 1 -> fit_eval (CatmullRom RV) pts x = Ret (Ok (a * x + b)).
Proof.
  intros pts a b x H Hl On Hx. rewrite (cr_closed pts 0 x H Hl); [| lia | exact Hx]. ret_eq.
  assert (gx pts 0 < gx pts 1) by (apply H; lia). assert (gx pts 1 < gx pts 2) by (apply H; lia).
  unfold cpiece, k3, k2, k1, cbeta, ch. simpl. rewrite !On by lia. field. lra.
Qed.
Print Assumptions C31_first_cell_partial.

(** In an inner cell the value is off by [a * alpha * h * d * (1-d)^2], where [d] is the relative position
    and [alpha = h / (h + (x_{i+1} - x_{i-1}))]: never right inside the cell unless the line is flat. *)
Theorem C31_inner_cell_deviation : forall pts a b i x, increasing pts -> on_line a b pts ->
  (0 < i)%nat -> (i + 2 < length pts)%nat -> gx pts i <= x <= gx pts (i + 1) ->
  let h := gx pts (i + 1) - gx pts i in
  let d := (x - gx pts i) / h in
  fit_eval (CatmullRom RV) pts x
  = Ret (Ok (a * x + b - a * (h / (h + (gx pts (i + 1) - gx pts (i - 1)))) * h * d * (1 - d) ^ 2)).
Proof.
  intros pts a b i x H On H0 Hi Hx h d. rewrite (cr_closed pts i x H); [| lia | lia | exact Hx]. ret_eq.
  assert (gx pts (i - 1) < gx pts i) by (apply H; lia). assert (gx pts i < gx pts (i + 1)) by (apply H; lia).
  assert (gx pts (i + 1) < gx pts (i + 2)) by (apply H; lia).
  unfold cpiece, k3, k2, k1. destruct (Nat.eqb_spec i 0) as [C | _]; [lia |].
  destruct (Nat.eqb_spec (i + 2) (length pts)) as [C | _]; [lia |].
  unfold cbeta, calpha, ch, d, h. rewrite !On by lia. field. lra.
Qed.
Print Assumptions C31_inner_cell_deviation.

(** In the last cell a further [(1 - 2 alpha) * y_last * d^3] is added. *)
Theorem C31_last_cell_deviation : forall pts a b x, increasing pts -> (3 <= length pts)%nat -> on_line a b pts ->
  let n := last_of pts in
  gx pts (n - 1) <= x <= gx pts n ->
  let h := gx pts n - gx pts (n - 1) in
  let d := (x - gx pts (n - 1)) / h in
  let alpha := h / (h + (gx pts n - gx pts (n - 2))) in
  fit_eval (CatmullRom RV) pts x
  = Ret (Ok (a * x + b - a * alpha * h * d * (1 - d) ^ 2 + (1 - 2 * alpha) * gy pts n * d ^ 3)).
Proof.
  intros pts a b x H Hl On n Hx h d alpha. unfold last_of in n.
  assert (gx pts (n - 2) < gx pts (n - 1)) as L1 by (apply H; lia).
  assert (gx pts (n - 1) < gx pts n) as L2 by (apply H; lia).
  rewrite (cr_closed pts (n - 1) x H Hl); [| lia | replace (n - 1 + 1)%nat with n by lia; exact Hx].
  ret_eq. unfold cpiece, k3, k2, k1.
  destruct (Nat.eqb_spec (n - 1) 0) as [C | _]; [lia |].
  destruct (Nat.eqb_spec (n - 1 + 2) (length pts)) as [_ | C]; [| lia].
  unfold calpha, ch, d, alpha, h.
  replace (n - 1 + 1)%nat with n by lia. replace (n - 1 - 1)%nat with (n - 2)%nat by lia.
  rewrite !On by lia. field. lra.
Qed.
Print Assumptions C31_last_cell_deviation.

(** Even on an evenly spaced line through the origin, in an inner cell. *)
Theorem C31_lines_refuted : exists pts a b x, increasing pts /\ (3 <= length pts)%nat /\ on_line a b pts
  /\ gx pts 0 <= x <= gx pts (last_of pts)
  /\ fit_eval (CatmullRom RV) pts x <> Ret (Ok (a * x + b)).
Proof.
  exists [(0, 0); (1, 1); (2, 2); (3, 3)], 1, 0, (3 / 2).
  assert (increasing [(0, 0); (1, 1); (2, 2); (3, 3)]) as H.
  { intros i j H. unfold gx. simpl in H.
    destruct i as [| [| [| [| i]]]], j as [| [| [| [| j]]]]; simpl; try lra; lia. }
  assert (on_line 1 0 [(0, 0); (1, 1); (2, 2); (3, 3)]) as On.
  { intros i Hi. unfold gx, gy. simpl in Hi. destruct i as [| [| [| [| i]]]]; simpl; try lra; lia. }
  split; [exact H |]. split; [simpl; lia |]. split; [exact On |].
  split; [unfold gx, last_of; simpl; lra |].
  rewrite (C31_inner_cell_deviation _ 1 0 1 (3 / 2) H On); [| lia | simpl; lia | unfold gx; simpl; lra].
  unfold gx. simpl. intros [= Q]. lra.
Qed.
Print Assumptions C31_lines_refuted.

(** ** C32 *)

(** The spline is continuous on the whole range.  At every inner knot the left derivative is the Catmull-Rom
    tangent, the right derivative uses a longer spacing, and the spline is differentiable there exactly
    when the two neighbouring ordinates agree. *)
Theorem C32_knot_slopes : forall pts, increasing pts -> (3 <= length pts)%nat ->
  exists F : R -> R,
    (forall x, gx pts 0 <= x <= gx pts (last_of pts) ->
       fit_eval (CatmullRom RV) pts x = Ret (Ok (F x))
       /\ cont_within (gx pts 0) (gx pts (last_of pts)) F x)
    /\ (forall i, (0 < i < last_of pts)%nat ->
         let dy := gy pts (i + 1) - gy pts (i - 1) in
         let dx := gx pts (i + 1) - gx pts (i - 1) in
         deriv_within (gx pts 0) (gx pts i) F (gx pts i) (dy / dx)
         /\ deriv_within (gx pts i) (gx pts (last_of pts)) F (gx pts i)
              (dy / (dx + (gx pts (i + 1) - gx pts i)))
         /\ ((exists l, derivable_pt_lim F (gx pts i) l) <-> dy = 0)).
Proof.
  intros pts H Hl. set (F := pw (gx pts) (cpiece pts) (length pts - 2)). exists F.
  assert (forall i x, (i + 1 < length pts)%nat -> gx pts i <= x <= gx pts (i + 1) -> F x = cpiece pts i x) as HF.
  { apply pw_closed; [lia | exact H |]. intros i Hi. rewrite (proj1 (cpiece_left pts (i + 1))).
    apply cpiece_right; [exact H | lia]. }
  assert (2 <= length pts)%nat as Hl2 by lia.
  assert (forall i x, derivable_pt_lim (cpiece pts i) x (cpiece' pts i x)) as HD by (intros; apply derive_cubic).
  split.
  - intros x Hx. split.
    + destruct (g_cell pts x H Hl2 Hx) as (i & Hi & Ci). rewrite (HF i x Hi Ci). now apply cr_closed.
    + apply (pieces_cont (gx pts) (cpiece pts) (length pts) Hl2 H F HF); [| exact Hx].
      intros i _. apply derive_continuous with (f' := cpiece' pts i). intros y. apply HD.
  - intros i Hi dy dx. unfold last_of in *.
    assert (gx pts (i - 1) < gx pts i) as L1 by (apply H; lia).
    assert (gx pts i < gx pts (i + 1)) as L2 by (apply H; lia).
    assert (forall a, deriv_within a (gx pts i) F (gx pts i) (dy / dx)) as DL.
    { apply (pieces_deriv_left (gx pts) (cpiece pts) (length pts) F HF (i - 1)); [lia | |].
      - replace (i - 1 + 1)%nat with i by lia. lra.
      - replace (dy / dx) with (cpiece' pts (i - 1) (gx pts i)); [apply HD |].
        replace i with (i - 1 + 1)%nat at 2 by lia.
        rewrite (proj2 (cpiece_right pts (i - 1) H ltac:(lia))).
        replace (i - 1 + 2)%nat with (i + 1)%nat by lia. reflexivity. }
    assert (forall b, deriv_within (gx pts i) b F (gx pts i) (dy / (dx + (gx pts (i + 1) - gx pts i)))) as DR.
    { apply (pieces_deriv_right (gx pts) (cpiece pts) (length pts) F HF i); [lia | lra |].
      replace (dy / (dx + (gx pts (i + 1) - gx pts i))) with (cpiece' pts i (gx pts i)); [apply HD |].
      rewrite (proj2 (cpiece_left pts i)). unfold k1.
      destruct (Nat.eqb_spec i 0) as [C | _]; [lia |]. unfold calpha, ch, dy, dx. field. lra. }
    split; [apply DL |]. split; [apply DR |]. split.
    + intros [l Dl].
      assert (l = dy / dx) as E1.
      { apply (deriv_within_unique (gx pts (i - 1)) (gx pts i) F (gx pts i)); [lra | lra | | apply DL].
        now apply deriv_within_lim. }
      assert (l = dy / (dx + (gx pts (i + 1) - gx pts i))) as E2.
      { apply (deriv_within_unique (gx pts i) (gx pts (i + 1)) F (gx pts i)); [lra | lra | | apply DR].
        now apply deriv_within_lim. }
      assert (0 < dx) by (unfold dx; lra).
      assert (dy / dx * (dx * (dx + (gx pts (i + 1) - gx pts i)))
              = dy / (dx + (gx pts (i + 1) - gx pts i)) * (dx * (dx + (gx pts (i + 1) - gx pts i)))) as E3
        by congruence.
      assert (dy * (gx pts (i + 1) - gx pts i) = 0) as Z.
      { field_simplify in E3; [lra | lra | lra]. }
      apply Rmult_integral in Z. destruct Z; lra.
    + intros Z. exists 0. apply (deriv_within_interior (gx pts (i - 1)) (gx pts (i + 1))); [lra |].
      apply deriv_within_glue.
      * replace 0 with (dy / dx) by (rewrite Z; field; unfold dx; lra). apply DL.
      * replace 0 with (dy / (dx + (gx pts (i + 1) - gx pts i))) by (rewrite Z; field; unfold dx; lra). apply DR.
Qed.
Print Assumptions C32_knot_slopes.

(** So the spline of (1,5), (2,7), (4,11) has a kink at 2. *)
Theorem C32_differentiable_refuted : exists pts i F, increasing pts /\ (3 <= length pts)%nat
  /\ (0 < i < last_of pts)%nat
  /\ (forall x, gx pts 0 <= x <= gx pts (last_of pts) -> fit_eval (CatmullRom RV) pts x = Ret (Ok (F x)))
  /\ ~ exists l, derivable_pt_lim F (gx pts i) l.
Proof.
  destruct (C32_knot_slopes [(1, 5); (2, 7); (4, 11)]) as (F & E & D); [apply C24_case | simpl; lia |].
  exists [(1, 5); (2, 7); (4, 11)], 1%nat, F. split; [apply C24_case |]. split; [simpl; lia |].
  split; [unfold last_of; simpl; lia |]. split; [intros x Hx; now apply E |].
  intros Q. destruct (D 1%nat) as (_ & _ & I); [unfold last_of; simpl; lia |].
  apply I in Q. unfold gy in Q. simpl in Q. lra.
Qed.
Print Assumptions C32_differentiable_refuted.

(** ** The hypotheses of C30 to C32 are met *)

Example C30_case : let p := [(1, 5); (2, 7); (4, 11)] in increasing p /\ (3 <= length p)%nat /\ (1 < last_of p)%nat
  /\ fit_eval (CatmullRom RV) p 2 = Ret (Ok 7).
Proof.
  cbv zeta. destruct C24_case as (H & _). split; [exact H |]. split; [simpl; lia |]. split; [unfold last_of; simpl; lia |].
  apply (C30_knots_partial _ 1 H); [simpl; lia | unfold last_of; simpl; lia].
Qed.

(** The line 2x + 3, in the first cell. *)
Example C31_case : on_line 2 3 [(1, 5); (2, 7); (4, 11)] /\ fit_eval (CatmullRom RV) [(1, 5); (2, 7); (4, 11)] (3 / 2) = Ret (Ok (2 * (3 / 2) + 3)).
Proof.
  destruct C24_case as (H & On). split; [exact On |]. apply C31_first_cell_partial; [exact H | simpl; lia | exact On | unfold gx; simpl; lra].
Qed.

(** At a knot with neighbours of the same height there is a derivative. *)
Example C32_case : exists F l, (forall x, 0 <= x <= 3 -> fit_eval (CatmullRom RV) [(0, 1); (1, 4); (3, 1)] x = Ret (Ok (F x)))
  /\ derivable_pt_lim F 1 l.
Proof.
  assert (increasing [(0, 1); (1, 4); (3, 1)]) as H.
  { intros i j H. unfold gx. simpl in H. destruct i as [| [| [| i]]], j as [| [| [| j]]]; simpl; try lra; lia. }
  destruct (C32_knot_slopes _ H ltac:(simpl; lia)) as (F & E & K). exists F.
  destruct (K 1%nat ltac:(unfold last_of; simpl; lia)) as (_ & _ & D). destruct (proj2 D) as (l & Dl); [unfold gy; simpl; lra |].
  exists l. split; [| exact Dl]. intros x Hx. apply E. unfold gx, last_of. simpl. lra.
Qed.

(** ** C33 *)

Definition small_constants (V : Value) : Prop :=
  forall k, (-128 <= k <= 127)%Z -> exists c : V, v_of_int k = Some c.

(** For any Value type: exact conditions for each outcome of the fit. *)
Theorem C33_fit : forall (V : Value) (pts : list (V * V)) self,
  (forall x : V, v_ltb x x = false) ->
  ((length pts < 3)%nat /\ i_try_fit (CatmullRom V) self pts = Ret (Err (InsufficientPointsError (length pts))))
  \/ ((3 <= length pts)%nat /\ ~ in_order fst pts /\ i_try_fit (CatmullRom V) self pts = Ret (Err PointOrderError))
  \/ ((3 <= length pts)%nat /\ in_order fst pts
      /\ i_try_fit (CatmullRom V) self pts = Ret (Ok (map (fun p => mkPoint (fst p) (snd p)) pts))).
Proof.
  intros V pts self Irr. simpl. unfold catmull_rom_try_fit.
  destruct (Nat.ltb_spec (length pts) 3) as [L | L]; [left; auto |]. right.
  destruct pts as [| p0 t] eqn:Ep; [simpl in L; lia |]. rewrite <- Ep in *.
  rewrite (index_some pts 0 p0) by lia. simpl bind.
  set (l := map _ pts).
  assert (in_order p_x l <-> in_order (@fst V V) pts) as Eo.
  { unfold in_order, l. split; intros O i p q Hp Hq.
    - exact (O i _ _ (map_nth_error _ i pts Hp) (map_nth_error _ (S i) pts Hq)).
    - rewrite nth_error_map in Hp, Hq. destruct (nth_error pts i) as [[? ?] |] eqn:A; [| discriminate].
      destruct (nth_error pts (S i)) as [[? ?] |] eqn:B; [| discriminate].
      injection Hp as <-. injection Hq as <-. exact (O i _ _ A B). }
  destruct (check_order_spec p_x l (fst (nth 0 pts p0))) as [(E & O & _) | (E & O)]; rewrite E.
  - right. split; [exact L |]. split; [now apply Eo | reflexivity].
  - left. split; [exact L |]. split; [| reflexivity].
    destruct O as [O | (q & Hq & Lq)]; [now rewrite <- Eo |].
    exfalso. subst pts. simpl in Hq. injection Hq as <-. simpl in Lq. rewrite Irr in Lq. discriminate.
Qed.
Print Assumptions C33_fit.

(** Fitting and evaluating never panic, for any Value type holding the small constants; NaN included. *)
Theorem C33_never_panics : forall (V : Value) (pts : list (V * V)) x,
  small_constants V -> exists r, fit_eval (CatmullRom V) pts x = Ret r.
Proof.
  intros V pts x Cst. unfold fit_eval. simpl. unfold catmull_rom_try_fit.
  destruct (Nat.ltb_spec (length pts) 3) as [L | L]; [simpl; eauto |].
  destruct pts as [| p0 t] eqn:Ep; [simpl in L; lia |]. rewrite <- Ep in *.
  rewrite (index_some pts 0 p0) by lia. simpl bind. set (l := map _ pts).
  assert (length l = length pts) as Hll by apply map_length.
  destruct (check_order_spec p_x l (fst (nth 0 pts p0))) as [(E & O & _) | (E & O)]; rewrite E; [| simpl; eauto].
  simpl. unfold catmull_rom_try_value.
  destruct (find_index_total p_x l x) as (r & Ef & B & _). rewrite Ef. simpl bind.
  destruct r as [i | e]; [| simpl; eauto]. unfold try_res.
  destruct (B i eq_refl) as [Hi Hi1]. assert (i + 1 < length l)%nat as Hi2 by lia.
  set (q0 := mkPoint (fst p0) (snd p0)).
  rewrite (index_some l i q0) by lia. simpl bind. rewrite (index_some l (i + 1) q0) by lia. simpl bind.
  destruct (Cst 2%Z ltac:(lia)) as [c2 E2], (Cst (-2)%Z ltac:(lia)) as [cm2 Em2], (Cst 3%Z ltac:(lia)) as [c3 E3].
  unfold v_const.
  destruct (Nat.eqb_spec i 0) as [-> | N0].
  - rewrite (index_some l (0 + 2) q0) by lia. simpl bind. eauto.
  - destruct (Nat.eqb_spec (i + 2) (length l)) as [Eq2 | N2].
    + rewrite (index_some l (i - 1) q0) by lia. simpl bind. rewrite E2, Em2. simpl bind. eauto.
    + rewrite (index_some l (i - 1) q0) by lia. simpl bind.
      rewrite (index_some l (i + 2) q0) by lia. simpl bind. rewrite E2, Em2, E3. simpl bind. eauto.
Qed.
Print Assumptions C33_never_panics.

Example C33_case : (forall x : RV, v_ltb x x = false) /\ small_constants RV.
Proof. split; [intros x; apply Rltb_false; simpl; lra | intros k _; simpl; eauto]. Qed.
