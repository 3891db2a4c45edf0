(** Properties C78-C79: queries and grids of floating-point numbers, for every binary format (f32 and f64 among
    them), infinities and NaN included. *)
From Coq Require Import ZArith Reals List Bool Arith Lia Lra.
From Flocq Require Import Core BinarySingleNaN.
From Verif Require Import Base Value RealValue FloatValue FloatFacts InterpModel InterpFacts Grid PropsLinear PropsHermite
  PropsCatmullRom NcFacts PropsNaturalCubic.
Import ListNotations.

(** ** The cell is chosen by the abscissas alone, for every Value *)

Lemma pp_loop_map {A B} (f : A -> B) (p : B -> bool) l : forall fuel left right,
  pp_loop fuel p (map f l) left right = pp_loop fuel (fun a => p (f a)) l left right.
Proof.
  induction fuel as [| n IH]; intros left right; simpl; [reflexivity |].
  destruct (left <? right); [| reflexivity]. unfold index. rewrite nth_error_map.
  destruct (nth_error l _) as [a |]; simpl; [| reflexivity]. destruct (p (f a)); apply IH.
Qed.

Lemma find_index_map {V : Value} {P} (getx : P -> V) l x : find_index getx l x = find_index (fun y => y) (map getx l) x.
Proof.
  destruct l as [| a t]; [reflexivity |]. set (l := a :: t). unfold find_index, l at 1. cbn [map].
  change (getx a :: map getx t) with (map getx l). unfold partition_point. rewrite pp_loop_map, map_length. reflexivity.
Qed.

(** The answer of [find_index], the value of each cell being given. *)
Definition by_cell {V : Value} (w : nat -> V) (r : M (IResult nat V)) : M (IResult V V) :=
  i <- r ;; match i with Ok i => Ret (Ok (w i)) | Err er => Ret (Err er) end.

(** An in-order grid with enough points: fitting succeeds and the answers are those of [find_index]. *)
Lemma cells_linear {V : Value} (pts : list (V * V)) x : (2 <= length pts)%nat ->
  exists w, fit_eval (Linear V) pts x = by_cell w (find_index (fun y => y) (map fst pts) x).
Proof.
  intros L. destruct pts as [| p0 t] eqn:Ep; [simpl in L; lia |]. rewrite <- Ep in *. clear Ep.
  unfold fit_eval. simpl. unfold linear_try_value. set (l := map _ pts).
  assert (map fst pts = map p_x l) as -> by (unfold l; rewrite map_map; reflexivity).
  rewrite <- find_index_map. assert (length l = length pts) as Hl by apply map_length.
  destruct (find_index_total p_x l x) as (r & -> & B & _). simpl bind. destruct r as [i | er].
  - destruct (B i eq_refl) as [Hi Hi1]. set (q0 := mkPoint (fst p0) (snd p0)).
    exists (fun _ => let p := nth i l q0 in let q := nth (i + 1) l q0 in (p_y p + (p_y q - p_y p) / (p_x q - p_x p) * (x - p_x p))%V).
    unfold try_res. rewrite (index_some l i q0) by lia. simpl bind. rewrite (index_some l (i + 1) q0) by lia. reflexivity.
  - exists (fun _ => v_zero). reflexivity.
Qed.

Lemma cells_some {V : Value} (r : M (IResult V V)) (s : IResult nat V) : (exists o, r = Ret o) ->
  (forall er, s = Err er -> r = Ret (Err er)) -> (forall i, s = Ok i -> exists v, r = Ret (Ok v)) ->
  exists w, r = by_cell w (Ret s).
Proof.
  intros (o & ->) H1 H2. destruct s as [i | er].
  - destruct (H2 i eq_refl) as (v & E). exists (fun _ => v). exact E.
  - exists (fun _ => v_zero). exact (H1 er eq_refl).
Qed.

Lemma cells_catmull_rom {V : Value} (pts : list (V * V)) x : small_constants V -> (forall y : V, v_ltb y y = false) ->
  (3 <= length pts)%nat -> in_order fst pts ->
  exists w, fit_eval (CatmullRom V) pts x = by_cell w (find_index (fun y => y) (map fst pts) x).
Proof.
  intros Cst Irr L O. destruct (C33_never_panics V pts x Cst) as (r & Er).
  destruct (C33_fit V pts (i_default (CatmullRom V)) Irr) as [(L' & _) | [(_ & O' & _) | (_ & _ & F)]]; [lia | tauto |].
  unfold fit_eval in *. rewrite F in *. clear F. simpl in Er |- *. set (l := map _ pts) in *.
  assert (map fst pts = map p_x l) as -> by (unfold l; rewrite map_map; reflexivity).
  rewrite <- find_index_map. unfold catmull_rom_try_value in *.
  assert (length l = length pts) as Hl by apply map_length.
  destruct (find_index_total p_x l x) as (s & Es & B & _). rewrite Es in *. simpl bind in Er |- *.
  apply cells_some; [eauto | now intros er -> |].
  intros i ->. simpl in Er |- *. destruct (B i eq_refl) as [Hi Hi1].
  destruct pts as [| p0 t] eqn:Ep; [simpl in L; lia |]. rewrite <- Ep in *. clear Ep.
  set (q0 := mkPoint (fst p0) (snd p0)). rewrite (index_some l i q0) in Er |- * by lia. simpl bind in Er |- *.
  rewrite (index_some l (i + 1) q0) in Er |- * by lia. simpl bind in Er |- *.
  match goal with |- context [bind ?m _] => destruct m; simpl in Er |- *; [eauto | discriminate | discriminate] end.
Qed.

Lemma nc_points_x {V : Value} (pts : list (V * V)) ds : length ds = length pts -> map s_x (nc_points pts ds) = map fst pts.
Proof.
  unfold nc_points. rewrite map_map. revert ds. induction pts as [| [x y] t IH]; intros [| d ds] H; try discriminate; simpl; [reflexivity |].
  f_equal. apply IH. simpl in H. lia.
Qed.

Lemma cells_natural_cubic {V : Value} (pts : list (V * V)) x : small_constants V -> (forall y : V, v_ltb y y = false) ->
  (3 <= length pts)%nat -> in_order fst pts ->
  exists w, fit_eval (NaturalCubic V) pts x = by_cell w (find_index (fun y => y) (map fst pts) x).
Proof.
  intros Cst Irr L O. destruct (C37_never_panics V pts x Cst) as (r & Er).
  destruct (C37_fit V pts (i_default (NaturalCubic V)) Cst Irr) as [(L' & _) | [(_ & O' & _) | (_ & _ & ds & F & Hd)]]; [lia | tauto |].
  unfold fit_eval in *. rewrite F in *. clear F. simpl in Er |- *. rewrite <- (nc_points_x pts ds Hd), <- find_index_map.
  set (l := nc_points pts ds) in *.
  assert (length l = length pts) as Hl by (rewrite <- (map_length s_x), <- (map_length fst pts); f_equal; now apply nc_points_x).
  unfold natural_cubic_try_value in *.
  destruct (find_index_total s_x l x) as (s & Es & B & _). rewrite Es in *. simpl bind in Er |- *.
  apply cells_some; [eauto | now intros er -> |].
  intros i ->. simpl in Er |- *. destruct (B i eq_refl) as [Hi Hi1].
  destruct pts as [| p0 t] eqn:Ep; [simpl in L; lia |]. rewrite <- Ep in *. clear Ep.
  set (q0 := slope_new (fst p0) (snd p0) v_zero). rewrite (index_some l i q0) in Er |- * by lia. simpl bind in Er |- *.
  rewrite (index_some l (i + 1) q0) in Er |- * by lia. simpl bind in Er |- *.
  match goal with |- context [bind ?m _] => destruct m; simpl in Er |- *; [eauto | discriminate | discriminate] end.
Qed.

Lemma cells_hermite {V : Value} (pts : list (V * V * V)) x : small_constants V -> (forall y : V, v_ltb y y = false) ->
  (2 <= length pts)%nat -> in_order (fun p => fst (fst p)) pts ->
  exists w, hermite_eval pts x = by_cell w (find_index (fun y => y) (map (fun p => fst (fst p)) pts) x).
Proof.
  intros Cst Irr L O. destruct pts as [| p0 t] eqn:Ep; [simpl in L; lia |]. rewrite <- Ep in *.
  destruct (C29_order V pts Irr Cst ltac:(congruence)) as [(_ & f & F & Pf) | (O' & _)]; [| tauto]. clear Ep.
  unfold hermite_eval. rewrite F. simpl. unfold hermite_try_value. rewrite Pf. set (l := map _ pts).
  assert (map (fun p => fst (fst p)) pts = map s_x l) as ->.
  { unfold l. rewrite map_map. apply map_ext. intros [[a b] c]. reflexivity. }
  rewrite <- find_index_map. assert (length l = length pts) as Hl by apply map_length.
  destruct (find_index_total s_x l x) as (s & -> & B & _). simpl bind.
  apply cells_some; [| now intros er -> |].
  - destruct s as [i | er]; simpl; [| eauto]. destruct (B i eq_refl) as [Hi Hi1].
    set (q0 := slope_new (fst (fst p0)) (snd (fst p0)) (snd p0)).
    rewrite (index_some l i q0) by lia. simpl bind. rewrite (index_some l (i + 1) q0) by lia. simpl bind. eauto.
  - intros i ->. simpl. destruct (B i eq_refl) as [Hi Hi1].
    set (q0 := slope_new (fst (fst p0)) (snd (fst p0)) (snd p0)).
    rewrite (index_some l i q0) by lia. simpl bind. rewrite (index_some l (i + 1) q0) by lia. simpl bind. eauto.
Qed.

(** ** Floating-point comparison *)

Section Format.
Variables prec emax : Z.
Context (Hp : Prec_gt_0 prec) (He : Prec_lt_emax prec emax).
Variable e : binary_float prec emax -> binary_float prec emax.
Notation fl := (binary_float prec emax).
Notation V := (FV prec emax Hp He e).
Notation nan := (B754_nan : fl).
Notation inf s := (B754_infinity s : fl).

Lemma fv_irr : forall y : V, v_ltb y y = false.
Proof.
  intros y. simpl. destruct y as [s | s | | s m k Hb]; try (destruct s; reflexivity); try reflexivity.
  rewrite Bltb_correct by reflexivity. apply Rlt_bool_false. apply Rle_refl.
Qed.

Lemma fv_constants : small_constants V.
Proof. intros k _. simpl. eauto. Qed.

(** A place on the line for every float but NaN: the infinities lie just beyond the finite numbers. *)
Definition ext (x : fl) : R :=
  match x with B754_infinity s => if s then (- bpow radix2 emax)%R else bpow radix2 emax | _ => B2R x end.

Lemma ext_finite (x : fl) : is_finite x = true -> ext x = B2R x /\ (- bpow radix2 emax < B2R x < bpow radix2 emax)%R.
Proof.
  intros F. split; [destruct x; easy |]. apply Rabs_lt_inv. apply abs_B2R_lt_emax.
Qed.

Lemma ltb_ext (x y : fl) : is_nan x = false -> is_nan y = false -> Bltb x y = Rlt_bool (ext x) (ext y).
Proof.
  intros Nx Ny. pose proof (bpow_gt_0 radix2 emax) as P.
  destruct (is_finite x) eqn:Fx, (is_finite y) eqn:Fy.
  - rewrite (proj1 (ext_finite x Fx)), (proj1 (ext_finite y Fy)). now apply Bltb_correct.
  - destruct (ext_finite x Fx) as [-> B]. destruct y as [s | s | | s m k Hb]; try discriminate.
    destruct s; simpl ext; [rewrite Rlt_bool_false by lra | rewrite Rlt_bool_true by lra]; destruct x as [[] | [] | | []]; easy.
  - destruct (ext_finite y Fy) as [-> B]. destruct x as [s | s | | s m k Hb]; try discriminate.
    destruct s; simpl ext; [rewrite Rlt_bool_true by lra | rewrite Rlt_bool_false by lra]; destruct y as [[] | [] | | []]; easy.
  - destruct x as [s | s | | s m k Hb]; try discriminate. destruct y as [s' | s' | | s' m' k' Hb']; try discriminate.
    destruct s, s'; simpl ext; [rewrite Rlt_bool_false by lra | rewrite Rlt_bool_true by lra
      | rewrite Rlt_bool_false by lra | rewrite Rlt_bool_false by lra]; reflexivity.
Qed.

Lemma leb_ext (x y : fl) : is_nan x = false -> is_nan y = false -> Bleb x y = Rle_bool (ext x) (ext y).
Proof.
  intros Nx Ny. pose proof (bpow_gt_0 radix2 emax) as P.
  destruct (is_finite x) eqn:Fx, (is_finite y) eqn:Fy.
  - rewrite (proj1 (ext_finite x Fx)), (proj1 (ext_finite y Fy)). now apply Bleb_correct.
  - destruct (ext_finite x Fx) as [-> B]. destruct y as [s | s | | s m k Hb]; try discriminate.
    destruct s; simpl ext; [rewrite Rle_bool_false by lra | rewrite Rle_bool_true by lra]; destruct x as [[] | [] | | []]; easy.
  - destruct (ext_finite y Fy) as [-> B]. destruct x as [s | s | | s m k Hb]; try discriminate.
    destruct s; simpl ext; [rewrite Rle_bool_true by lra | rewrite Rle_bool_false by lra]; destruct y as [[] | [] | | []]; easy.
  - destruct x as [s | s | | s m k Hb]; try discriminate. destruct y as [s' | s' | | s' m' k' Hb']; try discriminate.
    destruct s, s'; simpl ext; [rewrite Rle_bool_true by lra | rewrite Rle_bool_true by lra
      | rewrite Rle_bool_false by lra | rewrite Rle_bool_true by lra]; reflexivity.
Qed.

Lemma lt_true (x y : fl) : is_nan x = false -> is_nan y = false -> (Bltb x y = true <-> (ext x < ext y)%R).
Proof. intros. rewrite ltb_ext by assumption. case Rlt_bool_spec; intros; split; intros; try easy; lra. Qed.

Lemma lt_false (x y : fl) : is_nan x = false -> is_nan y = false -> (Bltb x y = false <-> (ext y <= ext x)%R).
Proof. intros. rewrite ltb_ext by assumption. case Rlt_bool_spec; intros; split; intros; try easy; lra. Qed.

Lemma le_true (x y : fl) : is_nan x = false -> is_nan y = false -> (Bleb x y = true <-> (ext x <= ext y)%R).
Proof. intros. rewrite leb_ext by assumption. case Rle_bool_spec; intros; split; intros; try easy; lra. Qed.

Lemma ltb_nan_r (x : fl) : Bltb x nan = false.
Proof. now destruct x as [[] | [] | | []]. Qed.
Lemma leb_nan_r (x : fl) : Bleb x nan = false.
Proof. now destruct x as [[] | [] | | []]. Qed.

(** ** Lookup *)

Lemma find_nan (xs : list fl) : xs <> [] -> find_index (V := V) (fun y => y) xs nan = Ret (Err (OutOfLowerBound nan)).
Proof.
  intros N. destruct xs as [| x0 t] eqn:E; [congruence |]. rewrite <- E. unfold find_index. rewrite E at 1.
  rewrite (partition_point_contract _ xs x0 0); [| lia | lia | intros; apply ltb_nan_r].
  simpl. change (v_leb (v := V) x0 nan) with (Bleb x0 nan). now rewrite leb_nan_r.
Qed.

(** Non-NaN numbers in order. *)
Definition line (xs : list fl) : Prop :=
  (forall y, In y xs -> is_nan y = false) /\
  forall i j a b, (i < j)%nat -> nth_error xs i = Some a -> nth_error xs j = Some b -> Bltb b a = false.

Lemma line_le xs i j : line xs -> (i <= j < length xs)%nat -> (ext (nth i xs nan) <= ext (nth j xs nan))%R.
Proof.
  intros [N O] H. destruct (Nat.eq_dec i j) as [-> | D]; [lra |].
  apply lt_false; [apply N, nth_In; lia | apply N, nth_In; lia |].
  apply (O i j); [lia | |]; apply nth_error_nth'; lia.
Qed.

(** Every query has its answer: an error outside, and inside a cell of the grid around it. *)
Lemma find_line (xs : list fl) x : line xs -> xs <> [] -> is_nan x = false ->
  let find := find_index (V := V) (fun y => y) xs x in
  let first := hd nan xs in let final := last xs nan in
  (Bltb x first = true -> find = Ret (Err (OutOfLowerBound x)))
  /\ (Bltb final x = true -> find = Ret (Err (OutOfUpperBound x)))
  /\ (Bltb x first = false -> Bltb final x = false -> exists i, find = Ret (Ok i)
        /\ (Bleb (nth i xs nan) x = true) /\ (i <> 0%nat -> Bltb (nth i xs nan) x = true)
        /\ ((i + 1 < length xs)%nat -> Bleb x (nth (i + 1) xs nan) = true)).
Proof.
  intros Hl Ne Nx find first final. pose proof Hl as [N O].
  assert (exists x0 t, xs = x0 :: t) as (x0 & t & E) by (destruct xs; [congruence | eauto]).
  assert (0 < length xs)%nat as Lp by (rewrite E; simpl; lia).
  assert (first = nth 0 xs nan) as Hf by (unfold first; rewrite E; reflexivity).
  assert (final = nth (length xs - 1) xs nan) as Hn.
  { unfold final. clear -Lp. induction xs as [| a [| b u] IH]; [simpl in Lp; lia | reflexivity |].
    change (last (a :: b :: u) nan) with (last (b :: u) nan). rewrite IH by (simpl; lia). simpl. now rewrite Nat.sub_0_r. }
  assert (forall j, (j < length xs)%nat -> is_nan (nth j xs nan) = false) as Nn by (intros j Hj; apply N, nth_In, Hj).
  assert (is_nan x0 = false) as N0 by (apply N; rewrite E; now left).
  assert (x0 = nth 0 xs nan) as H0 by (rewrite E; reflexivity).
  assert (find = (pos <- partition_point (fun point : fl => v_ltb (v := V) point x) xs ;;
      if (pos =? 0)%nat && Bleb x0 x then Ret (Ok 0%nat)
      else if (pos =? 0)%nat then Ret (Err (OutOfLowerBound x))
      else if (pos =? length xs)%nat then Ret (Err (OutOfUpperBound x))
      else Ret (Ok (pos - 1)%nat))) as -> by (unfold find, find_index; rewrite E; reflexivity).
  rewrite Hf, Hn. clear first final Hf Hn.
  assert (forall k, (k <= length xs)%nat -> (forall i, (i < k)%nat -> (ext (nth i xs nan) < ext x)%R) ->
    (forall i, (k <= i < length xs)%nat -> (ext x <= ext (nth i xs nan))%R) ->
    partition_point (fun point : fl => v_ltb (v := V) point x) xs = Ret k) as Pp.
  { intros k Hk Lo Hi. apply (partition_point_contract _ xs nan); [exact Hk | |].
    - intros i Ki. apply lt_true; [apply Nn; lia | exact Nx | now apply Lo].
    - intros i Ki. apply lt_false; [apply Nn; lia | exact Nx | now apply Hi]. }
  split; [| split].
  - intros B. rewrite lt_true in B by (auto; apply Nn; lia).
    rewrite (Pp 0%nat); [| lia | lia |].
    + assert (Bleb x0 x = false) as ->.
      { destruct (Bleb x0 x) eqn:Q; [| reflexivity]. apply le_true in Q; auto. rewrite H0 in Q. lra. }
      reflexivity.
    + intros i Hi. pose proof (line_le xs 0 i Hl). assert (0 <= i < length xs)%nat by lia. intuition lra.
  - intros B. rewrite lt_true in B by (auto; apply Nn; lia).
    rewrite (Pp (length xs)); [| lia | | lia].
    + simpl. destruct (Nat.eqb_spec (length xs) 0); [lia |]. simpl. now rewrite Nat.eqb_refl.
    + intros i Hi. pose proof (line_le xs i (length xs - 1) Hl ltac:(lia)). lra.
  - intros B1 B2. rewrite lt_false in B1 by (auto; apply Nn; lia). rewrite lt_false in B2 by (auto; apply Nn; lia).
    assert (exists k, (k < length xs)%nat /\ (forall i, (i < k)%nat -> (ext (nth i xs nan) < ext x)%R)
      /\ (ext x <= ext (nth k xs nan))%R) as (k & Hk & Lo & Hi).
    { assert (forall m, (m < length xs)%nat -> (ext x <= ext (nth m xs nan))%R ->
        exists k, (k < length xs)%nat /\ (forall i, (i < k)%nat -> (ext (nth i xs nan) < ext x)%R) /\ (ext x <= ext (nth k xs nan))%R) as G.
      { induction m as [| m IH]; intros Hm Q; [exists 0%nat; split; [lia |]; split; [lia | exact Q] |].
        destruct (Rle_lt_dec (ext x) (ext (nth m xs nan))) as [C | C]; [apply IH; [lia | exact C] |].
        exists (S m). split; [exact Hm |]. split; [| exact Q]. intros i Hi.
        pose proof (line_le xs i m Hl ltac:(lia)). lra. }
      apply (G (length xs - 1)%nat); [lia | exact B2]. }
    rewrite (Pp k); [| lia | exact Lo |].
    2:{ intros i Hi'. pose proof (line_le xs k i Hl ltac:(lia)). lra. }
    cbn [bind]. destruct k as [| k].
    + assert (Bleb x0 x = true) as Q by (apply le_true; auto; rewrite H0; exact B1).
      rewrite Q. cbn [Nat.eqb andb]. exists 0%nat. split; [reflexivity |]. rewrite <- H0. split; [exact Q |]. split; [congruence |].
      intros H1. apply le_true; [exact Nx | apply Nn; lia |]. pose proof (line_le xs 0 1 Hl ltac:(lia)). simpl in *. lra.
    + destruct (Nat.eqb_spec (S k) 0); [lia |]. cbn [andb]. destruct (Nat.eqb_spec (S k) (length xs)); [lia |].
      exists k. replace (S k - 1)%nat with k by lia. split; [reflexivity |]. split.
      * apply le_true; [apply Nn; lia | exact Nx |]. left. apply Lo. lia.
      * split; [intros _; apply lt_true; [apply Nn; lia | exact Nx |]; apply Lo; lia |].
        intros _. apply le_true; [exact Nx | apply Nn; lia |]. replace (k + 1)%nat with (S k) by lia. exact Hi.
Qed.

Lemma find_answers (xs : list fl) (eval : fl -> M (IResult fl fl)) : line xs -> xs <> [] ->
  (forall x, exists w, eval x = by_cell (V := V) w (find_index (V := V) (fun y => y) xs x)) ->
  eval nan = Ret (Err (OutOfLowerBound nan))
  /\ forall x, is_nan x = false ->
     (Bltb x (hd nan xs) = true -> eval x = Ret (Err (OutOfLowerBound x)))
     /\ (Bltb (last xs nan) x = true -> eval x = Ret (Err (OutOfUpperBound x)))
     /\ (Bltb x (hd nan xs) = false -> Bltb (last xs nan) x = false -> exists v, eval x = Ret (Ok v)).
Proof.
  intros Hl Ne C. split.
  - destruct (C nan) as (w & ->). now rewrite find_nan.
  - intros x Nx. destruct (C x) as (w & ->). destruct (find_line xs x Hl Ne Nx) as (A & B & D).
    split; [| split].
    + intros Q. now rewrite (A Q).
    + intros Q. now rewrite (B Q).
    + intros Q1 Q2. destruct (D Q1 Q2) as (i & -> & _). exists (w i). reflexivity.
Qed.

Lemma line_in_order {P} (getx : P -> fl) (pts : list P) : line (map getx pts) -> in_order (V := V) getx pts.
Proof.
  intros [_ O] i p q Hi Hj. apply (O i (S i)); [lia | |]; rewrite nth_error_map, ?Hi, ?Hj; reflexivity.
Qed.

Lemma in_order_line {P} (getx : P -> fl) (pts : list P) : (forall p, In p pts -> is_nan (getx p) = false) ->
  in_order (V := V) getx pts -> line (map getx pts).
Proof.
  intros N O. split.
  - intros y Hy. apply in_map_iff in Hy. destruct Hy as (p & <- & Hp'). now apply N.
  - intros i j a b Hij. revert b. induction j as [| j IH]; intros b Ha Hb; [lia |].
    rewrite nth_error_map in Hb. destruct (nth_error pts (S j)) as [q |] eqn:Eq; [| discriminate]. injection Hb as <-.
    assert (j < length pts)%nat as Lj by (assert (nth_error pts (S j) <> None) as Q by congruence; apply nth_error_Some in Q; lia).
    destruct (nth_error pts j) as [r |] eqn:Er; [| apply nth_error_None in Er; lia].
    specialize (O j r q Er Eq). change (Bltb (getx q) (getx r) = false) in O.
    assert (is_nan (getx q) = false) as Nq by (apply N; eapply nth_error_In; eauto).
    assert (is_nan (getx r) = false) as Nr by (apply N; eapply nth_error_In; eauto).
    destruct (Nat.eq_dec i j) as [-> | D].
    + rewrite nth_error_map, Er in Ha. injection Ha as <-. exact O.
    + specialize (IH ltac:(lia) (getx r) Ha). rewrite nth_error_map, Er in IH. specialize (IH eq_refl).
      assert (is_nan a = false) as Na.
      { rewrite nth_error_map in Ha. destruct (nth_error pts i) as [p |] eqn:Ep; [| discriminate]. injection Ha as <-.
        apply N. eapply nth_error_In; eauto. }
      apply lt_false in O, IH; auto. apply lt_false; auto. lra.
Qed.
End Format.
Arguments line {prec emax}.

(** The answers of an interpolation over the abscissas [xs]: errors naming the query outside (and for NaN), a value inside. *)
Definition answers {prec emax} (eval : binary_float prec emax -> M (IResult (binary_float prec emax) (binary_float prec emax)))
    (xs : list (binary_float prec emax)) : Prop :=
  eval B754_nan = Ret (Err (OutOfLowerBound B754_nan))
  /\ forall x, is_nan x = false ->
     (Bltb x (hd B754_nan xs) = true -> eval x = Ret (Err (OutOfLowerBound x)))
     /\ (Bltb (last xs B754_nan) x = true -> eval x = Ret (Err (OutOfUpperBound x)))
     /\ (Bltb x (hd B754_nan xs) = false -> Bltb (last xs B754_nan) x = false -> exists v, eval x = Ret (Ok v)).

(** ** C78 *)

Lemma map_not_nil {A B} (f : A -> B) l : (0 < length l)%nat -> map f l <> [].
Proof. destruct l; simpl; [lia | discriminate]. Qed.

Theorem C78_linear : forall prec emax Hp He e (pts : list (binary_float prec emax * binary_float prec emax)),
  (2 <= length pts)%nat -> line (map fst pts) ->
  answers (fit_eval (Linear (FV prec emax Hp He e)) pts) (map fst pts).
Proof.
  intros prec emax Hp He e pts L O. apply (find_answers prec emax Hp He e); [exact O | apply map_not_nil; lia |].
  intros x. now apply (cells_linear (V := FV prec emax Hp He e) pts x).
Qed.

Theorem C78_catmull_rom : forall prec emax Hp He e (pts : list (binary_float prec emax * binary_float prec emax)),
  (3 <= length pts)%nat -> line (map fst pts) ->
  answers (fit_eval (CatmullRom (FV prec emax Hp He e)) pts) (map fst pts).
Proof.
  intros prec emax Hp He e pts L O. apply (find_answers prec emax Hp He e); [exact O | apply map_not_nil; lia |].
  intros x. apply (cells_catmull_rom (V := FV prec emax Hp He e) pts x);
    [apply fv_constants | apply fv_irr | exact L | now apply line_in_order].
Qed.

Theorem C78_natural_cubic : forall prec emax Hp He e (pts : list (binary_float prec emax * binary_float prec emax)),
  (3 <= length pts)%nat -> line (map fst pts) ->
  answers (fit_eval (NaturalCubic (FV prec emax Hp He e)) pts) (map fst pts).
Proof.
  intros prec emax Hp He e pts L O. apply (find_answers prec emax Hp He e); [exact O | apply map_not_nil; lia |].
  intros x. apply (cells_natural_cubic (V := FV prec emax Hp He e) pts x);
    [apply fv_constants | apply fv_irr | exact L | now apply line_in_order].
Qed.

Theorem C78_hermite : forall prec emax Hp He e (pts : list (binary_float prec emax * binary_float prec emax * binary_float prec emax)),
  (2 <= length pts)%nat -> line (map (fun p => fst (fst p)) pts) ->
  answers (hermite_eval (V := FV prec emax Hp He e) pts) (map (fun p => fst (fst p)) pts).
Proof.
  intros prec emax Hp He e pts L O. apply (find_answers prec emax Hp He e); [exact O | apply map_not_nil; lia |].
  intros x. apply (cells_hermite (V := FV prec emax Hp He e) pts x);
    [apply fv_constants | apply fv_irr | exact L | now apply line_in_order].
Qed.

(** ** C79 *)

Theorem C79_catmull_rom : forall prec emax Hp He e (pts : list (binary_float prec emax * binary_float prec emax)) self,
  let fit := i_try_fit (CatmullRom (FV prec emax Hp He e)) self pts in
  (3 <= length pts)%nat -> (forall p, In p pts -> is_nan (fst p) = false) ->
  (line (map fst pts) -> exists s, fit = Ret (Ok s)) /\ (~ line (map fst pts) -> fit = Ret (Err PointOrderError)).
Proof.
  intros prec emax Hp He e pts self fit L N.
  destruct (C33_fit (FV prec emax Hp He e) pts self (fv_irr prec emax Hp He e)) as [(L' & _) | [(_ & O & F) | (_ & O & F)]]; [destruct (Nat.lt_irrefl 3); exact (Nat.le_lt_trans _ _ _ L L') | |].
  - split; [| intros _; exact F]. intros Q. destruct O. now apply line_in_order.
  - split; [intros _; eauto |]. intros Q. destruct Q. now apply (in_order_line prec emax Hp He e).
Qed.

Theorem C79_natural_cubic : forall prec emax Hp He e (pts : list (binary_float prec emax * binary_float prec emax)) self,
  let fit := i_try_fit (NaturalCubic (FV prec emax Hp He e)) self pts in
  (3 <= length pts)%nat -> (forall p, In p pts -> is_nan (fst p) = false) ->
  (line (map fst pts) -> exists s, fit = Ret (Ok s)) /\ (~ line (map fst pts) -> fit = Ret (Err PointOrderError)).
Proof.
  intros prec emax Hp He e pts self fit L N.
  destruct (C37_fit (FV prec emax Hp He e) pts self (fv_constants prec emax Hp He e) (fv_irr prec emax Hp He e))
    as [(L' & _) | [(_ & O & F) | (_ & O & ds & F & _)]]; [destruct (Nat.lt_irrefl 3); exact (Nat.le_lt_trans _ _ _ L L') | |].
  - split; [| intros _; exact F]. intros Q. destruct O. now apply line_in_order.
  - split; [intros _; eauto |]. intros Q. destruct Q. now apply (in_order_line prec emax Hp He e).
Qed.

Theorem C79_hermite : forall prec emax Hp He e (pts : list (binary_float prec emax * binary_float prec emax * binary_float prec emax)),
  let fit := hermite_try_new (V := FV prec emax Hp He e) pts in
  pts <> [] -> (forall p, In p pts -> is_nan (fst (fst p)) = false) ->
  (line (map (fun p => fst (fst p)) pts) -> exists s, fit = Ret (Ok s))
  /\ (~ line (map (fun p => fst (fst p)) pts) -> fit = Ret (Err PointOrderError)).
Proof.
  intros prec emax Hp He e pts fit L N.
  destruct (C29_order (FV prec emax Hp He e) pts (fv_irr prec emax Hp He e) (fv_constants prec emax Hp He e) L)
    as [(O & s & F & _) | (O & F)].
  - split; [intros _; eauto |]. intros Q. destruct Q. now apply (in_order_line prec emax Hp He e (fun p => fst (fst p))).
  - split; [| intros _; exact F]. intros Q. destruct O. now apply (line_in_order prec emax Hp He e (fun p => fst (fst p))).
Qed.

(** Not-a-number abscissas pass every order check: here 1, NaN, 0. *)
Theorem C79_nan_refuted : forall e, let V := F64 e in let i z := of_int 53 1024 Hp53 He1024 z in
  let pts := [(i 1, i 0); (B754_nan, i 0); (i 0, i 0)]%Z in
  Bltb (i 0%Z) (i 1%Z) = true
  /\ (exists s, i_try_fit (CatmullRom V) (i_default (CatmullRom V)) pts = Ret (Ok s))
  /\ (exists s, i_try_fit (NaturalCubic V) (i_default (NaturalCubic V)) pts = Ret (Ok s))
  /\ (exists s, hermite_try_new (V := V) (map (fun p => (p, i 0%Z)) pts) = Ret (Ok s)).
Proof.
  intros e V i pts.
  assert (in_order (V := V) fst pts) as O.
  { intros [| [| [| k]]] p q Ha Hb; try discriminate Hb; try (destruct k; discriminate Hb);
      injection Ha as <-; injection Hb as <-; vm_compute; reflexivity. }
  split; [vm_compute; reflexivity |]. split; [| split].
  - destruct (C33_fit V pts (i_default (CatmullRom V)) (fv_irr 53 1024 Hp53 He1024 e)) as [(L & _) | [(_ & Q & _) | (_ & _ & F)]];
      [simpl in L; lia | tauto | eauto].
  - destruct (C37_fit V pts (i_default (NaturalCubic V)) (fv_constants 53 1024 Hp53 He1024 e) (fv_irr 53 1024 Hp53 He1024 e))
      as [(L & _) | [(_ & Q & _) | (_ & _ & ds & F & _)]]; [simpl in L; lia | tauto | eauto].
  - destruct (C29_order V (map (fun p => (p, i 0%Z)) pts) (fv_irr 53 1024 Hp53 He1024 e) (fv_constants 53 1024 Hp53 He1024 e) ltac:(discriminate))
      as [(_ & f & F & _) | (Q & _)]; [eauto |]. destruct Q.
    intros k p q Ha Hb. apply (O k (fst p) (fst q)); rewrite nth_error_map in Ha, Hb.
    + destruct (nth_error pts k) as [u |] eqn:Ek; [| discriminate]. injection Ha as <-. exact Ek.
    + destruct (nth_error pts (S k)) as [u |] eqn:Ek; [| discriminate]. injection Hb as <-. exact Ek.
Qed.

(** A repeated abscissa passes too, and the query at it answers NaN although all points are finite. *)
Theorem C79_repeated_refuted : forall e, let V := F64 e in let i z := of_int 53 1024 Hp53 He1024 z in
  let pts := [(i 0, i 0); (i 0, i 1); (i 1, i 1)]%Z in
  line (map fst pts) /\ (forall p, In p pts -> is_finite (fst p) = true /\ is_finite (snd p) = true)
  /\ fit_eval (Linear V) pts (i 0%Z) = Ret (Ok B754_nan)
  /\ fit_eval (CatmullRom V) pts (i 0%Z) = Ret (Ok B754_nan)
  /\ fit_eval (NaturalCubic V) pts (i 0%Z) = Ret (Ok B754_nan)
  /\ hermite_eval (V := V) (map (fun p => (p, i 0%Z)) pts) (i 0%Z) = Ret (Ok B754_nan).
Proof.
  intros e V i pts. split; [| split; [| repeat split; vm_compute; reflexivity]].
  - split.
    + intros y [<- | [<- | [<- | []]]]; vm_compute; reflexivity.
    + intros [| [| [| k]]] [| [| [| j]]] a b Hij Ha Hb; try lia; simpl in Ha, Hb; try discriminate;
        try (destruct j; discriminate Hb); injection Ha as <-; injection Hb as <-; vm_compute; reflexivity.
  - intros p [<- | [<- | [<- | []]]]; split; vm_compute; reflexivity.
Qed.

(** Minus infinity, 1 and 2 as abscissas of f32. *)
Example C78_case : forall e, let i z := of_int 24 128 Hp24 He128 z in
  let pts := [(B754_infinity true, i 0); (i 1, i 5); (i 2, i 7)]%Z in
  line (map fst pts) /\ answers (fit_eval (Linear (F32 e)) pts) (map fst pts).
Proof.
  intros e i pts. assert (line (map fst pts)) as O.
  { split.
    + intros y [<- | [<- | [<- | []]]]; vm_compute; reflexivity.
    + intros [| [| [| k]]] [| [| [| j]]] a b Hij Ha Hb; try lia; simpl in Ha, Hb; try discriminate;
        try (destruct j; discriminate Hb); injection Ha as <-; injection Hb as <-; vm_compute; reflexivity. }
  split; [exact O |]. apply C78_linear; [simpl; lia | exact O].
Qed.

Example C79_case : forall e, let i z := of_int 24 128 Hp24 He128 z in
  let pts := [(i 2, i 0); (i 1, i 5); (i 3, i 7)]%Z in
  (forall p, In p pts -> is_nan (fst p) = false) /\ ~ line (map fst pts)
  /\ i_try_fit (CatmullRom (F32 e)) [] pts = Ret (Err PointOrderError).
Proof.
  intros e i pts.
  assert (forall p, In p pts -> is_nan (fst p) = false) as N by (intros p [<- | [<- | [<- | []]]]; vm_compute; reflexivity).
  assert (~ line (map fst pts)) as Q.
  { intros [_ O]. specialize (O 0%nat 1%nat (i 2%Z) (i 1%Z) ltac:(lia) eq_refl eq_refl). vm_compute in O. discriminate. }
  split; [exact N |]. split; [exact Q |]. apply (C79_catmull_rom 24 128 Hp24 He128 e pts []); [simpl; lia | exact N | exact Q].
Qed.
