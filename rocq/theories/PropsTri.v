(** Properties C38, C39: the tridiagonal solver and product. *)
From Coq Require Import Reals List Arith Bool Lia Lra.
From Verif Require Import Base Value RealValue InterpModel InterpFacts TriFacts.
Import ListNotations.
Open Scope R_scope.

(** Entry [i] of a vector. *)
Definition at_ (l : list R) (i : nat) : R := nth i l 0.

(** Row [i] of the tridiagonal matrix with the given diagonals, times the vector [x]. *)
Definition row (u d l x : list R) (i : nat) : R :=
  (if (0 <? i)%nat then at_ l (i - 1) * at_ x (i - 1) else 0)
  + at_ d i * at_ x i
  + (if (i + 1 <? length d)%nat then at_ u i * at_ x (i + 1) else 0).

(** The pivots of elimination without row exchange. *)
Fixpoint pivot (u d l : list R) (i : nat) : R :=
  match i with
  | O => at_ d 0
  | S k => at_ d (S k) - at_ l k * at_ u k / pivot u d l k
  end.

Definition regular (u d l : list R) : Prop := forall i, (i < length d)%nat -> pivot u d l i <> 0.

(** Strict diagonal dominance. *)
Definition dominant (u d l : list R) : Prop := forall i, (i < length d)%nat ->
  (if (0 <? i)%nat then Rabs (at_ l (i - 1)) else 0) + (if (i + 1 <? length d)%nat then Rabs (at_ u i) else 0)
  < Rabs (at_ d i).

(** ** C39 *)

Theorem C39_try_new : forall (V : Type) (u d l : list V),
  (exists n, length u = n /\ length d = S n /\ length l = n) <->
  (exists a, tri_try_new u d l = Some a
     /\ upper_diagonal a = u /\ diagonal a = d /\ lower_diagonal a = l /\ size a = length d).
Proof.
  intros V u d l. unfold tri_try_new. split.
  - intros (n & E1 & E2 & E3). rewrite E1, E2, E3, Nat.eqb_refl, Nat.add_1_r, Nat.eqb_refl. simpl. eauto 10.
  - intros (a & E & _). destruct (Nat.eqb_spec (length u) (length l)) as [E1 |]; [| discriminate].
    destruct (Nat.eqb_spec (length u + 1) (length d)) as [E2 |]; [| discriminate].
    exists (length u). lia.
Qed.
Print Assumptions C39_try_new.

Theorem C39_mul_shape : forall (V : Value) (u d l x : list V) a, tri_try_new u d l = Some a ->
  length x <> length d -> tri_mul a x = Ret None.
Proof.
  intros V u d l x a E N. unfold tri_try_new in E.
  destruct (_ && _); [| discriminate]. injection E as <-. unfold tri_mul. cbn [size].
  destruct (Nat.eqb_spec (length x) (length d)); [contradiction | reflexivity].
Qed.
Print Assumptions C39_mul_shape.

(** What the product loop computes, for any Value type. *)
Definition mul_entry {V : Value} (u d l x : nat -> V) (n i : nat) : V :=
  let t := (d i * x i)%V in
  let t := if (i + 1 <? n)%nat then (t + u i * x (i + 1)%nat)%V else t in
  if (0 <? i)%nat then (t + l (i - 1)%nat * x (i - 1)%nat)%V else t.

Lemma tri_mul_computes {V : Value} n (u d l x : nat -> V) : (1 <= n)%nat ->
  tri_mul (mkTri (tab u (n - 1)) (tab d n) (tab l (n - 1)) n) (tab x n)
  = Ret (Some (tab (mul_entry u d l x n) n)).
Proof.
  intros Hn. unfold tri_mul. cbn [size]. rewrite tab_length, Nat.eqb_refl. cbn [negb].
  change [] with ((fun i => tab (mul_entry u d l x n) i) 0%nat).
  rewrite (for_each_seq _ (fun i => tab (mul_entry u d l x n) i)).
  - reflexivity.
  - intros i Hi. unfold tri_mul_row. cbn [size diagonal upper_diagonal lower_diagonal].
    rewrite !tab_index by lia. cbn [bind]. 
    assert (tab (mul_entry u d l x n) (i + 1) = tab (mul_entry u d l x n) i ++ [mul_entry u d l x n i]) as ->
      by (rewrite Nat.add_1_r; apply tab_S).
    unfold mul_entry. destruct (Nat.ltb_spec (i + 1) n) as [L1 | L1].
    + rewrite ?tab_index by lia. cbn [bind]. destruct (Nat.ltb_spec 0 i) as [L2 | L2].
      * rewrite ?tab_index by lia. reflexivity.
      * reflexivity.
    + cbn [bind]. destruct (Nat.ltb_spec 0 i) as [L2 | L2].
      * rewrite ?tab_index by lia. reflexivity.
      * reflexivity.
Qed.

Theorem C39_mul : forall (u d l x : list R) a, tri_try_new u d l = Some a -> length x = length d ->
  exists r : list R, tri_mul (V := RV) a x = Ret (Some r) /\ length r = length d
    /\ forall i, (i < length d)%nat -> at_ r i = row u d l x i.
Proof.
  intros u d l x a E Hx. unfold tri_try_new in E.
  destruct (Nat.eqb_spec (length u) (length l)) as [E1 |]; [| discriminate].
  destruct (Nat.eqb_spec (length u + 1) (length d)) as [E2 |]; [| discriminate]. injection E as <-.
  set (n := length d) in *.
  exists (tab (mul_entry (V := RV) (at_ u) (at_ d) (at_ l) (at_ x) n) n). split; [| split].
  - assert (u = tab (at_ u) (n - 1)) as Eu by (rewrite (list_tab u 0) at 1; f_equal; lia).
    assert (d = tab (at_ d) n) as Ed by (rewrite (list_tab d 0) at 1; reflexivity).
    assert (l = tab (at_ l) (n - 1)) as El by (rewrite (list_tab l 0) at 1; f_equal; lia).
    assert (x = tab (at_ x) n) as Ex by (rewrite (list_tab x 0) at 1; rewrite Hx; reflexivity).
    rewrite Eu at 1. rewrite Ed at 1. rewrite El at 1. rewrite Ex at 1.
    apply (tri_mul_computes (V := RV)). lia.
  - apply tab_length.
  - intros i Hi. unfold at_ at 1. rewrite tab_nth by exact Hi. unfold mul_entry, row. fold n. simpl.
    destruct (0 <? i)%nat, (i + 1 <? n)%nat; ring.
Qed.
Print Assumptions C39_mul.

Example C39_case : exists a, tri_try_new [1; 2] [3; 4; 5] [6; 7] = Some a
  /\ length [8; 9; 10] = length [3; 4; 5] /\ row [1; 2] [3; 4; 5] [6; 7] [8; 9; 10] 1 = 104.
Proof. eexists. split; [reflexivity |]. split; [reflexivity |]. unfold row, at_. simpl. ring. Qed.

(** ** C38 *)

Section Rows.
Context (n : nat) (u d l b : list R).
Hypothesis Hd : length d = n.
Hypothesis Hn : (2 <= n)%nat.
Hypothesis Hp : regular u d l.
Notation S_ := (sc (V := RV) (at_ l) (at_ d) (at_ u)).
Notation F_ := (xf (V := RV) (at_ l) (at_ d) (at_ u) (at_ b)).
Notation X_ := (xsol (V := RV) n (at_ l) (at_ d) (at_ u) (at_ b)).

Lemma sc_pivot i : S_ i = at_ u i / pivot u d l i.
Proof.
  induction i as [| k IH]; [reflexivity |]. cbn [sc pivot]. rewrite IH. simpl. f_equal. f_equal.
  unfold Rdiv. ring.
Qed.

Lemma xf_S k : (S k < n)%nat -> pivot u d l (S k) * F_ (S k) = at_ b (S k) - at_ l k * F_ k.
Proof.
  intros H. assert (pivot u d l (S k) <> 0) as P by (apply Hp; lia).
  assert (at_ d (S k) - at_ l k * S_ k = pivot u d l (S k)) as E.
  { rewrite sc_pivot. cbn [pivot]. unfold Rdiv. ring. }
  generalize dependent (pivot u d l (S k)). intros p P E. cbn [xf]. simpl. simpl in E. rewrite E. field. exact P.
Qed.

Lemma xf_0 : at_ d 0 * F_ 0%nat = at_ b 0.
Proof. assert (at_ d 0 <> 0) as P by (apply (Hp 0%nat); lia). simpl. field. exact P. Qed.

Lemma pivot_S k : at_ d (S k) = pivot u d l (S k) + at_ l k * S_ k.
Proof. rewrite sc_pivot. cbn [pivot]. unfold Rdiv. ring. Qed.

Lemma pivot_sc i : (i < n)%nat -> pivot u d l i * S_ i = at_ u i.
Proof. intros H. rewrite sc_pivot. field. apply Hp. lia. Qed.

Lemma row_tab i : (i < n)%nat -> row u d l (tab X_ n) i
  = (if (0 <? i)%nat then at_ l (i - 1) * X_ (i - 1)%nat else 0) + at_ d i * X_ i
    + (if (i + 1 <? n)%nat then at_ u i * X_ (i + 1)%nat else 0).
Proof.
  intros H. unfold row. rewrite Hd. 
  assert (forall j, (j < n)%nat -> at_ (tab X_ n) j = X_ j) as G by (intros j Hj; unfold at_ at 1; now apply tab_nth).
  destruct (Nat.ltb_spec 0 i); destruct (Nat.ltb_spec (i + 1) n); rewrite ?G by lia; reflexivity.
Qed.

Lemma step i : (i < n - 2)%nat -> X_ i = F_ i - S_ i * X_ (S i).
Proof. exact (xsol_step (V := RV) n (at_ l) (at_ d) (at_ u) (at_ b) i). Qed.

Lemma high i : (n - 2 <= i)%nat -> X_ i = F_ i.
Proof. exact (xsol_high (V := RV) n (at_ l) (at_ d) (at_ u) (at_ b) i). Qed.

Lemma rows_low i : (i < n - 2)%nat -> row u d l (tab X_ n) i = at_ b i.
Proof.
  intros H. rewrite row_tab by lia. replace (i + 1 <? n)%nat with true by (symmetry; apply Nat.ltb_lt; lia).
  replace (i + 1)%nat with (S i) by lia.
  pose proof (step i H) as E.
  pose proof (pivot_sc i ltac:(lia)) as P.
  destruct i as [| k].
  - change (0 <? 0)%nat with false. cbn match. rewrite E. cbn [pivot] in P. rewrite <- P, <- xf_0. ring.
  - replace (0 <? S k)%nat with true by reflexivity. cbn match. replace (S k - 1)%nat with k by lia.
    pose proof (step k ltac:(lia)) as E'.
    rewrite (pivot_S k). rewrite E'. pose proof (xf_S k ltac:(lia)) as Q.
    assert (pivot u d l (S k) * X_ (S k) = at_ b (S k) - at_ l k * F_ k - at_ u (S k) * X_ (S (S k))) as R.
    { rewrite E. rewrite Rmult_minus_distr_l, Q, <- Rmult_assoc, P. ring. }
    nra.
Qed.

Lemma row_second_last : row u d l (tab X_ n) (n - 2) = at_ b (n - 2) + at_ u (n - 2) * X_ (n - 1)%nat.
Proof.
  rewrite row_tab by lia. replace (n - 2 + 1 <? n)%nat with true by (symmetry; apply Nat.ltb_lt; lia).
  replace (n - 2 + 1)%nat with (n - 1)%nat by lia.
  rewrite (high (n - 2)) by lia.
  destruct (n - 2)%nat as [| k] eqn:En.
  - change (0 <? 0)%nat with false. cbn match. rewrite <- xf_0. ring.
  - replace (0 <? S k)%nat with true by reflexivity. cbn match. replace (S k - 1)%nat with k by lia.
    pose proof (step k ltac:(lia)) as E'.
    rewrite (high (S k)) in E' by lia.
    rewrite (pivot_S k), E'. pose proof (xf_S k ltac:(lia)) as Q. nra.
Qed.

Lemma row_last : row u d l (tab X_ n) (n - 1)
  = at_ b (n - 1) + at_ l (n - 2) * (at_ u (n - 2) / pivot u d l (n - 2)) * X_ (n - 1)%nat.
Proof.
  rewrite row_tab by lia. replace (n - 1 + 1 <? n)%nat with false by (symmetry; apply Nat.ltb_ge; lia).
  replace (0 <? n - 1)%nat with true by (symmetry; apply Nat.ltb_lt; lia).
  rewrite <- sc_pivot. replace (n - 1 - 1)%nat with (n - 2)%nat by lia.
  rewrite !high by lia.
  replace (n - 1)%nat with (S (n - 2)) by lia. rewrite (pivot_S (n - 2)).
  pose proof (xf_S (n - 2) ltac:(lia)) as Q. nra.
Qed.

End Rows.

Lemma solve_is (u d l b : list R) : (length u + 1 = length d)%nat -> length u = length l ->
  length b = length d -> (2 <= length d)%nat ->
  tri_solve (V := RV) (mkTri u d l (length d)) b
  = Ret (tab (xsol (V := RV) (length d) (at_ l) (at_ d) (at_ u) (at_ b)) (length d)).
Proof.
  intros E2 E1 Hb Hn. set (n := length d) in *.
  unfold tri_solve. cbn [size diagonal upper_diagonal lower_diagonal].
  destruct (Nat.eqb_spec n 1); [lia |].
  assert (u = tab (at_ u) (n - 1)) as Eu by (rewrite (list_tab u 0) at 1; f_equal; unfold n; lia).
  assert (d = tab (at_ d) n) as Ed by (rewrite (list_tab d 0) at 1; reflexivity).
  assert (l = tab (at_ l) (n - 1)) as El by (rewrite (list_tab l 0) at 1; f_equal; unfold n; lia).
  assert (b = tab (at_ b) n) as Eb by (rewrite (list_tab b 0) at 1; rewrite Hb; reflexivity).
  rewrite Eu at 1. rewrite Ed at 1. rewrite El at 1. rewrite Eb at 1.
  apply (thomas_computes (V := RV)). exact Hn.
Qed.

(** The exact outcome for sizes of two and more: all rows but the last two are solved; the last two are
    off by multiples of the last unknown, because back substitution skips row [n-2]. *)
Theorem C38_solve_rows : forall (u d l b : list R) a,
  tri_try_new u d l = Some a -> length b = length d -> (2 <= length d)%nat -> regular u d l ->
  let n := length d in
  exists x : list R, tri_solve (V := RV) a b = Ret x /\ length x = n
    /\ (forall i, (i < n - 2)%nat -> row u d l x i = at_ b i)
    /\ row u d l x (n - 2) = at_ b (n - 2) + at_ u (n - 2) * at_ x (n - 1)
    /\ row u d l x (n - 1)
         = at_ b (n - 1) + at_ l (n - 2) * (at_ u (n - 2) / pivot u d l (n - 2)) * at_ x (n - 1)
    /\ ((forall i, (i < n)%nat -> row u d l x i = at_ b i) <-> at_ u (n - 2) * at_ x (n - 1) = 0).
Proof.
  intros u d l b a E Hb Hn Hp n. unfold tri_try_new in E.
  destruct (Nat.eqb_spec (length u) (length l)) as [E1 |]; [| discriminate].
  destruct (Nat.eqb_spec (length u + 1) (length d)) as [E2 |]; [| discriminate]. injection E as <-.
  set (x := tab (xsol (V := RV) n (at_ l) (at_ d) (at_ u) (at_ b)) n).
  assert (at_ x (n - 1) = xsol (V := RV) n (at_ l) (at_ d) (at_ u) (at_ b) (n - 1)) as Ex.
  { unfold at_ at 1, x. apply tab_nth. unfold n in *. lia. }
  assert (forall i, (i < n - 2)%nat -> row u d l x i = at_ b i) as R1.
  { intros i Hi. now apply rows_low. }
  assert (row u d l x (n - 2) = at_ b (n - 2) + at_ u (n - 2) * at_ x (n - 1)) as R2.
  { rewrite Ex. now apply row_second_last. }
  assert (row u d l x (n - 1)
         = at_ b (n - 1) + at_ l (n - 2) * (at_ u (n - 2) / pivot u d l (n - 2)) * at_ x (n - 1)) as R3.
  { rewrite Ex. now apply row_last. }
  exists x. split; [| split; [| split; [| split; [| split]]]]; auto.
  - now apply solve_is.
  - unfold x. apply tab_length.
  - split.
    + intros R. specialize (R (n - 2)%nat ltac:(unfold n; lia)). lra.
    + intros Z i Hi. destruct (Nat.lt_ge_cases i (n - 2)) as [C | C]; [now apply R1 |].
      destruct (Nat.eq_dec i (n - 2)) as [-> | N]; [rewrite R2, Z; ring |].
      replace i with (n - 1)%nat by lia. rewrite R3. unfold Rdiv.
      replace (at_ l (n - 2) * (at_ u (n - 2) * / pivot u d l (n - 2)) * at_ x (n - 1))
        with (at_ l (n - 2) * / pivot u d l (n - 2) * (at_ u (n - 2) * at_ x (n - 1))) by ring.
      rewrite Z. ring.
Qed.
Print Assumptions C38_solve_rows.

(** A zero right-hand side has the zero solution, so there the defect of the last two rows vanishes. *)
Theorem C38_zero : forall (u d l b : list R) a,
  tri_try_new u d l = Some a -> length b = length d -> (2 <= length d)%nat -> regular u d l ->
  (forall i, at_ b i = 0) -> exists x : list R, tri_solve (V := RV) a b = Ret x /\ length x = length d /\ forall i, at_ x i = 0.
Proof.
  intros u d l b a E Hb Hn Hp Z. unfold tri_try_new in E.
  destruct (Nat.eqb_spec (length u) (length l)) as [E1 |]; [| discriminate].
  destruct (Nat.eqb_spec (length u + 1) (length d)) as [E2 |]; [| discriminate]. injection E as <-.
  eexists. split; [now apply solve_is |]. rewrite tab_length. split; [reflexivity |].
  assert (forall i, xf (V := RV) (at_ l) (at_ d) (at_ u) (at_ b) i = 0) as F0.
  { induction i as [| k IH]; cbn [xf]; [| rewrite IH]; rewrite Z; simpl; unfold Rdiv; ring. }
  assert (forall k i, xback (V := RV) (at_ l) (at_ d) (at_ u) (at_ b) k i = 0) as B0.
  { induction k as [| k IH]; intros i; cbn [xback]; [apply F0 |]. rewrite F0, IH. simpl. ring. }
  intros i. unfold at_ at 1. destruct (Nat.lt_ge_cases i (length d)) as [C | C].
  - rewrite tab_nth by exact C. apply B0.
  - apply nth_overflow. now rewrite tab_length.
Qed.
Print Assumptions C38_zero.

(** Size one is solved. *)
Theorem C38_size_one : forall (u d l b : list R) a,
  tri_try_new u d l = Some a -> length b = 1%nat -> length d = 1%nat -> at_ d 0 <> 0 ->
  exists x : R, tri_solve (V := RV) a b = Ret [x] /\ at_ d 0 * x = at_ b 0.
Proof.
  intros u d l b a E Hb Hd Nz. unfold tri_try_new in E. destruct (_ && _); [| discriminate]. injection E as <-.
  destruct d as [| d0 [| ? ?]]; try discriminate. destruct b as [| b0 [| ? ?]]; try discriminate.
  exists (b0 / d0). split; [reflexivity |]. unfold at_ in *. simpl in *. field. exact Nz.
Qed.
Print Assumptions C38_size_one.

(** The pivots of a strictly diagonally dominant matrix exceed the upper diagonal. *)
Lemma dominant_pivots u d l : dominant u d l -> forall i, (i < length d)%nat -> pivot u d l i <> 0
  /\ ((i + 1 < length d)%nat -> Rabs (at_ u i) < Rabs (pivot u d l i)).
Proof.
  intros H. induction i as [| k IH]; intros Hi.
  - specialize (H 0%nat Hi). change (0 <? 0)%nat with false in H. cbn match in H. cbn [pivot].
    assert (0 < Rabs (at_ d 0)) as P.
    { destruct (Nat.ltb_spec (0 + 1) (length d)); [| lra]. pose proof (Rabs_pos (at_ u 0)). lra. }
    split; [intros Z; rewrite Z, Rabs_R0 in P; lra |].
    intros L. replace (0 + 1 <? length d)%nat with true in H by (symmetry; now apply Nat.ltb_lt). lra.
  - destruct (IH ltac:(lia)) as [Pk Lk]. specialize (Lk ltac:(lia)). specialize (H (S k) Hi).
    replace (0 <? S k)%nat with true in H by reflexivity. cbn match in H. replace (S k - 1)%nat with k in H by lia.
    cbn [pivot].
    assert (Rabs (at_ l k * at_ u k / pivot u d l k) <= Rabs (at_ l k)) as B.
    { assert (0 < Rabs (pivot u d l k)) as PP by now apply Rabs_pos_lt.
      unfold Rdiv. rewrite !Rabs_mult, Rabs_inv.
      assert (Rabs (at_ u k) * / Rabs (pivot u d l k) <= 1) as Q.
      { apply Rmult_le_reg_r with (Rabs (pivot u d l k)); [exact PP |].
        rewrite Rmult_assoc, Rinv_l by lra. lra. }
      rewrite Rmult_assoc. pose proof (Rabs_pos (at_ l k)). nra. }
    assert (Rabs (at_ d (S k)) - Rabs (at_ l k) <= Rabs (at_ d (S k) - at_ l k * at_ u k / pivot u d l k)) as T.
    { pose proof (Rabs_triang_inv (at_ d (S k)) (at_ l k * at_ u k / pivot u d l k)). lra. }
    split.
    + intros Z. rewrite Z, Rabs_R0 in T.
      destruct (Nat.ltb_spec (S k + 1) (length d)); [pose proof (Rabs_pos (at_ u (S k))) |]; lra.
    + intros L. replace (S k + 1 <? length d)%nat with true in H by (symmetry; now apply Nat.ltb_lt). lra.
Qed.

(** Strictly diagonally dominant matrices have no vanishing pivot, so the above applies to them. *)
Theorem C38_dominant : forall u d l, (length u + 1 = length d)%nat -> dominant u d l -> regular u d l.
Proof. intros u d l Hu H i Hi. now apply dominant_pivots. Qed.
Print Assumptions C38_dominant.

(** The promised [A x = b] fails already for a dominant 2x2 system. *)
Theorem C38_solution_refuted : exists u d l b a x, tri_try_new u d l = Some a /\ length b = length d
  /\ dominant u d l /\ regular u d l /\ tri_solve (V := RV) a b = Ret x
  /\ exists i, (i < length d)%nat /\ row u d l x i <> at_ b i.
Proof.
  set (u := [1]). set (d := [2; 2]). set (l := [1]). set (b := [3; 3]).
  assert (dominant u d l) as D.
  { intros i Hi. unfold u, d, l, at_ in *. simpl in Hi.
    destruct i as [| [| i]]; [| | lia]; cbn; rewrite !Rabs_pos_eq by lra; lra. }
  assert (regular u d l) as Rg by now apply C38_dominant.
  destruct (C38_solve_rows u d l b (mkTri u d l 2) eq_refl eq_refl ltac:(simpl; lia) Rg)
    as (x & E & _ & _ & _ & R3 & I).
  exists u, d, l, b, (mkTri u d l 2), x. repeat (split; [assumption || reflexivity |]).
  assert (at_ x 1 <> 0) as Nx.
  { intros Z. simpl length in *. simpl (2 - 1)%nat in *. simpl (2 - 2)%nat in *.
    assert (forall i, (i < 2)%nat -> row u d l x i = at_ b i) as A.
    { apply I. rewrite Z. ring. }
    pose proof (A 0%nat ltac:(lia)) as A0. pose proof (A 1%nat ltac:(lia)) as A1.
    unfold row in A0, A1. simpl in A0, A1. rewrite Z in A0, A1. unfold at_, u, d, l, b in A0, A1. simpl in A0, A1. lra. }
  exists 1%nat. split; [simpl; lia |]. simpl length in R3. simpl (2 - 1)%nat in R3. simpl (2 - 2)%nat in R3.
  rewrite R3. cbn [pivot]. unfold at_ in *. unfold u, d, l in *. simpl in *. lra.
Qed.
Print Assumptions C38_solution_refuted.

(** Solving never panics for a well-shaped right-hand side, for any Value type. *)
Theorem C38_total : forall (V : Value) (u d l b : list V) a,
  tri_try_new u d l = Some a -> length b = length d -> exists x, tri_solve a b = Ret x /\ length x = length d.
Proof. intros V u d l b a. apply tri_solve_total. Qed.
Print Assumptions C38_total.

Example C38_case : dominant [1; 1; 1] [4; 4; 4; 4] [1; -1; 1] /\ regular [1; 1; 1] [4; 4; 4; 4] [1; -1; 1]
  /\ exists a, tri_try_new [1; 1; 1] [4; 4; 4; 4] [1; -1; 1] = Some a /\ length [1; 2; 3; 4] = 4%nat.
Proof.
  assert (dominant [1; 1; 1] [4; 4; 4; 4] [1; -1; 1]) as D.
  { intros i Hi. unfold at_. simpl in Hi.
    destruct i as [| [| [| [| i]]]]; [| | | | lia]; cbn; rewrite ?(Rabs_left (-1)) by lra;
      rewrite !Rabs_pos_eq by lra; lra. }
  split; [exact D |]. split; [now apply C38_dominant |]. eexists. split; reflexivity.
Qed.
