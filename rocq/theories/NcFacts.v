(** Lemmas on the natural cubic fit: what its loop builds and what it hands to the solver. *)
From Coq Require Import ZArith List Arith Bool Lia.
From Verif Require Import Base Value InterpModel InterpFacts TriFacts PropsTri.
Import ListNotations.
Open Scope nat_scope.

Lemma dvector_add_tab {V : Value} (f g : nat -> V) n :
  dvector_add (tab f n) (tab g n) = Ret (tab (fun i => (f i + g i)%V) n).
Proof.
  unfold tab. generalize 0. induction n as [| n IH]; intros a; [reflexivity |].
  simpl. rewrite IH. reflexivity.
Qed.

Section Fit.
Context {V : Value} (pts : list (V * V)) (d0 : V * V) (c6 c3 : V).
Hypothesis H6 : v_const 6%Z = Ret c6.
Hypothesis H3 : v_const 3%Z = Ret c3.
Notation n := (length pts).

Definition nx (i : nat) : V := fst (nth i pts d0).
Definition ny (i : nat) : V := snd (nth i pts d0).
Definition nc_off (j : nat) : V := ((nx (j + 2) - nx (j + 1)) / c6)%V.
Definition nc_diag (j : nat) : V := ((nx (j + 1) - nx j + (nx (j + 2) - nx (j + 1))) / c3)%V.
Definition nc_coff (j : nat) : V := v_recip (nx (j + 2) - nx (j + 1))%V.
Definition nc_cdiag (j : nat) : V := (- (v_recip (nx (j + 1) - nx j) + v_recip (nx (j + 2) - nx (j + 1))))%V.
Definition nc_mm (j : nat) : V :=
  if j =? 0 then (ny 0 / (nx 1 - nx 0))%V
  else if j + 3 =? n then (ny (j + 2) / (nx (j + 2) - nx (j + 1)))%V
  else v_zero.

Definition nc_state (j : nat) : NcVectors V :=
  mkNc (tab nc_mm j) (tab nc_off (min j (n - 3))) (tab nc_diag j) (tab nc_off (j - 1))
    (tab nc_coff (min j (n - 3))) (tab nc_cdiag j) (tab nc_coff (j - 1)).

Lemma nc_step j : j + 2 < n -> nc_row pts (j + 1) (nc_state j) = Ret (nc_state (j + 1)).
Proof.
  intros Hj. unfold nc_row.
  rewrite (index_some pts (j + 1) d0) by lia. cbn [bind].
  rewrite (index_some pts (j + 1 - 1) d0) by lia. cbn [bind].
  rewrite (index_some pts (j + 1 + 1) d0) by lia. cbn [bind].
  rewrite H6, H3. cbn [bind]. f_equal.
  replace (j + 1 - 1) with j by lia. replace (j + 1 + 1) with (j + 2) by lia. replace (j + 1 + 2) with (j + 3) by lia.
  unfold nc_state. cbn [nc_m b_upper b_diag b_lower c_upper c_diag c_lower].
  replace (j + 1 =? 1) with (j =? 0) by (destruct (Nat.eqb_spec j 0), (Nat.eqb_spec (j + 1) 1); reflexivity || lia).
  replace (j + 1 - 1) with j by lia.
  assert (forall f : nat -> V, tab f (j + 1) = tab f j ++ [f j]) as TS.
  { intros f. rewrite Nat.add_1_r. apply tab_S. }
  rewrite (TS nc_mm), (TS nc_diag), (TS nc_cdiag).
  assert (forall f : nat -> V, (if negb (j + 3 =? n) then tab f (min j (n - 3)) ++ [f j] else tab f (min j (n - 3)))
     = tab f (min (j + 1) (n - 3))) as Up.
  { intros f. destruct (Nat.eqb_spec (j + 3) n) as [E | N]; simpl negb; cbn match.
    - rewrite (Nat.min_r j), (Nat.min_r (j + 1)) by lia. reflexivity.
    - rewrite (Nat.min_l j), (Nat.min_l (j + 1)) by lia. now rewrite TS. }
  assert (forall (f : nat -> V) x, (j <> 0 -> x = f (j - 1)) -> (if negb (j =? 0) then tab f (j - 1) ++ [x] else tab f (j - 1))
     = tab f j) as Lo.
  { intros f x Hx. destruct (Nat.eqb_spec j 0) as [-> | N]; simpl negb; cbn match; [reflexivity |].
    rewrite (Hx N). rewrite <- tab_S. f_equal. lia. }
  f_equal.
  - f_equal. f_equal. unfold nc_mm. destruct (Nat.eqb_spec j 0) as [-> | N]; reflexivity.
  - apply (Up nc_off).
  - apply Lo. intros N. unfold nc_off. replace (j - 1 + 2) with (j + 1) by lia. now replace (j - 1 + 1) with j by lia.
  - apply (Up nc_coff).
  - apply Lo. intros N. unfold nc_coff. replace (j - 1 + 2) with (j + 1) by lia. now replace (j - 1 + 1) with j by lia.
Qed.

Lemma nc_loop : 3 <= n ->
  for_each (seq 1 (n - 2)) (nc_row pts) (mkNc [] [] [] [] [] [] []) = Ret (nc_state (n - 2)).
Proof.
  intros Hn. change (mkNc [] [] [] [] [] [] []) with ((fun i => nc_state (i - 1)) 1).
  rewrite (for_each_seq _ (fun i => nc_state (i - 1))).
  - now replace (1 + (n - 2) - 1) with (n - 2) by lia.
  - intros i Hi. replace i with (i - 1 + 1) at 1 by lia. rewrite nc_step by lia. f_equal. f_equal. lia.
Qed.

Definition nc_rhs (j : nat) : V :=
  (mul_entry nc_coff nc_cdiag nc_coff (fun j => ny (j + 1)) (n - 2) j + nc_mm j)%V.

Definition nc_matrix : TridiagonalMatrix V :=
  mkTri (tab nc_off (n - 3)) (tab nc_diag (n - 2)) (tab nc_off (n - 3)) (n - 2).

Lemma nc_middle : 3 <= n -> map snd (skipn 1 (firstn (n - 1) pts)) = tab (fun j => ny (j + 1)) (n - 2).
Proof.
  intros Hn. assert (length (skipn 1 (firstn (n - 1) pts)) = n - 2) as L.
  { rewrite skipn_length, firstn_length. lia. }
  apply (nth_ext _ _ (snd d0) (snd d0)); [rewrite map_length, L, tab_length; reflexivity |].
  intros i Hi. rewrite map_length, L in Hi. rewrite map_nth, tab_nth by exact Hi. unfold ny. f_equal.
  assert (nth (i + 1) pts d0 = nth (i + 1) (firstn (n - 1) pts) d0) as ->.
  { rewrite <- (firstn_skipn (n - 1) pts) at 1. apply app_nth1. rewrite firstn_length. lia. }
  destruct (firstn (n - 1) pts) as [| p t]; [destruct i; reflexivity |]. simpl. now rewrite Nat.add_1_r.
Qed.

Lemma nc_fit self : 3 <= n ->
  natural_cubic_try_fit self pts =
  (y2 <- tri_solve nc_matrix (tab nc_rhs (n - 2)) ;;
   Ret (check_order s_x (nx 0)
          (map (fun '((x, y), d) => slope_new x y d) (combine pts ([v_zero] ++ y2 ++ [v_zero]))))).
Proof.
  intros Hn. unfold natural_cubic_try_fit. destruct (Nat.ltb_spec n 3); [lia |].
  rewrite nc_loop by exact Hn. cbn [bind]. unfold nc_state. cbn [nc_m b_upper b_diag b_lower c_upper c_diag c_lower].
  replace (min (n - 2) (n - 3)) with (n - 3) by lia. replace (n - 2 - 1) with (n - 3) by lia.
  unfold tri_try_new. rewrite !tab_length, Nat.eqb_refl. replace (n - 3 + 1) with (n - 2) by lia.
  rewrite Nat.eqb_refl. cbn [andb unwrap bind].
  rewrite nc_middle by exact Hn.
  assert (tri_mul (mkTri (tab nc_coff (n - 3)) (tab nc_cdiag (n - 2)) (tab nc_coff (n - 3)) (n - 2))
    (tab (fun j => ny (j + 1)) (n - 2)) = Ret (Some (tab (mul_entry nc_coff nc_cdiag nc_coff (fun j => ny (j + 1)) (n - 2)) (n - 2)))) as ->.
  { replace (n - 3) with (n - 2 - 1) by lia. apply tri_mul_computes. lia. }
  cbn [unwrap bind]. rewrite dvector_add_tab. cbn [bind]. fold nc_matrix. fold nc_rhs.
  rewrite (index_some pts 0 d0) by lia. reflexivity.
Qed.

End Fit.
