(** Tables, counted loops, and what the Thomas solver computes, for any Value type. *)
From Coq Require Import List Arith Bool Lia.
From Verif Require Import Base Value InterpModel InterpFacts.
Import ListNotations.
Open Scope nat_scope.

Definition tab {A} (f : nat -> A) (n : nat) : list A := map f (seq 0 n).

Lemma tab_length {A} (f : nat -> A) n : length (tab f n) = n.
Proof. unfold tab. now rewrite map_length, seq_length. Qed.

Lemma tab_nth {A} (f : nat -> A) n i d : i < n -> nth i (tab f n) d = f i.
Proof.
  intros H. rewrite (nth_indep _ d (f 0)) by now rewrite tab_length. unfold tab. rewrite map_nth.
  now rewrite seq_nth.
Qed.

Lemma tab_index {A} (f : nat -> A) n i : i < n -> index (tab f n) i = Ret (f i).
Proof.
  intros H. rewrite (index_some _ i (f 0)) by now rewrite tab_length. now rewrite tab_nth.
Qed.

Lemma tab_ext {A} (f g : nat -> A) n : (forall i, i < n -> f i = g i) -> tab f n = tab g n.
Proof. intros H. apply map_ext_in. intros i Hi. apply in_seq in Hi. apply H. lia. Qed.

Lemma tab_S {A} (f : nat -> A) n : tab f (S n) = tab f n ++ [f n].
Proof. unfold tab. rewrite seq_S, map_app. reflexivity. Qed.

Lemma list_tab {A} (l : list A) d : l = tab (fun i => nth i l d) (length l).
Proof.
  apply (nth_ext _ _ d d); [now rewrite tab_length |]. intros i Hi. now rewrite tab_nth.
Qed.

Lemma update_spec {A} (l : list A) : forall i a d, i < length l ->
  exists l', update l i a = Ret l' /\ length l' = length l
    /\ forall j, nth j l' d = if j =? i then a else nth j l d.
Proof.
  induction l as [| h t IH]; intros i a d Hi; simpl in Hi; [lia |]. destruct i as [| i]; simpl.
  - exists (a :: t). split; [reflexivity |]. split; [reflexivity |]. intros [| j]; reflexivity.
  - destruct (IH i a d ltac:(lia)) as (t' & E & L & N). rewrite E. simpl. exists (h :: t').
    split; [reflexivity |]. split; [simpl; lia |]. intros [| j]; [reflexivity |]. simpl. apply N.
Qed.

Lemma tab_update {A} (f : nat -> A) n i a : i < n ->
  update (tab f n) i a = Ret (tab (fun j => if j =? i then a else f j) n).
Proof.
  intros H. destruct (update_spec (tab f n) i a a ltac:(now rewrite tab_length)) as (l' & E & L & N).
  rewrite E. f_equal. rewrite tab_length in L. apply (nth_ext _ _ a a); [now rewrite tab_length |].
  intros j Hj. rewrite N. rewrite !tab_nth by lia. reflexivity.
Qed.

(** ** Counted loops *)

Lemma for_each_seq {T} (body : nat -> T -> M T) (St : nat -> T) : forall k a,
  (forall i, a <= i < a + k -> body i (St i) = Ret (St (i + 1))) ->
  for_each (seq a k) body (St a) = Ret (St (a + k)).
Proof.
  induction k as [| k IH]; intros a H; simpl.
  - now rewrite Nat.add_0_r.
  - rewrite H by lia. simpl. replace (S a) with (a + 1) by lia. rewrite IH; [f_equal; f_equal; lia |].
    intros i Hi. apply H. lia.
Qed.

Lemma for_each_rev_seq {T} (body : nat -> T -> M T) (St : nat -> T) : forall m,
  (forall i, i < m -> body i (St (i + 1)) = Ret (St i)) ->
  for_each (rev (seq 0 m)) body (St m) = Ret (St 0).
Proof.
  induction m as [| m IH]; intros H; [reflexivity |].
  rewrite seq_S, rev_app_distr. simpl. replace (S m) with (m + 1) by lia. rewrite H by lia. simpl.
  apply IH. intros i Hi. apply H. lia.
Qed.

(** ** What the solver computes *)

Section Thomas.
Context {V : Value} (n : nat) (lo di up b : nat -> V).

Fixpoint sc (i : nat) : V :=
  match i with
  | O => (up 0 / di 0)%V
  | S k => (up (S k) / (di (S k) - lo k * sc k))%V
  end.

Fixpoint xf (i : nat) : V :=
  match i with
  | O => (b 0 / di 0)%V
  | S k => ((b (S k) - lo k * xf k) / (di (S k) - lo k * sc k))%V
  end.

(** [xback k i]: the backward pass applied to [k] rows starting at row [i]. *)
Fixpoint xback (k i : nat) : V :=
  match k with
  | O => xf i
  | S k' => (xf i - sc i * xback k' (S i))%V
  end.

(** The code's backward pass covers rows below [n - 2]. *)
Definition xsol (i : nat) : V := xback (n - 2 - i) i.

Lemma forward_step ix : 1 <= ix < n ->
  thomas_forward n (tab lo (n - 1)) (tab di n) (tab up (n - 1)) ix
    (tab sc (min ix (n - 1)), tab (fun j => if j <? ix then xf j else b j) n)
  = Ret (tab sc (min (ix + 1) (n - 1)), tab (fun j => if j <? ix + 1 then xf j else b j) n).
Proof.
  intros Hix. unfold thomas_forward. rewrite (Nat.min_l ix) by lia.
  assert ((if ix <? n - 1
     then u <- index (tab up (n - 1)) ix ;; d <- index (tab di n) ix ;;
          l <- index (tab lo (n - 1)) (ix - 1) ;; s <- index (tab sc ix) (ix - 1) ;;
          Ret (tab sc ix ++ [(u / (d - l * s))%V])
     else Ret (tab sc ix)) = Ret (tab sc (min (ix + 1) (n - 1)))) as ->.
  { destruct (Nat.ltb_spec ix (n - 1)) as [L | L].
    - rewrite !tab_index by lia. simpl bind. rewrite Nat.min_l by lia.
      replace (ix + 1) with (S ix) by lia. rewrite tab_S.
      destruct ix as [| k]; [lia |]. replace (S k - 1) with k by lia. reflexivity.
    - rewrite Nat.min_r by lia. f_equal. f_equal. lia. }
  simpl bind. rewrite !tab_index by lia. simpl bind. rewrite tab_update by lia. simpl bind.
  f_equal. f_equal. apply tab_ext. intros j Hj.
  destruct ix as [| k]; [lia |]. replace (S k - 1) with k by lia.
  destruct (Nat.eqb_spec j (S k)) as [-> | N].
  - replace (S k <? S k + 1) with true by (symmetry; apply Nat.ltb_lt; lia).
    rewrite Nat.ltb_irrefl. replace (k <? S k) with true by (symmetry; apply Nat.ltb_lt; lia). reflexivity.
  - destruct (Nat.ltb_spec j (S k)), (Nat.ltb_spec j (S k + 1)); try reflexivity; lia.
Qed.

Lemma xsol_step i : i < n - 2 -> xsol i = (xf i - sc i * xsol (S i))%V.
Proof.
  intros H. unfold xsol. replace (n - 2 - i) with (S (n - 2 - S i)) by lia. reflexivity.
Qed.

Lemma xsol_high i : n - 2 <= i -> xsol i = xf i.
Proof. intros H. unfold xsol. replace (n - 2 - i) with 0 by lia. reflexivity. Qed.

Lemma backward_step i : i < n - 2 ->
  thomas_backward (tab sc (n - 1)) i (tab (fun j => if j <? i + 1 then xf j else xsol j) n)
  = Ret (tab (fun j => if j <? i then xf j else xsol j) n).
Proof.
  intros Hi. unfold thomas_backward. rewrite !tab_index by lia. simpl bind. rewrite tab_update by lia.
  f_equal. apply tab_ext. intros j Hj.
  destruct (Nat.eqb_spec j i) as [-> | N].
  - rewrite Nat.ltb_irrefl. replace (i <? i + 1) with true by (symmetry; apply Nat.ltb_lt; lia).
    rewrite Nat.ltb_irrefl. replace (i + 1) with (S i) by lia. symmetry. now apply xsol_step.
  - destruct (Nat.ltb_spec j i), (Nat.ltb_spec j (i + 1)); try reflexivity; lia.
Qed.

Lemma thomas_computes : 2 <= n ->
  thomas n (tab lo (n - 1)) (tab di n) (tab up (n - 1)) (tab b n) = Ret (tab xsol n).
Proof.
  intros Hn. unfold thomas. rewrite !tab_index by lia. simpl bind. rewrite tab_update by lia. simpl bind.
  assert (([(up 0 / di 0)%V], tab (fun j => if j =? 0 then (b 0 / di 0)%V else b j) n)
    = (fun ix => (tab sc (min ix (n - 1)), tab (fun j => if j <? ix then xf j else b j) n)) 1) as ->.
  { cbv beta. rewrite Nat.min_l by lia. f_equal. apply tab_ext. intros j Hj.
    destruct (Nat.eqb_spec j 0) as [-> | N]; [reflexivity |].
    destruct (Nat.ltb_spec j 1); [lia | reflexivity]. }
  rewrite (for_each_seq _ (fun ix => (tab sc (min ix (n - 1)), tab (fun j => if j <? ix then xf j else b j) n))).
  2:{ intros i Hi. apply forward_step. lia. }
  cbn [bind]. replace (1 + (n - 1)) with n by lia. cbn [fst snd]. rewrite Nat.min_r by lia.
  assert (tab (fun j => if j <? n then xf j else b j) n
    = (fun i => tab (fun j => if j <? i then xf j else xsol j) n) (n - 2)) as ->.
  { cbv beta. apply tab_ext. intros j Hj. destruct (Nat.ltb_spec j n); [| lia].
    destruct (Nat.ltb_spec j (n - 2)); [reflexivity |]. symmetry. now apply xsol_high. }
  rewrite (for_each_rev_seq _ (fun i => tab (fun j => if j <? i then xf j else xsol j) n)).
  - f_equal.
  - intros i Hi. now apply backward_step.
Qed.

End Thomas.

(** Solving never panics and keeps the size. *)
Lemma tri_solve_total {V : Value} (a : TridiagonalMatrix V) (u d l b : list V) :
  tri_try_new u d l = Some a -> length b = length d ->
  exists x, tri_solve a b = Ret x /\ length x = length d.
Proof.
  unfold tri_try_new. destruct (Nat.eqb_spec (length u) (length l)) as [E1 |]; [| discriminate].
  destruct (Nat.eqb_spec (length u + 1) (length d)) as [E2 |]; [| discriminate].
  simpl. intros [= <-] Hb. unfold tri_solve. cbn [size diagonal upper_diagonal lower_diagonal].
  destruct (Nat.eqb_spec (length d) 1) as [E | N].
  - destruct b as [| b0 b']; [simpl in Hb; lia |]. destruct d as [| d0 d']; [simpl in E; lia |].
    exists [(b0 / d0)%V]. split; [reflexivity | simpl in *; lia].
  - set (n := length d) in *. set (z := @v_zero V).
    rewrite (list_tab l z), (list_tab d z), (list_tab u z), (list_tab b z). fold n.
    replace (length l) with (n - 1) by lia. replace (length u) with (n - 1) by lia. rewrite Hb.
    rewrite thomas_computes by lia. eexists. split; [reflexivity |]. apply tab_length.
Qed.
