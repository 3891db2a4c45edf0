(** Facts on grid lookup and order checks. *)
From Coq Require Import ZArith ZifyNat Reals Bool List Arith Lia Lra.
From Verif Require Import Base Value RealValue InterpModel.
Import ListNotations.
Ltac Zify.zify_post_hook ::= Z.div_mod_to_equations.
Open Scope nat_scope.
Arguments Nat.div : simpl never.

Lemma index_some {A} (l : list A) i d : i < length l -> index l i = Ret (nth i l d).
Proof.
  intros H. unfold index. rewrite (nth_error_nth' l d H). reflexivity.
Qed.

Lemma index_none {A} (l : list A) i : length l <= i -> index l i = Panic.
Proof. intros H. unfold index. apply nth_error_None in H. rewrite H. reflexivity. Qed.

(** ** Binary search *)

Lemma pp_loop_total {A} (p : A -> bool) l : forall fuel left right,
  left <= right -> right <= length l -> right - left <= fuel ->
  exists k, pp_loop fuel p l left right = Ret k /\ left <= k <= right.
Proof.
  induction fuel as [| f IH]; intros left right H1 H2 H3.
  - assert (left = right) by lia. subst. exists right. simpl. rewrite Nat.ltb_irrefl. auto.
  - simpl. destruct (Nat.ltb_spec left right) as [L | L].
    + assert (left + (right - left) / 2 < right) by lia.
      destruct l as [| d l'] eqn:El; [simpl in *; lia |]. rewrite <- El in *.
      rewrite (index_some l _ d) by lia. simpl bind.
      destruct (p _).
      * destruct (IH (left + (right - left) / 2 + 1) right) as (k & E & B); try lia.
        exists k. split; [exact E | lia].
      * destruct (IH left (left + (right - left) / 2)) as (k & E & B); try lia.
        exists k. split; [exact E | lia].
    + exists left. split; [reflexivity | lia].
Qed.

Lemma partition_point_total {A} (p : A -> bool) l :
  exists k, partition_point p l = Ret k /\ k <= length l.
Proof.
  destruct (pp_loop_total p l (length l) 0 (length l)) as (k & E & B); try lia.
  exists k. split; [exact E | lia].
Qed.

(** The documented contract: on a list partitioned at [k] the answer is [k]. *)
Lemma pp_loop_contract {A} (p : A -> bool) l d k :
  (forall i, i < k -> p (nth i l d) = true) ->
  (forall i, k <= i < length l -> p (nth i l d) = false) ->
  forall fuel left right,
  left <= k <= right -> right <= length l -> right - left <= fuel ->
  pp_loop fuel p l left right = Ret k.
Proof.
  intros Ht Hf. induction fuel as [| f IH]; intros left right H1 H2 H3.
  - assert (left = right) by lia. subst. simpl. rewrite Nat.ltb_irrefl. f_equal. lia.
  - simpl. destruct (Nat.ltb_spec left right) as [L | L]; [| f_equal; lia].
    assert (left + (right - left) / 2 < right) by lia.
    rewrite (index_some l _ d) by lia. simpl bind.
    destruct (Nat.lt_ge_cases (left + (right - left) / 2) k) as [C | C].
    + rewrite Ht by exact C. apply IH; lia.
    + rewrite Hf by lia. apply IH; lia.
Qed.

Lemma partition_point_contract {A} (p : A -> bool) l d k : k <= length l ->
  (forall i, i < k -> p (nth i l d) = true) ->
  (forall i, k <= i < length l -> p (nth i l d) = false) ->
  partition_point p l = Ret k.
Proof. intros Hk Ht Hf. apply (pp_loop_contract p l d k Ht Hf); lia. Qed.

(** ** find_index, any Value *)

Lemma find_index_total {V : Value} {P} (getx : P -> V) l x :
  exists r, find_index getx l x = Ret r /\
    (forall i, r = Ok i -> i < length l /\ (i = 0 \/ i + 1 < length l)) /\
    (l = [] -> r = Err (InsufficientPointsError 0)) /\
    (forall e, r = Err e -> e = InsufficientPointsError (length l) \/ e = OutOfLowerBound x \/ e = OutOfUpperBound x).
Proof.
  unfold find_index. destruct l as [| p t] eqn:El.
  - eexists. split; [reflexivity |]. split; [| split]; [discriminate | reflexivity |].
    intros e [= <-]. auto.
  - rewrite <- El. destruct (partition_point_total (fun q => v_ltb (getx q) x) l) as (k & E & B).
    rewrite E. simpl bind. destruct (Nat.eqb_spec k 0) as [K | K].
    + simpl. destruct (v_leb (getx p) x); (eexists; split; [reflexivity |]; split; [| split]).
      * intros i [= <-]. subst l. simpl. lia.
      * subst l. discriminate.
      * discriminate.
      * discriminate.
      * subst l. discriminate.
      * intros e [= <-]. auto.
    + simpl. destruct (Nat.eqb_spec k (length l)) as [K' | K'];
        (eexists; split; [reflexivity |]; split; [| split]).
      * discriminate.
      * subst l. discriminate.
      * intros e [= <-]. auto.
      * intros i [= <-]. lia.
      * subst l. discriminate.
      * discriminate.
Qed.

(** ** find_index, sorted reals *)
Open Scope R_scope.

Section Sorted.
Context {P : Type} (getx : P -> R) (l : list P) (d : P).
Notation X i := (getx (nth i l d)).
Hypothesis Hs : forall i j, (i <= j < length l)%nat -> X i <= X j.

Lemma first_is : (0 < length l)%nat -> exists p t, l = p :: t /\ getx p = X 0.
Proof. destruct l as [| p t]; simpl; [lia |]. eauto. Qed.

Lemma find_index_in i x : (i + 1 < length l)%nat -> X i < x <= X (i + 1) ->
  find_index (V := RV) getx l x = Ret (Ok i).
Proof.
  intros Hi Hx. destruct (first_is ltac:(lia)) as (p & t & El & Ep).
  unfold find_index. rewrite El at 1.
  assert (partition_point (fun q => v_ltb (v := RV) (getx q) x) l = Ret (i + 1)%nat) as E.
  { apply (partition_point_contract _ l d); [lia | |].
    - intros j Hj. apply Rltb_true. apply Rle_lt_trans with (X i); [| tauto]. apply Hs. lia.
    - intros j Hj. apply Rltb_false. apply Rle_trans with (X (i + 1)); [tauto |]. apply Hs. lia. }
  rewrite E. simpl bind. replace (i + 1 =? 0)%nat with false by (symmetry; apply Nat.eqb_neq; lia). simpl.
  replace (i + 1 =? length l)%nat with false by (symmetry; apply Nat.eqb_neq; lia).
  do 2 f_equal. lia.
Qed.

Lemma find_index_first x : (0 < length l)%nat -> x = X 0 ->
  find_index (V := RV) getx l x = Ret (Ok 0%nat).
Proof.
  intros Hi Hx. destruct (first_is Hi) as (p & t & El & Ep).
  unfold find_index. rewrite El at 1.
  assert (partition_point (fun q => v_ltb (v := RV) (getx q) x) l = Ret 0%nat) as E.
  { apply (partition_point_contract _ l d); [lia | lia |].
    intros j Hj. apply Rltb_false. rewrite Hx. apply Hs. lia. }
  rewrite E. simpl bind. rewrite Ep, Hx.
  assert (Rleb (X 0) (X 0) = true) as T by (apply Rleb_true; lra).
  simpl. rewrite T. reflexivity.
Qed.

Lemma find_index_below x : (0 < length l)%nat -> x < X 0 ->
  find_index (V := RV) getx l x = Ret (Err (OutOfLowerBound x)).
Proof.
  intros Hi Hx. destruct (first_is Hi) as (p & t & El & Ep).
  unfold find_index. rewrite El at 1.
  assert (partition_point (fun q => v_ltb (v := RV) (getx q) x) l = Ret 0%nat) as E.
  { apply (partition_point_contract _ l d); [lia | lia |].
    intros j Hj. apply Rltb_false. apply Rle_trans with (X 0); [lra |]. apply Hs. lia. }
  rewrite E. simpl bind. rewrite Ep.
  assert (Rleb (X 0) x = false) as T by (apply Rleb_false; lra).
  simpl. rewrite T. reflexivity.
Qed.

Lemma find_index_above x : (0 < length l)%nat -> X (length l - 1) < x ->
  find_index (V := RV) getx l x = Ret (Err (OutOfUpperBound x)).
Proof.
  intros Hi Hx. destruct (first_is Hi) as (p & t & El & Ep).
  unfold find_index. rewrite El at 1.
  assert (partition_point (fun q => v_ltb (v := RV) (getx q) x) l = Ret (length l)) as E.
  { apply (partition_point_contract _ l d); [lia | | lia].
    intros j Hj. apply Rltb_true. apply Rle_lt_trans with (X (length l - 1)); [| exact Hx]. apply Hs. lia. }
  rewrite E. simpl bind. replace (length l =? 0)%nat with false by (symmetry; apply Nat.eqb_neq; lia). simpl.
  rewrite Nat.eqb_refl. reflexivity.
Qed.

(** Every x of the range is the first knot or lies in one cell. *)
Lemma cell_exists x : (0 < length l)%nat -> X 0 <= x <= X (length l - 1) ->
  x = X 0 \/ exists i, (i + 1 < length l)%nat /\ X i < x <= X (i + 1).
Proof.
  intros Hl [H0 H1].
  assert (forall k, (k < length l)%nat -> x <= X k ->
    x = X 0 \/ exists i, (i + 1 < length l)%nat /\ X i < x <= X (i + 1)) as G.
  { induction k as [| k IH]; intros Hk Hx.
    - left. lra.
    - destruct (Rle_lt_dec x (X k)) as [C | C].
      + apply IH; [lia | exact C].
      + right. exists k. replace (k + 1)%nat with (S k) by lia. split; [lia | tauto]. }
  apply (G (length l - 1)%nat); [lia | exact H1].
Qed.

End Sorted.

(** ** check_order *)
Open Scope nat_scope.

(** No x is smaller than its predecessor, for any Value. *)
Definition in_order {V : Value} {P} (getx : P -> V) (l : list P) : Prop :=
  forall i p q, nth_error l i = Some p -> nth_error l (S i) = Some q -> v_ltb (getx q) (getx p) = false.

Lemma check_order_spec {V : Value} {P} (getx : P -> V) l : forall temp,
  (check_order getx temp l = Ok l /\ in_order getx l
     /\ (forall p, nth_error l 0 = Some p -> v_ltb (getx p) temp = false))
  \/ (check_order getx temp l = Err PointOrderError
     /\ (~ in_order getx l \/ exists p, nth_error l 0 = Some p /\ v_ltb (getx p) temp = true)).
Proof.
  induction l as [| a t IH]; intros temp.
  - left. split; [reflexivity |]. split; [| discriminate]. intros [| i]; discriminate.
  - simpl. destruct (v_ltb (getx a) temp) eqn:E.
    + right. split; [reflexivity |]. right. eauto.
    + destruct (IH (getx a)) as [(E1 & O & F) | (E1 & O)]; rewrite E1.
      * left. split; [reflexivity |]. split; [| intros p [= <-]; exact E].
        intros [| i] p q; simpl.
        -- intros [= <-] Hq. apply F. exact Hq.
        -- apply O.
      * right. split; [reflexivity |]. left. intros H. destruct O as [O | (p & Hp & Lp)].
        -- apply O. intros i p q Hp Hq. exact (H (S i) p q Hp Hq).
        -- pose proof (H 0 a p eq_refl Hp). congruence.
Qed.

Lemma in_order_real {P} (getx : P -> R) (l : list P) d :
  in_order (V := RV) getx l <-> forall i j, (i <= j < length l)%nat -> (getx (nth i l d) <= getx (nth j l d))%R.
Proof.
  split.
  - intros H i j Hij. induction j as [| j IH].
    + replace i with 0 by lia. apply Rle_refl.
    + destruct (Nat.eq_dec i (S j)) as [-> | N]; [apply Rle_refl |].
      apply Rle_trans with (getx (nth j l d)); [apply IH; lia |].
      apply Rltb_false. apply (H j); apply nth_error_nth'; lia.
  - intros H i p q Hp Hq. apply Rltb_false.
    assert (S i < length l) by (apply nth_error_Some; congruence).
    apply (nth_error_nth l i d) in Hp. apply (nth_error_nth l (S i) d) in Hq. subst p q. apply H. lia.
Qed.

(** Reduce an equation of successful results to the values. *)
Ltac ret_eq :=
  match goal with |- @Ret _ (@Ok _ _ ?a) = @Ret _ (@Ok _ _ ?b) =>
    let H := fresh in assert (a = b) as H; [| rewrite H; reflexivity] end.
