(** Reasoning about [loop]/[while] of Base.v. *)
From Coq Require Import ZArith Bool List Lia.
From Verif Require Import Base.
Open Scope Z_scope.

Section Loop.
  Context {S R : Type} (body : S -> S + R).

  (** States visited by the loop from [s]. *)
  Inductive visits : S -> S -> Prop :=
  | visits_here s : visits s s
  | visits_step s s' t : body s = inl s' -> visits s' t -> visits s t.

  Lemma visits_trans a b c : visits a b -> visits b c -> visits a c.
  Proof. induction 1; intros; auto. eapply visits_step; eauto. Qed.

  (** [steps n s t]: t is reached from s after exactly n iterations. *)
  Inductive steps : Z -> S -> S -> Prop :=
  | steps_0 s : steps 0 s s
  | steps_S n s s' t : body s = inl s' -> steps n s' t -> steps (n + 1) s t.

  Lemma steps_nonneg n s t : steps n s t -> 0 <= n.
  Proof. induction 1; lia. Qed.

  Lemma steps_app n m a b c : steps n a b -> steps m b c -> steps (n + m) a c.
  Proof.
    induction 1 as [s | n s s' t B H IH]; intros Hm.
    - exact Hm.
    - replace (n + 1 + m) with ((n + m) + 1) by lia. eapply steps_S; eauto.
  Qed.

  Lemma steps_visits n s t : steps n s t -> visits s t.
  Proof. induction 1; [constructor | econstructor; eauto]. Qed.

  Lemma loop_cases p : forall s,
    match loop p body s with
    | inr r => exists t, visits s t /\ body t = inr r
    | inl t => steps (Z.pos p) s t
    end.
  Proof.
    induction p as [q IH | q IH |]; intros s; simpl.
    - destruct (body s) as [s0 | r] eqn:B.
      + pose proof (IH s0) as H0. destruct (loop q body s0) as [s1 | r].
        * pose proof (IH s1) as H1. destruct (loop q body s1) as [s2 | r].
          -- replace (Z.pos q~1) with ((Z.pos q + Z.pos q) + 1) by lia.
             eapply steps_S; [exact B |]. eapply steps_app; eauto.
          -- destruct H1 as [t [V T]]. exists t. split; [| exact T].
             eapply visits_step; [exact B |]. eapply visits_trans; [eapply steps_visits; eauto | exact V].
        * destruct H0 as [t [V T]]. exists t. split; [| exact T]. eapply visits_step; eauto.
      + exists s. split; [constructor | exact B].
    - pose proof (IH s) as H0. destruct (loop q body s) as [s1 | r].
      + pose proof (IH s1) as H1. destruct (loop q body s1) as [s2 | r].
        * replace (Z.pos q~0) with (Z.pos q + Z.pos q) by lia. eapply steps_app; eauto.
        * destruct H1 as [t [V T]]. exists t. split; [| exact T].
          eapply visits_trans; [eapply steps_visits; eauto | exact V].
      + exact H0.
    - destruct (body s) as [s0 | r] eqn:B.
      + replace 1 with (0 + 1) by lia. eapply steps_S; [exact B | constructor].
      + exists s. split; [constructor | exact B].
  Qed.

  (** A loop whose measure is non-negative, decreases, and starts below the fuel terminates. *)
  Lemma loop_terminates (Inv : S -> Prop) (m : S -> Z) p s :
    (forall a b, Inv a -> body a = inl b -> Inv b /\ m b < m a /\ 0 <= m b) ->
    Inv s -> 0 <= m s < Z.pos p ->
    exists r t, loop p body s = inr r /\ visits s t /\ Inv t /\ body t = inr r.
  Proof.
    intros Hs Is Hm.
    assert (forall a t, visits a t -> Inv a -> Inv t) as VI.
    { induction 1 as [a | a b t B V IH]; intros Ia; [exact Ia |].
      apply IH. destruct (Hs _ _ Ia B). tauto. }
    assert (forall n a t, steps n a t -> Inv a -> 0 <= m a -> 0 <= m t /\ m t + n <= m a) as SM.
    { induction 1 as [a | n a b t B V IH]; intros Ia Ma; [lia |].
      destruct (Hs _ _ Ia B) as (Ib & M1 & M2). specialize (IH Ib M2). lia. }
    pose proof (loop_cases p s) as C. destruct (loop p body s) as [t | r].
    - specialize (SM _ _ _ C Is (proj1 Hm)). lia.
    - destruct C as [t [V B]]. exists r, t. repeat split; eauto.
  Qed.
End Loop.
