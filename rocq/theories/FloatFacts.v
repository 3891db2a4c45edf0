(** Facts on the binary64 and binary32 operations of [FV]. *)
From Coq Require Import ZArith Reals Bool Lia Lra Psatz.
From Flocq Require Import Core BinarySingleNaN.
From Verif Require Import Base Value FloatValue.
Open Scope R_scope.

Section Gen.
Context (prec emax : Z) (Hp : Prec_gt_0 prec) (He : Prec_lt_emax prec emax).

(** Rounding to nearest even in the format, without overflow. *)
Definition rnd (x : R) : R := round radix2 (SpecFloat.fexp prec emax) ZnearestE x.

Definition of_int (z : Z) : binary_float prec emax := binary_normalize prec emax Hp He mode_NE z 0 false.

Lemma rnd_mono x y : x <= y -> rnd x <= rnd y.
Proof. intros H. apply round_le; [apply fexp_correct; assumption | apply valid_rnd_N | exact H]. Qed.

Lemma rnd_format z : (Z.abs z <= 2 ^ prec)%Z -> (3 <= emax)%Z ->
  generic_format radix2 (SpecFloat.fexp prec emax) (IZR z).
Proof.
  intros H H3. destruct (Z.eq_dec (Z.abs z) (2 ^ prec)) as [E | E].
  - assert (generic_format radix2 (SpecFloat.fexp prec emax) (IZR (2 ^ prec))) as G.
    { change (2 ^ prec)%Z with (radix2 ^ prec)%Z. unfold Prec_gt_0 in Hp. rewrite IZR_Zpower by lia.
      apply generic_format_bpow. unfold SpecFloat.fexp, SpecFloat.emin. unfold Prec_lt_emax in He. lia. }
    destruct (Z.abs_spec z) as [[_ A] | [_ A]]; rewrite A in E.
    + now rewrite E.
    + replace z with (- 2 ^ prec)%Z by lia. rewrite opp_IZR. now apply generic_format_opp.
  - apply generic_format_FLT. exists (Float radix2 z 0).
    + unfold F2R; simpl; ring.
    + simpl. change (Z.pow_pos 2) with (fun p => 2 ^ Z.pos p)%Z. lia.
    + simpl. unfold SpecFloat.emin. unfold Prec_gt_0, Prec_lt_emax in *. lia.
Qed.

Lemma rnd_int z : (Z.abs z <= 2 ^ prec)%Z -> (3 <= emax)%Z -> rnd (IZR z) = IZR z.
Proof. intros H H3. apply round_generic; [apply valid_rnd_N | now apply rnd_format]. Qed.

Lemma of_int_correct z : (Z.abs z < 2 ^ prec)%Z -> (3 <= emax)%Z ->
  B2R (of_int z) = IZR z /\ is_finite (of_int z) = true.
Proof.
  intros H H3. pose proof (binary_normalize_correct prec emax Hp He mode_NE z 0 false) as C.
  assert (F2R (Float radix2 z 0) = IZR z) as F by (unfold F2R; simpl; ring).
  rewrite F in C. cbv zeta in C. change (round_mode mode_NE) with ZnearestE in C. fold (rnd (IZR z)) in C.
  rewrite rnd_int in C by lia.
  rewrite Rlt_bool_true in C; [tauto |].
  rewrite <- abs_IZR. apply Rlt_trans with (IZR (2 ^ prec)); [now apply IZR_lt |].
  unfold Prec_gt_0, Prec_lt_emax in *.
  change (2 ^ prec)%Z with (radix2 ^ prec)%Z. rewrite IZR_Zpower by lia. now apply bpow_lt.
Qed.

Lemma rnd_lt_emax x k : (k < emax)%Z -> (SpecFloat.fexp prec emax k <= k)%Z ->
  Rabs x <= bpow radix2 k -> Rabs (rnd x) < bpow radix2 emax.
Proof.
  intros Hk Hf Hx. apply Rle_lt_trans with (bpow radix2 k); [| now apply bpow_lt].
  apply abs_round_le_generic; [apply fexp_correct; assumption | apply valid_rnd_N | | exact Hx].
  apply generic_format_bpow'; [apply fexp_correct; assumption | exact Hf].
Qed.

Lemma div_correct (x y : binary_float prec emax) : is_finite x = true -> B2R y <> 0 ->
  Rabs (rnd (B2R x / B2R y)) < bpow radix2 emax ->
  B2R (Bdiv mode_NE x y) = rnd (B2R x / B2R y) /\ is_finite (Bdiv mode_NE x y) = true.
Proof.
  intros Fx Hy Hb. pose proof (Bdiv_correct prec emax Hp He mode_NE x y Hy) as C.
  change (round_mode mode_NE) with ZnearestE in C. fold (rnd (B2R x / B2R y)) in C.
  rewrite Rlt_bool_true in C by exact Hb. rewrite Fx in C. tauto.
Qed.

End Gen.
