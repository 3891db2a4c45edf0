(** Property C27: linear interpolation in binary64 at the grid points. *)
From Coq Require Import ZArith Reals List Bool Arith Lia Lra.
From Flocq Require Import Core BinarySingleNaN.
From Verif Require Import Base Value FloatValue FloatFacts InterpModel InterpFacts Grid.
Import ListNotations.
Open Scope R_scope.

Notation f64 := (binary_float 53 1024).

Lemma round_zero : round radix2 (SpecFloat.fexp 53 1024) ZnearestE 0 = 0.
Proof. apply round_0. apply valid_rnd_N. Qed.

Lemma zero_lt_max : Rlt_bool (Rabs 0) (bpow radix2 1024) = true.
Proof. apply Rlt_bool_true. rewrite Rabs_R0. apply bpow_gt_0. Qed.

(** The first grid value is hit exactly, whenever the first chord's slope does not overflow. *)
Theorem C27_first_point_partial : forall e (x0 y0 x1 y1 : f64) rest,
  is_finite x0 = true -> is_finite y0 = true ->
  (forall p, In p ((x0, y0) :: (x1, y1) :: rest) -> Bltb (fst p) x0 = false) ->
  is_finite (Bdiv mode_NE (Bminus mode_NE y1 y0) (Bminus mode_NE x1 x0)) = true ->
  exists v : f64, fit_eval (Linear (F64 e)) ((x0, y0) :: (x1, y1) :: rest) x0 = Ret (Ok v)
    /\ is_finite v = true /\ B2R v = B2R y0.
Proof.
  intros e x0 y0 x1 y1 rest Fx Fy Hmin Fs.
  set (pts := (x0, y0) :: (x1, y1) :: rest) in *.
  set (s := Bdiv mode_NE (Bminus mode_NE y1 y0) (Bminus mode_NE x1 x0)) in *.
  exists (Bplus mode_NE y0 (Bmult mode_NE s (Bminus mode_NE x0 x0))). split.
  - unfold fit_eval. simpl. unfold linear_try_value, find_index. simpl.
    set (l := mkPoint x0 y0 :: mkPoint x1 y1 :: map (fun xy : f64 * f64 => mkPoint (fst xy) (snd xy)) rest).
    assert (partition_point (fun q : Point2D f64 => Bltb (p_x q) x0) l = Ret 0%nat) as E.
    { apply (partition_point_contract _ l (mkPoint x0 y0)); [lia | lia |].
      intros j Hj. assert (l = map (fun xy : f64 * f64 => mkPoint (fst xy) (snd xy)) pts) as El by reflexivity.
      rewrite El in *. rewrite map_length in Hj.
      change (mkPoint x0 y0) with ((fun xy : f64 * f64 => mkPoint (fst xy) (snd xy)) (x0, y0)).
      rewrite map_nth. cbn [p_x]. apply Hmin. apply nth_In. lia. }
    rewrite E. simpl.
    assert (Bleb x0 x0 = true) as ->.
    { rewrite Bleb_correct by assumption. apply Rle_bool_true. lra. }
    reflexivity.
  - pose proof (Bminus_correct 53 1024 Hp53 He1024 mode_NE x0 x0 Fx Fx) as C.
    change (round_mode mode_NE) with ZnearestE in C.
    replace (B2R x0 - B2R x0) with 0 in C by ring. rewrite round_zero, zero_lt_max in C.
    destruct C as (Vd & Fd & _).
    pose proof (Bmult_correct 53 1024 Hp53 He1024 mode_NE s (Bminus mode_NE x0 x0)) as C.
    change (round_mode mode_NE) with ZnearestE in C.
    rewrite Vd in C. replace (B2R s * 0) with 0 in C by ring. rewrite round_zero, zero_lt_max in C.
    destruct C as (Vm & Fm & _). rewrite Fs, Fd in Fm.
    pose proof (Bplus_correct 53 1024 Hp53 He1024 mode_NE y0 (Bmult mode_NE s (Bminus mode_NE x0 x0)) Fy Fm) as C.
    change (round_mode mode_NE) with ZnearestE in C.
    rewrite Vm in C. replace (B2R y0 + 0) with (B2R y0) in C by ring.
    rewrite round_generic in C; [| apply valid_rnd_N | apply generic_format_B2R].
    rewrite Rlt_bool_true in C by apply abs_B2R_lt_emax.
    tauto.
Qed.
Print Assumptions C27_first_point_partial.

Notation "'#' z" := (of_int 53 1024 Hp53 He1024 z) (at level 10).

Lemma second_point e (x0 y0 x1 y1 : f64) : Bltb x0 x1 = true -> Bltb x1 x1 = false -> Bleb x0 x1 = true ->
  fit_eval (Linear (F64 e)) [(x0, y0); (x1, y1)] x1
  = Ret (Ok (Bplus mode_NE y0 (Bmult mode_NE (Bdiv mode_NE (Bminus mode_NE y1 y0) (Bminus mode_NE x1 x0)) (Bminus mode_NE x1 x0)))).
Proof.
  intros L I Le. unfold fit_eval. simpl. unfold linear_try_value, find_index. simpl.
  set (l := [mkPoint x0 y0; mkPoint x1 y1]).
  assert (partition_point (fun q : Point2D f64 => Bltb (p_x q) x1) l = Ret 1%nat) as E.
  { apply (partition_point_contract _ l (mkPoint x0 y0)); [simpl; lia | |].
    - intros j Hj. replace j with 0%nat by lia. exact L.
    - intros j Hj. simpl in Hj. replace j with 1%nat by lia. exact I. }
  rewrite E. simpl. rewrite ?Le, ?L. reflexivity.
Qed.

(** At the second point of the grid (0,0), (49,1) the value is 0.9999999999999999, not 1. *)
Theorem C27_other_points_refuted : forall e, exists (pts : list (f64 * f64)) x y v,
  In (x, y) pts /\ (forall p, In p pts -> is_finite (fst p) = true /\ is_finite (snd p) = true)
  /\ fit_eval (Linear (F64 e)) pts x = Ret (Ok v) /\ B2R v < B2R y.
Proof.
  intros e. exists [(# 0, # 0); (# 49, # 1)], (# 49), (# 1).
  eexists. split; [right; left; reflexivity |]. split; [| split].
  - intros p [<- | [<- | []]]; split; vm_compute; reflexivity.
  - apply second_point; vm_compute; reflexivity.
  - rewrite <- !SF2R_B2SF.
    match goal with |- SF2R _ ?a < SF2R _ ?b =>
      assert (a = SpecFloat.S754_finite false 9007199254740991 (-53)) as -> by (vm_compute; reflexivity);
      assert (b = SpecFloat.S754_finite false 4503599627370496 (-52)) as -> by (vm_compute; reflexivity) end.
    unfold SF2R, F2R. simpl. lra.
Qed.
Print Assumptions C27_other_points_refuted.

Example C27_case : forall p, In p [(# 0, # 0); (# 49, # 1)] -> Bltb (fst p) (# 0) = false.
Proof. intros p [<- | [<- | []]]; vm_compute; reflexivity. Qed.
