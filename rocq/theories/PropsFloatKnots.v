(** Property C80: the interpolations in floating point at the points they were built from. *)
From Coq Require Import ZArith Reals List Bool Arith Lia Lra.
From Flocq Require Import Core BinarySingleNaN Plus_error.
From Verif Require Import Base Value FloatValue FloatFacts InterpModel InterpFacts Grid PropsHermite PropsCatmullRom
  PropsNaturalCubic PropsLinearFloat PropsFloat.
Import ListNotations.
Open Scope R_scope.

Section Exact.
Variables prec emax : Z.
Context (Hp : Prec_gt_0 prec) (He : Prec_lt_emax prec emax).
Notation fl := (binary_float prec emax).
Notation fmt := (generic_format radix2 (SpecFloat.fexp prec emax)).

(** [x] is finite with the exact value [r]. *)
Definition holds (x : fl) (r : R) : Prop := is_finite x = true /\ B2R x = r.

Definition in_format (r : R) : Prop := fmt r /\ Rabs r < bpow radix2 emax.

Lemma holds_in x r : holds x r -> in_format r.
Proof. intros [F <-]. split; [apply generic_format_B2R | apply abs_B2R_lt_emax]. Qed.

Lemma in_format_0 : in_format 0.
Proof. split; [apply generic_format_0 | rewrite Rabs_R0; apply bpow_gt_0]. Qed.

Lemma rnd_in r : in_format r -> round radix2 (SpecFloat.fexp prec emax) ZnearestE r = r.
Proof. intros [G _]. apply round_generic; [apply valid_rnd_N | exact G]. Qed.

Lemma holds_add x y a b : holds x a -> holds y b -> in_format (a + b) -> holds (Bplus mode_NE x y) (a + b).
Proof.
  intros [Fx Ex] [Fy Ey] I. pose proof (Bplus_correct prec emax Hp He mode_NE x y Fx Fy) as C.
  change (round_mode mode_NE) with ZnearestE in C. rewrite Ex, Ey, (rnd_in _ I), Rlt_bool_true in C by apply I. split; tauto.
Qed.

Lemma holds_sub x y a b : holds x a -> holds y b -> in_format (a - b) -> holds (Bminus mode_NE x y) (a - b).
Proof.
  intros [Fx Ex] [Fy Ey] I. pose proof (Bminus_correct prec emax Hp He mode_NE x y Fx Fy) as C.
  change (round_mode mode_NE) with ZnearestE in C. rewrite Ex, Ey, (rnd_in _ I), Rlt_bool_true in C by apply I. split; tauto.
Qed.

Lemma holds_mul x y a b : holds x a -> holds y b -> in_format (a * b) -> holds (Bmult mode_NE x y) (a * b).
Proof.
  intros [Fx Ex] [Fy Ey] I. pose proof (Bmult_correct prec emax Hp He mode_NE x y) as C.
  change (round_mode mode_NE) with ZnearestE in C. rewrite Ex, Ey, (rnd_in _ I), Rlt_bool_true in C by apply I.
  rewrite Fx, Fy in C. split; tauto.
Qed.

Lemma holds_div x y a b : holds x a -> holds y b -> b <> 0 -> in_format (a / b) -> holds (Bdiv mode_NE x y) (a / b).
Proof.
  intros [Fx Ex] [Fy Ey] N I. pose proof (Bdiv_correct prec emax Hp He mode_NE x y) as C.
  change (round_mode mode_NE) with ZnearestE in C. rewrite Ex, Ey, (rnd_in _ I), Rlt_bool_true in C by apply I.
  rewrite Fx in C. specialize (C N). split; tauto.
Qed.

Lemma holds_opp x a : holds x a -> holds (Bopp x) (- a).
Proof. intros [Fx Ex]. split; [now rewrite is_finite_Bopp | now rewrite B2R_Bopp, Ex]. Qed.

Lemma holds_eq x a b : holds x a -> a = b -> holds x b.
Proof. now intros H <-. Qed.

Lemma holds_zero : holds (B754_zero false) 0.
Proof. split; reflexivity. Qed.

Context (H2 : (2 <= prec)%Z).

Lemma in_format_int z : (Z.abs z <= 3)%Z -> in_format (IZR z).
Proof using Hp He H2.
  intros Hz. unfold Prec_lt_emax in He.
  assert (2 ^ 2 <= 2 ^ prec)%Z by (apply Z.pow_le_mono_r; lia). split.
  - apply rnd_format; auto; lia.
  - rewrite <- abs_IZR. apply Rlt_le_trans with (bpow radix2 2).
    + change (bpow radix2 2) with (IZR 4). apply IZR_lt. lia.
    + apply bpow_le. lia.
Qed.

Lemma holds_int z : (Z.abs z <= 3)%Z -> holds (of_int prec emax Hp He z) (IZR z).
Proof using H2.
  intros Hz. unfold Prec_lt_emax in He. assert (2 ^ 2 <= 2 ^ prec)%Z by (apply Z.pow_le_mono_r; lia).
  destruct (of_int_correct prec emax Hp He z); [lia | lia |]. now split.
Qed.

(** Products with 0 and 1 and sums with 0 are exact. *)
Lemma holds_pick c y a b : holds c a -> holds y b -> a = 0 \/ a = 1 -> holds (Bmult mode_NE c y) (a * b).
Proof using.
  intros Hc Hy H. apply holds_mul; auto. destruct H as [-> | ->].
  - rewrite Rmult_0_l. apply in_format_0.
  - rewrite Rmult_1_l. eapply holds_in, Hy.
Qed.

(** A difference of two different numbers does not round to zero. *)
Lemma minus_not_0 (x y : fl) : is_finite x = true -> is_finite y = true -> B2R x <> B2R y ->
  is_finite (Bminus mode_NE x y) = true -> B2R (Bminus mode_NE x y) <> 0.
Proof using.
  intros Fx Fy N Fd. pose proof (Bminus_correct prec emax Hp He mode_NE x y Fx Fy) as C.
  change (round_mode mode_NE) with ZnearestE in C.
  destruct (Rlt_bool _ _).
  - destruct C as (-> & _). apply round_plus_neq_0 with (y := - B2R y).
    + apply fexp_correct; assumption.
    + apply monotone_exp_not_FTZ; [now apply fexp_correct |]. change (SpecFloat.fexp prec emax) with (FLT_exp (SpecFloat.emin prec emax) prec). apply FLT_exp_monotone.
    + apply valid_rnd_N.
    + apply generic_format_B2R.
    + apply generic_format_opp, generic_format_B2R.
    + lra.
  - destruct C as (C & _). exfalso. rewrite <- is_finite_SF_B2SF, C in Fd. discriminate.
Qed.

Variable e : fl -> fl.
Notation V := (FV prec emax Hp He e).

(** The Hermite form with all weights integers. *)
Definition hform (x x0 y0 m0 x1 y1 m1 : fl) : fl :=
  let i z := of_int prec emax Hp He z in
  let h := Bminus mode_NE x1 x0 in
  let delta := Bdiv mode_NE (Bminus mode_NE x x0) h in
  let delta2 := Bmult mode_NE delta delta in
  let delta3 := Bmult mode_NE delta2 delta in
  dot4 (V := V) (vec_mat (V := V) (delta3, delta2, delta, i 1%Z)
    ((i 2%Z, i (-2)%Z, i 1%Z, i 1%Z), (i (-3)%Z, i 3%Z, i (-2)%Z, Bopp (i 1%Z)), (B754_zero false, B754_zero false, i 1%Z, B754_zero false),
     (i 1%Z, B754_zero false, B754_zero false, B754_zero false))) (y0, y1, Bmult mode_NE m0 h, Bmult mode_NE m1 h).

Ltac ints := repeat first [ rewrite <- plus_IZR | rewrite <- minus_IZR | rewrite <- mult_IZR | rewrite <- opp_IZR ]; apply in_format_int; lia.

Lemma hform_at (d : Z) x x0 y0 m0 x1 y1 m1 : (d = 0 \/ d = 1)%Z ->
  holds (Bdiv mode_NE (Bminus mode_NE x x0) (Bminus mode_NE x1 x0)) (IZR d) ->
  is_finite y0 = true -> is_finite y1 = true ->
  is_finite (Bmult mode_NE m0 (Bminus mode_NE x1 x0)) = true -> is_finite (Bmult mode_NE m1 (Bminus mode_NE x1 x0)) = true ->
  holds (hform x x0 y0 m0 x1 y1 m1) (if (d =? 0)%Z then B2R y0 else B2R y1).
Proof using H2.
  intros Hd Dl Fy0 Fy1 Fa Fb. unfold hform. cbv zeta.
  set (h := Bminus mode_NE x1 x0) in *. set (dl := Bdiv mode_NE (Bminus mode_NE x x0) h) in *.
  set (a := Bmult mode_NE m0 h) in *. set (b := Bmult mode_NE m1 h) in *.
  assert (holds (Bmult mode_NE dl dl) (IZR d)) as D2.
  { eapply holds_eq; [apply holds_mul; [exact Dl | exact Dl |] |].
    - destruct Hd as [-> | ->]; ints.
    - destruct Hd as [-> | ->]; ring. }
  assert (holds (Bmult mode_NE (Bmult mode_NE dl dl) dl) (IZR d)) as D3.
  { eapply holds_eq; [apply holds_mul; [exact D2 | exact Dl |] |].
    - destruct Hd as [-> | ->]; ints.
    - destruct Hd as [-> | ->]; ring. }
  set (d2 := Bmult mode_NE dl dl) in *. set (d3 := Bmult mode_NE d2 dl) in *. clearbody h dl a b d2 d3.
  pose proof (holds_int 1 ltac:(lia)) as I1. pose proof (holds_int 2 ltac:(lia)) as I2. pose proof (holds_int 3 ltac:(lia)) as I3.
  pose proof (holds_int (-2) ltac:(lia)) as J2. pose proof (holds_int (-3) ltac:(lia)) as J3.
  pose proof (holds_opp _ _ I1) as J1. pose proof holds_zero as Z0.
  unfold vec_mat, dot4.
  (* the four weights *)
  assert (forall a0 a1 a2 a3 k0 k1 k2 k3, holds a0 (IZR k0) -> holds a1 (IZR k1) -> holds a2 (IZR k2) -> holds a3 (IZR k3) ->
    (Z.abs k0 <= 3 -> Z.abs k1 <= 3 -> Z.abs k2 <= 3 -> Z.abs k3 <= 3 ->
     Z.abs (d * k0 + d * k1) <= 3 -> Z.abs (d * k0 + d * k1 + d * k2) <= 3 -> Z.abs (d * k0 + d * k1 + d * k2 + k3) <= 3 ->
     holds (Bplus mode_NE (Bplus mode_NE (Bplus mode_NE (Bmult mode_NE d3 a0) (Bmult mode_NE d2 a1)) (Bmult mode_NE dl a2))
       (Bmult mode_NE (of_int prec emax Hp He 1) a3)) (IZR (d * k0 + d * k1 + d * k2 + k3)))%Z) as W.
  { intros a0 a1 a2 a3 k0 k1 k2 k3 A0 A1 A2 A3 B0 B1 B2 B3 S1 S2 S3.
    assert (forall c k u, holds c (IZR d) -> holds u (IZR k) -> (Z.abs k <= 3)%Z -> holds (Bmult mode_NE c u) (IZR (d * k))) as Pr.
    { intros c k u Hc Hu Hk. rewrite mult_IZR. apply holds_mul; auto. destruct Hd as [-> | ->]; ints. }
    rewrite plus_IZR. apply holds_add.
    - rewrite plus_IZR. apply holds_add.
      + rewrite plus_IZR. apply holds_add; [now apply Pr | now apply Pr |]. rewrite <- plus_IZR. now apply in_format_int.
      + now apply Pr.
      + rewrite <- plus_IZR. now apply in_format_int.
    - eapply holds_eq; [apply holds_mul; [exact I1 | exact A3 |] | ring]. rewrite Rmult_1_l. now apply in_format_int.
    - rewrite <- plus_IZR. now apply in_format_int. }
  change (v_add (v := V)) with (@Bplus prec emax Hp He mode_NE). change (v_mul (v := V)) with (@Bmult prec emax Hp He mode_NE).
  pose proof (W _ _ _ _ 2 (-3) 0 1 I2 J3 Z0 I1)%Z as W0. pose proof (W _ _ _ _ (-2) 3 0 0 J2 I3 Z0 Z0)%Z as W1.
  pose proof (W _ _ _ _ 1 (-2) 1 0 I1 J2 I1 Z0)%Z as W2. pose proof (W _ _ _ _ 1 (-1) 0 0 I1 J1 Z0 Z0)%Z as W3. clear W.
  specialize (W0 ltac:(lia) ltac:(lia) ltac:(lia) ltac:(lia) ltac:(lia) ltac:(lia) ltac:(lia)).
  specialize (W1 ltac:(lia) ltac:(lia) ltac:(lia) ltac:(lia) ltac:(lia) ltac:(lia) ltac:(lia)).
  specialize (W2 ltac:(lia) ltac:(lia) ltac:(lia) ltac:(lia) ltac:(lia) ltac:(lia) ltac:(lia)).
  specialize (W3 ltac:(lia) ltac:(lia) ltac:(lia) ltac:(lia) ltac:(lia) ltac:(lia) ltac:(lia)).
  match type of W0 with holds ?w _ => set (w0 := w) in * end. match type of W1 with holds ?w _ => set (w1 := w) in * end.
  match type of W2 with holds ?w _ => set (w2 := w) in * end. match type of W3 with holds ?w _ => set (w3 := w) in * end.
  clearbody w0 w1 w2 w3.
  assert (holds y0 (B2R y0)) as Y0 by now split. assert (holds y1 (B2R y1)) as Y1 by now split.
  assert (holds a (B2R a)) as Ya by now split. assert (holds b (B2R b)) as Yb by now split.
  assert (holds w0 (IZR (1 - d))) as K0 by (eapply holds_eq; [exact W0 | f_equal; lia]).
  assert (holds w1 (IZR d)) as K1 by (eapply holds_eq; [exact W1 | f_equal; lia]).
  assert (holds w2 0) as K2 by (eapply holds_eq; [exact W2 | apply (f_equal IZR); lia]).
  assert (holds w3 0) as K3 by (eapply holds_eq; [exact W3 | apply (f_equal IZR); lia]).
  assert (holds (Bmult mode_NE w0 y0) (IZR (1 - d) * B2R y0)) as P0 by (apply holds_pick; auto; destruct Hd as [-> | ->]; auto).
  assert (holds (Bmult mode_NE w1 y1) (IZR d * B2R y1)) as P1 by (apply holds_pick; auto; destruct Hd as [-> | ->]; auto).
  assert (holds (Bmult mode_NE w2 a) (0 * B2R a)) as P2 by (apply holds_pick; auto).
  assert (holds (Bmult mode_NE w3 b) (0 * B2R b)) as P3 by (apply holds_pick; auto).
  set (y := if (d =? 0)%Z then B2R y0 else B2R y1).
  assert (in_format y) as Iy by (unfold y; destruct (d =? 0)%Z; eapply holds_in; eassumption).
  assert (IZR (1 - d) * B2R y0 + IZR d * B2R y1 = y) as Ey.
  { unfold y. destruct Hd as [-> | ->]; simpl; ring. }
  assert (holds (Bplus mode_NE (Bmult mode_NE w0 y0) (Bmult mode_NE w1 y1)) y) as S1.
  { eapply holds_eq; [apply holds_add; [exact P0 | exact P1 |] | exact Ey]. now rewrite Ey. }
  assert (holds (Bplus mode_NE (Bplus mode_NE (Bmult mode_NE w0 y0) (Bmult mode_NE w1 y1)) (Bmult mode_NE w2 a)) y) as S2.
  { eapply holds_eq; [apply holds_add; [exact S1 | exact P2 |] | ring]. replace (y + 0 * B2R a) with y by ring. exact Iy. }
  eapply holds_eq; [apply holds_add; [exact S2 | exact P3 |] | ring]. replace (y + 0 * B2R b) with y by ring. exact Iy.
Qed.
End Exact.

(** Finite numbers, each larger than the one before. *)
Definition rising {prec emax} (xs : list (binary_float prec emax)) : Prop :=
  (forall y, In y xs -> is_finite y = true)
  /\ forall i a b, nth_error xs i = Some a -> nth_error xs (S i) = Some b -> Bltb a b = true.

Section Cells.
Variables prec emax : Z.
Context (Hp : Prec_gt_0 prec) (He : Prec_lt_emax prec emax).
Notation fl := (binary_float prec emax).
Notation nan := (B754_nan : fl).

Lemma not_nan (x : fl) : is_finite x = true -> is_nan x = false.
Proof using. now destruct x. Qed.

Lemma rising_lt (xs : list fl) : rising xs -> forall i j, (i < j < length xs)%nat -> B2R (nth i xs nan) < B2R (nth j xs nan).
Proof using.
  intros [F S] i j. induction j as [| j IH]; intros H; [lia |].
  assert (B2R (nth j xs nan) < B2R (nth (Datatypes.S j) xs nan)) as A.
  { assert (is_finite (nth j xs nan) = true) as F1 by (apply F, nth_In; lia).
    assert (is_finite (nth (Datatypes.S j) xs nan) = true) as F2 by (apply F, nth_In; lia).
    specialize (S j _ _ (nth_error_nth' xs nan (n := j) ltac:(lia)) (nth_error_nth' xs nan (n := Datatypes.S j) ltac:(lia))).
    rewrite Bltb_correct in S by assumption. revert S. case Rlt_bool_spec; easy. }
  destruct (Nat.eq_dec i j) as [-> | D]; [exact A |]. apply Rlt_trans with (2 := A). apply IH. lia.
Qed.

Lemma rising_line (xs : list fl) : rising xs -> line xs.
Proof using.
  intros R. pose proof R as [F S]. split; [intros y Hy; now apply not_nan, F |].
  intros i j a b Hij Ha Hb.
  assert (j < length xs)%nat as Lj by (apply nth_error_Some; rewrite Hb; discriminate).
  pose proof (rising_lt xs R i j ltac:(lia)) as H.
  rewrite (nth_error_nth xs i nan Ha), (nth_error_nth xs j nan Hb) in H.
  rewrite Bltb_correct by (apply F; eapply nth_error_In; eassumption). apply Rlt_bool_false. lra.
Qed.

Variable e : fl -> fl.
Notation V := (FV prec emax Hp He e).

(** The cell of the [j]-th knot is the one before it, or the first. *)
Lemma rising_cell (xs : list fl) j : rising xs -> (2 <= length xs)%nat -> (j < length xs)%nat ->
  find_index (V := V) (fun y => y) xs (nth j xs nan) = Ret (Ok (j - 1)%nat).
Proof.
  intros R L Hj. pose proof R as [F _].
  assert (forall k, (k < length xs)%nat -> is_finite (nth k xs nan) = true) as Fk by (intros; apply F, nth_In; assumption).
  assert (xs <> []) as Ne by (intros ->; simpl in L; lia).
  destruct (find_line prec emax Hp He e xs (nth j xs nan) (rising_line xs R) Ne (not_nan _ (Fk j Hj))) as (_ & _ & A).
  assert (hd nan xs = nth 0 xs nan) as Eh by (destruct xs; reflexivity).
  assert (last xs nan = nth (length xs - 1) xs nan) as El.
  { clear -Ne. induction xs as [| a [| b t] IH]; [congruence | reflexivity |].
    change (last (a :: b :: t) nan) with (last (b :: t) nan). rewrite IH by discriminate. simpl length.
    replace (S (S (length t)) - 1)%nat with (S (S (length t) - 1))%nat by lia. reflexivity. }
  assert (forall k l, (k <= l < length xs)%nat -> B2R (nth k xs nan) <= B2R (nth l xs nan)) as Mono.
  { intros k l H. destruct (Nat.eq_dec k l) as [-> | D]; [lra |]. apply Rlt_le, rising_lt; [exact R | lia]. }
  assert (forall k l, (k < length xs)%nat -> (l < length xs)%nat -> B2R (nth k xs nan) <= B2R (nth l xs nan) -> (k <= l)%nat) as Inv.
  { intros k l Hk Hl H. destruct (Nat.le_gt_cases k l) as [Q | Q]; [exact Q |].
    pose proof (rising_lt xs R l k ltac:(lia)). lra. }
  destruct A as (i & Fi & Le & Lt & Nx).
  { rewrite Eh, Bltb_correct by (apply Fk; lia). apply Rlt_bool_false, Mono. lia. }
  { rewrite El, Bltb_correct by (apply Fk; lia). apply Rlt_bool_false, Mono. lia. }
  assert (i < length xs)%nat as Hi.
  { destruct (Nat.lt_ge_cases i (length xs)) as [Q | Q]; [exact Q |]. rewrite (nth_overflow _ _ Q) in Le. discriminate. }
  rewrite Bleb_correct in Le by (apply Fk; lia).
  assert (i <= j)%nat as Hij by (apply Inv; [lia | lia |]; revert Le; case Rle_bool_spec; easy).
  assert (i <> 0 -> i < j)%nat as Hs.
  { intros Q. specialize (Lt Q). rewrite Bltb_correct in Lt by (apply Fk; lia).
    destruct (Nat.eq_dec i j) as [-> | D]; [| lia]. revert Lt. case Rlt_bool_spec; intros; [lra | easy]. }
  assert (i + 1 < length xs)%nat as Hi1 by lia. specialize (Nx Hi1). rewrite Bleb_correct in Nx by (apply Fk; lia).
  assert (j <= i + 1)%nat by (apply Inv; [lia | lia |]; revert Nx; case Rle_bool_spec; easy).
  rewrite Fi. do 2 f_equal. lia.
Qed.

End Cells.

Lemma hermite_cell {V : Value} (pts : list (V * V * V)) (z : V * V * V) (x : V) i c2 cm2 cm3 c3 :
  (forall y : V, v_ltb y y = false) -> v_of_int (v := V) 2 = Some c2 -> v_of_int (v := V) (-2) = Some cm2 ->
  v_of_int (v := V) (-3) = Some cm3 -> v_of_int (v := V) 3 = Some c3 ->
  (i + 1 < length pts)%nat -> in_order (fun p => fst (fst p)) pts ->
  find_index (fun y => y) (map (fun p => fst (fst p)) pts) x = Ret (Ok i) ->
  let p k := nth k pts z in
  hermite_eval pts x = Ret (Ok (
    let h := (fst (fst (p (i + 1)%nat)) - fst (fst (p i)))%V in
    let delta := ((x - fst (fst (p i))) / h)%V in
    let delta2 := (delta * delta)%V in
    let delta3 := (delta2 * delta)%V in
    dot4 (vec_mat (delta3, delta2, delta, v_one)
      ((c2, cm2, v_one, v_one), (cm3, c3, cm2, (- v_one)%V), (v_zero, v_zero, v_one, v_zero), (v_one, v_zero, v_zero, v_zero)))
      (snd (fst (p i)), snd (fst (p (i + 1)%nat)), (snd (p i) * h)%V, (snd (p (i + 1)%nat) * h)%V))).
Proof.
  intros Irr C2 Cm2 Cm3 C3 L O Fi p. unfold hermite_eval, hermite_try_new.
  rewrite (index_some pts 0 z) by lia. cbn [bind].
  set (l := map (fun '(x, y, d) => slope_new x y d) pts).
  destruct (check_order_spec (V := V) s_x l (fst (fst (nth 0 pts z)))) as [(E & _) | (E & Q)].
  - rewrite E. unfold v_const. rewrite C2, Cm2, Cm3, C3. cbn [unwrap bind try_res]. unfold hermite_try_value. cbn [he_points he_m].
    assert (map (fun p => fst (fst p)) pts = map s_x l) as El.
    { unfold l. rewrite map_map. apply map_ext. intros [[a b] c]. reflexivity. }
    rewrite El, <- find_index_map in Fi. rewrite Fi. cbn [bind try_res].
    assert (length l = length pts) as Ll by apply map_length.
    set (q0 := slope_new (fst (fst z)) (snd (fst z)) (snd z)).
    rewrite (index_some l i q0) by lia. cbn [bind]. rewrite (index_some l (i + 1) q0) by lia. cbn [bind].
    assert (forall k, nth k l q0 = slope_new (fst (fst (p k))) (snd (fst (p k))) (snd (p k))) as En.
    { intros k. unfold l, p. assert (q0 = (fun '(x, y, d) => slope_new x y d) z) as -> by now destruct z as [[? ?] ?].
      rewrite (map_nth (fun '(x, y, d) => slope_new x y d) pts z k). now destruct (nth k pts _) as [[? ?] ?]. }
    rewrite !En. reflexivity.
  - exfalso.
    destruct Q as [Q | (q & Hq & Lq)].
    + apply Q. intros k a b Ha Hb. unfold l in Ha, Hb. rewrite nth_error_map in Ha, Hb.
      destruct (nth_error pts k) as [[[? ?] ?] |] eqn:A; [| discriminate].
      destruct (nth_error pts (S k)) as [[[? ?] ?] |] eqn:B; [| discriminate].
      injection Ha as <-. injection Hb as <-. exact (O k _ _ A B).
    + unfold l in Hq. destruct pts as [| [[a b] c] t]; [simpl in L; lia |]. simpl in Hq. injection Hq as <-.
      simpl in Lq. rewrite Irr in Lq. discriminate.
Qed.



(** ** C80: the Hermite interpolation meets its points exactly, in every binary format with two or more bits *)
Theorem C80_hermite : forall prec emax Hp He e (pts : list (binary_float prec emax * binary_float prec emax * binary_float prec emax)),
  (2 <= prec)%Z -> (2 <= length pts)%nat -> rising (map (fun p => fst (fst p)) pts) ->
  (forall p, In p pts -> is_finite (snd (fst p)) = true) ->
  (forall i x0 y0 m0 x1 y1 m1, nth_error pts i = Some (x0, y0, m0) -> nth_error pts (S i) = Some (x1, y1, m1) ->
     let h := Bminus mode_NE x1 x0 in
     is_finite h = true /\ is_finite (Bmult mode_NE m0 h) = true /\ is_finite (Bmult mode_NE m1 h) = true) ->
  forall x y m, In (x, y, m) pts -> exists v, hermite_eval (V := FV prec emax Hp He e) pts x = Ret (Ok v)
    /\ is_finite v = true /\ B2R v = B2R y.
Proof.
  intros prec emax Hp He e pts H2 L R Fy Fh x y m Hin.
  set (z := (B754_nan, B754_nan, B754_nan) : binary_float prec emax * binary_float prec emax * binary_float prec emax).
  destruct (In_nth pts _ z Hin) as (j & Hj & Ej).
  set (xs := map (fun p => fst (fst p)) pts) in *. assert (length xs = length pts) as Lx by apply map_length.
  assert (forall k, nth k xs B754_nan = fst (fst (nth k pts z))) as En by (intros k; apply (map_nth (fun p => fst (fst p)) pts z k)).
  pose proof (rising_cell prec emax Hp He e xs j R ltac:(lia) ltac:(lia)) as C. rewrite En, Ej in C. cbn [fst] in C.
  assert (j - 1 + 1 < length pts)%nat as Hi by lia. set (i := (j - 1)%nat) in *.
  pose proof (line_in_order prec emax Hp He e (fun p => fst (fst p)) pts (rising_line prec emax xs R)) as O.
  pose proof (hermite_cell (V := FV prec emax Hp He e) pts z x i _ _ _ _ (fv_irr prec emax Hp He e)
    eq_refl eq_refl eq_refl eq_refl Hi O C) as Ev. cbv zeta in Ev.
  set (p0 := nth i pts z). set (p1 := nth (i + 1) pts z).
  exists (hform prec emax Hp He e x (fst (fst p0)) (snd (fst p0)) (snd p0) (fst (fst p1)) (snd (fst p1)) (snd p1)).
  split; [exact Ev | clear Ev].
  destruct p0 as [[x0 y0] m0] eqn:E0. destruct p1 as [[x1 y1] m1] eqn:E1. cbn [fst snd]. subst p0 p1.
  assert (nth_error pts i = Some (x0, y0, m0)) as N0 by (rewrite <- E0; apply nth_error_nth'; lia).
  assert (nth_error pts (S i) = Some (x1, y1, m1)) as N1
    by (rewrite <- E1; replace (i + 1)%nat with (S i) by lia; apply nth_error_nth'; lia).
  destruct (Fh i _ _ _ _ _ _ N0 N1) as (Hh & Ha & Hb). clear Fh.
  assert (is_finite x0 = true) as F0.
  { pose proof (proj1 R (nth i xs B754_nan) ltac:(apply nth_In; lia)) as Q. now rewrite En, E0 in Q. }
  assert (is_finite x1 = true) as F1.
  { pose proof (proj1 R (nth (i + 1) xs B754_nan) ltac:(apply nth_In; lia)) as Q. now rewrite En, E1 in Q. }
  assert (B2R x0 < B2R x1) as Lt.
  { pose proof (rising_lt prec emax xs R i (i + 1) ltac:(lia)) as Q. now rewrite !En, E0, E1 in Q. }
  assert (is_finite y0 = true) as G0 by (apply (Fy (x0, y0, m0)); eapply nth_error_In, N0).
  assert (is_finite y1 = true) as G1 by (apply (Fy (x1, y1, m1)); eapply nth_error_In, N1).
  pose proof (minus_not_0 prec emax Hp He x1 x0 F1 F0 ltac:(lra) Hh) as Nh.
  assert (holds prec emax (Bminus mode_NE x1 x0) (B2R (Bminus mode_NE x1 x0))) as Hh' by now split.
  destruct (Nat.eq_dec j 0) as [Ej0 | Dj].
  - assert ((x, y, m) = (x0, y0, m0)) as Exy by (rewrite <- Ej, <- E0; f_equal; lia). injection Exy as -> -> ->.
    apply (hform_at prec emax Hp He H2 e 0%Z); auto.
    apply holds_eq with (0 / B2R (Bminus mode_NE x1 x0)); [| unfold Rdiv; ring].
    apply holds_div; [| exact Hh' | exact Nh |].
    + apply holds_eq with (B2R x0 - B2R x0); [| ring]. apply holds_sub; [now split | now split |].
      replace (B2R x0 - B2R x0) with 0 by ring. apply in_format_0.
    + unfold Rdiv. rewrite Rmult_0_l. apply in_format_0.
  - assert ((x, y, m) = (x1, y1, m1)) as Exy by (rewrite <- Ej, <- E1; f_equal; lia). injection Exy as -> -> ->.
    apply (hform_at prec emax Hp He H2 e 1%Z); auto.
    apply holds_eq with (B2R (Bminus mode_NE x1 x0) / B2R (Bminus mode_NE x1 x0)); [| now field].
    apply holds_div; [exact Hh' | exact Hh' | exact Nh |].
    replace (_ / _) with 1 by (now field). apply (in_format_int prec emax Hp He H2 1). lia.
Qed.

(** The other splines do not: the natural cubic spline misses even its first point, (0, 1) of (0, 1), (49, 0), (98, 0). *)
Theorem C80_natural_cubic_refuted : forall e, let V := F64 e in let i z := of_int 53 1024 Hp53 He1024 z in
  let pts := [(i 0, i 1); (i 49, i 0); (i 98, i 0)]%Z in
  rising (map fst pts) /\ exists v, fit_eval (NaturalCubic V) pts (i 0%Z) = Ret (Ok v) /\ Bltb v (i 1%Z) = true.
Proof.
  intros e V i pts. split.
  - split.
    + intros y [<- | [<- | [<- | []]]]; vm_compute; reflexivity.
    + intros [| [| [| k]]] a b Ha Hb; try discriminate Hb; try (destruct k; discriminate Hb);
        injection Ha as <-; injection Hb as <-; vm_compute; reflexivity.
  - assert (match fit_eval (NaturalCubic V) pts (i 0%Z) with Ret (Ok v) => Bltb v (i 1%Z) | _ => false end = true) as H
      by (vm_compute; reflexivity).
    destruct (fit_eval (NaturalCubic V) pts (i 0%Z)) as [[v | er] | |]; try discriminate. eauto.
Qed.

(** Catmull-Rom answers 0 at the point (1, 1) of (0, 2^54), (1, 1), (2, 0), and so does linear interpolation. *)
Theorem C80_catmull_rom_refuted : forall e, let V := F64 e in let i z := of_int 53 1024 Hp53 He1024 z in
  let pts := [(i 0, i (2 ^ 54)); (i 1, i 1); (i 2, i 0)]%Z in
  rising (map fst pts)
  /\ (exists v, fit_eval (CatmullRom V) pts (i 1%Z) = Ret (Ok v) /\ B2R v = 0)
  /\ exists v, fit_eval (Linear V) pts (i 1%Z) = Ret (Ok v) /\ B2R v = 0.
Proof.
  intros e V i pts. split; [| split].
  - split.
    + intros y [<- | [<- | [<- | []]]]; vm_compute; reflexivity.
    + intros [| [| [| k]]] a b Ha Hb; try discriminate Hb; try (destruct k; discriminate Hb);
        injection Ha as <-; injection Hb as <-; vm_compute; reflexivity.
  - exists (B754_zero false). split; [vm_compute; reflexivity | reflexivity].
  - exists (B754_zero false). split; [vm_compute; reflexivity | reflexivity].
Qed.

(** Half a unit, a third of it rounded, and 49: three cells of f64 with steep slopes. *)
Example C80_case : forall e, let V := F64 e in let i z := of_int 53 1024 Hp53 He1024 z in
  let d a b := Bdiv mode_NE (i a) (i b) in
  let pts := [(d 1 3, d 1 7, i (-5)); (d 1 2, i 1, d 2 3); (i 49, d 10 3, i 0)]%Z in
  hermite_eval (V := V) pts (i 49%Z) <> Panic
  /\ forall x y m, In (x, y, m) pts -> exists v, hermite_eval (V := V) pts x = Ret (Ok v) /\ is_finite v = true /\ B2R v = B2R y.
Proof.
  intros e V i d pts.
  assert (forall x y m, In (x, y, m) pts -> exists v, hermite_eval (V := V) pts x = Ret (Ok v) /\ is_finite v = true /\ B2R v = B2R y) as H.
  { apply (C80_hermite 53 1024 Hp53 He1024 e pts); [lia | simpl; lia | | |].
    - split.
      + intros y [<- | [<- | [<- | []]]]; vm_compute; reflexivity.
      + intros [| [| [| k]]] a b Ha Hb; try discriminate Hb; try (destruct k; discriminate Hb);
          injection Ha as <-; injection Hb as <-; vm_compute; reflexivity.
    - intros p [<- | [<- | [<- | []]]]; vm_compute; reflexivity.
    - intros [| [| [| k]]] x0 y0 m0 x1 y1 m1 Ha Hb; try discriminate Hb; try (destruct k; discriminate Hb);
        injection Ha as <- <- <-; injection Hb as <- <- <-; repeat split; vm_compute; reflexivity. }
  split; [| exact H]. destruct (H (i 49%Z) (d 10 3)%Z (i 0%Z)) as (v & -> & _); [simpl; auto | discriminate].
Qed.
