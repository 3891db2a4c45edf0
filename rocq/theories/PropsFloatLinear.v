(** Properties C81 and C82: linear interpolation in floating point against the real-number model. *)
From Coq Require Import ZArith Reals List Bool Arith Lia Lra Psatz.
From Flocq Require Import Core BinarySingleNaN Plus_error Relative.
From Verif Require Import Base Value FloatValue FloatFacts RealValue InterpModel InterpFacts Grid PropsLinear
  PropsLinearFloat PropsFloat PropsFloatKnots.
Import ListNotations.
Open Scope R_scope.

(** ** Rounding errors over the reals *)

Lemma factor (a e k u : R) : 0 <= u <= / 256 -> 0 <= k <= 6 -> Rabs (a - 1) <= k * u -> Rabs e <= 1.01 * u ->
  Rabs (a * (1 + e) - 1) <= (k + 1.04) * u.
Proof.
  intros Hu Hk Ha He. replace (a * (1 + e) - 1) with ((a - 1) + e + (a - 1) * e) by ring.
  apply Rle_trans with (Rabs (a - 1) + Rabs e + Rabs (a - 1) * Rabs e).
  - rewrite <- (Rabs_mult (a - 1) e). eapply Rle_trans; [apply Rabs_triang |].
    apply Rplus_le_compat_r. apply Rabs_triang.
  - assert (Rabs (a - 1) * Rabs e <= (k * u) * (1.01 * u)) as Q
      by (apply Rmult_le_compat; auto using Rabs_pos).
    assert ((k * u) * (1.01 * u) <= 0.0237 * u) as Q'.
    { replace ((k * u) * (1.01 * u)) with ((k * 1.01 * u) * u) by ring. apply Rmult_le_compat_r; nra. }
    lra.
Qed.

Lemma inverse (e u : R) : 0 <= u <= / 256 -> Rabs e <= u ->
  exists e', / (1 + e) = 1 + e' /\ Rabs e' <= 1.01 * u.
Proof.
  intros Hu He. apply Rabs_le_inv in He. exists (/ (1 + e) - 1). split; [ring |].
  replace (/ (1 + e) - 1) with (- e * / (1 + e)) by (field; lra).
  rewrite Rabs_mult, Rabs_Ropp.
  assert (0 < / (1 + e) <= 1.01) as [I1 I2].
  { split; [apply Rinv_0_lt_compat; lra |]. apply Rmult_le_reg_l with (1 + e); [lra |]. rewrite Rinv_r by lra. lra. }
  rewrite (Rabs_pos_eq (/ (1 + e))) by lra. rewrite (Rmult_comm 1.01). apply Rmult_le_compat; try lra; try apply Rabs_pos.
  apply Rabs_le. lra.
Qed.

(** All six operations together. *)
Lemma error_real (y0 y1 h t u eta D H Q T P r e1 e2 e3 n3 e4 e5 n5 e6 : R) :
  0 <= u <= / 256 -> 0 <= eta -> 0 < h -> 0 <= t <= h ->
  Rabs e1 <= u -> Rabs e2 <= u -> Rabs e3 <= u -> Rabs e4 <= u -> Rabs e5 <= u -> Rabs e6 <= u ->
  Rabs n3 <= eta -> Rabs n5 <= eta ->
  D = (y1 - y0) * (1 + e1) -> H = h * (1 + e2) -> Q = D / H * (1 + e3) + n3 -> T = t * (1 + e4) ->
  P = Q * T * (1 + e5) + n5 -> r = (y0 + P) * (1 + e6) ->
  let L := y0 + (y1 - y0) / h * t in
  Rabs (r - L) <= u * Rabs L + 6 * u * Rabs (y1 - y0) + 2 * eta * (t + 1).
Proof.
  intros Hu Heta Hh Ht E1 E2 E3 E4 E5 E6 N3 N5 -> -> -> -> -> -> L.
  assert (Rabs (1 - 1) <= 0 * u) as A0 by (replace (1 - 1) with 0 by ring; rewrite Rabs_R0; lra).
  destruct (inverse e2 u Hu E2) as (e2' & I2 & E2').
  assert (forall w, Rabs w <= u -> Rabs w <= 1.01 * u) as Wk by (intros; lra).
  pose proof (factor 1 e1 0 u Hu ltac:(lra) A0 (Wk _ E1)) as A1.
  pose proof (factor _ e2' (0 + 1.04) u Hu ltac:(lra) A1 E2') as A2.
  pose proof (factor _ e3 (0 + 1.04 + 1.04) u Hu ltac:(lra) A2 (Wk _ E3)) as A3.
  pose proof (factor _ e4 (0 + 1.04 + 1.04 + 1.04) u Hu ltac:(lra) A3 (Wk _ E4)) as A4.
  pose proof (factor _ e5 (0 + 1.04 + 1.04 + 1.04 + 1.04) u Hu ltac:(lra) A4 (Wk _ E5)) as A5.
  set (F := 1 * (1 + e1) * (1 + e2') * (1 + e3) * (1 + e4) * (1 + e5)) in *.
  set (Mm := (y1 - y0) / h * t) in *.
  apply Rabs_le_inv in E2.
  set (P := ((y1 - y0) * (1 + e1) / (h * (1 + e2)) * (1 + e3) + n3) * (t * (1 + e4)) * (1 + e5) + n5).
  assert (P = Mm * F + (n3 * (t * ((1 + e4) * (1 + e5))) + n5)) as EP.
  { unfold P, Mm, F. rewrite <- I2. field. lra. }
  assert (Rabs Mm <= Rabs (y1 - y0)) as BM.
  { unfold Mm. replace ((y1 - y0) / h * t) with ((y1 - y0) * (t / h)) by (field; lra). rewrite Rabs_mult.
    rewrite <- (Rmult_1_r (Rabs (y1 - y0))) at 2. apply Rmult_le_compat_l; [apply Rabs_pos |].
    assert (0 <= t / h <= 1); [| rewrite Rabs_pos_eq; lra]. split.
    - apply Rmult_le_pos; [lra | left; now apply Rinv_0_lt_compat].
    - apply Rmult_le_reg_r with h; [exact Hh |]. unfold Rdiv. rewrite Rmult_assoc, Rinv_l by lra. lra. }
  assert (Rabs (P - Mm) <= 5.2 * u * Rabs (y1 - y0) + eta * (1.01 * t + 1)) as BP.
  { rewrite EP. replace (Mm * F + (n3 * (t * ((1 + e4) * (1 + e5))) + n5) - Mm)
      with (Mm * (F - 1) + (n3 * (t * ((1 + e4) * (1 + e5))) + n5)) by ring.
    eapply Rle_trans; [apply Rabs_triang |]. apply Rplus_le_compat.
    - rewrite Rabs_mult, Rmult_comm. apply Rmult_le_compat; try apply Rabs_pos; lra.
    - eapply Rle_trans; [apply Rabs_triang |]. rewrite (Rmult_plus_distr_l eta), (Rmult_1_r eta). apply Rplus_le_compat; [| exact N5].
      rewrite Rabs_mult. apply Rmult_le_compat; try apply Rabs_pos; [exact N3 |].
      apply Rabs_le_inv in E4. apply Rabs_le_inv in E5.
      assert (0 <= (1 + e4) * (1 + e5) <= 1.01) as [B1 B2] by (split; nra).
      rewrite Rabs_pos_eq by (apply Rmult_le_pos; lra). rewrite Rmult_comm. apply Rmult_le_compat_r; lra. }
  replace ((y0 + P) * (1 + e6) - L) with (e6 * L + (1 + e6) * (P - Mm)) by (unfold L; ring).
  eapply Rle_trans; [apply Rabs_triang |]. rewrite (Rplus_assoc (u * Rabs L)). apply Rplus_le_compat.
  - rewrite Rabs_mult. apply Rmult_le_compat_r; [apply Rabs_pos | exact E6].
  - rewrite Rabs_mult.
    assert (Rabs (1 + e6) <= 1 + u) as B6.
    { eapply Rle_trans; [apply Rabs_triang |]. rewrite Rabs_R1. lra. }
    eapply Rle_trans; [apply Rmult_le_compat; [apply Rabs_pos | apply Rabs_pos | exact B6 | exact BP] |].
    rewrite (Rmult_plus_distr_l (1 + u)). apply Rplus_le_compat.
    + replace ((1 + u) * (5.2 * u * Rabs (y1 - y0))) with (((1 + u) * 5.2) * u * Rabs (y1 - y0)) by ring.
      apply Rmult_le_compat_r; [apply Rabs_pos |]. apply Rmult_le_compat_r; lra.
    + replace ((1 + u) * (eta * (1.01 * t + 1))) with (eta * ((1 + u) * (1.01 * t + 1))) by ring.
      rewrite (Rmult_comm 2), Rmult_assoc. apply Rmult_le_compat_l; [exact Heta |]. nra.
Qed.

(** ** Operations of a format *)

Section Format.
Variables prec emax : Z.
Context (Hp : Prec_gt_0 prec) (He : Prec_lt_emax prec emax).
Notation fl := (binary_float prec emax).

(** Half a unit in the last place of 1, and half the smallest positive number. *)
Definition unit_roundoff : R := bpow radix2 (- prec).
Definition half_tiny : R := bpow radix2 (2 - emax - prec).

Lemma u_ro_eq : u_ro radix2 prec = unit_roundoff.
Proof.
  unfold u_ro, unit_roundoff. replace (- prec + 1)%Z with (1 + - prec)%Z by ring. rewrite bpow_plus. change (bpow radix2 1) with 2. field.
Qed.

Lemma overflow_inf (z : fl) (b : bool) : B2SF z = binary_overflow prec emax mode_NE b -> is_finite z = false.
Proof. intros E. rewrite <- is_finite_SF_B2SF, E. reflexivity. Qed.

(** A finite sum or difference has finite operands and a relative error only. *)
Lemma plus_error (x y : fl) : is_finite (Bplus mode_NE x y) = true ->
  is_finite x = true /\ is_finite y = true
  /\ exists d, Rabs d <= unit_roundoff /\ B2R (Bplus mode_NE x y) = (B2R x + B2R y) * (1 + d).
Proof.
  intros F. assert (is_finite x = true /\ is_finite y = true) as [Fx Fy].
  { destruct x as [[] | [] | | [] m k Hb], y as [[] | [] | | [] m' k' Hb']; try discriminate F; split; reflexivity. }
  split; [exact Fx |]. split; [exact Fy |].
  pose proof (Bplus_correct prec emax Hp He mode_NE x y Fx Fy) as C. change (round_mode mode_NE) with ZnearestE in C.
  destruct (Rlt_bool _ _).
  - destruct C as (-> & _).
    destruct (@FLT_plus_error_N_ex radix2 (SpecFloat.emin prec emax) prec Hp (fun x => negb (Z.even x)) (B2R x) (B2R y)
      (generic_format_B2R _ _ x) (generic_format_B2R _ _ y)) as (d & Bd & E).
    exists d. split; [| exact E]. eapply Rle_trans; [exact Bd |]. rewrite <- u_ro_eq. apply u_rod1pu_ro_le_u_ro.
  - destruct C as (C & _). apply overflow_inf in C. congruence.
Qed.

Lemma minus_error (x y : fl) : is_finite (Bminus mode_NE x y) = true ->
  is_finite x = true /\ is_finite y = true
  /\ exists d, Rabs d <= unit_roundoff /\ B2R (Bminus mode_NE x y) = (B2R x - B2R y) * (1 + d).
Proof.
  intros F. assert (is_finite x = true /\ is_finite y = true) as [Fx Fy].
  { destruct x as [[] | [] | | [] m k Hb], y as [[] | [] | | [] m' k' Hb']; try discriminate F; split; reflexivity. }
  split; [exact Fx |]. split; [exact Fy |].
  pose proof (Bminus_correct prec emax Hp He mode_NE x y Fx Fy) as C. change (round_mode mode_NE) with ZnearestE in C.
  destruct (Rlt_bool _ _).
  - destruct C as (-> & _).
    destruct (@FLT_plus_error_N_ex radix2 (SpecFloat.emin prec emax) prec Hp (fun x => negb (Z.even x)) (B2R x) (- B2R y)
      (generic_format_B2R _ _ x) (generic_format_opp _ _ _ (generic_format_B2R _ _ y))) as (d & Bd & E).
    exists d. split; [| exact E]. eapply Rle_trans; [exact Bd |]. rewrite <- u_ro_eq. apply u_rod1pu_ro_le_u_ro.
  - destruct C as (C & _). apply overflow_inf in C. congruence.
Qed.

Lemma round_error (r : R) : exists d n, Rabs d <= unit_roundoff /\ Rabs n <= half_tiny
  /\ round radix2 (SpecFloat.fexp prec emax) ZnearestE r = r * (1 + d) + n.
Proof.
  destruct (error_N_FLT radix2 (SpecFloat.emin prec emax) prec Hp (fun x => negb (Z.even x)) r) as (d & n & Bd & Bn & _ & E).
  exists d, n. split; [rewrite <- u_ro_eq; exact Bd |]. split; [| exact E].
  eapply Rle_trans; [exact Bn |]. right. unfold half_tiny, SpecFloat.emin.
  replace (3 - emax - prec)%Z with (1 + (2 - emax - prec))%Z by ring. rewrite bpow_plus. change (bpow radix2 1) with 2. field.
Qed.

Lemma mult_error (x y : fl) : is_finite (Bmult mode_NE x y) = true ->
  is_finite x = true /\ is_finite y = true
  /\ exists d n, Rabs d <= unit_roundoff /\ Rabs n <= half_tiny /\ B2R (Bmult mode_NE x y) = B2R x * B2R y * (1 + d) + n.
Proof.
  intros F. pose proof (Bmult_correct prec emax Hp He mode_NE x y) as C. change (round_mode mode_NE) with ZnearestE in C.
  destruct (Rlt_bool _ _).
  - destruct C as (-> & Ff & _). rewrite F in Ff. symmetry in Ff. apply andb_prop in Ff. destruct Ff as [Fx Fy].
    split; [exact Fx |]. split; [exact Fy |]. apply round_error.
  - apply overflow_inf in C. congruence.
Qed.

Lemma div_error (x y : fl) : B2R y <> 0 -> is_finite (Bdiv mode_NE x y) = true ->
  is_finite x = true
  /\ exists d n, Rabs d <= unit_roundoff /\ Rabs n <= half_tiny /\ B2R (Bdiv mode_NE x y) = B2R x / B2R y * (1 + d) + n.
Proof.
  intros N F. pose proof (Bdiv_correct prec emax Hp He mode_NE x y N) as C. change (round_mode mode_NE) with ZnearestE in C.
  destruct (Rlt_bool _ _).
  - destruct C as (-> & Ff & _). rewrite F in Ff. split; [easy |]. apply round_error.
  - apply overflow_inf in C. congruence.
Qed.

(** The formula of linear.rs:79-82 for one cell. *)
Definition lform (x x0 y0 x1 y1 : fl) : fl :=
  Bplus mode_NE y0 (Bmult mode_NE (Bdiv mode_NE (Bminus mode_NE y1 y0) (Bminus mode_NE x1 x0)) (Bminus mode_NE x x0)).

Lemma lform_error (x x0 y0 x1 y1 : fl) : (8 <= prec)%Z ->
  is_finite x0 = true -> is_finite x1 = true -> B2R x0 < B2R x1 -> B2R x0 <= B2R x <= B2R x1 ->
  is_finite (Bminus mode_NE x1 x0) = true -> is_finite (lform x x0 y0 x1 y1) = true ->
  let L := B2R y0 + (B2R y1 - B2R y0) / (B2R x1 - B2R x0) * (B2R x - B2R x0) in
  Rabs (B2R (lform x x0 y0 x1 y1) - L) <= unit_roundoff * Rabs L + 6 * unit_roundoff * Rabs (B2R y1 - B2R y0)
    + 2 * half_tiny * (B2R x - B2R x0 + 1).
Proof.
  intros H8 F0 F1 Lt Bx Fh Fr. unfold lform in *.
  destruct (plus_error _ _ Fr) as (Fy0 & Fp & e6 & E6 & ->).
  destruct (mult_error _ _ Fp) as (Fq & Ft & e5 & n5 & E5 & N5 & ->).
  pose proof (minus_not_0 prec emax Hp He x1 x0 F1 F0 ltac:(lra) Fh) as Nh.
  destruct (div_error _ _ Nh Fq) as (Fd & e3 & n3 & E3 & N3 & ->).
  destruct (minus_error _ _ Fd) as (_ & _ & e1 & E1 & ->).
  destruct (minus_error _ _ Fh) as (_ & _ & e2 & E2 & ->).
  destruct (minus_error _ _ Ft) as (_ & _ & e4 & E4 & ->).
  eapply (error_real (B2R y0) (B2R y1) (B2R x1 - B2R x0) (B2R x - B2R x0)); try reflexivity; try eassumption; try lra.
  - unfold unit_roundoff. split; [apply bpow_ge_0 |]. change (/ 256) with (bpow radix2 (-8)). apply bpow_le. lia.
  - apply bpow_ge_0.
Qed.
End Format.

Lemma linear_value {V : Value} (pts : list (V * V)) (z : V * V) (x : V) i : (i + 1 < length pts)%nat ->
  find_index (fun y => y) (map fst pts) x = Ret (Ok i) ->
  let p := nth i pts z in let q := nth (i + 1) pts z in
  fit_eval (Linear V) pts x = Ret (Ok (snd p + (snd q - snd p) / (fst q - fst p) * (x - fst p))%V).
Proof.
  intros L Fi p q. unfold fit_eval. cbn [i_try_fit Linear i_default i_try_value linear_try_fit bind try_res].
  unfold linear_try_fit. cbn [bind try_res]. unfold linear_try_value.
  set (l := map (fun xy : V * V => mkPoint (fst xy) (snd xy)) pts).
  assert (map fst pts = map p_x l) as El by (unfold l; rewrite map_map; reflexivity).
  rewrite El, <- find_index_map in Fi. rewrite Fi. cbn [bind try_res].
  assert (length l = length pts) as Ll by apply map_length.
  assert (forall k, nth k l (mkPoint (fst z) (snd z)) = mkPoint (fst (nth k pts z)) (snd (nth k pts z))) as En
    by (intros k; apply (map_nth (fun xy : V * V => mkPoint (fst xy) (snd xy)) pts z k)).
  rewrite (index_some l i (mkPoint (fst z) (snd z))) by lia. cbn [bind].
  rewrite (index_some l (i + 1) (mkPoint (fst z) (snd z))) by lia. cbn [bind]. now rewrite !En.
Qed.

(** The points as real numbers. *)
Definition reals {prec emax} (pts : list (binary_float prec emax * binary_float prec emax)) : list (R * R) :=
  map (fun p => (B2R (fst p), B2R (snd p))) pts.

Lemma gx_reals prec emax (pts : list (binary_float prec emax * binary_float prec emax)) i :
  gx (reals pts) i = B2R (fst (nth i pts (B754_nan, B754_nan))).
Proof. unfold gx, reals. change (0, 0) with ((fun p : binary_float prec emax * binary_float prec emax => (B2R (fst p), B2R (snd p))) (B754_nan, B754_nan)). now rewrite map_nth. Qed.

Lemma gy_reals prec emax (pts : list (binary_float prec emax * binary_float prec emax)) i :
  gy (reals pts) i = B2R (snd (nth i pts (B754_nan, B754_nan))).
Proof. unfold gy, reals. change (0, 0) with ((fun p : binary_float prec emax * binary_float prec emax => (B2R (fst p), B2R (snd p))) (B754_nan, B754_nan)). now rewrite map_nth. Qed.

Lemma rising_increasing prec emax (pts : list (binary_float prec emax * binary_float prec emax)) :
  rising (map fst pts) -> increasing (reals pts).
Proof.
  intros Rs i j H. unfold reals in H. rewrite map_length in H. rewrite !gx_reals.
  pose proof (rising_lt prec emax (map fst pts) Rs i j ltac:(rewrite map_length; lia)) as Q.
  set (z := (B754_nan, B754_nan) : binary_float prec emax * binary_float prec emax).
  now rewrite <- (map_nth fst pts z i), <- (map_nth fst pts z j).
Qed.

(** A query in range falls in a cell that contains it. *)
Lemma linear_in_cell prec emax Hp He e (pts : list (binary_float prec emax * binary_float prec emax)) x v :
  rising (map fst pts) -> is_finite x = true -> (2 <= length pts)%nat ->
  fit_eval (Linear (FV prec emax Hp He e)) pts x = Ret (Ok v) ->
  exists i, (i + 1 < length pts)%nat /\ gx (reals pts) i <= B2R x <= gx (reals pts) (i + 1)
    /\ (i <> 0%nat -> gx (reals pts) i < B2R x)
    /\ let p := nth i pts (B754_nan, B754_nan) in let q := nth (i + 1) pts (B754_nan, B754_nan) in
       v = lform prec emax Hp He x (fst p) (snd p) (fst q) (snd q).
Proof.
  intros Rs Fx L E. set (z := (B754_nan, B754_nan) : binary_float prec emax * binary_float prec emax).
  pose proof (rising_line prec emax (map fst pts) Rs) as Ln.
  assert (map fst pts <> []) as Ne by (destruct pts; [simpl in L; lia | discriminate]).
  destruct (find_line prec emax Hp He e (map fst pts) x Ln Ne (not_nan prec emax x Fx)) as (A & B & C).
  destruct (cells_linear (V := FV prec emax Hp He e) pts x L) as (w & W).
  assert (forall k, nth k (map fst pts) B754_nan = fst (nth k pts z)) as En by (intros k; apply (map_nth fst pts z k)).
  destruct (Bltb x (hd B754_nan (map fst pts))) eqn:Lo; [pose proof (eq_trans (eq_sym E) (eq_trans W (f_equal (by_cell w) (A eq_refl)))); discriminate |].
  destruct (Bltb (last (map fst pts) B754_nan) x) eqn:Up; [pose proof (eq_trans (eq_sym E) (eq_trans W (f_equal (by_cell w) (B eq_refl)))); discriminate |].
  destruct (C eq_refl eq_refl) as (i & Fi & Le & Lt & Nx). clear A B C. exists i.
  rewrite En in *. rewrite map_length in Nx.
  assert (length (map fst pts) = length pts) as Lm by apply map_length.
  destruct (find_index_total (V := FV prec emax Hp He e) (fun y => y) (map fst pts) x) as (r & Er & Bi & _).
  rewrite Fi in Er. injection Er as <-.
  assert (i + 1 < length pts)%nat as Hi.
  { destruct (Bi i eq_refl) as [H1 H2]. cbn [FV carrier] in *. rewrite Lm in *. lia. }
  assert (forall k, (k < length pts)%nat -> is_finite (fst (nth k pts z)) = true) as Fk.
  { intros k Hk. rewrite <- En. apply (proj1 Rs), nth_In. lia. }
  specialize (Nx Hi).
  rewrite Bleb_correct in Le, Nx by (try apply Fk; auto; lia).
  split; [exact Hi |]. rewrite !gx_reals. fold z. split; [| split].
  - split; [revert Le | revert Nx]; case Rle_bool_spec; easy.
  - intros N0. specialize (Lt N0). rewrite Bltb_correct in Lt by (try apply Fk; auto; lia).
    revert Lt. case Rlt_bool_spec; easy.
  - pose proof (linear_value (V := FV prec emax Hp He e) pts z x i Hi Fi) as Ev. cbv zeta in Ev.
    pose proof (eq_trans (eq_sym E) Ev) as Q. injection Q as ->. reflexivity.
Qed.

(** ** C81: rounding errors stay small *)
Theorem C81_linear : forall prec emax Hp He e (pts : list (binary_float prec emax * binary_float prec emax)) x v,
  (8 <= prec)%Z -> (2 <= length pts)%nat -> rising (map fst pts) ->
  (forall i p q, nth_error pts i = Some p -> nth_error pts (S i) = Some q -> is_finite (Bminus mode_NE (fst q) (fst p)) = true) ->
  is_finite x = true -> fit_eval (Linear (FV prec emax Hp He e)) pts x = Ret (Ok v) -> is_finite v = true ->
  let u := bpow radix2 (- prec) in
  exists i L, (i + 1 < length pts)%nat /\ gx (reals pts) i <= B2R x <= gx (reals pts) (i + 1)
    /\ fit_eval (Linear RV) (reals pts) (B2R x) = Ret (Ok L)
    /\ Rabs (B2R v - L) <= u * Rabs L + 6 * u * Rabs (gy (reals pts) (i + 1) - gy (reals pts) i)
         + bpow radix2 (3 - emax - prec) * (B2R x - gx (reals pts) i + 1).
Proof.
  intros prec emax Hp He e pts x v H8 L Rs Fh Fx E Fv u.
  destruct (linear_in_cell prec emax Hp He e pts x v Rs Fx L E) as (i & Hi & Bx & _ & Ev). cbv zeta in Ev.
  exists i, (chord (reals pts) i (B2R x)). split; [exact Hi |]. split; [exact Bx |].
  pose proof (rising_increasing prec emax pts Rs) as Inc.
  assert (length (reals pts) = length pts) as Lr by apply map_length.
  split; [apply linear_closed; [exact Inc | lia | exact Bx] |].
  set (z := (B754_nan, B754_nan) : binary_float prec emax * binary_float prec emax) in *.
  assert (forall k, (k < length pts)%nat -> is_finite (fst (nth k pts z)) = true) as Fk.
  { intros k Hk. rewrite <- (map_nth fst pts z k). apply (proj1 Rs), nth_In. rewrite map_length. exact Hk. }
  assert (is_finite (Bminus mode_NE (fst (nth (i + 1) pts z)) (fst (nth i pts z))) = true) as Fhi.
  { apply (Fh i); [apply nth_error_nth'; lia |]. replace (S i) with (i + 1)%nat by lia. apply nth_error_nth'. lia. }
  assert (gx (reals pts) i < gx (reals pts) (i + 1)) as Lt by (apply Inc; lia).
  unfold chord. rewrite !gx_reals, !gy_reals in *. fold z. fold z in Bx, Lt. subst v.
  pose proof (lform_error prec emax Hp He x (fst (nth i pts z)) (snd (nth i pts z)) (fst (nth (i + 1) pts z)) (snd (nth (i + 1) pts z))
    H8 (Fk i ltac:(lia)) (Fk (i + 1)%nat Hi) Lt Bx Fhi Fv) as Q. cbv zeta in Q.
  replace (bpow radix2 (3 - emax - prec)) with (2 * half_tiny prec emax); [exact Q |].
  unfold half_tiny. replace (3 - emax - prec)%Z with (1 + (2 - emax - prec))%Z by ring. rewrite bpow_plus. reflexivity.
Qed.

(** ** C82: order *)

(** Rounded operations are monotone, so within a cell the values are ordered as the queries are. *)
Theorem C82_cell : forall prec emax Hp He e (pts : list (binary_float prec emax * binary_float prec emax)) i x x' v v',
  rising (map fst pts) -> (i + 1 < length pts)%nat -> is_finite x = true -> is_finite x' = true ->
  gx (reals pts) i < B2R x -> B2R x <= B2R x' -> B2R x' <= gx (reals pts) (i + 1) ->
  is_finite (Bminus mode_NE (fst (nth (i + 1) pts (B754_nan, B754_nan))) (fst (nth i pts (B754_nan, B754_nan)))) = true ->
  fit_eval (Linear (FV prec emax Hp He e)) pts x = Ret (Ok v) -> fit_eval (Linear (FV prec emax Hp He e)) pts x' = Ret (Ok v') ->
  is_finite v = true -> is_finite v' = true ->
  (gy (reals pts) i <= gy (reals pts) (i + 1) -> B2R v <= B2R v')
  /\ (gy (reals pts) (i + 1) <= gy (reals pts) i -> B2R v' <= B2R v).
Proof.
  intros prec emax Hp He e pts i x x' v v' Rs Hi Fx Fx' Lo Le Up Fh E E' Fv Fv'.
  assert (2 <= length pts)%nat as L by lia.
  pose proof (rising_increasing prec emax pts Rs) as Inc.
  assert (length (reals pts) = length pts) as Lr by apply map_length.
  assert (forall k (y : binary_float prec emax), (k + 1 < length pts)%nat -> gx (reals pts) k <= B2R y <= gx (reals pts) (k + 1) -> (k <> 0%nat -> gx (reals pts) k < B2R y) ->
    gx (reals pts) i < B2R y -> B2R y <= gx (reals pts) (i + 1) -> k = i) as Uniq.
  { intros k y Hk By Sy L1 U1. destruct (Nat.lt_trichotomy k i) as [Q | [Q | Q]]; [exfalso | exact Q | exfalso].
    - assert (gx (reals pts) (k + 1) <= gx (reals pts) i); [| lra].
      destruct (Nat.eq_dec (k + 1) i) as [-> | D]; [lra |]. apply Rlt_le, Inc. lia.
    - assert (gx (reals pts) (i + 1) <= gx (reals pts) k) as Q'.
      { destruct (Nat.eq_dec (i + 1) k) as [-> | D]; [lra |]. apply Rlt_le, Inc. lia. }
      specialize (Sy ltac:(lia)). lra. }
  destruct (linear_in_cell prec emax Hp He e pts x v Rs Fx L E) as (k & Hk & Bk & Sk & ->).
  destruct (linear_in_cell prec emax Hp He e pts x' v' Rs Fx' L E') as (k' & Hk' & Bk' & Sk' & ->).
  assert (k = i) as -> by (apply (Uniq k x); auto; lra). assert (k' = i) as -> by (apply (Uniq k' x'); auto; lra).
  clear Uniq Bk Bk' Sk Sk' Hk Hk'. cbv zeta in *.
  set (z := (B754_nan, B754_nan) : binary_float prec emax * binary_float prec emax) in *.
  assert (forall k, (k < length pts)%nat -> is_finite (fst (nth k pts z)) = true) as Fk.
  { intros k Hk. rewrite <- (map_nth fst pts z k). apply (proj1 Rs), nth_In. rewrite map_length. exact Hk. }
  pose proof (Fk i ltac:(lia)) as F0. pose proof (Fk (i + 1)%nat Hi) as F1. clear Fk.
  assert (gx (reals pts) i < gx (reals pts) (i + 1)) as Lt by (apply Inc; lia).
  rewrite !gx_reals, !gy_reals in *. fold z. fold z in Lo, Up, Lt. clear E E' Inc Lr Rs.
  set (x0 := fst (nth i pts z)) in *. set (x1 := fst (nth (i + 1) pts z)) in *.
  set (y0 := snd (nth i pts z)) in *. set (y1 := snd (nth (i + 1) pts z)) in *. clearbody x0 x1 y0 y1.
  unfold lform in *.
  destruct (plus_error prec emax Hp He _ _ Fv) as (Fy0 & Fp & _). destruct (plus_error prec emax Hp He _ _ Fv') as (_ & Fp' & _).
  destruct (mult_error prec emax Hp He _ _ Fp) as (Fq & Ft & _). destruct (mult_error prec emax Hp He _ _ Fp') as (_ & Ft' & _).
  pose proof (minus_not_0 prec emax Hp He x1 x0 F1 F0 ltac:(lra) Fh) as Nh.
  destruct (div_error prec emax Hp He _ _ Nh Fq) as (Fd & _). destruct (minus_error prec emax Hp He _ _ Fd) as (Fy1 & _ & _).
  assert (forall a b : binary_float prec emax, is_finite a = true -> is_finite b = true -> is_finite (Bplus mode_NE a b) = true ->
    B2R (Bplus mode_NE a b) = rnd prec emax (B2R a + B2R b)) as Vadd.
  { intros a b Fa Fb Fc. pose proof (Bplus_correct prec emax Hp He mode_NE a b Fa Fb) as C. change (round_mode mode_NE) with ZnearestE in C.
    destruct (Rlt_bool _ _); [apply C |]. destruct C as [C _]. apply overflow_inf in C. congruence. }
  assert (forall a b : binary_float prec emax, is_finite a = true -> is_finite b = true -> is_finite (Bminus mode_NE a b) = true ->
    B2R (Bminus mode_NE a b) = rnd prec emax (B2R a - B2R b)) as Vsub.
  { intros a b Fa Fb Fc. pose proof (Bminus_correct prec emax Hp He mode_NE a b Fa Fb) as C. change (round_mode mode_NE) with ZnearestE in C.
    destruct (Rlt_bool _ _); [apply C |]. destruct C as [C _]. apply overflow_inf in C. congruence. }
  assert (forall a b : binary_float prec emax, is_finite (Bmult mode_NE a b) = true ->
    B2R (Bmult mode_NE a b) = rnd prec emax (B2R a * B2R b)) as Vmul.
  { intros a b Fc. pose proof (Bmult_correct prec emax Hp He mode_NE a b) as C. change (round_mode mode_NE) with ZnearestE in C.
    destruct (Rlt_bool _ _); [apply C |]. apply overflow_inf in C. congruence. }
  assert (forall a b : binary_float prec emax, B2R b <> 0 -> is_finite (Bdiv mode_NE a b) = true ->
    B2R (Bdiv mode_NE a b) = rnd prec emax (B2R a / B2R b)) as Vdiv.
  { intros a b Nb Fc. pose proof (Bdiv_correct prec emax Hp He mode_NE a b Nb) as C. change (round_mode mode_NE) with ZnearestE in C.
    destruct (Rlt_bool _ _); [apply C |]. apply overflow_inf in C. congruence. }
  rewrite !Vadd, !Vmul, !Vdiv, !Vsub by assumption.
  rewrite (Vsub x1 x0) in Nh by assumption.
  assert (rnd prec emax 0 = 0) as R0 by (apply round_0, valid_rnd_N).
  assert (forall a, 0 <= a -> 0 <= rnd prec emax a) as Pos by (intros a Ha; rewrite <- R0; now apply (rnd_mono prec emax Hp)).
  assert (forall a, a <= 0 -> rnd prec emax a <= 0) as Neg by (intros a Ha; rewrite <- R0; now apply (rnd_mono prec emax Hp)).
  pose proof (Pos (B2R x1 - B2R x0) ltac:(lra)) as Ph.
  assert (0 < / rnd prec emax (B2R x1 - B2R x0)) as Pi by (apply Rinv_0_lt_compat; lra).
  assert (rnd prec emax (B2R x - B2R x0) <= rnd prec emax (B2R x' - B2R x0)) as Mt by (apply (rnd_mono prec emax Hp); lra).
  split; intros Hy.
  - apply (rnd_mono prec emax Hp). apply Rplus_le_compat_l. apply (rnd_mono prec emax Hp).
    apply Rmult_le_compat_l; [| exact Mt]. apply Pos. apply Rmult_le_pos; [| lra]. apply Pos. lra.
  - apply (rnd_mono prec emax Hp). apply Rplus_le_compat_l. apply (rnd_mono prec emax Hp).
    apply Rmult_le_compat_neg_l; [| exact Mt]. apply Neg.
    assert (rnd prec emax (B2R y1 - B2R y0) <= 0) by (apply Neg; lra). unfold Rdiv. nra.
Qed.

(** Across cells the order can break: through (0, 0), (7, 29), (8, 29) the value at 7 is larger than 29, the value at 8. *)
Theorem C82_grid_refuted : forall e, let V := F64 e in
  let pts := [(# 0, # 0); (# 7, # 29); (# 8, # 29)]%Z in
  rising (map fst pts) /\ (forall p, In p pts -> Bleb (snd p) (# 29) = true)
  /\ exists v v', fit_eval (Linear V) pts (# 7) = Ret (Ok v) /\ fit_eval (Linear V) pts (# 8) = Ret (Ok v')
       /\ Bltb (# 29) v = true /\ Bltb v' v = true.
Proof.
  intros e V pts. split; [| split].
  - split.
    + intros y [<- | [<- | [<- | []]]]; vm_compute; reflexivity.
    + intros [| [| [| k]]] a b Ha Hb; try discriminate Hb; try (destruct k; discriminate Hb);
        injection Ha as <-; injection Hb as <-; vm_compute; reflexivity.
  - intros p [<- | [<- | [<- | []]]]; vm_compute; reflexivity.
  - assert (match fit_eval (Linear V) pts (# 7), fit_eval (Linear V) pts (# 8) with
      Ret (Ok v), Ret (Ok v') => Bltb (# 29) v && Bltb v' v | _, _ => false end = true) as H by (vm_compute; reflexivity).
    destruct (fit_eval (Linear V) pts (# 7)) as [[v | er] | |]; try discriminate.
    destruct (fit_eval (Linear V) pts (# 8)) as [[v' | er] | |]; try discriminate.
    apply andb_prop in H. exists v, v'. tauto.
Qed.

(** The same points at 3 and 5. *)
Example C81_case : forall e, let V := F64 e in let pts := [(# 0, # 0); (# 7, # 29); (# 8, # 29)]%Z in
  exists v L, fit_eval (Linear V) pts (# 3) = Ret (Ok v) /\ fit_eval (Linear RV) (reals pts) (B2R (# 3)) = Ret (Ok L)
    /\ Rabs (B2R v - L) <= bpow radix2 (- 53) * Rabs L + 6 * bpow radix2 (- 53) * 29 + bpow radix2 (- 1074) * 8.
Proof.
  intros e V pts. destruct (C82_grid_refuted e) as (Rs & _).
  assert (match fit_eval (Linear V) pts (# 3) with Ret (Ok v) => is_finite v | _ => false end = true) as H by (vm_compute; reflexivity).
  destruct (fit_eval (Linear V) pts (# 3)) as [[v | er] | |] eqn:E; try discriminate. exists v.
  destruct (C81_linear 53 1024 Hp53 He1024 e pts (# 3) v) as (i & L & Hi & Bx & EL & B); auto; [lia | simpl; lia | |].
  - intros [| [| [| k]]] p q Hp Hq; try discriminate Hq; try (destruct k; discriminate Hq);
      injection Hp as <-; injection Hq as <-; vm_compute; reflexivity.
  - exists L. split; [reflexivity |]. split; [exact EL |].
    assert (forall z, (Z.abs z < 2 ^ 53)%Z -> B2R (# z) = IZR z) as Ez by (intros z Hz; apply of_int_correct; lia).
    rewrite !gx_reals, !gy_reals in *. simpl length in Hi. destruct i as [| [| i]]; [| | lia].
    + cbn [nth fst snd pts Nat.add] in *. rewrite !Ez in * by lia. replace (Rabs (29 - 0)) with 29 in B by (rewrite Rabs_pos_eq; lra).
      eapply Rle_trans; [exact B |]. apply Rplus_le_compat_l. apply Rmult_le_compat_l; [apply bpow_ge_0 | lra].
    + exfalso. cbn [nth fst snd pts Nat.add] in Bx. rewrite !Ez in Bx by lia. lra.
Qed.

Example C82_case : forall e, let V := F64 e in let pts := [(# 0, # 0); (# 7, # 29); (# 8, # 29)]%Z in
  exists v v', fit_eval (Linear V) pts (# 3) = Ret (Ok v) /\ fit_eval (Linear V) pts (# 5) = Ret (Ok v') /\ B2R v <= B2R v'.
Proof.
  intros e V pts. destruct (C82_grid_refuted e) as (Rs & _).
  assert (match fit_eval (Linear V) pts (# 3), fit_eval (Linear V) pts (# 5) with
    Ret (Ok v), Ret (Ok v') => is_finite v && is_finite v' | _, _ => false end = true) as H by (vm_compute; reflexivity).
  destruct (fit_eval (Linear V) pts (# 3)) as [[v | er] | |] eqn:E; try discriminate.
  destruct (fit_eval (Linear V) pts (# 5)) as [[v' | er] | |] eqn:E'; try discriminate.
  apply andb_prop in H. destruct H as [F F']. exists v, v'. split; [reflexivity |]. split; [reflexivity |].
  assert (forall z, (Z.abs z < 2 ^ 53)%Z -> B2R (# z) = IZR z) as Ez by (intros z Hz; apply of_int_correct; lia).
  refine (proj1 (C82_cell 53 1024 Hp53 He1024 e pts 0 (# 3) (# 5) v v' Rs _ _ _ _ _ _ _ E E' F F') _);
    try (simpl; lia); try (vm_compute; reflexivity); rewrite ?gx_reals, ?gy_reals; cbn [nth fst snd pts Nat.add]; rewrite !Ez by lia; lra.
Qed.
