(** Rounding errors at varying scales, and how they spread through the natural cubic fit. *)
From Coq Require Import ZArith Reals List Bool Arith Lia Lra Psatz.
From Flocq Require Import Core BinarySingleNaN.
From Verif Require Import Base Value FloatValue FloatFacts RealValue InterpModel InterpFacts Grid TriFacts PropsTri NcFacts
  PropsNaturalCubic PropsShift PropsFloatLinear.
Import ListNotations.
Open Scope R_scope.

Section Near.
Variables prec emax : Z.
Context (Hp : Prec_gt_0 prec) (He : Prec_lt_emax prec emax).
Notation fl := (binary_float prec emax).
Notation u := (unit_roundoff prec).
Notation eta := (half_tiny prec emax).
(** The unit in which errors are counted. *)
Variable e : R.
Hypothesis Ue : u <= e <= / 50000.

Lemma u_pos : 0 < u.
Proof. apply bpow_gt_0. Qed.

Lemma e_pos : 0 < e.
Proof. pose proof u_pos. lra. Qed.

(** Scales far enough from the ends of the exponent range. *)
Definition mild (S : R) : Prop := bpow radix2 (10 - emax) <= S <= bpow radix2 (emax - 20).

Lemma mild_pos S : mild S -> 0 < S.
Proof. intros (H & _). pose proof (bpow_gt_0 radix2 (10 - emax)). lra. Qed.

Lemma mild_eta S : mild S -> eta <= 0.004 * (e * S).
Proof.
  intros (H & _). unfold half_tiny. replace (2 - emax - prec)%Z with ((10 - emax) + (- prec) + -8)%Z by ring.
  rewrite (bpow_plus radix2 (10 - emax + - prec)), (bpow_plus radix2 (10 - emax)). change (bpow radix2 (-8)) with (/ 256).
  change (bpow radix2 (- prec)) with u. pose proof u_pos as Pu. pose proof (bpow_gt_0 radix2 (10 - emax)) as P.
  set (b := bpow radix2 (10 - emax)) in *. clearbody b.
  assert (b * u <= S * e) by (apply Rmult_le_compat; lra). assert (0 <= S * e) by (apply Rmult_le_pos; lra). lra.
Qed.

Lemma fits S r : mild S -> Rabs r <= 1100 * S -> Rabs (round radix2 (SpecFloat.fexp prec emax) ZnearestE r) < bpow radix2 emax.
Proof.
  intros (_ & H) B. apply (rnd_lt_emax prec emax Hp r (emax - 1)); [lia | unfold SpecFloat.fexp, SpecFloat.emin; unfold Prec_lt_emax, Prec_gt_0 in *; lia |].
  eapply Rle_trans; [exact B |]. replace (emax - 1)%Z with (19 + (emax - 20))%Z by ring. rewrite bpow_plus.
  pose proof (bpow_gt_0 radix2 (emax - 20)). change (bpow radix2 19) with 524288. lra.
Qed.

(** [x] is finite and differs from [a], at most [A * S] in size, by at most [k] errors at the scale [S]. *)
Definition near (S : R) (x : fl) (a A k : R) : Prop :=
  is_finite x = true /\ Rabs a <= A * S /\ Rabs (B2R x - a) <= k * (e * S).

Lemma near_value S x a b A k : near S x a A k -> a = b -> near S x b A k.
Proof. now intros H <-. Qed.

Lemma near_bound S x a A k A' : near S x a A k -> Rabs a <= A' * S -> near S x a A' k.
Proof. intros (F & _ & E) B. now split. Qed.

Lemma near_weaken S x a A k A' k' : 0 <= S -> near S x a A k -> A <= A' -> k <= k' -> near S x a A' k'.
Proof.
  intros PS (F & B & E) LA L. pose proof e_pos. split; [exact F |]. split; [eapply Rle_trans; [exact B | apply Rmult_le_compat_r; lra] |].
  eapply Rle_trans; [exact E |]. apply Rmult_le_compat_r; [| exact L]. nra.
Qed.

(** Change of scale. *)
Lemma near_scale c S S' x a A k A' k' : near S x a A k -> 0 <= S -> S <= c * S' -> 0 <= A -> 0 <= k -> c * A <= A' -> c * k <= k' -> 0 <= S' ->
  near S' x a A' k'.
Proof.
  intros (F & B & E) PS H PA Pk HA Hk PS'. pose proof e_pos. split; [exact F |]. split.
  - eapply Rle_trans; [exact B |]. apply Rle_trans with (A * (c * S')); [now apply Rmult_le_compat_l |]. 
    replace (A * (c * S')) with (c * A * S') by ring. now apply Rmult_le_compat_r.
  - eapply Rle_trans; [exact E |]. apply Rle_trans with (k * (e * (c * S'))).
    + apply Rmult_le_compat_l; [exact Pk |]. apply Rmult_le_compat_l; lra.
    + replace (k * (e * (c * S'))) with (c * k * (e * S')) by ring. apply Rmult_le_compat_r; [| exact Hk]. nra.
Qed.

Lemma near_exact S x A : is_finite x = true -> Rabs (B2R x) <= A * S -> near S x (B2R x) A 0.
Proof. intros F B. split; [exact F |]. split; [exact B |]. rewrite Rminus_diag_eq by reflexivity. rewrite Rabs_R0. lra. Qed.

Lemma near_zero S : near S (B754_zero false) 0 0 0.
Proof. split; [reflexivity |]. simpl. rewrite Rminus_0_r, Rabs_R0. split; lra. Qed.

Lemma near_opp S x a A k : near S x a A k -> near S (Bopp x) (- a) A k.
Proof.
  intros (F & B & E). split; [now rewrite is_finite_Bopp |]. split; [now rewrite Rabs_Ropp |].
  rewrite B2R_Bopp. replace (- B2R x - - a) with (- (B2R x - a)) by ring. now rewrite Rabs_Ropp.
Qed.

(** A result [r] of bounded size, rounded. *)
Lemma rounded S r a A K0 K d n : mild S -> Rabs a <= A * S -> Rabs (r - a) <= K0 * (e * S) -> 0 <= A -> 0 <= K0 ->
  1.001 * K0 + A + 0.01 <= K -> Rabs d <= u -> Rabs n <= eta -> Rabs (r * (1 + d) + n - a) <= K * (e * S).
Proof.
  intros HS HA HE PA PK HK Hd Hn. pose proof (mild_pos S HS) as PS. pose proof (mild_eta S HS) as Ht. pose proof e_pos as Pe.
  replace (r * (1 + d) + n - a) with ((r - a) * (1 + d) + (a * d + n)) by ring.
  eapply Rle_trans; [apply Rabs_triang |]. eapply Rle_trans; [apply Rplus_le_compat_l, Rabs_triang |]. rewrite !Rabs_mult.
  set (q := e * S) in *. assert (0 < q) as Pq by (unfold q; nra).
  assert (Rabs (1 + d) <= 1.001) as Q1 by (eapply Rle_trans; [apply Rabs_triang |]; rewrite Rabs_R1; lra).
  assert (Rabs (r - a) * Rabs (1 + d) <= (K0 * q) * 1.001) as Q2 by (apply Rmult_le_compat; auto using Rabs_pos; apply Rabs_pos).
  assert (Rabs a * Rabs d <= A * q) as Q3.
  { apply Rle_trans with (A * S * e); [apply Rmult_le_compat; auto using Rabs_pos; lra | right; unfold q; ring]. }
  assert ((1.001 * K0 + A + 0.01) * q <= K * q) as Q4 by (apply Rmult_le_compat_r; lra). lra.
Qed.

Lemma bounded S r a A K0 : 0 < S -> Rabs a <= A * S -> Rabs (r - a) <= K0 * (e * S) -> 0 <= K0 <= 100000 -> A <= 1000 -> Rabs r <= 1100 * S.
Proof.
  intros PS HA HE HK LA. pose proof e_pos. replace r with (a + (r - a)) by ring. eapply Rle_trans; [apply Rabs_triang |].
  assert (K0 * (e * S) <= 100000 * (/ 50000 * S)) by (apply Rmult_le_compat; try lra; try nra; apply Rmult_le_compat_r; lra).
  assert (A * S <= 1000 * S) by (apply Rmult_le_compat_r; lra). lra.
Qed.

Lemma near_mul S T Q x y a b A k B l K : Q = S * T -> mild Q -> 0 < S -> 0 < T -> near S x a A k -> near T y b B l ->
  0 <= A -> 0 <= k -> 0 <= B -> 0 <= l -> 1.001 * (k * B + A * l + k * l / 50000) + A * B + 0.01 <= K -> A * B <= 1000 -> K <= 100000 ->
  near Q (Bmult mode_NE x y) (a * b) (A * B) K.
Proof.
  intros -> HS PS PT (Fx & Bx & Ex) (Fy & By & Ey) PA Pk PB Pl HK LA LK. pose proof e_pos as Pe.
  set (K0 := k * B + A * l + k * l / 50000) in *.
  assert (0 <= A * B) as PAB by nra.
  assert (0 <= k * B /\ 0 <= A * l /\ 0 <= k * l) as (P1 & P2 & P3) by (repeat split; nra).
  assert (0 <= K0) as PK by (unfold K0; lra).
  assert (Rabs (B2R x * B2R y - a * b) <= K0 * (e * (S * T))) as HE.
  { replace (B2R x * B2R y - a * b) with ((B2R x - a) * b + (a * (B2R y - b) + (B2R x - a) * (B2R y - b))) by ring.
    eapply Rle_trans; [apply Rabs_triang |]. eapply Rle_trans; [apply Rplus_le_compat_l, Rabs_triang |]. rewrite !Rabs_mult.
    assert (Rabs (B2R x - a) * Rabs b <= k * (e * S) * (B * T)) as Q1 by (apply Rmult_le_compat; auto using Rabs_pos).
    assert (Rabs a * Rabs (B2R y - b) <= A * S * (l * (e * T))) as Q2 by (apply Rmult_le_compat; auto using Rabs_pos).
    assert (Rabs (B2R x - a) * Rabs (B2R y - b) <= k * (e * S) * (l * (e * T))) as Q3 by (apply Rmult_le_compat; auto using Rabs_pos).
    assert (k * l * (e * (e * (S * T))) <= k * l * (/ 50000 * (e * (S * T)))) as Q4.
    { apply Rmult_le_compat_l; [exact P3 |]. apply Rmult_le_compat_r; [| lra]. apply Rmult_le_pos; nra. }
    unfold K0. lra. }
  assert (Rabs (a * b) <= A * B * (S * T)) as Hab.
  { rewrite Rabs_mult. replace (A * B * (S * T)) with (A * S * (B * T)) by ring. apply Rmult_le_compat; auto using Rabs_pos. }
  pose proof (mild_pos _ HS) as PST.
  assert (Rabs (B2R x * B2R y) <= 1100 * (S * T)) as Sz by (apply (bounded _ _ (a * b) (A * B) K0); auto; lra).
  assert (is_finite (Bmult mode_NE x y) = true) as F.
  { pose proof (Bmult_correct prec emax Hp He mode_NE x y) as C. change (round_mode mode_NE) with ZnearestE in C.
    rewrite Rlt_bool_true in C by (now apply (fits (S * T))). rewrite Fx, Fy in C. tauto. }
  split; [exact F |]. split; [exact Hab |].
  destruct (mult_error prec emax Hp He x y F) as (_ & _ & d & n & Hd & Hn & ->).
  now apply (rounded _ _ _ (A * B) K0).
Qed.

Lemma near_add S x y a b A k B l K : mild S -> near S x a A k -> near S y b B l -> 0 <= A -> 0 <= k -> 0 <= B -> 0 <= l ->
  1.001 * (k + l) + (A + B) + 0.01 <= K -> A + B <= 1000 -> K <= 100000 -> near S (Bplus mode_NE x y) (a + b) (A + B) K.
Proof.
  intros HS (Fx & Bx & Ex) (Fy & By & Ey) PA Pk PB Pl HK LA LK. pose proof e_pos as Pe. pose proof (mild_pos _ HS) as PS.
  assert (Rabs (B2R x + B2R y - (a + b)) <= (k + l) * (e * S)) as HE.
  { replace (B2R x + B2R y - (a + b)) with ((B2R x - a) + (B2R y - b)) by ring.
    eapply Rle_trans; [apply Rabs_triang |]. lra. }
  assert (Rabs (a + b) <= (A + B) * S) as Hab by (eapply Rle_trans; [apply Rabs_triang |]; lra).
  assert (Rabs (B2R x + B2R y) <= 1100 * S) as Sz by (apply (bounded _ _ (a + b) (A + B) (k + l)); auto; lra).
  assert (is_finite (Bplus mode_NE x y) = true) as F.
  { pose proof (Bplus_correct prec emax Hp He mode_NE x y Fx Fy) as C. change (round_mode mode_NE) with ZnearestE in C.
    rewrite Rlt_bool_true in C by (now apply (fits S)). tauto. }
  split; [exact F |]. split; [exact Hab |].
  destruct (plus_error prec emax Hp He x y F) as (_ & _ & d & Hd & ->).
  replace ((B2R x + B2R y) * (1 + d)) with ((B2R x + B2R y) * (1 + d) + 0) by ring.
  apply (rounded _ _ _ (A + B) (k + l)); auto; try lra. rewrite Rabs_R0. left. apply bpow_gt_0.
Qed.

Lemma near_sub S x y a b A k B l K : mild S -> near S x a A k -> near S y b B l -> 0 <= A -> 0 <= k -> 0 <= B -> 0 <= l ->
  1.001 * (k + l) + (A + B) + 0.01 <= K -> A + B <= 1000 -> K <= 100000 -> near S (Bminus mode_NE x y) (a - b) (A + B) K.
Proof.
  intros HS Hx Hy. intros. replace (Bminus mode_NE x y) with (Bplus mode_NE x (Bopp y)).
  - unfold Rminus. apply near_add with k l; auto. now apply near_opp.
  - destruct Hx as (Fx & _), Hy as (Fy & _).
    destruct x as [[] | [] | | [] m k' Hb], y as [[] | [] | | [] m' k'' Hb']; try discriminate; reflexivity.
Qed.

(** Division by a positive number known up to [l] relative errors. *)
Lemma near_div S Q x y a b A k l K : Q = S / b -> mild Q -> 0 < b -> 0 < S -> near S x a A k -> near b y b 1 l ->
  0 <= A -> 0 <= k -> 0 <= l <= 50 -> 1.01 * (k + A * l) + A + 0.01 <= K -> A <= 1000 -> K <= 100000 ->
  near Q (Bdiv mode_NE x y) (a / b) A K.
Proof.
  intros -> HS Pb PS (Fx & Bx & Ex) (Fy & _ & Ey) PA Pk Hl HK LA LK. pose proof e_pos as Pe.
  assert (l * e <= / 1000) as Le.
  { apply Rle_trans with (50 * / 50000); [apply Rmult_le_compat; lra | lra]. }
  assert (Rabs (B2R y - b) <= / 1000 * b) as Ry.
  { eapply Rle_trans; [exact Ey |]. replace (l * (e * b)) with (l * e * b) by ring. apply Rmult_le_compat_r; lra. }
  assert (0.999 * b <= B2R y) as Py by (apply Rabs_le_inv in Ry; lra).
  assert (B2R y <> 0) as Ny by nra.
  assert (0 <= A * l) as P2 by nra.
  set (K0 := 1.0011 * (k + A * l)). assert (0 <= K0) as PK by (unfold K0; lra).
  assert (Rabs (a / b) <= A * (S / b)) as Hab.
  { unfold Rdiv. rewrite Rabs_mult, (Rabs_pos_eq (/ b)) by (left; now apply Rinv_0_lt_compat). rewrite <- Rmult_assoc.
    apply Rmult_le_compat_r; [left; now apply Rinv_0_lt_compat | exact Bx]. }
  assert (Rabs (B2R x / B2R y - a / b) <= K0 * (e * (S / b))) as HE.
  { replace (B2R x / B2R y - a / b) with (((B2R x - a) * b - a * (B2R y - b)) * (/ B2R y * / b)) by (field; lra).
    rewrite Rabs_mult.
    assert (Rabs ((B2R x - a) * b - a * (B2R y - b)) <= (k + A * l) * (e * (S * b))) as Q1.
    { unfold Rminus at 1. eapply Rle_trans; [apply Rabs_triang |]. rewrite Rabs_Ropp, !Rabs_mult, (Rabs_pos_eq b) by lra.
      assert (Rabs (B2R x - a) * b <= k * (e * S) * b) as R1 by (apply Rmult_le_compat_r; lra).
      assert (Rabs a * Rabs (B2R y - b) <= A * S * (l * (e * b))) as R2 by (apply Rmult_le_compat; auto using Rabs_pos).
      lra. }
    assert (Rabs (/ B2R y * / b) <= 1.0011 * (/ b * / b)) as Q2.
    { rewrite Rabs_pos_eq by (apply Rmult_le_pos; left; apply Rinv_0_lt_compat; lra). rewrite <- Rmult_assoc.
      apply Rmult_le_compat_r; [left; now apply Rinv_0_lt_compat |].
      apply Rmult_le_reg_l with (B2R y); [lra |]. rewrite Rinv_r by exact Ny. apply Rmult_le_reg_r with b; [exact Pb |].
      replace (B2R y * (1.0011 * / b) * b) with (1.0011 * B2R y) by (field; lra). lra. }
    apply Rle_trans with ((k + A * l) * (e * (S * b)) * (1.0011 * (/ b * / b))).
    - apply Rmult_le_compat; auto using Rabs_pos.
    - right. unfold K0. field. lra. }
  pose proof (mild_pos _ HS) as PST.
  assert (Rabs (B2R x / B2R y) <= 1100 * (S / b)) as Sz by (apply (bounded _ _ (a / b) A K0); auto; unfold K0 in *; lra).
  assert (is_finite (Bdiv mode_NE x y) = true) as F.
  { pose proof (Bdiv_correct prec emax Hp He mode_NE x y Ny) as C. change (round_mode mode_NE) with ZnearestE in C.
    rewrite Rlt_bool_true in C by (now apply (fits (S / b))). rewrite Fx in C. tauto. }
  split; [exact F |]. split; [exact Hab |].
  destruct (div_error prec emax Hp He x y Ny F) as (_ & d & n & Hd & Hn & ->).
  apply (rounded _ _ _ A K0); auto. unfold K0. lra.
Qed.

(** Division by a small whole number. *)
Lemma near_divc S x a A k K z : mild S -> mild (S / IZR z) -> (1 <= z < 100)%Z -> (7 <= prec)%Z -> near S x a A k -> 0 <= A -> 0 <= k ->
  (1.01 * k + A + 0.01) / IZR z <= K -> A <= 1000 -> K <= 1000 ->
  near S (Bdiv mode_NE x (of_int prec emax Hp He z)) (a / IZR z) (A / IZR z) K.
Proof.
  intros HS HS' Hz H7 Hx PA Pk HK LA LK. assert (1 <= IZR z <= 99) as Bz by (split; apply IZR_le; lia).
  assert (2 ^ 7 <= 2 ^ prec)%Z as H2 by (apply Z.pow_le_mono_r; lia). change (2 ^ 7)%Z with 128%Z in H2.
  destruct (of_int_correct prec emax Hp He z ltac:(lia) ltac:(unfold Prec_lt_emax in He; lia)) as (Ez & Fz).
  pose proof (mild_pos S HS) as PS.
  assert (near (IZR z) (of_int prec emax Hp He z) (IZR z) 1 0) as Nz.
  { split; [exact Fz |]. rewrite Ez, Rminus_diag_eq by reflexivity. rewrite Rabs_R0, Rabs_pos_eq by lra. split; lra. }
  assert (1.01 * k + A + 0.01 <= IZR z * K) as HK'.
  { apply (Rmult_le_compat_r (IZR z)) in HK; [| lra]. unfold Rdiv in HK. rewrite Rmult_assoc, Rinv_l in HK by lra. lra. }
  pose proof (near_div S (S / IZR z) x _ a (IZR z) A k 0 (IZR z * K) eq_refl HS' ltac:(lra) PS Hx Nz PA Pk ltac:(lra) ltac:(lra) LA ltac:(nra)) as N.
  assert (0 < / IZR z) as Pi by (apply Rinv_0_lt_compat; lra).
  apply (near_scale (/ IZR z) (S / IZR z) S _ _ A (IZR z * K)); auto; try (unfold Rdiv; nra).
  - right. field. lra.
Qed.

(** A quantity at most [c] times smaller than its scale is known up to relative errors. *)
Lemma near_rel c S x a A k l : near S x a A k -> 0 < a -> S <= c * a -> 0 <= k -> c * k <= l -> near a x a 1 l.
Proof.
  intros (F & _ & E) Pa H Pk Hl. pose proof e_pos. split; [exact F |]. split; [rewrite Rabs_pos_eq; lra |].
  eapply Rle_trans; [exact E |]. apply Rle_trans with (k * (e * (c * a))).
  - apply Rmult_le_compat_l; [exact Pk |]. apply Rmult_le_compat_l; lra.
  - replace (k * (e * (c * a))) with (c * k * (e * a)) by ring. apply Rmult_le_compat_r; [nra | exact Hl].
Qed.

End Near.

(** ** Sizes *)

Section Sizes.
Variable m : R.
Hypothesis M8 : 8 <= m.

(** Between [m^-k] and [m^k]. *)
Definition mag (k : nat) (S : R) : Prop := / m ^ k <= S <= m ^ k.

Lemma pow_ge1 k : 1 <= m ^ k.
Proof. apply pow_R1_Rle. lra. Qed.

Lemma mag_pos k S : mag k S -> 0 < S.
Proof. intros (H & _). pose proof (pow_ge1 k). assert (0 < / m ^ k) by (apply Rinv_0_lt_compat; lra). lra. Qed.

Lemma mag_le j k S : (j <= k)%nat -> mag j S -> mag k S.
Proof.
  intros H (L & U). assert (m ^ j <= m ^ k) as P by (apply Rle_pow; [lra | exact H]). pose proof (pow_ge1 j).
  split; [| lra]. eapply Rle_trans; [| exact L]. apply Rinv_le_contravar; lra.
Qed.

Lemma mag_mul j k S T : mag j S -> mag k T -> mag (j + k) (S * T).
Proof.
  intros HS HT. pose proof (mag_pos _ _ HS). pose proof (mag_pos _ _ HT). destruct HS as (L1 & U1), HT as (L2 & U2).
  pose proof (pow_ge1 j). pose proof (pow_ge1 k). unfold mag. rewrite pow_add, Rinv_mult. split.
  - apply Rmult_le_compat; try lra; left; apply Rinv_0_lt_compat; lra.
  - apply Rmult_le_compat; lra.
Qed.

Lemma mag_inv k S : mag k S -> mag k (/ S).
Proof.
  intros HS. pose proof (mag_pos _ _ HS). destruct HS as (L & U). pose proof (pow_ge1 k). split.
  - now apply Rinv_le_contravar.
  - rewrite <- (Rinv_inv (m ^ k)). apply Rinv_le_contravar; [apply Rinv_0_lt_compat; lra | exact L].
Qed.

Lemma mag_div j k S T : mag j S -> mag k T -> mag (j + k) (S / T).
Proof. intros HS HT. apply mag_mul; [exact HS | now apply mag_inv]. Qed.

Lemma mag_const c : 1 <= c <= 8 -> mag 1 c.
Proof. intros H. unfold mag. rewrite pow_1. split; [| lra]. apply Rle_trans with 1; [| lra]. rewrite <- Rinv_1. apply Rinv_le_contravar; lra. Qed.

(** A number between two of these sizes. *)
Lemma mag_between j S S' T : mag j S -> mag j S' -> S <= T <= S' -> mag j T.
Proof. intros (L & _) (_ & U) H. split; lra. Qed.

End Sizes.
