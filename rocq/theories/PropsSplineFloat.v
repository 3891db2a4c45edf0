(** Property C99: rounding errors of the Hermite and Catmull-Rom interpolations. *)
From Coq Require Import ZArith Reals List Bool Arith Lia Lra Psatz.
From Flocq Require Import Core BinarySingleNaN Plus_error Relative.
From Verif Require Import Base Value FloatValue FloatFacts RealValue InterpModel InterpFacts Grid PropsLinear PropsHermite PropsCatmullRom
  PropsLinearFloat PropsFloat PropsFloatKnots PropsFloatLinear.
Import ListNotations.
Open Scope R_scope.

Section Errors.
Variables prec emax : Z.
Context (Hp : Prec_gt_0 prec) (He : Prec_lt_emax prec emax).
Notation fl := (binary_float prec emax).
Hypothesis H8 : (8 <= prec)%Z.
Notation u := (unit_roundoff prec).
Notation eta := (half_tiny prec emax).

Lemma u_small : 0 < u <= / 256.
Proof. unfold unit_roundoff. split; [apply bpow_gt_0 |]. change (/ 256) with (bpow radix2 (-8)). apply bpow_le. lia. Qed.

Lemma eta_small : 0 < eta <= u * / 128.
Proof.
  unfold half_tiny, unit_roundoff. split; [apply bpow_gt_0 |]. change (/ 128) with (bpow radix2 (-7)). rewrite <- bpow_plus.
  apply bpow_le. unfold Prec_lt_emax in He. lia.
Qed.

(** Numbers up to this size can be multiplied by 64 without overflow. *)
Definition large : R := bpow radix2 (emax - 7).

Lemma large_big : 4 <= large.
Proof. unfold large. change 4 with (bpow radix2 2). apply bpow_le. unfold Prec_lt_emax in He. lia. Qed.

Lemma no_overflow r : Rabs r <= 64 * large -> Rabs (round radix2 (SpecFloat.fexp prec emax) ZnearestE r) < bpow radix2 emax.
Proof.
  intros H. apply (rnd_lt_emax prec emax Hp r (emax - 1)); [lia | unfold SpecFloat.fexp, SpecFloat.emin; unfold Prec_lt_emax, Prec_gt_0 in *; lia |].
  eapply Rle_trans; [exact H |]. unfold large. change 64 with (bpow radix2 6). rewrite <- bpow_plus. right. f_equal. lia.
Qed.

(** [x] is finite and differs from [a], which is at most [A * S] in size, by at most [k] rounding errors at the scale [S]. *)
Definition ap (S : R) (x : fl) (a A k : R) : Prop :=
  is_finite x = true /\ Rabs a <= A * S /\ Rabs (B2R x - a) <= k * (u * S + eta).

Lemma ap_bound S x a A k A' : ap S x a A k -> Rabs a <= A' * S -> ap S x a A' k.
Proof. intros (F & _ & E) B. now split. Qed.

Lemma ap_weaken S x a A k k' : 0 <= S -> ap S x a A k -> k <= k' -> ap S x a A k'.
Proof.
  intros PS (F & B & E) L. split; [exact F |]. split; [exact B |]. eapply Rle_trans; [exact E |].
  apply Rmult_le_compat_r; [| exact L]. pose proof u_small. pose proof eta_small. nra.
Qed.

Lemma ap_value S x a b A k : ap S x a A k -> a = b -> ap S x b A k.
Proof. now intros H <-. Qed.

Lemma ap_exact S x A : is_finite x = true -> Rabs (B2R x) <= A * S -> ap S x (B2R x) A 0.
Proof. intros F B. split; [exact F |]. split; [exact B |]. rewrite Rminus_diag_eq by reflexivity. rewrite Rabs_R0. lra. Qed.

Lemma ap_int z : (Z.abs z <= 3)%Z -> ap 1 (of_int prec emax Hp He z) (IZR z) (IZR (Z.abs z)) 0.
Proof.
  intros Hz. destruct (holds_int prec emax Hp He ltac:(lia) z Hz) as (F & E). split; [exact F |]. rewrite E, Rminus_diag_eq by reflexivity.
  rewrite Rabs_R0, abs_IZR. split; lra.
Qed.

Lemma ap_zero : ap 1 (B754_zero false) 0 0 0.
Proof. split; [reflexivity |]. simpl. rewrite Rminus_0_r, Rabs_R0. split; lra. Qed.

Lemma ap_opp S x a A k : ap S x a A k -> ap S (Bopp x) (- a) A k.
Proof.
  intros (F & B & E). split; [now rewrite is_finite_Bopp |]. split; [now rewrite Rabs_Ropp |].
  rewrite B2R_Bopp. replace (- B2R x - - a) with (- (B2R x - a)) by ring. now rewrite Rabs_Ropp.
Qed.

(** A rounded result of bounded size is again close. *)
Lemma size S r a A m : 0 <= S <= large -> Rabs a <= A * S -> Rabs (r - a) <= m * (u * S + eta) -> 0 <= m <= 1000 -> 0 <= A -> A + m / 256 <= 32 ->
  Rabs r <= 64 * large.
Proof.
  intros [PS HS] HA HE Hm PA H. pose proof u_small as Hu. pose proof eta_small as Ht. pose proof large_big as Hl.
  replace r with (a + (r - a)) by ring. eapply Rle_trans; [apply Rabs_triang |].
  assert (m * (u * S) <= m * (/ 256 * S)) as B1 by (apply Rmult_le_compat_l; [lra | apply Rmult_le_compat_r; lra]).
  assert (m * eta <= 1000 * (/ 256 * / 128)) as B2 by (apply Rmult_le_compat; lra).
  assert ((A + m / 256) * S <= 32 * large) as B3 by (apply Rmult_le_compat; lra).
  lra.
Qed.

Definition mul_err (A k B l : R) : R := (1.01 * k * B + (1.01 * k / 256 + A) * l) * (257 / 256) + A * B + 1.

Lemma ap_mul S x y a b A k B l : 0 <= S <= large -> ap 1 x a A k -> ap S y b B l -> 0 <= A -> 0 <= k -> 0 <= B -> 0 <= l ->
  A * B + mul_err A k B l / 256 <= 32 -> mul_err A k B l <= 1000 ->
  ap S (Bmult mode_NE x y) (a * b) (A * B) (mul_err A k B l).
Proof.
  intros HS (Fx & Bx & Ex) (Fy & By & Ey) PA Pk PB Pl Hsz Hm. pose proof u_small as Hu. pose proof eta_small as Ht.
  rewrite Rmult_1_r in Bx. set (e := u * S + eta) in *. assert (0 < e) as Pe by (unfold e; nra).
  assert (Rabs (B2R x - a) <= 1.01 * k * u) as Ex' by nra. clear Ex.
  set (E := B2R x * B2R y - a * b).
  assert (Rabs E <= (1.01 * k * B + (1.01 * k / 256 + A) * l) * e) as HE.
  { unfold E. replace (B2R x * B2R y - a * b) with ((B2R x - a) * b + ((B2R x - a) * (B2R y - b) + a * (B2R y - b))) by ring.
    eapply Rle_trans; [apply Rabs_triang |]. eapply Rle_trans; [apply Rplus_le_compat_l, Rabs_triang |]. rewrite !Rabs_mult.
    assert (Rabs (B2R x - a) * Rabs b <= 1.01 * k * B * e) as Q1.
    { apply Rle_trans with ((1.01 * k * u) * (B * S)); [apply Rmult_le_compat; auto using Rabs_pos |].
      replace (1.01 * k * u * (B * S)) with (1.01 * k * B * (u * S)) by ring. apply Rmult_le_compat_l; [nra |]. unfold e. lra. }
    assert (Rabs (B2R x - a) * Rabs (B2R y - b) <= 1.01 * k / 256 * l * e) as Q2.
    { apply Rle_trans with ((1.01 * k / 256) * (l * e)); [| right; ring].
      apply Rmult_le_compat; auto using Rabs_pos. eapply Rle_trans; [exact Ex' |]. nra. }
    assert (Rabs a * Rabs (B2R y - b) <= A * (l * e)) as Q3 by (apply Rmult_le_compat; auto using Rabs_pos).
    lra. }
  assert (Rabs (a * b) <= A * B * S) as Hab.
  { rewrite Rabs_mult. replace (A * B * S) with (A * (B * S)) by ring. apply Rmult_le_compat; auto using Rabs_pos. }
  assert (0 <= (1.01 * k * B + (1.01 * k / 256 + A) * l)) as PG by nra.
  assert (0 <= A * B) as PAB by nra.
  assert (Rabs (B2R x * B2R y) <= 64 * large) as Sz.
  { apply (size S _ (a * b) (A * B) (mul_err A k B l) HS Hab); unfold mul_err in *; try lra.
    fold E. fold e. eapply Rle_trans; [exact HE |]. apply Rmult_le_compat_r; lra. }
  assert (is_finite (Bmult mode_NE x y) = true) as F.
  { pose proof (Bmult_correct prec emax Hp He mode_NE x y) as C. change (round_mode mode_NE) with ZnearestE in C.
    rewrite Rlt_bool_true in C by (now apply no_overflow). rewrite Fx, Fy in C. tauto. }
  split; [exact F |]. split; [exact Hab |].
  destruct (mult_error prec emax Hp He x y F) as (_ & _ & d & n & Hd & Hn & ->).
  replace (B2R x * B2R y * (1 + d) + n - a * b) with (E * (1 + d) + (a * b * d + n)) by (unfold E; ring).
  eapply Rle_trans; [apply Rabs_triang |]. eapply Rle_trans; [apply Rplus_le_compat_l, Rabs_triang |].
  rewrite (Rabs_mult E), (Rabs_mult (a * b)).
  assert (Rabs (1 + d) <= 257 / 256) as Q1 by (eapply Rle_trans; [apply Rabs_triang |]; rewrite Rabs_R1; lra).
  assert (Rabs E * Rabs (1 + d) <= ((1.01 * k * B + (1.01 * k / 256 + A) * l) * e) * (257 / 256)) as Q2 by (apply Rmult_le_compat; auto using Rabs_pos).
  assert (Rabs (a * b) * Rabs d <= A * B * S * u) as Q3 by (apply Rmult_le_compat; auto using Rabs_pos).
  fold e. unfold mul_err. assert (eta <= e) by (unfold e; nra). assert (A * B * S * u <= A * B * e) as Q4.
  { replace (A * B * S * u) with (A * B * (u * S)) by ring. apply Rmult_le_compat_l; [exact PAB | unfold e; lra]. }
  lra.
Qed.

Definition add_err (A k B l : R) : R := (k + l) * (257 / 256) + A + B.

Lemma ap_add S x y a b A k B l : 0 <= S <= large -> ap S x a A k -> ap S y b B l -> 0 <= A -> 0 <= k -> 0 <= B -> 0 <= l ->
  A + B + add_err A k B l / 256 <= 32 -> add_err A k B l <= 1000 ->
  ap S (Bplus mode_NE x y) (a + b) (A + B) (add_err A k B l).
Proof.
  intros HS (Fx & Bx & Ex) (Fy & By & Ey) PA Pk PB Pl Hsz Hm. pose proof u_small as Hu. pose proof eta_small as Ht.
  set (e := u * S + eta) in *. assert (0 < e) as Pe by (unfold e; nra).
  set (E := B2R x + B2R y - (a + b)).
  assert (Rabs E <= (k + l) * e) as HE.
  { unfold E. replace (B2R x + B2R y - (a + b)) with ((B2R x - a) + (B2R y - b)) by ring.
    eapply Rle_trans; [apply Rabs_triang |]. lra. }
  assert (Rabs (a + b) <= (A + B) * S) as Hab by (eapply Rle_trans; [apply Rabs_triang |]; lra).
  assert (Rabs (B2R x + B2R y) <= 64 * large) as Sz.
  { apply (size S _ (a + b) (A + B) (add_err A k B l) HS Hab); unfold add_err in *; try lra.
    fold E. fold e. eapply Rle_trans; [exact HE |]. apply Rmult_le_compat_r; lra. }
  assert (is_finite (Bplus mode_NE x y) = true) as F.
  { pose proof (Bplus_correct prec emax Hp He mode_NE x y Fx Fy) as C. change (round_mode mode_NE) with ZnearestE in C.
    rewrite Rlt_bool_true in C by (now apply no_overflow). tauto. }
  split; [exact F |]. split; [exact Hab |].
  destruct (plus_error prec emax Hp He x y F) as (_ & _ & d & Hd & ->).
  replace ((B2R x + B2R y) * (1 + d) - (a + b)) with (E * (1 + d) + (a + b) * d) by (unfold E; ring).
  eapply Rle_trans; [apply Rabs_triang |]. rewrite (Rabs_mult E), (Rabs_mult (a + b)).
  assert (Rabs (1 + d) <= 257 / 256) as Q1 by (eapply Rle_trans; [apply Rabs_triang |]; rewrite Rabs_R1; lra).
  assert (Rabs E * Rabs (1 + d) <= ((k + l) * e) * (257 / 256)) as Q2 by (apply Rmult_le_compat; auto using Rabs_pos; apply Rabs_pos).
  assert (Rabs (a + b) * Rabs d <= (A + B) * S * u) as Q3 by (apply Rmult_le_compat; auto using Rabs_pos).
  fold e. unfold add_err. assert ((A + B) * S * u <= (A + B) * e) as Q4.
  { replace ((A + B) * S * u) with ((A + B) * (u * S)) by ring. apply Rmult_le_compat_l; [lra | unfold e; lra]. }
  lra.
Qed.

Lemma minus_plus (x y : fl) : is_finite x = true -> is_finite y = true -> Bminus mode_NE x y = Bplus mode_NE x (Bopp y).
Proof. intros Fx Fy. destruct x as [[] | [] | | [] m k Hb], y as [[] | [] | | [] m' k' Hb']; try discriminate; reflexivity. Qed.

Lemma ap_sub S x y a b A k B l : 0 <= S <= large -> ap S x a A k -> ap S y b B l -> 0 <= A -> 0 <= k -> 0 <= B -> 0 <= l ->
  A + B + add_err A k B l / 256 <= 32 -> add_err A k B l <= 1000 ->
  ap S (Bminus mode_NE x y) (a - b) (A + B) (add_err A k B l).
Proof.
  intros HS Hx Hy. intros. rewrite (minus_plus x y (proj1 Hx) (proj1 Hy)). apply ap_add; auto. now apply ap_opp.
Qed.

Lemma u_range : 0 <= u <= / 256.
Proof. pose proof u_small. lra. Qed.

Lemma diff_error (a b : fl) : is_finite a = true -> is_finite b = true -> Rabs (B2R a) <= large -> Rabs (B2R b) <= large ->
  is_finite (Bminus mode_NE a b) = true /\ exists d, Rabs d <= u /\ B2R (Bminus mode_NE a b) = (B2R a - B2R b) * (1 + d).
Proof.
  intros Fa Fb Ba Bb. assert (is_finite (Bminus mode_NE a b) = true) as F.
  { pose proof (Bminus_correct prec emax Hp He mode_NE a b Fa Fb) as C. change (round_mode mode_NE) with ZnearestE in C.
    rewrite Rlt_bool_true in C; [tauto |]. apply no_overflow. unfold Rminus. eapply Rle_trans; [apply Rabs_triang |]. rewrite Rabs_Ropp.
    pose proof large_big. lra. }
  split; [exact F |]. apply (minus_error prec emax Hp He a b F).
Qed.

Lemma quotient_near (T H : fl) t h e4 e2 k : is_finite T = true -> 0 <= t <= h -> 0 < h -> B2R T = t * e4 -> B2R H = h * / e2 -> 0 < e2 <= 2 ->
  0 <= k <= 5 -> Rabs (e4 * e2 - 1) <= k * u -> ap 1 (Bdiv mode_NE T H) (t / h) 1 (k + 1.04).
Proof.
  intros FT Ht Hh ET EH He2 Hk HF. pose proof u_range as Hu. pose proof eta_small as Hn. pose proof large_big as Hl.
  assert (B2R H <> 0) as NH.
  { rewrite EH. apply Rgt_not_eq, Rmult_lt_0_compat; [exact Hh | apply Rinv_0_lt_compat; lra]. }
  assert (B2R T / B2R H = t / h * (e4 * e2)) as EQ by (rewrite ET, EH; field; split; lra).
  assert (0 <= t / h <= 1) as Hq.
  { split; [apply Rle_mult_inv_pos; lra |]. apply Rmult_le_reg_r with h; [lra |]. unfold Rdiv. rewrite Rmult_assoc, Rinv_l by lra. lra. }
  assert (is_finite (Bdiv mode_NE T H) = true) as F.
  { pose proof (Bdiv_correct prec emax Hp He mode_NE T H NH) as C. change (round_mode mode_NE) with ZnearestE in C.
    rewrite Rlt_bool_true in C; [rewrite FT in C; tauto |]. apply no_overflow. rewrite EQ, Rabs_mult, (Rabs_pos_eq (t / h)) by lra.
    apply Rabs_le_inv in HF. assert (Rabs (e4 * e2) <= 2) by (apply Rabs_le; nra).
    apply Rle_trans with (1 * 2); [apply Rmult_le_compat; try lra; apply Rabs_pos | lra]. }
  split; [exact F |]. split; [rewrite Rabs_pos_eq; lra |].
  destruct (div_error prec emax Hp He T H NH F) as (_ & d & n & Hd & Hn' & ->). rewrite EQ.
  replace (t / h * (e4 * e2) * (1 + d) + n - t / h) with (t / h * (e4 * e2 * (1 + d) - 1) + n) by ring.
  eapply Rle_trans; [apply Rabs_triang |]. rewrite Rabs_mult, (Rabs_pos_eq (t / h)) by lra.
  pose proof (factor (e4 * e2) d k u Hu ltac:(lra) HF ltac:(lra)) as Q. pose proof (Rabs_pos (e4 * e2 * (1 + d) - 1)) as P.
  assert (t / h * Rabs (e4 * e2 * (1 + d) - 1) <= 1 * ((k + 1.04) * u)) as Q' by (apply Rmult_le_compat; lra).
  assert (eta <= (k + 1.04) * eta) by nra. lra.
Qed.

Lemma inv_plus d : Rabs d <= u -> exists d', Rabs d' <= 1.01 * u /\ 1 + d = / (1 + d') /\ 0 < 1 + d' <= 2.
Proof.
  intros Hd. pose proof u_range as Hu. destruct (inverse d u Hu Hd) as (d' & E & B). exists d'. split; [exact B |].
  apply Rabs_le_inv in B. split; [rewrite <- E, Rinv_inv; reflexivity | lra].
Qed.

(** The position within a cell. *)
Lemma delta_near (x x0 x1 : fl) : is_finite x = true -> is_finite x0 = true -> is_finite x1 = true ->
  Rabs (B2R x0) <= large -> Rabs (B2R x1) <= large -> B2R x0 <= B2R x <= B2R x1 -> B2R x0 < B2R x1 ->
  ap 1 (Bdiv mode_NE (Bminus mode_NE x x0) (Bminus mode_NE x1 x0)) ((B2R x - B2R x0) / (B2R x1 - B2R x0)) 1 3.12.
Proof.
  intros Fx F0 F1 B0 B1 Hx Hl. pose proof u_range as Hu.
  assert (Rabs (B2R x) <= large) as Bx by (apply Rabs_le_inv in B0, B1; apply Rabs_le; lra).
  destruct (diff_error x x0 Fx F0 Bx B0) as (FT & d1 & D1 & ET). destruct (diff_error x1 x0 F1 F0 B1 B0) as (FH & d2 & D2 & EH).
  destruct (inv_plus d2 D2) as (d2' & D2' & E2 & R2).
  assert (Rabs (1 - 1) <= 0 * u) as A0 by (rewrite Rminus_diag_eq by reflexivity; rewrite Rabs_R0; lra).
  pose proof (factor 1 d1 0 u Hu ltac:(lra) A0 ltac:(lra)) as A1. rewrite Rmult_1_l in A1.
  pose proof (factor _ d2' (0 + 1.04) u Hu ltac:(lra) A1 D2') as A2.
  replace 3.12 with (0 + 1.04 + 1.04 + 1.04) by lra.
  apply quotient_near with (e4 := 1 + d1) (e2 := 1 + d2'); try assumption; try lra. now rewrite EH, E2.
Qed.

(** The ratio of a width to the sum of two widths. *)
Lemma ratio_near (x0 x1 w0 w1 : fl) : is_finite x0 = true -> is_finite x1 = true -> is_finite w0 = true -> is_finite w1 = true ->
  Rabs (B2R x0) <= large -> Rabs (B2R x1) <= large -> Rabs (B2R w0) <= large -> Rabs (B2R w1) <= large ->
  B2R x0 < B2R x1 -> B2R w0 < B2R w1 ->
  ap 1 (Bdiv mode_NE (Bminus mode_NE x1 x0) (Bplus mode_NE (Bminus mode_NE x1 x0) (Bminus mode_NE w1 w0)))
    ((B2R x1 - B2R x0) / ((B2R x1 - B2R x0) + (B2R w1 - B2R w0))) 1 4.16.
Proof.
  intros F0 F1 G0 G1 B0 B1 C0 C1 Hx Hw. pose proof u_range as Hu. pose proof large_big as Hlg.
  destruct (diff_error x1 x0 F1 F0 B1 B0) as (FH & d1 & D1 & EH). destruct (diff_error w1 w0 G1 G0 C1 C0) as (FG & d2 & D2 & EG).
  set (h := B2R x1 - B2R x0) in *. set (g := B2R w1 - B2R w0) in *.
  assert (0 < h <= 2 * large) as Hh by (unfold h; apply Rabs_le_inv in B0, B1; lra).
  assert (0 < g <= 2 * large) as Hg by (unfold g; apply Rabs_le_inv in C0, C1; lra).
  set (d3 := (h * d1 + g * d2) / (h + g)).
  assert (Rabs d3 <= u) as D3.
  { unfold d3, Rdiv. rewrite Rabs_mult, (Rabs_pos_eq (/ (h + g))) by (left; apply Rinv_0_lt_compat; lra).
    apply Rmult_le_reg_r with (h + g); [lra |]. rewrite Rmult_assoc, Rinv_l, Rmult_1_r by lra.
    eapply Rle_trans; [apply Rabs_triang |]. rewrite !Rabs_mult, (Rabs_pos_eq h), (Rabs_pos_eq g) by lra. nra. }
  assert (B2R (Bminus mode_NE x1 x0) + B2R (Bminus mode_NE w1 w0) = (h + g) * (1 + d3)) as Es by (rewrite EH, EG; unfold d3; field; lra).
  assert (is_finite (Bplus mode_NE (Bminus mode_NE x1 x0) (Bminus mode_NE w1 w0)) = true) as F.
  { pose proof (Bplus_correct prec emax Hp He mode_NE _ _ FH FG) as C. change (round_mode mode_NE) with ZnearestE in C.
    rewrite Rlt_bool_true in C; [tauto |]. apply no_overflow. rewrite Es. apply Rabs_le_inv in D3. rewrite Rabs_pos_eq by nra. nra. }
  destruct (plus_error prec emax Hp He _ _ F) as (_ & _ & d4 & D4 & E4). rewrite Es in E4.
  destruct (inv_plus d3 D3) as (d3' & D3' & E3' & R3). destruct (inv_plus d4 D4) as (d4' & D4' & E4' & R4).
  assert (Rabs (1 - 1) <= 0 * u) as A0 by (rewrite Rminus_diag_eq by reflexivity; rewrite Rabs_R0; lra).
  pose proof (factor 1 d1 0 u Hu ltac:(lra) A0 ltac:(lra)) as A1. rewrite Rmult_1_l in A1.
  pose proof (factor _ d3' (0 + 1.04) u Hu ltac:(lra) A1 D3') as A2.
  pose proof (factor _ d4' (0 + 1.04 + 1.04) u Hu ltac:(lra) A2 D4') as A3.
  replace 4.16 with (0 + 1.04 + 1.04 + 1.04 + 1.04) by lra.
  apply quotient_near with (e4 := 1 + d1) (e2 := (1 + d3') * (1 + d4')); try assumption; try lra.
  - rewrite E4, E3', E4', Rinv_mult. ring.
  - split; [nra |]. apply Rabs_le_inv in D3', D4'. nra.
  - now rewrite <- Rmult_assoc.
Qed.

(** Four products and their sum. *)
Definition dot_err (A0 k0 B0 l0 A1 k1 B1 l1 A2 k2 B2 l2 A3 k3 B3 l3 : R) : R :=
  add_err (A0 * B0 + A1 * B1 + A2 * B2)
    (add_err (A0 * B0 + A1 * B1) (add_err (A0 * B0) (mul_err A0 k0 B0 l0) (A1 * B1) (mul_err A1 k1 B1 l1)) (A2 * B2) (mul_err A2 k2 B2 l2))
    (A3 * B3) (mul_err A3 k3 B3 l3).

Lemma mul_err_pos A k B l : 0 <= A -> 0 <= k -> 0 <= B -> 0 <= l -> 0 <= A * B /\ A * B + 1 <= mul_err A k B l.
Proof.
  intros. unfold mul_err. assert (0 <= A * B) by nra. assert (0 <= 1.01 * k * B + (1.01 * k / 256 + A) * l) by nra. lra.
Qed.

Variable e : fl -> fl.
Notation V := (FV prec emax Hp He e).

Lemma ap_dot S (x0 x1 x2 x3 y0 y1 y2 y3 : fl) a0 a1 a2 a3 b0 b1 b2 b3 A0 k0 B0 l0 A1 k1 B1 l1 A2 k2 B2 l2 A3 k3 B3 l3 A K : 0 <= S <= large ->
  ap 1 x0 a0 A0 k0 -> ap 1 x1 a1 A1 k1 -> ap 1 x2 a2 A2 k2 -> ap 1 x3 a3 A3 k3 ->
  ap S y0 b0 B0 l0 -> ap S y1 b1 B1 l1 -> ap S y2 b2 B2 l2 -> ap S y3 b3 B3 l3 ->
  0 <= A0 /\ 0 <= k0 /\ 0 <= B0 /\ 0 <= l0 -> 0 <= A1 /\ 0 <= k1 /\ 0 <= B1 /\ 0 <= l1 ->
  0 <= A2 /\ 0 <= k2 /\ 0 <= B2 /\ 0 <= l2 -> 0 <= A3 /\ 0 <= k3 /\ 0 <= B3 /\ 0 <= l3 ->
  A0 * B0 + A1 * B1 + A2 * B2 + A3 * B3 <= 20 ->
  dot_err A0 k0 B0 l0 A1 k1 B1 l1 A2 k2 B2 l2 A3 k3 B3 l3 <= K -> K <= 1000 ->
  Rabs (a0 * b0 + a1 * b1 + a2 * b2 + a3 * b3) <= A * S ->
  ap S (dot4 (V := V) (x0, x1, x2, x3) (y0, y1, y2, y3)) (a0 * b0 + a1 * b1 + a2 * b2 + a3 * b3) A K.
Proof.
  intros HS X0 X1 X2 X3 Y0 Y1 Y2 Y3 P0 P1 P2 P3 HA HK HK' HB.
  pose proof (mul_err_pos A0 k0 B0 l0 ltac:(tauto) ltac:(tauto) ltac:(tauto) ltac:(tauto)) as M0.
  pose proof (mul_err_pos A1 k1 B1 l1 ltac:(tauto) ltac:(tauto) ltac:(tauto) ltac:(tauto)) as M1.
  pose proof (mul_err_pos A2 k2 B2 l2 ltac:(tauto) ltac:(tauto) ltac:(tauto) ltac:(tauto)) as M2.
  pose proof (mul_err_pos A3 k3 B3 l3 ltac:(tauto) ltac:(tauto) ltac:(tauto) ltac:(tauto)) as M3.
  unfold dot_err, add_err in HK.
  apply ap_bound with (A := A0 * B0 + A1 * B1 + A2 * B2 + A3 * B3); [| exact HB].
  apply ap_weaken with (k := dot_err A0 k0 B0 l0 A1 k1 B1 l1 A2 k2 B2 l2 A3 k3 B3 l3); [lra | | unfold dot_err, add_err; lra].
  unfold dot4. change (v_add (v := V)) with (@Bplus prec emax Hp He mode_NE). change (v_mul (v := V)) with (@Bmult prec emax Hp He mode_NE).
  assert (ap S (Bmult mode_NE x0 y0) (a0 * b0) (A0 * B0) (mul_err A0 k0 B0 l0)) as Q0 by (apply ap_mul; try tauto; lra).
  assert (ap S (Bmult mode_NE x1 y1) (a1 * b1) (A1 * B1) (mul_err A1 k1 B1 l1)) as Q1 by (apply ap_mul; try tauto; lra).
  assert (ap S (Bmult mode_NE x2 y2) (a2 * b2) (A2 * B2) (mul_err A2 k2 B2 l2)) as Q2 by (apply ap_mul; try tauto; lra).
  assert (ap S (Bmult mode_NE x3 y3) (a3 * b3) (A3 * B3) (mul_err A3 k3 B3 l3)) as Q3 by (apply ap_mul; try tauto; lra).
  unfold dot_err. apply ap_add; try lra; try (unfold add_err; lra); [| exact Q3].
  apply ap_add; try lra; try (unfold add_err; lra); [| exact Q2].
  apply ap_add; try lra; try (unfold add_err; lra); [exact Q0 | exact Q1].
Qed.

Ltac num := unfold dot_err, add_err, mul_err; lra.

(** A slope times the width of a cell. *)
Lemma slope_near S (m x0 x1 : fl) : 0 <= S <= large -> is_finite m = true -> is_finite x0 = true -> is_finite x1 = true ->
  Rabs (B2R x0) <= large -> Rabs (B2R x1) <= large -> Rabs (B2R m * (B2R x1 - B2R x0)) <= S ->
  ap S (Bmult mode_NE m (Bminus mode_NE x1 x0)) (B2R m * (B2R x1 - B2R x0)) 1 2.01.
Proof.
  intros HS Fm F0 F1 B0 B1 HB. pose proof u_range as Hu. pose proof large_big as Hl. pose proof eta_small as Hn.
  destruct (diff_error x1 x0 F1 F0 B1 B0) as (FH & d & D & EH). set (f := B2R m * (B2R x1 - B2R x0)) in *.
  assert (B2R m * B2R (Bminus mode_NE x1 x0) = f * (1 + d)) as Ef by (rewrite EH; unfold f; ring).
  assert (Rabs (1 + d) <= 257 / 256) as Q1 by (eapply Rle_trans; [apply Rabs_triang |]; rewrite Rabs_R1; lra).
  assert (is_finite (Bmult mode_NE m (Bminus mode_NE x1 x0)) = true) as F.
  { pose proof (Bmult_correct prec emax Hp He mode_NE m (Bminus mode_NE x1 x0)) as C. change (round_mode mode_NE) with ZnearestE in C.
    rewrite Rlt_bool_true in C; [rewrite Fm, FH in C; tauto |]. apply no_overflow. rewrite Ef, Rabs_mult.
    apply Rle_trans with (S * (257 / 256)); [apply Rmult_le_compat; auto using Rabs_pos; apply Rabs_pos | lra]. }
  split; [exact F |]. split; [lra |].
  destruct (mult_error prec emax Hp He _ _ F) as (_ & _ & d' & n & D' & N & ->). rewrite Ef.
  replace (f * (1 + d) * (1 + d') + n - f) with (f * (d + d' * (1 + d)) + n) by ring.
  eapply Rle_trans; [apply Rabs_triang |]. rewrite Rabs_mult.
  assert (Rabs (d + d' * (1 + d)) <= 2.01 * u) as Q2.
  { eapply Rle_trans; [apply Rabs_triang |]. rewrite Rabs_mult.
    assert (Rabs d' * Rabs (1 + d) <= u * (257 / 256)) by (apply Rmult_le_compat; auto using Rabs_pos; apply Rabs_pos). lra. }
  assert (Rabs f * Rabs (d + d' * (1 + d)) <= S * (2.01 * u)) by (apply Rmult_le_compat; auto using Rabs_pos; apply Rabs_pos). lra.
Qed.

Lemma powers_near (D : fl) d : ap 1 D d 1 3.12 -> 0 <= d <= 1 ->
  ap 1 (Bmult mode_NE D D) (d * d) 1 8.4 /\ ap 1 (Bmult mode_NE (Bmult mode_NE D D) D) (d * d * d) 1 13.8.
Proof.
  intros HD Hd. pose proof large_big as Hl.
  assert (ap 1 (Bmult mode_NE D D) (d * d) 1 8.4) as H2.
  { apply ap_bound with (A := 1 * 1); [| rewrite Rabs_pos_eq; nra].
    apply ap_weaken with (k := mul_err 1 3.12 1 3.12); [lra | apply ap_mul; try assumption; try lra; num | num]. }
  split; [exact H2 |]. apply ap_bound with (A := 1 * 1); [| assert (0 <= d * d <= 1) by nra; rewrite Rabs_pos_eq; nra].
  apply ap_weaken with (k := mul_err 1 8.4 1 3.12); [lra | apply ap_mul; try assumption; try lra; num | num].
Qed.

Lemma four_terms S a0 a1 a2 a3 b0 b1 b2 b3 : 0 <= S -> Rabs a0 <= 1 * 1 -> Rabs a1 <= 1 * 1 -> Rabs a2 <= 1 * 1 -> Rabs a3 <= 1 * 1 ->
  Rabs b0 <= S -> Rabs b1 <= S -> Rabs b2 <= S -> Rabs b3 <= S -> Rabs (a0 * b0 + a1 * b1 + a2 * b2 + a3 * b3) <= 4 * S.
Proof.
  assert (forall a b, Rabs a <= 1 * 1 -> Rabs b <= S -> Rabs (a * b) <= S) as M.
  { intros a b Ha Hb. rewrite Rabs_mult, <- (Rmult_1_l S). apply Rmult_le_compat; try apply Rabs_pos; lra. }
  intros PS H0 H1 H2 H3 K0 K1 K2 K3.
  pose proof (M a0 b0 H0 K0). pose proof (M a1 b1 H1 K1). pose proof (M a2 b2 H2 K2). pose proof (M a3 b3 H3 K3).
  pose proof (Rabs_triang (a0 * b0 + a1 * b1 + a2 * b2) (a3 * b3)). pose proof (Rabs_triang (a0 * b0 + a1 * b1) (a2 * b2)).
  pose proof (Rabs_triang (a0 * b0) (a1 * b1)). lra.
Qed.

(** ** The Hermite form *)
Definition hreal (d y0 y1 f0 f1 : R) : R :=
  (2 * (d * d * d) - 3 * (d * d) + 1) * y0 + (3 * (d * d) - 2 * (d * d * d)) * y1 + (d * d * d - 2 * (d * d) + d) * f0 + (d * d * d - d * d) * f1.

Lemma hform_near S (x x0 y0 m0 x1 y1 m1 : fl) : 0 <= S <= large ->
  is_finite x = true -> is_finite x0 = true -> is_finite x1 = true -> is_finite y0 = true -> is_finite y1 = true ->
  is_finite m0 = true -> is_finite m1 = true ->
  Rabs (B2R x0) <= large -> Rabs (B2R x1) <= large -> B2R x0 <= B2R x <= B2R x1 -> B2R x0 < B2R x1 ->
  Rabs (B2R y0) <= S -> Rabs (B2R y1) <= S -> Rabs (B2R m0 * (B2R x1 - B2R x0)) <= S -> Rabs (B2R m1 * (B2R x1 - B2R x0)) <= S ->
  ap S (hform prec emax Hp He e x x0 y0 m0 x1 y1 m1)
    (hreal ((B2R x - B2R x0) / (B2R x1 - B2R x0)) (B2R y0) (B2R y1) (B2R m0 * (B2R x1 - B2R x0)) (B2R m1 * (B2R x1 - B2R x0))) 4 280.
Proof.
  intros HS Fx F0 F1 G0 G1 N0 N1 B0 B1 Hx Hl Y0 Y1 M0 M1. unfold hform. cbv zeta.
  pose proof (delta_near x x0 x1 Fx F0 F1 B0 B1 Hx Hl) as HD.
  set (h := B2R x1 - B2R x0) in *. set (d := (B2R x - B2R x0) / h) in *.
  assert (0 <= d <= 1) as Hd.
  { unfold d. split; [apply Rle_mult_inv_pos; unfold h; lra |]. apply Rmult_le_reg_r with h; [unfold h; lra |].
    unfold Rdiv. rewrite Rmult_assoc, Rinv_l by (unfold h; lra). unfold h. lra. }
  set (D := Bdiv mode_NE (Bminus mode_NE x x0) (Bminus mode_NE x1 x0)) in *.
  destruct (powers_near D d HD Hd) as (HD2 & HD3).
  pose proof (slope_near S m0 x0 x1 HS N0 F0 F1 B0 B1 M0) as P0. pose proof (slope_near S m1 x0 x1 HS N1 F0 F1 B0 B1 M1) as P1. fold h in P0, P1.
  pose proof (ap_exact S y0 1 G0 ltac:(lra)) as E0. pose proof (ap_exact S y1 1 G1 ltac:(lra)) as E1.
  set (D2 := Bmult mode_NE D D) in *. set (D3 := Bmult mode_NE D2 D) in *.
  pose proof large_big as Hlg.
  pose proof (ap_int 1 ltac:(lia)) as I1. pose proof (ap_int 2 ltac:(lia)) as I2. pose proof (ap_int 3 ltac:(lia)) as I3.
  pose proof (ap_int (-2) ltac:(lia)) as J2. pose proof (ap_int (-3) ltac:(lia)) as J3.
  pose proof (ap_opp _ _ _ _ _ I1) as J1. pose proof ap_zero as Z0. simpl Z.abs in *.
  assert (0 <= d * d <= 1) as Hd2 by nra. assert (0 <= d * d * d <= d * d) as Hd3 by nra.
  assert (0 <= d * d * d - 2 * (d * d) + d <= 1) as Hd4.
  { replace (d * d * d - 2 * (d * d) + d) with (d * ((1 - d) * (1 - d))) by ring. assert (0 <= (1 - d) * (1 - d) <= 1) by nra. nra. }
  assert (0 <= 3 * (d * d) - 2 * (d * d * d) <= 1) as Hd5.
  { assert (0 <= (1 - d) * (1 - d) * (1 + 2 * d)) by (assert (0 <= (1 - d) * (1 - d)) by nra; nra). nra. }
  unfold vec_mat.
  assert (0 <= 1 <= large) as HS1 by lra.
  pose proof (ap_dot 1 _ _ _ _ _ _ _ _ _ _ _ _ _ _ _ _ _ _ _ _ _ _ _ _ _ _ _ _ _ _ _ _ 1 80.4 HS1 HD3 HD2 HD I1 I2 J3 Z0 I1
    ltac:(lra) ltac:(lra) ltac:(lra) ltac:(lra) ltac:(lra) ltac:(num) ltac:(lra) ltac:(apply Rabs_le; lra)) as W0.
  pose proof (ap_dot 1 _ _ _ _ _ _ _ _ _ _ _ _ _ _ _ _ _ _ _ _ _ _ _ _ _ _ _ _ _ _ _ _ 1 78.4 HS1 HD3 HD2 HD I1 J2 I3 Z0 Z0
    ltac:(lra) ltac:(lra) ltac:(lra) ltac:(lra) ltac:(lra) ltac:(num) ltac:(lra) ltac:(apply Rabs_le; lra)) as W1.
  pose proof (ap_dot 1 _ _ _ _ _ _ _ _ _ _ _ _ _ _ _ _ _ _ _ _ _ _ _ _ _ _ _ _ _ _ _ _ 1 53.8 HS1 HD3 HD2 HD I1 I1 J2 I1 Z0
    ltac:(lra) ltac:(lra) ltac:(lra) ltac:(lra) ltac:(lra) ltac:(num) ltac:(lra) ltac:(apply Rabs_le; lra)) as W2.
  pose proof (ap_dot 1 _ _ _ _ _ _ _ _ _ _ _ _ _ _ _ _ _ _ _ _ _ _ _ _ _ _ _ _ _ _ _ _ 1 34.9 HS1 HD3 HD2 HD I1 I1 J1 Z0 Z0
    ltac:(lra) ltac:(lra) ltac:(lra) ltac:(lra) ltac:(lra) ltac:(num) ltac:(lra) ltac:(apply Rabs_le; lra)) as W3.
  match type of W0 with ap _ ?w _ _ _ => set (w0 := w) in * end. match type of W1 with ap _ ?w _ _ _ => set (w1 := w) in * end.
  match type of W2 with ap _ ?w _ _ _ => set (w2 := w) in * end. match type of W3 with ap _ ?w _ _ _ => set (w3 := w) in * end.
  eapply ap_value; [apply (ap_dot S w0 w1 w2 w3 y0 y1 _ _ _ _ _ _ _ _ _ _ _ _ _ _ _ _ _ _ _ _ _ _ _ _ _ _ 4 280 HS W0 W1 W2 W3 E0 E1 P0 P1); try lra; try num |].
  - apply four_terms; try lra; [apply W0 | apply W1 | apply W2 | apply W3].
  - unfold hreal. ring.
Qed.

(** ** The three Catmull-Rom forms *)
Notation "x '*f' y" := (Bmult mode_NE x y) (at level 40, left associativity).
Notation "x '+f' y" := (Bplus mode_NE x y) (at level 50, left associativity).
Notation "x '-f' y" := (Bminus mode_NE x y) (at level 50, left associativity).
Notation "x '/f' y" := (Bdiv mode_NE x y) (at level 40, left associativity).
Notation i := (of_int prec emax Hp He).
Notation zero := (B754_zero false : fl).

Definition cpow (x x0 x1 : fl) : vec4 fl :=
  let delta := (x -f x0) /f (x1 -f x0) in (delta *f delta *f delta, delta *f delta, delta, i 1%Z).

Definition cfirst (x x0 y0 x1 y1 x2 y2 : fl) : fl :=
  let beta := (x1 -f x0) /f ((x1 -f x0) +f (x2 -f x1)) in
  dot4 (V := V) (cpow x x0 x1) (mat_vec (V := V)
    ((zero, i 1%Z -f beta, Bopp (i 1%Z), beta), (zero, Bopp (i 1%Z) +f beta, i 1%Z, Bopp beta),
     (zero, Bopp (i 1%Z), i 1%Z, zero), (zero, i 1%Z, zero, zero)) (zero, y0, y1, y2)).

Definition clast (x xm ym x0 y0 x1 y1 : fl) : fl :=
  let alpha := (x1 -f x0) /f ((x1 -f x0) +f (x1 -f xm)) in
  dot4 (V := V) (cpow x x0 x1) (mat_vec (V := V)
    ((Bopp alpha, i 1%Z, Bopp (i 1%Z) *f alpha, zero), (i 2%Z *f alpha, i (-2)%Z, i 2%Z -f i 2%Z *f alpha, zero),
     (Bopp alpha, zero, alpha, zero), (zero, i 1%Z, zero, zero)) (ym, y0, y1, zero)).

Definition cinner (x xm ym x0 y0 x1 y1 x2 y2 : fl) : fl :=
  let alpha := (x1 -f x0) /f ((x1 -f x0) +f (x1 -f xm)) in
  let beta := (x1 -f x0) /f ((x1 -f x0) +f (x2 -f x1)) in
  dot4 (V := V) (cpow x x0 x1) (mat_vec (V := V)
    ((Bopp alpha, i 2%Z -f beta, i (-2)%Z +f alpha, beta), (i 2%Z *f alpha, beta -f i 3%Z, i 3%Z -f i 2%Z *f alpha, Bopp beta),
     (Bopp alpha, zero, alpha, zero), (zero, i 1%Z, zero, zero)) (ym, y0, y1, y2)).

Lemma zero_ap S : 0 <= S -> ap S zero 0 0 0.
Proof. intros PS. split; [reflexivity |]. simpl. rewrite Rminus_0_r, Rabs_R0. split; lra. Qed.

Lemma unit_range x x0 x1 : x0 <= x <= x1 -> x0 < x1 -> 0 <= (x - x0) / (x1 - x0) <= 1.
Proof.
  intros Hx Hl. split; [apply Rle_mult_inv_pos; lra |]. apply Rmult_le_reg_r with (x1 - x0); [lra |].
  unfold Rdiv. rewrite Rmult_assoc, Rinv_l by lra. lra.
Qed.

Lemma half_range h g : 0 < h -> h <= g -> 0 <= h / (h + g) <= / 2.
Proof.
  intros Hh Hg. split; [apply Rle_mult_inv_pos; lra |]. apply Rmult_le_reg_r with (h + g); [lra |].
  unfold Rdiv. rewrite Rmult_assoc, Rinv_l by lra. lra.
Qed.

Lemma one_range h g : 0 < h -> 0 < g -> 0 <= h / (h + g) <= 1.
Proof.
  intros Hh Hg. split; [apply Rle_mult_inv_pos; lra |]. apply Rmult_le_reg_r with (h + g); [lra |].
  unfold Rdiv. rewrite Rmult_assoc, Rinv_l by lra. lra.
Qed.

(** Sums of four products of bounded factors. *)
Lemma row_bound S a0 a1 a2 a3 b0 b1 b2 b3 A0 A1 A2 A3 A : Rabs a0 <= A0 -> Rabs a1 <= A1 -> Rabs a2 <= A2 -> Rabs a3 <= A3 ->
  Rabs b0 <= S -> Rabs b1 <= S -> Rabs b2 <= S -> Rabs b3 <= S -> A0 + A1 + A2 + A3 <= A ->
  Rabs (a0 * b0 + a1 * b1 + a2 * b2 + a3 * b3) <= A * S.
Proof.
  assert (forall a b A, Rabs a <= A -> Rabs b <= S -> Rabs (a * b) <= A * S) as M.
  { intros a b B Ha Hb. rewrite Rabs_mult. apply Rmult_le_compat; auto using Rabs_pos. }
  intros H0 H1 H2 H3 K0 K1 K2 K3 HA. assert (0 <= S) by (eapply Rle_trans; [apply Rabs_pos | exact K0]).
  pose proof (M a0 b0 A0 H0 K0). pose proof (M a1 b1 A1 H1 K1). pose proof (M a2 b2 A2 H2 K2). pose proof (M a3 b3 A3 H3 K3).
  pose proof (Rabs_triang (a0 * b0 + a1 * b1 + a2 * b2) (a3 * b3)). pose proof (Rabs_triang (a0 * b0 + a1 * b1) (a2 * b2)).
  pose proof (Rabs_triang (a0 * b0) (a1 * b1)). assert ((A0 + A1 + A2 + A3) * S <= A * S) by (apply Rmult_le_compat_r; lra). lra.
Qed.

Lemma col_bound S a0 a1 a2 b0 b1 b2 b3 B0 B1 B2 B3 A : 0 <= S -> Rabs a0 <= 1 * 1 -> Rabs a1 <= 1 * 1 -> Rabs a2 <= 1 * 1 ->
  Rabs b0 <= B0 * S -> Rabs b1 <= B1 * S -> Rabs b2 <= B2 * S -> Rabs b3 <= B3 * S -> B0 + B1 + B2 + B3 = A ->
  Rabs (a0 * b0 + a1 * b1 + a2 * b2 + 1 * b3) <= A * S.
Proof.
  assert (forall a b B, Rabs a <= 1 * 1 -> Rabs b <= B * S -> Rabs (a * b) <= B * S) as M.
  { intros a b B Ha Hb. rewrite Rabs_mult, <- (Rmult_1_l (B * S)). apply Rmult_le_compat; try apply Rabs_pos; lra. }
  intros PS H0 H1 H2 K0 K1 K2 K3 <-.
  pose proof (M a0 b0 B0 H0 K0). pose proof (M a1 b1 B1 H1 K1). pose proof (M a2 b2 B2 H2 K2). rewrite <- (Rmult_1_l b3) in K3.
  pose proof (Rabs_triang (a0 * b0 + a1 * b1 + a2 * b2) (1 * b3)). pose proof (Rabs_triang (a0 * b0 + a1 * b1) (a2 * b2)).
  pose proof (Rabs_triang (a0 * b0) (a1 * b1)). lra.
Qed.

Definition creal (d a b : R) (k : nat) (ym y0 y1 y2 : R) : R :=
  match k with
  | 0%nat => ((1 - b) * y0 - y1 + b * y2) * (d * d * d) + ((b - 1) * y0 + y1 - b * y2) * (d * d) + (y1 - y0) * d + y0
  | 1%nat => (- a * ym + (2 - b) * y0 + (a - 2) * y1 + b * y2) * (d * d * d)
             + (2 * a * ym + (b - 3) * y0 + (3 - 2 * a) * y1 - b * y2) * (d * d) + a * (y1 - ym) * d + y0
  | _ => (- a * ym + y0 - a * y1) * (d * d * d) + (2 * a * ym - 2 * y0 + (2 - 2 * a) * y1) * (d * d) + a * (y1 - ym) * d + y0
  end.

Lemma cinner_near S (x xm ym x0 y0 x1 y1 x2 y2 : fl) : 0 <= S <= large ->
  is_finite x = true -> is_finite xm = true -> is_finite x0 = true -> is_finite x1 = true -> is_finite x2 = true ->
  is_finite ym = true -> is_finite y0 = true -> is_finite y1 = true -> is_finite y2 = true ->
  Rabs (B2R xm) <= large -> Rabs (B2R x0) <= large -> Rabs (B2R x1) <= large -> Rabs (B2R x2) <= large ->
  B2R x0 <= B2R x <= B2R x1 -> B2R xm < B2R x0 -> B2R x0 < B2R x1 -> B2R x1 < B2R x2 ->
  Rabs (B2R ym) <= S -> Rabs (B2R y0) <= S -> Rabs (B2R y1) <= S -> Rabs (B2R y2) <= S ->
  ap S (cinner x xm ym x0 y0 x1 y1 x2 y2)
    (creal ((B2R x - B2R x0) / (B2R x1 - B2R x0)) ((B2R x1 - B2R x0) / ((B2R x1 - B2R x0) + (B2R x1 - B2R xm)))
       ((B2R x1 - B2R x0) / ((B2R x1 - B2R x0) + (B2R x2 - B2R x1))) 1 (B2R ym) (B2R y0) (B2R y1) (B2R y2)) 12 310.
Proof.
  intros HS Fx Fm F0 F1 F2 Gm G0 G1 G2 Bm B0 B1 B2 Hx Hm Hl Hr Ym Y0 Y1 Y2. unfold cinner, cpow. cbv zeta.
  pose proof (delta_near x x0 x1 Fx F0 F1 B0 B1 Hx Hl) as HD.
  pose proof (ratio_near x0 x1 xm x1 F0 F1 Fm F1 B0 B1 Bm B1 Hl ltac:(lra)) as HA.
  pose proof (ratio_near x0 x1 x1 x2 F0 F1 F1 F2 B0 B1 B1 B2 Hl ltac:(lra)) as HB.
  pose proof (unit_range _ _ _ Hx Hl) as Rd.
  pose proof (half_range (B2R x1 - B2R x0) (B2R x1 - B2R xm) ltac:(lra) ltac:(lra)) as Ra.
  pose proof (one_range (B2R x1 - B2R x0) (B2R x2 - B2R x1) ltac:(lra) ltac:(lra)) as Rb.
  set (d := (B2R x - B2R x0) / (B2R x1 - B2R x0)) in *.
  set (a := (B2R x1 - B2R x0) / ((B2R x1 - B2R x0) + (B2R x1 - B2R xm))) in *.
  set (b := (B2R x1 - B2R x0) / ((B2R x1 - B2R x0) + (B2R x2 - B2R x1))) in *.
  set (D := (x -f x0) /f (x1 -f x0)) in *.
  set (Al := (x1 -f x0) /f ((x1 -f x0) +f (x1 -f xm))) in *. set (Be := (x1 -f x0) /f ((x1 -f x0) +f (x2 -f x1))) in *.
  apply ap_bound with (A' := / 2) in HA; [| rewrite Rabs_pos_eq; lra].
  destruct (powers_near D d HD Rd) as (HD2 & HD3).
  pose proof (ap_exact S ym 1 Gm ltac:(lra)) as Em. pose proof (ap_exact S y0 1 G0 ltac:(lra)) as E0.
  pose proof (ap_exact S y1 1 G1 ltac:(lra)) as E1. pose proof (ap_exact S y2 1 G2 ltac:(lra)) as E2.
  pose proof large_big as Hlg. assert (0 <= 1 <= large) as HS1 by lra.
  pose proof (ap_int 1 ltac:(lia)) as I1. pose proof (ap_int 2 ltac:(lia)) as I2. pose proof (ap_int 3 ltac:(lia)) as I3.
  pose proof (ap_int (-2) ltac:(lia)) as J2. pose proof ap_zero as Z0. simpl Z.abs in *.
  pose proof (ap_opp _ _ _ _ _ HA) as HnA. pose proof (ap_opp _ _ _ _ _ HB) as HnB.
  assert (ap 1 (i 2%Z -f Be) (2 - b) 2 7.2) as M01.
  { apply ap_bound with (A := 2 + 1); [| rewrite Rabs_pos_eq; lra].
    apply ap_weaken with (k := add_err 2 0 1 4.16); [lra | apply ap_sub; try assumption; try lra; num | num]. }
  assert (ap 1 (i (-2)%Z +f Al) (-2 + a) 2 6.7) as M02.
  { apply ap_bound with (A := 2 + / 2); [| rewrite Rabs_left1; lra].
    apply ap_weaken with (k := add_err 2 0 (/ 2) 4.16); [lra | apply ap_add; try assumption; try lra; num | num]. }
  assert (ap 1 (i 2%Z *f Al) (2 * a) 1 10.4) as M10.
  { apply ap_bound with (A := 2 * / 2); [| rewrite Rabs_pos_eq; lra].
    apply ap_weaken with (k := mul_err 2 0 (/ 2) 4.16); [lra | apply ap_mul; try assumption; try lra; num | num]. }
  assert (ap 1 (Be -f i 3%Z) (b - 3) 3 8.2) as M11.
  { apply ap_bound with (A := 1 + 3); [| rewrite Rabs_left1; lra].
    apply ap_weaken with (k := add_err 1 4.16 3 0); [lra | apply ap_sub; try assumption; try lra; num | num]. }
  assert (ap 1 (i 3%Z -f i 2%Z *f Al) (3 - 2 * a) 3 14.5) as M12.
  { apply ap_bound with (A := 3 + 1); [| rewrite Rabs_pos_eq; lra].
    apply ap_weaken with (k := add_err 3 0 1 10.4); [lra | apply ap_sub; try assumption; try lra; num | num]. }
  unfold mat_vec.
  assert (ap S (dot4 (V := V) (Bopp Al, i 2%Z -f Be, i (-2)%Z +f Al, Be) (ym, y0, y1, y2))
    (- a * B2R ym + (2 - b) * B2R y0 + (-2 + a) * B2R y1 + b * B2R y2) 4 45.2) as R0.
  { eapply ap_dot; try eassumption; try lra; try num.
    apply (row_bound S _ _ _ _ _ _ _ _ a (2 - b) (2 - a) b); try assumption; try lra; apply Rabs_le; lra. }
  assert (ap S (dot4 (V := V) (i 2%Z *f Al, Be -f i 3%Z, i 3%Z -f i 2%Z *f Al, Bopp Be) (ym, y0, y1, y2))
    (2 * a * B2R ym + (b - 3) * B2R y0 + (3 - 2 * a) * B2R y1 + - b * B2R y2) 6 69.6) as R1.
  { eapply ap_dot; try eassumption; try lra; try num.
    apply (row_bound S _ _ _ _ _ _ _ _ (2 * a) (3 - b) (3 - 2 * a) b); try assumption; try lra; apply Rabs_le; lra. }
  assert (ap S (dot4 (V := V) (Bopp Al, zero, Al, zero) (ym, y0, y1, y2))
    (- a * B2R ym + 0 * B2R y0 + a * B2R y1 + 0 * B2R y2) 1 16.1) as R2.
  { eapply ap_dot; try eassumption; try lra; try num.
    apply (row_bound S _ _ _ _ _ _ _ _ a 0 a 0); try assumption; try lra; apply Rabs_le; lra. }
  assert (ap S (dot4 (V := V) (zero, i 1%Z, zero, zero) (ym, y0, y1, y2))
    (0 * B2R ym + 1 * B2R y0 + 0 * B2R y1 + 0 * B2R y2) 1 8.1) as R3.
  { eapply ap_dot; try eassumption; try lra; try num.
    apply (row_bound S _ _ _ _ _ _ _ _ 0 1 0 0); try assumption; try lra; apply Rabs_le; lra. }
  eapply ap_value; [eapply (ap_dot S); try eassumption; try lra; try num |].
  - apply (col_bound S _ _ _ _ _ _ _ 4 6 1 1); [lra | apply HD3 | apply HD2 | apply HD | apply R0 | apply R1 | apply R2 | apply R3 | lra].
  - unfold creal. ring.
Qed.

Lemma cfirst_near S (x x0 y0 x1 y1 x2 y2 : fl) : 0 <= S <= large ->
  is_finite x = true -> is_finite x0 = true -> is_finite x1 = true -> is_finite x2 = true ->
  is_finite y0 = true -> is_finite y1 = true -> is_finite y2 = true ->
  Rabs (B2R x0) <= large -> Rabs (B2R x1) <= large -> Rabs (B2R x2) <= large ->
  B2R x0 <= B2R x <= B2R x1 -> B2R x0 < B2R x1 -> B2R x1 < B2R x2 ->
  Rabs (B2R y0) <= S -> Rabs (B2R y1) <= S -> Rabs (B2R y2) <= S ->
  ap S (cfirst x x0 y0 x1 y1 x2 y2)
    (creal ((B2R x - B2R x0) / (B2R x1 - B2R x0)) 0
       ((B2R x1 - B2R x0) / ((B2R x1 - B2R x0) + (B2R x2 - B2R x1))) 0 0 (B2R y0) (B2R y1) (B2R y2)) 7 310.
Proof.
  intros HS Fx F0 F1 F2 G0 G1 G2 B0 B1 B2 Hx Hl Hr Y0 Y1 Y2. unfold cfirst, cpow. cbv zeta.
  pose proof (delta_near x x0 x1 Fx F0 F1 B0 B1 Hx Hl) as HD.
  pose proof (ratio_near x0 x1 x1 x2 F0 F1 F1 F2 B0 B1 B1 B2 Hl ltac:(lra)) as HB.
  pose proof (unit_range _ _ _ Hx Hl) as Rd.
  pose proof (one_range (B2R x1 - B2R x0) (B2R x2 - B2R x1) ltac:(lra) ltac:(lra)) as Rb.
  set (d := (B2R x - B2R x0) / (B2R x1 - B2R x0)) in *.
  set (b := (B2R x1 - B2R x0) / ((B2R x1 - B2R x0) + (B2R x2 - B2R x1))) in *.
  set (D := (x -f x0) /f (x1 -f x0)) in *. set (Be := (x1 -f x0) /f ((x1 -f x0) +f (x2 -f x1))) in *.
  destruct (powers_near D d HD Rd) as (HD2 & HD3).
  pose proof (zero_ap S ltac:(lra)) as Em. pose proof (ap_exact S y0 1 G0 ltac:(lra)) as E0.
  pose proof (ap_exact S y1 1 G1 ltac:(lra)) as E1. pose proof (ap_exact S y2 1 G2 ltac:(lra)) as E2.
  assert (Rabs 0 <= S) as Y by (rewrite Rabs_R0; lra).
  pose proof large_big as Hlg. assert (0 <= 1 <= large) as HS1 by lra.
  pose proof (ap_int 1 ltac:(lia)) as I1. pose proof (ap_opp _ _ _ _ _ I1) as J1. pose proof ap_zero as Z0. simpl Z.abs in *.
  pose proof (ap_opp _ _ _ _ _ HB) as HnB.
  assert (ap 1 (i 1%Z -f Be) (1 - b) 1 6.2) as M01.
  { apply ap_bound with (A := 1 + 1); [| rewrite Rabs_pos_eq; lra].
    apply ap_weaken with (k := add_err 1 0 1 4.16); [lra | apply ap_sub; try assumption; try lra; num | num]. }
  assert (ap 1 (Bopp (i 1%Z) +f Be) (- (1) + b) 1 6.2) as M11.
  { apply ap_bound with (A := 1 + 1); [| rewrite Rabs_left1; lra].
    apply ap_weaken with (k := add_err 1 0 1 4.16); [lra | apply ap_add; try assumption; try lra; num | num]. }
  unfold mat_vec.
  assert (ap S (dot4 (V := V) (zero, i 1%Z -f Be, Bopp (i 1%Z), Be) (zero, y0, y1, y2))
    (0 * 0 + (1 - b) * B2R y0 + - (1) * B2R y1 + b * B2R y2) 2 24) as R0.
  { eapply ap_dot; try eassumption; try lra; try num.
    apply (row_bound S _ _ _ _ _ _ _ _ 0 (1 - b) 1 b); try assumption; try lra; apply Rabs_le; lra. }
  assert (ap S (dot4 (V := V) (zero, Bopp (i 1%Z) +f Be, i 1%Z, Bopp Be) (zero, y0, y1, y2))
    (0 * 0 + (- (1) + b) * B2R y0 + 1 * B2R y1 + - b * B2R y2) 2 24) as R1.
  { eapply ap_dot; try eassumption; try lra; try num.
    apply (row_bound S _ _ _ _ _ _ _ _ 0 (1 - b) 1 b); try assumption; try lra; apply Rabs_le; lra. }
  assert (ap S (dot4 (V := V) (zero, Bopp (i 1%Z), i 1%Z, zero) (zero, y0, y1, y2))
    (0 * 0 + - (1) * B2R y0 + 1 * B2R y1 + 0 * B2R y2) 2 12) as R2.
  { eapply ap_dot; try eassumption; try lra; try num.
    apply (row_bound S _ _ _ _ _ _ _ _ 0 1 1 0); try assumption; try lra; apply Rabs_le; lra. }
  assert (ap S (dot4 (V := V) (zero, i 1%Z, zero, zero) (zero, y0, y1, y2))
    (0 * 0 + 1 * B2R y0 + 0 * B2R y1 + 0 * B2R y2) 1 8.1) as R3.
  { eapply ap_dot; try eassumption; try lra; try num.
    apply (row_bound S _ _ _ _ _ _ _ _ 0 1 0 0); try assumption; try lra; apply Rabs_le; lra. }
  eapply ap_value; [eapply (ap_dot S); try eassumption; try lra; try num |].
  - apply (col_bound S _ _ _ _ _ _ _ 2 2 2 1); [lra | apply HD3 | apply HD2 | apply HD | apply R0 | apply R1 | apply R2 | apply R3 | lra].
  - unfold creal. ring.
Qed.

Lemma clast_near S (x xm ym x0 y0 x1 y1 : fl) : 0 <= S <= large ->
  is_finite x = true -> is_finite xm = true -> is_finite x0 = true -> is_finite x1 = true ->
  is_finite ym = true -> is_finite y0 = true -> is_finite y1 = true ->
  Rabs (B2R xm) <= large -> Rabs (B2R x0) <= large -> Rabs (B2R x1) <= large ->
  B2R x0 <= B2R x <= B2R x1 -> B2R xm < B2R x0 -> B2R x0 < B2R x1 ->
  Rabs (B2R ym) <= S -> Rabs (B2R y0) <= S -> Rabs (B2R y1) <= S ->
  ap S (clast x xm ym x0 y0 x1 y1)
    (creal ((B2R x - B2R x0) / (B2R x1 - B2R x0)) ((B2R x1 - B2R x0) / ((B2R x1 - B2R x0) + (B2R x1 - B2R xm)))
       0 2 (B2R ym) (B2R y0) (B2R y1) 0) 8 310.
Proof.
  intros HS Fx Fm F0 F1 Gm G0 G1 Bm B0 B1 Hx Hm Hl Ym Y0 Y1. unfold clast, cpow. cbv zeta.
  pose proof (delta_near x x0 x1 Fx F0 F1 B0 B1 Hx Hl) as HD.
  pose proof (ratio_near x0 x1 xm x1 F0 F1 Fm F1 B0 B1 Bm B1 Hl ltac:(lra)) as HA.
  pose proof (unit_range _ _ _ Hx Hl) as Rd.
  pose proof (half_range (B2R x1 - B2R x0) (B2R x1 - B2R xm) ltac:(lra) ltac:(lra)) as Ra.
  set (d := (B2R x - B2R x0) / (B2R x1 - B2R x0)) in *.
  set (a := (B2R x1 - B2R x0) / ((B2R x1 - B2R x0) + (B2R x1 - B2R xm))) in *.
  set (D := (x -f x0) /f (x1 -f x0)) in *. set (Al := (x1 -f x0) /f ((x1 -f x0) +f (x1 -f xm))) in *.
  apply ap_bound with (A' := / 2) in HA; [| rewrite Rabs_pos_eq; lra].
  destruct (powers_near D d HD Rd) as (HD2 & HD3).
  pose proof (ap_exact S ym 1 Gm ltac:(lra)) as Em. pose proof (ap_exact S y0 1 G0 ltac:(lra)) as E0.
  pose proof (ap_exact S y1 1 G1 ltac:(lra)) as E1. pose proof (zero_ap S ltac:(lra)) as E2.
  assert (Rabs 0 <= S) as Y by (rewrite Rabs_R0; lra).
  pose proof large_big as Hlg. assert (0 <= 1 <= large) as HS1 by lra.
  pose proof (ap_int 1 ltac:(lia)) as I1. pose proof (ap_int 2 ltac:(lia)) as I2.
  pose proof (ap_int (-2) ltac:(lia)) as J2. pose proof (ap_opp _ _ _ _ _ I1) as J1. pose proof ap_zero as Z0. simpl Z.abs in *.
  pose proof (ap_opp _ _ _ _ _ HA) as HnA.
  assert (ap 1 (Bopp (i 1%Z) *f Al) (- (1) * a) (/ 2) 5.7) as M02.
  { apply ap_bound with (A := 1 * / 2); [| rewrite Rabs_left1; lra].
    apply ap_weaken with (k := mul_err 1 0 (/ 2) 4.16); [lra | apply ap_mul; try assumption; try lra; num | num]. }
  assert (ap 1 (i 2%Z *f Al) (2 * a) 1 10.4) as M10.
  { apply ap_bound with (A := 2 * / 2); [| rewrite Rabs_pos_eq; lra].
    apply ap_weaken with (k := mul_err 2 0 (/ 2) 4.16); [lra | apply ap_mul; try assumption; try lra; num | num]. }
  assert (ap 1 (i 2%Z -f i 2%Z *f Al) (2 - 2 * a) 2 13.5) as M12.
  { apply ap_bound with (A := 2 + 1); [| rewrite Rabs_pos_eq; lra].
    apply ap_weaken with (k := add_err 2 0 1 10.4); [lra | apply ap_sub; try assumption; try lra; num | num]. }
  unfold mat_vec.
  assert (ap S (dot4 (V := V) (Bopp Al, i 1%Z, Bopp (i 1%Z) *f Al, zero) (ym, y0, y1, zero))
    (- a * B2R ym + 1 * B2R y0 + - (1) * a * B2R y1 + 0 * 0) 2 22) as R0.
  { eapply ap_dot; try eassumption; try lra; try num.
    apply (row_bound S _ _ _ _ _ _ _ _ a 1 a 0); try assumption; try lra; apply Rabs_le; lra. }
  assert (ap S (dot4 (V := V) (i 2%Z *f Al, i (-2)%Z, i 2%Z -f i 2%Z *f Al, zero) (ym, y0, y1, zero))
    (2 * a * B2R ym + -2 * B2R y0 + (2 - 2 * a) * B2R y1 + 0 * 0) 4 47) as R1.
  { eapply ap_dot; try eassumption; try lra; try num.
    apply (row_bound S _ _ _ _ _ _ _ _ (2 * a) 2 (2 - 2 * a) 0); try assumption; try lra; apply Rabs_le; lra. }
  assert (ap S (dot4 (V := V) (Bopp Al, zero, Al, zero) (ym, y0, y1, zero))
    (- a * B2R ym + 0 * B2R y0 + a * B2R y1 + 0 * 0) 1 16.1) as R2.
  { eapply ap_dot; try eassumption; try lra; try num.
    apply (row_bound S _ _ _ _ _ _ _ _ a 0 a 0); try assumption; try lra; apply Rabs_le; lra. }
  assert (ap S (dot4 (V := V) (zero, i 1%Z, zero, zero) (ym, y0, y1, zero))
    (0 * B2R ym + 1 * B2R y0 + 0 * B2R y1 + 0 * 0) 1 8.1) as R3.
  { eapply ap_dot; try eassumption; try lra; try num.
    apply (row_bound S _ _ _ _ _ _ _ _ 0 1 0 0); try assumption; try lra; apply Rabs_le; lra. }
  eapply ap_value; [eapply (ap_dot S); try eassumption; try lra; try num |].
  - apply (col_bound S _ _ _ _ _ _ _ 2 4 1 1); [lra | apply HD3 | apply HD2 | apply HD | apply R0 | apply R1 | apply R2 | apply R3 | lra].
  - unfold creal. ring.
Qed.
End Errors.

(** ** From queries to cells *)

Lemma rising_find prec emax Hp He e (xs : list (binary_float prec emax)) x : rising xs -> is_finite x = true -> (2 <= length xs)%nat ->
  B2R (nth 0 xs B754_nan) <= B2R x <= B2R (nth (length xs - 1) xs B754_nan) ->
  exists i, find_index (V := FV prec emax Hp He e) (fun y => y) xs x = Ret (Ok i) /\ (i + 1 < length xs)%nat
    /\ B2R (nth i xs B754_nan) <= B2R x <= B2R (nth (i + 1) xs B754_nan).
Proof.
  intros Rs Fx L [H0 H1].
  assert (forall k, (k < length xs)%nat -> is_finite (nth k xs B754_nan) = true) as Fk by (intros k Hk; apply (proj1 Rs), nth_In, Hk).
  assert (xs <> []) as Ne by (destruct xs; [simpl in L; lia | discriminate]).
  destruct (find_line prec emax Hp He e xs x (rising_line prec emax xs Rs) Ne (not_nan prec emax x Fx)) as (_ & _ & C).
  assert (hd B754_nan xs = nth 0 xs B754_nan) as Eh by (destruct xs; reflexivity).
  assert (last xs B754_nan = nth (length xs - 1) xs B754_nan) as El.
  { clear -Ne. induction xs as [| a [| b t] IH]; [congruence | reflexivity |].
    change (last (a :: b :: t) B754_nan) with (last (b :: t) B754_nan). rewrite IH by discriminate. simpl length.
    replace (S (S (length t)) - 1)%nat with (S (S (length t) - 1))%nat by lia. reflexivity. }
  destruct C as (i & Fi & Le & _ & Nx).
  { rewrite Eh, Bltb_correct by (auto; apply Fk; lia). now apply Rlt_bool_false. }
  { rewrite El, Bltb_correct by (auto; apply Fk; lia). now apply Rlt_bool_false. }
  destruct (find_index_total (V := FV prec emax Hp He e) (fun y => y) xs x) as (r & Er & Bi & _).
  rewrite Fi in Er. injection Er as <-.
  assert (i + 1 < length xs)%nat as Hi by (destruct (Bi i eq_refl) as [A B]; cbn [FV carrier] in *; lia).
  specialize (Nx Hi). rewrite Bleb_correct in Le, Nx by (auto; apply Fk; lia).
  exists i. split; [exact Fi |]. split; [exact Hi |]. split; [revert Le | revert Nx]; case Rle_bool_spec; easy.
Qed.

(** Points with slopes as real numbers. *)
Definition reals3 {prec emax} (pts : list (binary_float prec emax * binary_float prec emax * binary_float prec emax)) : list (R * R * R) :=
  map (fun p => (B2R (fst (fst p)), B2R (snd (fst p)), B2R (snd p))) pts.

Section Points.
Variables prec emax : Z.
Context (Hp : Prec_gt_0 prec) (He : Prec_lt_emax prec emax).
Notation fl := (binary_float prec emax).
Variable e : fl -> fl.
Notation V := (FV prec emax Hp He e).

Lemma nth_reals3 (pts : list (fl * fl * fl)) i :
  hx (reals3 pts) i = B2R (fst (fst (nth i pts (B754_nan, B754_nan, B754_nan))))
  /\ hy (reals3 pts) i = B2R (snd (fst (nth i pts (B754_nan, B754_nan, B754_nan))))
  /\ hm (reals3 pts) i = B2R (snd (nth i pts (B754_nan, B754_nan, B754_nan))).
Proof.
  unfold hx, hy, hm, reals3.
  change (0, 0, 0) with ((fun p : fl * fl * fl => (B2R (fst (fst p)), B2R (snd (fst p)), B2R (snd p))) (B754_nan, B754_nan, B754_nan)).
  rewrite map_nth. auto.
Qed.

Lemma rising_increasing3 (pts : list (fl * fl * fl)) : rising (map (fun p => fst (fst p)) pts) -> h_increasing (reals3 pts).
Proof.
  intros Rs i j H. unfold reals3 in H. rewrite map_length in H. rewrite !(proj1 (nth_reals3 pts _)).
  pose proof (rising_lt prec emax _ Rs i j ltac:(rewrite map_length; lia)) as Q.
  set (z := (B754_nan, B754_nan, B754_nan) : fl * fl * fl).
  now rewrite <- (map_nth (fun p => fst (fst p)) pts z i), <- (map_nth (fun p => fst (fst p)) pts z j).
Qed.

Lemma catmull_cell (pts : list (fl * fl)) x i : (3 <= length pts)%nat -> (i + 1 < length pts)%nat -> in_order (V := V) fst pts ->
  find_index (V := V) (fun y => y) (map fst pts) x = Ret (Ok i) ->
  let p k := nth k pts (B754_nan, B754_nan) in
  fit_eval (CatmullRom V) pts x = Ret (Ok (
    if (i =? 0)%nat then cfirst prec emax Hp He e x (fst (p i)) (snd (p i)) (fst (p (i + 1)%nat)) (snd (p (i + 1)%nat)) (fst (p (i + 2)%nat)) (snd (p (i + 2)%nat))
    else if (i + 2 =? length pts)%nat then
      clast prec emax Hp He e x (fst (p (i - 1)%nat)) (snd (p (i - 1)%nat)) (fst (p i)) (snd (p i)) (fst (p (i + 1)%nat)) (snd (p (i + 1)%nat))
    else cinner prec emax Hp He e x (fst (p (i - 1)%nat)) (snd (p (i - 1)%nat)) (fst (p i)) (snd (p i)) (fst (p (i + 1)%nat)) (snd (p (i + 1)%nat))
      (fst (p (i + 2)%nat)) (snd (p (i + 2)%nat)))).
Proof.
  intros L Hi O Fi p.
  destruct (C33_fit V pts (i_default (CatmullRom V)) (fv_irr prec emax Hp He e)) as [(L' & _) | [(_ & O' & _) | (_ & _ & F)]]; [cbn [FV carrier] in *; lia | tauto |].
  unfold fit_eval. rewrite F. cbn [bind try_res i_try_value CatmullRom]. unfold catmull_rom_try_value.
  set (l := map (fun xy : V * V => mkPoint (fst xy) (snd xy)) pts : list (Point2D V)).
  assert (@map (V * V) V fst pts = map p_x l) as El by (unfold l; rewrite map_map; reflexivity).
  assert (find_index (V := V) p_x l x = Ret (Ok i)) as Fi' by (rewrite (find_index_map (V := V)), <- El; exact Fi).
  match goal with |- context [@index ?T ?t _] => change t with l end. match goal with |- context [find_index (V := V) p_x ?t x] => change t with l end.
  rewrite Fi'. cbn [bind try_res].
  assert (@length (Point2D V) l = length pts) as Ll by apply map_length.
  set (z := mkPoint (B754_nan : V) (B754_nan : V) : Point2D V).
  assert (forall k, nth k l z = mkPoint (fst (p k) : V) (snd (p k) : V)) as En
    by (intros k; apply (map_nth (fun xy : V * V => mkPoint (fst xy) (snd xy)) pts (B754_nan, B754_nan) k)).
  assert (forall k, (k < length pts)%nat -> @index (Point2D V) l k = Ret (mkPoint (fst (p k) : V) (snd (p k) : V))) as Ix
    by (intros k Hk; rewrite (index_some l k z) by (rewrite Ll; exact Hk); now rewrite En).
  rewrite (Ix i) by lia. cbn [bind]. rewrite (Ix (i + 1)%nat) by lia. cbn [bind].
  destruct (Nat.eqb_spec i 0) as [-> | N0].
  - rewrite (Ix (0 + 2)%nat) by lia. reflexivity.
  - rewrite Ll.
    destruct (Nat.eqb_spec (i + 2) (length pts)) as [E2 | N2].
    + rewrite (Ix (i - 1)%nat) by lia. reflexivity.
    + rewrite (Ix (i - 1)%nat) by lia. cbn [bind]. rewrite (Ix (i + 2)%nat) by lia. reflexivity.
Qed.
End Points.

(** ** C99 *)

(** A Hermite interpolation of numbers of moderate size is finite and off by at most 280 rounding errors of the
    largest of the two ordinates and the two slopes times the width. *)
Theorem C99_hermite : forall prec emax Hp He e (pts : list (binary_float prec emax * binary_float prec emax * binary_float prec emax)) x,
  (8 <= prec)%Z -> (2 <= length pts)%nat -> rising (map (fun p => fst (fst p)) pts) ->
  (forall p, In p pts -> Rabs (B2R (fst (fst p))) <= bpow radix2 (emax - 7) /\ is_finite (snd (fst p)) = true /\ is_finite (snd p) = true) ->
  is_finite x = true -> hx (reals3 pts) 0 <= B2R x <= hx (reals3 pts) (length pts - 1) ->
  exists i v H, (i + 1 < length pts)%nat /\ hx (reals3 pts) i <= B2R x <= hx (reals3 pts) (i + 1)
    /\ hermite_eval (V := FV prec emax Hp He e) pts x = Ret (Ok v)
    /\ hermite_eval (V := RV) (reals3 pts) (B2R x) = Ret (Ok H)
    /\ forall S, let h := hx (reals3 pts) (i + 1) - hx (reals3 pts) i in
       S <= bpow radix2 (emax - 7) -> Rabs (hy (reals3 pts) i) <= S -> Rabs (hy (reals3 pts) (i + 1)) <= S ->
       Rabs (hm (reals3 pts) i * h) <= S -> Rabs (hm (reals3 pts) (i + 1) * h) <= S ->
       is_finite v = true /\ Rabs (B2R v - H) <= 280 * (bpow radix2 (- prec) * S + bpow radix2 (2 - emax - prec)).
Proof.
  intros prec emax Hp He e pts x H8 L Rs HP Fx Hx.
  set (z := (B754_nan, B754_nan, B754_nan) : binary_float prec emax * binary_float prec emax * binary_float prec emax).
  set (xs := map (fun p => fst (fst p)) pts) in *. assert (length xs = length pts) as Lx by apply map_length.
  assert (forall k, nth k xs B754_nan = fst (fst (nth k pts z))) as En by (intros k; apply (map_nth (fun p => fst (fst p)) pts z k)).
  rewrite !(proj1 (nth_reals3 prec emax pts _)) in Hx. fold z in Hx. rewrite <- !En, <- Lx in Hx.
  destruct (rising_find prec emax Hp He e xs x Rs Fx ltac:(lia) Hx) as (i & Fi & Hi & Bx). rewrite Lx in Hi.
  pose proof (line_in_order prec emax Hp He e (fun p => fst (fst p)) pts (rising_line prec emax xs Rs)) as O.
  pose proof (hermite_cell (V := FV prec emax Hp He e) pts z x i _ _ _ _ (fv_irr prec emax Hp He e)
    eq_refl eq_refl eq_refl eq_refl Hi O Fi) as Ev. cbv zeta in Ev.
  set (p0 := nth i pts z) in *. set (p1 := nth (i + 1) pts z) in *.
  exists i, (hform prec emax Hp He e x (fst (fst p0)) (snd (fst p0)) (snd p0) (fst (fst p1)) (snd (fst p1)) (snd p1)),
    (hpiece (reals3 pts) i (B2R x)).
  split; [exact Hi |]. rewrite !En in Bx. fold p0 p1 in Bx.
  destruct (nth_reals3 prec emax pts i) as (Ex0 & Ey0 & Em0). destruct (nth_reals3 prec emax pts (i + 1)) as (Ex1 & Ey1 & Em1).
  fold z in Ex0, Ey0, Em0, Ex1, Ey1, Em1. fold p0 in Ex0, Ey0, Em0. fold p1 in Ex1, Ey1, Em1.
  assert (hx (reals3 pts) i <= B2R x <= hx (reals3 pts) (i + 1)) as Bx' by (now rewrite Ex0, Ex1).
  split; [exact Bx' |]. split; [exact Ev |].
  pose proof (rising_increasing3 prec emax pts Rs) as Inc. assert (length (reals3 pts) = length pts) as Lr by apply map_length.
  split; [apply hermite_closed; [exact Inc | lia | exact Bx'] |].
  assert (hx (reals3 pts) i < hx (reals3 pts) (i + 1)) as Lt by (apply Inc; lia).
  intros S h HS Y0 Y1 M0 M1. unfold h in *. clear h.
  assert (In p0 pts) as I0 by (apply nth_In; lia). assert (In p1 pts) as I1 by (apply nth_In; lia).
  destruct (HP p0 I0) as (B0 & G0 & N0). destruct (HP p1 I1) as (B1 & G1 & N1).
  assert (is_finite (fst (fst p0)) = true) as F0 by (apply (proj1 Rs); unfold xs; apply (in_map (fun p => fst (fst p))); exact I0).
  assert (is_finite (fst (fst p1)) = true) as F1 by (apply (proj1 Rs); unfold xs; apply (in_map (fun p => fst (fst p))); exact I1).
  rewrite Ex0, Ex1, ?Ey0, ?Ey1, ?Em0, ?Em1 in *.
  assert (0 <= S) as PS by (eapply Rle_trans; [apply Rabs_pos | exact Y0]).
  destruct (hform_near prec emax Hp He H8 e S x _ _ _ _ _ _ (conj PS HS) Fx F0 F1 G0 G1 N0 N1 B0 B1 Bx Lt Y0 Y1 M0 M1) as (Fv & _ & Er).
  split; [exact Fv |].
  match type of Er with Rabs (_ - ?a) <= _ => replace (hpiece (reals3 pts) i (B2R x)) with a; [exact Er |] end.
  unfold hreal, hpiece, hA, hB. rewrite Ex0, Ex1, Ey0, Ey1, Em0, Em1. field. lra.
Qed.
Print Assumptions C99_hermite.

(** A Catmull-Rom interpolation of numbers of moderate size is finite and off by at most 310 rounding errors of the
    largest of the three or four ordinates around the cell. *)
Theorem C99_catmull_rom : forall prec emax Hp He e (pts : list (binary_float prec emax * binary_float prec emax)) x,
  (8 <= prec)%Z -> (3 <= length pts)%nat -> rising (map fst pts) ->
  (forall p, In p pts -> Rabs (B2R (fst p)) <= bpow radix2 (emax - 7) /\ is_finite (snd p) = true) ->
  is_finite x = true -> gx (reals pts) 0 <= B2R x <= gx (reals pts) (length pts - 1) ->
  exists i v C, (i + 1 < length pts)%nat /\ gx (reals pts) i <= B2R x <= gx (reals pts) (i + 1)
    /\ fit_eval (CatmullRom (FV prec emax Hp He e)) pts x = Ret (Ok v)
    /\ fit_eval (CatmullRom RV) (reals pts) (B2R x) = Ret (Ok C)
    /\ forall S, S <= bpow radix2 (emax - 7) -> (forall k, (i - 1 <= k <= i + 2)%nat -> (k < length pts)%nat -> Rabs (gy (reals pts) k) <= S) ->
       is_finite v = true /\ Rabs (B2R v - C) <= 310 * (bpow radix2 (- prec) * S + bpow radix2 (2 - emax - prec)).
Proof.
  intros prec emax Hp He e pts x H8 L Rs HP Fx Hx.
  set (z := (B754_nan, B754_nan) : binary_float prec emax * binary_float prec emax).
  set (xs := map fst pts) in *. assert (length xs = length pts) as Lx by apply map_length.
  assert (forall k, nth k xs B754_nan = fst (nth k pts z)) as En by (intros k; apply (map_nth fst pts z k)).
  rewrite !gx_reals in Hx. fold z in Hx. rewrite <- !En, <- Lx in Hx.
  destruct (rising_find prec emax Hp He e xs x Rs Fx ltac:(lia) Hx) as (i & Fi & Hi & Bx). rewrite Lx in Hi.
  pose proof (line_in_order prec emax Hp He e fst pts (rising_line prec emax xs Rs)) as O.
  pose proof (catmull_cell prec emax Hp He e pts x i L Hi O Fi) as Ev. cbv zeta in Ev. fold z in Ev.
  exists i. eexists. exists (cpiece (reals pts) i (B2R x)). split; [exact Hi |].
  assert (gx (reals pts) i <= B2R x <= gx (reals pts) (i + 1)) as Bx' by (rewrite !gx_reals; fold z; now rewrite <- !En).
  split; [exact Bx' |]. split; [exact Ev |]. clear Ev.
  pose proof (rising_increasing prec emax pts Rs) as Inc. assert (length (reals pts) = length pts) as Lr by apply map_length.
  split; [apply cr_closed; [exact Inc | lia | lia | exact Bx'] |].
  intros S HS HY.
  assert (0 <= S) as PS by (eapply Rle_trans; [apply Rabs_pos | apply (HY i); lia]).
  assert (forall k, (k < length pts)%nat -> In (nth k pts z) pts) as Ik by (intros k Hk; now apply nth_In).
  assert (forall k, (k < length pts)%nat -> is_finite (fst (nth k pts z)) = true) as Fk
    by (intros k Hk; apply (proj1 Rs); unfold xs; apply in_map, Ik, Hk).
  assert (forall k, (k < length pts)%nat -> Rabs (B2R (fst (nth k pts z))) <= large emax) as Bk by (intros k Hk; apply (HP _ (Ik k Hk))).
  assert (forall k, (k < length pts)%nat -> is_finite (snd (nth k pts z)) = true) as Gk by (intros k Hk; apply (HP _ (Ik k Hk))).
  assert (forall k, (i - 1 <= k <= i + 2)%nat -> (k < length pts)%nat -> Rabs (B2R (snd (nth k pts z))) <= S) as Yk
    by (intros k Hk Hk'; pose proof (HY k Hk Hk') as Q; rewrite gy_reals in Q; exact Q).
  assert (forall k j, (k < j)%nat -> (j < length pts)%nat -> B2R (fst (nth k pts z)) < B2R (fst (nth j pts z))) as Lt.
  { intros k j Hkj Hj. pose proof (Inc k j ltac:(lia)) as Q. now rewrite !gx_reals in Q. }
  assert (B2R (fst (nth i pts z)) <= B2R x <= B2R (fst (nth (i + 1) pts z))) as Bx'' by (now rewrite !En in Bx).
  unfold cpiece, k3, k2, k1, calpha, cbeta, ch. rewrite Lr, !gx_reals, !gy_reals. fold z.
  pose proof (Lt i (i + 1)%nat ltac:(lia) ltac:(lia)) as L01.
  destruct (Nat.eqb_spec i 0) as [E0 | N0]; [| destruct (Nat.eqb_spec (i + 2) (length pts)) as [E2 | N2]].
  - pose proof (Lt (i + 1)%nat (i + 2)%nat ltac:(lia) ltac:(lia)) as L12.
    destruct (cfirst_near prec emax Hp He H8 e S x (fst (nth i pts z)) (snd (nth i pts z)) (fst (nth (i + 1) pts z)) (snd (nth (i + 1) pts z))
      (fst (nth (i + 2) pts z)) (snd (nth (i + 2) pts z)) (conj PS HS) Fx) as (Fv & _ & Er);
      try (apply Fk; lia); try (apply Gk; lia); try (apply Bk; lia); try (apply Yk; lia); try assumption.
    split; [exact Fv |]. match type of Er with Rabs (_ - ?a) <= _ => match goal with |- Rabs (_ - ?b) <= _ => replace b with a; [exact Er |] end end.
    unfold creal. field. lra.
  - pose proof (Lt (i - 1)%nat i ltac:(lia) ltac:(lia)) as Lm.
    destruct (clast_near prec emax Hp He H8 e S x (fst (nth (i - 1) pts z)) (snd (nth (i - 1) pts z)) (fst (nth i pts z)) (snd (nth i pts z))
      (fst (nth (i + 1) pts z)) (snd (nth (i + 1) pts z)) (conj PS HS) Fx) as (Fv & _ & Er);
      try (apply Fk; lia); try (apply Gk; lia); try (apply Bk; lia); try (apply Yk; lia); try assumption.
    split; [exact Fv |]. match type of Er with Rabs (_ - ?a) <= _ => match goal with |- Rabs (_ - ?b) <= _ => replace b with a; [exact Er |] end end.
    unfold creal. field. lra.
  - pose proof (Lt (i - 1)%nat i ltac:(lia) ltac:(lia)) as Lm. pose proof (Lt (i + 1)%nat (i + 2)%nat ltac:(lia) ltac:(lia)) as L12.
    destruct (cinner_near prec emax Hp He H8 e S x (fst (nth (i - 1) pts z)) (snd (nth (i - 1) pts z)) (fst (nth i pts z)) (snd (nth i pts z))
      (fst (nth (i + 1) pts z)) (snd (nth (i + 1) pts z)) (fst (nth (i + 2) pts z)) (snd (nth (i + 2) pts z)) (conj PS HS) Fx) as (Fv & _ & Er);
      try (apply Fk; lia); try (apply Gk; lia); try (apply Bk; lia); try (apply Yk; lia); try assumption.
    split; [exact Fv |]. match type of Er with Rabs (_ - ?a) <= _ => match goal with |- Rabs (_ - ?b) <= _ => replace b with a; [exact Er |] end end.
    unfold creal. field. lra.
Qed.
Print Assumptions C99_catmull_rom.

(** Three points with slopes -5, 1, 0 at 0, 2, 49 in binary64, queried at 1. *)
Example C99_case : forall e, let i z := of_int 53 1024 Hp53 He1024 z in
  (exists v H, hermite_eval (V := F64 e) [(i 0, i 1, i (-5)); (i 2, i 3, i 1); (i 49, i 10, i 0)]%Z (i 1%Z) = Ret (Ok v)
     /\ hermite_eval (V := RV) [(0, 1, -5); (2, 3, 1); (49, 10, 0)] 1 = Ret (Ok H) /\ is_finite v = true /\ Rabs (B2R v - H) <= bpow radix2 (-38))
  /\ exists v C, fit_eval (CatmullRom (F64 e)) [(i 0, i 1); (i 2, i 3); (i 49, i 10)]%Z (i 1%Z) = Ret (Ok v)
     /\ fit_eval (CatmullRom RV) [(0, 1); (2, 3); (49, 10)] 1 = Ret (Ok C) /\ is_finite v = true /\ Rabs (B2R v - C) <= bpow radix2 (-38).
Proof.
  intros e i.
  assert (forall z, (Z.abs z < 1000)%Z -> B2R (i z) = IZR z /\ is_finite (i z) = true) as I by (intros z Hz; apply of_int_correct; lia).
  assert (forall z, (Z.abs z < 1000)%Z -> Rabs (B2R (i z)) <= bpow radix2 (1024 - 7)) as B.
  { intros z Hz. rewrite (proj1 (I z Hz)), <- abs_IZR. apply Rle_trans with (bpow radix2 10); [| apply bpow_le; lia].
    change (bpow radix2 10) with (IZR 1024). apply IZR_le. lia. }
  assert (forall K, K <= 310 -> K * (bpow radix2 (- (53)) * 100 + bpow radix2 (2 - 1024 - 53)) <= bpow radix2 (-38)) as Small.
  { intros K HK. pose proof (bpow_gt_0 radix2 (2 - 1024 - 53)) as P0. pose proof (bpow_gt_0 radix2 (- (53))) as P1.
    assert (bpow radix2 (2 - 1024 - 53) <= bpow radix2 (- (53))) as P2 by (apply bpow_le; lia).
    change (bpow radix2 (-38)) with (bpow radix2 (- (53) + 15)). rewrite bpow_plus. change (bpow radix2 15) with 32768. nra. }
  split.
  - set (pts := [(i 0, i 1, i (-5)); (i 2, i 3, i 1); (i 49, i 10, i 0)]%Z).
    assert (reals3 pts = [(0, 1, -5); (2, 3, 1); (49, 10, 0)]) as Er.
    { unfold reals3, pts. cbn [map fst snd]. now rewrite (proj1 (I (0)%Z eq_refl)), (proj1 (I (1)%Z eq_refl)), (proj1 (I (-5)%Z eq_refl)), (proj1 (I (2)%Z eq_refl)),
        (proj1 (I (3)%Z eq_refl)), (proj1 (I (49)%Z eq_refl)), (proj1 (I (10)%Z eq_refl)). }
    destruct (C99_hermite 53 1024 Hp53 He1024 e pts (i 1%Z)) as (k & v & H & Hk & _ & Ev & EH & Er'); try rewrite Er.
    + lia.
    + simpl; lia.
    + split.
      * intros y [<- | [<- | [<- | []]]]; vm_compute; reflexivity.
      * intros [| [| [| k]]] a b Ha Hb; try discriminate Hb; try (destruct k; discriminate Hb);
          injection Ha as <-; injection Hb as <-; vm_compute; reflexivity.
    + intros p [<- | [<- | [<- | []]]]; (split; [apply B; lia | split; apply I; lia]).
    + apply I; lia.
    + rewrite (proj1 (I 1%Z eq_refl)). unfold hx. simpl. lra.
    + rewrite Er, (proj1 (I 1%Z eq_refl)) in EH. exists v, H. split; [exact Ev |]. split; [exact EH |].
      rewrite Er in Er'. specialize (Er' 100). cbv zeta in Er'. destruct Er' as (Fv & Bv).
      * apply Rle_trans with (bpow radix2 7); [change (bpow radix2 7) with 128; lra | apply bpow_le; lia].
      * unfold hy. destruct k as [| [| k]]; [| | simpl in Hk; lia]; simpl; apply Rabs_le; lra.
      * unfold hy. destruct k as [| [| k]]; [| | simpl in Hk; lia]; simpl; apply Rabs_le; lra.
      * unfold hm, hx. destruct k as [| [| k]]; [| | simpl in Hk; lia]; simpl; apply Rabs_le; lra.
      * unfold hm, hx. destruct k as [| [| k]]; [| | simpl in Hk; lia]; simpl; apply Rabs_le; lra.
      * split; [exact Fv |]. eapply Rle_trans; [exact Bv | apply Small; lra].
  - set (pts := [(i 0, i 1); (i 2, i 3); (i 49, i 10)]%Z).
    assert (reals pts = [(0, 1); (2, 3); (49, 10)]) as Er.
    { unfold reals, pts. cbn [map fst snd]. now rewrite (proj1 (I (0)%Z eq_refl)), (proj1 (I (1)%Z eq_refl)), (proj1 (I (2)%Z eq_refl)),
        (proj1 (I (3)%Z eq_refl)), (proj1 (I (49)%Z eq_refl)), (proj1 (I (10)%Z eq_refl)). }
    destruct (C99_catmull_rom 53 1024 Hp53 He1024 e pts (i 1%Z)) as (k & v & C & Hk & _ & Ev & EC & Er'); try rewrite Er.
    + lia.
    + simpl; lia.
    + split.
      * intros y [<- | [<- | [<- | []]]]; vm_compute; reflexivity.
      * intros [| [| [| k]]] a b Ha Hb; try discriminate Hb; try (destruct k; discriminate Hb);
          injection Ha as <-; injection Hb as <-; vm_compute; reflexivity.
    + intros p [<- | [<- | [<- | []]]]; (split; [apply B; lia | apply I; lia]).
    + apply I; lia.
    + rewrite (proj1 (I 1%Z eq_refl)). unfold gx. simpl. lra.
    + rewrite Er, (proj1 (I 1%Z eq_refl)) in EC. exists v, C. split; [exact Ev |]. split; [exact EC |].
      rewrite Er in Er'. destruct (Er' 100) as (Fv & Bv).
      * apply Rle_trans with (bpow radix2 7); [change (bpow radix2 7) with 128; lra | apply bpow_le; lia].
      * intros j _ Hj. unfold gy. destruct j as [| [| [| j]]]; [| | | simpl in Hj; lia]; simpl; apply Rabs_le; lra.
      * split; [exact Fv |]. eapply Rle_trans; [exact Bv | apply Small; lra].
Qed.
