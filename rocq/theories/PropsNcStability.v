(** Natural cubic parts of C91 - C93: how far the spline and its curves move with the data. *)
From Coq Require Import ZArith Reals List Arith Lia Lra.
From Verif Require Import Base Chrono DateModel DateFacts Value RealValue DayCountModel InterpModel InterpFacts CurveModel BondModel
  Gregorian Grid PropsDate PropsDayCount PropsLinear PropsHermite PropsCatmullRom PropsNaturalCubic PropsCurve PropsBond PropsShift PropsRisk
  PropsStability TriFacts PropsTri NcFacts.
Import ListNotations.
Open Scope R_scope.

(** ** Specification *)

(** Neighbouring abscissas are between [h] and [r * h] apart. *)
Definition mesh (h r : R) (p : list (R * R)) : Prop :=
  forall i, (i + 1 < length p)%nat -> h <= gx p (i + 1) - gx p i <= r * h.

(** ** Lemmas *)

Lemma cancel_le c a b : 0 < c -> c * a <= c * b -> a <= b.
Proof. intros H. apply Rmult_le_reg_l, H. Qed.

Lemma last_max (f : nat -> R) N : exists k, (k <= N)%nat /\ forall j, (j <= N)%nat -> f j <= f k.
Proof.
  induction N as [| N (k & Hk & M)].
  - exists 0%nat. split; [lia |]. intros j Hj. replace j with 0%nat by lia. lra.
  - destruct (Rle_lt_dec (f (S N)) (f k)) as [C | C].
    + exists k. split; [lia |]. intros j Hj. destruct (Nat.eq_dec j (S N)) as [-> | Ne]; [exact C | apply M; lia].
    + exists (S N). split; [lia |]. intros j Hj. destruct (Nat.eq_dec j (S N)) as [-> | Ne]; [lra |].
      pose proof (M j ltac:(lia)). lra.
Qed.

Lemma recip_le e a b h : 0 <= e -> 0 < h -> h <= a -> h <= b -> e / a + e / b <= e / h ^ 2 * (a + b).
Proof.
  intros He Hh Ha Hb.
  assert (e / a + e / b = e * (a + b) * / (a * b)) as -> by (field; lra).
  assert (e / h ^ 2 * (a + b) = e * (a + b) * / (h * h)) as -> by (field; lra).
  apply Rmult_le_compat_l; [apply Rmult_le_pos; lra |]. apply Rinv_le_contravar; [apply Rmult_lt_0_compat; lra |].
  apply Rmult_le_compat; lra.
Qed.

Lemma div_abs y e a : 0 < a -> Rabs y <= e -> Rabs (y / a) <= e / a.
Proof.
  intros Ha Hy. unfold Rdiv. rewrite Rabs_mult, Rabs_inv, (Rabs_pos_eq a) by lra.
  apply Rmult_le_compat_r; [left; now apply Rinv_0_lt_compat | exact Hy].
Qed.

(** The change of slope at a knot. *)
Lemma bend_small eps a b h y0 y1 y2 : 0 < h -> h <= a -> h <= b -> Rabs y0 <= eps -> Rabs y1 <= eps -> Rabs y2 <= eps ->
  Rabs ((y2 - y1) / b - (y1 - y0) / a) <= 2 * (eps / h ^ 2) * (a + b).
Proof.
  intros Hh Ha Hb Y0 Y1 Y2. pose proof (Rabs_pos y0) as P0.
  pose proof (recip_le (2 * eps) a b h ltac:(lra) Hh Ha Hb) as B.
  pose proof (div_abs (y2 - y1) (2 * eps) b ltac:(lra) ltac:(apply abs_inv in Y1, Y2; apply Rabs_le; lra)) as B2.
  pose proof (div_abs (y1 - y0) (2 * eps) a ltac:(lra) ltac:(apply abs_inv in Y1, Y0; apply Rabs_le; lra)) as B1.
  replace (2 * (eps / h ^ 2)) with (2 * eps / h ^ 2) by (field; lra).
  apply abs_inv in B1, B2. apply Rabs_le. lra.
Qed.

(** One row of the system where its unknown is the largest. *)
Lemma row_max a b x0 x1 x2 t e : 0 < a -> 0 < b -> a / 6 * x0 + (a + b) / 3 * x1 + b / 6 * x2 = t ->
  Rabs t <= 2 * e * (a + b) -> Rabs x0 <= Rabs x1 -> Rabs x2 <= Rabs x1 -> Rabs x1 <= 12 * e.
Proof.
  intros Ha Hb E T H0 H2.
  assert ((a + b) / 3 * Rabs x1 <= Rabs t + a / 6 * Rabs x0 + b / 6 * Rabs x2) as B.
  { replace ((a + b) / 3 * Rabs x1) with (Rabs ((a + b) / 3 * x1)) by (rewrite Rabs_mult, (Rabs_pos_eq ((a + b) / 3)) by lra; reflexivity).
    replace ((a + b) / 3 * x1) with (t - a / 6 * x0 - b / 6 * x2) by lra.
    replace (a / 6 * Rabs x0) with (Rabs (a / 6 * x0)) by (rewrite Rabs_mult, (Rabs_pos_eq (a / 6)) by lra; reflexivity).
    replace (b / 6 * Rabs x2) with (Rabs (b / 6 * x2)) by (rewrite Rabs_mult, (Rabs_pos_eq (b / 6)) by lra; reflexivity).
    pose proof (Rabs_triang (t - a / 6 * x0) (- (b / 6 * x2))) as T1. pose proof (Rabs_triang t (- (a / 6 * x0))) as T2.
    rewrite Rabs_Ropp in T1, T2. unfold Rminus in *. lra. }
  apply (cancel_le ((a + b) / 6)); [lra |].
  assert (a / 6 * Rabs x0 <= a / 6 * Rabs x1) by (apply Rmult_le_compat_l; lra).
  assert (b / 6 * Rabs x2 <= b / 6 * Rabs x1) by (apply Rmult_le_compat_l; lra). lra.
Qed.

(** The last row, whose pivot is smaller by [a / 6] at most. *)
Lemma row_last_small a b x0 x1 t e k : 0 < a -> 0 < b -> a / 6 * x0 + (a + b) / 3 * x1 - t = a / 6 * k * x1 ->
  Rabs k <= 1 -> Rabs t <= 2 * e * (a + b) -> Rabs x0 <= 12 * e -> Rabs x1 <= 24 * e.
Proof.
  intros Ha Hb E K T H0. pose proof (Rabs_pos x0) as P0.
  assert ((a / 6 + b / 3) * Rabs x1 <= Rabs t + a / 6 * Rabs x0) as B.
  { apply Rle_trans with (Rabs (((a + b) / 3 - a / 6 * k) * x1)).
    - rewrite Rabs_mult. apply Rmult_le_compat_r; [apply Rabs_pos |]. apply abs_inv in K.
      rewrite Rabs_pos_eq by nra. nra.
    - replace (((a + b) / 3 - a / 6 * k) * x1) with (t + - (a / 6 * x0)) by lra.
      eapply Rle_trans; [apply Rabs_triang |]. rewrite Rabs_Ropp, Rabs_mult, (Rabs_pos_eq (a / 6)) by lra. lra. }
  apply (cancel_le (a / 6 + b / 3)); [lra |].
  assert (a / 6 * Rabs x0 <= a / 6 * (12 * e)) by (apply Rmult_le_compat_l; lra).
  assert (0 <= b * e) by (apply Rmult_le_pos; lra). lra.
Qed.

(** From four points on: the second derivatives are at most [24 e] when the changes of slope are at most [2 e] per unit. *)
Lemma bounded_seconds e p s : increasing p -> (4 <= length p)%nat -> solved p s -> 0 <= e ->
  (forall i, (i + 2 < length p)%nat ->
     Rabs ((gy p (i + 2) - gy p (i + 1)) / (gx p (i + 2) - gx p (i + 1)) - (gy p (i + 1) - gy p i) / (gx p (i + 1) - gx p i))
     <= 2 * e * ((gx p (i + 1) - gx p i) + (gx p (i + 2) - gx p (i + 1)))) ->
  forall i, (i < length p)%nat -> Rabs (s i) <= 24 * e.
Proof.
  intros H Hn (S0 & S1 & _ & S4 & _) Pp Hb. set (n := length p) in *.
  assert (forall i, (i + 2 < n)%nat -> let a := gx p (i + 1) - gx p i in let b := gx p (i + 2) - gx p (i + 1) in
    0 < a /\ 0 < b /\ exists t, Rabs t <= 2 * e * (a + b)
    /\ jump p s i = a / 6 * s i + (a + b) / 3 * s (i + 1)%nat + b / 6 * s (i + 2)%nat - t) as J.
  { intros i Hi a b. assert (gx p i < gx p (i + 1)) as Ga by (apply H; fold n; lia).
    assert (gx p (i + 1) < gx p (i + 2)) as Gb by (apply H; fold n; lia). split; [unfold a; lra |]. split; [unfold b; lra |].
    exists ((gy p (i + 2) - gy p (i + 1)) / b - (gy p (i + 1) - gy p i) / a). split.
    - apply Hb. exact Hi.
    - unfold a, b in *. rewrite jump_eq by lra. reflexivity. }
  destruct (S4 ltac:(lia)) as (J0 & J1 & pv & (_ & Hp) & J2).
  set (z := fun i => if (i <? n - 2)%nat then s i else 0).
  assert (forall i, (i <= n - 4)%nat -> let a := gx p (i + 1) - gx p i in let b := gx p (i + 2) - gx p (i + 1) in
    0 < a /\ 0 < b /\ exists t, Rabs t <= 2 * e * (a + b) /\ a / 6 * z i + (a + b) / 3 * z (i + 1)%nat + b / 6 * z (i + 2)%nat = t) as Z.
  { intros i Hi a b. destruct (J i ltac:(lia)) as (Pa & Pb & t & Ht & Ej). fold a b in Pa, Pb, Ht, Ej.
    split; [exact Pa |]. split; [exact Pb |]. exists t. split; [exact Ht |]. unfold z.
    rewrite (proj2 (Nat.ltb_lt i (n - 2))), (proj2 (Nat.ltb_lt (i + 1) (n - 2))) by lia.
    destruct (Nat.ltb_spec (i + 2) (n - 2)) as [C | C].
    - rewrite (J0 i ltac:(lia)) in Ej. lra.
    - assert (i = n - 4)%nat as Ei by lia. rewrite <- Ei in J1. rewrite J1 in Ej.
      replace (n - 3 + 1)%nat with (i + 2)%nat in Ej by lia. replace (n - 3)%nat with (i + 1)%nat in Ej by lia.
      replace (n - 2)%nat with (i + 2)%nat in Ej by lia. fold b in Ej. lra. }
  destruct (last_max (fun i => Rabs (z i)) (n - 2)) as (k & Hk & M).
  assert (Rabs (z k) <= 12 * e) as Bk.
  { destruct (Nat.eq_dec k 0) as [-> | K0].
    - unfold z. rewrite (proj2 (Nat.ltb_lt 0 (n - 2))) by lia. rewrite S0, Rabs_R0. lra.
    - destruct (Nat.eq_dec k (n - 2)) as [-> | K1].
      + unfold z. rewrite Nat.ltb_irrefl, Rabs_R0. lra.
      + destruct (Z (k - 1)%nat ltac:(lia)) as (Pa & Pb & t & Ht & Ez).
        replace (k - 1 + 1)%nat with k in * by lia. replace (k - 1 + 2)%nat with (k + 1)%nat in * by lia.
        apply (row_max _ _ _ _ _ t e Pa Pb Ez Ht); apply M; lia. }
  assert (forall i, (i < n - 2)%nat -> Rabs (s i) <= 12 * e) as Low.
  { intros i Hi. pose proof (M i ltac:(lia)) as Mi. cbv beta in Mi. unfold z at 1 in Mi.
    rewrite (proj2 (Nat.ltb_lt i (n - 2))) in Mi by lia. lra. }
  assert (Rabs (s (n - 2)%nat) <= 24 * e) as Last.
  { destruct (J (n - 3)%nat ltac:(lia)) as (Pa & Pb & t & Ht & Ej).
    replace (n - 3 + 1)%nat with (n - 2)%nat in * by lia. replace (n - 3 + 2)%nat with (n - 1)%nat in * by lia.
    rewrite J2, S1 in Ej. set (a := gx p (n - 2) - gx p (n - 3)) in *. set (b := gx p (n - 1) - gx p (n - 2)) in *.
    apply (row_last_small a b (s (n - 3)%nat) (s (n - 2)%nat) t e (a / 6 / pv) Pa Pb); [lra | | exact Ht | apply Low; lia].
    assert (0 < Rabs pv) by lra. unfold Rdiv at 1. rewrite Rabs_mult, Rabs_inv, (Rabs_pos_eq (a / 6)) by lra.
    apply (cancel_le (Rabs pv)); [lra |]. replace (Rabs pv * (a / 6 * / Rabs pv)) with (a / 6) by (field; lra). lra. }
  intros i Hi. destruct (Nat.lt_ge_cases i (n - 2)) as [C | C]; [pose proof (Low i C); lra |].
  assert (i = n - 2 \/ i = n - 1)%nat as [-> | ->] by lia; [exact Last | rewrite S1, Rabs_R0; lra].
Qed.

Lemma small_seconds eps h p s : increasing p -> (3 <= length p)%nat -> solved p s -> 0 < h ->
  (forall i, (i + 1 < length p)%nat -> h <= gx p (i + 1) - gx p i) ->
  (forall i, (i < length p)%nat -> Rabs (gy p i) <= eps) ->
  forall i, (i < length p)%nat -> Rabs (s i) <= 24 * (eps / h ^ 2).
Proof.
  intros H Hn Sv Hh Hs Hy. pose proof Sv as (S0 & S1 & S3 & _ & _). set (e := eps / h ^ 2). set (n := length p) in *.
  assert (0 <= eps) as Pe by (pose proof (Hy 0%nat ltac:(lia)); pose proof (Rabs_pos (gy p 0)); lra).
  assert (0 <= e) as Pp by (apply div_ge0; [exact Pe | now apply pow_lt]).
  assert (forall i, (i + 2 < n)%nat -> let a := gx p (i + 1) - gx p i in let b := gx p (i + 2) - gx p (i + 1) in
    0 < a /\ 0 < b /\ exists t, Rabs t <= 2 * e * (a + b)
    /\ jump p s i = a / 6 * s i + (a + b) / 3 * s (i + 1)%nat + b / 6 * s (i + 2)%nat - t) as J.
  { intros i Hi a b. pose proof (Hs i ltac:(lia)) as Ga. pose proof (Hs (i + 1)%nat ltac:(fold n; lia)) as Gb.
    replace (i + 1 + 1)%nat with (i + 2)%nat in Gb by lia. fold a in Ga. fold b in Gb. split; [lra |]. split; [lra |].
    exists ((gy p (i + 2) - gy p (i + 1)) / b - (gy p (i + 1) - gy p i) / a). split.
    - apply bend_small; try assumption; apply Hy; lia.
    - unfold a, b in *. rewrite jump_eq by lra. reflexivity. }
  destruct (Nat.eq_dec n 3) as [E3 | N3].
  - assert (Rabs (s 1%nat) <= 9 * e) as B1.
    { specialize (S3 E3). destruct (J 0%nat ltac:(lia)) as (Pa & Pb & t & Ht & Ej). cbn [Nat.add] in *.
      rewrite Ej, S0 in S3. replace (s 2%nat) with 0 in S3 by (rewrite <- S1; f_equal; lia).
      set (a := gx p 1 - gx p 0) in *. set (b := gx p 2 - gx p 1) in *.
      pose proof (Hs 0%nat ltac:(fold n; lia)) as Ga. pose proof (Hs 1%nat ltac:(fold n; lia)) as Gb. cbn [Nat.add] in Ga, Gb.
      fold a in Ga. fold b in Gb.
      pose proof (div_abs (gy p 2) eps b Pb (Hy 2%nat ltac:(lia))) as Y2.
      assert (eps / b <= e * (a + b)) as Y3.
      { pose proof (recip_le eps a b h Pe Hh Ga Gb). assert (0 <= eps / a) by (apply div_ge0; lra). unfold e. lra. }
      apply (cancel_le ((a + b) / 3)); [lra |].
      replace ((a + b) / 3 * Rabs (s 1%nat)) with (Rabs ((a + b) / 3 * s 1%nat))
        by (rewrite Rabs_mult, (Rabs_pos_eq ((a + b) / 3)) by lra; reflexivity).
      replace ((a + b) / 3 * s 1%nat) with (t - gy p 2 / b) by lra.
      apply abs_inv in Ht, Y2. apply Rabs_le. lra. }
    intros i Hi. assert (i = 0 \/ i = 1 \/ i = n - 1)%nat as [-> | [-> | ->]] by lia.
    + rewrite S0, Rabs_R0. lra.
    + lra.
    + rewrite S1, Rabs_R0. lra.
  - apply (bounded_seconds e p s H); [fold n; lia | exact Sv | exact Pp |]. intros i Hi. apply bend_small; try assumption;
      try (apply Hy; fold n in Hi; lia); [apply Hs; fold n in Hi |- *; lia |].
    replace (i + 2)%nat with (i + 1 + 1)%nat by lia. apply Hs. fold n in Hi |- *. lia.
Qed.

(** A cell of the spline, in the fraction [d] of the cell. *)
Lemma q_fraction p s i x d : gx p i < gx p (i + 1) -> x - gx p i = d * (gx p (i + 1) - gx p i) ->
  q p s i x = (1 - d) * gy p i + d * gy p (i + 1)
    - (gx p (i + 1) - gx p i) ^ 2 / 6 * (d * (1 - d)) * ((2 - d) * s i + (1 + d) * s (i + 1)%nat).
Proof. intros H E. unfold q, qa, qc. rewrite E. field. lra. Qed.

(** Small ordinates give small values. *)
Lemma nc_small eps h r p x : increasing p -> (3 <= length p)%nat -> 0 < h -> mesh h r p ->
  (forall i, (i < length p)%nat -> Rabs (gy p i) <= eps) -> in_range p x ->
  exists v, fit_eval (NaturalCubic RV) p x = Ret (Ok v) /\ Rabs v <= (1 + 3 * r ^ 2) * eps.
Proof.
  intros H Hn Hh Hm Hy Hx. destruct (nc_eval p H Hn) as (ds & Ld & Sv & E).
  destruct (nc_cell p x H Hn Hx) as (i & Hi & Ci). rewrite E, (nc_closed p ds i x Ld H Hi Ci).
  set (s := second_of ds) in *. eexists. split; [reflexivity |].
  assert (0 <= eps) as Pe by (pose proof (Hy 0%nat ltac:(lia)); pose proof (Rabs_pos (gy p 0)); lra).
  pose proof (small_seconds eps h p s H Hn Sv Hh (fun i Hi => proj1 (Hm i Hi)) Hy) as B.
  pose proof (B i ltac:(lia)) as B0. pose proof (B (i + 1)%nat Hi) as B1.
  pose proof (Hy i ltac:(lia)) as Y0. pose proof (Hy (i + 1)%nat Hi) as Y1. pose proof (Hm i Hi) as Wi.
  assert (gx p i < gx p (i + 1)) as Lt by (apply H; lia). destruct (fraction _ _ x Lt Ci) as (d & Hd & Ed).
  rewrite (q_fraction p s i x d Lt Ed). set (w := gx p (i + 1) - gx p i) in *. pose proof (quarter d Hd) as Qd.
  apply abs_inv in Y0, Y1, B0, B1. set (S := 24 * (eps / h ^ 2)) in *.
  assert (0 <= S) as PS by lra.
  assert (- (3 * S) <= (2 - d) * s i + (1 + d) * s (i + 1)%nat <= 3 * S) as Bs by (split; nra).
  assert (w ^ 2 <= r ^ 2 * h ^ 2) as W2.
  { replace (r ^ 2 * h ^ 2) with ((r * h) ^ 2) by ring. apply pow_incr. lra. }
  set (m := (2 - d) * s i + (1 + d) * s (i + 1)%nat) in *.
  assert (0 <= w ^ 2 / 6 * (d * (1 - d)) <= w ^ 2 / 24) as Bw.
  { assert (0 <= w ^ 2) by apply pow2_ge_0. split; [apply Rmult_le_pos; lra |]. nra. }
  assert (w ^ 2 / 24 * (3 * S) <= 3 * r ^ 2 * eps) as Bv.
  { replace (w ^ 2 / 24 * (3 * S)) with (w ^ 2 * (3 * (eps / h ^ 2))) by (unfold S; field; lra).
    apply Rle_trans with (r ^ 2 * h ^ 2 * (3 * (eps / h ^ 2))).
    - apply Rmult_le_compat_r; [| exact W2]. unfold S in PS. lra.
    - right. field. lra. }
  set (g := w ^ 2 / 6 * (d * (1 - d))) in *.
  assert (Rabs (g * m) <= w ^ 2 / 24 * (3 * S)) as Bg.
  { rewrite Rabs_mult, (Rabs_pos_eq g) by lra. apply Rmult_le_compat; [lra | apply Rabs_pos | lra | apply Rabs_le; lra]. }
  apply abs_inv in Bg. apply Rabs_le. split; nra.
Qed.

(** The ordinates of [p'] less those of [p]. *)
Definition moved (p p' : list (R * R)) : list (R * R) := tab (fun i => (gx p i, gy p' i - gy p i)) (length p).

Lemma moved_superposed eps p p' : near eps p p' -> superposed 1 1 p (moved p p') p'.
Proof.
  intros (L & N). split; [now rewrite L |]. unfold moved. rewrite tab_length. split; [now rewrite L |]. rewrite L. intros i Hi.
  unfold gx, gy. rewrite tab_nth by exact Hi. cbn [fst snd]. destruct (N i Hi) as (X & _). unfold gx in X.
  split; [now rewrite X |]. split; [now rewrite X |]. unfold gy. ring.
Qed.

Lemma sum_back (u v : R) : 1 * u + 1 * v - u = v.
Proof. ring. Qed.

(** ** C91 *)

(** Natural cubic: with widths between [h] and [r * h] the values move by at most [(1 + 3 r^2) * eps]. *)
Theorem C91_natural_cubic : forall eps h r p p' x, near eps p p' -> increasing p -> (3 <= length p)%nat -> 0 < h -> mesh h r p ->
  gx p 0 <= x <= gx p (last_of p) ->
  exists v v', fit_eval (NaturalCubic RV) p x = Ret (Ok v) /\ fit_eval (NaturalCubic RV) p' x = Ret (Ok v')
    /\ Rabs (v' - v) <= (1 + 3 * r ^ 2) * eps.
Proof.
  intros eps h r p p' x N H Hl Hh Hm Hx. pose proof (near_inc eps p p' N H) as H'.
  pose proof (moved_superposed eps p p' N) as Sp. destruct (superposed_inc _ _ _ _ _ Sp H') as (_ & Hd). pose proof N as (L & Nn).
  assert (length (moved p p') = length p) as Lm by apply tab_length.
  assert (forall i, (i < length p)%nat -> gx (moved p p') i = gx p i /\ gy (moved p p') i = gy p' i - gy p i) as G.
  { intros i Hi. unfold moved, gx, gy. rewrite tab_nth by exact Hi. split; reflexivity. }
  assert (in_range (moved p p') x) as Rm.
  { unfold in_range, last_of. rewrite Lm. destruct (G 0%nat ltac:(lia)) as (-> & _), (G (length p - 1)%nat ltac:(lia)) as (-> & _). exact Hx. }
  assert (in_range p' x) as R'.
  { unfold in_range, last_of. rewrite L. destruct (Nn 0%nat ltac:(lia)) as (-> & _), (Nn (length p - 1)%nat ltac:(lia)) as (-> & _). exact Hx. }
  destruct (C68_natural_cubic 1 1 p (moved p p') p' x Sp H' ltac:(lia) R') as (u & v & E1 & E2 & E3).
  destruct (nc_small eps h r (moved p p') x Hd ltac:(lia) Hh) as (v' & E4 & B).
  - intros i Hi. rewrite Lm in Hi. destruct (G i ltac:(lia)) as (-> & _), (G (i + 1)%nat ltac:(lia)) as (-> & _). now apply Hm.
  - intros i Hi. rewrite Lm in Hi. destruct (G i Hi) as (_ & ->). now apply Nn.
  - exact Rm.
  - exists u, (1 * u + 1 * v). split; [exact E1 |]. split; [exact E3 |].
    pose proof (eq_trans (eq_sym E4) E2) as E. injection E as E. rewrite sum_back, <- E. exact B.
Qed.
Print Assumptions C91_natural_cubic.

(** ** C92 *)

(** Natural cubic: values exceed the largest ordinate in size by a factor of at most [1 + 3 r^2]. *)
Theorem C92_natural_cubic_size : forall h r p x m, increasing p -> (3 <= length p)%nat -> 0 < h -> mesh h r p ->
  gx p 0 <= x <= gx p (last_of p) -> (forall j, (j < length p)%nat -> Rabs (gy p j) <= m) ->
  exists v, fit_eval (NaturalCubic RV) p x = Ret (Ok v) /\ Rabs v <= (1 + 3 * r ^ 2) * m.
Proof. intros h r p x m H Hl Hh Hm Hx Hy. now apply (nc_small m h r p x). Qed.
Print Assumptions C92_natural_cubic_size.

(** Natural cubic from four points on: the range of the ordinates is left by at most [3/2 r^2] times its size. *)
Theorem C92_natural_cubic_range : forall h r p x lo hi, increasing p -> (4 <= length p)%nat -> 0 < h -> mesh h r p ->
  gx p 0 <= x <= gx p (last_of p) -> (forall j, (j < length p)%nat -> lo <= gy p j <= hi) ->
  exists v, fit_eval (NaturalCubic RV) p x = Ret (Ok v)
    /\ lo - 3 / 2 * r ^ 2 * (hi - lo) <= v <= hi + 3 / 2 * r ^ 2 * (hi - lo).
Proof.
  intros h r p x lo hi H Hl Hh Hm Hx Hy. set (mid := (lo + hi) / 2).
  pose proof (raised_map (- mid) p) as Ra. set (p' := map (fun xy => (fst xy, snd xy + - mid)) p) in Ra.
  destruct (C69_natural_cubic_partial (- mid) p p' x Ra H Hl Hx) as (v & E1 & E2). pose proof Ra as (L & Rp).
  destruct (nc_small ((hi - lo) / 2) h r p' x) as (v' & E3 & B).
  - now apply (raised_inc (- mid) p p').
  - lia.
  - exact Hh.
  - intros i Hi. destruct (Rp i ltac:(lia)) as (-> & _), (Rp (i + 1)%nat ltac:(lia)) as (-> & _). apply Hm. lia.
  - intros i Hi. destruct (Rp i ltac:(lia)) as (_ & ->). pose proof (Hy i ltac:(lia)). apply Rabs_le. unfold mid. lra.
  - unfold in_range, last_of. rewrite L. destruct (Rp 0%nat ltac:(lia)) as (-> & _), (Rp (length p - 1)%nat ltac:(lia)) as (-> & _). exact Hx.
  - exists v. split; [exact E1 |]. pose proof (eq_trans (eq_sym E3) E2) as E. injection E as ->. apply abs_inv in B. unfold mid in B. lra.
Qed.
Print Assumptions C92_natural_cubic_range.

(** Not so through three points, even with equal ordinates. *)
Theorem C92_three_points_refuted : exists p x y v, increasing p /\ length p = 3%nat /\ gx p 0 <= x <= gx p (last_of p)
  /\ (forall j, (j < length p)%nat -> gy p j = y) /\ fit_eval (NaturalCubic RV) p x = Ret (Ok v) /\ y < v.
Proof.
  set (p := [(0, 1); (1, 1); (2, 1)]).
  assert (increasing p) as H.
  { intros i j H. unfold gx, p. simpl in H. destruct i as [| [| [| i]]], j as [| [| [| j]]]; simpl; try lra; lia. }
  exists p, (1 / 2), 1. eexists. split; [exact H |]. split; [reflexivity |]. split; [unfold last_of, gx; simpl; lra |].
  split; [intros [| [| [| j]]] Hj; simpl in Hj; try lia; reflexivity |].
  split; [apply (nc_value_ds p 0); [exact H | simpl; lia | simpl; lia | unfold gx, p; simpl; lra] |].
  unfold q, qa, qc. rewrite !nc_ds_nth by (simpl; lia). simpl.
  unfold nc_sol, nc_rhs, nc_diag, mul_entry, nc_coff, nc_cdiag, nc_mm, v_recip, nx, ny, gx, gy, p. simpl. lra.
Qed.
Print Assumptions C92_three_points_refuted.

(** ** C93 *)

(** Natural cubic curves whose maturities are between [g] and [k] days apart: factors move by at most
    exp((1 + 3 (k/g)^2) * eps * (t1 + t2)). *)
Theorem C93_natural_cubic : forall D s (ms : list Date) (ys ys' : list R) eps g k, D = act_360 RV \/ D = act_365 RV ->
  length ms = length ys -> (3 <= length ms)%nat -> a_date s -> (forall m, In m ms -> a_date m) -> (0 < g)%Z ->
  (forall i m m', nth_error ms i = Some m -> nth_error ms (S i) = Some m' -> (g <= date_sub m' m <= k)%Z) ->
  yields_near eps ys ys' ->
  exists c c' t, curve_new D (NaturalCubic RV) s ms ys = Ret (Ok c) /\ curve_new D (NaturalCubic RV) s ms ys' = Ret (Ok c')
    /\ (forall d, D s d = Ret (Ok (t d)))
    /\ forall d1 d2 v, a_date d1 -> a_date d2 -> discount_factor D c d1 d2 = Ret (Ok v) ->
       exists v', discount_factor D c' d1 d2 = Ret (Ok v') /\ within_factor ((1 + 3 * (IZR k / IZR g) ^ 2) * eps * (t d1 + t d2)) v v'.
Proof.
  intros D s ms ys ys' eps g k HD Hl H2 As Am Pg Gap N. destruct (act_clock D s HD As) as (t & Ht & Ts & Mono).
  assert (exists K, 0 < K /\ forall m, t m = IZR (date_sub m s) / K) as (K & PK & Et).
  { destruct HD as [-> | ->]; [exists 360 | exists 365]; (split; [lra |]); intros m; specialize (Ht m);
      unfold act_360, act_365 in Ht; simpl in Ht; injection Ht as <-; reflexivity. }
  assert (forall a b, t b - t a = IZR (date_sub b a) / K) as Dt.
  { intros a b. rewrite !Et. replace (date_sub b a) with (date_sub b s - date_sub a s)%Z by (unfold date_sub, diff_days; lia).
    rewrite minus_IZR. field. lra. }
  assert (forall i j mi mj, (i < j)%nat -> nth_error ms i = Some mi -> nth_error ms j = Some mj -> earlier mi mj) as Om.
  { intros i j mi mj Hij Ei Ej. apply Mono; [exact (Am _ (nth_error_In _ _ Ei)) | exact (Am _ (nth_error_In _ _ Ej)) |].
    revert mj Ej. induction Hij as [| j Hij IH]; intros mj Ej.
    - pose proof (Gap i mi mj Ei Ej) as G. pose proof (Dt mi mj) as E. assert (0 < IZR (date_sub mj mi) / K); [| lra].
      apply Rdiv_lt_0_compat; [apply IZR_lt; lia | exact PK].
    - destruct (nth_error ms j) as [m |] eqn:Em; [| apply nth_error_None in Em; assert (nth_error ms (S j) <> None) as Q by congruence;
        apply nth_error_Some in Q; lia].
      specialize (IH m eq_refl). pose proof (Gap j m mj Em Ej) as G. pose proof (Dt m mj) as E.
      assert (0 < IZR (date_sub mj m) / K); [| lra]. apply Rdiv_lt_0_compat; [apply IZR_lt; lia | exact PK]. }
  pose proof (clock_increasing D s ms ys t HD Ht Hl Am Om) as Inc. pose proof (curve_points_length t ms ys Hl) as Lp.
  assert (0 < IZR g) as Pg' by (apply IZR_lt; exact Pg).
  assert (mesh (IZR g / K) (IZR k / IZR g) (curve_points t ms ys)) as Me.
  { intros i Hi. rewrite Lp in Hi. replace (i + 1)%nat with (S i) in * by lia.
    destruct (nth_error ms i) as [m |] eqn:Em; [| apply nth_error_None in Em; lia].
    destruct (nth_error ms (S i)) as [m' |] eqn:Em'; [| apply nth_error_None in Em'; lia].
    destruct (nth_error ys i) as [y |] eqn:Ey; [| apply nth_error_None in Ey; lia].
    destruct (nth_error ys (S i)) as [y' |] eqn:Ey'; [| apply nth_error_None in Ey'; lia].
    destruct (curve_points_nth t ms ys i m y Hl Em Ey) as (_ & -> & _).
    destruct (curve_points_nth t ms ys (S i) m' y' Hl Em' Ey') as (_ & -> & _).
    rewrite Dt. pose proof (Gap i m m' Em Em') as (G1 & G2). apply IZR_le in G1, G2.
    replace (IZR k / IZR g * (IZR g / K)) with (IZR k / K) by (field; lra).
    split; (apply Rmult_le_compat_r; [left; now apply Rinv_0_lt_compat | assumption]). }
  assert (3 <= length (curve_points t ms ys))%nat as L3 by (rewrite Lp; exact H2).
  assert (0 < IZR g / K) as Ph by now apply Rdiv_lt_0_compat.
  destruct (near_curves D (NaturalCubic RV) s ms ys ys' t (fun _ => True) ((1 + 3 * (IZR k / IZR g) ^ 2) * eps) Hl (proj1 N) Ht Ts)
    as (c & c' & Ec & Ec' & Mv).
  - intros x v _ E.
    assert (gx (curve_points t ms ys) 0 <= x <= gx (curve_points t ms ys) (last_of (curve_points t ms ys))) as Hx.
    { destruct (C34_errors (curve_points t ms ys) x Inc L3) as (El & Eu). split; apply Rnot_lt_le; intros C.
      - pose proof (eq_trans (eq_sym (El C)) E). discriminate.
      - pose proof (eq_trans (eq_sym (Eu C)) E). discriminate. }
    destruct (C91_natural_cubic eps _ _ _ _ x (points_near eps t ms ys ys' Hl N) Inc L3 Ph Me Hx) as (u & u' & E1 & E2 & B).
    rewrite E in E1. injection E1 as ->. eauto.
  - exists (gx (curve_points t ms ys) 0), (gy (curve_points t ms ys) 0). split; [exact Logic.I |].
    destruct (C34_total _ Inc L3) as (F & HF). rewrite <- (proj1 (C34_interpolates _ F Inc L3 HF) 0%nat) by lia. apply HF.
    split; [lra |]. left. apply Inc. unfold last_of. lia.
  - exists c, c', t. split; [exact Ec |]. split; [exact Ec' |]. split; [exact Ht |]. intros d1 d2 v A1 A2 H.
    destruct (not_before D (NaturalCubic RV) s ms ys c d1 d2 v Ec (built_at D _ s ms ys t c Hl Ht Ec) H) as (O1 & O2).
    rewrite Mono, Ts in O1, O2 by assumption. apply Mv; auto; lra.
Qed.
Print Assumptions C93_natural_cubic.

(** Four points with widths 1, 2, 1 and a change of a tenth. *)
Example C91_natural_case : exists p p', near (1 / 10) p p' /\ increasing p /\ (4 <= length p)%nat /\ mesh 1 2 p
  /\ p' <> p /\ gx p 0 <= 5 / 2 <= gx p (last_of p).
Proof.
  exists [(0, 1); (1, 3); (3, 2); (4, 5)], [(0, 1); (1, 31 / 10); (3, 2); (4, 49 / 10)].
  split; [split; [reflexivity |] |].
  { intros i Hi. simpl in Hi. destruct i as [| [| [| [| i]]]]; [.. | lia]; unfold gx, gy; simpl; (split; [reflexivity |]);
      apply Rabs_le; lra. }
  split; [| split; [simpl; lia |]; split; [| split; [| unfold gx, last_of; simpl; lra]]].
  - intros i j H. unfold gx. simpl in H. destruct i as [| [| [| [| i]]]], j as [| [| [| [| j]]]]; simpl; try lra; lia.
  - intros i Hi. simpl in Hi. destruct i as [| [| [| i]]]; [.. | lia]; unfold gx; simpl; lra.
  - intros E. injection E. lra.
Qed.

(** Three maturities one and two years apart. *)
Example C93_natural_case : length ex_maturities = length ex_yields /\ (3 <= length ex_maturities)%nat /\ a_date ex_settle
  /\ (forall m, In m ex_maturities -> a_date m) /\ yields_near (1 / 1000) ex_yields [2 / 100; 26 / 1000; 3 / 100]
  /\ exists g k, (0 < g)%Z /\ forall i m m', nth_error ex_maturities i = Some m -> nth_error ex_maturities (S i) = Some m' ->
       (g <= date_sub m' m <= k)%Z.
Proof.
  split; [reflexivity |]. split; [simpl; lia |]. split; [now apply valid_a_date |].
  split; [intros m [<- | [<- | [<- | []]]]; now apply valid_a_date |]. split.
  - split; [reflexivity |]. intros [| [| [| i]]] y y' E E'; simpl in E, E'; try (destruct i; discriminate E);
      injection E as <-; injection E' as <-; apply Rabs_le; lra.
  - exists 365%Z, 730%Z. split; [lia |]. intros [| [| i]] m m' E E'; simpl in E, E'; try (destruct i; discriminate E');
      injection E as <-; injection E' as <-; vm_compute; split; discriminate.
Qed.
