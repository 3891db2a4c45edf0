(** Property C112: which interpolators give the flattest and the least bent curve through the data. *)
From Coq Require Import ZArith Reals List Arith Lia Lra Psatz.
From Verif Require Import Base Value RealValue InterpModel InterpFacts Grid Piecewise PropsLinear PropsHermite PropsNaturalCubic
  PropsStability.
Import ListNotations.
Open Scope R_scope.

(** Continuous on a closed interval. *)
Definition continuous_on (a b : R) (f : R -> R) : Prop := forall x, a <= x <= b -> cont_within a b f x.

(** [f'] is the derivative of [f] inside each of the cells between the knots [X 0 < ... < X (n - 1)]. *)
Definition derive_inside (X : nat -> R) (n : nat) (f f' : R -> R) : Prop := forall i, (i + 1 < n)%nat ->
  forall x, X i < x < X (i + 1)%nat -> derivable_pt_lim f x (f' x).

(** [e] is the integral of the square of [f] over the whole range: the increase of a continuous function
    whose derivative inside the cells is that square. *)
Definition square_integral (X : nat -> R) (n : nat) (f : R -> R) (e : R) : Prop := exists E,
  continuous_on (X 0%nat) (X (n - 1)%nat) E /\ derive_inside X n E (fun x => f x ^ 2) /\ e = E (X (n - 1)%nat) - E (X 0%nat).

(** ** Mean values on closed intervals *)

Definition clamp (a b x : R) : R := Rmax a (Rmin b x).

Lemma clamp_in a b x : a <= b -> a <= clamp a b x <= b.
Proof. intros H. unfold clamp, Rmax, Rmin. destruct (Rle_dec b x), (Rle_dec a _); lra. Qed.

Lemma clamp_id a b x : a <= x <= b -> clamp a b x = x.
Proof. intros H. unfold clamp, Rmax, Rmin. destruct (Rle_dec b x), (Rle_dec a _); lra. Qed.

Lemma clamp_near a b x y : a <= b -> a <= x <= b -> Rabs (clamp a b y - x) <= Rabs (y - x).
Proof.
  intros H Hx. unfold clamp, Rmax, Rmin.
  destruct (Rle_dec b y), (Rle_dec a _); unfold Rabs; repeat destruct (Rcase_abs _); lra.
Qed.

Lemma clamp_cont a b f x : a < b -> continuous_on a b f -> a <= x <= b -> continuity_pt (fun y => f (clamp a b y)) x.
Proof.
  intros H C Hx eps He. destruct (C x Hx eps He) as (d & Hd & Q). exists d. split; [exact Hd |].
  intros y (_ & L). simpl in *. unfold R_dist in *. rewrite (clamp_id a b x Hx).
  apply Q; [apply clamp_in; lra |]. eapply Rle_lt_trans; [apply clamp_near; lra | exact L].
Qed.

Lemma clamp_deriv a b f x l : a < x < b -> derivable_pt_lim f x l -> derivable_pt_lim (fun y => f (clamp a b y)) x l.
Proof.
  intros Hx D. apply (deriv_within_interior a b); [exact Hx |].
  apply (deriv_within_local a b a b _ f); [right; lra | right; lra | now rewrite clamp_id by lra | |].
  - intros y Hy _. now rewrite clamp_id.
  - apply deriv_within_lim. exact D.
Qed.

Lemma mean_value a b f f' : a < b -> continuous_on a b f -> (forall x, a < x < b -> derivable_pt_lim f x (f' x)) ->
  exists c, a < c < b /\ f b - f a = f' c * (b - a).
Proof.
  intros H C D. set (g := fun y => f (clamp a b y)).
  assert (forall c, a < c < b -> derivable_pt_lim g c (f' c)) as Dg by (intros c Hc; apply clamp_deriv; auto).
  set (pr1 := fun c (Hc : a < c < b) => exist _ (f' c) (Dg c Hc) : derivable_pt g c).
  set (pr2 := fun c (Hc : a < c < b) => derivable_pt_id c).
  destruct (MVT g id a b pr1 pr2 H) as (c & Hc & E).
  - intros c Hc. apply clamp_cont; auto.
  - intros c Hc. apply derivable_continuous_pt, derivable_pt_id.
  - exists c. split; [exact Hc |]. unfold pr2 in E. rewrite derive_pt_id in E. unfold pr1 in E. simpl in E.
    unfold derive_pt in E. simpl in E. unfold g, id in E. rewrite !clamp_id in E by lra. lra.
Qed.

Lemma continuous_sub a b c d f : a <= c -> d <= b -> continuous_on a b f -> continuous_on c d f.
Proof.
  intros H1 H2 C x Hx eps He. destruct (C x ltac:(lra) eps He) as (r & Hr & Q). exists r. split; [exact Hr |].
  intros y Hy. apply Q. lra.
Qed.

Lemma never_falls a b f f' : a <= b -> continuous_on a b f -> (forall x, a < x < b -> derivable_pt_lim f x (f' x)) ->
  (forall x, a < x < b -> 0 <= f' x) -> f a <= f b.
Proof.
  intros H C D P. destruct (Rle_lt_or_eq_dec _ _ H) as [L | ->]; [| lra].
  destruct (mean_value a b f f' L C D) as (c & Hc & E). pose proof (P c Hc). nra.
Qed.

Lemma constant_on a b f : a <= b -> continuous_on a b f -> (forall x, a < x < b -> derivable_pt_lim f x 0) ->
  forall x, a <= x <= b -> f x = f a.
Proof.
  intros H C D x Hx. destruct (Rle_lt_or_eq_dec _ _ (proj1 Hx)) as [L | <-]; [| reflexivity].
  destruct (mean_value a x f (fun _ => 0) L) as (c & _ & E); [apply (continuous_sub a b); lra || assumption | |].
  - intros y Hy. apply D. lra.
  - lra.
Qed.

(** A function that does not fall and ends where it began has derivative zero. *)
Lemma flat_inside a b f f' : a < b -> continuous_on a b f -> (forall x, a < x < b -> derivable_pt_lim f x (f' x)) ->
  (forall x, a < x < b -> 0 <= f' x) -> f b <= f a -> forall x, a < x < b -> f' x = 0.
Proof.
  intros H C D P E x Hx.
  assert (forall y, a <= y <= b -> f y = f a) as K.
  { intros y Hy. assert (f a <= f y).
    { apply (never_falls a y f f'); [lra | apply (continuous_sub a b); lra || assumption | |]; intros; [apply D | apply P]; lra. }
    assert (f y <= f b).
    { apply (never_falls y b f f'); [lra | apply (continuous_sub a b); lra || assumption | |]; intros; [apply D | apply P]; lra. }
    lra. }
  apply (uniqueness_limite f x); [apply D; exact Hx |].
  apply (deriv_within_interior a b); [exact Hx |].
  apply (deriv_within_local a b a b f (fun _ => f a)); [right; lra | right; lra | apply K; lra | intros; apply K; lra |].
  apply deriv_within_lim, derivable_pt_lim_const.
Qed.

(** ** Sums and products of continuous functions *)

Lemma continuous_clamp a b f : a < b -> (forall x, a <= x <= b -> continuity_pt (fun y => f (clamp a b y)) x) -> continuous_on a b f.
Proof.
  intros H C x Hx. apply (cont_within_local a b a b f (fun y => f (clamp a b y)));
    [right; lra | right; lra | now rewrite clamp_id | intros y Hy _; now rewrite clamp_id |].
  apply cont_within_pt, C, Hx.
Qed.

Lemma continuous_plus a b f g : a < b -> continuous_on a b f -> continuous_on a b g -> continuous_on a b (fun x => f x + g x).
Proof.
  intros H Cf Cg. apply continuous_clamp; [exact H |]. intros x Hx.
  apply (continuity_pt_plus (fun y => f (clamp a b y)) (fun y => g (clamp a b y)) x); now apply clamp_cont.
Qed.

Lemma continuous_minus a b f g : a < b -> continuous_on a b f -> continuous_on a b g -> continuous_on a b (fun x => f x - g x).
Proof.
  intros H Cf Cg. apply continuous_clamp; [exact H |]. intros x Hx.
  apply (continuity_pt_minus (fun y => f (clamp a b y)) (fun y => g (clamp a b y)) x); now apply clamp_cont.
Qed.

Lemma continuous_mult a b f g : a < b -> continuous_on a b f -> continuous_on a b g -> continuous_on a b (fun x => f x * g x).
Proof.
  intros H Cf Cg. apply continuous_clamp; [exact H |]. intros x Hx.
  apply (continuity_pt_mult (fun y => f (clamp a b y)) (fun y => g (clamp a b y)) x); now apply clamp_cont.
Qed.

Lemma continuous_derive a b f f' : (forall x, derivable_pt_lim f x (f' x)) -> continuous_on a b f.
Proof.
  intros D x _. apply cont_within_pt. apply derivable_continuous_pt. exists (f' x). apply D.
Qed.

Lemma derive_eq f x l l' : derivable_pt_lim f x l -> l = l' -> derivable_pt_lim f x l'.
Proof. now intros D ->. Qed.

Lemma derive_const c x : derivable_pt_lim (fun _ => c) x 0.
Proof. apply (derivable_pt_lim_const c). Qed.

(** ** One cell *)

Lemma cell_flat a b c E g g' : a < b -> continuous_on a b E -> continuous_on a b g ->
  (forall x, a < x < b -> derivable_pt_lim E x (g' x ^ 2)) -> (forall x, a < x < b -> derivable_pt_lim g x (g' x)) ->
  g b - g a = c * (b - a) ->
  c ^ 2 * (b - a) <= E b - E a /\ (E b - E a = c ^ 2 * (b - a) -> forall x, a <= x <= b -> g x = g a + c * (x - a)).
Proof.
  intros H CE Cg DE Dg Eg. set (h := fun x => E x - (2 * c * g x - c ^ 2 * x)).
  assert (forall x, derivable_pt_lim (fun x => c ^ 2 * x) x (c ^ 2)) as Dl.
  { intros x. apply (derive_eq _ _ (c ^ 2 * 1)); [| ring]. apply (derivable_pt_lim_scal id). apply derivable_pt_lim_id. }
  assert (continuous_on a b h) as Ch.
  { apply continuous_minus; [exact H | exact CE |]. apply continuous_minus; [exact H | |].
    - apply continuous_mult; [exact H | apply (continuous_derive _ _ _ (fun _ => 0)); apply derive_const | exact Cg].
    - apply (continuous_derive _ _ _ (fun _ => c ^ 2)). exact Dl. }
  assert (forall x, a < x < b -> derivable_pt_lim h x ((g' x - c) ^ 2)) as Dh.
  { intros x Hx. apply (derive_eq _ _ (g' x ^ 2 - (2 * c * g' x - c ^ 2))); [| ring].
    apply (derivable_pt_lim_minus E); [now apply DE |].
    apply (derivable_pt_lim_minus (fun x => 2 * c * g x)); [| apply Dl]. apply (derivable_pt_lim_scal g). now apply Dg. }
  assert (forall x, a < x < b -> 0 <= (g' x - c) ^ 2) as P by (intros; apply pow2_ge_0).
  assert (h b - h a = E b - E a - c ^ 2 * (b - a)) as Eh by (unfold h; nra).
  split; [pose proof (never_falls a b h _ ltac:(lra) Ch Dh P); lra |]. intros Eq x Hx.
  pose proof (flat_inside a b h _ H Ch Dh P ltac:(lra)) as Z.
  set (k := fun x => g x - c * x).
  assert (forall x, derivable_pt_lim (fun x => c * x) x c) as Dc.
  { intros y. apply (derive_eq _ _ (c * 1)); [| ring]. apply (derivable_pt_lim_scal id). apply derivable_pt_lim_id. }
  assert (k x = k a) as K; [| unfold k in K; lra].
  apply (constant_on a b); [lra | | | exact Hx].
  - apply continuous_minus; [exact H | exact Cg | apply (continuous_derive _ _ _ (fun _ => c)); exact Dc].
  - intros y Hy. apply (derive_eq _ _ (g' y - c)).
    + apply (derivable_pt_lim_minus g); [now apply Dg | apply Dc].
    + specialize (Z y Hy). simpl in Z. nra.
Qed.

Lemma cell_bent a b E g g1 g2 P P1 P2 k S : a < b -> continuous_on a b E -> continuous_on a b g -> continuous_on a b g1 ->
  (forall x, a < x < b -> derivable_pt_lim E x (g2 x ^ 2)) -> (forall x, a < x < b -> derivable_pt_lim g x (g1 x)) ->
  (forall x, a < x < b -> derivable_pt_lim g1 x (g2 x)) ->
  (forall x, derivable_pt_lim P x (P1 x)) -> (forall x, derivable_pt_lim P1 x (P2 x)) -> (forall x, derivable_pt_lim P2 x k) ->
  (forall x, derivable_pt_lim S x (P2 x ^ 2)) -> g a = P a -> g b = P b ->
  S b - S a + 2 * ((g1 b - P1 b) * P2 b - (g1 a - P1 a) * P2 a) <= E b - E a
  /\ (E b - E a = S b - S a + 2 * ((g1 b - P1 b) * P2 b - (g1 a - P1 a) * P2 a) -> forall x, a <= x <= b -> g x = P x).
Proof.
  intros H CE Cg Cg1 DE Dg Dg1 DP DP1 DP2 DS Ea Eb.
  set (h := fun x => E x - (S x + 2 * ((g1 x - P1 x) * P2 x - k * (g x - P x)))).
  assert (continuous_on a b P) as CP by (apply (continuous_derive _ _ _ P1); assumption).
  assert (continuous_on a b P1) as CP1 by (apply (continuous_derive _ _ _ P2); assumption).
  assert (continuous_on a b P2) as CP2 by (apply (continuous_derive _ _ _ (fun _ => k)); assumption).
  assert (forall c, continuous_on a b (fun _ => c)) as Cc by (intros; apply (continuous_derive _ _ _ (fun _ => 0)); apply derive_const).
  assert (continuous_on a b h) as Ch.
  { apply continuous_minus; [exact H | exact CE |]. apply continuous_plus; [exact H | apply (continuous_derive _ _ _ (fun x => P2 x ^ 2)); exact DS |].
    apply continuous_mult; [exact H | apply Cc |]. apply continuous_minus; [exact H | |]; apply continuous_mult; auto; apply continuous_minus; auto. }
  assert (forall x, a < x < b -> derivable_pt_lim h x ((g2 x - P2 x) ^ 2)) as Dh.
  { intros x Hx. apply (derive_eq _ _ (g2 x ^ 2 - (P2 x ^ 2 + 2 * (((g2 x - P2 x) * P2 x + (g1 x - P1 x) * k) - k * (g1 x - P1 x))))); [| ring].
    apply (derivable_pt_lim_minus E); [now apply DE |]. apply (derivable_pt_lim_plus S); [apply DS |].
    apply (derivable_pt_lim_scal (fun x => (g1 x - P1 x) * P2 x - k * (g x - P x))).
    apply (derivable_pt_lim_minus (fun x => (g1 x - P1 x) * P2 x)).
    - apply (derivable_pt_lim_mult (fun x => g1 x - P1 x) P2); [| apply DP2].
      apply (derivable_pt_lim_minus g1); [now apply Dg1 | apply DP1].
    - apply (derivable_pt_lim_scal (fun x => g x - P x)). apply (derivable_pt_lim_minus g); [now apply Dg | apply DP]. }
  assert (forall x, a < x < b -> 0 <= (g2 x - P2 x) ^ 2) as Pos by (intros; apply pow2_ge_0).
  assert (h b - h a = E b - E a - (S b - S a + 2 * ((g1 b - P1 b) * P2 b - (g1 a - P1 a) * P2 a))) as Eh.
  { unfold h. rewrite Ea, Eb. ring. }
  split; [pose proof (never_falls a b h _ ltac:(lra) Ch Dh Pos); lra |]. intros Eq x Hx.
  pose proof (flat_inside a b h _ H Ch Dh Pos ltac:(lra)) as Z.
  (* the difference is affine and zero at both ends *)
  set (d := g1 a - P1 a).
  assert (forall y, a <= y <= b -> g1 y - P1 y = d) as D1.
  { apply (constant_on a b (fun y => g1 y - P1 y)); [lra | apply continuous_minus; auto |].
    intros y Hy. apply (derive_eq _ _ (g2 y - P2 y)).
    - apply (derivable_pt_lim_minus g1); [now apply Dg1 | apply DP1].
    - specialize (Z y Hy). simpl in Z. nra. }
  assert (forall x, derivable_pt_lim (fun x => d * x) x d) as Dc.
  { intros y. apply (derive_eq _ _ (d * 1)); [| ring]. apply (derivable_pt_lim_scal id). apply derivable_pt_lim_id. }
  assert (forall y, a <= y <= b -> g y - P y - d * y = g a - P a - d * a) as D0.
  { apply (constant_on a b (fun y => g y - P y - d * y)); [lra | |].
    - apply continuous_minus; [exact H | apply continuous_minus; auto | apply (continuous_derive _ _ _ (fun _ => d)); exact Dc].
    - intros y Hy. apply (derive_eq _ _ (g1 y - P1 y - d)); [| rewrite D1 by lra; ring].
      apply (derivable_pt_lim_minus (fun y => g y - P y)); [| apply Dc].
      apply (derivable_pt_lim_minus g); [now apply Dg | apply DP]. }
  pose proof (D0 b ltac:(lra)) as Q. rewrite Ea, Eb in Q. assert (d = 0) as Zd by nra.
  pose proof (D0 x Hx) as Qx. rewrite Zd, Ea in Qx. lra.
Qed.

(** ** All cells *)

Section Cells.
Context (X : nat -> R) (n : nat).
Hypothesis Hn : (2 <= n)%nat.
Hypothesis HX : forall i j, (i < j < n)%nat -> X i < X j.

Lemma X_sorted i j : (i <= j < n)%nat -> X i <= X j.
Proof using Hn HX. intros H. destruct (Nat.eq_dec i j) as [-> | N]; [lra | left; apply HX; lia]. Qed.

Lemma cell_cont f i : continuous_on (X 0%nat) (X (n - 1)%nat) f -> (i + 1 < n)%nat -> continuous_on (X i) (X (i + 1)%nat) f.
Proof using Hn HX. intros C Hi. apply (continuous_sub (X 0%nat) (X (n - 1)%nat)); [apply X_sorted; lia | apply X_sorted; lia | exact C]. Qed.

(** The sum of the increases of [S i] over cell [i]. *)
Fixpoint cum (S : nat -> R -> R) (k : nat) : R :=
  match k with O => 0 | Datatypes.S i => cum S i + (S i (X (i + 1)%nat) - S i (X i)) end.

Lemma cum_next (S : nat -> R -> R) k : cum S (k + 1) = cum S k + (S k (X (k + 1)%nat) - S k (X k)).
Proof using. clear. replace (k + 1)%nat with (Datatypes.S k) at 1 by lia. reflexivity. Qed.

(** The integral of a function given by pieces. *)
Lemma pieces_integral f (f_ S : nat -> R -> R) : (forall i x, derivable_pt_lim (S i) x (f_ i x ^ 2)) ->
  (forall i x, (i + 1 < n)%nat -> X i < x < X (i + 1)%nat -> f x = f_ i x) ->
  square_integral X n f (cum S (n - 1)).
Proof using Hn HX.
  intros DS Hf. set (P := fun i x => cum S i + (S i x - S i (X i))). set (E := pw X P (n - 2)).
  assert (forall i x, (i + 1 < n)%nat -> X i <= x <= X (i + 1)%nat -> E x = P i x) as HE.
  { apply pw_closed; [exact Hn | intros; apply HX; lia |]. intros i Hi. unfold P. rewrite cum_next. ring. }
  assert (forall i x, derivable_pt_lim (P i) x (f_ i x ^ 2)) as DP.
  { intros i x. apply (derive_eq _ _ (0 + (f_ i x ^ 2 - 0))); [| ring]. unfold P.
    apply (derivable_pt_lim_plus (fun _ => cum S i)); [apply derive_const |]. apply (derivable_pt_lim_minus (S i)); [apply DS | apply derive_const]. }
  exists E. split; [| split].
  - intros x Hx. apply (pieces_cont X P n Hn ltac:(intros; apply HX; lia) E HE); [| exact Hx].
    intros i _. apply derivable_continuous. intros y. exists (f_ i y ^ 2). apply DP.
  - intros i Hi x Hx. rewrite (Hf i x Hi Hx). apply (deriv_within_interior (X i) (X (i + 1)%nat)); [exact Hx |].
    apply (deriv_within_local _ _ (X i) (X (i + 1)%nat) E (P i)); [right; lra | right; lra | apply HE; lra || exact Hi | |].
    + intros y Hy _. now apply HE.
    + apply deriv_within_lim, DP.
  - rewrite (HE 0%nat (X 0%nat)) by (lia || (split; [lra | left; apply HX; lia])).
    rewrite (HE (n - 2)%nat (X (n - 1)%nat)).
    + unfold P. pose proof (cum_next S (n - 2)) as Q. replace (n - 2 + 1)%nat with (n - 1)%nat in Q by lia. rewrite Q. simpl. ring.
    + lia.
    + replace (n - 2 + 1)%nat with (n - 1)%nat by lia. split; [left; apply HX; lia | lra].
Qed.

(** Lower bounds on the cells add up, and equality of the sums is equality on every cell. *)
Lemma cells_sum (S : nat -> R -> R) (E : R -> R) (W : nat -> R) :
  (forall i, (i + 1 < n)%nat -> S i (X (i + 1)%nat) - S i (X i) + (W (i + 1)%nat - W i) <= E (X (i + 1)%nat) - E (X i)) ->
  W 0%nat = 0 -> W (n - 1)%nat = 0 ->
  cum S (n - 1) <= E (X (n - 1)%nat) - E (X 0%nat)
  /\ (E (X (n - 1)%nat) - E (X 0%nat) = cum S (n - 1) ->
      forall i, (i + 1 < n)%nat -> E (X (i + 1)%nat) - E (X i) = S i (X (i + 1)%nat) - S i (X i) + (W (i + 1)%nat - W i)).
Proof using Hn HX.
  intros B W0 W1. set (D := fun k => E (X k) - E (X 0%nat) - cum S k - W k).
  assert (forall k, (k + 1 < n)%nat -> D (k + 1)%nat - D k
    = (E (X (k + 1)%nat) - E (X k)) - (S k (X (k + 1)%nat) - S k (X k) + (W (k + 1)%nat - W k))) as Step.
  { intros k Hk. unfold D. rewrite cum_next. ring. }
  assert (forall d k, (k + d < n)%nat -> D k <= D (k + d)%nat) as Up.
  { induction d as [| d IH]; intros k Hk; [replace (k + 0)%nat with k by lia; lra |].
    pose proof (IH k ltac:(lia)). pose proof (Step (k + d)%nat ltac:(lia)). pose proof (B (k + d)%nat ltac:(lia)).
    replace (k + Datatypes.S d)%nat with (k + d + 1)%nat by lia. lra. }
  assert (D 0%nat = 0) as D0 by (unfold D; rewrite W0; simpl; ring).
  assert (D (n - 1)%nat = E (X (n - 1)%nat) - E (X 0%nat) - cum S (n - 1)) as D1 by (unfold D; rewrite W1; ring).
  pose proof (Up (n - 1)%nat 0%nat ltac:(lia)) as U. simpl in U. split; [lra |]. intros Eq i Hi.
  pose proof (Up i 0%nat ltac:(lia)) as U0. simpl in U0. pose proof (Up (n - 1 - (i + 1))%nat (i + 1)%nat ltac:(lia)) as U1.
  replace (i + 1 + (n - 1 - (i + 1)))%nat with (n - 1)%nat in U1 by lia.
  pose proof (Step i Hi). pose proof (B i Hi). lra.
Qed.

(** The integral is determined by the function. *)
Lemma integral_unique f e e' : square_integral X n f e -> square_integral X n f e' -> e = e'.
Proof using Hn HX.
  intros (E & C & D & ->) (E' & C' & D' & ->).
  assert (forall k, (k < n)%nat -> E (X k) - E' (X k) = E (X 0%nat) - E' (X 0%nat)) as K.
  { induction k as [| k IH]; intros Hk; [reflexivity |]. rewrite <- IH by lia. replace (Datatypes.S k) with (k + 1)%nat by lia.
    assert (X k < X (k + 1)%nat) by (apply HX; lia).
    apply (constant_on (X k) (X (k + 1)%nat) (fun x => E x - E' x)); [lra | | | lra].
    - apply continuous_minus; [assumption | |]; apply cell_cont; assumption || lia.
    - intros x Hx. apply (derive_eq _ _ (f x ^ 2 - f x ^ 2)); [| ring].
      apply (derivable_pt_lim_minus E); [apply (D k) | apply (D' k)]; assumption || lia. }
  pose proof (K (n - 1)%nat ltac:(lia)). lra.
Qed.

End Cells.

(** A curve with a continuous first derivative [g1] on the range, and a second derivative [g2] inside the cells. *)
Definition smooth_curve (X : nat -> R) (n : nat) (g g1 g2 : R -> R) : Prop :=
  continuous_on (X 0%nat) (X (n - 1)%nat) g /\ continuous_on (X 0%nat) (X (n - 1)%nat) g1
  /\ derive_inside X n g g1 /\ derive_inside X n g1 g2.

Section Bending.
Context (X : nat -> R) (n : nat) (P P1 P2 S : nat -> R -> R) (k : nat -> R).
Hypothesis Hn : (2 <= n)%nat.
Hypothesis HX : forall i j, (i < j < n)%nat -> X i < X j.
Hypothesis DP : forall i x, derivable_pt_lim (P i) x (P1 i x).
Hypothesis DP1 : forall i x, derivable_pt_lim (P1 i) x (P2 i x).
Hypothesis DP2 : forall i x, derivable_pt_lim (P2 i) x (k i).
Hypothesis DS : forall i x, derivable_pt_lim (S i) x (P2 i x ^ 2).
Context (F : R -> R).
Hypothesis HF : forall i x, (i + 1 < n)%nat -> X i <= x <= X (i + 1)%nat -> F x = P i x.

Lemma pieces_inside (G : R -> R) (Q Q' : nat -> R -> R) (G' : R -> R) :
  (forall i x, (i + 1 < n)%nat -> X i < x < X (i + 1)%nat -> G x = Q i x) ->
  (forall i x, (i + 1 < n)%nat -> X i < x < X (i + 1)%nat -> G' x = Q' i x) ->
  (forall i x, derivable_pt_lim (Q i) x (Q' i x)) -> derive_inside X n G G'.
Proof using.
  clear. intros E E' D i Hi x Hx. rewrite (E' i x Hi Hx). apply (deriv_within_interior (x - 1) (x + 1)); [lra |].
  apply (deriv_within_local _ _ ((X i + x) / 2) ((x + X (i + 1)%nat) / 2) G (Q i)); [left; lra | left; lra | now apply E | |].
  - intros y Hy _. apply E; [exact Hi | lra].
  - apply deriv_within_lim, D.
Qed.

Lemma bending_curve : (forall i, (i + 2 < n)%nat -> P1 i (X (i + 1)%nat) = P1 (i + 1)%nat (X (i + 1)%nat)) ->
  exists F1 F2, smooth_curve X n F F1 F2 /\ square_integral X n F2 (cum X S (n - 1))
    /\ forall i x, (i + 1 < n)%nat -> X i <= x <= X (i + 1)%nat -> F1 x = P1 i x.
Proof using Hn HX DP DP1 DP2 DS HF.
  intros M. exists (pw X P1 (n - 2)), (pw X P2 (n - 2)).
  assert (forall i j, (i < j < n)%nat -> X i < X j) as HX' by (intros; apply HX; lia).
  assert (forall i x, (i + 1 < n)%nat -> X i <= x <= X (i + 1)%nat -> pw X P1 (n - 2) x = P1 i x) as HF1 by (apply pw_closed; assumption).
  assert (forall i x, (i + 1 < n)%nat -> X i < x < X (i + 1)%nat -> pw X P2 (n - 2) x = P2 i x) as HF2.
  { intros i x Hi Hx. apply (pw_open X P2 n Hn HX' (n - 2) i x); [lia | lia | lra]. }
  split; [split; [| split; [| split]] | split].
  - intros x Hx. apply (pieces_cont X P n Hn HX' F HF); [| exact Hx]. intros i _. apply derivable_continuous. intros y. eexists. apply DP.
  - intros x Hx. apply (pieces_cont X P1 n Hn HX' _ HF1); [| exact Hx]. intros i _. apply derivable_continuous. intros y. eexists. apply DP1.
  - apply (pieces_inside F P P1); [intros; apply HF; lra || assumption | intros; apply HF1; lra || assumption | exact DP].
  - apply (pieces_inside _ P1 P2); [intros; apply HF1; lra || assumption | exact HF2 | exact DP1].
  - apply (pieces_integral X n Hn HX _ P2 S); assumption.
  - exact HF1.
Qed.

Lemma least_bent g g1 g2 e W : smooth_curve X n g g1 g2 -> (forall i, (i < n)%nat -> g (X i) = F (X i)) -> square_integral X n g2 e ->
  (forall i, (i + 1 < n)%nat -> (g1 (X (i + 1)%nat) - P1 i (X (i + 1)%nat)) * P2 i (X (i + 1)%nat) - (g1 (X i) - P1 i (X i)) * P2 i (X i) = W (i + 1)%nat - W i) ->
  W 0%nat = 0 -> W (n - 1)%nat = 0 ->
  cum X S (n - 1) <= e /\ (e = cum X S (n - 1) -> forall x, X 0%nat <= x <= X (n - 1)%nat -> g x = F x).
Proof using Hn HX DP DP1 DP2 DS HF.
  intros (Cg & Cg1 & Dg & Dg1) T (E & CE & DE & ->) HW W0 W1.
  assert (forall i, (i + 1 < n)%nat ->
    S i (X (i + 1)%nat) - S i (X i) + (2 * W (i + 1)%nat - 2 * W i) <= E (X (i + 1)%nat) - E (X i)
    /\ (E (X (i + 1)%nat) - E (X i) = S i (X (i + 1)%nat) - S i (X i) + (2 * W (i + 1)%nat - 2 * W i) ->
        forall x, X i <= x <= X (i + 1)%nat -> g x = P i x)) as Cell.
  { intros i Hi. replace (2 * W (i + 1)%nat - 2 * W i) with (2 * (W (i + 1)%nat - W i)) by ring. rewrite <- (HW i Hi).
    assert (X i < X (i + 1)%nat) as L by (apply HX; lia).
    apply (cell_bent (X i) (X (i + 1)%nat) E g g1 g2 (P i) (P1 i) (P2 i) (k i) (S i)); auto;
      try (apply (cell_cont X n Hn HX); assumption); try (now apply DE); try (now apply Dg); try (now apply Dg1).
    - rewrite T by lia. apply HF; lra || lia.
    - rewrite T by lia. apply HF; lra || lia. }
  destruct (cells_sum X n Hn HX S E (fun i => 2 * W i)) as (A & B);
    [intros i Hi; apply Cell, Hi | rewrite W0; ring | rewrite W1; ring |].
  split; [exact A |]. intros Eq x Hx. specialize (B Eq).
  assert (exists i, (i + 1 < n)%nat /\ X i <= x <= X (i + 1)%nat) as (i & Hi & Ci).
  { destruct (Rle_lt_or_eq_dec _ _ (proj1 Hx)) as [L | <-].
    - destruct (cell_left X n Hn ltac:(intros; apply HX; lia) x) as (i & Hi & Ci); [lra |]. exists i. split; [exact Hi | lra].
    - exists 0%nat. split; [lia |]. split; [lra | left; apply HX; lia]. }
  rewrite (HF i x Hi Ci). apply (Cell i Hi); [apply B, Hi | exact Ci].
Qed.
End Bending.

(** ** C112 *)

(** Linear interpolation is the flattest curve through the points: it has the least integral of the squared
    slope, and every other curve through the points has a larger one. *)
Theorem C112_linear : forall p F, increasing p -> (2 <= length p)%nat ->
  (forall x, gx p 0 <= x <= gx p (last_of p) -> fit_eval (Linear RV) p x = Ret (Ok (F x))) ->
  exists F1 e, derive_inside (gx p) (length p) F F1 /\ square_integral (gx p) (length p) F1 e
  /\ forall g g1 e', continuous_on (gx p 0) (gx p (last_of p)) g -> (forall i, (i < length p)%nat -> g (gx p i) = gy p i) ->
     derive_inside (gx p) (length p) g g1 -> square_integral (gx p) (length p) g1 e' ->
     e <= e' /\ (e' = e -> forall x, gx p 0 <= x <= gx p (last_of p) -> g x = F x).
Proof.
  intros p F H Hl HF. unfold last_of in *.
  set (c := fun i => (gy p (i + 1) - gy p i) / (gx p (i + 1) - gx p i)).
  assert (forall i x, (i + 1 < length p)%nat -> gx p i <= x <= gx p (i + 1) -> F x = chord p i x) as Pc.
  { intros i x Hi Hx. assert (gx p 0 <= x <= gx p (length p - 1)) as Hr.
    { pose proof (increasing_sorted p H 0%nat i ltac:(lia)). pose proof (increasing_sorted p H (i + 1)%nat (length p - 1)%nat ltac:(lia)). lra. }
    specialize (HF x Hr). rewrite (linear_closed p x i H Hi Hx) in HF. now injection HF. }
  assert (forall c x, derivable_pt_lim (fun x => c * x) x c) as Dl.
  { intros a x. apply (derive_eq _ _ (a * 1)); [| ring]. apply (derivable_pt_lim_scal id). apply derivable_pt_lim_id. }
  set (S := fun i x => c i ^ 2 * x). exists (pw (gx p) (fun i _ => c i) (length p - 2)), (cum (gx p) S (length p - 1)).
  assert (forall i x, (i + 1 < length p)%nat -> gx p i < x < gx p (i + 1) -> pw (gx p) (fun i _ => c i) (length p - 2) x = c i) as Hc.
  { intros i x Hi Hx. apply (pw_open (gx p) (fun i _ => c i) (length p) Hl H (length p - 2) i x); [lia | lia | lra]. }
  split; [| split].
  - apply (pieces_inside (gx p) (length p) F (chord p) (fun i _ => c i)).
    + intros i x Hi Hx. apply Pc; lra || assumption.
    + exact Hc.
    + intros i x. unfold chord. apply (derive_eq _ _ (0 + c i * (1 - 0))); [| ring].
      apply (derivable_pt_lim_plus (fun _ => gy p i)); [apply derive_const |].
      apply (derivable_pt_lim_scal (fun x => x - gx p i)). apply (derivable_pt_lim_minus id); [apply derivable_pt_lim_id | apply derive_const].
  - apply (pieces_integral (gx p) (length p) Hl H _ (fun i _ => c i) S); [intros i x; apply Dl | exact Hc].
  - intros g g1 e' Cg T Dg (E & CE & DE & ->).
    assert (forall i, (i + 1 < length p)%nat ->
      S i (gx p (i + 1)) - S i (gx p i) + (0 - 0) <= E (gx p (i + 1)) - E (gx p i)
      /\ (E (gx p (i + 1)) - E (gx p i) = S i (gx p (i + 1)) - S i (gx p i) + (0 - 0) ->
          forall x, gx p i <= x <= gx p (i + 1) -> g x = chord p i x)) as Cell.
    { intros i Hi. assert (gx p i < gx p (i + 1)) as L by (apply H; lia). unfold S.
      replace (c i ^ 2 * gx p (i + 1) - c i ^ 2 * gx p i + (0 - 0)) with (c i ^ 2 * (gx p (i + 1) - gx p i)) by ring.
      destruct (cell_flat (gx p i) (gx p (i + 1)) (c i) E g g1 L) as (A & B);
        try (apply (cell_cont (gx p) (length p) Hl H); assumption); try (now apply DE); try (now apply Dg).
      - rewrite !T by lia. unfold c. field. lra.
      - split; [exact A |]. intros Eq x Hx. rewrite (B Eq x Hx), T by lia. reflexivity. }
    destruct (cells_sum (gx p) (length p) Hl H S E (fun _ => 0)) as (A & B); [intros i Hi; apply Cell, Hi | reflexivity | reflexivity |].
    split; [exact A |]. intros Eq x Hx. specialize (B Eq).
    assert (exists i, (i + 1 < length p)%nat /\ gx p i <= x <= gx p (i + 1)) as (i & Hi & Ci).
    { destruct (Rle_lt_or_eq_dec _ _ (proj1 Hx)) as [L | <-].
      - destruct (cell_left (gx p) (length p) Hl H x) as (i & Hi & Ci); [lra |]. exists i. split; [exact Hi | lra].
      - exists 0%nat. split; [lia |]. split; [lra | left; apply H; lia]. }
    rewrite (Pc i x Hi Ci). apply (Cell i Hi); [apply B, Hi | exact Ci].
Qed.
Print Assumptions C112_linear.

(** Hermite interpolation is the least bent curve with the given values and slopes: it has the least integral of
    the squared second derivative, and every other such curve has a larger one. *)
Theorem C112_hermite : forall p F, h_increasing p -> (2 <= length p)%nat ->
  (forall x, hx p 0 <= x <= hx p (h_last p) -> hermite_eval (V := RV) p x = Ret (Ok (F x))) ->
  exists F1 F2 e, smooth_curve (hx p) (length p) F F1 F2 /\ square_integral (hx p) (length p) F2 e
  /\ forall g g1 g2 e', smooth_curve (hx p) (length p) g g1 g2 ->
     (forall i, (i < length p)%nat -> g (hx p i) = hy p i /\ g1 (hx p i) = hm p i) ->
     square_integral (hx p) (length p) g2 e' ->
     e <= e' /\ (e' = e -> forall x, hx p 0 <= x <= hx p (h_last p) -> g x = F x).
Proof.
  intros p F H Hl HF. unfold h_last in *.
  set (P2 := fun i x => 6 * hA p i * (x - hx p i) + 2 * hB p i).
  set (S := fun i x => 12 * hA p i ^ 2 * (x - hx p i) ^ 3 + 12 * hA p i * hB p i * (x - hx p i) ^ 2 + 4 * hB p i ^ 2 * (x - hx p i) + 0).
  assert (forall i x, (i + 1 < length p)%nat -> hx p i <= x <= hx p (i + 1) -> F x = hpiece p i x) as Pc.
  { intros i x Hi Hx. assert (hx p 0 <= x <= hx p (length p - 1)) as Hr.
    { assert (hx p 0 <= hx p i) by (destruct i; [lra | left; apply H; lia]).
      assert (hx p (i + 1) <= hx p (length p - 1)) by (destruct (Nat.eq_dec (i + 1) (length p - 1)) as [-> | N]; [lra | left; apply H; lia]). lra. }
    specialize (HF x Hr). rewrite (hermite_closed p i x H Hi Hx) in HF. now injection HF. }
  assert (forall i x, derivable_pt_lim (hpiece' p i) x (P2 i x)) as D1.
  { intros i x. apply (derive_as_cubic _ 0 (3 * hA p i) (2 * hB p i) (hm p i) (hx p i)); [intros y; unfold hpiece'; ring | unfold P2; ring]. }
  assert (forall i x, derivable_pt_lim (P2 i) x (6 * hA p i)) as D2.
  { intros i x. apply (derive_as_cubic _ 0 0 (6 * hA p i) (2 * hB p i) (hx p i)); [intros y; unfold P2; ring | ring]. }
  assert (forall i x, derivable_pt_lim (S i) x (P2 i x ^ 2)) as D3.
  { intros i x. apply (derive_as_cubic _ (12 * hA p i ^ 2) (12 * hA p i * hB p i) (4 * hB p i ^ 2) 0 (hx p i)); [reflexivity | unfold P2; ring]. }
  destruct (bending_curve (hx p) (length p) (hpiece p) (hpiece' p) P2 S (fun i => 6 * hA p i) Hl H (hpiece_deriv p) D1 D2 D3 F Pc) as (F1 & F2 & C & I & _).
  { intros i Hi. rewrite (proj2 (hpiece_left p (i + 1))). apply hpiece_right. apply H. lia. }
  exists F1, F2, (cum (hx p) S (length p - 1)). split; [exact C |]. split; [exact I |]. intros g g1 g2 e' Cg T Ig.
  apply (least_bent (hx p) (length p) (hpiece p) (hpiece' p) P2 S (fun i => 6 * hA p i) Hl H (hpiece_deriv p) D1 D2 D3 F Pc g g1 g2 e' (fun _ => 0) Cg);
    [| exact Ig | | reflexivity | reflexivity].
  - intros i Hi. rewrite (proj1 (T i Hi)). destruct (Nat.eq_dec (i + 1) (length p)) as [E | N].
    + replace i with (i - 1 + 1)%nat by lia. rewrite (Pc (i - 1)%nat) by (lia || (split; [left; apply H; lia | lra])).
      symmetry. apply hpiece_right. apply H. lia.
    + rewrite (Pc i) by (lia || (split; [lra | left; apply H; lia])). symmetry. apply hpiece_left.
  - intros i Hi. rewrite (proj2 (T i ltac:(lia))), (proj2 (T (i + 1)%nat ltac:(lia))), (proj2 (hpiece_left p i)).
    rewrite (proj2 (hpiece_right p i ltac:(apply H; lia))). ring.
Qed.
Print Assumptions C112_hermite.

(** The same for a natural cubic spline, whose antiderivative of the squared second derivative on a cell is [bent]. *)
Definition bent (p : list (R * R)) (s : nat -> R) (i : nat) (x : R) : R :=
  12 * qa p s i ^ 2 * (x - gx p i) ^ 3 + 6 * qa p s i * s i * (x - gx p i) ^ 2 + s i ^ 2 * (x - gx p i) + 0.

Lemma q2_deriv p s i x : derivable_pt_lim (q2 p s i) x (6 * qa p s i).
Proof. apply (derive_as_cubic _ 0 0 (6 * qa p s i) (s i) (gx p i)); [intros y; unfold q2; ring | ring]. Qed.

Lemma bent_deriv p s i x : derivable_pt_lim (bent p s i) x (q2 p s i x ^ 2).
Proof.
  apply (derive_as_cubic _ (12 * qa p s i ^ 2) (6 * qa p s i * s i) (s i ^ 2) 0 (gx p i)); [reflexivity | unfold q2; ring].
Qed.

(** Where the answers are differentiable at the interior knots (C35 says when they are), no smooth curve through
    the points is less bent, and every other one is more bent. *)
Theorem C112_natural_cubic : forall p F, increasing p -> (3 <= length p)%nat -> spline_of p F ->
  (forall k, (0 < k)%nat -> (k + 1 < length p)%nat -> exists l, derivable_pt_lim F (gx p k) l) ->
  exists F1 F2 e, smooth_curve (gx p) (length p) F F1 F2 /\ square_integral (gx p) (length p) F2 e
  /\ forall g g1 g2 e', smooth_curve (gx p) (length p) g g1 g2 -> (forall i, (i < length p)%nat -> g (gx p i) = gy p i) ->
     square_integral (gx p) (length p) g2 e' ->
     e <= e' /\ (e' = e -> forall x, in_range p x -> g x = F x).
Proof.
  intros p F H Hl HF Df. assert (2 <= length p)%nat as Hl2 by lia.
  destruct (spline_pieces p F H Hl HF) as (s & (S0 & S1 & _) & Pc).
  assert (forall i, (i + 2 < length p)%nat -> jump p s i = 0) as J.
  { intros i Hi. apply (knot_diff p F s i H Hl Pc Hi). apply Df; lia. }
  assert (forall i, (i + 2 < length p)%nat -> q1 p s i (gx p (i + 1)) = q1 p s (i + 1) (gx p (i + 1))) as M.
  { intros i Hi. specialize (J i Hi). unfold jump in J. lra. }
  destruct (bending_curve (gx p) (length p) (q p s) (q1 p s) (q2 p s) (bent p s) (fun i => 6 * qa p s i) Hl2 H
    (q_deriv p s) (q1_deriv p s) (q2_deriv p s) (bent_deriv p s) F Pc M) as (F1 & F2 & C & I & HF1).
  exists F1, F2, (cum (gx p) (bent p s) (length p - 1)). split; [exact C |]. split; [exact I |]. intros g g1 g2 e' Cg T Ig.
  apply (least_bent (gx p) (length p) (q p s) (q1 p s) (q2 p s) (bent p s) (fun i => 6 * qa p s i) Hl2 H
    (q_deriv p s) (q1_deriv p s) (q2_deriv p s) (bent_deriv p s) F Pc g g1 g2 e' (fun i => (g1 (gx p i) - F1 (gx p i)) * s i) Cg).
  - intros i Hi. rewrite (T i Hi). symmetry. now apply C34_interpolates.
  - exact Ig.
  - intros i Hi. assert (gx p i < gx p (i + 1)) as L by (apply H; lia).
    rewrite (HF1 i (gx p i)), (HF1 i (gx p (i + 1))) by (lra || lia).
    rewrite (proj2 (q_left p s i)), (proj2 (q_right p s i L)). reflexivity.
  - rewrite S0. ring.
  - rewrite S1. ring.
Qed.
Print Assumptions C112_natural_cubic.

(** In general the natural cubic answers are more bent than necessary. *)
Definition arch : list (R * R) := [(0, 0); (1, 0); (2, 5 / 6); (3, 5 / 2)].
Definition best (i : nat) : R := match i with 1%nat | 2%nat => 1 | _ => 0 end.

Lemma arch_inc : increasing arch.
Proof.
  intros i j H. unfold gx, arch. simpl in H.
  destruct i as [| [| [| [| i]]]], j as [| [| [| [| j]]]]; simpl; try lra; lia.
Qed.

Lemma arch_bent s : s 0%nat = 0 -> s 3%nat = 0 ->
  cum (gx arch) (bent arch s) 3 = (2 * s 1%nat ^ 2 + s 1%nat * s 2%nat + 2 * s 2%nat ^ 2) / 3.
Proof. intros E0 E3. unfold cum, bent, qa, gx. simpl. rewrite E0, E3. field. Qed.

Theorem C112_natural_cubic_refuted : exists p F F1 F2 e, increasing p /\ (4 <= length p)%nat /\ spline_of p F
  /\ derive_inside (gx p) (length p) F F1 /\ derive_inside (gx p) (length p) F1 F2 /\ square_integral (gx p) (length p) F2 e
  /\ exists g g1 g2 e', smooth_curve (gx p) (length p) g g1 g2 /\ (forall i, (i < length p)%nat -> g (gx p i) = gy p i)
     /\ square_integral (gx p) (length p) g2 e' /\ e' < e.
Proof.
  pose proof arch_inc as H. assert (2 <= length arch)%nat as Hl by (simpl; lia).
  destruct (C34_total arch H ltac:(simpl; lia)) as (F & HF).
  destruct (spline_pieces arch F H ltac:(simpl; lia) HF) as (s & (S0 & S1 & _ & E4 & _) & Pc).
  assert (forall t i x, (i + 1 < length arch)%nat -> gx arch i < x < gx arch (i + 1) -> pw (gx arch) (t : nat -> R -> R) (length arch - 2) x = t i x) as Op.
  { intros t i x Hi Hx. apply (pw_open (gx arch) t (length arch) Hl H (length arch - 2) i x); [lia | lia | lra]. }
  exists arch, F, (pw (gx arch) (q1 arch s) (length arch - 2)), (pw (gx arch) (q2 arch s) (length arch - 2)), (cum (gx arch) (bent arch s) (length arch - 1)).
  split; [exact H |]. split; [simpl; lia |]. split; [exact HF |]. split; [| split; [| split]].
  - apply (pieces_inside (gx arch) (length arch) F (q arch s) (q1 arch s)); [intros; apply Pc; lra || assumption | apply Op | apply q_deriv].
  - apply (pieces_inside (gx arch) (length arch) _ (q1 arch s) (q2 arch s)); [apply Op | apply Op | apply q1_deriv].
  - apply (pieces_integral (gx arch) (length arch) Hl H _ (q2 arch s) (bent arch s)); [apply bent_deriv | apply Op].
  - assert (forall i x, (i + 1 < length arch)%nat -> gx arch i <= x <= gx arch (i + 1) ->
      pw (gx arch) (q arch best) (length arch - 2) x = q arch best i x) as Pb.
    { apply pw_closed; [exact Hl | exact H |]. intros i Hi. rewrite (proj1 (q_left arch best (i + 1))). apply q_right. apply H. lia. }
    destruct (bending_curve (gx arch) (length arch) (q arch best) (q1 arch best) (q2 arch best) (bent arch best) (fun i => 6 * qa arch best i) Hl H
      (q_deriv arch best) (q1_deriv arch best) (q2_deriv arch best) (bent_deriv arch best) _ Pb) as (F1 & F2 & C & I & _).
    { intros i Hi. simpl in Hi. destruct i as [| [| i]]; [| | lia]; unfold q1, qa, qc, gx, gy, best; simpl; field. }
    exists (pw (gx arch) (q arch best) (length arch - 2)), F1, F2, (cum (gx arch) (bent arch best) (length arch - 1)).
    split; [exact C |]. split; [| split; [exact I |]].
    + intros i Hi. destruct (Nat.eq_dec i 3) as [-> | N].
      * rewrite (Pb 2%nat) by (simpl; lia || (unfold gx; simpl; lra)). apply (q_right arch best 2). unfold gx. simpl. lra.
      * simpl in Hi. rewrite (Pb i) by (simpl; lia || (split; [lra | left; apply H; simpl; lia])). apply q_left.
    + destruct (E4 ltac:(simpl; lia)) as (_ & J1 & v & (Nv & Bv) & J2). simpl in S0, S1, J1, J2, Bv. simpl length.
      change (4 - 1)%nat with 3%nat. rewrite !arch_bent by (reflexivity || assumption). unfold best.
      rewrite jump_eq in J1 by (unfold gx; simpl; lra). rewrite jump_eq in J2 by (unfold gx; simpl; lra).
      unfold gx, gy in J1, J2, Bv. simpl in J1, J2, Bv. rewrite S0 in J1. rewrite S1 in J2.
      assert (s 1%nat = 5 / 4) as E1 by lra. set (w := (2 - 1) / 6 / v) in *.
      assert (-1 <= w <= 1) as Hw.
      { assert (0 < Rabs v) as Pv by (apply Rabs_pos_lt; exact Nv).
        assert (Rabs w <= 1) as Aw.
        { unfold w, Rdiv at 1. rewrite Rabs_mult, Rabs_inv, (Rabs_pos_eq ((2 - 1) / 6)) by lra.
          apply (Rmult_le_reg_r (Rabs v)); [exact Pv |]. rewrite Rmult_assoc, Rinv_l by lra. lra. }
        apply abs_inv. exact Aw. }
      rewrite E1 in *. assert (s 2%nat * (2 / 3 - w / 6) = 5 / 8) as E2 by lra.
      assert (3 / 4 <= s 2%nat) as L2 by nra. nra.
Qed.
Print Assumptions C112_natural_cubic_refuted.

(** A parabola against its chords, and four points not on a line where the natural cubic is differentiable. *)
Definition square_data : list (R * R) := [(0, 0); (1, 1); (2, 4)].
Definition bow : list (R * R) := [(0, 0); (1, 0); (2, 1); (3, 9 / 4)].

Lemma bow_inc : increasing bow.
Proof.
  intros i j H. unfold gx, bow. simpl in H.
  destruct i as [| [| [| [| i]]]], j as [| [| [| [| j]]]]; simpl; try lra; lia.
Qed.

Example C112_case :
  (increasing square_data /\ continuous_on (gx square_data 0) (gx square_data (last_of square_data)) (fun x => x ^ 2)
   /\ (forall i, (i < length square_data)%nat -> gx square_data i ^ 2 = gy square_data i)
   /\ derive_inside (gx square_data) (length square_data) (fun x => x ^ 2) (fun x => 2 * x)
   /\ square_integral (gx square_data) (length square_data) (fun x => 2 * x) (32 / 3))
  /\ (increasing bow /\ exists F, spline_of bow F
      /\ forall k, (0 < k)%nat -> (k + 1 < length bow)%nat -> exists l, derivable_pt_lim F (gx bow k) l).
Proof.
  assert (forall x, derivable_pt_lim (fun x => x ^ 2) x (2 * x)) as D.
  { intros x. apply (derive_as_cubic _ 0 1 0 0 0); [intros; ring | ring]. }
  split; [split; [| split; [| split; [| split]]] | split].
  - intros i j H. unfold gx, square_data. simpl in H. destruct i as [| [| [| i]]], j as [| [| [| j]]]; simpl; try lra; lia.
  - apply (continuous_derive _ _ _ (fun x => 2 * x)). exact D.
  - intros i Hi. simpl in Hi. destruct i as [| [| [| i]]]; unfold gx, gy; simpl; try ring; lia.
  - intros i Hi x Hx. apply D.
  - assert (forall x, derivable_pt_lim (fun x => 4 / 3 * x ^ 3) x ((2 * x) ^ 2)) as D3.
    { intros x. apply (derive_as_cubic _ (4 / 3) 0 0 0 0); [intros; ring | field]. }
    exists (fun x => 4 / 3 * x ^ 3). split; [apply (continuous_derive _ _ _ (fun x => (2 * x) ^ 2)); exact D3 |].
    split; [intros i Hi x Hx; apply D3 | unfold gx; simpl; field].
  - exact bow_inc.
  - destruct (C34_total bow bow_inc ltac:(simpl; lia)) as (F & HF). exists F. split; [exact HF |].
    destruct (spline_pieces bow F bow_inc ltac:(simpl; lia) HF) as (s & (S0 & S1 & _ & E4 & _) & Pc).
    destruct (E4 ltac:(simpl; lia)) as (_ & J1 & v & (Nv & Bv) & J2). simpl in S0, S1, J1, J2, Bv.
    pose proof J1 as K1. pose proof J2 as K2.
    rewrite jump_eq in K1 by (unfold gx; simpl; lra). rewrite jump_eq in K2 by (unfold gx; simpl; lra).
    unfold gx, gy in K1, K2, Bv. simpl in K1, K2, Bv. rewrite S0 in K1. rewrite S1 in K2.
    assert (s 1%nat = 3 / 2) as E1 by lra. set (w := (2 - 1) / 6 / v) in *.
    assert (-1 <= w <= 1) as Hw.
    { assert (0 < Rabs v) as Pv by (apply Rabs_pos_lt; exact Nv).
      apply abs_inv. unfold w, Rdiv at 1. rewrite Rabs_mult, Rabs_inv, (Rabs_pos_eq ((2 - 1) / 6)) by lra.
      apply (Rmult_le_reg_r (Rabs v)); [exact Pv |]. rewrite Rmult_assoc, Rinv_l by lra. lra. }
    rewrite E1 in *. assert (s 2%nat * (2 / 3 - w / 6) = 0) as E2 by lra.
    assert (s 2%nat = 0) as Z by (apply Rmult_integral in E2; destruct E2; [assumption | lra]).
    rewrite Z in J1, J2. rewrite !Rmult_0_r in J1, J2.
    intros k H0 Hk. simpl in Hk. replace k with (k - 1 + 1)%nat by lia. apply (knot_diff bow F s (k - 1) bow_inc ltac:(simpl; lia) Pc); [simpl; lia |].
    destruct k as [| [| [| k]]]; [lia | exact J1 | exact J2 | lia].
Qed.
