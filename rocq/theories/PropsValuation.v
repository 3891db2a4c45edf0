(** Properties C87 and C88: how bond values move with the valuation date and with the coupon rate. *)
From Coq Require Import ZArith Reals String List Arith Lia Lra.
From Verif Require Import Base Chrono DateModel DateFacts Value RealValue DayCountModel InterpModel InterpFacts CurveModel BondModel
  Gregorian PropsDate PropsCurve PropsBond PropsRisk PropsCurveFloat.
Import ListNotations.
Open Scope R_scope.

(** ** C87 *)

Lemma total_scale {A} (f : A -> R) k l : total (map (fun a => k * f a) l) = k * total (map f l).
Proof. unfold total. induction l as [| a l IH]; simpl; [ring | rewrite IH; ring]. Qed.

Lemma total_plus {A} (f g : A -> R) l : total (map (fun a => f a + g a) l) = total (map f l) + total (map g l).
Proof. unfold total. induction l as [| a l IH]; simpl; [ring | rewrite IH; ring]. Qed.

Lemma total_cons x l : total (x :: l) = x + total l.
Proof. reflexivity. Qed.

(** A flow due after [s1] but not after [s2]. *)
Definition due_between {V : Type} (s1 s2 : Date) (f : BondCashFlow V) : bool :=
  open_flow s1 f && negb (open_flow s2 f).

(** Valued earlier, a bond is worth the flows due in between plus its later value carried back. *)
Theorem C87_carry_back : forall D (I : Interpolator RV) (c : YieldCurve RV I) (b : Bond R) s1 s2 f v1 v2,
  zero_on_diagonal D -> a_date (settlement_date c) -> a_date s1 -> a_date s2 ->
  (forall g, In g (bond_cash_flows b) -> a_date (payment_date g)) ->
  discount_factor D c s1 s2 = Ret (Ok f) ->
  discounted_value (V := RV) D b s1 c = Ret (Ok v1) -> discounted_value (V := RV) D b s2 c = Ret (Ok v2) ->
  exists w, discounted_value (V := RV) D (mkBond (bond_id_field b) (filter (due_between s1 s2) (bond_cash_flows b))) s1 c = Ret (Ok w)
    /\ v1 = w + f * v2.
Proof.
  intros D I c b s1 s2 f v1 v2 Z As A1 A2 Ap Ef E1 E2.
  destruct (value_total D I b s1 c v1 E1) as (-> & D1). destruct (value_total D I b s2 c v2 E2) as (-> & D2).
  eexists. split.
  - apply C50_sum with (df := df_of D I c s1). simpl. intros g Hg Og. apply filter_In in Hg. now apply D1.
  - simpl. assert (forall g, In g (bond_cash_flows b) -> earlier s2 (due_date g) -> earlier s1 (due_date g)
      /\ df_of D I c s1 (payment_date g) = f * df_of D I c s2 (payment_date g)) as K.
    { intros g Hg Og. assert (earlier s1 (due_date g)) as Og1.
      { apply df_ok in Ef. destruct Ef as (O & _). unfold earlier in *. lia. }
      split; [exact Og1 |].
      pose proof (C40_compose D I c s1 s2 (payment_date g) f _ Z As A1 A2 (Ap g Hg) Ef (D2 g Hg Og)) as E.
      rewrite (D1 g Hg Og1) in E. now injection E. }
    clear E1 E2 D1 D2 Ap. induction (bond_cash_flows b) as [| g l IH]; simpl; [unfold total; simpl; ring |].
    specialize (IH (fun g' H => K g' (or_intror H))). specialize (K g (or_introl eq_refl)).
    unfold due_between at 1. destruct (open_flow s2 g) eqn:O2.
    + apply open_flow_spec in O2. destruct (K O2) as (O1 & E). apply open_flow_spec in O1. rewrite O1. simpl.
      unfold total in *. simpl. rewrite IH, E. ring.
    + destruct (open_flow s1 g) eqn:O1; simpl; [| exact IH]. rewrite O1. simpl. unfold total in *. simpl. rewrite IH. ring.
Qed.
Print Assumptions C87_carry_back.

(** If nothing falls due in between, the earlier value is the later one discounted. *)
Theorem C87_nothing_due : forall D (I : Interpolator RV) (c : YieldCurve RV I) (b : Bond R) s1 s2 f v1 v2,
  zero_on_diagonal D -> a_date (settlement_date c) -> a_date s1 -> a_date s2 ->
  (forall g, In g (bond_cash_flows b) -> a_date (payment_date g)) ->
  (forall g, In g (bond_cash_flows b) -> earlier s1 (due_date g) -> earlier s2 (due_date g)) ->
  discount_factor D c s1 s2 = Ret (Ok f) ->
  discounted_value (V := RV) D b s1 c = Ret (Ok v1) -> discounted_value (V := RV) D b s2 c = Ret (Ok v2) -> v1 = f * v2.
Proof.
  intros D I c b s1 s2 f v1 v2 Z As A1 A2 Ap N Ef E1 E2.
  destruct (C87_carry_back D I c b s1 s2 f v1 v2 Z As A1 A2 Ap Ef E1 E2) as (w & Ew & ->).
  assert (filter (due_between s1 s2) (bond_cash_flows b) = []) as F.
  { clear - N. induction (bond_cash_flows b) as [| g l IH]; [reflexivity |]. simpl.
    rewrite IH by (intros g' H; apply N; now right). unfold due_between. destruct (open_flow s1 g) eqn:O1; [| reflexivity].
    apply open_flow_spec in O1. apply N in O1; [| now left]. apply open_flow_spec in O1. now rewrite O1. }
  rewrite F in Ew. injection Ew as <-. simpl. ring.
Qed.
Print Assumptions C87_nothing_due.

(** ** C88 *)

(** A flow whose amount is [a + k * rate]. *)
Definition at_rate (r : R) (p : Date * Date * R * R) : BondCashFlow R :=
  let '(due, pay, a, k) := p in mkFlow due pay (a + k * r).

Lemma final_affine pen mat face c f : final_cash_flow (V := RV) pen mat face 6 c = Ret (Some f) ->
  forall r, final_cash_flow (V := RV) pen mat face 6 (r * c) = Ret (Some (mkFlow mat mat (face + (payment_amount f - face) * r))).
Proof.
  unfold final_cash_flow. destruct (date_add_months pen 6) as [next |]; [| discriminate]. cbn [try_opt].
  destruct (date_compare mat next).
  - intros [= <-] r. simpl. do 3 f_equal. change (@eq (carrier RV)) with (@eq R). ring.
  - cbn [v_of_int RV try_opt]. intros [= <-] r. simpl. do 3 f_equal. change (@eq (carrier RV)) with (@eq R). ring.
  - destruct (date_add_months next 6) as [next2 |]; [| discriminate]. cbn [v_of_int RV try_opt].
    intros [= <-] r. simpl. do 3 f_equal. change (@eq (carrier RV)) with (@eq R). ring.
Qed.

Lemma final_none pen mat face c : final_cash_flow (V := RV) pen mat face 6 c = Ret None ->
  forall r, final_cash_flow (V := RV) pen mat face 6 (r * c) = Ret None.
Proof.
  unfold final_cash_flow. destruct (date_add_months pen 6) as [next |]; [| reflexivity]. cbn [try_opt].
  destruct (date_compare mat next); try discriminate. destruct (date_add_months next 6) as [next2 |]; [discriminate | reflexivity].
Qed.

Lemma final_total pen mat face c : exists x, final_cash_flow (V := RV) pen mat face 6 c = Ret x.
Proof.
  unfold final_cash_flow. destruct (date_add_months pen 6) as [next |]; [| eexists; reflexivity]. cbn [try_opt].
  destruct (date_compare mat next); try (eexists; reflexivity). destruct (date_add_months next 6) as [next2 |]; eexists; reflexivity.
Qed.

Lemma days_pos a b : a_date a -> a_date b -> earlier a b -> 0 < IZR (date_sub b a).
Proof.
  intros Ha Hb L. pose proof (C03_sub_laws a b b Ha Hb Hb) as (_ & _ & _ & _ & P). apply P in L. now apply IZR_lt.
Qed.

Lemma days_nonneg a b : a_date a -> a_date b -> ~ earlier b a -> 0 <= IZR (date_sub b a).
Proof.
  intros Ha Hb L. pose proof (C03_sub_laws b a a Hb Ha Ha) as (_ & N & _ & _ & P). rewrite <- P in L. apply IZR_le. lia.
Qed.

Lemma frac_pos n m : 0 <= n -> 0 < m -> 0 <= n / m.
Proof. intros Hn Hm. apply Rmult_le_pos; [exact Hn | left; now apply Rinv_0_lt_compat]. Qed.

Lemma adjusted_pos issue first (c a : R) : a_date issue -> a_date first -> ~ earlier first issue -> 0 <= c ->
  adjusted (V := RV) issue first c a -> 0 <= a.
Proof.
  intros Ai Af O Hc (prior & P & Q). apply C07_sub_months in P; [| exact Af | lia]. destruct P as [Rp Mp].
  assert (a_date prior) as Ap by now apply (moved_a_date first (- 6)).
  assert (earlier prior first) as Ep by (apply (moved_back first 6); auto; [apply valid_proper; now apply valid_a_date | lia]).
  destruct Q as [(_ & n & m & N & M & ->) | [(_ & ->) | (L & prior2 & n & m & E2 & N & M & ->)]]; [| exact Hc |].
  - injection N as <-. injection M as <-. simpl.
    apply Rmult_le_pos; [exact Hc | apply frac_pos; [now apply days_nonneg | now apply days_pos]].
  - apply C07_sub_months in E2; [| exact Ap | lia]. destruct E2 as [R2 M2].
    assert (a_date prior2) as A2 by now apply (moved_a_date prior (- 6)).
    assert (earlier prior2 prior) as Ep2 by (apply (moved_back prior 6); auto; [apply valid_proper; now apply valid_a_date | lia]).
    injection N as <-. injection M as <-. simpl. apply Rplus_le_le_0_compat; [exact Hc |].
    apply Rmult_le_pos; [| exact Hc]. apply frac_pos; [left; now apply days_pos | now apply days_pos].
Qed.

Lemma redeemed_pos pen mat (face c a : R) : a_date pen -> a_date mat -> ~ earlier mat pen -> 0 <= c ->
  redeemed (V := RV) pen mat face c a -> 0 <= a - face.
Proof.
  intros Ap Am O Hc (next & P & Q). apply C06_add_months in P; [| exact Ap | lia]. destruct P as [Rn Mn].
  assert (a_date next) as An by now apply (moved_a_date pen 6).
  assert (earlier pen next) as Ep by (apply (moved_earlier pen 6); auto; [apply valid_proper; now apply valid_a_date | lia]).
  destruct Q as [(_ & n & m & N & M & ->) | [(_ & ->) | (L & next2 & n & m & E2 & N & M & ->)]].
  - injection N as <-. injection M as <-. simpl.
    assert (0 <= c * (IZR (date_sub mat pen) / IZR (date_sub next pen))); [| lra].
    apply Rmult_le_pos; [exact Hc | apply frac_pos; [now apply days_nonneg | now apply days_pos]].
  - simpl. lra.
  - apply C06_add_months in E2; [| exact An | lia]. destruct E2 as [R2 M2].
    assert (a_date next2) as A2 by now apply (moved_a_date next 6).
    assert (earlier next next2) as Ep2 by (apply (moved_earlier next 6); auto; [apply valid_proper; now apply valid_a_date | lia]).
    injection N as <-. injection M as <-. simpl.
    assert (0 <= IZR (date_sub mat next) / IZR (date_sub next2 next) * c); [| lra].
    apply Rmult_le_pos; [| exact Hc]. apply frac_pos; [left; now apply days_pos | now apply days_pos].
Qed.

Lemma redeemed_strict pen mat (face c a : R) : a_date pen -> a_date mat -> earlier pen mat -> 0 < c ->
  redeemed (V := RV) pen mat face c a -> 0 < a - face.
Proof.
  intros Ap Am O Hc (next & P & Q). apply C06_add_months in P; [| exact Ap | lia]. destruct P as [Rn Mn].
  assert (a_date next) as An by now apply (moved_a_date pen 6).
  assert (earlier pen next) as Ep by (apply (moved_earlier pen 6); auto; [apply valid_proper; now apply valid_a_date | lia]).
  destruct Q as [(_ & n & m & N & M & ->) | [(_ & ->) | (L & next2 & n & m & E2 & N & M & ->)]].
  - injection N as <-. injection M as <-. simpl.
    assert (0 < c * (IZR (date_sub mat pen) / IZR (date_sub next pen))); [| lra].
    apply Rmult_lt_0_compat; [exact Hc |]. apply Rmult_lt_0_compat; [now apply days_pos | apply Rinv_0_lt_compat; now apply days_pos].
  - simpl. lra.
  - apply C06_add_months in E2; [| exact An | lia]. destruct E2 as [R2 M2].
    assert (a_date next2) as A2 by now apply (moved_a_date next 6).
    assert (earlier next next2) as Ep2 by (apply (moved_earlier next 6); auto; [apply valid_proper; now apply valid_a_date | lia]).
    injection N as <-. injection M as <-. simpl.
    assert (0 < IZR (date_sub mat next) / IZR (date_sub next2 next) * c); [| lra].
    apply Rmult_lt_0_compat; [| exact Hc]. apply Rmult_lt_0_compat; [now apply days_pos | apply Rinv_0_lt_compat; now apply days_pos].
Qed.

(** Whether a bond can be built, and its dates, do not depend on the rate; every amount is affine in the rate: the
    final one is the face plus a multiple of the rate, the others are multiples of the rate.  The multiples are
    non-negative if the face is, the first coupon is not before issue and the maturity not before the penultimate
    coupon; the last is positive if the face is and the maturity is after the penultimate coupon. *)
Theorem C88_flows : forall id issue first pen mat fr face r0 b0, a_date first ->
  bond_new (V := RV) id issue first pen mat fr r0 face = Ret (Some b0) ->
  exists coupons k,
    (forall r, bond_new (V := RV) id issue first pen mat fr r face
       = Ret (Some (mkBond id (map (at_rate r) (map (fun q => (fst q, 0, snd q)) coupons ++ [(mat, mat, face, k)])))))
    /\ (a_date issue -> a_date pen -> a_date mat -> ~ earlier first issue -> ~ earlier mat pen -> 0 <= face ->
        0 <= k /\ forall q, In q coupons -> 0 <= snd q)
    /\ (a_date pen -> a_date mat -> earlier pen mat -> 0 < face -> 0 < k).
Proof.
  intros id issue first pen mat fr face r0 b0 Af E0. destruct fr.
  assert (forall r, bond_new (V := RV) id issue first pen mat SA r face
    = bind (over_some (map (scale_flow r)) (while roll_fuel (schedule_step (V := RV) pen 6 (face / 2)) (first, []))) (fun flows =>
       try_opt flows (fun flows =>
       bind (first_cash_flow (V := RV) issue first 6 (r * (face / 2)) flows) (fun flows =>
       try_opt flows (fun flows =>
       bind (final_cash_flow (V := RV) pen mat face 6 (r * (face / 2))) (fun last =>
       try_opt last (fun last => Ret (Some (mkBond id (flows ++ [last])))))))))) as U.
  { intros r. unfold bond_new. change (12 / frequency_num SA)%Z with 6%Z. change (frequency_num SA) with 2%Z. cbv zeta.
    change (v_of_int (v := RV) 2) with (Some 2). cbn [try_opt].
    assert (v_div (v := RV) (v_mul (v := RV) r face) 2 = r * (face / 2)) as -> by (simpl; change (@eq (carrier RV)) with (@eq R); field).
    rewrite scale_schedule. reflexivity. }
  rewrite U in E0. destruct (while roll_fuel _ _) as [[fl |] | |] eqn:E1; try discriminate. cbn [over_some bind try_opt] in E0.
  rewrite scale_first in E0. destruct (first_cash_flow (V := RV) issue first 6 (face / 2) fl) as [[fl' |] | |] eqn:E2; try discriminate.
  cbn [over_some bind try_opt] in E0.
  destruct (final_cash_flow (V := RV) pen mat face 6 (face / 2)) as [[f |] | |] eqn:E3.
  2: { rewrite (final_none _ _ _ _ E3) in E0. discriminate. }
  2, 3: destruct (final_total pen mat face (face / 2)) as (x & Ex); rewrite Ex in E3; discriminate.
  exists (map (fun g => (due_date g, payment_date g, payment_amount g)) fl'), (payment_amount f - face). split; [| split].
  - intros r. rewrite U. cbn [over_some bind try_opt]. rewrite scale_first, E2. cbn [over_some bind try_opt].
    rewrite (final_affine _ _ _ _ _ E3). cbn [bind try_opt]. do 3 f_equal. rewrite map_app. f_equal. rewrite !map_map.
    apply map_ext. intros g. unfold scale_flow. simpl. f_equal. ring.
  - intros Ai Ap Am O1 O2 Hf. assert (0 <= face / 2) as Hc by lra.
    destruct (final_shape (V := RV) pen mat face (face / 2) f E3) as (_ & _ & Rd). split; [now apply (redeemed_pos pen mat face (face / 2)) |].
    intros q Hq. apply in_map_iff in Hq. destruct Hq as (g & <- & Hg). simpl.
    destruct (schedule_loop (V := RV) pen (face / 2) first Af) as [(N & _) | (ds & fl2 & E & S & F)];
      [discriminate (eq_trans (eq_sym E1) N) |].
    pose proof (eq_trans (eq_sym E1) E) as Q. injection Q as <-.
    destruct (first_shape (V := RV) issue first (face / 2) fl fl' (flow_amounts _ _ _ F) E2) as [(-> & ->) | (f0 & a & tl & -> & -> & Ad)];
      [contradiction |].
    destruct Hg as [<- | Hg]; [simpl; now apply (adjusted_pos issue first (face / 2)) |].
    assert (forall g, In g (f0 :: tl) -> payment_amount g = face / 2) as Am2.
    { clear - F. induction F as [| d g ds l (_ & _ & Ea) F IH]; [intros g [] |]. intros g' [<- | H]; [exact Ea | now apply IH]. }
    exact (eq_ind_r (fun x => 0 <= x) Hc (Am2 g (or_intror Hg))).
  - intros Ap Am O Hf. destruct (final_shape (V := RV) pen mat face (face / 2) f E3) as (_ & _ & Rd).
    apply (redeemed_strict pen mat face (face / 2)); auto. lra.
Qed.
Print Assumptions C88_flows.

(** On any curve and date where a bond has a value, the value is an affine function of its coupon rate, whose
    constant is the discounted face, and rising if factors are positive. *)
Theorem C88_value : forall D (I : Interpolator RV) (c : YieldCurve RV I) settle id issue first pen mat fr face r0 b0 v0,
  a_date first -> bond_new (V := RV) id issue first pen mat fr r0 face = Ret (Some b0) ->
  discounted_value (V := RV) D b0 settle c = Ret (Ok v0) ->
  exists A K,
    (forall r, exists b, bond_new (V := RV) id issue first pen mat fr r face = Ret (Some b)
                 /\ discounted_value (V := RV) D b settle c = Ret (Ok (A + K * r)))
    /\ (earlier settle mat -> exists u, discount_factor D c settle mat = Ret (Ok u) /\ A = u * face)
    /\ (~ earlier settle mat -> A = 0)
    /\ (a_date issue -> a_date pen -> a_date mat -> ~ earlier first issue -> ~ earlier mat pen -> 0 <= face -> 0 <= K)
    /\ (a_date issue -> a_date pen -> a_date mat -> ~ earlier first issue -> earlier pen mat -> earlier settle mat -> 0 < face -> 0 < K).
Proof.
  intros D I c settle id issue first pen mat fr face r0 b0 v0 Af E0 V0.
  destruct (C88_flows id issue first pen mat fr face r0 b0 Af E0) as (cs & k & B & Pos & Pos1).
  pose proof (B r0) as Q. rewrite E0 in Q. injection Q as ->.
  destruct (value_total D I _ settle c v0 V0) as (_ & Df). simpl in Df. clear E0 V0.
  set (parts := map (fun q => (fst q, 0, snd q)) cs ++ [(mat, mat, face, k)]) in *.
  set (due := fun p : Date * Date * R * R => fst (fst (fst p))). set (pay := fun p : Date * Date * R * R => snd (fst (fst p))).
  set (df := fun p => df_of D I c settle (pay p)). set (live := filter (fun p => date_ltb settle (due p)) parts).
  assert (forall p, In p parts -> earlier settle (due p) -> discount_factor D c settle (pay p) = Ret (Ok (df p))) as Dp.
  { intros p Hp Op. pose proof (Df (at_rate r0 p) (in_map _ _ _ Hp)) as E. destruct p as [[[d q] a] m]. now apply E. }
  exists (total (map (fun p => df p * snd (fst p)) live)), (total (map (fun p => df p * snd p) live)). split; [| split; [| split; [| split]]].
  - intros r. eexists. split; [apply B |]. rewrite (C50_sum D I _ settle c (df_of D I c settle)).
    + simpl. do 2 f_equal. transitivity (total (map (fun p => df p * payment_amount (at_rate r p)) live)).
      * f_equal. unfold live. clear. induction parts as [| [[[d q] a] m] l IH]; [reflexivity |]. simpl. unfold open_flow at 1. simpl.
        change (due (d, q, a, m)) with d. destruct (date_ltb settle d); simpl; rewrite IH; reflexivity.
      * rewrite Rmult_comm, <- total_scale, <- total_plus. f_equal. apply map_ext. intros [[[d q] a] m]. simpl. ring.
    + simpl. intros f Hf Of. apply in_map_iff in Hf. destruct Hf as (p & <- & Hp). pose proof (Dp p Hp) as E.
      destruct p as [[[d q] a] m]. now apply E.
  - intros Om. exists (df (mat, mat, face, k)). split; [apply (Dp (mat, mat, face, k)); [apply in_or_app; right; now left | exact Om] |].
    apply date_ltb_earlier in Om. unfold live, parts. clear - Om. induction cs as [| q l IH]; cbn [map app filter].
    + change (due (mat, mat, face, k)) with mat. rewrite Om. unfold total. simpl. ring.
    + destruct (date_ltb settle (due (fst q, 0, snd q))); [| exact IH]. cbn [map]. rewrite total_cons, IH. simpl. ring.
  - intros Om. rewrite <- date_ltb_earlier in Om. unfold live, parts. clear - Om. induction cs as [| q l IH]; cbn [map app filter].
    + change (due (mat, mat, face, k)) with mat. destruct (date_ltb settle mat); [now destruct Om | reflexivity].
    + destruct (date_ltb settle (due (fst q, 0, snd q))); [| exact IH]. cbn [map]. rewrite total_cons, IH. simpl. ring.
  - intros H1 H2 H3 H4 H5 H6. destruct (Pos H1 H2 H3 H4 H5 H6) as (Pk & Pc).
    assert (forall p, In p live -> 0 <= df p * snd p) as Ps.
    { intros p Hp. apply filter_In in Hp. destruct Hp as (Hp & Op). apply date_ltb_earlier in Op.
      apply Rmult_le_pos; [left; eapply C40_positive; now apply Dp |].
      apply in_app_or in Hp. destruct Hp as [Hp | [<- | []]]; [| exact Pk].
      apply in_map_iff in Hp. destruct Hp as (q & <- & Hq). simpl. now apply Pc. }
    revert Ps. clear. induction live as [| p l IH]; intros Ps; unfold total in *; simpl; [lra |].
    apply Rplus_le_le_0_compat; [apply Ps; now left | apply IH; intros q Hq; apply Ps; now right].
  - intros H1 H2 H3 H4 H5 Om H6. assert (~ earlier mat pen) as H5' by (unfold earlier in *; lia).
    destruct (Pos H1 H2 H3 H4 H5' (Rlt_le _ _ H6)) as (_ & Pc). pose proof (Pos1 H2 H3 H5 H6) as Pk.
    assert (total (map (fun _ : Date * Date * R * R => 0) live) = 0) as Z0 by (clear; unfold total; induction live; simpl; lra).
    rewrite <- Z0. apply (total_lt _ _ live (mat, mat, face, k)).
    + intros p Hp. apply filter_In in Hp. destruct Hp as (Hp & Op). apply date_ltb_earlier in Op.
      apply Rmult_le_pos; [left; eapply C40_positive; now apply Dp |].
      apply in_app_or in Hp. destruct Hp as [Hp | [<- | []]]; [| left; exact Pk].
      apply in_map_iff in Hp. destruct Hp as (q & <- & Hq). simpl. now apply Pc.
    + apply filter_In. split; [apply in_or_app; right; now left | apply date_ltb_earlier; exact Om].
    + apply Rmult_lt_0_compat; [| exact Pk]. eapply C40_positive. apply Dp; [apply in_or_app; right; now left | exact Om].
Qed.
Print Assumptions C88_value.

(** Every price is the value for exactly one coupon rate; a higher rate is a higher price, and the price at rate zero is
    the discounted face. *)
Theorem C88_par : forall D (I : Interpolator RV) (c : YieldCurve RV I) settle id issue first pen mat fr face r0 b0 v0,
  a_date issue -> a_date first -> a_date pen -> a_date mat -> ~ earlier first issue -> earlier pen mat -> earlier settle mat -> 0 < face ->
  bond_new (V := RV) id issue first pen mat fr r0 face = Ret (Some b0) -> discounted_value (V := RV) D b0 settle c = Ret (Ok v0) ->
  exists u, discount_factor D c settle mat = Ret (Ok u)
    /\ (forall P, exists r, (exists b, bond_new (V := RV) id issue first pen mat fr r face = Ret (Some b) /\ discounted_value (V := RV) D b settle c = Ret (Ok P))
         /\ (forall r' b', bond_new (V := RV) id issue first pen mat fr r' face = Ret (Some b') -> discounted_value (V := RV) D b' settle c = Ret (Ok P) -> r' = r)
         /\ (0 < r <-> u * face < P))
    /\ forall r r' b b' v v', r < r' -> bond_new (V := RV) id issue first pen mat fr r face = Ret (Some b) ->
       bond_new (V := RV) id issue first pen mat fr r' face = Ret (Some b') ->
       discounted_value (V := RV) D b settle c = Ret (Ok v) -> discounted_value (V := RV) D b' settle c = Ret (Ok v') -> v < v'.
Proof.
  intros D I c settle id issue first pen mat fr face r0 b0 v0 Ai Af Ap Am O1 O2 O3 Hf E0 V0.
  destruct (C88_value D I c settle id issue first pen mat fr face r0 b0 v0 Af E0 V0) as (A & K & Val & Fa & _ & _ & Ks).
  specialize (Ks Ai Ap Am O1 O2 O3 Hf). destruct (Fa O3) as (u & Eu & ->). exists u. split; [exact Eu |].
  assert (forall r b v, bond_new (V := RV) id issue first pen mat fr r face = Ret (Some b) -> discounted_value (V := RV) D b settle c = Ret (Ok v) ->
    v = u * face + K * r) as Is.
  { intros r b v Eb Ev. destruct (Val r) as (b1 & Eb1 & Ev1). pose proof (eq_trans (eq_sym Eb) Eb1) as Q. injection Q as <-.
    pose proof (eq_trans (eq_sym Ev) Ev1) as Q. now injection Q. }
  split.
  - intros P. change (carrier RV) with R in *. exists ((P - u * face) / K). split; [| split].
    + destruct (Val ((P - u * face) / K)) as (b & Eb & Ev). exists b. split; [exact Eb |]. rewrite Ev.
      assert ((u * face + K * ((P - u * face) / K))%R = (P : R)) as Q by (change (carrier RV) with R in *; field; lra). now rewrite Q.
    + intros r' b' Eb Ev. pose proof (Is r' b' P Eb Ev) as ->. change (carrier RV) with R in *. field. lra.
    + split; intros H.
      * assert (0 < (P - u * face) / K * K) as H' by now apply Rmult_lt_0_compat. unfold Rdiv in H'. rewrite Rmult_assoc, Rinv_l in H' by lra. lra.
      * apply Rmult_lt_0_compat; [lra | now apply Rinv_0_lt_compat].
  - intros r r' b b' v v' L Eb Eb' Ev Ev'. rewrite (Is r b v Eb Ev), (Is r' b' v' Eb' Ev').
    apply Rplus_lt_compat_l, Rmult_lt_compat_l; assumption.
Qed.
Print Assumptions C88_par.

(** The example curve answers from 2025-03-01 to 2028-02-29. *)
Lemma ex_factors : exists c, curve_new (act_365 RV) (Linear RV) ex_settle ex_maturities ex_yields = Ret (Ok c)
  /\ settlement_date c = ex_settle /\ quotes (act_365 RV) c (mkDate 2025 3 1) (mkDate 2028 2 29).
Proof.
  destruct (C85_reals (act_365 RV) ex_settle ex_maturities ex_yields ex_settle) as (Q & _).
  - now right.
  - reflexivity.
  - apply valid_a_date; reflexivity.
  - intros m [<- | [<- | [<- | []]]]; apply valid_a_date; reflexivity.
  - intros [| [| [| k]]] [| [| [| j]]] mi mj Hij Ei Ej; try lia; simpl in Ei, Ej; try discriminate;
      try (destruct j; discriminate Ej); injection Ei as <-; injection Ej as <-; unfold earlier; simpl; lia.
  - apply Q. simpl. lia.
Qed.

Lemma ex_value (c : YieldCurve RV (Linear RV)) s (b : Bond R) : settlement_date c = ex_settle ->
  quotes (act_365 RV) c (mkDate 2025 3 1) (mkDate 2028 2 29) ->
  a_date s -> ~ earlier s (mkDate 2025 3 1) -> ~ earlier (mkDate 2028 2 29) s ->
  (forall f, In f (bond_cash_flows b) -> earlier s (due_date f) ->
     a_date (payment_date f) /\ ~ earlier (payment_date f) s /\ ~ earlier (mkDate 2028 2 29) (payment_date f)) ->
  exists v, discounted_value (V := RV) (act_365 RV) b s c = Ret (Ok v).
Proof.
  intros Es Q As O1 O2 H. eexists. apply (C50_sum (act_365 RV) (Linear RV) b s c (df_of (act_365 RV) (Linear RV) c s)).
  intros f Hf Of. destruct (H f Hf Of) as (Ap & P1 & P2). unfold df_of.
  assert (~ earlier s (settlement_date c)) as O0.
  { rewrite Es. clear - O1. unfold earlier in *. cbn in *. lia. }
  assert (~ earlier (payment_date f) (mkDate 2025 3 1)) as P0.
  { clear - O1 P1. unfold earlier in *. cbn [nd_year nd_month nd_day] in *. lia. }
  destruct (proj1 (Q s (payment_date f) As Ap P1 O0)) as (v & E).
  - split; [split; [exact P0 | exact P2] | right; split; assumption].
  - now rewrite E.
Qed.

(** 5 in September 2025 and 105 in March 2026, seen in March and October 2025. *)
Example C87_case : let b := mkBond (V := R) String.EmptyString [mkFlow (mkDate 2025 9 1) (mkDate 2025 9 1) 5; mkFlow (mkDate 2026 3 2) (mkDate 2026 3 2) 105] in
  exists c f v1 v2, discount_factor (act_365 RV) c (mkDate 2025 3 1) (mkDate 2025 10 1) = Ret (Ok f)
  /\ discounted_value (V := RV) (act_365 RV) (I := Linear RV) b (mkDate 2025 3 1) c = Ret (Ok v1)
  /\ discounted_value (V := RV) (act_365 RV) b (mkDate 2025 10 1) c = Ret (Ok v2) /\ 0 < f * v2 < v1.
Proof.
  intros b. destruct ex_factors as (c & Ec & Es & Q). exists c.
  assert (a_date (mkDate 2025 3 1) /\ a_date (mkDate 2025 10 1) /\ a_date (mkDate 2025 9 1) /\ a_date (mkDate 2026 3 2)) as (A1 & A2 & A3 & A4)
    by (rewrite <- !valid_a_date; repeat split; reflexivity).
  destruct (proj1 (Q (mkDate 2025 3 1) (mkDate 2025 10 1) A1 A2 ltac:(unfold earlier; simpl; lia)
    ltac:(rewrite Es; unfold earlier; simpl; lia))) as (f & Ef); [unfold earlier; simpl; split; [lia | right; lia] |].
  destruct (ex_value c (mkDate 2025 3 1) b Es Q A1) as (v1 & E1);
    [unfold earlier; simpl; lia | unfold earlier; simpl; lia
    | intros g [<- | [<- | []]] _; cbn [payment_date]; (split; [assumption | unfold earlier; simpl; lia]) |].
  destruct (ex_value c (mkDate 2025 10 1) b Es Q A2) as (v2 & E2);
    [unfold earlier; simpl; lia | unfold earlier; simpl; lia
    | intros g [<- | [<- | []]] O; cbn [payment_date]; [exfalso; unfold earlier in O; simpl in O; lia | split; [assumption | unfold earlier; simpl; lia]] |].
  exists f, v1, v2. split; [exact Ef |]. split; [exact E1 |]. split; [exact E2 |].
  assert (zero_on_diagonal (act_365 RV)) as Z by apply (C40_day_counts Checked).
  assert (a_date (settlement_date c)) as As by (rewrite Es; apply valid_a_date; reflexivity).
  assert (forall g, In g (bond_cash_flows b) -> a_date (payment_date g)) as Ap by (intros g [<- | [<- | []]]; assumption).
  destruct (C87_carry_back (act_365 RV) (Linear RV) c b _ _ f v1 v2 Z As A1 A2 Ap Ef E1 E2) as (w & Ew & ->).
  apply value_total in Ew. destruct Ew as (-> & Dw). apply value_total in E2. destruct E2 as (-> & D2).
    specialize (Dw _ (or_introl eq_refl) ltac:(unfold earlier; simpl; lia)).
    specialize (D2 _ (or_intror (or_introl eq_refl)) ltac:(unfold earlier; simpl; lia)).
    apply C40_positive in Ef, Dw, D2. simpl in *. unfold total. simpl.
    assert (0 < f * (df_of (act_365 RV) (Linear RV) c (mkDate 2025 10 1) (mkDate 2026 3 2) * 105 + 0)); [| lra].
    apply Rmult_lt_0_compat; [exact Ef |]. lra.
Qed.

(** A bond of face 100 from March 2025 to March 2027 valued at issue: worth more with a higher coupon. *)
Example C88_case : exists c A K, settlement_date c = ex_settle
  /\ (forall r, exists b,
       bond_new (V := RV) "b"%string (mkDate 2025 3 3) (mkDate 2025 9 3) (mkDate 2026 9 3) (mkDate 2027 3 3) SA r 100 = Ret (Some b)
       /\ discounted_value (V := RV) (act_365 RV) (I := Linear RV) b (mkDate 2025 3 3) c = Ret (Ok (A + K * r)))
  /\ 0 < A /\ 0 < K.
Proof.
  destruct ex_factors as (c & Ec & Es & Q).
  assert (a_date (mkDate 2025 3 3) /\ a_date (mkDate 2025 9 3) /\ a_date (mkDate 2026 9 3) /\ a_date (mkDate 2027 3 3)) as (A1 & A2 & A3 & A4)
    by (rewrite <- !valid_a_date; repeat split; reflexivity).
  assert (exists b0, bond_new (V := RV) "b"%string (mkDate 2025 3 3) (mkDate 2025 9 3) (mkDate 2026 9 3) (mkDate 2027 3 3) SA 1 100 = Ret (Some b0)
    /\ forall f, In f (bond_cash_flows b0) -> a_date (payment_date f) /\ ~ earlier (payment_date f) (mkDate 2025 3 3)
         /\ ~ earlier (mkDate 2028 2 29) (payment_date f)) as (b0 & E0 & P0).
  { eexists. split; [vm_compute; reflexivity |]. simpl.
    intros f Hf. repeat (destruct Hf as [<- | Hf]; [cbn [payment_date]; (split; [apply valid_a_date; reflexivity | unfold earlier; simpl; lia]) |]).
    contradiction. }
  destruct (ex_value c (mkDate 2025 3 3) b0 Es Q A1) as (v0 & V0);
    [unfold earlier; simpl; lia | unfold earlier; simpl; lia | intros f Hf _; now apply P0 |].
  destruct (C88_value (act_365 RV) (Linear RV) c (mkDate 2025 3 3) _ _ _ _ _ _ _ _ _ _ A2 E0 V0) as (A & K & F & M & _ & _ & P).
  exists c, A, K. split; [exact Es |]. split; [exact F |]. split.
  - destruct M as (u & Eu & ->); [unfold earlier; simpl; lia |]. apply C40_positive in Eu. lra.
  - apply P; auto; try (unfold earlier; simpl; lia). lra.
Qed.
