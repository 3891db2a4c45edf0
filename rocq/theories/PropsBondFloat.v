(** Property C97: bond values in floating point. *)
From Coq Require Import String ZArith Reals List Bool Arith Lia Lra Psatz.
From Flocq Require Import Core BinarySingleNaN.
From Verif Require Import Base Chrono DateModel DateFacts Value FloatValue FloatFacts RealValue DayCountModel InterpModel CurveModel BondModel
  Gregorian PropsDate PropsCurve PropsBond PropsFloatLinear.
Import ListNotations.
Open Scope R_scope.

(** ** Specification *)

(** A float that is a number or infinity, and not below zero. *)
Definition not_negative {prec emax} (x : binary_float prec emax) : Prop := is_nan x = false /\ Bltb x (B754_zero false) = false.

(** The exact sum of the open flows times [df], and the sum of the absolute values of the terms. *)
Definition exact_value {prec emax} (df : Date -> binary_float prec emax) settle (fl : list (BondCashFlow (binary_float prec emax))) : R :=
  total (map (fun f => B2R (df (payment_date f)) * B2R (payment_amount f)) (filter (open_flow settle) fl)).
Definition gross_value {prec emax} (df : Date -> binary_float prec emax) settle (fl : list (BondCashFlow (binary_float prec emax))) : R :=
  total (map (fun f => Rabs (B2R (df (payment_date f)) * B2R (payment_amount f))) (filter (open_flow settle) fl)).

(** ** Lemmas *)

Lemma filter_open {V} settle (f : BondCashFlow V) l : date_ltb settle (due_date f) = true ->
  filter (open_flow settle) (f :: l) = f :: filter (open_flow settle) l.
Proof. intros L. simpl. unfold open_flow at 1. now rewrite L. Qed.
Lemma filter_closed {V} settle (f : BondCashFlow V) l : date_ltb settle (due_date f) = false ->
  filter (open_flow settle) (f :: l) = filter (open_flow settle) l.
Proof. intros L. simpl. unfold open_flow at 1. now rewrite L. Qed.

(** One flow of a successful valuation. *)
Lemma value_cons {V : Value} (D : DayCount V) (I : Interpolator V) settle (c : YieldCurve V I) f (l : list (BondCashFlow V)) (pv v : V) :
  for_each (f :: l) (value_step D settle c) (Ok pv) = Ret (Ok v) ->
  (date_ltb settle (due_date f) = false /\ for_each l (value_step D settle c) (Ok pv) = Ret (Ok v))
  \/ (date_ltb settle (due_date f) = true /\ exists x, discount_factor D c settle (payment_date f) = Ret (Ok x)
      /\ for_each l (value_step D settle c) (Ok (pv + x * payment_amount f)%V) = Ret (Ok v)).
Proof.
  assert (forall (l : list (BondCashFlow V)) er, for_each l (value_step D settle c) (Err er) = Ret (Err er)) as Er.
  { induction l0 as [| g l0 IH]; intros er; [reflexivity |]. simpl. apply IH. }
  simpl. destruct (date_ltb settle (due_date f)); [right | left; auto]. split; [reflexivity |].
  destruct (discount_factor D c settle (payment_date f)) as [[x | er] | |]; simpl in *; try discriminate; [eauto |].
  rewrite Er in H. discriminate.
Qed.

Section Format.
Variables prec emax : Z.
Context (Hp : Prec_gt_0 prec) (He : Prec_lt_emax prec emax) (e : binary_float prec emax -> binary_float prec emax).
Notation fl := (binary_float prec emax).
Notation V := (FV prec emax Hp He e).
Notation u := (unit_roundoff prec).
Notation eta := (half_tiny prec emax).

(** One more term. *)
Lemma step_error (k : nat) (s a p pv d d' n : R) : 0 <= u -> 0 <= eta -> 0 <= a -> Rabs s <= a ->
  Rabs (pv - s) <= ((1 + u) ^ (k + 1) - 1) * a + INR k * eta * (1 + u) ^ k ->
  Rabs d <= u -> Rabs d' <= u -> Rabs n <= eta ->
  Rabs ((pv + (p * (1 + d') + n)) * (1 + d) - (s + p))
  <= ((1 + u) ^ (k + 2) - 1) * (a + Rabs p) + INR (k + 1) * eta * (1 + u) ^ (k + 1).
Proof.
  intros Hu Hn Ha Hs Hpv Hd Hd' Hn'.
  replace ((pv + (p * (1 + d') + n)) * (1 + d) - (s + p)) with ((1 + d) * ((pv - s) + (p * d' + n)) + d * (s + p)) by ring.
  assert (1 <= (1 + u) ^ k) as G by (apply pow_R1_Rle; lra).
  assert (0 <= INR k) as Pk by apply pos_INR.
  set (g := (1 + u) ^ k) in *.
  replace ((1 + u) ^ (k + 2)) with (g * (1 + u) * (1 + u)) by (unfold g; rewrite !pow_add; simpl; ring).
  replace ((1 + u) ^ (k + 1)) with (g * (1 + u)) in * by (unfold g; rewrite !pow_add; simpl; ring).
  rewrite plus_INR. change (INR 1) with 1. set (K := INR k) in *. clearbody g K.
  assert (Rabs (1 + d) <= 1 + u) as B1 by (eapply Rle_trans; [apply Rabs_triang |]; rewrite Rabs_R1; lra).
  assert (Rabs (p * d' + n) <= u * Rabs p + eta) as B2.
  { eapply Rle_trans; [apply Rabs_triang |]. rewrite Rabs_mult, Rmult_comm. pose proof (Rabs_pos p). nra. }
  assert (Rabs ((pv - s) + (p * d' + n)) <= (g * (1 + u) - 1) * a + K * eta * g + (u * Rabs p + eta)) as B3.
  { eapply Rle_trans; [apply Rabs_triang |]. lra. }
  assert (Rabs (d * (s + p)) <= u * (a + Rabs p)) as B4.
  { rewrite Rabs_mult. apply Rmult_le_compat; try apply Rabs_pos; [exact Hd |]. eapply Rle_trans; [apply Rabs_triang |]. lra. }
  eapply Rle_trans; [apply Rabs_triang |]. rewrite Rabs_mult.
  eapply Rle_trans; [apply Rplus_le_compat; [apply Rmult_le_compat; [apply Rabs_pos | apply Rabs_pos | exact B1 | exact B3] | exact B4] |].
  pose proof (Rabs_pos p) as Pp. set (P := Rabs p) in *. clearbody P.
  assert (0 <= u * P) by nra. assert (0 <= (g - 1) * (1 + u) * (1 + u) * P) as Q1.
  { repeat apply Rmult_le_pos; lra. }
  assert (0 <= (g - 1) * (1 + u) * eta) as Q2.
  { repeat apply Rmult_le_pos; lra. }
  clear - Q1 Q2. lra.
Qed.

(** The factor, where there is one. *)
Definition factor_of (D : DayCount V) (I : Interpolator V) (c : YieldCurve V I) settle (d : Date) : fl :=
  match discount_factor D c settle d with Ret (Ok x) => x | _ => B754_nan end.

Lemma factor_is (D : DayCount V) (I : Interpolator V) (c : YieldCurve V I) settle d x :
  discount_factor D c settle d = Ret (Ok x) -> factor_of D I c settle d = x.
Proof. intros E. unfold factor_of. now rewrite E. Qed.

(** A successful valuation reads every open flow's factor; a finite one is close to the exact sum. *)
Lemma value_error (D : DayCount V) (I : Interpolator V) settle (c : YieldCurve V I) :
  forall (l : list (BondCashFlow fl)) (pv v : fl) k s a, 0 <= a -> Rabs s <= a ->
  for_each l (value_step D settle c) (Ok pv) = Ret (Ok v) ->
  (forall f, In f l -> earlier settle (due_date f) ->
     discount_factor D c settle (payment_date f) = Ret (Ok (factor_of D I c settle (payment_date f))))
  /\ (is_finite v = true -> is_finite pv = true /\
      (Rabs (B2R pv - s) <= ((1 + u) ^ (k + 1) - 1) * a + INR k * eta * (1 + u) ^ k ->
       let n := (k + List.length (filter (open_flow settle) l))%nat in
       Rabs (B2R v - (s + exact_value (factor_of D I c settle) settle l))
       <= ((1 + u) ^ (n + 1) - 1) * (a + gross_value (factor_of D I c settle) settle l) + INR n * eta * (1 + u) ^ n)).
Proof.
  assert (0 <= u) as Hu by apply bpow_ge_0. assert (0 <= eta) as Hn by apply bpow_ge_0.
  unfold exact_value, gross_value.
  induction l as [| f l IH]; intros pv v k s a Ha Hs H.
  - simpl in H. injection H as <-. split; [intros f [] |]. intros F. split; [exact F |]. intros B. unfold total. simpl.
    rewrite Nat.add_0_r, !Rplus_0_r. exact B.
  - destruct (value_cons (V := V) D I settle c f l pv v H) as [(L & H') | (L & x & Ex & H')]; clear H; rename H' into H.
    2:{
      assert (factor_of D I c settle (payment_date f) = x) as Ef by (apply factor_is; exact Ex).
      set (p := B2R x * B2R (payment_amount f)).
      destruct (IH (Bplus mode_NE pv (Bmult mode_NE x (payment_amount f))) v (k + 1)%nat (s + p) (a + Rabs p)) as (Hall & Hfin).
      { pose proof (Rabs_pos p). lra. }
      { eapply Rle_trans; [apply Rabs_triang |]. lra. }
      { exact H. }
      split.
      * intros g [<- | Hg] Og; [rewrite Ef; exact Ex | now apply Hall].
      * intros Fv. destruct (Hfin Fv) as (Fs & Bnd).
        destruct (plus_error prec emax Hp He _ _ Fs) as (Fpv & Fq & d & Hd & Es).
        destruct (mult_error prec emax Hp He _ _ Fq) as (_ & _ & d' & n' & Hd' & Hn' & Eq).
        split; [exact Fpv |]. intros B. cbv zeta. 
        assert (filter (open_flow settle) (f :: l) = f :: filter (open_flow settle) l) as -> by (apply filter_open; exact L). simpl map. simpl List.length.
        rewrite Ef. fold p. unfold total in *. simpl fold_right.
        rewrite Es, Eq in Bnd. fold p in Bnd.
        assert (Rabs ((B2R pv + (p * (1 + d') + n')) * (1 + d) - (s + p))
          <= ((1 + u) ^ (k + 1 + 1) - 1) * (a + Rabs p) + INR (k + 1) * eta * (1 + u) ^ (k + 1)) as St.
        { replace (k + 1 + 1)%nat with (k + 2)%nat by lia. now apply step_error. }
        specialize (Bnd St). cbv zeta in Bnd.
        replace (k + 1 + Datatypes.length (filter (open_flow settle) l))%nat
          with (k + S (Datatypes.length (filter (open_flow settle) l)))%nat in Bnd by lia.
        rewrite !Rplus_assoc in Bnd. rewrite ?Rplus_assoc. exact Bnd. }
    destruct (IH pv v k s a Ha Hs H) as (Hall & Hfin). split.
      * intros g [<- | Hg] Og; [apply date_ltb_earlier in Og; pose proof (eq_trans (eq_sym L) Og); discriminate | now apply Hall].
      * assert (filter (open_flow settle) (f :: l) = filter (open_flow settle) l) as -> by (apply filter_closed; exact L). exact Hfin.
Qed.

(** *** Sign *)

Lemma not_negative_cases (x : fl) : not_negative x <-> is_nan x = false /\ (is_finite x = true -> 0 <= B2R x) /\ x <> B754_infinity true.
Proof.
  unfold not_negative. split.
  - intros (N & L). split; [exact N |]. split.
    + intros F. rewrite Bltb_correct in L by auto. simpl in L. revert L. case Rlt_bool_spec; [discriminate | auto].
    + intros ->. discriminate L.
  - intros (N & P & I). split; [exact N |]. destruct (is_finite x) eqn:F.
    + rewrite Bltb_correct by auto. simpl. apply Rlt_bool_false. auto.
    + destruct x as [s | [] | | s m k Hb]; try discriminate; [congruence | reflexivity].
Qed.

Lemma round_pos r : 0 <= r -> 0 <= round radix2 (SpecFloat.fexp prec emax) ZnearestE r.
Proof. intros H. apply round_ge_generic; [apply FLT_exp_valid; exact Hp | apply valid_rnd_N | apply generic_format_0 | exact H]. Qed.

Lemma sign_pos (x : fl) : is_finite x = true -> 0 < B2R x -> Bsign x = false.
Proof.
  intros F P. destruct x as [s | s | | [] m k Hb]; try discriminate; [simpl in P; lra | | reflexivity]. simpl in P.
  exfalso. assert (F2R (Float radix2 (Z.neg m) k) < 0) by (apply F2R_lt_0; reflexivity). lra.
Qed.

Lemma mult_not_negative (x y : fl) : is_finite x = true -> is_finite y = true -> 0 <= B2R x -> 0 <= B2R y ->
  not_negative (Bmult mode_NE x y).
Proof.
  intros Fx Fy Px Py. apply not_negative_cases.
  pose proof (Bmult_correct prec emax Hp He mode_NE x y) as C. change (round_mode mode_NE) with ZnearestE in C.
  revert C. case Rlt_bool_spec; intros H C.
  - destruct C as (E & F & _). rewrite Fx, Fy in F. simpl in F.
    split; [destruct (Bmult mode_NE x y); auto; discriminate |]. split; [intros _; rewrite E; apply round_pos, Rmult_le_pos; assumption |].
    intros Q. rewrite Q in F. discriminate.
  - assert (0 < B2R x /\ 0 < B2R y) as (Qx & Qy).
    { destruct (Req_dec (B2R x) 0) as [Z | Nx]; [exfalso; rewrite Z, Rmult_0_l, round_0, Rabs_R0 in H by apply valid_rnd_N;
        pose proof (bpow_gt_0 radix2 emax); lra |].
      destruct (Req_dec (B2R y) 0) as [Z | Ny]; [exfalso; rewrite Z, Rmult_0_r, round_0, Rabs_R0 in H by apply valid_rnd_N;
        pose proof (bpow_gt_0 radix2 emax); lra |]. lra. }
    rewrite (sign_pos x Fx Qx), (sign_pos y Fy Qy) in C.
    destruct (Bmult mode_NE x y) as [s | s | | s m k Hb]; try discriminate C. injection C as ->.
    split; [reflexivity |]. split; [discriminate | discriminate].
Qed.

Lemma plus_not_negative (x y : fl) : not_negative x -> not_negative y -> not_negative (Bplus mode_NE x y).
Proof.
  rewrite !not_negative_cases. intros (Nx & Px & Ix) (Ny & Py & Iy).
  destruct (is_finite x) eqn:Fx; [destruct (is_finite y) eqn:Fy |].
  - specialize (Px eq_refl). specialize (Py eq_refl).
    pose proof (Bplus_correct prec emax Hp He mode_NE x y Fx Fy) as C. change (round_mode mode_NE) with ZnearestE in C.
    revert C. case Rlt_bool_spec; intros H C.
    + destruct C as (E & F & _). split; [destruct (Bplus mode_NE x y); auto; discriminate |].
      split; [intros _; rewrite E; apply round_pos; lra |]. intros Q. rewrite Q in F. discriminate.
    + destruct C as (C & S). assert (Bsign x = false) as Sx.
      { destruct (Req_dec (B2R x) 0) as [Z | N]; [| apply sign_pos; [exact Fx | lra]]. rewrite S.
        apply sign_pos; [exact Fy |]. destruct (Req_dec (B2R y) 0) as [Z' | N']; [| lra]. exfalso.
        rewrite Z, Z', Rplus_0_r, round_0, Rabs_R0 in H by apply valid_rnd_N. pose proof (bpow_gt_0 radix2 emax). lra. }
      rewrite Sx in C. destruct (Bplus mode_NE x y) as [s | s | | s m k Hb]; try discriminate C. injection C as ->.
      split; [reflexivity |]. split; [discriminate | discriminate].
  - destruct y as [s | [] | | s m k Hb]; try discriminate; [congruence |].
    destruct x as [s | [] | | s m k Hb]; try discriminate; (split; [reflexivity |]); (split; [discriminate | discriminate]).
  - destruct x as [s | [] | | s m k Hb]; try discriminate; [congruence |].
    destruct y as [s | [] | | s m k Hb]; try discriminate; try congruence; (split; [reflexivity |]); (split; [discriminate | discriminate]).
Qed.

Lemma value_sign (D : DayCount V) (I : Interpolator V) settle (c : YieldCurve V I) :
  forall (l : list (BondCashFlow fl)) (pv v : fl),
  (forall f x, In f l -> earlier settle (due_date f) -> discount_factor D c settle (payment_date f) = Ret (Ok x) ->
     is_finite x = true /\ 0 <= B2R x /\ is_finite (payment_amount f) = true /\ 0 <= B2R (payment_amount f)) ->
  not_negative pv -> for_each l (value_step D settle c) (Ok pv) = Ret (Ok v) -> not_negative v.
Proof.
  induction l as [| f l IH]; intros pv v Hf Ppv H; [simpl in H; injection H as <-; exact Ppv |].
  assert (forall g x, In g l -> earlier settle (due_date g) -> discount_factor D c settle (payment_date g) = Ret (Ok x) ->
     is_finite x = true /\ 0 <= B2R x /\ is_finite (payment_amount g) = true /\ 0 <= B2R (payment_amount g)) as Hl.
  { intros g x Hg. apply Hf. now right. }
  destruct (value_cons (V := V) D I settle c f l pv v H) as [(L & H') | (L & x & Ex & H')]; [exact (IH _ _ Hl Ppv H') |].
  apply date_ltb_earlier in L. destruct (Hf f x (or_introl eq_refl) L Ex) as (A1 & A2 & A3 & A4).
  refine (IH _ _ Hl _ H'). apply plus_not_negative; [exact Ppv |]. now apply mult_not_negative.
Qed.
End Format.

(** ** C97 *)

(** A finite value is the exact sum of the [n] open flows times their factors up to a relative error of (1+u)^(n+1) - 1
    of the gross sum, u being half a unit in the last place of 1, and an underflow term. *)
Theorem C97_rounding : forall prec emax Hp He e (D : DayCount (FV prec emax Hp He e)) (I : Interpolator (FV prec emax Hp He e))
  (b : Bond (binary_float prec emax)) settle (c : YieldCurve (FV prec emax Hp He e) I) v,
  discounted_value (V := FV prec emax Hp He e) D b settle c = Ret (Ok v) ->
  exists df : Date -> binary_float prec emax,
    (forall f, In f (bond_cash_flows b) -> earlier settle (due_date f) ->
       discount_factor D c settle (payment_date f) = Ret (Ok (df (payment_date f))))
    /\ (is_finite v = true ->
        let n := List.length (filter (open_flow settle) (bond_cash_flows b)) in
        let u := bpow radix2 (- prec) in
        Rabs (B2R v - exact_value df settle (bond_cash_flows b))
        <= ((1 + u) ^ (n + 1) - 1) * gross_value df settle (bond_cash_flows b)
           + INR n * bpow radix2 (2 - emax - prec) * (1 + u) ^ n).
Proof.
  intros prec emax Hp He e D I b settle c v H. exists (factor_of prec emax Hp He e D I c settle).
  destruct (value_error prec emax Hp He e D I settle c (bond_cash_flows b) (B754_zero false) v 0 0 0) as (A & B); [lra | rewrite Rabs_R0; lra | exact H |].
  split; [exact A |]. intros F n u. destruct (B F) as (_ & Bd). cbv zeta in Bd. rewrite !Rplus_0_l in Bd. apply Bd.
  simpl. rewrite Rminus_0_r, Rabs_R0. lra.
Qed.
Print Assumptions C97_rounding.

(** Flows and factors that are finite and not negative give a value that is not a NaN and not negative (it may be infinite). *)
Theorem C97_not_negative : forall prec emax Hp He e (D : DayCount (FV prec emax Hp He e)) (I : Interpolator (FV prec emax Hp He e))
  (b : Bond (binary_float prec emax)) settle (c : YieldCurve (FV prec emax Hp He e) I) v,
  discounted_value (V := FV prec emax Hp He e) D b settle c = Ret (Ok v) ->
  (forall f x, In f (bond_cash_flows b) -> earlier settle (due_date f) -> discount_factor D c settle (payment_date f) = Ret (Ok x) ->
     is_finite x = true /\ 0 <= B2R x /\ is_finite (payment_amount f) = true /\ 0 <= B2R (payment_amount f)) ->
  not_negative v.
Proof.
  intros prec emax Hp He e D I b settle c v H Hf.
  refine (value_sign prec emax Hp He e D I settle c (bond_cash_flows b) (B754_zero false) v Hf _ H). split; reflexivity.
Qed.
Print Assumptions C97_not_negative.

(** Two flows, 5 and 105, in binary64, with any exponential that takes the value 1 everywhere: the value is finite and the
    hypotheses on factors and amounts hold. *)
Example C97_case : let i := of_int 53 1024 Hp53 He1024 in let V := F64 (fun _ => i 1%Z) in
  let b := mkBond (V := binary_float 53 1024) ""
    [mkFlow (mkDate 2025 9 1) (mkDate 2025 9 1) (i 5%Z); mkFlow (mkDate 2026 3 2) (mkDate 2026 3 2) (i 105%Z)] in
  exists c v, curve_new (act_365 V) (Linear V) ex_settle ex_maturities [i 1; i 2; i 3]%Z = Ret (Ok c)
  /\ discounted_value (V := V) (act_365 V) b ex_settle c = Ret (Ok v) /\ is_finite v = true
  /\ forall f x, In f (bond_cash_flows b) -> discount_factor (act_365 V) c ex_settle (payment_date f) = Ret (Ok x) ->
     is_finite x = true /\ 0 <= B2R x /\ is_finite (payment_amount f) = true /\ 0 <= B2R (payment_amount f).
Proof.
  intros i V b.
  assert (match curve_new (act_365 V) (Linear V) ex_settle ex_maturities [i 1; i 2; i 3]%Z with
    | Ret (Ok c) => match discounted_value (V := V) (act_365 V) b ex_settle c with Ret (Ok v) => is_finite v | _ => false end
    | _ => false end = true) as H by (vm_compute; reflexivity).
  destruct (curve_new (act_365 V) (Linear V) ex_settle ex_maturities [i 1; i 2; i 3]%Z) as [[c | er] | |]; try discriminate.
  destruct (discounted_value (V := V) (act_365 V) b ex_settle c) as [[v | er] | |] eqn:Ev; try discriminate.
  exists c, v. split; [reflexivity |]. split; [exact Ev |]. split; [exact H |].
  assert (forall k, (Z.abs k < 2 ^ 53)%Z -> (0 <= k)%Z -> is_finite (i k) = true /\ 0 <= B2R (i k)) as P.
  { intros k Hk Pk. destruct (of_int_correct 53 1024 Hp53 He1024 k Hk ltac:(lia)) as (E & F). split; [exact F |]. unfold i. rewrite E.
    now apply IZR_le. }
  intros f x Hf Hx.
  assert (x = i 1%Z) as ->.
  { unfold discount_factor in Hx. destruct (date_ltb _ _); [discriminate Hx |]. destruct (_ || _)%bool; [discriminate Hx |].
    destruct (act_365 V (settlement_date c) (payment_date f)) as [[t2 | er] | |]; try discriminate. cbn [bind try_res] in Hx.
    destruct (curve_yield c t2) as [[y2 | er] | |]; try discriminate. cbn [bind try_res] in Hx.
    destruct (date_eqb ex_settle (settlement_date c)); [now injection Hx as <- |].
    destruct (act_365 V (settlement_date c) ex_settle) as [[t1 | er] | |]; try discriminate. cbn [bind try_res] in Hx.
    destruct (curve_yield c t1) as [[y1 | er] | |]; try discriminate. now injection Hx as <-. }
  destruct (P 1%Z) as (P1 & P2); [reflexivity | lia |]. split; [exact P1 |]. split; [exact P2 |].
  destruct Hf as [<- | [<- | []]]; apply P; (reflexivity || lia).
Qed.
