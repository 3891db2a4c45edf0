(** Properties C95 and C96: the order of a bond's payments, and its dates whatever the number type. *)
From Coq Require Import String ZArith Reals Bool List Arith Lia.
From Verif Require Import Base Chrono Gregorian DateModel DateFacts LoopFacts Value RealValue FloatValue DayCountModel InterpModel
  InterpFacts CurveModel BondModel PropsDate PropsCurve PropsBond.
Import ListNotations.
Open Scope Z_scope.

(** ** Lemmas *)

(** A flow before the last one: its due date is on the schedule and its payment date is that date rolled. *)
Lemma coupon_dates (V : Value) id issue first pen mat fr (rate face : V) b : a_date first ->
  bond_new id issue first pen mat fr rate face = Ret (Some b) ->
  exists ds, schedule pen first ds /\ List.length (bond_cash_flows b) = S (List.length ds)
    /\ forall k f, flow_number b k f -> (k < List.length ds)%nat ->
       nth_error ds k = Some (due_date f) /\ weekend_roll (due_date f) = Some (payment_date f).
Proof.
  intros Hf H. destruct (bond_shape _ _ _ _ _ _ _ _ _ Hf H) as (two & ds & fl & fl' & fin & T & _ & E & S & F & A & _).
  assert (forall ds (fl : list (BondCashFlow V)) c, Forall2 (flow_at c) ds fl -> forall k f, nth_error fl k = Some f ->
    nth_error ds k = Some (due_date f) /\ weekend_roll (due_date f) = Some (payment_date f)) as G.
  { induction 1 as [| d g ds' gl (G1 & G2 & _) _ IH]; intros j h Hj; [destruct j; discriminate |].
    destruct j as [| j]; simpl in Hj |- *; [injection Hj as <-; now rewrite G1 | eauto]. }
  exists ds. split; [exact S |].
  assert (List.length fl' = List.length ds) as Ln.
  { destruct A as [(-> & ->) | (f0 & a & tl & -> & -> & _)]; [reflexivity |]. rewrite <- (flow_dues _ _ _ F). simpl. now rewrite map_length. }
  split; [rewrite E, app_length, Ln; simpl; lia |]. intros k f Hk L. unfold flow_number in Hk.
  rewrite E, nth_error_app1 in Hk by lia.
  destruct A as [(-> & ->) | (f0 & a & tl & -> & -> & _)]; [simpl in L; lia |].
  destruct k as [| k].
  - simpl in Hk. injection Hk as <-. simpl. exact (G _ _ _ F 0%nat f0 eq_refl).
  - exact (G _ _ _ F (Datatypes.S k) f Hk).
Qed.

Lemma roll_serial d r : a_date d -> weekend_roll d = Some r ->
  a_date r /\ num_days_from_ce d <= num_days_from_ce r <= num_days_from_ce d + 2.
Proof.
  intros Hd W. pose proof (proj1 (C12_weekend_roll d r Hd) W) as (Hr & _ & _ & _). split; [exact Hr |].
  pose proof Hd as Vd. apply valid_a_date in Vd. pose proof (valid_proper _ Vd) as Pd.
  rewrite weekend_roll_value in W. cbv zeta in W. pose proof (Z.mod_pos_bound (num_days_from_ce d - 1) 7 ltac:(lia)).
  destruct (Z.ltb_spec 4 ((num_days_from_ce d - 1) mod 7)); [| injection W as <-; lia].
  rewrite add_days_of_serial in W by (auto; lia). apply of_serial_some in W. destruct W as (_ & W). lia.
Qed.

(** Dates whose months are two or more apart are more than nine days apart. *)
Lemma months_apart a b : proper a -> proper b -> 12 * year a + month a + 2 <= 12 * year b + month b ->
  num_days_from_ce a + 9 < num_days_from_ce b.
Proof.
  intros Pa Pb H. set (y := if month a =? 12 then year a + 1 else year a). set (m := if month a =? 12 then 1 else month a + 1).
  assert (1 <= m <= 12 /\ 12 * y + m = 12 * year a + month a + 1) as (Hm & E).
  { destruct Pa as (Pa & _). unfold y, m, month in *. destruct (Z.eqb_spec (nd_month a) 12); lia. }
  pose proof (month_len_range y m Hm) as L.
  assert (proper (mkDate y m 1) /\ proper (mkDate y m 10)) as (P1 & P2) by (split; split; simpl; lia).
  assert (earlier a (mkDate y m 1)) as E1.
  { destruct Pa as (Pa & _). unfold earlier, year, month in *. simpl. lia. }
  assert (earlier (mkDate y m 10) b) as E2.
  { destruct Pb as (Pb & _). unfold earlier, year, month in *. simpl. lia. }
  apply serial_earlier in E1, E2; try assumption.
  assert (num_days_from_ce (mkDate y m 10) = num_days_from_ce (mkDate y m 1) + 9) as Q.
  { unfold num_days_from_ce, ordinal. simpl. lia. }
  lia.
Qed.

(** ** C95 *)

(** Coupons are paid on their due date or one or two days after it, and before the next one falls due. *)
Theorem C95_coupons : forall (V : Value) id issue first pen mat fr (rate face : V) b, a_date first ->
  bond_new id issue first pen mat fr rate face = Ret (Some b) ->
  forall i f, flow_number b i f -> (S i < List.length (bond_cash_flows b))%nat ->
    a_date (due_date f) /\ a_date (payment_date f) /\ ~ earlier pen (due_date f)
    /\ 0 <= date_sub (payment_date f) (due_date f) <= 2
    /\ forall j g, (i < j)%nat -> flow_number b j g -> (S j < List.length (bond_cash_flows b))%nat ->
       earlier (payment_date f) (due_date g) /\ earlier (payment_date f) (payment_date g).
Proof.
  intros V id issue first pen mat fr rate face b Hf H i f Hi Li.
  destruct (coupon_dates V _ _ _ _ _ _ _ _ _ Hf H) as (ds & S & L & K). rewrite L in Li |- *.
  destruct (C45_schedule pen first ds ds S S Hf) as (_ & _ & _ & Q).
  destruct (K i f Hi ltac:(lia)) as (Di & Wi). destruct (Q i _ Di) as (Ai & Pi & Mi & _).
  destruct (roll_serial _ _ Ai Wi) as (Api & Ri).
  split; [exact Ai |]. split; [exact Api |]. split; [exact Pi |].
  split; [unfold date_sub, diff_days; lia |]. intros j g Hij Hj Lj.
  destruct (K j g Hj ltac:(lia)) as (Dj & Wj). destruct (Q j _ Dj) as (Aj & _ & Mj & _).
  destruct (roll_serial _ _ Aj Wj) as (Apj & Rj).
  pose proof (valid_proper _ (proj2 (valid_a_date _) Ai)) as P1. pose proof (valid_proper _ (proj2 (valid_a_date _) Aj)) as P2.
  pose proof (valid_proper _ (proj2 (valid_a_date _) Api)) as P3. pose proof (valid_proper _ (proj2 (valid_a_date _) Apj)) as P4.
  pose proof (months_apart _ _ P1 P2 ltac:(lia)) as G.
  split; (apply serial_lt_iff; [assumption | assumption | lia]).
Qed.
Print Assumptions C95_coupons.

(** When maturity is at least two days after the penultimate date, no coupon is paid after it. *)
Theorem C95_maturity_partial : forall (V : Value) id issue first pen mat fr (rate face : V) b, a_date first -> a_date pen -> a_date mat ->
  2 <= date_sub mat pen ->
  bond_new id issue first pen mat fr rate face = Ret (Some b) ->
  forall i j f g, (i < j)%nat -> flow_number b i f -> flow_number b j g ->
    earlier (due_date f) (due_date g) /\ ~ earlier (payment_date g) (payment_date f).
Proof.
  intros V id issue first pen mat fr rate face b Hf Hp Hm D H i j f g Hij Hi Hj.
  assert (j < List.length (bond_cash_flows b))%nat as Lj by (apply nth_error_Some; unfold flow_number in Hj; congruence).
  destruct (C95_coupons V _ _ _ _ _ _ _ _ _ Hf H i f Hi ltac:(lia)) as (Ai & Api & Pi & Ri & Later).
  destruct (Nat.eq_dec (S j) (List.length (bond_cash_flows b))) as [E | N].
  - destruct (C49_final_flow V _ _ _ _ _ _ _ _ _ j g Hf H Hj (eq_sym E)) as (Pg & _).
    assert (due_date g = mat) as Dg.
    { destruct (bond_shape _ _ _ _ _ _ _ _ _ Hf H) as (two & ds & fl & fl' & fin & T & _ & Eb & S & F & _ & D1 & _).
      unfold flow_number in Hj. rewrite Eb in Hj, E. rewrite app_length in E. simpl in E.
      assert (j = List.length fl') as -> by lia. rewrite nth_error_app2, Nat.sub_diag in Hj by lia. now injection Hj as <-. }
    rewrite Pg, Dg. unfold date_sub, diff_days in *.
    pose proof (valid_proper _ (proj2 (valid_a_date _) Ai)) as P1. pose proof (valid_proper _ (proj2 (valid_a_date _) Hp)) as P2.
    pose proof (valid_proper _ (proj2 (valid_a_date _) Hm)) as P3. pose proof (valid_proper _ (proj2 (valid_a_date _) Api)) as P4.
    rewrite serial_lt_iff in Pi |- * by assumption. split; [lia |]. rewrite serial_lt_iff by assumption. lia.
  - destruct (Later j g Hij Hj ltac:(lia)) as (L1 & L2). split.
    + destruct (C95_coupons V _ _ _ _ _ _ _ _ _ Hf H j g Hj ltac:(lia)) as (Aj & _).
      pose proof (valid_proper _ (proj2 (valid_a_date _) Ai)) as P1. pose proof (valid_proper _ (proj2 (valid_a_date _) Aj)) as P2.
      pose proof (valid_proper _ (proj2 (valid_a_date _) Api)) as P4. unfold date_sub, diff_days in Ri.
      rewrite serial_lt_iff in L1 |- * by assumption. lia.
    + unfold earlier in *. lia.
Qed.
Print Assumptions C95_maturity_partial.

(** Otherwise the redemption can be paid before the last coupon: a penultimate date on a Saturday, maturity on the Sunday. *)
Theorem C95_maturity_refuted : exists issue first pen mat b i j f g, a_date first /\ a_date pen /\ a_date mat /\ earlier pen mat
  /\ bond_new (V := RV) "" issue first pen mat SA 1%R 100%R = Ret (Some b) /\ (i < j)%nat /\ flow_number b i f /\ flow_number b j g
  /\ earlier (payment_date g) (payment_date f).
Proof.
  exists (mkDate 2024 8 15), (mkDate 2025 2 15), (mkDate 2025 2 15), (mkDate 2025 2 16).
  eexists. exists 0%nat, 1%nat. eexists. eexists.
  split; [apply valid_a_date; reflexivity |]. split; [apply valid_a_date; reflexivity |]. split; [apply valid_a_date; reflexivity |].
  split; [unfold earlier; simpl; lia |].
  split; [vm_compute; reflexivity |]. split; [lia |]. split; [vm_compute; reflexivity |]. split; [vm_compute; reflexivity |].
  unfold earlier. simpl. lia.
Qed.
Print Assumptions C95_maturity_refuted.

(** The bond of [C45_case]. *)
Example C95_case : a_date (mkDate 2023 11 7) /\ a_date (mkDate 2042 5 7) /\ a_date (mkDate 2042 11 7)
  /\ 2 <= date_sub (mkDate 2042 11 7) (mkDate 2042 5 7) /\ exists b, ex_bond = Ret (Some b) /\ List.length (bond_cash_flows b) = 39%nat.
Proof.
  split; [apply valid_a_date; reflexivity |]. split; [apply valid_a_date; reflexivity |]. split; [apply valid_a_date; reflexivity |].
  split; [vm_compute; discriminate |]. destruct C45_case as (b & E & _ & L). eauto.
Qed.

(** ** C96 *)

(** The same identifier and the same due and payment dates. *)
Definition same_dates {V V' : Type} (b : Bond V) (b' : Bond V') : Prop :=
  bond_id b' = bond_id b /\ map due_date (bond_cash_flows b') = map due_date (bond_cash_flows b)
  /\ map payment_date (bond_cash_flows b') = map payment_date (bond_cash_flows b).

Section Dates.
Context {V V' : Value} (Tot : forall n, exists a : V, v_of_int n = Some a) (Tot' : forall n, exists a : V', v_of_int n = Some a).

Definition dated {V : Type} (fl : list (BondCashFlow V)) : list (Date * Date) := map (fun f => (due_date f, payment_date f)) fl.

(** Two runs end alike, with flows of the same dates. *)
Definition alike (m : M (option (list (BondCashFlow V)))) (m' : M (option (list (BondCashFlow V')))) : Prop :=
  match m, m' with
  | Ret (Some fl), Ret (Some fl') => dated fl' = dated fl
  | Ret None, Ret None => True
  | Panic, Panic => True
  | OutOfFuel, OutOfFuel => True
  | _, _ => False
  end.

Definition refill (c' : V') (fl : list (BondCashFlow V)) : list (BondCashFlow V') :=
  map (fun f => mkFlow (due_date f) (payment_date f) c') fl.

Lemma refill_dated c' fl : dated (refill c' fl) = dated fl.
Proof. unfold dated, refill. rewrite map_map. reflexivity. Qed.

Lemma alike_schedule pen c c' (first : Date) :
  alike (while roll_fuel (schedule_step pen 6 c) (first, [])) (while roll_fuel (schedule_step pen 6 c') (first, [])).
Proof.
  unfold while.
  rewrite (loop_sim (schedule_step pen 6 c) (schedule_step pen 6 c')
    (fun s => (fst s, refill c' (snd s))) (over_some (refill c'))) with (s := (first, [])).
  - destruct (loop roll_fuel _ _) as [s | [[fl |] | |]]; simpl; auto. apply refill_dated.
  - intros [d fl]. simpl. destruct (date_leb d pen); [| reflexivity]. destruct (weekend_roll d); [| reflexivity].
    destruct (date_add_months d 6); [| reflexivity]. do 2 f_equal. symmetry. apply map_app.
Qed.

Lemma alike_first issue first c c' fl fl' : dated fl' = dated fl ->
  alike (first_cash_flow issue first 6 c fl) (first_cash_flow issue first 6 c' fl').
Proof.
  intros E. unfold first_cash_flow. destruct (date_sub_months first 6) as [prior |]; [| exact I]. cbn [try_opt].
  assert (forall (u : BondCashFlow V -> V) (u' : BondCashFlow V' -> V'),
    alike (f0 <- index fl 0 ;; fl2 <- update fl 0 (mkFlow (due_date f0) (payment_date f0) (u f0)) ;; Ret (Some fl2))
          (f0 <- index fl' 0 ;; fl2 <- update fl' 0 (mkFlow (due_date f0) (payment_date f0) (u' f0)) ;; Ret (Some fl2))) as G.
  { intros u u'. destruct fl as [| f t], fl' as [| f' t']; try discriminate; [exact I |]. simpl in *. injection E as -> -> ->. reflexivity. }
  destruct (date_compare prior issue); [exact E | |].
  - destruct (Tot (date_sub first issue)) as (n & ->), (Tot (date_sub first prior)) as (m & ->).
    destruct (Tot' (date_sub first issue)) as (n' & ->), (Tot' (date_sub first prior)) as (m' & ->). cbn [try_opt].
    apply (G (fun f0 => payment_amount f0 * (n / m))%V (fun f0 => payment_amount f0 * (n' / m'))%V).
  - destruct (date_sub_months prior 6) as [prior2 |]; [| exact I]. cbn [try_opt].
    destruct (Tot (date_sub prior issue)) as (n & ->), (Tot (date_sub prior prior2)) as (m & ->).
    destruct (Tot' (date_sub prior issue)) as (n' & ->), (Tot' (date_sub prior prior2)) as (m' & ->). cbn [try_opt].
    apply (G (fun f0 => payment_amount f0 + n / m * c)%V (fun f0 => payment_amount f0 + n' / m' * c')%V).
Qed.

Lemma alike_final pen mat face face' c c' :
  match final_cash_flow (V := V) pen mat face 6 c, final_cash_flow (V := V') pen mat face' 6 c' with
  | Ret (Some f), Ret (Some f') => due_date f' = due_date f /\ payment_date f' = payment_date f
  | Ret None, Ret None => True
  | _, _ => False
  end.
Proof.
  unfold final_cash_flow. destruct (date_add_months pen 6) as [next |]; [| exact I]. cbn [try_opt].
  destruct (date_compare mat next); [split; reflexivity | |].
  - destruct (Tot (date_sub mat pen)) as (n & ->), (Tot (date_sub next pen)) as (m & ->).
    destruct (Tot' (date_sub mat pen)) as (n' & ->), (Tot' (date_sub next pen)) as (m' & ->). split; reflexivity.
  - destruct (date_add_months next 6) as [next2 |]; [| exact I]. cbn [try_opt].
    destruct (Tot (date_sub mat next)) as (n & ->), (Tot (date_sub next2 next)) as (m & ->).
    destruct (Tot' (date_sub mat next)) as (n' & ->), (Tot' (date_sub next2 next)) as (m' & ->). split; reflexivity.
Qed.
End Dates.

(** Whether construction succeeds, and the identifier and dates of the bond, depend neither on the number type nor on the
    rate and the face value, as long as every integer can be converted. *)
Theorem C96_dates : forall (V V' : Value), (forall n, exists a : V, v_of_int n = Some a) -> (forall n, exists a : V', v_of_int n = Some a) ->
  forall id issue first pen mat fr (rate face : V) (rate' face' : V'),
  match bond_new id issue first pen mat fr rate face, bond_new id issue first pen mat fr rate' face' with
  | Ret (Some b), Ret (Some b') => same_dates b b'
  | Ret None, Ret None => True
  | Panic, Panic => True
  | OutOfFuel, OutOfFuel => True
  | _, _ => False
  end.
Proof.
  intros V V' Tot Tot' id issue first pen mat fr rate face rate' face'. unfold bond_new. destruct fr.
  change (12 / frequency_num SA) with 6. change (frequency_num SA) with 2. cbv zeta.
  destruct (Tot 2) as (two & ->), (Tot' 2) as (two' & ->). cbn [try_opt].
  set (c := (rate * face / two)%V). set (c' := (rate' * face' / two')%V).
  generalize (alike_schedule pen c c' first).
  generalize (while roll_fuel (schedule_step pen 6 c) (first, [])), (while roll_fuel (schedule_step pen 6 c') (first, [])).
  intros m m' A1. unfold alike in A1.
  destruct m as [[fl |] | |], m' as [[fl' |] | |]; try contradiction; try exact I. cbn [bind try_opt].
  pose proof (alike_first Tot Tot' issue first c c' fl fl' A1) as A2. unfold alike in A2.
  destruct (first_cash_flow issue first 6 c fl) as [[gl |] | |], (first_cash_flow issue first 6 c' fl') as [[gl' |] | |];
    try contradiction; try exact I. cbn [bind try_opt].
  pose proof (alike_final Tot Tot' pen mat face face' c c') as A3.
  destruct (final_cash_flow pen mat face 6 c) as [[f |] | |], (final_cash_flow pen mat face' 6 c') as [[f' |] | |];
    try contradiction; try exact I. cbn [bind try_opt].
  destruct A3 as (D & P). split; [reflexivity |]. simpl. rewrite !map_app. simpl. rewrite D, P.
  assert (map due_date gl' = map due_date gl /\ map payment_date gl' = map payment_date gl) as (-> & ->); [| auto].
  unfold dated in A2.
  assert (forall {W : Type} (l : list (BondCashFlow W)), map due_date l = map fst (map (fun f => (due_date f, payment_date f)) l)
    /\ map payment_date l = map snd (map (fun f => (due_date f, payment_date f)) l)) as Q.
  { intros W l. rewrite !map_map. split; reflexivity. }
  rewrite (proj1 (Q V' gl')), (proj2 (Q V' gl')), (proj1 (Q V gl)), (proj2 (Q V gl)), A2. auto.
Qed.
Print Assumptions C96_dates.

(** Reals, binary64 and binary32 qualify; one of the bonds exists. *)
Example C96_case : (forall n, exists a : RV, v_of_int n = Some a)
  /\ (forall e n, exists a : F64 e, v_of_int n = Some a) /\ (forall e n, exists a : F32 e, v_of_int n = Some a)
  /\ exists b, ex_bond = Ret (Some b).
Proof.
  split; [intros n; eexists; reflexivity |]. split; [intros e n; eexists; reflexivity |].
  split; [intros e n; eexists; reflexivity |]. destruct C45_case as (b & E & _). eauto.
Qed.
