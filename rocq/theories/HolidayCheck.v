(** A checked decision procedure: two formulas about a date agree on all dates.  Formulas have the
    shape of the calendars' conditions: comparisons of day, month, year, day of the year and
    weekday with constants, and of the day of the year with the Easter entries. *)
From Coq Require Import ZArith Bool List Lia.
From Verif Require Import Base Chrono Gregorian DateFacts HolidayRules.
Import ListNotations.
Local Open Scope Z_scope.

Inductive var := Dv | Mv | Yv | DDv.
Inductive cmp := Ceq | Cle | Cge | Clt | Cgt.

Inductive fm :=
| Tr | Fa
| At (v : var) (c : cmp) (k : Z)
| Wd (w : Weekday)
| Em (k : Z) | Om (k : Z)
| Rem4
| And (f g : fm) | Or (f g : fm) | Not (f : fm) | Ite (f g h : fm).

Definition cmpb (c : cmp) (v k : Z) : bool :=
  match c with
  | Ceq => v =? k | Cle => v <=? k | Cge => k <=? v | Clt => v <? k | Cgt => k <? v
  end.

Record env := mkEnv { e_d : Z; e_w : Weekday; e_m : Z; e_y : Z; e_dd : Z; e_em : Z; e_oem : Z }.

Definition value (v : var) (e : env) : Z :=
  match v with Dv => e_d e | Mv => e_m e | Yv => e_y e | DDv => e_dd e end.

Fixpoint eval (f : fm) (e : env) : bool :=
  match f with
  | Tr => true | Fa => false
  | At v c k => cmpb c (value v e) k
  | Wd w => weekday_eqb (e_w e) w
  | Em k => e_dd e =? e_em e + k
  | Om k => e_dd e =? e_oem e + k
  | Rem4 => Z.rem (e_y e) 4 =? 0
  | And f g => eval f e && eval g e
  | Or f g => eval f e || eval g e
  | Not f => negb (eval f e)
  | Ite f g h => if eval f e then eval g e else eval h e
  end.

(** ** Substituting what is known *)

Definition And' (f g : fm) : fm :=
  match f with Tr => g | Fa => Fa | _ => match g with Tr => f | Fa => Fa | _ => And f g end end.
Definition Or' (f g : fm) : fm :=
  match f with Tr => Tr | Fa => g | _ => match g with Tr => Tr | Fa => f | _ => Or f g end end.
Definition Not' (f : fm) : fm := match f with Tr => Fa | Fa => Tr | _ => Not f end.
Definition Ite' (f g h : fm) : fm :=
  match f with Tr => g | Fa => h | _ => match g with Fa => And' (Not f) h | Tr => Or' f h | _ => Ite f g h end end.

Section subst.
  Variable a : fm -> option bool.

  Definition atom (f : fm) : fm :=
    match a f with Some true => Tr | Some false => Fa | None => f end.

  Fixpoint pe (f : fm) : fm :=
    match f with
    | And f g => match pe f with Fa => Fa | f' => And' f' (pe g) end
    | Or f g => match pe f with Tr => Tr | f' => Or' f' (pe g) end
    | Not f => Not' (pe f)
    | Ite f g h => Ite' (pe f) (pe g) (pe h)
    | Tr => Tr | Fa => Fa
    | _ => atom f
    end.

  Variable e : env.
  Hypothesis right : forall f b, a f = Some b -> eval f e = b.

  Lemma atom_eval f : eval (atom f) e = eval f e.
  Proof using right.
    unfold atom. destruct (a f) as [[|] |] eqn:A; [| | reflexivity]; symmetry; now apply right in A.
  Qed.

  Lemma And'_eval f g : eval (And' f g) e = eval f e && eval g e.
  Proof using Type.
    unfold And'. destruct f; destruct g; cbn [eval]; rewrite ?andb_true_r, ?andb_false_r, ?andb_true_l; reflexivity.
  Qed.
  Lemma Or'_eval f g : eval (Or' f g) e = eval f e || eval g e.
  Proof using Type.
    unfold Or'. destruct f; destruct g; cbn [eval]; rewrite ?orb_true_r, ?orb_false_r, ?orb_false_l; reflexivity.
  Qed.
  Lemma Not'_eval f : eval (Not' f) e = negb (eval f e).
  Proof using Type. destruct f; reflexivity. Qed.
  Lemma Ite'_eval f g h : eval (Ite' f g h) e = if eval f e then eval g e else eval h e.
  Proof using Type.
    unfold Ite'.
    assert (forall x, eval (match g with Fa => And' (Not x) h | Tr => Or' x h | _ => Ite x g h end) e
                      = if eval x e then eval g e else eval h e) as H.
    { intros x. destruct g; try reflexivity.
      - rewrite Or'_eval. cbn [eval]. now destruct (eval x e).
      - rewrite And'_eval. cbn [eval]. now destruct (eval x e). }
    destruct f; try reflexivity; apply H.
  Qed.

  Lemma pe_eval f : eval (pe f) e = eval f e.
  Proof using right.
    induction f as [| | | | | | | f IHf g IHg | f IHf g IHg | f IHf | f IHf g IHg h IHh];
      try reflexivity; try (cbn [pe]; apply atom_eval).
    - cbn [pe eval]. transitivity (eval (And' (pe f) (pe g)) e).
      + destruct (pe f); reflexivity.
      + now rewrite And'_eval, IHf, IHg.
    - cbn [pe eval]. transitivity (eval (Or' (pe f) (pe g)) e).
      + destruct (pe f); reflexivity.
      + now rewrite Or'_eval, IHf, IHg.
    - cbn [pe eval]. now rewrite Not'_eval, IHf.
    - cbn [pe eval]. now rewrite Ite'_eval, IHf, IHg, IHh.
  Qed.
End subst.

Definition know_m (m : Z) (f : fm) : option bool := match f with At Mv c k => Some (cmpb c m k) | _ => None end.
Definition know_d (d : Z) (f : fm) : option bool := match f with At Dv c k => Some (cmpb c d k) | _ => None end.
Definition know_w (w : Weekday) (f : fm) : option bool := match f with Wd w' => Some (weekday_eqb w w') | _ => None end.
Definition know_y (y dd : Z) (f : fm) : option bool :=
  match f with
  | At Yv c k => Some (cmpb c y k)
  | At DDv c k => Some (cmpb c dd k)
  | Rem4 => Some (Z.rem y 4 =? 0)
  | _ => None
  end.
Definition var_eqb (a b : var) : bool :=
  match a, b with Dv, Dv | Mv, Mv | Yv, Yv | DDv, DDv => true | _, _ => false end.
Definition cmp_eqb (a b : cmp) : bool :=
  match a, b with Ceq, Ceq | Cle, Cle | Cge, Cge | Clt, Clt | Cgt, Cgt => true | _, _ => false end.
Definition atom_eqb (f g : fm) : bool :=
  match f, g with
  | At v c k, At v' c' k' => (k =? k') && var_eqb v v' && cmp_eqb c c'
  | Wd w, Wd w' => weekday_eqb w w'
  | Em k, Em k' | Om k, Om k' => k =? k'
  | Rem4, Rem4 => true
  | _, _ => false
  end.
Definition know_atom (a : fm) (b : bool) (f : fm) : option bool := if atom_eqb f a then Some b else None.

Lemma atom_eqb_eq f g : atom_eqb f g = true -> f = g.
Proof.
  destruct f, g; cbn [atom_eqb]; try discriminate; rewrite ?andb_true_iff, ?Z.eqb_eq, ?weekday_eqb_eq;
    try congruence. intros ((-> & V) & C). f_equal; [destruct v, v0 | destruct c, c0]; reflexivity || discriminate.
Qed.

(** Year comparisons written with [Cge] alone. *)
Fixpoint norm (f : fm) : fm :=
  match f with
  | At Yv Clt k => Not (At Yv Cge k)
  | At Yv Cle k => Not (At Yv Cge (k + 1))
  | At Yv Cgt k => At Yv Cge (k + 1)
  | And f g => And (norm f) (norm g)
  | Or f g => Or (norm f) (norm g)
  | Not f => Not (norm f)
  | Ite f g h => Ite (norm f) (norm g) (norm h)
  | _ => f
  end.

Lemma norm_eval f e : eval (norm f) e = eval f e.
Proof.
  induction f as [| | v c k | | | | | f IHf g IHg | f IHf g IHg | f IHf | f IHf g IHg h IHh]; try reflexivity;
    cbn [norm eval]; try congruence.
  destruct v; try reflexivity. destruct c; try reflexivity; cbn [eval cmpb]; apply Bool.eq_iff_eq_true;
    rewrite ?negb_true_iff, ?Z.leb_gt, ?Z.leb_le, ?Z.ltb_lt; lia.
  rewrite IHf, IHg, IHh. reflexivity.
Qed.

(** ** The procedure *)

(** The first comparison in the formula. *)
Fixpoint first_atom (f : fm) : option fm :=
  match f with
  | Tr | Fa => None
  | And f g | Or f g => match first_atom f with Some x => Some x | None => first_atom g end
  | Not f => first_atom f
  | Ite f g h => match first_atom f with Some x => Some x
                 | None => match first_atom g with Some x => Some x | None => first_atom h end end
  | _ => Some f
  end.

(** Try both values of each comparison. *)
Fixpoint same_atoms (n : nat) (f g : fm) : bool :=
  match f, g with
  | Tr, Tr | Fa, Fa => true
  | _, _ =>
    match n with
    | O => false
    | S n =>
      match match first_atom f with Some x => Some x | None => first_atom g end with
      | None => false
      | Some a => same_atoms n (pe (know_atom a true) f) (pe (know_atom a true) g)
                  && same_atoms n (pe (know_atom a false) f) (pe (know_atom a false) g)
      end
    end
  end.

Definition fuel : nat := 12.

(** Month, weekday and day are known: if trying the values of the comparisons is not enough, try
    every year. *)
Definition try_years (same : fm -> fm -> bool) (m d : Z) (f g : fm) : bool :=
  if same f g then true
  else sweep (fun y => same (pe (know_y y (ordinal (mkDate y m d))) f)
                            (pe (know_y y (ordinal (mkDate y m d))) g)) 301 1900.

(** The length of a month in a leap year. *)
Definition most_days (m : Z) : Z := month_len 2000 m.

Definition try_days (same : fm -> fm -> bool) (m : Z) (f g : fm) : bool :=
  sweep (fun d => if most_days m <? d then true else try_years same m d (pe (know_d d) f) (pe (know_d d) g)) 31 1.

Definition try_weekdays (ws : list Weekday) (same : fm -> fm -> bool) (m : Z) (f g : fm) : bool :=
  forallb (fun w => try_days same m (pe (know_w w) f) (pe (know_w w) g)) ws.

Definition try_months (ws : list Weekday) (same : fm -> fm -> bool) (f g : fm) : bool :=
  sweep (fun m => try_weekdays ws same m (pe (know_m m) (norm f)) (pe (know_m m) (norm g))) 12 1.

(** ** It is right *)

Lemma same_atoms_spec e : forall n f g, same_atoms n f g = true -> eval f e = eval g e.
Proof.
  assert (forall a f b, know_atom a (eval a e) f = Some b -> eval f e = b) as KA.
  { intros a f b. unfold know_atom. destruct (atom_eqb f a) eqn:E; [| discriminate].
    apply atom_eqb_eq in E. subst. intros H. now injection H. }
  induction n as [| n IH]; intros f g H.
  - destruct f, g; try discriminate; reflexivity.
  - assert ((f = Tr /\ g = Tr) \/ (f = Fa /\ g = Fa) \/
            match match first_atom f with Some x => Some x | None => first_atom g end with
            | None => false
            | Some a => same_atoms n (pe (know_atom a true) f) (pe (know_atom a true) g)
                        && same_atoms n (pe (know_atom a false) f) (pe (know_atom a false) g)
            end = true) as C.
    { destruct f; destruct g; try (right; right; exact H); [left | right; left]; auto. }
    clear H. destruct C as [[-> ->] | [[-> ->] | H]]; [reflexivity | reflexivity |].
    destruct (match first_atom f with Some x => Some x | None => first_atom g end) as [a |]; [| discriminate];
      apply andb_true_iff in H; destruct H as [H1 H2]; apply IH in H1, H2.
    destruct (eval a e) eqn:B.
    + rewrite !(pe_eval (know_atom a true) e) in H1; [exact H1 | |]; intros f' b A; apply (KA a); rewrite B; exact A.
    + rewrite !(pe_eval (know_atom a false) e) in H2; [exact H2 | |]; intros f' b A; apply (KA a); rewrite B; exact A.
Qed.

Lemma know_m_eval e h : eval (pe (know_m (e_m e)) h) e = eval h e.
Proof.
  apply pe_eval. intros [] b; cbn [know_m]; try discriminate. destruct v; try discriminate.
  intros X. now injection X.
Qed.
Lemma know_w_eval e h : eval (pe (know_w (e_w e)) h) e = eval h e.
Proof. apply pe_eval. intros [] b; cbn [know_w]; try discriminate. intros X. now injection X. Qed.
Lemma know_d_eval e h : eval (pe (know_d (e_d e)) h) e = eval h e.
Proof.
  apply pe_eval. intros [] b; cbn [know_d]; try discriminate. destruct v; try discriminate.
  intros X. now injection X.
Qed.
Lemma know_y_eval e h : eval (pe (know_y (e_y e) (e_dd e)) h) e = eval h e.
Proof.
  apply pe_eval. intros [] b; cbn [know_y]; try discriminate.
  - destruct v; try discriminate; intros X; now injection X.
  - intros X. now injection X.
Qed.

Lemma most_days_len y m : month_len y m <= most_days m.
Proof.
  destruct (Z.eq_dec m 2) as [-> | N].
  - unfold most_days, month_len. change (is_leap 2000) with true. destruct (is_leap y); lia.
  - unfold most_days. rewrite !month_size_len by assumption. lia.
Qed.

Lemma most_days_le m : 1 <= m <= 12 -> most_days m <= 31.
Proof. intros M. pose proof (month_len_range 2000 m M). unfold most_days. lia. Qed.

Definition dated (ws : list Weekday) (e : env) : Prop :=
  1 <= e_m e <= 12 /\ 1 <= e_d e <= most_days (e_m e) /\ In (e_w e) ws /\ 1900 <= e_y e <= 2200
  /\ e_dd e = ordinal (mkDate (e_y e) (e_m e) (e_d e)).

Lemma try_years_spec ws P f g e :
  (forall f g, P f g = true -> eval f e = eval g e) ->
  try_years P (e_m e) (e_d e) f g = true -> dated ws e -> eval f e = eval g e.
Proof.
  intros S H (_ & _ & _ & Y & O). unfold try_years in H.
  destruct (P f g) eqn:E; [exact (S _ _ E) |].
  assert (1900 <= e_y e < 1900 + 301) as R by (clear - Y; lia).
  pose proof (sweep_spec _ _ _ H (e_y e) R) as Hy. cbv beta in Hy. clear H. rewrite <- O in Hy.
  apply S in Hy. rewrite !know_y_eval in Hy. exact Hy.
Qed.

Lemma try_days_spec ws P f g e : (forall f g, P f g = true -> eval f e = eval g e) ->
  try_days P (e_m e) f g = true -> dated ws e -> eval f e = eval g e.
Proof.
  intros S H De. unfold try_days in H.
  assert (1 <= e_d e <= most_days (e_m e)) as D by apply De.
  assert (1 <= e_d e < 1 + 31) as R.
  { destruct De as (M & _). pose proof (most_days_le _ M) as L. clear - D L. lia. }
  pose proof (sweep_spec _ _ _ H (e_d e) R) as Hd. cbv beta in Hd. clear H.
  rewrite (proj2 (Z.ltb_ge (most_days (e_m e)) (e_d e)) (proj2 D)) in Hd.
  apply (try_years_spec ws P _ _ e S) in Hd; [| exact De]. rewrite !know_d_eval in Hd. exact Hd.
Qed.

Lemma try_weekdays_spec ws P f g e : (forall f g, P f g = true -> eval f e = eval g e) ->
  try_weekdays ws P (e_m e) f g = true -> dated ws e -> eval f e = eval g e.
Proof.
  intros S H De. unfold try_weekdays in H. rewrite forallb_forall in H.
  assert (In (e_w e) ws) as I by apply De.
  specialize (H _ I). apply (try_days_spec ws P _ _ e S) in H; [| exact De]. rewrite !know_w_eval in H. exact H.
Qed.

Lemma try_months_spec ws P f g e : (forall f g, P f g = true -> eval f e = eval g e) ->
  try_months ws P f g = true -> dated ws e -> eval f e = eval g e.
Proof.
  intros S H De. unfold try_months in H.
  assert (1 <= e_m e < 1 + 12) as R by (destruct De as (M & _); clear - M; lia).
  pose proof (sweep_spec _ _ _ H (e_m e) R) as Hm. cbv beta in Hm. clear H.
  apply (try_weekdays_spec ws P _ _ e S) in Hm; [| exact De]. rewrite !know_m_eval, !norm_eval in Hm. exact Hm.
Qed.

Definition same (ws : list Weekday) (f g : fm) : bool := try_months ws (same_atoms fuel) f g.

Lemma same_spec ws f g e : same ws f g = true -> dated ws e -> eval f e = eval g e.
Proof. exact (try_months_spec ws (same_atoms fuel) f g e (same_atoms_spec e fuel)). Qed.

(** ** All years: formulas without Easter and day-of-year comparisons, and year constants in the tables' range *)

Fixpoint ageless (f : fm) : bool :=
  match f with
  | At Yv _ k => year_in k
  | At DDv _ _ | Rem4 | Em _ | Om _ => false
  | And f g | Or f g => ageless f && ageless g
  | Not f => ageless f
  | Ite f g h => ageless f && ageless g && ageless h
  | _ => true
  end.

Lemma ageless_clamp f d w m y dd em oem dd' em' oem' : ageless f = true ->
  eval f (mkEnv d w m y dd em oem) = eval f (mkEnv d w m (clamp y) dd' em' oem').
Proof.
  induction f as [| | v c k | | | | | f IHf g IHg | f IHf g IHg | f IHf | f IHf g IHg h IHh]; cbn [ageless];
    try discriminate; try reflexivity; rewrite ?andb_true_iff; intros A.
  - destruct v; try reflexivity; [| discriminate]. cbn [eval value e_y]. unfold year_in in A.
    rewrite andb_true_iff, !Z.leb_le in A. destruct c; cbn [cmpb];
      [now rewrite clamp_eqb | now rewrite clamp_leb | now rewrite clamp_geb | now rewrite clamp_ltb | now rewrite clamp_gtb].
  - cbn [eval]. now rewrite (IHf (proj1 A)), (IHg (proj2 A)).
  - cbn [eval]. now rewrite (IHf (proj1 A)), (IHg (proj2 A)).
  - cbn [eval]. now rewrite (IHf A).
  - cbn [eval]. destruct A as [[A1 A2] A3]. now rewrite (IHf A1), (IHg A2), (IHh A3).
Qed.

Lemma same_ageless ws f g d w m y dd em oem : same ws f g = true -> ageless f = true -> ageless g = true ->
  1 <= m <= 12 -> 1 <= d <= most_days m -> In w ws ->
  eval f (mkEnv d w m y dd em oem) = eval g (mkEnv d w m y dd em oem).
Proof.
  intros S Af Ag M D W.
  rewrite (ageless_clamp f d w m y dd em oem (ordinal (mkDate (clamp y) m d)) 0 0 Af).
  rewrite (ageless_clamp g d w m y dd em oem (ordinal (mkDate (clamp y) m d)) 0 0 Ag).
  apply (same_spec ws); [exact S |]. unfold dated. cbn [e_m e_d e_w e_y e_dd].
  assert (1900 <= clamp y <= 2200) by (clear; unfold clamp; lia).
  repeat match goal with |- _ /\ _ => split end; try assumption; try apply M; try apply D; try apply H; reflexivity.
Qed.

(** ** Rules as formulas *)

Fixpoint years_fm (ys : list Z) : fm :=
  match ys with [] => Fa | y :: ys => Or (At Yv Ceq y) (years_fm ys) end.

Fixpoint rule_fm (r : rule) : fm :=
  match r with
  | Fixed m d => And (At Dv Ceq d) (At Mv Ceq m)
  | Western k => Em (k - 1)
  | Orthodox k => Om (k - 1)
  | Nth n w m => And (Wd w) (And (At Mv Ceq m) (And (At Dv Cgt (7 * (Z.of_nat n - 1))) (At Dv Cle (7 * Z.of_nat n))))
  | Last w m => And (Wd w) (And (At Mv Ceq m) (At Dv Cgt (month_size m - 7)))
  | FirstFrom w m d => And (Wd w) (And (At Mv Ceq m) (And (At Dv Cge d) (At Dv Cle (d + 6))))
  | Moved w k m d => And (Wd (weekday_plus w k)) (And (At Dv Ceq (snd (shifted m d k))) (At Mv Ceq (fst (shifted m d k))))
  | Weekly w => Wd w
  | From y r => And (At Yv Cge y) (rule_fm r)
  | Until y r => And (At Yv Cle y) (rule_fm r)
  | InYears ys r => And (years_fm ys) (rule_fm r)
  | NotIn ys r => And (Not (years_fm ys)) (rule_fm r)
  | Since m d r => And (Or (At Mv Cgt m) (And (At Mv Ceq m) (At Dv Cge d))) (rule_fm r)
  end.

Fixpoint rules_fm (rs : list rule) : fm :=
  match rs with [] => Fa | r :: rs => Or (rule_fm r) (rules_fm rs) end.

Lemma years_fm_eval ys e : eval (years_fm ys) e = existsb (Z.eqb (e_y e)) ys.
Proof. induction ys as [| y ys IH]; [reflexivity |]. cbn [years_fm eval existsb]. now rewrite IH. Qed.

Lemma rule_fm_eval r d w m y dd em oem :
  eval (rule_fm r) (mkEnv d w m y dd em oem) = ruleb r d w m y dd em oem.
Proof.
  induction r as [| | | | | | | | y' r IH | y' r IH | ys r IH | ys r IH | m' d' r IH]; try reflexivity;
    cbn [rule_fm eval ruleb]; rewrite IH; try reflexivity; rewrite ?years_fm_eval; try reflexivity.
  cbn [cmpb value e_m e_d]. now rewrite (Z.eqb_sym m' m).
Qed.

Lemma rules_fm_eval rs d w m y dd em oem :
  eval (rules_fm rs) (mkEnv d w m y dd em oem) = rulesb rs d w m y dd em oem.
Proof.
  induction rs as [| r rs IH]; [reflexivity |]. unfold rulesb. cbn [rules_fm eval existsb].
  now rewrite rule_fm_eval, IH.
Qed.

(** ** From a condition to its formula *)

Ltac reify_bool d w m y dd em oem t :=
  let rec go t :=
    lazymatch t with
    | true => constr:(Tr)
    | false => constr:(Fa)
    | ?a || ?b => let f := go a in let g := go b in constr:(Or f g)
    | ?a && ?b => let f := go a in let g := go b in constr:(And f g)
    | negb ?a => let f := go a in constr:(Not f)
    | (if ?a then ?b else ?c) => let f := go a in let g := go b in let h := go c in constr:(Ite f g h)
    | weekday_eqb w ?k => constr:(Wd k)
    | Z.rem y 4 =? 0 => constr:(Rem4)
    | dd =? em + ?k => constr:(Em k)
    | dd =? em - ?k => let k' := eval compute in (- k) in constr:(Em k')
    | dd =? oem + ?k => constr:(Om k)
    | d =? ?k => constr:(At Dv Ceq k) | d <=? ?k => constr:(At Dv Cle k) | ?k <=? d => constr:(At Dv Cge k)
    | d <? ?k => constr:(At Dv Clt k) | ?k <? d => constr:(At Dv Cgt k)
    | m =? ?k => constr:(At Mv Ceq k) | m <=? ?k => constr:(At Mv Cle k) | ?k <=? m => constr:(At Mv Cge k)
    | m <? ?k => constr:(At Mv Clt k) | ?k <? m => constr:(At Mv Cgt k)
    | y =? ?k => constr:(At Yv Ceq k) | y <=? ?k => constr:(At Yv Cle k) | ?k <=? y => constr:(At Yv Cge k)
    | y <? ?k => constr:(At Yv Clt k) | ?k <? y => constr:(At Yv Cgt k)
    | ?k <=? dd => constr:(At DDv Cge k) | dd <=? ?k => constr:(At DDv Cle k)
    end in
  go t.
