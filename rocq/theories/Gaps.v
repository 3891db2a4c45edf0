(** How far apart the business days of the calendars are: a walk over all days from 1901 to 2199. *)
From Coq Require Import ZArith Bool List Lia.
From Verif Require Import Base Chrono Gregorian DateFacts EasterTables CalLib Calendars CalCore CalFacts YearSweep.
Import ListNotations.
Local Open Scope Z_scope.

Section walk.
  Context {A : Type} (f : A -> bool).

  (** The days after the last [f] among the first n. *)
  Fixpoint pick (n : nat) (l : list A) : option (list A) :=
    match n, l with
    | S n, x :: t => match pick n t with Some r => Some r | None => if f x then Some t else None end
    | _, _ => None
    end.

  (** Go from [f] to [f] with never N days in a row without one, the first within a days; the number
      of days left over at the end. *)
  Fixpoint walk (fuel N a : nat) (l : list A) : option nat :=
    match fuel with
    | O => None
    | S fuel =>
      match pick a l with
      | Some t => walk fuel N N t
      | None => if Nat.ltb (length l) a then Some (length l + (N - a))%nat else None
      end
    end.

  Lemma pick_spec : forall n l r, pick n l = Some r ->
    exists i x, (i < n)%nat /\ nth_error l i = Some x /\ f x = true /\ (length l = i + 1 + length r)%nat
      /\ forall j, nth_error r j = nth_error l (i + 1 + j).
  Proof using Type.
    induction n as [| n IH]; intros l r H; [discriminate |]. destruct l as [| x t]; [discriminate |]. cbn [pick] in H.
    destruct (pick n t) as [r' |] eqn:E.
    - injection H as <-. destruct (IH _ _ E) as (i & z & I & N & F & L & J). exists (S i), z.
      cbn [nth_error length]. split; [lia |]. split; [exact N |]. split; [exact F |]. split; [lia |].
      intros j. apply J.
    - destruct (f x) eqn:F; [| discriminate]. injection H as <-. exists 0%nat, x.
      cbn [nth_error length]. split; [lia |]. split; [reflexivity |]. split; [exact F |]. split; [lia |]. reflexivity.
  Qed.

  Lemma walk_spec : forall fuel N a l g, (a <= N)%nat -> walk fuel N a l = Some g ->
    (g < N)%nat /\
    forall t, Z.of_nat a - Z.of_nat N <= t -> t < Z.of_nat (length l) - Z.of_nat g ->
      exists k x, t <= Z.of_nat k < t + Z.of_nat N /\ nth_error l k = Some x /\ f x = true.
  Proof using Type.
    induction fuel as [| fuel IH]; intros N a l g H E; [discriminate |]. cbn [walk] in E.
    destruct (pick a l) as [r |] eqn:P.
    - destruct (pick_spec _ _ _ P) as (i & x & I & Nx & F & L & J).
      destruct (IH N N r g (le_n N) E) as [G W]. split; [exact G |]. intros t T1 T2.
      destruct (Z_le_gt_dec t (Z.of_nat i)) as [Q | Q].
      + exists i, x. split; [lia | auto].
      + destruct (W (t - Z.of_nat i - 1)) as (k & z & K & Nz & Fz); [lia | lia |].
        exists (i + 1 + k)%nat, z. split; [lia |]. split; [now rewrite <- J | exact Fz].
    - destruct (Nat.ltb_spec (length l) a); [| discriminate]. injection E as <-. split; [lia |]. intros t T1 T2. lia.
  Qed.
End walk.

(** Whether a calendar is open on a day of year y. *)
Definition open_on (c : Country) (y em oem : Z) : day -> bool :=
  fun '(m, d, dd, w) => country_core c d w m y dd em oem.

Fixpoint years (c : Country) (N n : nat) (y : Z) (a : nat) : bool :=
  match n with
  | O => true
  | S n =>
    match walk (open_on c y (entry EASTER_MONDAY y) (entry ORTHODOX_EASTER_MONDAY y)) 366 N a (year_days y) with
    | Some g => years c N n (y + 1) (N - g)
    | None => false
    end
  end.

Definition open_in_tables (c : Country) (x : NaiveDate) : bool :=
  country_core c (nd_day x) (weekday x) (nd_month x) (nd_year x) (ordinal x)
    (entry EASTER_MONDAY (nd_year x)) (entry ORTHODOX_EASTER_MONDAY (nd_year x)).

Lemma next_year y : days_before_year (y + 1) = days_before_year y + 365 + leap01 y.
Proof. apply days_before_year_succ. Qed.

Lemma years_spec c N : forall n y a, (1 <= a <= N)%nat -> years c N n y a = true ->
  forall t, days_before_year y + 1 - (Z.of_nat N - Z.of_nat a) <= t ->
    t + Z.of_nat N <= days_before_year (y + Z.of_nat n) + 1 ->
    exists x, proper x /\ y <= nd_year x < y + Z.of_nat n /\ t <= num_days_from_ce x < t + Z.of_nat N
              /\ open_in_tables c x = true.
Proof.
  induction n as [| n IH]; intros y a H E t T1 T2.
  - exfalso. rewrite Z.add_0_r in T2. lia.
  - cbn [years] in E. destruct (walk _ _ _ _ _) as [g |] eqn:W in E; [| discriminate].
    apply walk_spec in W; [| lia]. destruct W as [G W]. pose proof (year_days_length y) as L.
    pose proof (next_year y) as NY.
    destruct (Z_lt_le_dec (t - (days_before_year y + 1)) (Z.of_nat (length (year_days y)) - Z.of_nat g)) as [Q | Q].
    + destruct (W (t - (days_before_year y + 1))) as (k & z & K & Nk & F); [lia | exact Q |].
      assert (k < length (year_days y))%nat as KL by (apply nth_error_Some; congruence).
      destruct (year_days_nth y k) as (x & P & Y & O & S & Nx); [lia |].
      rewrite Nk in Nx. injection Nx as ->. exists x.
      split; [exact P |]. split; [lia |]. split; [lia |].
      unfold open_in_tables. rewrite Y. exact F.
    + destruct (IH (y + 1) (N - g)%nat) with (t := t) as (x & P & Y & S & O); [lia | exact E | lia | | ].
      * replace (y + 1 + Z.of_nat n) with (y + Z.of_nat (S n)) by lia. exact T2.
      * exists x. split; [exact P |]. split; [lia |]. auto.
Qed.

(** ** The bounds *)

(** Any so many consecutive days from 1901 to 2199 have a business day among them. *)
Definition window (c : Country) : nat :=
  match c with
  | WeekendsOnly => 3
  | France (Some FranceMarket_Exchange) => 6
  | France _ => 4
  | UnitedStates (Some UnitedStatesMarket_NYSE) => 7
  | UnitedStates _ => 4
  | Austria (Some AustriaMarket_Exchange) => 6
  | Italy (Some ItalyMarket_Exchange) => 6
  | Argentina | Austria _ | Botswana | Brazil _ | Canada _ | Hungary | Italy _ | Poland | Romania | Singapore
  | Switzerland | Target | Ukraine | UnitedKingdom _ => 5
  | Australia _ | Chile | CzechRepublic | Denmark | Finland | Germany _ | HongKong | Iceland | India | Israel | Mexico
  | NewZealand | Norway | SouthAfrica | Sweden | Thailand => 6
  | SouthKorea => 8
  | Indonesia | Turkey => 10
  | Japan | Russia _ | Slovakia | Taiwan => 11
  | China => 13
  end.

(** Markets with the same calendar need one walk. *)
Definition representative (c : Country) : Country :=
  match c with
  | Austria None => Austria (Some AustriaMarket_Settlement)
  | Australia None => Australia (Some AustraliaMarket_Settlement)
  | Brazil None => Brazil (Some BrazilMarket_Settlement)
  | Canada None => Canada (Some CanadaMarket_Settlement)
  | France None => France (Some FranceMarket_Settlement)
  | Germany None | Germany (Some GermanyMarket_Xetra) => Germany (Some GermanyMarket_FrankfurtStockExchange)
  | Italy None => Italy (Some ItalyMarket_Settlement)
  | Russia None => Russia (Some RussiaMarket_Settlement)
  | UnitedKingdom _ => UnitedKingdom (Some UnitedKingdomMarket_Settlement)
  | UnitedStates None => UnitedStates (Some UnitedStatesMarket_Settlement)
  | _ => c
  end.

Definition walked : list Country :=
  [Argentina; Austria (Some AustriaMarket_Settlement); Austria (Some AustriaMarket_Exchange);
   Australia (Some AustraliaMarket_Settlement); Australia (Some AustraliaMarket_ASX); Botswana;
   Brazil (Some BrazilMarket_Settlement); Brazil (Some BrazilMarket_Exchange);
   Canada (Some CanadaMarket_Settlement); Canada (Some CanadaMarket_TSX); Chile; China; CzechRepublic; Denmark; Finland;
   France (Some FranceMarket_Settlement); France (Some FranceMarket_Exchange);
   Germany (Some GermanyMarket_Settlement); Germany (Some GermanyMarket_FrankfurtStockExchange);
   Germany (Some GermanyMarket_Eurex); Germany (Some GermanyMarket_Euwax); HongKong; Hungary; Iceland; India; Indonesia;
   Israel; Italy (Some ItalyMarket_Settlement); Italy (Some ItalyMarket_Exchange); Japan; Mexico; NewZealand; Norway;
   Poland; Romania; Russia (Some RussiaMarket_Settlement); Russia (Some RussiaMarket_Exchange); Singapore; Slovakia;
   SouthAfrica; SouthKorea; Sweden; Switzerland; Taiwan; Target; Thailand; Turkey; Ukraine;
   UnitedKingdom (Some UnitedKingdomMarket_Settlement);
   UnitedStates (Some UnitedStatesMarket_Settlement); UnitedStates (Some UnitedStatesMarket_Libor);
   UnitedStates (Some UnitedStatesMarket_NYSE); UnitedStates (Some UnitedStatesMarket_GovernmentBond);
   UnitedStates (Some UnitedStatesMarket_SOFR); UnitedStates (Some UnitedStatesMarket_NERC);
   UnitedStates (Some UnitedStatesMarket_FederalReserve); WeekendsOnly].

Lemma all_walk : forallb (fun c => years c (window c) 299 1901 (window c)) walked = true.
Proof. vm_cast_no_check (eq_refl true). Qed.

Lemma representative_walked c : In (representative c) walked.
Proof. destruct c; all_markets; cbn [representative]; unfold walked; repeat first [left; reflexivity | right]. Qed.

Lemma representative_open c x : open_in_tables (representative c) x = open_in_tables c x.
Proof. destruct c; all_markets; reflexivity. Qed.

Lemma representative_window c : window (representative c) = window c.
Proof. destruct c; all_markets; reflexivity. Qed.

Lemma window_pos c : (1 <= window c)%nat.
Proof. destruct c; all_markets; cbn; lia. Qed.

Lemma business_day_in_window c t : days_before_year 1901 + 1 <= t ->
  t + Z.of_nat (window c) <= days_before_year 2200 + 1 ->
  exists x, proper x /\ 1901 <= nd_year x <= 2199 /\ t <= num_days_from_ce x < t + Z.of_nat (window c)
            /\ open_in_tables c x = true.
Proof.
  intros T1 T2. pose proof all_walk as W. rewrite forallb_forall in W.
  specialize (W _ (representative_walked c)). cbv beta in W. rewrite representative_window in W.
  pose proof (window_pos c) as Wp.
  destruct (years_spec (representative c) (window c) 299 1901 (window c) ltac:(lia) W t) as (x & P & Y & S & O);
    [lia | exact T2 |].
  exists x. rewrite representative_open in O. split; [exact P |]. split; [lia |]. auto.
Qed.
