(** The library as a whole (C54). *)
From Coq Require Import String ZArith List Bool Lia.
From Verif.Model Require Import Base Dates Zone Queries Build Holidays Exchange Dispatcher Library.
From Verif.Spec Require Import Schedule Construction Civil Rules Feasts Venue Catalogue.
From Verif.Proofs Require Import BaseLemmas DatesLemmas ScheduleLemmas ZoneLemmas BuildLemmas BuildLemmas2
  ShapeLemmas RuleLemmas RuleRange VenueLemmas VenueSound VenueData
  DispatcherLemmas.
From Verif.Properties Require Import QueryProps BuildProps ExchangeProps DispatcherProps.
From Verif.Exchanges Require Import All zones.
Import ListNotations.
Open Scope Z_scope.

Local Opaque calendar_holidays build_exchange build.

(** ** The classes *)

Definition the_kind (name : string) (E : exchange) : kind :=
  match listed_years name with
  | Some _ => Precomputed E
  | None => if String.eqb name "XHKG" then Lunisolar E xhkg_lunisolar
            else if String.eqb name "XTKS" then Plain E (ymd 2000 1 1)
            else if String.eqb name "us_futures" then Plain E (ymd 2000 1 1)
            else Plain E (ymd 1990 1 1)
  end.

Lemma exchange_class : forall name E, In (name, E) exchanges ->
  exists f c, lookup name default_calendar_factories = Some f /\ lookup f classes = Some c /\
    class_kind c = the_kind name E.
Proof.
  intros name E H. unfold exchanges in H. cbn [In] in H.
  repeat (destruct H as [H|H];
    [injection H as <- <-; do 2 eexists; split; [reflexivity|]; split; [reflexivity|]; reflexivity|]).
  destruct H.
Qed.

(** *** The years of the data *)

Lemma listed_data : forallb (fun p => match listed_years (fst p) with
  | None => true
  | Some (lo, hi) =>
      let ds := ex_adhoc_holidays (snd p) in
      forallb (fun n => (lo <=? year_of n) && (year_of n <=? hi)) ds &&
      existsb (fun n => year_of n =? lo) ds && existsb (fun n => year_of n =? hi) ds &&
      (precomputed_start (snd p) =? at_midnight_of (date_number lo 1 1)) &&
      (precomputed_end (snd p) =? at_midnight_of (date_number hi 12 31))
  end) exchanges = true.
Proof. vm_compute. reflexivity. Qed.

Lemma data_year_iff : forall E z s e y,
  data_year (instantiate E z s e) y <-> exists n, In n (ex_adhoc_holidays E) /\ year_of n = y.
Proof.
  intros E z s e y. unfold data_year. cbn [instantiate adhoc_holidays]. split.
  - intros [h [H Hy]]. apply in_map_iff in H. destruct H as [n [<- H]]. exists n. split; [exact H|].
    rewrite (midnight_at n), at_midnight_div in Hy. apply year_of_ok. exact Hy.
  - intros [n [H Hy]]. exists (midnight n). split; [apply in_map; exact H|].
    rewrite (midnight_at n), at_midnight_div. apply year_of_ok. exact Hy.
Qed.

Lemma listed_facts : forall name E lo hi, In (name, E) exchanges -> listed_years name = Some (lo, hi) ->
  (forall z s e, least (data_year (instantiate E z s e)) lo /\ greatest (data_year (instantiate E z s e)) hi) /\
  precomputed_start E = default_start name /\ (forall today, precomputed_end E = default_end name today).
Proof.
  intros name E lo hi H Hl. pose proof listed_data as Q. rewrite forallb_forall in Q. specialize (Q _ H).
  cbn [fst snd] in Q. rewrite Hl in Q. rewrite !andb_true_iff in Q. destruct Q as [[[[Q1 Q2] Q3] Q4] Q5].
  rewrite forallb_forall in Q1. rewrite existsb_exists in Q2, Q3. apply Z.eqb_eq in Q4, Q5.
  split; [|split].
  - intros z s e. split; split.
    + apply data_year_iff. destruct Q2 as [n [A B]]. exists n. split; [exact A|lia].
    + intros y Hy. apply data_year_iff in Hy. destruct Hy as [n [A <-]]. specialize (Q1 n A).
      apply andb_true_iff in Q1. lia.
    + apply data_year_iff. destruct Q3 as [n [A B]]. exists n. split; [exact A|lia].
    + intros y Hy. apply data_year_iff in Hy. destruct Hy as [n [A <-]]. specialize (Q1 n A).
      apply andb_true_iff in Q1. lia.
  - unfold default_start. rewrite Hl. exact Q4.
  - intros today. unfold default_end. rewrite Hl. exact Q5.
Qed.

Lemma lunisolar_years : year_of (list_max (map list_min xhkg_lunisolar)) = 1960 /\
  year_of (list_min (map list_max xhkg_lunisolar)) = 2049.
Proof. split; vm_compute; reflexivity. Qed.

(** The sessions of a calendar lie between the first and the last. *)
Lemma beyond_iff : forall D start stop b lo hi, build D start stop = Ok b ->
  (beyond lo hi b <->
   year_of (day_of (first_trading_session b)) < lo \/ hi < year_of (day_of (last_trading_session b))).
Proof.
  intros D start stop b lo hi H.
  assert (Ne : exists s, In s (sessions (cal b))).
  { destruct (sessions (cal b)) as [|s0 ss0] eqn:Es; [|exists s0; left; reflexivity].
    exfalso. pose proof (build_sessions D start stop b H) as Eb. rewrite Es in Eb.
    destruct (build_trace D start stop b H) as [? [? [? [? [? [? T]]]]]].
    destruct T as [_ [_ [_ [_ [_ [_ [_ [_ [_ [_ [_ [_ [_ [F _]]]]]]]]]]]]]].
    rewrite <- Eb in F. discriminate. }
  destruct Ne as [s0 Hs0]. destruct (sessions_span D start stop b s0 H Hs0) as [_ [HF HL]].
  assert (Q : forall x, in_year (x / one_day) (year_of (day_of x))).
  { intros x. unfold day_of. rewrite NPD_one_day. apply year_of_ok. reflexivity. }
  unfold beyond. split.
  - intros [x [y [Hx [Hy Hn]]]]. destruct (sessions_span D start stop b x H Hx) as [[S1 S2] _].
    apply year_of_ok in Hy. subst y.
    assert (year_of (day_of (first_trading_session b)) <= year_of (x / one_day)).
    { unfold day_of. rewrite NPD_one_day. apply year_of_mono. pose proof one_day_pos. apply Z.div_le_mono; lia. }
    assert (year_of (x / one_day) <= year_of (day_of (last_trading_session b))).
    { unfold day_of. rewrite NPD_one_day. apply year_of_mono. pose proof one_day_pos. apply Z.div_le_mono; lia. }
    lia.
  - intros [A|A].
    + exists (first_trading_session b), (year_of (day_of (first_trading_session b))).
      split; [exact HF|]. split; [apply Q|lia].
    + exists (last_trading_session b), (year_of (day_of (last_trading_session b))).
      split; [exact HL|]. split; [apply Q|lia].
Qed.

(** ** C54: calling a factory *)

(** A default factory builds the calendar of its exchange over the given or default
    range, except that a calendar with sessions outside the years of the data is
    refused with ValueError. *)
Theorem c54_factories : forall tzdb today name E start stop, In (name, E) exchanges ->
  let r := build_exchange E (tzdb (ex_tz E)) (with_default start (default_start name))
             (with_default stop (default_end name today)) in
  (forall e, r = Raise e -> factory_call tzdb today name start stop = Some (Raise e)) /\
  (forall b, r = Ok b -> (forall lo hi, known_years name = Some (lo, hi) -> ~ beyond lo hi b) ->
     factory_call tzdb today name start stop = Some (Ok b)) /\
  (forall b lo hi, r = Ok b -> known_years name = Some (lo, hi) -> beyond lo hi b ->
     factory_call tzdb today name start stop = Some (Raise ValueError)).
Proof.
  intros tzdb today name E start stop H r.
  destruct (exchange_class name E H) as [f [c [E1 [E2 E3]]]].
  unfold factory_call. rewrite E1, E2. unfold construct. rewrite E3. unfold the_kind.
  destruct (listed_years name) as [[lo hi]|] eqn:Hl.
  - destruct (listed_facts name E lo hi H Hl) as [D1 [D2 D3]]. rewrite D2, (D3 today).
    set (s := with_default start (default_start name)) in *.
    set (e := with_default stop (default_end name today)) in *.
    destruct (D1 (tzdb (ex_tz E)) s e) as [L1 L2]. set (D := instantiate E (tzdb (ex_tz E)) s e) in *.
    assert (Hk : known_years name = Some (lo, hi)).
    { unfold listed_years in Hl. destruct (String.eqb name "XHKG"); [discriminate Hl|exact Hl]. }
    assert (Er : r = build D s e) by reflexivity.
    split; [|split].
    + intros er Hr. rewrite Er in Hr. f_equal. unfold build_precomputed.
      destruct L1 as [L1 _]. apply data_years_In in L1.
      destruct (map (fun h => year_of (day_of h)) (adhoc_holidays D)); [destruct L1|].
      rewrite Hr. reflexivity.
    + intros b Hr Hn. rewrite Er in Hr. f_equal. apply (proj1 (c32_range_check D s e b lo hi L1 L2 Hr)).
      intros x y Hx Hy. destruct (Z_le_dec lo y), (Z_le_dec y hi); try lia;
        exfalso; apply (Hn lo hi Hk); exists x, y; (split; [exact Hx|]); (split; [exact Hy|lia]).
    + intros b lo' hi' Hr Hk' Hb. rewrite Hk in Hk'. injection Hk' as <- <-. rewrite Er in Hr. f_equal.
      apply (proj2 (c32_range_check D s e b lo hi L1 L2 Hr)). exact Hb.
  - destruct (String.eqb_spec name "XHKG") as [En|Nn].
    + subst name. destruct lunisolar_years as [Y1 Y2].
      assert (S1 : midnight start_default = default_start "XHKG") by (vm_compute; reflexivity).
      assert (S2 : Library.end_default today = default_end "XHKG" today).
      { unfold Library.end_default, default_end. cbn [listed_years String.eqb]. rewrite NPD_one_day. reflexivity. }
      rewrite S1, S2. unfold build_lunisolar. rewrite Y1, Y2. fold r.
      assert (Hk : known_years "XHKG" = Some (1960, 2049)) by reflexivity.
      split; [|split].
      * intros er Hr. rewrite Hr. reflexivity.
      * intros b Hr Hn. rewrite Hr. specialize (Hn 1960 2049 Hk).
        rewrite (beyond_iff _ _ _ b 1960 2049 Hr) in Hn. f_equal.
        destruct (Z.ltb_spec (year_of (day_of (first_trading_session b))) 1960); [exfalso; apply Hn; left; assumption|].
        destruct (Z.ltb_spec 2049 (year_of (day_of (last_trading_session b)))); [exfalso; apply Hn; right; assumption|].
        reflexivity.
      * intros b lo hi Hr Hk' Hb. rewrite Hk in Hk'. injection Hk' as <- <-. rewrite Hr.
        apply (beyond_iff _ _ _ b 1960 2049 Hr) in Hb. f_equal.
        destruct (Z.ltb_spec (year_of (day_of (first_trading_session b))) 1960); [reflexivity|].
        destruct (Z.ltb_spec 2049 (year_of (day_of (last_trading_session b)))); [reflexivity|].
        exfalso. destruct Hb; lia.
    + assert (Hk : known_years name = None).
      { unfold listed_years in Hl. rewrite (proj2 (String.eqb_neq _ _) Nn) in Hl. exact Hl. }
      assert (Er : Some r = Some match (if String.eqb name "XTKS" then Plain E (ymd 2000 1 1)
          else if String.eqb name "us_futures" then Plain E (ymd 2000 1 1) else Plain E (ymd 1990 1 1)) with
        | Plain E0 first => build_exchange E0 (tzdb (ex_tz E0)) (with_default start (midnight first))
                              (with_default stop (Library.end_default today))
        | _ => r end).
      { f_equal. unfold r, default_start, default_end. rewrite Hl.
        assert (S0 : forall y, In y [1990; 2000] -> midnight (ymd y 1 1) = at_midnight_of (date_number y 1 1)).
        { intros y [<-|[<-|[]]]; vm_compute; reflexivity. }
        unfold Library.end_default. rewrite NPD_one_day.
        destruct (String.eqb name "XTKS"); [rewrite (S0 2000) by (right; left; reflexivity); reflexivity|].
        destruct (String.eqb name "us_futures"); [rewrite (S0 2000) by (right; left; reflexivity); reflexivity|].
        rewrite (S0 1990) by (left; reflexivity). reflexivity. }
      split; [|split].
      * intros er Hr. rewrite <- Hr, Er.
        destruct (String.eqb name "XTKS"); [reflexivity|]. destruct (String.eqb name "us_futures"); reflexivity.
      * intros b Hr _. rewrite <- Hr, Er.
        destruct (String.eqb name "XTKS"); [reflexivity|]. destruct (String.eqb name "us_futures"); reflexivity.
      * intros b lo hi _ Hk'. rewrite Hk in Hk'. discriminate Hk'.
Qed.

(** The data has a date in each of the known years: the precomputed lists have some
    holiday, and each of the lunisolar feasts of Hong Kong exactly one date. *)
Theorem c54_years_complete :
  (forall name E lo hi y, In (name, E) exchanges -> listed_years name = Some (lo, hi) -> lo <= y <= hi ->
     exists n, In n (ex_adhoc_holidays E) /\ in_year n y) /\
  (forall table y, In table xhkg_lunisolar -> 1960 <= y <= 2049 ->
     exists n, In n table /\ in_year n y /\ forall m, In m table -> in_year m y -> m = n).
Proof.
  split.
  - intros name E lo hi y H Hl Hy.
    assert (Q : forallb (fun p => match listed_years (fst p) with
      | None => true
      | Some (lo, hi) => let ys := map year_of (ex_adhoc_holidays (snd p)) in
          forallb (fun y => existsb (fun k => k =? y) ys) (year_range lo hi)
      end) exchanges = true) by (vm_compute; reflexivity).
    rewrite forallb_forall in Q. specialize (Q _ H). cbn [fst snd] in Q. rewrite Hl, forallb_forall in Q.
    specialize (Q y (proj2 (year_range_In lo hi y) Hy)). apply existsb_exists in Q.
    destruct Q as [k [A B]]. apply in_map_iff in A. destruct A as [n [<- A]].
    exists n. split; [exact A|]. apply year_of_ok. lia.
  - intros table y H Hy.
    assert (Q : forallb (fun t => let ps := map (fun n => (n, year_of n)) t in
      forallb (fun y => match filter (fun p => snd p =? y) ps with
      | [_] => true | _ => false end) (year_range 1960 2049)) xhkg_lunisolar = true) by (vm_compute; reflexivity).
    rewrite forallb_forall in Q. specialize (Q table H). cbv zeta in Q. rewrite forallb_forall in Q.
    specialize (Q y (proj2 (year_range_In 1960 2049 y) Hy)).
    destruct (filter (fun p => snd p =? y) (map (fun n => (n, year_of n)) table)) as [|p [|? ?]] eqn:F; try discriminate Q.
    assert (K : forall m, In m table -> in_year m y -> In (m, year_of m) [p]).
    { intros m Hm Hy'. rewrite <- F. apply filter_In. split; [apply in_map_iff; exists m; tauto|].
      apply Z.eqb_eq, year_of_ok. exact Hy'. }
    assert (I : In p (filter (fun p => snd p =? y) (map (fun n => (n, year_of n)) table))) by (rewrite F; left; reflexivity).
    apply filter_In in I. destruct I as [I1 I2]. apply in_map_iff in I1. destruct I1 as [n [<- I1]]. cbn [snd] in I2.
    exists n. split; [exact I1|].
    split; [apply year_of_ok; lia|]. intros m Hm Hy'. destruct (K m Hm Hy') as [E|[]]. injection E as E _. symmetry. exact E.
Qed.

(** *** The default range *)

(** [pytz.timezone] as tabulated in Exchanges/zones.v. *)
Definition tabulated (tzdb : string -> zone) : Prop := forall s z, In (s, z) zones -> tzdb s = z.

Example tabulated_ex : exists tzdb, tabulated tzdb.
Proof.
  exists (fun s => match lookup s zones with Some z => z | None => UTC end).
  assert (Q : forall l : list (string * zone), NoDup (map fst l) -> forall s z, In (s, z) l -> lookup s l = Some z).
  { induction l as [|[a b] l IH]; intros N s z H; [destruct H|]. cbn [lookup]. inversion N as [|? ? N1 N2]; subst.
    destruct H as [H|H].
    - injection H as -> ->. rewrite String.eqb_refl. reflexivity.
    - destruct (String.eqb_spec a s) as [->|_]; [|apply IH; assumption].
      exfalso. apply N1. apply in_map_iff. exists (s, z). tauto. }
  intros s z H. rewrite (Q zones) with (z := z); [reflexivity| |exact H].
  assert (E : nodup string_dec (map fst zones) = map fst zones) by (vm_compute; reflexivity).
  rewrite <- E. apply NoDup_nodup.
Qed.

Lemma start_year : forallb (fun p => existsb (fun y => default_start (fst p) =? at_midnight_of (date_number y 1 1))
    (match listed_years (fst p) with Some (lo, _) => [lo]
     | None => if String.eqb (fst p) "XTAE" then [1990] else [1990; 2000] end)) exchanges = true.
Proof. vm_compute. reflexivity. Qed.

Lemma listed_trades : forallb (fun p => match listed_years (fst p) with
  | None => true
  | Some (lo, hi) => existsb (fun n => open_dayb (snd p) n) (year_range (date_number lo 1 1) (date_number lo 1 20)) &&
      (date_number lo 1 20 <=? date_number hi 12 31) && (date_number 1950 1 1 <=? date_number lo 1 1) &&
      (not_a_time + 2 * one_day <? at_midnight_of (date_number lo 1 1)) && negb (String.eqb (fst p) "XTAE")
      && match conflict_days (fst p) with [] => true | _ => false end
  end) exchanges = true.
Proof. vm_compute. reflexivity. Qed.

(** Before the contradictory days and within the known years, every factory of an
    exchange succeeds without arguments, and gives the days and times the exchange
    announces. *)
Theorem c54_default : forall tzdb today name E, In (name, E) exchanges -> tabulated tzdb ->
  default_works name today ->
  exists b ss, factory_call tzdb today name None None = Some (Ok b) /\
    has_schedule (cal b) ss /\ well_formed ss /\
    (forall x, is_label_of ss x <-> exists n, x = at_midnight_of n /\
       default_start name <= x <= default_end name today /\ trades name E n) /\
    (forall s, In s ss -> venue_row name E (tzdb (ex_tz E)) (default_start name) (default_end name today) s).
Proof.
  intros tzdb today name E H Ht [W1 [W2 W3]].
  set (start := default_start name) in *. set (stop := default_end name today) in *.
  destruct (c53_clocks name E H) as [z [Hz Hc]]. pose proof (Ht _ _ Hz) as Ez.
  assert (B : exists b ss, build_exchange E (tzdb (ex_tz E)) start stop = Ok b /\
    has_schedule (cal b) ss /\ well_formed ss /\
    (forall x, is_label_of ss x <-> exists n, x = at_midnight_of n /\ start <= x <= stop /\ trades name E n) /\
    (forall s, In s ss -> venue_row name E (tzdb (ex_tz E)) start stop s)).
  { rewrite Ez. destruct (listed_years name) as [[lo hi]|] eqn:Hl.
    - pose proof listed_trades as Q. rewrite forallb_forall in Q. specialize (Q _ H). cbn [fst snd] in Q.
      rewrite Hl in Q. rewrite !andb_true_iff in Q. destruct Q as [[[[[Q1 Q2] Q3] Q4] Q5] Q6].
      apply existsb_exists in Q1. destruct Q1 as [n [Q1 Q1']]. apply year_range_In in Q1.
      apply negb_true_iff in Q5. apply Z.leb_le in Q2, Q3. apply Z.ltb_lt in Q4.
      assert (Es : start = at_midnight_of (date_number lo 1 1)) by (unfold start, default_start; rewrite Hl; reflexivity).
      assert (Ee : stop = at_midnight_of (date_number hi 12 31)) by (unfold stop, default_end; rewrite Hl; reflexivity).
      apply (c53_constructed name E z _ start stop H Hc).
      + rewrite Es. apply at_midnight_le.
        assert (date_number 1902 1 1 <= date_number 1950 1 1) by (vm_compute; discriminate).
        destruct (String.eqb name "XNYS"); lia.
      + rewrite Es. exact Q4.
      + rewrite Es. apply is_midnight_at. eauto.
      + exists n. rewrite Es, Ee, !at_midnight_le. split; [lia|]. apply (plain_trades _ _ _ H Q5). exact Q1'.
      + intros m Hm. destruct (conflict_days name); [destruct Hm|discriminate Q6].
    - pose proof start_year as Q. rewrite forallb_forall in Q. specialize (Q _ H). cbn [fst snd] in Q.
      rewrite Hl in Q. apply existsb_exists in Q. destruct Q as [y [Hy Ey]]. apply Z.eqb_eq in Ey.
      assert (Ee : stop = today + 365 * one_day) by (unfold stop, default_end; rewrite Hl; reflexivity).
      assert (Hy' : In y [1990; 2000]).
      { destruct (String.eqb name "XTAE"); [destruct Hy as [<-|[]]; left; reflexivity|exact Hy]. }
      assert (D : forallb (fun y => (date_number 1990 1 1 <=? date_number y 1 1) &&
        (date_number y 1 1 <=? date_number y 1 11) && (date_number y 1 11 <=? date_number 2000 1 11)) [1990; 2000] = true)
        by (vm_compute; reflexivity).
      rewrite forallb_forall in D. specialize (D y Hy'). rewrite !andb_true_iff in D. destruct D as [[D1 D2] D3].
      apply Z.leb_le in D1, D2, D3.
      destruct (c53_default_range y name E stop Hy' H) as [z' [b [ss [Z1 R]]]].
      + intros ->. destruct Hy as [<-|[]]. reflexivity.
      + rewrite Ee. eapply Z.le_trans; [apply at_midnight_le; exact D3|exact W1].
      + intros n Hn Hn'. apply W2; [exact Hn|lia].
      + pose proof (Ht _ _ Z1) as Ez'. rewrite Ez in Ez'. subst z'. unfold start. rewrite Ey. exists b, ss. exact R. }
  destruct B as [b [ss [B1 B]]]. exists b, ss. split; [|exact B].
  apply (proj1 (proj2 (c54_factories tzdb today name E None None H)) b B1).
  intros lo hi Hk [x [y [Hx [Hy Hn]]]]. apply Hn.
  destruct (c51_sessions name E (tzdb (ex_tz E)) start stop b H) as [[_ S] _].
  { pose proof start_year as Q. rewrite forallb_forall in Q. specialize (Q _ H). cbn [fst snd] in Q.
    apply existsb_exists in Q. destruct Q as [y0 [_ Ey]]. apply Z.eqb_eq in Ey. unfold start. rewrite Ey.
    apply is_midnight_at. eauto. }
  { exact B1. }
  apply S in Hx. destruct Hx as [n [-> [Hr _]]]. rewrite at_midnight_div in Hy.
  assert (lo_ok : year_start lo <= n).
  { assert (A : at_midnight_of (year_start lo) <= start).
    { unfold start, default_start. clear - Hk. apply at_midnight_le. revert Hk. unfold listed_years.
      destruct (String.eqb_spec name "XHKG") as [->|N].
      - intros Hk. injection Hk as <- <-. apply Z.leb_le. vm_compute. reflexivity.
      - intros ->. unfold date_number. cbn. lia. }
    apply at_midnight_le. lia. }
  assert (hi_ok : n < year_start (hi + 1)).
  { specialize (W3 lo hi Hk). assert (A : at_midnight_of n < at_midnight_of (date_number (hi + 1) 1 1)) by lia.
    assert (F : date_number (hi + 1) 1 1 = year_start (hi + 1)) by (unfold date_number; cbn; lia).
    rewrite F in A. pose proof (at_midnight_le (year_start (hi + 1)) n). lia. }
  apply year_of_ok in Hy. subst y. apply year_of_ge in lo_ok. split; [exact lo_ok|].
  pose proof (year_of_ge (hi + 1) n). lia.
Qed.

(** In November 2020 the condition held for every exchange. *)
Example c54_default_ex : forall name, In name (keys default_calendar_factories) ->
  default_works name (at_midnight_of (date_number 2020 11 10)).
Proof.
  intros name H.
  assert (Q : forallb (fun k => (at_midnight_of (date_number 2000 1 11) <=?
        at_midnight_of (date_number 2020 11 10) + 365 * one_day) &&
      forallb (fun n => (n <? date_number 1990 1 1) ||
        (default_end k (at_midnight_of (date_number 2020 11 10)) <? at_midnight_of n)) (conflict_days k) &&
      match known_years k with
      | Some (lo, hi) => default_end k (at_midnight_of (date_number 2020 11 10)) <?
          at_midnight_of (date_number (hi + 1) 1 1)
      | None => true
      end) (keys default_calendar_factories) = true) by (vm_compute; reflexivity).
  rewrite forallb_forall in Q. specialize (Q _ H). rewrite !andb_true_iff in Q.
  destruct Q as [[Q1 Q2] Q3]. rewrite forallb_forall in Q2. apply Z.leb_le in Q1.
  split; [exact Q1|]. split.
  - intros n Hn Hge. specialize (Q2 n Hn). apply orb_true_iff in Q2.
    destruct Q2 as [Q2|Q2]; apply Z.ltb_lt in Q2; [lia|exact Q2].
  - intros lo hi Hk. rewrite Hk in Q3. apply Z.ltb_lt. exact Q3.
Qed.

(** The calendars without holidays never refuse their default range. *)
Lemma last_midnight : forall t, is_midnight (t / one_day * one_day) /\
  t / one_day * one_day <= t < t / one_day * one_day + one_day.
Proof.
  intros t. pose proof one_day_pos as P. split; [exists (t / one_day); reflexivity|].
  pose proof (Z.div_mod t one_day ltac:(lia)). pose proof (Z.mod_pos_bound t one_day P). lia.
Qed.

(** Constructed with any range, where an omitted start is 1990 and an omitted end a year
    ahead, the calendar that is always open has a session on every day of the range, and
    the other one on every day from Monday to Friday. *)
Theorem c54_round_the_clock_range : forall tzdb today start stop first final,
  first = match start with Some a => a | None => at_midnight_of (date_number 1990 1 1) end ->
  final = match stop with Some a => a | None => today + 365 * one_day end ->
  is_midnight first -> not_a_time + 4 * one_day <= first ->
  (first <= final -> exists b, factory_call tzdb today "24/7" start stop = Some (Ok b) /\
     forall x, is_session (cal b) x = true <->
       exists n, x = at_midnight_of n /\ first <= x <= final) /\
  ((exists n, first <= at_midnight_of n <= final /\ day_of_week n < SATURDAY) ->
   exists b, factory_call tzdb today "24/5" start stop = Some (Ok b) /\
     forall x, is_session (cal b) x = true <->
       exists n, x = at_midnight_of n /\ first <= x <= final /\ day_of_week n < SATURDAY).
Proof.
  intros tzdb today start stop first final Ef El M1 Lo.
  assert (F : forall name f c D, lookup name default_calendar_factories = Some f -> lookup f classes = Some c ->
    class_kind c = Fixed D -> factory_call tzdb today name start stop = Some (build D first final)).
  { intros name f c D E1 E2 E3. unfold factory_call. rewrite E1, E2. unfold construct. rewrite E3.
    unfold with_default, Library.end_default. rewrite NPD_one_day.
    assert (S : midnight start_default = at_midnight_of (date_number 1990 1 1)) by (vm_compute; reflexivity).
    rewrite S. subst first final. reflexivity. }
  clear Ef El. destruct (last_midnight final) as [M2 [S1 S2]].
  set (last := final / one_day * one_day) in *.
  assert (Bd : forall x, is_midnight x -> (x <= last <-> x <= final)).
  { intros x [n ->]. unfold last. pose proof one_day_pos. split; [lia|]. intros A.
    apply Z.mul_le_mono_nonneg_r; [lia|]. apply Z.div_le_lower_bound; lia. }
  split.
  - intros Hle. apply (Bd _ M1) in Hle.
    destruct (c33_always_open first last final M1 M2 (conj S1 S2) Lo Hle) as [b [Hb [Hs _]]].
    exists b. split.
    + rewrite (F "24/7"%string _ _ always_open eq_refl eq_refl eq_refl). rewrite Hb. reflexivity.
    + intros x. rewrite Hs. split.
      * intros [Mx R]. pose proof (Bd x Mx). apply is_midnight_at in Mx. destruct Mx as [n En].
        exists n. split; [exact En|lia].
      * intros [n [-> R]]. assert (Mx : is_midnight (at_midnight_of n)) by (apply is_midnight_at; eauto).
        split; [exact Mx|]. pose proof (Bd _ Mx). lia.
  - intros [n0 [R0 W0]]. assert (Dw : forall n, (at_midnight_of n / one_day + 3) mod 7 = day_of_week n).
    { intros n. rewrite at_midnight_div. reflexivity. }
    assert (M0 : is_midnight (at_midnight_of n0)) by (apply is_midnight_at; eauto).
    pose proof (Bd _ M0) as B0.
    destruct (c33_weekday_calendar first last final M1 M2 (conj S1 S2) Lo) as [b [Hb [Hs _]]].
    { exists (at_midnight_of n0). split; [exact M0|]. split; [lia|]. rewrite Dw. exact W0. }
    exists b. split.
    + rewrite (F "24/5"%string _ _ weekday_calendar eq_refl eq_refl eq_refl). rewrite Hb. reflexivity.
    + intros x. rewrite Hs. unfold SATURDAY. split.
      * intros [Mx [R W]]. pose proof (Bd x Mx). apply is_midnight_at in Mx. destruct Mx as [n En].
        exists n. subst x. specialize (Dw n). split; [reflexivity|]. split; [lia|]. rewrite <- Dw. exact W.
      * intros [n [-> [R W]]]. assert (Mx : is_midnight (at_midnight_of n)) by (apply is_midnight_at; eauto).
        split; [exact Mx|]. pose proof (Bd _ Mx). split; [lia|]. rewrite <- (Dw n) in W. exact W.
Qed.

Theorem c54_round_the_clock : forall tzdb today, at_midnight_of (date_number 1990 1 1) <= today + 365 * one_day ->
  (exists b, factory_call tzdb today "24/7" None None = Some (Ok b) /\
     forall x, is_session (cal b) x = true <->
       exists n, x = at_midnight_of n /\ at_midnight_of (date_number 1990 1 1) <= x <= today + 365 * one_day) /\
  (exists b, factory_call tzdb today "24/5" None None = Some (Ok b) /\
     forall x, is_session (cal b) x = true <->
       exists n, x = at_midnight_of n /\ at_midnight_of (date_number 1990 1 1) <= x <= today + 365 * one_day /\
         day_of_week n < SATURDAY).
Proof.
  intros tzdb today Ht.
  assert (Lo : (not_a_time + 4 * one_day <=? at_midnight_of (date_number 1990 1 1)) = true) by (vm_compute; reflexivity).
  apply Z.leb_le in Lo.
  destruct (c54_round_the_clock_range tzdb today None None _ _ eq_refl eq_refl) as [A B]; [|exact Lo|].
  - apply is_midnight_at. eauto.
  - split; [apply A; exact Ht|]. apply B. exists (date_number 1990 1 1). split; [lia|]. vm_compute. reflexivity.
Qed.

(** ** C55: names *)

(** The [name] of the calendar of a default name leads back to it ... *)
Theorem c55_own_name : forall name f c, lookup name default_calendar_factories = Some f ->
  lookup f classes = Some c ->
  resolve_alias global_calendar_dispatcher (calendar_name c) = Returns name.
Proof.
  intros name f c H1 H2.
  assert (Q : forallb (fun p => match lookup (snd p) classes with
    | Some c => match resolve_alias global_calendar_dispatcher (calendar_name c) with
                | Returns n => String.eqb n (fst p) | Raises _ => false end
    | None => false end) default_calendar_factories = true) by (vm_compute; reflexivity).
  rewrite forallb_forall in Q. specialize (Q (name, f)). cbn [fst snd] in Q. rewrite H2 in Q.
  specialize (Q (lookup_In _ _ _ H1)). destruct (resolve_alias _ _); [|discriminate Q].
  apply String.eqb_eq in Q. subst. reflexivity.
Qed.

(** ... but is not always that name. *)
Theorem c55_own_name_refuted : exists name f c, lookup name default_calendar_factories = Some f /\
  lookup f classes = Some c /\ calendar_name c <> name.
Proof.
  exists "CMES"%string, "CMESExchangeCalendar"%string. eexists. split; [reflexivity|]. split; [reflexivity|].
  discriminate.
Qed.

(** ** C56: [get_calendar] on the default dispatcher *)

(** The object an instance stands for: the result of the factory call that made it. *)
Definition object (tzdb : string -> zone) (today : Z) (d : dispatcher) (i : instance) : option (result built) :=
  match nth_error (calls d) (Z.to_nat i) with
  | Some f => match lookup f classes with Some c => Some (construct tzdb today c None None) | None => None end
  | None => None
  end.

(** What holds after any sequence of [get_calendar] calls: a built calendar is the
    result of a successful call of the factory of its name. *)
Definition settled_state (tzdb : string -> zone) (today : Z) (d : dispatcher) : Prop :=
  aliases d = default_calendar_aliases /\ factories d = default_calendar_factories /\
  forall m i, lookup m (calendars d) = Some i ->
    exists b, object tzdb today d i = Some (Ok b) /\ factory_call tzdb today m None None = Some (Ok b).

Lemma nth_error_snoc : forall (A : Type) (l : list A) x k y,
  nth_error l k = Some y -> nth_error (l ++ [x]) k = Some y.
Proof.
  intros A l x k y H. rewrite nth_error_app1; [exact H|]. apply nth_error_Some. rewrite H. discriminate.
Qed.

(** One call in such a state. *)
Lemma get_settled : forall tzdb today d n, settled_state tzdb today d ->
  settled_state tzdb today (snd (get_calendar (library tzdb today) d n)) /\
  forall m b, resolve_alias global_calendar_dispatcher n = Returns m ->
    factory_call tzdb today m None None = Some (Ok b) ->
    exists i, fst (get_calendar (library tzdb today) d n) = Returns i /\
      object tzdb today (snd (get_calendar (library tzdb today) d n)) i = Some (Ok b).
Proof.
  intros tzdb today d n [Ha [Hf Hc]].
  assert (Er : resolve_alias d n = resolve_alias global_calendar_dispatcher n).
  { unfold resolve_alias. rewrite Ha. reflexivity. }
  unfold get_calendar. rewrite Er.
  destruct (resolve_alias global_calendar_dispatcher n) as [m|e]; cbn [fst snd];
    [|split; [split; [exact Ha|split; assumption]|discriminate]].
  destruct (lookup m (calendars d)) as [i|] eqn:Ec; cbn [fst snd].
  { split; [split; [exact Ha|split; assumption]|]. intros m' b Em Hb. injection Em as <-.
    destruct (Hc m i Ec) as [b' [O F]]. rewrite F in Hb. injection Hb as <-. exists i. auto. }
  rewrite Hf. destruct (lookup m default_calendar_factories) as [f|] eqn:Ef; cbn [fst snd].
  2:{ split; [split; [exact Ha|split; assumption]|]. intros m' b Em Hb. injection Em as <-.
      unfold factory_call in Hb. rewrite Ef in Hb. discriminate Hb. }
  unfold library.
  assert (Kept : forall cs m0 i0, lookup m0 (calendars d) = Some i0 ->
    exists b, object tzdb today (Dispatcher cs default_calendar_factories (aliases d) (calls d ++ [f])) i0 = Some (Ok b) /\
      factory_call tzdb today m0 None None = Some (Ok b)).
  { intros cs m0 i0 H0. destruct (Hc m0 i0 H0) as [b [O F]]. exists b. split; [|exact F].
    unfold object in *. cbn [calls]. destruct (nth_error (calls d) (Z.to_nat i0)) as [g|] eqn:Eg; [|discriminate O].
    rewrite (nth_error_snoc _ _ f _ g Eg). exact O. }
  assert (Fc : factory_call tzdb today m None None = match lookup f classes with
    | None => None | Some c => Some (construct tzdb today c None None) end).
  { unfold factory_call. rewrite Ef. reflexivity. }
  destruct (lookup f classes) as [c|] eqn:El; [destruct (construct tzdb today c None None) as [b|e] eqn:Eb|]; cbn [fst snd].
  - assert (O : forall cs, object tzdb today (Dispatcher cs default_calendar_factories (aliases d) (calls d ++ [f]))
      (Z.of_nat (List.length (calls d))) = Some (Ok b)).
    { intros cs. unfold object. cbn [calls]. rewrite Nat2Z.id, nth_error_app2, PeanoNat.Nat.sub_diag by reflexivity.
      cbn [nth_error]. rewrite El, Eb. reflexivity. }
    split.
    + split; [exact Ha|]. split; [reflexivity|]. intros m0 i0. cbn [calendars]. rewrite lookup_store.
      destruct (String.eqb_spec m m0) as [<-|_].
      * intros E. injection E as <-. exists b. split; [apply O|exact Fc].
      * apply Kept.
    + intros m' b' Em Hb. injection Em as <-. rewrite Fc in Hb. injection Hb as <-.
      eexists. split; [reflexivity|]. apply O.
  - split; [split; [exact Ha|split; [reflexivity|apply Kept]]|]. intros m' b' Em Hb. injection Em as <-.
    rewrite Fc in Hb. discriminate Hb.
  - split; [split; [exact Ha|split; [reflexivity|apply Kept]]|]. intros m' b' Em Hb. injection Em as <-.
    rewrite Fc in Hb. discriminate Hb.
Qed.

(** Asking for a default name or alias, after any other requests, gives the calendar
    that the factory of its exchange builds without arguments. *)
Theorem c56_get_calendar : forall tzdb today ns n m b,
  resolve_alias global_calendar_dispatcher n = Returns m ->
  factory_call tzdb today m None None = Some (Ok b) ->
  let d := run (library tzdb today) global_calendar_dispatcher (map Get ns) in
  exists i, fst (get_calendar (library tzdb today) d n) = Returns i /\
    object tzdb today (snd (get_calendar (library tzdb today) d n)) i = Some (Ok b).
Proof.
  intros tzdb today ns n m b Hm Hb d.
  assert (St : settled_state tzdb today d).
  { subst d. assert (G : forall d0, settled_state tzdb today d0 ->
      settled_state tzdb today (run (library tzdb today) d0 (map Get ns))).
    { induction ns as [|k ns IH]; intros d0 H0; [exact H0|]. cbn [map run fold_left]. apply IH.
      apply get_settled. exact H0. }
    apply G. split; [reflexivity|]. split; [reflexivity|]. intros k i H. discriminate H. }
  apply (proj2 (get_settled tzdb today d n St) m b Hm Hb).
Qed.

(** So, on the tabulated clocks and while their defaults work, all default names and
    aliases are available. *)
Theorem c56_available : forall tzdb today ns n, tabulated tzdb ->
  In n (keys default_calendar_factories ++ keys default_calendar_aliases) ->
  (forall name, In name (keys default_calendar_factories) -> default_works name today) ->
  let d := run (library tzdb today) global_calendar_dispatcher (map Get ns) in
  exists m i b, resolve_alias global_calendar_dispatcher n = Returns m /\
    fst (get_calendar (library tzdb today) d n) = Returns i /\
    object tzdb today (snd (get_calendar (library tzdb today) d n)) i = Some (Ok b) /\
    factory_call tzdb today m None None = Some (Ok b).
Proof.
  intros tzdb today ns n Ht Hn Hw d.
  assert (Q : forallb (fun n => match resolve_alias global_calendar_dispatcher n with
      | Returns m => existsb (String.eqb m) ("24/7"%string :: "24/5"%string :: map fst exchanges)
      | Raises _ => false end) (keys default_calendar_factories ++ keys default_calendar_aliases) = true)
    by (vm_compute; reflexivity).
  rewrite forallb_forall in Q. specialize (Q n Hn).
  destruct (resolve_alias global_calendar_dispatcher n) as [m|] eqn:Em; [|discriminate Q].
  assert (B : exists b, factory_call tzdb today m None None = Some (Ok b)).
  { apply existsb_exists in Q. destruct Q as [k [Hk E]]. apply String.eqb_eq in E. subst k.
    assert (T : at_midnight_of (date_number 1990 1 1) <= today + 365 * one_day).
    { destruct (Hw "24/7"%string) as [W _]; [rewrite lookup_keys; vm_compute; discriminate|]. eapply Z.le_trans; [|exact W]. apply at_midnight_le.
      apply Z.leb_le. vm_compute. reflexivity. }
    destruct (c54_round_the_clock tzdb today T) as [[b1 [B1 _]] [b2 [B2 _]]].
    destruct Hk as [<-|[<-|Hk]]; [exists b1; exact B1|exists b2; exact B2|].
    apply in_map_iff in Hk. destruct Hk as [[k E] [Ek Hk]]. cbn [fst] in Ek. subst k.
    assert (Km : In m (keys default_calendar_factories)).
    { destruct (exchange_class m E Hk) as [f [c [Ef _]]]. apply lookup_keys. rewrite Ef. discriminate. }
    destruct (c54_default tzdb today m E Hk Ht (Hw m Km)) as [b [ss [B _]]]. exists b. exact B. }
  destruct B as [b B]. destruct (c56_get_calendar tzdb today ns n m b Em B) as [i [G1 G2]].
  exists m, i, b. auto.
Qed.

(** "NYSE" and "XNYS" in November 2020. *)
Example c56_ex : (forall name, In name (keys default_calendar_factories) -> default_works name (at_midnight_of (date_number 2020 11 10))) /\
  resolve_alias global_calendar_dispatcher "NYSE" = Returns "XNYS"%string /\
  In "NYSE"%string (keys default_calendar_factories ++ keys default_calendar_aliases).
Proof.
  split; [exact c54_default_ex|]. split; [vm_compute; reflexivity|].
  apply in_app_iff. right. left. reflexivity.
Qed.

(** ** Assumptions *)
Print Assumptions c54_factories.
Print Assumptions c54_years_complete.
Print Assumptions c54_default.
Print Assumptions c54_round_the_clock_range.
Print Assumptions c54_round_the_clock.
Print Assumptions c55_own_name.
Print Assumptions c55_own_name_refuted.
Print Assumptions c56_get_calendar.
Print Assumptions c56_available.
