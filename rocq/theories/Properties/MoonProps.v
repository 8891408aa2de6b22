(** The feasts of the Islamic, Buddhist and Hindu calendars against the tabular Islamic
    calendar and the phases of the moon (C69, C70). *)
From Coq Require Import ZArith String List Bool Lia.
From Verif.Model Require Import Base Dates Zone Queries Build Holidays Exchange.
From Verif.Spec Require Import Schedule Construction Civil Rules Feasts Venue Almanac Festivals Sky Islamic.
From Verif.Proofs Require Import BaseLemmas DatesLemmas ScheduleLemmas BuildLemmas RuleLemmas RuleRange
  VenueLemmas VenueSound AlmanacLemmas AlmanacRules FestivalRules SkyRules.
From Verif.Properties Require Import ExchangeProps AlmanacProps FestivalProps SkyProps.
From Verif.Exchanges Require Import All zones.
From Verif.Exchanges Require Import common_holidays xkls_holidays xbkk_holidays.
Import ListNotations.
Open Scope Z_scope.

(** ** C69: the feasts of the Islamic calendar *)

(** The formula of the specification is the calendar described there. *)
Lemma islamic_calendar : forall y,
  islamic_date 1 1 1 = date_number 622 7 19 /\
  islamic_date (y + 1) 1 1 = islamic_date y 12 1 + 29 +
    (if in_dec Z.eq_dec (y mod 30) islamic_leap_years then 1 else 0) /\
  (forall m d, 1 <= m <= 11 -> islamic_date y (m + 1) d = islamic_date y m d + (if Z.odd m then 30 else 29)).
Proof.
  intros y. split; [vm_compute; reflexivity|]. split.
  - unfold islamic_date, islamic_new_year.
    assert (E : y = 30 * (y / 30) + y mod 30) by (Z.div_mod_to_equations; lia).
    assert (B : 0 <= y mod 30 < 30) by (apply Z.mod_pos_bound; lia).
    set (q := y / 30) in *. set (r := y mod 30) in *. clearbody q r. subst y.
    assert (C : In r (consecutive 0 30)) by (apply consecutive_In; lia). clear B.
    replace (11 * (30 * q + r + 1) + 3) with (11 * r + 14 + (11 * q) * 30) by ring.
    replace (11 * (30 * q + r) + 3) with (11 * r + 3 + (11 * q) * 30) by ring.
    rewrite !Z.div_add by lia. change (1 / 2) with 0. change (12 / 2) with 6.
    assert (D : (11 * r + 14) / 30 = (11 * r + 3) / 30 + (if in_dec Z.eq_dec r islamic_leap_years then 1 else 0)).
    { assert (A : forallb (fun r => (11 * r + 14) / 30 =?
        (11 * r + 3) / 30 + (if in_dec Z.eq_dec r islamic_leap_years then 1 else 0)) (consecutive 0 30) = true)
        by (vm_compute; reflexivity).
      rewrite forallb_forall in A. apply Z.eqb_eq. exact (A r C). }
    rewrite D. lia.
  - intros m d Hm. unfold islamic_date.
    assert (A : forallb (fun m => 29 * (m + 1 - 1) + (m + 1) / 2 =? 29 * (m - 1) + m / 2 + (if Z.odd m then 30 else 29))
      (consecutive 1 11) = true) by (vm_compute; reflexivity).
    rewrite forallb_forall in A. specialize (A m ltac:(apply consecutive_In; lia)). apply Z.eqb_eq in A. lia.
Qed.

(** Computation with days near others. *)
Definition nearb (c n : Z) : bool := if c - 2 <=? n then n <=? c + 2 else false.
Lemma nearb_iff : forall c n, nearb c n = true <-> near c n.
Proof.
  intros c n. unfold nearb, near. destruct (Z.leb_spec (c - 2) n); [rewrite Z.leb_le; lia|].
  split; [discriminate|lia].
Qed.
Definition one_nearb (c : Z) (ds : list Z) : bool :=
  match filter (nearb c) ds with [_] => true | _ => false end.
Lemma one_nearb_ok : forall c ds, one_nearb c ds = true -> one_near c ds.
Proof.
  intros c ds H. unfold one_nearb in H. destruct (filter (nearb c) ds) as [|n [|]] eqn:F; try discriminate H.
  assert (A : forall n', In n' ds /\ near c n' <-> n' = n).
  { intros n'. rewrite <- nearb_iff, <- filter_In, F. split; [intros [Q|[]]; symmetry; exact Q|intros ->; left; reflexivity]. }
  exists n. destruct (proj2 (A n) eq_refl) as [A1 A2]. split; [exact A1|]. split; [exact A2|].
  intros n' H1 H2. apply A. split; assumption.
Qed.

(** The tables that give one date for each Islamic year: the table, the month and the
    day, the first and the last Islamic year, and the years that are exceptions. *)
Definition islamic_tables : list (list Z * (Z * Z) * (Z * Z) * list Z) :=
  [(eid_al_fitr_first_day, (10, 1), (1401, 1471), []);
   (eid_al_adha_first_day, (12, 10), (1401, 1471), []);
   (malaysia_nuzul_al_quran, (9, 17), (1435, 1471), []);
   (muharram, (1, 1), (1401, 1471), []);
   (muhammad_birthday, (3, 12), (1401, 1471), [1423; 1436]);
   (malaysia_eid_al_fitr_first_day, (10, 1), (1401, 1471), []);
   (malaysia_eid_al_adha, (12, 10), (1401, 1471), [])].

Definition islamic_table_ok (ds : list Z) (m d y0 y1 : Z) (ys : list Z) : bool :=
  let cs := map (fun y => islamic_date y m d) (consecutive y0 (Z.to_nat (y1 + 1 - y0))) in
  forallb (fun y => if memb y ys then true else one_nearb (islamic_date y m d) ds)
    (consecutive y0 (Z.to_nat (y1 + 1 - y0))) &&
  forallb (fun n => if existsb (fun c => nearb c n) cs then true else n =? date_number 2002 5 27) ds.
Lemma islamic_tables_ok : forallb (fun t => let '(ds, (m, d), (y0, y1), ys) := t in islamic_table_ok ds m d y0 y1 ys)
  islamic_tables = true.
Proof. vm_compute. reflexivity. Qed.

(** From 1401 (November 1980) to 1471 (September 2049), Nuzul Al-Quran from 1435, every
    table has exactly one date for each Islamic year, near that of the calendar, and no
    others.  The exceptions are the birthdays of the Prophet of 1423 and 1436. *)
Theorem c69_tables : forall ds m d y0 y1 ys, In (ds, (m, d), (y0, y1), ys) islamic_tables ->
  (forall y, y0 <= y <= y1 -> ~ In y ys -> one_near (islamic_date y m d) ds) /\
  (forall n, In n ds -> n <> date_number 2002 5 27 -> exists y, y0 <= y <= y1 /\ near (islamic_date y m d) n).
Proof.
  intros ds m d y0 y1 ys H. pose proof islamic_tables_ok as A. rewrite forallb_forall in A. specialize (A _ H).
  cbn beta iota in A. unfold islamic_table_ok in A. cbv zeta in A. rewrite andb_true_iff in A.
  destruct A as [A1 A2]. rewrite forallb_forall in A1, A2. split.
  - intros y Hy N. specialize (A1 y ltac:(apply consecutive_In; lia)).
    destruct (memb y ys) eqn:M; [apply memb_In in M; contradiction|]. apply one_nearb_ok. exact A1.
  - intros n Hn N. specialize (A2 n Hn). destruct (existsb _ _) eqn:X; [|apply Z.eqb_eq in A2; contradiction].
    apply existsb_exists in X. destruct X as [c [X1 X2]]. apply in_map_iff in X1. destruct X1 as [y [Ey Hy]].
    apply consecutive_In in Hy. exists y. split; [lia|]. rewrite Ey. apply nearb_iff. exact X2.
Qed.

(** The birthday of the Prophet in 1423 is entered three days late (as May 27th, 2002),
    and that of 1436 (January 3rd, 2015, a Saturday) is missing. *)
Theorem c69_tables_refuted :
  (forall n, In n muhammad_birthday -> ~ near (islamic_date 1423 3 12) n) /\
  (forall n, In n muhammad_birthday -> ~ near (islamic_date 1436 3 12) n) /\
  In (islamic_date 1423 3 12 + 3) muhammad_birthday /\ islamic_date 1423 3 12 + 3 = date_number 2002 5 27.
Proof.
  assert (A : forallb (fun n => if nearb (islamic_date 1423 3 12) n then false
    else negb (nearb (islamic_date 1436 3 12) n)) muhammad_birthday = true) by (vm_compute; reflexivity).
  rewrite forallb_forall in A.
  split; [|split; [|split; [apply memb_In; vm_compute; reflexivity|vm_compute; reflexivity]]]; intros n Hn F;
    apply nearb_iff in F; specialize (A n Hn); rewrite F in A; [discriminate A|].
  destruct (nearb (islamic_date 1423 3 12) n); discriminate A.
Qed.

(** The exchanges of Istanbul and Kuala Lumpur close on these feasts: the exchange, the
    table, the number of days. *)
Definition islamic_closures : list (string * list Z * Z) :=
  [("XIST"%string, eid_al_fitr_first_day, 3);
   ("XIST"%string, eid_al_adha_first_day, 4);
   ("XKLS"%string, malaysia_nuzul_al_quran, 1);
   ("XKLS"%string, muharram, 1);
   ("XKLS"%string, muhammad_birthday, 1);
   ("XKLS"%string, malaysia_eid_al_fitr_first_day, 2);
   ("XKLS"%string, malaysia_eid_al_adha, 1)].

Lemma closed_days_sound : forall name E ns z start stop b n, In (name, E) exchanges ->
  String.eqb name "XTAE" = false -> closed_days_of E ns = true -> In n ns -> is_midnight start ->
  build_exchange E z start stop = Ok b -> start <= at_midnight_of n <= stop ->
  is_session (cal b) (at_midnight_of n) = false.
Proof.
  intros name E ns z start stop b n HE X A Hn M Hb Hr. apply not_true_iff_false.
  rewrite (proj2 (c51_sessions name E z start stop b HE M Hb) n Hr).
  rewrite (plain_trades name E n HE X). apply not_true_iff_false.
  unfold closed_days_of in A. cbv zeta in A. rewrite forallb_forall in A. specialize (A n Hn).
  apply (closed_or_open E n false).
  destruct (nth (Z.to_nat (weekday n)) (ex_weekmask E) false); [|reflexivity]. rewrite A. reflexivity.
Qed.

Definition days_from (k : Z) (ds : list Z) : list Z := flat_map (fun n => consecutive n (Z.to_nat k)) ds.
Lemma days_from_In : forall k ds n i, In n ds -> 0 <= i < k -> In (n + i) (days_from k ds).
Proof. intros k ds n i H Hi. apply in_flat_map. exists n. split; [exact H|]. apply consecutive_In. lia. Qed.

Lemma islamic_closures_ok : forallb (fun c => let '(name, ds, k) := c in negb (String.eqb name "XTAE") &&
  forallb (fun p => if String.eqb (fst p) name then closed_days_of (snd p) (days_from k ds) else true) exchanges)
  islamic_closures = true.
Proof. vm_compute. reflexivity. Qed.

(** Istanbul is closed for three days from Eid al-Fitr on and for four from Eid al-Adha
    on; Kuala Lumpur is closed for two days from Eid al-Fitr on and on the other feasts. *)
Theorem c69_sessions : forall name ds k m d y0 y1 ys y,
  In (name, ds, k) islamic_closures -> In (ds, (m, d), (y0, y1), ys) islamic_tables -> y0 <= y <= y1 -> ~ In y ys ->
  exists n, near (islamic_date y m d) n /\ In n ds /\
    forall E z start stop b i, In (name, E) exchanges -> is_midnight start -> build_exchange E z start stop = Ok b ->
      0 <= i < k -> start <= at_midnight_of (n + i) <= stop -> is_session (cal b) (at_midnight_of (n + i)) = false.
Proof.
  intros name ds k m d y0 y1 ys y HC HT Hy N.
  destruct (proj1 (c69_tables ds m d y0 y1 ys HT) y Hy N) as [n [H1 [H2 _]]].
  exists n. split; [exact H2|]. split; [exact H1|]. intros E z start stop b i HE M Hb Hi Hr.
  pose proof islamic_closures_ok as A. rewrite forallb_forall in A. specialize (A _ HC). cbn beta iota in A.
  rewrite andb_true_iff, negb_true_iff in A. destruct A as [A1 A2]. rewrite forallb_forall in A2.
  specialize (A2 _ HE). cbn [fst snd] in A2. rewrite String.eqb_refl in A2.
  exact (closed_days_sound name E _ z start stop b (n + i) HE A1 A2 (days_from_In k ds n i H1 Hi) M Hb Hr).
Qed.

(** In Kuala Lumpur the Monday after a feast on a Sunday is closed, too. *)
Definition sundays_of (ds : list Z) : list Z := filter (fun n => weekday n =? 6) ds.
Lemma xkls_mondays_ok : forallb (fun c => let '(name, ds, _) := c in
  if String.eqb name "XKLS" then closed_days_of exchange_calendar_xkls.calendar (shift 1 (sundays_of ds)) else true)
  islamic_closures = true.
Proof. vm_compute. reflexivity. Qed.
Lemma xkls_here : In ("XKLS"%string, exchange_calendar_xkls.calendar) exchanges.
Proof. apply here. reflexivity. Qed.
Theorem c69_in_lieu : forall ds k n E z start stop b, In ("XKLS"%string, ds, k) islamic_closures -> In n ds ->
  weekday n = 6 -> In ("XKLS"%string, E) exchanges -> is_midnight start -> build_exchange E z start stop = Ok b ->
  start <= at_midnight_of (n + 1) <= stop -> is_session (cal b) (at_midnight_of (n + 1)) = false.
Proof.
  intros ds k n E z start stop b HC Hn W HE M Hb Hr. rewrite (the_exchange _ _ _ xkls_here HE) in *.
  pose proof xkls_mondays_ok as A. rewrite forallb_forall in A. specialize (A _ HC). cbn beta iota in A.
  rewrite String.eqb_refl in A.
  refine (closed_days_sound "XKLS" _ _ z start stop b (n + 1) xkls_here eq_refl A _ M Hb Hr).
  unfold shift. apply in_map_iff. exists n. split; [lia|]. unfold sundays_of. apply filter_In.
  split; [exact Hn|]. apply Z.eqb_eq. exact W.
Qed.

(** Karachi and Jakarta: the exchange, the feast, the years, and the length of a closure
    that begins near the feast, in days. *)
Definition islamic_breaks : list (string * (Z * Z) * (Z * Z) * Z) :=
  [("XKAR"%string, (10, 1), (1423, 1441), 4);
   ("XKAR"%string, (12, 10), (1422, 1441), 3);
   ("XIDX"%string, (10, 1), (1423, 1441), 5)].
Definition break_near (E : exchange) (k c : Z) : bool :=
  existsb (fun n => closed_days_of E (consecutive n (Z.to_nat k))) (consecutive (c - 2) 5).
Lemma islamic_breaks_ok : forallb (fun c => let '(name, (m, d), (y0, y1), k) := c in
  negb (String.eqb name "XTAE") &&
  forallb (fun p => if String.eqb (fst p) name then
      forallb (fun y => break_near (snd p) k (islamic_date y m d)) (consecutive y0 (Z.to_nat (y1 + 1 - y0)))
    else true) exchanges) islamic_breaks = true.
Proof. vm_compute. reflexivity. Qed.

(** For the years of their data Karachi closes for four days or more around Eid al-Fitr
    and for three or more around Eid al-Adha, Jakarta for five or more around Eid al-Fitr. *)
Theorem c69_breaks : forall name m d y0 y1 k y E, In (name, (m, d), (y0, y1), k) islamic_breaks -> y0 <= y <= y1 ->
  In (name, E) exchanges ->
  exists n, near (islamic_date y m d) n /\
    forall z start stop b i, is_midnight start -> build_exchange E z start stop = Ok b ->
      0 <= i < k -> start <= at_midnight_of (n + i) <= stop -> is_session (cal b) (at_midnight_of (n + i)) = false.
Proof.
  intros name m d y0 y1 k y E HB Hy HE.
  pose proof islamic_breaks_ok as A. rewrite forallb_forall in A. specialize (A _ HB). cbn beta iota in A.
  rewrite andb_true_iff, negb_true_iff in A. destruct A as [A1 A2]. rewrite forallb_forall in A2.
  specialize (A2 _ HE). cbn [fst snd] in A2. rewrite String.eqb_refl in A2. rewrite forallb_forall in A2.
  specialize (A2 y ltac:(apply consecutive_In; lia)). unfold break_near in A2. apply existsb_exists in A2.
  destruct A2 as [n [H1 H2]]. apply consecutive_In in H1. exists n. split; [unfold near; lia|].
  intros z start stop b i M Hb Hi Hr.
  refine (closed_days_sound name E _ z start stop b (n + i) HE A1 H2 _ M Hb Hr). apply consecutive_In. lia.
Qed.

(** Istanbul: Eid al-Fitr of 1440 was on Tuesday, June 4th, 2019, and the exchange is
    closed on that day and the next two, and trades on Friday. *)
Lemma xist_here : In ("XIST"%string, exchange_calendar_xist.calendar) exchanges.
Proof. apply here. reflexivity. Qed.
Example c69_ex : exists z b, In ("Europe/Istanbul"%string, z) zones /\
  build_exchange exchange_calendar_xist.calendar z (at_midnight_of (date_number 1990 1 1))
    (at_midnight_of (date_number 2028 12 31)) = Ok b /\
  near (islamic_date 1440 10 1) (date_number 2019 6 4) /\ In (date_number 2019 6 4) eid_al_fitr_first_day /\
  (forall i, 0 <= i < 3 -> is_session (cal b) (at_midnight_of (date_number 2019 6 4 + i)) = false) /\
  is_session (cal b) (at_midnight_of (date_number 2019 6 4 + 3)) = true.
Proof.
  destruct (c53_default_range 1990 "XIST" _ (at_midnight_of (date_number 2028 12 31)) (or_introl eq_refl) xist_here)
    as [z [b [ss [Hz [Hb _]]]]].
  - discriminate.
  - apply at_midnight_le. apply Z.leb_le. vm_compute. reflexivity.
  - intros n [<- | []] _. apply Z.ltb_lt. vm_compute. reflexivity.
  - exists z, b. split; [exact Hz|]. split; [exact Hb|].
    assert (M : is_midnight (at_midnight_of (date_number 1990 1 1))) by (apply is_midnight_at; eauto).
    assert (B : forall i, 0 <= i <= 3 -> at_midnight_of (date_number 1990 1 1) <=
      at_midnight_of (date_number 2019 6 4 + i) <= at_midnight_of (date_number 2028 12 31)).
    { intros i Hi. rewrite !at_midnight_le.
      assert (Q : (date_number 1990 1 1 <=? date_number 2019 6 4) &&
        (date_number 2019 6 4 + 3 <=? date_number 2028 12 31) = true) by (vm_compute; reflexivity).
      rewrite andb_true_iff, !Z.leb_le in Q. lia. }
    assert (N : near (islamic_date 1440 10 1) (date_number 2019 6 4)) by (apply nearb_iff; vm_compute; reflexivity).
    assert (T : In (date_number 2019 6 4) eid_al_fitr_first_day) by (apply memb_In; vm_compute; reflexivity).
    split; [exact N|]. split; [exact T|]. split.
    + intros i Hi.
      destruct (c69_sessions "XIST" eid_al_fitr_first_day 3 10 1 1401 1471 [] 1440 (or_introl eq_refl)
        (or_introl eq_refl) ltac:(lia) (fun F => F)) as [n [N1 [N2 N3]]].
      destruct (proj1 (c69_tables eid_al_fitr_first_day 10 1 1401 1471 [] (or_introl eq_refl)) 1440 ltac:(lia)
        (fun F => F)) as [n' [_ [_ U]]].
      assert (Q : n = date_number 2019 6 4) by (rewrite (U n N2 N1); symmetry; exact (U _ T N)). rewrite Q in N3.
      exact (N3 _ z _ _ b i xist_here M Hb Hi (B i ltac:(lia))).
    + rewrite (proj2 (c51_sessions _ _ z _ _ b xist_here M Hb) _ (B 3 ltac:(lia))).
      rewrite (plain_trades _ _ _ xist_here eq_refl). vm_compute. reflexivity.
Qed.

(** ** C70: the feasts of the full and of the new moon *)

Lemma full_moon_bounds : forall k, mean_full_moon k - 6201 <= full_moon k <= mean_full_moon k + 6201.
Proof.
  intros k. unfold full_moon. cbv zeta.
  repeat match goal with |- context [sine ?a] => let s := fresh "s" in
    pose proof (sine_bounds a); set (s := sine a) in *; clearbody s end.
  unfold unit in *. Z.div_mod_to_equations. lia.
Qed.
Lemma full_moon_day_bounds : forall h k, 0 <= h <= 8 ->
  29530588861 * k + 10975000000000 <= 1000000000 * day_at h (full_moon k) <= 29530588861 * k + 10979000000000.
Proof.
  intros h k Hh. unfold day_at. pose proof (full_moon_bounds k) as B. unfold mean_full_moon in B.
  set (t := full_moon k) in *. clearbody t. unfold unit in *. Z.div_mod_to_equations. lia.
Qed.

(** The moons of 1981 to 2020, by computation. *)
Definition full_moon_instants : list (Z * Z) := Eval vm_compute in
  map (fun k => (k, full_moon k)) (consecutive (-240) 500).
Lemma full_moon_instants_ok : full_moon_instants = map (fun k => (k, full_moon k)) (consecutive (-240) 500).
Proof. vm_compute. reflexivity. Qed.
Definition full_moons_7 : list (Z * Z) := Eval vm_compute in map (fun p => (fst p, day_at 7 (snd p))) full_moon_instants.
Definition full_moons_8 : list (Z * Z) := Eval vm_compute in map (fun p => (fst p, day_at 8 (snd p))) full_moon_instants.
Definition new_moons_8 : list (Z * Z) := Eval vm_compute in map (fun k => (k, start_at k)) (consecutive (-240) 500).
Lemma full_moons_7_ok : full_moons_7 = map (fun k => (k, full_moon_day k)) (consecutive (-240) 500).
Proof.
  transitivity (map (fun p => (fst p, day_at 7 (snd p))) full_moon_instants); [vm_compute; reflexivity|].
  rewrite full_moon_instants_ok, map_map. reflexivity.
Qed.
Lemma full_moons_8_ok : full_moons_8 = map (fun k => (k, full_moon_day_8 k)) (consecutive (-240) 500).
Proof.
  transitivity (map (fun p => (fst p, day_at 8 (snd p))) full_moon_instants); [vm_compute; reflexivity|].
  rewrite full_moon_instants_ok, map_map. reflexivity.
Qed.
Lemma new_moons_8_ok : new_moons_8 = map (fun k => (k, new_moon_day k)) (consecutive (-240) 500).
Proof.
  transitivity (map (fun k => (k, start_at k)) (consecutive (-240) 500)); [vm_compute; reflexivity|].
  apply map_ext_in. intros k Hk. apply consecutive_In in Hk. rewrite start_ok by (unfold first_month; lia). reflexivity.
Qed.

Definition between_days (a b : Z) (ms : list (Z * Z)) : list (Z * Z) :=
  filter (fun p => if a <=? snd p then snd p <=? b else false) ms.
Lemma between_days_In : forall (f : Z -> Z) ms a b k,
  ms = map (fun k => (k, f k)) (consecutive (-240) 500) -> a <= f k <= b -> -240 <= k < 260 ->
  In (k, f k) (between_days a b ms).
Proof.
  intros f ms a b k -> H Hk. apply filter_In. cbn [snd]. split.
  - apply in_map_iff. exists k. split; [reflexivity|]. apply consecutive_In. lia.
  - destruct (Z.leb_spec a (f k)); [apply Z.leb_le|]; lia.
Qed.

(** For each of the years the moon, with a property of its number and its day. *)
Definition the_moon (day : Z -> Z * Z) (ms : list (Z * Z)) (P : Z -> Z -> bool) (years : list Z) : bool :=
  forallb (fun y => let (a, b) := day y in
    match between_days a b ms with [(k, n)] => P k n | _ => false end) years.
Lemma the_moon_ok : forall day ms P years (f : Z -> Z) y k, the_moon day ms P years = true -> In y years ->
  ms = map (fun k => (k, f k)) (consecutive (-240) 500) -> fst (day y) <= f k <= snd (day y) -> -240 <= k < 260 ->
  P k (f k) = true.
Proof.
  intros day ms P years f y k H Hy Hm Hf Hk. unfold the_moon in H. rewrite forallb_forall in H. specialize (H y Hy).
  destruct (day y) as [a b]. cbn [fst snd] in Hf. pose proof (between_days_In f ms a b k Hm Hf Hk) as I.
  destruct (between_days a b ms) as [|[k' n'] [|]]; try discriminate H. destruct I as [I|[]].
  injection I as -> ->. exact H.
Qed.
Lemma the_moon_exists : forall day ms P years (f : Z -> Z) y, the_moon day ms P years = true -> In y years ->
  ms = map (fun k => (k, f k)) (consecutive (-240) 500) -> exists k, fst (day y) <= f k <= snd (day y).
Proof.
  intros day ms P years f y H Hy Hm. unfold the_moon in H. rewrite forallb_forall in H. specialize (H y Hy).
  destruct (day y) as [a b]. cbn [fst snd].
  destruct (between_days a b ms) as [|[k' n'] [|]] eqn:B; try discriminate H.
  assert (I : In (k', n') (between_days a b ms)) by (rewrite B; left; reflexivity).
  unfold between_days in I. apply filter_In in I. cbn [snd] in I. destruct I as [I1 I2].
  rewrite Hm in I1. apply in_map_iff in I1. destruct I1 as [k [E _]]. injection E as _ E'. exists k. rewrite E'.
  destruct (Z.leb_spec a n'); [|discriminate I2]. apply Z.leb_le in I2. lia.
Qed.

Lemma the_moon_unique : forall day ms P years (f : Z -> Z) y k k', the_moon day ms P years = true -> In y years ->
  ms = map (fun k => (k, f k)) (consecutive (-240) 500) -> fst (day y) <= f k <= snd (day y) ->
  fst (day y) <= f k' <= snd (day y) -> -240 <= k < 260 -> -240 <= k' < 260 -> k = k'.
Proof.
  intros day ms P years f y k k' H Hy Hm Hf Hf' Hk Hk'. unfold the_moon in H. rewrite forallb_forall in H. specialize (H y Hy).
  destruct (day y) as [a b]. cbn [fst snd] in Hf, Hf'. pose proof (between_days_In f ms a b k Hm Hf Hk) as I.
  pose proof (between_days_In f ms a b k' Hm Hf' Hk') as I'.
  destruct (between_days a b ms) as [|[k0 n0] [|]]; try discriminate H. destruct I as [I|[]]. destruct I' as [I'|[]].
  rewrite I in I'. injection I' as I' _. exact I'.
Qed.

(** Days of the years 1981 to 2020 are those of moons in the tables. *)
Definition in_span (n : Z) : Prop := date_number 1981 1 1 <= n <= date_number 2020 12 31.
Lemma in_span_year : forall y m d, valid_date y m d -> 1981 <= y <= 2020 -> in_span (date_number y m d).
Proof.
  intros y m d V Hy. pose proof (date_number_year y m d V) as I. pose proof (years_between y 1981 2020 _ Hy I) as B.
  unfold in_span. replace (date_number 1981 1 1) with (year_start 1981) by (vm_compute; reflexivity).
  replace (date_number 2020 12 31) with (year_start (2020 + 1) - 1) by (vm_compute; reflexivity). exact B.
Qed.
Lemma full_span : forall h k, 0 <= h <= 8 -> in_span (day_at h (full_moon k)) -> -240 <= k < 260.
Proof.
  intros h k Hh [S1 S2]. pose proof (full_moon_day_bounds h k Hh) as B.
  replace (date_number 1981 1 1) with 4018 in S1 by (vm_compute; reflexivity).
  replace (date_number 2020 12 31) with 18627 in S2 by (vm_compute; reflexivity). lia.
Qed.
Lemma new_span : forall k, in_span (new_moon_day k) -> -240 <= k < 260.
Proof.
  intros k [S1 S2]. pose proof (month_start_bounds k) as B. change (month_start k) with (new_moon_day k) in B.
  replace (date_number 1981 1 1) with 4018 in S1 by (vm_compute; reflexivity).
  replace (date_number 2020 12 31) with 18627 in S2 by (vm_compute; reflexivity). lia.
Qed.
Lemma spanned : forall y m d m' d' n, valid_date y m d -> valid_date y m' d' -> 1981 <= y <= 2020 ->
  date_number y m d <= n <= date_number y m' d' -> in_span n.
Proof.
  intros y m d m' d' n V V' Hy H. pose proof (in_span_year y m d V Hy). pose proof (in_span_year y m' d' V' Hy).
  unfold in_span in *. lia.
Qed.

(** *** Bangkok *)

Definition vesak_days (y : Z) : Z * Z := (date_number y 5 7, date_number y 6 4).
Definition full_7 (k : Z) : Z := snd (nth (Z.to_nat (k + 240)) full_moons_7 (0, 0)).
Lemma full_7_ok : forall k, -240 <= k < 260 -> full_7 k = full_moon_day k.
Proof.
  intros k Hk. unfold full_7. rewrite full_moons_7_ok.
  rewrite (nth_indep _ (0, 0) ((fun k => (k, full_moon_day k)) 0)) by (rewrite map_length, consecutive_length; lia).
  rewrite (map_nth (fun k => (k, full_moon_day k)) _ 0). rewrite consecutive_nth by lia. cbn [snd]. f_equal. lia.
Qed.
Definition thai_feasts (k n : Z) : bool :=
  if (-237 <=? k) && (k <? 258) then
    one_nearb (full_7 (k - 3)) makha_bucha && one_nearb n vesak && one_nearb (full_7 (k + 2)) asanha_bucha
  else false.
Lemma vesak_moons : the_moon vesak_days full_moons_7 thai_feasts (consecutive 1981 40) = true.
Proof. vm_compute. reflexivity. Qed.
Lemma valid_5_7 : forall y, valid_date y 5 7.
Proof. intros y. unfold valid_date. change (month_length y 5) with 31. lia. Qed.
Lemma valid_6_4 : forall y, valid_date y 6 4.
Proof. intros y. unfold valid_date. change (month_length y 6) with 30. lia. Qed.

(** The moon of a year, and of a feast [i] moons later, is near a given day. *)
Definition moon_near (day : Z -> Z * Z) (f : Z -> Z) (ms : list (Z * Z)) (y0 y1 i : Z) (n : Z) : bool :=
  let y := year_of n in
  let (a, b) := day y in
  if (y0 <=? y) && (y <=? y1) then
    match between_days a b ms with
    | (k, _) :: _ => if (-240 <=? k + i) && (k + i <? 260) then nearb (f (k + i)) n else false
    | [] => false
    end
  else false.
Lemma moon_near_ok : forall day f g ms y0 y1 i n, moon_near day g ms y0 y1 i n = true ->
  ms = map (fun k => (k, f k)) (consecutive (-240) 500) -> (forall k, -240 <= k < 260 -> g k = f k) ->
  exists y k, y0 <= y <= y1 /\ in_year n y /\ fst (day y) <= f k <= snd (day y) /\ near (f (k + i)) n.
Proof.
  intros day f g ms y0 y1 i n H Hm Hg. unfold moon_near in H. cbv zeta in H. exists (year_of n).
  destruct (day (year_of n)) as [a b]. destruct ((y0 <=? year_of n) && (year_of n <=? y1)) eqn:Y; [|discriminate H].
  rewrite andb_true_iff, !Z.leb_le in Y. destruct (between_days a b ms) as [|[k v] l] eqn:B; [discriminate H|].
  destruct ((-240 <=? k + i) && (k + i <? 260)) eqn:K; [|discriminate H]. rewrite andb_true_iff, Z.leb_le, Z.ltb_lt in K.
  assert (I : In (k, v) (between_days a b ms)) by (rewrite B; left; reflexivity).
  unfold between_days in I. apply filter_In in I. cbn [snd] in I. destruct I as [I1 I2].
  rewrite Hm in I1. apply in_map_iff in I1. destruct I1 as [k' [E _]]. injection E as E1 E2. subst k' v.
  exists k. split; [exact Y|]. split; [apply in_year_iff; reflexivity|]. cbn [fst snd]. split.
  - destruct (Z.leb_spec a (f k)); [|discriminate I2]. apply Z.leb_le in I2. lia.
  - rewrite <- Hg by exact K. apply nearb_iff. exact H.
Qed.
Lemma thai_others : forallb (moon_near vesak_days full_7 full_moons_7 1981 2020 (-3)) makha_bucha &&
  forallb (moon_near vesak_days full_7 full_moons_7 1981 2020 0) vesak &&
  forallb (moon_near vesak_days full_7 full_moons_7 1981 2020 2) asanha_bucha = true.
Proof. vm_compute. reflexivity. Qed.

(** From 1981 to 2020 every year has one full moon of Vesak, and the tables have exactly
    one Makha Bucha near the third full moon before it, one Vesak near it and one Asanha
    Bucha near the second full moon after it. *)
Theorem c70_bangkok : forall y, 1981 <= y <= 2020 ->
  exists k, vesak_moon y k /\ (forall k', vesak_moon y k' -> k' = k) /\
    one_near (full_moon_day (k - 3)) makha_bucha /\ one_near (full_moon_day k) vesak /\
    one_near (full_moon_day (k + 2)) asanha_bucha.
Proof.
  intros y Hy. assert (Hy' : In y (consecutive 1981 40)) by (apply consecutive_In; lia).
  destruct (the_moon_exists vesak_days full_moons_7 _ _ full_moon_day y vesak_moons Hy' full_moons_7_ok) as [k Hk].
  assert (R : forall k, vesak_moon y k -> -240 <= k < 260).
  { intros k' Hk'. apply (full_span 7 k' ltac:(lia)). exact (spanned y _ _ _ _ _ (valid_5_7 y) (valid_6_4 y) Hy Hk'). }
  exists k. split; [exact Hk|]. split.
  - intros k' Hk'. exact (the_moon_unique vesak_days full_moons_7 _ _ full_moon_day y k' k vesak_moons Hy'
      full_moons_7_ok Hk' Hk (R _ Hk') (R _ Hk)).
  - pose proof (the_moon_ok vesak_days full_moons_7 _ _ full_moon_day y k vesak_moons Hy' full_moons_7_ok Hk (R _ Hk)) as A.
    unfold thai_feasts in A. destruct ((-237 <=? k) && (k <? 258)) eqn:B; [|discriminate A].
    rewrite andb_true_iff, Z.leb_le, Z.ltb_lt in B. rewrite !andb_true_iff in A. destruct A as [[A1 A2] A3].
    rewrite full_7_ok in A1 by lia. rewrite full_7_ok in A3 by lia.
    split; [apply one_nearb_ok; exact A1|]. split; apply one_nearb_ok; assumption.
Qed.

(** The tables have no other days. *)
Theorem c70_bangkok_only : forall n,
  (In n makha_bucha -> exists y k, 1981 <= y <= 2020 /\ in_year n y /\ vesak_moon y k /\ near (full_moon_day (k - 3)) n) /\
  (In n vesak -> exists y k, 1981 <= y <= 2020 /\ in_year n y /\ vesak_moon y k /\ near (full_moon_day k) n) /\
  (In n asanha_bucha -> exists y k, 1981 <= y <= 2020 /\ in_year n y /\ vesak_moon y k /\ near (full_moon_day (k + 2)) n).
Proof.
  intros n. pose proof thai_others as A. rewrite !andb_true_iff, !forallb_forall in A. destruct A as [[A1 A2] A3].
  split; [|split]; intros H.
  - exact (moon_near_ok vesak_days full_moon_day full_7 full_moons_7 1981 2020 (-3) n (A1 n H) full_moons_7_ok full_7_ok).
  - destruct (moon_near_ok vesak_days full_moon_day full_7 full_moons_7 1981 2020 0 n (A2 n H) full_moons_7_ok full_7_ok)
      as [y [k [Q1 [Q2 [Q3 Q4]]]]]. exists y, k. rewrite Z.add_0_r in Q4.
    split; [exact Q1|]. split; [exact Q2|]. split; [exact Q3|exact Q4].
  - exact (moon_near_ok vesak_days full_moon_day full_7 full_moons_7 1981 2020 2 n (A3 n H) full_moons_7_ok full_7_ok).
Qed.

(** The exchange of Bangkok is closed on all of them. *)
Lemma thai_tables_ok : closed_days_of exchange_calendar_xbkk.calendar (makha_bucha ++ vesak ++ asanha_bucha) = true.
Proof. vm_compute. reflexivity. Qed.
Lemma xbkk_here : In ("XBKK"%string, exchange_calendar_xbkk.calendar) exchanges.
Proof. apply here. reflexivity. Qed.
Theorem c70_bangkok_sessions : forall E z start stop b n, In ("XBKK"%string, E) exchanges -> is_midnight start ->
  build_exchange E z start stop = Ok b -> start <= at_midnight_of n <= stop ->
  In n makha_bucha \/ In n vesak \/ In n asanha_bucha -> is_session (cal b) (at_midnight_of n) = false.
Proof.
  intros E z start stop b n HE M Hb Hr Hn. rewrite (the_exchange _ _ _ xbkk_here HE) in *.
  refine (closed_days_sound "XBKK" _ _ z start stop b n xbkk_here eq_refl thai_tables_ok _ M Hb Hr).
  apply in_or_app. destruct Hn as [Hn|Hn]; [left; exact Hn|right]. apply in_or_app. exact Hn.
Qed.

(** Vesak of 2019: the full moon of May 19th, a Sunday, kept on Monday the 20th. *)
Example c70_ex : exists z b, In ("Asia/Bangkok"%string, z) zones /\
  build_exchange exchange_calendar_xbkk.calendar z (at_midnight_of (date_number 1990 1 1))
    (at_midnight_of (date_number 2040 12 31)) = Ok b /\
  vesak_moon 2019 239 /\ full_moon_day 239 = date_number 2019 5 19 /\ In (date_number 2019 5 20) vesak /\
  is_session (cal b) (at_midnight_of (date_number 2019 5 20)) = false /\
  is_session (cal b) (at_midnight_of (date_number 2019 5 21)) = true.
Proof.
  destruct (c53_default_range 1990 "XBKK" _ (at_midnight_of (date_number 2040 12 31)) (or_introl eq_refl) xbkk_here)
    as [z [b [ss [Hz [Hb _]]]]].
  - discriminate.
  - apply at_midnight_le. apply Z.leb_le. vm_compute. reflexivity.
  - intros n [].
  - exists z, b. split; [exact Hz|]. split; [exact Hb|].
    assert (M : is_midnight (at_midnight_of (date_number 1990 1 1))) by (apply is_midnight_at; eauto).
    assert (B : forall n, (date_number 1990 1 1 <=? n) && (n <=? date_number 2040 12 31) = true ->
      at_midnight_of (date_number 1990 1 1) <= at_midnight_of n <= at_midnight_of (date_number 2040 12 31)).
    { intros n Q. rewrite andb_true_iff, !Z.leb_le in Q. rewrite !at_midnight_le. exact Q. }
    assert (B1 := B (date_number 2019 5 20) eq_refl). assert (B2 := B (date_number 2019 5 21) eq_refl).
    assert (F : full_moon_day 239 = date_number 2019 5 19) by (vm_compute; reflexivity).
    split; [unfold vesak_moon; rewrite F; vm_compute; split; discriminate|]. split; [exact F|].
    assert (V : In (date_number 2019 5 20) vesak) by (apply memb_In; vm_compute; reflexivity).
    split; [exact V|]. split.
    + exact (c70_bangkok_sessions _ z _ _ b _ xbkk_here M Hb B1 (or_intror (or_introl V))).
    + rewrite (proj2 (c51_sessions _ _ z _ _ b xbkk_here M Hb) _ B2).
      rewrite (plain_trades _ _ _ xbkk_here eq_refl). vm_compute. reflexivity.
Qed.

(** *** Jakarta *)

Definition full_moon_closed (E : exchange) (k n : Z) : bool := closed_days_of E [n].
Definition waisak_days (y : Z) : Z * Z := (date_number y 5 6, date_number y 6 3).
Lemma jakarta_vesak : the_moon waisak_days full_moons_7 (full_moon_closed exchange_calendar_xidx.calendar)
  (consecutive 2003 18) = true.
Proof. vm_compute. reflexivity. Qed.
Lemma xidx_here : In ("XIDX"%string, exchange_calendar_xidx.calendar) exchanges.
Proof. apply here. reflexivity. Qed.

Lemma valid_5_6 : forall y, valid_date y 5 6.
Proof. intros y. unfold valid_date. change (month_length y 5) with 31. lia. Qed.
Lemma valid_6_3 : forall y, valid_date y 6 3.
Proof. intros y. unfold valid_date. change (month_length y 6) with 30. lia. Qed.

(** From 2003 to 2020 Jakarta is closed on the very day of the full moon of Vesak. *)
Theorem c70_jakarta : forall E z start stop b y k, In ("XIDX"%string, E) exchanges -> is_midnight start ->
  build_exchange E z start stop = Ok b -> 2003 <= y <= 2020 -> waisak_moon y k ->
  start <= at_midnight_of (full_moon_day k) <= stop ->
  is_session (cal b) (at_midnight_of (full_moon_day k)) = false.
Proof.
  intros E z start stop b y k HE M Hb Hy Hk Hr. rewrite (the_exchange _ _ _ xidx_here HE) in *.
  assert (R : -240 <= k < 260).
  { apply (full_span 7 k ltac:(lia)). exact (spanned y _ _ _ _ _ (valid_5_6 y) (valid_6_3 y) ltac:(lia) Hk). }
  pose proof (the_moon_ok waisak_days full_moons_7 _ _ full_moon_day y k jakarta_vesak
    ltac:(apply consecutive_In; lia) full_moons_7_ok Hk R) as A.
  exact (closed_days_sound "XIDX" _ _ z start stop b _ xidx_here eq_refl A (or_introl eq_refl) M Hb Hr).
Qed.

(** *** Tables with some of the years *)

(** The days of the table are near the moons of their years. *)
Definition full_8 (k : Z) : Z := snd (nth (Z.to_nat (k + 240)) full_moons_8 (0, 0)).
Definition new_8 (k : Z) : Z := snd (nth (Z.to_nat (k + 240)) new_moons_8 (0, 0)).
Lemma full_8_ok : forall k, -240 <= k < 260 -> full_8 k = full_moon_day_8 k.
Proof.
  intros k Hk. unfold full_8. rewrite full_moons_8_ok.
  rewrite (nth_indep _ (0, 0) ((fun k => (k, full_moon_day_8 k)) 0)) by (rewrite map_length, consecutive_length; lia).
  rewrite (map_nth (fun k => (k, full_moon_day_8 k)) _ 0). rewrite consecutive_nth by lia. cbn [snd]. f_equal. lia.
Qed.
Lemma new_8_ok : forall k, -240 <= k < 260 -> new_8 k = new_moon_day k.
Proof.
  intros k Hk. unfold new_8. rewrite new_moons_8_ok.
  rewrite (nth_indep _ (0, 0) ((fun k => (k, new_moon_day k)) 0)) by (rewrite map_length, consecutive_length; lia).
  rewrite (map_nth (fun k => (k, new_moon_day k)) _ 0). rewrite consecutive_nth by lia. cbn [snd]. f_equal. lia.
Qed.
Definition wesak_days (y : Z) : Z * Z := (date_number y 5 1, date_number y 5 29).
Definition thaipusam_days (y : Z) : Z * Z := (date_number y 1 14, date_number y 2 12).
Definition deepavali_days (y : Z) : Z * Z := (date_number y 10 17, date_number y 11 15).
Definition saka_days (y : Z) : Z * Z := (date_number y 3 6, date_number y 4 3).
Lemma other_tables : forallb (moon_near wesak_days full_8 full_moons_8 2003 2020 0) wesak_day &&
  forallb (moon_near thaipusam_days full_8 full_moons_8 2008 2019 0) thaipusam &&
  (forallb (moon_near deepavali_days new_8 new_moons_8 2002 2019 0) deepavali &&
   forallb (moon_near saka_days new_8 new_moons_8 2003 2020 0) exchange_calendar_xidx.hindu_saka_new_year) = true.
Proof. vm_compute. reflexivity. Qed.

(** Every Wesak Day, Thaipusam and Deepavali of Kuala Lumpur and every Hindu Saka New Year
    of Jakarta is near the moon of its feast. *)
Theorem c70_tables : forall n,
  (In n wesak_day -> exists y k, in_year n y /\ wesak_moon y k /\ near (full_moon_day_8 k) n) /\
  (In n thaipusam -> exists y k, in_year n y /\ thaipusam_moon y k /\ near (full_moon_day_8 k) n) /\
  (In n deepavali -> exists y k, in_year n y /\ deepavali_moon y k /\ near (new_moon_day k) n) /\
  (In n exchange_calendar_xidx.hindu_saka_new_year ->
     exists y k, in_year n y /\ saka_moon y k /\ near (new_moon_day k) n).
Proof.
  intros n. pose proof other_tables as A. rewrite !andb_true_iff, !forallb_forall in A.
  destruct A as [[A1 A2] [A3 A4]]. split; [|split; [|split]]; intros H.
  - destruct (moon_near_ok wesak_days full_moon_day_8 full_8 full_moons_8 _ _ 0 n (A1 n H) full_moons_8_ok full_8_ok)
      as [y [k [_ [Q2 [Q3 Q4]]]]]. rewrite Z.add_0_r in Q4. exists y, k. split; [exact Q2|]. split; [exact Q3|exact Q4].
  - destruct (moon_near_ok thaipusam_days full_moon_day_8 full_8 full_moons_8 _ _ 0 n (A2 n H) full_moons_8_ok full_8_ok)
      as [y [k [_ [Q2 [Q3 Q4]]]]]. rewrite Z.add_0_r in Q4. exists y, k. split; [exact Q2|]. split; [exact Q3|exact Q4].
  - destruct (moon_near_ok deepavali_days new_moon_day new_8 new_moons_8 _ _ 0 n (A3 n H) new_moons_8_ok new_8_ok)
      as [y [k [_ [Q2 [Q3 Q4]]]]]. rewrite Z.add_0_r in Q4. exists y, k. split; [exact Q2|]. split; [exact Q3|exact Q4].
  - destruct (moon_near_ok saka_days new_moon_day new_8 new_moons_8 _ _ 0 n (A4 n H) new_moons_8_ok new_8_ok)
      as [y [k [_ [Q2 [Q3 Q4]]]]]. rewrite Z.add_0_r in Q4. exists y, k. split; [exact Q2|]. split; [exact Q3|exact Q4].
Qed.

(** Kuala Lumpur is closed on them, Jakarta on the new year. *)
Lemma moon_closures_ok : closed_days_of exchange_calendar_xkls.calendar (wesak_day ++ thaipusam ++ deepavali) &&
  closed_days_of exchange_calendar_xidx.calendar (exchange_calendar_xidx.vesak_day ++ exchange_calendar_xidx.hindu_saka_new_year) = true.
Proof. vm_compute. reflexivity. Qed.
Theorem c70_sessions : forall name E z start stop b n, In (name, E) exchanges -> is_midnight start ->
  build_exchange E z start stop = Ok b -> start <= at_midnight_of n <= stop ->
  (name = "XKLS"%string /\ (In n wesak_day \/ In n thaipusam \/ In n deepavali)) \/
  (name = "XIDX"%string /\ In n exchange_calendar_xidx.hindu_saka_new_year) ->
  is_session (cal b) (at_midnight_of n) = false.
Proof.
  intros name E z start stop b n HE M Hb Hr Hn. pose proof moon_closures_ok as A. rewrite andb_true_iff in A.
  destruct A as [A1 A2]. destruct Hn as [[-> Hn]|[-> Hn]].
  - rewrite (the_exchange _ _ _ xkls_here HE) in *.
    refine (closed_days_sound "XKLS" _ _ z start stop b n xkls_here eq_refl A1 _ M Hb Hr).
    apply in_or_app. destruct Hn as [Hn|Hn]; [left; exact Hn|right]. apply in_or_app. exact Hn.
  - rewrite (the_exchange _ _ _ xidx_here HE) in *.
    refine (closed_days_sound "XIDX" _ _ z start stop b n xidx_here eq_refl A2 _ M Hb Hr).
    apply in_or_app. right. exact Hn.
Qed.

(** ** Assumptions *)
Print Assumptions c69_tables.
Print Assumptions c69_tables_refuted.
Print Assumptions c69_sessions.
Print Assumptions c69_in_lieu.
Print Assumptions c69_breaks.
Print Assumptions c70_bangkok.
Print Assumptions c70_bangkok_only.
Print Assumptions c70_bangkok_sessions.
Print Assumptions c70_jakarta.
Print Assumptions c70_tables.
Print Assumptions c70_sessions.
