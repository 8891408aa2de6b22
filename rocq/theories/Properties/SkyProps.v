(** The tables of lunar and solar feasts against the positions of the sun and the
    moon (C62, C63). *)
From Coq Require Import ZArith String List Bool Lia.
From Verif.Model Require Import Base Dates Zone Queries Build Holidays Exchange.
From Verif.Spec Require Import Schedule Construction Civil Rules Feasts Venue Almanac Festivals Sky.
From Verif.Proofs Require Import BaseLemmas DatesLemmas ScheduleLemmas BuildLemmas RuleLemmas RuleRange
  VenueLemmas VenueSound AlmanacLemmas AlmanacRules FestivalRules SkyRules.
From Verif.Properties Require Import ExchangeProps AlmanacProps FestivalProps.
From Verif.Exchanges Require Import All zones.
From Verif.Exchanges Require Import lunisolar_holidays xtks_holidays.
Import ListNotations.
Open Scope Z_scope.

(** ** C62: the feasts of the Chinese calendar *)

(** A table with one date per year, in order, holds the date of each year. *)
Definition one_a_year (y0 : Z) (ds : list Z) : bool :=
  list_eqb (map year_of ds) (consecutive y0 (length ds)).
Lemma one_a_year_iff : forall y0 ds y n, one_a_year y0 ds = true -> y0 <= y -> in_year n y ->
  (In n ds <-> nth_error ds (Z.to_nat (y - y0)) = Some n).
Proof.
  intros y0 ds y n H Hy I. apply list_eqb_eq in H. split.
  - intros Hn. apply In_nth_error in Hn. destruct Hn as [i Hi].
    pose proof (map_nth_error year_of i ds Hi) as M. rewrite H in M.
    assert (L : (i < length ds)%nat) by (apply nth_error_Some; rewrite Hi; discriminate).
    pose proof (nth_error_nth _ _ 0 M) as M'. rewrite consecutive_nth in M' by exact L.
    apply in_year_iff in I. replace (Z.to_nat (y - y0)) with i by lia. exact Hi.
  - intros Hn. apply (nth_error_In _ _ Hn).
Qed.

(** The entries of table [ds] from year [y0] on agree with the dates of the calendar,
    with the exception of the years [ys]. *)
Definition agree (y0 m d : Z) (ys : list Z) (ds : list Z) : bool :=
  let t := dates_of m d in
  forallb (fun p => if memb (fst p) ys then true else nth (Z.to_nat (fst p - 1959)) t 0 =? snd p)
    (combine (consecutive y0 (length ds)) ds).
Lemma agree_iff : forall y0 m d ys ds y n, agree y0 m d ys ds = true -> one_a_year y0 ds = true ->
  1959 <= y0 -> length ds = Z.to_nat (2050 - y0) -> length (dates_of m d) = 91%nat ->
  y0 <= y <= 2049 -> ~ In y ys -> in_year n y -> (In n ds <-> chinese_date y m d n).
Proof.
  intros y0 m d ys ds y n A O Y0 L L' Hy N I. rewrite (one_a_year_iff y0 ds y n O) by (try lia; exact I).
  rewrite chinese_date_iff by lia.
  assert (E : nth_error ds (Z.to_nat (y - y0)) = nth_error (dates_of m d) (Z.to_nat (y - 1959))).
  { assert (Li : (Z.to_nat (y - y0) < length ds)%nat) by lia.
    unfold agree in A. cbv zeta in A. rewrite forallb_forall in A.
    specialize (A (y, nth (Z.to_nat (y - y0)) ds 0)).
    assert (P : In (y, nth (Z.to_nat (y - y0)) ds 0) (combine (consecutive y0 (length ds)) ds)).
    { replace y with (nth (Z.to_nat (y - y0)) (consecutive y0 (length ds)) 0) at 1
        by (rewrite consecutive_nth by exact Li; lia).
      rewrite <- combine_nth by (apply consecutive_length). apply nth_In.
      rewrite combine_length, consecutive_length. lia. }
    specialize (A P). cbn [fst snd] in A.
    destruct (memb y ys) eqn:M; [exfalso; apply N; apply memb_In; exact M|]. apply Z.eqb_eq in A.
    rewrite (nth_error_nth' ds 0) by exact Li. rewrite (nth_error_nth' _ 0) by lia. rewrite A. reflexivity. }
  rewrite E. reflexivity.
Qed.

Definition table_ok (y0 m d : Z) (ys ds : list Z) : bool :=
  agree y0 m d ys ds && one_a_year y0 ds && (Nat.eqb (length ds) (Z.to_nat (2050 - y0))) &&
  (Nat.eqb (length (dates_of m d)) 91).
Lemma table_iff : forall y0 m d ys ds, table_ok y0 m d ys ds = true -> 1959 <= y0 ->
  forall y n, y0 <= y <= 2049 -> ~ In y ys -> in_year n y -> (In n ds <-> chinese_date y m d n).
Proof.
  intros y0 m d ys ds T Y0 y n Hy N I. unfold table_ok in T. rewrite !andb_true_iff, !Nat.eqb_eq in T.
  destruct T as [[[T1 T2] T3] T4]. apply (agree_iff y0 m d ys ds y n T1 T2 Y0 T3 T4 Hy N I).
Qed.
Lemma new_year_table : table_ok 1960 1 1 [] chinese_lunar_new_year_dates = true.
Proof. vm_compute. reflexivity. Qed.
Lemma buddhas_birthday_table : table_ok 1959 4 8 [2034] chinese_buddhas_birthday_dates = true.
Proof. vm_compute. reflexivity. Qed.
Lemma dragon_boat_table : table_ok 1960 5 5 [1987; 2034] dragon_boat_festival_dates = true.
Proof. vm_compute. reflexivity. Qed.
Lemma mid_autumn_table : table_ok 1960 8 15 [2034] mid_autumn_festival_dates = true.
Proof. vm_compute. reflexivity. Qed.
Lemma double_ninth_table : table_ok 1959 9 9 [2034] double_ninth_festival_dates = true.
Proof. vm_compute. reflexivity. Qed.

Lemma not_in_1 : forall y a : Z, y <> a -> ~ In y [a].
Proof. intros y a N [F|[]]. lia. Qed.
Lemma not_in_2 : forall y a b : Z, y <> a -> y <> b -> ~ In y [a; b].
Proof. intros y a b N N' [F|[F|[]]]; lia. Qed.

(** From 1960 to 2049 the tables hold the day on which the feast falls by the rules of
    the calendar, except for four feasts in 2034 and the Dragon Boat Festival of 1987. *)
Theorem c62_lunar_feasts : forall y n, 1960 <= y <= 2049 -> in_year n y ->
  (In n chinese_lunar_new_year_dates <-> chinese_date y 1 1 n) /\
  (y <> 2034 -> (In n chinese_buddhas_birthday_dates <-> chinese_date y 4 8 n)) /\
  (y <> 2034 -> y <> 1987 -> (In n dragon_boat_festival_dates <-> chinese_date y 5 5 n)) /\
  (y <> 2034 -> (In n mid_autumn_festival_dates <-> chinese_date y 8 15 n)) /\
  (y <> 2034 -> (In n double_ninth_festival_dates <-> chinese_date y 9 9 n)).
Proof.
  intros y n Hy I. assert (Hy' : 1959 <= y <= 2049) by lia.
  assert (L0 : 1959 <= 1960) by lia. assert (L1 : 1959 <= 1959) by lia.
  split; [exact (table_iff _ _ _ _ _ new_year_table L0 y n Hy (fun F => F) I)|].
  split; [intros N; exact (table_iff _ _ _ _ _ buddhas_birthday_table L1 y n Hy' (not_in_1 y _ N) I)|].
  split; [intros N N'; exact (table_iff _ _ _ _ _ dragon_boat_table L0 y n Hy (not_in_2 y _ _ N' N) I)|].
  split; intros N.
  - exact (table_iff _ _ _ _ _ mid_autumn_table L0 y n Hy (not_in_1 y _ N) I).
  - exact (table_iff _ _ _ _ _ double_ninth_table L1 y n Hy' (not_in_1 y _ N) I).
Qed.

(** In 2034 the tables are a month early: by the rules the fourth, fifth, eighth and
    ninth months begin on May 18th, June 16th, September 13th and October 12th.  The
    Dragon Boat Festival of 1987 was on May 31st: the new moon of May 27th came at 23:13
    in China, 00:13 by the daylight saving time of that year. *)
Definition wrong_dates : list (list Z * (Z * Z * Z) * (Z * Z) * (Z * Z)) :=
  [(chinese_buddhas_birthday_dates, (2034, 4, 8), (4, 26), (5, 25));
   (dragon_boat_festival_dates, (2034, 5, 5), (5, 22), (6, 20));
   (mid_autumn_festival_dates, (2034, 8, 15), (8, 28), (9, 27));
   (double_ninth_festival_dates, (2034, 9, 9), (9, 21), (10, 20));
   (dragon_boat_festival_dates, (1987, 5, 5), (6, 1), (5, 31))].

Theorem c62_lunar_feasts_refuted : forall ds y m d tm td rm rd, In (ds, (y, m, d), (tm, td), (rm, rd)) wrong_dates ->
  In (date_number y tm td) ds /\ ~ chinese_date y m d (date_number y tm td) /\
  ~ In (date_number y rm rd) ds /\ chinese_date y m d (date_number y rm rd).
Proof.
  assert (A : forallb (fun w => let '(ds, (y, m, d), (tm, td), (rm, rd)) := w in
    (memb (date_number y tm td) ds && negb (memb (date_number y rm rd) ds)) &&
    (((1959 <=? y) && (y <=? 2049)) &&
     (negb (date_number y tm td =? date_number y rm rd) &&
      match nth_error (dates_of m d) (Z.to_nat (y - 1959)) with
      | Some n => n =? date_number y rm rd | None => false end))) wrong_dates = true) by (vm_compute; reflexivity).
  intros ds y m d tm td rm rd H. rewrite forallb_forall in A. specialize (A _ H). cbn beta iota in A.
  rewrite !andb_true_iff, !negb_true_iff, !Z.leb_le, Z.eqb_neq in A.
  destruct A as [[A1 A2] [A3 [A4 A5]]].
  destruct (nth_error (dates_of m d) (Z.to_nat (y - 1959))) as [n|] eqn:En; [|discriminate A5].
  apply Z.eqb_eq in A5. subst n.
  split; [apply memb_In; exact A1|]. split; [|split; [rewrite <- memb_In, A2; discriminate|]].
  - rewrite chinese_date_iff by exact A3. rewrite En. intros F. injection F as F. apply A4. symmetry. exact F.
  - apply chinese_date_iff; [exact A3|]. exact En.
Qed.

(** *** Sessions *)

Definition closed_on (E : exchange) (y0 y1 m d : Z) (ys : list Z) : bool :=
  let t := dates_of m d in
  let hs := ex_adhoc_holidays E in
  forallb (fun y => match nth_error t (Z.to_nat (y - 1959)) with
    | Some n =>
        if memb y ys then open_dayb E n
        else if nth (Z.to_nat (weekday n)) (ex_weekmask E) false then
          (if memb n hs then true else negb (open_dayb E n)) else true
    | None => true end)
    (consecutive y0 (Z.to_nat (y1 + 1 - y0))).
Lemma closed_or_open : forall E n (exceptional : bool),
  (if exceptional then open_dayb E n
   else if nth (Z.to_nat (weekday n)) (ex_weekmask E) false then
     (if memb n (ex_adhoc_holidays E) then true else negb (open_dayb E n)) else true) = true ->
  open_dayb E n = exceptional.
Proof.
  intros E n [|] H; [exact H|].
  destruct (nth (Z.to_nat (weekday n)) (ex_weekmask E) false) eqn:W.
  - destruct (memb n (ex_adhoc_holidays E)) eqn:A; [|apply negb_true_iff in H; exact H].
    unfold open_dayb. rewrite A. apply andb_false_r.
  - unfold open_dayb. rewrite W. reflexivity.
Qed.
Lemma lunar_closures_ok : forallb (fun c => let '(name, (y0, y1), (m, d), ys) := c in
  ((1959 <=? y0) && (y1 <=? 2049)) && (negb (String.eqb name "XTAE") &&
  forallb (fun p => if String.eqb (fst p) name then closed_on (snd p) y0 y1 m d ys else true) exchanges))
  lunar_closures = true.
Proof. vm_compute. reflexivity. Qed.

Lemma lunar_trades : forall name y0 y1 m d ys E y n, In (name, (y0, y1), (m, d), ys) lunar_closures ->
  y0 <= y <= y1 -> chinese_date y m d n -> In (name, E) exchanges -> (trades name E n <-> In y ys).
Proof.
  intros name y0 y1 m d ys E y n HL Hy HC HE. pose proof lunar_closures_ok as A. rewrite forallb_forall in A.
  specialize (A _ HL). cbn beta iota in A. rewrite !andb_true_iff, !Z.leb_le, negb_true_iff in A.
  destruct A as [[A1 A2] [A3 A4]]. rewrite forallb_forall in A4. specialize (A4 _ HE). cbn [fst snd] in A4.
  rewrite String.eqb_refl in A4. unfold closed_on in A4. cbv zeta in A4. rewrite forallb_forall in A4.
  specialize (A4 y ltac:(apply consecutive_In; lia)). apply chinese_date_iff in HC; [|lia]. rewrite HC in A4.
  apply closed_or_open in A4. rewrite (plain_trades name E n HE A3). rewrite A4. apply memb_In.
Qed.

(** The exchanges of Hong Kong, Taipei, Seoul, Shanghai, Singapore, Kuala Lumpur, Manila
    and Jakarta are closed on the feasts that they keep, by the rules of the calendar. *)
Theorem c62_sessions : forall name y0 y1 m d ys E z start stop b y n,
  In (name, (y0, y1), (m, d), ys) lunar_closures -> y0 <= y <= y1 -> ~ In y ys -> chinese_date y m d n ->
  In (name, E) exchanges -> is_midnight start -> build_exchange E z start stop = Ok b ->
  start <= at_midnight_of n <= stop -> is_session (cal b) (at_midnight_of n) = false.
Proof.
  intros name y0 y1 m d ys E z start stop b y n HL Hy N HC HE M Hb Hr. apply not_true_iff_false.
  rewrite (proj2 (c51_sessions name E z start stop b HE M Hb) n Hr).
  rewrite (lunar_trades name y0 y1 m d ys E y n HL Hy HC HE). exact N.
Qed.

(** In the other years they trade on that day. *)
Theorem c62_sessions_refuted : forall name y0 y1 m d ys E z start stop b y n,
  In (name, (y0, y1), (m, d), ys) lunar_closures -> y0 <= y <= y1 -> In y ys -> chinese_date y m d n ->
  In (name, E) exchanges -> is_midnight start -> build_exchange E z start stop = Ok b ->
  start <= at_midnight_of n <= stop -> is_session (cal b) (at_midnight_of n) = true.
Proof.
  intros name y0 y1 m d ys E z start stop b y n HL Hy N HC HE M Hb Hr.
  rewrite (proj2 (c51_sessions name E z start stop b HE M Hb) n Hr).
  rewrite (lunar_trades name y0 y1 m d ys E y n HL Hy HC HE). exact N.
Qed.

(** Hong Kong: closed on the Dragon Boat Festival of Friday, June 7th, 2019, and open on
    that of Tuesday, June 20th, 2034. *)
Example c62_ex : exists z b, In ("Asia/Hong_Kong"%string, z) zones /\
  build_exchange exchange_calendar_xhkg.calendar z (at_midnight_of (date_number 1990 1 1))
    (at_midnight_of (date_number 2040 12 31)) = Ok b /\
  chinese_date 2019 5 5 (date_number 2019 6 7) /\ chinese_date 2034 5 5 (date_number 2034 6 20) /\
  is_session (cal b) (at_midnight_of (date_number 2019 6 7)) = false /\
  is_session (cal b) (at_midnight_of (date_number 2034 6 20)) = true.
Proof.
  destruct (c53_default_range 1990 "XHKG" _ (at_midnight_of (date_number 2040 12 31)) (or_introl eq_refl) xhkg_here)
    as [z [b [ss [Hz [Hb _]]]]].
  - discriminate.
  - apply at_midnight_le. apply Z.leb_le. vm_compute. reflexivity.
  - intros n [].
  - exists z, b. split; [exact Hz|]. split; [exact Hb|].
    assert (M : is_midnight (at_midnight_of (date_number 1990 1 1))) by (apply is_midnight_at; eauto).
    assert (B : forall n, (date_number 1990 1 1 <=? n) && (n <=? date_number 2040 12 31) = true ->
      at_midnight_of (date_number 1990 1 1) <= at_midnight_of n <= at_midnight_of (date_number 2040 12 31)).
    { intros n Q. rewrite andb_true_iff, !Z.leb_le in Q. rewrite !at_midnight_le. exact Q. }
    assert (B1 := B (date_number 2019 6 7) eq_refl). assert (B2 := B (date_number 2034 6 20) eq_refl).
    assert (C1 : chinese_date 2019 5 5 (date_number 2019 6 7)).
    { apply chinese_date_iff; [lia|]. vm_compute. reflexivity. }
    assert (C2 : chinese_date 2034 5 5 (date_number 2034 6 20)).
    { apply chinese_date_iff; [lia|]. vm_compute. reflexivity. }
    split; [exact C1|]. split; [exact C2|].
    assert (HL : In ("XHKG"%string, (1960, 2049), (5, 5), [2034]) lunar_closures)
      by (unfold lunar_closures; do 4 right; left; reflexivity).
    split.
    + refine (c62_sessions "XHKG" 1960 2049 5 5 [2034] exchange_calendar_xhkg.calendar z _ _ b 2019 _ HL
        ltac:(lia) _ C1 xhkg_here M Hb B1). intros [F|[]]. discriminate F.
    + exact (c62_sessions_refuted "XHKG" 1960 2049 5 5 [2034] exchange_calendar_xhkg.calendar z _ _ b 2034 _ HL
        ltac:(lia) (or_introl eq_refl) C2 xhkg_here M Hb B2).
Qed.

(** ** C63: the feasts of the solar year *)

(** A list of days with one day a year, as a set of days, by computation. *)
Lemma years_between : forall y y0 y1 n, y0 <= y <= y1 -> in_year n y -> year_start y0 <= n <= year_start (y1 + 1) - 1.
Proof.
  intros y y0 y1 n H [I1 I2]. split.
  - destruct (Z.eq_dec y0 y) as [-> | N]; [lia|]. pose proof (year_start_mono y0 y ltac:(lia)). lia.
  - destruct (Z.eq_dec y1 y) as [-> | N]; [lia|]. pose proof (year_start_mono (y + 1) (y1 + 1) ltac:(lia)). lia.
Qed.
Definition within (y0 y1 : Z) (l : list Z) : list Z :=
  filter (fun n => (year_start y0 <=? n) && (n <=? year_start (y1 + 1) - 1)) l.
Lemma sun_table : forall hours x q count y0 y1 ds, 0 <= hours <= 24 ->
  (centre x (q - 1) + 4 <? year_start y0) && (year_start (y1 + 1) - 1 <? centre x (q + Z.of_nat count) - 3)
  && list_eqb (within y0 y1 (sun_days hours x q count)) (within y0 y1 ds) = true ->
  forall y n, y0 <= y <= y1 -> in_year n y -> (In n ds <-> sun_reaches hours x n).
Proof.
  intros hours x q count y0 y1 ds Hh C y n Hy I. rewrite !andb_true_iff, !Z.ltb_lt in C.
  destruct C as [[C1 C2] C3]. apply list_eqb_eq in C3. pose proof (years_between y y0 y1 n Hy I) as R.
  rewrite (sun_days_ok hours x q count (year_start y0) (year_start (y1 + 1) - 1) n Hh C1 C2 R).
  assert (W : forall l, In n l <-> In n (within y0 y1 l)).
  { intros l. unfold within. rewrite filter_In, andb_true_iff, !Z.leb_le. tauto. }
  rewrite (W ds), (W (sun_days hours x q count)), C3. tauto.
Qed.

(** Qingming is the day on which the sun reaches 15 degrees, in China. *)
Lemma qingming_table : (centre 15 (-81) + 4 <? year_start 1960) &&
  (year_start (2049 + 1) - 1 <? centre 15 (-80 + Z.of_nat 182) - 3)
  && list_eqb (within 1960 2049 (sun_days 8 15 (-80) 182)) (within 1960 2049 qingming_festival_dates) = true.
Proof. vm_compute. reflexivity. Qed.
Theorem c63_qingming : forall y n, 1960 <= y <= 2049 -> in_year n y ->
  (In n qingming_festival_dates <-> sun_reaches 8 15 n).
Proof.
  exact (sun_table 8 15 (-80) 182 1960 2049 qingming_festival_dates ltac:(lia) qingming_table).
Qed.

(** The Japanese formula gives the days on which the sun reaches 0 and 180 degrees. *)
Lemma vernal_table : (centre 0 (-41) + 4 <? year_start 1980) &&
  (year_start (2049 + 1) - 1 <? centre 0 (-40 + Z.of_nat 142) - 3)
  && list_eqb (within 1980 2049 (sun_days 9 0 (-40) 142))
       (within 1980 2049 (map (equinox_day 3 20843100) (year_range 1980 2099))) = true.
Proof. vm_compute. reflexivity. Qed.
Lemma autumnal_table : (centre 180 (-42) + 4 <? year_start 1980) &&
  (year_start (2049 + 1) - 1 <? centre 180 (-41 + Z.of_nat 142) - 3)
  && list_eqb (within 1980 2049 (sun_days 9 180 (-41) 142))
       (within 1980 2049 (map (equinox_day 9 23248800) (year_range 1980 2099))) = true.
Proof. vm_compute. reflexivity. Qed.

Theorem c63_equinoxes : forall y n, 1980 <= y <= 2049 -> in_year n y ->
  (vernal_equinox n <-> sun_reaches 9 0 n) /\ (autumnal_equinox n <-> sun_reaches 9 180 n).
Proof.
  intros y n Hy I. unfold vernal_equinox, autumnal_equinox.
  pose proof (enum_equinox 3 20843100 n) as E1. pose proof (enum_equinox 9 23248800 n) as E2.
  rewrite E1, E2. split.
  - exact (sun_table 9 0 (-40) 142 1980 2049 _ ltac:(lia) vernal_table y n Hy I).
  - exact (sun_table 9 180 (-41) 142 1980 2049 _ ltac:(lia) autumnal_table y n Hy I).
Qed.

(** Tokyo is closed on the equinoxes from 2000 to 2021. *)
Definition closed_days_of (E : exchange) (ns : list Z) : bool :=
  let hs := ex_adhoc_holidays E in
  forallb (fun n => if nth (Z.to_nat (weekday n)) (ex_weekmask E) false then memb n hs else true) ns.
Lemma tokyo_closed : forall n, In n (map (equinox_day 3 20843100) (year_range 2000 2021) ++
  map (equinox_day 9 23248800) (year_range 2000 2021)) -> open_dayb exchange_calendar_xtks.calendar n = false.
Proof.
  assert (A : closed_days_of exchange_calendar_xtks.calendar (map (equinox_day 3 20843100) (year_range 2000 2021) ++
    map (equinox_day 9 23248800) (year_range 2000 2021)) = true) by (vm_compute; reflexivity).
  intros n H. unfold closed_days_of in A. cbv zeta in A. rewrite forallb_forall in A. specialize (A n H).
  apply (closed_or_open exchange_calendar_xtks.calendar n false).
  destruct (nth (Z.to_nat (weekday n)) (ex_weekmask exchange_calendar_xtks.calendar) false); [|reflexivity].
  rewrite A. reflexivity.
Qed.
Lemma xtks_here : In ("XTKS"%string, exchange_calendar_xtks.calendar) exchanges.
Proof. apply here. reflexivity. Qed.
Lemma the_xtks : forall E, In ("XTKS"%string, E) exchanges -> E = exchange_calendar_xtks.calendar.
Proof. intros E H. exact (the_exchange _ _ _ xtks_here H). Qed.

Theorem c63_tokyo : forall E z start stop b y n, In ("XTKS"%string, E) exchanges -> is_midnight start ->
  build_exchange E z start stop = Ok b -> start <= at_midnight_of n <= stop ->
  2000 <= y <= 2021 -> in_year n y -> sun_reaches 9 0 n \/ sun_reaches 9 180 n ->
  is_session (cal b) (at_midnight_of n) = false.
Proof.
  intros E z start stop b y n HE M Hb Hr Hy I HS. rewrite (the_xtks E HE) in Hb.
  apply not_true_iff_false. rewrite (proj2 (c51_sessions _ _ z start stop b xtks_here M Hb) n Hr).
  rewrite (plain_trades _ _ n xtks_here eq_refl). apply not_true_iff_false. apply tokyo_closed.
  destruct (c63_equinoxes y n ltac:(lia) I) as [E1 E2]. rewrite <- E1, <- E2 in HS. apply in_or_app.
  unfold vernal_equinox, autumnal_equinox, equinox in HS. destruct HS as [[y' [H1 H2]]|[y' [H1 H2]]]; [left|right];
    apply in_map_iff; exists y'; (split; [symmetry; exact H2|]); apply year_range_In.
  - assert (I' : in_year n y').
    { rewrite H2. apply date_number_year. unfold valid_date. split; [lia|]. change (month_length y' 3) with 31.
      Z.div_mod_to_equations. lia. }
    rewrite (in_year_unique n y' y I' I). exact Hy.
  - assert (I' : in_year n y').
    { rewrite H2. apply date_number_year. unfold valid_date. split; [lia|]. change (month_length y' 9) with 30.
      Z.div_mod_to_equations. lia. }
    rewrite (in_year_unique n y' y I' I). exact Hy.
Qed.

(** Later equinoxes are not known to the calendar: Monday, March 21st, 2022, is a
    session. *)
Theorem c63_tokyo_refuted : let n := date_number 2022 3 21 in
  sun_reaches 9 0 n /\ day_of_week n = MONDAY /\
  forall E z start stop b, In ("XTKS"%string, E) exchanges -> is_midnight start ->
    build_exchange E z start stop = Ok b -> start <= at_midnight_of n <= stop ->
    is_session (cal b) (at_midnight_of n) = true.
Proof.
  cbv zeta. split; [apply reaches_iff; vm_compute; reflexivity|]. split; [vm_compute; reflexivity|].
  intros E z start stop b HE M Hb Hr. rewrite (the_xtks E HE) in Hb.
  rewrite (proj2 (c51_sessions _ _ z start stop b xtks_here M Hb) _ Hr).
  rewrite (plain_trades _ _ _ xtks_here eq_refl). vm_compute. reflexivity.
Qed.

(** Tokyo was closed on Monday, March 21st, 2011, the vernal equinox. *)
Example c63_ex : exists z b, In ("Asia/Tokyo"%string, z) zones /\
  build_exchange exchange_calendar_xtks.calendar z (at_midnight_of (date_number 2000 1 1))
    (at_midnight_of (date_number 2021 12 31)) = Ok b /\
  sun_reaches 9 0 (date_number 2011 3 21) /\ sun_reaches 8 15 (date_number 2011 4 5) /\
  is_session (cal b) (at_midnight_of (date_number 2011 3 21)) = false.
Proof.
  destruct (c53_default_range 2000 "XTKS" _ (at_midnight_of (date_number 2021 12 31)) (or_intror (or_introl eq_refl)) xtks_here)
    as [z [b [ss [Hz [Hb _]]]]].
  - discriminate.
  - apply at_midnight_le. apply Z.leb_le. vm_compute. reflexivity.
  - intros n [].
  - exists z, b. split; [exact Hz|]. split; [exact Hb|].
    assert (S : sun_reaches 9 0 (date_number 2011 3 21)) by (apply reaches_iff; vm_compute; reflexivity).
    split; [exact S|]. split; [apply reaches_iff; vm_compute; reflexivity|].
    refine (c63_tokyo exchange_calendar_xtks.calendar z _ _ b 2011 _ xtks_here _ Hb _ _ _ (or_introl S)).
    + apply is_midnight_at; eauto.
    + rewrite !at_midnight_le. split; apply Z.leb_le; vm_compute; reflexivity.
    + lia.
    + apply in_year_iff. vm_compute. reflexivity.
Qed.

(** ** Assumptions *)
Print Assumptions c62_lunar_feasts.
Print Assumptions c62_lunar_feasts_refuted.
Print Assumptions c62_sessions.
Print Assumptions c62_sessions_refuted.
Print Assumptions c63_qingming.
Print Assumptions c63_equinoxes.
Print Assumptions c63_tokyo.
Print Assumptions c63_tokyo_refuted.
