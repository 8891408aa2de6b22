(** The minutes of a year (C101). *)
From Coq Require Import ZArith String List Bool Lia Sorting.Sorted Sorting.Permutation Logic.FinFun.
From Verif.Model Require Import Base Dates Zone Queries Build Holidays Exchange.
From Verif.Spec Require Import Schedule Construction Civil Rules Feasts Venue Almanac Hours Duration PerYear HalfDays YearMinutes.
From Verif.Proofs Require Import BaseLemmas DatesLemmas ScheduleLemmas QueryLemmas QueryLemmas2 BuildLemmas RuleLemmas
  ZoneLemmas VenueSound AlmanacLemmas VenueLemmas HoursRules PerYearLemmas.
From Verif.Properties Require Import QueryProps ExchangeProps AlmanacProps HoursProps MarketProps LengthProps PerYearProps HalfDayProps.
From Verif.Exchanges Require Import All zones.
Import ListNotations.
Open Scope Z_scope.

(** ** What the timetable says about the years from [first] on *)
Record keeps (H : hours) (first : Z) (o c h : clock) (hd : Z -> list Z) : Prop := Keeps {
  k_opening : forall n y o', first <= y -> in_year n y -> opening H n o' -> o' = o;
  k_closing : forall n y c', first <= y -> in_year n y -> closing H n c' -> c' = c;
  k_lunch : lunch H = None;
  k_early : forall n y c', first <= y -> in_year n y -> (early_closing H n c' <-> c' = h /\ In n (hd y)) }.
Definition tidy (hd : Z -> list Z) : Prop := forall y,
  NoDup (hd y) /\ forall n, In n (hd y) -> date_number y 1 3 <= n <= date_number y 12 31.

(** ** Calendars *)
Section Calendar.
Variables (name : string) (E : exchange) (H : hours) (first : Z) (o c h : clock) (hd : Z -> list Z).
Variables (z : zone) (start stop : Z) (b : built) (y : Z).
Hypothesis HE : In (name, E) exchanges.
Hypothesis HH : In (name, H) timetable.
Hypothesis Hk : keeps H first o c h hd.
Hypothesis Ht : tidy hd.
Hypothesis Hz : In (ex_tz E, z) zones.
Hypothesis Hrep : not_a_time + 2 * one_day < start.
Hypothesis M : is_midnight start.
Hypothesis Hb : build_exchange E z start stop = Ok b.
Hypothesis L : start <= first_of y.
Hypothesis R : last_of y + 2 * one_day <= stop.
Hypothesis F0 : 1950 <= first.
Hypothesis Y : first <= y.
Hypothesis Hh : 0 <= fst h < 24 /\ 0 <= snd h < 60.

Lemma zone_good : good_zone z.
Proof. destruct (clocks_1950 _ _ z HE Hz) as [lo [[G _] _]]. exact G. Qed.
Lemma the_place : In (place H, z) zones.
Proof. rewrite <- (m_place E H (the_hours name E H HE HH)). exact Hz. Qed.
Lemma covers : forall n, in_year n y -> start <= at_midnight_of n <= stop.
Proof. intros n I. apply (covered start stop y L ltac:(pose proof one_day_pos; lia) n I). Qed.
Lemma later : forall n, in_year n y -> date_number 1950 1 1 <= n.
Proof. intros n I. apply (since_year n y 1950 I). lia. Qed.
Lemma half_in_year : forall n, In n (hd y) -> in_year n y /\ date_number y 1 3 <= n.
Proof.
  intros n I. destruct (Ht y) as [_ T]. specialize (T n I). split; [|lia]. apply year_days_iff.
  assert (date_number y 1 3 = date_number y 1 1 + 2) by (unfold date_number; lia). lia.
Qed.
Lemma half_early : forall n, In n (hd y) -> early_closing H n h.
Proof. intros n I. apply (k_early _ _ _ _ _ _ Hk n y); [exact Y|apply half_in_year; exact I|split; [reflexivity|exact I]]. Qed.
Lemma time_bounds : forall t : clock, 0 <= fst t < 24 /\ 0 <= snd t < 60 -> forall x,
  x <= local_time x 0 (time_of t) < x + one_day.
Proof.
  intros t T x. unfold local_time, time_of. cbn [hour minute second]. change one_day with (86400 * 10 ^ 9). lia.
Qed.
Lemma half_instant : forall n, In n (hd y) ->
  exists u, instant_of z (local_time (at_midnight_of n) 0 (time_of h)) u /\ start <= u <= stop.
Proof.
  intros n I. destruct (half_in_year n I) as [IY B]. destruct (clocks_1950 _ _ z HE Hz) as [lo [[G [K1 _]] Lo]].
  pose proof (later n IY) as N. pose proof (the_hours name E H HE HH) as Mt.
  pose proof (proj2 (closing_iff E H n Mt) h (half_early n I)) as SC.
  destruct (K1 0 (time_of h) n (special_clock_time E (time_of h) (closes_clock E (time_of h) (closing_In E n (time_of h) SC))) ltac:(lia)) as [u U].
  exists u. split; [exact U|]. destruct U as [U _]. unfold wall_clock in U.
  pose proof (good_zone_offset z u G) as O. pose proof (time_bounds h Hh (at_midnight_of n)) as T.
  destruct (Ht y) as [_ D]. specialize (D n I).
  assert (Q : date_number y 1 1 + 2 <= n) by (assert (date_number y 1 3 = date_number y 1 1 + 2) by (unfold date_number; lia); lia).
  pose proof (proj2 (at_midnight_le _ _) Q) as Q1. pose proof (proj2 (at_midnight_le _ _) (proj2 D)) as Q2.
  unfold first_of, last_of in *. unfold at_midnight_of in *. pose proof one_day_pos. lia.
Qed.

Lemma half_closing : forall n, In n (hd y) ->
  is_session (cal b) (at_midnight_of n) = true /\ In (at_midnight_of n) (early_closes b) /\
  session_break_start (cal b) (at_midnight_of n) = Ok None.
Proof.
  intros n I. destruct (half_instant n I) as [u [U V]]. destruct (half_in_year n I) as [IY _].
  destruct (c59_early_close name E H z start stop b n h u HE HH zone_good Hrep M Hb (covers n IY) (half_early n I) U V)
    as [S [_ [D _]]].
  split; [exact S|]. split; [|exact D].
  apply (c59_early_closes name E H z start stop b HE HH zone_good Hrep M Hb).
  exists n, h, u. split; [reflexivity|]. split; [exact (covers n IY)|]. split; [exact (half_early n I)|]. split; [exact U|exact V].
Qed.

Lemma listed_early : forall n, in_year n y -> (In (at_midnight_of n) (early_closes b) <-> In n (hd y)).
Proof.
  intros n IY. split.
  - intros I. apply (c59_early_closes name E H z start stop b HE HH zone_good Hrep M Hb) in I.
    destruct I as [n' [c' [u [Q [_ [EC _]]]]]]. apply at_midnight_inj in Q. subst n'.
    apply (k_early _ _ _ _ _ _ Hk n y c' Y IY) in EC. apply EC.
  - intros I. exact (proj1 (proj2 (half_closing n I))).
Qed.

Lemma length_of : forall n, in_year n y -> is_session (cal b) (at_midnight_of n) = true ->
  session_break_start (cal b) (at_midnight_of n) = Ok None /\
  exists u v, session_open (cal b) (at_midnight_of n) = Ok u /\ session_close (cal b) (at_midnight_of n) = Ok v /\
    v - u + one_minute = published_minutes H o (if in_dec Z.eq_dec n (hd y) then h else c) * one_minute.
Proof.
  intros n IY S. destruct (in_dec Z.eq_dec n (hd y)) as [I|I].
  - split; [apply (half_closing n I)|]. destruct (half_instant n I) as [w [U V]].
    pose proof (the_hours name E H HE HH) as Mt.
    assert (T : trades name E n) by (apply (proj2 (c51_sessions name E z start stop b HE M Hb)); [exact (covers n IY)|exact S]).
    pose proof (proj2 (closing_iff E H n Mt) h (half_early n I)) as SC.
    destruct (times_of_day name E z start stop b n HE zone_good Hrep M Hb (covers n IY) T)
      as [u [v [bs [be [Q1 [F1 [Q2 [F2 _]]]]]]]].
    exists u, v. split; [exact Q1|]. split; [exact Q2|].
    destruct F1 as [[t [A _]]|[_ [t [A B]]]]; [exfalso; exact (no_special_opening E H n t Mt A)|].
    destruct F2 as [[t' [A' [B' _]]]|[F2 _]]; [|exfalso; apply (F2 w); exists (time_of h); split; [exact SC|]; split; [exact U|exact V]].
    destruct (proj1 (closing_iff E H n Mt) t' A') as [c' [-> Hc]]. apply (k_early _ _ _ _ _ _ Hk n y c' Y IY) in Hc. destruct Hc as [-> _].
    destruct (m_opening E H Mt n t A) as [o' [O ->]]. rewrite (k_opening _ _ _ _ _ _ Hk n y o' Y IY O) in *.
    pose proof (open_time_listed E n _ A) as L1. rewrite (m_nights E H Mt) in B, L1.
    rewrite (c90_steady name E z n (- nights H) (minute_after o) 0 (time_of h) u v HE Hz (later n IY) T L1
      (special_clock_time E (time_of h) (closes_clock E (time_of h) (closing_In E n (time_of h) SC))) B B').
    apply clock_span.
  - assert (NE : forall c', ~ early_closing H n c') by (intros c' Q; apply (k_early _ _ _ _ _ _ Hk n y c' Y IY) in Q; tauto).
    split.
    + pose proof (c58_break name E H z start stop b n HE HH zone_good Hrep M Hb (covers n IY) S NE) as Q.
      rewrite (k_lunch _ _ _ _ _ _ Hk) in Q. exact (proj1 Q).
    + destruct (c90_length name E H z start stop b n HE HH the_place (later n IY) Hrep M Hb (covers n IY) S)
        as [o' [c' [u [v [O [C [Q1 [Q2 D]]]]]]]].
      rewrite (k_opening _ _ _ _ _ _ Hk n y o' Y IY O) in D.
      exists u, v. split; [exact Q1|]. split; [exact Q2|]. destruct C as [C|C]; [|exfalso; exact (NE c' C)].
      rewrite (k_closing _ _ _ _ _ _ Hk n y c' Y IY C) in D. exact D.
Qed.

Lemma minutes_of_row : forall ss s n, in_year n y -> well_formed ss -> has_schedule (cal b) ss -> In s ss ->
  s_label s = at_midnight_of n -> is_session (cal b) (at_midnight_of n) = true ->
  has_break s = false /\ zlen (sm s) = published_minutes H o (if in_dec Z.eq_dec n (hd y) then h else c).
Proof.
  intros ss s n IY W A I Q S. destruct (length_of n IY S) as [P [u [v [Q1 [Q2 D]]]]].
  destruct (c22_accessors ss (cal b) s W A I) as [R1 [R2 [R3 _]]]. rewrite Q in R1, R2, R3.
  rewrite Q1 in R1. injection R1 as ->. rewrite Q2 in R2. injection R2 as ->. rewrite P in R3.
  unfold has_break. destruct (wf_In ss s W I) as [W1 W2].
  pose proof (minutes_counted s (sm s) W1 W2 (sm_spec s W1 W2)) as K. destruct (s_break s) as [[bs be]|]; [discriminate R3|].
  split; [reflexivity|]. change (zlen (sm s)) with (Z.of_nat (length (sm s))). rewrite K. apply whole_div. exact D.
Qed.

Definition is_half (x : Z) : bool := if in_dec Z.eq_dec x (map at_midnight_of (hd y)) then true else false.
Lemma is_half_iff : forall n (a b : clock), (if is_half (at_midnight_of n) then a else b) = if in_dec Z.eq_dec n (hd y) then a else b.
Proof.
  intros n a a'. unfold is_half. destruct (in_dec Z.eq_dec n (hd y)) as [J|J];
    destruct (in_dec Z.eq_dec (at_midnight_of n) (map at_midnight_of (hd y))) as [J'|J']; try reflexivity; exfalso.
  - apply J'. apply in_map. exact J.
  - apply J. apply in_map_iff in J'. destruct J' as [m [F J']]. apply at_midnight_inj in F. subst m. exact J'.
Qed.
Lemma sum_rows : forall l,
  (forall s, In s l -> has_break s = false /\ zlen (sm s) = published_minutes H o (if is_half (s_label s) then h else c)) ->
  zlen (flat_map sm l) - breaks_in l =
  published_minutes H o c * Z.of_nat (length (map s_label l)) -
  (published_minutes H o c - published_minutes H o h) * Z.of_nat (length (filter is_half (map s_label l))).
Proof.
  induction l as [|s l IH]; intros Q; [cbn; lia|]. specialize (IH (fun s' I => Q s' (or_intror I))).
  destruct (Q s (or_introl eq_refl)) as [H1 H2]. unfold breaks_in in *. cbn [flat_map map filter length]. rewrite H1, zlen_app, H2.
  destruct (is_half (s_label s)); cbn [length]; lia.
Qed.
Lemma count_minutes :
  minutes_count_for_sessions_in_range (cal b) (first_of y) (last_of y) =
  published_minutes H o c * Z.of_nat (length (sessions_in_range (cal b) (first_of y) (last_of y))) -
  (published_minutes H o c - published_minutes H o h) * Z.of_nat (length (hd y)).
Proof.
  destruct (c52_rows name E z start stop b HE zone_good Hrep M Hb) as [ss [A [W [C _]]]].
  destruct (c51_sessions name E z start stop b HE M Hb) as [[S1 S2] S3].
  destruct (slice_range (sessions (cal b)) (first_of y) (last_of y) S1) as [T1 T2].
  rewrite (minutes_count_eq (cal b) ss W A). rewrite sum_rows.
  - change (map s_label (filter (in_range (first_of y) (last_of y)) ss)) with
      (map s_label (filter (fun s => (first_of y <=? s_label s) && (s_label s <=? last_of y)) ss)).
    rewrite <- (sessions_in_range_filter (cal b) ss W A).
    change (sessions_in_range (cal b) (first_of y) (last_of y))
      with (pyslice (sessions (cal b)) (searchsorted_left (sessions (cal b)) (first_of y)) (searchsorted_right (sessions (cal b)) (last_of y))).
    set (xs := pyslice _ _ _) in *. clearbody xs. f_equal. f_equal. f_equal.
    rewrite <- (map_length at_midnight_of (hd y)). apply Permutation_length. apply NoDup_Permutation.
    + apply NoDup_filter, SSorted_lt_NoDup. exact T1.
    + apply Injective_map_NoDup; [intros p q; apply at_midnight_inj|apply Ht].
    + intros x. rewrite filter_In, T2. unfold is_half. destruct (in_dec Z.eq_dec x (map at_midnight_of (hd y))) as [I|I]; [|split; [intros [_ F]; discriminate F|intros I'; contradiction]].
      split; [intros _; exact I|]. intros _. split; [|reflexivity]. apply in_map_iff in I. destruct I as [n [<- I]].
      destruct (half_in_year n I) as [IY _]. split.
      * apply S2. exists n. split; [reflexivity|]. split; [exact (covers n IY)|]. apply (S3 n (covers n IY)).
        exact (proj1 (half_closing n I)).
      * unfold first_of, last_of. rewrite !at_midnight_le. apply year_days_iff. exact IY.
  - intros s I. apply filter_In in I. destruct I as [I K]. unfold in_range in K. apply andb_prop in K. rewrite !Z.leb_le in K.
    destruct (proj1 (C (s_label s)) (ex_intro _ s (conj I eq_refl))) as [n [Q [G T]]].
    assert (IY : in_year n y). { apply year_days_iff. rewrite Q in K. unfold first_of, last_of in K. rewrite !at_midnight_le in K. exact K. }
    rewrite Q in G. apply (S3 n G) in T. rewrite Q, is_half_iff. exact (minutes_of_row ss s n IY W A I Q T).
Qed.
End Calendar.

(** ** The half days of the table *)
Lemma tidy_none : tidy no_half_days.
Proof. intros y. split; [constructor|intros n []]. Qed.
Lemma december : forall y d, date_number y 12 d = date_number y 12 31 - 31 + d.
Proof. intros y d. unfold date_number. lia. Qed.
Lemma january_3 : forall y, date_number y 1 3 + 300 <= date_number y 12 1.
Proof.
  intros y. rewrite !date_position. change (before (leap y) 1) with 0.
  destruct (leap y); [change (before true 12) with 335|change (before false 12) with 334]; lia.
Qed.
Lemma back_range : forall n, n - 2 <= back_to_friday n <= n.
Proof. intros n. unfold back_to_friday. destruct (day_of_week n =? 5), (day_of_week n =? 6); lia. Qed.
Ltac december_days y := pose proof (january_3 y); pose proof (december y 1); pose proof (december y 24); pose proof (december y 30).
Lemma tidy_workday_eves : tidy workday_eves.
Proof.
  intros y. december_days y. split.
  - apply NoDup_filter. constructor; [|constructor; [intros []|constructor]]. cbn [In]. lia.
  - intros n I. apply filter_In in I. cbn [In] in I. lia.
Qed.
Lemma tidy_christmas : tidy workday_christmas_eve.
Proof.
  intros y. december_days y. split.
  - apply NoDup_filter. constructor; [intros []|constructor].
  - intros n I. apply filter_In in I. cbn [In] in I. lia.
Qed.
Lemma tidy_last : tidy last_days.
Proof.
  intros y. december_days y. unfold last_days.
  pose proof (back_range (date_number y 12 24)). pose proof (back_range (date_number y 12 31)). split.
  - constructor; [|constructor; [intros []|constructor]]. cbn [In]. lia.
  - intros n I. cbn [In] in I. lia.
Qed.
Lemma tidy_before : tidy before_new_years_eve.
Proof.
  intros y. december_days y. unfold before_new_years_eve. pose proof (back_range (date_number y 12 30)). split.
  - constructor; [intros []|constructor].
  - intros n I. cbn [In] in I. lia.
Qed.
Lemma summer : forall y, date_number y 1 3 <= date_number y 7 3.
Proof.
  intros y. rewrite !date_position. change (before (leap y) 1) with 0.
  destruct (leap y); [change (before true 7) with 182|change (before false 7) with 181]; lia.
Qed.
Lemma friday_in : forall y, date_number y 1 3 <= friday_after_thanksgiving y <= date_number y 12 31.
Proof.
  intros y. unfold friday_after_thanksgiving.
  pose proof (Z.mod_pos_bound (4 - day_of_week (date_number y 11 23)) 7 ltac:(lia)) as B.
  set (j := (4 - day_of_week (date_number y 11 23)) mod 7) in *. clearbody j. rewrite !date_position. change (before (leap y) 1) with 0.
  destruct (leap y); [change (before true 12) with 335; change (before true 11) with 305|change (before false 12) with 334; change (before false 11) with 304]; lia.
Qed.
Lemma tidy_black : tidy black_fridays.
Proof.
  intros y. split; [constructor; [intros []|constructor]|]. intros n [<-|[]]. apply friday_in.
Qed.
Lemma tidy_new_york : tidy half_days.
Proof.
  intros y. split; [apply half_days_apart|]. intros n [<-|I]; [apply friday_in|]. apply filter_In in I. cbn [In] in I.
  december_days y. pose proof (summer y). pose proof (half_day_within (date_number y 7 3) y) as Q.
  assert (date_number y 7 3 <= date_number y 12 31).
  { rewrite !date_position. destruct (leap y); [change (before true 7) with 182; change (before true 12) with 335|change (before false 7) with 181; change (before false 12) with 334]; lia. }
  lia.
Qed.

Lemma last_workday : forall a n, last_until workday a n <-> n = back_to_friday a.
Proof.
  intros a n. unfold last_until, workday, back_to_friday. pose proof (dow_range a) as R.
  assert (D : forall k, day_of_week (a - k) = (day_of_week a - k) mod 7).
  { intros k. replace (a - k) with (a + - k) by lia. rewrite dow_add. f_equal. }
  assert (D1 := D 1). assert (D2 := D 2).
  assert (K : forall m, m <= a -> day_of_week m < 5 -> (forall m', m < m' <= a -> ~ day_of_week m' < 5) ->
    m = if day_of_week a =? 5 then a - 1 else if day_of_week a =? 6 then a - 2 else a).
  { intros m B W N. destruct (Z.eqb_spec (day_of_week a) 5) as [Q|Q]; [|destruct (Z.eqb_spec (day_of_week a) 6) as [Q'|Q']].
    - rewrite Q in D1. change ((5 - 1) mod 7) with 4 in D1.
      destruct (Z.eq_dec m a) as [->|]; [lia|]. destruct (Z.eq_dec m (a - 1)) as [->|]; [reflexivity|].
      exfalso. apply (N (a - 1)); lia.
    - rewrite Q' in D1, D2. change ((6 - 1) mod 7) with 5 in D1. change ((6 - 2) mod 7) with 4 in D2.
      destruct (Z.eq_dec m a) as [->|]; [lia|]. destruct (Z.eq_dec m (a - 1)) as [->|]; [lia|].
      destruct (Z.eq_dec m (a - 2)) as [->|]; [reflexivity|]. exfalso. apply (N (a - 2)); lia.
    - destruct (Z.eq_dec m a) as [->|]; [reflexivity|]. exfalso. apply (N a); lia. }
  split; [intros [B [W N]]; apply K; assumption|].
  intros ->. destruct (Z.eqb_spec (day_of_week a) 5) as [Q|Q]; [|destruct (Z.eqb_spec (day_of_week a) 6) as [Q'|Q']].
  - rewrite Q in D1. change ((5 - 1) mod 7) with 4 in D1. split; [lia|]. split; [lia|]. intros m Hm. assert (m = a) as -> by lia. lia.
  - rewrite Q' in D1, D2. change ((6 - 1) mod 7) with 5 in D1. change ((6 - 2) mod 7) with 4 in D2. split; [lia|]. split; [lia|].
    intros m Hm. destruct (Z.eq_dec m a) as [->|]; [lia|]. assert (m = a - 1) as -> by lia. lia.
  - split; [lia|]. split; [lia|]. intros m Hm. lia.
Qed.
(** The last workday up to a date late in December. *)
Lemma late_december : forall d n y, 24 <= d <= 31 -> in_year n y ->
  ((exists y', last_until workday (date_number y' 12 d) n) <-> n = back_to_friday (date_number y 12 d)).
Proof.
  intros d n y D IY. split.
  - intros [y' Q]. apply last_workday in Q. pose proof (back_range (date_number y' 12 d)) as B.
    assert (K : date_number y' 12 d = date_number y' 12 22 + (d - 22)) by (unfold date_number; lia).
    assert (y' = y) as <-; [|exact Q]. apply (same_year y y' 12 22 n 9); try lia; [|exact IY]. destruct (leap y'); cbv; discriminate.
  - intros Q. exists y. apply last_workday. exact Q.
Qed.
Lemma last_before_iff : forall d n y, 24 <= d <= 31 -> in_year n y ->
  (last_before (annual 12 d) n <-> n = back_to_friday (date_number y 12 d)).
Proof.
  intros d n y D IY. rewrite <- (late_december d n y D IY). unfold last_before, kept, before_weekend, annual. split.
  - intros [a [[y' ->] Q]]. exists y'. exact Q.
  - intros [y' Q]. exists (date_number y' 12 d). split; [exists y'; reflexivity|exact Q].
Qed.
Lemma workday_before_iff : forall d n y, 24 <= d <= 30 -> in_year n y ->
  (kept on_workday_before (annual 12 (d + 1)) n <-> n = back_to_friday (date_number y 12 d)).
Proof.
  intros d n y D IY. rewrite <- (late_december d n y ltac:(lia) IY). unfold kept, on_workday_before, annual.
  assert (K : forall y', date_number y' 12 (d + 1) - 1 = date_number y' 12 d) by (intros; unfold date_number; lia). split.
  - intros [a [[y' ->] Q]]. exists y'. rewrite <- K. exact Q.
  - intros [y' Q]. exists (date_number y' 12 (d + 1)). split; [exists y'; reflexivity|rewrite K; exact Q].
Qed.
Lemma before_new_year_iff : forall n y, in_year n y ->
  (kept on_workday_before new_years_day n <-> n = back_to_friday (date_number y 12 31)).
Proof.
  intros n y IY. rewrite <- (late_december 31 n y ltac:(lia) IY). unfold kept, on_workday_before, new_years_day, annual.
  assert (K : forall y', date_number (y' + 1) 1 1 - 1 = date_number y' 12 31).
  { intros y'. rewrite january_1, december_31, year_start_next. unfold year_days. destruct (leap y'); lia. } split.
  - intros [a [[y' ->] Q]]. exists (y' - 1). rewrite <- K. replace (y' - 1 + 1) with y' by lia. exact Q.
  - intros [y' Q]. exists (date_number (y' + 1) 1 1). split; [exists (y' + 1); reflexivity|rewrite K; exact Q].
Qed.
Lemma on_workday_iff : forall d n y, (1 <=? d) && (d <=? 31) = true -> in_year n y ->
  (on_workday (annual 12 d) n <-> n = date_number y 12 d /\ day_of_week n <= 4).
Proof.
  intros d n y D IY. unfold on_workday, on. rewrite (annual_of 12 d n y).
  - pose proof (dow_range n). unfold MONDAY, TUESDAY, WEDNESDAY, THURSDAY, FRIDAY. cbn [In]. lia.
  - rewrite andb_true_iff, !Z.leb_le in D. rewrite !andb_true_iff, !Z.leb_le. change (mlen false 12) with 31. lia.
  - exact IY.
Qed.

(** ** The rows of the table *)
Lemma keeps_none : forall place nights o (d : daily) c first, (forall n y c', first <= y -> in_year n y -> d n c' -> c' = c) ->
  keeps (Hours place (always (fst o) (snd o)) nights None d []) first o c c no_half_days.
Proof.
  intros p k o d c first Hd. constructor; cbn [opening closing lunch].
  - intros n y o' _ _ ->. destruct o. reflexivity.
  - exact Hd.
  - reflexivity.
  - intros n y c' _ _. split; [intros [hs [x [[] _]]]|intros [_ []]].
Qed.
Lemma keeps_plain : forall p k o c first,
  keeps (Hours p (always (fst o) (snd o)) k None (always (fst c) (snd c)) []) first o c c no_half_days.
Proof. intros p k o c first. apply keeps_none. intros n y c' _ _ ->. destruct c. reflexivity. Qed.
Lemma keeps_changed : forall p k o a y m d c first, 1 <= m <= 12 -> 1 <= d <= mlen false m -> y < first ->
  keeps (Hours p (always (fst o) (snd o)) k None (changed a y m d c) []) first o c c no_half_days.
Proof.
  intros p k o a y m d c first Hm Hd Lt. apply keeps_none. intros n y' c' Y IY [[B _]|[_ Q]]; [exfalso|exact Q].
  assert (V : in_year (date_number y m d) y). { apply (near_year y m d _ 0); [apply valid_any; assumption|lia|apply valid_any; [assumption|lia]]. }
  destruct V as [_ V]. destruct IY as [W _].
  destruct (Z.eq_dec (y + 1) y') as [<-|Q]; [lia|]. pose proof (year_start_mono (y + 1) y' ltac:(lia)). lia.
Qed.
Lemma keeps_early : forall p o c es h first hd,
  (forall h' hs, In (h', hs) es -> h' = h) ->
  (forall n y, first <= y -> in_year n y -> ((exists hs x, In (h, hs) es /\ In x hs /\ x n) <-> In n (hd y))) ->
  keeps (with_early p o c es) first o c h hd.
Proof.
  intros p o c es h first hd Hs Hd. constructor; cbn [with_early opening closing lunch].
  - intros n y o' _ _ ->. destruct o. reflexivity.
  - intros n y c' _ _ ->. destruct c. reflexivity.
  - reflexivity.
  - intros n y c' Y IY. rewrite <- (Hd n y Y IY). unfold early_closing. cbn [Hours.early]. split.
    + intros [hs [x [A B]]]. pose proof (Hs _ _ A) as Q. subst c'. split; [reflexivity|]. exists hs, x. split; [exact A|exact B].
    + intros [-> Q]. exact Q.
Qed.
Lemma one_entry : forall (h : clock) l (n : Z), (exists hs x, In (h, hs) [(h, l)] /\ In x hs /\ x n) <-> exists x : days, In x l /\ x n.
Proof.
  intros h l n. split.
  - intros [hs [x [[Q|[]] B]]]. injection Q as <-. exists x. exact B.
  - intros [x B]. exists l, x. split; [left; reflexivity|exact B].
Qed.
Lemma some_cons : forall (x : days) l n, (exists x', In x' (x :: l) /\ x' n) <-> x n \/ exists x', In x' l /\ x' n.
Proof.
  intros x l n. split.
  - intros [x' [[<-|I] Q]]; [left; exact Q|right; exists x'; tauto].
  - intros [Q|[x' [I Q]]]; [exists x; split; [left; reflexivity|exact Q]|exists x'; split; [right; exact I|exact Q]].
Qed.
Lemma some_nil : forall n, (exists x : days, In x [] /\ x n) <-> False.
Proof. intros n. split; [intros [x [[] _]]|intros []]. Qed.
Lemma since_true : forall a (x : days) n y, in_year n y -> a <= y -> (since a x n <-> x n).
Proof. intros a x n y IY A. unfold since. rewrite (since_year n y a IY). tauto. Qed.
Lemma through_false : forall a (x : days) n y, in_year n y -> a < y -> (through a x n <-> False).
Proof. intros a x n y IY A. unfold through. rewrite (through_year n y a IY). lia. Qed.

Ltac one_clock := let h := fresh in let hs := fresh in let I := fresh in
  intros h hs I; cbn [In] in I; repeat (destruct I as [I|I]; [injection I as <- _; reflexivity|]); destruct I.
Ltac simple_early IY Y :=
  rewrite one_entry, !some_cons, some_nil;
  rewrite ?(since_true _ _ _ _ IY) by lia; rewrite ?(through_false _ _ _ _ IY) by lia.
Ltac eves IY := unfold christmas_eve, new_years_eve;
  rewrite ?(on_workday_iff 24 _ _ eq_refl IY), ?(on_workday_iff 31 _ _ eq_refl IY), ?(last_before_iff 24 _ _ ltac:(lia) IY), ?(last_before_iff 31 _ _ ltac:(lia) IY);
  unfold workday_eves, workday_christmas_eve, last_days, before_new_years_eve, black_fridays; rewrite ?filter_In, ?Z.leb_le; cbn [In];
  lia.

Definition row_ok (r : string * Z * Z * Z * (Z -> list Z)) : Prop :=
  match r with (name, first, full, half, hd) =>
  exists H o c h, In (name, H) timetable /\ keeps H first o c h hd /\ tidy hd /\ 1950 <= first /\
    (0 <= fst h < 24 /\ 0 <= snd h < 60) /\ published_minutes H o c = full /\ published_minutes H o h = half end.
Lemma found : forall name H, List.find (fun q => String.eqb (fst q) name) timetable = Some (name, H) -> In (name, H) timetable.
Proof. intros name H Q. apply find_some in Q. exact (proj1 Q). Qed.
Ltac in_timetable := apply found; lazy [timetable List.find String.eqb Ascii.eqb Bool.eqb fst snd]; exact eq_refl.
Ltac checks := split; [lia|]; split; [cbn; lia|]; split; reflexivity.

Lemma keeps_paris : forall p, keeps (with_early p (9, 0) (17, 30) euronext_half_days) 2002 (9, 0) (17, 30) (14, 5) workday_eves.
Proof. intros p. apply keeps_early; [one_clock|]. intros n y Y IY. unfold euronext_half_days. simple_early IY Y. eves IY. Qed.
Lemma keeps_sydney : forall p o c h first, 2010 <= first ->
  keeps (with_early p o c [(h, [since 2010 (last_before christmas_eve); since 2010 (last_before new_years_eve)])]) first o c h last_days.
Proof. intros p o c h first Fi. apply keeps_early; [one_clock|]. intros n y Y IY. simple_early IY Y. eves IY. Qed.
Lemma except_true : forall a (x : days) n y, in_year n y -> a < y -> (except [a] x n <-> x n).
Proof.
  intros a x n y IY A. unfold except. split; [tauto|]. intros Q. split; [|exact Q]. intros y' [<-|[]] IY'.
  pose proof (in_year_unique n a y IY' IY). lia.
Qed.
Lemma on_workday_ext : forall (x x' : days) n, (x n <-> x' n) -> (on_workday x n <-> on_workday x' n).
Proof. intros x x' n Q. unfold on_workday, on. rewrite Q. tauto. Qed.
Lemma keeps_buenos_aires : forall p o c h,
  keeps (with_early p o c [(h, [on_workday (except [2018] christmas_eve); on_workday (except [2018] new_years_eve)])]) 2019 o c h workday_eves.
Proof.
  intros p o c h. apply keeps_early; [one_clock|]. intros n y Y IY. simple_early IY Y.
  rewrite (on_workday_ext (except [2018] christmas_eve) christmas_eve) by (apply (except_true 2018 _ n y IY); lia).
  rewrite (on_workday_ext (except [2018] new_years_eve) new_years_eve) by (apply (except_true 2018 _ n y IY); lia). eves IY.
Qed.
Lemma keeps_cboe : forall p o c h, keeps (with_early p o c [(h, [since 1993 black_friday])]) 1993 o c h black_fridays.
Proof. intros p o c h. apply keeps_early; [one_clock|]. intros n y Y IY. simple_early IY Y. rewrite (black_friday_of n y IY). eves IY. Qed.
Lemma keeps_dublin : forall p o c h,
  keeps (with_early p o c [(h, [since 2010 (last_before christmas_eve); since 2010 (last_before new_years_eve)]); (h, [date 2018 3 1])])
    2019 o c h last_days.
Proof.
  intros p o c h. apply keeps_early; [one_clock|]. intros n y Y IY.
  pose proof (k_early _ _ _ _ _ _ (keeps_sydney p o c h 2010 ltac:(lia)) n y h ltac:(lia) IY) as K.
  unfold early_closing in K. cbn [with_early Hours.early] in K. split.
  - intros [hs [x [[Q|[Q|[]]] B]]].
    + apply K. exists hs, x. split; [left; exact Q|exact B].
    + injection Q as <-. destruct B as [[<-|[]] B]. exfalso. unfold date in B. subst n.
      assert (2018 = y); [|lia]. apply (same_year y 2018 3 1 (date_number 2018 3 1) 0); try lia; [cbv; discriminate|exact IY].
  - intros I. destruct (proj2 K (conj eq_refl I)) as [hs [x [[Q|[]] B]]]. exists hs, x. split; [left; exact Q|exact B].
Qed.
Lemma keeps_frankfurt : forall p o c h,
  keeps (with_early p o c [(h, [since 2010 (kept on_workday_before new_years_eve)])]) 2010 o c h before_new_years_eve.
Proof.
  intros p o c h. apply keeps_early; [one_clock|]. intros n y Y IY. simple_early IY Y.
  change new_years_eve with (annual 12 (30 + 1)). rewrite (workday_before_iff 30 n y ltac:(lia) IY). eves IY.
Qed.
Lemma keeps_lisbon : forall p o c h,
  keeps (with_early p o c [(h, [since 2003 (on_workday christmas_eve); on_workday new_years_eve])]) 2003 o c h workday_eves.
Proof. intros p o c h. apply keeps_early; [one_clock|]. intros n y Y IY. simple_early IY Y. eves IY. Qed.
Lemma keeps_london : forall p o c, keeps (with_early p o c london_half_days) 2000 o c (12, 30) last_days.
Proof. intros p o c. apply keeps_early; [one_clock|]. intros n y Y IY. unfold london_half_days. simple_early IY Y. eves IY. Qed.
Lemma keeps_madrid : forall p o c h,
  keeps (with_early p o c [(h, [since 2012 (on_workday christmas_eve); since 2012 (on_workday new_years_eve)])]) 2012 o c h workday_eves.
Proof. intros p o c h. apply keeps_early; [one_clock|]. intros n y Y IY. simple_early IY Y. eves IY. Qed.
Lemma keeps_wellington : forall p o c h,
  keeps (with_early p o c [(h, [since 2011 (kept on_workday_before christmas); since 2011 (kept on_workday_before new_years_day)])])
    2011 o c h last_days.
Proof.
  intros p o c h. apply keeps_early; [one_clock|]. intros n y Y IY. simple_early IY Y.
  change christmas with (annual 12 (24 + 1)). rewrite (workday_before_iff 24 n y ltac:(lia) IY), (before_new_year_iff n y IY). eves IY.
Qed.
Lemma keeps_toronto : forall p o c h,
  keeps (with_early p o c [(h, [since 2010 (on_workday christmas_eve)])]) 2010 o c h workday_christmas_eve.
Proof. intros p o c h. apply keeps_early; [one_clock|]. intros n y Y IY. simple_early IY Y. eves IY. Qed.
Lemma keeps_new_york : keeps big_board 2013 (9, 30) (16, 0) (13, 0) half_days.
Proof.
  constructor.
  - intros n y o' _ _ ->. reflexivity.
  - intros n y c' _ _ ->. reflexivity.
  - reflexivity.
  - intros n y c' Y IY. exact (half_day_iff n y c' IY Y).
Qed.

(** Futures trade overnight and close early on the holidays of the stock exchange. *)
Lemma from_day_iff : forall wd s n, 0 <= wd <= 6 -> (day_of_week n = wd /\ s <= n < s + 7 <-> n = from_day wd s).
Proof.
  intros wd s n W. unfold from_day. pose proof (from_on_iff 0 (day_of_week s) wd n s eq_refl W) as Q. unfold from_on in Q.
  replace (s + 0) with s in Q by lia. rewrite Q, Z.add_0_l, Z.add_0_r. tauto.
Qed.
Lemma from_day_range : forall wd s, s <= from_day wd s < s + 7.
Proof. intros wd s. unfold from_day. pose proof (Z.mod_pos_bound (wd - day_of_week s) 7 ltac:(lia)). lia. Qed.
Lemma nth_iff : forall k wd m a n y, (1 <=? k) && (k <=? 4) && (0 <=? wd) && (wd <=? 6) && (1 <=? m) && (m <=? 12) && (a =? 7 * (k - 1) + 1) = true ->
  in_year n y -> (nth_of k wd m n <-> n = from_day wd (date_number y m a)).
Proof.
  intros k wd m a n y F IY. rewrite !andb_true_iff, !Z.leb_le, Z.eqb_eq in F. rewrite <- from_day_iff by lia. unfold nth_of.
  assert (D : forall y d, date_number y m d = date_number y m a + (d - a)) by (intros; unfold date_number; lia). split.
  - intros [y' [d [Q [W L]]]]. rewrite D in Q. assert (y' = y) as ->; [|split; [exact W|lia]].
    pose proof (mlen_range (leap y') m ltac:(lia)). apply (same_year y y' m a n 6); try lia. exact IY.
  - intros [W L]. exists y, (n - date_number y m a + a). rewrite (D y). split; [lia|]. split; [exact W|lia].
Qed.
Lemma memorial_iff : forall n y, in_year n y -> (nth_last_of 1 MONDAY 5 n <-> n = from_day 0 (date_number y 5 25)).
Proof.
  intros n y IY. rewrite <- from_day_iff by lia. unfold nth_last_of.
  assert (D : forall y d, date_number y 5 d = date_number y 5 25 + (d - 25)) by (intros; unfold date_number; lia). split.
  - intros [y' [d [Q [W L]]]]. change (month_length y' 5) with 31 in L. rewrite D in Q. assert (y' = y) as ->; [|split; [exact W|lia]].
    apply (same_year y y' 5 25 n 6); try lia; [destruct (leap y'); cbv; discriminate|exact IY].
  - intros [W L]. exists y, (n - date_number y 5 25 + 25). change (month_length y 5) with 31. rewrite (D y). split; [lia|]. split; [exact W|lia].
Qed.
Lemma fourth_iff : forall n y, in_year n y -> (kept_4_july n <-> n = closest_to (date_number y 7 4)).
Proof.
  intros n y IY. unfold kept_4_july, kept, annual. split.
  - intros [a [[y' ->] Q]]. apply closest_iff in Q. fold (closest_to (date_number y' 7 4)) in Q.
    assert (B : date_number y' 7 3 <= n <= date_number y' 7 3 + 2).
    { assert (date_number y' 7 4 = date_number y' 7 3 + 1) by (unfold date_number; lia). unfold closest_to in Q.
      destruct (day_of_week (date_number y' 7 4) =? 5), (day_of_week (date_number y' 7 4) =? 6); lia. }
    assert (y' = y) as <-; [|exact Q]. apply (same_year y y' 7 3 n 2); try lia; [destruct (leap y'); cbv; discriminate|exact IY].
  - intros Q. exists (date_number y 7 4). split; [exists y; reflexivity|]. apply closest_iff. exact Q.
Qed.
Lemma american_iff : forall n y, 1998 <= y -> in_year n y -> ((exists x : days, In x american_half_days /\ x n) <-> In n (american_holidays y)).
Proof.
  intros n y Y IY. unfold american_half_days. rewrite !some_cons, some_nil. rewrite !(since_true _ _ _ _ IY) by lia.
  rewrite (nth_iff 3 MONDAY 1 15 n y eq_refl IY), (nth_iff 3 MONDAY 2 15 n y eq_refl IY), (memorial_iff n y IY),
    (nth_iff 1 MONDAY 9 1 n y eq_refl IY), (fourth_iff n y IY). unfold thanksgiving. rewrite (nth_iff 4 THURSDAY 11 22 n y eq_refl IY).
  unfold american_holidays, MONDAY, THURSDAY. cbn [In]. lia.
Qed.
Lemma keeps_overnight : forall p o c es h first hd,
  (forall h' hs, In (h', hs) es -> h' = h) ->
  (forall n y, first <= y -> in_year n y -> ((exists hs x, In (h, hs) es /\ In x hs /\ x n) <-> In n (hd y))) ->
  keeps (overnight p o c es) first o c h hd.
Proof.
  intros p o c es h first hd Hs Hd. pose proof (keeps_early p o c es h first hd Hs Hd) as K. constructor; apply K.
Qed.
Lemma keeps_ice : forall p o c h, keeps (overnight p o c [(h, american_half_days)]) 1998 o c h american_holidays.
Proof. intros p o c h. apply keeps_overnight; [one_clock|]. intros n y Y IY. rewrite one_entry. apply american_iff; assumption. Qed.
Lemma some_app : forall (l l' : list days) n, (exists x, In x (l ++ l') /\ x n) <-> (exists x, In x l /\ x n) \/ exists x, In x l' /\ x n.
Proof.
  intros l l' n. split.
  - intros [x [I Q]]. apply in_app_iff in I. destruct I as [I|I]; [left|right]; exists x; tauto.
  - intros [[x [I Q]]|[x [I Q]]]; exists x; rewrite in_app_iff; tauto.
Qed.
Lemma keeps_chicago : forall p o c h,
  keeps (overnight p o c [(h, (american_half_days ++ christmas_half_days)%list)]) 1998 o c h futures_half_days.
Proof.
  intros p o c h. apply keeps_overnight; [one_clock|]. intros n y Y IY. rewrite one_entry, some_app, (american_iff n y Y IY).
  unfold christmas_half_days, futures_half_days. rewrite !some_cons, some_nil, in_app_iff. cbn [In]. rewrite filter_In.
  rewrite !(since_true _ _ _ _ IY) by lia. rewrite (through_false _ _ _ _ IY) by lia. rewrite (black_friday_of n y IY).
  unfold on, christmas_eve. rewrite (annual_of 12 24 n y eq_refl IY). pose proof (dow_range n).
  unfold MONDAY, TUESDAY, WEDNESDAY, THURSDAY. cbn [In]. rewrite Z.leb_le.
  assert (E : (0 = day_of_week n \/ 1 = day_of_week n \/ 2 = day_of_week n \/ 3 = day_of_week n \/ False) <-> day_of_week n <= 3) by lia.
  rewrite E. assert (F : forall a : Z, n = a <-> a = n) by (intros; split; intros Q; symmetry; exact Q).
  rewrite (F (friday_after_thanksgiving y)), (F (date_number y 12 24)). tauto.
Qed.
Lemma months : forall y, let s := date_number y 1 1 in let k := if leap y then 1 else 0 in
  date_number y 1 3 = s + 2 /\ date_number y 1 15 = s + 14 /\ date_number y 2 15 = s + 45 /\ date_number y 5 25 = s + 144 + k /\
  date_number y 7 4 = s + 184 + k /\ date_number y 9 1 = s + 243 + k /\ date_number y 11 22 = s + 325 + k /\
  date_number y 11 23 = s + 326 + k /\ date_number y 12 24 = s + 357 + k /\ date_number y 12 31 = s + 364 + k.
Proof. intros y. cbv zeta. rewrite !date_position. 
  destruct (leap y); [change (before true 1) with 0; change (before true 2) with 31; change (before true 5) with 121; change (before true 7) with 182; change (before true 9) with 244; change (before true 11) with 305; change (before true 12) with 335|change (before false 1) with 0; change (before false 2) with 31; change (before false 5) with 120; change (before false 7) with 181; change (before false 9) with 243; change (before false 11) with 304; change (before false 12) with 334]; lia. Qed.
Lemma closest_range : forall n, n - 1 <= closest_to n <= n + 1.
Proof. intros n. unfold closest_to. destruct (day_of_week n =? 5), (day_of_week n =? 6); lia. Qed.

Lemma apart_sorted : forall l, Sorted Z.lt l -> NoDup l.
Proof. intros l S. apply SSorted_lt_NoDup. apply Sorted_StronglySorted; [intros x y w; lia|exact S]. Qed.
Lemma tidy_american : tidy american_holidays.
Proof.
  intros y. destruct (months y) as [A1 [A2 [A3 [A4 [A5 [A6 [A7 [A8 [A9 A10]]]]]]]]]. cbv zeta in *.
  pose proof (from_day_range 0 (date_number y 1 15)). pose proof (from_day_range 0 (date_number y 2 15)).
  pose proof (from_day_range 0 (date_number y 5 25)). pose proof (closest_range (date_number y 7 4)).
  pose proof (from_day_range 0 (date_number y 9 1)). pose proof (from_day_range 3 (date_number y 11 22)).
  unfold american_holidays. split.
  - apply apart_sorted. repeat constructor; destruct (leap y); lia.
  - intros n I. cbn [In] in I. destruct (leap y); lia.
Qed.
Lemma tidy_futures : tidy futures_half_days.
Proof.
  intros y. destruct (tidy_american y) as [T1 T2]. unfold futures_half_days.
  destruct (months y) as [A1 [A2 [A3 [A4 [A5 [A6 [A7 [A8 [A9 A10]]]]]]]]]. cbv zeta in *.
  pose proof (from_day_range 0 (date_number y 1 15)). pose proof (from_day_range 0 (date_number y 2 15)).
  pose proof (from_day_range 0 (date_number y 5 25)). pose proof (closest_range (date_number y 7 4)).
  pose proof (from_day_range 0 (date_number y 9 1)). pose proof (from_day_range 3 (date_number y 11 22)) as Th.
  assert (F : friday_after_thanksgiving y = from_day 3 (date_number y 11 22) + 1).
  { pose proof (proj2 (from_day_iff 3 (date_number y 11 22) _ ltac:(lia)) eq_refl) as [W _].
    assert (Q : friday_after_thanksgiving y = from_day 4 (date_number y 11 23)) by reflexivity.
    rewrite Q. symmetry. apply from_day_iff; [lia|]. rewrite dow_add, W. split; [reflexivity|]. lia. }
  split.
  - apply apart; [exact T1| |].
    + constructor; [|apply NoDup_filter; constructor; [intros []|constructor]]. rewrite filter_In. cbn [In]. destruct (leap y); lia.
    + intros n I J. unfold american_holidays in I. cbn [In] in I, J. rewrite filter_In in J. cbn [In] in J. destruct (leap y); lia.
  - intros n I. apply in_app_iff in I. destruct I as [I|I]; [apply T2; exact I|]. cbn [In] in I. rewrite filter_In in I. cbn [In] in I.
    destruct (leap y); lia.
Qed.

Ltac hours_of nm k :=
  let r := eval lazy [timetable List.find String.eqb Ascii.eqb Bool.eqb fst snd] in (List.find (fun q => String.eqb (fst q) nm) timetable) in
  match r with Some (_, ?H) => k H end.
Lemma rows_kept : Forall row_ok yearly.
Proof.
  unfold yearly. repeat (apply Forall_cons || apply Forall_nil); unfold row_ok.
  all: match goal with |- exists H _ _ _, In (?nm, H) timetable /\ _ => hours_of nm ltac:(fun H => match H with
    | plain ?p ?o ?c => exists H, o, c, c; split; [in_timetable|]; split; [exact (keeps_plain p 0 o c _)|]
    | overnight ?p ?o ?c (_ :: _) => exists H, o, c; eexists; split; [in_timetable|]; split; [first [apply keeps_ice | apply keeps_chicago]|]
    | overnight ?p ?o ?c _ => exists H, o, c, c; split; [in_timetable|]; split; [exact (keeps_plain p 1 o c _)|]
    | Hours ?p (always ?x ?m) _ _ (changed _ _ _ _ ?c) _ => exists H, (x, m), c, c; split; [in_timetable|]; split;
        [apply (keeps_changed p 0 (x, m)); [lia|cbv; split; discriminate|lia]|]
    | with_early _ ?o ?c _ => exists H, o, c; eexists; split; [in_timetable|]; split; [first
        [ apply keeps_paris | apply keeps_sydney; lia | apply keeps_buenos_aires | apply keeps_cboe | apply keeps_dublin
        | apply keeps_frankfurt | apply keeps_lisbon | apply keeps_london | apply keeps_madrid | apply keeps_wellington
        | apply keeps_toronto | exact keeps_new_york ]|] end) end.
  all: split; [first [exact tidy_none | exact tidy_workday_eves | exact tidy_christmas | exact tidy_last | exact tidy_before
    | exact tidy_black | exact tidy_new_york | exact tidy_american | exact tidy_futures]|].
  all: checks.
Qed.

(** ** C101 *)

(** The early closes of a year are the half days of the table. *)
Theorem c101_half_days : forall name first full half hd E z start stop b y n,
  In (name, first, full, half, hd) yearly -> In (name, E) exchanges -> In (ex_tz E, z) zones ->
  not_a_time + 2 * one_day < start -> is_midnight start -> build_exchange E z start stop = Ok b ->
  start <= first_of y -> last_of y + 2 * one_day <= stop -> first <= y -> in_year n y ->
  (In (at_midnight_of n) (early_closes b) <-> In n (hd y)).
Proof.
  intros name first full half hd E z start stop b y n I HE Hz Hrep M Hb L R Y IY.
  pose proof (proj1 (Forall_forall _ _) rows_kept _ I) as K. cbn beta iota delta [row_ok] in K.
  destruct K as [H [o [c [h [HH [Hk [Ht [F0 [Hh [Ef Eh]]]]]]]]]].
  exact (listed_early name E H first o c h hd z start stop b y HE HH Hk Ht Hz Hrep M Hb L R F0 Y Hh n IY).
Qed.

(** A half day is a session; it and every other session of the year have the minutes
    that the table says. *)
Theorem c101_session : forall name first full half hd E z start stop b y n,
  In (name, first, full, half, hd) yearly -> In (name, E) exchanges -> In (ex_tz E, z) zones ->
  not_a_time + 2 * one_day < start -> is_midnight start -> build_exchange E z start stop = Ok b ->
  start <= first_of y -> last_of y + 2 * one_day <= stop -> first <= y -> in_year n y ->
  (In n (hd y) -> is_session (cal b) (at_midnight_of n) = true) /\
  (is_session (cal b) (at_midnight_of n) = true ->
   exists l, minutes_for_session (cal b) (at_midnight_of n) = Ok l /\
     (In n (hd y) -> Z.of_nat (length l) = half) /\ (~ In n (hd y) -> Z.of_nat (length l) = full)).
Proof.
  intros name first full half hd E z start stop b y n I HE Hz Hrep M Hb L R Y IY.
  pose proof (proj1 (Forall_forall _ _) rows_kept _ I) as K. cbn beta iota delta [row_ok] in K.
  destruct K as [H [o [c [h [HH [Hk [Ht [F0 [Hh [Ef Eh]]]]]]]]]]. split.
  - intros J. exact (proj1 (half_closing name E H first o c h hd z start stop b y HE HH Hk Ht Hz Hrep M Hb L R F0 Y Hh n J)).
  - intros S. destruct (c52_rows name E z start stop b HE (zone_good name E z HE Hz) Hrep M Hb) as [ss [A [W [C _]]]].
    pose proof (covers start stop y L R n IY) as G.
    assert (T : trades name E n) by (apply (proj2 (c51_sessions name E z start stop b HE M Hb)); [exact G|exact S]).
    destruct (proj2 (C (at_midnight_of n)) (ex_intro _ n (conj eq_refl (conj G T)))) as [s [Hs Es]]. symmetry in Es.
    destruct (minutes_of_row name E H first o c h hd z start stop b y HE HH Hk Ht Hz Hrep M Hb L R F0 Y Hh ss s n IY W A Hs Es S) as [_ Q].
    exists (sm s). split; [rewrite <- Es; exact (minutes_for_session_sm (cal b) ss W A s Hs)|].
    change (zlen (sm s)) with (Z.of_nat (length (sm s))) in Q. rewrite Q.
    destruct (in_dec Z.eq_dec n (hd y)); split; intros; try contradiction; assumption.
Qed.

(** The minutes of a year: those of a session for each session, less what the half
    days are shorter. *)
Theorem c101_minutes : forall name first full half hd E z start stop b y,
  In (name, first, full, half, hd) yearly -> In (name, E) exchanges -> In (ex_tz E, z) zones ->
  not_a_time + 2 * one_day < start -> is_midnight start -> build_exchange E z start stop = Ok b ->
  start <= first_of y -> last_of y + 2 * one_day <= stop -> first <= y ->
  minutes_count_for_sessions_in_range (cal b) (first_of y) (last_of y) =
  full * Z.of_nat (length (sessions_in_range (cal b) (first_of y) (last_of y))) - (full - half) * Z.of_nat (length (hd y)).
Proof.
  intros name first full half hd E z start stop b y I HE Hz Hrep M Hb L R Y.
  pose proof (proj1 (Forall_forall _ _) rows_kept _ I) as K. cbn beta iota delta [row_ok] in K.
  destruct K as [H [o [c [h [HH [Hk [Ht [F0 [Hh [Ef Eh]]]]]]]]]]. rewrite <- Ef, <- Eh.
  exact (count_minutes name E H first o c h hd z start stop b y HE HH Hk Ht Hz Hrep M Hb L R F0 Y Hh).
Qed.

(** A calendar must reach beyond the year: one of London that ends on 31 December 2024
    does not know that this day closes early. *)
Lemma london_here : In ("XLON"%string, with_early "Europe/London" (8, 0) (16, 30) london_half_days) timetable.
Proof. in_timetable. Qed.
Lemma london_built : forall stop, at_midnight_of (date_number 1990 1 11) <= stop -> exists z b,
  In ("Europe/London"%string, z) zones /\
  build_exchange exchange_calendar_xlon.calendar z (at_midnight_of (date_number 1990 1 1)) stop = Ok b.
Proof.
  intros stop Hs. destruct (c53_default_range 1990 "XLON" _ stop (or_introl eq_refl) xlon_here) as [z [b [ss [Hz [Hb _]]]]].
  - discriminate.
  - exact Hs.
  - intros n I. exfalso. exact I.
  - exists z, b. split; [exact Hz|exact Hb].
Qed.
Lemma since_1990 : not_a_time + 2 * one_day < at_midnight_of (date_number 1990 1 1).
Proof. apply since_1950. apply at_midnight_le. apply Z.leb_le. vm_compute. reflexivity. Qed.
Theorem c101_half_days_refuted : exists z b, In ("Europe/London"%string, z) zones /\
  build_exchange exchange_calendar_xlon.calendar z (at_midnight_of (date_number 1990 1 1)) (last_of 2024) = Ok b /\
  In (date_number 2024 12 31) (last_days 2024) /\ ~ In (last_of 2024) (early_closes b).
Proof.
  destruct (london_built (last_of 2024)) as [z [b [Hz Hb]]].
  { apply at_midnight_le. apply Z.leb_le. vm_compute. reflexivity. }
  exists z, b. split; [exact Hz|]. split; [exact Hb|]. split; [vm_compute; tauto|]. intros I.
  assert (M : is_midnight (at_midnight_of (date_number 1990 1 1))) by (apply is_midnight_at; eauto).
  apply (c59_early_closes _ _ _ z _ _ b xlon_here london_here (zone_good _ _ z xlon_here Hz) since_1990 M Hb) in I.
  destruct I as [n [c [u [Q [_ [EC [U [_ B]]]]]]]]. apply at_midnight_inj in Q. subst n.
  assert (IY : in_year (date_number 2024 12 31) 2024) by (vm_compute; split; [discriminate|reflexivity]).
  apply (k_early _ _ _ _ _ _ (keeps_london "Europe/London" (8, 0) (16, 30)) _ 2024 c ltac:(lia) IY) in EC. destruct EC as [-> _].
  assert (V : instant_of z (local_time (at_midnight_of (date_number 2024 12 31)) 0 (time_of (12, 30)))
    (at_midnight_of (date_number 2024 12 31) + 750 * one_minute)).
  { apply (shown "Europe/London"); [vm_compute; reflexivity|exact Hz]. }
  destruct U as [U _]. destruct V as [_ V]. rewrite (V u U) in B. unfold last_of in B.
  pose proof one_minute_pos. lia.
Qed.

(** London in 2024: 254 sessions, two of them half days. *)
Example c101_ex : exists z b, In ("Europe/London"%string, z) zones /\
  build_exchange exchange_calendar_xlon.calendar z (at_midnight_of (date_number 1990 1 1)) (last_of 2025) = Ok b /\
  last_days 2024 = [date_number 2024 12 24; date_number 2024 12 31] /\
  minutes_count_for_sessions_in_range (cal b) (first_of 2024) (last_of 2024) = 510 * 254 - 2 * 240.
Proof.
  destruct (london_built (last_of 2025)) as [z [b [Hz Hb]]].
  { apply at_midnight_le. apply Z.leb_le. vm_compute. reflexivity. }
  exists z, b. split; [exact Hz|]. split; [exact Hb|]. split; [vm_compute; reflexivity|].
  assert (M : is_midnight (at_midnight_of (date_number 1990 1 1))) by (apply is_midnight_at; eauto).
  assert (L : at_midnight_of (date_number 1990 1 1) <= first_of 2024) by (apply at_midnight_le; apply Z.leb_le; vm_compute; reflexivity).
  assert (R : last_of 2024 + 2 * one_day <= last_of 2025).
  { unfold last_of, at_midnight_of. assert (date_number 2025 12 31 = date_number 2024 12 31 + 365) as -> by (vm_compute; reflexivity).
    pose proof one_day_pos. lia. }
  assert (R' : last_of 2024 <= last_of 2025) by (pose proof one_day_pos; lia).
  assert (I : In ("XLON"%string, 2000, 510, 270, last_days) yearly) by (unfold yearly; repeat (first [left; reflexivity | right])).
  rewrite (c101_minutes _ _ _ _ _ _ z _ _ b 2024 I xlon_here Hz since_1990 M Hb L R ltac:(lia)).
  assert (J : In ("XLON"%string, 2021, (252, 2022), (254, 2024)) per_year) by (unfold per_year; repeat (first [left; reflexivity | right])).
  destruct (c98_attained _ _ _ _ _ _ _ z _ _ b J xlon_here M Hb) as [_ N]. rewrite (N L R'). reflexivity.
Qed.

(** ** Assumptions *)
Print Assumptions c101_half_days.
Print Assumptions c101_session.
Print Assumptions c101_minutes.
Print Assumptions c101_half_days_refuted.
