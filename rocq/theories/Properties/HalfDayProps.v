(** The half days of New York and the minutes of a year (C100). *)
From Coq Require Import ZArith String List Bool Lia Sorting.Sorted Sorting.Permutation Logic.FinFun.
From Verif.Model Require Import Base Dates Zone Queries Build Holidays Exchange.
From Verif.Spec Require Import Schedule Construction Civil Rules Feasts Venue Almanac Hours Duration PerYear HalfDays.
From Verif.Proofs Require Import BaseLemmas DatesLemmas ScheduleLemmas QueryLemmas QueryLemmas2 BuildLemmas RuleLemmas
  AlmanacLemmas VenueLemmas HoursRules PerYearLemmas.
From Verif.Properties Require Import QueryProps ExchangeProps HoursProps MarketProps LengthProps PerYearProps.
From Verif.Exchanges Require Import All zones.
Import ListNotations.
Open Scope Z_scope.

(** ** The published half days of a year *)
Definition big_board : hours := with_early "America/New_York" (9, 30) (16, 0) new_york_half_days.
Lemma big_board_here : In ("XNYS"%string, big_board) timetable.
Proof. unfold timetable, big_board. repeat (first [left; reflexivity | right]). Qed.

Lemma annual_of : forall m d n y, (1 <=? m) && (m <=? 12) && (1 <=? d) && (d <=? mlen false m) = true -> in_year n y ->
  (annual m d n <-> n = date_number y m d).
Proof.
  intros m d n y F Y. rewrite !andb_true_iff, !Z.leb_le in F. split.
  - intros [y' E]. pose proof (mlen_range (leap y') m ltac:(lia)) as R.
    assert (y' = y) as <-. { apply (same_year y y' m d n 0); try lia. exact Y. } exact E.
  - intros E. exists y. exact E.
Qed.

Lemma black_friday_of : forall n y, in_year n y -> (black_friday n <-> n = friday_after_thanksgiving y).
Proof.
  intros n y Y. unfold black_friday, kept, days_later, thanksgiving, nth_of, friday_after_thanksgiving.
  assert (D : forall y d, date_number y 11 d = date_number y 11 23 + (d - 23)) by (intros; unfold date_number; lia).
  assert (F : forall s n, day_of_week n = 4 /\ s <= n < s + 7 <-> n = s + (4 - day_of_week s) mod 7).
  { intros s m. pose proof (from_on_iff 0 (day_of_week s) 4 m s eq_refl ltac:(lia)) as Q. unfold from_on in Q.
    replace (s + 0) with s in Q by lia. rewrite Q, Z.add_0_l, Z.add_0_r. tauto. }
  split.
  - intros [a [[y' [d [E [W L]]]] ->]]. rewrite D in E.
    assert (y' = y) as ->. { apply (same_year y y' 11 23 (a + 1) 6); try lia; [|exact Y]. destruct (leap y'); cbv; discriminate. }
    apply F. rewrite dow_add, W. split; [reflexivity|]. lia.
  - intros E. apply F in E. destruct E as [W L]. exists (n - 1). split; [|lia].
    exists y, (n - 1 - date_number y 11 23 + 23). rewrite (D y). split; [lia|]. split; [|lia].
    change (n - 1) with (n + -1). rewrite dow_add, W. reflexivity.
Qed.

Lemma half_day_iff : forall n y c, in_year n y -> 2013 <= y ->
  (early_closing big_board n c <-> c = (13, 0) /\ In n (half_days y)).
Proof.
  intros n y c Y L.
  assert (S : forall Y0, Y0 <= 2013 -> date_number Y0 1 1 <= n) by (intros; apply (since_year n y Y0 Y); lia).
  assert (T : forall Y0, Y0 <= 2012 -> ~ n <= date_number Y0 12 31).
  { intros Y0 H C. apply (through_year n y Y0 Y) in C. lia. }
  assert (T' : forall Y0 m d, 1 <= m <= 12 -> 1 <= d <= mlen false m -> Y0 <= 2012 -> n <> date_number Y0 m d).
  { intros Y0 m d M D H ->. assert (Y0 = y); [|lia]. apply (same_year y Y0 m d (date_number Y0 m d) 0); try lia; [|exact Y].
    pose proof (mlen_range (leap Y0) m M). lia. }
  pose proof (dow_range n) as R.
  unfold half_days. cbn [In]. rewrite filter_In, Z.leb_le. cbn [In].
  pose proof (annual_of 7 3 n y eq_refl Y) as A1. pose proof (annual_of 12 24 n y eq_refl Y) as A2.
  pose proof (black_friday_of n y Y) as A3. split.
  - intros [hs [h [I [J K]]]]. cbn [early big_board with_early new_york_half_days In] in I.
    destruct I as [I|[I|[I|[]]]]; injection I as <- <-; cbn [In] in J.
    + split; [reflexivity|]. destruct J as [<-|[<-|[<-|[<-|[<-|[]]]]]].
      * destruct K as [_ [W K]]. apply A1 in K. unfold MONDAY, TUESDAY, THURSDAY in W. cbn [In] in W. right. split; [left; symmetry; exact K|lia].
      * destruct K as [_ [K _]]. exfalso. exact (T 2012 ltac:(lia) K).
      * destruct K as [_ [W K]]. apply A1 in K. unfold WEDNESDAY in W. cbn [In] in W. right. split; [left; symmetry; exact K|lia].
      * destruct K as [_ K]. apply A3 in K. left. symmetry. exact K.
      * destruct K as [_ [W K]]. apply A2 in K. unfold MONDAY, TUESDAY, WEDNESDAY, THURSDAY in W. cbn [In] in W.
        right. split; [right; left; symmetry; exact K|lia].
    + exfalso. destruct J as [<-|[<-|[]]].
      * destruct K as [K _]. exact (T 1992 ltac:(lia) K).
      * destruct K as [_ [K _]]. exact (T 1992 ltac:(lia) K).
    + exfalso. destruct J as [<-|[<-|[<-|[]]]]; revert K; apply T'; (lia || (cbv; split; discriminate)).
  - intros [-> [K|[[K|[K|[]]] W]]].
    + exists [since 1995 (on [MONDAY; TUESDAY; THURSDAY] (annual 7 3));
              between 1995 2012 (on [FRIDAY] (annual 7 5));
              since 2013 (on [WEDNESDAY] (annual 7 3));
              since 1993 black_friday;
              since 1993 (on [MONDAY; TUESDAY; WEDNESDAY; THURSDAY] christmas_eve)], (since 1993 black_friday).
      split; [left; reflexivity|]. split; [do 3 right; left; reflexivity|]. split; [apply S; lia|]. apply A3. symmetry. exact K.
    + destruct (Z.eq_dec (day_of_week n) 2) as [Q|Q].
      * eexists _, (since 2013 (on [WEDNESDAY] (annual 7 3))). split; [left; reflexivity|].
        split; [do 2 right; left; reflexivity|]. split; [apply S; lia|]. split; [left; symmetry; exact Q|]. apply A1. symmetry. exact K.
      * eexists _, (since 1995 (on [MONDAY; TUESDAY; THURSDAY] (annual 7 3))). split; [left; reflexivity|].
        split; [left; reflexivity|]. split; [apply S; lia|]. split; [|apply A1; symmetry; exact K].
        unfold MONDAY, TUESDAY, THURSDAY. cbn [In]. lia.
    + eexists _, (since 1993 (on [MONDAY; TUESDAY; WEDNESDAY; THURSDAY] christmas_eve)). split; [left; reflexivity|].
      split; [do 4 right; left; reflexivity|]. split; [apply S; lia|]. split; [|apply A2; symmetry; exact K].
      unfold MONDAY, TUESDAY, WEDNESDAY, THURSDAY. cbn [In]. lia.
Qed.

Lemma half_day_within : forall n y, In n (half_days y) -> date_number y 1 1 <= n /\ n + 1 <= date_number y 12 31.
Proof.
  intros n y I. unfold half_days, friday_after_thanksgiving in I. cbn [In] in I. rewrite filter_In in I. cbn [In] in I.
  pose proof (Z.mod_pos_bound (4 - day_of_week (date_number y 11 23)) 7 ltac:(lia)) as B.
  rewrite !date_position in *. change (before (leap y) 1) with 0.
  assert (P : before (leap y) 7 = 181 + (if leap y then 1 else 0) /\ before (leap y) 11 = 304 + (if leap y then 1 else 0) /\
    before (leap y) 12 = 334 + (if leap y then 1 else 0)) by (destruct (leap y); repeat split).
  destruct P as [P1 [P2 P3]]. rewrite P1, P2, P3 in *. destruct (leap y); lia.
Qed.
Lemma year_days_iff : forall n y, in_year n y <-> date_number y 1 1 <= n <= date_number y 12 31.
Proof.
  intros n y. rewrite january_1, december_31. unfold in_year. rewrite year_start_next. unfold year_days. destruct (leap y); lia.
Qed.
Lemma half_days_apart : forall y, NoDup (half_days y).
Proof.
  intros y. unfold half_days, friday_after_thanksgiving.
  pose proof (Z.mod_pos_bound (4 - day_of_week (date_number y 11 23)) 7 ltac:(lia)) as B.
  assert (Q : forall d, date_number y 7 d = date_number y 11 23 - 145 + (d - 1)).
  { intros d. rewrite !date_position. destruct (leap y); [change (before true 7) with 182; change (before true 11) with 305|change (before false 7) with 181; change (before false 11) with 304]; lia. }
  assert (Q' : forall d, date_number y 12 d = date_number y 11 23 + 8 + (d - 1)).
  { intros d. rewrite !date_position. destruct (leap y); [change (before true 12) with 335; change (before true 11) with 305|change (before false 12) with 334; change (before false 11) with 304]; lia. }
  constructor.
  - rewrite filter_In. cbn [In]. rewrite Q, Q'. lia.
  - apply NoDup_filter. constructor; [|constructor; [intros []|constructor]]. cbn [In]. rewrite Q, Q'. lia.
Qed.

(** ** The calendar of New York *)
Lemma one_o_clock : In (0, time_of (13, 0)) (clock_times exchange_calendar_xnys.calendar) /\
  In (time_of (13, 0)) (listed_times exchange_calendar_xnys.calendar).
Proof. split; vm_compute; tauto. Qed.

Section Calendar.
Variables (z : zone) (start stop : Z) (b : built) (y : Z).
Hypothesis Hz : In ("America/New_York"%string, z) zones.
Hypothesis Hrep : not_a_time + 2 * one_day < start.
Hypothesis M : is_midnight start.
Hypothesis Hb : build_exchange exchange_calendar_xnys.calendar z start stop = Ok b.
Hypothesis L : start <= first_of y.
Hypothesis R : last_of y <= stop.

Lemma good_new_york : good_zone z.
Proof. destruct (clocks_1950 _ _ z xnys_here Hz) as [lo [[G _] _]]. exact G. Qed.
Lemma covered : forall n, in_year n y -> start <= at_midnight_of n <= stop.
Proof.
  intros n Y. apply year_days_iff in Y. unfold first_of, last_of in *.
  pose proof (proj2 (at_midnight_le _ _) (proj1 Y)). pose proof (proj2 (at_midnight_le _ _) (proj2 Y)). lia.
Qed.
Lemma after_1950 : forall n, 2013 <= y -> in_year n y -> date_number 1950 1 1 <= n.
Proof. intros n Y I. apply (since_year n y 1950 I). lia. Qed.
Lemma half_moment : forall n, 2013 <= y -> In n (half_days y) ->
  exists u, instant_of z (local_time (at_midnight_of n) 0 (time_of (13, 0))) u /\ start <= u <= stop.
Proof.
  intros n Y I. destruct (clocks_1950 _ _ z xnys_here Hz) as [lo [[_ [K1 [K2 _]]] Lo]].
  destruct (half_day_within n y I) as [B1 B2]. assert (IY : in_year n y) by (apply year_days_iff; lia).
  pose proof (after_1950 n Y IY) as N. destruct one_o_clock as [O1 O2].
  destruct (K1 0 (time_of (13, 0)) n O1 ltac:(lia)) as [u U]. exists u. split; [exact U|].
  pose proof (K2 (time_of (13, 0)) n u O2 ltac:(lia) U) as V. pose proof (covered n IY).
  pose proof (proj2 (at_midnight_le _ _) B2) as W. unfold last_of in R. lia.
Qed.

Lemma half_close : forall n, 2013 <= y -> In n (half_days y) ->
  is_session (cal b) (at_midnight_of n) = true /\ In (at_midnight_of n) (early_closes b) /\
  exists u, instant_of z (local_time (at_midnight_of n) 0 (time_of (13, 0))) u /\
    session_close (cal b) (at_midnight_of n) = Ok u /\ session_break_start (cal b) (at_midnight_of n) = Ok None.
Proof.
  intros n Y I. destruct (half_moment n Y I) as [u [U V]].
  destruct (half_day_within n y I) as [B1 B2]. assert (IY : in_year n y) by (apply year_days_iff; lia).
  assert (EC : early_closing big_board n (13, 0)) by (apply (half_day_iff n y); [exact IY|exact Y|split; [reflexivity|exact I]]).
  destruct (c59_early_close _ _ _ z start stop b n (13, 0) u xnys_here big_board_here good_new_york Hrep M Hb (covered n IY) EC U V)
    as [S [C [D _]]].
  split; [exact S|]. split.
  - apply (c59_early_closes _ _ _ z start stop b xnys_here big_board_here good_new_york Hrep M Hb).
    exists n, (13, 0), u. split; [reflexivity|]. split; [exact (covered n IY)|]. split; [exact EC|]. split; [exact U|exact V].
  - exists u. split; [exact U|]. split; [exact C|exact D].
Qed.

Lemma early_listed : forall n, 2013 <= y -> in_year n y -> (In (at_midnight_of n) (early_closes b) <-> In n (half_days y)).
Proof.
  intros n Y IY. split.
  - intros I. apply (c59_early_closes _ _ _ z start stop b xnys_here big_board_here good_new_york Hrep M Hb) in I.
    destruct I as [n' [c [u [E [_ [EC _]]]]]]. apply at_midnight_inj in E. subst n'.
    apply (half_day_iff n y c IY Y) in EC. apply EC.
  - intros I. exact (proj1 (proj2 (half_close n Y I))).
Qed.

Lemma session_length : forall n, 2013 <= y -> in_year n y -> is_session (cal b) (at_midnight_of n) = true ->
  session_break_start (cal b) (at_midnight_of n) = Ok None /\
  exists u v, session_open (cal b) (at_midnight_of n) = Ok u /\ session_close (cal b) (at_midnight_of n) = Ok v /\
    v - u + one_minute = (if in_dec Z.eq_dec n (half_days y) then 210 else 390) * one_minute.
Proof.
  intros n Y IY S.
  destruct (c90_length _ _ _ z start stop b n xnys_here big_board_here Hz (after_1950 n Y IY) Hrep M Hb (covered n IY) S)
    as [o [c [u [v [O [C [Q1 [Q2 D]]]]]]]].
  change (o = (9, 30)) in O. subst o. change (c = (16, 0) \/ early_closing big_board n c) in C.
  destruct (in_dec Z.eq_dec n (half_days y)) as [I|I].
  - destruct (half_close n Y I) as [_ [_ [u' [U [P1 P2]]]]]. split; [exact P2|]. exists u, v. split; [exact Q1|]. split; [exact Q2|].
    destruct (c58_opening _ _ _ z start stop b n xnys_here big_board_here good_new_york Hrep M Hb (covered n IY) S)
      as [o [w [O [W P3]]]]. change (o = (9, 30)) in O. subst o.
    assert (T : trades "XNYS" exchange_calendar_xnys.calendar n)
      by (apply (proj2 (c51_sessions _ _ z start stop b xnys_here M Hb)); [exact (covered n IY)|exact S]).
    assert (W' : In (0, minute_after (9, 30)) (clock_times exchange_calendar_xnys.calendar)) by (vm_compute; tauto).
    pose proof (c90_steady _ _ z n 0 (minute_after (9, 30)) 0 (time_of (13, 0)) w u' xnys_here Hz (after_1950 n Y IY) T
      W' (proj1 one_o_clock) W U) as E.
    rewrite Q1 in P3. injection P3 as <-. rewrite Q2 in P1. injection P1 as <-.
    rewrite E. unfold local_time. change one_minute with (60 * 10 ^ 9). cbn [time_of minute_after hour minute second fst snd Z.eqb Pos.eqb]. lia.
  - assert (NE : forall c, ~ early_closing big_board n c) by (intros c' H; apply (half_day_iff n y c' IY Y) in H; tauto).
    split.
    + exact (proj1 (c58_break _ _ _ z start stop b n xnys_here big_board_here good_new_york Hrep M Hb (covered n IY) S NE)).
    + exists u, v. split; [exact Q1|]. split; [exact Q2|]. destruct C as [->|C]; [exact D|]. exfalso. exact (NE c C).
Qed.
(** Its rows, one by one. *)
Lemma row_minutes : forall ss s n, 2013 <= y -> in_year n y -> well_formed ss -> has_schedule (cal b) ss -> In s ss ->
  s_label s = at_midnight_of n -> is_session (cal b) (at_midnight_of n) = true ->
  has_break s = false /\ zlen (sm s) = if in_dec Z.eq_dec n (half_days y) then 210 else 390.
Proof.
  intros ss s n Y IY W A I E S. destruct (session_length n Y IY S) as [P [u [v [Q1 [Q2 D]]]]].
  destruct (c22_accessors ss (cal b) s W A I) as [R1 [R2 [R3 _]]]. rewrite E in R1, R2, R3.
  rewrite Q1 in R1. injection R1 as ->. rewrite Q2 in R2. injection R2 as ->. rewrite P in R3.
  unfold has_break. destruct (wf_In ss s W I) as [W1 W2]. pose proof (sm_spec s W1 W2) as Q.
  pose proof (minutes_counted s (sm s) W1 W2 Q) as K. destruct (s_break s) as [[bs be]|]; [discriminate R3|].
  split; [reflexivity|]. change (zlen (sm s)) with (Z.of_nat (length (sm s))). rewrite K. apply whole_div. exact D.
Qed.

Definition halfb (x : Z) : bool := if in_dec Z.eq_dec x (map at_midnight_of (half_days y)) then true else false.
Lemma total : forall l, (forall s, In s l -> has_break s = false /\ zlen (sm s) = if halfb (s_label s) then 210 else 390) ->
  zlen (flat_map sm l) - breaks_in l =
  390 * Z.of_nat (length (map s_label l)) - 180 * Z.of_nat (length (filter halfb (map s_label l))).
Proof.
  induction l as [|s l IH]; intros H; [reflexivity|]. specialize (IH (fun s' I => H s' (or_intror I))).
  destruct (H s (or_introl eq_refl)) as [H1 H2]. unfold breaks_in in *. cbn [flat_map map filter length]. rewrite H1, zlen_app, H2.
  destruct (halfb (s_label s)); cbn [length]; lia.
Qed.
Lemma year_minutes : 2013 <= y ->
  minutes_count_for_sessions_in_range (cal b) (first_of y) (last_of y) =
  390 * Z.of_nat (length (sessions_in_range (cal b) (first_of y) (last_of y))) - 180 * Z.of_nat (length (half_days y)).
Proof.
  intros Y. destruct (c52_rows _ _ z start stop b xnys_here good_new_york Hrep M Hb) as [ss [A [W [C _]]]].
  destruct (c51_sessions _ _ z start stop b xnys_here M Hb) as [[S1 S2] S3].
  destruct (slice_range (sessions (cal b)) (first_of y) (last_of y) S1) as [T1 T2].
  rewrite (minutes_count_eq (cal b) ss W A). rewrite total.
  - change (map s_label (filter (in_range (first_of y) (last_of y)) ss)) with
      (map s_label (filter (fun s => (first_of y <=? s_label s) && (s_label s <=? last_of y)) ss)).
    rewrite <- (sessions_in_range_filter (cal b) ss W A).
    change (sessions_in_range (cal b) (first_of y) (last_of y))
      with (pyslice (sessions (cal b)) (searchsorted_left (sessions (cal b)) (first_of y)) (searchsorted_right (sessions (cal b)) (last_of y))).
    set (xs := pyslice _ _ _) in *. clearbody xs. f_equal. f_equal. f_equal.
    rewrite <- (map_length at_midnight_of (half_days y)). apply Permutation_length. apply NoDup_Permutation.
    + apply NoDup_filter, SSorted_lt_NoDup. exact T1.
    + apply Injective_map_NoDup; [intros p q; apply at_midnight_inj|apply half_days_apart].
    + intros x. rewrite filter_In, T2. unfold halfb. destruct (in_dec Z.eq_dec x (map at_midnight_of (half_days y))) as [I|I]; [|split; [intros [_ F]; discriminate F|intros I'; contradiction]].
      split; [intros _; exact I|]. intros _. split; [|reflexivity]. apply in_map_iff in I. destruct I as [n [<- I]].
      destruct (half_day_within n y I) as [B1 B2]. assert (IY : in_year n y) by (apply year_days_iff; lia). split.
      * apply S2. exists n. split; [reflexivity|]. split; [exact (covered n IY)|]. apply (S3 n (covered n IY)).
        exact (proj1 (half_close n Y I)).
      * unfold first_of, last_of. rewrite !at_midnight_le. lia.
  - intros s I. apply filter_In in I. destruct I as [I K]. unfold in_range in K. apply andb_prop in K. rewrite !Z.leb_le in K.
    destruct (proj1 (C (s_label s)) (ex_intro _ s (conj I eq_refl))) as [n [E [G T]]].
    assert (IY : in_year n y). { apply year_days_iff. rewrite E in K. unfold first_of, last_of in K. rewrite !at_midnight_le in K. exact K. }
    rewrite E in G. apply (S3 n G) in T. destruct (row_minutes ss s n Y IY W A I E T) as [P Q]. split; [exact P|]. rewrite Q.
    unfold halfb. rewrite E. destruct (in_dec Z.eq_dec n (half_days y)) as [J|J];
      destruct (in_dec Z.eq_dec (at_midnight_of n) (map at_midnight_of (half_days y))) as [J'|J']; try reflexivity; exfalso.
    + apply J'. apply in_map. exact J.
    + apply J. apply in_map_iff in J'. destruct J' as [m [F J']]. apply at_midnight_inj in F. subst m. exact J'.
Qed.
End Calendar.

(** ** C100 *)

(** From 2013 on the early closes of a year are its half days: the Friday after
    Thanksgiving, and 3 July and 24 December from Monday to Thursday. *)
Theorem c100_half_days : forall z start stop b y n, In ("America/New_York"%string, z) zones ->
  not_a_time + 2 * one_day < start -> is_midnight start ->
  build_exchange exchange_calendar_xnys.calendar z start stop = Ok b ->
  start <= first_of y -> last_of y <= stop -> 2013 <= y -> in_year n y ->
  (In (at_midnight_of n) (early_closes b) <-> In n (half_days y)).
Proof. intros z start stop b y n Hz Hrep M Hb L R Y I. exact (early_listed z start stop b y Hz Hrep M Hb L R n Y I). Qed.

(** A half day is a session of 210 minutes, every other session has 390. *)
Theorem c100_session : forall z start stop b y n, In ("America/New_York"%string, z) zones ->
  not_a_time + 2 * one_day < start -> is_midnight start ->
  build_exchange exchange_calendar_xnys.calendar z start stop = Ok b ->
  start <= first_of y -> last_of y <= stop -> 2013 <= y -> in_year n y ->
  (In n (half_days y) -> is_session (cal b) (at_midnight_of n) = true) /\
  (is_session (cal b) (at_midnight_of n) = true ->
   exists l, minutes_for_session (cal b) (at_midnight_of n) = Ok l /\
     (In n (half_days y) -> length l = 210%nat) /\ (~ In n (half_days y) -> length l = 390%nat)).
Proof.
  intros z start stop b y n Hz Hrep M Hb L R Y I. split.
  - intros H. exact (proj1 (half_close z start stop b y Hz Hrep M Hb L R n Y H)).
  - intros S. destruct (c52_rows _ _ z start stop b xnys_here (good_new_york z Hz) Hrep M Hb) as [ss [A [W [C _]]]].
    pose proof (covered start stop y L R n I) as G.
    assert (T : trades "XNYS" exchange_calendar_xnys.calendar n)
      by (apply (proj2 (c51_sessions _ _ z start stop b xnys_here M Hb)); [exact G|exact S]).
    destruct (proj2 (C (at_midnight_of n)) (ex_intro _ n (conj eq_refl (conj G T)))) as [s [Hs Es]].
    symmetry in Es. destruct (row_minutes z start stop b y Hz Hrep M Hb L R ss s n Y I W A Hs Es S) as [_ Q].
    exists (sm s). split; [rewrite <- Es; exact (minutes_for_session_sm (cal b) ss W A s Hs)|].
    change (zlen (sm s)) with (Z.of_nat (length (sm s))) in Q. destruct (in_dec Z.eq_dec n (half_days y)); split; intros; try contradiction; lia.
Qed.

(** The minutes of a year. *)
Theorem c100_minutes : forall z start stop b y, In ("America/New_York"%string, z) zones ->
  not_a_time + 2 * one_day < start -> is_midnight start ->
  build_exchange exchange_calendar_xnys.calendar z start stop = Ok b ->
  start <= first_of y -> last_of y <= stop -> 2019 <= y <= 2200 ->
  minutes_count_for_sessions_in_range (cal b) (first_of y) (last_of y) = minutes_traded y.
Proof.
  intros z start stop b y Hz Hrep M Hb L R Y. assert (Y' : 2013 <= y) by lia.
  rewrite (year_minutes z start stop b y Hz Hrep M Hb L R Y').
  rewrite (c98_new_york z start stop b y M Hb L R Y). reflexivity.
Qed.

(** A calendar of New York from 1990 to 2023: three half days in 2019, one in 2021,
    two in 2020. *)
Example c100_ex : exists z b, In ("America/New_York"%string, z) zones /\
  build_exchange exchange_calendar_xnys.calendar z (at_midnight_of (date_number 1990 1 1)) (last_of 2023) = Ok b /\
  half_days 2019 = [date_number 2019 11 29; date_number 2019 7 3; date_number 2019 12 24] /\
  half_days 2021 = [date_number 2021 11 26] /\
  minutes_count_for_sessions_in_range (cal b) (first_of 2019) (last_of 2019) = 97740 /\
  minutes_count_for_sessions_in_range (cal b) (first_of 2020) (last_of 2020) = 98310 /\
  minutes_count_for_sessions_in_range (cal b) (first_of 2021) (last_of 2021) = 98100.
Proof.
  destruct c98_ex as [z [b [Hz [Hb _]]]]. exists z, b. split; [exact Hz|]. split; [exact Hb|].
  split; [vm_compute; reflexivity|]. split; [vm_compute; reflexivity|].
  assert (M : is_midnight (at_midnight_of (date_number 1990 1 1))) by (apply is_midnight_at; eauto).
  assert (C : forall y, In y [2019; 2020; 2021] -> at_midnight_of (date_number 1990 1 1) <= first_of y /\ last_of y <= last_of 2023).
  { intros y I. unfold first_of, last_of. rewrite !at_midnight_le.
    cbn [In] in I. repeat (destruct I as [<-|I]; [split; apply Z.leb_le; vm_compute; reflexivity|]). destruct I. }
  assert (N : not_a_time + 2 * one_day < at_midnight_of (date_number 1990 1 1)).
  { apply since_1950. apply at_midnight_le. apply Z.leb_le. vm_compute. reflexivity. }
  assert (K : forall y, In y [2019; 2020; 2021] ->
    minutes_count_for_sessions_in_range (cal b) (first_of y) (last_of y) = minutes_traded y).
  { intros y I. destruct (C y I) as [C1 C2]. assert (Y : 2019 <= y <= 2200) by (cbn [In] in I; lia).
    exact (c100_minutes z _ _ b y Hz N M Hb C1 C2 Y). }
  rewrite (K 2019), (K 2020), (K 2021) by (cbn [In]; lia). vm_compute. repeat split.
Qed.

(** ** Assumptions *)
Print Assumptions c100_half_days.
Print Assumptions c100_session.
Print Assumptions c100_minutes.
