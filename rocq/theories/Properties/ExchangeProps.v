(** The calendars of the exchanges in the library (C51-C54). *)
From Coq Require Import ZArith String List Bool Lia Sorting.Sorted.
From Verif.Model Require Import Base Dates Zone Queries Build Holidays Exchange.
From Verif.Spec Require Import Schedule Construction Civil Rules Feasts Venue.
From Verif.Proofs Require Import BaseLemmas DatesLemmas ScheduleLemmas ZoneLemmas BuildLemmas BuildLemmas2
  ShapeLemmas RuleLemmas RuleRange VenueLemmas VenueSound VenueZones VenueRows VenueData.
From Verif.Properties Require Import QueryProps BuildProps HolidayProps FeastProps.
From Verif.Exchanges Require Import All zones.
From Verif.Exchanges Require exchange_calendar_xtae exchange_calendar_xnys exchange_calendar_asex
  exchange_calendar_xist exchange_calendar_xkls.
Import ListNotations.
Open Scope Z_scope.

Local Opaque venue_ok suits calendar_holidays.

(** ** Facts about the data *)

Lemma the_settled : forall name E, In (name, E) exchanges ->
  forallb (fun q => forallb settled (snd q)) (ex_special_opens E) = true /\
  forallb (fun q => forallb settled (snd q)) (ex_special_closes E) = true /\
  (name <> "XTAE"%string -> forallb settled (ex_regular_holidays E) = true).
Proof.
  intros name E H. pose proof venues_settled as V. rewrite forallb_forall in V. specialize (V _ H).
  cbn [fst snd] in V. rewrite !andb_true_iff, orb_true_iff in V. destruct V as [[V1 V2] V3].
  split; [exact V1|]. split; [exact V2|]. intros N. destruct V3 as [V3|V3]; [|exact V3].
  apply String.eqb_eq in V3. contradiction.
Qed.

Lemma the_ok : forall name E, In (name, E) exchanges -> venue_ok E (conflict_days name) = true.
Proof.
  intros name E H. pose proof venues_ok as V. rewrite forallb_forall in V. exact (V _ H).
Qed.

Lemma the_tel_aviv : forall E, In ("XTAE"%string, E) exchanges -> E = exchange_calendar_xtae.calendar.
Proof.
  intros E H. unfold exchanges in H. cbn [In] in H.
  repeat (destruct H as [H|H]; [first [discriminate H|injection H as H; symmetry; exact H]|]).
  destruct H.
Qed.

Lemma tel_aviv_trading : forall z start stop n,
  trading_day (instantiate exchange_calendar_xtae.calendar z start stop) (at_midnight_of n) <->
  tel_aviv_day exchange_calendar_xtae.calendar n.
Proof.
  intros z start stop n. unfold trading_day, tel_aviv_day.
  cbn [instantiate weekmask regular_holidays adhoc_holidays]. rewrite at_midnight_div. unfold day_of_week.
  assert (K : forall x, In x (calendar_holidays (ex_regular_holidays exchange_calendar_xtae.calendar)
      DEFAULT_HOLIDAY_START DEFAULT_HOLIDAY_END) <->
    exists m, x = at_midnight_of m /\ known_year m /\ exists y, 2 <= y <= 9998 /\ tel_aviv_holiday y m).
  { intros x. rewrite c50_tel_aviv; [|apply Z.leb_le; vm_compute; reflexivity..].
    destruct default_range as [E1 E2]. rewrite E1, E2. split.
    - intros [Hr [y [m [Hy [Hm ->]]]]]. exists m. split; [reflexivity|].
      change (m * 86400000000000) with (at_midnight_of m) in Hr. rewrite !at_midnight_le in Hr.
      split; [exact Hr|]. exists y. tauto.
    - intros [m [-> [Hk [y [Hy Hm]]]]]. rewrite !at_midnight_le. split; [exact Hk|]. exists y, m.
      split; [exact Hy|]. split; [exact Hm|reflexivity]. }
  revert K. generalize (calendar_holidays (ex_regular_holidays exchange_calendar_xtae.calendar)
    DEFAULT_HOLIDAY_START DEFAULT_HOLIDAY_END) (ex_adhoc_holidays exchange_calendar_xtae.calendar)
    (ex_weekmask exchange_calendar_xtae.calendar).
  intros hs adhoc mask K. split.
  - intros [H1 H2]. split; [exact H1|]. split.
    + intros H. apply (H2 (at_midnight_of n)); [left|apply at_midnight_div].
      apply K. exists n. split; [reflexivity|exact H].
    + intros H. apply (H2 (at_midnight_of n)); [right|apply at_midnight_div].
      apply in_map_iff. exists n. split; [apply midnight_at|assumption].
  - intros [H1 [H2 H3]]. split; [exact H1|]. intros h [H|H].
    + apply K in H. destruct H as [m [-> H]]. rewrite at_midnight_div. intros ->. apply H2. exact H.
    + apply in_map_iff in H. destruct H as [m [<- H]]. rewrite (midnight_at m), at_midnight_div.
      intros ->. apply H3. exact H.
Qed.

Lemma trades_iff : forall name E z start stop n, In (name, E) exchanges ->
  (trading_day (instantiate E z start stop) (at_midnight_of n) <-> trades name E n).
Proof.
  intros name E z start stop n H. unfold trades. destruct (String.eqb_spec name "XTAE") as [->|N].
  - rewrite (the_tel_aviv E H). apply tel_aviv_trading.
  - apply trading_day_open. apply (the_settled name E H). exact N.
Qed.

Lemma session_trades : forall name E z start stop x, In (name, E) exchanges ->
  (session_day (instantiate E z start stop) start stop x <->
   exists n, x = at_midnight_of n /\ start <= x <= stop /\ trades name E n).
Proof.
  intros name E z start stop x H. unfold session_day. split.
  - intros [M [Hr T]]. apply is_midnight_at in M. destruct M as [n ->]. exists n. split; [reflexivity|].
    split; [exact Hr|]. eapply trades_iff; eassumption.
  - intros [n [-> [Hr T]]]. split; [apply is_midnight_at; exists n; reflexivity|]. split; [exact Hr|].
    eapply trades_iff; eassumption.
Qed.

(** ** C51: the sessions of an exchange *)

(** The sessions in the range are the days on which the exchange trades by its own
    rules, whatever the zone and the range. *)
Theorem c51_sessions : forall name E z start stop b, In (name, E) exchanges ->
  is_midnight start -> build_exchange E z start stop = Ok b ->
  lists_exactly (fun x => exists n, x = at_midnight_of n /\ start <= x <= stop /\ trades name E n)
    (sessions (cal b)) /\
  (forall n, start <= at_midnight_of n <= stop ->
     (is_session (cal b) (at_midnight_of n) = true <-> trades name E n)).
Proof.
  intros name E z start stop b H M1 Hb.
  destruct (c23_sessions _ start stop b M1 Hb) as [[S1 S2] S3]. split.
  - split; [exact S1|]. intros x. rewrite S2. apply session_trades. exact H.
  - intros n Hn. rewrite S3, (session_trades name) by exact H. split.
    + intros [m [Em [_ T]]]. apply at_midnight_inj in Em. subst m. exact T.
    + intros T. exists n. tauto.
Qed.

(** Two calendars of the same exchange agree on the days both cover. *)
Theorem c51_range_independent : forall name E z1 z2 start1 stop1 start2 stop2 b1 b2 n,
  In (name, E) exchanges -> is_midnight start1 -> is_midnight start2 ->
  build_exchange E z1 start1 stop1 = Ok b1 -> build_exchange E z2 start2 stop2 = Ok b2 ->
  start1 <= at_midnight_of n <= stop1 -> start2 <= at_midnight_of n <= stop2 ->
  is_session (cal b1) (at_midnight_of n) = is_session (cal b2) (at_midnight_of n).
Proof.
  intros name E z1 z2 start1 stop1 start2 stop2 b1 b2 n H M1 M2 H1 H2 R1 R2.
  apply Bool.eq_iff_eq_true.
  rewrite (proj2 (c51_sessions name E z1 start1 stop1 b1 H M1 H1) n R1).
  rewrite (proj2 (c51_sessions name E z2 start2 stop2 b2 H M2 H2) n R2). reflexivity.
Qed.

(** Deciding [open_day]. *)
Definition open_dayb (E : exchange) (n : Z) : bool :=
  nth (Z.to_nat (weekday n)) (ex_weekmask E) false &&
  (negb ((1970 <=? year_of n) && (year_of n <=? 2200)) ||
   negb (memb (midnight n) (calendar_holidays (ex_regular_holidays E) (midnight n) (midnight n)))) &&
  negb (memb n (ex_adhoc_holidays E)).

Lemma known_year_of : forall n, known_year n <-> 1970 <= year_of n <= 2200.
Proof.
  intros n. unfold known_year.
  assert (E1 : date_number 1970 1 1 = year_start 1970) by (vm_compute; reflexivity).
  assert (E2 : date_number 2200 12 31 = year_start 2201 - 1) by (vm_compute; reflexivity).
  rewrite E1, E2, year_of_ge. pose proof (year_of_ge 2201 n). lia.
Qed.

Lemma open_dayb_ok : forall E n, forallb settled (ex_regular_holidays E) = true ->
  (open_dayb E n = true <-> open_day E n).
Proof.
  intros E n S. unfold open_dayb, open_day, rule_holiday.
  rewrite known_year_of, !andb_true_iff, orb_true_iff, !negb_true_iff.
  assert (W : nth (Z.to_nat (weekday n)) (ex_weekmask E) false = true <->
              nth_error (ex_weekmask E) (Z.to_nat (day_of_week n)) = Some true).
  { change (weekday n) with (day_of_week n). generalize (Z.to_nat (day_of_week n)) (ex_weekmask E).
    intros i l. revert i. induction l as [|a l IH]; intros [|i]; cbn; try (split; congruence). apply IH. }
  assert (R : memb (midnight n) (calendar_holidays (ex_regular_holidays E) (midnight n) (midnight n)) = true <->
              exists r, In r (ex_regular_holidays E) /\ falls_on r n).
  { unfold memb. rewrite existsb_exists. rewrite (midnight_at n). split.
    - intros [x [H1 H2]]. apply Z.eqb_eq in H2. subst x. apply holidays_iff in H1; [apply H1|exact S].
    - intros H. exists (at_midnight_of n). split; [|apply Z.eqb_refl]. apply holidays_iff; [exact S|].
      split; [lia|exact H]. }
  assert (A : memb n (ex_adhoc_holidays E) = true <-> In n (ex_adhoc_holidays E)).
  { unfold memb. rewrite existsb_exists. split.
    - intros [x [H1 H2]]. apply Z.eqb_eq in H2. subst x. exact H1.
    - intros H. exists n. split; [exact H|apply Z.eqb_refl]. }
  rewrite W, <- A, <- R, !not_true_iff_false, andb_false_iff, !Z.leb_gt.
  generalize (memb (midnight n) (calendar_holidays (ex_regular_holidays E) (midnight n) (midnight n))).
  intros m. destruct m; intuition (try lia; try congruence).
Qed.

(** ** C52: the times of the sessions *)

Theorem c52_rows : forall name E z start stop b, In (name, E) exchanges ->
  good_zone z -> not_a_time + 2 * one_day < start ->
  is_midnight start -> build_exchange E z start stop = Ok b ->
  exists ss, has_schedule (cal b) ss /\ well_formed ss /\
    (forall x, is_label_of ss x <->
       exists n, x = at_midnight_of n /\ start <= x <= stop /\ trades name E n) /\
    (forall s, In s ss -> venue_row name E z start stop s).
Proof.
  intros name E z start stop b H Hz Hrep M1 Hb.
  destruct (the_settled name E H) as [S1 [S2 _]]. pose proof (the_ok name E H) as V.
  destruct (c29_well_formed (instantiate E z start stop) start stop b M1) as [ss [A [B [C F]]]].
  - exact (venue_tables E z start stop (conflict_days name) V).
  - exact Hz.
  - apply (venue_representable E z start stop (conflict_days name) V Hrep).
  - apply (venue_local E z start stop (conflict_days name) V Hrep).
  - exact Hb.
  - exists ss. split; [exact A|]. split; [exact B|]. split.
    + intros x. rewrite C. apply session_trades. exact H.
    + intros s Hs. apply expected_venue_row; [exact S1|exact S2| |apply F; exact Hs].
      intros n _ T. eapply trades_iff; eassumption.
Qed.

(** The times of day [n] are determined by the attributes of the exchange. *)
Lemma times_of_day : forall name E z start stop b n, In (name, E) exchanges -> good_zone z ->
  not_a_time + 2 * one_day < start -> is_midnight start ->
  build_exchange E z start stop = Ok b -> start <= at_midnight_of n <= stop -> trades name E n ->
  exists o c bs be,
    session_open (cal b) (at_midnight_of n) = Ok o /\ opens_at E z start stop n o /\
    session_close (cal b) (at_midnight_of n) = Ok c /\ closes_at E z start stop n c /\
    session_break_start (cal b) (at_midnight_of n) = Ok bs /\
    break_at E (ex_break_start_times E) z start stop n bs /\
    session_break_end (cal b) (at_midnight_of n) = Ok be /\
    break_at E (ex_break_end_times E) z start stop n be.
Proof.
  intros name E z start stop b n H Hz Hrep M1 Hb Hn T.
  destruct (c52_rows name E z start stop b H Hz Hrep M1 Hb) as [ss [A [B [C F]]]].
  assert (L : is_label_of ss (at_midnight_of n)) by (apply C; exists n; tauto).
  destruct L as [s [Hs Es]]. destruct (c22_accessors ss (cal b) s B A Hs) as [Q1 [Q2 [Q3 [Q4 _]]]].
  destruct (F s Hs) as [m [Em [_ [_ [F1 [F2 [F3 F4]]]]]]]. rewrite <- Es in *.
  apply at_midnight_inj in Em. subst m.
  exists (s_open s), (s_close s), (option_map fst (s_break s)), (option_map snd (s_break s)). tauto.
Qed.

Lemma break_none : forall E ts z start stop n r u,
  special_moment (special_closing E) z start stop n u -> break_at E ts z start stop n r -> r = None.
Proof.
  intros E ts z start stop n [v|] u H B; [|reflexivity]. destruct B as [B _]. exfalso. apply (B u H).
Qed.

(** A special close within the range is the close of its day, which then has no
    break; a special open is its open.  [early_closes] and [late_opens] list these
    days. *)
Theorem c52_special_close : forall name E z start stop b n t u, In (name, E) exchanges -> good_zone z ->
  not_a_time + 2 * one_day < start -> is_midnight start ->
  build_exchange E z start stop = Ok b -> start <= at_midnight_of n <= stop ->
  special_closing E n t -> instant_of z (local_time (at_midnight_of n) 0 t) u -> start <= u <= stop ->
  trades name E n /\ session_close (cal b) (at_midnight_of n) = Ok u /\
  session_break_start (cal b) (at_midnight_of n) = Ok None /\
  session_break_end (cal b) (at_midnight_of n) = Ok None.
Proof.
  intros name E z start stop b n t u H Hz Hrep M1 Hb Hn Ht Hu Hr.
  destruct (the_settled name E H) as [S1 [S2 _]]. pose proof (the_ok name E H) as V.
  set (D := instantiate E z start stop).
  pose proof (venue_tables E z start stop (conflict_days name) V) as W. fold D in W.
  assert (P : special_moment (special_closing E) z start stop n u) by (exists t; tauto).
  assert (X : special_close D start stop (at_midnight_of n) u) by (apply special_close_iff; assumption).
  assert (T : trades name E n).
  { pose proof (c26_specials_are_sessions D start stop b _ u W M1 Hb (or_intror X)) as Q.
    apply (session_trades name) in Q; [|exact H]. destruct Q as [m [Em [_ Q]]].
    apply at_midnight_inj in Em. subst m. exact Q. }
  split; [exact T|].
  destruct (times_of_day name E z start stop b n H Hz Hrep M1 Hb Hn T)
    as [o [c [bs [be [_ [_ [Q2 [F2 [Q3 [F3 [Q4 F4]]]]]]]]]]].
  rewrite Q2, Q3, Q4. split; [|split].
  - f_equal. destruct F2 as [F2|[F2 _]]; [|exfalso; apply (F2 u P)].
    apply (special_moment_unique _ _ _ _ _ _ _ _ _ _ (proj2 (venue_agree E _ V)) F2 P).
  - rewrite (break_none _ _ _ _ _ _ _ _ P F3). reflexivity.
  - rewrite (break_none _ _ _ _ _ _ _ _ P F4). reflexivity.
Qed.

Theorem c52_special_open : forall name E z start stop b n t u, In (name, E) exchanges -> good_zone z ->
  not_a_time + 2 * one_day < start -> is_midnight start ->
  build_exchange E z start stop = Ok b -> start <= at_midnight_of n <= stop ->
  special_opening E n t -> instant_of z (local_time (at_midnight_of n) 0 t) u -> start <= u <= stop ->
  trades name E n /\ session_open (cal b) (at_midnight_of n) = Ok u.
Proof.
  intros name E z start stop b n t u H Hz Hrep M1 Hb Hn Ht Hu Hr.
  destruct (the_settled name E H) as [S1 [S2 _]]. pose proof (the_ok name E H) as V.
  set (D := instantiate E z start stop).
  pose proof (venue_tables E z start stop (conflict_days name) V) as W. fold D in W.
  assert (P : special_moment (special_opening E) z start stop n u) by (exists t; tauto).
  assert (X : special_open D start stop (at_midnight_of n) u) by (apply special_open_iff; assumption).
  assert (T : trades name E n).
  { pose proof (c26_specials_are_sessions D start stop b _ u W M1 Hb (or_introl X)) as Q.
    apply (session_trades name) in Q; [|exact H]. destruct Q as [m [Em [_ Q]]].
    apply at_midnight_inj in Em. subst m. exact Q. }
  split; [exact T|].
  destruct (times_of_day name E z start stop b n H Hz Hrep M1 Hb Hn T)
    as [o [c [bs [be [Q1 [F1 _]]]]]].
  rewrite Q1. f_equal. destruct F1 as [F1|[F1 _]]; [|exfalso; apply (F1 u P)].
  apply (special_moment_unique _ _ _ _ _ _ _ _ _ _ (proj1 (venue_agree E _ V)) F1 P).
Qed.

(** On any other day the tables apply. *)
Theorem c52_regular_day : forall name E z start stop b n, In (name, E) exchanges -> good_zone z ->
  not_a_time + 2 * one_day < start -> is_midnight start ->
  build_exchange E z start stop = Ok b -> start <= at_midnight_of n <= stop -> trades name E n ->
  ((forall t, ~ special_opening E n t) ->
   exists t u, in_force (ex_open_times E) n t /\
     instant_of z (local_time (at_midnight_of n) (ex_open_offset E) t) u /\
     session_open (cal b) (at_midnight_of n) = Ok u) /\
  ((forall t, ~ special_closing E n t) ->
   exists t u, in_force (ex_close_times E) n t /\
     instant_of z (local_time (at_midnight_of n) (ex_close_offset E) t) u /\
     session_close (cal b) (at_midnight_of n) = Ok u).
Proof.
  intros name E z start stop b n H Hz Hrep M1 Hb Hn T.
  destruct (times_of_day name E z start stop b n H Hz Hrep M1 Hb Hn T)
    as [o [c [bs [be [Q1 [F1 [Q2 [F2 _]]]]]]]].
  split; intros N.
  - destruct F1 as [[t [A _]]|[_ [t [A B]]]]; [exfalso; apply (N t A)|]. exists t, o. tauto.
  - destruct F2 as [[t [A _]]|[_ [t [A B]]]]; [exfalso; apply (N t A)|]. exists t, c. tauto.
Qed.

(** [early_closes] and [late_opens] list the days with a special time in the range. *)
Theorem c52_early_closes : forall name E z start stop b, In (name, E) exchanges -> good_zone z ->
  not_a_time + 2 * one_day < start -> is_midnight start ->
  build_exchange E z start stop = Ok b ->
  (forall x, In x (early_closes b) <-> exists n u, x = at_midnight_of n /\ start <= x <= stop /\
     special_moment (special_closing E) z start stop n u) /\
  (forall x, In x (late_opens b) <-> exists n u, x = at_midnight_of n /\ start <= x <= stop /\
     special_moment (special_opening E) z start stop n u).
Proof.
  intros name E z start stop b H Hz Hrep M1 Hb.
  destruct (the_settled name E H) as [S1 [S2 _]]. pose proof (the_ok name E H) as V.
  set (D := instantiate E z start stop).
  pose proof (venue_tables E z start stop (conflict_days name) V) as W. fold D in W.
  destruct (c28_early_closes_late_opens D start stop b M1 W Hz
    (venue_representable E z start stop _ V Hrep)
    (venue_consistent E z start stop _ S1 S2 V)
    (venue_local E z start stop _ V Hrep) Hb) as [_ [C1 [_ C2]]].
  assert (R : forall x u, special_open D start stop x u \/ special_close D start stop x u ->
    exists n, x = at_midnight_of n /\ start <= x <= stop).
  { intros x u Q. pose proof (c26_specials_are_sessions D start stop b x u W M1 Hb Q) as [M [B _]].
    apply is_midnight_at in M. destruct M as [n En]. exists n. tauto. }
  split; intros x; [rewrite C1|rewrite C2].
  - split.
    + intros [u Q]. destruct (R x u (or_intror Q)) as [n [-> Hn]]. exists n, u. split; [reflexivity|].
      split; [exact Hn|]. apply (proj1 (special_close_iff E z start stop S2 n u Hn)). exact Q.
    + intros [n [u [-> [Hn Q]]]]. exists u. apply special_close_iff; assumption.
  - split.
    + intros [u Q]. destruct (R x u (or_introl Q)) as [n [-> Hn]]. exists n, u. split; [reflexivity|].
      split; [exact Hn|]. apply (proj1 (special_open_iff E z start stop S1 n u Hn)). exact Q.
    + intros [n [u [-> [Hn Q]]]]. exists u. apply special_open_iff; assumption.
Qed.

(** Ranges that extend a day or two beyond [n] agree on the times of [n]. *)
Theorem c52_same_times : forall name E z start1 stop1 start2 stop2 b1 b2 n,
  In (name, E) exchanges -> good_zone z ->
  not_a_time + 2 * one_day < start1 -> not_a_time + 2 * one_day < start2 ->
  is_midnight start1 -> is_midnight start2 ->
  build_exchange E z start1 stop1 = Ok b1 -> build_exchange E z start2 stop2 = Ok b2 ->
  start1 <= at_midnight_of (n - 1) -> at_midnight_of (n + 2) <= stop1 ->
  start2 <= at_midnight_of (n - 1) -> at_midnight_of (n + 2) <= stop2 -> trades name E n ->
  session_open (cal b1) (at_midnight_of n) = session_open (cal b2) (at_midnight_of n) /\
  session_close (cal b1) (at_midnight_of n) = session_close (cal b2) (at_midnight_of n) /\
  session_break_start (cal b1) (at_midnight_of n) = session_break_start (cal b2) (at_midnight_of n) /\
  session_break_end (cal b1) (at_midnight_of n) = session_break_end (cal b2) (at_midnight_of n).
Proof.
  intros name E z start1 stop1 start2 stop2 b1 b2 n H Hz R1 R2 M1 M2 H1 H2 A1 A2 A3 A4 T.
  pose proof (the_ok name E H) as V. destruct (venue_agree E _ V) as [V1 V2].
  destruct (venue_tables E z start1 stop1 (conflict_days name) V) as [W1 [W2 [W3 W4]]].
  assert (Mid : at_midnight_of (n - 1) <= at_midnight_of n <= at_midnight_of (n + 2))
    by (rewrite !at_midnight_le; lia).
  assert (Valid : forall t, In t (special_times E) -> valid_time t).
  { intros t Ht. pose proof special_times_valid as Q. rewrite forallb_forall in Q. specialize (Q _ H).
    cbn [snd] in Q. rewrite forallb_forall in Q. specialize (Q t Ht). unfold valid_timeb in Q.
    rewrite !andb_true_iff in Q. unfold valid_time. lia. }
  assert (In1 : forall rules dates t, (forall t, In t (map fst rules ++ map fst dates) -> In t (special_times E)) ->
    special_time rules dates n t -> valid_time t).
  { intros rules dates t Q S. apply Valid, Q, in_app_iff. destruct S as [[rs [r [B _]]]|[ds [B _]]].
    - left. apply in_map_iff. exists (t, rs). tauto.
    - right. apply in_map_iff. exists (t, ds). tauto. }
  assert (Mv : forall (special : Z -> time -> Prop) s1 e1 s2 e2 u, (forall t, special n t -> valid_time t) ->
    s2 <= at_midnight_of (n - 1) -> at_midnight_of (n + 2) <= e2 ->
    special_moment special z s1 e1 n u -> special_moment special z s2 e2 n u).
  { intros special s1 e1 s2 e2 u Q B1 B2 [t [C1 [C2 _]]]. exists t. split; [exact C1|]. split; [exact C2|].
    pose proof (special_near z n t u Hz (Q t C1) C2). lia. }
  assert (VO : forall t, special_opening E n t -> valid_time t)
    by (intros t; apply In1; apply opens_clock).
  assert (VC : forall t, special_closing E n t -> valid_time t)
    by (intros t; apply In1; apply closes_clock).
  destruct (times_of_day name E z start1 stop1 b1 n H Hz R1 M1 H1 ltac:(lia) T)
    as [o [c [bs [be [Q1 [F1 [Q2 [F2 [Q3 [F3 [Q4 F4]]]]]]]]]]].
  destruct (times_of_day name E z start2 stop2 b2 n H Hz R2 M2 H2 ltac:(lia) T)
    as [o' [c' [bs' [be' [Q1' [F1' [Q2' [F2' [Q3' [F3' [Q4' F4']]]]]]]]]]].
  rewrite Q1, Q2, Q3, Q4, Q1', Q2', Q3', Q4'.
  assert (Br : forall ts r r', (forall l, option_map at_midnight ts = Some l -> well_ordered l) ->
    break_at E ts z start1 stop1 n r -> break_at E ts z start2 stop2 n r' -> r = r').
  { intros ts [u|] [u'|] W B B'; try reflexivity.
    - destruct B as [_ [l [El B]]], B' as [_ [l' [El' B']]]. rewrite El in *. injection El' as <-.
      f_equal. apply (regular_moment_unique _ _ _ _ _ _ (W _ eq_refl) B B').
    - destruct B as [N [l [El B]]], B' as [B'|[v B']]; [congruence|]. exfalso. apply (N v).
      apply (Mv _ start2 stop2); assumption.
    - destruct B' as [N [l [El B']]], B as [B|[v B]]; [congruence|]. exfalso. apply (N v).
      apply (Mv _ start1 stop1); assumption. }
  split; [|split; [|split]]; f_equal.
  - destruct F1 as [F1|[N1 F1]], F1' as [F1'|[N1' F1']].
    + apply (special_moment_unique _ _ _ _ _ _ _ _ _ _ V1 F1 F1').
    + exfalso. apply (N1' o). apply (Mv _ start1 stop1); assumption.
    + exfalso. apply (N1 o'). apply (Mv _ start2 stop2); assumption.
    + apply (regular_moment_unique _ _ _ _ _ _ W1 F1 F1').
  - destruct F2 as [F2|[N2 F2]], F2' as [F2'|[N2' F2']].
    + apply (special_moment_unique _ _ _ _ _ _ _ _ _ _ V2 F2 F2').
    + exfalso. apply (N2' c). apply (Mv _ start1 stop1); assumption.
    + exfalso. apply (N2 c'). apply (Mv _ start2 stop2); assumption.
    + apply (regular_moment_unique _ _ _ _ _ _ W2 F2 F2').
  - apply (Br (ex_break_start_times E)); [exact W3|exact F3|exact F3'].
  - apply (Br (ex_break_end_times E)); [exact W4|exact F4|exact F4'].
Qed.

(** ** C53: construction succeeds *)

(** Tel Aviv has no special times. *)
Lemma settled_or_plain : forall name E, In (name, E) exchanges ->
  forallb settled (ex_regular_holidays E) = true \/ special_times E = [].
Proof.
  intros name E H. destruct (String.eqb_spec name "XTAE") as [->|N].
  - right. rewrite (the_tel_aviv E H). reflexivity.
  - left. apply (the_settled name E H). exact N.
Qed.

(** On any clocks that suit the exchange, for any range with a trading day that
    avoids the contradictory days, construction succeeds and the schedule is well
    formed and as the attributes say. *)
Theorem c53_constructed : forall name E z lo start stop, In (name, E) exchanges ->
  clocks_suit E z lo -> at_midnight_of lo <= start -> not_a_time + 2 * one_day < start ->
  is_midnight start -> (exists n, start <= at_midnight_of n <= stop /\ trades name E n) ->
  (forall n, In n (conflict_days name) -> ~ start <= at_midnight_of n <= stop) ->
  exists b ss, build_exchange E z start stop = Ok b /\ has_schedule (cal b) ss /\ well_formed ss /\
    (forall x, is_label_of ss x <->
       exists n, x = at_midnight_of n /\ start <= x <= stop /\ trades name E n) /\
    (forall s, In s ss -> venue_row name E z start stop s).
Proof.
  intros name E z lo start stop H Hclk Hlo Hrep M1 [n [Hn T]] Hbad.
  destruct (the_settled name E H) as [S1 [S2 _]]. pose proof (the_ok name E H) as V.
  destruct (venue_sound E z start stop lo (conflict_days name) S1 S2 V Hclk Hlo Hrep M1 Hbad
    (settled_or_plain name E H)) as [D1 D2 D3 D4 D5 D6 D7 D8].
  destruct (build_succeeds (instantiate E z start stop) start stop) as [b Hb]; try assumption.
  { exists (at_midnight_of n). apply (session_trades name); [exact H|]. exists n. tauto. }
  destruct (c52_rows name E z start stop b H (proj1 Hclk) Hrep M1 Hb) as [ss Hss].
  exists b, ss. split; [exact Hb|exact Hss].
Qed.

(** A range that reaches past a contradictory day is refused. *)
Theorem c53_conflict : forall name E z lo start stop n, In (name, E) exchanges ->
  clocks_suit E z lo -> at_midnight_of lo <= start -> is_midnight start ->
  (exists m, start <= at_midnight_of m <= stop /\ trades name E m) ->
  In n (conflict_days name) -> start <= at_midnight_of (n - 1) -> at_midnight_of (n + 2) <= stop ->
  (exists t, special_closing E n t) /\ ~ trades name E n /\
  build_exchange E z start stop = Raise ValueError.
Proof.
  intros name E z lo start stop n H Hclk Hlo M1 [m [Hm T]] Hbad A1 A2.
  destruct (the_settled name E H) as [S1 [S2 S3]]. pose proof (the_ok name E H) as V.
  assert (N : name <> "XTAE"%string) by (intros ->; exact Hbad). specialize (S3 N).
  assert (Mid : at_midnight_of (n - 1) <= at_midnight_of n <= at_midnight_of (n + 2))
    by (rewrite !at_midnight_le; lia).
  assert (Hn : start <= at_midnight_of n <= stop) by lia.
  pose proof conflicts as C. rewrite forallb_forall in C. specialize (C _ H). cbn [fst snd] in C.
  rewrite forallb_forall in C. specialize (C n Hbad). unfold conflict in C.
  apply andb_true_iff in C. destruct C as [C1 C2].
  assert (Sp : exists t, special_closing E n t).
  { apply orb_true_iff in C1. destruct C1 as [C1|C1]; apply existsb_exists in C1.
    - destruct C1 as [[t rs] [I C1]]. cbn [snd] in C1. unfold memb in C1. apply existsb_exists in C1.
      destruct C1 as [x [C1 E1]]. apply Z.eqb_eq in E1. subst x. rewrite !(midnight_at n) in C1.
      rewrite forallb_forall in S2. pose proof (S2 _ I) as S. cbn [snd] in S.
      apply holidays_iff in C1; [|exact S]. destruct C1 as [_ [r [I' F]]]. exists t. left. exists rs, r. tauto.
    - destruct C1 as [[t ds] [I C1]]. cbn [snd] in C1. unfold memb in C1. apply existsb_exists in C1.
      destruct C1 as [x [C1 E1]]. apply Z.eqb_eq in E1. subst x. exists t. right. exists ds. tauto. }
  assert (Nt : ~ trades name E n).
  { unfold trades. destruct (String.eqb_spec name "XTAE") as [E0|_]; [contradiction|].
    intros [_ [O1 O2]]. apply orb_true_iff in C2. destruct C2 as [C2|C2].
    - rewrite !andb_true_iff in C2. destruct C2 as [Y C2]. apply O1. split; [apply known_year_of; lia|].
      unfold memb in C2. apply existsb_exists in C2. destruct C2 as [x [C2 E1]]. apply Z.eqb_eq in E1.
      subst x. rewrite !(midnight_at n) in C2. apply holidays_iff in C2; [apply C2|exact S3].
    - unfold memb in C2. apply existsb_exists in C2. destruct C2 as [x [C2 E1]]. apply Z.eqb_eq in E1.
      subst x. contradiction. }
  split; [exact Sp|]. split; [exact Nt|].
  destruct Sp as [t Ht].
  assert (Hin : In t (special_times E)).
  { apply closes_clock. apply in_app_iff. destruct Ht as [[rs [r [B _]]]|[ds [B _]]].
    - left. apply in_map_iff. exists (t, rs). tauto.
    - right. apply in_map_iff. exists (t, ds). tauto. }
  assert (Vt : valid_time t).
  { pose proof special_times_valid as Q. rewrite forallb_forall in Q. specialize (Q _ H).
    cbn [snd] in Q. rewrite forallb_forall in Q. specialize (Q t Hin). unfold valid_timeb in Q.
    rewrite !andb_true_iff in Q. unfold valid_time. lia. }
  destruct (proj1 (proj2 Hclk) 0 t n (special_clock_time E t Hin)) as [u Hu].
  { apply at_midnight_le. lia. }
  pose proof (special_near z n t u (proj1 Hclk) Vt Hu) as B.
  unfold build_exchange. apply (c26_rejected _ start stop (at_midnight_of n) u M1).
  - exact (venue_tables E z start stop _ V).
  - exact (venue_resolvable E z start stop lo S1 S2 Hclk Hlo).
  - exact (venue_covered E z start stop _ V).
  - exists (at_midnight_of m). apply (session_trades name); [exact H|]. exists m. tauto.
  - right. apply special_close_iff; [exact S2|exact Hn|]. exists t. split; [exact Ht|]. split; [exact Hu|]. lia.
  - intros Q. apply (session_trades name) in Q; [|exact H]. destruct Q as [k [Ek [_ Q]]].
    apply at_midnight_inj in Ek. subst k. contradiction.
Qed.

(** The clocks of the tz database suit every exchange, from 1950 on (New York, which
    lists special days since then, from 1902 on). *)
Theorem c53_clocks : forall name E, In (name, E) exchanges ->
  exists z, In (ex_tz E, z) zones /\
    clocks_suit E z (if String.eqb name "XNYS" then date_number 1902 1 1 else date_number 1950 1 1).
Proof.
  intros name E H. pose proof zones_suit as Q. rewrite forallb_forall in Q. specialize (Q _ H).
  cbn [fst snd] in Q. unfold zone_named in Q.
  destruct (find (fun p => String.eqb (fst p) (ex_tz E)) zones) as [[s z]|] eqn:F; [|discriminate].
  apply find_some in F. destruct F as [F1 F2]. apply String.eqb_eq in F2. cbn [fst snd] in *. subst s.
  exists z. split; [exact F1|]. apply suits_ok. exact Q.
Qed.

(** ** Concrete cases, and what does not hold *)

Lemma here : forall name E,
  find (fun p => String.eqb (fst p) name) exchanges = Some (name, E) -> In (name, E) exchanges.
Proof. intros name E H. apply find_some in H. apply H. Qed.

Lemma xnys_here : In ("XNYS"%string, exchange_calendar_xnys.calendar) exchanges.
Proof. apply here. reflexivity. Qed.
Lemma asex_here : In ("ASEX"%string, exchange_calendar_asex.calendar) exchanges.
Proof. apply here. reflexivity. Qed.

Lemma plain_trades : forall name E n, In (name, E) exchanges -> String.eqb name "XTAE" = false ->
  (trades name E n <-> open_dayb E n = true).
Proof.
  intros name E n H N. unfold trades. rewrite N. symmetry. apply open_dayb_ok.
  apply (the_settled name E H). intros ->. discriminate N.
Qed.

Lemma rule_on : forall rs n, forallb settled rs = true ->
  memb (midnight n) (calendar_holidays rs (midnight n) (midnight n)) = true ->
  exists r, In r rs /\ falls_on r n.
Proof.
  intros rs n S H. unfold memb in H. apply existsb_exists in H. destruct H as [x [H E1]].
  apply Z.eqb_eq in E1. subst x. rewrite !(midnight_at n) in H. apply holidays_iff in H; [apply H|exact S].
Qed.

(** Christmas 2020 in New York, and the day before. *)
Example c51_sessions_ex :
  trades "XNYS" exchange_calendar_xnys.calendar (date_number 2020 12 24) /\
  ~ trades "XNYS" exchange_calendar_xnys.calendar (date_number 2020 12 25) /\
  special_closing exchange_calendar_xnys.calendar (date_number 2020 12 24) (Time 13 0 0).
Proof.
  split; [|split].
  - rewrite (plain_trades _ _ _ xnys_here) by reflexivity. vm_compute. reflexivity.
  - rewrite (plain_trades _ _ _ xnys_here) by reflexivity. vm_compute. discriminate.
  - left. destruct (the_settled _ _ xnys_here) as [_ [S2 _]]. rewrite forallb_forall in S2.
    assert (F : exists t rs, In (t, rs) (ex_special_closes exchange_calendar_xnys.calendar) /\ t = Time 13 0 0 /\
      memb (midnight (date_number 2020 12 24)) (calendar_holidays rs (midnight (date_number 2020 12 24))
        (midnight (date_number 2020 12 24))) = true).
    { assert (X : existsb (fun p : time * list rule => (let (h, m, s) := fst p in (h =? 13) && (m =? 0) && (s =? 0)) &&
        memb (midnight (date_number 2020 12 24)) (calendar_holidays (snd p) (midnight (date_number 2020 12 24))
        (midnight (date_number 2020 12 24)))) (ex_special_closes exchange_calendar_xnys.calendar) = true)
        by (vm_compute; reflexivity).
      apply existsb_exists in X. destruct X as [[[h m s] r] [I X]]. cbn [fst snd] in X.
      rewrite !andb_true_iff, !Z.eqb_eq in X. destruct X as [[[-> ->] ->] X].
      exists (Time 13 0 0), r. tauto. }
    destruct F as [t' [r [I [-> X]]]].
    destruct (rule_on r (date_number 2020 12 24)) as [q [Q1 Q2]]; [exact (S2 _ I)|exact X|].
    exists r, q. tauto.
Qed.

(** Rules do not close the exchange before 1970: New York's calendar, built from
    1969 on, has a session on Christmas 1969. *)
Theorem c51_before_1970_refuted : exists z b,
  In (ex_tz exchange_calendar_xnys.calendar, z) zones /\
  build_exchange exchange_calendar_xnys.calendar z (at_midnight_of (date_number 1969 1 1))
    (at_midnight_of (date_number 1970 12 31)) = Ok b /\
  (exists r, In r (ex_regular_holidays exchange_calendar_xnys.calendar) /\ falls_on r (date_number 1969 12 25)) /\
  is_session (cal b) (at_midnight_of (date_number 1969 12 25)) = true /\
  is_session (cal b) (at_midnight_of (date_number 1970 12 25)) = false.
Proof.
  destruct (c53_clocks _ _ xnys_here) as [z [Hz Hc]]. exists z.
  assert (T : trades "XNYS" exchange_calendar_xnys.calendar (date_number 1969 12 25)).
  { rewrite (plain_trades _ _ _ xnys_here) by reflexivity. vm_compute. reflexivity. }
  assert (T' : ~ trades "XNYS" exchange_calendar_xnys.calendar (date_number 1970 12 25)).
  { rewrite (plain_trades _ _ _ xnys_here) by reflexivity. vm_compute. discriminate. }
  assert (R : forall a b, (a <=? b) = true -> at_midnight_of a <= at_midnight_of b)
    by (intros a b Hab; apply at_midnight_le; apply Z.leb_le; exact Hab).
  assert (M1 : is_midnight (at_midnight_of (date_number 1969 1 1))) by (apply is_midnight_at; eauto).
  destruct (c53_constructed _ _ z _ (at_midnight_of (date_number 1969 1 1))
    (at_midnight_of (date_number 1970 12 31)) xnys_here Hc) as [b [ss [Hb _]]].
  - apply R. vm_compute. reflexivity.
  - apply Z.ltb_lt. vm_compute. reflexivity.
  - exact M1.
  - exists (date_number 1969 12 25). split; [|exact T]. split; apply R; vm_compute; reflexivity.
  - assert (Q : forallb (fun n => n <? date_number 1969 1 1) (conflict_days "XNYS") = true)
      by (vm_compute; reflexivity).
    rewrite forallb_forall in Q. intros n Hn [A _]. rewrite at_midnight_le in A. specialize (Q n Hn). lia.
  - exists b. split; [exact Hz|]. split; [exact Hb|].
    destruct (c51_sessions _ _ _ _ _ _ xnys_here M1 Hb) as [_ S]. split; [|split].
    + apply rule_on; [apply (the_settled _ _ xnys_here); discriminate|vm_compute; reflexivity].
    + apply S; [|exact T]. split; apply R; vm_compute; reflexivity.
    + apply not_true_iff_false. rewrite S; [exact T'|]. split; apply R; vm_compute; reflexivity.
Qed.

(** Athens closes on the Orthodox Good Fridays up to 2020 only. *)
Theorem c51_orthodox_good_friday : forall y n, is_orthodox_easter y n -> 1980 <= y <= 2020 ->
  ~ trades "ASEX" exchange_calendar_asex.calendar (n - 2).
Proof.
  intros y n Hn Hy T. destruct T as [_ [_ T]]. apply T.
  assert (Q : forallb (fun y => memb (orthodox_easter y - 2) (ex_adhoc_holidays exchange_calendar_asex.calendar))
    (year_range 1980 2020) = true) by (vm_compute; reflexivity).
  rewrite forallb_forall in Q. specialize (Q y (proj2 (year_range_In _ _ _) Hy)).
  unfold memb in Q. apply existsb_exists in Q. destruct Q as [x [Q1 Q2]]. apply Z.eqb_eq in Q2. subst x.
  replace n with (orthodox_easter y); [exact Q1|].
  apply (first_from_unique _ _ _ _ (c49_orthodox_easter y ltac:(lia)) Hn).
Qed.

Theorem c51_orthodox_good_friday_refuted : exists n, is_orthodox_easter 2021 n /\
  trades "ASEX" exchange_calendar_asex.calendar (n - 2).
Proof.
  exists (orthodox_easter 2021). split; [apply c49_orthodox_easter; lia|].
  rewrite (plain_trades _ _ _ asex_here) by reflexivity. vm_compute. reflexivity.
Qed.

(** *** With the default start *)

(** The exchanges other than New York's futures and Tokyo start in 1990 by default;
    all of them trade in the first weeks. *)
Lemma tel_aviv_january : trades "XTAE" exchange_calendar_xtae.calendar (date_number 1990 1 11).
Proof.
  change (tel_aviv_day exchange_calendar_xtae.calendar (date_number 1990 1 11)). split; [reflexivity|]. split.
  - intros [_ [y [Hy T]]].
    assert (C : exists d, d = date_number 1990 1 11 /\
      calendar_holidays (ex_regular_holidays exchange_calendar_xtae.calendar) (midnight d) (midnight d) = [] /\
      (3 <=? year_of (day_of (midnight d))) && (year_of (day_of (midnight d)) <=? 9997) = true).
    { exists (date_number 1990 1 11). split; [reflexivity|]. split; vm_compute; reflexivity. }
    destruct C as [d [Ed [C R]]]. rewrite <- Ed in T. apply andb_true_iff in R. destruct R as [R1 R2].
    apply Z.leb_le in R1, R2.
    pose proof (proj2 (c50_tel_aviv (midnight d) (midnight d) (d * 86400000000000) R1 R2)) as I.
    rewrite C in I. apply I. split; [|exists y, d; tauto].
    change (midnight d) with (d * 86400000000000). lia.
  - assert (Q : memb (date_number 1990 1 11) (ex_adhoc_holidays exchange_calendar_xtae.calendar) = false)
      by (vm_compute; reflexivity).
    intros I. apply not_true_iff_false in Q. apply Q. unfold memb. apply existsb_exists.
    exists (date_number 1990 1 11). split; [exact I|apply Z.eqb_refl].
Qed.

Lemma trades_early : forall y, In y [1990; 2000] -> forall name E, In (name, E) exchanges ->
  String.eqb name "XTAE" = false -> trades name E (date_number y 1 11).
Proof.
  assert (Q : forallb (fun y => forallb (fun p => open_dayb (snd p) (date_number y 1 11)) exchanges)
    [1990; 2000] = true) by (vm_compute; reflexivity).
  intros y Hy name E H N. rewrite (plain_trades _ _ _ H N). rewrite forallb_forall in Q. specialize (Q y Hy).
  rewrite forallb_forall in Q. exact (Q _ H).
Qed.

(** On the clocks of the tz database, every exchange can be constructed from 1990 or
    2000 to any later end before its next contradictory day. *)
Theorem c53_default_range : forall y name E stop, In y [1990; 2000] -> In (name, E) exchanges ->
  (name = "XTAE"%string -> y = 1990) ->
  at_midnight_of (date_number y 1 11) <= stop ->
  (forall n, In n (conflict_days name) -> date_number y 1 1 <= n -> stop < at_midnight_of n) ->
  exists z b ss, In (ex_tz E, z) zones /\
    build_exchange E z (at_midnight_of (date_number y 1 1)) stop = Ok b /\
    has_schedule (cal b) ss /\ well_formed ss /\
    (forall x, is_label_of ss x <-> exists n, x = at_midnight_of n /\
       at_midnight_of (date_number y 1 1) <= x <= stop /\ trades name E n) /\
    (forall s, In s ss -> venue_row name E z (at_midnight_of (date_number y 1 1)) stop s).
Proof.
  intros y name E stop Hy H Ht Hs Hbad. destruct (c53_clocks name E H) as [z [Hz Hc]].
  assert (D : forallb (fun y => (date_number 1950 1 1 <=? date_number y 1 1) &&
      (not_a_time + 2 * one_day <? at_midnight_of (date_number y 1 1)) &&
      (date_number y 1 1 <=? date_number y 1 11)) [1990; 2000] = true) by (vm_compute; reflexivity).
  rewrite forallb_forall in D. specialize (D y Hy). rewrite !andb_true_iff in D. destruct D as [[D1 D2] D3].
  destruct (c53_constructed name E z _ (at_midnight_of (date_number y 1 1)) stop H Hc) as [b [ss [B1 [B2 [B3 [B4 B5]]]]]].
  - apply at_midnight_le. assert (date_number 1902 1 1 <= date_number 1950 1 1) by (vm_compute; discriminate).
    destruct (String.eqb name "XNYS"); lia.
  - lia.
  - apply is_midnight_at. eauto.
  - exists (date_number y 1 11). split; [split; [apply at_midnight_le; lia|exact Hs]|].
    destruct (String.eqb_spec name "XTAE") as [->|N].
    + rewrite (Ht eq_refl), (the_tel_aviv E H). exact tel_aviv_january.
    + apply trades_early; [exact Hy|exact H|]. apply String.eqb_neq. exact N.
  - intros n Hn [A B]. rewrite at_midnight_le in A. specialize (Hbad n Hn A). lia.
  - exists z, b, ss. tauto.
Qed.

(** The default end is a year ahead: from early 2028 on, Istanbul and Kuala Lumpur
    cannot be constructed with the default range. *)
Theorem c53_default_refuted : forall name, In name ["XIST"; "XKLS"]%string ->
  exists E z, In (name, E) exchanges /\ In (ex_tz E, z) zones /\
    forall stop, at_midnight_of (date_number 2029 4 25) <= stop ->
      build_exchange E z (at_midnight_of (date_number 1990 1 1)) stop = Raise ValueError.
Proof.
  assert (G : forall name E n, In (name, E) exchanges -> String.eqb name "XTAE" = false ->
    In n (conflict_days name) ->
    (date_number 1990 1 11 <=? n - 1) && (n + 2 <=? date_number 2029 4 25) = true ->
    exists E z, In (name, E) exchanges /\ In (ex_tz E, z) zones /\
    forall stop, at_midnight_of (date_number 2029 4 25) <= stop ->
      build_exchange E z (at_midnight_of (date_number 1990 1 1)) stop = Raise ValueError).
  { intros name E n H N Hn Hr. apply andb_true_iff in Hr. destruct Hr as [R1 R2].
    apply Z.leb_le in R1, R2. destruct (c53_clocks name E H) as [z [Hz Hc]]. exists E, z.
    split; [exact H|]. split; [exact Hz|]. intros stop Hs.
    assert (D : (date_number 1902 1 1 <=? date_number 1990 1 1) && (date_number 1950 1 1 <=? date_number 1990 1 1) &&
      (date_number 1990 1 1 <=? date_number 1990 1 11) = true) by (vm_compute; reflexivity).
    rewrite !andb_true_iff in D. destruct D as [[D1 D2] D3]. apply Z.leb_le in D1, D2, D3.
    assert (B : at_midnight_of (n + 2) <= stop) by (eapply Z.le_trans; [apply at_midnight_le; exact R2|exact Hs]).
    apply (c53_conflict name E z _ _ stop n H Hc).
    - apply at_midnight_le. destruct (String.eqb name "XNYS"); assumption.
    - apply is_midnight_at. eauto.
    - exists (date_number 1990 1 11). split; [|apply trades_early; [left; reflexivity|exact H|exact N]].
      split; [apply at_midnight_le; exact D3|]. eapply Z.le_trans; [|exact B]. apply at_midnight_le. lia.
    - exact Hn.
    - apply at_midnight_le. lia.
    - exact B. }
  intros name [<-|[<-|[]]].
  - apply (G _ exchange_calendar_xist.calendar (date_number 2029 4 23)); [apply here; reflexivity|reflexivity|left; reflexivity|].
    vm_compute. reflexivity.
  - apply (G _ exchange_calendar_xkls.calendar (date_number 2029 2 13)); [apply here; reflexivity|reflexivity| |].
    + right. left. reflexivity.
    + vm_compute. reflexivity.
Qed.

(** New York closes at 13:00 local time, 18:00 UTC, on Christmas Eve 2020. *)
Example c52_ex : exists z b, In ("America/New_York"%string, z) zones /\ good_zone z /\
  build_exchange exchange_calendar_xnys.calendar z (at_midnight_of (date_number 1990 1 1))
    (at_midnight_of (date_number 2020 12 31)) = Ok b /\
  session_close (cal b) (at_midnight_of (date_number 2020 12 24)) =
    Ok (at_midnight_of (date_number 2020 12 24) + 18 * 60 * one_minute).
Proof.
  destruct (c53_default_range 1990 "XNYS" _ (at_midnight_of (date_number 2020 12 31)) (or_introl eq_refl) xnys_here)
    as [z [b [ss [Hz [Hb _]]]]].
  - discriminate.
  - apply at_midnight_le. apply Z.leb_le. vm_compute. reflexivity.
  - assert (Q : forallb (fun n => n <? date_number 1990 1 1) (conflict_days "XNYS") = true)
      by (vm_compute; reflexivity).
    rewrite forallb_forall in Q. intros n Hn A. specialize (Q n Hn). lia.
  - assert (Hz' : ex_tz exchange_calendar_xnys.calendar = "America/New_York"%string) by reflexivity.
    rewrite Hz' in Hz. exists z, b. split; [exact Hz|].
    assert (Zs : forallb (fun p => if String.eqb (fst p) "America/New_York" then
      good_zoneb (snd p) &&
      match tz_localize (snd p) (local_time (at_midnight_of (date_number 2020 12 24)) 0 (Time 13 0 0)) with
      | Ok u => u =? at_midnight_of (date_number 2020 12 24) + 18 * 60 * one_minute
      | Raise _ => false
      end else true) zones = true) by (vm_compute; reflexivity).
    rewrite forallb_forall in Zs. specialize (Zs _ Hz). cbn [fst snd] in Zs.
    rewrite String.eqb_refl, andb_true_iff in Zs. destruct Zs as [G L].
    apply good_zoneb_ok in G. split; [exact G|]. split; [exact Hb|].
    destruct (tz_localize z _) as [u|] eqn:Lu in L; [|discriminate L]. apply Z.eqb_eq in L.
    apply tz_localize_Ok in Lu. rewrite L in Lu.
    assert (R : (not_a_time + 2 * one_day <? at_midnight_of (date_number 1990 1 1)) &&
      (at_midnight_of (date_number 1990 1 1) <=? at_midnight_of (date_number 2020 12 24)) &&
      (at_midnight_of (date_number 2020 12 24) <=? at_midnight_of (date_number 2020 12 31)) &&
      (at_midnight_of (date_number 1990 1 1) <=? at_midnight_of (date_number 2020 12 24) + 18 * 60 * one_minute) &&
      (at_midnight_of (date_number 2020 12 24) + 18 * 60 * one_minute <=? at_midnight_of (date_number 2020 12 31)) = true)
      by (vm_compute; reflexivity).
    rewrite !andb_true_iff in R. destruct R as [[[[R1 R2] R3] R4] R5].
    apply Z.ltb_lt in R1. apply Z.leb_le in R2, R3, R4, R5.
    refine (proj1 (proj2 (c52_special_close "XNYS" _ z _ (at_midnight_of (date_number 2020 12 31)) b _
      (Time 13 0 0) _ xnys_here G R1 _ Hb (conj R2 R3) _ Lu (conj R4 R5)))).
    + apply is_midnight_at. eauto.
    + apply c51_sessions_ex.
Qed.

(** ** Assumptions *)
Print Assumptions c51_sessions.
Print Assumptions c51_range_independent.
Print Assumptions c52_rows.
Print Assumptions c52_special_close.
Print Assumptions c52_special_open.
Print Assumptions c52_regular_day.
Print Assumptions c52_early_closes.
Print Assumptions c52_same_times.
Print Assumptions c53_constructed.
Print Assumptions c53_conflict.
Print Assumptions c53_clocks.
Print Assumptions c51_before_1970_refuted.
Print Assumptions c51_orthodox_good_friday.
Print Assumptions c51_orthodox_good_friday_refuted.
Print Assumptions c53_default_range.
Print Assumptions c53_default_refuted.
