(** How long the sessions of the exchanges last (C90). *)
From Coq Require Import ZArith String List Bool Lia Sorted.
From Verif.Model Require Import Base Dates Zone Queries Build Holidays Exchange.
From Verif.Spec Require Import Schedule Construction Civil Rules Feasts Venue Almanac Hours Duration.
From Verif.Proofs Require Import BaseLemmas DatesLemmas ScheduleLemmas QueryLemmas BuildLemmas RuleLemmas
  ZoneLemmas ShapeLemmas VenueLemmas VenueSound VenueData HoursRules SteadyLemmas.
From Verif.Properties Require Import QueryProps ExchangeProps HoursProps MarketProps.
From Verif.Exchanges Require Import All zones.
Import ListNotations.
Open Scope Z_scope.

Lemma all_steady : forallb (fun p => forallb (fun q =>
  if String.eqb (ex_tz (snd p)) (fst q) then steady (snd p) (snd q) (date_number 1950 1 1) else true) zones)
  exchanges = true.
Proof. vm_compute. reflexivity. Qed.

Lemma place_steady : forall name E z, In (name, E) exchanges -> In (ex_tz E, z) zones ->
  steady E z (date_number 1950 1 1) = true.
Proof.
  intros name E z HE Hz. pose proof all_steady as Q. rewrite forallb_forall in Q. specialize (Q _ HE).
  cbv beta in Q. rewrite forallb_forall in Q. specialize (Q _ Hz). cbn [fst snd] in Q.
  rewrite String.eqb_refl in Q. exact Q.
Qed.

Lemma trades_weekday : forall name E n, trades name E n -> weekday_open E n = true.
Proof.
  intros name E n T. unfold weekday_open.
  assert (Q : nth_error (ex_weekmask E) (Z.to_nat (day_of_week n)) = Some true).
  { unfold trades in T. destruct (String.eqb name "XTAE"); apply T. }
  rewrite Q. reflexivity.
Qed.

(** On a day an exchange trades, from 1950 on, its clocks are not changed between any
    two of the times it uses: the time between them is what the clocks show. *)
Theorem c90_steady : forall name E z n k t k' t' u v, In (name, E) exchanges -> In (ex_tz E, z) zones ->
  date_number 1950 1 1 <= n -> trades name E n ->
  In (k, t) (clock_times E) -> In (k', t') (clock_times E) ->
  instant_of z (local_time (at_midnight_of n) k t) u ->
  instant_of z (local_time (at_midnight_of n) k' t') v ->
  v - u = local_time (at_midnight_of n) k' t' - local_time (at_midnight_of n) k t.
Proof.
  intros name E z n k t k' t' u v HE Hz Hn T I I' U V.
  destruct (clocks_1950 name E z HE Hz) as [lo [[G _] _]].
  rewrite (steady_ok E z (date_number 1950 1 1) n k t k' t' u v (place_steady name E z HE Hz) G Hn
    (trades_weekday name E n T) I I' U V), !tod_local. lia.
Qed.

Lemma open_time_listed : forall E n t, in_force (ex_open_times E) n t -> In (ex_open_offset E, t) (clock_times E).
Proof.
  intros E n t A. unfold clock_times, times_of. rewrite !in_app_iff. left. apply in_map_iff. exists t.
  split; [reflexivity|]. apply (in_force_In _ n). exact A.
Qed.
Lemma close_time_listed : forall E n t, in_force (ex_close_times E) n t -> In (ex_close_offset E, t) (clock_times E).
Proof.
  intros E n t A. unfold clock_times, times_of. rewrite !in_app_iff. right. left. apply in_map_iff. exists t.
  split; [reflexivity|]. apply (in_force_In _ n). exact A.
Qed.
Lemma closing_In : forall E n t, special_closing E n t ->
  In t (map fst (ex_special_closes E) ++ map fst (ex_special_closes_adhoc E)).
Proof.
  intros E n t Ht. apply in_app_iff. destruct Ht as [[rs [r [B _]]]|[ds [B _]]].
  - left. apply in_map_iff. exists (t, rs). tauto.
  - right. apply in_map_iff. exists (t, ds). tauto.
Qed.

(** The two ends of a session: when it opens and closes, and how far apart that is on
    the clocks. *)
Lemma ends_of_day : forall name E H z start stop b n, In (name, E) exchanges -> In (name, H) timetable ->
  In (place H, z) zones -> date_number 1950 1 1 <= n ->
  not_a_time + 2 * one_day < start -> is_midnight start ->
  build_exchange E z start stop = Ok b -> start <= at_midnight_of n <= stop ->
  is_session (cal b) (at_midnight_of n) = true ->
  exists t t' u v, In t (map snd (ex_open_times E)) /\
    In t' (map snd (ex_close_times E) ++ map fst (ex_special_closes E) ++ map fst (ex_special_closes_adhoc E)) /\
    (exists o, opening H n o /\ t = minute_after o) /\
    (exists c, (closing H n c \/ early_closing H n c) /\ t' = time_of c) /\
    session_open (cal b) (at_midnight_of n) = Ok u /\ session_close (cal b) (at_midnight_of n) = Ok v /\
    v - u = local_time (at_midnight_of n) 0 t' - local_time (at_midnight_of n) (- nights H) t.
Proof.
  intros name E H z start stop b n HE HH Hz Hn Hrep M1 Hb R S. pose proof (the_hours name E H HE HH) as M.
  rewrite <- (m_place E H M) in Hz. destruct (clocks_1950 name E z HE Hz) as [lo [[G _] _]].
  assert (T : trades name E n) by (apply (proj2 (c51_sessions name E z start stop b HE M1 Hb)); assumption).
  destruct (times_of_day name E z start stop b n HE G Hrep M1 Hb R T)
    as [u [v [bs [be [Q1 [F1 [Q2 [F2 _]]]]]]]].
  destruct F1 as [[t [A _]]|[_ [t [A B]]]]; [exfalso; exact (no_special_opening E H n t M A)|].
  pose proof (c90_steady name E z n (ex_open_offset E) t) as St. rewrite (m_nights E H M) in *.
  pose proof (open_time_listed E n t A) as L. rewrite (m_nights E H M) in L.
  assert (O : exists o, opening H n o /\ t = minute_after o) by exact (m_opening E H M n t A).
  pose proof (in_force_In _ n t A) as L1.
  destruct F2 as [[t' [A' [B' _]]]|[_ [t' [A' B']]]]; exists t, t', u, v.
  - split; [exact L1|]. pose proof (closing_In E n t' A') as L2. split; [apply in_app_iff; right; exact L2|].
    split; [exact O|]. split.
    { destruct (proj1 (closing_iff E H n M) t' A') as [c [-> Hc]]. exists c. tauto. }
    split; [exact Q1|]. split; [exact Q2|].
    apply (St 0 t' u v HE Hz Hn T L); [|exact B|exact B'].
    apply special_clock_time, closes_clock. exact L2.
  - split; [exact L1|]. split; [apply in_app_iff; left; exact (in_force_In _ n t' A')|].
    split; [exact O|]. split.
    { destruct (m_closing E H M n t' A') as [c [Hc ->]]. exists c. tauto. }
    split; [exact Q1|]. split; [exact Q2|]. rewrite (m_same_day E H M) in B'.
    apply (St 0 t' u v HE Hz Hn T L); [|exact B|exact B'].
    rewrite <- (m_same_day E H M). apply (close_time_listed E n). exact A'.
Qed.

Lemma clock_span : forall H n o c,
  local_time (at_midnight_of n) 0 (time_of c) - local_time (at_midnight_of n) (- nights H) (minute_after o)
  + one_minute = published_minutes H o c * one_minute.
Proof.
  intros H n o c. unfold local_time, published_minutes, clock_minutes, time_of, minute_after.
  change one_day with 86400000000000. change one_minute with 60000000000.
  destruct (Z.eqb_spec (snd o) 59); cbn [hour minute second]; lia.
Qed.

(** Every session from 1950 on lasts exactly the published number of minutes, from its
    first minute to its last one, also when the clocks of the place are changed that
    week. *)
Theorem c90_length : forall name E H z start stop b n, In (name, E) exchanges -> In (name, H) timetable ->
  In (place H, z) zones -> date_number 1950 1 1 <= n ->
  not_a_time + 2 * one_day < start -> is_midnight start ->
  build_exchange E z start stop = Ok b -> start <= at_midnight_of n <= stop ->
  is_session (cal b) (at_midnight_of n) = true ->
  exists o c u v, opening H n o /\ (closing H n c \/ early_closing H n c) /\
    session_open (cal b) (at_midnight_of n) = Ok u /\ session_close (cal b) (at_midnight_of n) = Ok v /\
    v - u + one_minute = published_minutes H o c * one_minute.
Proof.
  intros name E H z start stop b n HE HH Hz Hn Hrep M1 Hb R S.
  destruct (ends_of_day name E H z start stop b n HE HH Hz Hn Hrep M1 Hb R S)
    as [t [t' [u [v [_ [_ [[o [O ->]] [[c [C ->]] [Q1 [Q2 D]]]]]]]]]].
  exists o, c, u, v. rewrite D, clock_span. tauto.
Qed.

(** ** The longest session *)

Lemma longest_checked : forallb (fun p => forallb (fun q =>
  if String.eqb (fst p) (fst q) then
    String.eqb (fst p) "BVMF" ||
    forallb (fun t => forallb (fun t' => tod (ex_close_offset (snd p)) t' - tod (ex_open_offset (snd p)) t
        <=? snd q * 3600000000)
      (map snd (ex_close_times (snd p)) ++ map fst (ex_special_closes (snd p)) ++
       map fst (ex_special_closes_adhoc (snd p)))) (map snd (ex_open_times (snd p)))
  else true) longest_session) exchanges = true.
Proof. vm_compute. reflexivity. Qed.

(** No session from 1950 on is longer than the tests allow for its exchange, except
    those of Sao Paulo since 4 November 2019. *)
Theorem c90_longest : forall name E H z start stop b n most u v, In (name, E) exchanges ->
  In (name, H) timetable -> In (name, most) longest_session ->
  In (place H, z) zones -> date_number 1950 1 1 <= n ->
  not_a_time + 2 * one_day < start -> is_midnight start ->
  build_exchange E z start stop = Ok b -> start <= at_midnight_of n <= stop ->
  is_session (cal b) (at_midnight_of n) = true ->
  (name = "BVMF"%string -> n < date_number 2019 11 4) ->
  session_open (cal b) (at_midnight_of n) = Ok u -> session_close (cal b) (at_midnight_of n) = Ok v ->
  1000 * (v - u) <= most * (60 * one_minute).
Proof.
  intros name E H z start stop b n most u v HE HH Hm Hz Hn Hrep M1 Hb R S Sao Qu Qv.
  destruct (ends_of_day name E H z start stop b n HE HH Hz Hn Hrep M1 Hb R S)
    as [t [t' [u' [v' [L [L' [[o [O Eo]] [[c [C Ec]] [Q1 [Q2 D]]]]]]]]]].
  rewrite Q1 in Qu. rewrite Q2 in Qv. injection Qu as ->. injection Qv as ->.
  change one_minute with 60000000000.
  destruct (string_dec name "BVMF") as [->|Nb].
  - assert (HB : In ("BVMF"%string, Hours "America/Sao_Paulo" (always 10 0) 0 None
      (changed (17, 0) 2019 11 4 (18, 0)) []) timetable) by (unfold timetable; cbn [In]; tauto).
    rewrite (timetable_unique _ _ _ HH HB) in *. cbn [opening closing nights early_closing early] in *.
    assert (Em : most = 7000).
    { assert (Q : forallb (fun q => negb (String.eqb "BVMF" (fst q)) || (snd q =? 7000)) longest_session = true)
        by (vm_compute; reflexivity).
      rewrite forallb_forall in Q. specialize (Q _ Hm). cbn [fst snd] in Q. rewrite String.eqb_refl in Q.
      cbn [negb orb] in Q. lia. }
    unfold always in O. subst o most. specialize (Sao eq_refl). destruct C as [[[_ C]|[C _]]|C].
    + subst c t t'. rewrite D. unfold local_time, time_of, minute_after. cbn [fst snd hour minute second Z.eqb].
      change one_day with 86400000000000. lia.
    + lia.
    + destruct C as [hs [h [[] _]]].
  - pose proof longest_checked as Q. rewrite forallb_forall in Q. specialize (Q _ HE). cbv beta in Q.
    rewrite forallb_forall in Q. specialize (Q _ Hm). cbn [fst snd] in Q. rewrite String.eqb_refl in Q.
    apply orb_true_iff in Q. destruct Q as [Q|Q]; [apply String.eqb_eq in Q; contradiction|].
    rewrite forallb_forall in Q. specialize (Q _ L). cbv beta in Q. rewrite forallb_forall in Q.
    specialize (Q _ L'). cbv beta in Q. pose proof (the_hours name E H HE HH) as M.
    rewrite (m_nights E H M), (m_same_day E H M) in Q. rewrite !tod_local in D. lia.
Qed.

(** Every exchange that has tests has such a bound (us_futures has none). *)
Theorem c90_bounded : forall name E, In (name, E) exchanges -> name <> "us_futures"%string ->
  exists most, In (name, most) longest_session /\ 0 < most <= 24000.
Proof.
  intros name E HE Nu.
  assert (Q : forallb (fun p => String.eqb (fst p) "us_futures" ||
    existsb (fun q => String.eqb (fst p) (fst q) && (0 <? snd q) && (snd q <=? 24000))
    longest_session) exchanges = true) by (vm_compute; reflexivity).
  rewrite forallb_forall in Q. specialize (Q _ HE). apply orb_true_iff in Q.
  destruct Q as [Q|Q]; [apply String.eqb_eq in Q; contradiction|].
  apply existsb_exists in Q. destruct Q as [[s most] [I Q]].
  cbn [fst snd] in Q. rewrite !andb_true_iff in Q. destruct Q as [[Q1 Q2] Q3]. apply String.eqb_eq in Q1.
  subst s. exists most. split; [exact I|lia].
Qed.

(** ** The number of minutes *)

Definition run (a : Z) (k : nat) : list Z := map (fun i => a + Z.of_nat i * one_minute) (seq 0 k).

Lemma run_from_sorted : forall a k i, StronglySorted Z.lt (map (fun i => a + Z.of_nat i * one_minute) (seq i k)) /\
  forall x, In x (map (fun i => a + Z.of_nat i * one_minute) (seq i k)) -> a + Z.of_nat i * one_minute <= x.
Proof.
  intros a k. induction k as [|k IH]; intros i; cbn [seq map].
  - split; [constructor|intros x []].
  - pose proof one_minute_pos. destruct (IH (Datatypes.S i)) as [A B]. split.
    + constructor; [exact A|]. apply Forall_forall. intros x Hx. specialize (B x Hx). lia.
    + intros x [<-|Hx]; [lia|]. specialize (B x Hx). lia.
Qed.

Lemma run_In : forall a b x, a <= b -> (one_minute | b - a) ->
  (In x (run a (Z.to_nat ((b - a) / one_minute + 1))) <-> a <= x <= b /\ (one_minute | x - a)).
Proof.
  intros a b x L [q Q]. pose proof one_minute_pos as P. rewrite Q, Z.div_mul by lia.
  unfold run. rewrite in_map_iff. split.
  - intros [i [<- I]]. apply in_seq in I. split; [|exists (Z.of_nat i); lia].
    assert (Z.of_nat i <= q) by lia. split; [lia|]. replace b with (a + q * one_minute) by lia.
    apply Z.add_le_mono_l, Z.mul_le_mono_nonneg_r; lia.
  - intros [R [i I]]. exists (Z.to_nat i).
    assert (0 <= i) by (apply (Z.mul_le_mono_pos_r _ _ one_minute P); lia).
    assert (i <= q) by (apply (Z.mul_le_mono_pos_r _ _ one_minute P); lia).
    split; [rewrite Z2Nat.id by lia; lia|]. apply in_seq. lia.
Qed.

Lemma sorted_app : forall l1 l2, StronglySorted Z.lt l1 -> StronglySorted Z.lt l2 ->
  (forall x y, In x l1 -> In y l2 -> x < y) -> StronglySorted Z.lt (l1 ++ l2).
Proof.
  intros l1 l2 S1 S2 L. induction S1 as [|x l1 S1 IH F]; [exact S2|]. cbn [app]. constructor.
  - apply IH. intros a c Ha Hc. apply L; [right; exact Ha|exact Hc].
  - apply Forall_app. split; [exact F|]. apply Forall_forall. intros y Hy. apply L; [left; reflexivity|exact Hy].
Qed.

Lemma run_length : forall a b, a <= b -> Z.of_nat (length (run a (Z.to_nat ((b - a) / one_minute + 1))))
  = (b - a) / one_minute + 1.
Proof.
  intros a b L. unfold run. rewrite map_length, seq_length.
  pose proof (Z.div_pos (b - a) one_minute ltac:(lia) one_minute_pos). lia.
Qed.

(** The minutes of a session that has no break, and of one that has. *)
Lemma minutes_counted : forall s l, ordered_session s -> whole_minutes s -> lists_exactly (session_minute s) l ->
  Z.of_nat (length l) =
  match s_break s with
  | None => (s_close s - s_open s) / one_minute + 1
  | Some (bs, be) => (bs - s_open s) / one_minute + 1 + ((s_close s - be) / one_minute + 1)
  end.
Proof.
  intros s l Ho Hw [S1 I1]. unfold session_minute in I1. unfold ordered_session in Ho. unfold whole_minutes in Hw.
  destruct (s_break s) as [[bs be]|].
  - rename Hw into K.
    rewrite (SSorted_lt_unique l (run (s_open s) (Z.to_nat ((bs - s_open s) / one_minute + 1)) ++
      run be (Z.to_nat ((s_close s - be) / one_minute + 1)))).
    + rewrite app_length, Nat2Z.inj_add, !run_length by lia. reflexivity.
    + exact S1.
    + apply sorted_app; [apply run_from_sorted|apply run_from_sorted|].
      intros x y Hx Hy. apply run_In in Hx; [|lia|apply K]. apply run_In in Hy; [|lia|apply K]. lia.
    + intros x. rewrite I1, in_app_iff, !run_In by (try lia; apply K). tauto.
  - rename Hw into K.
    rewrite (SSorted_lt_unique l (run (s_open s) (Z.to_nat ((s_close s - s_open s) / one_minute + 1)))).
    + apply run_length. lia.
    + exact S1.
    + apply run_from_sorted.
    + intros x. rewrite I1, run_In by (try lia; apply K). tauto.
Qed.

Lemma day_row : forall name E z start stop b n, In (name, E) exchanges -> good_zone z ->
  not_a_time + 2 * one_day < start -> is_midnight start -> build_exchange E z start stop = Ok b ->
  start <= at_midnight_of n <= stop -> trades name E n ->
  exists s l, ordered_session s /\ whole_minutes s /\ venue_row name E z start stop s /\
    s_label s = at_midnight_of n /\
    session_open (cal b) (at_midnight_of n) = Ok (s_open s) /\
    session_close (cal b) (at_midnight_of n) = Ok (s_close s) /\
    session_break_start (cal b) (at_midnight_of n) = Ok (option_map fst (s_break s)) /\
    minutes_for_session (cal b) (at_midnight_of n) = Ok l /\ lists_exactly (session_minute s) l.
Proof.
  intros name E z start stop b n HE G Hrep M1 Hb R T.
  destruct (c52_rows name E z start stop b HE G Hrep M1 Hb) as [ss [A [B [C F]]]].
  assert (L : is_label_of ss (at_midnight_of n)) by (apply C; exists n; tauto).
  destruct L as [s [Hs Es]]. destruct (c22_accessors ss (cal b) s B A Hs) as [Q1 [Q2 [Q3 _]]].
  destruct (c08_minutes_for_session ss (cal b) s B A Hs) as [l [Q4 Q5]].
  destruct (wf_In ss s B Hs) as [W1 W2]. 
  rewrite <- Es in Q1, Q2, Q3, Q4. exists s, l. split; [exact W1|]. split; [exact W2|].
  split; [apply F; exact Hs|]. split; [symmetry; exact Es|]. tauto.
Qed.

Lemma whole_div : forall d m, d + one_minute = m * one_minute -> d / one_minute + 1 = m.
Proof.
  intros d m D. pose proof one_minute_pos. replace d with ((m - 1) * one_minute) by lia.
  rewrite Z.div_mul by lia. lia.
Qed.

(** A session from 1950 on that has no break lists one minute for each published
    minute. *)
Theorem c90_minutes : forall name E H z start stop b n, In (name, E) exchanges -> In (name, H) timetable ->
  In (place H, z) zones -> date_number 1950 1 1 <= n ->
  not_a_time + 2 * one_day < start -> is_midnight start ->
  build_exchange E z start stop = Ok b -> start <= at_midnight_of n <= stop ->
  is_session (cal b) (at_midnight_of n) = true ->
  session_break_start (cal b) (at_midnight_of n) = Ok None ->
  exists o c l, opening H n o /\ (closing H n c \/ early_closing H n c) /\
    minutes_for_session (cal b) (at_midnight_of n) = Ok l /\
    Z.of_nat (length l) = published_minutes H o c.
Proof.
  intros name E H z start stop b n HE HH Hz Hn Hrep M1 Hb R S Nb.
  destruct (c90_length name E H z start stop b n HE HH Hz Hn Hrep M1 Hb R S)
    as [o [c [u [v [O [C [Q1 [Q2 D]]]]]]]].
  assert (T : trades name E n) by (apply (proj2 (c51_sessions name E z start stop b HE M1 Hb)); assumption).
  rewrite <- (m_place E H (the_hours name E H HE HH)) in Hz.
  destruct (clocks_1950 name E z HE Hz) as [lo [[G _] _]].
  destruct (day_row name E z start stop b n HE G Hrep M1 Hb R T) as [s [l [W1 [W2 [_ [_ [P1 [P2 [P3 [P4 P5]]]]]]]]]].
  exists o, c, l. split; [exact O|]. split; [exact C|]. split; [exact P4|].
  rewrite (minutes_counted s l W1 W2 P5). rewrite P3 in Nb. rewrite Q1 in P1. rewrite Q2 in P2.
  injection P1 as ->. injection P2 as ->.
  destruct (s_break s) as [[bs be]|]; [discriminate Nb|]. apply whole_div. exact D.
Qed.

Lemma break_start_listed : forall E ts t, ex_break_start_times E = Some ts -> In t (map snd ts) ->
  In (0, t) (clock_times E).
Proof.
  intros E ts t Q I. unfold clock_times, times_of. rewrite Q. cbn [optional_table]. rewrite !in_app_iff.
  right. right. apply in_map_iff. exists t. split; [reflexivity|]. rewrite in_app_iff. tauto.
Qed.
Lemma break_end_listed : forall E ts t, ex_break_end_times E = Some ts -> In t (map snd ts) ->
  In (0, t) (clock_times E).
Proof.
  intros E ts t Q I. unfold clock_times, times_of. rewrite Q. cbn [optional_table]. rewrite !in_app_iff.
  right. right. apply in_map_iff. exists t. split; [reflexivity|]. rewrite !in_app_iff. tauto.
Qed.

(** A session that has a lunch break lists two minutes more than it trades: the minute
    at which the break starts and the one at which it ends belong to both parts. *)
Theorem c90_lunch : forall name E H z start stop b n x, In (name, E) exchanges -> In (name, H) timetable ->
  In (place H, z) zones -> date_number 1950 1 1 <= n ->
  not_a_time + 2 * one_day < start -> is_midnight start ->
  build_exchange E z start stop = Ok b -> start <= at_midnight_of n <= stop ->
  is_session (cal b) (at_midnight_of n) = true ->
  session_break_start (cal b) (at_midnight_of n) = Ok (Some x) ->
  exists o c from till l, opening H n o /\ closing H n c /\ lunch H = Some (from, till) /\
    minutes_for_session (cal b) (at_midnight_of n) = Ok l /\
    Z.of_nat (length l) = published_minutes H o c - lunch_minutes from till + 2.
Proof.
  intros name E H z start stop b n x HE HH Hz Hn Hrep M1 Hb R S Nb.
  assert (T : trades name E n) by (apply (proj2 (c51_sessions name E z start stop b HE M1 Hb)); assumption).
  pose proof (the_hours name E H HE HH) as M. rewrite <- (m_place E H M) in Hz.
  destruct (clocks_1950 name E z HE Hz) as [lo [[G _] _]].
  destruct (day_row name E z start stop b n HE G Hrep M1 Hb R T) as [s [l [W1 [W2 [V [Es [P1 [P2 [P3 [P4 P5]]]]]]]]]].
  pose proof (minutes_counted s l W1 W2 P5) as Len. rewrite P3 in Nb.
  destruct V as [m [Em [_ [_ [F1 [F2 [F3 F4]]]]]]]. rewrite Es in Em. apply at_midnight_inj in Em. subst m.
  destruct (s_break s) as [[bs be]|]; [|discriminate Nb]. cbn [option_map fst snd] in F3, F4.
  destruct F3 as [Ne [ts [E3 [t3 [A3 B3]]]]]. destruct F4 as [_ [ts' [E4 [t4 [A4 B4]]]]].
  destruct F1 as [[t [A _]]|[_ [t [A B]]]]; [exfalso; exact (no_special_opening E H n t M A)|].
  destruct F2 as [F2|[_ [t' [A' B']]]]; [exfalso; exact (Ne _ F2)|].
  destruct (m_opening E H M n t A) as [o [O ->]]. destruct (m_closing E H M n t' A') as [c [C ->]].
  pose proof (m_breaks E H M) as K. unfold break_times in K.
  destruct (lunch H) as [[from till]|]; [|destruct K as [K _]; congruence].
  destruct K as [K1 K2].
  pose proof (in_force_In _ n _ A3) as I3. pose proof (in_force_In _ n _ A4) as I4.
  pose proof (c90_steady name E z n _ _ _ _ _ _ HE Hz Hn T (open_time_listed E n _ A)
    (break_start_listed E ts t3 E3 I3) B B3) as D1.
  pose proof (c90_steady name E z n _ _ _ _ _ _ HE Hz Hn T (break_end_listed E ts' t4 E4 I4)
    (close_time_listed E n _ A') B4 B') as D2.
  rewrite E3 in K1. rewrite E4 in K2. injection K1 as ->. injection K2 as ->.
  destruct I3 as [<-|[]]. destruct I4 as [<-|[]]. cbn [snd] in *.
  exists o, c, from, till, l. split; [exact O|]. split; [exact C|]. split; [reflexivity|]. split; [exact P4|].
  rewrite Len, (m_nights E H M) in *. rewrite (m_same_day E H M) in *.
  rewrite (whole_div (bs - s_open s) (1440 * nights H + clock_minutes from - clock_minutes o + 1)).
  2:{ rewrite D1. unfold local_time, clock_minutes, time_of, minute_after.
      change one_day with 86400000000000. change one_minute with 60000000000.
      destruct (Z.eqb_spec (snd o) 59), (Z.eqb_spec (snd from) 59); cbn [hour minute second]; lia. }
  rewrite (whole_div (s_close s - be) (clock_minutes c - clock_minutes till + 1)).
  2:{ rewrite D2. unfold local_time, clock_minutes, time_of.
      change one_day with 86400000000000. change one_minute with 60000000000. cbn [hour minute second]. lia. }
  unfold published_minutes, lunch_minutes. lia.
Qed.

(** ** Concrete cases, and what does not hold *)

Lemma bvmf_here : In ("BVMF"%string, exchange_calendar_bvmf.calendar) exchanges.
Proof. apply here. reflexivity. Qed.
Lemma bvmf_hours : In ("BVMF"%string, Hours "America/Sao_Paulo" (always 10 0) 0 None
  (changed (17, 0) 2019 11 4 (18, 0)) []) timetable.
Proof. unfold timetable. cbn [In]. tauto. Qed.
Lemma cmes_here : In ("CMES"%string, exchange_calendar_cmes.calendar) exchanges.
Proof. apply here. reflexivity. Qed.

Ltac day_le := rewrite !at_midnight_le, <- !Z.leb_le; split; vm_compute; reflexivity.

(** The sessions of Sao Paulo since 4 November 2019 are longer than the tests allow. *)
Theorem c90_longest_refuted : exists H z b n most u v,
  In ("BVMF"%string, H) timetable /\ In (place H, z) zones /\ In ("BVMF"%string, most) longest_session /\
  build_exchange exchange_calendar_bvmf.calendar z (at_midnight_of (date_number 1990 1 1))
    (at_midnight_of (date_number 2020 12 31)) = Ok b /\
  is_session (cal b) (at_midnight_of n) = true /\
  session_open (cal b) (at_midnight_of n) = Ok u /\ session_close (cal b) (at_midnight_of n) = Ok v /\
  most * (60 * one_minute) < 1000 * (v - u).
Proof.
  destruct (c53_default_range 1990 "BVMF" _ (at_midnight_of (date_number 2020 12 31)) (or_introl eq_refl) bvmf_here)
    as [z [b [ss [Hz [Hb _]]]]].
  - discriminate.
  - apply at_midnight_le. apply Z.leb_le. vm_compute. reflexivity.
  - intros n [].
  - change (ex_tz exchange_calendar_bvmf.calendar) with "America/Sao_Paulo"%string in Hz.
    assert (R : at_midnight_of (date_number 1990 1 1) <= at_midnight_of (date_number 2019 11 4) <=
      at_midnight_of (date_number 2020 12 31)) by day_le.
    assert (M1 : is_midnight (at_midnight_of (date_number 1990 1 1))) by (apply is_midnight_at; eauto).
    assert (S : is_session (cal b) (at_midnight_of (date_number 2019 11 4)) = true).
    { apply (proj2 (c51_sessions _ _ z _ _ b bvmf_here M1 Hb) _ R).
      rewrite (plain_trades _ _ _ bvmf_here) by reflexivity. vm_compute. reflexivity. }
    assert (L : date_number 1950 1 1 <= date_number 2019 11 4) by (apply Z.leb_le; vm_compute; reflexivity).
    assert (Hrep : not_a_time + 2 * one_day < at_midnight_of (date_number 1990 1 1))
      by (apply Z.ltb_lt; vm_compute; reflexivity).
    destruct (c90_length _ _ _ z _ _ b _ bvmf_here bvmf_hours Hz L Hrep M1 Hb R S)
      as [o [c [u [v [O [C [Q1 [Q2 D]]]]]]]].
    exists (Hours "America/Sao_Paulo" (always 10 0) 0 None (changed (17, 0) 2019 11 4 (18, 0)) []),
        z, b, (date_number 2019 11 4), 7000, u, v.
      split; [exact bvmf_hours|]. split; [exact Hz|]. split; [unfold longest_session; cbn [In]; tauto|].
      split; [exact Hb|]. split; [exact S|]. split; [exact Q1|]. split; [exact Q2|].
      cbn [opening closing] in O, C. unfold always in O. subst o.
      assert (c = (18, 0)) as ->.
      { destruct C as [[[C _]|[_ C]]|[hs [h [[] _]]]]; [lia|exact C]. }
      unfold published_minutes, clock_minutes in D. cbn [nights fst snd] in D.
      change one_minute with 60000000000 in *. lia.
Qed.

(** Hong Kong on 23 January 2020 trades for 330 minutes and lists 332. *)
Theorem c90_lunch_refuted : exists H z b n o c from till l,
  In ("XHKG"%string, H) timetable /\ In (place H, z) zones /\
  build_exchange exchange_calendar_xhkg.calendar z (at_midnight_of (date_number 1990 1 1))
    (at_midnight_of (date_number 2020 12 31)) = Ok b /\
  is_session (cal b) (at_midnight_of n) = true /\
  opening H n o /\ closing H n c /\ lunch H = Some (from, till) /\
  published_minutes H o c - lunch_minutes from till = 330 /\
  minutes_for_session (cal b) (at_midnight_of n) = Ok l /\ length l = 332%nat.
Proof.
  destruct c58_c59_ex as [H [z [b [HH [Hz [G [Hb [S [Ne [_ [Bs _]]]]]]]]]]].
  assert (EH : H = Hours "Asia/Hong_Kong"%string (changed (10, 0) 2011 3 7 (9, 30)) 0 (Some ((12, 0), (13, 0)))
      (always 16 0) hong_kong_half_days).
  { apply (timetable_unique "XHKG" _ _ HH). unfold timetable. cbn [In]. repeat first [left; reflexivity|right]. }
  assert (Pl : In (place H, z) zones) by (rewrite EH; exact Hz).
  assert (L : date_number 1950 1 1 <= date_number 2020 1 23) by (apply Z.leb_le; vm_compute; reflexivity).
  assert (Hrep : not_a_time + 2 * one_day < at_midnight_of (date_number 1990 1 1))
    by (apply Z.ltb_lt; vm_compute; reflexivity).
  assert (M1 : is_midnight (at_midnight_of (date_number 1990 1 1))) by (apply is_midnight_at; eauto).
  assert (R : at_midnight_of (date_number 1990 1 1) <= at_midnight_of (date_number 2020 1 23) <=
    at_midnight_of (date_number 2020 12 31)) by day_le.
  destruct (c90_lunch _ _ _ z _ _ b _ _ xhkg_here HH Pl L Hrep M1 Hb R S Bs)
    as [o [c [from [till [l [O [C [Lu [Q D]]]]]]]]].
  exists H, z, b, (date_number 2020 1 23), o, c, from, till, l.
    split; [exact HH|]. split; [exact Pl|]. split; [exact Hb|]. split; [exact S|].
    split; [exact O|]. split; [exact C|]. split; [exact Lu|].
    assert (P : published_minutes H o c - lunch_minutes from till = 330).
    { rewrite EH in O, C, Lu |- *. cbn [opening closing lunch] in O, C, Lu. unfold always in C. subst c.
      injection Lu as <- <-.
      assert (o = (9, 30)) as ->; [|reflexivity].
      destruct O as [[O _]|[_ O]]; [|exact O]. exfalso. revert O. apply Z.le_ngt. apply Z.leb_le. vm_compute. reflexivity. }
    split; [exact P|]. split; [exact Q|]. lia.
Qed.

(** Chicago on Monday 9 March 2020, whose session starts on the Sunday on which the
    clocks were put forward, lasts a full day. *)
Example c90_ex : exists H z b l,
  In ("CMES"%string, H) timetable /\ In (place H, z) zones /\
  build_exchange exchange_calendar_cmes.calendar z (at_midnight_of (date_number 1990 1 1))
    (at_midnight_of (date_number 2020 12 31)) = Ok b /\
  is_session (cal b) (at_midnight_of (date_number 2020 3 9)) = true /\
  minutes_for_session (cal b) (at_midnight_of (date_number 2020 3 9)) = Ok l /\ length l = 1440%nat.
Proof.
  destruct (timetable_matches _ _ cmes_here) as [H [HH M]].
  destruct (c53_default_range 1990 "CMES" _ (at_midnight_of (date_number 2020 12 31)) (or_introl eq_refl) cmes_here)
    as [z [b [ss [Hz [Hb _]]]]].
  - discriminate.
  - apply at_midnight_le. apply Z.leb_le. vm_compute. reflexivity.
  - intros n [].
  - pose proof Hz as Hz'. rewrite (m_place _ H M) in Hz.
    assert (R : at_midnight_of (date_number 1990 1 1) <= at_midnight_of (date_number 2020 3 9) <=
      at_midnight_of (date_number 2020 12 31)) by day_le.
    assert (M1 : is_midnight (at_midnight_of (date_number 1990 1 1))) by (apply is_midnight_at; eauto).
    assert (S : is_session (cal b) (at_midnight_of (date_number 2020 3 9)) = true).
    { apply (proj2 (c51_sessions _ _ z _ _ b cmes_here M1 Hb) _ R).
      rewrite (plain_trades _ _ _ cmes_here) by reflexivity. vm_compute. reflexivity. }
    exists H, z, b.
    destruct (clocks_1950 _ _ z cmes_here Hz') as [lo [[G _] _]].
    assert (Hrep : not_a_time + 2 * one_day < at_midnight_of (date_number 1990 1 1))
      by (apply Z.ltb_lt; vm_compute; reflexivity).
    assert (EH : H = overnight "America/Chicago" (17, 0) (17, 0)
      [((12, 0), (american_half_days ++ christmas_half_days)%list)]).
    { apply (timetable_unique "CMES" _ _ HH). unfold timetable. cbn [In]. repeat first [left; reflexivity|right]. }
    assert (Ne : forall c, ~ early_closing H (date_number 2020 3 9) c).
    { intros c Hc. pose proof (proj2 (closing_iff _ H _ M) c Hc) as Sp.
      destruct Sp as [[rs [r [I1 [I2 F]]]]|[ds [I1 I2]]].
      - destruct (the_settled _ _ cmes_here) as [_ [S2 _]]. rewrite forallb_forall in S2.
        specialize (S2 _ I1). cbn [snd] in S2.
        assert (Q : In (at_midnight_of (date_number 2020 3 9)) (calendar_holidays rs
          (at_midnight_of (date_number 2020 3 9)) (at_midnight_of (date_number 2020 3 9)))).
        { apply holidays_iff; [exact S2|]. split; [lia|]. exists r. tauto. }
        assert (W : forallb (fun p => forallb (fun x => negb (x =? midnight (date_number 2020 3 9)))
          (calendar_holidays (snd p) (midnight (date_number 2020 3 9)) (midnight (date_number 2020 3 9))))
          (ex_special_closes exchange_calendar_cmes.calendar) = true) by (vm_compute; reflexivity).
        rewrite forallb_forall in W. specialize (W _ I1). cbn [snd] in W. rewrite !midnight_at in W.
        rewrite forallb_forall in W. specialize (W _ Q). rewrite Z.eqb_refl in W. discriminate W.
      - assert (W : forallb (fun p => negb (memb (date_number 2020 3 9) (snd p)))
          (ex_special_closes_adhoc exchange_calendar_cmes.calendar) = true) by (vm_compute; reflexivity).
        rewrite forallb_forall in W. specialize (W _ I1). cbn [snd] in W. apply not_memb in W. contradiction. }
    pose proof (c58_break _ _ _ z _ _ b _ cmes_here HH G Hrep M1 Hb R S Ne) as Br.
    assert (Lu : lunch H = None) by (rewrite EH; reflexivity). rewrite Lu in Br. destruct Br as [Br _].
    assert (L : date_number 1950 1 1 <= date_number 2020 3 9) by (apply Z.leb_le; vm_compute; reflexivity).
    destruct (c90_minutes _ _ _ z _ _ b _ cmes_here HH Hz L Hrep M1 Hb R S Br) as [o [c [l [O [C [Q D]]]]]].
    exists l. split; [exact HH|]. split; [exact Hz|]. split; [exact Hb|]. split; [exact S|]. split; [exact Q|].
      destruct C as [C|C]; [|exfalso; exact (Ne c C)]. rewrite EH in O, C, D.
      cbn [overnight opening closing] in O, C. unfold overnight, always in O, C. cbn [opening closing] in O, C.
      subst o c. unfold published_minutes, clock_minutes, overnight in D. cbn [nights fst snd] in D. lia.
Qed.

(** ** Assumptions *)
Print Assumptions c90_steady.
Print Assumptions c90_length.
Print Assumptions c90_longest.
Print Assumptions c90_bounded.
Print Assumptions c90_minutes.
Print Assumptions c90_lunch.
Print Assumptions c90_longest_refuted.
Print Assumptions c90_lunch_refuted.
