(** The sessions of each exchange in full: festivals and single closures (C60); the
    public holidays of the exchanges that tabulate their holidays (C61). *)
From Coq Require Import ZArith String List Bool Lia.
From Verif.Model Require Import Base Dates Zone Queries Build Holidays Exchange.
From Verif.Spec Require Import Schedule Construction Civil Rules Feasts Venue Almanac Hours Festivals.
From Verif.Proofs Require Import BaseLemmas DatesLemmas ScheduleLemmas BuildLemmas RuleLemmas RuleRange
  VenueLemmas VenueSound AlmanacLemmas AlmanacRules HoursRules FestivalRules.
From Verif.Properties Require Import ExchangeProps AlmanacProps.
From Verif.Exchanges Require Import All zones.
Import ListNotations.
Open Scope Z_scope.

(** ** C60: festivals and single closures *)

Lemma closures_unique : forall name hs hs', In (name, hs) closures -> In (name, hs') closures -> hs = hs'.
Proof.
  assert (N : NoDup (map fst closures)).
  { replace (map fst closures) with (nodup string_dec (map fst closures)) by (vm_compute; reflexivity).
    apply NoDup_nodup. }
  revert N. generalize closures. intros l N name hs hs'.
  induction l as [|[a b] l IH]; [intros []|]. cbn [map fst] in N. inversion N as [|? ? N1 N2]; subst.
  intros [H|H] [H'|H'].
  - congruence.
  - injection H as -> ->. exfalso. apply N1. apply in_map_iff. exists (name, hs'). split; [reflexivity|exact H'].
  - injection H' as -> ->. exfalso. apply N1. apply in_map_iff. exists (name, hs). split; [reflexivity|exact H].
  - apply IH; assumption.
Qed.

Lemma closed_days : forall name E n, In (name, E) exchanges ->
  (In n (ex_adhoc_holidays E) <-> single_closure name n).
Proof.
  intros name E n H. destruct (closures_match name E H) as [hs [H1 H2]]. rewrite (H2 n). unfold single_closure. split.
  - intros [h Hh]. exists hs, h. tauto.
  - intros [hs' [h [H3 [H4 H5]]]]. rewrite (closures_unique name hs hs' H1 H3). exists h. tauto.
Qed.

(** From 1970 to 2200 the sessions of an exchange are the workdays on which it keeps
    no holiday of its almanac, no festival and no single closure. *)
Theorem c60_sessions : forall name E z start stop b n, In (name, E) exchanges -> name <> "XTAE"%string ->
  is_midnight start -> build_exchange E z start stop = Ok b ->
  start <= at_midnight_of n <= stop -> known_year n ->
  (is_session (cal b) (at_midnight_of n) = true <->
   workday n /\ ~ annual_closure name n /\ ~ single_closure name n).
Proof.
  intros name E z start stop b n H N M Hb Hn K. rewrite <- (closed_days name E n H).
  exact (c57_sessions name E z start stop b n H N M Hb Hn K).
Qed.

(** In other years the festivals and single closures are kept alone. *)
Theorem c60_unknown_years : forall name E z start stop b n, In (name, E) exchanges -> name <> "XTAE"%string ->
  is_midnight start -> build_exchange E z start stop = Ok b ->
  start <= at_midnight_of n <= stop -> ~ known_year n ->
  (is_session (cal b) (at_midnight_of n) = true <-> workday n /\ ~ single_closure name n).
Proof.
  intros name E z start stop b n H N M Hb Hn K. rewrite <- (closed_days name E n H).
  exact (c57_unknown_years name E z start stop b n H N M Hb Hn K).
Qed.

(** Tel Aviv trades from Sunday to Thursday, except on the Hebrew feasts and on
    election days. *)
Theorem c60_tel_aviv : forall E z start stop b n, In ("XTAE"%string, E) exchanges ->
  is_midnight start -> build_exchange E z start stop = Ok b ->
  start <= at_midnight_of n <= stop -> known_year n ->
  (is_session (cal b) (at_midnight_of n) = true <->
   In (day_of_week n) [SUNDAY; MONDAY; TUESDAY; WEDNESDAY; THURSDAY] /\
   ~ (exists y, 2 <= y <= 9998 /\ tel_aviv_holiday y n) /\ ~ single_closure "XTAE" n).
Proof.
  intros E z start stop b n H M Hb Hn K. rewrite <- (closed_days _ E n H).
  rewrite (proj2 (c51_sessions _ E z start stop b H M Hb) n Hn).
  unfold trades. cbn [String.eqb Ascii.eqb Bool.eqb]. unfold tel_aviv_day.
  assert (W : nth_error (ex_weekmask E) (Z.to_nat (day_of_week n)) = Some true <->
    In (day_of_week n) [SUNDAY; MONDAY; TUESDAY; WEDNESDAY; THURSDAY]); [|tauto].
  rewrite (the_tel_aviv E H).
  assert (R : 0 <= day_of_week n < 7) by (apply Z.mod_pos_bound; lia).
  generalize dependent (day_of_week n). intros d R.
  assert (D : d = 0 \/ d = 1 \/ d = 2 \/ d = 3 \/ d = 4 \/ d = 5 \/ d = 6) by lia.
  unfold SUNDAY, MONDAY, TUESDAY, WEDNESDAY, THURSDAY.
  destruct D as [-> | [-> | [-> | [-> | [-> | [-> | ->]]]]]]; vm_compute; intuition discriminate.
Qed.

(** Hong Kong in 2013: the Chinese New Year was Sunday, February 10th, so that it was
    kept until Wednesday the 13th; Thursday was a session. *)
Lemma xhkg_here : In ("XHKG"%string, exchange_calendar_xhkg.calendar) exchanges.
Proof. apply here. reflexivity. Qed.

Example c60_ex : exists z b, In ("Asia/Hong_Kong"%string, z) zones /\
  build_exchange exchange_calendar_xhkg.calendar z (at_midnight_of (date_number 1990 1 1))
    (at_midnight_of (date_number 2021 12 31)) = Ok b /\
  single_closure "XHKG" (date_number 2013 2 13) /\
  is_session (cal b) (at_midnight_of (date_number 2013 2 13)) = false /\
  is_session (cal b) (at_midnight_of (date_number 2013 2 14)) = true.
Proof.
  destruct (c53_default_range 1990 "XHKG" _ (at_midnight_of (date_number 2021 12 31)) (or_introl eq_refl) xhkg_here)
    as [z [b [ss [Hz [Hb _]]]]].
  - discriminate.
  - apply at_midnight_le. apply Z.leb_le. vm_compute. reflexivity.
  - intros n [].
  - exists z, b. split; [exact Hz|]. split; [exact Hb|].
    assert (M : is_midnight (at_midnight_of (date_number 1990 1 1))) by (apply is_midnight_at; eauto).
    assert (B : forall d, 13 <= d <= 14 -> at_midnight_of (date_number 1990 1 1) <=
      at_midnight_of (date_number 2013 2 d) <= at_midnight_of (date_number 2021 12 31)).
    { intros d Hd. rewrite !at_midnight_le.
      replace (date_number 2013 2 d) with (date_number 2013 2 13 + (d - 13)) by (unfold date_number; lia).
      assert (Q : (date_number 1990 1 1 <=? date_number 2013 2 13) &&
        (date_number 2013 2 13 + 6 <=? date_number 2021 12 31) = true) by (vm_compute; reflexivity).
      rewrite andb_true_iff, !Z.leb_le in Q. lia. }
    assert (S : single_closure "XHKG" (date_number 2013 2 13)).
    { refine (proj1 (closed_days "XHKG" exchange_calendar_xhkg.calendar (date_number 2013 2 13) xhkg_here) _).
      apply memb_In. vm_compute. reflexivity. }
    split; [exact S|]. split.
    + apply not_true_iff_false. intros F.
      assert (K : known_year (date_number 2013 2 13)) by (apply known_year_of; vm_compute; split; discriminate).
      pose proof (proj1 (c60_sessions "XHKG" exchange_calendar_xhkg.calendar z (at_midnight_of (date_number 1990 1 1))
        (at_midnight_of (date_number 2021 12 31)) b (date_number 2013 2 13) xhkg_here ltac:(discriminate) M Hb
        (B 13 ltac:(lia)) K) F) as [_ [_ F']]. apply F'. exact S.
    + apply (proj2 (c51_sessions _ _ z _ _ b xhkg_here M Hb) _ (B 14 ltac:(lia))).
      rewrite (plain_trades _ _ _ xhkg_here) by reflexivity. vm_compute. reflexivity.
Qed.

(** ** C61: public holidays of the exchanges with tabulated holidays *)

Lemma public_holidays_names : forall name hs missing, In (name, hs, missing) public_holidays -> name <> "XTAE"%string.
Proof.
  intros name hs missing H ->. unfold public_holidays in H. cbn [In] in H.
  repeat (destruct H as [H|H]; [discriminate H|]). exact H.
Qed.

(** None of them is a session, with the exceptions listed. *)
Theorem c61_public_holidays : forall name hs missing h E z start stop b n, In (name, hs, missing) public_holidays ->
  In h hs -> h n -> ~ listed missing n ->
  In (name, E) exchanges -> is_midnight start -> build_exchange E z start stop = Ok b ->
  start <= at_midnight_of n <= stop -> is_session (cal b) (at_midnight_of n) = false.
Proof.
  intros name hs missing h E z start stop b n HP Hh Hn NL HE M Hb Hr.
  pose proof (public_holidays_names _ _ _ HP) as N.
  apply not_true_iff_false. rewrite (proj2 (c51_sessions name E z start stop b HE M Hb) n Hr).
  unfold trades. destruct (String.eqb_spec name "XTAE") as [->|_]; [contradiction N; reflexivity|].
  unfold open_day. rewrite (weekmasks name E HE N), mask_workday. intros [W [_ F]]. apply F.
  pose proof public_holidays_kept as K. rewrite Forall_forall in K. specialize (K _ HP). cbn beta iota in K.
  apply (proj1 K E HE h n Hh Hn W). exact NL.
Qed.

Lemma missing_open : forall name hs missing n, In (name, hs, missing) public_holidays -> listed missing n ->
  forall E, In (name, E) exchanges -> trades name E n.
Proof.
  assert (A : forallb (fun q => forallb (fun n => forallb (fun p => if String.eqb (fst p) (fst (fst q)) then
    open_dayb (snd p) n else true) exchanges) (missing_days (snd q))) public_holidays = true)
    by (vm_compute; reflexivity).
  intros name hs missing n HP L E HE. rewrite forallb_forall in A. specialize (A _ HP). cbn [fst snd] in A.
  rewrite forallb_forall in A. apply (enum_listed missing n) in L. specialize (A n L).
  rewrite forallb_forall in A. specialize (A _ HE). cbn [fst snd] in A. rewrite String.eqb_refl in A.
  apply (plain_trades name E n HE); [|exact A]. apply String.eqb_neq. apply (public_holidays_names _ _ _ HP).
Qed.

(** The exceptions are public holidays and sessions: Bombay trades on the holidays
    of 1998 and on Good Friday 1997, Korea on New Year 1991, Foundation Day 1989 and
    the lunar New Year of 1996 (that of 1988 is kept a day later), Singapore on Good
    Friday 1987 and on the Chinese New Years of 1991 and 1994. *)
Theorem c61_public_holidays_refuted : forall name hs missing n, In (name, hs, missing) public_holidays ->
  listed missing n ->
  (exists h, In h hs /\ h n) /\
  forall E z start stop b, In (name, E) exchanges -> is_midnight start -> build_exchange E z start stop = Ok b ->
    start <= at_midnight_of n <= stop -> is_session (cal b) (at_midnight_of n) = true.
Proof.
  intros name hs missing n HP L. split.
  - pose proof public_holidays_kept as K. rewrite Forall_forall in K. specialize (K _ HP). cbn beta iota in K.
    apply (proj2 K n L).
  - intros E z start stop b HE M Hb Hr. rewrite (proj2 (c51_sessions name E z start stop b HE M Hb) n Hr).
    apply (missing_open name hs missing n HP L E HE).
Qed.

(** Singapore: closed on the Chinese New Year of 2001, open on that of 1991. *)
Lemma xses_here : In ("XSES"%string, exchange_calendar_xses.calendar) exchanges.
Proof. apply here. reflexivity. Qed.

Example c61_ex : exists z b, In ("Asia/Singapore"%string, z) zones /\
  build_exchange exchange_calendar_xses.calendar z (at_midnight_of (date_number 1990 1 1))
    (at_midnight_of (date_number 2020 12 31)) = Ok b /\
  lunar_new_year (date_number 1991 2 15) /\ lunar_new_year (date_number 2001 1 24) /\
  is_session (cal b) (at_midnight_of (date_number 2001 1 24)) = false /\
  is_session (cal b) (at_midnight_of (date_number 1991 2 15)) = true.
Proof.
  destruct (c53_default_range 1990 "XSES" _ (at_midnight_of (date_number 2020 12 31)) (or_introl eq_refl) xses_here)
    as [z [b [ss [Hz [Hb _]]]]].
  - discriminate.
  - apply at_midnight_le. apply Z.leb_le. vm_compute. reflexivity.
  - intros n [].
  - exists z, b. split; [exact Hz|]. split; [exact Hb|].
    assert (M : is_midnight (at_midnight_of (date_number 1990 1 1))) by (apply is_midnight_at; eauto).
    assert (B : forall n, (date_number 1990 1 1 <=? n) && (n <=? date_number 2020 12 31) = true ->
      at_midnight_of (date_number 1990 1 1) <= at_midnight_of n <= at_midnight_of (date_number 2020 12 31)).
    { intros n Q. rewrite andb_true_iff, !Z.leb_le in Q. rewrite !at_midnight_le. exact Q. }
    assert (B1 := B (date_number 1991 2 15) eq_refl). assert (B2 := B (date_number 2001 1 24) eq_refl).
    assert (L1 : lunar_new_year (date_number 1991 2 15)) by (apply memb_In; vm_compute; reflexivity).
    assert (L2 : lunar_new_year (date_number 2001 1 24)) by (apply memb_In; vm_compute; reflexivity).
    split; [exact L1|]. split; [exact L2|].
    assert (HP : exists hs missing, In ("XSES"%string, hs, missing) public_holidays /\
      In (between 1986 2020 lunar_new_year) hs /\ missing = [(1987, 4, 17); (1991, 2, 15); (1994, 2, 10)]).
    { eexists. eexists. split; [unfold public_holidays; do 2 right; left; reflexivity|].
      split; [|reflexivity]. cbn [in_years map app In]. tauto. }
    destruct HP as [hs [missing [HP [Hh ->]]]]. split.
    + refine (c61_public_holidays "XSES" hs _ _ exchange_calendar_xses.calendar z _ _ b _ HP Hh _ _ xses_here M Hb B2).
      * split; [apply Z.leb_le; vm_compute; reflexivity|].
        split; [apply Z.leb_le; vm_compute; reflexivity|exact L2].
      * intros F. apply (enum_listed _ _) in F. revert F. apply not_memb. vm_compute. reflexivity.
    + exact (proj2 (c61_public_holidays_refuted "XSES" hs _ (date_number 1991 2 15) HP
        (ex_intro _ 1991 (ex_intro _ 2 (ex_intro _ 15 (conj (or_intror (or_introl eq_refl)) eq_refl)))))
        exchange_calendar_xses.calendar z _ _ b xses_here M Hb B1).
Qed.

(** ** Assumptions *)
Print Assumptions c60_sessions.
Print Assumptions c60_unknown_years.
Print Assumptions c60_tel_aviv.
Print Assumptions c61_public_holidays.
Print Assumptions c61_public_holidays_refuted.
