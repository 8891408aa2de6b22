(** Holiday rules (Model/Holidays.v): the dates they give, stated with the
    calendar vocabulary of Spec/Civil.v and Spec/Rules.v. *)
From Coq Require Import ZArith String List Bool Lia.
From Verif.Model Require Import Base Dates Holidays Exchange.
From Verif.Spec Require Import Civil Rules.
From Verif.Proofs Require Import BaseLemmas DatesLemmas RuleLemmas RuleRange.
From Verif.Exchanges Require Import All.
From Verif.Exchanges Require us_holidays.
Import ListNotations.
Open Scope Z_scope.
Open Scope list_scope.

(** ** C46: the dates of a set of rules in a range *)

(** The holidays reported for a range are the midnights of the days of the range
    on which some rule falls. *)
Theorem c46_dates : forall rules start stop x, (forall r, In r rules -> settled r = true) ->
  (In x (calendar_holidays rules start stop) <->
   start <= x <= stop /\ exists r n, In r rules /\ falls_on r n /\ x = n * 86400000000000).
Proof.
  intros rules start stop x S. apply calendar_holidays_iff. apply forallb_forall. exact S.
Qed.

(** Asking for a larger range gives the same holidays inside the smaller one. *)
Theorem c46_range_independent : forall rules start stop start' stop' x,
  (forall r, In r rules -> settled r = true) -> start' <= start -> stop <= stop' ->
  start <= x <= stop ->
  (In x (calendar_holidays rules start' stop') <-> In x (calendar_holidays rules start stop)).
Proof.
  intros rules start stop start' stop' x S H1 H2 Hx. rewrite !c46_dates by exact S.
  split; intros [_ H]; (split; [lia|exact H]).
Qed.

(** The theorems apply to every rule of every exchange but Tel Aviv's, whose rules
    follow the Hebrew calendar (C50). *)
Theorem c46_exchange_rules : forall name E r, In (name, E) exchanges -> name <> "XTAE"%string ->
  In r (ex_regular_holidays E) \/
  (exists t rs, (In (t, rs) (ex_special_opens E) \/ In (t, rs) (ex_special_closes E)) /\ In r rs) ->
  settled r = true.
Proof.
  assert (A : forallb (fun p => String.eqb (fst p) "XTAE" ||
      (forallb settled (ex_regular_holidays (snd p)) &&
       forallb (fun q => forallb settled (snd q)) (ex_special_opens (snd p) ++ ex_special_closes (snd p))))
      exchanges = true) by (vm_compute; reflexivity).
  intros name E r H N Hr. rewrite forallb_forall in A. specialize (A _ H). cbn [fst snd] in A.
  apply orb_true_iff in A. destruct A as [A|A]; [apply String.eqb_eq in A; contradiction|].
  apply andb_true_iff in A. destruct A as [A1 A2]. rewrite forallb_forall in A1, A2.
  destruct Hr as [Hr|[t [rs [Ht Hr]]]]; [apply A1; exact Hr|].
  assert (I : In (t, rs) (ex_special_opens E ++ ex_special_closes E)) by (apply in_app_iff; exact Ht).
  specialize (A2 _ I). cbn [snd] in A2. rewrite forallb_forall in A2. apply A2. exact Hr.
Qed.

(** Without a bound on the reach of a rule the dates depend on the range asked
    for: 2000 days after January 1st. *)
Theorem c46_far_rule_refuted : exists r start stop start' stop' x,
  valid_rule r = true /\ start' <= start /\ stop <= stop' /\ start <= x <= stop /\
  In x (calendar_holidays [r] start' stop') /\ ~ In x (calendar_holidays [r] start stop).
Proof.
  exists (Holiday 1 1 [Day 2000] None None None None),
    (midnight (days_from_civil 2010 1 1)), (midnight (days_from_civil 2010 12 31)),
    (midnight (days_from_civil 2000 1 1)), (midnight (days_from_civil 2010 12 31)),
    (midnight (days_from_civil 2005 1 1 + 2000)).
  assert (M : forall x l, In x l <-> existsb (Z.eqb x) l = true).
  { intros x l. rewrite existsb_exists. split; [intros H; exists x; split; [exact H|apply Z.eqb_refl]|].
    intros [y [H E]]. apply Z.eqb_eq in E. subst. exact H. }
  split; [reflexivity|]. do 2 (split; [vm_compute; discriminate|]).
  split; [split; vm_compute; discriminate|].
  split; [apply (proj2 (M _ _)); vm_compute; reflexivity|]. intros H. apply (proj1 (M _ _)) in H. vm_compute in H. discriminate H.
Qed.

(** Witness: Christmas and Good Friday of New York, 2010 to 2012. *)
Example c46_dates_ex :
  map day_of (calendar_holidays [us_holidays.Christmas; GoodFriday]
    (midnight (days_from_civil 2010 1 1)) (midnight (days_from_civil 2012 12 31))) =
  [date_number 2010 12 24; date_number 2011 12 26; date_number 2012 12 25;
   date_number 2010 4 2; date_number 2011 4 22; date_number 2012 4 6].
Proof. vm_compute. reflexivity. Qed.

(** ** C47: observances *)

(** An observance keeps each holiday on the days its rule says, whatever the other
    holidays it is applied to. *)
Theorem c47_observed : forall o dates n,
  In n (apply_observance o dates) <-> exists a, In a dates /\ observed o a n.
Proof.
  intros o dates n. rewrite observance_dates. setoid_rewrite observance_iff. reflexivity.
Qed.

(** The observances for holidays that fall on a weekend: a workday is kept, a
    weekend day moves to exactly one workday at most three days away. *)
Theorem c47_weekend : forall o a n,
  In o [Weekend_to_monday; Next_monday; Nearest_workday; Previous_friday] ->
  (workday a -> (In n (apply_observance o [a]) <-> n = a)) /\
  (weekend a -> exists b, workday b /\ Z.abs (b - a) <= 2 /\ (In n (apply_observance o [a]) <-> n = b)).
Proof.
  intros o a n Ho.
  assert (W : forall m, workday m <-> weekday m < 5) by (intros m; rewrite weekday_dow; reflexivity).
  unfold weekend. setoid_rewrite W.
  pose proof (Z.mod_pos_bound (a + 3) 7 ltac:(lia)) as R. fold (weekday a) in R.
  assert (M2 : weekday a = 5 -> weekday (a + 2) = 0)
    by (unfold weekday; intros; Z.div_mod_to_equations; lia).
  assert (M1 : weekday a = 6 -> weekday (a + 1) = 0)
    by (unfold weekday; intros; Z.div_mod_to_equations; lia).
  assert (P1 : weekday a = 5 -> weekday (a - 1) = 4)
    by (unfold weekday; intros; Z.div_mod_to_equations; lia).
  assert (P2 : weekday a = 6 -> weekday (a - 2) = 4)
    by (unfold weekday; intros; Z.div_mod_to_equations; lia).
  destruct Ho as [<-|[<-|[<-|[<-|[]]]]]; cbn [apply_observance map]; setoid_rewrite In_single;
    unfold weekend_to_monday, next_monday, nearest_workday, previous_friday;
    destruct (Z.eqb_spec (weekday a) 5) as [E5|E5]; destruct (Z.eqb_spec (weekday a) 6) as [E6|E6];
    try lia; (split; [intros H; try lia; reflexivity|intros H; try lia]).
  all: first [exists (a + 2); split; [lia|split; [lia|reflexivity]]|exists (a + 1); split; [lia|split; [lia|reflexivity]]|exists (a - 1); split; [lia|split; [lia|reflexivity]]|exists (a - 2); split; [lia|split; [lia|reflexivity]]].
Qed.

(** A holiday kept with [next_monday] (Christmas) and one kept on the next day with
    [next_monday_or_tuesday] (Boxing Day) fall on two workdays, in order. *)
Theorem c47_consecutive_holidays : forall a n n',
  In n (apply_observance Next_monday [a]) -> In n' (apply_observance Next_monday_or_tuesday [a + 1]) ->
  workday n /\ workday n' /\ a <= n < n' /\ n' <= a + 4.
Proof.
  intros a n n' H H'. cbn [apply_observance map] in H, H'. rewrite In_single in H, H'.
  assert (W : forall m, workday m <-> weekday m < 5) by (intros m; rewrite weekday_dow; reflexivity).
  rewrite !W. clear W.
  unfold next_monday in H. unfold next_monday_or_tuesday in H'. cbv zeta in H'.
  unfold weekday in *. subst n n'.
  destruct (Z.eqb_spec ((a + 3) mod 7) 5) as [A|A]; destruct (Z.eqb_spec ((a + 3) mod 7) 6) as [B|B];
    destruct (Z.eqb_spec ((a + 1 + 3) mod 7) 5) as [C|C]; destruct (Z.eqb_spec ((a + 1 + 3) mod 7) 6) as [D|D];
    destruct (Z.eqb_spec ((a + 1 + 3) mod 7) 0) as [F|F]; cbn [orb];
    Z.div_mod_to_equations; lia.
Qed.

(** Witness: Christmas 2010 was a Saturday, kept on Monday 27th and Tuesday 28th. *)
Example c47_ex :
  apply_observance Next_monday [date_number 2010 12 25] = [date_number 2010 12 27] /\
  apply_observance Next_monday_or_tuesday [date_number 2010 12 26] = [date_number 2010 12 28] /\
  apply_observance Nearest_workday [date_number 2010 12 25] = [date_number 2010 12 24].
Proof. vm_compute. repeat split. Qed.

(** ** C48: offsets *)

Theorem c48_offset : forall o a n, valid_offset o = true -> (n = apply_offset o a <-> moves o a n).
Proof. exact offset_iff. Qed.

(** Counting weekdays from the first of a month gives the k-th of the month, if the
    month has it; counting back from the last day gives the last. *)
Theorem c48_nth_of_month : forall wd k y m, 0 <= wd < 7 -> 1 <= k <= 4 -> 1 <= m <= 12 ->
  let n := apply_offset (NthWeekday wd k) (date_number y m 1) in
  exists d, valid_date y m d /\ n = date_number y m d /\ day_of_week n = wd /\ 7 * (k - 1) < d <= 7 * k.
Proof.
  intros wd k y m Hw Hk Hm n.
  assert (V : valid_offset (NthWeekday wd k) = true)
    by (cbn; rewrite !andb_true_iff, negb_true_iff; lia).
  pose proof (proj1 (offset_iff _ (date_number y m 1) n V) eq_refl) as [D M].
  destruct (Z.ltb_spec 0 k); [|lia].
  exists (n - date_number y m 1 + 1). pose proof (month_length_28 y m Hm).
  rewrite (date_number_first y m (n - date_number y m 1 + 1)). clearbody n. repeat split; lia.
Qed.

Theorem c48_last_of_month : forall wd y m, 0 <= wd < 7 -> 1 <= m <= 12 ->
  last_in_month wd (apply_offset (NthWeekday wd (-1)) (date_number y m (month_length y m))).
Proof.
  intros wd y m Hw Hm.
  set (n := apply_offset (NthWeekday wd (-1)) (date_number y m (month_length y m))).
  assert (V : valid_offset (NthWeekday wd (-1)) = true)
    by (cbn [valid_offset]; rewrite !andb_true_iff, negb_true_iff; lia).
  pose proof (proj1 (offset_iff _ (date_number y m (month_length y m)) n V) eq_refl) as [D M].
  change (0 <? -1) with false in M. cbv iota in M.
  pose proof (month_length_28 y m Hm) as L. rewrite (date_number_first y m (month_length y m)) in M. clearbody n.
  exists y, m, (n - date_number y m 1 + 1).
  rewrite (date_number_first y m (n - date_number y m 1 + 1)). repeat split; lia.
Qed.

(** Thanksgiving: the fourth Thursday of November, from 1942 on. *)
Theorem c48_thanksgiving : forall start stop x,
  In x (calendar_holidays [us_holidays.USThanksgivingDay] start stop) <->
  start <= x <= stop /\ exists y d, 1942 <= y /\ 22 <= d <= 28 /\
    day_of_week (date_number y 11 d) = THURSDAY /\ x = date_number y 11 d * 86400000000000.
Proof.
  intros start stop x. rewrite c46_dates by (intros r [<-|[]]; reflexivity).
  assert (S42 : ymd 1942 1 1 = year_start 1942) by (vm_compute; reflexivity).
  assert (Y : forall y d, 22 <= d <= 28 -> (1942 <= y <-> year_start 1942 <= date_number y 11 d)).
  { intros y d Hd. assert (V : valid_date y 11 d)
      by (split; [lia|]; change (month_length y 11) with 30; lia).
    pose proof (date_number_year y 11 d V) as I. split; intros H.
    - destruct (Z.eq_dec y 1942) as [->|N]; [apply I|].
      pose proof (year_start_mono 1942 y ltac:(lia)). destruct I. lia.
    - apply (in_year_mono (year_start 1942) (date_number y 11 d)); [|exact I|exact H].
      split; [lia|]. pose proof (year_start_mono 1942 (1942 + 1) ltac:(lia)). lia. }
  split; intros [Hr H]; (split; [exact Hr|]).
  - destruct H as [r [n [[<-|[]] [[[y [b [[D B] M]]] [_ [Hs _]]] ->]]]].
    cbn [moves_all] in M. subst b. specialize (Hs _ eq_refl). rewrite S42 in Hs.
    change (0 <? 4) with true in B. cbv iota in B.
    change (r_month us_holidays.USThanksgivingDay) with 11 in B.
    change (r_day us_holidays.USThanksgivingDay) with 1 in B.
    set (d := n - date_number y 11 1 + 1).
    assert (En : n = date_number y 11 d) by (rewrite date_number_first; unfold d; lia).
    exists y, d. rewrite En in *. assert (Hd : 22 <= d <= 28) by (unfold d; lia).
    split; [apply (Y y d Hd); exact Hs|]. split; [exact Hd|]. split; [exact D|reflexivity].
  - destruct H as [y [d [Hy [Hd [D ->]]]]]. exists us_holidays.USThanksgivingDay, (date_number y 11 d).
    split; [left; reflexivity|]. split; [|reflexivity]. split; [|split; [|split]].
    + exists y. exists (date_number y 11 d). split; [|reflexivity]. split; [exact D|].
      change (0 <? 4) with true. cbv iota.
      change (r_month us_holidays.USThanksgivingDay) with 11.
      change (r_day us_holidays.USThanksgivingDay) with 1.
      rewrite (date_number_first y 11 d). lia.
    + intros dow E. discriminate E.
    + intros s E. injection E as <-. rewrite S42. apply Y; assumption.
    + intros e E. discriminate E.
Qed.

(** Witnesses: the offsets of the repository meet the hypotheses, e.g. Black Friday
    and Hong Kong's second Monday. *)
Example c48_ex :
  forallb valid_offset [Easter; Day (-2); NthWeekday THURSDAY 4; NthWeekday MONDAY (-1);
                        WeekOfMonth 1 MONDAY; LastWeekOfMonth MONDAY] = true /\
  apply_offset (NthWeekday THURSDAY 4) (date_number 2020 11 1) = date_number 2020 11 26 /\
  apply_offset (WeekOfMonth 1 MONDAY) (date_number 1988 6 1) = date_number 1988 6 13 /\
  apply_offset (LastWeekOfMonth MONDAY) (date_number 1975 5 1) = date_number 1975 5 26.
Proof. vm_compute. repeat split. Qed.

(** ** C49: Easter *)

Theorem c49_easter : forall y, is_easter y (easter y).
Proof. exact easter_ok. Qed.

Theorem c49_bounds : forall y,
  date_number y 3 22 <= easter y <= date_number y 4 25 /\ day_of_week (easter y) = SUNDAY.
Proof. intros y. split; [apply easter_bounds|apply easter_sunday]. Qed.

(** Good Friday is the Friday before Easter, Easter Monday the day after it, in
    every year. *)
Theorem c49_good_friday : forall start stop x,
  In x (calendar_holidays [GoodFriday] start stop) <->
  start <= x <= stop /\ exists y e, is_easter y e /\ x = (e - 2) * 86400000000000.
Proof.
  intros start stop x. rewrite c46_dates by (intros r [<-|[]]; reflexivity).
  split; intros [Hr H]; (split; [exact Hr|]).
  - destruct H as [r [n [[<-|[]] [[[y [b [M [b' [M' M2]]]]] _] ->]]]]. cbn [moves moves_all] in M', M2.
    subst b' n. destruct M as [_ [[y' He] _]]. exists y', b. split; [exact He|]. f_equal.
  - destruct H as [y [e [He ->]]]. exists GoodFriday, (e - 2). split; [left; reflexivity|].
    split; [|reflexivity]. split; [|split; [|split]]; try (intros ? E; discriminate E).
    exists y. exists e. split; [|exists (e - 2); split; reflexivity].
    apply is_easter_iff in He. subst e.
    pose proof (easter_offset_ok (date_number y 1 1)) as O.
    rewrite <- (easter_from_january y 1 (apply_offset Easter (date_number y 1 1)) ltac:(lia) O). exact O.
Qed.

Theorem c49_easter_monday : forall start stop x,
  In x (calendar_holidays [EasterMonday] start stop) <->
  start <= x <= stop /\ exists y e, is_easter y e /\ x = (e + 1) * 86400000000000.
Proof.
  intros start stop x. rewrite c46_dates by (intros r [<-|[]]; reflexivity).
  split; intros [Hr H]; (split; [exact Hr|]).
  - destruct H as [r [n [[<-|[]] [[[y [b [M [b' [M' M2]]]]] _] ->]]]]. cbn [moves moves_all] in M', M2.
    subst b' n. destruct M as [_ [[y' He] _]]. exists y', b. split; [exact He|]. f_equal.
  - destruct H as [y [e [He ->]]]. exists EasterMonday, (e + 1). split; [left; reflexivity|].
    split; [|reflexivity]. split; [|split; [|split]]; try (intros ? E; discriminate E).
    exists y. exists e. split; [|exists (e + 1); split; reflexivity].
    apply is_easter_iff in He. subst e.
    pose proof (easter_offset_ok (date_number y 1 1)) as O.
    rewrite <- (easter_from_january y 1 (apply_offset Easter (date_number y 1 1)) ltac:(lia) O). exact O.
Qed.

(** Witness: known dates of Easter, the earliest and the latest among them, and
    1981, a year of the exception. *)
Example c49_ex :
  easter 2000 = date_number 2000 4 23 /\ easter 1818 = date_number 1818 3 22 /\
  easter 2038 = date_number 2038 4 25 /\ easter 1981 = date_number 1981 4 19 /\
  easter 1954 = date_number 1954 4 18 /\ full_moon 1954 + 1 = date_number 1954 4 18.
Proof. vm_compute. repeat split. Qed.

(** ** Assumptions *)
Print Assumptions c46_dates.
Print Assumptions c46_range_independent.
Print Assumptions c46_exchange_rules.
Print Assumptions c46_far_rule_refuted.
Print Assumptions c47_observed.
Print Assumptions c47_weekend.
Print Assumptions c47_consecutive_holidays.
Print Assumptions c48_offset.
Print Assumptions c48_nth_of_month.
Print Assumptions c48_last_of_month.
Print Assumptions c48_thanksgiving.
Print Assumptions c49_easter.
Print Assumptions c49_bounds.
Print Assumptions c49_good_friday.
Print Assumptions c49_easter_monday.
