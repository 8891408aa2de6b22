(** A holiday calendar that is asked again and again (C93). *)
From Coq Require Import ZArith String List Bool Lia Sorting.Sorted.
From Verif.Model Require Import Base Dates Holidays Exchange HolidayCalendar.
From Verif.Spec Require Import Civil Rules Schedule Inquiry.
From Verif.Proofs Require Import BaseLemmas DatesLemmas RuleLemmas RuleRange VenueData HolidayCalendarLemmas.
From Verif.Properties Require Import HolidayProps FeastProps.
From Verif.Exchanges Require Import All.
From Verif.Exchanges Require us_holidays.
Import ListNotations.
Open Scope list_scope.
Open Scope Z_scope.

(** ** Answers *)

(** The rules have the dates [P], whatever range from [A] to [B] they are asked for. *)
Definition dated (rules : list rule) (A B : Z -> Prop) (P : Z -> Prop) : Prop :=
  forall start stop x, A start -> B stop ->
    (In x (calendar_holidays rules start stop) <-> start <= x <= stop /\ P x).

Definition within (A B : Z -> Prop) (q : request) : Prop := A (req_start q) /\ B (req_stop q).

Definition good (rules : list rule) (P : Z -> Prop) (aware : bool) (h : holiday_calendar) : Prop :=
  hc_rules h = rules /\ exists first last l, hc_cache h = Some (aware, first, last, l) /\
    StronglySorted Z.le l /\ forall x, first <= x <= last -> (In x l <-> P x).

Lemma compute_good : forall rules lo up P q h, dated rules lo up P -> within lo up q -> hc_rules h = rules ->
  good rules P (req_aware q) (compute_holidays h q) /\
  lists P (req_start q) (req_stop q) (cached_between (compute_holidays h q) q).
Proof.
  intros rules lo up P q h D [W1 W2] Hr.
  assert (K : forall x, req_start q <= x <= req_stop q ->
    (In x (sort_dates (map midnight (flat_map (fun r => rule_dates r (req_start q) (req_stop q)) rules))) <-> P x)).
  { intros x Hx. rewrite sort_dates_In. specialize (D (req_start q) (req_stop q) x W1 W2).
    unfold calendar_holidays in D. rewrite filter_In, andb_true_iff, !Z.leb_le in D. tauto. }
  split.
  - split; [exact Hr|]. do 3 eexists. split; [cbn; rewrite Hr; reflexivity|]. split; [apply sort_dates_sorted|exact K].
  - unfold cached_between, compute_holidays. cbn [hc_cache]. rewrite Hr. split; [apply filter_sorted, sort_dates_sorted|].
    intros x. rewrite filter_In, andb_true_iff, !Z.leb_le. split.
    + intros [I L]. split; [exact L|]. apply K; assumption.
    + intros [L Px]. split; [|exact L]. apply K; assumption.
Qed.

Lemma step : forall rules lo up P aware h q, dated rules lo up P -> within lo up q -> good rules P aware h ->
  answers P aware q (fst (holidays h q)) /\ good rules P aware (snd (holidays h q)).
Proof.
  intros rules lo up P aware h q D W G. destruct G as [Hr [first [last [l [Hc [Hs Hl]]]]]].
  unfold holidays, answers. rewrite Hc. destruct (Bool.eqb aware (req_aware q)) eqn:E.
  - apply eqb_prop in E. rewrite E, xorb_nilpotent. cbv zeta.
    destruct ((req_start q <? first) || (last <? req_stop q)) eqn:O; cbn [fst snd].
    + destruct (compute_good rules lo up P q h D W Hr) as [G L]. split; [eexists; split; [reflexivity|exact L]|exact G].
    + apply orb_false_iff in O. rewrite !Z.ltb_ge in O. split.
      * eexists. split; [reflexivity|]. unfold cached_between. rewrite Hc. split; [apply filter_sorted; exact Hs|].
        intros x. rewrite filter_In, andb_true_iff, !Z.leb_le. specialize (Hl x). split.
        -- intros [I L]. split; [exact L|]. apply Hl; [lia|exact I].
        -- intros [L Px]. split; [|exact L]. apply Hl; [lia|exact Px].
      * split; [exact Hr|]. exists first, last, l. rewrite <- E. split; [exact Hc|split; assumption].
  - assert (X : xorb aware (req_aware q) = true) by (destruct aware, (req_aware q); cbn in *; congruence).
    rewrite X. cbn [fst snd]. split; [reflexivity|]. split; [exact Hr|]. exists first, last, l. split; [exact Hc|split; assumption].
Qed.

Lemma history_from : forall rules lo up P aware qs h, dated rules lo up P ->
  (forall q, In q qs -> within lo up q) -> good rules P aware h ->
  Forall2 (answers P aware) qs (holidays_history h qs).
Proof.
  intros rules lo up P aware qs. induction qs as [|q qs IH]; intros h D W G; [constructor|].
  cbn [holidays_history]. destruct (step rules lo up P aware h q D (W q (or_introl eq_refl)) G) as [A B].
  destruct (holidays h q) as [a h'] eqn:E. cbn [fst snd] in A, B. constructor; [exact A|].
  apply IH; [exact D|intros q' Hq'; apply W; right; exact Hq'|exact B].
Qed.

Lemma history : forall rules lo up P q qs, dated rules lo up P ->
  (forall q', In q' (q :: qs) -> within lo up q') ->
  Forall2 (answers P (req_aware q)) (q :: qs) (holidays_history (HolidayCalendar rules) (q :: qs)).
Proof.
  intros rules lo up P q qs D W.
  destruct (compute_good rules lo up P q (HolidayCalendar rules) D (W q (or_introl eq_refl)) eq_refl) as [G L].
  cbn [holidays_history]. unfold holidays at 1. cbn [hc_cache HolidayCalendar]. cbv zeta. constructor.
  - unfold answers. rewrite eqb_reflx. eexists. split; [reflexivity|exact L].
  - apply (history_from rules lo up P); [exact D|intros q' Hq'; apply W; right; exact Hq'|exact G].
Qed.

Lemma Forall2_len : forall {A B} (R : A -> B -> Prop) l l', Forall2 R l l' -> length l = length l'.
Proof. intros A B R l l' H. induction H; cbn; congruence. Qed.

(** ** C93 *)

(** The first call on a holiday calendar settles whether it is asked with or without a
    time zone: every later call of the other kind is a TypeError.  Every call of that kind
    lists, in order, exactly the days of its range on which some rule falls, whatever was
    asked before. *)
Theorem c93_history : forall rules q qs, (forall r, In r rules -> settled r = true) ->
  Forall2 (answers (fun x => exists r n, In r rules /\ falls_on r n /\ x = n * 86400000000000) (req_aware q))
    (q :: qs) (holidays_history (HolidayCalendar rules) (q :: qs)).
Proof.
  intros rules q qs S.
  apply (history rules (fun _ => True) (fun _ => True)); [|intros; split; exact I].
  intros start stop x _ _. apply c46_dates. exact S.
Qed.

(** So the answer never depends on the calls before: it lists the dates that a new object
    lists. *)
Theorem c93_fresh : forall rules q qs q', (forall r, In r rules -> settled r = true) -> req_aware q' = req_aware q ->
  exists l l', nth_error (holidays_history (HolidayCalendar rules) (q :: qs ++ [q'])) (S (length qs)) = Some (Ok l) /\
    holidays_history (HolidayCalendar rules) [q'] = [Ok l'] /\ forall x, In x l <-> In x l'.
Proof.
  intros rules q qs q' S A. pose proof (c93_history rules q (qs ++ [q']) S) as H. pose proof (c93_history rules q' [] S) as H'.
  assert (A' : exists l', holidays_history (HolidayCalendar rules) [q'] = [Ok l'] /\
    lists (fun x => exists r n, In r rules /\ falls_on r n /\ x = n * 86400000000000) (req_start q') (req_stop q') l').
  { revert H'. generalize (holidays_history (HolidayCalendar rules) [q']) as answered. intros answered H'.
    inversion H' as [|? a' ? rest A' N E1 E2]. inversion N. unfold answers in A'. rewrite eqb_reflx in A'.
    destruct A' as [l0 [-> L']]. exists l0. split; [reflexivity|exact L']. }
  destruct A' as [l' [E' [_ L']]]. rewrite E'. clear H' E'.
  change (q :: qs ++ [q']) with ((q :: qs) ++ [q']) in *.
  apply Forall2_app_inv_l in H. destruct H as [as1 [as2 [F1 [F2 E]]]]. rewrite E.
  inversion F2 as [|? a ? as3 Aa N2 E1 E2]. inversion N2. subst as3 as2. unfold answers in Aa. rewrite A, eqb_reflx in Aa.
  destruct Aa as [l0 [-> [_ L]]]. exists l0, l'. pose proof (Forall2_len _ _ _ F1) as Le. cbn [length] in Le.
  split; [rewrite nth_error_app2 by lia; replace (Datatypes.S (length qs) - length as1)%nat with 0%nat by lia; reflexivity|].
  split; [reflexivity|]. intros x0. rewrite L, L'. reflexivity.
Qed.

(** The answer is even the same list, repeated days included, for all
    rules but one kind: an observance that gathers four years on one day must have a first and
    a last date. *)
Theorem c93_same_list : forall rules q qs q',
  (forall r, In r rules -> settled r = true /\
    (r_observance r = Some Following_tuesday_every_four_years -> r_start r <> None /\ r_end r <> None)) ->
  req_aware q' = req_aware q ->
  exists l, nth_error (holidays_history (HolidayCalendar rules) (q :: qs ++ [q'])) (S (length qs)) = Some (Ok l) /\
    holidays_history (HolidayCalendar rules) [q'] = [Ok l].
Proof.
  intros rules q qs q' S A.
  assert (St : forall r, In r rules -> steady r = true).
  { intros r Hr. destruct (S r Hr) as [S1 S2]. unfold steady. rewrite S1. cbn [andb].
    destruct (r_observance r) as [[]|]; try reflexivity. destruct (S2 eq_refl) as [N1 N2].
    destruct (r_start r); [|destruct (N1 eq_refl)]. destruct (r_end r); [reflexivity|destruct (N2 eq_refl)]. }
  set (L := fun start stop => sort_dates (map midnight (flat_map (fun r => rule_dates r start stop) rules))).
  set (ok := fun h => hc_rules h = rules /\ exists first last, hc_cache h = Some (req_aware q, first, last, L first last)).
  exists (filter (fun x => (req_start q' <=? x) && (x <=? req_stop q')) (L (req_start q') (req_stop q'))).
  split; [|reflexivity].
  assert (Step : forall h q0, ok h -> ok (snd (holidays h q0)) /\ (req_aware q0 = req_aware q ->
    fst (holidays h q0) = Ok (filter (fun x => (req_start q0 <=? x) && (x <=? req_stop q0)) (L (req_start q0) (req_stop q0))))).
  { intros h q0 [Hr [first [last Hc]]]. unfold holidays. rewrite Hc.
    destruct (xorb (req_aware q) (req_aware q0)) eqn:X; cbn [fst snd].
    - split; [split; [exact Hr|exists first, last; exact Hc]|]. intros E. rewrite E, xorb_nilpotent in X. discriminate X.
    - assert (E : req_aware q = req_aware q0) by (destruct (req_aware q), (req_aware q0); cbn in X; congruence).
      cbv zeta. destruct ((req_start q0 <? first) || (last <? req_stop q0)) eqn:O.
      + split; [split; [exact Hr|]|intros _].
        * exists (req_start q0), (req_stop q0). unfold compute_holidays. cbn [hc_cache]. rewrite Hr, E. reflexivity.
        * unfold cached_between, compute_holidays. cbn [hc_cache]. rewrite Hr. reflexivity.
      + apply orb_false_iff in O. rewrite !Z.ltb_ge in O. split; [split; [exact Hr|exists first, last; exact Hc]|intros _].
        unfold cached_between. rewrite Hc. f_equal. apply rules_part; [exact St|lia|lia]. }
  assert (Run : forall l h, ok h -> nth_error (holidays_history h (l ++ [q'])) (length l) =
    Some (Ok (filter (fun x => (req_start q' <=? x) && (x <=? req_stop q')) (L (req_start q') (req_stop q'))))).
  { induction l as [|q0 l IH]; intros h Hh; cbn [app holidays_history length].
    - destruct (Step h q' Hh) as [_ F]. destruct (holidays h q') as [a h']. cbn [fst nth_error] in *. rewrite (F A). reflexivity.
    - destruct (Step h q0 Hh) as [K _]. destruct (holidays h q0) as [a h']. cbn [snd nth_error] in *. apply IH. exact K. }
  cbn [holidays_history]. unfold holidays at 1. cbn [hc_cache HolidayCalendar nth_error]. apply Run.
  split; [reflexivity|]. exists (req_start q), (req_stop q). reflexivity.
Qed.

(** Without these dates it depends on the calls before how often a day is listed. *)
Theorem c93_repeated_refuted : exists rules q q', (forall r, In r rules -> settled r = true) /\
  exists l l1 l', holidays_history (HolidayCalendar rules) [q; q'] = [Ok l1; Ok l] /\
    holidays_history (HolidayCalendar rules) [q'] = [Ok l'] /\ length l <> length l'.
Proof.
  exists [Holiday 11 2 [] (Some Following_tuesday_every_four_years) None None None],
    (Between false (midnight (days_from_civil 1960 1 1)) (midnight (days_from_civil 1972 12 31))),
    (Between false (midnight (days_from_civil 1968 1 1)) (midnight (days_from_civil 1968 12 31))).
  split; [intros r [<-|[]]; reflexivity|]. do 3 eexists.
  split; [vm_compute; reflexivity|]. split; [vm_compute; reflexivity|]. vm_compute. discriminate.
Qed.

(** All rules of the exchanges but those of Tel Aviv are as c93_same_list asks. *)
Theorem c93_exchange_lists : forall name E rules r, In (name, E) exchanges -> name <> "XTAE"%string ->
  rules = ex_regular_holidays E \/ (exists t, In (t, rules) (ex_special_opens E) \/ In (t, rules) (ex_special_closes E)) ->
  In r rules -> settled r = true /\
    (r_observance r = Some Following_tuesday_every_four_years -> r_start r <> None /\ r_end r <> None).
Proof.
  intros name E rules r H N Hr Ir.
  assert (A : forallb (fun p => if String.eqb (fst p) "XTAE" then true else
    forallb steady (ex_regular_holidays (snd p)) &&
    forallb (fun q => forallb steady (snd q)) (ex_special_opens (snd p) ++ ex_special_closes (snd p))) exchanges = true)
    by (vm_compute; reflexivity).
  rewrite forallb_forall in A. specialize (A _ H). cbn [fst snd] in A.
  destruct (String.eqb_spec name "XTAE") as [E0|_]; [contradiction|]. apply andb_true_iff in A. destruct A as [A1 A2].
  rewrite forallb_forall in A1, A2.
  assert (St : steady r = true).
  { destruct Hr as [->|[t Hr]]; [apply A1; exact Ir|]. assert (I : In (t, rules) (ex_special_opens E ++ ex_special_closes E))
      by (apply in_app_iff; exact Hr).
    specialize (A2 _ I). cbn [snd] in A2. rewrite forallb_forall in A2. apply A2. exact Ir. }
  unfold steady in St. apply andb_true_iff in St. destruct St as [S1 S2]. split; [exact S1|]. intros Eo. rewrite Eo in S2.
  destruct (r_start r), (r_end r); try discriminate S2. split; discriminate.
Qed.

(** Every holiday calendar of every exchange is like that between the years 3 and 9997. *)
Theorem c93_exchanges : forall name E rules, In (name, E) exchanges ->
  rules = ex_regular_holidays E \/ (exists t, In (t, rules) (ex_special_opens E) \/ In (t, rules) (ex_special_closes E)) ->
  exists P, (forall start stop x, 3 <= year_of (day_of start) -> year_of (day_of stop) <= 9997 ->
      (In x (calendar_holidays rules start stop) <-> start <= x <= stop /\ P x)) /\
    forall q qs, (forall q', In q' (q :: qs) -> 3 <= year_of (day_of (req_start q')) /\ year_of (day_of (req_stop q')) <= 9997) ->
      Forall2 (answers P (req_aware q)) (q :: qs) (holidays_history (HolidayCalendar rules) (q :: qs)).
Proof.
  intros name E rules H Hr.
  set (A := fun t => 3 <= year_of (day_of t)). set (B := fun t => year_of (day_of t) <= 9997).
  assert (D : exists P, dated rules A B P).
  { assert (S : (forall r, In r rules -> settled r = true) \/ (name = "XTAE"%string /\ rules = ex_regular_holidays E)).
    { pose proof venues_settled as V. rewrite forallb_forall in V. specialize (V _ H). cbn [fst snd] in V.
      apply andb_true_iff in V. destruct V as [V V3]. apply andb_true_iff in V. destruct V as [V1 V2].
      rewrite forallb_forall in V1, V2. destruct Hr as [->|[t [Hr|Hr]]].
      - apply orb_true_iff in V3. destruct V3 as [V3|V3]; [right|left].
        + apply String.eqb_eq in V3. split; [exact V3|reflexivity].
        + rewrite forallb_forall in V3. exact V3.
      - left. specialize (V1 _ Hr). rewrite forallb_forall in V1. exact V1.
      - left. specialize (V2 _ Hr). rewrite forallb_forall in V2. exact V2. }
    destruct S as [S|[N ->]].
    - eexists. intros start stop x _ _. apply c46_dates. exact S.
    - assert (E = exchange_calendar_xtae.calendar) as ->.
      { clear Hr. subst name. unfold exchanges in H. cbn [In] in H.
        repeat (destruct H as [H|H]; [try (discriminate H); congruence|]). destruct H. }
      eexists. intros start stop x HA HB. apply c50_tel_aviv; [exact HA|exact HB]. }
  destruct D as [P D]. exists P. split; [exact D|]. intros q qs W. apply (history rules A B P q qs D). exact W.
Qed.

(** For a rule that leads far from its month and day the answer depends on the calls
    before: a new object leaves out a day that an object asked for more years lists. *)
Theorem c93_far_rule_refuted : exists rules q q', (forall r, In r rules -> valid_rule r = true) /\
    exists x l l1 l', holidays_history (HolidayCalendar rules) [q; q'] = [Ok l1; Ok l] /\
    holidays_history (HolidayCalendar rules) [q'] = [Ok l'] /\ In x l /\ ~ In x l'.
Proof.
  exists [Holiday 1 1 [Day 2000] None None None None],
    (Between false (midnight (days_from_civil 2000 1 1)) (midnight (days_from_civil 2010 12 31))),
    (Between false (midnight (days_from_civil 2010 1 1)) (midnight (days_from_civil 2010 12 31))).
  split; [intros r [<-|[]]; reflexivity|].
  exists (midnight (days_from_civil 2005 1 1 + 2000)). do 3 eexists.
  split; [vm_compute; reflexivity|]. split; [vm_compute; reflexivity|].
  split; [vm_compute; tauto|]. vm_compute. intros H. repeat (destruct H as [H|H]; [discriminate H|]). exact H.
Qed.

(** Witness: Christmas and Good Friday of New York, for 2011, then for 2010 to 2012, then
    for 2011 again, and once with a time zone. *)
Example c93_ex :
  let y a b aware := Between aware (midnight (days_from_civil a 1 1)) (midnight (days_from_civil b 12 31)) in
  map (fun a => match a with Ok l => Some (map day_of l) | Raise _ => None end)
    (holidays_history (HolidayCalendar [us_holidays.Christmas; GoodFriday])
      [y 2011 2011 false; y 2010 2012 false; y 2011 2011 true; y 2011 2011 false]) =
  [Some [date_number 2011 4 22; date_number 2011 12 26];
   Some [date_number 2010 4 2; date_number 2010 12 24; date_number 2011 4 22; date_number 2011 12 26;
         date_number 2012 4 6; date_number 2012 12 25];
   None;
   Some [date_number 2011 4 22; date_number 2011 12 26]] /\
  forallb settled [us_holidays.Christmas; GoodFriday] = true.
Proof. vm_compute. split; reflexivity. Qed.

(** ** Assumptions *)
Print Assumptions c93_history.
Print Assumptions c93_fresh.
Print Assumptions c93_same_list.
Print Assumptions c93_repeated_refuted.
Print Assumptions c93_exchange_lists.
Print Assumptions c93_exchanges.
Print Assumptions c93_far_rule_refuted.
