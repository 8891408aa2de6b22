(** The times and the early closes of each exchange are those of its timetable. *)
From Coq Require Import ZArith String List Bool Lia.
From Verif.Model Require Import Dates Zone Holidays Build Exchange.
From Verif.Spec Require Import Construction Civil Rules Venue Almanac Hours.
From Verif.Proofs Require Import DatesLemmas BuildLemmas RuleLemmas RuleRange AlmanacLemmas AlmanacRules.
From Verif.Exchanges Require Import All.
From Verif.Exchanges Require common_holidays us_holidays lunisolar_holidays xkls_holidays.
Import ListNotations.
Open Scope Z_scope.

(** ** Times of day *)

Definition agrees (f : clock -> time) (ts : list (option Z * time)) (d : daily) : Prop :=
  forall n t, in_force ts n t -> exists c, d n c /\ t = f c.

Lemma agrees_always : forall f h m, agrees f [(None, f (h, m))] (always h m).
Proof.
  intros f h m n t [s [[E|[]] _]]. injection E as <- <-. exists (h, m). split; reflexivity.
Qed.

Lemma agrees_changed : forall f a y m d b, 1 <= m <= 12 -> agrees f [(None, f a); (Some (ymd y m d), f b)] (changed a y m d b).
Proof.
  intros f a y m d b Hm n t [s [I [St L]]]. unfold changed, ymd in *. rewrite (days_from_civil_ok y m d Hm) in *.
  destruct I as [E|[E|[]]]; injection E as <- <-.
  - exists a. split; [|reflexivity]. left. split; [|reflexivity].
    destruct (Z.le_gt_cases (date_number y m d) n) as [G|G]; [|exact G]. exfalso.
    apply (L (Some (date_number y m d)) (f b)); [right; left; reflexivity|exact G].
  - exists b. split; [|reflexivity]. right. split; [exact St|reflexivity].
Qed.

(** Before or after the first of March or November. *)
Lemma month_cases : forall m, 1 <= m <= 12 -> m = 1 \/ m = 2 \/ m = 3 \/ m = 4 \/ m = 5 \/ m = 6 \/ m = 7 \/
  m = 8 \/ m = 9 \/ m = 10 \/ m = 11 \/ m = 12.
Proof. lia. Qed.

Lemma month_start_le : forall y m d y' m', valid_date y m d -> m' = 3 \/ m' = 11 ->
  (date_number y' m' 1 <= date_number y m d <-> y' < y \/ y' = y /\ m' <= m).
Proof.
  intros y m d y' m' V Hm'.
  pose proof (date_number_year y m d V) as I.
  assert (V' : valid_date y' m' 1).
  { destruct Hm' as [-> | ->]; (split; [lia|]); [change (month_length y' 3) with 31|change (month_length y' 11) with 30]; lia. }
  pose proof (date_number_year y' m' 1 V') as I'. unfold in_year in I, I'.
  destruct (Z.lt_trichotomy y' y) as [L|[->|G]].
  - pose proof (year_start_mono y' y L). destruct (Z.eq_dec (y' + 1) y) as [<-|N]; [lia|].
    pose proof (year_start_mono (y' + 1) y ltac:(lia)). lia.
  - destruct V as [Hm Hd]. clear I I' V'. unfold date_number.
    assert (Q : days_before_month y m' <= days_before_month y m + (d - 1) <-> m' <= m); [|lia].
    unfold days_before_month, month_length, month_lengths in *.
    destruct Hm' as [-> | ->]; apply month_cases in Hm;
      destruct Hm as [-> | [-> | [-> | [-> | [-> | [-> | [-> | [-> | [-> | [-> | [-> | ->]]]]]]]]]]];
      revert Hd; cbn -[leap Z.le Pos.to_nat nth firstn fold_right];
      repeat match goal with |- context [Pos.to_nat ?p] =>
        let v := eval vm_compute in (Pos.to_nat p) in change (Pos.to_nat p) with v end;
      cbn [firstn fold_right nth]; destruct (leap y); lia.
  - destruct (Z.eq_dec (y + 1) y') as [<-|N]; [lia|]. pose proof (year_start_mono (y + 1) y' ltac:(lia)). lia.
Qed.

Lemma agrees_santiago : agrees time_of starting_dates_and_close_times santiago_closing.
Proof.
  intros n t [s [I [St L]]].
  destruct (civil_from_days n) as [[y m] d] eqn:C. apply civil_from_days_ok in C. destruct C as [V E]. subst n.
  assert (A : forall y' m', 1980 <= y' <= 2049 -> m' = 3 \/ m' = 11 ->
    In (Some (date_number y' m' 1), if m' =? 3 then Time 16 0 0 else Time 17 0 0) starting_dates_and_close_times).
  { intros y' m' Hy Hm. right. apply in_flat_map. exists y'. split; [apply year_range_In; lia|].
    unfold ymd. rewrite !days_from_civil_ok by lia.
    destruct Hm as [-> | ->]; [left|right; left]; reflexivity. }
  assert (B : s = None /\ t = Time 17 0 0 \/ exists y' m', 1980 <= y' <= 2049 /\ (m' = 3 \/ m' = 11) /\
    s = Some (date_number y' m' 1) /\ t = if m' =? 3 then Time 16 0 0 else Time 17 0 0).
  { destruct I as [I|I]; [injection I as <- <-; tauto|]. right. apply in_flat_map in I. destruct I as [y' [Hy I]].
    apply year_range_In in Hy. unfold ymd in I. rewrite !days_from_civil_ok in I by lia.
    destruct I as [I|[I|[]]]; injection I as <- <-; [exists y', 3|exists y', 11]; (split; [lia|]); tauto. }
  assert (N : forall y' m', 1980 <= y' <= 2049 -> m' = 3 \/ m' = 11 ->
    (y' < y \/ y' = y /\ m' <= m) -> no_later (Some (date_number y' m' 1)) s).
  { intros y' m' Hy Hm Q. apply (L _ _ (A y' m' Hy Hm)). cbn [started]. apply month_start_le; assumption. }
  unfold santiago_closing, time_of. pose proof (proj1 V) as Hmm.
  destruct B as [[-> ->]|[y' [m' [Hy [Hm [-> ->]]]]]].
  - exists (17, 0). split; [|reflexivity]. exists y, m, d. split; [reflexivity|]. split; [exact V|]. right.
    split; [|reflexivity]. intros [Hy H3]. apply (N 1980 3); [lia|tauto|lia].
  - cbn [started] in St. apply month_start_le in St; [|exact V|exact Hm].
    assert (N2 : forall y2 m2, 1980 <= y2 <= 2049 -> m2 = 3 \/ m2 = 11 -> (y' < y2 \/ y' = y2 /\ m' < m2) ->
      ~ (y2 < y \/ y2 = y /\ m2 <= m)).
    { intros y2 m2 Hy2 Hm2 Q F. specialize (N y2 m2 Hy2 Hm2 F). cbn [no_later] in N.
      apply month_start_le in N; [lia| |exact Hm2]. destruct Hm as [-> | ->]; (split; [lia|]);
      [change (month_length y' 3) with 31|change (month_length y' 11) with 30]; lia. }
    destruct Hm as [-> | ->]; cbn [Z.eqb Pos.eqb].
    + exists (16, 0). split; [|reflexivity]. exists y, m, d. split; [reflexivity|]. split; [exact V|]. left.
      specialize (N2 y' 11 Hy ltac:(tauto) ltac:(lia)). split; [lia|]. split; [lia|reflexivity].
    + exists (17, 0). split; [|reflexivity]. exists y, m, d. split; [reflexivity|]. split; [exact V|]. right.
      split; [|reflexivity]. intros F.
      destruct (Z.eq_dec y' 2049) as [->|]; [lia|]. specialize (N2 (y' + 1) 3 ltac:(lia) ltac:(tauto) ltac:(lia)). lia.
Qed.

(** ** Early closes *)

Definition same_dates (ds : list Z) (hs : list days) : Prop :=
  forall n, In n ds <-> exists h, In h hs /\ h n.

Lemma same_dates_nil : same_dates [] [].
Proof. intros n. split; [intros []|intros [h [[] _]]]. Qed.
Lemma same_dates_cons : forall a ds h hs, (forall n, n = a <-> h n) -> same_dates ds hs ->
  same_dates (a :: ds) (h :: hs).
Proof.
  intros a ds h hs E S n. specialize (S n). specialize (E n). cbn [In]. split.
  - intros [<-|H]; [exists h; tauto|]. apply S in H. destruct H as [k H]. exists k. tauto.
  - intros [k [[<-|H1] H2]]; [left; symmetry; apply E; exact H2|]. right. apply S. exists k. tauto.
Qed.

Definition kept_early (es : list (clock * list days)) (n : Z) (t : time) : Prop :=
  exists c, t = time_of c /\ exists hs h, In (c, hs) es /\ In h hs /\ h n.

Lemma special_early : forall rules dates es1 es2,
  Forall2 (fun p q => fst p = time_of (fst q) /\ same (snd p) (snd q)) rules es1 ->
  Forall2 (fun p q => fst p = time_of (fst q) /\ same_dates (snd p) (snd q)) dates es2 ->
  forall n t, special_time rules dates n t <-> kept_early (es1 ++ es2) n t.
Proof.
  intros rules dates es1 es2 F1 F2 n t. unfold special_time, kept_early.
  assert (A : (exists rs r, In (t, rs) rules /\ In r rs /\ falls_on r n) <->
              exists c, t = time_of c /\ exists hs h, In (c, hs) es1 /\ In h hs /\ h n).
  { clear F2. induction F1 as [|[t0 rs] [c hs] rules es1 [E S] F IH].
    - split; [intros [rs [r [[] _]]]|intros [c [_ [hs [h [[] _]]]]]].
    - cbn [fst snd] in E, S. specialize (S n). cbn [In]. split.
      + intros [rs' [r [[Q|Q] [H1 H2]]]].
        * injection Q as Q1 <-. subst t0. destruct (proj1 S (ex_intro _ r (conj H1 H2))) as [h Hh].
          exists c. split; [congruence|]. exists hs, h. tauto.
        * destruct (proj1 IH) as [c' [E' [hs' [h' H']]]]; [exists rs', r; tauto|].
          exists c'. split; [exact E'|]. exists hs', h'. tauto.
      + intros [c' [E' [hs' [h' [[Q|Q] H']]]]].
        * injection Q as <- <-. destruct (proj2 S (ex_intro _ h' H')) as [r Hr]. exists rs, r.
          split; [left; congruence|exact Hr].
        * destruct (proj2 IH) as [rs' [r Hr]]; [exists c'; split; [exact E'|]; exists hs', h'; tauto|].
          exists rs', r. tauto. }
  assert (B : (exists ds, In (t, ds) dates /\ In n ds) <->
              exists c, t = time_of c /\ exists hs h, In (c, hs) es2 /\ In h hs /\ h n).
  { clear F1 A. induction F2 as [|[t0 ds] [c hs] dates es2 [E S] F IH].
    - split; [intros [ds [[] _]]|intros [c [_ [hs [h [[] _]]]]]].
    - cbn [fst snd] in E, S. specialize (S n). cbn [In]. split.
      + intros [ds' [[Q|Q] H1]].
        * injection Q as Q1 <-. subst t0. destruct (proj1 S H1) as [h Hh].
          exists c. split; [congruence|]. exists hs, h. tauto.
        * destruct (proj1 IH) as [c' [E' [hs' [h' H']]]]; [exists ds'; tauto|].
          exists c'. split; [exact E'|]. exists hs', h'. tauto.
      + intros [c' [E' [hs' [h' [[Q|Q] H']]]]].
        * injection Q as <- <-. exists ds. split; [left; congruence|]. apply S. exists h'. exact H'.
        * destruct (proj2 IH) as [ds' Hr]; [exists c'; split; [exact E'|]; exists hs', h'; tauto|].
          exists ds'. tauto. }
  rewrite A, B. split.
  - intros [[c [E [hs [h [H1 H2]]]]]|[c [E [hs [h [H1 H2]]]]]]; exists c; (split; [exact E|]); exists hs, h;
      rewrite in_app_iff; tauto.
  - intros [c [E [hs [h [H1 H2]]]]]. apply in_app_iff in H1. destruct H1 as [H1|H1]; [left|right];
      exists c; (split; [exact E|]); exists hs, h; tauto.
Qed.

Definition early_ok (E : exchange) (es : list (clock * list days)) : Prop :=
  forall n t, special_closing E n t <-> kept_early es n t.

Lemma same_perm : forall rs rs' hs, (forall r, In r rs <-> In r rs') -> same rs' hs -> same rs hs.
Proof.
  intros rs rs' hs P S n. rewrite <- (S n). split; intros [r [H1 H2]]; exists r; (split; [apply P; exact H1|exact H2]).
Qed.

Lemma early_none : forall E, ex_special_closes E = [] -> ex_special_closes_adhoc E = [] -> early_ok E [].
Proof.
  intros E E1 E2. unfold early_ok, special_closing. rewrite E1, E2.
  exact (special_early [] [] [] [] (Forall2_nil _) (Forall2_nil _)).
Qed.

Lemma early_rules : forall E es, ex_special_closes_adhoc E = [] ->
  Forall2 (fun p q => fst p = time_of (fst q) /\ same (snd p) (snd q)) (ex_special_closes E) es -> early_ok E es.
Proof.
  intros E es E2 F. unfold early_ok, special_closing. rewrite E2. intros n t.
  rewrite (special_early _ _ _ _ F (Forall2_nil _)), app_nil_r. reflexivity.
Qed.

Ltac times := cbv beta delta [on_workday last_before black_friday]; cbn [fst snd app].
Ltac half_days :=
  apply early_rules; [reflexivity|];
  repeat (apply Forall2_cons; [split; [reflexivity|times; entries; apply same_nil]|]); apply Forall2_nil.

(** Days before the feasts of a list, unless on a weekend. *)
Lemma eves_iff : forall dates n,
  In n (filter (fun day => negb (memb (weekday day) WEEKENDS)) (shift (-1) dates)) <-> eve_of dates n.
Proof.
  intros dates n. rewrite filter_In, negb_true_iff. unfold eve_of, workday, shift.
  assert (A : memb (weekday n) WEEKENDS = false <-> day_of_week n < 5).
  { rewrite <- not_true_iff_false, memb_In, weekday_dow. unfold WEEKENDS. cbn [In].
    assert (B : 0 <= day_of_week n < 7) by (apply Z.mod_pos_bound; reflexivity).
    unfold SATURDAY, SUNDAY. lia. }
  assert (B : In n (map (fun d => d + -1) dates) <-> In (n + 1) dates).
  { rewrite in_map_iff. split.
    - intros [d [<- H]]. replace (d + -1 + 1) with d by lia. exact H.
    - intros H. exists (n + 1). split; [lia|exact H]. }
  tauto.
Qed.

Lemma not_memb : forall d l, negb (memb d l) = true <-> ~ In d l.
Proof. intros d l. rewrite negb_true_iff, <- not_true_iff_false, memb_In. reflexivity. Qed.

Lemma sunday_iff : forall dates n,
  In n (map sunday_to_monday dates) <-> exists d, In d dates /\ after_sunday d n.
Proof.
  intros dates n. rewrite in_map_iff. split; intros [d [H1 H2]]; exists d.
  - split; [exact H2|]. subst n. apply sunday_to_monday_ok.
  - split; [|exact H1]. symmetry. apply (first_from_iff _ _ _ n (sunday_to_monday_ok d)). exact H2.
Qed.

Lemma cmes_early : early_ok exchange_calendar_cmes.calendar
  [((12, 0), (american_half_days ++ christmas_half_days)%list)].
Proof. half_days. Qed.

Lemma iepa_early : early_ok exchange_calendar_iepa.calendar
  [((13, 0), american_half_days)].
Proof.
  apply early_rules; [reflexivity|]. apply Forall2_cons; [split; [reflexivity|]|apply Forall2_nil].
  apply (same_perm _ [us_holidays.USMartinLutherKingJrAfter1998; pd_USPresidentsDay; us_holidays.USMemorialDay;
    pd_USLaborDay; us_holidays.USIndependenceDay; pd_USThanksgivingDay]).
  - intros r. cbn [snd In]. tauto.
  - unfold american_half_days. entries. apply same_nil.
Qed.

Lemma xams_early : early_ok exchange_calendar_xams.calendar
  euronext_half_days.
Proof. half_days. Qed.

Lemma xasx_early : early_ok exchange_calendar_xasx.calendar
  [((14, 10), [since 2010 (last_before christmas_eve); since 2010 (last_before new_years_eve)])].
Proof. half_days. Qed.

Lemma xbru_early : early_ok exchange_calendar_xbru.calendar
  euronext_half_days.
Proof. half_days. Qed.

Lemma xbue_early : early_ok exchange_calendar_xbue.calendar
  [((13, 0), [on_workday (except [2018] christmas_eve); on_workday (except [2018] new_years_eve)])].
Proof. half_days. Qed.

Lemma xcbf_early : early_ok exchange_calendar_xcbf.calendar
  [((12, 15), [since 1993 black_friday])].
Proof. half_days. Qed.

Lemma xdub_early : early_ok exchange_calendar_xdub.calendar
  [((12, 28), [since 2010 (last_before christmas_eve); since 2010 (last_before new_years_eve)]); ((12, 28), [date 2018 3 1])].
Proof.
  refine (special_early _ _ [_] [_] _ _).
  - apply Forall2_cons; [split; [reflexivity|times; entries; apply same_nil]|apply Forall2_nil].
  - apply Forall2_cons; [split; [reflexivity|]|apply Forall2_nil].
    apply same_dates_cons; [intros n; reflexivity|apply same_dates_nil].
Qed.

Lemma xfra_early : early_ok exchange_calendar_xfra.calendar
  [((12, 30), [since 2010 (kept on_workday_before new_years_eve)])].
Proof. half_days. Qed.

Lemma xetr_early : early_ok exchange_calendar_xetr.calendar
  [((14, 0), [since 2010 (kept on_workday_before new_years_eve)])].
Proof. half_days. Qed.

Lemma lunar_eves : forall dates n,
  In n (map (fun d => d - 1)
    (filter (fun d => memb (weekday d) [TUESDAY; WEDNESDAY; THURSDAY; FRIDAY; SATURDAY] && (2013 <=? year_of d))
       dates)) <-> date_number 2013 1 1 <= n + 1 /\ eve_of dates n.
Proof.
  intros dates n. rewrite in_map_iff. unfold eve_of, workday.
  assert (A : forall d, (memb (weekday d) [TUESDAY; WEDNESDAY; THURSDAY; FRIDAY; SATURDAY] &&
      (2013 <=? year_of d))%bool = true <-> day_of_week (d - 1) < 5 /\ date_number 2013 1 1 <= d).
  { intros d. rewrite andb_true_iff, memb_In, Z.leb_le, weekday_dow.
    rewrite (since_year d (year_of d) 2013 (proj1 (year_of_ok d _) eq_refl)).
    assert (B : In (day_of_week d) [TUESDAY; WEDNESDAY; THURSDAY; FRIDAY; SATURDAY] <-> day_of_week (d - 1) < 5).
    { unfold day_of_week, TUESDAY, WEDNESDAY, THURSDAY, FRIDAY, SATURDAY. cbn [In].
      Z.div_mod_to_equations. lia. }
    tauto. }
  split.
  - intros [d [<- H]]. apply filter_In in H. destruct H as [H1 H2]. apply A in H2.
    replace (d - 1 + 1) with d by lia. tauto.
  - intros [H1 [H2 H3]]. exists (n + 1). split; [lia|]. apply filter_In. split; [exact H3|]. apply A.
    replace (n + 1 - 1) with n by lia. tauto.
Qed.

Lemma xhkg_early : early_ok exchange_calendar_xhkg.calendar
  hong_kong_half_days.
Proof.
  intros n t.
  refine (iff_trans (special_early _ _ (firstn 2 hong_kong_half_days)
    (((12, 30), []) :: skipn 2 hong_kong_half_days) _ _ n t) _).
  - unfold hong_kong_half_days. cbn [firstn].
    repeat (apply Forall2_cons; [split; [reflexivity|times; entries; apply same_nil]|]); apply Forall2_nil.
  - unfold hong_kong_half_days. cbn [skipn].
    change (ymd 2011 3 7) with (date_number 2011 3 7) in *.
    assert (L : date_number 2011 3 7 <= date_number 2013 1 1 - 1) by (vm_compute; discriminate).
    repeat (apply Forall2_cons; [split; [reflexivity|]|]); [| |apply Forall2_nil];
      intros m; cbn [fst snd]; rewrite filter_In, lunar_eves; cbn [andb]; rewrite ?andb_true_r;
      change (ymd 2011 3 7) with (date_number 2011 3 7).
    + rewrite Z.ltb_lt. split; [lia|intros [h [[] _]]].
    + rewrite Z.leb_le. cbn [In]. split.
      * intros [H _]. eexists. split; [left; reflexivity|exact H].
      * intros [h [[<-|[]] H]]. split; [exact H|lia].
  - unfold kept_early. split; intros [c [E [hs [h [H1 H2]]]]]; exists c; (split; [exact E|]); exists hs, h;
      (split; [|exact H2]); unfold hong_kong_half_days in *; cbn [firstn skipn app In] in *; [|tauto].
    destruct H1 as [H1|[H1|[H1|H1]]]; try tauto. injection H1 as <- <-. destruct H2 as [[] _].
Qed.

Lemma xist_early : early_ok exchange_calendar_xist.calendar
  istanbul_half_days.
Proof.
  refine (special_early _ _ [_] [_] _ _).
  - apply Forall2_cons; [split; [reflexivity|times; entries; apply same_nil]|apply Forall2_nil].
  - apply Forall2_cons; [split; [reflexivity|]|apply Forall2_nil].
    intros n. cbn [fst snd]. rewrite filter_In, in_app_iff, not_memb.
    unfold exchange_calendar_xist.EidAlFitrHalfDay, exchange_calendar_xist.EidAlAdhaHalfDay,
      exchange_calendar_xist.DayBeforeEidAlFitr, exchange_calendar_xist.DayBeforeEidAlAdha.
    rewrite !eves_iff.
    change [ymd 1994 5 19; ymd 2003 11 24] with [date_number 1994 5 19; date_number 2003 11 24].
    cbn [In]. split.
    + intros [[H|H] N]; eexists; [split; [left; reflexivity|]|split; [right; left; reflexivity|]];
        (split; [exact H|exact N]).
    + intros [h [[<-|[<-|[]]] [H N]]]; tauto.
Qed.

Lemma xkls_early : early_ok exchange_calendar_xkls.calendar
  kuala_lumpur_half_days.
Proof.
  refine (special_early _ _ [] [_] (Forall2_nil _) _).
  apply Forall2_cons; [split; [reflexivity|]|apply Forall2_nil].
  intros n. cbn [fst snd]. unfold set_difference. rewrite filter_In, nodup_In, in_app_iff, not_memb.
  unfold xkls_holidays.ChineseNewYearsHalfDay, xkls_holidays.EidAlFitrHalfDay,
    xkls_holidays.ChineseNewYearsEve, xkls_holidays.EidAlFitrEve, xkls_holidays.ChineseNewYear,
    xkls_holidays.EidAlFitrDay1.
  rewrite !eves_iff. unfold eve_of. rewrite !sunday_iff.
  change [ymd 1997 2 7; ymd 1998 1 28; ymd 2002 2 11; ymd 2003 1 31; ymd 2004 1 21; ymd 2003 11 24] with
    [date_number 1997 2 7; date_number 1998 1 28; date_number 2002 2 11; date_number 2003 1 31;
     date_number 2004 1 21; date_number 2003 11 24].
  cbn [In]. split.
  - intros [[[W H]|[W H]] N]; eexists; [split; [left; reflexivity|]|split; [right; left; reflexivity|]];
      (split; [exact W|split; [exact H|exact N]]).
  - intros [h [[<-|[<-|[]]] [W [H N]]]]; tauto.
Qed.

Lemma xlis_early : early_ok exchange_calendar_xlis.calendar
  [((13, 5), [since 2003 (on_workday christmas_eve); on_workday new_years_eve])].
Proof. half_days. Qed.

Lemma xlon_early : early_ok exchange_calendar_xlon.calendar
  london_half_days.
Proof. half_days. Qed.

Lemma xmad_early : early_ok exchange_calendar_xmad.calendar
  [((14, 0), [since 2012 (on_workday christmas_eve); since 2012 (on_workday new_years_eve)])].
Proof. half_days. Qed.

Lemma black_friday_mid : forall n, kept (days_later 1) (nth_of 4 THURSDAY 11) n -> mid_year n.
Proof.
  intros n [a [[y [d [-> [_ Hd]]]] ->]].
  apply (near_date 0 29 y 11 1); [lia|vm_compute; reflexivity|vm_compute; discriminate|lia|lia|].
  rewrite (date_number_first y 11 d). lia.
Qed.
Ltac mid ::=
  first
    [ apply black_friday_mid
    | apply annual_mid; [lia|vm_compute; reflexivity|vm_compute; discriminate] ].

Lemma xnys_early : early_ok exchange_calendar_xnys.calendar
  new_york_half_days.
Proof.
  refine (special_early _ _ [_; _] [_] _ _).
  - repeat (apply Forall2_cons; [split; [reflexivity|times; entries; apply same_nil]|]); apply Forall2_nil.
  - apply Forall2_cons; [split; [reflexivity|]|apply Forall2_nil].
    repeat (apply same_dates_cons; [intros n; reflexivity|]). apply same_dates_nil.
Qed.

Lemma xnze_early : early_ok exchange_calendar_xnze.calendar
  [((12, 45), [since 2011 (kept on_workday_before christmas); since 2011 (kept on_workday_before new_years_day)])].
Proof. half_days. Qed.

Lemma xosl_early : early_ok exchange_calendar_xosl.calendar
  [((13, 0), [since 2011 (on_workday holy_wednesday)])].
Proof. half_days. Qed.

Lemma xpar_early : early_ok exchange_calendar_xpar.calendar
  euronext_half_days.
Proof. half_days. Qed.

Lemma xsgo_early : early_ok exchange_calendar_xsgo.calendar
  [((12, 30), [on_workday christmas_eve; on_workday (annual 12 30)]); ((13, 30), [maundy_thursday; on [TUESDAY; WEDNESDAY; THURSDAY; FRIDAY] (except [2010] (annual 9 17))])].
Proof. half_days. Qed.

Lemma xsto_early : early_ok exchange_calendar_xsto.calendar
  [((13, 0), [on_workday (annual 1 5); on_workday maundy_thursday; on_workday (annual 4 30); easter_plus 38; first_on_or_after FRIDAY 10 30])].
Proof. half_days. Qed.

Lemma xtse_early : early_ok exchange_calendar_xtse.calendar
  [((13, 0), [since 2010 (on_workday christmas_eve)])].
Proof. half_days. Qed.

(** ** The timetable *)

Definition break_times (lunch : option (clock * clock)) (starts ends : option (list (option Z * time))) : Prop :=
  match lunch with
  | None => starts = None /\ ends = None
  | Some (a, b) => starts = Some [(None, minute_after a)] /\ ends = Some [(None, time_of b)]
  end.

Record matches (E : exchange) (H : hours) : Prop := Matches {
  m_place : ex_tz E = place H;
  m_opening : agrees minute_after (ex_open_times E) (opening H);
  m_closing : agrees time_of (ex_close_times E) (closing H);
  m_nights : ex_open_offset E = - nights H;
  m_same_day : ex_close_offset E = 0;
  m_breaks : break_times (lunch H) (ex_break_start_times E) (ex_break_end_times E);
  m_opens : ex_special_opens E = [];
  m_opens_adhoc : ex_special_opens_adhoc E = [];
  m_early : early_ok E (Hours.early H)
}.

Lemma agrees_always_eq : forall f h m ts d, d = always h m -> ts = [(None, f (h, m))] -> agrees f ts d.
Proof. intros f h m ts d -> ->. apply agrees_always. Qed.
Lemma agrees_changed_eq : forall f a y m d b ts e, e = changed a y m d b -> 1 <= m <= 12 ->
  ts = [(None, f a); (Some (ymd y m d), f b)] -> agrees f ts e.
Proof. intros f a y m d b ts e -> Hm ->. apply agrees_changed. exact Hm. Qed.
Ltac agree := first
  [ exact agrees_santiago
  | eapply agrees_always_eq; [reflexivity|reflexivity]
  | eapply agrees_changed_eq; [reflexivity|lia|reflexivity] ].
Tactic Notation "listed" hyp(H) constr(S) :=
  destruct H as [H|H];
  [ injection H as <- <-; eexists; split; [repeat first [left; reflexivity|right]|];
    constructor; [reflexivity|agree|agree|reflexivity|reflexivity|split; reflexivity|reflexivity|reflexivity|exact S] |].

Lemma timetable_matches : forall name E, In (name, E) exchanges ->
  exists H, In (name, H) timetable /\ matches E H.
Proof.
  intros name E H.
  listed H (early_none exchange_calendar_asex.calendar eq_refl eq_refl).
  listed H (early_none exchange_calendar_bvmf.calendar eq_refl eq_refl).
  listed H cmes_early.
  listed H iepa_early.
  listed H xams_early.
  listed H xasx_early.
  listed H (early_none exchange_calendar_xbkk.calendar eq_refl eq_refl).
  listed H (early_none exchange_calendar_xbog.calendar eq_refl eq_refl).
  listed H (early_none exchange_calendar_xbom.calendar eq_refl eq_refl).
  listed H xbru_early.
  listed H (early_none exchange_calendar_xbud.calendar eq_refl eq_refl).
  listed H xbue_early.
  listed H xcbf_early.
  listed H (early_none exchange_calendar_xcse.calendar eq_refl eq_refl).
  listed H xdub_early.
  listed H xfra_early.
  listed H xetr_early.
  listed H (early_none exchange_calendar_xhel.calendar eq_refl eq_refl).
  listed H xhkg_early.
  listed H (early_none exchange_calendar_xice.calendar eq_refl eq_refl).
  listed H (early_none exchange_calendar_xidx.calendar eq_refl eq_refl).
  listed H xist_early.
  listed H (early_none exchange_calendar_xjse.calendar eq_refl eq_refl).
  listed H (early_none exchange_calendar_xkar.calendar eq_refl eq_refl).
  listed H xkls_early.
  listed H (early_none exchange_calendar_xkrx.calendar eq_refl eq_refl).
  listed H (early_none exchange_calendar_xlim.calendar eq_refl eq_refl).
  listed H xlis_early.
  listed H xlon_early.
  listed H xmad_early.
  listed H (early_none exchange_calendar_xmex.calendar eq_refl eq_refl).
  listed H (early_none exchange_calendar_xmil.calendar eq_refl eq_refl).
  listed H (early_none exchange_calendar_xmos.calendar eq_refl eq_refl).
  listed H xnys_early.
  listed H xnze_early.
  listed H xosl_early.
  listed H xpar_early.
  listed H (early_none exchange_calendar_xphs.calendar eq_refl eq_refl).
  listed H (early_none exchange_calendar_xpra.calendar eq_refl eq_refl).
  listed H (early_none exchange_calendar_xses.calendar eq_refl eq_refl).
  listed H xsgo_early.
  listed H (early_none exchange_calendar_xshg.calendar eq_refl eq_refl).
  listed H xsto_early.
  listed H (early_none exchange_calendar_xswx.calendar eq_refl eq_refl).
  listed H (early_none exchange_calendar_xtae.calendar eq_refl eq_refl).
  listed H (early_none exchange_calendar_xtai.calendar eq_refl eq_refl).
  listed H (early_none exchange_calendar_xtks.calendar eq_refl eq_refl).
  listed H xtse_early.
  listed H (early_none exchange_calendar_xwar.calendar eq_refl eq_refl).
  listed H (early_none exchange_calendar_xwbo.calendar eq_refl eq_refl).
  listed H (early_none us_futures_calendar.calendar eq_refl eq_refl).
  destruct H.
Qed.
