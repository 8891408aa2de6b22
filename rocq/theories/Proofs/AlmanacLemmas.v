(** Holiday rules and the almanac: each form of rule is a holiday in the sense of
    Spec/Almanac.v, within its window of dates. *)
From Coq Require Import ZArith List Bool Lia.
From Verif.Model Require Import Dates Holidays.
From Verif.Spec Require Import Civil Rules Almanac.
From Verif.Proofs Require Import DatesLemmas RuleLemmas RuleRange.
Import ListNotations.
Open Scope Z_scope.

(** ** Windows *)

Definition window (s e : option Z) (w : option (list Z)) (n : Z) : Prop :=
  match w with Some l => In (day_of_week n) l | None => True end /\
  match s with Some k => k <= n | None => True end /\
  match e with Some k => n <= k | None => True end.

Lemma rule_window : forall m d off obs s e w n,
  falls_on (Holiday m d off obs s e w) n <->
  (exists y, match obs with
             | Some o => observed o (date_number y m d) n
             | None => moves_all off (date_number y m d) n
             end) /\ window s e w n.
Proof.
  intros m d off obs s e w n. unfold falls_on, window. cbn [Holiday r_year r_month r_day r_observance r_offset r_days_of_week r_start r_end].
  cbv zeta. apply and_iff_compat_l.
  destruct w, s, e; split; intros [H1 [H2 H3]]; repeat split; intros; try exact I;
    try (injection H as <-); try discriminate;
    first [exact (H1 _ eq_refl)|exact (H2 _ eq_refl)|exact (H3 _ eq_refl)|assumption].
Qed.

Section Forms.
Variables (s e : option Z) (w : option (list Z)).

Lemma rule_annual : forall m d n,
  falls_on (Holiday m d [] None s e w) n <-> annual m d n /\ window s e w n.
Proof. intros m d n. rewrite rule_window. reflexivity. Qed.

Lemma rule_kept : forall m d o n,
  falls_on (Holiday m d [] (Some o) s e w) n <-> kept (observed o) (annual m d) n /\ window s e w n.
Proof.
  intros m d o n. rewrite rule_window. apply and_iff_compat_r. split.
  - intros [y H]. exists (date_number y m d). split; [exists y; reflexivity|exact H].
  - intros [a [[y ->] H]]. exists y. exact H.
Qed.

Lemma moves_easter : forall y n, moves Easter (date_number y 1 1) n <-> n = easter y.
Proof.
  intros y n. split; [apply easter_from_january; lia|]. intros ->.
  apply (offset_iff Easter); [reflexivity|]. symmetry.
  apply (easter_from_january y 1); [lia|]. apply (offset_iff Easter); reflexivity.
Qed.

Lemma rule_easter : forall k n,
  falls_on (Holiday 1 1 [Easter; Day k] None s e w) n <-> easter_plus k n /\ window s e w n.
Proof.
  intros k n. rewrite rule_window. apply and_iff_compat_r. unfold easter_plus. split.
  - intros [y [b [H1 [c [H2 H3]]]]]. exists y. apply moves_easter in H1. subst b. cbn in H2, H3. subst c n.
    apply is_easter_iff. lia.
  - intros [y H]. apply is_easter_iff in H. exists y, (easter y). split; [apply moves_easter; reflexivity|].
    exists n. split; [cbn; lia|reflexivity].
Qed.

Lemma rule_nth : forall m wd k n, 0 < k ->
  falls_on (Holiday m 1 [NthWeekday wd k] None s e w) n <-> nth_of k wd m n /\ window s e w n.
Proof.
  intros m wd k n Hk. rewrite rule_window. apply and_iff_compat_r. unfold nth_of. split.
  - intros [y [b [[H1 H2] H3]]]. cbn in H3. subst b. destruct (Z.ltb_spec 0 k); [|lia].
    exists y, (n - date_number y m 1 + 1). rewrite date_number_first. split; [lia|]. split; [exact H1|]. lia.
  - intros [y [d [H1 [H2 H3]]]]. exists y, n. split; [|reflexivity]. cbn [moves]. split; [exact H2|].
    destruct (Z.ltb_spec 0 k); [|lia]. rewrite date_number_first in H1. lia.
Qed.

Lemma first_weekday_iff : forall wd a n, 0 <= wd < 7 ->
  moves (NthWeekday wd 1) a n <-> first_from (fun k => day_of_week k = wd) a n.
Proof.
  intros wd a n Hw. cbn [moves]. change (0 <? 1) with true. cbv iota. split.
  - intros [H1 H2]. split; [lia|]. split; [exact H1|]. intros m Hm E. unfold day_of_week in *.
    Z.div_mod_to_equations. lia.
  - intros [H1 [H2 H3]]. split; [exact H2|]. split; [lia|].
    destruct (Z.lt_ge_cases n (a + 7 * 1)) as [|G]; [assumption|]. exfalso. apply (H3 (n - 7)); [lia|].
    revert H2. unfold day_of_week. intros H2. Z.div_mod_to_equations. lia.
Qed.
Lemma last_weekday_iff : forall wd a n, 0 <= wd < 7 ->
  moves (NthWeekday wd (-1)) a n <-> last_until (fun k => day_of_week k = wd) a n.
Proof.
  intros wd a n Hw. cbn [moves]. change (0 <? -1) with false. cbv iota. split.
  - intros [H1 H2]. split; [lia|]. split; [exact H1|]. intros m Hm E. unfold day_of_week in *.
    Z.div_mod_to_equations. lia.
  - intros [H1 [H2 H3]]. split; [exact H2|]. split; [|lia].
    destruct (Z.lt_ge_cases (a + 7 * -1) n) as [|G]; [assumption|]. exfalso. apply (H3 (n + 7)); [lia|].
    revert H2. unfold day_of_week. intros H2. Z.div_mod_to_equations. lia.
Qed.

Lemma rule_first : forall m d wd n, 0 <= wd < 7 ->
  falls_on (Holiday m d [NthWeekday wd 1] None s e w) n <->
  first_on_or_after wd m d n /\ window s e w n.
Proof.
  intros m d wd n Hw. rewrite rule_window. apply and_iff_compat_r. unfold first_on_or_after. split.
  - intros [y [b [H1 H2]]]. cbn in H2. subst b. exists y. apply first_weekday_iff; assumption.
  - intros [y H]. exists y, n. split; [apply first_weekday_iff; assumption|reflexivity].
Qed.

Lemma rule_before : forall m d wd n, 0 <= wd < 7 ->
  falls_on (Holiday m d [NthWeekday wd (-1)] None s e w) n <->
  last_on_or_before wd m d n /\ window s e w n.
Proof.
  intros m d wd n Hw. rewrite rule_window. apply and_iff_compat_r. unfold last_on_or_before. split.
  - intros [y [b [H1 H2]]]. cbn in H2. subst b. exists y. apply last_weekday_iff; assumption.
  - intros [y H]. exists y, n. split; [apply last_weekday_iff; assumption|reflexivity].
Qed.

(** Counted from the last day of a month. *)
Lemma rule_nth_last : forall m d wd k n, (forall y, month_length y m = d) -> 0 < k ->
  falls_on (Holiday m d [NthWeekday wd (- k)] None s e w) n <->
  nth_last_of k wd m n /\ window s e w n.
Proof.
  intros m d wd k n Hd Hk. rewrite rule_window. apply and_iff_compat_r. unfold nth_last_of. split.
  - intros [y [b [[H1 H2] H3]]]. cbn in H3. subst b. destruct (Z.ltb_spec 0 (- k)); [lia|].
    exists y, (n - date_number y m 1 + 1). rewrite Hd. rewrite (date_number_first y m d) in H2.
    rewrite date_number_first. split; [lia|]. split; [exact H1|]. lia.
  - intros [y [c [H1 [H2 H3]]]]. exists y, n. split; [|reflexivity]. cbn [moves]. split; [exact H2|].
    destruct (Z.ltb_spec 0 (- k)); [lia|]. rewrite Hd in H3. rewrite date_number_first in H1.
    rewrite (date_number_first y m d). lia.
Qed.

(** The first weekday from seven days before the end of a month is its last. *)
Lemma rule_last_week : forall m d wd n, (forall y, month_length y m = d + 6) ->
  falls_on (Holiday m d [NthWeekday wd 1] None s e w) n <->
  nth_last_of 1 wd m n /\ window s e w n.
Proof.
  intros m d wd n Hd. rewrite rule_window. apply and_iff_compat_r. unfold nth_last_of. split.
  - intros [y [b [[H1 H2] H3]]]. cbn in H3. subst b. change (0 <? 1) with true in H2. cbv iota in H2.
    exists y, (n - date_number y m 1 + 1). rewrite Hd. rewrite (date_number_first y m d) in H2.
    rewrite date_number_first. split; [lia|]. split; [exact H1|]. lia.
  - intros [y [c [H1 [H2 H3]]]]. exists y, n. split; [|reflexivity]. cbn [moves].
    change (0 <? 1) with true. cbv iota. split; [exact H2|].
    rewrite Hd in H3. rewrite date_number_first in H1. rewrite (date_number_first y m d). lia.
Qed.

(** The day after the k-th weekday. *)
Lemma rule_nth_later : forall m wd k j n, 0 < k ->
  falls_on (Holiday m 1 [NthWeekday wd k; Day j] None s e w) n <->
  kept (days_later j) (nth_of k wd m) n /\ window s e w n.
Proof.
  intros m wd k j n Hk. rewrite rule_window. apply and_iff_compat_r. unfold kept, nth_of, days_later. split.
  - intros [y [b [[H1 H2] [c [H3 H4]]]]]. cbn in H3, H4. subst c n. destruct (Z.ltb_spec 0 k); [|lia].
    exists b. split; [|reflexivity]. exists y, (b - date_number y m 1 + 1). rewrite date_number_first.
    split; [lia|]. split; [exact H1|]. lia.
  - intros [b [[y [d [H1 [H2 H3]]]] ->]]. exists y, b. split; [|exists (b + j); split; reflexivity].
    cbn [moves]. split; [exact H2|]. destruct (Z.ltb_spec 0 k); [|lia]. rewrite date_number_first in H1. lia.
Qed.
End Forms.

Lemma rule_in_year : forall y m d n, falls_on (Holiday_in_year y m d) n <-> date y m d n.
Proof. reflexivity. Qed.

(** ** Observances that are more than a move *)

Lemma kept_ext : forall f g h n, (forall a, f a n <-> g a n) -> (kept f h n <-> kept g h n).
Proof. intros f g h n E. split; intros [a [H1 H2]]; exists a; (split; [exact H1|apply E; exact H2]). Qed.

Lemma kept_except : forall ys h n, kept (observed (Weekend_to_monday_except ys)) h n <->
  kept after_weekend (except ys h) n.
Proof.
  intros ys h n. unfold kept, except. cbn [observed]. unfold after_weekend.
  split; intros [a H]; exists a; tauto.
Qed.

Lemma kept_not_in : forall y h n, kept (observed (Not_in_year y)) h n <-> except [y] h n.
Proof.
  intros y h n. unfold kept, except. cbn [observed In]. split.
  - intros [a [H1 [-> H2]]]. split; [|exact H1]. intros y' [<-|[]]. exact H2.
  - intros [H1 H2]. exists n. split; [exact H2|]. split; [reflexivity|]. apply H1. left. reflexivity.
Qed.

Lemma kept_only_friday : forall h n, kept (observed Only_friday) h n <-> on [FRIDAY] h n.
Proof.
  intros h n. unfold kept, on. cbn [observed In]. split.
  - intros [a [H1 [-> H2]]]. split; [left; symmetry; exact H2|exact H1].
  - intros [[H1|[]] H2]. exists n. split; [exact H2|]. split; [reflexivity|symmetry; exact H1].
Qed.

Lemma kept_bangkok : forall h n, kept (observed Xbkk_new_years_day) h n <->
  kept next_to_previous_day (except [2006] h) n.
Proof.
  intros h n. unfold kept, except, next_to_previous_day, after_weekend. cbn [observed In].
  split; intros [a H]; exists a.
  - destruct H as [H1 [H2 H3]]. split; [|exact H3]. split; [|exact H1]. intros y [<-|[]]. exact H2.
  - destruct H as [[H1 H2] H3]. split; [exact H2|]. split; [|exact H3]. apply H1. left. reflexivity.
Qed.

Lemma kept_same : forall h n, kept (observed Boxing_day_obs) h n <-> h n.
Proof.
  intros h n. unfold kept. cbn [observed]. split.
  - intros [a [H ->]]. exact H.
  - intros H. exists n. tauto.
Qed.

Lemma kept_cultural : forall h n, kept (observed Cultural_diversity) h n <->
  except [2012] (kept (fun a n =>
      day_of_week a <= WEDNESDAY /\ last_until (fun m => day_of_week m = MONDAY) a n \/
      WEDNESDAY < day_of_week a /\ on_monday_after a n) h) n.
Proof.
  intros h n. unfold kept, except, on_monday_after. cbn [observed In]. split.
  - intros [a [H1 [H2 H3]]]. split; [intros y [<-|[]]; exact H2|]. exists a. split; [exact H1|exact H3].
  - intros [H1 [a [H2 H3]]]. exists a. split; [exact H2|]. split; [|exact H3]. apply H1. left. reflexivity.
Qed.

Lemma since_2014 : forall n, (exists y, in_year n y /\ 2014 <= y) <-> date_number 2014 1 1 <= n.
Proof.
  intros n. assert (E : date_number 2014 1 1 = year_start 2014) by (vm_compute; reflexivity). rewrite E.
  split.
  - intros [y [[H1 _] H2]]. destruct (Z.eq_dec y 2014) as [->|N]; [exact H1|].
    pose proof (year_start_mono 2014 y ltac:(lia)). lia.
  - intros H. assert (I : in_year n (year_of n)) by (apply in_year_iff; reflexivity).
    exists (year_of n). split; [exact I|]. apply (in_year_mono (year_start 2014) n); [|exact I|exact H].
    split; [lia|]. pose proof (year_start_mono 2014 (2014 + 1) ltac:(lia)). lia.
Qed.

Lemma kept_taiwan : forall h n, kept (observed Taiwan_makeup_rule) h n <-> kept joined_to_weekend h n.
Proof.
  intros h n. apply kept_ext. intros a. cbn [observed]. unfold joined_to_weekend. rewrite since_2014. tauto.
Qed.

(** ** A year without its first day *)

Definition mid_year (n : Z) : Prop := exists y, year_start y < n < year_start (y + 1).

Lemma mid_year_first : forall n Y, mid_year n -> n <> year_start Y.
Proof.
  intros n Y [y [H1 H2]] ->. assert (I1 : in_year (year_start Y) y) by (split; lia).
  assert (I2 : in_year (year_start Y) Y)
    by (split; [lia|]; pose proof (year_start_mono Y (Y + 1) ltac:(lia)); lia).
  pose proof (in_year_unique _ _ _ I1 I2). subst y. lia.
Qed.

(** The day of the year of [m]/[d], at the earliest. *)
Definition early (m d : Z) : Z := days_before_month 2019 m + d - 1.

Lemma near_date : forall i j y m d n, 1 <= m <= 12 -> i < early m d -> early m d + j <= 364 ->
  0 <= i -> 0 <= j ->
  date_number y m d - i <= n <= date_number y m d + j -> mid_year n.
Proof.
  intros i j y m d n Hm He Hl Hi Hj Hn. exists y. rewrite year_start_next.
  revert He Hl Hn. unfold date_number, early, days_before_month, month_lengths.
  change (leap 2019) with false. cbv iota.
  months Hm; calc; destruct (leap y); lia.
Qed.

Lemma annual_mid : forall m d n, 1 <= m <= 12 -> 0 < early m d -> early m d <= 364 ->
  annual m d n -> mid_year n.
Proof. intros m d n Hm H1 H2 [y ->]. apply (near_date 0 0 y m d); lia. Qed.

Lemma moved_near : forall (o : observance) a n,
  match o with
  | Sunday_to_monday | Weekend_to_monday | Nearest_workday | Previous_friday | Previous_workday
  | Sunday_to_tuesday | Sunday_to_wednesday | Four_day_weekend => True | _ => False end ->
  observed o a n ->
  a - 3 <= n <= a + match o with Previous_friday | Previous_workday => 0 | _ => 3 end.
Proof.
  intros o a n K H. pose proof (proj2 (observance_iff o a n) H) as E. pose proof (dow_range a) as R.
  destruct o; try contradiction; cbn [apply_observance map] in E; rewrite ?In_single in E.
  - unfold sunday_to_monday in E. destruct (weekday a =? 6); lia.
  - unfold weekend_to_monday in E. destruct (weekday a =? 6), (weekday a =? 5); lia.
  - unfold nearest_workday in E. destruct (weekday a =? 6), (weekday a =? 5); lia.
  - unfold previous_friday in E. destruct (weekday a =? 6), (weekday a =? 5); lia.
  - unfold previous_workday in E. cbv zeta in E.
    destruct (weekday (a - 1) >? 4); [destruct (weekday (a - 1 - 1) >? 4)|destruct (weekday (a - 1) >? 4)]; lia.
  - cbn [observed] in H. lia.
  - unfold sunday_to_tuesday in E. destruct (weekday a =? SUNDAY); lia.
  - unfold sunday_to_wednesday in E. destruct (weekday a =? SUNDAY); lia.
Qed.

Lemma kept_mid : forall o m d n,
  match o with
  | Sunday_to_monday | Weekend_to_monday | Nearest_workday | Previous_friday | Previous_workday
  | Sunday_to_tuesday | Sunday_to_wednesday | Four_day_weekend => True | _ => False end ->
  1 <= m <= 12 -> 3 < early m d ->
  early m d + match o with Previous_friday | Previous_workday => 0 | _ => 3 end <= 364 ->
  kept (observed o) (annual m d) n -> mid_year n.
Proof.
  intros o m d n K Hm H1 H2 [a [[y ->] H]]. apply (moved_near o _ _ K) in H.
  apply (near_date 3 (match o with Previous_friday | Previous_workday => 0 | _ => 3 end) y m d n Hm);
    [lia|exact H2|lia|destruct o; lia|exact H].
Qed.

Lemma easter_mid : forall k n, -60 <= k <= 100 -> easter_plus k n -> mid_year n.
Proof.
  intros k n Hk [y H]. apply is_easter_iff in H. pose proof (easter_bounds y) as B.
  apply (near_date 60 140 y 3 22 n); [lia|vm_compute; reflexivity|vm_compute; discriminate|lia..|].
  assert (E : date_number y 4 25 = date_number y 3 22 + 34).
  { unfold date_number, days_before_month, month_lengths. calc. lia. }
  lia.
Qed.

Lemma nth_mid : forall k wd m n, 1 <= k <= 4 -> 2 <= m <= 12 -> nth_of k wd m n -> mid_year n.
Proof.
  intros k wd m n Hk Hm [y [d [-> [_ Hd]]]].
  apply (near_date 0 28 y m 1); [lia|..|lia|lia|rewrite (date_number_first y m d); lia];
    unfold early, days_before_month, month_lengths; change (leap 2019) with false; cbv iota;
    assert (M : 1 <= m <= 12) by lia; months M; try lia; calc; lia.
Qed.

Lemma first_mid : forall wd m d n, 0 <= wd < 7 -> 1 <= m <= 12 -> 0 < early m d -> early m d <= 350 ->
  first_on_or_after wd m d n -> mid_year n.
Proof.
  intros wd m d n Hw Hm H1 H2 [y H]. apply first_weekday_iff in H; [|exact Hw]. destruct H as [_ H].
  change (0 <? 1) with true in H. cbv iota in H. apply (near_date 0 7 y m d); lia.
Qed.

(** ** Mondays after a feast *)

Lemma monday_after_annual : forall m d n,
  kept on_monday_after (annual m d) n <-> first_on_or_after MONDAY m d n.
Proof.
  intros m d n. unfold kept, on_monday_after, first_on_or_after, annual. split.
  - intros [a [[y ->] H]]. exists y. exact H.
  - intros [y H]. exists (date_number y m d). split; [exists y; reflexivity|exact H].
Qed.

Lemma first_of_month : forall wd m n, 0 <= wd < 7 -> first_on_or_after wd m 1 n <-> nth_of 1 wd m n.
Proof.
  intros wd m n Hw.
  pose proof (rule_first None None None m 1 wd n Hw) as A. pose proof (rule_nth None None None m wd 1 n ltac:(lia)) as B.
  unfold window in A, B. tauto.
Qed.

Lemma easter_plus_sunday : forall k a, easter_plus k a -> day_of_week (a - k) = SUNDAY.
Proof. intros k a [y H]. apply is_easter_iff in H. rewrite H. apply easter_sunday. Qed.

Lemma easter_later : forall k j n, kept (days_later j) (easter_plus k) n <-> easter_plus (k + j) n.
Proof.
  intros k j n. unfold kept, days_later, easter_plus. split.
  - intros [a [[y H] ->]]. exists y. replace (a + j - (k + j)) with (a - k) by lia. exact H.
  - intros [y H]. exists (n - j). split; [|lia]. exists y. replace (n - j - k) with (n - (k + j)) by lia. exact H.
Qed.

Lemma monday_after_easter : forall k n,
  kept on_monday_after (easter_plus k) n <-> easter_plus (k + (- k + 1) mod 7) n.
Proof.
  intros k n.
  assert (M : forall a, easter_plus k a -> (on_monday_after a n <-> n = a + (- k + 1) mod 7)).
  { intros a H. apply easter_plus_sunday in H. symmetry. apply first_from_iff.
    unfold day_of_week, SUNDAY, MONDAY in *. split; [Z.div_mod_to_equations; lia|]. split.
    - Z.div_mod_to_equations. lia.
    - intros m Hm E. Z.div_mod_to_equations. lia. }
  rewrite <- easter_later. unfold kept, days_later. split; intros [a [H1 H2]]; exists a; (split; [exact H1|]);
    apply (M a H1); exact H2.
Qed.

(** ** Weekdays *)

Lemma workday_in : forall n, workday n -> In (day_of_week n) [MONDAY; TUESDAY; WEDNESDAY; THURSDAY; FRIDAY].
Proof.
  intros n H. pose proof (dow_range n). unfold workday in H.
  unfold MONDAY, TUESDAY, WEDNESDAY, THURSDAY, FRIDAY. cbn [In]. lia.
Qed.

(** ** Monthly offsets *)

Lemma week_first : forall week wd y m c d, 0 <= week <= 3 -> 1 <= m <= 12 -> 0 <= c < d ->
  day_of_week (date_number y m d) = wd -> 7 * week < d <= 7 * (week + 1) ->
  moves (WeekOfMonth week wd) (date_number y m c) (date_number y m d).
Proof.
  intros week wd y m c d Hk Hm Hc D Hd. cbn [moves]. pose proof (month_length_28 y m Hm) as L.
  assert (V : forall b, 1 <= b <= 28 -> valid_date y m b) by (intros b Hb; split; [exact Hm|lia]).
  split; [rewrite (date_number_first y m c), (date_number_first y m d); lia|]. split.
  - exists y, m, d. split; [apply V; lia|]. split; [reflexivity|]. split; [exact D|lia].
  - intros k Hk' [y' [m' [d' [V' [E' [D' L']]]]]].
    rewrite (date_number_first y m c), (date_number_first y m d) in Hk'.
    set (b := k - date_number y m 1 + 1).
    assert (Eb : k = date_number y m b) by (rewrite (date_number_first y m b); unfold b; lia).
    rewrite E' in Eb. destruct (date_number_inj _ _ _ _ _ _ V' (V b ltac:(unfold b; lia)) Eb) as [-> [-> Ed]].
    rewrite E' in Hk', D'. rewrite (date_number_first y m d) in D. rewrite (date_number_first y m d') in Hk', D'. subst wd.
    unfold day_of_week in D'. Z.div_mod_to_equations. lia.
Qed.

(** Where there is a [wd] in the week after the [c]-th. *)
Lemma week_iff : forall week wd y m c n, 0 <= week <= 3 -> 0 <= wd < 7 -> 1 <= m <= 12 -> 0 <= c ->
  (forall d, day_of_week (date_number y m d) = wd -> 7 * week < d <= 7 * (week + 1) -> c < d) ->
  moves (WeekOfMonth week wd) (date_number y m c) n <->
  exists d, n = date_number y m d /\ day_of_week n = wd /\ 7 * week < d <= 7 * (week + 1).
Proof.
  intros week wd y m c n Hk Hw Hm Hc Hlt. split.
  - set (f := 7 * week + 1). set (d := f + (wd - day_of_week (date_number y m f)) mod 7).
    assert (D : day_of_week (date_number y m d) = wd).
    { unfold d. rewrite (date_number_first y m f). rewrite date_number_first. unfold day_of_week.
      clear - Hw. Z.div_mod_to_equations. lia. }
    assert (Hd : 7 * week < d <= 7 * (week + 1)).
    { unfold d, f. pose proof (Z.mod_pos_bound (wd - day_of_week (date_number y m (7 * week + 1))) 7 ltac:(lia)). lia. }
    pose proof (week_first week wd y m c d Hk Hm (conj Hc (Hlt d D Hd)) D Hd) as F. intros H.
    exists d. rewrite (first_from_unique _ _ _ _ H F). split; [reflexivity|]. split; [exact D|exact Hd].
  - intros [d [-> [D Hd]]]. apply week_first; try assumption. split; [exact Hc|apply Hlt; assumption].
Qed.

Lemma rule_first_of_august : forall wd s e w n, 0 <= wd < 7 ->
  falls_on (Holiday 7 31 [WeekOfMonth 0 wd] None s e w) n <-> nth_of 1 wd 8 n /\ window s e w n.
Proof.
  intros wd s e w n Hw. rewrite rule_window. apply and_iff_compat_r. unfold nth_of.
  assert (E : forall y, date_number y 7 31 = date_number y 8 0).
  { intros y. unfold date_number, days_before_month, month_lengths. calc. lia. }
  assert (K : forall y, moves (WeekOfMonth 0 wd) (date_number y 7 31) n <->
    exists d, n = date_number y 8 d /\ day_of_week n = wd /\ 7 * 0 < d <= 7 * (0 + 1)).
  { intros y. rewrite E. apply week_iff; try lia. }
  split.
  - intros [y [b [H ->]]]. exists y. apply K in H. destruct H as [d H]. exists d. exact H.
  - intros [y H]. exists y, n. split; [apply K; exact H|reflexivity].
Qed.

Lemma rule_last_of_august : forall wd s e w n, 0 <= wd < 7 ->
  falls_on (Holiday 8 20 [LastWeekOfMonth wd] None s e w) n <-> nth_last_of 1 wd 8 n /\ window s e w n.
Proof.
  intros wd s e w n Hw. rewrite rule_window. apply and_iff_compat_r.
  assert (K : forall y d, day_of_week (date_number y 8 d) = wd -> 24 < d <= 31 ->
    first_from (last_in_month wd) (date_number y 8 20 + 1) (date_number y 8 d)).
  { intros y d D Hd. split; [rewrite (date_number_first y 8 d), (date_number_first y 8 20); lia|]. split.
    - exists y, 8, d. split; [split; [lia|change (month_length y 8) with 31; lia]|].
      split; [reflexivity|]. split; [exact D|]. change (month_length y 8) with 31. lia.
    - intros k Hk [y' [m' [d' [V' [E' [D' L]]]]]].
      rewrite (date_number_first y 8 20), (date_number_first y 8 d) in Hk.
      set (c := k - date_number y 8 1 + 1).
      assert (Ec : k = date_number y 8 c) by (rewrite (date_number_first y 8 c); unfold c; lia).
      assert (Vc : valid_date y 8 c) by (split; [lia|change (month_length y 8) with 31; unfold c; lia]).
      rewrite E' in Ec. destruct (date_number_inj _ _ _ _ _ _ V' Vc Ec) as [-> [-> Edc]].
      change (month_length y 8) with 31 in L. rewrite E' in D', Hk.
      rewrite (date_number_first y 8 d) in D. rewrite (date_number_first y 8 d') in D', Hk. subst wd.
      clear - D' Hk L Hd. unfold day_of_week in D'. Z.div_mod_to_equations. lia. }
  unfold nth_last_of. cbn [moves_all]. split.
  - intros [y [b [H ->]]]. exists y.
    set (d := 31 - (day_of_week (date_number y 8 31) - wd) mod 7).
    pose proof (Z.mod_pos_bound (day_of_week (date_number y 8 31) - wd) 7 ltac:(lia)) as B.
    assert (D : day_of_week (date_number y 8 d) = wd).
    { unfold d. rewrite (date_number_first y 8 31), date_number_first. unfold day_of_week.
      clear - Hw. Z.div_mod_to_equations. lia. }
    pose proof (K y d D ltac:(unfold d; lia)) as F. rewrite (first_from_unique _ _ _ _ H F).
    exists d. split; [reflexivity|]. split; [exact D|]. change (month_length y 8) with 31. unfold d. lia.
  - intros [y [d [E [D L]]]]. change (month_length y 8) with 31 in L. exists y, n. split; [|reflexivity].
    rewrite E in *. apply K; [exact D|lia].
Qed.

(** ** Years *)

Lemma since_year : forall n y Y, in_year n y -> (date_number Y 1 1 <= n <-> Y <= y).
Proof.
  intros n y Y I. assert (E : date_number Y 1 1 = year_start Y).
  { unfold date_number, days_before_month. change (Z.to_nat (1 - 1)) with 0%nat. cbn [firstn fold_right]. lia. }
  rewrite E. split; intros H.
  - apply (in_year_mono (year_start Y) n); [|exact I|exact H].
    split; [lia|]. pose proof (year_start_mono Y (Y + 1) ltac:(lia)). lia.
  - destruct I as [I _]. destruct (Z.eq_dec y Y) as [->|N]; [exact I|].
    pose proof (year_start_mono Y y ltac:(lia)). lia.
Qed.
Lemma through_year : forall n y Y, in_year n y -> (n <= date_number Y 12 31 <-> y <= Y).
Proof.
  intros n y Y I. pose proof (since_year n y (Y + 1) I) as S.
  assert (E : date_number (Y + 1) 1 1 = date_number Y 12 31 + 1).
  { pose proof (month_next Y 12 ltac:(lia)) as N. change (next_month Y 12) with (Y + 1, 1) in N.
    destruct N as [_ N]. change (month_length Y 12) with 31 in N.
    rewrite (date_number_first Y 12 31). lia. }
  lia.
Qed.

Lemma near_year : forall y m d n i, valid_date y m d -> date_number y m d <= n <= date_number y m d + i ->
  valid_date y m (d + i) -> in_year n y.
Proof.
  intros y m d n i V H V'. apply (in_year_dates y n m d m (d + i) V V').
  rewrite (date_number_first y m d), (date_number_first y m (d + i)) in *. lia.
Qed.

Lemma kept_good_friday_unless : forall n,
  kept (observed Good_friday_unless_christmas_nye_friday) (annual 1 1) n <->
  exists y, is_easter y (n + 2) /\ ~ some_other_friday y.
Proof.
  intros n. unfold kept, annual, some_other_friday. cbn [observed].
  assert (V : forall y, valid_date y 1 1) by (intros y; split; [lia|change (month_length y 1) with 31; lia]).
  split.
  - intros [a [[y0 ->] [y [e [I [M [-> [N1 N2]]]]]]]].
    pose proof (in_year_unique _ _ _ I (date_number_year y0 1 1 (V y0))). subst y0.
    apply moves_easter in M. subst e. exists y. split; [apply is_easter_iff; lia|].
    intros [H|H]; contradiction.
  - intros [y [H N]]. apply is_easter_iff in H. exists (date_number y 1 1). split; [exists y; reflexivity|].
    exists y, (easter y). split; [apply date_number_year; apply V|]. split; [apply moves_easter; reflexivity|].
    split; [lia|]. split; intros F; apply N; [left|right]; exact F.
Qed.

Lemma kept_election : forall n,
  kept (observed Following_tuesday_every_four_years) (annual 11 2) n <->
  exists y, y mod 4 = 0 /\ in_year n y /\ first_on_or_after TUESDAY 11 2 n.
Proof.
  intros n. unfold kept, annual, first_on_or_after. cbn [observed].
  assert (V : forall y d, 1 <= d <= 30 -> valid_date y 11 d) by (intros y d Hd; split; [lia|exact Hd]).
  assert (I : forall y, first_from (fun k => day_of_week k = TUESDAY) (date_number y 11 2) n -> in_year n y).
  { intros y F. apply first_weekday_iff in F; [|unfold TUESDAY; lia]. destruct F as [_ F].
    change (0 <? 1) with true in F. cbv iota in F.
    apply (near_year y 11 2 n 7 (V y 2 ltac:(lia))); [lia|apply V; lia]. }
  split.
  - intros [a [[y0 ->] [y [m [d [y' [V1 [E [F H]]]]]]]]].
    destruct (date_number_inj _ _ _ _ _ _ (V y0 2 ltac:(lia)) V1 E) as [<- [<- <-]].
    exists y'. split; [apply F|]. split; [apply I; exact H|]. exists y'. exact H.
  - intros [y [Hy [Iy [y' F]]]]. pose proof (in_year_unique _ _ _ Iy (I y' F)). subst y'.
    exists (date_number y 11 2). split; [exists y; reflexivity|].
    exists y, 11, 2, y. split; [apply V; lia|]. split; [reflexivity|]. split; [|exact F].
    split; [lia|]. split; [exact Hy|]. intros k Hk. lia.
Qed.

Lemma except_list : forall ys h n, except ys h n <-> fold_right (fun y P => ~ in_year n y /\ P) (h n) ys.
Proof.
  intros ys h n. unfold except. induction ys as [|y ys IH]; cbn [fold_right In].
  - tauto.
  - rewrite <- IH. split.
    + intros [H1 H2]. split; [apply H1; left; reflexivity|]. split; [|exact H2]. intros y' Hy'. apply H1. tauto.
    + intros [H1 [H2 H3]]. split; [|exact H3]. intros y' [<-|Hy']; [exact H1|apply H2; exact Hy'].
Qed.

(** The Queen's birthday in Hong Kong. *)
Lemma queen_june : forall n,
  (kept (observed Process_queen_birthday) (annual 6 10) n /\
   date_number 1983 1 1 <= n <= date_number 1997 6 1) <->
  between 1984 1996 (except [1985; 1988; 1993; 1994] (nth_of 3 MONDAY 6)) n \/
  between 1985 1985 (nth_of 4 MONDAY 6) n \/
  (exists y, In y [1983; 1988; 1993; 1994] /\ in_year n y /\ nth_of 2 MONDAY 6 n).
Proof.
  intros n. unfold between, since, through. rewrite (except_list [1985; 1988; 1993; 1994]). cbn [fold_right].
  unfold kept, annual, nth_of. cbn [observed].
  assert (V : forall y d, 1 <= d <= 30 -> valid_date y 6 d) by (intros y d Hd; split; [lia|exact Hd]).
  assert (I : forall y d, 1 <= d <= 30 -> in_year (date_number y 6 d) y)
    by (intros y d Hd; apply date_number_year; apply V; exact Hd).
  assert (W : forall week y, 2 <= week <= 3 -> moves (WeekOfMonth week MONDAY) (date_number y 6 10) n <->
    exists d, n = date_number y 6 d /\ day_of_week n = MONDAY /\ 7 * week < d <= 7 * (week + 1)).
  { intros week y Hw. apply week_iff; unfold MONDAY; lia. }
  assert (W2 : forall y, In y [1983; 1988; 1993; 1994] -> moves (WeekOfMonth 1 MONDAY) (date_number y 6 10) n <->
    exists d, n = date_number y 6 d /\ day_of_week n = MONDAY /\ 7 * 1 < d <= 7 * (1 + 1)).
  { intros y Hy. apply week_iff; try (unfold MONDAY; lia). intros d D Hd.
    destruct (Z.le_gt_cases d 10) as [Hl|]; [|assumption]. exfalso.
    assert (C : d = 8 \/ d = 9 \/ d = 10) by lia.
    cbn [In] in Hy. destruct Hy as [<-|[<-|[<-|[<-|[]]]]], C as [->|[->| ->]]; vm_compute in D; discriminate. }
  split.
  - intros [[a [[y0 ->] [y [Iy H]]]] [L1 L2]].
    pose proof (in_year_unique _ _ _ Iy (I y0 10 ltac:(lia))). subst y0.
    assert (C : y <= 1982 -> n <= date_number y 6 20 -> False).
    { intros Hy Hn. pose proof (since_year (date_number y 6 20) y 1983 (I y 20 ltac:(lia))) as S. lia. }
    assert (Y : forall d, n = date_number y 6 d -> 1 <= d <= 30 -> 1983 <= y <= 1997 /\ (14 < d -> y <= 1996)).
    { intros d -> Hd. pose proof (I y d Hd) as Id.
      pose proof (since_year _ y 1983 Id) as S1. pose proof (through_year _ y 1997 Id) as S2.
      assert (B : date_number 1997 6 1 <= date_number 1997 12 31) by (vm_compute; discriminate).
      split; [lia|]. intros Hd'. destruct (Z.eq_dec y 1997) as [->|]; [|lia].
      rewrite (date_number_first 1997 6 d) in L2. lia. }
    destruct H as [[Hy H]|[[N1 [N2 [Hy H]]]|[[Hy H]|[[Hy H]|[H0 [N1 [N2 [N3 [N4 H]]]]]]]]].
    + exfalso. apply first_weekday_iff in H; [|unfold SUNDAY; lia]. destruct H as [_ H].
      change (0 <? 1) with true in H. cbv iota in H. apply C; [lia|].
      rewrite (date_number_first y 6 20). rewrite (date_number_first y 6 10) in H. lia.
    + exfalso. apply C; [lia|]. pose proof (moved_near Sunday_to_monday _ _ Logic.I H) as B.
      rewrite (date_number_first y 6 20). rewrite (date_number_first y 6 10) in B. lia.
    + right. right. exists y. assert (Hin : In y [1983; 1988; 1993; 1994]) by (cbn [In]; intuition lia).
      split; [exact Hin|]. apply W2 in H; [|exact Hin]. destruct H as [d [E [D Hd]]].
      split; [rewrite E; apply I; lia|]. exists y, d. split; [exact E|]. split; [exact D|]. lia.
    + right. left. apply W in H; [|lia]. destruct H as [d [E [D Hd]]].
      assert (Id : in_year n y) by (rewrite E; apply I; lia).
      rewrite (since_year _ _ _ Id), (through_year _ _ _ Id). split; [lia|]. split; [lia|].
      exists y, d. split; [exact E|]. split; [exact D|]. lia.
    + left. apply W in H; [|lia]. destruct H as [d [E [D Hd]]].
      assert (Id : in_year n y) by (rewrite E; apply I; lia).
      destruct (Y d E ltac:(lia)) as [Y1 Y2]. specialize (Y2 ltac:(lia)).
      rewrite (since_year _ _ _ Id), (through_year _ _ _ Id). split; [lia|]. split; [lia|].
      assert (N : forall y', y' <> y -> ~ in_year n y')
        by (intros y' Ny' J; apply Ny'; exact (in_year_unique _ _ _ J Id)).
      split; [apply N; lia|]. split; [apply N; lia|]. split; [apply N; lia|]. split; [apply N; lia|].
      exists y, d. split; [exact E|]. split; [exact D|]. lia.
  - assert (B : forall y d, n = date_number y 6 d -> 1 <= d <= 30 -> 1983 <= y <= 1996 ->
      date_number 1983 1 1 <= n <= date_number 1997 6 1).
    { intros y d E Hd Hy. assert (Id : in_year n y) by (rewrite E; apply I; lia).
      rewrite (since_year _ _ 1983 Id). pose proof (through_year n y 1996 Id) as T.
      assert (L : date_number 1996 12 31 <= date_number 1997 6 1) by (vm_compute; discriminate). lia. }
    intros [[L1 [L2 [N1 [N2 [N3 [N4 [y [d [E [D Hd]]]]]]]]]]|[[L1 [L2 [y [d [E [D Hd]]]]]]|[y [Hy [Iy [y' [d [E [D Hd]]]]]]]]].
    + assert (Id : in_year n y) by (rewrite E; apply I; lia).
      rewrite (since_year _ _ _ Id) in L1. rewrite (through_year _ _ _ Id) in L2.
      assert (N : forall y', ~ in_year n y' -> y <> y') by (intros y' J ->; contradiction).
      apply N in N1, N2, N3, N4.
      split; [|apply (B y d E); lia]. exists (date_number y 6 10). split; [exists y; reflexivity|].
      exists y. split; [apply I; lia|]. right. right. right. right. repeat (split; [lia|]).
      apply W; [lia|]. exists d. split; [exact E|]. split; [exact D|]. lia.
    + assert (Id : in_year n y) by (rewrite E; apply I; lia).
      rewrite (since_year _ _ _ Id) in L1. rewrite (through_year _ _ _ Id) in L2.
      split; [|apply (B y d E); lia]. exists (date_number y 6 10). split; [exists y; reflexivity|].
      exists y. split; [apply I; lia|]. right. right. right. left. split; [lia|].
      apply W; [lia|]. exists d. split; [exact E|]. split; [exact D|]. lia.
    + assert (Id : in_year n y') by (rewrite E; apply I; lia).
      pose proof (in_year_unique _ _ _ Iy Id). subst y'.
      split; [|apply (B y d E); [lia|cbn [In] in Hy; intuition lia]].
      exists (date_number y 6 10). split; [exists y; reflexivity|].
      exists y. split; [apply I; lia|]. right. right. left. split; [cbn [In] in Hy; intuition lia|].
      apply W2; [exact Hy|]. exists d. split; [exact E|]. split; [exact D|]. lia.
Qed.

Lemma queen_april : forall n,
  (kept (observed Process_queen_birthday) (annual 4 21) n /\
   date_number 1926 4 21 <= n <= date_number 1983 1 1) <->
  since_date 1926 4 21 (through 1982 (except [1974; 1981] (kept after_sunday (annual 4 21)))) n \/
  (exists y, In y [1974; 1981] /\ in_year n y /\ first_on_or_after SUNDAY 4 21 n).
Proof.
  intros n. unfold since_date, through. rewrite (except_list [1974; 1981]). cbn [fold_right].
  unfold kept, annual, first_on_or_after, after_sunday. cbn [observed].
  assert (V : forall y d, 1 <= d <= 30 -> valid_date y 4 d) by (intros y d Hd; split; [lia|exact Hd]).
  assert (I : forall y d, 1 <= d <= 30 -> in_year (date_number y 4 d) y)
    by (intros y d Hd; apply date_number_year; apply V; exact Hd).
  assert (A : forall y, first_from (fun k => day_of_week k = SUNDAY) (date_number y 4 21) n -> in_year n y).
  { intros y F. apply first_weekday_iff in F; [|unfold SUNDAY; lia]. destruct F as [_ F].
    change (0 <? 1) with true in F. cbv iota in F.
    apply (near_year y 4 21 n 7 (V y 21 ltac:(lia))); [lia|apply V; lia]. }
  assert (A' : forall y, first_from (fun k => day_of_week k <> SUNDAY) (date_number y 4 21) n -> in_year n y).
  { intros y F. pose proof (moved_near Sunday_to_monday _ _ Logic.I F) as B. cbv beta iota in B. destruct F as [F _].
    apply (near_year y 4 21 n 7 (V y 21 ltac:(lia))); [lia|apply V; lia]. }
  assert (M : forall y, moves (WeekOfMonth 1 MONDAY) (date_number y 4 21) n \/
    moves (WeekOfMonth 2 MONDAY) (date_number y 4 21) n \/ moves (WeekOfMonth 3 MONDAY) (date_number y 4 21) n ->
    date_number y 4 21 <= n) by (intros y [[H _]|[[H _]|[H _]]]; lia).
  split.
  - intros [[a [[y0 ->] [y [Iy H]]]] [L1 L2]].
    pose proof (in_year_unique _ _ _ Iy (I y0 21 ltac:(lia))). subst y0.
    assert (C : 1983 <= y -> date_number y 4 21 <= n -> False).
    { intros Hy Hn. pose proof (since_year (date_number y 4 1) y 1983 (I y 1 ltac:(lia))) as S.
      rewrite (date_number_first y 4 21) in Hn. lia. }
    destruct H as [[Hy H]|[[N1 [N2 [Hy H]]]|[[Hy H]|[[Hy H]|[H0 [N1 [N2 [N3 [N4 H]]]]]]]]].
    + right. exists y. split; [cbn [In]; intuition lia|]. split; [apply A; exact H|]. exists y. exact H.
    + left. split; [exact L1|]. pose proof (A' y H) as Id. rewrite (through_year _ _ _ Id). split; [lia|].
      assert (N : forall y', y' <> y -> ~ in_year n y')
        by (intros y' Ny' J; apply Ny'; exact (in_year_unique _ _ _ J Id)).
      split; [apply N; lia|]. split; [apply N; lia|].
      exists (date_number y 4 21). split; [exists y; reflexivity|exact H].
    + exfalso. apply C; [lia|]. apply M. tauto.
    + exfalso. apply C; [lia|]. apply M. tauto.
    + exfalso. apply C; [lia|]. apply M. tauto.
  - assert (B : date_number 1982 12 31 <= date_number 1983 1 1) by (vm_compute; discriminate).
    assert (B' : date_number 1926 4 21 <= date_number 1974 1 1) by (vm_compute; discriminate).
    intros [[L1 [L2 [N1 [N2 [a [[y ->] H]]]]]]|[y [Hy [Iy [y' F]]]]].
    + pose proof (A' y H) as Id. rewrite (through_year _ _ _ Id) in L2.
      assert (N : forall y', ~ in_year n y' -> y <> y') by (intros y' J ->; contradiction).
      apply N in N1, N2. split; [|pose proof (proj2 (through_year n y 1982 Id) L2); lia].
      exists (date_number y 4 21). split; [exists y; reflexivity|]. exists y. split; [apply I; lia|].
      right. left. split; [exact N1|]. split; [exact N2|]. split; [lia|exact H].
    + pose proof (in_year_unique _ _ _ Iy (A y' F)). subst y'.
      pose proof (since_year n y 1974 Iy) as S1. pose proof (through_year n y 1982 Iy) as S2.
      assert (Hy' : y = 1974 \/ y = 1981) by (cbn [In] in Hy; intuition lia).
      split; [|lia]. exists (date_number y 4 21). split; [exists y; reflexivity|]. exists y.
      split; [apply I; lia|]. left. split; [exact Hy'|exact F].
Qed.
