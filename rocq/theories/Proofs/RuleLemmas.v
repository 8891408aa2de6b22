(** Holiday rules: offsets and observances meet their specification. *)
From Coq Require Import ZArith List Bool Lia.
From Verif.Model Require Import Base Dates Holidays.
From Verif.Spec Require Import Civil Rules.
From Verif.Proofs Require Import DatesLemmas.
Import ListNotations.
Open Scope Z_scope.

Lemma weekday_dow : forall n, weekday n = day_of_week n.
Proof. reflexivity. Qed.
Lemma dow_range : forall n, 0 <= day_of_week n < 7.
Proof. intros n. apply Z.mod_pos_bound. lia. Qed.
Lemma dow_add : forall n k, day_of_week (n + k) = (day_of_week n + k) mod 7.
Proof. intros n k. unfold day_of_week. rewrite Zplus_mod_idemp_l. f_equal. lia. Qed.

Lemma memb_In : forall x l, memb x l = true <-> In x l.
Proof.
  intros x l. unfold memb. rewrite existsb_exists. split.
  - intros [y [H E]]. apply Z.eqb_eq in E. subst. exact H.
  - intros H. exists x. split; [exact H|apply Z.eqb_refl].
Qed.

(** ** First and last days with a property *)

Lemma first_from_unique : forall P a n n', first_from P a n -> first_from P a n' -> n = n'.
Proof.
  intros P a n n' [H1 [H2 H3]] [H1' [H2' H3']].
  destruct (Z.lt_trichotomy n n') as [L|[L|L]]; [exfalso; apply (H3' n); [lia|exact H2]|exact L|
    exfalso; apply (H3 n'); [lia|exact H2']].
Qed.
Lemma last_until_unique : forall P a n n', last_until P a n -> last_until P a n' -> n = n'.
Proof.
  intros P a n n' [H1 [H2 H3]] [H1' [H2' H3']].
  destruct (Z.lt_trichotomy n n') as [L|[L|L]]; [exfalso; apply (H3 n'); [lia|exact H2']|exact L|
    exfalso; apply (H3' n); [lia|exact H2]].
Qed.
Lemma first_from_iff : forall P a n n', first_from P a n -> (n' = n <-> first_from P a n').
Proof.
  intros P a n n' H. split; [intros ->; exact H|]. intros H'. eapply first_from_unique; eassumption.
Qed.
Lemma last_until_iff : forall P a n n', last_until P a n -> (n' = n <-> last_until P a n').
Proof.
  intros P a n n' H. split; [intros ->; exact H|]. intros H'. eapply last_until_unique; eassumption.
Qed.

Ltac dow := unfold first_from, last_until, workday, weekend, day_of_week, weekday, MONDAY, TUESDAY,
  WEDNESDAY, THURSDAY, FRIDAY, SATURDAY, SUNDAY in *; cbn beta in *.
Ltac dows := dow; Z.div_mod_to_equations; lia.

(** The [k] days from [a] on that are not ... *)
Lemma sunday_to_monday_ok : forall a,
  first_from (fun m => day_of_week m <> SUNDAY) a (sunday_to_monday a).
Proof.
  intros a. unfold sunday_to_monday. destruct (Z.eqb_spec (weekday a) 6); dow;
    (split; [lia|split; [Z.div_mod_to_equations; lia|intros m Hm; try lia]]).
  assert (m = a) by lia. subst. lia.
Qed.

Lemma weekend_to_monday_ok : forall a, first_from workday a (weekend_to_monday a).
Proof.
  intros a. unfold weekend_to_monday.
  destruct (Z.eqb_spec (weekday a) 6), (Z.eqb_spec (weekday a) 5); dow;
    (split; [lia|split; [Z.div_mod_to_equations; lia|intros m Hm; Z.div_mod_to_equations; lia]]).
Qed.
Lemma next_monday_weekend : forall a, next_monday a = weekend_to_monday a.
Proof.
  intros a. unfold next_monday, weekend_to_monday.
  destruct (Z.eqb_spec (weekday a) 6), (Z.eqb_spec (weekday a) 5); lia.
Qed.

Lemma nearest_workday_ok : forall a n,
  n = nearest_workday a <->
  (workday n /\ forall m, workday m -> Z.abs (n - a) <= Z.abs (m - a)).
Proof.
  intros a n. unfold nearest_workday.
  assert (E : exists k, k = (if weekday a =? 5 then -1 else if weekday a =? 6 then 1 else 0) /\
              (if weekday a =? 5 then a - 1 else if weekday a =? 6 then a + 1 else a) = a + k).
  { eexists. split; [reflexivity|]. destruct (weekday a =? 5), (weekday a =? 6); lia. }
  destruct E as [k [Hk ->]].
  assert (W : workday (a + k)).
  { subst k. destruct (Z.eqb_spec (weekday a) 5), (Z.eqb_spec (weekday a) 6); dows. }
  split.
  - intros ->. split; [exact W|]. intros m Hm. subst k.
    destruct (Z.eqb_spec (weekday a) 5), (Z.eqb_spec (weekday a) 6); try lia.
    + assert (m <> a) by (intros ->; dows). lia.
    + assert (m <> a) by (intros ->; dows). lia.
  - intros [Hw Hn]. specialize (Hn _ W). subst k.
    destruct (Z.eqb_spec (weekday a) 5) as [E5|E5]; [|destruct (Z.eqb_spec (weekday a) 6) as [E6|E6]].
    + assert (n = a - 1 \/ n = a \/ n = a + 1) as [H|[H|H]] by lia; subst; [lia|exfalso; dows..].
    + assert (n = a - 1 \/ n = a \/ n = a + 1) as [H|[H|H]] by lia; subst; [exfalso; dows..|lia].
    + lia.
Qed.

Lemma first_workday_weekend : forall a n, first_from workday a n <-> n = weekend_to_monday a.
Proof. intros a n. symmetry. apply first_from_iff. apply weekend_to_monday_ok. Qed.

Lemma next_monday_or_tuesday_ok : forall a,
  first_from (fun m => workday m /\ ~ first_from workday (a - 1) m) a (next_monday_or_tuesday a).
Proof.
  intros a. unfold next_monday_or_tuesday. pose proof (dow_range a) as R.
  assert (W : forall m, first_from workday (a - 1) m <-> m = weekend_to_monday (a - 1))
    by (intros m; apply first_workday_weekend).
  assert (E : weekend_to_monday (a - 1) =
    if weekday a =? 0 then a else if weekday a =? 6 then a + 1 else a - 1).
  { unfold weekend_to_monday. destruct (Z.eqb_spec (weekday (a - 1)) 6), (Z.eqb_spec (weekday (a - 1)) 5),
      (Z.eqb_spec (weekday a) 0), (Z.eqb_spec (weekday a) 6); try lia; dows. }
  cbv zeta. split; [|split; [split|]].
  - destruct (Z.eqb_spec (weekday a) 5), (Z.eqb_spec (weekday a) 6), (Z.eqb_spec (weekday a) 0);
      cbn [orb]; lia.
  - destruct (Z.eqb_spec (weekday a) 5), (Z.eqb_spec (weekday a) 6), (Z.eqb_spec (weekday a) 0);
      cbn [orb]; dows.
  - rewrite W, E. destruct (Z.eqb_spec (weekday a) 5), (Z.eqb_spec (weekday a) 6), (Z.eqb_spec (weekday a) 0);
      cbn [orb]; lia.
  - intros m Hm [H1 H2]. rewrite W, E in H2.
    destruct (Z.eqb_spec (weekday a) 5), (Z.eqb_spec (weekday a) 6), (Z.eqb_spec (weekday a) 0);
      cbn [orb] in Hm; try lia; dows.
Qed.

Lemma previous_friday_ok : forall a, last_until workday a (previous_friday a).
Proof.
  intros a. unfold previous_friday.
  destruct (Z.eqb_spec (weekday a) 6), (Z.eqb_spec (weekday a) 5); dow;
    (split; [lia|split; [Z.div_mod_to_equations; lia|intros m Hm; Z.div_mod_to_equations; lia]]).
Qed.

Lemma previous_workday_ok : forall a, last_until workday (a - 1) (previous_workday a).
Proof.
  intros a. unfold previous_workday. cbv zeta. rewrite !Z.gtb_ltb.
  destruct (Z.ltb_spec 4 (weekday (a - 1))).
  - destruct (Z.ltb_spec 4 (weekday (a - 1 - 1))); dow;
    (split; [lia|split; [Z.div_mod_to_equations; lia|intros m Hm; Z.div_mod_to_equations; lia]]).
  - destruct (Z.ltb_spec 4 (weekday (a - 1))); [lia|]. dow.
    (split; [lia|split; [Z.div_mod_to_equations; lia|intros m Hm; Z.div_mod_to_equations; lia]]).
Qed.

(** ** Weekdays around a date *)

Lemma nth_weekday_ok : forall wd k a n, 0 <= wd < 7 -> k <> 0 ->
  (n = nth_weekday wd k a <-> moves (NthWeekday wd k) a n).
Proof.
  intros wd k a n Hw Hk. unfold nth_weekday, moves. destruct (Z.ltb_spec 0 k).
  - split; [intros ->|intros [H1 H2]]; dow; [split|]; Z.div_mod_to_equations; lia.
  - split; [intros ->|intros [H1 H2]]; dow; [split|]; Z.div_mod_to_equations; lia.
Qed.

Lemma first_weekday_ok : forall wd a, 0 <= wd < 7 ->
  first_from (fun m => day_of_week m = wd) a (nth_weekday wd 1 a).
Proof.
  intros wd a Hw. destruct (proj1 (nth_weekday_ok wd 1 a _ Hw ltac:(lia)) eq_refl) as [H1 H2].
  change (0 <? 1) with true in H2. cbv iota in H2.
  split; [lia|]. split; [exact H1|]. intros m Hm. cbv beta. intros E. rewrite <- H1 in E.
  unfold day_of_week in E. Z.div_mod_to_equations. lia.
Qed.
Lemma last_weekday_ok : forall wd a, 0 <= wd < 7 ->
  last_until (fun m => day_of_week m = wd) a (nth_weekday wd (-1) a).
Proof.
  intros wd a Hw. destruct (proj1 (nth_weekday_ok wd (-1) a _ Hw ltac:(lia)) eq_refl) as [H1 H2].
  change (0 <? -1) with false in H2. cbv iota in H2.
  split; [lia|]. split; [exact H1|]. intros m Hm. cbv beta. intros E. rewrite <- H1 in E.
  unfold day_of_week in E. Z.div_mod_to_equations. lia.
Qed.

(** ** Months *)

Lemma month_next : forall y m, 1 <= m <= 12 ->
  let '(y', m') := next_month y m in
  1 <= m' <= 12 /\ date_number y' m' 1 = date_number y m 1 + month_length y m.
Proof.
  intros y m Hm. unfold next_month. destruct (Z.eqb_spec m 12) as [->|N].
  - split; [lia|]. unfold date_number. rewrite year_start_next.
    unfold days_before_month, month_length, month_lengths. destruct (leap y); calc; lia.
  - split; [lia|]. unfold date_number, days_before_month, month_length, month_lengths.
    destruct (leap y); months Hm; try lia; calc; lia.
Qed.

Lemma month_length_28 : forall y m, 1 <= m <= 12 -> 28 <= month_length y m <= 31.
Proof.
  intros y m Hm. unfold month_length, month_lengths. destruct (leap y); months Hm; calc; lia.
Qed.

Lemma date_number_shift : forall y m d k, date_number y m (d + k) = date_number y m d + k.
Proof. intros. unfold date_number. lia. Qed.
Lemma date_number_first : forall y m d, date_number y m d = date_number y m 1 + (d - 1).
Proof. intros. unfold date_number. lia. Qed.

Lemma civil_of_day : forall n, valid_date (year_of n) (month_of n) (mday_of n) /\
  n = date_number (year_of n) (month_of n) (mday_of n).
Proof.
  intros n. unfold year_of, month_of, mday_of. destruct (civil_from_days n) as [[y m] d] eqn:E.
  apply civil_from_days_ok in E. destruct E as [V <-]. split; [exact V|reflexivity].
Qed.

Lemma apply_monthly_ok : forall day_in a,
  (forall y m, 1 <= m <= 12 -> valid_date y m (day_in y m)) ->
  first_from (fun n => exists y m, 1 <= m <= 12 /\ n = date_number y m (day_in y m)) (a + 1)
    (apply_monthly day_in a).
Proof.
  intros day_in a V. unfold apply_monthly.
  destruct (civil_of_day a) as [Va Ea].
  set (y := year_of a) in *. set (m := month_of a) in *. set (d := mday_of a) in *.
  destruct Va as [Hm Hd]. pose proof (month_next y m Hm) as Nx.
  destruct (next_month y m) as [y' m']. destruct Nx as [Hm' Nx].
  pose proof (V y m Hm) as [_ Vd]. pose proof (V y' m' Hm') as [_ Vd'].
  destruct (Z.ltb_spec d (day_in y m)) as [L|L]; rewrite days_from_civil_ok by assumption.
  - split; [|split].
    + rewrite Ea, (date_number_first y m d), (date_number_first y m (day_in y m)). lia.
    + exists y, m. split; [exact Hm|reflexivity].
    + intros k Hk [y2 [m2 [Hm2 Hk2]]].
      assert (K : k = date_number y m (d + (k - a))) by (rewrite date_number_shift; lia).
      rewrite (date_number_first y m (day_in y m)) in Hk.
      rewrite Ea, (date_number_first y m d) in Hk. rewrite Ea, (date_number_first y m d) in K.
      assert (Vk : valid_date y m (d + (k - a))).
      { split; [exact Hm|]. rewrite Ea, (date_number_first y m d). lia. }
      rewrite Ea, (date_number_first y m d) in Vk. rewrite Hk2 in K at 1.
      destruct (date_number_inj _ _ _ _ _ _ (V y2 m2 Hm2) Vk K) as [-> [-> E]]. lia.
  - split; [|split].
    + rewrite Ea, (date_number_first y m d), (date_number_first y' m' (day_in y' m')). lia.
    + exists y', m'. split; [exact Hm'|reflexivity].
    + intros k Hk [y2 [m2 [Hm2 Hk2]]].
      pose proof (date_number_first y m d) as F. rewrite (date_number_first y' m' (day_in y' m')) in Hk.
      destruct (Z.lt_ge_cases k (date_number y' m' 1)) as [C|C].
      * assert (K : k = date_number y m (k - date_number y m 1 + 1)) by (rewrite date_number_first; lia).
        assert (Vk : valid_date y m (k - date_number y m 1 + 1)) by (split; [exact Hm|]; lia).
        rewrite Hk2 in K at 1.
        destruct (date_number_inj _ _ _ _ _ _ (V y2 m2 Hm2) Vk K) as [-> [-> E]]. lia.
      * assert (K : k = date_number y' m' (k - date_number y' m' 1 + 1)) by (rewrite date_number_first; lia).
        assert (Vk : valid_date y' m' (k - date_number y' m' 1 + 1)) by (split; [exact Hm'|]; lia).
        rewrite Hk2 in K at 1.
        destruct (date_number_inj _ _ _ _ _ _ (V y2 m2 Hm2) Vk K) as [-> [-> E]]. lia.
Qed.

Lemma first_from_ext : forall P Q a n, (forall m, P m <-> Q m) -> first_from P a n -> first_from Q a n.
Proof.
  intros P Q a n E [H1 [H2 H3]]. split; [exact H1|]. split; [apply E; exact H2|].
  intros m Hm Q'. apply (H3 m Hm). apply E. exact Q'.
Qed.

Lemma week_of_month_ok : forall week wd a, 0 <= week <= 3 -> 0 <= wd < 7 ->
  moves (WeekOfMonth week wd) a (apply_offset (WeekOfMonth week wd) a).
Proof.
  intros week wd a Hk Hw. cbn [moves apply_offset].
  eapply first_from_ext; [|apply apply_monthly_ok].
  - intros n. split.
    + intros [y [m [Hm ->]]]. exists y, m, (week_of_month_day week wd y m).
      unfold week_of_month_day. rewrite days_from_civil_ok by exact Hm.
      pose proof (month_length_28 y m Hm). pose proof (Z.mod_pos_bound (wd - weekday (date_number y m 1)) 7 ltac:(lia)).
      split; [split; [exact Hm|lia]|]. split; [reflexivity|]. split; [|lia].
      rewrite date_number_first. rewrite weekday_dow in *. unfold weekday, day_of_week in *.
      Z.div_mod_to_equations. lia.
    + intros [y [m [d [[Hm Hd] [-> [Hdow Hr]]]]]]. exists y, m. split; [exact Hm|]. f_equal.
      unfold week_of_month_day. rewrite days_from_civil_ok by exact Hm. rewrite weekday_dow.
      rewrite date_number_first in Hdow. unfold weekday, day_of_week in *. Z.div_mod_to_equations. lia.
  - intros y m Hm. split; [exact Hm|]. unfold week_of_month_day.
    rewrite days_from_civil_ok by exact Hm. pose proof (month_length_28 y m Hm).
    pose proof (Z.mod_pos_bound (wd - weekday (date_number y m 1)) 7 ltac:(lia)). lia.
Qed.

Lemma last_week_of_month_day_ok : forall wd y m, 1 <= m <= 12 -> last_week_of_month_day wd y m =
  month_length y m - (day_of_week (date_number y m 1 + month_length y m - 1) - wd) mod 7.
Proof.
  intros wd y m Hm. unfold last_week_of_month_day. pose proof (month_next y m Hm) as Nx.
  destruct (next_month y m) as [y' m']. destruct Nx as [Hm' Nx].
  rewrite !days_from_civil_ok by assumption. rewrite weekday_dow, Nx. lia.
Qed.

Lemma last_in_month_iff : forall wd n, 0 <= wd < 7 ->
  (exists y m, 1 <= m <= 12 /\ n = date_number y m (last_week_of_month_day wd y m)) <->
  last_in_month wd n.
Proof.
  intros wd n Hw. split.
  - intros [y [m [Hm ->]]]. exists y, m, (last_week_of_month_day wd y m).
    rewrite last_week_of_month_day_ok by exact Hm. pose proof (month_length_28 y m Hm) as R.
    unfold valid_date. set (l := month_length y m) in *. set (f := date_number y m 1).
    set (x := (day_of_week (f + l - 1) - wd) mod 7).
    assert (E : date_number y m (l - x) = f + (l - x - 1)) by apply date_number_first.
    rewrite E. subst x. clear E. clearbody f l. unfold day_of_week.
    repeat split; Z.div_mod_to_equations; lia.
  - intros [y [m [d [[Hm Hd] [-> [Hdow Hr]]]]]]. exists y, m. split; [exact Hm|]. f_equal.
    rewrite last_week_of_month_day_ok by exact Hm. rewrite date_number_first in Hdow.
    set (f := date_number y m 1) in *. set (l := month_length y m) in *. clearbody f l.
    unfold day_of_week in *. Z.div_mod_to_equations. lia.
Qed.

Lemma last_week_of_month_ok : forall wd a, 0 <= wd < 7 ->
  moves (LastWeekOfMonth wd) a (apply_offset (LastWeekOfMonth wd) a).
Proof.
  intros wd a Hw. unfold moves, apply_offset.
  apply (first_from_ext _ _ _ _ (fun n => last_in_month_iff wd n Hw)). apply apply_monthly_ok.
  intros y m Hm. split; [exact Hm|]. rewrite last_week_of_month_day_ok by exact Hm.
  pose proof (month_length_28 y m Hm). set (l := month_length y m) in *.
  pose proof (Z.mod_pos_bound (day_of_week (date_number y m 1 + l - 1) - wd) 7 ltac:(lia)). lia.
Qed.

(** ** Yearly dates *)

Lemma in_year_mono : forall a b y y', in_year a y -> in_year b y' -> a <= b -> y <= y'.
Proof.
  intros a b y y' [H1 H2] [H3 H4] L. destruct (Z.le_gt_cases y y') as [|G]; [assumption|].
  destruct (Z.eq_dec (y' + 1) y) as [E|E]; [subst; lia|].
  pose proof (year_start_mono (y' + 1) y ltac:(lia)). lia.
Qed.

Lemma apply_yearly_ok : forall f a, (forall y, in_year (f y) y) ->
  first_from (fun m => exists y, m = f y) (a + 1) (apply_yearly f a).
Proof.
  intros f a Hf. unfold apply_yearly. set (y := year_of a).
  assert (Ha : in_year a y) by (apply year_of_ok; reflexivity).
  destruct (Z.ltb_spec a (f y)) as [L|L].
  - split; [lia|]. split; [exists y; reflexivity|]. intros m Hm [y2 ->].
    pose proof (in_year_mono _ _ _ _ Ha (Hf y2) ltac:(lia)).
    pose proof (in_year_mono _ _ _ _ (Hf y2) (Hf y) ltac:(lia)). assert (y2 = y) by lia. subst. lia.
  - destruct (Hf (y + 1)) as [F1 F2]. destruct Ha as [A1 A2].
    split; [lia|]. split; [exists (y + 1); reflexivity|]. intros m Hm [y2 ->].
    pose proof (in_year_mono _ _ _ _ (conj A1 A2) (Hf y2) ltac:(lia)).
    pose proof (in_year_mono _ _ _ _ (Hf y2) (Hf (y + 1)) ltac:(lia)).
    assert (y2 = y \/ y2 = y + 1) as [->| ->] by lia; lia.
Qed.

(** ** Easter *)

Definition moon (y : Z) : Z := if epact y <? 24 then 23 - epact y else 53 - epact y.

Lemma march_21 : forall y,
  date_number y 3 21 = 365 * y + y / 4 - y / 100 + y / 400 - 719448.
Proof.
  intros y. rewrite <- days_from_civil_ok by lia. unfold days_from_civil.
  cbn [Z.leb Z.compare Pos.compare Pos.compare_cont]. Z.div_mod_to_equations. lia.
Qed.

Lemma march_april : forall y p, -6 <= p <= 28 ->
  days_from_civil y (3 + (p + 26) / 30) (1 + (p + 27 + (p + 6) / 40) mod 31) = date_number y 3 28 + p.
Proof.
  intros y p Hp. assert (E : (p + 6) / 40 = 0) by (Z.div_mod_to_equations; lia). rewrite E.
  destruct (Z.le_gt_cases p 3) as [L|L].
  - assert (E1 : (p + 26) / 30 = 0) by (Z.div_mod_to_equations; lia).
    assert (E2 : (p + 27 + 0) mod 31 = p + 27) by (Z.div_mod_to_equations; lia).
    rewrite E1, E2. rewrite days_from_civil_ok by lia. rewrite (date_number_first y 3 28).
    rewrite date_number_first. change (3 + 0) with 3. lia.
  - assert (E1 : (p + 26) / 30 = 1) by (Z.div_mod_to_equations; lia).
    assert (E2 : (p + 27 + 0) mod 31 = p - 4) by (Z.div_mod_to_equations; lia).
    rewrite E1, E2. rewrite days_from_civil_ok by lia. pose proof (month_next y 3 ltac:(lia)) as N.
    change (next_month y 3) with (y, 4) in N. destruct N as [_ N].
    change (3 + 1) with 4. rewrite (date_number_first y 3 28), date_number_first, N.
    change (month_length y 3) with 31. lia.
Qed.

Lemma moon_range : forall y, 0 <= moon y <= 28.
Proof.
  intros y. unfold moon, epact. set (e := (_ mod 30)).
  assert (0 <= e < 30) by (apply Z.mod_pos_bound; lia). clearbody e. cbv zeta.
  destruct (Z.eqb_spec e 24), (Z.eqb_spec e 25), (11 <? golden y); cbn [orb andb];
    destruct (Z.ltb_spec e 24); try lia; destruct (Z.ltb_spec (e + 1) 24); lia.
Qed.

Lemma easter_closed : forall y,
  easter y = date_number y 3 28 + moon y - (y + y / 4 + moon y + 2 - y / 100 + y / 100 / 4) mod 7.
Proof.
  intros y. unfold easter. cbv zeta.
  set (g := y mod 19). set (c := y / 100).
  set (h := (c - c / 4 - (8 * c + 13) / 25 + 19 * g + 15) mod 30).
  assert (I : h - h / 28 * (1 - h / 28 * (29 / (h + 1)) * ((21 - g) / 11)) = moon y).
  { unfold moon, epact, golden. fold g c. cbv zeta.
    set (e := (11 * (g + 1 - 1) + 8 - c + c / 4 + (8 * c + 13) / 25) mod 30).
    assert (G : 0 <= g < 19) by (apply Z.mod_pos_bound; lia).
    assert (Hh : 0 <= h < 30) by (apply Z.mod_pos_bound; lia).
    assert (He : 0 <= e < 30) by (apply Z.mod_pos_bound; lia).
    assert (S : (h + e) mod 30 = 23).
    { unfold h, e. rewrite <- Zplus_mod.
      replace (_ + _) with (23 + g * 30) by lia. rewrite Z_mod_plus_full. reflexivity. }
    clearbody h e. clear c.
    assert (E : h = 23 - e /\ e < 24 \/ h = 53 - e /\ 24 <= e) by (Z.div_mod_to_equations; lia).
    destruct (Z.eqb_spec e 24) as [E4|E4].
    - subst e. assert (h = 29) by lia. subst h. cbn [orb]. change (24 + 1 <? 24) with false. cbv iota.
      change (29 / 28) with 1. change (29 / (29 + 1)) with 0. lia.
    - destruct (Z.eqb_spec e 25) as [E5|E5]; cbn [orb andb].
      + subst e. assert (h = 28) by lia. subst h. change (28 / 28) with 1. change (29 / (28 + 1)) with 1.
        destruct (Z.ltb_spec 11 (g + 1)).
        * change (25 + 1 <? 24) with false. cbv iota.
          assert (E0 : (21 - g) / 11 = 0) by (Z.div_mod_to_equations; lia). rewrite E0. lia.
        * change (25 <? 24) with false. cbv iota.
          assert (E0 : (21 - g) / 11 = 1) by (Z.div_mod_to_equations; lia). rewrite E0. lia.
      + assert (E0 : h / 28 = 0) by (Z.div_mod_to_equations; lia). rewrite E0.
        destruct (Z.ltb_spec e 24); lia. }
  rewrite I. pose proof (moon_range y). set (j := (_ mod 7)).
  assert (0 <= j < 7) by (apply Z.mod_pos_bound; lia).
  rewrite march_april by lia. lia.
Qed.

Lemma easter_ok : forall y, is_easter y (easter y).
Proof.
  intros y. unfold is_easter, full_moon. fold (moon y). rewrite easter_closed.
  rewrite (date_number_first y 3 28). rewrite (date_number_first y 3 21).
  pose proof (march_21 y) as M. rewrite date_number_first in M.
  set (a := date_number y 3 1) in *. set (j := _ mod 7).
  assert (Hj : 0 <= j < 7) by (apply Z.mod_pos_bound; lia).
  assert (D : day_of_week (a + (21 - 1) + moon y) = (j - 1) mod 7).
  { unfold j, day_of_week. rewrite Zminus_mod_idemp_l.
    assert (E : a = 365 * y + y / 4 - y / 100 + y / 400 - 719468) by lia. rewrite E.
    assert (E' : y / 100 / 4 = y / 400) by (Z.div_mod_to_equations; lia). rewrite E'.
    set (q := y / 4) in *. set (c := y / 100) in *. set (c4 := y / 400) in *.
    replace (365 * y + q - c + c4 - 719468 + (21 - 1) + moon y + 3)
      with (y + q + moon y + 2 - c + c4 - 1 + (52 * y - 102778) * 7) by lia.
    apply Z_mod_plus_full. }
  set (b := a + (21 - 1) + moon y) in *.
  replace (a + (28 - 1) + moon y - j) with (b + 7 - j) by (unfold b; lia).
  clearbody b j a. clear M.
  split; [lia|]. split.
  - dows.
  - intros m Hm E. dow. Z.div_mod_to_equations. lia.
Qed.

(** Easter Sunday is between March 22nd and April 25th. *)
Lemma easter_bounds : forall y, date_number y 3 22 <= easter y <= date_number y 4 25.
Proof.
  intros y. rewrite easter_closed. pose proof (moon_range y). set (j := _ mod 7).
  assert (Hj : 0 <= j < 7) by (apply Z.mod_pos_bound; lia).
  pose proof (month_next y 3 ltac:(lia)) as N. change (next_month y 3) with (y, 4) in N.
  destruct N as [_ N]. change (month_length y 3) with 31 in N.
  rewrite (date_number_first y 4 25), N, (date_number_first y 3 28), (date_number_first y 3 22). lia.
Qed.

Lemma easter_sunday : forall y, day_of_week (easter y) = SUNDAY.
Proof. intros y. apply (easter_ok y). Qed.

Lemma is_easter_iff : forall y n, is_easter y n <-> n = easter y.
Proof. intros y n. symmetry. apply first_from_iff. apply easter_ok. Qed.

Lemma in_year_dates : forall y n m d m' d', valid_date y m d -> valid_date y m' d' ->
  date_number y m d <= n <= date_number y m' d' -> in_year n y.
Proof.
  intros y n m d m' d' V V' H. apply date_number_year in V, V'. unfold in_year in *. lia.
Qed.

Lemma easter_year : forall y, in_year (easter y) y.
Proof.
  intros y. apply (in_year_dates y _ 3 22 4 25); [split; [lia|vm_compute; intuition discriminate]..|].
  apply easter_bounds.
Qed.

Lemma easter_offset_ok : forall a, moves Easter a (apply_offset Easter a).
Proof.
  intros a. cbn [moves apply_offset]. eapply first_from_ext; [|apply apply_yearly_ok; apply easter_year].
  intros m. cbv beta. split; intros [y H]; exists y; apply is_easter_iff; exact H.
Qed.

(** ** Offsets and observances *)

Lemma offset_iff : forall o a n, valid_offset o = true -> (n = apply_offset o a <-> moves o a n).
Proof.
  intros o a n V. destruct o as [k|wd k| |f|week wd|wd]; cbn [valid_offset] in V.
  - reflexivity.
  - rewrite !andb_true_iff, negb_true_iff in V. apply nth_weekday_ok; lia.
  - apply first_from_iff. apply easter_offset_ok.
  - discriminate.
  - rewrite !andb_true_iff in V. apply first_from_iff. apply week_of_month_ok; lia.
  - rewrite !andb_true_iff in V. apply first_from_iff. apply last_week_of_month_ok; lia.
Qed.

Lemma offsets_iff : forall os a n, forallb valid_offset os = true ->
  (In n (fold_left (fun ds o => map (apply_offset o) ds) os [a]) <-> moves_all os a n).
Proof.
  induction os as [|o os IH]; intros a n V; cbn [fold_left moves_all].
  - cbn. intuition congruence.
  - cbn [forallb] in V. apply andb_true_iff in V. destruct V as [V1 V2]. cbn [map].
    rewrite (IH (apply_offset o a) n V2). split.
    + intros H. exists (apply_offset o a). split; [apply offset_iff; [exact V1|reflexivity]|exact H].
    + intros [b [Hb H]]. apply offset_iff in Hb; [|exact V1]. subst b. exact H.
Qed.

Lemma in_year_iff : forall n y, in_year n y <-> year_of n = y.
Proof. intros n y. symmetry. apply year_of_ok. Qed.

Lemma In_single : forall n a : Z, In n [a] <-> n = a.
Proof. intros n a. cbn. intuition. Qed.

Ltac by_dow := pose proof (dow_range 0); dow; Z.div_mod_to_equations; lia.

Lemma xbue_nearest_monday_ok : forall a n, n = xbue_nearest_monday a <->
  (day_of_week a <= WEDNESDAY /\ last_until (fun m => day_of_week m = MONDAY) a n \/
   WEDNESDAY < day_of_week a /\ first_from (fun m => day_of_week m = MONDAY) a n).
Proof.
  intros a n. pose proof (dow_range a) as R.
  pose proof (last_weekday_ok MONDAY a ltac:(unfold MONDAY; lia)) as L.
  pose proof (first_weekday_ok MONDAY a ltac:(unfold MONDAY; lia)) as F.
  assert (E : xbue_nearest_monday a =
    if day_of_week a <=? WEDNESDAY then nth_weekday MONDAY (-1) a else nth_weekday MONDAY 1 a).
  { unfold xbue_nearest_monday, memb, nth_weekday. rewrite weekday_dow. cbn [existsb].
    change (0 <? 1) with true. change (0 <? -1) with false. cbv iota zeta. clear L F.
    unfold MONDAY, TUESDAY, WEDNESDAY. set (w := day_of_week a) in *. clearbody w.
    destruct (Z.eqb_spec w 0), (Z.eqb_spec w 1), (Z.eqb_spec w 2), (Z.leb_spec w 2); cbn [orb];
      try lia; Z.div_mod_to_equations; lia. }
  rewrite E. destruct (Z.leb_spec (day_of_week a) WEDNESDAY) as [C|C].
  - rewrite (last_until_iff _ _ _ n L). split; [tauto|]. intros [[_ H]|[H _]]; [exact H|lia].
  - rewrite (first_from_iff _ _ _ n F). split; [tauto|]. intros [[H _]|[_ H]]; [lia|exact H].
Qed.

Lemma xsgo_nearest_monday_ok : forall a n, n = xsgo_nearest_monday a <->
  (TUESDAY <= day_of_week a <= THURSDAY /\ last_until (fun m => day_of_week m = MONDAY) a n \/
   day_of_week a = FRIDAY /\ first_from (fun m => day_of_week m = MONDAY) a n \/
   ~ (TUESDAY <= day_of_week a <= FRIDAY) /\ n = a).
Proof.
  intros a n. pose proof (dow_range a) as R.
  rewrite <- (last_until_iff _ _ _ n (last_weekday_ok MONDAY a ltac:(unfold MONDAY; lia))).
  rewrite <- (first_from_iff _ _ _ n (first_weekday_ok MONDAY a ltac:(unfold MONDAY; lia))).
  unfold xsgo_nearest_monday, memb, nth_weekday. rewrite weekday_dow. cbn [existsb].
  change (0 <? 1) with true. change (0 <? -1) with false. cbv iota zeta.
  unfold MONDAY, TUESDAY, WEDNESDAY, THURSDAY, FRIDAY. set (w := day_of_week a) in *. clearbody w.
  destruct (Z.eqb_spec w 1), (Z.eqb_spec w 2), (Z.eqb_spec w 3), (Z.eqb_spec w 4); cbn [orb];
    try lia; Z.div_mod_to_equations; lia.
Qed.

Lemma tuesday_and_wednesday_to_friday_ok : forall a n, n = tuesday_and_wednesday_to_friday a <->
  (day_of_week a = TUESDAY /\ last_until (fun m => day_of_week m = FRIDAY) a n \/
   day_of_week a = WEDNESDAY /\ first_from (fun m => day_of_week m = FRIDAY) a n \/
   ~ (TUESDAY <= day_of_week a <= WEDNESDAY) /\ n = a).
Proof.
  intros a n. pose proof (dow_range a) as R.
  rewrite <- (last_until_iff _ _ _ n (last_weekday_ok FRIDAY a ltac:(unfold FRIDAY; lia))).
  rewrite <- (first_from_iff _ _ _ n (first_weekday_ok FRIDAY a ltac:(unfold FRIDAY; lia))).
  unfold tuesday_and_wednesday_to_friday, nth_weekday. rewrite weekday_dow.
  change (0 <? 1) with true. change (0 <? -1) with false. cbv iota zeta.
  unfold TUESDAY, WEDNESDAY, FRIDAY. set (w := day_of_week a) in *. clearbody w.
  destruct (Z.eqb_spec w 1), (Z.eqb_spec w 2); try lia; Z.div_mod_to_equations; lia.
Qed.

Lemma next_monday_or_tuesday_iff : forall a n, n = next_monday_or_tuesday a <->
  first_from (fun m => workday m /\ ~ first_from workday (a - 1) m) a n.
Proof. intros a n. apply first_from_iff. apply next_monday_or_tuesday_ok. Qed.

Lemma first_leap_cycle_year : forall y,
  first_from (fun k => k mod 4 = 0) y (y + (4 - y mod 4) mod 4).
Proof.
  intros y. split; [|split].
  - Z.div_mod_to_equations. lia.
  - cbv beta. Z.div_mod_to_equations. lia.
  - intros m Hm. cbv beta. Z.div_mod_to_equations. lia.
Qed.

Lemma following_tuesday_ok : forall a n,
  n = following_tuesday_every_four_years_observance a <->
  observed Following_tuesday_every_four_years a n.
Proof.
  intros a n. unfold following_tuesday_every_four_years_observance. cbv zeta. cbn [observed].
  destruct (civil_of_day a) as [V E]. set (y := year_of a) in *. set (m := month_of a) in *.
  set (d := mday_of a) in *. rewrite days_from_civil_ok by apply V.
  pose proof (first_leap_cycle_year y) as L. set (y' := y + (4 - y mod 4) mod 4) in *.
  pose proof (first_weekday_ok TUESDAY (date_number y' m d) ltac:(unfold TUESDAY; lia)) as F.
  rewrite (first_from_iff _ _ _ n F). split.
  - intros H. exists y, m, d, y'. tauto.
  - intros [y0 [m0 [d0 [y0' [V0 [E0 [L0 H0]]]]]]]. rewrite E in E0.
    destruct (date_number_inj _ _ _ _ _ _ V V0 E0) as [-> [-> ->]].
    pose proof (first_from_unique _ _ _ _ L L0). subst y0'. exact H0.
Qed.

Lemma process_queen_ok : forall a n, n = process_queen_birthday a <-> observed Process_queen_birthday a n.
Proof.
  intros a n. unfold process_queen_birthday. cbv zeta. cbn [observed].
  assert (Hy : in_year a (year_of a)) by (apply year_of_ok; reflexivity).
  assert (U : forall (P : Z -> Prop), (exists y0, in_year a y0 /\ P y0) <-> P (year_of a)).
  { intros P. split; [intros [y0 [H0 HP]]|intros HP; exists (year_of a); tauto].
    rewrite (in_year_unique _ _ _ Hy H0). exact HP. }
  etransitivity; [|symmetry; apply U]. clear U Hy. cbv beta. generalize (year_of a). intros y.
  rewrite <- (first_from_iff _ _ _ n (first_weekday_ok SUNDAY a ltac:(unfold SUNDAY; lia))).
  rewrite <- (first_from_iff _ _ _ n (sunday_to_monday_ok a)).
  rewrite <- (offset_iff (WeekOfMonth 1 MONDAY) a n eq_refl), <- (offset_iff (WeekOfMonth 2 MONDAY) a n eq_refl),
    <- (offset_iff (WeekOfMonth 3 MONDAY) a n eq_refl).
  unfold memb. cbn [existsb].
  assert (K : exists w, forall k, apply_offset (WeekOfMonth k MONDAY) a = w k) by (eexists; reflexivity).
  destruct K as [w K]. rewrite !K. clear K. generalize (sunday_to_monday a) (nth_weekday SUNDAY 1 a).
  intros s2 s1.
  destruct (Z.eqb_spec y 1974); [cbn [orb]; intuition lia|].
  destruct (Z.eqb_spec y 1981); [cbn [orb]; intuition lia|].
  cbn [orb]. destruct (Z.ltb_spec y 1983); [intuition lia|].
  destruct (Z.eqb_spec y 1985); [intuition lia|].
  destruct (Z.eqb_spec y 1983); [cbn [orb]; intuition lia|].
  destruct (Z.eqb_spec y 1988); [cbn [orb]; intuition lia|].
  destruct (Z.eqb_spec y 1993); [cbn [orb]; intuition lia|].
  destruct (Z.eqb_spec y 1994); cbn [orb]; intuition lia.
Qed.

Lemma nearest_friday : forall a,
  (exists c, (workday c /\ forall m, workday m -> Z.abs (c - a) <= Z.abs (m - a)) /\ day_of_week c = FRIDAY)
  <-> weekday (nearest_workday a) = 4.
Proof.
  intros a. split.
  - intros [c [H1 H2]]. apply nearest_workday_ok in H1. rewrite weekday_dow, <- H1. exact H2.
  - intros H. rewrite weekday_dow in H. exists (nearest_workday a). split; [|exact H]. apply nearest_workday_ok. reflexivity.
Qed.

Lemma good_friday_unless_ok : forall a n,
  In n (good_friday_unless_christmas_nye_friday a) <->
  observed Good_friday_unless_christmas_nye_friday a n.
Proof.
  intros a n. unfold good_friday_unless_christmas_nye_friday. cbv zeta. unfold observed.
  assert (Hy : in_year a (year_of a)) by (apply year_of_ok; reflexivity).
  set (y := year_of a) in *. rewrite !days_from_civil_ok by lia.
  assert (N : (exists c, first_from (fun m => day_of_week m <> SUNDAY) (date_number y 1 1) c /\
                day_of_week c = FRIDAY) <-> weekday (sunday_to_monday (date_number y 1 1)) = 4).
  { split.
    - intros [c [H1 H2]].
      apply (first_from_iff _ _ _ c (sunday_to_monday_ok (date_number y 1 1))) in H1.
      rewrite weekday_dow, <- H1. exact H2.
    - intros H. rewrite weekday_dow in H. exists (sunday_to_monday (date_number y 1 1)).
      split; [apply sunday_to_monday_ok|exact H]. }
  pose proof (nearest_friday (date_number y 12 25)) as C.
  set (c1 := weekday (nearest_workday (date_number y 12 25))) in *.
  set (c2 := weekday (sunday_to_monday (date_number y 1 1))) in *.
  assert (E : In n (if negb (c1 =? 4) && negb (c2 =? 4)
                    then [apply_offset (Day (-2)) (apply_offset Easter a)] else []) <->
              c1 <> 4 /\ c2 <> 4 /\ n = apply_offset Easter a - 2).
  { destruct (Z.eqb_spec c1 4), (Z.eqb_spec c2 4); cbn [negb andb]; rewrite ?In_single;
      cbn [In apply_offset]; intuition (congruence || lia). }
  rewrite E. split.
  - intros [H1 [H2 ->]]. exists y, (apply_offset Easter a). split; [exact Hy|].
    split; [apply easter_offset_ok|]. split; [reflexivity|]. rewrite N, C. tauto.
  - intros [y0 [e [H0 [He [-> [H1 H2]]]]]]. pose proof (in_year_unique _ _ _ Hy H0). subst y0.
    rewrite N in H2. rewrite C in H1.
    pose proof (first_from_unique _ _ _ _ (easter_offset_ok a) He). subst e. tauto.
Qed.

Lemma observance_iff : forall o a n, In n (apply_observance o [a]) <-> observed o a n.
Proof.
  intros o a n. pose proof (dow_range a) as R.
  destruct o; cbn [apply_observance map]; rewrite ?In_single.
  - apply first_from_iff. apply sunday_to_monday_ok.
  - apply first_from_iff. apply weekend_to_monday_ok.
  - apply nearest_workday_ok.
  - rewrite next_monday_weekend. apply first_from_iff. apply weekend_to_monday_ok.
  - apply next_monday_or_tuesday_iff.
  - apply last_until_iff. apply previous_friday_ok.
  - apply last_until_iff. apply previous_workday_ok.
  - apply following_tuesday_ok.
  - cbn [flat_map]. rewrite app_nil_r. apply good_friday_unless_ok.
  - unfold four_day_weekend, observed. rewrite weekday_dow || idtac. cbn [filter].
    rewrite !weekday_dow. unfold TUESDAY, THURSDAY.
    destruct (Z.eqb_spec (day_of_week a) 1), (Z.eqb_spec (day_of_week a) 3); cbn; intuition lia.
  - unfold cultural_diversity_observance. cbn [map filter observed].
    rewrite <- xbue_nearest_monday_ok, in_year_iff.
    destruct (Z.eqb_spec (year_of (xbue_nearest_monday a)) 2012) as [E|E]; cbn [negb].
    + cbn [In]. split; [tauto|]. intros [H ->]. tauto.
    + rewrite In_single. split; [intros ->; tauto|tauto].
  - unfold not_in_year. cbn [filter observed]. rewrite in_year_iff.
    destruct (Z.eqb_spec (year_of a) year); cbn [negb]; [cbn [In]|rewrite In_single]; tauto.
  - apply first_from_iff. apply first_weekday_ok. unfold MONDAY. lia.
  - apply process_queen_ok.
  - reflexivity.
  - unfold weekend_to_monday_except. cbn [filter observed].
    rewrite <- (first_from_iff _ _ _ n (weekend_to_monday_ok a)).
    destruct (memb (year_of a) years) eqn:E; cbn [negb map].
    + apply memb_In in E. cbn [In]. split; [tauto|]. intros [H _]. apply (H _ E). apply in_year_iff. reflexivity.
    + rewrite In_single. split; [|tauto]. intros ->. split; [|reflexivity]. intros y Hy H.
      apply in_year_iff in H. subst y. apply memb_In in Hy. congruence.
  - unfold xbkk_new_years_day_observance. cbn [filter observed].
    rewrite <- next_monday_or_tuesday_iff, in_year_iff.
    destruct (Z.eqb_spec (year_of a) 2006); cbn [negb map]; [cbn [In]|rewrite In_single]; tauto.
  - unfold songkran_festival_last_day_observance. cbn [observed]. rewrite !weekday_dow.
    unfold SUNDAY, MONDAY. destruct (Z.eqb_spec (day_of_week a) 6), (Z.eqb_spec (day_of_week a) 0);
      cbn [orb]; lia.
  - unfold only_friday. cbn [filter observed]. rewrite weekday_dow.
    destruct (Z.eqb_spec (day_of_week a) FRIDAY); [rewrite In_single|cbn [In]]; tauto.
  - apply xsgo_nearest_monday_ok.
  - apply tuesday_and_wednesday_to_friday_ok.
  - unfold taiwan_makeup_rule. cbv zeta. cbn [filter observed]. rewrite !weekday_dow.
    rewrite in_app_iff, In_single, filter_In.
    assert (Y : (2013 <? year_of n) = true <-> exists y, in_year n y /\ 2014 <= y).
    { rewrite Z.ltb_lt. split.
      - intros H. exists (year_of n). split; [apply in_year_iff; reflexivity|lia].
      - intros [y [H1 H2]]. apply in_year_iff in H1. lia. }
    rewrite Y. unfold TUESDAY, THURSDAY, SATURDAY, SUNDAY.
    destruct (Z.eqb_spec (day_of_week a) 1), (Z.eqb_spec (day_of_week a) 3),
      (Z.eqb_spec (day_of_week a) 6), (Z.eqb_spec (day_of_week a) 5); try lia; cbn; intuition lia.
  - unfold sunday_to_tuesday. cbn [observed]. rewrite weekday_dow.
    destruct (Z.eqb_spec (day_of_week a) SUNDAY); lia.
  - unfold sunday_to_wednesday. cbn [observed]. rewrite weekday_dow.
    destruct (Z.eqb_spec (day_of_week a) SUNDAY); lia.
Qed.

(** ** Rules *)

Lemma In_map_fn : forall (f : Z -> Z) dates n,
  In n (map f dates) <-> exists a, In a dates /\ In n (map f [a]).
Proof.
  intros f dates n. rewrite in_map_iff. split.
  - intros [a [<- H]]. exists a. split; [exact H|left; reflexivity].
  - intros [a [H [<-|[]]]]. exists a. tauto.
Qed.
Lemma In_filter_map : forall (p : Z -> bool) (f : Z -> Z) dates n,
  In n (map f (filter p dates)) <-> exists a, In a dates /\ In n (map f (filter p [a])).
Proof.
  intros p f dates n. rewrite in_map_iff. split.
  - intros [a [<- H]]. apply filter_In in H. destruct H as [H P]. exists a. split; [exact H|].
    cbn. rewrite P. left. reflexivity.
  - intros [a [H Hn]]. cbn in Hn. destruct (p a) eqn:P; [|destruct Hn]. destruct Hn as [<-|[]].
    exists a. rewrite filter_In. tauto.
Qed.
Lemma In_filter_id : forall (p : Z -> bool) dates n,
  In n (filter p dates) <-> exists a, In a dates /\ In n (filter p [a]).
Proof.
  intros p dates n. rewrite <- (map_id (filter p dates)).
  rewrite (In_filter_map p (fun x => x)). setoid_rewrite map_id. reflexivity.
Qed.

Lemma In_flat_map_fn : forall (f : Z -> list Z) dates n,
  In n (flat_map f dates) <-> exists a, In a dates /\ In n (flat_map f [a]).
Proof.
  intros f dates n. rewrite in_flat_map. split; intros [a [H1 H2]]; exists a; (split; [exact H1|]);
    cbn [flat_map] in *; rewrite app_nil_r in *; exact H2.
Qed.

Lemma four_day_weekend_dates : forall dates n,
  In n (four_day_weekend dates) <-> exists a, In a dates /\ In n (four_day_weekend [a]).
Proof.
  intros dates n. unfold four_day_weekend. cbv zeta. rewrite !in_app_iff.
  rewrite (In_filter_map (fun d => weekday d =? TUESDAY)), (In_filter_map (fun d => weekday d =? THURSDAY)).
  split.
  - intros [H|[[a [H1 H2]]|[a [H1 H2]]]]; [exists n|exists a..]; (split; [assumption|]);
      rewrite !in_app_iff, ?In_single; tauto.
  - intros [a [H1 H2]]. rewrite !in_app_iff, In_single in H2. destruct H2 as [->|[H2|H2]]; [tauto|..].
    + right. left. exists a. tauto.
    + right. right. exists a. tauto.
Qed.

Lemma cultural_diversity_dates : forall dates n,
  In n (cultural_diversity_observance dates) <->
  exists a, In a dates /\ In n (cultural_diversity_observance [a]).
Proof.
  intros dates n. unfold cultural_diversity_observance. rewrite filter_In, in_map_iff. split.
  - intros [[a [<- H]] P]. exists a. split; [exact H|]. rewrite filter_In. cbn [map]. rewrite In_single.
    split; [reflexivity|exact P].
  - intros [a [H Hn]]. rewrite filter_In in Hn. cbn [map] in Hn. rewrite In_single in Hn.
    destruct Hn as [-> P]. split; [exists a; tauto|exact P].
Qed.

Lemma taiwan_dates : forall dates n,
  In n (taiwan_makeup_rule dates) <-> exists a, In a dates /\ In n (taiwan_makeup_rule [a]).
Proof.
  intros dates n. unfold taiwan_makeup_rule. cbv zeta. rewrite in_app_iff, filter_In, !in_app_iff.
  rewrite (In_filter_map (fun d => weekday d =? TUESDAY)), (In_filter_map (fun d => weekday d =? THURSDAY)),
    (In_filter_map (fun d => weekday d =? SUNDAY)), (In_filter_map (fun d => weekday d =? SATURDAY)).
  split.
  - intros [H|[[[a [H1 H2]]|[[a [H1 H2]]|[[a [H1 H2]]|[a [H1 H2]]]]] H3]]; [exists n|exists a..];
      (split; [assumption|]); rewrite in_app_iff, filter_In, !in_app_iff, ?In_single; tauto.
  - intros [a [H1 H2]]. rewrite in_app_iff, filter_In, !in_app_iff, In_single in H2.
    destruct H2 as [->|[[H2|[H2|[H2|H2]]] H3]]; [tauto|..]; right; (split; [|exact H3]).
    + left. exists a. tauto.
    + right. left. exists a. tauto.
    + right. right. left. exists a. tauto.
    + right. right. right. exists a. tauto.
Qed.

Lemma observance_dates : forall o dates n,
  In n (apply_observance o dates) <-> exists a, In a dates /\ In n (apply_observance o [a]).
Proof.
  intros o dates n. destruct o; unfold apply_observance; try exact (In_map_fn _ dates n).
  - exact (In_flat_map_fn _ dates n).
  - apply four_day_weekend_dates.
  - apply cultural_diversity_dates.
  - unfold not_in_year. exact (In_filter_id _ dates n).
  - unfold weekend_to_monday_except. exact (In_filter_map _ _ dates n).
  - unfold xbkk_new_years_day_observance. exact (In_filter_map _ _ dates n).
  - unfold only_friday. exact (In_filter_id _ dates n).
  - apply taiwan_dates.
Qed.

Lemma offsets_dates : forall os dates n,
  In n (fold_left (fun ds o => map (apply_offset o) ds) os dates) <->
  exists a, In a dates /\ In n (fold_left (fun ds o => map (apply_offset o) ds) os [a]).
Proof.
  induction os as [|o os IH]; intros dates n; cbn [fold_left].
  - split; [intros H; exists n; split; [exact H|left; reflexivity]|intros [a [H [<-|[]]]]; exact H].
  - rewrite IH. split.
    + intros [b [Hb Hn]]. apply in_map_iff in Hb. destruct Hb as [a [<- Ha]]. exists a. tauto.
    + intros [a [Ha Hn]]. exists (apply_offset o a). split; [apply in_map; exact Ha|exact Hn].
Qed.

(** The rule leads from day [a] to day [n]. *)
Definition leads (r : rule) (a n : Z) : Prop :=
  match r_observance r with
  | Some o => observed o a n
  | None => moves_all (r_offset r) a n
  end.

Lemma apply_rule_iff : forall r dates n, valid_rule r = true ->
  (In n (apply_rule r dates) <-> exists a, In a dates /\ leads r a n).
Proof.
  intros r dates n V. unfold valid_rule in V. apply andb_true_iff in V. destruct V as [_ V].
  unfold apply_rule, leads. destruct (r_observance r) as [o|].
  - rewrite observance_dates. setoid_rewrite observance_iff. reflexivity.
  - rewrite offsets_dates. split; intros [a [H1 H2]]; exists a; (split; [exact H1|]);
      apply offsets_iff; assumption.
Qed.

Lemma valid_rule_date : forall r y, valid_rule r = true -> valid_date y (r_month r) (r_day r).
Proof.
  intros r y V. unfold valid_rule in V. rewrite !andb_true_iff in V.
  destruct V as [[[[V1 V2] V3] V4] _]. assert (Hm : 1 <= r_month r <= 12) by lia.
  split; [exact Hm|]. unfold month_length, month_lengths.
  apply month_split in Hm. destruct (leap y);
  destruct Hm as [E|[E|[E|[E|[E|[E|[E|[E|[E|[E|[E|E]]]]]]]]]]]; rewrite E in *; calc; calc_in V4; lia.
Qed.

Definition reference (r : rule) (y : Z) : Z := date_number y (r_month r) (r_day r).

Lemma year_range_In : forall a b y, In y (year_range a b) <-> a <= y <= b.
Proof.
  intros a b y. unfold year_range. rewrite in_map_iff. split.
  - intros [k [<- H]]. apply in_seq in H. lia.
  - intros H. exists (Z.to_nat (y - a)). split; [lia|]. apply in_seq. lia.
Qed.

Definition first_year (r : rule) (start : Z) : Z :=
  year_of (match r_start r with Some s => s | None => day_of start end) - 1.
Definition last_year (r : rule) (stop : Z) : Z :=
  year_of (match r_end r with Some e => e | None => day_of stop end) + 1.

Lemma reference_dates_In : forall r start stop a, valid_rule r = true ->
  (In a (reference_dates r start stop) <->
   exists y, first_year r start <= y <= last_year r stop /\ a = reference r y).
Proof.
  intros r start stop a V. unfold reference_dates, first_year, last_year.
  rewrite in_map_iff. split.
  - intros [y [<- H]]. apply year_range_In in H. exists y. split; [exact H|].
    apply days_from_civil_ok. apply (valid_rule_date r y V).
  - intros [y [H ->]]. exists y. split; [|apply year_range_In; exact H].
    apply days_from_civil_ok. apply (valid_rule_date r y V).
Qed.

(** What pandas computes, without the range, weekday and validity filters. *)
Lemma rule_dates_In : forall r start stop n, valid_rule r = true -> r_year r = None ->
  (In n (rule_dates r start stop) <->
   (exists y, first_year r start <= y <= last_year r stop /\ leads r (reference r y) n) /\
   (forall dow, r_days_of_week r = Some dow -> In (day_of_week n) dow) /\
   (forall s, r_start r = Some s -> s <= n) /\ (forall e, r_end r = Some e -> n <= e) /\
   start <= midnight n <= stop).
Proof.
  intros r start stop n V Y. unfold rule_dates. rewrite Y.
  assert (A : In n (apply_rule r (reference_dates r start stop)) <->
    exists y, first_year r start <= y <= last_year r stop /\ leads r (reference r y) n).
  { rewrite apply_rule_iff by exact V. split.
    - intros [a [Ha H]]. apply reference_dates_In in Ha; [|exact V]. destruct Ha as [y [Hy ->]].
      exists y. tauto.
    - intros [y [Hy H]]. exists (reference r y). split; [|exact H].
      apply reference_dates_In; [exact V|]. exists y. tauto. }
  rewrite filter_In. set (dates := apply_rule r (reference_dates r start stop)) in *.
  assert (B : In n (match r_days_of_week r with
                    | Some dow => filter (fun d => memb (weekday d) dow) dates
                    | None => dates end) <->
              In n dates /\ forall dow, r_days_of_week r = Some dow -> In (day_of_week n) dow).
  { destruct (r_days_of_week r) as [dow|].
    - rewrite filter_In, memb_In. split; [intros [H1 H2]; split; [exact H1|intros ? [= <-]; exact H2]|].
      intros [H1 H2]. split; [exact H1|apply H2; reflexivity].
    - split; [intros H; split; [exact H|discriminate]|tauto]. }
  cbv zeta. rewrite B, A.
  assert (P : 0 < NANOS_PER_DAY) by (unfold NANOS_PER_DAY; lia).
  assert (C : ((match r_start r with Some s => Z.max (midnight s) start | None => start end <=? midnight n) &&
     (midnight n <=? match r_end r with Some e => Z.min (midnight e) stop | None => stop end) = true) <->
     (forall s, r_start r = Some s -> s <= n) /\ (forall e, r_end r = Some e -> n <= e) /\
     start <= midnight n <= stop).
  { rewrite andb_true_iff, !Z.leb_le. unfold midnight.
    generalize NANOS_PER_DAY P. intros D HD. destruct (r_start r) as [s|], (r_end r) as [e|].
    - split.
      + intros [H1 H2]. split; [intros ? [= <-]; nia|]. split; [intros ? [= <-]; nia|lia].
      + intros [H1 [H2 H3]]. specialize (H1 s eq_refl). specialize (H2 e eq_refl). nia.
    - split.
      + intros [H1 H2]. split; [intros ? [= <-]; nia|]. split; [discriminate|lia].
      + intros [H1 [H2 H3]]. specialize (H1 s eq_refl). nia.
    - split.
      + intros [H1 H2]. split; [discriminate|]. split; [intros ? [= <-]; nia|lia].
      + intros [H1 [H2 H3]]. specialize (H2 e eq_refl). nia.
    - split; [|tauto]. intros H. split; [discriminate|]. split; [discriminate|exact H]. }
  rewrite C. tauto.
Qed.
