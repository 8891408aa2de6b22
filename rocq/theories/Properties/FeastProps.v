(** Orthodox Easter, the Hebrew calendar and the holidays of the Tel Aviv exchange
    (Model/Hebrew.v), stated with Spec/Feasts.v. *)
From Coq Require Import ZArith String List Bool Lia.
From Verif.Model Require Import Base Dates Holidays Exchange Hebrew.
From Verif.Spec Require Import Civil Rules Feasts.
From Verif.Proofs Require Import BaseLemmas DatesLemmas RuleLemmas RuleRange FeastLemmas HebrewLemmas.
From Verif.Exchanges Require tase_holidays exchange_calendar_xtae exchange_calendar_asex.
Import ListNotations.
Open Scope Z_scope.
Open Scope list_scope.

(** ** C49: Orthodox Easter, for the years dateutil covers *)

Theorem c49_orthodox_easter : forall y, 1500 <= y <= 4099 -> is_orthodox_easter y (orthodox_easter y).
Proof. exact orthodox_easter_ok. Qed.

(** Witness: Orthodox Easter 2020 and 2021. *)
Example c49_orthodox_ex :
  orthodox_easter 2020 = date_number 2020 4 19 /\ orthodox_easter 2021 = date_number 2021 5 2.
Proof. vm_compute. split; reflexivity. Qed.

(** ** C50: the Hebrew calendar *)

(** Year 1 begins after no months, and each year adds its twelve or thirteen. *)
Theorem c50_months : months_before 1 = 0 /\
  forall y, months_before (y + 1) = months_before y + (if long_year y then 13 else 12).
Proof. split; [reflexivity|apply months_step]. Qed.

(** The new year computed from the new moon. *)
Theorem c50_new_year : forall y, hebrew_date y 7 1 = tishrei_1 y.
Proof. intros y. rewrite hebrew_tishrei. lia. Qed.

(** It is never on a Sunday, Wednesday or Friday. *)
Theorem c50_new_year_weekday : forall y,
  In (day_of_week (hebrew_date y 7 1)) [MONDAY; TUESDAY; THURSDAY; SATURDAY].
Proof.
  intros y. rewrite c50_new_year. pose proof (new_year_weekday y) as W. cbv zeta in W.
  unfold tishrei_1, day_of_week, MONDAY, TUESDAY, THURSDAY, SATURDAY. set (c := new_year_count y) in *.
  assert (E : (-2092590 + (c - 1) + 3) mod 7 = (c mod 7 + 6) mod 7).
  { rewrite Zplus_mod_idemp_l. replace (-2092590 + (c - 1) + 3) with (c + 6 + (-298942) * 7) by lia.
    apply Z_mod_plus_full. }
  rewrite E. assert (R : 0 <= c mod 7 < 7) by (apply Z.mod_pos_bound; lia).
  set (w := c mod 7) in *. clearbody w. clear E c.
  assert (C : w = 1 \/ w = 2 \/ w = 4 \/ w = 6) by lia.
  destruct C as [-> |[-> |[-> | ->]]]; cbn; tauto.
Qed.

(** A year has 353 to 355 days, or 383 to 385 with thirteen months. *)
Theorem c50_year_length : forall y,
  let days := hebrew_date (y + 1) 7 1 - hebrew_date y 7 1 in
  if long_year y then 383 <= days <= 385 else 353 <= days <= 355.
Proof.
  intros y days. unfold days. rewrite !c50_new_year, tishrei_step.
  replace (tishrei_1 y + year_length y - tishrei_1 y) with (year_length y) by lia.
  apply year_length_ok.
Qed.

(** The months from Passover on lead to the new year. *)
Theorem c50_spring : forall y,
  hebrew_date y 1 15 = nisan_15 y /\ hebrew_date y 2 4 = iyar_4 y /\
  hebrew_date y 3 6 = sivan_6 y /\ hebrew_date y 5 9 = av_9 y /\
  hebrew_date y (if long_year y then 13 else 12) 14 = purim_day y.
Proof.
  intros y. rewrite hebrew_nisan, <- long_year_leap.
  destruct (hebrew_months y) as [M1 [M2 [M3 M4]]].
  split; [lia|]. split; [exact M1|]. split; [exact M2|]. split; [exact M3|exact M4].
Qed.

(** January 1st of the Gregorian year [x] is in the Hebrew year [x + 3760], for all
    the years of [datetime] but the first. *)
Theorem c50_hebrew_year : forall x, 2 <= x <= 9999 ->
  hebrew_year x = x + 3760 /\ tishrei_1 (x + 3760) <= date_number x 1 1 < tishrei_1 (x + 3760 + 1).
Proof.
  intros x Hx. split; [apply hebrew_year_ok; exact Hx|].
  pose proof (tishrei_range x ltac:(lia)) as T. pose proof (tishrei_range (x - 1) ltac:(lia)) as T'.
  pose proof (year_start_bounds (x - 1)) as Y. replace (x - 1 + 1) with x in Y by lia.
  replace (x - 1 + 3761) with (x + 3760) in T' by lia. replace (x + 3760 + 1) with (x + 3761) by lia.
  assert (E : date_number x 1 1 = year_start x)
    by (unfold date_number; change (days_before_month x 1) with 0; lia).
  lia.
Qed.

(** The source says that any Gregorian year overlaps two consecutive Hebrew years.
    The two calendars drift apart: in the far future a Hebrew year contains a whole
    Gregorian year. *)
Theorem c50_any_year_refuted : exists x h, 0 < x /\
  tishrei_1 h <= date_number x 1 1 /\ date_number (x + 1) 1 1 < tishrei_1 (h + 1).
Proof.
  exists 22335, 26095. split; [lia|].
  split; [apply Z.leb_le|apply Z.ltb_lt]; vm_compute; reflexivity.
Qed.

(** The regular holidays of the Tel Aviv exchange, in every range between the years
    3 and 9997. *)
Theorem c50_tel_aviv : forall start stop x,
  3 <= year_of (day_of start) -> year_of (day_of stop) <= 9997 ->
  (In x (calendar_holidays (ex_regular_holidays exchange_calendar_xtae.calendar) start stop) <->
   start <= x <= stop /\ exists y n, 2 <= y <= 9998 /\ tel_aviv_holiday y n /\ x = n * 86400000000000).
Proof.
  intros start stop x Hs Ht.
  destruct feasts_inside as [F1 [F2 [F3 [F4 [F5 [F6 [F7 [F8 F9]]]]]]]].
  assert (D0 : forall f n, inside f -> (In n (rule_dates (feast f []) start stop) <->
    start <= midnight n <= stop /\ exists y, 2 <= y <= 9998 /\ n = f y + 0)).
  { intros f n F. apply feast_dates; [exact F|exact shifted_0|lia|exact Hs|exact Ht]. }
  assert (Dk : forall f k n, inside f -> -10 <= k <= 8 -> (In n (rule_dates (feast f [Day k]) start stop) <->
    start <= midnight n <= stop /\ exists y, 2 <= y <= 9998 /\ n = f y + k)).
  { intros f k n F K. apply feast_dates; [exact F|apply shifted_day|exact K|exact Hs|exact Ht]. }
  rewrite calendar_holidays_In.
  split.
  - intros [Hr [r [n [Hin [Hn ->]]]]]. split; [exact Hr|].
    assert (T : exists y, 2 <= y <= 9998 /\ tel_aviv_holiday y n).
    { change (ex_regular_holidays exchange_calendar_xtae.calendar) with
        [feast purim []; feast passover [Day (-1)]; feast passover []; feast passover [Day 5];
         feast passover [Day 6]; feast memorial_day []; feast memorial_day [Day 1];
         feast pentecost [Day (-1)]; feast pentecost []; feast fast_day [];
         feast new_year [Day (-1)]; feast new_year []; feast new_year [Day 1];
         feast yom_kippur [Day (-1)]; feast yom_kippur []; feast sukkoth [Day (-1)]; feast sukkoth [];
         feast simchat_torah [Day (-1)]; feast simchat_torah []] in Hin.
      unfold tel_aviv_holiday. cbv zeta.
      repeat (destruct Hin as [<- |Hin]); [..|destruct Hin];
        match type of Hn with
        | In _ (rule_dates (feast ?f []) _ _) =>
            match goal with F : inside f |- _ => apply (proj1 (D0 f n F)) in Hn end
        | In _ (rule_dates (feast ?f [Day ?k]) _ _) =>
            match goal with F : inside f |- _ => apply (proj1 (Dk f k n F ltac:(lia))) in Hn end
        end;
        destruct Hn as [_ [y [Hy ->]]]; exists y; (split; [exact Hy|]);
        pose proof (autumn_eq y Hy) as A; cbv zeta in A; destruct A as [A1 [A2 [A3 A4]]];
        rewrite ?purim_eq, ?passover_eq, ?pentecost_eq, ?A1, ?A2, ?A3, ?A4 by exact Hy.
      all: try (left; lia).
      all: try (right; left; cbn [In]; lia).
      all: try (right; right; right; left; cbn [In]; lia).
      all: try (right; right; right; right; right; cbn [In]; lia).
      + right; right; left. exists (memorial_day y). split; [apply memorial_eq; exact Hy|left; lia].
      + right; right; left. exists (memorial_day y). split; [apply memorial_eq; exact Hy|right; lia].
      + right; right; right; right; left. rewrite Z.add_0_r. apply fast_eq. exact Hy. }
    destruct T as [y [Hy T]]. exists y, n. split; [exact Hy|]. split; [exact T|reflexivity].
  - intros [Hr [y [n [Hy [T ->]]]]]. change (n * 86400000000000) with (midnight n) in *. split; [exact Hr|].
    pose proof (autumn_eq y Hy) as A; cbv zeta in A; destruct A as [A1 [A2 [A3 A4]]].
    pose proof (purim_eq y Hy) as P1. pose proof (passover_eq y Hy) as P2. pose proof (pentecost_eq y Hy) as P3.
    assert (K0 : forall f, inside f -> n = f y -> In (feast f []) (ex_regular_holidays exchange_calendar_xtae.calendar) ->
      exists r n0, In r (ex_regular_holidays exchange_calendar_xtae.calendar) /\
        In n0 (rule_dates r start stop) /\ midnight n = midnight n0).
    { intros f F E I. exists (feast f []), n. split; [exact I|]. split; [|reflexivity].
      apply D0; [exact F|]. split; [exact Hr|]. exists y. split; [exact Hy|lia]. }
    assert (Kk : forall f k, inside f -> -10 <= k <= 8 -> n = f y + k ->
      In (feast f [Day k]) (ex_regular_holidays exchange_calendar_xtae.calendar) ->
      exists r n0, In r (ex_regular_holidays exchange_calendar_xtae.calendar) /\
        In n0 (rule_dates r start stop) /\ midnight n = midnight n0).
    { intros f k F K E I. exists (feast f [Day k]), n. split; [exact I|]. split; [|reflexivity].
      apply Dk; [exact F|exact K|]. split; [exact Hr|]. exists y. split; [exact Hy|lia]. }
    assert (I : forall i r, nth_error (ex_regular_holidays exchange_calendar_xtae.calendar) i = Some r ->
      In r (ex_regular_holidays exchange_calendar_xtae.calendar)) by (intros; eapply nth_error_In; eassumption).
    unfold tel_aviv_holiday in T. cbv zeta in T. rewrite <- P1, <- P2, <- P3 in T.
    destruct T as [E|[E|[[d [E E']]|[E|[E|E]]]]].
    + apply (K0 purim F1 E). apply (I 0%nat). reflexivity.
    + destruct E as [E|[E|[E|[E|[]]]]].
      * apply (Kk passover (-1) F2); [lia|lia|apply (I 1%nat); reflexivity].
      * apply (K0 passover F2); [lia|apply (I 2%nat); reflexivity].
      * apply (Kk passover 5 F2); [lia|lia|apply (I 3%nat); reflexivity].
      * apply (Kk passover 6 F2); [lia|lia|apply (I 4%nat); reflexivity].
    + apply memorial_ok in E. pose proof (memorial_eq y Hy) as E2. apply memorial_ok in E2.
      rewrite <- E2 in E. subst d. destruct E' as [E'|E'].
      * apply (K0 memorial_day F4); [lia|apply (I 5%nat); reflexivity].
      * apply (Kk memorial_day 1 F4); [lia|lia|apply (I 6%nat); reflexivity].
    + destruct E as [E|[E|[]]].
      * apply (Kk pentecost (-1) F3); [lia|lia|apply (I 7%nat); reflexivity].
      * apply (K0 pentecost F3); [lia|apply (I 8%nat); reflexivity].
    + apply fast_ok in E. pose proof (fast_eq y Hy) as E2. apply fast_ok in E2.
      rewrite <- E2 in E. apply (K0 fast_day F5 E). apply (I 9%nat). reflexivity.
    + destruct E as [E|[E|[E|[E|[E|[E|[E|[E|[E|[]]]]]]]]]].
      * apply (Kk new_year (-1) F6); [lia|lia|apply (I 10%nat); reflexivity].
      * apply (K0 new_year F6); [lia|apply (I 11%nat); reflexivity].
      * apply (Kk new_year 1 F6); [lia|lia|apply (I 12%nat); reflexivity].
      * apply (Kk yom_kippur (-1) F7); [lia|lia|apply (I 13%nat); reflexivity].
      * apply (K0 yom_kippur F7); [lia|apply (I 14%nat); reflexivity].
      * apply (Kk sukkoth (-1) F8); [lia|lia|apply (I 15%nat); reflexivity].
      * apply (K0 sukkoth F8); [lia|apply (I 16%nat); reflexivity].
      * apply (Kk simchat_torah (-1) F9); [lia|lia|apply (I 17%nat); reflexivity].
      * apply (K0 simchat_torah F9); [lia|apply (I 18%nat); reflexivity].
Qed.

(** Neither Memorial Day nor Independence Day, the day after, is on a Friday or
    Saturday, and the fast is never on a Saturday. *)
Theorem c50_sabbath : forall y, 2 <= y <= 9998 ->
  In (day_of_week (memorial_day y)) [SUNDAY; TUESDAY; WEDNESDAY] /\
  In (day_of_week (memorial_day y + 1)) [MONDAY; WEDNESDAY; THURSDAY] /\
  day_of_week (fast_day y) <> SATURDAY.
Proof.
  intros y Hy. pose proof (c50_new_year_weekday (y + 3760 + 1)) as W. rewrite c50_new_year in W.
  pose proof (memorial_eq y Hy) as M. pose proof (fast_eq y Hy) as F.
  unfold iyar_4, av_9, nisan_15 in *. set (t := tishrei_1 (y + 3760 + 1)) in *.
  set (n := memorial_day y) in *. set (f := fast_day y) in *. clearbody t n f.
  split; [|split; [|apply F]];
    (apply memorial_ok in M; rewrite hebrew_weekday_eq in M; unfold day_of_week, SUNDAY, MONDAY, TUESDAY, WEDNESDAY,
       THURSDAY, SATURDAY in *;
     repeat match type of M with context [?a =? ?b] => destruct (Z.eqb_spec a b) end;
     subst n; cbn [In] in W |- *; Z.div_mod_to_equations; lia).
Qed.

(** The source also moves a Memorial Day that falls on a Saturday: it never does. *)
Theorem c50_memorial_never_saturday : forall y, day_of_week (hebrew_date y 2 4) <> SATURDAY.
Proof.
  intros y. pose proof (c50_new_year_weekday (y + 1)) as W. rewrite c50_new_year in W.
  rewrite (proj1 (hebrew_months y)). unfold iyar_4, nisan_15. set (t := tishrei_1 (y + 1)) in *. clearbody t.
  unfold day_of_week, SATURDAY, MONDAY, TUESDAY, THURSDAY in *. cbn [In] in W. Z.div_mod_to_equations. lia.
Qed.

(** Witness: 2020, and the regular holidays of Tel Aviv in that year. *)
Example c50_ex :
  purim 2020 = date_number 2020 3 10 /\ passover 2020 = date_number 2020 4 9 /\
  memorial_day 2020 = date_number 2020 4 28 /\ pentecost 2020 = date_number 2020 5 29 /\
  fast_day 2020 = date_number 2020 7 30 /\ new_year 2020 = date_number 2020 9 19 /\
  yom_kippur 2020 = date_number 2020 9 28 /\ simchat_torah 2020 = date_number 2020 10 10 /\
  List.length (calendar_holidays (ex_regular_holidays exchange_calendar_xtae.calendar)
    (midnight (days_from_civil 2020 1 1)) (midnight (days_from_civil 2020 12 31))) = 19%nat.
Proof. vm_compute. repeat split. Qed.

(** ** Assumptions *)
Print Assumptions c49_orthodox_easter.
Print Assumptions c50_months.
Print Assumptions c50_new_year.
Print Assumptions c50_new_year_weekday.
Print Assumptions c50_year_length.
Print Assumptions c50_spring.
Print Assumptions c50_hebrew_year.
Print Assumptions c50_any_year_refuted.
Print Assumptions c50_tel_aviv.
Print Assumptions c50_sabbath.
Print Assumptions c50_memorial_never_saturday.
