(** The Hebrew dates: months and holidays, and the Gregorian years they fall in. *)
From Coq Require Import ZArith List Bool Lia.
From Verif.Model Require Import Base Dates Holidays Hebrew.
From Verif.Spec Require Import Civil Rules Feasts.
From Verif.Proofs Require Import DatesLemmas RuleLemmas RuleRange FeastLemmas.
Import ListNotations.
Open Scope Z_scope.

Lemma days_in_year_ok : forall y, days_in_hebrew_year y = year_length y.
Proof. intros y. unfold days_in_hebrew_year, year_length. rewrite !elapsed_days_ok. reflexivity. Qed.

(** The months before Nisan, and the whole year, have the right number of days. *)
Lemma days_before_nisan : forall y,
  days_before_in y 1 (months_of_hebrew_year y) = year_length y - 177.
Proof.
  intros y. pose proof (year_length_ok y) as L. unfold months_of_hebrew_year.
  rewrite long_year_leap. destruct (long_year y) eqn:E; cbn [app days_before_in Z.eqb Pos.eqb];
    unfold hebrew_month_length; cbn [memb existsb Z.eqb Pos.eqb orb];
    rewrite ?days_in_year_ok, ?long_year_leap, ?E; set (l := year_length y) in *; clearbody l;
    destruct (Z.eqb_spec (l mod 10) 5), (Z.eqb_spec (l mod 10) 3); Z.div_mod_to_equations; lia.
Qed.

Lemma tishrei_step : forall y, tishrei_1 (y + 1) = tishrei_1 y + year_length y.
Proof. intros y. unfold tishrei_1, year_length. lia. Qed.

Lemma hebrew_tishrei : forall y d, hebrew_date y 7 d = tishrei_1 y + d - 1.
Proof. intros y d. unfold hebrew_date. rewrite first_of_tishrei_ok. unfold months_of_hebrew_year.
  cbn [app days_before_in Z.eqb Pos.eqb]. lia. Qed.

Lemma hebrew_nisan : forall y d, hebrew_date y 1 d = nisan_15 y + d - 15.
Proof.
  intros y d. unfold hebrew_date, nisan_15. rewrite first_of_tishrei_ok, days_before_nisan, tishrei_step. lia.
Qed.

Lemma spring_months : forall y, hebrew_month_length y 1 = 30 /\ hebrew_month_length y 2 = 29 /\
  hebrew_month_length y 3 = 30 /\ hebrew_month_length y 4 = 29 /\ hebrew_month_length y 13 = 29.
Proof. repeat split. Qed.

Fixpoint before (f : Z -> Z) (m : Z) (months : list Z) : Z :=
  match months with
  | [] => 0
  | m' :: rest => if m' =? m then 0 else f m' + before f m rest
  end.
Lemma days_before_eq : forall y m months, days_before_in y m months = before (hebrew_month_length y) m months.
Proof. intros y m months. induction months as [|a l IH]; [reflexivity|]. cbn. rewrite IH. reflexivity. Qed.

Lemma before_after : forall (f : Z -> Z) (b : bool), f 1 = 30 -> f 2 = 29 -> f 3 = 30 -> f 4 = 29 ->
  let months := [7; 8; 9; 10; 11; 12] ++ (if b then [13] else []) ++ [1; 2; 3; 4; 5; 6] in
  before f 2 months = before f 1 months + 30 /\ before f 3 months = before f 1 months + 59 /\
  before f 5 months = before f 1 months + 118 /\
  before f (if b then 13 else 12) months = before f 1 months - (if b then f 13 else f 12).
Proof.
  intros f b E1 E2 E3 E4. destruct b; cbn [app before Z.eqb Pos.eqb]; cbv zeta;
    cbn [app before Z.eqb Pos.eqb]; rewrite E1, E2, E3, E4; repeat split; ring.
Qed.

Lemma hebrew_months : forall y,
  hebrew_date y 2 4 = iyar_4 y /\ hebrew_date y 3 6 = sivan_6 y /\ hebrew_date y 5 9 = av_9 y /\
  hebrew_date y (if hebrew_leap y then 13 else 12) 14 = purim_day y.
Proof.
  intros y. pose proof (hebrew_nisan y 15) as N. unfold iyar_4, sivan_6, av_9, purim_day, hebrew_date in *.
  destruct (spring_months y) as [E1 [E2 [E3 [E4 E13]]]].
  assert (E12 : hebrew_leap y = false -> hebrew_month_length y 12 = 29)
    by (intros L; unfold hebrew_month_length; rewrite L; reflexivity).
  rewrite !days_before_eq in *. unfold months_of_hebrew_year in *.
  destruct (before_after (hebrew_month_length y) (hebrew_leap y) E1 E2 E3 E4) as [B2 [B3 [B5 B12]]].
  rewrite B2, B3, B5, B12.
  assert (L : (if hebrew_leap y then hebrew_month_length y 13 else hebrew_month_length y 12) = 29)
    by (destruct (hebrew_leap y); auto). rewrite L.
  set (a := before _ 1 _) in *. set (b := first_of_tishrei y) in *. set (c := nisan_15 y) in *.
  clearbody a b c. clear - N. lia.
Qed.

(** ** Gregorian and Hebrew years *)

Lemma new_year_count_bounds : forall y, moon_day y <= new_year_count y <= moon_day y + 2.
Proof.
  intros y. unfold new_year_count. cbv zeta. destruct (postponed y), (_ || _); lia.
Qed.

Lemma tishrei_range : forall x, 1 <= x <= 10000 ->
  year_start x + 225 <= tishrei_1 (x + 3761) <= year_start x + 335.
Proof.
  intros x Hx. pose proof (new_year_count_bounds (x + 3761)) as B.
  unfold tishrei_1. unfold moon_day, new_moon, months_before, parts_per_day in B.
  unfold year_start. Z.div_mod_to_equations. lia.
Qed.

Lemma year_start_bounds : forall x, year_start x + 365 <= year_start (x + 1) <= year_start x + 366.
Proof. intros x. rewrite year_start_next. destruct (leap x); lia. Qed.

Lemma hebrew_year_ok : forall x, 2 <= x <= 9999 -> hebrew_year x = x + 3760.
Proof.
  intros x Hx. unfold hebrew_year, to_heb_year. rewrite days_from_civil_ok by lia.
  assert (V : valid_date x 1 1) by (split; [lia|]; change (month_length x 1) with 31; lia).
  rewrite (proj2 (year_of_ok _ x) (date_number_year _ _ _ V)).
  assert (E : date_number x 1 1 = year_start x) by (unfold date_number; change (days_before_month x 1) with 0; lia).
  rewrite E, !first_of_tishrei_ok.
  pose proof (tishrei_range x ltac:(lia)) as T. pose proof (tishrei_range (x - 1) ltac:(lia)) as T'.
  pose proof (year_start_bounds (x - 1)) as Y. replace (x - 1 + 1) with x in Y by lia.
  replace (x - 1 + 3761) with (x + 3760) in T' by lia. replace (x + 3760 + 1) with (x + 3761) by lia.
  destruct (Z.ltb_spec (year_start x) (tishrei_1 (x + 3760))); [lia|].
  destruct (Z.ltb_spec (year_start x) (tishrei_1 (x + 3761))); lia.
Qed.

(** ** The Tel Aviv exchange *)

(** [f y] falls in year [y], away from its ends, for the years of [datetime]. *)
Definition inside (f : Z -> Z) : Prop :=
  forall y, 2 <= y <= 9998 -> year_start y + 10 <= f y <= year_start y + 356.

Lemma tishrei_inside : forall y, 2 <= y <= 9998 ->
  year_start y + 225 <= tishrei_1 (y + 3760 + 1) <= year_start y + 335.
Proof.
  intros y Hy. replace (y + 3760 + 1) with (y + 3761) by lia. apply tishrei_range. lia.
Qed.

Lemma hebrew_weekday_eq : forall d, hebrew_weekday d = (day_of_week d + 1) mod 7 + 1.
Proof. intros d. unfold hebrew_weekday. rewrite weekday_dow. reflexivity. Qed.

Lemma memorial_ok : forall d n,
  n = (if hebrew_weekday d =? 5 then d - 1 else if hebrew_weekday d =? 6 then d - 2
       else if hebrew_weekday d =? 7 then d + 1 else d) <-> memorial_moved d n.
Proof.
  intros d n. rewrite hebrew_weekday_eq. unfold memorial_moved. pose proof (dow_range d) as R.
  destruct (Z.eqb_spec ((day_of_week d + 1) mod 7 + 1) 5) as [E5|E5];
    destruct (Z.eqb_spec ((day_of_week d + 1) mod 7 + 1) 6) as [E6|E6];
    destruct (Z.eqb_spec ((day_of_week d + 1) mod 7 + 1) 7) as [E7|E7];
    destruct (Z.eqb_spec (day_of_week d) THURSDAY) as [A|A];
    destruct (Z.eqb_spec (day_of_week d) FRIDAY) as [B|B]; cbn [orb];
    try (exfalso; unfold THURSDAY, FRIDAY in *; Z.div_mod_to_equations; lia).
  1,2: apply last_until_iff; split; [lia|]; split; [dows|]; intros m Hm E; dow; Z.div_mod_to_equations; lia.
  all: apply first_from_iff; split; [lia|]; split; [dows|]; intros m Hm E; dow; Z.div_mod_to_equations; lia.
Qed.

Lemma fast_ok : forall d n,
  n = (if hebrew_weekday d =? 7 then d + 1 else d) <-> fast_moved d n.
Proof.
  intros d n. rewrite hebrew_weekday_eq. unfold fast_moved. pose proof (dow_range d) as R.
  destruct (Z.eqb_spec ((day_of_week d + 1) mod 7 + 1) 7) as [E7|E7];
    apply first_from_iff; split; [lia| |lia|]; (split; [dows|]); intros m Hm E; dow; Z.div_mod_to_equations; lia.
Qed.

Lemma purim_eq : forall y, 2 <= y <= 9998 -> purim y = purim_day (y + 3760).
Proof. intros y H. unfold purim. rewrite hebrew_year_ok by lia. exact (proj2 (proj2 (proj2 (hebrew_months _)))). Qed.
Lemma passover_eq : forall y, 2 <= y <= 9998 -> passover y = nisan_15 (y + 3760).
Proof. intros y H. unfold passover. rewrite hebrew_year_ok by lia. rewrite hebrew_nisan. lia. Qed.
Lemma pentecost_eq : forall y, 2 <= y <= 9998 -> pentecost y = sivan_6 (y + 3760).
Proof. intros y H. unfold pentecost. rewrite hebrew_year_ok by lia. exact (proj1 (proj2 (hebrew_months _))). Qed.
Lemma memorial_eq : forall y, 2 <= y <= 9998 -> memorial_moved (iyar_4 (y + 3760)) (memorial_day y).
Proof.
  intros y H. unfold memorial_day. rewrite hebrew_year_ok by lia.
  rewrite (proj1 (hebrew_months (y + 3760))). apply memorial_ok. reflexivity.
Qed.
Lemma fast_eq : forall y, 2 <= y <= 9998 -> fast_moved (av_9 (y + 3760)) (fast_day y).
Proof.
  intros y H. unfold fast_day. rewrite hebrew_year_ok by lia.
  rewrite (proj1 (proj2 (proj2 (hebrew_months (y + 3760))))). apply fast_ok. reflexivity.
Qed.
Lemma autumn_eq : forall y, 2 <= y <= 9998 -> let t := tishrei_1 (y + 3760 + 1) in
  new_year y = t /\ yom_kippur y = t + 9 /\ sukkoth y = t + 14 /\ simchat_torah y = t + 21.
Proof.
  intros y H t. unfold new_year, yom_kippur, sukkoth, simchat_torah. rewrite hebrew_year_ok by lia.
  rewrite !hebrew_tishrei. replace (y + 1 + 3760) with (y + 3760 + 1) by lia. fold t. lia.
Qed.

Lemma feasts_inside : inside purim /\ inside passover /\ inside pentecost /\ inside memorial_day /\
  inside fast_day /\ inside new_year /\ inside yom_kippur /\ inside sukkoth /\ inside simchat_torah.
Proof.
  assert (M : forall d n, memorial_moved d n -> d - 2 <= n <= d + 1).
  { intros d n H. apply memorial_ok in H. subst n. repeat destruct (_ =? _); lia. }
  assert (F : forall d n, fast_moved d n -> d <= n <= d + 1).
  { intros d n H. apply fast_ok in H. subst n. destruct (_ =? _); lia. }
  repeat split; pose proof (tishrei_inside y H) as T; pose proof (autumn_eq y H) as A; cbv zeta in A;
    rewrite ?purim_eq, ?passover_eq, ?pentecost_eq by exact H;
    pose proof (M _ _ (memorial_eq y H)); pose proof (F _ _ (fast_eq y H));
    unfold purim_day, sivan_6, iyar_4, av_9, nisan_15 in *; lia.
Qed.

Lemma yearly_date : forall f y, inside f -> 2 <= y <= 9998 -> apply_yearly f (date_number y 1 1) = f y.
Proof.
  intros f y F H. unfold apply_yearly.
  assert (V : valid_date y 1 1) by (split; [lia|]; change (month_length y 1) with 31; lia).
  rewrite (proj2 (year_of_ok _ y) (date_number_year _ _ _ V)).
  assert (E : date_number y 1 1 = year_start y) by (unfold date_number; change (days_before_month y 1) with 0; lia).
  rewrite E. specialize (F y H). destruct (Z.ltb_spec (year_start y) (f y)); lia.
Qed.

Definition feast (f : Z -> Z) (ds : list offset) : rule := Holiday 1 1 (Yearly f :: ds) None None None None.

Definition shifted (ds : list offset) (k : Z) : Prop :=
  forall a, fold_left (fun d o => apply_offset o d) ds a = a + k.

Lemma apply_chain : forall os dates,
  fold_left (fun ds o => map (apply_offset o) ds) os dates =
  map (fun a => fold_left (fun d o => apply_offset o d) os a) dates.
Proof.
  induction os as [|o os IH]; intros dates; cbn [fold_left]; [symmetry; apply map_id|].
  rewrite IH, map_map. reflexivity.
Qed.

Lemma feast_dates : forall f ds k start stop n, inside f -> shifted ds k -> -10 <= k <= 8 ->
  3 <= year_of (day_of start) -> year_of (day_of stop) <= 9997 ->
  (In n (rule_dates (feast f ds) start stop) <->
   start <= midnight n <= stop /\ exists y, 2 <= y <= 9998 /\ n = f y + k).
Proof.
  intros f ds k start stop n F S K Hs Ht. unfold rule_dates, feast, Holiday.
  cbn [r_year r_days_of_week r_start r_end]. cbv zeta.
  rewrite filter_In, andb_true_iff, !Z.leb_le. unfold apply_rule. cbn [r_observance r_offset].
  rewrite apply_chain. unfold reference_dates. cbn [r_start r_end r_month r_day].
  rewrite map_map, in_map_iff. cbn [fold_left].
  assert (G : forall y, 2 <= y <= 9998 ->
    fold_left (fun d o => apply_offset o d) ds (apply_offset (Yearly f) (days_from_civil y 1 1)) = f y + k).
  { intros y Hy. rewrite S, days_from_civil_ok by lia. cbn [apply_offset]. rewrite yearly_date by assumption.
    reflexivity. }
  split.
  - intros [[y [<- H]] Hr]. split; [lia|]. apply year_range_In in H.
    destruct (Z_lt_ge_dec (year_of (day_of stop)) (year_of (day_of start))) as [L|L].
    + exfalso. pose proof (year_of_mono (day_of start) (day_of stop)) as M.
      assert (day_of start <= day_of stop) by (unfold day_of; apply Z.div_le_mono; [reflexivity|lia]). lia.
    + exists y. split; [lia|]. apply G. lia.
  - intros [Hr [y [Hy ->]]]. split; [|lia]. exists y. split; [apply G; exact Hy|].
    apply year_range_In. specialize (F y Hy).
    pose proof (year_start_bounds y).
    assert (I : in_year (f y + k) y) by (split; lia). apply year_of_ok in I.
    pose proof (year_of_mono _ _ (day_of_midnight' (f y + k) start ltac:(lia))).
    pose proof (year_of_mono _ _ (day_of_midnight (f y + k) stop ltac:(lia))). lia.
Qed.

Lemma shifted_0 : shifted [] 0. Proof. intros a. cbn. lia. Qed.
Lemma shifted_day : forall k, shifted [Day k] k. Proof. intros k a. reflexivity. Qed.
