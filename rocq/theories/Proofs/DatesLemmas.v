(** The date arithmetic of the model is the Gregorian calendar. *)
From Coq Require Import ZArith List Bool Lia.
From Verif.Model Require Import Base Dates.
From Verif.Spec Require Import Civil.
Import ListNotations.
Open Scope Z_scope.

(** ** Finite checks *)

Fixpoint all_from (p : Z -> bool) (n : nat) (z : Z) : bool :=
  match n with O => true | S n => if p z then all_from p n (z + 1) else false end.

Lemma all_from_spec : forall p n z, all_from p n z = true ->
  forall x, z <= x < z + Z.of_nat n -> p x = true.
Proof.
  intros p. induction n as [|n IH]; intros z H x Hx; [lia|]. simpl in H.
  destruct (p z) eqn:E; [|discriminate].
  destruct (Z.eq_dec x z) as [->|Hn]; [exact E|]. apply (IH (z + 1)); [exact H|lia].
Qed.

Lemma all_from_Z : forall p lo hi, all_from p (Z.to_nat (hi - lo)) lo = true ->
  forall x, lo <= x < hi -> p x = true.
Proof. intros p lo hi H x Hx. apply (all_from_spec p _ lo H). lia. Qed.

(** ** Years *)

Lemma year_start_next : forall y, year_start (y + 1) = year_start y + (if leap y then 366 else 365).
Proof.
  intros y. unfold year_start, leap. replace (y + 1 - 1) with y by lia.
  destruct (Z.eqb_spec (y mod 4) 0), (Z.eqb_spec (y mod 100) 0), (Z.eqb_spec (y mod 400) 0);
    cbn [andb orb negb]; Z.div_mod_to_equations; lia.
Qed.

Lemma year_start_mono : forall y y', y < y' -> year_start y + 365 <= year_start y'.
Proof. intros y y' H. unfold year_start. Z.div_mod_to_equations. lia. Qed.

Lemma in_year_unique : forall n y y', in_year n y -> in_year n y' -> y = y'.
Proof.
  intros n y y' [H1 H2] [H3 H4].
  destruct (Z.lt_trichotomy y y') as [H|[H|H]]; [exfalso|exact H|exfalso].
  - destruct (Z.eq_dec (y + 1) y') as [<-|N]; [lia|].
    pose proof (year_start_mono (y + 1) y' ltac:(lia)). lia.
  - destruct (Z.eq_dec (y' + 1) y) as [<-|N]; [lia|].
    pose proof (year_start_mono (y' + 1) y ltac:(lia)). lia.
Qed.

(** ** The 400-year cycle *)

Lemma leap_400 : forall y, leap (y + 400) = leap y.
Proof.
  intros y. unfold leap.
  replace ((y + 400) mod 4) with (y mod 4) by (Z.div_mod_to_equations; lia).
  replace ((y + 400) mod 100) with (y mod 100) by (Z.div_mod_to_equations; lia).
  replace ((y + 400) mod 400) with (y mod 400) by (Z.div_mod_to_equations; lia). reflexivity.
Qed.

Lemma leap_cycle : forall y k, leap (y + 400 * k) = leap y.
Proof.
  intros y k. unfold leap.
  replace ((y + 400 * k) mod 4) with (y mod 4) by (Z.div_mod_to_equations; lia).
  replace ((y + 400 * k) mod 100) with (y mod 100) by (Z.div_mod_to_equations; lia).
  replace ((y + 400 * k) mod 400) with (y mod 400) by (Z.div_mod_to_equations; lia). reflexivity.
Qed.

Lemma year_start_cycle : forall y k, year_start (y + 400 * k) = year_start y + 146097 * k.
Proof. intros y k. unfold year_start. Z.div_mod_to_equations. lia. Qed.

Lemma month_lengths_cycle : forall y k, month_lengths (y + 400 * k) = month_lengths y.
Proof. intros. unfold month_lengths. rewrite leap_cycle. reflexivity. Qed.

Lemma date_number_cycle : forall y m d k,
  date_number (y + 400 * k) m d = date_number y m d + 146097 * k.
Proof.
  intros. unfold date_number, days_before_month. rewrite year_start_cycle, month_lengths_cycle. lia.
Qed.

Lemma valid_date_cycle : forall y m d k, valid_date (y + 400 * k) m d <-> valid_date y m d.
Proof. intros. unfold valid_date, month_length. rewrite month_lengths_cycle. tauto. Qed.

Lemma civil_cycle : forall z k, civil_from_days (z + 146097 * k) =
  let '(y, m, d) := civil_from_days z in (y + 400 * k, m, d).
Proof.
  intros z k. unfold civil_from_days.
  replace (z + 146097 * k + 719468) with (z + 719468 + k * 146097) by lia.
  rewrite Z.div_add, Z.mod_add by lia. cbv zeta. f_equal. f_equal. lia.
Qed.

(** Within one cycle: the year of the era is a monotone function of the day, so
    checking the first and the last day of each year is enough. *)
Definition era_days (doe : Z) : Z := doe - doe / 1460 + doe / 36524 - doe / 146096.
Definition era_start (yoe : Z) : Z := 365 * yoe + yoe / 4 - yoe / 100.

Lemma era_days_step : forall a, 0 <= a -> era_days a <= era_days (a + 1).
Proof.
  intros a H. unfold era_days.
  assert (E1 : a / 1460 <= (a + 1) / 1460 <= a / 1460 + 1) by (Z.div_mod_to_equations; lia).
  assert (E2 : a / 36524 <= (a + 1) / 36524) by (Z.div_mod_to_equations; lia).
  assert (E3 : (a + 1) / 146096 - a / 146096 <= (a + 1) / 36524 - a / 36524)
    by (Z.div_mod_to_equations; lia).
  lia.
Qed.

Lemma era_days_mono : forall a b, 0 <= a <= b -> era_days a <= era_days b.
Proof.
  intros a b H. replace b with (a + Z.of_nat (Z.to_nat (b - a))) by lia.
  induction (Z.to_nat (b - a)) as [|n IH].
  - replace (a + Z.of_nat 0) with a by lia. lia.
  - pose proof (era_days_step (a + Z.of_nat n) ltac:(lia)).
    replace (a + Z.of_nat (S n)) with (a + Z.of_nat n + 1) by lia. lia.
Qed.

Definition era_check (yoe : Z) : bool :=
  (era_days (era_start yoe) / 365 =? yoe) &&
  (era_days ((if yoe =? 399 then 146097 else era_start (yoe + 1)) - 1) / 365 =? yoe).

Lemma era_check_all : all_from era_check (Z.to_nat (400 - 0)) 0 = true.
Proof. vm_cast_no_check (eq_refl true). Qed.

Lemma era_year : forall yoe doe, 0 <= yoe < 400 ->
  era_start yoe <= doe < (if yoe =? 399 then 146097 else era_start (yoe + 1)) ->
  era_days doe / 365 = yoe.
Proof.
  intros yoe doe Hy Hd. pose proof (all_from_Z era_check 0 400 era_check_all yoe Hy) as C.
  unfold era_check in C. apply andb_true_iff in C. destruct C as [C1 C2].
  apply Z.eqb_eq in C1, C2.
  assert (H0 : 0 <= era_start yoe) by (unfold era_start; Z.div_mod_to_equations; lia).
  set (e := (if yoe =? 399 then 146097 else era_start (yoe + 1)) - 1) in *.
  pose proof (era_days_mono (era_start yoe) doe ltac:(lia)) as M1.
  pose proof (era_days_mono doe e ltac:(lia)) as M2.
  apply (Z.div_le_mono _ _ 365) in M1, M2; lia.
Qed.

(** Every day of the cycle belongs to one of its 400 years. *)
Lemma era_year_exists : forall doe, 0 <= doe < 146097 -> exists yoe, 0 <= yoe < 400 /\
  era_start yoe <= doe < (if yoe =? 399 then 146097 else era_start (yoe + 1)).
Proof.
  intros doe H.
  assert (K : forall n : nat, (n < 400)%nat -> era_start (Z.of_nat n) <= doe ->
    exists yoe, 0 <= yoe < 400 /\
      era_start yoe <= doe < (if yoe =? 399 then 146097 else era_start (yoe + 1))).
  { intros n. remember (399 - n)%nat as m eqn:Em. revert n Em.
    induction m as [|m IH]; intros n Em Hn Hs.
    - exists 399. replace (Z.of_nat n) with 399 in Hs by lia. split; [lia|]. simpl Z.eqb. cbv iota. lia.
    - destruct (Z_le_gt_dec (era_start (Z.of_nat (S n))) doe) as [L|L].
      + apply (IH (S n)); [lia|lia|exact L].
      + exists (Z.of_nat n). split; [lia|]. destruct (Z.eqb_spec (Z.of_nat n) 399); [lia|].
        replace (Z.of_nat n + 1) with (Z.of_nat (S n)) by lia. lia. }
  apply (K 0%nat); [lia|]. change (era_start (Z.of_nat 0)) with 0. lia.
Qed.

(** Months, counted from March, of a day of the year counted from March 1st. *)
Definition month_check (doy : Z) : bool :=
  let mp := (5 * doy + 2) / 153 in
  let d := doy - (153 * mp + 2) / 5 + 1 in
  forallb (fun leapy : bool =>
    let m := if mp <? 10 then mp + 3 else mp - 9 in
    let lengths := [31; if leapy then 29 else 28; 31; 30; 31; 30; 31; 31; 30; 31; 30; 31] in
    (365 <=? doy) && negb leapy ||
    (1 <=? m) && (m <=? 12) && (1 <=? d) && (d <=? nth (Z.to_nat (m - 1)) lengths 0) &&
    (fold_right Z.add 0 (firstn (Z.to_nat (m - 1)) lengths) + (d - 1) =?
       (if m <=? 2 then doy - 306 else doy + (if leapy then 60 else 59))))
    [true; false].

Lemma month_check_all : all_from month_check (Z.to_nat (366 - 0)) 0 = true.
Proof. vm_cast_no_check (eq_refl true). Qed.

Lemma leap_days : forall yoe, 0 <= yoe ->
  (if yoe =? 399 then 146097 else era_start (yoe + 1)) - era_start yoe =
  if (yoe =? 399) then 146097 - era_start yoe else if leap (yoe + 1) && negb ((yoe + 1) mod 400 =? 0) then 366 else 365.
Proof.
  intros yoe H. destruct (Z.eqb_spec yoe 399); [reflexivity|]. unfold era_start, leap.
  destruct (Z.eqb_spec ((yoe + 1) mod 4) 0), (Z.eqb_spec ((yoe + 1) mod 100) 0),
    (Z.eqb_spec ((yoe + 1) mod 400) 0); cbn [andb orb negb]; Z.div_mod_to_equations; lia.
Qed.

Lemma civil_cycle_ok : forall doe, 0 <= doe < 146097 ->
  let '(y, m, d) := civil_from_days (doe - 719468) in
  valid_date y m d /\ date_number y m d = doe - 719468.
Proof.
  intros doe H. destruct (era_year_exists doe H) as [yoe [Hy Hd]].
  unfold civil_from_days. replace (doe - 719468 + 719468) with doe by lia.
  rewrite (Z.div_small doe 146097), (Z.mod_small doe 146097) by exact H.
  change (doe - doe / 1460 + doe / 36524 - doe / 146096) with (era_days doe).
  rewrite (era_year yoe doe Hy Hd). cbv zeta.
  change (365 * yoe + yoe / 4 - yoe / 100) with (era_start yoe).
  set (doy := doe - era_start yoe).
  assert (Hl := leap_days yoe ltac:(lia)).
  assert (B : 0 <= doy < 366 /\ (leap (yoe + 1) = false -> doy < 365)).
  { unfold doy. destruct (Z.eqb_spec yoe 399) as [->|N].
    - change (era_start 399) with 145731 in *. split; [lia|]. discriminate.
    - destruct (leap (yoe + 1)); destruct ((yoe + 1) mod 400 =? 0); cbn [andb negb] in Hl; lia. }
  destruct B as [B1 B2].
  pose proof (all_from_Z month_check 0 366 month_check_all doy B1) as C.
  unfold month_check in C. cbv zeta in C.
  set (mp := (5 * doy + 2) / 153) in *. set (d := doy - (153 * mp + 2) / 5 + 1) in *.
  set (m := if mp <? 10 then mp + 3 else mp - 9) in *.
  assert (B3 : 2 < m -> doy < 365).
  { intros Hm. destruct (Z.ltb_spec doy 365); [assumption|exfalso]. assert (doy = 365) by lia.
    unfold m, mp in Hm. replace doy with 365 in Hm by lia. vm_compute in Hm. discriminate. }
  clearbody mp. clearbody d m.
  replace (yoe + 0 * 400) with yoe by lia. unfold valid_date, date_number.
  destruct (Z.leb_spec m 2) as [Lm|Lm].
  - unfold month_length, days_before_month, month_lengths. cbn [forallb] in C.
    rewrite !andb_true_iff in C. destruct C as [CT [CF _]]. rewrite orb_true_iff in CT, CF.
    destruct (leap (yoe + 1)) eqn:El.
    + clear CF. destruct CT as [CT|CT]; [rewrite andb_false_r in CT; discriminate|].
      rewrite !andb_true_iff in CT. split; [lia|]. destruct CT as [_ CT]. apply Z.eqb_eq in CT.
      rewrite <- Z.add_assoc. rewrite CT. unfold doy, year_start, era_start. Z.div_mod_to_equations. lia.
    + clear CT. specialize (B2 eq_refl). destruct CF as [CF|CF]; [exfalso; rewrite andb_true_iff in CF; lia|].
      rewrite !andb_true_iff in CF. split; [lia|]. destruct CF as [_ CF]. apply Z.eqb_eq in CF.
      rewrite <- Z.add_assoc. rewrite CF. unfold doy, year_start, era_start. Z.div_mod_to_equations. lia.
  - replace (yoe + 0) with yoe by lia. cbn [forallb] in C.
    rewrite !andb_true_iff in C. destruct C as [CT [CF _]].
    specialize (B3 ltac:(lia)).
    assert (Hq : 1 <= m <= 12 /\ 1 <= d <= month_length yoe m /\
      days_before_month yoe m + (d - 1) = doy + (if leap yoe then 60 else 59)).
    { unfold month_length, days_before_month, month_lengths. destruct (leap yoe).
      - rewrite orb_true_iff in CT. destruct CT as [CT|CT]; [rewrite andb_false_r in CT; discriminate|].
        rewrite !andb_true_iff in CT. destruct CT as [CT1 CT2]. apply Z.eqb_eq in CT2. lia.
      - rewrite orb_true_iff in CF. destruct CF as [CF|CF]; [exfalso; rewrite andb_true_iff in CF; lia|].
        rewrite !andb_true_iff in CF. destruct CF as [CF1 CF2]. apply Z.eqb_eq in CF2. lia. }
    destruct Hq as [Q1 [Q2 Q3]]. split; [tauto|]. rewrite <- Z.add_assoc, Q3.
    unfold doy, year_start, era_start, leap.
    destruct (Z.eqb_spec (yoe mod 4) 0), (Z.eqb_spec (yoe mod 100) 0), (Z.eqb_spec (yoe mod 400) 0);
      cbn [andb orb negb]; Z.div_mod_to_equations; lia.
Qed.

Lemma civil_from_days_ok : forall z y m d, civil_from_days z = (y, m, d) ->
  valid_date y m d /\ date_number y m d = z.
Proof.
  intros z y m d H.
  pose (k := (z + 719468) / 146097). pose (e := (z + 719468) mod 146097).
  assert (Hz : z = (e - 719468) + 146097 * k)
    by (unfold e, k; pose proof (Z.div_mod (z + 719468) 146097); lia).
  assert (He : 0 <= e < 146097) by (unfold e; apply Z.mod_pos_bound; lia).
  pose proof (civil_cycle_ok e He) as C. rewrite Hz, civil_cycle in H.
  destruct (civil_from_days (e - 719468)) as [[y0 m0] d0]. destruct C as [C1 C2].
  assert (E : y = y0 + 400 * k /\ m = m0 /\ d = d0) by (split; [|split]; congruence).
  destruct E as [-> [-> ->]]. rewrite valid_date_cycle, date_number_cycle. split; [exact C1|].
  rewrite C2. lia.
Qed.

(** ** Uniqueness *)

Lemma month_split : forall m, 1 <= m <= 12 ->
  m = 1 \/ m = 2 \/ m = 3 \/ m = 4 \/ m = 5 \/ m = 6 \/ m = 7 \/ m = 8 \/ m = 9 \/ m = 10 \/ m = 11 \/
  m = 12.
Proof. intros. lia. Qed.

Ltac months H := apply month_split in H;
  destruct H as [H|[H|[H|[H|[H|[H|[H|[H|[H|[H|[H|H]]]]]]]]]]]; subst.

Ltac calc :=
  repeat match goal with |- context [Z.to_nat (?a - 1)] =>
    let v := eval vm_compute in (Z.to_nat (a - 1)) in change (Z.to_nat (a - 1)) with v end;
  cbn [nth firstn fold_right].
Ltac calc_in H :=
  repeat match type of H with context [Z.to_nat (?a - 1)] =>
    let v := eval vm_compute in (Z.to_nat (a - 1)) in change (Z.to_nat (a - 1)) with v in H end;
  cbn [nth firstn fold_right] in H.

Lemma day_in_year : forall y m d, valid_date y m d ->
  0 <= days_before_month y m + (d - 1) < (if leap y then 366 else 365).
Proof.
  intros y m d [Hm Hd]. unfold month_length, days_before_month, month_lengths in *.
  destruct (leap y); months Hm; calc_in Hd; calc; lia.
Qed.

Lemma date_number_year : forall y m d, valid_date y m d -> in_year (date_number y m d) y.
Proof.
  intros y m d H. apply day_in_year in H. unfold in_year. rewrite year_start_next.
  unfold date_number. lia.
Qed.

Lemma month_mono : forall y m m' d d', valid_date y m d -> valid_date y m' d' -> m < m' ->
  days_before_month y m + (d - 1) < days_before_month y m' + (d' - 1).
Proof.
  intros y m m' d d' [Hm Hd] [Hm' Hd'] L.
  unfold month_length, days_before_month, month_lengths in *.
  destruct (leap y); months Hm; months Hm'; try lia; calc_in Hd; calc_in Hd'; calc; lia.
Qed.

Lemma date_number_inj : forall y m d y' m' d', valid_date y m d -> valid_date y' m' d' ->
  date_number y m d = date_number y' m' d' -> y = y' /\ m = m' /\ d = d'.
Proof.
  intros y m d y' m' d' V V' E.
  assert (y = y').
  { apply (in_year_unique (date_number y m d)); [apply date_number_year; exact V|].
    rewrite E. apply date_number_year. exact V'. }
  subst y'. split; [reflexivity|]. unfold date_number in E.
  destruct (Z.lt_trichotomy m m') as [L|[L|L]].
  - pose proof (month_mono y m m' d d' V V' L). lia.
  - subst m'. split; [reflexivity|lia].
  - pose proof (month_mono y m' m d' d V' V L). lia.
Qed.

Lemma civil_of_number : forall y m d, valid_date y m d -> civil_from_days (date_number y m d) = (y, m, d).
Proof.
  intros y m d V. destruct (civil_from_days (date_number y m d)) as [[y' m'] d'] eqn:E.
  apply civil_from_days_ok in E. destruct E as [V' E].
  destruct (date_number_inj _ _ _ _ _ _ V' V E) as [-> [-> ->]]. reflexivity.
Qed.

Lemma year_of_ok : forall n y, year_of n = y <-> in_year n y.
Proof.
  intros n y. unfold year_of. destruct (civil_from_days n) as [[y' m'] d'] eqn:E.
  apply civil_from_days_ok in E. destruct E as [V <-].
  pose proof (date_number_year _ _ _ V) as H. split.
  - intros <-. exact H.
  - intros H'. eapply in_year_unique; eassumption.
Qed.

(** ** From dates to day numbers *)

Lemma days_from_civil_ok : forall y m d, 1 <= m <= 12 -> days_from_civil y m d = date_number y m d.
Proof.
  intros y m d Hm. unfold days_from_civil, date_number, days_before_month, month_lengths, year_start, leap.
  destruct (Z.eqb_spec (y mod 4) 0), (Z.eqb_spec (y mod 100) 0), (Z.eqb_spec (y mod 400) 0);
    months Hm; calc; cbn [Z.leb Z.compare Pos.compare Pos.compare_cont andb orb negb]; Z.div_mod_to_equations; lia.
Qed.
