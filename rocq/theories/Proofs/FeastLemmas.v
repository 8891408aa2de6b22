(** Orthodox Easter and the Hebrew dates: the model computes the dates of
    Spec/Feasts.v. *)
From Coq Require Import ZArith List Bool Lia.
From Verif.Model Require Import Base Dates Holidays Hebrew.
From Verif.Spec Require Import Civil Rules Feasts.
From Verif.Proofs Require Import DatesLemmas RuleLemmas.
Import ListNotations.
Open Scope Z_scope.

(** ** Orthodox Easter *)

Lemma march_may : forall y p, -6 <= p <= 63 ->
  days_from_civil y (3 + (p + 26) / 30) (1 + (p + 27 + (p + 6) / 40) mod 31) = date_number y 3 28 + p.
Proof.
  intros y p Hp. destruct (Z.le_gt_cases p 28) as [L|L]; [apply march_april; lia|].
  pose proof (month_next y 3 ltac:(lia)) as N. change (next_month y 3) with (y, 4) in N.
  destruct N as [_ N]. change (month_length y 3) with 31 in N.
  pose proof (month_next y 4 ltac:(lia)) as N'. change (next_month y 4) with (y, 5) in N'.
  destruct N' as [_ N']. change (month_length y 4) with 30 in N'.
  destruct (Z.le_gt_cases p 33) as [L2|L2].
  - assert (E0 : (p + 6) / 40 = 0) by (Z.div_mod_to_equations; lia). rewrite E0.
    assert (E1 : (p + 26) / 30 = 1) by (Z.div_mod_to_equations; lia).
    assert (E2 : (p + 27 + 0) mod 31 = p - 4) by (Z.div_mod_to_equations; lia).
    rewrite E1, E2. rewrite days_from_civil_ok by lia. change (3 + 1) with 4.
    rewrite (date_number_first y 3 28), (date_number_first y 4), N. lia.
  - assert (E0 : (p + 6) / 40 = 1) by (Z.div_mod_to_equations; lia). rewrite E0.
    assert (E1 : (p + 26) / 30 = 2) by (Z.div_mod_to_equations; lia).
    assert (E2 : (p + 27 + 1) mod 31 = p - 34) by (Z.div_mod_to_equations; lia).
    rewrite E1, E2. rewrite days_from_civil_ok by lia. change (3 + 2) with 5.
    rewrite (date_number_first y 3 28), (date_number_first y 5), N', N. lia.
Qed.

Lemma julian_gregorian : forall y, 1500 <= y ->
  julian_march_21 y = date_number y 3 21 + (if 1600 <? y then 10 + y / 100 - 16 - (y / 100 - 16) / 4 else 10).
Proof.
  intros y H. rewrite march_21. unfold julian_march_21.
  destruct (Z.eqb_spec (y mod 4) 0), (Z.ltb_spec 1600 y); Z.div_mod_to_equations; lia.
Qed.

Lemma orthodox_easter_ok : forall y, 1500 <= y <= 4099 -> is_orthodox_easter y (orthodox_easter y).
Proof.
  intros y Hy. unfold is_orthodox_easter, julian_full_moon, orthodox_easter. cbv zeta.
  rewrite julian_gregorian by lia.
  set (e := if 1600 <? y then _ else _).
  assert (He : 10 <= e <= 33)
    by (unfold e; destruct (Z.ltb_spec 1600 y); Z.div_mod_to_equations; lia).
  pose proof (julian_gregorian y ltac:(lia)) as J. fold e in J.
  set (g := y mod 19). set (i := (19 * g + 15) mod 30).
  assert (I : (if julian_epact y <? 24 then 23 - julian_epact y else 53 - julian_epact y) = i).
  { unfold julian_epact, golden. fold g. set (ep := (_ mod 30)).
    assert (S : (i + ep) mod 30 = 23).
    { unfold i, ep. rewrite <- Zplus_mod.
      replace (_ + _) with (23 + g * 30) by lia. rewrite Z_mod_plus_full. reflexivity. }
    assert (0 <= i < 30) by (apply Z.mod_pos_bound; lia).
    assert (0 <= ep < 30) by (apply Z.mod_pos_bound; lia).
    clearbody i ep. destruct (Z.ltb_spec ep 24); Z.div_mod_to_equations; lia. }
  rewrite I. assert (Hi : 0 <= i < 30) by (apply Z.mod_pos_bound; lia).
  set (j := (y + y / 4 + i) mod 7). assert (Hj : 0 <= j < 7) by (apply Z.mod_pos_bound; lia).
  rewrite march_may by lia.
  rewrite (date_number_first y 3 28). rewrite (date_number_first y 3 21) in *.
  set (a := date_number y 3 1) in *.
  assert (D : day_of_week (a + (21 - 1) + e + i) = (j - 1) mod 7).
  { rewrite <- J. unfold j, day_of_week. rewrite Zminus_mod_idemp_l. unfold julian_march_21.
    assert (Q : (y - 1) / 4 + (if y mod 4 =? 0 then 29 else 28) = y / 4 + 28)
      by (destruct (Z.eqb_spec (y mod 4) 0); Z.div_mod_to_equations; lia).
    set (q1 := (y - 1) / 4) in *. set (q := y / 4) in *. set (m := if y mod 4 =? 0 then 29 else 28) in *.
    replace (365 * (y - 1) + q1 - 719164 + 31 + m + 20 + i + 3)
      with (y + q + i - 1 + (52 * y - 102778) * 7) by lia.
    apply Z_mod_plus_full. }
  replace (a + (28 - 1) + (i - j + e)) with (a + (21 - 1) + e + i + 7 - j) by lia.
  set (b := a + (21 - 1) + e + i) in *. clearbody b j a. clear J.
  split; [lia|]. split.
  - dows.
  - intros m Hm E. dow. Z.div_mod_to_equations. lia.
Qed.

(** ** The Hebrew calendar *)

Lemma long_year_leap : forall y, hebrew_leap y = long_year y.
Proof.
  intros y. unfold hebrew_leap, long_year.
  assert (E : (7 * y + 1) mod 19 = (7 * (y mod 19) + 1) mod 19).
  { rewrite (Z.add_mod (7 * y)), (Z.mul_mod 7 y), (Z.add_mod (7 * (y mod 19))), (Z.mul_mod 7 (y mod 19)),
      Z.mod_mod by lia. reflexivity. }
  rewrite E. set (r := y mod 19). assert (R : 0 <= r < 19) by (apply Z.mod_pos_bound; lia).
  assert (C : r = 0 \/ r = 1 \/ r = 2 \/ r = 3 \/ r = 4 \/ r = 5 \/ r = 6 \/ r = 7 \/ r = 8 \/ r = 9 \/
    r = 10 \/ r = 11 \/ r = 12 \/ r = 13 \/ r = 14 \/ r = 15 \/ r = 16 \/ r = 17 \/ r = 18) by lia.
  clearbody r. repeat (destruct C as [->|C]; [reflexivity|]). rewrite C. reflexivity.
Qed.

Lemma months_step : forall y, months_before (y + 1) = months_before y + month_count y.
Proof.
  intros y. unfold months_before, month_count. rewrite <- long_year_leap. unfold hebrew_leap.
  destruct (Z.ltb_spec ((7 * y + 1) mod 19) 7); Z.div_mod_to_equations; lia.
Qed.

Lemma elapsed_days_ok : forall y, elapsed_days y = new_year_count y.
Proof.
  intros y. unfold elapsed_days. cbv zeta.
  set (months := (235 * y - 234) / 19).
  set (parts := 204 + 793 * (months mod 1080)).
  set (hours := 5 + 12 * months + 793 * (months / 1080) + parts / 1080).
  assert (T : 1080 * hours + parts mod 1080 = new_moon y - parts_per_day * (1 + 29 * months)).
  { unfold new_moon, parts_per_day, months_before. fold months. unfold hours, parts.
    Z.div_mod_to_equations. lia. }
  assert (Hp : 0 <= parts mod 1080 < 1080) by (apply Z.mod_pos_bound; lia).
  set (pm := parts mod 1080) in *. clearbody pm. clearbody hours. clear parts.
  assert (D : 1 + 29 * months + hours / 24 = moon_day y).
  { unfold moon_day. apply Z.div_unique with (1080 * (hours mod 24) + pm).
    - left. unfold parts_per_day. Z.div_mod_to_equations. lia.
    - unfold parts_per_day in *. Z.div_mod_to_equations. lia. }
  assert (P : 1080 * (hours mod 24) + pm = moon_time y).
  { unfold moon_time. apply Z.mod_unique with (1 + 29 * months + hours / 24).
    - left. unfold parts_per_day. Z.div_mod_to_equations. lia.
    - unfold parts_per_day in *. Z.div_mod_to_equations. lia. }
  rewrite D, P, !long_year_leap. unfold new_year_count, postponed.
  change (18 * 1080) with 19440. change (9 * 1080 + 204) with 9924. change (15 * 1080 + 589) with 16789.
  set (d := moon_day y). set (t := moon_time y).
  assert (O : (19440 <=? t) || (d mod 7 =? 2) && (9924 <=? t) && negb (long_year y)
              || (d mod 7 =? 1) && (16789 <=? t) && long_year (y - 1) =
              (19440 <=? t) || (d mod 7 =? 2) && negb (long_year y) && (9924 <=? t)
              || (d mod 7 =? 1) && long_year (y - 1) && (16789 <=? t)).
  { destruct (d mod 7 =? 2), (d mod 7 =? 1), (9924 <=? t), (16789 <=? t), (long_year y), (long_year (y - 1));
      reflexivity. }
  rewrite O. cbv zeta. unfold memb. cbn [existsb].
  rewrite orb_false_r, orb_assoc. reflexivity.
Qed.

Lemma first_of_tishrei_ok : forall y, first_of_tishrei y = tishrei_1 y.
Proof.
  intros y. unfold first_of_tishrei, tishrei_1, HEBREW_EPOCH. rewrite elapsed_days_ok. lia.
Qed.

(** The new year is never on a Sunday, Wednesday or Friday. *)
Lemma new_year_weekday : forall y,
  let w := new_year_count y mod 7 in w <> 0 /\ w <> 3 /\ w <> 5.
Proof.
  intros y. cbv zeta. unfold new_year_count. cbv zeta. set (d := if postponed y then _ else _).
  destruct (Z.eqb_spec (d mod 7) 0), (Z.eqb_spec (d mod 7) 3), (Z.eqb_spec (d mod 7) 5); cbn [orb];
    Z.div_mod_to_equations; lia.
Qed.

Lemma no_two_long : forall y, long_year y = true -> long_year (y + 1) = false.
Proof.
  intros y. rewrite <- !long_year_leap. unfold hebrew_leap. intros H. apply Z.ltb_lt in H. apply Z.ltb_ge.
  Z.div_mod_to_equations. lia.
Qed.

Definition year_length (y : Z) : Z := new_year_count (y + 1) - new_year_count y.

Lemma moon_step : forall y,
  moon_day (y + 1) * parts_per_day + moon_time (y + 1) =
  moon_day y * parts_per_day + moon_time y + month_count y * (29 * parts_per_day + 12 * 1080 + 793).
Proof.
  intros y. unfold moon_day, moon_time.
  pose proof (Z.div_mod (new_moon (y + 1)) parts_per_day ltac:(unfold parts_per_day; lia)).
  pose proof (Z.div_mod (new_moon y) parts_per_day ltac:(unfold parts_per_day; lia)).
  assert (new_moon (y + 1) = new_moon y + month_count y * (29 * parts_per_day + 12 * 1080 + 793))
    by (unfold new_moon; rewrite months_step; lia).
  lia.
Qed.

Lemma moon_time_range : forall y, 0 <= moon_time y < 25920.
Proof. intros y. unfold moon_time. apply Z.mod_pos_bound. unfold parts_per_day. lia. Qed.

Ltac mod7 x :=
  let H := fresh in
  first [assert (H : x mod 7 = 0) by (Z.div_mod_to_equations; lia)|assert (H : x mod 7 = 1) by (Z.div_mod_to_equations; lia)
        |assert (H : x mod 7 = 2) by (Z.div_mod_to_equations; lia)|assert (H : x mod 7 = 3) by (Z.div_mod_to_equations; lia)
        |assert (H : x mod 7 = 4) by (Z.div_mod_to_equations; lia)|assert (H : x mod 7 = 5) by (Z.div_mod_to_equations; lia)
        |assert (H : x mod 7 = 6) by (Z.div_mod_to_equations; lia)]; rewrite H; clear H.
Ltac bools :=
  cbn [Z.eqb Pos.eqb andb orb negb]; cbv iota;
  first [lia|
    match goal with
    | |- context [?x mod 7] =>
        match x with context [if _ then _ else _] => fail 1 | _ => mod7 x; bools end
    | |- context [?a <=? ?b] => destruct (Z.leb_spec a b); try lia; bools
    end].

Lemma year_length_ok : forall y,
  if long_year y then 383 <= year_length y <= 385 else 353 <= year_length y <= 355.
Proof.
  intros y. unfold year_length, new_year_count, postponed. replace (y + 1 - 1) with y by lia.
  pose proof (moon_step y) as S. unfold month_count in S. unfold parts_per_day in S.
  pose proof (moon_time_range y) as R. pose proof (moon_time_range (y + 1)) as R'.
  pose proof (no_two_long (y - 1)) as N. replace (y - 1 + 1) with y in N by lia.
  pose proof (no_two_long y) as N'.
  set (d := moon_day y) in *. set (t := moon_time y) in *.
  set (d' := moon_day (y + 1)) in *. set (t' := moon_time (y + 1)) in *. clearbody d t d' t'.
  change (18 * 1080) with 19440. change (9 * 1080 + 204) with 9924. change (15 * 1080 + 589) with 16789.
  assert (W : exists k w, d = 7 * k + w /\ 0 <= w < 7).
  { exists (d / 7), (d mod 7). Z.div_mod_to_equations. lia. }
  destruct W as [k [w [-> W]]].
  assert (Wc : w = 0 \/ w = 1 \/ w = 2 \/ w = 3 \/ w = 4 \/ w = 5 \/ w = 6) by lia. clear W.
  assert (M : forall c q, 0 <= c < 7 -> (7 * q + c) mod 7 = c)
    by (intros c q Hc; symmetry; apply Z.mod_unique with q; lia).
  destruct (long_year y) eqn:Ly.
  - rewrite N' by reflexivity.
    assert (Lp : long_year (y - 1) = false)
      by (destruct (long_year (y - 1)); [specialize (N eq_refl); discriminate|reflexivity]).
    rewrite Lp. clear N N' Lp Ly M.
    assert (C : d' = 7 * (k + 54) + (w + 5) /\ t' = t + 23269 \/
                d' = 7 * (k + 54) + (w + 6) /\ t' = t - 2651) by lia.
    clear S. destruct C as [[-> ->]|[-> ->]];
      destruct Wc as [->|[->|[->|[->|[->|[->| ->]]]]]]; bools.
  - clear N N' Ly M.
    assert (C : d' = 7 * (k + 50) + (w + 4) /\ t' = t + 9516 \/
                d' = 7 * (k + 50) + (w + 5) /\ t' = t - 16404) by lia.
    clear S. generalize (long_year (y + 1)), (long_year (y - 1)). intros l1 l2.
    destruct C as [[-> ->]|[-> ->]];
      destruct Wc as [->|[->|[->|[->|[->|[->| ->]]]]]]; destruct l1, l2; bools.
Qed.
