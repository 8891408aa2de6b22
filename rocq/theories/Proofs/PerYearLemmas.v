(** Holidays as positions in the year, and how many workdays they take (C98). *)
From Coq Require Import ZArith List Bool Lia Permutation.
From Verif.Model Require Import Base Dates Holidays.
From Verif.Spec Require Import Civil Rules Almanac.
From Verif.Proofs Require Import BaseLemmas DatesLemmas RuleLemmas AlmanacLemmas.
Import ListNotations.
Open Scope Z_scope.

(** ** Kinds of holidays *)
Inductive entry : Type :=
| Anniversary (m d : Z)
| AfterSunday (m d : Z)
| Closest (m d : Z)
| Nth (k wd m : Z)
| LastOf (wd m : Z)
| FirstOn (wd m d : Z)
| AfterEaster (k : Z)
| AfterWeekend (m d : Z)
| EarlyOnly (m d : Z)
| LastOn (wd m d : Z).
Definition days_of (e : entry) : days :=
  match e with
  | Anniversary m d => annual m d
  | AfterSunday m d => kept after_sunday (annual m d)
  | Closest m d => kept closest_workday (annual m d)
  | Nth k wd m => nth_of k wd m
  | LastOf wd m => nth_last_of 1 wd m
  | FirstOn wd m d => first_on_or_after wd m d
  | AfterEaster k => easter_plus k
  | AfterWeekend m d => kept after_weekend (annual m d)
  | EarlyOnly m d => on [MONDAY; TUESDAY] (annual m d)
  | LastOn wd m d => last_on_or_before wd m d
  end.

(** The months of a year, from whether it is a leap year. *)
Definition lengths (l : bool) : list Z := [31; if l then 29 else 28; 31; 30; 31; 30; 31; 31; 30; 31; 30; 31].
Definition before (l : bool) (m : Z) : Z := fold_right Z.add 0 (firstn (Z.to_nat (m - 1)) (lengths l)).
Definition mlen (l : bool) (m : Z) : Z := nth (Z.to_nat (m - 1)) (lengths l) 0.

(** The position in the year of a holiday, from the weekday [w] of January 1st and the position [g] of Easter. *)
Definition from_on (w wd a : Z) : Z := a + (wd - (w + a)) mod 7.
Definition position (l : bool) (w g : Z) (e : entry) : Z :=
  match e with
  | Anniversary m d => before l m + d - 1
  | AfterSunday m d => let a := before l m + d - 1 in if (w + a) mod 7 =? 6 then a + 1 else a
  | Closest m d => let a := before l m + d - 1 in
      if (w + a) mod 7 =? 5 then a - 1 else if (w + a) mod 7 =? 6 then a + 1 else a
  | Nth k wd m => from_on w wd (before l m + 7 * (k - 1))
  | LastOf wd m => from_on w wd (before l m + mlen l m - 7)
  | FirstOn wd m d => from_on w wd (before l m + d - 1)
  | AfterEaster k => g + k
  | AfterWeekend m d => let a := before l m + d - 1 in
      if (w + a) mod 7 =? 5 then a + 2 else if (w + a) mod 7 =? 6 then a + 1 else a
  | EarlyOnly m d => let a := before l m + d - 1 in if (w + a) mod 7 <? 2 then a else -1
  | LastOn wd m d => from_on w wd (before l m + d - 7)
  end.
Definition fits (e : entry) : bool :=
  match e with
  | Anniversary m d => (1 <=? m) && (m <=? 12) && (1 <=? d) && (d <=? mlen false m)
  | AfterSunday m d => (1 <=? m) && (m <=? 12) && (1 <=? d) && (d + 1 <=? mlen false m)
  | Closest m d => (1 <=? m) && (m <=? 12) && (2 <=? d) && (d + 1 <=? mlen false m)
  | Nth k wd m => (1 <=? m) && (m <=? 12) && (1 <=? k) && (k <=? 4) && (0 <=? wd) && (wd <=? 6)
  | LastOf wd m => (1 <=? m) && (m <=? 12) && (0 <=? wd) && (wd <=? 6)
  | FirstOn wd m d => (1 <=? m) && (m <=? 12) && (1 <=? d) && (d + 6 <=? mlen false m) && (0 <=? wd) && (wd <=? 6)
  | AfterEaster k => (-60 <=? k) && (k <=? 100)
  | AfterWeekend m d => (1 <=? m) && (m <=? 12) && (1 <=? d) && (d + 2 <=? mlen false m)
  | EarlyOnly m d => (1 <=? m) && (m <=? 12) && (1 <=? d) && (d <=? mlen false m)
  | LastOn wd m d => (1 <=? m) && (m <=? 12) && (7 <=? d) && (d <=? mlen false m) && (0 <=? wd) && (wd <=? 6)
  end.

Lemma date_position : forall y m d, date_number y m d = year_start y + (before (leap y) m + d - 1).
Proof. intros y m d. unfold date_number. change (days_before_month y m) with (before (leap y) m). lia. Qed.
Lemma month_len : forall y m, month_length y m = mlen (leap y) m.
Proof. reflexivity. Qed.
Lemma mlen_range : forall l m, 1 <= m <= 12 -> 28 <= mlen false m <= mlen l m /\ mlen l m <= 31.
Proof.
  intros l m H. assert (C : In m [1;2;3;4;5;6;7;8;9;10;11;12]) by (cbn; lia). cbn [In] in C.
  repeat (destruct C as [<-|C]; [destruct l; cbv; repeat split; discriminate|]). destruct C.
Qed.
Lemma valid_any : forall y m d, 1 <= m <= 12 -> 1 <= d <= mlen false m -> valid_date y m d.
Proof. intros y m d H D. pose proof (mlen_range (leap y) m H). split; [exact H|]. rewrite month_len. lia. Qed.
Lemma same_year : forall y y' m d n i, 1 <= m <= 12 -> 1 <= d -> 0 <= i -> d + i <= mlen (leap y') m ->
  date_number y' m d <= n <= date_number y' m d + i -> in_year n y -> y' = y.
Proof.
  intros y y' m d n i M D I L H Y. pose proof (mlen_range (leap y') m M).
  apply (in_year_unique n); [|exact Y]. apply (near_year y' m d n i).
  - split; [exact M|rewrite month_len; lia].
  - exact H.
  - split; [exact M|rewrite month_len; lia].
Qed.
Lemma from_on_iff : forall a w wd n s, day_of_week s = w -> 0 <= wd <= 6 ->
  (day_of_week n = wd /\ s + a <= n < s + a + 7 <-> n = s + from_on w wd a).
Proof.
  intros a w wd n s W R. unfold from_on. pose proof (Z.mod_pos_bound (wd - (w + a)) 7 ltac:(lia)) as B.
  assert (E : day_of_week (s + (a + (wd - (w + a)) mod 7)) = wd).
  { rewrite dow_add, W. replace (w + (a + (wd - (w + a)) mod 7)) with ((w + a) + (wd - (w + a)) mod 7) by lia.
    rewrite Z.add_mod_idemp_r by lia. replace (w + a + (wd - (w + a))) with wd by lia. apply Z.mod_small. lia. }
  split; [|intros ->; split; [exact E|lia]].
  intros [D H]. set (j := (wd - (w + a)) mod 7) in *.
  assert (K : n = s + (a + j) + (n - (s + (a + j)))) by lia. rewrite K, dow_add, E in D.
  assert (L : (n - (s + (a + j))) mod 7 = 0).
  { replace (n - (s + (a + j))) with (wd + (n - (s + (a + j))) - wd) by lia. rewrite Zminus_mod, D.
    rewrite (Z.mod_small wd) by lia. rewrite Z.sub_diag. reflexivity. }
  apply Z.mod_divide in L; [|lia]. destruct L as [q Q]. assert (q = 0) by lia. lia.
Qed.
Lemma after_sunday_iff : forall a n, after_sunday a n <-> n = if day_of_week a =? 6 then a + 1 else a.
Proof.
  intros a n. unfold after_sunday, first_from. change SUNDAY with 6. pose proof (dow_range a) as R. split.
  - intros [L [P F]]. destruct (Z.eqb_spec (day_of_week a) 6) as [E|E].
    + destruct (Z.eq_dec n a) as [->|N]; [contradiction|]. destruct (Z.eq_dec n (a + 1)) as [->|N1]; [reflexivity|].
      exfalso. apply (F (a + 1)); [lia|]. rewrite dow_add, E. cbv. discriminate.
    + destruct (Z.eq_dec n a) as [->|N]; [reflexivity|]. exfalso. apply (F a); [lia|exact E].
  - intros ->. destruct (Z.eqb_spec (day_of_week a) 6) as [E|E].
    + split; [lia|]. split; [rewrite dow_add, E; cbv; discriminate|]. intros m H. assert (m = a) as -> by lia. intros Q. exact (Q E).
    + split; [lia|]. split; [exact E|]. intros m H. lia.
Qed.
Lemma closest_iff : forall a n, closest_workday a n <->
  n = if day_of_week a =? 5 then a - 1 else if day_of_week a =? 6 then a + 1 else a.
Proof.
  intros a n. unfold closest_workday, workday. pose proof (dow_range a) as R. split.
  - intros [W F]. destruct (Z.eqb_spec (day_of_week a) 5) as [E|E]; [|destruct (Z.eqb_spec (day_of_week a) 6) as [E'|E']].
    + assert (B : day_of_week (a + -1) < 5) by (rewrite dow_add, E; reflexivity). specialize (F _ B).
      assert (n = a - 1 \/ n = a \/ n = a + 1) as [->|[->| ->]] by lia; [lia|lia|].
      rewrite dow_add, E in W. cbv in W. discriminate.
    + assert (B : day_of_week (a + 1) < 5) by (rewrite dow_add, E'; reflexivity). specialize (F _ B).
      assert (n = a + -1 \/ n = a \/ n = a + 1) as [->|[->| ->]] by lia; [|lia|lia].
      rewrite dow_add, E' in W. cbv in W. discriminate.
    + assert (B : day_of_week a < 5) by lia. specialize (F _ B). lia.
  - intros ->. destruct (Z.eqb_spec (day_of_week a) 5) as [E|E]; [|destruct (Z.eqb_spec (day_of_week a) 6) as [E'|E']].
    + split; [replace (a - 1) with (a + -1) by lia; rewrite dow_add, E; reflexivity|]. intros m W.
      assert (m <> a) by (intros ->; lia). lia.
    + split; [rewrite dow_add, E'; reflexivity|]. intros m W. assert (m <> a) by (intros ->; lia). lia.
    + split; [lia|]. intros m W. lia.
Qed.

Lemma after_weekend_iff : forall a n, after_weekend a n <->
  n = if day_of_week a =? 5 then a + 2 else if day_of_week a =? 6 then a + 1 else a.
Proof.
  intros a n. unfold after_weekend, first_from, workday. pose proof (dow_range a) as R.
  pose proof (dow_add a 1) as D1. pose proof (dow_add a 2) as D2. split.
  - intros [L [P F]]. destruct (Z.eqb_spec (day_of_week a) 5) as [E|E]; [|destruct (Z.eqb_spec (day_of_week a) 6) as [E'|E']].
    + rewrite E in D1, D2. cbn in D1, D2. destruct (Z.eq_dec n a) as [->|N]; [lia|]. destruct (Z.eq_dec n (a + 1)) as [->|N1]; [lia|].
      destruct (Z.eq_dec n (a + 2)) as [->|N2]; [reflexivity|]. exfalso. apply (F (a + 2)); lia.
    + rewrite E' in D1. cbn in D1. destruct (Z.eq_dec n a) as [->|N]; [lia|]. destruct (Z.eq_dec n (a + 1)) as [->|N1]; [reflexivity|].
      exfalso. apply (F (a + 1)); lia.
    + destruct (Z.eq_dec n a) as [->|N]; [reflexivity|]. exfalso. apply (F a); lia.
  - intros ->. destruct (Z.eqb_spec (day_of_week a) 5) as [E|E]; [|destruct (Z.eqb_spec (day_of_week a) 6) as [E'|E']].
    + rewrite E in D1, D2. cbn in D1, D2. split; [lia|]. split; [lia|]. intros m H. assert (m = a \/ m = a + 1) as [->| ->] by lia; lia.
    + rewrite E' in D1. cbn in D1. split; [lia|]. split; [lia|]. intros m H. assert (m = a) as -> by lia. lia.
    + split; [lia|]. split; [lia|]. intros m H. lia.
Qed.
Lemma easter_position : forall y, (if leap y then 81 else 80) <= easter y - year_start y <= (if leap y then 115 else 114).
Proof.
  intros y. pose proof (easter_bounds y) as B. rewrite !date_position in B. destruct (leap y).
  - change (before true 3 + 22 - 1) with 81 in B. change (before true 4 + 25 - 1) with 115 in B. lia.
  - change (before false 3 + 22 - 1) with 80 in B. change (before false 4 + 25 - 1) with 114 in B. lia.
Qed.
Lemma easter_near : forall y k, -60 <= k <= 100 -> in_year (easter y + k) y.
Proof. intros y k K. pose proof (easter_position y). pose proof (year_start_next y). split; destruct (leap y); lia. Qed.

Ltac booleans H := repeat (apply andb_prop in H; let H' := fresh H in destruct H as [H H']; apply Z.leb_le in H'); try apply Z.leb_le in H.

Lemma position_iff : forall e n y, fits e = true -> in_year n y ->
  (days_of e n <-> n = year_start y + position (leap y) (day_of_week (year_start y)) (easter y - year_start y) e).
Proof.
  intros e n y F Y. set (w := day_of_week (year_start y)). destruct e as [m d|m d|m d|k wd m|wd m|wd m d|k|m d|m d|wd m d]; cbn [fits] in F; booleans F; cbn [days_of position]; cbv zeta.
  - split.
    + intros [y' ->]. pose proof (mlen_range (leap y') m ltac:(lia)).
      assert (y' = y) as -> by (apply (same_year y y' m d (date_number y' m d) 0); try lia; exact Y). apply date_position.
    + intros ->. exists y. symmetry. apply date_position.
  - pose proof (date_position y m d) as P. set (a := before (leap y) m + d - 1) in *.
    assert (D : day_of_week (date_number y m d) = (w + a) mod 7) by (rewrite P; apply dow_add). split.
    + intros [x [[y' ->] H]]. pose proof H as H'. apply after_sunday_iff in H'. pose proof (mlen_range (leap y') m ltac:(lia)).
      assert (y' = y) as ->.
      { apply (same_year y y' m d n 1); try lia; [|exact Y]. destruct (day_of_week (date_number y' m d) =? 6); lia. }
      rewrite D, P in H'. destruct ((w + a) mod 7 =? 6); lia.
    + intros E. exists (date_number y m d). split; [exists y; reflexivity|]. apply after_sunday_iff. rewrite D, P. destruct ((w + a) mod 7 =? 6); lia.
  - pose proof (date_position y m d) as P. set (a := before (leap y) m + d - 1) in *.
    assert (D : day_of_week (date_number y m d) = (w + a) mod 7) by (rewrite P; apply dow_add). split.
    + intros [x [[y' ->] H]]. pose proof H as H'. apply closest_iff in H'. pose proof (mlen_range (leap y') m ltac:(lia)).
      assert (y' = y) as ->.
      { pose proof (date_position y' m d). pose proof (date_position y' m (d - 1)).
        apply (same_year y y' m (d - 1) n 2); try lia; [|exact Y].
        destruct (day_of_week (date_number y' m d) =? 5); [lia|]. destruct (day_of_week (date_number y' m d) =? 6); lia. }
      rewrite D, P in H'. destruct ((w + a) mod 7 =? 5); [lia|]. destruct ((w + a) mod 7 =? 6); lia.
    + intros E. exists (date_number y m d). split; [exists y; reflexivity|]. apply closest_iff. rewrite D, P.
      destruct ((w + a) mod 7 =? 5); [lia|]. destruct ((w + a) mod 7 =? 6); lia.
  - rewrite <- from_on_iff by (reflexivity || lia). split.
    + intros [y' [d [E [D H]]]]. split; [exact D|]. pose proof (mlen_range (leap y') m ltac:(lia)).
      assert (y' = y) as -> by (apply (same_year y y' m d n 0); try lia; exact Y). rewrite E, date_position. lia.
    + intros [D H]. exists y, (n - year_start y - before (leap y) m + 1). rewrite date_position. split; [lia|]. split; [exact D|lia].
  - rewrite <- from_on_iff by (reflexivity || lia). split.
    + intros [y' [d [E [D H]]]]. split; [exact D|]. rewrite month_len in H. pose proof (mlen_range (leap y') m ltac:(lia)).
      assert (y' = y) as -> by (apply (same_year y y' m d n 0); try lia; exact Y). rewrite E, date_position. lia.
    + intros [D H]. exists y, (n - year_start y - before (leap y) m + 1). rewrite date_position, month_len. split; [lia|]. split; [exact D|lia].
  - rewrite <- from_on_iff by (reflexivity || lia). split.
    + intros [y' [L [D G]]]. split; [exact D|]. pose proof (mlen_range (leap y') m ltac:(lia)).
      assert (U : n < date_number y' m d + 7).
      { destruct (Z_lt_le_dec n (date_number y' m d + 7)) as [U|U]; [exact U|exfalso]. apply (G (n + -7)); [lia|].
        rewrite dow_add, D. rewrite (Z.add_mod wd (-7)) by lia. change (-7 mod 7) with 0. rewrite Z.add_0_r, Z.mod_mod by lia. apply Z.mod_small. lia. }
      assert (y' = y) as -> by (apply (same_year y y' m d n 6); try lia; exact Y). rewrite date_position in L, U. lia.
    + intros [D H]. exists y. split; [rewrite date_position; lia|]. split; [exact D|]. intros x X Q. rewrite date_position in X.
      assert (E : n = x + (n - x)) by lia. rewrite E, dow_add, Q in D.
      assert (Z : (n - x) mod 7 = 0).
      { replace (n - x) with (wd + (n - x) - wd) by lia. rewrite Zminus_mod, D, (Z.mod_small wd), Z.sub_diag by lia. reflexivity. }
      rewrite Z.mod_small in Z by lia. lia.
  - pose proof (easter_bounds y) as B.
    pose proof (easter_near y k ltac:(lia)) as R.
    split.
    + intros [y' H]. apply is_easter_iff in H. assert (E : n = easter y' + k) by lia.
      pose proof (easter_near y' k ltac:(lia)) as R'.
      rewrite <- E in R'. rewrite (in_year_unique n y' y R' Y) in E. lia.
    + intros ->. exists y. apply is_easter_iff. lia.
  - pose proof (date_position y m d) as P. set (a := before (leap y) m + d - 1) in *.
    assert (D : day_of_week (date_number y m d) = (w + a) mod 7) by (rewrite P; apply dow_add). split.
    + intros [x [[y' ->] H]]. pose proof H as H'. apply after_weekend_iff in H'. pose proof (mlen_range (leap y') m ltac:(lia)).
      assert (y' = y) as ->.
      { apply (same_year y y' m d n 2); try lia; [|exact Y].
        destruct (day_of_week (date_number y' m d) =? 5); [lia|]. destruct (day_of_week (date_number y' m d) =? 6); lia. }
      rewrite D, P in H'. destruct ((w + a) mod 7 =? 5); [lia|]. destruct ((w + a) mod 7 =? 6); lia.
    + intros E. exists (date_number y m d). split; [exists y; reflexivity|]. apply after_weekend_iff. rewrite D, P.
      destruct ((w + a) mod 7 =? 5); [lia|]. destruct ((w + a) mod 7 =? 6); lia.
  - pose proof (date_position y m d) as P. set (a := before (leap y) m + d - 1) in *.
    assert (D : day_of_week (date_number y m d) = (w + a) mod 7) by (rewrite P; apply dow_add).
    pose proof (dow_range (date_number y m d)) as R. split.
    + intros [I [y' ->]]. pose proof (mlen_range (leap y') m ltac:(lia)).
      assert (y' = y) as -> by (apply (same_year y y' m d (date_number y' m d) 0); try lia; exact Y).
      rewrite D in I. cbn [In] in I. change MONDAY with 0 in I. change TUESDAY with 1 in I.
      destruct (Z.ltb_spec ((w + a) mod 7) 2) as [L|L]; lia.
    + destruct (Z.ltb_spec ((w + a) mod 7) 2) as [L|L].
      * intros ->. rewrite <- P. split; [|exists y; reflexivity]. rewrite D. cbn [In]. change MONDAY with 0. change TUESDAY with 1. lia.
      * destruct Y as [Y _]. lia.
  - rewrite <- from_on_iff by (reflexivity || lia). split.
    + intros [y' [L [D G]]]. split; [exact D|]. pose proof (mlen_range (leap y') m ltac:(lia)).
      assert (U : date_number y' m d - 7 < n).
      { destruct (Z_lt_le_dec (date_number y' m d - 7) n) as [U|U]; [exact U|exfalso]. apply (G (n + 7)); [lia|].
        rewrite dow_add, D. rewrite (Z.add_mod wd 7) by lia. change (7 mod 7) with 0. rewrite Z.add_0_r, Z.mod_mod by lia. apply Z.mod_small. lia. }
      assert (y' = y) as ->.
      { pose proof (date_position y' m d). pose proof (date_position y' m (d - 6)). apply (same_year y y' m (d - 6) n 6); try lia; exact Y. }
      rewrite date_position in L, U. lia.
    + intros [D H]. exists y. split; [rewrite date_position; lia|]. split; [exact D|]. intros x X Q. rewrite date_position in X.
      assert (E : x = n + (x - n)) by lia. rewrite E, dow_add, D in Q.
      assert (Z : (x - n) mod 7 = 0).
      { replace (x - n) with (wd + (x - n) - wd) by lia. rewrite Zminus_mod, Q, (Z.mod_small wd), Z.sub_diag by lia. reflexivity. }
      rewrite Z.mod_small in Z by lia. lia.
Qed.

(** ** The almanac in some year, as positions *)
Definition agrees (y0 : Z) (hs : list days) (es : list entry) : Prop :=
  forall n, date_number y0 1 1 <= n -> ((exists h, In h hs /\ h n) <-> (exists e, In e es /\ days_of e n)).
Lemma agrees_nil : forall y0, agrees y0 [] [].
Proof. intros y0 n _. split; intros [h [[] _]]. Qed.
Lemma agrees_keep : forall y0 h hs e es, (forall n, date_number y0 1 1 <= n -> (h n <-> days_of e n)) -> agrees y0 hs es ->
  agrees y0 (h :: hs) (e :: es).
Proof.
  intros y0 h hs e es K A n N. specialize (A n N). specialize (K n N). split.
  - intros [x [[<-|H] X]]; [exists e; cbn [In]; tauto|]. destruct A as [A _].
    destruct A as [e' [E' D']]; [exists x; tauto|]. exists e'. cbn [In]. tauto.
  - intros [x [[<-|H] X]]; [exists h; cbn [In]; tauto|]. destruct A as [_ A].
    destruct A as [e' [E' D']]; [exists x; tauto|]. exists e'. cbn [In]. tauto.
Qed.
Lemma agrees_drop : forall y0 h hs es, (forall n, date_number y0 1 1 <= n -> ~ h n) -> agrees y0 hs es -> agrees y0 (h :: hs) es.
Proof.
  intros y0 h hs es K A n N. rewrite <- (A n N). split.
  - intros [x [[<-|H] X]]; [exfalso; exact (K n N X)|]. exists x. tauto.
  - intros [x [H X]]. exists x. cbn [In]. tauto.
Qed.
Lemma keep_since : forall y0 y h e, date_number y 1 1 <=? date_number y0 1 1 = true ->
  (forall n, date_number y0 1 1 <= n -> (h n <-> days_of e n)) ->
  forall n, date_number y0 1 1 <= n -> (since y h n <-> days_of e n).
Proof. intros y0 y h e L H n N. apply Z.leb_le in L. specialize (H n N). unfold since. split; [tauto|]. intros D. split; [lia|tauto]. Qed.
Lemma keep_except : forall y0 ys h e, forallb (fun y => y <? y0) ys = true ->
  (forall n, date_number y0 1 1 <= n -> (h n <-> days_of e n)) ->
  forall n, date_number y0 1 1 <= n -> (except ys h n <-> days_of e n).
Proof.
  intros y0 ys h e L H n N. specialize (H n N). unfold except. split; [tauto|]. intros D. split; [|tauto].
  intros y I Y. rewrite forallb_forall in L. specialize (L y I). apply Z.ltb_lt in L.
  pose proof (date_number_year y0 1 1 (valid_any y0 1 1 ltac:(lia) ltac:(cbn; lia))) as [A _]. rewrite date_position in *.
  change (before (leap y0) 1) with 0 in N. destruct Y as [_ Y].
  assert (year_start (y + 1) <= year_start y0); [|lia].
  destruct (Z.eq_dec (y + 1) y0) as [->|Q]; [lia|]. pose proof (year_start_mono (y + 1) y0 ltac:(lia)). lia.
Qed.
Lemma drop_through : forall y0 y h, date_number y 12 31 <? date_number y0 1 1 = true ->
  forall n, date_number y0 1 1 <= n -> ~ through y h n.
Proof. intros y0 y h L n N [T _]. apply Z.ltb_lt in L. lia. Qed.
Lemma drop_between : forall y0 y y' h, date_number y' 12 31 <? date_number y0 1 1 = true ->
  forall n, date_number y0 1 1 <= n -> ~ between y y' h n.
Proof. intros y0 y y' h L n N [_ [T _]]. apply Z.ltb_lt in L. lia. Qed.

(** ** Counting *)
Fixpoint upto (n : nat) (a : Z) : list Z := match n with O => [] | S k => a :: upto k (a + 1) end.
Lemma upto_in : forall n a x, In x (upto n a) <-> a <= x < a + Z.of_nat n.
Proof.
  induction n as [|n IH]; intros a x; cbn [upto In]; [lia|]. rewrite IH. lia.
Qed.
Lemma upto_nodup : forall n a, NoDup (upto n a).
Proof. induction n as [|n IH]; intros a; cbn [upto]; constructor; [rewrite upto_in; lia|apply IH]. Qed.

Definition year_days (l : bool) : nat := if l then 366%nat else 365%nat.
Definition working (w i : Z) : bool := (w + i) mod 7 <? 5.
(** The workdays that the holidays take. *)
Definition taken (l : bool) (w g : Z) (es : list entry) : list Z :=
  nodup Z.eq_dec (filter (fun i => if working w i then if 0 <=? i then i <? Z.of_nat (year_days l) else false else false) (map (position l w g) es)).
Definition workdays (l : bool) (w : Z) : nat := length (filter (working w) (upto (year_days l) 0)).

Lemma apart : forall (l l' : list Z), NoDup l -> NoDup l' -> (forall x, In x l -> ~ In x l') -> NoDup (l ++ l').
Proof.
  induction l as [|a l IH]; intros l' N N' D; cbn [app]; [exact N'|]. inversion N as [|? ? N1 N2]; subst. constructor.
  - rewrite in_app_iff. intros [I|I]; [exact (N1 I)|]. exact (D a (or_introl eq_refl) I).
  - apply IH; [exact N2|exact N'|]. intros x X. apply D. right. exact X.
Qed.
(** Any list of the workdays of the year that are no holidays is as long as this. *)
Lemma count_open : forall l w g es xs, NoDup xs ->
  (forall i, In i xs <-> 0 <= i < Z.of_nat (year_days l) /\ working w i = true /\ ~ In i (map (position l w g) es)) ->
  (length xs + length (taken l w g es))%nat = workdays l w.
Proof.
  intros l w g es xs N H. rewrite <- app_length. unfold workdays. apply Permutation_length. apply NoDup_Permutation.
  - apply apart; [exact N|apply NoDup_nodup|]. intros i I J. apply H in I. unfold taken in J. apply nodup_In, filter_In in J. tauto.
  - apply NoDup_filter, upto_nodup.
  - intros i. rewrite in_app_iff, H, filter_In, upto_in. unfold taken. rewrite nodup_In, filter_In.
    destruct (in_dec Z.eq_dec i (map (position l w g) es)) as [Q|Q].
    + destruct (working w i) eqn:W; [|intuition discriminate]. destruct (Z.leb_spec 0 i) as [L|L]; [|intuition (discriminate || lia)].
      destruct (Z.ltb_spec i (Z.of_nat (year_days l))) as [L'|L']; intuition (discriminate || lia).
    + intuition lia.
Qed.

(** The kinds of years: leap or not, the weekday of January 1st, the position of Easter. *)
Definition easters (l : bool) (w : Z) : list Z :=
  filter (fun g => (w + g) mod 7 =? 6) (upto 35 (if l then 81 else 80)).
Definition kinds : list (bool * Z * Z) :=
  flat_map (fun l => flat_map (fun w => map (fun g => (l, w, g)) (easters l w)) [0;1;2;3;4;5;6]) [false; true].
Lemma kind_of : forall y, In (leap y, day_of_week (year_start y), easter y - year_start y) kinds.
Proof.
  intros y. pose proof (easter_position y) as P. pose proof (easter_sunday y) as S. pose proof (dow_range (year_start y)) as R.
  replace (easter y) with (year_start y + (easter y - year_start y)) in S by lia. rewrite dow_add in S. change SUNDAY with 6 in S.
  unfold kinds. apply in_flat_map. exists (leap y). split; [cbn [In]; destruct (leap y); tauto|].
  apply in_flat_map. exists (day_of_week (year_start y)). split; [cbn [In]; lia|].
  apply in_map_iff. exists (easter y - year_start y). split; [reflexivity|]. apply filter_In. split; [|apply Z.eqb_eq; exact S].
  apply upto_in. destruct (leap y); lia.
Qed.
