(** The Chinese calendar of the years 1959 to 2049: the months computed from the sky, in a
    table, and the dates in those months. *)
From Coq Require Import ZArith List Bool Lia.
From Verif.Spec Require Import Civil Sky.
From Verif.Model Require Import Dates.
From Verif.Proofs Require Import DatesLemmas RuleLemmas.
Import ListNotations.
Open Scope Z_scope.

(** ** The new moon is near the mean new moon *)

Lemma arch_bounds : forall x, 0 <= x <= 180 * unit -> 0 <= arch x <= unit.
Proof.
  intros x H. unfold arch. cbv zeta.
  assert (Q : 0 <= x * (180 * unit - x) <= 8100 * unit * unit) .
  { split; [apply Z.mul_nonneg_nonneg; lia|]. pose proof (Z.square_nonneg (x - 90 * unit)). unfold unit in *. lia. }
  set (q := x * (180 * unit - x)) in *. clearbody q. split.
  - apply Z.div_pos; unfold unit in *; lia.
  - apply Z.div_le_upper_bound; unfold unit in *; lia.
Qed.

Lemma sine_bounds : forall a, - unit <= sine a <= unit.
Proof.
  intros a. unfold sine. pose proof (Z.mod_pos_bound a (360 * unit) ltac:(unfold unit; lia)) as M. cbv zeta.
  destruct (Z.ltb_spec (a mod (360 * unit)) (180 * unit)) as [L|L].
  - pose proof (arch_bounds (a mod (360 * unit)) ltac:(lia)). unfold unit in *. lia.
  - pose proof (arch_bounds (a mod (360 * unit) - 180 * unit) ltac:(lia)). unfold unit in *. lia.
Qed.

Lemma new_moon_bounds : forall k, mean_new_moon k - 6207 <= new_moon k <= mean_new_moon k + 6207.
Proof.
  intros k. unfold new_moon. cbv zeta.
  repeat match goal with |- context [sine ?a] => let s := fresh "s" in
    pose proof (sine_bounds a); set (s := sine a) in *; clearbody s end.
  unfold unit in *. Z.div_mod_to_equations. lia.
Qed.

Lemma month_start_bounds : forall k,
  29530588861 * k + 10961000000000 <= 1000000000 * month_start k <= 29530588861 * k + 10964000000000.
Proof.
  intros k. unfold month_start, day_at. pose proof (new_moon_bounds k) as B. unfold mean_new_moon in B.
  set (t := new_moon k) in *. clearbody t. unfold unit in *. Z.div_mod_to_equations. lia.
Qed.

(** ** The table of months *)

Definition first_month : Z := -521.
Definition sky (k : Z) : Z * Z := (month_start k, sun_longitude (start_of_day 8 (month_start k))).
Definition skies : list (Z * Z) := Eval vm_compute in map sky (consecutive first_month 1150).
Lemma skies_ok : skies = map sky (consecutive first_month 1150).
Proof. vm_compute. reflexivity. Qed.

Lemma consecutive_nth : forall count k i d, (i < count)%nat -> nth i (consecutive k count) d = k + Z.of_nat i.
Proof.
  induction count as [|count IH]; intros k i d H; [lia|]. destruct i as [|i]; cbn [nth consecutive]; [lia|].
  rewrite IH by lia. lia.
Qed.
Lemma consecutive_length : forall count k, length (consecutive k count) = count.
Proof. induction count as [|count IH]; intros k; [reflexivity|]. cbn. rewrite IH. reflexivity. Qed.
Lemma consecutive_In : forall count k j, In j (consecutive k count) <-> k <= j < k + Z.of_nat count.
Proof.
  induction count as [|count IH]; intros k j; cbn [consecutive In]; [lia|]. rewrite IH. lia.
Qed.

Definition sky_at (k : Z) : Z * Z := nth (Z.to_nat (k - first_month)) skies (0, 0).
Lemma sky_at_ok : forall k, first_month <= k < first_month + 1150 -> sky_at k = sky k.
Proof.
  intros k H. unfold sky_at. rewrite skies_ok.
  rewrite (nth_indep _ (0, 0) (sky 0)) by (rewrite map_length, consecutive_length; lia).
  rewrite map_nth. f_equal. rewrite consecutive_nth by lia. lia.
Qed.

Definition start_at (k : Z) : Z := fst (sky_at k).
Definition before_t (l : Z) : bool := 180 * unit <=? (l - 270 * unit) mod (360 * unit).
Definition eleventh_t (k : Z) : bool :=
  if before_t (snd (sky_at k)) then negb (before_t (snd (sky_at (k + 1)))) else false.
Definition zhongqi_t (k : Z) : bool :=
  negb (snd (sky_at k) / (30 * unit) mod 12 =? snd (sky_at (k + 1)) / (30 * unit) mod 12).
Fixpoint without_leap_t (ks : list Z) : list Z :=
  match ks with [] => [] | k :: ks => if zhongqi_t k then k :: without_leap_t ks else ks end.
Definition regular_t (k : Z) : list Z :=
  if eleventh_t (k + 13) then without_leap_t (consecutive k 13) else consecutive k 12.

Lemma start_ok : forall k, first_month <= k < first_month + 1150 -> start_at k = month_start k.
Proof. intros k H. unfold start_at. rewrite sky_at_ok by lia. reflexivity. Qed.
Lemma eleventh_ok : forall k, first_month <= k < first_month + 1149 -> eleventh_t k = eleventh k.
Proof. intros k H. unfold eleventh_t. rewrite !sky_at_ok by lia.
  unfold eleventh, before, before_t, sky. cbn [fst snd]. reflexivity. Qed.
Lemma zhongqi_ok : forall k, first_month <= k < first_month + 1149 -> zhongqi_t k = has_zhongqi k.
Proof. intros k H. unfold zhongqi_t. rewrite !sky_at_ok by lia.
  unfold has_zhongqi, sector, sky. cbn [fst snd]. reflexivity. Qed.
Lemma without_leap_ok : forall count k, first_month <= k -> k + Z.of_nat count < first_month + 1149 ->
  without_leap_t (consecutive k count) = without_leap (consecutive k count).
Proof.
  induction count as [|count IH]; intros k H1 H2; [reflexivity|]. cbn [consecutive without_leap_t without_leap].
  rewrite zhongqi_ok by lia. rewrite IH by lia. reflexivity.
Qed.
Lemma regular_ok : forall k, first_month <= k < first_month + 1130 -> regular_t k = regular_months k.
Proof.
  intros k H. unfold regular_t, regular_months. rewrite eleventh_ok by lia.
  rewrite without_leap_ok by lia. reflexivity.
Qed.
Lemma without_leap_In : forall ks j, In j (without_leap ks) -> In j ks.
Proof.
  induction ks as [|a ks IH]; [intros j []|]. cbn [without_leap]. intros j.
  destruct (has_zhongqi a); [|intros F; right; exact F]. intros [F|F]; [left; exact F|right; apply IH; exact F].
Qed.
Lemma regular_sub : forall k j, In j (regular_months k) -> k <= j < k + 13.
Proof.
  intros k j. unfold regular_months. generalize (eleventh (k + 13)). intros [|] H.
  - pose proof (without_leap_In _ _ H) as I. pose proof (proj1 (consecutive_In 13 k j) I). lia.
  - pose proof (proj1 (consecutive_In 12 k j) H). lia.
Qed.
Lemma regular_In : forall k i, first_month <= k < first_month + 1130 ->
  first_month <= nth i (regular_months k) k < first_month + 1150.
Proof.
  intros k i H. generalize (regular_sub k). generalize (regular_months k). intros l S.
  destruct (nth_in_or_default i l k) as [I | ->]; [|lia]. specialize (S _ I). lia.
Qed.

(** ** The eleventh months, one in each year *)

Definition elevenths : list Z := Eval vm_compute in
  filter (fun k => (year_start 1958 <=? start_at k) && (start_at k <? year_start 2049))
    (filter eleventh_t (consecutive first_month 1140)).
Lemma elevenths_ok : elevenths =
  filter (fun k => (year_start 1958 <=? start_at k) && (start_at k <? year_start 2049))
    (filter eleventh_t (consecutive first_month 1140)).
Proof. vm_compute. reflexivity. Qed.

Definition eleventh_of (y : Z) : Z := nth (Z.to_nat (y - 1959)) elevenths 0.

Lemma elevenths_years : map (fun k => year_of (start_at k)) elevenths = consecutive 1958 91.
Proof. vm_compute. reflexivity. Qed.

Lemma elevenths_In : forall k y, 1959 <= y <= 2049 ->
  eleventh k = true -> in_year (month_start k) (y - 1) -> In k elevenths.
Proof.
  intros k y Hy E I. pose proof (month_start_bounds k) as B. destruct I as [I1 I2].
  assert (Y1 : year_start 1958 <= year_start (y - 1)).
  { destruct (Z.eq_dec y 1959) as [-> | N]; [apply Z.le_refl|].
    pose proof (year_start_mono 1958 (y - 1) ltac:(lia)). lia. }
  assert (Y2 : year_start (y - 1 + 1) <= year_start 2049).
  { destruct (Z.eq_dec y 2049) as [-> | N]; [apply Z.le_refl|].
    pose proof (year_start_mono (y - 1 + 1) 2049 ltac:(lia)). lia. }
  assert (R : first_month <= k < first_month + 1130).
  { change (year_start 1958) with (-4383) in Y1. change (year_start 2049) with 28855 in Y2.
    unfold first_month. lia. }
  rewrite elevenths_ok. apply filter_In. split.
  - apply filter_In. split; [apply consecutive_In; lia|]. rewrite eleventh_ok by lia. exact E.
  - rewrite start_ok by lia. apply andb_true_iff. split; [apply Z.leb_le|apply Z.ltb_lt]; lia.
Qed.

Lemma eleventh_in : forall k, In k elevenths -> first_month <= k < first_month + 1130 /\ eleventh k = true.
Proof.
  intros k H.
  assert (A : forallb (fun k => (first_month <=? k) && (k <? first_month + 1130)) elevenths = true)
    by (vm_compute; reflexivity).
  rewrite forallb_forall in A. specialize (A k H). rewrite andb_true_iff, Z.leb_le, Z.ltb_lt in A.
  split; [exact A|]. rewrite elevenths_ok in H. destruct (proj1 (filter_In _ _ _) H) as [H' _].
  rewrite <- eleventh_ok by lia. exact (proj2 (proj1 (filter_In _ _ _) H')).
Qed.

Lemma eleventh_of_nth : forall i k, nth_error elevenths i = Some k -> year_of (month_start k) = 1958 + Z.of_nat i.
Proof.
  intros i k H. assert (I : In k elevenths) by (apply (nth_error_In _ i); exact H).
  pose proof (proj1 (eleventh_in k I)) as R.
  pose proof (map_nth_error (fun k => year_of (start_at k)) i elevenths H) as M. rewrite elevenths_years in M.
  assert (L : (i < 91)%nat) by (rewrite <- (consecutive_length 91 1958); apply nth_error_Some; rewrite M; discriminate).
  pose proof (nth_error_nth _ _ 0 M) as M'. rewrite consecutive_nth in M' by exact L.
  rewrite start_ok in M' by lia. rewrite <- M'. reflexivity.
Qed.

(** The dates of month [m] and day [d]. *)
Definition dates_of (m d : Z) : list Z :=
  map (fun k => start_at (nth (Z.to_nat (m + 1)) (regular_t k) k) + (d - 1)) elevenths.

Lemma chinese_date_iff : forall y m d n, 1959 <= y <= 2049 ->
  (chinese_date y m d n <-> nth_error (dates_of m d) (Z.to_nat (y - 1959)) = Some n).
Proof.
  intros y m d n Hy. unfold dates_of.
  assert (V : forall k, In k elevenths -> start_at (nth (Z.to_nat (m + 1)) (regular_t k) k)
    = month_start (nth (Z.to_nat (m + 1)) (regular_months k) k)).
  { intros k I. apply eleventh_in in I. destruct I as [I _]. rewrite regular_ok by lia.
    apply start_ok. apply regular_In. exact I. }
  split.
  - intros [k [E [I ->]]]. pose proof (elevenths_In k y Hy E I) as Hk.
    apply In_nth_error in Hk. destruct Hk as [i Hi]. pose proof (eleventh_of_nth i k Hi) as Y.
    apply in_year_iff in I. assert (i = Z.to_nat (y - 1959)) by lia. subst i.
    rewrite (map_nth_error _ _ _ Hi). rewrite V by (apply (nth_error_In _ _ Hi)). reflexivity.
  - intros H. destruct (nth_error elevenths (Z.to_nat (y - 1959))) as [k|] eqn:Hk.
    + rewrite (map_nth_error _ _ _ Hk) in H. injection H as <-. exists k.
      assert (I : In k elevenths) by (apply (nth_error_In _ _ Hk)).
      split; [apply eleventh_in; exact I|]. split; [|rewrite V by exact I; reflexivity].
      apply in_year_iff. rewrite (eleventh_of_nth _ _ Hk). lia.
    + exfalso. apply nth_error_None in Hk. rewrite <- (map_length (fun k => year_of (start_at k))) in Hk.
      rewrite elevenths_years, consecutive_length in Hk. lia.
Qed.

(** ** The days on which the sun reaches a longitude *)

Lemma longitude_bounds : forall t, 985647366 * (t - 109575000) + 2785000 * 1000000000 <=
  1000000000 * sun_longitude t <= 985647366 * (t - 109575000) + 2824000 * 1000000000.
Proof.
  intros t. unfold sun_longitude. cbv zeta.
  repeat match goal with |- context [sine ?a] => let s := fresh "s" in
    pose proof (sine_bounds a); set (s := sine a) in *; clearbody s end.
  unfold unit in *. Z.div_mod_to_equations. lia.
Qed.

Definition reaches (hours x n : Z) : bool :=
  if before hours x n then negb (before hours x (n + 1)) else false.
Lemma reaches_iff : forall hours x n, reaches hours x n = true <-> sun_reaches hours x n.
Proof.
  intros hours x n. unfold reaches, sun_reaches. destruct (before hours x n), (before hours x (n + 1)); cbn; intuition.
Qed.

(** The day, up to 3 days, on which the sun reaches [x] degrees and [q] half turns. *)
Definition centre (x q : Z) : Z :=
  ((x * 10000 + 1800000 * q - 2804665) * 1000000000 / 985647366 + 109575000) / 10000.

Lemma reaches_centre : forall hours x n, 0 <= hours <= 24 -> sun_reaches hours x n ->
  exists q, centre x q - 3 <= n <= centre x q + 4.
Proof.
  intros hours x n Hh [B1 B2]. unfold before in B1, B2. apply Z.leb_le in B1. apply Z.leb_gt in B2.
  pose proof (longitude_bounds (start_of_day hours n)) as L1.
  pose proof (longitude_bounds (start_of_day hours (n + 1))) as L2.
  set (v1 := sun_longitude (start_of_day hours n)) in *. set (v2 := sun_longitude (start_of_day hours (n + 1))) in *.
  clearbody v1 v2. unfold start_of_day, unit, centre in *.
  pose proof (Z.div_mod (v1 - x * 10000) (360 * 10000) ltac:(lia)) as D1.
  pose proof (Z.div_mod (v2 - x * 10000) (360 * 10000) ltac:(lia)) as D2.
  pose proof (Z.mod_pos_bound (v1 - x * 10000) (360 * 10000) ltac:(lia)) as M1.
  pose proof (Z.mod_pos_bound (v2 - x * 10000) (360 * 10000) ltac:(lia)) as M2.
  set (a := (v1 - x * 10000) / (360 * 10000)) in *. set (b := (v2 - x * 10000) / (360 * 10000)) in *.
  set (r := (v1 - x * 10000) mod (360 * 10000)) in *. set (s := (v2 - x * 10000) mod (360 * 10000)) in *.
  clearbody a b r s.
  assert (S1 : (24 * n - hours) * 10000 / 24 <= 10000 * n <= (24 * n - hours) * 10000 / 24 + 10001)
    by (Z.div_mod_to_equations; lia).
  assert (S2 : (24 * (n + 1) - hours) * 10000 / 24 <= 10000 * (n + 1) <= (24 * (n + 1) - hours) * 10000 / 24 + 10001)
    by (Z.div_mod_to_equations; lia).
  set (t1 := (24 * n - hours) * 10000 / 24) in *. set (t2 := (24 * (n + 1) - hours) * 10000 / 24) in *.
  clearbody t1 t2.
  assert (C : b = a \/ b = a + 1) by lia.
  destruct C as [-> | ->].
  - exists (2 * a + 1). Z.div_mod_to_equations. lia.
  - exists (2 * a + 2). Z.div_mod_to_equations. lia.
Qed.

Lemma centre_mono : forall x q q', q <= q' -> centre x q <= centre x q'.
Proof. intros x q q' H. unfold centre. Z.div_mod_to_equations. lia. Qed.

(** All of them between days [a] and [b], for the half turns from [q] on. *)
Definition sun_days (hours x q : Z) (count : nat) : list Z :=
  flat_map (fun q => filter (reaches hours x) (consecutive (centre x q - 3) 8)) (consecutive q count).
Lemma sun_days_ok : forall hours x q count a b n, 0 <= hours <= 24 ->
  centre x (q - 1) + 4 < a -> b < centre x (q + Z.of_nat count) - 3 -> a <= n <= b ->
  (sun_reaches hours x n <-> In n (sun_days hours x q count)).
Proof.
  intros hours x q count a b n Hh Ha Hb Hn. unfold sun_days. rewrite in_flat_map. split.
  - intros R. destruct (reaches_centre hours x n Hh R) as [p Hp]. exists p. split.
    + apply consecutive_In.
      destruct (Z.le_gt_cases q p) as [P1|P1]; [|pose proof (centre_mono x p (q - 1) ltac:(lia)); lia].
      destruct (Z.lt_ge_cases p (q + Z.of_nat count)) as [P2|P2]; [lia|].
      pose proof (centre_mono x _ _ P2). lia.
    + apply filter_In. split; [apply consecutive_In; lia|]. apply reaches_iff. exact R.
  - intros [p [_ H]]. apply filter_In in H. apply reaches_iff. apply H.
Qed.
