(** The closures of each exchange beside its almanac are those of Spec/Festivals.v.
    Each feast is enumerated; that the two lists have the same dates is computed. *)
From Coq Require Import ZArith String List Bool Lia.
From Verif.Model Require Import Dates Zone Holidays Build Exchange.
From Verif.Spec Require Import Construction Civil Rules Feasts Venue Almanac Hours Festivals.
From Verif.Proofs Require Import DatesLemmas RuleLemmas RuleRange FeastLemmas AlmanacLemmas AlmanacRules HoursRules.
From Verif.Exchanges Require Import All.
Import ListNotations.
Open Scope Z_scope.

(** ** Lists with the same dates *)

Fixpoint merge (l1 : list Z) : list Z -> list Z :=
  match l1 with
  | [] => fun l2 => l2
  | a :: r1 => fix go (l2 : list Z) : list Z :=
      match l2 with
      | [] => a :: r1
      | b :: r2 => if a <? b then a :: merge r1 (b :: r2)
                   else if b <? a then b :: go r2 else a :: merge r1 r2
      end
  end.
Lemma merge_In : forall l1 l2 n, In n (merge l1 l2) <-> In n l1 \/ In n l2.
Proof.
  induction l1 as [|a r1 IH]; [cbn; tauto|].
  induction l2 as [|b r2 IH2]; intros n; [cbn; tauto|]. cbn [merge].
  destruct (Z.ltb_spec a b).
  - cbn [In]. rewrite IH. cbn [In]. tauto.
  - destruct (Z.ltb_spec b a).
    + change ((fix go (l2 : list Z) : list Z := match l2 with [] => a :: r1 | b :: r2 =>
        if a <? b then a :: merge r1 (b :: r2) else if b <? a then b :: go r2 else a :: merge r1 r2 end) r2)
        with (merge (a :: r1) r2). cbn [In]. rewrite IH2. cbn [In]. tauto.
    + assert (a = b) by lia. subst b. cbn [In]. rewrite IH. tauto.
Qed.

(** Ascending runs. *)
Fixpoint runs (l : list Z) : list (list Z) :=
  match l with
  | [] => []
  | a :: l => match runs l with
              | [] => [[a]]
              | [] :: rs => [a] :: rs
              | (b :: r) :: rs => if a <? b then (a :: b :: r) :: rs else [a] :: (b :: r) :: rs
              end
  end.
Lemma runs_In : forall l n, In n (concat (runs l)) <-> In n l.
Proof.
  induction l as [|a l IH]; [reflexivity|]. intros n. cbn [runs In]. rewrite <- IH.
  destruct (runs l) as [|[|b r] rs]; [cbn; tauto|cbn; tauto|].
  destruct (a <? b); cbn; rewrite ?in_app_iff; tauto.
Qed.
Definition sorted_dates (l : list Z) : list Z := fold_right merge [] (runs l).
Lemma sorted_In : forall l n, In n (sorted_dates l) <-> In n l.
Proof.
  intros l n. rewrite <- (runs_In l). unfold sorted_dates. induction (runs l) as [|r rs IH]; [reflexivity|].
  cbn [fold_right concat]. rewrite merge_In, in_app_iff, IH. reflexivity.
Qed.

Fixpoint list_eqb (l1 l2 : list Z) : bool :=
  match l1, l2 with
  | [], [] => true
  | a :: r1, b :: r2 => if a =? b then list_eqb r1 r2 else false
  | _, _ => false
  end.
Lemma list_eqb_eq : forall l1 l2, list_eqb l1 l2 = true -> l1 = l2.
Proof.
  induction l1 as [|a r1 IH]; intros [|b r2] H; try reflexivity; try discriminate H. cbn [list_eqb] in H.
  destruct (Z.eqb_spec a b) as [->|]; [|discriminate H]. rewrite (IH r2 H). reflexivity.
Qed.
Definition alike (l1 l2 : list Z) : bool := list_eqb (sorted_dates l1) (sorted_dates l2).
Lemma alike_In : forall l1 l2, alike l1 l2 = true -> forall n, In n l1 <-> In n l2.
Proof.
  intros l1 l2 H n. apply list_eqb_eq in H. rewrite <- (sorted_In l1), <- (sorted_In l2), H. reflexivity.
Qed.

(** ** Enumerating a feast *)

Definition enum (h : days) (l : list Z) : Prop := forall n, h n <-> In n l.

Lemma enum_dated : forall ds, enum (dated ds) ds.
Proof. intros ds n. reflexivity. Qed.

Lemma enum_listed : forall l, enum (listed l) (map (fun '(y, m, d) => date_number y m d) l).
Proof.
  intros l n. unfold listed. rewrite in_map_iff. split.
  - intros [y [m [d [H ->]]]]. exists (y, m, d). tauto.
  - intros [[[y m] d] [E H]]. exists y, m, d. split; [exact H|symmetry; exact E].
Qed.

Lemma enum_date : forall y m d, enum (date y m d) [date_number y m d].
Proof. intros y m d n. unfold date. cbn [In]. intuition. Qed.

Lemma enum_days : forall y m d y' m' d', enum (days_from_to (y, m, d) (y', m', d'))
  (year_range (date_number y m d) (date_number y' m' d')).
Proof. intros y m d y' m' d' n. unfold days_from_to. rewrite year_range_In. lia. Qed.

Lemma enum_filter : forall (P : Z -> Prop) p h l, enum h l -> (forall n, p n = true <-> P n) ->
  enum (fun n => P n /\ h n) (filter p l).
Proof. intros P p h l E R n. rewrite filter_In, R, (E n). tauto. Qed.

Lemma enum_since : forall y h l, enum h l -> enum (since y h) (filter (Z.leb (date_number y 1 1)) l).
Proof. intros y h l E. apply enum_filter; [exact E|]. intros n. apply Z.leb_le. Qed.
Lemma enum_through : forall y h l, enum h l -> enum (through y h) (filter (fun n => n <=? date_number y 12 31) l).
Proof.
  intros y h l E. refine (enum_filter (fun n => n <= date_number y 12 31) _ h l E _). intros n. apply Z.leb_le.
Qed.
Lemma enum_on : forall wds h l, enum h l -> enum (on wds h) (filter (fun n => memb (day_of_week n) wds) l).
Proof.
  intros wds h l E. refine (enum_filter (fun n => In (day_of_week n) wds) _ h l E _). intros n. apply memb_In.
Qed.

Lemma enum_kept : forall moved f h l, enum h l ->
  (forall a, In a l -> forall n, moved a n <-> In n (f a)) -> enum (kept moved h) (flat_map f l).
Proof.
  intros moved f h l E M n. unfold kept. rewrite in_flat_map. split; intros [a [H1 H2]]; exists a.
  - apply E in H1. split; [exact H1|]. apply (M a H1). exact H2.
  - split; [apply E; exact H1|]. apply (M a H1). exact H2.
Qed.
Lemma enum_moved : forall moved f h l, (forall a n, moved a n <-> In n (f a)) -> enum h l ->
  enum (kept moved h) (flat_map f l).
Proof. intros moved f h l M E. apply enum_kept; [exact E|]. intros a _. apply M. Qed.

(** The first day from [a] on. *)
Fixpoint search (p : Z -> bool) (step : Z) (fuel : nat) (a : Z) : list Z :=
  match fuel with
  | O => []
  | S k => if p a then [a] else search p step k (a + step)
  end.
Lemma search_up : forall (P : Z -> Prop) p k a n, (forall m, p m = true <-> P m) -> In n (search p 1 k a) ->
  first_from P a n.
Proof.
  intros P p k a n R. revert a. induction k as [|k IH]; [intros a []|]. intros a H. cbn [search] in H.
  destruct (p a) eqn:Q.
  - destruct H as [<-|[]]. split; [lia|]. split; [apply R; exact Q|lia].
  - destruct (IH (a + 1) H) as [A [B C]]. split; [lia|]. split; [exact B|]. intros m Hm F.
    destruct (Z.eq_dec m a) as [->|]; [apply R in F; congruence|]. apply (C m); [lia|exact F].
Qed.
Lemma search_down : forall (P : Z -> Prop) p k a n, (forall m, p m = true <-> P m) -> In n (search p (-1) k a) ->
  last_until P a n.
Proof.
  intros P p k a n R. revert a. induction k as [|k IH]; [intros a []|]. intros a H. cbn [search] in H.
  destruct (p a) eqn:Q.
  - destruct H as [<-|[]]. split; [lia|]. split; [apply R; exact Q|lia].
  - destruct (IH (a + -1) H) as [A [B C]]. split; [lia|]. split; [exact B|]. intros m Hm F.
    destruct (Z.eq_dec m a) as [->|]; [apply R in F; congruence|]. apply (C m); [lia|exact F].
Qed.
Lemma search_one : forall p step k a, search p step k a <> [] -> exists n, search p step k a = [n].
Proof.
  intros p step k. induction k as [|k IH]; intros a H; [contradiction|]. cbn [search] in *.
  destruct (p a); [exists a; reflexivity|]. apply IH. exact H.
Qed.
Lemma search_up_iff : forall (P : Z -> Prop) p k a, (forall m, p m = true <-> P m) -> search p 1 k a <> [] ->
  forall n, first_from P a n <-> In n (search p 1 k a).
Proof.
  intros P p k a R H n. destruct (search_one p 1 k a H) as [f F].
  pose proof (search_up P p k a f R) as U. rewrite F in *. specialize (U (or_introl eq_refl)).
  rewrite <- (first_from_iff P a f n U). cbn [In]. intuition.
Qed.
Lemma search_down_iff : forall (P : Z -> Prop) p k a, (forall m, p m = true <-> P m) -> search p (-1) k a <> [] ->
  forall n, last_until P a n <-> In n (search p (-1) k a).
Proof.
  intros P p k a R H n. destruct (search_one p (-1) k a H) as [f F].
  pose proof (search_down P p k a f R) as U. rewrite F in *. specialize (U (or_introl eq_refl)).
  rewrite <- (last_until_iff P a f n U). cbn [In]. intuition.
Qed.

Definition found (f : Z -> list Z) (l : list Z) : bool :=
  forallb (fun a => match f a with [] => false | _ => true end) l.
Lemma enum_first : forall (P : Z -> Prop) p k h l, (forall m, p m = true <-> P m) -> enum h l ->
  found (search p 1 k) l = true -> enum (kept (first_from P) h) (flat_map (search p 1 k) l).
Proof.
  intros P p k h l R E F. apply enum_kept; [exact E|]. intros a Ha. apply search_up_iff; [exact R|].
  unfold found in F. rewrite forallb_forall in F. specialize (F a Ha). destruct (search p 1 k a); discriminate.
Qed.

(** Workdays and days other than Sundays come back within a week. *)
Definition not_sunday (m : Z) : bool := negb (day_of_week m =? SUNDAY).
Definition is_workday (m : Z) : bool := day_of_week m <? 5.
Lemma not_sunday_iff : forall m, not_sunday m = true <-> weekday_but_sunday m.
Proof.
  intros m. unfold not_sunday, weekday_but_sunday. rewrite negb_true_iff, Z.eqb_neq. reflexivity.
Qed.
Lemma is_workday_iff : forall m, is_workday m = true <-> workday m.
Proof. intros m. unfold is_workday, workday. apply Z.ltb_lt. Qed.

Lemma not_sunday_found : forall a, search not_sunday 1 2 a <> [].
Proof.
  intros a. cbn [search]. unfold not_sunday, day_of_week, SUNDAY. destruct (negb ((a + 3) mod 7 =? 6)) eqn:E; [discriminate|].
  destruct (negb ((a + 1 + 3) mod 7 =? 6)) eqn:E'; [discriminate|].
  rewrite negb_false_iff, Z.eqb_eq in E, E'. Z.div_mod_to_equations. lia.
Qed.
Lemma workday_found : forall a, search is_workday 1 3 a <> [].
Proof.
  intros a. cbn [search]. unfold is_workday, day_of_week.
  destruct (Z.ltb_spec ((a + 3) mod 7) 5); [discriminate|].
  destruct (Z.ltb_spec ((a + 1 + 3) mod 7) 5); [discriminate|].
  destruct (Z.ltb_spec ((a + 1 + 1 + 3) mod 7) 5); [discriminate|].
  Z.div_mod_to_equations. lia.
Qed.
Lemma workday_found_down : forall a, search is_workday (-1) 3 a <> [].
Proof.
  intros a. cbn [search]. unfold is_workday, day_of_week.
  destruct (Z.ltb_spec ((a + 3) mod 7) 5); [discriminate|].
  destruct (Z.ltb_spec ((a + -1 + 3) mod 7) 5); [discriminate|].
  destruct (Z.ltb_spec ((a + -1 + -1 + 3) mod 7) 5); [discriminate|].
  Z.div_mod_to_equations. lia.
Qed.

Fixpoint nth_up (p : Z -> bool) (fuel k : nat) (a : Z) : list Z :=
  match k with
  | O => search p 1 fuel a
  | S k => flat_map (fun f => nth_up p fuel k (f + 1)) (search p 1 fuel a)
  end.
Fixpoint nth_down (p : Z -> bool) (fuel k : nat) (a : Z) : list Z :=
  match k with
  | O => search p (-1) fuel a
  | S k => flat_map (fun f => nth_down p fuel k (f - 1)) (search p (-1) fuel a)
  end.
Lemma nth_up_iff : forall (P : Z -> Prop) p fuel, (forall m, p m = true <-> P m) ->
  (forall a, search p 1 fuel a <> []) -> forall k a n, nth_from P k a n <-> In n (nth_up p fuel k a).
Proof.
  intros P p fuel R F. induction k as [|k IH]; intros a n; cbn [nth_from nth_up].
  - apply search_up_iff; [exact R|apply F].
  - rewrite in_flat_map. split; intros [f [H1 H2]]; exists f; (split; [|apply IH; exact H2]);
      apply (search_up_iff P p fuel a R (F a)); exact H1.
Qed.
Lemma nth_down_iff : forall (P : Z -> Prop) p fuel, (forall m, p m = true <-> P m) ->
  (forall a, search p (-1) fuel a <> []) -> forall k a n, nth_until P k a n <-> In n (nth_down p fuel k a).
Proof.
  intros P p fuel R F. induction k as [|k IH]; intros a n; cbn [nth_until nth_down].
  - apply search_down_iff; [exact R|apply F].
  - rewrite in_flat_map. split; intros [f [H1 H2]]; exists f; (split; [|apply IH; exact H2]);
      apply (search_down_iff P p fuel a R (F a)); exact H1.
Qed.

Lemma enum_later : forall k h l, enum h l -> enum (kept (days_later k) h) (flat_map (fun a => [a + k]) l).
Proof. intros k h l. apply enum_moved. intros a n. unfold days_later. cbn [In]. intuition. Qed.
Lemma enum_after_sunday : forall h l, enum h l -> enum (kept after_sunday h) (flat_map (search not_sunday 1 2) l).
Proof.
  intros h l. apply enum_moved. intros a n. apply search_up_iff; [exact not_sunday_iff|apply not_sunday_found].
Qed.
Lemma enum_but_sunday : forall k h l, enum h l ->
  enum (kept (nth_from weekday_but_sunday k) h) (flat_map (nth_up not_sunday 2 k) l).
Proof.
  intros k h l. apply enum_moved. intros a n. apply nth_up_iff; [exact not_sunday_iff|exact not_sunday_found].
Qed.
Lemma enum_workday : forall k h l, enum h l -> enum (kept (nth_from workday k) h) (flat_map (nth_up is_workday 3 k) l).
Proof.
  intros k h l. apply enum_moved. intros a n. apply nth_up_iff; [exact is_workday_iff|exact workday_found].
Qed.
Lemma enum_workday_before : forall k h l, enum h l ->
  enum (kept (fun a => nth_until workday k (a - 1)) h) (flat_map (fun a => nth_down is_workday 3 k (a - 1)) l).
Proof.
  intros k h l. apply enum_moved. intros a n. apply nth_down_iff; [exact is_workday_iff|exact workday_found_down].
Qed.

(** ** The feasts *)

Lemma orthodox_range : forall y n, is_orthodox_easter y n ->
  365 * y + y / 4 - 719164 - 365 + 79 < n <= 365 * y + y / 4 - 719164 - 365 + 79 + 40.
Proof.
  intros y n [A [B C]]. unfold julian_full_moon, julian_march_21 in *.
  assert (E : 0 <= julian_epact y < 30) by (apply Z.mod_pos_bound; lia).
  set (e := if julian_epact y <? 24 then 23 - julian_epact y else 53 - julian_epact y) in *.
  assert (He : 0 <= e <= 29) by (unfold e; destruct (Z.ltb_spec (julian_epact y) 24); lia).
  assert (Q : (y - 1) / 4 + (if y mod 4 =? 0 then 29 else 28) = y / 4 + 28)
    by (destruct (Z.eqb_spec (y mod 4) 0); Z.div_mod_to_equations; lia).
  set (q := if y mod 4 =? 0 then 29 else 28) in *. clearbody e q.
  split; [lia|].
  assert (W : n < 365 * (y - 1) + (y - 1) / 4 - 719164 + 31 + q + 20 + e + 1 + 7); [|lia].
  destruct (Z.lt_ge_cases n (365 * (y - 1) + (y - 1) / 4 - 719164 + 31 + q + 20 + e + 1 + 7)) as [L|G]; [exact L|].
  exfalso. apply (C (n - 7)); [lia|]. unfold day_of_week in *.
  replace (n - 7 + 3) with (n + 3 + (-1) * 7) by lia. rewrite Z_mod_plus_full. exact B.
Qed.

Lemma enum_orthodox : forall k, -60 <= k <= 60 -> enum (between 1980 2020 (orthodox_plus k))
  (map (fun y => orthodox_easter y + k) (year_range 1980 2020)).
Proof.
  intros k Hk n. rewrite in_map_iff. unfold between, since, through, orthodox_plus.
  change (date_number 1980 1 1) with 3652. change (date_number 2020 12 31) with 18627. split.
  - intros [H1 [H2 [y H]]]. exists y. pose proof (orthodox_range y _ H) as R.
    assert (Hy : 1980 <= y <= 2020) by (Z.div_mod_to_equations; lia).
    pose proof (first_from_unique _ _ _ _ (orthodox_easter_ok y ltac:(lia)) H).
    split; [lia|]. apply year_range_In. lia.
  - intros [y [<- H]]. apply year_range_In in H. pose proof (orthodox_easter_ok y ltac:(lia)) as O.
    pose proof (orthodox_range y _ O) as R. split; [Z.div_mod_to_equations; lia|].
    split; [Z.div_mod_to_equations; lia|]. exists y. replace (orthodox_easter y + k - k) with (orthodox_easter y) by lia.
    exact O.
Qed.

Definition equinox_day (m day0 y : Z) : Z :=
  date_number y m ((day0 + 242194 * (y - 1980)) / 1000000 - (y - 1980) / 4).
Lemma enum_equinox : forall m day0, enum (equinox m day0) (map (equinox_day m day0) (year_range 1980 2099)).
Proof.
  intros m day0 n. rewrite in_map_iff. unfold equinox. split; intros [y [H1 H2]]; exists y.
  - split; [symmetry; exact H2|]. apply year_range_In. lia.
  - apply year_range_In in H2. split; [lia|]. symmetry. exact H1.
Qed.

Lemma easter_monday_iff : forall m, m = easter (year_of m) + 1 <-> easter_monday m.
Proof.
  intros m. unfold easter_monday, easter_plus. split.
  - intros E. exists (year_of m). apply is_easter_iff. lia.
  - intros [y H]. apply is_easter_iff in H.
    assert (Y : in_year m y).
    { replace m with (easter y + 1) by lia. pose proof (easter_bounds y) as [B1 B2].
      apply (in_year_dates y _ 3 22 4 26); [split; [lia|]; change (month_length y 3) with 31; lia|
        split; [lia|]; change (month_length y 4) with 30; lia|].
      rewrite (date_number_first y 4 26). rewrite (date_number_first y 4 25) in B2. lia. }
    apply in_year_iff in Y. rewrite Y. lia.
Qed.

Lemma october_1_iff : forall m, (if month_of m =? 10 then mday_of m =? 1 else false) = true <-> annual 10 1 m.
Proof.
  intros m. destruct (civil_of_day m) as [V E]. unfold annual. split.
  - intros H. destruct (Z.eqb_spec (month_of m) 10) as [E1|]; [|discriminate H]. apply Z.eqb_eq in H.
    exists (year_of m). rewrite <- E1, <- H. exact E.
  - intros [y H]. pose proof (eq_trans (eq_sym H) E) as Q.
    apply date_number_inj in Q; [| |exact V].
    + destruct Q as [_ [<- <-]]. reflexivity.
    + split; [lia|]. change (month_length y 10) with 31. lia.
Qed.

Lemma enum_annual : forall y y' m d, 1 <= m <= 12 -> 1 <= d <= 28 ->
  enum (between y y' (annual m d)) (map (fun y => date_number y m d) (year_range y y')).
Proof.
  intros y y' m d Hm Hd n. rewrite in_map_iff. unfold between, since, through, annual.
  assert (V : forall x, valid_date x m d).
  { intros x. split; [exact Hm|]. pose proof (month_length_28 x m Hm). lia. }
  split.
  - intros [H1 [H2 [x ->]]]. pose proof (date_number_year x m d (V x)) as Y.
    rewrite (since_year _ _ y Y) in H1. rewrite (through_year _ _ y' Y) in H2.
    exists x. split; [reflexivity|]. apply year_range_In. lia.
  - intros [x [<- H]]. apply year_range_In in H. pose proof (date_number_year x m d (V x)) as Y.
    rewrite (since_year _ _ y Y), (through_year _ _ y' Y). split; [lia|]. split; [lia|]. exists x. reflexivity.
Qed.

Lemma enum_good_friday : forall y y', enum (between y y' good_friday)
  (map (fun y => easter y - 2) (year_range y y')).
Proof.
  intros y y' n. rewrite in_map_iff. unfold between, since, through, good_friday, easter_plus.
  assert (Y : forall x, in_year (easter x - 2) x).
  { intros x. pose proof (easter_bounds x) as [B1 B2].
    apply (in_year_dates x _ 3 20 4 25); [split; [lia|]; change (month_length x 3) with 31; lia|
      split; [lia|]; change (month_length x 4) with 30; lia|].
    rewrite (date_number_first x 3 20). rewrite (date_number_first x 3 22) in B1. lia. }
  split.
  - intros [H1 [H2 [x H]]]. apply is_easter_iff in H. replace n with (easter x - 2) in * by lia.
    rewrite (since_year _ _ y (Y x)) in H1. rewrite (through_year _ _ y' (Y x)) in H2.
    exists x. split; [reflexivity|]. apply year_range_In. lia.
  - intros [x [<- H]]. apply year_range_In in H.
    rewrite (since_year _ _ y (Y x)), (through_year _ _ y' (Y x)). split; [lia|]. split; [lia|]. exists x.
    apply is_easter_iff. lia.
Qed.

Lemma enum_qingming : forall h l k,
  found (search (fun m => if not_sunday m then negb (m =? easter (year_of m) + 1) else false) 1 k) l = true -> enum h l ->
  enum (kept (first_from (fun m => weekday_but_sunday m /\ ~ easter_monday m)) h)
    (flat_map (search (fun m => if not_sunday m then negb (m =? easter (year_of m) + 1) else false) 1 k) l).
Proof.
  intros h l k F E. apply enum_first; [|exact E|exact F]. intros m.
  rewrite <- not_sunday_iff, <- easter_monday_iff.
  destruct (not_sunday m); rewrite ?negb_true_iff, ?Z.eqb_neq; intuition discriminate.
Qed.

Lemma enum_after_mid_autumn : forall h l,
  enum h l -> enum (kept (fun a => first_from (fun m => ~ annual 10 1 m) (a + 1)) h)
    (flat_map (fun a => search (fun m => negb (if month_of m =? 10 then mday_of m =? 1 else false)) 1 2 (a + 1)) l).
Proof.
  intros h l. apply enum_moved. intros a.
  assert (R : forall m, negb (if month_of m =? 10 then mday_of m =? 1 else false) = true <-> ~ annual 10 1 m).
  { intros m. rewrite negb_true_iff, <- october_1_iff. symmetry. apply not_true_iff_false. }
  apply search_up_iff; [exact R|]. cbn [search].
  destruct (negb _) eqn:E1; [discriminate|]. destruct (negb _) eqn:E2 in |- *; [discriminate|]. exfalso.
  apply not_true_iff_false in E1, E2. rewrite R in E1, E2. apply E1. intros [y Hy]. apply E2. intros [y' Hy'].
  assert (Q : date_number y' 10 1 = date_number y 10 2).
  { rewrite (date_number_first y 10 2). lia. }
  apply date_number_inj in Q; [lia| |]; (split; [lia|]); [change (month_length y' 10) with 31|change (month_length y 10) with 31]; lia.
Qed.

Lemma enum_moved_2014 : forall h l, enum h l -> enum (kept moved_since_2014 h)
  (flat_map (fun a => [if a <? date_number 2014 1 1 then a else nearest_workday a]) l).
Proof.
  intros h l. apply enum_moved. intros a n. unfold moved_since_2014, closest_workday. cbn [In].
  rewrite <- nearest_workday_ok. destruct (Z.ltb_spec a (date_number 2014 1 1)); intuition lia.
Qed.
Lemma enum_bridge : forall h l, enum h l -> enum (kept bridge h)
  (flat_map (fun a => if day_of_week a =? THURSDAY then [a + 1] else
                      if day_of_week a =? TUESDAY then [a - 1] else []) l).
Proof.
  intros h l. apply enum_moved. intros a n. unfold bridge.
  destruct (Z.eqb_spec (day_of_week a) THURSDAY) as [E|E]; [rewrite E; unfold THURSDAY, TUESDAY; cbn [In]; lia|].
  destruct (Z.eqb_spec (day_of_week a) TUESDAY) as [E'|E']; cbn [In]; [rewrite E' in *|]; lia.
Qed.

Lemma enum_new_year_4 : forall h l, enum h l ->
  enum (fun a => h a /\ exists k, 0 <= k <= 2 /\ day_of_week (a + k) = SUNDAY)
    (filter (fun a => 4 <=? day_of_week a) l).
Proof.
  intros h l E n. rewrite filter_In, <- (E n), Z.leb_le.
  assert (A : 4 <= day_of_week n <-> exists k, 0 <= k <= 2 /\ day_of_week (n + k) = SUNDAY); [|tauto].
  unfold day_of_week, SUNDAY. split.
  - intros H. exists (6 - (n + 3) mod 7). split; [Z.div_mod_to_equations; lia|]. Z.div_mod_to_equations. lia.
  - intros [k [H1 H2]]. Z.div_mod_to_equations. lia.
Qed.

Lemma enum_silver_week : forall h l, enum h l ->
  enum (fun n => nth_of 3 MONDAY 9 (n - 1) /\ h (n + 1))
    (flat_map (fun e => if (if day_of_week (e - 2) =? MONDAY then
                              if month_of (e - 2) =? 9 then if 14 <? mday_of (e - 2) then mday_of (e - 2) <=? 21
                              else false else false else false) then [e - 1] else []) l).
Proof.
  intros h l E n. rewrite in_flat_map.
  assert (A : forall a, (if day_of_week a =? MONDAY then if month_of a =? 9 then if 14 <? mday_of a
     then mday_of a <=? 21 else false else false else false) = true <-> nth_of 3 MONDAY 9 a).
  { intros a. destruct (civil_of_day a) as [V Ea]. unfold nth_of. split.
    - intros H. destruct (Z.eqb_spec (day_of_week a) MONDAY) as [E1|]; [|discriminate H].
      destruct (Z.eqb_spec (month_of a) 9) as [E2|]; [|discriminate H].
      destruct (Z.ltb_spec 14 (mday_of a)); [|discriminate H]. apply Z.leb_le in H.
      exists (year_of a), (mday_of a). rewrite E2 in Ea. split; [exact Ea|]. split; [exact E1|lia].
    - intros [y [d [H1 [H2 H3]]]]. pose proof (eq_trans (eq_sym H1) Ea) as Q.
      apply date_number_inj in Q; [| |exact V].
      + destruct Q as [_ [<- <-]]. rewrite H2. cbn [Z.eqb Pos.eqb MONDAY].
        destruct (Z.ltb_spec 14 d); [apply Z.leb_le; lia|lia].
      + split; [lia|]. change (month_length y 9) with 30. lia. }
  split.
  - intros [H1 H2]. exists (n + 1). split; [apply E; exact H2|]. replace (n + 1 - 2) with (n - 1) by lia.
    rewrite (proj2 (A (n - 1)) H1). left. lia.
  - intros [e [H1 H2]]. specialize (A (e - 2)). destruct (if _ =? MONDAY then _ else _) eqn:Q in A.
    + rewrite Q in H2. destruct H2 as [<-|[]]. replace (e - 1 - 1) with (e - 2) by lia.
      replace (e - 1 + 1) with e by lia. split; [apply A; reflexivity|apply E; exact H1].
    + rewrite Q in H2. destruct H2.
Qed.

(** ** The exchanges *)

Lemma same_enum : forall ds hs ls, Forall2 enum hs ls -> alike ds (concat ls) = true -> same_dates ds hs.
Proof.
  intros ds hs ls F A n. rewrite (alike_In _ _ A n). clear A ds.
  induction F as [|h l hs ls E F IH]; cbn [concat].
  - split; [intros []|intros [h [[] _]]].
  - rewrite in_app_iff, IH. cbn [In]. split.
    + intros [H|[k [H1 H2]]]; [exists h; split; [left; reflexivity|apply E; exact H]|exists k; tauto].
    + intros [k [[<-|H1] H2]]; [left; apply E; exact H2|right; exists k; tauto].
Qed.

Ltac feast :=
  cbv delta [lunar_new_year qingming buddhas_birthday dragon_boat mid_autumn double_ninth eid_al_fitr eid_al_adha
    vernal_equinox autumnal_equinox new_years_day christmas mourning hurricane_sandy new_york_single_days hong_kong_single_days
    jakarta_single_days karachi_single_days moscow_single_days manila_single_days taipei_single_days] beta;
  lazymatch goal with
  | |- enum (between 1980 2020 (orthodox_plus _)) _ => apply enum_orthodox; lia
  | |- enum (between _ _ (annual _ _)) _ => apply enum_annual; lia
  | |- enum (between _ _ good_friday) _ => apply enum_good_friday
  | |- enum (between _ _ _) _ => unfold between; feast
  | |- enum (dated _) _ => apply enum_dated
  | |- enum (listed _) _ => apply enum_listed
  | |- enum (date _ _ _) _ => apply enum_date
  | |- enum (days_from_to _ _) _ => apply enum_days
  | |- enum (since _ _) _ => apply enum_since; feast
  | |- enum (through _ _) _ => apply enum_through; feast
  | |- enum (on _ _) _ => apply enum_on; feast
  | |- enum (equinox _ _) _ => apply enum_equinox
  | |- enum (kept (days_later _) _) _ => apply enum_later; feast
  | |- enum (kept after_sunday _) _ => apply enum_after_sunday; feast
  | |- enum (kept (nth_from weekday_but_sunday _) _) _ => apply enum_but_sunday; feast
  | |- enum (kept (nth_from workday _) _) _ => apply enum_workday; feast
  | |- enum (kept (fun a => nth_until workday _ (a - 1)) _) _ => apply enum_workday_before; feast
  | |- enum (kept moved_since_2014 _) _ => apply enum_moved_2014; feast
  | |- enum (kept bridge _) _ => apply enum_bridge; feast
  | |- enum (kept (first_from (fun m => weekday_but_sunday m /\ ~ easter_monday m)) _) _ =>
      apply (enum_qingming _ lunisolar_holidays.qingming_festival_dates 4); [vm_compute; reflexivity|apply enum_dated]
  | |- enum (kept (fun a => first_from (fun m => ~ annual 10 1 m) (a + 1)) _) _ => apply enum_after_mid_autumn; feast
  | |- enum (fun a => _ /\ exists k, _) _ => apply enum_new_year_4; feast
  | |- enum (fun n => nth_of 3 MONDAY 9 (n - 1) /\ _ (n + 1)) _ => apply enum_silver_week; feast
  end.
Ltac feasts :=
  eapply same_enum;
  [ repeat (apply Forall2_cons; [feast|]); apply Forall2_nil
  | vm_compute; reflexivity ].

Lemma asex_closures : same_dates (ex_adhoc_holidays exchange_calendar_asex.calendar)
  athens_closures.
Proof. unfold athens_closures. feasts. Qed.

Lemma bvmf_closures : same_dates (ex_adhoc_holidays exchange_calendar_bvmf.calendar)
  [date 2014 6 12].
Proof. feasts. Qed.

Lemma cmes_closures : same_dates (ex_adhoc_holidays exchange_calendar_cmes.calendar)
  [mourning].
Proof. feasts. Qed.

Lemma iepa_closures : same_dates (ex_adhoc_holidays exchange_calendar_iepa.calendar)
  [mourning; date 2012 10 29].
Proof. feasts. Qed.

Lemma xasx_closures : same_dates (ex_adhoc_holidays exchange_calendar_xasx.calendar)
  [listed [(2011, 4, 26); (1984, 12, 31); (1990, 12, 31); (1988, 1, 25); (1999, 12, 31)]].
Proof. feasts. Qed.

Lemma xbkk_closures : same_dates (ex_adhoc_holidays exchange_calendar_xbkk.calendar)
  [dated xbkk_holidays.makha_bucha; dated xbkk_holidays.vesak; dated xbkk_holidays.asanha_bucha;
   listed [(2002, 12, 30); (2004, 1, 2); (2009, 1, 2); (2013, 12, 30); (2015, 1, 2); (2009, 7, 6);
   (2016, 7, 18); (2010, 8, 13); (2014, 8, 11); (2015, 5, 4); (2016, 5, 6); (2011, 5, 16);
   (2006, 4, 19); (2006, 6, 12); (2006, 6, 13); (2006, 9, 20); (2007, 12, 24); (2010, 5, 20);
   (2010, 5, 21); (2012, 4, 9); (2017, 10, 26)]].
Proof. feasts. Qed.

Lemma xbom_closures : same_dates (ex_adhoc_holidays exchange_calendar_xbom.calendar)
  [dated exchange_calendar_xbom.precomputed_holidays].
Proof. feasts. Qed.

Lemma xbue_closures : same_dates (ex_adhoc_holidays exchange_calendar_xbue.calendar)
  [days_from_to (2002, 1, 7) (2002, 1, 16); days_from_to (2002, 4, 22) (2002, 4, 26);
   listed [(2009, 7, 10); (2010, 5, 24); (2010, 10, 27); (2012, 1, 2); (2012, 2, 27); (2012, 9, 24);
   (2013, 1, 31); (2013, 2, 20); (2018, 11, 30); (2011, 3, 25); (2011, 12, 9); (2012, 4, 30);
   (2013, 4, 1); (2013, 6, 21); (2014, 5, 2); (2014, 12, 26); (2015, 3, 23); (2015, 12, 7);
   (2016, 7, 8); (2016, 12, 9); (2018, 4, 30); (2018, 12, 24); (2018, 12, 31); (2019, 7, 8);
   (2019, 8, 19); (2019, 10, 14); (2012, 10, 8); (2011, 8, 22); (2015, 11, 27); (2016, 11, 28)]].
Proof. feasts. Qed.

Lemma xcbf_closures : same_dates (ex_adhoc_holidays exchange_calendar_xcbf.calendar)
  [hurricane_sandy; mourning].
Proof. feasts. Qed.

Lemma xdub_closures : same_dates (ex_adhoc_holidays exchange_calendar_xdub.calendar)
  [date 2018 3 2].
Proof. feasts. Qed.

Lemma xfra_closures : same_dates (ex_adhoc_holidays exchange_calendar_xfra.calendar)
  [listed [(2007, 5, 28); (2017, 10, 31)]].
Proof. feasts. Qed.

Lemma xetr_closures : same_dates (ex_adhoc_holidays exchange_calendar_xetr.calendar)
  [listed [(2007, 5, 28); (2017, 10, 31)]].
Proof. feasts. Qed.

Lemma xhkg_closures : same_dates (ex_adhoc_holidays exchange_calendar_xhkg.calendar)
  hong_kong_closures.
Proof. unfold hong_kong_closures. feasts. Qed.

Lemma xidx_closures : same_dates (ex_adhoc_holidays exchange_calendar_xidx.calendar)
  [since 2002 lunar_new_year; jakarta_single_days].
Proof. feasts. Qed.

Lemma xist_closures : same_dates (ex_adhoc_holidays exchange_calendar_xist.calendar)
  istanbul_closures.
Proof. unfold istanbul_closures. feasts. Qed.

Lemma xjse_closures : same_dates (ex_adhoc_holidays exchange_calendar_xjse.calendar)
  [listed [(2004, 4, 14); (2006, 3, 1); (2009, 4, 22); (2011, 5, 18); (2014, 5, 7); (2016, 8, 3);
           (2019, 5, 8); (2008, 5, 2); (2011, 12, 27); (2016, 12, 27)]].
Proof. feasts. Qed.

Lemma xkar_closures : same_dates (ex_adhoc_holidays exchange_calendar_xkar.calendar)
  [karachi_single_days].
Proof. feasts. Qed.

Lemma xkls_closures : same_dates (ex_adhoc_holidays exchange_calendar_xkls.calendar)
  kuala_lumpur_closures.
Proof. unfold kuala_lumpur_closures. feasts. Qed.

Lemma xkrx_closures : same_dates (ex_adhoc_holidays exchange_calendar_xkrx.calendar)
  [dated exchange_calendar_xkrx.precomputed_holidays].
Proof. feasts. Qed.

Lemma xlim_closures : same_dates (ex_adhoc_holidays exchange_calendar_xlim.calendar)
  [listed [(2009, 1, 2); (2009, 7, 27); (2015, 7, 27); (2015, 10, 9); (2015, 1, 2); (2012, 10, 1);
           (2012, 10, 2); (2016, 11, 17); (2016, 11, 18); (2018, 4, 13)]].
Proof. feasts. Qed.

Lemma xlon_closures : same_dates (ex_adhoc_holidays exchange_calendar_xlon.calendar)
  [listed [(1995, 5, 8); (2020, 5, 8); (1977, 6, 7); (2002, 6, 3); (2002, 6, 4); (2012, 6, 4);
           (2012, 6, 5); (1973, 11, 14); (1981, 7, 29); (2011, 4, 29); (1999, 12, 31)]].
Proof. feasts. Qed.

Lemma xmex_closures : same_dates (ex_adhoc_holidays exchange_calendar_xmex.calendar)
  [date 2010 9 17].
Proof. feasts. Qed.

Lemma xmos_closures : same_dates (ex_adhoc_holidays exchange_calendar_xmos.calendar)
  [moscow_single_days].
Proof. feasts. Qed.

Lemma xnys_closures : same_dates (ex_adhoc_holidays exchange_calendar_xnys.calendar)
  new_york_closures.
Proof. unfold new_york_closures. feasts. Qed.

Lemma xnze_closures : same_dates (ex_adhoc_holidays exchange_calendar_xnze.calendar)
  [listed [(1986, 12, 22); (1986, 12, 23); (1986, 12, 24); (1986, 12, 29); (1986, 12, 30);
           (1986, 12, 31); (1990, 12, 24); (1990, 12, 31); (1991, 12, 27); (1992, 1, 3); (1999, 12, 31)]].
Proof. feasts. Qed.

Lemma xphs_closures : same_dates (ex_adhoc_holidays exchange_calendar_xphs.calendar)
  [since 2012 lunar_new_year; manila_single_days].
Proof. feasts. Qed.

Lemma xpra_closures : same_dates (ex_adhoc_holidays exchange_calendar_xpra.calendar)
  [listed [(2002, 8, 14); (2004, 1, 2); (2005, 1, 3)]].
Proof. feasts. Qed.

Lemma xses_closures : same_dates (ex_adhoc_holidays exchange_calendar_xses.calendar)
  [dated exchange_calendar_xses.precomputed_holidays].
Proof. feasts. Qed.

Lemma xsgo_closures : same_dates (ex_adhoc_holidays exchange_calendar_xsgo.calendar)
  [listed [(2010, 9, 17); (2010, 9, 20); (2017, 1, 2); (2017, 4, 19); (2018, 1, 16)]].
Proof. feasts. Qed.

Lemma xshg_closures : same_dates (ex_adhoc_holidays exchange_calendar_xshg.calendar)
  [dated exchange_calendar_xshg.precomputed_holidays].
Proof. feasts. Qed.

Lemma xtae_closures : same_dates (ex_adhoc_holidays exchange_calendar_xtae.calendar)
  [listed [(2019, 4, 9); (2019, 9, 17); (2020, 3, 2); (2021, 3, 23)]].
Proof. feasts. Qed.

Lemma xtai_closures : same_dates (ex_adhoc_holidays exchange_calendar_xtai.calendar)
  taipei_closures.
Proof. unfold taipei_closures, taipei_feast. cbn [app]. feasts. Qed.

Lemma xtks_closures : same_dates (ex_adhoc_holidays exchange_calendar_xtks.calendar)
  tokyo_closures.
Proof. unfold tokyo_closures. feasts. Qed.

Lemma xtse_closures : same_dates (ex_adhoc_holidays exchange_calendar_xtse.calendar)
  [days_from_to (2001, 9, 11) (2001, 9, 12)].
Proof. feasts. Qed.

Lemma xwar_closures : same_dates (ex_adhoc_holidays exchange_calendar_xwar.calendar)
  [listed [(2005, 4, 8); (2007, 12, 31); (2008, 5, 2); (2009, 1, 2); (2013, 4, 16); (2018, 1, 2);
           (2018, 11, 12)]].
Proof. feasts. Qed.

Ltac entry S := apply Forall2_cons; [split; [reflexivity|exact S]|].

Lemma closures_all : Forall2 (fun p q => fst p = fst q /\ same_dates (ex_adhoc_holidays (snd p)) (snd q))
  exchanges closures.
Proof.
  unfold exchanges, closures.
  entry asex_closures.
  entry bvmf_closures.
  entry cmes_closures.
  entry iepa_closures.
  entry same_dates_nil.
  entry xasx_closures.
  entry xbkk_closures.
  entry same_dates_nil.
  entry xbom_closures.
  entry same_dates_nil.
  entry same_dates_nil.
  entry xbue_closures.
  entry xcbf_closures.
  entry same_dates_nil.
  entry xdub_closures.
  entry xfra_closures.
  entry xetr_closures.
  entry same_dates_nil.
  entry xhkg_closures.
  entry same_dates_nil.
  entry xidx_closures.
  entry xist_closures.
  entry xjse_closures.
  entry xkar_closures.
  entry xkls_closures.
  entry xkrx_closures.
  entry xlim_closures.
  entry same_dates_nil.
  entry xlon_closures.
  entry same_dates_nil.
  entry xmex_closures.
  entry same_dates_nil.
  entry xmos_closures.
  entry xnys_closures.
  entry xnze_closures.
  entry same_dates_nil.
  entry same_dates_nil.
  entry xphs_closures.
  entry xpra_closures.
  entry xses_closures.
  entry xsgo_closures.
  entry xshg_closures.
  entry same_dates_nil.
  entry same_dates_nil.
  entry xtae_closures.
  entry xtai_closures.
  entry xtks_closures.
  entry xtse_closures.
  entry xwar_closures.
  entry same_dates_nil.
  entry same_dates_nil.
  apply Forall2_nil.
Qed.

Lemma closures_match : forall name E, In (name, E) exchanges ->
  exists hs, In (name, hs) closures /\ same_dates (ex_adhoc_holidays E) hs.
Proof.
  intros name E. generalize closures_all. generalize exchanges closures. intros es cs F.
  induction F as [|[a E'] [b hs] es cs [E1 E2] F IH]; [intros []|].
  intros [H|H].
  - injection H as -> ->. cbn [fst snd] in *. subst b. exists hs. split; [left; reflexivity|exact E2].
  - destruct (IH H) as [hs' [H1 H2]]. exists hs'. split; [right; exact H1|exact H2].
Qed.

(** ** Public holidays *)

Definition missing_days (l : list (Z * Z * Z)) : list Z := map (fun '(y, m, d) => date_number y m d) l.
Definition kept_days (E : exchange) (missing : list (Z * Z * Z)) (l : list Z) : bool :=
  forallb (fun n => if is_workday n then xorb (memb n (ex_adhoc_holidays E)) (memb n (missing_days missing)) else true) l.

Definition kept_on (name : string) (hs : list days) (missing : list (Z * Z * Z)) : Prop :=
  forall E, In (name, E) exchanges -> forall h n, In h hs -> h n -> workday n ->
    (In n (ex_adhoc_holidays E) <-> ~ listed missing n).

Definition public (hs : list days) (missing : list (Z * Z * Z)) : Prop :=
  forall n, listed missing n -> exists h, In h hs /\ h n.

Lemma kept_on_enum : forall name E hs missing ls,
  Forall2 enum hs ls -> kept_days E missing (concat ls) = true ->
  forallb (fun n => memb n (concat ls)) (missing_days missing) = true ->
  (forall E', In (name, E') exchanges -> E' = E) -> kept_on name hs missing /\ public hs missing.
Proof.
  intros name E hs missing ls F K P U.
  assert (A : forall n, In n (concat ls) <-> exists h, In h hs /\ h n).
  { clear -F. intros n. induction F as [|h' l hs ls E F IH].
    - split; [intros []|intros [h [[] _]]].
    - cbn [concat In]. rewrite in_app_iff, IH. specialize (E n). split.
      + intros [H|[h H]]; [exists h'|exists h]; tauto.
      + intros [h [[<-|H1] H2]]; [tauto|]. right. exists h. tauto. }
  split.
  - intros E' HE h n Hh Hn W. rewrite (U E' HE).
    assert (B : In n (concat ls)) by (apply A; exists h; tauto).
    unfold kept_days in K. rewrite forallb_forall in K. specialize (K n B).
    apply is_workday_iff in W. rewrite W in K. rewrite (enum_listed missing n). fold (missing_days missing).
    pose proof (memb_In n (ex_adhoc_holidays E)) as M1. pose proof (memb_In n (missing_days missing)) as M2.
    destruct (memb n (ex_adhoc_holidays E)), (memb n (missing_days missing)); try discriminate K; intuition discriminate.
  - intros n H. apply (enum_listed missing n) in H. rewrite forallb_forall in P. apply A. apply memb_In. apply P. exact H.
Qed.

Lemma the_exchange : forall name E E', In (name, E) exchanges -> In (name, E') exchanges -> E' = E.
Proof.
  assert (N : NoDup (map fst exchanges)).
  { replace (map fst exchanges) with (nodup string_dec (map fst exchanges)) by (vm_compute; reflexivity).
    apply NoDup_nodup. }
  revert N. generalize exchanges. intros l N name hs hs'.
  induction l as [|[a b] l IH]; [intros []|]. cbn [map fst] in N. inversion N as [|? ? N1 N2]; subst.
  intros [H|H] [H'|H'].
  - congruence.
  - injection H as -> ->. exfalso. apply N1. apply in_map_iff. exists (name, hs'). split; [reflexivity|exact H'].
  - injection H' as -> ->. exfalso. apply N1. apply in_map_iff. exists (name, hs). split; [reflexivity|exact H].
  - apply IH; assumption.
Qed.

Ltac holidays_of E :=
  apply Forall_cons; [eapply (kept_on_enum _ E);
    [cbv [in_years map app]; repeat (apply Forall2_cons; [feast|]); apply Forall2_nil
    |vm_compute; reflexivity
    |vm_compute; reflexivity
    |intros E'; apply the_exchange; unfold exchanges; repeat first [left; reflexivity|right]]|].

Lemma public_holidays_kept : Forall (fun '(name, hs, missing) => kept_on name hs missing /\ public hs missing) public_holidays.
Proof.
  unfold public_holidays.
  holidays_of exchange_calendar_xbom.calendar.
  holidays_of exchange_calendar_xkrx.calendar.
  holidays_of exchange_calendar_xses.calendar.
  holidays_of exchange_calendar_xshg.calendar.
  holidays_of exchange_calendar_xhkg.calendar.
  holidays_of exchange_calendar_xidx.calendar.
  holidays_of exchange_calendar_xkls.calendar.
  holidays_of exchange_calendar_xphs.calendar.
  holidays_of exchange_calendar_xtai.calendar.
  apply Forall_nil.
Qed.
