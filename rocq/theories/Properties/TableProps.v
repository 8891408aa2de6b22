(** The tables of trading_calendars/lunisolar_holidays.py and the program etc/lunisolar. *)
From Coq Require Import ZArith List Bool Lia Sorted.
From Verif.Spec Require Import Civil Sky.
From Verif.Model Require Import Base Helpers Dates Zone Lunisolar.
From Verif.Exchanges Require Import zones lunisolar_holidays.
From Verif.Proofs Require Import BaseLemmas DatesLemmas RuleLemmas FestivalRules MonthLemmas SkyRules.
From Verif.Properties Require Import SkyProps MonthProps.
Import ListNotations.
Open Scope Z_scope.

(** ** The events of the years 1958 to 2049, in minutes of UTC *)

Definition sun_at (minute : Z) : Z := sun_longitude (minute * unit / 1440).
Definition moon_minute (k : Z) : Z := new_moon k * 1440 / unit.

(** The first minute at which the sun has made [x] degrees, by bisection. *)
Fixpoint bisect (fuel : nat) (x lo hi : Z) : Z :=
  match fuel with
  | O => lo
  | S fuel =>
      if lo <? hi then
        let mid := (lo + hi) / 2 in
        if x <=? sun_at mid then bisect fuel x lo mid else bisect fuel x (mid + 1) hi
      else lo
  end.
Definition sun_minute (x : Z) : Z :=
  let c := (x * 10000 - 2804665) * 1000000000 / 985647366 + 109575000 in
  bisect 20 (x * unit) ((c - 40000) * 1440 / unit) ((c + 40000) * 1440 / unit).

Definition zhongqi_minutes : list Z := Eval vm_compute in
  map (fun j => sun_minute (30 * j)) (Sky.consecutive (-494) 1104).
Definition moon_minutes : list Z := Eval vm_compute in map moon_minute (Sky.consecutive (-519) 1138).
Definition solstice_minutes : list Z := Eval vm_compute in
  map (fun i => nth (Z.to_nat (12 * i + 11)) zhongqi_minutes 0) (Sky.consecutive 0 92).

(** The sun reaches the multiples of 30 degrees, and 270 degrees, at these minutes. *)
Definition reaches_at (x minute : Z) : bool := (sun_at (minute - 1) <? x * unit) && (x * unit <=? sun_at minute).
Lemma reached : forallb (fun p => reaches_at (30 * fst p) (snd p)) (combine (Sky.consecutive (-494) 1104) zhongqi_minutes) = true.
Proof. vm_compute. reflexivity. Qed.
Lemma solstices_reached : forallb (fun p => reaches_at (360 * fst p + 270) (snd p)) (combine (Sky.consecutive (-41) 92) solstice_minutes) = true.
Proof. vm_compute. reflexivity. Qed.
Lemma moon_minutes_ok : moon_minutes = map moon_minute (Sky.consecutive (-519) 1138).
Proof. vm_compute. reflexivity. Qed.

Lemma combine_nth_all : forall (f : Z -> Z -> bool) l count k, length l = count ->
  forallb (fun p => f (fst p) (snd p)) (combine (Sky.consecutive k count) l) = true ->
  forall i, (i < count)%nat -> f (k + Z.of_nat i) (nth i l 0) = true.
Proof.
  intros f. induction l as [|m l IH]; intros [|count] k L H i Hi; try discriminate; [lia|]. injection L as L.
  cbn [Sky.consecutive combine forallb fst snd] in H. apply andb_true_iff in H. destruct H as [H1 H2].
  destruct i as [|i]; [rewrite Z.add_0_r; exact H1|]. replace (k + Z.of_nat (S i)) with (k + 1 + Z.of_nat i) by lia.
  apply (IH count (k + 1) L H2). lia.
Qed.

(** The lists are what they claim to be: new moons number -519 to 618, all passages of the multiples
    of 30 degrees from -494 times on, and of 270 degrees from 41 turns before 2000 on. *)
Theorem c68_events :
  moon_minutes = map moon_minute (Sky.consecutive (-519) 1138) /\
  (forall i, (i < 1104)%nat -> let minute := nth i zhongqi_minutes 0 in
     sun_at (minute - 1) < 30 * (-494 + Z.of_nat i) * unit <= sun_at minute) /\
  (forall i, (i < 92)%nat -> let minute := nth i solstice_minutes 0 in
     sun_at (minute - 1) < (360 * (-41 + Z.of_nat i) + 270) * unit <= sun_at minute) /\
  length zhongqi_minutes = 1104%nat /\ length solstice_minutes = 92%nat.
Proof.
  split; [exact moon_minutes_ok|]. split; [|split; [|split; reflexivity]].
  - intros i Hi. cbv zeta.
    pose proof (combine_nth_all (fun j m => reaches_at (30 * j) m) zhongqi_minutes 1104 (-494) eq_refl reached i Hi) as R.
    cbv beta in R. unfold reaches_at in R. apply andb_true_iff in R. rewrite Z.ltb_lt, Z.leb_le in R. exact R.
  - intros i Hi. cbv zeta.
    pose proof (combine_nth_all (fun j m => reaches_at (360 * j + 270) m) solstice_minutes 92 (-41) eq_refl solstices_reached i Hi) as R.
    cbv beta in R. unfold reaches_at in R. apply andb_true_iff in R. rewrite Z.ltb_lt, Z.leb_le in R. exact R.
Qed.

(** ** C68: the Chinese calendar comes out right for the right events *)

(** Eight hours ahead of UTC, without the summer time of the years 1986 to 1991. *)
Definition china_standard : zone := Zone (8 * 3600 * 10 ^ 9) [].

Definition D0 : list Z := Eval vm_compute in map (utc_to_chinese_date china_standard) moon_minutes.
Definition Q0 : list Z := Eval vm_compute in map (utc_to_chinese_date china_standard) (tl zhongqi_minutes).
Definition W0 : list Z := Eval vm_compute in map (utc_to_chinese_date china_standard) solstice_minutes.
Lemma D0_ok : map (utc_to_chinese_date china_standard) moon_minutes = D0. Proof. vm_compute. reflexivity. Qed.
Lemma Q0_ok : map (utc_to_chinese_date china_standard) (tl zhongqi_minutes) = Q0. Proof. vm_compute. reflexivity. Qed.
Lemma W0_ok : map (utc_to_chinese_date china_standard) solstice_minutes = W0. Proof. vm_compute. reflexivity. Qed.
Definition ss0 : list Z := Eval vm_compute in map (fun w => argmax (map (fun d => w <? d) D0) - 1) W0.
Definition in_monthb (moons : list Z) (i d : Z) : bool :=
  (0 <=? i) && (i + 1 <? Z.of_nat (length moons)) && (Months.start moons i <=? d) && (d <? Months.start moons (i + 1)).
Lemma in_monthb_ok : forall moons i d, in_monthb moons i d = true -> Months.in_month moons i d.
Proof.
  intros moons i d H. unfold in_monthb in H. rewrite !andb_true_iff, !Z.leb_le, !Z.ltb_lt in H. unfold Months.in_month. lia.
Qed.
Lemma solstice_months : Forall2 (Months.in_month D0) ss0 W0.
Proof.
  assert (A : forallb (fun p => in_monthb D0 (fst p) (snd p)) (combine ss0 W0) = true) by (vm_compute; reflexivity).
  assert (L : length ss0 = length W0) by reflexivity.
  revert A L. generalize W0. generalize ss0. intros l. induction l as [|s l IH]; intros [|w W] A L; try discriminate; [constructor|].
  cbn in A. apply andb_true_iff in A. destruct A as [A1 A2]. constructor; [apply in_monthb_ok, A1|apply IH; [exact A2|]].
  injection L as L. exact L.
Qed.
Lemma solstices_zhongqi : incl W0 Q0.
Proof.
  assert (A : forallb (fun w => existsb (Z.eqb w) Q0) W0 = true) by (vm_compute; reflexivity).
  rewrite forallb_forall in A. intros w Hw. specialize (A w Hw). apply existsb_exists in A. destruct A as [q [Hq E]].
  apply Z.eqb_eq in E. subst. exact Hq.
Qed.
(** The same, with the ends of the month computed once. *)
Definition regular_fast (moons zhongqi : list Z) (s s' : Z) : list Z :=
  if s' - s =? 12 then Months.consecutive s 12
  else Months.without_first (fun i => negb (
    let a := Months.start moons i in let b := Months.start moons (i + 1) in
    existsb (fun d => if a <=? d then d <? b else false) zhongqi)) (Months.consecutive s (Z.to_nat (s' - s))).
Lemma regular_fast_ok : forall moons zhongqi s s', Months.regular_months moons zhongqi s s' = regular_fast moons zhongqi s s'.
Proof. reflexivity. Qed.
Lemma suis_fast : map (fun p => map (fun i => i - 519) (regular_fast D0 Q0 (fst p) (snd p))) (Months.pairs ss0)
  = map regular_t elevenths.
Proof. vm_compute. reflexivity. Qed.
(** The regular months are those computed from the sky. *)
Lemma suis_sky : map (fun p => map (fun i => i - 519) (Months.regular_months D0 Q0 (fst p) (snd p))) (Months.pairs ss0)
  = map regular_t elevenths.
Proof. exact suis_fast. Qed.
Lemma twelve_each : forallb (fun l => Nat.eqb (length l) 12) (map regular_t elevenths) = true.
Proof. vm_compute. reflexivity. Qed.
Lemma sui_range : forallb (forallb (fun k => (-519 <=? k) && (k <? 619))) (map regular_t elevenths) = true.
Proof. vm_compute. reflexivity. Qed.
Lemma D0_skies : D0 = map fst (firstn 1138 (skipn 2 skies)).
Proof. vm_compute. reflexivity. Qed.
Lemma D0_start : forall i, 0 <= i < 1138 -> start_at (i - 519) = Months.start D0 i.
Proof.
  intros i H. unfold start_at, sky_at, Months.start, first_month. rewrite D0_skies.
  change (nth (Z.to_nat i) (map fst (firstn 1138 (skipn 2 skies))) 0) with (nth (Z.to_nat i) (map fst (firstn 1138 (skipn 2 skies))) (fst (0, 0))).
  rewrite map_nth. f_equal. replace (Z.to_nat (i - 519 - -521)) with (2 + Z.to_nat i)%nat by lia.
  rewrite <- (firstn_skipn 2 skies) at 1. rewrite app_nth2 by (cbn [length firstn skies]; lia).
  replace (2 + Z.to_nat i - length (firstn 2 skies))%nat with (Z.to_nat i) by (cbn [length firstn skies]; lia).
  generalize (skipn 2 skies). intros l. rewrite <- (firstn_skipn 1138 l) at 1.
  destruct (Nat.lt_ge_cases (Z.to_nat i) (length (firstn 1138 l))) as [L|L]; [apply app_nth1, L|].
  rewrite firstn_length in L. rewrite app_nth2 by (rewrite firstn_length; lia).
  rewrite skipn_all2 by lia. rewrite nth_overflow by (cbn [length]; lia). rewrite nth_overflow by (rewrite firstn_length; lia). reflexivity.
Qed.

Theorem c68_calendar : forall moons longitude minutes, StronglySorted Z.lt moons ->
  map (utc_to_chinese_date china_standard) moons = map (utc_to_chinese_date china_standard) moon_minutes ->
  solstices china_standard longitude minutes = map (utc_to_chinese_date china_standard) solstice_minutes ->
  zhongqi china_standard longitude minutes = map (utc_to_chinese_date china_standard) (tl zhongqi_minutes) ->
  forall m d, 1 <= m <= 10 -> exists ds,
    nth_day_of_nth_chinese_month china_standard longitude minutes moons m d = Ok ds /\
    forall y n, 1959 <= y <= 2049 -> (nth_error ds (Z.to_nat (y - 1959)) = Some n <-> chinese_date y m d n).
Proof.
  intros moons longitude minutes SM ED EW EQ m d Hm.
  rewrite D0_ok in ED. rewrite W0_ok in EW. rewrite Q0_ok in EQ.
  assert (SD : StronglySorted Z.lt D0) by (apply sorted_iff; vm_compute; reflexivity).
  assert (SS : StronglySorted Z.lt ss0) by (apply sorted_iff; vm_compute; reflexivity).
  assert (G : good_events china_standard moons longitude minutes ss0).
  { unfold good_events. rewrite ED, EW, EQ. repeat split; try assumption; [discriminate|exact solstice_months|exact solstices_zhongqi]. }
  pose proof (c67_feasts _ _ _ _ _ m d G) as C. cbv zeta in C. rewrite ED, EQ in C.
  assert (T : forall p, In p (Months.pairs ss0) -> length (Months.regular_months D0 Q0 (fst p) (snd p)) = 12%nat).
  { intros p Hp. pose proof (in_map (fun p => map (fun i => i - 519) (Months.regular_months D0 Q0 (fst p) (snd p))) _ _ Hp) as I.
    rewrite suis_sky in I. pose proof twelve_each as T. rewrite forallb_forall in T. specialize (T _ I).
    apply Nat.eqb_eq in T. rewrite map_length in T. exact T. }
  assert (LM : length moons = 1138%nat) by (rewrite <- (map_length (utc_to_chinese_date china_standard)), ED; reflexivity).
  destruct (C T ltac:(rewrite LM; vm_compute; discriminate) Hm) as [C1 _].
  exists (map (Months.feast D0 Q0 m d) (Months.pairs ss0)). split; [exact C1|]. intros y n Hy.
  rewrite chinese_date_iff by exact Hy.
  replace (map (Months.feast D0 Q0 m d) (Months.pairs ss0)) with (dates_of m d); [reflexivity|].
  unfold dates_of.
  assert (X : forall ps ks, map (fun p => map (fun i => i - 519) (Months.regular_months D0 Q0 (fst p) (snd p))) ps = map regular_t ks ->
    (forall p, In p ps -> length (Months.regular_months D0 Q0 (fst p) (snd p)) = 12%nat) ->
    (forall p i, In p ps -> In i (Months.regular_months D0 Q0 (fst p) (snd p)) -> start_at (i - 519) = Months.start D0 i) ->
    map (fun k => start_at (nth (Z.to_nat (m + 1)) (regular_t k) k) + (d - 1)) ks = map (Months.feast D0 Q0 m d) ps).
  { induction ps as [|p ps IH]; intros [|k ks] E T' R; try discriminate; [reflexivity|]. cbn [map] in E. injection E as E1 E2.
    cbn [map]. f_equal; [|apply IH; [exact E2|intros q Hq; apply T'; right; exact Hq|intros q i Hq; apply R; right; exact Hq]].
    unfold Months.feast. rewrite <- E1. f_equal.
    rewrite (nth_indep _ k (0 - 519)) by (rewrite map_length, T' by (left; reflexivity); lia).
    rewrite (map_nth (fun i => i - 519)). apply (R p); [left; reflexivity|]. apply nth_In. rewrite T' by (left; reflexivity). lia. }
  apply X; [exact suis_sky|exact T|]. intros p i Hp Hi. apply D0_start.
  pose proof (in_map (fun p => map (fun i => i - 519) (Months.regular_months D0 Q0 (fst p) (snd p))) _ _ Hp) as I.
  rewrite suis_sky in I. pose proof sui_range as R. rewrite forallb_forall in R. specialize (R _ I).
  rewrite forallb_forall in R. specialize (R _ (in_map (fun i => i - 519) _ _ Hi)). cbv beta in R. lia.
Qed.

(** ** The tables come out for the events and one false new moon *)

Fixpoint insert (x : Z) (l : list Z) : list Z :=
  match l with [] => [x] | y :: l' => if x <? y then x :: l else y :: insert x l' end.

(** 2034-03-20 13:12 UTC: the sun passes 0 degrees three hours after the new moon, which makes
    the program see another one (C65). *)
Definition false_moon : Z := 33774552.
Lemma false_moon_equinox : reaches_at (35 * 360) false_moon = true.
Proof. vm_compute. reflexivity. Qed.

Definition china : zone := Asia_Shanghai.
Definition D1 : list Z := Eval vm_compute in map (utc_to_chinese_date china) (insert false_moon moon_minutes).
Definition Q1 : list Z := Eval vm_compute in map (utc_to_chinese_date china) (tl zhongqi_minutes).
Definition W1 : list Z := Eval vm_compute in map (utc_to_chinese_date china) solstice_minutes.
Lemma D1_ok : map (utc_to_chinese_date china) (insert false_moon moon_minutes) = D1. Proof. vm_compute. reflexivity. Qed.
Lemma Q1_ok : map (utc_to_chinese_date china) (tl zhongqi_minutes) = Q1. Proof. vm_compute. reflexivity. Qed.
Lemma W1_ok : map (utc_to_chinese_date china) solstice_minutes = W1. Proof. vm_compute. reflexivity. Qed.

Definition result_1 : result (list Z * list Z) := Eval vm_compute in month_starts (Months.consecutive 0 (length D1)) D1 W1 Q1.
Definition months_1 : list Z * list Z := match result_1 with Ok r => r | Raise _ => ([], []) end.
Lemma months_1_ok : month_starts (Months.consecutive 0 (length D1)) D1 W1 Q1 = Ok months_1.
Proof. vm_compute. reflexivity. Qed.

(** The feasts from the numbers of the months. *)
Definition feasts_by_number (D ms el : list Z) (m d : Z) : result (list Z) :=
  do ys <- mapM (pyget ms) (filter (fun i => i <? zlen ms) (map (fun i => i + 2) el));
  do l <- mapM (fun i => pyget ms (i + (m - 1))) (map (searchsorted_left ms) ys);
  Ok (map (fun i => Months.start D i + (d - 1)) l).
Lemma by_number : forall z moons longitude minutes ms el m d, StronglySorted Z.lt moons ->
  let D := map (utc_to_chinese_date z) moons in
  month_starts (Months.consecutive 0 (length D)) D (solstices z longitude minutes) (zhongqi z longitude minutes) = Ok (ms, el) ->
  Forall (fun i => 0 <= i < Z.of_nat (length D)) ms ->
  nth_day_of_nth_chinese_month z longitude minutes moons m d = feasts_by_number D ms el m d.
Proof.
  intros z moons longitude minutes ms el m d S D E F.
  assert (E' : chinese_month_start z moons longitude minutes = Ok (map (Months.start moons) ms, el)).
  { unfold chinese_month_start. cbv zeta. fold (solstices z longitude minutes). fold (zhongqi z longitude minutes). fold D.
    rewrite (month_starts_minutes moons _ _ _ S) by (unfold D; rewrite map_length; reflexivity). rewrite E. reflexivity. }
  assert (LD : length D = length moons) by apply map_length. rewrite LD in F.
  pose proof (start_increasing moons S) as I.
  unfold nth_day_of_nth_chinese_month, calculate_new_year. rewrite E'. cbn [bind].
  unfold zlen. rewrite map_length. fold (zlen ms). rewrite mapM_rmap'. unfold feasts_by_number.
  destruct (mapM (pyget ms) _) as [ys|] eqn:EY; cbn [bind rmap]; [|reflexivity].
  pose proof (mapM_pyget_In ms (fun i => i) _ _ EY) as IY.
  rewrite map_map.
  replace (map (fun x => searchsorted_left (map (Months.start moons) ms) (Months.start moons x)) ys)
    with (map (searchsorted_left ms) ys).
  2:{ apply map_ext_in. intros y Hy. symmetry. apply (inc_searchsorted _ _ _ _ I F).
      rewrite Forall_forall in IY, F. apply F, IY, Hy. }
  rewrite (mapM_rmap (Months.start moons) ms (fun i => i + (m - 1))).
  destruct (mapM (fun i => pyget ms (i + (m - 1))) _) as [l|] eqn:EL; cbn [bind rmap]; [|reflexivity].
  pose proof (mapM_pyget_In ms (fun i => i + (m - 1)) _ _ EL) as IL. f_equal. rewrite map_map. apply map_ext_in. intros i Hi.
  rewrite Forall_forall in IL, F. specialize (F i (IL i Hi)). unfold Months.start, D.
  rewrite (nth_indep (map _ _) 0 (utc_to_chinese_date z 0)) by (rewrite map_length; lia). rewrite map_nth. reflexivity.
Qed.

Definition since_1960 (r : result (list Z)) : result (list Z) :=
  match r with Ok l => Ok (filter (fun n => year_start 1960 <=? n) l) | Raise e => Raise e end.
(** The commands of the program and the tables that were made with them. *)
Definition feast_tables : list ((zone -> list Z -> list Z -> list Z -> result (list Z)) * list Z) :=
  [(chinese_new_year, chinese_lunar_new_year_dates); (china_buddhas_birthday, chinese_buddhas_birthday_dates);
   (dragon_boat_festival, dragon_boat_festival_dates); (mid_autumn_festival, mid_autumn_festival_dates);
   (double_ninth_festival, double_ninth_festival_dates)].
Definition table_by_number (m d : Z) (ds : list Z) : bool :=
  match since_1960 (feasts_by_number D1 (fst months_1) (snd months_1) m d), since_1960 (Ok ds) with
  | Ok a, Ok b => list_eqb a b
  | _, _ => false
  end.
Lemma tables_by_number : table_by_number 1 1 chinese_lunar_new_year_dates && table_by_number 4 8 chinese_buddhas_birthday_dates
  && table_by_number 5 5 dragon_boat_festival_dates && table_by_number 8 15 mid_autumn_festival_dates
  && table_by_number 9 9 double_ninth_festival_dates = true.
Proof. vm_compute. reflexivity. Qed.
Lemma Ok_eq : forall {A} (a b : A), Ok a = Ok b -> a = b.
Proof. intros A a b H. injection H as H. exact H. Qed.
Lemma table_by_number_ok : forall m d ds, table_by_number m d ds = true ->
  since_1960 (feasts_by_number D1 (fst months_1) (snd months_1) m d) = since_1960 (Ok ds).
Proof.
  intros m d ds T. unfold table_by_number in T.
  destruct (since_1960 (feasts_by_number _ _ _ m d)) as [a|] ; [|discriminate].
  destruct (since_1960 (Ok ds)) as [b|]; [|discriminate]. apply list_eqb_eq in T. subst. reflexivity.
Qed.
(** The Chinese New Year is the first day of the first month. *)
Lemma new_year_first : forall z longitude minutes moons ms el, StronglySorted Z.lt moons ->
  let D := map (utc_to_chinese_date z) moons in
  month_starts (Months.consecutive 0 (length D)) D (solstices z longitude minutes) (zhongqi z longitude minutes) = Ok (ms, el) ->
  StronglySorted Z.lt ms -> Forall (fun i => 0 <= i < Z.of_nat (length D)) ms ->
  chinese_new_year z longitude minutes moons = feasts_by_number D ms el 1 1.
Proof.
  intros z longitude minutes moons ms el S D E SM F.
  assert (E' : chinese_month_start z moons longitude minutes = Ok (map (Months.start moons) ms, el)).
  { unfold chinese_month_start. cbv zeta. fold (solstices z longitude minutes). fold (zhongqi z longitude minutes). fold D.
    rewrite (month_starts_minutes moons _ _ _ S) by (unfold D; rewrite map_length; reflexivity). rewrite E. reflexivity. }
  assert (LD : length D = length moons) by apply map_length. rewrite LD in F.
  unfold chinese_new_year, calculate_new_year. rewrite E'. cbn [bind].
  unfold zlen. rewrite map_length. fold (zlen ms). rewrite mapM_rmap'. unfold feasts_by_number.
  destruct (mapM (pyget ms) _) as [ys|] eqn:EY; cbn [bind rmap]; [|reflexivity].
  pose proof (mapM_pyget_In ms (fun i => i) _ _ EY) as IY.
  assert (X : mapM (fun i => pyget ms (i + (1 - 1))) (map (searchsorted_left ms) ys) = Ok ys).
  { clear EY. induction IY as [|y ys Hy IY IH]; [reflexivity|]. cbn [map mapM]. rewrite IH.
    apply in_split in Hy. destruct Hy as [l1 [l2 ->]]. rewrite sorted_split by exact SM.
    replace (zlen l1 + (1 - 1)) with (zlen l1 + Z.of_nat 0) by lia.
    pose proof (proj1 (at_month l1 [y] l2 0 SM ltac:(simpl; lia))) as A. cbn [app nth] in A. rewrite A. reflexivity. }
  rewrite X. cbn [bind]. f_equal. rewrite map_map. apply map_ext_in. intros i Hi.
  rewrite Forall_forall in IY, F. specialize (F i (IY i Hi)). unfold Months.start, D.
  rewrite (nth_indep (map _ _) 0 (utc_to_chinese_date z 0)) by (rewrite map_length; lia). rewrite map_nth. lia.
Qed.

Theorem c68_tables : forall moons longitude minutes, StronglySorted Z.lt moons ->
  map (utc_to_chinese_date china) moons = map (utc_to_chinese_date china) (insert false_moon moon_minutes) ->
  solstices china longitude minutes = map (utc_to_chinese_date china) solstice_minutes ->
  zhongqi china longitude minutes = map (utc_to_chinese_date china) (tl zhongqi_minutes) ->
  forall command ds, In (command, ds) feast_tables ->
    since_1960 (command china longitude minutes moons) = since_1960 (Ok ds).
Proof.
  intros moons longitude minutes SM ED EW EQ command ds H. rewrite D1_ok in ED. rewrite W1_ok in EW. rewrite Q1_ok in EQ.
  assert (RM : Forall (fun i => 0 <= i < Z.of_nat (length D1)) (fst months_1)).
  { apply Forall_forall. assert (A : forallb (fun i => (0 <=? i) && (i <? 1139)) (fst months_1) = true) by (vm_compute; reflexivity).
    rewrite forallb_forall in A. intros i Hi. specialize (A i Hi). change (Z.of_nat (length D1)) with 1139. lia. }
  assert (MS : month_starts (Months.consecutive 0 (length D1)) D1 W1 Q1 = Ok (fst months_1, snd months_1))
    by (rewrite months_1_ok; reflexivity).
  assert (B : forall m d, nth_day_of_nth_chinese_month china longitude minutes moons m d =
    feasts_by_number D1 (fst months_1) (snd months_1) m d).
  { intros m d. pose proof (by_number china moons longitude minutes (fst months_1) (snd months_1) m d SM) as B. cbv zeta in B.
    rewrite ED, EW, EQ in B. exact (B MS RM). }
  pose proof tables_by_number as T. rewrite !andb_true_iff in T. destruct T as [[[[T1 T2] T3] T4] T5].
  destruct H as [H|[H|[H|[H|[H|[]]]]]]; apply pair_equal_spec in H; destruct H as [<- <-].
  - pose proof (new_year_first china longitude minutes moons (fst months_1) (snd months_1) SM) as N. cbv zeta in N.
    rewrite ED, EW, EQ in N. rewrite N; [apply table_by_number_ok, T1|exact MS| |exact RM].
    apply sorted_iff. vm_compute. reflexivity.
  - unfold china_buddhas_birthday. rewrite B. apply table_by_number_ok, T2.
  - unfold dragon_boat_festival. rewrite B. apply table_by_number_ok, T3.
  - unfold mid_autumn_festival. rewrite B. apply table_by_number_ok, T4.
  - unfold double_ninth_festival. rewrite B. apply table_by_number_ok, T5.
Qed.

(** Samples with these events: the sun at every zhongqi, and fourteen degrees before it. *)
Definition sample_minutes : list Z := flat_map (fun z => [z - 20000; z]) zhongqi_minutes ++ [42075000].
Definition sample_longitudes : list Z :=
  flat_map (fun j => [(30 * j - 14) mod 360 * degree; 30 * j mod 360 * degree]) (Sky.consecutive (-494) 1104) ++ [280 * degree].
Lemma sampled : minutes_at_phase sample_longitudes sample_minutes (270 * degree) = solstice_minutes /\
  minutes_at_phase (map (fun x => x mod (30 * degree)) sample_longitudes) sample_minutes 0 = zhongqi_minutes /\
  forallb (fun p => fst p <? snd p) (combine sample_minutes (tl sample_minutes)) = true.
Proof. vm_compute. repeat split; reflexivity. Qed.
Lemma sorted_moons : StronglySorted Z.lt moon_minutes /\ StronglySorted Z.lt (insert false_moon moon_minutes).
Proof. rewrite !sorted_iff. vm_compute. split; reflexivity. Qed.

(** With them the program gives the true Double Ninth of 2034, October 20th, but the table has September 21st, as with the false new moon. *)
Example c68_ex :
  (exists ds, nth_day_of_nth_chinese_month china_standard sample_longitudes sample_minutes moon_minutes 9 9 = Ok ds /\
     nth_error ds 75 = Some (date_number 2034 10 20)) /\
  (exists ds, double_ninth_festival china sample_longitudes sample_minutes (insert false_moon moon_minutes) = Ok ds /\
     In (date_number 2034 9 21) ds).
Proof.
  destruct sampled as [E1 [E2 _]]. destruct sorted_moons as [S0 S1]. split.
  - destruct (c68_calendar moon_minutes sample_longitudes sample_minutes S0 eq_refl
      ltac:(unfold solstices; rewrite E1; reflexivity) ltac:(unfold zhongqi; rewrite E2; reflexivity) 9 9 ltac:(lia)) as [ds [E F]].
    exists ds. split; [exact E|]. apply (F 2034 (date_number 2034 10 20) ltac:(lia)).
    apply chinese_date_iff; [lia|]. vm_compute. reflexivity.
  - pose proof (c68_tables (insert false_moon moon_minutes) sample_longitudes sample_minutes S1 eq_refl
      ltac:(unfold solstices; rewrite E1; reflexivity) ltac:(unfold zhongqi; rewrite E2; reflexivity) double_ninth_festival
      double_ninth_festival_dates ltac:(unfold feast_tables; do 4 right; left; reflexivity)) as T.
    destruct (double_ninth_festival china sample_longitudes sample_minutes _) as [ds|]; [|discriminate].
    exists ds. split; [reflexivity|]. unfold since_1960 in T. apply Ok_eq in T.
    assert (I : In (date_number 2034 9 21) (filter (fun n => year_start 1960 <=? n) double_ninth_festival_dates)).
    { apply filter_In. split; [|vm_compute; reflexivity].
      assert (X : existsb (Z.eqb (date_number 2034 9 21)) double_ninth_festival_dates = true) by (vm_compute; reflexivity).
      apply existsb_exists in X. destruct X as [n [X1 X2]]. apply Z.eqb_eq in X2. rewrite X2. exact X1. }
    rewrite <- T in I. apply filter_In in I. apply I.
Qed.

(** ** Assumptions *)
Print Assumptions c68_events.
Print Assumptions c68_calendar.
Print Assumptions c68_tables.
