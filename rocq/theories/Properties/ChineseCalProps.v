(** What [etc/lunisolar chinese-cal] prints (Model/ChineseCal.v), on the screen of
    Spec/Screen.v with the layout of Spec/LunarPage.v. *)
From Coq Require Import ZArith String Ascii Lia Bool ZifyNat List Sorted.
From Verif.Model Require Import Base Helpers Dates Zone Lunisolar Tcal ChineseCal.
From Verif.Spec Require Import Civil Screen Months LunarPage.
From Verif.Proofs Require Import BaseLemmas DatesLemmas TcalLemmas LunisolarLemmas MonthLemmas ChineseCalLemmas.
From Verif.Properties Require Import MonthProps.
Import ListNotations.
Open Scope Z_scope.
Open Scope list_scope.
Ltac Zify.zify_post_hook ::= Z.div_mod_to_equations.

(** Month [m] (from 1) of [months], which are minutes of new moons, begins in China on
    day [first], and the next month on day [next]. *)
Definition lunar_month (z : zone) (months : list Z) (m first next : Z) : Prop :=
  1 <= m /\ exists moon moon',
    nth_error months (Z.to_nat (m - 1)) = Some moon /\ nth_error months (Z.to_nat m) = Some moon' /\
    utc_to_chinese_date z moon = first /\ utc_to_chinese_date z moon' = next.

(** The title: the number of the month, with a mark if it has more than 30 days, and the
    year if asked for. *)
Definition month_heading (m first next : Z) (year : option Z) : list ascii :=
  list_ascii_of_string "Lunar Month " ++ decimal m ++
  (if 30 <? next - first then list_ascii_of_string "(+)" else []) ++
  match year with Some y => blank :: decimal y | None => [] end.

Lemma lunar_month_text : forall z year months m first next py, lunar_month z months m first next -> first < next ->
  ChineseCal.render_month z year months m py = Ok (lunar_text m year first next py).
Proof.
  intros z year months m first next py [Hm [a [b [Ha [Hb [<- <-]]]]]] L.
  assert (P : forall i x, 0 <= i -> nth_error months (Z.to_nat i) = Some x -> pyget months i = Ok x).
  { intros i x Hi E. unfold pyget. rewrite (proj2 (Z.ltb_ge i 0)) by lia. rewrite (proj2 (Z.ltb_ge i 0)) by lia. rewrite E. reflexivity. }
  rewrite (render_month3 z year months m py a b (P (m - 1) a ltac:(lia) Ha) (P m b ltac:(lia) Hb)).
  rewrite (proj2 (Z.ltb_lt _ _) L). reflexivity.
Qed.

Lemma lunar_cell_shown : forall m year first next py day i x, first <= day < next ->
  nth_error (two_digits (mday_of day)) i = Some x ->
  shown (lunar_text m year first next py) (Z.to_nat (lunar_row first day)) (Z.to_nat (3 * weekday_column day) + i) = x.
Proof.
  intros m year first next py day i x Hd Hi.
  assert (Li : (i < 2)%nat) by (change 2%nat with (length (two_digits (mday_of day))); apply nth_error_Some; congruence).
  rewrite lunar_shown. pose proof (lunar_col_lt first) as FL.
  assert (C : weekday_column day = (weekday_column first + (day - first)) mod 7).
  { unfold weekday_column. rewrite Zplus_mod_idemp_l. f_equal. lia. }
  unfold lunar_row. rewrite C, <- (lunar_base_Z first), <- (lunar_col_Z first).
  unfold lunar_cells. set (f := lunar_col first) in *. set (k := base f) in *.
  assert (R : Z.to_nat (3 + Z.of_nat k + (Z.of_nat f + (day - first)) / 7) =
    S (S (S (k + Z.to_nat ((Z.of_nat f + (day - first)) / 7))))) by (clear - Hd; lia).
  rewrite R. unfold expected3. fold k.
  set (q := (Z.of_nat f + (day - first)) / 7).
  set (w := (Z.of_nat f + (day - first)) mod 7).
  assert (Q : Z.of_nat f + (day - first) = 7 * q + w /\ 0 <= w < 7 /\ 0 <= q) by (unfold q, w; clear - Hd; lia).
  destruct Q as [Q [W Q0]]. clearbody q w. clear C R.
  assert (C3 : Nat.div (Z.to_nat (3 * w) + i) 3 = Z.to_nat w) by (clear - W Li; lia).
  assert (M3 : Nat.modulo (Z.to_nat (3 * w) + i) 3 = i) by (clear - W Li; lia).
  rewrite C3, M3.
  replace (k + Z.to_nat q - k)%nat with (Z.to_nat q) by lia.
  destruct (Nat.leb_spec k (k + Z.to_nat q)); [|lia].
  destruct (Nat.ltb_spec (Z.to_nat w) 7); [|lia].
  destruct (Nat.leb_spec f (7 * Z.to_nat q + Z.to_nat w)); [|lia]. cbn [andb].
  replace (7 * Z.to_nat q + Z.to_nat w - f)%nat with (Z.to_nat (day - first)) by lia.
  assert (N : nth (Z.to_nat (day - first)) (map (fun i0 : nat => two_digits (mday_of (first + Z.of_nat i0)))
    (seq 0 (Z.to_nat (next - first)))) [] = two_digits (mday_of day)).
  { apply nth_error_nth. rewrite nth_error_map, (nth_error_nth' _ 0%nat) by (rewrite seq_length; lia).
    rewrite seq_nth by lia. cbn [option_map]. do 3 f_equal. lia. }
  etransitivity; [apply (f_equal (fun c => nth i c blank) N)|]. apply nth_error_nth with (d := blank) in Hi. exact Hi.
Qed.

(** ** C80: months *)

Lemma shown_month : forall m year first next print_year,
  shows_month (lunar_text m year first next print_year)
    (month_heading m first next (if print_year then Some year else None)) first next.
Proof.
  intros m year first next py.
  assert (E : month_heading m first next (if py then Some year else None) = lunar_title m year (30 <? next - first) py).
  { unfold month_heading, lunar_title, str. destruct py; reflexivity. }
  rewrite E. split.
  - apply centered_title; [apply lunar_title_no_nl|]. intros col. apply lunar_written0.
  - intros y0 m0 d0 name y1 m1 d1 name' V V' <- N E1 E2.
    assert (S1 : forall y m d name, valid_date y m d -> nth_error gregorian_months (Z.to_nat (m - 1)) = Some name ->
      name_of (date_number y m d) = list_ascii_of_string name).
    { clear. intros y m d name V H. unfold name_of, month_of. rewrite (civil_of_number _ _ _ V).
      apply nth_error_nth. unfold Tcal.months. rewrite nth_error_map. fold gregorian_months. rewrite H. reflexivity. }
    replace (list_ascii_of_string name ++ ["-"%char] ++ list_ascii_of_string name')
      with (span_title (date_number y0 m0 d0) (next - 1)).
    + apply centered_title; [apply span_title_no_nl|]. intros col. apply lunar_written1.
    + unfold span_title. rewrite <- N, (S1 _ _ _ _ V E1), (S1 _ _ _ _ V' E2). reflexivity.
  - intros w name Hw i x Hi. rewrite lunar_shown.
    assert (Hl : (w < 7)%nat) by (change 7%nat with (length days_of_week); apply nth_error_Some; congruence).
    do 7 (destruct w as [|w]; [cbn in Hw; injection Hw as <-;
      destruct i as [|[|i]]; cbn in Hi; [injection Hi as <-; reflexivity..|destruct i; discriminate Hi]|]).
    lia.
  - intros y0 m0 d0 V Hd i x Hi.
    assert (M : mday_of (date_number y0 m0 d0) = d0) by (unfold mday_of; rewrite (civil_of_number _ _ _ V); reflexivity).
    apply lunar_cell_shown; [exact Hd|]. rewrite M. exact Hi.
  - intros col Hc. rewrite lunar_shown.
    do 21 (destruct col as [|col]; [solve [reflexivity | exfalso; cbn in Hc; lia]|]). destruct col; reflexivity.
  - intros row col Hr N. rewrite lunar_shown. destruct row as [|[|[|r]]]; [lia|lia|lia|].
    unfold expected3. pose proof (lunar_col_Z first) as F. pose proof (lunar_base_Z first) as B.
    pose proof (lunar_col_lt first) as FL. set (f := lunar_col first) in *. set (k := base f) in *.
    destruct (Nat.leb_spec k r) as [Kr|Kr]; [|reflexivity].
    destruct (Nat.ltb_spec (col / 3) 7) as [Cr|Cr]; [|reflexivity].
    destruct (Nat.leb_spec f (7 * (r - k) + col / 3)) as [Fr|Fr]; [|reflexivity].
    cbn [andb]. set (p := (7 * (r - k) + col / 3 - f)%nat).
    destruct (Nat.ltb_spec p (Z.to_nat (next - first))) as [Lp|Lp].
    + destruct (Nat.ltb_spec (col mod 3) 2) as [C2|C2].
      2:{ apply nth_overflow. unfold lunar_cells.
          rewrite (nth_indep _ [] (two_digits (mday_of (first + Z.of_nat 0)))) by (rewrite map_length, seq_length; exact Lp).
          rewrite (map_nth (fun i : nat => two_digits (mday_of (first + Z.of_nat i)))). exact C2. }
      exfalso. set (day := first + Z.of_nat p).
      assert (C : weekday_column day = (weekday_column first + (day - first)) mod 7).
      { unfold weekday_column. rewrite Zplus_mod_idemp_l. f_equal. lia. }
      assert (E0 : Z.of_nat f + (day - first) = 7 * Z.of_nat (r - k) + Z.of_nat (col / 3)) by (unfold day, p; lia).
      assert (E2 : weekday_column day = Z.of_nat (col / 3)) by (rewrite C, <- F, E0; clear - Cr; lia).
      apply (N day).
      * unfold day. lia.
      * unfold lunar_row. rewrite <- B, <- F.
        assert (E3 : (Z.of_nat f + (day - first)) / 7 = Z.of_nat (r - k)) by (rewrite E0; clear - Cr; lia). rewrite E3.
        clear - Kr. lia.
      * rewrite E2. clear - C2. lia.
    + rewrite (nth_overflow (lunar_cells _ _)) by (unfold lunar_cells; rewrite map_length, seq_length; exact Lp).
      apply nth_nil_text.
Qed.

(** Every month of which the end is known is shown as it should be. *)
Theorem c80_month : forall z months m first next year print_year,
  lunar_month z months m first next -> first < next ->
  exists t, ChineseCal.render_month z year months m print_year = Ok t /\
    shows_month t (month_heading m first next (if print_year then Some year else None)) first next.
Proof.
  intros z months m first next year py H L. exists (lunar_text m year first next py).
  split; [apply lunar_month_text; assumption|apply shown_month].
Qed.

(** Later days come later in reading order, so every day has its own place. *)
Theorem c80_order : forall first day day', first <= day < day' ->
  lunar_row first day < lunar_row first day' \/
  (lunar_row first day = lunar_row first day' /\ weekday_column day < weekday_column day').
Proof.
  intros first day day' H. unfold lunar_row.
  assert (C : forall d, weekday_column d = (weekday_column first + (d - first)) mod 7).
  { intros d. unfold weekday_column. rewrite Zplus_mod_idemp_l. f_equal. lia. }
  rewrite (C day), (C day'). set (f := weekday_column first).
  assert (0 <= f < 7) by (apply Z.mod_pos_bound; lia). clearbody f. clear C.
  destruct (f =? 0); lia.
Qed.

(** A month of which the end is not known is not shown. *)
Theorem c80_unknown : forall z months m year print_year, Z.of_nat (length months) <= m ->
  ChineseCal.render_month z year months m print_year = Raise IndexError.
Proof.
  intros z months m year py H. unfold ChineseCal.render_month.
  destruct (pyget months (m - 1)) as [a|e] eqn:E.
  - cbn [bind]. rewrite (pyget_ge months m H). reflexivity.
  - cbn [bind]. unfold pyget in E. cbv zeta in E.
    destruct ((if m - 1 <? 0 then m - 1 + zlen months else m - 1) <? 0);
      [|destruct (nth_error _ _); [discriminate|]]; inversion E; reflexivity.
Qed.

(** The mark "(+)" of a month.  [moons] are all new moons, on days 29 or 30 apart; the month is that
    from a new moon until another; it is marked iff there is a new moon between them, that
    is, iff a leap month follows. *)
Theorem c80_leap_mark : forall z moons i j m year,
  (forall k a b, nth_error moons k = Some a -> nth_error moons (S k) = Some b ->
     29 <= utc_to_chinese_date z b - utc_to_chinese_date z a <= 30) ->
  (i < j)%nat -> forall a b, nth_error moons i = Some a -> nth_error moons j = Some b ->
  let first := utc_to_chinese_date z a in let next := utc_to_chinese_date z b in
  (j = S i -> month_heading m first next year =
     list_ascii_of_string "Lunar Month " ++ decimal m ++ match year with Some y => blank :: decimal y | None => [] end) /\
  (j <> S i -> month_heading m first next year =
     list_ascii_of_string "Lunar Month " ++ decimal m ++ list_ascii_of_string "(+)" ++
     match year with Some y => blank :: decimal y | None => [] end).
Proof.
  intros z moons i j m year ST Hij a b Ha Hb first next.
  assert (LB : forall n c, nth_error moons (i + n) = Some c -> 29 * Z.of_nat n <= utc_to_chinese_date z c - first).
  { induction n as [|n IH]; intros c Hc.
    - rewrite Nat.add_0_r in Hc. assert (c = a) by congruence. subst c. unfold first. lia.
    - destruct (nth_error moons (i + n)) as [c'|] eqn:E'.
      + specialize (IH c' eq_refl). replace (i + S n)%nat with (S (i + n)) in Hc by lia. pose proof (ST _ _ _ E' Hc). lia.
      + apply nth_error_None in E'. assert (nth_error moons (i + S n) <> None) by congruence.
        apply nth_error_Some in H. lia. }
  unfold month_heading. split; intros Hj.
  - subst j. pose proof (ST i a b Ha Hb) as S1. fold first in S1. fold next in S1.
    rewrite (proj2 (Z.ltb_ge 30 (next - first))) by lia. reflexivity.
  - pose proof (LB (j - i)%nat b) as L. replace (i + (j - i))%nat with j in L by lia. specialize (L Hb).
    fold next in L. rewrite (proj2 (Z.ltb_lt 30 (next - first))) by lia. reflexivity.
Qed.

(** ** C80: pages *)

Lemma mapM_nth : forall {A B} (f : A -> result B) l r i, mapM f l = Ok r ->
  forall b, nth_error r i = Some b -> exists a, nth_error l i = Some a /\ f a = Ok b.
Proof.
  intros A B f l. induction l as [|x l IH]; intros r i E b Hb; simpl in E.
  - assert (r = []) by congruence. subst r. destruct i; discriminate.
  - destruct (f x) as [y|] eqn:Ex; [|discriminate]. cbn [bind] in E. destruct (mapM f l) as [ys|] eqn:El; [|discriminate].
    cbn [bind] in E. assert (r = y :: ys) by congruence. subst r. destruct i as [|i].
    + exists x. split; [reflexivity|]. cbn in Hb. congruence.
    + exact (IH ys i eq_refl b Hb).
Qed.

Lemma pyget_skipn : forall (l : list Z) n i x, pyget l (Z.of_nat n + i) = Ok x -> 0 <= i ->
  nth_error (skipn n l) (Z.to_nat i) = Some x.
Proof.
  intros l n i x H Hi. unfold pyget in H. rewrite (proj2 (Z.ltb_ge (Z.of_nat n + i) 0)) in H by lia.
  rewrite (proj2 (Z.ltb_ge (Z.of_nat n + i) 0)) in H by lia.
  replace (Z.to_nat (Z.of_nat n + i)) with (n + Z.to_nat i)%nat in H by lia.
  destruct (nth_error l (n + Z.to_nat i)) as [x'|] eqn:E; [|discriminate]. assert (x' = x) by congruence. subst x'.
  clear - E. revert l E. induction n as [|n IH]; intros l E; [exact E|]. destruct l as [|y l]; [discriminate|].
  cbn [skipn]. apply IH. exact E.
Qed.

(** The year of a new year: of those computed from the data, [i] is the first in year [y]. *)
Definition the_year (new_years : list Z) (y : Z) (i : nat) : Prop :=
  (exists minute, nth_error new_years i = Some minute /\ in_year (minute / 1440) y) /\
  forall j minute, (j < i)%nat -> nth_error new_years j = Some minute -> ~ in_year (minute / 1440) y.

Lemma the_year_filter : forall nys y i, the_year nys y i ->
  exists ny rest, nth_error nys i = Some ny /\ filter (fun m => utc_year m =? y) nys = ny :: rest.
Proof.
  induction nys as [|x nys IH]; intros y i [[ny [E H]] F].
  - destruct i; discriminate.
  - destruct i as [|i].
    + exists ny, (filter (fun m => utc_year m =? y) nys). split; [exact E|]. cbn in E. assert (x = ny) by congruence. subst x.
      cbn [filter]. unfold utc_year at 1. rewrite (proj2 (Z.eqb_eq _ _) (proj2 (year_of_ok _ _) H)). reflexivity.
    + destruct (IH y i) as [ny' [rest [E' EF]]].
      * split; [exists ny; split; [exact E|exact H]|]. intros j m Hj. apply (F (S j)). lia.
      * exists ny', rest. split; [exact E'|]. cbn [filter]. unfold utc_year at 1.
        destruct (Z.eqb_spec (year_of (x / 1440)) y) as [Y|Y]; [|exact EF].
        exfalso. apply (F 0%nat x ltac:(lia) eq_refl). apply year_of_ok. exact Y.
Qed.

Lemma searchsorted_left_nonneg : forall l x, 0 <= searchsorted_left l x.
Proof. intros l x. unfold searchsorted_left. lia. Qed.

(** The months from the new year [ny] on. *)
Definition months_from (ny : Z) (months : list Z) : list Z := filter (fun minute => ny <=? minute) months.

Lemma months_from_skipn : forall months ny, StronglySorted Z.lt months -> In ny months ->
  skipn (Z.to_nat (searchsorted_left months ny)) months = months_from ny months.
Proof.
  intros months ny S H. apply in_split in H. destruct H as [l1 [l2 ->]].
  rewrite sorted_split by exact S. unfold zlen. rewrite Nat2Z.id, skipn_app, skipn_all, Nat.sub_diag. cbn [skipn app].
  unfold months_from. rewrite filter_app. cbn [filter]. rewrite Z.leb_refl.
  apply SSorted_app in S. destruct S as [_ [S2 S3]]. inversion S2 as [|? ? S4 F]; subst.
  assert (F1 : filter (fun minute => ny <=? minute) l1 = []).
  { assert (G : forall x, In x l1 -> x < ny) by (intros x Hx; apply (S3 x ny Hx); left; reflexivity).
    clear - G. induction l1 as [|x l1 IH]; [reflexivity|]. cbn [filter].
    rewrite (proj2 (Z.leb_gt ny x)) by (apply G; left; reflexivity). apply IH. intros y Hy. apply G. right. exact Hy. }
  assert (F2 : filter (fun minute => ny <=? minute) l2 = l2).
  { clear - F. induction F as [|x l2 L F IH]; [reflexivity|]. cbn [filter]. rewrite (proj2 (Z.leb_le ny x)) by lia. rewrite IH. reflexivity. }
  rewrite F1, F2. reflexivity.
Qed.

Lemma new_year_in : forall z lon minutes moons months e nys i ny,
  chinese_month_start z moons lon minutes = Ok (months, e) ->
  calculate_new_year z lon minutes moons = Ok nys -> nth_error nys i = Some ny -> In ny months.
Proof.
  intros z lon minutes moons months e nys i ny E N H. unfold calculate_new_year in N. rewrite E in N. cbn [bind] in N.
  destruct (mapM_nth _ _ _ i N ny H) as [a [_ G]]. apply pyget_In in G. exact G.
Qed.

Lemma chinese_cal_text : forall z lon minutes moons months e nys i y ny,
  chinese_month_start z moons lon minutes = Ok (months, e) -> StronglySorted Z.lt months ->
  calculate_new_year z lon minutes moons = Ok nys -> the_year nys y i -> nth_error nys i = Some ny ->
  forall m,
  chinese_cal z lon minutes moons m (Some y) = print_calendar z y (months_from ny months) (Some m) /\
  chinese_cal z lon minutes moons y None = print_calendar z y (months_from ny months) None.
Proof.
  intros z lon minutes moons months e nys i y ny E S N Y H m. unfold chinese_cal. rewrite E. cbn [bind]. rewrite N. cbn [bind].
  destruct (the_year_filter nys y i Y) as [ny' [rest [H' F]]]. assert (ny' = ny) by congruence. subst ny'.
  rewrite F, (months_from_skipn months ny S (new_year_in z lon minutes moons months e nys i ny E N H)). split; reflexivity.
Qed.

Lemma shows_month_ext : forall t t' title first next, (forall row col, shown t' row col = shown t row col) ->
  shows_month t title first next -> shows_month t' title first next.
Proof.
  intros t t' title first next X [M1 M2 M3 M4 M5 M6].
  assert (SH : forall row col s, shows t row col s -> shows t' row col s).
  { intros row col s HS i c Hi. rewrite X. apply HS. exact Hi. }
  assert (CE : forall row w s, centered t row w s -> centered t' row w s).
  { intros row w s [C1 C2]. split; [apply SH, C1|]. intros col Hc. rewrite X. apply C2. exact Hc. }
  split.
  - apply CE, M1.
  - intros y m d name y' m' d' name' V V' D1 D2 N1 N2. apply CE. exact (M2 y m d name y' m' d' name' V V' D1 D2 N1 N2).
  - intros. apply SH. eapply M3; eassumption.
  - intros. apply SH. eapply M4; eassumption.
  - intros. rewrite X. apply M5. assumption.
  - intros. rewrite X. apply M6; assumption.
Qed.

(** Asked for month [m] of year [y], the command shows month [m] of those from the new year of [y] on. *)
Theorem c80_page : forall z lon minutes moons months e nys i y ny m first next,
  chinese_month_start z moons lon minutes = Ok (months, e) -> StronglySorted Z.lt months ->
  calculate_new_year z lon minutes moons = Ok nys -> the_year nys y i -> nth_error nys i = Some ny ->
  lunar_month z (months_from ny months) m first next -> first < next ->
  exists page, chinese_cal z lon minutes moons m (Some y) = Ok page /\
    shows_month page (month_heading m first next (Some y)) first next.
Proof.
  intros z lon minutes moons months e nys i y ny m first next E S N Y H L F.
  destruct (chinese_cal_text z lon minutes moons months e nys i y ny E S N Y H m) as [-> _].
  destruct (c80_month z _ m first next y true L F) as [t [Et HM]]. exists (t ++ [newline]). split.
  - cbn [print_calendar]. rewrite Et. reflexivity.
  - apply (shows_month_ext t); [|exact HM]. intros row col. unfold shown. change newline with nl. rewrite written_nl_end. reflexivity.
Qed.

(** Its days are those of the feasts: day [k] of month [m] is the one that the commands for the feasts
    compute for the year. *)
Theorem c80_agrees : forall z lon minutes moons months e nys i y ny m first next k dates day,
  chinese_month_start z moons lon minutes = Ok (months, e) -> StronglySorted Z.lt months ->
  calculate_new_year z lon minutes moons = Ok nys -> the_year nys y i -> nth_error nys i = Some ny ->
  lunar_month z (months_from ny months) m first next ->
  nth_day_of_nth_chinese_month z lon minutes moons m k = Ok dates -> nth_error dates i = Some day ->
  day = first + (k - 1).
Proof.
  intros z lon minutes moons months e nys i y ny m first next k dates day E S N Y H [Hm [a [b [Ha [Hb [<- <-]]]]]] D Hd.
  unfold nth_day_of_nth_chinese_month in D. rewrite E in D. cbn [bind] in D. rewrite N in D. cbn [bind] in D.
  match type of D with context [mapM ?f ?l] => destruct (mapM f l) as [starts|] eqn:EM; [|discriminate] end. cbn [bind] in D.
  assert (X : map (fun m0 => utc_to_chinese_date z m0 + (k - 1)) starts = dates) by congruence. subst dates. clear D.
  rewrite nth_error_map in Hd. destruct (nth_error starts i) as [st|] eqn:ES; [|discriminate].
  cbn [option_map] in Hd.
  destruct (mapM_nth _ _ _ i EM st ES) as [ix [G1 G2]]. rewrite nth_error_map, H in G1. cbn [option_map] in G1.
  assert (ix = searchsorted_left months ny) by congruence. subst ix.
  pose proof (searchsorted_left_nonneg months ny) as P.
  rewrite <- (Z2Nat.id _ P) in G2. apply pyget_skipn in G2; [|lia].
  rewrite (months_from_skipn months ny S (new_year_in z lon minutes moons months e nys i ny E N H)) in G2.
  rewrite Ha in G2. assert (st = a) by congruence. subst st. congruence.
Qed.

(** A year of which the data do not contain the new year is rejected. *)
Theorem c80_other_year : forall z lon minutes moons months e nys y m,
  chinese_month_start z moons lon minutes = Ok (months, e) ->
  calculate_new_year z lon minutes moons = Ok nys -> (forall ny, In ny nys -> ~ in_year (ny / 1440) y) ->
  chinese_cal z lon minutes moons m (Some y) = Raise ValueError /\
  chinese_cal z lon minutes moons y None = Raise ValueError.
Proof.
  intros z lon minutes moons months e nys y m E N H. unfold chinese_cal. rewrite E. cbn [bind]. rewrite N. cbn [bind].
  assert (F : filter (fun m0 => utc_year m0 =? y) nys = []).
  { clear - H. induction nys as [|x nys IH]; [reflexivity|]. cbn [filter]. unfold utc_year at 1.
    destruct (Z.eqb_spec (year_of (x / 1440)) y) as [Y|Y].
    - exfalso. apply (H x); [left; reflexivity|]. apply year_of_ok. exact Y.
    - apply IH. intros ny Hny. apply H. right. exact Hny. }
  rewrite F. split; reflexivity.
Qed.

(** Asked for a year, the command shows the year over four bands of three months; each month
    appears whole at its place, and nothing else is shown.  [first m] is the first day of month
    [m]; the first day of month 13 is that after the last month. *)
Theorem c80_year_page : forall z lon minutes moons months e nys i y ny first,
  chinese_month_start z moons lon minutes = Ok (months, e) -> StronglySorted Z.lt months ->
  calculate_new_year z lon minutes moons = Ok nys -> the_year nys y i -> nth_error nys i = Some ny ->
  (forall m, 1 <= m <= 12 -> lunar_month z (months_from ny months) m (first m) (first (m + 1)) /\ first m < first (m + 1)) ->
  exists page, chinese_cal z lon minutes moons y None = Ok page /\
  centered page 0 66 (decimal y) /\
  (forall m, 1 <= m <= 12 -> exists t,
     shows_month t (month_heading m (first m) (first (m + 1)) None) (first m) (first (m + 1)) /\
     forall row col, Z.of_nat row < lunar_band_height first ((m - 1) / 3) -> (col < 20)%nat ->
     shown page (Z.to_nat (lunar_band_top first (Z.to_nat ((m - 1) / 3))) + row)
       (23 * Z.to_nat ((m - 1) mod 3) + col) = shown t row col) /\
  (forall row col, (1 <= row)%nat ->
     (forall band, 0 <= band <= 3 ->
        lunar_band_top first (Z.to_nat band) <= Z.of_nat row < lunar_band_top first (Z.to_nat band) + lunar_band_height first band ->
        (20 <= col mod 23)%nat \/ (69 <= col)%nat) ->
     shown page row col = blank).
Proof.
  intros z lon minutes moons months e nys i y ny first E S N Y H M.
  destruct (chinese_cal_text z lon minutes moons months e nys i y ny E S N Y H 1) as [_ ->].
  set (yms := months_from ny months) in *.
  set (T := fun m => lunar_text m y (first m) (first (m + 1)) false).
  assert (R : forall m, 1 <= m <= 12 -> ChineseCal.render_month z y yms m false = Ok (T m)).
  { intros m Hm. destruct (M m Hm) as [L F]. apply lunar_month_text; assumption. }
  unfold print_calendar. cbn [ChineseCal.render_months]. rewrite !R by lia. cbn [bind].
  eexists. split; [reflexivity|].
  destruct (four_bands 20 66 (decimal y) [T 1; T 2; T 3] [T 4; T 5; T 6] [T 7; T 8; T 9] [T 10; T 11; T 12]
    (fun k => lunar_band_height first (Z.of_nat k)) (lunar_band_top first)) as [C [P G]].
  - apply decimal_no_nl.
  - reflexivity.
  - reflexivity.
  - assert (HH : forall m, 1 <= m <= 12 -> fits 20 (T m) /\
      Z.of_nat (height (T m)) = lunar_height (first m) (first (m + 1)) /\ (0 < height (T m))%nat).
    { intros m Hm. destruct (M m Hm) as [_ F]. unfold T. split; [|split].
      - apply lunar_fits. unfold lunar_title. rewrite !app_length.
        assert (LD : (length (decimal m) <= 2)%nat).
        { assert (Hn : exists n, In n (seq 1 12) /\ m = Z.of_nat n) by (exists (Z.to_nat m); rewrite in_seq; lia).
          destruct Hn as [n [Hn ->]]. clear - Hn. revert n Hn. apply Forall_forall. repeat constructor. }
        change (length (str "Lunar Month ")) with 12%nat.
        destruct (30 <? first (m + 1) - first m); cbn [length]; [change (length (str "(+)")) with 3%nat|]; lia.
      - apply lunar_height_ok. exact F.
      - assert (L := lunar_height_ok m y (first m) (first (m + 1)) false F).
        assert (0 < lunar_height (first m) (first (m + 1))); [|lia].
        unfold lunar_height, lunar_row.
        assert (0 <= weekday_column (first m) < 7) by (apply Z.mod_pos_bound; lia).
        clear - F H0. destruct (weekday_column (first m) =? 0); lia. }
    assert (BH : forall a b c k, 1 <= a <= 10 -> b = a + 1 -> c = a + 2 -> a = 3 * k + 1 ->
      Forall (fits 20) [T a; T b; T c] /\ length [T a; T b; T c] = 3%nat /\
      Z.of_nat (block_height [T a; T b; T c]) = lunar_band_height first k /\ (0 < block_height [T a; T b; T c])%nat).
    { intros a b c k Ha -> -> Ek.
      destruct (HH a ltac:(lia)) as [F1 [H1 P1]]. destruct (HH (a + 1) ltac:(lia)) as [F2 [H2 P2]].
      destruct (HH (a + 2) ltac:(lia)) as [F3 [H3 P3]].
      split; [constructor; [exact F1|constructor; [exact F2|constructor; [exact F3|constructor]]]|]. split; [reflexivity|].
      unfold block_height. cbn [map list_max fold_right]. unfold lunar_band_height. cbv zeta.
      rewrite <- Ek. replace (3 * k + 2) with (a + 1) by lia. replace (3 * k + 3) with (a + 2) by lia.
      rewrite <- H1, <- H2, <- H3. lia. }
    intros k ts Ek. assert (X : forall (a b : list text), Some a = Some b -> a = b) by congruence.
    destruct k as [|[|[|[|k]]]]; cbn [nth_error] in Ek; [| | | |destruct k; discriminate Ek]; apply X in Ek; subst ts;
      apply BH; lia.
  - split; [exact C|]. split.
    + intros m Hm. exists (T m). split.
      { destruct (M m Hm) as [L F]. destruct (c80_month z yms m (first m) (first (m + 1)) y false L F) as [t [Et SM]].
        rewrite (R m Hm) in Et. assert (t = T m) by congruence. subst t. exact SM. }
      intros row col Hr Hc. set (q := (m - 1) / 3) in *. set (j := (m - 1) mod 3).
      assert (Q : m = 3 * q + 1 + j /\ 0 <= q <= 3 /\ 0 <= j < 3) by (unfold q, j; clear - Hm; lia).
      destruct Q as [Q1 [Q2 Q3]]. clearbody q j.
      assert (TS : exists ts, nth_error [[T 1; T 2; T 3]; [T 4; T 5; T 6]; [T 7; T 8; T 9]; [T 10; T 11; T 12]] (Z.to_nat q) = Some ts /\
        nth_error ts (Z.to_nat j) = Some (T m)).
      { assert (Qq : q = 0 \/ q = 1 \/ q = 2 \/ q = 3) by lia. assert (Jj : j = 0 \/ j = 1 \/ j = 2) by lia.
        clear - Q1 Qq Jj. destruct Qq as [-> |[-> |[-> | ->]]]; destruct Jj as [-> |[-> | ->]]; cbn in Q1; subst m;
          eexists; split; reflexivity. }
      destruct TS as [ts [T1 T2]].
      assert (Hr' : Z.of_nat row < lunar_band_height first (Z.of_nat (Z.to_nat q))) by (rewrite Z2Nat.id by lia; exact Hr).
      pose proof (P (Z.to_nat q) ts (Z.to_nat j) (T m) T1 T2 row col Hr' Hc) as PP.
      replace ((20 + 3) * Z.to_nat j)%nat with (23 * Z.to_nat j)%nat in PP by reflexivity. exact PP.
    + intros row col Hr GB. apply G; [exact Hr|]. intros k Hk Rk.
      specialize (GB (Z.of_nat k) ltac:(lia)). rewrite Nat2Z.id in GB. specialize (GB Rk). exact GB.
Qed.

Lemma lunar_month_of_days : forall z lon minutes moons months e nys i ny m first next firsts nexts,
  chinese_month_start z moons lon minutes = Ok (months, e) -> StronglySorted Z.lt months ->
  calculate_new_year z lon minutes moons = Ok nys -> nth_error nys i = Some ny -> 1 <= m ->
  nth_day_of_nth_chinese_month z lon minutes moons m 1 = Ok firsts -> nth_error firsts i = Some first ->
  nth_day_of_nth_chinese_month z lon minutes moons (m + 1) 1 = Ok nexts -> nth_error nexts i = Some next ->
  lunar_month z (months_from ny months) m first next.
Proof.
  intros z lon minutes moons months e nys i ny m first next firsts nexts E S N H Hm D1 H1 D2 H2.
  assert (A : forall m dates day, 1 <= m -> nth_day_of_nth_chinese_month z lon minutes moons m 1 = Ok dates ->
    nth_error dates i = Some day -> exists moon, nth_error (months_from ny months) (Z.to_nat (m - 1)) = Some moon /\
    utc_to_chinese_date z moon = day).
  { clear m Hm D1 D2 H1 H2. intros m dates day Hm D Hd.
    unfold nth_day_of_nth_chinese_month in D. rewrite E in D. cbn [bind] in D. rewrite N in D. cbn [bind] in D.
    match type of D with context [mapM ?f ?l] => destruct (mapM f l) as [starts|] eqn:EM; [|discriminate] end. cbn [bind] in D.
    assert (X : map (fun m0 => utc_to_chinese_date z m0 + (1 - 1)) starts = dates) by congruence. subst dates. clear D.
    rewrite nth_error_map in Hd. destruct (nth_error starts i) as [st|] eqn:ES; [|discriminate]. cbn [option_map] in Hd.
    destruct (mapM_nth _ _ _ i EM st ES) as [ix [G1 G2]]. rewrite nth_error_map, H in G1. cbn [option_map] in G1.
    assert (ix = searchsorted_left months ny) by congruence. subst ix.
    pose proof (searchsorted_left_nonneg months ny) as P.
    rewrite <- (Z2Nat.id _ P) in G2. apply pyget_skipn in G2; [|lia].
    rewrite (months_from_skipn months ny S (new_year_in z lon minutes moons months e nys i ny E N H)) in G2.
    exists st. split; [exact G2|]. assert (Q : utc_to_chinese_date z st + (1 - 1) = day) by congruence. lia. }
  destruct (A m firsts first Hm D1 H1) as [a [Ha Da]].
  destruct (A (m + 1) nexts next ltac:(lia) D2 H2) as [b [Hb Db]]. replace (m + 1 - 1) with m in Hb by lia.
  split; [exact Hm|]. exists a, b. repeat split; assumption.
Qed.

(** So the pages show the months of the Chinese calendar: for data as in C67, month [m] (1 to 9) of
    the year that begins in sui [p] is shown from its first day to the day before the next month. *)
Theorem c80_calendar : forall z moons longitude minutes ss m y i p nys, good_events z moons longitude minutes ss ->
  let D := map (utc_to_chinese_date z) moons in let Q := zhongqi z longitude minutes in
  (forall p, In p (pairs ss) -> length (regular_months D Q (fst p) (snd p)) = 12%nat) ->
  Z.of_nat (length moons) <= last ss 0 + 2 -> 1 <= m <= 9 ->
  calculate_new_year z longitude minutes moons = Ok nys -> the_year nys y i -> nth_error (pairs ss) i = Some p ->
  exists page, chinese_cal z longitude minutes moons m (Some y) = Ok page /\
    shows_month page (month_heading m (feast D Q m 1 p) (feast D Q (m + 1) 1 p) (Some y))
      (feast D Q m 1 p) (feast D Q (m + 1) 1 p).
Proof.
  intros z moons longitude minutes ss m y i p nys G D Q T HL Hm N Y Hp. pose proof G as [S1 [S2 _]].
  destruct (good_index z moons longitude minutes ss G) as [before [after [E [SM [RM _]]]]]. cbv zeta in E, SM, RM.
  set (ms := before ++ suis_months _ _ ss ++ last ss 0 :: after) in *.
  assert (INC := start_increasing moons S1).
  assert (SMO : StronglySorted Z.lt (map (start moons) ms)).
  { clear - SM RM INC. induction SM as [|x l SM IH F]; [constructor|]. inversion RM as [|? ? R1 R2]; subst. cbn [map]. constructor.
    - apply IH. exact R2.
    - apply Forall_forall. intros b Hb. apply in_map_iff in Hb. destruct Hb as [j [<- Hj]].
      rewrite Forall_forall in F, R2. apply INC; [exact R1|apply R2, Hj|apply F, Hj]. }
  destruct (c67_feasts z moons longitude minutes ss m 1 G T HL ltac:(lia)) as [F1 _].
  destruct (c67_feasts z moons longitude minutes ss (m + 1) 1 G T HL ltac:(lia)) as [F2 _].
  destruct (the_year_filter nys y i Y) as [ny [rest [Hny _]]].
  pose proof (lunar_month_of_days z longitude minutes moons _ _ nys i ny m
    (feast D Q m 1 p) (feast D Q (m + 1) 1 p) _ _ E SMO N Hny ltac:(lia) F1
    ltac:(rewrite nth_error_map, Hp; reflexivity) F2 ltac:(rewrite nth_error_map, Hp; reflexivity)) as L.
  apply (c80_page z longitude minutes moons _ _ nys i y ny m _ _ E SMO N Y Hny L).
  destruct L as [_ [a [b [Ha [Hb [<- <-]]]]]].
  assert (AB : a < b).
  { unfold months_from in Ha, Hb.
    assert (SF : StronglySorted Z.lt (filter (fun minute => ny <=? minute) (map (start moons) ms))) by (apply filter_sorted; exact SMO).
    revert Ha Hb. replace (Z.to_nat m) with (S (Z.to_nat (m - 1))) by lia. generalize (Z.to_nat (m - 1)).
    clear - SF. induction SF as [|x l SF IH F]; intros [|n] Ha Hb; try discriminate.
    - cbn [nth_error] in Ha. assert (x = a) by congruence. subst x. rewrite Forall_forall in F. apply F.
      apply (nth_error_In l 0%nat). exact Hb.
    - exact (IH n Ha Hb). }
  assert (INM : forall x k, nth_error (months_from ny (map (start moons) ms)) k = Some x -> In x moons).
  { intros x k Hx. apply nth_error_In in Hx. apply filter_In in Hx. destruct Hx as [Hx _]. apply in_map_iff in Hx.
    destruct Hx as [j [<- Hj]]. rewrite Forall_forall in RM. specialize (RM j Hj). unfold start. apply nth_In. lia. }
  apply INM in Ha. apply INM in Hb. apply in_split in Ha. destruct Ha as [l1 [l2 El]].
  unfold D in S2. rewrite El in S1, S2, Hb. rewrite map_app in S2. cbn [map] in S2.
  apply SSorted_app in S1. destruct S1 as [_ [S1 S3]]. apply SSorted_app in S2. destruct S2 as [_ [S2 _]].
  apply in_app_or in Hb. destruct Hb as [Hb|[Hb|Hb]].
  - specialize (S3 b a Hb (or_introl eq_refl)). lia.
  - lia.
  - inversion S2 as [|? ? _ F]; subst. rewrite Forall_forall in F. apply F. apply in_map. exact Hb.
Qed.

(** ** C80: numbers that are no months *)

(** Month 0 is rejected. *)
Theorem c80_month_0 : forall z months year print_year moon moon',
  hd_error months = Some moon -> last months 0 = moon' -> utc_to_chinese_date z moon <= utc_to_chinese_date z moon' ->
  ChineseCal.render_month z year months 0 print_year = Raise IndexError.
Proof.
  intros z months year py a b Ha Hb L. destruct months as [|x l]; [discriminate|]. cbn in Ha. assert (x = a) by congruence. subst x.
  assert (P1 : pyget (a :: l) (0 - 1) = Ok b).
  { subst b. rewrite (app_removelast_last (l := a :: l) 0) at 1 by discriminate. apply pyget_last. }
  rewrite (render_month3 z year (a :: l) 0 py b a P1 eq_refl). rewrite (proj2 (Z.ltb_ge _ _)) by exact L. reflexivity.
Qed.

(** The numbers above 12 are months of the following years, shown under the year asked for. *)
Theorem c80_month_13 : forall z months ny ny' m first next, StronglySorted Z.lt months ->
  nth_error (months_from ny months) 12 = Some ny' -> 1 <= m ->
  lunar_month z (months_from ny' months) m first next ->
  lunar_month z (months_from ny months) (12 + m) first next.
Proof.
  intros z months ny ny' m first next S H Hm [_ [a [b [Ha [Hb [D1 D2]]]]]]. split; [lia|]. exists a, b.
  assert (SF : StronglySorted Z.lt (months_from ny months)) by (apply filter_sorted; exact S).
  assert (LE : ny <= ny').
  { apply nth_error_In in H. apply filter_In in H. destruct H as [_ H]. apply Z.leb_le. exact H. }
  assert (FF : months_from ny' (months_from ny months) = months_from ny' months).
  { unfold months_from. clear - LE. induction months as [|x l IH]; [reflexivity|]. cbn [filter].
    destruct (Z.leb_spec ny x); cbn [filter]; rewrite IH; [reflexivity|].
    destruct (Z.leb_spec ny' x); [lia|reflexivity]. }
  rewrite <- FF in Ha, Hb.
  assert (IN : In ny' (months_from ny months)) by (apply nth_error_In in H; exact H).
  rewrite <- (months_from_skipn _ ny' SF IN) in Ha, Hb.
  assert (IX : searchsorted_left (months_from ny months) ny' = 12).
  { destruct (nth_error_split _ _ H) as [l1 [l2 [El Ll]]]. rewrite El in SF |- *. rewrite sorted_split by exact SF.
    unfold zlen. rewrite Ll. reflexivity. }
  rewrite IX in Ha, Hb. change (Z.to_nat 12) with 12%nat in Ha, Hb.
  assert (SK : forall n (l : list Z) k x, nth_error (skipn n l) k = Some x -> nth_error l (n + k) = Some x).
  { clear. induction n as [|n IH]; intros l k x H; [exact H|]. destruct l as [|y l]; [destruct k; discriminate|]. apply IH. exact H. }
  apply SK in Ha, Hb. split; [|split; [|split; assumption]].
  - rewrite <- Ha. f_equal. lia.
  - rewrite <- Hb. f_equal. lia.
Qed.

(** But a negative number is taken for a month counted from the end of the data: a page headed
    "Lunar Month -1" with the days of the last month whose end is known, whatever the year. *)
Theorem c80_negative_refuted : forall z months year before moon moon', months = before ++ [moon; moon'] ->
  utc_to_chinese_date z moon < utc_to_chinese_date z moon' ->
  exists t, ChineseCal.render_month z year months (-1) true = Ok t /\
    shows_month t (month_heading (-1) (utc_to_chinese_date z moon) (utc_to_chinese_date z moon') (Some year))
      (utc_to_chinese_date z moon) (utc_to_chinese_date z moon').
Proof.
  intros z months year before a b -> L.
  assert (P2 : pyget (before ++ [a; b]) (-1) = Ok b).
  { replace (before ++ [a; b]) with ((before ++ [a]) ++ [b]) by (rewrite <- app_assoc; reflexivity). apply pyget_last. }
  assert (P1 : pyget (before ++ [a; b]) (-1 - 1) = Ok a).
  { unfold pyget, zlen. rewrite app_length. cbn [length]. change (-1 - 1 <? 0) with true. cbv iota.
    rewrite (proj2 (Z.ltb_ge _ 0)) by lia. replace (Z.to_nat (-1 - 1 + Z.of_nat (length before + 2))) with (length before) by lia.
    rewrite nth_error_app2, Nat.sub_diag by lia. reflexivity. }
  exists (lunar_text (-1) year (utc_to_chinese_date z a) (utc_to_chinese_date z b) true). split.
  - rewrite (render_month3 z year (before ++ [a; b]) (-1) true a b P1 P2). rewrite (proj2 (Z.ltb_lt _ _) L). reflexivity.
  - apply (shown_month (-1) year _ _ true).
Qed.

(** ** Examples *)

(** The data of C66 and C67: thirty days for each month, the new year on 1970-03-02. *)
Definition even_moons : list Z := map (fun i => 1440 * (30 * i)) (consecutive 0 14).

Definition lines (ls : list string) : list ascii := concat (map (fun l => list_ascii_of_string l ++ [line_feed]) ls).

Example c80_page_ex : chinese_cal UTC late_longitudes late_minutes even_moons 5 (Some 1970) =
  Ok (lines [" Lunar Month 5 1970"; "     June-July"; "Su Mo Tu We Th Fr Sa";
             "      30  1  2  3  4"; " 5  6  7  8  9 10 11"; "12 13 14 15 16 17 18"; "19 20 21 22 23 24 25";
             "26 27 28 29"; ""]%string).
Proof. vm_compute. reflexivity. Qed.

Example c80_calendar_ex : exists page, chinese_cal UTC late_longitudes late_minutes even_moons 5 (Some 1970) = Ok page /\
  shows_month page (list_ascii_of_string "Lunar Month 5 1970") 180 210.
Proof.
  destruct (c80_calendar UTC even_moons late_longitudes late_minutes [0; 12] 5 1970 0 (0, 12) [1440 * 60] (proj1 c66_ex))
    as [page [E HM]].
  - intros p [<-|[]]. vm_compute. reflexivity.
  - vm_compute. discriminate.
  - lia.
  - vm_compute. reflexivity.
  - split; [|intros j minute Hj; lia]. exists (1440 * 60). split; [reflexivity|]. split; vm_compute; [discriminate|reflexivity].
  - reflexivity.
  - exists page. split; [exact E|]. exact HM.
Qed.

(** The fourth month of 2020 (2020-04-23) with its leap month (2020-05-23), until 2020-06-20. *)
Example c80_leap_ex : ChineseCal.render_month UTC 2020 (map (Z.mul 1440) [18375; 18434]) 1 false =
    Ok (lines ["  Lunar Month 1(+)"; "     April-June"; "Su Mo Tu We Th Fr Sa"; "            23 24 25";
      "26 27 28 29 30  1  2"; " 3  4  5  6  7  8  9"; "10 11 12 13 14 15 16"; "17 18 19 20 21 22 23";
      "24 25 26 27 28 29 30"; "31  1  2  3  4  5  6"; " 7  8  9 10 11 12 13"; "14 15 16 17 18 19 20"]%string) /\
  month_heading 4 18375 18434 None = list_ascii_of_string "Lunar Month 4(+)" /\
  (forall k a b, nth_error (map (Z.mul 1440) [18375; 18405; 18434]) k = Some a ->
     nth_error (map (Z.mul 1440) [18375; 18405; 18434]) (S k) = Some b ->
     29 <= utc_to_chinese_date UTC b - utc_to_chinese_date UTC a <= 30).
Proof.
  split; [vm_compute; reflexivity|]. split; [vm_compute; reflexivity|].
  intros [|[|[|k]]] a b Ha Hb; cbn in Ha, Hb; try discriminate; injection Ha as <-; injection Hb as <-;
    vm_compute; split; discriminate.
Qed.

(** A month that begins on a Sunday (1970-01-04): the row above it is empty. *)
Example c80_sunday_ex : ChineseCal.render_month UTC 1970 (map (Z.mul 1440) [3; 32]) 1 true =
    Ok (lines [" Lunar Month 1 1970"; "  January-February"; "Su Mo Tu We Th Fr Sa"; "";
      " 4  5  6  7  8  9 10"; "11 12 13 14 15 16 17"; "18 19 20 21 22 23 24"; "25 26 27 28 29 30 31"; " 1"]%string).
Proof. vm_compute. reflexivity. Qed.

(** Two sui, so that the whole year 1970 is known. *)
Definition two_suis : list Z := map (fun j => 30 * j - 25) (consecutive 0 27).
Definition two_minutes : list Z := map (Z.mul 1440) (flat_map (fun q => [q - 10; q]) two_suis ++ [760]).
Definition two_longitudes : list Z :=
  map (fun x => x mod 360 * degree) (flat_map (fun j => [230 + 30 * j; 240 + 30 * j]) (consecutive 0 27) ++ [1025]).
Definition two_moons : list Z := map (fun i => 1440 * (30 * i)) (consecutive 0 26).
Example c80_year_ex : let first m := 60 + 30 * (m - 1) in exists page,
  chinese_cal UTC two_longitudes two_minutes two_moons 1970 None = Ok page /\
  centered page 0 66 (list_ascii_of_string "1970") /\
  (forall m, 1 <= m <= 12 -> exists t,
     shows_month t (month_heading m (first m) (first (m + 1)) None) (first m) (first (m + 1)) /\
     forall row col, Z.of_nat row < lunar_band_height first ((m - 1) / 3) -> (col < 20)%nat ->
     shown page (Z.to_nat (lunar_band_top first (Z.to_nat ((m - 1) / 3))) + row)
       (23 * Z.to_nat ((m - 1) mod 3) + col) = shown t row col).
Proof.
  intros first.
  destruct (c80_year_page UTC two_longitudes two_minutes two_moons two_moons [0; 12; 24] [86400; 604800] 0 1970 86400 first)
    as [page [E [C [M _]]]].
  - vm_compute. reflexivity.
  - apply sorted_iff. vm_compute. reflexivity.
  - vm_compute. reflexivity.
  - split; [|intros j minute Hj; lia]. exists 86400. split; [reflexivity|]. split; vm_compute; [discriminate|reflexivity].
  - reflexivity.
  - intros m Hm. split; [|unfold first; lia]. split; [lia|].
    assert (Hn : exists n, In n (seq 1 12) /\ m = Z.of_nat n) by (exists (Z.to_nat m); rewrite in_seq; lia).
    destruct Hn as [n [Hn ->]]. clear Hm. revert n Hn. apply Forall_forall.
    repeat constructor; (eexists; eexists; split; [vm_compute; reflexivity|split; [vm_compute; reflexivity|split; vm_compute; reflexivity]]).
  - exists page. split; [exact E|]. split; [exact C|exact M].
Qed.

(** Month 13 of 1970 is month 1 of 1971, under the year 1970. *)
Example c80_month_13_ex : nth_error (months_from 86400 two_moons) 12 = Some 604800 /\
  lunar_month UTC (months_from 604800 two_moons) 1 420 450 /\
  exists rest, chinese_cal UTC two_longitudes two_minutes two_moons 13 (Some 1970) =
    Ok (list_ascii_of_string "Lunar Month 13 1970" ++ line_feed :: rest).
Proof.
  split; [vm_compute; reflexivity|]. split.
  - split; [lia|]. eexists. eexists. split; [vm_compute; reflexivity|]. split; [vm_compute; reflexivity|]. split; vm_compute; reflexivity.
  - eexists. vm_compute. reflexivity.
Qed.

(** Month -1 of 1970 is shown with days of December 1971 and January 1972. *)
Example c80_negative_ex : chinese_cal UTC two_longitudes two_minutes two_moons (-1) (Some 1970) =
  Ok (lines ["Lunar Month -1 1970"; "  December-January"; "Su Mo Tu We Th Fr Sa"; "         22 23 24 25";
    "26 27 28 29 30 31  1"; " 2  3  4  5  6  7  8"; " 9 10 11 12 13 14 15"; "16 17 18 19 20"; ""]%string).
Proof. vm_compute. reflexivity. Qed.

(** ** Assumptions *)
Print Assumptions c80_month.
Print Assumptions c80_order.
Print Assumptions c80_unknown.
Print Assumptions c80_leap_mark.
Print Assumptions c80_page.
Print Assumptions c80_agrees.
Print Assumptions c80_other_year.
Print Assumptions c80_year_page.
Print Assumptions c80_calendar.
Print Assumptions c80_month_0.
Print Assumptions c80_month_13.
Print Assumptions c80_negative_refuted.
