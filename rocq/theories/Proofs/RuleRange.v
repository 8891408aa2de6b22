(** Holiday rules: the dates reported for a range are the dates of the rule within
    the range. *)
From Coq Require Import ZArith List Bool Lia.
From Verif.Model Require Import Base Dates Holidays.
From Verif.Spec Require Import Civil Rules.
From Verif.Proofs Require Import DatesLemmas RuleLemmas.
Import ListNotations.
Open Scope Z_scope.

Lemma year_near : forall a n y, in_year a y -> Z.abs (n - a) <= 365 -> y - 1 <= year_of n <= y + 1.
Proof.
  intros a n y [H1 H2] H. pose proof (proj1 (year_of_ok n (year_of n)) eq_refl) as [N1 N2].
  pose proof (year_start_next (y - 1)) as P. replace (y - 1 + 1) with y in P by lia.
  pose proof (year_start_next (y + 1)) as Q. replace (y + 1 + 1) with (y + 2) in Q by lia.
  assert (L : year_start (y - 1) <= n < year_start (y + 2)).
  { destruct (leap (y - 1)), (leap (y + 1)); lia. }
  split.
  - destruct (Z.le_gt_cases (y - 1) (year_of n)); [assumption|].
    destruct (Z.eq_dec (year_of n + 1) (y - 1)) as [E|E]; [rewrite E in N2; lia|].
    pose proof (year_start_mono (year_of n + 1) (y - 1) ltac:(lia)). lia.
  - destruct (Z.le_gt_cases (year_of n) (y + 1)); [assumption|].
    destruct (Z.eq_dec (y + 2) (year_of n)) as [E|E]; [rewrite E in *; lia|].
    pose proof (year_start_mono (y + 2) (year_of n) ltac:(lia)). lia.
Qed.

Lemma monthly_reach : forall day_in a,
  (forall y m, 1 <= m <= 12 -> valid_date y m (day_in y m)) ->
  a < apply_monthly day_in a <= a + 62.
Proof.
  intros day_in a V. destruct (apply_monthly_ok day_in a V) as [H1 _]. split; [lia|].
  unfold apply_monthly. destruct (civil_of_day a) as [[Hm Hd] E].
  set (y := year_of a) in *. set (m := month_of a) in *. set (d := mday_of a) in *.
  pose proof (month_next y m Hm) as N. pose proof (month_length_28 y m Hm).
  destruct (next_month y m) as [y' m']. destruct N as [Hm' N].
  pose proof (month_length_28 y' m' Hm').
  pose proof (V y m Hm) as [_ V1]. pose proof (V y' m' Hm') as [_ V2].
  rewrite (date_number_first y m d) in E.
  destruct (Z.ltb_spec d (day_in y m)); rewrite days_from_civil_ok by assumption;
    [rewrite (date_number_first y m (day_in y m))|rewrite (date_number_first y' m' (day_in y' m'))]; lia.
Qed.

Lemma offset_reach_ok : forall o a n, valid_offset o = true -> moves o a n ->
  match o with Easter | Yearly _ => True | _ => Z.abs (n - a) <= offset_reach o end.
Proof.
  intros o a n V H. pose proof (proj2 (offset_iff o a n V) H) as E.
  destruct o as [k|wd k| |f|week wd|wd]; cbn [offset_reach moves valid_offset] in *.
  - lia.
  - rewrite !andb_true_iff, negb_true_iff in V. destruct H as [_ H]. destruct (Z.ltb_spec 0 k); lia.
  - exact I.
  - exact I.
  - rewrite !andb_true_iff in V.
    assert (M : a < apply_monthly (week_of_month_day week wd) a <= a + 62).
    { apply monthly_reach. intros y m Hm. split; [exact Hm|]. unfold week_of_month_day.
      rewrite days_from_civil_ok by exact Hm. pose proof (month_length_28 y m Hm).
      pose proof (Z.mod_pos_bound (wd - weekday (date_number y m 1)) 7 ltac:(lia)). lia. }
    unfold apply_offset in E. lia.
  - rewrite !andb_true_iff in V.
    assert (M : a < apply_monthly (last_week_of_month_day wd) a <= a + 62).
    { apply monthly_reach. intros y m Hm. split; [exact Hm|].
      rewrite last_week_of_month_day_ok by exact Hm. pose proof (month_length_28 y m Hm).
      set (l := month_length y m) in *.
      pose proof (Z.mod_pos_bound (day_of_week (date_number y m 1 + l - 1) - wd) 7 ltac:(lia)). lia. }
    unfold apply_offset in E. lia.
Qed.

Lemma offset_reach_pos : forall o, 0 <= offset_reach o.
Proof. intros []; unfold offset_reach; lia. Qed.
Lemma chain_reach_pos : forall os, 0 <= chain_reach os.
Proof.
  induction os as [|o os IH]; [cbn; lia|]. change (chain_reach (o :: os)) with (offset_reach o + chain_reach os).
  pose proof (offset_reach_pos o). lia.
Qed.

Lemma chain_reach_ok : forall os a n, forallb valid_offset os = true -> chain_reach os < 1000 ->
  moves_all os a n -> Z.abs (n - a) <= chain_reach os.
Proof.
  induction os as [|o os IH]; intros a n V R H; cbn [moves_all] in H; [subst; cbn; lia|].
  cbn [forallb] in V. apply andb_true_iff in V. destruct V as [V1 V2]. destruct H as [b [H1 H2]].
  change (chain_reach (o :: os)) with (offset_reach o + chain_reach os) in *.
  pose proof (offset_reach_pos o). pose proof (chain_reach_pos os).
  specialize (IH b n V2 ltac:(lia) H2). pose proof (offset_reach_ok o a b V1 H1) as O.
  destruct o; cbn [offset_reach] in *; lia.
Qed.

Lemma easter_from_january : forall y d n, 1 <= d <= 31 -> moves Easter (date_number y 1 d) n ->
  n = easter y.
Proof.
  intros y d n Hd H. apply (offset_iff Easter) in H; [|reflexivity]. subst n.
  unfold apply_offset, apply_yearly.
  assert (V : valid_date y 1 d) by (split; [lia|change (month_length y 1) with 31; exact Hd]).
  rewrite (proj2 (year_of_ok _ y) (date_number_year _ _ _ V)).
  pose proof (easter_bounds y) as [B _].
  assert (V2 : valid_date y 3 22) by (split; [lia|change (month_length y 3) with 31; lia]).
  pose proof (month_mono y 1 3 d 22 V V2 ltac:(lia)) as L.
  destruct (Z.ltb_spec (date_number y 1 d) (easter y)) as [C|C]; [reflexivity|].
  unfold date_number in *. lia.
Qed.

Lemma easter_january_reach : forall y d, 1 <= d <= 31 -> Z.abs (easter y - date_number y 1 d) <= 115.
Proof.
  intros y d Hd. pose proof (easter_bounds y) as [B1 B2].
  unfold date_number, days_before_month, month_lengths in *.
  change (Z.to_nat (3 - 1)) with 2%nat in *. change (Z.to_nat (4 - 1)) with 3%nat in *.
  change (Z.to_nat (1 - 1)) with 0%nat in *. cbn [firstn fold_right] in *. destruct (leap y); lia.
Qed.

Lemma observance_reach : forall o a n, observed o a n ->
  match o with
  | Following_tuesday_every_four_years | Good_friday_unless_christmas_nye_friday => True
  | _ => Z.abs (n - a) <= 70
  end.
Proof.
  intros o a n H. pose proof (proj2 (observance_iff o a n) H) as E. pose proof (dow_range a) as R.
  destruct o; try exact I; cbn [apply_observance map] in E; rewrite ?In_single in E.
  - unfold sunday_to_monday in E. destruct (weekday a =? 6); lia.
  - unfold weekend_to_monday in E. destruct (weekday a =? 6), (weekday a =? 5); lia.
  - unfold nearest_workday in E. destruct (weekday a =? 6), (weekday a =? 5); lia.
  - unfold next_monday in E. destruct (weekday a =? 6), (weekday a =? 5); lia.
  - unfold next_monday_or_tuesday in E. cbv zeta in E. destruct (_ || _), (weekday a =? 0); lia.
  - unfold previous_friday in E. destruct (weekday a =? 6), (weekday a =? 5); lia.
  - unfold previous_workday in E. cbv zeta in E.
    destruct (weekday (a - 1) >? 4); [destruct (weekday (a - 1 - 1) >? 4)|destruct (weekday (a - 1) >? 4)]; lia.
  - cbn [observed] in H. intuition lia.
  - unfold cultural_diversity_observance in E. cbn [map filter] in E.
    destruct (negb _) in E; [|destruct E]. rewrite In_single in E. subst n.
    unfold xbue_nearest_monday. cbv zeta. rewrite weekday_dow. destruct (memb _ _); lia.
  - cbn [observed] in H. lia.
  - unfold nth_weekday in E. change (0 <? 1) with true in E. cbv iota in E. rewrite weekday_dow in E.
    unfold MONDAY in E. Z.div_mod_to_equations. lia.
  - unfold process_queen_birthday in E. cbv zeta in E.
    assert (W : forall k, 0 <= k <= 3 -> Z.abs (apply_offset (WeekOfMonth k MONDAY) a - a) <= 70).
    { intros k Hk. assert (V : valid_offset (WeekOfMonth k MONDAY) = true)
        by (cbn; rewrite !andb_true_iff; repeat split; lia).
      apply (offset_reach_ok (WeekOfMonth k MONDAY) a _ V). apply offset_iff; [exact V|reflexivity]. }
    destruct (memb (year_of a) [1974; 1981]).
    + unfold nth_weekday in E. change (0 <? 1) with true in E. cbv iota in E. rewrite weekday_dow in E.
      unfold SUNDAY in E. Z.div_mod_to_equations. lia.
    + destruct (year_of a <? 1983).
      * unfold sunday_to_monday in E. destruct (weekday a =? 6); lia.
      * rewrite E. apply W. destruct (year_of a =? 1985); [lia|]. destruct (memb _ _); lia.
  - unfold boxing_day_obs in E. lia.
  - unfold weekend_to_monday_except in E. cbn [filter] in E.
    destruct (negb _) in E; cbn [map] in E; [|destruct E]. rewrite In_single in E.
    unfold weekend_to_monday in E. destruct (weekday a =? 6), (weekday a =? 5); lia.
  - unfold xbkk_new_years_day_observance in E. cbn [filter] in E.
    destruct (negb _) in E; cbn [map] in E; [|destruct E]. rewrite In_single in E.
    unfold next_monday_or_tuesday in E. cbv zeta in E. destruct (_ || _), (weekday a =? 0); lia.
  - unfold songkran_festival_last_day_observance in E. destruct (_ || _); lia.
  - cbn [observed] in H. lia.
  - unfold xsgo_nearest_monday in E. cbv zeta in E. rewrite weekday_dow in E. unfold MONDAY in E.
    destruct (memb _ _); [lia|]. destruct (_ =? _); lia.
  - unfold tuesday_and_wednesday_to_friday in E. cbv zeta in E.
    destruct (weekday a =? TUESDAY), (weekday a =? WEDNESDAY); lia.
  - cbn [observed] in H. intuition lia.
  - unfold sunday_to_tuesday in E. destruct (weekday a =? SUNDAY); lia.
  - unfold sunday_to_wednesday in E. destruct (weekday a =? SUNDAY); lia.
Qed.

(** A settled rule leads to [n] from a year next to that of [n]. *)
Lemma settled_near : forall r y n, settled r = true -> r_year r = None ->
  leads r (reference r y) n ->
  exists y', leads r (reference r y') n /\ year_of n - 1 <= y' <= year_of n + 1.
Proof.
  intros r y n S Y L. unfold settled in S. apply andb_true_iff in S. destruct S as [V S].
  rewrite Y in S. pose proof (valid_rule_date r y V) as Vd.
  assert (K : Z.abs (n - reference r y) <= 365 ->
    exists y', leads r (reference r y') n /\ year_of n - 1 <= y' <= year_of n + 1).
  { intros H. exists y. split; [exact L|].
    pose proof (year_near (reference r y) n y (date_number_year _ _ _ Vd) H). lia. }
  assert (J : r_month r = 1 -> 1 <= r_day r <= 31).
  { intros E. destruct Vd as [_ Vd]. rewrite E in Vd. exact Vd. }
  pose proof L as L0. unfold leads in L0.
  assert (Vo : r_observance r = None -> forallb valid_offset (r_offset r) = true).
  { intros E. unfold valid_rule in V. rewrite E, andb_true_iff in V. apply V. }
  destruct (r_observance r) as [o|] eqn:Ob.
  - pose proof (observance_reach o _ _ L0) as R.
    assert (C : o = Following_tuesday_every_four_years \/ o = Good_friday_unless_christmas_nye_friday \/
                Z.abs (n - reference r y) <= 70) by (destruct o; tauto).
    destruct C as [->|[->|C]]; [| |apply K; lia].
    + destruct L0 as [y0 [m0 [d0 [y' [V0 [E0 [Hy' Hn]]]]]]].
      destruct (date_number_inj _ _ _ _ _ _ Vd V0 E0) as [<- [<- <-]].
      pose proof (valid_rule_date r y' V) as Vd'.
      pose proof (first_weekday_ok TUESDAY (reference r y') ltac:(unfold TUESDAY; lia)) as F.
      assert (Rn : Z.abs (n - reference r y') <= 7).
      { destruct Hn as [H1 [H2 H3]]. unfold reference. destruct (Z.le_gt_cases n (date_number y' (r_month r) (r_day r) + 7)); [lia|].
        exfalso. pose proof (proj1 (proj2 F)) as F2. pose proof (proj1 (nth_weekday_ok TUESDAY 1 (reference r y') _ ltac:(unfold TUESDAY; lia) ltac:(lia)) eq_refl) as [_ F3].
        change (0 <? 1) with true in F3. cbv iota in F3.
        apply (H3 (nth_weekday TUESDAY 1 (reference r y'))); [unfold reference in *; lia|exact F2]. }
      exists y'. split.
      * unfold leads. rewrite Ob. exists y', (r_month r), (r_day r), y'. split; [exact Vd'|].
        split; [reflexivity|]. split; [|exact Hn].
        split; [lia|]. split; [apply Hy'|]. intros m Hm. lia.
      * pose proof (year_near (reference r y') n y' (date_number_year _ _ _ Vd') ltac:(lia)). lia.
    + apply K. cbn [observance_settled] in S. apply Z.eqb_eq in S.
      destruct L0 as [y0 [e [_ [He [-> _]]]]]. unfold reference in *. rewrite S in *.
      apply easter_from_january in He; [|apply J; reflexivity]. subst e.
      pose proof (easter_january_reach y (r_day r) (J eq_refl)). lia.
  - specialize (Vo eq_refl). apply K. destruct (r_offset r) as [|o os] eqn:Eo.
    + cbn in L0. subst. rewrite Z.sub_diag. cbn. lia.
    + assert (G : o = Easter \/ chain_reach (o :: os) <= 300) by (destruct o; auto; right; apply Z.leb_le; exact S).
      destruct G as [->|G].
      * apply andb_true_iff in S. destruct S as [S1 S2]. apply Z.eqb_eq in S1. apply Z.leb_le in S2.
        cbn [moves_all] in L0. destruct L0 as [b [H1 H2]]. cbn [forallb] in Vo.
        apply andb_true_iff in Vo. destruct Vo as [_ Vo].
        pose proof (chain_reach_ok os b n Vo ltac:(lia) H2). unfold reference in *. rewrite S1 in *.
        apply easter_from_january in H1; [|apply J; reflexivity]. subst b.
        pose proof (easter_january_reach y (r_day r) (J eq_refl)). lia.
      * pose proof (chain_reach_ok (o :: os) _ n Vo ltac:(lia) L0). lia.
Qed.

Lemma year_of_mono : forall a b, a <= b -> year_of a <= year_of b.
Proof.
  intros a b H. apply (in_year_mono a b); [apply year_of_ok; reflexivity..|exact H].
Qed.

Lemma day_of_midnight : forall n x, midnight n <= x -> n <= day_of x.
Proof.
  intros n x H. unfold day_of, midnight in *. apply Z.div_le_lower_bound; unfold NANOS_PER_DAY in *; lia.
Qed.
Lemma day_of_midnight' : forall n x, x <= midnight n -> day_of x <= n.
Proof.
  intros n x H. unfold day_of, midnight in *. apply Z.div_le_upper_bound; unfold NANOS_PER_DAY in *; lia.
Qed.

Lemma falls_on_eq : forall r n, r_year r = None ->
  (falls_on r n <->
   (exists y, leads r (reference r y) n) /\
   (forall dow, r_days_of_week r = Some dow -> In (day_of_week n) dow) /\
   (forall s, r_start r = Some s -> s <= n) /\ (forall e, r_end r = Some e -> n <= e)).
Proof. intros r n Y. unfold falls_on. rewrite Y. reflexivity. Qed.

Lemma rule_dates_range : forall r start stop n, settled r = true -> r_year r = None ->
  (In n (rule_dates r start stop) <-> falls_on r n /\ start <= midnight n <= stop).
Proof.
  intros r start stop n S Y.
  assert (V : valid_rule r = true) by (unfold settled in S; apply andb_true_iff in S; apply S).
  rewrite rule_dates_In by assumption. rewrite falls_on_eq by exact Y. split.
  - intros [[y [_ H]] H2]. split; [|tauto]. split; [exists y; exact H|]. tauto.
  - intros [[[y H] [H1 [H2 H3]]] H4]. split; [|tauto].
    destruct (settled_near r y n S Y H) as [y' [H' [L1 L2]]]. exists y'. split; [|exact H'].
    unfold first_year, last_year. split.
    + destruct (r_start r) as [s|].
      * pose proof (year_of_mono s n (H2 s eq_refl)). lia.
      * pose proof (year_of_mono _ n (day_of_midnight' n start ltac:(lia))). lia.
    + destruct (r_end r) as [e|].
      * pose proof (year_of_mono n e (H3 e eq_refl)). lia.
      * pose proof (year_of_mono n _ (day_of_midnight n stop ltac:(lia))). lia.
Qed.

Lemma calendar_holidays_In : forall rules start stop x,
  In x (calendar_holidays rules start stop) <->
  start <= x <= stop /\ exists r n, In r rules /\ In n (rule_dates r start stop) /\ x = midnight n.
Proof.
  intros rules start stop x. unfold calendar_holidays. rewrite filter_In, in_map_iff, andb_true_iff.
  rewrite !Z.leb_le. split.
  - intros [[n [<- H]] Hr]. split; [exact Hr|]. apply in_flat_map in H. destruct H as [r [H1 H2]].
    exists r, n. tauto.
  - intros [Hr [r [n [H1 [H2 ->]]]]]. split; [|exact Hr]. exists n. split; [reflexivity|].
    apply in_flat_map. exists r. tauto.
Qed.

Lemma calendar_holidays_iff : forall rules start stop x, forallb settled rules = true ->
  (In x (calendar_holidays rules start stop) <->
   start <= x <= stop /\ exists r n, In r rules /\ falls_on r n /\ x = midnight n).
Proof.
  intros rules start stop x S. rewrite forallb_forall in S. rewrite calendar_holidays_In. split.
  - intros [Hr [r [n [H1 [H2 ->]]]]]. split; [exact Hr|]. exists r, n. split; [exact H1|].
    split; [|reflexivity]. destruct (r_year r) as [y|] eqn:Y.
    + unfold rule_dates in H2. rewrite Y in H2. destruct H2 as [<-|[]]. unfold falls_on. rewrite Y.
      apply days_from_civil_ok. specialize (S r H1). unfold settled in S. apply andb_true_iff in S.
      apply (valid_rule_date r 0 (proj1 S)).
    + apply rule_dates_range in H2; [tauto|apply S; exact H1|exact Y].
  - intros [Hr [r [n [H1 [H2 ->]]]]]. split; [exact Hr|]. exists r, n. split; [exact H1|].
    split; [|reflexivity]. destruct (r_year r) as [y|] eqn:Y.
    + unfold rule_dates. rewrite Y. unfold falls_on in H2. rewrite Y in H2. left. rewrite H2.
      apply days_from_civil_ok. specialize (S r H1). unfold settled in S. apply andb_true_iff in S.
      apply (valid_rule_date r 0 (proj1 S)).
    + apply rule_dates_range; [apply S; exact H1|exact Y|tauto].
Qed.
