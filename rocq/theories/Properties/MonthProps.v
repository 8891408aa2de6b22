(** Properties of the months that etc/lunisolar finds. *)
From Coq Require Import ZArith List Bool Lia Sorted.
From Verif.Spec Require Import Months.
From Verif.Model Require Import Base Helpers Dates Zone Lunisolar.
From Verif.Proofs Require Import BaseLemmas MonthLemmas.
Import ListNotations.
Open Scope Z_scope.

(** The events in sampled longitudes of the sun, as days in China. *)
Definition solstices (z : zone) (longitude minutes : list Z) : list Z :=
  map (utc_to_chinese_date z) (minutes_at_phase longitude minutes (270 * degree)).
Definition zhongqi (z : zone) (longitude minutes : list Z) : list Z :=
  map (utc_to_chinese_date z)
    (tl (minutes_at_phase (map (fun x => x mod (30 * degree)) longitude) minutes 0)).

(** New moons [moons] (minutes) on successive days of China, winter solstices in the
    months [ss], of which the ends are known, and all solstices among the zhongqi (the
    first zhongqi of the data is never used). *)
Definition good_events (z : zone) (moons longitude minutes ss : list Z) : Prop :=
  StronglySorted Z.lt moons /\ StronglySorted Z.lt (map (utc_to_chinese_date z) moons) /\
  ss <> [] /\ StronglySorted Z.lt ss /\
  Forall2 (in_month (map (utc_to_chinese_date z) moons)) ss (solstices z longitude minutes) /\
  incl (solstices z longitude minutes) (zhongqi z longitude minutes).

(** ** C66: the month starts leave out exactly the leap months *)

(** From the first known eleventh month to the last one, [chinese_month_start] gives the
    new moons of exactly the regular months. *)
Theorem c66_months : forall z moons longitude minutes ss, good_events z moons longitude minutes ss ->
  exists before after eleventh,
    chinese_month_start z moons longitude minutes =
      Ok (map (start moons)
            (before ++
             concat (map (fun p => regular_months (map (utc_to_chinese_date z) moons) (zhongqi z longitude minutes) (fst p) (snd p))
                       (pairs ss)) ++
             last ss 0 :: after), eleventh) /\
    Forall (fun i => 0 <= i < hd 0 ss) before /\
    Forall (fun i => last ss 0 < i < Z.of_nat (length moons)) after.
Proof.
  intros z moons longitude minutes ss [S1 [S2 [N [SS [F I]]]]].
  destruct (month_starts_index _ _ _ ss S2 N SS F I) as [before [after [E [_ [B A]]]]].
  exists before, after. eexists. unfold chinese_month_start. cbv zeta.
  fold (solstices z longitude minutes). fold (zhongqi z longitude minutes).
  rewrite (month_starts_minutes moons _ _ _ S1) by (rewrite map_length; reflexivity).
  rewrite E. cbn [rmap fst snd]. split; [reflexivity|]. split; [exact B|]. rewrite map_length in A. exact A.
Qed.

(** A sui of thirteen months with twelve zhongqi has a leap month, so that twelve regular months
    remain. *)
Theorem c66_twelve : forall moons zhongqi s s', StronglySorted Z.lt moons -> 0 <= s -> s' < Z.of_nat (length moons) ->
  s' - s = 12 \/ s' - s = 13 ->
  Nat.le (length (nodup Z.eq_dec (filter (fun d => (start moons s <=? d) && (d <? start moons s')) zhongqi))) 12 ->
  length (regular_months moons zhongqi s s') = 12%nat.
Proof.
  intros moons zq s s' S H0 H1 H C. unfold regular_months. destruct (Z.eqb_spec (s' - s) 12) as [E|N]; [reflexivity|].
  destruct H as [H|H]; [contradiction|]. replace (Z.to_nat (s' - s)) with 13%nat by lia.
  destruct (forallb (has_zhongqi moons zq) (consecutive s 13)) eqn:A.
  - exfalso. rewrite forallb_forall in A.
    pose proof (zhongqi_count moons zq 13 s S H0 ltac:(lia)) as K. replace (s + Z.of_nat 13) with s' in K by lia.
    specialize (K ltac:(intros i Hi; apply A, consecutive_In; lia)). lia.
  - assert (X : exists x, In x (consecutive s 13) /\ has_zhongqi moons zq x = false).
    { revert A. generalize (consecutive s 13). intros l. induction l as [|y l IH]; simpl; intros A; [discriminate|].
      apply andb_false_iff in A. destruct A as [A|A]; [exists y; auto|]. destruct (IH A) as [x [X1 X2]]. exists x; auto. }
    destruct X as [x [X1 X2]]. rewrite (without_first_length _ _ x X1) by (rewrite X2; reflexivity). reflexivity.
Qed.

(** Without the end of the month of the last solstice, the program takes the last sui for one with
    a leap month: of the twelve months from the solstice of day 5 until that of day 365, the
    new moons of days 0, 30, ..., 330, it leaves out the one of day 90, in which there is no zhongqi
    (there are two in the month before). *)
Definition late_zhongqi : list Z := [-25; 5; 35; 65; 89; 125; 155; 185; 215; 245; 275; 305; 335; 365].
Definition late_minutes : list Z := map (Z.mul 1440) (flat_map (fun q => [q - 10; q]) late_zhongqi ++ [370]).
Definition late_longitudes : list Z :=
  map (fun x => x mod 360 * degree) (flat_map (fun j => [230 + 30 * j; 240 + 30 * j]) (consecutive 0 14) ++ [275]).
Definition late_moons : list Z := map (fun i => 1440 * (30 * i)) (consecutive 0 13).
Theorem c66_last_month_refuted :
  solstices UTC late_longitudes late_minutes = [5; 365] /\
  zhongqi UTC late_longitudes late_minutes = tl late_zhongqi /\
  regular_months (map (utc_to_chinese_date UTC) late_moons) (tl late_zhongqi) 0 12 = consecutive 0 12 /\
  chinese_month_start UTC late_moons late_longitudes late_minutes =
    Ok (map (start late_moons) [0; 1; 2; 4; 5; 6; 7; 8; 9; 10; 11; 12], [0; 11]).
Proof. vm_compute. repeat split; reflexivity. Qed.
(** Thirteen months of 28 days from the solstice of day 5 until that of day 369, with twelve zhongqi: the
    thirteenth has none and is left out. *)
Example c66_twelve_ex : let moons := map (Z.mul 28) (consecutive 0 15) in
  let qs := [5; 33; 64; 94; 124; 154; 184; 214; 244; 274; 304; 334; 369] in
  StronglySorted Z.lt moons /\
  length (nodup Z.eq_dec (filter (fun d => (start moons 0 <=? d) && (d <? start moons 13)) qs)) = 12%nat /\
  regular_months moons qs 0 13 = [0; 1; 2; 3; 4; 5; 6; 7; 8; 9; 10; 11].
Proof. cbv zeta. split; [apply sorted_iff; vm_compute; reflexivity|]. vm_compute. split; reflexivity. Qed.

(** With one more new moon all twelve are there. *)
Example c66_ex : let moons := map (fun i => 1440 * (30 * i)) (consecutive 0 14) in
  good_events UTC moons late_longitudes late_minutes [0; 12] /\
  chinese_month_start UTC moons late_longitudes late_minutes = Ok (map (start moons) (consecutive 0 13), [0; 12]).
Proof.
  cbv zeta. split; [|vm_compute; reflexivity]. unfold good_events.
  assert (E : solstices UTC late_longitudes late_minutes = [5; 365]) by (vm_compute; reflexivity). rewrite E.
  assert (E' : zhongqi UTC late_longitudes late_minutes = tl late_zhongqi) by (vm_compute; reflexivity). rewrite E'.
  assert (F : map (utc_to_chinese_date UTC) (map (fun i => 1440 * (30 * i)) (consecutive 0 14)) =
    map (fun i => 30 * i) (consecutive 0 14)) by (vm_compute; reflexivity). rewrite F.
  split; [apply sorted_iff; vm_compute; reflexivity|]. split; [apply sorted_iff; vm_compute; reflexivity|].
  split; [discriminate|]. split; [apply sorted_iff; vm_compute; reflexivity|]. split.
  - constructor; [|constructor; [|constructor]]; (split; [lia|]; split; [vm_compute; reflexivity|]);
      split; vm_compute; [discriminate|reflexivity|discriminate|reflexivity].
  - intros x [<-|[<-|[]]]; cbn; auto 20.
Qed.

(** ** C67: feasts on a day of a month *)

Lemma good_index : forall z moons longitude minutes ss, good_events z moons longitude minutes ss ->
  let D := map (utc_to_chinese_date z) moons in let Q := zhongqi z longitude minutes in
  exists before after, let ms := before ++ suis_months D Q ss ++ last ss 0 :: after in
    chinese_month_start z moons longitude minutes =
      Ok (map (start moons) ms, map (searchsorted_left ms) ss) /\
    StronglySorted Z.lt ms /\ Forall (fun i => 0 <= i < Z.of_nat (length moons)) ms /\
    Forall (fun i => last ss 0 < i < Z.of_nat (length moons)) after /\
    (forall p, In p (pairs ss) -> exists r, regular_months D Q (fst p) (snd p) = fst p :: r).
Proof.
  intros z moons longitude minutes ss [S1 [S2 [N [SS [F I]]]]] D Q.
  destruct (month_starts_index _ _ _ ss S2 N SS F I) as [before [after [E [SM [B A]]]]].
  exists before, after. cbv zeta. unfold chinese_month_start. cbv zeta.
  fold (solstices z longitude minutes). fold (zhongqi z longitude minutes).
  rewrite (month_starts_minutes moons _ _ _ S1) by (rewrite map_length; reflexivity).
  rewrite E. cbn [rmap fst snd]. split; [reflexivity|]. split; [exact SM|]. rewrite map_length in A.
  assert (R : forall s, In s ss -> 0 <= s /\ s + 1 < Z.of_nat (length moons) /\ has_zhongqi D Q s = true).
  { intros s Hs. fold D in F. fold Q in I. clear - F I Hs. induction F as [|x w l W' H F IH]; [contradiction|].
    assert (I' : incl W' Q) by (intros y Hy; apply I; right; exact Hy).
    destruct Hs as [<-|Hs]; [|exact (IH I' Hs)]. pose proof H as [H1 [H2 H3]].
    split; [exact H1|]. split; [unfold D in H2; rewrite map_length in H2; exact H2|].
    apply has_zhongqi_iff; [exact H1|exact H2|]. exists w. split; [apply I; left; reflexivity|exact H]. }
  split; [|split; [exact A|]].
  - pose proof (month_starts_minutes moons D (solstices z longitude minutes) Q S1
                  ltac:(unfold D; rewrite map_length; reflexivity)) as _.
    apply Forall_forall. intros i Hi. rewrite !in_app_iff in Hi.
    assert (L : In (last ss 0) ss).
    { clear - N. destruct ss as [|s ss]; [contradiction|]. clear N. revert s. induction ss as [|s' ss IH]; intros s; [left; reflexivity|].
      right. apply IH. }
    destruct Hi as [Hi|[Hi|[<-|Hi]]].
    + rewrite Forall_forall in B. specialize (B i Hi).
      assert (In (hd 0 ss) ss) by (destruct ss; [contradiction|left; reflexivity]). specialize (R _ H). lia.
    + apply in_concat in Hi. destruct Hi as [l [Hl Hi]]. apply in_map_iff in Hl. destruct Hl as [p [<- Hp]].
      destruct (pairs_lt ss p SS Hp) as [P1 [P2 P3]].
      assert (X : fst p <= i < snd p).
      { unfold regular_months in Hi. destruct (Z.eqb_spec (snd p - fst p) 12) as [E12|_].
        - apply consecutive_In in Hi. lia.
        - apply without_first_incl, consecutive_In in Hi. lia. }
      pose proof (R _ P1). pose proof (R _ P2). lia.
    + specialize (R _ L). lia.
    + rewrite Forall_forall in A. specialize (A i Hi). specialize (R _ L). lia.
  - intros p Hp. destruct (pairs_lt ss p SS Hp) as [P1 [_ P3]]. apply regular_head; [exact P3|apply R, P1].
Qed.

(** For data that end within the month after that of the last solstice, and sui with
    twelve regular months, the program gives day [d] of month [m] (1 to 10) of every year. *)
Theorem c67_feasts : forall z moons longitude minutes ss m d, good_events z moons longitude minutes ss ->
  let D := map (utc_to_chinese_date z) moons in let Q := zhongqi z longitude minutes in
  (forall p, In p (pairs ss) -> length (regular_months D Q (fst p) (snd p)) = 12%nat) ->
  Z.of_nat (length moons) <= last ss 0 + 2 -> 1 <= m <= 10 ->
  nth_day_of_nth_chinese_month z longitude minutes moons m d = Ok (map (feast D Q m d) (pairs ss)) /\
  chinese_new_year z longitude minutes moons = Ok (map (feast D Q 1 1) (pairs ss)).
Proof.
  intros z moons longitude minutes ss m d G D Q T HL Hm. pose proof G as [S1 [S2 [N [SS [F I]]]]].
  destruct (good_index z moons longitude minutes ss G) as [before [after [E [SM [RM [A RH]]]]]].
  fold D in E, SM, RM, RH. fold Q in E, SM, RM, RH. cbv zeta in E, SM, RM.
  set (ms := before ++ suis_months D Q ss ++ last ss 0 :: after) in *.
  set (P := fun i => 0 <= i < Z.of_nat (length moons)) in *.
  assert (INC : increasing_on P (start moons)) by (apply start_increasing; exact S1).
  (* every sui stands together in ms *)
  assert (AT : forall p k, In p (pairs ss) -> (k < 12)%nat ->
    pyget ms (searchsorted_left ms (fst p) + Z.of_nat k) = Ok (nth k (regular_months D Q (fst p) (snd p)) 0) /\
    searchsorted_left ms (nth k (regular_months D Q (fst p) (snd p)) 0) = searchsorted_left ms (fst p) + Z.of_nat k).
  { intros p k Hp Hk. destruct (sui_split D Q before (last ss 0 :: after) ss p Hp) as [l1 [l2 El]]. fold ms in El.
    pose proof SM as SM'. rewrite El in SM'. rewrite <- (T p Hp) in Hk.
    destruct (at_month l1 _ l2 k SM' Hk) as [A1 A2]. rewrite <- El in A1, A2.
    destruct (RH p Hp) as [r Er].
    destruct (at_month l1 _ l2 0 SM' ltac:(lia)) as [_ A4]. rewrite <- El in A4. rewrite Er in A4 at 1. simpl nth in A4.
    rewrite A4. change (Z.of_nat 0) with 0. rewrite Z.add_0_r. split; [exact A1|exact A2]. }
  assert (LEN : forall p, In p (pairs ss) -> searchsorted_left ms (fst p) + 2 < zlen ms).
  { intros p Hp. destruct (AT p 2%nat Hp ltac:(lia)) as [A1 _]. destruct (Z_lt_le_dec (searchsorted_left ms (fst p) + Z.of_nat 2) (zlen ms)) as [L|L]; [lia|].
    rewrite (pyget_ge ms _ L) in A1. discriminate. }
  assert (LAST : zlen ms <= searchsorted_left ms (last ss 0) + 2).
  { unfold ms. rewrite app_assoc. rewrite sorted_split by (rewrite <- app_assoc; exact SM).
    rewrite zlen_app. enough (zlen (last ss 0 :: after) <= 2) by lia.
    rewrite Forall_forall in A. destruct after as [|a1 [|a2 after]]; [unfold zlen; simpl; lia|unfold zlen; simpl; lia|].
    exfalso. unfold ms in SM. rewrite app_assoc in SM. apply SSorted_app in SM. destruct SM as [_ [SM _]].
    inversion SM as [|? ? SM1 F1]; subst. inversion SM1 as [|? ? SM2 F2]; subst. inversion F2; subst.
    pose proof (A a1 (or_introl eq_refl)). pose proof (A a2 (or_intror (or_introl eq_refl))). lia. }
  (* the new years *)
  assert (NY : calculate_new_year z longitude minutes moons =
    Ok (map (fun p => start moons (nth 2 (regular_months D Q (fst p) (snd p)) 0)) (pairs ss))).
  { unfold calculate_new_year. rewrite E. cbn [bind]. rewrite (pairs_fst ss N) at 1.
    rewrite !map_app, filter_app. cbn [map filter]. unfold zlen at 2. rewrite map_length. fold (zlen ms).
    rewrite (proj2 (Z.ltb_ge _ _) LAST), app_nil_r.
    replace (filter _ _) with (map (fun i => i + 2) (map (searchsorted_left ms) (map fst (pairs ss)))).
    - rewrite !map_map.
      assert (X : forall ps, (forall p, In p ps -> In p (pairs ss)) ->
        mapM (pyget (map (start moons) ms)) (map (fun x => searchsorted_left ms (fst x) + 2) ps) =
        Ok (map (fun p => start moons (nth 2 (regular_months D Q (fst p) (snd p)) 0)) ps)).
      { induction ps as [|p ps IH]; intros Hps; [reflexivity|]. simpl. rewrite pyget_map.
        destruct (AT p 2%nat (Hps p (or_introl eq_refl)) ltac:(lia)) as [A1 _]. change (Z.of_nat 2) with 2 in A1. rewrite A1.
        cbn [bind]. rewrite IH by (intros q Hq; apply Hps; right; exact Hq). reflexivity. }
      apply X. auto.
    - symmetry. rewrite !map_map. unfold zlen. rewrite map_length. fold (zlen ms).
      assert (X : forall ps, (forall p, In p ps -> In p (pairs ss)) ->
        filter (fun i => i <? zlen ms) (map (fun x => searchsorted_left ms (fst x) + 2) ps) =
        map (fun x => searchsorted_left ms (fst x) + 2) ps).
      { induction ps as [|p ps IH]; intros Hps; [reflexivity|]. simpl.
        rewrite (proj2 (Z.ltb_lt _ _) (LEN p (Hps p (or_introl eq_refl)))). f_equal. apply IH.
        intros q Hq. apply Hps. right. exact Hq. }
      apply X. auto. }
  assert (IN : forall p k, In p (pairs ss) -> (k < 12)%nat -> P (nth k (regular_months D Q (fst p) (snd p)) 0)).
  { intros p k Hp Hk. destruct (AT p k Hp Hk) as [A1 _]. apply pyget_In in A1. rewrite Forall_forall in RM. apply RM, A1. }
  assert (ST : forall i, P i -> utc_to_chinese_date z (start moons i) = start D i).
  { intros i Hi. unfold start, D, P in *.
    rewrite (nth_indep (map _ _) 0 (utc_to_chinese_date z 0)) by (rewrite map_length; lia).
    rewrite map_nth. reflexivity. }
  split.
  - unfold nth_day_of_nth_chinese_month. rewrite E. cbn [bind]. rewrite NY. cbn [bind]. rewrite map_map.
    assert (X : forall ps, (forall p, In p ps -> In p (pairs ss)) ->
      mapM (fun i => pyget (map (start moons) ms) (i + (m - 1)))
        (map (fun p => searchsorted_left (map (start moons) ms) (start moons (nth 2 (regular_months D Q (fst p) (snd p)) 0))) ps) =
      Ok (map (fun p => start moons (nth (Z.to_nat (m + 1)) (regular_months D Q (fst p) (snd p)) 0)) ps)).
    { induction ps as [|p ps IH]; intros Hps; [reflexivity|]. simpl.
      assert (Hp : In p (pairs ss)) by (apply Hps; left; reflexivity).
      rewrite (inc_searchsorted P _ _ _ INC RM (IN p 2%nat Hp ltac:(lia))).
      destruct (AT p 2%nat Hp ltac:(lia)) as [_ A2]. rewrite A2.
      destruct (AT p (Z.to_nat (m + 1)) Hp ltac:(lia)) as [A1 _].
      replace (searchsorted_left ms (fst p) + Z.of_nat 2 + (m - 1))
        with (searchsorted_left ms (fst p) + Z.of_nat (Z.to_nat (m + 1))) by lia.
      rewrite pyget_map, A1. cbn [bind]. rewrite IH by (intros q Hq; apply Hps; right; exact Hq). reflexivity. }
    rewrite X by auto. cbn [bind]. f_equal. rewrite map_map. apply map_ext_in. intros p Hp. unfold feast.
    rewrite ST by (apply IN; [exact Hp|lia]). reflexivity.
  - unfold chinese_new_year. rewrite NY. cbn [bind]. f_equal. rewrite map_map. apply map_ext_in. intros p Hp.
    rewrite ST by (apply IN; [exact Hp|lia]). unfold feast. replace (Z.to_nat (1 + 1)) with 2%nat by reflexivity. lia.
Qed.

(** The data of [c66_ex]: the year begins on day 60, and the fifth day of its fifth month is day 184. *)
Example c67_ex : let moons := map (fun i => 1440 * (30 * i)) (consecutive 0 14) in
  nth_day_of_nth_chinese_month UTC late_longitudes late_minutes moons 5 5 = Ok [184] /\
  chinese_new_year UTC late_longitudes late_minutes moons = Ok [60].
Proof.
  cbv zeta. destruct (c67_feasts UTC _ late_longitudes late_minutes [0; 12] 5 5 (proj1 c66_ex)) as [E1 E2].
  - intros p [<-|[]]. vm_compute. reflexivity.
  - vm_compute. discriminate.
  - lia.
  - rewrite E1, E2. split; vm_compute; reflexivity.
Qed.

(** ** Assumptions *)
Print Assumptions c66_months.
Print Assumptions c66_twelve.
Print Assumptions c66_last_month_refuted.
Print Assumptions c67_feasts.
