(** C81: the instants given to the ephemeris; C82: the rolling mean. *)
From Coq Require Import ZArith QArith List Bool Reals Lia Lqa Sorted.
From Flocq Require Import IEEE754.BinarySingleNaN.
From Verif.Spec Require Import Civil TimeScale.
From Verif.Model Require Import Base Dates Machine Lunisolar Terrestrial.
From Verif.Proofs Require Import MachineLemmas TerrestrialLemmas SmoothLemmas.
Import ListNotations.
Open Scope Z_scope.

(** ** C81 *)

(** Each instant is converted on its own: the double that comes out differs by less
    than a tenth of a millisecond from the Julian date of the instant, corrected by the
    row of the table that comes next after it. *)
Theorem c81_value : forall ts, Forall historic ts ->
  Forall2 (fun t x => exists row, comes_next corrections t row /\ is_finite x = true /\
             (Rabs (B2R x - julian_date t (snd row)) < tenth_of_a_millisecond)%R)
          ts (utc_to_jd_tt ts).
Proof.
  intros ts H. unfold utc_to_jd_tt. induction H as [|t ts H F IH]; [constructor|].
  cbn [map]. constructor; [|exact IH]. destruct (chosen t) as [row [C _]].
  exists row. split; [exact C|]. destruct (value_near t row H C) as [Fi E]. split; [exact Fi|].
  eapply Rle_lt_trans; [exact E|]. exact error_small.
Qed.

(** There is exactly one such row. *)
Theorem c81_row : forall t, exists! row, comes_next corrections t row.
Proof.
  intros t. destruct (chosen t) as [row [C _]]. exists row. split; [exact C|].
  intros row' C'. eapply comes_next_unique; eassumption.
Qed.

(** Later seconds become later dates, although the table falls here and there. *)
Theorem c81_order : forall ts, Forall historic ts -> StronglySorted Z.lt ts ->
  StronglySorted Rlt (map B2R (utc_to_jd_tt ts)).
Proof.
  intros ts H S. unfold utc_to_jd_tt. rewrite map_map. induction S as [|t ts S IH F]; [constructor|].
  inversion H as [|? ? H1 H2]; subst. cbn [map]. constructor; [apply IH; exact H2|].
  rewrite Forall_map. rewrite Forall_forall in *. intros t' Ht'.
  apply values_increase; [exact H1|apply H2; exact Ht'|apply F; exact Ht'].
Qed.

(** The same instant gives the same double, whatever else is in the array. *)
Theorem c81_pointwise : forall ts k t, nth_error ts k = Some t ->
  exists x, nth_error (utc_to_jd_tt ts) k = Some x /\ utc_to_jd_tt [t] = [x].
Proof.
  intros ts k t H. exists (utc_to_jd_tt1 t). split; [|reflexivity].
  unfold utc_to_jd_tt. apply map_nth_error. exact H.
Qed.

(** *** Which row *)

Lemma sorted_begins : forall b r a r', StronglySorted Z.lt (map begins (b ++ r :: a)) ->
  (In r' b -> begins r' < begins r) /\ (In r' a -> begins r < begins r').
Proof.
  induction b as [|x b IH]; intros r a r' S; cbn [app map] in S; inversion S as [|? ? S1 S2]; subst.
  - split; [intros []|]. rewrite Forall_map, Forall_forall in S2. apply S2.
  - destruct (IH r a r' S1) as [I1 I2]. split; [|exact I2]. intros [->|H]; [|apply I1; exact H].
    rewrite Forall_map, Forall_forall in S2. apply S2. apply in_or_app. right. left. reflexivity.
Qed.

Lemma next_after_in_force : forall rows t r r', StronglySorted Z.lt (map begins rows) ->
  in_force rows t r -> comes_next rows t r' ->
  (r = r' /\ exists b, rows = b ++ [r]) \/ exists b a, rows = b ++ r :: r' :: a.
Proof.
  intros rows t r r' S (b & a & E & L & H) (b' & a' & E' & H' & K).
  destruct a as [|q a].
  - left. split; [|exists b; exact E].
    destruct K as [K| ->].
    + exfalso. assert (I : In r' rows) by (rewrite E'; apply in_or_app; right; left; reflexivity).
      rewrite E in I, S. apply in_app_or in I. destruct I as [I|[->|[]]]; [|lia].
      destruct (sorted_begins b r [] r' S) as [S1 _]. specialize (S1 I). lia.
    + rewrite E in E'. apply app_inj_tail in E'. apply E'.
  - right. exists b, a. rewrite E. do 2 f_equal. f_equal.
    specialize (H q (or_introl eq_refl)). rewrite E in E', S. clear E rows.
    assert (G : comes_next (b ++ r :: q :: a) t q).
    { exists (b ++ [r]), a. rewrite <- app_assoc. split; [reflexivity|]. split; [|left; exact H].
      intros x Hx. apply in_app_or in Hx. destruct Hx as [Hx|[->|[]]]; [|exact L].
      destruct (sorted_begins b r (q :: a) x S) as [S1 _]. specialize (S1 Hx). lia. }
    assert (G' : comes_next (b ++ r :: q :: a) t r') by (exists b', a'; auto).
    clear - G G' S. destruct G as (c & d & E1 & H1 & K1), G' as (c' & d' & E2 & H2 & K2).
    rewrite E1 in E2, S. 
    destruct K1 as [K1|K1], K2 as [K2|K2]; subst.
    + assert (I : In r' (c ++ q :: d)) by (rewrite E2; apply in_or_app; right; left; reflexivity).
      apply in_app_or in I. destruct I as [I|[->|I]]; [specialize (H1 _ I); lia|reflexivity|].
      destruct (sorted_begins c q d r' S) as [_ S2]. specialize (S2 I).
      rewrite E2 in S. destruct (sorted_begins c' r' d' q S) as [S3 S4].
      assert (I' : In q (c' ++ r' :: d')) by (rewrite <- E2; apply in_or_app; right; left; reflexivity).
      apply in_app_or in I'. destruct I' as [I'|[->|I']]; [specialize (H2 _ I'); lia|reflexivity|specialize (S4 I'); lia].
    + assert (I' : In q (c' ++ [r'])) by (rewrite <- E2; apply in_or_app; right; left; reflexivity).
      apply in_app_or in I'. destruct I' as [I'|[->|[]]]; [specialize (H2 _ I'); lia|reflexivity].
    + assert (I : In r' (c ++ [q])) by (rewrite E2; apply in_or_app; right; left; reflexivity).
      apply in_app_or in I. destruct I as [I|[->|[]]]; [specialize (H1 _ I); lia|reflexivity].
    + apply app_inj_tail in E2. apply E2.
Qed.

(** Between the first and the last day of the table the row used is never the one in
    force but its successor. *)
Theorem c81_successor : forall t, date_number 1700 1 1 * 86400 <= t < date_number 2026 1 1 * 86400 ->
  exists before row next after, corrections = before ++ row :: next :: after /\
    in_force corrections t row /\ comes_next corrections t next /\ t < begins next.
Proof.
  intros t H. destruct (chosen t) as [next [C _]].
  pose proof C as (b & a & E & H1 & K).
  assert (L : exists l, corrections = l ++ [(date_number 2026 1 1, 720000)]).
  { exists (removelast corrections). vm_compute. reflexivity. }
  destruct L as [l L].
  assert (K' : t < begins next).
  { destruct K as [K|K]; [exact K|]. subst a. rewrite E in L. apply app_inj_tail in L. destruct L as [_ ->].
    unfold begins. cbn [fst]. lia. }
  assert (N : b <> []).
  { intros ->. cbn [app] in E. assert (F : nth_error corrections 0 = Some (date_number 1700 1 1, 321840)) by (vm_compute; reflexivity).
    rewrite E in F. assert (Fn : next = (date_number 1700 1 1, 321840)) by (cbn [nth_error] in F; congruence).
    rewrite Fn in K'. unfold begins in K'. cbn [fst] in K'. lia. }
  destruct (exists_last N) as [b0 [row Eb]]. subst b. rewrite <- app_assoc in E. cbn [app] in E.
  exists b0, row, next, a. split; [exact E|]. split; [|split; [exact C|exact K']].
  exists b0, (next :: a). split; [exact E|]. split.
  - apply H1. apply in_or_app. right. left. reflexivity.
  - intros r [<-|I]; [exact K'|].
    pose proof corrections_sorted as S. change (fun e : Z * Z => fst e * 86400) with begins in S. rewrite E in S.
    replace (b0 ++ row :: next :: a) with ((b0 ++ [row]) ++ next :: a) in S by (rewrite <- app_assoc; reflexivity).
    destruct (sorted_begins (b0 ++ [row]) next a r S) as [_ S2]. specialize (S2 I). lia.
Qed.

(** So the conversion does not use the row in force: at noon on 2000-01-15 it uses the
    row of February. *)
Theorem c81_in_force_refuted : ~ (forall t row, in_force corrections t row -> comes_next corrections t row).
Proof.
  intros H.
  destruct (c81_successor (date_number 2000 1 15 * 86400 + 43200) ltac:(vm_compute; intuition discriminate))
    as (b & row & next & a & E & F & C & L).
  specialize (H _ _ F). pose proof (comes_next_unique _ _ _ H C) as ->.
  destruct F as (_ & _ & _ & K & _). lia.
Qed.

(** What that costs: from 1973-02-01 to 2018-01-01 at most 0.11 seconds, later at most
    one second, but up to 11.2884 seconds in the years 1700 to 1973. *)
Definition steps_ok (rows : list (Z * Z)) : bool :=
  (fix go l := match l with
   | r :: ((r' :: _) as l') =>
       (Z.abs (snd r' - snd r) <=?
          (if fst r <? date_number 1973 2 1 then 112884 else if fst r <? date_number 2018 1 1 then 1089 else 10000)) && go l'
   | _ => true
   end) rows.

Lemma steps_spec : forall rows b r r' a, steps_ok rows = true -> rows = b ++ r :: r' :: a ->
  Z.abs (snd r' - snd r) <=
    (if fst r <? date_number 1973 2 1 then 112884 else if fst r <? date_number 2018 1 1 then 1089 else 10000).
Proof.
  induction rows as [|x rows IH]; intros b r r' a H E; [destruct b; discriminate|].
  destruct b as [|y b]; cbn [app] in E; injection E as Ex E.
  - subst x rows. cbn [steps_ok] in H. apply andb_true_iff in H. apply Z.leb_le. apply H.
  - eapply IH; [|exact E]. destruct rows as [|z rows]; [reflexivity|].
    cbn [steps_ok] in H. apply andb_true_iff in H. apply H.
Qed.

Theorem c81_cost : forall t row next, in_force corrections t row -> comes_next corrections t next ->
  Z.abs (snd next - snd row) <=
    (if t <? date_number 1973 2 1 * 86400 then 112884 else if t <? date_number 2018 1 1 * 86400 then 1089 else 10000).
Proof.
  assert (SO : steps_ok corrections = true) by (vm_compute; reflexivity).
  assert (P1 : exists a b, corrections = a ++ (date_number 1973 2 1, 434724) :: b).
  { exists (firstn 1 corrections), (skipn 2 corrections). vm_compute. reflexivity. }
  assert (P2 : exists a b, corrections = a ++ (date_number 2018 1 1, 689677) :: b).
  { exists (firstn 540 corrections), (skipn 541 corrections). vm_compute. reflexivity. }
  assert (Begun : forall t row d v, (exists a b, corrections = a ++ (d, v) :: b) ->
            in_force corrections t row -> d * 86400 <= t -> d <= fst row).
  { intros t row d v (a & b & E) (x & y & E' & L & K) D.
    assert (I : In (d, v) (x ++ row :: y)) by (rewrite <- E', E; apply in_or_app; right; left; reflexivity).
    apply in_app_or in I. destruct I as [I|[->|I]].
    - pose proof corrections_sorted as S. change (fun e : Z * Z => fst e * 86400) with begins in S. rewrite E' in S.
      destruct (sorted_begins x row y (d, v) S) as [S1 _]. specialize (S1 I). unfold begins in S1. cbn in S1. lia.
    - cbn. lia.
    - specialize (K _ I). unfold begins in K. cbn in K. lia. }
  intros t row next F C.
  assert (Lr : fst row * 86400 <= t) by (destruct F as (? & ? & _ & L & _); exact L).
  destruct (next_after_in_force corrections t row next corrections_sorted F C) as [[-> _]|(b & a & E)].
  - rewrite Z.sub_diag. cbn [Z.abs]. destruct (t <? _); [lia|]. destruct (t <? _); lia.
  - pose proof (steps_spec _ _ _ _ _ SO E) as S.
    destruct (Z.ltb_spec t (date_number 1973 2 1 * 86400)) as [A|A].
    + replace (fst row <? date_number 1973 2 1) with true in S by (symmetry; apply Z.ltb_lt; lia). exact S.
    + pose proof (Begun t row _ _ P1 F A) as B1.
      replace (fst row <? date_number 1973 2 1) with false in S by (symmetry; apply Z.ltb_ge; lia).
      destruct (Z.ltb_spec t (date_number 2018 1 1 * 86400)) as [A'|A'].
      * replace (fst row <? date_number 2018 1 1) with true in S by (symmetry; apply Z.ltb_lt; lia). exact S.
      * pose proof (Begun t row _ _ P2 F A') as B2.
        replace (fst row <? date_number 2018 1 1) with false in S by (symmetry; apply Z.ltb_ge; lia). exact S.
Qed.

(** The table: one row for the first day of each month from February 1973 to January
    2018, no day twice, and no correction outside 32 to 72 seconds. *)
Definition months_listed : bool :=
  forallb (fun y => forallb (fun m =>
     if (1973 * 12 + 2 <=? y * 12 + m) && (y * 12 + m <=? 2018 * 12 + 1)
     then existsb (fun r => fst r =? date_number y m 1) corrections else true) (zseq 1 1 12)) (zseq 1973 1 46).

Theorem c81_table :
  StronglySorted Z.lt (map fst corrections) /\
  (forall d v, In (d, v) corrections -> 320000 <= v <= 720000) /\
  (forall y m, 1 <= m <= 12 -> 1973 * 12 + 2 <= y * 12 + m <= 2018 * 12 + 1 ->
     exists v, In (date_number y m 1, v) corrections).
Proof.
  split; [apply increasing_sorted; vm_compute; reflexivity|]. split.
  - assert (C : forallb (fun e => (320000 <=? snd e) && (snd e <=? 720000)) corrections = true) by (vm_compute; reflexivity).
    intros d v H. apply (proj1 (forallb_forall _ _) C) in H. apply andb_true_iff in H.
    destruct H as [H1 H2]. apply Z.leb_le in H1, H2. cbn in H1, H2. lia.
  - assert (C : months_listed = true) by (vm_compute; reflexivity).
    intros y m Hm H. unfold months_listed in C. rewrite forallb_forall in C.
    assert (Iy : In y (zseq 1973 1 46)) by (apply BaseLemmas.zseq_In; exists (Z.to_nat (y - 1973)); lia).
    assert (Im : In m (zseq 1 1 12)) by (apply BaseLemmas.zseq_In; exists (Z.to_nat (m - 1)); lia).
    specialize (C y Iy). rewrite forallb_forall in C. specialize (C m Im). cbv beta in C.
    replace (_ && _) with true in C by (symmetry; apply andb_true_iff; split; apply Z.leb_le; lia).
    apply existsb_exists in C. destruct C as [[d v] [I E]]. apply Z.eqb_eq in E. cbn in E. subst d. exists v. exact I.
Qed.

(** *** Examples *)

Example c81_historic_example : Forall historic (map (fun d => d * 86400) [date_number 1000 1 1; date_number 1949 10 1; date_number 2000 1 15; date_number 2100 2 9]).
Proof. repeat constructor; vm_compute; discriminate. Qed.

Example c81_row_example : comes_next corrections (date_number 2000 1 15 * 86400 + 43200) (date_number 2000 2 1, 638557).
Proof.
  exists (firstn 325 corrections), (skipn 326 corrections). split; [vm_compute; reflexivity|]. split.
  - apply Forall_forall. assert (C : forallb (fun r => begins r <=? date_number 2000 1 15 * 86400 + 43200) (firstn 325 corrections) = true) by (vm_compute; reflexivity).
    rewrite forallb_forall in C. apply Forall_forall. intros r H. apply Z.leb_le. apply C. exact H.
  - left. vm_compute. reflexivity.
Qed.

Example c81_after_example : comes_next corrections (date_number 2033 12 22 * 86400) (date_number 2026 1 1, 720000).
Proof.
  exists (removelast corrections), []. split; [vm_compute; reflexivity|]. split; [|right; reflexivity].
  assert (C : forallb (fun r => begins r <=? date_number 2033 12 22 * 86400) (removelast corrections) = true) by (vm_compute; reflexivity).
  rewrite forallb_forall in C. intros r H. apply Z.leb_le. apply C. exact H.
Qed.

(** ** C82 *)

Open Scope nat_scope.

(** A window no longer than the array: the means of all windows, in order. *)
Theorem c82_mean : forall arr window, 1 <= window <= length arr -> exists smoothed,
  smooth arr (Z.of_nat window) = Ok smoothed /\
  length smoothed = length arr - window + 1 /\
  forall k, k < length smoothed -> (nth k smoothed 0 == mean arr k window)%Q.
Proof. exact smooth_short_window. Qed.

(** No mean leaves the range of the array. *)
Theorem c82_range : forall arr window smoothed lo hi, 1 <= window <= length arr ->
  smooth arr (Z.of_nat window) = Ok smoothed ->
  (forall x, In x arr -> lo <= x <= hi)%Q -> forall x, In x smoothed -> (lo <= x <= hi)%Q.
Proof.
  intros arr window smoothed lo hi H E B x Hx.
  destruct (smooth_short_window arr window H) as (s & E' & L & N). rewrite E in E'. injection E' as <-.
  apply (In_nth _ _ 0%Q) in Hx. destruct Hx as [k [Hk <-]]. rewrite (N k Hk).
  apply mean_bounds; [exact B|lia|lia].
Qed.

(** The documented length [len(arr) - window // 2] is that of the result only for the
    windows 1 and 2. *)
Theorem c82_length_refuted : forall arr window smoothed, 1 <= window <= length arr ->
  smooth arr (Z.of_nat window) = Ok smoothed ->
  (length smoothed = length arr - window / 2 <-> window <= 2).
Proof.
  intros arr window smoothed H E.
  destruct (smooth_short_window arr window H) as (s & E' & L & _). rewrite E in E'. injection E' as <-. rewrite L.
  assert (D : window / 2 * 2 <= window < window / 2 * 2 + 2).
  { pose proof (Nat.div_mod window 2 ltac:(lia)). pose proof (Nat.mod_upper_bound window 2 ltac:(lia)). lia. }
  lia.
Qed.

(** A longer window is not refused: the sum of the array over the window, which is not
    its mean, [window - len(arr) + 1] times. *)
Theorem c82_long_window : forall arr window, arr <> [] -> length arr < window -> exists smoothed,
  smooth arr (Z.of_nat window) = Ok smoothed /\
  length smoothed = window - length arr + 1 /\
  forall k, k < length smoothed ->
    (nth k smoothed 0 == sum_from arr 0 (length arr) / inject_Z (Z.of_nat window))%Q.
Proof. exact smooth_long_window. Qed.

(** ValueError for an empty array and for windows below one, and only then. *)
Theorem c82_error : forall arr window, (exists e, smooth arr window = Raise e) <-> arr = [] \/ (window <= 0)%Z.
Proof.
  intros arr window. split.
  - intros [e E]. destruct (Z.le_gt_cases window 0) as [L|L]; [right; exact L|]. left.
    destruct arr as [|a arr]; [reflexivity|]. exfalso.
    rewrite <- (Z2Nat.id window) in E by lia. set (w := Z.to_nat window) in *. assert (1 <= w) by lia.
    destruct (Nat.le_gt_cases w (length (a :: arr))) as [M|M].
    + destruct (smooth_short_window (a :: arr) w ltac:(lia)) as (s & E' & _). congruence.
    + destruct (smooth_long_window (a :: arr) w ltac:(discriminate) M) as (s & E' & _). congruence.
  - intros [->|L]; exists ValueError; unfold smooth.
    + destruct (window <? 0)%Z; [reflexivity|]. unfold convolve_valid. cbn [length].
      destruct (map _ _); reflexivity.
    + destruct (window <? 0)%Z eqn:W; [reflexivity|]. apply Z.ltb_ge in W. assert (window = 0%Z) as -> by lia.
      cbn. destruct arr; reflexivity.
Qed.

Lemma smoothed_In : forall f arr window smoothed ix i, smooth arr (Z.of_nat window) = Ok smoothed ->
  smoothed_local_cmp f arr (Z.of_nat window) = Ok ix ->
  (In (Z.of_nat i) ix <-> window / 2 <= i /\ In (i - window / 2) (local_cmp f smoothed)).
Proof.
  intros f arr window smoothed ix i E E'. unfold smoothed_local_cmp in E'. rewrite E in E'. cbn [bind] in E'.
  injection E' as <-. rewrite in_map_iff.
  assert (D : (Z.of_nat window / 2)%Z = Z.of_nat (window / 2)) by (rewrite Nat2Z.inj_div; reflexivity).
  rewrite D. split.
  - intros [k [Ek Ik]]. assert (i = k + window / 2) by lia. subst i. split; [lia|].
    replace (k + window / 2 - window / 2) with k by lia. exact Ik.
  - intros [L I]. exists (i - window / 2). split; [lia|exact I].
Qed.

(** The smoothed minima: the positions [i] where the mean of the [window] numbers around
    [i], which begin [window // 2] before it, is below the means of the windows one
    place to the left and one to the right. *)
Theorem c82_minima : forall lt arr window, (forall x y, lt x y = true <-> (x < y)%Q) ->
  1 <= window <= length arr -> exists ix, smoothed_local_cmp lt arr (Z.of_nat window) = Ok ix /\
  forall i, In (Z.of_nat i) ix <->
    window / 2 < i /\ i - window / 2 + window < length arr /\
    (mean arr (i - window / 2) window < mean arr (i - window / 2 - 1) window)%Q /\
    (mean arr (i - window / 2) window < mean arr (i - window / 2 + 1) window)%Q.
Proof.
  intros lt arr window Hlt H. destruct (smooth_short_window arr window H) as (s & E & L & N).
  eexists. split; [unfold smoothed_local_cmp; rewrite E; reflexivity|]. intros i.
  rewrite (smoothed_In lt arr window s _ i E) by (unfold smoothed_local_cmp; rewrite E; reflexivity).
  rewrite (local_cmp_In 0%Q). set (h := window / 2). rewrite L. split.
  - intros (H1 & H2 & H3 & H4 & H5). apply Hlt in H4, H5. rewrite !N in H4, H5 by lia.
    replace (S (i - h)) with (i - h + 1) in H5 by lia. repeat split; try lia; assumption.
  - intros (H1 & H2 & H3 & H4). repeat split; try lia.
    + apply Hlt. rewrite !N by lia. exact H3.
    + apply Hlt. rewrite !N by lia. replace (S (i - h)) with (i - h + 1) by lia. exact H4.
Qed.

(** Equivalently, and for any comparison of the two directions, only four numbers
    matter: those that enter and leave the windows. *)
Theorem c82_minima_by_ends : forall lt arr window ix, (forall x y, lt x y = true <-> (x < y)%Q) ->
  1 <= window <= length arr -> smoothed_local_cmp lt arr (Z.of_nat window) = Ok ix ->
  forall i, In (Z.of_nat i) ix <->
    window / 2 < i /\ i - window / 2 + window < length arr /\
    (nth (i - window / 2 + window - 1) arr 0 < nth (i - window / 2 - 1) arr 0)%Q /\
    (nth (i - window / 2) arr 0 < nth (i - window / 2 + window) arr 0)%Q.
Proof.
  intros lt arr window ix Hlt H E i. destruct (c82_minima lt arr window Hlt H) as (ix' & E' & M).
  rewrite E in E'. injection E' as <-. rewrite M. set (h := window / 2).
  destruct (Nat.le_gt_cases i h) as [G|G]; [split; intros (H1 & _); lia|].
  assert (Ej : exists j, i - h = S j) by (exists (i - h - 1); lia). destruct Ej as [j ->].
  replace (S j - 1) with j by lia. replace (S j + window - 1) with (j + window) by lia.
  replace (S j + 1) with (S (S j)) by lia. rewrite mean_down, mean_up by lia. reflexivity.
Qed.

Theorem c82_maxima : forall gt arr window, (forall x y, gt x y = true <-> (y < x)%Q) ->
  1 <= window <= length arr -> exists ix, smoothed_local_cmp gt arr (Z.of_nat window) = Ok ix /\
  forall i, In (Z.of_nat i) ix <->
    window / 2 < i /\ i - window / 2 + window < length arr /\
    (mean arr (i - window / 2 - 1) window < mean arr (i - window / 2) window)%Q /\
    (mean arr (i - window / 2 + 1) window < mean arr (i - window / 2) window)%Q.
Proof.
  intros gt arr window Hgt H. destruct (smooth_short_window arr window H) as (s & E & L & N).
  eexists. split; [unfold smoothed_local_cmp; rewrite E; reflexivity|]. intros i.
  rewrite (smoothed_In gt arr window s _ i E) by (unfold smoothed_local_cmp; rewrite E; reflexivity).
  rewrite (local_cmp_In 0%Q). set (h := window / 2). rewrite L. split.
  - intros (H1 & H2 & H3 & H4 & H5). apply Hgt in H4, H5. rewrite !N in H4, H5 by lia.
    replace (S (i - h)) with (i - h + 1) in H5 by lia. repeat split; try lia; assumption.
  - intros (H1 & H2 & H3 & H4). repeat split; try lia.
    + apply Hgt. rewrite !N by lia. exact H3.
    + apply Hgt. rewrite !N by lia. replace (S (i - h)) with (i - h + 1) by lia. exact H4.
Qed.

(** A symmetric valley is found at its bottom by every odd window that fits. *)
Theorem c82_valley : forall lt arr h i ix, (forall x y, lt x y = true <-> (x < y)%Q) ->
  h < i -> i + h + 1 < length arr ->
  (forall d, d <= S h -> (nth (i - d) arr 0 == nth (i + d) arr 0)%Q) ->
  (nth (i + h) arr 0 < nth (i + S h) arr 0)%Q ->
  smoothed_local_cmp lt arr (Z.of_nat (2 * h + 1)) = Ok ix -> In (Z.of_nat i) ix.
Proof.
  intros lt arr h i ix Hlt H1 H2 Sy U E.
  assert (D : (2 * h + 1) / 2 = h) by (symmetry; apply (Nat.div_unique _ 2 h 1); lia).
  apply (c82_minima_by_ends lt arr (2 * h + 1) ix Hlt ltac:(lia) E). rewrite D.
  split; [exact H1|]. split; [lia|].
  replace (i - h + (2 * h + 1) - 1) with (i + h) by lia. replace (i - h + (2 * h + 1)) with (i + S h) by lia.
  replace (i - h - 1) with (i - S h) by lia. split.
  - rewrite (Sy (S h)) by lia. exact U.
  - rewrite (Sy h) by lia. exact U.
Qed.

(** *** Examples *)

Definition qltb (x y : Q) : bool := negb (Qle_bool y x).
Lemma qltb_lt : forall x y, qltb x y = true <-> (x < y)%Q.
Proof.
  intros x y. unfold qltb. rewrite negb_true_iff. split; intros H.
  - destruct (Qlt_le_dec x y) as [L|L]; [exact L|]. apply Qle_bool_iff in L. congruence.
  - destruct (Qle_bool y x) eqn:E; [|reflexivity]. apply Qle_bool_iff in E. Lqa.lra.
Qed.

Definition c82_noisy : list Q := map inject_Z [9; 8; 6; 7; 5; 4; 3; 4; 5; 7; 6; 8; 9]%Z.
Example c82_found : smoothed_local_cmp qltb c82_noisy 3 = Ok [6]%Z.
Proof. vm_compute. reflexivity. Qed.
Example c82_unsmoothed : smoothed_local_cmp qltb c82_noisy 1 = Ok [2; 6; 10]%Z.
Proof. vm_compute. reflexivity. Qed.
Example c82_window_example : 1 <= 3 <= length c82_noisy.
Proof. vm_compute. lia. Qed.

(** ** Assumptions *)
Print Assumptions c81_value.
Print Assumptions c81_row.
Print Assumptions c81_order.
Print Assumptions c81_pointwise.
Print Assumptions c81_successor.
Print Assumptions c81_in_force_refuted.
Print Assumptions c81_cost.
Print Assumptions c81_table.
Print Assumptions c82_mean.
Print Assumptions c82_range.
Print Assumptions c82_length_refuted.
Print Assumptions c82_long_window.
Print Assumptions c82_error.
Print Assumptions c82_minima.
Print Assumptions c82_minima_by_ends.
Print Assumptions c82_maxima.
Print Assumptions c82_valley.
