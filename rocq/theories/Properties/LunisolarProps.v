(** Properties of etc/lunisolar, the program behind the tables of lunar feasts. *)
From Coq Require Import ZArith List Bool Lia Sorted.
From Verif.Spec Require Import Ephemeris.
From Verif.Model Require Import Base Helpers Dates Zone Lunisolar.
From Verif.Proofs Require Import BaseLemmas LunisolarLemmas.
Import ListNotations.
Open Scope Z_scope.

(** ** C64: the minutes at which the sun reaches a longitude *)

(** For a sun that moves less than [limit] between samples, [minutes_at_phase] gives, in
    order, the samples nearest to its passages of [phase], once per turn. *)
Theorem c64_passages : forall limit n sun label phase, moves limit n sun ->
  2 * limit <= phase -> 2 * limit <= circle - phase ->
  exists ix, minutes_at_phase (samples n (seen sun)) (samples n label) phase = map label ix /\
    StronglySorted lt ix /\
    forall i, In i ix <-> inside n i /\ exists turns, nearest n sun i (phase + turns * circle).
Proof.
  intros limit n sun label phase M H1 H2.
  exists (local_cmp Z.ltb (samples n (fun i => Z.abs (seen sun i - phase)))).
  unfold minutes_at_phase. rewrite samples_map. rewrite local_cmp_samples.
  split; [|split].
  - apply take_samples. intros i Hi. apply filter_In in Hi. destruct Hi as [Hi _]. apply in_seq in Hi. lia.
  - apply filter_sorted, seq_sorted.
  - intros i. rewrite filter_In, extremum_iff, !Z.ltb_lt. unfold seen.
    assert (P : inside n i -> 0 < sun i - sun (i - 1)%nat < limit /\ 0 < sun (S i) - sun i < limit).
    { intros [I1 I2]. split; [|exact (M i I2)]. specialize (M (i - 1)%nat).
      replace (S (i - 1)) with i in M by lia. apply M. lia. }
    split.
    + intros [_ [I H]]. split; [exact I|]. destruct (P I) as [P1 P2].
      apply (passage circle limit phase (sun (i - 1)%nat) (sun i) (sun (S i))) in H; try assumption; [|reflexivity].
      destruct H as [k H]. exists k. apply (nearest_neighbours limit n sun i _ M I). exact H.
    + intros [I [k H]]. destruct (P I) as [P1 P2]. split; [apply in_seq; unfold inside in I; lia|]. split; [exact I|].
      apply (passage circle limit phase (sun (i - 1)%nat) (sun i) (sun (S i))); try assumption; [reflexivity|].
      exists k. apply (nearest_neighbours limit n sun i _ M I). exact H.
Qed.

(** So the Qingming festival falls on the days in China of the samples nearest to the passages
    of 15 degrees. *)
Theorem c64_qingming : forall z limit n sun label, moves limit n sun -> 2 * limit <= degrees 15 ->
  exists ix, qingming_festival z (samples n (seen sun)) (samples n label) = map (fun i => utc_to_chinese_date z (label i)) ix /\
    StronglySorted lt ix /\
    forall i, In i ix <-> inside n i /\ exists turns, nearest n sun i (degrees 15 + turns * circle).
Proof.
  intros z limit n sun label M H.
  destruct (c64_passages limit n sun label (degrees 15) M H ltac:(unfold degrees, circle, degrees in *; lia)) as [ix [E [S F]]].
  exists ix. split; [|split; assumption]. unfold qingming_festival. change (15 * degree) with (degrees 15).
  rewrite E, map_map. reflexivity.
Qed.

(** With the longitude reduced modulo 30 degrees it gives the first sample in each
    twelfth of the circle: the zhongqi. *)
Theorem c64_zhongqi : forall limit n sun label, moves limit n sun -> 2 * limit <= degrees 30 ->
  exists ix,
    minutes_at_phase (map (fun x => x mod (30 * degree)) (samples n (seen sun))) (samples n label) 0 = map label ix /\
    StronglySorted lt ix /\
    forall i, In i ix <-> inside n i /\ exists k, first_at sun i (k * degrees 30).
Proof.
  intros limit n sun label M H1.
  exists (local_cmp Z.ltb (samples n (fun i => Z.abs (sun i mod degrees 30 - 0)))).
  unfold minutes_at_phase. rewrite !samples_map.
  replace (samples n (fun i => Z.abs (seen sun i mod (30 * degree) - 0)))
    with (samples n (fun i => Z.abs (sun i mod degrees 30 - 0))).
  2:{ unfold samples. apply map_ext. intros i. unfold seen. change (30 * degree) with (degrees 30).
      replace ((sun i mod circle) mod degrees 30) with (sun i mod degrees 30); [reflexivity|].
      apply (Znumtheory.Zmod_div_mod (degrees 30) circle); [reflexivity|reflexivity|]. exists 12. reflexivity. }
  rewrite local_cmp_samples.
  split; [|split].
  - apply take_samples. intros i Hi. apply filter_In in Hi. destruct Hi as [Hi _]. apply in_seq in Hi. lia.
  - apply filter_sorted, seq_sorted.
  - intros i. rewrite filter_In, extremum_iff, !Z.ltb_lt. unfold first_at.
    assert (P : inside n i -> 0 < sun i - sun (i - 1)%nat < limit /\ 0 < sun (S i) - sun i < limit).
    { intros [I1 I2]. split; [|exact (M i I2)]. specialize (M (i - 1)%nat).
      replace (S (i - 1)) with i in M by lia. apply M. lia. }
    split.
    + intros [_ [I H]]. split; [exact I|]. destruct (P I) as [P1 P2].
      exact (proj1 (passage_zero (degrees 30) limit _ _ _ eq_refl H1 P1 P2) H).
    + intros [I H]. destruct (P I) as [P1 P2]. split; [apply in_seq; unfold inside in I; lia|]. split; [exact I|].
      exact (proj2 (passage_zero (degrees 30) limit _ _ _ eq_refl H1 P1 P2) H).
Qed.

(** Every passage between two inner samples is found, unless it lies exactly half way. *)
Theorem c64_every_passage : forall limit n sun label phase i turns, moves limit n sun ->
  2 * limit <= phase -> 2 * limit <= circle - phase ->
  inside n i -> inside n (S i) ->
  let x := phase + turns * circle in
  sun i < x < sun (S i) -> x - sun i <> sun (S i) - x ->
  In (label (if x - sun i <? sun (S i) - x then i else S i))
     (minutes_at_phase (samples n (seen sun)) (samples n label) phase).
Proof.
  intros limit n sun label phase i turns M H1 H2 [I1 I2] [I3 I4] x Hx N.
  destruct (c64_passages limit n sun label phase M H1 H2) as [ix [-> [_ A]]]. apply in_map. apply A.
  pose proof (moves_lt limit n sun M) as L.
  assert (L1 : sun (i - 1)%nat < sun i) by (apply L; lia).
  assert (L2 : sun (S i) < sun (S (S i))) by (apply L; lia).
  destruct (Z.ltb_spec (x - sun i) (sun (S i) - x)).
  - split; [split; assumption|]. exists turns. fold x.
    apply (nearest_neighbours limit n sun i x M (conj I1 I2)). lia.
  - split; [split; assumption|]. exists turns. fold x.
    apply (nearest_neighbours limit n sun (S i) x M (conj I3 I4)).
    replace (S i - 1)%nat with i by lia. lia.
Qed.

(** A passage exactly half way between two samples is lost: a sun that moves 1 degree
    per sample and passes 270 degrees half way between samples 4 and 5. *)
Theorem c64_every_passage_refuted : exists limit n sun label phase i turns, moves limit n sun /\
  2 * limit <= phase /\ 2 * limit <= circle - phase /\ inside n i /\ inside n (S i) /\
  sun i < phase + turns * circle < sun (S i) /\
  minutes_at_phase (samples n (seen sun)) (samples n label) phase = [].
Proof.
  exists (degrees 2), 10%nat, (fun i => degrees (266 + Z.of_nat i) - degrees 1 / 2), Z.of_nat, (degrees 270), 4%nat, 0.
  split.
  { intros i Hi. cbv beta. rewrite Nat2Z.inj_succ. unfold degrees. lia. }
  split; [discriminate|]. split; [discriminate|]. split; [unfold inside; lia|]. split; [unfold inside; lia|].
  split; [split; reflexivity|]. vm_compute. reflexivity.
Qed.

(** The description of [local_cmp] (/repo/etc/lunisolar:110-114) asks for
    [f(arr[i], arr[i + 1])] and [f(arr[i - 1], arr[i])]; the program asks for
    [f(arr[i], arr[i - 1])] instead of the latter. *)
Theorem c64_local_cmp : forall f n g i,
  In i (local_cmp f (samples n g)) <->
  inside n i /\ f (g i) (g (S i)) = true /\ f (g i) (g (i - 1)%nat) = true.
Proof.
  intros f n g i. rewrite local_cmp_samples, filter_In, extremum_iff. unfold inside. split.
  - tauto.
  - intros [I [A B]]. split; [apply in_seq; lia|]. tauto.
Qed.
Theorem c64_local_cmp_refuted : exists f n g i, In i (local_cmp f (samples n g)) /\
  f (g (i - 1)%nat) (g i) = false.
Proof. exists Z.ltb, 3%nat, (fun i => nth i [2; 1; 3] 0), 1%nat. split; [left; reflexivity|reflexivity]. Qed.

(** ** C65: new moons *)

(** While the sun does not pass 0 degrees close to the moon, [calculate_new_moon] gives, in
    order, the samples nearest to the moments at which the moon passes the sun. *)
Theorem c65_new_moons : forall limit n sun moon label,
  moves limit n (lead sun moon) -> limit <= close ->
  (forall i laps, (i < n)%nat -> Z.abs (lead sun moon i - laps * circle) < close + limit ->
     moon i / circle = sun i / circle + laps) ->
  exists ix, calculate_new_moon (samples n (seen sun)) (samples n (seen moon)) (samples n label) = map label ix /\
    StronglySorted lt ix /\
    forall i, In i ix <-> inside n i /\ exists laps, nearest n (lead sun moon) i (laps * circle).
Proof.
  intros limit n sun moon label M HL G. unfold calculate_new_moon.
  set (diff := fun i => Z.abs (seen sun i - seen moon i)).
  replace (map2 (fun s l => Z.abs (s - l)) (samples n (seen sun)) (samples n (seen moon))) with (samples n diff)
    by (symmetry; apply map2_map).
  rewrite local_cmp_samples.
  exists (filter (fun i => nth i (samples n diff) 0 <? tenth_of_a_radian) (filter (extremum Z.ltb n diff) (seq 0 n))).
  split; [|split].
  - apply take_samples. intros i Hi. apply filter_In in Hi. destruct Hi as [Hi _]. apply filter_In in Hi.
    destruct Hi as [Hi _]. apply in_seq in Hi. lia.
  - apply filter_sorted, filter_sorted, seq_sorted.
  - intros i. rewrite !filter_In, extremum_iff, !Z.ltb_lt, in_seq.
    assert (C : 0 < circle) by reflexivity.
    assert (D : forall j laps, moon j / circle = sun j / circle + laps -> diff j = Z.abs (lead sun moon j - laps * circle)).
    { intros j laps H. unfold diff, seen, lead. apply (apart_abs circle _ _ laps C H). }
    assert (N : (i < n)%nat -> nth i (samples n diff) 0 = diff i).
    { intros Hi. unfold samples. rewrite (nth_indep _ 0 (diff 0%nat)) by (rewrite map_length, seq_length; exact Hi).
      rewrite map_nth, seq_nth by exact Hi. reflexivity. }
    assert (P : inside n i -> 0 < lead sun moon i - lead sun moon (i - 1)%nat < limit /\
                0 < lead sun moon (S i) - lead sun moon i < limit).
    { intros [I1 I2]. split; [|exact (M i I2)]. specialize (M (i - 1)%nat).
      replace (S (i - 1)) with i in M by lia. apply M. lia. }
    change tenth_of_a_radian with close. split.
    + intros [[Hi [I [A B]]] Q]. split; [exact I|]. rewrite (N ltac:(lia)) in Q.
      set (laps := moon i / circle - sun i / circle).
      assert (Di := D i laps ltac:(unfold laps; lia)). exists laps.
      destruct (P I) as [P1 P2]. destruct I as [I1 I2].
      assert (Dp := D (i - 1)%nat laps ltac:(apply G; lia)). assert (Dn := D (S i) laps ltac:(apply G; lia)).
      apply (nearest_neighbours limit n _ i _ M (conj I1 I2)). rewrite Di, Dp in A. rewrite Di, Dn in B. lia.
    + intros [I [laps H]]. destruct (P I) as [P1 P2].
      apply (nearest_neighbours limit n _ i _ M I) in H. destruct I as [I1 I2].
      assert (Di := D i laps ltac:(apply G; lia)).
      assert (Dp := D (i - 1)%nat laps ltac:(apply G; lia)). assert (Dn := D (S i) laps ltac:(apply G; lia)).
      rewrite (N ltac:(lia)), Di, Dp, Dn. unfold inside. lia.
Qed.

(** Without this condition there are false new moons.  When the sun passes 0 degrees while
    the moon is ahead by less than 0.1 radians (up to half a day after the new moon), the
    sample is taken for a new moon; likewise the sample before the sun passes 0 degrees while
    the moon is less than that behind. *)
Lemma in_new_moons : forall n sun moon label i, inside n i ->
  Z.abs (seen sun i - seen moon i) < close ->
  Z.abs (seen sun i - seen moon i) < Z.abs (seen sun (i - 1)%nat - seen moon (i - 1)%nat) ->
  Z.abs (seen sun i - seen moon i) < Z.abs (seen sun (S i) - seen moon (S i)) ->
  In (label i) (calculate_new_moon (samples n (seen sun)) (samples n (seen moon)) (samples n label)).
Proof.
  intros n sun moon label i I H1 H2 H3. unfold calculate_new_moon.
  set (diff := fun i => Z.abs (seen sun i - seen moon i)).
  replace (map2 (fun s l => Z.abs (s - l)) (samples n (seen sun)) (samples n (seen moon))) with (samples n diff)
    by (symmetry; apply map2_map).
  rewrite local_cmp_samples, take_samples.
  - apply in_map. rewrite !filter_In, extremum_iff, !Z.ltb_lt, in_seq.
    pose proof I as [I1 I2].
    replace (nth i (samples n diff) 0) with (diff i).
    2:{ unfold samples. rewrite (nth_indep _ 0 (diff 0%nat)) by (rewrite map_length, seq_length; lia).
        rewrite map_nth, seq_nth by lia. reflexivity. }
    unfold diff. change tenth_of_a_radian with close. split; [|exact H1].
    split; [lia|]. split; [exact I|]. split; [exact H2|exact H3].
  - intros j Hj. apply filter_In in Hj. destruct Hj as [Hj _]. apply filter_In in Hj.
    destruct Hj as [Hj _]. apply in_seq in Hj. lia.
Qed.

(** The files of the sun and of the moon must be for the same minutes. *)
Theorem c65_load : forall solar lunar minutes minutes',
  load_new_moons solar minutes lunar minutes = Ok (calculate_new_moon solar lunar minutes) /\
  (minutes <> minutes' -> load_new_moons solar minutes lunar minutes' = Raise ValueError).
Proof.
  intros solar lunar minutes minutes'. unfold load_new_moons.
  destruct (list_eq_dec Z.eq_dec minutes minutes) as [_|N]; [|contradiction]. split; [reflexivity|]. intros N.
  destruct (list_eq_dec Z.eq_dec minutes minutes') as [E|_]; [contradiction|reflexivity].
Qed.

Theorem c65_false_new_moon_after : forall limit n sun moon label i turns laps,
  moves limit n sun -> moves limit n moon -> moves limit n (lead sun moon) -> limit <= degrees 30 -> inside n i ->
  first_at sun i (turns * circle) -> (turns + laps) * circle <= moon (i - 1)%nat ->
  laps * circle < lead sun moon (i - 1)%nat -> lead sun moon i < laps * circle + close ->
  In (label i) (calculate_new_moon (samples n (seen sun)) (samples n (seen moon)) (samples n label)) /\
  ~ exists laps', nearest n (lead sun moon) i (laps' * circle).
Proof.
  intros limit n sun moon label i turns laps MS MM ML HL I [F1 F2] H1 H2 H3.
  pose proof I as [I1 I2]. assert (C : 0 < circle) by reflexivity.
  assert (S1 := MS (i - 1)%nat). assert (S2 := MS i I2). assert (M1 := MM (i - 1)%nat). assert (M2 := MM i I2).
  assert (L1 := ML (i - 1)%nat). assert (L2 := ML i I2).
  replace (S (i - 1)) with i in S1, M1, L1 by lia. specialize (S1 ltac:(lia)). specialize (M1 ltac:(lia)). specialize (L1 ltac:(lia)).
  unfold lead in *. unfold close, circle, degrees in *.
  set (c := 360 * 10 ^ 10) in *.
  assert (Ec : c = 3600000000000) by reflexivity.
  assert (A1 : sun (i - 1)%nat / c = turns - 1) by (apply div_at; lia).
  assert (A2 : sun i / c = turns) by (apply div_at; lia).
  assert (A3 : sun (S i) / c = turns) by (apply div_at; lia).
  assert (B1 : moon (i - 1)%nat / c = turns + laps) by (apply div_at; lia).
  assert (B2 : moon i / c = turns + laps) by (apply div_at; lia).
  assert (B3 : moon (S i) / c = turns + laps) by (apply div_at; lia).
  split.
  - apply in_new_moons; [exact I|..]; unfold seen; fold c; change circle with c;
      rewrite ?(apart_abs c (sun i) (moon i) laps C ltac:(lia)),
        ?(apart_abs c (sun (i - 1)%nat) (moon (i - 1)%nat) (laps + 1) C ltac:(lia)),
        ?(apart_abs c (sun (S i)) (moon (S i)) laps C ltac:(lia)); unfold close; lia.
  - intros [k N]. assert (N1 := N (i - 1)%nat ltac:(lia) ltac:(lia)). assert (N2 := N (S i) ltac:(lia) ltac:(lia)).
    change circle with 3600000000000 in N1, N2. unfold lead in N1, N2. rewrite Ec in *. lia.
Qed.

Theorem c65_false_new_moon_before : forall limit n sun moon label i turns laps,
  moves limit n sun -> moves limit n moon -> moves limit n (lead sun moon) -> limit <= degrees 30 -> inside n i ->
  first_at sun (S i) (turns * circle) -> moon (S i) < (turns + laps) * circle ->
  laps * circle - close < lead sun moon i -> lead sun moon (S i) < laps * circle ->
  In (label i) (calculate_new_moon (samples n (seen sun)) (samples n (seen moon)) (samples n label)) /\
  ~ exists laps', nearest n (lead sun moon) i (laps' * circle).
Proof.
  intros limit n sun moon label i turns laps MS MM ML HL I [F1 F2] H1 H2 H3.
  pose proof I as [I1 I2]. assert (C : 0 < circle) by reflexivity.
  replace (S i - 1)%nat with i in F1 by lia.
  assert (S1 := MS (i - 1)%nat). assert (S2 := MS i I2). assert (M1 := MM (i - 1)%nat). assert (M2 := MM i I2).
  assert (L1 := ML (i - 1)%nat). assert (L2 := ML i I2).
  replace (S (i - 1)) with i in S1, M1, L1 by lia. specialize (S1 ltac:(lia)). specialize (M1 ltac:(lia)). specialize (L1 ltac:(lia)).
  unfold lead in *. unfold close, circle, degrees in *.
  set (c := 360 * 10 ^ 10) in *.
  assert (Ec : c = 3600000000000) by reflexivity.
  assert (A1 : sun (i - 1)%nat / c = turns - 1) by (apply div_at; lia).
  assert (A2 : sun i / c = turns - 1) by (apply div_at; lia).
  assert (A3 : sun (S i) / c = turns) by (apply div_at; lia).
  assert (B1 : moon (i - 1)%nat / c = turns + laps - 1) by (apply div_at; lia).
  assert (B2 : moon i / c = turns + laps - 1) by (apply div_at; lia).
  assert (B3 : moon (S i) / c = turns + laps - 1) by (apply div_at; lia).
  split.
  - apply in_new_moons; [exact I|..]; unfold seen; change circle with c;
      rewrite ?(apart_abs c (sun i) (moon i) laps C ltac:(lia)),
        ?(apart_abs c (sun (i - 1)%nat) (moon (i - 1)%nat) laps C ltac:(lia)),
        ?(apart_abs c (sun (S i)) (moon (S i)) (laps - 1) C ltac:(lia)); unfold close; lia.
  - intros [k N]. assert (N1 := N (i - 1)%nat ltac:(lia) ltac:(lia)). assert (N2 := N (S i) ltac:(lia) ltac:(lia)).
    change circle with 3600000000000 in N1, N2. unfold lead in N1, N2. rewrite Ec in *. lia.
Qed.

(** The sun and the moon of March 20th, 2034, every hour from 4:00 UTC on: new moon at
    10:13, equinox at 13:12.  Two new moons are found, at 10:00 and at 14:00. *)
Definition sun_2034 (i : nat) : Z := circle - 3799600000 + 413000000 * Z.of_nat i.
Definition moon_2034 (i : nat) : Z := sun_2034 i - 33570000000 + 5400000000 * Z.of_nat i.

Lemma circle_value : circle = 3600000000000.
Proof. reflexivity. Qed.

Theorem c65_new_moons_refuted :
  moves (degrees 1) 20 sun_2034 /\ moves (degrees 1) 20 (lead sun_2034 moon_2034) /\
  (forall i laps, nearest 20 (lead sun_2034 moon_2034) i (laps * circle) -> inside 20 i -> i = 6%nat) /\
  calculate_new_moon (samples 20 (seen sun_2034)) (samples 20 (seen moon_2034))
    (samples 20 (fun i => Z.of_nat i + 4)) = [10; 14].
Proof.
  assert (L : forall i, lead sun_2034 moon_2034 i = - 33570000000 + 5400000000 * Z.of_nat i).
  { intros i. unfold lead, moon_2034. lia. }
  split; [|split; [|split]].
  - intros i Hi. unfold sun_2034, degrees. rewrite Nat2Z.inj_succ. lia.
  - intros i Hi. rewrite !L, Nat2Z.inj_succ. unfold degrees. lia.
  - intros i laps N [I1 I2]. assert (N1 := N (i - 1)%nat ltac:(lia) ltac:(lia)).
    assert (N2 := N (S i) ltac:(lia) ltac:(lia)). rewrite !L, circle_value in N1, N2.
    rewrite Nat2Z.inj_succ in N2. replace (Z.of_nat (i - 1)) with (Z.of_nat i - 1) in N1 by lia. lia.
  - vm_compute. reflexivity.
Qed.

(** A new moon in June: the condition of [c65_new_moons] holds, and one new moon is
    found. *)
Example c65_ex : let sun := fun i => degrees 90 + 413000000 * Z.of_nat i in
  let moon := fun i => sun i - 33570000000 + 5400000000 * Z.of_nat i in
  moves (degrees 1) 20 (lead sun moon) /\ degrees 1 <= close /\
  (forall i laps, (i < 20)%nat -> Z.abs (lead sun moon i - laps * circle) < close + degrees 1 ->
     moon i / circle = sun i / circle + laps) /\
  calculate_new_moon (samples 20 (seen sun)) (samples 20 (seen moon)) (samples 20 (fun i => Z.of_nat i + 4)) = [10].
Proof.
  cbv zeta. split; [|split; [|split]].
  - intros i Hi. unfold lead, degrees. rewrite Nat2Z.inj_succ. lia.
  - discriminate.
  - intros i laps Hi H. unfold lead in H. rewrite circle_value in *. unfold close, degrees in *.
    assert (laps = 0) by lia. subst laps.
    rewrite (div_at 3600000000000 (90 * 10 ^ 10 + 413000000 * Z.of_nat i) 0) by lia.
    apply div_at; lia.
  - vm_compute. reflexivity.
Qed.

(** A sun sampled once a day from longitude 260 to 289 degrees: the passage of 270
    degrees is found at day 10, the nearest sample, as a solstice, and at day 11, the first
    sample after it, as a zhongqi. *)
Example c64_ex : let sun := fun i => degrees (260 + Z.of_nat i) - 3000000000 in
  moves (degrees 7) 30 sun /\ 2 * degrees 7 <= degrees 270 /\ 2 * degrees 7 <= circle - degrees 270 /\
  minutes_at_phase (samples 30 (seen sun)) (samples 30 (fun i => 1440 * Z.of_nat i)) (270 * degree) = [14400] /\
  minutes_at_phase (map (fun x => x mod (30 * degree)) (samples 30 (seen sun))) (samples 30 (fun i => 1440 * Z.of_nat i)) 0
    = [15840].
Proof.
  cbv zeta. split; [|split; [discriminate|split; [discriminate|split; vm_compute; reflexivity]]].
  intros i Hi. rewrite Nat2Z.inj_succ. unfold degrees. lia.
Qed.

(** The same sampling from 5 to 34 degrees: Qingming is on the day of the tenth sample. *)
Example c64_qingming_ex : let sun := fun i => degrees (5 + Z.of_nat i) - 3000000000 in
  moves (degrees 7) 30 sun /\ 2 * degrees 7 <= degrees 15 /\
  qingming_festival UTC (samples 30 (seen sun)) (samples 30 (fun i => 1440 * Z.of_nat i + 3)) = [10].
Proof.
  cbv zeta. split; [|split; [discriminate|vm_compute; reflexivity]].
  intros i Hi. rewrite Nat2Z.inj_succ. unfold degrees. lia.
Qed.

(** ** Assumptions *)
Print Assumptions c64_passages.
Print Assumptions c64_qingming.
Print Assumptions c64_zhongqi.
Print Assumptions c64_every_passage.
Print Assumptions c64_every_passage_refuted.
Print Assumptions c64_local_cmp.
Print Assumptions c64_local_cmp_refuted.
Print Assumptions c65_new_moons.
Print Assumptions c65_load.
Print Assumptions c65_false_new_moon_after.
Print Assumptions c65_false_new_moon_before.
Print Assumptions c65_new_moons_refuted.
