(** C83: what the ephemeris commands save is what is loaded; C84: histories of runs. *)
From Coq Require Import ZArith List Bool Lia Sorting.Sorted Sorting.Permutation.
From Verif.Spec Require Import Blocks.
From Verif.Model Require Import Base Lunisolar Store.
From Verif.Proofs Require Import BaseLemmas StoreLemmas.
Import ListNotations.
Open Scope Z_scope.

(** The directory after a history of runs, from an empty one. *)
Definition directory_after (longitude : Z -> Z) (history : list run) : directory :=
  fold_left (fun dir r =>
    match r with
    | Completed start stop => ecliptic_longitude longitude dir start stop
    | Stopped start stop blocks values =>
        ecliptic_longitude_stopped longitude dir start stop blocks values
    end) history [].

(** What the file system may list for a directory: its files in any order, among other
    files whose names have no underscore. *)
Definition listed (dir listing : directory) : Prop :=
  exists others, NoDup (map fst others) /\
    (forall e, In e others -> exists i, fst e = Unmatched i) /\
    Permutation listing (dir ++ others).

Lemma after_fold : forall f history, directory_after f history = fold_left (carry_out f) history [].
Proof. reflexivity. Qed.

Lemma good_load : forall f d listing, good f d -> listed d listing -> d <> [] ->
  exists ms, load_precomputed_data listing = Ok (map f ms, ms) /\
    (forall m, In m ms <-> exists s t, In (file_of f s t) d /\ s <= m <= t) /\
    ((forall s t s' t' m, In (file_of f s t) d -> In (file_of f s' t') d ->
        s <= m <= t -> s' <= m <= t' -> s = s' /\ t = t') -> StronglySorted Z.lt ms).
Proof.
  intros f d listing Hg [others [Hno [Ho Hp]]] Hd. exact (load_good f d others listing Hg Ho Hno Hp Hd).
Qed.

Lemma single_run_load : forall f d r listing,
  good f d -> (forall e, In e d <-> file_of_run f r e) -> listed d listing ->
  (exists m, covers r m) ->
  exists ms, load_precomputed_data listing = Ok (map f ms, ms) /\
    (forall m, In m ms <-> covers r m) /\ StronglySorted Z.lt ms.
Proof.
  intros f d r listing Hg I Hl [m0 Hm].
  assert (Hd : d <> []).
  { apply (file_of_run_covers f) in Hm. destruct Hm as [s [t [K _]]]. apply I in K.
    intros E. rewrite E in K. destruct K. }
  destruct (good_load f d listing Hg Hl Hd) as [ms [E [M S1]]]. exists ms. split; [exact E|]. split.
  - intros m. rewrite M, (file_of_run_covers f r m). split; intros [s [t [K L]]]; exists s, t;
      (split; [now apply I|exact L]).
  - apply S1. intros s t s' t' m K K'. apply I in K. apply I in K'.
    apply (file_of_run_disjoint f r); assumption.
Qed.

(** ** C83 *)

(** In whatever order the directory lists the files, loading gives the longitude of each
    minute of the range, once and in order, with its minute. *)
Theorem c83_round_trip : forall longitude start stop listing, start < stop ->
  listed (directory_after longitude [Completed start stop]) listing ->
  load_precomputed_data listing =
  Ok (map longitude (minutes_between start stop), minutes_between start stop).
Proof.
  intros f start stop listing L Hl. rewrite after_fold in Hl.
  destruct (resumed_files f start stop [] ltac:(intros r [])) as [Hg I].
  destruct (single_run_load f _ (Completed start stop) listing Hg I Hl) as [ms [E [M Hs]]].
  { exists start. cbn. lia. }
  rewrite E. rewrite (strictly_sorted_minutes ms start stop Hs M). reflexivity.
Qed.

(** The files: one for each year of 365 days from the start, named by its first and last
    minute. *)
Theorem c83_files : forall longitude start stop n contents,
  In (n, contents) (directory_after longitude [Completed start stop]) <->
  exists i : nat, exists first after,
    first = start + Z.of_nat i * year /\ first < stop /\
    after = Z.min stop (first + year) /\
    n = Block first (after - 1) /\ contents = map longitude (minutes_between first after).
Proof.
  intros f start stop n c. rewrite after_fold.
  destruct (resumed_files f start stop [] ltac:(intros r [])) as [_ I]. cbn [app] in I. rewrite I.
  cbn [file_of_run]. split.
  - intros [i [L E]]. exists i. eexists. eexists. split; [reflexivity|]. split; [exact L|]. split; [reflexivity|].
    unfold file_of, block_end in E. rewrite arange_minutes in E.
    replace (start + (Z.of_nat i + 1) * year) with (start + Z.of_nat i * year + year) in E by lia.
    rewrite Z.sub_add in E. split; congruence.
  - intros [i [a [b [-> [L [-> [-> ->]]]]]]]. exists i. split; [exact L|]. unfold file_of, block_end.
    rewrite arange_minutes. replace (start + (Z.of_nat i + 1) * year) with (start + Z.of_nat i * year + year) by lia.
    rewrite Z.sub_add. reflexivity.
Qed.

(** An empty range leaves no file, and there is nothing to load. *)
Theorem c83_empty : forall longitude start stop listing, stop <= start ->
  listed (directory_after longitude [Completed start stop]) listing ->
  load_precomputed_data listing = Raise ValueError.
Proof.
  intros f start stop listing L [others [Hno [Ho Hp]]].
  assert (E : directory_after f [Completed start stop] = []).
  { unfold directory_after, ecliptic_longitude. cbn [fold_left]. rewrite arange_1.
    replace (Z.to_nat (stop - start)) with 0%nat by lia. reflexivity. }
  rewrite E in Hp. cbn [app] in Hp.
  assert (K : forall e, In e listing -> exists i, fst e = Unmatched i)
    by (intros e He; apply Ho; exact (Permutation_in e Hp He)).
  assert (M : matching listing = Ok []).
  { clear - K. induction listing as [|[n c] l IH]; [reflexivity|].
    destruct (K (n, c) (or_introl eq_refl)) as [i Hi]. cbn in Hi. subst n. cbn [matching].
    apply IH. intros e He. apply K. now right. }
  unfold load_precomputed_data. rewrite M. reflexivity.
Qed.

(** A file with an underscore in its name that no run made, such as .DS_Store, makes the
    whole directory unreadable. *)
Theorem c83_foreign : forall listing i contents, In (Foreign i, contents) listing ->
  load_precomputed_data listing = Raise ValueError.
Proof.
  intros l i c H. unfold load_precomputed_data. rewrite (matching_foreign l i c H). reflexivity.
Qed.

(** The new moons are those of the exact samples, whatever the order of the files. *)
Theorem c83_new_moons : forall sun moon start stop solar_listing lunar_listing, start < stop ->
  listed (directory_after sun [Completed start stop]) solar_listing ->
  listed (directory_after moon [Completed start stop]) lunar_listing ->
  let minutes := minutes_between start stop in
  load_new_moons_from solar_listing lunar_listing =
  Ok (calculate_new_moon (map sun minutes) (map moon minutes) minutes).
Proof.
  intros sun moon start stop sl ll L Hs Hl minutes. unfold load_new_moons_from.
  rewrite (c83_round_trip _ _ _ _ L Hs), (c83_round_trip _ _ _ _ L Hl). cbn [bind].
  fold minutes. unfold load_new_moons.
  destruct (list_eq_dec Z.eq_dec minutes minutes) as [_|N]; [|congruence].
  cbn [bind]. rewrite !map_length, Nat.eqb_refl. reflexivity.
Qed.

(** Runs on different ranges are noticed. *)
Theorem c83_mismatch : forall sun moon start stop start' stop' solar_listing lunar_listing,
  start < stop -> start' < stop' -> (start, stop) <> (start', stop') ->
  listed (directory_after sun [Completed start stop]) solar_listing ->
  listed (directory_after moon [Completed start' stop']) lunar_listing ->
  load_new_moons_from solar_listing lunar_listing = Raise ValueError.
Proof.
  intros sun moon start stop start' stop' sl ll L L' N Hs Hl. unfold load_new_moons_from.
  rewrite (c83_round_trip _ _ _ _ L Hs), (c83_round_trip _ _ _ _ L' Hl). cbn [bind].
  unfold load_new_moons.
  destruct (list_eq_dec Z.eq_dec (minutes_between start stop) (minutes_between start' stop')) as [E|_];
    [|reflexivity].
  exfalso. apply N.
  assert (K : forall m, start <= m < stop <-> start' <= m < stop').
  { intros m. rewrite <- !arange_1_In, !arange_minutes, E. reflexivity. }
  assert (start = start') by (pose proof (proj1 (K start)); pose proof (proj2 (K start')); lia).
  assert (stop = stop') by (pose proof (proj1 (K (stop - 1))); pose proof (proj2 (K (stop' - 1))); lia).
  congruence.
Qed.

(** ** C84 *)

(** After any history of runs none of which was stopped within a block, every value is
    loaded with its own minute, and the minutes are those that some run covered. *)
Theorem c84_aligned : forall longitude history listing,
  (forall r, In r history -> between_blocks r) ->
  (exists r m, In r history /\ covers r m) ->
  listed (directory_after longitude history) listing ->
  exists minutes, load_precomputed_data listing = Ok (map longitude minutes, minutes) /\
    forall m, In m minutes <-> exists r, In r history /\ covers r m.
Proof.
  intros f history listing Hb [r0 [m0 [Hr0 Hm0]]] Hl. rewrite after_fold in Hl.
  destruct (history_good f history [] (good_nil f) Hb) as [Hg I].
  assert (Hd : fold_left (carry_out f) history [] <> []).
  { apply (file_of_run_covers f) in Hm0. destruct Hm0 as [s [t [K _]]]. intros E.
    rewrite E in I. apply (I (file_of f s t)). right. exists r0. split; assumption. }
  destruct (good_load f _ listing Hg Hl Hd) as [ms [E [M _]]]. exists ms. split; [exact E|].
  intros m. rewrite M. split.
  - intros [s [t [K L]]]. apply I in K. destruct K as [[]|[r [Hr K]]]. exists r. split; [exact Hr|].
    apply (file_of_run_covers f). exists s, t. split; assumption.
  - intros [r [Hr C]]. apply (file_of_run_covers f) in C. destruct C as [s [t [K L]]].
    exists s, t. split; [|exact L]. apply I. right. exists r. split; assumption.
Qed.

(** If no minute is covered twice, the minutes also increase; so a range may be computed
    in parts, in any order. *)
Theorem c84_parts : forall longitude history start stop listing,
  (forall r, In r history -> between_blocks r) -> separate history -> start < stop ->
  (forall m, (exists r, In r history /\ covers r m) <-> start <= m < stop) ->
  listed (directory_after longitude history) listing ->
  load_precomputed_data listing =
  Ok (map longitude (minutes_between start stop), minutes_between start stop).
Proof.
  intros f history start stop listing Hb Hs L Hc Hl. rewrite after_fold in Hl.
  destruct (history_good f history [] (good_nil f) Hb) as [Hg I].
  assert (Hd : fold_left (carry_out f) history [] <> []).
  { destruct (proj2 (Hc start) ltac:(lia)) as [r0 [Hr0 Hm0]].
    apply (file_of_run_covers f) in Hm0. destruct Hm0 as [s [t [K _]]]. intros E.
    rewrite E in I. apply (I (file_of f s t)). right. exists r0. split; assumption. }
  destruct (good_load f _ listing Hg Hl Hd) as [ms [E [M S1]]].
  assert (Hms : forall m, In m ms <-> start <= m < stop).
  { intros m. rewrite M, <- Hc. split.
    - intros [s [t [K Lm]]]. apply I in K. destruct K as [[]|[r [Hr K]]]. exists r. split; [exact Hr|].
      apply (file_of_run_covers f). exists s, t. split; assumption.
    - intros [r [Hr C]]. apply (file_of_run_covers f) in C. destruct C as [s [t [K Lm]]].
      exists s, t. split; [|exact Lm]. apply I. right. exists r. split; assumption. }
  rewrite E. rewrite <- (strictly_sorted_minutes ms start stop); [reflexivity| |exact Hms].
  apply S1. intros s t s' t' m K K' Lm Lm'. apply I in K. apply I in K'.
  destruct K as [[]|[r [Hr K]]]. destruct K' as [[]|[r' [Hr' K']]].
  assert (r = r').
  { apply (separate_same history r r' m Hs Hr Hr'); apply (file_of_run_covers f); eauto. }
  subst r'. exact (file_of_run_disjoint f r s t s' t' m K K' Lm Lm').
Qed.

(** After any number of runs on one range, stopped anywhere, one that ends repairs all:
    what is loaded is the same as after that run alone. *)
Theorem c84_resumed : forall longitude history start stop listing, start < stop ->
  (forall r, In r history -> on_range start stop r) ->
  listed (directory_after longitude (history ++ [Completed start stop])) listing ->
  load_precomputed_data listing =
  Ok (map longitude (minutes_between start stop), minutes_between start stop).
Proof.
  intros f history start stop listing L Hh Hl. rewrite after_fold in Hl.
  destruct (resumed_files f start stop history Hh) as [Hg I].
  destruct (single_run_load f _ (Completed start stop) listing Hg I Hl) as [ms [E [M Hs]]].
  { exists start. cbn. lia. }
  rewrite E. rewrite (strictly_sorted_minutes ms start stop Hs M). reflexivity.
Qed.

(** A run stopped between two blocks leaves the whole years before that point, and the
    next run may start there. *)
Theorem c84_continued : forall longitude start stop blocks listing,
  start + Z.of_nat blocks * year < stop ->
  listed (directory_after longitude
            [Stopped start stop blocks None; Completed (start + Z.of_nat blocks * year) stop]) listing ->
  load_precomputed_data listing =
  Ok (map longitude (minutes_between start stop), minutes_between start stop).
Proof.
  intros f start stop k listing L Hl. assert (start < stop) by (unfold year in L; lia).
  refine (c84_parts f _ start stop listing _ _ _ _ Hl); [| |assumption|].
  - intros r [<-|[<-|[]]]; cbn; reflexivity || exact I.
  - cbn [separate]. split; [|split; [|exact I]].
    + intros r' m [<-|[]]. cbn [covers]. lia.
    + intros r' m [].
  - intros m. split.
    + intros [r [[<-|[<-|[]]] C]]; cbn [covers] in C; unfold year in *; lia.
    + intros Hm. destruct (Z.lt_ge_cases m (start + Z.of_nat k * year)).
      * eexists. split; [left; reflexivity|]. cbn [covers]. lia.
      * eexists. split; [right; left; reflexivity|]. cbn [covers]. lia.
Qed.

(** A run stopped within a block: all the minutes of that block are loaded, but only the
    values that were written, and no error. *)
Theorem c84_torn : forall longitude start stop blocks values listing,
  let first := start + Z.of_nat blocks * year in
  let after := Z.min stop (first + year) in
  first < stop -> first + Z.of_nat values < after ->
  listed (directory_after longitude [Stopped start stop blocks (Some values)]) listing ->
  load_precomputed_data listing =
  Ok (map longitude (minutes_between start (first + Z.of_nat values)), minutes_between start after).
Proof.
  intros f start stop k j listing first after L Lj [others [Hno [Ho Hp]]].
  rewrite after_fold in Hp. cbn [fold_left] in Hp.
  pose proof (load_torn f start stop k j others listing L Ho Hno Hp) as E. cbv zeta in E.
  replace (start + (Z.of_nat k + 1) * year) with (first + year) in E by (unfold first; lia).
  fold first after in E. rewrite Z.min_r in E by lia. rewrite !arange_minutes in E. exact E.
Qed.

(** With a complete directory for the other body the difference of lengths is an error. *)
Theorem c84_torn_noticed : forall sun moon start stop blocks values solar_listing lunar_listing,
  let first := start + Z.of_nat blocks * year in
  first < stop -> first + Z.of_nat values < Z.min stop (first + year) ->
  listed (directory_after sun [Completed start stop]) solar_listing ->
  listed (directory_after moon [Stopped start stop blocks (Some values)]) lunar_listing ->
  load_new_moons_from solar_listing lunar_listing = Raise ValueError.
Proof.
  intros sun moon start stop k j sl ll first L Lj Hs Hl. unfold load_new_moons_from.
  assert (Lss : start < stop) by (unfold first, year in L; lia).
  rewrite (c83_round_trip _ _ _ _ Lss Hs), (c84_torn moon start stop k j ll L Lj Hl). cbn [bind].
  unfold load_new_moons. destruct (list_eq_dec _ _ _) as [E|_]; [|reflexivity].
  cbn [bind]. rewrite !map_length.
  fold first. assert (Hlen : forall a b, length (minutes_between a b) = Z.to_nat (b - a))
    by (intros; unfold minutes_between; rewrite map_length, seq_length; reflexivity).
  rewrite !Hlen. destruct (Nat.eqb_spec (Z.to_nat (stop - start)) (Z.to_nat (first + Z.of_nat j - start))) as [K|_];
    [|reflexivity]. exfalso. unfold first, year in *. lia.
Qed.

(** It is not true that every history leaves values with their own minutes: after a run
    that was stopped within a block, and another on the next range, all values of the
    latter have wrong minutes. *)
Theorem c84_aligned_refuted : exists longitude history listing values minutes,
  (forall r, In r history -> exists start stop, start < stop /\ on_range start stop r) /\
  listed (directory_after longitude history) listing /\
  load_precomputed_data listing = Ok (values, minutes) /\
  values = [0; 10; 20; 50; 60; 70; 80; 90] /\ minutes = [0; 1; 2; 3; 4; 5; 6; 7; 8; 9] /\
  (forall m, longitude m = 10 * m).
Proof.
  exists (fun m => 10 * m), [Stopped 0 5 0 (Some 3%nat); Completed 5 10],
         [(Block 0 4, [0; 10; 20]); (Block 5 9, [50; 60; 70; 80; 90])].
  eexists. eexists. split.
  { intros r [<-|[<-|[]]]; do 2 eexists; (split; [|split; reflexivity]); lia. }
  split.
  { exists []. split; [constructor|]. split; [intros e []|]. rewrite app_nil_r.
    unfold directory_after, ecliptic_longitude, ecliptic_longitude_stopped. cbn [fold_left].
    rewrite !short_blocks by (unfold year; lia). reflexivity. }
  split; [reflexivity|]. split; [reflexivity|]. split; [reflexivity|]. reflexivity.
Qed.

(** It is not true that complete runs leave each minute once: a second run with a later
    end leaves the minutes of its first block twice. *)
Theorem c84_once_refuted : exists longitude start stop stop' listing values minutes,
  start < stop < stop' /\
  listed (directory_after longitude [Completed start stop; Completed start stop']) listing /\
  load_precomputed_data listing = Ok (values, minutes) /\ ~ NoDup minutes.
Proof.
  exists (fun m => m), 0, 3, 5, [(Block 0 2, [0; 1; 2]); (Block 0 4, [0; 1; 2; 3; 4])].
  eexists. eexists. split; [lia|]. split.
  { exists []. split; [constructor|]. split; [intros e []|]. rewrite app_nil_r.
    unfold directory_after, ecliptic_longitude. cbn [fold_left].
    rewrite !short_blocks by (unfold year; lia). reflexivity. }
  split; [reflexivity|]. intros N. vm_compute in N. inversion N as [|? ? H _]. apply H.
  right. right. left. reflexivity.
Qed.

(** ** The hypotheses are met *)

Example c83_example : listed (directory_after (fun m => 10 * m) [Completed 100 105])
  [(Unmatched 0, [7]); (Block 100 104, [1000; 1010; 1020; 1030; 1040])].
Proof.
  exists [(Unmatched 0, [7])]. split; [repeat constructor; intros []|]. split.
  - intros e [<-|[]]. exists 0%nat. reflexivity.
  - assert (E : directory_after (fun m => 10 * m) [Completed 100 105] =
                [(Block 100 104, [1000; 1010; 1020; 1030; 1040])]).
    { unfold directory_after, ecliptic_longitude. cbn [fold_left].
      rewrite short_blocks by (unfold year; lia). reflexivity. }
    rewrite E. apply perm_swap.
Qed.

Example c83_foreign_example : In (Foreign 3, @nil Z) [(Block 0 1, [5; 6]); (Foreign 3, [])].
Proof. right. left. reflexivity. Qed.

(** Two years and a bit: three files. *)
Example c83_files_example :
  In (Block (0 + Z.of_nat 2 * year) (2 * year + 9), map Z.opp (minutes_between (0 + Z.of_nat 2 * year) (2 * year + 10)))
     (directory_after Z.opp [Completed 0 (2 * year + 10)]).
Proof.
  rewrite (c83_files Z.opp 0 (2 * year + 10) (Block (0 + Z.of_nat 2 * year) (2 * year + 9))).
  exists 2%nat, (0 + Z.of_nat 2 * year), (2 * year + 10).
  split; [reflexivity|]. split; [unfold year; lia|]. split; [unfold year; lia|].
  split; [f_equal; unfold year; lia|reflexivity].
Qed.

Example c84_parts_example : let history := [Completed 10 20; Stopped 0 (year + 5) 0 None; Completed 5 10] in
  (forall r, In r history -> between_blocks r) /\ separate history /\
  (forall m, (exists r, In r history /\ covers r m) <-> 5 <= m < 20).
Proof.
  cbv zeta. split; [|split].
  - intros r [<-|[<-|[<-|[]]]]; cbn; reflexivity || exact I.
  - cbn [separate]. repeat split.
    + intros r' m [<-|[<-|[]]]; cbn [covers]; lia.
    + intros r' m [<-|[]]; cbn [covers]; lia.
    + intros r' m [].
  - intros m. split.
    + intros [r [[<-|[<-|[<-|[]]]] C]]; cbn [covers] in C; lia.
    + intros Hm. destruct (Z.lt_ge_cases m 10).
      * eexists. split; [right; right; left; reflexivity|]. cbn [covers]. lia.
      * eexists. split; [left; reflexivity|]. cbn [covers]. lia.
Qed.

Example c84_resumed_example : let history := [Stopped 0 (3 * year) 1 (Some 7%nat); Stopped 0 (3 * year) 2 None] in
  forall r, In r history -> on_range 0 (3 * year) r.
Proof. intros history r [<-|[<-|[]]]; split; reflexivity. Qed.

Example c84_torn_example : listed (directory_after (fun m => 10 * m) [Stopped 0 5 0 (Some 3%nat)])
  [(Block 0 4, [0; 10; 20])].
Proof.
  exists []. split; [constructor|]. split; [intros e []|].
  assert (E : directory_after (fun m => 10 * m) [Stopped 0 5 0 (Some 3%nat)] = [(Block 0 4, [0; 10; 20])]).
  { unfold directory_after, ecliptic_longitude_stopped. cbn [fold_left].
    rewrite short_blocks by (unfold year; lia). reflexivity. }
  rewrite E. reflexivity.
Qed.

(** ** Assumptions *)
Print Assumptions c83_round_trip.
Print Assumptions c83_files.
Print Assumptions c83_empty.
Print Assumptions c83_foreign.
Print Assumptions c83_new_moons.
Print Assumptions c83_mismatch.
Print Assumptions c84_aligned.
Print Assumptions c84_parts.
Print Assumptions c84_resumed.
Print Assumptions c84_continued.
Print Assumptions c84_torn.
Print Assumptions c84_torn_noticed.
Print Assumptions c84_aligned_refuted.
Print Assumptions c84_once_refuted.
