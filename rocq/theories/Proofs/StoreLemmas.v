From Coq Require Import ZArith List Bool Lia Sorting.Sorted Sorting.Permutation.
From Verif.Model Require Import Base Lunisolar Store.
From Verif.Spec Require Import Blocks.
From Verif.Proofs Require Import BaseLemmas.
Import ListNotations.
Open Scope Z_scope.

(** ** Ranges *)

Lemma arange_1 : forall a b, arange a b 1 = zseq a 1 (Z.to_nat (b - a)).
Proof. intros. unfold arange. f_equal. f_equal. rewrite Z.div_1_r. lia. Qed.

Lemma zseq_map_seq : forall n a i,
  zseq (a + Z.of_nat i) 1 n = map (fun j => a + Z.of_nat j) (seq i n).
Proof.
  induction n as [|n IH]; intros a i; [reflexivity|]. cbn [zseq seq map]. f_equal.
  rewrite <- IH. f_equal. lia.
Qed.

Lemma arange_minutes : forall a b, arange a b 1 = minutes_between a b.
Proof.
  intros. rewrite arange_1. unfold minutes_between.
  rewrite <- zseq_map_seq. f_equal. lia.
Qed.

Lemma arange_1_In : forall a b m, In m (arange a b 1) <-> a <= m < b.
Proof.
  intros. rewrite arange_In by lia. split; [tauto|]. intros H. split; [exact H|].
  exists (m - a). lia.
Qed.

Lemma zseq_firstn : forall j n a, firstn j (zseq a 1 n) = zseq a 1 (Nat.min j n).
Proof.
  induction j as [|j IH]; intros n a; [reflexivity|]. destruct n as [|n]; [reflexivity|].
  cbn [zseq firstn Nat.min]. f_equal. apply IH.
Qed.

Lemma zseq_skipn : forall j n a, skipn j (zseq a 1 n) = zseq (a + Z.of_nat j) 1 (n - j).
Proof.
  induction j as [|j IH]; intros n a.
  - cbn [skipn]. rewrite Z.add_0_r, Nat.sub_0_r. reflexivity.
  - destruct n as [|n]; [reflexivity|]. cbn [zseq skipn]. rewrite IH.
    cbn [Nat.sub]. f_equal. lia.
Qed.

Lemma zseq_last : forall n a d, last (zseq a 1 (S n)) d = a + Z.of_nat n.
Proof.
  induction n as [|n IH]; intros a d; [cbn; lia|].
  change (zseq a 1 (S (S n))) with (a :: zseq (a + 1) 1 (S n)).
  transitivity (last (zseq (a + 1) 1 (S n)) d); [reflexivity|]. rewrite IH. lia.
Qed.

(** ** Blocks *)

Lemma partition_all_nth : forall fuel n k a i, (0 < n)%nat -> (k <= fuel)%nat ->
  nth_error (partition_all_from fuel n (zseq a 1 k)) i =
  if (i * n <? k)%nat then Some (zseq (a + Z.of_nat (i * n)) 1 (Nat.min n (k - i * n))) else None.
Proof.
  induction fuel as [|fuel IH]; intros n k a i Hn Hk.
  - assert (k = 0)%nat by lia. subst k. destruct (Nat.ltb_spec (i * n) 0); [lia|].
    destruct i; reflexivity.
  - destruct k as [|k].
    + cbn [zseq partition_all_from]. destruct (Nat.ltb_spec (i * n) 0); [lia|]. destruct i; reflexivity.
    + assert (E : partition_all_from (S fuel) n (zseq a 1 (S k)) =
                  firstn n (zseq a 1 (S k)) :: partition_all_from fuel n (skipn n (zseq a 1 (S k))))
        by reflexivity.
      rewrite E, zseq_firstn, zseq_skipn. destruct i as [|i].
      * cbn [nth_error]. destruct (Nat.ltb_spec (0 * n) (S k)); [|lia].
        f_equal. f_equal; lia.
      * cbn [nth_error]. rewrite IH by lia.
        destruct (Nat.ltb_spec (i * n) (S k - n)); destruct (Nat.ltb_spec (S i * n) (S k)); try lia;
          [|reflexivity].
        f_equal. f_equal; lia.
Qed.

(** The blocks of a run. *)
Definition blocks (start stop : Z) : list (list Z) := partition_all BLOCK (arange start stop 1).

Lemma BLOCK_year : Z.of_nat BLOCK = year.
Proof. unfold BLOCK, year. rewrite Z2Nat.id; lia. Qed.

Lemma BLOCK_pos : (0 < BLOCK)%nat.
Proof. pose proof BLOCK_year. unfold year in H. lia. Qed.

Opaque BLOCK.

Lemma blocks_nth : forall start stop i b,
  nth_error (blocks start stop) i = Some b <->
  start + Z.of_nat i * year < stop /\
  b = arange (start + Z.of_nat i * year) (Z.min stop (start + (Z.of_nat i + 1) * year)) 1.
Proof.
  intros start stop i b. unfold blocks, partition_all. rewrite arange_1, zseq_length.
  rewrite partition_all_nth by (try apply BLOCK_pos; lia).
  pose proof BLOCK_year as Y. rewrite <- Y.
  rewrite arange_1.
  destruct (Nat.ltb_spec (i * BLOCK) (Z.to_nat (stop - start))) as [L|L].
  - split.
    + intros E. injection E as <-. split; [lia|]. f_equal; lia.
    + intros [_ ->]. f_equal. f_equal; lia.
  - split; [discriminate|]. intros [L' _]. lia.
Qed.

Lemma arange_name : forall a b, a < b -> hd 0 (arange a b 1) = a /\ last (arange a b 1) 0 = b - 1.
Proof.
  intros a b H. rewrite arange_1. destruct (Z.to_nat (b - a)) as [|n] eqn:E; [lia|].
  split; [reflexivity|]. rewrite zseq_last. lia.
Qed.

(** The file of a range of minutes. *)
Definition file_of (longitude : Z -> Z) (s t : Z) : name * list Z :=
  (Block s t, map longitude (arange s (t + 1) 1)).
Definition entry (longitude : Z -> Z) (b : list Z) : name * list Z :=
  (Block (hd 0 b) (last b 0), map longitude b).

Lemma entry_arange : forall f a b, a < b -> entry f (arange a b 1) = file_of f a (b - 1).
Proof.
  intros f a b H. unfold entry, file_of. destruct (arange_name a b H) as [-> ->].
  rewrite Z.sub_add. reflexivity.
Qed.

(** The last minute of block [i]. *)
Definition block_end (start stop : Z) (i : nat) : Z :=
  Z.min stop (start + (Z.of_nat i + 1) * year) - 1.

Lemma entries_In : forall f start stop e,
  In e (map (entry f) (blocks start stop)) <->
  exists i, start + Z.of_nat i * year < stop /\
    e = file_of f (start + Z.of_nat i * year) (block_end start stop i).
Proof.
  intros f start stop e. rewrite in_map_iff. split.
  - intros [b [<- Hb]]. apply In_nth_error in Hb. destruct Hb as [i Hi]. apply blocks_nth in Hi.
    destruct Hi as [L ->]. exists i. split; [exact L|]. apply entry_arange. unfold year in *. lia.
  - intros [i [L ->]]. exists (arange (start + Z.of_nat i * year) (Z.min stop (start + (Z.of_nat i + 1) * year)) 1).
    split; [apply entry_arange; unfold year in *; lia|].
    eapply nth_error_In. apply blocks_nth. split; [exact L|reflexivity].
Qed.

Lemma nth_error_firstn_lt : forall {A} (l : list A) j i, (i < j)%nat -> nth_error (firstn j l) i = nth_error l i.
Proof.
  induction l as [|x l IH]; intros j i H.
  - rewrite firstn_nil. reflexivity.
  - destruct j as [|j]; [lia|]. destruct i as [|i]; [reflexivity|]. cbn. apply IH. lia.
Qed.

Lemma entries_firstn_In : forall f start stop j e,
  In e (map (entry f) (firstn j (blocks start stop))) <->
  exists i, (i < j)%nat /\ start + Z.of_nat i * year < stop /\
    e = file_of f (start + Z.of_nat i * year) (block_end start stop i).
Proof.
  intros f start stop j e. rewrite in_map_iff. split.
  - intros [b [<- Hb]]. apply In_nth_error in Hb. destruct Hb as [i Hi].
    assert (Hij : (i < j)%nat).
    { assert (H : (i < length (firstn j (blocks start stop)))%nat) by (apply nth_error_Some; congruence).
      rewrite firstn_length in H. lia. }
    rewrite nth_error_firstn_lt in Hi by exact Hij. apply blocks_nth in Hi.
    destruct Hi as [L ->]. exists i. split; [exact Hij|]. split; [exact L|].
    apply entry_arange. unfold year in *. lia.
  - intros [i [Hij [L ->]]].
    exists (arange (start + Z.of_nat i * year) (Z.min stop (start + (Z.of_nat i + 1) * year)) 1).
    split; [apply entry_arange; unfold year in *; lia|].
    apply nth_error_In with i. rewrite nth_error_firstn_lt by exact Hij.
    apply blocks_nth. split; [exact L|reflexivity].
Qed.

(** ** Directories *)

Lemma write_names : forall d n c, NoDup (map fst d) -> NoDup (map fst (write d n c)).
Proof.
  assert (K : forall d n c m, In m (map fst (write d n c)) -> m = n \/ In m (map fst d)).
  { induction d as [|[m' c'] d IH]; intros n c m H; cbn in H |- *.
    - destruct H as [<-|[]]. now left.
    - destruct (name_eq_dec m' n) as [->|N]; cbn in H.
      + destruct H as [<-|H]; [now left|]. right. now right.
      + destruct H as [<-|H]; [right; now left|]. destruct (IH _ _ _ H); [now left|]. right. now right. }
  induction d as [|[m' c'] d IH]; intros n c H; cbn.
  - constructor; [intros []|constructor].
  - cbn in H. inversion H as [|? ? Hn Hd]; subst. destruct (name_eq_dec m' n) as [->|N]; cbn.
    + constructor; assumption.
    + constructor; [|apply IH; exact Hd]. intros Hin. destruct (K _ _ _ _ Hin); contradiction.
Qed.

Lemma write_In : forall d n c e, NoDup (map fst d) ->
  (In e (write d n c) <-> e = (n, c) \/ (In e d /\ fst e <> n)).
Proof.
  induction d as [|[m' c'] d IH]; intros n c e H; cbn.
  - split; [intros [<-|[]]; now left|]. intros [->|[[] _]]. now left.
  - cbn in H. inversion H as [|? ? Hn Hd]; subst. destruct (name_eq_dec m' n) as [->|N]; cbn.
    + split.
      * intros [<-|Hin]; [now left|]. right. split; [now right|].
        intros E. apply Hn. rewrite <- E. now apply in_map.
      * intros [->|[[<-|Hin] Hf]]; [now left|cbn in Hf; contradiction|]. now right.
    + rewrite IH by exact Hd. split.
      * intros [<-|[->|[Hin Hf]]]; [right; split; [now left|exact N]|now left|]. right. split; [now right|exact Hf].
      * intros [->|[[<-|Hin] Hf]]; [right; now left|now left|]. right. right. split; assumption.
Qed.

Lemma fold_write : forall f (bs : list (list Z)) d, NoDup (map fst d) ->
  let d' := fold_left (fun d b => ecliptic_longitude_block f d b None) bs d in
  NoDup (map fst d') /\
  (forall e, In e d' -> In e (map (entry f) bs) \/ (In e d /\ ~ In (fst e) (map fst (map (entry f) bs)))) /\
  (forall e, In e d -> ~ In (fst e) (map fst (map (entry f) bs)) -> In e d') /\
  (NoDup (map fst (map (entry f) bs)) -> forall e, In e (map (entry f) bs) -> In e d').
Proof.
  intros f. induction bs as [|b bs IH]; intros d Hd; cbn [fold_left map].
  - cbn. split; [exact Hd|]. split; [intros e He; right; split; [exact He|tauto]|].
    split; [auto|]. intros _ e [].
  - assert (Hw : NoDup (map fst (ecliptic_longitude_block f d b None)))
      by (apply write_names; exact Hd).
    destruct (IH _ Hw) as [A [B [C D]]]. split; [exact A|]. split; [|split].
    + intros e He. destruct (B e He) as [H|[H N]]; [left; now right|].
      unfold ecliptic_longitude_block in H. apply write_In in H; [|exact Hd].
      destruct H as [->|[H N']]; [left; now left|]. right. split; [exact H|].
      intros [E|E]; [apply N'; rewrite <- E; reflexivity|contradiction].
    + intros e He N. apply C.
      * unfold ecliptic_longitude_block. apply write_In; [exact Hd|]. right. split; [exact He|].
        intros E. apply N. left. rewrite E. reflexivity.
      * intros H. apply N. now right.
    + intros Hn e [<-|He].
      * cbn in Hn. inversion Hn; subst. apply C; [|assumption].
        unfold ecliptic_longitude_block. apply write_In; [exact Hd|]. now left.
      * apply D; [|exact He]. cbn in Hn. now inversion Hn.
Qed.

(** A directory in which each file holds what its name says. *)
Definition aligned (f : Z -> Z) (e : name * list Z) : Prop :=
  exists s t, s <= t /\ e = file_of f s t.
Definition good (f : Z -> Z) (d : directory) : Prop :=
  NoDup (map fst d) /\ forall e, In e d -> aligned f e.

Lemma aligned_name : forall f e e', aligned f e -> aligned f e' -> fst e = fst e' -> e = e'.
Proof.
  intros f e e' [s [t [_ ->]]] [s' [t' [_ ->]]] E. unfold file_of in *. cbn in E.
  injection E as -> ->. reflexivity.
Qed.

Lemma fold_write_good : forall f bs d, good f d ->
  (forall b, In b bs -> aligned f (entry f b)) ->
  let d' := fold_left (fun d b => ecliptic_longitude_block f d b None) bs d in
  good f d' /\ forall e, In e d' <-> In e d \/ In e (map (entry f) bs).
Proof.
  intros f. induction bs as [|b bs IH]; intros d [Hn Ha] Hb; cbn [fold_left map].
  - cbn. split; [split; assumption|]. intros e. tauto.
  - assert (Hw : forall e, In e (ecliptic_longitude_block f d b None) <-> In e d \/ e = entry f b).
    { intros e. unfold ecliptic_longitude_block. rewrite write_In by exact Hn. fold (entry f b). split.
      - intros [->|[H _]]; [now right|now left].
      - intros [H| ->]; [|now left].
        destruct (name_eq_dec (fst e) (Block (hd 0 b) (last b 0))) as [E|N].
        + left. apply (aligned_name f); [now apply Ha|apply Hb; now left|exact E].
        + right. split; assumption. }
    destruct (IH (ecliptic_longitude_block f d b None)) as [A B].
    + split; [apply write_names; exact Hn|]. intros e He. apply Hw in He.
      destruct He as [He| ->]; [now apply Ha|]. apply Hb. now left.
    + intros b' Hb'. apply Hb. now right.
    + split; [exact A|]. intros e. rewrite B, Hw. cbn [In]. split; intros H; intuition congruence.
Qed.

Lemma block_aligned : forall f start stop b, In b (blocks start stop) -> aligned f (entry f b).
Proof.
  intros f start stop b Hb.
  assert (H : In (entry f b) (map (entry f) (blocks start stop))) by now apply in_map.
  apply entries_In in H. destruct H as [i [L ->]]. exists (start + Z.of_nat i * year), (block_end start stop i).
  split; [|reflexivity]. unfold block_end, year in *. lia.
Qed.

(** ** Loading *)

Lemma matching_foreign : forall l i c, In (Foreign i, c) l -> matching l = Raise ValueError.
Proof.
  induction l as [|[n c'] l IH]; intros i c H; [destruct H|]. destruct H as [E|H].
  - injection E as -> ->. reflexivity.
  - destruct n; cbn [matching]; [|exact (IH _ _ H)|reflexivity]. rewrite (IH _ _ H). reflexivity.
Qed.

Lemma matching_Ok : forall l, (forall i c, ~ In (Foreign i, c) l) ->
  exists fs, matching l = Ok fs /\
    (forall s t c, In (s, t, c) fs <-> In (Block s t, c) l) /\
    (NoDup (map fst l) -> NoDup (map fst fs)).
Proof.
  induction l as [|[n c'] l IH]; intros H.
  - exists []. split; [reflexivity|]. split; [cbn; tauto|]. intros _. constructor.
  - destruct IH as [fs [E [I N]]]. { intros i c Hi. apply (H i c). now right. }
    destruct n as [s0 t0|i|i]; cbn [matching].
    + exists ((s0, t0, c') :: fs). rewrite E. split; [reflexivity|]. split.
      * intros s t c. cbn [In]. rewrite I. split; (intros [K|K]; [left; congruence|now right]).
      * cbn. intros K. inversion K as [|? ? K1 K2]; subst. constructor; [|now apply N].
        intros Hin. apply K1. apply in_map_iff in Hin. destruct Hin as [[[s t] c] [E' Hin]].
        cbn in E'. injection E' as -> ->. apply I in Hin. apply in_map_iff. exists (Block s0 t0, c).
        split; [reflexivity|exact Hin].
    + exists fs. split; [exact E|]. split.
      * intros s t c. cbn [In]. rewrite I. split; [now right|]. intros [K|K]; [discriminate|exact K].
      * cbn. intros K. inversion K; subst. now apply N.
    + exfalso. apply (H i c'). now left.
Qed.

Lemma insert_file_perm : forall x l, Permutation (insert_file x l) (x :: l).
Proof.
  induction l as [|y l IH]; cbn; [reflexivity|]. destruct (_ <? _); [|reflexivity].
  rewrite IH. apply perm_swap.
Qed.

Lemma sort_files_perm : forall l, Permutation (sort_files l) l.
Proof.
  induction l as [|x l IH]; cbn; [reflexivity|]. rewrite insert_file_perm. now constructor.
Qed.

Definition starts_le (x y : Z * Z * list Z) : Prop := fst (fst x) <= fst (fst y).

Lemma insert_file_sorted : forall x l, StronglySorted starts_le l -> StronglySorted starts_le (insert_file x l).
Proof.
  induction l as [|y l IH]; intros H; cbn.
  - constructor; [constructor|constructor].
  - inversion H as [|? ? H1 H2]; subst. destruct (Z.ltb_spec (fst (fst y)) (fst (fst x))) as [L|L].
    + constructor; [now apply IH|]. apply Forall_forall. intros z Hz.
      apply (Permutation_in z (insert_file_perm x l)) in Hz. destruct Hz as [<-|Hz].
      * unfold starts_le. lia.
      * rewrite Forall_forall in H2. now apply H2.
    + constructor; [exact H|]. constructor; [unfold starts_le; lia|].
      rewrite Forall_forall in *. intros z Hz. specialize (H2 z Hz). unfold starts_le in *. lia.
Qed.

Lemma sort_files_sorted : forall l, StronglySorted starts_le (sort_files l).
Proof. induction l as [|x l IH]; cbn; [constructor|]. now apply insert_file_sorted. Qed.

Definition labels (x : Z * Z * list Z) : list Z := arange (fst (fst x)) (snd (fst x) + 1) 1.

Lemma concat_values : forall f (fs : list (Z * Z * list Z)),
  (forall x, In x fs -> snd x = map f (labels x)) ->
  concat (map snd fs) = map f (concat (map labels fs)).
Proof.
  induction fs as [|x fs IH]; intros H; [reflexivity|]. cbn [map concat]. rewrite map_app.
  rewrite IH by (intros y Hy; apply H; now right). rewrite (H x) by now left. reflexivity.
Qed.

Lemma labels_In : forall x m, In m (labels x) <-> fst (fst x) <= m <= snd (fst x).
Proof. intros. unfold labels. rewrite arange_1_In. lia. Qed.

Lemma concat_labels_sorted : forall fs,
  StronglySorted starts_le fs ->
  NoDup (map fst fs) ->
  (forall x, In x fs -> fst (fst x) <= snd (fst x)) ->
  (forall x y m, In x fs -> In y fs -> In m (labels x) -> In m (labels y) -> fst x = fst y) ->
  StronglySorted Z.lt (concat (map labels fs)).
Proof.
  induction fs as [|x fs IH]; intros Hs Hn Hl Hd; cbn [map concat]; [constructor|].
  inversion Hs as [|? ? Hs1 Hs2]; subst. cbn in Hn. inversion Hn as [|? ? Hn1 Hn2]; subst.
  assert (IH' : StronglySorted Z.lt (concat (map labels fs))).
  { apply IH; try assumption.
    - intros y Hy. apply Hl. now right.
    - intros y z m Hy Hz. apply Hd; now right. }
  assert (Hlt : forall a b, In a (labels x) -> In b (concat (map labels fs)) -> a < b).
  { intros a b Ha Hb. apply in_concat in Hb. destruct Hb as [ls [Hls Hb]].
    apply in_map_iff in Hls. destruct Hls as [y [<- Hy]].
    rewrite Forall_forall in Hs2. specialize (Hs2 y Hy). unfold starts_le in Hs2.
    apply labels_In in Ha. apply labels_In in Hb.
    destruct (Z.lt_ge_cases a b) as [L|L]; [exact L|exfalso].
    apply Hn1. rewrite (Hd x y b); [now apply in_map|now left|now right| |]; apply labels_In; lia. }
  assert (Hx : StronglySorted Z.lt (labels x)) by (apply arange_sorted; lia).
  revert Hlt. induction Hx as [|a l Hl' IHl Ha]; intros Hlt; [exact IH'|].
  cbn [app]. constructor.
  - apply IHl. intros a' b Ha' Hb. apply Hlt; [now right|exact Hb].
  - apply Forall_forall. intros b Hb. apply in_app_or in Hb. destruct Hb as [Hb|Hb].
    + rewrite Forall_forall in Ha. now apply Ha.
    + apply Hlt; [now left|exact Hb].
Qed.

(** A directory in which each file holds what its name says, listed in any order among
    files with other names. *)
Lemma load_good : forall f d others listing, good f d ->
  (forall e, In e others -> exists i, fst e = Unmatched i) ->
  NoDup (map fst others) ->
  Permutation listing (d ++ others) -> d <> [] ->
  exists ms, load_precomputed_data listing = Ok (map f ms, ms) /\
    (forall m, In m ms <-> exists s t, In (file_of f s t) d /\ s <= m <= t) /\
    ((forall s t s' t' m, In (file_of f s t) d -> In (file_of f s' t') d ->
        s <= m <= t -> s' <= m <= t' -> s = s' /\ t = t') -> StronglySorted Z.lt ms).
Proof.
  intros f d others listing [Hn Ha] Ho Hno Hp Hd.
  assert (Hin : forall e, In e listing <-> In e d \/ In e others).
  { intros e. rewrite <- in_app_iff. split; apply Permutation_in; [|symmetry]; exact Hp. }
  destruct (matching_Ok listing) as [fs [E [I N]]].
  { intros i c Hf. apply Hin in Hf. destruct Hf as [Hf|Hf].
    - apply Ha in Hf. destruct Hf as [s [t [_ E]]]. discriminate.
    - apply Ho in Hf. destruct Hf as [j E]. discriminate. }
  assert (Hb : forall x, In x fs <-> In (Block (fst (fst x)) (snd (fst x)), snd x) d).
  { intros [[s t] c]. cbn [fst snd]. rewrite I, Hin. split; [|now left].
    intros [H|H]; [exact H|]. apply Ho in H. destruct H as [j E']. discriminate. }
  assert (Hv : forall x, In x fs -> In (file_of f (fst (fst x)) (snd (fst x))) d /\
                 fst (fst x) <= snd (fst x) /\ snd x = map f (labels x)).
  { intros x Hx. apply Hb in Hx. pose proof (Ha _ Hx) as [s [t [L E']]].
    unfold file_of in E'. injection E' as E1 E2 E3. rewrite <- E1, <- E2 in E3, L.
    split; [|split; [exact L|exact E3]]. unfold file_of. rewrite <- E3. exact Hx. }
  assert (Hnl : NoDup (map fst fs)).
  { apply N. apply (Permutation_NoDup (l := map fst (d ++ others))).
    - symmetry. now apply Permutation_map.
    - rewrite map_app. clear - Hn Hno Ho Ha. induction d as [|e d IH]; [exact Hno|].
      cbn in Hn |- *. inversion Hn; subst. constructor.
      + intros K. apply in_app_or in K. destruct K as [K|K]; [contradiction|].
        apply in_map_iff in K. destruct K as [o [E Ko]]. apply Ho in Ko. destruct Ko as [i Ei].
        destruct (Ha e (or_introl eq_refl)) as [s [t [_ ->]]]. rewrite E in Ei. discriminate.
      + apply IH; [assumption|]. intros e' He'. apply Ha. now right. }
  set (ss := sort_files fs) in *.
  assert (Pss : Permutation ss fs) by apply sort_files_perm.
  assert (Iss : forall x, In x ss <-> In x fs)
    by (intros x; split; apply Permutation_in; [|symmetry]; exact Pss).
  assert (Hne : ss <> []).
  { destruct d as [|e d']; [congruence|]. destruct (Ha e (or_introl eq_refl)) as [s [t [L Ee]]].
    intros E0. assert (K : In (s, t, map f (arange s (t + 1) 1)) ss).
    { apply Iss. apply Hb. cbn. left. exact Ee. }
    rewrite E0 in K. destruct K. }
  exists (concat (map labels ss)). split; [|split].
  - unfold load_precomputed_data. rewrite E. cbn [bind]. fold ss.
    destruct ss as [|x ss'] eqn:Ess; [congruence|]. rewrite <- Ess in *.
    rewrite <- (concat_values f ss); [rewrite Ess; reflexivity|].
    intros y Hy. apply Iss in Hy. now apply Hv.
  - intros m. rewrite in_concat. split.
    + intros [ls [Hls Hm]]. apply in_map_iff in Hls. destruct Hls as [x [<- Hx]].
      apply Iss in Hx. destruct (Hv x Hx) as [K _]. exists (fst (fst x)), (snd (fst x)).
      split; [exact K|]. now apply labels_In.
    + intros [s [t [K Hm]]]. exists (labels (s, t, map f (arange s (t + 1) 1))).
      split; [|now apply labels_In]. apply in_map. apply Iss. apply Hb. exact K.
  - intros Hdis. apply concat_labels_sorted.
    + apply sort_files_sorted.
    + apply (Permutation_NoDup (l := map fst fs)); [|exact Hnl]. symmetry. now apply Permutation_map.
    + intros x Hx. apply Iss in Hx. now apply Hv.
    + intros x y m Hx Hy Hmx Hmy. apply Iss in Hx. apply Iss in Hy.
      apply labels_In in Hmx. apply labels_In in Hmy.
      destruct (Hv x Hx) as [Kx _]. destruct (Hv y Hy) as [Ky _].
      destruct (Hdis _ _ _ _ m Kx Ky Hmx Hmy) as [E1 E2].
      destruct x as [[a b] c], y as [[a' b'] c']. cbn in *. congruence.
Qed.

(** ** Runs *)

Definition carry_out (longitude : Z -> Z) (dir : directory) (r : run) : directory :=
  match r with
  | Completed start stop => ecliptic_longitude longitude dir start stop
  | Stopped start stop blocks values => ecliptic_longitude_stopped longitude dir start stop blocks values
  end.

(** The files of a run that was not stopped within a block. *)
Definition file_of_run (f : Z -> Z) (r : run) (e : name * list Z) : Prop :=
  match r with
  | Completed start stop => exists i, start + Z.of_nat i * year < stop /\
      e = file_of f (start + Z.of_nat i * year) (block_end start stop i)
  | Stopped start stop k _ => exists i, (i < k)%nat /\ start + Z.of_nat i * year < stop /\
      e = file_of f (start + Z.of_nat i * year) (block_end start stop i)
  end.

Lemma carry_out_good : forall f d r, good f d -> between_blocks r ->
  good f (carry_out f d r) /\ forall e, In e (carry_out f d r) <-> In e d \/ file_of_run f r e.
Proof.
  intros f d r Hd Hr. destruct r as [start stop|start stop k v]; cbn [carry_out between_blocks file_of_run] in *.
  - unfold ecliptic_longitude. fold (blocks start stop).
    destruct (fold_write_good f (blocks start stop) d Hd) as [A B].
    { intros b. apply block_aligned. }
    split; [exact A|]. intros e. rewrite B, entries_In. tauto.
  - subst v. unfold ecliptic_longitude_stopped. fold (blocks start stop).
    destruct (fold_write_good f (firstn k (blocks start stop)) d Hd) as [A B].
    { intros b Hb. apply (block_aligned f start stop). rewrite <- (firstn_skipn k). apply in_or_app. now left. }
    cbv zeta. split; [exact A|]. intros e. rewrite B, entries_firstn_In. tauto.
Qed.

Lemma file_of_inj : forall f s t s' t', file_of f s t = file_of f s' t' -> s = s' /\ t = t'.
Proof. intros f s t s' t' E. unfold file_of in E. injection E as -> ->. split; reflexivity. Qed.

Lemma file_of_run_covers : forall f r m,
  covers r m <-> exists s t, file_of_run f r (file_of f s t) /\ s <= m <= t.
Proof.
  assert (Q : forall start m, start <= m ->
    start + Z.of_nat (Z.to_nat ((m - start) / year)) * year <= m <
    start + (Z.of_nat (Z.to_nat ((m - start) / year)) + 1) * year).
  { intros start m H. rewrite Z2Nat.id by (apply Z.div_pos; unfold year; lia).
    pose proof (Z.div_mod (m - start) year). pose proof (Z.mod_pos_bound (m - start) year).
    unfold year in *. lia. }
  intros f [start stop|start stop k v] m; cbn [covers file_of_run]; split.
  - intros H. specialize (Q start m ltac:(lia)). set (i := Z.to_nat ((m - start) / year)) in *.
    exists (start + Z.of_nat i * year), (block_end start stop i). split.
    + exists i. split; [lia|reflexivity].
    + unfold block_end. lia.
  - intros [s [t [[i [L E]] Hm]]]. apply file_of_inj in E. destruct E as [-> ->].
    unfold block_end, year in *. lia.
  - intros H. specialize (Q start m ltac:(lia)). set (i := Z.to_nat ((m - start) / year)) in *.
    exists (start + Z.of_nat i * year), (block_end start stop i). split.
    + exists i. split; [unfold year in *; lia|]. split; [lia|reflexivity].
    + unfold block_end. lia.
  - intros [s [t [[i [Hi [L E]]] Hm]]]. apply file_of_inj in E. destruct E as [-> ->].
    unfold block_end, year in *. lia.
Qed.

Lemma file_of_run_disjoint : forall f r s t s' t' m,
  file_of_run f r (file_of f s t) -> file_of_run f r (file_of f s' t') ->
  s <= m <= t -> s' <= m <= t' -> s = s' /\ t = t'.
Proof.
  assert (K : forall start stop i j m,
    start + Z.of_nat i * year <= m <= block_end start stop i ->
    start + Z.of_nat j * year <= m <= block_end start stop j -> i = j).
  { intros start stop i j m. unfold block_end, year. intros H1 H2.
    assert (Z.of_nat i = Z.of_nat j) by lia. lia. }
  intros f [start stop|start stop k v] s t s' t' m; cbn [file_of_run].
  - intros [i [_ E]] [j [_ E']] H H'. apply file_of_inj in E. apply file_of_inj in E'.
    destruct E as [-> ->], E' as [-> ->]. rewrite (K _ _ _ _ _ H H'). split; reflexivity.
  - intros [i [_ [_ E]]] [j [_ [_ E']]] H H'. apply file_of_inj in E. apply file_of_inj in E'.
    destruct E as [-> ->], E' as [-> ->]. rewrite (K _ _ _ _ _ H H'). split; reflexivity.
Qed.

Lemma history_good : forall f history d, good f d -> (forall r, In r history -> between_blocks r) ->
  good f (fold_left (carry_out f) history d) /\
  forall e, In e (fold_left (carry_out f) history d) <->
    In e d \/ exists r, In r history /\ file_of_run f r e.
Proof.
  intros f. induction history as [|r history IH]; intros d Hd Hh; cbn [fold_left].
  - split; [exact Hd|]. intros e. split; [now left|]. intros [H|[r [[] _]]]. exact H.
  - destruct (carry_out_good f d r Hd) as [A B]. { apply Hh. now left. }
    destruct (IH _ A) as [C D]. { intros r' Hr'. apply Hh. now right. }
    split; [exact C|]. intros e. rewrite D, B. cbn [In]. split.
    + intros [[H|H]|[r' [Hr' H]]]; [now left|right; exists r; auto|right; exists r'; auto].
    + intros [H|[r' [[<-|Hr'] H]]]; [left; now left|left; now right|right; exists r'; auto].
Qed.

Lemma good_nil : forall f, good f [].
Proof. intros f. split; [constructor|]. intros e []. Qed.

Lemma separate_same : forall history r r' m, separate history -> In r history -> In r' history ->
  covers r m -> covers r' m -> r = r'.
Proof.
  induction history as [|r0 history IH]; intros r r' m Hs Hr Hr' H H'; [destruct Hr|].
  destruct Hs as [S1 S2]. destruct Hr as [<-|Hr], Hr' as [<-|Hr'].
  - reflexivity.
  - exfalso. exact (S1 r' m Hr' H H').
  - exfalso. exact (S1 r m Hr H' H).
  - exact (IH r r' m S2 Hr Hr' H H').
Qed.

(** ** Runs on one range *)

Lemma block_names_NoDup : forall f start stop, NoDup (map fst (map (entry f) (blocks start stop))).
Proof.
  intros f start stop. rewrite map_map. apply NoDup_nth_error. intros i j Hi E.
  rewrite map_length in Hi. rewrite !nth_error_map in E.
  destruct (nth_error (blocks start stop) i) as [b|] eqn:Ei; [|apply nth_error_None in Ei; lia].
  destruct (nth_error (blocks start stop) j) as [b'|] eqn:Ej; [|discriminate].
  cbn [option_map] in E. injection E as E1 E2.
  apply blocks_nth in Ei. destruct Ei as [Li ->]. apply blocks_nth in Ej. destruct Ej as [Lj ->].
  destruct (arange_name (start + Z.of_nat i * year) (Z.min stop (start + (Z.of_nat i + 1) * year))) as [Hh _];
    [unfold year in *; lia|].
  destruct (arange_name (start + Z.of_nat j * year) (Z.min stop (start + (Z.of_nat j + 1) * year))) as [Hh' _];
    [unfold year in *; lia|].
  rewrite Hh, Hh' in E1. unfold year in *. lia.
Qed.

Lemma same_range_names : forall f start stop history d,
  (forall r, In r history -> on_range start stop r) ->
  NoDup (map fst d) -> (forall e, In e d -> In (fst e) (map fst (map (entry f) (blocks start stop)))) ->
  NoDup (map fst (fold_left (carry_out f) history d)) /\
  forall e, In e (fold_left (carry_out f) history d) ->
    In (fst e) (map fst (map (entry f) (blocks start stop))).
Proof.
  intros f start stop. induction history as [|r history IH]; intros d Hr Hn Hd; cbn [fold_left]; [now split|].
  assert (K : forall k, NoDup (map fst (fold_left (fun d b => ecliptic_longitude_block f d b None)
                                 (firstn k (blocks start stop)) d)) /\
              forall e, In e (fold_left (fun d b => ecliptic_longitude_block f d b None)
                                 (firstn k (blocks start stop)) d) ->
              In (fst e) (map fst (map (entry f) (blocks start stop)))).
  { intros k. destruct (fold_write f (firstn k (blocks start stop)) d Hn) as [A [B _]].
    split; [exact A|]. intros e He. destruct (B e He) as [H|[H _]]; [|now apply Hd].
    apply in_map. apply in_map_iff in H. destruct H as [b [<- Hb]]. apply in_map.
    rewrite <- (firstn_skipn k). apply in_or_app. now left. }
  assert (G : NoDup (map fst (carry_out f d r)) /\
              forall e, In e (carry_out f d r) -> In (fst e) (map fst (map (entry f) (blocks start stop)))).
  { specialize (Hr r (or_introl eq_refl)). destruct r as [a b|a b k v]; destruct Hr as [-> ->]; cbn [carry_out].
    - unfold ecliptic_longitude. fold (blocks start stop).
      specialize (K (length (blocks start stop))). rewrite firstn_all in K. exact K.
    - unfold ecliptic_longitude_stopped. fold (blocks start stop). cbv zeta.
      destruct v as [j|]; [|exact (K k)].
      destruct (skipn k (blocks start stop)) as [|b bs] eqn:Es; [exact (K k)|].
      destruct (K k) as [K1 K2]. split; [apply write_names; exact K1|].
      intros e He. unfold ecliptic_longitude_block in He. apply write_In in He; [|exact K1].
      destruct He as [->|[He _]]; [|now apply K2]. cbn [fst].
      apply in_map_iff. exists (entry f b). split; [reflexivity|]. apply in_map.
      rewrite <- (firstn_skipn k), Es. apply in_or_app. right. now left. }
  destruct G as [G1 G2]. apply IH; [|exact G1|exact G2]. intros r' Hr'. apply Hr. now right.
Qed.

Lemma resumed_files : forall f start stop history,
  (forall r, In r history -> on_range start stop r) ->
  let d := fold_left (carry_out f) (history ++ [Completed start stop]) [] in
  good f d /\ forall e, In e d <-> file_of_run f (Completed start stop) e.
Proof.
  intros f start stop history Hh d. unfold d. rewrite fold_left_app. cbn [fold_left carry_out].
  destruct (same_range_names f start stop history []) as [Hn Hd].
  { exact Hh. } { constructor. } { intros e []. }
  set (d0 := fold_left (carry_out f) history []) in *.
  unfold ecliptic_longitude. fold (blocks start stop).
  destruct (fold_write f (blocks start stop) d0 Hn) as [A [B [_ D]]].
  assert (I : forall e, In e (fold_left (fun d b => ecliptic_longitude_block f d b None) (blocks start stop) d0)
                <-> In e (map (entry f) (blocks start stop))).
  { intros e. split.
    - intros He. destruct (B e He) as [H|[H N]]; [exact H|]. exfalso. apply N. now apply Hd.
    - apply D. apply block_names_NoDup. }
  split.
  - split; [exact A|]. intros e He. apply I in He. apply in_map_iff in He. destruct He as [b [<- Hb]].
    now apply (block_aligned f start stop).
  - intros e. rewrite I, entries_In. reflexivity.
Qed.

(** ** Strictly sorted lists *)

Lemma strictly_sorted_minutes : forall ms a b, StronglySorted Z.lt ms ->
  (forall m, In m ms <-> a <= m < b) -> ms = minutes_between a b.
Proof.
  intros ms a b Hs Hm. rewrite <- arange_minutes.
  assert (U : forall l l' : list Z, StronglySorted Z.lt l -> StronglySorted Z.lt l' ->
              (forall x, In x l <-> In x l') -> l = l').
  { induction l as [|x l IH]; intros l' Hl Hl' I.
    - destruct l' as [|y l']; [reflexivity|]. destruct (proj2 (I y) (or_introl eq_refl)).
    - destruct l' as [|y l']; [destruct (proj1 (I x) (or_introl eq_refl))|].
      inversion Hl as [|? ? H1 H2]; subst. inversion Hl' as [|? ? H1' H2']; subst.
      rewrite Forall_forall in H2, H2'.
      assert (x = y).
      { destruct (proj1 (I x) (or_introl eq_refl)) as [E|E]; [congruence|].
        destruct (proj2 (I y) (or_introl eq_refl)) as [E'|E']; [congruence|].
        specialize (H2 _ E'). specialize (H2' _ E). lia. }
      subst y. f_equal. apply IH; try assumption. intros z. split; intros Hz.
      + destruct (proj1 (I z) (or_intror Hz)) as [<-|K]; [|exact K]. specialize (H2 _ Hz). lia.
      + destruct (proj2 (I z) (or_intror Hz)) as [<-|K]; [|exact K]. specialize (H2' _ Hz). lia. }
  apply U; [exact Hs|apply arange_sorted; lia|]. intros x. rewrite Hm, arange_1_In. reflexivity.
Qed.

(** ** A block that was not written to its end *)

Lemma sorted_by_nth : forall {A} (R : A -> A -> Prop) l,
  (forall i j x y, (i < j)%nat -> nth_error l i = Some x -> nth_error l j = Some y -> R x y) ->
  StronglySorted R l.
Proof.
  induction l as [|x l IH]; intros H; constructor.
  - apply IH. intros i j a b Hij Ha Hb. apply (H (S i) (S j)); [lia|exact Ha|exact Hb].
  - apply Forall_forall. intros y Hy. apply In_nth_error in Hy. destruct Hy as [j Hj].
    apply (H 0%nat (S j)); [lia|reflexivity|exact Hj].
Qed.

Definition starts_lt (x y : Z * Z * list Z) : Prop := fst (fst x) < fst (fst y).

Lemma sort_unique : forall L fs, Permutation fs L -> StronglySorted starts_lt L -> sort_files fs = L.
Proof.
  intros L fs Hp HL.
  assert (U : forall L s, StronglySorted starts_lt L -> StronglySorted starts_le s -> Permutation s L -> s = L).
  { clear. induction L as [|y L IH]; intros s HL Hs Hp.
    - apply Permutation_sym, Permutation_nil in Hp. exact Hp.
    - destruct s as [|x s]; [apply Permutation_nil in Hp; discriminate|].
      inversion HL as [|? ? L1 L2]; subst. inversion Hs as [|? ? S1 S2]; subst.
      rewrite Forall_forall in L2, S2.
      assert (x = y).
      { pose proof (Permutation_in x Hp (or_introl eq_refl)) as [E|E]; [congruence|].
        pose proof (Permutation_in y (Permutation_sym Hp) (or_introl eq_refl)) as [E'|E']; [congruence|].
        specialize (L2 _ E). specialize (S2 _ E'). unfold starts_lt, starts_le in *. lia. }
      subst y. f_equal. apply IH; try assumption. now apply Permutation_cons_inv in Hp. }
  apply U; [exact HL|apply sort_files_sorted|]. rewrite sort_files_perm. exact Hp.
Qed.

Lemma concat_partition : forall {A} k fuel n (l : list A), (length l <= fuel)%nat -> (0 < n)%nat ->
  concat (firstn k (partition_all_from fuel n l)) = firstn (k * n) l.
Proof.
  induction k as [|k IH]; intros fuel n l Hf Hn; [reflexivity|].
  destruct fuel as [|fuel]; [destruct l; [|cbn in Hf; lia]; cbn [partition_all_from]; rewrite !firstn_nil; reflexivity|].
  destruct l as [|x l]; [cbn [partition_all_from]; rewrite !firstn_nil; reflexivity|].
  assert (E : partition_all_from (S fuel) n (x :: l) =
              firstn n (x :: l) :: partition_all_from fuel n (skipn n (x :: l))) by reflexivity.
  rewrite E. cbn [firstn concat]. rewrite IH; [|rewrite skipn_length; cbn [length] in *; lia|exact Hn].
  rewrite <- (firstn_skipn n (firstn (S k * n) (x :: l))).
  rewrite firstn_firstn, skipn_firstn_comm. f_equal; f_equal; lia.
Qed.

Lemma concat_blocks : forall start stop k,
  concat (firstn k (blocks start stop)) = arange start (Z.min stop (start + Z.of_nat k * year)) 1.
Proof.
  intros. unfold blocks, partition_all. rewrite concat_partition; [|lia|apply BLOCK_pos].
  rewrite !arange_1, zseq_firstn. f_equal. pose proof BLOCK_year. rewrite <- H. lia.
Qed.

(** The files of the first [k] blocks and the first [j] values of the next. *)
Definition torn_files (f : Z -> Z) (start stop : Z) (k j : nat) (b : list Z) : list (Z * Z * list Z) :=
  map (fun b => (hd 0 b, last b 0, map f b)) (firstn k (blocks start stop)) ++
  [(hd 0 b, last b 0, firstn j (map f b))].

Lemma arange_app : forall a b c, a <= b -> b <= c -> arange a b 1 ++ arange b c 1 = arange a c 1.
Proof.
  intros a b c H1 H2. rewrite !arange_1.
  assert (K : forall n m x, zseq x 1 n ++ zseq (x + Z.of_nat n) 1 m = zseq x 1 (n + m)).
  { induction n as [|n IH]; intros m x; [cbn; now rewrite Z.add_0_r|].
    cbn [zseq app Nat.add]. f_equal. rewrite <- IH. f_equal. f_equal. lia. }
  replace (zseq b 1 (Z.to_nat (c - b))) with (zseq (a + Z.of_nat (Z.to_nat (b - a))) 1 (Z.to_nat (c - b)))
    by (f_equal; lia).
  rewrite K. f_equal. lia.
Qed.

Lemma NoDup_app_remove_r : forall {A} (l l' : list A), NoDup (l ++ l') -> NoDup l.
Proof.
  induction l as [|x l IH]; intros l' H; [constructor|]. cbn in H. inversion H; subst. constructor.
  - intros K. match goal with N : ~ In _ _ |- _ => apply N end. apply in_or_app. now left.
  - now apply (IH l').
Qed.

Lemma nth_error_skipn : forall {A} (l : list A) k b, nth_error l k = Some b -> exists bs, skipn k l = b :: bs.
Proof.
  induction l as [|x l IH]; intros k b E; destruct k as [|k]; cbn in *; try discriminate.
  - exists l. congruence.
  - now apply IH.
Qed.

Lemma nth_error_firstn : forall {A} (l : list A) k b, nth_error l k = Some b -> firstn (S k) l = firstn k l ++ [b].
Proof.
  induction l as [|x l IH]; intros k b E; destruct k as [|k]; [discriminate|discriminate| |].
  - cbn in *. congruence.
  - change (x :: firstn (S k) l = (x :: firstn k l) ++ [b]). cbn [app]. f_equal. apply IH. exact E.
Qed.

Lemma load_torn : forall f start stop k j others listing,
  start + Z.of_nat k * year < stop ->
  (forall e, In e others -> exists i, fst e = Unmatched i) ->
  NoDup (map fst others) ->
  Permutation listing (carry_out f [] (Stopped start stop k (Some j)) ++ others) ->
  let stop' := Z.min stop (start + (Z.of_nat k + 1) * year) in
  load_precomputed_data listing =
  Ok (map f (arange start (Z.min stop' (start + Z.of_nat k * year + Z.of_nat j)) 1), arange start stop' 1).
Proof.
  intros f start stop k j others listing Hk Ho Hno Hp stop'.
  set (b := arange (start + Z.of_nat k * year) stop' 1).
  assert (Eb : nth_error (blocks start stop) k = Some b) by (apply blocks_nth; split; [exact Hk|reflexivity]).
  assert (Lb : start + Z.of_nat k * year < stop') by (unfold stop', year in *; lia).
  destruct (nth_error_skipn _ _ _ Eb) as [bs Es].
  pose proof (nth_error_firstn _ _ _ Eb) as Ef.
  assert (Nb : NoDup (map fst (map (entry f) (firstn k (blocks start stop) ++ [b])))).
  { rewrite <- Ef. pose proof (block_names_NoDup f start stop) as N.
    rewrite <- (firstn_skipn (S k) (blocks start stop)), !map_app in N.
    apply NoDup_app_remove_r in N. exact N. }
  (* the directory *)
  set (d := carry_out f [] (Stopped start stop k (Some j))) in *.
  assert (Hd : NoDup (map fst d) /\
               forall e, In e d <-> In e (map (entry f) (firstn k (blocks start stop))) \/
                                    e = (Block (hd 0 b) (last b 0), firstn j (map f b))).
  { unfold d. cbn [carry_out]. unfold ecliptic_longitude_stopped. fold (blocks start stop). cbv zeta.
    rewrite Es. destruct (fold_write f (firstn k (blocks start stop)) []) as [A [B [_ D]]]; [constructor|].
    split; [apply write_names; exact A|].
    intros e. unfold ecliptic_longitude_block. rewrite write_In by exact A. split.
    - intros [->|[H _]]; [now right|]. destruct (B e H) as [K|[[] _]]. now left.
    - intros [H| ->]; [|now left]. right. rewrite !map_app in Nb. split.
      + apply D; [|exact H]. apply NoDup_app_remove_r in Nb. exact Nb.
      + intros E. apply NoDup_remove_2 in Nb. apply Nb. rewrite app_nil_r. cbn [entry fst].
        change (fst (entry f b)) with (Block (hd 0 b) (last b 0)). rewrite <- E. now apply in_map. }
  destruct Hd as [Hdn Hd].
  assert (Hin : forall e, In e listing <-> In e d \/ In e others).
  { intros e. rewrite <- in_app_iff. split; apply Permutation_in; [|symmetry]; exact Hp. }
  assert (Hblk : forall e, In e d -> exists s t c, e = (Block s t, c)).
  { intros e He. apply Hd in He. destruct He as [He| ->].
    - apply in_map_iff in He. destruct He as [b' [<- _]]. unfold entry. eauto.
    - eauto. }
  destruct (matching_Ok listing) as [fs [E [I N]]].
  { intros i c Hf. apply Hin in Hf. destruct Hf as [Hf|Hf].
    - destruct (Hblk _ Hf) as [s [t [c' K]]]. discriminate.
    - apply Ho in Hf. destruct Hf as [i' K]. discriminate. }
  assert (HL : StronglySorted starts_lt (torn_files f start stop k j b)).
  { unfold torn_files.
    assert (G : StronglySorted (fun x y : list Z => hd 0 x < hd 0 y) (firstn k (blocks start stop) ++ [b])).
    { rewrite <- Ef. apply sorted_by_nth. intros i i' x y Hi Hx Hy.
      assert (Hi' : (i' < S k)%nat).
      { assert (H : (i' < length (firstn (S k) (blocks start stop)))%nat) by (apply nth_error_Some; congruence).
        rewrite firstn_length in H. lia. }
      rewrite nth_error_firstn_lt in Hx, Hy by lia.
      apply blocks_nth in Hx. apply blocks_nth in Hy. destruct Hx as [Lx ->], Hy as [Ly ->].
      destruct (arange_name (start + Z.of_nat i * year) (Z.min stop (start + (Z.of_nat i + 1) * year))) as [-> _];
        [unfold year in *; lia|].
      destruct (arange_name (start + Z.of_nat i' * year) (Z.min stop (start + (Z.of_nat i' + 1) * year))) as [-> _];
        [unfold year in *; lia|]. unfold year. lia. }
    clear - G. induction (firstn k (blocks start stop)) as [|x l IH]; cbn in G |- *.
    - constructor; constructor.
    - inversion G as [|? ? G1 G2]; subst. constructor; [now apply IH|].
      rewrite Forall_forall in *. intros y Hy. apply in_app_or in Hy. destruct Hy as [Hy|[<-|[]]].
      + apply in_map_iff in Hy. destruct Hy as [b' [<- Hb']]. unfold starts_lt. cbn [fst].
        apply G2. apply in_or_app. now left.
      + unfold starts_lt. cbn [fst]. apply G2. apply in_or_app. right. now left. }
  assert (Hfs : Permutation fs (torn_files f start stop k j b)).
  { apply NoDup_Permutation.
    - apply (NoDup_map_inv fst). apply N.
      apply (Permutation_NoDup (l := map fst (d ++ others))).
      + symmetry. now apply Permutation_map.
      + rewrite map_app. clear - Hdn Hno Ho Hblk. induction d as [|e d IH]; [exact Hno|].
        cbn in Hdn |- *. inversion Hdn; subst. constructor.
        * intros K. apply in_app_or in K. destruct K as [K|K]; [contradiction|].
          apply in_map_iff in K. destruct K as [o [E Ko]]. apply Ho in Ko. destruct Ko as [i Ei].
          destruct (Hblk e (or_introl eq_refl)) as [s [t [c ->]]]. rewrite E in Ei. discriminate.
        * apply IH; [assumption|]. intros e' He'. apply Hblk. now right.
    - clear - HL. induction HL as [|x l H IH F]; constructor; [|exact IH].
      intros K. rewrite Forall_forall in F. specialize (F x K). unfold starts_lt in F. lia.
    - intros [[s t] c]. rewrite I, Hin. unfold torn_files. rewrite in_app_iff, in_map_iff. split.
      + intros [H|H].
        * apply Hd in H. destruct H as [H|H].
          { apply in_map_iff in H. destruct H as [b' [E' Hb']]. left. exists b'. unfold entry in E'.
            split; [congruence|exact Hb']. }
          { right. left. congruence. }
        * apply Ho in H. destruct H as [i K]. discriminate.
      + intros [[b' [E' Hb']]|[E'|[]]]; left; apply Hd.
        * left. apply in_map_iff. exists b'. unfold entry. split; [congruence|exact Hb'].
        * right. congruence. }
  unfold load_precomputed_data. rewrite E. cbn [bind]. rewrite (sort_unique _ _ Hfs HL).
  assert (M : forall l : list (Z * Z * list Z), l <> [] ->
    match l with [] => Raise ValueError
    | x :: l' => Ok (concat (map snd (x :: l')),
                     concat (map (fun g => arange (fst (fst g)) (snd (fst g) + 1) 1) (x :: l'))) end =
    Ok (concat (map snd l), concat (map labels l))) by (intros [|x l] H; [congruence|reflexivity]).
  etransitivity; [apply M; unfold torn_files; destruct (firstn k (blocks start stop)); discriminate|].
  unfold torn_files. rewrite !map_app, !concat_app, !map_map. cbn [map concat snd]. rewrite !app_nil_r.
  f_equal. f_equal.
  - assert (Ev : concat (map (fun x : list Z => map f x) (firstn k (blocks start stop))) =
                 map f (concat (firstn k (blocks start stop)))) by (rewrite concat_map; reflexivity).
    etransitivity; [apply f_equal2; [exact Ev|reflexivity]|].
    rewrite concat_blocks, firstn_map, <- map_app. f_equal.
    unfold b. rewrite !arange_1, zseq_firstn, <- !arange_1.
    replace (zseq (start + Z.of_nat k * year) 1 (Nat.min j (Z.to_nat (stop' - (start + Z.of_nat k * year)))))
      with (arange (start + Z.of_nat k * year) (Z.min stop' (start + Z.of_nat k * year + Z.of_nat j)) 1)
      by (rewrite arange_1; f_equal; lia).
    rewrite Z.min_r by lia. apply arange_app; unfold year in *; lia.
  - assert (El : concat (map (fun x : list Z => labels (hd 0 x, last x 0, map f x)) (firstn k (blocks start stop))) =
                 concat (firstn k (blocks start stop))).
    { f_equal. rewrite <- (map_id (firstn k (blocks start stop))) at 2. apply map_ext_in. intros x Hx.
      assert (Hx' : In x (blocks start stop))
        by (rewrite <- (firstn_skipn k); apply in_or_app; now left).
      apply In_nth_error in Hx'. destruct Hx' as [i Hi]. apply blocks_nth in Hi. destruct Hi as [Li ->].
      unfold labels. cbn [fst snd].
      destruct (arange_name (start + Z.of_nat i * year) (Z.min stop (start + (Z.of_nat i + 1) * year))) as [-> ->];
        [unfold year in *; lia|]. f_equal. lia. }
    etransitivity; [apply f_equal2; [exact El|reflexivity]|].
    rewrite concat_blocks. unfold labels. cbn [fst snd]. unfold b.
    destruct (arange_name (start + Z.of_nat k * year) stop' Lb) as [-> ->].
    rewrite Z.sub_add, Z.min_r by lia. apply arange_app; unfold year in *; lia.
Qed.

(** A range of at most a year is one block. *)
Lemma short_blocks : forall start stop, start < stop <= start + year ->
  partition_all BLOCK (arange start stop 1) = [arange start stop 1].
Proof.
  intros start stop H. fold (blocks start stop).
  assert (E0 : nth_error (blocks start stop) 0 = Some (arange start stop 1)).
  { apply blocks_nth. split; [unfold year in *; lia|]. f_equal; unfold year in *; lia. }
  destruct (blocks start stop) as [|b [|b' bs]] eqn:E; [discriminate| |].
  - cbn in E0. congruence.
  - exfalso. assert (E1 : nth_error (blocks start stop) 1 = Some b') by (rewrite E; reflexivity).
    apply blocks_nth in E1. unfold year in *. lia.
Qed.
