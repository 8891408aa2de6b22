(** Lemmas on the model of etc/lunisolar. *)
From Coq Require Import ZArith List Bool Lia Sorted.
From Verif.Spec Require Import Ephemeris.
From Verif.Model Require Import Base Helpers Dates Zone Lunisolar.
From Verif.Proofs Require Import BaseLemmas.
Import ListNotations.
Open Scope Z_scope.

(** ** Local extrema *)

Lemma samples_S : forall n f, samples (S n) f = samples n f ++ [f n].
Proof. intros n f. unfold samples. rewrite seq_S, map_app. reflexivity. Qed.
Lemma samples_cons : forall n f, samples (S n) f = f 0%nat :: samples n (fun i => f (S i)).
Proof. intros n f. unfold samples. simpl. f_equal. rewrite <- seq_shift, map_map. reflexivity. Qed.
Lemma samples_map : forall (g : Z -> Z) n f, map g (samples n f) = samples n (fun i => g (f i)).
Proof. intros g n f. unfold samples. rewrite map_map. reflexivity. Qed.
Lemma samples_length : forall n f, length (samples n f) = n.
Proof. intros n f. unfold samples. rewrite map_length, seq_length. reflexivity. Qed.

Definition bsamples (n : nat) (f : nat -> bool) : list bool := map f (seq 0 n).
Lemma bsamples_S : forall n f, bsamples (S n) f = bsamples n f ++ [f n].
Proof. intros n f. unfold bsamples. rewrite seq_S, map_app. reflexivity. Qed.
Lemma bsamples_cons : forall n f, bsamples (S n) f = f 0%nat :: bsamples n (fun i => f (S i)).
Proof. intros n f. unfold bsamples. simpl. f_equal. rewrite <- seq_shift, map_map. reflexivity. Qed.

Lemma map2_map : forall {A B C D} (f : A -> B -> C) (g : D -> A) (h : D -> B) l,
  map2 f (map g l) (map h l) = map (fun x => f (g x) (h x)) l.
Proof. induction l as [|x l IH]; simpl; [reflexivity|]. rewrite IH. reflexivity. Qed.

Lemma flatnonzero_from_map : forall f n i,
  flatnonzero_from i (map f (seq i n)) = filter f (seq i n).
Proof.
  induction n as [|n IH]; intros i; simpl; [reflexivity|]. rewrite IH. destruct (f i); reflexivity.
Qed.
Lemma flatnonzero_samples : forall n f, flatnonzero (bsamples n f) = filter f (seq 0 n).
Proof. intros n f. apply flatnonzero_from_map. Qed.

Lemma removelast_samples : forall n f, removelast (samples (S n) f) = samples n f.
Proof. intros n f. rewrite samples_S. apply removelast_last. Qed.
Lemma tl_samples : forall n f, tl (samples (S n) f) = samples n (fun i => f (S i)).
Proof. intros n f. rewrite samples_cons. reflexivity. Qed.

Definition extremum (f : Z -> Z -> bool) (n : nat) (g : nat -> Z) (i : nat) : bool :=
  ((0 <? i)%nat && f (g i) (g (i - 1)%nat)) && ((S i <? n)%nat && f (g i) (g (S i))).

Lemma local_cmp_samples : forall f n g,
  local_cmp f (samples n g) = filter (extremum f n g) (seq 0 n).
Proof.
  intros f [|n] g; [reflexivity|]. unfold local_cmp. rewrite tl_samples, removelast_samples.
  unfold samples at 1 2 3 4. rewrite !map2_map.
  fold (bsamples n (fun x => f (g (S x)) (g x))). fold (bsamples n (fun x => f (g x) (g (S x)))).
  set (p := fun i => match i with O => false | S j => f (g (S j)) (g j) end).
  set (q := fun i => if (i <? n)%nat then f (g i) (g (S i)) else false).
  replace (false :: bsamples n (fun x => f (g (S x)) (g x))) with (bsamples (S n) p)
    by (rewrite bsamples_cons; reflexivity).
  replace (bsamples n (fun x => f (g x) (g (S x))) ++ [false]) with (bsamples (S n) q).
  2:{ rewrite bsamples_S. unfold q at 2. rewrite Nat.ltb_irrefl. f_equal. unfold bsamples. apply map_ext_in.
      intros i Hi. apply in_seq in Hi. unfold q. rewrite (proj2 (Nat.ltb_lt i n)) by lia. reflexivity. }
  unfold bsamples. rewrite map2_map. fold (bsamples (S n) (fun x => p x && q x)).
  rewrite flatnonzero_samples. apply filter_ext_in. intros i Hi. unfold extremum, p, q.
  change (S i <? S n)%nat with (i <? n)%nat.
  destruct i as [|j]; [reflexivity|]. replace (S j - 1)%nat with j by lia.
  change (0 <? S j)%nat with true. simpl. destruct (S j <? n)%nat; reflexivity.
Qed.

Lemma extremum_iff : forall f n g i, extremum f n g i = true <->
  inside n i /\ f (g i) (g (i - 1)%nat) = true /\ f (g i) (g (S i)) = true.
Proof.
  intros f n g i. unfold extremum, inside. rewrite !andb_true_iff, !Nat.ltb_lt. tauto.
Qed.

Lemma seq_sorted : forall n i, StronglySorted lt (seq i n).
Proof.
  induction n as [|n IH]; intros i; simpl; constructor; [apply IH|].
  apply Forall_forall. intros j H. apply in_seq in H. lia.
Qed.
Lemma filter_sorted : forall {A} (R : A -> A -> Prop) p l, StronglySorted R l -> StronglySorted R (filter p l).
Proof.
  intros A R p l H. induction H as [|x l S IH F]; simpl; [constructor|].
  destruct (p x); [|exact IH]. constructor; [exact IH|]. rewrite Forall_forall in *. intros y Hy.
  apply filter_In in Hy. apply F. exact (proj1 Hy).
Qed.

Lemma take_samples : forall n label ix, (forall i, In i ix -> (i < n)%nat) ->
  take (samples n label) ix = map label ix.
Proof.
  intros n label ix H. unfold take. apply map_ext_in. intros i Hi. unfold samples.
  rewrite (nth_indep _ 0 (label 0%nat)) by (rewrite map_length, seq_length; apply H, Hi).
  rewrite map_nth, seq_nth by (apply H, Hi). reflexivity.
Qed.

(** ** Steady motion *)

Lemma moves_lt : forall d n u, moves d n u -> forall i j, (i < j)%nat -> (j < n)%nat -> u i < u j.
Proof.
  intros d n u M i j H. induction H as [|j H IH]; intros L.
  - specialize (M i L). lia.
  - specialize (IH ltac:(lia)). specialize (M j L). lia.
Qed.

(** Nearer than both neighbours is nearer than all. *)
Lemma nearest_neighbours : forall d n u i x, moves d n u -> inside n i ->
  (nearest n u i x <-> Z.abs (u i - x) < Z.abs (u (i - 1)%nat - x) /\ Z.abs (u i - x) < Z.abs (u (S i) - x)).
Proof.
  intros d n u i x M [I1 I2]. split.
  - intros N. split; apply N; lia.
  - intros [A B] j Hj Nj. pose proof (moves_lt d n u M) as L.
    assert (L1 : u (i - 1)%nat < u i) by (apply L; lia). assert (L2 : u i < u (S i)) by (apply L; lia).
    destruct (Nat.lt_trichotomy j i) as [C|[C|C]]; [|contradiction|].
    + assert (u j <= u (i - 1)%nat).
      { destruct (Nat.eq_dec j (i - 1)) as [->|D]; [lia|]. specialize (L j (i - 1)%nat). lia. }
      lia.
    + assert (u (S i) <= u j).
      { destruct (Nat.eq_dec j (S i)) as [->|D]; [lia|]. specialize (L (S i) j). lia. }
      lia.
Qed.

(** ** A sun that passes a longitude *)

Lemma passage : forall T d p a b c, 0 < T -> 2 * d <= p -> 2 * d <= T - p ->
  0 < b - a < d -> 0 < c - b < d ->
  (Z.abs (b mod T - p) < Z.abs (a mod T - p) /\ Z.abs (b mod T - p) < Z.abs (c mod T - p) <->
   exists k, Z.abs (b - (p + k * T)) < Z.abs (a - (p + k * T)) /\ Z.abs (b - (p + k * T)) < Z.abs (c - (p + k * T))).
Proof.
  intros T d p a b c HT Hp Hq Hab Hbc.
  pose proof (Z.div_mod b T ltac:(lia)) as Eb. pose proof (Z.mod_pos_bound b T HT) as Bb.
  set (k := b / T) in *. set (y := b mod T) in *.
  assert (Ea : a mod T = (if y - (b - a) <? 0 then y - (b - a) + T else y - (b - a))).
  { destruct (Z.ltb_spec (y - (b - a)) 0).
    - symmetry. apply (Z.mod_unique_pos a T (k - 1)); lia.
    - symmetry. apply (Z.mod_unique_pos a T k); lia. }
  assert (Ec : c mod T = (if T <=? y + (c - b) then y + (c - b) - T else y + (c - b))).
  { destruct (Z.leb_spec T (y + (c - b))).
    - symmetry. apply (Z.mod_unique_pos c T (k + 1)); lia.
    - symmetry. apply (Z.mod_unique_pos c T k); lia. }
  rewrite Ea, Ec. split.
  - intros H. exists k. destruct (Z.ltb_spec (y - (b - a)) 0), (Z.leb_spec T (y + (c - b))); lia.
  - intros [k' H].
    assert (K : k' = k) by nia. subst k'.
    destruct (Z.ltb_spec (y - (b - a)) 0), (Z.leb_spec T (y + (c - b))); lia.
Qed.

Lemma passage_zero : forall T d a b c, 0 < T -> 2 * d <= T ->
  0 < b - a < d -> 0 < c - b < d ->
  (Z.abs (b mod T - 0) < Z.abs (a mod T - 0) /\ Z.abs (b mod T - 0) < Z.abs (c mod T - 0) <->
   exists k, a < k * T <= b).
Proof.
  intros T d a b c HT Hd Hab Hbc.
  pose proof (Z.div_mod b T ltac:(lia)) as Eb. pose proof (Z.mod_pos_bound b T HT) as Bb.
  set (k := b / T) in *. set (y := b mod T) in *.
  assert (Ea : a mod T = (if y - (b - a) <? 0 then y - (b - a) + T else y - (b - a))).
  { destruct (Z.ltb_spec (y - (b - a)) 0).
    - symmetry. apply (Z.mod_unique_pos a T (k - 1)); lia.
    - symmetry. apply (Z.mod_unique_pos a T k); lia. }
  assert (Ec : c mod T = (if T <=? y + (c - b) then y + (c - b) - T else y + (c - b))).
  { destruct (Z.leb_spec T (y + (c - b))).
    - symmetry. apply (Z.mod_unique_pos c T (k + 1)); lia.
    - symmetry. apply (Z.mod_unique_pos c T k); lia. }
  rewrite Ea, Ec. split.
  - intros H. exists k. destruct (Z.ltb_spec (y - (b - a)) 0), (Z.leb_spec T (y + (c - b))); lia.
  - intros [k' H]. assert (K : k' = k) by nia. subst k'.
    destruct (Z.ltb_spec (y - (b - a)) 0), (Z.leb_spec T (y + (c - b))); lia.
Qed.

(** ** The moon passing the sun *)

Lemma apart_lead : forall T s l, 0 < T ->
  s mod T - l mod T = - (l - s - (l / T - s / T) * T).
Proof.
  intros T s l HT. pose proof (Z.div_mod s T ltac:(lia)). pose proof (Z.div_mod l T ltac:(lia)). lia.
Qed.
Lemma apart_abs : forall T s l k, 0 < T -> l / T = s / T + k -> Z.abs (s mod T - l mod T) = Z.abs (l - s - k * T).
Proof.
  intros T s l k HT H. rewrite (apart_lead T s l HT), H. replace (s / T + k - s / T) with k by lia.
  rewrite Z.abs_opp. reflexivity.
Qed.

Lemma div_at : forall T x m, 0 < T -> m * T <= x < (m + 1) * T -> x / T = m.
Proof. intros T x m HT H. symmetry. apply (Z.div_unique_pos x T m (x - m * T)); lia. Qed.
