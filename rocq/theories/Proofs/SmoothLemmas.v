(** Lemmas on the rolling mean. *)
From Coq Require Import ZArith QArith Qfield List Bool Lia Lqa.
From Verif.Spec Require Import TimeScale.
From Verif.Model Require Import Base Lunisolar Terrestrial.
From Verif.Proofs Require Import LunisolarLemmas.
Import ListNotations.
Open Scope nat_scope.

(** ** Sums *)

Lemma sum_from_skip : forall l i n, (sum_from l (S i) n + nth i l 0 == sum_from l i n + nth (i + n) l 0)%Q.
Proof.
  intros l i n. revert i. induction n as [|n IH]; intros i; cbn [sum_from].
  - rewrite Nat.add_0_r. reflexivity.
  - replace (i + S n) with (S i + n) by lia. pose proof (IH (S i)) as E. lra.
Qed.

Lemma sum_from_cons : forall x l i n, sum_from (x :: l) (S i) n = sum_from l i n.
Proof. intros x l i n. revert i. induction n as [|n IH]; intros i; cbn [sum_from nth]; [reflexivity|]. rewrite IH. reflexivity. Qed.

Lemma sum_from_skipn : forall k l i n, sum_from (skipn k l) i n = sum_from l (k + i) n.
Proof.
  induction k as [|k IH]; intros l i n; [reflexivity|]. destruct l as [|x l].
  - cbn [skipn]. revert i. induction n as [|n IHn]; intros i; cbn [sum_from]; [reflexivity|].
    rewrite IHn. replace (S k + S i) with (S (S k + i)) by lia. 
    replace (nth i [] 0%Q) with (nth (S k + i) [] 0%Q); [reflexivity|].
    rewrite (nth_overflow [] 0%Q (n := i)) by (cbn; lia). apply nth_overflow. cbn; lia.
  - cbn [skipn]. rewrite IH. change (S k + i) with (S (k + i)). rewrite sum_from_cons. reflexivity.
Qed.

Lemma dot_repeat : forall c n l, n <= length l -> (dot l (repeat c n) == sum_from l 0 n * c)%Q.
Proof.
  intros c n l. revert n. induction l as [|x l IH]; intros n H.
  - destruct n; [|cbn in H; lia]. cbn. ring.
  - destruct n as [|n]; cbn [repeat sum_from]; [unfold dot; cbn; ring|]. unfold dot in *. cbn [map2 fold_right nth].
    rewrite IH by (cbn in H; lia). rewrite sum_from_cons. ring.
Qed.

Lemma dot_repeat_l : forall c v n, length v <= n -> (dot (repeat c n) v == sum_from v 0 (length v) * c)%Q.
Proof.
  intros c v. induction v as [|x v IH]; intros n H.
  - destruct n; cbn; ring.
  - destruct n as [|n]; [cbn in H; lia|]. cbn [repeat length sum_from]. unfold dot in *. cbn [map2 fold_right nth].
    rewrite IH by (cbn in H; lia). rewrite sum_from_cons. ring.
Qed.

Lemma sum_from_app : forall l l', (sum_from (l ++ l') 0 (length (l ++ l')) ==
  sum_from l 0 (length l) + sum_from l' 0 (length l'))%Q.
Proof.
  induction l as [|x l IH]; intros l'; cbn [app length sum_from nth].
  - ring.
  - rewrite !sum_from_cons. rewrite IH. ring.
Qed.

Lemma sum_from_rev : forall l, (sum_from (rev l) 0 (length l) == sum_from l 0 (length l))%Q.
Proof.
  induction l as [|x l IH]; [reflexivity|]. cbn [rev]. rewrite <- (rev_length (x :: l)). cbn [rev].
  rewrite sum_from_app. rewrite rev_length. rewrite IH. rewrite app_length, rev_length. cbn [length sum_from nth].
  replace (length l + 1) with (S (length l)) by lia. cbn [sum_from nth]. rewrite sum_from_cons. ring.
Qed.

Lemma skipn_repeat : forall {A} (c : A) n k, skipn k (repeat c n) = repeat c (n - k).
Proof.
  intros A c n k. revert n. induction k as [|k IH]; intros [|n]; try reflexivity.
  cbn [repeat skipn]. rewrite IH. reflexivity.
Qed.

Lemma rev_repeat : forall {A} (c : A) n, rev (repeat c n) = repeat c n.
Proof.
  intros A c n. induction n as [|n IH]; [reflexivity|]. cbn [repeat rev]. rewrite IH.
  symmetry. apply repeat_cons.
Qed.

(** ** The mean *)

Definition unit (w : nat) : Q := (1 / inject_Z (Z.of_nat w))%Q.

Lemma kernel : forall w, map (fun x => x / inject_Z (Z.of_nat w))%Q (repeat 1%Q w) = repeat (unit w) w.
Proof.
  intros w. unfold unit. generalize (Z.of_nat w). intros z.
  induction w as [|w IH]; [reflexivity|]. cbn [repeat map]. f_equal. exact IH.
Qed.

Lemma unit_mult : forall x w, (x * unit w == x / inject_Z (Z.of_nat w))%Q.
Proof. intros x w. unfold unit, Qdiv. ring. Qed.

Lemma smooth_nat : forall arr w, smooth arr (Z.of_nat w) = convolve_valid (repeat (unit w) w) arr.
Proof.
  intros arr w. unfold smooth. replace (Z.ltb (Z.of_nat w) 0) with false by (symmetry; apply Z.ltb_ge; lia).
  rewrite Nat2Z.id, kernel. reflexivity.
Qed.

Lemma smooth_short_window : forall arr w, 1 <= w <= length arr -> exists out, smooth arr (Z.of_nat w) = Ok out /\
  length out = length arr - w + 1 /\ forall k, k < length out -> (nth k out 0 == mean arr k w)%Q.
Proof.
  intros arr w H. rewrite smooth_nat. unfold convolve_valid. rewrite repeat_length.
  destruct (Nat.ltb w (length arr)) eqn:L.
  - apply Nat.ltb_lt in L. destruct arr as [|a arr]; [cbn in H; lia|]. destruct w as [|w]; [lia|].
    cbn [repeat]. eexists. split; [reflexivity|].
    change (unit (S w) :: repeat (unit (S w)) w) with (repeat (unit (S w)) (S w)).
    rewrite rev_repeat. unfold correlate_valid. rewrite map_length, seq_length, repeat_length.
    split; [lia|]. intros k Hk.
    rewrite (nth_indep _ 0%Q (dot (skipn 0 (a :: arr)) (repeat (unit (S w)) (S w)))) by (rewrite map_length, seq_length; lia).
    rewrite (map_nth (fun k => dot (skipn k (a :: arr)) (repeat (unit (S w)) (S w)))), seq_nth by lia.
    cbn [plus]. rewrite dot_repeat by (rewrite skipn_length; lia).
    rewrite sum_from_skipn, Nat.add_0_r. unfold mean. apply unit_mult.
  - apply Nat.ltb_ge in L. assert (E : length arr = w) by lia.
    destruct arr as [|a arr]; [cbn in H; lia|]. destruct w as [|w]; [lia|].
    cbn [repeat]. eexists. split; [reflexivity|].
    change (unit (S w) :: repeat (unit (S w)) w) with (repeat (unit (S w)) (S w)).
    unfold correlate_valid. rewrite map_length, seq_length, rev_length, repeat_length, E, Nat.sub_diag.
    split; [reflexivity|]. intros k Hk. assert (k = 0) by lia. subst k. cbn [seq map nth skipn].
    rewrite dot_repeat_l by (rewrite rev_length; lia). rewrite rev_length, sum_from_rev. rewrite E.
    unfold mean. apply unit_mult.
Qed.

Lemma smooth_long_window : forall arr w, arr <> [] -> length arr < w -> exists out, smooth arr (Z.of_nat w) = Ok out /\
  length out = w - length arr + 1 /\
  forall k, k < length out -> (nth k out 0 == sum_from arr 0 (length arr) / inject_Z (Z.of_nat w))%Q.
Proof.
  intros arr w N H. rewrite smooth_nat. unfold convolve_valid. rewrite repeat_length.
  replace (Nat.ltb w (length arr)) with false by (symmetry; apply Nat.ltb_ge; lia).
  destruct arr as [|a arr]; [congruence|]. destruct w as [|w]; [lia|].
  cbn [repeat]. eexists. split; [reflexivity|].
  change (unit (S w) :: repeat (unit (S w)) w) with (repeat (unit (S w)) (S w)).
  unfold correlate_valid. rewrite map_length, seq_length, rev_length, repeat_length.
  split; [lia|]. intros k Hk.
  rewrite (nth_indep _ 0%Q (dot (skipn 0 (repeat (unit (S w)) (S w))) (rev (a :: arr)))) by (rewrite map_length, seq_length; lia).
  rewrite (map_nth (fun k => dot (skipn k (repeat (unit (S w)) (S w))) (rev (a :: arr)))), seq_nth by lia.
  cbn [plus]. rewrite skipn_repeat, dot_repeat_l by (rewrite rev_length; lia).
  rewrite rev_length, sum_from_rev. apply unit_mult.
Qed.

Lemma mean_step : forall l i w, 1 <= w ->
  (mean l (S i) w == mean l i w + (nth (i + w) l 0 - nth i l 0) / inject_Z (Z.of_nat w))%Q.
Proof.
  intros l i w H. unfold mean. pose proof (sum_from_skip l i w) as E0.
  assert (E : (sum_from l (S i) w == sum_from l i w + (nth (i + w) l 0 - nth i l 0))%Q) by lra.
  rewrite E. unfold Qdiv. ring.
Qed.

Lemma inject_pos : forall w, 1 <= w -> (0 < inject_Z (Z.of_nat w))%Q.
Proof. intros w H. change 0%Q with (inject_Z 0). rewrite <- Zlt_Qlt. lia. Qed.

Lemma over_pos : forall x c, (0 < c)%Q -> ((0 < x / c)%Q <-> (0 < x)%Q).
Proof.
  intros x c H. unfold Qdiv. pose proof (Qinv_lt_0_compat c H) as I. split; intros P.
  - destruct (Qlt_le_dec 0 x) as [L|L]; [exact L|]. exfalso.
    assert (x * / c <= 0)%Q by (setoid_replace 0%Q with (0 * / c)%Q by ring; apply Qmult_le_compat_r; [exact L|apply Qlt_le_weak; exact I]).
    apply (Qlt_irrefl 0). eapply Qlt_le_trans; [exact P|assumption].
  - setoid_replace 0%Q with (0 * / c)%Q by ring. apply Qmult_lt_compat_r; assumption.
Qed.

(** The next window has a larger mean if the number that enters is larger than the
    one that leaves. *)
Lemma mean_up : forall l i w, 1 <= w -> ((mean l i w < mean l (S i) w)%Q <-> (nth i l 0 < nth (i + w) l 0)%Q).
Proof.
  intros l i w H. rewrite (mean_step l i w H).
  pose proof (over_pos (nth (i + w) l 0 - nth i l 0)%Q _ (inject_pos w H)) as [P Q].
  split; intros L.
  - assert (0 < nth (i + w) l 0 - nth i l 0)%Q by (apply P; lra). lra.
  - assert (0 < (nth (i + w) l 0 - nth i l 0) / inject_Z (Z.of_nat w))%Q by (apply Q; lra). lra.
Qed.
Lemma mean_down : forall l i w, 1 <= w -> ((mean l (S i) w < mean l i w)%Q <-> (nth (i + w) l 0 < nth i l 0)%Q).
Proof.
  intros l i w H. rewrite (mean_step l i w H).
  pose proof (over_pos (nth i l 0 - nth (i + w) l 0)%Q _ (inject_pos w H)) as [P Q].
  assert (E : ((nth i l 0 - nth (i + w) l 0) / inject_Z (Z.of_nat w) == - ((nth (i + w) l 0 - nth i l 0) / inject_Z (Z.of_nat w)))%Q)
    by (unfold Qdiv; ring).
  split; intros L.
  - assert (0 < nth i l 0 - nth (i + w) l 0)%Q by (apply P; rewrite E; lra). lra.
  - assert (0 < (nth i l 0 - nth (i + w) l 0) / inject_Z (Z.of_nat w))%Q by (apply Q; lra). rewrite E in H0. lra.
Qed.

Lemma sum_bounds : forall l lo hi i n, (forall x, In x l -> lo <= x <= hi)%Q -> i + n <= length l ->
  (inject_Z (Z.of_nat n) * lo <= sum_from l i n <= inject_Z (Z.of_nat n) * hi)%Q.
Proof.
  intros l lo hi i n B. revert i. induction n as [|n IH]; intros i H; cbn [sum_from].
  - change (inject_Z (Z.of_nat 0)) with 0%Q. lra.
  - specialize (IH (S i) ltac:(lia)). assert (N : (lo <= nth i l 0 <= hi)%Q) by (apply B, nth_In; lia).
    rewrite Nat2Z.inj_succ. unfold Z.succ. rewrite inject_Z_plus. change (inject_Z 1) with 1%Q. lra.
Qed.

Lemma mean_bounds : forall l lo hi i n, (forall x, In x l -> lo <= x <= hi)%Q -> 1 <= n -> i + n <= length l ->
  (lo <= mean l i n <= hi)%Q.
Proof.
  intros l lo hi i n B Hn H. pose proof (sum_bounds l lo hi i n B H) as [S1 S2].
  pose proof (inject_pos n Hn) as P. unfold mean. split.
  - apply Qle_shift_div_l; [exact P|]. rewrite Qmult_comm. exact S1.
  - apply Qle_shift_div_r; [exact P|]. rewrite Qmult_comm. exact S2.
Qed.

(** ** Local extrema of any array *)

Lemma map_nth_seq : forall {A} (d : A) l, map (fun i => nth i l d) (seq 0 (length l)) = l.
Proof.
  intros A d l. apply nth_ext with d d.
  - rewrite map_length, seq_length. reflexivity.
  - intros n H. rewrite map_length, seq_length in H.
    rewrite (nth_indep _ d (nth 0 l d)) by (rewrite map_length, seq_length; exact H).
    rewrite (map_nth (fun i => nth i l d)), seq_nth by exact H. reflexivity.
Qed.

Lemma local_cmp_nth : forall {A} (d : A) f l,
  local_cmp f l = filter (fun i => ((0 <? i) && f (nth i l d) (nth (i - 1) l d)) &&
                                   ((S i <? length l) && f (nth i l d) (nth (S i) l d))) (seq 0 (length l)).
Proof.
  intros A d f l. assert (C : l = [] \/ exists n, length l = S n) by (destruct l; [left|right; eexists]; reflexivity).
  destruct C as [->|[n Ln]]; [reflexivity|]. set (g := fun i => nth i l d).
  assert (T1 : tl l = map (fun i => g (S i)) (seq 0 n)).
  { rewrite <- (map_nth_seq d l) at 1. rewrite Ln. cbn [seq map tl]. rewrite <- seq_shift, map_map. reflexivity. }
  assert (T2 : removelast l = map g (seq 0 n)).
  { rewrite <- (map_nth_seq d l) at 1. rewrite Ln, seq_S, map_app. apply removelast_last. }
  unfold local_cmp. rewrite T1, T2, !map2_map.
  set (p := fun i => match i with O => false | S j => f (g (S j)) (g j) end).
  set (q := fun i => if (i <? n)%nat then f (g i) (g (S i)) else false).
  replace (false :: map (fun x => f (g (S x)) (g x)) (seq 0 n)) with (map p (seq 0 (S n))).
  2:{ cbn [seq map]. f_equal. rewrite <- seq_shift, map_map. reflexivity. }
  replace (map (fun x => f (g x) (g (S x))) (seq 0 n) ++ [false]) with (map q (seq 0 (S n))).
  2:{ rewrite seq_S, map_app. unfold q at 2. cbn [map plus]. rewrite Nat.ltb_irrefl. f_equal. apply map_ext_in.
      intros i Hi. apply in_seq in Hi. unfold q. rewrite (proj2 (Nat.ltb_lt i n)) by lia. reflexivity. }
  rewrite map2_map. unfold flatnonzero. rewrite flatnonzero_from_map. rewrite Ln. apply filter_ext_in. intros i Hi.
  unfold p, q. change (S i <? S n) with (i <? n). destruct i as [|i].
  - reflexivity.
  - change (0 <? S i) with true. replace (S i - 1) with i by lia. cbn [andb].
    destruct (S i <? n); reflexivity.
Qed.

Lemma local_cmp_In : forall {A} (d : A) f l i, In i (local_cmp f l) <->
  0 < i /\ S i < length l /\ f (nth i l d) (nth (i - 1) l d) = true /\ f (nth i l d) (nth (S i) l d) = true.
Proof.
  intros A d f l i. rewrite (local_cmp_nth d), filter_In, in_seq, !andb_true_iff, !Nat.ltb_lt. split.
  - intros (H1 & (H2 & H3) & H4 & H5). auto.
  - intros (H1 & H2 & H3 & H4). repeat split; auto; lia.
Qed.
