(** Lemmas about the Python / numpy primitives. *)
From Coq Require Import ZArith List Bool Lia Sorting.Sorted Arith.
From Verif.Model Require Import Base.
Import ListNotations.
Open Scope Z_scope.

Lemma zlen_nonneg : forall {A} (l : list A), 0 <= zlen l.
Proof. intros; unfold zlen; lia. Qed.

Lemma zlen_app : forall {A} (l1 l2 : list A), zlen (l1 ++ l2) = zlen l1 + zlen l2.
Proof. intros; unfold zlen; rewrite app_length; lia. Qed.

Lemma zlen_cons : forall {A} (x : A) l, zlen (x :: l) = zlen l + 1.
Proof. intros; unfold zlen; simpl; lia. Qed.

Lemma zlen_map : forall {A B} (f : A -> B) l, zlen (map f l) = zlen l.
Proof. intros; unfold zlen; rewrite map_length; lia. Qed.

Lemma zlen_nil_inv : forall {A} (l : list A), zlen l = 0 -> l = [].
Proof. intros A [|x l] H; [reflexivity|]. unfold zlen in H; simpl in H; lia. Qed.

(** ** Indexing *)

Lemma pyget_app_mid : forall {A} (l1 l2 : list A) x,
  pyget (l1 ++ x :: l2) (zlen l1) = Ok x.
Proof.
  intros. unfold pyget.
  pose proof (zlen_nonneg l1).
  destruct (zlen l1 <? 0) eqn:E; [lia|].
  destruct (zlen l1 <? 0) eqn:E2; [lia|].
  unfold zlen. rewrite Nat2Z.id.
  rewrite nth_error_app2 by lia. rewrite Nat.sub_diag. reflexivity.
Qed.

Lemma pyget_end : forall {A} (l : list A), pyget l (zlen l) = Raise IndexError.
Proof.
  intros. unfold pyget. pose proof (zlen_nonneg l).
  destruct (zlen l <? 0) eqn:E; [lia|]. rewrite E.
  unfold zlen. rewrite Nat2Z.id.
  destruct (nth_error l (length l)) eqn:E1; [|reflexivity].
  exfalso. assert (nth_error l (length l) <> None) by congruence.
  apply nth_error_Some in H0. lia.
Qed.

Lemma pyget_ge : forall {A} (l : list A) i, zlen l <= i -> pyget l i = Raise IndexError.
Proof.
  intros. unfold pyget. pose proof (zlen_nonneg l).
  destruct (i <? 0) eqn:E; [lia|]. rewrite E.
  destruct (nth_error l (Z.to_nat i)) eqn:E1; [|reflexivity].
  exfalso. assert (nth_error l (Z.to_nat i) <> None) by congruence.
  apply nth_error_Some in H1. unfold zlen in *. lia.
Qed.

Lemma pyget_map : forall {A B} (f : A -> B) l i,
  pyget (map f l) i =
  match pyget l i with Ok a => Ok (f a) | Raise e => Raise e end.
Proof.
  intros. unfold pyget. rewrite zlen_map.
  set (j := if i <? 0 then i + zlen l else i).
  destruct (j <? 0); [reflexivity|].
  rewrite nth_error_map; destruct (nth_error l (Z.to_nat j)); reflexivity.
Qed.

Lemma pyget_last : forall {A} (l : list A) x, pyget (l ++ [x]) (-1) = Ok x.
Proof.
  intros. unfold pyget. change (-1 <? 0) with true. cbv iota.
  replace (-1 + zlen (l ++ [x])) with (zlen l)
    by (rewrite zlen_app; change (zlen [x]) with 1; lia).
  pose proof (zlen_nonneg l).
  destruct (zlen l <? 0) eqn:E; [lia|].
  unfold zlen. rewrite Nat2Z.id. rewrite nth_error_app2 by lia.
  rewrite Nat.sub_diag. reflexivity.
Qed.

Lemma pyget_Ok_split : forall {A} (l : list A) i x, 0 <= i ->
  pyget l i = Ok x -> exists l1 l2, l = l1 ++ x :: l2 /\ zlen l1 = i.
Proof.
  intros A l i x Hi H. unfold pyget in H.
  destruct (i <? 0) eqn:E; [lia|]. rewrite E in H.
  destruct (nth_error l (Z.to_nat i)) eqn:E1; [|discriminate].
  injection H as <-. apply nth_error_split in E1.
  destruct E1 as [l1 [l2 [-> Hl]]]. exists l1, l2. split; [reflexivity|].
  unfold zlen. lia.
Qed.

(** ** Slicing *)

Lemma clamp_id : forall n i, 0 <= i <= n -> clamp n i = i.
Proof. intros. unfold clamp. destruct (i <? 0) eqn:E; lia. Qed.

Lemma clamp_range : forall n i, 0 <= n -> 0 <= clamp n i <= n.
Proof. intros. unfold clamp. destruct (i <? 0) eqn:E; lia. Qed.

Lemma pyslice_app3 : forall {A} (l1 l2 l3 : list A),
  pyslice (l1 ++ l2 ++ l3) (zlen l1) (zlen l1 + zlen l2) = l2.
Proof.
  intros. unfold pyslice.
  pose proof (zlen_nonneg l1). pose proof (zlen_nonneg l2). pose proof (zlen_nonneg l3).
  rewrite !zlen_app.
  rewrite !clamp_id by lia.
  replace (zlen l1 + zlen l2 - zlen l1) with (zlen l2) by lia.
  unfold zlen. rewrite !Nat2Z.id.
  rewrite skipn_app, skipn_all, Nat.sub_diag, skipn_O. simpl.
  rewrite firstn_app, firstn_all, Nat.sub_diag, firstn_O. apply app_nil_r.
Qed.

Lemma pyslice_empty : forall {A} (l : list A) i j, 0 <= j -> j <= i -> pyslice l i j = [].
Proof.
  intros. unfold pyslice. pose proof (zlen_nonneg l).
  assert (clamp (zlen l) j - clamp (zlen l) i <= 0).
  { unfold clamp. destruct (i <? 0) eqn:E; destruct (j <? 0) eqn:E2; lia. }
  replace (Z.to_nat (clamp (zlen l) j - clamp (zlen l) i)) with 0%nat by lia.
  reflexivity.
Qed.

Lemma firstn_map_gen : forall {A B} (f : A -> B) n l,
  firstn n (map f l) = map f (firstn n l).
Proof. induction n; intros [|x l]; simpl; f_equal; auto. Qed.

Lemma skipn_map_gen : forall {A B} (f : A -> B) n l,
  skipn n (map f l) = map f (skipn n l).
Proof. induction n; intros [|x l]; simpl; auto. Qed.

Lemma pyslice_map : forall {A B} (f : A -> B) l i j,
  pyslice (map f l) i j = map f (pyslice l i j).
Proof.
  intros. unfold pyslice. rewrite zlen_map, skipn_map_gen, firstn_map_gen. reflexivity.
Qed.

(** ** Sorted lists *)

Lemma SSorted_app : forall {A} (R : A -> A -> Prop) l1 l2,
  StronglySorted R (l1 ++ l2) <->
  StronglySorted R l1 /\ StronglySorted R l2 /\
  (forall x y, In x l1 -> In y l2 -> R x y).
Proof.
  induction l1 as [|a l1 IH]; intros l2; simpl.
  - split; [intros; repeat split; auto; [constructor|tauto]| tauto].
  - split.
    + intros H. inversion H as [|? ? Hs Hf]; subst.
      apply IH in Hs. destruct Hs as [H1 [H2 H3]].
      rewrite Forall_app in Hf. destruct Hf as [Hf1 Hf2].
      rewrite Forall_forall in Hf2.
      repeat split; auto; [constructor; auto|].
      intros x y [->|Hx] Hy; auto.
    + intros [H1 [H2 H3]]. inversion H1 as [|? ? Hs Hf]; subst.
      constructor.
      * apply IH. repeat split; auto.
      * apply Forall_app. split; [auto|]. apply Forall_forall. auto.
Qed.

Lemma SSorted_cons : forall {A} (R : A -> A -> Prop) a l,
  StronglySorted R (a :: l) <-> StronglySorted R l /\ Forall (R a) l.
Proof.
  intros; split; [intros H; inversion H; auto | intros [? ?]; constructor; auto].
Qed.

Lemma SSorted_map : forall {A B} (f : A -> B) (R : B -> B -> Prop) l,
  StronglySorted R (map f l) <-> StronglySorted (fun a b => R (f a) (f b)) l.
Proof.
  induction l as [|a l IH]; simpl; [split; constructor|].
  rewrite !SSorted_cons, IH, Forall_map. reflexivity.
Qed.

Lemma SSorted_impl : forall {A} (R1 R2 : A -> A -> Prop) l,
  (forall x y, In x l -> In y l -> R1 x y -> R2 x y) ->
  StronglySorted R1 l -> StronglySorted R2 l.
Proof.
  induction l as [|a l IH]; intros H Hs; [constructor|].
  apply SSorted_cons in Hs. destruct Hs as [Hs Hf].
  apply SSorted_cons. split.
  - apply IH; [|exact Hs]. intros; apply H; simpl; auto.
  - rewrite Forall_forall in *. intros x Hx. apply H; simpl; auto.
Qed.

Lemma SSorted_lt_NoDup : forall l, StronglySorted Z.lt l -> NoDup l.
Proof.
  induction l as [|a l IH]; intros H; constructor; apply SSorted_cons in H;
    destruct H as [H1 H2].
  - intros Hin. rewrite Forall_forall in H2. specialize (H2 _ Hin). lia.
  - auto.
Qed.

Lemma SSorted_lt_unique : forall l1 l2,
  StronglySorted Z.lt l1 -> StronglySorted Z.lt l2 ->
  (forall x, In x l1 <-> In x l2) -> l1 = l2.
Proof.
  induction l1 as [|a l1 IH]; intros [|b l2] H1 H2 H.
  - reflexivity.
  - exfalso. apply (H b). simpl; auto.
  - exfalso. apply (H a). simpl; auto.
  - apply SSorted_cons in H1. destruct H1 as [S1 F1].
    apply SSorted_cons in H2. destruct H2 as [S2 F2].
    rewrite Forall_forall in F1, F2.
    assert (a = b).
    { destruct (proj1 (H a) (or_introl eq_refl)) as [->|Ha]; [reflexivity|].
      destruct (proj2 (H b) (or_introl eq_refl)) as [->|Hb]; [reflexivity|].
      specialize (F1 _ Hb). specialize (F2 _ Ha). lia. }
    subst b. f_equal. apply IH; auto.
    intros x. split; intros Hx.
    + destruct (proj1 (H x) (or_intror Hx)) as [<-|]; auto.
      specialize (F1 _ Hx). lia.
    + destruct (proj2 (H x) (or_intror Hx)) as [<-|]; auto.
      specialize (F2 _ Hx). lia.
Qed.

(** ** Binary search *)

(** [less] holds on a prefix of [l] and fails on the rest. *)
Lemma bsearch_correct : forall (less : Z -> bool) (l1 l2 : list Z) fuel lo hi,
  Forall (fun v => less v = true) l1 ->
  Forall (fun v => less v = false) l2 ->
  (lo <= length l1)%nat -> (length l1 <= hi)%nat ->
  (hi <= length (l1 ++ l2))%nat -> (hi - lo <= fuel)%nat ->
  bsearch fuel less (l1 ++ l2) lo hi = length l1.
Proof.
  intros less l1 l2 fuel.
  induction fuel as [|fuel IH]; intros lo hi H1 H2 Hlo Hhi Hlen Hf; simpl.
  - lia.
  - destruct (Nat.ltb lo hi) eqn:E.
    2:{ apply Nat.ltb_ge in E. lia. }
    apply Nat.ltb_lt in E.
    set (mid := (lo + Nat.div2 (hi - lo))%nat).
    assert (Hd : (Nat.div2 (hi - lo) < hi - lo)%nat) by (apply Nat.lt_div2; lia).
    destruct (nth_error (l1 ++ l2) mid) as [v|] eqn:En.
    2:{ apply nth_error_None in En. unfold mid in En. lia. }
    destruct (less v) eqn:El.
    + assert (Hm : (mid < length l1)%nat).
      { destruct (Nat.lt_ge_cases mid (length l1)); [assumption|].
        rewrite nth_error_app2 in En by assumption.
        apply nth_error_In in En. rewrite Forall_forall in H2.
        specialize (H2 _ En). congruence. }
      apply IH; auto; try lia; unfold mid in *; lia.
    + assert (Hm : (length l1 <= mid)%nat).
      { destruct (Nat.lt_ge_cases mid (length l1)); [|assumption].
        rewrite nth_error_app1 in En by assumption.
        apply nth_error_In in En. rewrite Forall_forall in H1.
        specialize (H1 _ En). congruence. }
      apply IH; auto; unfold mid in *; try lia.
Qed.

Lemma sorted_split : forall {A} (f : A -> Z) (p : Z -> bool) (l : list A),
  (forall x y, f x <= f y -> p (f y) = true -> p (f x) = true) ->
  StronglySorted (fun a b => f a <= f b) l ->
  exists l1 l2, l = l1 ++ l2 /\
    Forall (fun a => p (f a) = true) l1 /\ Forall (fun a => p (f a) = false) l2.
Proof.
  intros A f p l Hp. induction l as [|a l IH]; intros Hs.
  - exists [], []. repeat split; constructor.
  - apply SSorted_cons in Hs. destruct Hs as [Hs Hf].
    destruct (p (f a)) eqn:E.
    + destruct (IH Hs) as [l1 [l2 [-> [H1 H2]]]].
      exists (a :: l1), l2. repeat split; auto.
    + exists [], (a :: l). repeat split; auto. constructor; auto.
      rewrite Forall_forall in *. intros x Hx.
      destruct (p (f x)) eqn:Ex; [|reflexivity].
      specialize (Hp a x (Hf _ Hx) Ex). congruence.
Qed.

(** The left insertion point of a key in a sorted column splits the rows into
    those with a smaller value and those with a value at least the key. *)
Lemma searchsorted_left_split : forall {A} (f : A -> Z) (l : list A) key,
  StronglySorted (fun a b => f a <= f b) l ->
  exists l1 l2, l = l1 ++ l2 /\
    Forall (fun a => f a < key) l1 /\ Forall (fun a => key <= f a) l2 /\
    searchsorted_left (map f l) key = zlen l1.
Proof.
  intros A f l key Hs.
  destruct (sorted_split f (fun v => v <? key) l) as [l1 [l2 [-> [H1 H2]]]].
  - intros x y. rewrite !Z.ltb_lt. lia.
  - exact Hs.
  - exists l1, l2. repeat split.
    + eapply Forall_impl; [|exact H1]. intros; simpl in *; lia.
    + eapply Forall_impl; [|exact H2]. intros; simpl in *; lia.
    + unfold searchsorted_left. rewrite map_app.
      rewrite bsearch_correct.
      * unfold zlen. rewrite map_length. reflexivity.
      * rewrite Forall_map. exact H1.
      * rewrite Forall_map. exact H2.
      * lia.
      * rewrite app_length; lia.
      * lia.
      * lia.
Qed.

Lemma searchsorted_right_split : forall {A} (f : A -> Z) (l : list A) key,
  StronglySorted (fun a b => f a <= f b) l ->
  exists l1 l2, l = l1 ++ l2 /\
    Forall (fun a => f a <= key) l1 /\ Forall (fun a => key < f a) l2 /\
    searchsorted_right (map f l) key = zlen l1.
Proof.
  intros A f l key Hs.
  destruct (sorted_split f (fun v => v <=? key) l) as [l1 [l2 [-> [H1 H2]]]].
  - intros x y. rewrite !Z.leb_le. lia.
  - exact Hs.
  - exists l1, l2. repeat split.
    + eapply Forall_impl; [|exact H1]. intros; simpl in *; lia.
    + eapply Forall_impl; [|exact H2]. intros; simpl in *; lia.
    + unfold searchsorted_right. rewrite map_app.
      rewrite bsearch_correct.
      * unfold zlen. rewrite map_length. reflexivity.
      * rewrite Forall_map. exact H1.
      * rewrite Forall_map. exact H2.
      * lia.
      * rewrite app_length; lia.
      * lia.
      * lia.
Qed.

(** Characterisation used to identify an insertion point from a known split. *)
Lemma searchsorted_left_at : forall {A} (f : A -> Z) (l1 l2 : list A) key,
  Forall (fun a => f a < key) l1 -> Forall (fun a => key <= f a) l2 ->
  searchsorted_left (map f (l1 ++ l2)) key = zlen l1.
Proof.
  intros A f l1 l2 key H1 H2. unfold searchsorted_left. rewrite map_app.
  rewrite bsearch_correct.
  - unfold zlen. rewrite map_length. reflexivity.
  - rewrite Forall_map. eapply Forall_impl; [|exact H1]. intros; simpl in *; lia.
  - rewrite Forall_map. eapply Forall_impl; [|exact H2]. intros; simpl in *; lia.
  - lia.
  - rewrite app_length; lia.
  - lia.
  - lia.
Qed.

Lemma searchsorted_right_at : forall {A} (f : A -> Z) (l1 l2 : list A) key,
  Forall (fun a => f a <= key) l1 -> Forall (fun a => key < f a) l2 ->
  searchsorted_right (map f (l1 ++ l2)) key = zlen l1.
Proof.
  intros A f l1 l2 key H1 H2. unfold searchsorted_right. rewrite map_app.
  rewrite bsearch_correct.
  - unfold zlen. rewrite map_length. reflexivity.
  - rewrite Forall_map. eapply Forall_impl; [|exact H1]. intros; simpl in *; lia.
  - rewrite Forall_map. eapply Forall_impl; [|exact H2]. intros; simpl in *; lia.
  - lia.
  - rewrite app_length; lia.
  - lia.
  - lia.
Qed.

(** ** get_loc *)

Lemma get_loc_from_app : forall l1 l2 i label,
  ~ In label l1 -> get_loc_from i (l1 ++ label :: l2) label = Ok (i + zlen l1).
Proof.
  induction l1 as [|a l1 IH]; intros l2 i label H; simpl.
  - rewrite Z.eqb_refl. f_equal. unfold zlen; simpl; lia.
  - destruct (a =? label) eqn:E.
    + exfalso. apply H. left. lia.
    + rewrite IH by (intros Hin; apply H; right; exact Hin).
      f_equal. rewrite zlen_cons. lia.
Qed.

Lemma get_loc_app : forall l1 l2 label,
  ~ In label l1 -> get_loc (l1 ++ label :: l2) label = Ok (zlen l1).
Proof. intros. unfold get_loc. rewrite get_loc_from_app by assumption. f_equal. Qed.

Lemma get_loc_missing : forall l label, ~ In label l -> get_loc l label = Raise KeyError.
Proof.
  intros l label. unfold get_loc. generalize 0. induction l as [|a l IH]; intros i H; simpl.
  - reflexivity.
  - destruct (a =? label) eqn:E.
    + exfalso. apply H. left. lia.
    + apply IH. intros Hin; apply H; right; exact Hin.
Qed.

Lemma contains_In : forall l x, contains l x = true <-> In x l.
Proof.
  intros. unfold contains. rewrite existsb_exists. split.
  - intros [y [Hy E]]. apply Z.eqb_eq in E. subst. exact Hy.
  - intros H. exists x. split; [exact H|apply Z.eqb_refl].
Qed.

(** ** arange *)

Lemma zseq_In : forall n start step x,
  In x (zseq start step n) <-> exists k, (k < n)%nat /\ x = start + Z.of_nat k * step.
Proof.
  induction n as [|n IH]; intros start step x; simpl.
  - split; [tauto|]. intros [k [Hk _]]. lia.
  - rewrite IH. split.
    + intros [<-|[k [Hk ->]]].
      * exists 0%nat. lia.
      * exists (S k). split; [lia|]. lia.
    + intros [k [Hk ->]]. destruct k as [|k].
      * left. lia.
      * right. exists k. split; lia.
Qed.

Lemma zseq_length : forall n start step, length (zseq start step n) = n.
Proof. induction n; intros; simpl; auto. Qed.

Lemma zseq_sorted : forall n start step, 0 < step -> StronglySorted Z.lt (zseq start step n).
Proof.
  induction n as [|n IH]; intros start step H; simpl; constructor; auto.
  apply Forall_forall. intros x Hx. apply zseq_In in Hx.
  destruct Hx as [k [_ ->]]. nia.
Qed.

Lemma arange_In : forall start stop step x, 0 < step ->
  In x (arange start stop step) <->
  start <= x < stop /\ (step | x - start).
Proof.
  intros start stop step x Hs. unfold arange. rewrite zseq_In. split.
  - intros [k [Hk ->]].
    assert (Hk' : Z.of_nat k < (stop - start + step - 1) / step) by lia.
    assert (Z.of_nat k + 1 <= (stop - start + step - 1) / step) by lia.
    assert (step * ((stop - start + step - 1) / step) <= stop - start + step - 1)
      by (apply Z.mul_div_le; lia).
    split; [nia|]. exists (Z.of_nat k). lia.
  - intros [H [q Hq]].
    assert (0 <= q) by nia.
    exists (Z.to_nat q). split; [|lia].
    assert (q + 1 <= (stop - start + step - 1) / step).
    { apply Z.div_le_lower_bound; nia. }
    lia.
Qed.

Lemma arange_sorted : forall start stop step, 0 < step ->
  StronglySorted Z.lt (arange start stop step).
Proof. intros. unfold arange. apply zseq_sorted; assumption. Qed.

Lemma arange_zlen : forall start stop step, 0 < step ->
  zlen (arange start stop step) = Z.max 0 ((stop - start + step - 1) / step).
Proof. intros. unfold arange, zlen. rewrite zseq_length. lia. Qed.

(** ** mapM *)

Lemma mapM_Ok : forall {A B} (f : A -> result B) (g : A -> B) l,
  (forall x, In x l -> f x = Ok (g x)) -> mapM f l = Ok (map g l).
Proof.
  intros A B f g l. induction l as [|a l IH]; intros H; simpl; [reflexivity|].
  rewrite H by (left; reflexivity). simpl. rewrite IH; [reflexivity|].
  intros; apply H; right; assumption.
Qed.

Lemma zsum_app : forall l1 l2, zsum (l1 ++ l2) = zsum l1 + zsum l2.
Proof. induction l1; intros; simpl; [reflexivity|]. unfold zsum in *. simpl. rewrite IHl1. lia. Qed.
