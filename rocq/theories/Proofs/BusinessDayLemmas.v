(** Counting business days. *)
From Coq Require Import ZArith List Bool Lia Sorting.Sorted Logic.FinFun.
From Verif.Model Require Import Base Dates Build BusinessDay.
From Verif.Spec Require Import Schedule Workday.
From Verif.Proofs Require Import BaseLemmas QueryLemmas2.
Import ListNotations.
Open Scope Z_scope.

(** ** The number of days of a kind among the [n] days after [a] *)

Definition one (b : bool) : Z := if b then 1 else 0.
Fixpoint cnt (B : Z -> bool) (a : Z) (n : nat) : Z :=
  match n with O => 0 | S n' => one (B (a + 1)) + cnt B (a + 1) n' end.

Lemma one_range : forall b, 0 <= one b <= 1.
Proof. intros []; cbn; lia. Qed.

Lemma cnt_range : forall B n a, 0 <= cnt B a n <= Z.of_nat n.
Proof.
  intros B n. induction n as [|n IH]; intros a; cbn [cnt]; [lia|].
  pose proof (IH (a + 1)). pose proof (one_range (B (a + 1))). lia.
Qed.

Lemma cnt_app : forall B n m a, cnt B a (n + m) = cnt B a n + cnt B (a + Z.of_nat n) m.
Proof.
  intros B n. induction n as [|n IH]; intros m a; cbn [cnt Nat.add].
  - rewrite Z.add_0_r. lia.
  - rewrite IH. replace (a + 1 + Z.of_nat n) with (a + Z.of_nat (S n)) by lia. lia.
Qed.

Lemma cnt_last : forall B n a, cnt B a (S n) = cnt B a n + one (B (a + Z.of_nat (S n))).
Proof.
  intros B n a. replace (S n) with (n + 1)%nat by lia. rewrite cnt_app. cbn [cnt].
  replace (a + Z.of_nat n + 1) with (a + Z.of_nat (n + 1)) by lia. lia.
Qed.

Lemma cnt_ext : forall B B' n a, (forall x, a < x <= a + Z.of_nat n -> B x = B' x) -> cnt B a n = cnt B' a n.
Proof.
  intros B B' n. induction n as [|n IH]; intros a H; cbn [cnt]; [reflexivity|].
  rewrite (H (a + 1)) by lia. rewrite (IH (a + 1)); [reflexivity|]. intros x Hx. apply H. lia.
Qed.

Lemma cnt_add : forall B B1 B2 n a, (forall x, one (B x) = one (B1 x) + one (B2 x)) ->
  cnt B a n = cnt B1 a n + cnt B2 a n.
Proof.
  intros B B1 B2 n a H. revert a. induction n as [|n IH]; intros a; cbn [cnt]; [lia|]. rewrite H, IH. lia.
Qed.

(** ** Weeks *)

Lemma cnt_week : forall W a, (forall x, W (x + 7) = W x) -> cnt W a 7 = cnt W (-4) 7.
Proof.
  intros W a P.
  assert (Step : forall x, cnt W (x + 1) 7 = cnt W x 7).
  { intros x. cbn [cnt]. replace (x + 1 + 1 + 1 + 1 + 1 + 1 + 1 + 1) with (x + 1 + 7) by lia. rewrite P. lia. }
  assert (Up : forall n : nat, cnt W (-4 + Z.of_nat n) 7 = cnt W (-4) 7).
  { induction n as [|n IH]; [reflexivity|]. replace (-4 + Z.of_nat (S n)) with (-4 + Z.of_nat n + 1) by lia.
    rewrite Step. exact IH. }
  assert (Down : forall n : nat, cnt W (-4 - Z.of_nat n) 7 = cnt W (-4) 7).
  { induction n as [|n IH]; [reflexivity|]. rewrite <- IH.
    replace (-4 - Z.of_nat n) with (-4 - Z.of_nat (S n) + 1) by lia. rewrite Step. reflexivity. }
  destruct (Z_le_gt_dec (-4) a) as [L|L].
  - replace a with (-4 + Z.of_nat (Z.to_nat (a + 4))) by lia. apply Up.
  - replace a with (-4 - Z.of_nat (Z.to_nat (-4 - a))) by lia. apply Down.
Qed.

Lemma cnt_weeks : forall W k a, (forall x, W (x + 7) = W x) ->
  cnt W a (7 * k) = Z.of_nat k * cnt W (-4) 7.
Proof.
  intros W k. induction k as [|k IH]; intros a P; [reflexivity|].
  replace (7 * S k)%nat with (7 + 7 * k)%nat by lia. rewrite cnt_app, (IH _ P), (cnt_week W a P). lia.
Qed.

(** ** Lists of days *)

Definition among (l : list Z) (x : Z) : bool := existsb (Z.eqb x) l.
Definition within (a b x : Z) : bool := (a <? x) && (x <=? b).

Lemma among_In : forall l x, among l x = true <-> In x l.
Proof.
  intros l x. unfold among. rewrite existsb_exists. split.
  - intros [y [H E]]. apply Z.eqb_eq in E. congruence.
  - intros H. exists x. split; [exact H|]. apply Z.eqb_refl.
Qed.

Lemma cnt_single : forall h n a, cnt (fun x => x =? h) a n = one (within a (a + Z.of_nat n) h).
Proof.
  intros h n. unfold within. induction n as [|n IH]; intros a; cbn [cnt].
  - destruct (Z.ltb_spec a h), (Z.leb_spec h (a + Z.of_nat 0)); cbn; lia.
  - rewrite IH. destruct (Z.eqb_spec (a + 1) h), (Z.ltb_spec a h), (Z.ltb_spec (a + 1) h),
      (Z.leb_spec h (a + 1 + Z.of_nat n)), (Z.leb_spec h (a + Z.of_nat (S n))); cbn; lia.
Qed.

Lemma cnt_among : forall l n a, NoDup l -> cnt (among l) a n = zlen (filter (within a (a + Z.of_nat n)) l).
Proof.
  intros l. induction l as [|h l IH]; intros n a N.
  - clear. revert a. induction n as [|n IH]; intros a; cbn [cnt among existsb one]; [reflexivity|].
    fold (among []). rewrite IH. reflexivity.
  - apply NoDup_cons_iff in N. destruct N as [N1 N2].
    rewrite (cnt_add (among (h :: l)) (fun x => x =? h) (among l)).
    + rewrite cnt_single, (IH n a N2). cbn [filter]. destruct (within a (a + Z.of_nat n) h); cbn [one]; [|lia].
      rewrite zlen_cons. lia.
    + intros x. unfold among at 1. cbn [existsb]. fold (among l x). destruct (Z.eqb_spec x h) as [->|E]; [|reflexivity].
      destruct (among l h) eqn:A; [|reflexivity]. apply among_In in A. tauto.
Qed.

Lemma zlen_filter_le : forall {A} (p : A -> bool) l, zlen (filter p l) <= zlen l.
Proof.
  intros A p l. induction l as [|x l IH]; cbn [filter]; [lia|]. destruct (p x); rewrite ?zlen_cons; lia.
Qed.

(** ** Stepping *)

Fixpoint stepf (B : Z -> bool) (fuel : nat) (d offset : Z) : Z :=
  match fuel with
  | O => d
  | S fuel' => if 0 <? offset then stepf B fuel' (d + 1) (if B (d + 1) then offset - 1 else offset) else d
  end.

Lemma stepf_spec : forall B fuel d off, 0 <= off -> off <= cnt B d fuel ->
  exists n, stepf B fuel d off = d + Z.of_nat n /\ cnt B d n = off /\ (0 < off -> B (d + Z.of_nat n) = true) /\
    (off = 0 -> n = 0%nat).
Proof.
  intros B fuel. induction fuel as [|fuel IH]; intros d off P L; cbn [stepf cnt] in *.
  - exists 0%nat. cbn [cnt]. repeat split; lia.
  - destruct (Z.ltb_spec 0 off) as [G|G].
    + destruct (B (d + 1)) eqn:E; cbn [one] in L.
      * destruct (IH (d + 1) (off - 1)) as [n [H1 [H2 [H3 H4]]]]; [lia|lia|]. exists (S n).
        replace (d + Z.of_nat (S n)) with (d + 1 + Z.of_nat n) by lia. split; [exact H1|].
        split; [cbn [cnt]; rewrite E, H2; cbn [one]; lia|]. split; [|lia]. intros _.
        destruct (Z.eq_dec off 1) as [->|N]; [|apply H3; lia]. rewrite (H4 ltac:(lia)). rewrite Z.add_0_r. exact E.
      * destruct (IH (d + 1) off) as [n [H1 [H2 [H3 H4]]]]; [lia|lia|]. exists (S n).
        replace (d + Z.of_nat (S n)) with (d + 1 + Z.of_nat n) by lia. split; [exact H1|].
        split; [cbn [cnt]; rewrite E, H2; cbn [one]; lia|]. split; [exact H3|]. lia.
    + exists 0%nat. cbn [cnt]. repeat split; lia.
Qed.

Lemma stepf_ext : forall B B' fuel d off, (forall x, d < x -> B x = B' x) -> stepf B fuel d off = stepf B' fuel d off.
Proof.
  intros B B' fuel. induction fuel as [|fuel IH]; intros d off H; cbn [stepf]; [reflexivity|].
  destruct (0 <? off); [|reflexivity]. rewrite (H (d + 1)) by lia. apply IH. intros x Hx. apply H. lia.
Qed.

Lemma stepf_0 : forall B fuel d, stepf B fuel d 0 = d.
Proof. intros B [|fuel] d; reflexivity. Qed.

(** ** From numbers to the n-th day *)

Definition holds (B : Z -> bool) (x : Z) : Prop := B x = true.

Lemma cnt_previous : forall B d n, 1 <= cnt B d n -> exists m, (1 <= m <= n)%nat /\ B (d + Z.of_nat m) = true /\
  (forall x, d + Z.of_nat m < x <= d + Z.of_nat n -> B x = false) /\ cnt B d m = cnt B d n.
Proof.
  intros B d n. induction n as [|n IH]; intros H; [cbn in H; lia|]. rewrite cnt_last in *.
  destruct (B (d + Z.of_nat (S n))) eqn:E; cbn [one] in *.
  - exists (S n). split; [lia|]. split; [exact E|]. split; [lia|]. rewrite cnt_last, E. reflexivity.
  - rewrite Z.add_0_r in H. destruct (IH H) as [m [H1 [H2 [H3 H4]]]]. exists m. split; [lia|]. split; [exact H2|].
    split; [|lia]. intros x Hx. destruct (Z.eq_dec x (d + Z.of_nat (S n))) as [->|N]; [exact E|]. apply H3. lia.
Qed.

Lemma cnt_0 : forall B d n, cnt B d n = 0 -> forall x, d < x <= d + Z.of_nat n -> B x = false.
Proof.
  intros B d n. induction n as [|n IH]; intros H x Hx; [lia|]. rewrite cnt_last in H.
  pose proof (cnt_range B n d). pose proof (one_range (B (d + Z.of_nat (S n)))).
  destruct (Z.eq_dec x (d + Z.of_nat (S n))) as [->|N].
  - destruct (B _); [cbn in *; lia|reflexivity].
  - apply IH; lia.
Qed.

Lemma cnt_nth_after : forall B d n, B (d + Z.of_nat n) = true -> 1 <= cnt B d n ->
  nth_after (holds B) d (cnt B d n) (d + Z.of_nat n).
Proof.
  intros B d n. induction n as [n IH] using lt_wf_ind. intros E H.
  destruct n as [|n]; [cbn in H; lia|]. rewrite cnt_last, E in *. cbn [one] in *.
  destruct (Z.eq_dec (cnt B d n) 0) as [Z0|N0].
  - rewrite Z0. constructor. split; [split; [exact E|lia]|]. intros y [Hy L].
    destruct (Z_le_gt_dec (d + Z.of_nat (S n)) y) as [G|G]; [exact G|exfalso].
    unfold holds in Hy. rewrite (cnt_0 B d n Z0 y) in Hy by lia. discriminate.
  - pose proof (cnt_range B n d). destruct (cnt_previous B d n) as [m [H1 [H2 [H3 H4]]]]; [lia|].
    apply further_after with (x := d + Z.of_nat m).
    + rewrite <- H4. apply IH; [lia|exact H2|lia].
    + split; [split; [exact E|lia]|]. intros y [Hy L].
      destruct (Z_le_gt_dec (d + Z.of_nat (S n)) y) as [G|G]; [exact G|exfalso].
      unfold holds in Hy. rewrite (H3 y) in Hy by lia. discriminate.
Qed.

Lemma nth_after_before : forall (P : Z -> Prop) d k x, nth_after (fun y => P (- y)) (- d) k x -> nth_before P d k (- x).
Proof.
  intros P d k x H. induction H as [x [[H1 H2] H3]|k x y H IH [[H1 H2] H3]].
  - constructor. split; [split; [exact H1|lia]|]. intros y [Hy L].
    assert (x <= - y); [|lia]. apply H3. split; [|lia]. rewrite Z.opp_involutive. exact Hy.
  - apply (further_before _ _ _ (- x)); [exact IH|]. split; [split; [exact H1|lia]|]. intros z [Hz L].
    assert (y <= - z); [|lia]. apply H3. split; [|lia]. rewrite Z.opp_involutive. exact Hz.
Qed.

Lemma nth_after_ext : forall (P : Z -> Prop) d d' k x, (forall y, P y -> d < y <-> d' < y) ->
  nth_after P d k x -> nth_after P d' k x.
Proof.
  intros P d d' k x Q H. induction H as [x [[H1 H2] H3]|k x y H IH L].
  - constructor. split; [split; [exact H1|apply Q; assumption]|]. intros y [Hy L]. apply H3. split; [exact Hy|apply Q; assumption].
  - exact (further_after _ _ _ _ _ IH L).
Qed.
Lemma nth_before_ext : forall (P : Z -> Prop) d d' k x, (forall y, P y -> y < d <-> y < d') ->
  nth_before P d k x -> nth_before P d' k x.
Proof.
  intros P d d' k x Q H. induction H as [x [[H1 H2] H3]|k x y H IH L].
  - constructor. split; [split; [exact H1|apply Q; assumption]|]. intros y [Hy L]. apply H3. split; [exact Hy|apply Q; assumption].
  - exact (further_before _ _ _ _ _ IH L).
Qed.

(** ** Holidays of a business day calendar *)

Lemma insert_day_In : forall x l y, In y (insert_day x l) <-> y = x \/ In y l.
Proof.
  intros x l y. induction l as [|z l IH]; cbn [insert_day]; [cbn; intuition congruence|].
  destruct (x <? z); [cbn; intuition congruence|]. destruct (Z.eqb_spec x z) as [->|N]; [cbn; intuition congruence|].
  cbn [In]. rewrite IH. intuition congruence.
Qed.
Lemma insert_day_sorted : forall x l, StronglySorted Z.lt l -> StronglySorted Z.lt (insert_day x l).
Proof.
  intros x l H. induction H as [|z l H IH F]; cbn [insert_day]; [repeat constructor|].
  destruct (Z.ltb_spec x z) as [L|L].
  - constructor; [constructor; assumption|]. constructor; [exact L|]. eapply Forall_impl; [|exact F]. cbn; intros; lia.
  - destruct (Z.eqb_spec x z) as [->|N]; [constructor; assumption|]. constructor; [exact IH|].
    rewrite Forall_forall in *. intros y Hy. apply insert_day_In in Hy. destruct Hy as [->|Hy]; [lia|exact (F y Hy)].
Qed.
Definition on_mask (m : list bool) (d : Z) : bool := nth (Z.to_nat (weekday d)) m false.
Lemma normalize_In : forall m l x, In x (normalize_holidays_list m l) <-> In x l /\ on_mask m x = true.
Proof.
  intros m l x. unfold normalize_holidays_list. rewrite filter_In. fold (on_mask m x).
  assert (In x (fold_right insert_day [] l) <-> In x l) as ->; [|reflexivity].
  induction l as [|y l IH]; cbn [fold_right In]; [tauto|]. rewrite insert_day_In, IH. intuition congruence.
Qed.
Lemma normalize_sorted : forall m l, StronglySorted Z.lt (normalize_holidays_list m l).
Proof.
  intros m l. unfold normalize_holidays_list. apply SSorted_filter.
  induction l as [|y l IH]; cbn [fold_right]; [constructor|]. apply insert_day_sorted, IH.
Qed.

Lemma sorted_le : forall l, StronglySorted Z.lt l -> StronglySorted (fun a b => a <= b) l.
Proof. intros l H. apply (SSorted_impl Z.lt); [|exact H]. intros; lia. Qed.

Lemma filter_all : forall {A} (p : A -> bool) l, Forall (fun x => p x = true) l -> filter p l = l.
Proof. intros A p l H. induction H as [|x l H _ IH]; cbn; [reflexivity|]. rewrite H, IH. reflexivity. Qed.
Lemma filter_none : forall {A} (p : A -> bool) l, Forall (fun x => p x = false) l -> filter p l = [].
Proof. intros A p l H. induction H as [|x l H _ IH]; cbn; [reflexivity|]. rewrite H, IH. reflexivity. Qed.

Lemma firstn_zlen : forall {A} (l1 l2 : list A), firstn (Z.to_nat (zlen l1)) (l1 ++ l2) = l1.
Proof. intros. unfold zlen. rewrite Nat2Z.id, firstn_app, Nat.sub_diag, firstn_all, firstn_O, app_nil_r. reflexivity. Qed.
Lemma skipn_zlen : forall {A} (l1 l2 : list A), skipn (Z.to_nat (zlen l1)) (l1 ++ l2) = l2.
Proof. intros. unfold zlen. rewrite Nat2Z.id, skipn_app, Nat.sub_diag, skipn_all. reflexivity. Qed.

Lemma left_parts : forall l d, StronglySorted Z.lt l ->
  searchsorted_left l d = zlen (filter (fun h => h <? d) l) /\
  firstn (Z.to_nat (searchsorted_left l d)) l = filter (fun h => h <? d) l /\
  skipn (Z.to_nat (searchsorted_left l d)) l = filter (fun h => d <=? h) l.
Proof.
  intros l d Sl. destruct (searchsorted_left_split (fun x : Z => x) l d (sorted_le l Sl)) as [l1 [l2 [-> [F1 [F2 E]]]]].
  rewrite map_id in E. rewrite E, firstn_zlen, skipn_zlen, !filter_app.
  rewrite (filter_all (fun h => h <? d) l1), (filter_none (fun h => h <? d) l2), (filter_none (fun h => d <=? h) l1),
    (filter_all (fun h => d <=? h) l2), app_nil_r; [repeat split| | | |];
    eapply Forall_impl; try exact F1; try exact F2; cbn; intros; lia.
Qed.
Lemma right_parts : forall l d, StronglySorted Z.lt l ->
  searchsorted_right l d = zlen (filter (fun h => h <=? d) l) /\
  firstn (Z.to_nat (searchsorted_right l d)) l = filter (fun h => h <=? d) l /\
  skipn (Z.to_nat (searchsorted_right l d)) l = filter (fun h => d <? h) l.
Proof.
  intros l d Sl. destruct (searchsorted_right_split (fun x : Z => x) l d (sorted_le l Sl)) as [l1 [l2 [-> [F1 [F2 E]]]]].
  rewrite map_id in E. rewrite E, firstn_zlen, skipn_zlen, !filter_app.
  rewrite (filter_all (fun h => h <=? d) l1), (filter_none (fun h => h <=? d) l2), (filter_none (fun h => d <? h) l1),
    (filter_all (fun h => d <? h) l2), app_nil_r; [repeat split| | | |];
    eapply Forall_impl; try exact F1; try exact F2; cbn; intros; lia.
Qed.

Lemma is_holiday_among : forall l d, StronglySorted Z.lt l -> is_holiday d l = among l d.
Proof.
  intros l d Sl. unfold is_holiday.
  destruct (searchsorted_left_split (fun x : Z => x) l d (sorted_le l Sl)) as [l1 [l2 [-> [F1 [F2 E]]]]].
  rewrite map_id in E. rewrite E. unfold among. rewrite existsb_app.
  replace (existsb (Z.eqb d) l1) with false.
  2:{ symmetry. apply not_true_iff_false. rewrite existsb_exists. intros [x [I X]]. apply Z.eqb_eq in X.
      rewrite Forall_forall in F1. specialize (F1 x I). cbn in F1. lia. }
  cbn [orb]. unfold pyget. pose proof (zlen_nonneg l1). destruct (Z.ltb_spec (zlen l1) 0); [lia|].
  destruct (Z.ltb_spec (zlen l1) 0); [lia|]. unfold zlen at 1. rewrite Nat2Z.id, nth_error_app2, Nat.sub_diag by lia.
  destruct l2 as [|h l2]; [reflexivity|]. cbn [nth_error existsb]. rewrite (Z.eqb_sym d h).
  destruct (Z.eqb_spec h d) as [->|N]; [reflexivity|]. cbn [orb]. symmetry. apply not_true_iff_false.
  rewrite existsb_exists. intros [x [I X]]. apply Z.eqb_eq in X. subst x.
  apply SSorted_app in Sl. destruct Sl as [_ [Sl _]]. apply SSorted_cons in Sl. destruct Sl as [_ Sl].
  rewrite Forall_forall in Sl, F2. specialize (Sl d I). specialize (F2 h (or_introl eq_refl)). cbn in F2. lia.
Qed.

(** ** The jump over whole weeks *)

Definition open_day (W : Z -> bool) (l : list Z) (x : Z) : bool := W x && negb (among l x).

Lemma cnt_open : forall W l n a, NoDup l -> (forall h, In h l -> W h = true) ->
  cnt (open_day W l) a n = cnt W a n - zlen (filter (within a (a + Z.of_nat n)) l).
Proof.
  intros W l n a N H. rewrite <- (cnt_among l n a N). rewrite (cnt_add W (open_day W l) (among l)); [lia|].
  intros x. unfold open_day. destruct (among l x) eqn:A; [|rewrite andb_true_r; cbn; lia].
  apply among_In, H in A. rewrite A. reflexivity.
Qed.

Lemma core : forall W l d n q r B2 fuel, (forall x, W (x + 7) = W x) -> 1 <= cnt W (-4) 7 -> NoDup l ->
  (forall h, In h l -> W h = true) -> open_day W l d = true -> 0 < n -> n = q * cnt W (-4) 7 + r -> 0 <= r -> 0 <= q ->
  (forall x, d + 7 * q < x -> B2 x = open_day W l x) ->
  let off := r + zlen (filter (within d (d + 7 * q)) l) in
  off <= cnt B2 (d + 7 * q) fuel ->
  exists m, stepf B2 fuel (d + 7 * q) off = d + Z.of_nat m /\ cnt (open_day W l) d m = n /\
    open_day W l (d + Z.of_nat m) = true.
Proof.
  intros W l d n q r B2 fuel P Hc N H E Hn En Hr Hq HB off L.
  pose proof (zlen_nonneg (filter (within d (d + 7 * q)) l)) as Z0.
  destruct (stepf_spec B2 fuel (d + 7 * q) off) as [m [H1 [H2 [H3 H4]]]]; [unfold off; lia|exact L|].
  exists (7 * Z.to_nat q + m)%nat.
  replace (d + Z.of_nat (7 * Z.to_nat q + m)) with (d + 7 * q + Z.of_nat m) by lia. split; [exact H1|].
  assert (E7 : d + Z.of_nat (7 * Z.to_nat q) = d + 7 * q) by lia.
  split.
  - rewrite cnt_app, E7, <- (cnt_ext B2 (open_day W l) m (d + 7 * q)) by (intros x Hx; apply HB; lia).
    rewrite H2, (cnt_open W l _ d N H), E7, (cnt_weeks W _ d P), Z2Nat.id by exact Hq. unfold off. lia.
  - destruct (Z.eq_dec off 0) as [O|O].
    + rewrite (H4 O), Z.add_0_r. unfold off in O. assert (zlen (filter (within d (d + 7 * q)) l) = 0) as Q by lia.
      apply zlen_nil_inv in Q.
      assert (0 < q) by nia. unfold open_day in *. apply andb_true_iff in E. destruct E as [E1 _].
      apply andb_true_iff. split.
      * assert (Per : forall k : nat, W (d + 7 * Z.of_nat k) = W d).
        { induction k as [|k IH]; [rewrite Z.mul_0_r, Z.add_0_r; reflexivity|].
          replace (d + 7 * Z.of_nat (S k)) with (d + 7 * Z.of_nat k + 7) by lia. rewrite P. exact IH. }
        replace q with (Z.of_nat (Z.to_nat q)) by lia. rewrite Per. exact E1.
      * apply negb_true_iff, not_true_iff_false. intros A. apply among_In in A.
        assert (I : In (d + 7 * q) (filter (within d (d + 7 * q)) l)).
        { apply filter_In. split; [exact A|]. unfold within. lia. }
        rewrite Q in I. exact I.
    + assert (G : 0 < off) by (unfold off in *; lia). pose proof (H3 G) as T.
      destruct m as [|m]; [cbn in H2; unfold off in *; lia|]. rewrite HB in T by lia. exact T.
Qed.

(** There is always enough fuel. *)
Lemma enough : forall W l d n, (forall x, W (x + 7) = W x) -> 1 <= cnt W (-4) 7 -> NoDup l ->
  (forall h, In h l -> W h = true) -> 0 <= n -> n <= cnt (open_day W l) d (days_of_fuel n l).
Proof.
  intros W l d n P Hc N H Hn. unfold days_of_fuel.
  pose proof (zlen_nonneg l) as Z0. rewrite (cnt_open W l _ d N H).
  replace (Z.to_nat (7 * (n + zlen l + 1))) with (7 * Z.to_nat (n + zlen l + 1))%nat by lia.
  rewrite (cnt_weeks W _ d P). pose proof (zlen_filter_le (within d (d + Z.of_nat (7 * Z.to_nat (n + zlen l + 1)))) l).
  nia.
Qed.

(** ** The loops of the model *)

Definition biz (m : list bool) (l : list Z) (x : Z) : bool := open_day (on_mask m) l x.

Lemma weekday_next : forall d, weekday (d + 1) = if weekday d + 1 =? 7 then 0 else weekday d + 1.
Proof. intros d. unfold weekday. destruct (Z.eqb_spec ((d + 3) mod 7 + 1) 7); Z.div_mod_to_equations; lia. Qed.
Lemma weekday_prev : forall d, weekday (d - 1) = if weekday d - 1 =? -1 then 6 else weekday d - 1.
Proof. intros d. unfold weekday. destruct (Z.eqb_spec ((d + 3) mod 7 - 1) (-1)); Z.div_mod_to_equations; lia. Qed.
Lemma weekday_weeks : forall d k, weekday (d + k * 7) = weekday d.
Proof. intros d k. unfold weekday. replace (d + k * 7 + 3) with (d + 3 + k * 7) by lia. apply Z_mod_plus_full. Qed.

Lemma excluded_biz : forall m l x, StronglySorted Z.lt l -> excluded m l x (weekday x) = negb (biz m l x).
Proof.
  intros m l x Sl. unfold excluded, biz, open_day, on_mask. rewrite (is_holiday_among l x Sl).
  destruct (nth _ m false), (among l x); reflexivity.
Qed.

Lemma step_forward_stepf : forall fuel m l d off, StronglySorted Z.lt l ->
  step_forward fuel m l d (weekday d) off = stepf (biz m l) fuel d off.
Proof.
  intros fuel m l d off Sl. revert d off. induction fuel as [|fuel IH]; intros d off; cbn [step_forward stepf]; [reflexivity|].
  destruct (0 <? off); [|reflexivity]. rewrite <- weekday_next, IH, (excluded_biz m l _ Sl).
  destruct (biz m l (d + 1)); reflexivity.
Qed.
Lemma step_backward_stepf : forall fuel m l d off, StronglySorted Z.lt l ->
  step_backward fuel m l d (weekday d) off = - stepf (fun x => biz m l (- x)) fuel (- d) (- off).
Proof.
  intros fuel m l d off Sl. revert d off.
  induction fuel as [|fuel IH]; intros d off; cbn [step_backward stepf]; [lia|].
  replace (0 <? - off) with (off <? 0) by lia. destruct (off <? 0); [|lia].
  rewrite <- weekday_prev, IH, (excluded_biz m l _ Sl). replace (- d + 1) with (- (d - 1)) by lia.
  rewrite Z.opp_involutive. destruct (biz m l (d - 1)); cbn [negb]; [|reflexivity].
  replace (- (off + 1)) with (- off - 1) by lia. reflexivity.
Qed.
Lemma roll_following_stepf : forall fuel m l d, StronglySorted Z.lt l ->
  let x := stepf (biz m l) fuel d 1 in roll_following fuel m l d (weekday d) = (x, weekday x).
Proof.
  intros fuel m l d Sl. revert d. induction fuel as [|fuel IH]; intros d; cbn [roll_following stepf]; [reflexivity|].
  rewrite <- weekday_next, (excluded_biz m l _ Sl). change (0 <? 1) with true. cbv iota.
  destruct (biz m l (d + 1)); cbn [negb].
  - change (1 - 1) with 0. rewrite stepf_0. reflexivity.
  - apply IH.
Qed.
Lemma roll_preceding_stepf : forall fuel m l d, StronglySorted Z.lt l ->
  let x := - stepf (fun x => biz m l (- x)) fuel (- d) 1 in roll_preceding fuel m l d (weekday d) = (x, weekday x).
Proof.
  intros fuel m l d Sl. revert d.
  induction fuel as [|fuel IH]; intros d; cbn [roll_preceding stepf]; [cbv zeta; rewrite Z.opp_involutive; reflexivity|].
  rewrite <- weekday_prev, (excluded_biz m l _ Sl). change (0 <? 1) with true. cbv iota.
  replace (- d + 1) with (- (d - 1)) by lia. rewrite Z.opp_involutive. destruct (biz m l (d - 1)); cbn [negb].
  - change (1 - 1) with 0. rewrite stepf_0, Z.opp_involutive. reflexivity.
  - apply IH.
Qed.

(** ** Sound calendars *)

Record sound (c : busdaycalendar) : Prop := {
  sound_week : busdays_in_weekmask c = cnt (on_mask (mask c)) (-4) 7;
  sound_positive : 1 <= busdays_in_weekmask c;
  sound_sorted : StronglySorted Z.lt (busday_holidays c);
  sound_on_mask : forall h, In h (busday_holidays c) -> on_mask (mask c) h = true
}.

Lemma make_sound : forall m l c, make_busdaycalendar m l = Ok c -> sound c /\
  mask c = m /\ busday_holidays c = normalize_holidays_list m l.
Proof.
  intros m l c H. unfold make_busdaycalendar in H. destruct (Nat.eqb_spec (length m) 7) as [E|]; [|discriminate H].
  cbn [negb] in H. cbv zeta in H. destruct (Z.eqb_spec (zlen (filter (fun x : bool => x) m)) 0) as [|N]; [discriminate H|].
  injection H as <-. split; [|split; reflexivity]. pose proof (zlen_nonneg (filter (fun x : bool => x) m)) as P.
  split; cbn [mask busdays_in_weekmask busday_holidays].
  - do 7 (destruct m as [|? m]; [discriminate E|]). destruct m; [|discriminate E]. clear.
    cbn [cnt]. unfold on_mask.
    change (weekday (-4 + 1)) with 0. change (weekday (-4 + 1 + 1)) with 1. change (weekday (-4 + 1 + 1 + 1)) with 2.
    change (weekday (-4 + 1 + 1 + 1 + 1)) with 3. change (weekday (-4 + 1 + 1 + 1 + 1 + 1)) with 4.
    change (weekday (-4 + 1 + 1 + 1 + 1 + 1 + 1)) with 5. change (weekday (-4 + 1 + 1 + 1 + 1 + 1 + 1 + 1)) with 6.
    cbn [Z.to_nat Pos.to_nat Pos.iter_op nth Nat.add].
    repeat match goal with b : bool |- _ => destruct b end; reflexivity.
  - lia.
  - apply normalize_sorted.
  - intros h Hh. apply normalize_In in Hh. tauto.
Qed.

Lemma on_mask_week : forall m x, on_mask m (x + 7) = on_mask m x.
Proof. intros m x. unfold on_mask. replace (x + 7) with (x + 1 * 7) by lia. rewrite weekday_weeks. reflexivity. Qed.
Lemma on_mask_week' : forall m x, on_mask m (- (x + 7)) = on_mask m (- x).
Proof. intros m x. rewrite <- (on_mask_week m (- (x + 7))). f_equal. lia. Qed.
Lemma mirror_week : forall W, cnt (fun x => W (- x)) (-4) 7 = cnt W (-4) 7.
Proof. intros W. cbn [cnt]. cbn. lia. Qed.

Definition mirror (l : list Z) : list Z := map Z.opp l.
Lemma among_mirror : forall l x, among (mirror l) x = among l (- x).
Proof.
  intros l x. apply eq_true_iff_eq. rewrite !among_In. unfold mirror. rewrite in_map_iff. split.
  - intros [y [<- H]]. rewrite Z.opp_involutive. exact H.
  - intros H. exists (- x). split; [lia|exact H].
Qed.
Lemma mirror_NoDup : forall l, NoDup l -> NoDup (mirror l).
Proof.
  intros l H. unfold mirror. apply Injective_map_NoDup; [|exact H]. intros x y E. lia.
Qed.
Lemma zlen_filter_map : forall {A B} (f : A -> B) p l, zlen (filter p (map f l)) = zlen (filter (fun x => p (f x)) l).
Proof.
  intros A B f p l. induction l as [|x l IH]; cbn [map filter]; [reflexivity|]. destruct (p (f x)); rewrite ?zlen_cons, IH; reflexivity.
Qed.
Lemma open_mirror : forall W l x, open_day (fun y => W (- y)) (mirror l) x = open_day W l (- x).
Proof. intros. unfold open_day. rewrite among_mirror. reflexivity. Qed.

Lemma filter_filter : forall {A} (p q : A -> bool) l, filter p (filter q l) = filter (fun x => q x && p x) l.
Proof.
  intros A p q l. induction l as [|x l IH]; cbn [filter]; [reflexivity|]. destruct (q x); cbn [filter andb]; [|exact IH].
  destruct (p x); rewrite IH; reflexivity.
Qed.

Definition is_business (c : busdaycalendar) : Z -> bool := biz (mask c) (busday_holidays c).

Lemma roll_ok : forall c r d, sound c -> exists x, apply_business_day_roll c r d = (x, weekday x) /\
  is_business c x = true /\ (is_business c d = true -> x = d) /\
  match r with
  | Forward => d <= x /\ forall y, d <= y < x -> is_business c y = false
  | Backward => x <= d /\ forall y, x < y <= d -> is_business c y = false
  end.
Proof.
  intros c r d Sc. unfold apply_business_day_roll. cbv zeta. rewrite (excluded_biz _ _ _ (sound_sorted c Sc)).
  fold (is_business c d). destruct (is_business c d) eqn:E; cbn [negb].
  { exists d. split; [reflexivity|]. split; [exact E|]. split; [reflexivity|]. destruct r; split; intros; lia. }
  pose proof (SSorted_lt_NoDup _ (sound_sorted c Sc)) as N. pose proof (sound_positive c Sc) as P1.
  rewrite (sound_week c Sc) in P1. destruct r.
  - rewrite (roll_following_stepf _ _ _ _ (sound_sorted c Sc)).
    destruct (stepf_spec (is_business c) (days_of_fuel 0 (busday_holidays c)) d 1) as [n [H1 [H2 [H3 _]]]]; [lia| |].
    { pose proof (enough (on_mask (mask c)) (busday_holidays c) d 0 (on_mask_week _) P1 N (sound_on_mask c Sc) ltac:(lia)) as L.
      unfold days_of_fuel in *. rewrite (cnt_open _ _ _ d N (sound_on_mask c Sc)) in L.
      unfold is_business, biz. rewrite (cnt_open _ _ _ d N (sound_on_mask c Sc)).
      pose proof (zlen_nonneg (busday_holidays c)).
      replace (Z.to_nat (7 * (0 + zlen (busday_holidays c) + 1))) with (7 * Z.to_nat (zlen (busday_holidays c) + 1))%nat in * by lia.
      rewrite (cnt_weeks _ _ d (on_mask_week _)).
      match goal with |- context [filter ?p ?l] => pose proof (zlen_filter_le p l) end. nia. }
    exists (d + Z.of_nat n). fold (is_business c). rewrite H1. split; [reflexivity|]. split; [apply H3; lia|].
    split; [congruence|]. split; [lia|]. intros y Hy. destruct (Z.eq_dec y d) as [->|Ny]; [exact E|].
    destruct n as [|n]; [lia|]. rewrite cnt_last, (H3 ltac:(lia)) in H2. cbn [one] in H2. apply (cnt_0 _ d n); lia.
  - rewrite (roll_preceding_stepf _ _ _ _ (sound_sorted c Sc)).
    set (W := fun y => on_mask (mask c) (- y)). set (l := mirror (busday_holidays c)).
    assert (PW : forall x, W (x + 7) = W x) by (intros; apply on_mask_week').
    assert (HW : forall h, In h l -> W h = true).
    { intros h Hh. unfold l, mirror in Hh. apply in_map_iff in Hh. destruct Hh as [k [<- Hk]]. unfold W.
      rewrite Z.opp_involutive. exact (sound_on_mask c Sc k Hk). }
    assert (NW : NoDup l) by (apply mirror_NoDup; exact N).
    assert (CW : 1 <= cnt W (-4) 7) by (unfold W; rewrite mirror_week; exact P1).
    destruct (stepf_spec (open_day W l) (days_of_fuel 0 (busday_holidays c)) (- d) 1) as [n [H1 [H2 [H3 _]]]]; [lia| |].
    { rewrite (cnt_open W l _ _ NW HW). unfold days_of_fuel. pose proof (zlen_nonneg (busday_holidays c)).
      replace (Z.to_nat (7 * (0 + zlen (busday_holidays c) + 1))) with (7 * Z.to_nat (zlen (busday_holidays c) + 1))%nat in * by lia.
      rewrite (cnt_weeks _ _ _ PW).
      match goal with |- context [filter ?p ?l] => pose proof (zlen_filter_le p l) as Q end.
      unfold l in Q at 2. unfold mirror in Q. rewrite zlen_map in Q. nia. }
    assert (EB : forall x, open_day W l x = is_business c (- x)) by (intros x; apply open_mirror).
    rewrite (stepf_ext _ (open_day W l)) by (intros x _; symmetry; apply EB).
    exists (d - Z.of_nat n). rewrite H1. replace (- (- d + Z.of_nat n)) with (d - Z.of_nat n) by lia. split; [reflexivity|].
    split.
    { specialize (H3 ltac:(lia)). rewrite EB in H3. replace (- (- d + Z.of_nat n)) with (d - Z.of_nat n) in H3 by lia. exact H3. }
    split; [congruence|]. split; [lia|]. intros y Hy. destruct (Z.eq_dec y d) as [->|Ny]; [exact E|].
    destruct n as [|n]; [lia|]. rewrite cnt_last, (H3 ltac:(lia)) in H2. cbn [one] in H2.
    replace y with (- - y) by lia. rewrite <- EB. apply (cnt_0 _ (- d) n); lia.
Qed.

(** ** The offset *)

Lemma biz_later : forall m l a x, a < x -> biz m (filter (fun h => a <? h) l) x = biz m l x.
Proof.
  intros m l a x L. unfold biz, open_day. f_equal. f_equal. apply eq_true_iff_eq. rewrite !among_In, filter_In.
  split; [tauto|]. intros H. split; [exact H|lia].
Qed.
Lemma biz_earlier : forall m l a x, x < a -> biz m (filter (fun h => h <? a) l) x = biz m l x.
Proof.
  intros m l a x L. unfold biz, open_day. f_equal. f_equal. apply eq_true_iff_eq. rewrite !among_In, filter_In.
  split; [tauto|]. intros H. split; [exact H|lia].
Qed.

Lemma forward_ok : forall c r d n, sound c -> 0 < n -> exists p m,
  apply_business_day_roll c r d = (p, weekday p) /\ is_business c p = true /\
  busday_offset c r d n = p + Z.of_nat m /\
  cnt (is_business c) p m = n /\ is_business c (p + Z.of_nat m) = true.
Proof.
  intros c r d n Sc Hn. destruct (roll_ok c r d Sc) as [p [E [Bp _]]]. exists p.
  unfold busday_offset. rewrite E. cbv zeta. destruct (Z.ltb_spec 0 n) as [_|]; [|lia].
  set (l := busday_holidays c). set (bd := busdays_in_weekmask c).
  pose proof (sound_sorted c Sc) as Sl. fold l in Sl. pose proof (sound_positive c Sc) as P1. fold bd in P1.
  destruct (left_parts l p Sl) as [_ [_ ->]].
  assert (S1 : StronglySorted Z.lt (filter (fun h => p <=? h) l)) by (apply SSorted_filter; exact Sl).
  set (d1 := p + Z.quot n bd * 7).
  destruct (right_parts (filter (fun h => p <=? h) l) d1 S1) as [Ecr [_ ->]]. rewrite Ecr.
  set (l2 := filter (fun h => d1 <? h) (filter (fun h => p <=? h) l)).
  assert (S2 : StronglySorted Z.lt l2) by (apply SSorted_filter; exact S1).
  assert (Ew : weekday p = weekday d1) by (unfold d1; rewrite weekday_weeks; reflexivity).
  rewrite Ew, (step_forward_stepf _ _ _ _ _ S2).
  assert (Hq : 0 <= Z.quot n bd) by (apply Z.quot_pos; lia).
  assert (Hr : 0 <= Z.rem n bd) by (apply Z.rem_nonneg; lia).
  assert (En : n = Z.quot n bd * bd + Z.rem n bd) by (pose proof (Z.quot_rem' n bd); lia).
  assert (NotP : ~ In p l).
  { intros I. unfold is_business, biz, open_day in Bp. apply andb_true_iff in Bp. destruct Bp as [_ Bp].
    apply among_In in I. fold l in Bp. rewrite I in Bp. discriminate. }
  assert (Ecross : zlen (filter (fun h => h <=? d1) (filter (fun h => p <=? h) l)) =
                   zlen (filter (within p (p + 7 * Z.quot n bd)) l)).
  { f_equal. rewrite filter_filter. apply filter_ext_in. intros x Hx. unfold within.
    assert (x <> p) by congruence. replace (p + 7 * Z.quot n bd) with d1 by (unfold d1; lia). lia. }
  rewrite Ecross.
  pose proof (SSorted_lt_NoDup _ Sl) as N. pose proof (sound_on_mask c Sc) as Hm. fold l in Hm.
  pose proof (sound_week c Sc) as Hw. fold bd in Hw.
  assert (Ed : d1 = p + 7 * Z.quot n bd) by (unfold d1; lia).
  destruct (core (on_mask (mask c)) l p n (Z.quot n bd) (Z.rem n bd) (biz (mask c) l2)
    (days_of_fuel (Z.rem n bd + zlen (filter (within p (p + 7 * Z.quot n bd)) l)) l2)) as [m [H1 [H2 H3]]].
  - apply on_mask_week.
  - lia.
  - exact N.
  - exact Hm.
  - exact Bp.
  - exact Hn.
  - rewrite <- Hw. exact En.
  - exact Hr.
  - exact Hq.
  - intros x Hx. unfold l2. rewrite biz_later by lia.
    unfold biz, open_day. f_equal. f_equal. apply eq_true_iff_eq. rewrite !among_In, filter_In.
    split; [tauto|]. intros H. split; [exact H|]. lia.
  - apply (enough (on_mask (mask c)) l2); [apply on_mask_week|lia| | |].
    + apply SSorted_lt_NoDup. exact S2.
    + intros h Hh. apply filter_In in Hh. destruct Hh as [Hh _]. apply filter_In in Hh. apply Hm. tauto.
    + pose proof (zlen_nonneg (filter (within p (p + 7 * Z.quot n bd)) l)). lia.
  - exists m. split; [congruence|]. split; [exact Bp|]. split; [|split; [exact H2|exact H3]].
    rewrite Ed. exact H1.
Qed.

Lemma backward_ok : forall c r d n, sound c -> n < 0 -> exists p m,
  apply_business_day_roll c r d = (p, weekday p) /\ is_business c p = true /\
  busday_offset c r d n = p - Z.of_nat m /\
  cnt (fun x => is_business c (- x)) (- p) m = - n /\ is_business c (p - Z.of_nat m) = true.
Proof.
  intros c r d n Sc Hn. destruct (roll_ok c r d Sc) as [p [E [Bp _]]]. exists p.
  unfold busday_offset. rewrite E. cbv zeta. destruct (Z.ltb_spec 0 n) as [|_]; [lia|].
  destruct (Z.ltb_spec n 0) as [_|]; [|lia].
  set (l := busday_holidays c). set (bd := busdays_in_weekmask c).
  pose proof (sound_sorted c Sc) as Sl. fold l in Sl. pose proof (sound_positive c Sc) as P1. fold bd in P1.
  destruct (right_parts l p Sl) as [_ [-> _]].
  assert (S1 : StronglySorted Z.lt (filter (fun h => h <=? p) l)) by (apply SSorted_filter; exact Sl).
  set (d1 := p + Z.quot n bd * 7).
  destruct (left_parts (filter (fun h => h <=? p) l) d1 S1) as [Ecr [-> _]]. rewrite Ecr.
  set (l2 := filter (fun h => h <? d1) (filter (fun h => h <=? p) l)).
  assert (S2 : StronglySorted Z.lt l2) by (apply SSorted_filter; exact S1).
  assert (Ew : weekday p = weekday d1) by (unfold d1; rewrite weekday_weeks; reflexivity).
  rewrite Ew, (step_backward_stepf _ _ _ _ _ S2).
  set (q := Z.quot (- n) bd). set (rr := Z.rem (- n) bd).
  assert (Eq : Z.quot n bd = - q) by (unfold q; rewrite Z.quot_opp_l by lia; lia).
  assert (Er : Z.rem n bd = - rr) by (unfold rr; rewrite Z.rem_opp_l by lia; lia).
  assert (Hq : 0 <= q) by (apply Z.quot_pos; lia).
  assert (Hr : 0 <= rr) by (apply Z.rem_nonneg; lia).
  assert (En : - n = q * bd + rr) by (unfold q, rr; pose proof (Z.quot_rem' (- n) bd); lia).
  clearbody q rr.
  assert (NotP : ~ In p l).
  { intros I. unfold is_business, biz, open_day in Bp. apply andb_true_iff in Bp. destruct Bp as [_ Bp].
    apply among_In in I. fold l in Bp. rewrite I in Bp. discriminate. }
  assert (Ed : - d1 = - p + 7 * q) by (unfold d1; lia).
  set (W := fun y => on_mask (mask c) (- y)).
  assert (Ecross : zlen (filter (fun h => h <=? p) l) - zlen l2 =
                   zlen (filter (within (- p) (- p + 7 * q)) (mirror l))).
  { unfold mirror. rewrite zlen_filter_map. unfold l2. rewrite filter_filter.
    transitivity (zlen (filter (fun x => (d1 <=? x) && (x <=? p)) l)).
    - generalize l. clear. induction l as [|x l IH]; cbn [filter]; [reflexivity|].
      destruct (Z.leb_spec x p), (Z.ltb_spec x d1), (Z.leb_spec d1 x); cbn [andb]; rewrite ?zlen_cons; lia.
    - f_equal. apply filter_ext_in. intros x Hx. unfold within. assert (x <> p) by congruence. lia. }
  fold l2. rewrite Er, Ecross.
  pose proof (SSorted_lt_NoDup _ Sl) as N. pose proof (sound_on_mask c Sc) as Hm. fold l in Hm.
  pose proof (sound_week c Sc) as Hw. fold bd in Hw.
  assert (Hm' : forall h, In h (mirror l) -> W h = true).
  { intros h Hh. unfold mirror in Hh. apply in_map_iff in Hh. destruct Hh as [k [<- Hk]]. unfold W.
    rewrite Z.opp_involutive. exact (Hm k Hk). }
  assert (EB : forall x, open_day W (mirror l) x = is_business c (- x)) by (intros x; apply open_mirror).
  set (off := rr + zlen (filter (within (- p) (- p + 7 * q)) (mirror l))).
  replace (- (- rr - zlen (filter (within (- p) (- p + 7 * q)) (mirror l)))) with off by (unfold off; lia).
  destruct (core W (mirror l) (- p) (- n) q rr (fun x => biz (mask c) l2 (- x)) (days_of_fuel off l2)) as [m [H1 [H2 H3]]].
  - intros x. apply on_mask_week'.
  - unfold W. rewrite mirror_week. lia.
  - apply mirror_NoDup. exact N.
  - exact Hm'.
  - rewrite EB, Z.opp_involutive. exact Bp.
  - lia.
  - unfold W. rewrite mirror_week, <- Hw. exact En.
  - exact Hr.
  - exact Hq.
  - intros x Hx. rewrite EB. unfold l2. rewrite biz_earlier by lia. unfold is_business. fold l.
    unfold biz, open_day. f_equal. f_equal. apply eq_true_iff_eq. rewrite !among_In, filter_In.
    split; [tauto|]. intros H. split; [exact H|]. lia.
  - fold off. rewrite (cnt_ext _ (open_day W (mirror l2))) by (intros x _; symmetry; apply open_mirror).
    replace (days_of_fuel off l2) with (days_of_fuel off (mirror l2))
      by (unfold days_of_fuel, mirror; rewrite zlen_map; reflexivity).
    apply enough.
    + intros x. apply on_mask_week'.
    + unfold W. rewrite mirror_week. lia.
    + apply mirror_NoDup, SSorted_lt_NoDup. exact S2.
    + intros h Hh. apply Hm'. unfold mirror in *. apply in_map_iff in Hh. destruct Hh as [k [<- Hk]]. apply in_map.
      apply filter_In in Hk. destruct Hk as [Hk _]. apply filter_In in Hk. tauto.
    + unfold off. pose proof (zlen_nonneg (filter (within (- p) (- p + 7 * q)) (mirror l))). lia.
  - exists m. split; [congruence|]. split; [exact Bp|]. fold off in H1. rewrite Ed, H1.
    split; [lia|]. split.
    + rewrite <- H2. apply cnt_ext. intros x _. symmetry. apply EB.
    + rewrite EB in H3. replace (- (- p + Z.of_nat m)) with (p - Z.of_nat m) in H3 by lia. exact H3.
Qed.
