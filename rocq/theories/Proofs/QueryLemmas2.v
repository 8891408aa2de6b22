(** Correctness of the query methods, continued: ranges, windows, lookups. *)
From Coq Require Import String ZArith List Bool Lia Sorting.Sorted.
From Verif.Model Require Import Base Helpers Queries.
From Verif.Spec Require Import Schedule.
From Verif.Proofs Require Import BaseLemmas ScheduleLemmas QueryLemmas.
Import ListNotations.
Open Scope Z_scope.

Lemma filter_all_true : forall {A} (p : A -> bool) l,
  (forall x, In x l -> p x = true) -> filter p l = l.
Proof.
  induction l as [|x l IH]; intros Hp; simpl; [reflexivity|].
  rewrite Hp by (left; reflexivity). f_equal. apply IH. intros; apply Hp; right; assumption.
Qed.

Lemma filter_all_false : forall {A} (p : A -> bool) l,
  (forall x, In x l -> p x = false) -> filter p l = [].
Proof.
  induction l as [|x l IH]; intros Hp; simpl; [reflexivity|].
  rewrite Hp by (left; reflexivity). apply IH. intros; apply Hp; right; assumption.
Qed.

Lemma SSorted_filter : forall {A} (R : A -> A -> Prop) p l,
  StronglySorted R l -> StronglySorted R (filter p l).
Proof.
  induction l as [|a l IH]; intros H; simpl; [constructor|].
  apply SSorted_cons in H. destruct H as [H1 H2].
  destruct (p a); [|auto]. apply SSorted_cons. split; [auto|].
  rewrite Forall_forall in *. intros x Hx. apply filter_In in Hx. apply H2. tauto.
Qed.

Lemma wf_filter : forall p ss, well_formed ss -> well_formed (filter p ss).
Proof.
  intros p ss [H1 [H2 H3]]. repeat split.
  - rewrite Forall_forall in *. intros x Hx. apply filter_In in Hx. apply H1; tauto.
  - rewrite Forall_forall in *. intros x Hx. apply filter_In in Hx. apply H2; tauto.
  - apply SSorted_filter. exact H3.
Qed.

Lemma clamp_nonneg : forall n i, 0 <= i -> clamp n i = Z.min i n.
Proof. intros. unfold clamp. destruct (i <? 0) eqn:E; [lia|reflexivity]. Qed.

(** Slices that start in the middle. *)
Lemma pyslice_from : forall {A} (l1 l2 : list A) k, 0 <= k ->
  pyslice (l1 ++ l2) (zlen l1) (zlen l1 + k) = firstn (Z.to_nat k) l2.
Proof.
  intros A l1 l2 k Hk. unfold pyslice.
  pose proof (zlen_nonneg l1). pose proof (zlen_nonneg l2).
  rewrite zlen_app. rewrite !clamp_nonneg by lia.
  replace (Z.min (zlen l1) (zlen l1 + zlen l2)) with (zlen l1) by lia.
  replace (Z.to_nat (zlen l1)) with (length l1) by (unfold zlen; lia).
  rewrite skipn_app, skipn_all, Nat.sub_diag, skipn_O. simpl.
  destruct (Z_le_gt_dec k (zlen l2)).
  - f_equal. lia.
  - replace (Z.to_nat (Z.min (zlen l1 + k) (zlen l1 + zlen l2) - zlen l1))
      with (length l2) by (unfold zlen in *; lia).
    rewrite firstn_all. symmetry. apply firstn_all2. unfold zlen in *. lia.
Qed.

(** Slices that end in the middle. *)
Lemma pyslice_upto : forall {A} (l1 l2 : list A) k, 0 <= k <= zlen l1 ->
  pyslice (l1 ++ l2) (zlen l1 - k) (zlen l1) = rev (firstn (Z.to_nat k) (rev l1)).
Proof.
  intros A l1 l2 k Hk.
  assert (Hs : l1 = firstn (length l1 - Z.to_nat k) l1 ++ skipn (length l1 - Z.to_nat k) l1)
    by (symmetry; apply firstn_skipn).
  set (a := firstn (length l1 - Z.to_nat k) l1) in *.
  set (b := skipn (length l1 - Z.to_nat k) l1) in *.
  assert (Hb : zlen b = k).
  { unfold b, zlen. rewrite skipn_length. unfold zlen in Hk. lia. }
  assert (Ha : zlen a = zlen l1 - k).
  { rewrite Hs at 1. rewrite zlen_app. lia. }
  rewrite <- Ha.
  replace (zlen l1) with (zlen a + zlen b) by lia.
  rewrite Hs at 1. rewrite <- app_assoc. rewrite pyslice_app3.
  rewrite Hs at 1. rewrite rev_app_distr.
  rewrite firstn_app. rewrite rev_length.
  replace (Z.to_nat k) with (length (rev b)) at 1
    by (rewrite rev_length; unfold zlen in Hb; lia).
  rewrite firstn_all.
  replace (Z.to_nat k - length b)%nat with 0%nat by (unfold zlen in Hb; lia).
  rewrite firstn_O, app_nil_r, rev_involutive. reflexivity.
Qed.

Section Queries2.
Variable c : calendar.
Variable ss : list session.
Hypothesis Hwf : well_formed ss.
Hypothesis Hc : has_schedule c ss.

Let Hcols : cols c ss := has_schedule_cols c ss Hc.

(** ** Minutes of sessions in range *)

Definition in_range (a b : Z) (s : session) : bool :=
  (a <=? s_label s) && (s_label s <=? b).

Lemma mapM_minutes_for_session : forall l, (forall s, In s l -> In s ss) ->
  mapM (minutes_for_session c) (map s_label l) = Ok (map sm l).
Proof.
  induction l as [|s l IH]; intros H; simpl; [reflexivity|].
  rewrite (minutes_for_session_sm c ss Hwf Hc) by (apply H; left; reflexivity).
  cbv [bind]. fold (@bind (list (list Z)) (list (list Z))).
  rewrite IH by (intros; apply H; right; assumption). reflexivity.
Qed.

Lemma concat_map_sm : forall l, concat (map sm l) = flat_map sm l.
Proof. intros. symmetry. apply flat_map_concat_map. Qed.

Lemma wf_order : forall a b, In a ss -> In b ss ->
  (s_label a <= s_label b <-> s_open a <= s_close b).
Proof.
  intros a b Ha Hb.
  pose proof (ord ss Hwf a Ha) as Oa. pose proof (ord ss Hwf b Hb) as Ob.
  apply ordered_open_close in Oa. apply ordered_open_close in Ob.
  apply in_split in Ha. destruct Ha as [l1 [l2 E]].
  destruct Hwf as [_ [_ Hs]]. rewrite E in Hs. apply SSorted_app in Hs.
  destruct Hs as [_ [Hs2 Hs12]]. apply SSorted_cons in Hs2. destruct Hs2 as [_ Hs2].
  rewrite Forall_forall in Hs2.
  rewrite E in Hb. apply in_app_iff in Hb. destruct Hb as [Hb|[<-|Hb]].
  - destruct (Hs12 b a Hb (or_introl eq_refl)). lia.
  - lia.
  - destruct (Hs2 b Hb). lia.
Qed.

Lemma minutes_for_sessions_in_range_eq : forall a b, In a ss -> In b ss ->
  minutes_for_sessions_in_range c (s_label a) (s_label b) =
  Ok (flat_map sm (filter (in_range (s_label a) (s_label b)) ss)).
Proof.
  intros a b Ha Hb. unfold minutes_for_sessions_in_range, open_and_close_for_session,
    session_open, session_close.
  rewrite (schedule_at_In c ss Hwf Hc s_open a opens (col_opens _ _ Hcols) Ha).
  rewrite (schedule_at_In c ss Hwf Hc s_close a closes (col_closes _ _ Hcols) Ha).
  rewrite (schedule_at_In c ss Hwf Hc s_open b opens (col_opens _ _ Hcols) Hb).
  rewrite (schedule_at_In c ss Hwf Hc s_close b closes (col_closes _ _ Hcols) Hb).
  cbv [bind].
  destruct (minutes_in_range_Ok c ss Hwf Hc (s_open a) (s_close b)) as [l [El Hl]].
  { exists (s_close b). split; [apply close_is_minute; assumption|lia]. }
  rewrite El. f_equal.
  eapply lists_exactly_unique; [exact Hl| |].
  - split.
    + apply minutes_sorted. apply wf_filter. exact Hwf.
    + intros x. apply minutes_In. apply wf_filter. exact Hwf.
  - intros t. unfold trading_minute. split.
    + intros [[s [Hs Ht]] Hab]. exists s. split; [|exact Ht].
      apply filter_In. split; [exact Hs|].
      pose proof (session_minute_during s t (ord ss Hwf s Hs) Ht) as D. unfold during in D.
      unfold in_range. apply andb_true_iff. split; apply Z.leb_le.
      * apply (wf_order a s Ha Hs). lia.
      * apply (wf_order s b Hs Hb). lia.
    + intros [s [Hs Ht]]. apply filter_In in Hs. destruct Hs as [Hs Hr].
      split; [exists s; auto|].
      pose proof (session_minute_during s t (ord ss Hwf s Hs) Ht) as D. unfold during in D.
      unfold in_range in Hr. apply andb_true_iff in Hr. destruct Hr as [R1 R2].
      apply Z.leb_le in R1. apply Z.leb_le in R2.
      destruct (Z.eq_dec (s_label a) (s_label s)) as [Ea|Na].
      * apply (wf_label_inj ss a s Hwf Ha Hs) in Ea. subst s.
        destruct (Z.eq_dec (s_label a) (s_label b)) as [Eb|Nb].
        -- apply (wf_label_inj ss a b Hwf Ha Hb) in Eb. subst b. lia.
        -- assert (~ s_label b <= s_label a) by lia.
           assert (~ s_open b <= s_close a) by (intros X; apply (wf_order b a Hb Ha) in X; lia).
           pose proof (ordered_open_close b (ord ss Hwf b Hb)). lia.
      * assert (~ s_open s <= s_close a) by (intros X; apply (wf_order s a Hs Ha) in X; lia).
        pose proof (ordered_open_close a (ord ss Hwf a Ha)).
        destruct (Z.eq_dec (s_label s) (s_label b)) as [Eb|Nb].
        -- apply (wf_label_inj ss s b Hwf Hs Hb) in Eb. subst b. lia.
        -- assert (~ s_open b <= s_close s) by (intros X; apply (wf_order b s Hb Hs) in X; lia).
           pose proof (ordered_open_close b (ord ss Hwf b Hb)). lia.
Qed.

(** ** Minute counts *)

Definition breaks_in (l : list session) : Z := zlen (filter has_break l).

Lemma mps_row_sm : forall s, ordered_session s -> whole_minutes s ->
  minutes_per_session_row (s_open s) (bs_cell s) (be_cell s) (s_close s)
  = zlen (sm s) - (if has_break s then 1 else 0).
Proof.
  intros s Ho Hw. rewrite sm_eq by assumption. destruct Ho as [Hn Ho].
  unfold minutes_per_session_row, has_break, whole_minutes, bs_cell, be_cell in *.
  rewrite NPM_one_minute, NAT_nat. pose proof one_minute_pos as Hp.
  destruct (s_break s) as [[b e]|].
  - destruct (b =? not_a_time) eqn:E1; [lia|]. destruct (e =? not_a_time) eqn:E2; [lia|].
    simpl. rewrite zlen_app, !arange_zlen by lia.
    destruct Hw as [[p Hp1] [q Hq]].
    replace (s_close s - s_open s - (e - b)) with ((p + q) * one_minute) by lia.
    rewrite Z.quot_mul by lia.
    replace (b + one_minute - s_open s + one_minute - 1)
      with ((p + 1) * one_minute + (one_minute - 1)) by lia.
    replace (s_close s + one_minute - e + one_minute - 1)
      with ((q + 1) * one_minute + (one_minute - 1)) by lia.
    rewrite !Z.div_add_l by lia. rewrite !(Z.div_small (one_minute - 1)) by lia.
    assert (0 <= p) by nia. assert (0 <= q) by nia. lia.
  - rewrite Z.eqb_refl. simpl. rewrite arange_zlen by lia.
    destruct Hw as [p Hp1]. rewrite Z.sub_0_r, Hp1, Z.quot_mul by lia.
    replace (s_close s + one_minute - s_open s + one_minute - 1)
      with ((p + 1) * one_minute + (one_minute - 1)) by lia.
    rewrite !Z.div_add_l by lia. rewrite !(Z.div_small (one_minute - 1)) by lia.
    assert (0 <= p) by nia. lia.
Qed.

Lemma mps_rows_map : forall l,
  minutes_per_session_rows (map s_open l) (map bs_cell l) (map be_cell l) (map s_close l)
  = map (fun s => minutes_per_session_row (s_open s) (bs_cell s) (be_cell s) (s_close s)) l.
Proof. induction l as [|s l IH]; simpl; [reflexivity|]. f_equal. exact IH. Qed.

Lemma minutes_count_eq : forall a b,
  minutes_count_for_sessions_in_range c a b =
  zlen (flat_map sm (filter (in_range a b) ss)) - breaks_in (filter (in_range a b) ss).
Proof.
  intros a b. unfold minutes_count_for_sessions_in_range, minutes_per_session.
  rewrite (col_opens _ _ Hcols), (col_bs _ _ Hcols), (col_be _ _ Hcols), (col_closes _ _ Hcols).
  rewrite mps_rows_map.
  rewrite (label_slice_filter c ss Hwf Hc).
  fold (in_range a b).
  change (fun s : session => (a <=? s_label s) && (s_label s <=? b)) with (in_range a b).
  assert (Hin : forall s, In s (filter (in_range a b) ss) -> ordered_session s /\ whole_minutes s).
  { intros s Hs. apply filter_In in Hs. apply (wf_In ss s Hwf). tauto. }
  induction (filter (in_range a b) ss) as [|s l IH]; [reflexivity|].
  simpl. unfold zsum in *. simpl. rewrite IH by (intros; apply Hin; right; assumption).
  destruct (Hin s (or_introl eq_refl)) as [Ho Hw].
  rewrite mps_row_sm by assumption. rewrite zlen_app. unfold breaks_in. simpl.
  destruct (has_break s); [rewrite zlen_cons|]; lia.
Qed.

(** ** sessions_window *)

Lemma sessions_window_eq : forall ss1 s ss2 n, ss = ss1 ++ s :: ss2 ->
  sessions_window c (s_label s) n =
  Ok (if 0 <=? n then firstn (Z.to_nat (n + 1)) (map s_label (s :: ss2))
      else rev (firstn (Z.to_nat (- n + 1)) (rev (map s_label (ss1 ++ [s]))))).
Proof.
  intros ss1 s ss2 n E. unfold sessions_window.
  assert (Hin : In (s_label s) (sessions c)).
  { rewrite (col_sessions _ _ Hcols). apply in_map. rewrite E. apply in_app_iff; simpl; auto. }
  destruct (split_at_label c ss Hwf Hc _ Hin) as [t1 [s' [t2 [E' [El Hloc]]]]].
  assert (s' = s).
  { apply (wf_label_inj ss s' s Hwf); [| |exact El]; [rewrite E'|rewrite E];
      apply in_app_iff; simpl; auto. }
  subst s'.
  assert (t1 = ss1 /\ t2 = ss2) as [-> ->].
  { pose proof (wf_label_sorted ss Hwf) as Hs. rewrite E in Hs, E'. clear - Hs E'.
    revert t1 E'. induction ss1 as [|a ss1 IH]; intros [|b t1] E'; simpl in *.
    - injection E' as <-. auto.
    - injection E' as <- E'. exfalso. apply SSorted_cons in Hs. destruct Hs as [_ Hs].
      rewrite Forall_forall in Hs. specialize (Hs s). rewrite E' in Hs.
      assert (s_label s < s_label s) by (apply Hs; apply in_app_iff; simpl; auto). lia.
    - injection E' as -> E'. exfalso. apply SSorted_cons in Hs. destruct Hs as [_ Hs].
      rewrite Forall_forall in Hs. specialize (Hs s).
      assert (s_label s < s_label s) by (apply Hs; apply in_app_iff; simpl; auto). lia.
    - injection E' as -> E'. apply SSorted_cons in Hs. destruct Hs as [Hs _].
      destruct (IH Hs t1 E') as [-> ->]. auto. }
  rewrite Hloc. cbv [bind]. f_equal. unfold all_sessions.
  rewrite (col_sessions _ _ Hcols), E. rewrite map_app.
  pose proof (zlen_nonneg ss1). rewrite <- (zlen_map s_label ss1) in *.
  destruct (0 <=? n) eqn:En.
  - replace (Z.min _ _) with (zlen (map s_label ss1)) by lia.
    replace (Z.max _ _ + 1) with (zlen (map s_label ss1) + (n + 1)) by lia.
    rewrite pyslice_from by lia. reflexivity.
  - rewrite map_app. change (map s_label (s :: ss2)) with ([s_label s] ++ map s_label ss2).
    rewrite app_assoc.
    replace (map s_label [s]) with [s_label s] by reflexivity.
    set (l1 := map s_label ss1) in *.
    assert (Hl : zlen (l1 ++ [s_label s]) = zlen l1 + 1) by (rewrite zlen_app; reflexivity).
    replace (Z.max (zlen l1) (Z.max 0 (zlen l1 + n)) + 1) with (zlen (l1 ++ [s_label s])) by lia.
    destruct (Z_le_gt_dec (- n) (zlen l1)).
    + replace (Z.min (zlen l1) (Z.max 0 (zlen l1 + n)))
        with (zlen (l1 ++ [s_label s]) - (- n + 1)) by lia.
      apply pyslice_upto. lia.
    + replace (Z.min (zlen l1) (Z.max 0 (zlen l1 + n)))
        with (zlen (l1 ++ [s_label s]) - (zlen (l1 ++ [s_label s]))) by lia.
      rewrite pyslice_upto by (pose proof (zlen_nonneg (l1 ++ [s_label s])); lia).
      f_equal. rewrite !firstn_all2; try reflexivity; rewrite rev_length; unfold zlen in *; lia.
Qed.

(** ** session_distance *)

Lemma searchsorted_count : forall l a b, StronglySorted Z.lt l -> a <= b ->
  searchsorted_right l b - searchsorted_left l a
  = zlen (pyslice l (searchsorted_left l a) (searchsorted_right l b)).
Proof.
  intros l a b Hs Hab.
  assert (Hle : StronglySorted (fun x y : Z => x <= y) l).
  { eapply SSorted_impl; [|exact Hs]. intros; lia. }
  destruct (searchsorted_left_split (fun x => x) l a Hle) as [l1 [l2 [E [H1 [H2 Hi]]]]].
  destruct (searchsorted_right_split (fun x => x) l b Hle) as [l3 [l4 [E' [H3 [H4 Hj]]]]].
  rewrite map_id_Z in Hi, Hj. rewrite Hi, Hj.
  rewrite Forall_forall in H1, H2, H3, H4.
  assert (zlen l1 <= zlen l3).
  { destruct (Z_le_gt_dec (zlen l1) (zlen l3)) as [|Hgt]; [assumption|]. exfalso.
    (* element of l1 beyond l3 is < a <= b but in l4 *)
    assert (exists x, In x l4 /\ In x l1) as [x [X1 X2]].
    { assert (Hsp : l1 = firstn (length l3) l1 ++ skipn (length l3) l1)
        by (symmetry; apply firstn_skipn).
      destruct (skipn (length l3) l1) as [|x r] eqn:Er.
      - assert (length (skipn (length l3) l1) = 0%nat) by (rewrite Er; reflexivity).
        rewrite skipn_length in H. unfold zlen in Hgt. lia.
      - exists x. split; [|rewrite Hsp; apply in_app_iff; simpl; auto].
        assert (skipn (length l3) (l1 ++ l2) = skipn (length l3) (l3 ++ l4)) by congruence.
        rewrite skipn_app, skipn_app, skipn_all, Nat.sub_diag, skipn_O in H. simpl in H.
        rewrite <- H, Er. simpl. auto. }
    specialize (H4 _ X1). specialize (H1 _ X2). simpl in *. lia. }
  unfold pyslice.
  assert (zlen l1 <= zlen l) by (rewrite E, zlen_app; pose proof (zlen_nonneg l2); lia).
  assert (zlen l3 <= zlen l) by (rewrite E', zlen_app; pose proof (zlen_nonneg l4); lia).
  pose proof (zlen_nonneg l1).
  rewrite !clamp_id by lia.
  unfold zlen at 3. rewrite firstn_length, skipn_length. unfold zlen in *. lia.
Qed.

Lemma session_distance_eq : forall a b,
  session_distance c a b =
  if b <? a then - zlen (sessions_in_range c b a) else zlen (sessions_in_range c a b).
Proof.
  intros a b. unfold session_distance, sessions_in_range, label_slice, all_sessions.
  pose proof (sessions_sorted c ss Hwf Hc) as Hs.
  destruct (b <? a) eqn:E.
  - rewrite <- searchsorted_count by (auto; lia). reflexivity.
  - rewrite <- searchsorted_count by (auto; lia). reflexivity.
Qed.

(** ** minutes_window *)

Lemma minutes_window_split : forall t,
  (exists l1 l2 m, minutes c = l1 ++ m :: l2 /\ m <= t /\ Forall (fun x => t < x) l2 /\
     searchsorted_left (minutes c) t = (if m =? t then zlen l1 else zlen l1 + 1))
  \/ (forall m, In m (minutes c) -> t < m).
Proof.
  intros t. pose proof (c_minutes_sorted c ss Hwf Hc) as Hs.
  assert (Hle : StronglySorted (fun x y : Z => x <= y) (minutes c)).
  { eapply SSorted_impl; [|exact Hs]. intros; lia. }
  destruct (searchsorted_right_split (fun x => x) (minutes c) t Hle)
    as [l1 [l2 [E [H1 [H2 Hi]]]]].
  destruct l1 as [|m l1] using rev_ind.
  - right. intros m Hm. rewrite E in Hm. simpl in Hm. rewrite Forall_forall in H2. auto.
  - clear IHl1. left. exists l1, l2, m.
    rewrite <- app_assoc in E. simpl in E. split; [exact E|].
    apply Forall_app in H1. destruct H1 as [H1 Hm].
    apply Forall_cons_iff in Hm. destruct Hm as [Hm _].
    split; [exact Hm|]. split; [exact H2|].
    assert (Hlt : Forall (fun x => x < m) l1).
    { rewrite E in Hs. apply SSorted_app in Hs. destruct Hs as [_ [_ Hs]].
      apply Forall_forall. intros x Hx. apply Hs; simpl; auto. }
    rewrite E. rewrite <- (map_id_Z (l1 ++ m :: l2)).
    destruct (m =? t) eqn:Em.
    + apply searchsorted_left_at.
      * eapply Forall_impl; [|exact Hlt]. intros; simpl in *; lia.
      * constructor; [lia|]. eapply Forall_impl; [|exact H2]. intros; simpl in *; lia.
    + replace (l1 ++ m :: l2) with ((l1 ++ [m]) ++ l2) by (rewrite <- app_assoc; reflexivity).
      rewrite searchsorted_left_at.
      * rewrite zlen_app. reflexivity.
      * apply Forall_app. split; [eapply Forall_impl; [|exact Hlt]; intros; simpl in *; lia|].
        constructor; [lia|constructor].
      * eapply Forall_impl; [|exact H2]. intros; simpl in *; lia.
Qed.

(** Starting at or after the first minute and not after the last. *)
Lemma minutes_window_eq : forall t n l1 m l2,
  minutes c = l1 ++ m :: l2 -> m <= t -> Forall (fun x => t < x) l2 ->
  (m = t \/ l2 <> []) ->
  minutes_window c t n =
  Ok (if 0 <=? n then firstn (Z.to_nat n) (m :: l2)
      else pyslice (l1 ++ m :: l2) (zlen l1 + n + 1) (zlen l1 + 1)).
Proof.
  intros t n l1 m l2 E Hm H2 Hcase. unfold minutes_window.
  pose proof (c_minutes_sorted c ss Hwf Hc) as Hs.
  pose proof (zlen_nonneg l1). pose proof (zlen_nonneg l2).
  assert (Hlt : Forall (fun x => x < m) l1).
  { rewrite E in Hs. apply SSorted_app in Hs. destruct Hs as [_ [_ Hs]].
    apply Forall_forall. intros x Hx. apply Hs; simpl; auto. }
  assert (Hfin : forall i, i = zlen l1 ->
    (if (i <? 0) || (zlen (minutes c) <=? i) then Raise KeyError
     else
      let end_idx := i + n in
      if end_idx <? i then Ok (pyslice (minutes c) (end_idx + 1) (i + 1))
      else Ok (pyslice (minutes c) i end_idx)) =
    Ok (if 0 <=? n then firstn (Z.to_nat n) (m :: l2)
        else pyslice (l1 ++ m :: l2) (zlen l1 + n + 1) (zlen l1 + 1))).
  { intros i ->. rewrite E. rewrite zlen_app, zlen_cons.
    destruct (zlen l1 <? 0) eqn:E1; [lia|].
    destruct (zlen l1 + (zlen l2 + 1) <=? zlen l1) eqn:E2; [lia|]. simpl.
    destruct (zlen l1 + n <? zlen l1) eqn:E3; destruct (0 <=? n) eqn:E4; try lia.
    - reflexivity.
    - f_equal. apply pyslice_from. lia. }
  destruct (Z.eq_dec m t) as [->|Hne].
  - assert (Hi : searchsorted_left (minutes c) t = zlen l1).
    { rewrite E. rewrite <- (map_id_Z (l1 ++ t :: l2)). apply searchsorted_left_at.
      - exact Hlt.
      - constructor; [lia|]. eapply Forall_impl; [|exact H2]. intros; simpl in *; lia. }
    rewrite Hi.
    assert (Hg : pyget (minutes c) (zlen l1) = Ok t) by (rewrite E; apply pyget_app_mid).
    rewrite Hg. cbv [bind]. rewrite Z.eqb_refl. cbv [negb]. apply Hfin. reflexivity.
  - destruct Hcase as [->|Hl2]; [congruence|].
    destruct l2 as [|x l2]; [congruence|].
    assert (E2 : minutes c = (l1 ++ [m]) ++ x :: l2) by (rewrite E, <- app_assoc; reflexivity).
    assert (Hi : searchsorted_left (minutes c) t = zlen l1 + 1).
    { rewrite E2. rewrite <- (map_id_Z ((l1 ++ [m]) ++ x :: l2)). rewrite searchsorted_left_at.
      - rewrite zlen_app. reflexivity.
      - apply Forall_app. split; [eapply Forall_impl; [|exact Hlt]; intros; simpl in *; lia|].
        constructor; [lia|constructor].
      - eapply Forall_impl; [|exact H2]. intros; simpl in *; lia. }
    rewrite Hi.
    assert (Hg : pyget (minutes c) (zlen l1 + 1) = Ok x).
    { rewrite E2. replace (zlen l1 + 1) with (zlen (l1 ++ [m])) by (rewrite zlen_app; reflexivity).
      apply pyget_app_mid. }
    rewrite Hg. cbv [bind].
    apply Forall_cons_iff in H2. destruct H2 as [Hx _].
    destruct (x =? t) eqn:Ex; [lia|]. cbv [negb].
    replace (zlen l1 + 1 - 1) with (zlen l1) by lia. apply Hfin. reflexivity.
Qed.

Lemma minutes_window_before : forall t n,
  (forall m, In m (minutes c) -> t < m) -> minutes_window c t n = Raise KeyError.
Proof.
  intros t n H. unfold minutes_window.
  assert (Hi : searchsorted_left (minutes c) t = zlen (@nil Z)).
  { rewrite <- (map_id_Z (minutes c)). change (minutes c) with ([] ++ minutes c).
    apply searchsorted_left_at; [constructor|].
    apply Forall_forall. intros x Hx. specialize (H x Hx). lia. }
  rewrite Hi. change (zlen []) with 0.
  pose proof (minutes_nonempty ss Hwf (col_nonempty _ _ Hcols)) as Hne.
  rewrite <- (col_minutes _ _ Hcols) in Hne.
  destruct (minutes c) as [|m l] eqn:E; [congruence|].
  change (pyget (m :: l) 0) with (Ok m). cbv [bind].
  specialize (H m (or_introl eq_refl)).
  destruct (m =? t) eqn:Em; [lia|]. reflexivity.
Qed.

Lemma minutes_window_after : forall t n,
  (forall m, In m (minutes c) -> m < t) -> minutes_window c t n = Raise IndexError.
Proof.
  intros t n H. unfold minutes_window.
  assert (Hi : searchsorted_left (minutes c) t = zlen (minutes c)).
  { rewrite <- (map_id_Z (minutes c)) at 1. rewrite <- (app_nil_r (minutes c)) at 1.
    apply searchsorted_left_at; [|constructor]. apply Forall_forall. exact H. }
  rewrite Hi, pyget_end. reflexivity.
Qed.

(** ** minute_to_session_label *)

Lemma pyget_sessions : forall ss1 s ss2, ss = ss1 ++ s :: ss2 ->
  pyget (sessions c) (zlen ss1) = Ok (s_label s).
Proof. intros ss1 s ss2 E. rewrite (col_sessions _ _ Hcols), E. apply pyget_col. Qed.

Definition lookup (t : Z) (d : string) : result Z :=
  fst (minute_to_session_label c None t d).

Lemma lookup_next_inside : forall s t, In s ss -> during s t ->
  lookup t "next" = Ok (s_label s).
Proof.
  intros s t Hs D. destruct (locate ss t Hwf) as [ss1 s' ss2 E H1 D' H2|ss1 ss2 E H1 H2].
  - assert (s' = s).
    { apply (wf_during_inj ss s' s t Hwf); auto. rewrite E; apply in_app_iff; simpl; auto. }
    subst s'. unfold lookup, minute_to_session_label.
    rewrite (closes_left_inside c ss Hwf Hc ss1 s ss2 t E H1 H2) by apply D.
    rewrite (pyget_sessions ss1 s ss2 E). reflexivity.
  - exfalso. rewrite E in Hs. apply in_app_iff in Hs. destruct Hs as [Hs|Hs].
    + eapply not_during_prefix; eauto.
    + eapply not_during_suffix; eauto.
Qed.

Lemma is_open_true_inside : forall s t, In s ss -> during s t ->
  is_open_on_minute c t true = Ok true.
Proof.
  intros s t Hs D. destruct (is_open_spec c ss Hwf Hc t true) as [b [Eb Hb]].
  rewrite Eb. f_equal. apply Hb. exists s. auto.
Qed.

Lemma is_open_false_outside : forall t ib, (forall s, In s ss -> ~ during s t) ->
  is_open_on_minute c t ib = Ok false.
Proof.
  intros t ib Hno. destruct (is_open_spec c ss Hwf Hc t ib) as [b [Eb Hb]].
  rewrite Eb. f_equal. destruct b; [|reflexivity].
  destruct (proj1 Hb eq_refl) as [s [Hs [D _]]]. exfalso. apply (Hno s Hs D).
Qed.

Lemma lookup_previous_inside : forall s t, In s ss -> during s t ->
  lookup t "previous" = Ok (s_label s).
Proof.
  intros s t Hs D. destruct (locate ss t Hwf) as [ss1 s' ss2 E H1 D' H2|ss1 ss2 E H1 H2].
  - assert (s' = s).
    { apply (wf_during_inj ss s' s t Hwf); auto. rewrite E; apply in_app_iff; simpl; auto. }
    subst s'. unfold lookup, minute_to_session_label. simpl String.eqb. cbv iota.
    rewrite (closes_left_inside c ss Hwf Hc ss1 s ss2 t E H1 H2) by apply D.
    rewrite (pyget_sessions ss1 s ss2 E).
    rewrite (is_open_true_inside s t Hs D). reflexivity.
  - exfalso. rewrite E in Hs. apply in_app_iff in Hs. destruct Hs as [Hs|Hs].
    + eapply not_during_prefix; eauto.
    + eapply not_during_suffix; eauto.
Qed.

Lemma between_no_during : forall ss1 ss2 t, ss = ss1 ++ ss2 ->
  Forall (fun x => s_close x < t) ss1 -> Forall (fun x => t < s_open x) ss2 ->
  forall s, In s ss -> ~ during s t.
Proof.
  intros ss1 ss2 t E H1 H2 s Hs. rewrite E in Hs. apply in_app_iff in Hs.
  destruct Hs as [Hs|Hs].
  - eapply not_during_prefix; eauto.
  - eapply not_during_suffix; eauto.
Qed.

Lemma pyget_sessions_end : pyget (sessions c) (zlen ss) = Raise IndexError.
Proof. rewrite (col_sessions _ _ Hcols), <- (zlen_map s_label ss). apply pyget_end. Qed.

Lemma lookup_after : forall t d, (forall s, In s ss -> s_close s < t) ->
  lookup t d = Raise IndexError.
Proof.
  intros t d H. unfold lookup, minute_to_session_label.
  rewrite (closes_left_between c ss Hwf Hc ss [] t).
  - rewrite pyget_sessions_end. destruct (String.eqb d "next"); reflexivity.
  - rewrite app_nil_r. reflexivity.
  - apply Forall_forall. exact H.
  - constructor.
Qed.

Lemma lookup_next_between : forall ss1 s ss2 t, ss = ss1 ++ s :: ss2 ->
  Forall (fun x => s_close x < t) ss1 -> Forall (fun x => t < s_open x) (s :: ss2) ->
  lookup t "next" = Ok (s_label s).
Proof.
  intros ss1 s ss2 t E H1 H2. unfold lookup, minute_to_session_label.
  rewrite (closes_left_between c ss Hwf Hc ss1 (s :: ss2) t E H1 H2).
  rewrite (pyget_sessions ss1 s ss2 E). reflexivity.
Qed.

Lemma lookup_previous_between : forall ss1 s0 s ss2 t, ss = (ss1 ++ [s0]) ++ s :: ss2 ->
  Forall (fun x => s_close x < t) (ss1 ++ [s0]) -> Forall (fun x => t < s_open x) (s :: ss2) ->
  lookup t "previous" = Ok (s_label s0).
Proof.
  intros ss1 s0 s ss2 t E H1 H2. unfold lookup, minute_to_session_label.
  simpl String.eqb. cbv iota.
  rewrite (closes_left_between c ss Hwf Hc (ss1 ++ [s0]) (s :: ss2) t E H1 H2).
  rewrite (pyget_sessions (ss1 ++ [s0]) s ss2 E).
  rewrite (is_open_false_outside t true (between_no_during _ _ t E H1 H2)).
  simpl. rewrite zlen_app. change (zlen [s0]) with 1.
  replace (zlen ss1 + 1 - 1) with (zlen ss1) by lia.
  apply (pyget_sessions ss1 s0 (s :: ss2)). rewrite E, <- app_assoc. reflexivity.
Qed.

Lemma lookup_previous_before : forall t, (forall s, In s ss -> t < s_open s) ->
  lookup t "previous" = last_session c.
Proof.
  intros t H. unfold lookup, minute_to_session_label.
  simpl String.eqb. cbv iota.
  assert (H2 : Forall (fun x => t < s_open x) ss) by (apply Forall_forall; exact H).
  rewrite (closes_left_between c ss Hwf Hc [] ss t eq_refl (Forall_nil _) H2).
  rewrite (is_open_false_outside t true (between_no_during [] ss t eq_refl (Forall_nil _) H2)).
  change (zlen []) with 0. unfold last_session, all_sessions.
  pose proof (col_nonempty _ _ Hcols) as Hne.
  destruct ss as [|s ss'] eqn:Ess; [congruence|].
  rewrite (col_sessions _ _ Hcols). simpl. reflexivity.
Qed.

Lemma lookup_none_eq : forall t,
  lookup t "none" =
  match lookup t "next" with
  | Raise e => Raise e
  | Ok l => match is_open_on_minute c t false with
            | Ok true => Ok l
            | Ok false => Raise ValueError
            | Raise e => Raise e
            end
  end.
Proof.
  intros t. unfold lookup, minute_to_session_label. simpl String.eqb. cbv iota.
  destruct (pyget (sessions c) _); [|reflexivity]. simpl.
  destruct (is_open_on_minute c t false) as [[|]|]; reflexivity.
Qed.

(** ** Cache transparency (any calendar object) *)

End Queries2.

Definition cache_ok (c : calendar) (cc : cache) : Prop :=
  match cc with
  | None => True
  | Some (t, l) => fst (minute_to_session_label c None t "next") = Ok l
  end.

Lemma step_transparent : forall c cc t d, cache_ok c cc ->
  fst (minute_to_session_label c cc t d) = fst (minute_to_session_label c None t d) /\
  cache_ok c (snd (minute_to_session_label c cc t d)).
Proof.
  intros c cc t d Hok. unfold minute_to_session_label.
  destruct (String.eqb d "next") eqn:Ed.
  - destruct cc as [[t0 l0]|].
    + destruct (t0 =? t) eqn:Et.
      * assert (t0 = t) by lia. subst t0. split; [|exact Hok].
        cbn [fst]. unfold cache_ok, minute_to_session_label in Hok. simpl String.eqb in Hok.
        cbv iota in Hok. symmetry.
        destruct (pyget (sessions c) (searchsorted_left (closes c) t)); exact Hok.
      * destruct (pyget (sessions c) (searchsorted_left (closes c) t)) eqn:Eg.
        -- cbn [fst snd]. split; [reflexivity|]. unfold cache_ok, minute_to_session_label.
           simpl String.eqb. cbv iota. rewrite Eg. reflexivity.
        -- cbn [fst snd]. auto.
    + destruct (pyget (sessions c) (searchsorted_left (closes c) t)) eqn:Eg.
      * cbn [fst snd]. split; [reflexivity|]. unfold cache_ok, minute_to_session_label.
        simpl String.eqb. cbv iota. rewrite Eg. reflexivity.
      * cbn [fst snd]. auto.
  - destruct (pyget (sessions c) (searchsorted_left (closes c) t)); [|cbn; auto].
    destruct (String.eqb d "previous").
    + destruct (is_open_on_minute c t true) as [[|]|]; cbn; auto.
    + destruct (String.eqb d "none").
      * destruct (is_open_on_minute c t false) as [[|]|]; cbn; auto.
      * cbn; auto.
Qed.

Lemma run_transparent : forall c calls cc, cache_ok c cc ->
  fst (run_lookups c cc calls) =
  map (fun call => fst (minute_to_session_label c None (fst call) (snd call))) calls.
Proof.
  intros c calls. induction calls as [|[t d] calls IH]; intros cc Hok; simpl; [reflexivity|].
  destruct (step_transparent c cc t d Hok) as [H1 H2].
  destruct (minute_to_session_label c cc t d) as [r cc'].
  specialize (IH cc' H2). destruct (run_lookups c cc' calls) as [rs cc''].
  cbn [fst snd] in *. rewrite H1, IH. reflexivity.
Qed.
