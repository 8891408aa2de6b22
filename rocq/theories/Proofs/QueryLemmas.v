(** Correctness of the query methods on well-formed schedules. *)
From Coq Require Import String ZArith List Bool Lia Sorting.Sorted.
From Verif.Model Require Import Base Helpers Queries.
From Verif.Spec Require Import Schedule.
From Verif.Proofs Require Import BaseLemmas ScheduleLemmas.
Import ListNotations.
Open Scope Z_scope.

Lemma map_id_Z : forall l : list Z, map (fun x => x) l = l.
Proof. induction l; simpl; f_equal; auto. Qed.

(** ** Dividers *)

Lemma next_divider_spec : forall l t, StronglySorted Z.lt l ->
  match bind (next_divider_idx l t) (fun idx => pyget l idx) with
  | Ok x => least (fun y => In y l /\ t < y) x
  | Raise e => e = IndexError /\ forall y, In y l -> y <= t
  end.
Proof.
  intros l t Hs. unfold next_divider_idx.
  destruct (searchsorted_right_split (fun x => x) l t) as [l1 [l2 [E [H1 [H2 Hi]]]]].
  { eapply SSorted_impl; [|exact Hs]. intros; lia. }
  rewrite map_id_Z in Hi. rewrite Hi. subst l.
  destruct l2 as [|x l2].
  - rewrite app_nil_r. rewrite pyget_end. simpl.
    split; [reflexivity|]. rewrite Forall_forall in H1. exact H1.
  - rewrite pyget_app_mid. cbv [bind].
    apply Forall_cons_iff in H2. destruct H2 as [Hx H2].
    destruct (t =? x) eqn:E; [lia|]. cbv [bind]. rewrite pyget_app_mid.
    split.
    + split; [apply in_app_iff; right; left; reflexivity|exact Hx].
    + intros y [Hy Hty]. apply in_app_iff in Hy. destruct Hy as [Hy|[<-|Hy]].
      * rewrite Forall_forall in H1. specialize (H1 _ Hy). simpl in H1. lia.
      * lia.
      * apply SSorted_app in Hs. destruct Hs as [_ [Hs _]].
        apply SSorted_cons in Hs. destruct Hs as [_ Hs].
        rewrite Forall_forall in Hs. specialize (Hs _ Hy). lia.
Qed.

Lemma previous_divider_spec : forall l t, StronglySorted Z.lt l ->
  match bind (previous_divider_idx l t) (fun idx => pyget l idx) with
  | Ok x => greatest (fun y => In y l /\ y < t) x
  | Raise e => e = ValueError /\ forall y, In y l -> t <= y
  end.
Proof.
  intros l t Hs. unfold previous_divider_idx.
  destruct (searchsorted_left_split (fun x => x) l t) as [l1 [l2 [E [H1 [H2 Hi]]]]].
  { eapply SSorted_impl; [|exact Hs]. intros; lia. }
  rewrite map_id_Z in Hi. rewrite Hi. subst l.
  destruct l1 as [|x l1] using rev_ind.
  - change (zlen []) with 0. simpl.
    split; [reflexivity|]. rewrite Forall_forall in H2. exact H2.
  - clear IHl1. pose proof (zlen_nonneg l1).
    rewrite zlen_app. change (zlen [x]) with 1.
    destruct (zlen l1 + 1 =? 0) eqn:E; [lia|]. simpl.
    replace (zlen l1 + 1 - 1) with (zlen l1) by lia.
    rewrite <- app_assoc. simpl. rewrite pyget_app_mid.
    apply Forall_app in H1. destruct H1 as [H1 Hx].
    apply Forall_cons_iff in Hx. destruct Hx as [Hx _].
    rewrite <- app_assoc in Hs. simpl in Hs.
    apply SSorted_app in Hs. destruct Hs as [_ [_ Hs]].
    split.
    + split; [apply in_app_iff; right; left; reflexivity|exact Hx].
    + intros y [Hy Hty]. apply in_app_iff in Hy. destruct Hy as [Hy|[<-|Hy]].
      * specialize (Hs y x Hy (or_introl eq_refl)). lia.
      * lia.
      * rewrite Forall_forall in H2. specialize (H2 _ Hy). lia.
Qed.

Lemma in_map_iff' : forall {A} (f : A -> Z) l y,
  In y (map f l) <-> exists s, In s l /\ y = f s.
Proof.
  intros. rewrite in_map_iff. split; intros [s [H1 H2]]; exists s; auto.
Qed.

Section Queries.
Variable c : calendar.
Variable ss : list session.
Hypothesis Hwf : well_formed ss.
Hypothesis Hc : has_schedule c ss.

Let Hcols : cols c ss := has_schedule_cols c ss Hc.

Lemma opens_sorted : StronglySorted Z.lt (opens c).
Proof.
  rewrite (col_opens _ _ Hcols). apply SSorted_map. apply wf_open_sorted. exact Hwf.
Qed.

Lemma closes_sorted : StronglySorted Z.lt (closes c).
Proof.
  rewrite (col_closes _ _ Hcols). apply SSorted_map. apply wf_close_sorted. exact Hwf.
Qed.

Lemma sessions_sorted : StronglySorted Z.lt (sessions c).
Proof.
  rewrite (col_sessions _ _ Hcols). apply SSorted_map. apply wf_label_sorted. exact Hwf.
Qed.

Lemma c_minutes_sorted : StronglySorted Z.lt (minutes c).
Proof. rewrite (col_minutes _ _ Hcols). apply minutes_sorted. exact Hwf. Qed.

Lemma c_minutes_In : forall t, In t (minutes c) <-> trading_minute ss t.
Proof. intros. rewrite (col_minutes _ _ Hcols). apply minutes_In. exact Hwf. Qed.

Lemma ord : forall s, In s ss -> ordered_session s.
Proof. intros s H. apply (wf_In ss s Hwf H). Qed.

Lemma ordF : Forall ordered_session ss.
Proof. apply Hwf. Qed.

(** ** is_open_on_minute *)

Lemma opens_left_inside_start : forall ss1 s ss2 t, ss = ss1 ++ s :: ss2 ->
  Forall (fun x => s_close x < t) ss1 -> Forall (fun x => t < s_open x) ss2 ->
  t <= s_open s ->
  searchsorted_left (opens c) t = zlen ss1.
Proof.
  intros ss1 s ss2 t E H1 H2 Hs. rewrite (col_opens _ _ Hcols), E.
  pose proof ordF as Ho. rewrite E in Ho. apply Forall_app in Ho. destruct Ho as [Ho1 Ho2].
  apply searchsorted_left_at.
  - apply opens_of_close_lt; assumption.
  - constructor; [exact Hs|]. eapply Forall_impl; [|exact H2]. intros; simpl in *; lia.
Qed.

Lemma opens_left_inside_later : forall ss1 s ss2 t, ss = ss1 ++ s :: ss2 ->
  Forall (fun x => s_close x < t) ss1 -> Forall (fun x => t < s_open x) ss2 ->
  s_open s < t ->
  searchsorted_left (opens c) t = zlen ss1 + 1.
Proof.
  intros ss1 s ss2 t E H1 H2 Hs. rewrite (col_opens _ _ Hcols), E.
  pose proof ordF as Ho. rewrite E in Ho. apply Forall_app in Ho. destruct Ho as [Ho1 Ho2].
  replace (ss1 ++ s :: ss2) with ((ss1 ++ [s]) ++ ss2) by (rewrite <- app_assoc; reflexivity).
  rewrite searchsorted_left_at.
  - rewrite zlen_app. reflexivity.
  - apply Forall_app. split; [|constructor; auto].
    apply opens_of_close_lt; assumption.
  - eapply Forall_impl; [|exact H2]. intros; simpl in *; lia.
Qed.

Lemma opens_left_between : forall ss1 ss2 t, ss = ss1 ++ ss2 ->
  Forall (fun x => s_close x < t) ss1 -> Forall (fun x => t < s_open x) ss2 ->
  searchsorted_left (opens c) t = zlen ss1.
Proof.
  intros ss1 ss2 t E H1 H2. rewrite (col_opens _ _ Hcols), E.
  pose proof ordF as Ho. rewrite E in Ho. apply Forall_app in Ho. destruct Ho as [Ho1 Ho2].
  apply searchsorted_left_at.
  - apply opens_of_close_lt; assumption.
  - eapply Forall_impl; [|exact H2]. intros; simpl in *; lia.
Qed.

Lemma opens_right_between : forall ss1 ss2 t, ss = ss1 ++ ss2 ->
  Forall (fun x => s_close x < t) ss1 -> Forall (fun x => t < s_open x) ss2 ->
  searchsorted_right (opens c) t = zlen ss1.
Proof.
  intros ss1 ss2 t E H1 H2. rewrite (col_opens _ _ Hcols), E.
  pose proof ordF as Ho. rewrite E in Ho. apply Forall_app in Ho. destruct Ho as [Ho1 Ho2].
  apply searchsorted_right_at.
  - apply (opens_of_close_lt ss1 t Ho1) in H1. eapply Forall_impl; [|exact H1].
    intros; simpl in *; lia.
  - exact H2.
Qed.

Lemma opens_right_inside : forall ss1 s ss2 t, ss = ss1 ++ s :: ss2 ->
  Forall (fun x => s_close x < t) ss1 -> Forall (fun x => t < s_open x) ss2 ->
  s_open s <= t ->
  searchsorted_right (opens c) t = zlen ss1 + 1.
Proof.
  intros ss1 s ss2 t E H1 H2 Hs. rewrite (col_opens _ _ Hcols), E.
  pose proof ordF as Ho. rewrite E in Ho. apply Forall_app in Ho. destruct Ho as [Ho1 Ho2].
  replace (ss1 ++ s :: ss2) with ((ss1 ++ [s]) ++ ss2) by (rewrite <- app_assoc; reflexivity).
  rewrite searchsorted_right_at.
  - rewrite zlen_app. reflexivity.
  - apply Forall_app. split; [|constructor; auto].
    apply (opens_of_close_lt ss1 t Ho1) in H1. eapply Forall_impl; [|exact H1].
    intros; simpl in *; lia.
  - exact H2.
Qed.

Lemma closes_left_inside : forall ss1 s ss2 t, ss = ss1 ++ s :: ss2 ->
  Forall (fun x => s_close x < t) ss1 -> Forall (fun x => t < s_open x) ss2 ->
  t <= s_close s ->
  searchsorted_left (closes c) t = zlen ss1.
Proof.
  intros ss1 s ss2 t E H1 H2 Hs. rewrite (col_closes _ _ Hcols), E.
  pose proof ordF as Ho. rewrite E in Ho. apply Forall_app in Ho. destruct Ho as [Ho1 Ho2].
  apply searchsorted_left_at.
  - exact H1.
  - constructor; [exact Hs|]. apply Forall_cons_iff in Ho2. destruct Ho2 as [_ Ho2].
    apply (closes_of_open_gt ss2 t Ho2) in H2.
    eapply Forall_impl; [|exact H2]. intros; simpl in *; lia.
Qed.

Lemma closes_left_between : forall ss1 ss2 t, ss = ss1 ++ ss2 ->
  Forall (fun x => s_close x < t) ss1 -> Forall (fun x => t < s_open x) ss2 ->
  searchsorted_left (closes c) t = zlen ss1.
Proof.
  intros ss1 ss2 t E H1 H2. rewrite (col_closes _ _ Hcols), E.
  pose proof ordF as Ho. rewrite E in Ho. apply Forall_app in Ho. destruct Ho as [Ho1 Ho2].
  apply searchsorted_left_at.
  - exact H1.
  - apply (closes_of_open_gt ss2 t Ho2) in H2.
    eapply Forall_impl; [|exact H2]. intros; simpl in *; lia.
Qed.

Lemma not_during_prefix : forall l t, Forall (fun x => s_close x < t) l ->
  forall s, In s l -> ~ during s t.
Proof.
  intros l t H s Hs D. rewrite Forall_forall in H. specialize (H s Hs).
  unfold during in D. simpl in H. lia.
Qed.

Lemma not_during_suffix : forall l t, Forall (fun x => t < s_open x) l ->
  forall s, In s l -> ~ during s t.
Proof.
  intros l t H s Hs D. rewrite Forall_forall in H. specialize (H s Hs).
  unfold during in D. simpl in H. lia.
Qed.

Lemma pyget_col : forall (f : session -> Z) ss1 s ss2,
  pyget (map f (ss1 ++ s :: ss2)) (zlen ss1) = Ok (f s).
Proof.
  intros. rewrite pyget_map, pyget_app_mid. reflexivity.
Qed.

Lemma is_open_spec : forall t ib,
  exists b, is_open_on_minute c t ib = Ok b /\
  (b = true <-> exists s, In s ss /\ during s t /\
     (ib = true \/ t = s_open s \/ ~ in_break s t)).
Proof.
  intros t ib. unfold is_open_on_minute.
  destruct (locate ss t Hwf) as [ss1 s ss2 E H1 D H2|ss1 ss2 E H1 H2].
  - assert (Hin : In s ss) by (rewrite E; apply in_app_iff; right; left; reflexivity).
    assert (Huniq : forall s', In s' ss -> during s' t -> s' = s).
    { intros s' Hs' D'. apply (wf_during_inj ss s' s t Hwf Hs' Hin D' D). }
    rewrite (closes_left_inside ss1 s ss2 t E H1 H2) by apply D.
    destruct (Z_lt_le_dec (s_open s) t) as [Hlt|Hle].
    + rewrite (opens_left_inside_later ss1 s ss2 t E H1 H2 Hlt).
      destruct (zlen ss1 + 1 =? zlen ss1) eqn:Eq; [lia|]. cbv [negb].
      destruct ib.
      * exists true. split; [reflexivity|]. split; [|reflexivity].
        intros _. exists s. auto.
      * replace (zlen ss1 + 1 - 1) with (zlen ss1) by lia.
        rewrite (col_bs _ _ Hcols), (col_be _ _ Hcols), E, !pyget_col. cbv [bind].
        assert (Hbr : ((bs_cell s <=? t) && (t <? be_cell s) = true <-> in_break s t)).
        { unfold bs_cell, be_cell, in_break. destruct (s_break s) as [[b e]|].
          - rewrite andb_true_iff, Z.leb_le, Z.ltb_lt. tauto.
          - rewrite andb_true_iff, Z.leb_le, Z.ltb_lt. lia. }
        destruct ((bs_cell s <=? t) && (t <? be_cell s)) eqn:Eb.
        -- exists false. split; [reflexivity|]. split; [discriminate|].
           intros [s' [Hs' [D' [F|[F|F]]]]]; [discriminate| |];
           rewrite <- E in Hs'; rewrite (Huniq s' Hs' D') in F.
           ++ lia.
           ++ exfalso. apply F. apply Hbr. reflexivity.
        -- exists true. split; [reflexivity|]. split; [|reflexivity].
           intros _. exists s. rewrite <- E. split; [exact Hin|]. split; [exact D|]. right. right.
           intros F. apply Hbr in F. discriminate.
    + assert (t = s_open s) by (unfold during in D; lia). subst t.
      rewrite (opens_left_inside_start ss1 s ss2 _ E H1 H2) by lia.
      rewrite Z.eqb_refl. cbv [negb].
      rewrite (col_opens _ _ Hcols), E, pyget_col.
      exists true. rewrite Z.eqb_refl. split; [reflexivity|]. split; [|reflexivity].
      intros _. exists s. rewrite <- E. auto.
  - rewrite (closes_left_between ss1 ss2 t E H1 H2), (opens_left_between ss1 ss2 t E H1 H2).
    rewrite Z.eqb_refl. cbv [negb]. exists false.
    assert (Hno : forall s, In s ss -> ~ during s t).
    { intros s Hs. rewrite E in Hs. apply in_app_iff in Hs. destruct Hs as [Hs|Hs].
      - eapply not_during_prefix; eauto.
      - eapply not_during_suffix; eauto. }
    split.
    + rewrite (col_opens _ _ Hcols), E. destruct ss2 as [|s ss2].
      * rewrite app_nil_r. rewrite <- (zlen_map s_open ss1), pyget_end. reflexivity.
      * rewrite pyget_col. apply Forall_cons_iff in H2. destruct H2 as [H2 _].
        destruct (t =? s_open s) eqn:Eq; [lia|reflexivity].
    + split; [discriminate|]. intros [s [Hs [D _]]]. exfalso. apply (Hno s Hs D).
Qed.

(** ** next / previous session label *)

Lemma split_at_label : forall l, In l (sessions c) ->
  exists ss1 s ss2, ss = ss1 ++ s :: ss2 /\ s_label s = l /\
    get_loc (sessions c) l = Ok (zlen ss1).
Proof.
  intros l Hl. rewrite (col_sessions _ _ Hcols) in *. apply in_map_iff in Hl.
  destruct Hl as [s [El Hs]]. apply in_split in Hs. destruct Hs as [ss1 [ss2 E]].
  exists ss1, s, ss2. split; [exact E|]. split; [exact El|].
  rewrite E, map_app. simpl map. rewrite El. rewrite get_loc_app.
  - rewrite zlen_map. reflexivity.
  - intros Hin. apply in_map_iff in Hin. destruct Hin as [s' [El' Hs']].
    assert (s' = s).
    { apply (wf_label_inj ss s' s Hwf).
      - rewrite E. apply in_app_iff. auto.
      - rewrite E. apply in_app_iff. right. left. reflexivity.
      - congruence. }
    subst s'. pose proof (wf_label_sorted ss Hwf) as Hs. rewrite E in Hs.
    apply SSorted_app in Hs. destruct Hs as [_ [_ Hs]].
    specialize (Hs s s Hs' (or_introl eq_refl)). lia.
Qed.

Lemma next_session_label_spec : forall l,
  match next_session_label c l with
  | Ok x => In l (sessions c) /\ least (fun y => In y (sessions c) /\ l < y) x
  | Raise e =>
      (e = KeyError /\ ~ In l (sessions c)) \/
      (e = ValueError /\ greatest (fun y => In y (sessions c)) l)
  end.
Proof.
  intros l. unfold next_session_label.
  destruct (in_dec Z.eq_dec l (sessions c)) as [Hin|Hnot].
  - destruct (split_at_label l Hin) as [ss1 [s [ss2 [E [El Hloc]]]]].
    rewrite Hloc. cbv [bind].
    pose proof (wf_label_sorted ss Hwf) as Hs. rewrite E in Hs.
    apply SSorted_app in Hs. destruct Hs as [Hs1 [Hs2 Hs12]].
    apply SSorted_cons in Hs2. destruct Hs2 as [Hs2 Hss2].
    destruct ss2 as [|s2 ss2].
    + rewrite pyget_ge.
      2:{ rewrite (col_sessions _ _ Hcols), E, zlen_map, zlen_app.
          change (zlen [s]) with 1. lia. }
      rewrite (col_sessions _ _ Hcols), E, zlen_map, zlen_app. change (zlen [s]) with 1.
      destruct (zlen ss1 =? zlen ss1 + 1 - 1) eqn:Eq; [|lia].
      right. split; [reflexivity|]. split.
      * rewrite <- El. apply in_map. apply in_app_iff. right. left. reflexivity.
      * intros y Hy. apply in_map_iff in Hy. destruct Hy as [s' [<- Hs']].
        apply in_app_iff in Hs'. destruct Hs' as [Hs'|[<-|[]]].
        -- specialize (Hs12 s' s Hs' (or_introl eq_refl)). lia.
        -- lia.
    + rewrite (col_sessions _ _ Hcols), E.
      replace (ss1 ++ s :: s2 :: ss2) with ((ss1 ++ [s]) ++ s2 :: ss2)
        by (rewrite <- app_assoc; reflexivity).
      replace (zlen ss1 + 1) with (zlen (ss1 ++ [s])) by (rewrite zlen_app; reflexivity).
      rewrite pyget_col. rewrite <- app_assoc. simpl app. rewrite <- E. split.
      * rewrite <- (col_sessions _ _ Hcols). exact Hin.
      * apply Forall_cons_iff in Hss2. destruct Hss2 as [Hss2 _].
        apply SSorted_cons in Hs2. destruct Hs2 as [_ Hf]. rewrite Forall_forall in Hf.
        split.
        -- split; [|lia]. apply in_map. rewrite E. apply in_app_iff. simpl. auto.
        -- intros y [Hy Hly]. apply in_map_iff in Hy. destruct Hy as [s' [<- Hs']].
           rewrite E in Hs'. apply in_app_iff in Hs'.
           destruct Hs' as [Hs'|[<-|[<-|Hs']]].
           ++ specialize (Hs12 s' s Hs' (or_introl eq_refl)). lia.
           ++ lia.
           ++ lia.
           ++ specialize (Hf s' Hs'). lia.
  - rewrite get_loc_missing by assumption. cbv [bind]. left. auto.
Qed.

Lemma previous_session_label_spec : forall l,
  match previous_session_label c l with
  | Ok x => In l (sessions c) /\ greatest (fun y => In y (sessions c) /\ y < l) x
  | Raise e =>
      (e = KeyError /\ ~ In l (sessions c)) \/
      (e = ValueError /\ least (fun y => In y (sessions c)) l)
  end.
Proof.
  intros l. unfold previous_session_label.
  destruct (in_dec Z.eq_dec l (sessions c)) as [Hin|Hnot].
  - destruct (split_at_label l Hin) as [ss1 [s [ss2 [E [El Hloc]]]]].
    rewrite Hloc. cbv [bind].
    pose proof (wf_label_sorted ss Hwf) as Hs. rewrite E in Hs.
    apply SSorted_app in Hs. destruct Hs as [Hs1 [Hs2 Hs12]].
    apply SSorted_cons in Hs2. destruct Hs2 as [Hs2 Hss2].
    rewrite Forall_forall in Hss2.
    destruct ss1 as [|s0 ss1] using rev_ind.
    + change (zlen []) with 0. rewrite Z.eqb_refl. right. split; [reflexivity|].
      split; [exact Hin|]. intros y Hy. rewrite (col_sessions _ _ Hcols), E in Hy.
      apply in_map_iff in Hy. destruct Hy as [s' [<- [<-|Hs']]]; [lia|].
      specialize (Hss2 s' Hs'). lia.
    + clear IHss1. pose proof (zlen_nonneg ss1). rewrite zlen_app. change (zlen [s0]) with 1.
      destruct (zlen ss1 + 1 =? 0) eqn:Eq; [lia|].
      replace (zlen ss1 + 1 - 1) with (zlen ss1) by lia.
      rewrite (col_sessions _ _ Hcols) in *.
      assert (Hg : pyget (map s_label ss) (zlen ss1) = Ok (s_label s0)).
      { rewrite E, <- app_assoc. apply pyget_col. }
      rewrite Hg.
      split; [exact Hin|]. split.
      * split.
        -- apply in_map. rewrite E. apply in_app_iff. left. apply in_app_iff. simpl; auto.
        -- rewrite <- El. apply Hs12; [|left; reflexivity]. apply in_app_iff. simpl; auto.
      * intros y [Hy Hly]. apply in_map_iff in Hy. destruct Hy as [s' [<- Hs']].
        rewrite E in Hs'. apply in_app_iff in Hs'.
        destruct Hs' as [Hs'|[<-|Hs']].
        -- apply in_app_iff in Hs'. destruct Hs' as [Hs'|[<-|[]]]; [|lia].
           apply SSorted_app in Hs1. destruct Hs1 as [_ [_ Hs1]].
           specialize (Hs1 s' s0 Hs' (or_introl eq_refl)). lia.
        -- lia.
        -- specialize (Hss2 s' Hs'). lia.
  - rewrite get_loc_missing by assumption. cbv [bind]. left. auto.
Qed.

(** ** Slices of sorted lists *)

Lemma slice_range : forall l a b, StronglySorted Z.lt l ->
  lists_exactly (fun x => In x l /\ a <= x <= b)
    (pyslice l (searchsorted_left l a) (searchsorted_right l b)).
Proof.
  intros l a b Hs.
  assert (Hle : StronglySorted (fun x y : Z => x <= y) l).
  { eapply SSorted_impl; [|exact Hs]. intros; lia. }
  destruct (searchsorted_left_split (fun x => x) l a Hle) as [l1 [l2 [E [H1 [H2 Hi]]]]].
  destruct (searchsorted_right_split (fun x => x) l b Hle) as [l3 [l4 [E' [H3 [H4 Hj]]]]].
  rewrite map_id_Z in Hi, Hj. rewrite Hi, Hj.
  rewrite Forall_forall in H1, H2, H3, H4.
  destruct (Z_le_gt_dec (zlen l3) (zlen l1)) as [Hle'|Hgt].
  - rewrite pyslice_empty by (try apply zlen_nonneg; lia).
    split; [constructor|]. intros x. split; [intros []|].
    intros [Hx Hab]. exfalso.
    assert (In x l2).
    { rewrite E in Hx. apply in_app_iff in Hx. destruct Hx as [Hx|Hx]; [|exact Hx].
      specialize (H1 _ Hx). simpl in H1. lia. }
    assert (In x l3).
    { rewrite E' in Hx. apply in_app_iff in Hx. destruct Hx as [Hx|Hx]; [exact Hx|].
      specialize (H4 _ Hx). simpl in H4. lia. }
    (* x in l3, |l3| <= |l1| so l3 is a prefix of l1 *)
    assert (exists r, l1 = l3 ++ r) as [r Hr].
    { assert (firstn (length l3) (l1 ++ l2) = firstn (length l3) (l3 ++ l4)) by congruence.
      rewrite firstn_app, firstn_app, firstn_all, Nat.sub_diag, firstn_O, app_nil_r in H5.
      unfold zlen in Hle'. replace (length l3 - length l1)%nat with 0%nat in H5 by lia.
      rewrite firstn_O, app_nil_r in H5. exists (skipn (length l3) l1).
      rewrite <- H5 at 1. symmetry. apply firstn_skipn. }
    specialize (H1 x). rewrite Hr in H1. specialize (H1 (in_or_app _ _ _ (or_introl H0))).
    simpl in H1. lia.
  - (* l1 is a prefix of l3 *)
    assert (exists m, l3 = l1 ++ m) as [m Hm].
    { assert (firstn (length l1) (l1 ++ l2) = firstn (length l1) (l3 ++ l4)) by congruence.
      rewrite firstn_app, firstn_app, firstn_all, Nat.sub_diag, firstn_O, app_nil_r in H.
      unfold zlen in Hgt. replace (length l1 - length l3)%nat with 0%nat in H by lia.
      rewrite firstn_O, app_nil_r in H. exists (skipn (length l1) l3).
      rewrite H at 1. symmetry. apply firstn_skipn. }
    assert (E2 : l = l1 ++ m ++ l4) by (rewrite E', Hm, app_assoc; reflexivity).
    assert (Hp : pyslice l (zlen l1) (zlen l3) = m)
      by (rewrite E2, Hm, zlen_app; apply pyslice_app3).
    rewrite Hp. split.
    + rewrite E2 in Hs. apply SSorted_app in Hs. destruct Hs as [_ [Hs _]].
      apply SSorted_app in Hs. apply Hs.
    + intros x. split.
      * intros Hx. split; [rewrite E2; apply in_app_iff; right; apply in_app_iff; auto|].
        split.
        -- assert (l2 = m ++ l4).
           { apply (app_inv_head l1). rewrite <- E, <- E2. reflexivity. }
           apply H2. rewrite H. apply in_app_iff. auto.
        -- apply H3. rewrite Hm. apply in_app_iff. auto.
      * intros [Hx Hab]. rewrite E2 in Hx. apply in_app_iff in Hx.
        destruct Hx as [Hx|Hx]; [specialize (H1 _ Hx); simpl in H1; lia|].
        apply in_app_iff in Hx. destruct Hx as [Hx|Hx]; [exact Hx|].
        specialize (H4 _ Hx). simpl in H4. lia.
Qed.

(** Label slices of any column pick the rows whose label is in range. *)
Lemma label_slice_filter : forall {A} (f : session -> A) a b,
  label_slice (sessions c) (map f ss) a b =
  map f (filter (fun s => (a <=? s_label s) && (s_label s <=? b)) ss).
Proof.
  intros A f a b. unfold label_slice. rewrite pyslice_map. f_equal.
  pose proof (wf_label_sorted ss Hwf) as Hs. apply SSorted_lt_le in Hs.
  rewrite (col_sessions _ _ Hcols).
  destruct (searchsorted_left_split s_label ss a Hs) as [l1 [l2 [E [H1 [H2 Hi]]]]].
  destruct (searchsorted_right_split s_label ss b Hs) as [l3 [l4 [E' [H3 [H4 Hj]]]]].
  rewrite Hi, Hj.
  assert (Hfalse : forall (p : session -> bool) l, (forall x, In x l -> p x = false) -> filter p l = []).
  { induction l as [|x l IH]; intros Hp; simpl; [reflexivity|].
    rewrite Hp by (left; reflexivity). apply IH. intros; apply Hp; right; assumption. }
  assert (Htrue : forall (p : session -> bool) l, (forall x, In x l -> p x = true) -> filter p l = l).
  { induction l as [|x l IH]; intros Hp; simpl; [reflexivity|].
    rewrite Hp by (left; reflexivity). f_equal. apply IH. intros; apply Hp; right; assumption. }
  rewrite Forall_forall in H1, H2, H3, H4.
  destruct (Z_le_gt_dec (zlen l3) (zlen l1)) as [Hle'|Hgt].
  - rewrite pyslice_empty by (try apply zlen_nonneg; lia).
    symmetry. apply Hfalse. intros x Hx.
    destruct (a <=? s_label x) eqn:Ea; [|reflexivity]. simpl.
    destruct (s_label x <=? b) eqn:Eb; [|reflexivity]. exfalso.
    assert (In x l3).
    { rewrite E' in Hx. apply in_app_iff in Hx. destruct Hx as [Hx|Hx]; [exact Hx|].
      specialize (H4 _ Hx). simpl in H4. lia. }
    assert (exists r, l1 = l3 ++ r) as [r Hr].
    { assert (Hf : firstn (length l3) (l1 ++ l2) = firstn (length l3) (l3 ++ l4)) by congruence.
      rewrite firstn_app, firstn_app, firstn_all, Nat.sub_diag, firstn_O, app_nil_r in Hf.
      unfold zlen in Hle'. replace (length l3 - length l1)%nat with 0%nat in Hf by lia.
      rewrite firstn_O, app_nil_r in Hf. exists (skipn (length l3) l1).
      rewrite <- Hf at 1. symmetry. apply firstn_skipn. }
    specialize (H1 x). rewrite Hr in H1. specialize (H1 (in_or_app _ _ _ (or_introl H))).
    simpl in H1. lia.
  - assert (exists m, l3 = l1 ++ m) as [m Hm].
    { assert (Hf : firstn (length l1) (l1 ++ l2) = firstn (length l1) (l3 ++ l4)) by congruence.
      rewrite firstn_app, firstn_app, firstn_all, Nat.sub_diag, firstn_O, app_nil_r in Hf.
      unfold zlen in Hgt. replace (length l1 - length l3)%nat with 0%nat in Hf by lia.
      rewrite firstn_O, app_nil_r in Hf. exists (skipn (length l1) l3).
      rewrite Hf at 1. symmetry. apply firstn_skipn. }
    assert (E2 : ss = l1 ++ m ++ l4) by (rewrite E', Hm, app_assoc; reflexivity).
    assert (E3 : l2 = m ++ l4).
    { apply (app_inv_head l1). rewrite <- E, <- E2. reflexivity. }
    assert (Hp : pyslice ss (zlen l1) (zlen l3) = m)
      by (rewrite E2, Hm, zlen_app; apply pyslice_app3).
    rewrite Hp.
    rewrite E2, !filter_app.
    rewrite (Hfalse _ l1), (Htrue _ m), (Hfalse _ l4); [rewrite app_nil_r; reflexivity| | |].
    + intros x Hx. specialize (H4 _ Hx). simpl in H4.
      destruct (s_label x <=? b) eqn:Eb; [lia|]. apply andb_false_r.
    + intros x Hx. assert (a <= s_label x).
      { apply H2. rewrite E3. apply in_app_iff. auto. }
      assert (s_label x <= b). { apply H3. rewrite Hm. apply in_app_iff. auto. }
      apply andb_true_iff. split; lia.
    + intros x Hx. specialize (H1 _ Hx). simpl in H1.
      destruct (a <=? s_label x) eqn:Eb; [lia|reflexivity].
Qed.

Lemma sessions_in_range_filter : forall a b,
  sessions_in_range c a b =
  map s_label (filter (fun s => (a <=? s_label s) && (s_label s <=? b)) ss).
Proof.
  intros. unfold sessions_in_range, all_sessions.
  rewrite <- label_slice_filter. rewrite <- (col_sessions _ _ Hcols). reflexivity.
Qed.

(** ** minutes_in_range *)

Lemma minutes_in_range_Ok : forall a b,
  (exists m, trading_minute ss m /\ b <= m) ->
  exists l, minutes_in_range c a b = Ok l /\
    lists_exactly (fun t => trading_minute ss t /\ a <= t <= b) l.
Proof.
  intros a b [m [Hm Hbm]]. unfold minutes_in_range.
  pose proof c_minutes_sorted as Hs.
  assert (Hle : StronglySorted (fun x y : Z => x <= y) (minutes c)).
  { eapply SSorted_impl; [|exact Hs]. intros; lia. }
  destruct (searchsorted_left_split (fun x => x) (minutes c) b Hle)
    as [l1 [l2 [E [H1 [H2 Hi]]]]]. rewrite map_id_Z in Hi. rewrite Hi.
  destruct l2 as [|x l2].
  { exfalso. apply c_minutes_In in Hm. rewrite E, app_nil_r in Hm.
    rewrite Forall_forall in H1. specialize (H1 _ Hm). simpl in H1. lia. }
  assert (Hg : pyget (minutes c) (zlen l1) = Ok x) by (rewrite E; apply pyget_app_mid).
  rewrite Hg. cbv [bind].
  eexists. split; [reflexivity|].
  assert (Hj : (if b =? x then zlen l1 + 1 else zlen l1) = searchsorted_right (minutes c) b).
  { apply Forall_cons_iff in H2. destruct H2 as [Hx H2].
    assert (Hx2 : Forall (fun y => x < y) l2).
    { rewrite E in Hs. apply SSorted_app in Hs. destruct Hs as [_ [Hs _]].
      apply SSorted_cons in Hs. apply Hs. }
    rewrite E. rewrite <- (map_id_Z (l1 ++ x :: l2)).
    destruct (b =? x) eqn:Eb.
    - assert (b = x) by lia. subst b.
      replace (l1 ++ x :: l2) with ((l1 ++ [x]) ++ l2) by (rewrite <- app_assoc; reflexivity).
      rewrite searchsorted_right_at.
      + rewrite zlen_app. reflexivity.
      + apply Forall_app. split; [eapply Forall_impl; [|exact H1]; intros; simpl in *; lia|].
        constructor; [lia|constructor].
      + exact Hx2.
    - rewrite searchsorted_right_at; [reflexivity| |].
      + eapply Forall_impl; [|exact H1]; intros; simpl in *; lia.
      + constructor; [lia|]. eapply Forall_impl; [|exact Hx2]. intros; simpl in *; lia. }
  rewrite Hj.
  destruct (slice_range (minutes c) a b Hs) as [R1 R2]. split; [exact R1|].
  intros t. rewrite R2, c_minutes_In. reflexivity.
Qed.

Lemma minutes_in_range_Raise : forall a b,
  (forall m, trading_minute ss m -> m < b) ->
  minutes_in_range c a b = Raise IndexError.
Proof.
  intros a b Hall. unfold minutes_in_range.
  pose proof c_minutes_sorted as Hs.
  assert (Hi : searchsorted_left (minutes c) b = zlen (minutes c)).
  { rewrite <- (map_id_Z (minutes c)) at 1. rewrite <- (app_nil_r (minutes c)) at 1.
    apply searchsorted_left_at; [|constructor].
    apply Forall_forall; intros m Hm; apply Hall; apply c_minutes_In; exact Hm. }
  rewrite Hi, pyget_end. reflexivity.
Qed.

Lemma schedule_at_col : forall f ss1 s ss2 (column : calendar -> list Z),
  column c = map f ss -> ss = ss1 ++ s :: ss2 ->
  schedule_at c column (s_label s) = Ok (f s).
Proof.
  intros f ss1 s ss2 column Hcol E. unfold schedule_at.
  assert (Hin : In (s_label s) (sessions c)).
  { rewrite (col_sessions _ _ Hcols). apply in_map. rewrite E. apply in_app_iff; simpl; auto. }
  destruct (split_at_label _ Hin) as [t1 [s' [t2 [E' [El Hloc]]]]].
  assert (s' = s).
  { apply (wf_label_inj ss s' s Hwf); [| |exact El]; [rewrite E'|rewrite E];
      apply in_app_iff; simpl; auto. }
  subst s'. rewrite Hloc. cbv [bind]. rewrite Hcol, E'. apply pyget_col.
Qed.

Lemma schedule_at_In : forall f s (column : calendar -> list Z),
  column c = map f ss -> In s ss -> schedule_at c column (s_label s) = Ok (f s).
Proof.
  intros f s column Hcol Hs. apply in_split in Hs. destruct Hs as [ss1 [ss2 E]].
  eapply schedule_at_col; eauto.
Qed.

Lemma schedule_at_missing : forall l (column : calendar -> list Z),
  ~ In l (map s_label ss) -> schedule_at c column l = Raise KeyError.
Proof.
  intros l column H. unfold schedule_at. rewrite get_loc_missing; [reflexivity|].
  rewrite (col_sessions _ _ Hcols). exact H.
Qed.

Lemma close_is_minute : forall s, In s ss -> trading_minute ss (s_close s).
Proof.
  intros s Hs. exists s. split; [exact Hs|].
  destruct (wf_In _ _ Hwf Hs). apply session_minute_close; assumption.
Qed.

Lemma minute_between_own : forall s t, In s ss ->
  (trading_minute ss t /\ s_open s <= t <= s_close s) <-> session_minute s t.
Proof.
  intros s t Hs. split.
  - intros [[s' [Hs' Ht]] D].
    assert (s' = s).
    { apply (wf_during_inj ss s' s t Hwf Hs' Hs); [|exact D].
      apply session_minute_during; [apply ord; exact Hs'|exact Ht]. }
    subst s'. exact Ht.
  - intros Ht. split; [exists s; auto|].
    apply (session_minute_during s t); [apply ord; exact Hs|exact Ht].
Qed.

Lemma lists_exactly_unique : forall P Q l1 l2,
  lists_exactly P l1 -> lists_exactly Q l2 -> (forall x, P x <-> Q x) -> l1 = l2.
Proof.
  intros P Q l1 l2 [S1 I1] [S2 I2] H. apply SSorted_lt_unique; auto.
  intros x. rewrite I1, I2. apply H.
Qed.

Lemma minutes_for_session_sm : forall s, In s ss ->
  minutes_for_session c (s_label s) = Ok (sm s).
Proof.
  intros s Hs. unfold minutes_for_session.
  rewrite (schedule_at_In s_open s opens (col_opens _ _ Hcols) Hs).
  rewrite (schedule_at_In s_close s closes (col_closes _ _ Hcols) Hs). cbv [bind].
  destruct (minutes_in_range_Ok (s_open s) (s_close s)) as [l [El Hl]].
  { exists (s_close s). split; [apply close_is_minute; exact Hs|lia]. }
  rewrite El. f_equal.
  destruct (wf_In _ _ Hwf Hs) as [Ho Hw].
  eapply lists_exactly_unique; [exact Hl|apply (sm_spec s Ho Hw)|].
  intros t. apply minute_between_own. exact Hs.
Qed.

End Queries.
