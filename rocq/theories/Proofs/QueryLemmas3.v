(** minute_index_to_session_labels and execution minutes. *)
From Coq Require Import String ZArith List Bool Lia Sorting.Sorted.
From Verif.Model Require Import Base Helpers Queries.
From Verif.Spec Require Import Schedule.
From Verif.Proofs Require Import BaseLemmas ScheduleLemmas QueryLemmas QueryLemmas2.
Import ListNotations.
Open Scope Z_scope.

Lemma monotonic_sorted : forall l,
  is_monotonic_increasing l = true <-> StronglySorted Z.le l.
Proof.
  induction l as [|a l IH]; [split; constructor|].
  destruct l as [|b l].
  - split; [repeat constructor|reflexivity].
  - change (is_monotonic_increasing (a :: b :: l))
      with ((a <=? b) && is_monotonic_increasing (b :: l)).
    rewrite andb_true_iff, Z.leb_le, IH, !SSorted_cons. split.
    + intros [Hab [Hs Hf]]. split; [split; assumption|].
      constructor; [exact Hab|]. eapply Forall_impl; [|exact Hf]. intros; simpl in *; lia.
    + intros [Hs Hf]. apply Forall_cons_iff in Hf. tauto.
Qed.

Section Queries3.
Variable c : calendar.
Variable ss : list session.
Hypothesis Hwf : well_formed ss.
Hypothesis Hc : has_schedule c ss.
Let Hcols : cols c ss := has_schedule_cols c ss Hc.

(** Previous-open and next-close indices agree exactly inside sessions. *)
Lemma indices_inside : forall s t, In s ss -> during s t ->
  exists i, searchsorted_right (opens c) t - 1 = i /\ searchsorted_left (closes c) t = i /\
    pyget (sessions c) i = Ok (s_label s).
Proof.
  intros s t Hs D. destruct (locate ss t Hwf) as [ss1 s' ss2 E H1 D' H2|ss1 ss2 E H1 H2].
  - assert (s' = s).
    { apply (wf_during_inj ss s' s t Hwf); auto. rewrite E; apply in_app_iff; simpl; auto. }
    subst s'. exists (zlen ss1). repeat split.
    + rewrite (opens_right_inside c ss Hwf Hc ss1 s ss2 t E H1 H2) by apply D. lia.
    + apply (closes_left_inside c ss Hwf Hc ss1 s ss2 t E H1 H2). apply D.
    + apply (pyget_sessions c ss Hc ss1 s ss2 E).
  - exfalso. apply (between_no_during ss ss1 ss2 t E H1 H2 s Hs D).
Qed.

Lemma indices_outside : forall t, (forall s, In s ss -> ~ during s t) ->
  exists k, searchsorted_right (opens c) t - 1 = k - 1 /\ searchsorted_left (closes c) t = k /\
    (exists l, pyget (sessions c) (k - 1) = Ok l) /\
    (match pyget (sessions c) k with
     | Ok _ => exists s, In s ss /\ t < s_open s
     | Raise e => e = IndexError /\ forall s, In s ss -> s_close s < t end).
Proof.
  intros t Hno. destruct (locate ss t Hwf) as [ss1 s' ss2 E H1 D' H2|ss1 ss2 E H1 H2].
  - exfalso. apply (Hno s'); [rewrite E; apply in_app_iff; simpl; auto|exact D'].
  - exists (zlen ss1). split; [|split; [|split]].
    + rewrite (opens_right_between c ss Hwf Hc ss1 ss2 t E H1 H2). reflexivity.
    + apply (closes_left_between c ss Hwf Hc ss1 ss2 t E H1 H2).
    + pose proof (col_nonempty _ _ Hcols) as Hne. rewrite (col_sessions _ _ Hcols).
      destruct ss1 as [|s0 ss1] using rev_ind.
      * change (zlen (@nil session) - 1) with (-1).
        destruct ss as [|s0 rest] using rev_ind; [congruence|].
        rewrite map_app. simpl. rewrite pyget_last. eauto.
      * rewrite zlen_app. change (zlen [s0]) with 1.
        replace (zlen ss1 + 1 - 1) with (zlen ss1) by lia.
        rewrite E, <- app_assoc. simpl. rewrite pyget_col. eauto.
    + destruct ss2 as [|s ss2].
      * rewrite app_nil_r in E. rewrite <- E. rewrite (pyget_sessions_end c ss Hc).
        split; [reflexivity|]. rewrite <- E in H1. rewrite Forall_forall in H1. exact H1.
      * rewrite (pyget_sessions c ss Hc ss1 s ss2 E). exists s.
        split; [rewrite E; apply in_app_iff; simpl; auto|].
        apply Forall_cons_iff in H2. tauto.
Qed.

(** The first instant of the index outside every session. *)
Lemma minute_index_spec : forall index,
  match minute_index_to_session_labels c index with
  | Ok labels =>
      StronglySorted Z.le index /\
      Forall2 (fun t l => exists s, In s ss /\ during s t /\ l = s_label s) index labels
  | Raise e =>
      (e = ValueError /\ ~ StronglySorted Z.le index) \/
      (StronglySorted Z.le index /\
       exists pre t post, index = pre ++ t :: post /\
         (forall u, In u pre -> exists s, In s ss /\ during s u) /\
         (forall s, In s ss -> ~ during s t) /\
         ((e = ValueError /\ exists s, In s ss /\ t < s_open s) \/
          (e = IndexError /\ forall s, In s ss -> s_close s < t)))
  end.
Proof.
  intros index. unfold minute_index_to_session_labels.
  destruct (is_monotonic_increasing index) eqn:Em.
  2:{ simpl. left. split; [reflexivity|]. intros H. apply monotonic_sorted in H. congruence. }
  apply monotonic_sorted in Em. simpl.
  assert (Hdec : forall t, (exists s, In s ss /\ during s t) \/ (forall s, In s ss -> ~ during s t)).
  { intros t. destruct (locate ss t Hwf) as [ss1 s' ss2 E H1 D' H2|ss1 ss2 E H1 H2].
    - left. exists s'. split; [rewrite E; apply in_app_iff; simpl; auto|exact D'].
    - right. apply (between_no_during ss ss1 ss2 t E H1 H2). }
  set (po := fun t => searchsorted_right (opens c) t - 1).
  set (nc := fun t => searchsorted_left (closes c) t).
  assert (Hmain :
    match find (fun p => negb (fst p =? snd p)) (combine (map po index) (map nc index)) with
    | Some (prev_day, _) =>
        exists pre t post, index = pre ++ t :: post /\
         (forall u, In u pre -> exists s, In s ss /\ during s u) /\
         (forall s, In s ss -> ~ during s t) /\ prev_day = po t
    | None => exists labels, mapM (pyget (sessions c)) (map po index) = Ok labels /\
        Forall2 (fun t l => exists s, In s ss /\ during s t /\ l = s_label s) index labels
    end).
  { clear Em. induction index as [|t index IH]; simpl.
    - exists []. split; [reflexivity|constructor].
    - destruct (Hdec t) as [[s [Hs D]]|Hno].
      + destruct (indices_inside s t Hs D) as [i [Hi1 [Hi2 Hi3]]].
        unfold po at 1, nc at 1. rewrite Hi1, Hi2, Z.eqb_refl. cbn [negb].
        destruct (find _ _) as [[pd q]|].
        * destruct IH as [pre [t' [post [E [H1 [H2 H3]]]]]].
          exists (t :: pre), t', post. split; [rewrite E; reflexivity|]. split; [|auto].
          intros u [<-|Hu]; [exists s; auto|auto].
        * destruct IH as [labels [IH1 IH2]].
          exists (s_label s :: labels). unfold po at 1. rewrite Hi1, Hi3. simpl.
          rewrite IH1. simpl. split; [reflexivity|]. constructor; [exists s; auto|exact IH2].
      + destruct (indices_outside t Hno) as [k [Hk1 [Hk2 _]]].
        unfold po at 1, nc at 1. rewrite Hk1, Hk2.
        destruct (k - 1 =? k) eqn:Ek; [lia|]. cbn [negb].
        exists [], t, index. split; [reflexivity|]. split; [intros u []|].
        split; [exact Hno|reflexivity]. }
  destruct (find _ _) as [[pd q]|].
  - destruct Hmain as [pre [t [post [E [H1 [H2 H3]]]]]]. subst pd. unfold po.
    destruct (indices_outside t H2) as [k [Hk1 [_ [[l Hl] Hk3]]]].
    rewrite Hk1. rewrite Hl. cbn [bind]. replace (k - 1 + 1) with k by lia.
    destruct (pyget (sessions c) k) as [l'|e] eqn:Eg; cbn [bind].
    + right. split; [exact Em|]. exists pre, t, post.
      split; [exact E|]. split; [exact H1|]. split; [exact H2|]. left.
      split; [reflexivity|exact Hk3].
    + destruct Hk3 as [-> Hk3]. right. split; [exact Em|]. exists pre, t, post.
      split; [exact E|]. split; [exact H1|]. split; [exact H2|]. right.
      split; [reflexivity|exact Hk3].
  - destruct Hmain as [labels [H1 H2]]. rewrite H1. split; [exact Em|exact H2].
Qed.

Lemma execution_minutes_Ok : forall fo fc s, In s ss ->
  (exists m, trading_minute ss m /\ fc (s_close s) <= m) ->
  exists l, execution_minutes_for_session fo fc c (s_label s) = Ok l /\
    lists_exactly (fun t => trading_minute ss t /\ fo (s_open s) <= t <= fc (s_close s)) l.
Proof.
  intros fo fc s Hs Hm. unfold execution_minutes_for_session.
  rewrite (schedule_at_In c ss Hwf Hc s_open s opens (col_opens _ _ Hcols) Hs).
  rewrite (schedule_at_In c ss Hwf Hc s_close s closes (col_closes _ _ Hcols) Hs). cbv [bind].
  apply minutes_in_range_Ok with (ss := ss); assumption.
Qed.

End Queries3.
