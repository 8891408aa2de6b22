(** Facts about well-formed schedules and the arrays of a calendar. *)
From Coq Require Import ZArith List Bool Lia Sorting.Sorted.
From Verif.Model Require Import Base Helpers Queries.
From Verif.Spec Require Import Schedule.
From Verif.Proofs Require Import BaseLemmas.
Import ListNotations.
Open Scope Z_scope.

Definition bs_cell (s : session) : Z :=
  match s_break s with Some (b, _) => b | None => not_a_time end.
Definition be_cell (s : session) : Z :=
  match s_break s with Some (_, e) => e | None => not_a_time end.

(** The minutes of one session. *)
Definition sm (s : session) : list Z :=
  concat (minute_pieces (s_open s) (bs_cell s) (be_cell s) (s_close s)).

Lemma NPM_one_minute : NANOSECONDS_PER_MINUTE = one_minute.
Proof. reflexivity. Qed.

Lemma one_minute_pos : 0 < one_minute.
Proof. reflexivity. Qed.

Lemma NAT_nat : NP_NAT = not_a_time.
Proof. reflexivity. Qed.

Global Opaque one_minute not_a_time NP_NAT NANOSECONDS_PER_MINUTE.

Lemma all_pieces_map : forall ss,
  concat (all_pieces (map s_open ss) (map bs_cell ss) (map be_cell ss) (map s_close ss))
  = flat_map sm ss.
Proof.
  induction ss as [|s ss IH]; simpl; [reflexivity|].
  rewrite concat_app, IH. reflexivity.
Qed.

Lemma all_pieces_nil : forall ss,
  all_pieces (map s_open ss) (map bs_cell ss) (map be_cell ss) (map s_close ss) = []
  <-> ss = [].
Proof.
  intros [|s ss]; simpl; [tauto|].
  unfold minute_pieces. destruct (negb _); simpl; split; discriminate.
Qed.

Lemma compute_all_minutes_map : forall ss,
  compute_all_minutes (map s_open ss) (map bs_cell ss) (map be_cell ss) (map s_close ss)
  = match ss with [] => Raise ValueError | _ => Ok (flat_map sm ss) end.
Proof.
  intros ss. unfold compute_all_minutes. rewrite <- all_pieces_map.
  destruct ss as [|s ss]; [reflexivity|].
  destruct (all_pieces _ _ _ _) eqn:E; [|reflexivity].
  apply all_pieces_nil in E. discriminate.
Qed.

Record cols (c : calendar) (ss : list session) : Prop := {
  col_sessions : sessions c = map s_label ss;
  col_opens : opens c = map s_open ss;
  col_bs : break_starts c = map bs_cell ss;
  col_be : break_ends c = map be_cell ss;
  col_closes : closes c = map s_close ss;
  col_minutes : minutes c = flat_map sm ss;
  col_nonempty : ss <> []
}.

Lemma has_schedule_cols : forall c ss, has_schedule c ss -> cols c ss.
Proof.
  intros c ss H. unfold has_schedule, make_calendar in H.
  fold bs_cell in H. fold be_cell in H.
  destruct (nats_match _ _); [|discriminate].
  change (fun s : session => match s_break s with Some (b, _) => b | None => not_a_time end)
    with bs_cell in H.
  change (fun s : session => match s_break s with Some (_, e) => e | None => not_a_time end)
    with be_cell in H.
  rewrite compute_all_minutes_map in H.
  destruct ss as [|s ss]; [discriminate|].
  injection H as <-. constructor; try reflexivity. discriminate.
Qed.

Lemma well_formed_nats_match : forall ss,
  Forall ordered_session ss -> nats_match (map bs_cell ss) (map be_cell ss) = true.
Proof.
  induction ss as [|s ss IH]; intros H; simpl; [reflexivity|].
  inversion H as [|? ? Ho Hf]; subst. rewrite IH by assumption. rewrite andb_true_r.
  unfold ordered_session in Ho. unfold bs_cell, be_cell. rewrite NAT_nat.
  destruct (s_break s) as [[b e]|].
  - destruct (not_a_time =? b) eqn:E1; destruct (not_a_time =? e) eqn:E2; try reflexivity; lia.
  - rewrite Z.eqb_refl. reflexivity.
Qed.

Lemma has_schedule_exists : forall ss, well_formed ss -> ss <> [] ->
  exists c, has_schedule c ss.
Proof.
  intros ss [Ho _] Hne. unfold has_schedule, make_calendar.
  change (fun s : session => match s_break s with Some (b, _) => b | None => not_a_time end)
    with bs_cell.
  change (fun s : session => match s_break s with Some (_, e) => e | None => not_a_time end)
    with be_cell.
  rewrite well_formed_nats_match by assumption.
  rewrite compute_all_minutes_map. destruct ss; [congruence|]. simpl. eauto.
Qed.

(** ** Ordering facts *)

Lemma ordered_open_close : forall s, ordered_session s -> s_open s <= s_close s.
Proof.
  intros s [_ H]. destruct (s_break s) as [[b e]|]; lia.
Qed.

Lemma ordered_nat_open : forall s, ordered_session s -> not_a_time < s_open s.
Proof. intros s [H _]. exact H. Qed.

Lemma wf_label_sorted : forall ss, well_formed ss ->
  StronglySorted (fun a b => s_label a < s_label b) ss.
Proof.
  intros ss [_ [_ H]]. eapply SSorted_impl; [|exact H].
  intros x y _ _ [Hl _]. exact Hl.
Qed.

Lemma wf_open_sorted : forall ss, well_formed ss ->
  StronglySorted (fun a b => s_open a < s_open b) ss.
Proof.
  intros ss [Ho [_ H]]. eapply SSorted_impl; [|exact H].
  intros x y Hx Hy [_ Hc]. rewrite Forall_forall in Ho.
  pose proof (ordered_open_close x (Ho x Hx)). lia.
Qed.

Lemma wf_close_sorted : forall ss, well_formed ss ->
  StronglySorted (fun a b => s_close a < s_close b) ss.
Proof.
  intros ss [Ho [_ H]]. eapply SSorted_impl; [|exact H].
  intros x y Hx Hy [_ Hc]. rewrite Forall_forall in Ho.
  pose proof (ordered_open_close y (Ho y Hy)). lia.
Qed.

Lemma SSorted_lt_le : forall {A} (f : A -> Z) l,
  StronglySorted (fun a b => f a < f b) l -> StronglySorted (fun a b => f a <= f b) l.
Proof. intros. eapply SSorted_impl; [|exact H]. intros; simpl in *; lia. Qed.

Lemma wf_app : forall ss1 ss2, well_formed (ss1 ++ ss2) ->
  well_formed ss1 /\ well_formed ss2 /\
  (forall x y, In x ss1 -> In y ss2 -> precedes x y).
Proof.
  intros ss1 ss2 [Ho [Hw Hs]].
  apply Forall_app in Ho. apply Forall_app in Hw. apply SSorted_app in Hs.
  unfold well_formed. tauto.
Qed.

Lemma wf_In : forall ss s, well_formed ss -> In s ss ->
  ordered_session s /\ whole_minutes s.
Proof.
  intros ss s [Ho [Hw _]] Hin. rewrite Forall_forall in *. auto.
Qed.

(** Two sessions with the same label are the same. *)
Lemma wf_label_inj : forall ss a b, well_formed ss -> In a ss -> In b ss ->
  s_label a = s_label b -> a = b.
Proof.
  intros ss a b Hwf Ha Hb E.
  apply in_split in Ha. destruct Ha as [l1 [l2 ->]].
  apply wf_label_sorted in Hwf. apply SSorted_app in Hwf.
  destruct Hwf as [_ [H2 H12]]. apply SSorted_cons in H2. destruct H2 as [_ H2].
  rewrite Forall_forall in H2.
  apply in_app_iff in Hb. destruct Hb as [Hb|[Hb|Hb]].
  - specialize (H12 b a Hb (or_introl eq_refl)). lia.
  - exact Hb.
  - specialize (H2 b Hb). lia.
Qed.

(** Sessions do not overlap. *)
Lemma wf_during_inj : forall ss a b t, well_formed ss -> In a ss -> In b ss ->
  during a t -> during b t -> a = b.
Proof.
  intros ss a b t Hwf Ha Hb Da Db. unfold during in *.
  apply in_split in Ha. destruct Ha as [l1 [l2 ->]].
  destruct Hwf as [_ [_ Hwf]]. apply SSorted_app in Hwf.
  destruct Hwf as [_ [H2 H12]]. apply SSorted_cons in H2. destruct H2 as [_ H2].
  rewrite Forall_forall in H2.
  apply in_app_iff in Hb. destruct Hb as [Hb|[Hb|Hb]].
  - destruct (H12 b a Hb (or_introl eq_refl)). lia.
  - exact Hb.
  - destruct (H2 b Hb). lia.
Qed.

(** Where an instant lies relative to the sessions. *)
Inductive location (ss : list session) (t : Z) : Prop :=
| Inside : forall ss1 s ss2, ss = ss1 ++ s :: ss2 ->
    Forall (fun x => s_close x < t) ss1 -> during s t ->
    Forall (fun x => t < s_open x) ss2 -> location ss t
| Between : forall ss1 ss2, ss = ss1 ++ ss2 ->
    Forall (fun x => s_close x < t) ss1 ->
    Forall (fun x => t < s_open x) ss2 -> location ss t.

Lemma locate : forall ss t, well_formed ss -> location ss t.
Proof.
  intros ss t Hwf.
  destruct (searchsorted_left_split s_close ss t) as [ss1 [ss2 [E [H1 [H2 _]]]]].
  { apply SSorted_lt_le. apply wf_close_sorted. exact Hwf. }
  destruct ss2 as [|s ss2].
  - apply (Between ss t ss1 []); auto.
  - subst ss. inversion H2 as [|? ? Hs Hss2]; subst.
    pose proof (wf_app _ _ Hwf) as [_ [Hwf2 _]].
    destruct Hwf2 as [Ho2 [_ Hs2]]. apply SSorted_cons in Hs2. destruct Hs2 as [_ Hp].
    assert (Hop : Forall (fun x => t < s_open x) ss2).
    { rewrite Forall_forall in *. intros x Hx. destruct (Hp x Hx). lia. }
    destruct (Z_lt_le_dec t (s_open s)).
    + apply (Between _ t ss1 (s :: ss2)); auto.
    + apply (Inside _ t ss1 s ss2); auto. unfold during. lia.
Qed.

Lemma opens_of_close_lt : forall ss t, Forall ordered_session ss ->
  Forall (fun x => s_close x < t) ss -> Forall (fun x => s_open x < t) ss.
Proof.
  intros ss t Ho H. rewrite Forall_forall in *. intros x Hx.
  pose proof (ordered_open_close x (Ho x Hx)). specialize (H x Hx). simpl in H. lia.
Qed.

Lemma closes_of_open_gt : forall ss t, Forall ordered_session ss ->
  Forall (fun x => t < s_open x) ss -> Forall (fun x => t < s_close x) ss.
Proof.
  intros ss t Ho H. rewrite Forall_forall in *. intros x Hx.
  pose proof (ordered_open_close x (Ho x Hx)). specialize (H x Hx). simpl in H. lia.
Qed.

Lemma Forall_lt_le : forall {A} (f g : A -> Z) l,
  Forall (fun x => f x < g x) l -> Forall (fun x => f x <= g x) l.
Proof. intros. eapply Forall_impl; [|exact H]. intros; simpl in *; lia. Qed.

Lemma closes_left_idx : forall ss1 ss2 t,
  Forall (fun x => s_close x < t) ss1 -> Forall (fun x => t <= s_close x) ss2 ->
  searchsorted_left (map s_close (ss1 ++ ss2)) t = zlen ss1.
Proof. intros. apply searchsorted_left_at; assumption. Qed.

(** ** Minutes of one session *)

Lemma sm_eq : forall s, ordered_session s ->
  sm s =
  match s_break s with
  | None => arange (s_open s) (s_close s + one_minute) one_minute
  | Some (bs, be) =>
      arange (s_open s) (bs + one_minute) one_minute ++
      arange be (s_close s + one_minute) one_minute
  end.
Proof.
  intros s [Hn Ho]. unfold sm, minute_pieces, bs_cell, be_cell.
  rewrite NPM_one_minute, NAT_nat.
  destruct (s_break s) as [[b e]|].
  - destruct (b =? not_a_time) eqn:E; [lia|]. simpl. rewrite app_nil_r. reflexivity.
  - rewrite Z.eqb_refl. simpl. rewrite app_nil_r. reflexivity.
Qed.

Lemma arange_closed_In : forall a b x, (one_minute | b - a) ->
  In x (arange a (b + one_minute) one_minute) <->
  a <= x <= b /\ (one_minute | x - a).
Proof.
  intros a b x Hd. rewrite arange_In by apply one_minute_pos.
  pose proof one_minute_pos.
  split.
  - intros [H1 H2]. split; [|exact H2].
    destruct Hd as [p Hp]. destruct H2 as [q Hq].
    assert (q < p + 1) by nia. nia.
  - intros [H1 H2]. split; [lia|exact H2].
Qed.

Lemma sm_spec : forall s, ordered_session s -> whole_minutes s ->
  lists_exactly (session_minute s) (sm s).
Proof.
  intros s Ho Hw. pose proof one_minute_pos as Hp.
  rewrite sm_eq by assumption.
  destruct Ho as [Hn Ho]. unfold whole_minutes in Hw. unfold lists_exactly, session_minute.
  destruct (s_break s) as [[b e]|].
  - destruct Hw as [Hw1 Hw2]. split.
    + apply SSorted_app. repeat split; try (apply arange_sorted; lia).
      intros x y Hx Hy. rewrite arange_closed_In in Hx, Hy by assumption. lia.
    + intros x. rewrite in_app_iff, !arange_closed_In by assumption. tauto.
  - split; [apply arange_sorted; lia|]. intros x. apply arange_closed_In. assumption.
Qed.

Lemma session_minute_during : forall s t, ordered_session s ->
  session_minute s t -> during s t.
Proof.
  intros s t [_ Ho] H. unfold session_minute in H. unfold during.
  destruct (s_break s) as [[b e]|]; lia.
Qed.

Lemma session_minute_open : forall s, ordered_session s -> session_minute s (s_open s).
Proof.
  intros s [_ Ho]. unfold session_minute.
  assert (H0 : (one_minute | s_open s - s_open s))
    by (rewrite Z.sub_diag; apply Z.divide_0_r).
  destruct (s_break s) as [[b e]|].
  - left. split; [lia|exact H0].
  - split; [lia|exact H0].
Qed.

Lemma session_minute_close : forall s, ordered_session s -> whole_minutes s ->
  session_minute s (s_close s).
Proof.
  intros s [_ Ho] Hw. unfold session_minute, whole_minutes in *.
  destruct (s_break s) as [[b e]|].
  - right. split; [lia|tauto].
  - split; [lia|tauto].
Qed.

Lemma sm_In : forall ss s t, well_formed ss -> In s ss ->
  (In t (sm s) <-> session_minute s t).
Proof.
  intros ss s t Hwf Hs. destruct (wf_In _ _ Hwf Hs) as [Ho Hw].
  destruct (sm_spec s Ho Hw) as [_ H]. apply H.
Qed.

Lemma minutes_In : forall ss t, well_formed ss ->
  (In t (flat_map sm ss) <-> trading_minute ss t).
Proof.
  intros ss t Hwf. rewrite in_flat_map. unfold trading_minute.
  split; intros [s [Hs Ht]]; exists s; (split; [exact Hs|]);
    apply (sm_In ss s t Hwf Hs); exact Ht.
Qed.

Lemma minutes_sorted : forall ss, well_formed ss -> StronglySorted Z.lt (flat_map sm ss).
Proof.
  induction ss as [|s ss IH]; intros Hwf; simpl; [constructor|].
  pose proof (wf_app [s] ss Hwf) as [_ [Hwf2 Hp]].
  apply SSorted_app. repeat split.
  - destruct (wf_In _ s Hwf (or_introl eq_refl)) as [Ho Hw].
    apply (sm_spec s Ho Hw).
  - apply IH. exact Hwf2.
  - intros x y Hx Hy.
    apply (sm_In (s :: ss) s x Hwf (or_introl eq_refl)) in Hx.
    apply (minutes_In ss y Hwf2) in Hy. destruct Hy as [s' [Hs' Hy]].
    destruct (wf_In _ s Hwf (or_introl eq_refl)) as [Ho _].
    destruct (wf_In _ s' Hwf2 Hs') as [Ho' _].
    apply session_minute_during in Hx; [|assumption].
    apply session_minute_during in Hy; [|assumption].
    destruct (Hp s s' (or_introl eq_refl) Hs'). unfold during in *. lia.
Qed.

Lemma minutes_nonempty : forall ss, well_formed ss -> ss <> [] -> flat_map sm ss <> [].
Proof.
  intros ss Hwf Hne E. destruct ss as [|s ss]; [congruence|].
  assert (In (s_open s) (flat_map sm (s :: ss))).
  { apply minutes_In; [assumption|]. exists s. split; [left; reflexivity|].
    apply session_minute_open. apply (wf_In _ s Hwf (or_introl eq_refl)). }
  rewrite E in H. exact H.
Qed.
