(** C01-C22: the query methods of [TradingCalendar], for every well-formed
    schedule [ss] and every calendar object [c] made from it. *)
From Coq Require Import String ZArith List Bool Lia Sorting.Sorted.
From Verif.Model Require Import Base Helpers Queries.
From Verif.Spec Require Import Schedule.
From Verif.Proofs Require Import BaseLemmas ScheduleLemmas QueryLemmas QueryLemmas2 QueryLemmas3.
Import ListNotations.
Open Scope Z_scope.

(** A concrete schedule meeting the hypotheses of all theorems below: two days
    with a lunch break, one without, a gap (weekend) before the last one. *)
Definition ex_min (n : Z) : Z := n * one_minute.
Definition ex_day (n : Z) : Z := n * 1440 * one_minute.
Definition ex_ss : list session :=
  [ Session (ex_day 1) (ex_day 1 + ex_min 570)
      (Some (ex_day 1 + ex_min 720, ex_day 1 + ex_min 780)) (ex_day 1 + ex_min 960);
    Session (ex_day 2) (ex_day 2 + ex_min 570) None (ex_day 2 + ex_min 780);
    Session (ex_day 5) (ex_day 5 + ex_min 570)
      (Some (ex_day 5 + ex_min 720, ex_day 5 + ex_min 780)) (ex_day 5 + ex_min 960) ].
Definition ex_cal : calendar :=
  match make_calendar (map s_label ex_ss) (map s_open ex_ss) (map bs_cell ex_ss)
                      (map be_cell ex_ss) (map s_close ex_ss) with
  | Ok c => c
  | Raise _ => Calendar [] [] [] [] [] []
  end.

Example ex_well_formed : well_formed ex_ss.
Proof.
  Transparent not_a_time one_minute.
  split; [|split].
  - repeat constructor; vm_compute; repeat split; discriminate.
  - repeat constructor; vm_compute; repeat split;
      match goal with |- exists z, ?x = _ => exists (x / 60000000000); reflexivity end.
  - repeat constructor; vm_compute; reflexivity.
  Opaque not_a_time one_minute.
Qed.

Example ex_has_schedule : has_schedule ex_cal ex_ss.
Proof. vm_compute. reflexivity. Qed.

(** ** C01 *)

Theorem c01_all_minutes : forall ss c,
  well_formed ss -> has_schedule c ss ->
  lists_exactly (trading_minute ss) (minutes c).
Proof.
  intros ss c Hwf Hc. split.
  - apply (c_minutes_sorted c ss Hwf Hc).
  - apply (c_minutes_In c ss Hwf Hc).
Qed.

(** Every non-empty well-formed schedule gives a calendar object, and an empty
    one is refused. *)
Theorem c01_calendar_exists : forall ss, well_formed ss ->
  (ss <> [] -> exists c, has_schedule c ss) /\
  (ss = [] -> forall c, ~ has_schedule c ss).
Proof.
  intros ss Hwf. split.
  - intros Hne. apply has_schedule_exists; assumption.
  - intros -> c H. apply has_schedule_cols in H. apply (col_nonempty _ _ H). reflexivity.
Qed.

(** ** C02 *)

Theorem c02_is_open_on_minute : forall ss c t ignore_breaks,
  well_formed ss -> has_schedule c ss ->
  exists b, is_open_on_minute c t ignore_breaks = Ok b /\
    (b = true <->
     exists s, In s ss /\ during s t /\
       (ignore_breaks = true \/ t = s_open s \/ ~ in_break s t)).
Proof. intros ss c t ib Hwf Hc. exact (is_open_spec c ss Hwf Hc t ib). Qed.

(** ** C03 *)

(** Exact relation: on whole minutes of the session grid, the two notions
    differ only at the break start (unless the break starts at the open). *)
Theorem c03_open_iff_minute_or_break_start : forall ss c s t,
  well_formed ss -> has_schedule c ss -> In s ss -> during s t ->
  (one_minute | t - s_open s) ->
  (match s_break s with Some (_, be) => (one_minute | be - s_open s) | None => True end) ->
  (In t (minutes c) <->
   is_open_on_minute c t false = Ok true \/
   exists be, s_break s = Some (t, be)).
Proof.
  intros ss c s t Hwf Hc Hs D Hd Hal.
  destruct (is_open_spec c ss Hwf Hc t false) as [b [Eb Hb]]. rewrite Eb.
  rewrite (c_minutes_In c ss Hwf Hc).
  assert (Hown : forall s', In s' ss -> during s' t -> s' = s).
  { intros s' Hs' D'. apply (wf_during_inj ss s' s t Hwf); assumption. }
  assert (Hm : trading_minute ss t <-> session_minute s t).
  { rewrite <- (minute_between_own ss Hwf s t Hs). unfold during in D. tauto. }
  rewrite Hm.
  assert (Hopen : Ok b = Ok true <-> (t = s_open s \/ ~ in_break s t)).
  { split.
    - intros H. injection H as ->. destruct (proj1 Hb eq_refl) as [s' [Hs' [D' [F|F]]]];
        [discriminate|]. rewrite (Hown s' Hs' D') in F. exact F.
    - intros H. f_equal. apply Hb. exists s. auto. }
  rewrite Hopen. unfold session_minute, in_break, during in *.
  destruct (ord ss Hwf s Hs) as [_ Ho].
  destruct (s_break s) as [[bs be]|].
  - split.
    + intros [[H1 H2]|[H1 H2]].
      * destruct (Z.eq_dec t bs) as [->|]; [right; eauto|]. left. right. lia.
      * left. right. lia.
    + intros [[->|H]|[e He]].
      * left. split; [lia|]. exact Hd.
      * destruct (Z_le_gt_dec t bs); [left; split; [lia|exact Hd]|].
        right. split; [lia|]. destruct Hd as [p Hp]. destruct Hal as [q Hq].
        exists (p - q). lia.
      * injection He as -> ->. left. split; [lia|exact Hd].
  - split; [intros _; left; right; tauto|]. intros _. split; [lia|exact Hd].
Qed.

(** Without breaks they agree on the whole-minute grid of the session and
    outside sessions. *)
Theorem c03_agree_without_breaks : forall ss c t,
  well_formed ss -> has_schedule c ss -> (forall s, In s ss -> s_break s = None) ->
  (forall s, In s ss -> (one_minute | t - s_open s)) ->
  (In t (minutes c) <-> is_open_on_minute c t false = Ok true).
Proof.
  intros ss c t Hwf Hc Hnb Hgrid.
  destruct (is_open_spec c ss Hwf Hc t false) as [b [Eb Hb]]. rewrite Eb.
  rewrite (c_minutes_In c ss Hwf Hc). split.
  - intros [s [Hs Ht]]. f_equal. apply Hb. exists s. split; [exact Hs|].
    split; [apply session_minute_during; [apply (ord ss Hwf s Hs)|exact Ht]|].
    right. right. unfold in_break. rewrite (Hnb s Hs). tauto.
  - intros H. injection H as ->. destruct (proj1 Hb eq_refl) as [s [Hs [D _]]].
    exists s. split; [exact Hs|]. unfold session_minute. rewrite (Hnb s Hs).
    split; [exact D|apply Hgrid; exact Hs].
Qed.

(** The plain claim "open iff listed" is false: a break-start minute is listed
    among the trading minutes and reported closed. *)
Theorem c03_agree_refuted : exists ss c t,
  well_formed ss /\ has_schedule c ss /\ In t (minutes c) /\
  is_open_on_minute c t false = Ok false.
Proof.
  exists ex_ss, ex_cal, (ex_day 1 + ex_min 720).
  split; [exact ex_well_formed|]. split; [exact ex_has_schedule|]. split.
  - apply contains_In. vm_compute. reflexivity.
  - vm_compute. reflexivity.
Qed.

(** ** C04, C05 *)


Theorem c04_next_open : forall ss c t, well_formed ss -> has_schedule c ss ->
  match next_open c t with
  | Ok x => least (fun y => is_open_of ss y /\ t < y) x
  | Raise e => e = IndexError /\ forall y, is_open_of ss y -> y <= t
  end.
Proof.
  intros ss c t Hwf Hc. pose proof (next_divider_spec (opens c) t (opens_sorted c ss Hwf Hc)) as H.
  unfold next_open. unfold is_open_of.
  destruct (bind _ _); rewrite (col_opens _ _ (has_schedule_cols c ss Hc)) in H.
  - destruct H as [[H1 H2] H3]. split; [split; [apply in_map_iff'; exact H1|exact H2]|].
    intros y [Hy1 Hy2]. apply H3. split; [apply in_map_iff'; exact Hy1|exact Hy2].
  - destruct H as [-> H]. split; [reflexivity|]. intros y Hy. apply H. apply in_map_iff'; exact Hy.
Qed.

Theorem c04_next_close : forall ss c t, well_formed ss -> has_schedule c ss ->
  match next_close c t with
  | Ok x => least (fun y => is_close_of ss y /\ t < y) x
  | Raise e => e = IndexError /\ forall y, is_close_of ss y -> y <= t
  end.
Proof.
  intros ss c t Hwf Hc. pose proof (next_divider_spec (closes c) t (closes_sorted c ss Hwf Hc)) as H.
  unfold next_close. unfold is_close_of.
  destruct (bind _ _); rewrite (col_closes _ _ (has_schedule_cols c ss Hc)) in H.
  - destruct H as [[H1 H2] H3]. split; [split; [apply in_map_iff'; exact H1|exact H2]|].
    intros y [Hy1 Hy2]. apply H3. split; [apply in_map_iff'; exact Hy1|exact Hy2].
  - destruct H as [-> H]. split; [reflexivity|]. intros y Hy. apply H. apply in_map_iff'; exact Hy.
Qed.

Theorem c05_previous_open : forall ss c t, well_formed ss -> has_schedule c ss ->
  match previous_open c t with
  | Ok x => greatest (fun y => is_open_of ss y /\ y < t) x
  | Raise e => e = ValueError /\ forall y, is_open_of ss y -> t <= y
  end.
Proof.
  intros ss c t Hwf Hc. pose proof (previous_divider_spec (opens c) t (opens_sorted c ss Hwf Hc)) as H.
  unfold previous_open. unfold is_open_of.
  destruct (bind _ _); rewrite (col_opens _ _ (has_schedule_cols c ss Hc)) in H.
  - destruct H as [[H1 H2] H3]. split; [split; [apply in_map_iff'; exact H1|exact H2]|].
    intros y [Hy1 Hy2]. apply H3. split; [apply in_map_iff'; exact Hy1|exact Hy2].
  - destruct H as [-> H]. split; [reflexivity|]. intros y Hy. apply H. apply in_map_iff'; exact Hy.
Qed.

Theorem c05_previous_close : forall ss c t, well_formed ss -> has_schedule c ss ->
  match previous_close c t with
  | Ok x => greatest (fun y => is_close_of ss y /\ y < t) x
  | Raise e => e = ValueError /\ forall y, is_close_of ss y -> t <= y
  end.
Proof.
  intros ss c t Hwf Hc. pose proof (previous_divider_spec (closes c) t (closes_sorted c ss Hwf Hc)) as H.
  unfold previous_close. unfold is_close_of.
  destruct (bind _ _); rewrite (col_closes _ _ (has_schedule_cols c ss Hc)) in H.
  - destruct H as [[H1 H2] H3]. split; [split; [apply in_map_iff'; exact H1|exact H2]|].
    intros y [Hy1 Hy2]. apply H3. split; [apply in_map_iff'; exact Hy1|exact Hy2].
  - destruct H as [-> H]. split; [reflexivity|]. intros y Hy. apply H. apply in_map_iff'; exact Hy.
Qed.

(** ** C06 *)

Theorem c06_next_minute : forall ss c t, well_formed ss -> has_schedule c ss ->
  match next_minute c t with
  | Ok x => least (fun y => trading_minute ss y /\ t < y) x
  | Raise e => e = IndexError /\ forall y, trading_minute ss y -> y <= t
  end.
Proof.
  intros ss c t Hwf Hc.
  pose proof (next_divider_spec (minutes c) t (c_minutes_sorted c ss Hwf Hc)) as H.
  unfold next_minute. pose proof (c_minutes_In c ss Hwf Hc) as HI.
  destruct (bind _ _).
  - destruct H as [[H1 H2] H3]. split; [split; [apply HI; exact H1|exact H2]|].
    intros y [Hy1 Hy2]. apply H3. split; [apply HI; exact Hy1|exact Hy2].
  - destruct H as [-> H]. split; [reflexivity|]. intros y Hy. apply H. apply HI; exact Hy.
Qed.

Theorem c06_previous_minute : forall ss c t, well_formed ss -> has_schedule c ss ->
  match previous_minute c t with
  | Ok x => greatest (fun y => trading_minute ss y /\ y < t) x
  | Raise e => e = ValueError /\ forall y, trading_minute ss y -> t <= y
  end.
Proof.
  intros ss c t Hwf Hc.
  pose proof (previous_divider_spec (minutes c) t (c_minutes_sorted c ss Hwf Hc)) as H.
  unfold previous_minute. pose proof (c_minutes_In c ss Hwf Hc) as HI.
  destruct (bind _ _).
  - destruct H as [[H1 H2] H3]. split; [split; [apply HI; exact H1|exact H2]|].
    intros y [Hy1 Hy2]. apply H3. split; [apply HI; exact Hy1|exact Hy2].
  - destruct H as [-> H]. split; [reflexivity|]. intros y Hy. apply H. apply HI; exact Hy.
Qed.

Theorem c06_inverse : forall ss c t x, well_formed ss -> has_schedule c ss ->
  trading_minute ss t ->
  (next_minute c t = Ok x -> previous_minute c x = Ok t) /\
  (previous_minute c t = Ok x -> next_minute c x = Ok t).
Proof.
  intros ss c t x Hwf Hc Ht. split; intros E.
  - pose proof (c06_next_minute ss c t Hwf Hc) as H. rewrite E in H.
    destruct H as [[Hx Htx] Hmin].
    pose proof (c06_previous_minute ss c x Hwf Hc) as H.
    destruct (previous_minute c x) as [y|e].
    + f_equal. destruct H as [[Hy Hyx] Hmax]. specialize (Hmax t (conj Ht Htx)).
      destruct (Z.eq_dec t y) as [|Hne]; [congruence|].
      specialize (Hmin y). assert (x <= y) by (apply Hmin; split; [exact Hy|lia]). lia.
    + destruct H as [_ H]. specialize (H t Ht). lia.
  - pose proof (c06_previous_minute ss c t Hwf Hc) as H. rewrite E in H.
    destruct H as [[Hx Htx] Hmax].
    pose proof (c06_next_minute ss c x Hwf Hc) as H.
    destruct (next_minute c x) as [y|e].
    + f_equal. destruct H as [[Hy Hyx] Hmin]. specialize (Hmin t (conj Ht Htx)).
      destruct (Z.eq_dec t y) as [|Hne]; [congruence|].
      specialize (Hmax y). assert (y <= x) by (apply Hmax; split; [exact Hy|lia]). lia.
    + destruct H as [_ H]. specialize (H t Ht). lia.
Qed.

(** The doc string says [previous_minute] raises KeyError when the argument is
    not an exchange minute; it does not. *)
Theorem c06_previous_minute_key_error_refuted : exists ss c t x,
  well_formed ss /\ has_schedule c ss /\ ~ In t (minutes c) /\ previous_minute c t = Ok x.
Proof.
  exists ex_ss, ex_cal, (ex_day 3), (ex_day 2 + ex_min 780).
  split; [exact ex_well_formed|]. split; [exact ex_has_schedule|]. split.
  - intros H. apply contains_In in H. vm_compute in H. discriminate.
  - vm_compute. reflexivity.
Qed.

(** ** C07 *)


Lemma sessions_label_of : forall c ss, has_schedule c ss ->
  forall x, In x (sessions c) <-> is_label_of ss x.
Proof.
  intros c ss Hc x. rewrite (col_sessions _ _ (has_schedule_cols c ss Hc)). apply in_map_iff'.
Qed.

Theorem c07_is_session : forall ss c x, has_schedule c ss ->
  (is_session c x = true <-> is_label_of ss x).
Proof.
  intros ss c x Hc. unfold is_session. rewrite contains_In. apply sessions_label_of; assumption.
Qed.

Theorem c07_next_session_label : forall ss c l, well_formed ss -> has_schedule c ss ->
  match next_session_label c l with
  | Ok x => is_label_of ss l /\ least (fun y => is_label_of ss y /\ l < y) x
  | Raise e =>
      (e = KeyError /\ ~ is_label_of ss l) \/
      (e = ValueError /\ greatest (is_label_of ss) l)
  end.
Proof.
  intros ss c l Hwf Hc. pose proof (next_session_label_spec c ss Hwf Hc l) as H.
  pose proof (sessions_label_of c ss Hc) as HI.
  destruct (next_session_label c l).
  - destruct H as [H0 [[H1 H2] H3]]. split; [apply HI; exact H0|].
    split; [split; [apply HI; exact H1|exact H2]|].
    intros y [Hy1 Hy2]. apply H3. split; [apply HI; exact Hy1|exact Hy2].
  - destruct H as [[-> H]|[-> [H1 H2]]].
    + left. split; [reflexivity|]. intros F. apply H. apply HI. exact F.
    + right. split; [reflexivity|]. split; [apply HI; exact H1|].
      intros y Hy. apply H2. apply HI. exact Hy.
Qed.

Theorem c07_previous_session_label : forall ss c l, well_formed ss -> has_schedule c ss ->
  match previous_session_label c l with
  | Ok x => is_label_of ss l /\ greatest (fun y => is_label_of ss y /\ y < l) x
  | Raise e =>
      (e = KeyError /\ ~ is_label_of ss l) \/
      (e = ValueError /\ least (is_label_of ss) l)
  end.
Proof.
  intros ss c l Hwf Hc. pose proof (previous_session_label_spec c ss Hwf Hc l) as H.
  pose proof (sessions_label_of c ss Hc) as HI.
  destruct (previous_session_label c l).
  - destruct H as [H0 [[H1 H2] H3]]. split; [apply HI; exact H0|].
    split; [split; [apply HI; exact H1|exact H2]|].
    intros y [Hy1 Hy2]. apply H3. split; [apply HI; exact Hy1|exact Hy2].
  - destruct H as [[-> H]|[-> [H1 H2]]].
    + left. split; [reflexivity|]. intros F. apply H. apply HI. exact F.
    + right. split; [reflexivity|]. split; [apply HI; exact H1|].
      intros y Hy. apply H2. apply HI. exact Hy.
Qed.

Theorem c07_inverse : forall ss c l x, well_formed ss -> has_schedule c ss ->
  (next_session_label c l = Ok x <-> previous_session_label c x = Ok l).
Proof.
  intros ss c l x Hwf Hc. split; intros E.
  - pose proof (c07_next_session_label ss c l Hwf Hc) as H. rewrite E in H.
    destruct H as [Hl [[Hx Hlx] Hmin]].
    pose proof (c07_previous_session_label ss c x Hwf Hc) as H.
    destruct (previous_session_label c x) as [y|e].
    + destruct H as [_ [[Hy Hyx] Hmax]]. f_equal. specialize (Hmax l (conj Hl Hlx)).
      destruct (Z.eq_dec l y) as [|Hne]; [congruence|].
      assert (x <= y) by (apply Hmin; split; [exact Hy|lia]). lia.
    + destruct H as [[_ H]|[_ [_ H]]]; [contradiction|]. specialize (H l Hl). lia.
  - pose proof (c07_previous_session_label ss c x Hwf Hc) as H. rewrite E in H.
    destruct H as [Hx [[Hl Hlx] Hmax]].
    pose proof (c07_next_session_label ss c l Hwf Hc) as H.
    destruct (next_session_label c l) as [y|e].
    + destruct H as [_ [[Hy Hly] Hmin]]. f_equal. specialize (Hmin x (conj Hx Hlx)).
      destruct (Z.eq_dec x y) as [|Hne]; [congruence|].
      assert (y <= l) by (apply Hmax; split; [exact Hy|lia]). lia.
    + destruct H as [[_ H]|[_ [_ H]]]; [contradiction|]. specialize (H x Hx). lia.
Qed.

(** ** C08 *)

Theorem c08_minutes_for_session : forall ss c s, well_formed ss -> has_schedule c ss ->
  In s ss ->
  exists l, minutes_for_session c (s_label s) = Ok l /\ lists_exactly (session_minute s) l.
Proof.
  intros ss c s Hwf Hc Hs. exists (sm s).
  split; [apply (minutes_for_session_sm c ss Hwf Hc s Hs)|].
  destruct (wf_In ss s Hwf Hs). apply sm_spec; assumption.
Qed.

Theorem c08_unknown_session : forall ss c l, has_schedule c ss -> ~ is_label_of ss l ->
  minutes_for_session c l = Raise KeyError.
Proof.
  intros ss c l Hc Hl. unfold minutes_for_session.
  rewrite (schedule_at_missing c ss Hc); [reflexivity|].
  intros H. apply Hl. apply in_map_iff'. exact H.
Qed.

Theorem c08_partition : forall ss c, well_formed ss -> has_schedule c ss ->
  exists pieces, mapM (minutes_for_session c) (sessions c) = Ok pieces /\
    concat pieces = minutes c.
Proof.
  intros ss c Hwf Hc. pose proof (has_schedule_cols c ss Hc) as Hcols.
  exists (map sm ss). rewrite (col_sessions _ _ Hcols). split.
  - apply (mapM_minutes_for_session c ss Hwf Hc). auto.
  - rewrite concat_map_sm. symmetry. apply (col_minutes _ _ Hcols).
Qed.

(** ** C09 *)

Theorem c09_minutes_in_range : forall ss c a b, well_formed ss -> has_schedule c ss ->
  match minutes_in_range c a b with
  | Ok l =>
      lists_exactly (fun t => trading_minute ss t /\ a <= t <= b) l /\
      (exists m, trading_minute ss m /\ b <= m)
  | Raise e => e = IndexError /\ forall m, trading_minute ss m -> m < b
  end.
Proof.
  intros ss c a b Hwf Hc.
  destruct (in_dec Z.eq_dec b (minutes c)) as [Hb|Hb].
  - destruct (minutes_in_range_Ok c ss Hwf Hc a b) as [l [E Hl]].
    { exists b. split; [apply (c_minutes_In c ss Hwf Hc); exact Hb|lia]. }
    rewrite E. split; [exact Hl|]. exists b.
    split; [apply (c_minutes_In c ss Hwf Hc); exact Hb|lia].
  - pose proof (c06_next_minute ss c b Hwf Hc) as H.
    destruct (next_minute c b) as [m|e].
    + destruct H as [[Hm Hbm] _].
      destruct (minutes_in_range_Ok c ss Hwf Hc a b) as [l [E Hl]].
      { exists m. split; [exact Hm|lia]. }
      rewrite E. split; [exact Hl|]. exists m. split; [exact Hm|lia].
    + destruct H as [_ H]. rewrite (minutes_in_range_Raise c ss Hwf Hc).
      * split; [reflexivity|]. intros m Hm. specialize (H m Hm).
        destruct (Z.eq_dec m b) as [->|]; [|lia].
        exfalso. apply Hb. apply (c_minutes_In c ss Hwf Hc). exact Hm.
      * intros m Hm. specialize (H m Hm).
        destruct (Z.eq_dec m b) as [->|]; [|lia].
        exfalso. apply Hb. apply (c_minutes_In c ss Hwf Hc). exact Hm.
Qed.

(** The doc string's "given minutes don't need to be calendar minutes" is false
    for an end after the last trading minute. *)
Theorem c09_minutes_in_range_refuted : exists ss c a b,
  well_formed ss /\ has_schedule c ss /\ a <= b /\
  minutes_in_range c a b = Raise IndexError.
Proof.
  exists ex_ss, ex_cal, (ex_day 1), (ex_day 6).
  split; [exact ex_well_formed|]. split; [exact ex_has_schedule|].
  split; [vm_compute; discriminate|]. vm_compute. reflexivity.
Qed.

(** ** C10 *)

Theorem c10_minutes_for_sessions_in_range : forall ss c a b,
  well_formed ss -> has_schedule c ss -> is_label_of ss a -> is_label_of ss b ->
  exists pieces,
    mapM (minutes_for_session c) (sessions_in_range c a b) = Ok pieces /\
    minutes_for_sessions_in_range c a b = Ok (concat pieces).
Proof.
  intros ss c a b Hwf Hc [sa [Ha ->]] [sb [Hb ->]].
  exists (map sm (filter (in_range (s_label sa) (s_label sb)) ss)). split.
  - rewrite (sessions_in_range_filter c ss Hwf Hc).
    apply (mapM_minutes_for_session c ss Hwf Hc). intros s Hs. apply filter_In in Hs. tauto.
  - rewrite concat_map_sm. apply (minutes_for_sessions_in_range_eq c ss Hwf Hc); assumption.
Qed.

Theorem c10_unknown_session : forall ss c a b, has_schedule c ss ->
  ~ is_label_of ss a \/ (is_label_of ss a /\ ~ is_label_of ss b) -> well_formed ss ->
  minutes_for_sessions_in_range c a b = Raise KeyError.
Proof.
  intros ss c a b Hc Hab Hwf. pose proof (has_schedule_cols c ss Hc) as Hcols.
  unfold minutes_for_sessions_in_range, open_and_close_for_session, session_open, session_close.
  destruct Hab as [Ha|[[s [Hs ->]] Hb]].
  - rewrite (schedule_at_missing c ss Hc a); [reflexivity|].
    intros H. apply Ha. apply in_map_iff'. exact H.
  - rewrite (schedule_at_In c ss Hwf Hc s_open s opens (col_opens _ _ Hcols) Hs).
    rewrite (schedule_at_In c ss Hwf Hc s_close s closes (col_closes _ _ Hcols) Hs).
    cbv [bind].
    rewrite (schedule_at_missing c ss Hc b); [reflexivity|].
    intros H. apply Hb. apply in_map_iff'. exact H.
Qed.

(** ** C11 *)

(** The count falls short of the number of minutes by exactly the number of
    sessions in range that have a break. *)
Theorem c11_minutes_count : forall ss c a b l,
  well_formed ss -> has_schedule c ss -> is_label_of ss a -> is_label_of ss b ->
  minutes_for_sessions_in_range c a b = Ok l ->
  minutes_count_for_sessions_in_range c a b =
  zlen l - zlen (filter (fun s => has_break s && ((a <=? s_label s) && (s_label s <=? b))) ss).
Proof.
  intros ss c a b l Hwf Hc [sa [Ha ->]] [sb [Hb ->]] E.
  rewrite (minutes_for_sessions_in_range_eq c ss Hwf Hc sa sb Ha Hb) in E.
  injection E as <-. rewrite (minutes_count_eq c ss Hwf Hc). f_equal.
  unfold breaks_in. f_equal. clear.
  induction ss as [|s ss IH]; [reflexivity|]. simpl.
  unfold in_range at 1.
  destruct ((s_label sa <=? s_label s) && (s_label s <=? s_label sb)); simpl;
    destruct (has_break s); simpl; rewrite ?IH; reflexivity.
Qed.

Theorem c11_minutes_count_without_breaks : forall ss c a b l,
  well_formed ss -> has_schedule c ss -> is_label_of ss a -> is_label_of ss b ->
  (forall s, In s ss -> a <= s_label s <= b -> s_break s = None) ->
  minutes_for_sessions_in_range c a b = Ok l ->
  minutes_count_for_sessions_in_range c a b = zlen l.
Proof.
  intros ss c a b l Hwf Hc Ha Hb Hnb E.
  rewrite (c11_minutes_count ss c a b l Hwf Hc Ha Hb E).
  rewrite filter_all_false; [change (zlen []) with 0; lia|].
  intros s Hs. unfold has_break. destruct (s_break s) as [[bs be]|] eqn:Eb; [|reflexivity].
  simpl. destruct (a <=? s_label s) eqn:E1; [|reflexivity].
  destruct (s_label s <=? b) eqn:E2; [|reflexivity].
  rewrite (Hnb s Hs) in Eb by lia. discriminate.
Qed.

Theorem c11_minutes_count_refuted : exists ss c a b l,
  well_formed ss /\ has_schedule c ss /\ is_label_of ss a /\ is_label_of ss b /\
  minutes_for_sessions_in_range c a b = Ok l /\
  minutes_count_for_sessions_in_range c a b = zlen l - 2.
Proof.
  exists ex_ss, ex_cal, (ex_day 1), (ex_day 5), (minutes ex_cal).
  split; [exact ex_well_formed|]. split; [exact ex_has_schedule|].
  split; [eexists; split; [left; reflexivity|reflexivity]|].
  split; [eexists; split; [right; right; left; reflexivity|reflexivity]|].
  split; vm_compute; reflexivity.
Qed.

(** ** C12 *)

Theorem c12_sessions_in_range : forall ss c a b, well_formed ss -> has_schedule c ss ->
  lists_exactly (fun x => is_label_of ss x /\ a <= x <= b) (sessions_in_range c a b).
Proof.
  intros ss c a b Hwf Hc.
  destruct (slice_range (sessions c) a b (sessions_sorted c ss Hwf Hc)) as [H1 H2].
  split; [exact H1|]. intros x. unfold sessions_in_range, label_slice, all_sessions.
  rewrite H2, (sessions_label_of c ss Hc). reflexivity.
Qed.

(** ** C13 *)

(** For [n >= 0]: the first [n+1] of the sessions from [l] on; for [n < 0]: the
    last [|n|+1] of the sessions up to [l]. *)
Theorem c13_sessions_window : forall ss c l n, well_formed ss -> has_schedule c ss ->
  match sessions_window c l n with
  | Ok w =>
      is_label_of ss l /\
      (0 <= n -> w = firstn (Z.to_nat (n + 1)) (filter (fun x => l <=? x) (map s_label ss))) /\
      (n < 0 -> rev w = firstn (Z.to_nat (Z.abs n + 1))
                              (rev (filter (fun x => x <=? l) (map s_label ss))))
  | Raise e => e = KeyError /\ ~ is_label_of ss l
  end.
Proof.
  intros ss c l n Hwf Hc. pose proof (has_schedule_cols c ss Hc) as Hcols.
  destruct (in_dec Z.eq_dec l (map s_label ss)) as [Hin|Hnot].
  - assert (Hl : is_label_of ss l) by (apply in_map_iff'; exact Hin).
    apply in_map_iff in Hin. destruct Hin as [s [<- Hs]].
    apply in_split in Hs. destruct Hs as [ss1 [ss2 E]].
    rewrite (sessions_window_eq c ss Hwf Hc ss1 s ss2 n E).
    pose proof (wf_label_sorted ss Hwf) as Hsort. rewrite E in Hsort.
    apply SSorted_app in Hsort. destruct Hsort as [_ [Hs2 Hs12]].
    apply SSorted_cons in Hs2. destruct Hs2 as [_ Hs2]. rewrite Forall_forall in Hs2.
    split; [exact Hl|]. split; intros Hn.
    + destruct (0 <=? n) eqn:En; [|lia]. f_equal.
      rewrite E, map_app, filter_app, (filter_all_false _ (map s_label ss1)),
        (filter_all_true _ (map s_label (s :: ss2))); [reflexivity| |].
      * intros x Hx. apply in_map_iff in Hx. destruct Hx as [s' [<- [<-|Hs']]]; [lia|].
        specialize (Hs2 s' Hs'). simpl in Hs2. lia.
      * intros x Hx. apply in_map_iff in Hx. destruct Hx as [s' [<- Hs']].
        specialize (Hs12 s' s Hs' (or_introl eq_refl)). simpl in Hs12. lia.
    + destruct (0 <=? n) eqn:En; [lia|]. rewrite rev_involutive.
      replace (Z.abs n) with (- n) by lia. f_equal. f_equal.
      replace (map s_label ss) with (map s_label (ss1 ++ [s]) ++ map s_label ss2)
        by (rewrite E, !map_app, <- app_assoc; reflexivity).
      rewrite filter_app, (filter_all_true _ (map s_label (ss1 ++ [s]))),
        (filter_all_false _ (map s_label ss2)); [rewrite app_nil_r; reflexivity| |].
      * intros x Hx. apply in_map_iff in Hx. destruct Hx as [s' [<- Hs']].
        specialize (Hs2 s' Hs'). simpl in Hs2. lia.
      * intros x Hx. apply in_map_iff in Hx. destruct Hx as [s' [<- Hs']].
        apply in_app_iff in Hs'. destruct Hs' as [Hs'|[<-|[]]]; [|lia].
        specialize (Hs12 s' s Hs' (or_introl eq_refl)). simpl in Hs12. lia.
  - unfold sessions_window. rewrite (col_sessions _ _ Hcols), get_loc_missing by assumption.
    cbv [bind]. split; [reflexivity|]. intros H. apply Hnot. apply in_map_iff'. exact H.
Qed.

(** ** C14 *)

Theorem c14_session_distance : forall ss c a b, well_formed ss -> has_schedule c ss ->
  session_distance c a b =
  if b <? a
  then - zlen (filter (fun x => (b <=? x) && (x <=? a)) (map s_label ss))
  else zlen (filter (fun x => (a <=? x) && (x <=? b)) (map s_label ss)).
Proof.
  intros ss c a b Hwf Hc. rewrite (session_distance_eq c ss Hwf Hc).
  rewrite !(sessions_in_range_filter c ss Hwf Hc). rewrite !zlen_map.
  assert (H : forall p, zlen (filter p (map s_label ss)) = zlen (filter (fun s => p (s_label s)) ss)).
  { intros p. clear. induction ss as [|s ss IH]; simpl; [reflexivity|].
    destruct (p (s_label s)); rewrite ?zlen_cons, IH; reflexivity. }
  rewrite !H. reflexivity.
Qed.

Theorem c14_distance_is_range_length : forall ss c a b, well_formed ss -> has_schedule c ss ->
  Z.abs (session_distance c a b) = zlen (sessions_in_range c (Z.min a b) (Z.max a b)).
Proof.
  intros ss c a b Hwf Hc. rewrite (session_distance_eq c ss Hwf Hc).
  destruct (b <? a) eqn:E.
  - replace (Z.min a b) with b by lia. replace (Z.max a b) with a by lia.
    pose proof (zlen_nonneg (sessions_in_range c b a)). lia.
  - replace (Z.min a b) with a by lia. replace (Z.max a b) with b by lia.
    pose proof (zlen_nonneg (sessions_in_range c a b)). lia.
Qed.

Theorem c14_antisymmetric : forall ss c a b, well_formed ss -> has_schedule c ss -> a <> b ->
  session_distance c a b = - session_distance c b a.
Proof.
  intros ss c a b Hwf Hc Hne. rewrite !(session_distance_eq c ss Hwf Hc).
  destruct (b <? a) eqn:E1; destruct (a <? b) eqn:E2; lia.
Qed.

(** ** C15 *)

(** [m] is the latest trading minute at or before [t]; [t] is not after the last
    trading minute; a backward window must fit. *)
Theorem c15_minutes_window : forall ss c t n m, well_formed ss -> has_schedule c ss ->
  greatest (fun x => trading_minute ss x /\ x <= t) m ->
  (exists x, trading_minute ss x /\ t <= x) ->
  - n <= zlen (filter (fun x => x <=? t) (minutes c)) ->
  exists w, minutes_window c t n = Ok w /\
    (0 <= n -> w = firstn (Z.to_nat n) (filter (fun x => m <=? x) (minutes c))) /\
    (n < 0 -> rev w = firstn (Z.to_nat (Z.abs n)) (rev (filter (fun x => x <=? m) (minutes c)))).
Proof.
  intros ss c t n m Hwf Hc [[Hm Hmt] Hmax] [x [Hx Htx]] Hfit.
  pose proof (c_minutes_sorted c ss Hwf Hc) as Hs.
  pose proof (c_minutes_In c ss Hwf Hc) as HI.
  apply HI in Hm. apply in_split in Hm. destruct Hm as [l1 [l2 E]].
  pose proof Hs as Hs'. rewrite E in Hs'. apply SSorted_app in Hs'.
  destruct Hs' as [_ [Hs2 Hs12]]. apply SSorted_cons in Hs2. destruct Hs2 as [_ Hs2].
  rewrite Forall_forall in Hs2.
  assert (H2 : Forall (fun y => t < y) l2).
  { apply Forall_forall. intros y Hy. destruct (Z_lt_le_dec t y) as [|Hle]; [assumption|].
    assert (y <= m) by (apply Hmax; split; [|exact Hle]; apply HI; rewrite E;
                        apply in_app_iff; simpl; auto).
    specialize (Hs2 y Hy). lia. }
  assert (Hcase : m = t \/ l2 <> []).
  { destruct (Z.eq_dec m t) as [|Hne]; [left; assumption|]. right. intros ->.
    apply HI in Hx. rewrite E in Hx. apply in_app_iff in Hx. destruct Hx as [Hx|[->|[]]].
    - specialize (Hs12 x m Hx (or_introl eq_refl)). lia.
    - lia. }
  rewrite (minutes_window_eq c ss Hwf Hc t n l1 m l2 E Hmt H2 Hcase).
  eexists. split; [reflexivity|].
  assert (F1 : filter (fun y => m <=? y) (minutes c) = m :: l2).
  { rewrite E, filter_app, (filter_all_false _ l1), (filter_all_true _ (m :: l2)); [reflexivity| |].
    - intros y [<-|Hy]; [lia|]. specialize (Hs2 y Hy). lia.
    - intros y Hy. specialize (Hs12 y m Hy (or_introl eq_refl)). lia. }
  assert (F2 : filter (fun y => y <=? m) (minutes c) = l1 ++ [m]).
  { rewrite E. replace (l1 ++ m :: l2) with ((l1 ++ [m]) ++ l2) by (rewrite <- app_assoc; reflexivity).
    rewrite filter_app, (filter_all_true _ (l1 ++ [m])), (filter_all_false _ l2);
      [apply app_nil_r| |].
    - intros y Hy. specialize (Hs2 y Hy). lia.
    - intros y Hy. apply in_app_iff in Hy. destruct Hy as [Hy|[<-|[]]]; [|lia].
      specialize (Hs12 y m Hy (or_introl eq_refl)). lia. }
  assert (F3 : filter (fun y => y <=? t) (minutes c) = l1 ++ [m]).
  { rewrite E. replace (l1 ++ m :: l2) with ((l1 ++ [m]) ++ l2) by (rewrite <- app_assoc; reflexivity).
    rewrite filter_app, (filter_all_true _ (l1 ++ [m])), (filter_all_false _ l2);
      [apply app_nil_r| |].
    - intros y Hy. rewrite Forall_forall in H2. specialize (H2 y Hy). simpl in H2. lia.
    - intros y Hy. apply in_app_iff in Hy. destruct Hy as [Hy|[<-|[]]]; [|lia].
      specialize (Hs12 y m Hy (or_introl eq_refl)). lia. }
  rewrite F1, F2. rewrite F3 in Hfit.
  split; intros Hn.
  - destruct (0 <=? n) eqn:En; [reflexivity|lia].
  - destruct (0 <=? n) eqn:En; [lia|].
    replace (l1 ++ m :: l2) with ((l1 ++ [m]) ++ l2) by (rewrite <- app_assoc; reflexivity).
    assert (Hz : zlen (l1 ++ [m]) = zlen l1 + 1) by (rewrite zlen_app; reflexivity).
    replace (zlen l1 + n + 1) with (zlen (l1 ++ [m]) - Z.abs n) by lia.
    rewrite <- Hz. rewrite pyslice_upto by lia. apply rev_involutive.
Qed.

Theorem c15_before_first : forall ss c t n, well_formed ss -> has_schedule c ss ->
  (forall x, trading_minute ss x -> t < x) -> minutes_window c t n = Raise KeyError.
Proof.
  intros ss c t n Hwf Hc H. apply (minutes_window_before c ss Hwf Hc).
  intros m Hm. apply H. apply (c_minutes_In c ss Hwf Hc). exact Hm.
Qed.

(** After the last trading minute the code raises IndexError, not KeyError. *)
Theorem c15_after_last : forall ss c t n, well_formed ss -> has_schedule c ss ->
  (forall x, trading_minute ss x -> x < t) -> minutes_window c t n = Raise IndexError.
Proof.
  intros ss c t n Hwf Hc H. apply minutes_window_after.
  intros m Hm. apply H. apply (c_minutes_In c ss Hwf Hc). exact Hm.
Qed.

(** A backward window that reaches before the first minute is not clipped: if
    it is no longer than the whole calendar it comes out empty. *)
Theorem c15_backward_overrun : forall ss c t n m, well_formed ss -> has_schedule c ss ->
  greatest (fun x => trading_minute ss x /\ x <= t) m ->
  (exists x, trading_minute ss x /\ t <= x) ->
  zlen (filter (fun x => x <=? t) (minutes c)) < - n <= zlen (minutes c) ->
  minutes_window c t n = Ok [].
Proof.
  intros ss c t n m Hwf Hc [[Hm Hmt] Hmax] [x [Hx Htx]] Hov.
  pose proof (c_minutes_sorted c ss Hwf Hc) as Hs.
  pose proof (c_minutes_In c ss Hwf Hc) as HI.
  apply HI in Hm. apply in_split in Hm. destruct Hm as [l1 [l2 E]].
  pose proof Hs as Hs'. rewrite E in Hs'. apply SSorted_app in Hs'.
  destruct Hs' as [_ [Hs2 Hs12]]. apply SSorted_cons in Hs2. destruct Hs2 as [_ Hs2].
  rewrite Forall_forall in Hs2.
  assert (H2 : Forall (fun y => t < y) l2).
  { apply Forall_forall. intros y Hy. destruct (Z_lt_le_dec t y) as [|Hle]; [assumption|].
    assert (y <= m) by (apply Hmax; split; [|exact Hle]; apply HI; rewrite E;
                        apply in_app_iff; simpl; auto).
    specialize (Hs2 y Hy). lia. }
  assert (Hcase : m = t \/ l2 <> []).
  { destruct (Z.eq_dec m t) as [|Hne]; [left; assumption|]. right. intros ->.
    apply HI in Hx. rewrite E in Hx. apply in_app_iff in Hx. destruct Hx as [Hx|[->|[]]].
    - specialize (Hs12 x m Hx (or_introl eq_refl)). lia.
    - lia. }
  assert (F3 : filter (fun y => y <=? t) (minutes c) = l1 ++ [m]).
  { rewrite E. replace (l1 ++ m :: l2) with ((l1 ++ [m]) ++ l2) by (rewrite <- app_assoc; reflexivity).
    rewrite filter_app, (filter_all_true _ (l1 ++ [m])), (filter_all_false _ l2);
      [apply app_nil_r| |].
    - intros y Hy. rewrite Forall_forall in H2. specialize (H2 y Hy). simpl in H2. lia.
    - intros y Hy. apply in_app_iff in Hy. destruct Hy as [Hy|[<-|[]]]; [|lia].
      specialize (Hs12 y m Hy (or_introl eq_refl)). lia. }
  rewrite (minutes_window_eq c ss Hwf Hc t n l1 m l2 E Hmt H2 Hcase).
  assert (Hz : zlen (l1 ++ [m]) = zlen l1 + 1) by (rewrite zlen_app; reflexivity).
  rewrite F3, Hz in Hov. rewrite E in Hov. rewrite zlen_app, zlen_cons in Hov.
  pose proof (zlen_nonneg l1). pose proof (zlen_nonneg l2).
  destruct (0 <=? n) eqn:En; [lia|]. f_equal.
  unfold pyslice. rewrite zlen_app, zlen_cons. unfold clamp.
  destruct (zlen l1 + n + 1 <? 0) eqn:E1; [|lia].
  destruct (zlen l1 + 1 <? 0) eqn:E2; [lia|].
  replace (Z.to_nat _) with 0%nat by lia. reflexivity.
Qed.

(** If it is longer than the whole calendar, the slice wraps round once: the
    result has [|n| - total] minutes instead of [|n|] (or all of them). *)
Theorem c15_backward_wrap : forall ss c t n m, well_formed ss -> has_schedule c ss ->
  greatest (fun x => trading_minute ss x /\ x <= t) m ->
  (exists x, trading_minute ss x /\ t <= x) ->
  zlen (minutes c) < - n ->
  exists w, minutes_window c t n = Ok w /\
    rev w = firstn (Z.to_nat (- n - zlen (minutes c))) (rev (filter (fun x => x <=? m) (minutes c))).
Proof.
  intros ss c t n m Hwf Hc [[Hm Hmt] Hmax] [x [Hx Htx]] Hov.
  pose proof (c_minutes_sorted c ss Hwf Hc) as Hs.
  pose proof (c_minutes_In c ss Hwf Hc) as HI.
  apply HI in Hm. apply in_split in Hm. destruct Hm as [l1 [l2 E]].
  pose proof Hs as Hs'. rewrite E in Hs'. apply SSorted_app in Hs'.
  destruct Hs' as [_ [Hs2 Hs12]]. apply SSorted_cons in Hs2. destruct Hs2 as [_ Hs2].
  rewrite Forall_forall in Hs2.
  assert (H2 : Forall (fun y => t < y) l2).
  { apply Forall_forall. intros y Hy. destruct (Z_lt_le_dec t y) as [|Hle]; [assumption|].
    assert (y <= m) by (apply Hmax; split; [|exact Hle]; apply HI; rewrite E;
                        apply in_app_iff; simpl; auto).
    specialize (Hs2 y Hy). lia. }
  assert (Hcase : m = t \/ l2 <> []).
  { destruct (Z.eq_dec m t) as [|Hne]; [left; assumption|]. right. intros ->.
    apply HI in Hx. rewrite E in Hx. apply in_app_iff in Hx. destruct Hx as [Hx|[->|[]]].
    - specialize (Hs12 x m Hx (or_introl eq_refl)). lia.
    - lia. }
  assert (F3 : filter (fun y => y <=? t) (minutes c) = l1 ++ [m]).
  { rewrite E. replace (l1 ++ m :: l2) with ((l1 ++ [m]) ++ l2) by (rewrite <- app_assoc; reflexivity).
    rewrite filter_app, (filter_all_true _ (l1 ++ [m])), (filter_all_false _ l2);
      [apply app_nil_r| |].
    - intros y Hy. rewrite Forall_forall in H2. specialize (H2 y Hy). simpl in H2. lia.
    - intros y Hy. apply in_app_iff in Hy. destruct Hy as [Hy|[<-|[]]]; [|lia].
      specialize (Hs12 y m Hy (or_introl eq_refl)). lia. }
  rewrite (minutes_window_eq c ss Hwf Hc t n l1 m l2 E Hmt H2 Hcase).
  assert (Hz : zlen (l1 ++ [m]) = zlen l1 + 1) by (rewrite zlen_app; reflexivity).
  assert (F2 : filter (fun y => y <=? m) (minutes c) = l1 ++ [m]).
  { rewrite E. replace (l1 ++ m :: l2) with ((l1 ++ [m]) ++ l2) by (rewrite <- app_assoc; reflexivity).
    rewrite filter_app, (filter_all_true _ (l1 ++ [m])), (filter_all_false _ l2);
      [apply app_nil_r| |].
    - intros y Hy. specialize (Hs2 y Hy). lia.
    - intros y Hy. apply in_app_iff in Hy. destruct Hy as [Hy|[<-|[]]]; [|lia].
      specialize (Hs12 y m Hy (or_introl eq_refl)). lia. }
  rewrite F2. rewrite E in Hov |- *. rewrite zlen_app, zlen_cons in Hov |- *.
  pose proof (zlen_nonneg l1). pose proof (zlen_nonneg l2).
  destruct (0 <=? n) eqn:En; [lia|]. eexists. split; [reflexivity|].
  set (k := - n - (zlen l1 + (zlen l2 + 1))) in *.
  replace (l1 ++ m :: l2) with ((l1 ++ [m]) ++ l2) by (rewrite <- app_assoc; reflexivity).
  set (L := l1 ++ [m]) in *.
  assert (HP : pyslice (L ++ l2) (zlen l1 + n + 1) (zlen l1 + 1)
             = pyslice (L ++ l2) (zlen L - Z.min k (zlen L)) (zlen L)).
  { unfold pyslice. rewrite zlen_app, Hz. unfold clamp.
    destruct (zlen l1 + n + 1 <? 0) eqn:E1; [|lia].
    destruct (zlen l1 + 1 <? 0) eqn:E2; [lia|].
    destruct (zlen l1 + 1 - Z.min k (zlen l1 + 1) <? 0) eqn:E3; [lia|].
    f_equal; [|f_equal]; lia. }
  rewrite HP, pyslice_upto by lia. rewrite rev_involutive.
  destruct (Z_le_gt_dec k (zlen L)) as [Hk|Hk].
  - rewrite Z.min_l by exact Hk. reflexivity.
  - rewrite Z.min_r by lia. rewrite !firstn_all2; [reflexivity| |];
      rewrite rev_length; unfold zlen in *; lia.
Qed.

Theorem c15_minutes_window_refuted : exists ss c t n,
  well_formed ss /\ has_schedule c ss /\ trading_minute ss t /\ n < 0 /\
  minutes_window c t n = Ok [].
Proof.
  exists ex_ss, ex_cal, (ex_day 1 + ex_min 572), (-10).
  split; [exact ex_well_formed|]. split; [exact ex_has_schedule|].
  split.
  - apply (c_minutes_In ex_cal ex_ss ex_well_formed ex_has_schedule).
    apply contains_In. vm_compute. reflexivity.
  - split; [lia|]. vm_compute. reflexivity.
Qed.

(** ** C16, C17, C18 *)

Theorem c16_lookup_next : forall ss c t, well_formed ss -> has_schedule c ss ->
  match fst (minute_to_session_label c None t "next") with
  | Ok l =>
      exists s, In s ss /\ l = s_label s /\
        (during s t \/
         ((forall s', In s' ss -> ~ during s' t) /\ t < s_open s /\
          forall s', In s' ss -> t < s_open s' -> s_open s <= s_open s'))
  | Raise e => e = IndexError /\ forall s, In s ss -> s_close s < t
  end.
Proof.
  intros ss c t Hwf Hc. fold (lookup c t "next").
  destruct (locate ss t Hwf) as [ss1 s ss2 E H1 D H2|ss1 ss2 E H1 H2].
  - assert (Hs : In s ss) by (rewrite E; apply in_app_iff; simpl; auto).
    rewrite (lookup_next_inside c ss Hwf Hc s t Hs D). exists s. auto.
  - destruct ss2 as [|s ss2].
    + rewrite app_nil_r in E. subst ss1. rewrite Forall_forall in H1.
      rewrite (lookup_after c ss Hwf Hc t "next" H1). auto.
    + rewrite (lookup_next_between c ss Hwf Hc ss1 s ss2 t E H1 H2).
      exists s. split; [rewrite E; apply in_app_iff; simpl; auto|].
      split; [reflexivity|]. right.
      split; [apply (between_no_during ss ss1 (s :: ss2) t E H1 H2)|].
      apply Forall_cons_iff in H2. destruct H2 as [Hts H2]. split; [exact Hts|].
      intros s' Hs' Hts'. rewrite E in Hs'. apply in_app_iff in Hs'.
      destruct Hs' as [Hs'|[<-|Hs']]; [|lia|].
      * rewrite Forall_forall in H1. specialize (H1 s' Hs'). simpl in H1.
        assert (s_open s' <= s_close s').
        { apply ordered_open_close. apply (ord ss Hwf). rewrite E. apply in_app_iff; auto. }
        lia.
      * pose proof (wf_open_sorted ss Hwf) as Ho. rewrite E in Ho.
        apply SSorted_app in Ho. destruct Ho as [_ [Ho _]]. apply SSorted_cons in Ho.
        destruct Ho as [_ Ho]. rewrite Forall_forall in Ho. specialize (Ho s' Hs'). lia.
Qed.

(** In the range of the calendar "previous" gives the containing or the
    previous session; before the first open it gives the last session of the
    calendar; after the last close IndexError. *)
Theorem c17_lookup_previous : forall ss c t, well_formed ss -> has_schedule c ss ->
  match fst (minute_to_session_label c None t "previous") with
  | Ok l =>
      (exists s, In s ss /\ l = s_label s /\
        (during s t \/
         ((forall s', In s' ss -> ~ during s' t) /\ s_close s < t /\
          forall s', In s' ss -> s_close s' < t -> s_close s' <= s_close s))) \/
      ((forall s, In s ss -> t < s_open s) /\ greatest (is_label_of ss) l)
  | Raise e => e = IndexError /\ forall s, In s ss -> s_close s < t
  end.
Proof.
  intros ss c t Hwf Hc. fold (lookup c t "previous").
  destruct (locate ss t Hwf) as [ss1 s ss2 E H1 D H2|ss1 ss2 E H1 H2].
  - assert (Hs : In s ss) by (rewrite E; apply in_app_iff; simpl; auto).
    rewrite (lookup_previous_inside c ss Hwf Hc s t Hs D). left. exists s. auto.
  - destruct ss2 as [|s ss2].
    + rewrite app_nil_r in E. subst ss1. rewrite Forall_forall in H1.
      rewrite (lookup_after c ss Hwf Hc t "previous" H1). auto.
    + destruct ss1 as [|s0 ss1] using rev_ind.
      * simpl in E. pose proof H2 as H2'. rewrite <- E in H2'. rewrite Forall_forall in H2'.
        rewrite (lookup_previous_before c ss Hwf Hc t H2').
        unfold last_session, all_sessions.
        rewrite (col_sessions _ _ (has_schedule_cols c ss Hc)).
        destruct ss as [|sl rest] using rev_ind; [discriminate|].
        rewrite map_app. simpl map. rewrite pyget_last. right. split; [exact H2'|].
        split; [exists sl; split; [apply in_app_iff; simpl; auto|reflexivity]|].
        intros y [s' [Hs' ->]]. apply in_app_iff in Hs'. destruct Hs' as [Hs'|[<-|[]]]; [|lia].
        pose proof (wf_label_sorted _ Hwf) as Hl. apply SSorted_app in Hl.
        destruct Hl as [_ [_ Hl]]. specialize (Hl s' sl Hs' (or_introl eq_refl)).
        simpl in Hl. lia.
      * clear IHss1. rewrite (lookup_previous_between c ss Hwf Hc ss1 s0 s ss2 t E H1 H2).
        left. exists s0.
        assert (Hs0 : In s0 ss) by (rewrite E; apply in_app_iff; left; apply in_app_iff; simpl; auto).
        split; [exact Hs0|]. split; [reflexivity|]. right.
        split; [apply (between_no_during ss (ss1 ++ [s0]) (s :: ss2) t E H1 H2)|].
        rewrite Forall_forall in H1.
        split; [apply H1; apply in_app_iff; simpl; auto|].
        intros s' Hs' Hts'. rewrite E in Hs'. apply in_app_iff in Hs'.
        destruct Hs' as [Hs'|Hs'].
        -- apply in_app_iff in Hs'. destruct Hs' as [Hs'|[<-|[]]]; [|lia].
           pose proof (wf_close_sorted ss Hwf) as Ho. rewrite E, <- app_assoc in Ho.
           apply SSorted_app in Ho. destruct Ho as [_ [_ Ho]].
           specialize (Ho s' s0 Hs' (or_introl eq_refl)). simpl in Ho. lia.
        -- rewrite Forall_forall in H2. specialize (H2 s' Hs'). simpl in H2.
           assert (s_open s' <= s_close s').
           { apply ordered_open_close. apply (ord ss Hwf). rewrite E. apply in_app_iff; auto. }
           lia.
Qed.

(** "previous" before the first open returns a session in the future. *)
Theorem c17_lookup_previous_refuted : exists ss c t l,
  well_formed ss /\ has_schedule c ss /\
  fst (minute_to_session_label c None t "previous") = Ok l /\
  forall s, In s ss -> s_label s = l -> t < s_open s.
Proof.
  exists ex_ss, ex_cal, (ex_day 1), (ex_day 5).
  split; [exact ex_well_formed|]. split; [exact ex_has_schedule|].
  split; [vm_compute; reflexivity|].
  intros s [<-|[<-|[<-|[]]]] H; vm_compute in H; try discriminate; vm_compute; reflexivity.
Qed.

Theorem c18_lookup_none : forall ss c t, well_formed ss -> has_schedule c ss ->
  match fst (minute_to_session_label c None t "none") with
  | Ok l => is_open_on_minute c t false = Ok true /\
            exists s, In s ss /\ during s t /\ l = s_label s
  | Raise e => is_open_on_minute c t false = Ok false /\
      ((e = ValueError /\ exists s, In s ss /\ t <= s_close s) \/
       (e = IndexError /\ forall s, In s ss -> s_close s < t))
  end.
Proof.
  intros ss c t Hwf Hc. fold (lookup c t "none"). rewrite (lookup_none_eq c).
  pose proof (c16_lookup_next ss c t Hwf Hc) as H. fold (lookup c t "next") in H.
  destruct (is_open_spec c ss Hwf Hc t false) as [b [Eb Hb]]. rewrite Eb.
  destruct (lookup c t "next") as [l|e].
  - destruct H as [s [Hs [-> H]]]. destruct b.
    + split; [reflexivity|]. destruct (proj1 Hb eq_refl) as [s' [Hs' [D' _]]].
      destruct H as [D|[Hno _]]; [exists s; auto|]. exfalso. apply (Hno s' Hs' D').
    + split; [reflexivity|]. left. split; [reflexivity|]. exists s. split; [exact Hs|].
      pose proof (ordered_open_close s (ord ss Hwf s Hs)).
      destruct H as [D|[_ [H _]]]; unfold during in *; lia.
  - destruct H as [-> H]. split.
    + f_equal. destruct b; [|reflexivity]. destruct (proj1 Hb eq_refl) as [s [Hs [D _]]].
      specialize (H s Hs). unfold during in D. lia.
    + right. auto.
Qed.

Theorem c18_round_trip : forall ss c s l t, well_formed ss -> has_schedule c ss ->
  In s ss -> minutes_for_session c (s_label s) = Ok l -> In t l ->
  fst (minute_to_session_label c None t "next") = Ok (s_label s) /\
  fst (minute_to_session_label c None t "previous") = Ok (s_label s).
Proof.
  intros ss c s l t Hwf Hc Hs El Ht.
  rewrite (minutes_for_session_sm c ss Hwf Hc s Hs) in El. injection El as <-.
  apply (sm_In ss s t Hwf Hs) in Ht.
  apply session_minute_during in Ht; [|apply (ord ss Hwf s Hs)].
  split.
  - apply (lookup_next_inside c ss Hwf Hc s t Hs Ht).
  - apply (lookup_previous_inside c ss Hwf Hc s t Hs Ht).
Qed.

Theorem c18_invalid_direction : forall ss c t d, well_formed ss -> has_schedule c ss ->
  d <> "next"%string -> d <> "previous"%string -> d <> "none"%string ->
  exists e, fst (minute_to_session_label c None t d) = Raise e /\
    ((e = ValueError /\ exists s, In s ss /\ t <= s_close s) \/
     (e = IndexError /\ forall s, In s ss -> s_close s < t)).
Proof.
  intros ss c t d Hwf Hc H1 H2 H3.
  pose proof (c16_lookup_next ss c t Hwf Hc) as H.
  unfold minute_to_session_label in *. simpl String.eqb in H. cbv iota in H.
  apply String.eqb_neq in H1, H2, H3. rewrite H1, H2, H3.
  destruct (pyget (sessions c) (searchsorted_left (closes c) t)) as [l|e]; cbn [fst] in *.
  - exists ValueError. split; [reflexivity|]. left. split; [reflexivity|].
    destruct H as [s [Hs [_ H]]]. exists s. split; [exact Hs|].
    pose proof (ordered_open_close s (ord ss Hwf s Hs)).
    destruct H as [D|[_ [H _]]]; unfold during in *; lia.
  - destruct H as [-> H]. exists IndexError. auto.
Qed.

(** ** C19 *)

Theorem c19_cache_transparent : forall c calls,
  fst (run_lookups c None calls) =
  map (fun call => fst (minute_to_session_label c None (fst call) (snd call))) calls.
Proof. intros. apply run_transparent. exact I. Qed.

(** ** C20 *)

Theorem c20_minute_index : forall ss c index, well_formed ss -> has_schedule c ss ->
  match minute_index_to_session_labels c index with
  | Ok labels =>
      StronglySorted Z.le index /\
      Forall2 (fun t l => exists s, In s ss /\ during s t /\ l = s_label s) index labels
  | Raise e =>
      (e = ValueError /\ ~ StronglySorted Z.le index) \/
      (StronglySorted Z.le index /\
       exists pre t post, index = pre ++ t :: post /\
         (forall u, In u pre -> exists s, In s ss /\ during s u) /\
         (forall s, In s ss -> ~ during s t) /\
         ((e = ValueError /\ exists s, In s ss /\ t < s_open s) \/
          (e = IndexError /\ forall s, In s ss -> s_close s < t)))
  end.
Proof. intros ss c index Hwf Hc. exact (minute_index_spec c ss Hwf Hc index). Qed.

(** It agrees with the one-at-a-time lookup. *)
Theorem c20_agrees_with_lookup : forall ss c index labels, well_formed ss -> has_schedule c ss ->
  minute_index_to_session_labels c index = Ok labels ->
  map (fun t => fst (minute_to_session_label c None t "next")) index = map Ok labels.
Proof.
  intros ss c index labels Hwf Hc E. pose proof (minute_index_spec c ss Hwf Hc index) as H.
  rewrite E in H. destruct H as [_ H]. clear E.
  induction H as [|t l index labels [s [Hs [D ->]]] HF IH]; simpl; [reflexivity|].
  f_equal; [|exact IH]. apply (lookup_next_inside c ss Hwf Hc s t Hs D).
Qed.

(** Labels come out sorted. *)
Theorem c20_labels_sorted : forall ss c index labels, well_formed ss -> has_schedule c ss ->
  minute_index_to_session_labels c index = Ok labels -> StronglySorted Z.le labels.
Proof.
  intros ss c index labels Hwf Hc E. pose proof (minute_index_spec c ss Hwf Hc index) as H.
  rewrite E in H. destruct H as [Hs HF]. clear E.
  induction HF as [|t l index labels [s [Hin [D ->]]] HF IH]; [constructor|].
  apply SSorted_cons in Hs. destruct Hs as [Hs Hle]. apply SSorted_cons.
  split; [apply IH; exact Hs|]. clear IH Hs.
  induction HF as [|t' l' index labels [s' [Hin' [D' ->]]] HF IH]; constructor.
  - apply Forall_cons_iff in Hle. destruct Hle as [Hle _].
    apply (wf_order ss Hwf s s' Hin Hin'). unfold during in *. lia.
  - apply IH. apply Forall_cons_iff in Hle. tauto.
Qed.

(** ** C21 *)

Theorem c21_execution_minutes : forall ss c from_open from_close s,
  well_formed ss -> has_schedule c ss -> In s ss ->
  match execution_minutes_for_session from_open from_close c (s_label s) with
  | Ok l =>
      lists_exactly
        (fun t => trading_minute ss t /\ from_open (s_open s) <= t <= from_close (s_close s)) l
  | Raise e => e = IndexError /\ forall m, trading_minute ss m -> m < from_close (s_close s)
  end.
Proof.
  intros ss c fo fc s Hwf Hc Hs. unfold execution_minutes_for_session.
  pose proof (has_schedule_cols c ss Hc) as Hcols.
  rewrite (schedule_at_In c ss Hwf Hc s_open s opens (col_opens _ _ Hcols) Hs).
  rewrite (schedule_at_In c ss Hwf Hc s_close s closes (col_closes _ _ Hcols) Hs). cbv [bind].
  pose proof (c09_minutes_in_range ss c (fo (s_open s)) (fc (s_close s)) Hwf Hc) as H.
  destruct (minutes_in_range c (fo (s_open s)) (fc (s_close s))); tauto.
Qed.

Theorem c21_default_is_minutes_for_session : forall c l,
  execution_minutes_for_session execution_time_from_open execution_time_from_close c l
  = minutes_for_session c l.
Proof. reflexivity. Qed.

Theorem c21_sessions_in_range : forall ss c from_open from_close a b,
  well_formed ss -> has_schedule c ss ->
  (forall s, In s ss -> from_close (s_close s) <= s_close s) ->
  match execution_minutes_for_sessions_in_range from_open from_close c a b with
  | Ok l => sessions_in_range c a b <> [] /\
      exists pieces, l = concat pieces /\
        Forall2 (fun label piece =>
           execution_minutes_for_session from_open from_close c label = Ok piece)
          (sessions_in_range c a b) pieces
  | Raise e => e = ValueError /\ sessions_in_range c a b = []
  end.
Proof.
  intros ss c fo fc a b Hwf Hc Hfc. unfold execution_minutes_for_sessions_in_range.
  rewrite (sessions_in_range_filter c ss Hwf Hc).
  set (fl := filter _ ss).
  assert (Hfl : forall s, In s fl -> In s ss) by (intros s Hs; apply filter_In in Hs; tauto).
  assert (Hm : exists pieces,
    mapM (execution_minutes_for_session fo fc c) (map s_label fl) = Ok pieces /\
    Forall2 (fun label piece => execution_minutes_for_session fo fc c label = Ok piece)
      (map s_label fl) pieces).
  { clearbody fl. induction fl as [|s fl IH]; simpl.
    - exists []. split; [reflexivity|constructor].
    - destruct IH as [ps [E1 E2]]; [intros; apply Hfl; right; assumption|].
      assert (Hs : In s ss) by (apply Hfl; left; reflexivity).
      destruct (execution_minutes_Ok c ss Hwf Hc fo fc s Hs) as [l [El _]].
      { exists (s_close s). split; [apply (close_is_minute ss Hwf s Hs)|apply Hfc; exact Hs]. }
      exists (l :: ps). rewrite El. simpl. rewrite E1. simpl.
      split; [reflexivity|]. constructor; assumption. }
  destruct Hm as [pieces [E HF]]. rewrite E. cbv [bind].
  destruct pieces as [|p ps].
  - split; [reflexivity|]. inversion HF. reflexivity.
  - split.
    + intros F. rewrite F in HF. inversion HF.
    + exists (p :: ps). split; [reflexivity|exact HF].
Qed.

(** ** C22 *)

Theorem c22_accessors : forall ss c s, well_formed ss -> has_schedule c ss -> In s ss ->
  session_open c (s_label s) = Ok (s_open s) /\
  session_close c (s_label s) = Ok (s_close s) /\
  session_break_start c (s_label s) = Ok (option_map fst (s_break s)) /\
  session_break_end c (s_label s) = Ok (option_map snd (s_break s)) /\
  open_and_close_for_session c (s_label s) = Ok (s_open s, s_close s) /\
  break_start_and_end_for_session c (s_label s) =
    Ok (option_map fst (s_break s), option_map snd (s_break s)).
Proof.
  intros ss c s Hwf Hc Hs. pose proof (has_schedule_cols c ss Hc) as Hcols.
  assert (Ho := schedule_at_In c ss Hwf Hc s_open s opens (col_opens _ _ Hcols) Hs).
  assert (Hcl := schedule_at_In c ss Hwf Hc s_close s closes (col_closes _ _ Hcols) Hs).
  assert (Hb := schedule_at_In c ss Hwf Hc bs_cell s break_starts (col_bs _ _ Hcols) Hs).
  assert (He := schedule_at_In c ss Hwf Hc be_cell s break_ends (col_be _ _ Hcols) Hs).
  destruct (ord ss Hwf s Hs) as [Hn Hor].
  assert (Cb : cell (bs_cell s) = option_map fst (s_break s)).
  { unfold cell, bs_cell. rewrite NAT_nat. destruct (s_break s) as [[b e]|]; simpl.
    - destruct (b =? not_a_time) eqn:E; [lia|reflexivity].
    - rewrite Z.eqb_refl. reflexivity. }
  assert (Ce : cell (be_cell s) = option_map snd (s_break s)).
  { unfold cell, be_cell. rewrite NAT_nat. destruct (s_break s) as [[b e]|]; simpl.
    - destruct (e =? not_a_time) eqn:E; [lia|reflexivity].
    - rewrite Z.eqb_refl. reflexivity. }
  unfold break_start_and_end_for_session, open_and_close_for_session,
    session_break_start, session_break_end, session_open, session_close.
  rewrite Ho, Hcl, Hb, He. cbv [bind]. rewrite Cb, Ce. repeat split; reflexivity.
Qed.

Theorem c22_unknown_session : forall ss c l, has_schedule c ss -> ~ is_label_of ss l ->
  session_open c l = Raise KeyError /\ session_close c l = Raise KeyError /\
  session_break_start c l = Raise KeyError /\ session_break_end c l = Raise KeyError /\
  open_and_close_for_session c l = Raise KeyError /\
  break_start_and_end_for_session c l = Raise KeyError.
Proof.
  intros ss c l Hc Hl.
  assert (H : ~ In l (map s_label ss)) by (intros F; apply Hl; apply in_map_iff'; exact F).
  unfold break_start_and_end_for_session, open_and_close_for_session,
    session_break_start, session_break_end, session_open, session_close.
  rewrite !(schedule_at_missing c ss Hc l _ H). repeat split; reflexivity.
Qed.

Theorem c22_opens_closes_in_range : forall ss c a b, well_formed ss -> has_schedule c ss ->
  map Ok (session_opens_in_range c a b) = map (session_open c) (sessions_in_range c a b) /\
  map Ok (session_closes_in_range c a b) = map (session_close c) (sessions_in_range c a b).
Proof.
  intros ss c a b Hwf Hc. pose proof (has_schedule_cols c ss Hc) as Hcols.
  rewrite (sessions_in_range_filter c ss Hwf Hc).
  unfold session_opens_in_range, session_closes_in_range.
  rewrite (col_opens _ _ Hcols), (col_closes _ _ Hcols).
  rewrite !(label_slice_filter c ss Hwf Hc). rewrite !map_map.
  split; apply map_ext_in; intros s Hs; apply filter_In in Hs; destruct Hs as [Hs _]; symmetry.
  - apply (schedule_at_In c ss Hwf Hc s_open s opens (col_opens _ _ Hcols) Hs).
  - apply (schedule_at_In c ss Hwf Hc s_close s closes (col_closes _ _ Hcols) Hs).
Qed.

Theorem c22_first_last_session : forall ss c, well_formed ss -> has_schedule c ss ->
  exists f l, first_session c = Ok f /\ last_session c = Ok l /\
    least (is_label_of ss) f /\ greatest (is_label_of ss) l.
Proof.
  intros ss c Hwf Hc. pose proof (has_schedule_cols c ss Hc) as Hcols.
  pose proof (col_nonempty _ _ Hcols) as Hne.
  unfold first_session, last_session, all_sessions. rewrite (col_sessions _ _ Hcols).
  pose proof (wf_label_sorted ss Hwf) as Hs.
  assert (H1 : exists f, pyget (map s_label ss) 0 = Ok f /\ least (is_label_of ss) f).
  { destruct ss as [|s ss']; [congruence|]. exists (s_label s). split; [reflexivity|].
    split; [exists s; split; [left; reflexivity|reflexivity]|].
    apply SSorted_cons in Hs. destruct Hs as [_ Hs]. rewrite Forall_forall in Hs.
    intros y [s' [[<-|Hs'] ->]]; [lia|]. specialize (Hs s' Hs'). lia. }
  assert (H2 : exists l, pyget (map s_label ss) (-1) = Ok l /\ greatest (is_label_of ss) l).
  { destruct ss as [|s ss'] using rev_ind; [congruence|]. exists (s_label s).
    rewrite map_app. simpl map. split; [apply pyget_last|].
    split; [exists s; split; [apply in_app_iff; simpl; auto|reflexivity]|].
    apply SSorted_app in Hs. destruct Hs as [_ [_ Hs]].
    intros y [s' [Hs' ->]]. apply in_app_iff in Hs'. destruct Hs' as [Hs'|[<-|[]]]; [|lia].
    specialize (Hs s' s Hs' (or_introl eq_refl)). lia. }
  destruct H1 as [f [F1 F2]]. destruct H2 as [l [L1 L2]]. exists f, l. auto.
Qed.

(** ** Witnesses: the side conditions of the theorems above are met by the
    concrete calendar [ex_cal], with the expected concrete answers. *)

Example c03_witness :
  let s := nth 0 ex_ss (Session 0 0 None 0) in
  let t := ex_day 1 + ex_min 720 in
  In s ex_ss /\ during s t /\ (one_minute | t - s_open s) /\
  (exists be, s_break s = Some (t, be) /\ (one_minute | be - s_open s)).
Proof.
  split; [left; reflexivity|]. split; [vm_compute; split; discriminate|].
  split; [exists 150; vm_compute; reflexivity|].
  eexists. split; [reflexivity|]. exists 210; vm_compute; reflexivity.
Qed.

Example c11_witness :
  (forall s, In s ex_ss -> ex_day 2 <= s_label s <= ex_day 2 -> s_break s = None) /\
  minutes_count_for_sessions_in_range ex_cal (ex_day 2) (ex_day 2) = 211.
Proof.
  split; [|vm_compute; reflexivity].
  intros s [<-|[<-|[<-|[]]]] [H1 H2]; try reflexivity; vm_compute in H1, H2; congruence.
Qed.

Example c15_witness :
  let t := ex_day 1 + ex_min 572 in
  greatest (fun x => trading_minute ex_ss x /\ x <= t) t /\
  (exists x, trading_minute ex_ss x /\ t <= x) /\
  2 <= zlen (filter (fun x => x <=? t) (minutes ex_cal)) /\
  minutes_window ex_cal t (-2) = Ok [ex_day 1 + ex_min 571; t] /\
  zlen (filter (fun x => x <=? t) (minutes ex_cal)) < 10 <= zlen (minutes ex_cal).
Proof.
  intros t.
  assert (Ht : trading_minute ex_ss t).
  { apply (c_minutes_In ex_cal ex_ss ex_well_formed ex_has_schedule).
    apply contains_In. vm_compute. reflexivity. }
  split; [split; [split; [exact Ht|lia]|]; intros y [_ Hy]; exact Hy|].
  split; [exists t; split; [exact Ht|lia]|].
  split; [vm_compute; discriminate|]. split; [vm_compute; reflexivity|].
  split; vm_compute; [reflexivity|discriminate].
Qed.

Example c13_witness :
  sessions_window ex_cal (ex_day 2) 5 = Ok [ex_day 2; ex_day 5] /\
  sessions_window ex_cal (ex_day 5) (-1) = Ok [ex_day 2; ex_day 5] /\
  sessions_window ex_cal (ex_day 3) 1 = Raise KeyError.
Proof. repeat split; vm_compute; reflexivity. Qed.

Example c16_witness :
  let look t d := fst (minute_to_session_label ex_cal None t d) in
  look (ex_day 3) "next"%string = Ok (ex_day 5) /\
  look (ex_day 3) "previous"%string = Ok (ex_day 2) /\
  look (ex_day 3) "none"%string = Raise ValueError /\
  look (ex_day 7) "none"%string = Raise IndexError /\
  look (ex_day 2 + ex_min 600) "none"%string = Ok (ex_day 2) /\
  look (ex_day 3) "sideways"%string = Raise ValueError.
Proof. repeat split; vm_compute; reflexivity. Qed.

Example c20_witness :
  minute_index_to_session_labels ex_cal
    [ex_day 1 + ex_min 570; ex_day 1 + ex_min 750; ex_day 2 + ex_min 600]
    = Ok [ex_day 1; ex_day 1; ex_day 2] /\
  minute_index_to_session_labels ex_cal [ex_day 2; ex_day 1] = Raise ValueError /\
  minute_index_to_session_labels ex_cal [ex_day 2 + ex_min 600; ex_day 3] = Raise ValueError /\
  minute_index_to_session_labels ex_cal [ex_day 2 + ex_min 600; ex_day 7] = Raise IndexError.
Proof. repeat split; vm_compute; reflexivity. Qed.

Example c21_witness :
  exists l, execution_minutes_for_sessions_in_range
    (fun o => o + ex_min 2) (fun c => c - ex_min 1) ex_cal (ex_day 2) (ex_day 2) = Ok l /\
    zlen l = 208.
Proof. eexists. split; vm_compute; reflexivity. Qed.

(** ** Assumptions *)
Print Assumptions c01_all_minutes.
Print Assumptions c01_calendar_exists.
Print Assumptions c02_is_open_on_minute.
Print Assumptions c03_open_iff_minute_or_break_start.
Print Assumptions c03_agree_without_breaks.
Print Assumptions c03_agree_refuted.
Print Assumptions c04_next_open.
Print Assumptions c04_next_close.
Print Assumptions c05_previous_open.
Print Assumptions c05_previous_close.
Print Assumptions c06_next_minute.
Print Assumptions c06_previous_minute.
Print Assumptions c06_inverse.
Print Assumptions c06_previous_minute_key_error_refuted.
Print Assumptions c07_is_session.
Print Assumptions c07_next_session_label.
Print Assumptions c07_previous_session_label.
Print Assumptions c07_inverse.
Print Assumptions c08_minutes_for_session.
Print Assumptions c08_unknown_session.
Print Assumptions c08_partition.
Print Assumptions c09_minutes_in_range.
Print Assumptions c09_minutes_in_range_refuted.
Print Assumptions c10_minutes_for_sessions_in_range.
Print Assumptions c10_unknown_session.
Print Assumptions c11_minutes_count.
Print Assumptions c11_minutes_count_without_breaks.
Print Assumptions c11_minutes_count_refuted.
Print Assumptions c12_sessions_in_range.
Print Assumptions c13_sessions_window.
Print Assumptions c14_session_distance.
Print Assumptions c14_distance_is_range_length.
Print Assumptions c14_antisymmetric.
Print Assumptions c15_minutes_window.
Print Assumptions c15_before_first.
Print Assumptions c15_after_last.
Print Assumptions c15_backward_overrun.
Print Assumptions c15_backward_wrap.
Print Assumptions c15_minutes_window_refuted.
Print Assumptions c16_lookup_next.
Print Assumptions c17_lookup_previous.
Print Assumptions c17_lookup_previous_refuted.
Print Assumptions c18_lookup_none.
Print Assumptions c18_round_trip.
Print Assumptions c18_invalid_direction.
Print Assumptions c19_cache_transparent.
Print Assumptions c20_minute_index.
Print Assumptions c20_agrees_with_lookup.
Print Assumptions c20_labels_sorted.
Print Assumptions c21_execution_minutes.
Print Assumptions c21_default_is_minutes_for_session.
Print Assumptions c21_sessions_in_range.
Print Assumptions c22_accessors.
Print Assumptions c22_unknown_session.
Print Assumptions c22_opens_closes_in_range.
Print Assumptions c22_first_last_session.
