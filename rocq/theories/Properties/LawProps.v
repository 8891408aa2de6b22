(** C85, C86: the query methods of [TradingCalendar] fit together, for every well-formed
    schedule [ss] and every calendar object [c] made from it. *)
From Coq Require Import String ZArith List Bool Lia Sorting.Sorted.
From Verif.Model Require Import Base Helpers Queries.
From Verif.Spec Require Import Schedule.
From Verif.Proofs Require Import BaseLemmas ScheduleLemmas QueryLemmas QueryLemmas2.
From Verif.Properties Require Import QueryProps.
Import ListNotations.
Open Scope Z_scope.

(** ** Lists *)

Lemma filter_sorted : forall p l, StronglySorted Z.lt l -> StronglySorted Z.lt (filter p l).
Proof.
  induction l as [|x l IH]; intros H; cbn; [constructor|].
  apply SSorted_cons in H. destruct H as [H F]. destruct (p x); [|auto].
  constructor; [auto|]. apply Forall_forall. intros y Hy. apply filter_In in Hy.
  rewrite Forall_forall in F. now apply F.
Qed.

Lemma exactly_unique : forall P Q l l', lists_exactly P l -> lists_exactly Q l' ->
  (forall x, P x <-> Q x) -> l = l'.
Proof.
  intros P Q l l' [H1 H2] [H3 H4] E. apply SSorted_lt_unique; try assumption.
  intros x. rewrite H2, H4. apply E.
Qed.

Lemma exactly_app : forall P Q R l l', lists_exactly P l -> lists_exactly Q l' ->
  (forall x, R x <-> P x \/ Q x) -> (forall x y, P x -> Q y -> x < y) -> lists_exactly R (l ++ l').
Proof.
  intros P Q R l l' [H1 H2] [H3 H4] E L. split.
  - apply SSorted_app. split; [exact H1|]. split; [exact H3|].
    intros x y Hx Hy. apply L; [now apply H2|now apply H4].
  - intros x. rewrite in_app_iff, H2, H4, E. reflexivity.
Qed.

Lemma exactly_filter : forall p l, StronglySorted Z.lt l ->
  lists_exactly (fun x => In x l /\ p x = true) (filter p l).
Proof. intros p l H. split; [now apply filter_sorted|]. intros x. apply filter_In. Qed.

Lemma prefix_filter : forall t l, StronglySorted Z.lt l ->
  exists post, l = filter (fun x => x <=? t) l ++ post.
Proof.
  intros t l H. exists (filter (fun x => t <? x) l).
  apply (exactly_unique (fun x => In x l) (fun x => In x l)); [split; [exact H|reflexivity]| |reflexivity].
  apply (exactly_app (fun x => In x l /\ (x <=? t) = true) (fun x => In x l /\ (t <? x) = true)).
  - now apply exactly_filter.
  - now apply exactly_filter.
  - intros x. destruct (Z.leb_spec x t), (Z.ltb_spec t x); try lia; intuition discriminate.
  - intros x y [_ Hx] [_ Hy]. lia.
Qed.

Lemma suffix_filter : forall t l, StronglySorted Z.lt l ->
  exists pre, l = pre ++ filter (fun x => t <=? x) l.
Proof.
  intros t l H. exists (filter (fun x => x <? t) l).
  apply (exactly_unique (fun x => In x l) (fun x => In x l)); [split; [exact H|reflexivity]| |reflexivity].
  apply (exactly_app (fun x => In x l /\ (x <? t) = true) (fun x => In x l /\ (t <=? x) = true)).
  - now apply exactly_filter.
  - now apply exactly_filter.
  - intros x. destruct (Z.ltb_spec x t), (Z.leb_spec t x); try lia; intuition discriminate.
  - intros x y [_ Hx] [_ Hy]. lia.
Qed.

Lemma filter_filter' : forall (p q : Z -> bool) l, filter p (filter q l) = filter (fun x => q x && p x) l.
Proof.
  induction l as [|x l IH]; cbn; [reflexivity|]. destruct (q x) eqn:E; cbn; rewrite IH; reflexivity.
Qed.

(** The first elements from [a] on, as many as there are up to [b]. *)
Lemma first_from : forall a b l, StronglySorted Z.lt l ->
  firstn (Z.to_nat (zlen (filter (fun x => (a <=? x) && (x <=? b)) l))) (filter (fun x => a <=? x) l) =
  filter (fun x => (a <=? x) && (x <=? b)) l.
Proof.
  intros a b l H. rewrite <- (filter_filter' (fun x => x <=? b) (fun x => a <=? x)).
  destruct (prefix_filter b (filter (fun x => a <=? x) l) (filter_sorted _ _ H)) as [post E].
  rewrite E at 2. unfold zlen. rewrite Nat2Z.id, firstn_app, firstn_all, Nat.sub_diag. apply app_nil_r.
Qed.

Lemma last_from : forall a b l, StronglySorted Z.lt l ->
  firstn (Z.to_nat (zlen (filter (fun x => (a <=? x) && (x <=? b)) l))) (rev (filter (fun x => x <=? b) l)) =
  rev (filter (fun x => (a <=? x) && (x <=? b)) l).
Proof.
  intros a b l H.
  replace (filter (fun x => (a <=? x) && (x <=? b)) l)
    with (filter (fun x => a <=? x) (filter (fun x => x <=? b) l))
    by (rewrite filter_filter'; apply filter_ext; intros x; apply andb_comm).
  destruct (suffix_filter a (filter (fun x => x <=? b) l) (filter_sorted _ _ H)) as [pre E].
  rewrite E at 2. rewrite rev_app_distr. unfold zlen. rewrite Nat2Z.id.
  rewrite <- (rev_length (filter (fun x => a <=? x) (filter (fun x => x <=? b) l))).
  rewrite firstn_app, firstn_all, Nat.sub_diag. apply app_nil_r.
Qed.

Lemma labels_sorted : forall ss, well_formed ss -> StronglySorted Z.lt (map s_label ss).
Proof. intros ss Hwf. apply SSorted_map. now apply wf_label_sorted. Qed.

Lemma range_filter : forall ss c a b, well_formed ss -> has_schedule c ss ->
  sessions_in_range c a b = filter (fun x => (a <=? x) && (x <=? b)) (map s_label ss).
Proof.
  intros ss c a b Hwf Hc. eapply exactly_unique; [exact (c12_sessions_in_range ss c a b Hwf Hc)| |].
  - apply exactly_filter. now apply labels_sorted.
  - intros x. cbn beta. rewrite andb_true_iff, !Z.leb_le. rewrite in_map_iff. unfold is_label_of.
    split.
    + intros [[s [H1 ->]] L]. split; [exists s; split; [reflexivity|exact H1]|exact L].
    + intros [[s [<- H2]] L]. split; [exists s; split; [exact H2|reflexivity]|exact L].
Qed.

(** ** C85 *)

(** Sessions of adjacent ranges. *)
Theorem c85_sessions_split : forall ss c a b d, well_formed ss -> has_schedule c ss -> a <= b <= d ->
  sessions_in_range c a d = sessions_in_range c a b ++ sessions_in_range c (b + 1) d.
Proof.
  intros ss c a b d Hwf Hc L. eapply exactly_unique; [exact (c12_sessions_in_range ss c a d Hwf Hc)| |reflexivity].
  eapply exactly_app; [exact (c12_sessions_in_range ss c a b Hwf Hc)
                      |exact (c12_sessions_in_range ss c (b + 1) d Hwf Hc)| |].
  - intros x. cbn beta. destruct (Z.le_gt_cases x b); intuition lia.
  - intros x y [_ Hx] [_ Hy]. lia.
Qed.

(** Minutes of adjacent ranges. *)
Theorem c85_minutes_split : forall ss c a t b l, well_formed ss -> has_schedule c ss -> a <= t <= b ->
  minutes_in_range c a b = Ok l ->
  exists l1 l2, minutes_in_range c a t = Ok l1 /\ minutes_in_range c (t + 1) b = Ok l2 /\ l = l1 ++ l2.
Proof.
  intros ss c a t b l Hwf Hc L E.
  pose proof (c09_minutes_in_range ss c a b Hwf Hc) as H. rewrite E in H. destruct H as [H [m [Hm Hbm]]].
  pose proof (c09_minutes_in_range ss c a t Hwf Hc) as H1.
  pose proof (c09_minutes_in_range ss c (t + 1) b Hwf Hc) as H2.
  destruct (minutes_in_range c a t) as [l1|e1]; [|destruct H1 as [_ H1]; specialize (H1 m Hm); lia].
  destruct (minutes_in_range c (t + 1) b) as [l2|e2]; [|destruct H2 as [_ H2]; specialize (H2 m Hm); lia].
  exists l1, l2. split; [reflexivity|]. split; [reflexivity|].
  eapply exactly_unique; [exact H| |reflexivity].
  eapply exactly_app; [exact (proj1 H1)|exact (proj1 H2)| |].
  - intros x. cbn beta. destruct (Z.le_gt_cases x t); intuition lia.
  - intros x y [_ Hx] [_ Hy]. lia.
Qed.

(** Numbers of minutes of adjacent ranges of sessions. *)
Theorem c85_minutes_count_split : forall ss c a b d, well_formed ss -> has_schedule c ss -> a <= b <= d ->
  minutes_count_for_sessions_in_range c a d =
  minutes_count_for_sessions_in_range c a b + minutes_count_for_sessions_in_range c (b + 1) d.
Proof.
  intros ss c a b d Hwf Hc L. rewrite !(minutes_count_eq c ss Hwf Hc). unfold breaks_in, in_range.
  clear Hwf Hc. induction ss as [|s l IH]; [reflexivity|]. cbn [filter].
  destruct (Z.leb_spec a (s_label s)), (Z.leb_spec (s_label s) d), (Z.leb_spec (s_label s) b),
    (Z.leb_spec (b + 1) (s_label s)); try lia; cbn [andb flat_map filter];
    try destruct (has_break s); unfold zlen in *; rewrite ?app_length; cbn [length]; lia.
Qed.

(** Distances add up; the session in the middle counts once. *)
Theorem c85_distance_adds : forall ss c a b d, well_formed ss -> has_schedule c ss ->
  a <= b <= d -> is_session c b = true ->
  session_distance c a d = session_distance c a b + session_distance c b d - 1.
Proof.
  intros ss c a b d Hwf Hc L Hb. apply (c07_is_session ss c b Hc) in Hb.
  assert (D : forall x y, x <= y -> session_distance c x y = zlen (sessions_in_range c x y)).
  { intros x y H. rewrite (c14_session_distance ss c x y Hwf Hc), (range_filter ss c x y Hwf Hc).
    destruct (Z.ltb_spec y x); [lia|reflexivity]. }
  rewrite !D by lia. rewrite (c85_sessions_split ss c a b d Hwf Hc L).
  assert (E1 : sessions_in_range c b b = [b]).
  { eapply exactly_unique; [exact (c12_sessions_in_range ss c b b Hwf Hc)| |reflexivity].
    split; [repeat constructor|]. intros x. cbn [In]. split.
    - intros [<-|[]]. split; [exact Hb|lia].
    - intros [_ H]. left. lia. }
  rewrite (c85_sessions_split ss c b b d Hwf Hc) by lia. rewrite E1.
  unfold zlen. rewrite !app_length. cbn [length]. lia.
Qed.

(** The window with the number of sessions between two sessions is the range between
    them, in both directions. *)
Theorem c85_window_is_range : forall ss c a b, well_formed ss -> has_schedule c ss ->
  is_session c a = true -> is_session c b = true -> a <= b ->
  sessions_window c a (session_distance c a b - 1) = Ok (sessions_in_range c a b) /\
  sessions_window c b (1 - session_distance c a b) = Ok (sessions_in_range c a b).
Proof.
  intros ss c a b Hwf Hc Ha Hb L.
  apply (c07_is_session ss c a Hc) in Ha. apply (c07_is_session ss c b Hc) in Hb.
  pose proof (labels_sorted ss Hwf) as Hs.
  assert (D : session_distance c a b = zlen (filter (fun x => (a <=? x) && (x <=? b)) (map s_label ss))).
  { rewrite (c14_session_distance ss c a b Hwf Hc). destruct (Z.ltb_spec b a); [lia|reflexivity]. }
  assert (P : 1 <= session_distance c a b).
  { rewrite D. destruct Ha as [s [Hs1 E]].
    assert (K : In a (filter (fun x => (a <=? x) && (x <=? b)) (map s_label ss))).
    { apply filter_In. split; [rewrite E; now apply in_map|]. lia. }
    destruct (filter _ _); [destruct K|]. unfold zlen. cbn [length]. lia. }
  rewrite (range_filter ss c a b Hwf Hc). split.
  - pose proof (c13_sessions_window ss c a (session_distance c a b - 1) Hwf Hc) as W.
    destruct (sessions_window c a _) as [w|e]; [|destruct W as [_ W]; contradiction].
    destruct W as [_ [W _]]. rewrite W by lia. rewrite Z.sub_add, D. f_equal. now apply first_from.
  - pose proof (c13_sessions_window ss c b (1 - session_distance c a b) Hwf Hc) as W.
    destruct (sessions_window c b _) as [w|e]; [|destruct W as [_ W]; contradiction].
    destruct W as [_ [W0 W1]]. destruct (Z.eq_dec (session_distance c a b) 1) as [E1|N1].
    + rewrite W0 by lia. rewrite E1. cbn [Z.sub Z.add Z.opp Z.pos_sub]. rewrite E1 in D.
      change (Z.to_nat (1 - 1 + 1)) with (Z.to_nat 1).
      assert (E : b = a).
      { destruct (Z.eq_dec a b) as [E|N]; [congruence|]. exfalso.
        destruct Ha as [sa [Hsa Ea]], Hb as [sb [Hsb Eb]].
        assert (Ka : In a (filter (fun x => (a <=? x) && (x <=? b)) (map s_label ss)))
          by (apply filter_In; split; [rewrite Ea; now apply in_map|lia]).
        assert (Kb : In b (filter (fun x => (a <=? x) && (x <=? b)) (map s_label ss)))
          by (apply filter_In; split; [rewrite Eb; now apply in_map|lia]).
        destruct (filter _ _) as [|x [|y l]]; [destruct Ka| |unfold zlen in D; cbn [length] in D; lia].
        destruct Ka as [Ka|[]], Kb as [Kb|[]]. congruence. }
      subst b. f_equal. rewrite <- (first_from a a (map s_label ss) Hs). rewrite <- D. reflexivity.
    + f_equal. specialize (W1 ltac:(lia)).
      replace (Z.abs (1 - session_distance c a b) + 1) with (session_distance c a b) in W1 by lia.
      rewrite D, (last_from a b _ Hs) in W1.
      rewrite <- (rev_involutive w), W1. apply rev_involutive.
Qed.

(** The window with the number of minutes between two trading minutes is the range
    between them, in both directions. *)
Theorem c85_minutes_window_is_range : forall ss c m m' l, well_formed ss -> has_schedule c ss ->
  trading_minute ss m -> trading_minute ss m' -> m <= m' -> minutes_in_range c m m' = Ok l ->
  minutes_window c m (zlen l) = Ok l /\ minutes_window c m' (- zlen l) = Ok l.
Proof.
  intros ss c m m' l Hwf Hc Hm Hm' L E.
  pose proof (c_minutes_sorted c ss Hwf Hc) as Hs. pose proof (c_minutes_In c ss Hwf Hc) as HI.
  apply HI in Hm. apply HI in Hm'.
  assert (El : l = filter (fun x => (m <=? x) && (x <=? m')) (minutes c)).
  { pose proof (c09_minutes_in_range ss c m m' Hwf Hc) as H. rewrite E in H. destruct H as [H _].
    eapply exactly_unique; [exact H|apply exactly_filter; exact Hs|]. intros x. cbn beta.
    rewrite andb_true_iff, !Z.leb_le, HI. reflexivity. }
  assert (P : 1 <= zlen l).
  { assert (K : In m l) by (rewrite El; apply filter_In; split; [exact Hm|lia]).
    destruct l; [destruct K|]. unfold zlen. cbn [length]. lia. }
  assert (G : forall x, In x (minutes c) -> greatest (fun y => trading_minute ss y /\ y <= x) x).
  { intros x Hx. split; [split; [now apply HI|lia]|]. intros y [_ Hy]. exact Hy. }
  split.
  - destruct (c15_minutes_window ss c m (zlen l) m Hwf Hc (G m Hm)) as [w [Ew [W _]]].
    + exists m. split; [now apply HI|lia].
    + pose proof (zlen_nonneg (filter (fun x => x <=? m) (minutes c))). lia.
    + rewrite Ew. f_equal. rewrite W by lia. rewrite El at 1. rewrite first_from by exact Hs. now symmetry.
  - destruct (c15_minutes_window ss c m' (- zlen l) m' Hwf Hc (G m' Hm')) as [w [Ew [_ W]]].
    + exists m'. split; [now apply HI|lia].
    + rewrite El at 1. unfold zlen. apply Z.le_trans with (Z.of_nat (length (filter (fun x => (m <=? x) && (x <=? m')) (minutes c)))); [lia|].
      apply Nat2Z.inj_le. clear. induction (minutes c) as [|x l IH]; cbn; [lia|].
      destruct (m <=? x), (x <=? m'); cbn; lia.
    + rewrite Ew. f_equal. specialize (W ltac:(lia)).
      replace (Z.abs (- zlen l)) with (zlen l) in W by lia.
      rewrite El in W at 1. rewrite last_from in W by exact Hs.
      rewrite <- (rev_involutive w), W, rev_involutive. now symmetry.
Qed.

(** ** C86 *)

(** Sessions that follow one another. *)
Lemma neighbours : forall ss c s l', well_formed ss -> has_schedule c ss -> In s ss ->
  next_session_label c (s_label s) = Ok l' ->
  exists s', In s' ss /\ l' = s_label s' /\ precedes s s' /\
    forall x, In x ss -> x = s \/ x = s' \/ precedes x s \/ precedes s' x.
Proof.
  intros ss c s l' Hwf Hc Hs E.
  pose proof (c07_next_session_label ss c (s_label s) Hwf Hc) as H. rewrite E in H.
  destruct H as [_ [[[s' [Hs' El]] Hlt] Hmin]].
  assert (T : forall x y, In x ss -> In y ss -> x = y \/ precedes x y \/ precedes y x).
  { destruct Hwf as [_ [_ Hp]]. clear - Hp. induction Hp as [|z l Hl IH F]; intros x y; [intros []|].
    rewrite Forall_forall in F. intros [<-|Hx] [<-|Hy]; auto. }
  exists s'. split; [exact Hs'|]. split; [exact El|]. split.
  - destruct (T s s' Hs Hs') as [K|[K|K]]; [subst s'; lia|exact K|]. destruct K as [K _]. lia.
  - intros x Hx. destruct (T x s Hx Hs) as [K|[K|K]]; [now left|right; right; now left|].
    destruct (T x s' Hx Hs') as [K'|[K'|K']]; [right; now left| |right; right; now right].
    exfalso. destruct K as [K _], K' as [K' _].
    assert (K2 : is_label_of ss (s_label x) /\ s_label s < s_label x)
      by (split; [exists x; split; [exact Hx|reflexivity]|exact K]).
    specialize (Hmin (s_label x) K2). lia.
Qed.

Lemma open_le_close : forall ss s, well_formed ss -> In s ss -> s_open s <= s_close s.
Proof.
  intros ss s [H _] Hs. rewrite Forall_forall in H. specialize (H s Hs). destruct H as [_ H].
  destruct (s_break s) as [[bs be]|]; lia.
Qed.

Lemma open_is_minute : forall ss s, well_formed ss -> In s ss -> session_minute s (s_open s).
Proof.
  intros ss s Hwf Hs. pose proof (open_le_close ss s Hwf Hs) as L. destruct Hwf as [H _].
  rewrite Forall_forall in H. destruct (H s Hs) as [_ K]. unfold session_minute.
  destruct (s_break s) as [[bs be]|]; [left|]; (split; [lia|exists 0; lia]).
Qed.

Lemma close_is_minute : forall ss s, well_formed ss -> In s ss -> session_minute s (s_close s).
Proof.
  intros ss s Hwf Hs. pose proof (open_le_close ss s Hwf Hs) as L. destruct Hwf as [H [W _]].
  rewrite Forall_forall in H, W. destruct (H s Hs) as [_ K]. specialize (W s Hs).
  unfold session_minute, whole_minutes in *.
  destruct (s_break s) as [[bs be]|]; [right; split; [lia|tauto]|split; [lia|exact W]].
Qed.

Lemma minute_during : forall ss s t, well_formed ss -> In s ss -> session_minute s t -> during s t.
Proof.
  intros ss s t [H _] Hs M. rewrite Forall_forall in H. apply session_minute_during; [now apply H|exact M].
Qed.

(** Between the close of a session and the open of the next there is nothing. *)
Theorem c86_neighbours : forall ss c l l' close open', well_formed ss -> has_schedule c ss ->
  next_session_label c l = Ok l' -> session_close c l = Ok close -> session_open c l' = Ok open' ->
  next_minute c close = Ok open' /\ previous_minute c open' = Ok close /\
  next_open c close = Ok open' /\ previous_close c open' = Ok close.
Proof.
  intros ss c l l' cl op Hwf Hc En Ec Eo.
  pose proof (c07_next_session_label ss c l Hwf Hc) as Hl. rewrite En in Hl. destruct Hl as [[s [Hs ->]] _].
  destruct (neighbours ss c s l' Hwf Hc Hs En) as [s' [Hs' [-> [P N]]]].
  destruct (c22_accessors ss c s Hwf Hc Hs) as [_ [Ec' _]]. rewrite Ec' in Ec. injection Ec as <-.
  destruct (c22_accessors ss c s' Hwf Hc Hs') as [Eo' _]. rewrite Eo' in Eo. injection Eo as <-.
  destruct P as [P1 P2].
  assert (M : forall x t, In x ss -> session_minute x t -> t <= s_close s \/ s_open s' <= t).
  { intros x t Hx Ht. apply (minute_during ss x t Hwf Hx) in Ht. unfold during in Ht.
    pose proof (open_le_close ss s Hwf Hs). pose proof (open_le_close ss s' Hwf Hs').
    destruct (N x Hx) as [->|[->|[[_ K]|[_ K]]]]; lia. }
  assert (O : forall x, In x ss -> s_open x <= s_close s \/ s_open s' <= s_open x)
    by (intros x Hx; apply (M x _ Hx); now apply (open_is_minute ss)).
  assert (C : forall x, In x ss -> s_close x <= s_close s \/ s_open s' <= s_close x)
    by (intros x Hx; apply (M x _ Hx); now apply (close_is_minute ss)).
  assert (Tc : trading_minute ss (s_close s)) by (exists s; split; [exact Hs|now apply (close_is_minute ss)]).
  assert (To : trading_minute ss (s_open s')) by (exists s'; split; [exact Hs'|now apply (open_is_minute ss)]).
  split; [|split; [|split]].
  - pose proof (c06_next_minute ss c (s_close s) Hwf Hc) as H. destruct (next_minute c (s_close s)) as [x|e].
    + destruct H as [[[y [Hy K]] L] Min]. f_equal. specialize (Min (s_open s') (conj To P2)).
      destruct (M y x Hy K); lia.
    + destruct H as [_ H]. specialize (H _ To). lia.
  - pose proof (c06_previous_minute ss c (s_open s') Hwf Hc) as H. destruct (previous_minute c (s_open s')) as [x|e].
    + destruct H as [[[y [Hy K]] L] Max]. f_equal. specialize (Max (s_close s) (conj Tc P2)).
      destruct (M y x Hy K); lia.
    + destruct H as [_ H]. specialize (H _ Tc). lia.
  - pose proof (c04_next_open ss c (s_close s) Hwf Hc) as H.
    assert (Oo : is_open_of ss (s_open s')) by (exists s'; auto).
    destruct (next_open c (s_close s)) as [x|e].
    + destruct H as [[[y [Hy ->]] L] Min]. f_equal. specialize (Min (s_open s') (conj Oo P2)).
      destruct (O y Hy); lia.
    + destruct H as [_ H]. specialize (H _ Oo). lia.
  - pose proof (c05_previous_close ss c (s_open s') Hwf Hc) as H.
    assert (Oc : is_close_of ss (s_close s)) by (exists s; auto).
    destruct (previous_close c (s_open s')) as [x|e].
    + destruct H as [[[y [Hy ->]] L] Max]. f_equal. specialize (Max (s_close s) (conj Oc P2)).
      destruct (C y Hy); lia.
    + destruct H as [_ H]. specialize (H _ Oc). lia.
Qed.

(** Within a session the next close and the previous open are its own. *)
Theorem c86_within : forall ss c l open close t, well_formed ss -> has_schedule c ss ->
  open_and_close_for_session c l = Ok (open, close) ->
  (open <= t < close -> next_close c t = Ok close) /\
  (open < t <= close -> previous_open c t = Ok open) /\
  (open <= t <= close -> fst (minute_to_session_label c None t "next") = Ok l).
Proof.
  intros ss c l op cl t Hwf Hc E.
  assert (Hl : exists s, In s ss /\ l = s_label s).
  { destruct (is_session c l) eqn:Hl; [now apply (c07_is_session ss c l Hc)|]. exfalso.
    assert (N : ~ is_label_of ss l) by (intros K; apply (c07_is_session ss c l Hc) in K; congruence).
    destruct (c22_unknown_session ss c l Hc N) as [_ [_ [_ [_ [K _]]]]]. congruence. }
  destruct Hl as [s [Hs ->]].
  destruct (c22_accessors ss c s Hwf Hc Hs) as [_ [_ [_ [_ [K _]]]]]. rewrite K in E. injection E as <- <-.
  assert (T : forall y, In y ss -> y = s \/ s_close y < s_open s \/ s_close s < s_open y).
  { destruct Hwf as [_ [_ Hp]]. clear - Hp Hs. intros y Hy. revert s Hs y Hy.
    induction Hp as [|z l Hl IH F]; [intros s []|].
    rewrite Forall_forall in F. intros s [<-|Hs] y [<-|Hy].
    - now left.
    - right. right. now apply F.
    - right. left. now apply F.
    - now apply IH. }
  split; [|split].
  - intros L. pose proof (c04_next_close ss c t Hwf Hc) as H. destruct (next_close c t) as [x|e].
    + destruct H as [[[y [Hy ->]] Ly] Min].
      specialize (Min (s_close s) ltac:(split; [exists s; auto|lia])). f_equal.
      pose proof (open_le_close ss y Hwf Hy). destruct (T y Hy) as [->|[T1|T1]]; lia.
    + destruct H as [_ H]. specialize (H (s_close s) ltac:(exists s; auto)). lia.
  - intros L. pose proof (c05_previous_open ss c t Hwf Hc) as H. destruct (previous_open c t) as [x|e].
    + destruct H as [[[y [Hy ->]] Ly] Max].
      specialize (Max (s_open s) ltac:(split; [exists s; auto|lia])). f_equal.
      pose proof (open_le_close ss y Hwf Hy). destruct (T y Hy) as [->|[T1|T1]]; lia.
    + destruct H as [_ H]. specialize (H (s_open s) ltac:(exists s; auto)). lia.
  - intros L. pose proof (c16_lookup_next ss c t Hwf Hc) as H.
    destruct (fst (minute_to_session_label c None t "next")) as [x|e].
    + destruct H as [y [Hy [-> H]]]. f_equal. f_equal. destruct H as [D|[N _]].
      * unfold during in D. destruct (T y Hy) as [->|[T1|T1]]; [reflexivity|lia|lia].
      * exfalso. apply (N s Hs). exact L.
    + destruct H as [_ H]. specialize (H s Hs). lia.
Qed.

(** Later instants have no earlier session labels. *)
Theorem c86_label_monotone : forall ss c t t' l l', well_formed ss -> has_schedule c ss -> t <= t' ->
  fst (minute_to_session_label c None t "next") = Ok l ->
  fst (minute_to_session_label c None t' "next") = Ok l' -> l <= l'.
Proof.
  intros ss c t t' l l' Hwf Hc L E E'.
  assert (K : forall u x, fst (minute_to_session_label c None u "next") = Ok x ->
            exists s, In s ss /\ x = s_label s /\ u <= s_close s /\ forall y, In y ss -> u <= s_close y -> s_open s <= s_open y).
  { intros u x Ex. pose proof (c16_lookup_next ss c u Hwf Hc) as H. rewrite Ex in H.
    destruct H as [s [Hs [-> H]]]. exists s. split; [exact Hs|]. split; [reflexivity|].
    pose proof (open_le_close ss s Hwf Hs) as Ls.
    destruct H as [D|[N [Lt Min]]].
    - unfold during in D. split; [lia|]. intros y Hy Ly.
      destruct Hwf as [_ [_ Hp]].
      assert (T : y = s \/ s_close y < s_open s \/ s_close s < s_open y).
      { clear - Hp Hs Hy. revert s Hs y Hy. induction Hp as [|z l Hl IH F]; [intros s []|].
        rewrite Forall_forall in F. intros s [<-|Hs] y [<-|Hy];
          [now left|right; right; now apply F|right; left; now apply F|now apply IH]. }
      destruct T as [->|[T|T]]; lia.
    - split; [lia|]. intros y Hy Ly.
      destruct (Z.lt_ge_cases u (s_open y)) as [Lo|Lo]; [now apply Min|].
      exfalso. apply (N y Hy). unfold during. lia. }
  destruct (K _ _ E) as [s [Hs [-> [Ls Ms]]]]. destruct (K _ _ E') as [s' [Hs' [-> [Ls' Ms']]]].
  specialize (Ms s' Hs' ltac:(lia)).
  assert (T : s' = s \/ precedes s' s \/ precedes s s').
  { destruct Hwf as [_ [_ Hp]]. clear - Hp Hs Hs'. revert s Hs s' Hs'.
    induction Hp as [|z l Hl IH F]; [intros s []|].
    rewrite Forall_forall in F. intros s [<-|Hs] y [<-|Hy];
      [now left|right; right; now apply F|right; left; now apply F|now apply IH]. }
  destruct T as [->|[[T1 T2]|[T1 T2]]]; [lia| |lia].
  pose proof (open_le_close ss s' Hwf Hs'). lia.
Qed.

(** From one trading minute to the next the session stays the same or steps to the next
    one: no session is skipped. *)
Theorem c86_no_skip : forall ss c t t' l, well_formed ss -> has_schedule c ss ->
  trading_minute ss t -> next_minute c t = Ok t' ->
  fst (minute_to_session_label c None t "next") = Ok l ->
  fst (minute_to_session_label c None t' "next") = Ok l \/
  exists l', next_session_label c l = Ok l' /\
    fst (minute_to_session_label c None t' "next") = Ok l' /\ session_open c l' = Ok t'.
Proof.
  intros ss c t t' l Hwf Hc [s [Hs Ms]] En El.
  pose proof (c06_next_minute ss c t Hwf Hc) as H. rewrite En in H. destruct H as [[[s' [Hs' Ms']] Lt] Min].
  assert (F : forall x u, In x ss -> session_minute x u ->
            fst (minute_to_session_label c None u "next") = Ok (s_label x)).
  { intros x u Hx Hu. destruct (c22_accessors ss c x Hwf Hc Hx) as [_ [_ [_ [_ [K _]]]]].
    apply (c86_within ss c (s_label x) (s_open x) (s_close x) u Hwf Hc K). now apply (minute_during ss). }
  rewrite (F s t Hs Ms) in El. injection El as <-. rewrite (F s' t' Hs' Ms').
  pose proof (minute_during ss s t Hwf Hs Ms) as D. pose proof (minute_during ss s' t' Hwf Hs' Ms') as D'.
  unfold during in D, D'.
  pose proof (c07_next_session_label ss c (s_label s) Hwf Hc) as Hn.
  destruct (next_session_label c (s_label s)) as [x|e] eqn:E.
  - destruct (neighbours ss c s x Hwf Hc Hs E) as [s2 [Hs2 [-> [P N]]]].
    assert (K : t' <= s_open s2).
    { apply Min. split; [exists s2; split; [exact Hs2|now apply (open_is_minute ss)]|]. destruct P. lia. }
    destruct P as [_ P]. pose proof (open_le_close ss s2 Hwf Hs2).
    destruct (N s' Hs') as [->|[->|[[_ Q]|[_ Q]]]]; [now left| |lia|lia].
    right. exists (s_label s2). split; [reflexivity|]. split; [reflexivity|].
    destruct (c22_accessors ss c s2 Hwf Hc Hs2) as [-> _]. f_equal. lia.
  - left. do 2 f_equal. destruct Hn as [[_ K]|[_ [_ K]]]; [exfalso; apply K; exists s; auto|].
    specialize (K (s_label s') ltac:(exists s'; auto)).
    destruct Hwf as [_ [_ Hp]].
    assert (T : s' = s \/ precedes s' s \/ precedes s s').
    { clear - Hp Hs Hs'. revert s Hs s' Hs'.
      induction Hp as [|z l Hl IH F]; [intros s []|].
      rewrite Forall_forall in F. intros s [<-|Hs] y [<-|Hy];
        [now left|right; right; now apply F|right; left; now apply F|now apply IH]. }
    destruct T as [->|[[T1 T2]|[T1 T2]]]; [reflexivity|lia|lia].
Qed.

(** While the market is closed, the next session is the one of the next open. *)
Theorem c86_closed : forall ss c t l, well_formed ss -> has_schedule c ss ->
  is_open_on_minute c t true = Ok false ->
  fst (minute_to_session_label c None t "next") = Ok l -> session_open c l = next_open c t.
Proof.
  intros ss c t l Hwf Hc Ho E.
  destruct (c02_is_open_on_minute ss c t true Hwf Hc) as [b [Eb Hb]]. rewrite Ho in Eb. injection Eb as <-.
  pose proof (c16_lookup_next ss c t Hwf Hc) as H. rewrite E in H. destruct H as [s [Hs [-> H]]].
  destruct (c22_accessors ss c s Hwf Hc Hs) as [-> _].
  destruct H as [D|[N [Lt Min]]].
  - exfalso. assert (false = true) by (apply Hb; exists s; auto). discriminate.
  - pose proof (c04_next_open ss c t Hwf Hc) as Hn. destruct (next_open c t) as [x|e].
    + destruct Hn as [[[y [Hy ->]] Ly] Mn]. f_equal.
      specialize (Mn (s_open s) ltac:(split; [exists s; auto|exact Lt])). specialize (Min y Hy Ly). lia.
    + destruct Hn as [_ Hn]. specialize (Hn (s_open s) ltac:(exists s; auto)). lia.
Qed.

(** ** The hypotheses are met *)

Example c85_window_example : is_session ex_cal (ex_day 1) = true /\ is_session ex_cal (ex_day 5) = true /\
  session_distance ex_cal (ex_day 1) (ex_day 5) = 3 /\
  sessions_window ex_cal (ex_day 5) (-2) = Ok [ex_day 1; ex_day 2; ex_day 5].
Proof. repeat split; vm_compute; reflexivity. Qed.

Example c85_minutes_example : exists l,
  minutes_in_range ex_cal (ex_day 1 + ex_min 958) (ex_day 2 + ex_min 571) = Ok l /\ zlen l = 5.
Proof. eexists. split; vm_compute; reflexivity. Qed.

Example c86_neighbours_example : next_session_label ex_cal (ex_day 2) = Ok (ex_day 5) /\
  session_close ex_cal (ex_day 2) = Ok (ex_day 2 + ex_min 780) /\
  session_open ex_cal (ex_day 5) = Ok (ex_day 5 + ex_min 570).
Proof. repeat split; vm_compute; reflexivity. Qed.

Example c86_closed_example : is_open_on_minute ex_cal (ex_day 3) true = Ok false /\
  fst (minute_to_session_label ex_cal None (ex_day 3) "next") = Ok (ex_day 5).
Proof. repeat split; vm_compute; reflexivity. Qed.

Example c86_no_skip_example : next_minute ex_cal (ex_day 2 + ex_min 780) = Ok (ex_day 5 + ex_min 570) /\
  In (ex_day 2 + ex_min 780) (minutes ex_cal) /\
  fst (minute_to_session_label ex_cal None (ex_day 2 + ex_min 780) "next") = Ok (ex_day 2).
Proof. split; [vm_compute; reflexivity|]. split; [apply contains_In|]; vm_compute; reflexivity. Qed.

Example c86_within_example :
  open_and_close_for_session ex_cal (ex_day 2) = Ok (ex_day 2 + ex_min 570, ex_day 2 + ex_min 780).
Proof. vm_compute; reflexivity. Qed.

(** ** Assumptions *)
Print Assumptions c85_sessions_split.
Print Assumptions c85_minutes_split.
Print Assumptions c85_minutes_count_split.
Print Assumptions c85_distance_adds.
Print Assumptions c85_window_is_range.
Print Assumptions c85_minutes_window_is_range.
Print Assumptions c86_neighbours.
Print Assumptions c86_within.
Print Assumptions c86_label_monotone.
Print Assumptions c86_no_skip.
Print Assumptions c86_closed.
