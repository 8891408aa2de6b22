(** Facts about zones: what [tz_localize] computes, and that it is monotone. *)
From Coq Require Import ZArith List Bool Lia Sorting.Sorted.
From Verif.Model Require Import Base Helpers Dates Zone Build.
From Verif.Spec Require Import Schedule Construction.
From Verif.Proofs Require Import BaseLemmas ScheduleLemmas.
Import ListNotations.
Open Scope Z_scope.

Definition offsets (z : zone) : list Z := initial_offset z :: map snd (transitions z).

Lemma offset_from_In : forall trs o u, In (offset_from o trs u) (o :: map snd trs).
Proof.
  induction trs as [|[t o'] trs IH]; intros o u; simpl; [tauto|].
  destruct (t <=? u); [|tauto]. right. apply (IH o' u).
Qed.

Lemma offset_at_In : forall z u, In (offset_at z u) (offsets z).
Proof. intros. apply offset_from_In. Qed.

Lemma candidates_In : forall z l u, In u (utc_candidates z l) <-> wall_clock z u = l.
Proof.
  intros z l u. unfold utc_candidates. rewrite nodup_In, filter_In, in_map_iff. split.
  - intros [_ H]. lia.
  - intros H. split; [|lia]. exists (offset_at z u). split.
    + unfold wall_clock in H. lia.
    + apply offset_at_In.
Qed.

(** [tz_localize] returns the only instant at which the clocks show [l] ... *)
Lemma tz_localize_Ok : forall z l u, tz_localize z l = Ok u <-> instant_of z l u.
Proof.
  intros z l u. unfold tz_localize, instant_of. split.
  - destruct (utc_candidates z l) as [|a [|b r]] eqn:E; try discriminate.
    intros H. injection H as <-. split.
    + apply candidates_In. rewrite E. left. reflexivity.
    + intros u' H. apply candidates_In in H. rewrite E in H. simpl in H. intuition congruence.
  - intros [H1 H2]. apply candidates_In in H1.
    assert (ND : NoDup (utc_candidates z l)) by apply NoDup_nodup.
    destruct (utc_candidates z l) as [|a [|b r]] eqn:E.
    + destruct H1.
    + destruct H1 as [->|[]]. reflexivity.
    + exfalso.
      assert (a = u) by (apply H2, candidates_In; rewrite E; simpl; tauto).
      assert (b = u) by (apply H2, candidates_In; rewrite E; simpl; tauto).
      subst. inversion ND as [|? ? Hn]. apply Hn. left. reflexivity.
Qed.

(** ... and raises if there is none, or more than one. *)
Lemma tz_localize_Raise : forall z l e, tz_localize z l = Raise e ->
  (e = NonExistentTimeError /\ forall u, wall_clock z u <> l) \/
  (e = AmbiguousTimeError /\
   exists u u', u <> u' /\ wall_clock z u = l /\ wall_clock z u' = l).
Proof.
  intros z l e. unfold tz_localize.
  assert (ND : NoDup (utc_candidates z l)) by apply NoDup_nodup.
  assert (C := candidates_In z l).
  destruct (utc_candidates z l) as [|a [|b r]] eqn:E; intros H; try discriminate; injection H as <-.
  - left. split; [reflexivity|]. intros u Hu. apply C in Hu. destruct Hu.
  - right. split; [reflexivity|]. exists a, b. split.
    + inversion ND as [|? ? Hn]. intros ->. apply Hn. left. reflexivity.
    + split; apply C; simpl; tauto.
Qed.

Lemma instant_of_unique : forall z l u u', instant_of z l u -> instant_of z l u' -> u = u'.
Proof. intros z l u u' [_ H] [H' _]. symmetry. apply H. exact H'. Qed.

(** ** Monotonicity *)

(** [trs] with the offset [o] before: each piece of local time after the current
    one starts and ends no earlier than the current one. *)
Lemma offset_from_before : forall trs o u, (forall t o', In (t, o') trs -> u < t) ->
  offset_from o trs u = o.
Proof.
  destruct trs as [|[t o'] trs]; intros o u H; simpl; [reflexivity|].
  specialize (H t o' (or_introl eq_refl)). destruct (Z.leb_spec t u); [lia|reflexivity].
Qed.

(** A local time shown at [u] and, later, an earlier local time: then the first
    one is shown twice. *)
Lemma shown_again : forall trs o, separated o trs ->
  forall u1 u2, u2 < u1 -> u1 + offset_from o trs u1 < u2 + offset_from o trs u2 ->
  exists v, v <> u2 /\ v + offset_from o trs v = u2 + offset_from o trs u2.
Proof.
  (* generalised: [l] is below the end of the current piece, and not below the
     start of the piece in which [u1] lies *)
  assert (G : forall trs o t o', separated o ((t, o') :: trs) ->
    forall l u1, t <= u1 -> u1 + offset_from o' trs u1 < l -> l < t + o ->
    exists v, t <= v /\ v + offset_from o' trs v = l).
  { induction trs as [|[t2 o2] trs IH]; intros o t o' Hs l u1 H1 H2 H3.
    - simpl in H2. exists (l - o'). simpl. lia.
    - simpl offset_from in *. destruct Hs as [Ht [Ha [Hb Hs]]].
      destruct (Z.leb_spec t2 u1) as [H|H].
      + destruct (IH o' t2 o2 Hs l u1 H H2 ltac:(lia)) as [v [Hv E]].
        exists v. split; [lia|]. destruct (Z.leb_spec t2 v); lia.
      + exists (l - o'). split; [lia|]. destruct (Z.leb_spec t2 (l - o')); lia. }
  induction trs as [|[t o'] trs IH]; intros o Hs u1 u2 Hu H; simpl offset_from in *.
  - lia.
  - destruct (Z.leb_spec t u2) as [H2|H2].
    + destruct (Z.leb_spec t u1); [|lia].
      assert (Hs' : separated o' trs).
      { destruct trs as [|[t2 o2] trs]; [exact I|]. apply Hs. }
      destruct (IH o' Hs' u1 u2 Hu H) as [v [Hv E]].
      destruct (Z.leb_spec t v) as [Hv2|Hv2]; [exists v; split; [exact Hv|]; destruct (Z.leb_spec t v); lia|].
      (* [v] lies before this change: then it is before [u2] as well, in the
         same piece of the shifted zone *)
      exfalso.
      assert (Ev : offset_from o' trs v = o').
      { destruct trs as [|[t2 o2] trs']; [reflexivity|]. simpl.
        destruct Hs as [Ht _]. destruct (Z.leb_spec t2 v); [lia|reflexivity]. }
      rewrite Ev in E.
      (* local time v + o' < t + o', but the clock at u2 >= t shows at least t + o' *)
      assert (L : forall trs o0 t0 o1 w, separated o0 ((t0, o1) :: trs) -> t0 <= w ->
                  t0 + o1 <= w + offset_from o1 trs w).
      { clear. induction trs as [|[t2 o2] trs IH]; intros o0 t0 o1 w Hs Hw; simpl; [lia|].
        destruct Hs as [Ht [Ha [Hb Hs]]]. destruct (Z.leb_spec t2 w) as [H|H]; [|lia].
        specialize (IH o1 t2 o2 w Hs H). lia. }
      specialize (L trs o t o' u2 Hs H2). lia.
    + destruct (Z.leb_spec t u1) as [H1|H1]; [|lia].
      destruct (G trs o t o' Hs (u2 + o) u1 H1 H ltac:(lia)) as [v [Hv E]].
      exists v. split; [lia|]. destruct (Z.leb_spec t v); lia.
Qed.

Lemma instant_of_mono : forall z l1 l2 u1 u2,
  separated (initial_offset z) (transitions z) ->
  instant_of z l1 u1 -> instant_of z l2 u2 -> l1 < l2 -> u1 < u2.
Proof.
  intros z l1 l2 u1 u2 Hs [E1 _] [E2 N2] Hl.
  destruct (Z_lt_ge_dec u1 u2) as [H|H]; [exact H|exfalso].
  assert (u1 <> u2) by (intros ->; lia).
  destruct (shown_again (transitions z) (initial_offset z) Hs u1 u2 ltac:(lia)) as [v [Hv E]].
  - unfold wall_clock, offset_at in *. lia.
  - apply Hv. apply N2. unfold wall_clock, offset_at in *. lia.
Qed.

Lemma instant_of_mono_le : forall z l1 l2 u1 u2,
  separated (initial_offset z) (transitions z) ->
  instant_of z l1 u1 -> instant_of z l2 u2 -> l1 <= l2 -> u1 <= u2.
Proof.
  intros z l1 l2 u1 u2 Hs H1 H2 Hl. destruct (Z.eq_dec l1 l2) as [->|Hn].
  - rewrite (instant_of_unique z l2 u1 u2 H1 H2). lia.
  - assert (u1 < u2) by (apply (instant_of_mono z l1 l2); try assumption; lia). lia.
Qed.

Lemma good_zone_offset : forall z u, good_zone z ->
  - one_day < offset_at z u < one_day /\ (one_minute | offset_at z u).
Proof.
  intros z u [_ H]. rewrite Forall_forall in H. apply H. apply offset_at_In.
Qed.

Lemma UTC_good : good_zone UTC.
Proof.
  split; [exact I|]. constructor; [|constructor]. split; [|apply Z.divide_0_r].
  change (initial_offset UTC) with 0. pose proof one_minute_pos. unfold one_day. split; lia.
Qed.

Lemma UTC_instant : forall l, instant_of UTC l l.
Proof. intros l. unfold instant_of, wall_clock, offset_at. simpl. split; [lia|intros; lia]. Qed.
