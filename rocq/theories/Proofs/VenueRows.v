(** The rows of the schedule of an exchange, in terms of its attributes. *)
From Coq Require Import ZArith String List Bool Lia.
From Verif.Model Require Import Base Dates Zone Build Holidays Exchange.
From Verif.Spec Require Import Schedule Construction Civil Rules Feasts Venue.
From Verif.Proofs Require Import BaseLemmas DatesLemmas ScheduleLemmas ZoneLemmas BuildLemmas BuildLemmas2 ShapeLemmas
  RuleLemmas VenueLemmas YearTypes PairLemmas VenueSound.
Import ListNotations.
Open Scope Z_scope.

Lemma started_at : forall s n, started (option_map midnight s) (at_midnight_of n) <-> started s n.
Proof.
  intros [d|] n; cbn [option_map started]; [|tauto]. rewrite (midnight_at d). apply at_midnight_le.
Qed.
Lemma no_later_at : forall s s', no_later (option_map midnight s) (option_map midnight s') <-> no_later s s'.
Proof.
  intros [a|] [b|]; cbn [option_map no_later]; try tauto. rewrite (midnight_at a), (midnight_at b).
  apply at_midnight_le.
Qed.

Lemma in_force_at : forall ts n t, in_force (at_midnight ts) (at_midnight_of n) t <-> in_force ts n t.
Proof.
  intros ts n t. unfold in_force, at_midnight. split.
  - intros [s [Hin [Hs Hl]]]. apply in_map_iff in Hin. destruct Hin as [[s0 t0] [E0 Hin]].
    cbn [fst snd] in E0. injection E0 as <- <-. exists s0. split; [exact Hin|].
    split; [apply started_at; exact Hs|]. intros s' t' H' S'. apply no_later_at. apply (Hl _ t').
    + apply in_map_iff. exists (s', t'). tauto.
    + apply started_at. exact S'.
  - intros [s [Hin [Hs Hl]]]. exists (option_map midnight s). split.
    { apply in_map_iff. exists (s, t). tauto. }
    split; [apply started_at; exact Hs|]. intros s' t' H' S'. apply in_map_iff in H'.
    destruct H' as [[s0 t0] [E0 H']]. cbn [fst snd] in E0. injection E0 as <- <-.
    apply no_later_at. apply (Hl s0 t0 H'). apply started_at. exact S'.
Qed.

Section Rows.
Variables (E : exchange) (z : zone) (start stop : Z).
Let D := instantiate E z start stop.

Lemma special_moment_iff : forall rules dates n u, forallb (fun p => forallb settled (snd p)) rules = true ->
  start <= at_midnight_of n <= stop ->
  (special_at z (map (fun p => (fst p, calendar_holidays (snd p) start stop)) rules)
     (map (fun p => (fst p, map midnight (snd p))) dates) start stop (at_midnight_of n) u <->
   special_moment (special_time rules dates) z start stop n u).
Proof.
  intros rules dates n u S Hn. unfold special_at, special_moment.
  split; intros [t [Hl H]]; exists t; (split; [|exact H]).
  - apply listed_iff in Hl; [|exact S]. destruct Hl as [m [Em Hl]]. apply at_midnight_inj in Em. subst m.
    destruct Hl as [[Hl _]|Hl]; [left|right]; exact Hl.
  - apply listed_iff; [exact S|]. exists n. split; [reflexivity|]. destruct Hl as [Hl|Hl]; [left; tauto|right; exact Hl].
Qed.

Hypothesis Hset1 : forallb (fun p => forallb settled (snd p)) (ex_special_opens E) = true.
Hypothesis Hset2 : forallb (fun p => forallb settled (snd p)) (ex_special_closes E) = true.

Lemma special_open_iff : forall n u, start <= at_midnight_of n <= stop ->
  (special_open D start stop (at_midnight_of n) u <-> special_moment (special_opening E) z start stop n u).
Proof. intros n u Hn. apply (special_moment_iff (ex_special_opens E) (ex_special_opens_adhoc E) n u Hset1 Hn). Qed.
Lemma special_close_iff : forall n u, start <= at_midnight_of n <= stop ->
  (special_close D start stop (at_midnight_of n) u <-> special_moment (special_closing E) z start stop n u).
Proof. intros n u Hn. apply (special_moment_iff (ex_special_closes E) (ex_special_closes_adhoc E) n u Hset2 Hn). Qed.

Lemma regular_at_iff : forall ts k n u,
  regular_at D (at_midnight ts) k (at_midnight_of n) u <-> regular_moment ts k z n u.
Proof.
  intros ts k n u. unfold regular_at, regular_moment.
  split; intros [t [H1 H2]]; exists t; (split; [apply in_force_at; exact H1|exact H2]).
Qed.

Lemma opens_at_iff : forall n u, start <= at_midnight_of n <= stop ->
  expected_open D start stop (at_midnight_of n) u -> opens_at E z start stop n u.
Proof.
  intros n u Hn [H|[H1 H2]]; [left|right].
  - apply special_open_iff; assumption.
  - split; [|apply (proj1 (regular_at_iff _ _ _ _) H2)]. intros u' H. apply special_open_iff in H; [|exact Hn].
    apply (H1 u' H).
Qed.
Lemma closes_at_iff : forall n u, start <= at_midnight_of n <= stop ->
  expected_close D start stop (at_midnight_of n) u -> closes_at E z start stop n u.
Proof.
  intros n u Hn [H|[H1 H2]]; [left|right].
  - apply special_close_iff; assumption.
  - split; [|apply (proj1 (regular_at_iff _ _ _ _) H2)]. intros u' H. apply special_close_iff in H; [|exact Hn].
    apply (H1 u' H).
Qed.
Lemma break_at_iff : forall ts n r, start <= at_midnight_of n <= stop ->
  expected_break D start stop (option_map at_midnight ts) (at_midnight_of n) r ->
  break_at E ts z start stop n r.
Proof.
  intros ts n [u|] Hn H; cbn [expected_break break_at] in *.
  - destruct H as [H1 [l [El Hl]]]. split.
    + intros u' H. apply special_close_iff in H; [|exact Hn]. apply (H1 u' H).
    + destruct ts as [ts|]; [|discriminate]. cbn [option_map] in El. injection El as <-.
      exists ts. split; [reflexivity|]. apply (proj1 (regular_at_iff _ _ _ _) Hl).
  - destruct H as [H|[u H]]; [left; destruct ts; [discriminate|reflexivity]|right].
    exists u. apply special_close_iff; assumption.
Qed.

(** The day of the row is a parameter, see [trades]. *)
Lemma expected_venue_row : forall name s,
  (forall n, start <= at_midnight_of n <= stop -> trading_day D (at_midnight_of n) -> trades name E n) ->
  expected_row D start stop s -> venue_row name E z start stop s.
Proof.
  intros name s Ht [[M [R T]] [Ho [Hc [Hb He]]]]. apply is_midnight_at in M. destruct M as [n En].
  rewrite En in *. exists n. split; [exact En|]. split; [exact R|]. split; [apply Ht; assumption|].
  split; [apply opens_at_iff; assumption|]. split; [apply closes_at_iff; assumption|].
  split; apply break_at_iff; assumption.
Qed.
End Rows.

(** ** The attributes determine the times of a day *)

Lemma special_moment_unique : forall rules dates z start stop start' stop' n u u',
  times_agree rules dates = true ->
  special_moment (special_time rules dates) z start stop n u ->
  special_moment (special_time rules dates) z start' stop' n u' -> u = u'.
Proof.
  intros rules dates z start stop start' stop' n u u' A [t [H1 [H2 _]]] [t' [H1' [H2' _]]].
  rewrite (times_agree_ok _ _ _ _ _ A H1 H1') in H2. eapply instant_of_unique; eassumption.
Qed.

Lemma well_ordered_at : forall ts, well_ordered (at_midnight ts) -> forall n t t',
  in_force ts n t -> in_force ts n t' -> t = t'.
Proof.
  intros ts W n t t' H H'. apply in_force_at in H, H'. eapply in_force_unique; eassumption.
Qed.

Lemma regular_moment_unique : forall ts k z n u u', well_ordered (at_midnight ts) ->
  regular_moment ts k z n u -> regular_moment ts k z n u' -> u = u'.
Proof.
  intros ts k z n u u' W [t [H1 H2]] [t' [H1' H2']].
  rewrite (well_ordered_at ts W n t t' H1 H1') in H2. eapply instant_of_unique; eassumption.
Qed.

(** Special times of day [n] are less than a day away from it. *)
Lemma special_near : forall z n t u, good_zone z -> valid_time t ->
  instant_of z (local_time (at_midnight_of n) 0 t) u ->
  at_midnight_of (n - 1) <= u <= at_midnight_of (n + 2).
Proof.
  intros z n t u [_ G] [V1 [V2 V3]] [Hu _]. unfold wall_clock in Hu.
  assert (O : - one_day < offset_at z u < one_day).
  { rewrite Forall_forall in G. apply G. unfold offset_at.
    generalize (initial_offset z) (transitions z). intros o trs. revert o.
    induction trs as [|[a o'] trs IH]; intros o; [left; reflexivity|].
    cbn [offset_from]. destruct (a <=? u); [right; apply IH|left; reflexivity]. }
  assert (L : 0 <= (hour t * 3600 + minute t * 60 + second t) * 10 ^ 9 < one_day).
  { Transparent one_day one_minute. unfold one_day, one_minute. Opaque one_day one_minute. lia. }
  unfold local_time in Hu. revert Hu L.
  generalize ((hour t * 3600 + minute t * 60 + second t) * 10 ^ 9). intros tod Hu L.
  unfold at_midnight_of in *. lia.
Qed.
