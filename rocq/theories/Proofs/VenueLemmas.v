(** The definition made from an exchange says about a day what the attributes of
    the exchange say. *)
From Coq Require Import ZArith List Bool Lia.
From Verif.Model Require Import Base Dates Zone Build Holidays Exchange.
From Verif.Spec Require Import Schedule Construction Civil Rules Venue.
From Verif.Proofs Require Import BaseLemmas ScheduleLemmas BuildLemmas DatesLemmas RuleLemmas RuleRange.
Import ListNotations.
Open Scope Z_scope.

Lemma midnight_at : forall n, midnight n = at_midnight_of n.
Proof. intros n. unfold midnight, at_midnight_of. rewrite NPD_one_day. reflexivity. Qed.

Lemma is_midnight_at : forall x, is_midnight x <-> exists n, x = at_midnight_of n.
Proof. reflexivity. Qed.

Lemma at_midnight_le : forall a b, at_midnight_of a <= at_midnight_of b <-> a <= b.
Proof. intros a b. unfold at_midnight_of. pose proof one_day_pos. nia. Qed.

Lemma at_midnight_inj : forall a b, at_midnight_of a = at_midnight_of b -> a = b.
Proof. intros a b. unfold at_midnight_of. pose proof one_day_pos. nia. Qed.

Lemma at_midnight_div : forall n, at_midnight_of n / one_day = n.
Proof. intros n. unfold at_midnight_of. apply Z.div_mul. pose proof one_day_pos. lia. Qed.

Lemma default_range : DEFAULT_HOLIDAY_START = at_midnight_of (date_number 1970 1 1) /\
  DEFAULT_HOLIDAY_END = at_midnight_of (date_number 2200 12 31).
Proof.
  unfold DEFAULT_HOLIDAY_START, DEFAULT_HOLIDAY_END. rewrite !midnight_at.
  split; f_equal; vm_compute; reflexivity.
Qed.

Lemma holidays_iff : forall rules start stop n, forallb settled rules = true ->
  (In (at_midnight_of n) (calendar_holidays rules start stop) <->
   start <= at_midnight_of n <= stop /\ exists r, In r rules /\ falls_on r n).
Proof.
  intros rules start stop n S. rewrite calendar_holidays_iff by exact S. split.
  - intros [Hr [r [m [H1 [H2 E]]]]]. rewrite (midnight_at m) in E. apply at_midnight_inj in E. subst m.
    split; [exact Hr|]. exists r. tauto.
  - intros [Hr [r [H1 H2]]]. split; [exact Hr|]. exists r, n.
    split; [exact H1|]. split; [exact H2|]. symmetry. apply midnight_at.
Qed.

Lemma holidays_midnight : forall rules start stop x, In x (calendar_holidays rules start stop) ->
  exists n, x = at_midnight_of n.
Proof.
  intros rules start stop x H. apply calendar_holidays_In in H. destruct H as [_ [r [n [_ [_ ->]]]]].
  exists n. apply midnight_at.
Qed.

Section Instance.
Variables (E : exchange) (z : zone) (start stop : Z).
Let D := instantiate E z start stop.

Lemma trading_day_open : forall n, forallb settled (ex_regular_holidays E) = true ->
  (trading_day D (at_midnight_of n) <-> open_day E n).
Proof.
  intros n S. unfold trading_day, open_day, D. cbn [instantiate weekmask regular_holidays adhoc_holidays].
  rewrite at_midnight_div. unfold day_of_week. split.
  - intros [H1 H2]. split; [exact H1|]. split.
    + intros [K H]. apply (H2 (at_midnight_of n)); [left|apply at_midnight_div].
      apply holidays_iff; [exact S|]. split; [|exact H].
      destruct default_range as [-> ->]. rewrite !at_midnight_le. exact K.
    + intros H. apply (H2 (at_midnight_of n)); [right|apply at_midnight_div].
      apply in_map_iff. exists n. split; [apply midnight_at|assumption].
  - intros [H1 [H2 H3]]. split; [exact H1|]. intros h [H|H].
    + destruct (holidays_midnight _ _ _ _ H) as [m ->]. rewrite at_midnight_div. intros ->.
      apply holidays_iff in H; [|exact S]. apply H2. destruct H as [Hr H]. split; [|exact H].
      destruct default_range as [E1 E2]. rewrite E1, E2, !at_midnight_le in Hr. exact Hr.
    + apply in_map_iff in H. destruct H as [m [<- H]]. rewrite (midnight_at m), at_midnight_div.
      intros ->. apply H3. exact H.
Qed.

Lemma session_day_open : forall x, forallb settled (ex_regular_holidays E) = true ->
  (session_day D start stop x <->
   exists n, x = at_midnight_of n /\ start <= x <= stop /\ open_day E n).
Proof.
  intros x S. unfold session_day. split.
  - intros [M [Hr H]]. apply is_midnight_at in M. destruct M as [n ->]. exists n. split; [reflexivity|].
    split; [exact Hr|]. apply trading_day_open; assumption.
  - intros [n [-> [Hr H]]]. split; [apply is_midnight_at; exists n; reflexivity|]. split; [exact Hr|].
    apply trading_day_open; assumption.
Qed.

Lemma listed_iff : forall rules dates x t,
  forallb (fun p => forallb settled (snd p)) rules = true ->
  (special_listed (map (fun p => (fst p, calendar_holidays (snd p) start stop)) rules)
     (map (fun p => (fst p, map midnight (snd p))) dates) start stop x t <->
   exists n, x = at_midnight_of n /\
     ((exists rs r, In (t, rs) rules /\ In r rs /\ falls_on r n) /\ start <= x <= stop \/
      (exists ds, In (t, ds) dates /\ In n ds))).
Proof.
  intros rules dates x t S. rewrite forallb_forall in S. unfold special_listed. split.
  - intros [[days [H1 [H2 H3]]]|[days [H1 H2]]].
    + apply in_map_iff in H1. destruct H1 as [[t' rs] [E1 H1]]. cbn [fst snd] in E1.
      injection E1 as -> <-. destruct (holidays_midnight _ _ _ _ H2) as [n ->]. exists n. split; [reflexivity|].
      left. split; [|exact H3]. apply holidays_iff in H2; [|apply (S _ H1)].
      destruct H2 as [_ [r [Hr Hf]]]. exists rs, r. tauto.
    + apply in_map_iff in H1. destruct H1 as [[t' ds] [E1 H1]]. cbn [fst snd] in E1.
      injection E1 as -> <-. apply in_map_iff in H2. destruct H2 as [n [<- H2]]. exists n.
      split; [apply midnight_at|]. right. exists ds. tauto.
  - intros [n [-> [[[rs [r [H1 [H2 H3]]]] Hr]|[ds [H1 H2]]]]].
    + left. exists (calendar_holidays rs start stop). split.
      * apply in_map_iff. exists (t, rs). tauto.
      * split; [|exact Hr]. apply holidays_iff; [apply (S _ H1)|]. split; [exact Hr|]. exists r. tauto.
    + right. exists (map midnight ds). split.
      * apply in_map_iff. exists (t, ds). tauto.
      * apply in_map_iff. exists n. split; [apply midnight_at|assumption].
Qed.
End Instance.
