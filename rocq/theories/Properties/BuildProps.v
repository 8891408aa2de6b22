(** C23-C34: construction of calendars, for every definition and range. *)
From Coq Require Import ZArith List Bool Lia Sorting.Sorted.
From Verif.Model Require Import Base Helpers Queries Dates Zone Build.
From Verif.Spec Require Import Schedule Construction Civil.
From Verif.Properties Require Import QueryProps.
From Verif.Proofs Require Import BaseLemmas ScheduleLemmas QueryLemmas QueryLemmas2 ZoneLemmas
  BuildLemmas BuildLemmas2 ShapeLemmas DatesLemmas.
Import ListNotations.
Open Scope Z_scope.

(** A concrete definition meeting the hypotheses of the theorems below: a zone
    with daylight saving time, two entries in the table of opens, a lunch break,
    a holiday, a special open and two special closes; March 2nd to 16th, 2020
    (clocks change on March 8th). *)
Definition ex_date (n : Z) : Z := (18321 + n) * NANOS_PER_DAY.   (* March n, 2020 *)
Definition ex_hours (n : Z) : Z := n * 3600 * NANOS_PER_SECOND.
Definition ex_zone : zone :=
  Zone (ex_hours (-5))
    [(ex_date 8 + ex_hours 7, ex_hours (-4)); (ex_date 246 + ex_hours 6, ex_hours (-5))].
Definition ex_D : definition :=
  Definition_ ex_zone [true; true; true; true; true; false; false]
    [ex_date 5] []
    [(None, Time 10 0 0); (Some (ex_date 4), Time 9 30 0)]
    (Some [(None, Time 12 0 0)]) (Some [(None, Time 13 0 0)])
    [(None, Time 16 0 0)] 0 0
    [] [(Time 10 30 0, [ex_date 6])]
    [(Time 13 0 0, [ex_date 10; ex_date 16])] [(Time 14 0 0, [ex_date 12])].
Definition ex_start : Z := ex_date 2.
Definition ex_stop : Z := ex_date 16.
Definition ex_built : built :=
  match build ex_D ex_start ex_stop with
  | Ok b => b
  | Raise _ => Built (Calendar [] [] [] [] [] []) 0 0 [] []
  end.

Definition ex_shape : shape :=
  Shape (minute_of_day 9 30) (minute_of_day 10 30) (minute_of_day 12 0) (minute_of_day 12 0)
    (minute_of_day 13 0) (minute_of_day 13 0) (minute_of_day 16 0) (minute_of_day 13 0)
    (minute_of_day 16 0).

Example ex_build : build ex_D ex_start ex_stop = Ok ex_built.
Proof. vm_compute. reflexivity. Qed.
Example ex_midnight : is_midnight ex_start /\ is_midnight ex_stop.
Proof. split; apply midnight_mod; vm_compute; reflexivity. Qed.
Example ex_sound : sound ex_D ex_start ex_stop.
Proof.
  apply (sound_definition_ok ex_D ex_shape ex_start); try apply ex_midnight; [|lia].
  vm_compute. reflexivity.
Qed.

(** ** C23 *)

Lemma build_sessions : forall D start stop b, build D start stop = Ok b ->
  sessions (cal b) = all_days D start stop.
Proof.
  intros D start stop b H. destruct (build_trace D start stop b H) as [? [? [? [? [? [? T]]]]]].
  destruct T as [_ [_ [_ [_ [_ [_ [_ [_ [_ [_ [_ [_ [T _]]]]]]]]]]]]].
  apply (make_calendar_fields _ _ _ _ _ _ T).
Qed.

Theorem c23_sessions : forall D start stop b, is_midnight start ->
  build D start stop = Ok b ->
  lists_exactly (session_day D start stop) (sessions (cal b)) /\
  (forall x, is_session (cal b) x = true <-> session_day D start stop x).
Proof.
  intros D start stop b M1 H.
  pose proof (build_sessions D start stop b H) as E.
  rewrite E. split.
  - split; [apply date_range_sorted|]. intros x. apply date_range_session_day; assumption.
  - intros x. unfold is_session. rewrite E, contains_In. apply date_range_session_day; assumption.
Qed.

(** With a time of day in [start] (not later than the one in [stop]) the labels
    carry that time of day. *)
Theorem c23_sessions_time_of_day : forall D start stop b,
  start mod one_day <= stop mod one_day -> build D start stop = Ok b ->
  lists_exactly (fun x => start <= x <= stop /\ (one_day | x - start) /\ trading_day D x)
    (sessions (cal b)).
Proof.
  intros D start stop b M H.
  pose proof (build_sessions D start stop b H) as E.
  rewrite E. split; [apply date_range_sorted|]. intros x. unfold all_days.
  rewrite date_range_In by exact M. rewrite business_trading. tauto.
Qed.

(** Otherwise the last session can be lost: Thursday noon to Saturday midnight
    leaves out Friday. *)
Theorem c23_time_of_day_refuted : exists D start stop b x,
  build D start stop = Ok b /\ start <= x <= stop /\ (one_day | x - start) /\
  trading_day D x /\ is_session (cal b) x = false.
Proof.
  exists weekday_calendar, (ex_hours 12), (2 * NANOS_PER_DAY).
  destruct (build weekday_calendar (ex_hours 12) (2 * NANOS_PER_DAY)) as [b|] eqn:E;
    [|vm_compute in E; discriminate].
  exists b, (ex_hours 12 + NANOS_PER_DAY). split; [reflexivity|].
  split; [vm_compute; split; discriminate|].
  split; [exists 1; vm_compute; reflexivity|].
  split; [apply business_trading; vm_compute; reflexivity|].
  vm_compute in E. apply Ok_inj in E. subst b. vm_compute. reflexivity.
Qed.

Theorem c23_first_last : forall D start stop b, is_midnight start ->
  build D start stop = Ok b ->
  least (session_day D start stop) (first_trading_session b) /\
  greatest (session_day D start stop) (last_trading_session b).
Proof.
  intros D start stop b M1 H.
  destruct (c23_sessions D start stop b M1 H) as [[Hs Hin] _].
  destruct (build_trace D start stop b H) as [? [? [? [? [? [? T]]]]]].
  destruct T as [_ [_ [_ [_ [_ [_ [_ [_ [_ [_ [_ [_ [T [F [L _]]]]]]]]]]]]]]].
  assert (E : sessions (cal b) = all_days D start stop) by apply (make_calendar_fields _ _ _ _ _ _ T).
  rewrite E in Hs, Hin. split.
  - destruct (all_days D start stop) as [|d ds]; [discriminate|].
    change (pyget (d :: ds) 0) with (Ok d) in F. apply Ok_inj in F. subst d.
    split; [apply Hin; left; reflexivity|]. intros y Hy. apply Hin in Hy.
    destruct Hy as [<-|Hy]; [lia|]. apply SSorted_cons in Hs. destruct Hs as [_ Hs].
    rewrite Forall_forall in Hs. specialize (Hs y Hy). lia.
  - destruct (all_days D start stop) as [|d ds] eqn:Ed using rev_ind; [discriminate|].
    rewrite pyget_last in L. apply Ok_inj in L. subst d.
    split; [apply Hin; apply in_app_iff; simpl; tauto|]. intros y Hy. apply Hin in Hy.
    apply in_app_iff in Hy. destruct Hy as [Hy|[<-|[]]]; [|lia].
    apply SSorted_app in Hs. destruct Hs as [_ [_ Hs]]. specialize (Hs y _ Hy (or_introl eq_refl)). lia.
Qed.

(** A range without trading days is refused. *)
Theorem c23_no_sessions : forall D start stop, is_midnight start ->
  (forall x, ~ session_day D start stop x) -> forall b, build D start stop <> Ok b.
Proof.
  intros D start stop M1 Hn b H.
  apply (Hn (first_trading_session b)).
  apply (proj1 (c23_first_last D start stop b M1 H)).
Qed.

Example c23_witness :
  sessions (cal ex_built) = map ex_date [2; 3; 4; 6; 9; 10; 11; 12; 13; 16] /\
  first_trading_session ex_built = ex_date 2 /\ last_trading_session ex_built = ex_date 16.
Proof. vm_compute. repeat split; reflexivity. Qed.

(** ** C24 *)

Theorem c24_regular_open : forall D start stop b x, ordered_tables D ->
  build D start stop = Ok b -> In x (sessions (cal b)) ->
  (forall u, ~ special_open D start stop x u) ->
  exists u t, session_open (cal b) x = Ok u /\ in_force (open_times D) x t /\
    instant_of (tz D) (local_time x (open_offset D) t) u.
Proof.
  intros D start stop b x Ho H Hx Hn. pose proof (build_columns D start stop b Ho H) as C.
  pose proof (cm_opens _ _ _ _ C) as HF. rewrite <- (cm_sessions _ _ _ _ C) in HF.
  destruct (schedule_at_R _ (cal b) opens x HF Hx) as [u [E [Hu|[_ [t [Ht Hu]]]]]].
  - exfalso. apply (Hn u Hu).
  - exists u, t. split; [exact E|]. split; assumption.
Qed.

Theorem c24_regular_close : forall D start stop b x, ordered_tables D ->
  build D start stop = Ok b -> In x (sessions (cal b)) ->
  (forall u, ~ special_close D start stop x u) ->
  exists u t, session_close (cal b) x = Ok u /\ in_force (close_times D) x t /\
    instant_of (tz D) (local_time x (close_offset D) t) u.
Proof.
  intros D start stop b x Ho H Hx Hn. pose proof (build_columns D start stop b Ho H) as C.
  pose proof (cm_closes _ _ _ _ C) as HF. rewrite <- (cm_sessions _ _ _ _ C) in HF.
  destruct (schedule_at_R _ (cal b) closes x HF Hx) as [u [E [Hu|[_ [t [Ht Hu]]]]]].
  - exfalso. apply (Hn u Hu).
  - exists u, t. split; [exact E|]. split; assumption.
Qed.

(** The entry in force is unique, so the two theorems above determine the
    instants. *)
Theorem c24_in_force_unique : forall table x t t', well_ordered table ->
  in_force table x t -> in_force table x t' -> t = t'.
Proof. exact in_force_unique. Qed.

(** A table of opens or closes that starts after the first session is refused. *)
Theorem c24_uncovered_day : forall D start stop x, ordered_tables D ->
  is_midnight start -> session_day D start stop x ->
  (forall t, ~ in_force (open_times D) x t) \/ (forall t, ~ in_force (close_times D) x t) ->
  (forall u, ~ special_open D start stop x u) -> (forall u, ~ special_close D start stop x u) ->
  forall b, build D start stop <> Ok b.
Proof.
  intros D start stop x Ho M1 Hx Hn N1 N2 b H.
  assert (Hin : In x (sessions (cal b))).
  { apply (proj1 (c23_sessions D start stop b M1 H)). exact Hx. }
  destruct Hn as [Hn|Hn].
  - destruct (c24_regular_open D start stop b x Ho H Hin N1) as [u [t [_ [Ht _]]]]. apply (Hn t Ht).
  - destruct (c24_regular_close D start stop b x Ho H Hin N2) as [u [t [_ [Ht _]]]]. apply (Hn t Ht).
Qed.

Example c24_witness :
  session_open (cal ex_built) (ex_date 3) = Ok (ex_date 3 + ex_hours 15) /\
  in_force (open_times ex_D) (ex_date 3) (Time 10 0 0) /\
  session_open (cal ex_built) (ex_date 9) = Ok (ex_date 9 + ex_hours 13 + 30 * one_minute) /\
  in_force (open_times ex_D) (ex_date 9) (Time 9 30 0).
Proof.
  split; [vm_compute; reflexivity|].
  split; [exists None; split; [left; reflexivity|]; split; [exact I|];
          intros s' t' [E|[E|[]]]; injection E as <- <-; intros Hs; [exact I|];
          exfalso; apply Hs; vm_compute; reflexivity|].
  split; [vm_compute; reflexivity|].
  exists (Some (ex_date 4)); split; [right; left; reflexivity|];
    split; [vm_compute; discriminate|];
    intros s' t' [E|[E|[]]]; injection E as <- <-; intros Hs; [exact I|vm_compute; discriminate].
Qed.

(** ** C25 *)

Theorem c25_special_open : forall D start stop b x u, ordered_tables D ->
  build D start stop = Ok b -> special_open D start stop x u ->
  exists u', session_open (cal b) x = Ok u' /\ special_open D start stop x u'.
Proof.
  intros D start stop b x u Ho H Hu. pose proof (build_columns D start stop b Ho H) as C.
  pose proof (cm_so _ _ _ _ C x u Hu) as Hx.
  pose proof (cm_opens _ _ _ _ C) as HF. rewrite <- (cm_sessions _ _ _ _ C) in HF, Hx.
  destruct (schedule_at_R _ (cal b) opens x HF Hx) as [u' [E [Hu'|[Hn _]]]].
  - exists u'. split; assumption.
  - exfalso. apply (Hn u Hu).
Qed.

Theorem c25_special_close : forall D start stop b x u, ordered_tables D ->
  build D start stop = Ok b -> special_close D start stop x u ->
  (exists u', session_close (cal b) x = Ok u' /\ special_close D start stop x u') /\
  session_break_start (cal b) x = Ok None /\ session_break_end (cal b) x = Ok None.
Proof.
  intros D start stop b x u Ho H Hu. pose proof (build_columns D start stop b Ho H) as C.
  pose proof (cm_sc _ _ _ _ C x u Hu) as Hx. rewrite <- (cm_sessions _ _ _ _ C) in Hx.
  split.
  - pose proof (cm_closes _ _ _ _ C) as HF. rewrite <- (cm_sessions _ _ _ _ C) in HF.
    destruct (schedule_at_R _ (cal b) closes x HF Hx) as [u' [E [Hu'|[Hn _]]]].
    + exists u'. split; assumption.
    + exfalso. apply (Hn u Hu).
  - split.
    + pose proof (cm_bs _ _ _ _ C) as HF. rewrite <- (cm_sessions _ _ _ _ C) in HF.
      destruct (schedule_at_R _ (cal b) break_starts x HF Hx) as [v [E [[r|] [Hr ->]]]];
        [destruct Hr as [Hr _]; exfalso; apply (Hr u Hu)|].
      unfold session_break_start. rewrite E. cbv [bind BuildLemmas2.cell Queries.cell]. rewrite NAT_nat, Z.eqb_refl. reflexivity.
    + pose proof (cm_be _ _ _ _ C) as HF. rewrite <- (cm_sessions _ _ _ _ C) in HF.
      destruct (schedule_at_R _ (cal b) break_ends x HF Hx) as [v [E [[r|] [Hr ->]]]];
        [destruct Hr as [Hr _]; exfalso; apply (Hr u Hu)|].
      unfold session_break_end. rewrite E. cbv [bind BuildLemmas2.cell Queries.cell]. rewrite NAT_nat, Z.eqb_refl. reflexivity.
Qed.

(** All other sessions keep the break of the tables (or have none, if there is
    no table). *)
Theorem c25_breaks_kept : forall D start stop b x, ordered_tables D -> good_zone (tz D) ->
  representable D start -> is_midnight start ->
  build D start stop = Ok b -> In x (sessions (cal b)) ->
  (forall u, ~ special_close D start stop x u) ->
  match break_start_times D with
  | None => session_break_start (cal b) x = Ok None
  | Some ts => exists u t, session_break_start (cal b) x = Ok (Some u) /\ in_force ts x t /\
                 instant_of (tz D) (local_time x 0 t) u
  end /\
  match break_end_times D with
  | None => session_break_end (cal b) x = Ok None
  | Some ts => exists u t, session_break_end (cal b) x = Ok (Some u) /\ in_force ts x t /\
                 instant_of (tz D) (local_time x 0 t) u
  end.
Proof.
  intros D start stop b x Ho Hz Hr M1 H Hx Hn. pose proof (build_columns D start stop b Ho H) as C.
  assert (Hs : start <= x).
  { apply (proj1 (c23_sessions D start stop b M1 H)) in Hx. apply Hx. }
  split.
  - pose proof (cm_bs _ _ _ _ C) as HF. rewrite <- (cm_sessions _ _ _ _ C) in HF.
    destruct (schedule_at_R _ (cal b) break_starts x HF Hx) as [v [E [[r|] [Hb ->]]]].
    + assert (N : not_a_time < r) by (eapply break_not_nat with (ts := break_start_times D); eauto).
      destruct Hb as [_ [ts [-> [t [Ht Hu]]]]]. exists r, t. split; [|split; assumption].
      unfold session_break_start. rewrite E. cbv [bind BuildLemmas2.cell Queries.cell]. rewrite NAT_nat.
      destruct (Z.eqb_spec r not_a_time); [lia|reflexivity].
    + destruct Hb as [->|[u Hu]]; [|exfalso; apply (Hn u Hu)].
      unfold session_break_start. rewrite E. cbv [bind BuildLemmas2.cell Queries.cell]. rewrite NAT_nat, Z.eqb_refl. reflexivity.
  - pose proof (cm_be _ _ _ _ C) as HF. rewrite <- (cm_sessions _ _ _ _ C) in HF.
    destruct (schedule_at_R _ (cal b) break_ends x HF Hx) as [v [E [[r|] [Hb ->]]]].
    + assert (N : not_a_time < r) by (eapply break_not_nat with (ts := break_end_times D); eauto).
      destruct Hb as [_ [ts [-> [t [Ht Hu]]]]]. exists r, t. split; [|split; assumption].
      unfold session_break_end. rewrite E. cbv [bind BuildLemmas2.cell Queries.cell]. rewrite NAT_nat.
      destruct (Z.eqb_spec r not_a_time); [lia|reflexivity].
    + destruct Hb as [->|[u Hu]]; [|exfalso; apply (Hn u Hu)].
      unfold session_break_end. rewrite E. cbv [bind BuildLemmas2.cell Queries.cell]. rewrite NAT_nat, Z.eqb_refl. reflexivity.
Qed.

(** The sessions themselves do not depend on the special dates. *)
Theorem c25_labels_unaffected : forall D1 D2 start stop b1 b2,
  weekmask D1 = weekmask D2 -> regular_holidays D1 = regular_holidays D2 ->
  adhoc_holidays D1 = adhoc_holidays D2 ->
  build D1 start stop = Ok b1 -> build D2 start stop = Ok b2 ->
  sessions (cal b1) = sessions (cal b2).
Proof.
  intros D1 D2 start stop b1 b2 E1 E2 E3 H1 H2.
  rewrite (build_sessions D1 _ _ b1 H1), (build_sessions D2 _ _ b2 H2). unfold all_days, date_range, is_business_day.
  rewrite E1, E2, E3. reflexivity.
Qed.

Example c25_witness :
  session_open (cal ex_built) (ex_date 6) = Ok (ex_date 6 + ex_hours 15 + 30 * one_minute) /\
  session_close (cal ex_built) (ex_date 10) = Ok (ex_date 10 + ex_hours 17) /\
  session_break_start (cal ex_built) (ex_date 10) = Ok None /\
  session_break_start (cal ex_built) (ex_date 11) = Ok (Some (ex_date 11 + ex_hours 16)).
Proof. vm_compute. repeat split; reflexivity. Qed.

(** ** C26 *)

Theorem c26_specials_are_sessions : forall D start stop b x u, ordered_tables D ->
  is_midnight start -> build D start stop = Ok b ->
  special_open D start stop x u \/ special_close D start stop x u -> session_day D start stop x.
Proof.
  intros D start stop b x u Ho M1 H Hu. pose proof (build_columns D start stop b Ho H) as C.
  apply (date_range_session_day D start stop x M1).
  destruct Hu as [Hu|Hu]; [eapply cm_so|eapply cm_sc]; eassumption.
Qed.

Theorem c26_rejected : forall D start stop x u, is_midnight start ->
  ordered_tables D -> resolvable D start stop -> covered D start stop ->
  (exists y, session_day D start stop y) ->
  special_open D start stop x u \/ special_close D start stop x u ->
  ~ session_day D start stop x ->
  build D start stop = Raise ValueError.
Proof.
  intros D start stop x u M1 [W1 [W2 [W3 W4]]] [R1 [R2 [R3 [R4 R5]]]] [Hcov Hpair] [y Hy] Hu Hn.
  unfold build. fold (all_days D start stop). set (days := all_days D start stop).
  assert (Hdays : forall x, In x days <-> session_day D start stop x)
    by (intros x'; apply date_range_session_day; assumption).
  assert (Hsort : StronglySorted Z.lt days) by apply date_range_sorted.
  assert (Hne : days <> []) by (intros E; apply Hdays in Hy; rewrite E in Hy; destruct Hy).
  destruct (group_times_total days (open_times D) (tz D) (open_offset D) W1 Hsort Hne) as [os [E1 L1]].
  { intros x' Hx. apply Hdays in Hx. exact (proj1 (Hcov x' Hx)). }
  { intros x' t Hx. apply Hdays in Hx. apply (R1 x' t Hx). }
  destruct (group_times_total days (close_times D) (tz D) (close_offset D) W2 Hsort Hne) as [cs [E4 L4]].
  { intros x' Hx. apply Hdays in Hx. exact (proj1 (proj2 (Hcov x' Hx))). }
  { intros x' t Hx. apply Hdays in Hx. apply (R2 x' t Hx). }
  destruct (group_times_opt_total days (break_start_times D) (tz D) W3 Hsort Hne) as [bss [E2 L2]].
  { intros t Et x' Hx. apply Hdays in Hx. destruct (Hcov x' Hx) as [_ [_ Hb]]. apply (Hb t). tauto. }
  { intros t Et x' t' Hx. apply Hdays in Hx. apply (R3 t x' t'); [tauto|exact Hx]. }
  destruct (group_times_opt_total days (break_end_times D) (tz D) W4 Hsort Hne) as [bes [E3 L3]].
  { intros t Et x' Hx. apply Hdays in Hx. destruct (Hcov x' Hx) as [_ [_ Hb]]. apply (Hb t). tauto. }
  { intros t Et x' t' Hx. apply Hdays in Hx. apply (R3 t x' t'); [tauto|exact Hx]. }
  destruct (special_dates_total (tz D) _ _ start stop R4) as [sos E5].
  destruct (special_dates_total (tz D) _ _ start stop R5) as [scs E6].
  rewrite E1, E2, E3, E4, E5, E6. cbn [bind].
  assert (Nd : ~ In x days) by (rewrite Hdays; exact Hn).
  destruct Hu as [Hu|Hu].
  - apply (special_dates_In _ _ _ _ _ _ E5) in Hu.
    unfold overwrite_special_dates at 1. rewrite (overwrite_bad days os sos _ (x, u) Hu Nd). reflexivity.
  - apply (special_dates_In _ _ _ _ _ _ E6) in Hu.
    destruct (overwrite_special_dates days os sos) as [os'|e] eqn:Eo.
    + cbn [bind]. unfold overwrite_special_dates. rewrite (overwrite_bad days cs scs _ (x, u) Hu Nd).
      reflexivity.
    + cbn [bind]. f_equal. unfold overwrite_special_dates, overwrite in Eo.
      destruct sos; [discriminate|]. destruct (negb _); [congruence|].
      destruct (existsb _ _); [congruence|discriminate].
Qed.

(** Otherwise construction succeeds. *)
Theorem c26_accepted : forall D start stop, is_midnight start ->
  ordered_tables D -> good_zone (tz D) -> representable D start ->
  resolvable D start stop -> covered D start stop ->
  consistent_specials D start stop -> locally_well_formed D start stop ->
  (exists x, session_day D start stop x) ->
  (forall x u, special_open D start stop x u \/ special_close D start stop x u ->
     session_day D start stop x) ->
  exists b, build D start stop = Ok b.
Proof. intros. apply build_succeeds; assumption. Qed.

Definition ex_bad : definition :=
  Definition_ ex_zone (weekmask ex_D) (regular_holidays ex_D) []
    (open_times ex_D) None None (close_times ex_D) 0 0 []
    [(Time 10 30 0, [ex_date 5])] [] [].
Example c26_witness : build ex_bad ex_start ex_stop = Raise ValueError /\
  special_open ex_bad ex_start ex_stop (ex_date 5) (ex_date 5 + ex_hours 15 + 30 * one_minute) /\
  ~ session_day ex_bad ex_start ex_stop (ex_date 5).
Proof.
  split; [vm_compute; reflexivity|]. split.
  - exists (Time 10 30 0). split; [right; eexists; split; [left; reflexivity|left; reflexivity]|].
    split; [|vm_compute; split; discriminate]. apply tz_localize_Ok. vm_compute. reflexivity.
  - intros [_ [_ H]]. apply business_trading in H. vm_compute in H. discriminate.
Qed.

(** ** C27 *)

Theorem c27_special_close_in_range : forall D start stop b x t days u, ordered_tables D ->
  consistent_specials D start stop -> build D start stop = Ok b ->
  In (t, days) (special_closes D) -> In x days -> start <= x <= stop ->
  instant_of (tz D) (local_time x 0 t) u -> start <= u <= stop ->
  session_close (cal b) x = Ok u.
Proof.
  intros D start stop b x t days u Ho [_ Hc] H Hin Hx Hr Hu Hru.
  assert (Hs : special_close D start stop x u).
  { exists t. split; [|tauto]. left. exists days. tauto. }
  destruct (proj1 (c25_special_close D start stop b x u Ho H Hs)) as [u' [E Hu']].
  rewrite E. f_equal. eapply Hc; eassumption.
Qed.

(** The full statement fails at the last day of the range: its special close is
    later than midnight of that day and is ignored. *)
Theorem c27_last_day_refuted : exists D start stop b x t days u, ordered_tables D /\
  consistent_specials D start stop /\ build D start stop = Ok b /\
  In (t, days) (special_closes D) /\ In x days /\ start <= x <= stop /\
  instant_of (tz D) (local_time x 0 t) u /\
  session_close (cal b) x <> Ok u.
Proof.
  exists ex_D, ex_start, ex_stop, ex_built, (ex_date 16), (Time 13 0 0), [ex_date 10; ex_date 16],
    (ex_date 16 + ex_hours 17).
  split; [exact (sd_tables _ _ _ ex_sound)|]. split; [exact (sd_cons _ _ _ ex_sound)|].
  split; [exact ex_build|].
  split; [left; reflexivity|]. split; [right; left; reflexivity|].
  split; [vm_compute; split; discriminate|].
  split; [apply tz_localize_Ok; vm_compute; reflexivity|]. vm_compute. discriminate.
Qed.

(** ** C28 *)

Theorem c28_early_closes_late_opens : forall D start stop b, is_midnight start ->
  ordered_tables D -> good_zone (tz D) -> representable D start ->
  consistent_specials D start stop -> locally_well_formed D start stop ->
  build D start stop = Ok b ->
  StronglySorted Z.le (early_closes b) /\
  (forall x, In x (early_closes b) <-> exists u, special_close D start stop x u) /\
  StronglySorted Z.le (late_opens b) /\
  (forall x, In x (late_opens b) <-> exists u, special_open D start stop x u).
Proof.
  intros D start stop b M1 Ho Hz Hr Hcons Hloc H.
  destruct (build_schedule D start stop b M1 Ho Hz Hr H) as [ss [Hc [Hl [He Hwf]]]].
  specialize (Hwf Hloc). pose proof (build_columns D start stop b Ho H) as C.
  destruct (build_trace D start stop b H) as [sos [scs [os [bss [bes [cs T]]]]]].
  destruct T as [E5 [E6 [_ [_ [_ [_ [_ [_ [_ [_ [_ [_ [_ [_ [_ [TL TE]]]]]]]]]]]]]]]].
  assert (S1 : map_to_sessions (cal b) sos = Ok (map fst sos)).
  { apply (map_to_sessions_labels (cal b) ss s_open sos Hwf Hc).
    - intros s Hs. pose proof (ordered_open_close s (ord ss Hwf s Hs)). lia.
    - eapply special_dates_sorted. exact E5.
    - intros x u Hin. apply (special_dates_In _ _ _ _ _ _ E5) in Hin.
      apply (special_open_row D start stop); try assumption. eapply cm_so; eassumption. }
  assert (S2 : map_to_sessions (cal b) scs = Ok (map fst scs)).
  { apply (map_to_sessions_labels (cal b) ss s_close scs Hwf Hc).
    - intros s Hs. pose proof (ordered_open_close s (ord ss Hwf s Hs)). lia.
    - eapply special_dates_sorted. exact E6.
    - intros x u Hin. apply (special_dates_In _ _ _ _ _ _ E6) in Hin.
      apply (special_close_row D start stop); try assumption. eapply cm_sc; eassumption. }
  rewrite S1 in TL. rewrite S2 in TE. apply Ok_inj in TL, TE. rewrite <- TL, <- TE.
  assert (K : forall z regular adhoc s, special_dates z regular adhoc start stop = Ok s ->
    StronglySorted Z.le (map fst s) /\
    forall x, In x (map fst s) <-> exists u, special_at z regular adhoc start stop x u).
  { intros z regular adhoc s E. split.
    - apply (SSorted_map fst Z.le s). eapply special_dates_sorted. exact E.
    - intros x. rewrite in_map_iff. split.
      + intros [[x' u] [<- Hin]]. exists u. apply (special_dates_In _ _ _ _ _ _ E). exact Hin.
      + intros [u Hu]. exists (x, u). split; [reflexivity|].
        apply (special_dates_In _ _ _ _ _ _ E). exact Hu. }
  destruct (K _ _ _ _ E5) as [K1 K2]. destruct (K _ _ _ _ E6) as [K3 K4].
  split; [exact K3|]. split; [exact K4|]. split; [exact K1|exact K2].
Qed.

Example c28_witness :
  early_closes ex_built = [ex_date 10; ex_date 12] /\ late_opens ex_built = [ex_date 6].
Proof. vm_compute. split; reflexivity. Qed.

(** ** C29 *)

Theorem c29_well_formed : forall D start stop b, is_midnight start ->
  ordered_tables D -> good_zone (tz D) -> representable D start ->
  locally_well_formed D start stop -> build D start stop = Ok b ->
  exists ss, has_schedule (cal b) ss /\ well_formed ss /\
    (forall x, is_label_of ss x <-> session_day D start stop x) /\
    (forall s, In s ss -> expected_row D start stop s).
Proof.
  intros D start stop b M1 Ho Hz Hr Hloc H.
  destruct (build_schedule D start stop b M1 Ho Hz Hr H) as [ss [Hc [Hl [He Hwf]]]].
  exists ss. split; [exact Hc|]. split; [apply Hwf; exact Hloc|]. split.
  - intros x. rewrite <- (date_range_session_day D start stop x M1).
    fold (all_days D start stop). rewrite <- Hl, in_map_iff. unfold is_label_of. split.
    + intros [s [Hs ->]]. exists s. tauto.
    + intros [s [<- Hs]]. exists s. tauto.
  - apply Forall_forall. exact He.
Qed.

(** The hypotheses also make construction succeed, and a definition whose tables
    pass the (computable) checks of [sound_definition] meets them for every range
    from [lo] on. *)
Theorem c29_sound_definition : forall D sh lo start stop, sound_definition D sh lo = true ->
  is_midnight start -> lo <= start ->
  (exists x, session_day D start stop x) ->
  exists b ss, build D start stop = Ok b /\ has_schedule (cal b) ss /\ well_formed ss /\
    (forall x, is_label_of ss x <-> session_day D start stop x) /\
    (forall s, In s ss -> expected_row D start stop s).
Proof.
  intros D sh lo start stop H M1 Hlo Hx.
  destruct (sound_definition_ok D sh lo start stop H M1 Hlo) as [S1 S2 S3 S4 S5 S6 S7 S8].
  destruct (build_succeeds D start stop) as [b Hb]; try assumption.
  destruct (c29_well_formed D start stop b M1 S1 S2 S3 S8 Hb) as [ss Hss].
  exists b, ss. tauto.
Qed.

Example c29_witness : sound_definition ex_D ex_shape ex_start = true.
Proof. vm_compute. reflexivity. Qed.

(** ** C30 *)

Theorem c30_days_at_time : forall days t z k,
  match days_at_time days t z k with
  | Ok l => Forall2 (fun day u => wall_clock z u = local_time day k t) days l
  | Raise e => exists day, In day days /\
      ((e = NonExistentTimeError /\ forall u, wall_clock z u <> local_time day k t) \/
       (e = AmbiguousTimeError /\
        exists u u', u <> u' /\ wall_clock z u = local_time day k t /\
                     wall_clock z u' = local_time day k t))
  end.
Proof.
  intros days t z k. destruct (days_at_time days t z k) as [l|e] eqn:E.
  - apply days_at_time_Ok in E. revert E. apply Forall2_impl. intros x u _ [H _]. exact H.
  - apply mapM_Raise in E. destruct E as [x [Hin E]]. exists x. split; [exact Hin|].
    rewrite time_delta_local in E. apply tz_localize_Raise. exact E.
Qed.

(** It succeeds whenever every local time exists exactly once. *)
Theorem c30_succeeds : forall days t z k,
  (forall day, In day days -> exists u, instant_of z (local_time day k t) u) <->
  exists l, days_at_time days t z k = Ok l.
Proof.
  intros days t z k. split.
  - intros H. apply mapM_total. intros x Hx. destruct (H x Hx) as [u Hu]. exists u.
    rewrite time_delta_local. apply tz_localize_Ok. exact Hu.
  - intros [l H] x Hx. apply days_at_time_Ok in H. clear - H Hx.
    induction H as [|a u days l Hu H IH]; [destruct Hx|].
    destruct Hx as [<-|Hx]; [exists u; exact Hu|apply IH; exact Hx].
Qed.

Theorem c30_increasing : forall days t z k l,
  separated (initial_offset z) (transitions z) ->
  StronglySorted Z.lt days -> days_at_time days t z k = Ok l -> StronglySorted Z.lt l.
Proof.
  intros days t z k l Hz Hs H. apply days_at_time_Ok in H. revert Hs.
  induction H as [|x u days l Hu H IH]; intros Hs; [constructor|].
  apply SSorted_cons in Hs. destruct Hs as [Hs Hf]. apply SSorted_cons. split; [apply IH; exact Hs|].
  clear IH Hs. induction H as [|y v days l Hv H IH]; constructor.
  - apply Forall_cons_iff in Hf. destruct Hf as [Hf _].
    eapply instant_of_mono; [exact Hz|exact Hu|exact Hv|]. unfold local_time. lia.
  - apply IH. apply Forall_cons_iff in Hf. tauto.
Qed.

(** The docstring example: 8:45 in New York, March 7th to 9th, 2020. *)
Example c30_witness :
  days_at_time [ex_date 7; ex_date 8; ex_date 9] (Time 8 45 0) ex_zone 0
  = Ok [ex_date 7 + ex_hours 13 + 45 * one_minute; ex_date 8 + ex_hours 12 + 45 * one_minute;
        ex_date 9 + ex_hours 12 + 45 * one_minute] /\
  days_at_time [ex_date 8] (Time 2 30 0) ex_zone 0 = Raise NonExistentTimeError /\
  days_at_time [ex_date 246] (Time 1 30 0) ex_zone 0 = Raise AmbiguousTimeError.
Proof. vm_compute. repeat split; reflexivity. Qed.

(** ** C31 *)

Theorem c31_same_sessions : forall D start1 stop1 start2 stop2 b1 b2 x,
  is_midnight start1 -> is_midnight start2 ->
  build D start1 stop1 = Ok b1 -> build D start2 stop2 = Ok b2 ->
  start1 <= x <= stop1 -> start2 <= x <= stop2 ->
  is_session (cal b1) x = is_session (cal b2) x.
Proof.
  intros D start1 stop1 start2 stop2 b1 b2 x M1 M3 H1 H2 R1 R2.
  apply Bool.eq_iff_eq_true.
  rewrite (proj2 (c23_sessions D start1 stop1 b1 M1 H1)).
  rewrite (proj2 (c23_sessions D start2 stop2 b2 M3 H2)). unfold session_day. tauto.
Qed.

(** Every special time listed for day [x] lies within the range. *)
Definition specials_inside (D : definition) (start stop x : Z) : Prop :=
  forall t days u,
    (In (t, days) (special_opens D) \/ In (t, days) (special_opens_adhoc D) \/
     In (t, days) (special_closes D) \/ In (t, days) (special_closes_adhoc D)) ->
    In x days -> instant_of (tz D) (local_time x 0 t) u -> start <= u <= stop.

Lemma specials_inside_same : forall D start1 stop1 start2 stop2 x u,
  start1 <= x <= stop1 -> start2 <= x <= stop2 ->
  specials_inside D start2 stop2 x ->
  (special_open D start1 stop1 x u -> special_open D start2 stop2 x u) /\
  (special_close D start1 stop1 x u -> special_close D start2 stop2 x u).
Proof.
  intros D start1 stop1 start2 stop2 x u R1 R2 Hi.
  split; intros [t [Hl [Hu _]]]; exists t; (split; [|split; [exact Hu|]]).
  - destruct Hl as [[ds [A [B _]]]|[ds [A B]]]; [left|right]; exists ds; tauto.
  - destruct Hl as [[ds [A [B _]]]|[ds [A B]]]; eapply Hi; eauto.
  - destruct Hl as [[ds [A [B _]]]|[ds [A B]]]; [left|right]; exists ds; tauto.
  - destruct Hl as [[ds [A [B _]]]|[ds [A B]]]; eapply Hi; eauto.
Qed.

Theorem c31_same_times : forall D start1 stop1 start2 stop2 b1 b2 x,
  ordered_tables D -> consistent_specials D start1 stop1 ->
  good_zone (tz D) -> representable D start1 -> representable D start2 ->
  is_midnight start1 -> is_midnight start2 ->
  build D start1 stop1 = Ok b1 -> build D start2 stop2 = Ok b2 ->
  start1 <= x <= stop1 -> start2 <= x <= stop2 ->
  specials_inside D start1 stop1 x -> specials_inside D start2 stop2 x ->
  In x (sessions (cal b1)) ->
  session_open (cal b1) x = session_open (cal b2) x /\
  session_close (cal b1) x = session_close (cal b2) x /\
  session_break_start (cal b1) x = session_break_start (cal b2) x /\
  session_break_end (cal b1) x = session_break_end (cal b2) x.
Proof.
  intros D start1 stop1 start2 stop2 b1 b2 x Ho Hcons Hz Hr1 Hr2 M1 M3 H1 H2 R1 R2 I1 I2 Hx1.
  assert (Hx2 : In x (sessions (cal b2))).
  { pose proof (c31_same_sessions D _ _ _ _ b1 b2 x M1 M3 H1 H2 R1 R2) as E.
    unfold is_session in E. apply contains_In. rewrite <- E. apply contains_In. exact Hx1. }
  pose proof Ho as [W1 [W2 [W3 W4]]]. destruct Hcons as [Hco Hcc].
  assert (Fwd := fun u => specials_inside_same D start1 stop1 start2 stop2 x u R1 R2 I2).
  assert (Bwd := fun u => specials_inside_same D start2 stop2 start1 stop1 x u R2 R1 I1).
  pose proof (build_columns D start1 stop1 b1 Ho H1) as C1.
  pose proof (build_columns D start2 stop2 b2 Ho H2) as C2.
  split; [|split].
  - pose proof (cm_opens _ _ _ _ C1) as F1. rewrite <- (cm_sessions _ _ _ _ C1) in F1.
    pose proof (cm_opens _ _ _ _ C2) as F2. rewrite <- (cm_sessions _ _ _ _ C2) in F2.
    destruct (schedule_at_R _ (cal b1) opens x F1 Hx1) as [u1 [E1 X1]].
    destruct (schedule_at_R _ (cal b2) opens x F2 Hx2) as [u2 [E2 X2]].
    unfold session_open. rewrite E1, E2. f_equal.
    destruct X1 as [X1|[N1 [t1 [T1 X1]]]], X2 as [X2|[N2 [t2 [T2 X2]]]].
    + eapply Hco; [exact X1|]. apply Bwd. exact X2.
    + exfalso. apply (N2 u1). apply Fwd. exact X1.
    + exfalso. apply (N1 u2). apply Bwd. exact X2.
    + rewrite (in_force_unique _ _ _ _ W1 T1 T2) in X1. eapply instant_of_unique; eassumption.
  - pose proof (cm_closes _ _ _ _ C1) as F1. rewrite <- (cm_sessions _ _ _ _ C1) in F1.
    pose proof (cm_closes _ _ _ _ C2) as F2. rewrite <- (cm_sessions _ _ _ _ C2) in F2.
    destruct (schedule_at_R _ (cal b1) closes x F1 Hx1) as [u1 [E1 X1]].
    destruct (schedule_at_R _ (cal b2) closes x F2 Hx2) as [u2 [E2 X2]].
    unfold session_close. rewrite E1, E2. f_equal.
    destruct X1 as [X1|[N1 [t1 [T1 X1]]]], X2 as [X2|[N2 [t2 [T2 X2]]]].
    + eapply Hcc; [exact X1|]. apply Bwd. exact X2.
    + exfalso. apply (N2 u1). apply Fwd. exact X1.
    + exfalso. apply (N1 u2). apply Bwd. exact X2.
    + rewrite (in_force_unique _ _ _ _ W2 T1 T2) in X1. eapply instant_of_unique; eassumption.
  - assert (Dec : (exists u, special_close D start1 stop1 x u) \/
                  (forall u, ~ special_close D start1 stop1 x u)).
    { pose proof (cm_closes _ _ _ _ C1) as F1. rewrite <- (cm_sessions _ _ _ _ C1) in F1.
      destruct (schedule_at_R _ (cal b1) closes x F1 Hx1) as [u1 [_ [X1|[N1 _]]]]; [left; eauto|tauto]. }
    destruct Dec as [[u Hu]|N].
    + destruct (c25_special_close D start1 stop1 b1 x u Ho H1 Hu) as [_ [-> ->]].
      destruct (c25_special_close D start2 stop2 b2 x u Ho H2 (proj2 (Fwd u) Hu)) as [_ [-> ->]].
      split; reflexivity.
    + assert (N2 : forall u, ~ special_close D start2 stop2 x u).
      { intros u Hu. apply (N u). apply Bwd. exact Hu. }
      destruct (c25_breaks_kept D start1 stop1 b1 x Ho Hz Hr1 M1 H1 Hx1 N) as [A1 A2].
      destruct (c25_breaks_kept D start2 stop2 b2 x Ho Hz Hr2 M3 H2 Hx2 N2) as [B1 B2].
      split.
      * destruct (break_start_times D) as [ts|]; [|congruence].
        destruct A1 as [u1 [t1 [-> [T1 X1]]]]. destruct B1 as [u2 [t2 [-> [T2 X2]]]].
        rewrite (in_force_unique _ _ _ _ (W3 ts eq_refl) T1 T2) in X1.
        rewrite (instant_of_unique _ _ _ _ X1 X2). reflexivity.
      * destruct (break_end_times D) as [ts|]; [|congruence].
        destruct A2 as [u1 [t1 [-> [T1 X1]]]]. destruct B2 as [u2 [t2 [-> [T2 X2]]]].
        rewrite (in_force_unique _ _ _ _ (W4 ts eq_refl) T1 T2) in X1.
        rewrite (instant_of_unique _ _ _ _ X1 X2). reflexivity.
Qed.

Example c31_witness : exists b2, build ex_D (ex_date 9) (ex_date 13) = Ok b2 /\
  specials_inside ex_D (ex_date 9) (ex_date 13) (ex_date 10) /\
  specials_inside ex_D ex_start ex_stop (ex_date 10) /\
  session_close (cal b2) (ex_date 10) = Ok (ex_date 10 + ex_hours 17).
Proof.
  destruct (build ex_D (ex_date 9) (ex_date 13)) as [b2|] eqn:E; [|vm_compute in E; discriminate].
  exists b2. split; [reflexivity|].
  assert (K : forall t days u,
    (In (t, days) (special_opens ex_D) \/ In (t, days) (special_opens_adhoc ex_D) \/
     In (t, days) (special_closes ex_D) \/ In (t, days) (special_closes_adhoc ex_D)) ->
    In (ex_date 10) days -> instant_of (tz ex_D) (local_time (ex_date 10) 0 t) u ->
    u = ex_date 10 + ex_hours 17).
  { intros t days u H Hx Hu. apply tz_localize_Ok in Hu.
    destruct H as [[]|[[H|[]]|[[H|[]]|[H|[]]]]]; injection H as <- <-.
    - destruct Hx as [Hx|[]]. vm_compute in Hx. discriminate Hx.
    - vm_compute in Hu. apply Ok_inj in Hu. rewrite <- Hu. vm_compute. reflexivity.
    - destruct Hx as [Hx|[]]. vm_compute in Hx. discriminate Hx. }
  split; [intros t days u H Hx Hu; rewrite (K t days u H Hx Hu); vm_compute; split; discriminate|].
  split; [intros t days u H Hx Hu; rewrite (K t days u H Hx Hu); vm_compute; split; discriminate|].
  vm_compute in E. apply Ok_inj in E. subst b2. vm_compute. reflexivity.
Qed.

(** ** C32 *)

(** [y] is the year of some precomputed holiday. *)
Definition data_year (D : definition) (y : Z) : Prop :=
  exists h, In h (adhoc_holidays D) /\ in_year (h / one_day) y.

Lemma fold_min_least : forall ys y,
  least (fun x => In x (y :: ys)) (fold_left Z.min ys y).
Proof.
  induction ys as [|a ys IH]; intros y; simpl.
  - split; [left; reflexivity|]. intros x [->|[]]. lia.
  - destruct (IH (Z.min y a)) as [H1 H2]. split.
    + destruct H1 as [H1|H1]; [|right; right; exact H1].
      rewrite <- H1. destruct (Z.min_spec y a) as [[_ ->]|[_ ->]]; [left|right; left]; reflexivity.
    + intros x [<-|[<-|Hx]].
      * pose proof (H2 _ (or_introl eq_refl)). lia.
      * pose proof (H2 _ (or_introl eq_refl)). lia.
      * apply H2. right. exact Hx.
Qed.

Lemma fold_max_greatest : forall ys y,
  greatest (fun x => In x (y :: ys)) (fold_left Z.max ys y).
Proof.
  induction ys as [|a ys IH]; intros y; simpl.
  - split; [left; reflexivity|]. intros x [->|[]]. lia.
  - destruct (IH (Z.max y a)) as [H1 H2]. split.
    + destruct H1 as [H1|H1]; [|right; right; exact H1].
      rewrite <- H1. destruct (Z.max_spec y a) as [[_ ->]|[_ ->]]; [right; left|left]; reflexivity.
    + intros x [<-|[<-|Hx]].
      * pose proof (H2 _ (or_introl eq_refl)). lia.
      * pose proof (H2 _ (or_introl eq_refl)). lia.
      * apply H2. right. exact Hx.
Qed.

Lemma data_years_In : forall D y,
  In y (map (fun h => year_of (day_of h)) (adhoc_holidays D)) <-> data_year D y.
Proof.
  intros D y. rewrite in_map_iff. unfold data_year, day_of. split; intros [h [H1 H2]]; exists h.
  - split; [exact H2|]. rewrite <- NPD_one_day. apply year_of_ok. exact H1.
  - split; [|exact H1]. rewrite NPD_one_day. apply year_of_ok. exact H2.
Qed.

Lemma year_of_mono : forall a b, a <= b -> year_of a <= year_of b.
Proof.
  intros a b H.
  assert (Ha : in_year a (year_of a)) by (apply year_of_ok; reflexivity).
  assert (Hb : in_year b (year_of b)) by (apply year_of_ok; reflexivity).
  destruct (Z_le_gt_dec (year_of a) (year_of b)) as [L|L]; [exact L|exfalso].
  unfold in_year in *. destruct (Z.eq_dec (year_of b + 1) (year_of a)) as [E|N]; [rewrite E in Hb; lia|].
  pose proof (year_start_mono (year_of b + 1) (year_of a) ltac:(lia)). lia.
Qed.

Lemma year_of_ge : forall y n, year_start y <= n <-> y <= year_of n.
Proof.
  intros y n. assert (Hn : in_year n (year_of n)) by (apply year_of_ok; reflexivity).
  unfold in_year in Hn. split; intros H.
  - destruct (Z_le_gt_dec y (year_of n)) as [L|L]; [exact L|exfalso].
    destruct (Z.eq_dec (year_of n + 1) y) as [E|N]; [rewrite E in Hn; lia|].
    pose proof (year_start_mono (year_of n + 1) y ltac:(lia)). lia.
  - destruct (Z.eq_dec y (year_of n)) as [->|N]; [lia|].
    pose proof (year_start_mono y (year_of n) ltac:(lia)). lia.
Qed.

Lemma pyget_In : forall {A} (l : list A) i x, pyget l i = Ok x -> In x l.
Proof.
  intros A l i x H. unfold pyget in H. destruct (_ <? 0); [discriminate|].
  destruct (nth_error l _) eqn:E; [|discriminate]. apply Ok_inj in H. subst.
  eapply nth_error_In. exact E.
Qed.

Lemma sessions_span : forall D start stop b x, build D start stop = Ok b ->
  In x (sessions (cal b)) -> first_trading_session b <= x <= last_trading_session b /\
  In (first_trading_session b) (sessions (cal b)) /\ In (last_trading_session b) (sessions (cal b)).
Proof.
  intros D start stop b x H Hx. pose proof (build_sessions D start stop b H) as E.
  destruct (build_trace D start stop b H) as [? [? [? [? [? [? T]]]]]].
  destruct T as [_ [_ [_ [_ [_ [_ [_ [_ [_ [_ [_ [_ [_ [F [L _]]]]]]]]]]]]]]].
  assert (Hs : StronglySorted Z.lt (all_days D start stop)) by apply date_range_sorted.
  rewrite E in *. destruct (all_days D start stop) as [|d ds]; [destruct Hx|].
  pose proof (pyget_In _ _ _ F) as HF. pose proof (pyget_In _ _ _ L) as HL.
  split; [|tauto]. split.
  - change (pyget (d :: ds) 0) with (Ok d) in F. apply Ok_inj in F. rewrite <- F.
    destruct Hx as [<-|Hx]; [lia|]. apply SSorted_cons in Hs. destruct Hs as [_ Hs].
    rewrite Forall_forall in Hs. specialize (Hs x Hx). lia.
  - revert Hs Hx L. clear - x. generalize (d :: ds). intros l Hs Hx L.
    destruct l as [|z l0 _] using rev_ind; [destruct Hx|].
    rewrite pyget_last in L. apply Ok_inj in L. rewrite <- L.
    apply in_app_iff in Hx. destruct Hx as [Hx|[<-|[]]]; [|lia].
    apply SSorted_app in Hs. destruct Hs as [_ [_ Hs]].
    specialize (Hs x z Hx (or_introl eq_refl)). lia.
Qed.

(** With data, an explicit range is accepted iff all its sessions lie in the
    years of the data, and then the calendar is the one built without the check;
    otherwise ValueError is raised. *)
Theorem c32_range_check : forall D start stop b lo hi,
  least (data_year D) lo -> greatest (data_year D) hi -> build D start stop = Ok b ->
  ((forall x y, In x (sessions (cal b)) -> in_year (x / one_day) y -> lo <= y <= hi) ->
   build_precomputed D (Some start) (Some stop) = Ok b) /\
  ((exists x y, In x (sessions (cal b)) /\ in_year (x / one_day) y /\ ~ lo <= y <= hi) ->
   build_precomputed D (Some start) (Some stop) = Raise ValueError).
Proof.
  intros D start stop b lo hi [Hl1 Hl2] [Hh1 Hh2] H. unfold build_precomputed.
  destruct (map (fun h => year_of (day_of h)) (adhoc_holidays D)) as [|y ys] eqn:Ey.
  { apply data_years_In in Hl1. rewrite Ey in Hl1. destruct Hl1. }
  assert (K : forall x, In x (y :: ys) <-> data_year D x) by (intros; rewrite <- Ey; apply data_years_In).
  assert (E1 : fold_left Z.min ys y = lo).
  { destruct (fold_min_least ys y) as [A B]. apply K in A. apply Hl2 in A. apply K, B in Hl1. lia. }
  assert (E2 : fold_left Z.max ys y = hi).
  { destruct (fold_max_greatest ys y) as [A B]. apply K in A. apply Hh2 in A. apply K, B in Hh1. lia. }
  rewrite E1, E2, H. cbn [bind].
  set (yf := year_of (day_of (first_trading_session b))).
  set (yl := year_of (day_of (last_trading_session b))).
  assert (Q : forall x, in_year (x / one_day) (year_of (day_of x))).
  { intros x. unfold day_of. rewrite NPD_one_day. apply year_of_ok. reflexivity. }
  split.
  - intros Hall.
    destruct (sessions (cal b)) as [|s0 ss0] eqn:Es.
    { exfalso. pose proof (build_sessions D start stop b H) as Eb. rewrite Es in Eb.
      destruct (build_trace D start stop b H) as [? [? [? [? [? [? T]]]]]].
      destruct T as [_ [_ [_ [_ [_ [_ [_ [_ [_ [_ [_ [_ [_ [F _]]]]]]]]]]]]]].
      rewrite <- Eb in F. discriminate. }
    destruct (sessions_span D start stop b s0 H) as [_ [HF HL]]; [rewrite Es; left; reflexivity|].
    rewrite <- Es in *.
    pose proof (Hall _ _ HF (Q _)). pose proof (Hall _ _ HL (Q _)). fold yf in H0. fold yl in H1.
    destruct (Z.ltb_spec yf lo); [lia|]. destruct (Z.ltb_spec hi yl); [lia|reflexivity].
  - intros [x [yx [Hx [Hyx Hn]]]].
    destruct (sessions_span D start stop b x H Hx) as [[S1 S2] _].
    apply year_of_ok in Hyx. subst yx.
    assert (yf <= year_of (x / one_day)).
    { unfold yf, day_of. rewrite NPD_one_day. apply year_of_mono. pose proof one_day_pos.
      apply Z.div_le_mono; lia. }
    assert (year_of (x / one_day) <= yl).
    { unfold yl, day_of. rewrite NPD_one_day. apply year_of_mono. pose proof one_day_pos.
      apply Z.div_le_mono; lia. }
    destruct (Z.ltb_spec yf lo); [reflexivity|]. destruct (Z.ltb_spec hi yl); [reflexivity|lia].
Qed.

(** The default range is the whole of these years. *)
Theorem c32_default_range : forall D lo hi,
  least (data_year D) lo -> greatest (data_year D) hi ->
  build_precomputed D None None =
  build D (year_start lo * one_day) ((year_start (hi + 1) - 1) * one_day).
Proof.
  intros D lo hi Hl Hh.
  set (start := year_start lo * one_day). set (stop := (year_start (hi + 1) - 1) * one_day).
  assert (M1 : is_midnight start) by (exists (year_start lo); reflexivity).
  assert (E : build_precomputed D None None = build_precomputed D (Some start) (Some stop)).
  { unfold build_precomputed.
    destruct (map (fun h => year_of (day_of h)) (adhoc_holidays D)) as [|y ys] eqn:Ey; [reflexivity|].
    assert (K : forall x, In x (y :: ys) <-> data_year D x) by (intros; rewrite <- Ey; apply data_years_In).
    destruct Hl as [Hl1 Hl2], Hh as [Hh1 Hh2].
    assert (E1 : fold_left Z.min ys y = lo).
    { destruct (fold_min_least ys y) as [A B]. apply K in A. apply Hl2 in A. apply K, B in Hl1. lia. }
    assert (E2 : fold_left Z.max ys y = hi).
    { destruct (fold_max_greatest ys y) as [A B]. apply K in A. apply Hh2 in A. apply K, B in Hh1. lia. }
    rewrite E1, E2. unfold midnight. rewrite !days_from_civil_ok, NPD_one_day by lia.
    assert (F1 : date_number lo 1 1 = year_start lo) by (unfold date_number; cbn; lia).
    assert (F2 : date_number hi 12 31 = year_start (hi + 1) - 1).
    { rewrite year_start_next. unfold date_number, days_before_month, month_lengths.
      change (Z.to_nat (12 - 1)) with 11%nat. destruct (leap hi); cbn [firstn fold_right]; lia. }
    rewrite F1, F2. reflexivity. }
  rewrite E. destruct (build D start stop) as [b|e] eqn:Eb.
  - apply (proj1 (c32_range_check D start stop b lo hi Hl Hh Eb)).
    intros x y Hx Hy. apply (proj1 (c23_sessions D start stop b M1 Eb)) in Hx.
    destruct Hx as [_ [[H1 H2] _]]. apply year_of_ok in Hy. subst y. unfold start, stop in *.
    pose proof one_day_pos as P. split.
    + apply year_of_ge. apply Z.div_le_lower_bound; lia.
    + assert (x / one_day < year_start (hi + 1)).
      { assert (x / one_day <= year_start (hi + 1) - 1); [|lia].
        rewrite <- (Z.div_mul (year_start (hi + 1) - 1) one_day) by lia.
        apply Z.div_le_mono; lia. }
      destruct (Z_le_gt_dec (year_of (x / one_day)) hi) as [L|L]; [exact L|exfalso].
      assert (hi + 1 <= year_of (x / one_day)) as L' by lia. apply year_of_ge in L'. lia.
  - unfold build_precomputed. destruct Hl as [Hl _]. apply data_years_In in Hl.
    destruct (map (fun h => year_of (day_of h)) (adhoc_holidays D)) as [|y ys]; [destruct Hl|].
    rewrite Eb. reflexivity.
Qed.

Theorem c32_no_data : forall D start stop, adhoc_holidays D = [] ->
  build_precomputed D start stop = Raise ValueError.
Proof. intros D start stop H. unfold build_precomputed. rewrite H. reflexivity. Qed.

(** Precomputed holidays are never sessions. *)
Theorem c32_holidays_closed : forall D start stop b h x, is_midnight start ->
  build_precomputed D (Some start) (Some stop) = Ok b ->
  In h (adhoc_holidays D) -> x / one_day = h / one_day -> is_session (cal b) x = false.
Proof.
  intros D start stop b h x M1 H Hh Hx.
  assert (Hb : build D start stop = Ok b).
  { unfold build_precomputed in H.
    destruct (map (fun h => year_of (day_of h)) (adhoc_holidays D)) as [|y ys]; [discriminate|].
    destruct (build D start stop) as [b'|]; [|discriminate]. cbn [bind] in H.
    destruct (_ <? _); [discriminate|]. destruct (_ <? _); [discriminate|]. exact H. }
  apply not_true_iff_false. intros Hs.
  apply (proj2 (c23_sessions D start stop b M1 Hb)) in Hs. destruct Hs as [_ [_ [_ Hs]]].
  apply (Hs h (or_intror Hh)). congruence.
Qed.

Definition ex_precomputed : definition :=
  Definition_ UTC [true; true; true; true; true; false; false] []
    [ex_date 5; ex_date 400] [(None, Time 9 0 0)] None None [(None, Time 9 1 0)] 0 0 [] [] [] [].
Example c32_witness : least (data_year ex_precomputed) 2020 /\ greatest (data_year ex_precomputed) 2021 /\
  (exists b, build_precomputed ex_precomputed (Some (ex_date 2)) (Some (ex_date 16)) = Ok b) /\
  build_precomputed ex_precomputed (Some (ex_date (-80))) (Some (ex_date 16)) = Raise ValueError.
Proof.
  assert (K : forall y, data_year ex_precomputed y <-> y = 2020 \/ y = 2021).
  { intros y. rewrite <- data_years_In. vm_compute map. simpl. intuition congruence. }
  split; [|split; [|split]].
  - split; [apply K; tauto|]. intros y Hy. apply K in Hy. lia.
  - split; [apply K; tauto|]. intros y Hy. apply K in Hy. lia.
  - eexists. vm_compute. reflexivity.
  - vm_compute. reflexivity.
Qed.

(** ** C34 *)

Lemma pyget_cons : forall {A} (a : A) l i, 1 <= i -> pyget (a :: l) i = pyget l (i - 1).
Proof.
  intros A a l i H. unfold pyget. destruct (Z.ltb_spec i 0); [lia|].
  destruct (Z.ltb_spec (i - 1) 0); [lia|]. destruct (Z.ltb_spec i 0); [lia|].
  destruct (Z.ltb_spec (i - 1) 0); [lia|].
  replace (Z.to_nat i) with (S (Z.to_nat (i - 1))) by lia. reflexivity.
Qed.

Theorem c34_paired : forall D start stop b x, build D start stop = Ok b ->
  In x (sessions (cal b)) -> ordered_tables D ->
  (session_break_start (cal b) x = Ok None <-> session_break_end (cal b) x = Ok None).
Proof.
  intros D start stop b x H Hx Ho. pose proof (build_columns D start stop b Ho H) as C.
  pose proof (cm_match _ _ _ _ C) as Hm.
  assert (L1 := Forall2_zlen _ _ _ (cm_bs _ _ _ _ C)).
  assert (L2 := Forall2_zlen _ _ _ (cm_be _ _ _ _ C)). rewrite <- (cm_sessions _ _ _ _ C) in L1, L2.
  destruct (get_loc_In _ _ Hx) as [i [Ei [Hi _]]].
  unfold session_break_start, session_break_end, schedule_at. rewrite Ei. cbn [bind].
  assert (P : forall bs be, nats_match bs be = true -> zlen bs = zlen be -> 0 <= i < zlen bs ->
    exists u v, pyget bs i = Ok u /\ pyget be i = Ok v /\ (NP_NAT =? u) = (NP_NAT =? v)).
  { clear. intros bs be. revert be i. induction bs as [|u bs IH]; intros [|v be] i Hm Hl Hi;
      unfold zlen in *; cbn [length] in *; try lia.
    simpl in Hm. apply andb_true_iff in Hm. destruct Hm as [Hm1 Hm2]. apply Bool.eqb_prop in Hm1.
    destruct (Z.eq_dec i 0) as [->|Hn]; [exists u, v; tauto|].
    destruct (IH be (i - 1) Hm2 ltac:(lia) ltac:(lia)) as [u' [v' [E1 [E2 E3]]]].
    exists u', v'. rewrite !pyget_cons by lia. tauto. }
  destruct (P _ _ Hm ltac:(lia) ltac:(lia)) as [u [v [E1 [E2 E3]]]]. rewrite E1, E2. cbn [bind].
  unfold Queries.cell. rewrite (Z.eqb_sym u), (Z.eqb_sym v), E3.
  destruct (NP_NAT =? v); split; intros Q; try reflexivity; discriminate.
Qed.

(** Break tables on one side only are refused, unless every session is a special
    close. *)
Theorem c34_one_sided : forall D start stop x, is_midnight start ->
  ordered_tables D -> good_zone (tz D) -> representable D start -> resolvable D start stop ->
  (forall x, session_day D start stop x ->
     (exists t, in_force (open_times D) x t) /\ (exists t, in_force (close_times D) x t) /\
     (forall ts, break_start_times D = Some ts \/ break_end_times D = Some ts ->
        exists t, in_force ts x t)) ->
  (forall x u, special_open D start stop x u \/ special_close D start stop x u ->
     session_day D start stop x) ->
  session_day D start stop x -> (forall u, ~ special_close D start stop x u) ->
  (break_start_times D = None <-> break_end_times D <> None) ->
  build D start stop = Raise ValueError.
Proof.
  intros D start stop x0 M1 Ho Hz Hr [R1 [R2 [R3 [R4 R5]]]] Hcov Hsp Hx0 Hn Hone.
  unfold build. fold (all_days D start stop). set (days := all_days D start stop).
  assert (Hdays : forall x, In x days <-> session_day D start stop x)
    by (intros x; apply date_range_session_day; assumption).
  assert (Hsort : StronglySorted Z.lt days) by apply date_range_sorted.
  assert (ND : NoDup days) by apply all_days_NoDup.
  assert (Hne : days <> []) by (intros E; apply Hdays in Hx0; rewrite E in Hx0; destruct Hx0).
  pose proof Ho as [W1 [W2 [W3 W4]]].
  destruct (group_times_total days (open_times D) (tz D) (open_offset D) W1 Hsort Hne) as [os [E1 L1]].
  { intros x Hx. apply Hdays in Hx. exact (proj1 (Hcov x Hx)). }
  { intros x t Hx. apply Hdays in Hx. apply (R1 x t Hx). }
  destruct (group_times_total days (close_times D) (tz D) (close_offset D) W2 Hsort Hne) as [cs [E4 L4]].
  { intros x Hx. apply Hdays in Hx. exact (proj1 (proj2 (Hcov x Hx))). }
  { intros x t Hx. apply Hdays in Hx. apply (R2 x t Hx). }
  destruct (group_times_opt_total days (break_start_times D) (tz D) W3 Hsort Hne) as [bss [E2 L2]].
  { intros t Et x Hx. apply Hdays in Hx. destruct (Hcov x Hx) as [_ [_ Hb]]. apply (Hb t). tauto. }
  { intros t Et x t' Hx. apply Hdays in Hx. apply (R3 t x t'); [tauto|exact Hx]. }
  destruct (group_times_opt_total days (break_end_times D) (tz D) W4 Hsort Hne) as [bes [E3 L3]].
  { intros t Et x Hx. apply Hdays in Hx. destruct (Hcov x Hx) as [_ [_ Hb]]. apply (Hb t). tauto. }
  { intros t Et x t' Hx. apply Hdays in Hx. apply (R3 t x t'); [tauto|exact Hx]. }
  destruct (special_dates_total (tz D) _ _ start stop R4) as [sos E5].
  destruct (special_dates_total (tz D) _ _ start stop R5) as [scs E6].
  assert (I5 : forall p, In p sos -> In (fst p) days).
  { intros [x u] Hp. apply Hdays. apply (Hsp x u). left.
    apply (special_dates_In _ _ _ _ _ _ E5). exact Hp. }
  assert (I6 : forall p, In p scs -> In (fst p) days).
  { intros [x u] Hp. apply Hdays. apply (Hsp x u). right.
    apply (special_dates_In _ _ _ _ _ _ E6). exact Hp. }
  destruct (overwrite_total days os sos (map snd sos) L1 I5) as [os' E7].
  destruct (overwrite_total days cs scs (map snd scs) L4 I6) as [cs' E8].
  destruct (remove_breaks_total days bss scs) as [bss' [cbs [E9 E10]]];
    [destruct bss; [exact L2|exact I]|exact I6|].
  destruct (remove_breaks_total days bes scs) as [bes' [cbe [E11 E12]]];
    [destruct bes; [exact L3|exact I]|exact I6|].
  assert (L7 : zlen os' = zlen days) by (rewrite (overwrite_len _ _ _ _ _ E7); exact L1).
  assert (L8 : zlen cs' = zlen days) by (rewrite (overwrite_len _ _ _ _ _ E8); exact L4).
  assert (C1 : column days (Some os') = Ok os') by (simpl; rewrite L7, Z.eqb_refl; reflexivity).
  assert (C2 : column days (Some cs') = Ok cs') by (simpl; rewrite L8, Z.eqb_refl; reflexivity).
  assert (A3 := break_column D start stop scs _ bss cbs W3 E6 E2).
  fold days in A3. rewrite E9 in A3. specialize (A3 E10).
  assert (A4 := break_column D start stop scs _ bes cbe W4 E6 E3).
  fold days in A4. rewrite E11 in A4. specialize (A4 E12).
  assert (Hm : nats_match cbs cbe = false).
  { apply Hdays in Hx0. revert Hx0. clear - A3 A4 Hn Hone Hz Hr Hdays.
    assert (Hge : forall x, In x days -> start <= x) by (intros x Hx; apply Hdays in Hx; apply Hx).
    clear Hdays. revert cbe A4.
    induction A3 as [|x v xs bs [r1 [Hr1 ->]] A3 IH]; intros be A4 Hin; [destruct Hin|].
    inversion A4 as [|? v2 ? be' [r2 [Hr2 ->]] A4']; subst. simpl.
    destruct Hin as [->|Hin]; [|rewrite IH; [apply andb_false_r| |exact A4'|exact Hin];
                                intros; apply Hge; right; assumption].
    specialize (Hge x0 (or_introl eq_refl)).
    assert (B : forall ts r, break_start_times D = ts \/ break_end_times D = ts ->
      expected_break D start stop ts x0 r -> (NP_NAT =? BuildLemmas2.cell r) = true <-> ts = None).
    { intros ts [u|] Hts He; rewrite NAT_nat; cbn [BuildLemmas2.cell].
      - pose proof (break_not_nat D start stop ts x0 u Hz Hr Hge Hts He).
        destruct He as [_ [ts' [-> _]]]. split; [intros Q; apply Z.eqb_eq in Q; lia|discriminate].
      - rewrite Z.eqb_refl. split; [intros _|reflexivity].
        destruct He as [He|[u Hu]]; [exact He|exfalso; apply (Hn u Hu)]. }
    apply andb_false_iff. left.
    pose proof (B _ _ (or_introl eq_refl) Hr1) as B1. pose proof (B _ _ (or_intror eq_refl) Hr2) as B2.
    destruct (NP_NAT =? BuildLemmas2.cell r1), (NP_NAT =? BuildLemmas2.cell r2); try reflexivity; exfalso.
    - apply Hone; [apply B1; reflexivity|apply B2; reflexivity].
    - assert (Q : break_end_times D <> None) by (intros Q; apply B2 in Q; discriminate).
      apply Hone in Q. apply B1 in Q. discriminate. }
  rewrite E1, E2, E3, E4, E5, E6. cbn [bind]. unfold overwrite_special_dates. rewrite E7, E8. cbn [bind].
  rewrite E9, E11. cbn [bind]. rewrite C1, E10, E12, C2. cbn [bind]. unfold make_calendar.
  rewrite Hm. reflexivity.
Qed.

Definition ex_one_sided : definition :=
  Definition_ ex_zone (weekmask ex_D) [] [] (open_times ex_D) (break_start_times ex_D) None
    (close_times ex_D) 0 0 [] [] [] [].
Example c34_witness :
  session_break_start (cal ex_built) (ex_date 11) = Ok (Some (ex_date 11 + ex_hours 16)) /\
  session_break_end (cal ex_built) (ex_date 11) = Ok (Some (ex_date 11 + ex_hours 17)) /\
  build ex_one_sided ex_start ex_stop = Raise ValueError.
Proof. vm_compute. repeat split; reflexivity. Qed.

(** ** C33 *)

Definition utc_shape : shape :=
  Shape 0 0 (minute_of_day 1 0) (minute_of_day 1 0) (minute_of_day 2 0) (minute_of_day 2 0)
    (minute_of_day 23 59) (minute_of_day 23 59) (minute_of_day 23 59).
Definition utc_lo : Z := NP_NAT + 4 * NANOS_PER_DAY.

Example c33_sound : sound_definition always_open utc_shape utc_lo = true /\
  sound_definition weekday_calendar utc_shape utc_lo = true.
Proof. vm_compute. split; reflexivity. Qed.

(** Both calendars: every day of the range allowed by the week mask is a session
    from 00:00 to 23:59, without break. *)
Lemma utc_rows : forall D start stop s, (tz D = UTC /\ open_times D = [(None, Time 0 0 0)] /\
  close_times D = [(None, Time 23 59 0)] /\ open_offset D = 0 /\ close_offset D = 0 /\
  break_start_times D = None /\ special_opens D = [] /\ special_opens_adhoc D = [] /\
  special_closes D = [] /\ special_closes_adhoc D = []) ->
  expected_row D start stop s ->
  s = Session (s_label s) (s_label s) None (s_label s + 1439 * one_minute).
Proof.
  intros D start stop s [E1 [E2 [E3 [E4 [E5 [E6 [E7 [E8 [E9 E10]]]]]]]]] [_ [Ho [Hc [Hb _]]]].
  destruct s as [x o br c]. cbn [s_label s_open s_close s_break] in *.
  assert (N : forall u, ~ special_open D start stop x u /\ ~ special_close D start stop x u).
  { intros u. split; intros [t [[[ds [H _]]|[ds [H _]]] _]].
    - rewrite E7 in H. destruct H.
    - rewrite E8 in H. destruct H.
    - rewrite E9 in H. destruct H.
    - rewrite E10 in H. destruct H. }
  assert (U : forall l u, instant_of (tz D) l u -> u = l).
  { intros l u H. rewrite E1 in H. eapply instant_of_unique; [exact H|apply UTC_instant]. }
  assert (o = x).
  { destruct Ho as [Ho|[_ [t [[s' [Ht _]] Ho]]]]; [exfalso; apply (proj1 (N o) Ho)|].
    rewrite E2 in Ht. destruct Ht as [Ht|[]]. injection Ht as <- <-.
    apply U in Ho. rewrite E4 in Ho. unfold local_time in Ho. cbn [hour minute second] in Ho. lia. }
  assert (c = x + 1439 * one_minute).
  { destruct Hc as [Hc|[_ [t [[s' [Ht _]] Hc]]]]; [exfalso; apply (proj2 (N c) Hc)|].
    rewrite E3 in Ht. destruct Ht as [Ht|[]]. injection Ht as <- <-.
    apply U in Hc. rewrite E5 in Hc. unfold local_time in Hc. cbn [hour minute second] in Hc.
    Transparent one_minute. unfold one_minute in *. Opaque one_minute. lia. }
  assert (br = None).
  { destruct br as [[bs be]|]; [exfalso|reflexivity]. destruct Hb as [_ [ts [Q _]]]. congruence. }
  subst. reflexivity.
Qed.

Lemma one_day_minutes : one_day = 1440 * one_minute.
Proof. reflexivity. Qed.

Lemma always_trading : forall x, trading_day always_open x.
Proof.
  intros x. split; [|intros h [[]|[]]].
  assert (H : 0 <= (x / one_day + 3) mod 7 < 7) by (apply Z.mod_pos_bound; lia).
  remember ((x / one_day + 3) mod 7) as w.
  assert (C : w = 0 \/ w = 1 \/ w = 2 \/ w = 3 \/ w = 4 \/ w = 5 \/ w = 6) by lia.
  destruct C as [->|[->|[->|[->|[->|[->| ->]]]]]]; reflexivity.
Qed.

Lemma weekday_trading : forall x,
  trading_day weekday_calendar x <-> (x / one_day + 3) mod 7 < 5.
Proof.
  intros x. unfold trading_day.
  assert (H : 0 <= (x / one_day + 3) mod 7 < 7) by (apply Z.mod_pos_bound; lia).
  remember ((x / one_day + 3) mod 7) as w.
  assert (C : w = 0 \/ w = 1 \/ w = 2 \/ w = 3 \/ w = 4 \/ w = 5 \/ w = 6) by lia. clear H Heqw.
  split.
  - intros [Hm _]. destruct C as [->|[->|[->|[->|[->|[->| ->]]]]]]; try lia; discriminate.
  - intros Hw. split; [|intros h [[]|[]]].
    destruct C as [->|[->|[->|[->|[->|[->| ->]]]]]]; try lia; reflexivity.
Qed.

Definition whole_minute (t : Z) : Prop := (one_minute | t).

Lemma whole_minute_day : forall t, whole_minute t ->
  let x := t / one_day * one_day in
  is_midnight x /\ x <= t <= x + 1439 * one_minute.
Proof.
  intros t [k Hk] x. split; [exists (t / one_day); reflexivity|].
  pose proof one_minute_pos as P. unfold x. rewrite one_day_minutes. subst t.
  pose proof (Z.div_mod (k * one_minute) (1440 * one_minute) ltac:(lia)) as E.
  rewrite Z.div_mul_cancel_r by lia. pose proof (Z.div_mod k 1440 ltac:(lia)).
  pose proof (Z.mod_pos_bound k 1440 ltac:(lia)). nia.
Qed.

Theorem c33_always_open : forall start last stop,
  is_midnight start -> is_midnight last -> last <= stop < last + one_day ->
  not_a_time + 4 * one_day <= start -> start <= last ->
  exists b, build always_open start stop = Ok b /\
    (forall x, is_session (cal b) x = true <-> is_midnight x /\ start <= x <= last) /\
    (forall t, whole_minute t -> start <= t < last + one_day ->
       is_open_on_minute (cal b) t false = Ok true) /\
    (forall t, ~ start <= t < last + one_day -> is_open_on_minute (cal b) t false = Ok false) /\
    (forall t, whole_minute t -> start <= t < last + 1439 * one_minute ->
       next_minute (cal b) t = Ok (t + one_minute)).
Proof.
  intros start last stop M1 M2 Hstop Hlo Hle.
  destruct (c29_sound_definition always_open utc_shape utc_lo start stop (proj1 c33_sound) M1)
    as [b [ss [Hb [Hc [Hwf [Hl He]]]]]].
  { unfold utc_lo. rewrite NPD_one_day, NAT_nat. exact Hlo. }
  { exists start. split; [exact M1|]. split; [lia|apply always_trading]. }
  assert (Hlast : forall x, is_midnight x -> (x <= stop <-> x <= last)).
  { intros x [k ->]. pose proof one_day_pos. destruct M2 as [k2 ->]. split; [|lia]. intros Hx.
    assert (k < k2 + 1) by nia. nia. }
  assert (Hrow : forall s, In s ss ->
    s = Session (s_label s) (s_label s) None (s_label s + 1439 * one_minute)).
  { intros s Hs. apply (utc_rows always_open start stop); [|apply He; exact Hs].
    repeat split; reflexivity. }
  assert (Hlab : forall x, is_midnight x -> start <= x <= last ->
    In (Session x x None (x + 1439 * one_minute)) ss).
  { intros x Mx Hx. assert (L : is_label_of ss x) by (apply Hl; split; [exact Mx|split; [lia|apply always_trading]]).
    destruct L as [s [Hs ->]]. rewrite <- (Hrow s Hs). exact Hs. }
  assert (Hrange : forall s, In s ss -> is_midnight (s_label s) /\ start <= s_label s <= last).
  { intros s Hs. assert (L : is_label_of ss (s_label s)) by (exists s; tauto). apply Hl in L.
    destruct L as [A [B _]]. split; [exact A|]. split; [lia|]. apply (Hlast _ A). lia. }
  assert (Hday : forall t, whole_minute t -> start <= t < last + one_day ->
    exists x, is_midnight x /\ start <= x <= last /\ x <= t <= x + 1439 * one_minute).
  { intros t Ht Hr. destruct (whole_minute_day t Ht) as [A B]. exists (t / one_day * one_day).
    split; [exact A|]. split; [|exact B]. pose proof one_day_pos as P.
    pose proof one_minute_pos as Q. pose proof one_day_minutes as R.
    destruct M1 as [k1 ->], M2 as [k2 ->]. set (k := t / one_day) in *.
    assert (k1 < k + 1) by nia. assert (k < k2 + 1) by nia. split; nia. }
  exists b. split; [exact Hb|]. split; [|split; [|split]].
  - intros x. rewrite (proj2 (c23_sessions always_open start stop b M1 Hb) x).
    split; [intros [A [B _]]; split; [exact A|]; rewrite <- (Hlast x A); exact B|].
    intros [A B]. split; [exact A|]. split; [rewrite (Hlast x A); exact B|apply always_trading].
  - intros t Ht Hr. destruct (c02_is_open_on_minute ss (cal b) t false Hwf Hc) as [v [-> Hv]].
    f_equal. apply Hv. destruct (Hday t Ht Hr) as [x [Mx [Rx Dx]]].
    exists (Session x x None (x + 1439 * one_minute)). split; [apply Hlab; assumption|].
    split; [exact Dx|]. right. right. intros [].
  - intros t Hr. destruct (c02_is_open_on_minute ss (cal b) t false Hwf Hc) as [v [-> Hv]].
    f_equal. apply not_true_iff_false. rewrite Hv. intros [s [Hs [Ds _]]].
    apply Hr. destruct (Hrange s Hs) as [_ Rs]. rewrite (Hrow s Hs) in Ds. unfold during in Ds.
    cbn [s_open s_close] in Ds. rewrite one_day_minutes. pose proof one_minute_pos. lia.
  - intros t Ht Hr. pose proof (c06_next_minute ss (cal b) t Hwf Hc) as Hn.
    pose proof one_minute_pos as P. pose proof one_day_minutes as R.
    assert (Ht' : whole_minute (t + one_minute)) by (destruct Ht as [k ->]; exists (k + 1); lia).
    assert (Hmin : trading_minute ss (t + one_minute)).
    { destruct (Hday (t + one_minute) Ht' ltac:(lia)) as [x [Mx [Rx Dx]]].
      exists (Session x x None (x + 1439 * one_minute)). split; [apply Hlab; assumption|].
      split; [exact Dx|]. cbn [s_open]. destruct Mx as [a ->]. destruct Ht' as [c Hc'].
      exists (c - a * 1440). lia. }
    destruct (next_minute (cal b) t) as [m|e].
    + f_equal. destruct Hn as [[[s [Hs Hm]] Hgt] Hleast].
      assert (G : t < t + one_minute) by lia. pose proof (Hleast (t + one_minute) (conj Hmin G)) as L.
      rewrite (Hrow s Hs) in Hm. destruct Hm as [_ Hm]. cbn [s_open] in Hm.
      destruct (Hrange s Hs) as [[a Ea] _]. rewrite Ea, R in Hm. destruct Hm as [c Hm], Ht as [k ->].
      assert (m = (c + a * 1440) * one_minute) by lia. subst m.
      assert (k < c + a * 1440) by nia. assert (c + a * 1440 < k + 2) by nia. nia.
    + exfalso. destruct Hn as [_ Hn]. specialize (Hn _ Hmin). lia.
Qed.

(** Monday is 0, so 5 and 6 are Saturday and Sunday. *)
Theorem c33_weekday_calendar : forall start last stop,
  is_midnight start -> is_midnight last -> last <= stop < last + one_day ->
  not_a_time + 4 * one_day <= start ->
  (exists x, is_midnight x /\ start <= x <= last /\ (x / one_day + 3) mod 7 < 5) ->
  exists b, build weekday_calendar start stop = Ok b /\
    (forall x, is_session (cal b) x = true <->
       is_midnight x /\ start <= x <= last /\ (x / one_day + 3) mod 7 < 5) /\
    (forall t, whole_minute t -> start <= t < last + one_day ->
       is_open_on_minute (cal b) t false = Ok (if (t / one_day + 3) mod 7 <? 5 then true else false)) /\
    (forall t, (t / one_day + 3) mod 7 = 5 \/ (t / one_day + 3) mod 7 = 6 ->
       is_open_on_minute (cal b) t false = Ok false).
Proof.
  intros start last stop M1 M2 Hstop Hlo [x0 [X1 [X2 X3]]].
  destruct (c29_sound_definition weekday_calendar utc_shape utc_lo start stop (proj2 c33_sound) M1)
    as [b [ss [Hb [Hc [Hwf [Hl He]]]]]].
  { unfold utc_lo. rewrite NPD_one_day, NAT_nat. exact Hlo. }
  { exists x0. split; [exact X1|]. split; [lia|apply weekday_trading; exact X3]. }
  assert (Hlast : forall x, is_midnight x -> (x <= stop <-> x <= last)).
  { intros x [k ->]. pose proof one_day_pos. destruct M2 as [k2 ->]. split; [|lia]. intros Hx.
    assert (k < k2 + 1) by nia. nia. }
  assert (Hrow : forall s, In s ss ->
    s = Session (s_label s) (s_label s) None (s_label s + 1439 * one_minute)).
  { intros s Hs. apply (utc_rows weekday_calendar start stop); [|apply He; exact Hs].
    repeat split; reflexivity. }
  pose proof one_minute_pos as P. pose proof one_day_minutes as R. pose proof one_day_pos as Q.
  assert (Closed : forall t, 5 <= (t / one_day + 3) mod 7 -> is_open_on_minute (cal b) t false = Ok false).
  { intros t Hw. destruct (c02_is_open_on_minute ss (cal b) t false Hwf Hc) as [v [-> Hv]].
    f_equal. apply not_true_iff_false. rewrite Hv. intros [s [Hs [Ds _]]].
    assert (L : is_label_of ss (s_label s)) by (exists s; tauto). apply Hl in L.
    destruct L as [[k Ek] [_ L]]. apply weekday_trading in L. rewrite (Hrow s Hs) in Ds.
    unfold during in Ds. cbn [s_open s_close] in Ds. rewrite Ek in *.
    assert (t / one_day = k).
    { symmetry. apply (Z.div_unique t one_day k (t - k * one_day)); lia. }
    rewrite Z.div_mul in L by lia. subst k. lia. }
  exists b. split; [exact Hb|]. split; [|split].
  - intros x. rewrite (proj2 (c23_sessions weekday_calendar start stop b M1 Hb) x).
    unfold session_day. rewrite weekday_trading. split; intros [A B]; split; try exact A.
    + rewrite <- (Hlast x A). exact B.
    + rewrite (Hlast x A). exact B.
  - intros t Ht Hr. destruct (Z.ltb_spec ((t / one_day + 3) mod 7) 5) as [Hw|Hw]; [|apply Closed; exact Hw].
    destruct (c02_is_open_on_minute ss (cal b) t false Hwf Hc) as [v [-> Hv]].
    f_equal. apply Hv. destruct (whole_minute_day t Ht) as [A B].
    assert (L : is_label_of ss (t / one_day * one_day)).
    { apply Hl. split; [exact A|]. split; [|apply weekday_trading; rewrite Z.div_mul by lia; exact Hw].
      destruct M1 as [k1 ->], M2 as [k2 ->]. set (k := t / one_day) in *.
      assert (k1 < k + 1) by nia. assert (k < k2 + 1) by nia. split; nia. }
    destruct L as [s [Hs Es]]. exists s. split; [exact Hs|]. rewrite (Hrow s Hs).
    split; [unfold during; cbn [s_open s_close]; rewrite <- Es; exact B|]. right. right. intros [].
  - intros t Hw. apply Closed. lia.
Qed.

Example c33_witness : is_midnight (ex_date 2) /\ is_midnight (ex_date 3) /\
  not_a_time + 4 * one_day <= ex_date 2 /\ (ex_date 2 / one_day + 3) mod 7 < 5 /\
  exists b, build always_open (ex_date 2) (ex_date 3) = Ok b.
Proof.
  split; [apply midnight_mod; vm_compute; reflexivity|].
  split; [apply midnight_mod; vm_compute; reflexivity|].
  split; [vm_compute; discriminate|]. split; [vm_compute; reflexivity|].
  eexists. vm_compute. reflexivity.
Qed.

(** ** C21, for the futures calendar *)

(** Its execution minutes are the trading minutes from twelve hours and a half
    after the open to one hour before the close. *)
Theorem c21_us_futures : forall ss c s, well_formed ss -> has_schedule c ss -> In s ss ->
  s_break s = None ->
  exists l,
    execution_minutes_for_session us_futures_execution_time_from_open
      us_futures_execution_time_from_close c (s_label s) = Ok l /\
    lists_exactly
      (fun t => (one_minute | t - s_open s) /\
                s_open s + 750 * one_minute <= t <= s_close s - 60 * one_minute) l.
Proof.
  intros ss c s Hwf Hc Hs Hb.
  pose proof (c21_execution_minutes ss c us_futures_execution_time_from_open
    us_futures_execution_time_from_close s Hwf Hc Hs) as H.
  assert (Hone : one_minute = 60 * NANOS_PER_SECOND) by reflexivity.
  assert (Hpos : 0 < one_minute) by reflexivity.
  assert (Ho : forall x, us_futures_execution_time_from_open x = x + 750 * one_minute)
    by (intros x; unfold us_futures_execution_time_from_open; rewrite Hone; lia).
  assert (Hcl : forall x, us_futures_execution_time_from_close x = x - 60 * one_minute)
    by (intros x; unfold us_futures_execution_time_from_close; rewrite Hone; lia).
  assert (Hmin : session_minute s (s_close s)).
  { pose proof Hwf as [W1 [W2 _]]. rewrite Forall_forall in W1, W2. specialize (W1 s Hs). specialize (W2 s Hs).
    unfold ordered_session, whole_minutes, session_minute in *. rewrite Hb in *.
    split; [lia|exact W2]. }
  destruct (execution_minutes_for_session _ _ c (s_label s)) as [l|e].
  - exists l. split; [reflexivity|]. destruct H as [Hl H]. split; [exact Hl|]. intros t.
    rewrite H, Ho, Hcl. split.
    + intros [[s' [Hs' Hm]] B]. assert (s' = s) as ->.
      { apply (wf_during_inj ss s' s t Hwf Hs' Hs).
        - apply session_minute_during; [apply (wf_In ss s' Hwf Hs')|exact Hm].
        - unfold during. lia. }
      unfold session_minute in Hm. rewrite Hb in Hm. tauto.
    + intros [Hd B]. split; [|exact B]. exists s. split; [exact Hs|].
      unfold session_minute. rewrite Hb. split; [lia|exact Hd].
  - exfalso. destruct H as [_ H]. specialize (H (s_close s)). rewrite Hcl in H.
    assert (s_close s < s_close s - 60 * one_minute) by (apply H; exists s; split; assumption).
    lia.
Qed.

(** Monday March 9th, 2020, in the zone of the example: the session opens on
    Sunday at 18:01 (22:01 UTC) and closes on Monday at 18:00 (22:00 UTC). *)
Definition ex_futures : session :=
  Session (ex_date 9) (ex_date 8 + ex_hours 22 + one_minute) None (ex_date 9 + ex_hours 22).
Example c21_us_futures_ex : well_formed [ex_futures] /\
  exists c l, has_schedule c [ex_futures] /\
    execution_minutes_for_session us_futures_execution_time_from_open
      us_futures_execution_time_from_close c (ex_date 9) = Ok l /\
    hd 0 l = ex_date 9 + ex_hours 10 + 31 * one_minute /\
    last l 0 = ex_date 9 + ex_hours 21.
Proof.
  split.
  - split; [|split]; repeat constructor; try (cbn; vm_compute; congruence).
    exists 1439. vm_compute. reflexivity.
  - eexists. eexists. split; [vm_compute; reflexivity|]. split; [vm_compute; reflexivity|].
    split; vm_compute; reflexivity.
Qed.

(** ** Assumptions *)
Print Assumptions c23_sessions.
Print Assumptions c23_sessions_time_of_day.
Print Assumptions c23_time_of_day_refuted.
Print Assumptions c23_first_last.
Print Assumptions c23_no_sessions.
Print Assumptions c24_regular_open.
Print Assumptions c24_regular_close.
Print Assumptions c24_in_force_unique.
Print Assumptions c24_uncovered_day.
Print Assumptions c25_special_open.
Print Assumptions c25_special_close.
Print Assumptions c25_breaks_kept.
Print Assumptions c25_labels_unaffected.
Print Assumptions c26_specials_are_sessions.
Print Assumptions c26_rejected.
Print Assumptions c26_accepted.
Print Assumptions c27_special_close_in_range.
Print Assumptions c27_last_day_refuted.
Print Assumptions c28_early_closes_late_opens.
Print Assumptions c29_well_formed.
Print Assumptions c29_sound_definition.
Print Assumptions c30_days_at_time.
Print Assumptions c30_succeeds.
Print Assumptions c30_increasing.
Print Assumptions c31_same_sessions.
Print Assumptions c31_same_times.
Print Assumptions c32_range_check.
Print Assumptions c32_default_range.
Print Assumptions c32_no_data.
Print Assumptions c32_holidays_closed.
Print Assumptions c34_paired.
Print Assumptions c34_one_sided.
Print Assumptions c33_always_open.
Print Assumptions c33_weekday_calendar.
Print Assumptions c21_us_futures.
