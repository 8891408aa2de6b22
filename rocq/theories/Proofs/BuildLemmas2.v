(** What [build] returns, and when it succeeds. *)
From Coq Require Import ZArith List Bool Lia Sorting.Sorted Sorting.Permutation.
From Verif.Model Require Import Base Helpers Queries Dates Zone Build.
From Verif.Spec Require Import Schedule Construction.
From Verif.Proofs Require Import BaseLemmas ScheduleLemmas QueryLemmas QueryLemmas2 QueryLemmas3
  ZoneLemmas BuildLemmas.
Import ListNotations.
Open Scope Z_scope.

Definition cell (r : option Z) : Z := match r with Some u => u | None => not_a_time end.

Definition all_days (D : definition) (start stop : Z) : list Z :=
  date_range (is_business_day D) start stop.

Lemma all_days_NoDup : forall D start stop, NoDup (all_days D start stop).
Proof. intros. apply SSorted_lt_NoDup. apply date_range_sorted. Qed.


Lemma bind_Ok : forall {A B} (r : result A) (f : A -> result B) y, bind r f = Ok y ->
  exists x, r = Ok x /\ f x = Ok y.
Proof. intros A B [x|e] f y H; [exists x; tauto|discriminate]. Qed.

Ltac step H x E := apply bind_Ok in H; destruct H as [x [E H]].

(** The intermediate values of a successful construction. *)
Definition trace (D : definition) (start stop : Z) (b : built)
  (sos scs : series) (os : list Z) (bss bes : option (list Z)) (cs : list Z) : Prop :=
  let days := all_days D start stop in
  special_dates (tz D) (special_opens D) (special_opens_adhoc D) start stop = Ok sos /\
  special_dates (tz D) (special_closes D) (special_closes_adhoc D) start stop = Ok scs /\
  group_times days (open_times D) (tz D) (open_offset D) = Ok os /\
  group_times_opt days (break_start_times D) (tz D) 0 = Ok bss /\
  group_times_opt days (break_end_times D) (tz D) 0 = Ok bes /\
  group_times days (close_times D) (tz D) (close_offset D) = Ok cs /\
  overwrite_special_dates days os sos = Ok (opens (cal b)) /\
  overwrite_special_dates days cs scs = Ok (closes (cal b)) /\
  (do l <- remove_breaks_for_special_dates days bss scs; column days l) = Ok (break_starts (cal b)) /\
  (do l <- remove_breaks_for_special_dates days bes scs; column days l) = Ok (break_ends (cal b)) /\
  zlen (opens (cal b)) = zlen days /\ zlen (closes (cal b)) = zlen days /\
  make_calendar days (opens (cal b)) (break_starts (cal b)) (break_ends (cal b)) (closes (cal b))
    = Ok (cal b) /\
  pyget days 0 = Ok (first_trading_session b) /\
  pyget days (-1) = Ok (last_trading_session b) /\
  map_to_sessions (cal b) sos = Ok (late_opens b) /\
  map_to_sessions (cal b) scs = Ok (early_closes b).

Lemma make_calendar_fields : forall l os bs be cs c, make_calendar l os bs be cs = Ok c ->
  sessions c = l /\ opens c = os /\ break_starts c = bs /\ break_ends c = be /\ closes c = cs /\
  nats_match bs be = true.
Proof.
  intros l os bs be cs c H. unfold make_calendar in H. destruct (nats_match bs be); [|discriminate].
  destruct (compute_all_minutes os bs be cs); [|discriminate]. cbv [bind] in H.
  apply Ok_inj in H. subst c. tauto.
Qed.

Lemma column_Ok : forall index l l', column index (Some l) = Ok l' -> l' = l /\ zlen l = zlen index.
Proof.
  intros index l l' H. unfold column in H. destruct (Z.eqb_spec (zlen l) (zlen index)); [|discriminate].
  apply Ok_inj in H. split; congruence.
Qed.

Lemma build_trace : forall D start stop b, build D start stop = Ok b ->
  exists sos scs os bss bes cs, trace D start stop b sos scs os bss bes cs.
Proof.
  intros D start stop b H. unfold build in H. fold (all_days D start stop) in H.
  set (days := all_days D start stop) in *.
  step H os E1. step H bss E2. step H bes E3. step H cs E4. step H sos E5. step H scs E6.
  step H os' E7. step H cs' E8. step H bss' E9. step H bes' E10.
  step H vo E11. step H vbs E12. step H vbe E13. step H vc E14.
  step H c E15. step H fst0 E16. step H lst0 E17. step H late E18. step H early E19.
  apply Ok_inj in H. subst b.
  apply column_Ok in E11, E14. destruct E11 as [-> L1], E14 as [-> L2].
  exists sos, scs, os, bss, bes, cs. unfold trace. fold days. cbn [cal first_trading_session
    last_trading_session late_opens early_closes].
  destruct (make_calendar_fields _ _ _ _ _ _ E15) as [F1 [F2 [F3 [F4 [F5 _]]]]].
  rewrite F2, F3, F4, F5. rewrite E9, E10. cbv [bind]. tauto.
Qed.

Lemma group_times_Ok : forall days ts z k l, well_ordered ts -> StronglySorted Z.lt days ->
  group_times days ts z k = Ok l -> zlen l = zlen days ->
  Forall2 (fun x u => exists t, in_force ts x t /\ instant_of z (local_time x k t) u) days l.
Proof.
  intros days ts z k l Hw Hd H Hl. unfold group_times in H.
  destruct (group_elements days ts z k) as [es|] eqn:E; [|discriminate]. cbv [bind] in H.
  destruct (group_elements_Ok ts days z k es Hw Hd E) as [HF Hlen].
  destruct es as [|e es]; [discriminate|]. apply Ok_inj in H. subst l.
  destruct ts as [|[s t] ts]; [discriminate|]. simpl first_start in HF.
  assert (Eq : selection days s None = days).
  { apply filter_zlen_all. apply Forall2_zlen in HF. unfold selection in HF. congruence. }
  rewrite Eq in HF. exact HF.
Qed.

Lemma special_free : forall z regular adhoc start stop s,
  special_dates z regular adhoc start stop = Ok s ->
  forall x, ~ In x (map fst s) -> forall u, ~ special_at z regular adhoc start stop x u.
Proof.
  intros z regular adhoc start stop s H x Hn u Hu. apply Hn. apply in_map_iff. exists (x, u).
  split; [reflexivity|]. apply (special_dates_In _ _ _ _ _ _ H). exact Hu.
Qed.

(** The break columns. *)
Lemma break_column : forall D start stop scs ts arr col,
  (forall t, ts = Some t -> well_ordered t) ->
  special_dates (tz D) (special_closes D) (special_closes_adhoc D) start stop = Ok scs ->
  group_times_opt (all_days D start stop) ts (tz D) 0 = Ok arr ->
  (do l <- remove_breaks_for_special_dates (all_days D start stop) arr scs;
   column (all_days D start stop) l) = Ok col ->
  Forall2 (fun x v => exists r, expected_break D start stop ts x r /\ v = cell r)
    (all_days D start stop) col.
Proof.
  intros D start stop scs ts arr col Hw Hs Hg H. set (days := all_days D start stop) in *.
  unfold group_times_opt in Hg. destruct ts as [t|].
  - destruct (group_times days t (tz D) 0) as [l|] eqn:E; [|discriminate]. apply Ok_inj in Hg.
    subst arr. unfold remove_breaks_for_special_dates in H.
    destruct (overwrite days l scs (map (fun _ => NP_NAT) scs)) as [l'|] eqn:E2; [|discriminate].
    cbv [bind] in H. apply column_Ok in H. destruct H as [-> Hl].
    assert (Hl2 : zlen l = zlen days) by (rewrite <- Hl; symmetry; eapply overwrite_len; eassumption).
    destruct (overwrite_Ok days l scs (fun _ => NP_NAT) l' E2 Hl2) as [_ K].
    specialize (K (all_days_NoDup D start stop) _
      (group_times_Ok days t (tz D) 0 l (Hw t eq_refl) (date_range_sorted _ _ _) E Hl2)).
    revert K. apply Forall2_impl. intros x v _ [[p [H1 [H2 H3]]]|[H1 H2]].
    + exists None. split; [|rewrite H3; apply NAT_nat]. right. exists (snd p).
      apply (special_dates_In _ _ _ _ _ _ Hs). destruct p. simpl in *. subst. exact H1.
    + exists (Some v). split; [|reflexivity]. split; [apply (special_free _ _ _ _ _ _ Hs x H1)|].
      exists t. split; [reflexivity|exact H2].
  - apply Ok_inj in Hg. subst arr. cbv [remove_breaks_for_special_dates bind column] in H.
    apply Ok_inj in H. subst col. clear. induction days as [|x days IH]; simpl; constructor; [|exact IH].
    exists None. split; [left; reflexivity|]. simpl. apply NAT_nat.
Qed.

Record columns (D : definition) (start stop : Z) (c : calendar) : Prop := {
  cm_sessions : sessions c = all_days D start stop;
  cm_opens : Forall2 (expected_open D start stop) (all_days D start stop) (opens c);
  cm_closes : Forall2 (expected_close D start stop) (all_days D start stop) (closes c);
  cm_bs : Forall2 (fun x v => exists r, expected_break D start stop (break_start_times D) x r /\
                                        v = cell r) (all_days D start stop) (break_starts c);
  cm_be : Forall2 (fun x v => exists r, expected_break D start stop (break_end_times D) x r /\
                                        v = cell r) (all_days D start stop) (break_ends c);
  cm_so : forall x u, special_open D start stop x u -> In x (all_days D start stop);
  cm_sc : forall x u, special_close D start stop x u -> In x (all_days D start stop);
  cm_match : nats_match (break_starts c) (break_ends c) = true;
  cm_make : make_calendar (all_days D start stop) (opens c) (break_starts c) (break_ends c)
              (closes c) = Ok c;
  cm_nonempty : all_days D start stop <> []
}.

Lemma time_column : forall D start stop z regular adhoc sp ts k arr col,
  well_ordered ts ->
  special_dates z regular adhoc start stop = Ok sp ->
  group_times (all_days D start stop) ts z k = Ok arr ->
  overwrite_special_dates (all_days D start stop) arr sp = Ok col ->
  zlen col = zlen (all_days D start stop) ->
  Forall2 (fun x u => special_at z regular adhoc start stop x u \/
     (forall u', ~ special_at z regular adhoc start stop x u') /\
     exists t, in_force ts x t /\ instant_of z (local_time x k t) u) (all_days D start stop) col /\
  (forall x u, special_at z regular adhoc start stop x u -> In x (all_days D start stop)).
Proof.
  intros D start stop z regular adhoc sp ts k arr col Hw Hs Hg Ho Hl.
  set (days := all_days D start stop) in *.
  unfold overwrite_special_dates in Ho.
  assert (Hl2 : zlen arr = zlen days) by (rewrite <- Hl; symmetry; eapply overwrite_len; eassumption).
  destruct (overwrite_Ok days arr sp snd col Ho Hl2) as [K1 K2]. split.
  - specialize (K2 (all_days_NoDup D start stop) _
      (group_times_Ok days ts z k arr Hw (date_range_sorted _ _ _) Hg Hl2)).
    revert K2. apply Forall2_impl. intros x v _ [[p [H1 [H2 H3]]]|[H1 H2]].
    + left. apply (special_dates_In _ _ _ _ _ _ Hs). destruct p. simpl in *. subst. exact H1.
    + right. split; [apply (special_free _ _ _ _ _ _ Hs x H1)|exact H2].
  - intros x u Hu. apply (special_dates_In _ _ _ _ _ _ Hs) in Hu. apply (K1 (x, u) Hu).
Qed.

Lemma make_calendar_nonempty : forall l os bs be cs c, make_calendar l os bs be cs = Ok c ->
  zlen os = zlen l -> l <> [].
Proof.
  intros l os bs be cs c H Hl ->. destruct os as [|o os].
  - unfold make_calendar, compute_all_minutes in H. simpl in H.
    destruct (nats_match bs be); discriminate.
  - rewrite zlen_cons in Hl. pose proof (zlen_nonneg os). change (zlen (@nil Z)) with 0 in Hl. lia.
Qed.

Lemma trace_columns : forall D start stop b sos scs os bss bes cs, ordered_tables D ->
  trace D start stop b sos scs os bss bes cs -> columns D start stop (cal b).
Proof.
  intros D start stop b sos scs os bss bes cs [W1 [W2 [W3 W4]]]
    [T1 [T2 [T3 [T4 [T5 [T6 [T7 [T8 [T9 [T10 [L1 [L2 [T11 [T12 [T13 [T14 T15]]]]]]]]]]]]]]]].
  destruct (make_calendar_fields _ _ _ _ _ _ T11) as [F1 [_ [_ [_ [_ F6]]]]].
  destruct (time_column _ _ _ _ _ _ _ _ _ _ _ W1 T1 T3 T7 L1) as [A1 A2].
  destruct (time_column _ _ _ _ _ _ _ _ _ _ _ W2 T2 T6 T8 L2) as [B1 B2].
  constructor; try assumption.
  - exact (break_column D start stop scs _ bss _ W3 T2 T4 T9).
  - exact (break_column D start stop scs _ bes _ W4 T2 T5 T10).
  - apply (make_calendar_nonempty _ _ _ _ _ _ T11 L1).
Qed.

Lemma build_columns : forall D start stop b, ordered_tables D ->
  build D start stop = Ok b -> columns D start stop (cal b).
Proof.
  intros D start stop b Ho H. destruct (build_trace D start stop b H) as [? [? [? [? [? [? T]]]]]].
  eapply trace_columns; eassumption.
Qed.

(** Reading the schedule at a label. *)
Lemma schedule_at_R : forall (R : Z -> Z -> Prop) c column x,
  Forall2 R (sessions c) (column c) -> In x (sessions c) ->
  exists v, schedule_at c column x = Ok v /\ R x v.
Proof. intros R c column x HF Hx. apply (column_at R (sessions c) (column c) x HF Hx). Qed.

(** ** Rows *)

Definition row (x o bs be c : Z) : session :=
  Session x o (if bs =? not_a_time then None else Some (bs, be)) c.

Fixpoint rows (xs os bs be cs : list Z) : list session :=
  match xs, os, bs, be, cs with
  | x :: xs, o :: os, b :: bs, e :: be, c :: cs => row x o b e c :: rows xs os bs be cs
  | _, _, _, _, _ => []
  end.

Lemma rows_cells : forall xs os bs be cs,
  zlen os = zlen xs -> zlen bs = zlen xs -> zlen be = zlen xs -> zlen cs = zlen xs ->
  nats_match bs be = true ->
  let ss := rows xs os bs be cs in
  map s_label ss = xs /\ map s_open ss = os /\ map bs_cell ss = bs /\ map be_cell ss = be /\
  map s_close ss = cs.
Proof.
  induction xs as [|x xs IH]; intros os bs be cs H1 H2 H3 H4 H5;
    destruct os as [|o os], bs as [|b bs], be as [|e be], cs as [|c cs];
    try (exfalso; unfold zlen in *; simpl length in *; lia).
  - simpl. tauto.
  - simpl in H5. apply andb_true_iff in H5. destruct H5 as [H5 H6].
    rewrite !zlen_cons in *.
    destruct (IH os bs be cs ltac:(lia) ltac:(lia) ltac:(lia) ltac:(lia) H6) as [I1 [I2 [I3 [I4 I5]]]].
    simpl. rewrite I1, I2, I3, I4, I5. unfold bs_cell, be_cell, row. cbn [s_break s_open s_close s_label].
    rewrite NAT_nat in H5. rewrite (Z.eqb_sym b not_a_time).
    destruct (Z.eqb_spec not_a_time b) as [Hb|Hb]; destruct (Z.eqb_spec not_a_time e) as [He|He];
      try discriminate; subst; repeat split; reflexivity.
Qed.

Lemma wall_clock_instant : forall z l u, instant_of z l u -> instant_of z (wall_clock z u) u.
Proof. intros z l u [<- H]. split; [reflexivity|exact H]. Qed.

Lemma special_instant : forall z regular adhoc start stop x u,
  special_at z regular adhoc start stop x u -> instant_of z (wall_clock z u) u.
Proof. intros z regular adhoc start stop x u [t [_ [H _]]]. eapply wall_clock_instant. exact H. Qed.

Lemma regular_instant : forall D ts k x u, regular_at D ts k x u ->
  instant_of (tz D) (wall_clock (tz D) u) u.
Proof. intros D ts k x u [t [_ H]]. eapply wall_clock_instant. exact H. Qed.

Lemma expected_open_instant : forall D start stop x u, expected_open D start stop x u ->
  instant_of (tz D) (wall_clock (tz D) u) u.
Proof.
  intros D start stop x u [H|[_ H]]; [eapply special_instant|eapply regular_instant]; exact H.
Qed.

Lemma expected_close_instant : forall D start stop x u, expected_close D start stop x u ->
  instant_of (tz D) (wall_clock (tz D) u) u.
Proof.
  intros D start stop x u [H|[_ H]]; [eapply special_instant|eapply regular_instant]; exact H.
Qed.

Lemma expected_break_instant : forall D start stop ts x u, expected_break D start stop ts x (Some u) ->
  instant_of (tz D) (wall_clock (tz D) u) u.
Proof.
  intros D start stop ts x u [_ [t [_ H]]]. eapply regular_instant. exact H.
Qed.

Lemma valid_time_local : forall x t, valid_time t -> x <= local_time x 0 t < x + one_day.
Proof.
  intros x t [H1 [H2 H3]]. unfold local_time. Transparent one_day one_minute.
  unfold one_day, one_minute. Opaque one_day one_minute. lia.
Qed.

Lemma break_not_nat : forall D start stop ts x u, good_zone (tz D) -> representable D start ->
  start <= x -> break_start_times D = ts \/ break_end_times D = ts ->
  expected_break D start stop ts x (Some u) -> not_a_time < u.
Proof.
  intros D start stop ts x u Hz [Hr Hv] Hx Hts [_ [ts' [-> [t [[s [Hin _]] [Hu _]]]]]].
  assert (V : valid_time t) by (apply (Hv ts' s t Hts Hin)).
  pose proof (valid_time_local x t V). pose proof (good_zone_offset (tz D) u Hz) as [Ho _].
  unfold wall_clock in Hu. lia.
Qed.

(** ** Schedules out of columns *)

Lemma rows_expected : forall D start stop xs os bs be cs,
  good_zone (tz D) -> representable D start ->
  (forall x, In x xs -> session_day D start stop x) ->
  Forall2 (expected_open D start stop) xs os ->
  Forall2 (expected_close D start stop) xs cs ->
  Forall2 (fun x v => exists r, expected_break D start stop (break_start_times D) x r /\ v = cell r) xs bs ->
  Forall2 (fun x v => exists r, expected_break D start stop (break_end_times D) x r /\ v = cell r) xs be ->
  nats_match bs be = true ->
  Forall (expected_row D start stop) (rows xs os bs be cs).
Proof.
  intros D start stop xs os bs be cs Hz Hr. revert os bs be cs.
  induction xs as [|x xs IH]; intros os bs be cs Hd Ho Hc Hb He Hm; simpl; [constructor|].
  inversion Ho as [|? o ? os' Ho1 Ho2]; subst. inversion Hc as [|? c ? cs' Hc1 Hc2]; subst.
  inversion Hb as [|? b ? bs' [r1 [Hr1 E1]] Hb2]; subst.
  inversion He as [|? e ? be' [r2 [Hr2 E2]] He2]; subst.
  simpl in Hm. apply andb_true_iff in Hm. destruct Hm as [Hm1 Hm2].
  assert (Hxd := Hd x (or_introl eq_refl)).
  constructor; [|apply IH; try assumption; intros; apply Hd; right; assumption].
  unfold expected_row, row. cbn [s_label s_open s_close s_break].
  split; [exact Hxd|]. split; [exact Ho1|]. split; [exact Hc1|].
  destruct Hxd as [_ [[Hx _] _]].
  assert (N1 : forall u, r1 = Some u -> not_a_time < u).
  { intros u ->. eapply break_not_nat with (ts := break_start_times D); try eassumption. tauto. }
  assert (N2 : forall u, r2 = Some u -> not_a_time < u).
  { intros u ->. eapply break_not_nat with (ts := break_end_times D); try eassumption. tauto. }
  rewrite NAT_nat in Hm1. destruct r1 as [u1|], r2 as [u2|]; cbn [cell] in *;
    repeat match goal with H : forall u, Some _ = Some u -> _ |- _ => specialize (H _ eq_refl) end.
  - destruct (Z.eqb_spec u1 not_a_time); [lia|]. cbn [option_map fst snd]. tauto.
  - destruct (Z.eqb_spec not_a_time u1); [lia|]. rewrite Z.eqb_refl in Hm1. discriminate.
  - destruct (Z.eqb_spec not_a_time u2); [lia|]. rewrite Z.eqb_refl in Hm1. discriminate.
  - rewrite Z.eqb_refl. cbn [option_map]. tauto.
Qed.

Lemma expected_well_formed : forall D start stop ss, good_zone (tz D) ->
  locally_well_formed D start stop ->
  StronglySorted Z.lt (map s_label ss) -> Forall (expected_row D start stop) ss ->
  well_formed ss.
Proof.
  intros D start stop ss Hz [L1 L2] Hs He. rewrite Forall_forall in He.
  assert (Hsep : separated (initial_offset (tz D)) (transitions (tz D))) by apply Hz.
  assert (Io : forall s, In s ss -> instant_of (tz D) (wall_clock (tz D) (s_open s)) (s_open s)).
  { intros s Hin. destruct (He s Hin) as [_ [H _]]. eapply expected_open_instant. exact H. }
  assert (Ic : forall s, In s ss -> instant_of (tz D) (wall_clock (tz D) (s_close s)) (s_close s)).
  { intros s Hin. destruct (He s Hin) as [_ [_ [H _]]]. eapply expected_close_instant. exact H. }
  assert (Ib : forall s b e, In s ss -> s_break s = Some (b, e) ->
    instant_of (tz D) (wall_clock (tz D) b) b /\ instant_of (tz D) (wall_clock (tz D) e) e).
  { intros s b e Hin E. destruct (He s Hin) as [_ [_ [_ [H1 H2]]]]. rewrite E in H1, H2.
    cbn [option_map fst snd] in *. split; eapply expected_break_instant; eassumption. }
  assert (W : forall a b, (one_minute | wall_clock (tz D) a - wall_clock (tz D) b) ->
              (one_minute | a - b)).
  { intros a b H. unfold wall_clock in H.
    destruct (good_zone_offset (tz D) a Hz) as [_ Ha].
    destruct (good_zone_offset (tz D) b Hz) as [_ Hb].
    replace (a - b) with (a + offset_at (tz D) a - (b + offset_at (tz D) b)
                          - offset_at (tz D) a + offset_at (tz D) b) by lia.
    apply Z.divide_add_r; [|exact Hb]. apply Z.divide_sub_r; [exact H|exact Ha]. }
  split; [|split].
  - apply Forall_forall. intros s Hin. destruct (L1 s (He s Hin)) as [H0 [[_ H1] _]].
    unfold local_view in H0, H1. cbn [s_open s_break s_close] in *. split.
    + destruct (good_zone_offset (tz D) (s_open s) Hz) as [Ho _]. unfold wall_clock in H0. lia.
    + pose proof (Io s Hin) as I1. pose proof (Ic s Hin) as I2. pose proof (Ib s) as I3.
      destruct (s_break s) as [[b e]|]; cbn [option_map fst snd] in H1.
      * destruct (I3 b e Hin eq_refl) as [I4 I5].
        split; [eapply instant_of_mono_le; try eassumption; tauto|].
        split; [eapply instant_of_mono; try eassumption; tauto|].
        eapply instant_of_mono_le; try eassumption; tauto.
      * eapply instant_of_mono_le; eassumption.
  - apply Forall_forall. intros s Hin. destruct (L1 s (He s Hin)) as [_ [_ H]].
    unfold whole_minutes, local_view in *. cbn [s_open s_break s_close] in *.
    destruct (s_break s) as [[b e]|]; cbn [option_map fst snd] in H.
    + split; apply W; tauto.
    + apply W; exact H.
  - apply (SSorted_map s_label Z.lt ss) in Hs.
    apply (SSorted_impl (fun a b => s_label a < s_label b) precedes ss); [|exact Hs].
    intros s1 s2 H1 H2 Hl.
    split; [exact Hl|]. destruct (L2 s1 s2 (He s1 H1) (He s2 H2) Hl) as [_ Hp].
    unfold local_view in Hp. cbn [s_open s_close] in Hp.
    eapply instant_of_mono; [exact Hsep|apply Ic; exact H1|apply Io; exact H2|exact Hp].
Qed.

Lemma columns_rows : forall D start stop c, columns D start stop c ->
  let ss := rows (all_days D start stop) (opens c) (break_starts c) (break_ends c) (closes c) in
  map s_label ss = all_days D start stop /\ map s_open ss = opens c /\
  map bs_cell ss = break_starts c /\ map be_cell ss = break_ends c /\ map s_close ss = closes c.
Proof.
  intros D start stop c [C1 C2 C3 C4 C5 C6 C7 C8 C9 C10]. apply rows_cells; [..|exact C8];
    symmetry; eapply Forall2_zlen; eassumption.
Qed.

Lemma columns_has_schedule : forall D start stop c, columns D start stop c ->
  has_schedule c (rows (all_days D start stop) (opens c) (break_starts c) (break_ends c) (closes c)).
Proof.
  intros D start stop c H. unfold has_schedule.
  change (fun s : session => match s_break s with Some (b, _) => b | None => not_a_time end)
    with bs_cell.
  change (fun s : session => match s_break s with Some (_, e) => e | None => not_a_time end)
    with be_cell.
  destruct (columns_rows D start stop c H) as [-> [-> [-> [-> ->]]]]. apply (cm_make _ _ _ _ H).
Qed.

Lemma build_schedule : forall D start stop b, is_midnight start ->
  ordered_tables D -> good_zone (tz D) -> representable D start ->
  build D start stop = Ok b ->
  exists ss, has_schedule (cal b) ss /\ map s_label ss = all_days D start stop /\
    Forall (expected_row D start stop) ss /\
    (locally_well_formed D start stop -> well_formed ss).
Proof.
  intros D start stop b M1 Ho Hz Hr H. pose proof (build_columns D start stop b Ho H) as C.
  set (ss := rows (all_days D start stop) (opens (cal b)) (break_starts (cal b)) (break_ends (cal b))
               (closes (cal b))). exists ss.
  assert (E : Forall (expected_row D start stop) ss).
  { apply rows_expected; try assumption; try apply C.
    intros x Hx. apply (date_range_session_day D start stop x M1). exact Hx. }
  assert (L : map s_label ss = all_days D start stop) by apply (columns_rows D start stop _ C).
  split; [apply columns_has_schedule; exact C|]. split; [exact L|]. split; [exact E|].
  intros Hl. apply (expected_well_formed D start stop ss Hz Hl); [|exact E].
  rewrite L. apply date_range_sorted.
Qed.

(** ** Special sessions *)

Lemma label_order : forall ss a b, well_formed ss -> In a ss -> In b ss ->
  s_label a < s_label b -> s_close a < s_open b.
Proof.
  intros ss a b Hwf Ha Hb Hl. destruct Hwf as [_ [_ Hs]]. revert Ha Hb.
  induction ss as [|s ss IH]; intros Ha Hb; [destruct Ha|].
  apply SSorted_cons in Hs. destruct Hs as [Hs Hf]. rewrite Forall_forall in Hf.
  destruct Ha as [<-|Ha], Hb as [<-|Hb].
  - lia.
  - apply (Hf b Hb).
  - destruct (Hf a Ha) as [Hl' _]. lia.
  - apply IH; assumption.
Qed.

Lemma map_to_sessions_labels : forall c ss f sp, well_formed ss -> has_schedule c ss ->
  (forall s, In s ss -> s_open s <= f s <= s_close s) ->
  StronglySorted (fun a b : Z * Z => fst a <= fst b) sp ->
  (forall x u, In (x, u) sp -> exists s, In s ss /\ s_label s = x /\ u = f s) ->
  map_to_sessions c sp = Ok (map fst sp).
Proof.
  intros c ss f sp Hwf Hc Hf Hs Hsp.
  assert (Hi : StronglySorted Z.le (map snd sp)).
  { apply (SSorted_map snd Z.le sp).
    apply (SSorted_impl (fun a b : Z * Z => fst a <= fst b)); [|exact Hs].
    intros [x u] [x' u'] H1 H2 Hle. cbn [fst snd] in *.
    destruct (Hsp x u H1) as [s [Hin [E1 ->]]]. destruct (Hsp x' u' H2) as [s' [Hin' [E2 ->]]].
    destruct (Z.eq_dec x x') as [Ex|Ex].
    - rewrite (wf_label_inj ss s s' Hwf Hin Hin') by congruence. lia.
    - pose proof (label_order ss s s' Hwf Hin Hin' ltac:(lia)).
      pose proof (Hf s Hin). pose proof (Hf s' Hin'). lia. }
  unfold map_to_sessions. pose proof (minute_index_spec c ss Hwf Hc (map snd sp)) as M.
  destruct (minute_index_to_session_labels c (map snd sp)) as [labels|e].
  - f_equal. destruct M as [_ M]. clear Hs Hi. revert labels M.
    induction sp as [|[x u] sp IH]; intros labels M; inversion M as [|? ? ? ? [s [Hin [Dur El]]] M']; subst;
      [reflexivity|].
    simpl. f_equal; [|apply IH; [intros; apply Hsp; right; assumption|assumption]].
    destruct (Hsp x u (or_introl eq_refl)) as [s' [Hin' [E1 E2]]].
    cbn [snd] in Dur. assert (Dur' : during s' u).
    { unfold during. rewrite E2. apply Hf. exact Hin'. }
    rewrite (wf_during_inj ss s s' u Hwf Hin Hin' Dur Dur'). exact E1.
  - exfalso. destruct M as [[_ M]|[_ [pre [t [post [E [_ [M _]]]]]]]]; [tauto|].
    assert (Ht : In t (map snd sp)) by (rewrite E; apply in_app_iff; simpl; tauto).
    apply in_map_iff in Ht. destruct Ht as [[x u] [E1 Hin]]. cbn [snd] in E1. subst u.
    destruct (Hsp x t Hin) as [s [Hs1 [_ ->]]]. apply (M s Hs1). unfold during. apply Hf. exact Hs1.
Qed.

Lemma special_open_row : forall D start stop ss x u, consistent_specials D start stop ->
  Forall (expected_row D start stop) ss -> map s_label ss = all_days D start stop ->
  special_open D start stop x u -> In x (all_days D start stop) ->
  exists s, In s ss /\ s_label s = x /\ u = s_open s.
Proof.
  intros D start stop ss x u [Hc _] He Hl Hu Hx. rewrite <- Hl in Hx. apply in_map_iff in Hx.
  destruct Hx as [s [E Hs]]. exists s. split; [exact Hs|]. split; [exact E|].
  rewrite Forall_forall in He. destruct (He s Hs) as [_ [Ho _]]. rewrite E in Ho.
  destruct Ho as [Ho|[Ho _]]; [eapply Hc; eassumption|exfalso; eapply Ho; eassumption].
Qed.

Lemma special_close_row : forall D start stop ss x u, consistent_specials D start stop ->
  Forall (expected_row D start stop) ss -> map s_label ss = all_days D start stop ->
  special_close D start stop x u -> In x (all_days D start stop) ->
  exists s, In s ss /\ s_label s = x /\ u = s_close s.
Proof.
  intros D start stop ss x u [_ Hc] He Hl Hu Hx. rewrite <- Hl in Hx. apply in_map_iff in Hx.
  destruct Hx as [s [E Hs]]. exists s. split; [exact Hs|]. split; [exact E|].
  rewrite Forall_forall in He. destruct (He s Hs) as [_ [_ [Ho _]]]. rewrite E in Ho.
  destruct Ho as [Ho|[Ho _]]; [eapply Hc; eassumption|exfalso; eapply Ho; eassumption].
Qed.

(** ** Success *)

Lemma in_force_first : forall s t rest x t', well_ordered ((s, t) :: rest) ->
  in_force ((s, t) :: rest) x t' -> started s x.
Proof.
  intros s t rest x t' Hw [s' [Hin [Hs _]]]. destruct Hin as [E|Hin]; [injection E as <- <-; exact Hs|].
  apply well_ordered_cons in Hw. destruct Hw as [_ Hf]. rewrite Forall_forall in Hf.
  specialize (Hf _ Hin). cbn [fst] in Hf. apply no_later_total in Hf.
  eapply started_later; eassumption.
Qed.

Lemma group_times_total : forall days ts z k, well_ordered ts -> StronglySorted Z.lt days ->
  days <> [] ->
  (forall x, In x days -> exists t, in_force ts x t) ->
  (forall x t, In x days -> in_force ts x t -> exists u, instant_of z (local_time x k t) u) ->
  exists l, group_times days ts z k = Ok l /\ zlen l = zlen days.
Proof.
  intros days ts z k Hw Hd Hne Hc Hr. unfold group_times.
  destruct (group_elements_total ts days z k Hw Hd Hr) as [es E]. rewrite E. cbv [bind].
  destruct (group_elements_Ok ts days z k es Hw Hd E) as [HF Hlen].
  destruct ts as [|[s t] rest].
  - exfalso. destruct days as [|x days]; [congruence|].
    destruct (Hc x (or_introl eq_refl)) as [t [s [[] _]]].
  - destruct es as [|e es]; [discriminate|]. exists (concat (e :: es)). split; [reflexivity|].
    apply Forall2_zlen in HF. rewrite <- HF. simpl first_start. f_equal.
    unfold selection. apply filter_all_true. intros x Hx. destruct (Hc x Hx) as [t' Ht'].
    apply in_force_first in Ht'; [|exact Hw]. rewrite andb_true_r.
    destruct s; simpl in *; [lia|reflexivity].
Qed.

Lemma group_times_opt_total : forall days ts z, (forall t, ts = Some t -> well_ordered t) ->
  StronglySorted Z.lt days -> days <> [] ->
  (forall t, ts = Some t -> forall x, In x days -> exists t', in_force t x t') ->
  (forall t, ts = Some t -> forall x t', In x days -> in_force t x t' ->
     exists u, instant_of z (local_time x 0 t') u) ->
  exists l, group_times_opt days ts z 0 = Ok l /\
    match l with Some a => zlen a = zlen days | None => ts = None end.
Proof.
  intros days [ts|] z Hw Hd Hne Hc Hr; simpl; [|exists None; tauto].
  destruct (group_times_total days ts z 0 (Hw ts eq_refl) Hd Hne (Hc ts eq_refl) (Hr ts eq_refl))
    as [l [-> Hl]]. exists (Some l). cbv [bind]. tauto.
Qed.

Lemma remove_breaks_total : forall days arr sp,
  match arr with Some a => zlen a = zlen days | None => True end ->
  (forall p, In p sp -> In (fst p) days) ->
  exists l col, remove_breaks_for_special_dates days arr sp = Ok l /\ column days l = Ok col.
Proof.
  intros days [arr|] sp Hl Hin; simpl.
  - destruct (overwrite_total days arr sp (map (fun _ => NP_NAT) sp) Hl Hin) as [l E]. rewrite E.
    cbv [bind]. exists (Some l), l. split; [reflexivity|]. simpl.
    rewrite (overwrite_len _ _ _ _ _ E), Hl, Z.eqb_refl. reflexivity.
  - exists None, (map (fun _ => NP_NAT) days). split; reflexivity.
Qed.

Lemma nats_match_Forall2 : forall xs (R1 R2 : Z -> option Z -> Prop) bs be,
  (forall x r1 r2, In x xs -> R1 x r1 -> R2 x r2 -> (r1 = None <-> r2 = None)) ->
  (forall x u, In x xs -> R1 x (Some u) -> not_a_time < u) ->
  (forall x u, In x xs -> R2 x (Some u) -> not_a_time < u) ->
  Forall2 (fun x v => exists r, R1 x r /\ v = cell r) xs bs ->
  Forall2 (fun x v => exists r, R2 x r /\ v = cell r) xs be ->
  nats_match bs be = true.
Proof.
  intros xs R1 R2 bs be Hp N1 N2 H1. revert be.
  induction H1 as [|x v xs bs [r1 [Hr1 ->]] H1 IH]; intros be H2;
    inversion H2 as [|? v2 ? be' [r2 [Hr2 ->]] H2']; subst; simpl; [reflexivity|].
  apply andb_true_iff. split.
  - specialize (Hp x r1 r2 (or_introl eq_refl) Hr1 Hr2). rewrite NAT_nat.
    destruct r1 as [u1|], r2 as [u2|]; simpl.
    + pose proof (N1 x u1 (or_introl eq_refl) Hr1). pose proof (N2 x u2 (or_introl eq_refl) Hr2).
      destruct (Z.eqb_spec not_a_time u1); [lia|]. destruct (Z.eqb_spec not_a_time u2); [lia|reflexivity].
    + destruct Hp as [_ Hp]. specialize (Hp eq_refl). discriminate.
    + destruct Hp as [Hp _]. specialize (Hp eq_refl). discriminate.
    + rewrite Z.eqb_refl. reflexivity.
  - apply IH; [firstorder..|exact H2'].
Qed.

Lemma build_succeeds : forall D start stop, is_midnight start ->
  ordered_tables D -> good_zone (tz D) -> representable D start ->
  resolvable D start stop -> covered D start stop ->
  (forall x u, special_open D start stop x u \/ special_close D start stop x u ->
     session_day D start stop x) ->
  consistent_specials D start stop -> locally_well_formed D start stop ->
  (exists x, session_day D start stop x) ->
  exists b, build D start stop = Ok b.
Proof.
  intros D start stop M1 Ho Hz Hr [R1 [R2 [R3 [R4 R5]]]] [Hcov Hpair] Hsp Hcons Hloc [x0 Hx0].
  unfold build. fold (all_days D start stop). set (days := all_days D start stop).
  assert (Hdays : forall x, In x days <-> session_day D start stop x)
    by (intros x; apply date_range_session_day; assumption).
  assert (Hsort : StronglySorted Z.lt days) by apply date_range_sorted.
  assert (ND : NoDup days) by apply all_days_NoDup.
  assert (Hne : days <> []) by (intros E; apply Hdays in Hx0; rewrite E in Hx0; destruct Hx0).
  pose proof Ho as [W1 [W2 [W3 W4]]].
  destruct (group_times_total days (open_times D) (tz D) (open_offset D) W1 Hsort Hne) as [os [E1 L1]].
  { intros x Hx. apply Hdays in Hx. exact (proj1 (Hcov x Hx)). }
  { intros x t Hx. apply Hdays in Hx. apply (R1 x t Hx). }
  destruct (group_times_total days (close_times D) (tz D) (close_offset D) W2 Hsort Hne) as [cs [E4 L4]].
  { intros x Hx. apply Hdays in Hx. exact (proj1 (proj2 (Hcov x Hx))). }
  { intros x t Hx. apply Hdays in Hx. apply (R2 x t Hx). }
  destruct (group_times_opt_total days (break_start_times D) (tz D) W3 Hsort Hne) as [bss [E2 L2]].
  { intros t Et x Hx. apply Hdays in Hx. destruct (Hcov x Hx) as [_ [_ Hb]]. apply (Hb t). tauto. }
  { intros t Et x t' Hx. apply Hdays in Hx. apply (R3 t x t'); [tauto|exact Hx]. }
  destruct (group_times_opt_total days (break_end_times D) (tz D) W4 Hsort Hne) as [bes [E3 L3]].
  { intros t Et x Hx. apply Hdays in Hx. destruct (Hcov x Hx) as [_ [_ Hb]]. apply (Hb t). tauto. }
  { intros t Et x t' Hx. apply Hdays in Hx. apply (R3 t x t'); [tauto|exact Hx]. }
  destruct (special_dates_total (tz D) _ _ start stop R4) as [sos E5].
  destruct (special_dates_total (tz D) _ _ start stop R5) as [scs E6].
  assert (I5 : forall p, In p sos -> In (fst p) days).
  { intros [x u] Hp. apply Hdays. apply (Hsp x u). left.
    apply (special_dates_In _ _ _ _ _ _ E5). exact Hp. }
  assert (I6 : forall p, In p scs -> In (fst p) days).
  { intros [x u] Hp. apply Hdays. apply (Hsp x u). right.
    apply (special_dates_In _ _ _ _ _ _ E6). exact Hp. }
  destruct (overwrite_total days os sos (map snd sos) L1 I5) as [os' E7].
  destruct (overwrite_total days cs scs (map snd scs) L4 I6) as [cs' E8].
  destruct (remove_breaks_total days bss scs) as [bss' [cbs [E9 E10]]];
    [destruct bss; [exact L2|exact I]|exact I6|].
  destruct (remove_breaks_total days bes scs) as [bes' [cbe [E11 E12]]];
    [destruct bes; [exact L3|exact I]|exact I6|].
  assert (L7 : zlen os' = zlen days) by (rewrite (overwrite_len _ _ _ _ _ E7); exact L1).
  assert (L8 : zlen cs' = zlen days) by (rewrite (overwrite_len _ _ _ _ _ E8); exact L4).
  assert (C1 : column days (Some os') = Ok os') by (simpl; rewrite L7, Z.eqb_refl; reflexivity).
  assert (C2 : column days (Some cs') = Ok cs') by (simpl; rewrite L8, Z.eqb_refl; reflexivity).
  destruct (time_column D start stop _ _ _ _ _ _ _ _ W1 E5 E1 E7 L7) as [A1 _].
  destruct (time_column D start stop _ _ _ _ _ _ _ _ W2 E6 E4 E8 L8) as [A2 _].
  assert (A3 := break_column D start stop scs _ bss cbs W3 E6 E2).
  fold days in A3. rewrite E9 in A3. specialize (A3 E10).
  assert (A4 := break_column D start stop scs _ bes cbe W4 E6 E3).
  fold days in A4. rewrite E11 in A4. specialize (A4 E12).
  assert (Hm : nats_match cbs cbe = true).
  { refine (nats_match_Forall2 days _ _ cbs cbe _ _ _ A3 A4).
    - intros x r1 r2 _ H1 H2. unfold expected_break in H1, H2.
      destruct r1 as [u1|], r2 as [u2|]; split; intros Er; try discriminate; try reflexivity; exfalso.
      + destruct H1 as [N [ts [Et _]]]. destruct H2 as [H2|[u Hu]]; [|eapply N; exact Hu].
        apply Hpair in H2. congruence.
      + destruct H2 as [N [ts [Et _]]]. destruct H1 as [H1|[u Hu]]; [|eapply N; exact Hu].
        apply Hpair in H1. congruence.
    - intros x u Hx. apply Hdays in Hx. destruct Hx as [_ [[Hx _] _]].
      apply break_not_nat; tauto.
    - intros x u Hx. apply Hdays in Hx. destruct Hx as [_ [[Hx _] _]].
      apply break_not_nat; tauto. }
  set (ss := rows days os' cbs cbe cs').
  destruct (rows_cells days os' cbs cbe cs' L7) as [K1 [K2 [K3 [K4 K5]]]];
    [symmetry; eapply Forall2_zlen; exact A3|symmetry; eapply Forall2_zlen; exact A4|exact L8|exact Hm|].
  fold ss in K1, K2, K3, K4, K5.
  assert (He : Forall (expected_row D start stop) ss).
  { apply rows_expected; try assumption. intros x. apply Hdays. }
  assert (Hwf : well_formed ss).
  { apply (expected_well_formed D start stop ss Hz Hloc); [rewrite K1; exact Hsort|exact He]. }
  destruct (has_schedule_exists ss Hwf) as [c Hc].
  { intros E. rewrite E in K1. simpl in K1. congruence. }
  assert (Hmk : make_calendar days os' cbs cbe cs' = Ok c).
  { unfold has_schedule in Hc.
    change (fun s : session => match s_break s with Some (b, _) => b | None => not_a_time end)
      with bs_cell in Hc.
    change (fun s : session => match s_break s with Some (_, e) => e | None => not_a_time end)
      with be_cell in Hc.
    rewrite K1, K2, K3, K4, K5 in Hc. exact Hc. }
  assert (S1 : map_to_sessions c sos = Ok (map fst sos)).
  { apply (map_to_sessions_labels c ss s_open sos Hwf Hc).
    - intros s Hs. pose proof (ordered_open_close s (ord ss Hwf s Hs)). lia.
    - eapply special_dates_sorted. exact E5.
    - intros x u Hin. apply (special_open_row D start stop); try assumption.
      + apply (special_dates_In _ _ _ _ _ _ E5). exact Hin.
      + apply (I5 (x, u) Hin). }
  assert (S2 : map_to_sessions c scs = Ok (map fst scs)).
  { apply (map_to_sessions_labels c ss s_close scs Hwf Hc).
    - intros s Hs. pose proof (ordered_open_close s (ord ss Hwf s Hs)). lia.
    - eapply special_dates_sorted. exact E6.
    - intros x u Hin. apply (special_close_row D start stop); try assumption.
      + apply (special_dates_In _ _ _ _ _ _ E6). exact Hin.
      + apply (I6 (x, u) Hin). }
  assert (P1 : exists f, pyget days 0 = Ok f).
  { destruct days as [|d days']; [congruence|]. exists d. reflexivity. }
  assert (P2 : exists l, pyget days (-1) = Ok l).
  { destruct (exists_last Hne) as [days' [d Ed]]. rewrite Ed. exists d. apply pyget_last. }
  destruct P1 as [f P1], P2 as [l P2].
  unfold overwrite_special_dates.
  exists (Built c f l (map fst sos) (map fst scs)).
  rewrite E1, E2, E3, E4, E5, E6. cbn [bind]. rewrite E7. cbn [bind]. rewrite E8. cbn [bind].
  rewrite E9, E11. cbn [bind]. rewrite C1. cbn [bind]. rewrite E10, E12. cbn [bind]. rewrite C2.
  cbn [bind]. rewrite Hmk. cbn [bind]. rewrite P1, P2. cbn [bind]. rewrite S1, S2. reflexivity.
Qed.
