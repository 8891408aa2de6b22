(** The minutes and their number are computed without error (C77). *)
From Coq Require Import String ZArith List Bool Permutation Sorting.Sorted Lia.
From Flocq Require Import IEEE754.BinarySingleNaN.
From Verif.Model Require Import Base Helpers Zone Queries Build Exchange Machine Dates Holidays.
From Verif.Spec Require Import Schedule Construction Civil Rules Feasts Venue Almanac Hours Festivals Catalogue Market.
From Verif.Proofs Require Import BaseLemmas ScheduleLemmas QueryLemmas QueryLemmas2 MachineLemmas ShapeLemmas VenueLemmas
  VenueZones DatesLemmas RuleLemmas BuildLemmas.
From Verif.Properties Require Import QueryProps ExchangeProps HoursProps MarketProps.
From Verif.Exchanges Require Import All zones.
Import ListNotations.
Open Scope Z_scope.

(** ** Specification *)

(** The minute after the close, and the length of the session, are 64-bit integers. *)
Definition fits_machine (s : session) : Prop :=
  s_close s + one_minute < 2 ^ 63 /\ s_close s + one_minute - s_open s < 2 ^ 63.

(** The calendar object [c] is what the machine makes of the schedule [ss]. *)
Definition made_by_machine (c : calendar) (ss : list session) : Prop :=
  make_calendar64
    (map s_label ss)
    (map s_open ss)
    (map (fun s => match s_break s with Some (b, _) => b | None => not_a_time end) ss)
    (map (fun s => match s_break s with Some (_, e) => e | None => not_a_time end) ss)
    (map s_close ss) = Ok c.

(** ** Proofs *)

(** What is needed of one stretch of trading. *)
Definition stretch (a b : Z) : Prop :=
  (one_minute | b - a) \/ b + one_minute - a < 2 ^ 53.

Lemma stretch_ok : forall a b, not_a_time < a -> a <= b -> b + one_minute < 2 ^ 63 ->
  b + one_minute - a < 2 ^ 63 -> stretch a b ->
  arange64 a (add64 b one_minute) one_minute = Ok (arange a (b + one_minute) one_minute).
Proof.
  intros a b N L B D S. rewrite <- NPM_one_minute in *. rewrite <- NAT_nat in N.
  assert (N0 : NP_NAT = - 2 ^ 63) by reflexivity. rewrite N0 in N.
  pose proof MIN_val as MV.
  assert (E : add64 b NANOSECONDS_PER_MINUTE = b + NANOSECONDS_PER_MINUTE)
    by (apply wrap64_id; unfold int64; lia).
  rewrite E. eapply arange64_ok; try (unfold int64; lia); [|reflexivity].
  destruct S as [[k Hk]|S].
  - rewrite <- NPM_one_minute in Hk.
    rewrite (length_whole a (b + NANOSECONDS_PER_MINUTE) (k + 1)); [|lia|unfold int64; lia].
    f_equal. rewrite MV in *.
    replace (b + 60000000000 - a + 60000000000 - 1) with (60000000000 - 1 + (k + 1) * 60000000000) by lia.
    rewrite Z.div_add by lia. reflexivity.
  - rewrite <- NPM_one_minute in S. apply length_short. lia.
Qed.

Definition stretches (s : session) : Prop :=
  match s_break s with
  | None => stretch (s_open s) (s_close s)
  | Some (u, v) => stretch (s_open s) u /\ stretch v (s_close s)
  end.

Lemma pieces_ok : forall s, ordered_session s -> fits_machine s -> stretches s ->
  minute_pieces64 (s_open s) (bs_cell s) (be_cell s) (s_close s) =
  Ok (minute_pieces (s_open s) (bs_cell s) (be_cell s) (s_close s)).
Proof.
  intros s [N O] [F1 F2] S. unfold minute_pieces64, minute_pieces, stretches, bs_cell, be_cell in *.
  rewrite NPM_one_minute, NAT_nat. pose proof one_minute_pos.
  destruct (s_break s) as [[u v]|].
  - destruct O as [O1 [O2 O3]]. destruct S as [S1 S2].
    replace (u =? not_a_time) with false by lia. cbn [negb].
    rewrite !stretch_ok by (assumption || lia). reflexivity.
  - rewrite Z.eqb_refl. cbn [negb]. rewrite stretch_ok by (assumption || lia). reflexivity.
Qed.

Lemma all_pieces_ok : forall ss, (forall s, In s ss -> ordered_session s /\ fits_machine s /\ stretches s) ->
  all_pieces64 (map s_open ss) (map bs_cell ss) (map be_cell ss) (map s_close ss) =
  Ok (all_pieces (map s_open ss) (map bs_cell ss) (map be_cell ss) (map s_close ss)).
Proof.
  induction ss as [|s ss IH]; intros H; [reflexivity|]. cbn [map all_pieces64 all_pieces].
  destruct (H s (or_introl eq_refl)) as [A [B C]]. rewrite (pieces_ok s A B C). cbn [bind].
  rewrite IH by (intros; apply H; right; assumption). reflexivity.
Qed.

Lemma make_ok : forall ss labels, (forall s, In s ss -> ordered_session s /\ fits_machine s /\ stretches s) ->
  make_calendar64 labels (map s_open ss) (map bs_cell ss) (map be_cell ss) (map s_close ss) =
  make_calendar labels (map s_open ss) (map bs_cell ss) (map be_cell ss) (map s_close ss).
Proof.
  intros ss labels H. unfold make_calendar64, make_calendar, compute_all_minutes64, compute_all_minutes.
  rewrite all_pieces_ok by exact H. cbn [bind].
  destruct (all_pieces (map s_open ss) (map bs_cell ss) (map be_cell ss) (map s_close ss)); reflexivity.
Qed.

Lemma machine_iff : forall ss c, (forall s, In s ss -> ordered_session s /\ fits_machine s /\ stretches s) ->
  (made_by_machine c ss <-> has_schedule c ss).
Proof.
  intros ss c H. unfold made_by_machine, has_schedule.
  change (fun s : session => match s_break s with Some (b, _) => b | None => not_a_time end) with bs_cell.
  change (fun s : session => match s_break s with Some (_, e) => e | None => not_a_time end) with be_cell.
  rewrite make_ok by exact H. tauto.
Qed.

Lemma whole_stretches : forall s, whole_minutes s -> stretches s.
Proof.
  intros s H. unfold whole_minutes, stretches, stretch in *. destruct (s_break s) as [[u v]|]; tauto.
Qed.

(** ** The theorems *)

(** Machine arithmetic makes the same calendar object, ... *)
Theorem c77_same_calendar : forall ss c, well_formed ss -> (forall s, In s ss -> fits_machine s) ->
  (made_by_machine c ss <-> has_schedule c ss).
Proof.
  intros ss c Hwf F. apply machine_iff. intros s Hs. destruct (wf_In ss s Hwf Hs) as [A B].
  split; [exact A|]. split; [exact (F s Hs)|apply whole_stretches; exact B].
Qed.

(** ... so its minutes are exactly those of the sessions. *)
Theorem c77_minutes : forall ss, well_formed ss -> ss <> [] -> (forall s, In s ss -> fits_machine s) ->
  exists c, made_by_machine c ss /\ lists_exactly (trading_minute ss) (minutes c).
Proof.
  intros ss Hwf Hne F. destruct (has_schedule_exists ss Hwf Hne) as [c Hc]. exists c.
  split; [apply c77_same_calendar; assumption|].
  rewrite (col_minutes _ _ (has_schedule_cols c ss Hc)).
  split; [apply minutes_sorted; exact Hwf|]. intros x. apply minutes_In. exact Hwf.
Qed.

(** Sessions that do not last a whole number of minutes: no error up to 104 days. *)
Theorem c77_short_sessions : forall ss c, Forall ordered_session ss ->
  (forall s, In s ss -> fits_machine s /\ s_close s + one_minute - s_open s < 2 ^ 53) ->
  (made_by_machine c ss <-> has_schedule c ss).
Proof.
  intros ss c O F. apply machine_iff. intros s Hs. rewrite Forall_forall in O.
  pose proof (O s Hs) as Os. destruct (F s Hs) as [F1 F2]. split; [exact Os|]. split; [exact F1|].
  destruct Os as [_ Os]. unfold stretches, stretch. destruct (s_break s) as [[u v]|]; [|right; lia].
  split; right; lia.
Qed.

(** A longer one loses its last minute. *)
Theorem c77_long_session_refuted : exists s c c',
  ordered_session s /\ fits_machine s /\ has_schedule c [s] /\ made_by_machine c' [s] /\
  zlen (minutes c') = zlen (minutes c) - 1.
Proof.
  set (x := 9007200000000001 - 60000000000).
  pose (s := Session 0 0 None x).
  assert (L64 : arange_length64 0 9007200000000001 60000000000 = Ok 150120) by (vm_compute; reflexivity).
  assert (A64 : add64 x one_minute = 9007200000000001) by (vm_compute; reflexivity).
  assert (A : x + one_minute = 9007200000000001) by (vm_compute; reflexivity).
  assert (E : exists l, arange64 0 9007200000000001 60000000000 = Ok l /\ length l = Z.to_nat 150120).
  { unfold arange64. rewrite L64. cbn [bind]. replace (150120 <=? 0) with false by reflexivity.
    eexists. split; [reflexivity|]. rewrite map_length. generalize (Z.to_nat 150120) 0.
    intros n. induction n as [|n IH]; intros i; [reflexivity|]. cbn [zseq length]. rewrite IH. reflexivity. }
  destruct E as [l [E El]].
  exists s. exists (Calendar [0] [0] [not_a_time] [not_a_time] [x] (arange 0 9007200000000001 60000000000)).
  exists (Calendar [0] [0] [not_a_time] [not_a_time] [x] l).
  split; [split; [vm_compute; reflexivity|cbn; apply Z.leb_le; vm_compute; reflexivity]|].
  split; [split; apply Z.ltb_lt; vm_compute; reflexivity|].
  split.
  { unfold has_schedule. subst s. cbn [map s_label s_open s_break s_close].
    unfold make_calendar, compute_all_minutes. cbn [nats_match all_pieces]. rewrite NAT_nat, !Z.eqb_refl.
    cbn [Bool.eqb andb]. unfold minute_pieces. rewrite NAT_nat, Z.eqb_refl, NPM_one_minute, A.
    change one_minute with 60000000000. cbn [negb app concat bind]. rewrite app_nil_r. reflexivity. }
  split.
  { unfold made_by_machine. subst s. cbn [map s_label s_open s_break s_close].
    unfold make_calendar64, compute_all_minutes64. cbn [nats_match all_pieces64]. rewrite NAT_nat, !Z.eqb_refl.
    cbn [Bool.eqb andb]. unfold minute_pieces64. rewrite NAT_nat, Z.eqb_refl, NPM_one_minute, A64.
    change one_minute with 60000000000. cbn [negb]. rewrite E. cbn [bind app concat]. rewrite app_nil_r. reflexivity. }
  cbn [minutes]. unfold zlen. rewrite El. unfold arange.
  replace ((9007200000000001 - 0 + 60000000000 - 1) / 60000000000) with 150121 by (vm_compute; reflexivity).
  assert (Z1 : forall n i d, length (zseq i d n) = n).
  { intros n. induction n as [|n IH]; intros i d; [reflexivity|]. cbn [zseq length]. rewrite IH. reflexivity. }
  rewrite Z1. rewrite !Z2Nat.id by lia. reflexivity.
Qed.

(** ** The count *)

Definition row (s : session) : Z := minutes_per_session_row (s_open s) (bs_cell s) (be_cell s) (s_close s).

Lemma row_ok : forall s, ordered_session s -> fits_machine s ->
  0 <= (row s - 1) * one_minute <= s_close s - s_open s /\
  exists x, minutes_per_session_row64 (s_open s) (bs_cell s) (be_cell s) (s_close s) = Some x /\ holds_int x (row s).
Proof.
  intros s [N O] [F1 F2]. unfold row, minutes_per_session_row, minutes_per_session_row64, bs_cell, be_cell.
  rewrite NAT_nat, NPM_one_minute. pose proof one_minute_pos as OM.
  assert (OV : one_minute = 60000000000) by reflexivity.
  assert (C : forall d, 0 <= d < 2 ^ 63 ->
    0 <= (Z.quot d one_minute + 1 - 1) * one_minute <= d /\
    holds_int (add_double (to_double (d / one_minute)) (to_double 1)) (Z.quot d one_minute + 1)).
  { intros d Hd. rewrite Z.quot_div_nonneg by lia. rewrite OV.
    assert (B : 0 <= d / 60000000000 < 2 ^ 28) by (Z.div_mod_to_equations; lia).
    split; [Z.div_mod_to_equations; lia|].
    apply add_double_ok; [apply to_double_small; lia|apply to_double_small; reflexivity|lia]. }
  assert (K : forall a b, 0 <= a - b < 2 ^ 63 -> checked_sub a b = Some (a - b)).
  { intros a b Hab. unfold checked_sub. replace (- 2 ^ 63 <=? a - b) with true by lia.
    replace (a - b <? 2 ^ 63) with true by lia. reflexivity. }
  destruct (s_break s) as [[u v]|].
  - destruct O as [O1 [O2 O3]]. replace (u =? not_a_time) with false by lia. replace (v =? not_a_time) with false by lia.
    cbn [orb]. rewrite (K (s_close s) (s_open s)) by lia. rewrite (K v u) by lia. rewrite K by lia.
    destruct (C (s_close s - s_open s - (v - u))) as [C1 C2]; [lia|]. split; [lia|]. eexists. split; [reflexivity|exact C2].
  - rewrite Z.eqb_refl. cbn [orb]. rewrite (K (s_close s) (s_open s)) by lia. rewrite K by lia.
    destruct (C (s_close s - s_open s - 0)) as [C1 C2]; [lia|]. split; [lia|]. eexists. split; [reflexivity|exact C2].
Qed.

Lemma rows_ok : forall ss, (forall s, In s ss -> ordered_session s /\ fits_machine s) ->
  exists f, minutes_per_session_rows64 (map s_open ss) (map bs_cell ss) (map be_cell ss) (map s_close ss) =
    Some (map f ss) /\ forall s, In s ss -> holds_int (f s) (row s).
Proof.
  intros ss H.
  exists (fun s => match minutes_per_session_row64 (s_open s) (bs_cell s) (be_cell s) (s_close s) with
                   | Some x => x | None => to_double 0 end).
  split.
  - induction ss as [|s ss IH]; [reflexivity|]. cbn [map minutes_per_session_rows64].
    destruct (H s (or_introl eq_refl)) as [A B]. destruct (row_ok s A B) as [_ [x [E _]]]. rewrite E.
    rewrite IH by (intros; apply H; right; assumption). reflexivity.
  - intros s Hs. destruct (H s Hs) as [A B]. destruct (row_ok s A B) as [_ [x [E Hx]]]. rewrite E. exact Hx.
Qed.

Lemma zsum_app : forall l l', zsum (l ++ l') = zsum l + zsum l'.
Proof. induction l as [|x l IH]; intros l'; [reflexivity|]. unfold zsum in *. simpl. rewrite IH. lia. Qed.
Lemma zsum_perm : forall l l', Permutation l l' -> zsum l = zsum l'.
Proof. unfold zsum. induction 1; simpl; lia. Qed.
Lemma zsum_nonneg : forall l, Forall (fun z => 0 <= z) l -> 0 <= zsum l.
Proof. unfold zsum. induction 1; simpl; lia. Qed.

Lemma Forall2_holds_app : forall l1 l2 r, Forall2 holds_int (l1 ++ l2) r ->
  exists r1 r2, r = (r1 ++ r2)%list /\ Forall2 holds_int l1 r1 /\ Forall2 holds_int l2 r2.
Proof. intros. apply Forall2_app_inv_l in H. destruct H as [r1 [r2 [A [B C]]]]. eauto. Qed.

Lemma sum_ok : forall l x, sum_double l x -> forall r, Forall2 holds_int l r -> Forall (fun z => 0 <= z) r ->
  zsum r < 2 ^ 53 -> holds_int x (zsum r).
Proof.
  induction 1 as [|x|l l1 l2 x y P S1 IH1 S2 IH2]; intros r F N B.
  - inversion F. apply to_double_small. reflexivity.
  - inversion F as [|? z ? ? Hz Ht]; subst. inversion Ht; subst.
    replace (zsum [z]) with z by (unfold zsum; simpl; lia). exact Hz.
  - destruct (Permutation_Forall2 P F) as [r' [P' F']].
    rewrite (zsum_perm _ _ P') in *.
    assert (N' : Forall (fun z => 0 <= z) r') by (eapply Permutation_Forall; eassumption).
    destruct (Forall2_holds_app _ _ _ F') as [r1 [r2 [-> [F1 F2]]]].
    apply Forall_app in N'. destruct N' as [N1 N2]. rewrite zsum_app in *.
    pose proof (zsum_nonneg _ N1). pose proof (zsum_nonneg _ N2).
    apply add_double_ok; [apply IH1; try assumption; lia|apply IH2; try assumption; lia|lia].
Qed.

Lemma sum_exists : forall l, exists x, sum_double l x.
Proof.
  induction l as [|a l [x IH]]; [eexists; constructor|].
  exists (add_double a x). apply (SumMany (a :: l) [a] l); [apply Permutation_refl|constructor|exact IH].
Qed.

Lemma total_length : forall l lo hi, lo <= hi -> StronglySorted precedes l ->
  (forall s, In s l -> ordered_session s /\ lo <= s_open s /\ s_close s <= hi) ->
  zsum (map (fun s => s_close s - s_open s) l) <= hi - lo.
Proof.
  induction l as [|s l IH]; intros lo hi L S H; [unfold zsum; simpl; lia|].
  inversion S as [|? ? S1 S2]; subst. destruct (H s (or_introl eq_refl)) as [A [B C]].
  pose proof (ordered_open_close s A) as OC.
  unfold zsum. cbn [map fold_right]. fold (zsum (map (fun s => s_close s - s_open s) l)).
  assert (Q : zsum (map (fun s => s_close s - s_open s) l) <= hi - s_close s); [|lia].
  apply IH; [exact C|exact S1|]. intros t Ht. destruct (H t (or_intror Ht)) as [A' [_ C']].
  rewrite Forall_forall in S2. pose proof (proj2 (S2 t Ht)). split; [exact A'|]. split; [lia|exact C'].
Qed.

Lemma rows_bound : forall l, (forall s, In s l -> ordered_session s /\ fits_machine s) ->
  (zsum (map row l) - zlen l) * one_minute <= zsum (map (fun s => s_close s - s_open s) l).
Proof.
  induction l as [|s l IH]; intros H; [unfold zsum, zlen; simpl; lia|].
  specialize (IH (fun t Ht => H t (or_intror Ht))). destruct (H s (or_introl eq_refl)) as [A B].
  destruct (row_ok s A B) as [R _]. rewrite zlen_cons. unfold zsum in *. cbn [map fold_right]. nia.
Qed.

(** The number of minutes, added up in doubles in any order, is the exact one. *)
Theorem c77_minutes_count : forall ss c a b n, well_formed ss -> has_schedule c ss ->
  (forall s, In s ss -> fits_machine s) -> zlen ss <= 2 ^ 52 ->
  (minutes_count64 c a b n <-> n = minutes_count_for_sessions_in_range c a b).
Proof.
  intros ss c a b n Hwf Hc F Hlen. pose proof (has_schedule_cols c ss Hc) as Hcols.
  assert (OF : forall s, In s ss -> ordered_session s /\ fits_machine s).
  { intros s Hs. split; [exact (proj1 (wf_In ss s Hwf Hs))|exact (F s Hs)]. }
  destruct (rows_ok ss OF) as [f [E Hf]].
  unfold minutes_count64, minutes_per_session64, minutes_count_for_sessions_in_range, minutes_per_session.
  rewrite (col_opens _ _ Hcols), (col_bs _ _ Hcols), (col_be _ _ Hcols), (col_closes _ _ Hcols).
  rewrite E, mps_rows_map, (label_slice_filter c ss Hwf Hc). fold row.
  change (fun s : session => minutes_per_session_row (s_open s) (bs_cell s) (be_cell s) (s_close s)) with row.
  set (l := filter (fun s => (a <=? s_label s) && (s_label s <=? b)) ss).
  assert (Hl : forall s, In s l -> In s ss) by (intros s Hs; apply filter_In in Hs; tauto).
  assert (F2 : Forall2 holds_int (map f l) (map row l)).
  { clear - Hf Hl. induction l as [|s l IH]; [constructor|]. cbn [map]. constructor.
    - apply Hf. apply Hl. left. reflexivity.
    - apply IH. intros t Ht. apply Hl. right. exact Ht. }
  assert (Hn : Forall (fun z => 0 <= z) (map row l)).
  { apply Forall_forall. intros z Hz. apply in_map_iff in Hz. destruct Hz as [s [<- Hs]].
    destruct (OF s (Hl s Hs)) as [A B]. destruct (row_ok s A B) as [R _]. pose proof one_minute_pos. nia. }
  assert (Hb : zsum (map row l) < 2 ^ 53).
  { assert (T : zsum (map (fun s => s_close s - s_open s) ss) <= 2 ^ 63 - - 2 ^ 63).
    { apply total_length; [lia|exact (proj2 (proj2 Hwf))|]. intros s Hs. destruct (OF s Hs) as [A B].
      split; [exact A|]. destruct A as [A _], B as [B _]. pose proof one_minute_pos.
      assert (NV : not_a_time = - 2 ^ 63) by reflexivity. lia. }
    pose proof (rows_bound ss OF) as RB.
    assert (SUB : zsum (map row l) <= zsum (map row ss)).
    { assert (R0 : forall s, In s ss -> 0 <= row s).
      { intros s Hs. destruct (OF s Hs) as [A B]. destruct (row_ok s A B) as [R _]. pose proof one_minute_pos. nia. }
      subst l. clear - R0. induction ss as [|s ss IH]; [unfold zsum; simpl; lia|].
      pose proof (R0 s (or_introl eq_refl)). specialize (IH (fun t Ht => R0 t (or_intror Ht))).
      cbn [filter]. destruct (_ && _); unfold zsum in *; cbn [map fold_right]; lia. }
    assert (OV : one_minute = 60000000000) by reflexivity. rewrite OV in RB. lia. }
  split.
  - intros [rows [x [Er [Sx ->]]]]. assert (rows = map f ss) by congruence. subst rows.
    rewrite (label_slice_filter c ss Hwf Hc) in Sx. apply trunc_ok. apply (sum_ok _ _ Sx); assumption.
  - intros ->. destruct (sum_exists (map f l)) as [x Sx]. exists (map f ss), x.
    split; [reflexivity|]. rewrite (label_slice_filter c ss Hwf Hc). split; [exact Sx|].
    symmetry. apply trunc_ok. apply (sum_ok _ _ Sx); assumption.
Qed.

(** ** The exchanges *)

Lemma sorted_length : forall l lo hi, StronglySorted Z.lt l -> (forall x, In x l -> lo <= x <= hi) ->
  lo <= hi + 1 -> zlen l <= hi - lo + 1.
Proof.
  induction l as [|x l IH]; intros lo hi S H L; [change (zlen []) with 0; lia|].
  inversion S as [|? ? S1 S2]; subst. rewrite zlen_cons. pose proof (H x (or_introl eq_refl)).
  assert (zlen l <= hi - (x + 1) + 1); [|lia].
  apply IH; [exact S1| |lia]. intros y Hy. rewrite Forall_forall in S2. pose proof (S2 y Hy).
  pose proof (H y (or_intror Hy)). lia.
Qed.

Lemma days_length : forall ss start stop, well_formed ss -> start <= stop ->
  (forall s, In s ss -> is_midnight (s_label s) /\ start <= s_label s <= stop) ->
  zlen ss <= stop / one_day - start / one_day + 1.
Proof.
  intros ss start stop Hwf L H. pose proof (wf_label_sorted ss Hwf) as S.
  replace (zlen ss) with (zlen (map (fun s => s_label s / one_day) ss)) by (unfold zlen; rewrite map_length; reflexivity).
  pose proof one_day_pos as P. apply sorted_length.
  - clear Hwf L. induction ss as [|s ss IH]; [constructor|]. cbn [map].
    inversion S as [|? ? S1 S2]; subst. constructor; [apply IH; [intros; apply H; right; assumption|exact S1]|].
    apply Forall_forall. intros y Hy. apply in_map_iff in Hy. destruct Hy as [t [<- Ht]].
    rewrite Forall_forall in S2. pose proof (S2 t Ht) as Q.
    destruct (H s (or_introl eq_refl)) as [[k Ek] _]. destruct (H t (or_intror Ht)) as [[j Ej] _].
    rewrite Ek, Ej in *. rewrite !Z.div_mul by lia. nia.
  - intros x Hx. apply in_map_iff in Hx. destruct Hx as [s [<- Hs]]. destruct (H s Hs) as [_ [A B]].
    split; apply Z.div_le_mono; lia.
  - pose proof (Z.div_le_mono start stop one_day P L). lia.
Qed.

(** The calendar of an exchange, for any range of days that ends at least three days
    before the last 64-bit instant. *)
Theorem c77_exchange : forall name E z start stop b, In (name, E) exchanges -> In (ex_tz E, z) zones ->
  at_midnight_of (date_number 1950 1 1) <= start -> is_midnight start -> stop + 3 * one_day < 2 ^ 63 ->
  build_exchange E z start stop = Ok b ->
  make_calendar64 (sessions (cal b)) (opens (cal b)) (break_starts (cal b)) (break_ends (cal b)) (closes (cal b)) =
    Ok (cal b) /\
  forall x y n, minutes_count64 (cal b) x y n <-> n = minutes_count_for_sessions_in_range (cal b) x y.
Proof.
  intros name E z start stop b HE Hz H0 M1 Hstop Hb.
  destruct (clocks_1950 name E z HE Hz) as [lo [Hc Hlo]].
  destruct (c52_rows name E z start stop b HE (proj1 Hc) (since_1950 start H0) M1 Hb) as [ss [A [B [C D]]]].
  assert (OD : one_day = 86400000000000) by reflexivity.
  assert (OM : one_minute = 60000000000) by reflexivity.
  assert (Lb : forall s, In s ss -> exists n, s_label s = at_midnight_of n /\ start <= s_label s <= stop).
  { intros s Hs. destruct (proj1 (C (s_label s)) (ex_intro _ s (conj Hs eq_refl))) as [n [E1 [E2 _]]]. eauto. }
  assert (F : forall s, In s ss -> fits_machine s).
  { intros s Hs. destruct (row_near name E z start stop s HE (proj1 Hc) (D s Hs)) as [n [En [N1 [N2 [N3 N4]]]]].
    destruct (Lb s Hs) as [m [_ Hm]]. unfold at_midnight_of in *. unfold fits_machine.
    rewrite OD in *. rewrite OM. lia. }
  split.
  - pose proof (has_schedule_cols _ _ A) as K.
    rewrite (col_sessions _ _ K), (col_opens _ _ K), (col_bs _ _ K), (col_be _ _ K), (col_closes _ _ K).
    exact (proj2 (c77_same_calendar ss (cal b) B F) A).
  - intros x y n. apply (c77_minutes_count ss); try assumption.
    destruct ss as [|s0 ss0]; [exfalso; exact (col_nonempty _ _ (has_schedule_cols _ _ A) eq_refl)|].
    assert (S1950 : at_midnight_of (date_number 1950 1 1) = -631152000000000000) by reflexivity.
    assert (start <= stop) by (destruct (Lb s0 (or_introl eq_refl)) as [m [_ Hm]]; lia).
    eapply Z.le_trans; [apply (days_length _ start stop B)|].
    + assumption.
    + intros s Hs. destruct (Lb s Hs) as [m [Em Hm]]. split; [exists m; rewrite Em; unfold at_midnight_of; lia|exact Hm].
    + rewrite OD in *. Z.div_mod_to_equations. lia.
Qed.

(** ** Concrete cases *)

(** The sample schedule of the query properties fits; one of its sessions counts 211
    minutes, in machine numbers too. *)
Example c77_ex : well_formed ex_ss /\ ex_ss <> [] /\ (forall s, In s ex_ss -> fits_machine s) /\
  made_by_machine ex_cal ex_ss /\ minutes_count64 ex_cal (ex_day 2) (ex_day 2) 211.
Proof.
  split; [exact ex_well_formed|]. split; [discriminate|].
  assert (F : forall s, In s ex_ss -> fits_machine s).
  { assert (Q : forallb (fun s => (s_close s + one_minute <? 2 ^ 63) && (s_close s + one_minute - s_open s <? 2 ^ 63)) ex_ss = true)
      by (vm_compute; reflexivity).
    intros s Hs. rewrite forallb_forall in Q. specialize (Q s Hs). apply andb_true_iff in Q.
    split; apply Z.ltb_lt; apply Q. }
  split; [exact F|]. split; [apply c77_same_calendar; [exact ex_well_formed|exact F|exact ex_has_schedule]|].
  apply (c77_minutes_count ex_ss); [exact ex_well_formed|exact ex_has_schedule|exact F| |].
  - apply Z.leb_le. vm_compute. reflexivity.
  - vm_compute. reflexivity.
Qed.

(** A session of an hour and a nanosecond, and the range of the calendar of Hong Kong
    in [c76_exchange_ex]. *)
Example c77_short_ex : let s := Session 0 0 None (60 * one_minute + 1) in
  ordered_session s /\ ~ whole_minutes s /\ fits_machine s /\ s_close s + one_minute - s_open s < 2 ^ 53.
Proof.
  cbn. split; [split; [vm_compute; reflexivity|apply Z.leb_le; vm_compute; reflexivity]|].
  split; [|split; [split|]; apply Z.ltb_lt; vm_compute; reflexivity].
  intros H. apply Z.mod_divide in H; [|vm_compute; discriminate]. vm_compute in H. discriminate.
Qed.
Example c77_exchange_ex : exists z b, In (ex_tz exchange_calendar_xhkg.calendar, z) zones /\
  build_exchange exchange_calendar_xhkg.calendar z (at_midnight_of (date_number 1990 1 1))
    (at_midnight_of (date_number 2020 12 31)) = Ok b /\
  at_midnight_of (date_number 2020 12 31) + 3 * one_day < 2 ^ 63.
Proof.
  destruct c76_exchange_ex as [z [b [A [B _]]]]. exists z, b. split; [exact A|]. split; [exact B|].
  apply Z.ltb_lt. vm_compute. reflexivity.
Qed.

(** ** Assumptions *)
Print Assumptions c77_same_calendar.
Print Assumptions c77_minutes.
Print Assumptions c77_short_sessions.
Print Assumptions c77_long_session_refuted.
Print Assumptions c77_minutes_count.
Print Assumptions c77_exchange.
