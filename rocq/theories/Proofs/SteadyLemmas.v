(** The clocks are not changed during a session: a check of the tables of the tz
    database, and what follows from it. *)
From Coq Require Import ZArith String List Bool Lia.
From Verif.Model Require Import Base Dates Zone Build Holidays Exchange.
From Verif.Spec Require Import Schedule Construction Civil Rules Venue.
From Verif.Proofs Require Import BaseLemmas DatesLemmas BuildLemmas ZoneLemmas ShapeLemmas.
Import ListNotations.
Open Scope Z_scope.

(** Changes of the clocks: offset before, instant, offset after. *)
Fixpoint steps (cur : Z) (trs : list (Z * Z)) : list (Z * Z * Z) :=
  match trs with
  | [] => []
  | (t, o) :: rest => (cur, t, o) :: steps o rest
  end.

(** Changes after [lo] are [gap] or more apart. *)
Fixpoint spaced (lo gap : Z) (trs : list (Z * Z)) : bool :=
  match trs with
  | (t, _) :: ((t', _) :: _) as rest => ((t <=? lo) || (gap <=? t' - t)) && spaced lo gap rest
  | _ => true
  end.

Lemma spaced_tail : forall lo gap x trs, spaced lo gap (x :: trs) = true -> spaced lo gap trs = true.
Proof.
  intros lo gap [t o] [|[t' o'] rest] H; [reflexivity|]. cbn [spaced] in H.
  apply andb_true_iff in H. apply H.
Qed.

(** Within less than [gap] the clocks are changed at most once. *)
Lemma one_step : forall lo gap trs cur u v, spaced lo gap trs = true -> lo <= u <= v -> v < u + gap ->
  offset_from cur trs u = offset_from cur trs v \/
  exists t, In (offset_from cur trs u, t, offset_from cur trs v) (steps cur trs) /\ u < t <= v.
Proof.
  intros lo gap trs. induction trs as [|[t o] rest IH]; intros cur u v Sp L G; [left; reflexivity|].
  cbn [offset_from steps]. destruct (Z.leb_spec t u) as [A|A].
  - destruct (Z.leb_spec t v) as [B|B]; [|lia].
    destruct (IH o u v (spaced_tail _ _ _ _ Sp) L G) as [Q|[t' [Q1 Q2]]]; [left; exact Q|].
    right. exists t'. split; [right; exact Q1|exact Q2].
  - destruct (Z.leb_spec t v) as [B|B]; [|left; reflexivity].
    right. exists t. split; [|lia]. left. f_equal.
    destruct rest as [|[t' o'] rest]; [reflexivity|]. cbn [spaced] in Sp.
    rewrite !andb_true_iff, orb_true_iff in Sp. cbn [offset_from].
    destruct (Z.leb_spec t' v) as [C|C]; [lia|reflexivity].
Qed.

(** The weekmask lets the exchange trade on day [n]. *)
Definition weekday_open (E : exchange) (n : Z) : bool :=
  match nth_error (ex_weekmask E) (Z.to_nat (day_of_week n)) with Some true => true | _ => false end.

(** No change of the clocks happens on day [n] between the first time of day [a] and
    the last one [c]. *)
Definition step_clear (E : exchange) (a c : Z) (s : Z * Z * Z) (n : Z) : bool :=
  let '(cur, t, o) := s in
  negb (weekday_open E n && (n * NANOS_PER_DAY + a <? t + cur) && (t + o <=? n * NANOS_PER_DAY + c)).
Definition step_ok (E : exchange) (lo a c : Z) (s : Z * Z * Z) : bool :=
  let '(cur, t, o) := s in
  if t <=? lo then true else
  (Z.abs (o - cur) <=? NANOS_PER_DAY) &&
  let q := (t + cur) / NANOS_PER_DAY in
  forallb (step_clear E a c s) [q - 2; q - 1; q; q + 1].

(** The last and the first of the times of day the exchange uses. *)
Definition last_time (E : exchange) : Z :=
  fold_right Z.max 0 (map (fun p => tod (fst p) (snd p)) (clock_times E)).
Definition window_start (E : exchange) : Z :=
  fold_right Z.min NANOS_PER_DAY (map (fun p => tod (fst p) (snd p)) (clock_times E)).

Definition steady (E : exchange) (z : zone) (lo : Z) : bool :=
  let l := (lo - 2) * NANOS_PER_DAY in
  let a := window_start E in
  let c := last_time E in
  (- NANOS_PER_DAY <=? a) && (c <=? NANOS_PER_DAY) &&
  spaced l (4 * NANOS_PER_DAY) (transitions z) &&
  forallb (step_ok E l a c) (steps (initial_offset z) (transitions z)).

Lemma window_start_le : forall E k t, In (k, t) (clock_times E) -> window_start E <= tod k t.
Proof.
  intros E k t H. unfold window_start.
  assert (Q : In (tod k t) (map (fun p => tod (fst p) (snd p)) (clock_times E))).
  { apply in_map_iff. exists (k, t). tauto. }
  revert Q. generalize (map (fun p => tod (fst p) (snd p)) (clock_times E)). intros l.
  induction l as [|x l IH]; [intros []|]. cbn [fold_right]. intros [->|Q]; [lia|]. specialize (IH Q). lia.
Qed.
Lemma last_time_ge : forall E k t, In (k, t) (clock_times E) -> tod k t <= last_time E.
Proof.
  intros E k t H. unfold last_time.
  assert (Q : In (tod k t) (map (fun p => tod (fst p) (snd p)) (clock_times E))).
  { apply in_map_iff. exists (k, t). tauto. }
  revert Q. generalize (map (fun p => tod (fst p) (snd p)) (clock_times E)). intros l.
  induction l as [|x l IH]; [intros []|]. cbn [fold_right]. intros [->|Q]; [lia|]. specialize (IH Q). lia.
Qed.

Lemma steady_same : forall E z lo n u v x y, steady E z lo = true -> good_zone z -> lo <= n ->
  weekday_open E n = true ->
  window_start E <= x <= last_time E -> window_start E <= y <= last_time E ->
  wall_clock z u = at_midnight_of n + x -> wall_clock z v = at_midnight_of n + y -> u <= v ->
  offset_at z u = offset_at z v.
Proof.
  intros E z lo n u v x y St Gz Hn W Hx Hy U V L. unfold steady in St.
  rewrite !andb_true_iff in St. destruct St as [[[A B] Sp] F].
  pose proof (good_zone_offset z u Gz) as [Gu _]. pose proof (good_zone_offset z v Gz) as [Gv _].
  unfold wall_clock in U, V. unfold at_midnight_of in U, V. rewrite NPD_one_day in *.
  assert (D : 0 < one_day) by (pose proof one_day_pos; lia).
  assert (M : (lo - 2) * one_day <= (n - 2) * one_day) by (apply Z.mul_le_mono_nonneg_r; lia).
  destruct (one_step ((lo - 2) * one_day) (4 * one_day) (transitions z) (initial_offset z) u v Sp)
    as [Q|[t [Q1 Q2]]]; [lia|lia|exact Q|].
  exfalso. fold (offset_at z u) in Q1. fold (offset_at z v) in Q1.
  rewrite forallb_forall in F. specialize (F _ Q1). unfold step_ok in F. rewrite NPD_one_day in F.
  destruct (Z.leb_spec t ((lo - 2) * one_day)) as [K|_]; [lia|]. apply andb_true_iff in F. destruct F as [F1 F2].
  set (q := (t + offset_at z u) / one_day) in *.
  assert (R : q * one_day <= t + offset_at z u < (q + 1) * one_day).
  { pose proof (Z.div_mod (t + offset_at z u) one_day ltac:(lia)).
    pose proof (Z.mod_pos_bound (t + offset_at z u) one_day D). fold q in H. nia. }
  assert (N1 : n < q + 2). { apply (Z.mul_lt_mono_pos_r one_day); [exact D|]. lia. }
  assert (N2 : q - 3 < n). { apply (Z.mul_lt_mono_pos_r one_day); [exact D|]. lia. }
  rewrite forallb_forall in F2. assert (C : step_clear E (window_start E) (last_time E)
    (offset_at z u, t, offset_at z v) n = true).
  { apply F2. assert (K : n = q - 2 \/ n = q - 1 \/ n = q \/ n = q + 1) by lia.
    destruct K as [->|[->|[->| ->]]]; cbn [In]; tauto. }
  unfold step_clear in C. rewrite NPD_one_day, W in C. cbn [andb] in C.
  apply negb_true_iff, andb_false_iff in C. destruct C as [C|C]; lia.
Qed.

(** The time between two times of day of one session is the difference on the clocks. *)
Lemma steady_ok : forall E z lo n k t k' t' u v, steady E z lo = true -> good_zone z -> lo <= n ->
  weekday_open E n = true -> In (k, t) (clock_times E) -> In (k', t') (clock_times E) ->
  instant_of z (local_time (at_midnight_of n) k t) u ->
  instant_of z (local_time (at_midnight_of n) k' t') v ->
  v - u = tod k' t' - tod k t.
Proof.
  intros E z lo n k t k' t' u v St Gz Hn W I I' [U _] [V _]. rewrite tod_local in U, V.
  assert (X : window_start E <= tod k t <= last_time E)
    by (split; [apply window_start_le|apply last_time_ge]; exact I).
  assert (Y : window_start E <= tod k' t' <= last_time E)
    by (split; [apply window_start_le|apply last_time_ge]; exact I').
  assert (Q : offset_at z u = offset_at z v).
  { destruct (Z.le_ge_cases u v) as [L|L].
    - exact (steady_same E z lo n u v _ _ St Gz Hn W X Y U V L).
    - symmetry. exact (steady_same E z lo n v u _ _ St Gz Hn W Y X V U L). }
  unfold wall_clock in U, V. lia.
Qed.
