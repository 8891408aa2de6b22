(** Specification vocabulary for construction: what a calendar definition says
    about a day, independently of how [build] computes it.  From the model only
    the record of class attributes [definition], [time] and the reading of a
    zone's clock ([wall_clock]) are used. *)
From Coq Require Import ZArith List Sorting.Sorted.
From Verif.Model Require Import Base Zone Build.
From Verif.Spec Require Import Schedule.
Import ListNotations.
Open Scope Z_scope.

Definition one_day : Z := 24 * 60 * one_minute.

Definition is_midnight (x : Z) : Prop := (one_day | x).

(** The weekday of day [x] (Monday is 0, 1970-01-01 was a Thursday) is in the
    mask, and the day is neither a regular nor an ad hoc holiday. *)
Definition trading_day (D : definition) (x : Z) : Prop :=
  nth_error (weekmask D) (Z.to_nat ((x / one_day + 3) mod 7)) = Some true /\
  forall h, In h (regular_holidays D) \/ In h (adhoc_holidays D) ->
    h / one_day <> x / one_day.

(** Day [x] is expected to be a session of the range [start, stop]. *)
Definition session_day (D : definition) (start stop x : Z) : Prop :=
  is_midnight x /\ start <= x <= stop /\ trading_day D x.

(** Local wall-clock time [t] on day [x] shifted by [k] days. *)
Definition local_time (x k : Z) (t : time) : Z :=
  x + k * one_day + (hour t * 3600 + minute t * 60 + second t) * 10 ^ 9.

Definition valid_time (t : time) : Prop :=
  0 <= hour t < 24 /\ 0 <= minute t < 60 /\ 0 <= second t < 60.

(** [u] is the only instant at which the clocks of the zone show [l]. *)
Definition instant_of (z : zone) (l u : Z) : Prop :=
  wall_clock z u = l /\ forall u', wall_clock z u' = l -> u' = u.

(** A table of (start date, time): the entry in force on day [x] is the one with
    the latest start date among those already started; a missing start date is
    earlier than all others. *)
Definition started (s : option Z) (x : Z) : Prop :=
  match s with None => True | Some d => d <= x end.
Definition no_later (s s' : option Z) : Prop :=
  match s, s' with
  | None, _ => True
  | Some _, None => False
  | Some a, Some b => a <= b
  end.
Definition in_force (table : list (option Z * time)) (x : Z) (t : time) : Prop :=
  exists s, In (s, t) table /\ started s x /\
    forall s' t', In (s', t') table -> started s' x -> no_later s' s.

(** The start dates of the table are strictly increasing. *)
Definition well_ordered (table : list (option Z * time)) : Prop :=
  StronglySorted (fun e e' => ~ no_later (fst e') (fst e)) table.

Definition ordered_tables (D : definition) : Prop :=
  well_ordered (open_times D) /\ well_ordered (close_times D) /\
  (forall ts, break_start_times D = Some ts -> well_ordered ts) /\
  (forall ts, break_end_times D = Some ts -> well_ordered ts).

(** Day [x] is given the special time [t], by a regular rule inside the range or
    by an ad hoc list. *)
Definition special_listed (regular : list (time * holiday_calendar))
  (adhoc : list (time * list Z)) (start stop x : Z) (t : time) : Prop :=
  (exists days, In (t, days) regular /\ In x days /\ start <= x <= stop) \/
  (exists days, In (t, days) adhoc /\ In x days).

(** The special time of day [x] is the instant [u], and [u] lies within the
    range. *)
Definition special_at (z : zone) (regular : list (time * holiday_calendar))
  (adhoc : list (time * list Z)) (start stop x u : Z) : Prop :=
  exists t, special_listed regular adhoc start stop x t /\
    instant_of z (local_time x 0 t) u /\ start <= u <= stop.

Definition special_open (D : definition) (start stop x u : Z) : Prop :=
  special_at (tz D) (special_opens D) (special_opens_adhoc D) start stop x u.
Definition special_close (D : definition) (start stop x u : Z) : Prop :=
  special_at (tz D) (special_closes D) (special_closes_adhoc D) start stop x u.

(** No day has two different special opens, or two different special closes. *)
Definition consistent_specials (D : definition) (start stop : Z) : Prop :=
  (forall x u u', special_open D start stop x u -> special_open D start stop x u' -> u = u') /\
  (forall x u u', special_close D start stop x u -> special_close D start stop x u' -> u = u').

(** Regular time of day [x] according to a table. *)
Definition regular_at (D : definition) (table : list (option Z * time)) (k x u : Z) : Prop :=
  exists t, in_force table x t /\ instant_of (tz D) (local_time x k t) u.

(** What the definition says about the open, the close and the break of [x]. *)
Definition expected_open (D : definition) (start stop x u : Z) : Prop :=
  special_open D start stop x u \/
  (forall u', ~ special_open D start stop x u') /\
  regular_at D (open_times D) (open_offset D) x u.
Definition expected_close (D : definition) (start stop x u : Z) : Prop :=
  special_close D start stop x u \/
  (forall u', ~ special_close D start stop x u') /\
  regular_at D (close_times D) (close_offset D) x u.
Definition expected_break (D : definition) (start stop : Z)
  (table : option (list (option Z * time))) (x : Z) (r : option Z) : Prop :=
  match r with
  | None => table = None \/ exists u, special_close D start stop x u
  | Some u => (forall u', ~ special_close D start stop x u') /\
              exists ts, table = Some ts /\ regular_at D ts 0 x u
  end.

(** A schedule row is what the definition says about its day. *)
Definition expected_row (D : definition) (start stop : Z) (s : session) : Prop :=
  session_day D start stop (s_label s) /\
  expected_open D start stop (s_label s) (s_open s) /\
  expected_close D start stop (s_label s) (s_close s) /\
  expected_break D start stop (break_start_times D) (s_label s) (option_map fst (s_break s)) /\
  expected_break D start stop (break_end_times D) (s_label s) (option_map snd (s_break s)).

(** The row as read on the clocks of the zone. *)
Definition local_view (z : zone) (s : session) : session :=
  Session (s_label s) (wall_clock z (s_open s))
    (option_map (fun p => (wall_clock z (fst p), wall_clock z (snd p))) (s_break s))
    (wall_clock z (s_close s)).

(** Read on local clocks, the days described by the definition are in order. *)
Definition locally_well_formed (D : definition) (start stop : Z) : Prop :=
  (forall s, expected_row D start stop s ->
     not_a_time + one_day < s_open (local_view (tz D) s) /\
     ordered_session (local_view (tz D) s) /\ whole_minutes (local_view (tz D) s)) /\
  (forall s1 s2, expected_row D start stop s1 -> expected_row D start stop s2 ->
     s_label s1 < s_label s2 -> precedes (local_view (tz D) s1) (local_view (tz D) s2)).

(** The break tables hold times of day, and the range does not reach down to the
    instant that represents "not a time". *)
Definition representable (D : definition) (start : Z) : Prop :=
  not_a_time + 2 * one_day < start /\
  forall ts s t, break_start_times D = Some ts \/ break_end_times D = Some ts ->
    In (s, t) ts -> valid_time t.

(** Every local time the definition mentions for this range exists exactly once
    on the clocks of the zone. *)
Definition resolvable (D : definition) (start stop : Z) : Prop :=
  (forall x t, session_day D start stop x -> in_force (open_times D) x t ->
     exists u, instant_of (tz D) (local_time x (open_offset D) t) u) /\
  (forall x t, session_day D start stop x -> in_force (close_times D) x t ->
     exists u, instant_of (tz D) (local_time x (close_offset D) t) u) /\
  (forall ts x t, break_start_times D = Some ts \/ break_end_times D = Some ts ->
     session_day D start stop x -> in_force ts x t ->
     exists u, instant_of (tz D) (local_time x 0 t) u) /\
  (forall x t, special_listed (special_opens D) (special_opens_adhoc D) start stop x t ->
     exists u, instant_of (tz D) (local_time x 0 t) u) /\
  (forall x t, special_listed (special_closes D) (special_closes_adhoc D) start stop x t ->
     exists u, instant_of (tz D) (local_time x 0 t) u).

(** Every table has an entry in force on every session day; breaks have a start
    table iff they have an end table. *)
Definition covered (D : definition) (start stop : Z) : Prop :=
  (forall x, session_day D start stop x ->
     (exists t, in_force (open_times D) x t) /\ (exists t, in_force (close_times D) x t) /\
     (forall ts, break_start_times D = Some ts \/ break_end_times D = Some ts ->
        exists t, in_force ts x t)) /\
  (break_start_times D = None <-> break_end_times D = None).

(** Time between consecutive offset changes of a zone is at least the amount by
    which the clocks are set back at either of them. *)
Fixpoint separated (o : Z) (trs : list (Z * Z)) : Prop :=
  match trs with
  | (t, o') :: ((t', o'') :: _) as rest =>
      t < t' /\ o - o' <= t' - t /\ o' - o'' <= t' - t /\ separated o' rest
  | _ => True
  end.

(** Offsets are less than a day and whole minutes; changes are separated. *)
Definition good_zone (z : zone) : Prop :=
  separated (initial_offset z) (transitions z) /\
  Forall (fun o => - one_day < o < one_day /\ (one_minute | o))
    (initial_offset z :: map snd (transitions z)).
