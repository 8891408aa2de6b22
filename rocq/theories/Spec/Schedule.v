(** Specification vocabulary for schedules: what a schedule is, when it is well
    formed, and what "trading minute", "least", "greatest" mean.  The only
    reference to the model is [has_schedule], which says that a calendar object
    was made from the columns of a given schedule table. *)
From Coq Require Import ZArith List Sorting.Sorted.
From Verif.Model Require Import Base Queries.
Import ListNotations.
Open Scope Z_scope.

(** One row of the schedule: label (midnight UTC), open, optional break
    (start, end), close; all in nanoseconds UTC. *)
Record session : Type := Session {
  s_label : Z;
  s_open : Z;
  s_break : option (Z * Z);
  s_close : Z
}.

(** Sixty seconds, in nanoseconds. *)
Definition one_minute : Z := 60 * 10 ^ 9.

(** The instant that represents "not a time" (least int64). *)
Definition not_a_time : Z := - 2 ^ 63.

(** A session opens no later than it closes; a break starts no earlier than the
    open, has positive length and ends no later than the close.  All instants
    are later than the not-a-time marker. *)
Definition ordered_session (s : session) : Prop :=
  not_a_time < s_open s /\
  match s_break s with
  | None => s_open s <= s_close s
  | Some (bs, be) => s_open s <= bs /\ bs < be /\ be <= s_close s
  end.

(** The trading periods last a whole number of minutes. *)
Definition whole_minutes (s : session) : Prop :=
  match s_break s with
  | None => (one_minute | s_close s - s_open s)
  | Some (bs, be) => (one_minute | bs - s_open s) /\ (one_minute | s_close s - be)
  end.

(** A session precedes another: smaller label, and closed before the other
    opens. *)
Definition precedes (s1 s2 : session) : Prop :=
  s_label s1 < s_label s2 /\ s_close s1 < s_open s2.

Definition well_formed (ss : list session) : Prop :=
  Forall ordered_session ss /\ Forall whole_minutes ss /\
  StronglySorted precedes ss.

(** The calendar object [c] was made from the schedule table [ss]. *)
Definition has_schedule (c : calendar) (ss : list session) : Prop :=
  make_calendar
    (map s_label ss)
    (map s_open ss)
    (map (fun s => match s_break s with Some (b, _) => b | None => not_a_time end) ss)
    (map (fun s => match s_break s with Some (_, e) => e | None => not_a_time end) ss)
    (map s_close ss) = Ok c.

(** Instant [t] lies in the session (break included). *)
Definition during (s : session) (t : Z) : Prop := s_open s <= t <= s_close s.

(** Instant [t] lies in the break of the session (start included, end not). *)
Definition in_break (s : session) (t : Z) : Prop :=
  match s_break s with
  | None => False
  | Some (bs, be) => bs <= t < be
  end.

Definition has_break (s : session) : bool :=
  match s_break s with None => false | Some _ => true end.

(** [t] is one of the trading minutes of session [s]: counted in whole minutes
    from the open up to the break start (or the close), or from the break end
    up to the close, ends included. *)
Definition session_minute (s : session) (t : Z) : Prop :=
  match s_break s with
  | None => s_open s <= t <= s_close s /\ (one_minute | t - s_open s)
  | Some (bs, be) =>
      (s_open s <= t <= bs /\ (one_minute | t - s_open s)) \/
      (be <= t <= s_close s /\ (one_minute | t - be))
  end.

(** [t] is a trading minute of the schedule. *)
Definition trading_minute (ss : list session) (t : Z) : Prop :=
  exists s, In s ss /\ session_minute s t.

(** [x] is the open / the close / the label of some session. *)
Definition is_open_of (ss : list session) (x : Z) : Prop := exists s, In s ss /\ x = s_open s.
Definition is_close_of (ss : list session) (x : Z) : Prop := exists s, In s ss /\ x = s_close s.
Definition is_label_of (ss : list session) (x : Z) : Prop := exists s, In s ss /\ x = s_label s.

Definition least (P : Z -> Prop) (x : Z) : Prop :=
  P x /\ forall y, P y -> x <= y.

Definition greatest (P : Z -> Prop) (x : Z) : Prop :=
  P x /\ forall y, P y -> y <= x.

(** [l] lists exactly the elements satisfying [P], in increasing order and
    without repetition. *)
Definition lists_exactly (P : Z -> Prop) (l : list Z) : Prop :=
  StronglySorted Z.lt l /\ forall x, In x l <-> P x.
