(** When a market is open, from the published information alone: the almanac, the
    festivals and the single closures say which days are trading days, and the
    timetable says from when to when they are traded.  The model is used for the
    reading of a zone's clocks, and at the end for the methods a user calls. *)
From Coq Require Import String ZArith List.
From Verif.Model Require Import Base Zone Queries Build Holidays.
From Verif.Spec Require Import Schedule Construction Civil Rules Feasts Venue Almanac Hours Festivals.
Import ListNotations.
Open Scope Z_scope.

(** The exchange trades on day [n].  Annual holidays are known from 1970 to 2200. *)
Definition market_day (name : string) (n : Z) : Prop :=
  if String.eqb name "XTAE"
  then In (day_of_week n) [SUNDAY; MONDAY; TUESDAY; WEDNESDAY; THURSDAY] /\
       ~ (known_year n /\ exists y, 2 <= y <= 9998 /\ tel_aviv_holiday y n) /\ ~ single_closure name n
  else workday n /\ ~ (known_year n /\ annual_closure name n) /\ ~ single_closure name n.

(** The time at which it closes on day [n]. *)
Definition last_call (H : hours) (n : Z) (c : clock) : Prop :=
  early_closing H n c \/ (forall c', ~ early_closing H n c') /\ closing H n c.

(** The hours of day [n]: from the minute after the opening, on the evening before if
    it trades overnight, to the closing time.  Lunch is from the minute after its
    start to its end, and left out on days that close early. *)
Definition trading_hours (H : hours) (z : zone) (n : Z) (s : session) : Prop :=
  s_label s = at_midnight_of n /\
  (exists c, opening H n c /\
     instant_of z (local_time (at_midnight_of n) (- nights H) (minute_after c)) (s_open s)) /\
  (exists c, last_call H n c /\ instant_of z (local_time (at_midnight_of n) 0 (time_of c)) (s_close s)) /\
  match s_break s with
  | None => lunch H = None \/ exists c, early_closing H n c
  | Some (u, v) => (forall c, ~ early_closing H n c) /\
      exists from till, lunch H = Some (from, till) /\
        instant_of z (local_time (at_midnight_of n) 0 (minute_after from)) u /\
        instant_of z (local_time (at_midnight_of n) 0 (time_of till)) v
  end.

Definition market_session (name : string) (z : zone) (s : session) : Prop :=
  exists H n, In (name, H) timetable /\ market_day name n /\ trading_hours H z n s.

(** The market is open at instant [t]; the first minute of a session always counts. *)
Definition market_open (name : string) (z : zone) (t : Z) : Prop :=
  exists s, market_session name z s /\ during s t /\ (t = s_open s \/ ~ in_break s t).

(** ** What a user is told *)

(** All but the first and the last days of a range. *)
Definition inside (start stop n : Z) : Prop := start <= at_midnight_of (n - 1) /\ at_midnight_of (n + 2) <= stop.

(** The answers of a calendar are those of the published sessions, except within a few
    days of the ends of its range. *)
Definition tells_the_market (name : string) (z : zone) (start stop : Z) (c : calendar) : Prop :=
  (* the sessions, their times and their minutes *)
  (forall n, inside start stop n ->
     (is_session c (at_midnight_of n) = true <-> market_day name n) /\
     (market_day name n -> exists s, market_session name z s /\ s_label s = at_midnight_of n)) /\
  (forall n s, inside start stop n -> market_session name z s -> s_label s = at_midnight_of n ->
     session_open c (s_label s) = Ok (s_open s) /\ session_close c (s_label s) = Ok (s_close s) /\
     session_break_start c (s_label s) = Ok (option_map fst (s_break s)) /\
     session_break_end c (s_label s) = Ok (option_map snd (s_break s)) /\
     exists l, minutes_for_session c (s_label s) = Ok l /\ lists_exactly (session_minute s) l) /\
  (* whether it is open *)
  (forall t, start + 3 * one_day <= t <= stop - 4 * one_day ->
     exists r, is_open_on_minute c t false = Ok r /\ (r = true <-> market_open name z t)) /\
  (* the next and previous opens and closes *)
  (forall t x, start + 3 * one_day <= t -> x <= stop - 4 * one_day ->
     (next_open c t = Ok x <->
      least (fun y => (exists s, market_session name z s /\ y = s_open s) /\ t < y) x) /\
     (next_close c t = Ok x <->
      least (fun y => (exists s, market_session name z s /\ y = s_close s) /\ t < y) x)) /\
  (forall t x, start + 3 * one_day <= x -> t <= stop - 4 * one_day ->
     (previous_open c t = Ok x <->
      greatest (fun y => (exists s, market_session name z s /\ y = s_open s) /\ y < t) x) /\
     (previous_close c t = Ok x <->
      greatest (fun y => (exists s, market_session name z s /\ y = s_close s) /\ y < t) x)) /\
  (* the session of a minute *)
  (forall t s, start + 3 * one_day <= t <= stop - 4 * one_day -> market_session name z s -> during s t ->
     fst (minute_to_session_label c None t "next") = Ok (s_label s) /\
     fst (minute_to_session_label c None t "previous") = Ok (s_label s)).
