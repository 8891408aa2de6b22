(** trading_calendars/calendar_helpers.py *)
From Coq Require Import ZArith List Bool.
From Verif.Model Require Import Base.
Import ListNotations.
Open Scope Z_scope.

(** calendar_helpers.py:4 [NANOSECONDS_PER_MINUTE = int(6e10)]
    (same value as [NANOS_IN_MINUTE], trading_calendar.py:49). *)
Definition NANOSECONDS_PER_MINUTE : Z := 60000000000.

(** calendar_helpers.py:6 [NP_NAT]: int64 image of NaT, the least int64. *)
Definition NP_NAT : Z := - 2 ^ 63.

(** calendar_helpers.py:9-18 [next_divider_idx]. *)
Definition next_divider_idx (dividers : list Z) (minute_val : Z) : result Z :=
  let divider_idx := searchsorted_right dividers minute_val in
  do target <- pyget dividers divider_idx;
  if minute_val =? target then Ok (divider_idx + 1) else Ok divider_idx.

(** calendar_helpers.py:21-28 [previous_divider_idx]. *)
Definition previous_divider_idx (dividers : list Z) (minute_val : Z)
  : result Z :=
  let divider_idx := searchsorted_left dividers minute_val in
  if divider_idx =? 0 then Raise ValueError else Ok (divider_idx - 1).

(** calendar_helpers.py:46-68, loop body of [compute_all_minutes]: the pieces
    appended for one session. *)
Definition minute_pieces (open_time break_start_time break_end_time close_time : Z)
  : list (list Z) :=
  if negb (break_start_time =? NP_NAT) then
    [ arange open_time (break_start_time + NANOSECONDS_PER_MINUTE)
             NANOSECONDS_PER_MINUTE;
      arange break_end_time (close_time + NANOSECONDS_PER_MINUTE)
             NANOSECONDS_PER_MINUTE ]
  else
    [ arange open_time (close_time + NANOSECONDS_PER_MINUTE)
             NANOSECONDS_PER_MINUTE ].

(** calendar_helpers.py:43-45, the loop over [zip(opens, break_starts,
    break_ends, closes)] (zip stops at the shortest). *)
Fixpoint all_pieces (opens bstarts bends closes : list Z) : list (list Z) :=
  match opens, bstarts, bends, closes with
  | o :: os, bs :: bss, be :: bes, c :: cs =>
      minute_pieces o bs be c ++ all_pieces os bss bes cs
  | _, _, _, _ => []
  end.

(** calendar_helpers.py:31-70 [compute_all_minutes]; [np.concatenate([])]
    raises ValueError. *)
Definition compute_all_minutes (opens bstarts bends closes : list Z)
  : result (list Z) :=
  match all_pieces opens bstarts bends closes with
  | [] => Raise ValueError
  | pieces => Ok (concat pieces)
  end.
