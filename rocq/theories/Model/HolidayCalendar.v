(** pandas 1.1.3 [AbstractHolidayCalendar.holidays] (tseries/holiday.py:336-397) with its
    cache, as used through trading_calendars' HolidayCalendar objects (the regular_holidays,
    special_opens and special_closes of trading_calendar.py and of every exchange, and
    [scheduled_special_times], trading_calendar.py:1158-1168).  Holidays.v describes the answer of
    a calendar that is asked once; here one object is asked again and again. *)
From Coq Require Import ZArith List Bool.
From Verif.Model Require Import Base Dates Holidays.
Import ListNotations.
Open Scope Z_scope.

(** One call [calendar.holidays(start, end)].  The ends have both a time zone (UTC, as
    [scheduled_special_times] is called) or both none; left out, they are the default
    dates, which have none.  Simplification: other mixtures of zones are left out, and so is
    a call with a zone on a calendar without rules or with a rule for one year only, whose
    date has no zone (there are such rules among the regular holidays of Sao Paulo and
    Tokyo, which trading_calendar.py asks without a zone). *)
Inductive request : Type :=
| Default
| Between (aware : bool) (start stop : Z).
Definition req_aware (q : request) : bool := match q with Default => false | Between a _ _ => a end.
Definition req_start (q : request) : Z := match q with Default => DEFAULT_HOLIDAY_START | Between _ s _ => s end.
Definition req_stop (q : request) : Z := match q with Default => DEFAULT_HOLIDAY_END | Between _ _ e => e end.

(** [Series.sort_index()] of the dates (names are left out). *)
Fixpoint insert_date (x : Z) (l : list Z) : list Z :=
  match l with
  | [] => [x]
  | y :: l' => if x <=? y then x :: l else y :: insert_date x l'
  end.
Definition sort_dates (l : list Z) : list Z := fold_right insert_date [] l.

(** The object: its rules and [self._cache], the ends (and whether they have a zone) and
    the sorted dates of the last computation. *)
Record holiday_calendar : Type := HolidayCalendar_ {
  hc_rules : list rule;
  hc_cache : option (bool * Z * Z * list Z)
}.
(** [HolidayCalendar(rules=...)] *)
Definition HolidayCalendar (rules : list rule) : holiday_calendar := HolidayCalendar_ rules None.

(** The computation when the cache does not cover the range. *)
Definition compute_holidays (h : holiday_calendar) (q : request) : holiday_calendar :=
  HolidayCalendar_ (hc_rules h)
    (Some (req_aware q, req_start q, req_stop q,
      sort_dates (map midnight (flat_map (fun r => rule_dates r (req_start q) (req_stop q)) (hc_rules h))))).
(** [holidays[start:end]] of the sorted dates. *)
Definition cached_between (h : holiday_calendar) (q : request) : list Z :=
  match hc_cache h with
  | Some (_, _, _, dates) => filter (fun x => (req_start q <=? x) && (x <=? req_stop q)) dates
  | None => []
  end.
(** [holidays]: comparing timestamps of which only one has a zone is a TypeError. *)
Definition holidays (h : holiday_calendar) (q : request) : result (list Z) * holiday_calendar :=
  match hc_cache h with
  | None => let h := compute_holidays h q in (Ok (cached_between h q), h)
  | Some (aware, first, last, _) =>
      if xorb aware (req_aware q) then (Raise TypeError, h)
      else
        let h := if (req_start q <? first) || (last <? req_stop q) then compute_holidays h q else h in
        (Ok (cached_between h q), h)
  end.

(** A sequence of calls on one object. *)
Fixpoint holidays_history (h : holiday_calendar) (qs : list request) : list (result (list Z)) :=
  match qs with
  | [] => []
  | q :: qs' => let (a, h') := holidays h q in a :: holidays_history h' qs'
  end.
