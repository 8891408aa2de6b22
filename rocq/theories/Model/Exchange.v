(** Exchanges: the class attributes of an exchange calendar, with its holiday
    rules, and the calendar they define over a date range. *)
From Coq Require Import ZArith String List Bool.
From Verif.Model Require Import Base Dates Zone Build Holidays.
Import ListNotations.
Open Scope Z_scope.
Open Scope list_scope.

(** A date given as year, month and day ([pd.Timestamp('2011-03-07')]). *)
Definition ymd (y m d : Z) : Z := days_from_civil y m d.

(** The overridable attributes of a calendar class (trading_calendar.py:203-366):
    as [Build.definition], with rules for the holidays, and dates as day
    numbers.  The time zone is named here and supplied as data. *)
Record exchange : Type := Exchange {
  ex_tz : string;
  ex_weekmask : list bool;
  ex_regular_holidays : list rule;
  ex_adhoc_holidays : list Z;
  ex_open_times : list (option Z * time);
  ex_break_start_times : option (list (option Z * time));
  ex_break_end_times : option (list (option Z * time));
  ex_close_times : list (option Z * time);
  ex_open_offset : Z;
  ex_close_offset : Z;
  ex_special_opens : list (time * list rule);
  ex_special_opens_adhoc : list (time * list Z);
  ex_special_closes : list (time * list rule);
  ex_special_closes_adhoc : list (time * list Z)
}.

(** trading_calendar.py:253-264 [weekmask]: '1111100' *)
Definition weekmask_default : list bool := [true; true; true; true; true; false; false].

Definition at_midnight (ts : list (option Z * time)) : list (option Z * time) :=
  map (fun p => (option_map midnight (fst p), snd p)) ts.

(** The calendar object of the exchange in zone [z], as constructed for
    [start .. stop].  The regular holidays are [regular_holidays.holidays()], over
    pandas' default range (pandas [CustomBusinessDay(calendar=...)],
    trading_calendar.py:203-209); the special dates are asked for in the range of
    the calendar (trading_calendar.py:1086-1107, 1158-1168). *)
Definition instantiate (E : exchange) (z : zone) (start stop : Z) : definition :=
  Definition_ z (ex_weekmask E)
    (calendar_holidays (ex_regular_holidays E) DEFAULT_HOLIDAY_START DEFAULT_HOLIDAY_END)
    (map midnight (ex_adhoc_holidays E))
    (at_midnight (ex_open_times E))
    (option_map at_midnight (ex_break_start_times E))
    (option_map at_midnight (ex_break_end_times E))
    (at_midnight (ex_close_times E))
    (ex_open_offset E) (ex_close_offset E)
    (map (fun p => (fst p, calendar_holidays (snd p) start stop)) (ex_special_opens E))
    (map (fun p => (fst p, map midnight (snd p))) (ex_special_opens_adhoc E))
    (map (fun p => (fst p, calendar_holidays (snd p) start stop)) (ex_special_closes E))
    (map (fun p => (fst p, map midnight (snd p))) (ex_special_closes_adhoc E)).

(** Constructing the calendar, e.g. [XNYSExchangeCalendar(start, end)]. *)
Definition build_exchange (E : exchange) (z : zone) (start stop : Z) : result built :=
  build (instantiate E z start stop) start stop.

(** ** Computations on lists of dates in the exchange modules *)

(** [dates + timedelta(n)] *)
Definition shift (n : Z) (dates : list Z) : list Z := map (fun d => d + n) dates.
(** [pd.date_range(a, b)] and, with freq='B', the Mondays to Fridays. *)
Definition every_day (a b : Z) : list Z := year_range a b.
Definition every_weekday (a b : Z) : list Z := filter (fun d => weekday d <? 5) (every_day a b).
(** [list(set(a) - set(b))], in the order of [a]: the order is arbitrary in Python. *)
Definition set_difference (a b : list Z) : list Z :=
  filter (fun d => negb (memb d b)) (nodup Z.eq_dec a).

(** exchange_calendar_asex.py:41-50 *)
Definition orthodox_easter_dates (start_year end_year : Z) : list Z :=
  map orthodox_easter (year_range start_year (end_year - 1)).

(** exchange_calendar_xtai.py:48-106 *)
Definition before_chinese_new_year_offset (holidays : list Z) : list Z :=
  map previous_friday holidays.
Definition chinese_new_year_offset (holidays : list Z) : list Z := map next_monday holidays.
Definition nearest_workday_after_2013 (dt : Z) : Z :=
  if 2013 <? year_of dt then nearest_workday dt else dt.
Definition manual_nearest_workday (holidays : list Z) : list Z :=
  map nearest_workday_after_2013 holidays.
Definition manual_extra_days (holidays : list Z) : list Z :=
  map (fun d => d + 1) (filter (fun d => (weekday d =? THURSDAY) && (2006 <? year_of d)) holidays) ++
  map (fun d => d - 1) (filter (fun d => (weekday d =? TUESDAY) && (2006 <? year_of d)) holidays).

(** exchange_calendar_xsgo.py:271-275 *)
Definition starting_dates_and_close_times : list (option Z * time) :=
  (None, Time 17 0 0) ::
  flat_map (fun year => [(Some (ymd year 3 1), Time 16 0 0); (Some (ymd year 11 1), Time 17 0 0)])
    (year_range 1980 2049).

(** exchange_calendar_xhkg.py:455-473: the dates from each start up to the next. *)
Fixpoint split_by_times (times : list (option Z * time)) (arr : list Z) : list (time * list Z) :=
  match times with
  | [] => []
  | (start, t) :: rest =>
      let stop := match rest with (s, _) :: _ => s | [] => None end in
      (t, filter (fun d => match start with Some s => s <=? d | None => true end &&
                           match stop with Some e => d <? e | None => true end) arr)
      :: split_by_times rest arr
  end.

(** exchange_calendar_xhkg.py:297-326 [XHKGExchangeCalendar.__init__]: after
    construction, refuse sessions outside the years of every lunisolar table. *)
Definition list_min (l : list Z) : Z := fold_right Z.min (hd 0 l) l.
Definition list_max (l : list Z) : Z := fold_right Z.max (hd 0 l) l.
Definition build_lunisolar (E : exchange) (tables : list (list Z)) (z : zone) (start stop : Z)
  : result built :=
  match build_exchange E z start stop with
  | Raise e => Raise e
  | Ok b =>
      let earliest := year_of (list_max (map list_min tables)) in
      let latest := year_of (list_min (map list_max tables)) in
      if year_of (day_of (first_trading_session b)) <? earliest then Raise ValueError
      else if latest <? year_of (day_of (last_trading_session b)) then Raise ValueError
      else Ok b
  end.
