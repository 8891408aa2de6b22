(** Holiday rules: [pandas.tseries.holiday.Holiday] with its offsets and
    observances, [dateutil.easter], the observance functions defined in the repo,
    and [HolidayCalendar] (trading_calendars/trading_calendar.py:1249-1251).
    Dates are day numbers (Dates.v). *)
From Coq Require Import ZArith List Bool.
From Verif.Model Require Import Base Dates.
Import ListNotations.
Open Scope Z_scope.

(** trading_calendar.py:50-52 (and [calendar.MONDAY] ...) *)
Definition MONDAY : Z := 0.
Definition TUESDAY : Z := 1.
Definition WEDNESDAY : Z := 2.
Definition THURSDAY : Z := 3.
Definition FRIDAY : Z := 4.
Definition SATURDAY : Z := 5.
Definition SUNDAY : Z := 6.
Definition WEEKDAYS : list Z := [MONDAY; TUESDAY; WEDNESDAY; THURSDAY; FRIDAY].
Definition WEEKENDS : list Z := [SATURDAY; SUNDAY].

(** [x in tuple] *)
Definition memb (x : Z) (l : list Z) : bool := existsb (Z.eqb x) l.

(** ** Library: dateutil and pandas *)

(** dateutil 2.8.1 [easter(year)], method 3 (western). *)
Definition easter (y : Z) : Z :=
  let g := y mod 19 in
  let c := y / 100 in
  let h := (c - c / 4 - (8 * c + 13) / 25 + 19 * g + 15) mod 30 in
  let i := h - (h / 28) * (1 - (h / 28) * (29 / (h + 1)) * ((21 - g) / 11)) in
  let j := (y + y / 4 + i + 2 - c + c / 4) mod 7 in
  let p := i - j in
  let d := 1 + (p + 27 + (p + 6) / 40) mod 31 in
  let m := 3 + (p + 26) / 30 in
  days_from_civil y m d.

(** dateutil 2.8.1 [easter(year, EASTER_ORTHODOX)], method 2. *)
Definition orthodox_easter (y : Z) : Z :=
  let g := y mod 19 in
  let i := (19 * g + 15) mod 30 in
  let j := (y + y / 4 + i) mod 7 in
  let e := if 1600 <? y then 10 + y / 100 - 16 - (y / 100 - 16) / 4 else 10 in
  let p := i - j + e in
  let d := 1 + (p + 27 + (p + 6) / 40) mod 31 in
  let m := 3 + (p + 26) / 30 in
  days_from_civil y m d.

(** Offsets that can be added to a reference date. *)
Inductive offset : Type :=
| Day (n : Z)                        (* pandas Day(n) *)
| NthWeekday (wd n : Z)              (* DateOffset(weekday=WD(n)), relativedelta *)
| Easter                             (* pandas Easter() *)
| Yearly (holiday : Z -> Z)          (* tase_holidays.py:221-259 _HolidayOffset *)
| WeekOfMonth (week wd : Z)          (* pandas WeekOfMonth(week, weekday) *)
| LastWeekOfMonth (wd : Z).          (* pandas LastWeekOfMonth(weekday) *)

(** relativedelta's [weekday(n)] *)
Definition nth_weekday (wd n d : Z) : Z :=
  if 0 <? n then d + (n - 1) * 7 + (7 - weekday d + wd) mod 7
  else d - ((- n - 1) * 7 + (weekday d - wd) mod 7).

(** pandas [Easter.apply] with n = 1; tase_holidays.py:221-259 is the same. *)
Definition apply_yearly (holiday : Z -> Z) (d : Z) : Z :=
  let y := year_of d in
  if d <? holiday y then holiday y else holiday (y + 1).

Definition next_month (y m : Z) : Z * Z := if m =? 12 then (y + 1, 1) else (y, m + 1).

(** pandas [WeekOfMonthMixin.apply] with n = 1: [day_in y m] is the day of the
    month that satisfies the offset. *)
Definition apply_monthly (day_in : Z -> Z -> Z) (d : Z) : Z :=
  let '(y, m) := (year_of d, month_of d) in
  let '(y', m') := if mday_of d <? day_in y m then (y, m) else next_month y m in
  days_from_civil y' m' (day_in y' m').
Definition week_of_month_day (week wd y m : Z) : Z :=
  1 + (wd - weekday (days_from_civil y m 1)) mod 7 + week * 7.
Definition last_week_of_month_day (wd y m : Z) : Z :=
  let '(y', m') := next_month y m in
  let last := days_from_civil y' m' 1 - 1 in
  last - days_from_civil y m 1 + 1 - (weekday last - wd) mod 7.

Definition apply_offset (o : offset) (d : Z) : Z :=
  match o with
  | Day n => d + n
  | NthWeekday wd n => nth_weekday wd n d
  | Easter => apply_yearly easter d
  | Yearly holiday => apply_yearly holiday d
  | WeekOfMonth week wd => apply_monthly (week_of_month_day week wd) d
  | LastWeekOfMonth wd => apply_monthly (last_week_of_month_day wd) d
  end.

(** pandas observance functions. *)
Definition sunday_to_monday (dt : Z) : Z := if weekday dt =? 6 then dt + 1 else dt.
Definition weekend_to_monday (dt : Z) : Z :=
  if weekday dt =? 6 then dt + 1 else if weekday dt =? 5 then dt + 2 else dt.
Definition nearest_workday (dt : Z) : Z :=
  if weekday dt =? 5 then dt - 1 else if weekday dt =? 6 then dt + 1 else dt.
Definition next_monday (dt : Z) : Z :=
  if weekday dt =? 5 then dt + 2 else if weekday dt =? 6 then dt + 1 else dt.
Definition next_monday_or_tuesday (dt : Z) : Z :=
  let dow := weekday dt in
  if (dow =? 5) || (dow =? 6) then dt + 2 else if dow =? 0 then dt + 1 else dt.
Definition previous_friday (dt : Z) : Z :=
  if weekday dt =? 5 then dt - 1 else if weekday dt =? 6 then dt - 2 else dt.
(** [dt -= 1 day], then again while it is a weekend day. *)
Definition previous_workday (dt : Z) : Z :=
  let dt := dt - 1 in
  let dt := if weekday dt >? 4 then dt - 1 else dt in
  if weekday dt >? 4 then dt - 1 else dt.

(** ** Observance functions of the repo *)

(** us_holidays.py:41-42.  [DateOffset(years=k)] on November 2nd. *)
Definition following_tuesday_every_four_years_observance (dt : Z) : Z :=
  let y := year_of dt in
  let y' := y + (4 - y mod 4) mod 4 in
  nth_weekday TUESDAY 1 (days_from_civil y' (month_of dt) (mday_of dt)).

(** exchange_calendar_xcbf.py:28-46; NaT (no date) is the empty list. *)
Definition good_friday_unless_christmas_nye_friday (dt : Z) : list Z :=
  let y := year_of dt in
  let christmas_weekday := weekday (nearest_workday (days_from_civil y 12 25)) in
  let nyd_weekday := weekday (sunday_to_monday (days_from_civil y 1 1)) in
  if negb (christmas_weekday =? 4) && negb (nyd_weekday =? 4)
  then [apply_offset (Day (-2)) (apply_offset Easter dt)] else [].

(** exchange_calendar_xbud.py:42-51 *)
Definition four_day_weekend (dt : list Z) : list Z :=
  let mon := map (fun d => d - 1) (filter (fun d => weekday d =? TUESDAY) dt) in
  let fri := map (fun d => d + 1) (filter (fun d => weekday d =? THURSDAY) dt) in
  dt ++ mon ++ fri.

(** exchange_calendar_xbue.py:46-60.  The loop adds days until Monday. *)
Definition xbue_nearest_monday (dt : Z) : Z :=
  let day := weekday dt in
  if memb day [MONDAY; TUESDAY; WEDNESDAY] then dt - day
  else dt + (7 - day).

(** exchange_calendar_xbue.py:63-72 *)
Definition cultural_diversity_observance (holidays : list Z) : list Z :=
  filter (fun d => negb (year_of d =? 2012)) (map xbue_nearest_monday holidays).

(** exchange_calendar_xbue.py:75-79, exchange_calendar_xsgo.py:77-83,
    exchange_calendar_xwar.py:40-45: drop the dates of one year. *)
Definition not_in_year (year : Z) (holidays : list Z) : list Z :=
  filter (fun d => negb (year_of d =? year)) holidays.

(** exchange_calendar_xhkg.py:73-85 *)
Definition process_queen_birthday (dt : Z) : Z :=
  let y := year_of dt in
  if memb y [1974; 1981] then nth_weekday SUNDAY 1 dt
  else if y <? 1983 then sunday_to_monday dt
  else
    let week := if memb y [1983; 1988; 1993; 1994] then 1 else 2 in
    let week := if y =? 1985 then 3 else week in
    apply_offset (WeekOfMonth week MONDAY) dt.

(** exchange_calendar_xhkg.py:238-241: [dt.weekday] is not called, and a method is
    never equal to a number. *)
Definition boxing_day_obs (dt : Z) : Z := dt.

(** exchange_calendar_xmos.py:27-66: drop the dates of some years, then
    weekend_to_monday.  Also xbkk_holidays.py:16-20 (2003). *)
Definition weekend_to_monday_except (years : list Z) (holidays : list Z) : list Z :=
  map weekend_to_monday (filter (fun d => negb (memb (year_of d) years)) holidays).

(** xbkk_holidays.py:23-27 *)
Definition xbkk_new_years_day_observance (holidays : list Z) : list Z :=
  map next_monday_or_tuesday (filter (fun d => negb (year_of d =? 2006)) holidays).

(** xbkk_holidays.py:30-37 *)
Definition songkran_festival_last_day_observance (dt : Z) : Z :=
  if (weekday dt =? SUNDAY) || (weekday dt =? MONDAY) then dt + 1 else dt.

(** exchange_calendar_xphs.py:46-52 *)
Definition only_friday (dt : list Z) : list Z := filter (fun d => weekday d =? FRIDAY) dt.

(** exchange_calendar_xsgo.py:47-59 *)
Definition xsgo_nearest_monday (dt : Z) : Z :=
  let day := weekday dt in
  if memb day [TUESDAY; WEDNESDAY; THURSDAY] then dt - (day - MONDAY)
  else if day =? FRIDAY then dt + 3
  else dt.

(** exchange_calendar_xsgo.py:62-74 *)
Definition tuesday_and_wednesday_to_friday (dt : Z) : Z :=
  let day := weekday dt in
  if day =? TUESDAY then dt - 4 else if day =? WEDNESDAY then dt + 2 else dt.

(** exchange_calendar_xtai.py:109-132 *)
Definition taiwan_makeup_rule (holidays : list Z) : list Z :=
  let mon := map (fun d => d - 1) (filter (fun d => weekday d =? TUESDAY) holidays) in
  let fri := map (fun d => d + 1) (filter (fun d => weekday d =? THURSDAY) holidays) in
  let mon_makeups := map (fun d => d + 1) (filter (fun d => weekday d =? SUNDAY) holidays) in
  let fri_makeups := map (fun d => d - 1) (filter (fun d => weekday d =? SATURDAY) holidays) in
  let extras := mon ++ mon_makeups ++ fri ++ fri_makeups in
  holidays ++ filter (fun d => 2013 <? year_of d) extras.

(** xtks_holidays.py:17-32 *)
Definition sunday_to_tuesday (dt : Z) : Z := if weekday dt =? SUNDAY then dt + 2 else dt.
Definition sunday_to_wednesday (dt : Z) : Z := if weekday dt =? SUNDAY then dt + 3 else dt.

(** ** Rules *)

(** The observances that occur in the repo.  pandas applies one to the whole
    index of reference dates, and element by element if that raises
    ([DatetimeIndex.map]). *)
Inductive observance : Type :=
| Sunday_to_monday | Weekend_to_monday | Nearest_workday | Next_monday
| Next_monday_or_tuesday | Previous_friday | Previous_workday
| Following_tuesday_every_four_years | Good_friday_unless_christmas_nye_friday
| Four_day_weekend | Cultural_diversity | Not_in_year (year : Z)
| Next_monday_offset            (* exchange_calendar_xbog.py:43: DateOffset(weekday=MO(1)) *)
| Process_queen_birthday | Boxing_day_obs
| Weekend_to_monday_except (years : list Z)
| Xbkk_new_years_day | Songkran_festival_last_day | Only_friday
| Xsgo_nearest_monday | Tuesday_and_wednesday_to_friday
| Taiwan_makeup_rule | Sunday_to_tuesday | Sunday_to_wednesday.

Definition apply_observance (o : observance) (dates : list Z) : list Z :=
  match o with
  | Sunday_to_monday => map sunday_to_monday dates
  | Weekend_to_monday => map weekend_to_monday dates
  | Nearest_workday => map nearest_workday dates
  | Next_monday => map next_monday dates
  | Next_monday_or_tuesday => map next_monday_or_tuesday dates
  | Previous_friday => map previous_friday dates
  | Previous_workday => map previous_workday dates
  | Following_tuesday_every_four_years => map following_tuesday_every_four_years_observance dates
  | Good_friday_unless_christmas_nye_friday => flat_map good_friday_unless_christmas_nye_friday dates
  | Four_day_weekend => four_day_weekend dates
  | Cultural_diversity => cultural_diversity_observance dates
  | Not_in_year y => not_in_year y dates
  | Next_monday_offset => map (nth_weekday MONDAY 1) dates
  | Process_queen_birthday => map process_queen_birthday dates
  | Boxing_day_obs => map boxing_day_obs dates
  | Weekend_to_monday_except ys => weekend_to_monday_except ys dates
  | Xbkk_new_years_day => xbkk_new_years_day_observance dates
  | Songkran_festival_last_day => map songkran_festival_last_day_observance dates
  | Only_friday => only_friday dates
  | Xsgo_nearest_monday => map xsgo_nearest_monday dates
  | Tuesday_and_wednesday_to_friday => map tuesday_and_wednesday_to_friday dates
  | Taiwan_makeup_rule => taiwan_makeup_rule dates
  | Sunday_to_tuesday => map sunday_to_tuesday dates
  | Sunday_to_wednesday => map sunday_to_wednesday dates
  end.

(** [pandas.tseries.holiday.Holiday]; start and end dates are midnights. *)
Record rule : Type := Rule {
  r_year : option Z;
  r_month : Z;
  r_day : Z;
  r_offset : list offset;
  r_observance : option observance;
  r_days_of_week : option (list Z);
  r_start : option Z;
  r_end : option Z
}.

(** [Holiday(name, year=None, month, day, offset, observance, start_date, end_date,
    days_of_week)] *)
Definition Holiday (month day : Z) (offset : list offset) (observance : option observance)
  (start_date end_date : option Z) (days_of_week : option (list Z)) : rule :=
  Rule None month day offset observance days_of_week start_date end_date.
Definition Holiday_in_year (year month day : Z) : rule :=
  Rule (Some year) month day [] None None None None.

(** Years [a], [a + 1], ..., [b]. *)
Definition year_range (a b : Z) : list Z :=
  map (fun k => a + Z.of_nat k) (seq 0 (Z.to_nat (b + 1 - a))).

(** pandas [Holiday._reference_dates]: the month and day in every year from the
    one before the start to the one after the end. *)
Definition reference_dates (r : rule) (start stop : Z) : list Z :=
  let first := match r_start r with Some s => s | None => day_of start end in
  let last := match r_end r with Some e => e | None => day_of stop end in
  map (fun y => days_from_civil y (r_month r) (r_day r))
    (year_range (year_of first - 1) (year_of last + 1)).

(** pandas [Holiday._apply_rule] *)
Definition apply_rule (r : rule) (dates : list Z) : list Z :=
  match r_observance r with
  | Some o => apply_observance o dates
  | None => fold_left (fun ds o => map (apply_offset o) ds) (r_offset r) dates
  end.

(** pandas [Holiday.dates(start, end)] for timestamps [start] and [stop]. *)
Definition rule_dates (r : rule) (start stop : Z) : list Z :=
  match r_year r with
  | Some y => [days_from_civil y (r_month r) (r_day r)]
  | None =>
      let dates := apply_rule r (reference_dates r start stop) in
      let dates := match r_days_of_week r with
                   | Some dow => filter (fun d => memb (weekday d) dow) dates
                   | None => dates
                   end in
      let first := match r_start r with Some s => Z.max (midnight s) start | None => start end in
      let last := match r_end r with Some e => Z.min (midnight e) stop | None => stop end in
      filter (fun d => (first <=? midnight d) && (midnight d <=? last)) dates
  end.

(** pandas [AbstractHolidayCalendar.holidays(start, end)], as timestamps.
    Simplification: pandas also sorts; the uses of the result either test
    membership or sort again. *)
Definition calendar_holidays (rules : list rule) (start stop : Z) : list Z :=
  filter (fun x => (start <=? x) && (x <=? stop))
    (map midnight (flat_map (fun r => rule_dates r start stop) rules)).

(** [AbstractHolidayCalendar.start_date] and [end_date], used by
    [regular_holidays.holidays()]. *)
Definition DEFAULT_HOLIDAY_START : Z := midnight (days_from_civil 1970 1 1).
Definition DEFAULT_HOLIDAY_END : Z := midnight (days_from_civil 2200 12 31).

(** Holidays exported by pandas.tseries.holiday. *)
Definition GoodFriday : rule := Holiday 1 1 [Easter; Day (-2)] None None None None.
Definition EasterMonday : rule := Holiday 1 1 [Easter; Day 1] None None None None.
Definition pd_USLaborDay : rule := Holiday 9 1 [NthWeekday MONDAY 1] None None None None.
Definition pd_USPresidentsDay : rule := Holiday 2 1 [NthWeekday MONDAY 3] None None None None.
Definition pd_USThanksgivingDay : rule := Holiday 11 1 [NthWeekday THURSDAY 4] None None None None.
