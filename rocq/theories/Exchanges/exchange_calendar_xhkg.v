(** Transcribed from trading_calendars/exchange_calendar_xhkg.py by tools/translate.py; dates are day
    numbers. *)
From Coq Require Import ZArith String List Bool.
From Verif.Model Require Import Dates Zone Build Holidays Exchange.
From Verif.Exchanges Require common_holidays lunisolar_holidays.
Import ListNotations.
Open Scope Z_scope.

(** exchange_calendar_xhkg.py:70 *)
Definition weekdays : list Z := [MONDAY; TUESDAY; WEDNESDAY; THURSDAY; FRIDAY].
(** exchange_calendar_xhkg.py:88-94 *)
Definition LabourDay : rule :=
  Holiday 5 1 [] (Some Sunday_to_monday) (Some (ymd 1999 5 1)) None None.
(** exchange_calendar_xhkg.py:96-102 *)
Definition HKRegionEstablishmentDay : rule :=
  Holiday 7 1 [] (Some Sunday_to_monday) (Some (ymd 1997 7 1)) None None.
(** exchange_calendar_xhkg.py:104-110 *)
Definition NationalDay : rule :=
  Holiday 10 1 [] (Some Sunday_to_monday) (Some (ymd 1997 7 1)) None None.
(** exchange_calendar_xhkg.py:112-119 *)
Definition QueenBirthday : rule :=
  Holiday 6 10 [] (Some Process_queen_birthday) (Some (ymd 1983 1 1)) (Some (ymd 1997 6 1)) None.
(** exchange_calendar_xhkg.py:121-128 *)
Definition QueenBirthday2 : rule :=
  Holiday 4 21 [] (Some Process_queen_birthday) (Some (ymd 1926 4 21)) (Some (ymd 1983 1 1)) None.
(** exchange_calendar_xhkg.py:130-137 *)
Definition CommemoratingAlliedVictory : rule :=
  Holiday 8 20 [LastWeekOfMonth 0] None (Some (ymd 1945 8 30)) (Some (ymd 1997 7 1)) None.
(** exchange_calendar_xhkg.py:139-146 *)
Definition IDontKnow : rule :=
  Holiday 7 31 [WeekOfMonth 0 0] None (Some (ymd 1960 8 1)) (Some (ymd 1983 1 1)) None.
(** exchange_calendar_xhkg.py:149 *)
Definition day_after_mid_autumn_festival_dates : list Z :=
  shift 1 lunisolar_holidays.mid_autumn_festival_dates.
(** exchange_calendar_xhkg.py:151-235 *)
Definition HKAdhocClosures : list Z :=
  [ymd 1970 7 1; ymd 1971 7 1; ymd 1973 7 2; ymd 1974 7 1; ymd 1975 7 1; ymd 1976 7 1;
     ymd 1977 7 1; ymd 1979 7 2; ymd 1980 7 1; ymd 1981 7 1; ymd 1982 7 1; ymd 1971 3 22;
     ymd 1971 12 6; ymd 1971 12 20; ymd 1975 7 28; ymd 1985 7 29; ymd 1970 7 16;
     ymd 1970 9 14; ymd 1971 7 22; ymd 1971 8 31; ymd 1973 4 16; ymd 1973 7 17; ymd 1974 4 25;
     ymd 1975 10 14; ymd 1978 7 26; ymd 1978 7 27; ymd 1979 1 26; ymd 1979 8 2; ymd 1980 5 21;
     ymd 1980 7 22; ymd 1981 4 27; ymd 1981 7 6; ymd 1981 7 7; ymd 1981 7 29; ymd 1983 9 9;
     ymd 1985 6 24; ymd 1986 4 1; ymd 1986 10 22; ymd 1987 10 20; ymd 1987 10 21;
     ymd 1987 10 22; ymd 1987 10 23; ymd 1988 4 5; ymd 1991 6 18; ymd 1992 7 22;
     ymd 1993 9 17; ymd 1994 6 14; ymd 1997 6 30; ymd 1997 7 2; ymd 1997 8 18; ymd 1997 10 2;
     ymd 1998 8 17; ymd 1998 10 2; ymd 1999 4 6; ymd 1999 9 16; ymd 1999 12 31; ymd 2001 7 6;
     ymd 2001 7 25; ymd 2008 8 6; ymd 2008 8 22; ymd 2010 4 6; ymd 2011 9 29; ymd 2012 10 2;
     ymd 2013 8 14; ymd 2015 4 7; ymd 2015 9 3; ymd 2016 8 2; ymd 2016 10 21; ymd 2017 8 23].
(** exchange_calendar_xhkg.py:279-282 *)
Definition open_times : list (option Z * time) :=
  [(None, Time 10 1 0);
     (Some (ymd 2011 3 7), Time 9 31 0)].
(** exchange_calendar_xhkg.py:283-285 *)
Definition break_start_times : list (option Z * time) := [(None, Time 12 1 0)].
(** exchange_calendar_xhkg.py:286-288 *)
Definition break_end_times : list (option Z * time) := [(None, Time 13 0 0)].
(** exchange_calendar_xhkg.py:289-291 *)
Definition close_times : list (option Z * time) := [(None, Time 16 0 0)].
(** exchange_calendar_xhkg.py:292-295 *)
Definition regular_early_close_times : list (option Z * time) :=
  [(None, Time 12 30 0);
     (Some (ymd 2011 3 7), Time 12 0 0)].
(** exchange_calendar_xhkg.py:329-344 *)
Definition regular_holidays : list rule :=
  [common_holidays.new_years_day None None (Some Sunday_to_monday) None;
     GoodFriday;
     EasterMonday;
     LabourDay;
     HKRegionEstablishmentDay;
     CommemoratingAlliedVictory;
     IDontKnow;
     NationalDay;
     QueenBirthday;
     QueenBirthday2;
     common_holidays.christmas None None None None;
     common_holidays.weekend_christmas None None None;
     common_holidays.boxing_day None None (Some Boxing_day_obs) None].
(** exchange_calendar_xhkg.py:347-408.  [qingming_festival == easter_monday]
    compares by position.  The in-place update of the mid autumn dates has the
    same result when repeated. *)
Definition adhoc_holidays : list Z :=
  let lunar_new_years_eve :=
     map (fun d => d - 1) (filter (fun d => (weekday d =? SATURDAY) && (year_of d <? 2013))
       lunisolar_holidays.chinese_lunar_new_year_dates) in
  let lunar_new_year_2 := shift 1 lunisolar_holidays.chinese_lunar_new_year_dates in
  let lunar_new_year_3 := shift 2 lunisolar_holidays.chinese_lunar_new_year_dates in
  let lunar_new_year_4 :=
     map (fun d => d + 3) (filter (fun d =>
       ((weekday d =? SUNDAY) || (weekday (d + 1) =? SUNDAY) || (weekday (d + 2) =? SUNDAY)) &&
       (2013 <=? year_of d)) lunisolar_holidays.chinese_lunar_new_year_dates) in
  let qingming_festival := map sunday_to_monday lunisolar_holidays.qingming_festival_dates in
  let first := year_of (hd 0 qingming_festival) in
  let last := year_of (List.last qingming_festival 0) in
  let easter_monday := rule_dates EasterMonday (midnight (ymd first 1 1)) (midnight (ymd (last + 1) 1 1)) in
  let qingming_festival :=
     map (fun p => if fst p =? snd p then fst p + 1 else fst p) (combine qingming_festival easter_monday) in
  let mid_autumn_festival :=
     map (fun d => if (month_of d =? 10) && (mday_of d =? 1) then d + 1 else d)
       day_after_mid_autumn_festival_dates in
  lunar_new_years_eve ++ lunisolar_holidays.chinese_lunar_new_year_dates ++ lunar_new_year_2 ++
  lunar_new_year_3 ++ lunar_new_year_4 ++ qingming_festival ++
  map sunday_to_monday lunisolar_holidays.chinese_buddhas_birthday_dates ++
  map sunday_to_monday lunisolar_holidays.dragon_boat_festival_dates ++
  mid_autumn_festival ++
  map sunday_to_monday lunisolar_holidays.double_ninth_festival_dates ++
  HKAdhocClosures.
(** exchange_calendar_xhkg.py:411-442 *)
Definition special_closes : list (time * list rule) :=
  [(Time 12 30 0, [common_holidays.new_years_eve None (Some (ymd 1999 12 1)) None (Some weekdays);
     common_holidays.new_years_eve (Some (ymd 2000 12 1)) (Some (ymd 2011 3 7)) None (Some weekdays);
     common_holidays.christmas_eve None (Some (ymd 2011 3 7)) None (Some weekdays)]);
     (Time 12 0 0, [common_holidays.new_years_eve (Some (ymd 2011 3 7)) None None (Some weekdays);
     common_holidays.christmas_eve (Some (ymd 2011 3 7)) None None (Some weekdays)])].
(** exchange_calendar_xhkg.py:445-473 *)
Definition special_closes_adhoc : list (time * list Z) :=
  let lunar_new_years_eve :=
     map (fun d => d - 1) (filter (fun d =>
       memb (weekday d) [TUESDAY; WEDNESDAY; THURSDAY; FRIDAY;
     SATURDAY] && (2013 <=? year_of d))
       lunisolar_holidays.chinese_lunar_new_year_dates) in
  split_by_times regular_early_close_times lunar_new_years_eve.

(** exchange_calendar_xhkg.py:244-473 [XHKGExchangeCalendar]; attributes not set in the class are the defaults of
    trading_calendar.py:203-366. *)
Definition calendar : exchange :=
  Exchange "Asia/Hong_Kong"%string weekmask_default
    regular_holidays
    adhoc_holidays
    open_times (Some break_start_times) (Some break_end_times) close_times
    0 0
    [] [] special_closes special_closes_adhoc.
