(** Transcribed from trading_calendars/exchange_calendar_xmos.py by tools/translate.py; dates are day
    numbers. *)
From Coq Require Import ZArith String List Bool.
From Verif.Model Require Import Dates Zone Build Holidays Exchange.
From Verif.Exchanges Require common_holidays.
Import ListNotations.
Open Scope Z_scope.

(** exchange_calendar_xmos.py:66 *)
Definition NewYearsDay : rule :=
  common_holidays.new_years_day None None (Some Weekend_to_monday) None.
(** exchange_calendar_xmos.py:67-72 *)
Definition NewYearsHoliday : rule :=
  Holiday 1 2 [] (Some (Weekend_to_monday_except [2016])) None None None.
(** exchange_calendar_xmos.py:73-79 *)
Definition NewYearsHoliday2 : rule :=
  Holiday 1 3 [] None (Some (ymd 2005 1 1)) (Some (ymd 2012 1 1)) None.
(** exchange_calendar_xmos.py:80-86 *)
Definition NewYearsHoliday3 : rule :=
  Holiday 1 4 [] None (Some (ymd 2005 1 1)) (Some (ymd 2012 1 1)) None.
(** exchange_calendar_xmos.py:87-93 *)
Definition NewYearsHoliday4 : rule :=
  Holiday 1 5 [] None (Some (ymd 2005 1 1)) (Some (ymd 2012 1 1)) None.
(** exchange_calendar_xmos.py:94-100 *)
Definition NewYearsHoliday5 : rule :=
  Holiday 1 6 [] None (Some (ymd 2005 1 1)) (Some (ymd 2012 1 1)) None.
(** exchange_calendar_xmos.py:102-107 *)
Definition OrthodoxChristmas : rule :=
  Holiday 1 7 [] (Some (Weekend_to_monday_except [2012; 2017])) None None None.
(** exchange_calendar_xmos.py:109-114 *)
Definition DefenderOfTheFatherlandDay : rule :=
  Holiday 2 23 [] (Some (Weekend_to_monday_except [2013; 2014; 2019])) None None None.
(** exchange_calendar_xmos.py:116-121 *)
Definition WomensDay : rule := Holiday 3 8 [] (Some Weekend_to_monday) None None None.
(** exchange_calendar_xmos.py:123 *)
Definition LabourDay : rule :=
  common_holidays.european_labour_day None None (Some Weekend_to_monday) None.
(** exchange_calendar_xmos.py:125-130 *)
Definition VictoryDay : rule := Holiday 5 9 [] (Some Weekend_to_monday) None None None.
(** exchange_calendar_xmos.py:132-137 *)
Definition DayOfRussia : rule := Holiday 6 12 [] (Some Weekend_to_monday) None None None.
(** exchange_calendar_xmos.py:139-145 *)
Definition UnityDay : rule :=
  Holiday 11 4 [] (Some Weekend_to_monday) (Some (ymd 2005 1 1)) None None.
(** exchange_calendar_xmos.py:147-150 *)
Definition NewYearsEve : rule :=
  common_holidays.new_years_eve None None (Some (Weekend_to_monday_except [2008;
     2009])) (Some WEEKDAYS).
(** exchange_calendar_xmos.py:161-166 *)
Definition new_years_extensions : list Z :=
  [ymd 2003 1 3; ymd 2013 1 3; ymd 2013 1 4; ymd 2014 1 3].
(** exchange_calendar_xmos.py:168-177 *)
Definition orthodox_christmas_extensions : list Z :=
  [ymd 2003 1 6; ymd 2005 1 10; ymd 2008 1 8; ymd 2009 1 8; ymd 2009 1 9; ymd 2010 1 8;
     ymd 2011 1 10; ymd 2016 1 8].
(** exchange_calendar_xmos.py:179-182 *)
Definition defender_of_the_fatherland_extensions : list Z := [ymd 2006 2 24; ymd 2010 2 22].
(** exchange_calendar_xmos.py:184-188 *)
Definition womens_day_extensions : list Z := [ymd 2005 3 7; ymd 2011 3 7; ymd 2012 3 9].
(** exchange_calendar_xmos.py:190-200 *)
Definition labour_day_extensions : list Z :=
  [ymd 2002 5 2; ymd 2002 5 3; ymd 2003 5 2; ymd 2004 5 4; ymd 2007 4 30; ymd 2008 5 2;
     ymd 2012 4 30; ymd 2015 5 4; ymd 2016 5 3].
(** exchange_calendar_xmos.py:202-207 *)
Definition victory_day_extensions : list Z :=
  [ymd 2002 5 10; ymd 2005 5 10; ymd 2006 5 8; ymd 2017 5 8].
(** exchange_calendar_xmos.py:209-215 *)
Definition day_of_russia_extensions : list Z :=
  [ymd 2003 6 13; ymd 2007 6 11; ymd 2008 6 13; ymd 2012 6 11; ymd 2014 6 13].
(** exchange_calendar_xmos.py:217-220 *)
Definition unity_day_extensions : list Z := [ymd 2008 11 3; ymd 2010 11 5].
(** exchange_calendar_xmos.py:222-236 *)
Definition misc_adhoc : list Z :=
  [ymd 2002 11 7; ymd 2002 11 8; ymd 2002 12 12; ymd 2002 12 13; ymd 2003 11 7;
     ymd 2003 12 12; ymd 2004 11 8; ymd 2004 12 13; ymd 2008 9 18; ymd 2008 10 10;
     ymd 2008 10 27].
(** exchange_calendar_xmos.py:268-270 *)
Definition open_times : list (option Z * time) := [(None, Time 10 1 0)].
(** exchange_calendar_xmos.py:272-274 *)
Definition close_times : list (option Z * time) := [(None, Time 18 45 0)].
(** exchange_calendar_xmos.py:277-293 *)
Definition regular_holidays : list rule :=
  [NewYearsDay;
     NewYearsHoliday;
     NewYearsHoliday2;
     NewYearsHoliday3;
     NewYearsHoliday4;
     NewYearsHoliday5;
     OrthodoxChristmas;
     DefenderOfTheFatherlandDay;
     WomensDay;
     LabourDay;
     VictoryDay;
     DayOfRussia;
     UnityDay;
     NewYearsEve].
(** exchange_calendar_xmos.py:296-309 *)
Definition adhoc_holidays : list Z :=
  new_years_extensions ++ orthodox_christmas_extensions ++ defender_of_the_fatherland_extensions ++ womens_day_extensions ++ labour_day_extensions ++ victory_day_extensions ++ day_of_russia_extensions ++ unity_day_extensions ++ misc_adhoc.

(** exchange_calendar_xmos.py:239-309 [XMOSExchangeCalendar]; attributes not set in the class are the defaults of
    trading_calendar.py:203-366. *)
Definition calendar : exchange :=
  Exchange "Europe/Moscow"%string weekmask_default
    regular_holidays
    adhoc_holidays
    open_times None None close_times
    0 0
    [] [] [] [].
