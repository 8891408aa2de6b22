(** Transcribed from trading_calendars/exchange_calendar_xlim.py by tools/translate.py; dates are day
    numbers. *)
From Coq Require Import ZArith String List Bool.
From Verif.Model Require Import Dates Zone Build Holidays Exchange.
From Verif.Exchanges Require common_holidays.
Import ListNotations.
Open Scope Z_scope.

(** exchange_calendar_xlim.py:39 *)
Definition NewYearsDay : rule := common_holidays.new_years_day None None None None.
(** exchange_calendar_xlim.py:41 *)
Definition MaundyThursday : rule := common_holidays.maundy_thursday None None None.
(** exchange_calendar_xlim.py:43 *)
Definition LabourDay : rule := common_holidays.european_labour_day None None None None.
(** exchange_calendar_xlim.py:45 *)
Definition SaintPeterAndSaintPaulDay : rule :=
  common_holidays.saint_peter_and_saint_paul_day None None None None.
(** exchange_calendar_xlim.py:47 *)
Definition IndependenceDay1 : rule := Holiday 7 28 [] None None None None.
(** exchange_calendar_xlim.py:48 *)
Definition IndependenceDay2 : rule := Holiday 7 29 [] None None None None.
(** exchange_calendar_xlim.py:50 *)
Definition SantaRosa : rule := Holiday 8 30 [] None None None None.
(** exchange_calendar_xlim.py:52 *)
Definition BattleOfAngamos : rule := Holiday 10 8 [] None None None None.
(** exchange_calendar_xlim.py:54 *)
Definition AllSaintsDay : rule := common_holidays.all_saints_day None None None None.
(** exchange_calendar_xlim.py:56 *)
Definition ImmaculateConception : rule :=
  common_holidays.immaculate_conception None None None None.
(** exchange_calendar_xlim.py:58 *)
Definition Christmas : rule := common_holidays.christmas None None None None.
(** exchange_calendar_xlim.py:60 *)
Definition NewYearsEve : rule :=
  common_holidays.new_years_eve None (Some (ymd 2008 1 1)) None None.
(** exchange_calendar_xlim.py:66-71 *)
Definition ExchangeHolidays : list Z :=
  [ymd 2009 1 2; ymd 2009 7 27; ymd 2015 7 27; ymd 2015 10 9].
(** exchange_calendar_xlim.py:73-75 *)
Definition NationalHolidays : list Z := [ymd 2015 1 2].
(** exchange_calendar_xlim.py:77-80 *)
Definition ASPASummit : list Z := [ymd 2012 10 1; ymd 2012 10 2].
(** exchange_calendar_xlim.py:82-85 *)
Definition APECSummit : list Z := [ymd 2016 11 17; ymd 2016 11 18].
(** exchange_calendar_xlim.py:87 *)
Definition EighthSummitOfTheAmericas : list Z := [ymd 2018 4 13].
(** exchange_calendar_xlim.py:119-121 *)
Definition open_times : list (option Z * time) := [(None, Time 9 1 0)].
(** exchange_calendar_xlim.py:122-124 *)
Definition close_times : list (option Z * time) := [(None, Time 16 0 0)].
(** exchange_calendar_xlim.py:127-142 *)
Definition regular_holidays : list rule :=
  [NewYearsDay;
     MaundyThursday;
     GoodFriday;
     LabourDay;
     SaintPeterAndSaintPaulDay;
     IndependenceDay1;
     IndependenceDay2;
     SantaRosa;
     BattleOfAngamos;
     AllSaintsDay;
     ImmaculateConception;
     Christmas;
     NewYearsEve].
(** exchange_calendar_xlim.py:145-154 *)
Definition adhoc_holidays : list Z :=
  ExchangeHolidays ++ NationalHolidays ++ ASPASummit ++ APECSummit ++ EighthSummitOfTheAmericas.

(** exchange_calendar_xlim.py:90-154 [XLIMExchangeCalendar]; attributes not set in the class are the defaults of
    trading_calendar.py:203-366. *)
Definition calendar : exchange :=
  Exchange "America/Lima"%string weekmask_default
    regular_holidays
    adhoc_holidays
    open_times None None close_times
    0 0
    [] [] [] [].
