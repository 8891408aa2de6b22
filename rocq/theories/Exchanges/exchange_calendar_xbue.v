(** Transcribed from trading_calendars/exchange_calendar_xbue.py by tools/translate.py; dates are day
    numbers. *)
From Coq Require Import ZArith String List Bool.
From Verif.Model Require Import Dates Zone Build Holidays Exchange.
From Verif.Exchanges Require common_holidays.
Import ListNotations.
Open Scope Z_scope.

(** exchange_calendar_xbue.py:82 *)
Definition NewYearsDay : rule := common_holidays.new_years_day None None None None.
(** exchange_calendar_xbue.py:84-90 *)
Definition CarnivalMonday : rule :=
  Holiday 1 1 [Easter; Day (-48)] None (Some (ymd 2011 1 1)) None None.
(** exchange_calendar_xbue.py:92-98 *)
Definition CarnivalTuesday : rule :=
  Holiday 1 1 [Easter; Day (-47)] None (Some (ymd 2011 1 1)) None None.
(** exchange_calendar_xbue.py:100-105 *)
Definition TruthAndJusticeMemorialDay : rule :=
  Holiday 3 24 [] None (Some (ymd 2005 1 1)) None None.
(** exchange_calendar_xbue.py:107-113 *)
Definition MalvinasDayTo2004 : rule :=
  Holiday 3 31 [NthWeekday MONDAY 1] None None (Some (ymd 2005 1 1)) None.
(** exchange_calendar_xbue.py:115-120 *)
Definition MalvinasDayFrom2005 : rule := Holiday 4 2 [] None (Some (ymd 2005 1 1)) None None.
(** exchange_calendar_xbue.py:122 *)
Definition MaundyThursday : rule := common_holidays.maundy_thursday None None None.
(** exchange_calendar_xbue.py:124 *)
Definition LabourDay : rule := common_holidays.european_labour_day None None None None.
(** exchange_calendar_xbue.py:126-130 *)
Definition MayDayRevolution : rule := Holiday 5 25 [] None None None None.
(** exchange_calendar_xbue.py:132-137 *)
Definition MartinMiguelDeGuemesDay : rule :=
  Holiday 6 17 [] None (Some (ymd 2016 1 1)) None None.
(** exchange_calendar_xbue.py:139-145 *)
Definition NationalFlagDayTo2010 : rule :=
  Holiday 6 1 [NthWeekday MONDAY 3] None None (Some (ymd 2011 1 1)) None.
(** exchange_calendar_xbue.py:147-152 *)
Definition NationalFlagDayFrom2011 : rule :=
  Holiday 6 20 [] None (Some (ymd 2011 1 1)) None None.
(** exchange_calendar_xbue.py:154-158 *)
Definition IndependenceDay : rule := Holiday 7 9 [] None None None None.
(** exchange_calendar_xbue.py:160-166 *)
Definition SanMartinsDayTo2010 : rule :=
  Holiday 8 1 [NthWeekday MONDAY 3] None None (Some (ymd 2011 1 1)) None.
(** exchange_calendar_xbue.py:168-174 *)
Definition SanMartinsDayFrom2012 : rule :=
  Holiday 8 1 [NthWeekday MONDAY 3] None (Some (ymd 2012 1 1)) None None.
(** exchange_calendar_xbue.py:176-181 *)
Definition DayOfRespectForCulturalDiversity : rule :=
  Holiday 10 12 [] (Some Cultural_diversity) None None None.
(** exchange_calendar_xbue.py:183-188 *)
Definition BankHoliday : rule := Holiday 11 6 [] None None (Some (ymd 2018 1 1)) None.
(** exchange_calendar_xbue.py:190-197 *)
Definition DayOfNationalSovereigntyTo2014 : rule :=
  Holiday 11 1 [NthWeekday MONDAY 4] None (Some (ymd 2010 1 1)) (Some (ymd 2015 1 1)) None.
(** exchange_calendar_xbue.py:199-205 *)
Definition DayOfNationalSovereigntyFrom2017 : rule :=
  Holiday 11 17 [NthWeekday MONDAY 1] None (Some (ymd 2017 1 1)) None None.
(** exchange_calendar_xbue.py:207 *)
Definition ImmaculateConception : rule :=
  common_holidays.immaculate_conception None None None None.
(** exchange_calendar_xbue.py:209-212 *)
Definition ChristmasEve : rule :=
  common_holidays.christmas_eve None None (Some (Not_in_year 2018)) (Some WEEKDAYS).
(** exchange_calendar_xbue.py:214 *)
Definition ChristmasDay : rule := common_holidays.christmas None None None None.
(** exchange_calendar_xbue.py:216-222 *)
Definition NewYearsEve : rule :=
  Holiday 12 31 [] (Some (Not_in_year 2018)) None None (Some WEEKDAYS).
(** exchange_calendar_xbue.py:263-265 *)
Definition open_times : list (option Z * time) := [(None, Time 11 1 0)].
(** exchange_calendar_xbue.py:267-269 *)
Definition close_times : list (option Z * time) := [(None, Time 17 0 0)].
(** exchange_calendar_xbue.py:272 *)
Definition regular_early_close : time := Time 13 0 0.
(** exchange_calendar_xbue.py:275-299 *)
Definition regular_holidays : list rule :=
  [NewYearsDay;
     CarnivalMonday;
     CarnivalTuesday;
     TruthAndJusticeMemorialDay;
     MalvinasDayTo2004;
     MalvinasDayFrom2005;
     MaundyThursday;
     GoodFriday;
     LabourDay;
     MayDayRevolution;
     MartinMiguelDeGuemesDay;
     NationalFlagDayTo2010;
     NationalFlagDayFrom2011;
     IndependenceDay;
     SanMartinsDayTo2010;
     SanMartinsDayFrom2012;
     DayOfRespectForCulturalDiversity;
     BankHoliday;
     DayOfNationalSovereigntyTo2014;
     DayOfNationalSovereigntyFrom2017;
     ImmaculateConception;
     ChristmasDay].
(** exchange_calendar_xbue.py:302-361 *)
Definition adhoc_holidays : list Z :=
  let misc_adhocs := [ymd 2009 7 10; ymd 2010 5 24; ymd 2010 10 27; ymd 2012 1 2;
     ymd 2012 2 27; ymd 2012 9 24; ymd 2013 1 31; ymd 2013 2 20; ymd 2018 11 30] in
  let market_closures_2002_jan := map (fun day => ymd 2002 1 day) (year_range 7 16) in
  let market_closures_2002_apr := map (fun day => ymd 2002 4 day) (year_range 22 26) in
  let bridge_days := [ymd 2011 3 25; ymd 2011 12 9; ymd 2012 4 30; ymd 2013 4 1;
     ymd 2013 6 21; ymd 2014 5 2; ymd 2014 12 26; ymd 2015 3 23; ymd 2015 12 7; ymd 2016 7 8;
     ymd 2016 12 9; ymd 2018 4 30; ymd 2018 12 24; ymd 2018 12 31; ymd 2019 7 8;
     ymd 2019 8 19; ymd 2019 10 14] in
  let irregular_observances := [ymd 2012 10 8; ymd 2011 8 22; ymd 2015 11 27;
     ymd 2016 11 28] in
  misc_adhocs ++ market_closures_2002_jan ++ market_closures_2002_apr ++ bridge_days ++ irregular_observances.
(** exchange_calendar_xbue.py:364-373 *)
Definition special_closes : list (time * list rule) :=
  [(regular_early_close, [ChristmasEve;
     NewYearsEve])].

(** exchange_calendar_xbue.py:225-373 [XBUEExchangeCalendar]; attributes not set in the class are the defaults of
    trading_calendar.py:203-366. *)
Definition calendar : exchange :=
  Exchange "America/Argentina/Buenos_Aires"%string weekmask_default
    regular_holidays
    adhoc_holidays
    open_times None None close_times
    0 0
    [] [] special_closes [].
