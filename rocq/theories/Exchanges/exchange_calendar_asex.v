(** Transcribed from trading_calendars/exchange_calendar_asex.py by tools/translate.py; dates are day
    numbers. *)
From Coq Require Import ZArith String List Bool.
From Verif.Model Require Import Dates Zone Build Holidays Exchange.
From Verif.Exchanges Require common_holidays.
Import ListNotations.
Open Scope Z_scope.

(** exchange_calendar_asex.py:53 *)
Definition NewYearsDay : rule := common_holidays.new_years_day None None None None.
(** exchange_calendar_asex.py:55 *)
Definition Epiphany : rule := common_holidays.epiphany None None None None.
(** exchange_calendar_asex.py:57 *)
Definition OrthodoxAshMonday : list Z := shift (-48) (orthodox_easter_dates 1980 2021).
(** exchange_calendar_asex.py:59-63 *)
Definition NationalHoliday1 : rule := Holiday 3 25 [] None None None None.
(** exchange_calendar_asex.py:65 *)
Definition OrthodoxGoodFriday : list Z := shift (-2) (orthodox_easter_dates 1980 2021).
(** exchange_calendar_asex.py:67 *)
Definition OrthodoxEasterMonday : list Z := shift 1 (orthodox_easter_dates 1980 2021).
(** exchange_calendar_asex.py:69 *)
Definition LabourDay : rule := common_holidays.european_labour_day None None None None.
(** exchange_calendar_asex.py:71 *)
Definition OrthodoxWhitMonday : list Z := shift 50 (orthodox_easter_dates 1980 2021).
(** exchange_calendar_asex.py:73 *)
Definition AssumptionDay : rule := common_holidays.assumption_day None None None None.
(** exchange_calendar_asex.py:75-79 *)
Definition NationalHoliday2 : rule := Holiday 10 28 [] None None None None.
(** exchange_calendar_asex.py:81 *)
Definition ChristmasEve : rule :=
  common_holidays.christmas_eve (Some (ymd 2009 1 1)) None None None.
(** exchange_calendar_asex.py:83 *)
Definition ChristmasDay : rule := common_holidays.christmas None None None None.
(** exchange_calendar_asex.py:85-89 *)
Definition SecondDayOfChristmas : rule := Holiday 12 26 [] None None None None.
(** exchange_calendar_asex.py:124-126 *)
Definition open_times : list (option Z * time) := [(None, Time 10 1 0)].
(** exchange_calendar_asex.py:128-131 *)
Definition close_times : list (option Z * time) :=
  [(None, Time 17 0 0);
     (Some (ymd 2008 9 29), Time 17 20 0)].
(** exchange_calendar_asex.py:134-147 *)
Definition regular_holidays : list rule :=
  [NewYearsDay;
     Epiphany;
     NationalHoliday1;
     GoodFriday;
     EasterMonday;
     LabourDay;
     AssumptionDay;
     NationalHoliday2;
     ChristmasEve;
     ChristmasDay;
     SecondDayOfChristmas].
(** exchange_calendar_asex.py:150-181 *)
Definition adhoc_holidays : list Z :=
  let debt_crisis := every_weekday (ymd 2015 6 29) (ymd 2015 7 31) in
  let debt_crisis_holidays := debt_crisis in
  let misc_adhoc_holidays := [ymd 2002 5 7; ymd 2004 8 13; ymd 2008 3 4; ymd 2008 3 5;
     ymd 2013 5 7; ymd 2014 12 31; ymd 2016 5 3] in
  debt_crisis_holidays ++ misc_adhoc_holidays ++ OrthodoxGoodFriday ++ OrthodoxEasterMonday ++ OrthodoxWhitMonday ++ OrthodoxAshMonday.

(** exchange_calendar_asex.py:92-181 [ASEXExchangeCalendar]; attributes not set in the class are the defaults of
    trading_calendar.py:203-366. *)
Definition calendar : exchange :=
  Exchange "Europe/Athens"%string weekmask_default
    regular_holidays
    adhoc_holidays
    open_times None None close_times
    0 0
    [] [] [] [].
