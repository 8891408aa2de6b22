(** Transcribed from trading_calendars/exchange_calendar_xdub.py by tools/translate.py; dates are day
    numbers. *)
From Coq Require Import ZArith String List Bool.
From Verif.Model Require Import Dates Zone Build Holidays Exchange.
From Verif.Exchanges Require common_holidays.
Import ListNotations.
Open Scope Z_scope.

(** exchange_calendar_xdub.py:41 *)
Definition NewYearsDay : rule :=
  common_holidays.new_years_day None None (Some Weekend_to_monday) None.
(** exchange_calendar_xdub.py:43-49 *)
Definition StPatricksDay : rule :=
  Holiday 3 17 [] (Some Weekend_to_monday) None (Some (ymd 2001 1 1)) None.
(** exchange_calendar_xdub.py:51-55 *)
Definition LabourDayTo2009 : rule :=
  common_holidays.european_labour_day (Some (ymd 2008 1 1)) (Some (ymd 2010 1 1)) (Some Weekend_to_monday) None.
(** exchange_calendar_xdub.py:57-60 *)
Definition LabourDayFrom2019 : rule :=
  common_holidays.european_labour_day (Some (ymd 2019 1 1)) None (Some Weekend_to_monday) None.
(** exchange_calendar_xdub.py:62-68 *)
Definition MayBankHoliday : rule :=
  Holiday 5 1 [NthWeekday MONDAY 1] None None (Some (ymd 2019 1 1)) None.
(** exchange_calendar_xdub.py:69-75 *)
Definition JuneBankHoliday : rule :=
  Holiday 6 1 [NthWeekday MONDAY 1] None None (Some (ymd 2019 1 1)) None.
(** exchange_calendar_xdub.py:77-83 *)
Definition LastTradingDayBeforeChristmas : rule :=
  Holiday 12 24 [] (Some Previous_friday) (Some (ymd 2010 1 1)) None None.
(** exchange_calendar_xdub.py:85 *)
Definition ChristmasEve : rule :=
  common_holidays.christmas_eve None (Some (ymd 2005 1 1)) None None.
(** exchange_calendar_xdub.py:86 *)
Definition Christmas : rule := common_holidays.christmas None None None None.
(** exchange_calendar_xdub.py:87 *)
Definition WeekendChristmas : rule := common_holidays.weekend_christmas None None None.
(** exchange_calendar_xdub.py:88 *)
Definition BoxingDay : rule := common_holidays.boxing_day None None None None.
(** exchange_calendar_xdub.py:89 *)
Definition WeekendBoxingDay : rule := common_holidays.weekend_boxing_day None None None.
(** exchange_calendar_xdub.py:91-97 *)
Definition LastTradingDayOfCalendarYear : rule :=
  Holiday 12 31 [] (Some Previous_friday) (Some (ymd 2010 1 1)) None None.
(** exchange_calendar_xdub.py:100 *)
Definition March1BadWeather : Z := ymd 2018 3 1.
(** exchange_calendar_xdub.py:101 *)
Definition March2BadWeather : Z := ymd 2018 3 2.
(** exchange_calendar_xdub.py:130-132 *)
Definition open_times : list (option Z * time) := [(None, Time 8 1 0)].
(** exchange_calendar_xdub.py:133-135 *)
Definition close_times : list (option Z * time) := [(None, Time 16 28 0)].
(** exchange_calendar_xdub.py:136 *)
Definition regular_early_close : time := Time 12 28 0.
(** exchange_calendar_xdub.py:139-154 *)
Definition regular_holidays : list rule :=
  [NewYearsDay;
     StPatricksDay;
     GoodFriday;
     EasterMonday;
     LabourDayTo2009;
     LabourDayFrom2019;
     MayBankHoliday;
     JuneBankHoliday;
     ChristmasEve;
     Christmas;
     WeekendChristmas;
     BoxingDay;
     WeekendBoxingDay].
(** exchange_calendar_xdub.py:157-158 *)
Definition adhoc_holidays : list Z := [March2BadWeather].
(** exchange_calendar_xdub.py:161-170 *)
Definition special_closes : list (time * list rule) :=
  [(regular_early_close, [LastTradingDayBeforeChristmas;
     LastTradingDayOfCalendarYear])].
(** exchange_calendar_xdub.py:173-174 *)
Definition special_closes_adhoc : list (time * list Z) :=
  [(regular_early_close, [March1BadWeather])].

(** exchange_calendar_xdub.py:104-174 [XDUBExchangeCalendar]; attributes not set in the class are the defaults of
    trading_calendar.py:203-366. *)
Definition calendar : exchange :=
  Exchange "Europe/Dublin"%string weekmask_default
    regular_holidays
    adhoc_holidays
    open_times None None close_times
    0 0
    [] [] special_closes special_closes_adhoc.
