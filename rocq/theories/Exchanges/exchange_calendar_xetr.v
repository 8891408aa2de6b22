(** Transcribed from trading_calendars/exchange_calendar_xetr.py by tools/translate.py; dates are day
    numbers. *)
From Coq Require Import ZArith String List Bool.
From Verif.Model Require Import Dates Zone Build Holidays Exchange.
From Verif.Exchanges Require common_holidays.
Import ListNotations.
Open Scope Z_scope.

(** exchange_calendar_xetr.py:44 *)
Definition NewYearsDay : rule := common_holidays.new_years_day None None None None.
(** exchange_calendar_xetr.py:46 *)
Definition EuropeanLabourDay : rule := common_holidays.european_labour_day None None None None.
(** exchange_calendar_xetr.py:50 *)
Definition WhitMonday2007AdHoc : Z := ymd 2007 5 28.
(** exchange_calendar_xetr.py:52 *)
Definition WhitMonday : rule := common_holidays.whit_monday (Some (ymd 2015 1 1)) None.
(** exchange_calendar_xetr.py:54-59 *)
Definition DayOfGermanUnity : rule := Holiday 10 3 [] None (Some (ymd 2014 1 1)) None None.
(** exchange_calendar_xetr.py:62 *)
Definition ReformationDay500thAnniversaryAdHoc : Z := ymd 2017 10 31.
(** exchange_calendar_xetr.py:64 *)
Definition ChristmasEve : rule := common_holidays.christmas_eve None None None None.
(** exchange_calendar_xetr.py:66 *)
Definition Christmas : rule := common_holidays.christmas None None None None.
(** exchange_calendar_xetr.py:68 *)
Definition BoxingDay : rule := common_holidays.boxing_day None None None None.
(** exchange_calendar_xetr.py:70 *)
Definition NewYearsEve : rule := common_holidays.new_years_eve None None None None.
(** exchange_calendar_xetr.py:76-82 *)
Definition LastWorkingDay : rule :=
  Holiday 12 31 [] (Some Previous_workday) (Some (ymd 2010 1 1)) None None.
(** exchange_calendar_xetr.py:107 *)
Definition regular_early_close : time := Time 14 0 0.
(** exchange_calendar_xetr.py:113-115 *)
Definition open_times : list (option Z * time) := [(None, Time 9 1 0)].
(** exchange_calendar_xetr.py:117-119 *)
Definition close_times : list (option Z * time) := [(None, Time 17 30 0)].
(** exchange_calendar_xetr.py:122-134 *)
Definition regular_holidays : list rule :=
  [NewYearsDay;
     GoodFriday;
     EasterMonday;
     EuropeanLabourDay;
     WhitMonday;
     DayOfGermanUnity;
     ChristmasEve;
     Christmas;
     BoxingDay;
     NewYearsEve].
(** exchange_calendar_xetr.py:137-141 *)
Definition adhoc_holidays : list Z :=
  [WhitMonday2007AdHoc; ReformationDay500thAnniversaryAdHoc].
(** exchange_calendar_xetr.py:144-149 *)
Definition special_closes : list (time * list rule) :=
  [(regular_early_close, [LastWorkingDay])].

(** exchange_calendar_xetr.py:85-149 [XETRExchangeCalendar]; attributes not set in the class are the defaults of
    trading_calendar.py:203-366. *)
Definition calendar : exchange :=
  Exchange "CET"%string weekmask_default
    regular_holidays
    adhoc_holidays
    open_times None None close_times
    0 0
    [] [] special_closes [].
