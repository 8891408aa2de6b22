(** Transcribed from trading_calendars/exchange_calendar_xbru.py by tools/translate.py; dates are day
    numbers. *)
From Coq Require Import ZArith String List Bool.
From Verif.Model Require Import Dates Zone Build Holidays Exchange.
From Verif.Exchanges Require common_holidays.
Import ListNotations.
Open Scope Z_scope.

(** exchange_calendar_xbru.py:33 *)
Definition NewYearsDay : rule := common_holidays.new_years_day None None None None.
(** exchange_calendar_xbru.py:35 *)
Definition AscensionDay : rule := common_holidays.ascension_day None (Some (ymd 2001 1 1)).
(** exchange_calendar_xbru.py:36 *)
Definition WhitMonday : rule := common_holidays.whit_monday None (Some (ymd 2002 1 1)).
(** exchange_calendar_xbru.py:38 *)
Definition LabourDay : rule := common_holidays.european_labour_day None None None None.
(** exchange_calendar_xbru.py:40-45 *)
Definition BelgiumIndependenceDay : rule :=
  Holiday 7 21 [] None None (Some (ymd 2002 1 1)) None.
(** exchange_calendar_xbru.py:47 *)
Definition ChristmasEve : rule := common_holidays.christmas_eve None None None (Some WEEKDAYS).
(** exchange_calendar_xbru.py:48 *)
Definition Christmas : rule := common_holidays.christmas None None None None.
(** exchange_calendar_xbru.py:49 *)
Definition BoxingDay : rule := common_holidays.boxing_day None None None None.
(** exchange_calendar_xbru.py:51 *)
Definition NewYearsEveBefore2002 : rule :=
  common_holidays.new_years_eve None (Some (ymd 2002 1 1)) None None.
(** exchange_calendar_xbru.py:52-55 *)
Definition NewYearsEveInOrAfter2002 : rule :=
  common_holidays.new_years_eve (Some (ymd 2002 1 1)) None None (Some WEEKDAYS).
(** exchange_calendar_xbru.py:84 *)
Definition regular_early_close : time := Time 14 5 0.
(** exchange_calendar_xbru.py:93-95 *)
Definition open_times : list (option Z * time) := [(None, Time 9 1 0)].
(** exchange_calendar_xbru.py:97-99 *)
Definition close_times : list (option Z * time) := [(None, Time 17 30 0)].
(** exchange_calendar_xbru.py:102-114 *)
Definition regular_holidays : list rule :=
  [NewYearsDay;
     GoodFriday;
     EasterMonday;
     AscensionDay;
     WhitMonday;
     LabourDay;
     BelgiumIndependenceDay;
     Christmas;
     BoxingDay;
     NewYearsEveBefore2002].
(** exchange_calendar_xbru.py:117-123 *)
Definition special_closes : list (time * list rule) :=
  [(regular_early_close, [ChristmasEve;
     NewYearsEveInOrAfter2002])].

(** exchange_calendar_xbru.py:58-123 [XBRUExchangeCalendar]; attributes not set in the class are the defaults of
    trading_calendar.py:203-366. *)
Definition calendar : exchange :=
  Exchange "Europe/Brussels"%string weekmask_default
    regular_holidays
    []
    open_times None None close_times
    0 0
    [] [] special_closes [].
