(** Transcribed from trading_calendars/exchange_calendar_xsto.py by tools/translate.py; dates are day
    numbers. *)
From Coq Require Import ZArith String List Bool.
From Verif.Model Require Import Dates Zone Build Holidays Exchange.
From Verif.Exchanges Require common_holidays.
Import ListNotations.
Open Scope Z_scope.

(** exchange_calendar_xsto.py:44 *)
Definition NewYearsDay : rule := common_holidays.new_years_day None None None None.
(** exchange_calendar_xsto.py:46-51 *)
Definition DayBeforeEpiphany : rule := Holiday 1 5 [] None None None (Some WEEKDAYS).
(** exchange_calendar_xsto.py:52 *)
Definition Epiphany : rule := common_holidays.epiphany None None None None.
(** exchange_calendar_xsto.py:54-59 *)
Definition DayBeforeLabourDay : rule := Holiday 4 30 [] None None None (Some WEEKDAYS).
(** exchange_calendar_xsto.py:60 *)
Definition LabourDay : rule := common_holidays.european_labour_day None None None None.
(** exchange_calendar_xsto.py:62 *)
Definition MaundyThursday : rule := common_holidays.maundy_thursday None None (Some WEEKDAYS).
(** exchange_calendar_xsto.py:63-68 *)
Definition DayBeforeAscensionDay : rule := Holiday 1 1 [Easter; Day 38] None None None None.
(** exchange_calendar_xsto.py:69 *)
Definition AscensionDay : rule := common_holidays.ascension_day None None.
(** exchange_calendar_xsto.py:70 *)
Definition WhitMonday : rule := common_holidays.whit_monday None (Some (ymd 2005 1 1)).
(** exchange_calendar_xsto.py:72 *)
Definition NationalDay : rule := Holiday 6 6 [] None (Some (ymd 2004 1 1)) None None.
(** exchange_calendar_xsto.py:74 *)
Definition MidsummerEve : rule := common_holidays.midsummer_eve None None.
(** exchange_calendar_xsto.py:77-82 *)
Definition AllSaintsEve : rule := Holiday 10 30 [NthWeekday FRIDAY 1] None None None None.
(** exchange_calendar_xsto.py:84 *)
Definition ChristmasEve : rule := common_holidays.christmas_eve None None None None.
(** exchange_calendar_xsto.py:85 *)
Definition Christmas : rule := common_holidays.christmas None None None None.
(** exchange_calendar_xsto.py:86 *)
Definition BoxingDay : rule := common_holidays.boxing_day None None None None.
(** exchange_calendar_xsto.py:88 *)
Definition NewYearsEve : rule := common_holidays.new_years_eve None None None None.
(** exchange_calendar_xsto.py:124-126 *)
Definition open_times : list (option Z * time) := [(None, Time 9 1 0)].
(** exchange_calendar_xsto.py:127-129 *)
Definition close_times : list (option Z * time) := [(None, Time 17 30 0)].
(** exchange_calendar_xsto.py:130 *)
Definition regular_early_close : time := Time 13 0 0.
(** exchange_calendar_xsto.py:133-148 *)
Definition regular_holidays : list rule :=
  [NewYearsDay;
     Epiphany;
     GoodFriday;
     EasterMonday;
     LabourDay;
     AscensionDay;
     WhitMonday;
     NationalDay;
     MidsummerEve;
     ChristmasEve;
     Christmas;
     BoxingDay;
     NewYearsEve].
(** exchange_calendar_xsto.py:151-163 *)
Definition special_closes : list (time * list rule) :=
  [(regular_early_close, [DayBeforeEpiphany;
     MaundyThursday;
     DayBeforeLabourDay;
     DayBeforeAscensionDay;
     AllSaintsEve])].

(** exchange_calendar_xsto.py:91-163 [XSTOExchangeCalendar]; attributes not set in the class are the defaults of
    trading_calendar.py:203-366. *)
Definition calendar : exchange :=
  Exchange "Europe/Stockholm"%string weekmask_default
    regular_holidays
    []
    open_times None None close_times
    0 0
    [] [] special_closes [].
