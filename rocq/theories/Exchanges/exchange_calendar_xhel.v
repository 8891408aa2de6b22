(** Transcribed from trading_calendars/exchange_calendar_xhel.py by tools/translate.py; dates are day
    numbers. *)
From Coq Require Import ZArith String List Bool.
From Verif.Model Require Import Dates Zone Build Holidays Exchange.
From Verif.Exchanges Require common_holidays.
Import ListNotations.
Open Scope Z_scope.

(** exchange_calendar_xhel.py:34 *)
Definition NewYearsDay : rule := common_holidays.new_years_day None None None None.
(** exchange_calendar_xhel.py:36 *)
Definition Epiphany : rule := common_holidays.epiphany None None None None.
(** exchange_calendar_xhel.py:38 *)
Definition LabourDay : rule := common_holidays.european_labour_day None None None None.
(** exchange_calendar_xhel.py:40 *)
Definition AscensionDay : rule := common_holidays.ascension_day None None.
(** exchange_calendar_xhel.py:42 *)
Definition MidsummerEve : rule := common_holidays.midsummer_eve None None.
(** exchange_calendar_xhel.py:44 *)
Definition IndependenceDay : rule := Holiday 12 6 [] None None None None.
(** exchange_calendar_xhel.py:46 *)
Definition ChristmasEve : rule := common_holidays.christmas_eve None None None None.
(** exchange_calendar_xhel.py:47 *)
Definition Christmas : rule := common_holidays.christmas None None None None.
(** exchange_calendar_xhel.py:48 *)
Definition BoxingDay : rule := common_holidays.boxing_day None None None None.
(** exchange_calendar_xhel.py:50 *)
Definition NewYearsEve : rule := common_holidays.new_years_eve None None None None.
(** exchange_calendar_xhel.py:79-81 *)
Definition open_times : list (option Z * time) := [(None, Time 10 1 0)].
(** exchange_calendar_xhel.py:82-84 *)
Definition close_times : list (option Z * time) := [(None, Time 18 30 0)].
(** exchange_calendar_xhel.py:87-101 *)
Definition regular_holidays : list rule :=
  [NewYearsDay;
     Epiphany;
     GoodFriday;
     EasterMonday;
     LabourDay;
     AscensionDay;
     MidsummerEve;
     IndependenceDay;
     ChristmasEve;
     Christmas;
     BoxingDay;
     NewYearsEve].

(** exchange_calendar_xhel.py:53-101 [XHELExchangeCalendar]; attributes not set in the class are the defaults of
    trading_calendar.py:203-366. *)
Definition calendar : exchange :=
  Exchange "Europe/Helsinki"%string weekmask_default
    regular_holidays
    []
    open_times None None close_times
    0 0
    [] [] [] [].
