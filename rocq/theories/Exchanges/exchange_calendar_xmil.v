(** Transcribed from trading_calendars/exchange_calendar_xmil.py by tools/translate.py; dates are day
    numbers. *)
From Coq Require Import ZArith String List Bool.
From Verif.Model Require Import Dates Zone Build Holidays Exchange.
From Verif.Exchanges Require common_holidays.
Import ListNotations.
Open Scope Z_scope.

(** exchange_calendar_xmil.py:31 *)
Definition NewYearsDay : rule := common_holidays.new_years_day None None None None.
(** exchange_calendar_xmil.py:33 *)
Definition LabourDay : rule := common_holidays.european_labour_day None None None None.
(** exchange_calendar_xmil.py:35 *)
Definition Ferragosto : rule := Holiday 8 15 [] None None None None.
(** exchange_calendar_xmil.py:37 *)
Definition ChristmasEve : rule := common_holidays.christmas_eve None None None None.
(** exchange_calendar_xmil.py:38 *)
Definition Christmas : rule := common_holidays.christmas None None None None.
(** exchange_calendar_xmil.py:39 *)
Definition BoxingDay : rule := common_holidays.boxing_day None None None None.
(** exchange_calendar_xmil.py:41 *)
Definition NewYearsEve : rule := common_holidays.new_years_eve None None None None.
(** exchange_calendar_xmil.py:70-72 *)
Definition open_times : list (option Z * time) := [(None, Time 9 1 0)].
(** exchange_calendar_xmil.py:74-76 *)
Definition close_times : list (option Z * time) := [(None, Time 17 30 0)].
(** exchange_calendar_xmil.py:79-90 *)
Definition regular_holidays : list rule :=
  [NewYearsDay;
     GoodFriday;
     EasterMonday;
     LabourDay;
     Ferragosto;
     ChristmasEve;
     Christmas;
     BoxingDay;
     NewYearsEve].

(** exchange_calendar_xmil.py:44-90 [XMILExchangeCalendar]; attributes not set in the class are the defaults of
    trading_calendar.py:203-366. *)
Definition calendar : exchange :=
  Exchange "Europe/Rome"%string weekmask_default
    regular_holidays
    []
    open_times None None close_times
    0 0
    [] [] [] [].
