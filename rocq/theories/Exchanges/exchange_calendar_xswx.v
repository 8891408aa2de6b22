(** Transcribed from trading_calendars/exchange_calendar_xswx.py by tools/translate.py; dates are day
    numbers. *)
From Coq Require Import ZArith String List Bool.
From Verif.Model Require Import Dates Zone Build Holidays Exchange.
From Verif.Exchanges Require common_holidays.
Import ListNotations.
Open Scope Z_scope.

(** exchange_calendar_xswx.py:41 *)
Definition NewYearsDay : rule := common_holidays.new_years_day None None None None.
(** exchange_calendar_xswx.py:43-47 *)
Definition BerchtoldsDay : rule := Holiday 1 2 [] None None None None.
(** exchange_calendar_xswx.py:49 *)
Definition EuropeanLabourDay : rule := common_holidays.european_labour_day None None None None.
(** exchange_calendar_xswx.py:51 *)
Definition AscensionDay : rule := common_holidays.ascension_day None None.
(** exchange_calendar_xswx.py:53 *)
Definition WhitMonday : rule := common_holidays.whit_monday None None.
(** exchange_calendar_xswx.py:55-59 *)
Definition SwissNationalDay : rule := Holiday 8 1 [] None None None None.
(** exchange_calendar_xswx.py:61 *)
Definition ChristmasEve : rule := common_holidays.christmas_eve None None None None.
(** exchange_calendar_xswx.py:63 *)
Definition Christmas : rule := common_holidays.christmas None None None None.
(** exchange_calendar_xswx.py:65 *)
Definition BoxingDay : rule := common_holidays.boxing_day None None None None.
(** exchange_calendar_xswx.py:67 *)
Definition NewYearsEve : rule := common_holidays.new_years_eve None None None None.
(** exchange_calendar_xswx.py:96-98 *)
Definition open_times : list (option Z * time) := [(None, Time 9 1 0)].
(** exchange_calendar_xswx.py:100-102 *)
Definition close_times : list (option Z * time) := [(None, Time 17 30 0)].
(** exchange_calendar_xswx.py:105-119 *)
Definition regular_holidays : list rule :=
  [NewYearsDay;
     BerchtoldsDay;
     EasterMonday;
     GoodFriday;
     EuropeanLabourDay;
     AscensionDay;
     WhitMonday;
     SwissNationalDay;
     ChristmasEve;
     Christmas;
     BoxingDay;
     NewYearsEve].

(** exchange_calendar_xswx.py:70-119 [XSWXExchangeCalendar]; attributes not set in the class are the defaults of
    trading_calendar.py:203-366. *)
Definition calendar : exchange :=
  Exchange "Europe/Zurich"%string weekmask_default
    regular_holidays
    []
    open_times None None close_times
    0 0
    [] [] [] [].
