(** Transcribed from trading_calendars/exchange_calendar_xpar.py by tools/translate.py; dates are day
    numbers. *)
From Coq Require Import ZArith String List Bool.
From Verif.Model Require Import Dates Zone Build Holidays Exchange.
From Verif.Exchanges Require common_holidays.
Import ListNotations.
Open Scope Z_scope.

(** exchange_calendar_xpar.py:32 *)
Definition NewYearsDay : rule := common_holidays.new_years_day None None None None.
(** exchange_calendar_xpar.py:34 *)
Definition WhitMonday : rule := common_holidays.whit_monday None (Some (ymd 2002 1 1)).
(** exchange_calendar_xpar.py:36 *)
Definition LabourDay : rule := common_holidays.european_labour_day None None None None.
(** exchange_calendar_xpar.py:38-43 *)
Definition BastilleDay : rule := Holiday 7 14 [] None None (Some (ymd 2002 1 1)) None.
(** exchange_calendar_xpar.py:45 *)
Definition ChristmasEve : rule := common_holidays.christmas_eve None None None (Some WEEKDAYS).
(** exchange_calendar_xpar.py:46 *)
Definition Christmas : rule := common_holidays.christmas None None None None.
(** exchange_calendar_xpar.py:47 *)
Definition BoxingDay : rule := common_holidays.boxing_day None None None None.
(** exchange_calendar_xpar.py:49 *)
Definition NewYearsEveBefore2002 : rule :=
  common_holidays.new_years_eve None (Some (ymd 2002 1 1)) None None.
(** exchange_calendar_xpar.py:50-53 *)
Definition NewYearsEveInOrAfter2002 : rule :=
  common_holidays.new_years_eve (Some (ymd 2002 1 1)) None None (Some WEEKDAYS).
(** exchange_calendar_xpar.py:82 *)
Definition regular_early_close : time := Time 14 5 0.
(** exchange_calendar_xpar.py:91-93 *)
Definition open_times : list (option Z * time) := [(None, Time 9 1 0)].
(** exchange_calendar_xpar.py:95-97 *)
Definition close_times : list (option Z * time) := [(None, Time 17 30 0)].
(** exchange_calendar_xpar.py:100-111 *)
Definition regular_holidays : list rule :=
  [NewYearsDay;
     GoodFriday;
     EasterMonday;
     WhitMonday;
     LabourDay;
     BastilleDay;
     Christmas;
     BoxingDay;
     NewYearsEveBefore2002].
(** exchange_calendar_xpar.py:114-120 *)
Definition special_closes : list (time * list rule) :=
  [(regular_early_close, [ChristmasEve;
     NewYearsEveInOrAfter2002])].

(** exchange_calendar_xpar.py:56-120 [XPARExchangeCalendar]; attributes not set in the class are the defaults of
    trading_calendar.py:203-366. *)
Definition calendar : exchange :=
  Exchange "Europe/Paris"%string weekmask_default
    regular_holidays
    []
    open_times None None close_times
    0 0
    [] [] special_closes [].
