(** Transcribed from trading_calendars/exchange_calendar_xosl.py by tools/translate.py; dates are day
    numbers. *)
From Coq Require Import ZArith String List Bool.
From Verif.Model Require Import Dates Zone Build Holidays Exchange.
From Verif.Exchanges Require common_holidays.
Import ListNotations.
Open Scope Z_scope.

(** exchange_calendar_xosl.py:35 *)
Definition NewYearsDay : rule := common_holidays.new_years_day None None None None.
(** exchange_calendar_xosl.py:37 *)
Definition HolyWednesday : rule :=
  common_holidays.holy_wednesday (Some (ymd 2011 1 1)) None (Some WEEKDAYS).
(** exchange_calendar_xosl.py:38 *)
Definition MaundyThursday : rule := common_holidays.maundy_thursday None None None.
(** exchange_calendar_xosl.py:39 *)
Definition AscensionDay : rule := common_holidays.ascension_day None None.
(** exchange_calendar_xosl.py:40 *)
Definition WhitMonday : rule := common_holidays.whit_monday None None.
(** exchange_calendar_xosl.py:42 *)
Definition LabourDay : rule := common_holidays.european_labour_day None None None None.
(** exchange_calendar_xosl.py:44 *)
Definition ConstitutionDay : rule := Holiday 5 17 [] None None None None.
(** exchange_calendar_xosl.py:46 *)
Definition ChristmasEve : rule := common_holidays.christmas_eve None None None None.
(** exchange_calendar_xosl.py:47 *)
Definition Christmas : rule := common_holidays.christmas None None None None.
(** exchange_calendar_xosl.py:48 *)
Definition BoxingDay : rule := common_holidays.boxing_day None None None None.
(** exchange_calendar_xosl.py:50 *)
Definition NewYearsEve : rule := common_holidays.new_years_eve None None None None.
(** exchange_calendar_xosl.py:79-81 *)
Definition open_times : list (option Z * time) := [(None, Time 9 1 0)].
(** exchange_calendar_xosl.py:82-84 *)
Definition close_times : list (option Z * time) := [(None, Time 16 20 0)].
(** exchange_calendar_xosl.py:85 *)
Definition regular_early_close : time := Time 13 0 0.
(** exchange_calendar_xosl.py:88-102 *)
Definition regular_holidays : list rule :=
  [NewYearsDay;
     MaundyThursday;
     GoodFriday;
     EasterMonday;
     LabourDay;
     AscensionDay;
     ConstitutionDay;
     WhitMonday;
     ChristmasEve;
     Christmas;
     BoxingDay;
     NewYearsEve].
(** exchange_calendar_xosl.py:105-106 *)
Definition special_closes : list (time * list rule) :=
  [(regular_early_close, [HolyWednesday])].

(** exchange_calendar_xosl.py:53-106 [XOSLExchangeCalendar]; attributes not set in the class are the defaults of
    trading_calendar.py:203-366. *)
Definition calendar : exchange :=
  Exchange "Europe/Oslo"%string weekmask_default
    regular_holidays
    []
    open_times None None close_times
    0 0
    [] [] special_closes [].
