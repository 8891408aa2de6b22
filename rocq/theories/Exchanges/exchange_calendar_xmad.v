(** Transcribed from trading_calendars/exchange_calendar_xmad.py by tools/translate.py; dates are day
    numbers. *)
From Coq Require Import ZArith String List Bool.
From Verif.Model Require Import Dates Zone Build Holidays Exchange.
From Verif.Exchanges Require common_holidays.
Import ListNotations.
Open Scope Z_scope.

(** exchange_calendar_xmad.py:44 *)
Definition NewYearsDay : rule := common_holidays.new_years_day None None None None.
(** exchange_calendar_xmad.py:46 *)
Definition Epiphany : rule := common_holidays.epiphany None (Some (ymd 2007 1 1)) None None.
(** exchange_calendar_xmad.py:48 *)
Definition LabourDay : rule := common_holidays.european_labour_day None None None None.
(** exchange_calendar_xmad.py:50 *)
Definition AssumptionDay : rule :=
  common_holidays.assumption_day None (Some (ymd 2005 1 1)) (Some Weekend_to_monday) None.
(** exchange_calendar_xmad.py:52-57 *)
Definition NationalDay : rule := Holiday 10 12 [] None None (Some (ymd 2005 1 1)) None.
(** exchange_calendar_xmad.py:59 *)
Definition AllSaintsDay : rule :=
  common_holidays.all_saints_day None (Some (ymd 2005 1 1)) None None.
(** exchange_calendar_xmad.py:61-66 *)
Definition ConstitutionDay : rule := Holiday 12 6 [] None None (Some (ymd 2005 1 1)) None.
(** exchange_calendar_xmad.py:68 *)
Definition ImmaculateConception : rule :=
  common_holidays.immaculate_conception None (Some (ymd 2005 1 1)) None None.
(** exchange_calendar_xmad.py:70 *)
Definition ChristmasEveThrough2010 : rule :=
  common_holidays.christmas_eve None (Some (ymd 2011 1 1)) None None.
(** exchange_calendar_xmad.py:71-74 *)
Definition ChristmasEveEarlyClose2012Onwards : rule :=
  common_holidays.christmas_eve (Some (ymd 2012 1 1)) None None (Some WEEKDAYS).
(** exchange_calendar_xmad.py:75 *)
Definition Christmas : rule := common_holidays.christmas None None None None.
(** exchange_calendar_xmad.py:76 *)
Definition BoxingDay : rule := common_holidays.boxing_day None None None None.
(** exchange_calendar_xmad.py:78 *)
Definition NewYearsEveThrough2010 : rule :=
  common_holidays.new_years_eve None (Some (ymd 2011 1 1)) None None.
(** exchange_calendar_xmad.py:79-82 *)
Definition NewYearsEveEarlyClose2012Onwards : rule :=
  common_holidays.new_years_eve (Some (ymd 2012 1 1)) None None (Some WEEKDAYS).
(** exchange_calendar_xmad.py:114 *)
Definition regular_early_close : time := Time 14 0 0.
(** exchange_calendar_xmad.py:120-122 *)
Definition open_times : list (option Z * time) := [(None, Time 9 1 0)].
(** exchange_calendar_xmad.py:124-126 *)
Definition close_times : list (option Z * time) := [(None, Time 17 30 0)].
(** exchange_calendar_xmad.py:129-145 *)
Definition regular_holidays : list rule :=
  [NewYearsDay;
     Epiphany;
     GoodFriday;
     EasterMonday;
     LabourDay;
     AssumptionDay;
     NationalDay;
     AllSaintsDay;
     ConstitutionDay;
     ImmaculateConception;
     ChristmasEveThrough2010;
     Christmas;
     BoxingDay;
     NewYearsEveThrough2010].
(** exchange_calendar_xmad.py:148-157 *)
Definition special_closes : list (time * list rule) :=
  [(regular_early_close, [ChristmasEveEarlyClose2012Onwards;
     NewYearsEveEarlyClose2012Onwards])].

(** exchange_calendar_xmad.py:85-157 [XMADExchangeCalendar]; attributes not set in the class are the defaults of
    trading_calendar.py:203-366. *)
Definition calendar : exchange :=
  Exchange "Europe/Madrid"%string weekmask_default
    regular_holidays
    []
    open_times None None close_times
    0 0
    [] [] special_closes [].
