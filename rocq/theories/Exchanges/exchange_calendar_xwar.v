(** Transcribed from trading_calendars/exchange_calendar_xwar.py by tools/translate.py; dates are day
    numbers. *)
From Coq Require Import ZArith String List Bool.
From Verif.Model Require Import Dates Zone Build Holidays Exchange.
From Verif.Exchanges Require common_holidays.
Import ListNotations.
Open Scope Z_scope.

(** exchange_calendar_xwar.py:48 *)
Definition NewYearsDay : rule := common_holidays.new_years_day None None None None.
(** exchange_calendar_xwar.py:50 *)
Definition Epiphany : rule := common_holidays.epiphany (Some (ymd 2011 1 1)) None None None.
(** exchange_calendar_xwar.py:52 *)
Definition LabourDay : rule := common_holidays.european_labour_day None None None None.
(** exchange_calendar_xwar.py:54-58 *)
Definition May3ConstitutionDay : rule := Holiday 5 3 [] None None None None.
(** exchange_calendar_xwar.py:60 *)
Definition CorpusChristi : rule := common_holidays.corpus_christi None None.
(** exchange_calendar_xwar.py:62-66 *)
Definition ArmedForcesDay : rule := Holiday 8 15 [] None None None None.
(** exchange_calendar_xwar.py:68 *)
Definition AllSaintsDay : rule := common_holidays.all_saints_day None None None None.
(** exchange_calendar_xwar.py:70-74 *)
Definition IndependenceDay : rule := Holiday 11 11 [] None None None None.
(** exchange_calendar_xwar.py:76 *)
Definition ChristmasEve : rule :=
  common_holidays.christmas_eve None None (Some (Not_in_year 2004)) None.
(** exchange_calendar_xwar.py:77 *)
Definition Christmas : rule := common_holidays.christmas None None None None.
(** exchange_calendar_xwar.py:78 *)
Definition BoxingDay : rule := common_holidays.boxing_day None None None None.
(** exchange_calendar_xwar.py:80 *)
Definition NewYearsEve : rule :=
  common_holidays.new_years_eve (Some (ymd 2011 1 1)) None None None.
(** exchange_calendar_xwar.py:116-118 *)
Definition open_times : list (option Z * time) := [(None, Time 9 1 0)].
(** exchange_calendar_xwar.py:119-121 *)
Definition close_times : list (option Z * time) := [(None, Time 17 0 0)].
(** exchange_calendar_xwar.py:124-140 *)
Definition regular_holidays : list rule :=
  [NewYearsDay;
     Epiphany;
     GoodFriday;
     EasterMonday;
     LabourDay;
     May3ConstitutionDay;
     CorpusChristi;
     ArmedForcesDay;
     AllSaintsDay;
     IndependenceDay;
     ChristmasEve;
     Christmas;
     BoxingDay;
     NewYearsEve].
(** exchange_calendar_xwar.py:143-152 *)
Definition adhoc_holidays : list Z :=
  [ymd 2005 4 8; ymd 2007 12 31; ymd 2008 5 2; ymd 2009 1 2; ymd 2013 4 16; ymd 2018 1 2;
     ymd 2018 11 12].

(** exchange_calendar_xwar.py:83-152 [XWARExchangeCalendar]; attributes not set in the class are the defaults of
    trading_calendar.py:203-366. *)
Definition calendar : exchange :=
  Exchange "Europe/Warsaw"%string weekmask_default
    regular_holidays
    adhoc_holidays
    open_times None None close_times
    0 0
    [] [] [] [].
