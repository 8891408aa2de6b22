(** Transcribed from trading_calendars/exchange_calendar_xlis.py by tools/translate.py; dates are day
    numbers. *)
From Coq Require Import ZArith String List Bool.
From Verif.Model Require Import Dates Zone Build Holidays Exchange.
From Verif.Exchanges Require common_holidays.
Import ListNotations.
Open Scope Z_scope.

(** exchange_calendar_xlis.py:36 *)
Definition NewYearsDay : rule := common_holidays.new_years_day None None None None.
(** exchange_calendar_xlis.py:38-44 *)
Definition Carnival : rule :=
  Holiday 1 1 [Easter; Day (-47)] None None (Some (ymd 2003 1 1)) None.
(** exchange_calendar_xlis.py:45 *)
Definition CorpusChristi : rule := common_holidays.corpus_christi None (Some (ymd 2003 1 1)).
(** exchange_calendar_xlis.py:47-52 *)
Definition LibertyDay : rule := Holiday 4 25 [] None None (Some (ymd 2003 1 1)) None.
(** exchange_calendar_xlis.py:54 *)
Definition LabourDay : rule := common_holidays.european_labour_day None None None None.
(** exchange_calendar_xlis.py:56-61 *)
Definition PortugalDay : rule := Holiday 6 10 [] None None (Some (ymd 2003 1 1)) None.
(** exchange_calendar_xlis.py:63-68 *)
Definition SaintAnthonysDay : rule := Holiday 6 13 [] None None (Some (ymd 2002 1 1)) None.
(** exchange_calendar_xlis.py:70 *)
Definition AssumptionDay : rule :=
  common_holidays.assumption_day None (Some (ymd 2003 1 1)) None None.
(** exchange_calendar_xlis.py:72-77 *)
Definition RepublicDay : rule := Holiday 10 5 [] None None (Some (ymd 2003 1 1)) None.
(** exchange_calendar_xlis.py:79 *)
Definition AllSaintsDay : rule :=
  common_holidays.all_saints_day None (Some (ymd 2003 1 1)) None None.
(** exchange_calendar_xlis.py:81-86 *)
Definition IndependenceDay : rule := Holiday 12 1 [] None None (Some (ymd 2003 1 1)) None.
(** exchange_calendar_xlis.py:88 *)
Definition ImmaculateConception : rule :=
  common_holidays.immaculate_conception None (Some (ymd 2003 1 1)) None None.
(** exchange_calendar_xlis.py:90 *)
Definition ChristmasEveBefore2003 : rule :=
  common_holidays.christmas_eve None (Some (ymd 2003 1 1)) None None.
(** exchange_calendar_xlis.py:91 *)
Definition ChristmasEve : rule :=
  common_holidays.christmas_eve (Some (ymd 2003 1 1)) None None (Some WEEKDAYS).
(** exchange_calendar_xlis.py:92 *)
Definition Christmas : rule := common_holidays.christmas None None None None.
(** exchange_calendar_xlis.py:93 *)
Definition BoxingDay : rule := common_holidays.boxing_day None None None None.
(** exchange_calendar_xlis.py:95 *)
Definition NewYearsEve : rule := common_holidays.new_years_eve None None None (Some WEEKDAYS).
(** exchange_calendar_xlis.py:125 *)
Definition regular_early_close : time := Time 13 5 0.
(** exchange_calendar_xlis.py:134-136 *)
Definition open_times : list (option Z * time) := [(None, Time 8 1 0)].
(** exchange_calendar_xlis.py:138-140 *)
Definition close_times : list (option Z * time) := [(None, Time 16 30 0)].
(** exchange_calendar_xlis.py:143-162 *)
Definition regular_holidays : list rule :=
  [NewYearsDay;
     Carnival;
     GoodFriday;
     EasterMonday;
     CorpusChristi;
     LibertyDay;
     LabourDay;
     PortugalDay;
     SaintAnthonysDay;
     AssumptionDay;
     RepublicDay;
     AllSaintsDay;
     IndependenceDay;
     ImmaculateConception;
     ChristmasEveBefore2003;
     Christmas;
     BoxingDay].
(** exchange_calendar_xlis.py:165-171 *)
Definition special_closes : list (time * list rule) :=
  [(regular_early_close, [ChristmasEve;
     NewYearsEve])].

(** exchange_calendar_xlis.py:98-171 [XLISExchangeCalendar]; attributes not set in the class are the defaults of
    trading_calendar.py:203-366. *)
Definition calendar : exchange :=
  Exchange "Europe/Lisbon"%string weekmask_default
    regular_holidays
    []
    open_times None None close_times
    0 0
    [] [] special_closes [].
