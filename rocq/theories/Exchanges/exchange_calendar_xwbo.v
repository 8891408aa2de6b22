(** Transcribed from trading_calendars/exchange_calendar_xwbo.py by tools/translate.py; dates are day
    numbers. *)
From Coq Require Import ZArith String List Bool.
From Verif.Model Require Import Dates Zone Build Holidays Exchange.
From Verif.Exchanges Require common_holidays.
Import ListNotations.
Open Scope Z_scope.

(** exchange_calendar_xwbo.py:42 *)
Definition NewYearsDay : rule := common_holidays.new_years_day None None None None.
(** exchange_calendar_xwbo.py:44 *)
Definition Epiphany : rule := common_holidays.epiphany None (Some (ymd 2019 1 1)) None None.
(** exchange_calendar_xwbo.py:46 *)
Definition AscensionDay : rule := common_holidays.ascension_day None (Some (ymd 2019 1 1)).
(** exchange_calendar_xwbo.py:47 *)
Definition WhitMonday : rule := common_holidays.whit_monday None None.
(** exchange_calendar_xwbo.py:48 *)
Definition CorpusChristi : rule := common_holidays.corpus_christi None (Some (ymd 2019 1 1)).
(** exchange_calendar_xwbo.py:50 *)
Definition LabourDay : rule := common_holidays.european_labour_day None None None None.
(** exchange_calendar_xwbo.py:52 *)
Definition AssumptionDay : rule :=
  common_holidays.assumption_day None (Some (ymd 2019 1 1)) None None.
(** exchange_calendar_xwbo.py:54 *)
Definition NationalHoliday : rule := Holiday 10 26 [] None None None None.
(** exchange_calendar_xwbo.py:56 *)
Definition AllSaintsDay : rule :=
  common_holidays.all_saints_day None (Some (ymd 2019 1 1)) None None.
(** exchange_calendar_xwbo.py:58 *)
Definition ImmaculateConception : rule :=
  common_holidays.immaculate_conception None (Some (ymd 2019 1 1)) None None.
(** exchange_calendar_xwbo.py:60 *)
Definition ChristmasEve : rule := common_holidays.christmas_eve None None None None.
(** exchange_calendar_xwbo.py:61 *)
Definition Christmas : rule := common_holidays.christmas None None None None.
(** exchange_calendar_xwbo.py:63 *)
Definition SaintStephensDay : rule := Holiday 12 26 [] None None None None.
(** exchange_calendar_xwbo.py:67-70 *)
Definition NewYearsEveThrough2015 : rule :=
  common_holidays.new_years_eve None (Some (ymd 2016 1 1)) (Some Previous_friday) None.
(** exchange_calendar_xwbo.py:71 *)
Definition NewYearsEve2016Onwards : rule :=
  common_holidays.new_years_eve (Some (ymd 2016 1 1)) None None None.
(** exchange_calendar_xwbo.py:106-108 *)
Definition open_times : list (option Z * time) := [(None, Time 9 1 0)].
(** exchange_calendar_xwbo.py:110-112 *)
Definition close_times : list (option Z * time) := [(None, Time 17 30 0)].
(** exchange_calendar_xwbo.py:115-134 *)
Definition regular_holidays : list rule :=
  [NewYearsDay;
     Epiphany;
     GoodFriday;
     EasterMonday;
     AscensionDay;
     WhitMonday;
     CorpusChristi;
     LabourDay;
     AssumptionDay;
     NationalHoliday;
     AllSaintsDay;
     ImmaculateConception;
     ChristmasEve;
     Christmas;
     SaintStephensDay;
     NewYearsEveThrough2015;
     NewYearsEve2016Onwards].

(** exchange_calendar_xwbo.py:74-134 [XWBOExchangeCalendar]; attributes not set in the class are the defaults of
    trading_calendar.py:203-366. *)
Definition calendar : exchange :=
  Exchange "Europe/Vienna"%string weekmask_default
    regular_holidays
    []
    open_times None None close_times
    0 0
    [] [] [] [].
