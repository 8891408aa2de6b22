(** Transcribed from trading_calendars/exchange_calendar_xbog.py by tools/translate.py; dates are day
    numbers. *)
From Coq Require Import ZArith String List Bool.
From Verif.Model Require Import Dates Zone Build Holidays Exchange.
From Verif.Exchanges Require common_holidays.
Import ListNotations.
Open Scope Z_scope.

(** exchange_calendar_xbog.py:45 *)
Definition NewYearsDay : rule := common_holidays.new_years_day None None None None.
(** exchange_calendar_xbog.py:47 *)
Definition Epiphany : rule :=
  common_holidays.epiphany None None (Some Next_monday_offset) None.
(** exchange_calendar_xbog.py:49-54 *)
Definition StJosephsDay : rule := Holiday 3 19 [NthWeekday MONDAY 1] None None None None.
(** exchange_calendar_xbog.py:56 *)
Definition MaundyThursday : rule := common_holidays.maundy_thursday None None None.
(** exchange_calendar_xbog.py:58 *)
Definition LabourDay : rule := common_holidays.european_labour_day None None None None.
(** exchange_calendar_xbog.py:60-65 *)
Definition MondayAfterAscensionDay : rule := Holiday 1 1 [Easter; Day 43] None None None None.
(** exchange_calendar_xbog.py:67-72 *)
Definition MondayAfterCorpusChristi : rule := Holiday 1 1 [Easter; Day 64] None None None None.
(** exchange_calendar_xbog.py:74-79 *)
Definition MondayAfterSacredHeart : rule := Holiday 1 1 [Easter; Day 71] None None None None.
(** exchange_calendar_xbog.py:81-86 *)
Definition StPeterAndStPaulDay : rule :=
  Holiday 6 29 [NthWeekday MONDAY 1] None None None None.
(** exchange_calendar_xbog.py:88-92 *)
Definition ColombiaIndependenceDay : rule := Holiday 7 20 [] None None None None.
(** exchange_calendar_xbog.py:94-98 *)
Definition BattleOfBoyaca : rule := Holiday 8 7 [] None None None None.
(** exchange_calendar_xbog.py:100-105 *)
Definition AssumptionDay : rule := Holiday 8 15 [NthWeekday MONDAY 1] None None None None.
(** exchange_calendar_xbog.py:107-112 *)
Definition DiaDeLaRaza : rule := Holiday 10 12 [NthWeekday MONDAY 1] None None None None.
(** exchange_calendar_xbog.py:114-119 *)
Definition AllSaintsDay : rule := Holiday 11 1 [NthWeekday MONDAY 1] None None None None.
(** exchange_calendar_xbog.py:121-126 *)
Definition CartagenaIndependenceDay : rule :=
  Holiday 11 11 [] (Some Next_monday_offset) None None None.
(** exchange_calendar_xbog.py:128 *)
Definition ImmaculateConception : rule :=
  common_holidays.immaculate_conception None None None None.
(** exchange_calendar_xbog.py:130 *)
Definition ChristmasDay : rule := common_holidays.christmas None None None None.
(** exchange_calendar_xbog.py:132 *)
Definition LastTradingDay : rule :=
  common_holidays.new_years_eve None None (Some Previous_friday) None.
(** exchange_calendar_xbog.py:171-173 *)
Definition open_times : list (option Z * time) := [(None, Time 9 31 0)].
(** exchange_calendar_xbog.py:175-177 *)
Definition close_times : list (option Z * time) := [(None, Time 16 0 0)].
(** exchange_calendar_xbog.py:180-201 *)
Definition regular_holidays : list rule :=
  [NewYearsDay;
     Epiphany;
     StJosephsDay;
     MaundyThursday;
     GoodFriday;
     LabourDay;
     MondayAfterAscensionDay;
     MondayAfterCorpusChristi;
     MondayAfterSacredHeart;
     StPeterAndStPaulDay;
     ColombiaIndependenceDay;
     BattleOfBoyaca;
     AssumptionDay;
     DiaDeLaRaza;
     AllSaintsDay;
     CartagenaIndependenceDay;
     ImmaculateConception;
     ChristmasDay;
     LastTradingDay].

(** exchange_calendar_xbog.py:135-201 [XBOGExchangeCalendar]; attributes not set in the class are the defaults of
    trading_calendar.py:203-366. *)
Definition calendar : exchange :=
  Exchange "America/New_York"%string weekmask_default
    regular_holidays
    []
    open_times None None close_times
    0 0
    [] [] [] [].
