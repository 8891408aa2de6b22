(** Transcribed from trading_calendars/exchange_calendar_xbud.py by tools/translate.py; dates are day
    numbers. *)
From Coq Require Import ZArith String List Bool.
From Verif.Model Require Import Dates Zone Build Holidays Exchange.
From Verif.Exchanges Require common_holidays.
Import ListNotations.
Open Scope Z_scope.

(** exchange_calendar_xbud.py:54 *)
Definition NewYearsDay : rule :=
  common_holidays.new_years_day None None (Some Four_day_weekend) None.
(** exchange_calendar_xbud.py:56-61 *)
Definition NationalHoliday1 : rule := Holiday 3 15 [] (Some Four_day_weekend) None None None.
(** exchange_calendar_xbud.py:64-70 *)
Definition GoodFriday : rule :=
  Holiday 1 1 [Easter; Day (-2)] None (Some (ymd 2012 1 1)) None None.
(** exchange_calendar_xbud.py:72 *)
Definition LabourDay : rule :=
  common_holidays.european_labour_day None None (Some Four_day_weekend) None.
(** exchange_calendar_xbud.py:74 *)
Definition WhitMonday : rule := common_holidays.whit_monday None None.
(** exchange_calendar_xbud.py:76-81 *)
Definition StStephensDay : rule := Holiday 8 20 [] (Some Four_day_weekend) None None None.
(** exchange_calendar_xbud.py:83-88 *)
Definition NationalHoliday2 : rule := Holiday 10 23 [] (Some Four_day_weekend) None None None.
(** exchange_calendar_xbud.py:90 *)
Definition AllSaintsDay : rule :=
  common_holidays.all_saints_day None None (Some Four_day_weekend) None.
(** exchange_calendar_xbud.py:93 *)
Definition ChristmasEve : rule := common_holidays.christmas_eve None None None None.
(** exchange_calendar_xbud.py:95 *)
Definition ChristmasDay : rule := common_holidays.christmas None None None None.
(** exchange_calendar_xbud.py:100-105 *)
Definition SecondDayOfChristmas : rule :=
  Holiday 12 26 [] None None (Some (ymd 2013 1 1)) None.
(** exchange_calendar_xbud.py:107-113 *)
Definition SecondDayOfChristmasAddFriday : rule :=
  Holiday 12 26 [] (Some Four_day_weekend) (Some (ymd 2013 1 1)) None None.
(** exchange_calendar_xbud.py:120 *)
Definition NewYearsEve : rule :=
  common_holidays.new_years_eve (Some (ymd 2011 1 1)) None None None.
(** exchange_calendar_xbud.py:152-154 *)
Definition open_times : list (option Z * time) := [(None, Time 9 1 0)].
(** exchange_calendar_xbud.py:156-158 *)
Definition close_times : list (option Z * time) := [(None, Time 17 0 0)].
(** exchange_calendar_xbud.py:161-177 *)
Definition regular_holidays : list rule :=
  [NewYearsDay;
     NationalHoliday1;
     GoodFriday;
     EasterMonday;
     LabourDay;
     WhitMonday;
     StStephensDay;
     NationalHoliday2;
     AllSaintsDay;
     ChristmasEve;
     ChristmasDay;
     SecondDayOfChristmas;
     SecondDayOfChristmasAddFriday;
     NewYearsEve].

(** exchange_calendar_xbud.py:123-177 [XBUDExchangeCalendar]; attributes not set in the class are the defaults of
    trading_calendar.py:203-366. *)
Definition calendar : exchange :=
  Exchange "Europe/Budapest"%string weekmask_default
    regular_holidays
    []
    open_times None None close_times
    0 0
    [] [] [] [].
