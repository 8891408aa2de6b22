(** Transcribed from trading_calendars/exchange_calendar_xpra.py by tools/translate.py; dates are day
    numbers. *)
From Coq Require Import ZArith String List Bool.
From Verif.Model Require Import Dates Zone Build Holidays Exchange.
From Verif.Exchanges Require common_holidays.
Import ListNotations.
Open Scope Z_scope.

(** exchange_calendar_xpra.py:39 *)
Definition NewYearsDay : rule := common_holidays.new_years_day None None None None.
(** exchange_calendar_xpra.py:42-48 *)
Definition GoodFriday : rule :=
  Holiday 1 1 [Easter; Day (-2)] None (Some (ymd 2013 1 1)) None None.
(** exchange_calendar_xpra.py:50 *)
Definition LabourDay : rule := common_holidays.european_labour_day None None None None.
(** exchange_calendar_xpra.py:52-56 *)
Definition LiberationDay : rule := Holiday 5 8 [] None None None None.
(** exchange_calendar_xpra.py:58-62 *)
Definition SaintsCyrilAndMethodiusDay : rule := Holiday 7 5 [] None None None None.
(** exchange_calendar_xpra.py:64-68 *)
Definition JanHusDay : rule := Holiday 7 6 [] None None None None.
(** exchange_calendar_xpra.py:70-74 *)
Definition CzechStatehoodDay : rule := Holiday 9 28 [] None None None None.
(** exchange_calendar_xpra.py:76-80 *)
Definition IndependenceDay : rule := Holiday 10 28 [] None None None None.
(** exchange_calendar_xpra.py:82-86 *)
Definition StruggleForFreedomAndDemocracyDay : rule := Holiday 11 17 [] None None None None.
(** exchange_calendar_xpra.py:88 *)
Definition ChristmasEve : rule := common_holidays.christmas_eve None None None None.
(** exchange_calendar_xpra.py:90 *)
Definition ChristmasDay : rule := common_holidays.christmas None None None None.
(** exchange_calendar_xpra.py:92-96 *)
Definition SecondDayOfChristmas : rule := Holiday 12 26 [] None None None None.
(** exchange_calendar_xpra.py:98 *)
Definition ExchangeHoliday : rule := common_holidays.new_years_eve None None None None.
(** exchange_calendar_xpra.py:131-133 *)
Definition open_times : list (option Z * time) := [(None, Time 9 1 0)].
(** exchange_calendar_xpra.py:135-137 *)
Definition close_times : list (option Z * time) := [(None, Time 16 20 0)].
(** exchange_calendar_xpra.py:140-156 *)
Definition regular_holidays : list rule :=
  [NewYearsDay;
     GoodFriday;
     EasterMonday;
     LabourDay;
     LiberationDay;
     SaintsCyrilAndMethodiusDay;
     JanHusDay;
     CzechStatehoodDay;
     IndependenceDay;
     StruggleForFreedomAndDemocracyDay;
     ChristmasEve;
     ChristmasDay;
     SecondDayOfChristmas;
     ExchangeHoliday].
(** exchange_calendar_xpra.py:159-166 *)
Definition adhoc_holidays : list Z := [ymd 2002 8 14; ymd 2004 1 2; ymd 2005 1 3].

(** exchange_calendar_xpra.py:101-166 [XPRAExchangeCalendar]; attributes not set in the class are the defaults of
    trading_calendar.py:203-366. *)
Definition calendar : exchange :=
  Exchange "Europe/Prague"%string weekmask_default
    regular_holidays
    adhoc_holidays
    open_times None None close_times
    0 0
    [] [] [] [].
