(** Transcribed from trading_calendars/exchange_calendar_iepa.py by tools/translate.py; dates are day
    numbers. *)
From Coq Require Import ZArith String List Bool.
From Verif.Model Require Import Dates Zone Build Holidays Exchange.
From Verif.Exchanges Require us_holidays.
Import ListNotations.
Open Scope Z_scope.

(** exchange_calendar_iepa.py:38-40 *)
Definition open_times : list (option Z * time) := [(None, Time 20 1 0)].
(** exchange_calendar_iepa.py:42-44 *)
Definition close_times : list (option Z * time) := [(None, Time 18 0 0)].
(** exchange_calendar_iepa.py:47-48 *)
Definition open_offset : Z := (-1).
(** exchange_calendar_iepa.py:51-61 *)
Definition special_closes : list (time * list rule) :=
  [(Time 13 0 0, [us_holidays.USMartinLutherKingJrAfter1998;
     pd_USPresidentsDay;
     us_holidays.USMemorialDay;
     us_holidays.USIndependenceDay;
     pd_USLaborDay;
     pd_USThanksgivingDay])].
(** exchange_calendar_iepa.py:64-70 *)
Definition adhoc_holidays : list Z := us_holidays.USNationalDaysofMourning ++ [ymd 2012 10 29].
(** exchange_calendar_iepa.py:73-79 *)
Definition regular_holidays : list rule :=
  [us_holidays.USNewYearsDay;
     GoodFriday;
     us_holidays.Christmas].

(** exchange_calendar_iepa.py:25-79 [IEPAExchangeCalendar]; attributes not set in the class are the defaults of
    trading_calendar.py:203-366. *)
Definition calendar : exchange :=
  Exchange "America/New_York"%string weekmask_default
    regular_holidays
    adhoc_holidays
    open_times None None close_times
    open_offset 0
    [] [] special_closes [].
