(** Transcribed from trading_calendars/us_futures_calendar.py by tools/translate.py; dates are day
    numbers. *)
From Coq Require Import ZArith String List Bool.
From Verif.Model Require Import Dates Zone Build Holidays Exchange.
From Verif.Exchanges Require us_holidays.
Import ListNotations.
Open Scope Z_scope.

(** us_futures_calendar.py:55-57 *)
Definition open_times : list (option Z * time) := [(None, Time 18 1 0)].
(** us_futures_calendar.py:58-60 *)
Definition close_times : list (option Z * time) := [(None, Time 18 0 0)].
(** us_futures_calendar.py:61 *)
Definition open_offset : Z := (-1).
(** us_futures_calendar.py:70-75 *)
Definition regular_holidays : list rule :=
  [us_holidays.USNewYearsDay;
     GoodFriday;
     us_holidays.Christmas].

(** us_futures_calendar.py:24-75 [QuantopianUSFuturesCalendar]; attributes not set in the class are the defaults of
    trading_calendar.py:203-366. *)
Definition calendar : exchange :=
  Exchange "America/New_York"%string weekmask_default
    regular_holidays
    []
    open_times None None close_times
    open_offset 0
    [] [] [] [].
