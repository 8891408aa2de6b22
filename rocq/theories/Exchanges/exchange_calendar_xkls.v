(** Transcribed from trading_calendars/exchange_calendar_xkls.py by tools/translate.py; dates are day
    numbers. *)
From Coq Require Import ZArith String List Bool.
From Verif.Model Require Import Dates Zone Build Holidays Exchange.
From Verif.Exchanges Require xkls_holidays.
Import ListNotations.
Open Scope Z_scope.

(** exchange_calendar_xkls.py:84-86 *)
Definition open_times : list (option Z * time) := [(None, Time 9 1 0)].
(** exchange_calendar_xkls.py:88-90 *)
Definition close_times : list (option Z * time) := [(None, Time 17 0 0)].
(** exchange_calendar_xkls.py:92 *)
Definition regular_early_close : time := Time 12 30 0.
(** exchange_calendar_xkls.py:95-103 *)
Definition regular_holidays : list rule :=
  [xkls_holidays.NewYearsDay;
     xkls_holidays.FederalTerritoryDay;
     xkls_holidays.LabourDay;
     xkls_holidays.NationalDay;
     xkls_holidays.MalaysiaDay;
     xkls_holidays.ChristmasDay].
(** exchange_calendar_xkls.py:106-121 *)
Definition adhoc_holidays : list Z :=
  xkls_holidays.misc_adhoc ++ xkls_holidays.ChineseNewYear ++ xkls_holidays.ChineseNewYearDay2 ++ xkls_holidays.NuzulAlQuran ++ xkls_holidays.EidAlFitrDay1 ++ xkls_holidays.EidAlFitrDay2 ++ xkls_holidays.EidAlAdha ++ xkls_holidays.Muharram ++ xkls_holidays.MuhammadBirthday ++ xkls_holidays.Deepavali ++ xkls_holidays.Thaipusam ++ xkls_holidays.WesakDay.
(** exchange_calendar_xkls.py:124-143 *)
Definition special_closes_adhoc : list (time * list Z) :=
  let early_close_days := xkls_holidays.ChineseNewYearsHalfDay ++ xkls_holidays.EidAlFitrHalfDay in
  let collisions := [ymd 1997 2 7; ymd 1998 1 28; ymd 2002 2 11; ymd 2003 1 31; ymd 2004 1 21;
     ymd 2003 11 24] in
  let early_close_days := set_difference early_close_days collisions in
  [(regular_early_close, early_close_days)].

(** exchange_calendar_xkls.py:49-143 [XKLSExchangeCalendar]; attributes not set in the class are the defaults of
    trading_calendar.py:203-366. *)
Definition calendar : exchange :=
  Exchange "Asia/Kuala_Lumpur"%string weekmask_default
    regular_holidays
    adhoc_holidays
    open_times None None close_times
    0 0
    [] [] [] special_closes_adhoc.
