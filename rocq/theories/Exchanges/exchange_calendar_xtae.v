(** Transcribed from trading_calendars/exchange_calendar_xtae.py by tools/translate.py; dates are day
    numbers. *)
From Coq Require Import ZArith String List Bool.
From Verif.Model Require Import Dates Zone Build Holidays Exchange.
From Verif.Exchanges Require tase_holidays.
Import ListNotations.
Open Scope Z_scope.

(** exchange_calendar_xtae.py:76-78 *)
Definition open_times : list (option Z * time) := [(None, Time 10 0 0)].
(** exchange_calendar_xtae.py:80-82 *)
Definition close_times : list (option Z * time) := [(None, Time 17 15 0)].
(** exchange_calendar_xtae.py:85-106 *)
Definition regular_holidays : list rule :=
  [tase_holidays.Purim;
     tase_holidays.PassoverEve;
     tase_holidays.Passover;
     tase_holidays.Passover2Eve;
     tase_holidays.Passover2;
     tase_holidays.MemorialDay;
     tase_holidays.IndependenceDay;
     tase_holidays.PentecostEve;
     tase_holidays.Pentecost;
     tase_holidays.FastDay;
     tase_holidays.NewYearsEve;
     tase_holidays.NewYear;
     tase_holidays.NewYear2;
     tase_holidays.YomKippurEve;
     tase_holidays.YomKippur;
     tase_holidays.SukkothEve;
     tase_holidays.Sukkoth;
     tase_holidays.SimchatTorahEve;
     tase_holidays.SimchatTorah].
(** exchange_calendar_xtae.py:109-122 *)
Definition adhoc_holidays : list Z :=
  [ymd 2019 4 9; ymd 2019 9 17; ymd 2020 3 2; ymd 2021 3 23].
(** exchange_calendar_xtae.py:125-126 ['1111001'] *)
Definition weekmask : list bool := [true; true; true; true; false; false; true].

(** exchange_calendar_xtae.py:30-126 [XTAEExchangeCalendar]; attributes not set in the class are the defaults of
    trading_calendar.py:203-366. *)
Definition calendar : exchange :=
  Exchange "Asia/Tel_Aviv"%string weekmask
    regular_holidays
    adhoc_holidays
    open_times None None close_times
    0 0
    [] [] [] [].
