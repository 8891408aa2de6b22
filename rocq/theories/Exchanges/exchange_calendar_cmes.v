(** Transcribed from trading_calendars/exchange_calendar_cmes.py by tools/translate.py; dates are day
    numbers. *)
From Coq Require Import ZArith String List Bool.
From Verif.Model Require Import Dates Zone Build Holidays Exchange.
From Verif.Exchanges Require us_holidays.
Import ListNotations.
Open Scope Z_scope.

(** exchange_calendar_cmes.py:59-61 *)
Definition open_times : list (option Z * time) := [(None, Time 17 1 0)].
(** exchange_calendar_cmes.py:63-65 *)
Definition close_times : list (option Z * time) := [(None, Time 17 0 0)].
(** exchange_calendar_cmes.py:68-69 *)
Definition open_offset : Z := (-1).
(** exchange_calendar_cmes.py:72-87 *)
Definition regular_holidays : list rule :=
  [us_holidays.USNewYearsDay;
     GoodFriday;
     us_holidays.Christmas].
(** exchange_calendar_cmes.py:90-91 *)
Definition adhoc_holidays : list Z := us_holidays.USNationalDaysofMourning.
(** exchange_calendar_cmes.py:94-108 *)
Definition special_closes : list (time * list rule) :=
  [(Time 12 0 0, [us_holidays.USMartinLutherKingJrAfter1998;
     pd_USPresidentsDay;
     us_holidays.USMemorialDay;
     pd_USLaborDay;
     us_holidays.USIndependenceDay;
     pd_USThanksgivingDay;
     us_holidays.USBlackFridayInOrAfter1993;
     us_holidays.ChristmasEveBefore1993;
     us_holidays.ChristmasEveInOrAfter1993])].

(** exchange_calendar_cmes.py:43-108 [CMESExchangeCalendar]; attributes not set in the class are the defaults of
    trading_calendar.py:203-366. *)
Definition calendar : exchange :=
  Exchange "America/Chicago"%string weekmask_default
    regular_holidays
    adhoc_holidays
    open_times None None close_times
    open_offset 0
    [] [] special_closes [].
