(** Transcribed from trading_calendars/exchange_calendar_xcbf.py by tools/translate.py; dates are day
    numbers. *)
From Coq Require Import ZArith String List Bool.
From Verif.Model Require Import Dates Zone Build Holidays Exchange.
From Verif.Exchanges Require us_holidays.
Import ListNotations.
Open Scope Z_scope.

(** exchange_calendar_xcbf.py:49-54 *)
Definition GoodFridayUnlessChristmasNYEFriday : rule :=
  Holiday 1 1 [] (Some Good_friday_unless_christmas_nye_friday) None None None.
(** exchange_calendar_xcbf.py:72-74 *)
Definition open_times : list (option Z * time) := [(None, Time 8 31 0)].
(** exchange_calendar_xcbf.py:76-78 *)
Definition close_times : list (option Z * time) := [(None, Time 15 15 0)].
(** exchange_calendar_xcbf.py:81-92 *)
Definition regular_holidays : list rule :=
  [us_holidays.USNewYearsDay;
     us_holidays.USMartinLutherKingJrAfter1998;
     pd_USPresidentsDay;
     GoodFridayUnlessChristmasNYEFriday;
     us_holidays.USIndependenceDay;
     us_holidays.USMemorialDay;
     pd_USLaborDay;
     pd_USThanksgivingDay;
     us_holidays.Christmas].
(** exchange_calendar_xcbf.py:95-101 *)
Definition special_closes : list (time * list rule) :=
  [(Time 12 15 0, [us_holidays.USBlackFridayInOrAfter1993])].
(** exchange_calendar_xcbf.py:104-108 *)
Definition adhoc_holidays : list Z :=
  us_holidays.HurricaneSandyClosings ++ us_holidays.USNationalDaysofMourning.

(** exchange_calendar_xcbf.py:57-108 [XCBFExchangeCalendar]; attributes not set in the class are the defaults of
    trading_calendar.py:203-366. *)
Definition calendar : exchange :=
  Exchange "America/Chicago"%string weekmask_default
    regular_holidays
    adhoc_holidays
    open_times None None close_times
    0 0
    [] [] special_closes [].
