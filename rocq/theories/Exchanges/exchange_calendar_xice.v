(** Transcribed from trading_calendars/exchange_calendar_xice.py by tools/translate.py; dates are day
    numbers. *)
From Coq Require Import ZArith String List Bool.
From Verif.Model Require Import Dates Zone Build Holidays Exchange.
From Verif.Exchanges Require common_holidays.
Import ListNotations.
Open Scope Z_scope.

(** exchange_calendar_xice.py:41 *)
Definition NewYearsDay : rule := common_holidays.new_years_day None None None None.
(** exchange_calendar_xice.py:44-49 *)
Definition FirstDayOfSummer : rule := Holiday 4 19 [NthWeekday THURSDAY 1] None None None None.
(** exchange_calendar_xice.py:51 *)
Definition LabourDay : rule := common_holidays.european_labour_day None None None None.
(** exchange_calendar_xice.py:53 *)
Definition MaundyThursday : rule := common_holidays.maundy_thursday None None None.
(** exchange_calendar_xice.py:54 *)
Definition AscensionDay : rule := common_holidays.ascension_day None None.
(** exchange_calendar_xice.py:55 *)
Definition WhitMonday : rule := common_holidays.whit_monday None None.
(** exchange_calendar_xice.py:57 *)
Definition NationalDay : rule := Holiday 6 17 [] None None None None.
(** exchange_calendar_xice.py:60-65 *)
Definition CommerceDay : rule := Holiday 8 1 [NthWeekday MONDAY 1] None None None None.
(** exchange_calendar_xice.py:67 *)
Definition ChristmasEve : rule := common_holidays.christmas_eve None None None None.
(** exchange_calendar_xice.py:68 *)
Definition Christmas : rule := common_holidays.christmas None None None None.
(** exchange_calendar_xice.py:69 *)
Definition BoxingDay : rule := common_holidays.boxing_day None None None None.
(** exchange_calendar_xice.py:71 *)
Definition NewYearsEve : rule := common_holidays.new_years_eve None None None None.
(** exchange_calendar_xice.py:102-104 *)
Definition open_times : list (option Z * time) := [(None, Time 9 31 0)].
(** exchange_calendar_xice.py:105-107 *)
Definition close_times : list (option Z * time) := [(None, Time 15 30 0)].
(** exchange_calendar_xice.py:110-126 *)
Definition regular_holidays : list rule :=
  [NewYearsDay;
     MaundyThursday;
     GoodFriday;
     EasterMonday;
     FirstDayOfSummer;
     LabourDay;
     AscensionDay;
     WhitMonday;
     NationalDay;
     CommerceDay;
     ChristmasEve;
     Christmas;
     BoxingDay;
     NewYearsEve].

(** exchange_calendar_xice.py:74-126 [XICEExchangeCalendar]; attributes not set in the class are the defaults of
    trading_calendar.py:203-366. *)
Definition calendar : exchange :=
  Exchange "Atlantic/Reykjavik"%string weekmask_default
    regular_holidays
    []
    open_times None None close_times
    0 0
    [] [] [] [].
