(** Transcribed from trading_calendars/exchange_calendar_xcse.py by tools/translate.py; dates are day
    numbers. *)
From Coq Require Import ZArith String List Bool.
From Verif.Model Require Import Dates Zone Build Holidays Exchange.
From Verif.Exchanges Require common_holidays.
Import ListNotations.
Open Scope Z_scope.

(** exchange_calendar_xcse.py:39 *)
Definition NewYearsDay : rule := common_holidays.new_years_day None None None None.
(** exchange_calendar_xcse.py:41 *)
Definition MaundyThursday : rule := common_holidays.maundy_thursday None None None.
(** exchange_calendar_xcse.py:42-47 *)
Definition GeneralPrayerDay : rule := Holiday 1 1 [Easter; Day 26] None None None None.
(** exchange_calendar_xcse.py:48 *)
Definition AscensionDay : rule := common_holidays.ascension_day None None.
(** exchange_calendar_xcse.py:49-55 *)
Definition BankHoliday : rule :=
  Holiday 1 1 [Easter; Day 40] None (Some (ymd 2009 1 1)) None None.
(** exchange_calendar_xcse.py:56 *)
Definition WhitMonday : rule := common_holidays.whit_monday None None.
(** exchange_calendar_xcse.py:58 *)
Definition ConstitutionDay : rule := Holiday 6 5 [] None None None None.
(** exchange_calendar_xcse.py:60 *)
Definition ChristmasEve : rule := common_holidays.christmas_eve None None None None.
(** exchange_calendar_xcse.py:61 *)
Definition Christmas : rule := common_holidays.christmas None None None None.
(** exchange_calendar_xcse.py:62 *)
Definition BoxingDay : rule := common_holidays.boxing_day None None None None.
(** exchange_calendar_xcse.py:64 *)
Definition NewYearsEve : rule := common_holidays.new_years_eve None None None None.
(** exchange_calendar_xcse.py:94-96 *)
Definition open_times : list (option Z * time) := [(None, Time 9 1 0)].
(** exchange_calendar_xcse.py:97-99 *)
Definition close_times : list (option Z * time) := [(None, Time 17 0 0)].
(** exchange_calendar_xcse.py:102-117 *)
Definition regular_holidays : list rule :=
  [NewYearsDay;
     MaundyThursday;
     GoodFriday;
     EasterMonday;
     GeneralPrayerDay;
     AscensionDay;
     BankHoliday;
     WhitMonday;
     ConstitutionDay;
     ChristmasEve;
     Christmas;
     BoxingDay;
     NewYearsEve].

(** exchange_calendar_xcse.py:67-117 [XCSEExchangeCalendar]; attributes not set in the class are the defaults of
    trading_calendar.py:203-366. *)
Definition calendar : exchange :=
  Exchange "Europe/Copenhagen"%string weekmask_default
    regular_holidays
    []
    open_times None None close_times
    0 0
    [] [] [] [].
