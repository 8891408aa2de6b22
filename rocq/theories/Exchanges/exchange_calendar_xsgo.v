(** Transcribed from trading_calendars/exchange_calendar_xsgo.py by tools/translate.py; dates are day
    numbers. *)
From Coq Require Import ZArith String List Bool.
From Verif.Model Require Import Dates Zone Build Holidays Exchange.
From Verif.Exchanges Require common_holidays.
Import ListNotations.
Open Scope Z_scope.

(** exchange_calendar_xsgo.py:86 *)
Definition NewYearsDay : rule := common_holidays.new_years_day None None None None.
(** exchange_calendar_xsgo.py:88 *)
Definition MaundyThursday : rule := common_holidays.maundy_thursday None None None.
(** exchange_calendar_xsgo.py:89-95 *)
Definition MondayPriorToCorpusChristi : rule :=
  Holiday 1 1 [Easter; Day 57] None None (Some (ymd 2008 1 1)) None.
(** exchange_calendar_xsgo.py:97 *)
Definition LabourDay : rule := common_holidays.european_labour_day None None None None.
(** exchange_calendar_xsgo.py:99 *)
Definition NavyDay : rule := Holiday 5 21 [] None None None None.
(** exchange_calendar_xsgo.py:101-103 *)
Definition SaintPeterAndSaintPaulDay : rule :=
  common_holidays.saint_peter_and_saint_paul_day None None (Some Xsgo_nearest_monday) None.
(** exchange_calendar_xsgo.py:105-110 *)
Definition OurLadyOfMountCarmelDay : rule :=
  Holiday 7 16 [] None (Some (ymd 2008 1 1)) None None.
(** exchange_calendar_xsgo.py:112 *)
Definition AssumptionDay : rule := common_holidays.assumption_day None None None None.
(** exchange_calendar_xsgo.py:114-120 *)
Definition PublicHolidayMonday : rule :=
  Holiday 9 17 [] None (Some (ymd 2003 1 1)) None (Some [MONDAY]).
(** exchange_calendar_xsgo.py:121-127 *)
Definition DayBeforeIndependenceDay : rule :=
  Holiday 9 17 [] (Some (Not_in_year 2010)) None None (Some [TUESDAY; WEDNESDAY; THURSDAY;
     FRIDAY]).
(** exchange_calendar_xsgo.py:128 *)
Definition IndependenceDay : rule := Holiday 9 18 [] None None None None.
(** exchange_calendar_xsgo.py:129 *)
Definition ArmyDay : rule := Holiday 9 19 [] None None None None.
(** exchange_calendar_xsgo.py:130-136 *)
Definition PublicHolidayFriday : rule :=
  Holiday 9 20 [] None (Some (ymd 2003 1 1)) None (Some [FRIDAY]).
(** exchange_calendar_xsgo.py:138-143 *)
Definition DiaDeLaRaza : rule := Holiday 10 12 [] (Some Xsgo_nearest_monday) None None None.
(** exchange_calendar_xsgo.py:145-151 *)
Definition EvangelicalChurchDay : rule :=
  Holiday 10 31 [] (Some Tuesday_and_wednesday_to_friday) (Some (ymd 2008 1 1)) None None.
(** exchange_calendar_xsgo.py:152 *)
Definition AllSaintsDay : rule := common_holidays.all_saints_day None None None None.
(** exchange_calendar_xsgo.py:154 *)
Definition ImmaculateConception : rule :=
  common_holidays.immaculate_conception None None None None.
(** exchange_calendar_xsgo.py:156 *)
Definition ChristmasEve : rule := common_holidays.christmas_eve None None None (Some WEEKDAYS).
(** exchange_calendar_xsgo.py:157 *)
Definition Christmas : rule := common_holidays.christmas None None None None.
(** exchange_calendar_xsgo.py:159-164 *)
Definition DayBeforeBankHoliday : rule := Holiday 12 30 [] None None None (Some WEEKDAYS).
(** exchange_calendar_xsgo.py:165 *)
Definition BankHoliday : rule := common_holidays.new_years_eve None None None None.
(** exchange_calendar_xsgo.py:207-209 *)
Definition open_times : list (option Z * time) := [(None, Time 9 31 0)].
(** exchange_calendar_xsgo.py:210 *)
Definition early_close_1230 : time := Time 12 30 0.
(** exchange_calendar_xsgo.py:211 *)
Definition early_close_130 : time := Time 13 30 0.
(** exchange_calendar_xsgo.py:214-218 *)
Definition close_times : list (option Z * time) := starting_dates_and_close_times.
(** exchange_calendar_xsgo.py:221-241 *)
Definition regular_holidays : list rule :=
  [NewYearsDay;
     GoodFriday;
     MondayPriorToCorpusChristi;
     LabourDay;
     NavyDay;
     SaintPeterAndSaintPaulDay;
     OurLadyOfMountCarmelDay;
     AssumptionDay;
     PublicHolidayMonday;
     IndependenceDay;
     ArmyDay;
     PublicHolidayFriday;
     DiaDeLaRaza;
     EvangelicalChurchDay;
     AllSaintsDay;
     ImmaculateConception;
     Christmas;
     BankHoliday].
(** exchange_calendar_xsgo.py:244-256 *)
Definition adhoc_holidays : list Z :=
  [ymd 2010 9 17; ymd 2010 9 20; ymd 2017 1 2; ymd 2017 4 19; ymd 2018 1 16].
(** exchange_calendar_xsgo.py:259-269 *)
Definition special_closes : list (time * list rule) :=
  [(early_close_1230, [ChristmasEve;
     DayBeforeBankHoliday]);
     (early_close_130, [MaundyThursday;
     DayBeforeIndependenceDay])].

(** exchange_calendar_xsgo.py:168-275 [XSGOExchangeCalendar]; attributes not set in the class are the defaults of
    trading_calendar.py:203-366. *)
Definition calendar : exchange :=
  Exchange "America/Santiago"%string weekmask_default
    regular_holidays
    adhoc_holidays
    open_times None None close_times
    0 0
    [] [] special_closes [].
