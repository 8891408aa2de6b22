(** Transcribed from trading_calendars/exchange_calendar_xtse.py by tools/translate.py; dates are day
    numbers. *)
From Coq Require Import ZArith String List Bool.
From Verif.Model Require Import Dates Zone Build Holidays Exchange.
From Verif.Exchanges Require common_holidays.
Import ListNotations.
Open Scope Z_scope.

(** exchange_calendar_xtse.py:34 *)
Definition XTSENewYearsDay : rule :=
  common_holidays.new_years_day None None (Some Weekend_to_monday) None.
(** exchange_calendar_xtse.py:37-43 *)
Definition FamilyDay : rule :=
  Holiday 2 1 [NthWeekday MONDAY 3] None (Some (ymd 2008 1 1)) None None.
(** exchange_calendar_xtse.py:45-50 *)
Definition VictoriaDay : rule := Holiday 5 24 [NthWeekday MONDAY (-1)] None None None None.
(** exchange_calendar_xtse.py:52-57 *)
Definition CanadaDay : rule := Holiday 7 1 [] (Some Weekend_to_monday) None None None.
(** exchange_calendar_xtse.py:59-64 *)
Definition CivicHoliday : rule := Holiday 8 1 [NthWeekday MONDAY 1] None None None None.
(** exchange_calendar_xtse.py:66-71 *)
Definition LaborDay : rule := Holiday 9 1 [NthWeekday MONDAY 1] None None None None.
(** exchange_calendar_xtse.py:73-78 *)
Definition CanadianThanksgiving : rule :=
  Holiday 10 1 [NthWeekday MONDAY 2] None None None None.
(** exchange_calendar_xtse.py:80-86 *)
Definition ChristmasEveEarlyClose2010Onwards : rule :=
  Holiday 12 24 [] None (Some (ymd 2010 1 1)) None (Some [MONDAY; TUESDAY; WEDNESDAY;
     THURSDAY; FRIDAY]).
(** exchange_calendar_xtse.py:88 *)
Definition Christmas : rule := common_holidays.christmas None None None None.
(** exchange_calendar_xtse.py:90 *)
Definition WeekendChristmas : rule := common_holidays.weekend_christmas None None None.
(** exchange_calendar_xtse.py:92 *)
Definition BoxingDay : rule := common_holidays.boxing_day None None None None.
(** exchange_calendar_xtse.py:94 *)
Definition WeekendBoxingDay : rule := common_holidays.weekend_boxing_day None None None.
(** exchange_calendar_xtse.py:96 *)
Definition September11ClosingsCanada : list Z := every_day (ymd 2001 9 11) (ymd 2001 9 12).
(** exchange_calendar_xtse.py:128 *)
Definition regular_early_close : time := Time 13 0 0.
(** exchange_calendar_xtse.py:134-136 *)
Definition open_times : list (option Z * time) := [(None, Time 9 31 0)].
(** exchange_calendar_xtse.py:138-140 *)
Definition close_times : list (option Z * time) := [(None, Time 16 0 0)].
(** exchange_calendar_xtse.py:143-157 *)
Definition regular_holidays : list rule :=
  [XTSENewYearsDay;
     FamilyDay;
     GoodFriday;
     VictoriaDay;
     CanadaDay;
     CivicHoliday;
     LaborDay;
     CanadianThanksgiving;
     Christmas;
     WeekendChristmas;
     BoxingDay;
     WeekendBoxingDay].
(** exchange_calendar_xtse.py:160-164 *)
Definition adhoc_holidays : list Z := September11ClosingsCanada.
(** exchange_calendar_xtse.py:167-172 *)
Definition special_closes : list (time * list rule) :=
  [(regular_early_close, [ChristmasEveEarlyClose2010Onwards])].

(** exchange_calendar_xtse.py:99-172 [XTSEExchangeCalendar]; attributes not set in the class are the defaults of
    trading_calendar.py:203-366. *)
Definition calendar : exchange :=
  Exchange "America/Toronto"%string weekmask_default
    regular_holidays
    adhoc_holidays
    open_times None None close_times
    0 0
    [] [] special_closes [].
