(** Transcribed from trading_calendars/exchange_calendar_xasx.py by tools/translate.py; dates are day
    numbers. *)
From Coq Require Import ZArith String List Bool.
From Verif.Model Require Import Dates Zone Build Holidays Exchange.
From Verif.Exchanges Require common_holidays.
Import ListNotations.
Open Scope Z_scope.

(** exchange_calendar_xasx.py:41 *)
Definition NewYearsDay : rule :=
  common_holidays.new_years_day None None (Some Weekend_to_monday) None.
(** exchange_calendar_xasx.py:47-53 *)
Definition AustraliaDay : rule :=
  Holiday 1 26 [] (Some Weekend_to_monday) (Some (ymd 1994 1 1)) None None.
(** exchange_calendar_xasx.py:57-60 *)
Definition AustraliaDayPre88 : rule :=
  Holiday 1 26 [NthWeekday MONDAY 1] None (Some (ymd 1960 1 1)) (Some (ymd 1987 12 31)) None.
(** exchange_calendar_xasx.py:63-65 *)
Definition AustraliaDay1988 : rule :=
  Holiday 1 26 [] None (Some (ymd 1988 1 1)) (Some (ymd 1988 12 31)) None.
(** exchange_calendar_xasx.py:68-71 *)
Definition AustraliaDayPost88Pre93 : rule :=
  Holiday 1 26 [NthWeekday MONDAY 1] None (Some (ymd 1989 1 1)) (Some (ymd 1992 12 31)) None.
(** exchange_calendar_xasx.py:76 *)
Definition AnzacDayNonMondayized : rule :=
  common_holidays.anzac_day None (Some (ymd 2010 1 1)) None None.
(** exchange_calendar_xasx.py:77-78 *)
Definition AnzacDay2010 : rule :=
  common_holidays.anzac_day (Some (ymd 2010 1 1)) (Some (ymd 2011 1 1)) (Some Sunday_to_monday) None.
(** exchange_calendar_xasx.py:79 *)
Definition AnzacDay : rule := common_holidays.anzac_day (Some (ymd 2011 1 1)) None None None.
(** exchange_calendar_xasx.py:85 *)
Definition EasterTuesday2011AdHoc : Z := ymd 2011 4 26.
(** exchange_calendar_xasx.py:87-92 *)
Definition QueensBirthday : rule := Holiday 6 1 [NthWeekday MONDAY 2] None None None None.
(** exchange_calendar_xasx.py:94-100 *)
Definition LastTradingDayBeforeChristmas : rule :=
  Holiday 12 24 [] (Some Previous_friday) (Some (ymd 2010 1 1)) None None.
(** exchange_calendar_xasx.py:101 *)
Definition Christmas : rule := common_holidays.christmas None None None None.
(** exchange_calendar_xasx.py:102 *)
Definition WeekendChristmas : rule := common_holidays.weekend_christmas None None None.
(** exchange_calendar_xasx.py:103 *)
Definition BoxingDay : rule := common_holidays.boxing_day None None None None.
(** exchange_calendar_xasx.py:104 *)
Definition WeekendBoxingDay : rule := common_holidays.weekend_boxing_day None None None.
(** exchange_calendar_xasx.py:106-112 *)
Definition LastTradingDayOfCalendarYear : rule :=
  Holiday 12 31 [] (Some Previous_friday) (Some (ymd 2010 1 1)) None None.
(** exchange_calendar_xasx.py:115 *)
Definition NYEMonday1984AdHoc : Z := ymd 1984 12 31.
(** exchange_calendar_xasx.py:116 *)
Definition NYEMonday1990AdHoc : Z := ymd 1990 12 31.
(** exchange_calendar_xasx.py:117 *)
Definition Bicentennial1988 : Z := ymd 1988 1 25.
(** exchange_calendar_xasx.py:118 *)
Definition Y2KTesting : Z := ymd 1999 12 31.
(** exchange_calendar_xasx.py:142 *)
Definition regular_early_close : time := Time 14 10 0.
(** exchange_calendar_xasx.py:148-150 *)
Definition open_times : list (option Z * time) := [(None, Time 10 1 0)].
(** exchange_calendar_xasx.py:152-154 *)
Definition close_times : list (option Z * time) := [(None, Time 16 0 0)].
(** exchange_calendar_xasx.py:157-174 *)
Definition regular_holidays : list rule :=
  [NewYearsDay;
     AustraliaDay;
     AustraliaDayPre88;
     AustraliaDay1988;
     AustraliaDayPost88Pre93;
     GoodFriday;
     EasterMonday;
     AnzacDayNonMondayized;
     AnzacDay2010;
     AnzacDay;
     QueensBirthday;
     Christmas;
     WeekendChristmas;
     BoxingDay;
     WeekendBoxingDay].
(** exchange_calendar_xasx.py:177-179 *)
Definition adhoc_holidays : list Z :=
  [EasterTuesday2011AdHoc; NYEMonday1984AdHoc; NYEMonday1990AdHoc; Bicentennial1988;
     Y2KTesting].
(** exchange_calendar_xasx.py:182-191 *)
Definition special_closes : list (time * list rule) :=
  [(regular_early_close, [LastTradingDayBeforeChristmas;
     LastTradingDayOfCalendarYear])].

(** exchange_calendar_xasx.py:121-191 [XASXExchangeCalendar]; attributes not set in the class are the defaults of
    trading_calendar.py:203-366. *)
Definition calendar : exchange :=
  Exchange "Australia/Sydney"%string weekmask_default
    regular_holidays
    adhoc_holidays
    open_times None None close_times
    0 0
    [] [] special_closes [].
