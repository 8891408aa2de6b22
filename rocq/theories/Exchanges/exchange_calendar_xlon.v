(** Transcribed from trading_calendars/exchange_calendar_xlon.py by tools/translate.py; dates are day
    numbers. *)
From Coq Require Import ZArith String List Bool.
From Verif.Model Require Import Dates Zone Build Holidays Exchange.
From Verif.Exchanges Require common_holidays.
Import ListNotations.
Open Scope Z_scope.

(** exchange_calendar_xlon.py:44 *)
Definition LSENewYearsDay : rule :=
  common_holidays.new_years_day None None (Some Weekend_to_monday) None.
(** exchange_calendar_xlon.py:52-58 *)
Definition MayBank_pre_1995 : rule :=
  Holiday 5 1 [NthWeekday MONDAY 1] None None (Some (ymd 1994 12 31)) None.
(** exchange_calendar_xlon.py:61-68 *)
Definition MayBank_post_1995_pre_2020 : rule :=
  Holiday 5 1 [NthWeekday MONDAY 1] None (Some (ymd 1996 1 1)) (Some (ymd 2019 12 31)) None.
(** exchange_calendar_xlon.py:71-77 *)
Definition MayBank_post_2020 : rule :=
  Holiday 5 1 [NthWeekday MONDAY 1] None (Some (ymd 2021 1 1)) None None.
(** exchange_calendar_xlon.py:85-91 *)
Definition SpringBank_pre_2002 : rule :=
  Holiday 5 31 [NthWeekday MONDAY (-1)] None None (Some (ymd 2001 12 31)) None.
(** exchange_calendar_xlon.py:93-100 *)
Definition SpringBank_post_2002_pre_2012 : rule :=
  Holiday 5 31 [NthWeekday MONDAY (-1)] None (Some (ymd 2003 1 1)) (Some (ymd 2011 12 31)) None.
(** exchange_calendar_xlon.py:102-108 *)
Definition SpringBank_post_2012 : rule :=
  Holiday 5 31 [NthWeekday MONDAY (-1)] None (Some (ymd 2013 1 1)) None None.
(** exchange_calendar_xlon.py:111-116 *)
Definition SummerBank : rule := Holiday 8 31 [NthWeekday MONDAY (-1)] None None None None.
(** exchange_calendar_xlon.py:118 *)
Definition Christmas : rule := common_holidays.christmas None None None None.
(** exchange_calendar_xlon.py:120 *)
Definition WeekendChristmas : rule := common_holidays.weekend_christmas None None None.
(** exchange_calendar_xlon.py:122 *)
Definition BoxingDay : rule := common_holidays.boxing_day None None None None.
(** exchange_calendar_xlon.py:124 *)
Definition WeekendBoxingDay : rule := common_holidays.weekend_boxing_day None None None.
(** exchange_calendar_xlon.py:130-135 *)
Definition ChristmasEve : rule := Holiday 12 24 [] (Some Previous_friday) None None None.
(** exchange_calendar_xlon.py:139-145 *)
Definition NewYearsEvePre1999 : rule :=
  Holiday 12 31 [] (Some Previous_friday) None (Some (ymd 1999 1 1)) None.
(** exchange_calendar_xlon.py:146-152 *)
Definition NewYearsEvePost2000 : rule :=
  Holiday 12 31 [] (Some Previous_friday) (Some (ymd 2000 1 1)) None None.
(** exchange_calendar_xlon.py:178 *)
Definition regular_early_close : time := Time 12 30 0.
(** exchange_calendar_xlon.py:184-186 *)
Definition open_times : list (option Z * time) := [(None, Time 8 1 0)].
(** exchange_calendar_xlon.py:188-190 *)
Definition close_times : list (option Z * time) := [(None, Time 16 30 0)].
(** exchange_calendar_xlon.py:193-209 *)
Definition regular_holidays : list rule :=
  [LSENewYearsDay;
     GoodFriday;
     EasterMonday;
     MayBank_pre_1995;
     MayBank_post_1995_pre_2020;
     MayBank_post_2020;
     SpringBank_pre_2002;
     SpringBank_post_2002_pre_2012;
     SpringBank_post_2012;
     SummerBank;
     Christmas;
     WeekendChristmas;
     BoxingDay;
     WeekendBoxingDay].
(** exchange_calendar_xlon.py:212-236 *)
Definition adhoc_holidays : list Z :=
  [ymd 1995 5 8; ymd 2020 5 8; ymd 1977 6 7; ymd 2002 6 3; ymd 2002 6 4; ymd 2012 6 4;
     ymd 2012 6 5; ymd 1973 11 14; ymd 1981 7 29; ymd 2011 4 29; ymd 1999 12 31].
(** exchange_calendar_xlon.py:239-246 *)
Definition special_closes : list (time * list rule) :=
  [(regular_early_close, [ChristmasEve;
     NewYearsEvePre1999;
     NewYearsEvePost2000])].

(** exchange_calendar_xlon.py:155-246 [XLONExchangeCalendar]; attributes not set in the class are the defaults of
    trading_calendar.py:203-366. *)
Definition calendar : exchange :=
  Exchange "Europe/London"%string weekmask_default
    regular_holidays
    adhoc_holidays
    open_times None None close_times
    0 0
    [] [] special_closes [].
