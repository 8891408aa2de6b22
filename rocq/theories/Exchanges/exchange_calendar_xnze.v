(** Transcribed from trading_calendars/exchange_calendar_xnze.py by tools/translate.py; dates are day
    numbers. *)
From Coq Require Import ZArith String List Bool.
From Verif.Model Require Import Dates Zone Build Holidays Exchange.
From Verif.Exchanges Require common_holidays.
Import ListNotations.
Open Scope Z_scope.

(** exchange_calendar_xnze.py:56 *)
Definition NewYearsDay : rule :=
  common_holidays.new_years_day None None (Some Next_monday) None.
(** exchange_calendar_xnze.py:58-63 *)
Definition DayAfterNewYearsDay : rule :=
  Holiday 1 2 [] (Some Next_monday_or_tuesday) None None None.
(** exchange_calendar_xnze.py:65-70 *)
Definition WaitangiDayNonMondayized : rule :=
  Holiday 2 6 [] None None (Some (ymd 2015 1 1)) None.
(** exchange_calendar_xnze.py:72-78 *)
Definition WaitangiDay : rule :=
  Holiday 2 6 [] (Some Weekend_to_monday) (Some (ymd 2015 1 1)) None None.
(** exchange_calendar_xnze.py:80 *)
Definition AnzacDayNonMondayized : rule :=
  common_holidays.anzac_day None (Some (ymd 2015 1 1)) None None.
(** exchange_calendar_xnze.py:82-85 *)
Definition AnzacDay : rule :=
  common_holidays.anzac_day (Some (ymd 2015 1 1)) None (Some Weekend_to_monday) None.
(** exchange_calendar_xnze.py:87-92 *)
Definition QueensBirthday : rule := Holiday 6 1 [NthWeekday MONDAY 1] None None None None.
(** exchange_calendar_xnze.py:94-99 *)
Definition LabourDay : rule := Holiday 10 1 [NthWeekday MONDAY 4] None None None None.
(** exchange_calendar_xnze.py:101 *)
Definition Christmas : rule := common_holidays.christmas None None (Some Next_monday) None.
(** exchange_calendar_xnze.py:103 *)
Definition BoxingDay : rule :=
  common_holidays.boxing_day None None (Some Next_monday_or_tuesday) None.
(** exchange_calendar_xnze.py:108-114 *)
Definition BusinessDayPriorToChristmasDay : rule :=
  Holiday 12 25 [] (Some Previous_workday) (Some (ymd 2011 1 1)) None None.
(** exchange_calendar_xnze.py:116-122 *)
Definition BusinessDayPriorToNewYearsDay : rule :=
  Holiday 1 1 [] (Some Previous_workday) (Some (ymd 2011 1 1)) None None.
(** exchange_calendar_xnze.py:125 *)
Definition XMAS22DEC86 : Z := ymd 1986 12 22.
(** exchange_calendar_xnze.py:126 *)
Definition XMAS23DEC86 : Z := ymd 1986 12 23.
(** exchange_calendar_xnze.py:127 *)
Definition XMAS24DEC86 : Z := ymd 1986 12 24.
(** exchange_calendar_xnze.py:128 *)
Definition XMAS29DEC86 : Z := ymd 1986 12 29.
(** exchange_calendar_xnze.py:129 *)
Definition XMAS30DEC86 : Z := ymd 1986 12 30.
(** exchange_calendar_xnze.py:130 *)
Definition XMAS31DEC86 : Z := ymd 1986 12 31.
(** exchange_calendar_xnze.py:131 *)
Definition XMAS24DEC90 : Z := ymd 1990 12 24.
(** exchange_calendar_xnze.py:132 *)
Definition XMAS31DEC90 : Z := ymd 1990 12 31.
(** exchange_calendar_xnze.py:133 *)
Definition XMAS27DEC91 : Z := ymd 1991 12 27.
(** exchange_calendar_xnze.py:134 *)
Definition NYDX03JAN92 : Z := ymd 1992 1 3.
(** exchange_calendar_xnze.py:135 *)
Definition XMAS31DEC99 : Z := ymd 1999 12 31.
(** exchange_calendar_xnze.py:161 *)
Definition regular_early_close : time := Time 12 45 0.
(** exchange_calendar_xnze.py:167-169 *)
Definition open_times : list (option Z * time) := [(None, Time 10 1 0)].
(** exchange_calendar_xnze.py:171-173 *)
Definition close_times : list (option Z * time) := [(None, Time 16 45 0)].
(** exchange_calendar_xnze.py:176-190 *)
Definition regular_holidays : list rule :=
  [NewYearsDay;
     DayAfterNewYearsDay;
     WaitangiDayNonMondayized;
     WaitangiDay;
     GoodFriday;
     EasterMonday;
     AnzacDayNonMondayized;
     AnzacDay;
     QueensBirthday;
     LabourDay;
     Christmas;
     BoxingDay].
(** exchange_calendar_xnze.py:194-197 *)
Definition adhoc_holidays : list Z :=
  [XMAS22DEC86; XMAS23DEC86; XMAS24DEC86; XMAS29DEC86; XMAS30DEC86; XMAS31DEC86; XMAS24DEC90;
     XMAS31DEC90; XMAS27DEC91; NYDX03JAN92; XMAS31DEC99].
(** exchange_calendar_xnze.py:200-209 *)
Definition special_closes : list (time * list rule) :=
  [(regular_early_close, [BusinessDayPriorToChristmasDay;
     BusinessDayPriorToNewYearsDay])].

(** exchange_calendar_xnze.py:138-209 [XNZEExchangeCalendar]; attributes not set in the class are the defaults of
    trading_calendar.py:203-366. *)
Definition calendar : exchange :=
  Exchange "NZ"%string weekmask_default
    regular_holidays
    adhoc_holidays
    open_times None None close_times
    0 0
    [] [] special_closes [].
