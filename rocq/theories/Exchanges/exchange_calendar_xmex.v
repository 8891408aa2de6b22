(** Transcribed from trading_calendars/exchange_calendar_xmex.py by tools/translate.py; dates are day
    numbers. *)
From Coq Require Import ZArith String List Bool.
From Verif.Model Require Import Dates Zone Build Holidays Exchange.
From Verif.Exchanges Require common_holidays.
Import ListNotations.
Open Scope Z_scope.

(** exchange_calendar_xmex.py:32 *)
Definition NewYearsDay : rule := common_holidays.new_years_day None None None None.
(** exchange_calendar_xmex.py:35 *)
Definition ConstitutionDay : rule := Holiday 2 5 [] None None (Some (ymd 2007 1 1)) None.
(** exchange_calendar_xmex.py:36-42 *)
Definition ConstitutionDayObserved : rule :=
  Holiday 2 1 [NthWeekday MONDAY 1] None (Some (ymd 2007 1 1)) None None.
(** exchange_calendar_xmex.py:45 *)
Definition JuarezBirthday : rule := Holiday 3 21 [] None None (Some (ymd 2007 1 1)) None.
(** exchange_calendar_xmex.py:46-52 *)
Definition JuarezBirthdayObserved : rule :=
  Holiday 3 1 [NthWeekday MONDAY 3] None (Some (ymd 2007 1 1)) None None.
(** exchange_calendar_xmex.py:54 *)
Definition MaundyThursday : rule := common_holidays.maundy_thursday None None None.
(** exchange_calendar_xmex.py:56 *)
Definition LabourDay : rule := common_holidays.european_labour_day None None None None.
(** exchange_calendar_xmex.py:58 *)
Definition IndependenceDay : rule := Holiday 9 16 [] None None None None.
(** exchange_calendar_xmex.py:60 *)
Definition AllSoulsDay : rule := Holiday 11 2 [] None (Some (ymd 2006 1 1)) None None.
(** exchange_calendar_xmex.py:63 *)
Definition RevolutionDay : rule := Holiday 11 20 [] None None (Some (ymd 2007 1 1)) None.
(** exchange_calendar_xmex.py:64-70 *)
Definition RevolutionDayObserved : rule :=
  Holiday 11 1 [NthWeekday MONDAY 3] None (Some (ymd 2007 1 1)) None None.
(** exchange_calendar_xmex.py:72 *)
Definition BankingHoliday : rule := Holiday 12 12 [] None None None None.
(** exchange_calendar_xmex.py:74 *)
Definition Christmas : rule := common_holidays.christmas None None None None.
(** exchange_calendar_xmex.py:107-109 *)
Definition open_times : list (option Z * time) := [(None, Time 8 31 0)].
(** exchange_calendar_xmex.py:110-112 *)
Definition close_times : list (option Z * time) := [(None, Time 15 0 0)].
(** exchange_calendar_xmex.py:115-131 *)
Definition regular_holidays : list rule :=
  [NewYearsDay;
     ConstitutionDay;
     ConstitutionDayObserved;
     JuarezBirthday;
     JuarezBirthdayObserved;
     MaundyThursday;
     GoodFriday;
     LabourDay;
     IndependenceDay;
     AllSoulsDay;
     RevolutionDay;
     RevolutionDayObserved;
     BankingHoliday;
     Christmas].
(** exchange_calendar_xmex.py:134-138 *)
Definition adhoc_holidays : list Z := [ymd 2010 9 17].

(** exchange_calendar_xmex.py:77-138 [XMEXExchangeCalendar]; attributes not set in the class are the defaults of
    trading_calendar.py:203-366. *)
Definition calendar : exchange :=
  Exchange "America/Mexico_City"%string weekmask_default
    regular_holidays
    adhoc_holidays
    open_times None None close_times
    0 0
    [] [] [] [].
