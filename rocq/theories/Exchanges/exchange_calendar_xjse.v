(** Transcribed from trading_calendars/exchange_calendar_xjse.py by tools/translate.py; dates are day
    numbers. *)
From Coq Require Import ZArith String List Bool.
From Verif.Model Require Import Dates Zone Build Holidays Exchange.
From Verif.Exchanges Require common_holidays.
Import ListNotations.
Open Scope Z_scope.

(** exchange_calendar_xjse.py:63-65 *)
Definition open_times : list (option Z * time) := [(None, Time 9 1 0)].
(** exchange_calendar_xjse.py:67-69 *)
Definition close_times : list (option Z * time) := [(None, Time 17 0 0)].
(** exchange_calendar_xjse.py:72-138 *)
Definition regular_holidays : list rule :=
  [common_holidays.new_years_day None None (Some Sunday_to_monday) None;
     Holiday 3 21 [] (Some Sunday_to_monday) None None None;
     GoodFriday;
     Holiday 1 1 [Easter; Day 1] None None None None;
     Holiday 4 27 [] (Some Sunday_to_monday) None None None;
     Holiday 5 1 [] (Some Sunday_to_monday) None None None;
     Holiday 6 16 [] (Some Sunday_to_monday) None None None;
     Holiday 8 9 [] (Some Sunday_to_monday) None None None;
     Holiday 9 24 [] (Some Sunday_to_monday) None None None;
     Holiday 12 16 [] (Some Sunday_to_monday) None None None;
     Holiday 12 25 [] (Some Sunday_to_monday) None None None;
     Holiday 12 26 [] (Some Sunday_to_monday) None None None].
(** exchange_calendar_xjse.py:141-163 *)
Definition adhoc_holidays : list Z :=
  [ymd 2004 4 14; ymd 2006 3 1; ymd 2009 4 22; ymd 2011 5 18; ymd 2014 5 7; ymd 2016 8 3;
     ymd 2019 5 8; ymd 2008 5 2; ymd 2011 12 27; ymd 2016 12 27].

(** exchange_calendar_xjse.py:31-163 [XJSEExchangeCalendar]; attributes not set in the class are the defaults of
    trading_calendar.py:203-366. *)
Definition calendar : exchange :=
  Exchange "Africa/Johannesburg"%string weekmask_default
    regular_holidays
    adhoc_holidays
    open_times None None close_times
    0 0
    [] [] [] [].
