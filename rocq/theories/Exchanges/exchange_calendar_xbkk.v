(** Transcribed from trading_calendars/exchange_calendar_xbkk.py by tools/translate.py; dates are day
    numbers. *)
From Coq Require Import ZArith String List Bool.
From Verif.Model Require Import Dates Zone Build Holidays Exchange.
From Verif.Exchanges Require xbkk_holidays.
Import ListNotations.
Open Scope Z_scope.

(** exchange_calendar_xbkk.py:84-86 *)
Definition open_times : list (option Z * time) := [(None, Time 10 1 0)].
(** exchange_calendar_xbkk.py:88-90 *)
Definition close_times : list (option Z * time) := [(None, Time 16 30 0)].
(** exchange_calendar_xbkk.py:93-112 *)
Definition regular_holidays : list rule :=
  [xbkk_holidays.NewYearsDay;
     xbkk_holidays.ChakriMemorialDay;
     xbkk_holidays.SongkranFestival1;
     xbkk_holidays.SongkranFestival2;
     xbkk_holidays.SongkranFestival3;
     xbkk_holidays.LabourDay;
     xbkk_holidays.CoronationDay2016AndBefore;
     xbkk_holidays.CoronationDay2019AndAfter;
     xbkk_holidays.HMQueensBirthday;
     xbkk_holidays.HMKingsBirthday;
     xbkk_holidays.HMQueenMothersBirthday;
     xbkk_holidays.HalfYearHoliday;
     xbkk_holidays.ThePassingOfKingBhumibol;
     xbkk_holidays.ChulalongkornDay;
     xbkk_holidays.KingBhumibolsBirthday;
     xbkk_holidays.ThailandConstitutionDay;
     xbkk_holidays.NewYearsEve].
(** exchange_calendar_xbkk.py:115-128 *)
Definition adhoc_holidays : list Z :=
  xbkk_holidays.makha_bucha ++ xbkk_holidays.vesak ++ xbkk_holidays.asanha_bucha ++ xbkk_holidays.new_years_bridge_days ++ xbkk_holidays.asanha_bucha_bridge_days ++ xbkk_holidays.queens_birthday_bridge_days ++ xbkk_holidays.coronation_bridge_days ++ xbkk_holidays.vesak_bridge_days ++ xbkk_holidays.misc_adhoc.

(** exchange_calendar_xbkk.py:52-128 [XBKKExchangeCalendar]; attributes not set in the class are the defaults of
    trading_calendar.py:203-366. *)
Definition calendar : exchange :=
  Exchange "Asia/Bangkok"%string weekmask_default
    regular_holidays
    adhoc_holidays
    open_times None None close_times
    0 0
    [] [] [] [].
