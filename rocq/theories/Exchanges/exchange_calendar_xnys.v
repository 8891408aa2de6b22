(** Transcribed from trading_calendars/exchange_calendar_xnys.py by tools/translate.py; dates are day
    numbers. *)
From Coq Require Import ZArith String List Bool.
From Verif.Model Require Import Dates Zone Build Holidays Exchange.
From Verif.Exchanges Require us_holidays.
Import ListNotations.
Open Scope Z_scope.

(** exchange_calendar_xnys.py:158 *)
Definition regular_early_close : time := Time 13 0 0.
(** exchange_calendar_xnys.py:164 *)
Definition open_times : list (option Z * time) := [(None, Time 9 31 0)].
(** exchange_calendar_xnys.py:166 *)
Definition close_times : list (option Z * time) := [(None, Time 16 0 0)].
(** exchange_calendar_xnys.py:169-195 *)
Definition regular_holidays : list rule :=
  [us_holidays.USNewYearsDay;
     us_holidays.USMartinLutherKingJrAfter1998;
     us_holidays.USLincolnsBirthDayBefore1954;
     us_holidays.USWashingtonsBirthDayBefore1964;
     us_holidays.USWashingtonsBirthDay1964to1970;
     us_holidays.USPresidentsDay;
     GoodFriday;
     us_holidays.USMemorialDayBefore1964;
     us_holidays.USMemorialDay1964to1969;
     us_holidays.USMemorialDay;
     us_holidays.USIndependenceDayBefore1954;
     us_holidays.USIndependenceDay;
     pd_USLaborDay;
     us_holidays.USThanksgivingDayBefore1939;
     us_holidays.USThanksgivingDay1939to1941;
     us_holidays.USThanksgivingDay;
     us_holidays.USElectionDay1848to1967;
     us_holidays.USElectionDay1968to1980;
     us_holidays.USVeteransDay1934to1953;
     us_holidays.USColumbusDayBefore1954;
     us_holidays.ChristmasBefore1954;
     us_holidays.Christmas].
(** exchange_calendar_xnys.py:198-218 *)
Definition adhoc_holidays : list Z :=
  us_holidays.November29BacklogRelief ++ us_holidays.March33BankHoliday ++ us_holidays.August45VictoryOverJapan ++ us_holidays.ChristmasEvesAdhoc ++ us_holidays.DayAfterChristmasAdhoc ++ us_holidays.DayBeforeDecorationAdhoc ++ us_holidays.LincolnsBirthDayAdhoc ++ us_holidays.PaperworkCrisis68 ++ us_holidays.DayAfterIndependenceDayAdhoc ++ us_holidays.WeatherSnowClosing ++ us_holidays.FirstLunarLandingClosing ++ us_holidays.September11Closings ++ us_holidays.NewYorkCityBlackout77 ++ us_holidays.HurricaneGloriaClosing ++ us_holidays.HurricaneSandyClosings ++ us_holidays.USNationalDaysofMourning.
(** exchange_calendar_xnys.py:221-241 *)
Definition special_closes : list (time * list rule) :=
  [(regular_early_close, [us_holidays.MonTuesThursBeforeIndependenceDay;
     us_holidays.FridayAfterIndependenceDayPre2013;
     us_holidays.WednesdayBeforeIndependenceDayPost2013;
     us_holidays.USBlackFridayInOrAfter1993;
     us_holidays.ChristmasEveInOrAfter1993]);
     (Time 14 0 0, [us_holidays.ChristmasEveBefore1993;
     us_holidays.USBlackFridayBefore1993])].
(** exchange_calendar_xnys.py:244-252 *)
Definition special_closes_adhoc : list (time * list Z) :=
  [(regular_early_close, [ymd 1997 12 26; ymd 1999 12 31; ymd 2003 12 26])].

(** exchange_calendar_xnys.py:79-252 [XNYSExchangeCalendar]; attributes not set in the class are the defaults of
    trading_calendar.py:203-366. *)
Definition calendar : exchange :=
  Exchange "America/New_York"%string weekmask_default
    regular_holidays
    adhoc_holidays
    open_times None None close_times
    0 0
    [] [] special_closes special_closes_adhoc.
