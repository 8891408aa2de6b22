(** Transcribed from trading_calendars/exchange_calendar_xtks.py by tools/translate.py; dates are day
    numbers. *)
From Coq Require Import ZArith String List Bool.
From Verif.Model Require Import Dates Zone Build Holidays Exchange.
From Verif.Exchanges Require xtks_holidays.
Import ListNotations.
Open Scope Z_scope.

(** exchange_calendar_xtks.py:52 *)
Definition XTKS_START_DEFAULT : Z := ymd 2000 1 1.
(** exchange_calendar_xtks.py:94-96 *)
Definition open_times : list (option Z * time) := [(None, Time 9 1 0)].
(** exchange_calendar_xtks.py:98-100 *)
Definition close_times : list (option Z * time) := [(None, Time 15 0 0)].
(** exchange_calendar_xtks.py:103-137 *)
Definition regular_holidays : list rule :=
  [xtks_holidays.NewYearsHolidayDec31;
     xtks_holidays.NewYearsHolidayJan1;
     xtks_holidays.NewYearsHolidayJan2;
     xtks_holidays.NewYearsHolidayJan3;
     xtks_holidays.ComingOfAgeDay;
     xtks_holidays.NationalFoundationDay;
     xtks_holidays.GreeneryDayThrough2006;
     xtks_holidays.ShowaDay;
     xtks_holidays.ConstitutionMemorialDayThrough2006;
     xtks_holidays.ConstitutionMemorialDay2007Onwards;
     xtks_holidays.GreeneryDay2007Onwards;
     xtks_holidays.CitizensHolidayGoldenWeek;
     xtks_holidays.ChildrensDay;
     xtks_holidays.MarineDayThrough2002;
     xtks_holidays.MarineDay2003OnwardsThrough2019;
     xtks_holidays.MarineDay2020;
     xtks_holidays.MarineDay2021;
     xtks_holidays.MarineDay2022Onwards;
     xtks_holidays.MountainDayThrough2019;
     xtks_holidays.MountainDay2020;
     xtks_holidays.MountainDay2021;
     xtks_holidays.MountainDay2022Onwards;
     xtks_holidays.RespectForTheAgedDayThrough2002;
     xtks_holidays.RespectForTheAgedDay2003Onwards;
     xtks_holidays.HealthAndSportsDayThrough2019;
     xtks_holidays.HealthAndSportsDay2020;
     xtks_holidays.HealthAndSportsDay2021;
     xtks_holidays.HealthAndSportsDay2022Onwards;
     xtks_holidays.CultureDay;
     xtks_holidays.LaborThanksgivingDay;
     xtks_holidays.EmperorAkihitoBirthday;
     xtks_holidays.EmperorNaruhitoBirthday].
(** exchange_calendar_xtks.py:140-146 *)
Definition adhoc_holidays : list Z :=
  xtks_holidays.VernalEquinoxes ++ xtks_holidays.AutumnalEquinoxes ++ xtks_holidays.CitizensHolidaySilverWeek ++ xtks_holidays.Misc2019Holidays.

(** exchange_calendar_xtks.py:55-146 [XTKSExchangeCalendar]; attributes not set in the class are the defaults of
    trading_calendar.py:203-366. *)
Definition calendar : exchange :=
  Exchange "Asia/Tokyo"%string weekmask_default
    regular_holidays
    adhoc_holidays
    open_times None None close_times
    0 0
    [] [] [] [].
