(** Transcribed from trading_calendars/xtks_holidays.py by tools/translate.py; dates are day
    numbers. *)
From Coq Require Import ZArith String List Bool.
From Verif.Model Require Import Dates Zone Build Holidays Exchange.
From Verif.Exchanges Require common_holidays.
Import ListNotations.
Open Scope Z_scope.

(** xtks_holidays.py:35 *)
Definition NewYearsHolidayJan1 : rule := common_holidays.new_years_day None None None None.
(** xtks_holidays.py:37-41 *)
Definition NewYearsHolidayJan2 : rule := Holiday 1 2 [] None None None None.
(** xtks_holidays.py:42-46 *)
Definition NewYearsHolidayJan3 : rule := Holiday 1 3 [] None None None None.
(** xtks_holidays.py:48-53 *)
Definition ComingOfAgeDay : rule := Holiday 1 1 [NthWeekday MONDAY 2] None None None None.
(** xtks_holidays.py:55-60 *)
Definition NationalFoundationDay : rule :=
  Holiday 2 11 [] (Some Sunday_to_monday) None None None.
(** xtks_holidays.py:69-92 *)
Definition VernalEquinoxes : list Z :=
  [ymd 2000 3 20; ymd 2001 3 20; ymd 2002 3 21; ymd 2003 3 21; ymd 2004 3 20; ymd 2005 3 21;
     ymd 2006 3 21; ymd 2007 3 21; ymd 2008 3 20; ymd 2009 3 20; ymd 2010 3 22; ymd 2011 3 21;
     ymd 2012 3 20; ymd 2013 3 20; ymd 2014 3 21; ymd 2015 3 21; ymd 2016 3 21; ymd 2017 3 20;
     ymd 2018 3 21; ymd 2019 3 21; ymd 2020 3 20; ymd 2021 3 20].
(** xtks_holidays.py:100-105 *)
Definition ChildrensDay : rule := Holiday 5 5 [] (Some Sunday_to_monday) None None None.
(** xtks_holidays.py:113-119 *)
Definition GreeneryDay2007Onwards : rule :=
  Holiday 5 4 [] (Some Sunday_to_tuesday) (Some (ymd 2007 1 1)) None None.
(** xtks_holidays.py:121-126 *)
Definition CitizensHolidayGoldenWeek : rule :=
  Holiday 5 4 [] None None (Some (ymd 2007 1 1)) None.
(** xtks_holidays.py:130-136 *)
Definition GreeneryDayThrough2006 : rule :=
  Holiday 4 29 [] (Some Sunday_to_monday) None (Some (ymd 2007 1 1)) None.
(** xtks_holidays.py:138-144 *)
Definition ShowaDay : rule :=
  Holiday 4 29 [] (Some Sunday_to_monday) (Some (ymd 2007 1 1)) None None.
(** xtks_holidays.py:147-153 *)
Definition ConstitutionMemorialDay2007Onwards : rule :=
  Holiday 5 3 [] (Some Sunday_to_wednesday) (Some (ymd 2007 1 1)) None None.
(** xtks_holidays.py:156-162 *)
Definition ConstitutionMemorialDayThrough2006 : rule :=
  Holiday 5 3 [] (Some Sunday_to_tuesday) None (Some (ymd 2007 1 1)) None.
(** xtks_holidays.py:165-171 *)
Definition MarineDayThrough2002 : rule :=
  Holiday 7 20 [] (Some Sunday_to_monday) None (Some (ymd 2003 1 1)) None.
(** xtks_holidays.py:173-180 *)
Definition MarineDay2003OnwardsThrough2019 : rule :=
  Holiday 7 1 [NthWeekday MONDAY 3] None (Some (ymd 2003 1 1)) (Some (ymd 2020 1 1)) None.
(** xtks_holidays.py:183-188 *)
Definition MarineDay2020 : rule := Holiday_in_year 2020 7 23.
(** xtks_holidays.py:190-195 *)
Definition MarineDay2021 : rule := Holiday_in_year 2021 7 22.
(** xtks_holidays.py:197-203 *)
Definition MarineDay2022Onwards : rule :=
  Holiday 7 1 [NthWeekday MONDAY 3] None (Some (ymd 2022 1 1)) None None.
(** xtks_holidays.py:205-212 *)
Definition MountainDayThrough2019 : rule :=
  Holiday 8 11 [] (Some Sunday_to_monday) (Some (ymd 2016 1 1)) (Some (ymd 2020 1 1)) None.
(** xtks_holidays.py:215-220 *)
Definition MountainDay2020 : rule := Holiday_in_year 2020 8 10.
(** xtks_holidays.py:222-227 *)
Definition MountainDay2021 : rule := Holiday_in_year 2021 8 9.
(** xtks_holidays.py:229-235 *)
Definition MountainDay2022Onwards : rule :=
  Holiday 8 11 [] (Some Sunday_to_monday) (Some (ymd 2022 1 1)) None None.
(** xtks_holidays.py:238-261 *)
Definition AutumnalEquinoxes : list Z :=
  [ymd 2000 9 23; ymd 2001 9 24; ymd 2002 9 23; ymd 2003 9 23; ymd 2004 9 23; ymd 2005 9 23;
     ymd 2006 9 23; ymd 2007 9 24; ymd 2008 9 23; ymd 2009 9 23; ymd 2010 9 23; ymd 2011 9 23;
     ymd 2012 9 22; ymd 2013 9 23; ymd 2014 9 23; ymd 2015 9 23; ymd 2016 9 22; ymd 2017 9 23;
     ymd 2018 9 24; ymd 2019 9 23; ymd 2020 9 22; ymd 2021 9 23].
(** xtks_holidays.py:267-270 *)
Definition CitizensHolidaySilverWeek : list Z := [ymd 2009 9 22; ymd 2015 9 22].
(** xtks_holidays.py:272-278 *)
Definition RespectForTheAgedDayThrough2002 : rule :=
  Holiday 9 15 [] (Some Sunday_to_monday) None (Some (ymd 2003 1 1)) None.
(** xtks_holidays.py:280-286 *)
Definition RespectForTheAgedDay2003Onwards : rule :=
  Holiday 9 1 [NthWeekday MONDAY 3] None (Some (ymd 2003 1 1)) None None.
(** xtks_holidays.py:288-294 *)
Definition HealthAndSportsDayThrough2019 : rule :=
  Holiday 10 1 [NthWeekday MONDAY 2] None None (Some (ymd 2020 1 1)) None.
(** xtks_holidays.py:297-302 *)
Definition HealthAndSportsDay2020 : rule := Holiday_in_year 2020 7 24.
(** xtks_holidays.py:304-309 *)
Definition HealthAndSportsDay2021 : rule := Holiday_in_year 2021 7 23.
(** xtks_holidays.py:311-317 *)
Definition HealthAndSportsDay2022Onwards : rule :=
  Holiday 10 1 [NthWeekday MONDAY 2] None (Some (ymd 2022 1 1)) None None.
(** xtks_holidays.py:319-324 *)
Definition CultureDay : rule := Holiday 11 3 [] (Some Sunday_to_monday) None None None.
(** xtks_holidays.py:326-331 *)
Definition LaborThanksgivingDay : rule :=
  Holiday 11 23 [] (Some Sunday_to_monday) None None None.
(** xtks_holidays.py:336-342 *)
Definition EmperorAkihitoBirthday : rule :=
  Holiday 12 23 [] (Some Sunday_to_monday) None (Some (ymd 2019 4 30)) None.
(** xtks_holidays.py:344-350 *)
Definition EmperorNaruhitoBirthday : rule :=
  Holiday 2 23 [] (Some Sunday_to_monday) (Some (ymd 2019 4 30)) None None.
(** xtks_holidays.py:352-356 *)
Definition NewYearsHolidayDec31 : rule := Holiday 12 31 [] None None None None.
(** xtks_holidays.py:358-363 *)
Definition Misc2019Holidays : list Z :=
  [ymd 2019 4 30; ymd 2019 5 1; ymd 2019 5 2; ymd 2019 10 22].
