(** Transcribed from trading_calendars/exchange_calendar_xphs.py by tools/translate.py; dates are day
    numbers. *)
From Coq Require Import ZArith String List Bool.
From Verif.Model Require Import Dates Zone Build Holidays Exchange.
From Verif.Exchanges Require common_holidays lunisolar_holidays.
Import ListNotations.
Open Scope Z_scope.

(** exchange_calendar_xphs.py:57 *)
Definition NewYearsDay : rule :=
  common_holidays.new_years_day (Some (ymd 2011 1 1)) None None None.
(** exchange_calendar_xphs.py:60 *)
Definition ChineseNewYear : list Z := lunisolar_holidays.chinese_lunar_new_year_dates.
(** exchange_calendar_xphs.py:62 *)
Definition ChineseNewYearAfter2011 : list Z :=
  filter (fun d => 2011 <? year_of d) ChineseNewYear.
(** exchange_calendar_xphs.py:64-69 *)
Definition PeoplePowerRevolution : rule :=
  Holiday 2 25 [] None (Some (ymd 2016 1 1)) None None.
(** exchange_calendar_xphs.py:71-76 *)
Definition ArawNgKagitingan : rule := Holiday 4 9 [] None (Some (ymd 2011 1 1)) None None.
(** exchange_calendar_xphs.py:78 *)
Definition MaundyThursday : rule :=
  common_holidays.maundy_thursday (Some (ymd 2011 1 1)) None None.
(** exchange_calendar_xphs.py:80 *)
Definition LabourDay : rule :=
  common_holidays.european_labour_day (Some (ymd 2011 1 1)) None None None.
(** exchange_calendar_xphs.py:82-87 *)
Definition IndependenceDay : rule := Holiday 6 12 [] None (Some (ymd 2011 1 1)) None None.
(** exchange_calendar_xphs.py:89-94 *)
Definition NinoyAquinoDay : rule := Holiday 8 21 [] None (Some (ymd 2011 1 1)) None None.
(** exchange_calendar_xphs.py:96-102 *)
Definition NationalHeroesDay : rule :=
  Holiday 8 31 [NthWeekday MONDAY (-1)] None (Some (ymd 2011 1 1)) None None.
(** exchange_calendar_xphs.py:104 *)
Definition AllSaintsDay : rule :=
  common_holidays.all_saints_day (Some (ymd 2011 1 1)) None None None.
(** exchange_calendar_xphs.py:106-112 *)
Definition AllSaintsDayExtra : rule :=
  Holiday 11 2 [] (Some Only_friday) (Some (ymd 2011 1 1)) None None.
(** exchange_calendar_xphs.py:114-119 *)
Definition BonifacioDay : rule := Holiday 11 30 [] None (Some (ymd 2011 1 1)) None None.
(** exchange_calendar_xphs.py:121 *)
Definition ChristmasEve : rule :=
  common_holidays.christmas_eve (Some (ymd 2011 1 1)) None None None.
(** exchange_calendar_xphs.py:123 *)
Definition Christmas : rule := common_holidays.christmas (Some (ymd 2011 1 1)) None None None.
(** exchange_calendar_xphs.py:125-130 *)
Definition RizalDay : rule := Holiday 12 30 [] None (Some (ymd 2011 1 1)) None None.
(** exchange_calendar_xphs.py:132 *)
Definition NewYearsEve : rule :=
  common_holidays.new_years_eve (Some (ymd 2011 1 1)) None None None.
(** exchange_calendar_xphs.py:138-148 *)
Definition philippines_eid_al_fitr : list Z :=
  [ymd 2011 8 30; ymd 2012 8 20; ymd 2013 8 9; ymd 2014 7 29; ymd 2015 7 17; ymd 2016 7 6;
     ymd 2017 6 26; ymd 2018 6 15; ymd 2019 6 5].
(** exchange_calendar_xphs.py:154-164 *)
Definition philippines_eid_al_adha : list Z :=
  [ymd 2011 11 7; ymd 2012 10 26; ymd 2013 10 15; ymd 2014 10 6; ymd 2015 9 25; ymd 2016 9 12;
     ymd 2017 9 1; ymd 2018 8 21; ymd 2019 8 12].
(** exchange_calendar_xphs.py:201-203 *)
Definition open_times : list (option Z * time) := [(None, Time 9 31 0)].
(** exchange_calendar_xphs.py:205-207 *)
Definition close_times : list (option Z * time) := [(None, Time 15 30 0)].
(** exchange_calendar_xphs.py:210-228 *)
Definition regular_holidays : list rule :=
  [NewYearsDay;
     PeoplePowerRevolution;
     ArawNgKagitingan;
     MaundyThursday;
     GoodFriday;
     LabourDay;
     IndependenceDay;
     NinoyAquinoDay;
     NationalHeroesDay;
     AllSaintsDay;
     AllSaintsDayExtra;
     BonifacioDay;
     ChristmasEve;
     Christmas;
     RizalDay;
     NewYearsEve].
(** exchange_calendar_xphs.py:231-424 *)
Definition adhoc_holidays : list Z :=
  let misc_adhoc := [ymd 2017 4 28; ymd 2017 10 16; ymd 2015 11 18; ymd 2015 11 19;
     ymd 2013 8 19; ymd 2013 8 20; ymd 2013 10 28; ymd 2011 6 20; ymd 2019 5 13;
     ymd 2018 5 14; ymd 2016 5 9; ymd 2013 5 13; ymd 2017 9 12; ymd 2014 12 8; ymd 2014 9 19;
     ymd 2014 7 16; ymd 2012 8 7; ymd 2011 9 27; ymd 2015 1 15; ymd 2015 1 16; ymd 2017 12 26;
     ymd 2016 12 26; ymd 2014 12 26; ymd 2018 1 2; ymd 2017 1 2; ymd 2015 1 2; ymd 2017 10 31;
     ymd 2016 10 31; ymd 2011 10 31] in
  let pre_2011_holidays := [ymd 2002 1 1; ymd 2002 2 25; ymd 2002 3 28; ymd 2002 3 29;
     ymd 2002 4 8; ymd 2002 5 1; ymd 2002 6 12; ymd 2002 7 15; ymd 2002 10 31; ymd 2002 11 1;
     ymd 2002 12 6; ymd 2002 12 24; ymd 2002 12 25; ymd 2002 12 30; ymd 2002 12 31;
     ymd 2003 1 1; ymd 2003 2 25; ymd 2003 4 7; ymd 2003 4 17; ymd 2003 4 18; ymd 2003 5 1;
     ymd 2003 5 2; ymd 2003 6 13; ymd 2003 8 22; ymd 2003 11 26; ymd 2003 12 24;
     ymd 2003 12 25; ymd 2003 12 26; ymd 2003 12 31; ymd 2004 1 1; ymd 2004 1 2;
     ymd 2004 2 25; ymd 2004 4 7; ymd 2004 4 8; ymd 2004 4 9; ymd 2004 5 10; ymd 2004 11 1;
     ymd 2004 11 15; ymd 2004 11 29; ymd 2004 12 3; ymd 2004 12 24; ymd 2004 12 27;
     ymd 2004 12 30; ymd 2004 12 31; ymd 2005 2 25; ymd 2005 3 23; ymd 2005 3 24;
     ymd 2005 3 25; ymd 2005 5 2; ymd 2005 6 13; ymd 2005 7 25; ymd 2005 8 29; ymd 2005 10 31;
     ymd 2005 11 1; ymd 2005 11 4; ymd 2005 11 28; ymd 2005 12 26; ymd 2005 12 30;
     ymd 2006 4 13; ymd 2006 4 14; ymd 2006 5 1; ymd 2006 6 12; ymd 2006 7 24; ymd 2006 8 21;
     ymd 2006 9 28; ymd 2006 9 29; ymd 2006 10 24; ymd 2006 11 1; ymd 2006 12 1;
     ymd 2006 12 25; ymd 2006 12 26; ymd 2007 1 1; ymd 2007 4 5; ymd 2007 4 6; ymd 2007 4 9;
     ymd 2007 5 1; ymd 2007 5 14; ymd 2007 6 11; ymd 2007 8 20; ymd 2007 8 27; ymd 2007 10 12;
     ymd 2007 10 29; ymd 2007 11 1; ymd 2007 11 2; ymd 2007 11 30; ymd 2007 12 24;
     ymd 2007 12 25; ymd 2007 12 31; ymd 2008 1 1; ymd 2008 2 25; ymd 2008 3 20;
     ymd 2008 3 21; ymd 2008 4 7; ymd 2008 5 1; ymd 2008 6 9; ymd 2008 8 18; ymd 2008 8 25;
     ymd 2008 10 1; ymd 2008 12 1; ymd 2008 12 25; ymd 2008 12 26; ymd 2008 12 29;
     ymd 2008 12 30; ymd 2008 12 31; ymd 2009 1 1; ymd 2009 1 2; ymd 2009 4 6; ymd 2009 4 9;
     ymd 2009 4 10; ymd 2009 5 1; ymd 2009 6 12; ymd 2009 7 17; ymd 2009 8 5; ymd 2009 8 21;
     ymd 2009 8 31; ymd 2009 9 7; ymd 2009 9 21; ymd 2009 11 2; ymd 2009 11 30;
     ymd 2009 12 24; ymd 2009 12 25; ymd 2009 12 30; ymd 2009 12 31; ymd 2010 1 1;
     ymd 2010 4 1; ymd 2010 4 2; ymd 2010 4 9; ymd 2010 5 3; ymd 2010 5 10; ymd 2010 6 14;
     ymd 2010 6 30; ymd 2010 8 30; ymd 2010 9 10; ymd 2010 10 25; ymd 2010 11 1;
     ymd 2010 11 16; ymd 2010 11 29; ymd 2010 12 24; ymd 2010 12 27; ymd 2010 12 31] in
  misc_adhoc ++ pre_2011_holidays ++ ChineseNewYearAfter2011 ++ philippines_eid_al_adha ++ philippines_eid_al_fitr.

(** exchange_calendar_xphs.py:167-424 [XPHSExchangeCalendar]; attributes not set in the class are the defaults of
    trading_calendar.py:203-366. *)
Definition calendar : exchange :=
  Exchange "Asia/Manila"%string weekmask_default
    regular_holidays
    adhoc_holidays
    open_times None None close_times
    0 0
    [] [] [] [].
