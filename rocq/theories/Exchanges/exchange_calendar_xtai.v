(** Transcribed from trading_calendars/exchange_calendar_xtai.py by tools/translate.py; dates are day
    numbers. *)
From Coq Require Import ZArith String List Bool.
From Verif.Model Require Import Dates Zone Build Holidays Exchange.
From Verif.Exchanges Require common_holidays lunisolar_holidays.
Import ListNotations.
Open Scope Z_scope.

(** exchange_calendar_xtai.py:135 *)
Definition NewYearsDay : rule :=
  common_holidays.new_years_day None None (Some Taiwan_makeup_rule) None.
(** exchange_calendar_xtai.py:137-142 *)
Definition PeaceMemorialDay : rule := Holiday 2 28 [] (Some Taiwan_makeup_rule) None None None.
(** exchange_calendar_xtai.py:144-150 *)
Definition WomenAndChildrensDay : rule :=
  Holiday 4 4 [] (Some Taiwan_makeup_rule) (Some (ymd 2011 1 1)) None None.
(** exchange_calendar_xtai.py:152 *)
Definition LabourDay : rule :=
  common_holidays.european_labour_day None None (Some Sunday_to_monday) None.
(** exchange_calendar_xtai.py:154-159 *)
Definition NationalDay : rule := Holiday 10 10 [] (Some Taiwan_makeup_rule) None None None.
(** exchange_calendar_xtai.py:161 *)
Definition chinese_new_year : list Z :=
  chinese_new_year_offset lunisolar_holidays.chinese_lunar_new_year_dates.
(** exchange_calendar_xtai.py:163-165 *)
Definition chinese_new_years_eve : list Z :=
  before_chinese_new_year_offset (shift (-1) chinese_new_year).
(** exchange_calendar_xtai.py:167-169 *)
Definition chinese_new_years_eve_2 : list Z :=
  before_chinese_new_year_offset (shift (-1) chinese_new_years_eve).
(** exchange_calendar_xtai.py:171-173 *)
Definition chinese_new_year_2 : list Z := chinese_new_year_offset (shift 1 chinese_new_year).
(** exchange_calendar_xtai.py:175-177 *)
Definition chinese_new_year_3 : list Z := chinese_new_year_offset (shift 1 chinese_new_year_2).
(** exchange_calendar_xtai.py:179 *)
Definition tomb_sweeping_day : list Z :=
  manual_nearest_workday lunisolar_holidays.qingming_festival_dates.
(** exchange_calendar_xtai.py:181 *)
Definition tomb_sweeping_day_extras : list Z := manual_extra_days tomb_sweeping_day.
(** exchange_calendar_xtai.py:183 *)
Definition dragon_boat_festival : list Z :=
  manual_nearest_workday lunisolar_holidays.dragon_boat_festival_dates.
(** exchange_calendar_xtai.py:185 *)
Definition dragon_boat_festival_extras : list Z := manual_extra_days dragon_boat_festival.
(** exchange_calendar_xtai.py:187-189 *)
Definition mid_autumn_festival : list Z :=
  manual_nearest_workday lunisolar_holidays.mid_autumn_festival_dates.
(** exchange_calendar_xtai.py:191 *)
Definition mid_autumn_festival_extras : list Z := manual_extra_days mid_autumn_festival.
(** exchange_calendar_xtai.py:195-224 *)
Definition chinese_new_year_extras : list Z :=
  [ymd 2002 2 7; ymd 2002 2 15; ymd 2003 1 29; ymd 2004 1 19; ymd 2005 2 4; ymd 2006 2 2;
     ymd 2007 2 22; ymd 2007 2 23; ymd 2008 2 4; ymd 2009 1 29; ymd 2009 1 30; ymd 2010 2 18;
     ymd 2010 2 19; ymd 2011 1 31; ymd 2012 1 26; ymd 2012 1 27; ymd 2013 2 14; ymd 2013 2 15;
     ymd 2014 1 28; ymd 2015 2 16; ymd 2016 2 11; ymd 2016 2 12; ymd 2017 1 25; ymd 2018 2 13;
     ymd 2019 1 31; ymd 2019 2 8; ymd 2020 1 21; ymd 2020 1 22].
(** exchange_calendar_xtai.py:227-235 *)
Definition extra_holidays : list Z :=
  [ymd 2020 4 2; ymd 2016 4 5; ymd 2012 12 31; ymd 2012 2 27; ymd 2009 1 2; ymd 2006 10 9;
     ymd 2005 9 1].
(** exchange_calendar_xtai.py:237-258 *)
Definition typhoons : list Z :=
  [ymd 2019 9 30; ymd 2019 8 9; ymd 2016 9 28; ymd 2016 9 27; ymd 2016 7 8; ymd 2015 9 29;
     ymd 2015 7 10; ymd 2014 7 23; ymd 2013 8 21; ymd 2012 8 2; ymd 2009 8 7; ymd 2008 9 29;
     ymd 2008 7 28; ymd 2007 9 18; ymd 2005 8 5; ymd 2005 7 18; ymd 2004 10 25; ymd 2004 8 25;
     ymd 2004 8 24; ymd 2002 9 6].
(** exchange_calendar_xtai.py:288-290 *)
Definition open_times : list (option Z * time) := [(None, Time 9 1 0)].
(** exchange_calendar_xtai.py:292-294 *)
Definition close_times : list (option Z * time) := [(None, Time 13 30 0)].
(** exchange_calendar_xtai.py:297-304 *)
Definition regular_holidays : list rule :=
  [NewYearsDay;
     PeaceMemorialDay;
     WomenAndChildrensDay;
     LabourDay;
     NationalDay].
(** exchange_calendar_xtai.py:307-323 *)
Definition adhoc_holidays : list Z :=
  extra_holidays ++ typhoons ++ chinese_new_years_eve ++ chinese_new_years_eve_2 ++ chinese_new_year ++ chinese_new_year_2 ++ chinese_new_year_3 ++ chinese_new_year_extras ++ tomb_sweeping_day ++ tomb_sweeping_day_extras ++ dragon_boat_festival ++ dragon_boat_festival_extras ++ mid_autumn_festival ++ mid_autumn_festival_extras.

(** exchange_calendar_xtai.py:261-323 [XTAIExchangeCalendar]; attributes not set in the class are the defaults of
    trading_calendar.py:203-366. *)
Definition calendar : exchange :=
  Exchange "Asia/Taipei"%string weekmask_default
    regular_holidays
    adhoc_holidays
    open_times None None close_times
    0 0
    [] [] [] [].
