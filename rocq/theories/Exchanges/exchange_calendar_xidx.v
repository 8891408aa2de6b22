(** Transcribed from trading_calendars/exchange_calendar_xidx.py by tools/translate.py; dates are day
    numbers. *)
From Coq Require Import ZArith String List Bool.
From Verif.Model Require Import Dates Zone Build Holidays Exchange.
From Verif.Exchanges Require common_holidays lunisolar_holidays.
Import ListNotations.
Open Scope Z_scope.

(** exchange_calendar_xidx.py:70-72 *)
Definition open_times : list (option Z * time) := [(None, Time 9 1 0)].
(** exchange_calendar_xidx.py:74-76 *)
Definition close_times : list (option Z * time) := [(None, Time 15 50 0)].
(** exchange_calendar_xidx.py:79-110 *)
Definition regular_holidays : list rule :=
  [common_holidays.new_years_day None None None None;
     GoodFriday;
     Holiday 5 1 [] None (Some (ymd 2014 5 1)) None None;
     common_holidays.ascension_day None (Some (ymd 2003 1 1));
     common_holidays.ascension_day (Some (ymd 2004 1 1)) None;
     Holiday 6 1 [] None (Some (ymd 2017 6 1)) None None;
     Holiday 8 17 [] None None None None;
     common_holidays.christmas None None None None;
     common_holidays.new_years_eve None None None None].
(** exchange_calendar_xidx.py:112-116 *)
Definition chinese_new_year : list Z :=
  filter (fun d => 2002 <=? year_of d) lunisolar_holidays.chinese_lunar_new_year_dates.
(** exchange_calendar_xidx.py:118-160 *)
Definition common_leave : list Z :=
  [ymd 2002 12 30; ymd 2005 12 30; ymd 2009 1 2; ymd 2017 1 2; ymd 2008 2 8; ymd 2003 5 30;
     ymd 2006 5 26; ymd 2007 5 18; ymd 2003 8 18; ymd 2006 8 18; ymd 2008 8 18;
     ymd 2002 12 24; ymd 2002 12 26; ymd 2003 12 24; ymd 2003 12 26; ymd 2004 12 24;
     ymd 2005 12 26; ymd 2007 12 24; ymd 2009 12 24; ymd 2010 12 24; ymd 2011 12 26;
     ymd 2012 12 24; ymd 2013 12 26; ymd 2014 12 26; ymd 2016 12 26; ymd 2017 12 26;
     ymd 2018 12 24; ymd 2019 12 24; ymd 2020 12 24].
(** exchange_calendar_xidx.py:162-182 *)
Definition islamic_new_year : list Z :=
  [ymd 2002 3 15; ymd 2003 3 3; ymd 2004 2 23; ymd 2005 2 10; ymd 2006 1 31; ymd 2008 1 10;
     ymd 2008 1 11; ymd 2008 12 29; ymd 2009 12 18; ymd 2010 12 7; ymd 2012 11 15;
     ymd 2012 11 16; ymd 2013 11 5; ymd 2015 10 14; ymd 2017 9 21; ymd 2018 9 11;
     ymd 2020 8 20].
(** exchange_calendar_xidx.py:184-294 *)
Definition eid_al_fitr : list Z :=
  [ymd 2002 12 5; ymd 2002 12 6; ymd 2002 12 9; ymd 2002 12 10; ymd 2003 11 24;
     ymd 2003 11 25; ymd 2003 11 26; ymd 2003 11 27; ymd 2003 11 28; ymd 2004 11 15;
     ymd 2004 11 16; ymd 2004 11 17; ymd 2004 11 18; ymd 2004 11 19; ymd 2005 11 2;
     ymd 2005 11 3; ymd 2005 11 4; ymd 2005 11 7; ymd 2005 11 8; ymd 2006 10 23;
     ymd 2006 10 24; ymd 2006 10 25; ymd 2006 10 26; ymd 2006 10 27; ymd 2007 10 12;
     ymd 2007 10 15; ymd 2007 10 16; ymd 2008 9 30; ymd 2008 10 1; ymd 2008 10 2;
     ymd 2008 10 3; ymd 2009 9 18; ymd 2009 9 21; ymd 2009 9 22; ymd 2009 9 23; ymd 2010 9 8;
     ymd 2010 9 9; ymd 2010 9 10; ymd 2010 9 13; ymd 2010 9 14; ymd 2011 8 29; ymd 2011 8 30;
     ymd 2011 8 31; ymd 2011 9 1; ymd 2011 9 2; ymd 2012 8 20; ymd 2012 8 21; ymd 2012 8 22;
     ymd 2013 8 5; ymd 2013 8 6; ymd 2013 8 7; ymd 2013 8 8; ymd 2013 8 9; ymd 2014 7 28;
     ymd 2014 7 29; ymd 2014 7 30; ymd 2014 7 31; ymd 2014 8 1; ymd 2015 7 16; ymd 2015 7 17;
     ymd 2015 7 20; ymd 2015 7 21; ymd 2016 7 4; ymd 2016 7 5; ymd 2016 7 6; ymd 2016 7 7;
     ymd 2016 7 8; ymd 2017 6 23; ymd 2017 6 26; ymd 2017 6 27; ymd 2017 6 28; ymd 2017 6 29;
     ymd 2017 6 30; ymd 2018 6 11; ymd 2018 6 12; ymd 2018 6 13; ymd 2018 6 14; ymd 2018 6 15;
     ymd 2018 6 18; ymd 2018 6 19; ymd 2019 6 3; ymd 2019 6 4; ymd 2019 6 5; ymd 2019 6 6;
     ymd 2019 6 7; ymd 2020 5 22; ymd 2020 5 25; ymd 2020 5 26; ymd 2020 5 27].
(** exchange_calendar_xidx.py:296-322 *)
Definition eid_al_adha : list Z :=
  [ymd 2002 2 22; ymd 2003 2 12; ymd 2004 2 2; ymd 2005 1 21; ymd 2006 1 10; ymd 2006 12 29;
     ymd 2007 12 20; ymd 2007 12 21; ymd 2008 12 8; ymd 2009 11 27; ymd 2009 11 28;
     ymd 2010 11 17; ymd 2012 10 26; ymd 2013 10 14; ymd 2013 10 15; ymd 2015 9 24;
     ymd 2016 9 12; ymd 2017 9 1; ymd 2018 8 22; ymd 2020 7 31].
(** exchange_calendar_xidx.py:324-350 *)
Definition isra_mikraj : list Z :=
  [ymd 2002 10 4; ymd 2003 9 22; ymd 2004 9 13; ymd 2005 9 2; ymd 2006 8 21; ymd 2008 7 30;
     ymd 2009 7 20; ymd 2011 6 29; ymd 2012 5 18; ymd 2013 6 6; ymd 2014 5 27; ymd 2016 5 6;
     ymd 2017 4 24; ymd 2019 4 3].
(** exchange_calendar_xidx.py:352-370 *)
Definition birth_of_prophet_muhammad : list Z :=
  [ymd 2003 5 15; ymd 2004 5 3; ymd 2005 4 22; ymd 2006 4 10; ymd 2008 3 20; ymd 2009 3 9;
     ymd 2010 2 26; ymd 2011 2 15; ymd 2013 1 24; ymd 2014 1 14; ymd 2015 12 24;
     ymd 2016 12 12; ymd 2017 12 1; ymd 2018 11 20; ymd 2020 10 29].
(** exchange_calendar_xidx.py:372-388 *)
Definition vesak_day : list Z :=
  [ymd 2003 5 16; ymd 2004 6 3; ymd 2005 5 24; ymd 2007 6 1; ymd 2008 5 20; ymd 2010 5 28;
     ymd 2011 5 17; ymd 2014 5 15; ymd 2015 6 2; ymd 2017 5 11; ymd 2018 5 29; ymd 2020 5 7].
(** exchange_calendar_xidx.py:390-409 *)
Definition hindu_saka_new_year : list Z :=
  [ymd 2003 4 2; ymd 2004 3 22; ymd 2005 3 11; ymd 2006 3 30; ymd 2006 3 31; ymd 2007 3 19;
     ymd 2008 3 7; ymd 2009 3 26; ymd 2010 3 16; ymd 2012 3 23; ymd 2013 3 12; ymd 2014 3 31;
     ymd 2016 3 9; ymd 2017 3 28; ymd 2019 3 7; ymd 2020 3 25].
(** exchange_calendar_xidx.py:411-415 *)
Definition spontaneous_closures : list Z := [ymd 2008 10 9; ymd 2008 10 10].
(** exchange_calendar_xidx.py:417-430 *)
Definition election_holidays : list Z :=
  [ymd 2004 4 5; ymd 2004 7 5; ymd 2004 9 20; ymd 2009 4 9; ymd 2009 7 8; ymd 2014 4 9;
     ymd 2014 7 9; ymd 2015 12 9; ymd 2017 2 15; ymd 2017 4 19; ymd 2019 4 17].
(** exchange_calendar_xidx.py:433-446 *)
Definition adhoc_holidays : list Z :=
  chinese_new_year ++ common_leave ++ islamic_new_year ++ eid_al_fitr ++ eid_al_adha ++ isra_mikraj ++ birth_of_prophet_muhammad ++ vesak_day ++ hindu_saka_new_year ++ spontaneous_closures ++ election_holidays.

(** exchange_calendar_xidx.py:38-446 [XIDXExchangeCalendar]; attributes not set in the class are the defaults of
    trading_calendar.py:203-366. *)
Definition calendar : exchange :=
  Exchange "Asia/Jakarta"%string weekmask_default
    regular_holidays
    adhoc_holidays
    open_times None None close_times
    0 0
    [] [] [] [].
