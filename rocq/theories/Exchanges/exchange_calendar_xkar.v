(** Transcribed from trading_calendars/exchange_calendar_xkar.py by tools/translate.py; dates are day
    numbers. *)
From Coq Require Import ZArith String List Bool.
From Verif.Model Require Import Dates Zone Build Holidays Exchange.
From Verif.Exchanges Require common_holidays.
Import ListNotations.
Open Scope Z_scope.

(** exchange_calendar_xkar.py:65-68 *)
Definition open_times : list (option Z * time) := [(None, Time 9 33 0)].
(** exchange_calendar_xkar.py:70-73 *)
Definition close_times : list (option Z * time) := [(None, Time 15 30 0)].
(** exchange_calendar_xkar.py:76-105 *)
Definition regular_holidays : list rule :=
  [Holiday 2 5 [] None None None None;
     Holiday 3 23 [] None None None None;
     common_holidays.european_labour_day None None None None;
     Holiday 8 14 [] None None None None;
     Holiday 11 9 [] None None (Some (ymd 2013 1 1)) None;
     Holiday 12 25 [] None None None None].
(** exchange_calendar_xkar.py:107-128 *)
Definition juma_tul_wida : list Z :=
  [ymd 2002 12 6; ymd 2004 11 11; ymd 2005 10 28; ymd 2006 10 20; ymd 2007 10 12;
     ymd 2008 9 26; ymd 2010 9 10; ymd 2011 8 26; ymd 2012 8 17; ymd 2013 8 2; ymd 2014 7 25;
     ymd 2015 7 17; ymd 2016 7 1; ymd 2017 6 23; ymd 2018 6 8; ymd 2019 5 31; ymd 2020 5 22].
(** exchange_calendar_xkar.py:130-203 *)
Definition eid_ul_fitr : list Z :=
  [ymd 2002 12 3; ymd 2002 12 5; ymd 2003 11 26; ymd 2003 11 27; ymd 2003 11 28;
     ymd 2004 11 15; ymd 2004 11 16; ymd 2004 11 17; ymd 2005 11 3; ymd 2005 11 4;
     ymd 2006 10 23; ymd 2006 10 24; ymd 2006 10 25; ymd 2007 10 10; ymd 2007 10 15;
     ymd 2007 10 16; ymd 2008 10 1; ymd 2008 10 2; ymd 2008 10 3; ymd 2009 9 21;
     ymd 2009 9 22; ymd 2009 9 23; ymd 2010 9 13; ymd 2011 8 31; ymd 2011 9 1; ymd 2011 9 2;
     ymd 2012 8 20; ymd 2012 8 21; ymd 2012 8 22; ymd 2013 8 8; ymd 2013 8 9; ymd 2014 7 29;
     ymd 2014 7 30; ymd 2014 7 31; ymd 2014 8 1; ymd 2015 7 20; ymd 2015 7 21; ymd 2016 7 5;
     ymd 2016 7 6; ymd 2016 7 7; ymd 2016 7 8; ymd 2017 6 26; ymd 2017 6 27; ymd 2017 6 28;
     ymd 2018 6 15; ymd 2018 6 18; ymd 2019 6 4; ymd 2019 6 5; ymd 2019 6 6; ymd 2019 6 7;
     ymd 2020 5 25; ymd 2020 5 26; ymd 2020 5 27].
(** exchange_calendar_xkar.py:205-279 *)
Definition eid_ul_azha : list Z :=
  [ymd 2002 2 25; ymd 2003 2 11; ymd 2003 2 12; ymd 2003 2 13; ymd 2003 2 14; ymd 2004 2 2;
     ymd 2004 2 3; ymd 2004 2 4; ymd 2005 1 20; ymd 2005 1 21; ymd 2006 1 10; ymd 2006 1 11;
     ymd 2006 1 12; ymd 2006 1 13; ymd 2007 1 1; ymd 2007 1 2; ymd 2007 12 20; ymd 2007 12 21;
     ymd 2008 12 8; ymd 2008 12 9; ymd 2008 12 10; ymd 2008 12 11; ymd 2009 11 27;
     ymd 2009 11 30; ymd 2010 11 17; ymd 2010 11 18; ymd 2010 11 19; ymd 2011 11 7;
     ymd 2011 11 8; ymd 2012 10 26; ymd 2013 10 15; ymd 2013 10 16; ymd 2013 10 17;
     ymd 2013 10 18; ymd 2014 10 6; ymd 2014 10 7; ymd 2014 10 8; ymd 2015 9 24;
     ymd 2015 9 25; ymd 2016 9 12; ymd 2016 9 13; ymd 2016 9 14; ymd 2017 9 1; ymd 2017 9 4;
     ymd 2018 8 21; ymd 2018 8 22; ymd 2018 8 23; ymd 2019 8 12; ymd 2019 8 13; ymd 2019 8 15;
     ymd 2020 7 31].
(** exchange_calendar_xkar.py:281-320 *)
Definition ashura : list Z :=
  [ymd 2002 3 25; ymd 2003 3 13; ymd 2003 3 14; ymd 2004 3 1; ymd 2004 3 2; ymd 2006 2 8;
     ymd 2006 2 9; ymd 2009 1 7; ymd 2009 1 8; ymd 2009 12 28; ymd 2010 12 16; ymd 2010 12 17;
     ymd 2011 12 5; ymd 2011 12 6; ymd 2013 11 14; ymd 2013 11 15; ymd 2014 11 3;
     ymd 2014 11 4; ymd 2015 10 23; ymd 2016 10 11; ymd 2016 10 12; ymd 2018 9 20;
     ymd 2018 9 21; ymd 2019 9 9; ymd 2019 9 10].
(** exchange_calendar_xkar.py:322-339 *)
Definition eid_milad_un_nabi : list Z :=
  [ymd 2002 5 23; ymd 2003 5 15; ymd 2005 4 22; ymd 2006 4 11; ymd 2008 3 21; ymd 2009 3 10;
     ymd 2011 2 16; ymd 2013 1 25; ymd 2014 1 14; ymd 2015 12 24; ymd 2016 12 12;
     ymd 2017 12 1; ymd 2018 11 21; ymd 2020 10 30].
(** exchange_calendar_xkar.py:341-365 *)
Definition new_years_day : list Z := [ymd 2002 1 1; ymd 2004 1 1; ymd 2010 1 1].
(** exchange_calendar_xkar.py:367-395 *)
Definition miscellaneous_closures : list Z :=
  [ymd 2002 2 22; ymd 2002 10 10; ymd 2003 4 10; ymd 2004 5 3; ymd 2005 8 18; ymd 2005 11 1;
     ymd 2006 4 12; ymd 2006 10 26; ymd 2006 10 27; ymd 2007 1 29; ymd 2007 1 30;
     ymd 2007 12 28; ymd 2008 2 18; ymd 2011 11 11; ymd 2011 10 24; ymd 2012 10 29;
     ymd 2012 9 21; ymd 2018 7 25].
(** exchange_calendar_xkar.py:398-407 *)
Definition adhoc_holidays : list Z :=
  new_years_day ++ juma_tul_wida ++ eid_ul_fitr ++ eid_ul_azha ++ ashura ++ eid_milad_un_nabi ++ miscellaneous_closures.

(** exchange_calendar_xkar.py:27-407 [XKARExchangeCalendar]; attributes not set in the class are the defaults of
    trading_calendar.py:203-366. *)
Definition calendar : exchange :=
  Exchange "Asia/Karachi"%string weekmask_default
    regular_holidays
    adhoc_holidays
    open_times None None close_times
    0 0
    [] [] [] [].
