(** Transcribed from trading_calendars/exchange_calendar_xbom.py by tools/translate.py; dates are day
    numbers. *)
From Coq Require Import ZArith String List Bool.
From Verif.Model Require Import Dates Zone Build Holidays Exchange.
Import ListNotations.
Open Scope Z_scope.

(** exchange_calendar_xbom.py:7-327 *)
Definition precomputed_bse_holidays : list Z :=
  [ymd 1997 1 23; ymd 1997 3 7; ymd 1997 3 24; ymd 1997 4 8; ymd 1997 4 14; ymd 1997 4 16;
     ymd 1997 4 18; ymd 1997 5 1; ymd 1997 5 8; ymd 1997 8 15; ymd 1997 8 18; ymd 1997 8 25;
     ymd 1997 10 2; ymd 1997 10 28; ymd 1997 10 29; ymd 1997 10 31; ymd 1997 12 25;
     ymd 1998 4 9; ymd 1998 4 14; ymd 1998 4 28; ymd 1998 12 25; ymd 1999 1 1; ymd 1999 1 20;
     ymd 1999 1 26; ymd 1999 3 2; ymd 1999 3 18; ymd 1999 3 25; ymd 1999 3 29; ymd 1999 4 2;
     ymd 1999 4 14; ymd 1999 4 27; ymd 1999 4 30; ymd 1999 9 13; ymd 1999 10 19;
     ymd 1999 11 8; ymd 1999 11 10; ymd 1999 11 23; ymd 1999 12 31; ymd 2000 1 26;
     ymd 2000 3 17; ymd 2000 3 20; ymd 2000 4 14; ymd 2000 4 21; ymd 2000 5 1; ymd 2000 8 15;
     ymd 2000 9 1; ymd 2000 10 2; ymd 2000 12 25; ymd 2001 1 1; ymd 2001 1 26; ymd 2001 3 6;
     ymd 2001 4 5; ymd 2001 4 13; ymd 2001 5 1; ymd 2001 8 15; ymd 2001 8 22; ymd 2001 10 2;
     ymd 2001 10 26; ymd 2001 11 16; ymd 2001 11 30; ymd 2001 12 17; ymd 2001 12 25;
     ymd 2002 3 25; ymd 2002 3 29; ymd 2002 5 1; ymd 2002 8 15; ymd 2002 9 10; ymd 2002 10 2;
     ymd 2002 10 15; ymd 2002 11 6; ymd 2002 11 19; ymd 2002 12 25; ymd 2003 2 13;
     ymd 2003 3 14; ymd 2003 3 18; ymd 2003 4 14; ymd 2003 4 18; ymd 2003 5 1; ymd 2003 8 15;
     ymd 2003 10 2; ymd 2003 11 26; ymd 2003 12 25; ymd 2004 1 1; ymd 2004 1 26; ymd 2004 2 2;
     ymd 2004 3 2; ymd 2004 4 9; ymd 2004 4 14; ymd 2004 4 26; ymd 2004 10 13; ymd 2004 10 22;
     ymd 2004 11 15; ymd 2004 11 26; ymd 2005 1 21; ymd 2005 1 26; ymd 2005 3 25;
     ymd 2005 4 14; ymd 2005 7 28; ymd 2005 8 15; ymd 2005 9 7; ymd 2005 10 12; ymd 2005 11 3;
     ymd 2005 11 4; ymd 2005 11 15; ymd 2006 1 11; ymd 2006 1 26; ymd 2006 2 9; ymd 2006 3 15;
     ymd 2006 4 6; ymd 2006 4 11; ymd 2006 4 14; ymd 2006 5 1; ymd 2006 8 15; ymd 2006 10 2;
     ymd 2006 10 24; ymd 2006 10 25; ymd 2006 12 25; ymd 2007 1 1; ymd 2007 1 26;
     ymd 2007 1 30; ymd 2007 2 16; ymd 2007 3 27; ymd 2007 4 6; ymd 2007 5 1; ymd 2007 5 2;
     ymd 2007 8 15; ymd 2007 10 2; ymd 2007 12 21; ymd 2007 12 25; ymd 2008 3 6;
     ymd 2008 3 20; ymd 2008 3 21; ymd 2008 4 14; ymd 2008 4 18; ymd 2008 5 1; ymd 2008 5 19;
     ymd 2008 8 15; ymd 2008 9 3; ymd 2008 10 2; ymd 2008 10 9; ymd 2008 10 30;
     ymd 2008 11 13; ymd 2008 11 27; ymd 2008 12 9; ymd 2008 12 25; ymd 2009 1 8;
     ymd 2009 1 26; ymd 2009 2 23; ymd 2009 3 10; ymd 2009 3 11; ymd 2009 4 3; ymd 2009 4 7;
     ymd 2009 4 10; ymd 2009 4 14; ymd 2009 4 30; ymd 2009 5 1; ymd 2009 9 21; ymd 2009 9 28;
     ymd 2009 10 2; ymd 2009 10 13; ymd 2009 10 19; ymd 2009 11 2; ymd 2009 12 25;
     ymd 2009 12 28; ymd 2010 1 1; ymd 2010 1 26; ymd 2010 2 12; ymd 2010 3 1; ymd 2010 3 24;
     ymd 2010 4 2; ymd 2010 4 14; ymd 2010 9 10; ymd 2010 11 17; ymd 2010 12 17;
     ymd 2011 1 26; ymd 2011 3 2; ymd 2011 4 12; ymd 2011 4 14; ymd 2011 4 22; ymd 2011 8 15;
     ymd 2011 8 31; ymd 2011 9 1; ymd 2011 10 6; ymd 2011 10 27; ymd 2011 11 7;
     ymd 2011 11 10; ymd 2011 12 6; ymd 2012 1 26; ymd 2012 2 20; ymd 2012 3 8; ymd 2012 4 5;
     ymd 2012 4 6; ymd 2012 5 1; ymd 2012 8 15; ymd 2012 8 20; ymd 2012 9 19; ymd 2012 10 2;
     ymd 2012 10 24; ymd 2012 11 14; ymd 2012 11 28; ymd 2012 12 25; ymd 2013 3 27;
     ymd 2013 3 29; ymd 2013 4 19; ymd 2013 4 24; ymd 2013 5 1; ymd 2013 8 9; ymd 2013 8 15;
     ymd 2013 9 9; ymd 2013 10 2; ymd 2013 10 16; ymd 2013 11 4; ymd 2013 11 15;
     ymd 2013 12 25; ymd 2014 2 27; ymd 2014 3 17; ymd 2014 4 8; ymd 2014 4 14; ymd 2014 4 18;
     ymd 2014 4 24; ymd 2014 5 1; ymd 2014 7 29; ymd 2014 8 15; ymd 2014 8 29; ymd 2014 10 2;
     ymd 2014 10 3; ymd 2014 10 6; ymd 2014 10 15; ymd 2014 10 24; ymd 2014 11 4;
     ymd 2014 11 6; ymd 2014 12 25; ymd 2015 1 26; ymd 2015 2 17; ymd 2015 3 6; ymd 2015 4 2;
     ymd 2015 4 3; ymd 2015 4 14; ymd 2015 5 1; ymd 2015 9 17; ymd 2015 9 25; ymd 2015 10 2;
     ymd 2015 10 22; ymd 2015 11 12; ymd 2015 11 25; ymd 2015 12 25; ymd 2016 1 26;
     ymd 2016 3 7; ymd 2016 3 24; ymd 2016 3 25; ymd 2016 4 14; ymd 2016 4 15; ymd 2016 4 19;
     ymd 2016 7 6; ymd 2016 8 15; ymd 2016 9 5; ymd 2016 9 13; ymd 2016 10 11; ymd 2016 10 12;
     ymd 2016 10 31; ymd 2016 11 14; ymd 2017 1 26; ymd 2017 2 24; ymd 2017 3 13;
     ymd 2017 4 4; ymd 2017 4 14; ymd 2017 5 1; ymd 2017 6 26; ymd 2017 8 15; ymd 2017 8 25;
     ymd 2017 10 2; ymd 2017 10 20; ymd 2017 12 25; ymd 2018 1 26; ymd 2018 2 13;
     ymd 2018 3 2; ymd 2018 3 29; ymd 2018 3 30; ymd 2018 5 1; ymd 2018 8 15; ymd 2018 8 22;
     ymd 2018 9 13; ymd 2018 9 20; ymd 2018 10 2; ymd 2018 10 18; ymd 2018 11 8;
     ymd 2018 11 23; ymd 2018 12 25; ymd 2019 1 26; ymd 2019 3 2; ymd 2019 3 4; ymd 2019 3 21;
     ymd 2019 4 17; ymd 2019 4 19; ymd 2019 4 29; ymd 2019 5 1; ymd 2019 6 5; ymd 2019 8 12;
     ymd 2019 8 15; ymd 2019 9 2; ymd 2019 9 10; ymd 2019 10 2; ymd 2019 10 8; ymd 2019 10 21;
     ymd 2019 10 28; ymd 2019 11 12; ymd 2019 12 25; ymd 2020 2 21; ymd 2020 3 10;
     ymd 2020 4 2; ymd 2020 4 6; ymd 2020 4 10; ymd 2020 4 14; ymd 2020 5 1; ymd 2020 7 31;
     ymd 2020 10 2; ymd 2020 11 16; ymd 2020 11 30; ymd 2020 12 25].
(** exchange_calendar_xbom.py:344-346 *)
Definition open_times : list (option Z * time) := [(None, Time 9 16 0)].
(** exchange_calendar_xbom.py:347-349 *)
Definition close_times : list (option Z * time) := [(None, Time 15 30 0)].
(** exchange_calendar_xbom.py:352-353 *)
Definition precomputed_holidays : list Z := precomputed_bse_holidays.

(** exchange_calendar_xbom.py:330-353 [XBOMExchangeCalendar]; attributes not set in the class are the defaults of
    trading_calendar.py:203-366. *)
Definition calendar : exchange :=
  Exchange "Asia/Calcutta"%string weekmask_default
    []
    precomputed_holidays
    open_times None None close_times
    0 0
    [] [] [] [].
