(** Transcribed from trading_calendars/exchange_calendar_xses.py by tools/translate.py; dates are day
    numbers. *)
From Coq Require Import ZArith String List Bool.
From Verif.Model Require Import Dates Zone Build Holidays Exchange.
Import ListNotations.
Open Scope Z_scope.

(** exchange_calendar_xses.py:6-351 *)
Definition precomputed_ses_holidays : list Z :=
  [ymd 1986 1 1; ymd 1986 2 10; ymd 1986 2 11; ymd 1986 3 28; ymd 1986 5 1; ymd 1986 5 23;
     ymd 1986 6 9; ymd 1986 12 25; ymd 1987 1 1; ymd 1987 1 29; ymd 1987 1 30; ymd 1987 5 1;
     ymd 1987 5 12; ymd 1987 5 29; ymd 1987 8 5; ymd 1987 8 10; ymd 1987 10 21;
     ymd 1987 12 25; ymd 1988 1 1; ymd 1988 2 17; ymd 1988 2 18; ymd 1988 4 1; ymd 1988 5 2;
     ymd 1988 5 17; ymd 1988 5 30; ymd 1988 7 25; ymd 1988 8 9; ymd 1988 11 8; ymd 1988 12 26;
     ymd 1989 1 2; ymd 1989 2 6; ymd 1989 2 7; ymd 1989 3 24; ymd 1989 5 1; ymd 1989 5 8;
     ymd 1989 5 19; ymd 1989 7 13; ymd 1989 8 9; ymd 1989 12 25; ymd 1990 1 1; ymd 1990 4 13;
     ymd 1990 4 26; ymd 1990 5 1; ymd 1990 5 9; ymd 1990 7 3; ymd 1990 8 9; ymd 1990 12 25;
     ymd 1991 1 1; ymd 1991 1 15; ymd 1991 3 29; ymd 1991 4 16; ymd 1991 5 1; ymd 1991 5 28;
     ymd 1991 6 24; ymd 1991 8 9; ymd 1991 11 5; ymd 1991 12 24; ymd 1991 12 25;
     ymd 1991 12 31; ymd 1992 1 1; ymd 1992 2 4; ymd 1992 2 5; ymd 1992 4 6; ymd 1992 4 17;
     ymd 1992 5 1; ymd 1992 6 11; ymd 1992 8 10; ymd 1992 12 25; ymd 1993 1 1; ymd 1993 1 25;
     ymd 1993 3 25; ymd 1993 4 9; ymd 1993 5 6; ymd 1993 6 1; ymd 1993 8 9; ymd 1994 1 10;
     ymd 1994 1 11; ymd 1994 2 1; ymd 1994 2 11; ymd 1994 3 14; ymd 1994 4 1; ymd 1994 5 2;
     ymd 1994 5 25; ymd 1994 8 9; ymd 1994 10 13; ymd 1994 11 2; ymd 1994 12 26; ymd 1995 1 2;
     ymd 1995 1 31; ymd 1995 2 1; ymd 1995 3 3; ymd 1995 4 14; ymd 1995 5 1; ymd 1995 5 10;
     ymd 1995 5 15; ymd 1995 8 9; ymd 1995 10 23; ymd 1995 12 25; ymd 1996 1 1; ymd 1996 2 19;
     ymd 1996 2 20; ymd 1996 2 21; ymd 1996 4 5; ymd 1996 5 1; ymd 1996 5 31; ymd 1996 8 9;
     ymd 1996 12 25; ymd 1997 1 1; ymd 1997 2 7; ymd 1997 2 10; ymd 1997 3 28; ymd 1997 4 18;
     ymd 1997 5 1; ymd 1997 5 21; ymd 1997 12 25; ymd 1998 1 1; ymd 1998 1 28; ymd 1998 1 29;
     ymd 1998 1 30; ymd 1998 4 7; ymd 1998 4 10; ymd 1998 5 1; ymd 1998 5 11; ymd 1998 8 10;
     ymd 1998 10 19; ymd 1998 12 25; ymd 1999 1 1; ymd 1999 1 19; ymd 1999 2 16;
     ymd 1999 2 17; ymd 1999 3 29; ymd 1999 4 2; ymd 1999 8 9; ymd 1999 11 8; ymd 1999 12 31;
     ymd 2000 2 7; ymd 2000 3 16; ymd 2000 4 21; ymd 2000 5 1; ymd 2000 5 18; ymd 2000 8 9;
     ymd 2000 10 26; ymd 2000 12 25; ymd 2000 12 27; ymd 2001 1 1; ymd 2001 1 24;
     ymd 2001 1 25; ymd 2001 3 6; ymd 2001 4 13; ymd 2001 5 1; ymd 2001 5 7; ymd 2001 8 9;
     ymd 2001 11 14; ymd 2001 12 17; ymd 2001 12 25; ymd 2002 1 1; ymd 2002 2 12;
     ymd 2002 2 13; ymd 2002 3 29; ymd 2002 5 1; ymd 2002 5 27; ymd 2002 8 9; ymd 2002 11 4;
     ymd 2002 12 6; ymd 2002 12 25; ymd 2003 1 1; ymd 2003 2 3; ymd 2003 2 12; ymd 2003 4 18;
     ymd 2003 5 1; ymd 2003 5 15; ymd 2003 10 24; ymd 2003 11 25; ymd 2003 12 25;
     ymd 2004 1 1; ymd 2004 1 22; ymd 2004 1 23; ymd 2004 2 2; ymd 2004 4 9; ymd 2004 6 2;
     ymd 2004 8 9; ymd 2004 11 11; ymd 2004 11 15; ymd 2005 1 21; ymd 2005 2 9; ymd 2005 2 10;
     ymd 2005 3 25; ymd 2005 5 2; ymd 2005 5 23; ymd 2005 8 9; ymd 2005 11 1; ymd 2005 11 3;
     ymd 2005 12 26; ymd 2006 1 2; ymd 2006 1 10; ymd 2006 1 30; ymd 2006 1 31; ymd 2006 4 14;
     ymd 2006 5 1; ymd 2006 5 12; ymd 2006 8 9; ymd 2006 10 24; ymd 2006 12 25; ymd 2007 1 1;
     ymd 2007 1 2; ymd 2007 2 19; ymd 2007 2 20; ymd 2007 4 6; ymd 2007 5 1; ymd 2007 5 31;
     ymd 2007 8 9; ymd 2007 11 8; ymd 2007 12 20; ymd 2007 12 25; ymd 2008 1 1; ymd 2008 2 7;
     ymd 2008 2 8; ymd 2008 3 21; ymd 2008 5 1; ymd 2008 5 19; ymd 2008 10 1; ymd 2008 10 27;
     ymd 2008 12 8; ymd 2008 12 25; ymd 2009 1 1; ymd 2009 1 26; ymd 2009 1 27; ymd 2009 4 10;
     ymd 2009 5 1; ymd 2009 8 10; ymd 2009 9 21; ymd 2009 11 27; ymd 2009 12 25; ymd 2010 1 1;
     ymd 2010 2 15; ymd 2010 2 16; ymd 2010 4 2; ymd 2010 5 28; ymd 2010 8 9; ymd 2010 9 10;
     ymd 2010 11 5; ymd 2010 11 17; ymd 2011 2 3; ymd 2011 2 4; ymd 2011 4 22; ymd 2011 5 2;
     ymd 2011 5 17; ymd 2011 8 9; ymd 2011 8 30; ymd 2011 10 26; ymd 2011 11 7;
     ymd 2011 12 26; ymd 2012 1 2; ymd 2012 1 23; ymd 2012 1 24; ymd 2012 4 6; ymd 2012 5 1;
     ymd 2012 8 9; ymd 2012 8 20; ymd 2012 10 26; ymd 2012 11 13; ymd 2012 12 25;
     ymd 2013 1 1; ymd 2013 2 11; ymd 2013 2 12; ymd 2013 3 29; ymd 2013 5 1; ymd 2013 5 24;
     ymd 2013 8 8; ymd 2013 8 9; ymd 2013 10 15; ymd 2013 12 25; ymd 2014 1 1; ymd 2014 1 31;
     ymd 2014 4 18; ymd 2014 5 1; ymd 2014 5 13; ymd 2014 7 28; ymd 2014 10 6; ymd 2014 10 22;
     ymd 2014 12 25; ymd 2015 1 1; ymd 2015 2 19; ymd 2015 2 20; ymd 2015 4 3; ymd 2015 5 1;
     ymd 2015 6 1; ymd 2015 7 17; ymd 2015 8 7; ymd 2015 8 10; ymd 2015 9 11; ymd 2015 9 24;
     ymd 2015 11 10; ymd 2015 12 25; ymd 2016 1 1; ymd 2016 2 8; ymd 2016 2 9; ymd 2016 3 25;
     ymd 2016 5 2; ymd 2016 7 6; ymd 2016 8 9; ymd 2016 9 12; ymd 2016 12 26; ymd 2017 1 2;
     ymd 2017 1 30; ymd 2017 4 14; ymd 2017 5 1; ymd 2017 5 10; ymd 2017 6 26; ymd 2017 8 9;
     ymd 2017 9 1; ymd 2017 10 18; ymd 2017 12 25; ymd 2018 1 1; ymd 2018 2 16; ymd 2018 3 30;
     ymd 2018 5 1; ymd 2018 5 29; ymd 2018 6 15; ymd 2018 8 9; ymd 2018 8 22; ymd 2018 11 6;
     ymd 2018 12 25; ymd 2019 1 1; ymd 2019 2 5; ymd 2019 2 6; ymd 2019 4 19; ymd 2019 5 1;
     ymd 2019 5 20; ymd 2019 6 5; ymd 2019 8 9; ymd 2019 8 12; ymd 2019 10 28; ymd 2019 12 25;
     ymd 2020 1 1; ymd 2020 1 27; ymd 2020 4 10; ymd 2020 5 1; ymd 2020 5 7; ymd 2020 5 25;
     ymd 2020 7 10; ymd 2020 7 31; ymd 2020 8 10; ymd 2020 12 25].
(** exchange_calendar_xses.py:372-374 *)
Definition open_times : list (option Z * time) := [(None, Time 9 1 0)].
(** exchange_calendar_xses.py:375-377 *)
Definition close_times : list (option Z * time) := [(None, Time 17 0 0)].
(** exchange_calendar_xses.py:380-381 *)
Definition precomputed_holidays : list Z := precomputed_ses_holidays.

(** exchange_calendar_xses.py:354-381 [XSESExchangeCalendar]; attributes not set in the class are the defaults of
    trading_calendar.py:203-366. *)
Definition calendar : exchange :=
  Exchange "Asia/Singapore"%string weekmask_default
    []
    precomputed_holidays
    open_times None None close_times
    0 0
    [] [] [] [].
