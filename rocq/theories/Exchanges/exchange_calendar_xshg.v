(** Transcribed from trading_calendars/exchange_calendar_xshg.py by tools/translate.py; dates are day
    numbers. *)
From Coq Require Import ZArith String List Bool.
From Verif.Model Require Import Dates Zone Build Holidays Exchange.
Import ListNotations.
Open Scope Z_scope.

(** exchange_calendar_xshg.py:6-482 *)
Definition precomputed_shanghai_holidays : list Z :=
  [ymd 1999 1 1; ymd 1999 2 10; ymd 1999 2 11; ymd 1999 2 12; ymd 1999 2 15; ymd 1999 2 16;
     ymd 1999 2 17; ymd 1999 2 18; ymd 1999 2 19; ymd 1999 2 22; ymd 1999 2 23; ymd 1999 2 24;
     ymd 1999 2 25; ymd 1999 2 26; ymd 1999 5 3; ymd 1999 10 1; ymd 1999 10 4; ymd 1999 10 5;
     ymd 1999 10 6; ymd 1999 10 7; ymd 1999 12 20; ymd 1999 12 31; ymd 2000 1 3;
     ymd 2000 1 31; ymd 2000 2 1; ymd 2000 2 2; ymd 2000 2 3; ymd 2000 2 4; ymd 2000 2 7;
     ymd 2000 2 8; ymd 2000 2 9; ymd 2000 2 10; ymd 2000 2 11; ymd 2000 5 1; ymd 2000 5 2;
     ymd 2000 5 3; ymd 2000 5 4; ymd 2000 5 5; ymd 2000 10 2; ymd 2000 10 3; ymd 2000 10 4;
     ymd 2000 10 5; ymd 2000 10 6; ymd 2001 1 1; ymd 2001 1 22; ymd 2001 1 23; ymd 2001 1 24;
     ymd 2001 1 25; ymd 2001 1 26; ymd 2001 1 29; ymd 2001 1 30; ymd 2001 1 31; ymd 2001 2 1;
     ymd 2001 2 2; ymd 2001 5 1; ymd 2001 5 2; ymd 2001 5 3; ymd 2001 5 4; ymd 2001 5 7;
     ymd 2001 10 1; ymd 2001 10 2; ymd 2001 10 3; ymd 2001 10 4; ymd 2001 10 5; ymd 2002 1 1;
     ymd 2002 1 2; ymd 2002 1 3; ymd 2002 2 11; ymd 2002 2 12; ymd 2002 2 13; ymd 2002 2 14;
     ymd 2002 2 15; ymd 2002 2 18; ymd 2002 2 19; ymd 2002 2 20; ymd 2002 2 21; ymd 2002 2 22;
     ymd 2002 5 1; ymd 2002 5 2; ymd 2002 5 3; ymd 2002 5 6; ymd 2002 5 7; ymd 2002 9 30;
     ymd 2002 10 1; ymd 2002 10 2; ymd 2002 10 3; ymd 2002 10 4; ymd 2002 10 7; ymd 2003 1 1;
     ymd 2003 1 30; ymd 2003 1 31; ymd 2003 2 3; ymd 2003 2 4; ymd 2003 2 5; ymd 2003 2 6;
     ymd 2003 2 7; ymd 2003 5 1; ymd 2003 5 2; ymd 2003 5 5; ymd 2003 5 6; ymd 2003 5 7;
     ymd 2003 5 8; ymd 2003 5 9; ymd 2003 10 1; ymd 2003 10 2; ymd 2003 10 3; ymd 2003 10 6;
     ymd 2003 10 7; ymd 2004 1 1; ymd 2004 1 19; ymd 2004 1 20; ymd 2004 1 21; ymd 2004 1 22;
     ymd 2004 1 23; ymd 2004 1 26; ymd 2004 1 27; ymd 2004 1 28; ymd 2004 5 3; ymd 2004 5 4;
     ymd 2004 5 5; ymd 2004 5 6; ymd 2004 5 7; ymd 2004 10 1; ymd 2004 10 4; ymd 2004 10 5;
     ymd 2004 10 6; ymd 2004 10 7; ymd 2005 1 3; ymd 2005 2 7; ymd 2005 2 8; ymd 2005 2 9;
     ymd 2005 2 10; ymd 2005 2 11; ymd 2005 2 14; ymd 2005 2 15; ymd 2005 5 2; ymd 2005 5 3;
     ymd 2005 5 4; ymd 2005 5 5; ymd 2005 5 6; ymd 2005 10 3; ymd 2005 10 4; ymd 2005 10 5;
     ymd 2005 10 6; ymd 2005 10 7; ymd 2006 1 2; ymd 2006 1 3; ymd 2006 1 26; ymd 2006 1 27;
     ymd 2006 1 30; ymd 2006 1 31; ymd 2006 2 1; ymd 2006 2 2; ymd 2006 2 3; ymd 2006 5 1;
     ymd 2006 5 2; ymd 2006 5 3; ymd 2006 5 4; ymd 2006 5 5; ymd 2006 10 2; ymd 2006 10 3;
     ymd 2006 10 4; ymd 2006 10 5; ymd 2006 10 6; ymd 2007 1 1; ymd 2007 1 2; ymd 2007 1 3;
     ymd 2007 2 19; ymd 2007 2 20; ymd 2007 2 21; ymd 2007 2 22; ymd 2007 2 23; ymd 2007 5 1;
     ymd 2007 5 2; ymd 2007 5 3; ymd 2007 5 4; ymd 2007 5 7; ymd 2007 10 1; ymd 2007 10 2;
     ymd 2007 10 3; ymd 2007 10 4; ymd 2007 10 5; ymd 2007 12 31; ymd 2008 1 1; ymd 2008 2 6;
     ymd 2008 2 7; ymd 2008 2 8; ymd 2008 2 11; ymd 2008 2 12; ymd 2008 4 4; ymd 2008 5 1;
     ymd 2008 5 2; ymd 2008 6 9; ymd 2008 9 15; ymd 2008 9 29; ymd 2008 9 30; ymd 2008 10 1;
     ymd 2008 10 2; ymd 2008 10 3; ymd 2009 1 1; ymd 2009 1 2; ymd 2009 1 26; ymd 2009 1 27;
     ymd 2009 1 28; ymd 2009 1 29; ymd 2009 1 30; ymd 2009 4 6; ymd 2009 5 1; ymd 2009 5 28;
     ymd 2009 5 29; ymd 2009 10 1; ymd 2009 10 2; ymd 2009 10 5; ymd 2009 10 6; ymd 2009 10 7;
     ymd 2009 10 8; ymd 2010 1 1; ymd 2010 2 15; ymd 2010 2 16; ymd 2010 2 17; ymd 2010 2 18;
     ymd 2010 2 19; ymd 2010 4 5; ymd 2010 5 3; ymd 2010 6 14; ymd 2010 6 15; ymd 2010 6 16;
     ymd 2010 9 22; ymd 2010 9 23; ymd 2010 9 24; ymd 2010 10 1; ymd 2010 10 4; ymd 2010 10 5;
     ymd 2010 10 6; ymd 2010 10 7; ymd 2011 1 3; ymd 2011 2 2; ymd 2011 2 3; ymd 2011 2 4;
     ymd 2011 2 7; ymd 2011 2 8; ymd 2011 4 4; ymd 2011 4 5; ymd 2011 5 2; ymd 2011 6 6;
     ymd 2011 9 12; ymd 2011 10 3; ymd 2011 10 4; ymd 2011 10 5; ymd 2011 10 6; ymd 2011 10 7;
     ymd 2012 1 2; ymd 2012 1 3; ymd 2012 1 23; ymd 2012 1 24; ymd 2012 1 25; ymd 2012 1 26;
     ymd 2012 1 27; ymd 2012 4 2; ymd 2012 4 3; ymd 2012 4 4; ymd 2012 4 30; ymd 2012 5 1;
     ymd 2012 6 22; ymd 2012 10 1; ymd 2012 10 2; ymd 2012 10 3; ymd 2012 10 4; ymd 2012 10 5;
     ymd 2013 1 1; ymd 2013 1 2; ymd 2013 1 3; ymd 2013 2 11; ymd 2013 2 12; ymd 2013 2 13;
     ymd 2013 2 14; ymd 2013 2 15; ymd 2013 4 4; ymd 2013 4 5; ymd 2013 4 29; ymd 2013 4 30;
     ymd 2013 5 1; ymd 2013 6 10; ymd 2013 6 11; ymd 2013 6 12; ymd 2013 9 19; ymd 2013 9 20;
     ymd 2013 10 1; ymd 2013 10 2; ymd 2013 10 3; ymd 2013 10 4; ymd 2013 10 7; ymd 2014 1 1;
     ymd 2014 1 31; ymd 2014 2 3; ymd 2014 2 4; ymd 2014 2 5; ymd 2014 2 6; ymd 2014 4 7;
     ymd 2014 5 1; ymd 2014 5 2; ymd 2014 6 2; ymd 2014 9 8; ymd 2014 10 1; ymd 2014 10 2;
     ymd 2014 10 3; ymd 2014 10 6; ymd 2014 10 7; ymd 2015 1 1; ymd 2015 1 2; ymd 2015 2 18;
     ymd 2015 2 19; ymd 2015 2 20; ymd 2015 2 23; ymd 2015 2 24; ymd 2015 4 6; ymd 2015 5 1;
     ymd 2015 6 22; ymd 2015 9 3; ymd 2015 9 4; ymd 2015 10 1; ymd 2015 10 2; ymd 2015 10 5;
     ymd 2015 10 6; ymd 2015 10 7; ymd 2016 1 1; ymd 2016 2 8; ymd 2016 2 9; ymd 2016 2 10;
     ymd 2016 2 11; ymd 2016 2 12; ymd 2016 4 4; ymd 2016 5 2; ymd 2016 6 9; ymd 2016 6 10;
     ymd 2016 9 15; ymd 2016 9 16; ymd 2016 10 3; ymd 2016 10 4; ymd 2016 10 5; ymd 2016 10 6;
     ymd 2016 10 7; ymd 2017 1 2; ymd 2017 1 27; ymd 2017 1 30; ymd 2017 1 31; ymd 2017 2 1;
     ymd 2017 2 2; ymd 2017 4 3; ymd 2017 4 4; ymd 2017 5 1; ymd 2017 5 29; ymd 2017 5 30;
     ymd 2017 10 2; ymd 2017 10 3; ymd 2017 10 4; ymd 2017 10 5; ymd 2017 10 6; ymd 2018 1 1;
     ymd 2018 2 15; ymd 2018 2 16; ymd 2018 2 19; ymd 2018 2 20; ymd 2018 2 21; ymd 2018 4 5;
     ymd 2018 4 6; ymd 2018 4 30; ymd 2018 5 1; ymd 2018 6 18; ymd 2018 9 24; ymd 2018 10 1;
     ymd 2018 10 2; ymd 2018 10 3; ymd 2018 10 4; ymd 2018 10 5; ymd 2018 12 31; ymd 2019 1 1;
     ymd 2019 2 4; ymd 2019 2 5; ymd 2019 2 6; ymd 2019 2 7; ymd 2019 2 8; ymd 2019 4 5;
     ymd 2019 5 1; ymd 2019 5 2; ymd 2019 5 3; ymd 2019 6 7; ymd 2019 9 13; ymd 2019 10 1;
     ymd 2019 10 2; ymd 2019 10 3; ymd 2019 10 4; ymd 2019 10 7; ymd 2020 1 1; ymd 2020 1 24;
     ymd 2020 1 27; ymd 2020 1 28; ymd 2020 1 29; ymd 2020 1 30; ymd 2020 4 6; ymd 2020 5 1;
     ymd 2020 5 4; ymd 2020 5 5; ymd 2020 6 25; ymd 2020 6 26; ymd 2020 10 1; ymd 2020 10 2;
     ymd 2020 10 5; ymd 2020 10 6; ymd 2020 10 7; ymd 2020 10 8; ymd 2021 1 1; ymd 2021 2 11;
     ymd 2021 2 12; ymd 2021 2 15; ymd 2021 2 16; ymd 2021 2 17; ymd 2021 4 5; ymd 2021 5 3;
     ymd 2021 6 14; ymd 2021 9 20; ymd 2021 9 21; ymd 2021 10 1; ymd 2021 10 4; ymd 2021 10 5;
     ymd 2021 10 6; ymd 2021 10 7; ymd 2022 1 3; ymd 2022 2 1; ymd 2022 2 2; ymd 2022 2 3;
     ymd 2022 2 4; ymd 2022 4 5; ymd 2022 6 3; ymd 2022 10 3; ymd 2022 10 4; ymd 2022 10 5;
     ymd 2023 1 2; ymd 2023 1 23; ymd 2023 1 24; ymd 2023 1 25; ymd 2023 1 26; ymd 2023 1 27;
     ymd 2023 4 5; ymd 2023 5 1; ymd 2023 6 22; ymd 2023 9 29; ymd 2023 10 2; ymd 2023 10 3;
     ymd 2023 10 4; ymd 2023 10 5; ymd 2024 1 1; ymd 2024 2 12; ymd 2024 2 13; ymd 2024 2 14;
     ymd 2024 2 15; ymd 2024 4 4; ymd 2024 5 1; ymd 2024 6 10; ymd 2024 9 17; ymd 2024 10 1;
     ymd 2024 10 2; ymd 2024 10 3; ymd 2024 10 4; ymd 2025 1 1; ymd 2025 1 29; ymd 2025 1 30;
     ymd 2025 1 31; ymd 2025 2 3; ymd 2025 4 4; ymd 2025 5 1; ymd 2025 10 1; ymd 2025 10 2;
     ymd 2025 10 3; ymd 2025 10 4].
(** exchange_calendar_xshg.py:501-503 *)
Definition open_times : list (option Z * time) := [(None, Time 9 31 0)].
(** exchange_calendar_xshg.py:504-506 *)
Definition close_times : list (option Z * time) := [(None, Time 15 0 0)].
(** exchange_calendar_xshg.py:509-510 *)
Definition precomputed_holidays : list Z := precomputed_shanghai_holidays.

(** exchange_calendar_xshg.py:485-510 [XSHGExchangeCalendar]; attributes not set in the class are the defaults of
    trading_calendar.py:203-366. *)
Definition calendar : exchange :=
  Exchange "Asia/Shanghai"%string weekmask_default
    []
    precomputed_holidays
    open_times None None close_times
    0 0
    [] [] [] [].
