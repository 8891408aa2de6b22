(** Transcribed from trading_calendars/xbkk_holidays.py by tools/translate.py; dates are day
    numbers. *)
From Coq Require Import ZArith String List Bool.
From Verif.Model Require Import Dates Zone Build Holidays Exchange.
From Verif.Exchanges Require common_holidays.
Import ListNotations.
Open Scope Z_scope.

(** xbkk_holidays.py:40 *)
Definition NewYearsDay : rule :=
  common_holidays.new_years_day None None (Some Xbkk_new_years_day) None.
(** xbkk_holidays.py:42-47 *)
Definition ChakriMemorialDay : rule := Holiday 4 6 [] (Some Weekend_to_monday) None None None.
(** xbkk_holidays.py:50 *)
Definition SongkranFestival1 : rule := Holiday 4 13 [] None None None None.
(** xbkk_holidays.py:51-56 *)
Definition SongkranFestival2 : rule := Holiday 4 14 [] (Some Sunday_to_monday) None None None.
(** xbkk_holidays.py:57-62 *)
Definition SongkranFestival3 : rule :=
  Holiday 4 15 [] (Some Songkran_festival_last_day) None None None.
(** xbkk_holidays.py:64 *)
Definition LabourDay : rule :=
  common_holidays.european_labour_day None None (Some Weekend_to_monday) None.
(** xbkk_holidays.py:66-72 *)
Definition CoronationDay2016AndBefore : rule :=
  Holiday 5 5 [] (Some Weekend_to_monday) None (Some (ymd 2017 1 1)) None.
(** xbkk_holidays.py:73-79 *)
Definition CoronationDay2019AndAfter : rule :=
  Holiday 5 4 [] (Some Weekend_to_monday) (Some (ymd 2019 1 1)) None None.
(** xbkk_holidays.py:81-87 *)
Definition HMQueensBirthday : rule :=
  Holiday 6 3 [] (Some Weekend_to_monday) (Some (ymd 2019 1 1)) None None.
(** xbkk_holidays.py:88-94 *)
Definition HMKingsBirthday : rule :=
  Holiday 7 28 [] (Some Weekend_to_monday) (Some (ymd 2017 1 1)) None None.
(** xbkk_holidays.py:95-100 *)
Definition HMQueenMothersBirthday : rule :=
  Holiday 8 12 [] (Some Weekend_to_monday) None None None.
(** xbkk_holidays.py:104-110 *)
Definition HalfYearHoliday : rule :=
  Holiday 7 1 [] None (Some (ymd 2002 1 1)) (Some (ymd 2017 1 1)) None.
(** xbkk_holidays.py:112-118 *)
Definition ThePassingOfKingBhumibol : rule :=
  Holiday 10 13 [] (Some Weekend_to_monday) (Some (ymd 2017 1 1)) None None.
(** xbkk_holidays.py:120-125 *)
Definition ChulalongkornDay : rule := Holiday 10 23 [] (Some Weekend_to_monday) None None None.
(** xbkk_holidays.py:127-132 *)
Definition KingBhumibolsBirthday : rule :=
  Holiday 12 5 [] (Some Weekend_to_monday) None None None.
(** xbkk_holidays.py:134-139 *)
Definition ThailandConstitutionDay : rule :=
  Holiday 12 10 [] (Some Weekend_to_monday) None None None.
(** xbkk_holidays.py:141 *)
Definition NewYearsEve : rule :=
  common_holidays.new_years_eve None None (Some (Weekend_to_monday_except [2003])) None.
(** xbkk_holidays.py:146-152 *)
Definition new_years_bridge_days : list Z :=
  [ymd 2002 12 30; ymd 2004 1 2; ymd 2009 1 2; ymd 2013 12 30; ymd 2015 1 2].
(** xbkk_holidays.py:154-157 *)
Definition asanha_bucha_bridge_days : list Z := [ymd 2009 7 6; ymd 2016 7 18].
(** xbkk_holidays.py:159-162 *)
Definition queens_birthday_bridge_days : list Z := [ymd 2010 8 13; ymd 2014 8 11].
(** xbkk_holidays.py:164-167 *)
Definition coronation_bridge_days : list Z := [ymd 2015 5 4; ymd 2016 5 6].
(** xbkk_holidays.py:169-171 *)
Definition vesak_bridge_days : list Z := [ymd 2011 5 16].
(** xbkk_holidays.py:173-183 *)
Definition misc_adhoc : list Z :=
  [ymd 2006 4 19; ymd 2006 6 12; ymd 2006 6 13; ymd 2006 9 20; ymd 2007 12 24; ymd 2010 5 20;
     ymd 2010 5 21; ymd 2012 4 9; ymd 2017 10 26].
(** xbkk_holidays.py:191-232 *)
Definition makha_bucha : list Z :=
  [ymd 1981 2 18; ymd 1982 2 8; ymd 1983 2 27; ymd 1984 2 16; ymd 1985 3 6; ymd 1986 2 24;
     ymd 1987 2 13; ymd 1988 3 3; ymd 1989 2 20; ymd 1990 2 9; ymd 1991 2 28; ymd 1992 2 18;
     ymd 1993 3 8; ymd 1994 2 25; ymd 1995 2 15; ymd 1996 3 5; ymd 1997 2 22; ymd 1998 2 11;
     ymd 1999 3 2; ymd 2000 2 19; ymd 2001 2 8; ymd 2002 2 26; ymd 2003 2 17; ymd 2004 3 5;
     ymd 2005 2 23; ymd 2006 2 13; ymd 2007 3 5; ymd 2008 2 21; ymd 2009 2 9; ymd 2010 3 1;
     ymd 2011 2 18; ymd 2012 3 7; ymd 2013 2 25; ymd 2014 2 14; ymd 2015 3 4; ymd 2016 2 22;
     ymd 2017 2 13; ymd 2018 3 1; ymd 2019 2 19; ymd 2020 2 10].
(** xbkk_holidays.py:236-277 *)
Definition vesak : list Z :=
  [ymd 1981 5 18; ymd 1982 5 7; ymd 1983 5 26; ymd 1984 5 15; ymd 1985 6 2; ymd 1986 5 23;
     ymd 1987 5 13; ymd 1988 5 31; ymd 1989 5 20; ymd 1990 5 9; ymd 1991 5 28; ymd 1992 5 16;
     ymd 1993 6 4; ymd 1994 5 24; ymd 1995 5 14; ymd 1996 6 1; ymd 1997 5 22; ymd 1998 5 11;
     ymd 1999 5 30; ymd 2000 5 18; ymd 2001 5 7; ymd 2002 5 27; ymd 2003 5 15; ymd 2004 6 2;
     ymd 2005 5 23; ymd 2006 5 12; ymd 2007 5 31; ymd 2008 5 19; ymd 2009 5 8; ymd 2010 5 28;
     ymd 2011 5 17; ymd 2012 6 4; ymd 2013 5 24; ymd 2014 5 13; ymd 2015 6 1; ymd 2016 5 20;
     ymd 2017 5 10; ymd 2018 5 29; ymd 2019 5 20; ymd 2020 5 6].
(** xbkk_holidays.py:281-322 *)
Definition asanha_bucha : list Z :=
  [ymd 1981 7 17; ymd 1982 7 6; ymd 1983 7 24; ymd 1984 7 12; ymd 1985 7 31; ymd 1986 7 21;
     ymd 1987 7 10; ymd 1988 7 28; ymd 1989 7 18; ymd 1990 7 7; ymd 1991 7 26; ymd 1992 7 14;
     ymd 1993 8 2; ymd 1994 7 22; ymd 1995 7 12; ymd 1996 7 30; ymd 1997 7 19; ymd 1998 7 9;
     ymd 1999 7 28; ymd 2000 7 16; ymd 2001 7 5; ymd 2002 7 25; ymd 2003 7 14; ymd 2004 8 2;
     ymd 2005 7 22; ymd 2006 7 11; ymd 2007 7 30; ymd 2008 7 17; ymd 2009 7 7; ymd 2010 7 26;
     ymd 2011 7 15; ymd 2012 8 2; ymd 2013 7 22; ymd 2014 7 11; ymd 2015 7 30; ymd 2016 7 19;
     ymd 2017 7 10; ymd 2018 7 27; ymd 2019 7 16; ymd 2020 7 6].
