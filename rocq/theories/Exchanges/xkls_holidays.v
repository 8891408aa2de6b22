(** Transcribed from trading_calendars/xkls_holidays.py by tools/translate.py; dates are day
    numbers. *)
From Coq Require Import ZArith String List Bool.
From Verif.Model Require Import Dates Zone Build Holidays Exchange.
From Verif.Exchanges Require common_holidays lunisolar_holidays.
Import ListNotations.
Open Scope Z_scope.

(** xkls_holidays.py:20-58 *)
Definition malaysia_nuzul_al_quran : list Z :=
  [ymd 2014 7 15; ymd 2015 7 4; ymd 2016 6 22; ymd 2017 6 12; ymd 2018 6 2; ymd 2019 5 22;
     ymd 2020 5 10; ymd 2021 4 29; ymd 2022 4 18; ymd 2023 4 8; ymd 2024 3 27; ymd 2025 3 17;
     ymd 2026 3 6; ymd 2027 2 24; ymd 2028 2 13; ymd 2029 2 1; ymd 2030 1 21; ymd 2031 1 11;
     ymd 2031 12 31; ymd 2032 12 20; ymd 2033 12 9; ymd 2034 11 28; ymd 2035 11 17;
     ymd 2036 11 5; ymd 2037 10 26; ymd 2038 10 16; ymd 2039 10 5; ymd 2040 9 23;
     ymd 2041 9 13; ymd 2042 9 2; ymd 2043 8 22; ymd 2044 8 11; ymd 2045 7 31; ymd 2046 7 21;
     ymd 2047 7 10; ymd 2048 6 28; ymd 2049 6 18].
(** xkls_holidays.py:61-133 *)
Definition muharram : list Z :=
  [ymd 1980 11 9; ymd 1981 10 28; ymd 1982 10 18; ymd 1983 10 7; ymd 1984 9 26; ymd 1985 9 15;
     ymd 1986 9 5; ymd 1987 8 25; ymd 1988 8 13; ymd 1989 8 2; ymd 1990 7 23; ymd 1991 7 12;
     ymd 1992 7 1; ymd 1993 6 21; ymd 1994 6 10; ymd 1995 5 30; ymd 1996 5 18; ymd 1997 5 7;
     ymd 1998 4 27; ymd 1999 4 17; ymd 2000 4 6; ymd 2001 3 26; ymd 2002 3 15; ymd 2003 3 4;
     ymd 2004 2 22; ymd 2005 2 11; ymd 2006 2 1; ymd 2007 1 20; ymd 2008 1 10; ymd 2008 12 29;
     ymd 2009 12 18; ymd 2010 12 7; ymd 2011 11 27; ymd 2012 11 15; ymd 2013 11 5;
     ymd 2014 10 25; ymd 2015 10 14; ymd 2016 10 2; ymd 2017 9 22; ymd 2018 9 11;
     ymd 2019 9 1; ymd 2020 8 20; ymd 2021 8 9; ymd 2022 7 30; ymd 2023 7 19; ymd 2024 7 7;
     ymd 2025 6 26; ymd 2026 6 16; ymd 2027 6 6; ymd 2028 5 25; ymd 2029 5 14; ymd 2030 5 3;
     ymd 2031 4 23; ymd 2032 4 11; ymd 2033 4 1; ymd 2034 3 21; ymd 2035 3 11; ymd 2036 2 28;
     ymd 2037 2 16; ymd 2038 2 5; ymd 2039 1 26; ymd 2040 1 15; ymd 2041 1 4; ymd 2041 12 24;
     ymd 2042 12 14; ymd 2043 12 3; ymd 2044 11 21; ymd 2045 11 10; ymd 2046 10 31;
     ymd 2047 10 20; ymd 2048 10 9].
(** xkls_holidays.py:137-208 *)
Definition muhammad_birthday : list Z :=
  [ymd 1981 1 18; ymd 1982 1 7; ymd 1982 12 27; ymd 1983 12 16; ymd 1984 12 4; ymd 1985 11 24;
     ymd 1986 11 14; ymd 1987 11 3; ymd 1988 10 22; ymd 1989 10 11; ymd 1990 10 1;
     ymd 1991 9 20; ymd 1992 9 9; ymd 1993 8 29; ymd 1994 8 19; ymd 1995 8 8; ymd 1996 7 27;
     ymd 1997 7 16; ymd 1998 7 6; ymd 1999 6 26; ymd 2000 6 14; ymd 2001 6 4; ymd 2002 5 27;
     ymd 2003 5 14; ymd 2004 5 3; ymd 2005 4 21; ymd 2006 4 11; ymd 2007 3 31; ymd 2008 3 20;
     ymd 2009 3 9; ymd 2010 2 26; ymd 2011 2 15; ymd 2012 2 6; ymd 2013 1 24; ymd 2014 1 14;
     ymd 2015 12 24; ymd 2016 12 11; ymd 2017 12 1; ymd 2018 11 20; ymd 2019 11 9;
     ymd 2020 10 29; ymd 2021 10 18; ymd 2022 10 8; ymd 2023 9 27; ymd 2024 9 15;
     ymd 2025 9 4; ymd 2026 8 25; ymd 2027 8 14; ymd 2028 8 3; ymd 2029 7 24; ymd 2030 7 13;
     ymd 2031 7 2; ymd 2032 6 20; ymd 2033 6 9; ymd 2034 5 30; ymd 2035 5 20; ymd 2036 5 8;
     ymd 2037 4 28; ymd 2038 4 17; ymd 2039 4 6; ymd 2040 3 25; ymd 2041 3 15; ymd 2042 3 4;
     ymd 2043 2 22; ymd 2044 2 11; ymd 2045 1 30; ymd 2046 1 19; ymd 2047 1 8; ymd 2047 12 29;
     ymd 2048 12 18].
(** xkls_holidays.py:211-283 *)
Definition malaysia_eid_al_fitr_first_day : list Z :=
  [ymd 1981 8 1; ymd 1982 7 21; ymd 1983 7 11; ymd 1984 6 30; ymd 1985 6 19; ymd 1986 6 8;
     ymd 1987 5 28; ymd 1988 5 16; ymd 1989 5 6; ymd 1990 4 26; ymd 1991 4 15; ymd 1992 4 4;
     ymd 1993 3 24; ymd 1994 3 13; ymd 1995 3 2; ymd 1996 2 19; ymd 1997 2 8; ymd 1998 1 29;
     ymd 1999 1 18; ymd 2000 1 8; ymd 2000 12 27; ymd 2001 12 16; ymd 2002 12 5;
     ymd 2003 11 25; ymd 2004 11 14; ymd 2005 11 3; ymd 2006 10 23; ymd 2007 10 13;
     ymd 2008 10 1; ymd 2009 9 20; ymd 2010 9 10; ymd 2011 8 30; ymd 2012 8 19; ymd 2013 8 8;
     ymd 2014 7 28; ymd 2015 7 17; ymd 2016 7 6; ymd 2017 6 25; ymd 2018 6 15; ymd 2019 6 5;
     ymd 2020 5 24; ymd 2021 5 13; ymd 2022 5 2; ymd 2023 4 21; ymd 2024 4 10; ymd 2025 3 30;
     ymd 2026 3 20; ymd 2027 3 9; ymd 2028 2 26; ymd 2029 2 14; ymd 2030 2 4; ymd 2031 1 24;
     ymd 2032 1 14; ymd 2033 1 2; ymd 2033 12 23; ymd 2034 12 12; ymd 2035 12 1;
     ymd 2036 11 19; ymd 2037 11 8; ymd 2038 10 29; ymd 2039 10 19; ymd 2040 10 7;
     ymd 2041 9 26; ymd 2042 9 15; ymd 2043 9 4; ymd 2044 8 24; ymd 2045 8 14; ymd 2046 8 3;
     ymd 2047 7 24; ymd 2048 7 12; ymd 2049 7 1].
(** xkls_holidays.py:286-358 *)
Definition malaysia_eid_al_adha : list Z :=
  [ymd 1981 10 8; ymd 1982 9 27; ymd 1983 9 17; ymd 1984 9 5; ymd 1985 8 26; ymd 1986 8 15;
     ymd 1987 8 4; ymd 1988 7 23; ymd 1989 7 13; ymd 1990 7 2; ymd 1991 6 22; ymd 1992 6 11;
     ymd 1993 5 31; ymd 1994 5 20; ymd 1995 5 9; ymd 1996 4 27; ymd 1997 4 17; ymd 1998 4 7;
     ymd 1999 3 27; ymd 2000 3 16; ymd 2001 3 5; ymd 2002 2 23; ymd 2003 2 12; ymd 2004 2 3;
     ymd 2005 1 21; ymd 2006 1 10; ymd 2007 1 2; ymd 2007 12 20; ymd 2008 12 8;
     ymd 2009 11 27; ymd 2010 11 17; ymd 2011 11 6; ymd 2012 10 26; ymd 2013 10 15;
     ymd 2014 10 5; ymd 2015 9 24; ymd 2016 9 12; ymd 2017 9 1; ymd 2018 8 22; ymd 2019 8 11;
     ymd 2020 7 31; ymd 2021 7 20; ymd 2022 7 9; ymd 2023 6 28; ymd 2024 6 16; ymd 2025 6 6;
     ymd 2026 5 27; ymd 2027 5 16; ymd 2028 5 5; ymd 2029 4 24; ymd 2030 4 13; ymd 2031 4 2;
     ymd 2032 3 22; ymd 2033 3 11; ymd 2034 3 1; ymd 2035 2 18; ymd 2036 2 7; ymd 2037 1 26;
     ymd 2038 1 16; ymd 2039 1 5; ymd 2039 12 26; ymd 2040 12 14; ymd 2041 12 4;
     ymd 2042 11 23; ymd 2043 11 12; ymd 2044 10 31; ymd 2045 10 21; ymd 2046 10 10;
     ymd 2047 9 30; ymd 2048 9 19; ymd 2049 9 8].
(** xkls_holidays.py:361-377 *)
Definition deepavali : list Z :=
  [ymd 2002 11 4; ymd 2003 10 24; ymd 2004 11 11; ymd 2004 11 12; ymd 2005 11 1;
     ymd 2007 11 8; ymd 2008 10 27; ymd 2010 11 5; ymd 2011 10 26; ymd 2012 11 13;
     ymd 2014 10 22; ymd 2015 11 10; ymd 2017 10 18; ymd 2018 11 6; ymd 2019 10 28].
(** xkls_holidays.py:380-393 *)
Definition thaipusam : list Z :=
  [ymd 2008 1 23; ymd 2009 2 9; ymd 2010 1 30; ymd 2011 1 20; ymd 2012 2 7; ymd 2013 1 28;
     ymd 2014 1 17; ymd 2015 2 3; ymd 2016 1 25; ymd 2017 2 9; ymd 2018 1 31; ymd 2019 1 21].
(** xkls_holidays.py:396-412 *)
Definition wesak_day : list Z :=
  [ymd 2003 5 15; ymd 2004 5 4; ymd 2005 5 23; ymd 2006 5 12; ymd 2007 5 2; ymd 2008 5 19;
     ymd 2010 5 28; ymd 2011 5 17; ymd 2013 5 24; ymd 2014 5 13; ymd 2015 5 4; ymd 2017 5 10;
     ymd 2018 5 29; ymd 2019 5 20; ymd 2020 5 7].
(** xkls_holidays.py:414-437 *)
Definition misc_adhoc : list Z :=
  [ymd 2019 9 9; ymd 2019 7 30; ymd 2018 9 10; ymd 2018 5 11; ymd 2018 5 10; ymd 2018 5 9;
     ymd 2017 9 4; ymd 2017 4 24; ymd 2014 2 3; ymd 2012 4 11; ymd 2011 9 1; ymd 2010 12 31;
     ymd 2008 7 3; ymd 2007 4 26; ymd 2006 10 25; ymd 2006 2 2; ymd 2004 1 21; ymd 2003 11 24;
     ymd 2003 2 4; ymd 2003 1 31; ymd 2002 4 25; ymd 2002 2 11].
(** xkls_holidays.py:440 *)
Definition NewYearsDay : rule :=
  common_holidays.new_years_day None None (Some Sunday_to_monday) None.
(** xkls_holidays.py:442 *)
Definition Thaipusam : list Z := thaipusam.
(** xkls_holidays.py:444-449 *)
Definition FederalTerritoryDay : rule := Holiday 2 1 [] (Some Sunday_to_monday) None None None.
(** xkls_holidays.py:451-455 *)
Definition ChineseNewYear : list Z :=
  map sunday_to_monday lunisolar_holidays.chinese_lunar_new_year_dates.
(** xkls_holidays.py:457-459 *)
Definition ChineseNewYearDay2 : list Z := map sunday_to_monday (shift 1 ChineseNewYear).
(** xkls_holidays.py:461 *)
Definition LabourDay : rule :=
  common_holidays.european_labour_day None None (Some Sunday_to_monday) None.
(** xkls_holidays.py:463 *)
Definition WesakDay : list Z := wesak_day.
(** xkls_holidays.py:465-467 *)
Definition NuzulAlQuran : list Z := map sunday_to_monday malaysia_nuzul_al_quran.
(** xkls_holidays.py:469-473 *)
Definition EidAlFitrDay1 : list Z := map sunday_to_monday malaysia_eid_al_fitr_first_day.
(** xkls_holidays.py:475-477 *)
Definition EidAlFitrDay2 : list Z := map sunday_to_monday (shift 1 EidAlFitrDay1).
(** xkls_holidays.py:479-481 *)
Definition EidAlAdha : list Z := map sunday_to_monday malaysia_eid_al_adha.
(** xkls_holidays.py:483-488 *)
Definition NationalDay : rule := Holiday 8 31 [] (Some Sunday_to_monday) None None None.
(** xkls_holidays.py:490-492 *)
Definition Muharram : list Z := map sunday_to_monday muharram.
(** xkls_holidays.py:494-500 *)
Definition MalaysiaDay : rule :=
  Holiday 9 16 [] (Some Sunday_to_monday) (Some (ymd 2010 1 1)) None None.
(** xkls_holidays.py:502 *)
Definition Deepavali : list Z := deepavali.
(** xkls_holidays.py:504-506 *)
Definition MuhammadBirthday : list Z := map sunday_to_monday muhammad_birthday.
(** xkls_holidays.py:508 *)
Definition ChristmasDay : rule :=
  common_holidays.christmas None None (Some Sunday_to_monday) None.
(** xkls_holidays.py:511 *)
Definition ChineseNewYearsEve : list Z := shift (-1) ChineseNewYear.
(** xkls_holidays.py:513-515 *)
Definition ChineseNewYearsHalfDay : list Z :=
  filter (fun day => negb (memb (weekday day) WEEKENDS)) ChineseNewYearsEve.
(** xkls_holidays.py:517 *)
Definition EidAlFitrEve : list Z := shift (-1) EidAlFitrDay1.
(** xkls_holidays.py:519-521 *)
Definition EidAlFitrHalfDay : list Z :=
  filter (fun day => negb (memb (weekday day) WEEKENDS)) EidAlFitrEve.
