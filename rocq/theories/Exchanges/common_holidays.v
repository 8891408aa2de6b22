(** Transcribed from trading_calendars/common_holidays.py by tools/translate.py; dates are day
    numbers. *)
From Coq Require Import ZArith String List Bool.
From Verif.Model Require Import Dates Zone Build Holidays Exchange.
Import ListNotations.
Open Scope Z_scope.

(** common_holidays.py:8-20 *)
Definition new_years_day (start_date : option Z) (end_date : option Z) (observance : option observance) (days_of_week : option (list Z)) : rule :=
  Holiday 1 1 [] observance start_date end_date days_of_week.
(** common_holidays.py:23-35 *)
Definition new_years_eve (start_date : option Z) (end_date : option Z) (observance : option observance) (days_of_week : option (list Z)) : rule :=
  Holiday 12 31 [] observance start_date end_date days_of_week.
(** common_holidays.py:38-50 *)
Definition epiphany (start_date : option Z) (end_date : option Z) (observance : option observance) (days_of_week : option (list Z)) : rule :=
  Holiday 1 6 [] observance start_date end_date days_of_week.
(** common_holidays.py:53-65 *)
Definition anzac_day (start_date : option Z) (end_date : option Z) (observance : option observance) (days_of_week : option (list Z)) : rule :=
  Holiday 4 25 [] observance start_date end_date days_of_week.
(** common_holidays.py:68-80 *)
Definition european_labour_day (start_date : option Z) (end_date : option Z) (observance : option observance) (days_of_week : option (list Z)) : rule :=
  Holiday 5 1 [] observance start_date end_date days_of_week.
(** common_holidays.py:87-96 *)
Definition holy_wednesday (start_date : option Z) (end_date : option Z) (days_of_week : option (list Z)) : rule :=
  Holiday 1 1 [Easter; Day (-4)] None start_date end_date days_of_week.
(** common_holidays.py:99-108 *)
Definition maundy_thursday (start_date : option Z) (end_date : option Z) (days_of_week : option (list Z)) : rule :=
  Holiday 1 1 [Easter; Day (-3)] None start_date end_date days_of_week.
(** common_holidays.py:111-119 *)
Definition ascension_day (start_date : option Z) (end_date : option Z) : rule :=
  Holiday 1 1 [Easter; Day 39] None start_date end_date None.
(** common_holidays.py:122-130 *)
Definition whit_monday (start_date : option Z) (end_date : option Z) : rule :=
  Holiday 1 1 [Easter; Day 50] None start_date end_date None.
(** common_holidays.py:133-141 *)
Definition corpus_christi (start_date : option Z) (end_date : option Z) : rule :=
  Holiday 1 1 [Easter; Day 60] None start_date end_date None.
(** common_holidays.py:144-152 *)
Definition midsummer_eve (start_date : option Z) (end_date : option Z) : rule :=
  Holiday 6 19 [NthWeekday FRIDAY 1] None start_date end_date None.
(** common_holidays.py:155-167 *)
Definition saint_peter_and_saint_paul_day (start_date : option Z) (end_date : option Z) (observance : option observance) (days_of_week : option (list Z)) : rule :=
  Holiday 6 29 [] observance start_date end_date days_of_week.
(** common_holidays.py:170-182 *)
Definition assumption_day (start_date : option Z) (end_date : option Z) (observance : option observance) (days_of_week : option (list Z)) : rule :=
  Holiday 8 15 [] observance start_date end_date days_of_week.
(** common_holidays.py:185-197 *)
Definition all_saints_day (start_date : option Z) (end_date : option Z) (observance : option observance) (days_of_week : option (list Z)) : rule :=
  Holiday 11 1 [] observance start_date end_date days_of_week.
(** common_holidays.py:200-212 *)
Definition immaculate_conception (start_date : option Z) (end_date : option Z) (observance : option observance) (days_of_week : option (list Z)) : rule :=
  Holiday 12 8 [] observance start_date end_date days_of_week.
(** common_holidays.py:215-227 *)
Definition christmas_eve (start_date : option Z) (end_date : option Z) (observance : option observance) (days_of_week : option (list Z)) : rule :=
  Holiday 12 24 [] observance start_date end_date days_of_week.
(** common_holidays.py:230-242 *)
Definition christmas (start_date : option Z) (end_date : option Z) (observance : option observance) (days_of_week : option (list Z)) : rule :=
  Holiday 12 25 [] observance start_date end_date days_of_week.
(** common_holidays.py:245-258 *)
Definition weekend_christmas (start_date : option Z) (end_date : option Z) (observance : option observance) : rule :=
  Holiday 12 27 [] observance start_date end_date (Some [MONDAY; TUESDAY]).
(** common_holidays.py:261-273 *)
Definition boxing_day (start_date : option Z) (end_date : option Z) (observance : option observance) (days_of_week : option (list Z)) : rule :=
  Holiday 12 26 [] observance start_date end_date days_of_week.
(** common_holidays.py:276-289 *)
Definition weekend_boxing_day (start_date : option Z) (end_date : option Z) (observance : option observance) : rule :=
  Holiday 12 28 [] observance start_date end_date (Some [MONDAY; TUESDAY]).
(** common_holidays.py:296-368 *)
Definition eid_al_fitr_first_day : list Z :=
  [ymd 1981 8 1; ymd 1982 7 21; ymd 1983 7 11; ymd 1984 6 30; ymd 1985 6 19; ymd 1986 6 8;
     ymd 1987 5 28; ymd 1988 5 16; ymd 1989 5 6; ymd 1990 4 26; ymd 1991 4 15; ymd 1992 4 4;
     ymd 1993 3 24; ymd 1994 3 13; ymd 1995 3 2; ymd 1996 2 19; ymd 1997 2 8; ymd 1998 1 29;
     ymd 1999 1 18; ymd 2000 1 8; ymd 2000 12 27; ymd 2001 12 16; ymd 2002 12 5;
     ymd 2003 11 25; ymd 2004 11 14; ymd 2005 11 3; ymd 2006 10 23; ymd 2007 10 12;
     ymd 2008 9 30; ymd 2009 9 20; ymd 2010 9 9; ymd 2011 8 30; ymd 2012 8 19; ymd 2013 8 8;
     ymd 2014 7 28; ymd 2015 7 17; ymd 2016 7 5; ymd 2017 6 25; ymd 2018 6 15; ymd 2019 6 4;
     ymd 2020 5 24; ymd 2021 5 13; ymd 2022 5 2; ymd 2023 4 21; ymd 2024 4 10; ymd 2025 3 30;
     ymd 2026 3 20; ymd 2027 3 9; ymd 2028 2 26; ymd 2029 2 14; ymd 2030 2 4; ymd 2031 1 24;
     ymd 2032 1 14; ymd 2033 1 2; ymd 2033 12 23; ymd 2034 12 12; ymd 2035 12 1;
     ymd 2036 11 19; ymd 2037 11 8; ymd 2038 10 29; ymd 2039 10 19; ymd 2040 10 7;
     ymd 2041 9 26; ymd 2042 9 15; ymd 2043 9 4; ymd 2044 8 24; ymd 2045 8 14; ymd 2046 8 3;
     ymd 2047 7 24; ymd 2048 7 12; ymd 2049 7 1].
(** common_holidays.py:374-446 *)
Definition eid_al_adha_first_day : list Z :=
  [ymd 1981 10 8; ymd 1982 9 27; ymd 1983 9 17; ymd 1984 9 5; ymd 1985 8 26; ymd 1986 8 15;
     ymd 1987 8 4; ymd 1988 7 23; ymd 1989 7 13; ymd 1990 7 2; ymd 1991 6 22; ymd 1992 6 11;
     ymd 1993 5 31; ymd 1994 5 20; ymd 1995 5 9; ymd 1996 4 27; ymd 1997 4 17; ymd 1998 4 7;
     ymd 1999 3 27; ymd 2000 3 16; ymd 2001 3 5; ymd 2002 2 22; ymd 2003 2 10; ymd 2004 2 1;
     ymd 2005 1 20; ymd 2006 1 9; ymd 2006 12 31; ymd 2007 12 20; ymd 2008 12 8;
     ymd 2009 11 27; ymd 2010 11 16; ymd 2011 11 6; ymd 2012 10 25; ymd 2013 10 15;
     ymd 2014 10 4; ymd 2015 9 24; ymd 2016 9 12; ymd 2017 9 1; ymd 2018 8 21; ymd 2019 8 11;
     ymd 2020 7 31; ymd 2021 7 20; ymd 2022 7 9; ymd 2023 6 28; ymd 2024 6 16; ymd 2025 6 6;
     ymd 2026 5 27; ymd 2027 5 16; ymd 2028 5 5; ymd 2029 4 24; ymd 2030 4 13; ymd 2031 4 2;
     ymd 2032 3 22; ymd 2033 3 11; ymd 2034 3 1; ymd 2035 2 18; ymd 2036 2 7; ymd 2037 1 26;
     ymd 2038 1 16; ymd 2039 1 5; ymd 2039 12 26; ymd 2040 12 14; ymd 2041 12 4;
     ymd 2042 11 23; ymd 2043 11 12; ymd 2044 10 31; ymd 2045 10 21; ymd 2046 10 10;
     ymd 2047 9 30; ymd 2048 9 19; ymd 2049 9 8].
