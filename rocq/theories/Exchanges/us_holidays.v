(** Transcribed from trading_calendars/us_holidays.py by tools/translate.py; dates are day
    numbers. *)
From Coq Require Import ZArith String List Bool.
From Verif.Model Require Import Dates Zone Build Holidays Exchange.
From Verif.Exchanges Require common_holidays.
Import ListNotations.
Open Scope Z_scope.

(** us_holidays.py:49-56 *)
Definition ChristmasEveBefore1993 : rule :=
  Holiday 12 24 [] None None (Some (ymd 1993 1 1)) (Some [MONDAY; TUESDAY; WEDNESDAY;
     THURSDAY]).
(** us_holidays.py:57-64 *)
Definition ChristmasEveInOrAfter1993 : rule :=
  Holiday 12 24 [] None (Some (ymd 1993 1 1)) None (Some [MONDAY; TUESDAY; WEDNESDAY;
     THURSDAY]).
(** us_holidays.py:65-69 *)
Definition USNewYearsDay : rule :=
  common_holidays.new_years_day None None (Some Sunday_to_monday) None.
(** us_holidays.py:70-77 *)
Definition USMartinLutherKingJrAfter1998 : rule :=
  Holiday 1 1 [NthWeekday MONDAY 3] None (Some (ymd 1998 1 1)) None None.
(** us_holidays.py:78-85 *)
Definition USLincolnsBirthDayBefore1954 : rule :=
  Holiday 2 12 [] (Some Sunday_to_monday) (Some (ymd 1874 1 1)) (Some (ymd 1953 12 31)) None.
(** us_holidays.py:86-93 *)
Definition USWashingtonsBirthDayBefore1964 : rule :=
  Holiday 2 22 [] (Some Sunday_to_monday) (Some (ymd 1880 1 1)) (Some (ymd 1963 12 31)) None.
(** us_holidays.py:94-101 *)
Definition USWashingtonsBirthDay1964to1970 : rule :=
  Holiday 2 22 [] (Some Nearest_workday) (Some (ymd 1964 1 1)) (Some (ymd 1970 12 31)) None.
(** us_holidays.py:102-108 *)
Definition USPresidentsDay : rule :=
  Holiday 2 1 [NthWeekday MONDAY 3] None (Some (ymd 1971 1 1)) None None.
(** us_holidays.py:110-117 *)
Definition USThanksgivingDayBefore1939 : rule :=
  Holiday 11 30 [NthWeekday THURSDAY (-1)] None (Some (ymd 1864 1 1)) (Some (ymd 1938 12 31)) None.
(** us_holidays.py:119-126 *)
Definition USThanksgivingDay1939to1941 : rule :=
  Holiday 11 30 [NthWeekday THURSDAY (-2)] None (Some (ymd 1939 1 1)) (Some (ymd 1941 12 31)) None.
(** us_holidays.py:127-133 *)
Definition USThanksgivingDay : rule :=
  Holiday 11 1 [NthWeekday THURSDAY 4] None (Some (ymd 1942 1 1)) None None.
(** us_holidays.py:135-141 *)
Definition USMemorialDayBefore1964 : rule :=
  Holiday 5 30 [] (Some Sunday_to_monday) None (Some (ymd 1963 12 31)) None.
(** us_holidays.py:142-149 *)
Definition USMemorialDay1964to1969 : rule :=
  Holiday 5 30 [] (Some Nearest_workday) (Some (ymd 1964 1 1)) (Some (ymd 1969 12 31)) None.
(** us_holidays.py:150-158 *)
Definition USMemorialDay : rule :=
  Holiday 5 25 [NthWeekday MONDAY 1] None (Some (ymd 1971 1 1)) None None.
(** us_holidays.py:160-166 *)
Definition USIndependenceDayBefore1954 : rule :=
  Holiday 7 4 [] (Some Sunday_to_monday) None (Some (ymd 1953 12 31)) None.
(** us_holidays.py:167-173 *)
Definition USIndependenceDay : rule :=
  Holiday 7 4 [] (Some Nearest_workday) (Some (ymd 1954 1 1)) None None.
(** us_holidays.py:175-182 *)
Definition USElectionDay1848to1967 : rule :=
  Holiday 11 2 [NthWeekday TUESDAY 1] None (Some (ymd 1848 1 1)) (Some (ymd 1967 12 31)) None.
(** us_holidays.py:183-190 *)
Definition USElectionDay1968to1980 : rule :=
  Holiday 11 2 [] (Some Following_tuesday_every_four_years) (Some (ymd 1968 1 1)) (Some (ymd 1980 12 31)) None.
(** us_holidays.py:191-198 *)
Definition USVeteransDay1934to1953 : rule :=
  Holiday 11 11 [] (Some Sunday_to_monday) (Some (ymd 1934 1 1)) (Some (ymd 1953 12 31)) None.
(** us_holidays.py:199-205 *)
Definition USColumbusDayBefore1954 : rule :=
  Holiday 10 12 [] (Some Sunday_to_monday) None (Some (ymd 1953 12 31)) None.
(** us_holidays.py:206-212 *)
Definition ChristmasBefore1954 : rule :=
  Holiday 12 25 [] (Some Sunday_to_monday) None (Some (ymd 1953 12 31)) None.
(** us_holidays.py:213-219 *)
Definition Christmas : rule :=
  Holiday 12 25 [] (Some Nearest_workday) (Some (ymd 1954 1 1)) None None.
(** us_holidays.py:223-231 *)
Definition MonTuesThursBeforeIndependenceDay : rule :=
  Holiday 7 3 [] None (Some (ymd 1995 1 1)) None (Some [MONDAY; TUESDAY; THURSDAY]).
(** us_holidays.py:232-241 *)
Definition FridayAfterIndependenceDayPre2013 : rule :=
  Holiday 7 5 [] None (Some (ymd 1995 1 1)) (Some (ymd 2013 1 1)) (Some [FRIDAY]).
(** us_holidays.py:242-250 *)
Definition WednesdayBeforeIndependenceDayPost2013 : rule :=
  Holiday 7 3 [] None (Some (ymd 2013 1 1)) None (Some [WEDNESDAY]).
(** us_holidays.py:251-259 *)
Definition USBlackFridayBefore1993 : rule :=
  Holiday 11 1 [NthWeekday THURSDAY 4;
     Day 1] None (Some (ymd 1992 1 1)) (Some (ymd 1993 1 1)) None.
(** us_holidays.py:260-266 *)
Definition USBlackFridayInOrAfter1993 : rule :=
  Holiday 11 1 [NthWeekday THURSDAY 4; Day 1] None (Some (ymd 1993 1 1)) None None.
(** us_holidays.py:280-283 *)
Definition November29BacklogRelief : list Z := [ymd 1929 11 1; ymd 1929 11 29].
(** us_holidays.py:285-293 *)
Definition March33BankHoliday : list Z :=
  [ymd 1933 3 6; ymd 1933 3 7; ymd 1933 3 8; ymd 1933 3 9; ymd 1933 3 10; ymd 1933 3 13;
     ymd 1933 3 14].
(** us_holidays.py:295-298 *)
Definition August45VictoryOverJapan : list Z := [ymd 1945 8 15; ymd 1945 8 16].
(** us_holidays.py:301-304 *)
Definition ChristmasEvesAdhoc : list Z := [ymd 1945 12 24; ymd 1956 12 24].
(** us_holidays.py:306 *)
Definition DayAfterChristmasAdhoc : list Z := [ymd 1958 12 26].
(** us_holidays.py:308 *)
Definition DayBeforeDecorationAdhoc : list Z := [ymd 1961 5 29].
(** us_holidays.py:310 *)
Definition LincolnsBirthDayAdhoc : list Z := [ymd 1968 2 12].
(** us_holidays.py:312-338 *)
Definition PaperworkCrisis68 : list Z :=
  [ymd 1968 6 12; ymd 1968 6 19; ymd 1968 6 26; ymd 1968 7 10; ymd 1968 7 17; ymd 1968 7 24;
     ymd 1968 7 31; ymd 1968 8 7; ymd 1968 8 14; ymd 1968 8 21; ymd 1968 8 28; ymd 1968 9 11;
     ymd 1968 9 18; ymd 1968 9 25; ymd 1968 10 2; ymd 1968 10 9; ymd 1968 10 16;
     ymd 1968 10 23; ymd 1968 10 30; ymd 1968 11 11; ymd 1968 11 20; ymd 1968 12 4;
     ymd 1968 12 11; ymd 1968 12 18; ymd 1968 12 25].
(** us_holidays.py:340 *)
Definition DayAfterIndependenceDayAdhoc : list Z := [ymd 1968 7 5].
(** us_holidays.py:342 *)
Definition WeatherSnowClosing : list Z := [ymd 1969 2 10].
(** us_holidays.py:344 *)
Definition FirstLunarLandingClosing : list Z := [ymd 1969 7 21].
(** us_holidays.py:346 *)
Definition NewYorkCityBlackout77 : list Z := [ymd 1977 7 14].
(** us_holidays.py:350-355 *)
Definition September11Closings : list Z :=
  [ymd 2001 9 11; ymd 2001 9 12; ymd 2001 9 13; ymd 2001 9 14].
(** us_holidays.py:358-361 *)
Definition HurricaneSandyClosings : list Z := [ymd 2012 10 29; ymd 2012 10 30].
(** us_holidays.py:364 *)
Definition HurricaneGloriaClosing : list Z := [ymd 1985 9 27].
(** us_holidays.py:379-389 *)
Definition USNationalDaysofMourning : list Z :=
  [ymd 1963 11 25; ymd 1968 4 9; ymd 1969 3 31; ymd 1972 12 28; ymd 1973 1 25; ymd 1994 4 27;
     ymd 2004 6 11; ymd 2007 1 2; ymd 2018 12 5].
