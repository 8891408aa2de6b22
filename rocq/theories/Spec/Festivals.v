(** Feasts of the lunar calendars, equinoxes and single closures: the days on which
    each exchange is closed beside the holidays of its almanac (Spec/Almanac.v), in
    calendar terms.  Written from the docstrings and comments of the exchange
    modules in /repo/trading_calendars.  The dates of the lunar feasts are those
    that the modules tabulate. *)
From Coq Require Import ZArith String List.
From Verif.Model Require Import Holidays. (* only the names of the weekdays *)
From Verif.Spec Require Import Civil Rules Feasts Almanac.
From Verif.Exchanges Require common_holidays lunisolar_holidays xkls_holidays xbkk_holidays.
From Verif.Exchanges Require exchange_calendar_xbom exchange_calendar_xkrx exchange_calendar_xses
  exchange_calendar_xshg. (* exchanges whose every holiday is tabulated *)
Import ListNotations.
Open Scope Z_scope.

Definition dated (ds : list Z) : days := fun n => In n ds.
Definition listed (l : list (Z * Z * Z)) : days := fun n =>
  exists y m d, In (y, m, d) l /\ n = date_number y m d.
Definition days_from_to (a b : Z * Z * Z) : days := fun n =>
  let '(y, m, d) := a in let '(y', m', d') := b in date_number y m d <= n <= date_number y' m' d'.

(** The first, second, third day from [a] on for which [P] holds, and the last,
    the last but one up to [a]. *)
Fixpoint nth_from (P : Z -> Prop) (k : nat) (a n : Z) : Prop :=
  match k with
  | O => first_from P a n
  | S k => exists f, first_from P a f /\ nth_from P k (f + 1) n
  end.
Fixpoint nth_until (P : Z -> Prop) (k : nat) (a n : Z) : Prop :=
  match k with
  | O => last_until P a n
  | S k => exists f, last_until P a f /\ nth_until P k (f - 1) n
  end.
Definition weekday_but_sunday (n : Z) : Prop := day_of_week n <> SUNDAY.

(** ** The feasts *)

Definition lunar_new_year := dated lunisolar_holidays.chinese_lunar_new_year_dates.
Definition qingming := dated lunisolar_holidays.qingming_festival_dates.
Definition buddhas_birthday := dated lunisolar_holidays.chinese_buddhas_birthday_dates.
Definition dragon_boat := dated lunisolar_holidays.dragon_boat_festival_dates.
Definition mid_autumn := dated lunisolar_holidays.mid_autumn_festival_dates.
Definition double_ninth := dated lunisolar_holidays.double_ninth_festival_dates.
Definition eid_al_fitr := dated common_holidays.eid_al_fitr_first_day.
Definition eid_al_adha := dated common_holidays.eid_al_adha_first_day.

(** [k] days after Easter Sunday of the eastern churches. *)
Definition orthodox_plus (k : Z) : days := fun n => exists y, is_orthodox_easter y (n - k).

(** The equinoxes in Japan, by the formula in use from 1980 to 2099. *)
Definition equinox (m day0 : Z) : days := fun n =>
  exists y, 1980 <= y <= 2099 /\
    n = date_number y m ((day0 + 242194 * (y - 1980)) / 1000000 - (y - 1980) / 4).
Definition vernal_equinox := equinox 3 20843100.
Definition autumnal_equinox := equinox 9 23248800.

(** ** The exchanges *)

(** The orthodox feasts are known for the years 1980 to 2020. *)
Definition athens_closures : list days :=
  [between 1980 2020 (orthodox_plus (-48));              (* Clean Monday *)
   between 1980 2020 (orthodox_plus (-2)); between 1980 2020 (orthodox_plus 1);
   between 1980 2020 (orthodox_plus 50);                 (* Whit Monday *)
   on [MONDAY; TUESDAY; WEDNESDAY; THURSDAY; FRIDAY]
     (days_from_to (2015, 6, 29) (2015, 7, 31));         (* debt crisis *)
   listed [(2002, 5, 7); (2004, 8, 13); (2008, 3, 4); (2008, 3, 5); (2013, 5, 7); (2014, 12, 31);
           (2016, 5, 3)]].

Definition mourning : days := listed
  [(1963, 11, 25); (1968, 4, 9); (1969, 3, 31); (1972, 12, 28); (1973, 1, 25); (1994, 4, 27);
   (2004, 6, 11); (2007, 1, 2); (2018, 12, 5)].
Definition hurricane_sandy : days := listed [(2012, 10, 29); (2012, 10, 30)].


(** Backlog relief 1929, victory over Japan, eves of holidays, the paperwork crisis of
    1968 (mostly Wednesdays), snow, the first lunar landing, the blackout of 1977 and
    hurricane Gloria. *)
Definition new_york_single_days : days := listed
  [(1929, 11, 1); (1929, 11, 29); (1945, 8, 15); (1945, 8, 16); (1945, 12, 24);
   (1956, 12, 24); (1958, 12, 26); (1961, 5, 29); (1968, 2, 12); (1968, 6, 12); (1968, 6, 19);
   (1968, 6, 26); (1968, 7, 10); (1968, 7, 17); (1968, 7, 24); (1968, 7, 31); (1968, 8, 7);
   (1968, 8, 14); (1968, 8, 21); (1968, 8, 28); (1968, 9, 11); (1968, 9, 18); (1968, 9, 25);
   (1968, 10, 2); (1968, 10, 9); (1968, 10, 16); (1968, 10, 23); (1968, 10, 30);
   (1968, 11, 11); (1968, 11, 20); (1968, 12, 4); (1968, 12, 11); (1968, 12, 18);
   (1968, 12, 25); (1968, 7, 5); (1969, 2, 10); (1969, 7, 21); (1977, 7, 14); (1985, 9, 27)].

Definition new_york_closures : list days :=
  [on [MONDAY; TUESDAY; WEDNESDAY; THURSDAY; FRIDAY]
     (days_from_to (1933, 3, 6) (1933, 3, 14));          (* bank holiday *)
   days_from_to (2001, 9, 11) (2001, 9, 14);
   hurricane_sandy; mourning; new_york_single_days].

(** A feast on a Sunday is kept on the Monday.  When the Chinese New Year is on a
    Saturday the eve is a holiday, since 2013 the fourth day when one of the first
    three is a Sunday.  Qingming gives way to Easter Monday too, and the day after
    the Mid-Autumn Festival to National Day, October 1st. *)
Definition hong_kong_single_days : days := listed
  [(1970, 7, 1); (1971, 7, 1); (1973, 7, 2); (1974, 7, 1); (1975, 7, 1); (1976, 7, 1);
   (1977, 7, 1); (1979, 7, 2); (1980, 7, 1); (1981, 7, 1); (1982, 7, 1); (1971, 3, 22);
   (1971, 12, 6); (1971, 12, 20); (1975, 7, 28); (1985, 7, 29); (1970, 7, 16); (1970, 9, 14);
   (1971, 7, 22); (1971, 8, 31); (1973, 4, 16); (1973, 7, 17); (1974, 4, 25); (1975, 10, 14);
   (1978, 7, 26); (1978, 7, 27); (1979, 1, 26); (1979, 8, 2); (1980, 5, 21); (1980, 7, 22);
   (1981, 4, 27); (1981, 7, 6); (1981, 7, 7); (1981, 7, 29); (1983, 9, 9); (1985, 6, 24);
   (1986, 4, 1); (1986, 10, 22); (1987, 10, 20); (1987, 10, 21); (1987, 10, 22);
   (1987, 10, 23); (1988, 4, 5); (1991, 6, 18); (1992, 7, 22); (1993, 9, 17); (1994, 6, 14);
   (1997, 6, 30); (1997, 7, 2); (1997, 8, 18); (1997, 10, 2); (1998, 8, 17); (1998, 10, 2);
   (1999, 4, 6); (1999, 9, 16); (1999, 12, 31); (2001, 7, 6); (2001, 7, 25); (2008, 8, 6);
   (2008, 8, 22); (2010, 4, 6); (2011, 9, 29); (2012, 10, 2); (2013, 8, 14); (2015, 4, 7);
   (2015, 9, 3); (2016, 8, 2); (2016, 10, 21); (2017, 8, 23)].

Definition hong_kong_closures : list days :=
  [kept (days_later (-1)) (through 2012 (on [SATURDAY] lunar_new_year));
   lunar_new_year; kept (days_later 1) lunar_new_year; kept (days_later 2) lunar_new_year;
   kept (days_later 3)
     (since 2013 (fun a => lunar_new_year a /\ exists k, 0 <= k <= 2 /\ day_of_week (a + k) = SUNDAY));
   kept (first_from (fun m => weekday_but_sunday m /\ ~ easter_monday m)) qingming;
   kept after_sunday buddhas_birthday;
   kept after_sunday dragon_boat;
   kept (fun a => first_from (fun m => ~ annual 10 1 m) (a + 1)) mid_autumn;
   kept after_sunday double_ninth;
   hong_kong_single_days].

Definition jakarta_single_days : days := listed
  [(2002, 12, 30); (2005, 12, 30); (2009, 1, 2); (2017, 1, 2); (2008, 2, 8); (2003, 5, 30);
   (2006, 5, 26); (2007, 5, 18); (2003, 8, 18); (2006, 8, 18); (2008, 8, 18); (2002, 12, 24);
   (2002, 12, 26); (2003, 12, 24); (2003, 12, 26); (2004, 12, 24); (2005, 12, 26);
   (2007, 12, 24); (2009, 12, 24); (2010, 12, 24); (2011, 12, 26); (2012, 12, 24);
   (2013, 12, 26); (2014, 12, 26); (2016, 12, 26); (2017, 12, 26); (2018, 12, 24);
   (2019, 12, 24); (2020, 12, 24); (2002, 3, 15); (2003, 3, 3); (2004, 2, 23); (2005, 2, 10);
   (2006, 1, 31); (2008, 1, 10); (2008, 1, 11); (2008, 12, 29); (2009, 12, 18); (2010, 12, 7);
   (2012, 11, 15); (2012, 11, 16); (2013, 11, 5); (2015, 10, 14); (2017, 9, 21);
   (2018, 9, 11); (2020, 8, 20); (2002, 12, 5); (2002, 12, 6); (2002, 12, 9); (2002, 12, 10);
   (2003, 11, 24); (2003, 11, 25); (2003, 11, 26); (2003, 11, 27); (2003, 11, 28);
   (2004, 11, 15); (2004, 11, 16); (2004, 11, 17); (2004, 11, 18); (2004, 11, 19);
   (2005, 11, 2); (2005, 11, 3); (2005, 11, 4); (2005, 11, 7); (2005, 11, 8); (2006, 10, 23);
   (2006, 10, 24); (2006, 10, 25); (2006, 10, 26); (2006, 10, 27); (2007, 10, 12);
   (2007, 10, 15); (2007, 10, 16); (2008, 9, 30); (2008, 10, 1); (2008, 10, 2); (2008, 10, 3);
   (2009, 9, 18); (2009, 9, 21); (2009, 9, 22); (2009, 9, 23); (2010, 9, 8); (2010, 9, 9);
   (2010, 9, 10); (2010, 9, 13); (2010, 9, 14); (2011, 8, 29); (2011, 8, 30); (2011, 8, 31);
   (2011, 9, 1); (2011, 9, 2); (2012, 8, 20); (2012, 8, 21); (2012, 8, 22); (2013, 8, 5);
   (2013, 8, 6); (2013, 8, 7); (2013, 8, 8); (2013, 8, 9); (2014, 7, 28); (2014, 7, 29);
   (2014, 7, 30); (2014, 7, 31); (2014, 8, 1); (2015, 7, 16); (2015, 7, 17); (2015, 7, 20);
   (2015, 7, 21); (2016, 7, 4); (2016, 7, 5); (2016, 7, 6); (2016, 7, 7); (2016, 7, 8);
   (2017, 6, 23); (2017, 6, 26); (2017, 6, 27); (2017, 6, 28); (2017, 6, 29); (2017, 6, 30);
   (2018, 6, 11); (2018, 6, 12); (2018, 6, 13); (2018, 6, 14); (2018, 6, 15); (2018, 6, 18);
   (2018, 6, 19); (2019, 6, 3); (2019, 6, 4); (2019, 6, 5); (2019, 6, 6); (2019, 6, 7);
   (2020, 5, 22); (2020, 5, 25); (2020, 5, 26); (2020, 5, 27); (2002, 2, 22); (2003, 2, 12);
   (2004, 2, 2); (2005, 1, 21); (2006, 1, 10); (2006, 12, 29); (2007, 12, 20); (2007, 12, 21);
   (2008, 12, 8); (2009, 11, 27); (2009, 11, 28); (2010, 11, 17); (2012, 10, 26);
   (2013, 10, 14); (2013, 10, 15); (2015, 9, 24); (2016, 9, 12); (2017, 9, 1); (2018, 8, 22);
   (2020, 7, 31); (2002, 10, 4); (2003, 9, 22); (2004, 9, 13); (2005, 9, 2); (2006, 8, 21);
   (2008, 7, 30); (2009, 7, 20); (2011, 6, 29); (2012, 5, 18); (2013, 6, 6); (2014, 5, 27);
   (2016, 5, 6); (2017, 4, 24); (2019, 4, 3); (2003, 5, 15); (2004, 5, 3); (2005, 4, 22);
   (2006, 4, 10); (2008, 3, 20); (2009, 3, 9); (2010, 2, 26); (2011, 2, 15); (2013, 1, 24);
   (2014, 1, 14); (2015, 12, 24); (2016, 12, 12); (2017, 12, 1); (2018, 11, 20);
   (2020, 10, 29); (2003, 5, 16); (2004, 6, 3); (2005, 5, 24); (2007, 6, 1); (2008, 5, 20);
   (2010, 5, 28); (2011, 5, 17); (2014, 5, 15); (2015, 6, 2); (2017, 5, 11); (2018, 5, 29);
   (2020, 5, 7); (2003, 4, 2); (2004, 3, 22); (2005, 3, 11); (2006, 3, 30); (2006, 3, 31);
   (2007, 3, 19); (2008, 3, 7); (2009, 3, 26); (2010, 3, 16); (2012, 3, 23); (2013, 3, 12);
   (2014, 3, 31); (2016, 3, 9); (2017, 3, 28); (2019, 3, 7); (2020, 3, 25); (2008, 10, 9);
   (2008, 10, 10); (2004, 4, 5); (2004, 7, 5); (2004, 9, 20); (2009, 4, 9); (2009, 7, 8);
   (2014, 4, 9); (2014, 7, 9); (2015, 12, 9); (2017, 2, 15); (2017, 4, 19); (2019, 4, 17)].

Definition istanbul_closures : list days :=
  [listed [(2002, 1, 4); (2003, 2, 14); (2003, 11, 21); (2003, 11, 24); (2003, 11, 28); (2004, 1, 23);
           (2004, 12, 30); (2004, 12, 31); (2006, 1, 13)];
   eid_al_fitr; kept (days_later 1) eid_al_fitr; kept (days_later 2) eid_al_fitr;
   eid_al_adha; kept (days_later 1) eid_al_adha; kept (days_later 2) eid_al_adha;
   kept (days_later 3) eid_al_adha].

Definition karachi_single_days : days := listed
  [(2002, 12, 6); (2004, 11, 11); (2005, 10, 28); (2006, 10, 20); (2007, 10, 12);
   (2008, 9, 26); (2010, 9, 10); (2011, 8, 26); (2012, 8, 17); (2013, 8, 2); (2014, 7, 25);
   (2015, 7, 17); (2016, 7, 1); (2017, 6, 23); (2018, 6, 8); (2019, 5, 31); (2020, 5, 22);
   (2002, 12, 3); (2002, 12, 5); (2003, 11, 26); (2003, 11, 27); (2003, 11, 28);
   (2004, 11, 15); (2004, 11, 16); (2004, 11, 17); (2005, 11, 3); (2005, 11, 4);
   (2006, 10, 23); (2006, 10, 24); (2006, 10, 25); (2007, 10, 10); (2007, 10, 15);
   (2007, 10, 16); (2008, 10, 1); (2008, 10, 2); (2008, 10, 3); (2009, 9, 21); (2009, 9, 22);
   (2009, 9, 23); (2010, 9, 13); (2011, 8, 31); (2011, 9, 1); (2011, 9, 2); (2012, 8, 20);
   (2012, 8, 21); (2012, 8, 22); (2013, 8, 8); (2013, 8, 9); (2014, 7, 29); (2014, 7, 30);
   (2014, 7, 31); (2014, 8, 1); (2015, 7, 20); (2015, 7, 21); (2016, 7, 5); (2016, 7, 6);
   (2016, 7, 7); (2016, 7, 8); (2017, 6, 26); (2017, 6, 27); (2017, 6, 28); (2018, 6, 15);
   (2018, 6, 18); (2019, 6, 4); (2019, 6, 5); (2019, 6, 6); (2019, 6, 7); (2020, 5, 25);
   (2020, 5, 26); (2020, 5, 27); (2002, 2, 25); (2003, 2, 11); (2003, 2, 12); (2003, 2, 13);
   (2003, 2, 14); (2004, 2, 2); (2004, 2, 3); (2004, 2, 4); (2005, 1, 20); (2005, 1, 21);
   (2006, 1, 10); (2006, 1, 11); (2006, 1, 12); (2006, 1, 13); (2007, 1, 1); (2007, 1, 2);
   (2007, 12, 20); (2007, 12, 21); (2008, 12, 8); (2008, 12, 9); (2008, 12, 10);
   (2008, 12, 11); (2009, 11, 27); (2009, 11, 30); (2010, 11, 17); (2010, 11, 18);
   (2010, 11, 19); (2011, 11, 7); (2011, 11, 8); (2012, 10, 26); (2013, 10, 15);
   (2013, 10, 16); (2013, 10, 17); (2013, 10, 18); (2014, 10, 6); (2014, 10, 7);
   (2014, 10, 8); (2015, 9, 24); (2015, 9, 25); (2016, 9, 12); (2016, 9, 13); (2016, 9, 14);
   (2017, 9, 1); (2017, 9, 4); (2018, 8, 21); (2018, 8, 22); (2018, 8, 23); (2019, 8, 12);
   (2019, 8, 13); (2019, 8, 15); (2020, 7, 31); (2002, 3, 25); (2003, 3, 13); (2003, 3, 14);
   (2004, 3, 1); (2004, 3, 2); (2006, 2, 8); (2006, 2, 9); (2009, 1, 7); (2009, 1, 8);
   (2009, 12, 28); (2010, 12, 16); (2010, 12, 17); (2011, 12, 5); (2011, 12, 6);
   (2013, 11, 14); (2013, 11, 15); (2014, 11, 3); (2014, 11, 4); (2015, 10, 23);
   (2016, 10, 11); (2016, 10, 12); (2018, 9, 20); (2018, 9, 21); (2019, 9, 9); (2019, 9, 10);
   (2002, 5, 23); (2003, 5, 15); (2005, 4, 22); (2006, 4, 11); (2008, 3, 21); (2009, 3, 10);
   (2011, 2, 16); (2013, 1, 25); (2014, 1, 14); (2015, 12, 24); (2016, 12, 12); (2017, 12, 1);
   (2018, 11, 21); (2020, 10, 30); (2002, 1, 1); (2004, 1, 1); (2010, 1, 1); (2002, 2, 22);
   (2002, 10, 10); (2003, 4, 10); (2004, 5, 3); (2005, 8, 18); (2005, 11, 1); (2006, 4, 12);
   (2006, 10, 26); (2006, 10, 27); (2007, 1, 29); (2007, 1, 30); (2007, 12, 28);
   (2008, 2, 18); (2011, 11, 11); (2011, 10, 24); (2012, 10, 29); (2012, 9, 21); (2018, 7, 25)].

(** Chinese New Year and Eid al-Fitr take the first two days other than Sundays. *)
Definition kuala_lumpur_closures : list days :=
  [listed
     [(2019, 9, 9); (2019, 7, 30); (2018, 9, 10); (2018, 5, 11); (2018, 5, 10); (2018, 5, 9);
      (2017, 9, 4); (2017, 4, 24); (2014, 2, 3); (2012, 4, 11); (2011, 9, 1); (2010, 12, 31);
      (2008, 7, 3); (2007, 4, 26); (2006, 10, 25); (2006, 2, 2); (2004, 1, 21); (2003, 11, 24);
      (2003, 2, 4); (2003, 1, 31); (2002, 4, 25); (2002, 2, 11)];
   kept (nth_from weekday_but_sunday 0) lunar_new_year; kept (nth_from weekday_but_sunday 1) lunar_new_year;
   kept after_sunday (dated xkls_holidays.malaysia_nuzul_al_quran);
   kept (nth_from weekday_but_sunday 0) (dated xkls_holidays.malaysia_eid_al_fitr_first_day);
   kept (nth_from weekday_but_sunday 1) (dated xkls_holidays.malaysia_eid_al_fitr_first_day);
   kept after_sunday (dated xkls_holidays.malaysia_eid_al_adha);
   kept after_sunday (dated xkls_holidays.muharram);
   kept after_sunday (dated xkls_holidays.muhammad_birthday);
   dated xkls_holidays.deepavali; dated xkls_holidays.thaipusam; dated xkls_holidays.wesak_day].

Definition moscow_single_days : days := listed
  [(2003, 1, 3); (2013, 1, 3); (2013, 1, 4); (2014, 1, 3); (2003, 1, 6); (2005, 1, 10);
   (2008, 1, 8); (2009, 1, 8); (2009, 1, 9); (2010, 1, 8); (2011, 1, 10); (2016, 1, 8);
   (2006, 2, 24); (2010, 2, 22); (2005, 3, 7); (2011, 3, 7); (2012, 3, 9); (2002, 5, 2);
   (2002, 5, 3); (2003, 5, 2); (2004, 5, 4); (2007, 4, 30); (2008, 5, 2); (2012, 4, 30);
   (2015, 5, 4); (2016, 5, 3); (2002, 5, 10); (2005, 5, 10); (2006, 5, 8); (2017, 5, 8);
   (2003, 6, 13); (2007, 6, 11); (2008, 6, 13); (2012, 6, 11); (2014, 6, 13); (2008, 11, 3);
   (2010, 11, 5); (2002, 11, 7); (2002, 11, 8); (2002, 12, 12); (2002, 12, 13); (2003, 11, 7);
   (2003, 12, 12); (2004, 11, 8); (2004, 12, 13); (2008, 9, 18); (2008, 10, 10); (2008, 10, 27)].

Definition manila_single_days : days := listed
  [(2017, 4, 28); (2017, 10, 16); (2015, 11, 18); (2015, 11, 19); (2013, 8, 19);
   (2013, 8, 20); (2013, 10, 28); (2011, 6, 20); (2019, 5, 13); (2018, 5, 14); (2016, 5, 9);
   (2013, 5, 13); (2017, 9, 12); (2014, 12, 8); (2014, 9, 19); (2014, 7, 16); (2012, 8, 7);
   (2011, 9, 27); (2015, 1, 15); (2015, 1, 16); (2017, 12, 26); (2016, 12, 26);
   (2014, 12, 26); (2018, 1, 2); (2017, 1, 2); (2015, 1, 2); (2017, 10, 31); (2016, 10, 31);
   (2011, 10, 31); (2002, 1, 1); (2002, 2, 25); (2002, 3, 28); (2002, 3, 29); (2002, 4, 8);
   (2002, 5, 1); (2002, 6, 12); (2002, 7, 15); (2002, 10, 31); (2002, 11, 1); (2002, 12, 6);
   (2002, 12, 24); (2002, 12, 25); (2002, 12, 30); (2002, 12, 31); (2003, 1, 1);
   (2003, 2, 25); (2003, 4, 7); (2003, 4, 17); (2003, 4, 18); (2003, 5, 1); (2003, 5, 2);
   (2003, 6, 13); (2003, 8, 22); (2003, 11, 26); (2003, 12, 24); (2003, 12, 25);
   (2003, 12, 26); (2003, 12, 31); (2004, 1, 1); (2004, 1, 2); (2004, 2, 25); (2004, 4, 7);
   (2004, 4, 8); (2004, 4, 9); (2004, 5, 10); (2004, 11, 1); (2004, 11, 15); (2004, 11, 29);
   (2004, 12, 3); (2004, 12, 24); (2004, 12, 27); (2004, 12, 30); (2004, 12, 31);
   (2005, 2, 25); (2005, 3, 23); (2005, 3, 24); (2005, 3, 25); (2005, 5, 2); (2005, 6, 13);
   (2005, 7, 25); (2005, 8, 29); (2005, 10, 31); (2005, 11, 1); (2005, 11, 4); (2005, 11, 28);
   (2005, 12, 26); (2005, 12, 30); (2006, 4, 13); (2006, 4, 14); (2006, 5, 1); (2006, 6, 12);
   (2006, 7, 24); (2006, 8, 21); (2006, 9, 28); (2006, 9, 29); (2006, 10, 24); (2006, 11, 1);
   (2006, 12, 1); (2006, 12, 25); (2006, 12, 26); (2007, 1, 1); (2007, 4, 5); (2007, 4, 6);
   (2007, 4, 9); (2007, 5, 1); (2007, 5, 14); (2007, 6, 11); (2007, 8, 20); (2007, 8, 27);
   (2007, 10, 12); (2007, 10, 29); (2007, 11, 1); (2007, 11, 2); (2007, 11, 30);
   (2007, 12, 24); (2007, 12, 25); (2007, 12, 31); (2008, 1, 1); (2008, 2, 25); (2008, 3, 20);
   (2008, 3, 21); (2008, 4, 7); (2008, 5, 1); (2008, 6, 9); (2008, 8, 18); (2008, 8, 25);
   (2008, 10, 1); (2008, 12, 1); (2008, 12, 25); (2008, 12, 26); (2008, 12, 29);
   (2008, 12, 30); (2008, 12, 31); (2009, 1, 1); (2009, 1, 2); (2009, 4, 6); (2009, 4, 9);
   (2009, 4, 10); (2009, 5, 1); (2009, 6, 12); (2009, 7, 17); (2009, 8, 5); (2009, 8, 21);
   (2009, 8, 31); (2009, 9, 7); (2009, 9, 21); (2009, 11, 2); (2009, 11, 30); (2009, 12, 24);
   (2009, 12, 25); (2009, 12, 30); (2009, 12, 31); (2010, 1, 1); (2010, 4, 1); (2010, 4, 2);
   (2010, 4, 9); (2010, 5, 3); (2010, 5, 10); (2010, 6, 14); (2010, 6, 30); (2010, 8, 30);
   (2010, 9, 10); (2010, 10, 25); (2010, 11, 1); (2010, 11, 16); (2010, 11, 29);
   (2010, 12, 24); (2010, 12, 27); (2010, 12, 31); (2011, 8, 30); (2012, 8, 20); (2013, 8, 9);
   (2014, 7, 29); (2015, 7, 17); (2016, 7, 6); (2017, 6, 26); (2018, 6, 15); (2019, 6, 5);
   (2011, 11, 7); (2012, 10, 26); (2013, 10, 15); (2014, 10, 6); (2015, 9, 25); (2016, 9, 12);
   (2017, 9, 1); (2018, 8, 21); (2019, 8, 12)].

Definition taipei_single_days : days := listed
  [(2002, 2, 7); (2002, 2, 15); (2003, 1, 29); (2004, 1, 19); (2005, 2, 4); (2006, 2, 2);
   (2007, 2, 22); (2007, 2, 23); (2008, 2, 4); (2009, 1, 29); (2009, 1, 30); (2010, 2, 18);
   (2010, 2, 19); (2011, 1, 31); (2012, 1, 26); (2012, 1, 27); (2013, 2, 14); (2013, 2, 15);
   (2014, 1, 28); (2015, 2, 16); (2016, 2, 11); (2016, 2, 12); (2017, 1, 25); (2018, 2, 13);
   (2019, 1, 31); (2019, 2, 8); (2020, 1, 21); (2020, 1, 22); (2020, 4, 2); (2016, 4, 5);
   (2012, 12, 31); (2012, 2, 27); (2009, 1, 2); (2006, 10, 9); (2005, 9, 1); (2019, 9, 30);
   (2019, 8, 9); (2016, 9, 28); (2016, 9, 27); (2016, 7, 8); (2015, 9, 29); (2015, 7, 10);
   (2014, 7, 23); (2013, 8, 21); (2012, 8, 2); (2009, 8, 7); (2008, 9, 29); (2008, 7, 28);
   (2007, 9, 18); (2005, 8, 5); (2005, 7, 18); (2004, 10, 25); (2004, 8, 25); (2004, 8, 24);
   (2002, 9, 6)].

(** The Chinese New Year takes the last two workdays before it and the first three
    from it on.  Other feasts are moved to the closest workday since 2014, and joined
    to the weekend since 2007. *)
Definition moved_since_2014 (a n : Z) : Prop :=
  a < date_number 2014 1 1 /\ n = a \/ date_number 2014 1 1 <= a /\ closest_workday a n.
Definition bridge (a n : Z) : Prop :=
  day_of_week a = THURSDAY /\ n = a + 1 \/ day_of_week a = TUESDAY /\ n = a - 1.
Definition taipei_feast (h : days) : list days :=
  [kept moved_since_2014 h; kept bridge (since 2007 (kept moved_since_2014 h))].
Definition taipei_closures : list days :=
  ([kept (fun a => nth_until workday 0 (a - 1)) lunar_new_year;
    kept (fun a => nth_until workday 1 (a - 1)) lunar_new_year;
    kept (nth_from workday 0) lunar_new_year; kept (nth_from workday 1) lunar_new_year;
    kept (nth_from workday 2) lunar_new_year]
   ++ taipei_feast qingming ++ taipei_feast dragon_boat ++ taipei_feast mid_autumn ++
   [taipei_single_days])%list.

(** The equinoxes are known for the years 2000 to 2021; in September the day between
    two holidays is one too. *)
Definition tokyo_closures : list days :=
  [between 2000 2021 (kept after_sunday vernal_equinox);
   between 2000 2021 (kept after_sunday autumnal_equinox);
   between 2003 2021 (fun n => nth_of 3 MONDAY 9 (n - 1) /\ autumnal_equinox (n + 1));
   listed [(2019, 4, 30); (2019, 5, 1); (2019, 5, 2); (2019, 10, 22)]].


Definition closures : list (string * list days) :=
  [("ASEX"%string, athens_closures);
   ("BVMF"%string, [date 2014 6 12]);
   ("CMES"%string, [mourning]);
   ("IEPA"%string, [mourning; date 2012 10 29]);
   ("XAMS"%string, []);
   ("XASX"%string, [listed [(2011, 4, 26); (1984, 12, 31); (1990, 12, 31); (1988, 1, 25); (1999, 12, 31)]]);
   ("XBKK"%string, [dated xbkk_holidays.makha_bucha; dated xbkk_holidays.vesak; dated xbkk_holidays.asanha_bucha;
      listed [(2002, 12, 30); (2004, 1, 2); (2009, 1, 2); (2013, 12, 30); (2015, 1, 2); (2009, 7, 6);
      (2016, 7, 18); (2010, 8, 13); (2014, 8, 11); (2015, 5, 4); (2016, 5, 6); (2011, 5, 16);
      (2006, 4, 19); (2006, 6, 12); (2006, 6, 13); (2006, 9, 20); (2007, 12, 24); (2010, 5, 20);
      (2010, 5, 21); (2012, 4, 9); (2017, 10, 26)]]);
   ("XBOG"%string, []);
   ("XBOM"%string, [dated exchange_calendar_xbom.precomputed_holidays]);
   ("XBRU"%string, []);
   ("XBUD"%string, []);
   ("XBUE"%string, [days_from_to (2002, 1, 7) (2002, 1, 16); days_from_to (2002, 4, 22) (2002, 4, 26);
      listed [(2009, 7, 10); (2010, 5, 24); (2010, 10, 27); (2012, 1, 2); (2012, 2, 27); (2012, 9, 24);
      (2013, 1, 31); (2013, 2, 20); (2018, 11, 30); (2011, 3, 25); (2011, 12, 9); (2012, 4, 30);
      (2013, 4, 1); (2013, 6, 21); (2014, 5, 2); (2014, 12, 26); (2015, 3, 23); (2015, 12, 7);
      (2016, 7, 8); (2016, 12, 9); (2018, 4, 30); (2018, 12, 24); (2018, 12, 31); (2019, 7, 8);
      (2019, 8, 19); (2019, 10, 14); (2012, 10, 8); (2011, 8, 22); (2015, 11, 27); (2016, 11, 28)]]);
   ("XCBF"%string, [hurricane_sandy; mourning]);
   ("XCSE"%string, []);
   ("XDUB"%string, [date 2018 3 2]);
   ("XFRA"%string, [listed [(2007, 5, 28); (2017, 10, 31)]]);
   ("XETR"%string, [listed [(2007, 5, 28); (2017, 10, 31)]]);
   ("XHEL"%string, []);
   ("XHKG"%string, hong_kong_closures);
   ("XICE"%string, []);
   ("XIDX"%string, [since 2002 lunar_new_year; jakarta_single_days]);
   ("XIST"%string, istanbul_closures);
   ("XJSE"%string, [listed [(2004, 4, 14); (2006, 3, 1); (2009, 4, 22); (2011, 5, 18); (2014, 5, 7); (2016, 8, 3);
              (2019, 5, 8); (2008, 5, 2); (2011, 12, 27); (2016, 12, 27)]]);
   ("XKAR"%string, [karachi_single_days]);
   ("XKLS"%string, kuala_lumpur_closures);
   ("XKRX"%string, [dated exchange_calendar_xkrx.precomputed_holidays]);
   ("XLIM"%string, [listed [(2009, 1, 2); (2009, 7, 27); (2015, 7, 27); (2015, 10, 9); (2015, 1, 2); (2012, 10, 1);
              (2012, 10, 2); (2016, 11, 17); (2016, 11, 18); (2018, 4, 13)]]);
   ("XLIS"%string, []);
   ("XLON"%string, [listed [(1995, 5, 8); (2020, 5, 8); (1977, 6, 7); (2002, 6, 3); (2002, 6, 4); (2012, 6, 4);
              (2012, 6, 5); (1973, 11, 14); (1981, 7, 29); (2011, 4, 29); (1999, 12, 31)]]);
   ("XMAD"%string, []);
   ("XMEX"%string, [date 2010 9 17]);
   ("XMIL"%string, []);
   ("XMOS"%string, [moscow_single_days]);
   ("XNYS"%string, new_york_closures);
   ("XNZE"%string, [listed [(1986, 12, 22); (1986, 12, 23); (1986, 12, 24); (1986, 12, 29); (1986, 12, 30);
              (1986, 12, 31); (1990, 12, 24); (1990, 12, 31); (1991, 12, 27); (1992, 1, 3); (1999, 12, 31)]]);
   ("XOSL"%string, []);
   ("XPAR"%string, []);
   ("XPHS"%string, [since 2012 lunar_new_year; manila_single_days]);
   ("XPRA"%string, [listed [(2002, 8, 14); (2004, 1, 2); (2005, 1, 3)]]);
   ("XSES"%string, [dated exchange_calendar_xses.precomputed_holidays]);
   ("XSGO"%string, [listed [(2010, 9, 17); (2010, 9, 20); (2017, 1, 2); (2017, 4, 19); (2018, 1, 16)]]);
   ("XSHG"%string, [dated exchange_calendar_xshg.precomputed_holidays]);
   ("XSTO"%string, []);
   ("XSWX"%string, []);
   ("XTAE"%string, [listed [(2019, 4, 9); (2019, 9, 17); (2020, 3, 2); (2021, 3, 23)]]);
   ("XTAI"%string, taipei_closures);
   ("XTKS"%string, tokyo_closures);
   ("XTSE"%string, [days_from_to (2001, 9, 11) (2001, 9, 12)]);
   ("XWAR"%string, [listed [(2005, 4, 8); (2007, 12, 31); (2008, 5, 2); (2009, 1, 2); (2013, 4, 16); (2018, 1, 2);
              (2018, 11, 12)]]);
   ("XWBO"%string, []);
   ("us_futures"%string, [])].

Definition single_closure (name : string) (n : Z) : Prop :=
  exists hs h, In (name, hs) closures /\ In h hs /\ h n.

(** ** Public holidays of the exchanges that tabulate all their holidays, and the
    Chinese New Year.  The third component lists the workdays on which the tables
    have them open nevertheless. *)
Definition in_years (y y' : Z) (hs : list days) : list days := map (between y y') hs.
Definition public_holidays : list (string * list days * list (Z * Z * Z)) :=
  [("XBOM"%string,
    in_years 1997 2020 [annual 1 26; annual 4 14; annual 5 1; annual 8 15; annual 10 2; christmas; good_friday],
    [(1997, 3, 28); (1998, 1, 26); (1998, 4, 10); (1998, 5, 1); (1998, 10, 2)]);
   ("XKRX"%string,
    (in_years 1986 2021 [new_years_day; annual 3 1; annual 5 5; annual 6 6; annual 8 15; annual 10 3; christmas]
     ++ in_years 1986 2021 [lunar_new_year])%list,
    [(1988, 2, 17); (1989, 10, 3); (1991, 1, 1); (1996, 2, 19)]);
   ("XSES"%string,
    (map (kept after_sunday) (in_years 1986 2020 [new_years_day; annual 5 1; annual 8 9; christmas])
     ++ in_years 1986 2020 [good_friday; lunar_new_year])%list,
    [(1987, 4, 17); (1991, 2, 15); (1994, 2, 10)]);
   ("XSHG"%string,
    in_years 1999 2025 [new_years_day; annual 5 1; annual 10 1; annual 10 2; annual 10 3; lunar_new_year], []);
   ("XHKG"%string, [lunar_new_year], []);
   ("XIDX"%string, in_years 2002 2049 [lunar_new_year], []);
   ("XKLS"%string, [lunar_new_year], []);
   ("XPHS"%string, in_years 2012 2049 [lunar_new_year], []);
   ("XTAI"%string, [lunar_new_year], [])].
