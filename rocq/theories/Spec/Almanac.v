(** The almanac: on which days each exchange is closed every year, in plain
    calendar terms.  Written from the docstrings and comments of the exchange
    modules in /repo/trading_calendars and, where these give no date, from the
    usual date of the holiday they name.  Nothing here depends on how holidays are
    represented in the code: a holiday is the set of days on which it is kept.
    Days are numbers (Spec/Civil.v). *)
From Coq Require Import ZArith String List.
From Verif.Model Require Import Holidays. (* only the names of the weekdays *)
From Verif.Spec Require Import Civil Rules.
Import ListNotations.
Open Scope Z_scope.

Definition days := Z -> Prop.

(** ** Anniversaries and movable feasts *)

Definition annual (m d : Z) : days := fun n => exists y, n = date_number y m d.
(** [k] days after Easter Sunday of the western churches. *)
Definition easter_plus (k : Z) : days := fun n => exists y, is_easter y (n - k).
(** The [k]-th [wd] of month [m], counted from its beginning or from its end. *)
Definition nth_of (k wd m : Z) : days := fun n =>
  exists y d, n = date_number y m d /\ day_of_week n = wd /\ 7 * (k - 1) < d <= 7 * k.
Definition nth_last_of (k wd m : Z) : days := fun n =>
  exists y d, n = date_number y m d /\ day_of_week n = wd /\
    7 * (k - 1) <= month_length y m - d < 7 * k.
(** The first [wd] from a date on, and the last one up to a date. *)
Definition first_on_or_after (wd m d : Z) : days := fun n =>
  exists y, first_from (fun k => day_of_week k = wd) (date_number y m d) n.
Definition last_on_or_before (wd m d : Z) : days := fun n =>
  exists y, last_until (fun k => day_of_week k = wd) (date_number y m d) n.
(** A single day. *)
Definition date (y m d : Z) : days := fun n => n = date_number y m d.

Definition new_years_day := annual 1 1.
Definition epiphany := annual 1 6.
Definition shrove_monday := easter_plus (-48).
Definition shrove_tuesday := easter_plus (-47).
Definition holy_wednesday := easter_plus (-4).
Definition maundy_thursday := easter_plus (-3).
Definition good_friday := easter_plus (-2).
Definition easter_monday := easter_plus 1.
Definition labour_day := annual 5 1.
Definition ascension_day := easter_plus 39.
Definition whit_monday := easter_plus 50.
Definition corpus_christi := easter_plus 60.
Definition assumption := annual 8 15.
Definition all_saints := annual 11 1.
Definition immaculate_conception := annual 12 8.
Definition christmas_eve := annual 12 24.
Definition christmas := annual 12 25.
Definition boxing_day := annual 12 26.
Definition new_years_eve := annual 12 31.

(** ** When a holiday is kept on another day *)

Definition kept (moved : Z -> Z -> Prop) (h : days) : days := fun n => exists a, h a /\ moved a n.

Definition after_weekend : Z -> Z -> Prop := first_from workday.
Definition after_sunday : Z -> Z -> Prop := first_from (fun m => day_of_week m <> SUNDAY).
Definition before_weekend : Z -> Z -> Prop := last_until workday.
Definition on_workday_before (a : Z) : Z -> Prop := last_until workday (a - 1).
Definition on_monday_after : Z -> Z -> Prop := first_from (fun m => day_of_week m = MONDAY).
Definition closest_workday (a n : Z) : Prop :=
  workday n /\ forall m, workday m -> Z.abs (n - a) <= Z.abs (m - a).
(** For the second of two consecutive holidays: the first workday not taken by the
    first of them. *)
Definition next_to_previous_day (a : Z) : Z -> Prop :=
  first_from (fun m => workday m /\ ~ after_weekend (a - 1) m) a.
Definition days_later (k a n : Z) : Prop := n = a + k.
Definition sunday_later (k a n : Z) : Prop :=
  day_of_week a = SUNDAY /\ n = a + k \/ day_of_week a <> SUNDAY /\ n = a.
(** With the working day between the holiday and the weekend. *)
Definition bridged (a n : Z) : Prop :=
  n = a \/ day_of_week a = TUESDAY /\ n = a - 1 \/ day_of_week a = THURSDAY /\ n = a + 1.

(** ** Restrictions *)

Definition since (y : Z) (h : days) : days := fun n => date_number y 1 1 <= n /\ h n.
Definition through (y : Z) (h : days) : days := fun n => n <= date_number y 12 31 /\ h n.
Definition since_date (y m d : Z) (h : days) : days := fun n => date_number y m d <= n /\ h n.
Definition until_date (y m d : Z) (h : days) : days := fun n => n <= date_number y m d /\ h n.
Definition between (y y' : Z) (h : days) : days := since y (through y' h).
Definition on (wds : list Z) (h : days) : days := fun n => In (day_of_week n) wds /\ h n.
(** Not in these years. *)
Definition except (ys : list Z) (h : days) : days := fun n => (forall y, In y ys -> ~ in_year n y) /\ h n.

(** ** The exchanges *)

(** The second workday from day [a] on. *)
Definition second_workday (a n : Z) : Prop := exists f, first_from workday a f /\ first_from workday (f + 1) n.

(** Substitute days of Christmas and Boxing Day. *)
Definition christmas_days : list days :=
  [christmas; on [MONDAY; TUESDAY] (annual 12 27);
   boxing_day; on [MONDAY; TUESDAY] (annual 12 28)].

Definition athens : list days :=
  [new_years_day; epiphany; annual 3 25; good_friday; easter_monday; labour_day; assumption;
   annual 10 28; since 2009 christmas_eve; christmas; boxing_day].

Definition sao_paulo : list days :=
  [new_years_day;
   annual 1 25;                              (* anniversary of Sao Paulo *)
   shrove_monday; shrove_tuesday; good_friday; corpus_christi;
   annual 4 21;                              (* Tiradentes *)
   labour_day;
   between 1998 2019 (annual 7 9);           (* constitutionalist revolution *)
   since 2021 (annual 7 9);
   annual 9 7; annual 10 12; annual 11 2; annual 11 15;
   since 2004 (annual 11 20);                (* black awareness *)
   christmas_eve; christmas;
   kept before_weekend new_years_eve].

(** The futures exchanges close on three days only. *)
Definition us_futures_days : list days :=
  [kept after_sunday new_years_day; good_friday; since 1954 (kept closest_workday christmas)].

Definition amsterdam : list days :=
  [new_years_day; good_friday; easter_monday; through 2000 ascension_day; through 2001 whit_monday;
   through 2001 (annual 4 30); labour_day; christmas; boxing_day; through 2001 new_years_eve].

Definition sydney : list days :=
  [kept after_weekend new_years_day;
   since 1994 (kept after_weekend (annual 1 26));            (* Australia Day *)
   between 1960 1987 (first_on_or_after MONDAY 1 26);
   between 1988 1988 (annual 1 26);
   between 1989 1992 (first_on_or_after MONDAY 1 26);
   good_friday; easter_monday;
   through 2009 (annual 4 25);                               (* Anzac Day *)
   between 2010 2010 (kept after_sunday (annual 4 25));
   since 2011 (annual 4 25);
   nth_of 2 MONDAY 6]                                        (* Queen's Birthday *)
  ++ christmas_days.

Definition bangkok : list days :=
  [kept next_to_previous_day (except [2006] new_years_day);
   kept after_weekend (annual 4 6);                          (* Chakri *)
   annual 4 13; kept after_sunday (annual 4 14);             (* Songkran *)
   kept (fun a n => (day_of_week a = SUNDAY \/ day_of_week a = MONDAY) /\ n = a + 1 \/
                    day_of_week a <> SUNDAY /\ day_of_week a <> MONDAY /\ n = a) (annual 4 15);
   kept after_weekend labour_day;
   through 2016 (kept after_weekend (annual 5 5));           (* coronations *)
   since 2019 (kept after_weekend (annual 5 4));
   since 2019 (kept after_weekend (annual 6 3));             (* the Queen's birthday *)
   since 2017 (kept after_weekend (annual 7 28));            (* the King's birthday *)
   kept after_weekend (annual 8 12);
   between 2002 2016 (annual 7 1);                           (* half year *)
   since 2017 (kept after_weekend (annual 10 13));
   kept after_weekend (annual 10 23); kept after_weekend (annual 12 5);
   kept after_weekend (annual 12 10);
   kept after_weekend (except [2003] new_years_eve)].

(** Colombia keeps most holidays on the Monday after. *)
Definition bogota : list days :=
  [new_years_day; kept on_monday_after epiphany; kept on_monday_after (annual 3 19);
   maundy_thursday; good_friday; labour_day;
   kept on_monday_after ascension_day; kept on_monday_after corpus_christi;
   kept on_monday_after (easter_plus 68);                    (* Sacred Heart, a Friday *)
   kept on_monday_after (annual 6 29); annual 7 20; annual 8 7;
   kept on_monday_after assumption; kept on_monday_after (annual 10 12);
   kept on_monday_after all_saints; kept on_monday_after (annual 11 11);
   immaculate_conception; christmas; kept before_weekend new_years_eve].

Definition brussels : list days :=
  [new_years_day; good_friday; easter_monday; through 2000 ascension_day; through 2001 whit_monday;
   labour_day; through 2001 (annual 7 21); christmas; boxing_day; through 2001 new_years_eve].

Definition budapest : list days :=
  [kept bridged new_years_day; kept bridged (annual 3 15); since 2012 good_friday; easter_monday;
   kept bridged labour_day; whit_monday; kept bridged (annual 8 20); kept bridged (annual 10 23);
   kept bridged all_saints; christmas_eve; christmas; through 2012 boxing_day;
   since 2013 (kept bridged boxing_day); since 2011 new_years_eve].

Definition buenos_aires : list days :=
  [new_years_day; since 2011 shrove_monday; since 2011 shrove_tuesday;
   since 2005 (annual 3 24);                                 (* truth and justice *)
   through 2004 (first_on_or_after MONDAY 3 31); since 2005 (annual 4 2);     (* Malvinas *)
   maundy_thursday; good_friday; labour_day; annual 5 25;
   since 2016 (annual 6 17);                                 (* Guemes *)
   through 2010 (nth_of 3 MONDAY 6); since 2011 (annual 6 20);                (* the flag *)
   annual 7 9;
   through 2010 (nth_of 3 MONDAY 8); since 2012 (nth_of 3 MONDAY 8);          (* San Martin *)
   except [2012] (kept (fun a n =>                           (* cultural diversity *)
      day_of_week a <= WEDNESDAY /\ last_until (fun m => day_of_week m = MONDAY) a n \/
      WEDNESDAY < day_of_week a /\ on_monday_after a n) (annual 10 12));
   through 2017 (annual 11 6);                               (* the bank clerk's day *)
   between 2010 2014 (nth_of 4 MONDAY 11);                   (* sovereignty *)
   since 2017 (first_on_or_after MONDAY 11 17);
   immaculate_conception; christmas].

Definition thanksgiving := nth_of 4 THURSDAY 11.
Definition kept_4_july := kept closest_workday (annual 7 4).

(** Good Friday is skipped when Christmas or New Year's Day is kept on a Friday. *)
Definition some_other_friday (y : Z) : Prop :=
  (exists c, closest_workday (date_number y 12 25) c /\ day_of_week c = FRIDAY) \/
  (exists c, after_sunday (date_number y 1 1) c /\ day_of_week c = FRIDAY).
Definition cboe : list days :=
  [kept after_sunday new_years_day; since 1998 (nth_of 3 MONDAY 1); nth_of 3 MONDAY 2;
   (fun n => exists y, is_easter y (n + 2) /\ ~ some_other_friday y);
   since 1954 kept_4_july; since 1971 (nth_last_of 1 MONDAY 5); nth_of 1 MONDAY 9; thanksgiving;
   since 1954 (kept closest_workday christmas)].

Definition copenhagen : list days :=
  [new_years_day; maundy_thursday; good_friday; easter_monday;
   easter_plus 26;                                           (* prayer day *)
   ascension_day; since 2009 (kept (days_later 1) ascension_day); whit_monday; annual 6 5;
   christmas_eve; christmas; boxing_day; new_years_eve].

Definition dublin : list days :=
  [kept after_weekend new_years_day; through 2000 (kept after_weekend (annual 3 17));
   good_friday; easter_monday;
   between 2008 2009 (kept after_weekend labour_day); since 2019 (kept after_weekend labour_day);
   through 2018 (nth_of 1 MONDAY 5); through 2018 (nth_of 1 MONDAY 6);
   through 2004 christmas_eve] ++ christmas_days.

Definition frankfurt : list days :=
  [new_years_day; good_friday; easter_monday; labour_day; since 2015 whit_monday;
   since 2014 (annual 10 3);                                 (* German unity *)
   christmas_eve; christmas; boxing_day; new_years_eve].

(** Midsummer Eve is the Friday from June 19th on. *)
Definition midsummer_eve := first_on_or_after FRIDAY 6 19.

Definition helsinki : list days :=
  [new_years_day; epiphany; good_friday; easter_monday; labour_day; ascension_day; midsummer_eve;
   annual 12 6; christmas_eve; christmas; boxing_day; new_years_eve].

(** The lunar holidays of Hong Kong are not here (XHKG's one-off list). *)
Definition hong_kong : list days :=
  [kept after_sunday new_years_day; good_friday; easter_monday;
   since_date 1999 5 1 (kept after_sunday labour_day);
   since_date 1997 7 1 (kept after_sunday (annual 7 1));     (* establishment *)
   since_date 1945 8 30 (until_date 1997 7 1 (nth_last_of 1 MONDAY 8));   (* liberation *)
   since_date 1960 8 1 (through 1982 (nth_of 1 MONDAY 8));
   since_date 1997 7 1 (kept after_sunday (annual 10 1));
   (* the Queen's birthday *)
   between 1984 1996 (except [1985; 1988; 1993; 1994] (nth_of 3 MONDAY 6));
   between 1985 1985 (nth_of 4 MONDAY 6);
   (fun n => exists y, In y [1983; 1988; 1993; 1994] /\ in_year n y /\ nth_of 2 MONDAY 6 n);
   since_date 1926 4 21 (through 1982 (except [1974; 1981] (kept after_sunday (annual 4 21))));
   (fun n => exists y, In y [1974; 1981] /\ in_year n y /\ first_on_or_after SUNDAY 4 21 n);
   christmas; on [MONDAY; TUESDAY] (annual 12 27); boxing_day].

(** The first day of summer is the Thursday from April 19th on. *)
Definition reykjavik : list days :=
  [new_years_day; maundy_thursday; good_friday; easter_monday; first_on_or_after THURSDAY 4 19;
   labour_day; ascension_day; whit_monday; annual 6 17;
   nth_of 1 MONDAY 8;                                        (* commerce day *)
   christmas_eve; christmas; boxing_day; new_years_eve].

Definition jakarta : list days :=
  [new_years_day; good_friday; since_date 2014 5 1 labour_day;
   through 2002 ascension_day; since 2004 ascension_day;
   since_date 2017 6 1 (annual 6 1);                         (* Pancasila *)
   annual 8 17; christmas; new_years_eve].

Definition istanbul : list days :=
  [new_years_day; annual 4 23; since 2009 labour_day; annual 5 19; since 2017 (annual 7 15);
   annual 8 30; annual 10 29].

Definition johannesburg : list days :=
  [kept after_sunday new_years_day; kept after_sunday (annual 3 21); good_friday; easter_monday;
   kept after_sunday (annual 4 27); kept after_sunday labour_day; kept after_sunday (annual 6 16);
   kept after_sunday (annual 8 9); kept after_sunday (annual 9 24); kept after_sunday (annual 12 16);
   kept after_sunday christmas; kept after_sunday boxing_day].

Definition karachi : list days :=
  [annual 2 5; annual 3 23; labour_day; annual 8 14; through 2012 (annual 11 9); annual 12 25].

Definition kuala_lumpur : list days :=
  [kept after_sunday new_years_day; kept after_sunday (annual 2 1); kept after_sunday labour_day;
   kept after_sunday (annual 8 31); since 2010 (kept after_sunday (annual 9 16));
   kept after_sunday christmas].

Definition lima : list days :=
  [new_years_day; maundy_thursday; good_friday; labour_day; annual 6 29; annual 7 28; annual 7 29;
   annual 8 30; annual 10 8; all_saints; immaculate_conception; christmas;
   through 2007 new_years_eve].

Definition lisbon : list days :=
  [new_years_day; through 2002 shrove_tuesday; good_friday; easter_monday;
   through 2002 corpus_christi; through 2002 (annual 4 25); labour_day; through 2002 (annual 6 10);
   through 2001 (annual 6 13); through 2002 assumption; through 2002 (annual 10 5);
   through 2002 all_saints; through 2002 (annual 12 1); through 2002 immaculate_conception;
   through 2002 christmas_eve; christmas; boxing_day].

(** The May bank holidays moved in 1995, 2002, 2012 and 2020 (see the one-off
    closures). *)
Definition london : list days :=
  [kept after_weekend new_years_day; good_friday; easter_monday;
   except [1995; 2020] (nth_of 1 MONDAY 5);
   except [2002; 2012] (nth_last_of 1 MONDAY 5);
   nth_last_of 1 MONDAY 8] ++ christmas_days.

Definition madrid : list days :=
  [new_years_day; through 2006 epiphany; good_friday; easter_monday; labour_day;
   through 2004 (kept after_weekend assumption); through 2004 (annual 10 12);
   through 2004 all_saints; through 2004 (annual 12 6); through 2004 immaculate_conception;
   through 2010 christmas_eve; christmas; boxing_day; through 2010 new_years_eve].

Definition mexico_city : list days :=
  [new_years_day;
   through 2006 (annual 2 5); since 2007 (nth_of 1 MONDAY 2);      (* constitution *)
   through 2006 (annual 3 21); since 2007 (nth_of 3 MONDAY 3);     (* Juarez *)
   maundy_thursday; good_friday; labour_day; annual 9 16;
   since 2006 (annual 11 2);                                       (* all souls *)
   through 2006 (annual 11 20); since 2007 (nth_of 3 MONDAY 11);   (* revolution *)
   annual 12 12; christmas].

Definition milan : list days :=
  [new_years_day; good_friday; easter_monday; labour_day; assumption; christmas_eve; christmas;
   boxing_day; new_years_eve].

Definition moscow : list days :=
  [kept after_weekend new_years_day; kept after_weekend (except [2016] (annual 1 2));
   between 2005 2011 (annual 1 3); between 2005 2011 (annual 1 4); between 2005 2011 (annual 1 5);
   between 2005 2011 (annual 1 6);
   kept after_weekend (except [2012; 2017] (annual 1 7));          (* orthodox Christmas *)
   kept after_weekend (except [2013; 2014; 2019] (annual 2 23));
   kept after_weekend (annual 3 8); kept after_weekend labour_day; kept after_weekend (annual 5 9);
   kept after_weekend (annual 6 12); since 2005 (kept after_weekend (annual 11 4));
   kept after_weekend (except [2008; 2009] new_years_eve)].

(** XNYS's docstring. *)
Definition new_york : list days :=
  [kept after_sunday new_years_day;
   since 1998 (nth_of 3 MONDAY 1);                                 (* Martin Luther King *)
   between 1874 1953 (kept after_sunday (annual 2 12));            (* Lincoln *)
   between 1880 1963 (kept after_sunday (annual 2 22));            (* Washington *)
   between 1964 1970 (kept closest_workday (annual 2 22));
   since 1971 (nth_of 3 MONDAY 2);
   good_friday;
   through 1963 (kept after_sunday (annual 5 30));                 (* Memorial Day *)
   between 1964 1969 (kept closest_workday (annual 5 30));
   since 1971 (nth_last_of 1 MONDAY 5);
   through 1953 (kept after_sunday (annual 7 4));
   since 1954 kept_4_july;
   nth_of 1 MONDAY 9;                                              (* Labor Day *)
   between 1864 1938 (nth_last_of 1 THURSDAY 11);                  (* Thanksgiving *)
   between 1939 1941 (nth_last_of 2 THURSDAY 11);
   since 1942 thanksgiving;
   between 1848 1967 (first_on_or_after TUESDAY 11 2);             (* election day *)
   (fun n => exists y, In y [1968; 1972; 1976; 1980] /\ in_year n y /\
      first_on_or_after TUESDAY 11 2 n);
   between 1934 1953 (kept after_sunday (annual 11 11));           (* veterans *)
   through 1953 (kept after_sunday (annual 10 12));                (* Columbus *)
   through 1953 (kept after_sunday christmas);
   since 1954 (kept closest_workday christmas)].

Definition wellington : list days :=
  [kept after_weekend new_years_day; kept next_to_previous_day (annual 1 2);
   through 2014 (annual 2 6); since 2015 (kept after_weekend (annual 2 6));    (* Waitangi *)
   good_friday; easter_monday;
   through 2014 (annual 4 25); since 2015 (kept after_weekend (annual 4 25));  (* Anzac *)
   nth_of 1 MONDAY 6; nth_of 4 MONDAY 10;
   kept after_weekend christmas; kept next_to_previous_day boxing_day].

Definition oslo : list days :=
  [new_years_day; maundy_thursday; good_friday; easter_monday; labour_day; ascension_day;
   annual 5 17; whit_monday; christmas_eve; christmas; boxing_day; new_years_eve].

Definition paris : list days :=
  [new_years_day; good_friday; easter_monday; through 2001 whit_monday; labour_day;
   through 2001 (annual 7 14); christmas; boxing_day; through 2001 new_years_eve].

Definition manila : list days :=
  [since 2011 new_years_day; since 2016 (annual 2 25); since 2011 (annual 4 9);
   since 2011 maundy_thursday; good_friday; since 2011 labour_day; since 2011 (annual 6 12);
   since 2011 (annual 8 21); since 2011 (nth_last_of 1 MONDAY 8); since 2011 all_saints;
   since 2011 (on [FRIDAY] (annual 11 2)); since 2011 (annual 11 30); since 2011 christmas_eve;
   since 2011 christmas; since 2011 (annual 12 30); since 2011 new_years_eve].

Definition prague : list days :=
  [new_years_day; since 2013 good_friday; easter_monday; labour_day; annual 5 8; annual 7 5;
   annual 7 6; annual 9 28; annual 10 28; annual 11 17; christmas_eve; christmas; boxing_day;
   new_years_eve].

(** Tuesday to Thursday: the Monday before; Friday: the Monday after. *)
Definition on_nearest_monday (a n : Z) : Prop :=
  TUESDAY <= day_of_week a <= THURSDAY /\ last_until (fun m => day_of_week m = MONDAY) a n \/
  day_of_week a = FRIDAY /\ on_monday_after a n \/
  ~ (TUESDAY <= day_of_week a <= FRIDAY) /\ n = a.
(** Tuesday: the Friday before; Wednesday: the Friday after. *)
Definition on_nearest_friday (a n : Z) : Prop :=
  day_of_week a = TUESDAY /\ last_until (fun m => day_of_week m = FRIDAY) a n \/
  day_of_week a = WEDNESDAY /\ first_from (fun m => day_of_week m = FRIDAY) a n \/
  ~ (TUESDAY <= day_of_week a <= WEDNESDAY) /\ n = a.

Definition santiago : list days :=
  [new_years_day; good_friday; through 2007 (easter_plus 57); labour_day; annual 5 21;
   kept on_nearest_monday (annual 6 29); since 2008 (annual 7 16); assumption;
   since 2003 (on [MONDAY] (annual 9 17)); annual 9 18; annual 9 19;
   since 2003 (on [FRIDAY] (annual 9 20));
   kept on_nearest_monday (annual 10 12); since 2008 (kept on_nearest_friday (annual 10 31));
   all_saints; immaculate_conception; christmas; new_years_eve].

Definition stockholm : list days :=
  [new_years_day; epiphany; good_friday; easter_monday; labour_day; ascension_day;
   through 2004 whit_monday; since 2004 (annual 6 6); midsummer_eve; christmas_eve; christmas;
   boxing_day; new_years_eve].

Definition zurich : list days :=
  [new_years_day; annual 1 2; easter_monday; good_friday; labour_day; ascension_day; whit_monday;
   annual 8 1; christmas_eve; christmas; boxing_day; new_years_eve].

(** From 2014 on Taiwan joins a holiday to the weekend: the Monday before a
    Tuesday, the Friday after a Thursday, the Friday before a Saturday, the Monday
    after a Sunday. *)
Definition joined_to_weekend (a n : Z) : Prop :=
  n = a \/
  date_number 2014 1 1 <= n /\
  ((day_of_week a = TUESDAY \/ day_of_week a = SATURDAY) /\ n = a - 1 \/
   (day_of_week a = THURSDAY \/ day_of_week a = SUNDAY) /\ n = a + 1).
Definition taipei : list days :=
  [kept joined_to_weekend new_years_day; kept joined_to_weekend (annual 2 28);
   since 2011 (kept joined_to_weekend (annual 4 4)); kept after_sunday labour_day;
   kept joined_to_weekend (annual 10 10)].

Definition tokyo : list days :=
  [new_years_eve; new_years_day; annual 1 2; annual 1 3;
   nth_of 2 MONDAY 1;                                              (* coming of age *)
   kept after_sunday (annual 2 11);                                (* foundation *)
   kept after_sunday (annual 4 29);                                (* greenery, Showa *)
   through 2006 (kept (sunday_later 2) (annual 5 3)); since 2007 (kept (sunday_later 3) (annual 5 3));
   since 2007 (kept (sunday_later 2) (annual 5 4)); through 2006 (annual 5 4);
   kept after_sunday (annual 5 5);
   through 2002 (kept after_sunday (annual 7 20));                 (* marine day *)
   between 2003 2019 (nth_of 3 MONDAY 7); date 2020 7 23; date 2021 7 22; since 2022 (nth_of 3 MONDAY 7);
   between 2016 2019 (kept after_sunday (annual 8 11));            (* mountain day *)
   date 2020 8 10; date 2021 8 9; since 2022 (kept after_sunday (annual 8 11));
   through 2002 (kept after_sunday (annual 9 15)); since 2003 (nth_of 3 MONDAY 9);   (* the aged *)
   through 2019 (nth_of 2 MONDAY 10);                              (* sports *)
   date 2020 7 24; date 2021 7 23; since 2022 (nth_of 2 MONDAY 10);
   kept after_sunday (annual 11 3); kept after_sunday (annual 11 23);
   until_date 2019 4 30 (kept after_sunday (annual 12 23));        (* the emperor's birthday *)
   since_date 2019 4 30 (kept after_sunday (annual 2 23))].

Definition toronto : list days :=
  [kept after_weekend new_years_day; since 2008 (nth_of 3 MONDAY 2); good_friday;
   last_on_or_before MONDAY 5 24; kept after_weekend (annual 7 1); nth_of 1 MONDAY 8;
   nth_of 1 MONDAY 9; nth_of 2 MONDAY 10] ++ christmas_days.

Definition warsaw : list days :=
  [new_years_day; since 2011 epiphany; good_friday; easter_monday; labour_day; annual 5 3;
   corpus_christi; assumption; all_saints; annual 11 11; except [2004] christmas_eve; christmas;
   boxing_day; since 2011 new_years_eve].

Definition vienna : list days :=
  [new_years_day; through 2018 epiphany; good_friday; easter_monday; through 2018 ascension_day;
   whit_monday; through 2018 corpus_christi; labour_day; through 2018 assumption; annual 10 26;
   through 2018 all_saints; through 2018 immaculate_conception; christmas_eve; christmas;
   boxing_day; through 2015 (kept before_weekend new_years_eve); since 2016 new_years_eve].

(** Bombay, Korea, Singapore and Shanghai have one-off lists only; Tel Aviv is in
    Spec/Feasts.v. *)
Definition almanac : list (string * list days) :=
  [("ASEX", athens); ("BVMF", sao_paulo); ("CMES", us_futures_days); ("IEPA", us_futures_days);
   ("XAMS", amsterdam); ("XASX", sydney); ("XBKK", bangkok); ("XBOG", bogota); ("XBOM", []);
   ("XBRU", brussels); ("XBUD", budapest); ("XBUE", buenos_aires); ("XCBF", cboe);
   ("XCSE", copenhagen); ("XDUB", dublin); ("XFRA", frankfurt); ("XETR", frankfurt);
   ("XHEL", helsinki); ("XHKG", hong_kong); ("XICE", reykjavik); ("XIDX", jakarta);
   ("XIST", istanbul); ("XJSE", johannesburg); ("XKAR", karachi); ("XKLS", kuala_lumpur);
   ("XKRX", []); ("XLIM", lima); ("XLIS", lisbon); ("XLON", london); ("XMAD", madrid);
   ("XMEX", mexico_city); ("XMIL", milan); ("XMOS", moscow); ("XNYS", new_york);
   ("XNZE", wellington); ("XOSL", oslo); ("XPAR", paris); ("XPHS", manila); ("XPRA", prague);
   ("XSES", []); ("XSGO", santiago); ("XSHG", []); ("XSTO", stockholm); ("XSWX", zurich);
   ("XTAI", taipei); ("XTKS", tokyo); ("XTSE", toronto); ("XWAR", warsaw); ("XWBO", vienna);
   ("us_futures", us_futures_days)]%string.

(** The almanac says that the exchange is closed on day [n]. *)
Definition annual_closure (name : string) (n : Z) : Prop :=
  exists hs h, In (name, hs) almanac /\ In h hs /\ h n.
