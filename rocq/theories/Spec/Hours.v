(** Opening hours: when each exchange trades, on its local clocks.  Written from
    the docstrings of the exchange modules in /repo/trading_calendars.  Where the
    docstring gives no time or another time than the code, a comment says so. *)
From Coq Require Import ZArith String List.
From Verif.Model Require Import Zone Build Holidays. (* times of day; names of the weekdays *)
From Verif.Spec Require Import Civil Rules Almanac.
From Verif.Exchanges Require common_holidays lunisolar_holidays xkls_holidays. (* dates of lunar feasts *)
Import ListNotations.
Open Scope Z_scope.

(** Hour and minute on the local clocks. *)
Definition clock : Type := Z * Z.
Definition time_of (c : clock) : time := Time (fst c) (snd c) 0.
(** Minutes are labelled by their end: trading that starts at 9:30 has its first
    minute at 9:31. *)
Definition minute_after (c : clock) : time :=
  if snd c =? 59 then Time (fst c + 1) 0 0 else Time (fst c) (snd c + 1) 0.

(** The time kept on each day. *)
Definition daily : Type := Z -> clock -> Prop.
Definition always (h m : Z) : daily := fun _ c => c = (h, m).
(** One time up to a date and another one from then on. *)
Definition changed (before : clock) (y m d : Z) (after : clock) : daily := fun n c =>
  n < date_number y m d /\ c = before \/ date_number y m d <= n /\ c = after.

Record hours : Type := Hours {
  place : string;                        (* the clocks, as the tz database names them *)
  opening : daily;
  nights : Z;                            (* 1 if trading starts the evening before *)
  lunch : option (clock * clock);
  closing : daily;
  early : list (clock * list days)       (* days that close early, and when *)
}.

Definition early_closing (H : hours) (n : Z) (c : clock) : Prop :=
  exists hs h, In (c, hs) (early H) /\ In h hs /\ h n.

(** ** Early closes *)

Definition on_workday : days -> days := on [MONDAY; TUESDAY; WEDNESDAY; THURSDAY; FRIDAY].
Definition last_before (h : days) : days := kept before_weekend h.
Definition black_friday : days := kept (days_later 1) thanksgiving.

(** Days on which American exchanges that stay open close early. *)
Definition american_half_days : list days :=
  [since 1998 (nth_of 3 MONDAY 1); nth_of 3 MONDAY 2; since 1971 (nth_last_of 1 MONDAY 5);
   nth_of 1 MONDAY 9; since 1954 kept_4_july; thanksgiving].

Definition christmas_half_days : list days :=
  [since 1993 black_friday;
   through 1992 (on [MONDAY; TUESDAY; WEDNESDAY; THURSDAY] christmas_eve);
   since 1993 (on [MONDAY; TUESDAY; WEDNESDAY; THURSDAY] christmas_eve)].

Definition euronext_half_days : list (clock * list days) :=
  [((14, 5), [on_workday christmas_eve; since 2002 (on_workday new_years_eve)])].

Definition new_york_half_days : list (clock * list days) :=
  [((13, 0), [since 1995 (on [MONDAY; TUESDAY; THURSDAY] (annual 7 3));
              between 1995 2012 (on [FRIDAY] (annual 7 5));
              since 2013 (on [WEDNESDAY] (annual 7 3));
              since 1993 black_friday;
              since 1993 (on [MONDAY; TUESDAY; WEDNESDAY; THURSDAY] christmas_eve)]);
   ((14, 0), [through 1992 (on [MONDAY; TUESDAY; WEDNESDAY; THURSDAY] christmas_eve);
              between 1992 1992 black_friday]);
   ((13, 0), [date 1997 12 26; date 1999 12 31; date 2003 12 26])].

(** New Year's Eve of the year 1999 was a full day in London and Hong Kong. *)
Definition london_half_days : list (clock * list days) :=
  [((12, 30), [last_before christmas_eve; through 1998 (last_before new_years_eve);
               since 2000 (last_before new_years_eve)])].

(** A workday before a day of the list. *)
Definition eve_of (dates : list Z) : days := fun n => workday n /\ In (n + 1) dates.

(** The Chinese New Year's Eve is a half day since 2013. *)
Definition hong_kong_half_days : list (clock * list days) :=
  [((12, 30), [until_date 1999 12 1 (on_workday new_years_eve);
               since_date 2000 12 1 (until_date 2011 3 7 (on_workday new_years_eve));
               until_date 2011 3 7 (on_workday christmas_eve)]);
   ((12, 0), [since_date 2011 3 7 (on_workday new_years_eve);
              since_date 2011 3 7 (on_workday christmas_eve)]);
   ((12, 0), [(fun n => date_number 2013 1 1 <= n + 1 /\
                 eve_of lunisolar_holidays.chinese_lunar_new_year_dates n)])].

Definition istanbul_half_days : list (clock * list days) :=
  let eves (dates : list Z) (n : Z) :=
    eve_of dates n /\ ~ In n [date_number 1994 5 19; date_number 2003 11 24] in
  [((12, 30), [on_workday (annual 10 28)]);
   ((12, 30), [eves common_holidays.eid_al_fitr_first_day; eves common_holidays.eid_al_adha_first_day])].

(** In Kuala Lumpur a feast on a Sunday is kept on the Monday. *)
Definition kuala_lumpur_half_days : list (clock * list days) :=
  let eves (dates : list Z) (n : Z) :=
    workday n /\ (exists d, In d dates /\ after_sunday d (n + 1)) /\
    ~ In n [date_number 1997 2 7; date_number 1998 1 28; date_number 2002 2 11; date_number 2003 1 31;
            date_number 2004 1 21; date_number 2003 11 24] in
  [((12, 30), [eves lunisolar_holidays.chinese_lunar_new_year_dates;
               eves xkls_holidays.malaysia_eid_al_fitr_first_day])].

(** ** The exchanges *)

Definition plain (place : string) (o c : clock) : hours :=
  Hours place (always (fst o) (snd o)) 0 None (always (fst c) (snd c)) [].
Definition with_early (place : string) (o c : clock) (e : list (clock * list days)) : hours :=
  Hours place (always (fst o) (snd o)) 0 None (always (fst c) (snd c)) e.
Definition overnight (place : string) (o c : clock) (e : list (clock * list days)) : hours :=
  Hours place (always (fst o) (snd o)) 1 None (always (fst c) (snd c)) e.

(** Santiago trades an hour longer from November to February; the code knows the
    change of hours from 1980 to 2049. *)
Definition santiago_closing : daily := fun n c =>
  exists y m d, n = date_number y m d /\ valid_date y m d /\
    (1980 <= y <= 2049 /\ 3 <= m <= 10 /\ c = (16, 0) \/
     ~ (1980 <= y <= 2049 /\ 3 <= m <= 10) /\ c = (17, 0)).

Definition timetable : list (string * hours) :=
  [("ASEX", Hours "Europe/Athens" (always 10 0) 0 None (changed (17, 0) 2008 9 29 (17, 20)) []);
   ("BVMF", Hours "America/Sao_Paulo" (always 10 0) 0 None (changed (17, 0) 2019 11 4 (18, 0)) []);
   ("CMES", overnight "America/Chicago" (17, 0) (17, 0)
      [((12, 0), (american_half_days ++ christmas_half_days)%list)]);
   ("IEPA", overnight "America/New_York" (20, 0) (18, 0) [((13, 0), american_half_days)]);
   ("XAMS", with_early "Europe/Amsterdam" (9, 0) (17, 30) euronext_half_days);
   ("XASX", with_early "Australia/Sydney" (10, 0) (16, 0)
      [((14, 10), [since 2010 (last_before christmas_eve); since 2010 (last_before new_years_eve)])]);
   ("XBKK", plain "Asia/Bangkok" (10, 0) (16, 30));
   ("XBOG", plain "America/New_York" (9, 30) (16, 0));         (* as in New York *)
   ("XBOM", plain "Asia/Calcutta" (9, 15) (15, 30));
   ("XBRU", with_early "Europe/Brussels" (9, 0) (17, 30) euronext_half_days);
   ("XBUD", plain "Europe/Budapest" (9, 0) (17, 0));
   ("XBUE", with_early "America/Argentina/Buenos_Aires" (11, 0) (17, 0)
      [((13, 0), [on_workday (except [2018] christmas_eve); on_workday (except [2018] new_years_eve)])]);
   ("XCBF", with_early "America/Chicago" (8, 30) (15, 15) [((12, 15), [since 1993 black_friday])]);
   ("XCSE", plain "Europe/Copenhagen" (9, 0) (17, 0));
   ("XDUB", with_early "Europe/Dublin" (8, 0) (16, 28)
      [((12, 28), [since 2010 (last_before christmas_eve); since 2010 (last_before new_years_eve)]);
       ((12, 28), [date 2018 3 1])]);                         (* bad weather *)
   ("XFRA", with_early "CET" (9, 0) (17, 30) [((12, 30), [since 2010 (kept on_workday_before new_years_eve)])]);
   ("XETR", with_early "CET" (9, 0) (17, 30) [((14, 0), [since 2010 (kept on_workday_before new_years_eve)])]);
   ("XHEL", plain "Europe/Helsinki" (10, 0) (18, 30));
   ("XHKG", Hours "Asia/Hong_Kong" (changed (10, 0) 2011 3 7 (9, 30)) 0 (Some ((12, 0), (13, 0)))
      (always 16 0) hong_kong_half_days);
   ("XICE", plain "Atlantic/Reykjavik" (9, 30) (15, 30));
   ("XIDX", plain "Asia/Jakarta" (9, 0) (15, 50));
   ("XIST", with_early "Europe/Istanbul" (10, 0) (18, 0) istanbul_half_days);
   ("XJSE", plain "Africa/Johannesburg" (9, 0) (17, 0));
   ("XKAR", plain "Asia/Karachi" (9, 32) (15, 30));            (* documented for Monday to Thursday *)
   ("XKLS", with_early "Asia/Kuala_Lumpur" (9, 0) (17, 0) kuala_lumpur_half_days);
   ("XKRX", plain "Asia/Seoul" (9, 0) (15, 30));
   ("XLIM", plain "America/Lima" (9, 0) (16, 0));
   ("XLIS", with_early "Europe/Lisbon" (8, 0) (16, 30)
      [((13, 5), [since 2003 (on_workday christmas_eve); on_workday new_years_eve])]);
   ("XLON", with_early "Europe/London" (8, 0) (16, 30) london_half_days);
   ("XMAD", with_early "Europe/Madrid" (9, 0) (17, 30)
      [((14, 0), [since 2012 (on_workday christmas_eve); since 2012 (on_workday new_years_eve)])]);
   ("XMEX", plain "America/Mexico_City" (8, 30) (15, 0));
   ("XMIL", plain "Europe/Rome" (9, 0) (17, 30));
   ("XMOS", plain "Europe/Moscow" (10, 0) (18, 45));
   ("XNYS", with_early "America/New_York" (9, 30) (16, 0) new_york_half_days);
   ("XNZE", with_early "NZ" (10, 0) (16, 45)
      [((12, 45), [since 2011 (kept on_workday_before christmas);
                   since 2011 (kept on_workday_before new_years_day)])]);
   ("XOSL", with_early "Europe/Oslo" (9, 0) (16, 20) [((13, 0), [since 2011 (on_workday holy_wednesday)])]);
   ("XPAR", with_early "Europe/Paris" (9, 0) (17, 30) euronext_half_days);
   ("XPHS", plain "Asia/Manila" (9, 30) (15, 30));
   ("XPRA", plain "Europe/Prague" (9, 0) (16, 20));
   ("XSES", plain "Asia/Singapore" (9, 0) (17, 0));
   ("XSGO", Hours "America/Santiago" (always 9 30) 0 None santiago_closing
      [((12, 30), [on_workday christmas_eve; on_workday (annual 12 30)]);
       ((13, 30), [maundy_thursday;
                   on [TUESDAY; WEDNESDAY; THURSDAY; FRIDAY] (except [2010] (annual 9 17))])]);
   ("XSHG", plain "Asia/Shanghai" (9, 30) (15, 0));
   ("XSTO", with_early "Europe/Stockholm" (9, 0) (17, 30)
      [((13, 0), [on_workday (annual 1 5); on_workday maundy_thursday; on_workday (annual 4 30);
                  easter_plus 38;                             (* the day before Ascension *)
                  first_on_or_after FRIDAY 10 30])]);         (* the day before All Saints *)
   ("XSWX", plain "Europe/Zurich" (9, 0) (17, 30));            (* documented to open at 8:00 *)
   ("XTAE", plain "Asia/Tel_Aviv" (9, 59) (17, 15));
   ("XTAI", plain "Asia/Taipei" (9, 0) (13, 30));
   ("XTKS", plain "Asia/Tokyo" (9, 0) (15, 0));                (* not documented *)
   ("XTSE", with_early "America/Toronto" (9, 30) (16, 0) [((13, 0), [since 2010 (on_workday christmas_eve)])]);
   ("XWAR", plain "Europe/Warsaw" (9, 0) (17, 0));
   ("XWBO", plain "Europe/Vienna" (9, 0) (17, 30));
   ("us_futures", overnight "America/New_York" (18, 0) (18, 0) [])]%string.
