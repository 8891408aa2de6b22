(** The minutes that an exchange trades in a year (C101), as a table.  Written without
    the model; [half_days] is that of New York (Spec/HalfDays.v). *)
From Coq Require Import ZArith String List.
From Verif.Spec Require Import Civil Rules HalfDays.
Import ListNotations.
Open Scope Z_scope.

(** The half days of a year. *)
Definition no_half_days (y : Z) : list Z := [].
(** 24 and 31 December, from Monday to Friday. *)
Definition workday_eves (y : Z) : list Z :=
  filter (fun n => day_of_week n <=? 4) [date_number y 12 24; date_number y 12 31].
Definition workday_christmas_eve (y : Z) : list Z :=
  filter (fun n => day_of_week n <=? 4) [date_number y 12 24].
(** A day, or the Friday before it if it is on a weekend. *)
Definition back_to_friday (n : Z) : Z :=
  if day_of_week n =? 5 then n - 1 else if day_of_week n =? 6 then n - 2 else n.
Definition last_days (y : Z) : list Z :=
  [back_to_friday (date_number y 12 24); back_to_friday (date_number y 12 31)].
Definition before_new_years_eve (y : Z) : list Z := [back_to_friday (date_number y 12 30)].
Definition black_fridays (y : Z) : list Z := [friday_after_thanksgiving y].
(** Futures: the Mondays of Martin Luther King, the Presidents, Memorial Day and Labor
    Day, Independence Day (or the workday closest to it) and Thanksgiving. *)
Definition from_day (wd n : Z) : Z := n + (wd - day_of_week n) mod 7.
Definition closest_to (n : Z) : Z :=
  if day_of_week n =? 5 then n - 1 else if day_of_week n =? 6 then n + 1 else n.
Definition american_holidays (y : Z) : list Z :=
  [from_day 0 (date_number y 1 15); from_day 0 (date_number y 2 15); from_day 0 (date_number y 5 25);
   closest_to (date_number y 7 4); from_day 0 (date_number y 9 1); from_day 3 (date_number y 11 22)].
Definition futures_half_days (y : Z) : list Z :=
  american_holidays y ++
  friday_after_thanksgiving y :: filter (fun n => day_of_week n <=? 3) [date_number y 12 24].

(** An exchange; the first year of its present hours and half days; the minutes of a
    session and of a half day; its half days. *)
Definition yearly : list (string * Z * Z * Z * (Z -> list Z)) :=
  [("ASEX", 2009, 440, 440, no_half_days);
   ("BVMF", 2020, 480, 480, no_half_days);
   ("CMES", 1998, 1440, 1140, futures_half_days);
   ("IEPA", 1998, 1320, 1020, american_holidays);
   ("XAMS", 2002, 510, 305, workday_eves);
   ("XASX", 2010, 360, 250, last_days);
   ("XBKK", 1950, 390, 390, no_half_days);
   ("XBOG", 1950, 390, 390, no_half_days);
   ("XBOM", 1950, 375, 375, no_half_days);
   ("XBRU", 2002, 510, 305, workday_eves);
   ("XBUD", 1950, 480, 480, no_half_days);
   ("XBUE", 2019, 360, 120, workday_eves);
   ("XCBF", 1993, 405, 225, black_fridays);
   ("XCSE", 1950, 480, 480, no_half_days);
   ("XDUB", 2019, 508, 268, last_days);
   ("XFRA", 2010, 510, 210, before_new_years_eve);
   ("XETR", 2010, 510, 300, before_new_years_eve);
   ("XHEL", 1950, 510, 510, no_half_days);
   ("XICE", 1950, 360, 360, no_half_days);
   ("XIDX", 1950, 410, 410, no_half_days);
   ("XJSE", 1950, 480, 480, no_half_days);
   ("XKAR", 1950, 358, 358, no_half_days);
   ("XKRX", 1950, 390, 390, no_half_days);
   ("XLIM", 1950, 420, 420, no_half_days);
   ("XLIS", 2003, 510, 305, workday_eves);
   ("XLON", 2000, 510, 270, last_days);
   ("XMAD", 2012, 510, 300, workday_eves);
   ("XMEX", 1950, 390, 390, no_half_days);
   ("XMIL", 1950, 510, 510, no_half_days);
   ("XMOS", 1950, 525, 525, no_half_days);
   ("XNYS", 2013, 390, 210, half_days);
   ("XNZE", 2011, 405, 165, last_days);
   ("XPAR", 2002, 510, 305, workday_eves);
   ("XPHS", 1950, 360, 360, no_half_days);
   ("XPRA", 1950, 440, 440, no_half_days);
   ("XSES", 1950, 480, 480, no_half_days);
   ("XSHG", 1950, 330, 330, no_half_days);
   ("XSWX", 1950, 510, 510, no_half_days);
   ("XTAE", 1950, 436, 436, no_half_days);
   ("XTAI", 1950, 270, 270, no_half_days);
   ("XTKS", 1950, 360, 360, no_half_days);
   ("XTSE", 2010, 390, 210, workday_christmas_eve);
   ("XWAR", 1950, 480, 480, no_half_days);
   ("XWBO", 1950, 510, 510, no_half_days);
   ("us_futures", 1950, 1440, 1440, no_half_days)]%string.
