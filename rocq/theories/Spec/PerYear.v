(** How many sessions a calendar year has (C98), as a table.  Written without the
    model; [leap], [day_of_week] and [date_number] are those of Spec/Civil.v. *)
From Coq Require Import ZArith String List Bool.
From Verif.Model Require Import Base.
From Verif.Spec Require Import Civil Rules Venue.
Import ListNotations.
Open Scope Z_scope.

(** The labels of the first and the last day of a year. *)
Definition first_of (y : Z) : Z := at_midnight_of (date_number y 1 1).
Definition last_of (y : Z) : Z := at_midnight_of (date_number y 12 31).

(** New York: 252, one less in an ordinary year that starts on a Sunday, one more in
    a leap year that starts on a day from Monday to Thursday. *)
Definition new_york_sessions (y : Z) : Z :=
  let w := day_of_week (date_number y 1 1) in
  if leap y then if w <=? 3 then 253 else 252
  else if w =? 6 then 251 else 252.

(** An exchange; the first year of its present holidays; the least number of sessions
    of a year and a year that has it; the greatest and a year that has it. *)
Definition per_year : list (string * Z * (Z * Z) * (Z * Z)) :=
  [("ASEX", 2021, (250, 2025), (255, 2032));
   ("CMES", 2019, (257, 2023), (259, 2020));
   ("IEPA", 2019, (257, 2023), (259, 2020));
   ("XAMS", 2002, (255, 2002), (259, 2004));
   ("XASX", 2012, (252, 2017), (255, 2020));
   ("XBRU", 2002, (255, 2002), (259, 2004));
   ("XCSE", 2009, (248, 2013), (252, 2011));
   ("XDUB", 2019, (254, 2022), (256, 2020));
   ("XFRA", 2018, (251, 2018), (256, 2032));
   ("XETR", 2018, (251, 2018), (256, 2032));
   ("XHEL", 1970, (250, 1973), (253, 1976));
   ("XICE", 1970, (247, 1974), (252, 2011));
   ("XJSE", 2020, (249, 2023), (252, 2020));
   ("XLIM", 2019, (251, 2021), (253, 2024));
   ("XLIS", 2003, (255, 2003), (259, 2004));
   ("XLON", 2021, (252, 2022), (254, 2024));
   ("XMAD", 2011, (255, 2013), (259, 2032));
   ("XMEX", 2011, (251, 2013), (254, 2032));
   ("XMIL", 1970, (252, 1973), (257, 1976));
   ("XNYS", 2019, (251, 2023), (253, 2020));
   ("XOSL", 1970, (249, 1973), (254, 2032));
   ("XPAR", 2002, (255, 2002), (259, 2004));
   ("XPRA", 2013, (249, 2015), (252, 2016));
   ("XSTO", 2005, (249, 2014), (254, 2032));
   ("XSWX", 1970, (249, 1973), (254, 1971));
   ("XTSE", 2008, (250, 2011), (252, 2008));
   ("XWAR", 2019, (248, 2019), (252, 2020));
   ("XWBO", 2019, (251, 2029), (255, 2022));
   ("us_futures", 1970, (257, 1978), (259, 1976))]%string.
