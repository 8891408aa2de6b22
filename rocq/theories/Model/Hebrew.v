(** The Hebrew dates behind the holidays of the Tel Aviv exchange
    (trading_calendars/tase_holidays.py), with the parts of pyluach 1.2.1 they
    use.  Gregorian dates are day numbers. *)
From Coq Require Import ZArith List Bool.
From Verif.Model Require Import Dates Holidays.
Import ListNotations.
Open Scope Z_scope.

(** ** Library: pyluach *)

(** [hebrewcal.Year.leap] *)
Definition hebrew_leap (y : Z) : bool := (7 * y + 1) mod 19 <? 7.

(** pyluach utils [_elapsed_days]: days before the new year of [y], from the
    molad with the four postponements. *)
Definition elapsed_days (y : Z) : Z :=
  let months := (235 * y - 234) / 19 in
  let parts := 204 + 793 * (months mod 1080) in
  let hours := 5 + 12 * months + 793 * (months / 1080) + parts / 1080 in
  let day := 1 + 29 * months + hours / 24 in
  let parts := 1080 * (hours mod 24) + parts mod 1080 in
  let alt :=
    if (19440 <=? parts) ||
       ((day mod 7 =? 2) && (9924 <=? parts) && negb (hebrew_leap y)) ||
       ((day mod 7 =? 1) && (16789 <=? parts) && hebrew_leap (y - 1))
    then day + 1 else day in
  if memb (alt mod 7) [0; 3; 5] then alt + 1 else alt.

(** Day number of 1 Tishrei of the Hebrew year [y]. *)
Definition HEBREW_EPOCH : Z := -2092591.
Definition first_of_tishrei (y : Z) : Z := HEBREW_EPOCH + elapsed_days y.
Definition days_in_hebrew_year (y : Z) : Z := elapsed_days (y + 1) - elapsed_days y.

(** Length of a month; the year begins with month 7 and ends with month 6. *)
Definition hebrew_month_length (y m : Z) : Z :=
  if memb m [1; 3; 5; 7; 11] then 30
  else if memb m [2; 4; 6; 10; 13] then 29
  else if m =? 12 then (if hebrew_leap y then 30 else 29)
  else if m =? 8 then (if (days_in_hebrew_year y) mod 10 =? 5 then 30 else 29)
  else (* 9 *) (if (days_in_hebrew_year y) mod 10 =? 3 then 29 else 30).
Definition months_of_hebrew_year (y : Z) : list Z :=
  [7; 8; 9; 10; 11; 12] ++ (if hebrew_leap y then [13] else []) ++ [1; 2; 3; 4; 5; 6].
Fixpoint days_before_in (y m : Z) (months : list Z) : Z :=
  match months with
  | [] => 0
  | m' :: rest => if m' =? m then 0 else hebrew_month_length y m' + days_before_in y m rest
  end.

(** [dates.HebrewDate(y, m, d).to_greg()] *)
Definition hebrew_date (y m d : Z) : Z :=
  first_of_tishrei y + days_before_in y m (months_of_hebrew_year y) + d - 1.

(** [dates.GregorianDate(...).to_heb().year]: the Hebrew year the day falls in,
    looked up around the Gregorian year plus 3760. *)
Definition to_heb_year (day : Z) : Z :=
  let guess := year_of day + 3760 in
  if day <? first_of_tishrei guess then guess - 1
  else if day <? first_of_tishrei (guess + 1) then guess
  else guess + 1.

(** pyluach's [weekday()]: 1 is Sunday and 7 is Saturday. *)
Definition hebrew_weekday (d : Z) : Z := (weekday d + 1) mod 7 + 1.

(** ** tase_holidays.py *)

(** tase_holidays.py:100-110 *)
Definition hebrew_year (year : Z) : Z := to_heb_year (days_from_civil year 1 1).

(** tase_holidays.py:32-37, 117-121 *)
Definition purim (year : Z) : Z :=
  let y := hebrew_year year in hebrew_date y (if hebrew_leap y then 13 else 12) 14.
(** tase_holidays.py:40-45, 124-129 *)
Definition passover (year : Z) : Z := hebrew_date (hebrew_year year) 1 15.
(** tase_holidays.py:48-54, 132-154 *)
Definition memorial_day (year : Z) : Z :=
  let d := hebrew_date (hebrew_year year) 2 4 in
  if hebrew_weekday d =? 5 then d - 1
  else if hebrew_weekday d =? 6 then d - 2
  else if hebrew_weekday d =? 7 then d + 1
  else d.
(** tase_holidays.py:57-61, 157-162 *)
Definition pentecost (year : Z) : Z := hebrew_date (hebrew_year year) 3 6.
(** tase_holidays.py:64-68, 165-177 *)
Definition fast_day (year : Z) : Z :=
  let d := hebrew_date (hebrew_year year) 5 9 in
  if hebrew_weekday d =? 7 then d + 1 else d.
(** tase_holidays.py:71-76, 180-185 *)
Definition new_year (year : Z) : Z := hebrew_date (hebrew_year (year + 1)) 7 1.
(** tase_holidays.py:79-83, 188-193 *)
Definition yom_kippur (year : Z) : Z := hebrew_date (hebrew_year (year + 1)) 7 10.
(** tase_holidays.py:86-90, 196-200 *)
Definition sukkoth (year : Z) : Z := hebrew_date (hebrew_year (year + 1)) 7 15.
(** tase_holidays.py:93-97, 203-208 *)
Definition simchat_torah (year : Z) : Z := hebrew_date (hebrew_year (year + 1)) 7 22.
