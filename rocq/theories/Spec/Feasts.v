(** Orthodox Easter and the Hebrew calendar, as they are traditionally defined.
    Independent of the model, except for the names of the weekdays. *)
From Coq Require Import ZArith List Bool.
From Verif.Model Require Import Holidays.
From Verif.Spec Require Import Civil Rules.
Import ListNotations.
Open Scope Z_scope.

(** ** Orthodox Easter: the first Sunday after the full moon of the Julian calendar *)

(** Number of March 21st of the Julian calendar: every fourth year is a leap year;
    January 1st of year 1 was day -719164. *)
Definition julian_march_21 (y : Z) : Z :=
  365 * (y - 1) + (y - 1) / 4 - 719164 + 31 + (if y mod 4 =? 0 then 29 else 28) + 20.
Definition julian_epact (y : Z) : Z := (11 * (golden y - 1) + 8) mod 30.
Definition julian_full_moon (y : Z) : Z :=
  julian_march_21 y + (if julian_epact y <? 24 then 23 - julian_epact y else 53 - julian_epact y).
Definition is_orthodox_easter (y n : Z) : Prop :=
  first_from (fun m => day_of_week m = SUNDAY) (julian_full_moon y + 1) n.

(** ** The Hebrew calendar *)

(** Seven years of every nineteen have a thirteenth month. *)
Definition long_year (y : Z) : bool := existsb (Z.eqb (y mod 19)) [0; 3; 6; 8; 11; 14; 17].
Definition month_count (y : Z) : Z := if long_year y then 13 else 12.

(** Months before year [y]; [c50_months] shows that it counts [month_count]. *)
Definition months_before (y : Z) : Z := (235 * y - 234) / 19.

(** The new moon of Tishrei, in parts (1080 to the hour) from the beginning of a
    Sunday: the first was on Monday, 5 hours and 204 parts; the month has 29 days,
    12 hours and 793 parts. *)
Definition parts_per_day : Z := 24 * 1080.
Definition new_moon (y : Z) : Z :=
  1 * parts_per_day + 5 * 1080 + 204 +
  months_before y * (29 * parts_per_day + 12 * 1080 + 793).
Definition moon_day (y : Z) : Z := new_moon y / parts_per_day.
Definition moon_time (y : Z) : Z := new_moon y mod parts_per_day.

(** The new year is the day of the new moon, or the day after it when the new moon
    is at noon or later (18 hours from sunset), on a Tuesday from 9 hours and 204
    parts in a common year, on a Monday from 15 hours and 589 parts after a long
    year; and a day later still rather than on a Sunday, Wednesday or Friday. *)
Definition postponed (y : Z) : bool :=
  (18 * 1080 <=? moon_time y) ||
  (moon_day y mod 7 =? 2) && negb (long_year y) && (9 * 1080 + 204 <=? moon_time y) ||
  (moon_day y mod 7 =? 1) && long_year (y - 1) && (15 * 1080 + 589 <=? moon_time y).
Definition new_year_count (y : Z) : Z :=
  let d := if postponed y then moon_day y + 1 else moon_day y in
  if (d mod 7 =? 0) || (d mod 7 =? 3) || (d mod 7 =? 5) then d + 1 else d.

(** 1 Tishrei of year [y] as a day number: year 1 began on October 7th, 3761 BCE of
    the Julian calendar, day -2092590, a Monday. *)
Definition tishrei_1 (y : Z) : Z := -2092590 + (new_year_count y - 1).

(** From Passover (15 Nisan) to the new year there are always 163 days, and the
    months from Nisan to Elul have 30 and 29 days in turn. *)
Definition nisan_15 (y : Z) : Z := tishrei_1 (y + 1) - 163.
Definition purim_day (y : Z) : Z := nisan_15 y - 30.          (* 14 Adar *)
Definition iyar_4 (y : Z) : Z := nisan_15 y + 15 + 4.
Definition sivan_6 (y : Z) : Z := nisan_15 y + 15 + 29 + 6.
Definition av_9 (y : Z) : Z := nisan_15 y + 15 + 29 + 30 + 29 + 9.

(** Memorial Day is moved so that neither it nor the day after is on a Friday or
    Saturday: from a Thursday or Friday to the Wednesday before, from a Saturday to
    the Sunday after. *)
Definition memorial_moved (d n : Z) : Prop :=
  if (day_of_week d =? THURSDAY) || (day_of_week d =? FRIDAY)
  then last_until (fun m => day_of_week m = WEDNESDAY) d n
  else first_from (fun m => day_of_week m <> SATURDAY) d n.
(** A fast is not kept on a Saturday. *)
Definition fast_moved (d n : Z) : Prop := first_from (fun m => day_of_week m <> SATURDAY) d n.

(** The holidays of the Tel Aviv exchange in the Gregorian year [y]: the Hebrew year
    3760 + y begins the autumn before. *)
Definition tel_aviv_holiday (y n : Z) : Prop :=
  let h := y + 3760 in
  n = purim_day h \/
  (* the first and the seventh day of Passover, and their eves *)
  In n [nisan_15 h - 1; nisan_15 h; nisan_15 h + 5; nisan_15 h + 6] \/
  (* Memorial Day and Independence Day *)
  (exists d, memorial_moved (iyar_4 h) d /\ (n = d \/ n = d + 1)) \/
  In n [sivan_6 h - 1; sivan_6 h] \/
  fast_moved (av_9 h) n \/
  (* the new year, Yom Kippur, Sukkoth and Simchat Torah: 1, 2, 10, 15 and 22
     Tishrei and their eves *)
  let t := tishrei_1 (h + 1) in
  In n [t - 1; t; t + 1; t + 8; t + 9; t + 13; t + 14; t + 20; t + 21].
