(** The Chinese calendar from the positions of the sun and the moon, independent of
    the model and of the tables in /repo.

    Sources: J. Meeus, Astronomical Algorithms (1991), chapters 25 and 49, truncated to
    the terms above 0.002 days or 0.02 degrees; H. Aslaksen, The Mathematics of the
    Chinese Calendar (the reference given in /repo/etc/lunisolar:6-8), for the rules.
    Instants are in units of 1/10000 day since 1970-01-01 UTC, angles in units of
    1/10000 degree.  The truncated series are within about a quarter of an hour of the truth. *)
From Coq Require Import ZArith String List.
From Verif.Spec Require Import Civil.
Import ListNotations.
Open Scope Z_scope.

Definition unit : Z := 10000.

(** Bhaskara's approximation of the sine, in units (within 0.2%). *)
Definition arch (x : Z) : Z :=
  let q := x * (180 * unit - x) in 4 * q * unit / (40500 * unit * unit - q).
Definition sine (a : Z) : Z :=
  let x := a mod (360 * unit) in
  if x <? 180 * unit then arch x else - arch (x - 180 * unit).

(** The instant of new moon number [k]; number 0 is that of 2000-01-06.  The mean new
    moon is 10962.5977 + 29.530588861 k days after 1970-01-01; the anomalies are
    those of the sun and of the moon, and the node is the argument of latitude. *)
Definition mean_new_moon (k : Z) : Z := 109625977 + 29530588861 * k / 100000.
Definition new_moon (k : Z) : Z :=
  let sun := 25534 + 291053567 * k / 1000 in
  let moon := 2015643 + 38581693528 * k / 10000 in
  let node := 1607108 + 39067050284 * k / 10000 in
  mean_new_moon k +
  (- 4072 * sine moon + 1724 * sine sun + 161 * sine (2 * moon) + 104 * sine (2 * node)
   + 74 * sine (moon - sun) - 51 * sine (moon + sun) + 21 * sine (2 * sun)) / unit.

(** The apparent longitude of the sun at instant [t], [u] after 2000-01-01 12:00. *)
Definition sun_longitude (t : Z) : Z :=
  let u := t - 109575000 in
  let anomaly := 3575291 + 985600282 * u / 1000000000 in
  2804665 + 985647366 * u / 1000000000 + (19146 * sine anomaly + 200 * sine (2 * anomaly)) / unit - 57.

(** ** Days at a place [hours] ahead of UTC *)

Definition day_at (hours t : Z) : Z := (24 * t + hours * unit) / (24 * unit).
Definition start_of_day (hours n : Z) : Z := (24 * n - hours) * unit / 24.

(** Day [n] begins before the sun reaches [x] degrees (and less than half a year before). *)
Definition before (hours x n : Z) : bool :=
  180 * unit <=? (sun_longitude (start_of_day hours n) - x * unit) mod (360 * unit).
(** The sun reaches [x] degrees in the course of day [n]. *)
Definition sun_reaches (hours x n : Z) : Prop :=
  before hours x n = true /\ before hours x (n + 1) = false.

(** ** The Chinese calendar *)

(** A month begins on the day of the new moon in China. *)
Definition month_start (k : Z) : Z := day_at 8 (new_moon k).

(** The multiples of 30 degrees of the longitude of the sun are the zhongqi. *)
Definition sector (n : Z) : Z := sun_longitude (start_of_day 8 n) / (30 * unit) mod 12.
Definition has_zhongqi (k : Z) : bool := negb (sector (month_start k) =? sector (month_start (k + 1))).

(** The eleventh month is the one of the winter solstice. *)
Definition eleventh (k : Z) : bool :=
  if before 8 270 (month_start k) then negb (before 8 270 (month_start (k + 1))) else false.

(** The months from an eleventh month, number [k], until the next one.  If there are
    thirteen, the first without zhongqi is a leap month, which has no number. *)
Fixpoint consecutive (k : Z) (count : nat) : list Z :=
  match count with O => [] | S count => k :: consecutive (k + 1) count end.
Fixpoint without_leap (ks : list Z) : list Z :=
  match ks with
  | [] => []
  | k :: ks => if has_zhongqi k then k :: without_leap ks else ks
  end.
Definition regular_months (k : Z) : list Z :=
  if eleventh (k + 13) then without_leap (consecutive k 13) else consecutive k 12.

(** Day [n] is day [d] of month [m] (not a leap month) of the Chinese year that begins
    in year [y], for months 1 to 10: the eleventh month comes first in
    [regular_months], then the twelfth, then the first. *)
Definition chinese_date (y m d n : Z) : Prop :=
  exists k, eleventh k = true /\ in_year (month_start k) (y - 1) /\
    n = month_start (nth (Z.to_nat (m + 1)) (regular_months k) k) + (d - 1).

(** The exchanges that close on feasts of the Chinese calendar: name, years, month and
    day of the feast, and the years in which the exchange trades on that day. *)
Definition lunar_closures : list (string * (Z * Z) * (Z * Z) * list Z) :=
  [("XHKG"%string, (1960, 2049), (1, 1), []);          (* the first three days of the year *)
   ("XHKG"%string, (1960, 2049), (1, 2), []);
   ("XHKG"%string, (1960, 2049), (1, 3), []);
   ("XHKG"%string, (1960, 2049), (4, 8), [2034]);      (* Buddha's Birthday *)
   ("XHKG"%string, (1960, 2049), (5, 5), [2034]);      (* Dragon Boat Festival *)
   ("XHKG"%string, (1960, 2049), (8, 16), [1974; 1993; 2034]); (* day after the Mid-Autumn Festival *)
   ("XHKG"%string, (1960, 2049), (9, 9), [2034]);      (* Double Ninth Festival *)
   ("XTAI"%string, (1960, 2049), (1, 1), []);
   ("XTAI"%string, (1960, 2049), (1, 2), []);
   ("XTAI"%string, (1960, 2049), (1, 3), []);
   ("XTAI"%string, (1960, 2049), (5, 5), [2034]);
   ("XTAI"%string, (1960, 2049), (8, 15), [2034]);     (* Mid-Autumn Festival *)
   ("XKRX"%string, (1989, 2021), (1, 1), [1996]);
   ("XKRX"%string, (1986, 2021), (8, 15), []);
   ("XKRX"%string, (1987, 2021), (8, 16), []);
   ("XKRX"%string, (1990, 2021), (8, 14), []);
   ("XSHG"%string, (1999, 2025), (1, 1), []);
   ("XSHG"%string, (1999, 2025), (1, 2), []);
   ("XSHG"%string, (1999, 2025), (1, 3), []);
   ("XSHG"%string, (2008, 2025), (5, 5), []);
   ("XSHG"%string, (2008, 2025), (8, 15), [2025]);
   ("XSES"%string, (1986, 2020), (1, 1), [1991; 1994]);
   ("XSES"%string, (1986, 2020), (1, 2), []);
   ("XKLS"%string, (1960, 2049), (1, 1), []);
   ("XKLS"%string, (1960, 2049), (1, 2), []);
   ("XPHS"%string, (2012, 2049), (1, 1), []);
   ("XIDX"%string, (2002, 2049), (1, 1), [])].
