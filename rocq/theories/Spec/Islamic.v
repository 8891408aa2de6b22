(** The tabular Islamic calendar and the full moons, independent of the model and of the
    tables in /repo.

    Sources: E. G. Richards, in Explanatory Supplement to the Astronomical Almanac (2013),
    15.6, for the calendar; J. Meeus, Astronomical Algorithms (1991), chapter 49, for the
    full moons, truncated as in [Sky]. *)
From Coq Require Import ZArith String List.
From Verif.Spec Require Import Civil Sky.
Import ListNotations.
Open Scope Z_scope.

(** ** The tabular Islamic calendar *)

(** Eleven years of a cycle of thirty have 355 days, the others 354. *)
Definition islamic_leap_years : list Z := [2; 5; 7; 10; 13; 16; 18; 21; 24; 26; 29].
Definition islamic_leap (y : Z) : Prop := In (y mod 30) islamic_leap_years.

(** The months have 30 and 29 days in turn; in a leap year the twelfth has 30. *)
Definition islamic_new_year (y : Z) : Z := -492148 + 354 * (y - 1) + (11 * y + 3) / 30.
Definition islamic_date (y m d : Z) : Z := islamic_new_year y + 29 * (m - 1) + m / 2 + (d - 1).

(** The calendar depends on the sighting of the crescent, and dates are announced country
    by country, so a date is only known to within two days in advance. *)
Definition near (centre n : Z) : Prop := centre - 2 <= n <= centre + 2.

(** Exactly one day of the list is near the given one. *)
Definition one_near (centre : Z) (ds : list Z) : Prop :=
  exists n, In n ds /\ near centre n /\ forall n', In n' ds -> near centre n' -> n' = n.

(** ** Full moons *)

(** The instant of the full moon that follows new moon number [k] (units as in [Sky]). *)
Definition mean_full_moon (k : Z) : Z := 109625977 + 29530588861 * (2 * k + 1) / 200000.
Definition full_moon (k : Z) : Z :=
  let h := 2 * k + 1 in
  let sun := 25534 + 291053567 * h / 2000 in
  let moon := 2015643 + 38581693528 * h / 20000 in
  let node := 1607108 + 39067050284 * h / 20000 in
  mean_full_moon k +
  (- 4061 * sine moon + 1730 * sine sun + 161 * sine (2 * moon) + 104 * sine (2 * node)
   + 73 * sine (moon - sun) - 51 * sine (moon + sun) + 21 * sine (2 * sun)) / unit.

(** The day of the full moon in Bangkok and in Jakarta, which keep the same time. *)
Definition full_moon_day (k : Z) : Z := day_at 7 (full_moon k).
(** The day of the new moon in Bali. *)
Definition new_moon_day (k : Z) : Z := day_at 8 (new_moon k).

(** ** Feasts of the full and of the new moon *)

(** Vesak is kept in Bangkok at the full moon between May 7th and June 4th, in Jakarta at
    the one between May 6th and June 3rd. *)
Definition vesak_moon (y k : Z) : Prop :=
  date_number y 5 7 <= full_moon_day k <= date_number y 6 4.
Definition waisak_moon (y k : Z) : Prop :=
  date_number y 5 6 <= full_moon_day k <= date_number y 6 3.
(** Wesak is kept in Malaysia at the full moon of May. *)
Definition full_moon_day_8 (k : Z) : Z := day_at 8 (full_moon k).
Definition wesak_moon (y k : Z) : Prop :=
  date_number y 5 1 <= full_moon_day_8 k <= date_number y 5 29.
(** Thaipusam is at the full moon between January 14th and February 12th, Deepavali
    shortly before the new moon between October 17th and November 15th, and the new
    year of Bali at the new moon between March 6th and April 3rd. *)
Definition thaipusam_moon (y k : Z) : Prop :=
  date_number y 1 14 <= full_moon_day_8 k <= date_number y 2 12.
Definition deepavali_moon (y k : Z) : Prop :=
  date_number y 10 17 <= new_moon_day k <= date_number y 11 15.
Definition saka_moon (y k : Z) : Prop :=
  date_number y 3 6 <= new_moon_day k <= date_number y 4 3.
