(** The Gregorian calendar, as a numbering of days (1970-01-01 is day 0).
    Independent of the model. *)
From Coq Require Import ZArith List Bool.
Import ListNotations.
Open Scope Z_scope.

Definition leap (y : Z) : bool :=
  (y mod 4 =? 0) && (negb (y mod 100 =? 0) || (y mod 400 =? 0)).

Definition month_lengths (y : Z) : list Z :=
  [31; if leap y then 29 else 28; 31; 30; 31; 30; 31; 31; 30; 31; 30; 31].
Definition month_length (y m : Z) : Z := nth (Z.to_nat (m - 1)) (month_lengths y) 0.
Definition days_before_month (y m : Z) : Z :=
  fold_right Z.add 0 (firstn (Z.to_nat (m - 1)) (month_lengths y)).

(** Number of January 1st of year [y]: 365 days per earlier year plus the leap
    days ([year_start_next] below in DatesLemmas.v checks the step). *)
Definition year_start (y : Z) : Z :=
  365 * (y - 1) + (y - 1) / 4 - (y - 1) / 100 + (y - 1) / 400 - 719162.

Definition valid_date (y m d : Z) : Prop := 1 <= m <= 12 /\ 1 <= d <= month_length y m.

(** Number of the day with year [y], month [m] and day of the month [d]. *)
Definition date_number (y m d : Z) : Z := year_start y + days_before_month y m + (d - 1).

(** Day number [n] belongs to year [y]. *)
Definition in_year (n y : Z) : Prop := year_start y <= n < year_start (y + 1).
