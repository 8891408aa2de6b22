(** Calendar arithmetic of the standard library / pandas: days since 1970-01-01
    and the proleptic Gregorian calendar.  Library behaviour, not repo code. *)
From Coq Require Import ZArith List Bool.
From Verif.Model Require Import Base.
Import ListNotations.
Open Scope Z_scope.

Definition NANOS_PER_SECOND : Z := 1000000000.
Definition NANOS_PER_DAY : Z := 86400000000000.

(** Day number of a timestamp, and midnight of a day. *)
Definition day_of (ts : Z) : Z := ts / NANOS_PER_DAY.
Definition midnight (day : Z) : Z := day * NANOS_PER_DAY.

(** [Timestamp.weekday()]: Monday = 0; 1970-01-01 was a Thursday. *)
Definition weekday (day : Z) : Z := (day + 3) mod 7.

(** Day number of a civil date: the year is counted from March so that the leap
    day comes last; 719468 days lie between 0000-03-01 and 1970-01-01. *)
Definition days_from_civil (y m d : Z) : Z :=
  let y' := if m <=? 2 then y - 1 else y in
  let era := y' / 400 in
  let yoe := y' mod 400 in
  let mp := if m <=? 2 then m + 9 else m - 3 in
  let doy := (153 * mp + 2) / 5 + d - 1 in
  let doe := yoe * 365 + yoe / 4 - yoe / 100 + doy in
  era * 146097 + doe - 719468.

(** Inverse: (year, month, day) of a day number. *)
Definition civil_from_days (z : Z) : Z * Z * Z :=
  let z := z + 719468 in
  let era := z / 146097 in
  let doe := z mod 146097 in
  let yoe := (doe - doe / 1460 + doe / 36524 - doe / 146096) / 365 in
  let doy := doe - (365 * yoe + yoe / 4 - yoe / 100) in
  let mp := (5 * doy + 2) / 153 in
  let d := doy - (153 * mp + 2) / 5 + 1 in
  let m := if mp <? 10 then mp + 3 else mp - 9 in
  let y := yoe + era * 400 + (if m <=? 2 then 1 else 0) in
  (y, m, d).

Definition year_of (day : Z) : Z := let '(y, _, _) := civil_from_days day in y.
Definition month_of (day : Z) : Z := let '(_, m, _) := civil_from_days day in m.
Definition mday_of (day : Z) : Z := let '(_, _, d) := civil_from_days day in d.
