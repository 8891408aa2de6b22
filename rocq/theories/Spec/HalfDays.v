(** The half days of the New York Stock Exchange in a year, and the minutes it trades
    (C100).  Written without the model; [date_number] and [day_of_week] are those of
    Spec/Civil.v and Spec/Rules.v. *)
From Coq Require Import ZArith List.
From Verif.Spec Require Import Civil Rules PerYear.
Import ListNotations.
Open Scope Z_scope.

(** The Friday after the fourth Thursday of November: the Friday from 23 to 29 November. *)
Definition friday_after_thanksgiving (y : Z) : Z :=
  let n := date_number y 11 23 in n + (4 - day_of_week n) mod 7.

(** The eves of Independence Day and of Christmas are half days from Monday to Thursday. *)
Definition half_days (y : Z) : list Z :=
  friday_after_thanksgiving y ::
  filter (fun n => day_of_week n <=? 3) [date_number y 7 3; date_number y 12 24].

(** A day trades from 9:30 to 16:00, a half day until 13:00. *)
Definition minutes_traded (y : Z) : Z :=
  390 * new_york_sessions y - 180 * Z.of_nat (length (half_days y)).
