(** Layout of the pages of the Chinese calendar, on the screen of Screen.v.  Columns are three
    characters wide; column 0 is Sunday.  A month begins on day [first] and the next one on
    day [next]; under its title, the Gregorian months and the names of the weekdays come the
    weeks; one row is left empty when the month begins on a Sunday. *)
From Coq Require Import String ZArith Ascii List Bool.
From Verif.Spec Require Import Civil Screen.
Import ListNotations.
Open Scope Z_scope.

(** A day of a Gregorian month: two characters, right-aligned. *)
Definition two_digits (d : Z) : list ascii :=
  [ if d <? 10 then blank else digit (d / 10); digit (d mod 10) ].

Definition lunar_row (first day : Z) : Z :=
  3 + (if weekday_column first =? 0 then 1 else 0) + (weekday_column first + (day - first)) / 7.

Definition lunar_height (first next : Z) : Z := lunar_row first (next - 1) + 1.

Definition gregorian_months : list string :=
  ["January"; "February"; "March"; "April"; "May"; "June"; "July"; "August"; "September";
   "October"; "November"; "December"]%string.
Definition days_of_week : list string := ["Su"; "Mo"; "Tu"; "We"; "Th"; "Fr"; "Sa"]%string.

(** A text that shows a month: the title, the names of the Gregorian months of its first and
    its last day, the weekdays, every day of the month as its day of the Gregorian month in
    the column of its weekday and the row of its week, and nothing else. *)
Record shows_month (t title : list ascii) (first next : Z) : Prop := {
  month_title : centered t 0 20 title;
  month_span : forall y m d name y' m' d' name', valid_date y m d -> valid_date y' m' d' ->
    date_number y m d = first -> date_number y' m' d' = next - 1 ->
    nth_error gregorian_months (Z.to_nat (m - 1)) = Some name ->
    nth_error gregorian_months (Z.to_nat (m' - 1)) = Some name' ->
    centered t 1 20 (list_ascii_of_string name ++ ["-"%char] ++ list_ascii_of_string name')%list;
  month_weekdays : forall w name, nth_error days_of_week w = Some name ->
    shows t 2 (3 * w) (list_ascii_of_string name);
  month_days : forall y m d, valid_date y m d -> first <= date_number y m d < next ->
    shows t (Z.to_nat (lunar_row first (date_number y m d)))
      (Z.to_nat (3 * weekday_column (date_number y m d))) (two_digits d);
  month_gaps : forall col, (col mod 3 = 2 \/ 21 <= col)%nat -> shown t 2 col = blank;
  month_rest : forall row col, (3 <= row)%nat ->
    (forall day, first <= day < next -> Z.of_nat row = lunar_row first day ->
       ~ (3 * weekday_column day <= Z.of_nat col < 3 * weekday_column day + 2)) ->
    shown t row col = blank
}.

(** A year: month [m], counted from 1, begins on day [first m].  Four bands of three months,
    each as high as its highest month, an empty row between bands, and the year in row 0. *)
Definition lunar_band_height (first : Z -> Z) (band : Z) : Z :=
  let height m := lunar_height (first m) (first (m + 1)) in
  Z.max (height (3 * band + 1)) (Z.max (height (3 * band + 2)) (height (3 * band + 3))).

Fixpoint lunar_band_top (first : Z -> Z) (band : nat) : Z :=
  match band with
  | O => 1
  | S band => lunar_band_top first band + lunar_band_height first (Z.of_nat band) + 1
  end.
