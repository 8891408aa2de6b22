(** What a text looks like on a screen: the character shown at a row and a column
    (both counted from 0), blank where nothing was written.  Independent of how
    the model builds or splits texts. *)
From Coq Require Import ZArith Ascii List Bool.
From Verif.Spec Require Import Civil.
Import ListNotations.
Open Scope Z_scope.

Definition line_feed : ascii := ascii_of_nat 10.
Definition blank : ascii := ascii_of_nat 32.

Fixpoint written (t : list ascii) (row col : nat) : option ascii :=
  match t with
  | [] => None
  | c :: t =>
      if Ascii.eqb c line_feed then
        match row with O => None | S row => written t row col end
      else
        match row, col with
        | O, O => Some c
        | O, S col => written t O col
        | _, _ => written t row col
        end
  end.

Definition shown (t : list ascii) (row col : nat) : ascii :=
  match written t row col with Some c => c | None => blank end.

(** A string [s] is shown from the given position on. *)
Definition shows (t : list ascii) (row col : nat) (s : list ascii) : Prop :=
  forall i c, nth_error s i = Some c -> shown t row (col + i) = c.

Definition digit (n : Z) : ascii := ascii_of_nat (48 + Z.to_nat n).

(** How a day of the month appears: two characters, right-aligned, bracketed if
    it is not a session. *)
Definition day_cell (session : bool) (d : Z) : list ascii :=
  [ if session then blank else "["%char;
    if d <? 10 then blank else digit (d / 10);
    digit (d mod 10);
    if session then blank else "]"%char ].

(** ** Layout of a month

    Columns are four characters wide; column 0 is Sunday (day number 0 is a
    Thursday).  Under the title and the names of the weekdays come the weeks; one
    row is left empty when the month begins on a Sunday. *)
Definition weekday_column (day : Z) : Z := (day + 4) mod 7.

Definition day_row (y m d : Z) : Z :=
  let first := weekday_column (date_number y m 1) in
  2 + (if first =? 0 then 1 else 0) + (first + d - 1) / 7.

Definition month_height (y m : Z) : Z := day_row y m (month_length y m) + 1.

(** ** Layout of a year: four bands of three months, each band as high as its
    highest month, an empty row between bands, and the year in row 0. *)
Definition band_height (y : Z) (band : Z) : Z :=
  Z.max (month_height y (3 * band + 1))
    (Z.max (month_height y (3 * band + 2)) (month_height y (3 * band + 3))).

Fixpoint band_top (y : Z) (band : nat) : Z :=
  match band with
  | O => 1
  | S band => band_top y band + band_height y (Z.of_nat band) + 1
  end.

(** [s] is shown centered in a row of [width] characters that is otherwise blank. *)
Definition centered (t : list ascii) (row width : nat) (s : list ascii) : Prop :=
  let left := Nat.div (width - length s) 2 in
  shows t row left s /\
  forall col, (col < left \/ left + length s <= col)%nat -> shown t row col = blank.
