(** What it means to convert UTC to terrestrial time, and what a rolling mean is,
    without reference to the program. *)
From Coq Require Import ZArith QArith List Reals.
Import ListNotations.
Open Scope Z_scope.

(** ** Terrestrial time *)

(** A table of corrections: the day since 1970-01-01 on which a row starts, and the
    seconds to add to UTC, in ten-thousandths. *)
Definition table : Type := list (Z * Z).

Definition begins (row : Z * Z) : Z := fst row * 86400.

(** At [t], seconds since 1970-01-01, the row that has begun last is in force. *)
Definition in_force (rows : table) (t : Z) (row : Z * Z) : Prop :=
  exists before after, rows = before ++ row :: after /\ begins row <= t /\
    forall r, In r after -> t < begins r.

(** The row that comes next after [t]: none has begun before it that begins after [t];
    if all rows have begun, the last one. *)
Definition comes_next (rows : table) (t : Z) (row : Z * Z) : Prop :=
  exists before after, rows = before ++ row :: after /\
    (forall r, In r before -> begins r <= t) /\
    (t < begins row \/ after = []).

(** The Julian date counts days; 1970-01-01 00:00 is 2440587.5.  [t] in seconds, the
    correction in ten-thousandths of a second. *)
Definition julian_date (t correction : Z) : R :=
  (2440587 + 1 / 2 + (IZR t + IZR correction / 10000) / 86400)%R.

(** A tenth of a millisecond, in days. *)
Definition tenth_of_a_millisecond : R := (1 / (86400 * 10000))%R.

(** The instants considered: about 4750 years before and after 1970. *)
Definition historic (t : Z) : Prop := -150000000000 <= t <= 150000000000.

(** ** Rolling mean *)

(** The sum of [n] numbers of [l] from position [i] on. *)
Fixpoint sum_from (l : list Q) (i n : nat) : Q :=
  match n with
  | O => 0
  | S n' => nth i l 0%Q + sum_from l (S i) n'
  end%Q.

(** Their mean. *)
Definition mean (l : list Q) (i n : nat) : Q := (sum_from l i n / inject_Z (Z.of_nat n))%Q.
