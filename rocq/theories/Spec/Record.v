(** Dates and instants as they are written in the recorded schedules. *)
From Coq Require Import String Ascii ZArith List.
From Verif.Spec Require Import Schedule Civil.
Import ListNotations.
Open Scope Z_scope.

Definition chars : string -> list ascii := list_ascii_of_string.

(** [numeral t n]: the decimal digits [t] denote [n]. *)
Inductive numeral : list ascii -> Z -> Prop :=
| no_digit : numeral [] 0
| next_digit : forall t n d c, numeral t n -> nth_error (chars "0123456789") d = Some c ->
    numeral (t ++ [c]) (10 * n + Z.of_nat d).
Definition digits (w : nat) (t : list ascii) (n : Z) : Prop := length t = w /\ numeral t n.

(** [YYYY-MM-DD], for the day with number [n]. *)
Definition date_written (t : list ascii) (n : Z) : Prop :=
  exists y m d ty tm td, t = (ty ++ chars "-" ++ tm ++ chars "-" ++ td)%list /\
    digits 4 ty y /\ digits 2 tm m /\ digits 2 td d /\ valid_date y m d /\ n = date_number y m d.

(** The fraction of a second, in nanoseconds: none, or six or nine digits. *)
Definition fraction_written (t : list ascii) (f : Z) : Prop :=
  (t = [] /\ f = 0) \/
  (exists tf us, t = (chars "." ++ tf)%list /\ digits 6 tf us /\ f = 1000 * us) \/
  (exists tf, t = (chars "." ++ tf)%list /\ digits 9 tf f).

(** [YYYY-MM-DD HH:MM:SS], perhaps a fraction, then the text [offset]. *)
Definition instant_with (offset : list ascii) (t : list ascii) (u : Z) : Prop :=
  exists n h m s f td th tm ts tf,
    t = (td ++ chars " " ++ th ++ chars ":" ++ tm ++ chars ":" ++ ts ++ tf ++ offset)%list /\
    date_written td n /\ digits 2 th h /\ digits 2 tm m /\ digits 2 ts s /\ fraction_written tf f /\
    h < 24 /\ m < 60 /\ s < 60 /\
    u = (((n * 24 + h) * 60 + m) * 60 + s) * 10 ^ 9 + f.

(** The instant [u] in UTC, as the script writes it. *)
Definition instant_written : list ascii -> Z -> Prop := instant_with (chars "+00:00").

(** All forms that occur in the files: the date alone means its midnight, and without
    an offset UTC is meant. *)
Definition timestamp_written (t : list ascii) (u : Z) : Prop :=
  (exists n, date_written t n /\ u = n * (86400 * 10 ^ 9)) \/ instant_written t u \/ instant_with [] t u.

(** The line for a session: its date, its open and its close. *)
Definition line_of (s : session) (t : list ascii) : Prop :=
  exists a b c, t = (a ++ chars "," ++ b ++ chars "," ++ c)%list /\
    date_written a (s_label s / (86400 * 10 ^ 9)) /\ instant_written b (s_open s) /\ instant_written c (s_close s).

(** Instants that 64 bits of nanoseconds hold; labels are midnights. *)
Definition fits_file (s : session) : Prop :=
  - 2 ^ 63 < s_label s < 2 ^ 63 /\ (86400 * 10 ^ 9 | s_label s) /\
  - 2 ^ 63 < s_open s < 2 ^ 63 /\ - 2 ^ 63 < s_close s < 2 ^ 63.
