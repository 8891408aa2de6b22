(** etc/make_trading_calendar_test_csv.py, which records the schedule of a calendar
    in a file, and tests/test_trading_calendar.py:211-238, which reads such a file.
    Texts are lists of characters, as in Tcal.v. *)
From Coq Require Import String Ascii ZArith Bool List.
From Verif.Model Require Import Base Dates Queries Dispatcher Tcal.
Import ListNotations.
Open Scope Z_scope.

(** ** Writing *)

(** ['%0wd' % n], for a number that is not negative and has at most [w] digits. *)
Definition digit_char (d : Z) : ascii := ascii_of_nat (48 + Z.to_nat d).
Fixpoint zero_padded (w : nat) (n : Z) : text :=
  match w with O => [] | S w => zero_padded w (n / 10) ++ [digit_char (n mod 10)] end.

(** [str(datetime.date)], for years of at most four digits. *)
Definition date_text (day : Z) : text :=
  let '(y, m, d) := civil_from_days day in
  zero_padded 4 y ++ str "-" ++ zero_padded 2 m ++ str "-" ++ zero_padded 2 d.

(** [str(pd.Timestamp)] of an instant in UTC: six digits of fraction if that is
    exact, nine otherwise, none if there is no fraction. *)
Definition fraction_text (f : Z) : text :=
  if f =? 0 then []
  else if f mod 1000 =? 0 then str "." ++ zero_padded 6 (f / 1000)
  else str "." ++ zero_padded 9 f.
Definition timestamp_text (ts : Z) : text :=
  let day := day_of ts in
  let nanos := ts - midnight day in
  let s := nanos / NANOS_PER_SECOND in
  date_text day ++ str " " ++ zero_padded 2 (s / 3600) ++ str ":" ++ zero_padded 2 (s / 60 mod 60) ++
  str ":" ++ zero_padded 2 (s mod 60) ++ fraction_text (nanos mod NANOS_PER_SECOND) ++ str "+00:00".

(** make_trading_calendar_test_csv.py:20-25, 35: the frame of opens and closes
    ([zip] of the two columns), the index replaced by its dates, and [to_csv]
    (header, then one line per row; nothing has to be quoted). *)
Definition csv_header : text := str ",market_open,market_close".
Definition csv_row (label : Z) (row : Z * Z) : text :=
  date_text (day_of label) ++ str "," ++ timestamp_text (fst row) ++ str "," ++ timestamp_text (snd row).
Fixpoint csv_rows (labels : list Z) (rows : list (Z * Z)) : list text :=
  match labels, rows with
  | label :: labels, row :: rows => csv_row label row :: csv_rows labels rows
  | _, _ => []
  end.
Definition csv_file (c : calendar) : text :=
  concat (map println (csv_header :: csv_rows (sessions c) (combine (opens c) (closes c)))).

(** make_trading_calendar_test_csv.py:17-18, 27-32.  [str.upper], [str.lower]
    (simplification: of ASCII names; the directory of the script is left out of the
    path, and whether the directory in the path exists is not modelled). *)
Definition upper_char (a : ascii) : ascii :=
  let n := nat_of_ascii a in if (97 <=? n)%nat && (n <=? 122)%nat then ascii_of_nat (n - 32) else a.
Definition lower_char (a : ascii) : ascii :=
  let n := nat_of_ascii a in if (65 <=? n)%nat && (n <=? 90)%nat then ascii_of_nat (n + 32) else a.
Fixpoint map_string (f : ascii -> ascii) (s : string) : string :=
  match s with EmptyString => EmptyString | String a s => String (f a) (map_string f s) end.
Definition upper : string -> string := map_string upper_char.
Definition lower : string -> string := map_string lower_char.
Definition destination (cal_name : string) : string :=
  ("tests/resources/" ++ lower cal_name ++ ".csv")%string.

(** The script run with [cal_name] as its argument: the file written, and its
    contents.  [build] says what factories do (as in Dispatcher.v) and [contents]
    which calendar an instance is. *)
Definition make_test_csv (build : factory -> list factory -> option instance) (contents : instance -> calendar)
  (d : dispatcher) (cal_name : string) : outcome (string * text) :=
  match get_calendar build d (upper cal_name) with
  | (Returns i, _) => Returns (destination cal_name, csv_file (contents i))
  | (Raises e, _) => Raises e
  end.

(** ** Reading *)

(** The next [w] characters as a number; the next character, which must be [c]. *)
Definition digit_of (a : ascii) : option Z :=
  let n := nat_of_ascii a in
  if (48 <=? n)%nat && (n <=? 57)%nat then Some (Z.of_nat (n - 48)) else None.
Fixpoint number_from (w : nat) (acc : Z) (t : text) : option (Z * text) :=
  match w, t with
  | O, _ => Some (acc, t)
  | S w, a :: t =>
      match digit_of a with Some d => number_from w (10 * acc + d) t | None => None end
  | S _, [] => None
  end.
Definition number (w : nat) (t : text) : option (Z * text) := number_from w 0 t.
Definition expect (c : ascii) (t : text) : option text :=
  match t with a :: t => if Ascii.eqb a c then Some t else None | [] => None end.

Notation "'get' p <- e ; k" := (match e with Some p => k | None => None end)
  (at level 200, p pattern, e at level 100, k at level 200, right associativity).

(** [YYYY-MM-DD], refused if there is no such date. *)
Definition read_date (t : text) : option (Z * text) :=
  get (y, t) <- number 4 t; get t <- expect "-" t;
  get (m, t) <- number 2 t; get t <- expect "-" t;
  get (d, t) <- number 2 t;
  let day := days_from_civil y m d in
  let '(y', m', d') := civil_from_days day in
  if (1 <=? m) && (m <=? 12) && (y =? y') && (m =? m') && (d =? d') then Some (day, t) else None.

(** The fraction: [.] and digits, of which there are six or nine in these files. *)
Definition read_fraction (t : text) : option (Z * text) :=
  match expect "." t with
  | None => Some (0, t)
  | Some t =>
      match number 9 t with
      | Some r => Some r
      | None => get (us, t) <- number 6 t; Some (1000 * us, t)
      end
  end.

(** test_trading_calendar.py:229, [pd.Timestamp(x, tz=UTC)], for the forms that
    occur: a date, or a date and a time, with [+00:00] or without offset (then UTC
    is meant). *)
Definition read_offset (t : text) : option unit :=
  match t with
  | [] => Some tt
  | _ => if list_eq_dec ascii_dec t (str "+00:00") then Some tt else None
  end.
Definition read_clock (t : text) : option Z :=
  get t <- expect " " t;
  get (h, t) <- number 2 t; get t <- expect ":" t;
  get (m, t) <- number 2 t; get t <- expect ":" t;
  get (s, t) <- number 2 t;
  get (f, t) <- read_fraction t;
  get tt <- read_offset t;
  if (h <? 24) && (m <? 60) && (s <? 60)
  then Some (((h * 60 + m) * 60 + s) * NANOS_PER_SECOND + f) else None.
Definition read_timestamp (t : text) : result Z :=
  match read_date t with
  | None => Raise ValueError
  | Some (day, []) => Ok (midnight day)
  | Some (day, t) =>
      match read_clock t with Some nanos => Ok (midnight day + nanos) | None => Raise ValueError end
  end.

(** test_trading_calendar.py:222-230, [read_csv]: the header is skipped, and so are
    empty lines; the columns of a row are separated by commas.  Simplification: a
    row that has not three columns is refused (as one with more is; pandas fills a
    shorter one up). *)
Fixpoint split_from (sep : ascii) (word : text) (t : text) : list text :=
  match t with
  | [] => [word]
  | a :: t => if Ascii.eqb a sep then word :: split_from sep [] t else split_from sep (word ++ [a]) t
  end.
Definition read_row (line : text) : result (Z * (Z * Z)) :=
  match split_from "," [] line with
  | [a; b; c] => do x <- read_timestamp a; do y <- read_timestamp b; do z <- read_timestamp c; Ok (x, (y, z))
  | _ => Raise ValueError
  end.
Fixpoint read_rows (lines : list text) : result (list (Z * (Z * Z))) :=
  match lines with
  | [] => Ok []
  | line :: lines => do r <- read_row line; do rs <- read_rows lines; Ok (r :: rs)
  end.
Definition not_blank (line : text) : bool := match line with [] => false | _ => true end.
Definition load_answer_key (file : text) : result (list (Z * (Z * Z))) :=
  match filter not_blank (splitlines file) with
  | [] => Raise ValueError
  | _ :: lines => read_rows lines
  end.

(** test_trading_calendar.py:236-238: the dates of the first and the last row, with
    which the calendar under test is made. *)
Definition answer_range (rows : list (Z * (Z * Z))) : result (Z * Z) :=
  match rows with
  | [] => Raise IndexError
  | (first, _) :: _ => Ok (first, last (map fst rows) first)
  end.
