(** Texts of errors: errors.py, the report of minute_index_to_session_labels. *)
From Coq Require Import String Ascii NArith ZArith List Bool.
From Verif.Model Require Import Base Queries Dispatcher.
Import ListNotations.
Open Scope string_scope.

(** ** Texts *)

(** [repr(c)] of one character in the quotes [q], for Latin-1 characters: those that
    are not printable are written as [\xNN]. *)
Definition hex_char (n : N) : ascii :=
  ascii_of_N (if (n <? 10)%N then 48 + n else 87 + n).
Definition printable (a : ascii) : bool :=
  let n := N_of_ascii a in
  ((32 <=? n) && (n <=? 126) || (161 <=? n) && negb (n =? 173))%N.
Definition escape (q a : ascii) : string :=
  let n := N_of_ascii a in
  if Ascii.eqb a q || Ascii.eqb a "\" then String "\" (String a EmptyString)
  else if (n =? 9)%N then "\t"
  else if (n =? 10)%N then "\n"
  else if (n =? 13)%N then "\r"
  else if printable a then String a EmptyString
  else "\x" ++ String (hex_char (n / 16)) (String (hex_char (n mod 16)) EmptyString).
Fixpoint escape_all (q : ascii) (s : string) : string :=
  match s with
  | EmptyString => EmptyString
  | String a s' => escape q a ++ escape_all q s'
  end.
Fixpoint contains (c : ascii) (s : string) : bool :=
  match s with
  | EmptyString => false
  | String a s' => Ascii.eqb a c || contains c s'
  end.
(** [repr(s)] (Python 3) *)
Definition double_quote : ascii := ascii_of_N 34.
Definition py_repr (s : string) : string :=
  let q := if contains "'" s && negb (contains double_quote s) then double_quote else "'"%char in
  String q (escape_all q s ++ String q EmptyString).

(** [msg.format( **kwargs)] for a text with fields [{name}] and no other braces:
    [key] collects the name of an open field.  An inserted value is not read again;
    a field without value raises KeyError, a brace that is not closed ValueError. *)
Fixpoint format_from (key : option string) (msg : string) (kwargs : list (string * string)) : result string :=
  match key, msg with
  | None, EmptyString => Ok EmptyString
  | None, String "{" msg' => format_from (Some EmptyString) msg' kwargs
  | None, String a msg' => do rest <- format_from None msg' kwargs; Ok (String a rest)
  | Some k, String "}" msg' =>
      match find (fun kv => String.eqb (fst kv) k) kwargs with
      | None => Raise KeyError
      | Some (_, v) => do rest <- format_from None msg' kwargs; Ok (v ++ rest)
      end
  | Some k, String a msg' => format_from (Some (k ++ String a EmptyString)) msg' kwargs
  | Some _, EmptyString => Raise ValueError
  end.
Definition format := format_from None.

(** errors.py:36-59, the [msg] of the classes that the dispatcher raises. *)
Definition msg_invalid_name : string := "The requested TradingCalendar, {calendar_name}, does not exist.".
Definition msg_collision : string := "A calendar with the name {calendar_name} is already registered.".
Definition msg_cycle : string := "Cycle in calendar aliases: [{cycle}]".

(** errors.py:28-30 [__str__] (also [__repr__], and [message], which keeps it), with the
    keywords that calendar_utils.py:196, 255, 286, 316, 352-354 pass.  Exceptions of a
    factory have a text of their own: [None]. *)
Definition str_error (e : error) : option (result string) :=
  match e with
  | InvalidCalendarName n => Some (format msg_invalid_name [("calendar_name", n)])
  | CalendarNameCollision n => Some (format msg_collision [("calendar_name", n)])
  | CyclicCalendarAlias seen =>
      Some (format msg_cycle [("cycle", String.concat " -> " (map py_repr seen))])
  | FactoryError _ | Diverges => None
  end.

(** ** The report of minutes outside the market *)

(** The values in the text of trading_calendar.py:1046-1058 (how pandas prints a
    Timestamp is not modelled). *)
Record report : Type := Report {
  num : Z;
  first_bad : Z;
  prev_open : Z;
  prev_close : Z;
  next_open : Z;
  next_close : Z
}.
Inductive labelled : Type :=
| Labels (labels : list Z)
| NotOrdered
| NonMarket (r : report)
| OtherError (e : exn).

(** trading_calendar.py:1028-1058: [np.flatnonzero(mismatches)[0]] is the first index
    where the two positions differ, [mismatches.sum()] counts them. *)
Definition mismatch (c : calendar) (t : Z) : bool :=
  negb (searchsorted_right (opens c) t - 1 =? searchsorted_left (closes c) t)%Z.
Definition minute_index_outcome (c : calendar) (index : list Z) : labelled :=
  if negb (is_monotonic_increasing index) then NotOrdered
  else
    match filter (mismatch c) index with
    | example :: others =>
        let bad := example :: others in
        let prev_day := (searchsorted_right (opens c) example - 1)%Z in
        let row :=
          do po <- pyget (opens c) prev_day;
          do pc <- pyget (closes c) prev_day;
          do no <- pyget (opens c) (prev_day + 1)%Z;
          do nc <- pyget (closes c) (prev_day + 1)%Z;
          Ok (Report (zlen bad) example po pc no nc) in
        match row with
        | Ok r => NonMarket r
        | Raise e => OtherError e
        end
    | [] =>
        match mapM (pyget (sessions c)) (map (fun t => searchsorted_right (opens c) t - 1)%Z index) with
        | Ok l => Labels l
        | Raise e => OtherError e
        end
    end.

(** The exception that the caller sees. *)
Definition caught (o : labelled) : result (list Z) :=
  match o with
  | Labels l => Ok l
  | NotOrdered | NonMarket _ => Raise ValueError
  | OtherError e => Raise e
  end.
