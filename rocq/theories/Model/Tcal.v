(** trading_calendars/tcal.py: the unix-cal like command line tool.
    Strings are lists of characters. *)
From Coq Require Import ZArith String Ascii Bool DecimalString List.
From Verif.Model Require Import Base Queries Dates.
Import ListNotations.
Open Scope Z_scope.

Definition text : Type := list ascii.
Definition str (s : string) : text := list_ascii_of_string s.
Definition newline : ascii := ascii_of_nat 10.
Definition space : ascii := ascii_of_nat 32.

(** Python primitives: [str(n)]; [' ' * n]; ['{:>w}'.format], ['{:^w}'.format]
    (the smaller half of the padding goes left); [str.rstrip()] (of the white
    space characters only blanks and newlines occur); [sep.join];
    [str.splitlines()] for "\n". *)
Definition decimal (n : Z) : text := str (NilZero.string_of_int (Z.to_int n)).
Definition blanks (n : nat) : text := repeat space n.
Definition pad_left (w : nat) (t : text) : text := blanks (w - length t) ++ t.
Definition center (w : nat) (t : text) : text :=
  let n := (w - length t)%nat in
  let left := (n / 2)%nat in
  blanks left ++ t ++ blanks (n - left).
Definition is_white (c : ascii) : bool := Ascii.eqb c space || Ascii.eqb c newline.
Fixpoint lstrip (t : text) : text :=
  match t with
  | c :: t' => if is_white c then lstrip t' else t
  | [] => []
  end.
Definition rstrip (t : text) : text := rev (lstrip (rev t)).
Fixpoint join (sep : text) (l : list text) : text :=
  match l with
  | [] => []
  | [t] => t
  | t :: rest => t ++ sep ++ join sep rest
  end.
Fixpoint splitlines_from (line : text) (t : text) : list text :=
  match t with
  | [] => match line with [] => [] | _ => [line] end
  | c :: t' =>
      if Ascii.eqb c newline then line :: splitlines_from [] t'
      else splitlines_from (line ++ [c]) t'
  end.
Definition splitlines (t : text) : list text := splitlines_from [] t.

(** [print(t, file=out)]: the text followed by a newline. *)
Definition println (t : text) : text := t ++ [newline].

(** tcal.py:6-19 *)
Definition months : list text :=
  map str ["January"; "February"; "March"; "April"; "May"; "June"; "July"; "August";
           "September"; "October"; "November"; "December"]%string.

(** tcal.py:39-45: [pd.date_range] from the first of the month (inclusive) to the
    first of the next month (exclusive), as day numbers.  Library behaviour; the
    strings '{year}-{month}' are read as the first of that month.  A month outside
    1-12 makes pandas raise ValueError.  Simplification: so does a year pandas
    cannot represent, which is not modelled. *)
Fixpoint day_range (n : nat) (d : Z) : list Z :=
  match n with O => [] | S n => d :: day_range n (d + 1) end.
Definition month_days (year month : Z) : result (list Z) :=
  if (1 <=? month) && (month <=? 12) then
    let start := days_from_civil year month 1 in
    let stop := if month =? 12 then days_from_civil (year + 1) 1 1
                else days_from_civil year (month + 1) 1 in
    Ok (day_range (Z.to_nat (stop - start)) start)
  else Raise ValueError.

(** tcal.py:59-73: what the loop prints for day [d]. *)
Definition render_day (c : calendar) (d : Z) : text :=
  let '(a, b) := if is_session c (midnight d) then (str " ", str " ")
                 else (str "[", str "]") in
  (if weekday d =? 6 then [newline] else []) ++
  a ++ pad_left 2 (decimal (mday_of d)) ++ b.

(** tcal.py:27-76 *)
Definition render_month (c : calendar) (year month : Z) (print_year : bool) : result text :=
  do days <- month_days year month;
  do name <- pyget months (month - 1);
  let title := if print_year then name ++ str " " ++ decimal year else name in
  do first <- pyget days 0;
  Ok (println (rstrip (center 28 title)) ++
      println (str " Su  Mo  Tu  We  Th  Fr  Sa") ++
      blanks (Z.to_nat (4 * ((weekday first + 1) mod 7))) ++
      concat (map (render_day c) days) ++
      println []).

(** tcal.py:84-93: one row of the page; lines are padded to the width. *)
Definition pad_right (w : nat) (t : text) : text := t ++ blanks (w - length t).

(** tcal.py:79-97.  The [zip] over all line lists, after all have [max_lines] lines: row [i]
    consists of the [i]-th line of every string. *)
Definition concat_lines (strings : list text) (width : nat) : text :=
  let as_lines := map splitlines strings in
  let max_lines := list_max (map (@length text) as_lines) in
  let extended := map (fun lines =>
    lines ++ repeat (blanks width) (max_lines - length lines)) as_lines in
  let rows := map (fun i =>
    join (str "   ") (map (fun lines => pad_right width (nth i lines [])) extended))
    (seq 0 max_lines) in
  join [newline] (map rstrip rows).

(** tcal.py:139-159, the part of [main] after [parse_args]: what is printed. *)
Fixpoint render_months (c : calendar) (year : Z) (ms : list Z) : result (list text) :=
  match ms with
  | [] => Ok []
  | m :: ms =>
      do t <- render_month c year m false;
      do rest <- render_months c year ms;
      Ok (t :: rest)
  end.
Definition show (c : calendar) (year : Z) (month : option Z) : result text :=
  match month with
  | Some m => do t <- render_month c year m true; Ok (println t)
  | None =>
      do r1 <- render_months c year [1; 2; 3];
      do r2 <- render_months c year [4; 5; 6];
      do r3 <- render_months c year [7; 8; 9];
      do r4 <- render_months c year [10; 11; 12];
      Ok (println (rstrip (center 88 (decimal year) ++ [newline])) ++
          println (join [newline; newline]
            (map (fun cs => concat_lines cs 28) [r1; r2; r3; r4])))
  end.

(** tcal.py:22-24, 100-136: command line arguments.  [inl] is the result, [inr]
    the message with which [error] exits.  [argv] is the program name and the
    arguments; [get_calendar], the current year and month, [int()] ([None] for
    ValueError) and [repr] are parameters. *)
Definition text_eqb (a b : text) : bool := if list_eq_dec ascii_dec a b then true else false.
Definition usage (prog : text) : text :=
  str "usage: " ++ prog ++ str " CALENDAR [[[DAY] MONTH] YEAR]".
Definition int_arg (int_of : text -> option Z) (repr : text -> text) (v : text) (name : string)
  : Z + text :=
  match int_of v with
  | Some n => inl n
  | None => inr (str name ++ str " must be an integer, got: " ++ repr v)
  end.
Definition parse_args (get_calendar : text -> calendar + text) (now : Z * Z)
  (int_of : text -> option Z) (repr : text -> text) (prog : text) (args : list text)
  : (calendar * Z * option Z) + text :=
  if match args with [] => true | _ => false end ||
     existsb (text_eqb (str "--help")) (prog :: args) ||
     existsb (text_eqb (str "-h")) (prog :: args)
  then inr (usage prog)
  else
    match args with
    | [] => inr (usage prog)
    | name :: rest =>
        match get_calendar name with
        | inr e => inr e
        | inl c =>
            match rest with
            | [] => inl (c, fst now, Some (snd now))
            | [y] =>
                match int_arg int_of repr y "YEAR" with
                | inr e => inr e
                | inl year => inl (c, year, None)
                end
            | [m; y] =>
                match int_arg int_of repr m "MONTH" with
                | inr e => inr e
                | inl month =>
                    match int_arg int_of repr y "YEAR" with
                    | inr e => inr e
                    | inl year => inl (c, year, Some month)
                    end
                end
            | _ => inr (usage prog)
            end
        end
    end.

(** tcal.py:139-159, [main]: what is printed on standard output (or the exception
    raised), or the message with which the program exits. *)
Definition main (get_calendar : text -> calendar + text) (now : Z * Z)
  (int_of : text -> option Z) (repr : text -> text) (prog : text) (args : list text)
  : result text + text :=
  match parse_args get_calendar now int_of repr prog args with
  | inr message => inr message
  | inl (c, year, month) => inl (show c year month)
  end.
