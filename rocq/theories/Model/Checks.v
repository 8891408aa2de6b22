(** etc/check_holidays.py: comparison of the calendars with a holiday key. *)
From Coq Require Import String Ascii ZArith List Bool.
From Verif.Model Require Import Base Queries Dates Build Holidays Dispatcher.
Import ListNotations.
Open Scope Z_scope.

(** A row of the key: the calendar code and the date, parsed (check_holidays.py:46-51). *)
Definition key : Type := list (string * Z).

(** [str.lstrip('X')] *)
Fixpoint lstrip_X (s : string) : string :=
  match s with
  | String "X"%char s' => lstrip_X s'
  | _ => s
  end.

(** check_holidays.py:59-65; an empty answer_key_calendar_name counts as none. *)
Definition csv_cal_code (answer_key : option string) (strip : bool) (name : string) : string :=
  match answer_key with
  | Some (String a s) => String a s
  | _ => if strip then lstrip_X name else name
  end.

(** check_holidays.py:67-71, a set *)
Definition key_holidays (data : key) (code : string) : list Z :=
  nodup Z.eq_dec (map snd (filter (fun r => String.eqb (fst r) code) data)).

(** The lines of the output.  Simplification: dates stay timestamps, colours are left out. *)
Inductive line : Type :=
| Checking (count : Z) (name : string) (start stop : Z)      (* 91-100 *)
| HolidaysInKey (name : string) (dates : list Z)             (* 110-116 *)
| TradingInKey (name : string) (dates : list Z)              (* 118-124 *)
| Matches (name : string)                                    (* 126-130 *)
| NoHolidays (name : string)                                 (* 79-84 *)
| Blank.                                                     (* 86 *)

(** [a.difference(b)] for an index [a] in order without repetition *)
Definition difference (a b : list Z) : list Z := filter (fun x => negb (memb x b)) a.

(** check_holidays.py:89-130.  [pd.date_range(..., freq='B')] is the range of Mondays to
    Fridays. *)
Definition check_range (start stop : Z) (holidays : list Z) (c : calendar) (name : string) : list line :=
  let dates := date_range (fun d => weekday d <? 5) start stop in
  let expected_sessions := difference dates holidays in
  let actual_sessions := sessions_in_range c start stop in
  let unexpected_sessions := difference actual_sessions expected_sessions in
  let unexpected_holidays := difference expected_sessions actual_sessions in
  [Checking (zlen holidays) name start stop]
  ++ (match unexpected_sessions with [] => [] | _ => [HolidaysInKey name unexpected_sessions] end)
  ++ (match unexpected_holidays with [] => [] | _ => [TradingInKey name unexpected_holidays] end)
  ++ (match unexpected_sessions, unexpected_holidays with [], [] => [Matches name] | _, _ => [] end).

(** check_holidays.py:67-86, for one calendar *)
Definition check_calendar (data : key) (answer_key : option string) (strip : bool) (min_date : Z)
  (name : string) (c : calendar) : result (list line) :=
  match key_holidays data (csv_cal_code answer_key strip name) with
  | [] => Ok [NoHolidays name; Blank]
  | h :: hs =>
      do first <- first_session c;
      do last <- last_session c;
      let start := Z.max (Z.max first (fold_left Z.min hs h)) min_date in
      let stop := Z.min last (fold_left Z.max hs h) in
      Ok (check_range start stop (h :: hs) c name ++ [Blank])
  end.

(** calendar_utils.py:146 [sorted(...)], by code points *)
Fixpoint insert_name (n : string) (l : list string) : list string :=
  match l with
  | [] => [n]
  | m :: l' => if String.leb n m then n :: l else m :: insert_name n l'
  end.
Definition default_calendar_names : list string := fold_right insert_name [] (keys default_calendar_factories).

(** check_holidays.py:53-86: the loop over the default names; [get] is [get_calendar].  The
    output up to an exception is dropped. *)
Definition check_holidays (get : string -> result calendar) (data : key) (answer_key : option string) (strip : bool)
  (min_date : Z) (calendars : list string) : result (list line) :=
  do blocks <- mapM (fun name => do c <- get name; check_calendar data answer_key strip min_date name c)
    (filter (fun name => match calendars with [] => true | _ => existsb (String.eqb name) calendars end)
       default_calendar_names);
  Ok (concat blocks).
