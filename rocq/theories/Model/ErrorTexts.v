(** The texts of the errors that a calendar raises itself.  Each definition repeats
    the function of Queries.v or Build.v with the text of the exception; errors that
    come from pandas or numpy have no text here. *)
From Coq Require Import String Ascii ZArith Bool List.
From Verif.Model Require Import Base Dates Queries Build Messages Tcal TestCsv.
Import ListNotations.
Open Scope list_scope.
Open Scope Z_scope.

(** A value, or an exception with the argument it was raised with. *)
Inductive answer (A : Type) : Type :=
| Gives (a : A)
| Fails (e : exn) (message : option text).
Arguments Gives {A} a.
Arguments Fails {A} e message.

Definition silent {A : Type} (r : result A) : answer A :=
  match r with Ok a => Gives a | Raise e => Fails e None end.
Definition without_text {A : Type} (r : answer A) : result A :=
  match r with Gives a => Ok a | Fails e _ => Raise e end.

(** [str(e)] of an exception raised with the text [t]: of a KeyError it is the repr. *)
Definition shown (e : exn) (t : text) : text :=
  match e with KeyError => str (py_repr (string_of_list_ascii t)) | _ => t end.

(** trading_calendar.py:554-581 *)
Definition next_session_answer (c : calendar) (session_label : Z) : answer Z :=
  match get_loc (sessions c) session_label with
  | Raise e => Fails e None
  | Ok idx =>
      match pyget (sessions c) (idx + 1) with
      | Raise IndexError =>
          if idx =? zlen (sessions c) - 1 then
            Fails ValueError (Some (str "There is no next session as this is the end" ++
                                    str " of the exchange calendar."))
          else Fails IndexError None
      | r => silent r
      end
  end.

(** trading_calendar.py:583-607 *)
Definition previous_session_answer (c : calendar) (session_label : Z) : answer Z :=
  match get_loc (sessions c) session_label with
  | Raise e => Fails e None
  | Ok idx =>
      if idx =? 0 then
        Fails ValueError (Some (str "There is no previous session as this is the" ++
                                str " beginning of the exchange calendar."))
      else silent (pyget (sessions c) (idx - 1))
  end.

(** trading_calendar.py:661-679.  Simplification: [start_dt] is in UTC. *)
Definition minutes_window_answer (c : calendar) (start_dt count : Z) : answer (list Z) :=
  let start_idx := searchsorted_left (minutes c) start_dt in
  match pyget (minutes c) start_idx with
  | Raise e => Fails e None
  | Ok m =>
      let start_idx := if negb (m =? start_dt) then start_idx - 1 else start_idx in
      if (start_idx <? 0) || (zlen (minutes c) <=? start_idx) then
        Fails KeyError (Some (str "Can't start minute window at " ++ timestamp_text start_dt))
      else
        let end_idx := start_idx + count in
        if end_idx <? start_idx then Gives (pyslice (minutes c) (end_idx + 1) (start_idx + 1))
        else Gives (pyslice (minutes c) start_idx end_idx)
  end.

(** trading_calendar.py:947-998, for a direction other than ["next"], which raises no
    error of its own. *)
Definition lookup_answer (c : calendar) (dt : Z) (direction : string) : answer Z :=
  let idx := searchsorted_left (closes c) dt in
  match pyget (sessions c) idx with
  | Raise e => Fails e None
  | Ok current_or_next_session =>
      if String.eqb direction "previous"%string then
        match is_open_on_minute c dt true with
        | Raise e => Fails e None
        | Ok false => silent (pyget (sessions c) (idx - 1))
        | Ok true => Gives current_or_next_session
        end
      else if String.eqb direction "none"%string then
        match is_open_on_minute c dt false with
        | Raise e => Fails e None
        | Ok false => Fails ValueError (Some (str "The given dt is not an exchange minute!"))
        | Ok true => Gives current_or_next_session
        end
      else Fails ValueError (Some (str "Invalid direction parameter: " ++ str direction))
  end.

(** trading_calendar.py:1016-1018, 1047-1058 *)
Definition report_text (r : report) : text :=
  decimal (num r) ++ str " non-market minutes in minute_index_to_session_labels:" ++ [newline] ++
  str "First Bad Minute: " ++ timestamp_text (first_bad r) ++ [newline] ++
  str "Previous Session: " ++ timestamp_text (prev_open r) ++ str " -> " ++ timestamp_text (prev_close r) ++
  [newline] ++
  str "Next Session: " ++ timestamp_text (next_open r) ++ str " -> " ++ timestamp_text (next_close r).
Definition minute_index_answer (c : calendar) (index : list Z) : answer (list Z) :=
  match minute_index_outcome c index with
  | Labels l => Gives l
  | NotOrdered => Fails ValueError (Some (str "Non-ordered index passed to minute_index_to_session_labels."))
  | NonMarket r => Fails ValueError (Some (report_text r))
  | OtherError e => Fails e None
  end.

(** precomputed_trading_calendar.py:28-48, [name] being [self.name]. *)
Definition precomputed_answer (name : string) (D : definition) (start stop : Z) : answer built :=
  let years := map (fun h => year_of (day_of h)) (adhoc_holidays D) in
  match years with
  | [] => Fails ValueError None
  | y :: ys =>
      let earliest := fold_left Z.min ys y in
      let latest := fold_left Z.max ys y in
      match build D start stop with
      | Raise e => Fails e None
      | Ok b =>
          let first_year := year_of (day_of (first_trading_session b)) in
          let last_year := year_of (day_of (last_trading_session b)) in
          if first_year <? earliest then
            Fails ValueError (Some (str "The " ++ str name ++ str " holidays are only recorded back to " ++
              decimal earliest ++ str "," ++ str " cannot instantiate the " ++ str name ++
              str " calendar back to " ++ decimal first_year ++ str "."))
          else if latest <? last_year then
            Fails ValueError (Some (str "The " ++ str name ++ str " holidays are only recorded to " ++
              decimal latest ++ str "," ++ str " cannot instantiate the " ++ str name ++
              str " calendar for " ++ decimal last_year ++ str "."))
          else Gives b
      end
  end.
