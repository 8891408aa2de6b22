(** Query methods of [TradingCalendar] (trading_calendars/trading_calendar.py).

    A calendar object is represented by the arrays that [__init__] leaves in it
    (trading_calendar.py:155-190).  [schedule.index], the [schedule] columns and
    the [market_*_nanos] arrays derived from them hold the same numbers, so one
    list stands for both; tz-localising a UTC instant is the identity on its
    nanosecond value. *)
From Coq Require Import String ZArith List Bool.
From Verif.Model Require Import Base Helpers.
Import ListNotations.
Open Scope Z_scope.

(** trading_calendar.py:155-190: [schedule.index], [market_opens_nanos],
    [market_break_starts_nanos], [market_break_ends_nanos],
    [market_closes_nanos], [_trading_minutes_nanos] (= [all_minutes]). *)
Record calendar : Type := Calendar {
  sessions : list Z;
  opens : list Z;
  break_starts : list Z;
  break_ends : list Z;
  closes : list Z;
  minutes : list Z
}.

(** trading_calendar.py:1132-1155 [_check_breaks_match]. *)
Fixpoint nats_match (bstarts bends : list Z) : bool :=
  match bstarts, bends with
  | bs :: bss, be :: bes =>
      Bool.eqb (NP_NAT =? bs) (NP_NAT =? be) && nats_match bss bes
  | _, _ => true
  end.

(** trading_calendar.py:172-190, the part of [__init__] after the schedule
    columns are final: break check, then [all_minutes] (932-945). *)
Definition make_calendar (labels os bss bes cs : list Z) : result calendar :=
  if nats_match bss bes then
    do ms <- compute_all_minutes os bss bes cs;
    Ok (Calendar labels os bss bes cs ms)
  else Raise ValueError.

(** trading_calendar.py:381-395 *)
Definition is_session (c : calendar) (dt : Z) : bool := contains (sessions c) dt.

(** trading_calendar.py:397-443.  Reading the break arrays at [open_idx - 1]
    could raise IndexError in a malformed calendar, hence the result type.
    NaT is compared as its int64 value, as the code does. *)
Definition is_open_on_minute (c : calendar) (dt : Z) (ignore_breaks : bool)
  : result bool :=
  let open_idx := searchsorted_left (opens c) dt in
  let close_idx := searchsorted_left (closes c) dt in
  if negb (open_idx =? close_idx) then
    if ignore_breaks then Ok true
    else
      do bs <- pyget (break_starts c) (open_idx - 1);
      do be <- pyget (break_ends c) (open_idx - 1);
      if (bs <=? dt) && (dt <? be) then Ok false else Ok true
  else
    match pyget (opens c) open_idx with
    | Ok o => Ok (dt =? o)
    | Raise IndexError => Ok false
    | Raise e => Raise e
    end.

(** trading_calendar.py:445-463 *)
Definition next_open (c : calendar) (dt : Z) : result Z :=
  do idx <- next_divider_idx (opens c) dt; pyget (opens c) idx.

(** trading_calendar.py:465-480 *)
Definition next_close (c : calendar) (dt : Z) : result Z :=
  do idx <- next_divider_idx (closes c) dt; pyget (closes c) idx.

(** trading_calendar.py:482-497 *)
Definition previous_open (c : calendar) (dt : Z) : result Z :=
  do idx <- previous_divider_idx (opens c) dt; pyget (opens c) idx.

(** trading_calendar.py:499-514 *)
Definition previous_close (c : calendar) (dt : Z) : result Z :=
  do idx <- previous_divider_idx (closes c) dt; pyget (closes c) idx.

(** trading_calendar.py:516-532 *)
Definition next_minute (c : calendar) (dt : Z) : result Z :=
  do idx <- next_divider_idx (minutes c) dt; pyget (minutes c) idx.

(** trading_calendar.py:534-552 *)
Definition previous_minute (c : calendar) (dt : Z) : result Z :=
  do idx <- previous_divider_idx (minutes c) dt; pyget (minutes c) idx.

(** trading_calendar.py:554-581 *)
Definition next_session_label (c : calendar) (session_label : Z) : result Z :=
  do idx <- get_loc (sessions c) session_label;
  match pyget (sessions c) (idx + 1) with
  | Ok l => Ok l
  | Raise IndexError =>
      if idx =? zlen (sessions c) - 1 then Raise ValueError
      else Raise IndexError
  | Raise e => Raise e
  end.

(** trading_calendar.py:583-607 *)
Definition previous_session_label (c : calendar) (session_label : Z)
  : result Z :=
  do idx <- get_loc (sessions c) session_label;
  if idx =? 0 then Raise ValueError else pyget (sessions c) (idx - 1).

(** [self.schedule.at[label, column]]: KeyError for an unknown label. *)
Definition schedule_at (c : calendar) (column : calendar -> list Z) (label : Z)
  : result Z :=
  do idx <- get_loc (sessions c) label; pyget (column c) idx.

(** trading_calendar.py:770-800 *)
Definition minutes_in_range (c : calendar) (start_minute end_minute : Z)
  : result (list Z) :=
  let start_idx := searchsorted_left (minutes c) start_minute in
  let end_idx := searchsorted_left (minutes c) end_minute in
  do m <- pyget (minutes c) end_idx;
  let end_idx := if end_minute =? m then end_idx + 1 else end_idx in
  Ok (pyslice (minutes c) start_idx end_idx).

(** trading_calendar.py:609-626 *)
Definition minutes_for_session (c : calendar) (session_label : Z)
  : result (list Z) :=
  do o <- schedule_at c opens session_label;
  do cl <- schedule_at c closes session_label;
  minutes_in_range c o cl.

(** trading_calendar.py:628-649.  [from_open] and [from_close] are the
    overridable methods [execution_time_from_open/close]. *)
Definition execution_minutes_for_session (from_open from_close : Z -> Z)
  (c : calendar) (session_label : Z) : result (list Z) :=
  do o <- schedule_at c opens session_label;
  do cl <- schedule_at c closes session_label;
  minutes_in_range c (from_open o) (from_close cl).

(** trading_calendar.py:926-930, defaults of the overridable methods *)
Definition execution_time_from_open (open_dates : Z) : Z := open_dates.
Definition execution_time_from_close (close_dates : Z) : Z := close_dates.

(** trading_calendar.py:914-924 *)
Definition all_sessions (c : calendar) : list Z := sessions c.
Definition first_session (c : calendar) : result Z := pyget (all_sessions c) 0.
Definition last_session (c : calendar) : result Z := pyget (all_sessions c) (-1).

(** trading_calendar.py:681-704 *)
Definition sessions_in_range (c : calendar) (start_label end_label : Z)
  : list Z :=
  label_slice (all_sessions c) (all_sessions c) start_label end_label.

(** trading_calendar.py:651-659; [np.concatenate([])] raises ValueError. *)
Definition execution_minutes_for_sessions_in_range
  (from_open from_close : Z -> Z) (c : calendar) (start stop : Z)
  : result (list Z) :=
  do pieces <- mapM (execution_minutes_for_session from_open from_close c)
                    (sessions_in_range c start stop);
  match pieces with
  | [] => Raise ValueError
  | _ => Ok (concat pieces)
  end.

(** trading_calendar.py:661-679 *)
Definition minutes_window (c : calendar) (start_dt count : Z)
  : result (list Z) :=
  let start_idx := searchsorted_left (minutes c) start_dt in
  do m <- pyget (minutes c) start_idx;
  let start_idx := if negb (m =? start_dt) then start_idx - 1 else start_idx in
  if (start_idx <? 0) || (zlen (minutes c) <=? start_idx) then Raise KeyError
  else
    let end_idx := start_idx + count in
    if end_idx <? start_idx then
      Ok (pyslice (minutes c) (end_idx + 1) (start_idx + 1))
    else Ok (pyslice (minutes c) start_idx end_idx).

(** trading_calendar.py:706-731 *)
Definition sessions_window (c : calendar) (session_label count : Z)
  : result (list Z) :=
  do start_idx <- get_loc (sessions c) session_label;
  let end_idx := Z.max 0 (start_idx + count) in
  Ok (pyslice (all_sessions c) (Z.min start_idx end_idx)
              (Z.max start_idx end_idx + 1)).

(** trading_calendar.py:733-768 *)
Definition session_distance (c : calendar) (start_label end_label : Z) : Z :=
  let negate := end_label <? start_label in
  let '(start_label, end_label) :=
    if negate then (end_label, start_label) else (start_label, end_label) in
  let start_idx := searchsorted_left (all_sessions c) start_label in
  let end_idx := searchsorted_right (all_sessions c) end_label in
  let out := end_idx - start_idx in
  if negate then - out else out.

(** trading_calendar.py:868-872, 896-900 *)
Definition session_open (c : calendar) (label : Z) : result Z :=
  schedule_at c opens label.
Definition session_close (c : calendar) (label : Z) : result Z :=
  schedule_at c closes label.

(** A [datetime64] cell read back as a Timestamp: NaT is [None]. *)
Definition cell (v : Z) : option Z := if v =? NP_NAT then None else Some v.

(** trading_calendar.py:874-894 *)
Definition session_break_start (c : calendar) (label : Z)
  : result (option Z) :=
  do v <- schedule_at c break_starts label; Ok (cell v).
Definition session_break_end (c : calendar) (label : Z)
  : result (option Z) :=
  do v <- schedule_at c break_ends label; Ok (cell v).

(** trading_calendar.py:828-846 *)
Definition open_and_close_for_session (c : calendar) (label : Z)
  : result (Z * Z) :=
  do o <- session_open c label;
  do cl <- session_close c label;
  Ok (o, cl).

(** trading_calendar.py:848-866 *)
Definition break_start_and_end_for_session (c : calendar) (label : Z)
  : result (option Z * option Z) :=
  do bs <- session_break_start c label;
  do be <- session_break_end c label;
  Ok (bs, be).

(** trading_calendar.py:902-912 *)
Definition session_opens_in_range (c : calendar) (a b : Z) : list Z :=
  label_slice (sessions c) (opens c) a b.
Definition session_closes_in_range (c : calendar) (a b : Z) : list Z :=
  label_slice (sessions c) (closes c) a b.

(** trading_calendar.py:802-826 *)
Definition minutes_for_sessions_in_range (c : calendar) (a b : Z)
  : result (list Z) :=
  do (first_minute, _) <- open_and_close_for_session c a;
  do (_, last_minute) <- open_and_close_for_session c b;
  minutes_in_range c first_minute last_minute.

(** trading_calendar.py:274-283 [_minutes_per_session], one row; NaT - NaT is
    filled with 0.  [astype("timedelta64[m]")] divides by one minute
    (truncation; equal to floor on the non-negative differences of a schedule).
    Simplification: the float64 results are exact integers here. *)
Definition minutes_per_session_row (o bs be cl : Z) : Z :=
  let close_to_open_diff := cl - o in
  let break_diff :=
    if (bs =? NP_NAT) || (be =? NP_NAT) then 0 else be - bs in
  Z.quot (close_to_open_diff - break_diff) NANOSECONDS_PER_MINUTE + 1.

Fixpoint minutes_per_session_rows (os bss bes cs : list Z) : list Z :=
  match os, bss, bes, cs with
  | o :: os', bs :: bss', be :: bes', cl :: cs' =>
      minutes_per_session_row o bs be cl
      :: minutes_per_session_rows os' bss' bes' cs'
  | _, _, _, _ => []
  end.

Definition minutes_per_session (c : calendar) : list Z :=
  minutes_per_session_rows (opens c) (break_starts c) (break_ends c) (closes c).

(** trading_calendar.py:285-300 *)
Definition minutes_count_for_sessions_in_range (c : calendar) (a b : Z) : Z :=
  zsum (label_slice (sessions c) (minutes_per_session c) a b).

(** trading_calendar.py:170: the one-entry cache [(dt, label)] or [(None, None)]. *)
Definition cache : Type := option (Z * Z).

(** trading_calendar.py:947-998.  Returns the result and the new cache. *)
Definition minute_to_session_label (c : calendar) (cc : cache) (dt : Z)
  (direction : string) : result Z * cache :=
  let lookup :=
    let idx := searchsorted_left (closes c) dt in
    match pyget (sessions c) idx with
    | Raise e => (Raise e, cc)
    | Ok current_or_next_session =>
        if String.eqb direction "next"%string then
          (Ok current_or_next_session, Some (dt, current_or_next_session))
        else if String.eqb direction "previous"%string then
          match is_open_on_minute c dt true with
          | Raise e => (Raise e, cc)
          | Ok false => (pyget (sessions c) (idx - 1), cc)
          | Ok true => (Ok current_or_next_session, cc)
          end
        else if String.eqb direction "none"%string then
          match is_open_on_minute c dt false with
          | Raise e => (Raise e, cc)
          | Ok false => (Raise ValueError, cc)
          | Ok true => (Ok current_or_next_session, cc)
          end
        else (Raise ValueError, cc)
    end in
  if String.eqb direction "next"%string then
    match cc with
    | Some (dt0, label0) => if dt0 =? dt then (Ok label0, cc) else lookup
    | None => lookup
    end
  else lookup.

(** A history of calls on one calendar object. *)
Fixpoint run_lookups (c : calendar) (cc : cache) (calls : list (Z * string))
  : list (result Z) * cache :=
  match calls with
  | [] => ([], cc)
  | (dt, direction) :: calls' =>
      let '(r, cc') := minute_to_session_label c cc dt direction in
      let '(rs, cc'') := run_lookups c cc' calls' in
      (r :: rs, cc'')
  end.

(** [index.is_monotonic_increasing] (non-strict). *)
Fixpoint is_monotonic_increasing (l : list Z) : bool :=
  match l with
  | a :: (b :: _) as l' => (a <=? b) && is_monotonic_increasing l'
  | _ => true
  end.

(** trading_calendar.py:1000-1059.  Building the error message reads
    [schedule.iloc[prev_day]] and [schedule.iloc[prev_day + 1]] of the first
    bad minute, which can itself raise IndexError. *)
Definition minute_index_to_session_labels (c : calendar) (index : list Z)
  : result (list Z) :=
  if negb (is_monotonic_increasing index) then Raise ValueError
  else
    let prev_opens := map (fun t => searchsorted_right (opens c) t - 1) index in
    let next_closes := map (fun t => searchsorted_left (closes c) t) index in
    let pairs := combine prev_opens next_closes in
    match find (fun p => negb (fst p =? snd p)) pairs with
    | Some (prev_day, _) =>
        do _ <- pyget (sessions c) prev_day;
        do _ <- pyget (sessions c) (prev_day + 1);
        Raise ValueError
    | None => mapM (pyget (sessions c)) prev_opens
    end.
