(** Construction of a calendar: [TradingCalendar.__init__] and its helpers
    (trading_calendars/trading_calendar.py:55-201, 1061-1246,
    utils/pandas_utils.py:6-48). *)
From Coq Require Import ZArith List Bool.
From Verif.Model Require Import Base Helpers Queries Dates Zone.
Import ListNotations.
Open Scope Z_scope.

(** [datetime.time] *)
Record time : Type := Time { hour : Z; minute : Z; second : Z }.

(** A [HolidayCalendar] as the sorted list of its dates (midnight, possibly with
    repetitions); [calendar.holidays(start, end)] is the part within the range.
    The rules behind it are modelled in Holidays.v. *)
Definition holiday_calendar : Type := list Z.
Definition holidays (cal : holiday_calendar) (start stop : Z) : list Z :=
  filter (fun d => (start <=? d) && (d <=? stop)) cal.

(** The overridable attributes of [TradingCalendar]
    (trading_calendar.py:203-272, 302-366).  Dates are naive or UTC midnight
    timestamps; both are the same number of nanoseconds. *)
Record definition : Type := Definition_ {
  tz : zone;
  weekmask : list bool;                              (* Monday first *)
  regular_holidays : holiday_calendar;               (* regular_holidays.holidays() *)
  adhoc_holidays : list Z;
  open_times : list (option Z * time);
  break_start_times : option (list (option Z * time));
  break_end_times : option (list (option Z * time));
  close_times : list (option Z * time);
  open_offset : Z;
  close_offset : Z;
  special_opens : list (time * holiday_calendar);
  special_opens_adhoc : list (time * list Z);
  special_closes : list (time * holiday_calendar);
  special_closes_adhoc : list (time * list Z)
}.

(** trading_calendar.py:203-209 [day]: [np.is_busday] with the weekmask and the
    holidays of the [CustomBusinessDay]. *)
Definition is_business_day (D : definition) (day : Z) : bool :=
  nth (Z.to_nat (weekday day)) (weekmask D) false &&
  negb (existsb (fun h => day_of h =? day) (regular_holidays D ++ adhoc_holidays D)).

(** [CustomBusinessDay.rollback] on the day, searching at most [fuel] days. *)
Fixpoint roll_back (business : Z -> bool) (fuel : nat) (day : Z) : Z :=
  match fuel with
  | O => day
  | S fuel' => if business day then day else roll_back business fuel' (day - 1)
  end.

(** [date_range(start, end, freq=self.day, tz=UTC)] (trading_calendar.py:110-112;
    pandas [generate_range]): business days with the start's time of day.  If
    the start is a business day and the end is not, the end is rolled back to a
    business day, keeping its own time of day. *)
Definition date_range (business : Z -> bool) (start stop : Z) : list Z :=
  let stop :=
    if business (day_of start) && negb (business (day_of stop))
    then midnight (roll_back business (Z.to_nat (day_of stop - day_of start)) (day_of stop))
         + stop mod NANOS_PER_DAY
    else stop in
  filter (fun x => business (day_of x)) (arange start (stop + 1) NANOS_PER_DAY).

(** trading_calendar.py:55-65 *)
Definition selection (arr : list Z) (start stop : option Z) : list Z :=
  filter (fun x =>
    match start with Some s => s <=? x | None => true end &&
    match stop with Some e => x <? e | None => true end) arr.

(** pandas_utils.py:39-47; the microseconds of [t] are ignored by the code. *)
Definition time_delta (t : time) (day_offset : Z) : Z :=
  day_offset * NANOS_PER_DAY + (hour t * 3600 + minute t * 60 + second t) * NANOS_PER_SECOND.

(** pandas_utils.py:6-48 *)
Definition days_at_time (days : list Z) (t : time) (z : zone) (day_offset : Z)
  : result (list Z) :=
  mapM (fun d => tz_localize z (d + time_delta t day_offset)) days.

(** trading_calendar.py:71-82: one element per window
    [((start, time), (end, _))] of the table. *)
Fixpoint group_elements (all_days : list Z) (times : list (option Z * time))
  (z : zone) (offset : Z) : result (list (list Z)) :=
  match times with
  | [] => Ok []
  | (start, t) :: rest =>
      let stop := match rest with [] => None | (s, _) :: _ => s end in
      do e <- days_at_time (selection all_days start stop) t z offset;
      do es <- group_elements all_days rest z offset;
      Ok (e :: es)
  end.

(** trading_calendar.py:68-83; [elements[0]] of an empty table is an IndexError. *)
Definition group_times (all_days : list Z) (times : list (option Z * time))
  (z : zone) (offset : Z) : result (list Z) :=
  do elements <- group_elements all_days times z offset;
  match elements with
  | [] => Raise IndexError
  | _ => Ok (concat elements)
  end.

Definition group_times_opt (all_days : list Z) (times : option (list (option Z * time)))
  (z : zone) (offset : Z) : result (option (list Z)) :=
  match times with
  | None => Ok None
  | Some ts => do l <- group_times all_days ts z offset; Ok (Some l)
  end.

(** A Series: (index label, value) pairs. *)
Definition series : Type := list (Z * Z).

(** trading_calendar.py:1158-1168 *)
Definition scheduled_special_times (cal : holiday_calendar) (start stop : Z) (t : time)
  (z : zone) : result series :=
  let days := holidays cal start stop in
  do data <- days_at_time days t z 0;
  Ok (combine days data).

(** trading_calendar.py:1098-1104: one ad hoc Series. *)
Definition adhoc_special_times (dates : list Z) (t : time) (z : zone) : result series :=
  do data <- days_at_time dates t z 0;
  Ok (combine dates data).

(** [sort_index()].  Simplification: a stable sort (pandas does not specify the
    order of equal labels). *)
Fixpoint insert (p : Z * Z) (s : series) : series :=
  match s with
  | [] => [p]
  | q :: s' => if fst p <=? fst q then p :: s else q :: insert p s'
  end.
Definition sort_index (s : series) : series := fold_right insert [] s.

(** trading_calendar.py:1061-1113 *)
Definition special_dates (z : zone) (calendars : list (time * holiday_calendar))
  (ad_hoc_dates : list (time * list Z)) (start stop : Z) : result series :=
  do regular <- mapM (fun p => scheduled_special_times (snd p) start stop (fst p) z) calendars;
  do ad_hoc <- mapM (fun p => adhoc_special_times (snd p) (fst p) z) ad_hoc_dates;
  let result := sort_index (concat (regular ++ ad_hoc)) in
  Ok (filter (fun p => (start <=? snd p) && (snd p <=? stop)) result).

(** [arr[i] = v] *)
Fixpoint set_nth (l : list Z) (i : nat) (v : Z) : list Z :=
  match l, i with
  | [], _ => []
  | _ :: l', O => v :: l'
  | x :: l', S i' => x :: set_nth l' i' v
  end.

(** [arr.values[indexer] = vals]: in order, a later write wins. *)
Fixpoint write_at (arr : list Z) (indexer vals : list Z) : list Z :=
  match indexer, vals with
  | i :: is, v :: vs => write_at (set_nth arr (Z.to_nat i) v) is vs
  | _, _ => arr
  end.

(** Common part of trading_calendar.py:1171-1205 and 1208-1246. *)
Definition overwrite (session_labels arr : list Z) (specials : series) (vals : list Z)
  : result (list Z) :=
  match specials with
  | [] => Ok arr
  | _ =>
      if negb (zlen session_labels =? zlen arr) then Raise ValueError
      else
        let indexer := map (fun p => get_indexer1 session_labels (fst p)) specials in
        if existsb (fun i => i =? -1) indexer then Raise ValueError
        else Ok (write_at arr indexer vals)
  end.

(** trading_calendar.py:1171-1205 *)
Definition overwrite_special_dates (session_labels opens_or_closes : list Z)
  (specials : series) : result (list Z) :=
  overwrite session_labels opens_or_closes specials (map snd specials).

(** trading_calendar.py:1208-1246 *)
Definition remove_breaks_for_special_dates (session_labels : list Z)
  (break_start_or_end : option (list Z)) (specials : series) : result (option (list Z)) :=
  match break_start_or_end with
  | None => Ok None
  | Some arr =>
      do l <- overwrite session_labels arr specials (map (fun _ => NP_NAT) specials);
      Ok (Some l)
  end.

(** trading_calendar.py:155-164: a DataFrame column; a missing one (None) is all
    NaT, one of the wrong length is a ValueError. *)
Definition column (index : list Z) (col : option (list Z)) : result (list Z) :=
  match col with
  | None => Ok (map (fun _ => NP_NAT) index)
  | Some l => if zlen l =? zlen index then Ok l else Raise ValueError
  end.

(** What construction leaves in the object besides the schedule. *)
Record built : Type := Built {
  cal : calendar;
  first_trading_session : Z;
  last_trading_session : Z;
  late_opens : list Z;
  early_closes : list Z
}.

(** trading_calendar.py:195-201: [Series.map(self.minute_index_to_session_labels)].
    pandas applies the function to the whole index; if that raises it falls back
    to single timestamps, which have no [is_monotonic_increasing]. *)
Definition map_to_sessions (c : calendar) (specials : series) : result (list Z) :=
  match minute_index_to_session_labels c (map snd specials) with
  | Ok l => Ok l
  | Raise _ => Raise AttributeError
  end.

(** trading_calendar.py:100-201 *)
Definition build (D : definition) (start stop : Z) : result built :=
  let all_days := date_range (is_business_day D) start stop in
  do os <- group_times all_days (open_times D) (tz D) (open_offset D);
  do bss <- group_times_opt all_days (break_start_times D) (tz D) 0;
  do bes <- group_times_opt all_days (break_end_times D) (tz D) 0;
  do cs <- group_times all_days (close_times D) (tz D) (close_offset D);
  do sos <- special_dates (tz D) (special_opens D) (special_opens_adhoc D) start stop;
  do scs <- special_dates (tz D) (special_closes D) (special_closes_adhoc D) start stop;
  do os <- overwrite_special_dates all_days os sos;
  do cs <- overwrite_special_dates all_days cs scs;
  do bss <- remove_breaks_for_special_dates all_days bss scs;
  do bes <- remove_breaks_for_special_dates all_days bes scs;
  do col_o <- column all_days (Some os);
  do col_bs <- column all_days bss;
  do col_be <- column all_days bes;
  do col_c <- column all_days (Some cs);
  do c <- make_calendar all_days col_o col_bs col_be col_c;
  do first <- pyget all_days 0;
  do last <- pyget all_days (-1);
  do late <- map_to_sessions c sos;
  do early <- map_to_sessions c scs;
  Ok (Built c first last late early).

(** precomputed_trading_calendar.py:13-48, for given start and end (the defaults
    are January 1st of the earliest and December 31st of the latest year). *)
Definition build_precomputed (D : definition) (start stop : option Z) : result built :=
  let years := map (fun h => year_of (day_of h)) (adhoc_holidays D) in
  match years with
  | [] => Raise ValueError (* np.min of an empty sequence *)
  | y :: ys =>
      let earliest := fold_left Z.min ys y in
      let latest := fold_left Z.max ys y in
      let start := match start with
                   | Some s => s | None => midnight (days_from_civil earliest 1 1) end in
      let stop := match stop with
                  | Some e => e | None => midnight (days_from_civil latest 12 31) end in
      do b <- build D start stop;
      if year_of (day_of (first_trading_session b)) <? earliest then Raise ValueError
      else if latest <? year_of (day_of (last_trading_session b)) then Raise ValueError
      else Ok b
  end.

(** us_futures_calendar.py:62-66 *)
Definition us_futures_execution_time_from_open (open_dates : Z) : Z :=
  open_dates + 45000 * NANOS_PER_SECOND.     (* 12.5 hours *)
Definition us_futures_execution_time_from_close (close_dates : Z) : Z :=
  close_dates - 3600 * NANOS_PER_SECOND.     (* -1 hour *)

(** always_open.py:7-18 *)
Definition always_open : definition :=
  Definition_ UTC [true; true; true; true; true; true; true] [] []
    [(None, Time 0 0 0)] None None [(None, Time 23 59 0)] 0 0 [] [] [] [].

(** weekday_calendar.py:7-19 *)
Definition weekday_calendar : definition :=
  Definition_ UTC [true; true; true; true; true; false; false] [] []
    [(None, Time 0 0 0)] None None [(None, Time 23 59 0)] 0 0 [] [] [] [].
