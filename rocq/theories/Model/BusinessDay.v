(** The attribute [day] of a calendar (trading_calendar.py:203-209), a pandas
    [CustomBusinessDay], as it computes: numpy 1.19.3 [busdaycalendar] and
    [busday_offset] (core/src/multiarray/datetime_busday.c, datetime_busdaycal.c) and pandas
    1.1.3 [CustomBusinessDay] (_libs/tslibs/offsets.pyx) and [generate_range]
    (core/arrays/datetimes.py).  Build.v describes the result of [date_range] directly;
    here it is made step by step.  Instants are in UTC; the limits of 64 bits are left
    out.  Loops have fuel, which never runs out (BusinessDayProps.v). *)
From Coq Require Import ZArith List Bool.
From Verif.Model Require Import Base Dates Build.
Import ListNotations.
Open Scope Z_scope.

(** [np.busdaycalendar]: the mask (Monday first), the number of its days, and the
    holidays as day numbers. *)
Record busdaycalendar : Type := Busdaycalendar {
  mask : list bool;
  busdays_in_weekmask : Z;
  busday_holidays : list Z
}.

(** datetime_busdaycal.c [normalize_holidays_list]: sorted, without repetitions and
    without days outside the mask. *)
Fixpoint insert_day (x : Z) (l : list Z) : list Z :=
  match l with
  | [] => [x]
  | y :: l' => if x <? y then x :: l else if x =? y then l else y :: insert_day x l'
  end.
Definition normalize_holidays_list (mask : list bool) (days : list Z) : list Z :=
  filter (fun d => nth (Z.to_nat (weekday d)) mask false) (fold_right insert_day [] days).

(** datetime_busdaycal.c [busdaycalendar_init], PyArray_WeekMaskConverter: seven days,
    and not all of them excluded. *)
Definition make_busdaycalendar (mask : list bool) (days : list Z) : result busdaycalendar :=
  if negb (Nat.eqb (length mask) 7) then Raise ValueError
  else
    let n := zlen (filter (fun x => x) mask) in
    if n =? 0 then Raise ValueError
    else Ok (Busdaycalendar mask n (normalize_holidays_list mask days)).

(** datetime_busday.c [is_holiday], on the part of the list that is still considered.
    [find_earliest_holiday_on_or_after] and [find_earliest_holiday_after] are
    [searchsorted_left] and [searchsorted_right] on a list without repetitions. *)
Definition is_holiday (d : Z) (holidays : list Z) : bool :=
  match pyget holidays (searchsorted_left holidays d) with Ok h => h =? d | Raise _ => false end.
Definition excluded (mask : list bool) (holidays : list Z) (d dow : Z) : bool :=
  negb (nth (Z.to_nat dow) mask false) || is_holiday d holidays.

(** datetime_busday.c [apply_business_day_roll]: the do-while loops of "forward" and
    "backward"; the day and its weekday. *)
Fixpoint roll_following (fuel : nat) (mask : list bool) (holidays : list Z) (d dow : Z) : Z * Z :=
  match fuel with
  | O => (d, dow)
  | S fuel' =>
      let d := d + 1 in
      let dow := if dow + 1 =? 7 then 0 else dow + 1 in
      if excluded mask holidays d dow then roll_following fuel' mask holidays d dow else (d, dow)
  end.
Fixpoint roll_preceding (fuel : nat) (mask : list bool) (holidays : list Z) (d dow : Z) : Z * Z :=
  match fuel with
  | O => (d, dow)
  | S fuel' =>
      let d := d - 1 in
      let dow := if dow - 1 =? -1 then 6 else dow - 1 in
      if excluded mask holidays d dow then roll_preceding fuel' mask holidays d dow else (d, dow)
  end.
Definition days_of_fuel (n : Z) (holidays : list Z) : nat := Z.to_nat (7 * (n + zlen holidays + 1)).
Inductive roll : Type := Forward | Backward.
Definition apply_business_day_roll (c : busdaycalendar) (r : roll) (d : Z) : Z * Z :=
  let dow := weekday d in
  if excluded (mask c) (busday_holidays c) d dow then
    let fuel := days_of_fuel 0 (busday_holidays c) in
    match r with
    | Forward => roll_following fuel (mask c) (busday_holidays c) d dow
    | Backward => roll_preceding fuel (mask c) (busday_holidays c) d dow
    end
  else (d, dow).

(** The loops of [apply_business_day_offset] that use up the rest of the offset. *)
Fixpoint step_forward (fuel : nat) (mask : list bool) (holidays : list Z) (d dow offset : Z) : Z :=
  match fuel with
  | O => d
  | S fuel' =>
      if 0 <? offset then
        let d := d + 1 in
        let dow := if dow + 1 =? 7 then 0 else dow + 1 in
        step_forward fuel' mask holidays d dow
          (if excluded mask holidays d dow then offset else offset - 1)
      else d
  end.
Fixpoint step_backward (fuel : nat) (mask : list bool) (holidays : list Z) (d dow offset : Z) : Z :=
  match fuel with
  | O => d
  | S fuel' =>
      if offset <? 0 then
        let d := d - 1 in
        let dow := if dow - 1 =? -1 then 6 else dow - 1 in
        step_backward fuel' mask holidays d dow
          (if excluded mask holidays d dow then offset else offset + 1)
      else d
  end.

(** datetime_busday.c [apply_business_day_offset]: whole weeks at once, then day by day;
    the holidays met on the way are added to the rest.  Division truncates as in C. *)
Definition busday_offset (c : busdaycalendar) (r : roll) (d offset : Z) : Z :=
  let '(d, dow) := apply_business_day_roll c r d in
  let holidays := busday_holidays c in
  if 0 <? offset then
    let holidays := skipn (Z.to_nat (searchsorted_left holidays d)) holidays in
    let d := d + Z.quot offset (busdays_in_weekmask c) * 7 in
    let offset := Z.rem offset (busdays_in_weekmask c) in
    let crossed := searchsorted_right holidays d in
    let holidays := skipn (Z.to_nat crossed) holidays in
    let offset := offset + crossed in
    step_forward (days_of_fuel offset holidays) (mask c) holidays d dow offset
  else if offset <? 0 then
    let holidays := firstn (Z.to_nat (searchsorted_right holidays d)) holidays in
    let d := d + Z.quot offset (busdays_in_weekmask c) * 7 in
    let offset := Z.rem offset (busdays_in_weekmask c) in
    let left := searchsorted_left holidays d in
    let offset := offset - (zlen holidays - left) in
    let holidays := firstn (Z.to_nat left) holidays in
    step_backward (days_of_fuel (- offset) holidays) (mask c) holidays d dow offset
  else d.

(** offsets.pyx [_get_calendar]: the ad hoc holidays and those of
    [regular_holidays.holidays()]. *)
Definition trading_calendar_day (D : definition) : result busdaycalendar :=
  make_busdaycalendar (weekmask D) (map day_of (adhoc_holidays D ++ regular_holidays D)).

(** offsets.pyx [CustomBusinessDay.apply]: [t + n * day]. *)
Definition plus_days (c : busdaycalendar) (n t : Z) : Z :=
  midnight (busday_offset c (if n <=? 0 then Forward else Backward) (day_of t) n) + t mod NANOS_PER_DAY.
(** [is_on_offset], [rollforward] and [rollback]. *)
Definition is_on_offset (c : busdaycalendar) (t : Z) : bool :=
  negb (excluded (mask c) (busday_holidays c) (day_of t) (weekday (day_of t))).
Definition rollforward (c : busdaycalendar) (t : Z) : Z :=
  if is_on_offset c t then t else plus_days c 1 t.
Definition rollback (c : busdaycalendar) (t : Z) : Z :=
  if is_on_offset c t then t else plus_days c (-1) t.

(** datetimes.py [generate_range] without [periods]. *)
Fixpoint generate_from (fuel : nat) (c : busdaycalendar) (cur stop : Z) : result (list Z) :=
  match fuel with
  | O => Ok []
  | S fuel' =>
      if cur <=? stop then
        if cur =? stop then Ok [cur]
        else
          let next_date := plus_days c 1 cur in
          if next_date <=? cur then Raise ValueError
          else do l <- generate_from fuel' c next_date stop; Ok (cur :: l)
      else Ok []
  end.
Definition generate_range (c : busdaycalendar) (start stop : Z) : result (list Z) :=
  let '(start, stop) :=
    if negb (is_on_offset c start) then (rollforward c start, stop)
    else if negb (is_on_offset c stop) then (start, rollback c stop)
    else (start, stop) in
  if stop <? start then Ok []
  else generate_from (Z.to_nat ((stop - start) / NANOS_PER_DAY) + 2) c start stop.

(** trading_calendar.py:100-201 once more, with [self.day] computed first and the days from
    [generate_range] (trading_calendar.py:109): a weekmask that numpy refuses is refused
    here.  The rest is [build]. *)
Definition construct (D : definition) (start stop : Z) : result built :=
  do c <- trading_calendar_day D;
  do all_days <- generate_range c start stop;
  build D start stop.
