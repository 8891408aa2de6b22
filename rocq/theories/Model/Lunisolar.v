(** etc/lunisolar: the program that computes the tables of
    trading_calendars/lunisolar_holidays.py from longitudes of the sun and the moon.
    Simplification: angles are integers, in units of 10^-10 degrees, instead of doubles
    in radians.  Minutes ([M8[m]]) are minutes since 1970-01-01 UTC.  The longitudes
    themselves (NOVAS, /repo/etc/lunisolar:773-816, 986-1034) and the files they are kept in
    (/repo/etc/lunisolar:45-77) are inputs. *)
From Coq Require Import ZArith List Bool.
From Verif.Model Require Import Base Helpers Dates Zone.
Import ListNotations.
Open Scope Z_scope.

Definition degree : Z := 10 ^ 10.
(** [2 * np.pi] *)
Definition turn : Z := 360 * degree.
(** [0.1] (radians): 5.72957795130823 degrees, rounded up. *)
Definition tenth_of_a_radian : Z := 57295779514.

(** ** numpy *)

(** [np.flatnonzero] *)
Fixpoint flatnonzero_from (i : nat) (l : list bool) : list nat :=
  match l with
  | [] => []
  | b :: l' => if b then i :: flatnonzero_from (S i) l' else flatnonzero_from (S i) l'
  end.
Definition flatnonzero (l : list bool) : list nat := flatnonzero_from 0 l.

(** A binary ufunc on two arrays of the same length. *)
Fixpoint map2 {A B C : Type} (f : A -> B -> C) (l : list A) (l' : list B) : list C :=
  match l, l' with
  | a :: l, b :: l' => f a b :: map2 f l l'
  | _, _ => []
  end.

(** [arr[ix]] for an array of indices that are in bounds. *)
Definition take (arr : list Z) (ix : list nat) : list Z := map (fun i => nth i arr 0) ix.

(** [row.argmax()] of a boolean row: the first True, or 0. *)
Fixpoint first_true (i : Z) (row : list bool) : option Z :=
  match row with
  | [] => None
  | b :: row' => if b then Some i else first_true (i + 1) row'
  end.
Definition argmax (row : list bool) : Z :=
  match first_true 0 row with Some i => i | None => 0 end.

(** ** Events *)

(** etc/lunisolar:98-134 [local_cmp] *)
Definition local_cmp {A : Type} (f : A -> A -> bool) (arr : list A) : list nat :=
  flatnonzero (map2 andb (false :: map2 f (tl arr) (removelast arr))
                         (map2 f (removelast arr) (tl arr) ++ [false])).

(** etc/lunisolar:1037-1054 [minutes_at_phase] *)
Definition minutes_at_phase (longitude minutes : list Z) (phase : Z) : list Z :=
  take minutes (local_cmp Z.ltb (map (fun x => Z.abs (x - phase)) longitude)).

(** etc/lunisolar:885-908 [calculate_new_moon] *)
Definition calculate_new_moon (solar lunar minutes : list Z) : list Z :=
  let diff := map2 (fun s l => Z.abs (s - l)) solar lunar in
  let new_moon_where := local_cmp Z.ltb diff in
  take minutes (filter (fun i => nth i diff 0 <? tenth_of_a_radian) new_moon_where).

(** etc/lunisolar:911-948 [load_new_moons], after reading the files. *)
Definition load_new_moons (solar solar_minutes lunar lunar_minutes : list Z) : result (list Z) :=
  if list_eq_dec Z.eq_dec solar_minutes lunar_minutes
  then Ok (calculate_new_moon solar lunar solar_minutes)
  else Raise ValueError.

(** etc/lunisolar:1082-1100 [utc_to_chinese_date], as the number of the day; [z] is the
    zone Asia/Shanghai. *)
Definition utc_to_chinese_date (z : zone) (minute : Z) : Z :=
  day_of (wall_clock z (minute * NANOSECONDS_PER_MINUTE)).

(** ** Months *)

(** etc/lunisolar:1244-1270, the loop over the new moons.  [suis] is what the iterator
    [get_next_sui_ix] has left. *)
Fixpoint month_loop (new_moons possible_skipped_months : list Z) (moons suis : list Z)
  (next_sui_ix next_sui prev_sui_ix : Z) (seen_skipped_month : bool) : result (list Z) :=
  match moons with
  | [] => Ok []
  | new_moon :: moons' =>
      let seen := if new_moon =? next_sui then false else seen_skipped_month in
      let skip := contains possible_skipped_months new_moon && negb seen
                  && negb (next_sui_ix - prev_sui_ix =? 12) in
      do (suis', next_ix', next', prev_ix') <-
        (if new_moon =? next_sui then
           match suis with
           | [] => Ok ([], next_sui_ix, next_sui, next_sui_ix)
           | ix :: suis' => do next' <- pyget new_moons ix; Ok (suis', ix, next', next_sui_ix)
           end
         else Ok (suis, next_sui_ix, next_sui, prev_sui_ix));
      do month_starts <-
        month_loop new_moons possible_skipped_months moons' suis' next_ix' next' prev_ix'
          (if skip then true else seen);
      Ok (if skip then month_starts else new_moon :: month_starts)
  end.

(** etc/lunisolar:1217-1280, [chinese_month_start] with [return_11th_month] from the
    events and their dates in China.  The months that may be skipped
    ([np.setdiff1d] of the new moons and [np.unique(new_moons[contains_zhongqi_ix])])
    are only used as a set. *)
Definition month_starts (new_moons moon_dates solstice_dates zhongqi_dates : list Z)
  : result (list Z * list Z) :=
  match new_moons with
  | [] => Raise ValueError                              (* argmax of an empty row *)
  | _ =>
    let sui_start_index :=
      map (fun w => argmax (map (fun d => w <? d) moon_dates) - 1) solstice_dates in
    match sui_start_index with
    | [] => Raise StopIteration
    | next_sui_ix :: suis =>
      do next_sui <- pyget new_moons next_sui_ix;
      let prev_sui_ix := next_sui_ix - 13 in
      do months_with_zhongqi <-
        mapM (fun q => pyget new_moons (argmax (map (fun d => q <? d) moon_dates) - 1)) zhongqi_dates;
      let possible_skipped_months :=
        filter (fun m => negb (contains months_with_zhongqi m)) new_moons in
      do months <- month_loop new_moons possible_skipped_months new_moons suis
                     next_sui_ix next_sui prev_sui_ix false;
      do eleventh <- mapM (pyget new_moons) sui_start_index;
      Ok (months, map (searchsorted_left months) eleventh)
    end
  end.

(** etc/lunisolar:1193-1280 [chinese_month_start] *)
Definition chinese_month_start (z : zone) (new_moons solar_longitude minutes : list Z)
  : result (list Z * list Z) :=
  let winter_solstice := minutes_at_phase solar_longitude minutes (270 * degree) in
  let zhongqi := tl (minutes_at_phase (map (fun x => x mod (30 * degree)) solar_longitude) minutes 0) in
  month_starts new_moons (map (utc_to_chinese_date z) new_moons)
    (map (utc_to_chinese_date z) winter_solstice) (map (utc_to_chinese_date z) zhongqi).

(** etc/lunisolar:1057-1079 [calculate_new_year] *)
Definition calculate_new_year (z : zone) (solar_longitude minutes new_moons : list Z)
  : result (list Z) :=
  do (months, eleventh_month_ix) <- chinese_month_start z new_moons solar_longitude minutes;
  let new_year_ix := map (fun i => i + 2) eleventh_month_ix in
  mapM (pyget months) (filter (fun i => i <? zlen months) new_year_ix).

(** etc/lunisolar:1283-1323 [nth_day_of_nth_chinese_month], after loading. *)
Definition nth_day_of_nth_chinese_month (z : zone) (solar_longitude minutes new_moons : list Z)
  (month day : Z) : result (list Z) :=
  do (months, _) <- chinese_month_start z new_moons solar_longitude minutes;
  do chinese_new_year <- calculate_new_year z solar_longitude minutes new_moons;
  let new_year_month_ix := map (searchsorted_left months) chinese_new_year in
  do month_start <- mapM (fun i => pyget months (i + (month - 1))) new_year_month_ix;
  Ok (map (fun m => utc_to_chinese_date z m + (day - 1)) month_start).

(** etc/lunisolar:1142-1153 [chinese_new_year] and 1175-1190 [qingming_festival]: the
    dates they print. *)
Definition chinese_new_year (z : zone) (solar_longitude minutes new_moons : list Z) : result (list Z) :=
  do ms <- calculate_new_year z solar_longitude minutes new_moons;
  Ok (map (utc_to_chinese_date z) ms).
Definition qingming_festival (z : zone) (solar_longitude minutes : list Z) : list Z :=
  map (utc_to_chinese_date z) (minutes_at_phase solar_longitude minutes (15 * degree)).

(** etc/lunisolar:1361-1371, 1408-1418, 1455-1465, 1502-1507: the feasts of the tables. *)
Definition china_buddhas_birthday z lon minutes moons := nth_day_of_nth_chinese_month z lon minutes moons 4 8.
Definition dragon_boat_festival z lon minutes moons := nth_day_of_nth_chinese_month z lon minutes moons 5 5.
Definition mid_autumn_festival z lon minutes moons := nth_day_of_nth_chinese_month z lon minutes moons 8 15.
Definition double_ninth_festival z lon minutes moons := nth_day_of_nth_chinese_month z lon minutes moons 9 9.
