(** etc/lunisolar, the command [chinese-cal]: a page for a month or a year of the Chinese
    calendar.  Minutes, longitudes and the zone as in Lunisolar.v; texts as in Tcal.v. *)
From Coq Require Import ZArith String Ascii Bool List.
From Verif.Model Require Import Base Helpers Dates Zone Lunisolar Tcal.
Import ListNotations.
Open Scope Z_scope.
Open Scope list_scope.

(** [Timestamp.month_name()] (pandas, English locale). *)
Definition month_name (day : Z) : result text := pyget Tcal.months (month_of day - 1).

(** etc/lunisolar:1534-1540: what the loop prints for day [d]. *)
Definition render_day (d : Z) : text :=
  (if weekday d =? 6 then println [] else str " ") ++ pad_left 2 (decimal (mday_of d)).

(** etc/lunisolar:1514-1543 [_render_month].  [pd.date_range(..., closed='left')] gives the days
    from [month_start] (inclusive) to [month_end] (exclusive). *)
Definition render_month (z : zone) (year : Z) (months : list Z) (month : Z) (print_year : bool)
  : result text :=
  do first_moon <- pyget months (month - 1);
  let month_start := utc_to_chinese_date z first_moon in
  do next_moon <- pyget months month;
  let month_end := utc_to_chinese_date z next_moon in
  let days := day_range (Z.to_nat (month_end - month_start)) month_start in
  let is_leap_month := 30 <? zlen days in
  let title := str "Lunar Month " ++ decimal month ++ (if is_leap_month then str "(+)" else []) in
  let title := if print_year then title ++ str " " ++ decimal year else title in
  do first <- pyget days 0;
  do first_name <- month_name first;
  do last <- pyget days (-1);
  do last_name <- month_name last;
  Ok (println (rstrip (center 20 title)) ++
      println (rstrip (center 20 (first_name ++ str "-" ++ last_name))) ++
      println (str "Su Mo Tu We Th Fr Sa") ++
      blanks (Z.to_nat (3 * ((weekday first + 1) mod 7) - 1)) ++
      concat (map render_day days) ++
      println []).

(** etc/lunisolar:1546-1564 [_concat_lines]: the same code as tcal.py:79-97. *)
Definition concat_lines : list text -> nat -> text := Tcal.concat_lines.

(** The inner list of etc/lunisolar:1622-1630. *)
Fixpoint render_months (z : zone) (year : Z) (months ms : list Z) : result (list text) :=
  match ms with
  | [] => Ok []
  | m :: ms =>
      do t <- render_month z year months m false;
      do rest <- render_months z year months ms;
      Ok (t :: rest)
  end.

(** etc/lunisolar:1617-1635: what is printed, from the months of the year on. *)
Definition print_calendar (z : zone) (year : Z) (year_months : list Z) (month : option Z) : result text :=
  match month with
  | Some m => do t <- render_month z year year_months m true; Ok (println t)
  | None =>
      do r1 <- render_months z year year_months [1; 2; 3];
      do r2 <- render_months z year year_months [4; 5; 6];
      do r3 <- render_months z year year_months [7; 8; 9];
      do r4 <- render_months z year year_months [10; 11; 12];
      Ok (println (rstrip (center 66 (decimal year) ++ [newline])) ++
          println (join [newline; newline] (map (fun cs => concat_lines cs 20) [r1; r2; r3; r4])))
  end.

(** [.astype('M8[Y]')] of a minute, as a year *)
Definition utc_year (minute : Z) : Z := year_of (minute / 1440).

(** etc/lunisolar:1584-1635 [chinese_cal], after loading.  [month] and [year] are the arguments of
    the command line, of which the second may be missing. *)
Definition chinese_cal (z : zone) (solar_longitude minutes new_moons : list Z) (month : Z) (year : option Z)
  : result text :=
  let '(year, month) := match year with
                        | None => (month, None)
                        | Some year => (year, Some month)
                        end in
  do (months, _) <- chinese_month_start z new_moons solar_longitude minutes;
  do chinese_new_year <- calculate_new_year z solar_longitude minutes new_moons;
  match filter (fun m => utc_year m =? year) chinese_new_year with
  | [] => Raise ValueError
  | given_new_year :: _ =>
      let new_year_month_ix := searchsorted_left months given_new_year in
      let year_months := skipn (Z.to_nat new_year_month_ix) months in
      print_calendar z year year_months month
  end.
