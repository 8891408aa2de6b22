(** Specification vocabulary for exchanges: what the attributes of an exchange say
    about a day, in terms of the rules of Spec/Rules.v.  From the model only the
    record [exchange] of class attributes is used.  Days are numbers
    (Spec/Civil.v); [at_midnight_of] is the instant at which a day starts. *)
From Coq Require Import ZArith String List.
From Verif.Model Require Import Base Zone Build Holidays Exchange.
From Verif.Spec Require Import Schedule Construction Civil Rules Feasts.
Import ListNotations.
Open Scope Z_scope.

Definition at_midnight_of (n : Z) : Z := n * one_day.

(** Regular holidays are only known from 1970 to 2200. *)
Definition known_year (n : Z) : Prop := date_number 1970 1 1 <= n <= date_number 2200 12 31.

(** Some regular holiday rule of the exchange falls on day [n]. *)
Definition rule_holiday (E : exchange) (n : Z) : Prop :=
  known_year n /\ exists r, In r (ex_regular_holidays E) /\ falls_on r n.

(** The exchange trades on day [n]. *)
Definition open_day (E : exchange) (n : Z) : Prop :=
  nth_error (ex_weekmask E) (Z.to_nat (day_of_week n)) = Some true /\
  ~ rule_holiday E n /\ ~ In n (ex_adhoc_holidays E).

(** The same for Tel Aviv, whose regular holidays are feasts of the Hebrew calendar
    (Spec/Feasts.v). *)
Definition tel_aviv_day (E : exchange) (n : Z) : Prop :=
  nth_error (ex_weekmask E) (Z.to_nat (day_of_week n)) = Some true /\
  ~ (known_year n /\ exists y, 2 <= y <= 9998 /\ tel_aviv_holiday y n) /\ ~ In n (ex_adhoc_holidays E).

(** The exchange with this name trades on day [n]. *)
Definition trades (name : string) (E : exchange) (n : Z) : Prop :=
  if String.eqb name "XTAE" then tel_aviv_day E n else open_day E n.

(** Day [n] is given the special time [t], by a rule or by a list of dates. *)
Definition special_time (rules : list (time * list rule)) (dates : list (time * list Z))
  (n : Z) (t : time) : Prop :=
  (exists rs r, In (t, rs) rules /\ In r rs /\ falls_on r n) \/
  (exists ds, In (t, ds) dates /\ In n ds).
Definition special_opening (E : exchange) : Z -> time -> Prop :=
  special_time (ex_special_opens E) (ex_special_opens_adhoc E).
Definition special_closing (E : exchange) : Z -> time -> Prop :=
  special_time (ex_special_closes E) (ex_special_closes_adhoc E).

(** Ad hoc special dates. *)
Definition listed_day (E : exchange) (n : Z) : Prop :=
  exists t ds, (In (t, ds) (ex_special_opens_adhoc E) \/ In (t, ds) (ex_special_closes_adhoc E)) /\ In n ds.

(** The times of day the exchange uses, with the number of days by which they are
    shifted from the session. *)
Definition times_of (k : Z) (ts : list time) : list (Z * time) := map (fun t => (k, t)) ts.
Definition optional_table (ts : option (list (option Z * time))) : list time :=
  match ts with Some l => map snd l | None => [] end.
Definition special_times (E : exchange) : list time :=
  map fst (ex_special_opens E) ++ map fst (ex_special_opens_adhoc E) ++
  map fst (ex_special_closes E) ++ map fst (ex_special_closes_adhoc E).
Definition listed_times (E : exchange) : list time :=
  map fst (ex_special_opens_adhoc E) ++ map fst (ex_special_closes_adhoc E).
Definition clock_times (E : exchange) : list (Z * time) :=
  times_of (ex_open_offset E) (map snd (ex_open_times E)) ++
  times_of (ex_close_offset E) (map snd (ex_close_times E)) ++
  times_of 0 (optional_table (ex_break_start_times E) ++ optional_table (ex_break_end_times E) ++
              special_times E).

(** The clocks of zone [z] suit the exchange from day [lo] on: its times of day
    exist exactly once every day, and the ad hoc special times of a day are on
    the same day in UTC. *)
Definition clocks_suit (E : exchange) (z : zone) (lo : Z) : Prop :=
  good_zone z /\
  (forall k t n, In (k, t) (clock_times E) -> lo <= n ->
     exists u, instant_of z (local_time (at_midnight_of n) k t) u) /\
  (forall t n u, In t (listed_times E) -> lo <= n ->
     instant_of z (local_time (at_midnight_of n) 0 t) u ->
     at_midnight_of n <= u < at_midnight_of (n + 1)) /\
  (forall n, listed_day E n -> lo <= n).

(** ** What the exchange says about an open day *)

(** The instant [u] is a special time of day [n] that lies within the range of the
    calendar. *)
Definition special_moment (special : Z -> time -> Prop) (z : zone) (start stop n u : Z) : Prop :=
  exists t, special n t /\ instant_of z (local_time (at_midnight_of n) 0 t) u /\ start <= u <= stop.
(** The time of day in force on day [n], [k] days later, is the instant [u]. *)
Definition regular_moment (table : list (option Z * time)) (k : Z) (z : zone) (n u : Z) : Prop :=
  exists t, in_force table n t /\ instant_of z (local_time (at_midnight_of n) k t) u.

Definition opens_at (E : exchange) (z : zone) (start stop n u : Z) : Prop :=
  special_moment (special_opening E) z start stop n u \/
  (forall u', ~ special_moment (special_opening E) z start stop n u') /\
  regular_moment (ex_open_times E) (ex_open_offset E) z n u.
Definition closes_at (E : exchange) (z : zone) (start stop n u : Z) : Prop :=
  special_moment (special_closing E) z start stop n u \/
  (forall u', ~ special_moment (special_closing E) z start stop n u') /\
  regular_moment (ex_close_times E) (ex_close_offset E) z n u.
(** Breaks are dropped on days with a special close. *)
Definition break_at (E : exchange) (table : option (list (option Z * time))) (z : zone)
  (start stop n : Z) (r : option Z) : Prop :=
  match r with
  | None => table = None \/ exists u, special_moment (special_closing E) z start stop n u
  | Some u => (forall u', ~ special_moment (special_closing E) z start stop n u') /\
              exists ts, table = Some ts /\ regular_moment ts 0 z n u
  end.

(** A row of the schedule is what the exchange says about its day. *)
Definition venue_row (name : string) (E : exchange) (z : zone) (start stop : Z) (s : session) : Prop :=
  exists n, s_label s = at_midnight_of n /\ start <= at_midnight_of n <= stop /\ trades name E n /\
    opens_at E z start stop n (s_open s) /\ closes_at E z start stop n (s_close s) /\
    break_at E (ex_break_start_times E) z start stop n (option_map fst (s_break s)) /\
    break_at E (ex_break_end_times E) z start stop n (option_map snd (s_break s)).

(** ** Contradictions in the data *)

(** Days for which the exchange announces a special close although it does not
    trade. *)
Definition conflict_days (name : string) : list Z :=
  if String.eqb name "XNYS" then [date_number 1945 12 24; date_number 1956 12 24]
  else if String.eqb name "XIST" then [date_number 2029 4 23]
  else if String.eqb name "XKLS"
  then [date_number 1984 2 1; date_number 2029 2 13; date_number 2031 1 23; date_number 2049 2 1]
  else [].
