(** Specification vocabulary for the library as a whole: the default range of each
    calendar and the years for which its holidays are known.  Names are those of
    the default dispatcher. *)
From Coq Require Import String ZArith List.
From Verif.Model Require Import Base Build Exchange.
From Verif.Spec Require Import Schedule Construction Civil Venue.
Import ListNotations.
Open Scope Z_scope.

(** The exchanges whose holidays are only known for some years. *)
Definition known_years (name : string) : option (Z * Z) :=
  if String.eqb name "XBOM" then Some (1997, 2020)
  else if String.eqb name "XKRX" then Some (1986, 2021)
  else if String.eqb name "XSES" then Some (1986, 2020)
  else if String.eqb name "XSHG" then Some (1999, 2025)
  else if String.eqb name "XHKG" then Some (1960, 2049)
  else None.
(** Those of them for which these years are the default range. *)
Definition listed_years (name : string) : option (Z * Z) :=
  if String.eqb name "XHKG" then None else known_years name.

(** The default range of a calendar, if the library is imported at [today]. *)
Definition default_start (name : string) : Z :=
  at_midnight_of (match listed_years name with
                  | Some (lo, _) => date_number lo 1 1
                  | None => if String.eqb name "XTKS" then date_number 2000 1 1
                            else if String.eqb name "us_futures" then date_number 2000 1 1
                            else date_number 1990 1 1
                  end).
Definition default_end (name : string) (today : Z) : Z :=
  match listed_years name with
  | Some (_, hi) => at_midnight_of (date_number hi 12 31)
  | None => today + 365 * one_day
  end.

(** [today] is late enough for the default range not to be empty, and the end of the
    default range is before the next contradictory day and within the known years. *)
Definition default_works (name : string) (today : Z) : Prop :=
  at_midnight_of (date_number 2000 1 11) <= today + 365 * one_day /\
  (forall n, In n (conflict_days name) -> date_number 1990 1 1 <= n -> default_end name today < at_midnight_of n) /\
  (forall lo hi, known_years name = Some (lo, hi) -> default_end name today < at_midnight_of (date_number (hi + 1) 1 1)).

(** The sessions of a calendar that lie outside the known years. *)
Definition beyond (lo hi : Z) (b : built) : Prop :=
  exists x y, In x (Queries.sessions (cal b)) /\ in_year (x / one_day) y /\ ~ lo <= y <= hi.
