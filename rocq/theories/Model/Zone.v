(** Time zones as used by [tz_localize] / [tz_convert] (pytz tables through
    pandas).  Library behaviour, not repo code: a zone is an initial offset and a
    list of UTC instants at which a new offset (local minus UTC) takes effect. *)
From Coq Require Import ZArith List Bool.
From Verif.Model Require Import Base.
Import ListNotations.
Open Scope Z_scope.

Record zone : Type := Zone {
  initial_offset : Z;
  transitions : list (Z * Z)   (* (utc instant, offset from then on), ascending *)
}.

Definition UTC : zone := Zone 0 [].

Fixpoint offset_from (current : Z) (trs : list (Z * Z)) (u : Z) : Z :=
  match trs with
  | [] => current
  | (t, o) :: trs' => if t <=? u then offset_from o trs' u else current
  end.

(** Offset in force at UTC instant [u]. *)
Definition offset_at (z : zone) (u : Z) : Z :=
  offset_from (initial_offset z) (transitions z) u.

(** [tz_convert(tz)] of a UTC instant, as a naive local time. *)
Definition wall_clock (z : zone) (u : Z) : Z := u + offset_at z u.

Definition utc_candidates (z : zone) (local : Z) : list Z :=
  nodup Z.eq_dec
    (filter (fun u => wall_clock z u =? local)
       (map (fun o => local - o) (initial_offset z :: map snd (transitions z)))).

(** [tz_localize(tz)] of a naive local time (ambiguous='raise',
    nonexistent='raise'), as a UTC instant.  Simplification: pandas looks for
    candidates only within one day of the local time. *)
Definition tz_localize (z : zone) (local : Z) : result Z :=
  match utc_candidates z local with
  | [u] => Ok u
  | [] => Raise NonExistentTimeError
  | _ => Raise AmbiguousTimeError
  end.
