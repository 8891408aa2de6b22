(** What a holiday calendar answers (C93). *)
From Coq Require Import ZArith List Bool Sorting.Sorted.
From Verif.Model Require Import Base HolidayCalendar.
Open Scope Z_scope.

(** The list has the dates of [P] from [start] to [stop], in order. *)
Definition lists (P : Z -> Prop) (start stop : Z) (l : list Z) : Prop :=
  StronglySorted Z.le l /\ forall x, In x l <-> start <= x <= stop /\ P x.

(** The answer to call [q] of an object that was first asked with a time zone ([aware])
    or without one. *)
Definition answers (P : Z -> Prop) (aware : bool) (q : request) (a : result (list Z)) : Prop :=
  if Bool.eqb aware (req_aware q) then exists l, a = Ok l /\ lists P (req_start q) (req_stop q) l
  else a = Raise TypeError.
