(** Histories of the two commands that fill a directory with longitudes. *)
From Coq Require Import ZArith List Sorting.Sorted.
Import ListNotations.
Open Scope Z_scope.

(** The minutes from [start] up to, without, [stop]. *)
Definition minutes_between (start stop : Z) : list Z :=
  map (fun i => start + Z.of_nat i) (seq 0 (Z.to_nat (stop - start))).

(** A year of 365 days. *)
Definition year : Z := 365 * 24 * 60.

(** A run of the command on a range of minutes: to its end, or stopped after some whole
    blocks of a year, perhaps with some values of the next block in its file. *)
Inductive run : Type :=
| Completed (start stop : Z)
| Stopped (start stop : Z) (blocks : nat) (values : option nat).

(** The minutes that the whole blocks of a run cover. *)
Definition covers (r : run) (m : Z) : Prop :=
  match r with
  | Completed start stop => start <= m < stop
  | Stopped start stop blocks _ => start <= m < stop /\ m < start + Z.of_nat blocks * year
  end.

(** The run was not stopped within a block. *)
Definition between_blocks (r : run) : Prop :=
  match r with
  | Completed _ _ => True
  | Stopped _ _ _ values => values = None
  end.

(** The run is one on the range from [start] to [stop]. *)
Definition on_range (start stop : Z) (r : run) : Prop :=
  match r with
  | Completed a b => a = start /\ b = stop
  | Stopped a b _ _ => a = start /\ b = stop
  end.

(** No minute is covered by two runs of the history. *)
Fixpoint separate (history : list run) : Prop :=
  match history with
  | [] => True
  | r :: history' => (forall r' m, In r' history' -> covers r m -> ~ covers r' m) /\ separate history'
  end.
