(** What etc/lunisolar is meant to find in sampled positions of the sun and the moon.
    A body is given by its longitude [u i] at sample [i], counted on beyond a full turn;
    the program sees it modulo 360 degrees.  Angles are in units of 10^-10 degrees. *)
From Coq Require Import ZArith List.
Import ListNotations.
Open Scope Z_scope.

Definition degrees (x : Z) : Z := x * 10 ^ 10.
Definition circle : Z := degrees 360.

Definition samples (n : nat) (f : nat -> Z) : list Z := map f (seq 0 n).
Definition seen (u : nat -> Z) (i : nat) : Z := u i mod circle.

(** The body moves forward, by less than [limit] from one sample to the next. *)
Definition moves (limit : Z) (n : nat) (u : nat -> Z) : Prop :=
  forall i, (S i < n)%nat -> 0 < u (S i) - u i < limit.

(** Sample [i] is nearer to position [x] than all the others. *)
Definition nearest (n : nat) (u : nat -> Z) (i : nat) (x : Z) : Prop :=
  forall j, (j < n)%nat -> j <> i -> Z.abs (u i - x) < Z.abs (u j - x).

(** Sample [i] is the first at which position [x] has been reached. *)
Definition first_at (u : nat -> Z) (i : nat) (x : Z) : Prop := u (i - 1)%nat < x <= u i.

(** Samples with neighbours on both sides. *)
Definition inside (n i : nat) : Prop := (0 < i /\ S i < n)%nat.

(** How far the moon is ahead of the sun. *)
Definition lead (sun moon : nat -> Z) (i : nat) : Z := moon i - sun i.

(** The program takes sun and moon for close only below 0.1 radians. *)
Definition close : Z := 57295779514.
