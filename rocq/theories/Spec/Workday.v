(** The n-th day of a kind after and before a day (C92). *)
From Coq Require Import ZArith.
From Verif.Model Require Import Build.
From Verif.Spec Require Import Schedule Construction.
Open Scope Z_scope.

Inductive nth_after (P : Z -> Prop) (d : Z) : Z -> Z -> Prop :=
| first_after : forall x, least (fun y => P y /\ d < y) x -> nth_after P d 1 x
| further_after : forall n x y, nth_after P d n x -> least (fun z => P z /\ x < z) y -> nth_after P d (n + 1) y.
Inductive nth_before (P : Z -> Prop) (d : Z) : Z -> Z -> Prop :=
| first_before : forall x, greatest (fun y => P y /\ y < d) x -> nth_before P d 1 x
| further_before : forall n x y, nth_before P d n x -> greatest (fun z => P z /\ z < x) y -> nth_before P d (n + 1) y.

(** Day [d] (counted from 1 January 1970) is a day on which the calendar trades. *)
Definition workday (D : definition) (d : Z) : Prop := trading_day D (d * one_day).
