(** Specification vocabulary for programs with several dispatchers. *)
From Coq Require Import String ZArith List.
From Verif.Model Require Import Dispatcher Threads Program.
From Verif.Spec Require Import Registry Interleaving.
Import ListNotations.

(** What the [i]-th dispatcher is in the world [w], seen on its own. *)
Definition seen (w : world) (i : nat) : option dispatcher :=
  option_map (seen_by w) (nth_error (objects w) i).

(** The calls on the [i]-th dispatcher in a history. *)
Definition own_calls (i : nat) (es : list event) : list op :=
  flat_map (fun e => match e with CallOn j o => if Nat.eqb j i then [o] else [] | _ => [] end) es.

(** The answers to a list of calls on one dispatcher. *)
Fixpoint answers (build : factory -> list factory -> option instance) (d : dispatcher) (os : list op) : list reply :=
  match os with
  | [] => []
  | o :: os' => reply_of build d o :: answers build (step build d o) os'
  end.

(** The answers that the [i]-th dispatcher gives in a history of the whole program. *)
Fixpoint answers_of (build : nat -> factory -> list factory -> option instance) (i : nat) (w : world) (es : list event)
  : list reply :=
  match es with
  | [] => []
  | e :: es' =>
      let later := answers_of build i (world_step build w e) es' in
      match e, seen w i with
      | CallOn j o, Some d => if Nat.eqb j i then reply_of (build i) d o :: later else later
      | _, _ => later
      end
  end.

(** The [r]-th dict of calendars belongs to the [i]-th dispatcher only. *)
Definition only_in (w : world) (r i : nat) : Prop :=
  (r < length (calendar_dicts w))%nat /\ exists x, nth_error (objects w) i = Some x /\ o_calendars x = r /\
  forall j y, nth_error (objects w) j = Some y -> o_calendars y = r -> j = i.

(** The program itself neither changes the [r]-th dict of calendars nor makes a
    dispatcher from it. *)
Definition leaves_alone (r : nat) (e : event) : Prop :=
  match e with SetCalendars r' _ => r' <> r | Construct c _ _ => c <> r | _ => True end.
