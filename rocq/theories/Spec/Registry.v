(** Specification vocabulary for the dispatcher: what a name is registered as,
    where alias chains lead, and which calls disturb a name. *)
From Coq Require Import String ZArith List.
From Verif.Model Require Import Dispatcher.
Import ListNotations.

(** What [n] is registered as: a built calendar, a factory, an alias. *)
Definition registration (d : dispatcher) (n : name)
  : option instance * option factory * option name :=
  (lookup n (calendars d), lookup n (factories d), lookup n (aliases d)).

Definition unregistered (d : dispatcher) (n : name) : Prop :=
  registration d n = (None, None, None).

(** [leads_to d a b]: following aliases zero or more times from [a] gets to [b]. *)
Inductive leads_to (d : dispatcher) : name -> name -> Prop :=
| leads_here : forall a, leads_to d a a
| leads_on : forall a b c, lookup a (aliases d) = Some b -> leads_to d b c -> leads_to d a c.

(** [b] is the name at the end of the alias chain of [a]. *)
Definition canonical (d : dispatcher) (a b : name) : Prop :=
  leads_to d a b /\ lookup b (aliases d) = None.

(** No alias chain returns to its start. *)
Definition acyclic (d : dispatcher) : Prop :=
  forall a b, lookup a (aliases d) = Some b -> ~ leads_to d b a.

(** The call removes or replaces the registration of [n]. *)
Definition disturbs (o : op) (n : name) : Prop :=
  match o with
  | Clear => True
  | Deregister m => m = n
  | Register m _ force | RegisterType m _ force | RegisterAlias m _ force =>
      force = true /\ m = n
  | Get _ | Names | Has _ | Resolve _ => False
  end.
