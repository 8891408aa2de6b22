(** Specification vocabulary for calls from several threads. *)
From Coq Require Import String ZArith List.
From Verif.Model Require Import Base Queries Lazy Dispatcher Threads.
From Verif.Spec Require Import Registry.
Import ListNotations.
Open Scope Z_scope.

(** What minute_to_session_label(dt) gives when it is called alone and for the first time. *)
Definition label (c : calendar) (dt : Z) : result Z := fst (minute_to_session_label c None dt "next"%string).
(** Some thread asked for [dt]. *)
Definition asked (es : list lookup_event) (dt : Z) : Prop := exists i, In (LCall i dt) es.

(** No event drops the value of [o]. *)
Definition keeps_value (o : Z) (es : list lazy_event) : Prop := ~ In (ZDelItem o) es /\ ~ In (ZCollect o) es.
(** The [n]-th run of a getter was one for [o], and gave [v]. *)
Definition computed {V} (getter : Z -> list Z -> option V) (calls : list Z) (o : Z) (v : option V) : Prop :=
  exists past rest, calls = (past ++ o :: rest)%list /\ getter o past = v.

(** No thread is in a call of register_calendar_alias. *)
Definition no_alias_call (s : machine) : Prop := forall i a r force, call_of (phases s i) <> Some (RegisterAlias a r force).
(** The answer of a call in the model of single calls (C35-C42). *)
Definition reply_of (build : factory -> list factory -> option instance) (d : dispatcher) (o : op) : reply :=
  let done (x : outcome unit) := match x with Returns _ => Done | Raises e => Error e end in
  match o with
  | Get n => match fst (get_calendar build d n) with Returns c => Instance c | Raises e => Error e end
  | Names => Listed (get_calendar_names d)
  | Has n => Answer (has_calendar d n)
  | Resolve n => match resolve_alias d n with Returns m => Name m | Raises e => Error e end
  | Register n c force => done (fst (register_calendar d n c force))
  | RegisterType n f force => done (fst (register_calendar_type d n f force))
  | RegisterAlias a r force => done (fst (register_calendar_alias d a r force))
  | Deregister _ | Clear => Done
  end.
(** A call that changes no registration. *)
Definition reads (o : op) : Prop := match o with Get _ | Has _ | Resolve _ | Names => True | _ => False end.
Definition only_reads (es : list thread_event) : Prop := forall i o, In (Call i o) es -> reads o.
(** An instance under name [m] that was there before or comes from the factory of [m]. *)
Definition instance_of (build : factory -> list factory -> option instance) (d : dispatcher) (m : name) (c : instance) : Prop :=
  lookup m (calendars d) = Some c \/ exists f past, lookup m (factories d) = Some f /\ build f past = Some c.
(** The thread has missed the instance under [m] and will build or store one. *)
Definition building (m : name) (p : phase) : Prop :=
  match p with GetFactory _ n | GetBuild _ n _ | GetStore _ n _ => n = m | _ => False end.
(** The answers given between two states. *)
Definition answers_between (s s' : machine) : list (nat * op * reply) := skipn (length (replies s)) (replies s').
