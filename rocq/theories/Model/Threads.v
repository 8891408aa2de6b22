(** Calls from several threads.

    A thread is at a point between two accesses to shared data ([phase]); an event
    is the start of a call or the next access of some thread, so a list of events is
    an interleaving.  What is atomic: one operation on a dict with [str] keys, on the
    weak dictionary of [lazyval], one read or write of an attribute (CPython with its
    global interpreter lock).  Everything between two accesses is local to the thread
    and done together with the access before it.  The log holds the answers of
    finished calls, in order. *)
From Coq Require Import String ZArith List Bool.
From Verif.Model Require Import Base Queries Lazy Dispatcher.
Import ListNotations.
Open Scope Z_scope.

(** Thread [i] goes to [p], the others stay. *)
Definition move {P : Type} (ps : nat -> P) (i : nat) (p : P) : nat -> P :=
  fun j => if Nat.eqb j i then p else ps j.

(** ** minute_to_session_label *)

(** trading_calendar.py:974-986 for direction "next" (the other directions do not use
    the cache): the cache is read once for the comparison (975), again for the
    answer (976), and replaced after a miss (982-984). *)
Inductive lookup_phase : Type :=
| LIdle
| LHit (dt : Z)    (* about to read the answer, 976 *)
| LMiss (dt : Z).  (* about to compute and store, 978-985 *)

Record lookups : Type := Lookups {
  l_cache : Queries.cache;
  l_phase : nat -> lookup_phase;
  l_log : list (nat * Z * result (option Z))
}.

Inductive lookup_event : Type :=
| LCall (i : nat) (dt : Z)
| LStep (i : nat).

Definition lookup_step (c : calendar) (s : lookups) (e : lookup_event) : lookups :=
  match e with
  | LCall i dt =>
      match l_phase s i with
      | LIdle =>
          let hit := match l_cache s with Some (dt0, _) => dt0 =? dt | None => false end in
          Lookups (l_cache s) (move (l_phase s) i (if hit then LHit dt else LMiss dt)) (l_log s)
      | _ => s
      end
  | LStep i =>
      match l_phase s i with
      | LIdle => s
      | LHit dt =>
          Lookups (l_cache s) (move (l_phase s) i LIdle)
            (l_log s ++ [(i, dt, Ok (match l_cache s with Some (_, l) => Some l | None => None end))])
      | LMiss dt =>
          match pyget (sessions c) (searchsorted_left (closes c) dt) with
          | Raise e => Lookups (l_cache s) (move (l_phase s) i LIdle) (l_log s ++ [(i, dt, Raise e)])
          | Ok l => Lookups (Some (dt, l)) (move (l_phase s) i LIdle) (l_log s ++ [(i, dt, Ok (Some l))])
          end
      end
  end.

(** trading_calendar.py:170 *)
Definition lookups_start : lookups := Lookups None (fun _ => LIdle) [].
Definition run_threads_lookup (c : calendar) (s : lookups) (es : list lookup_event) : lookups :=
  fold_left (lookup_step c) es s.

(** ** lazyval *)

Section LazyThreads.
Variable V : Type.
Variable getter : Z -> list Z -> option V.

(** memoize.py:46-50: the dictionary is read (47), the getter called, its value stored
    (49) and returned. *)
Inductive lazy_phase : Type :=
| ZIdle
| ZGetter (o : Z)
| ZStore (o : Z) (v : V).

Record lazies : Type := Lazies {
  z_state : lazyval V;
  z_phase : nat -> lazy_phase;
  z_log : list (nat * Z * answer V)
}.

Inductive lazy_event : Type :=
| ZCall (i : nat) (o : Z)
| ZStep (i : nat)
| ZDelItem (o : Z)
| ZCollect (o : Z).

Definition lazy_step (s : lazies) (e : lazy_event) : lazies :=
  match e with
  | ZCall i o =>
      match z_phase s i with
      | ZIdle =>
          match find o (Lazy.cache (z_state s)) with
          | Some v => Lazies (z_state s) (z_phase s) (z_log s ++ [(i, o, Value v)])
          | None => Lazies (z_state s) (move (z_phase s) i (ZGetter o)) (z_log s)
          end
      | _ => s
      end
  | ZStep i =>
      match z_phase s i with
      | ZIdle => s
      | ZGetter o =>
          let past := Lazy.calls (z_state s) in
          let state := Lazyval (Lazy.cache (z_state s)) (past ++ [o]) in
          match getter o past with
          | Some v => Lazies state (move (z_phase s) i (ZStore o v)) (z_log s)
          | None => Lazies state (move (z_phase s) i ZIdle) (z_log s ++ [(i, o, GetterError)])
          end
      | ZStore o v =>
          Lazies (Lazyval ((o, v) :: Lazy.cache (z_state s)) (Lazy.calls (z_state s)))
            (move (z_phase s) i ZIdle) (z_log s ++ [(i, o, Value v)])
      end
  | ZDelItem o => Lazies (snd (delitem (z_state s) o)) (z_phase s) (z_log s)
  | ZCollect o => Lazies (Lazyval (remove o (Lazy.cache (z_state s))) (Lazy.calls (z_state s))) (z_phase s) (z_log s)
  end.

Definition lazies_start : lazies := Lazies Lazy.fresh (fun _ => ZIdle) [].
Definition run_threads_lazy (s : lazies) (es : list lazy_event) : lazies := fold_left lazy_step es s.

End LazyThreads.
Arguments ZIdle {V}.
Arguments ZGetter {V} _.
Arguments ZStore {V} _ _.
Arguments Lazies {V} _ _ _.
Arguments z_state {V} _.
Arguments z_phase {V} _ _.
Arguments z_log {V} _.
Arguments lazy_step {V} _ _ _.
Arguments lazies_start {V}.
Arguments run_threads_lazy {V} _ _ _.

(** ** TradingCalendarDispatcher *)

(** Where a thread is in a call of the dispatcher (calendar_utils.py:170-377): the next
    access to one of the three dicts, or the call of a factory. *)
Inductive phase : Type :=
| Idle
| ResolveTest (o : op) (seen : list name) (n : name)   (* 344 while name in self._aliases *)
| ResolveRead (o : op) (seen : list name) (n : name)   (* 346 name = self._aliases[name] *)
| GetCached (o : op) (n : name)                        (* 187 *)
| GetFactory (o : op) (n : name)                       (* 193 *)
| GetBuild (o : op) (n : name) (f : factory)           (* 199 factory() *)
| GetStore (o : op) (n : name) (c : instance)          (* 199 self._calendars[...] = *)
| HasCalendar (o : op)                                 (* 226-228 *)
| HasFactory (o : op)
| HasAlias (o : op)
| PopCalendar (o : op)                                 (* 367-369 *)
| PopFactory (o : op)
| PopAlias (o : op)
| Store (o : op)                                       (* 257, 288, 318 *)
| DeleteAlias (o : op) (cycle : list name)             (* 325 *)
| ClearCalendars                                       (* 375-377 *)
| ClearFactories
| ClearAliases
| NamesNow.                                            (* 210-219, atomic *)

(** The call a thread is in. *)
Definition call_of (p : phase) : option op :=
  match p with
  | Idle => None
  | ResolveTest o _ _ | ResolveRead o _ _ | GetCached o _ | GetFactory o _ | GetBuild o _ _ | GetStore o _ _
  | HasCalendar o | HasFactory o | HasAlias o | PopCalendar o | PopFactory o | PopAlias o | Store o
  | DeleteAlias o _ => Some o
  | ClearCalendars | ClearFactories | ClearAliases => Some Clear
  | NamesNow => Some Names
  end.

Inductive reply : Type :=
| Instance (c : instance)
| Name (n : name)
| Answer (b : bool)
| Listed (ns : list name)
| Done
| Error (e : error)
| KeyMissing (n : name). (* KeyError from a dict *)

Inductive reaction : Type :=
| Goes (p : phase)
| Ends (r : reply).

(** The name a call is about. *)
Definition target (o : op) : name :=
  match o with
  | Get n | Has n | Resolve n | Register n _ _ | RegisterType n _ _ | RegisterAlias n _ _ | Deregister n => n
  | Names | Clear => EmptyString
  end.
Definition forced (o : op) : bool :=
  match o with Register _ _ f | RegisterType _ _ f | RegisterAlias _ _ f => f | _ => false end.

(** The first access of a call. *)
Definition begin (o : op) : phase :=
  match o with
  | Get n | Resolve n => ResolveTest o [] n
  | Names => NamesNow
  | Has _ => HasCalendar o
  | Register _ _ _ | RegisterType _ _ _ | RegisterAlias _ _ _ => if forced o then PopCalendar o else HasCalendar o
  | Deregister _ => PopCalendar o
  | Clear => ClearCalendars
  end.

(** 356: the end of the loop, with its result. *)
Definition resolved (o : op) (n : name) : reaction :=
  match o with
  | Get _ => Goes (GetCached o n)
  | Resolve _ => Ends (Name n)
  | _ => Ends Done
  end.
(** 350-354, and 320-326 in register_calendar_alias. *)
Definition cyclic (o : op) (cycle : list name) : reaction :=
  match o with
  | RegisterAlias _ _ _ => Goes (DeleteAlias o cycle)
  | _ => Ends (Error (CyclicCalendarAlias cycle))
  end.
(** 226-228: the name is known. *)
Definition known (o : op) : reaction :=
  match o with
  | Has _ => Ends (Answer true)
  | _ => Ends (Error (CalendarNameCollision (target o)))
  end.

Section RegistryThreads.
Variable build : factory -> list factory -> option instance.

(** The next access of a thread. *)
Definition advance (d : dispatcher) (p : phase) : dispatcher * reaction :=
  match p with
  | Idle => (d, Goes Idle)
  | ResolveTest o seen n =>
      (d, if mem n (aliases d) then Goes (ResolveRead o (seen ++ [n])%list n) else resolved o n)
  | ResolveRead o seen n =>
      (d, match lookup n (aliases d) with
          | None => Ends (KeyMissing n)
          | Some n' => if existsb (String.eqb n') seen then cyclic o (seen ++ [n'])%list else Goes (ResolveTest o seen n')
          end)
  | GetCached o n =>
      (d, match lookup n (calendars d) with Some c => Ends (Instance c) | None => Goes (GetFactory o n) end)
  | GetFactory o n =>
      (d, match lookup n (factories d) with
          | Some f => Goes (GetBuild o n f)
          | None => Ends (Error (InvalidCalendarName (target o)))
          end)
  | GetBuild o n f =>
      (Dispatcher (calendars d) (factories d) (aliases d) (calls d ++ [f])%list,
       match build f (calls d) with Some c => Goes (GetStore o n c) | None => Ends (Error (FactoryError f)) end)
  | GetStore o n c => (Dispatcher (store n c (calendars d)) (factories d) (aliases d) (calls d), Ends (Instance c))
  | HasCalendar o => (d, if mem (target o) (calendars d) then known o else Goes (HasFactory o))
  | HasFactory o => (d, if mem (target o) (factories d) then known o else Goes (HasAlias o))
  | HasAlias o =>
      (d, if mem (target o) (aliases d) then known o
          else match o with Has _ => Ends (Answer false) | _ => Goes (Store o) end)
  | PopCalendar o => (Dispatcher (pop (target o) (calendars d)) (factories d) (aliases d) (calls d), Goes (PopFactory o))
  | PopFactory o => (Dispatcher (calendars d) (pop (target o) (factories d)) (aliases d) (calls d), Goes (PopAlias o))
  | PopAlias o =>
      (Dispatcher (calendars d) (factories d) (pop (target o) (aliases d)) (calls d),
       match o with Deregister _ => Ends Done | _ => Goes (HasCalendar o) end)
  | Store o =>
      match o with
      | Register n c _ => (Dispatcher (store n c (calendars d)) (factories d) (aliases d) (calls d), Ends Done)
      | RegisterType n f _ => (Dispatcher (calendars d) (store n f (factories d)) (aliases d) (calls d), Ends Done)
      | RegisterAlias a r _ =>
          (Dispatcher (calendars d) (factories d) (store a r (aliases d)) (calls d), Goes (ResolveTest o [] a))
      | _ => (d, Ends Done)
      end
  | DeleteAlias o cycle =>
      (Dispatcher (calendars d) (factories d) (pop (target o) (aliases d)) (calls d),
       Ends (if mem (target o) (aliases d) then Error (CyclicCalendarAlias cycle) else KeyMissing (target o)))
  | ClearCalendars => (Dispatcher [] (factories d) (aliases d) (calls d), Goes ClearFactories)
  | ClearFactories => (Dispatcher (calendars d) [] (aliases d) (calls d), Goes ClearAliases)
  | ClearAliases => (Dispatcher (calendars d) (factories d) [] (calls d), Ends Done)
  | NamesNow => (d, Ends (Listed (get_calendar_names d)))
  end.

Record machine : Type := Machine {
  registry : dispatcher;
  phases : nat -> phase;
  replies : list (nat * op * reply)
}.

Inductive thread_event : Type :=
| Call (i : nat) (o : op)
| Step (i : nat).

Definition thread_step (s : machine) (e : thread_event) : machine :=
  match e with
  | Call i o =>
      match phases s i with
      | Idle => Machine (registry s) (move (phases s) i (begin o)) (replies s)
      | _ => s
      end
  | Step i =>
      match call_of (phases s i) with
      | None => s
      | Some o =>
          let '(d, r) := advance (registry s) (phases s i) in
          match r with
          | Goes p => Machine d (move (phases s) i p) (replies s)
          | Ends r => Machine d (move (phases s) i Idle) (replies s ++ [(i, o, r)])%list
          end
      end
  end.

Definition machine_start (d : dispatcher) : machine := Machine d (fun _ => Idle) [].
Definition run_threads (s : machine) (es : list thread_event) : machine := fold_left thread_step es s.

End RegistryThreads.
