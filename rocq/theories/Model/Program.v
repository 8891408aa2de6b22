(** A program with any number of dispatchers and of the dicts they are made from
    (trading_calendars/calendar_utils.py:164-168, 380-396), and the loop of
    etc/bench.py:13-28.

    [TradingCalendarDispatcher.__init__] keeps the dict of calendars that it is given
    and copies the other two.  So a dispatcher object holds a reference to the dict of
    calendars, which the caller and other dispatchers may hold too.

    The history of factory calls of each dispatcher is its own, as in Dispatcher.v; what
    a factory gives is decided by an oracle that also knows the dispatcher. *)
From Coq Require Import String ZArith List Bool.
From Verif.Model Require Import Dispatcher.
Import ListNotations.
Open Scope list_scope.

(** The fields of a dispatcher: the reference to its dict of calendars, and its own
    copies of the other dicts (calendar_utils.py:166-168). *)
Record object : Type := Object {
  o_calendars : nat;
  o_factories : dict factory;
  o_aliases : dict name;
  o_calls : list factory
}.

(** The dicts that exist, and the dispatchers. *)
Record world : Type := World {
  calendar_dicts : list (dict instance);
  factory_dicts : list (dict factory);
  alias_dicts : list (dict name);
  objects : list object
}.

(** [xs[i] = x]; nothing if there is no such place. *)
Fixpoint replace {A : Type} (i : nat) (x : A) (xs : list A) : list A :=
  match xs, i with
  | [], _ => []
  | _ :: xs', O => x :: xs'
  | y :: xs', S i' => y :: replace i' x xs'
  end.

(** What the object sees: the dict that it refers to at this moment, and its copies. *)
Definition seen_by (w : world) (x : object) : dispatcher :=
  Dispatcher (nth (o_calendars x) (calendar_dicts w) []) (o_factories x) (o_aliases x) (o_calls x).

(** What a program does: it makes a dict, changes one of its dicts to anything, makes a
    dispatcher from three dicts, or calls a method. *)
Inductive event : Type :=
| NewCalendars (d : dict instance)
| NewFactories (d : dict factory)
| NewAliases (d : dict name)
| SetCalendars (r : nat) (d : dict instance)
| SetFactories (r : nat) (d : dict factory)
| SetAliases (r : nat) (d : dict name)
| Construct (c f a : nat)
| CallOn (i : nat) (o : op).

Section Factories.

(** What a factory called by the [i]-th dispatcher gives, after its earlier calls. *)
Variable build : nat -> factory -> list factory -> option instance.

(** One event.  A method works on the three dicts of its object, as in Dispatcher.v, and
    its effect on the dict of calendars is an effect on the shared dict.  References that
    do not exist leave everything unchanged (the program could not name them). *)
Definition world_step (w : world) (e : event) : world :=
  let '(World cs fs als xs) := w in
  match e with
  | NewCalendars d => World (cs ++ [d]) fs als xs
  | NewFactories d => World cs (fs ++ [d]) als xs
  | NewAliases d => World cs fs (als ++ [d]) xs
  | SetCalendars r d => World (replace r d cs) fs als xs
  | SetFactories r d => World cs (replace r d fs) als xs
  | SetAliases r d => World cs fs (replace r d als) xs
  | Construct c f a =>
      match nth_error cs c, nth_error fs f, nth_error als a with
      | Some _, Some df, Some da => World cs fs als (xs ++ [Object c df da []])
      | _, _, _ => w
      end
  | CallOn i o =>
      match nth_error xs i with
      | None => w
      | Some x =>
          let d := step (build i) (seen_by w x) o in
          World (replace (o_calendars x) (calendars d) cs) fs als
                (replace i (Object (o_calendars x) (factories d) (aliases d) (calls d)) xs)
      end
  end.

Definition world_run (w : world) (es : list event) : world := fold_left world_step es w.

End Factories.

(** After the import of the package: the default tables (calendar_utils.py:62-144), the
    dict [{}] of line 384 and the global dispatcher (383-387). *)
Definition imported : world :=
  World [[]] [default_calendar_factories] [default_calendar_aliases]
        [Object 0 default_calendar_factories default_calendar_aliases []].

(** etc/bench.py:24-28, the loop of [construct_all_calendars] over the names: [Some] of the
    dispatcher at the end, [None] if [get_calendar] raised. *)
Fixpoint construct_all (build : factory -> list factory -> option instance)
  (d : dispatcher) (names : list name) : option dispatcher :=
  match names with
  | [] => Some d
  | n :: names' =>
      match get_calendar build d n with
      | (Returns _, d') => construct_all build (deregister_calendar d' n) names'
      | (Raises _, _) => None
      end
  end.

(** etc/bench.py:13-28: a dispatcher from the default tables, and the loop over the
    aliases and then the other names. *)
Definition construct_all_calendars (build : factory -> list factory -> option instance) : option dispatcher :=
  construct_all build (Dispatcher [] default_calendar_factories default_calendar_aliases [])
    (keys default_calendar_aliases ++ keys default_calendar_factories).
