(** [lazyval] (trading_calendars/utils/memoize.py:9-56): a descriptor that
    computes an attribute on first read and remembers it per object.

    Objects are identities ([Z]); the wrapped getter is an oracle that is given
    the object and the list of getter calls made so far, and returns a value or
    raises ([None]).  Simplification: the getter does not itself read the same
    attribute of the same object. *)
From Coq Require Import ZArith List Bool.
Import ListNotations.
Open Scope Z_scope.

Section Lazyval.

Variable V : Type.

(** memoize.py:39-41: the [WeakKeyDictionary] (objects compare by identity),
    plus the history of getter calls (not part of the descriptor). *)
Record lazyval : Type := Lazyval {
  cache : list (Z * V);
  calls : list Z
}.

(** memoize.py:39-41 *)
Definition fresh : lazyval := Lazyval [] [].

Fixpoint find (o : Z) (c : list (Z * V)) : option V :=
  match c with
  | [] => None
  | (o', v) :: c' => if o' =? o then Some v else find o c'
  end.

Definition remove (o : Z) (c : list (Z * V)) : list (Z * V) :=
  filter (fun p => negb (fst p =? o)) c.

Inductive answer : Type :=
| Value (v : V)
| GetterError        (* the exception raised by the getter *)
| ReadOnlyError      (* AttributeError("Can't set read-only attribute.") *)
| KeyErr             (* KeyError from __delitem__ *)
| NoAnswer.

Variable getter : Z -> list Z -> option V.

(** memoize.py:43-50 [__get__] *)
Definition read (s : lazyval) (o : Z) : answer * lazyval :=
  match find o (cache s) with
  | Some v => (Value v, s)
  | None =>
      let calls' := calls s ++ [o] in
      match getter o (calls s) with
      | Some v => (Value v, Lazyval ((o, v) :: cache s) calls')
      | None => (GetterError, Lazyval (cache s) calls')
      end
  end.

(** memoize.py:52-53 [__set__] *)
Definition write (s : lazyval) (o : Z) (v : V) : answer * lazyval := (ReadOnlyError, s).

(** memoize.py:55-56 [__delitem__] *)
Definition delitem (s : lazyval) (o : Z) : answer * lazyval :=
  match find o (cache s) with
  | None => (KeyErr, s)
  | Some _ => (NoAnswer, Lazyval (remove o (cache s)) (calls s))
  end.

(** Events: the three above, and the garbage collection of an object, which
    drops its entry from the weak dictionary. *)
Inductive event : Type :=
| Read (o : Z)
| Write (o : Z) (v : V)
| DelItem (o : Z)
| Collect (o : Z).

Definition step (s : lazyval) (e : event) : answer * lazyval :=
  match e with
  | Read o => read s o
  | Write o v => write s o v
  | DelItem o => delitem s o
  | Collect o => (NoAnswer, Lazyval (remove o (cache s)) (calls s))
  end.

(** The answers of a history, and the final state. *)
Fixpoint run (s : lazyval) (es : list event) : list answer * lazyval :=
  match es with
  | [] => ([], s)
  | e :: es' =>
      let '(a, s') := step s e in
      let '(rest, s'') := run s' es' in
      (a :: rest, s'')
  end.

End Lazyval.

Arguments Lazyval {V} _ _.
Arguments cache {V} _.
Arguments calls {V} _.
Arguments fresh {V}.
Arguments find {V} _ _.
Arguments remove {V} _ _.
Arguments Value {V} _.
Arguments GetterError {V}.
Arguments ReadOnlyError {V}.
Arguments KeyErr {V}.
Arguments NoAnswer {V}.
Arguments read {V} _ _ _.
Arguments write {V} _ _ _.
Arguments delitem {V} _ _.
Arguments Read {V} _.
Arguments Write {V} _ _.
Arguments DelItem {V} _.
Arguments Collect {V} _.
Arguments step {V} _ _ _.
Arguments run {V} _ _ _.
