(** Python / numpy primitives the code is written with.
    Timestamps are nanoseconds since 1970-01-01 UTC, as in the code's own
    int64 arrays ([Timestamp.value], [values.astype(np.int64)]).
    Simplification: [Z] instead of int64 (no overflow near year 1677 / 2262). *)
From Coq Require Import ZArith List Bool.
Import ListNotations.
Open Scope Z_scope.

(** Exceptions that the modelled code can raise. *)
Inductive exn : Type :=
| IndexError
| KeyError
| ValueError
| TypeError
| AttributeError
| StopIteration
| AmbiguousTimeError      (* pytz.AmbiguousTimeError, raised by tz_localize *)
| NonExistentTimeError.   (* pytz.NonExistentTimeError, raised by tz_localize *)

(** A Python computation returns a value or raises. *)
Inductive result (A : Type) : Type :=
| Ok (a : A)
| Raise (e : exn).
Arguments Ok {A} a.
Arguments Raise {A} e.

Definition bind {A B : Type} (r : result A) (f : A -> result B) : result B :=
  match r with
  | Ok a => f a
  | Raise e => Raise e
  end.

Notation "'do' x <- r ; k" := (bind r (fun x => k))
  (at level 200, x pattern, r at level 100, k at level 200, right associativity).

Definition zlen {A : Type} (l : list A) : Z := Z.of_nat (length l).

(** [a[i]] for a list / ndarray / Index: negative indices count from the end,
    IndexError outside.  numpy and pandas semantics of scalar indexing. *)
Definition pyget {A : Type} (l : list A) (i : Z) : result A :=
  let j := if i <? 0 then i + zlen l else i in
  if j <? 0 then Raise IndexError
  else match nth_error l (Z.to_nat j) with
       | Some a => Ok a
       | None => Raise IndexError
       end.

(** Bounds of a Python slice: negative bounds count from the end, then clamp. *)
Definition clamp (n i : Z) : Z :=
  if i <? 0 then Z.max 0 (i + n) else Z.min i n.

(** [a[i:j]]. *)
Definition pyslice {A : Type} (l : list A) (i j : Z) : list A :=
  let a := clamp (zlen l) i in
  let b := clamp (zlen l) j in
  firstn (Z.to_nat (b - a)) (skipn (Z.to_nat a) l).

(** numpy's binary search (npysort/binsearch.c.src, one key):
    [while (lo < hi) { mid = lo + ((hi - lo) >> 1);
       if (less(a[mid], key)) lo = mid + 1; else hi = mid; } return lo;]
    [less] is [<] for side='left' and [<=] for side='right'.
    The fuel [length l] is never exhausted (theorem [searchsorted_spec]). *)
Fixpoint bsearch (fuel : nat) (less : Z -> bool) (l : list Z) (lo hi : nat)
  : nat :=
  match fuel with
  | O => lo
  | S fuel' =>
      if Nat.ltb lo hi then
        let mid := (lo + Nat.div2 (hi - lo))%nat in
        match nth_error l mid with
        | Some v => if less v then bsearch fuel' less l (S mid) hi
                    else bsearch fuel' less l lo mid
        | None => lo
        end
      else lo
  end.

Definition searchsorted_left (l : list Z) (key : Z) : Z :=
  Z.of_nat (bsearch (length l) (fun v => v <? key) l 0 (length l)).

Definition searchsorted_right (l : list Z) (key : Z) : Z :=
  Z.of_nat (bsearch (length l) (fun v => v <=? key) l 0 (length l)).

(** [np.arange(start, stop, step)] on int64, step > 0:
    start, start+step, ... while < stop. *)
Fixpoint zseq (start step : Z) (n : nat) : list Z :=
  match n with
  | O => []
  | S n' => start :: zseq (start + step) step n'
  end.

Definition arange (start stop step : Z) : list Z :=
  zseq start step (Z.to_nat ((stop - start + step - 1) / step)).

(** [Index.get_loc(label)] on an index without duplicates: position, or
    KeyError. *)
Fixpoint get_loc_from (i : Z) (l : list Z) (label : Z) : result Z :=
  match l with
  | [] => Raise KeyError
  | x :: l' => if x =? label then Ok i else get_loc_from (i + 1) l' label
  end.

Definition get_loc (l : list Z) (label : Z) : result Z := get_loc_from 0 l label.

(** [Index.get_indexer([label])]: position, or -1. *)
Definition get_indexer1 (l : list Z) (label : Z) : Z :=
  match get_loc l label with
  | Ok i => i
  | Raise _ => -1
  end.

(** [label in index]. *)
Definition contains (l : list Z) (label : Z) : bool :=
  existsb (Z.eqb label) l.

(** Label slice [a:b] (both ends inclusive) of a sorted index, as done by
    [Index.slice_indexer] and by [.loc[a:b]] / [series[a:b]]:
    left insertion point of a, right insertion point of b.  The second list is
    the data column aligned with the index. *)
Definition label_slice {A : Type} (index : list Z) (data : list A) (a b : Z)
  : list A :=
  pyslice data (searchsorted_left index a) (searchsorted_right index b).

(** [seq.sum()] over integers. *)
Definition zsum (l : list Z) : Z := fold_right Z.add 0 l.

(** Sequencing a Python list comprehension whose body may raise. *)
Fixpoint mapM {A B : Type} (f : A -> result B) (l : list A) : result (list B) :=
  match l with
  | [] => Ok []
  | x :: l' => do y <- f x; do ys <- mapM f l'; Ok (y :: ys)
  end.
