(** The months of the Chinese calendar, from the days of the new moons, of the winter
    solstices and of the zhongqi (H. Aslaksen, The Mathematics of the Chinese Calendar).
    [moons] lists the days of the new moons; month [i] begins on its entry number [i]. *)
From Coq Require Import ZArith List Bool.
Import ListNotations.
Open Scope Z_scope.

Definition start (moons : list Z) (i : Z) : Z := nth (Z.to_nat i) moons 0.

(** Day [d] lies in month [i], of which the end is known. *)
Definition in_month (moons : list Z) (i d : Z) : Prop :=
  0 <= i /\ i + 1 < Z.of_nat (length moons) /\ start moons i <= d < start moons (i + 1).

Definition has_zhongqi (moons zhongqi : list Z) (i : Z) : bool :=
  existsb (fun d => (start moons i <=? d) && (d <? start moons (i + 1))) zhongqi.

Fixpoint consecutive (i : Z) (count : nat) : list Z :=
  match count with O => [] | S count => i :: consecutive (i + 1) count end.

Fixpoint without_first (p : Z -> bool) (l : list Z) : list Z :=
  match l with
  | [] => []
  | x :: l' => if p x then l' else x :: without_first p l'
  end.

(** A sui: the months from [s], which contains a winter solstice, until [s'], which
    contains the next one.  If there are not twelve, the first month without zhongqi is a
    leap month; the others are the regular months 11, 12, 1, ..., 10. *)
Definition regular_months (moons zhongqi : list Z) (s s' : Z) : list Z :=
  if s' - s =? 12 then consecutive s 12
  else without_first (fun i => negb (has_zhongqi moons zhongqi i)) (consecutive s (Z.to_nat (s' - s))).

(** The pairs of consecutive entries. *)
Definition pairs (ss : list Z) : list (Z * Z) := combine ss (tl ss).

(** Day [d] of month [m], 1 to 10, of the year that begins in the sui. *)
Definition feast (moons zhongqi : list Z) (m d : Z) (sui : Z * Z) : Z :=
  start moons (nth (Z.to_nat (m + 1)) (regular_months moons zhongqi (fst sui) (snd sui)) 0) + (d - 1).
