(** etc/lunisolar: the files in which the commands lunar-ecliptic-longitude and
    solar-ecliptic-longitude keep what they compute, and how they are read again.
    Minutes are integers (numpy [M8[m]]), a longitude is a [Z] as in Model/Lunisolar.v. *)
From Coq Require Import ZArith List Bool.
From Verif.Model Require Import Base Lunisolar.
Import ListNotations.
Open Scope Z_scope.

(** The name of a file in the directory: ["FIRST_LAST"] with two minutes as numpy prints
    them; a name without an underscore, which the pattern of
    etc/lunisolar:62 does not match; a name with one whose parts are not times.  Simplification: the text of a minute is not modelled,
    numpy reads back what it prints. *)
Inductive name : Type :=
| Block (first last : Z)
| Unmatched (i : nat)
| Foreign (i : nat).

Definition name_eq_dec : forall a b : name, {a = b} + {a <> b}.
Proof. decide equality; first [apply Z.eq_dec | apply Nat.eq_dec]. Defined.

(** A directory: names without duplicates and the doubles of each file. *)
Definition directory : Type := list (name * list Z).

(** [el.tofile(path)]: the file is made or replaced. *)
Fixpoint write (dir : directory) (n : name) (contents : list Z) : directory :=
  match dir with
  | [] => [(n, contents)]
  | (m, c) :: dir' => if name_eq_dec m n then (n, contents) :: dir' else (m, c) :: write dir' n contents
  end.

(** toolz/itertoolz.py [partition_all(n, seq)] (0.11.1), n > 0. *)
Fixpoint partition_all_from {A} (fuel n : nat) (seq : list A) : list (list A) :=
  match fuel, seq with
  | S fuel', _ :: _ => firstn n seq :: partition_all_from fuel' n (skipn n seq)
  | _, _ => []
  end.
Definition partition_all {A} (n : nat) (seq : list A) : list (list A) :=
  partition_all_from (length seq) n seq.

(** [60 * 24 * 365] in etc/lunisolar:878 and 1030. *)
Definition BLOCK : nat := Z.to_nat (60 * 24 * 365).

(** etc/lunisolar:803-816 [lunar_ecliptic_longitude_block] and 986-997
    [solar_ecliptic_longitude_block]; [longitude] is what the ephemeris gives for a
    minute, [written] how many values reach the file before the program stops ([None]:
    all of them). *)
Definition ecliptic_longitude_block (longitude : Z -> Z) (dir : directory) (minutes : list Z)
  (written : option nat) : directory :=
  let el := map longitude minutes in
  write dir (Block (hd 0 minutes) (last minutes 0))
    match written with None => el | Some k => firstn k el end.

(** etc/lunisolar:870-882 [lunar_ecliptic_longitude] and 1022-1034
    [solar_solar_ecliptic_longitude]: the blocks in turn. *)
Definition ecliptic_longitude (longitude : Z -> Z) (dir : directory) (start stop : Z) : directory :=
  fold_left (fun d b => ecliptic_longitude_block longitude d b None)
            (partition_all BLOCK (arange start stop 1)) dir.

(** The same command when it is stopped after [blocks] whole blocks and, if [written] is
    given, that many values of the next one. *)
Definition ecliptic_longitude_stopped (longitude : Z -> Z) (dir : directory) (start stop : Z)
  (blocks : nat) (written : option nat) : directory :=
  let all := partition_all BLOCK (arange start stop 1) in
  let dir := fold_left (fun d b => ecliptic_longitude_block longitude d b None) (firstn blocks all) dir in
  match written, skipn blocks all with
  | Some k, b :: _ => ecliptic_longitude_block longitude dir b (Some k)
  | _, _ => dir
  end.

(** [sorted(files, key=start)], stable. *)
Fixpoint insert_file (x : Z * Z * list Z) (files : list (Z * Z * list Z)) : list (Z * Z * list Z) :=
  match files with
  | [] => [x]
  | y :: files' => if fst (fst y) <? fst (fst x) then y :: insert_file x files' else x :: files
  end.
Definition sort_files (files : list (Z * Z * list Z)) : list (Z * Z * list Z) :=
  fold_right insert_file [] files.

(** etc/lunisolar:62-65, the files that match, with the times in their names. *)
Fixpoint matching (listing : directory) : result (list (Z * Z * list Z)) :=
  match listing with
  | [] => Ok []
  | (Unmatched _, _) :: listing' => matching listing'
  | (Foreign _, _) :: _ => Raise ValueError
  | (Block first last, c) :: listing' => do files <- matching listing'; Ok ((first, last, c) :: files)
  end.

(** etc/lunisolar:45-77 [load_precomputed_data]; [listing] is the directory in the order
    in which [iterdir] gives it.  [np.fromfile] reads the whole doubles of a file.
    [np.hstack] of nothing is a ValueError. *)
Definition load_precomputed_data (listing : directory) : result (list Z * list Z) :=
  do files <- matching listing;
  match sort_files files with
  | [] => Raise ValueError
  | files => Ok (concat (map snd files),
                 concat (map (fun f => arange (fst (fst f)) (snd (fst f) + 1) 1) files))
  end.

(** etc/lunisolar:911-948 [load_new_moons] from two directories.  The subtraction in
    [calculate_new_moon] is a ValueError for arrays of different lengths (simplification:
    numpy would repeat an array of length one). *)
Definition load_new_moons_from (solar_listing lunar_listing : directory) : result (list Z) :=
  do (solar, solar_minutes) <- load_precomputed_data solar_listing;
  do (lunar, lunar_minutes) <- load_precomputed_data lunar_listing;
  do new_moons <- load_new_moons solar solar_minutes lunar lunar_minutes;
  if Nat.eqb (length solar) (length lunar) then Ok new_moons else Raise ValueError.
