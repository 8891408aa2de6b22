(** The arithmetic of the minute arrays as the machine does it: numpy's 64-bit
    integers, which wrap around, and IEEE 754 double precision numbers, which
    round to nearest (Flocq's [binary_float 53 1024]).  Elsewhere the model uses
    [Z]; here the functions of calendar_helpers.py and trading_calendar.py that
    compute with instants are modelled again on machine numbers. *)
From Coq Require Import ZArith List Bool Permutation.
From Flocq Require Import IEEE754.BinarySingleNaN.
From Verif.Model Require Import Base Helpers Queries.
Import ListNotations.
Open Scope Z_scope.

(** ** 64-bit integers (numpy [int64]) *)

Definition wrap64 (z : Z) : Z := (z + 2 ^ 63) mod 2 ^ 64 - 2 ^ 63.
Definition add64 (a b : Z) : Z := wrap64 (a + b).
Definition sub64 (a b : Z) : Z := wrap64 (a - b).
Definition mul64 (a b : Z) : Z := wrap64 (a * b).

(** pandas/core/algorithms.py [checked_add_with_arr], used for the difference of
    two datetime or timedelta columns (pandas 1.1.3): [None] stands for
    OverflowError. *)
Definition checked_sub (a b : Z) : option Z :=
  if (- 2 ^ 63 <=? a - b) && (a - b <? 2 ^ 63) then Some (a - b) else None.

(** ** Double precision numbers (numpy [float64]) *)

Definition binary64 : Type := binary_float 53 1024.

Lemma prec53 : FLX.Prec_gt_0 53.
Proof. reflexivity. Qed.
Lemma prec53_emax : Prec_lt_emax 53 1024.
Proof. reflexivity. Qed.

(** Conversion of an integer to a double (C cast, [astype(np.float64)]). *)
Definition to_double (z : Z) : binary64 :=
  binary_normalize 53 1024 prec53 prec53_emax mode_NE z 0 false.

(** [np.true_divide] of two int64: both are converted first. *)
Definition true_divide (a b : Z) : binary64 :=
  Bdiv (prec_gt_0_ := prec53) (prec_lt_emax_ := prec53_emax) mode_NE (to_double a) (to_double b).

Definition add_double (x y : binary64) : binary64 :=
  Bplus (prec_gt_0_ := prec53) (prec_lt_emax_ := prec53_emax) mode_NE x y.

(** numpy/core/src/multiarray/ctors.c [_arange_safe_ceil_to_intp] (numpy 1.19.3):
    the ceiling as an array length; ValueError if it is not a number or does not
    fit. *)
Definition ceil_to_intp (x : binary64) : result Z :=
  match x with
  | B754_zero _ => Ok 0
  | B754_finite s m e _ =>
      let n := if s then Zneg m else Zpos m in
      let c := if 0 <=? e then n * 2 ^ e else - ((- n) / 2 ^ (- e)) in
      if (- 2 ^ 63 <=? c) && (c <? 2 ^ 63) then Ok c else Raise ValueError
  | _ => Raise ValueError
  end.

Definition is_zero (x : binary64) : bool :=
  match x with B754_zero _ => true | _ => false end.

(** ctors.c [_calc_length]: the length of [np.arange(start, stop, step)]. *)
Definition arange_length64 (start stop step : Z) : result Z :=
  let d := sub64 stop start in
  let q := true_divide d step in
  if is_zero q && negb (d =? 0) then Ok (if Bsign q then 0 else 1)
  else ceil_to_intp q.

(** ctors.c [PyArray_ArangeObj] and arraytypes.c [LONG_fill]: the first two
    elements are [start] and [start + step], the others follow with their
    difference. *)
Definition arange64 (start stop step : Z) : result (list Z) :=
  do n <- arange_length64 start stop step;
  if n <=? 0 then Ok []
  else
    let delta := sub64 (add64 start step) start in
    Ok (map (fun i => add64 start (mul64 i delta)) (zseq 0 1 (Z.to_nat n))).

(** ** The minutes *)

(** calendar_helpers.py:46-68, loop body of [compute_all_minutes]. *)
Definition minute_pieces64 (open_time break_start_time break_end_time close_time : Z)
  : result (list (list Z)) :=
  if negb (break_start_time =? NP_NAT) then
    do p <- arange64 open_time (add64 break_start_time NANOSECONDS_PER_MINUTE)
                     NANOSECONDS_PER_MINUTE;
    do q <- arange64 break_end_time (add64 close_time NANOSECONDS_PER_MINUTE)
                     NANOSECONDS_PER_MINUTE;
    Ok [p; q]
  else
    do p <- arange64 open_time (add64 close_time NANOSECONDS_PER_MINUTE)
                     NANOSECONDS_PER_MINUTE;
    Ok [p].

(** calendar_helpers.py:43-45, the loop. *)
Fixpoint all_pieces64 (opens bstarts bends closes : list Z) : result (list (list Z)) :=
  match opens, bstarts, bends, closes with
  | o :: os, bs :: bss, be :: bes, c :: cs =>
      do p <- minute_pieces64 o bs be c;
      do ps <- all_pieces64 os bss bes cs;
      Ok (p ++ ps)
  | _, _, _, _ => Ok []
  end.

(** calendar_helpers.py:31-70 [compute_all_minutes]. *)
Definition compute_all_minutes64 (opens bstarts bends closes : list Z) : result (list Z) :=
  do pieces <- all_pieces64 opens bstarts bends closes;
  match pieces with
  | [] => Raise ValueError
  | pieces => Ok (concat pieces)
  end.

(** trading_calendar.py:172-190, as [Queries.make_calendar]. *)
Definition make_calendar64 (labels os bss bes cs : list Z) : result calendar :=
  if nats_match bss bes then
    do ms <- compute_all_minutes64 os bss bes cs;
    Ok (Calendar labels os bss bes cs ms)
  else Raise ValueError.

(** ** The number of minutes *)

(** trading_calendar.py:274-283 [_minutes_per_session], one row.  The difference
    of the columns is converted to whole minutes (numpy's cast from
    [timedelta64[ns]] to [timedelta64[m]] is the floor), then to a double
    (pandas/core/dtypes/cast.py [astype_nansafe]), then one is added. *)
Definition minutes_per_session_row64 (o bs be cl : Z) : option binary64 :=
  match checked_sub cl o,
        (if (bs =? NP_NAT) || (be =? NP_NAT) then Some 0 else checked_sub be bs) with
  | Some close_to_open_diff, Some break_diff =>
      match checked_sub close_to_open_diff break_diff with
      | Some diff => Some (add_double (to_double (diff / NANOSECONDS_PER_MINUTE)) (to_double 1))
      | None => None
      end
  | _, _ => None
  end.

Fixpoint minutes_per_session_rows64 (os bss bes cs : list Z) : option (list binary64) :=
  match os, bss, bes, cs with
  | o :: os', bs :: bss', be :: bes', cl :: cs' =>
      match minutes_per_session_row64 o bs be cl, minutes_per_session_rows64 os' bss' bes' cs' with
      | Some x, Some xs => Some (x :: xs)
      | _, _ => None
      end
  | _, _, _, _ => Some []
  end.

Definition minutes_per_session64 (c : calendar) : option (list binary64) :=
  minutes_per_session_rows64 (opens c) (break_starts c) (break_ends c) (closes c).

(** [Series.sum()]: numpy adds the elements in an order that depends on the length
    and the machine (pairwise, several accumulators), so every order and every
    bracketing of the additions is allowed. *)
Inductive sum_double : list binary64 -> binary64 -> Prop :=
| SumNone : sum_double [] (to_double 0)
| SumOne : forall x, sum_double [x] x
| SumMany : forall l l1 l2 x y, Permutation l (l1 ++ l2) ->
    sum_double l1 x -> sum_double l2 y -> sum_double l (add_double x y).

(** trading_calendar.py:285-300 [minutes_count_for_sessions_in_range] can return
    [n]; [int] of a double is [Btrunc]. *)
Definition minutes_count64 (c : calendar) (a b n : Z) : Prop :=
  exists rows x, minutes_per_session64 c = Some rows /\
    sum_double (label_slice (sessions c) rows a b) x /\ n = Btrunc x.
