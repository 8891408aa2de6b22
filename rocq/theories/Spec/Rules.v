(** Specification vocabulary for holiday rules: what a rule says about a day,
    independently of how pandas computes its dates.  Days are numbers
    (Spec/Civil.v).  From the model only the types [rule], [offset] and
    [observance] and the names of the weekdays are used. *)
From Coq Require Import ZArith List Bool.
From Verif.Model Require Import Holidays.
From Verif.Spec Require Import Civil.
Import ListNotations.
Open Scope Z_scope.

(** Monday is 0; day 0, 1970-01-01, was a Thursday. *)
Definition day_of_week (n : Z) : Z := (n + 3) mod 7.
Definition workday (n : Z) : Prop := day_of_week n < 5.
Definition weekend (n : Z) : Prop := ~ workday n.

Definition first_from (P : Z -> Prop) (a n : Z) : Prop :=
  a <= n /\ P n /\ forall m, a <= m < n -> ~ P m.
Definition last_until (P : Z -> Prop) (a n : Z) : Prop :=
  n <= a /\ P n /\ forall m, n < m <= a -> ~ P m.

(** ** Easter: the first Sunday after the ecclesiastical full moon, by Clavius'
    tables.  [golden] is the golden number, [epact] the age of the moon on
    January 1st, with the exception for 24 and for 25 after the eleventh year of
    the cycle. *)
Definition golden (y : Z) : Z := y mod 19 + 1.
Definition epact (y : Z) : Z :=
  let c := y / 100 in
  let e := (11 * (golden y - 1) + 8 - c + c / 4 + (8 * c + 13) / 25) mod 30 in
  if (e =? 24) || (e =? 25) && (11 <? golden y) then e + 1 else e.
(** The full moon: the 14th day of the lunar month that starts after March 7th
    and before April 6th. *)
Definition full_moon (y : Z) : Z :=
  date_number y 3 21 + (if epact y <? 24 then 23 - epact y else 53 - epact y).
Definition is_easter (y n : Z) : Prop :=
  first_from (fun m => day_of_week m = SUNDAY) (full_moon y + 1) n.

(** ** Offsets *)

(** [n] is the [k]-th [wd] of its month, or the last one. *)
Definition nth_in_month (wd k n : Z) : Prop :=
  exists y m d, valid_date y m d /\ n = date_number y m d /\ day_of_week n = wd /\
    7 * (k - 1) < d <= 7 * k.
Definition last_in_month (wd n : Z) : Prop :=
  exists y m d, valid_date y m d /\ n = date_number y m d /\ day_of_week n = wd /\
    month_length y m - 7 < d.

(** [moves o a n]: the offset [o] leads from day [a] to day [n]. *)
Definition moves (o : offset) (a n : Z) : Prop :=
  match o with
  | Day k => n = a + k
  | NthWeekday wd k =>
      day_of_week n = wd /\
      (if 0 <? k then a + 7 * (k - 1) <= n < a + 7 * k
       else a + 7 * k < n <= a + 7 * (k + 1))
  | Easter => first_from (fun m => exists y, is_easter y m) (a + 1) n
  | Yearly f => first_from (fun m => exists y, m = f y) (a + 1) n
  | WeekOfMonth week wd => first_from (nth_in_month wd (week + 1)) (a + 1) n
  | LastWeekOfMonth wd => first_from (last_in_month wd) (a + 1) n
  end.

Fixpoint moves_all (os : list offset) (a n : Z) : Prop :=
  match os with
  | [] => n = a
  | o :: rest => exists b, moves o a b /\ moves_all rest b n
  end.

(** ** Observances: [observed o a n] says that a holiday that falls on day [a] is
    kept on day [n]. *)
Definition observed (o : observance) (a n : Z) : Prop :=
  match o with
  | Sunday_to_monday => first_from (fun m => day_of_week m <> SUNDAY) a n
  | Weekend_to_monday | Next_monday => first_from workday a n
  (* the workday closest to [a] *)
  | Nearest_workday => workday n /\ forall m, workday m -> Z.abs (n - a) <= Z.abs (m - a)
  (* the first workday other than the one on which a holiday the day before is kept *)
  | Next_monday_or_tuesday =>
      first_from (fun m => workday m /\ ~ first_from workday (a - 1) m) a n
  | Previous_friday => last_until workday a n
  | Previous_workday => last_until workday (a - 1) n
  (* the first Tuesday from this date on, in the first leap-cycle year *)
  | Following_tuesday_every_four_years =>
      exists y m d y', valid_date y m d /\ a = date_number y m d /\
        first_from (fun k => k mod 4 = 0) y y' /\
        first_from (fun k => day_of_week k = TUESDAY) (date_number y' m d) n
  (* two days before Easter, unless Christmas or New Year's Day is kept on a
     Friday *)
  | Good_friday_unless_christmas_nye_friday =>
      exists y e, in_year a y /\ moves Easter a e /\ n = e - 2 /\
        ~ (exists c, (workday c /\ forall m, workday m ->
                        Z.abs (c - date_number y 12 25) <= Z.abs (m - date_number y 12 25)) /\
                     day_of_week c = FRIDAY) /\
        ~ (exists c, first_from (fun m => day_of_week m <> SUNDAY) (date_number y 1 1) c /\
                     day_of_week c = FRIDAY)
  (* with the Monday before a Tuesday and the Friday after a Thursday *)
  | Four_day_weekend =>
      n = a \/ day_of_week a = TUESDAY /\ n = a - 1 \/ day_of_week a = THURSDAY /\ n = a + 1
  (* Monday of the same week up to Wednesday, then the next Monday; not in 2012 *)
  | Cultural_diversity =>
      ~ in_year n 2012 /\
      (day_of_week a <= WEDNESDAY /\ last_until (fun m => day_of_week m = MONDAY) a n \/
       WEDNESDAY < day_of_week a /\ first_from (fun m => day_of_week m = MONDAY) a n)
  | Not_in_year y => n = a /\ ~ in_year a y
  | Next_monday_offset => first_from (fun m => day_of_week m = MONDAY) a n
  (* Hong Kong's Queen's birthday, by year *)
  | Process_queen_birthday =>
      exists y, in_year a y /\
        ((y = 1974 \/ y = 1981) /\ first_from (fun m => day_of_week m = SUNDAY) a n \/
         y <> 1974 /\ y <> 1981 /\ y < 1983 /\ first_from (fun m => day_of_week m <> SUNDAY) a n \/
         (y = 1983 \/ y = 1988 \/ y = 1993 \/ y = 1994) /\ moves (WeekOfMonth 1 MONDAY) a n \/
         y = 1985 /\ moves (WeekOfMonth 3 MONDAY) a n \/
         1983 < y /\ y <> 1985 /\ y <> 1988 /\ y <> 1993 /\ y <> 1994 /\
           moves (WeekOfMonth 2 MONDAY) a n)
  (* as coded: never moved *)
  | Boxing_day_obs => n = a
  | Weekend_to_monday_except ys =>
      (forall y, In y ys -> ~ in_year a y) /\ first_from workday a n
  | Xbkk_new_years_day =>
      ~ in_year a 2006 /\
      first_from (fun m => workday m /\ ~ first_from workday (a - 1) m) a n
  | Songkran_festival_last_day =>
      (day_of_week a = SUNDAY \/ day_of_week a = MONDAY) /\ n = a + 1 \/
      day_of_week a <> SUNDAY /\ day_of_week a <> MONDAY /\ n = a
  | Only_friday => n = a /\ day_of_week a = FRIDAY
  (* Tuesday to Thursday: the Monday before; Friday: the Monday after *)
  | Xsgo_nearest_monday =>
      TUESDAY <= day_of_week a <= THURSDAY /\ last_until (fun m => day_of_week m = MONDAY) a n \/
      day_of_week a = FRIDAY /\ first_from (fun m => day_of_week m = MONDAY) a n \/
      ~ (TUESDAY <= day_of_week a <= FRIDAY) /\ n = a
  (* Tuesday: the Friday before; Wednesday: the Friday after *)
  | Tuesday_and_wednesday_to_friday =>
      day_of_week a = TUESDAY /\ last_until (fun m => day_of_week m = FRIDAY) a n \/
      day_of_week a = WEDNESDAY /\ first_from (fun m => day_of_week m = FRIDAY) a n \/
      ~ (TUESDAY <= day_of_week a <= WEDNESDAY) /\ n = a
  (* the day itself and, from 2014 on, the workday that joins it to the weekend or
     replaces a weekend day *)
  | Taiwan_makeup_rule =>
      n = a \/
      ((day_of_week a = TUESDAY \/ day_of_week a = SATURDAY) /\ n = a - 1 \/
       (day_of_week a = THURSDAY \/ day_of_week a = SUNDAY) /\ n = a + 1) /\
      exists y, in_year n y /\ 2014 <= y
  | Sunday_to_tuesday => day_of_week a = SUNDAY /\ n = a + 2 \/ day_of_week a <> SUNDAY /\ n = a
  | Sunday_to_wednesday => day_of_week a = SUNDAY /\ n = a + 3 \/ day_of_week a <> SUNDAY /\ n = a
  end.

(** ** Rules: [falls_on r n] says that day [n] is a date of the rule: in some year
    the rule leads from its month and day to [n], and [n] is on one of the
    weekdays and between the start and end dates of the rule. *)
Definition falls_on (r : rule) (n : Z) : Prop :=
  match r_year r with
  | Some y => n = date_number y (r_month r) (r_day r)
  | None =>
      (exists y, let a := date_number y (r_month r) (r_day r) in
         match r_observance r with
         | Some o => observed o a n
         | None => moves_all (r_offset r) a n
         end) /\
      (forall dow, r_days_of_week r = Some dow -> In (day_of_week n) dow) /\
      (forall s, r_start r = Some s -> s <= n) /\
      (forall e, r_end r = Some e -> n <= e)
  end.

(** ** The rules the theorems are about: the month has the day in every year, the
    offsets make sense (a zeroth weekday does not). *)
Definition valid_offset (o : offset) : bool :=
  match o with
  | Day _ | Easter => true
  | NthWeekday wd k => (0 <=? wd) && (wd <? 7) && negb (k =? 0)
  | Yearly _ => false
  | WeekOfMonth week wd => (0 <=? week) && (week <=? 3) && (0 <=? wd) && (wd <? 7)
  | LastWeekOfMonth wd => (0 <=? wd) && (wd <? 7)
  end.

Definition valid_rule (r : rule) : bool :=
  (1 <=? r_month r) && (r_month r <=? 12) && (1 <=? r_day r) &&
  (r_day r <=? nth (Z.to_nat (r_month r - 1)) [31; 28; 31; 30; 31; 30; 31; 31; 30; 31; 30; 31] 0) &&
  match r_observance r with Some _ => true | None => forallb valid_offset (r_offset r) end.

(** Rules that stay close to their month and day: [settled] bounds how far the
    rule can lead, in days. *)
Definition offset_reach (o : offset) : Z :=
  match o with
  | Day k => Z.abs k
  | NthWeekday _ k => 7 * Z.abs k
  | WeekOfMonth _ _ | LastWeekOfMonth _ => 70
  | Easter | Yearly _ => 1000
  end.
Definition chain_reach (os : list offset) : Z := fold_right (fun o s => offset_reach o + s) 0 os.

Definition observance_settled (o : observance) (month : Z) : bool :=
  match o with
  | Good_friday_unless_christmas_nye_friday => month =? 1
  | _ => true
  end.

Definition settled (r : rule) : bool :=
  valid_rule r &&
  match r_year r with
  | Some _ => true
  | None =>
      match r_observance r with
      | Some o => observance_settled o (r_month r)
      | None =>
          match r_offset r with
          | Easter :: os => (r_month r =? 1) && (chain_reach os <=? 200)
          | os => chain_reach os <=? 300
          end
      end
  end.
