(** The data of the exchanges passes the checks of VenueSound.v and VenueZones.v. *)
From Coq Require Import ZArith String List Bool.
From Verif.Model Require Import Base Dates Zone Build Holidays Exchange.
From Verif.Spec Require Import Civil Rules Venue.
From Verif.Proofs Require Import ShapeLemmas RuleRange VenueSound VenueZones.
From Verif.Exchanges Require Import All zones.
Import ListNotations.
Open Scope Z_scope.

Lemma venues_ok : forallb (fun p => venue_ok (snd p) (conflict_days (fst p))) exchanges = true.
Proof. vm_compute. reflexivity. Qed.

Lemma special_times_valid :
  forallb (fun p => forallb valid_timeb (special_times (snd p))) exchanges = true.
Proof. vm_compute. reflexivity. Qed.

Lemma venues_settled : forallb (fun p =>
  forallb (fun q => forallb settled (snd q)) (ex_special_opens (snd p)) &&
  forallb (fun q => forallb settled (snd q)) (ex_special_closes (snd p)) &&
  (String.eqb (fst p) "XTAE" || forallb settled (ex_regular_holidays (snd p)))) exchanges = true.
Proof. vm_compute. reflexivity. Qed.

(** The zone of an exchange, as tabulated in Exchanges/zones.v, and the day from
    which its clocks suit the exchange. *)
Definition zone_named (s : string) : option zone :=
  match find (fun p => String.eqb (fst p) s) zones with Some p => Some (snd p) | None => None end.
Definition first_day (s : string) : Z :=
  if String.eqb s "XNYS" then date_number 1902 1 1 else date_number 1950 1 1.

Lemma zones_suit : forallb (fun p =>
  match zone_named (ex_tz (snd p)) with
  | Some z => suits (snd p) z (first_day (fst p))
  | None => false
  end) exchanges = true.
Proof. vm_compute. reflexivity. Qed.

(** The special closes of the conflict days, and why they do not trade. *)
Definition conflict (E : exchange) (n : Z) : bool :=
  (existsb (fun p => memb (midnight n) (calendar_holidays (snd p) (midnight n) (midnight n))) (ex_special_closes E) ||
   existsb (fun p => memb n (snd p)) (ex_special_closes_adhoc E)) &&
  (((1970 <=? year_of n) && (year_of n <=? 2200) &&
    memb (midnight n) (calendar_holidays (ex_regular_holidays E) (midnight n) (midnight n))) ||
   memb n (ex_adhoc_holidays E)).
Lemma conflicts : forallb (fun p => forallb (conflict (snd p)) (conflict_days (fst p))) exchanges = true.
Proof. vm_compute. reflexivity. Qed.
