(** Rules that never fall on the same day: checked over the types of years of
    YearTypes.v. *)
From Coq Require Import ZArith List Bool Lia.
From Verif.Model Require Import Base Dates Holidays.
From Verif.Spec Require Import Civil Rules.
From Verif.Proofs Require Import DatesLemmas RuleLemmas RuleRange YearTypes.
Import ListNotations.
Open Scope Z_scope.

(** ** All types of years *)

Definition all_types : list year_type :=
  map (fun e => (false, e)) (year_range 80 114) ++ map (fun e => (true, e)) (year_range 81 115).

Lemma type_in_all : forall y, In (type_of y) all_types.
Proof.
  intros y. pose proof (easter_bounds y) as [B1 B2]. unfold type_of, all_types.
  unfold date_number, days_before_month, month_lengths in B1, B2.
  change (Z.to_nat (3 - 1)) with 2%nat in B1. change (Z.to_nat (4 - 1)) with 3%nat in B2.
  cbn [firstn fold_right] in B1, B2. apply in_app_iff.
  revert B1 B2. generalize (easter y) (year_start y). intros e s B1 B2.
  destruct (leap y); [right|left]; apply in_map_iff; exists (e - s); (split; [reflexivity|]);
    apply year_range_In; lia.
Qed.

(** The types of the years next to the years for which holidays are known. *)
Definition same_type (T T' : year_type) : bool := Bool.eqb (fst T) (fst T') && (snd T =? snd T').
Definition known_types : list year_type :=
  let ts := map type_of (year_range 1969 2201) in
  filter (fun T => existsb (same_type T) ts) all_types.

Lemma type_filter : forall (ts all : list year_type) T, In T ts -> In T all ->
  In T (filter (fun T => existsb (same_type T) ts) all).
Proof.
  intros ts all T H1 H2. apply filter_In. split; [exact H2|]. apply existsb_exists. exists T.
  split; [exact H1|]. unfold same_type. rewrite eqb_reflx, Z.eqb_refl. reflexivity.
Qed.

Lemma type_known : forall y, 1969 <= y <= 2201 -> In (type_of y) known_types.
Proof.
  intros y H. apply (type_filter (map type_of (year_range 1969 2201))).
  - apply in_map. apply year_range_In. exact H.
  - apply type_in_all.
Qed.

(** ** Rules and single days *)

(** [near r n] holds if the rule falls on [n]: a quick test, then the exact one. *)
Definition near (r : rule) (n : Z) : bool :=
  match r_year r with
  | Some y => n =? date_number y (r_month r) (r_day r)
  | None =>
      if in_window r n then
        if existsb (fun y => memb (n - year_start y) (rel r (type_of y)))
             [year_of n - 1; year_of n; year_of n + 1]
        then memb n (rule_dates r (midnight n) (midnight n))
        else false
      else false
  end.

Definition plain_or_single (r : rule) : bool :=
  match r_year r with Some _ => true | None => plain_rule r end.

Lemma near_ok : forall r n, plain_or_single r = true -> falls_on r n -> near r n = true.
Proof.
  intros r n P H. unfold near, plain_or_single in *. destruct (r_year r) as [y|] eqn:Y.
  - unfold falls_on in H. rewrite Y in H. apply Z.eqb_eq. exact H.
  - destruct (rel_ok r n P H) as [W [y [Hy D]]]. rewrite W.
    replace (existsb _ _) with true.
    + apply memb_In. apply rule_dates_range; [|exact Y|].
      * unfold plain_rule in P. apply andb_true_iff in P. apply P.
      * split; [exact H|lia].
    + symmetry. apply existsb_exists. exists y. split; [|apply memb_In; exact D].
      cbn [In]. lia.
Qed.

Lemma plain_single : forall r, plain_rule r = true -> plain_or_single r = true.
Proof. intros r H. unfold plain_or_single. destruct (r_year r); [reflexivity|exact H]. Qed.

(** ** Pairs of rules *)

Definition profile (ts : list year_type) (r : rule) : list (year_type * list Z) :=
  map (fun T => (T, rel r T)) ts.

Definition disjointb (a b : list Z) : bool := forallb (fun x => negb (memb x b)) a.
Definition same_year_apart (pa pb : list (year_type * list Z)) : bool :=
  forallb (fun p => disjointb (snd (fst p)) (snd (snd p))) (combine pa pb).
Definition earliest (pb : list (year_type * list Z)) : Z :=
  fold_right Z.min 1000 (flat_map snd pb).
(** Dates of earlier years come before all dates of later years. *)
Definition years_apart (pa pb : list (year_type * list Z)) : bool :=
  let m := earliest pb in
  forallb (fun p : year_type * list Z => let l := 365 + (if fst (fst p) then 1 else 0) + m in
                    forallb (fun x => x <? l) (snd p)) pa.

(** The windows overlap in a few days only, none of which is a date of both. *)
Definition short_overlap (r s : rule) : bool :=
  match r_end r, r_start s with
  | Some e, Some b =>
      if e <=? b + 7 then forallb (fun n => if near r n then negb (near s n) else true) (year_range b e)
      else false
  | _, _ => false
  end.

Definition apart (r : rule) (pr : list (year_type * list Z)) (s : rule) (ps : list (year_type * list Z)) : bool :=
  if short_overlap r s || short_overlap s r then true
  else same_year_apart pr ps && (years_apart pr ps && years_apart ps pr).

Lemma combine_map : forall (A B C : Type) (f : A -> B) (g : A -> C) l,
  combine (map f l) (map g l) = map (fun x => (f x, g x)) l.
Proof. intros A B C f g. induction l as [|x l IH]; cbn; [reflexivity|]. f_equal. exact IH. Qed.

Lemma disjointb_ok : forall a b x, disjointb a b = true -> In x a -> In x b -> False.
Proof.
  intros a b x H Ha Hb. unfold disjointb in H. rewrite forallb_forall in H. specialize (H x Ha).
  apply memb_In in Hb. rewrite Hb in H. discriminate.
Qed.

Lemma same_year_ok : forall ts r s T x, same_year_apart (profile ts r) (profile ts s) = true ->
  In T ts -> In x (rel r T) -> In x (rel s T) -> False.
Proof.
  intros ts r s T x H HT Hr Hs. unfold same_year_apart, profile in H. rewrite combine_map in H.
  rewrite forallb_forall in H. specialize (H ((T, rel r T), (T, rel s T))).
  eapply disjointb_ok; [apply H; apply in_map_iff; exists T; tauto|cbn; exact Hr|cbn; exact Hs].
Qed.

Lemma fold_min_le : forall l x d, In x l -> fold_right Z.min d l <= x.
Proof.
  induction l as [|y l IH]; intros x d H; [destruct H|]. cbn [fold_right].
  destruct H as [->|H]; [lia|]. specialize (IH x d H). lia.
Qed.

Lemma earliest_le : forall ts s T x, In T ts -> In x (rel s T) -> earliest (profile ts s) <= x.
Proof.
  intros ts s T x HT Hx. unfold earliest. apply fold_min_le. apply in_flat_map. exists (T, rel s T).
  split; [|exact Hx]. apply in_map_iff. exists T. tauto.
Qed.

Lemma years_apart_ok : forall ts r s y y' n, years_apart (profile ts r) (profile ts s) = true ->
  In (type_of y) ts -> In (type_of y') ts -> y < y' ->
  In (n - year_start y) (rel r (type_of y)) -> In (n - year_start y') (rel s (type_of y')) -> False.
Proof.
  intros ts r s y y' n H T1 T2 L H1 H2. unfold years_apart in H. cbv zeta in H.
  pose proof (earliest_le ts s _ _ T2 H2) as M. set (m := earliest _) in *. clearbody m.
  rewrite forallb_forall in H. specialize (H (type_of y, rel r (type_of y))).
  cbn [fst snd] in H. rewrite forallb_forall in H.
  specialize (H ltac:(apply in_map_iff; exists (type_of y); tauto) _ H1). apply Z.ltb_lt in H.
  change (fst (type_of y)) with (leap y) in H.
  assert (N : year_start (y + 1) <= year_start y').
  { destruct (Z.eq_dec (y + 1) y') as [->|C]; [lia|]. pose proof (year_start_mono (y + 1) y' ltac:(lia)). lia. }
  rewrite year_start_next in N. destruct (leap y); lia.
Qed.

Lemma apart_ok : forall ts r s n, plain_rule r = true -> plain_rule s = true ->
  apart r (profile ts r) s (profile ts s) = true ->
  (forall y, year_of n - 1 <= y <= year_of n + 1 -> In (type_of y) ts) ->
  falls_on r n -> falls_on s n -> False.
Proof.
  intros ts r s n Pr Ps A T Hr Hs. destruct (rel_ok r n Pr Hr) as [Wr [y [Hy Dr]]].
  destruct (rel_ok s n Ps Hs) as [Ws [y' [Hy' Ds]]].
  assert (A' : (short_overlap r s = true \/ short_overlap s r = true) \/
    same_year_apart (profile ts r) (profile ts s) = true /\
    years_apart (profile ts r) (profile ts s) = true /\ years_apart (profile ts s) (profile ts r) = true).
  { unfold apart in A. destruct (_ || _) eqn:C; [left; apply orb_true_iff; exact C|right].
    rewrite !andb_true_iff in A. exact A. }
  clear A. rename A' into A.
  assert (O : forall r s, plain_rule r = true -> plain_rule s = true -> falls_on r n -> falls_on s n ->
    in_window r n = true -> in_window s n = true -> short_overlap r s = true -> False).
  { clear. intros r s Pr Ps Hr Hs Wr Ws A. unfold short_overlap in A. unfold in_window in Wr, Ws.
    destruct (r_end r) as [e|], (r_start s) as [b|]; try discriminate.
    rewrite andb_true_iff in Wr, Ws. destruct (e <=? b + 7); [|discriminate]. rewrite forallb_forall in A.
    specialize (A n). rewrite year_range_In in A. specialize (A ltac:(lia)).
    rewrite (near_ok r n (plain_single r Pr) Hr), (near_ok s n (plain_single s Ps) Hs) in A. discriminate. }
  destruct A as [[A|A]|[A1 [A2 A3]]].
  - apply (O r s); assumption.
  - apply (O s r); assumption.
  - destruct (Z.lt_trichotomy y y') as [L|[<-|L]].
    + eapply (years_apart_ok ts r s y y' n); try eassumption; apply T; assumption.
    + eapply (same_year_ok ts r s (type_of y) (n - year_start y)); try eassumption. apply T. exact Hy.
    + eapply (years_apart_ok ts s r y' y n); try eassumption; apply T; assumption.
Qed.

(** ** Rules and weekdays *)

Definition on_weekdays (mask : list bool) (p : list (year_type * list Z)) : bool :=
  forallb (fun e : year_type * list Z => let b := base (fst e) in
    forallb (fun x => match nth_error mask (Z.to_nat (weekday (b + x))) with Some true => true | _ => false end)
      (snd e)) p.

Lemma on_weekdays_ok : forall mask r n, plain_rule r = true ->
  on_weekdays mask (profile all_types r) = true -> falls_on r n ->
  nth_error mask (Z.to_nat (day_of_week n)) = Some true.
Proof.
  intros mask r n P H Hr. destruct (rel_ok r n P Hr) as [_ [y [_ D]]].
  unfold on_weekdays in H. rewrite forallb_forall in H. specialize (H (type_of y, rel r (type_of y))).
  cbn [fst snd] in H. cbv zeta in H. rewrite forallb_forall in H.
  specialize (H ltac:(apply in_map_iff; exists (type_of y); split; [reflexivity|apply type_in_all]) _ D).
  destruct (base_week y) as [k Ek]. rewrite <- weekday_dow.
  replace n with (base (type_of y) + (n - year_start y) + 7 * k) by lia. rewrite weekday_week.
  destruct (nth_error _ _) as [[]|]; try discriminate. reflexivity.
Qed.
