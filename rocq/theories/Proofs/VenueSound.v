(** Checkable conditions under which the special days of an exchange are open days
    with one special time, and its calendar can be constructed over every range. *)
From Coq Require Import ZArith List Bool Lia Sorting.Sorted.
From Verif.Model Require Import Base Helpers Queries Dates Zone Build Holidays Exchange.
From Verif.Spec Require Import Schedule Construction Civil Rules Venue.
From Verif.Proofs Require Import BaseLemmas ScheduleLemmas ZoneLemmas BuildLemmas BuildLemmas2
  ShapeLemmas DatesLemmas RuleLemmas RuleRange VenueLemmas YearTypes PairLemmas.
Import ListNotations.
Open Scope Z_scope.
Local Opaque known_types all_types profile near on_weekdays apart plain_rule.

(** ** Special days are open *)

(** A special rule against the weekmask, the holiday rules (with their profiles in
    the known years) and the other holidays, except for the days in [bad]. *)
Definition rule_fits (mask : list bool) (holidays : list (rule * list (year_type * list Z)))
  (adhoc bad : list Z) (s : rule) : bool :=
  plain_rule s && on_weekdays mask (profile all_types s) &&
  (let ps := profile known_types s in
   forallb (fun h => apart s ps (fst h) (snd h)) holidays) &&
  forallb (fun n => if near s n then memb n bad else true) adhoc.

(** A single special date. *)
Definition date_fits (mask : list bool) (holidays : list rule) (adhoc bad : list Z) (n : Z) : bool :=
  if memb n bad then true else
  (match nth_error mask (Z.to_nat (weekday n)) with Some true => true | _ => false end &&
   negb ((date_number 1970 1 1 <=? n) && existsb (fun h => near h n) holidays) && negb (memb n adhoc)).

Definition specials_fit (E : exchange) (bad : list Z) : bool :=
  let rules := flat_map snd (ex_special_opens E ++ ex_special_closes E) in
  let dates := flat_map snd (ex_special_opens_adhoc E ++ ex_special_closes_adhoc E) in
  match rules, dates with
  | [], [] => true
  | _, _ =>
      let hs := ex_regular_holidays E in
      let adhoc := ex_adhoc_holidays E in
      let profiles := match rules with [] => [] | _ => map (fun h => (h, profile known_types h)) hs end in
      forallb plain_rule hs &&
      forallb (rule_fits (ex_weekmask E) profiles adhoc bad) rules &&
      forallb (date_fits (ex_weekmask E) hs adhoc bad) dates
  end.

Lemma known_year_types : forall n, known_year n ->
  forall y, year_of n - 1 <= y <= year_of n + 1 -> In (type_of y) known_types.
Proof.
  intros n [K1 K2] y Hy. apply type_known.
  pose proof (year_of_mono _ _ K1) as M1. pose proof (year_of_mono _ _ K2) as M2.
  assert (E1 : year_of (date_number 1970 1 1) = 1970) by (vm_compute; reflexivity).
  assert (E2 : year_of (date_number 2200 12 31) = 2200) by (vm_compute; reflexivity). lia.
Qed.

Lemma rule_fits_ok : forall E bad s n,
  forallb plain_rule (ex_regular_holidays E) = true ->
  rule_fits (ex_weekmask E) (map (fun h => (h, profile known_types h)) (ex_regular_holidays E))
    (ex_adhoc_holidays E) bad s = true ->
  falls_on s n -> open_day E n \/ In n bad.
Proof.
  intros E bad s n P H F. unfold rule_fits in H. rewrite !andb_true_iff, !forallb_forall in H.
  destruct H as [[[H1 H2] H3] H4]. cbv zeta in H3. rewrite forallb_forall in P.
  destruct (memb n bad) eqn:B; [right; apply memb_In; exact B|left].
  split; [eapply on_weekdays_ok; eassumption|]. split.
  - intros [K [r [Hr Fr]]]. specialize (H3 (r, profile known_types r)). cbn [fst snd] in H3.
    apply (apart_ok known_types s r n); try assumption.
    + apply P. exact Hr.
    + apply H3. apply in_map_iff. exists r. tauto.
    + apply known_year_types. exact K.
  - intros Ha. specialize (H4 n Ha).
    rewrite (near_ok s n (plain_single s H1) F), B in H4. discriminate.
Qed.

Lemma date_fits_ok : forall E bad n,
  forallb plain_rule (ex_regular_holidays E) = true ->
  date_fits (ex_weekmask E) (ex_regular_holidays E) (ex_adhoc_holidays E) bad n = true ->
  open_day E n \/ In n bad.
Proof.
  intros E bad n P H. unfold date_fits in H. rewrite forallb_forall in P.
  destruct (memb n bad) eqn:B; [right; apply memb_In; exact B|left].
  rewrite !andb_true_iff, !negb_true_iff in H. destruct H as [[H1 H2] H3]. split.
  - rewrite <- weekday_dow. destruct (nth_error _ _) as [[]|]; try discriminate. reflexivity.
  - split.
    + intros [[K _] [r [Hr Fr]]]. apply Z.leb_le in K. assert (X : existsb (fun h => near h n) (ex_regular_holidays E) = true).
      { apply existsb_exists. exists r. split; [exact Hr|]. apply near_ok; [|exact Fr].
        apply plain_single, P, Hr. }
      rewrite K, X in H2. discriminate.
    + intros Ha. apply memb_In in Ha. rewrite Ha in H3. discriminate.
Qed.

Lemma specials_fit_ok : forall E bad n t, specials_fit E bad = true ->
  special_opening E n t \/ special_closing E n t -> open_day E n \/ In n bad.
Proof.
  intros E bad n t H Hs. unfold specials_fit in H. cbv zeta in H.
  set (rules := flat_map snd (ex_special_opens E ++ ex_special_closes E)) in *.
  set (dates := flat_map snd (ex_special_opens_adhoc E ++ ex_special_closes_adhoc E)) in *.
  assert (C : (exists r, In r rules /\ falls_on r n) \/ In n dates).
  { unfold special_opening, special_closing, special_time in Hs.
    destruct Hs as [[[rs [r [H1 [H2 H3]]]]|[ds [H1 H2]]]|[[rs [r [H1 [H2 H3]]]]|[ds [H1 H2]]]].
    - left. exists r. split; [|exact H3]. apply in_flat_map. exists (t, rs). rewrite in_app_iff. tauto.
    - right. apply in_flat_map. exists (t, ds). rewrite in_app_iff. tauto.
    - left. exists r. split; [|exact H3]. apply in_flat_map. exists (t, rs). rewrite in_app_iff. tauto.
    - right. apply in_flat_map. exists (t, ds). rewrite in_app_iff. tauto. }
  clear Hs. clearbody rules dates.
  destruct C as [[r [Hr F]]|Hd].
  - destruct rules as [|r0 rules]; [destruct Hr|]. rewrite !andb_true_iff in H.
    destruct H as [[H1 H2] _]. rewrite forallb_forall in H2.
    apply (rule_fits_ok E bad r n H1 (H2 r Hr) F).
  - assert (H' : forallb plain_rule (ex_regular_holidays E) = true /\
      forallb (date_fits (ex_weekmask E) (ex_regular_holidays E) (ex_adhoc_holidays E) bad) dates = true).
    { destruct rules as [|r0 rules]; [destruct dates as [|d dates]; [destruct Hd|]|];
        rewrite !andb_true_iff in H; tauto. }
    destruct H' as [H1 H2]. rewrite forallb_forall in H2.
    apply (date_fits_ok E bad n H1 (H2 n Hd)).
Qed.

(** ** No day has two special times *)

Fixpoint pairs_ok {A : Type} (ok : A -> A -> bool) (l : list A) : bool :=
  match l with
  | [] => true
  | x :: rest => forallb (ok x) rest && pairs_ok ok rest
  end.

Lemma pairs_ok_In : forall (A : Type) (ok : A -> A -> bool) l x y, pairs_ok ok l = true ->
  In x l -> In y l -> x = y \/ ok x y = true \/ ok y x = true.
Proof.
  intros A ok. induction l as [|a l IH]; intros x y H Hx Hy; [destruct Hx|].
  cbn [pairs_ok] in H. apply andb_true_iff in H. destruct H as [H1 H2]. rewrite forallb_forall in H1.
  destruct Hx as [->|Hx], Hy as [->|Hy]; auto.
Qed.

Definition rules_agree (p q : time * list rule) : bool :=
  if time_eqb (fst p) (fst q) then true else
  forallb (fun r => forallb (fun s =>
    plain_rule r && plain_rule s &&
    apart r (profile all_types r) s (profile all_types s)) (snd q)) (snd p).
Definition dates_agree (p q : time * list Z) : bool :=
  if time_eqb (fst p) (fst q) then true else disjointb (snd p) (snd q).
Definition rule_dates_agree (p : time * list rule) (q : time * list Z) : bool :=
  if time_eqb (fst p) (fst q) then true else
  forallb (fun r => plain_or_single r && forallb (fun n => negb (near r n)) (snd q)) (snd p).
Definition times_agree (rules : list (time * list rule)) (dates : list (time * list Z)) : bool :=
  pairs_ok rules_agree rules && pairs_ok dates_agree dates &&
  forallb (fun p => forallb (rule_dates_agree p) dates) rules.

Lemma rules_agree_ok : forall t rs t' rs' r r' n, rules_agree (t, rs) (t', rs') = true ->
  In r rs -> In r' rs' -> falls_on r n -> falls_on r' n -> t = t'.
Proof.
  intros t rs t' rs' r r' n H Hr Hr' F F'. unfold rules_agree in H. cbn [fst snd] in H.
  destruct (time_eqb t t') eqn:B; [apply time_eqb_eq; exact B|].
  rewrite forallb_forall in H. specialize (H r Hr). rewrite forallb_forall in H. specialize (H r' Hr').
  rewrite !andb_true_iff in H. destruct H as [[P P'] H]. exfalso.
  apply (apart_ok all_types r r' n P P' H); try assumption.
  intros y _. apply type_in_all.
Qed.

Lemma times_agree_ok : forall rules dates n t t', times_agree rules dates = true ->
  special_time rules dates n t -> special_time rules dates n t' -> t = t'.
Proof.
  intros rules dates n t t' H S S'. unfold times_agree in H. rewrite !andb_true_iff in H.
  destruct H as [[H1 H2] H3]. rewrite forallb_forall in H3.
  assert (M : forall t t' rs r ds, In (t, rs) rules -> In r rs -> falls_on r n ->
    In (t', ds) dates -> In n ds -> t = t').
  { intros u u' rs r ds A1 A2 A3 A4 A5. specialize (H3 _ A1). rewrite forallb_forall in H3.
    specialize (H3 _ A4). unfold rule_dates_agree in H3. cbn [fst snd] in H3.
    destruct (time_eqb u u') eqn:B; [apply time_eqb_eq; exact B|].
    rewrite forallb_forall in H3. specialize (H3 r A2). apply andb_true_iff in H3. destruct H3 as [P H3].
    rewrite forallb_forall in H3. specialize (H3 n A5). rewrite (near_ok r n P A3) in H3. discriminate. }
  destruct S as [[rs [r [A1 [A2 A3]]]]|[ds [A1 A2]]], S' as [[rs' [r' [B1 [B2 B3]]]]|[ds' [B1 B2]]].
  - destruct (pairs_ok_In _ _ _ _ _ H1 A1 B1) as [E|[E|E]].
    + injection E. auto.
    + apply (rules_agree_ok t rs t' rs' r r' n); assumption.
    + symmetry. apply (rules_agree_ok t' rs' t rs r' r n); assumption.
  - apply (M t t' rs r ds'); assumption.
  - symmetry. apply (M t' t rs' r' ds); assumption.
  - assert (Q : forall u u' l l', dates_agree (u, l) (u', l') = true -> In n l -> In n l' -> u = u').
    { intros u u' l l' E Hl Hl'. unfold dates_agree in E. cbn [fst snd] in E.
      destruct (time_eqb u u') eqn:B; [apply time_eqb_eq; exact B|].
      exfalso. eapply disjointb_ok; eassumption. }
    destruct (pairs_ok_In _ _ _ _ _ H2 A1 B1) as [E|[E|E]].
    + injection E. auto.
    + apply (Q t t' ds ds'); assumption.
    + symmetry. apply (Q t' t ds' ds); assumption.
Qed.

(** ** The times of day are in order *)

(** The definition without its zone and dates. *)
Definition frame (E : exchange) : definition :=
  Definition_ (Zone 0 []) (ex_weekmask E) [] [] (at_midnight (ex_open_times E))
    (option_map at_midnight (ex_break_start_times E)) (option_map at_midnight (ex_break_end_times E))
    (at_midnight (ex_close_times E)) (ex_open_offset E) (ex_close_offset E)
    (map (fun p => (fst p, [])) (ex_special_opens E)) (map (fun p => (fst p, [])) (ex_special_opens_adhoc E))
    (map (fun p => (fst p, [])) (ex_special_closes E)) (map (fun p => (fst p, [])) (ex_special_closes_adhoc E)).

Definition lowest (d : Z) (l : list Z) : Z := match l with [] => d | x :: rest => fold_right Z.min x rest end.
Definition highest (d : Z) (l : list Z) : Z := match l with [] => d | x :: rest => fold_right Z.max x rest end.

(** The bounds on the times of day of an exchange. *)
Definition shape_of (E : exchange) : shape :=
  let D := frame E in
  let os := map (tod (open_offset D)) (map snd (open_times D)) ++
            map (tod 0) (map fst (special_opens D) ++ map fst (special_opens_adhoc D)) in
  let cs := map (tod (close_offset D)) (map snd (close_times D)) in
  let es := map (tod 0) (map fst (special_closes D) ++ map fst (special_closes_adhoc D)) in
  let bs := map (tod 0) (table_times (break_start_times D)) in
  let fs := map (tod 0) (table_times (break_end_times D)) in
  let o2 := highest 0 os in
  let r1 := lowest 0 cs in
  Shape (lowest 0 os) o2 (lowest o2 bs) (highest o2 bs) (lowest (o2 + 1) fs) (highest r1 fs)
    r1 (lowest r1 es) (highest 0 (cs ++ es)).

Definition valid_timeb (t : time) : bool :=
  (0 <=? hour t) && (hour t <? 24) && (0 <=? minute t) && (minute t <? 60) &&
  (0 <=? second t) && (second t <? 60).

Definition venue_ok (E : exchange) (bad : list Z) : bool :=
  let D := frame E in
  let sh := shape_of E in
  tables_ok D && tables_cover D &&
  day_shape D (sh_o1 sh) (sh_o2 sh) (sh_b1 sh) (sh_b2 sh) (sh_e1 sh) (sh_e2 sh)
    (sh_r1 sh) (sh_c1 sh) (sh_c2 sh) &&
  (- NANOS_PER_DAY <=? sh_o1 sh) &&
  forallb valid_timeb (table_times (break_start_times D) ++ table_times (break_end_times D)) &&
  specials_fit E bad &&
  times_agree (ex_special_opens E) (ex_special_opens_adhoc E) &&
  times_agree (ex_special_closes E) (ex_special_closes_adhoc E).

Lemma day_shape_frame : forall E z start stop o1 o2 b1 b2 e1 e2 r1 c1 c2,
  day_shape (instantiate E z start stop) o1 o2 b1 b2 e1 e2 r1 c1 c2 =
  day_shape (frame E) o1 o2 b1 b2 e1 e2 r1 c1 c2.
Proof.
  intros. unfold day_shape, frame, instantiate.
  cbn [open_offset close_offset open_times close_times break_start_times break_end_times
    special_opens special_opens_adhoc special_closes special_closes_adhoc].
  rewrite !map_map. cbn [fst]. reflexivity.
Qed.

Lemma table_clock : forall k ts x t, in_force (at_midnight ts) x t -> In (k, t) (times_of k (map snd ts)).
Proof.
  intros k ts x t H. apply in_force_In in H. unfold at_midnight in H. rewrite map_map in H. cbn [snd] in H.
  unfold times_of. apply in_map_iff. exists t. split; [reflexivity|]. exact H.
Qed.

Section Sound.
Variables (E : exchange) (z : zone) (start stop lo : Z) (bad : list Z).
Let D := instantiate E z start stop.
Hypothesis Hset1 : forallb (fun p => forallb settled (snd p)) (ex_special_opens E) = true.
Hypothesis Hset2 : forallb (fun p => forallb settled (snd p)) (ex_special_closes E) = true.
Hypothesis Hok : venue_ok E bad = true.
Hypothesis Hclk : clocks_suit E z lo.
Hypothesis Hlo : at_midnight_of lo <= start.
Hypothesis Hrep : not_a_time + 2 * one_day < start.
Hypothesis M1 : is_midnight start.

Lemma clock_instant : forall k t x, In (k, t) (clock_times E) -> is_midnight x -> start <= x ->
  exists u, instant_of z (local_time x k t) u.
Proof.
  intros k t x Hin [n ->] Hx. destruct Hclk as [_ [C _]]. apply (C k t n Hin).
  change (n * one_day) with (at_midnight_of n) in Hx. apply at_midnight_le. lia.
Qed.

Lemma special_clock_time : forall t, In t (special_times E) -> In (0, t) (clock_times E).
Proof.
  intros t H. unfold clock_times. rewrite !in_app_iff. right. right. apply in_map_iff. exists t.
  split; [reflexivity|]. rewrite !in_app_iff. tauto.
Qed.

Lemma special_clock : forall rules dates x t,
  forallb (fun p => forallb settled (snd p)) rules = true ->
  (forall t0, In t0 (map fst rules ++ map fst dates) -> In t0 (special_times E)) ->
  (forall t0 ds, In (t0, ds) dates -> In t0 (listed_times E)) ->
  (forall t0 ds n, In (t0, ds) dates -> In n ds -> lo <= n) ->
  special_listed (map (fun p => (fst p, calendar_holidays (snd p) start stop)) rules)
    (map (fun p => (fst p, map midnight (snd p))) dates) start stop x t ->
  exists n u, x = at_midnight_of n /\ special_time rules dates n t /\
    instant_of z (local_time x 0 t) u /\
    (start <= x <= stop \/ at_midnight_of n <= u < at_midnight_of (n + 1)).
Proof.
  intros rules dates x t S Hc Hc' Hd Hl. apply listed_iff in Hl; [|exact S].
  destruct Hl as [n [-> Hl]]. destruct Hclk as [_ [C [B _]]].
  assert (Hn : lo <= n).
  { destruct Hl as [[_ Hr]|[ds [H1 H2]]]; [|eapply Hd; eassumption]. apply at_midnight_le. lia. }
  assert (Hin : In t (special_times E)).
  { apply Hc. apply in_app_iff. destruct Hl as [[[rs [r [H1 _]]] _]|[ds [H1 _]]].
    - left. apply in_map_iff. exists (t, rs). tauto.
    - right. apply in_map_iff. exists (t, ds). tauto. }
  destruct (C 0 t n (special_clock_time t Hin) Hn) as [u Hu]. exists n, u. split; [reflexivity|].
  split; [|split; [exact Hu|]].
  - unfold special_time. destruct Hl as [[H _]|H]; [left; exact H|right; exact H].
  - destruct Hl as [[_ Hr]|[ds [H _]]]; [left; exact Hr|right].
    apply (B t n u (Hc' t ds H) Hn Hu).
Qed.

Lemma opens_clock : forall t, In t (map fst (ex_special_opens E) ++ map fst (ex_special_opens_adhoc E)) ->
  In t (special_times E).
Proof. intros t H. unfold special_times. rewrite !in_app_iff in *. tauto. Qed.
Lemma closes_clock : forall t, In t (map fst (ex_special_closes E) ++ map fst (ex_special_closes_adhoc E)) ->
  In t (special_times E).
Proof. intros t H. unfold special_times. rewrite !in_app_iff in *. tauto. Qed.
Lemma opens_from : forall t ds n, In (t, ds) (ex_special_opens_adhoc E) -> In n ds -> lo <= n.
Proof. intros t ds n H1 H2. apply (proj2 (proj2 (proj2 Hclk))). exists t, ds. tauto. Qed.
Lemma closes_from : forall t ds n, In (t, ds) (ex_special_closes_adhoc E) -> In n ds -> lo <= n.
Proof. intros t ds n H1 H2. apply (proj2 (proj2 (proj2 Hclk))). exists t, ds. tauto. Qed.

Lemma opens_listed : forall t ds, In (t, ds) (ex_special_opens_adhoc E) -> In t (listed_times E).
Proof. intros t ds H. apply in_app_iff. left. apply in_map_iff. exists (t, ds). tauto. Qed.
Lemma closes_listed : forall t ds, In (t, ds) (ex_special_closes_adhoc E) -> In t (listed_times E).
Proof. intros t ds H. apply in_app_iff. right. apply in_map_iff. exists (t, ds). tauto. Qed.

Lemma near_midnight : forall n u, start <= u <= stop ->
  start <= at_midnight_of n <= stop \/ at_midnight_of n <= u < at_midnight_of (n + 1) ->
  start <= at_midnight_of n <= stop.
Proof.
  intros n u Hu [B|B]; [exact B|]. destruct M1 as [a ->]. unfold at_midnight_of in *. pose proof one_day_pos.
  assert (a < n + 1) by nia. nia.
Qed.

(** A special day in the range is open or in the list of exceptions. *)
Lemma special_day_cases : forall x u, special_open D start stop x u \/ special_close D start stop x u ->
  exists n, x = at_midnight_of n /\ start <= x <= stop /\ (open_day E n \/ In n bad).
Proof.
  intros x u H. pose proof Hok as V. unfold venue_ok in V. cbv zeta in V. rewrite !andb_true_iff in V.
  destruct V as [[[_ V] _] _].
  destruct H as [[t [Hl [Hu Hr]]]|[t [Hl [Hu Hr]]]];
    [apply special_clock in Hl; [|exact Hset1|exact opens_clock|exact opens_listed|exact opens_from]
    |apply special_clock in Hl; [|exact Hset2|exact closes_clock|exact closes_listed|exact closes_from]];
    destruct Hl as [n [u' [-> [Hs [Hu' B]]]]]; exists n; (split; [reflexivity|]);
    pose proof (instant_of_unique _ _ _ _ Hu Hu') as Eu; subst u'; (split; [apply (near_midnight n u Hr B)|]);
    apply (specials_fit_ok E bad n t V); [left|right]; exact Hs.
Qed.

Lemma venue_tables : ordered_tables D.
Proof.
  pose proof Hok as V. unfold venue_ok in V. cbv zeta in V. rewrite !andb_true_iff in V.
  apply tables_ok_ok. apply V.
Qed.

Lemma venue_covered : covered D start stop.
Proof.
  apply tables_cover_ok; [exact venue_tables|].
  pose proof Hok as V. unfold venue_ok in V. cbv zeta in V. rewrite !andb_true_iff in V. apply V.
Qed.

Lemma venue_resolvable : resolvable D start stop.
Proof.
  split; [|split; [|split; [|split]]].
  - intros x t [Hm [Hr _]] Ht. apply clock_instant; [|exact Hm|apply Hr].
    unfold clock_times. rewrite in_app_iff. left. eapply table_clock. exact Ht.
  - intros x t [Hm [Hr _]] Ht. apply clock_instant; [|exact Hm|apply Hr].
    unfold clock_times. rewrite !in_app_iff. right. left. eapply table_clock. exact Ht.
  - intros ts x t Hts [Hm [Hr _]] Ht. apply clock_instant; [|exact Hm|apply Hr].
    unfold clock_times. rewrite !in_app_iff. right. right.
    assert (G : exists l, ts = at_midnight l /\
      (ex_break_start_times E = Some l \/ ex_break_end_times E = Some l)).
    { unfold D in Hts. cbn [instantiate break_start_times break_end_times] in Hts.
      destruct Hts as [H|H].
      - destruct (ex_break_start_times E) as [l|]; [|discriminate]. injection H as <-. exists l. tauto.
      - destruct (ex_break_end_times E) as [l|]; [|discriminate]. injection H as <-. exists l. tauto. }
    destruct G as [l [-> Hl]]. apply (table_clock 0) in Ht. unfold times_of in *.
    apply in_map_iff in Ht. destruct Ht as [t' [E' Ht]]. injection E' as ->. apply in_map_iff.
    exists t. split; [reflexivity|]. rewrite !in_app_iff.
    destruct Hl as [Hl|Hl]; rewrite Hl; cbn [optional_table]; tauto.
  - intros x t Hl. apply special_clock in Hl; [|exact Hset1|exact opens_clock|exact opens_listed|exact opens_from].
    destruct Hl as [n [u [_ [_ [Hu _]]]]]. exists u. exact Hu.
  - intros x t Hl. apply special_clock in Hl; [|exact Hset2|exact closes_clock|exact closes_listed|exact closes_from].
    destruct Hl as [n [u [_ [_ [Hu _]]]]]. exists u. exact Hu.
Qed.

Lemma listed_time : forall rules dates x t, forallb (fun p => forallb settled (snd p)) rules = true ->
  special_listed (map (fun p => (fst p, calendar_holidays (snd p) start stop)) rules)
    (map (fun p => (fst p, map midnight (snd p))) dates) start stop x t ->
  exists n, x = at_midnight_of n /\ special_time rules dates n t.
Proof.
  intros rules dates x t S Hl. apply listed_iff in Hl; [|exact S]. destruct Hl as [n [-> Hl]].
  exists n. split; [reflexivity|]. destruct Hl as [[Hl _]|Hl]; [left|right]; exact Hl.
Qed.

Lemma venue_consistent : consistent_specials D start stop.
Proof.
  pose proof Hok as V. unfold venue_ok in V. cbv zeta in V. rewrite !andb_true_iff in V.
  destruct V as [[_ V1] V2]. split; intros x u u' [t [Hl [Hu _]]] [t' [Hl' [Hu' _]]].
  - apply listed_time in Hl; [|exact Hset1]. apply listed_time in Hl'; [|exact Hset1].
    destruct Hl as [n [-> Hs]], Hl' as [n' [En Hs']]. apply at_midnight_inj in En. subst n'.
    pose proof (times_agree_ok _ _ n t t' V1 Hs Hs') as Et. subst t'.
    eapply instant_of_unique; eassumption.
  - apply listed_time in Hl; [|exact Hset2]. apply listed_time in Hl'; [|exact Hset2].
    destruct Hl as [n [-> Hs]], Hl' as [n' [En Hs']]. apply at_midnight_inj in En. subst n'.
    pose proof (times_agree_ok _ _ n t t' V2 Hs Hs') as Et. subst t'.
    eapply instant_of_unique; eassumption.
Qed.

Lemma venue_agree : times_agree (ex_special_opens E) (ex_special_opens_adhoc E) = true /\
  times_agree (ex_special_closes E) (ex_special_closes_adhoc E) = true.
Proof.
  pose proof Hok as V. unfold venue_ok in V. cbv zeta in V. rewrite !andb_true_iff in V.
  destruct V as [[_ V1] V2]. split; assumption.
Qed.

Lemma venue_local : locally_well_formed D start stop.
Proof.
  pose proof Hok as V. unfold venue_ok in V. cbv zeta in V. rewrite !andb_true_iff in V.
  destruct V as [[[[[[_ V1] V2] _] _] _] _]. eapply day_shape_ok.
  - unfold D. rewrite day_shape_frame. exact V1.
  - apply Z.leb_le in V2. rewrite NPD_one_day in V2. pose proof one_day_pos. lia.
Qed.

Lemma venue_representable : representable D start.
Proof.
  pose proof Hok as V. unfold venue_ok in V. cbv zeta in V. rewrite !andb_true_iff in V.
  destruct V as [[[[_ V] _] _] _]. rewrite forallb_forall in V.
  split; [exact Hrep|]. intros ts s t Hts Hin. specialize (V t). rewrite in_app_iff in V.
  assert (G : In t (table_times (break_start_times (frame E))) \/ In t (table_times (break_end_times (frame E)))).
  { change (break_start_times D) with (break_start_times (frame E)) in Hts.
    change (break_end_times D) with (break_end_times (frame E)) in Hts.
    destruct Hts as [H|H]; rewrite H; cbn [table_times]; [left|right]; apply in_map_iff; exists (s, t); tauto. }
  specialize (V G). unfold valid_timeb in V. rewrite !andb_true_iff in V. unfold valid_time. lia.
Qed.

(** A range that contains none of the exceptions. *)
Lemma venue_sound : (forall n, In n bad -> ~ start <= at_midnight_of n <= stop) ->
  (forallb settled (ex_regular_holidays E) = true \/ special_times E = []) -> sound D start stop.
Proof.
  intros Hb Hset. constructor.
  - exact venue_tables.
  - exact (proj1 Hclk).
  - exact venue_representable.
  - exact venue_resolvable.
  - exact venue_covered.
  - intros x u H. destruct Hset as [Hset|Hnil].
    + apply special_day_cases in H. destruct H as [n [-> [Hr [Ho|H]]]].
      * apply session_day_open; [exact Hset|]. exists n. tauto.
      * exfalso. apply (Hb n H Hr).
    + exfalso. unfold special_times in Hnil. apply app_eq_nil in Hnil. destruct Hnil as [N1 N2].
      apply app_eq_nil in N2. destruct N2 as [N2 N3]. apply app_eq_nil in N3. destruct N3 as [N3 N4].
      apply map_eq_nil in N1, N2, N3, N4.
      destruct H as [[t [Hl _]]|[t [Hl _]]]; unfold D in Hl;
        cbn [instantiate special_opens special_opens_adhoc special_closes special_closes_adhoc] in Hl;
        rewrite ?N1, ?N2, ?N3, ?N4 in Hl; destruct Hl as [[ds [[] _]]|[ds [[] _]]].
  - exact venue_consistent.
  - exact venue_local.
Qed.
End Sound.
