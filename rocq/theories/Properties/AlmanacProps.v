(** The closures of each exchange in calendar terms (C57). *)
From Coq Require Import ZArith String List Bool Lia.
From Verif.Model Require Import Base Dates Zone Queries Build Holidays Exchange.
From Verif.Spec Require Import Schedule Construction Civil Rules Feasts Venue Almanac.
From Verif.Proofs Require Import BaseLemmas DatesLemmas ScheduleLemmas RuleLemmas RuleRange
  VenueLemmas AlmanacLemmas AlmanacRules.
From Verif.Properties Require Import ExchangeProps.
From Verif.Exchanges Require Import All zones.
From Verif.Exchanges Require exchange_calendar_xtae exchange_calendar_xlon exchange_calendar_xnys.
Import ListNotations.
Open Scope Z_scope.

(** ** The rules of every exchange are its almanac *)

Ltac in_list := repeat first [left; lazymatch goal with |- ?x = ?x => reflexivity end|right].

Tactic Notation "listed" hyp(H) constr(S) :=
  destruct H as [H|H]; [injection H as <- <-; eexists; (split; [|exact S]); in_list|].

Lemma almanac_same : forall name E, In (name, E) exchanges -> name <> "XTAE"%string ->
  exists hs, In (name, hs) almanac /\ same (ex_regular_holidays E) hs.
Proof.
  intros name E H N. unfold exchanges in H. cbn [In] in H.
  listed H asex_same. listed H bvmf_same. listed H cmes_same. listed H iepa_same.
  listed H xams_same. listed H xasx_same. listed H xbkk_same. listed H xbog_same.
  listed H same_nil. listed H xbru_same. listed H xbud_same. listed H xbue_same.
  listed H xcbf_same. listed H xcse_same. listed H xdub_same. listed H xfra_same.
  listed H xetr_same. listed H xhel_same. listed H xhkg_same. listed H xice_same.
  listed H xidx_same. listed H xist_same. listed H xjse_same. listed H xkar_same.
  listed H xkls_same. listed H same_nil. listed H xlim_same. listed H xlis_same.
  listed H xlon_same. listed H xmad_same. listed H xmex_same. listed H xmil_same.
  listed H xmos_same. listed H xnys_same. listed H xnze_same. listed H xosl_same.
  listed H xpar_same. listed H xphs_same. listed H xpra_same. listed H same_nil.
  listed H xsgo_same. listed H same_nil. listed H xsto_same. listed H xswx_same.
  destruct H as [H|H]; [injection H as <- <-; exfalso; apply N; reflexivity|].
  listed H xtai_same. listed H xtks_same. listed H xtse_same. listed H xwar_same.
  listed H xwbo_same. listed H us_futures_same.
  destruct H.
Qed.

Lemma almanac_unique : forall name hs hs', In (name, hs) almanac -> In (name, hs') almanac -> hs = hs'.
Proof.
  assert (N : NoDup (map fst almanac)).
  { replace (map fst almanac) with (nodup string_dec (map fst almanac)) by (vm_compute; reflexivity).
    apply NoDup_nodup. }
  revert N. generalize almanac. intros l N name hs hs'.
  induction l as [|[a b] l IH]; [intros []|]. cbn [map fst] in N. inversion N as [|? ? N1 N2]; subst.
  intros [H|H] [H'|H'].
  - congruence.
  - injection H as -> ->. exfalso. apply N1. apply in_map_iff. exists (name, hs'). split; [reflexivity|exact H'].
  - injection H' as -> ->. exfalso. apply N1. apply in_map_iff. exists (name, hs). split; [reflexivity|exact H].
  - apply IH; assumption.
Qed.

Lemma rules_almanac : forall name E n, In (name, E) exchanges -> name <> "XTAE"%string ->
  ((exists r, In r (ex_regular_holidays E) /\ falls_on r n) <-> annual_closure name n).
Proof.
  intros name E n H N. destruct (almanac_same name E H N) as [hs [A S]]. rewrite (S n). unfold annual_closure.
  split.
  - intros [h Hh]. exists hs, h. tauto.
  - intros [hs' [h [A' Hh]]]. rewrite (almanac_unique name hs hs' A A'). exists h. exact Hh.
Qed.

Lemma weekmasks : forall name E, In (name, E) exchanges -> name <> "XTAE"%string ->
  ex_weekmask E = [true; true; true; true; true; false; false].
Proof.
  intros name E H N. unfold exchanges in H. cbn [In] in H.
  repeat (destruct H as [H|H];
    [injection H as <- <-; first [reflexivity|exfalso; apply N; reflexivity]|]).
  destruct H.
Qed.

Lemma mask_workday : forall n,
  nth_error [true; true; true; true; true; false; false] (Z.to_nat (day_of_week n)) = Some true <-> workday n.
Proof.
  intros n. unfold workday. assert (R : 0 <= day_of_week n < 7) by (apply Z.mod_pos_bound; lia).
  revert R. generalize (day_of_week n). intros w R.
  assert (C : w = 0 \/ w = 1 \/ w = 2 \/ w = 3 \/ w = 4 \/ w = 5 \/ w = 6) by lia.
  destruct C as [-> | [-> | [-> | [-> | [-> | [-> | ->]]]]]]; 
    (split; intros X; [first [lia|discriminate X]|first [reflexivity|lia]]).
Qed.

(** ** C57: the days on which each exchange is closed *)

(** Between 1970 and 2200 the sessions of an exchange are the workdays that are
    neither a holiday of its almanac nor listed as a one-off closure. *)
Theorem c57_sessions : forall name E z start stop b n, In (name, E) exchanges -> name <> "XTAE"%string ->
  is_midnight start -> build_exchange E z start stop = Ok b ->
  start <= at_midnight_of n <= stop -> known_year n ->
  (is_session (cal b) (at_midnight_of n) = true <->
   workday n /\ ~ annual_closure name n /\ ~ In n (ex_adhoc_holidays E)).
Proof.
  intros name E z start stop b n H N M Hb Hn K.
  rewrite (proj2 (c51_sessions name E z start stop b H M Hb) n Hn).
  unfold trades. destruct (String.eqb_spec name "XTAE") as [->|_]; [contradiction N; reflexivity|].
  unfold open_day, rule_holiday. rewrite (weekmasks name E H N), mask_workday, (rules_almanac name E n H N).
  tauto.
Qed.

(** Outside these years no holiday of the almanac is kept. *)
Theorem c57_unknown_years : forall name E z start stop b n, In (name, E) exchanges -> name <> "XTAE"%string ->
  is_midnight start -> build_exchange E z start stop = Ok b ->
  start <= at_midnight_of n <= stop -> ~ known_year n ->
  (is_session (cal b) (at_midnight_of n) = true <-> workday n /\ ~ In n (ex_adhoc_holidays E)).
Proof.
  intros name E z start stop b n H N M Hb Hn K.
  rewrite (proj2 (c51_sessions name E z start stop b H M Hb) n Hn).
  unfold trades. destruct (String.eqb_spec name "XTAE") as [->|_]; [contradiction N; reflexivity|].
  unfold open_day, rule_holiday. rewrite (weekmasks name E H N), mask_workday. tauto.
Qed.

(** *** Christmas *)

(** Where Christmas has substitute days, it takes exactly two workdays, the first
    two from December 25th on. *)
Lemma week_cases : forall n, day_of_week n = 0 \/ day_of_week n = 1 \/ day_of_week n = 2 \/ day_of_week n = 3 \/
  day_of_week n = 4 \/ day_of_week n = 5 \/ day_of_week n = 6.
Proof. intros n. assert (R : 0 <= day_of_week n < 7) by (apply Z.mod_pos_bound; lia). lia. Qed.

Lemma christmas_taken : forall y n, date_number y 12 25 <= n <= date_number y 12 31 -> workday n ->
  ((exists h, In h christmas_days /\ h n) <->
   first_from workday (date_number y 12 25) n \/ second_workday (date_number y 12 25) n).
Proof.
  intros y n Hn W.
  assert (V : forall y d, 1 <= d <= 31 -> valid_date y 12 d) by (intros y0 d0 Hd; split; [lia|exact Hd]).
  assert (D : forall k, date_number y 12 (25 + k) = date_number y 12 25 + k)
    by (intros k; unfold date_number; lia).
  pose proof (D 6) as D6. change (25 + 6) with 31 in D6. rewrite D6 in Hn.
  assert (A : forall k, 0 <= k <= 6 -> (annual 12 (25 + k) n <-> n = date_number y 12 25 + k)).
  { intros k Hk. unfold annual. split.
    - intros [y' E]. rewrite <- D.
      assert (y' = y); [|subst y'; exact E].
      assert (I1 : in_year n y') by (rewrite E; apply date_number_year, V; lia).
      assert (I2 : in_year n y).
      { replace n with (date_number y 12 (25 + (n - date_number y 12 25))) by (rewrite D; lia).
        apply date_number_year, V; lia. }
      apply (in_year_unique n); assumption.
    - intros ->. exists y. symmetry. apply D. }
  pose proof (A 0 ltac:(lia)) as A0. pose proof (A 1 ltac:(lia)) as A1.
  pose proof (A 2 ltac:(lia)) as A2. pose proof (A 3 ltac:(lia)) as A3.
  change (25 + 0) with 25 in A0. change (25 + 1) with 26 in A1. change (25 + 2) with 27 in A2.
  change (25 + 3) with 28 in A3.
  assert (L : (exists h, In h christmas_days /\ h n) <->
    n = date_number y 12 25 + 0 \/ (In (day_of_week n) [MONDAY; TUESDAY] /\ n = date_number y 12 25 + 2) \/
    n = date_number y 12 25 + 1 \/ (In (day_of_week n) [MONDAY; TUESDAY] /\ n = date_number y 12 25 + 3)).
  { rewrite <- A0, <- A1, <- A2, <- A3. unfold christmas_days. cbn [In]. split.
    - intros [h [[<-|[<-|[<-|[<-|[]]]]] Hh]]; unfold on, christmas, boxing_day in Hh; tauto.
    - intros [G|[G|[G|G]]];
        [exact (ex_intro _ _ (conj (or_introl eq_refl) G))
        |exact (ex_intro _ _ (conj (or_intror (or_introl eq_refl)) G))
        |exact (ex_intro _ _ (conj (or_intror (or_intror (or_introl eq_refl))) G))
        |exact (ex_intro _ _ (conj (or_intror (or_intror (or_intror (or_introl eq_refl)))) G))]. }
  rewrite L. clear A A0 A1 A2 A3 L D D6. unfold second_workday.
  revert Hn. generalize (date_number y 12 25). intros c Hn.
  assert (Q : first_from workday c n \/
      (exists f, first_from workday c f /\ first_from workday (f + 1) n) <->
    n = weekend_to_monday c \/ n = weekend_to_monday (weekend_to_monday c + 1)).
  { rewrite first_workday_weekend. split.
    - intros [-> | [f [F G]]]; [tauto|]. rewrite first_workday_weekend in F, G. subst f. tauto.
    - intros [-> | E]; [tauto|]. right. exists (weekend_to_monday c). rewrite !first_workday_weekend. tauto. }
  rewrite Q. clear Q. unfold workday, day_of_week in W.
  unfold weekend_to_monday, weekday, day_of_week, MONDAY, TUESDAY. cbn [In].
  repeat match goal with |- context [?a =? ?b] => destruct (Z.eqb_spec a b) end;
    Z.div_mod_to_equations; lia.
Qed.

Lemma closed : forall name E z start stop b n, In (name, E) exchanges -> name <> "XTAE"%string ->
  is_midnight start -> build_exchange E z start stop = Ok b ->
  start <= at_midnight_of n <= stop -> known_year n -> annual_closure name n ->
  is_session (cal b) (at_midnight_of n) = false.
Proof.
  intros name E z start stop b n H N M Hb Hn K A. apply not_true_iff_false.
  rewrite (c57_sessions name E z start stop b n H N M Hb Hn K). tauto.
Qed.

Theorem c57_christmas : forall name E z start stop b y n,
  In name ["XASX"; "XDUB"; "XLON"; "XTSE"]%string -> In (name, E) exchanges ->
  is_midnight start -> build_exchange E z start stop = Ok b ->
  start <= at_midnight_of n <= stop -> 1970 <= y <= 2200 ->
  first_from workday (date_number y 12 25) n \/ second_workday (date_number y 12 25) n ->
  is_session (cal b) (at_midnight_of n) = false.
Proof.
  intros name E z start stop b y n Hname H M Hb Hn Hy F.
  assert (R : date_number y 12 25 <= n <= date_number y 12 25 + 6 /\ workday n).
  { unfold second_workday in F. setoid_rewrite first_workday_weekend in F.
    assert (G : n = weekend_to_monday (date_number y 12 25) \/
                n = weekend_to_monday (weekend_to_monday (date_number y 12 25) + 1)).
    { destruct F as [F|[f [-> F]]]; tauto. }
    revert G. generalize (date_number y 12 25). intros c G. unfold workday.
    unfold weekend_to_monday, weekday, day_of_week in *.
    repeat match goal with H : context [?a =? ?b] |- _ => destruct (Z.eqb_spec a b) end;
      destruct G as [-> | ->]; Z.div_mod_to_equations; lia. }
  destruct R as [R W].
  assert (D : date_number y 12 31 = date_number y 12 25 + 6) by (unfold date_number; lia).
  rewrite <- D in R.
  destruct (proj2 (christmas_taken y n R W) F) as [h [Hh Hd]].
  apply (closed name E z start stop b n H); try assumption.
  - intros ->. cbn [In] in Hname. repeat (destruct Hname as [Hname|Hname]; [discriminate Hname|]). exact Hname.
  - apply known_year_of. replace (year_of n) with y; [exact Hy|]. symmetry. apply year_of_ok.
    replace n with (date_number y 12 (25 + (n - date_number y 12 25))) by (unfold date_number; lia).
    apply date_number_year. split; [lia|]. change (month_length y 12) with 31. lia.
  - assert (C : exists hs, In (name, hs) almanac /\ forall h, In h christmas_days -> In h hs).
    { cbn [In] in Hname. repeat (destruct Hname as [<-|Hname];
        [eexists; split; [unfold almanac; repeat first [left; reflexivity|right]|intros h' H'; unfold sydney, dublin, london, toronto;
          rewrite in_app_iff; right; exact H']|]).
      destruct Hname. }
    destruct C as [hs [C1 C2]]. exists hs, h. split; [exact C1|]. split; [apply C2; exact Hh|exact Hd].
Qed.

(** London in 2021, when Christmas was a Saturday. *)
Lemma xlon_here : In ("XLON"%string, exchange_calendar_xlon.calendar) exchanges.
Proof. apply here. reflexivity. Qed.

Example c57_ex : exists z b, In ("Europe/London"%string, z) zones /\
  build_exchange exchange_calendar_xlon.calendar z (at_midnight_of (date_number 1990 1 1))
    (at_midnight_of (date_number 2022 12 31)) = Ok b /\
  is_session (cal b) (at_midnight_of (date_number 2021 12 27)) = false /\
  is_session (cal b) (at_midnight_of (date_number 2021 12 28)) = false /\
  is_session (cal b) (at_midnight_of (date_number 2021 12 29)) = true /\
  ~ annual_closure "XLON" (date_number 2021 12 29).
Proof.
  destruct (c53_default_range 1990 "XLON" _ (at_midnight_of (date_number 2022 12 31)) (or_introl eq_refl) xlon_here)
    as [z [b [ss [Hz [Hb _]]]]].
  - discriminate.
  - apply at_midnight_le. apply Z.leb_le. vm_compute. reflexivity.
  - intros n [].
  - exists z, b. split; [exact Hz|]. split; [exact Hb|].
    assert (M : is_midnight (at_midnight_of (date_number 1990 1 1))) by (apply is_midnight_at; eauto).
    assert (B : forall d, 25 <= d <= 31 -> at_midnight_of (date_number 1990 1 1) <=
      at_midnight_of (date_number 2021 12 d) <= at_midnight_of (date_number 2022 12 31)).
    { intros d Hd. rewrite !at_midnight_le.
      replace (date_number 2021 12 d) with (date_number 2021 12 25 + (d - 25)) by (unfold date_number; lia).
      assert (Q : (date_number 1990 1 1 <=? date_number 2021 12 25) &&
        (date_number 2021 12 25 + 6 <=? date_number 2022 12 31) = true) by (vm_compute; reflexivity).
      rewrite andb_true_iff, !Z.leb_le in Q. lia. }
    assert (F : first_from workday (date_number 2021 12 25) (date_number 2021 12 27))
      by (apply first_workday_weekend; vm_compute; reflexivity).
    assert (G : second_workday (date_number 2021 12 25) (date_number 2021 12 28)).
    { exists (date_number 2021 12 27). split; [exact F|]. apply first_workday_weekend. vm_compute. reflexivity. }
    assert (L : In "XLON"%string ["XASX"; "XDUB"; "XLON"; "XTSE"]%string) by (right; right; left; reflexivity).
    split; [|split; [|]].
    + exact (c57_christmas _ _ z _ _ b 2021 _ L xlon_here M Hb (B 27 ltac:(lia)) ltac:(lia) (or_introl F)).
    + exact (c57_christmas _ _ z _ _ b 2021 _ L xlon_here M Hb (B 28 ltac:(lia)) ltac:(lia) (or_intror G)).
    + assert (S : is_session (cal b) (at_midnight_of (date_number 2021 12 29)) = true).
      { apply (proj2 (c51_sessions _ _ z _ _ b xlon_here M Hb) _ (B 29 ltac:(lia))).
        rewrite (plain_trades _ _ _ xlon_here) by reflexivity. vm_compute. reflexivity. }
      split; [exact S|]. intros A.
      rewrite (closed _ _ z _ _ b _ xlon_here ltac:(discriminate) M Hb (B 29 ltac:(lia))) in S;
        [discriminate S|apply known_year_of; vm_compute; split; discriminate|exact A].
Qed.

(** ** Assumptions *)
Print Assumptions c57_sessions.
Print Assumptions c57_unknown_years.
Print Assumptions c57_christmas.
