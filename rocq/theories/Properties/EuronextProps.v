(** The exchanges of Euronext compared (C95). *)
From Coq Require Import ZArith String List Bool Lia.
From Verif.Model Require Import Base Dates Zone Queries Build Holidays Exchange.
From Verif.Spec Require Import Schedule Construction Civil Rules Venue.
From Verif.Proofs Require Import BaseLemmas DatesLemmas ScheduleLemmas BuildLemmas ZoneLemmas ShapeLemmas VenueLemmas VenueData SteadyLemmas.
From Verif.Properties Require Import QueryProps ExchangeProps MarketProps LengthProps SupersetProps.
From Verif.Exchanges Require Import All zones.
Import ListNotations.
Open Scope Z_scope.

Definition euronext : list (string * exchange) :=
  [("XAMS"%string, exchange_calendar_xams.calendar);
   ("XBRU"%string, exchange_calendar_xbru.calendar);
   ("XLIS"%string, exchange_calendar_xlis.calendar);
   ("XPAR"%string, exchange_calendar_xpar.calendar)].
Lemma euronext_here : forall name E, In (name, E) euronext -> In (name, E) exchanges.
Proof.
  intros name E H. unfold euronext in H. cbn [In] in H.
  destruct H as [H|[H|[H|[H|[]]]]]; injection H as <- <-; apply here; reflexivity.
Qed.
Lemma euronext_name : forall name E, In (name, E) euronext -> String.eqb name "XTAE" = false.
Proof.
  intros name E H. unfold euronext in H. cbn [In] in H.
  destruct H as [H|[H|[H|[H|[]]]]]; injection H as <- <-; reflexivity.
Qed.

(** ** Days *)

Definition first_day : Z := date_number 2003 1 2.
Definition common : list rule :=
  [exchange_calendar_xpar.NewYearsDay; GoodFriday; EasterMonday; exchange_calendar_xpar.LabourDay;
   exchange_calendar_xpar.Christmas; exchange_calendar_xpar.BoxingDay].
Definition ended (r : rule) : bool :=
  match r_year r, r_end r with None, Some e => e <? first_day | _, _ => false end.
Lemma ended_not : forall r n, ended r = true -> first_day <= n -> ~ falls_on r n.
Proof.
  intros r n E L F. unfold ended in E. unfold falls_on in F. destruct (r_year r); [discriminate|].
  destruct (r_end r) as [e|] eqn:Q; [|discriminate]. destruct F as [_ [_ [_ F]]]. specialize (F e eq_refl). lia.
Qed.

Ltac each_exchange H := unfold euronext in H; cbn [In] in H;
  destruct H as [H|[H|[H|[H|[]]]]]; injection H as <- <-.
Ltac each_rule H := repeat (destruct H as [H|H]; [|]); try destruct H.

Lemma regular_common : forall name E r n, In (name, E) euronext -> first_day <= n ->
  In r (ex_regular_holidays E) -> falls_on r n -> In r common.
Proof.
  intros name E r n H L I F.
  assert (K : ended r = true \/ In r common).
  { each_exchange H; cbn [ex_regular_holidays exchange_calendar_xams.calendar exchange_calendar_xbru.calendar
      exchange_calendar_xlis.calendar exchange_calendar_xpar.calendar exchange_calendar_xams.regular_holidays
      exchange_calendar_xbru.regular_holidays exchange_calendar_xlis.regular_holidays
      exchange_calendar_xpar.regular_holidays In] in I;
    repeat (destruct I as [<-|I]; [first [left; vm_compute; reflexivity | right; unfold common; cbn [In]; tauto
       | right; repeat (first [left; reflexivity|right])]|]); destruct I. }
  destruct K as [K|K]; [destruct (ended_not r n K L F)|exact K].
Qed.
Lemma common_regular : forall name E r, In (name, E) euronext -> In r common -> In r (ex_regular_holidays E).
Proof.
  intros name E r H I. each_exchange H; unfold common in I; cbn [In] in I;
    repeat (destruct I as [<-|I]; [repeat (first [left; reflexivity|right])|]); destruct I.
Qed.

Lemma euronext_trades : forall name E name' E' n, In (name, E) euronext -> In (name', E') euronext ->
  first_day <= n -> trades name E n -> trades name' E' n.
Proof.
  intros name E name' E' n H H' L T.
  apply (rules_within name E name' E' n (euronext_name _ _ H) (euronext_name _ _ H')).
  - each_exchange H; each_exchange H'; reflexivity.
  - intros r I K F. apply (kept_also E r n); [|exact K|exact F].
    apply (common_regular name); [exact H|]. apply (regular_common name' E' r n); assumption.
  - each_exchange H; each_exchange H'; intros x X; exact X.
  - exact T.
Qed.

(** After New Year's Day of 2003 the exchanges of Euronext have the same sessions, whatever the ranges and zones. *)
Theorem c95_euronext_sessions : forall name E z start stop b name' E' z' start' stop' b' n,
  In (name, E) euronext -> In (name', E') euronext ->
  is_midnight start -> build_exchange E z start stop = Ok b ->
  is_midnight start' -> build_exchange E' z' start' stop' = Ok b' ->
  date_number 2003 1 2 <= n -> start <= at_midnight_of n <= stop -> start' <= at_midnight_of n <= stop' ->
  is_session (cal b) (at_midnight_of n) = is_session (cal b') (at_midnight_of n).
Proof.
  intros name E z start stop b name' E' z' start' stop' b' n H H' M Hb M' Hb' L R R'.
  apply eq_true_iff_eq.
  rewrite (proj2 (c51_sessions _ _ z start stop b (euronext_here _ _ H) M Hb) n R),
    (proj2 (c51_sessions _ _ z' start' stop' b' (euronext_here _ _ H') M' Hb') n R').
  split; apply euronext_trades; assumption.
Qed.

(** ** Clocks *)

Lemma lowered_table : forall d u trs cur,
  offset_from (cur - d) (map (fun p => (fst p, snd p - d)) trs) u = offset_from cur trs u - d.
Proof.
  intros d u trs. induction trs as [|[t o] rest IH]; intros cur; [reflexivity|].
  cbn [map offset_from fst snd]. destruct (t <=? u); [apply IH|reflexivity].
Qed.
Definition lag_of (E : exchange) : Z := if String.eqb (ex_tz E) "Europe/Lisbon" then an_hour else 0.
Definition since : Z := at_midnight_of (date_number 2003 1 1).
Definition runs_as (z : zone) (d : Z) : bool :=
  let P := later since (initial_offset Europe_Paris) (transitions Europe_Paris) in
  let Q := later since (initial_offset z) (transitions z) in
  (fst Q =? fst P - d) &&
  (Nat.eqb (length (snd Q)) (length (snd P))) &&
  forallb (fun p => (fst (fst p) =? fst (snd p)) && (snd (fst p) =? snd (snd p) - d)) (combine (snd Q) (snd P)).
Lemma combine_map : forall d (q p : list (Z * Z)), length q = length p ->
  forallb (fun p => (fst (fst p) =? fst (snd p)) && (snd (fst p) =? snd (snd p) - d)) (combine q p) = true ->
  q = map (fun p => (fst p, snd p - d)) p.
Proof.
  intros d. induction q as [|[a b] q IH]; intros [|[c e] p] L F; try discriminate; [reflexivity|].
  cbn [combine forallb fst snd map] in *. apply andb_prop in F. destruct F as [F1 F2]. apply andb_prop in F1. destruct F1 as [F0 F1].
  apply Z.eqb_eq in F0, F1. subst. f_equal. apply IH; [injection L as L; exact L|exact F2].
Qed.
Lemma runs_ok : forall z d u, runs_as z d = true -> since <= u -> offset_at z u = offset_at Europe_Paris u - d.
Proof.
  intros z d u H L. unfold runs_as in H. cbv zeta in H. apply andb_prop in H. destruct H as [H F]. apply andb_prop in H. destruct H as [H0 H1].
  apply Z.eqb_eq in H0. apply Nat.eqb_eq in H1. pose proof (combine_map d _ _ H1 F) as C.
  unfold offset_at. rewrite (later_ok since u (transitions z) _ L), H0, C, lowered_table.
  rewrite <- later_ok by exact L. reflexivity.
Qed.
Lemma euronext_zone : forall name E z, In (name, E) euronext -> In (ex_tz E, z) zones ->
  runs_as z (lag_of E) = true /\
  forallb (fun o => (- an_hour <=? o) && (o <=? 3 * an_hour)) (initial_offset z :: map snd (transitions z)) = true.
Proof.
  intros name E z H Hz.
  assert (K : exists z0, In (ex_tz E, z0) zones /\ runs_as z0 (lag_of E) = true /\
    forallb (fun o => (- an_hour <=? o) && (o <=? 3 * an_hour)) (initial_offset z0 :: map snd (transitions z0)) = true).
  { each_exchange H;
    [exists Europe_Amsterdam|exists Europe_Brussels|exists Europe_Lisbon|exists Europe_Paris];
    (split; [unfold zones; cbn [In ex_tz exchange_calendar_xams.calendar exchange_calendar_xbru.calendar
       exchange_calendar_xlis.calendar exchange_calendar_xpar.calendar]; tauto|split; vm_compute; reflexivity]). }
  destruct K as [z0 [I0 K]]. rewrite (zones_unique _ _ _ Hz I0). exact K.
Qed.

(** A local time of one exchange is a local time of another one, at the same moment. *)
Lemma same_clock : forall name E z name' E' z' n x x' u, In (name, E) euronext -> In (name', E') euronext ->
  In (ex_tz E, z) zones -> In (ex_tz E', z') zones -> first_day <= n -> 0 <= x ->
  x + lag_of E = x' + lag_of E' ->
  wall_clock z u = at_midnight_of n + x -> wall_clock z' u = at_midnight_of n + x'.
Proof.
  intros name E z name' E' z' n x x' u H H' Hz Hz' L X Q W.
  destruct (euronext_zone _ _ _ H Hz) as [A B]. destruct (euronext_zone _ _ _ H' Hz') as [A' _].
  unfold wall_clock in *. pose proof (table_bounds z _ _ u B) as T.
  assert (S : since <= u).
  { assert (at_midnight_of first_day <= at_midnight_of n) by (apply at_midnight_le; exact L).
    assert (since + 4 * an_hour <= at_midnight_of first_day) by (apply Z.leb_le; vm_compute; reflexivity). lia. }
  rewrite (runs_ok z _ u A S) in W. rewrite (runs_ok z' _ u A' S). lia.
Qed.

(** ** Times *)

Lemma euronext_open : forall name E, In (name, E) euronext ->
  exists t, ex_open_times E = [(None, t)] /\ ex_open_offset E = 0 /\ 0 <= tod 0 t /\
    tod 0 t + lag_of E = tod 0 (Time 9 1 0) /\ ex_special_opens E = [] /\ ex_special_opens_adhoc E = [].
Proof.
  intros name E H. each_exchange H;
  [exists (Time 9 1 0)|exists (Time 9 1 0)|exists (Time 8 1 0)|exists (Time 9 1 0)];
  (split; [reflexivity|split; [reflexivity|split; [apply Z.leb_le; vm_compute; reflexivity|split; [vm_compute; reflexivity|split; reflexivity]]]]).
Qed.
Lemma euronext_close : forall name E, In (name, E) euronext ->
  exists t, ex_close_times E = [(None, t)] /\ ex_close_offset E = 0 /\ 0 <= tod 0 t /\
    tod 0 t + lag_of E = tod 0 (Time 17 30 0).
Proof.
  intros name E H. each_exchange H;
  [exists (Time 17 30 0)|exists (Time 17 30 0)|exists (Time 16 30 0)|exists (Time 17 30 0)];
  (split; [reflexivity|split; [reflexivity|split; [apply Z.leb_le; vm_compute; reflexivity|vm_compute; reflexivity]]]).
Qed.

(** The days before Christmas and New Year. *)
Definition eves (n : Z) : Prop :=
  falls_on exchange_calendar_xpar.ChristmasEve n \/ falls_on exchange_calendar_xlis.NewYearsEve n.
Lemma start_irrelevant : forall m d s s' w n, (forall x, s = Some x -> x <= n) -> 
  falls_on (Holiday m d [] None s' None w) n -> falls_on (Holiday m d [] None s None w) n.
Proof.
  intros m d s s' w n S [A [B [_ C]]]. unfold falls_on, Holiday in *. cbn [r_year r_start r_end r_month r_day r_offset r_observance r_days_of_week] in *.
  split; [exact A|]. split; [exact B|]. split; [exact S|exact C].
Qed.
Lemma euronext_special : forall name E, In (name, E) euronext ->
  exists t, 0 <= tod 0 t /\ tod 0 t + lag_of E = tod 0 (Time 14 5 0) /\
  forall n, first_day <= n -> forall t', special_closing E n t' <-> t' = t /\ eves n.
Proof.
  intros name E H. exists (if String.eqb (ex_tz E) "Europe/Lisbon" then Time 13 5 0 else Time 14 5 0).
  split; [destruct (String.eqb (ex_tz E) "Europe/Lisbon"); apply Z.leb_le; vm_compute; reflexivity|].
  split; [unfold lag_of; destruct (String.eqb (ex_tz E) "Europe/Lisbon"); vm_compute; reflexivity|].
  intros n L t'.
  assert (L2 : ymd 2002 1 1 <= n) by (assert (ymd 2002 1 1 <= first_day) by (apply Z.leb_le; vm_compute; reflexivity); lia).
  assert (L3 : ymd 2003 1 1 <= n) by (assert (ymd 2003 1 1 <= first_day) by (apply Z.leb_le; vm_compute; reflexivity); lia).
  unfold special_closing, special_time, eves. each_exchange H.
  all: split;
    [ intros [[rs [r [[A|[]] [B C]]]]|[ds [[] _]]]; injection A as <- <-; split; [reflexivity|];
      destruct B as [<-|[<-|[]]];
      [left; unfold exchange_calendar_xpar.ChristmasEve, common_holidays.christmas_eve
      |right; unfold exchange_calendar_xlis.NewYearsEve, common_holidays.new_years_eve];
      (eapply start_irrelevant; [intros x X; discriminate X|exact C])
    | intros [-> [C|C]]; left; eexists; eexists; (split; [left; reflexivity|]);
      [split; [left; reflexivity|]|split; [right; left; reflexivity|]];
      (eapply start_irrelevant; [intros x X; first [discriminate X|injection X as <-; assumption]|exact C]) ].
Qed.

Lemma moved_instant : forall name E z name' E' z' n t t' u, In (name, E) euronext -> In (name', E') euronext ->
  In (ex_tz E, z) zones -> In (ex_tz E', z') zones -> first_day <= n -> 0 <= tod 0 t -> 0 <= tod 0 t' ->
  tod 0 t + lag_of E = tod 0 t' + lag_of E' ->
  instant_of z (local_time (at_midnight_of n) 0 t) u -> instant_of z' (local_time (at_midnight_of n) 0 t') u.
Proof.
  intros name E z name' E' z' n t t' u H H' Hz Hz' L P P' Q [W U]. rewrite tod_local in W, U. rewrite !tod_local. split.
  - exact (same_clock _ _ _ _ _ _ n _ _ u H H' Hz Hz' L P Q W).
  - intros w Hw. apply U. exact (same_clock _ _ _ _ _ _ n _ _ w H' H Hz' Hz L P' (eq_sym Q) Hw).
Qed.
Lemma instant_unique : forall z l u v, instant_of z l u -> instant_of z l v -> u = v.
Proof. intros z l u v [A _] [_ B]. apply B. exact A. Qed.

(** They open and close at the same moments. *)
Theorem c95_euronext : forall name E z name' E' z' start stop b b' n,
  In (name, E) euronext -> In (name', E') euronext -> In (ex_tz E, z) zones -> In (ex_tz E', z') zones ->
  not_a_time + 2 * one_day < start -> is_midnight start ->
  build_exchange E z start stop = Ok b -> build_exchange E' z' start stop = Ok b' ->
  date_number 2003 1 2 <= n -> start <= at_midnight_of n <= stop -> is_session (cal b) (at_midnight_of n) = true ->
  exists u v, session_open (cal b) (at_midnight_of n) = Ok u /\ session_open (cal b') (at_midnight_of n) = Ok u /\
    session_close (cal b) (at_midnight_of n) = Ok v /\ session_close (cal b') (at_midnight_of n) = Ok v.
Proof.
  intros name E z name' E' z' start stop b b' n H H' Hz Hz' Rep M Hb Hb' L R S.
  pose proof (euronext_here _ _ H) as I. pose proof (euronext_here _ _ H') as I'.
  assert (T : trades name E n) by exact (proj1 (proj2 (c51_sessions _ _ z start stop b I M Hb) n R) S).
  pose proof (euronext_trades _ _ _ _ n H H' L T) as T'.
  destruct (clocks_1950 _ _ z I Hz) as [lo [[Gz _] _]]. destruct (clocks_1950 _ _ z' I' Hz') as [lo' [[Gz' _] _]].
  destruct (times_of_day _ _ z start stop b n I Gz Rep M Hb R T) as [u [v [bs [be [P1 [O [P2 [C _]]]]]]]].
  destruct (times_of_day _ _ z' start stop b' n I' Gz' Rep M Hb' R T') as [u' [v' [bs' [be' [P1' [O' [P2' [C' _]]]]]]]].
  exists u, v. split; [exact P1|].
  destruct (euronext_open _ _ H) as [t [Et [Eo [Pt [Qt [N1 N2]]]]]].
  destruct (euronext_open _ _ H') as [t' [Et' [Eo' [Pt' [Qt' [N1' N2']]]]]].
  assert (Eu : u' = u).
  { destruct O as [[x [[[rs [r [X _]]]|[ds [X _]]] _]]|[_ [x [X Y]]]]; [rewrite N1 in X; destruct X|rewrite N2 in X; destruct X|].
    destruct O' as [[x' [[[rs [r [X' _]]]|[ds [X' _]]] _]]|[_ [x' [X' Y']]]]; [rewrite N1' in X'; destruct X'|rewrite N2' in X'; destruct X'|].
    rewrite Et in X. rewrite Et' in X'. rewrite Eo in Y. rewrite Eo' in Y'.
    pose proof (in_force_In _ n x X) as [K|[]]. pose proof (in_force_In _ n x' X') as [K'|[]]. cbn [snd] in K, K'. subst x x'.
    apply (instant_unique z' _ _ _ Y'). apply (moved_instant _ _ z _ _ z' n t t' u H H' Hz Hz' L Pt Pt'); [lia|exact Y]. }
  subst u'. split; [exact P1'|]. split; [exact P2|].
  destruct (euronext_special _ _ H) as [s [Ps [Qs Ss]]]. destruct (euronext_special _ _ H') as [s' [Ps' [Qs' Ss']]].
  assert (Ev : v' = v); [|rewrite <- Ev; exact P2'].
  assert (K : forall w, special_moment (special_closing E) z start stop n w -> special_moment (special_closing E') z' start stop n w).
  { intros w [x [X [Y Rg]]]. apply (Ss n L x) in X. destruct X as [-> X]. exists s'. split; [apply (Ss' n L s'); split; [reflexivity|exact X]|].
    split; [|exact Rg]. apply (moved_instant _ _ z _ _ z' n s s' w H H' Hz Hz' L Ps Ps'); [lia|exact Y]. }
  assert (K' : forall w, special_moment (special_closing E') z' start stop n w -> special_moment (special_closing E) z start stop n w).
  { intros w [x [X [Y Rg]]]. apply (Ss' n L x) in X. destruct X as [-> X]. exists s. split; [apply (Ss n L s); split; [reflexivity|exact X]|].
    split; [|exact Rg]. apply (moved_instant _ _ z' _ _ z n s' s w H' H Hz' Hz L Ps' Ps); [lia|exact Y]. }
  destruct C as [C|[Nc C]].
  - destruct C' as [C'|[Nc' _]]; [|destruct (Nc' v (K v C))].
    apply K in C. destruct C as [x [X [Y _]]]. destruct C' as [x' [X' [Y' _]]].
    apply (Ss' n L) in X. apply (Ss' n L) in X'. destruct X as [-> _]. destruct X' as [-> _]. exact (instant_unique _ _ _ _ Y' Y).
  - destruct C' as [C'|[_ C']]; [destruct (Nc v' (K' v' C'))|].
    destruct (euronext_close _ _ H) as [c [Ec [Eco [Pc Qc]]]]. destruct (euronext_close _ _ H') as [c' [Ec' [Eco' [Pc' Qc']]]].
    destruct C as [x [X Y]]. destruct C' as [x' [X' Y']].
    rewrite Ec in X. rewrite Ec' in X'. rewrite Eco in Y. rewrite Eco' in Y'.
    pose proof (in_force_In _ n x X) as [Q|[]]. pose proof (in_force_In _ n x' X') as [Q'|[]]. cbn [snd] in Q, Q'. subst x x'.
    apply (instant_unique z' _ _ _ Y'). apply (moved_instant _ _ z _ _ z' n c c' v H H' Hz Hz' L Pc Pc'); [lia|exact Y].
Qed.

(** Before, each kept the holidays of its country: on 14 July 2000 Amsterdam traded and Paris did not. *)
Theorem c95_euronext_refuted : exists z z' b b',
  In ("Europe/Amsterdam"%string, z) zones /\ In ("Europe/Paris"%string, z') zones /\
  build_exchange exchange_calendar_xams.calendar z (at_midnight_of (date_number 1990 1 1))
    (at_midnight_of (date_number 2020 12 31)) = Ok b /\
  build_exchange exchange_calendar_xpar.calendar z' (at_midnight_of (date_number 1990 1 1))
    (at_midnight_of (date_number 2020 12 31)) = Ok b' /\
  is_session (cal b) (at_midnight_of (date_number 2000 7 14)) = true /\
  is_session (cal b') (at_midnight_of (date_number 2000 7 14)) = false.
Proof.
  assert (A : In ("XAMS"%string, exchange_calendar_xams.calendar) exchanges) by (apply here; reflexivity).
  assert (P : In ("XPAR"%string, exchange_calendar_xpar.calendar) exchanges) by (apply here; reflexivity).
  assert (Ls : at_midnight_of (date_number 1990 1 11) <= at_midnight_of (date_number 2020 12 31))
    by (apply at_midnight_le, Z.leb_le; vm_compute; reflexivity).
  destruct (c53_default_range 1990 "XAMS" _ (at_midnight_of (date_number 2020 12 31)) (or_introl eq_refl) A)
    as [z [b [ss [Hz [Hb _]]]]]; [discriminate|exact Ls|intros n []|].
  destruct (c53_default_range 1990 "XPAR" _ (at_midnight_of (date_number 2020 12 31)) (or_introl eq_refl) P)
    as [z' [b' [ss' [Hz' [Hb' _]]]]]; [discriminate|exact Ls|intros n []|].
  assert (R : at_midnight_of (date_number 1990 1 1) <= at_midnight_of (date_number 2000 7 14) <=
    at_midnight_of (date_number 2020 12 31)) by day_le.
  assert (M : is_midnight (at_midnight_of (date_number 1990 1 1))) by (apply is_midnight_at; eauto).
  exists z, z', b, b'. split; [exact Hz|]. split; [exact Hz'|]. split; [exact Hb|]. split; [exact Hb'|]. split.
  - apply (proj2 (c51_sessions _ _ z _ _ b A M Hb) _ R).
    rewrite (plain_trades _ _ _ A) by reflexivity. vm_compute. reflexivity.
  - apply not_true_iff_false. intros T. apply (proj2 (c51_sessions _ _ z' _ _ b' P M Hb') _ R) in T.
    rewrite (plain_trades _ _ _ P) in T by reflexivity. vm_compute in T. discriminate T.
Qed.

(** Lisbon and Brussels on Christmas Eve of 2019. *)
Example c95_euronext_ex : exists z z' b b' u v,
  In ("Europe/Lisbon"%string, z) zones /\ In ("Europe/Brussels"%string, z') zones /\
  build_exchange exchange_calendar_xlis.calendar z (at_midnight_of (date_number 1990 1 1))
    (at_midnight_of (date_number 2020 12 31)) = Ok b /\
  build_exchange exchange_calendar_xbru.calendar z' (at_midnight_of (date_number 1990 1 1))
    (at_midnight_of (date_number 2020 12 31)) = Ok b' /\
  session_open (cal b) (at_midnight_of (date_number 2019 12 24)) = Ok u /\
  session_open (cal b') (at_midnight_of (date_number 2019 12 24)) = Ok u /\
  session_close (cal b) (at_midnight_of (date_number 2019 12 24)) = Ok v /\
  session_close (cal b') (at_midnight_of (date_number 2019 12 24)) = Ok v.
Proof.
  assert (H : In ("XLIS"%string, exchange_calendar_xlis.calendar) euronext) by (unfold euronext; cbn [In]; tauto).
  assert (H' : In ("XBRU"%string, exchange_calendar_xbru.calendar) euronext) by (unfold euronext; cbn [In]; tauto).
  pose proof (euronext_here _ _ H) as A. pose proof (euronext_here _ _ H') as P.
  assert (Ls : at_midnight_of (date_number 1990 1 11) <= at_midnight_of (date_number 2020 12 31))
    by (apply at_midnight_le, Z.leb_le; vm_compute; reflexivity).
  destruct (c53_default_range 1990 "XLIS" _ (at_midnight_of (date_number 2020 12 31)) (or_introl eq_refl) A)
    as [z [b [ss [Hz [Hb _]]]]]; [discriminate|exact Ls|intros n []|].
  destruct (c53_default_range 1990 "XBRU" _ (at_midnight_of (date_number 2020 12 31)) (or_introl eq_refl) P)
    as [z' [b' [ss' [Hz' [Hb' _]]]]]; [discriminate|exact Ls|intros n []|].
  assert (R : at_midnight_of (date_number 1990 1 1) <= at_midnight_of (date_number 2019 12 24) <=
    at_midnight_of (date_number 2020 12 31)) by day_le.
  assert (M : is_midnight (at_midnight_of (date_number 1990 1 1))) by (apply is_midnight_at; eauto).
  assert (Rep : not_a_time + 2 * one_day < at_midnight_of (date_number 1990 1 1))
    by (apply Z.ltb_lt; vm_compute; reflexivity).
  assert (L : date_number 2003 1 2 <= date_number 2019 12 24) by (apply Z.leb_le; vm_compute; reflexivity).
  assert (S : is_session (cal b) (at_midnight_of (date_number 2019 12 24)) = true).
  { apply (proj2 (c51_sessions _ _ z _ _ b A M Hb) _ R).
    rewrite (plain_trades _ _ _ A) by reflexivity. vm_compute. reflexivity. }
  destruct (c95_euronext _ _ z _ _ z' _ _ b b' _ H H' Hz Hz' Rep M Hb Hb' L R S) as [u [v [P1 [P2 [P3 P4]]]]].
  exists z, z', b, b', u, v. split; [exact Hz|]. split; [exact Hz'|]. split; [exact Hb|]. split; [exact Hb'|].
  split; [exact P1|]. split; [exact P2|]. split; [exact P3|exact P4].
Qed.

(** ** Assumptions *)
Print Assumptions c95_euronext_sessions.
Print Assumptions c95_euronext.
Print Assumptions c95_euronext_refuted.
