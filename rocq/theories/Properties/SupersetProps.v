(** Exchanges compared (C95). *)
From Coq Require Import ZArith String List Bool Lia Sorted.
From Verif.Model Require Import Base Dates Zone Queries Build Holidays Exchange.
From Verif.Spec Require Import Schedule Construction Civil Rules Feasts Venue Almanac Hours.
From Verif.Proofs Require Import BaseLemmas DatesLemmas ScheduleLemmas QueryLemmas BuildLemmas RuleLemmas
  ZoneLemmas ShapeLemmas VenueLemmas VenueSound VenueData SteadyLemmas.
From Verif.Properties Require Import QueryProps ExchangeProps HoursProps MarketProps LengthProps.
From Verif.Exchanges Require Import All zones.
Import ListNotations.
Open Scope Z_scope.

Lemma futures_here : In ("us_futures"%string, us_futures_calendar.calendar) exchanges.
Proof. apply here. reflexivity. Qed.
Lemma iepa_here : In ("IEPA"%string, exchange_calendar_iepa.calendar) exchanges.
Proof. apply here. reflexivity. Qed.
Lemma xcbf_here : In ("XCBF"%string, exchange_calendar_xcbf.calendar) exchanges.
Proof. apply here. reflexivity. Qed.
Lemma xetr_here : In ("XETR"%string, exchange_calendar_xetr.calendar) exchanges.
Proof. apply here. reflexivity. Qed.
Lemma xfra_here : In ("XFRA"%string, exchange_calendar_xfra.calendar) exchanges.
Proof. apply here. reflexivity. Qed.

(** The calendars that do stay within us_futures. *)
Definition within : list (string * exchange) :=
  [("CMES"%string, exchange_calendar_cmes.calendar);
   ("IEPA"%string, exchange_calendar_iepa.calendar);
   ("XNYS"%string, exchange_calendar_xnys.calendar)].
(** The one that does so on all days but Good Friday. *)
Definition american : list (string * exchange) :=
  (within ++ [("XCBF"%string, exchange_calendar_xcbf.calendar)])%list.

Lemma american_here : forall name E, In (name, E) american -> In (name, E) exchanges.
Proof.
  intros name E H. unfold american, within in H. cbn [app In] in H.
  destruct H as [H|[H|[H|[H|[]]]]]; injection H as <- <-;
    [exact cmes_here|exact iepa_here|exact xnys_here|exact xcbf_here].
Qed.
Lemma within_american : forall name E, In (name, E) within -> In (name, E) american.
Proof. intros name E H. apply in_app_iff. left. exact H. Qed.

(** ** Days *)

Lemma trades_plain : forall name E n, String.eqb name "XTAE" = false -> (trades name E n <-> open_day E n).
Proof. intros name E n H. unfold trades. rewrite H. tauto. Qed.

(** Whoever keeps all the holidays of another exchange trades only when it does. *)
Lemma rules_within : forall name E name' E' n, String.eqb name "XTAE" = false -> String.eqb name' "XTAE" = false ->
  ex_weekmask E = ex_weekmask E' ->
  (forall r, In r (ex_regular_holidays E') -> known_year n -> falls_on r n -> rule_holiday E n) ->
  incl (ex_adhoc_holidays E') (ex_adhoc_holidays E) ->
  trades name E n -> trades name' E' n.
Proof.
  intros name E name' E' n N N' Wm R A T. apply (trades_plain name' E' n N'). apply (trades_plain name E n N) in T.
  destruct T as [T1 [T2 T3]]. split; [rewrite <- Wm; exact T1|]. split.
  - intros [K [r [I F]]]. apply T2. exact (R r I K F).
  - intros H. apply T3, A, H.
Qed.

Lemma kept_also : forall E r n, In r (ex_regular_holidays E) -> known_year n -> falls_on r n -> rule_holiday E n.
Proof. intros E r n I K F. split; [exact K|]. exists r. tauto. Qed.

Lemma within_trades : forall name E n, In (name, E) within -> trades name E n ->
  trades "us_futures" us_futures_calendar.calendar n.
Proof.
  intros name E n H T.
  unfold within in H. cbn [In] in H.
  destruct H as [H|[H|[H|[]]]]; injection H as <- <-; revert T;
    (apply rules_within; [reflexivity|reflexivity|reflexivity| |intros x []]);
    intros r I K F; cbn [In us_futures_calendar.calendar ex_regular_holidays us_futures_calendar.regular_holidays] in I;
    destruct I as [<-|[<-|[<-|[]]]]; refine (kept_also _ _ _ _ K F); cbn [ex_regular_holidays exchange_calendar_cmes.calendar
      exchange_calendar_iepa.calendar exchange_calendar_xnys.calendar exchange_calendar_cmes.regular_holidays
      exchange_calendar_iepa.regular_holidays exchange_calendar_xnys.regular_holidays In]; tauto.
Qed.

Lemma good_friday_rule : forall n, falls_on GoodFriday n -> good_friday n.
Proof.
  intros n [[y [e [[_ [A _]] [f [B C]]]]] _]. cbn [moves moves_all] in *. unfold good_friday, easter_plus. subst n f.
  destruct A as [y' A]. exists y'. replace (e + -2 - -2) with e by lia. exact A.
Qed.

Lemma american_trades : forall name E n, In (name, E) american -> (name = "XCBF"%string -> ~ good_friday n) ->
  trades name E n -> trades "us_futures" us_futures_calendar.calendar n.
Proof.
  intros name E n H G T. apply in_app_iff in H. destruct H as [H|[H|[]]]; [exact (within_trades name E n H T)|].
  injection H as <- <-. specialize (G eq_refl). revert T.
  apply rules_within; [reflexivity|reflexivity|reflexivity| |intros x []].
  intros r I K F. cbn [In us_futures_calendar.calendar ex_regular_holidays us_futures_calendar.regular_holidays] in I.
  destruct I as [<-|[<-|[<-|[]]]].
  - refine (kept_also _ _ _ _ K F).
    cbn [ex_regular_holidays exchange_calendar_xcbf.calendar exchange_calendar_xcbf.regular_holidays In]. tauto.
  - exfalso. apply G. apply good_friday_rule. exact F.
  - refine (kept_also _ _ _ _ K F).
    cbn [ex_regular_holidays exchange_calendar_xcbf.calendar exchange_calendar_xcbf.regular_holidays In]. tauto.
Qed.

(** Every session of the CME, of ICE and of New York is a session of us_futures,
    whatever the ranges and the zones; and so is every session of the CFE that is
    not a Good Friday. *)
Theorem c95_sessions : forall name E z start stop b z' start' stop' f n, In (name, E) american ->
  (name = "XCBF"%string -> ~ good_friday n) ->
  is_midnight start -> build_exchange E z start stop = Ok b ->
  is_midnight start' -> build_exchange us_futures_calendar.calendar z' start' stop' = Ok f ->
  start <= at_midnight_of n <= stop -> start' <= at_midnight_of n <= stop' ->
  is_session (cal b) (at_midnight_of n) = true -> is_session (cal f) (at_midnight_of n) = true.
Proof.
  intros name E z start stop b z' start' stop' f n H G M Hb M' Hf R R' S.
  apply (proj2 (c51_sessions _ _ z' start' stop' f futures_here M' Hf) n R').
  apply (american_trades name E n H G).
  exact (proj1 (proj2 (c51_sessions name E z start stop b (american_here name E H) M Hb) n R) S).
Qed.

(** ** Chicago and New York *)

(** The table of a zone from instant [lo] on. *)
Fixpoint later (lo cur : Z) (trs : list (Z * Z)) : Z * list (Z * Z) :=
  match trs with
  | [] => (cur, [])
  | (t, o) :: rest => if t <=? lo then later lo o rest else (cur, trs)
  end.
Lemma later_ok : forall lo u trs cur, lo <= u ->
  offset_from cur trs u = offset_from (fst (later lo cur trs)) (snd (later lo cur trs)) u.
Proof.
  intros lo u trs. induction trs as [|[t o] rest IH]; intros cur L; [reflexivity|].
  cbn [later]. destruct (Z.leb_spec t lo) as [A|A]; [|reflexivity].
  cbn [offset_from]. destruct (Z.leb_spec t u) as [B|B]; [|lia]. apply IH. exact L.
Qed.
Lemma moved_table : forall d u trs cur,
  offset_from (cur - d) (map (fun p => (fst p + d, snd p - d)) trs) u = offset_from cur trs (u - d) - d.
Proof.
  intros d u trs. induction trs as [|[t o] rest IH]; intros cur; [reflexivity|].
  cbn [map offset_from fst snd].
  destruct (Z.leb_spec (t + d) u) as [A|A], (Z.leb_spec t (u - d)) as [B|B]; try lia. apply IH.
Qed.

Definition an_hour : Z := 60 * one_minute.

(** From the end of 1969 on the clocks of Chicago are changed an hour after those of New York. *)
Lemma chicago_table : 
  let lo := at_midnight_of (date_number 1969 12 1) in
  let N := later lo (initial_offset America_New_York) (transitions America_New_York) in
  later (lo + an_hour) (initial_offset America_Chicago) (transitions America_Chicago) =
  (fst N - an_hour, map (fun p => (fst p + an_hour, snd p - an_hour)) (snd N)).
Proof. vm_compute. reflexivity. Qed.

Lemma chicago_later : forall u, at_midnight_of (date_number 1969 12 1) + an_hour <= u ->
  offset_at America_Chicago u = offset_at America_New_York (u - an_hour) - an_hour.
Proof.
  intros u L. pose proof chicago_table as Q. cbv zeta in Q. unfold offset_at.
  rewrite (later_ok _ u (transitions America_Chicago) _ L), Q. cbn [fst snd]. rewrite moved_table.
  rewrite <- later_ok; [reflexivity|]. lia.
Qed.

(** What the clocks of New York show when those of the exchange show a time. *)
Definition lag (E : exchange) : Z := if String.eqb (ex_tz E) "America/Chicago" then an_hour else 0.

(** From an hour before us_futures opens till it closes. *)
Definition wide : exchange := Exchange "America/New_York" weekmask_default [] []
  [(None, Time 17 1 0)] None None [(None, Time 18 0 0)] (-1) 0 [] [] [] [].
Lemma wide_steady : steady wide America_New_York (date_number 1970 1 1) = true.
Proof. vm_compute. reflexivity. Qed.
Definition first_tod : Z := tod (-1) (Time 18 1 0).
Definition last_tod : Z := tod 0 (Time 18 0 0).
Lemma wide_window : window_start wide = first_tod - an_hour /\ last_time wide = last_tod.
Proof. split; vm_compute; reflexivity. Qed.

Lemma new_york : In ("America/New_York"%string, America_New_York) zones.
Proof. unfold zones. cbn [In]. tauto. Qed.
Lemma chicago : In ("America/Chicago"%string, America_Chicago) zones.
Proof. unfold zones. cbn [In]. tauto. Qed.

Lemma american_zone : forall name E z, In (name, E) american -> In (ex_tz E, z) zones ->
  (z = America_New_York /\ lag E = 0) \/ (z = America_Chicago /\ lag E = an_hour).
Proof.
  intros name E z H Hz. unfold american, within in H. cbn [app In] in H.
  destruct H as [H|[H|[H|[H|[]]]]]; injection H as <- <-.
  - right. split; [exact (zones_unique _ _ _ Hz chicago)|reflexivity].
  - left. split; [exact (zones_unique _ _ _ Hz new_york)|reflexivity].
  - left. split; [exact (zones_unique _ _ _ Hz new_york)|reflexivity].
  - right. split; [exact (zones_unique _ _ _ Hz chicago)|reflexivity].
Qed.

Lemma american_clocks : forallb (fun p => forallb (fun q =>
    (first_tod <=? tod (fst q) (snd q) + lag (snd p)) && (tod (fst q) (snd q) + lag (snd p) <=? last_tod) &&
    ((tod (fst q) (snd q) + lag (snd p) - first_tod) mod one_minute =? 0))
  (clock_times (snd p))) american = true.
Proof. vm_compute. reflexivity. Qed.
Lemma american_time : forall name E k t, In (name, E) american -> In (k, t) (clock_times E) ->
  first_tod <= tod k t + lag E <= last_tod /\ (one_minute | tod k t + lag E - first_tod).
Proof.
  intros name E k t H I. pose proof american_clocks as Q. rewrite forallb_forall in Q. specialize (Q _ H).
  cbv beta in Q. rewrite forallb_forall in Q. specialize (Q _ I). cbn [fst snd] in Q.
  rewrite !andb_true_iff in Q. destruct Q as [[Q1 Q2] Q3]. split; [lia|].
  apply Z.mod_divide; [pose proof one_minute_pos; lia|]. apply Z.eqb_eq. exact Q3.
Qed.

Lemma new_york_good : good_zone America_New_York.
Proof. destruct (clocks_1950 _ _ _ futures_here new_york) as [lo [[G _] _]]. exact G. Qed.

(** An instant at which the clocks of Chicago or New York show [x] on a weekday is as
    long after the opening of us_futures as the clocks of New York tell. *)
Lemma since_opening : forall name E z n x u w, In (name, E) american -> In (ex_tz E, z) zones ->
  date_number 1970 1 1 <= n -> weekday_open wide n = true ->
  first_tod <= x + lag E <= last_tod ->
  wall_clock z u = at_midnight_of n + x -> wall_clock America_New_York w = at_midnight_of n + first_tod ->
  u - w = x + lag E - first_tod.
Proof.
  intros name E z n x u w H Hz Hn W B U V.
  assert (G : good_zone z).
  { destruct (clocks_1950 _ _ _ (american_here _ _ H) Hz) as [lo [[G _] _]]. exact G. }
  assert (Lag : 0 <= lag E <= an_hour).
  { unfold lag. destruct (String.eqb _ _); unfold an_hour; pose proof one_minute_pos; lia. }
  assert (Q : wall_clock America_New_York (u - lag E) = at_midnight_of n + x).
  { destruct (american_zone name E z H Hz) as [[-> ->]|[-> ->]].
    - rewrite Z.sub_0_r. exact U.
    - unfold wall_clock in *. rewrite chicago_later in U; [lia|].
      pose proof (good_zone_offset _ u G) as [K _].
      assert (L : at_midnight_of (date_number 1969 12 1) + an_hour + 4 * one_day <= at_midnight_of (date_number 1970 1 1))
        by (apply Z.leb_le; vm_compute; reflexivity).
      assert (L2 : at_midnight_of (date_number 1970 1 1) <= at_midnight_of n) by (apply at_midnight_le; exact Hn).
      assert (L3 : - one_day <= first_tod) by (apply Z.leb_le; vm_compute; reflexivity).
      assert (L4 : an_hour < one_day) by (apply Z.ltb_lt; vm_compute; reflexivity).
      rewrite ?NPD_one_day in K. lia. }
  destruct wide_window as [W1 W2].
  assert (F : first_tod <= last_tod) by lia.
  assert (O : offset_at America_New_York (u - lag E) = offset_at America_New_York w).
  { destruct (Z.le_ge_cases (u - lag E) w) as [L|L].
    - apply (steady_same wide America_New_York (date_number 1970 1 1) n (u - lag E) w x first_tod wide_steady
        new_york_good Hn W); rewrite ?W1, ?W2; try lia; assumption.
    - symmetry.
      apply (steady_same wide America_New_York (date_number 1970 1 1) n w (u - lag E) first_tod x wide_steady
        new_york_good Hn W); rewrite ?W1, ?W2; try lia; assumption. }
  unfold wall_clock in Q, V. lia.
Qed.

(** ** Minutes *)

Lemma special_closing_listed : forall E n t, special_closing E n t -> In (0, t) (clock_times E).
Proof. intros E n t A. apply special_clock_time, closes_clock, (closing_In E n). exact A. Qed.

(** The opening and the closing of a session are times of day of the exchange. *)
Lemma opens_listed : forall name E z start stop n u, In (name, E) american -> opens_at E z start stop n u ->
  exists k t, In (k, t) (clock_times E) /\ instant_of z (local_time (at_midnight_of n) k t) u.
Proof.
  intros name E z start stop n u H [[t [A _]]|[_ [t [A B]]]].
  - exfalso. destruct A as [[rs [r [A _]]]|[ds [A _]]];
      unfold american, within in H; cbn [app In] in H;
      destruct H as [H|[H|[H|[H|[]]]]]; injection H as <- <-; exact A.
  - exists (ex_open_offset E), t. split; [exact (open_time_listed E n t A)|exact B].
Qed.
Lemma closes_listed : forall E z start stop n u, closes_at E z start stop n u ->
  exists k t, In (k, t) (clock_times E) /\ instant_of z (local_time (at_midnight_of n) k t) u.
Proof.
  intros E z start stop n u [[t [A [B _]]]|[_ [t [A B]]]].
  - exists 0, t. split; [exact (special_closing_listed E n t A)|exact B].
  - exists (ex_close_offset E), t. split; [exact (close_time_listed E n t A)|exact B].
Qed.

Lemma futures_opens : forall z start stop n u, opens_at us_futures_calendar.calendar z start stop n u ->
  instant_of z (at_midnight_of n + first_tod) u.
Proof.
  intros z start stop n u [[t [[[rs [r [[] _]]]|[ds [[] _]]] _]]|[_ [t [A B]]]].
  pose proof (in_force_In _ n t A) as [<-|[]]. rewrite tod_local in B. exact B.
Qed.
Lemma futures_closes : forall z start stop n u, closes_at us_futures_calendar.calendar z start stop n u ->
  instant_of z (at_midnight_of n + last_tod) u.
Proof.
  intros z start stop n u [[t [[[rs [r [[] _]]]|[ds [[] _]]] _]]|[_ [t [A B]]]].
  pose proof (in_force_In _ n t A) as [<-|[]]. rewrite tod_local in B. exact B.
Qed.

Lemma futures_weekday : forall name n, trades name us_futures_calendar.calendar n -> weekday_open wide n = true.
Proof. intros name n T. apply trades_weekday in T. exact T. Qed.

(** A row of an exchange lies within the row of us_futures with the same label. *)
Lemma row_within : forall name E z start stop s z' start' stop' s' n, In (name, E) american ->
  In (ex_tz E, z) zones -> In ("America/New_York"%string, z') zones -> date_number 1970 1 1 <= n ->
  s_label s = at_midnight_of n -> s_label s' = at_midnight_of n ->
  venue_row name E z start stop s -> venue_row "us_futures" us_futures_calendar.calendar z' start' stop' s' ->
  s_open s' <= s_open s /\ s_close s <= s_close s' /\ (one_minute | s_open s - s_open s') /\ s_break s' = None /\
  s_break s = None.
Proof.
  intros name E z start stop s z' start' stop' s' n H Hz Hz' Hn L L' [m [Lm [_ [T [O [C [B _]]]]]]]
    [m' [Lm' [_ [T' [O' [C' [B' _]]]]]]].
  rewrite L in Lm. rewrite L' in Lm'. apply at_midnight_inj in Lm, Lm'. subst m m'.
  pose proof (futures_weekday _ _ T') as W.
  pose proof (zones_unique _ _ _ Hz' new_york) as ->.
  apply futures_opens in O'. apply futures_closes in C'. destruct O' as [O' _]. destruct C' as [C' _].
  destruct (opens_listed name E z start stop n _ H O) as [k [t [I [U _]]]].
  destruct (closes_listed E z start stop n _ C) as [k2 [t2 [I2 [V _]]]].
  rewrite tod_local in U, V.
  destruct (american_time name E k t H I) as [R1 D1]. destruct (american_time name E k2 t2 H I2) as [R2 _].
  pose proof (since_opening name E z n _ _ _ H Hz Hn W R1 U O') as Q1.
  pose proof (since_opening name E z n _ _ _ H Hz Hn W R2 V O') as Q2.
  assert (Q3 : s_close s' - s_open s' = last_tod + 0 - first_tod).
  { apply (since_opening "IEPA" exchange_calendar_iepa.calendar America_New_York n last_tod _ _);
      [right; left; reflexivity|exact new_york|exact Hn|exact W| |exact C'|exact O'].
    change (lag exchange_calendar_iepa.calendar) with 0. lia. }
  split; [lia|]. split; [lia|]. split; [rewrite Q1; exact D1|]. split.
  - destruct (s_break s') as [[bs be]|]; [|reflexivity]. destruct B' as [_ [ts [B' _]]]. discriminate B'.
  - destruct (s_break s) as [[bs be]|]; [|reflexivity]. destruct B as [_ [ts [B _]]].
    exfalso. unfold american, within in H. cbn [app In] in H.
    destruct H as [H|[H|[H|[H|[]]]]]; injection H as <- <-; discriminate B.
Qed.

(** Every minute of a session of these exchanges from 1970 on, on the clocks of its
    city, is a minute of the session of us_futures of that day, also in the weeks in
    which the clocks are changed. *)
Theorem c95_minutes : forall name E z start stop b z' start' stop' f n, In (name, E) american ->
  (name = "XCBF"%string -> ~ good_friday n) ->
  In (ex_tz E, z) zones -> In ("America/New_York"%string, z') zones ->
  not_a_time + 2 * one_day < start -> is_midnight start -> build_exchange E z start stop = Ok b ->
  not_a_time + 2 * one_day < start' -> is_midnight start' ->
  build_exchange us_futures_calendar.calendar z' start' stop' = Ok f ->
  date_number 1970 1 1 <= n ->
  start <= at_midnight_of n <= stop -> start' <= at_midnight_of n <= stop' ->
  is_session (cal b) (at_midnight_of n) = true ->
  exists l l', minutes_for_session (cal b) (at_midnight_of n) = Ok l /\
    minutes_for_session (cal f) (at_midnight_of n) = Ok l' /\ l <> [] /\ incl l l'.
Proof.
  intros name E z start stop b z' start' stop' f n H G Hz Hz' Rep M Hb Rep' M' Hf Hn R R' S.
  pose proof (american_here name E H) as HE.
  assert (T : trades name E n)
    by exact (proj1 (proj2 (c51_sessions name E z start stop b HE M Hb) n R) S).
  pose proof (american_trades name E n H G T) as T'.
  destruct (clocks_1950 name E z HE Hz) as [lo [[Gz _] _]].
  destruct (clocks_1950 _ _ z' futures_here Hz') as [lo' [[Gz' _] _]].
  destruct (day_row name E z start stop b n HE Gz Rep M Hb R T) as [s [l [W1 [W2 [V [Es [P1 [P2 [P3 [P4 P5]]]]]]]]]].
  destruct (day_row _ _ z' start' stop' f n futures_here Gz' Rep' M' Hf R' T')
    as [s' [l' [W1' [W2' [V' [Es' [P1' [P2' [P3' [P4' P5']]]]]]]]]].
  exists l, l'. split; [exact P4|]. split; [exact P4'|].
  destruct (row_within name E z start stop s z' start' stop' s' n H Hz Hz' Hn Es Es' V V')
    as [A1 [A2 [A3 [A4 A5]]]].
  destruct P5 as [_ P5]. destruct P5' as [_ P5'].
  unfold session_minute in P5, P5'. rewrite A4 in P5'. rewrite A5 in P5.
  unfold ordered_session in W1. rewrite A5 in W1. split.
  - intros ->. destruct (proj2 (P5 (s_open s))). split; [lia|]. exists 0. lia.
  - intros x Hx. apply P5 in Hx. apply P5'. destruct Hx as [X1 X2]. split; [lia|].
    replace (x - s_open s') with ((x - s_open s) + (s_open s - s_open s')) by lia.
    apply Z.divide_add_r; assumption.
Qed.

(** Whenever the CME, ICE or New York is open, us_futures is open too. *)
Theorem c95_open : forall name E z z' start stop b f t ignore_breaks, In (name, E) within ->
  In (ex_tz E, z) zones -> In ("America/New_York"%string, z') zones ->
  at_midnight_of (date_number 1970 1 1) <= start -> is_midnight start ->
  build_exchange E z start stop = Ok b ->
  build_exchange us_futures_calendar.calendar z' start stop = Ok f ->
  is_open_on_minute (cal b) t ignore_breaks = Ok true ->
  is_open_on_minute (cal f) t ignore_breaks = Ok true.
Proof.
  intros name E z z' start stop b f t ib Hw Hz Hz' L M Hb Hf Q.
  pose proof (within_american name E Hw) as H. pose proof (american_here name E H) as HE.
  assert (Rep : not_a_time + 2 * one_day < start).
  { apply since_1950. eapply Z.le_trans; [|exact L]. apply at_midnight_le, Z.leb_le. vm_compute. reflexivity. }
  destruct (clocks_1950 name E z HE Hz) as [lo [[Gz _] _]].
  destruct (clocks_1950 _ _ z' futures_here Hz') as [lo' [[Gz' _] _]].
  destruct (c52_rows name E z start stop b HE Gz Rep M Hb) as [ss [A [B [C F]]]].
  destruct (c52_rows _ _ z' start stop f futures_here Gz' Rep M Hf) as [ss' [A' [B' [C' F']]]].
  destruct (c02_is_open_on_minute ss (cal b) t ib B A) as [r [Qr Hr]].
  rewrite Q in Qr. injection Qr as <-. destruct (proj1 Hr eq_refl) as [s [Hs [D _]]].
  destruct (c02_is_open_on_minute ss' (cal f) t ib B' A') as [r' [Qr' Hr']].
  rewrite Qr'. f_equal. apply Hr'.
  pose proof (F s Hs) as V. destruct V as [n [Es [R [T V]]]].
  assert (V2 : venue_row name E z start stop s) by (exists n; tauto). clear V.
  assert (Hn : date_number 1970 1 1 <= n) by (apply at_midnight_le; lia).
  pose proof (within_trades name E n Hw T) as T'.
  assert (Q' : is_label_of ss' (at_midnight_of n)) by (apply C'; exists n; tauto).
  destruct Q' as [s' [Hs' Es']]. exists s'. split; [exact Hs'|].
  destruct (row_within name E z start stop s z' start stop s' n H Hz Hz' Hn Es (eq_sym Es') V2 (F' s' Hs'))
    as [A1 [A2 [A3 [A4 A5]]]].
  unfold during in *. split; [lia|]. right. right. unfold in_break. rewrite A4. tauto.
Qed.

(** ** The CME *)

Lemma cmes_american : In ("CMES"%string, exchange_calendar_cmes.calendar) american.
Proof. left. reflexivity. Qed.

(** The sessions of the CME and of us_futures open at the same instant, and close at
    the same instant unless the CME closes early. *)
Theorem c95_cme : forall z start stop b z' start' stop' f n,
  In ("America/Chicago"%string, z) zones -> In ("America/New_York"%string, z') zones ->
  not_a_time + 2 * one_day < start -> is_midnight start ->
  build_exchange exchange_calendar_cmes.calendar z start stop = Ok b ->
  not_a_time + 2 * one_day < start' -> is_midnight start' ->
  build_exchange us_futures_calendar.calendar z' start' stop' = Ok f ->
  date_number 1970 1 1 <= n ->
  start <= at_midnight_of n <= stop -> start' <= at_midnight_of n <= stop' ->
  is_session (cal b) (at_midnight_of n) = true ->
  exists u v v', session_open (cal b) (at_midnight_of n) = Ok u /\
    session_open (cal f) (at_midnight_of n) = Ok u /\
    session_close (cal b) (at_midnight_of n) = Ok v /\ session_close (cal f) (at_midnight_of n) = Ok v' /\
    ((forall t, ~ special_closing exchange_calendar_cmes.calendar n t) -> v = v') /\
    (v = v' \/ v = v' - 5 * an_hour).
Proof.
  intros z start stop b z' start' stop' f n Hz Hz' Rep M Hb Rep' M' Hf Hn R R' S.
  assert (T : trades "CMES" exchange_calendar_cmes.calendar n)
    by exact (proj1 (proj2 (c51_sessions _ _ z start stop b cmes_here M Hb) n R) S).
  assert (T' : trades "us_futures" us_futures_calendar.calendar n)
    by (apply (within_trades "CMES" exchange_calendar_cmes.calendar); [left; reflexivity|exact T]).
  destruct (clocks_1950 _ _ z cmes_here Hz) as [lo [[Gz _] _]].
  destruct (clocks_1950 _ _ z' futures_here Hz') as [lo' [[Gz' _] _]].
  destruct (times_of_day _ _ z start stop b n cmes_here Gz Rep M Hb R T) as [u [v [bs [be [P1 [O [P2 [C _]]]]]]]].
  destruct (times_of_day _ _ z' start' stop' f n futures_here Gz' Rep' M' Hf R' T')
    as [u' [v' [bs' [be' [P1' [O' [P2' [C' _]]]]]]]].
  pose proof (futures_weekday _ _ T') as W. pose proof (zones_unique _ _ _ Hz' new_york) as ->.
  apply futures_opens in O'. apply futures_closes in C'. destruct O' as [O' _]. destruct C' as [C' _].
  assert (Q3 : v' - u' = last_tod + 0 - first_tod).
  { apply (since_opening "IEPA" exchange_calendar_iepa.calendar America_New_York n last_tod _ _);
      [right; left; reflexivity|exact new_york|exact Hn|exact W| |exact C'|exact O'].
    change (lag exchange_calendar_iepa.calendar) with 0.
    assert (first_tod <= last_tod) by (apply Z.leb_le; vm_compute; reflexivity). lia. }
  assert (K : forall k t w, In (k, t) (clock_times exchange_calendar_cmes.calendar) ->
    instant_of z (local_time (at_midnight_of n) k t) w -> w - u' = tod k t + an_hour - first_tod).
  { intros k t w I [B _]. rewrite tod_local in B.
    destruct (american_time _ _ k t cmes_american I) as [R1 _].
    exact (since_opening _ _ z n _ _ _ cmes_american Hz Hn W R1 B O'). }
  exists u, v, v'.
  assert (Eu : u = u').
  { destruct O as [[t [[[rs [r [[] _]]]|[ds [[] _]]] _]]|[_ [t [A B]]]].
    pose proof (open_time_listed _ n t A) as I. pose proof (in_force_In _ n t A) as [<-|[]].
    specialize (K _ _ u I B). cbn [snd] in K.
    change (tod (ex_open_offset exchange_calendar_cmes.calendar) (Time 17 1 0) + an_hour - first_tod) with 0 in K. lia. }
  subst u'. split; [exact P1|]. split; [exact P1'|]. split; [exact P2|]. split; [exact P2'|].
  assert (D : v = v' \/ (exists t, special_closing exchange_calendar_cmes.calendar n t) /\ v = v' - 5 * an_hour).
  { destruct C as [[t [A [B _]]]|[_ [t [A B]]]].
    - right. split; [exists t; exact A|]. pose proof (special_closing_listed _ n t A) as I.
      pose proof (closing_In _ n t A) as [<-|[]]. specialize (K _ _ v I B). cbn [fst] in K.
      change (tod 0 (Time 12 0 0) + an_hour - first_tod) with (last_tod + 0 - first_tod - 5 * an_hour) in K.
      lia.
    - left. pose proof (close_time_listed _ n t A) as I. pose proof (in_force_In _ n t A) as [<-|[]].
      specialize (K _ _ v I B). cbn [snd] in K.
      change (tod (ex_close_offset exchange_calendar_cmes.calendar) (Time 17 0 0) + an_hour - first_tod)
        with (last_tod + 0 - first_tod) in K. lia. }
  split; [|tauto]. intros N. destruct D as [D|[[t D] _]]; [exact D|]. exfalso. exact (N t D).
Qed.

(** ** The CFE *)

Lemma table_bounds : forall z a c u,
  forallb (fun o => (a <=? o) && (o <=? c)) (initial_offset z :: map snd (transitions z)) = true ->
  a <= offset_at z u <= c.
Proof.
  intros z a c u F. rewrite forallb_forall in F. specialize (F _ (offset_at_In z u)).
  apply andb_true_iff in F. lia.
Qed.

Definition the_day : Z := date_number 2015 4 3.
(** 11 o'clock in New York. *)
Definition the_instant : Z := at_midnight_of the_day + 15 * an_hour.

(** us_futures is not the superset of all US futures exchanges that its documentation
    promises: on Good Friday 2015 the CFE traded, and us_futures was closed. *)
Theorem c95_superset_refuted : exists z b z' f,
  In ("America/Chicago"%string, z) zones /\ In ("America/New_York"%string, z') zones /\
  build_exchange exchange_calendar_xcbf.calendar z (at_midnight_of (date_number 2000 1 1))
    (at_midnight_of (date_number 2020 12 31)) = Ok b /\
  build_exchange us_futures_calendar.calendar z' (at_midnight_of (date_number 2000 1 1))
    (at_midnight_of (date_number 2020 12 31)) = Ok f /\
  is_session (cal b) (at_midnight_of (date_number 2015 4 3)) = true /\
  is_session (cal f) (at_midnight_of (date_number 2015 4 3)) = false /\
  is_open_on_minute (cal b) (at_midnight_of (date_number 2015 4 3) + 15 * (60 * one_minute)) false = Ok true /\
  is_open_on_minute (cal f) (at_midnight_of (date_number 2015 4 3) + 15 * (60 * one_minute)) false = Ok false.
Proof.
  assert (Ls : at_midnight_of (date_number 2000 1 11) <= at_midnight_of (date_number 2020 12 31))
    by (apply at_midnight_le, Z.leb_le; vm_compute; reflexivity).
  destruct (c53_default_range 2000 "XCBF" _ (at_midnight_of (date_number 2020 12 31)) (or_intror (or_introl eq_refl)) xcbf_here)
    as [z [b [ss [Hz [Hb [A [B [C F]]]]]]]]; [discriminate|exact Ls|intros n []|].
  destruct (c53_default_range 2000 "us_futures" _ (at_midnight_of (date_number 2020 12 31)) (or_intror (or_introl eq_refl)) futures_here)
    as [z' [f [ss' [Hz' [Hf [A' [B' [C' F']]]]]]]]; [discriminate|exact Ls|intros n []|].
  exists z, b, z', f. split; [exact Hz|]. split; [exact Hz'|]. split; [exact Hb|]. split; [exact Hf|].
  fold the_day. change (60 * one_minute) with an_hour. fold the_instant.
  assert (R : at_midnight_of (date_number 2000 1 1) <= at_midnight_of the_day <=
    at_midnight_of (date_number 2020 12 31)) by day_le.
  assert (M : is_midnight (at_midnight_of (date_number 2000 1 1))) by (apply is_midnight_at; eauto).
  assert (T : trades "XCBF" exchange_calendar_xcbf.calendar the_day).
  { rewrite (plain_trades _ _ _ xcbf_here) by reflexivity. vm_compute. reflexivity. }
  assert (T' : ~ trades "us_futures" us_futures_calendar.calendar the_day).
  { rewrite (plain_trades _ _ _ futures_here) by reflexivity. vm_compute. discriminate. }
  split; [exact (proj2 (proj2 (c51_sessions _ _ z _ _ b xcbf_here M Hb) _ R) T)|]. split.
  { destruct (is_session (cal f) (at_midnight_of the_day)) eqn:E; [|reflexivity].
    exfalso. exact (T' (proj1 (proj2 (c51_sessions _ _ z' _ _ f futures_here M Hf) _ R) E)). }
  pose proof (zones_unique _ _ _ Hz chicago) as ->. pose proof (zones_unique _ _ _ Hz' new_york) as ->.
  split.
  - destruct (c02_is_open_on_minute ss (cal b) the_instant false B A) as [r [Q H]]. rewrite Q. f_equal. apply H.
    assert (L : is_label_of ss (at_midnight_of the_day)) by (apply C; exists the_day; tauto).
    destruct L as [s [Hs Es]]. exists s. split; [exact Hs|].
    destruct (F s Hs) as [m [Em [_ [_ [O [Cl [Br _]]]]]]]. rewrite <- Es in Em. apply at_midnight_inj in Em. subst m.
    assert (Nb : s_break s = None).
    { destruct (s_break s) as [[bs be]|]; [|reflexivity]. destruct Br as [_ [ts [Br _]]]. discriminate Br. }
    unfold during, in_break. rewrite Nb. split; [|right; right; tauto].
    assert (O1 : s_open s = at_midnight_of the_day + (13 * 60 + 31) * one_minute).
    { destruct O as [[t [[[rs [r' [[] _]]]|[ds [[] _]]] _]]|[_ [t [U V]]]].
      pose proof (in_force_In _ _ t U) as [<-|[]]. symmetry. apply V. vm_compute. reflexivity. }
    assert (C1 : s_close s = at_midnight_of the_day + (17 * 60 + 15) * one_minute \/
                 s_close s = at_midnight_of the_day + (20 * 60 + 15) * one_minute).
    { destruct Cl as [[t [U [V _]]]|[_ [t [U V]]]].
      - left. pose proof (closing_In _ _ t U) as [<-|[]]. symmetry. apply V. vm_compute. reflexivity.
      - right. pose proof (in_force_In _ _ t U) as [<-|[]]. symmetry. apply V. vm_compute. reflexivity. }
    unfold the_instant, an_hour. pose proof one_minute_pos. lia.
  - destruct (c02_is_open_on_minute ss' (cal f) the_instant false B' A') as [r [Q H]]. rewrite Q. f_equal.
    destruct r; [|reflexivity]. exfalso. destruct (proj1 H eq_refl) as [s [Hs [D _]]].
    destruct (F' s Hs) as [n [En [_ [Tn [O [Cl _]]]]]].
    apply futures_opens in O. apply futures_closes in Cl. destruct O as [O _]. destruct Cl as [Cl _].
    assert (Bd : forall u, -5 * an_hour <= offset_at America_New_York u <= -4 * an_hour)
      by (intros u; apply table_bounds; vm_compute; reflexivity).
    pose proof (Bd (s_open s)) as B1. pose proof (Bd (s_close s)) as B2.
    unfold wall_clock in O, Cl. unfold during, the_instant in D.
    assert (n = the_day); [|subst n; exact (T' Tn)].
    unfold at_midnight_of in *.
    change first_tod with (- (6 * an_hour) + one_minute) in O. change last_tod with (18 * an_hour) in Cl.
    change one_day with (24 * an_hour) in *. pose proof one_minute_pos. unfold an_hour in *.
    assert (n * 24 < the_day * 24 + 24) by nia. assert (the_day * 24 - 24 < n * 24) by nia. lia.
Qed.

(** ** Frankfurt and Xetra *)

Lemma frankfurt_trades : forall n,
  trades "XETR" exchange_calendar_xetr.calendar n <-> trades "XFRA" exchange_calendar_xfra.calendar n.
Proof. intros n. unfold trades. cbn [String.eqb Ascii.eqb Bool.eqb]. reflexivity. Qed.

(** The exchanges of Frankfurt have the same sessions, whatever the ranges and zones. *)
Theorem c95_frankfurt_sessions : forall z start stop b z' start' stop' f n, 
  is_midnight start -> build_exchange exchange_calendar_xetr.calendar z start stop = Ok b ->
  is_midnight start' -> build_exchange exchange_calendar_xfra.calendar z' start' stop' = Ok f ->
  start <= at_midnight_of n <= stop -> start' <= at_midnight_of n <= stop' ->
  is_session (cal b) (at_midnight_of n) = is_session (cal f) (at_midnight_of n).
Proof.
  intros z start stop b z' start' stop' f n M Hb M' Hf R R'.
  apply eq_true_iff_eq.
  rewrite (proj2 (c51_sessions _ _ z start stop b xetr_here M Hb) n R),
    (proj2 (c51_sessions _ _ z' start' stop' f xfra_here M' Hf) n R').
  apply frankfurt_trades.
Qed.

Lemma frankfurt_closing : forall n t, special_closing exchange_calendar_xetr.calendar n t ->
  t = Time 14 0 0 /\ special_closing exchange_calendar_xfra.calendar n (Time 12 30 0).
Proof.
  intros n t [[rs [r [[A|[]] [B C]]]]|[ds [[] _]]]. injection A as <- <-. split; [reflexivity|].
  left. exists [exchange_calendar_xfra.LastWorkingDay], r. split; [left; reflexivity|]. split; [exact B|exact C].
Qed.
Lemma frankfurt_closing' : forall n t, special_closing exchange_calendar_xfra.calendar n t -> t = Time 12 30 0.
Proof. intros n t [[rs [r [[A|[]] _]]]|[ds [[] _]]]. injection A as <- <-. reflexivity. Qed.

Lemma cet_bounds : forall u, 0 <= offset_at CET u <= 2 * an_hour.
Proof. intros u. apply table_bounds. vm_compute. reflexivity. Qed.
Lemma cet_here : In ("CET"%string, CET) zones.
Proof. unfold zones. cbn [In]. tauto. Qed.

(** They open together, and from 1950 on the floor closes when Xetra does, or
    earlier. *)
Theorem c95_frankfurt : forall z start stop b f n, In ("CET"%string, z) zones ->
  not_a_time + 2 * one_day < start -> is_midnight start ->
  build_exchange exchange_calendar_xetr.calendar z start stop = Ok b ->
  build_exchange exchange_calendar_xfra.calendar z start stop = Ok f ->
  date_number 1950 1 1 <= n -> start <= at_midnight_of n <= stop ->
  is_session (cal b) (at_midnight_of n) = true ->
  exists u v v', session_open (cal b) (at_midnight_of n) = Ok u /\
    session_open (cal f) (at_midnight_of n) = Ok u /\
    session_close (cal b) (at_midnight_of n) = Ok v /\ session_close (cal f) (at_midnight_of n) = Ok v' /\
    v' <= v /\ ((forall t, ~ special_closing exchange_calendar_xetr.calendar n t) -> v' = v).
Proof.
  intros z start stop b f n Hz Rep M Hb Hf Hn R S.
  assert (T : trades "XETR" exchange_calendar_xetr.calendar n)
    by exact (proj1 (proj2 (c51_sessions _ _ z start stop b xetr_here M Hb) n R) S).
  pose proof (proj1 (frankfurt_trades n) T) as T'.
  destruct (clocks_1950 _ _ z xetr_here Hz) as [lo [[Gz _] _]].
  destruct (clocks_1950 _ _ z xfra_here Hz) as [lo' [[_ [Ex _]] Hlo']].
  destruct (times_of_day _ _ z start stop b n xetr_here Gz Rep M Hb R T) as [u [v [bs [be [P1 [O [P2 [C _]]]]]]]].
  destruct (times_of_day _ _ z start stop f n xfra_here Gz Rep M Hf R T')
    as [u' [v' [bs' [be' [P1' [O' [P2' [C' _]]]]]]]].
  exists u, v, v'. split; [exact P1|].
  assert (Eu : u' = u).
  { destruct O as [[t [[[rs [r [[] _]]]|[ds [[] _]]] _]]|[_ [t [A B]]]].
    destruct O' as [[t' [[[rs [r [[] _]]]|[ds [[] _]]] _]]|[_ [t' [A' B']]]].
    pose proof (in_force_In _ n t A) as [<-|[]]. pose proof (in_force_In _ n t' A') as [<-|[]].
    apply B. apply B'. }
  subst u'. split; [exact P1'|]. split; [exact P2|]. split; [exact P2'|].
  pose proof (place_steady _ _ z xetr_here Hz) as St. pose proof (trades_weekday _ _ n T) as W.
  assert (K : forall x y a c, tod 0 (Time 9 1 0) <= x <= y -> y <= tod 0 (Time 17 30 0) ->
    wall_clock z a = at_midnight_of n + x -> wall_clock z c = at_midnight_of n + y -> c - a = y - x).
  { intros x y a c X Y Wa Wc.
    assert (Q : offset_at z a = offset_at z c).
    { assert (Win : window_start exchange_calendar_xetr.calendar = tod 0 (Time 9 1 0) /\
        last_time exchange_calendar_xetr.calendar = tod 0 (Time 17 30 0)) by (split; vm_compute; reflexivity).
      destruct Win as [W1 W2]. destruct (Z.le_ge_cases a c) as [L|L].
      - apply (steady_same _ z _ n a c x y St Gz Hn W); rewrite ?W1, ?W2; try lia; assumption.
      - symmetry. apply (steady_same _ z _ n c a y x St Gz Hn W); rewrite ?W1, ?W2; try lia; assumption. }
    unfold wall_clock in Wa, Wc. lia. }
  assert (L1 : tod 0 (Time 9 1 0) <= tod 0 (Time 12 30 0)) by (apply Z.leb_le; vm_compute; reflexivity).
  assert (L2 : tod 0 (Time 12 30 0) <= tod 0 (Time 14 0 0)) by (apply Z.leb_le; vm_compute; reflexivity).
  assert (L3 : tod 0 (Time 14 0 0) <= tod 0 (Time 17 30 0)) by (apply Z.leb_le; vm_compute; reflexivity).
  destruct C as [[t [A [B Rg]]]|[Ne [t [A B]]]].
  - split.
    + destruct (frankfurt_closing n t A) as [-> A2].
      assert (I : In (0, Time 12 30 0) (clock_times exchange_calendar_xfra.calendar))
        by exact (special_closing_listed _ n _ A2).
      destruct (Ex _ _ n I ltac:(lia)) as [w Hw].
      assert (Q : v - w = tod 0 (Time 14 0 0) - tod 0 (Time 12 30 0)).
      { apply K; [lia|lia| |]; rewrite <- tod_local; [apply Hw|apply B]. }
      destruct C' as [[t' [A' [B' _]]]|[Ne' _]].
      * rewrite (frankfurt_closing' n t' A') in B'. assert (v' = w) as ->; [|lia].
        destruct Hw as [_ Hw]. apply Hw, B'.
      * exfalso. apply (Ne' w). exists (Time 12 30 0). split; [exact A2|]. split; [exact Hw|].
        split; [|lia]. pose proof (zones_unique _ _ _ Hz cet_here) as ->.
        destruct Hw as [Hw _]. rewrite tod_local in Hw. unfold wall_clock in Hw. pose proof (cet_bounds w).
        assert (2 * an_hour <= tod 0 (Time 12 30 0)) by (apply Z.leb_le; vm_compute; reflexivity). lia.
    + intros N. exfalso. exact (N t A).
  - pose proof (in_force_In _ n t A) as [<-|[]]. cbn [snd] in B.
    change (ex_close_offset exchange_calendar_xetr.calendar) with 0 in B.
    destruct C' as [[t' [A' [B' _]]]|[_ [t' [A' B']]]].
    + split.
      * rewrite (frankfurt_closing' n t' A') in B'.
        assert (Q : v - v' = tod 0 (Time 17 30 0) - tod 0 (Time 12 30 0)).
        { apply K; [lia|lia| |]; rewrite <- tod_local; [apply B'|apply B]. }
        lia.
      * intros N. exfalso. apply (N (Time 14 0 0)).
        destruct A' as [[rs [r [[A'|[]] [B2 C2]]]]|[ds [[] _]]]. injection A' as <- <-.
        left. exists [exchange_calendar_xetr.LastWorkingDay], r.
        split; [left; reflexivity|]. split; [exact B2|exact C2].
    + pose proof (in_force_In _ n t' A') as [<-|[]].
      assert (v' = v) as ->; [|split; [lia|reflexivity]]. apply B. apply B'.
Qed.

(** The last working day of 2019 was longer on Xetra. *)
Theorem c95_frankfurt_refuted : exists z b f v v', In ("CET"%string, z) zones /\
  build_exchange exchange_calendar_xetr.calendar z (at_midnight_of (date_number 1990 1 1))
    (at_midnight_of (date_number 2020 12 31)) = Ok b /\
  build_exchange exchange_calendar_xfra.calendar z (at_midnight_of (date_number 1990 1 1))
    (at_midnight_of (date_number 2020 12 31)) = Ok f /\
  session_close (cal b) (at_midnight_of (date_number 2019 12 30)) = Ok v /\
  session_close (cal f) (at_midnight_of (date_number 2019 12 30)) = Ok v' /\ v - v' = 90 * one_minute.
Proof.
  assert (Ls : at_midnight_of (date_number 1990 1 11) <= at_midnight_of (date_number 2020 12 31))
    by (apply at_midnight_le, Z.leb_le; vm_compute; reflexivity).
  destruct (c53_default_range 1990 "XETR" _ (at_midnight_of (date_number 2020 12 31)) (or_introl eq_refl) xetr_here)
    as [z [b [ss [Hz [Hb _]]]]]; [discriminate|exact Ls|intros n []|].
  destruct (c53_default_range 1990 "XFRA" _ (at_midnight_of (date_number 2020 12 31)) (or_introl eq_refl) xfra_here)
    as [z' [f [ss' [Hz' [Hf _]]]]]; [discriminate|exact Ls|intros n []|].
  pose proof (zones_unique _ _ _ Hz cet_here) as ->. pose proof (zones_unique _ _ _ Hz' cet_here) as ->.
  assert (R : at_midnight_of (date_number 1990 1 1) <= at_midnight_of (date_number 2019 12 30) <=
    at_midnight_of (date_number 2020 12 31)) by day_le.
  assert (M : is_midnight (at_midnight_of (date_number 1990 1 1))) by (apply is_midnight_at; eauto).
  assert (T : trades "XETR" exchange_calendar_xetr.calendar (date_number 2019 12 30)).
  { rewrite (plain_trades _ _ _ xetr_here) by reflexivity. vm_compute. reflexivity. }
  pose proof (proj1 (frankfurt_trades _) T) as T'.
  assert (Rep : not_a_time + 2 * one_day < at_midnight_of (date_number 1990 1 1))
    by (apply Z.ltb_lt; vm_compute; reflexivity).
  destruct (clocks_1950 _ _ CET xetr_here Hz) as [lo [[Gz _] _]].
  destruct (times_of_day _ _ CET _ _ b _ xetr_here Gz Rep M Hb R T) as [u [v [bs [be [_ [_ [P2 [C _]]]]]]]].
  destruct (times_of_day _ _ CET _ _ f _ xfra_here Gz Rep M Hf R T')
    as [u' [v' [bs' [be' [_ [_ [P2' [C' _]]]]]]]].
  exists CET, b, f, v, v'. split; [exact Hz|]. split; [exact Hb|]. split; [exact Hf|]. split; [exact P2|].
  split; [exact P2'|].
  assert (F : falls_on exchange_calendar_xetr.LastWorkingDay (date_number 2019 12 30)).
  { assert (Q : In (at_midnight_of (date_number 2019 12 30)) (calendar_holidays [exchange_calendar_xetr.LastWorkingDay]
      (at_midnight_of (date_number 2019 12 30)) (at_midnight_of (date_number 2019 12 30)))).
    { assert (W : existsb (Z.eqb (at_midnight_of (date_number 2019 12 30)))
        (calendar_holidays [exchange_calendar_xetr.LastWorkingDay]
          (at_midnight_of (date_number 2019 12 30)) (at_midnight_of (date_number 2019 12 30))) = true)
        by (vm_compute; reflexivity).
      apply existsb_exists in W. destruct W as [x [W1 W2]]. apply Z.eqb_eq in W2. rewrite W2 at 1. exact W1. }
    assert (Se : forallb settled [exchange_calendar_xetr.LastWorkingDay] = true) by (vm_compute; reflexivity).
    destruct (proj1 (holidays_iff _ _ _ _ Se) Q) as [_ [r [[<-|[]] Q']]]. exact Q'. }
  assert (Su : forall t w, wall_clock CET w = local_time (at_midnight_of (date_number 2019 12 30)) 0 t ->
    In (0, t) (clock_times exchange_calendar_xetr.calendar ++ clock_times exchange_calendar_xfra.calendar) ->
    instant_of CET (local_time (at_midnight_of (date_number 2019 12 30)) 0 t) w).
  { intros t w Hw I.
    assert (Q : exists w', instant_of CET (local_time (at_midnight_of (date_number 2019 12 30)) 0 t) w').
    { apply in_app_iff in I. destruct I as [I|I].
      - destruct (clocks_1950 _ _ CET xetr_here Hz) as [lo1 [[_ [Ex _]] Hl]]. apply (Ex 0 t _ I).
        eapply Z.le_trans; [exact Hl|]. apply Z.leb_le. vm_compute. reflexivity.
      - destruct (clocks_1950 _ _ CET xfra_here Hz') as [lo1 [[_ [Ex _]] Hl]]. apply (Ex 0 t _ I).
        eapply Z.le_trans; [exact Hl|]. apply Z.leb_le. vm_compute. reflexivity. }
    destruct Q as [w' [Q1 Q2]]. rewrite (Q2 w Hw). split; [exact Q1|exact Q2]. }
  assert (V : v = at_midnight_of (date_number 2019 12 30) + 780 * one_minute).
  { destruct C as [[t [A [B _]]]|[Ne _]].
    - destruct (frankfurt_closing _ t A) as [-> _]. symmetry. apply B. vm_compute. reflexivity.
    - exfalso. apply (Ne (at_midnight_of (date_number 2019 12 30) + 780 * one_minute)).
      exists (Time 14 0 0). split; [|split].
      + left. exists [exchange_calendar_xetr.LastWorkingDay], exchange_calendar_xetr.LastWorkingDay.
        split; [left; reflexivity|]. split; [left; reflexivity|exact F].
      + apply Su; [vm_compute; reflexivity|]. vm_compute. tauto.
      + split; apply Z.leb_le; vm_compute; reflexivity. }
  assert (V' : v' = at_midnight_of (date_number 2019 12 30) + 690 * one_minute).
  { destruct C' as [[t [A [B _]]]|[Ne _]].
    - rewrite (frankfurt_closing' _ t A) in B. symmetry. apply B. vm_compute. reflexivity.
    - exfalso. apply (Ne (at_midnight_of (date_number 2019 12 30) + 690 * one_minute)).
      exists (Time 12 30 0). split; [|split].
      + left. exists [exchange_calendar_xfra.LastWorkingDay], exchange_calendar_xfra.LastWorkingDay.
        split; [left; reflexivity|]. split; [left; reflexivity|exact F].
      + apply Su; [vm_compute; reflexivity|]. vm_compute. tauto.
      + split; apply Z.leb_le; vm_compute; reflexivity. }
  lia.
Qed.

(** Monday 9 March 2020, after the clocks were put forward: the hypotheses are met. *)
Example c95_ex : exists z b z' f l l',
  In ("America/Chicago"%string, z) zones /\ In ("America/New_York"%string, z') zones /\
  build_exchange exchange_calendar_cmes.calendar z (at_midnight_of (date_number 2000 1 1))
    (at_midnight_of (date_number 2020 12 31)) = Ok b /\
  build_exchange us_futures_calendar.calendar z' (at_midnight_of (date_number 2000 1 1))
    (at_midnight_of (date_number 2020 12 31)) = Ok f /\
  minutes_for_session (cal b) (at_midnight_of (date_number 2020 3 9)) = Ok l /\
  minutes_for_session (cal f) (at_midnight_of (date_number 2020 3 9)) = Ok l' /\ l <> [] /\ incl l l'.
Proof.
  assert (Ls : at_midnight_of (date_number 2000 1 11) <= at_midnight_of (date_number 2020 12 31))
    by (apply at_midnight_le, Z.leb_le; vm_compute; reflexivity).
  destruct (c53_default_range 2000 "CMES" _ (at_midnight_of (date_number 2020 12 31)) (or_intror (or_introl eq_refl)) cmes_here)
    as [z [b [ss [Hz [Hb _]]]]]; [discriminate|exact Ls|intros n []|].
  destruct (c53_default_range 2000 "us_futures" _ (at_midnight_of (date_number 2020 12 31)) (or_intror (or_introl eq_refl)) futures_here)
    as [z' [f [ss' [Hz' [Hf _]]]]]; [discriminate|exact Ls|intros n []|].
  assert (R : at_midnight_of (date_number 2000 1 1) <= at_midnight_of (date_number 2020 3 9) <=
    at_midnight_of (date_number 2020 12 31)) by day_le.
  assert (M : is_midnight (at_midnight_of (date_number 2000 1 1))) by (apply is_midnight_at; eauto).
  assert (Rep : not_a_time + 2 * one_day < at_midnight_of (date_number 2000 1 1))
    by (apply Z.ltb_lt; vm_compute; reflexivity).
  assert (L : date_number 1970 1 1 <= date_number 2020 3 9) by (apply Z.leb_le; vm_compute; reflexivity).
  assert (S : is_session (cal b) (at_midnight_of (date_number 2020 3 9)) = true).
  { apply (proj2 (c51_sessions _ _ z _ _ b cmes_here M Hb) _ R).
    rewrite (plain_trades _ _ _ cmes_here) by reflexivity. vm_compute. reflexivity. }
  destruct (c95_minutes _ _ z _ _ b z' _ _ f _ cmes_american ltac:(discriminate) Hz Hz' Rep M Hb Rep M Hf L R R S)
    as [l [l' [P1 [P2 [P3 P4]]]]].
  exists z, b, z', f, l, l'. repeat (split; [assumption|]). exact P4.
Qed.

(** ** Assumptions *)
Print Assumptions c95_sessions.
Print Assumptions c95_minutes.
Print Assumptions c95_open.
Print Assumptions c95_cme.
Print Assumptions c95_superset_refuted.
Print Assumptions c95_frankfurt_sessions.
Print Assumptions c95_frankfurt.
Print Assumptions c95_frankfurt_refuted.
