(** The opening hours (C58) and early closes (C59) of each exchange, on its local
    clocks. *)
From Coq Require Import ZArith String List Bool Lia.
From Verif.Model Require Import Base Dates Zone Queries Build Holidays Exchange.
From Verif.Spec Require Import Schedule Construction Civil Rules Feasts Venue Almanac Hours.
From Verif.Proofs Require Import BaseLemmas DatesLemmas ScheduleLemmas BuildLemmas RuleLemmas RuleRange
  ZoneLemmas ShapeLemmas VenueLemmas VenueSound VenueZones VenueRows VenueData AlmanacLemmas AlmanacRules HoursRules.
From Verif.Properties Require Import ExchangeProps.
From Verif.Exchanges Require Import All zones.
Import ListNotations.
Open Scope Z_scope.

Lemma timetable_unique : forall name H H', In (name, H) timetable -> In (name, H') timetable -> H = H'.
Proof.
  assert (N : NoDup (map fst timetable)).
  { replace (map fst timetable) with (nodup string_dec (map fst timetable)) by (vm_compute; reflexivity).
    apply NoDup_nodup. }
  revert N. generalize timetable. intros l N name hs hs'.
  induction l as [|[a b] l IH]; [intros []|]. cbn [map fst] in N. inversion N as [|? ? N1 N2]; subst.
  intros [H|H] [H'|H'].
  - congruence.
  - injection H as -> ->. exfalso. apply N1. apply in_map_iff. exists (name, hs'). split; [reflexivity|exact H'].
  - injection H' as -> ->. exfalso. apply N1. apply in_map_iff. exists (name, hs). split; [reflexivity|exact H].
  - apply IH; assumption.
Qed.

Lemma the_hours : forall name E H, In (name, E) exchanges -> In (name, H) timetable -> matches E H.
Proof.
  intros name E H HE HH. destruct (timetable_matches name E HE) as [H' [HH' M]].
  rewrite (timetable_unique name H H' HH HH'). exact M.
Qed.

Lemma closing_iff : forall E H n, matches E H ->
  (forall t, special_closing E n t -> exists c, t = time_of c /\ early_closing H n c) /\
  (forall c, early_closing H n c -> special_closing E n (time_of c)).
Proof.
  intros E H n M. pose proof (m_early E H M n) as Q. split.
  - intros t Ht. apply Q in Ht. exact Ht.
  - intros c Hc. apply Q. exists c. split; [reflexivity|exact Hc].
Qed.

Lemma no_special_opening : forall E H n t, matches E H -> ~ special_opening E n t.
Proof.
  intros E H n t M. unfold special_opening, special_time. rewrite (m_opens E H M), (m_opens_adhoc E H M).
  intros [[rs [r [[] _]]]|[ds [[] _]]].
Qed.

(** The timetable gives one opening and one closing time for every day. *)
Definition one_time (d : daily) : Prop := forall n, exists c, d n c /\ forall c', d n c' -> c' = c.
Lemma one_always : forall h m, one_time (always h m).
Proof. intros h m n. exists (h, m). split; [reflexivity|]. intros c' H. exact H. Qed.
Lemma one_changed : forall a y m d b, one_time (changed a y m d b).
Proof.
  intros a y m d b n. destruct (Z_lt_le_dec n (date_number y m d)) as [L|L].
  - exists a. split; [left; tauto|]. intros c' [[_ E]|[F _]]; [exact E|lia].
  - exists b. split; [right; tauto|]. intros c' [[F _]|[_ E]]; [lia|exact E].
Qed.
Lemma one_santiago : one_time santiago_closing.
Proof.
  intros n. destruct (civil_from_days n) as [[y m] d] eqn:C. apply civil_from_days_ok in C. destruct C as [V E0]. subst n.
  assert (D : 1980 <= y <= 2049 /\ 3 <= m <= 10 \/ ~ (1980 <= y <= 2049 /\ 3 <= m <= 10)) by lia.
  assert (U : forall c', santiago_closing (date_number y m d) c' ->
    1980 <= y <= 2049 /\ 3 <= m <= 10 /\ c' = (16, 0) \/ ~ (1980 <= y <= 2049 /\ 3 <= m <= 10) /\ c' = (17, 0)).
  { intros c' [y' [m' [d' [E [V' H]]]]]. apply (date_number_inj y m d y' m' d' V V') in E.
    destruct E as [<- [<- <-]]. exact H. }
  destruct D as [D|D].
  - exists (16, 0). split; [exists y, m, d; tauto|]. intros c' H. apply U in H. tauto.
  - exists (17, 0). split; [exists y, m, d; tauto|]. intros c' H. apply U in H. tauto.
Qed.

Theorem c58_timetable : forall name H, In (name, H) timetable -> one_time (opening H) /\ one_time (closing H).
Proof.
  intros name H HH. unfold timetable in HH. cbn [In] in HH.
  repeat (destruct HH as [HH|HH];
    [injection HH as <- <-; split; first [apply one_always|apply one_changed|apply one_santiago]|]).
  destruct HH.
Qed.

(** Every exchange has a timetable, and keeps the clocks of its city, which are
    among the clocks that the library knows. *)
Theorem c58_clocks : forall name E, In (name, E) exchanges ->
  exists H z, In (name, H) timetable /\ ex_tz E = place H /\ In (place H, z) zones /\ good_zone z.
Proof.
  intros name E HE. destruct (timetable_matches name E HE) as [H [HH M]].
  destruct (c53_clocks name E HE) as [z [Hz [G _]]]. exists H, z. rewrite <- (m_place E H M). tauto.
Qed.

(** Every session opens one minute after the published time: minutes are labelled
    by their end. *)
Theorem c58_opening : forall name E H z start stop b n, In (name, E) exchanges -> In (name, H) timetable ->
  good_zone z -> not_a_time + 2 * one_day < start -> is_midnight start ->
  build_exchange E z start stop = Ok b -> start <= at_midnight_of n <= stop ->
  is_session (cal b) (at_midnight_of n) = true ->
  exists c u, opening H n c /\
    instant_of z (local_time (at_midnight_of n) (- nights H) (minute_after c)) u /\
    session_open (cal b) (at_midnight_of n) = Ok u.
Proof.
  intros name E H z start stop b n HE HH Hz Hrep M1 Hb Hn S. pose proof (the_hours name E H HE HH) as M.
  assert (T : trades name E n) by (apply (proj2 (c51_sessions name E z start stop b HE M1 Hb)); assumption).
  destruct (c52_regular_day name E z start stop b n HE Hz Hrep M1 Hb Hn T) as [A _].
  destruct A as [t [u [A1 [A2 A3]]]]; [intros t; apply (no_special_opening E H n t M)|].
  destruct (m_opening E H M n t A1) as [c [C1 ->]]. exists c, u. rewrite <- (m_nights E H M). tauto.
Qed.

(** Every session closes at the published time, unless it closes early. *)
Theorem c58_closing : forall name E H z start stop b n, In (name, E) exchanges -> In (name, H) timetable ->
  good_zone z -> not_a_time + 2 * one_day < start -> is_midnight start ->
  build_exchange E z start stop = Ok b -> start <= at_midnight_of n <= stop ->
  is_session (cal b) (at_midnight_of n) = true -> (forall c, ~ early_closing H n c) ->
  exists c u, closing H n c /\ instant_of z (local_time (at_midnight_of n) 0 (time_of c)) u /\
    session_close (cal b) (at_midnight_of n) = Ok u.
Proof.
  intros name E H z start stop b n HE HH Hz Hrep M1 Hb Hn S Ne. pose proof (the_hours name E H HE HH) as M.
  assert (T : trades name E n) by (apply (proj2 (c51_sessions name E z start stop b HE M1 Hb)); assumption).
  destruct (c52_regular_day name E z start stop b n HE Hz Hrep M1 Hb Hn T) as [_ A].
  destruct A as [t [u [A1 [A2 A3]]]].
  { intros t Ht. destruct (proj1 (closing_iff E H n M) t Ht) as [c [_ Hc]]. apply (Ne c Hc). }
  destruct (m_closing E H M n t A1) as [c [C1 ->]]. exists c, u. rewrite <- (m_same_day E H M). tauto.
Qed.

(** Sessions have the published lunch break, and no break if none is published.  The
    break lasts from the minute after its published start to its published end. *)
Theorem c58_break : forall name E H z start stop b n, In (name, E) exchanges -> In (name, H) timetable ->
  good_zone z -> not_a_time + 2 * one_day < start -> is_midnight start ->
  build_exchange E z start stop = Ok b -> start <= at_midnight_of n <= stop ->
  is_session (cal b) (at_midnight_of n) = true -> (forall c, ~ early_closing H n c) ->
  match lunch H with
  | None => session_break_start (cal b) (at_midnight_of n) = Ok None /\
            session_break_end (cal b) (at_midnight_of n) = Ok None
  | Some (from, till) => exists u v,
      instant_of z (local_time (at_midnight_of n) 0 (minute_after from)) u /\
      instant_of z (local_time (at_midnight_of n) 0 (time_of till)) v /\
      session_break_start (cal b) (at_midnight_of n) = Ok (Some u) /\
      session_break_end (cal b) (at_midnight_of n) = Ok (Some v)
  end.
Proof.
  intros name E H z start stop b n HE HH Hz Hrep M1 Hb Hn S Ne. pose proof (the_hours name E H HE HH) as M.
  assert (T : trades name E n) by (apply (proj2 (c51_sessions name E z start stop b HE M1 Hb)); assumption).
  destruct (times_of_day name E z start stop b n HE Hz Hrep M1 Hb Hn T)
    as [o [c [bs [be [_ [_ [_ [_ [Q3 [F3 [Q4 F4]]]]]]]]]]].
  assert (N : forall u, ~ special_moment (special_closing E) z start stop n u).
  { intros u [t [Ht _]]. destruct (proj1 (closing_iff E H n M) t Ht) as [k [_ Hc]]. apply (Ne k Hc). }
  pose proof (m_breaks E H M) as B. unfold break_times in B. rewrite Q3, Q4.
  destruct (lunch H) as [[from till]|]; destruct B as [B1 B2]; rewrite B1 in F3; rewrite B2 in F4;
    destruct bs as [bs|], be as [be|]; cbn [break_at] in F3, F4;
    repeat match goal with
    | X : None = _ \/ _ |- _ => clear X
    | X : Some _ = None \/ exists u, _ |- _ => exfalso; destruct X as [X|[w X]]; [discriminate X|apply (N w X)]
    | X : _ /\ exists ts, None = Some ts /\ _ |- _ => exfalso; destruct X as [_ [ts [X _]]]; discriminate X
    end.
  - destruct F3 as [_ [ts [E3 [t [[s [I _]] A]]]]].
    injection E3 as <-. destruct I as [I|[]]. injection I as <- <-.
    destruct F4 as [_ [ts [E4 [t [[s' [I' _]] A']]]]]. injection E4 as <-. destruct I' as [I'|[]].
    injection I' as <- <-. exists bs, be. tauto.
  - split; reflexivity.
Qed.

(** No session opens late. *)
Theorem c58_no_late_opens : forall name E z start stop b, In (name, E) exchanges -> good_zone z ->
  not_a_time + 2 * one_day < start -> is_midnight start ->
  build_exchange E z start stop = Ok b -> late_opens b = [].
Proof.
  intros name E z start stop b HE Hz Hrep M1 Hb. destruct (timetable_matches name E HE) as [H [_ M]].
  destruct (c52_early_closes name E z start stop b HE Hz Hrep M1 Hb) as [_ L].
  destruct (late_opens b) as [|x l]; [reflexivity|]. exfalso.
  destruct (proj1 (L x) (or_introl eq_refl)) as [n [u [_ [_ [t [Ht _]]]]]].
  exact (no_special_opening E H n t M Ht).
Qed.

(** ** Early closes *)

(** A published early close within the range is a session that closes at that time
    and has no break. *)
Theorem c59_early_close : forall name E H z start stop b n c u, In (name, E) exchanges ->
  In (name, H) timetable -> good_zone z -> not_a_time + 2 * one_day < start -> is_midnight start ->
  build_exchange E z start stop = Ok b -> start <= at_midnight_of n <= stop -> early_closing H n c ->
  instant_of z (local_time (at_midnight_of n) 0 (time_of c)) u -> start <= u <= stop ->
  is_session (cal b) (at_midnight_of n) = true /\
  session_close (cal b) (at_midnight_of n) = Ok u /\
  session_break_start (cal b) (at_midnight_of n) = Ok None /\
  session_break_end (cal b) (at_midnight_of n) = Ok None.
Proof.
  intros name E H z start stop b n c u HE HH Hz Hrep M1 Hb Hn Hc Hu Hr.
  pose proof (the_hours name E H HE HH) as M.
  destruct (c52_special_close name E z start stop b n (time_of c) u HE Hz Hrep M1 Hb Hn
    (proj2 (closing_iff E H n M) c Hc) Hu Hr) as [T A].
  split; [|exact A]. apply (proj2 (c51_sessions name E z start stop b HE M1 Hb)); assumption.
Qed.

(** [early_closes] is exactly the published early closes whose time lies within the
    range. *)
Theorem c59_early_closes : forall name E H z start stop b, In (name, E) exchanges ->
  In (name, H) timetable -> good_zone z -> not_a_time + 2 * one_day < start -> is_midnight start ->
  build_exchange E z start stop = Ok b ->
  forall x, In x (early_closes b) <->
    exists n c u, x = at_midnight_of n /\ start <= x <= stop /\ early_closing H n c /\
      instant_of z (local_time (at_midnight_of n) 0 (time_of c)) u /\ start <= u <= stop.
Proof.
  intros name E H z start stop b HE HH Hz Hrep M1 Hb x. pose proof (the_hours name E H HE HH) as M.
  destruct (c52_early_closes name E z start stop b HE Hz Hrep M1 Hb) as [L _]. rewrite L. split.
  - intros [n [u [Ex [Hx [t [Ht [Hu Hr]]]]]]]. destruct (proj1 (closing_iff E H n M) t Ht) as [c [-> Hc]].
    exists n, c, u. tauto.
  - intros [n [c [u [Ex [Hx [Hc [Hu Hr]]]]]]]. exists n, u. split; [exact Ex|]. split; [exact Hx|].
    exists (time_of c). split; [apply (closing_iff E H n M); exact Hc|]. tauto.
Qed.

(** A session that closes at another time than the published one is a published
    early close. *)
Theorem c59_only_early : forall name E H z start stop b n v, In (name, E) exchanges ->
  In (name, H) timetable -> good_zone z -> not_a_time + 2 * one_day < start -> is_midnight start ->
  build_exchange E z start stop = Ok b -> start <= at_midnight_of n <= stop ->
  session_close (cal b) (at_midnight_of n) = Ok v -> is_session (cal b) (at_midnight_of n) = true ->
  exists c, (early_closing H n c \/ closing H n c) /\
    instant_of z (local_time (at_midnight_of n) 0 (time_of c)) v.
Proof.
  intros name E H z start stop b n v HE HH Hz Hrep M1 Hb Hn Hv S. pose proof (the_hours name E H HE HH) as M.
  assert (T : trades name E n) by (apply (proj2 (c51_sessions name E z start stop b HE M1 Hb)); assumption).
  destruct (times_of_day name E z start stop b n HE Hz Hrep M1 Hb Hn T)
    as [o [c [bs [be [_ [_ [Q2 [F2 _]]]]]]]].
  rewrite Q2 in Hv. injection Hv as ->. destruct F2 as [[t [A [B _]]]|[_ [t [A B]]]].
  - destruct (proj1 (closing_iff E H n M) t A) as [c [-> Hc]]. exists c. tauto.
  - destruct (m_closing E H M n t A) as [c [Hc ->]]. exists c. rewrite (m_same_day E H M) in B. tauto.
Qed.

(** ** Concrete cases *)

Lemma shown : forall place z l u,
  forallb (fun p => if String.eqb (fst p) place then
    match tz_localize (snd p) l with Ok v => v =? u | Raise _ => false end else true) zones = true ->
  In (place, z) zones -> instant_of z l u.
Proof.
  intros place z l u Z Hz. rewrite forallb_forall in Z. specialize (Z _ Hz). cbn [fst snd] in Z.
  rewrite String.eqb_refl in Z. destruct (tz_localize z l) as [v|] eqn:L; [|discriminate Z].
  apply Z.eqb_eq in Z. subst v. apply tz_localize_Ok. exact L.
Qed.

Lemma xhkg_here : In ("XHKG"%string, exchange_calendar_xhkg.calendar) exchanges.
Proof. apply here. reflexivity. Qed.

(** Hong Kong in January 2020: a regular day, Thursday 23, with its lunch break, and
    the eve of the lunar New Year on Friday 24, which closed at noon. *)
Example c58_c59_ex : exists H z b, In ("XHKG"%string, H) timetable /\ In ("Asia/Hong_Kong"%string, z) zones /\
  good_zone z /\
  build_exchange exchange_calendar_xhkg.calendar z (at_midnight_of (date_number 1990 1 1))
    (at_midnight_of (date_number 2020 12 31)) = Ok b /\
  is_session (cal b) (at_midnight_of (date_number 2020 1 23)) = true /\
  (forall c, ~ early_closing H (date_number 2020 1 23) c) /\
  session_open (cal b) (at_midnight_of (date_number 2020 1 23)) =
    Ok (at_midnight_of (date_number 2020 1 23) + 91 * one_minute) /\
  session_break_start (cal b) (at_midnight_of (date_number 2020 1 23)) =
    Ok (Some (at_midnight_of (date_number 2020 1 23) + 241 * one_minute)) /\
  session_close (cal b) (at_midnight_of (date_number 2020 1 23)) =
    Ok (at_midnight_of (date_number 2020 1 23) + 480 * one_minute) /\
  early_closing H (date_number 2020 1 24) (12, 0) /\
  session_close (cal b) (at_midnight_of (date_number 2020 1 24)) =
    Ok (at_midnight_of (date_number 2020 1 24) + 240 * one_minute) /\
  session_break_start (cal b) (at_midnight_of (date_number 2020 1 24)) = Ok None.
Proof.
  destruct (timetable_matches _ _ xhkg_here) as [H [HH M]].
  assert (EH : H = Hours "Asia/Hong_Kong"%string (changed (10, 0) 2011 3 7 (9, 30)) 0 (Some ((12, 0), (13, 0)))
      (always 16 0) hong_kong_half_days).
  { apply (timetable_unique "XHKG" _ _ HH). unfold timetable. cbn [In].
    repeat first [left; reflexivity|right]. }
  destruct (c53_default_range 1990 "XHKG" _ (at_midnight_of (date_number 2020 12 31)) (or_introl eq_refl) xhkg_here)
    as [z [b [ss [Hz [Hb _]]]]].
  - discriminate.
  - apply at_midnight_le. apply Z.leb_le. vm_compute. reflexivity.
  - intros n [].
  - change (ex_tz exchange_calendar_xhkg.calendar) with "Asia/Hong_Kong"%string in Hz.
    exists H, z, b. split; [exact HH|]. split; [exact Hz|].
    assert (G : good_zone z).
    { assert (Q : forallb (fun p => if String.eqb (fst p) "Asia/Hong_Kong" then good_zoneb (snd p) else true) zones
        = true) by (vm_compute; reflexivity).
      rewrite forallb_forall in Q. specialize (Q _ Hz). cbn [fst snd] in Q. rewrite String.eqb_refl in Q.
      apply good_zoneb_ok. exact Q. }
    split; [exact G|]. split; [exact Hb|].
    assert (R : not_a_time + 2 * one_day < at_midnight_of (date_number 1990 1 1))
      by (apply Z.ltb_lt; vm_compute; reflexivity).
    assert (M1 : is_midnight (at_midnight_of (date_number 1990 1 1))) by (apply is_midnight_at; eauto).
    assert (B23 : at_midnight_of (date_number 1990 1 1) <= at_midnight_of (date_number 2020 1 23) <=
      at_midnight_of (date_number 2020 12 31)) by (rewrite !at_midnight_le, <- !Z.leb_le; split; vm_compute; reflexivity).
    assert (B24 : at_midnight_of (date_number 1990 1 1) <= at_midnight_of (date_number 2020 1 24) <=
      at_midnight_of (date_number 2020 12 31)) by (rewrite !at_midnight_le, <- !Z.leb_le; split; vm_compute; reflexivity).
    assert (S : is_session (cal b) (at_midnight_of (date_number 2020 1 23)) = true).
    { apply (proj2 (c51_sessions _ _ z _ _ b xhkg_here M1 Hb) _ B23).
      rewrite (plain_trades _ _ _ xhkg_here) by reflexivity. vm_compute. reflexivity. }
    split; [exact S|].
    assert (Ne : forall c, ~ early_closing H (date_number 2020 1 23) c).
    { intros c Hc. pose proof (proj2 (closing_iff _ H _ M) c Hc) as Sp.
      destruct Sp as [[rs [r [I1 [I2 F]]]]|[ds [I1 I2]]].
      - destruct (the_settled _ _ xhkg_here) as [_ [S2 _]]. rewrite forallb_forall in S2.
        specialize (S2 _ I1). cbn [snd] in S2.
        assert (Q : In (at_midnight_of (date_number 2020 1 23)) (calendar_holidays rs
          (at_midnight_of (date_number 2020 1 23)) (at_midnight_of (date_number 2020 1 23)))).
        { apply holidays_iff; [exact S2|]. split; [lia|]. exists r. tauto. }
        assert (W : forallb (fun p => forallb (fun x => negb (x =? midnight (date_number 2020 1 23)))
          (calendar_holidays (snd p) (midnight (date_number 2020 1 23)) (midnight (date_number 2020 1 23))))
          (ex_special_closes exchange_calendar_xhkg.calendar) = true) by (vm_compute; reflexivity).
        rewrite forallb_forall in W. specialize (W _ I1). cbn [snd] in W. rewrite !midnight_at in W.
        rewrite forallb_forall in W. specialize (W _ Q). rewrite Z.eqb_refl in W. discriminate W.
      - assert (W : forallb (fun p => negb (memb (date_number 2020 1 23) (snd p)))
          (ex_special_closes_adhoc exchange_calendar_xhkg.calendar) = true) by (vm_compute; reflexivity).
        rewrite forallb_forall in W. specialize (W _ I1). cbn [snd] in W. apply not_memb in W. contradiction. }
    split; [exact Ne|]. rewrite EH in *. clear EH.
    destruct (c58_opening _ _ _ z _ _ b _ xhkg_here HH G R M1 Hb B23 S) as [c [u [O1 [O2 O3]]]].
    destruct (c58_closing _ _ _ z _ _ b _ xhkg_here HH G R M1 Hb B23 S Ne) as [c' [u' [C1 [C2 C3]]]].
    pose proof (c58_break _ _ _ z _ _ b _ xhkg_here HH G R M1 Hb B23 S Ne) as [v [w [K1 [_ [K2 _]]]]].
    cbn [opening closing nights lunch] in *.
    assert (c = (9, 30)) as ->.
    { destruct O1 as [[O _]|[_ O]]; [|exact O]. exfalso. revert O. apply Z.le_ngt. apply Z.leb_le. vm_compute. reflexivity. }
    rewrite C1 in C2. clear C1.
    assert (U : forall l x y, instant_of z l x -> instant_of z l y -> x = y)
      by (intros l x y X Y; symmetry; apply X; apply Y).
    assert (X1 : u = at_midnight_of (date_number 2020 1 23) + 91 * one_minute)
      by (apply (U _ _ _ O2); apply (shown "Asia/Hong_Kong"); [vm_compute; reflexivity|exact Hz]).
    assert (X2 : v = at_midnight_of (date_number 2020 1 23) + 241 * one_minute)
      by (apply (U _ _ _ K1); apply (shown "Asia/Hong_Kong"); [vm_compute; reflexivity|exact Hz]).
    assert (X3 : u' = at_midnight_of (date_number 2020 1 23) + 480 * one_minute)
      by (apply (U _ _ _ C2); apply (shown "Asia/Hong_Kong"); [vm_compute; reflexivity|exact Hz]).
    rewrite X1 in O3. rewrite X2 in K2. rewrite X3 in C3.
    split; [exact O3|]. split; [exact K2|]. split; [exact C3|].
    assert (Ec : early_closing (Hours "Asia/Hong_Kong"%string (changed (10, 0) 2011 3 7 (9, 30)) 0 (Some ((12, 0), (13, 0)))
      (always 16 0) hong_kong_half_days) (date_number 2020 1 24) (12, 0)).
    { eexists _, _. split; [right; right; left; reflexivity|]. split; [left; reflexivity|]. cbv beta.
      split; [apply Z.leb_le; vm_compute; reflexivity|]. split; [unfold workday; apply Z.ltb_lt; vm_compute; reflexivity|].
      apply memb_In. vm_compute. reflexivity. }
    split; [exact Ec|].
    destruct (c59_early_close _ _ _ z _ _ b _ _ (at_midnight_of (date_number 2020 1 24) + 240 * one_minute) xhkg_here HH G R M1 Hb B24 Ec)
      as [_ [D1 [D2 _]]]; [| |split; [exact D1|exact D2]].
    + apply (shown "Asia/Hong_Kong"); [vm_compute; reflexivity|exact Hz].
    + rewrite <- !Z.leb_le. split; vm_compute; reflexivity.
Qed.

(** ** Assumptions *)
Print Assumptions c58_timetable.
Print Assumptions c58_clocks.
Print Assumptions c58_opening.
Print Assumptions c58_closing.
Print Assumptions c58_break.
Print Assumptions c58_no_late_opens.
Print Assumptions c59_early_close.
Print Assumptions c59_early_closes.
Print Assumptions c59_only_early.
