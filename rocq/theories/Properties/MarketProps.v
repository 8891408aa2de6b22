(** From the published information to the answers of the library (C76). *)
From Coq Require Import ZArith String List Bool Lia.
From Verif.Model Require Import Base Dates Zone Queries Build Holidays Exchange Dispatcher Library.
From Verif.Spec Require Import Schedule Construction Civil Rules Feasts Venue Almanac Hours Festivals Catalogue Market.
From Verif.Proofs Require Import BaseLemmas DatesLemmas ScheduleLemmas BuildLemmas RuleLemmas RuleRange
  DispatcherLemmas ZoneLemmas ShapeLemmas VenueLemmas VenueSound VenueZones VenueRows VenueData AlmanacLemmas AlmanacRules HoursRules FestivalRules.
From Verif.Properties Require Import QueryProps ExchangeProps LibraryProps AlmanacProps HoursProps FestivalProps.
From Verif.Exchanges Require Import All zones.
Import ListNotations.
Open Scope Z_scope.

(** ** The published times lie within a day or two of their day *)

Definition clock_ok (c : clock) : Prop := 0 <= fst c < 24 /\ 0 <= snd c < 60.
Definition clock_okb (c : clock) : bool := (0 <=? fst c) && (fst c <? 24) && (0 <=? snd c) && (snd c <? 60).
Lemma clock_okb_ok : forall c, clock_okb c = true -> clock_ok c.
Proof. intros c H. unfold clock_okb in H. rewrite !andb_true_iff in H. unfold clock_ok. lia. Qed.

Lemma ok_always : forall h m, clock_okb (h, m) = true -> forall n c, always h m n c -> clock_ok c.
Proof. intros h m H n c ->. apply clock_okb_ok. exact H. Qed.
Lemma ok_changed : forall a y m d b, clock_okb a && clock_okb b = true ->
  forall n c, changed a y m d b n c -> clock_ok c.
Proof.
  intros a y m d b H n c. apply andb_true_iff in H. destruct H as [A B].
  intros [[_ ->]|[_ ->]]; apply clock_okb_ok; assumption.
Qed.
Lemma ok_santiago : forall n c, santiago_closing n c -> clock_ok c.
Proof.
  intros n c H. unfold santiago_closing in H.
  repeat match goal with
  | H : _ /\ _ |- _ => destruct H
  | H : _ \/ _ |- _ => destruct H
  | H : ex _ |- _ => destruct H
  end; subst; apply clock_okb_ok; reflexivity.
Qed.

Lemma published_clocks : forall name H n c, In (name, H) timetable ->
  opening H n c \/ closing H n c -> clock_ok c.
Proof.
  intros name H n c HH. unfold timetable in HH. cbn [In] in HH.
  repeat (destruct HH as [HH|HH];
    [injection HH as <- <-; intros [Q|Q]; revert Q;
     first [apply ok_always; reflexivity|apply ok_changed; reflexivity|apply ok_santiago]|]).
  destruct HH.
Qed.
Lemma early_clocks : forall name H n c, In (name, H) timetable -> early_closing H n c -> clock_ok c.
Proof.
  intros name H n c HH [hs [h [E _]]].
  assert (Q : forallb (fun p => forallb (fun q => clock_okb (fst q)) (Hours.early (snd p))) timetable = true)
    by (vm_compute; reflexivity).
  rewrite forallb_forall in Q. specialize (Q _ HH). cbn [snd] in Q. rewrite forallb_forall in Q.
  apply clock_okb_ok. apply (Q _ E).
Qed.
Lemma few_nights : forall name H, In (name, H) timetable -> 0 <= nights H <= 1.
Proof.
  intros name H HH.
  assert (Q : forallb (fun p => (0 <=? nights (snd p)) && (nights (snd p) <=? 1)) timetable = true)
    by (vm_compute; reflexivity).
  rewrite forallb_forall in Q. specialize (Q _ HH). apply andb_true_iff in Q. cbn [snd] in Q. lia.
Qed.

Definition within_day (t : time) : Prop :=
  0 <= hour t * 3600 + minute t * 60 + second t <= 24 * 3600.
Lemma clock_within : forall c, clock_ok c -> within_day (time_of c) /\ within_day (minute_after c).
Proof.
  intros c [H1 H2]. unfold within_day, time_of, minute_after.
  destruct (Z.eqb_spec (snd c) 59); cbn [hour minute second]; lia.
Qed.

Lemma moment_near : forall z n k t u, good_zone z -> within_day t ->
  instant_of z (local_time (at_midnight_of n) k t) u ->
  at_midnight_of (n + k - 1) <= u <= at_midnight_of (n + k + 2).
Proof.
  intros z n k t u [_ G] V [Hu _]. unfold wall_clock in Hu.
  assert (O : - one_day < offset_at z u < one_day).
  { rewrite Forall_forall in G. apply G. unfold offset_at.
    generalize (initial_offset z) (transitions z). intros o trs. revert o.
    induction trs as [|[a o'] trs IH]; intros o; [left; reflexivity|].
    cbn [offset_from]. destruct (a <=? u); [right; apply IH|left; reflexivity]. }
  assert (L : 0 <= (hour t * 3600 + minute t * 60 + second t) * 10 ^ 9 <= one_day).
  { unfold within_day in V. Transparent one_day one_minute. unfold one_day, one_minute. Opaque one_day one_minute. lia. }
  unfold local_time in Hu. revert Hu L.
  generalize ((hour t * 3600 + minute t * 60 + second t) * 10 ^ 9). intros tod Hu L.
  unfold at_midnight_of in *. lia.
Qed.

Lemma session_near : forall name H z n s, In (name, H) timetable -> good_zone z -> trading_hours H z n s ->
  at_midnight_of (n - 2) <= s_open s /\ s_open s <= at_midnight_of (n + 2) /\
  at_midnight_of (n - 1) <= s_close s <= at_midnight_of (n + 2).
Proof.
  intros name H z n s HH Hz [_ [[c [C1 C2]] [[d [D1 D2]] _]]].
  pose proof (few_nights _ _ HH) as N. pose proof one_day_pos as P.
  assert (VC : clock_ok c) by (apply (published_clocks name H n c HH); left; exact C1).
  assert (VD : clock_ok d).
  { destruct D1 as [D1|[_ D1]]; [apply (early_clocks name H n d HH D1)|].
    apply (published_clocks name H n d HH). right; exact D1. }
  pose proof (moment_near z n _ _ _ Hz (proj2 (clock_within c VC)) C2) as A.
  pose proof (moment_near z n _ _ _ Hz (proj1 (clock_within d VD)) D2) as B.
  unfold at_midnight_of in *. nia.
Qed.

Lemma Ok_eq : forall {A} (a b : A), Ok a = Ok b -> a = b.
Proof. intros A a b H. injection H. auto. Qed.

(** ** C76: the schedule is the published one *)

Lemma market_trades : forall name E n, In (name, E) exchanges -> (market_day name n <-> trades name E n).
Proof.
  intros name E n H. unfold market_day, trades. destruct (String.eqb_spec name "XTAE") as [->|N].
  - unfold tel_aviv_day. rewrite (closed_days _ E n H).
    assert (W : nth_error (ex_weekmask E) (Z.to_nat (day_of_week n)) = Some true <->
      In (day_of_week n) [SUNDAY; MONDAY; TUESDAY; WEDNESDAY; THURSDAY]); [|tauto].
    rewrite (the_tel_aviv E H).
    assert (R : 0 <= day_of_week n < 7) by (apply Z.mod_pos_bound; lia).
    generalize dependent (day_of_week n). intros d R.
    assert (D : d = 0 \/ d = 1 \/ d = 2 \/ d = 3 \/ d = 4 \/ d = 5 \/ d = 6) by lia.
    unfold SUNDAY, MONDAY, TUESDAY, WEDNESDAY, THURSDAY.
    destruct D as [-> | [-> | [-> | [-> | [-> | [-> | ->]]]]]]; vm_compute; intuition discriminate.
  - unfold open_day, rule_holiday. rewrite (closed_days _ E n H), (weekmasks name E H N), mask_workday,
      (rules_almanac name E n H N). tauto.
Qed.

Lemma inside_range : forall start stop n, inside start stop n -> start <= at_midnight_of n <= stop.
Proof. intros start stop n [A B]. unfold at_midnight_of in *. pose proof one_day_pos. nia. Qed.

(** The rows of the schedule on inner days are the published hours. *)
Lemma row_published : forall name E H z lo start stop s n, In (name, E) exchanges -> In (name, H) timetable ->
  clocks_suit E z lo -> at_midnight_of lo <= start -> venue_row name E z start stop s ->
  s_label s = at_midnight_of n -> inside start stop n -> market_day name n /\ trading_hours H z n s.
Proof.
  intros name E H z lo start stop s n HE HH Hc Hlo [m [Em [Rm [T [O [C [B1 B2]]]]]]] En I.
  rewrite Em in En. apply at_midnight_inj in En. subst m. pose proof (the_hours name E H HE HH) as M.
  split; [apply (market_trades name E n HE); exact T|].
  assert (Mom : forall c, early_closing H n c -> exists u, special_moment (special_closing E) z start stop n u).
  { intros c Hcl. pose proof (proj2 (closing_iff E H n M) c Hcl) as Sp.
    assert (Ct : In (0, time_of c) (clock_times E)).
    { unfold clock_times. apply in_app_iff. right. apply in_app_iff. right.
      unfold times_of. apply in_map_iff. exists (time_of c). split; [reflexivity|].
      apply in_app_iff. right. apply in_app_iff. right. unfold special_times.
      apply in_app_iff. right. apply in_app_iff. right. apply in_app_iff.
      destruct Sp as [[rs [r [P _]]]|[ds [P _]]]; [left|right]; apply in_map_iff; eexists; split; try exact P; reflexivity. }
    destruct Hc as [Hz [Hc _]]. destruct (Hc 0 (time_of c) n Ct) as [u Hu].
    { apply at_midnight_le. pose proof (inside_range _ _ _ I). lia. }
    exists u, (time_of c). split; [exact Sp|]. split; [exact Hu|].
    pose proof (moment_near z n 0 _ u Hz (proj1 (clock_within c (early_clocks name H n c HH Hcl))) Hu) as Q.
    destruct I as [I1 I2]. replace (n + 0 - 1) with (n - 1) in Q by lia. replace (n + 0 + 2) with (n + 2) in Q by lia. lia. }
  assert (NoE : (forall u, ~ special_moment (special_closing E) z start stop n u) -> forall c, ~ early_closing H n c).
  { intros N c Hcl. destruct (Mom c Hcl) as [u Hu]. exact (N u Hu). }
  assert (Ear : forall u, special_moment (special_closing E) z start stop n u -> exists c, early_closing H n c /\
    instant_of z (local_time (at_midnight_of n) 0 (time_of c)) u).
  { intros u [t [P [Q _]]]. destruct (proj1 (closing_iff E H n M) t P) as [c [-> Hcl]]. exists c. tauto. }
  unfold trading_hours. split; [exact Em|]. split; [|split].
  - destruct O as [[t [P _]]|[_ [t [P Q]]]]; [exfalso; exact (no_special_opening E H n t M P)|].
    destruct (m_opening E H M n t P) as [c [C1 ->]]. exists c. rewrite <- (m_nights E H M). tauto.
  - destruct C as [P|[N [t [P Q]]]].
    + destruct (Ear _ P) as [c [C1 C2]]. exists c. split; [left; exact C1|exact C2].
    + destruct (m_closing E H M n t P) as [c [C1 ->]]. exists c. rewrite (m_same_day E H M) in Q.
      split; [right; split; [apply NoE; exact N|exact C1]|exact Q].
  - pose proof (m_breaks E H M) as Bk. unfold break_times in Bk.
    destruct (s_break s) as [[u v]|]; cbn [option_map fst snd] in B1, B2.
    + destruct B1 as [N [ts [E1 [t1 [F1 I1]]]]], B2 as [_ [ts' [E2 [t2 [F2 I2]]]]].
      split; [apply NoE; exact N|]. destruct (lunch H) as [[a c]|]; [|destruct Bk; congruence].
      destruct Bk as [K1 K2]. rewrite K1 in E1. rewrite K2 in E2. injection E1 as <-. injection E2 as <-.
      exists a, c. split; [reflexivity|].
      destruct F1 as [s1 [[F1|[]] _]], F2 as [s2 [[F2|[]] _]]. injection F1 as _ <-. injection F2 as _ <-. tauto.
    + destruct B1 as [B1|[u B1]].
      * left. destruct (lunch H) as [[a c]|]; [|reflexivity]. destruct Bk as [K1 _]. congruence.
      * right. destruct (Ear u B1) as [c [C1 _]]. exists c. exact C1.
Qed.

(** The published hours of a day are unique. *)
Lemma hours_unique : forall name E H z n s s', In (name, E) exchanges -> In (name, H) timetable ->
  trading_hours H z n s -> trading_hours H z n s' -> s = s'.
Proof.
  intros name E H z n [l o k c] [l' o' k' c'] HE HH. unfold trading_hours. cbn [s_label s_open s_break s_close].
  intros [L [[a [A1 A2]] [[d [D1 D2]] K]]] [L' [[a' [A1' A2']] [[d' [D1' D2']] K']]].
  pose proof (the_hours name E H HE HH) as M. destruct (c58_timetable name H HH) as [U1 U2].
  pose proof (the_ok name E HE) as V. destruct (venue_agree E _ V) as [_ V2].
  assert (EE : forall x x', early_closing H n x -> early_closing H n x' -> time_of x = time_of x').
  { intros x x' X X'. apply (times_agree_ok _ _ n _ _ V2 (proj2 (closing_iff E H n M) x X) (proj2 (closing_iff E H n M) x' X')). }
  assert (Ea : a = a') by (destruct (U1 n) as [y [_ Y]]; rewrite (Y a A1), (Y a' A1'); reflexivity). subst a'.
  assert (Ed : time_of d = time_of d').
  { destruct D1 as [D1|[N D1]], D1' as [D1'|[N' D1']].
    - apply EE; assumption.
    - exfalso. exact (N' d D1).
    - exfalso. exact (N d' D1').
    - destruct (U2 n) as [y [_ Y]]. rewrite (Y d D1), (Y d' D1'). reflexivity. }
  rewrite <- Ed in D2'.
  f_equal.
  - congruence.
  - exact (instant_of_unique _ _ _ _ A2 A2').
  - destruct k as [[u v]|], k' as [[u' v']|].
    + destruct K as [_ [f [t [E1 [I1 J1]]]]], K' as [_ [f' [t' [E2 [I2 J2]]]]]. rewrite E1 in E2. injection E2 as <- <-.
      rewrite (instant_of_unique _ _ _ _ I1 I2), (instant_of_unique _ _ _ _ J1 J2). reflexivity.
    + destruct K as [N [f [t [E1 _]]]], K' as [K'|[x K']]; [congruence|exfalso; exact (N x K')].
    + destruct K' as [N [f [t [E1 _]]]], K as [K|[x K]]; [congruence|exfalso; exact (N x K)].
    + reflexivity.
  - exact (instant_of_unique _ _ _ _ D2 D2').
Qed.

(** The schedule [ss] is what the exchange says about the days of the range. *)
Definition made_of (name : string) (E : exchange) (z : zone) (start stop : Z) (ss : list session) : Prop :=
  (forall x, is_label_of ss x <-> exists n, x = at_midnight_of n /\ start <= x <= stop /\ trades name E n) /\
  (forall s, In s ss -> venue_row name E z start stop s).

Lemma row_iff : forall name E z lo start stop ss n s, In (name, E) exchanges -> clocks_suit E z lo ->
  at_midnight_of lo <= start -> made_of name E z start stop ss -> inside start stop n ->
  s_label s = at_midnight_of n -> (In s ss <-> market_session name z s).
Proof.
  intros name E z lo start stop ss n s HE Hc Hlo [L R] I En.
  destruct (timetable_matches name E HE) as [H [HH M]]. split.
  - intros Hs. exists H, n. split; [exact HH|].
    apply (row_published name E H z lo start stop s n HE HH Hc Hlo (R s Hs) En I).
  - intros [H' [m [HH' [D T]]]]. rewrite <- (timetable_unique name H H' HH HH') in T.
    pose proof (proj1 T) as Em. rewrite En in Em. apply at_midnight_inj in Em. subst m.
    assert (Q : is_label_of ss (at_midnight_of n)).
    { apply L. exists n. split; [reflexivity|]. split; [apply inside_range; exact I|].
      apply (market_trades name E n HE). exact D. }
    destruct Q as [s' [Hs' Es']].
    destruct (row_published name E H z lo start stop s' n HE HH Hc Hlo (R s' Hs') (eq_sym Es') I) as [_ T'].
    rewrite (hours_unique name E H z n s s' HE HH T T'). exact Hs'.
Qed.

(** Rows and published sessions close to an instant well inside the range are of
    inner days. *)
Lemma row_near : forall name E z start stop s, In (name, E) exchanges -> good_zone z ->
  venue_row name E z start stop s -> exists n, s_label s = at_midnight_of n /\
    at_midnight_of (n - 2) <= s_open s /\ s_open s <= at_midnight_of (n + 2) /\
    at_midnight_of (n - 1) <= s_close s <= at_midnight_of (n + 2).
Proof.
  intros name E z start stop s HE Hz [n [En [_ [_ [O [C _]]]]]]. exists n. split; [exact En|].
  destruct (timetable_matches name E HE) as [H [HH M]].
  pose proof (few_nights _ _ HH) as N. pose proof one_day_pos as P.
  assert (A : exists c, clock_ok c /\
    instant_of z (local_time (at_midnight_of n) (- nights H) (minute_after c)) (s_open s)).
  { destruct O as [[t [Q _]]|[_ [t [Q1 Q2]]]]; [exfalso; exact (no_special_opening E H n t M Q)|].
    destruct (m_opening E H M n t Q1) as [c [C1 ->]]. exists c. rewrite <- (m_nights E H M).
    split; [apply (published_clocks name H n c HH); left; exact C1|exact Q2]. }
  assert (B : exists c, clock_ok c /\
    instant_of z (local_time (at_midnight_of n) 0 (time_of c)) (s_close s)).
  { destruct C as [[t [Q1 [Q2 _]]]|[_ [t [Q1 Q2]]]].
    - destruct (proj1 (closing_iff E H n M) t Q1) as [c [-> C1]]. exists c.
      split; [exact (early_clocks name H n c HH C1)|exact Q2].
    - destruct (m_closing E H M n t Q1) as [c [C1 ->]]. exists c. rewrite (m_same_day E H M) in Q2.
      split; [apply (published_clocks name H n c HH); right; exact C1|exact Q2]. }
  destruct A as [c [V1 A]], B as [d [V2 B]].
  pose proof (moment_near z n _ _ _ Hz (proj2 (clock_within c V1)) A) as X.
  pose proof (moment_near z n _ _ _ Hz (proj1 (clock_within d V2)) B) as Y.
  unfold at_midnight_of in *. nia.
Qed.
Lemma market_near : forall name z s, good_zone z -> market_session name z s ->
  exists n, s_label s = at_midnight_of n /\
    at_midnight_of (n - 2) <= s_open s /\ s_open s <= at_midnight_of (n + 2) /\
    at_midnight_of (n - 1) <= s_close s <= at_midnight_of (n + 2).
Proof.
  intros name z s Hz [H [n [HH [_ T]]]]. exists n. split; [exact (proj1 T)|]. apply (session_near name H z n s HH Hz T).
Qed.
Lemma near_inside : forall start stop n x, start + 3 * one_day <= x -> x <= stop - 4 * one_day ->
  at_midnight_of (n - 2) <= x <= at_midnight_of (n + 2) -> inside start stop n.
Proof. intros start stop n x A B C. unfold inside, at_midnight_of in *. pose proof one_day_pos. nia. Qed.

(** A row or a published session with its open, its close or both sides of an
    instant well inside the range is both. *)
Lemma both : forall name E z lo start stop ss s x, In (name, E) exchanges -> clocks_suit E z lo ->
  at_midnight_of lo <= start -> made_of name E z start stop ss ->
  start + 3 * one_day <= x -> x <= stop - 4 * one_day -> (x = s_open s \/ x = s_close s \/ during s x) ->
  (In s ss <-> market_session name z s).
Proof.
  intros name E z lo start stop ss s x HE Hc Hlo Hm A B Hx.
  assert (G : forall n, s_label s = at_midnight_of n -> at_midnight_of (n - 2) <= s_open s ->
    s_open s <= at_midnight_of (n + 2) -> at_midnight_of (n - 1) <= s_close s <= at_midnight_of (n + 2) ->
    (In s ss <-> market_session name z s)).
  { intros n En N1 N2 N3. apply (row_iff name E z lo start stop ss n s HE Hc Hlo Hm); [|exact En].
    apply (near_inside start stop n x A B). unfold during in Hx. unfold at_midnight_of in *.
    pose proof one_day_pos. nia. }
  split; intros Hs.
  - destruct (row_near name E z start stop s HE (proj1 Hc) (proj2 Hm s Hs)) as [n [En [N1 [N2 N3]]]].
    apply (G n En N1 N2 N3). exact Hs.
  - destruct (market_near name z s (proj1 Hc) Hs) as [n [En [N1 [N2 N3]]]]. apply (G n En N1 N2 N3). exact Hs.
Qed.

(** ** What a user is told *)

Lemma tells : forall name E z lo start stop ss c, In (name, E) exchanges -> clocks_suit E z lo ->
  at_midnight_of lo <= start -> has_schedule c ss -> well_formed ss -> made_of name E z start stop ss ->
  tells_the_market name z start stop c.
Proof.
  intros name E z lo start stop ss c HE Hc Hlo Hs Wf Hm. pose proof one_day_pos as P.
  assert (BB : forall s x, start + 3 * one_day <= x -> x <= stop - 4 * one_day ->
    (x = s_open s \/ x = s_close s \/ during s x) -> (In s ss <-> market_session name z s)).
  { intros s x A B Hx. exact (both name E z lo start stop ss s x HE Hc Hlo Hm A B Hx). }
  assert (O : forall x, start + 3 * one_day <= x -> x <= stop - 4 * one_day ->
    (is_open_of ss x <-> exists s, market_session name z s /\ x = s_open s)).
  { intros x A B. split; intros [s [S1 S2]]; exists s; (split; [|exact S2]); apply (BB s x A B); auto. }
  assert (C : forall x, start + 3 * one_day <= x -> x <= stop - 4 * one_day ->
    (is_close_of ss x <-> exists s, market_session name z s /\ x = s_close s)).
  { intros x A B. split; intros [s [S1 S2]]; exists s; (split; [|exact S2]); apply (BB s x A B); auto. }
  assert (Next : forall (f : result Z) (here : Z -> Prop) (there : Z -> Prop) t x,
    (forall x, start + 3 * one_day <= x -> x <= stop - 4 * one_day -> (here x <-> there x)) ->
    match f with Ok x => least (fun y => here y /\ t < y) x | Raise e => e = IndexError /\ forall y, here y -> y <= t end ->
    start + 3 * one_day <= t -> x <= stop - 4 * one_day ->
    (f = Ok x <-> least (fun y => there y /\ t < y) x)).
  { intros f hr th t x Q F A B. split.
    - intros ->. destruct F as [[F1 F2] F3]. split; [split; [apply Q; [lia|exact B|exact F1]|exact F2]|].
      intros y [Y1 Y2]. destruct (Z_le_gt_dec y (stop - 4 * one_day)) as [L|L]; [|lia].
      apply F3. split; [apply Q; [lia|exact L|exact Y1]|exact Y2].
    - intros [[F1 F2] F3]. assert (H1 : hr x) by (apply Q; [lia|exact B|exact F1]).
      destruct f as [x'|e].
      + destruct F as [[G1 G2] G3]. f_equal. assert (x' <= x) by (apply G3; tauto).
        assert (x <= x'); [|lia]. apply F3. split; [apply Q; [lia|lia|exact G1]|exact G2].
      + destruct F as [_ F]. specialize (F x H1). lia. }
  assert (Prev : forall (f : result Z) (here : Z -> Prop) (there : Z -> Prop) t x,
    (forall x, start + 3 * one_day <= x -> x <= stop - 4 * one_day -> (here x <-> there x)) ->
    match f with Ok x => greatest (fun y => here y /\ y < t) x | Raise e => e = ValueError /\ forall y, here y -> t <= y end ->
    start + 3 * one_day <= x -> t <= stop - 4 * one_day ->
    (f = Ok x <-> greatest (fun y => there y /\ y < t) x)).
  { intros f hr th t x Q F A B. split.
    - intros ->. destruct F as [[F1 F2] F3]. split; [split; [apply Q; [exact A|lia|exact F1]|exact F2]|].
      intros y [Y1 Y2]. destruct (Z_le_gt_dec (start + 3 * one_day) y) as [L|L]; [|lia].
      apply F3. split; [apply Q; [exact L|lia|exact Y1]|exact Y2].
    - intros [[F1 F2] F3]. assert (H1 : hr x) by (apply Q; [exact A|lia|exact F1]).
      destruct f as [x'|e].
      + destruct F as [[G1 G2] G3]. f_equal. assert (x <= x') by (apply G3; tauto).
        assert (x' <= x); [|lia]. apply F3. split; [apply Q; [lia|lia|exact G1]|exact G2].
      + destruct F as [_ F]. specialize (F x H1). lia. }
  unfold tells_the_market. split; [|split; [|split; [|split; [|split]]]].
  - intros n I.
    assert (L : is_label_of ss (at_midnight_of n) <-> market_day name n).
    { rewrite (proj1 Hm), (market_trades name E n HE). split.
      - intros [m [Em [_ T]]]. apply at_midnight_inj in Em. subst m. exact T.
      - intros T. exists n. split; [reflexivity|]. split; [apply inside_range; exact I|exact T]. }
    split; [rewrite (c07_is_session ss c _ Hs); exact L|].
    intros D. apply L in D. destruct D as [s [Hin Es]]. exists s. split; [|symmetry; exact Es].
    apply (row_iff name E z lo start stop ss n s HE Hc Hlo Hm I (eq_sym Es)). exact Hin.
  - intros n s I Hms En. apply (row_iff name E z lo start stop ss n s HE Hc Hlo Hm I En) in Hms.
    destruct (c22_accessors ss c s Wf Hs Hms) as [Q1 [Q2 [Q3 [Q4 _]]]].
    split; [exact Q1|]. split; [exact Q2|]. split; [exact Q3|]. split; [exact Q4|].
    apply (c08_minutes_for_session ss c s Wf Hs Hms).
  - intros t [A B]. destruct (c02_is_open_on_minute ss c t false Wf Hs) as [r [R1 R2]].
    exists r. split; [exact R1|]. rewrite R2. split; intros [s [S1 [S2 S3]]]; exists s.
    + split; [apply (BB s t A B); auto|]. split; [exact S2|]. destruct S3 as [S3|S3]; [discriminate S3|exact S3].
    + split; [apply (BB s t A B); auto|]. split; [exact S2|]. right. exact S3.
  - intros t x A B. split.
    + apply (Next _ (is_open_of ss) _ t x O (c04_next_open ss c t Wf Hs) A B).
    + apply (Next _ (is_close_of ss) _ t x C (c04_next_close ss c t Wf Hs) A B).
  - intros t x A B. split.
    + apply (Prev _ (is_open_of ss) _ t x O (c05_previous_open ss c t Wf Hs) A B).
    + apply (Prev _ (is_close_of ss) _ t x C (c05_previous_close ss c t Wf Hs) A B).
  - intros t s [A B] Hms D. apply (BB s t A B) in Hms; [|auto].
    assert (Only : forall s', In s' ss -> during s' t -> s_label s' = s_label s).
    { intros s' H' D'. f_equal. apply (wf_during_inj ss s' s t Wf H' Hms D' D). }
    pose proof (c16_lookup_next ss c t Wf Hs) as X. pose proof (c17_lookup_previous ss c t Wf Hs) as Y.
    split.
    + destruct (fst (minute_to_session_label c None t "next")) as [l|e].
      * destruct X as [s' [H' [-> [D'|[N _]]]]]; [rewrite (Only s' H' D'); reflexivity|].
        exfalso. exact (N s Hms D).
      * destruct X as [_ X]. specialize (X s Hms). unfold during in D. lia.
    + destruct (fst (minute_to_session_label c None t "previous")) as [l|e].
      * destruct Y as [[s' [H' [-> [D'|[N _]]]]]|[N _]]; [rewrite (Only s' H' D'); reflexivity| |].
        -- exfalso. exact (N s Hms D).
        -- specialize (N s Hms). unfold during in D. lia.
      * destruct Y as [_ Y]. specialize (Y s Hms). unfold during in D. lia.
Qed.

Lemma zones_unique : forall s z z', In (s, z) zones -> In (s, z') zones -> z = z'.
Proof.
  assert (N : NoDup (map fst zones)).
  { replace (map fst zones) with (nodup string_dec (map fst zones)) by (vm_compute; reflexivity).
    apply NoDup_nodup. }
  revert N. generalize zones. intros l N s z z'.
  induction l as [|[a b] l IH]; [intros []|]. cbn [map fst] in N. inversion N as [|? ? N1 N2]; subst.
  intros [H|H] [H'|H'].
  - congruence.
  - injection H as -> ->. exfalso. apply N1. apply in_map_iff. exists (s, z'). split; [reflexivity|exact H'].
  - injection H' as -> ->. exfalso. apply N1. apply in_map_iff. exists (s, z). split; [reflexivity|exact H].
  - apply IH; assumption.
Qed.

Lemma since_1950 : forall start, at_midnight_of (date_number 1950 1 1) <= start -> not_a_time + 2 * one_day < start.
Proof.
  intros start H. eapply Z.lt_le_trans; [|exact H].
  apply Z.ltb_lt. vm_compute. reflexivity.
Qed.
Lemma clocks_1950 : forall name E z, In (name, E) exchanges -> In (ex_tz E, z) zones ->
  exists lo, clocks_suit E z lo /\ lo <= date_number 1950 1 1.
Proof.
  intros name E z HE Hz. destruct (c53_clocks name E HE) as [z' [Hz' Hc]].
  rewrite (zones_unique _ _ _ Hz Hz'). eexists. split; [exact Hc|].
  destruct (String.eqb name "XNYS"); apply Z.leb_le; vm_compute; reflexivity.
Qed.

(** Every calendar of an exchange that starts after 1950, on the clocks of its city,
    tells the market. *)
Theorem c76_exchange : forall name E z start stop b, In (name, E) exchanges -> In (ex_tz E, z) zones ->
  at_midnight_of (date_number 1950 1 1) <= start -> is_midnight start ->
  build_exchange E z start stop = Ok b -> tells_the_market name z start stop (cal b).
Proof.
  intros name E z start stop b HE Hz H0 M1 Hb.
  destruct (clocks_1950 name E z HE Hz) as [lo [Hc Hlo]].
  destruct (c52_rows name E z start stop b HE (proj1 Hc) (since_1950 start H0) M1 Hb) as [ss [A [B [C D]]]].
  apply (tells name E z lo start stop ss (cal b) HE Hc); try assumption.
  - eapply Z.le_trans; [|exact H0]. apply at_midnight_le. exact Hlo.
  - split; [exact C|exact D].
Qed.

(** So does what [get_calendar] returns for a default name or alias, after any
    other calls of [get_calendar]. *)
Theorem c76_get_calendar : forall tzdb today ns n m E, tabulated tzdb ->
  resolve_alias global_calendar_dispatcher n = Returns m -> In (m, E) exchanges -> default_works m today ->
  let d := run (library tzdb today) global_calendar_dispatcher (map Get ns) in
  exists i b, fst (get_calendar (library tzdb today) d n) = Returns i /\
    object tzdb today (snd (get_calendar (library tzdb today) d n)) i = Some (Ok b) /\
    tells_the_market m (tzdb (ex_tz E)) (default_start m) (default_end m today) (cal b).
Proof.
  intros tzdb today ns n m E Ht Hm HE Hw d.
  destruct (c54_default tzdb today m E HE Ht Hw) as [b [ss [F [A [B [C D]]]]]].
  destruct (c56_get_calendar tzdb today ns n m b Hm F) as [i [G1 G2]].
  exists i, b. split; [exact G1|]. split; [exact G2|].
  destruct (c53_clocks m E HE) as [z [Hz _]]. pose proof (Ht _ _ Hz) as Ez. rewrite Ez in *.
  destruct (clocks_1950 m E z HE Hz) as [lo [Hc Hlo]].
  apply (tells m E z lo _ _ ss (cal b) HE Hc); try assumption.
  - eapply Z.le_trans; [apply at_midnight_le; exact Hlo|].
    assert (Q : forallb (fun p => at_midnight_of (date_number 1950 1 1) <=? default_start (fst p)) exchanges = true)
      by (vm_compute; reflexivity).
    rewrite forallb_forall in Q. specialize (Q _ HE). cbn [fst] in Q. lia.
  - split; [exact C|exact D].
Qed.

(** ** Concrete cases *)

(** "NYSE" is a name for the market "XNYS", and the defaults worked in November 2020. *)
Example c76_get_calendar_ex : (exists tzdb, tabulated tzdb) /\
  resolve_alias global_calendar_dispatcher "NYSE" = Returns "XNYS"%string /\
  In ("XNYS"%string, exchange_calendar_xnys.calendar) exchanges /\
  default_works "XNYS" (at_midnight_of (date_number 2020 11 10)) /\
  default_start "XNYS" + 3 * one_day <= default_end "XNYS" (at_midnight_of (date_number 2020 11 10)) - 4 * one_day.
Proof.
  split; [exact tabulated_ex|]. split; [vm_compute; reflexivity|]. split; [exact xnys_here|].
  split; [apply c54_default_ex; apply lookup_keys; vm_compute; discriminate|].
  apply Z.leb_le. vm_compute. reflexivity.
Qed.

(** On Thursday, January 23rd 2020, Hong Kong was open at 11:59 and at lunch at 12:30. *)
Example c76_exchange_ex : exists z b, In (ex_tz exchange_calendar_xhkg.calendar, z) zones /\
  build_exchange exchange_calendar_xhkg.calendar z (at_midnight_of (date_number 1990 1 1))
    (at_midnight_of (date_number 2020 12 31)) = Ok b /\
  market_open "XHKG" z (at_midnight_of (date_number 2020 1 23) + 239 * one_minute) /\
  ~ market_open "XHKG" z (at_midnight_of (date_number 2020 1 23) + 270 * one_minute).
Proof.
  destruct c58_c59_ex as [H [z [b [HH [Hz [G [Hb [S [Ne [Q1 [Q2 [Q3 _]]]]]]]]]]]].
  exists z, b. split; [exact Hz|]. split; [exact Hb|].
  set (n := date_number 2020 1 23) in *.
  destruct (c76_exchange "XHKG" _ z (at_midnight_of (date_number 1990 1 1)) _ b HoursProps.xhkg_here Hz
    ltac:(apply at_midnight_le; apply Z.leb_le; vm_compute; reflexivity)
    ltac:(apply is_midnight_at; eauto) Hb) as [T1 [T2 [T3 [_ [_ T6]]]]].
  assert (I : inside (at_midnight_of (date_number 1990 1 1)) (at_midnight_of (date_number 2020 12 31)) n)
    by (split; apply at_midnight_le; apply Z.leb_le; vm_compute; reflexivity).
  destruct (T1 n I) as [D1 D2]. destruct (D2 (proj1 D1 S)) as [s [Ms Es]].
  destruct (T2 n s I Ms Es) as [P1 [P2 [P3 [P4 _]]]]. rewrite Es in *.
  rewrite Q1 in P1. rewrite Q3 in P2. rewrite Q2 in P3. apply Ok_eq in P1, P2, P3.
  pose proof one_minute_pos as OM.
  assert (B : exists v, s_break s = Some (at_midnight_of n + 241 * one_minute, v)).
  { destruct (s_break s) as [[u v]|]; [|discriminate P3]. cbn [option_map fst] in P3. exists v. congruence. }
  destruct B as [v Bv].
  split.
  - exists s. split; [exact Ms|]. split; [unfold during; lia|]. right. unfold in_break. rewrite Bv. lia.
  - intros [s' [Ms' [D' N']]].
    assert (R : at_midnight_of (date_number 1990 1 1) + 3 * one_day <= at_midnight_of n + 270 * one_minute <=
      at_midnight_of (date_number 2020 12 31) - 4 * one_day)
      by (rewrite <- !Z.leb_le; split; vm_compute; reflexivity).
    assert (Ds : during s (at_midnight_of n + 270 * one_minute)) by (unfold during; lia).
    pose proof (proj1 (T6 _ s R Ms Ds)) as L. rewrite (proj1 (T6 _ s' R Ms' D')) in L. apply Ok_eq in L. rewrite Es in L.
    destruct (T2 n s' I Ms' L) as [P1' [_ [P3' [P4' _]]]]. rewrite L in *.
    rewrite Q1 in P1'. apply Ok_eq in P1'. rewrite Q2 in P3'. apply Ok_eq in P3'. rewrite P4 in P4'. apply Ok_eq in P4'.
    rewrite Bv in P4'. cbn [option_map snd] in P4'.
    destruct (s_break s') as [[u' v']|] eqn:Eb; [|discriminate P3']. cbn [option_map fst snd] in P3', P4'.
    assert (Eu : u' = at_midnight_of n + 241 * one_minute) by congruence.
    assert (Ev : v' = v) by congruence. subst u' v'.
    destruct N' as [N'|N']; [lia|]. apply N'. unfold in_break. rewrite Eb. split; [lia|].
    destruct Ms as [H' [m [HH' [_ [Em [_ [_ K]]]]]]]. rewrite Es in Em. apply at_midnight_inj in Em. subst m.
    assert (EH : H' = Hours "Asia/Hong_Kong"%string (changed (10, 0) 2011 3 7 (9, 30)) 0 (Some ((12, 0), (13, 0)))
      (always 16 0) hong_kong_half_days).
    { apply (timetable_unique "XHKG" _ _ HH'). unfold timetable. cbn [In]. repeat first [left; reflexivity|right]. }
    rewrite Bv in K. destruct K as [_ [from [till [El [_ K]]]]]. rewrite EH in El. cbn [lunch] in El.
    injection El as <- <-.
    assert (V : instant_of z (local_time (at_midnight_of n) 0 (time_of (13, 0))) (at_midnight_of n + 300 * one_minute))
      by (apply (shown "Asia/Hong_Kong"); [vm_compute; reflexivity|exact Hz]).
    rewrite (instant_of_unique _ _ _ _ K V). lia.
Qed.

(** ** Assumptions *)
Print Assumptions c76_exchange.
Print Assumptions c76_get_calendar.
