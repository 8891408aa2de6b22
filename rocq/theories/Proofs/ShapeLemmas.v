(** Checkable conditions under which a definition meets the hypotheses of the
    construction theorems: bounds on the times of day in its tables, and a zone
    whose clock changes avoid those times. *)
From Coq Require Import ZArith List Bool Lia Sorting.Sorted.
From Verif.Model Require Import Base Helpers Queries Dates Zone Build.
From Verif.Spec Require Import Schedule Construction.
From Verif.Proofs Require Import BaseLemmas ScheduleLemmas ZoneLemmas BuildLemmas BuildLemmas2.
Import ListNotations.
Open Scope Z_scope.

(** ** Zones: local times away from the clock changes exist exactly once *)

Fixpoint outside_changes (o : Z) (trs : list (Z * Z)) (l : Z) : Prop :=
  match trs with
  | [] => True
  | (t, o') :: rest =>
      ~ (t + Z.min o o' <= l < t + Z.max o o') /\ outside_changes o' rest l
  end.

Lemma shown_after : forall trs o t o' v, separated o ((t, o') :: trs) -> t <= v ->
  t + o' <= v + offset_from o' trs v.
Proof.
  induction trs as [|[t2 o2] trs IH]; intros o t o' v Hs Hv; simpl; [lia|].
  destruct Hs as [Ht [Ha [Hb Hs]]]. destruct (Z.leb_spec t2 v) as [H|H]; [|lia].
  specialize (IH o' t2 o2 v Hs H). lia.
Qed.

Lemma outside_instant : forall trs o l, separated o trs -> outside_changes o trs l ->
  exists u, u + offset_from o trs u = l /\ forall u', u' + offset_from o trs u' = l -> u' = u.
Proof.
  (* [l] at or after the start of the piece following the first change *)
  induction trs as [|[t o'] trs IH]; intros o l Hs Hc.
  - exists (l - o). simpl. split; [lia|intros; lia].
  - simpl outside_changes in Hc. destruct Hc as [Hc1 Hc2].
    assert (Hs' : separated o' trs).
    { destruct trs as [|[t2 o2] trs]; [exact I|]. apply Hs. }
    destruct (Z_lt_ge_dec l (t + Z.min o o')) as [Hlt|Hge].
    + (* before the change *)
      exists (l - o). simpl offset_from. split.
      * destruct (Z.leb_spec t (l - o)); lia.
      * intros u' Hu'. destruct (Z.leb_spec t u') as [H|H]; [|lia].
        pose proof (shown_after trs o t o' u' Hs H). lia.
    + (* after it *)
      destruct (IH o' l Hs' Hc2) as [u [Hu Huniq]].
      assert (Htu : t <= u).
      { destruct (Z_lt_ge_dec u t) as [H|H]; [exfalso|lia].
        assert (Eo : offset_from o' trs u = o').
        { destruct trs as [|[t2 o2] trs]; [reflexivity|]. simpl. destruct Hs as [Ht _].
          destruct (Z.leb_spec t2 u); [lia|reflexivity]. }
        lia. }
      exists u. simpl offset_from. split.
      * destruct (Z.leb_spec t u); lia.
      * intros u' Hu'. destruct (Z.leb_spec t u') as [H|H]; [apply Huniq; exact Hu'|]. lia.
Qed.

Lemma outside_changes_instant : forall z l, separated (initial_offset z) (transitions z) ->
  outside_changes (initial_offset z) (transitions z) l -> exists u, instant_of z l u.
Proof.
  intros z l Hs Hc. destruct (outside_instant _ _ l Hs Hc) as [u Hu]. exists u. exact Hu.
Qed.

(** No change of clocks that ends after [lo] skips or repeats the time of day [m]
    (nanoseconds from midnight, possibly of another day). *)
Fixpoint clear_from (lo : Z) (o : Z) (trs : list (Z * Z)) (m : Z) : bool :=
  match trs with
  | [] => true
  | (t, o') :: rest =>
      let a := t + Z.min o o' in
      let b := t + Z.max o o' in
      ((b <=? lo) || (b <=? a + (m - a) mod NANOS_PER_DAY)) && clear_from lo o' rest m
  end.

Lemma clear_outside : forall trs lo o m x, clear_from lo o trs m = true ->
  is_midnight x -> lo <= x + m -> outside_changes o trs (x + m).
Proof.
  induction trs as [|[t o'] trs IH]; intros lo o m x H Hx Hlo; simpl; [exact I|].
  simpl in H. apply andb_true_iff in H. destruct H as [H1 H2].
  split; [|apply (IH lo o' m x H2 Hx Hlo)]. intros [Ha Hb].
  apply orb_true_iff in H1. destruct H1 as [H1|H1]; [lia|].
  rewrite NPD_one_day in H1. set (a := t + Z.min o o') in *. pose proof one_day_pos.
  assert (E : (m - a) mod one_day = (x + m - a) mod one_day).
  { destruct Hx as [k ->]. replace (k * one_day + m - a) with (m - a + k * one_day) by lia.
    symmetry. apply Z_mod_plus_full. }
  pose proof (Z.mod_le (x + m - a) one_day ltac:(lia) ltac:(lia)). lia.
Qed.

Definition zone_clear (z : zone) (lo m : Z) : bool :=
  clear_from lo (initial_offset z) (transitions z) m.

Lemma zone_clear_instant : forall z lo m x, separated (initial_offset z) (transitions z) ->
  zone_clear z lo m = true -> is_midnight x -> lo <= x + m -> exists u, instant_of z (x + m) u.
Proof.
  intros z lo m x Hs H Hx Hlo. apply outside_changes_instant; [exact Hs|].
  apply (clear_outside _ lo); assumption.
Qed.

(** ** Deciding [good_zone] *)

Fixpoint separatedb (o : Z) (trs : list (Z * Z)) : bool :=
  match trs with
  | (t, o') :: ((t', o'') :: _) as rest =>
      (t <? t') && (o - o' <=? t' - t) && (o' - o'' <=? t' - t) && separatedb o' rest
  | _ => true
  end.

Lemma separatedb_ok : forall trs o, separatedb o trs = true -> separated o trs.
Proof.
  induction trs as [|[t o'] trs IH]; intros o H; [exact I|].
  destruct trs as [|[t' o''] trs]; [exact I|].
  cbn [separatedb] in H. rewrite !andb_true_iff in H. destruct H as [[[H1 H2] H3] H4].
  cbn [separated]. split; [lia|]. split; [lia|]. split; [lia|]. apply IH. exact H4.
Qed.

Definition good_zoneb (z : zone) : bool :=
  separatedb (initial_offset z) (transitions z) &&
  forallb (fun o => (- NANOS_PER_DAY <? o) && (o <? NANOS_PER_DAY) && (o mod NANOSECONDS_PER_MINUTE =? 0))
    (initial_offset z :: map snd (transitions z)).

Lemma good_zoneb_ok : forall z, good_zoneb z = true -> good_zone z.
Proof.
  intros z H. apply andb_true_iff in H. destruct H as [H1 H2]. split.
  - apply separatedb_ok. exact H1.
  - apply Forall_forall. intros o Ho. rewrite forallb_forall in H2. specialize (H2 o Ho).
    rewrite NPD_one_day, NPM_one_minute, !andb_true_iff in H2. destruct H2 as [[A B] C].
    split; [lia|]. apply Z.mod_divide; [pose proof one_minute_pos; lia|lia].
Qed.

(** ** Times of day *)

Definition tod (k : Z) (t : time) : Z :=
  k * NANOS_PER_DAY + (hour t * 3600 + minute t * 60 + second t) * NANOS_PER_SECOND.

Lemma tod_local : forall x k t, local_time x k t = x + tod k t.
Proof.
  intros. unfold tod, local_time. rewrite NPD_one_day. change NANOS_PER_SECOND with (10 ^ 9). lia.
Qed.

Definition minute_of_day (h m : Z) : Z := (h * 60 + m) * NANOSECONDS_PER_MINUTE.

(** Time [t] (shifted by [k] days) has no seconds and lies in [lo, hi]. *)
Definition within (k lo hi : Z) (t : time) : bool :=
  (second t =? 0) && (lo <=? tod k t) && (tod k t <=? hi).

Definition table_times (ts : option (list (option Z * time))) : list time :=
  match ts with Some l => map snd l | None => [] end.

Definition day_shape (D : definition) (o1 o2 b1 b2 e1 e2 r1 c1 c2 : Z) : bool :=
  forallb (within (open_offset D) o1 o2) (map snd (open_times D)) &&
  forallb (within 0 o1 o2) (map fst (special_opens D) ++ map fst (special_opens_adhoc D)) &&
  forallb (within (close_offset D) r1 c2) (map snd (close_times D)) &&
  forallb (within 0 c1 c2) (map fst (special_closes D) ++ map fst (special_closes_adhoc D)) &&
  forallb (within 0 b1 b2) (table_times (break_start_times D)) &&
  forallb (within 0 e1 e2) (table_times (break_end_times D)) &&
  (o2 <=? c1) && (o2 <=? r1) && (o2 <=? b1) && (b2 <? e1) && (e2 <=? r1) &&
  (c2 <? o1 + NANOS_PER_DAY).

Lemma within_ok : forall k lo hi t x, within k lo hi t = true ->
  x + lo <= local_time x k t <= x + hi /\ (one_minute | local_time x k t - x).
Proof.
  intros k lo hi t x H. unfold within in H. rewrite !andb_true_iff in H.
  destruct H as [[H1 H2] H3]. rewrite tod_local. split; [lia|].
  apply Z.eqb_eq in H1. replace (x + tod k t - x) with (tod k t) by lia.
  unfold tod. rewrite H1. exists (k * 1440 + hour t * 60 + minute t).
  rewrite NPD_one_day. Transparent one_day one_minute. unfold one_day, one_minute, NANOS_PER_SECOND.
  Opaque one_day one_minute. lia.
Qed.

Lemma in_force_In : forall ts x t, in_force ts x t -> In t (map snd ts).
Proof. intros ts x t [s [H _]]. apply in_map_iff. exists (s, t). tauto. Qed.

Lemma special_listed_In : forall regular adhoc start stop x t,
  special_listed regular adhoc start stop x t -> In t (map fst regular ++ map fst adhoc).
Proof.
  intros regular adhoc start stop x t [[ds [H _]]|[ds [H _]]]; apply in_app_iff;
    [left|right]; apply in_map_iff; exists (t, ds); tauto.
Qed.

Lemma day_shape_ok : forall D start stop o1 o2 b1 b2 e1 e2 r1 c1 c2,
  day_shape D o1 o2 b1 b2 e1 e2 r1 c1 c2 = true ->
  not_a_time + one_day < start + o1 ->
  locally_well_formed D start stop.
Proof.
  intros D start stop o1 o2 b1 b2 e1 e2 r1 c1 c2 H Hs. unfold day_shape in H.
  rewrite !andb_true_iff in H. rewrite !forallb_forall in H.
  destruct H as [[[[[[[[[[[S1 S2] S3] S4] S5] S6] I1] I2] I3] I4] I5] I6].
  assert (Fo : forall x u, expected_open D start stop x u ->
    x + o1 <= wall_clock (tz D) u <= x + o2 /\ (one_minute | wall_clock (tz D) u - x)).
  { intros x u [[t [Ht [[-> _] _]]]|[_ [t [Ht [-> _]]]]].
    - apply within_ok, S2. eapply special_listed_In. exact Ht.
    - apply within_ok, S1. eapply in_force_In. exact Ht. }
  assert (Fc : forall x u, expected_close D start stop x u ->
    ((forall u', ~ special_close D start stop x u') -> x + r1 <= wall_clock (tz D) u) /\
    x + Z.min c1 r1 <= wall_clock (tz D) u <= x + c2 /\ (one_minute | wall_clock (tz D) u - x)).
  { intros x u [Hsp|[_ [t [Ht [-> _]]]]].
    - split; [intros N; exfalso; eapply N; exact Hsp|].
      destruct Hsp as [t [Ht [[-> _] _]]].
      assert (W := within_ok _ _ _ t x (S4 t (special_listed_In _ _ _ _ _ _ Ht))). split; [lia|tauto].
    - assert (W := within_ok _ _ _ t x (S3 t (in_force_In _ _ _ Ht))). split; [intros _; lia|].
      split; [lia|tauto]. }
  assert (Fb : forall ts x u lo hi, (forall t, In t (table_times ts) -> within 0 lo hi t = true) ->
    expected_break D start stop ts x (Some u) ->
    (forall u', ~ special_close D start stop x u') /\
    x + lo <= wall_clock (tz D) u <= x + hi /\ (one_minute | wall_clock (tz D) u - x)).
  { intros ts x u lo hi Hin [N [l [-> [t [Ht [-> _]]]]]]. split; [exact N|].
    apply within_ok, Hin. simpl. eapply in_force_In. exact Ht. }
  assert (Div : forall x a b, (one_minute | a - x) -> (one_minute | b - x) -> (one_minute | a - b)).
  { intros x a b Ha Hb. replace (a - b) with ((a - x) - (b - x)) by lia.
    apply Z.divide_sub_r; assumption. }
  rewrite NPD_one_day in I6.
  split.
  - intros s [[Hm [[Hx _] _]] [Ho [Hc [Hb He]]]]. unfold local_view. cbn [s_open].
    destruct (Fo _ _ Ho) as [Fo1 Fo2]. destruct (Fc _ _ Hc) as [Fc0 [Fc1 Fc2]].
    pose proof one_day_pos.
    split; [lia|]. unfold ordered_session, whole_minutes. cbn [s_open s_close s_break].
    destruct (s_break s) as [[b e]|]; cbn [option_map fst snd] in *.
    + destruct (Fb _ _ _ b1 b2 S5 Hb) as [N [Fb1 Fb2]].
      destruct (Fb _ _ _ e1 e2 S6 He) as [_ [Fe1 Fe2]]. specialize (Fc0 N).
      split; [lia|]. split; eapply Div; eassumption.
    + split; [lia|]. eapply Div; eassumption.
  - intros s1 s2 [[[k1 Hk1] _] [_ [Hc1 _]]] [[[k2 Hk2] _] [Ho2 _]] Hl.
    destruct (Fc _ _ Hc1) as [_ [Fc1 _]]. destruct (Fo _ _ Ho2) as [Fo2 _].
    split; [exact Hl|]. unfold local_view. cbn [s_open s_close]. pose proof one_day_pos.
    rewrite Hk1, Hk2 in Hl. assert (k1 < k2) by nia.
    assert (s_label s1 + one_day <= s_label s2) by (rewrite Hk1, Hk2; nia). lia.
Qed.

(** The zone shows every time of the definition exactly once, from [lo] on. *)
Definition times_clear (D : definition) (lo : Z) : bool :=
  forallb (fun t => zone_clear (tz D) lo (tod (open_offset D) t)) (map snd (open_times D)) &&
  forallb (fun t => zone_clear (tz D) lo (tod (close_offset D) t)) (map snd (close_times D)) &&
  forallb (fun t => zone_clear (tz D) lo (tod 0 t))
    (table_times (break_start_times D) ++ table_times (break_end_times D) ++
     map fst (special_opens D) ++ map fst (special_opens_adhoc D) ++
     map fst (special_closes D) ++ map fst (special_closes_adhoc D)).

Definition dates_from (lo : Z) (ad_hoc : list (time * list Z)) : bool :=
  forallb (fun p => forallb (fun d => (lo <=? d + tod 0 (fst p)) && (d mod NANOS_PER_DAY =? 0)) (snd p)) ad_hoc.

Definition midnights (ds : list Z) : bool := forallb (fun d => d mod NANOS_PER_DAY =? 0) ds.

Lemma times_clear_ok : forall D lo start stop, good_zone (tz D) -> times_clear D lo = true ->
  (forall t, In t (map snd (open_times D)) -> lo <= start + tod (open_offset D) t) ->
  (forall t, In t (map snd (close_times D)) -> lo <= start + tod (close_offset D) t) ->
  (forall t, In t (table_times (break_start_times D) ++ table_times (break_end_times D) ++
                   map fst (special_opens D) ++ map fst (special_closes D)) -> lo <= start + tod 0 t) ->
  dates_from lo (special_opens_adhoc D) = true -> dates_from lo (special_closes_adhoc D) = true ->
  (forall p, In p (special_opens D) \/ In p (special_closes D) -> midnights (snd p) = true) ->
  resolvable D start stop.
Proof.
  intros D lo start stop [Hz _] H K1 K2 K3 A1 A2 M. unfold times_clear in H.
  rewrite !andb_true_iff, !forallb_forall in H. destruct H as [[H1 H2] H3].
  unfold dates_from in A1, A2. rewrite forallb_forall in A1, A2.
  assert (S : forall regular adhoc x t,
    (forall p, In p regular -> midnights (snd p) = true) ->
    (forall t, In t (map fst regular) -> lo <= start + tod 0 t) ->
    (forall p, In p adhoc -> forallb (fun d => (lo <=? d + tod 0 (fst p)) && (d mod NANOS_PER_DAY =? 0)) (snd p) = true) ->
    special_listed regular adhoc start stop x t ->
    zone_clear (tz D) lo (tod 0 t) = true -> exists u, instant_of (tz D) (local_time x 0 t) u).
  { intros regular adhoc x t Hm Hk Ha Hl Hc. rewrite tod_local.
    apply (zone_clear_instant (tz D) lo); [exact Hz|exact Hc| |].
    - apply midnight_mod. rewrite <- NPD_one_day. destruct Hl as [[ds [Hin [Hx _]]]|[ds [Hin Hx]]].
      + specialize (Hm _ Hin). unfold midnights in Hm. rewrite forallb_forall in Hm.
        apply Z.eqb_eq. apply (Hm x Hx).
      + specialize (Ha _ Hin). rewrite forallb_forall in Ha. specialize (Ha x Hx).
        apply andb_true_iff in Ha. apply Z.eqb_eq. tauto.
    - destruct Hl as [[ds [Hin [Hx Hr]]]|[ds [Hin Hx]]].
      + assert (lo <= start + tod 0 t) by (apply Hk, in_map_iff; exists (t, ds); tauto). lia.
      + specialize (Ha _ Hin). rewrite forallb_forall in Ha. specialize (Ha x Hx).
        apply andb_true_iff in Ha. cbn [fst] in Ha. lia. }
  repeat split.
  - intros x t [Hm [Hr _]] Ht. apply in_force_In in Ht. rewrite tod_local.
    apply (zone_clear_instant (tz D) lo); [exact Hz|apply H1; exact Ht|exact Hm|].
    specialize (K1 t Ht). lia.
  - intros x t [Hm [Hr _]] Ht. apply in_force_In in Ht. rewrite tod_local.
    apply (zone_clear_instant (tz D) lo); [exact Hz|apply H2; exact Ht|exact Hm|].
    specialize (K2 t Ht). lia.
  - intros ts x t Hts [Hm [Hr _]] Ht. apply in_force_In in Ht. rewrite tod_local.
    assert (Hin : In t (table_times (break_start_times D)) \/ In t (table_times (break_end_times D))).
    { destruct Hts as [E|E]; rewrite E; simpl; tauto. }
    apply (zone_clear_instant (tz D) lo); [exact Hz| |exact Hm|].
    + apply H3. rewrite !in_app_iff. tauto.
    + assert (lo <= start + tod 0 t) by (apply K3; rewrite !in_app_iff; tauto). lia.
  - intros x t Hl. apply (S (special_opens D) (special_opens_adhoc D)); try assumption.
    + intros p Hp. apply M. tauto.
    + intros t' Ht'. apply K3. rewrite !in_app_iff. tauto.
    + apply H3. apply special_listed_In in Hl. rewrite in_app_iff in Hl. rewrite !in_app_iff. tauto.
  - intros x t Hl. apply (S (special_closes D) (special_closes_adhoc D)); try assumption.
    + intros p Hp. apply M. tauto.
    + intros t' Ht'. apply K3. rewrite !in_app_iff. tauto.
    + apply H3. apply special_listed_In in Hl. rewrite in_app_iff in Hl. rewrite !in_app_iff. tauto.
Qed.

(** ** Tables *)

Definition no_laterb (s s' : option Z) : bool :=
  match s, s' with
  | None, _ => true
  | Some _, None => false
  | Some a, Some b => a <=? b
  end.

Lemma no_laterb_ok : forall s s', no_laterb s s' = true <-> no_later s s'.
Proof. intros [a|] [b|]; simpl; intuition (try discriminate); lia. Qed.

Fixpoint well_orderedb (ts : list (option Z * time)) : bool :=
  match ts with
  | [] => true
  | e :: rest => forallb (fun e' => negb (no_laterb (fst e') (fst e))) rest && well_orderedb rest
  end.

Lemma well_orderedb_ok : forall ts, well_orderedb ts = true -> well_ordered ts.
Proof.
  induction ts as [|e ts IH]; intros H; [constructor|]. simpl in H. apply andb_true_iff in H.
  destruct H as [H1 H2]. apply well_ordered_cons. split; [apply IH; exact H2|].
  apply Forall_forall. intros e' He' N. rewrite forallb_forall in H1. specialize (H1 e' He').
  apply no_laterb_ok in N. rewrite N in H1. discriminate.
Qed.

Definition tables_ok (D : definition) : bool :=
  well_orderedb (open_times D) && well_orderedb (close_times D) &&
  match break_start_times D with Some ts => well_orderedb ts | None => true end &&
  match break_end_times D with Some ts => well_orderedb ts | None => true end.

Lemma tables_ok_ok : forall D, tables_ok D = true -> ordered_tables D.
Proof.
  intros D H. unfold tables_ok in H. rewrite !andb_true_iff in H. destruct H as [[[H1 H2] H3] H4].
  split; [apply well_orderedb_ok; exact H1|]. split; [apply well_orderedb_ok; exact H2|].
  split; intros ts E; rewrite E in *; apply well_orderedb_ok; assumption.
Qed.

(** Tables whose first entry has no start date cover every day. *)
Definition starts_open (ts : list (option Z * time)) : bool :=
  match ts with (None, _) :: _ => true | _ => false end.

Lemma in_force_exists : forall ts x, well_ordered ts -> starts_open ts = true ->
  exists t, in_force ts x t.
Proof.
  assert (G : forall rest s t x, well_ordered ((s, t) :: rest) -> started s x ->
    exists t', in_force ((s, t) :: rest) x t').
  { induction rest as [|[r t2] rest IH]; intros s t x Hw Hs.
    - exists t. apply in_force_head; [exact Hw|exact Hs|exact I].
    - assert (Hw2 : well_ordered ((r, t2) :: rest)) by (apply well_ordered_cons in Hw; tauto).
      destruct r as [d|].
      + destruct (Z_lt_ge_dec x d) as [H|H].
        * exists t. apply in_force_head; [exact Hw|exact Hs|exact H].
        * destruct (IH (Some d) t2 x Hw2 ltac:(simpl; lia)) as [t' Ht']. exists t'.
          apply in_force_tail; assumption.
      + destruct (IH None t2 x Hw2 I) as [t' Ht']. exists t'. apply in_force_tail; assumption. }
  intros [|[[d|] t] rest] x Hw H; try discriminate. apply G; [exact Hw|exact I].
Qed.

Definition tables_cover (D : definition) : bool :=
  starts_open (open_times D) && starts_open (close_times D) &&
  match break_start_times D, break_end_times D with
  | None, None => true
  | Some a, Some b => starts_open a && starts_open b
  | _, _ => false
  end.

Lemma tables_cover_ok : forall D start stop, ordered_tables D -> tables_cover D = true ->
  covered D start stop.
Proof.
  intros D start stop [W1 [W2 [W3 W4]]] H. unfold tables_cover in H.
  rewrite !andb_true_iff in H. destruct H as [[H1 H2] H3]. split.
  - intros x _. split; [apply in_force_exists; assumption|].
    split; [apply in_force_exists; assumption|]. intros ts Hts.
    destruct (break_start_times D) as [a|], (break_end_times D) as [b|]; try discriminate.
    + apply andb_true_iff in H3. destruct Hts as [E|E]; injection E as <-;
        apply in_force_exists; auto; tauto.
    + destruct Hts; discriminate.
  - destruct (break_start_times D), (break_end_times D); try discriminate; split; congruence.
Qed.

(** ** Special dates *)

Definition time_eqb (t t' : time) : bool :=
  (hour t =? hour t') && (minute t =? minute t') && (second t =? second t').

Lemma time_eqb_eq : forall t t', time_eqb t t' = true -> t = t'.
Proof.
  intros [h m s] [h' m' s'] H. unfold time_eqb in H. simpl in H.
  rewrite !andb_true_iff, !Z.eqb_eq in H. destruct H as [[-> ->] ->]. reflexivity.
Qed.

Definition entries (specials : list (time * list Z)) : list (Z * time) :=
  flat_map (fun p => map (fun d => (d, fst p)) (snd p)) specials.

Lemma entries_In : forall specials d t, In (d, t) (entries specials) <->
  exists ds, In (t, ds) specials /\ In d ds.
Proof.
  intros specials d t. unfold entries. rewrite in_flat_map. split.
  - intros [[t' ds] [H1 H2]]. apply in_map_iff in H2. destruct H2 as [d' [E H2]]. cbn [fst snd] in *.
    injection E as -> ->. exists ds. tauto.
  - intros [ds [H1 H2]]. exists (t, ds). split; [exact H1|]. apply in_map_iff. exists d. tauto.
Qed.

(** No date is listed with two different times. *)
Definition consistentb (es : list (Z * time)) : bool :=
  forallb (fun e => forallb (fun e' =>
    if fst e =? fst e' then time_eqb (snd e) (snd e') else true) es) es.

Lemma special_listed_entries : forall regular adhoc start stop x t,
  special_listed regular adhoc start stop x t -> In (x, t) (entries (regular ++ adhoc)).
Proof.
  intros regular adhoc start stop x t [[ds [H1 [H2 _]]]|[ds [H1 H2]]]; apply entries_In;
    exists ds; rewrite in_app_iff; tauto.
Qed.

Lemma consistentb_ok : forall z regular adhoc start stop x u u',
  consistentb (entries (regular ++ adhoc)) = true ->
  special_at z regular adhoc start stop x u -> special_at z regular adhoc start stop x u' -> u = u'.
Proof.
  intros z regular adhoc start stop x u u' H [t [H1 [H2 _]]] [t' [H1' [H2' _]]].
  apply special_listed_entries in H1, H1'. unfold consistentb in H. rewrite forallb_forall in H.
  specialize (H _ H1). rewrite forallb_forall in H. specialize (H _ H1'). cbn [fst snd] in H.
  rewrite Z.eqb_refl in H. apply time_eqb_eq in H. subst t'.
  eapply instant_of_unique; eassumption.
Qed.

(** Ad hoc dates are midnights of trading days, and the special instant lies less
    than a day away from the date. *)
Definition adhoc_days_ok (D : definition) (es : list (Z * time)) : bool :=
  forallb (fun e => is_business_day D (day_of (fst e)) && (fst e mod NANOS_PER_DAY =? 0) &&
    match tz_localize (tz D) (fst e + tod 0 (snd e)) with
    | Ok u => (fst e <=? u) && (u <? fst e + NANOS_PER_DAY)
    | Raise _ => false
    end) es.

(** Regular special dates from [lo] on are midnights of trading days. *)
Definition regular_days_ok (D : definition) (lo : Z) (es : list (Z * time)) : bool :=
  forallb (fun e => (fst e mod NANOS_PER_DAY =? 0) &&
                    ((fst e <? lo) || is_business_day D (day_of (fst e)))) es.

Lemma special_days_ok : forall D regular adhoc lo start stop x u,
  is_midnight start -> lo <= start ->
  adhoc_days_ok D (entries adhoc) = true -> regular_days_ok D lo (entries regular) = true ->
  special_at (tz D) regular adhoc start stop x u -> session_day D start stop x.
Proof.
  intros D regular adhoc lo start stop x u [k1 M1] Hlo Ha Hr [t [Hl [Hu Hru]]].
  destruct Hl as [[ds [H1 [H2 H3]]]|[ds [H1 H2]]].
  - unfold regular_days_ok in Hr. rewrite forallb_forall in Hr.
    specialize (Hr (x, t)). rewrite entries_In in Hr. specialize (Hr (ex_intro _ ds (conj H1 H2))).
    cbn [fst] in Hr. rewrite andb_true_iff, orb_true_iff, NPD_one_day in Hr.
    destruct Hr as [R1 R2]. split; [apply midnight_mod; lia|]. split; [exact H3|].
    apply business_trading. destruct R2; [lia|assumption].
  - unfold adhoc_days_ok in Ha. rewrite forallb_forall in Ha.
    specialize (Ha (x, t)). rewrite entries_In in Ha. specialize (Ha (ex_intro _ ds (conj H1 H2))).
    cbn [fst snd] in Ha. rewrite !andb_true_iff, NPD_one_day in Ha.
    destruct Ha as [[A1 A2] A3]. rewrite <- tod_local in A3.
    apply tz_localize_Ok in Hu. rewrite Hu in A3. apply andb_true_iff in A3.
    assert (Hm : is_midnight x) by (apply midnight_mod; lia).
    split; [exact Hm|]. split; [|apply business_trading; exact A1].
    destruct Hm as [k Hk]. pose proof one_day_pos. destruct A3 as [A3 A4].
    apply Z.leb_le in A3. apply Z.ltb_lt in A4. clear - Hk M1 A3 A4 Hru H. subst x start.
    assert (k1 < k + 1) by nia. split; nia.
Qed.

(** ** All conditions together *)

Record shape : Type := Shape {
  sh_o1 : Z; sh_o2 : Z; sh_b1 : Z; sh_b2 : Z; sh_e1 : Z; sh_e2 : Z;
  sh_r1 : Z; sh_c1 : Z; sh_c2 : Z
}.

Definition sound_definition (D : definition) (sh : shape) (lo : Z) : bool :=
  tables_ok D && tables_cover D && good_zoneb (tz D) &&
  day_shape D (sh_o1 sh) (sh_o2 sh) (sh_b1 sh) (sh_b2 sh) (sh_e1 sh) (sh_e2 sh)
    (sh_r1 sh) (sh_c1 sh) (sh_c2 sh) &&
  times_clear D (lo - NANOS_PER_DAY) &&
  ((- NANOS_PER_DAY <=? sh_o1 sh) && (sh_o1 sh <=? sh_o2 sh)) && (0 <=? sh_b1 sh) && (sh_b2 sh <? NANOS_PER_DAY) &&
  (0 <=? sh_e1 sh) && (sh_e2 sh <? NANOS_PER_DAY) &&
  forallb (fun t => (0 <=? hour t) && (hour t <? 24) && (0 <=? minute t) && (minute t <? 60))
    (table_times (break_start_times D) ++ table_times (break_end_times D)) &&
  dates_from (lo - NANOS_PER_DAY) (special_opens_adhoc D) &&
  dates_from (lo - NANOS_PER_DAY) (special_closes_adhoc D) &&
  (NP_NAT + 3 * NANOS_PER_DAY <? lo) &&
  consistentb (entries (special_opens D ++ special_opens_adhoc D)) &&
  consistentb (entries (special_closes D ++ special_closes_adhoc D)) &&
  adhoc_days_ok D (entries (special_opens_adhoc D)) &&
  adhoc_days_ok D (entries (special_closes_adhoc D)) &&
  regular_days_ok D lo (entries (special_opens D)) &&
  regular_days_ok D lo (entries (special_closes D)).

(** What a sound definition provides, for every range from [lo] on. *)
Record sound (D : definition) (start stop : Z) : Prop := {
  sd_tables : ordered_tables D;
  sd_zone : good_zone (tz D);
  sd_repr : representable D start;
  sd_res : resolvable D start stop;
  sd_cov : covered D start stop;
  sd_special : forall x u, special_open D start stop x u \/ special_close D start stop x u ->
     session_day D start stop x;
  sd_cons : consistent_specials D start stop;
  sd_local : locally_well_formed D start stop
}.

Lemma sound_definition_ok : forall D sh lo start stop, sound_definition D sh lo = true ->
  is_midnight start -> lo <= start -> sound D start stop.
Proof.
  intros D sh lo start stop H M1 Hlo. unfold sound_definition in H.
  rewrite !andb_true_iff in H.
  destruct H as [[[[[[[[[[[[[[[[[[[H1 H2] H3] H4] H5] [H6 H6']] H7] H8] H9] H10] H11] H12] H13] H14] H15] H16] H17] H18] H19] H20].
  rewrite NPD_one_day in *. rewrite NAT_nat in H14. pose proof one_day_pos.
  assert (T := tables_ok_ok D H1). assert (Z0 := good_zoneb_ok (tz D) H3).
  pose proof H4 as Hsh. unfold day_shape in Hsh. rewrite !andb_true_iff, !forallb_forall in Hsh.
  destruct Hsh as [[[[[[[[[[[S1 S2] S3] S4] S5] S6] I1] I2] I3] I4] I5] I6].
  assert (W : forall k lo' hi t, within k lo' hi t = true -> lo' <= tod k t <= hi /\ second t = 0).
  { intros k lo' hi t Hw. unfold within in Hw. rewrite !andb_true_iff in Hw. lia. }
  constructor.
  - exact T.
  - exact Z0.
  - split; [lia|]. intros ts s t Hts Hin. rewrite forallb_forall in H11.
    assert (Hin' : In t (table_times (break_start_times D)) \/ In t (table_times (break_end_times D))).
    { destruct Hts as [E|E]; rewrite E; simpl; [left|right]; apply in_map_iff; exists (s, t); tauto. }
    assert (E : second t = 0).
    { destruct Hin' as [Ht|Ht]; [destruct (W _ _ _ _ (S5 t Ht))|destruct (W _ _ _ _ (S6 t Ht))]; assumption. }
    specialize (H11 t). rewrite in_app_iff in H11. specialize (H11 Hin').
    rewrite !andb_true_iff in H11. unfold valid_time. lia.
  - apply (times_clear_ok D (lo - one_day)); try assumption.
    + intros t Ht. destruct (W _ _ _ _ (S1 t Ht)). lia.
    + intros t Ht. destruct (W _ _ _ _ (S3 t Ht)). lia.
    + intros t Ht. rewrite !in_app_iff in Ht. destruct Ht as [Ht|[Ht|[Ht|Ht]]].
      * destruct (W _ _ _ _ (S5 t Ht)). lia.
      * destruct (W _ _ _ _ (S6 t Ht)). lia.
      * destruct (W _ _ _ _ (S2 t ltac:(apply in_app_iff; tauto))). lia.
      * destruct (W _ _ _ _ (S4 t ltac:(apply in_app_iff; tauto))). lia.
    + intros [t ds] [Hp|Hp]; unfold midnights; apply forallb_forall; intros d Hd; cbn [snd] in Hd;
        rewrite NPD_one_day.
      * unfold regular_days_ok in H19. rewrite forallb_forall in H19. specialize (H19 (d, t)).
        rewrite entries_In in H19. specialize (H19 (ex_intro _ ds (conj Hp Hd))).
        rewrite andb_true_iff, NPD_one_day in H19. apply H19.
      * unfold regular_days_ok in H20. rewrite forallb_forall in H20. specialize (H20 (d, t)).
        rewrite entries_In in H20. specialize (H20 (ex_intro _ ds (conj Hp Hd))).
        rewrite andb_true_iff, NPD_one_day in H20. apply H20.
  - apply tables_cover_ok; assumption.
  - intros x u [Hx|Hx].
    + apply (special_days_ok D (special_opens D) (special_opens_adhoc D) lo start stop x u); assumption.
    + apply (special_days_ok D (special_closes D) (special_closes_adhoc D) lo start stop x u); assumption.
  - split; intros x u u'; apply consistentb_ok; assumption.
  - eapply day_shape_ok; [exact H4|]. lia.
Qed.
