(** The attribute [day] of a calendar (C92). *)
From Coq Require Import String ZArith List Bool Lia Sorting.Sorted.
From Verif.Model Require Import Base Dates Queries Zone Build Exchange BusinessDay.
From Verif.Spec Require Import Schedule Construction Venue Workday.
From Verif.Proofs Require Import BaseLemmas DatesLemmas ScheduleLemmas QueryLemmas QueryLemmas2 BuildLemmas BuildLemmas2
  BusinessDayLemmas.
From Verif.Properties Require Import BuildProps.
From Verif.Exchanges Require Import All.
Import ListNotations.
Open Scope list_scope.
Open Scope Z_scope.

Lemma day_biz : forall D c d, trading_calendar_day D = Ok c -> is_business c d = is_business_day D d.
Proof.
  intros D c d H. apply make_sound in H. destruct H as [_ [E1 E2]]. unfold is_business, biz, open_day.
  rewrite E1, E2. unfold is_business_day. fold (on_mask (weekmask D) d).
  destruct (on_mask (weekmask D) d) eqn:M; [|reflexivity]. cbn [andb]. f_equal. apply eq_true_iff_eq.
  rewrite among_In, normalize_In, in_map_iff, existsb_exists. split.
  - intros [[h [Hd Hh]] _]. exists h. split; [|apply Z.eqb_eq; exact Hd]. apply in_app_iff in Hh. apply in_app_iff. tauto.
  - intros [h [Hh Hd]]. apply Z.eqb_eq in Hd. split; [|exact M]. exists h. split; [exact Hd|].
    apply in_app_iff in Hh. apply in_app_iff. tauto.
Qed.

Lemma workday_business : forall D d, is_business_day D d = true <-> workday D d.
Proof.
  intros D d. unfold workday. rewrite <- business_trading. unfold day_of. rewrite NPD_one_day, Z.div_mul; [reflexivity|].
  pose proof one_day_pos. lia.
Qed.

Lemma plus_days_parts : forall c n t,
  plus_days c n t / one_day = busday_offset c (if n <=? 0 then Forward else Backward) (t / one_day) n /\
  plus_days c n t mod one_day = t mod one_day.
Proof.
  intros c n t. unfold plus_days, midnight, day_of. rewrite NPD_one_day. pose proof one_day_pos.
  pose proof (Z.mod_pos_bound t one_day ltac:(lia)). split.
  - rewrite Z.div_add_l by lia. rewrite (Z.div_small (t mod one_day)) by lia. lia.
  - rewrite Z.add_comm, Z_mod_plus_full. apply Z.mod_mod. lia.
Qed.

(** ** When there is one *)

Theorem c92_exists : forall D,
  (length (weekmask D) = 7%nat /\ In true (weekmask D) -> exists c, trading_calendar_day D = Ok c) /\
  (~ (length (weekmask D) = 7%nat /\ In true (weekmask D)) -> trading_calendar_day D = Raise ValueError).
Proof.
  intros D. unfold trading_calendar_day, make_busdaycalendar. cbv zeta.
  destruct (Nat.eqb_spec (length (weekmask D)) 7) as [E|E]; cbn [negb]; [|split; [tauto|reflexivity]].
  destruct (Z.eqb_spec (zlen (filter (fun x : bool => x) (weekmask D))) 0) as [Z0|Z0].
  - apply zlen_nil_inv in Z0. split; [|reflexivity]. intros [_ I]. exfalso.
    assert (J : In true (filter (fun x : bool => x) (weekmask D))) by (apply filter_In; split; [exact I|reflexivity]).
    rewrite Z0 in J. exact J.
  - split; [eexists; reflexivity|]. intros N. exfalso. apply N. split; [exact E|].
    destruct (filter (fun x : bool => x) (weekmask D)) as [|x l] eqn:F; [exfalso; apply Z0; reflexivity|].
    assert (I : In x (filter (fun x : bool => x) (weekmask D))) by (rewrite F; left; reflexivity).
    apply filter_In in I. destruct I as [I ->]. exact I.
Qed.

(** ** Adding days *)

Theorem c92_forward : forall D c n t, trading_calendar_day D = Ok c -> 0 < n ->
  nth_after (workday D) (t / one_day) n (plus_days c n t / one_day) /\
  plus_days c n t mod one_day = t mod one_day.
Proof.
  intros D c n t H Hn. destruct (plus_days_parts c n t) as [-> Em]. split; [|exact Em].
  destruct (Z.leb_spec n 0); [lia|]. destruct (make_sound _ _ _ H) as [Sc _].
  destruct (forward_ok c Backward (t / one_day) n Sc Hn) as [p [m [E1 [Bp [-> [C Bx]]]]]].
  destruct (roll_ok c Backward (t / one_day) Sc) as [p' [E2 [_ [_ [L G]]]]]. rewrite E1 in E2. injection E2 as <-.
  assert (K : forall x, holds (is_business c) x <-> workday D x).
  { intros x. unfold holds. rewrite (day_biz D c x H). apply workday_business. }
  assert (Q : nth_after (holds (is_business c)) p n (p + Z.of_nat m)).
  { rewrite <- C. apply cnt_nth_after; [exact Bx|lia]. }
  apply (nth_after_ext _ p (t / one_day)) in Q.
  - revert Q. generalize (p + Z.of_nat m). clear - K. intros x Q.
    induction Q as [x [[H1 H2] H3]|k x y Q IH [[H1 H2] H3]].
    + constructor. split; [split; [apply K; exact H1|exact H2]|]. intros y [Hy L]. apply H3. split; [apply K; exact Hy|exact L].
    + apply (further_after _ _ _ x); [exact IH|]. split; [split; [apply K; exact H1|exact H2]|].
      intros z [Hz L]. apply H3. split; [apply K; exact Hz|exact L].
  - intros y Hy. split; [|lia]. intros Ly. destruct (Z_lt_ge_dec (t / one_day) y) as [Lt|Ge]; [exact Lt|exfalso].
    unfold holds in Hy. rewrite (G y) in Hy by lia. discriminate.
Qed.

Theorem c92_backward : forall D c n t, trading_calendar_day D = Ok c -> n < 0 ->
  nth_before (workday D) (t / one_day) (- n) (plus_days c n t / one_day) /\
  plus_days c n t mod one_day = t mod one_day.
Proof.
  intros D c n t H Hn. destruct (plus_days_parts c n t) as [-> Em]. split; [|exact Em].
  destruct (Z.leb_spec n 0); [|lia]. destruct (make_sound _ _ _ H) as [Sc _].
  destruct (backward_ok c Forward (t / one_day) n Sc Hn) as [p [m [E1 [Bp [-> [C Bx]]]]]].
  destruct (roll_ok c Forward (t / one_day) Sc) as [p' [E2 [_ [_ [L G]]]]]. rewrite E1 in E2. injection E2 as <-.
  assert (K : forall x, is_business c x = true <-> workday D x).
  { intros x. rewrite (day_biz D c x H). apply workday_business. }
  assert (Q : nth_after (holds (fun x => is_business c (- x))) (- p) (- n) (- p + Z.of_nat m)).
  { rewrite <- C. apply cnt_nth_after; [|lia]. replace (- (- p + Z.of_nat m)) with (p - Z.of_nat m) by lia. exact Bx. }
  apply (nth_after_before (fun x => is_business c x = true)) in Q.
  replace (- (- p + Z.of_nat m)) with (p - Z.of_nat m) in Q by lia.
  apply (nth_before_ext _ p (t / one_day)) in Q.
  - revert Q. generalize (p - Z.of_nat m), (- n). clear - K. intros x k Q.
    induction Q as [x [[H1 H2] H3]|k x y Q IH [[H1 H2] H3]].
    + constructor. split; [split; [apply K; exact H1|exact H2]|]. intros y [Hy L]. apply H3. split; [apply K; exact Hy|exact L].
    + apply (further_before _ _ _ x); [exact IH|]. split; [split; [apply K; exact H1|exact H2]|].
      intros z [Hz L]. apply H3. split; [apply K; exact Hz|exact L].
  - intros y Hy. split; [|lia]. intros Ly. destruct (Z_lt_ge_dec y (t / one_day)) as [Lt|Ge]; [exact Lt|exfalso].
    rewrite (G y) in Hy by lia. discriminate.
Qed.

Theorem c92_zero : forall D c t, trading_calendar_day D = Ok c ->
  least (fun d => workday D d /\ t / one_day <= d) (plus_days c 0 t / one_day) /\
  plus_days c 0 t mod one_day = t mod one_day.
Proof.
  intros D c t H. destruct (plus_days_parts c 0 t) as [-> Em]. split; [|exact Em]. change (0 <=? 0) with true. cbv iota.
  destruct (make_sound _ _ _ H) as [Sc _]. destruct (roll_ok c Forward (t / one_day) Sc) as [p [E [Bp [_ [L G]]]]].
  unfold busday_offset. rewrite E. cbn [Z.ltb Z.compare].
  assert (K : forall x, is_business c x = true <-> workday D x).
  { intros x. rewrite (day_biz D c x H). apply workday_business. }
  split; [split; [apply K; exact Bp|exact L]|]. intros y [Hy Ly]. apply K in Hy.
  destruct (Z_le_gt_dec p y) as [Le|Gt]; [exact Le|exfalso]. rewrite (G y) in Hy by lia. discriminate.
Qed.

(** ** Sums *)

(** The number of business days from [a] (exclusive) to [b] (inclusive), with sign. *)
Definition dist (B : Z -> bool) (a b : Z) : Z :=
  if a <=? b then cnt B a (Z.to_nat (b - a)) else - cnt B b (Z.to_nat (a - b)).
Lemma dist_add : forall B a b c, dist B a b + dist B b c = dist B a c.
Proof.
  intros B a b c. unfold dist.
  assert (A : forall x y z, x <= y <= z -> cnt B x (Z.to_nat (z - x)) = cnt B x (Z.to_nat (y - x)) + cnt B y (Z.to_nat (z - y))).
  { intros x y z H. replace (Z.to_nat (z - x)) with (Z.to_nat (y - x) + Z.to_nat (z - y))%nat by lia. rewrite cnt_app.
    replace (x + Z.of_nat (Z.to_nat (y - x))) with y by lia. reflexivity. }
  destruct (Z.leb_spec a b), (Z.leb_spec b c), (Z.leb_spec a c); try lia.
  - rewrite (A a b c) by lia. lia.
  - rewrite (A a c b) by lia. lia.
  - rewrite (A c a b) by lia. lia.
  - rewrite (A b a c) by lia. lia.
  - rewrite (A b c a) by lia. lia.
  - rewrite (A c b a) by lia. lia.
Qed.
Lemma dist_0 : forall B x y, B x = true -> B y = true -> dist B x y = 0 -> x = y.
Proof.
  intros B x y Hx Hy H. unfold dist in H. destruct (Z.leb_spec x y) as [L|L].
  - destruct (Z.eq_dec x y) as [E|N]; [exact E|exfalso].
    rewrite (cnt_0 B x (Z.to_nat (y - x)) H y) in Hy by lia. discriminate.
  - exfalso. rewrite (cnt_0 B y (Z.to_nat (x - y)) ltac:(lia) x) in Hx by lia. discriminate.
Qed.
Lemma cnt_mirror : forall B p m,
  cnt (fun x => B (- x)) (- p) m + one (B p) = cnt B (p - Z.of_nat m) m + one (B (p - Z.of_nat m)).
Proof.
  intros B p m. induction m as [|m IH]; [cbn [cnt]; rewrite Z.sub_0_r; reflexivity|].
  rewrite cnt_last. cbn [cnt]. replace (- (- p + Z.of_nat (S m))) with (p - Z.of_nat (S m)) by lia.
  replace (p - Z.of_nat (S m) + 1) with (p - Z.of_nat m) by lia. lia.
Qed.

Lemma offset_dist : forall c r d n, sound c -> n <> 0 -> is_business c (busday_offset c r d n) = true /\
  exists p, apply_business_day_roll c r d = (p, weekday p) /\ is_business c p = true /\
    dist (is_business c) p (busday_offset c r d n) = n.
Proof.
  intros c r d n Sc Hn. destruct (Z_lt_ge_dec 0 n) as [G|G].
  - destruct (forward_ok c r d n Sc G) as [p [m [E [Bp [-> [C Bx]]]]]]. split; [exact Bx|].
    exists p. split; [exact E|]. split; [exact Bp|]. unfold dist. destruct (Z.leb_spec p (p + Z.of_nat m)); [|lia].
    replace (Z.to_nat (p + Z.of_nat m - p)) with m by lia. exact C.
  - destruct (backward_ok c r d n Sc ltac:(lia)) as [p [m [E [Bp [-> [C Bx]]]]]]. split; [exact Bx|].
    exists p. split; [exact E|]. split; [exact Bp|]. pose proof (cnt_mirror (is_business c) p m) as M.
    rewrite C, Bp, Bx in M. cbn [one] in M. unfold dist. destruct (Z.leb_spec p (p - Z.of_nat m)) as [L|L].
    + exfalso. assert (m = 0%nat) by lia. subst m. cbn in C. lia.
    + replace (Z.to_nat (p - (p - Z.of_nat m))) with m by lia. lia.
Qed.

Lemma plus_dist : forall D c n t, trading_calendar_day D = Ok c -> workday D (t / one_day) ->
  is_business c (plus_days c n t / one_day) = true /\ dist (is_business c) (t / one_day) (plus_days c n t / one_day) = n.
Proof.
  intros D c n t H W. destruct (plus_days_parts c n t) as [-> _]. destruct (make_sound _ _ _ H) as [Sc _].
  assert (Bt : is_business c (t / one_day) = true) by (rewrite (day_biz D c _ H); apply workday_business; exact W).
  set (r := if n <=? 0 then Forward else Backward).
  destruct (roll_ok c r (t / one_day) Sc) as [p [E [Bp [Ep _]]]]. specialize (Ep Bt). subst p.
  destruct (Z.eq_dec n 0) as [->|N].
  - unfold busday_offset. rewrite E. cbn [Z.ltb Z.compare]. split; [exact Bt|]. unfold dist. rewrite Z.leb_refl, Z.sub_diag. reflexivity.
  - destruct (offset_dist c r (t / one_day) n Sc N) as [B [p [E' [_ C]]]]. rewrite E in E'. injection E' as <-.
    split; [exact B|exact C].
Qed.

Lemma same_instant : forall x y, x / one_day = y / one_day -> x mod one_day = y mod one_day -> x = y.
Proof.
  intros x y E1 E2. pose proof one_day_pos. pose proof (Z.div_mod x one_day ltac:(lia)).
  pose proof (Z.div_mod y one_day ltac:(lia)). congruence.
Qed.

(** From a day on which the calendar trades, steps add up, whatever their signs; in
    particular steps back undo steps forward. *)
Theorem c92_add : forall D c a b t, trading_calendar_day D = Ok c -> workday D (t / one_day) ->
  plus_days c a (plus_days c b t) = plus_days c (a + b) t /\ plus_days c 0 t = t.
Proof.
  intros D c a b t H W.
  assert (K : forall x, is_business c x = true <-> workday D x).
  { intros x. rewrite (day_biz D c x H). apply workday_business. }
  destruct (plus_dist D c b t H W) as [B1 D1].
  destruct (plus_dist D c a (plus_days c b t) H (proj1 (K _) B1)) as [B2 D2].
  destruct (plus_dist D c (a + b) t H W) as [B3 D3]. destruct (plus_dist D c 0 t H W) as [B4 D4].
  assert (M : forall n u, plus_days c n u mod one_day = u mod one_day) by (intros; apply plus_days_parts).
  split; apply same_instant; rewrite ?M; try reflexivity.
  - apply (dist_0 (is_business c)); [exact B2|exact B3|].
    pose proof (dist_add (is_business c) (t / one_day) (plus_days c b t / one_day) (plus_days c a (plus_days c b t) / one_day)) as A1.
    pose proof (dist_add (is_business c) (t / one_day) (plus_days c a (plus_days c b t) / one_day) (plus_days c (a + b) t / one_day)) as A2.
    lia.
  - symmetry. apply (dist_0 (is_business c)); [apply K; exact W|exact B4|exact D4].
Qed.

(** From any other day this holds as long as every sum goes in the same direction. *)
Theorem c92_add_other : forall D c a b t, trading_calendar_day D = Ok c ->
  (0 < b /\ 0 < a + b) \/ (b < 0 /\ a + b < 0) ->
  plus_days c a (plus_days c b t) = plus_days c (a + b) t.
Proof.
  intros D c a b t H Q.
  assert (K : forall x, is_business c x = true <-> workday D x).
  { intros x. rewrite (day_biz D c x H). apply workday_business. }
  destruct (make_sound _ _ _ H) as [Sc _].
  assert (M : forall n u, plus_days c n u mod one_day = u mod one_day) by (intros; apply plus_days_parts).
  destruct (plus_days_parts c b t) as [Eb _]. destruct (plus_days_parts c (a + b) t) as [Es _].
  replace (a + b <=? 0) with (b <=? 0) in Es by lia.
  destruct (offset_dist c (if b <=? 0 then Forward else Backward) (t / one_day) b Sc ltac:(lia)) as [B1 [p [E1 [Bp D1]]]].
  destruct (offset_dist c (if b <=? 0 then Forward else Backward) (t / one_day) (a + b) Sc ltac:(lia)) as [B3 [p' [E2 [_ D3]]]].
  rewrite E1 in E2. injection E2 as <-. rewrite <- Eb in B1, D1. rewrite <- Es in B3, D3.
  destruct (plus_dist D c a (plus_days c b t) H (proj1 (K _) B1)) as [B2 D2].
  apply same_instant; rewrite ?M; [|reflexivity]. apply (dist_0 (is_business c)); [exact B2|exact B3|].
  pose proof (dist_add (is_business c) p (plus_days c b t / one_day) (plus_days c a (plus_days c b t) / one_day)) as A1.
  pose proof (dist_add (is_business c) p (plus_days c a (plus_days c b t) / one_day) (plus_days c (a + b) t / one_day)) as A2.
  lia.
Qed.

(** ** Ranges *)

Lemma next_gap : forall D c t, trading_calendar_day D = Ok c -> t < plus_days c 1 t /\ (one_day | plus_days c 1 t - t) /\
  is_business_day D (day_of (plus_days c 1 t)) = true /\
  forall x, (one_day | x - t) -> t < x -> is_business_day D (day_of x) = true -> plus_days c 1 t <= x.
Proof.
  intros D c t H. destruct (c92_forward D c 1 t H ltac:(lia)) as [N M].
  assert (L : least (fun y => workday D y /\ t / one_day < y) (plus_days c 1 t / one_day)).
  { inversion N as [x L E1 E2|n x y N' _ E1 E2]; [exact L|]. exfalso. assert (n = 0) by lia. subst n. clear - N'.
    assert (P : forall Q d k x, nth_after Q d k x -> 1 <= k) by (intros Q d k z Hz; induction Hz; lia).
    apply P in N'. lia. }
  destruct L as [[L1 L2] L3]. pose proof one_day_pos as P. set (u := plus_days c 1 t) in *.
  pose proof (Z.div_mod t one_day ltac:(lia)) as Et. pose proof (Z.div_mod u one_day ltac:(lia)) as Eu.
  assert (Dv : (one_day | u - t)).
  { exists (u / one_day - t / one_day). rewrite M in Eu. lia. }
  unfold day_of. rewrite NPD_one_day.
  split; [|split; [exact Dv|split; [apply workday_business; exact L1|]]].
  - assert (one_day * (t / one_day + 1) <= one_day * (u / one_day)) by (apply Z.mul_le_mono_nonneg_l; lia). lia.
  - intros x [k Hk] Lx Bx. apply workday_business in Bx.
    assert (Ex : x = t + k * one_day) by lia.
    assert (Ed : x / one_day = t / one_day + k) by (rewrite Ex, Z.div_add by lia; lia).
    assert (0 < k) by nia. assert (u / one_day <= x / one_day) by (apply L3; split; [exact Bx|lia]).
    pose proof (Z.div_mod x one_day ltac:(lia)) as Ex'.
    assert (Em : x mod one_day = t mod one_day) by (rewrite Ex; apply Z_mod_plus_full).
    assert (one_day * (u / one_day) <= one_day * (x / one_day)) by (apply Z.mul_le_mono_nonneg_l; lia). lia.
Qed.

Lemma generate_from_ok : forall D c fuel cur stop, trading_calendar_day D = Ok c ->
  is_business_day D (day_of cur) = true -> stop - cur < Z.of_nat fuel * one_day ->
  exists l, generate_from fuel c cur stop = Ok l /\ StronglySorted Z.lt l /\
    forall x, In x l <-> (one_day | x - cur) /\ cur <= x <= stop /\ is_business_day D (day_of x) = true.
Proof.
  intros D c fuel. induction fuel as [|fuel IH]; intros cur stop H B F; cbn [generate_from].
  - exists []. split; [reflexivity|]. split; [constructor|]. intros x. cbn. lia.
  - destruct (Z.leb_spec cur stop) as [L|L].
    2:{ exists []. split; [reflexivity|]. split; [constructor|]. intros x. cbn. lia. }
    destruct (Z.eqb_spec cur stop) as [->|N].
    + exists [stop]. split; [reflexivity|]. split; [repeat constructor|]. intros x. cbn [In]. split.
      * intros [<-|[]]. split; [exists 0; lia|]. split; [lia|exact B].
      * intros [_ [Hx _]]. left. lia.
    + cbv zeta. destruct (next_gap D c cur H) as [G1 [G2 [G3 G4]]]. set (u := plus_days c 1 cur) in *.
      destruct (Z.leb_spec u cur) as [|_]; [lia|]. pose proof one_day_pos as P.
      destruct (IH u stop H G3) as [l [E [Sl I]]].
      { destruct G2 as [k Hk]. assert (1 <= k) by nia. nia. }
      rewrite E. cbn [bind]. exists (cur :: l). split; [reflexivity|]. split.
      * constructor; [exact Sl|]. rewrite Forall_forall. intros x Hx. apply I in Hx. lia.
      * intros x. cbn [In]. rewrite I. split.
        -- intros [<-|[Dv [R Bx]]]; [split; [exists 0; lia|split; [lia|exact B]]|].
           split; [|split; [lia|exact Bx]]. replace (x - cur) with ((x - u) + (u - cur)) by lia. apply Z.divide_add_r; assumption.
        -- intros [Dv [R Bx]]. destruct (Z.eq_dec cur x) as [E'|E']; [left; exact E'|right].
           split; [replace (x - u) with ((x - cur) - (u - cur)) by lia; apply Z.divide_sub_r; assumption|].
           split; [|exact Bx]. split; [apply G4; [exact Dv|lia|exact Bx]|lia].
Qed.

Lemma prev_gap : forall D c t, trading_calendar_day D = Ok c ->
  plus_days c (-1) t mod one_day = t mod one_day /\
  greatest (fun d => workday D d /\ d < t / one_day) (plus_days c (-1) t / one_day).
Proof.
  intros D c t H. destruct (c92_backward D c (-1) t H ltac:(lia)) as [N M]. split; [exact M|].
  change (- (-1)) with 1 in N.
  inversion N as [x L E1 E2|n x y N' _ E1 E2]; [exact L|]. exfalso. assert (n = 0) by lia. subst n. clear - N'.
  assert (P : forall Q d k x, nth_before Q d k x -> 1 <= k) by (intros Q d k z Hz; induction Hz; lia).
  apply P in N'. lia.
Qed.

Lemma roll_back_end : forall b n d, b (roll_back b n d) = true \/ roll_back b n d = d - Z.of_nat n.
Proof.
  intros b. induction n as [|n IH]; intros d; cbn [roll_back]; [right; lia|].
  destruct (b d) eqn:Bd; [left; exact Bd|]. destruct (IH (d - 1)) as [Q|Q]; [left; exact Q|right; lia].
Qed.

(** Generating a range of dates day by day gives the range that the model of the
    construction of calendars uses. *)
Theorem c92_range : forall D c start stop, trading_calendar_day D = Ok c ->
  generate_range c start stop = Ok (date_range (is_business_day D) start stop).
Proof.
  intros D c start stop H. pose proof one_day_pos as P. destruct (make_sound _ _ _ H) as [Sc _].
  assert (On : forall t, is_on_offset c t = is_business_day D (day_of t)).
  { intros t. unfold is_on_offset. rewrite (excluded_biz _ _ _ (sound_sorted c Sc)), negb_involutive.
    apply (day_biz D c _ H). }
  assert (Fuel : forall a b, b - a < Z.of_nat (Z.to_nat ((b - a) / NANOS_PER_DAY) + 2) * one_day).
  { intros a b. rewrite NPD_one_day. pose proof (Z.div_mod (b - a) one_day ltac:(lia)).
    pose proof (Z.mod_pos_bound (b - a) one_day ltac:(lia)).
    destruct (Z_le_gt_dec 0 ((b - a) / one_day)); [|nia]. replace (Z.of_nat _) with ((b - a) / one_day + 2) by lia. nia. }
  assert (Uniq : forall l, StronglySorted Z.lt l ->
    (forall x, In x l <-> In x (date_range (is_business_day D) start stop)) ->
    l = date_range (is_business_day D) start stop).
  { intros l Sl I. apply SSorted_lt_unique; [exact Sl|apply date_range_sorted|exact I]. }
  unfold generate_range. rewrite !On.
  destruct (is_business_day D (day_of start)) eqn:Bs; cbn [negb].
  - (* the start is a business day *)
    set (stop' := if is_business_day D (day_of stop) then stop else plus_days c (-1) stop).
    assert (E : (if negb (is_business_day D (day_of stop)) then (start, rollback c stop) else (start, stop)) = (start, stop')).
    { unfold stop', rollback. rewrite On. destruct (is_business_day D (day_of stop)); reflexivity. }
    rewrite E. clear E.
    assert (I : forall x, In x (date_range (is_business_day D) start stop) <->
      (one_day | x - start) /\ start <= x <= stop' /\ is_business_day D (day_of x) = true).
    { intros x. unfold date_range. rewrite filter_In, arange_In by (rewrite NPD_one_day; exact P).
      rewrite Bs. unfold stop'. destruct (is_business_day D (day_of stop)) eqn:Be; cbn [negb andb].
      - rewrite NPD_one_day. split; [intros [[A B] C]|intros [A [B C]]]; (split; [|try split]); try assumption; try lia; split; try assumption; lia.
      - rewrite NPD_one_day. destruct (prev_gap D c stop H) as [Em [[Lw Ll] Lg]]. set (v := plus_days c (-1) stop) in *.
        destruct (roll_back_spec (is_business_day D) (Z.to_nat (day_of stop - day_of start)) (day_of stop)) as [R1 [R2 R3]].
        pose proof (roll_back_end (is_business_day D) (Z.to_nat (day_of stop - day_of start)) (day_of stop)) as R4.
        set (r := roll_back _ _ _) in *. clearbody r. unfold midnight. rewrite NPD_one_day.
        assert (Hx : (one_day | x - start) -> start <= x -> is_business_day D (day_of x) = true ->
                     (x < r * one_day + stop mod one_day + 1 <-> x <= v)).
        { intros Dv Lx Bx. pose proof (Z.div_mod v one_day ltac:(lia)) as Ev. rewrite Em in Ev.
          unfold day_of in *. rewrite NPD_one_day in *.
          pose proof (Z.div_mod stop one_day ltac:(lia)) as Est. pose proof (Z.mod_pos_bound stop one_day ltac:(lia)) as Mst.
          pose proof (Z.div_mod x one_day ltac:(lia)) as Ex. pose proof (Z.mod_pos_bound x one_day ltac:(lia)) as Mx.
          assert (Sx : start / one_day <= x / one_day) by (apply Z.div_le_mono; lia).
          assert (Nx : x / one_day <> stop / one_day) by (intros Q; rewrite Q in Bx; congruence).
          destruct (Z_lt_ge_dec (x / one_day) (stop / one_day)) as [Lt|Ge].
          - assert (Vs : start / one_day <= v / one_day).
            { apply (Z.le_trans _ (x / one_day)); [exact Sx|]. apply Lg. split; [apply workday_business; exact Bx|exact Lt]. }
            assert (Rv : r = v / one_day).
            { apply Z.le_antisymm.
              - destruct (Z_le_gt_dec r (v / one_day)) as [Q|Q]; [exact Q|exfalso].
                (* r is the day where the search stopped *)
                assert (Br : is_business_day D r = true).
                { destruct R4 as [R4|R4]; [exact R4|]. rewrite Z2Nat.id in R4 by lia.
                  replace r with (start / one_day) by lia. exact Bs. }
                destruct (Z.eq_dec r (stop / one_day)) as [Er|Nr]; [rewrite Er in Br; congruence|].
                assert (r <= v / one_day); [|lia]. apply Lg. split; [apply workday_business; exact Br|lia].
              - destruct (Z_le_gt_dec (v / one_day) r) as [Q|Q]; [exact Q|exfalso].
                apply workday_business in Lw. rewrite (R3 (v / one_day)) in Lw by lia. discriminate. }
            rewrite Rv. nia.
          - assert (stop / one_day < x / one_day) by lia.
            assert (one_day * (stop / one_day + 1) <= one_day * (x / one_day)) by (apply Z.mul_le_mono_nonneg_l; lia).
            assert (one_day * (v / one_day) <= one_day * (stop / one_day)) by (apply Z.mul_le_mono_nonneg_l; lia).
            assert (one_day * r <= one_day * (stop / one_day)) by (apply Z.mul_le_mono_nonneg_l; lia). nia. }
        split; [intros [[A B] C]|intros [A [B C]]].
        + split; [exact B|]. split; [|exact C]. split; [lia|]. apply Hx; [exact B|lia|exact C|lia].
        + split; [|exact C]. split; [|exact A]. split; [lia|]. apply Hx; [exact A|lia|exact C|lia]. }
    destruct (Z.ltb_spec stop' start) as [L|L].
    + f_equal. apply Uniq; [constructor|]. intros x. rewrite I. cbn. lia.
    + destruct (generate_from_ok D c _ start stop' H Bs (Fuel start stop')) as [l [-> [Sl Il]]]. f_equal. apply Uniq; [exact Sl|].
      intros x. rewrite Il, I. reflexivity.
  - (* the start is rolled forward *)
    unfold rollforward. rewrite On, Bs. destruct (next_gap D c start H) as [G1 [G2 [G3 G4]]]. set (u := plus_days c 1 start) in *.
    assert (I : forall x, In x (date_range (is_business_day D) start stop) <->
      (one_day | x - u) /\ u <= x <= stop /\ is_business_day D (day_of x) = true).
    { intros x. unfold date_range. rewrite Bs. cbn [andb]. rewrite filter_In, arange_In by (rewrite NPD_one_day; exact P).
      rewrite NPD_one_day. split.
      - intros [[A B] C]. assert (start <> x) by congruence.
        split; [replace (x - u) with ((x - start) - (u - start)) by lia; apply Z.divide_sub_r; assumption|].
        split; [|exact C]. split; [apply G4; [exact B|lia|exact C]|lia].
      - intros [A [B C]]. split; [|exact C]. split; [lia|].
        replace (x - start) with ((x - u) + (u - start)) by lia. apply Z.divide_add_r; assumption. }
    destruct (Z.ltb_spec stop u) as [L|L].
    + f_equal. apply Uniq; [constructor|]. intros x. rewrite I. cbn. lia.
    + destruct (generate_from_ok D c _ u stop H G3 (Fuel u stop)) as [l [-> [Sl Il]]]. f_equal. apply Uniq; [exact Sl|].
      intros x. rewrite Il, I. reflexivity.
Qed.

(** [rollforward] and [rollback]: the nearest day of trading at or after, at or before. *)
Theorem c92_roll : forall D c t, trading_calendar_day D = Ok c ->
  least (fun d => workday D d /\ t / one_day <= d) (rollforward c t / one_day) /\
  greatest (fun d => workday D d /\ d <= t / one_day) (rollback c t / one_day) /\
  rollforward c t mod one_day = t mod one_day /\ rollback c t mod one_day = t mod one_day /\
  (is_on_offset c t = true <-> workday D (t / one_day)).
Proof.
  intros D c t H. destruct (make_sound _ _ _ H) as [Sc _].
  assert (On : is_on_offset c t = true <-> workday D (t / one_day)).
  { unfold is_on_offset. rewrite (excluded_biz _ _ _ (sound_sorted c Sc)), negb_involutive.
    change (is_business c (day_of t) = true <-> workday D (t / one_day)).
    rewrite (day_biz D c _ H). unfold day_of. rewrite NPD_one_day. apply workday_business. }
  unfold rollforward, rollback. destruct (is_on_offset c t) eqn:E.
  - assert (W : workday D (t / one_day)) by (apply On; reflexivity).
    split; [split; [split; [exact W|lia]|intros y [_ Hy]; exact Hy]|].
    split; [split; [split; [exact W|lia]|intros y [_ Hy]; exact Hy]|]. split; [reflexivity|]. split; [reflexivity|exact On].
  - assert (W : ~ workday D (t / one_day)) by (intros W; apply On in W; discriminate).
    destruct (prev_gap D c t H) as [M1 [[P1 P2] P3]].
    destruct (c92_forward D c 1 t H ltac:(lia)) as [N M2].
    assert (L : least (fun y => workday D y /\ t / one_day < y) (plus_days c 1 t / one_day)).
    { inversion N as [x L E1 E2|n x y N' _ E1 E2]; [exact L|]. exfalso. assert (n = 0) by lia. subst n. clear - N'.
      assert (P : forall Q d k x, nth_after Q d k x -> 1 <= k) by (intros Q d k z Hz; induction Hz; lia).
      apply P in N'. lia. }
    destruct L as [[L1 L2] L3].
    split; [split; [split; [exact L1|lia]|]|].
    { intros y [Wy Hy]. apply L3. split; [exact Wy|]. destruct (Z.eq_dec y (t / one_day)) as [->|]; [tauto|lia]. }
    split; [split; [split; [exact P1|lia]|]|].
    { intros y [Wy Hy]. apply P3. split; [exact Wy|]. destruct (Z.eq_dec y (t / one_day)) as [->|]; [tauto|lia]. }
    split; [exact M2|]. split; [exact M1|exact On].
Qed.

(** ** Sessions *)

Fixpoint days_after (a : Z) (n : nat) : list Z :=
  match n with O => [] | S n' => a + 1 :: days_after (a + 1) n' end.
Lemma days_after_In : forall n a x, In x (days_after a n) <-> a < x <= a + Z.of_nat n.
Proof.
  induction n as [|n IH]; intros a x; cbn [days_after In]; [lia|]. rewrite IH. lia.
Qed.
Lemma days_after_sorted : forall n a, StronglySorted Z.lt (days_after a n).
Proof.
  induction n as [|n IH]; intros a; cbn [days_after]; constructor; [apply IH|].
  rewrite Forall_forall. intros x Hx. apply days_after_In in Hx. lia.
Qed.
Lemma cnt_days : forall B n a, cnt B a n = zlen (filter B (days_after a n)).
Proof.
  intros B n. induction n as [|n IH]; intros a; cbn [cnt days_after filter]; [reflexivity|].
  rewrite IH. destruct (B (a + 1)); cbn [one]; rewrite ?zlen_cons; lia.
Qed.

Lemma range_member : forall b start stop a, In a (date_range b start stop) -> b (day_of a) = true /\
  forall x z, In z (date_range b start stop) -> a <= x <= z -> (one_day | x - a) -> b (day_of x) = true ->
    In x (date_range b start stop).
Proof.
  intros b start stop a. unfold date_range. cbv zeta.
  match goal with |- context [arange start (?e + 1) _] => generalize e; intros e' end.
  rewrite filter_In, arange_In by (rewrite NPD_one_day; exact one_day_pos). rewrite NPD_one_day.
  intros [[R1 D1] B1]. split; [exact B1|]. intros x z Hz L Dv Bx.
  rewrite filter_In, arange_In in * by exact one_day_pos.
  split; [|exact Bx]. split; [lia|]. replace (x - start) with ((x - a) + (a - start)) by lia. apply Z.divide_add_r; assumption.
Qed.
Lemma range_same : forall b start stop a z, In a (date_range b start stop) -> In z (date_range b start stop) ->
  (one_day | z - a).
Proof.
  intros b start stop a z. unfold date_range. cbv zeta.
  match goal with |- context [arange start (?e + 1) _] => generalize e; intros e' end.
  rewrite !filter_In, !arange_In by (rewrite NPD_one_day; exact one_day_pos). rewrite NPD_one_day.
  intros [[_ D1] _] [[_ D2] _]. replace (z - a) with ((z - start) - (a - start)) by lia. apply Z.divide_sub_r; assumption.
Qed.

Lemma between_cnt : forall b start stop l l', In l (date_range b start stop) -> In l' (date_range b start stop) -> l <= l' ->
  zlen (filter (fun x => (l <? x) && (x <=? l')) (date_range b start stop)) =
  cnt b (l / one_day) (Z.to_nat (l' / one_day - l / one_day)).
Proof.
  intros b start stop l l' Hl Hl' L. pose proof one_day_pos as P. rewrite cnt_days.
  set (f := fun d => d * one_day + l mod one_day).
  rewrite <- (zlen_map f (filter b _)). f_equal. apply SSorted_lt_unique.
  - apply SSorted_filter, date_range_sorted.
  - apply SSorted_map. apply (SSorted_impl Z.lt); [|apply SSorted_filter, days_after_sorted].
    intros x y H. unfold f. cbv beta. nia.
  - pose proof (range_same _ _ _ _ _ Hl Hl') as [k Hk].
    assert (Ek : l' / one_day = l / one_day + k) by (replace l' with (l + k * one_day) by lia; rewrite Z.div_add by lia; reflexivity).
    pose proof (Z.div_mod l one_day ltac:(lia)) as El. assert (0 <= k) by nia.
    intros x. rewrite filter_In, in_map_iff. split.
    + intros [Hx R]. pose proof (range_same _ _ _ _ _ Hl Hx) as [j Hj]. exists (x / one_day).
      assert (Ej : x / one_day = l / one_day + j) by (replace x with (l + j * one_day) by lia; rewrite Z.div_add by lia; reflexivity).
      split; [unfold f; rewrite Ej; nia|]. apply filter_In. split.
      * apply days_after_In. rewrite Ej, Ek. nia.
      * destruct (range_member _ _ _ _ Hx) as [Bx _]. unfold day_of in Bx. rewrite NPD_one_day in Bx. exact Bx.
    + intros [d [<- Hd]]. apply filter_In in Hd. destruct Hd as [Hd Bd]. apply days_after_In in Hd. rewrite Ek in Hd.
      assert (Ef : f d = l + (d - l / one_day) * one_day) by (unfold f; lia).
      assert (Ed : f d / one_day = d) by (rewrite Ef, Z.div_add by lia; lia).
      assert (R : l < f d <= l') by (rewrite Ef; nia). split; [|lia].
      destruct (range_member _ _ _ _ Hl) as [_ C]. apply (C (f d) l' Hl'); [lia|exists (d - l / one_day); lia|].
      unfold day_of. rewrite NPD_one_day, Ed. exact Bd.
Qed.

Lemma distance_count : forall c l l', StronglySorted Z.lt (sessions c) -> In l (sessions c) -> In l' (sessions c) -> l <= l' ->
  searchsorted_right (sessions c) l' - searchsorted_left (sessions c) l =
  zlen (filter (fun x => (l <? x) && (x <=? l')) (sessions c)) + 1.
Proof.
  intros c l l' Ss Hl Hl' L. destruct (left_parts (sessions c) l Ss) as [-> _]. destruct (right_parts (sessions c) l' Ss) as [-> _].
  revert Ss Hl L. generalize (sessions c). clear. intros s Ss Hl L.
  assert (One : zlen (filter (fun x => x =? l) s) = 1).
  { pose proof (SSorted_lt_NoDup s Ss) as N. clear Ss L. induction s as [|x s IH]; [destruct Hl|].
    apply NoDup_cons_iff in N. destruct N as [N1 N2]. cbn [filter]. destruct (Z.eqb_spec x l) as [->|Nx].
    - rewrite zlen_cons. rewrite (filter_none (fun x => x =? l) s); [reflexivity|]. rewrite Forall_forall. intros y Hy.
      apply Z.eqb_neq. intros ->. tauto.
    - apply IH; [|exact N2]. destruct Hl as [Hl|Hl]; [congruence|exact Hl]. }
  rewrite <- One. clear Ss Hl One. induction s as [|x s IH]; cbn [filter]; [reflexivity|].
  destruct (Z.leb_spec x l'), (Z.ltb_spec x l), (Z.ltb_spec l x), (Z.eqb_spec x l); cbn [andb]; rewrite ?zlen_cons; lia.
Qed.

(** Adding [n] times [day] to a session gives the session that many places further,
    as long as the calendar has one; the sessions are made by adding [day]. *)
Theorem c92_sessions : forall D c start stop b, trading_calendar_day D = Ok c -> build D start stop = Ok b ->
  generate_range c start stop = Ok (sessions (cal b)) /\
  forall l n, is_session (cal b) l = true ->
    let l' := plus_days c n l in
    first_trading_session b <= l' <= last_trading_session b ->
    is_session (cal b) l' = true /\
    session_distance (cal b) l l' = if n <? 0 then n - 1 else n + 1.
Proof.
  intros D c start stop b H Hb. pose proof (build_sessions D start stop b Hb) as Es. unfold all_days in Es.
  split; [rewrite Es; apply c92_range; exact H|].
  intros l n Hl l' R. unfold is_session in *. rewrite contains_In in *. pose proof one_day_pos as P.
  destruct (sessions_span D start stop b l Hb Hl) as [_ [HF HL]].
  assert (Hl0 := Hl). rewrite Es in Hl0. destruct (range_member _ _ _ _ Hl0) as [Bl _]. unfold day_of in Bl. rewrite NPD_one_day in Bl.
  pose proof (proj1 (workday_business D _) Bl) as Wl.
  destruct (plus_dist D c n l H Wl) as [Bl' Dn]. fold l' in Bl', Dn.
  destruct (plus_days_parts c n l) as [_ M]. fold l' in M.
  assert (Dv : (one_day | l' - l)).
  { exists (l' / one_day - l / one_day). pose proof (Z.div_mod l one_day ltac:(lia)). pose proof (Z.div_mod l' one_day ltac:(lia)).
    rewrite M in *. lia. }
  assert (Hl' : In l' (sessions (cal b))).
  { rewrite Es in *. destruct (range_member _ _ _ _ HF) as [_ C]. apply (C l' _ HL); [lia| |].
    - pose proof (range_same _ _ _ _ _ HF Hl0). replace (l' - first_trading_session b) with ((l' - l) + (l - first_trading_session b)) by lia.
      apply Z.divide_add_r; assumption.
    - unfold day_of. rewrite NPD_one_day. rewrite <- (day_biz D c _ H). exact Bl'. }
  split; [exact Hl'|].
  assert (Ss : StronglySorted Z.lt (sessions (cal b))) by (rewrite Es; apply date_range_sorted).
  assert (Cext : forall a k, cnt (is_business c) a k = cnt (is_business_day D) a k).
  { intros a k. apply cnt_ext. intros x _. apply (day_biz D c x H). }
  unfold session_distance. change (all_sessions (cal b)) with (sessions (cal b)).
  assert (Mono : l <= l' <-> l / one_day <= l' / one_day).
  { pose proof (Z.div_mod l one_day ltac:(lia)). pose proof (Z.div_mod l' one_day ltac:(lia)). rewrite M in *. nia. }
  unfold dist in Dn. destruct (Z.ltb_spec l' l) as [Lt|Ge].
  - destruct (Z.leb_spec (l / one_day) (l' / one_day)) as [Q|Q]; [lia|].
    rewrite (distance_count (cal b) l' l Ss Hl' Hl ltac:(lia)), Es, between_cnt; [|rewrite <- Es; exact Hl'|exact Hl0|lia].
    rewrite <- Cext. pose proof (cnt_range (is_business c) (Z.to_nat (l / one_day - l' / one_day)) (l' / one_day)).
    destruct (Z.ltb_spec n 0); [lia|].
    assert (n = 0) by lia. exfalso.
    assert (dist (is_business c) (l' / one_day) (l / one_day) = 0) as D0.
    { unfold dist. destruct (Z.leb_spec (l' / one_day) (l / one_day)); lia. }
    apply dist_0 in D0; [lia|exact Bl'|rewrite (day_biz D c _ H); exact Bl].
  - destruct (Z.leb_spec (l / one_day) (l' / one_day)) as [Q|Q]; [|lia].
    rewrite (distance_count (cal b) l l' Ss Hl Hl' Ge), Es, between_cnt; [|exact Hl0|rewrite <- Es; exact Hl'|lia].
    rewrite <- Cext. pose proof (cnt_range (is_business c) (Z.to_nat (l' / one_day - l / one_day)) (l / one_day)).
    destruct (Z.ltb_spec n 0); lia.
Qed.

Lemma located : forall l x i, get_loc l x = Ok i -> NoDup l -> exists l1 l2, l = l1 ++ x :: l2 /\ i = zlen l1.
Proof.
  intros l x i H N. destruct (in_dec Z.eq_dec x l) as [I|I]; [|rewrite (get_loc_missing l x I) in H; discriminate].
  apply in_split in I. destruct I as [l1 [l2 ->]]. exists l1, l2. split; [reflexivity|].
  rewrite get_loc_app in H; [congruence|]. apply NoDup_remove_2 in N. intros J. apply N. apply in_app_iff. left. exact J.
Qed.

(** It is the next session and the previous one. *)
Theorem c92_neighbours : forall D c start stop b l x, trading_calendar_day D = Ok c -> build D start stop = Ok b ->
  (next_session_label (cal b) l = Ok x -> x = plus_days c 1 l) /\
  (previous_session_label (cal b) l = Ok x -> x = plus_days c (-1) l).
Proof.
  intros D c start stop b l x H Hb. pose proof (build_sessions D start stop b Hb) as Es. unfold all_days in Es.
  assert (Ss : StronglySorted Z.lt (sessions (cal b))) by (rewrite Es; apply date_range_sorted).
  pose proof (SSorted_lt_NoDup _ Ss) as N. pose proof one_day_pos as P.
  assert (Two : forall y z l1 l2, sessions (cal b) = l1 ++ y :: z :: l2 -> z = plus_days c 1 y).
  { intros y z l1 l2 E. assert (Iy : In y (sessions (cal b))) by (rewrite E; apply in_app_iff; right; left; reflexivity).
    assert (Iz : In z (sessions (cal b))) by (rewrite E; apply in_app_iff; right; right; left; reflexivity).
    destruct (next_gap D c y H) as [G1 [G2 [G3 G4]]]. rewrite E in Ss. apply SSorted_app in Ss. destruct Ss as [_ [Ss Sx]].
    apply SSorted_cons in Ss. destruct Ss as [Ss Fy]. apply SSorted_cons in Ss. destruct Ss as [_ Fz].
    rewrite Forall_forall in Fy, Fz.
    assert (Lz : y < z) by (apply Fy; left; reflexivity).
    assert (Le : plus_days c 1 y <= z).
    { rewrite Es in Iy, Iz. apply G4; [exact (range_same _ _ _ _ _ Iy Iz)|exact Lz|exact (proj1 (range_member _ _ _ _ Iz))]. }
    assert (In (plus_days c 1 y) (sessions (cal b))) as I.
    { rewrite Es in *. destruct (range_member _ _ _ _ Iy) as [_ C]. apply (C _ z Iz); [lia|exact G2|exact G3]. }
    rewrite E in I. apply in_app_iff in I. destruct I as [I|[I|[I|I]]].
    - specialize (Sx _ y I (or_introl eq_refl)). lia.
    - lia.
    - exact I.
    - specialize (Fz _ I). lia. }
  split; intros Q.
  - unfold next_session_label in Q. destruct (get_loc (sessions (cal b)) l) as [i|] eqn:G; [|discriminate Q]. cbn [bind] in Q.
    destruct (located _ _ _ G N) as [l1 [l2 [E ->]]].
    destruct (pyget (sessions (cal b)) (zlen l1 + 1)) as [y|e] eqn:Py; [|destruct e; try discriminate Q; destruct (_ =? _); discriminate Q].
    assert (y = x) by congruence. subst y. clear Q.
    rewrite E in Py. unfold pyget in Py. pose proof (zlen_nonneg l1).
    destruct (Z.ltb_spec (zlen l1 + 1) 0); [lia|]. destruct (Z.ltb_spec (zlen l1 + 1) 0); [lia|].
    replace (Z.to_nat (zlen l1 + 1)) with (length l1 + 1)%nat in Py by (unfold zlen; lia).
    rewrite nth_error_app2 in Py by lia. replace (length l1 + 1 - length l1)%nat with 1%nat in Py by lia.
    destruct l2 as [|z l2]; [discriminate Py|]. cbn in Py. injection Py as ->. exact (Two l x l1 l2 E).
  - unfold previous_session_label in Q. destruct (get_loc (sessions (cal b)) l) as [i|] eqn:G; [|discriminate Q]. cbn [bind] in Q.
    destruct (located _ _ _ G N) as [l1 [l2 [E ->]]]. destruct (Z.eqb_spec (zlen l1) 0) as [|N0]; [discriminate Q|].
    destruct l1 as [|z l1 _] using rev_ind; [exfalso; apply N0; reflexivity|].
    rewrite E in Q. unfold pyget in Q. rewrite zlen_app in Q. change (zlen [z]) with 1 in Q. pose proof (zlen_nonneg l1).
    destruct (Z.ltb_spec (zlen l1 + 1 - 1) 0); [lia|]. destruct (Z.ltb_spec (zlen l1 + 1 - 1) 0); [lia|].
    replace (Z.to_nat (zlen l1 + 1 - 1)) with (length l1) in Q by (unfold zlen; lia).
    rewrite <- app_assoc in Q. cbn [app] in Q. rewrite nth_error_app2, Nat.sub_diag in Q by lia. cbn in Q. injection Q as ->.
    rewrite <- app_assoc in E. cbn [app] in E. pose proof (Two x l l1 l2 E) as T.
    assert (Iz : In x (sessions (cal b))) by (rewrite E; apply in_app_iff; right; left; reflexivity).
    rewrite Es in Iz. destruct (range_member _ _ _ _ Iz) as [Bx _]. unfold day_of in Bx. rewrite NPD_one_day in Bx.
    destruct (c92_add D c (-1) 1 x H (proj1 (workday_business D _) Bx)) as [A1 A2]. change (-1 + 1) with 0 in A1.
    rewrite T, A1, A2. reflexivity.
Qed.

(** Constructing a calendar step by step is [build] for every weekmask of seven days with a
    day in it, and a ValueError for every other one. *)
Theorem c92_construct : forall D start stop,
  (length (weekmask D) = 7%nat /\ In true (weekmask D) -> construct D start stop = build D start stop) /\
  (~ (length (weekmask D) = 7%nat /\ In true (weekmask D)) -> construct D start stop = Raise ValueError) /\
  (forall b, construct D start stop = Ok b -> exists c, trading_calendar_day D = Ok c /\
     generate_range c start stop = Ok (sessions (cal b)) /\ build D start stop = Ok b).
Proof.
  intros D start stop. destruct (c92_exists D) as [X1 X2].
  assert (G : forall c, trading_calendar_day D = Ok c -> construct D start stop = build D start stop).
  { intros c H. unfold construct. rewrite H. cbn [bind]. rewrite (c92_range D c start stop H). reflexivity. }
  split; [intros V; destruct (X1 V) as [c H]; exact (G c H)|].
  split; [intros V; unfold construct; rewrite (X2 V); reflexivity|].
  intros b H. destruct (trading_calendar_day D) as [c|e] eqn:Ec.
  - exists c. split; [reflexivity|]. rewrite (G c eq_refl) in H. split; [|exact H].
    exact (proj1 (c92_sessions D c start stop b Ec H)).
  - unfold construct in H. rewrite Ec in H. discriminate H.
Qed.

(** Every exchange has one such [day], whatever the range of the calendar: stepping off
    the end of one calendar leads to the sessions of a longer one. *)
Theorem c92_exchanges : forall name E, In (name, E) exchanges -> exists c,
  forall z start stop, trading_calendar_day (instantiate E z start stop) = Ok c /\
    forall b, build_exchange E z start stop = Ok b -> forall l n, is_session (cal b) l = true ->
      first_trading_session b <= plus_days c n l <= last_trading_session b ->
      is_session (cal b) (plus_days c n l) = true /\
      session_distance (cal b) l (plus_days c n l) = if n <? 0 then n - 1 else n + 1.
Proof.
  intros name E H.
  assert (M : length (ex_weekmask E) = 7%nat /\ existsb (fun x => x) (ex_weekmask E) = true).
  { assert (F : forallb (fun p => Nat.eqb (length (ex_weekmask (snd p))) 7 && existsb (fun x => x) (ex_weekmask (snd p))) exchanges = true)
      by (vm_compute; reflexivity).
    rewrite forallb_forall in F. specialize (F _ H). cbn [snd] in F. apply andb_true_iff in F. destruct F as [F1 F2].
    apply Nat.eqb_eq in F1. split; assumption. }
  destruct M as [M1 M2]. apply existsb_exists in M2. destruct M2 as [x [Ix ->]].
  destruct (proj1 (c92_exists (instantiate E {| initial_offset := 0; transitions := [] |} 0 0)) (conj M1 Ix)) as [c Hc]. exists c. intros z start stop.
  assert (Hc' : trading_calendar_day (instantiate E z start stop) = Ok c) by exact Hc.
  split; [exact Hc'|]. intros b Hb l n Hl R.
  exact (proj2 (c92_sessions _ c start stop b Hc' Hb) l n Hl R).
Qed.

(** ** A calendar with a holiday on a Thursday (March 5, 2020) *)

Definition ex_day : busdaycalendar :=
  match trading_calendar_day ex_D with Ok c => c | Raise _ => Busdaycalendar [] 0 [] end.

Example ex_day_ok : trading_calendar_day ex_D = Ok ex_day.
Proof. vm_compute. reflexivity. Qed.

(** March 4 and a day is March 6; March 2, 10:00, and nine days is March 16, 10:00; a
    Saturday and a day is the Monday, a Sunday and no day too; a Saturday less a day is
    the Friday. *)
Example c92_ex : plus_days ex_day 1 (ex_date 4) = ex_date 6 /\
  plus_days ex_day 9 (ex_date 2 + ex_hours 10) = ex_date 16 + ex_hours 10 /\
  plus_days ex_day (-9) (ex_date 16) = ex_date 2 /\
  plus_days ex_day 1 (ex_date 7) = ex_date 9 /\ plus_days ex_day 0 (ex_date 8) = ex_date 9 /\
  plus_days ex_day (-1) (ex_date 7) = ex_date 6 /\
  (first_trading_session ex_built <= plus_days ex_day 9 (ex_date 2) <= last_trading_session ex_built) /\
  is_session (cal ex_built) (ex_date 2) = true /\
  next_session_label (cal ex_built) (ex_date 4) = Ok (ex_date 6) /\
  previous_session_label (cal ex_built) (ex_date 6) = Ok (ex_date 4).
Proof. vm_compute. repeat split; intros; discriminate. Qed.

Example c92_construct_ex : construct ex_D ex_start ex_stop = Ok ex_built /\
  construct (Definition_ ex_zone [false; false; false; false; false; false; false] [] [] [] None None [] 0 0 [] [] [] [])
    ex_start ex_stop = Raise ValueError.
Proof. vm_compute. split; reflexivity. Qed.

(** One day on and one day back does not return to a day that is not a trading day:
    from Saturday it is Monday, then Friday. *)
Theorem c92_back_again_refuted : exists D c t, trading_calendar_day D = Ok c /\
  plus_days c (-1) (plus_days c 1 t) <> t.
Proof. exists ex_D, ex_day, (ex_date 7). split; [exact ex_day_ok|]. vm_compute. discriminate. Qed.

(** ** Assumptions *)
Print Assumptions c92_exists.
Print Assumptions c92_forward.
Print Assumptions c92_backward.
Print Assumptions c92_zero.
Print Assumptions c92_add.
Print Assumptions c92_add_other.
Print Assumptions c92_range.
Print Assumptions c92_roll.
Print Assumptions c92_sessions.
Print Assumptions c92_neighbours.
Print Assumptions c92_construct.
Print Assumptions c92_exchanges.
Print Assumptions c92_back_again_refuted.
