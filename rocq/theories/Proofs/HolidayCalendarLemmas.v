(** The dates of a rule with their multiplicity (C93). *)
From Coq Require Import ZArith List Bool Lia Sorting.Sorted Sorting.Permutation.
From Verif.Model Require Import Base Dates Holidays HolidayCalendar.
From Verif.Spec Require Import Civil Rules.
From Verif.Proofs Require Import BaseLemmas DatesLemmas RuleLemmas RuleRange.
Import ListNotations.
Open Scope list_scope.
Open Scope Z_scope.

(** ** Sorting *)

Lemma insert_date_In : forall x l y, In y (insert_date x l) <-> y = x \/ In y l.
Proof.
  intros x l y. induction l as [|z l IH]; cbn [insert_date]; [cbn; intuition|].
  destruct (x <=? z); cbn [In] in *; [intuition|]. rewrite IH. tauto.
Qed.
Lemma sort_dates_In : forall l y, In y (sort_dates l) <-> In y l.
Proof.
  intros l y. induction l as [|x l IH]; [reflexivity|].
  change (sort_dates (x :: l)) with (insert_date x (sort_dates l)). rewrite insert_date_In, IH. cbn [In]. intuition.
Qed.
Lemma insert_date_sorted : forall x l, StronglySorted Z.le l -> StronglySorted Z.le (insert_date x l).
Proof.
  intros x l H. induction H as [|z l S IH F]; cbn [insert_date]; [constructor; constructor|].
  destruct (Z.leb_spec x z) as [L|L].
  - constructor; [constructor; assumption|]. constructor; [exact L|]. eapply Forall_impl; [|exact F]. cbn. intros; lia.
  - constructor; [exact IH|]. apply Forall_forall. intros y Hy. apply insert_date_In in Hy. destruct Hy as [->|Hy]; [lia|].
    rewrite Forall_forall in F. apply F. exact Hy.
Qed.
Lemma sort_dates_sorted : forall l, StronglySorted Z.le (sort_dates l).
Proof. induction l as [|x l IH]; [constructor|]. apply insert_date_sorted. exact IH. Qed.
Lemma filter_sorted : forall (f : Z -> bool) l, StronglySorted Z.le l -> StronglySorted Z.le (filter f l).
Proof.
  intros f l H. induction H as [|z l S IH F]; cbn [filter]; [constructor|]. destruct (f z); [|exact IH].
  constructor; [exact IH|]. rewrite Forall_forall in *. intros y Hy. apply filter_In in Hy. apply F. apply Hy.
Qed.
Lemma insert_date_perm : forall x l, Permutation (insert_date x l) (x :: l).
Proof.
  intros x l. induction l as [|y l IH]; cbn [insert_date]; [reflexivity|]. destruct (x <=? y); [reflexivity|].
  rewrite IH. apply perm_swap.
Qed.
Lemma sort_dates_perm : forall l, Permutation (sort_dates l) l.
Proof.
  induction l as [|x l IH]; [reflexivity|].
  change (sort_dates (x :: l)) with (insert_date x (sort_dates l)). rewrite insert_date_perm, IH. reflexivity.
Qed.
Lemma perm_filter : forall {A} (f : A -> bool) l l', Permutation l l' -> Permutation (filter f l) (filter f l').
Proof.
  intros A f l l' H. induction H as [|x l l' H IH|x y l|l1 l2 l3 H1 IH1 H2 IH2]; cbn [filter]; [reflexivity|..].
  - destruct (f x); [constructor|]; exact IH.
  - destruct (f x), (f y); try reflexivity. apply perm_swap.
  - rewrite IH1. exact IH2.
Qed.
Lemma sorted_unique : forall l l', StronglySorted Z.le l -> StronglySorted Z.le l' -> Permutation l l' -> l = l'.
Proof.
  intros l l' H. revert l'. induction H as [|x l S IH F]; intros l' S' P; [apply Permutation_nil in P; symmetry; exact P|].
  destruct S' as [|y l' S' F']; [apply Permutation_sym, Permutation_nil in P; discriminate P|].
  assert (x = y) as ->.
  { rewrite Forall_forall in F, F'. assert (I : In y (x :: l)) by (apply (Permutation_in _ (Permutation_sym P)); left; reflexivity).
    assert (J : In x (y :: l')) by (apply (Permutation_in _ P); left; reflexivity).
    destruct I as [I|I]; [exact I|]. destruct J as [J|J]; [symmetry; exact J|]. specialize (F _ I). specialize (F' _ J). lia. }
  f_equal. apply IH; [exact S'|]. apply Permutation_cons_inv in P. exact P.
Qed.

(** ** Rules, year by year *)

Definition splits (F : list Z -> list Z) : Prop := forall l1 l2, Permutation (F (l1 ++ l2)) (F l1 ++ F l2).

Lemma splits_id : splits (fun l => l).
Proof. intros l1 l2. reflexivity. Qed.
Lemma splits_map : forall f F, splits F -> splits (fun l => map f (F l)).
Proof. intros f F H l1 l2. rewrite (Permutation_map f (H l1 l2)), map_app. reflexivity. Qed.
Lemma splits_filter : forall f F, splits F -> splits (fun l => filter f (F l)).
Proof. intros f F H l1 l2. rewrite (perm_filter f _ _ (H l1 l2)), filter_app. reflexivity. Qed.
Lemma splits_app : forall F G, splits F -> splits G -> splits (fun l => F l ++ G l).
Proof.
  intros F G H K l1 l2. rewrite (H l1 l2), (K l1 l2), <- !app_assoc. apply Permutation_app_head.
  rewrite !app_assoc. apply Permutation_app_tail. apply Permutation_app_comm.
Qed.
Lemma splits_flat_map : forall f, splits (fun l => flat_map f l).
Proof. intros f l1 l2. rewrite flat_map_app. reflexivity. Qed.

Lemma observance_splits : forall o, splits (apply_observance o).
Proof.
  intros o. destruct o; unfold apply_observance; try (apply splits_map, splits_id).
  - apply splits_flat_map.
  - unfold four_day_weekend. cbv zeta.
    repeat first [apply splits_app | apply splits_map | apply splits_filter | exact splits_id].
  - unfold cultural_diversity_observance.
    repeat first [apply splits_app | apply splits_map | apply splits_filter | exact splits_id].
  - apply splits_filter, splits_id.
  - unfold weekend_to_monday_except. repeat first [apply splits_map | apply splits_filter | exact splits_id].
  - unfold xbkk_new_years_day_observance. repeat first [apply splits_map | apply splits_filter | exact splits_id].
  - apply splits_filter, splits_id.
  - unfold taiwan_makeup_rule. cbv zeta.
    repeat first [apply splits_app | apply splits_map | apply splits_filter | exact splits_id].
Qed.

Lemma offsets_splits : forall os, splits (fun l => fold_left (fun ds o => map (apply_offset o) ds) os l).
Proof.
  induction os as [|o os IH]; cbn [fold_left]; [apply splits_id|]. intros l1 l2. rewrite map_app. apply IH.
Qed.

Lemma apply_rule_splits : forall r, splits (apply_rule r).
Proof.
  intros r. unfold apply_rule. destruct (r_observance r) as [o|]; [apply observance_splits|apply offsets_splits].
Qed.

(** Rules that lead from every year to near that year. *)
Definition steady (r : rule) : bool :=
  settled r &&
  match r_observance r with
  | Some Following_tuesday_every_four_years =>
      match r_start r, r_end r with Some _, Some _ => true | _, _ => false end
  | _ => true
  end.

Lemma settled_near_same : forall r y n, settled r = true -> r_year r = None ->
  r_observance r <> Some Following_tuesday_every_four_years ->
  leads r (reference r y) n -> year_of n - 1 <= y <= year_of n + 1.
Proof.
  intros r y n S Y NF L. unfold settled in S. apply andb_true_iff in S. destruct S as [V S].
  rewrite Y in S. pose proof (valid_rule_date r y V) as Vd.
  assert (K : Z.abs (n - reference r y) <= 365 -> year_of n - 1 <= y <= year_of n + 1).
  { intros H. pose proof (year_near (reference r y) n y (date_number_year _ _ _ Vd) H). lia. }
  assert (J : r_month r = 1 -> 1 <= r_day r <= 31).
  { intros E. destruct Vd as [_ Vd]. rewrite E in Vd. exact Vd. }
  pose proof L as L0. unfold leads in L0.
  assert (Vo : r_observance r = None -> forallb valid_offset (r_offset r) = true).
  { intros E. unfold valid_rule in V. rewrite E, andb_true_iff in V. apply V. }
  destruct (r_observance r) as [o|] eqn:Ob.
  - pose proof (observance_reach o _ _ L0) as R.
    assert (C : o = Good_friday_unless_christmas_nye_friday \/
                Z.abs (n - reference r y) <= 70) by (destruct o; try tauto; exfalso; apply NF; reflexivity).
    destruct C as [->|C]; [|apply K; lia].
    apply K. cbn [observance_settled] in S. apply Z.eqb_eq in S.
    destruct L0 as [y0 [e [_ [He [-> _]]]]]. unfold reference in *. rewrite S in *.
    apply easter_from_january in He; [|apply J; reflexivity]. subst e.
    pose proof (easter_january_reach y (r_day r) (J eq_refl)). lia.
  - specialize (Vo eq_refl). apply K. destruct (r_offset r) as [|o os] eqn:Eo.
    + cbn in L0. subst. rewrite Z.sub_diag. cbn. lia.
    + assert (G : o = Easter \/ chain_reach (o :: os) <= 300) by (destruct o; auto; right; apply Z.leb_le; exact S).
      destruct G as [->|G].
      * apply andb_true_iff in S. destruct S as [S1 S2]. apply Z.eqb_eq in S1. apply Z.leb_le in S2.
        cbn [moves_all] in L0. destruct L0 as [b [H1 H2]]. cbn [forallb] in Vo.
        apply andb_true_iff in Vo. destruct Vo as [_ Vo].
        pose proof (chain_reach_ok os b n Vo ltac:(lia) H2). unfold reference in *. rewrite S1 in *.
        apply easter_from_january in H1; [|apply J; reflexivity]. subst b.
        pose proof (easter_january_reach y (r_day r) (J eq_refl)). lia.
      * pose proof (chain_reach_ok (o :: os) _ n Vo ltac:(lia) L0). lia.
Qed.

Lemma years_from : forall a n m s,
  map (fun k => a + Z.of_nat k) (seq (n + s) m) = map (fun k => a + Z.of_nat n + Z.of_nat k) (seq s m).
Proof.
  intros a n m. induction m as [|m IH]; intros s; [reflexivity|]. cbn [seq map]. f_equal; [lia|].
  rewrite <- IH. f_equal. f_equal. lia.
Qed.

Lemma year_range_app : forall a b c, a <= b + 1 -> b <= c -> year_range a c = year_range a b ++ year_range (b + 1) c.
Proof.
  intros a b c H1 H2. unfold year_range.
  replace (Z.to_nat (c + 1 - a)) with (Z.to_nat (b + 1 - a) + Z.to_nat (c + 1 - (b + 1)))%nat by lia.
  rewrite seq_app, map_app. f_equal. rewrite Nat.add_0_l.
  pose proof (years_from a (Z.to_nat (b + 1 - a)) (Z.to_nat (c + 1 - (b + 1))) 0) as Y. rewrite Nat.add_0_r in Y. rewrite Y.
  replace (a + Z.of_nat (Z.to_nat (b + 1 - a))) with (b + 1) by lia. reflexivity.
Qed.

Lemma filter_twice : forall {A} (f g : A -> bool) l, filter f (filter g l) = filter (fun x => g x && f x) l.
Proof.
  intros A f g l. induction l as [|x l IH]; [reflexivity|]. cbn [filter]. destruct (g x); cbn [filter andb]; rewrite IH; reflexivity.
Qed.

Lemma filter_none : forall {A} (f : A -> bool) l, (forall x, In x l -> f x = false) -> filter f l = [].
Proof.
  intros A f l H. induction l as [|x l IH]; [reflexivity|]. cbn [filter]. rewrite (H x (or_introl eq_refl)).
  apply IH. intros y Hy. apply H. right. exact Hy.
Qed.

Definition in_range (start stop : Z) (d : Z) : bool := (start <=? midnight d) && (midnight d <=? stop).
Definition kept (r : rule) (start stop : Z) (d : Z) : bool :=
  (match r_days_of_week r with Some dow => memb (weekday d) dow | None => true end) &&
  (match r_start r with Some s => midnight s <=? midnight d | None => true end) &&
  (match r_end r with Some e => midnight d <=? midnight e | None => true end) &&
  in_range start stop d.

Lemma kept_dates : forall r start stop S E, r_year r = None -> S <= start -> stop <= E ->
  filter (in_range start stop) (rule_dates r S E) = filter (kept r start stop) (apply_rule r (reference_dates r S E)).
Proof.
  intros r start stop S E Y H1 H2. unfold rule_dates. rewrite Y. cbv zeta.
  rewrite filter_twice. destruct (r_days_of_week r) as [dow|] eqn:Ed; [rewrite filter_twice|];
    apply filter_ext; intros d; unfold kept, in_range; rewrite Ed; cbn [andb];
    [destruct (memb (weekday d) dow); cbn [andb]; [|reflexivity]|];
    apply eq_true_iff_eq; destruct (r_start r), (r_end r); rewrite ?andb_true_iff, ?Z.leb_le; intuition lia.
Qed.

Lemma kept_none : forall r start stop l, settled r = true -> r_year r = None ->
  r_observance r <> Some Following_tuesday_every_four_years ->
  (forall y, In y l -> ~ (first_year r start <= y <= last_year r stop)) ->
  filter (kept r start stop) (apply_rule r (map (fun y => days_from_civil y (r_month r) (r_day r)) l)) = [].
Proof.
  intros r start stop l S Y N H. apply filter_none. intros d Hd.
  assert (V : valid_rule r = true) by (unfold settled in S; apply andb_true_iff in S; apply S).
  apply apply_rule_iff in Hd; [|exact V]. destruct Hd as [a [Ha L]]. apply in_map_iff in Ha. destruct Ha as [y [<- Hy]].
  rewrite (days_from_civil_ok _ _ _ (proj1 (valid_rule_date r y V))) in L. fold (reference r y) in L.
  pose proof (settled_near_same r y d S Y N L) as Ny.
  destruct (kept r start stop d) eqn:K; [|reflexivity]. exfalso. apply (H y Hy). unfold kept, in_range in K.
  rewrite !andb_true_iff, !Z.leb_le in K. destruct K as [[[_ K1] K2] [K3 K4]]. unfold first_year, last_year. split.
  - destruct (r_start r) as [s|].
    + apply Z.leb_le in K1. pose proof (year_of_mono s d ltac:(unfold midnight, NANOS_PER_DAY in K1; lia)). lia.
    + pose proof (year_of_mono _ d (day_of_midnight' d start K3)). lia.
  - destruct (r_end r) as [e|].
    + apply Z.leb_le in K2. pose proof (year_of_mono d e ltac:(unfold midnight, NANOS_PER_DAY in K2; lia)). lia.
    + pose proof (year_of_mono d _ (day_of_midnight d stop K4)). lia.
Qed.

Lemma rule_part : forall r start stop S E, steady r = true -> S <= start -> stop <= E ->
  Permutation (filter (in_range start stop) (rule_dates r S E)) (filter (in_range start stop) (rule_dates r start stop)).
Proof.
  intros r start stop S E St H1 H2. unfold steady in St. apply andb_true_iff in St. destruct St as [Se St].
  destruct (r_year r) as [y|] eqn:Y; [unfold rule_dates; rewrite Y; reflexivity|].
  rewrite !kept_dates by (assumption || lia).
  assert (C : r_observance r <> Some Following_tuesday_every_four_years \/ exists s e, r_start r = Some s /\ r_end r = Some e).
  { destruct (r_observance r) as [[]|]; try (left; discriminate).
    right. destruct (r_start r) as [s|], (r_end r) as [e|]; try discriminate St. exists s, e. split; reflexivity. }
  destruct C as [N|[s [e [E1 E2]]]]; [|unfold reference_dates; rewrite E1, E2; reflexivity].
  unfold reference_dates.
  set (f := fun y => days_from_civil y (r_month r) (r_day r)).
  assert (La : first_year r S <= first_year r start).
  { unfold first_year. destruct (r_start r); [lia|]. pose proof (year_of_mono (day_of S) (day_of start)) as M.
    assert (day_of S <= day_of start) by (unfold day_of; apply Z.div_le_mono; [unfold NANOS_PER_DAY; lia|lia]). lia. }
  assert (Lb : last_year r stop <= last_year r E).
  { unfold last_year. destruct (r_end r); [lia|]. pose proof (year_of_mono (day_of stop) (day_of E)) as M.
    assert (day_of stop <= day_of E) by (unfold day_of; apply Z.div_le_mono; [unfold NANOS_PER_DAY; lia|lia]). lia. }
  unfold first_year, last_year in La, Lb.
  set (A := year_of (match r_start r with Some s => s | None => day_of S end) - 1) in *.
  set (B := year_of (match r_end r with Some e => e | None => day_of E end) + 1) in *.
  assert (None' := fun l => kept_none r start stop l Se Y N). fold f in None'. unfold first_year, last_year in None'.
  set (a := year_of (match r_start r with Some s => s | None => day_of start end) - 1) in *.
  set (b := year_of (match r_end r with Some e => e | None => day_of stop end) + 1) in *.
  destruct (Z.le_gt_cases a (b + 1)) as [L|L].
  - rewrite (year_range_app A (a - 1) B) by lia. replace (a - 1 + 1) with a by lia.
    rewrite (year_range_app a b B) by lia. rewrite !map_app.
    rewrite (perm_filter _ _ _ (apply_rule_splits r _ _)), filter_app.
    rewrite (perm_filter _ _ _ (apply_rule_splits r (map f (year_range a b)) _)), filter_app.
    rewrite (None' (year_range A (a - 1))) by (intros y Hy; apply year_range_In in Hy; lia).
    rewrite (None' (year_range (b + 1) B)) by (intros y Hy; apply year_range_In in Hy; lia).
    rewrite app_nil_r. reflexivity.
  - rewrite (None' (year_range A B)) by (intros y Hy; lia).
    rewrite (None' (year_range a b)) by (intros y Hy; lia). reflexivity.
Qed.

Lemma rules_part : forall rules start stop S E, (forall r, In r rules -> steady r = true) -> S <= start -> stop <= E ->
  filter (fun x => (start <=? x) && (x <=? stop)) (sort_dates (map midnight (flat_map (fun r => rule_dates r S E) rules))) =
  filter (fun x => (start <=? x) && (x <=? stop)) (sort_dates (map midnight (flat_map (fun r => rule_dates r start stop) rules))).
Proof.
  intros rules start stop S E St H1 H2. apply sorted_unique; [apply filter_sorted, sort_dates_sorted..|].
  rewrite !(perm_filter _ _ _ (sort_dates_perm _)).
  assert (FM : forall l, filter (fun x => (start <=? x) && (x <=? stop)) (map midnight l) = map midnight (filter (in_range start stop) l)).
  { induction l as [|x l IH]; [reflexivity|]. cbn [map filter]. unfold in_range at 1. rewrite IH.
    destruct ((start <=? midnight x) && (midnight x <=? stop)); reflexivity. }
  rewrite !FM. apply Permutation_map. induction rules as [|r rules IH]; [reflexivity|]. cbn [flat_map]. rewrite !filter_app.
  rewrite (rule_part r start stop S E (St r (or_introl eq_refl)) H1 H2). apply Permutation_app_head. apply IH.
  intros r' Hr'. apply St. right. exact Hr'.
Qed.
