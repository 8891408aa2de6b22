(** Facts about the steps of construction. *)
From Coq Require Import ZArith List Bool Lia Sorting.Sorted Sorting.Permutation.
From Verif.Model Require Import Base Helpers Queries Dates Zone Build.
From Verif.Spec Require Import Schedule Construction.
From Verif.Proofs Require Import BaseLemmas ScheduleLemmas QueryLemmas2 ZoneLemmas.
Import ListNotations.
Open Scope Z_scope.

Lemma NPD_one_day : NANOS_PER_DAY = one_day.
Proof. vm_compute. reflexivity. Qed.

Lemma one_day_pos : 0 < one_day.
Proof. vm_compute. reflexivity. Qed.

Global Opaque one_day NANOS_PER_DAY.

Lemma time_delta_local : forall x t k, x + time_delta t k = local_time x k t.
Proof.
  intros. unfold time_delta, local_time. rewrite NPD_one_day.
  change NANOS_PER_SECOND with (10 ^ 9). lia.
Qed.

Lemma Ok_inj : forall {A} (a b : A), Ok a = Ok b -> a = b.
Proof. intros A a b H. injection H as ->. reflexivity. Qed.

(** ** Generic lists *)

Lemma mapM_Forall2 : forall {A B} (f : A -> result B) l l',
  mapM f l = Ok l' <-> Forall2 (fun x y => f x = Ok y) l l'.
Proof.
  intros A B f. induction l as [|x l IH]; intros l'; simpl.
  - split; intros H.
    + injection H as <-. constructor.
    + inversion H. reflexivity.
  - destruct (f x) as [y|e] eqn:E; cbv [bind].
    + destruct (mapM f l) as [ys|e] eqn:E2.
      * split; intros H.
        -- injection H as <-. constructor; [exact E|]. apply IH. reflexivity.
        -- inversion H; subst. apply IH in H4. congruence.
      * split; intros H; [discriminate|]. inversion H; subst. apply IH in H4. discriminate.
    + split; intros H; [discriminate|]. inversion H; subst. congruence.
Qed.

Lemma mapM_total : forall {A B} (f : A -> result B) l,
  (forall x, In x l -> exists y, f x = Ok y) -> exists l', mapM f l = Ok l'.
Proof.
  intros A B f. induction l as [|x l IH]; intros H; simpl; [eauto|].
  destruct (H x (or_introl eq_refl)) as [y ->]. cbv [bind].
  destruct IH as [l' ->]; [firstorder|]. eauto.
Qed.

Lemma mapM_Raise : forall {A B} (f : A -> result B) l e, mapM f l = Raise e ->
  exists x, In x l /\ f x = Raise e.
Proof.
  intros A B f. induction l as [|x l IH]; intros e H; simpl in H; [discriminate|].
  destruct (f x) as [y|e'] eqn:E; cbv [bind] in H.
  - destruct (mapM f l) as [ys|e'] eqn:E2; [discriminate|].
    destruct (IH e H) as [x' [Hin Hx]]. exists x'. simpl. tauto.
  - injection H as <-. exists x. simpl. tauto.
Qed.

Lemma Forall2_impl : forall {A B} (P Q : A -> B -> Prop) l l',
  (forall x y, In x l -> P x y -> Q x y) -> Forall2 P l l' -> Forall2 Q l l'.
Proof.
  intros A B P Q l l' H HF. induction HF as [|x y l l' Hxy HF IH]; constructor.
  - apply H; [left; reflexivity|exact Hxy].
  - apply IH. intros. apply H; [right|]; assumption.
Qed.

Lemma Forall2_zlen : forall {A B} (P : A -> B -> Prop) l l', Forall2 P l l' -> zlen l = zlen l'.
Proof.
  intros A B P l l' H. induction H; rewrite ?zlen_cons; [reflexivity|lia].
Qed.

Lemma filter_zlen_all : forall {A} (p : A -> bool) l, zlen (filter p l) = zlen l -> filter p l = l.
Proof.
  intros A p. assert (L : forall l, zlen (filter p l) <= zlen l).
  { induction l as [|x l IH]; simpl; [lia|]. destruct (p x); rewrite ?zlen_cons; lia. }
  induction l as [|x l IH]; simpl; [reflexivity|]. destruct (p x); rewrite ?zlen_cons; intros H.
  - rewrite IH; [reflexivity|lia].
  - specialize (L l). lia.
Qed.

Lemma get_loc_In : forall l x, In x l -> exists i, get_loc l x = Ok i /\ 0 <= i < zlen l /\
  nth_error l (Z.to_nat i) = Some x.
Proof.
  unfold get_loc. intros l x.
  assert (G : forall l k, In x l -> exists i, get_loc_from k l x = Ok (k + i) /\ 0 <= i < zlen l /\
    nth_error l (Z.to_nat i) = Some x).
  { clear l. induction l as [|y l IH]; intros k H; [destruct H|]. simpl.
    destruct (Z.eqb_spec y x) as [->|Hn].
    - exists 0. rewrite zlen_cons. pose proof (zlen_nonneg l). repeat split; try lia.
      f_equal. lia.
    - destruct H as [H|H]; [congruence|]. destruct (IH (k + 1) H) as [i [E [Hi En]]].
      exists (i + 1). rewrite zlen_cons. repeat split; try lia.
      + rewrite E. f_equal. lia.
      + replace (Z.to_nat (i + 1)) with (S (Z.to_nat i)) by lia. exact En. }
  intros H. destruct (G l 0 H) as [i [E R]]. exists i. rewrite E. split; [f_equal; lia|exact R].
Qed.

Lemma get_indexer_bad : forall l x, (get_indexer1 l x =? -1) = true <-> ~ In x l.
Proof.
  intros l x. unfold get_indexer1. split.
  - intros H Hin. destruct (get_loc_In l x Hin) as [i [E [Hi _]]]. rewrite E in H. lia.
  - intros H. rewrite (get_loc_missing l x H). reflexivity.
Qed.

(** Reading a column at a label. *)
Lemma column_at : forall (R : Z -> Z -> Prop) l col x, Forall2 R l col -> In x l ->
  exists v, (do idx <- get_loc l x; pyget col idx) = Ok v /\ R x v.
Proof.
  intros R l col x HF Hin. destruct (get_loc_In l x Hin) as [i [E [Hi En]]].
  rewrite E. cbv [bind].
  assert (G : forall n l col, Forall2 R l col -> nth_error l n = Some x ->
              exists v, nth_error col n = Some v /\ R x v).
  { clear. induction n as [|n IH]; intros l col HF En; inversion HF; subst; simpl in En;
      try discriminate.
    - injection En as ->. exists y. split; [reflexivity|assumption].
    - apply (IH l0 l' H0 En). }
  destruct (G (Z.to_nat i) l col HF En) as [v [Ev Hv]]. exists v. split; [|exact Hv].
  unfold pyget. destruct (Z.ltb_spec i 0); [lia|]. destruct (Z.ltb_spec i 0); [lia|].
  rewrite Ev. reflexivity.
Qed.

(** ** date_range *)

Lemma business_trading : forall D x,
  is_business_day D (day_of x) = true <-> trading_day D x.
Proof.
  intros D x. unfold is_business_day, trading_day, weekday, day_of. rewrite NPD_one_day.
  rewrite andb_true_iff, negb_true_iff. set (n := Z.to_nat _). split.
  - intros [H1 H2]. split.
    + destruct (nth_error (weekmask D) n) as [b|] eqn:E.
      * apply nth_error_nth with (d := false) in E. congruence.
      * apply nth_error_None in E. rewrite nth_overflow in H1 by exact E. discriminate.
    + intros h Hh E. apply Bool.not_true_iff_false in H2. apply H2.
      apply existsb_exists. exists h. split; [apply in_app_iff; exact Hh|].
      apply Z.eqb_eq. exact E.
  - intros [H1 H2]. split.
    + apply nth_error_nth. exact H1.
    + apply Bool.not_true_iff_false. intros H. apply existsb_exists in H.
      destruct H as [h [Hin E]]. apply in_app_iff in Hin. apply Z.eqb_eq in E.
      apply (H2 h Hin E).
Qed.

Lemma roll_back_spec : forall b n d, let r := roll_back b n d in
  r <= d /\ d - Z.of_nat n <= r /\ forall e, r < e <= d -> b e = false.
Proof.
  intros b. induction n as [|n IH]; intros d; simpl.
  - repeat split; try lia. 
  - destruct (b d) eqn:E.
    + repeat split; try lia.
    + specialize (IH (d - 1)). cbv zeta in IH. destruct IH as [H1 [H2 H3]].
      split; [lia|]. split; [lia|]. intros e He.
      destruct (Z.eq_dec e d) as [->|Hn]; [exact E|]. apply H3. lia.
Qed.

Lemma day_split : forall x, x = day_of x * one_day + x mod one_day /\ 0 <= x mod one_day < one_day.
Proof.
  intros x. unfold day_of. rewrite NPD_one_day. pose proof one_day_pos.
  pose proof (Z.div_mod x one_day). pose proof (Z.mod_pos_bound x one_day). lia.
Qed.

Lemma date_range_In : forall b start stop x, start mod one_day <= stop mod one_day ->
  (In x (date_range b start stop) <->
   (one_day | x - start) /\ start <= x <= stop /\ b (day_of x) = true).
Proof.
  intros b start stop x Hm. unfold date_range. rewrite filter_In, arange_In
    by (rewrite NPD_one_day; exact one_day_pos). rewrite NPD_one_day. unfold midnight.
  rewrite NPD_one_day.
  destruct (b (day_of start) && negb (b (day_of stop))) eqn:E.
  - set (r := roll_back b _ (day_of stop)).
    destruct (roll_back_spec b (Z.to_nat (day_of stop - day_of start)) (day_of stop))
      as [R1 [_ R3]]. fold r in R1, R3. clearbody r.
    assert (K : (one_day | x - start) -> b (day_of x) = true ->
                (x < r * one_day + stop mod one_day + 1 <-> x <= stop)).
    { intros Hdiv Hb. pose proof one_day_pos.
      assert (Ex : x mod one_day = start mod one_day).
      { destruct Hdiv as [k Hk]. replace x with (start + k * one_day) by lia.
        apply Z_mod_plus_full. }
      pose proof (day_split x) as [X1 X2]. pose proof (day_split stop) as [S1 S2].
      split; intros Hx.
      - assert (r * one_day <= day_of stop * one_day) by (apply Z.mul_le_mono_nonneg_r; lia). lia.
      - assert (day_of x <= r).
        { destruct (Z_le_gt_dec (day_of x) r) as [H0|H0]; [exact H0|exfalso].
          rewrite (R3 (day_of x)) in Hb; [discriminate|]. split; [lia|].
          assert (~ day_of stop + 1 <= day_of x); [|lia]. intros Hc.
          assert ((day_of stop + 1) * one_day <= day_of x * one_day)
            by (apply Z.mul_le_mono_nonneg_r; lia). lia. }
        assert (day_of x * one_day <= r * one_day) by (apply Z.mul_le_mono_nonneg_r; lia). lia. }
    split; intros [H1 H2].
    + destruct H1 as [H1 Hd]. rewrite (K Hd H2) in H1. tauto.
    + destruct H2 as [H2 Hb]. rewrite (K H1 Hb). tauto.
  - split; intros [H1 H2]; repeat split; try tauto; try lia.
Qed.

Lemma date_range_sorted : forall b start stop, StronglySorted Z.lt (date_range b start stop).
Proof.
  intros. unfold date_range. apply SSorted_filter. apply arange_sorted.
  rewrite NPD_one_day. exact one_day_pos.
Qed.

Lemma midnight_mod : forall x, is_midnight x <-> x mod one_day = 0.
Proof. intros x. unfold is_midnight. pose proof one_day_pos. symmetry. apply Z.mod_divide. lia. Qed.

Lemma date_range_session_day : forall D start stop x, is_midnight start ->
  (In x (date_range (is_business_day D) start stop) <-> session_day D start stop x).
Proof.
  intros D start stop x Hs. rewrite date_range_In.
  - rewrite business_trading. unfold session_day.
    assert ((one_day | x - start) <-> is_midnight x); [|tauto].
    unfold is_midnight in *. split; intros H.
    + replace x with ((x - start) + start) by lia. apply Z.divide_add_r; assumption.
    + apply Z.divide_sub_r; assumption.
  - apply midnight_mod in Hs. pose proof one_day_pos. pose proof (Z.mod_pos_bound stop one_day ltac:(lia)). lia.
Qed.

(** ** Time tables *)

Lemma selection_In : forall arr s e x, In x (selection arr s e) <->
  In x arr /\ started s x /\ match e with Some d => x < d | None => True end.
Proof.
  intros arr s e x. unfold selection. rewrite filter_In, andb_true_iff.
  destruct s, e; simpl; intuition (try lia).
Qed.

Lemma selection_split : forall days s d, StronglySorted Z.lt days ->
  no_later s (Some d) ->
  selection days s None = selection days s (Some d) ++ selection days (Some d) None.
Proof.
  intros days s d Hs Hd. unfold selection.
  induction days as [|x days IH]; simpl; [reflexivity|].
  apply SSorted_cons in Hs. destruct Hs as [Hs Hx].
  destruct (Z_lt_ge_dec x d) as [Hlt|Hge].
  - rewrite (proj2 (Z.ltb_lt x d) Hlt).
    assert (Hf : (d <=? x) = false) by lia. rewrite Hf. simpl. rewrite !andb_true_r.
    destruct (match s with Some s0 => s0 <=? x | None => true end); simpl; rewrite IH by assumption;
      reflexivity.
  - assert (Hf : (x <? d) = false) by lia. rewrite Hf. rewrite andb_false_r, !andb_true_r.
    assert (Ht : (d <=? x) = true) by lia. rewrite Ht. simpl.
    assert (Hst : match s with Some s0 => s0 <=? x | None => true end = true).
    { destruct s; simpl in *; lia. }
    assert (F : filter (fun y => match s with Some s0 => s0 <=? y | None => true end && (y <? d)) days = []).
    { apply filter_all_false. intros y Hy. rewrite Forall_forall in Hx. specialize (Hx y Hy).
      assert (Hy' : (y <? d) = false) by lia. rewrite Hy'. apply andb_false_r. }
    rewrite Hst. rewrite IH by assumption. rewrite F. reflexivity.
Qed.

Definition first_start (ts : list (option Z * time)) (days : list Z) : list Z :=
  match ts with [] => [] | (s, _) :: _ => selection days s None end.

Lemma well_ordered_cons : forall e ts, well_ordered (e :: ts) <->
  well_ordered ts /\ Forall (fun e' => ~ no_later (fst e') (fst e)) ts.
Proof. intros. apply SSorted_cons. Qed.

Lemma no_later_total : forall a b, ~ no_later a b -> no_later b a.
Proof. intros [a|] [b|]; simpl; intros; try tauto; lia. Qed.

Lemma no_later_trans : forall a b c, no_later a b -> no_later b c -> no_later a c.
Proof. intros [a|] [b|] [c|]; simpl; intros; try tauto; lia. Qed.

Lemma started_later : forall a b x, no_later a b -> started b x -> started a x.
Proof. intros [a|] [b|] x; simpl; intros; try tauto; lia. Qed.

Lemma in_force_head : forall s t rest x, well_ordered ((s, t) :: rest) -> started s x ->
  match rest with (Some d, _) :: _ => x < d | _ => True end ->
  in_force ((s, t) :: rest) x t.
Proof.
  intros s t rest x Hw Hs Hr. exists s. split; [left; reflexivity|]. split; [exact Hs|].
  intros s' t' [E|Hin] Hs'; [injection E as <- <-; destruct s; simpl; [lia|exact I]|].
  exfalso. apply well_ordered_cons in Hw. destruct Hw as [Hw Hf].
  destruct rest as [|[r tr] rest]; [destruct Hin|].
  destruct r as [d|]; [|apply Forall_cons_iff in Hf; destruct Hf as [Hf _]; apply Hf; exact I].
  assert (no_later (Some d) s').
  { destruct Hin as [E|Hin]; [injection E as <- <-; simpl; lia|].
    apply well_ordered_cons in Hw. destruct Hw as [_ Hw]. rewrite Forall_forall in Hw.
    specialize (Hw _ Hin). simpl in Hw. apply no_later_total. exact Hw. }
  assert (started (Some d) x) by (eapply started_later; eassumption). simpl in *. lia.
Qed.

Lemma in_force_tail : forall e rest x t, well_ordered (e :: rest) -> in_force rest x t ->
  in_force (e :: rest) x t.
Proof.
  intros e rest x t Hw [s [Hin [Hs Hmax]]]. exists s. split; [right; exact Hin|].
  split; [exact Hs|]. intros s' t' [E|Hin'] Hs'; [|eapply Hmax; eassumption].
  subst e. apply well_ordered_cons in Hw. destruct Hw as [_ Hf].
  rewrite Forall_forall in Hf. specialize (Hf _ Hin). simpl in Hf. apply no_later_total. exact Hf.
Qed.

Lemma in_force_unique : forall ts x t t', well_ordered ts -> in_force ts x t -> in_force ts x t' ->
  t = t'.
Proof.
  intros ts x t t' Hw [s [Hin [Hs Hmax]]] [s' [Hin' [Hs' Hmax']]].
  assert (E1 := Hmax s' t' Hin' Hs'). assert (E2 := Hmax' s t Hin Hs).
  revert Hw Hin Hin'. clear - E1 E2. induction ts as [|e ts IH]; intros Hw Hin Hin'; [destruct Hin|].
  destruct Hin as [-> | Hin], Hin' as [E|Hin'].
  - injection E as <- <-. reflexivity.
  - apply well_ordered_cons in Hw. destruct Hw as [_ Hf]. rewrite Forall_forall in Hf.
    exfalso. apply (Hf _ Hin'). exact E1.
  - rewrite E in Hw. apply well_ordered_cons in Hw. destruct Hw as [_ Hf]. rewrite Forall_forall in Hf.
    exfalso. apply (Hf _ Hin). exact E2.
  - apply well_ordered_cons in Hw. apply IH; tauto.
Qed.

(** The windows of a well-ordered table. *)
Lemma window : forall s t rest days, well_ordered ((s, t) :: rest) -> StronglySorted Z.lt days ->
  let stop := match rest with [] => None | (s', _) :: _ => s' end in
  (forall x, In x (selection days s stop) -> in_force ((s, t) :: rest) x t) /\
  selection days s None = selection days s stop ++ first_start rest days.
Proof.
  intros s t rest days Hw Hd stop. split.
  - intros x Hx. apply selection_In in Hx. destruct Hx as [_ [Hs Hx]].
    apply in_force_head; [exact Hw|exact Hs|]. subst stop.
    destruct rest as [|[[d|] tr] rest]; try exact I. exact Hx.
  - subst stop. destruct rest as [|[r tr] rest]; simpl; [rewrite app_nil_r; reflexivity|].
    apply well_ordered_cons in Hw. destruct Hw as [_ Hf]. apply Forall_cons_iff in Hf.
    destruct Hf as [Hf _]. simpl in Hf. destruct r as [d|]; [|simpl in Hf; tauto].
    apply selection_split; [exact Hd|]. apply no_later_total in Hf. exact Hf.
Qed.

Lemma days_at_time_Ok : forall days t z k l,
  days_at_time days t z k = Ok l <->
  Forall2 (fun x u => instant_of z (local_time x k t) u) days l.
Proof.
  intros. unfold days_at_time. rewrite mapM_Forall2. split; apply Forall2_impl; intros x u _ H.
  - apply tz_localize_Ok. rewrite <- time_delta_local. exact H.
  - apply tz_localize_Ok in H. rewrite time_delta_local. exact H.
Qed.

Lemma group_elements_Ok : forall ts days z k es, well_ordered ts -> StronglySorted Z.lt days ->
  group_elements days ts z k = Ok es ->
  Forall2 (fun x u => exists t, in_force ts x t /\ instant_of z (local_time x k t) u)
    (first_start ts days) (concat es) /\ length es = length ts.
Proof.
  induction ts as [|[s t] rest IH]; intros days z k es Hw Hd H; simpl in H.
  - injection H as <-. split; [constructor|reflexivity].
  - destruct (window s t rest days Hw Hd) as [W1 W2].
    set (stop := match rest with [] => None | (s', _) :: _ => s' end) in *.
    destruct (days_at_time (selection days s stop) t z k) as [e|] eqn:E; [|discriminate].
    cbv [bind] in H. destruct (group_elements days rest z k) as [es'|] eqn:E2; [|discriminate].
    injection H as <-.
    destruct (IH days z k es') as [IH1 IH2]; [apply well_ordered_cons in Hw; tauto|exact Hd|exact E2|].
    split; [|simpl; congruence]. simpl first_start. rewrite W2. simpl concat. apply Forall2_app.
    + apply days_at_time_Ok in E. revert E. apply Forall2_impl. intros x u Hx Hu. exists t.
      split; [apply W1; exact Hx|exact Hu].
    + revert IH1. apply Forall2_impl. intros x u _ [t' [Ht' Hu]]. exists t'.
      split; [apply in_force_tail; assumption|exact Hu].
Qed.

Lemma group_elements_total : forall ts days z k, well_ordered ts -> StronglySorted Z.lt days ->
  (forall x t, In x days -> in_force ts x t -> exists u, instant_of z (local_time x k t) u) ->
  exists es, group_elements days ts z k = Ok es.
Proof.
  induction ts as [|[s t] rest IH]; intros days z k Hw Hd H; simpl; [eauto|].
  destruct (window s t rest days Hw Hd) as [W1 W2].
  set (stop := match rest with [] => None | (s', _) :: _ => s' end) in *.
  destruct (mapM_total (fun d => tz_localize z (d + time_delta t k)) (selection days s stop)) as [e E].
  { intros x Hx. destruct (H x t) as [u Hu].
    - apply selection_In in Hx. tauto.
    - apply W1. exact Hx.
    - exists u. rewrite time_delta_local. apply tz_localize_Ok. exact Hu. }
  unfold days_at_time. rewrite E. cbv [bind].
  destruct (IH days z k) as [es ->]; [apply well_ordered_cons in Hw; tauto|exact Hd| |eauto].
  intros x t' Hx Hf. apply (H x t' Hx). apply in_force_tail; assumption.
Qed.

(** ** Special dates *)

Lemma In_combine_Forall2 : forall {A B} (R : A -> B -> Prop) l l', Forall2 R l l' ->
  (forall x y y', R x y -> R x y' -> y = y') ->
  forall x y, In (x, y) (combine l l') <-> In x l /\ R x y.
Proof.
  intros A B R l l' HF Hfun. induction HF as [|a b l l' Hab HF IH]; intros x y; simpl; [tauto|].
  rewrite IH. split.
  - intros [E|[H1 H2]]; [|tauto]. injection E as <- <-. tauto.
  - intros [[<-|H1] H2]; [|tauto]. left. f_equal. apply (Hfun a); assumption.
Qed.

Lemma insert_perm : forall p s, Permutation (p :: s) (insert p s).
Proof.
  intros p. induction s as [|q s IH]; simpl; [apply Permutation_refl|].
  destruct (fst p <=? fst q); [apply Permutation_refl|].
  eapply perm_trans; [apply perm_swap|]. apply perm_skip. exact IH.
Qed.

Lemma sort_index_perm : forall s, Permutation s (sort_index s).
Proof.
  unfold sort_index. induction s as [|p s IH]; simpl; [apply Permutation_refl|].
  eapply perm_trans; [apply perm_skip; exact IH|apply insert_perm].
Qed.

Lemma insert_sorted : forall p s, StronglySorted (fun a b => fst a <= fst b) s ->
  StronglySorted (fun a b : Z * Z => fst a <= fst b) (insert p s).
Proof.
  intros p. induction s as [|q s IH]; intros H; simpl.
  - apply SSorted_cons. split; [constructor|constructor].
  - apply SSorted_cons in H. destruct H as [Hs Hf].
    destruct (Z.leb_spec (fst p) (fst q)) as [Hle|Hgt].
    + apply SSorted_cons. split; [apply SSorted_cons; tauto|]. constructor; [exact Hle|].
      revert Hf. apply Forall_impl. intros; lia.
    + apply SSorted_cons. split; [apply IH; exact Hs|]. apply Forall_forall. intros x Hx.
      apply (Permutation_in _ (Permutation_sym (insert_perm p s))) in Hx.
      destruct Hx as [<-|Hx]; [lia|]. rewrite Forall_forall in Hf. apply Hf. exact Hx.
Qed.

Lemma sort_index_sorted : forall s, StronglySorted (fun a b => fst a <= fst b) (sort_index s).
Proof.
  unfold sort_index. induction s as [|p s IH]; simpl; [constructor|]. apply insert_sorted. exact IH.
Qed.

Lemma special_series_In : forall days t z data, days_at_time days t z 0 = Ok data ->
  forall x u, In (x, u) (combine days data) <-> In x days /\ instant_of z (local_time x 0 t) u.
Proof.
  intros days t z data H. apply days_at_time_Ok in H.
  apply (In_combine_Forall2 _ _ _ H). intros x y y'. apply instant_of_unique.
Qed.

Lemma In_concat_Forall2 : forall {A B} (P : A -> B -> Prop) l ls,
  Forall2 (fun a s => forall y, In y s <-> P a y) l ls ->
  forall y, In y (concat ls) <-> exists a, In a l /\ P a y.
Proof.
  intros A B P l ls HF. induction HF as [|a s l ls Has HF IH]; intros y; simpl.
  - split; [tauto|]. intros [? [[] _]].
  - rewrite in_app_iff, IH, Has. split.
    + intros [H|[x [H1 H2]]]; [exists a; tauto|exists x; tauto].
    + intros [x [[->|H1] H2]]; [tauto|]. right. exists x. tauto.
Qed.

Lemma special_dates_In : forall z regular adhoc start stop s,
  special_dates z regular adhoc start stop = Ok s ->
  forall x u, In (x, u) s <-> special_at z regular adhoc start stop x u.
Proof.
  intros z regular adhoc start stop s H x u. unfold special_dates in H.
  destruct (mapM (fun p => scheduled_special_times (snd p) start stop (fst p) z) regular)
    as [rs|] eqn:E1; [|discriminate].
  cbv [bind] in H.
  destruct (mapM (fun p => adhoc_special_times (snd p) (fst p) z) adhoc) as [ads|] eqn:E2;
    [|discriminate].
  injection H as <-. apply mapM_Forall2 in E1, E2.
  rewrite filter_In. cbn [snd].
  assert (P : In (x, u) (sort_index (concat (rs ++ ads))) <-> In (x, u) (concat (rs ++ ads))).
  { split; apply Permutation_in; [apply Permutation_sym|]; apply sort_index_perm. }
  rewrite P, concat_app, in_app_iff. clear P.
  assert (A1 : In (x, u) (concat rs) <-> exists p, In p regular /\
             (In x (snd p) /\ start <= x <= stop) /\ instant_of z (local_time x 0 (fst p)) u).
  { apply (In_concat_Forall2 (fun p y => (In (fst y) (snd p) /\ start <= fst y <= stop) /\
             instant_of z (local_time (fst y) 0 (fst p)) (snd y)) regular rs).
    revert E1. apply Forall2_impl. intros [t hc] s' _ Hs [x' u']. cbn [fst snd] in *.
    unfold scheduled_special_times in Hs.
    destruct (days_at_time (holidays hc start stop) t z 0) as [data|] eqn:E; [|discriminate].
    cbv [bind] in Hs. injection Hs as <-. rewrite (special_series_In _ _ _ _ E).
    unfold holidays. rewrite filter_In, andb_true_iff, !Z.leb_le. tauto. }
  assert (A2 : In (x, u) (concat ads) <-> exists p, In p adhoc /\
             In x (snd p) /\ instant_of z (local_time x 0 (fst p)) u).
  { apply (In_concat_Forall2 (fun p y => In (fst y) (snd p) /\
             instant_of z (local_time (fst y) 0 (fst p)) (snd y)) adhoc ads).
    revert E2. apply Forall2_impl. intros [t ds] s' _ Hs [x' u']. cbn [fst snd] in *.
    unfold adhoc_special_times in Hs.
    destruct (days_at_time ds t z 0) as [data|] eqn:E; [|discriminate].
    cbv [bind] in Hs. injection Hs as <-. apply (special_series_In _ _ _ _ E). }
  rewrite A1, A2, andb_true_iff, !Z.leb_le. unfold special_at, special_listed. split.
  - intros [[[[t ds] [Hin [Hx Hu]]]|[[t ds] [Hin [Hx Hu]]]] Hr]; exists t; cbn [fst snd] in *;
      (split; [|tauto]); [left|right]; exists ds; tauto.
  - intros [t [[[ds [Hin Hx]]|[ds [Hin Hx]]] [Hu Hr]]]; (split; [|exact Hr]); [left|right];
      exists (t, ds); cbn [fst snd]; tauto.
Qed.

Lemma special_dates_sorted : forall z regular adhoc start stop s,
  special_dates z regular adhoc start stop = Ok s ->
  StronglySorted (fun a b => fst a <= fst b) s.
Proof.
  intros z regular adhoc start stop s H. unfold special_dates in H.
  destruct (mapM _ regular) as [rs|]; [|discriminate]. cbv [bind] in H.
  destruct (mapM _ adhoc) as [ads|]; [|discriminate]. injection H as <-.
  apply SSorted_filter. apply sort_index_sorted.
Qed.

(** Every date listed can be localized: then the specials can be computed. *)
Lemma special_dates_total : forall z regular adhoc start stop,
  (forall x t, special_listed regular adhoc start stop x t ->
     exists u, instant_of z (local_time x 0 t) u) ->
  exists s, special_dates z regular adhoc start stop = Ok s.
Proof.
  intros z regular adhoc start stop H. unfold special_dates.
  assert (K : forall days t, (forall x, In x days -> exists u, instant_of z (local_time x 0 t) u) ->
              exists data, days_at_time days t z 0 = Ok data).
  { intros days t Hd. apply mapM_total. intros x Hx. destruct (Hd x Hx) as [u Hu]. exists u.
    rewrite time_delta_local. apply tz_localize_Ok. exact Hu. }
  destruct (mapM_total (fun p => scheduled_special_times (snd p) start stop (fst p) z) regular)
    as [rs ->].
  { intros [t hc] Hin. unfold scheduled_special_times. cbn [fst snd].
    destruct (K (holidays hc start stop) t) as [data ->]; [|cbv [bind]; eauto].
    intros x Hx. apply H with (t := t). left. exists hc. unfold holidays in Hx.
    rewrite filter_In, andb_true_iff, !Z.leb_le in Hx. tauto. }
  cbv [bind].
  destruct (mapM_total (fun p => adhoc_special_times (snd p) (fst p) z) adhoc) as [ads ->]; [|eauto].
  intros [t ds] Hin. unfold adhoc_special_times. cbn [fst snd].
  destruct (K ds t) as [data ->]; [|cbv [bind]; eauto].
  intros x Hx. apply H with (t := t). right. exists ds. tauto.
Qed.

(** ** Overwriting *)

Lemma set_nth_Forall2 : forall (R : Z -> Z -> Prop) l arr x u i, Forall2 R l arr -> NoDup l ->
  nth_error l i = Some x ->
  Forall2 (fun y v => (y = x /\ v = u) \/ (y <> x /\ R y v)) l (set_nth arr i u).
Proof.
  intros R l arr x u i HF. revert i. induction HF as [|a b l arr Hab HF IH]; intros i ND Hi.
  - constructor.
  - inversion ND as [|? ? Hn ND']; subst. destruct i as [|i]; simpl in *.
    + injection Hi as ->. constructor; [tauto|]. revert HF. apply Forall2_impl.
      intros y v Hy Hv. right. split; [congruence|exact Hv].
    + constructor.
      * right. split; [|exact Hab]. intros ->. apply nth_error_In in Hi. tauto.
      * apply IH; assumption.
Qed.

Lemma write_at_Forall2 : forall sp l arr (g : Z * Z -> Z) (R : Z -> Z -> Prop),
  Forall2 R l arr -> NoDup l -> (forall p, In p sp -> In (fst p) l) ->
  Forall2 (fun y v => (exists p, In p sp /\ fst p = y /\ v = g p) \/
                      (~ In y (map fst sp) /\ R y v))
    l (write_at arr (map (fun p => get_indexer1 l (fst p)) sp) (map g sp)).
Proof.
  induction sp as [|p sp IH]; intros l arr g R HF ND Hin; simpl.
  - revert HF. apply Forall2_impl. intros y v _ Hv. right. tauto.
  - destruct (get_loc_In l (fst p)) as [i [E [Hi En]]]; [apply Hin; left; reflexivity|].
    unfold get_indexer1 at 1. rewrite E.
    pose proof (set_nth_Forall2 R l arr (fst p) (g p) (Z.to_nat i) HF ND En) as HF'.
    specialize (IH l _ g _ HF' ND (fun q Hq => Hin q (or_intror Hq))).
    revert IH. apply Forall2_impl. intros y v _ [[q [H1 H2]]|[H1 [[H2 H3]|[H2 H3]]]].
    + left. exists q. tauto.
    + left. exists p. split; [tauto|]. split; congruence.
    + right. split; [|exact H3]. intros [H|H]; [congruence|tauto].
Qed.

Lemma overwrite_Ok : forall l arr sp g arr', overwrite l arr sp (map g sp) = Ok arr' ->
  zlen arr = zlen l ->
  (forall p, In p sp -> In (fst p) l) /\
  (NoDup l -> forall R : Z -> Z -> Prop, Forall2 R l arr ->
   Forall2 (fun y v => (exists p, In p sp /\ fst p = y /\ v = g p) \/
                       (~ In y (map fst sp) /\ R y v)) l arr').
Proof.
  intros l arr sp g arr' H Hlen. unfold overwrite in H.
  destruct sp as [|p sp].
  - injection H as <-. split; [intros p []|]. intros _ R. apply Forall2_impl.
    intros y v _ Hv. right. simpl. tauto.
  - set (sp' := p :: sp) in *. rewrite Hlen, Z.eqb_refl in H. simpl negb in H. cbv iota in H.
    destruct (existsb _ _) eqn:E; [discriminate|]. injection H as <-.
    assert (Hin : forall p, In p sp' -> In (fst p) l).
    { intros q Hq. apply Bool.not_true_iff_false in E.
      destruct (in_dec Z.eq_dec (fst q) l) as [Hd|Hd]; [exact Hd|exfalso]. apply E.
      apply existsb_exists. exists (get_indexer1 l (fst q)). split.
      - apply in_map_iff. exists q. tauto.
      - apply get_indexer_bad. exact Hd. }
    split; [exact Hin|]. intros ND R HR. exact (write_at_Forall2 sp' l arr g R HR ND Hin).
Qed.

Lemma overwrite_len : forall l arr sp vs arr', overwrite l arr sp vs = Ok arr' ->
  zlen arr' = zlen arr.
Proof.
  assert (S : forall i arr u, length (set_nth arr i u) = length arr).
  { induction i as [|i IH]; destruct arr; intros; simpl; auto. }
  assert (W : forall is vs arr, length (write_at arr is vs) = length arr).
  { induction is as [|i is IH]; intros [|v vs] arr; simpl; auto. rewrite IH. apply S. }
  intros l arr sp vs arr' H. unfold overwrite in H.
  destruct sp; [injection H as <-; reflexivity|].
  destruct (negb _); [discriminate|]. destruct (existsb _ _); [discriminate|].
  apply Ok_inj in H. subst arr'. unfold zlen. rewrite W. reflexivity.
Qed.

Lemma overwrite_total : forall l arr sp vs, zlen arr = zlen l ->
  (forall p, In p sp -> In (fst p) l) -> exists arr', overwrite l arr sp vs = Ok arr'.
Proof.
  intros l arr sp vs Hlen Hin. unfold overwrite. destruct sp as [|p sp]; [eauto|].
  set (sp' := p :: sp) in *. rewrite Hlen, Z.eqb_refl. simpl negb. cbv iota.
  destruct (existsb _ _) eqn:E; [|eauto]. exfalso. apply existsb_exists in E.
  destruct E as [i [Hi E]]. apply in_map_iff in Hi. destruct Hi as [q [<- Hq]].
  apply get_indexer_bad in E. apply E. apply Hin. exact Hq.
Qed.

Lemma overwrite_bad : forall l arr sp vs p, In p sp -> ~ In (fst p) l ->
  overwrite l arr sp vs = Raise ValueError.
Proof.
  intros l arr sp vs p Hp Hn. unfold overwrite. destruct sp as [|q sp]; [destruct Hp|].
  set (sp' := q :: sp) in *. destruct (negb _); [reflexivity|].
  destruct (existsb _ _) eqn:E; [reflexivity|]. exfalso.
  apply Bool.not_true_iff_false in E. apply E. apply existsb_exists.
  exists (get_indexer1 l (fst p)). split; [apply in_map_iff; exists p; tauto|].
  apply get_indexer_bad. exact Hn.
Qed.
