(** Lemmas on [month_starts], the part of etc/lunisolar that finds the months. *)
From Coq Require Import ZArith List Bool Lia Sorted.
From Verif.Spec Require Import Months.
From Verif.Model Require Import Base Helpers Dates Zone Lunisolar.
From Verif.Proofs Require Import BaseLemmas.
Import ListNotations.
Open Scope Z_scope.

(** ** The minutes of the new moons only matter through their order *)

Definition rmap {A B} (f : A -> B) (r : result A) : result B :=
  match r with Ok a => Ok (f a) | Raise e => Raise e end.

Definition increasing_on (P : Z -> Prop) (f : Z -> Z) : Prop :=
  forall x y, P x -> P y -> x < y -> f x < f y.

Lemma inc_eqb : forall P f x y, increasing_on P f -> P x -> P y -> (f x =? f y) = (x =? y).
Proof.
  intros P f x y I Hx Hy. destruct (Z.eqb_spec x y) as [->|N]; [apply Z.eqb_refl|].
  apply Z.eqb_neq. destruct (Z_lt_le_dec x y) as [L|L].
  - specialize (I x y Hx Hy L). lia.
  - specialize (I y x Hy Hx ltac:(lia)). lia.
Qed.
Lemma inc_ltb : forall P f x y, increasing_on P f -> P x -> P y -> (f x <? f y) = (x <? y).
Proof.
  intros P f x y I Hx Hy. destruct (Z.ltb_spec x y) as [L|L].
  - apply Z.ltb_lt. apply I; assumption.
  - apply Z.ltb_ge. destruct (Z.eq_dec x y) as [->|N]; [lia|]. specialize (I y x Hy Hx ltac:(lia)). lia.
Qed.
Lemma inc_contains : forall P f l m, increasing_on P f -> Forall P l -> P m ->
  contains (map f l) (f m) = contains l m.
Proof.
  intros P f l m I F Hm. unfold contains. induction F as [|x l Hx F IH]; simpl; [reflexivity|].
  rewrite IH, (inc_eqb P f m x I Hm Hx). reflexivity.
Qed.
Lemma inc_filter : forall P f mz l, increasing_on P f -> Forall P mz -> Forall P l ->
  filter (fun m => negb (contains (map f mz) m)) (map f l) = map f (filter (fun m => negb (contains mz m)) l).
Proof.
  intros P f mz l I Fm F. induction F as [|x l Hx F IH]; simpl; [reflexivity|].
  rewrite (inc_contains P f mz x I Fm Hx), IH. destruct (contains mz x); reflexivity.
Qed.
Lemma inc_bsearch : forall P f l key, increasing_on P f -> Forall P l -> P key ->
  forall fuel lo hi, bsearch fuel (fun v => v <? f key) (map f l) lo hi = bsearch fuel (fun v => v <? key) l lo hi.
Proof.
  intros P f l key I F Hk. induction fuel as [|fuel IH]; intros lo hi; simpl; [reflexivity|].
  destruct (lo <? hi)%nat; [|reflexivity]. rewrite nth_error_map.
  destruct (nth_error l (lo + Nat.div2 (hi - lo))) as [v|] eqn:E; simpl; [|reflexivity].
  rewrite Forall_forall in F. rewrite (inc_ltb P f v key I (F v (nth_error_In _ _ E)) Hk), !IH. reflexivity.
Qed.
Lemma inc_searchsorted : forall P f l key, increasing_on P f -> Forall P l -> P key ->
  searchsorted_left (map f l) (f key) = searchsorted_left l key.
Proof.
  intros P f l key I F Hk. unfold searchsorted_left. rewrite map_length.
  rewrite (inc_bsearch P f l key I F Hk). reflexivity.
Qed.

Lemma mapM_rmap : forall {A} (f : Z -> Z) (l : list Z) (g : A -> Z) xs,
  mapM (fun x => pyget (map f l) (g x)) xs = rmap (map f) (mapM (fun x => pyget l (g x)) xs).
Proof.
  intros A f l g xs. induction xs as [|x xs IH]; simpl; [reflexivity|].
  rewrite pyget_map, IH. destruct (pyget l (g x)); simpl; [|reflexivity].
  destruct (mapM (fun x0 => pyget l (g x0)) xs); reflexivity.
Qed.
Lemma mapM_rmap' : forall (f : Z -> Z) (l : list Z) xs,
  mapM (pyget (map f l)) xs = rmap (map f) (mapM (pyget l) xs).
Proof. intros f l xs. exact (mapM_rmap f l (fun i => i) xs). Qed.
Lemma pyget_In : forall {A} (l : list A) i x, pyget l i = Ok x -> In x l.
Proof.
  intros A l i x H. unfold pyget in H. destruct (_ <? 0); [|destruct (_ <? 0)]; try discriminate;
    destruct (nth_error l _) eqn:E; try discriminate; injection H as <-; eapply nth_error_In; exact E.
Qed.
Lemma mapM_pyget_In : forall {A B} (l : list A) (g : B -> Z) xs ys,
  mapM (fun x => pyget l (g x)) xs = Ok ys -> Forall (fun y => In y l) ys.
Proof.
  intros A B l g. induction xs as [|x xs IH]; intros ys H; simpl in H; [injection H as <-; constructor|].
  destruct (pyget l (g x)) as [y|] eqn:E; [|discriminate]. simpl in H.
  destruct (mapM (fun x0 => pyget l (g x0)) xs) as [ys'|] eqn:E'; [|discriminate]. injection H as <-.
  constructor; [exact (pyget_In _ _ _ E)|apply IH; reflexivity].
Qed.

Lemma month_loop_map : forall P f all poss, increasing_on P f -> Forall P all -> Forall P poss ->
  forall moons suis nx next pv seen, Forall P moons -> P next ->
  month_loop (map f all) (map f poss) (map f moons) suis nx (f next) pv seen =
  rmap (map f) (month_loop all poss moons suis nx next pv seen).
Proof.
  intros P f all poss I Fa Fp. induction moons as [|m moons IH]; intros suis nx next pv seen Fm Hn; [reflexivity|].
  inversion Fm as [|? ? Hm Fm']; subst. simpl. rewrite (inc_eqb P f m next I Hm Hn), (inc_contains P f poss m I Fp Hm).
  set (skip := contains poss m && _ && _). clearbody skip.
  set (seen' := if m =? next then false else seen). clearbody seen'.
  destruct (m =? next).
  - destruct suis as [|ix suis].
    + simpl. rewrite IH by assumption. destruct (month_loop all poss moons _ _ _ _ _); simpl; [|reflexivity].
      destruct skip; reflexivity.
    + rewrite pyget_map. destruct (pyget all ix) as [nx'|] eqn:E; simpl; [|reflexivity].
      rewrite IH; [|assumption|]. 2:{ rewrite Forall_forall in Fa. apply Fa. exact (pyget_In _ _ _ E). }
      destruct (month_loop all poss moons _ _ _ _ _); simpl; [|reflexivity]. destruct skip; reflexivity.
  - simpl. rewrite IH by assumption. destruct (month_loop all poss moons _ _ _ _ _); simpl; [|reflexivity].
    destruct skip; reflexivity.
Qed.

Lemma month_loop_incl : forall all poss moons suis nx next pv seen ms,
  month_loop all poss moons suis nx next pv seen = Ok ms -> incl ms moons.
Proof.
  intros all poss. induction moons as [|m moons IH]; intros suis nx next pv seen ms H; simpl in H.
  - injection H as <-. intros x Hx. exact Hx.
  - destruct (if m =? next then _ else _) as [[[[? ?] ?] ?]|]; [|discriminate]. simpl in H.
    destruct (month_loop all poss moons _ _ _ _ _) as [ms'|] eqn:E; [|discriminate]. simpl in H.
    injection H as <-. apply IH in E. intros x Hx.
    destruct (_ && negb _); [right; apply E, Hx|]. destruct Hx as [->|Hx]; [left; reflexivity|right; apply E, Hx].
Qed.

Lemma month_starts_map : forall P f l D W Q, increasing_on P f -> Forall P l ->
  month_starts (map f l) D W Q =
  rmap (fun r => (map f (fst r), snd r)) (month_starts l D W Q).
Proof.
  intros P f l D W Q I F. unfold month_starts. destruct l as [|x l]; [reflexivity|].
  change (map f (x :: l)) with (f x :: map f l). cbv iota. change (f x :: map f l) with (map f (x :: l)).
  set (all := x :: l) in *. clearbody all. clear x l.
  destruct (map (fun w => argmax (map (fun d => w <? d) D) - 1) W) as [|ix suis]; [reflexivity|].
  rewrite pyget_map. destruct (pyget all ix) as [next|] eqn:E; [|reflexivity]. cbn [bind].
  rewrite (mapM_rmap f all (fun q => argmax (map (fun d => q <? d) D) - 1) Q).
  destruct (mapM (fun q => pyget all (argmax (map (fun d => q <? d) D) - 1)) Q) as [mz|] eqn:E'; [|reflexivity].
  cbn [bind rmap].
  assert (Fz : Forall P mz).
  { apply (mapM_pyget_In all (fun q => argmax (map (fun d => q <? d) D) - 1)) in E'.
    rewrite Forall_forall in *. intros y Hy. apply F, E', Hy. }
  rewrite (inc_filter P f mz all I Fz F).
  rewrite (month_loop_map P f all _ I F).
  2:{ rewrite Forall_forall in *. intros y Hy. apply filter_In in Hy. apply F, (proj1 Hy). }
  2:{ exact F. }
  2:{ rewrite Forall_forall in F. apply F. exact (pyget_In _ _ _ E). }
  destruct (month_loop all _ all suis ix next (ix - 13) false) as [ms|] eqn:EL; [|reflexivity]. cbn [bind rmap].
  apply month_loop_incl in EL.
  rewrite (mapM_rmap' f all (ix :: suis)).
  destruct (mapM (pyget all) (ix :: suis)) as [el|] eqn:Ee; [|reflexivity]. simpl.
  f_equal. f_equal. rewrite map_map. apply map_ext_in. intros y Hy.
  apply (inc_searchsorted P); [exact I| |].
  - rewrite Forall_forall in *. intros m Hm. apply F, EL, Hm.
  - apply (mapM_pyget_In all (fun i => i)) in Ee. rewrite Forall_forall in *. apply F, Ee, Hy.
Qed.

(** ** Numbered months *)

Lemma consecutive_length : forall n i, length (consecutive i n) = n.
Proof. induction n as [|n IH]; intros i; simpl; [reflexivity|]. rewrite IH. reflexivity. Qed.
Lemma consecutive_app : forall a b i, consecutive i (a + b) = consecutive i a ++ consecutive (i + Z.of_nat a) b.
Proof.
  induction a as [|a IH]; intros b i; simpl.
  - f_equal. lia.
  - f_equal. rewrite IH. f_equal. f_equal. lia.
Qed.
Lemma consecutive_In : forall n i x, In x (consecutive i n) <-> i <= x < i + Z.of_nat n.
Proof.
  induction n as [|n IH]; intros i x.
  - simpl. lia.
  - cbn [consecutive In]. rewrite IH. lia.
Qed.
Lemma consecutive_sorted : forall n i, StronglySorted Z.lt (consecutive i n).
Proof.
  induction n as [|n IH]; intros i; simpl; constructor; [apply IH|].
  apply Forall_forall. intros x Hx. apply consecutive_In in Hx. lia.
Qed.
Lemma consecutive_nth_error : forall n i k, (k < n)%nat -> nth_error (consecutive i n) k = Some (i + Z.of_nat k).
Proof.
  induction n as [|n IH]; intros i k Hk; [lia|]. destruct k as [|k]; simpl.
  - f_equal. lia.
  - rewrite IH by lia. f_equal. lia.
Qed.
Lemma pyget_consecutive : forall n i, 0 <= i < Z.of_nat n -> pyget (consecutive 0 n) i = Ok i.
Proof.
  intros n i Hi. unfold pyget. destruct (Z.ltb_spec i 0); [lia|]. destruct (Z.ltb_spec i 0); [lia|].
  rewrite consecutive_nth_error by lia. f_equal. lia.
Qed.
Lemma pyget_consecutive_last : forall n, (0 < n)%nat -> pyget (consecutive 0 n) (-1) = Ok (Z.of_nat n - 1).
Proof.
  intros n Hn. unfold pyget, zlen. rewrite consecutive_length. change (-1 <? 0) with true. cbv iota.
  destruct (Z.ltb_spec (-1 + Z.of_nat n) 0); [lia|]. rewrite consecutive_nth_error by lia. f_equal. lia.
Qed.

Lemma start_all : forall l, l = map (start l) (consecutive 0 (length l)).
Proof.
  intros l. apply (nth_ext _ _ 0 0).
  - rewrite map_length, consecutive_length. reflexivity.
  - intros k Hk. rewrite (nth_indep (map _ _) 0 (start l 0)) by (rewrite map_length, consecutive_length; exact Hk).
    rewrite map_nth. erewrite (nth_error_nth (consecutive 0 (length l))).
    2:{ apply consecutive_nth_error. exact Hk. }
    unfold start. f_equal. lia.
Qed.

Lemma sorted_nth : forall l i j, StronglySorted Z.lt l -> (i < j)%nat -> (j < length l)%nat -> nth i l 0 < nth j l 0.
Proof.
  intros l i j S. revert i j. induction S as [|x l S IH F]; intros i j Hij Hj; simpl in *; [lia|].
  destruct j as [|j]; [lia|]. destruct i as [|i].
  - rewrite Forall_forall in F. apply F, nth_In. lia.
  - apply IH; lia.
Qed.
Lemma start_increasing : forall l, StronglySorted Z.lt l ->
  increasing_on (fun i => 0 <= i < Z.of_nat (length l)) (start l).
Proof. intros l S x y Hx Hy H. unfold start. apply sorted_nth; [exact S|lia|lia]. Qed.

Lemma sorted_iff : forall l, StronglySorted Z.lt l <-> forallb (fun p => fst p <? snd p) (combine l (tl l)) = true.
Proof.
  induction l as [|x l IH]; [split; [reflexivity|constructor]|]. split.
  - intros H. inversion H as [|? ? H1 H2]; subst. destruct l as [|y l]; [reflexivity|]. cbn in *. inversion H2; subst.
    rewrite (proj1 IH H1), andb_true_r. apply Z.ltb_lt. assumption.
  - intros H. destruct l as [|y l]; [constructor; constructor|]. cbn [tl combine forallb fst snd] in *.
    apply andb_true_iff in H. destruct H as [H1 H2]. apply Z.ltb_lt in H1. pose proof (proj2 IH H2) as S. constructor; [exact S|].
    inversion S as [|? ? S1 S2]; subst. constructor; [exact H1|]. eapply Forall_impl; [|exact S2]. simpl. intros a Ha. lia.
Qed.

(** ** The month of a day *)

Lemma first_true_app : forall l1 l2 k, Forall (fun b => b = false) l1 ->
  first_true k (l1 ++ l2) = first_true (k + zlen l1) l2.
Proof.
  induction l1 as [|b l1 IH]; intros l2 k F; simpl.
  - f_equal. unfold zlen. simpl. lia.
  - inversion F; subst. rewrite IH by assumption. f_equal. unfold zlen. simpl length. lia.
Qed.

Lemma argmax_at : forall D w i, StronglySorted Z.lt D -> in_month D i w ->
  argmax (map (fun d => w <? d) D) - 1 = i.
Proof.
  intros D w i St [H0 [H1 H2]]. unfold argmax.
  set (k := S (Z.to_nat i)). assert (Hk : (k < length D)%nat) by (unfold k; lia).
  assert (E : map (fun d => w <? d) D = map (fun d => w <? d) (firstn k D) ++ map (fun d => w <? d) (skipn k D)).
  { rewrite <- map_app, firstn_skipn. reflexivity. }
  rewrite E, first_true_app.
  - assert (L : zlen (map (fun d => w <? d) (firstn k D)) = i + 1).
    { unfold zlen. rewrite map_length, firstn_length. unfold k in *. lia. }
    rewrite L. destruct (skipn k D) as [|x r] eqn:Es.
    + assert (length (skipn k D) = 0%nat) by (rewrite Es; reflexivity). rewrite skipn_length in H. lia.
    + assert (Ex : x = start D (i + 1)).
      { unfold start. replace (Z.to_nat (i + 1)) with (k + 0)%nat by (unfold k; lia).
        rewrite <- (firstn_skipn k D), app_nth2; rewrite firstn_length, Nat.min_l by lia; [|lia].
        replace (k + 0 - k)%nat with 0%nat by lia. rewrite Es. reflexivity. }
      simpl. rewrite (proj2 (Z.ltb_lt w x)) by lia. lia.
  - apply Forall_forall. intros b Hb. apply in_map_iff in Hb. destruct Hb as [d [<- Hd]]. apply Z.ltb_ge.
    apply (In_nth _ _ 0) in Hd. destruct Hd as [j [Hj <-]]. rewrite firstn_length in Hj.
    assert (Ej : nth j (firstn k D) 0 = nth j D 0).
    { rewrite <- (firstn_skipn k D) at 2. rewrite app_nth1; [reflexivity|]. rewrite firstn_length. lia. }
    rewrite Ej. destruct (Nat.eq_dec j (Z.to_nat i)) as [->|N].
    + unfold start in H2. lia.
    + assert (nth j D 0 < nth (Z.to_nat i) D 0) by (apply sorted_nth; [exact St|unfold k in *; lia|lia]).
      unfold start in H2. lia.
Qed.

Lemma first_true_range : forall row k i, first_true k row = Some i ->
  k <= i < k + zlen row /\ nth (Z.to_nat (i - k)) row false = true /\
  forall j, k <= j < i -> nth (Z.to_nat (j - k)) row false = false.
Proof.
  induction row as [|b row IH]; intros k i H; simpl in H; [discriminate|].
  assert (L : zlen (b :: row) = zlen row + 1) by (unfold zlen; simpl length; lia). rewrite L.
  pose proof (zlen_nonneg row). destruct b.
  - injection H as <-. replace (Z.to_nat (k - k)) with 0%nat by lia. split; [lia|]. split; [reflexivity|]. intros j Hj. lia.
  - apply IH in H. destruct H as [H1 [H2 H3]]. split; [lia|]. split.
    + replace (Z.to_nat (i - k)) with (S (Z.to_nat (i - (k + 1)))) by lia. exact H2.
    + intros j Hj. destruct (Z.eq_dec j k) as [->|N]; [replace (Z.to_nat (k - k)) with 0%nat by lia; reflexivity|].
      replace (Z.to_nat (j - k)) with (S (Z.to_nat (j - (k + 1)))) by lia. apply H3. lia.
Qed.

(** Either the day lies in a known month, or the index is -1 (the last month). *)
Lemma argmax_cases : forall D q, StronglySorted Z.lt D ->
  (exists i, in_month D i q /\ argmax (map (fun d => q <? d) D) - 1 = i) \/
  ((forall i, ~ in_month D i q) /\ argmax (map (fun d => q <? d) D) - 1 = -1).
Proof.
  intros D q St.
  destruct (first_true 0 (map (fun d => q <? d) D)) as [i|] eqn:E.
  - pose proof (first_true_range _ _ _ E) as [R1 [R2 R3]]. unfold zlen in R1. rewrite map_length in R1.
    rewrite Z.sub_0_r in R2.
    assert (R2' : q < start D i).
    { rewrite (nth_indep _ false (q <? 0)) in R2 by (rewrite map_length; lia).
      rewrite (map_nth (fun d => q <? d) D 0) in R2. apply Z.ltb_lt in R2. exact R2. }
    destruct (Z.eq_dec i 0) as [->|N].
    + right. split; [|unfold argmax; rewrite E; reflexivity].
      intros j [J0 [J1 J2]]. destruct (Z.eq_dec j 0) as [->|Nj]; [lia|].
      pose proof (start_increasing D St 0 j) as I. lia.
    + left. exists (i - 1). assert (I : in_month D (i - 1) q).
      { split; [lia|]. split; [lia|]. replace (i - 1 + 1) with i by lia. split; [|exact R2'].
        specialize (R3 (i - 1) ltac:(lia)). rewrite Z.sub_0_r in R3.
        rewrite (nth_indep _ false (q <? 0)) in R3 by (rewrite map_length; lia).
        rewrite (map_nth (fun d => q <? d) D 0) in R3. apply Z.ltb_ge in R3. exact R3. }
      split; [exact I|]. unfold argmax. rewrite E. reflexivity.
  - right. split; [|unfold argmax; rewrite E; reflexivity]. intros j J.
    pose proof (argmax_at D q j St J) as A. unfold argmax in A. rewrite E in A. destruct J as [J0 _]. lia.
Qed.

Lemma has_zhongqi_iff : forall D Q i, 0 <= i -> i + 1 < Z.of_nat (length D) ->
  (has_zhongqi D Q i = true <-> exists q, In q Q /\ in_month D i q).
Proof.
  intros D Q i H0 H1. unfold has_zhongqi. rewrite existsb_exists. split.
  - intros [q [Hq H]]. exists q. split; [exact Hq|]. apply andb_true_iff in H. rewrite Z.leb_le, Z.ltb_lt in H.
    split; [exact H0|]. split; [exact H1|exact H].
  - intros [q [Hq [_ [_ H]]]]. exists q. split; [exact Hq|]. apply andb_true_iff. rewrite Z.leb_le, Z.ltb_lt. exact H.
Qed.

(** ** The loop *)

Fixpoint keep (p : Z -> bool) (seen : bool) (seg : list Z) : list Z * bool :=
  match seg with
  | [] => ([], seen)
  | m :: seg =>
      let skip := p m && negb seen in
      let '(ms, s) := keep p (if skip then true else seen) seg in
      (if skip then ms else m :: ms, s)
  end.

Lemma keep_seen : forall p seg, fst (keep p true seg) = seg.
Proof.
  induction seg as [|m seg IH]; simpl; [reflexivity|]. rewrite andb_false_r. destruct (keep p true seg) as [ms s].
  simpl in *. rewrite IH. reflexivity.
Qed.
Lemma keep_first : forall p seg, fst (keep p false seg) = without_first p seg.
Proof.
  induction seg as [|m seg IH]; simpl; [reflexivity|]. destruct (p m); simpl.
  - pose proof (keep_seen p seg) as K. destruct (keep p true seg) as [ms s]. exact K.
  - destruct (keep p false seg) as [ms s]. simpl in *. rewrite IH. reflexivity.
Qed.
Lemma without_first_none : forall p l, (forall x, In x l -> p x = false) -> without_first p l = l.
Proof.
  induction l as [|x l IH]; intros H; simpl; [reflexivity|]. rewrite (H x (or_introl eq_refl)).
  rewrite IH; [reflexivity|]. intros y Hy. apply H. right. exact Hy.
Qed.
Lemma without_first_ext : forall p q l, (forall x, In x l -> p x = q x) -> without_first p l = without_first q l.
Proof.
  induction l as [|x l IH]; intros H; simpl; [reflexivity|]. rewrite (H x (or_introl eq_refl)).
  rewrite IH; [reflexivity|]. intros y Hy. apply H. right. exact Hy.
Qed.
Lemma without_first_incl : forall p l x, In x (without_first p l) -> In x l.
Proof.
  induction l as [|y l IH]; intros x H; simpl in *; [exact H|]. destruct (p y); [right; exact H|].
  destruct H as [->|H]; [left; reflexivity|right; apply IH, H].
Qed.
Lemma keep_incl : forall p seg seen x, In x (fst (keep p seen seg)) -> In x seg.
Proof.
  intros p seg seen x H. destruct seen; [rewrite keep_seen in H; exact H|].
  rewrite keep_first in H. exact (without_first_incl p seg x H).
Qed.

Lemma loop_segment : forall all poss seg rest suis nx next pv seen, (forall m, In m seg -> m <> next) ->
  let k := keep (fun m => contains poss m && negb (nx - pv =? 12)) seen seg in
  month_loop all poss (seg ++ rest) suis nx next pv seen =
  rmap (app (fst k)) (month_loop all poss rest suis nx next pv (snd k)).
Proof.
  intros all poss. induction seg as [|m seg IH]; intros rest suis nx next pv seen H k.
  - unfold k. simpl. destruct (month_loop all poss rest _ _ _ _ _); reflexivity.
  - unfold k. simpl. rewrite (proj2 (Z.eqb_neq m next)) by (apply H; left; reflexivity). simpl bind.
    replace (contains poss m && negb seen && negb (nx - pv =? 12))
      with (contains poss m && negb (nx - pv =? 12) && negb seen)
      by (destruct (contains poss m), seen, (nx - pv =? 12); reflexivity).
    set (skip := contains poss m && negb (nx - pv =? 12) && negb seen).
    rewrite IH by (intros m' Hm'; apply H; right; exact Hm').
    destruct (keep _ (if skip then true else seen) seg) as [ms s]. simpl.
    destruct (month_loop all poss rest _ _ _ _ _); simpl; [|reflexivity]. destruct skip; reflexivity.
Qed.

Lemma month_loop_sorted : forall all poss moons suis nx next pv seen ms, StronglySorted Z.lt moons ->
  month_loop all poss moons suis nx next pv seen = Ok ms -> StronglySorted Z.lt ms.
Proof.
  intros all poss. induction moons as [|m moons IH]; intros suis nx next pv seen ms St H; simpl in H.
  - injection H as <-. constructor.
  - destruct (if m =? next then _ else _) as [[[[? ?] ?] ?]|]; [|discriminate]. simpl in H.
    destruct (month_loop all poss moons _ _ _ _ _) as [ms'|] eqn:E; [|discriminate]. simpl in H.
    injection H as <-. inversion St as [|? ? St' F]; subst. pose proof (IH _ _ _ _ _ _ St' E) as S'.
    destruct (_ && negb _); [exact S'|]. constructor; [exact S'|]. apply month_loop_incl in E.
    rewrite Forall_forall in *. intros x Hx. apply F, E, Hx.
Qed.

Definition suis_months (D Q ss : list Z) : list Z :=
  concat (map (fun p => regular_months D Q (fst p) (snd p)) (pairs ss)).

Lemma regular_cons : forall D Q poss s s', s < s' -> contains poss s = false ->
  (forall i, s <= i < s' -> contains poss i = negb (has_zhongqi D Q i)) ->
  s :: without_first (fun m => contains poss m && negb (s' - s =? 12)) (consecutive (s + 1) (Z.to_nat (s' - s) - 1))
  = regular_months D Q s s'.
Proof.
  intros D Q poss s s' H Hs Hp. unfold regular_months. destruct (Z.eqb_spec (s' - s) 12) as [E|N].
  - rewrite E. rewrite without_first_none by (intros x _; apply andb_false_r). reflexivity.
  - replace (Z.to_nat (s' - s)) with (S (Z.to_nat (s' - s) - 1)) at 2 by lia. cbn [consecutive without_first].
    rewrite <- Hp by lia. rewrite Hs. f_equal. apply without_first_ext. intros x Hx. apply consecutive_In in Hx.
    rewrite Hp by lia. rewrite andb_true_r. reflexivity.
Qed.

Lemma loop_suis : forall D Q poss n, 
  (forall i, 0 <= i -> i + 1 < Z.of_nat n -> contains poss i = negb (has_zhongqi D Q i)) ->
  forall ss s pv seen, StronglySorted Z.lt (s :: ss) ->
  Forall (fun s => 0 <= s /\ s + 1 < Z.of_nat n /\ has_zhongqi D Q s = true) (s :: ss) ->
  exists after,
    month_loop (consecutive 0 n) poss (consecutive s (n - Z.to_nat s)) ss s s pv seen =
      Ok (suis_months D Q (s :: ss) ++ last (s :: ss) 0 :: after) /\
    Forall (fun i => last (s :: ss) 0 < i < Z.of_nat n) after.
Proof.
  intros D Q poss n Hp. induction ss as [|s' ss IH]; intros s pv seen St F.
  - inversion F as [|? ? [F1 [F2 F3]] _]; subst.
    assert (Ps : contains poss s = false) by (rewrite Hp by lia; rewrite F3; reflexivity).
    replace (n - Z.to_nat s)%nat with (S (n - Z.to_nat s - 1)) by lia.
    cbn [consecutive month_loop]. rewrite Z.eqb_refl, Ps. cbn [bind andb].
    rewrite <- (app_nil_r (consecutive (s + 1) (n - Z.to_nat s - 1))).
    rewrite loop_segment by (intros m Hm; apply consecutive_In in Hm; lia).
    eexists. split; [cbn [month_loop rmap bind]; rewrite app_nil_r; reflexivity|].
    apply Forall_forall. intros x Hx. apply keep_incl, consecutive_In in Hx. cbn [last]. lia.
  - inversion F as [|? ? [F1 [F2 F3]] F']; subst. inversion St as [|? ? St' L]; subst.
    inversion L as [|? ? L1 _]; subst. pose proof F' as F''. inversion F'' as [|? ? [G1 [G2 G3]] _]; subst.
    assert (Ps : contains poss s = false) by (rewrite Hp by lia; rewrite F3; reflexivity).
    replace (n - Z.to_nat s)%nat with (S ((Z.to_nat (s' - s) - 1) + (n - Z.to_nat s'))) by lia.
    cbn [consecutive month_loop]. rewrite Z.eqb_refl, Ps. cbn [bind andb].
    rewrite pyget_consecutive by lia. cbn [bind].
    rewrite consecutive_app. replace (s + 1 + Z.of_nat (Z.to_nat (s' - s) - 1)) with s' by lia.
    rewrite loop_segment by (intros m Hm; apply consecutive_In in Hm; lia).
    match goal with |- context [snd ?k] => set (sn := snd k) end.
    destruct (IH s' s sn St' F') as [after [E A]]. exists after. rewrite E. cbn [rmap bind].
    split; [|exact A]. f_equal. rewrite keep_first, app_comm_cons.
    rewrite (regular_cons D Q poss s s' L1 Ps) by (intros i Hi; apply Hp; lia).
    unfold suis_months, pairs. cbn [tl combine map concat fst snd]. rewrite <- app_assoc. reflexivity.
Qed.

(** The months that [month_starts] gives, as numbers. *)
Lemma month_starts_index : forall D W Q ss, StronglySorted Z.lt D -> ss <> [] ->
  StronglySorted Z.lt ss -> Forall2 (in_month D) ss W -> incl W Q ->
  exists before after, let ms := before ++ suis_months D Q ss ++ last ss 0 :: after in
    month_starts (consecutive 0 (length D)) D W Q = Ok (ms, map (searchsorted_left ms) ss) /\
    StronglySorted Z.lt ms /\ Forall (fun i => 0 <= i < hd 0 ss) before /\
    Forall (fun i => last ss 0 < i < Z.of_nat (length D)) after.
Proof.
  intros D W Q ss SD N SS F2 IQ. set (n := length D).
  destruct ss as [|s ss]; [contradiction|].
  assert (EW : map (fun w => argmax (map (fun d => w <? d) D) - 1) W = s :: ss).
  { clear N SS IQ. revert F2. generalize (s :: ss). intros l F2. induction F2 as [|x w l W' H F2 IH]; [reflexivity|].
    simpl. rewrite IH, (argmax_at D w x SD H). reflexivity. }
  assert (R : Forall (fun s => 0 <= s /\ s + 1 < Z.of_nat n /\ has_zhongqi D Q s = true) (s :: ss)).
  { clear EW SS N. revert IQ F2. generalize (s :: ss). intros l IQ F2. induction F2 as [|x w l W' H F2 IH]; constructor.
    - destruct H as [H1 [H2 H3]]. split; [exact H1|]. split; [exact H2|]. apply has_zhongqi_iff; [exact H1|exact H2|].
      exists w. split; [apply IQ; left; reflexivity|]. split; [exact H1|split; [exact H2|exact H3]].
    - apply IH. intros y Hy. apply IQ. right. exact Hy. }
  inversion R as [|? ? [R1 [R2 _]] _]; subst.
  unfold month_starts. destruct (consecutive 0 n) as [|x0 r0] eqn:En.
  { pose proof (consecutive_length n 0) as L. rewrite En in L. simpl in L. lia. }
  rewrite <- En. clear En x0 r0. rewrite EW. rewrite pyget_consecutive by lia. cbn [bind].
  set (g := fun q => let i := argmax (map (fun d => q <? d) D) - 1 in if i =? -1 then Z.of_nat n - 1 else i).
  rewrite (mapM_Ok _ g).
  2:{ intros q _. unfold g. cbv zeta. destruct (argmax_cases D q SD) as [[i [[I1 [I2 I3]] E]]|[_ E]]; rewrite E.
      - destruct (Z.eqb_spec i (-1)); [lia|]. apply pyget_consecutive. fold n in I2. lia.
      - change (-1 =? -1) with true. cbv iota. apply pyget_consecutive_last. lia. }
  cbn [bind].
  set (poss := filter (fun m => negb (contains (map g Q) m)) (consecutive 0 n)).
  assert (Hp : forall i, 0 <= i -> i + 1 < Z.of_nat n -> contains poss i = negb (has_zhongqi D Q i)).
  { intros i H0 H1. apply eq_true_iff_eq. unfold poss, contains at 1. rewrite existsb_exists, negb_true_iff.
    assert (C : contains (map g Q) i = true <-> has_zhongqi D Q i = true).
    { rewrite has_zhongqi_iff by assumption. unfold contains. rewrite existsb_exists. split.
      - intros [y [Hy E]]. apply Z.eqb_eq in E. subst y. apply in_map_iff in Hy. destruct Hy as [q [Eq Hq]].
        exists q. split; [exact Hq|]. unfold g in Eq. cbv zeta in Eq.
        destruct (argmax_cases D q SD) as [[j [J E]]|[_ E]]; rewrite E in Eq.
        + destruct (Z.eqb_spec j (-1)); [destruct J as [J _]; lia|]. subst j. exact J.
        + change (-1 =? -1) with true in Eq. cbv iota in Eq. lia.
      - intros [q [Hq J]]. exists i. split; [|apply Z.eqb_refl]. apply in_map_iff. exists q. split; [|exact Hq].
        unfold g. cbv zeta. rewrite (argmax_at D q i SD J). destruct (Z.eqb_spec i (-1)); [lia|reflexivity]. }
    split.
    - intros [y [Hy E]]. apply Z.eqb_eq in E. subst y. apply filter_In in Hy. destruct Hy as [_ Hy].
      apply negb_true_iff in Hy. apply not_true_iff_false. rewrite <- C, Hy. discriminate.
    - intros H. exists i. split; [|apply Z.eqb_refl]. apply filter_In. split; [apply consecutive_In; lia|].
      apply negb_true_iff, not_true_iff_false. rewrite C, H. discriminate. }
  assert (EL : consecutive 0 n = consecutive 0 (Z.to_nat s) ++ consecutive s (n - Z.to_nat s)).
  { replace n with (Z.to_nat s + (n - Z.to_nat s))%nat at 1 by lia. rewrite consecutive_app. f_equal. f_equal. lia. }
  pose proof (loop_segment (consecutive 0 n) poss (consecutive 0 (Z.to_nat s)) (consecutive s (n - Z.to_nat s)) ss s s (s - 13) false)
    as LS. cbv zeta in LS. rewrite <- EL in LS. specialize (LS ltac:(intros m Hm; apply consecutive_In in Hm; lia)).
  match type of LS with context [snd ?k] => set (kk := k) in * end.
  destruct (loop_suis D Q poss n Hp ss s (s - 13) (snd kk) SS R) as [after [E A]].
  rewrite E in LS. cbn [rmap] in LS. rewrite LS. cbn [bind].
  exists (fst kk), after. cbv zeta.
  rewrite (mapM_Ok _ (fun i => i)).
  2:{ intros x Hx. apply pyget_consecutive. rewrite Forall_forall in R. specialize (R x Hx). lia. }
  rewrite map_id. cbn [bind]. split; [reflexivity|]. split.
  - exact (month_loop_sorted _ _ _ _ _ _ _ _ _ (consecutive_sorted n 0) LS).
  - split; [|exact A]. apply Forall_forall. intros x Hx. unfold kk in Hx. apply keep_incl, consecutive_In in Hx. simpl hd. lia.
Qed.

Lemma month_starts_minutes : forall moons D W Q, StronglySorted Z.lt moons -> length moons = length D ->
  month_starts moons D W Q =
  rmap (fun r => (map (start moons) (fst r), snd r)) (month_starts (consecutive 0 (length D)) D W Q).
Proof.
  intros moons D W Q S L. rewrite (start_all moons) at 1. rewrite L.
  apply (month_starts_map (fun i => 0 <= i < Z.of_nat (length moons))).
  - exact (start_increasing moons S).
  - apply Forall_forall. intros i Hi. apply consecutive_In in Hi. lia.
Qed.

(** ** Positions in a sorted list *)

Lemma sorted_split : forall (l1 l2 : list Z) x, StronglySorted Z.lt (l1 ++ x :: l2) ->
  searchsorted_left (l1 ++ x :: l2) x = zlen l1.
Proof.
  intros l1 l2 x S. rewrite <- (map_id (l1 ++ x :: l2)). apply (searchsorted_left_at (fun a => a)).
  - apply SSorted_app in S. destruct S as [_ [_ S]]. apply Forall_forall. intros y Hy.
    apply S; [exact Hy|left; reflexivity].
  - apply SSorted_app in S. destruct S as [_ [S _]]. inversion S as [|? ? _ F]; subst.
    constructor; [lia|]. eapply Forall_impl; [|exact F]. intros; simpl in *; lia.
Qed.

Lemma nth_split_at : forall (l1 r l2 : list Z) k, (k < length r)%nat ->
  l1 ++ r ++ l2 = (l1 ++ firstn k r) ++ nth k r 0 :: (skipn (S k) r ++ l2).
Proof.
  intros l1 r l2 k Hk. rewrite <- app_assoc. f_equal.
  rewrite <- (firstn_skipn k r) at 1. rewrite <- app_assoc. f_equal.
  rewrite app_comm_cons. f_equal.
  revert k Hk. induction r as [|x r IH]; intros k Hk; simpl in Hk; [lia|]. destruct k as [|k]; [reflexivity|].
  simpl skipn at 1. rewrite (IH k) by lia. reflexivity.
Qed.

Lemma at_month : forall (l1 r l2 : list Z) k, StronglySorted Z.lt (l1 ++ r ++ l2) -> (k < length r)%nat ->
  pyget (l1 ++ r ++ l2) (zlen l1 + Z.of_nat k) = Ok (nth k r 0) /\
  searchsorted_left (l1 ++ r ++ l2) (nth k r 0) = zlen l1 + Z.of_nat k.
Proof.
  intros l1 r l2 k S Hk. rewrite (nth_split_at l1 r l2 k Hk) in *.
  assert (L : zlen (l1 ++ firstn k r) = zlen l1 + Z.of_nat k).
  { rewrite zlen_app. unfold zlen. rewrite firstn_length. lia. }
  split.
  - rewrite <- L. apply pyget_app_mid.
  - rewrite <- L. apply sorted_split. exact S.
Qed.

Lemma pairs_cons : forall s s' ss, pairs (s :: s' :: ss) = (s, s') :: pairs (s' :: ss).
Proof. reflexivity. Qed.

(** The months of every sui stand together. *)
Lemma sui_split : forall D Q before rest ss p, In p (pairs ss) ->
  exists l1 l2, before ++ suis_months D Q ss ++ rest = l1 ++ regular_months D Q (fst p) (snd p) ++ l2.
Proof.
  intros D Q before rest ss. revert before. induction ss as [|s ss IH]; intros before p H; [contradiction|].
  destruct ss as [|s' ss]; [contradiction|]. unfold suis_months. rewrite pairs_cons in *. cbn [map concat fst snd].
  destruct H as [<-|H].
  - exists before, (concat (map (fun p => regular_months D Q (fst p) (snd p)) (pairs (s' :: ss))) ++ rest).
    rewrite <- app_assoc. reflexivity.
  - destruct (IH (before ++ regular_months D Q s s') p H) as [l1 [l2 E]]. exists l1, l2. rewrite <- E.
    unfold suis_months. rewrite <- !app_assoc. reflexivity.
Qed.

Lemma pairs_fst : forall ss, ss <> [] -> ss = map fst (pairs ss) ++ [last ss 0].
Proof.
  induction ss as [|s ss IH]; intros N; [contradiction|]. destruct ss as [|s' ss]; [reflexivity|].
  rewrite pairs_cons. cbn [map app fst]. f_equal. apply IH. discriminate.
Qed.
Lemma pairs_lt : forall ss p, StronglySorted Z.lt ss -> In p (pairs ss) -> In (fst p) ss /\ In (snd p) ss /\ fst p < snd p.
Proof.
  induction ss as [|s ss IH]; intros p S H; [contradiction|]. destruct ss as [|s' ss]; [contradiction|].
  rewrite pairs_cons in H. inversion S as [|? ? S' F]; subst. destruct H as [<-|H].
  - simpl. inversion F; subst. split; [left; reflexivity|]. split; [right; left; reflexivity|assumption].
  - destruct (IH p S' H) as [A [B C]]. split; [right; exact A|]. split; [right; exact B|exact C].
Qed.

Lemma regular_head : forall D Q s s', s < s' -> has_zhongqi D Q s = true ->
  exists r, regular_months D Q s s' = s :: r.
Proof.
  intros D Q s s' H Hz. unfold regular_months. destruct (Z.eqb_spec (s' - s) 12).
  - eexists. reflexivity.
  - replace (Z.to_nat (s' - s)) with (S (Z.to_nat (s' - s) - 1)) by lia. cbn [consecutive without_first].
    rewrite Hz. eexists. reflexivity.
Qed.

(** ** Twelve months *)

Lemma without_first_length : forall p l x, In x l -> p x = true -> length (without_first p l) = (length l - 1)%nat.
Proof.
  induction l as [|y l IH]; intros x H E; [contradiction|]. simpl. destruct (p y) eqn:Ey; [lia|].
  destruct H as [->|H]; [congruence|]. simpl. rewrite (IH x H E). destruct l; [contradiction|]. simpl. lia.
Qed.

(** If each of [n] consecutive months had a zhongqi there would be [n] of them. *)
Lemma zhongqi_count : forall D Q n s, StronglySorted Z.lt D -> 0 <= s -> s + Z.of_nat n < Z.of_nat (length D) ->
  (forall i, s <= i < s + Z.of_nat n -> has_zhongqi D Q i = true) ->
  Nat.le n (length (nodup Z.eq_dec (filter (fun q => (start D s <=? q) && (q <? start D (s + Z.of_nat n))) Q))).
Proof.
  intros D Q n s SD H0 H1 H.
  assert (E : exists l, length l = n /\ NoDup l /\ incl l (filter (fun q => (start D s <=? q) && (q <? start D (s + Z.of_nat n))) Q)
              /\ Forall (fun q => q < start D (s + Z.of_nat n)) l).
  { induction n as [|n IH].
    - exists []. split; [reflexivity|]. split; [constructor|]. split; [intros x []|constructor].
    - destruct IH as [l [L1 [L2 [L3 L4]]]]; [lia|intros i Hi; apply H; lia|].
      assert (Hs := H (s + Z.of_nat n) ltac:(lia)). apply has_zhongqi_iff in Hs; [|lia|lia].
      destruct Hs as [q [Hq [_ [_ Hi]]]]. exists (q :: l).
      assert (M : start D (s + Z.of_nat n) < start D (s + Z.of_nat (S n))).
      { apply (start_increasing D SD); lia. }
      assert (M0 : start D s <= start D (s + Z.of_nat n)).
      { destruct n as [|n]; [replace (s + Z.of_nat 0) with s by lia; lia|].
        assert (start D s < start D (s + Z.of_nat (S n))) by (apply (start_increasing D SD); lia). lia. }
      replace (s + Z.of_nat n + 1) with (s + Z.of_nat (S n)) in Hi by lia.
      split; [simpl; rewrite L1; reflexivity|]. split; [|split].
      + constructor; [|exact L2]. intros F. rewrite Forall_forall in L4. specialize (L4 q F). lia.
      + intros x [<-|Hx].
        * apply filter_In. split; [exact Hq|]. apply andb_true_iff. rewrite Z.leb_le, Z.ltb_lt. lia.
        * apply L3, filter_In in Hx. destruct Hx as [X1 X2]. apply filter_In. split; [exact X1|].
          apply andb_true_iff in X2. apply andb_true_iff. rewrite Z.leb_le, Z.ltb_lt in *. lia.
      + constructor; [lia|]. eapply Forall_impl; [|exact L4]. intros; simpl in *; lia. }
  destruct E as [l [L1 [L2 [L3 _]]]]. apply (Nat.le_trans _ (length l)); [rewrite L1; apply Nat.le_refl|].
  apply NoDup_incl_length; [exact L2|].
  intros x Hx. apply nodup_In. apply L3, Hx.
Qed.
