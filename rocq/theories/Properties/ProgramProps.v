(** C87, C88: programs with several dispatchers, and the loop of etc/bench.py. *)
From Coq Require Import String ZArith List Bool Lia Permutation.
From Verif.Model Require Import Dispatcher Threads Program.
From Verif.Spec Require Import Registry Interleaving Sharing.
From Verif.Proofs Require Import DispatcherLemmas.
From Verif.Properties Require Import DispatcherProps.
Import ListNotations.
Open Scope list_scope.

(** ** Places of lists *)

Lemma replace_length : forall A i (x : A) xs, length (replace i x xs) = length xs.
Proof. induction i; destruct xs; cbn; auto. Qed.

Lemma nth_error_replace_same : forall A i (x : A) xs, (i < length xs)%nat -> nth_error (replace i x xs) i = Some x.
Proof. induction i; destruct xs; cbn; intros; try lia; [reflexivity|]. apply IHi. lia. Qed.

Lemma nth_error_replace_other : forall A i j (x : A) xs, i <> j -> nth_error (replace i x xs) j = nth_error xs j.
Proof. induction i; destruct xs, j; cbn; intros; try reflexivity; try congruence. apply IHi. congruence. Qed.

Lemma nth_replace_same : forall A i (x : A) xs z, (i < length xs)%nat -> nth i (replace i x xs) z = x.
Proof. induction i; destruct xs; cbn; intros; try lia; [reflexivity|]. apply IHi. lia. Qed.

Lemma nth_replace_other : forall A i j (x : A) xs z, i <> j -> nth j (replace i x xs) z = nth j xs z.
Proof. induction i; destruct xs, j; cbn; intros; try reflexivity; try congruence. apply IHi. congruence. Qed.

Lemma nth_error_lt : forall A (l : list A) i x, nth_error l i = Some x -> (i < length l)%nat.
Proof. intros A l i x H. apply nth_error_Some. congruence. Qed.

Lemma mem_iff : forall V k (d : dict V), mem k d = true <-> lookup k d <> None.
Proof. intros V k d. rewrite mem_lookup. destruct (lookup k d); split; congruence. Qed.

(** ** C87 *)

Section Worlds.
Variable build : nat -> factory -> list factory -> option instance.

(** One event: the dict stays with its dispatcher, which changes by its own calls only. *)
Lemma step_alone : forall w e r i d, only_in w r i -> leaves_alone r e -> seen w i = Some d ->
  only_in (world_step build w e) r i /\
  seen (world_step build w e) i = Some (run (build i) d (own_calls i [e])).
Proof.
  intros [cs fs als xs] e r i d [Hr [x [Hx [Ex U]]]] L S. unfold seen in S. cbn [objects calendar_dicts] in *.
  rewrite Hx in S. cbn [option_map] in S. injection S as <-.
  assert (K : forall cs' : list (dict instance), (r < length cs')%nat -> nth r cs' [] = nth r cs [] ->
    only_in (World cs' fs als xs) r i /\ seen (World cs' fs als xs) i = Some (seen_by (World cs fs als xs) x)).
  { intros cs' Hl E. split.
    - split; [exact Hl|]. exists x. split; [exact Hx|]. split; [exact Ex|exact U].
    - unfold seen, seen_by. cbn [objects calendar_dicts]. rewrite Hx. cbn [option_map calendar_dicts]. rewrite Ex. rewrite E. reflexivity. }
  assert (Same : only_in (World cs fs als xs) r i /\ seen (World cs fs als xs) i = Some (seen_by (World cs fs als xs) x))
    by (apply K; [exact Hr|reflexivity]).
  destruct e as [d|d|d|r' d|r' d|r' d|c f a|j o]; cbn [own_calls flat_map app run fold_left world_step].
  - apply K; [rewrite app_length; lia|]. apply app_nth1. exact Hr.
  - exact Same.
  - exact Same.
  - cbn in L. apply K; [rewrite replace_length; exact Hr|]. now apply nth_replace_other.
  - exact Same.
  - exact Same.
  - destruct (nth_error cs c), (nth_error fs f) as [df|], (nth_error als a) as [da|]; try exact Same.
    cbn in L. pose proof (nth_error_lt _ _ _ _ Hx) as Hi.
    split; [split; [exact Hr|]; exists x|].
    + cbn [objects]. split; [rewrite nth_error_app1 by exact Hi; exact Hx|]. split; [exact Ex|].
      intros j y Hj Ey. destruct (lt_dec j (length xs)) as [Lj|Lj].
      * rewrite nth_error_app1 in Hj by exact Lj. now apply (U j y).
      * rewrite nth_error_app2 in Hj by lia. destruct (j - length xs)%nat as [|k]; cbn in Hj.
        -- injection Hj as <-. cbn in Ey. contradiction.
        -- destruct k; discriminate.
    + unfold seen. cbn [objects]. rewrite nth_error_app1 by exact Hi. rewrite Hx. reflexivity.
  - destruct (nth_error xs j) as [y|] eqn:Hy.
    2:{ destruct (Nat.eqb_spec j i) as [->|N]; [congruence|]. exact Same. }
    pose proof (nth_error_lt _ _ _ _ Hy) as Hj.
    destruct (Nat.eqb_spec j i) as [->|N].
    + rewrite Hx in Hy. injection Hy as <-. cbn [app run fold_left]. rewrite Ex.
      set (d := step (build i) (seen_by (World cs fs als xs) x) o). split.
      * split; [cbn; rewrite replace_length; exact Hr|]. cbn [objects]. eexists.
        split; [apply nth_error_replace_same; exact Hj|]. split; [reflexivity|].
        intros j y Hy Ey. destruct (Nat.eq_dec j i) as [E|N]; [exact E|].
        rewrite nth_error_replace_other in Hy by congruence. now apply (U j y).
      * unfold seen. cbn [objects]. rewrite nth_error_replace_same by exact Hj. cbn [option_map].
        unfold seen_by at 1. cbn [calendar_dicts o_calendars o_factories o_aliases o_calls].
        rewrite nth_replace_same by exact Hr. f_equal. apply eta.
    + assert (Ny : o_calendars y <> r) by (intros E; apply N; now apply (U j y)).
      cbn [app run fold_left]. split.
      * split; [cbn; rewrite replace_length; exact Hr|]. cbn [objects]. exists x.
        split; [rewrite nth_error_replace_other by congruence; exact Hx|]. split; [exact Ex|].
        intros k z Hz Ez. destruct (Nat.eq_dec k j) as [->|Nk].
        -- rewrite nth_error_replace_same in Hz by exact Hj. injection Hz as <-. cbn in Ez. contradiction.
        -- rewrite nth_error_replace_other in Hz by congruence. now apply (U k z).
      * unfold seen, seen_by. cbn [objects calendar_dicts]. rewrite nth_error_replace_other by congruence.
        rewrite Hx. cbn [option_map]. rewrite nth_replace_other by congruence. reflexivity.
Qed.

(** A dispatcher with a dict of calendars of its own gives the answers that it would
    give without the others, whatever the program does with other dispatchers and other
    dicts, also with the dicts of factories and aliases that it was made from. *)
Theorem c87_alone : forall w es r i d, only_in w r i -> Forall (leaves_alone r) es -> seen w i = Some d ->
  seen (world_run build w es) i = Some (run (build i) d (own_calls i es)) /\
  answers_of build i w es = answers (build i) d (own_calls i es).
Proof.
  intros w es r i d O L S. revert w d O S. induction L as [|e es L1 L IH]; intros w d O S.
  - split; [exact S|reflexivity].
  - destruct (step_alone w e r i d O L1 S) as [O' S']. destruct (IH _ _ O' S') as [A B]. split.
    + cbn [world_run fold_left]. unfold world_run in A. rewrite A. unfold run, own_calls.
      cbn [flat_map]. rewrite app_nil_r, fold_left_app. reflexivity.
    + cbn [answers_of]. rewrite B, S. unfold own_calls at 2. cbn [flat_map].
      destruct e as [ | | | | | | |j o]; try reflexivity.
      cbn [own_calls flat_map]. destruct (Nat.eqb j i); reflexivity.
Qed.

(** No call of a method and no construction changes the dicts of factories and aliases
    that the program passes. *)
Theorem c87_copied : forall w es k,
  ((k < length (factory_dicts w))%nat -> (forall d, ~ In (SetFactories k d) es) ->
   nth_error (factory_dicts (world_run build w es)) k = nth_error (factory_dicts w) k) /\
  ((k < length (alias_dicts w))%nat -> (forall d, ~ In (SetAliases k d) es) ->
   nth_error (alias_dicts (world_run build w es)) k = nth_error (alias_dicts w) k).
Proof.
  intros w es k.
  assert (F : forall w e, (k < length (factory_dicts w))%nat -> (forall d, e <> SetFactories k d) ->
    (k < length (factory_dicts (world_step build w e)))%nat /\
    nth_error (factory_dicts (world_step build w e)) k = nth_error (factory_dicts w) k).
  { clear w. intros [cs fs als xs] e H N. destruct e as [d|d|d|r d|r d|r d|c f a|j o]; cbn in *; try (split; [exact H|reflexivity]).
    - rewrite app_length. split; [lia|]. now apply nth_error_app1.
    - rewrite replace_length. split; [exact H|]. apply nth_error_replace_other. intros ->. now apply (N d).
    - destruct (nth_error cs c), (nth_error fs f), (nth_error als a); split; try exact H; reflexivity.
    - destruct (nth_error xs j); split; try exact H; reflexivity. }
  assert (G : forall w e, (k < length (alias_dicts w))%nat -> (forall d, e <> SetAliases k d) ->
    (k < length (alias_dicts (world_step build w e)))%nat /\
    nth_error (alias_dicts (world_step build w e)) k = nth_error (alias_dicts w) k).
  { clear w F. intros [cs fs als xs] e H N. destruct e as [d|d|d|r d|r d|r d|c f a|j o]; cbn in *; try (split; [exact H|reflexivity]).
    - rewrite app_length. split; [lia|]. now apply nth_error_app1.
    - rewrite replace_length. split; [exact H|]. apply nth_error_replace_other. intros ->. now apply (N d).
    - destruct (nth_error cs c), (nth_error fs f), (nth_error als a); split; try exact H; reflexivity.
    - destruct (nth_error xs j); split; try exact H; reflexivity. }
  split; revert w; induction es as [|e es IH]; intros w H N; try reflexivity.
  - destruct (F w e H) as [H1 H2]; [intros d E; apply (N d); now left|].
    cbn [world_run fold_left]. rewrite <- H2. apply IH; [exact H1|]. intros d K. apply (N d). now right.
  - destruct (G w e H) as [H1 H2]; [intros d E; apply (N d); now left|].
    cbn [world_run fold_left]. rewrite <- H2. apply IH; [exact H1|]. intros d K. apply (N d). now right.
Qed.

(** The functions of the package work on a dispatcher of their own: whatever other
    dispatchers a program makes and uses, they answer as the default dispatcher alone. *)
Theorem c87_global : forall es, Forall (leaves_alone 0) es ->
  seen (world_run build imported es) 0 = Some (run (build 0) global_calendar_dispatcher (own_calls 0 es)) /\
  answers_of build 0 imported es = answers (build 0) global_calendar_dispatcher (own_calls 0 es).
Proof.
  intros es L. apply (c87_alone imported es 0%nat); [|exact L|reflexivity].
  split; [cbn; lia|]. exists (Object 0 default_calendar_factories default_calendar_aliases []).
  split; [reflexivity|]. split; [reflexivity|]. intros [|[|j]] y; cbn; intros H E; [reflexivity|discriminate|discriminate].
Qed.

(** A new dispatcher from the default tables and an empty dict knows all default names,
    whatever was done to the others before, [clear_calendars()] included. *)
Theorem c87_fresh : forall es, (forall d, ~ In (SetFactories 0 d) es) -> (forall d, ~ In (SetAliases 0 d) es) ->
  let w := world_run build imported es in
  let r := length (calendar_dicts w) in
  let i := length (objects w) in
  let w' := world_run build w [NewCalendars []; Construct r 0 0] in
  only_in w' r i /\ seen w' i = Some global_calendar_dispatcher.
Proof.
  intros es NF NA w r i w'.
  destruct (c87_copied imported es 0) as [F A].
  specialize (F ltac:(cbn; lia) NF). specialize (A ltac:(cbn; lia) NA).
  fold w in F, A.
  assert (B : forall j y, nth_error (objects w) j = Some y -> (o_calendars y < length (calendar_dicts w))%nat).
  { subst w r i w'. clear. 
    assert (G : forall w, (forall j y, nth_error (objects w) j = Some y -> (o_calendars y < length (calendar_dicts w))%nat) ->
      forall j y, nth_error (objects (world_run build w es)) j = Some y -> (o_calendars y < length (calendar_dicts (world_run build w es)))%nat).
    { induction es as [|e es IH]; intros w H; [exact H|]. cbn [world_run fold_left]. apply IH. clear IH es.
      destruct w as [cs fs als xs]. cbn [objects calendar_dicts] in H.
      destruct e as [d|d|d|r d|r d|r d|c f a|k o]; cbn; intros j y Hy; rewrite ?app_length, ?replace_length.
      - specialize (H j y Hy). lia.
      - now apply (H j y).
      - now apply (H j y).
      - now apply (H j y).
      - now apply (H j y).
      - now apply (H j y).
      - destruct (nth_error cs c) eqn:Ec, (nth_error fs f), (nth_error als a); try now apply (H j y).
        cbn in Hy |- *. destruct (lt_dec j (length xs)) as [Lj|Lj].
        + rewrite nth_error_app1 in Hy by exact Lj. now apply (H j y).
        + rewrite nth_error_app2 in Hy by lia. destruct (j - length xs)%nat as [|n]; cbn in Hy.
          * injection Hy as <-. cbn. eapply nth_error_lt; exact Ec.
          * destruct n; discriminate.
      - destruct (nth_error xs k) as [x|] eqn:Ex; [|now apply (H j y)]. cbn in Hy |- *. rewrite replace_length.
        destruct (Nat.eq_dec k j) as [->|N].
        + rewrite nth_error_replace_same in Hy by (eapply nth_error_lt; exact Ex). injection Hy as <-. now apply (H j x).
        + rewrite nth_error_replace_other in Hy by exact N. now apply (H j y). }
    apply G. intros [|[|j]] y; cbn; intros E; inversion E; subst; cbn; lia. }
  assert (E : w' = World (calendar_dicts w ++ [[]]) (factory_dicts w) (alias_dicts w)
                (objects w ++ [Object r default_calendar_factories default_calendar_aliases []])).
  { subst w'. unfold r. destruct w as [cs fs als xs].
    cbn [factory_dicts alias_dicts objects calendar_dicts] in *.
    cbn [world_run fold_left world_step]. rewrite nth_error_app2, Nat.sub_diag by lia.
    rewrite F, A. reflexivity. }
  rewrite E. split.
  - split; [cbn; rewrite app_length; unfold r; cbn; lia|]. eexists. cbn [objects].
    split; [unfold i; rewrite nth_error_app2, Nat.sub_diag by lia; reflexivity|]. split; [reflexivity|].
    intros j y Hy Ey. destruct (lt_dec j (length (objects w))) as [Lj|Lj].
    + rewrite nth_error_app1 in Hy by exact Lj. specialize (B j y Hy). unfold r in Ey. lia.
    + apply nth_error_lt in Hy. rewrite app_length in Hy. cbn in Hy. unfold i. lia.
  - unfold seen. cbn [objects]. unfold i. rewrite nth_error_app2, Nat.sub_diag by lia. cbn [nth_error option_map].
    unfold seen_by. cbn [calendar_dicts o_calendars o_factories o_aliases o_calls]. unfold r.
    rewrite app_nth2, Nat.sub_diag by lia. reflexivity.
Qed.

(** The dict of calendars is not copied: what one dispatcher registers there another one
    made from the same dict gives, unless the name is an alias there; and what one
    clears is gone in the other and in the dict of the caller. *)
Theorem c87_shared : forall w i j x y, nth_error (objects w) i = Some x -> nth_error (objects w) j = Some y ->
  i <> j -> o_calendars x = o_calendars y -> (o_calendars x < length (calendar_dicts w))%nat ->
  (forall n c, has_calendar (seen_by w x) n = false -> lookup n (o_aliases y) = None ->
   exists d, seen (world_step build w (CallOn i (Register n c false))) j = Some d /\
     reply_of (build j) d (Get n) = Instance c) /\
  (exists d, seen (world_step build w (CallOn i Clear)) j = Some d /\
     (forall n, has_calendar d n = true <-> lookup n (o_factories y) <> None \/ lookup n (o_aliases y) <> None) /\
     nth_error (calendar_dicts (world_step build w (CallOn i Clear))) (o_calendars x) = Some []).
Proof.
  intros [cs fs als xs] i j x y Hx Hy N E Hr. cbn [objects calendar_dicts] in *. split.
  - intros n c Hn Hal. cbn [world_step]. rewrite Hx. unfold seen. cbn [objects].
    rewrite nth_error_replace_other by exact N. rewrite Hy. cbn [option_map]. eexists. split; [reflexivity|].
    unfold seen_by at 1. cbn [calendar_dicts]. rewrite E.
    rewrite nth_replace_same by (rewrite <- E; exact Hr).
    cbn [step]. unfold register_calendar. rewrite Hn. cbn [snd calendars].
    cbn [reply_of]. unfold get_calendar.
    rewrite (resolve_canonical _ n n) by (split; [constructor|exact Hal]).
    cbn [calendars]. rewrite lookup_store, String.eqb_refl. reflexivity.
  - cbn [world_step]. rewrite Hx. unfold seen. cbn [objects calendar_dicts].
    rewrite nth_error_replace_other by exact N. rewrite Hy. cbn [option_map]. eexists. split; [reflexivity|].
    split; [|rewrite nth_error_replace_same by exact Hr; reflexivity].
    intros n. unfold seen_by at 1. cbn [calendar_dicts]. rewrite E.
    rewrite nth_replace_same by (rewrite <- E; exact Hr). cbn [step clear_calendars calendars].
    unfold has_calendar. cbn [calendars factories aliases]. change (mem n (@nil (name * instance))) with false. cbn [orb].
    rewrite orb_true_iff, !mem_iff. reflexivity.
Qed.

End Worlds.

Local Open Scope string_scope.

(** Two dispatchers made from the same three dicts. *)
Definition two : list event :=
  [NewCalendars []; NewFactories [("A", "TypeA")]; NewAliases []; Construct 1 1 1; Construct 1 1 1].

(** So dispatchers are not independent in general. *)
Theorem c87_independent_refuted : exists build es i j o n d d', i <> j /\
  let w := world_run build imported es in
  seen w j = Some d /\ seen (world_step build w (CallOn i o)) j = Some d' /\
  reply_of (build j) d (Has n) = Answer false /\ reply_of (build j) d' (Has n) = Answer true.
Proof.
  exists (fun _ _ _ => Some 7%Z), two, 1%nat, 2%nat, (Register "B" 5%Z false), "B".
  eexists. eexists. split; [discriminate|]. cbn zeta.
  split; [vm_compute; reflexivity|]. split; [vm_compute; reflexivity|]. split; vm_compute; reflexivity.
Qed.

Example c87_alone_example : exists w d, w = world_run (fun i _ _ => Some (Z.of_nat i)) imported
    (two ++ [NewCalendars []; Construct 2 1 1])%list /\
  only_in w 2 3 /\ seen w 3 = Some d /\
  answers_of (fun i _ _ => Some (Z.of_nat i)) 3 w [CallOn 0 Clear; CallOn 3 (Get "A"); SetFactories 1 []; CallOn 1 Clear; CallOn 3 (Get "A")]
    = [Instance 3%Z; Instance 3%Z].
Proof.
  eexists. eexists. split; [vm_compute; reflexivity|]. split.
  - split; [cbn; lia|]. eexists. split; [vm_compute; reflexivity|]. split; [reflexivity|].
    intros [|[|[|[|j]]]] y; cbn; intros H E; try (injection H as <-; cbn in E; discriminate); try reflexivity.
    destruct j; discriminate.
  - split; vm_compute; reflexivity.
Qed.

Example c87_shared_example : exists x y, let w := world_run (fun _ _ _ => Some 7%Z) imported two in
  nth_error (objects w) 1 = Some x /\ nth_error (objects w) 2 = Some y /\ o_calendars x = o_calendars y /\
  has_calendar (seen_by w x) "B" = false /\ lookup "B" (o_aliases y) = None.
Proof. eexists. eexists. cbn zeta. repeat split; vm_compute; reflexivity. Qed.

(** ** C88 *)

Section Loop.
Variable build : factory -> list factory -> option instance.
Hypothesis succeeds : forall f past, build f past <> None.

(** The factories of names without a calendar. *)
Definition unbuilt (cs : dict instance) (fs : dict factory) : dict factory :=
  filter (fun p => negb (mem (fst p) cs)) fs.

Lemma mem_store : forall V k k' (v : V) d, mem k (store k' v d) = String.eqb k' k || mem k d.
Proof.
  intros V k k' v d. destruct (mem k (store k' v d)) eqn:E, (String.eqb_spec k' k) as [->|N]; cbn [orb]; try reflexivity.
  - symmetry. apply mem_iff. apply mem_iff in E. rewrite lookup_store in E.
    destruct (String.eqb_spec k' k); [contradiction|exact E].
  - exfalso. assert (K : mem k (store k v d) = true); [|congruence]. apply mem_iff. rewrite lookup_store, String.eqb_refl. discriminate.
  - destruct (mem k d) eqn:E2; [|reflexivity]. exfalso.
    assert (K : mem k (store k' v d) = true); [|congruence]. apply mem_iff. apply mem_iff in E2.
    rewrite lookup_store. destruct (String.eqb_spec k' k); [contradiction|exact E2].
Qed.

Lemma mem_pop : forall V k k' (d : dict V), mem k (pop k' d) = negb (String.eqb k' k) && mem k d.
Proof.
  intros V k k' d. unfold mem, pop. induction d as [|[a v] d IH]; cbn; [now rewrite andb_false_r|].
  destruct (String.eqb_spec a k') as [->|N]; cbn [negb].
  - rewrite IH. destruct (String.eqb_spec k' k); cbn; reflexivity.
  - cbn. rewrite IH. destruct (String.eqb_spec a k) as [->|N2]; [|reflexivity].
    destruct (String.eqb_spec k' k); [congruence|reflexivity].
Qed.

Lemma unbuilt_store : forall n c cs fs f, NoDup (keys fs) -> lookup n fs = Some f -> mem n cs = false ->
  Permutation (map snd (unbuilt cs fs)) (f :: map snd (unbuilt (store n c cs) fs)).
Proof.
  intros n c cs fs f. unfold unbuilt. induction fs as [|[k g] fs IH]; cbn; intros ND L M; [discriminate|].
  inversion ND as [|? ? NI ND']; subst. rewrite mem_store. destruct (String.eqb_spec k n) as [->|N].
  - injection L as ->. rewrite M, String.eqb_refl. cbn. apply perm_skip.
    assert (K : filter (fun p => negb (mem (fst p) (store n c cs))) fs = filter (fun p => negb (mem (fst p) cs)) fs).
    { apply filter_ext_in. intros [k g] Hk. cbn. rewrite mem_store.
      destruct (String.eqb_spec n k) as [->|]; [|reflexivity]. exfalso. apply NI. apply (in_map fst) in Hk. exact Hk. }
    rewrite K. apply Permutation_refl.
  - destruct (String.eqb_spec n k) as [->|]; [contradiction|]. cbn [orb].
    destruct (mem k cs); cbn; [now apply IH|]. rewrite (IH ND' L M). apply perm_swap.
Qed.

Lemma unbuilt_pop : forall n cs fs, mem n cs = true -> unbuilt (pop n cs) (pop n fs) = unbuilt cs fs.
Proof.
  intros n cs fs M. unfold unbuilt, pop at 2. induction fs as [|[k g] fs IH]; [reflexivity|]. cbn.
  destruct (String.eqb_spec k n) as [->|N]; cbn.
  - rewrite M. cbn. exact IH.
  - rewrite mem_pop. destruct (String.eqb_spec n k) as [->|]; [contradiction|]. cbn.
    destruct (mem k cs); cbn; [exact IH|now rewrite IH].
Qed.

(** The state of the loop: [fs] and [als] are what remains of the tables, every calendar
    belongs to a remaining factory, and the calls made and to come are those of [all]. *)
Definition remaining (all : list factory) (d : dispatcher) (als : dict name) (fs : dict factory) : Prop :=
  aliases d = als /\ factories d = fs /\ NoDup (keys als ++ keys fs) /\
  (forall a r, In (a, r) als -> In r (keys fs)) /\
  (forall k, mem k (calendars d) = true -> mem k fs = true) /\
  Permutation (calls d ++ map snd (unbuilt (calendars d) fs)) all.

Lemma keys_lookup : forall V k (d : dict V), In k (keys d) -> exists v, lookup k d = Some v.
Proof. intros V k d H. apply lookup_keys in H. destruct (lookup k d) as [v|]; [exists v; reflexivity|congruence]. Qed.

(** Asking for a name whose chain ends at a remaining factory. *)
Lemma get_remaining : forall all d als fs n m, remaining all d als fs -> canonical d n m -> In m (keys fs) ->
  exists c d', get_calendar build d n = (Returns c, d') /\ remaining all d' als fs /\ mem m (calendars d') = true.
Proof.
  intros all d als fs n m [Ea [Ef [ND [Al [Sub P]]]]] C K. unfold get_calendar. rewrite (resolve_canonical d n m C).
  destruct (lookup m (calendars d)) as [c|] eqn:Ec.
  - exists c, d. split; [reflexivity|]. split; [repeat split; assumption|]. apply mem_iff. congruence.
  - rewrite Ef. destruct (keys_lookup _ m fs K) as [f Lf]. rewrite Lf.
    destruct (build f (calls d)) as [c|] eqn:B; [|exfalso; now apply (succeeds f (calls d))].
    eexists. eexists. split; [reflexivity|].
    assert (Mm : mem m (calendars d) = false).
    { destruct (mem m (calendars d)) eqn:E; [|reflexivity]. apply mem_iff in E. congruence. }
    split; [|cbn [calendars]; rewrite mem_store, String.eqb_refl; reflexivity].
    split; [exact Ea|]. split; [reflexivity|]. split; [exact ND|]. split; [exact Al|]. cbn [calendars calls]. split.
    + intros k H. rewrite mem_store in H. apply orb_true_iff in H. destruct H as [H|H]; [|now apply Sub].
      apply String.eqb_eq in H. subst k. apply mem_iff. congruence.
    + rewrite <- P, <- app_assoc. apply Permutation_app_head. cbn. symmetry. apply unbuilt_store; [|exact Lf|exact Mm].
      revert ND. clear. induction (keys als) as [|k l IH]; cbn; intros ND; [exact ND|]. inversion ND; auto.
Qed.

Lemma loop_done : forall als all d fs, remaining all d als fs ->
  exists d', construct_all build d (keys als ++ keys fs) = Some d' /\ remaining all d' [] [].
Proof.
  induction als as [|[a r] als IH]; intros all d fs R.
  - cbn [keys map app]. revert d R. induction fs as [|[n f] fs IH]; intros d R; [exists d; split; [reflexivity|exact R]|].
    assert (C : canonical d n n).
    { split; [constructor|]. destruct R as [-> _]. reflexivity. }
    destruct (get_remaining all d [] ((n, f) :: fs) n n R C (or_introl eq_refl)) as [c [d' [G [R' M]]]].
    cbn [map construct_all fst keys]. rewrite G. apply IH.
    destruct R' as [Ea [Ef [ND [Al [Sub P]]]]]. cbn in ND. inversion ND as [|? ? NI ND']; subst.
    assert (Pf : pop n ((n, f) :: fs) = fs).
    { unfold pop. cbn. rewrite String.eqb_refl. cbn. apply (pop_absent n fs).
      destruct (lookup n fs) eqn:E; [|reflexivity]. exfalso. apply NI. apply (in_map fst) with (x := (n, f0)). now apply lookup_In. }
    split; [cbn; rewrite Ea; reflexivity|]. split; [cbn [deregister_calendar factories]; rewrite Ef; exact Pf|].
    split; [exact ND'|]. split; [intros ? ? []|]. cbn [deregister_calendar calendars calls]. split.
    + intros k H. rewrite mem_pop in H. apply andb_true_iff in H. destruct H as [H1 H2].
      apply Sub in H2. unfold mem in H2. cbn in H2. rewrite negb_true_iff in H1. rewrite H1 in H2. exact H2.
    + rewrite <- Pf at 1. rewrite (unbuilt_pop n (calendars d') ((n, f) :: fs) M). exact P.
  - destruct (R) as [Ea [Ef [ND [Al [Sub P]]]]].
    assert (Kr : In r (keys fs)) by (apply (Al a r); now left).
    assert (Nr : lookup r (aliases d) = None).
    { rewrite Ea. destruct (lookup r ((a, r) :: als)) as [x|] eqn:E; [|reflexivity]. exfalso.
      assert (K : In r (keys ((a, r) :: als))) by (apply lookup_keys; congruence).
      revert ND K Kr. clear. intros ND K Kr. apply in_split in K. destruct K as [l1 [l2 E]]. rewrite E, <- app_assoc in ND.
      cbn in ND. apply NoDup_remove_2 in ND. apply ND. apply in_or_app. right. apply in_or_app. now right. }
    assert (C : canonical d a r).
    { split; [|exact Nr]. apply leads_step. rewrite Ea. cbn. rewrite String.eqb_refl. reflexivity. }
    destruct (get_remaining all d _ fs a r R C Kr) as [c [d' [G [R' M]]]].
    cbn [keys map app construct_all fst]. rewrite G. apply IH.
    clear Ea Ef ND Al Sub P. destruct R' as [Ea [Ef [ND [Al [Sub P]]]]].
    cbn in ND. inversion ND as [|? ? NI ND']; subst.
    assert (Af : ~ In a (keys (factories d'))) by (intros H; apply NI; apply in_or_app; now right).
    assert (Aa : ~ In a (keys als)) by (intros H; apply NI; apply in_or_app; now left).
    assert (Lf : lookup a (factories d') = None).
    { destruct (lookup a (factories d')) eqn:E; [|reflexivity]. exfalso. apply Af. apply lookup_keys. congruence. }
    assert (Lc : lookup a (calendars d') = None).
    { destruct (lookup a (calendars d')) eqn:E; [|reflexivity]. exfalso.
      assert (K : mem a (calendars d') = true) by (apply mem_iff; congruence). apply Sub in K. apply mem_iff in K. congruence. }
    assert (La : lookup a als = None).
    { destruct (lookup a als) eqn:E; [|reflexivity]. exfalso. apply Aa. apply lookup_keys. congruence. }
    split; [|split; [|split; [|split; [|split]]]].
    + cbn [deregister_calendar aliases]. rewrite Ea. unfold pop. cbn. rewrite String.eqb_refl. cbn. apply (pop_absent a als La).
    + cbn [deregister_calendar factories]. now apply pop_absent.
    + exact ND'.
    + intros a' r' H. apply (Al a' r'). now right.
    + cbn [deregister_calendar calendars]. rewrite (pop_absent _ _ Lc). exact Sub.
    + cbn [deregister_calendar calendars calls]. rewrite (pop_absent _ _ Lc). exact P.
Qed.

(** For every registry without calendars whose aliases name factories directly: the loop
    gets a calendar for each name, calls each factory exactly once and leaves no name. *)
Theorem c88_loop : forall d, calendars d = [] -> NoDup (keys (aliases d) ++ keys (factories d)) ->
  (forall a r, In (a, r) (aliases d) -> In r (keys (factories d))) ->
  exists d', construct_all build d (keys (aliases d) ++ keys (factories d)) = Some d' /\
    get_calendar_names d' = [] /\ Permutation (calls d') (calls d ++ map snd (factories d)).
Proof.
  intros d Hc ND Al.
  destruct (loop_done (aliases d) (calls d ++ map snd (factories d)) d (factories d)) as [d' [E R]].
  { split; [reflexivity|]. split; [reflexivity|]. split; [exact ND|]. split; [exact Al|]. rewrite Hc. split.
    - intros k H. discriminate.
    - apply Permutation_app_head. unfold unbuilt. cbn. clear. induction (factories d) as [|p l IH]; cbn; [constructor|].
      apply perm_skip. exact IH. }
  exists d'. split; [exact E|]. destruct R as [Ea [Ef [_ [_ [Sub P]]]]]. split.
  - unfold get_calendar_names. rewrite Ea, Ef. destruct (calendars d') as [|[k c] l]; [reflexivity|].
    exfalso. specialize (Sub k). cbn in Sub. rewrite String.eqb_refl in Sub. specialize (Sub eq_refl). discriminate.
  - cbn in P. rewrite app_nil_r in P. exact P.
Qed.

(** So the benchmark of the default tables passes, and constructs each calendar once. *)
Theorem c88_bench : exists d', construct_all_calendars build = Some d' /\
  get_calendar_names d' = [] /\ Permutation (calls d') (map snd default_calendar_factories).
Proof.
  destruct c42_default_tables as [ND Al].
  apply (c88_loop (Dispatcher [] default_calendar_factories default_calendar_aliases [])); [reflexivity| |exact Al].
  cbn [aliases factories]. apply (Permutation_NoDup (Permutation_app_comm _ _)). exact ND.
Qed.

End Loop.

(** A factory that fails stops the loop. *)
Theorem c88_failure : forall build, (forall past, build "XWBOExchangeCalendar" past = None) ->
  construct_all_calendars build = None.
Proof.
  intros build H. destruct (construct_all_calendars build) as [d|] eqn:E; [|reflexivity]. exfalso.
  assert (G : forall ns d0 d1, construct_all build d0 ns = Some d1 -> In "XWBO" ns -> mem "XWBO" (aliases d0) = false ->
    lookup "XWBO" (factories d0) = Some "XWBOExchangeCalendar" -> lookup "XWBO" (calendars d0) = None ->
    (forall a, lookup a (aliases d0) <> Some "XWBO") -> False).
  { induction ns as [|n ns IH]; intros d0 d1 C I A F K NA; [destruct I|]. cbn [construct_all] in C.
    destruct (get_calendar build d0 n) as [[c|e] d2] eqn:Gn; [|discriminate].
    assert (Ca : lookup "XWBO" (aliases d0) = None).
    { destruct (lookup "XWBO" (aliases d0)) eqn:L; [|reflexivity].
      assert (mem "XWBO" (aliases d0) = true) by (apply mem_iff; congruence). congruence. }
    destruct (String.eqb_spec n "XWBO") as [->|N].
    - unfold get_calendar in Gn. rewrite (resolve_canonical d0 "XWBO" "XWBO") in Gn by (split; [constructor|exact Ca]).
      rewrite K, F, H in Gn. discriminate.
    - destruct I as [I|I]; [contradiction|].
      assert (Ea : aliases d2 = aliases d0) by (change d2 with (snd (Returns c, d2)); rewrite <- Gn; apply get_aliases).
      assert (Ef : factories d2 = factories d0) by (change d2 with (snd (Returns c, d2)); rewrite <- Gn; apply get_factories).
      apply (IH _ _ C I); cbn [deregister_calendar aliases factories calendars].
      + rewrite Ea, mem_pop, A. apply andb_false_r.
      + rewrite Ef, lookup_pop. destruct (String.eqb_spec n "XWBO"); [contradiction|exact F].
      + rewrite lookup_pop. destruct (String.eqb_spec n "XWBO"); [contradiction|].
        unfold get_calendar in Gn. destruct (resolve_alias d0 n) as [m|] eqn:R; [|discriminate].
        assert (Nm : m <> "XWBO").
        { intros ->. pose proof (resolve_spec d0 n) as S. rewrite R in S.
          revert N NA S. clear. intros N NA [S _].
          assert (Q : forall a b, leads_to d0 a b -> b = "XWBO" -> a = "XWBO").
          { intros a b L. induction L as [|a b c E L IH]; intros Eq; [exact Eq|].
            specialize (IH Eq). subst b. exfalso. now apply (NA a). }
          apply N. now apply (Q n "XWBO"). }
        destruct (lookup m (calendars d0)); [injection Gn as _ <-; exact K|].
        destruct (lookup m (factories d0)) as [f|]; [|discriminate].
        destruct (build f (calls d0)); [|discriminate]. injection Gn as _ <-. cbn [calendars].
        rewrite lookup_store. destruct (String.eqb_spec m "XWBO"); [contradiction|exact K].
      + intros a. rewrite Ea, lookup_pop. destruct (String.eqb_spec n a); [discriminate|apply NA]. }
  apply (G _ _ _ E).
  - vm_compute. intuition.
  - reflexivity.
  - reflexivity.
  - reflexivity.
  - intros a L. cbn [aliases] in L. apply lookup_In in L.
    assert (F : forallb (fun p => negb (String.eqb (snd p) "XWBO")) default_calendar_aliases = true) by reflexivity.
    rewrite forallb_forall in F. specialize (F _ L). discriminate.
Qed.

(** Aliases of aliases: the loop can fail although every name can be obtained. *)
Theorem c88_chains_refuted : exists d, acyclic d /\ calendars d = [] /\
  NoDup (keys (aliases d) ++ keys (factories d)) /\
  (forall n, In n (keys (aliases d) ++ keys (factories d)) ->
   exists c, fst (get_calendar (fun _ _ => Some 1%Z) d n) = Returns c) /\
  construct_all (fun _ _ => Some 1%Z) d (keys (aliases d) ++ keys (factories d)) = None.
Proof.
  exists (Dispatcher [] [("F", "TypeF")] [("B", "F"); ("A", "B")] []).
  split; [apply acyclic_by_resolve; vm_compute; reflexivity|]. split; [reflexivity|]. split.
  { cbn. repeat constructor; cbn; intuition discriminate. }
  split; [|vm_compute; reflexivity].
  intros n [<-|[<-|[<-|[]]]]; eexists; vm_compute; reflexivity.
Qed.

(** ** Assumptions *)
Print Assumptions c87_alone.
Print Assumptions c87_copied.
Print Assumptions c87_global.
Print Assumptions c87_fresh.
Print Assumptions c87_shared.
Print Assumptions c87_independent_refuted.
Print Assumptions c88_loop.
Print Assumptions c88_bench.
Print Assumptions c88_failure.
Print Assumptions c88_chains_refuted.
