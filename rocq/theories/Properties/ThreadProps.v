(** C71-C74: calls from several threads.  A list of events is an arbitrary
    interleaving of the accesses of arbitrarily many threads to the shared data. *)
From Coq Require Import String ZArith List Bool Lia.
From Verif.Model Require Import Base Queries Lazy Dispatcher Threads.
From Verif.Spec Require Import Schedule Registry Interleaving.
From Verif.Proofs Require Import DispatcherLemmas ThreadLemmas.
From Verif.Properties Require Import QueryProps DispatcherProps.
Import ListNotations.
Open Scope Z_scope.

(** ** C71 *)

Lemma label_eq : forall c dt, label c dt = pyget (sessions c) (searchsorted_left (closes c) dt).
Proof. intros c dt. unfold label, minute_to_session_label. cbn. destruct (pyget _ _); reflexivity. Qed.

Section Lookups.
Variable c : calendar.

Definition lookups_ok (es : list lookup_event) (s : lookups) : Prop :=
  (forall d l, l_cache s = Some (d, l) -> label c d = Ok l /\ asked es d) /\
  (forall i dt, l_phase s i = LHit dt -> l_cache s <> None /\ exists l, label c dt = Ok l) /\
  (forall i dt, l_phase s i = LMiss dt -> asked es dt) /\
  (forall i dt r, In (i, dt, r) (l_log s) ->
     match r with
     | Raise e => label c dt = Raise e
     | Ok None => False
     | Ok (Some l) => (exists l0, label c dt = Ok l0) /\ exists dt', asked es dt' /\ label c dt' = Ok l
     end).

Lemma asked_more : forall es e dt, asked es dt -> asked (es ++ [e]) dt.
Proof. intros es e dt [i H]. exists i. apply in_or_app. left. exact H. Qed.
Lemma asked_now : forall es i dt, asked (es ++ [LCall i dt]) dt.
Proof. intros es i dt. exists i. apply in_or_app. right. left. reflexivity. Qed.

Lemma lookups_ok_step : forall es s e, lookups_ok es s -> lookups_ok (es ++ [e]) (lookup_step c s e).
Proof.
  intros es s e [K [H [M L]]].
  assert (K' : forall d l, l_cache s = Some (d, l) -> label c d = Ok l /\ asked (es ++ [e]) d).
  { intros d l E. destruct (K d l E). split; [assumption|]. apply asked_more. assumption. }
  assert (M' : forall i dt, l_phase s i = LMiss dt -> asked (es ++ [e]) dt) by (intros; apply asked_more; eauto).
  assert (L' : forall i dt r, In (i, dt, r) (l_log s) ->
     match r with
     | Raise e => label c dt = Raise e
     | Ok None => False
     | Ok (Some l) => (exists l0, label c dt = Ok l0) /\ exists dt', asked (es ++ [e]) dt' /\ label c dt' = Ok l
     end).
  { intros i dt r I. specialize (L i dt r I). destruct r as [[l|]|x]; auto. destruct L as [L1 [dt' [L2 L3]]].
    split; [exact L1|]. exists dt'. split; [apply asked_more; exact L2|exact L3]. }
  destruct e as [i dt|i]; cbn [lookup_step].
  - destruct (l_phase s i) eqn:P.
    + refine (conj K' (conj _ (conj _ L'))); cbn [l_cache l_phase l_log].
      * intros j dt' Q. unfold move in Q. destruct (Nat.eqb_spec j i) as [->|N].
        { destruct (l_cache s) as [[d0 l0]|] eqn:E; [|discriminate Q]. destruct (Z.eqb_spec d0 dt) as [->|]; [|discriminate Q].
          injection Q as <-. split; [discriminate|]. exists l0. apply (K dt l0 eq_refl). }
        { exact (H j dt' Q). }
      * intros j dt' Q. unfold move in Q. destruct (Nat.eqb_spec j i) as [->|N]; [|eauto].
        assert (dt' = dt) by (destruct (l_cache s) as [[d0 l0]|]; [destruct (d0 =? dt)|]; congruence). subst. apply asked_now.
    + refine (conj K' (conj H (conj M' L'))).
    + refine (conj K' (conj H (conj M' L'))).
  - destruct (l_phase s i) as [|dt|dt] eqn:P.
    + refine (conj K' (conj H (conj M' L'))).
    + refine (conj K' (conj _ (conj _ _))); cbn [l_cache l_phase l_log].
      * intros j dt' Q. unfold move in Q. destruct (Nat.eqb_spec j i); [discriminate|eauto].
      * intros j dt' Q. unfold move in Q. destruct (Nat.eqb_spec j i); [discriminate|eauto].
      * intros j dt' r I. apply in_app_or in I. destruct I as [I|[I|[]]]; [exact (L' j dt' r I)|]. injection I as <- <- <-.
        destruct (H i dt P) as [N X]. destruct (l_cache s) as [[d l]|] eqn:E; [|congruence].
        split; [exact X|]. exists d. destruct (K' d l eq_refl). auto.
    + rewrite <- label_eq. destruct (label c dt) as [l|x] eqn:E.
      * refine (conj _ (conj _ (conj _ _))); cbn [l_cache l_phase l_log].
        { intros d l0 Q. injection Q as <- <-. split; [exact E|]. exact (M' i dt P). }
        { intros j dt' Q. unfold move in Q. destruct (Nat.eqb_spec j i); [discriminate|].
          split; [discriminate|]. apply (H j dt' Q). }
        { intros j dt' Q. unfold move in Q. destruct (Nat.eqb_spec j i); [discriminate|eauto]. }
        { intros j dt' r I. apply in_app_or in I. destruct I as [I|[I|[]]]; [exact (L' j dt' r I)|]. injection I as <- <- <-.
          split; [eauto|]. exists dt. split; [exact (M' i dt P)|exact E]. }
      * refine (conj K' (conj _ (conj _ _))); cbn [l_cache l_phase l_log].
        { intros j dt' Q. unfold move in Q. destruct (Nat.eqb_spec j i); [discriminate|eauto]. }
        { intros j dt' Q. unfold move in Q. destruct (Nat.eqb_spec j i); [discriminate|eauto]. }
        { intros j dt' r I. apply in_app_or in I. destruct I as [I|[I|[]]]; [exact (L' j dt' r I)|]. injection I as <- <- <-. exact E. }
Qed.
Lemma lookups_ok_run : forall es, lookups_ok es (run_threads_lookup c lookups_start es).
Proof.
  intros es. induction es as [|e es IH] using rev_ind.
  - unfold run_threads_lookup, lookups_start. cbn.
    refine (conj _ (conj _ (conj _ _))); cbn; intros; try discriminate; contradiction.
  - unfold run_threads_lookup. rewrite fold_left_app. cbn. apply lookups_ok_step. exact IH.
Qed.
End Lookups.

(** Whatever the interleaving, a call gives an error exactly when the same call alone
    does, and the same one; else it gives the right label of a minute that this or
    another thread has asked for. *)
Theorem c71_answers : forall c es i dt r, In (i, dt, r) (l_log (run_threads_lookup c lookups_start es)) ->
  match r with
  | Raise e => label c dt = Raise e
  | Ok None => False
  | Ok (Some l) => (exists l0, label c dt = Ok l0) /\ exists dt', asked es dt' /\ label c dt' = Ok l
  end.
Proof. intros c es i dt r H. exact (proj2 (proj2 (proj2 (lookups_ok_run c es))) i dt r H). Qed.

(** As long as all threads ask for minutes with the same label, each answer is right. *)
Theorem c71_agreeing : forall c es i dt r l, (forall dt', asked es dt' -> label c dt' = Ok l) ->
  In (i, dt, r) (l_log (run_threads_lookup c lookups_start es)) -> asked es dt -> r = Ok (Some l).
Proof.
  intros c es i dt r l A H Q. pose proof (c71_answers c es i dt r H) as X. rewrite (A dt Q) in X.
  destruct r as [[l'|]|e]; [|contradiction|discriminate X]. destruct X as [_ [dt' [X1 X2]]]. rewrite (A dt' X1) in X2. congruence.
Qed.

(** After any history, a call whose accesses are not separated by those of other
    threads gives the right answer. *)
Theorem c71_uninterrupted : forall c es i dt, let s := run_threads_lookup c lookups_start es in
  l_phase s i = LIdle ->
  l_log (run_threads_lookup c s [LCall i dt; LStep i]) = (l_log s ++ [(i, dt, match label c dt with Ok l => Ok (Some l) | Raise e => Raise e end)])%list.
Proof.
  intros c es i dt s P. pose proof (lookups_ok_run c es) as [K _]. fold s in K.
  unfold run_threads_lookup. cbn [fold_left lookup_step]. rewrite P. cbn [l_phase]. rewrite move_same.
  destruct (l_cache s) as [[d l]|] eqn:E; cbn [l_cache l_log].
  - destruct (Z.eqb_spec d dt) as [->|N]; cbn [l_cache l_log].
    + rewrite (proj1 (K dt l eq_refl)). reflexivity.
    + rewrite <- label_eq. destruct (label c dt); reflexivity.
  - rewrite <- label_eq. destruct (label c dt); reflexivity.
Qed.

(** The claim "the answer does not depend on other threads" is false: a thread that
    asks for the same minute twice is given the session of another thread's minute. *)
Theorem c71_threads_refuted : exists c ss es i dt l l', (well_formed ss /\ has_schedule c ss) /\
  In (i, dt, Ok (Some l')) (l_log (run_threads_lookup c lookups_start es)) /\
  label c dt = Ok l /\ l <> l'.
Proof.
  exists ex_cal, ex_ss, [LCall 0%nat (ex_day 1); LStep 0%nat; LCall 0%nat (ex_day 1); LCall 1%nat (ex_day 5); LStep 1%nat; LStep 0%nat],
    0%nat, (ex_day 1), (ex_day 1), (ex_day 5).
  split; [split; [exact ex_well_formed|exact ex_has_schedule]|]. split; [vm_compute; tauto|].
  split; [vm_compute; reflexivity|vm_compute; discriminate].
Qed.

Example c71_ex : exists es,
  l_log (run_threads_lookup ex_cal lookups_start es) =
    [(1%nat, ex_day 5, Ok (Some (ex_day 5))); (0%nat, ex_day 1, Ok (Some (ex_day 1))); (0%nat, ex_day 9, Raise IndexError)].
Proof.
  exists [LCall 0%nat (ex_day 1); LCall 1%nat (ex_day 5); LStep 1%nat; LStep 0%nat; LCall 0%nat (ex_day 9); LStep 0%nat].
  vm_compute. reflexivity.
Qed.

(** ** C72 *)

Section Lazies.
Context {V : Type} (getter : Z -> list Z -> option V).

Definition lazies_ok (s : lazies V) : Prop :=
  (forall o v, find o (Lazy.cache (z_state s)) = Some v -> computed getter (Lazy.calls (z_state s)) o (Some v)) /\
  (forall i o v, z_phase s i = ZStore o v -> computed getter (Lazy.calls (z_state s)) o (Some v)) /\
  (forall i o a, In (i, o, a) (z_log s) ->
     match a with
     | Value v => computed getter (Lazy.calls (z_state s)) o (Some v)
     | GetterError => computed getter (Lazy.calls (z_state s)) o None
     | _ => False
     end).

Lemma computed_more : forall past o o' v, computed getter past o v -> computed getter (past ++ [o']) o v.
Proof.
  intros past o o' v [a [b [-> H]]]. exists a, (b ++ [o'])%list. split; [|exact H]. rewrite <- app_assoc. reflexivity.
Qed.
Lemma find_remove_some : forall o o' (l : list (Z * V)) v, find o (remove o' l) = Some v -> find o l = Some v.
Proof.
  intros o o' l v. induction l as [|[k w] l IH]; cbn; [discriminate|].
  destruct (k =? o') eqn:E1; cbn.
  - intros H. specialize (IH H). destruct (k =? o) eqn:E2; [|exact IH].
    exfalso. apply Z.eqb_eq in E1, E2. subst. clear IH. revert H. induction l as [|[k w'] l IH]; cbn; [discriminate|].
    destruct (k =? o) eqn:E; cbn; [exact IH|rewrite E; exact IH].
  - destruct (k =? o); [auto|exact IH].
Qed.
Lemma lazies_ok_step : forall s e, lazies_ok s -> lazies_ok (lazy_step getter s e).
Proof.
  intros s e [K [P L]]. destruct e as [i o|i|o|o]; cbn [lazy_step].
  - destruct (z_phase s i) eqn:E; [|exact (conj K (conj P L))..].
    destruct (find o (Lazy.cache (z_state s))) as [v|] eqn:F.
    + refine (conj K (conj P _)); cbn [z_state z_log]. intros j o' a H. apply in_app_or in H.
      destruct H as [H|[H|[]]]; [exact (L j o' a H)|]. injection H as <- <- <-. exact (K o v F).
    + refine (conj K (conj _ L)); cbn [z_state z_phase]. intros j o' v Q. unfold move in Q.
      destruct (Nat.eqb_spec j i); [discriminate|exact (P j o' v Q)].
  - destruct (z_phase s i) as [|o|o v] eqn:E; [exact (conj K (conj P L))|..].
    + set (past := Lazy.calls (z_state s)) in *. cbn zeta.
      assert (K' : forall o' v, find o' (Lazy.cache (z_state s)) = Some v -> computed getter (past ++ [o]) o' (Some v))
        by (intros; apply computed_more; auto).
      assert (P' : forall j o' v, z_phase s j = ZStore o' v -> computed getter (past ++ [o]) o' (Some v))
        by (intros; apply computed_more; eauto).
      assert (L' : forall j o' a, In (j, o', a) (z_log s) ->
         match a with
         | Value v => computed getter (past ++ [o]) o' (Some v)
         | GetterError => computed getter (past ++ [o]) o' None
         | _ => False
         end).
      { intros j o' a H. specialize (L j o' a H). destruct a; auto; apply computed_more; exact L. }
      destruct (getter o past) as [v|] eqn:G.
      * refine (conj K' (conj _ L')); cbn [z_state z_phase Lazy.calls]. intros j o' w Q. unfold move in Q.
        destruct (Nat.eqb_spec j i); [|exact (P' j o' w Q)]. injection Q as <- <-. exists past, []. auto.
      * refine (conj K' (conj _ _)); cbn [z_state z_phase z_log Lazy.calls].
        { intros j o' w Q. unfold move in Q. destruct (Nat.eqb_spec j i); [discriminate|exact (P' j o' w Q)]. }
        { intros j o' a H. apply in_app_or in H. destruct H as [H|[H|[]]]; [exact (L' j o' a H)|].
          injection H as <- <- <-. exists past, []. auto. }
    + refine (conj _ (conj _ _)); cbn [z_state z_phase z_log Lazy.calls Lazy.cache].
      * intros o' w Q. cbn [find] in Q. destruct (Z.eqb_spec o o') as [->|].
        { injection Q as <-. exact (P i o' v E). }
        { exact (K o' w Q). }
      * intros j o' w Q. unfold move in Q. destruct (Nat.eqb_spec j i); [discriminate|exact (P j o' w Q)].
      * intros j o' a H. apply in_app_or in H. destruct H as [H|[H|[]]]; [exact (L j o' a H)|].
        injection H as <- <- <-. exact (P i o v E).
  - unfold delitem. destruct (find o (Lazy.cache (z_state s))); [|destruct s; exact (conj K (conj P L))].
    refine (conj _ (conj P L)); cbn. intros o' w Q. apply K. exact (find_remove_some o' o _ w Q).
  - refine (conj _ (conj P L)); cbn. intros o' w Q. apply K. exact (find_remove_some o' o _ w Q).
Qed.
Lemma lazies_ok_run : forall es, lazies_ok (run_threads_lazy getter lazies_start es).
Proof.
  intros es. induction es as [|e es IH] using rev_ind.
  - refine (conj _ (conj _ _)); cbn; intros; try discriminate; contradiction.
  - unfold run_threads_lazy. rewrite fold_left_app. cbn. apply lazies_ok_step. exact IH.
Qed.

(** [o] has a value and no thread is about to replace it. *)
Definition settled (o : Z) (v : V) (s : lazies V) : Prop :=
  find o (Lazy.cache (z_state s)) = Some v /\
  (forall i, z_phase s i <> ZGetter o) /\ (forall i w, z_phase s i <> ZStore o w).

Lemma find_remove_other : forall o o' (l : list (Z * V)), o' <> o -> find o (remove o' l) = find o l.
Proof.
  intros o o' l N. induction l as [|[k w] l IH]; cbn; [reflexivity|].
  destruct (Z.eqb_spec k o') as [->|]; cbn; [|destruct (k =? o); [reflexivity|exact IH]].
  destruct (Z.eqb_spec o' o); [contradiction|exact IH].
Qed.
Lemma settled_step : forall o v s e, settled o v s -> e <> ZDelItem o -> e <> ZCollect o ->
  settled o v (lazy_step getter s e) /\
  count_occ Z.eq_dec (Lazy.calls (z_state (lazy_step getter s e))) o = count_occ Z.eq_dec (Lazy.calls (z_state s)) o /\
  exists new, z_log (lazy_step getter s e) = (z_log s ++ new)%list /\ forall i a, In (i, o, a) new -> a = Value v.
Proof.
  intros o v s e [F [G W]] ND NC.
  assert (Z0 : settled o v s /\ count_occ Z.eq_dec (Lazy.calls (z_state s)) o = count_occ Z.eq_dec (Lazy.calls (z_state s)) o /\
    exists new, z_log s = (z_log s ++ new)%list /\ forall i a, In (i, o, a) new -> a = Value v).
  { split; [exact (conj F (conj G W))|]. split; [reflexivity|]. exists []. rewrite app_nil_r. split; [reflexivity|]. intros i a []. }
  destruct e as [i k|i|k|k]; cbn [lazy_step].
  - destruct (z_phase s i) eqn:E; [|exact Z0..].
    destruct (find k (Lazy.cache (z_state s))) as [w|] eqn:Fk.
    + split; [exact (conj F (conj G W))|]. split; [reflexivity|]. exists [(i, k, Value w)]. split; [reflexivity|].
      intros j a [H|[]]. injection H as <- -> <-. congruence.
    + split; [refine (conj F (conj _ _)); cbn [z_phase]; intros j; [|intros w]; intros Q; unfold move in Q;
        destruct (Nat.eqb_spec j i); [injection Q as ->; congruence|exact (G j Q)|discriminate|exact (W j w Q)]|].
      split; [reflexivity|]. exists []. rewrite app_nil_r. split; [reflexivity|]. intros j a [].
  - destruct (z_phase s i) as [|k|k w] eqn:E; [exact Z0|..].
    + assert (N : k <> o) by (intros ->; exact (G i E)). cbn zeta.
      assert (C : count_occ Z.eq_dec (Lazy.calls (z_state s) ++ [k]) o = count_occ Z.eq_dec (Lazy.calls (z_state s)) o).
      { rewrite count_occ_app. cbn. destruct (Z.eq_dec k o); [contradiction|lia]. }
      destruct (getter k (Lazy.calls (z_state s))) as [w|].
      * split; [refine (conj F (conj _ _)); cbn [z_phase]; intros j; [|intros w']; intros Q; unfold move in Q;
          destruct (Nat.eqb_spec j i); [discriminate|exact (G j Q)|injection Q as -> _; contradiction|exact (W j w' Q)]|].
        split; [exact C|]. exists []. rewrite app_nil_r. split; [reflexivity|]. intros j a [].
      * split; [refine (conj F (conj _ _)); cbn [z_phase]; intros j; [|intros w']; intros Q; unfold move in Q;
          destruct (Nat.eqb_spec j i); [discriminate|exact (G j Q)|discriminate|exact (W j w' Q)]|].
        split; [exact C|]. exists [(i, k, GetterError)]. split; [reflexivity|]. intros j a [H|[]]. injection H as _ -> _. contradiction.
    + assert (N : k <> o) by (intros ->; exact (W i w E)).
      split; [refine (conj _ (conj _ _)); cbn [z_phase z_state Lazy.cache find];
        [destruct (Z.eqb_spec k o); [contradiction|exact F]|..]; intros j; [|intros w']; intros Q; unfold move in Q;
        destruct (Nat.eqb_spec j i); [discriminate|exact (G j Q)|discriminate|exact (W j w' Q)]|].
      split; [reflexivity|]. exists [(i, k, Value w)]. split; [reflexivity|]. intros j a [H|[]]. injection H as _ -> _. contradiction.
  - assert (N : k <> o) by congruence. unfold delitem. destruct (find k (Lazy.cache (z_state s))); [|destruct s; exact Z0].
    split; [refine (conj _ (conj G W)); cbn; rewrite find_remove_other by exact N; exact F|]. split; [reflexivity|].
    exists []. rewrite app_nil_r. split; [reflexivity|]. intros j a [].
  - assert (N : k <> o) by congruence.
    split; [refine (conj _ (conj G W)); cbn; rewrite find_remove_other by exact N; exact F|]. split; [reflexivity|].
    exists []. rewrite app_nil_r. split; [reflexivity|]. intros j a [].
Qed.
End Lazies.

(** Whatever the interleaving, each value a read gives was computed by a run of the
    getter for that object, and a read fails only with a failure of such a run. *)
Theorem c72_values : forall V (getter : Z -> list Z -> option V) es i o a,
  let s := run_threads_lazy getter lazies_start es in
  In (i, o, a) (z_log s) ->
  match a with
  | Value v => computed getter (Lazy.calls (z_state s)) o (Some v)
  | GetterError => computed getter (Lazy.calls (z_state s)) o None
  | _ => False
  end.
Proof. intros V getter es i o a s H. exact (proj2 (proj2 (lazies_ok_run getter es)) i o a H). Qed.

(** If the getter gives the same value each time, all reads from all threads agree. *)
Theorem c72_same_value : forall V (getter : Z -> list Z -> option V) es i j o v w,
  (forall past past', getter o past = getter o past') ->
  let s := run_threads_lazy getter lazies_start es in
  In (i, o, Value v) (z_log s) -> In (j, o, Value w) (z_log s) -> v = w.
Proof.
  intros V getter es i j o v w C s H1 H2. apply c72_values in H1, H2. destruct H1 as [a [b [_ H1]]], H2 as [a' [b' [_ H2]]].
  rewrite (C a' a) in H2. congruence.
Qed.

(** Once the value is stored and no other thread is still computing or storing one, all
    reads give that value and the getter is not run again. *)
Theorem c72_settles : forall V (getter : Z -> list Z -> option V) o v s es,
  settled o v s -> keeps_value o es ->
  let s' := run_threads_lazy getter s es in
  count_occ Z.eq_dec (Lazy.calls (z_state s')) o = count_occ Z.eq_dec (Lazy.calls (z_state s)) o /\
  exists new, z_log s' = (z_log s ++ new)%list /\ forall i a, In (i, o, a) new -> a = Value v.
Proof.
  intros V getter o v s es. revert s. induction es as [|e es IH]; intros s S [K1 K2].
  - split; [reflexivity|]. exists []. rewrite app_nil_r. split; [reflexivity|]. intros i a [].
  - destruct (settled_step getter o v s e S) as [S1 [C1 [n1 [L1 A1]]]];
      [intros ->; apply K1; left; reflexivity|intros ->; apply K2; left; reflexivity|].
    destruct (IH (lazy_step getter s e) S1) as [C2 [n2 [L2 A2]]];
      [split; [intros Q; apply K1; right; exact Q|intros Q; apply K2; right; exact Q]|].
    cbn zeta in *. change (run_threads_lazy getter s (e :: es)) with (run_threads_lazy getter (lazy_step getter s e) es).
    split; [congruence|]. exists (n1 ++ n2)%list. rewrite L2, L1, app_assoc. split; [reflexivity|].
    intros i a H. apply in_app_or in H. destruct H; eauto.
Qed.

(** A read that is not interrupted does what a read does in one thread (C43). *)
Theorem c72_uninterrupted : forall V (getter : Z -> list Z -> option V) s i o, z_phase s i = ZIdle ->
  let s' := run_threads_lazy getter s [ZCall i o; ZStep i; ZStep i] in
  z_state s' = snd (read getter (z_state s) o) /\ z_log s' = (z_log s ++ [(i, o, fst (read getter (z_state s) o))])%list.
Proof.
  intros V getter s i o P. unfold run_threads_lazy, read. cbn [fold_left lazy_step]. rewrite P.
  destruct (find o (Lazy.cache (z_state s))) as [v|] eqn:F; cbn [z_phase].
  - rewrite P. cbn [z_phase]. rewrite P. split; reflexivity.
  - rewrite move_same. cbn [z_state]. destruct (getter o (Lazy.calls (z_state s))) as [v|] eqn:G; cbn [z_phase]; rewrite move_same;
      split; reflexivity.
Qed.

(** The claim "a lazy attribute is computed once and is one object" is false for threads. *)
Theorem c72_one_value_refuted : exists (getter : Z -> list Z -> option Z) es i j o v w,
  keeps_value o es /\ let s := run_threads_lazy getter lazies_start es in
  In (i, o, Value v) (z_log s) /\ In (j, o, Value w) (z_log s) /\ v <> w.
Proof.
  exists (fun o past => Some (Z.of_nat (length past))), [ZCall 0%nat 5; ZCall 1%nat 5; ZStep 0%nat; ZStep 1%nat; ZStep 0%nat; ZStep 1%nat],
    0%nat, 1%nat, 5, 0, 1.
  split; [split; cbn; intros H; repeat (destruct H as [H|H]; [discriminate|]); exact H|].
  cbn. split; [tauto|]. split; [tauto|discriminate].
Qed.

Example c72_ex : settled 5 1 (run_threads_lazy (fun o past => Some (Z.of_nat (length past))) lazies_start
  [ZCall 0%nat 5; ZCall 1%nat 5; ZStep 0%nat; ZStep 1%nat; ZStep 0%nat; ZStep 1%nat; ZCall 2%nat 6]).
Proof.
  split; [reflexivity|]. split.
  - intros [|[|[|i]]]; cbn; discriminate.
  - intros [|[|[|i]]] w; cbn; discriminate.
Qed.

(** ** C73 *)

(** Whatever the threads do, the aliases have no cycle at any time at which no thread is
    in a call of register_calendar_alias. *)
Theorem c73_acyclic : forall build d es, acyclic d ->
  let s := run_threads build (machine_start d) es in
  no_alias_call s -> acyclic (registry s).
Proof.
  intros build d es A s N. apply acyclic_iff. intros x C.
  assert (W : watched s).
  { apply watched_run. intros y Cy. exfalso. apply acyclic_iff with (x := y) in A. exact (A Cy). }
  destruct (W x C) as [i H]. destruct (phases s i) as [|o ?|o ?| | | | | | | | | | | |o| | | |] eqn:E; try contradiction;
    specialize (N i); rewrite E in N; cbn in H, N; destruct o; try contradiction; eapply N; reflexivity.
Qed.

(** A call that runs alone, in any state the others left, does what it does in one
    thread (C35-C42), and gives the same answer. *)
Theorem c73_alone : forall build s i o, phases s i = Idle ->
  exists n, let s' := run_threads build s (Call i o :: repeat (Step i) n) in
    registry s' = Dispatcher.step build (registry s) o /\
    replies s' = (replies s ++ [(i, o, reply_of build (registry s) o)])%list /\
    phases s' i = Idle /\ forall j, j <> i -> phases s' j = phases s j.
Proof.
  intros build s i o P.
  destruct (solo_run build _ _ _ _ (solo_begin build (registry s) o) (Machine (registry s) (move (phases s) i (begin o)) (replies s))
    i o eq_refl (move_same _ _ _) (begin_call o)) as [n [Q1 [Q2 [Q3 Q4]]]].
  exists n. cbn [run_threads fold_left thread_step]. rewrite P.
  split; [exact Q1|]. split; [exact Q4|]. split; [exact Q2|]. intros j N. refine (eq_trans (Q3 j N) _). apply move_other. exact N.
Qed.

Local Open Scope string_scope.

(** What threads can see and a single one cannot, each on a dispatcher without cycles:
    a bare KeyError from get_calendar; *)
Theorem c73_errors_refuted : exists build d es i n k, acyclic d /\
  In (i, Get n, KeyMissing k) (replies (run_threads build (machine_start d) es)).
Proof.
  exists ex_build, ex_disp, [Call 0 (Get "b"); Step 0; Call 1 (Deregister "b"); Step 1; Step 1; Step 1; Step 0]%nat, 0%nat, "b", "b".
  split; [exact ex_disp_acyclic|]. vm_compute. tauto.
Qed.
(** an unknown name, although the name is registered before and after and only ever
    re-registered by force; *)
Theorem c73_forced_gap_refuted : exists build d es i n, acyclic d /\ has_calendar d n = true /\
  (forall j o, In (Call j o) es -> o = Get n \/ exists c, o = Register n c true) /\
  In (i, Get n, Error (InvalidCalendarName n)) (replies (run_threads build (machine_start d) es)).
Proof.
  exists ex_build, ex_disp, [Call 1 (Register "a" 5%Z true); Step 1; Step 1; Step 1; Call 0 (Get "a"); Step 0; Step 0; Step 0]%nat, 0%nat, "a".
  split; [exact ex_disp_acyclic|]. split; [reflexivity|]. split; [|vm_compute; tauto].
  intros j o H. cbn in H. repeat (destruct H as [H|H]; [try discriminate H; injection H as <- <-; eauto|]). contradiction.
Qed.
(** two registrations of one name without force that both succeed; *)
Theorem c73_collision_refuted : exists build d es n c c', acyclic d /\ c <> c' /\
  let s := run_threads build (machine_start d) es in
  In (0%nat, Register n c false, Done) (replies s) /\ In (1%nat, Register n c' false, Done) (replies s).
Proof.
  exists ex_build, ex_disp, [Call 0 (Register "n" 1%Z false); Call 1 (Register "n" 2%Z false); Step 0; Step 0; Step 0; Step 1; Step 1; Step 1;
    Step 0; Step 1]%nat, "n", 1%Z, 2%Z.
  split; [exact ex_disp_acyclic|]. split; [discriminate|]. vm_compute. tauto.
Qed.
(** a cycle that another thread is about to be refused; *)
Theorem c73_cycle_seen_refuted : exists build d es i n c, acyclic d /\
  In (i, Get n, Error (CyclicCalendarAlias c)) (replies (run_threads build (machine_start d) es)).
Proof.
  exists ex_build, ex_disp, [Call 1 (RegisterAlias "y" "z" false); Step 1; Step 1; Step 1; Step 1;
    Call 0 (Get "z"); Step 0; Step 0; Step 0; Step 0]%nat, 0%nat, "z", ["z"; "y"; "z"].
  split; [exact ex_disp_acyclic|]. vm_compute. tauto.
Qed.
(** an alias that was registered with success and is gone, with no call to remove it. *)
Theorem c73_lost_alias_refuted : exists build d es n, acyclic d /\
  (forall j o, In (Call j o) es -> exists r, o = RegisterAlias n r false) /\
  let s := run_threads build (machine_start d) es in
  In (0%nat, RegisterAlias n "a" false, Done) (replies s) /\ (forall i, phases s i = Idle) /\ has_calendar (registry s) n = false.
Proof.
  exists ex_build, ex_disp, [Call 1 (RegisterAlias "x" "x" false); Call 0 (RegisterAlias "x" "a" false);
    Step 1; Step 1; Step 1; Step 0; Step 0; Step 0; Step 1; Step 1; Step 1; Step 0; Step 0; Step 0; Step 0; Step 1]%nat, "x".
  split; [exact ex_disp_acyclic|]. split; [|split; [vm_compute; tauto|split; [|vm_compute; reflexivity]]].
  - intros j o H. cbn in H. repeat (destruct H as [H|H]; [try discriminate H; injection H as <- <-; eauto|]). contradiction.
  - intros [|[|i]]; reflexivity.
Qed.

Example c73_ex : exists es, let s := run_threads ex_build (machine_start ex_disp) es in
  ~ acyclic (registry (run_threads ex_build (machine_start ex_disp) (firstn 5 es))) /\
  no_alias_call s /\ phases s 0%nat <> Idle /\
  replies s = [(1%nat, RegisterAlias "y" "z" false, Error (CyclicCalendarAlias ["y"; "z"; "y"]))].
Proof.
  exists [Call 1 (RegisterAlias "y" "z" false); Step 1; Step 1; Step 1; Step 1; Call 0 (Get "z"); Step 1; Step 1; Step 1; Step 1; Step 1]%nat.
  split; [|split; [|split; [vm_compute; discriminate|vm_compute; reflexivity]]].
  - intros A. apply (A "y" "z"); [reflexivity|]. apply leads_step. reflexivity.
  - intros [|[|i]] a r force; cbn; discriminate.
Qed.

(** ** C74 *)

Section Reading.
Variable build : factory -> list factory -> option instance.
Variable d0 : dispatcher.
Hypothesis d0_acyclic : acyclic d0.

(** What a thread has found out so far. *)
Definition reading_phase (p : phase) : Prop :=
  match p with
  | Idle | NamesNow => True
  | ResolveTest o seen n =>
      match o with
      | Get a | Resolve a => leads_to d0 a n /\ forall z, In z seen -> exists w, lookup z (aliases d0) = Some w /\ leads_to d0 w n
      | _ => False
      end
  | ResolveRead o seen n =>
      match o with
      | Get a | Resolve a => leads_to d0 a n /\ lookup n (aliases d0) <> None /\ forall z, In z seen -> leads_to d0 z n
      | _ => False
      end
  | GetCached o n => match o with Get a => canonical d0 a n | _ => False end
  | GetFactory o n => match o with Get a => canonical d0 a n /\ lookup n (calendars d0) = None | _ => False end
  | GetBuild o n f => match o with Get a => canonical d0 a n /\ lookup n (factories d0) = Some f | _ => False end
  | GetStore o n c => match o with Get a => canonical d0 a n /\ lookup n (factories d0) <> None /\ instance_of build d0 n c | _ => False end
  | HasCalendar o => exists n, o = Has n
  | HasFactory o => exists n, o = Has n /\ lookup n (calendars d0) = None
  | HasAlias o => exists n, o = Has n /\ lookup n (calendars d0) = None /\ lookup n (factories d0) = None
  | _ => False
  end.
Definition reading_reply (o : op) (r : reply) : Prop :=
  match o, r with
  | Get a, Instance c => exists m, canonical d0 a m /\ instance_of build d0 m c
  | Get a, Error (InvalidCalendarName n) => n = a /\ exists m, canonical d0 a m /\ lookup m (calendars d0) = None /\ lookup m (factories d0) = None
  | Get a, Error (FactoryError f) => exists m past, canonical d0 a m /\ lookup m (factories d0) = Some f /\ build f past = None
  | Resolve a, Name m => canonical d0 a m
  | Has n, Answer b => b = has_calendar d0 n
  | Names, Listed ns => forall n, In n ns <-> In n (get_calendar_names d0)
  | _, _ => False
  end.
Definition reading (s : machine) : Prop :=
  aliases (registry s) = aliases d0 /\ factories (registry s) = factories d0 /\
  (forall m c, lookup m (calendars (registry s)) = Some c -> instance_of build d0 m c) /\
  (forall m, lookup m (calendars d0) <> None -> lookup m (calendars (registry s)) <> None) /\
  (forall i, reading_phase (phases s i)) /\
  (forall i o r, In (i, o, r) (replies s) -> reading_reply o r).

Lemma reading_names : forall s, aliases (registry s) = aliases d0 -> factories (registry s) = factories d0 ->
  (forall m c, lookup m (calendars (registry s)) = Some c -> instance_of build d0 m c) ->
  (forall m, lookup m (calendars d0) <> None -> lookup m (calendars (registry s)) <> None) ->
  forall n, In n (get_calendar_names (registry s)) <-> In n (get_calendar_names d0).
Proof.
  intros s A F K M n. unfold get_calendar_names. rewrite !nodup_In, !in_app_iff, !lookup_keys, A, F. split; intros H.
  - destruct H as [H|H]; [|tauto]. destruct (lookup n (calendars (registry s))) as [c|] eqn:E; [|congruence].
    destruct (K n c E) as [Q|[f [past [Q _]]]]; [left; congruence|right; left; congruence].
  - destruct H as [H|H]; [|tauto]. left. exact (M n H).
Qed.

Lemma reading_advance : forall s i o, reading s -> call_of (phases s i) = Some o ->
  let d := fst (advance build (registry s) (phases s i)) in
  (aliases d = aliases d0 /\ factories d = factories d0 /\
   (forall m c, lookup m (calendars d) = Some c -> instance_of build d0 m c) /\
   (forall m, lookup m (calendars d0) <> None -> lookup m (calendars d) <> None)) /\
  match snd (advance build (registry s) (phases s i)) with
  | Goes p => reading_phase p
  | Ends r => reading_reply o r
  end.
Proof.
  intros s i o [A [F [K [M [P R]]]]] C. specialize (P i).
  assert (Z0 : aliases (registry s) = aliases d0 /\ factories (registry s) = factories d0 /\
   (forall m c, lookup m (calendars (registry s)) = Some c -> instance_of build d0 m c) /\
   (forall m, lookup m (calendars d0) <> None -> lookup m (calendars (registry s)) <> None))
    by exact (conj A (conj F (conj K M))).
  assert (N0 : forall m, lookup m (calendars (registry s)) = None -> lookup m (calendars d0) = None).
  { intros m E. destruct (lookup m (calendars d0)) eqn:Q; [|reflexivity]. exfalso. apply (M m); congruence. }
  destruct (phases s i) as [|o' seen n|o' seen n|o' n|o' n|o' n f|o' n c|o'|o'|o'|o'|o'|o'|o'|o' cyc| | | |] eqn:E;
    cbn [call_of] in C; try discriminate C; try (injection C as ->); cbn [advance fst snd];
    try (cbn [reading_phase] in P; contradiction).
  - (* ResolveTest *) split; [exact Z0|]. rewrite mem_lookup, A. cbn [reading_phase] in P.
    destruct (lookup n (aliases d0)) as [n'|] eqn:L.
    + cbn [reading_phase]. destruct o; try contradiction; destruct P as [P1 P2]; (split; [exact P1|]); (split; [congruence|]);
        intros z H; apply in_app_or in H; destruct H as [H|[<-|[]]]; try constructor;
        destruct (P2 z H) as [w [W1 W2]]; exact (leads_on d0 z w n W1 W2).
    + destruct o; try contradiction; destruct P as [P1 P2]; cbn; split; assumption.
  - (* ResolveRead *) split; [exact Z0|]. rewrite A. cbn [reading_phase] in P.
    destruct (lookup n (aliases d0)) as [n'|] eqn:L; [|destruct o; try contradiction; destruct P as [_ [P _]]; congruence].
    assert (P2 : forall z, In z seen -> leads_to d0 z n) by (destruct o; try contradiction; apply P).
    destruct (existsb (String.eqb n') seen) eqn:X.
    + exfalso. apply existsb_exists in X. destruct X as [z [X1 X2]]. apply String.eqb_eq in X2. subst z.
      exact (d0_acyclic n n' L (P2 n' X1)).
    + cbn [reading_phase]. destruct o; try contradiction; destruct P as [P1 _];
        (split; [apply (leads_trans d0 _ n n' P1); apply leads_step; exact L|]);
        intros z H; specialize (P2 z H); inversion P2 as [z'|z' w y' W1 W2]; subst;
          [exists n'; split; [exact L|constructor]| exists w; split; [exact W1|]; apply (leads_trans d0 w n n' W2); apply leads_step; exact L
          |exists n'; split; [exact L|constructor]| exists w; split; [exact W1|]; apply (leads_trans d0 w n n' W2); apply leads_step; exact L].
  - (* GetCached *) split; [exact Z0|]. cbn [reading_phase] in P. destruct o; try contradiction.
    destruct (lookup n (calendars (registry s))) as [c|] eqn:L; cbn; [exists n; split; [exact P|exact (K n c L)]|].
    split; [exact P|exact (N0 n L)].
  - (* GetFactory *) split; [exact Z0|]. cbn [reading_phase] in P. destruct o; try contradiction. destruct P as [P1 P2]. rewrite F.
    destruct (lookup n (factories d0)) as [f|] eqn:L; cbn; [split; assumption|]. split; [reflexivity|]. exists n. auto.
  - (* GetBuild *) cbn [reading_phase] in P. destruct o; try contradiction. destruct P as [P1 P2].
    split; [exact Z0|]. destruct (build f (calls (registry s))) as [c|] eqn:B; cbn.
    + split; [exact P1|]. split; [congruence|]. right. exists f, (calls (registry s)). auto.
    + exists n, (calls (registry s)). auto.
  - (* GetStore *) cbn [reading_phase] in P. destruct o; try contradiction. destruct P as [P1 [P2 P3]]. cbn. split.
    + split; [exact A|]. split; [exact F|]. split.
      * intros m c' H. rewrite lookup_store in H. destruct (String.eqb_spec n m) as [->|]; [|exact (K m c' H)].
        injection H as <-. exact P3.
      * intros m H. rewrite lookup_store. destruct (String.eqb n m); [discriminate|exact (M m H)].
    + exists n. auto.
  - (* HasCalendar *) split; [exact Z0|]. cbn [reading_phase] in P. destruct P as [n ->]. cbn [target].
    rewrite mem_lookup. destruct (lookup n (calendars (registry s))) as [c|] eqn:L; cbn.
    + symmetry. unfold has_calendar. rewrite !mem_lookup.
      destruct (K n c L) as [Q|[f [past [Q _]]]]; rewrite Q; [reflexivity|]. destruct (lookup n (calendars d0)); reflexivity.
    + exists n. split; [reflexivity|exact (N0 n L)].
  - (* HasFactory *) split; [exact Z0|]. cbn [reading_phase] in P. destruct P as [n [-> P]]. cbn [target].
    rewrite mem_lookup, F. destruct (lookup n (factories d0)) as [f|] eqn:L; cbn.
    + symmetry. unfold has_calendar. rewrite !mem_lookup, P, L. reflexivity.
    + exists n. auto.
  - (* HasAlias *) split; [exact Z0|]. cbn [reading_phase] in P. destruct P as [n [-> [P1 P2]]]. cbn [target].
    rewrite mem_lookup, A. destruct (lookup n (aliases d0)) as [f|] eqn:L; cbn;
      symmetry; unfold has_calendar; rewrite !mem_lookup, P1, P2, L; reflexivity.
  - (* Names *) split; [exact Z0|]. injection C as <-. cbn. apply reading_names; assumption.
Qed.

Lemma reading_begin : forall o, reads o -> reading_phase (begin o).
Proof.
  intros o H. destruct o; try contradiction; cbn; eauto; split; try constructor; intros z [].
Qed.
Lemma reading_step : forall s e, reading s -> (forall i o, e = Call i o -> reads o) -> reading (thread_step build s e).
Proof.
  intros s e S H. destruct e as [i o|i]; cbn [thread_step].
  - specialize (H i o eq_refl). destruct (phases s i); try exact S. destruct S as [A [F [K [M [P R]]]]].
    refine (conj A (conj F (conj K (conj M (conj _ R))))). intros j. cbn [phases]. unfold move.
    destruct (Nat.eqb j i); [apply reading_begin; exact H|apply P].
  - destruct (call_of (phases s i)) as [o|] eqn:C; [|exact S]. pose proof (reading_advance s i o S C) as Q.
    destruct (advance build (registry s) (phases s i)) as [d x]. cbn [fst snd] in Q. destruct Q as [[A [F [K M]]] Q].
    destruct S as [_ [_ [_ [_ [P R]]]]]. destruct x as [p|r]; refine (conj A (conj F (conj K (conj M _)))); cbn [phases replies].
    + split; [|exact R]. intros j. unfold move. destruct (Nat.eqb j i); [exact Q|apply P].
    + split; [intros j; unfold move; destruct (Nat.eqb j i); [exact I|apply P]|].
      intros j o' r' H'. apply in_app_or in H'. destruct H' as [H'|[H'|[]]]; [exact (R j o' r' H')|]. injection H' as <- <- <-. exact Q.
Qed.
Lemma reading_run : forall es s, reading s -> only_reads es -> reading (run_threads build s es).
Proof.
  intros es. induction es as [|e es IH]; intros s S H; [exact S|]. cbn. apply IH.
  - apply reading_step; [exact S|]. intros i o ->. apply (H i o). left. reflexivity.
  - intros i o Q. apply (H i o). right. exact Q.
Qed.
Lemma reading_start : reading (machine_start d0).
Proof.
  refine (conj eq_refl (conj eq_refl (conj _ (conj _ (conj _ _))))); cbn; auto.
  - intros m c H. left. exact H.
  - intros i o r [].
Qed.
End Reading.

(** As long as threads only look calendars up, in any interleaving: the registrations do not
    change; resolve_alias, has_calendar and get_calendar_names answer as for one thread; and
    get_calendar gives an instance that was registered or that a factory made under the
    canonical name, or fails as it does for one thread: for an unknown name or with a
    failure of the factory, never with a KeyError or a cycle. *)
Theorem c74_lookups : forall build d es, acyclic d -> only_reads es ->
  let s := run_threads build (machine_start d) es in
  aliases (registry s) = aliases d /\ factories (registry s) = factories d /\
  (forall i o r, In (i, o, r) (replies s) ->
     match o, r with
     | Get a, Instance c => exists m, canonical d a m /\ instance_of build d m c
     | Get a, Error (InvalidCalendarName n) =>
         n = a /\ exists m, canonical d a m /\ lookup m (calendars d) = None /\ lookup m (factories d) = None
     | Get a, Error (FactoryError f) => exists m past, canonical d a m /\ lookup m (factories d) = Some f /\ build f past = None
     | Resolve a, Name m => canonical d a m
     | Has n, Answer b => b = has_calendar d n
     | Names, Listed ns => forall n, In n ns <-> In n (get_calendar_names d)
     | _, _ => False
     end).
Proof.
  intros build d es A O s. destruct (reading_run build d A es _ (reading_start build d) O) as [H1 [H2 [_ [_ [_ H3]]]]].
  exact (conj H1 (conj H2 H3)).
Qed.

(** The instance under [m] is [c] and no thread is about to replace it. *)
Definition established (m : name) (c : instance) (s : machine) : Prop :=
  lookup m (calendars (registry s)) = Some c /\ forall i, ~ building m (phases s i).

Lemma established_step : forall build d m c s e, acyclic d -> reading build d s -> established m c s ->
  (forall i o, e = Call i o -> reads o) ->
  established m c (thread_step build s e) /\
  exists new, replies (thread_step build s e) = (replies s ++ new)%list /\
    forall i n r, canonical d n m -> In (i, Get n, r) new -> r = Instance c.
Proof.
  intros build d m c s e A S [K B] H.
  assert (Z0 : established m c s /\ exists new, replies s = (replies s ++ new)%list /\
    forall i n r, canonical d n m -> In (i, Get n, r) new -> r = Instance c).
  { split; [exact (conj K B)|]. exists []. rewrite app_nil_r. split; [reflexivity|]. intros i n r _ []. }
  destruct e as [i o|i]; cbn [thread_step].
  - specialize (H i o eq_refl). destruct (phases s i) eqn:E; try exact Z0. split; [|exact (proj2 Z0)].
    split; [exact K|]. intros j. cbn [phases]. unfold move. destruct (Nat.eqb j i); [|apply B].
    destruct o; try contradiction; cbn; auto.
  - destruct (call_of (phases s i)) as [o|] eqn:C; [|exact Z0].
    pose proof (reading_advance build d A s i o S C) as Q. pose proof (B i) as Bi.
    destruct S as [_ [_ [_ [_ [P _]]]]]. specialize (P i).
    assert (G : lookup m (calendars (fst (advance build (registry s) (phases s i)))) = Some c /\
      match snd (advance build (registry s) (phases s i)) with
      | Goes p => ~ building m p
      | Ends r => forall n, o = Get n -> canonical d n m -> r = Instance c
      end).
    { destruct (phases s i) as [|o' seen n|o' seen n|o' n|o' n|o' n f|o' n c'|o'|o'|o'|o'|o'|o'|o'|o' cyc| | | |] eqn:E;
        cbn [call_of] in C; try discriminate C; try (injection C as ->); cbn [advance fst snd];
        try (cbn [reading_phase] in P; contradiction).
      - split; [exact K|]. destruct (mem n (aliases (registry s))); [cbn; auto|].
        cbn [reading_phase] in P. destruct o; try contradiction; cbn; [auto|]. intros x0 H0. discriminate H0.
      - split; [exact K|]. destruct Q as [_ Q]. cbn [advance fst snd] in Q. cbn [reading_phase] in P.
        destruct (lookup n (aliases (registry s))) as [n'|]; [|destruct o; contradiction].
        destruct (existsb (String.eqb n') seen); [destruct o; try contradiction; cbn in Q; contradiction|cbn; auto].
      - split; [exact K|]. cbn [reading_phase] in P. destruct o; try contradiction.
        destruct (lookup n (calendars (registry s))) as [c'|] eqn:L.
        + intros x0 H0 C0. injection H0 as ->. rewrite (canonical_unique d x0 n m P C0) in L. congruence.
        + cbn. intros ->. congruence.
      - split; [exact K|]. cbn [reading_phase] in P. destruct o; try contradiction. destruct P as [P _].
        destruct (lookup n (factories (registry s))) as [f|]; cbn; [exact Bi|].
        intros x0 H0 C0. injection H0 as ->. exfalso. apply Bi. exact (canonical_unique d x0 n m P C0).
      - split; [exact K|]. cbn [reading_phase] in P. destruct o; try contradiction. destruct P as [P _].
        destruct (build f (calls (registry s))) as [c'|]; cbn; [exact Bi|].
        intros x0 H0 C0. injection H0 as ->. exfalso. apply Bi. exact (canonical_unique d x0 n m P C0).
      - cbn [reading_phase] in P. destruct o; try contradiction. destruct P as [P _]. cbn in Bi |- *. split.
        + rewrite lookup_store. destruct (String.eqb_spec n m); [contradiction|exact K].
        + intros x0 H0 C0. injection H0 as ->. exfalso. apply Bi. exact (canonical_unique d x0 n m P C0).
      - split; [exact K|]. cbn [reading_phase] in P. destruct P as [n ->]. destruct (mem _ _); cbn; [discriminate|auto].
      - split; [exact K|]. cbn [reading_phase] in P. destruct P as [n [-> _]]. destruct (mem _ _); cbn; [discriminate|auto].
      - split; [exact K|]. cbn [reading_phase] in P. destruct P as [n [-> _]]. destruct (mem _ _); cbn; discriminate.
      - split; [exact K|]. injection C as <-. discriminate. }
    destruct (advance build (registry s) (phases s i)) as [d' x]. cbn [fst snd] in G. destruct G as [G1 G2].
    destruct x as [p|r]; cbn [phases replies registry].
    + split; [|exact (proj2 Z0)]. split; [exact G1|]. intros j. cbn [phases]. unfold move.
      destruct (Nat.eqb j i); [exact G2|apply B].
    + split; [split; [exact G1|intros j; cbn [phases]; unfold move; destruct (Nat.eqb j i); [cbn; auto|apply B]]|].
      exists [(i, o, r)]. split; [reflexivity|]. intros j n r' C0 [H0|[]]. injection H0 as _ -> <-. exact (G2 n eq_refl C0).
Qed.

(** Once there is an instance under the canonical name of [n] and no thread is building
    another, all threads are given this instance, by whatever alias they ask. *)
Theorem c74_settles : forall build d es es' i n m c r, acyclic d -> only_reads es -> only_reads es' ->
  let s := run_threads build (machine_start d) es in
  lookup m (calendars (registry s)) = Some c -> (forall j, ~ building m (phases s j)) ->
  canonical d n m -> In (i, Get n, r) (answers_between s (run_threads build s es')) -> r = Instance c.
Proof.
  intros build d es es' i n m c r A O O' s K B C H.
  assert (G : forall es' s, reading build d s -> established m c s -> only_reads es' ->
    exists new, replies (run_threads build s es') = (replies s ++ new)%list /\
      forall i n r, canonical d n m -> In (i, Get n, r) new -> r = Instance c).
  { clear -A. intros es'. induction es' as [|e es' IH]; intros s S T O.
    - exists []. rewrite app_nil_r. split; [reflexivity|]. intros i n r _ [].
    - assert (O1 : forall i o, e = Call i o -> reads o) by (intros i o ->; apply (O i o); left; reflexivity).
      destruct (established_step build d m c s e A S T O1) as [T1 [n1 [L1 R1]]].
      destruct (IH (thread_step build s e) (reading_step build d A s e S O1) T1) as [n2 [L2 R2]];
        [intros i o Q; apply (O i o); right; exact Q|].
      exists (n1 ++ n2)%list. cbn. fold (run_threads build (thread_step build s e) es'). rewrite L2, L1, app_assoc.
      split; [reflexivity|]. intros i n r C H. apply in_app_or in H. destruct H; eauto. }
  destruct (G es' s (reading_run build d A es _ (reading_start build d) O) (conj K B) O') as [new [L R]].
  unfold answers_between in H. rewrite L, skipn_app, skipn_all, Nat.sub_diag in H. exact (R i n r C H).
Qed.

(** In particular an instance that is there from the start is given to all. *)
Theorem c74_registered : forall build d es i n m c r, acyclic d -> only_reads es ->
  canonical d n m -> lookup m (calendars d) = Some c ->
  In (i, Get n, r) (replies (run_threads build (machine_start d) es)) -> r = Instance c.
Proof.
  intros build d es i n m c r A O C K H.
  apply (c74_settles build d [] es i n m c r A); auto; intros j o [].
Qed.

(** The claim "get_calendar gives one instance for each name" is false for threads: two
    first lookups of a name can both build, and the second replaces the first. *)
Theorem c74_one_instance_refuted : exists build d es n c c', acyclic d /\ only_reads es /\ c <> c' /\
  let s := run_threads build (machine_start d) es in
  In (0%nat, Get n, Instance c) (replies s) /\ In (1%nat, Get n, Instance c') (replies s) /\
  lookup n (calendars (registry s)) = Some c'.
Proof.
  exists ex_build, ex_disp, [Call 0 (Get "a"); Call 1 (Get "a"); Step 0; Step 0; Step 1; Step 1; Step 0; Step 0; Step 1; Step 1; Step 0; Step 1]%nat,
    "a", 100%Z, 101%Z.
  split; [exact ex_disp_acyclic|]. split; [|split; [discriminate|vm_compute; tauto]].
  intros i o H. cbn in H. repeat (destruct H as [H|H]; [try discriminate H; injection H as <- <-; exact I|]). contradiction.
Qed.

Example c74_ex : exists es es', let s := run_threads ex_build (machine_start ex_disp) es in
  only_reads es /\ only_reads es' /\ lookup "a" (calendars (registry s)) = Some 100%Z /\ (forall j, ~ building "a" (phases s j)) /\
  phases s 1%nat <> Idle /\
  answers_between s (run_threads ex_build s es') = [(1%nat, Get "c", Instance 100%Z); (0%nat, Get "b", Instance 100%Z);
    (2%nat, Get "y", Error (InvalidCalendarName "y"))].
Proof.
  exists [Call 1 (Get "c"); Step 1; Call 0 (Get "a"); Step 0; Step 0; Step 0; Step 0; Step 0]%nat,
    [Call 0 (Get "b"); Call 2 (Get "y"); Step 2; Step 2; Step 1; Step 1; Step 1; Step 1; Step 1; Step 0; Step 0; Step 0; Step 0; Step 2]%nat.
  split; [intros i o H; cbn in H; repeat (destruct H as [H|H]; [try discriminate H; injection H as <- <-; exact I|]); contradiction|].
  split; [intros i o H; cbn in H; repeat (destruct H as [H|H]; [try discriminate H; injection H as <- <-; exact I|]); contradiction|].
  split; [reflexivity|]. split; [intros [|[|j]]; cbn; auto|]. split; [discriminate|]. vm_compute. reflexivity.
Qed.

(** ** Assumptions *)
Print Assumptions c71_answers.
Print Assumptions c71_agreeing.
Print Assumptions c71_uninterrupted.
Print Assumptions c71_threads_refuted.
Print Assumptions c72_values.
Print Assumptions c72_same_value.
Print Assumptions c72_settles.
Print Assumptions c72_uninterrupted.
Print Assumptions c72_one_value_refuted.
Print Assumptions c73_acyclic.
Print Assumptions c73_alone.
Print Assumptions c73_errors_refuted.
Print Assumptions c73_forced_gap_refuted.
Print Assumptions c73_collision_refuted.
Print Assumptions c73_cycle_seen_refuted.
Print Assumptions c73_lost_alias_refuted.
Print Assumptions c74_lookups.
Print Assumptions c74_settles.
Print Assumptions c74_registered.
Print Assumptions c74_one_instance_refuted.
