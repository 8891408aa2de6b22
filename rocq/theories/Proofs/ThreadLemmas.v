(** Lemmas on threads. *)
From Coq Require Import String ZArith List Bool Lia.
From Verif.Model Require Import Base Queries Lazy Dispatcher Threads.
From Verif.Spec Require Import Registry Interleaving.
From Verif.Proofs Require Import DispatcherLemmas.
Import ListNotations.
Open Scope Z_scope.

Lemma move_same : forall {P} (ps : nat -> P) i p, move ps i p i = p.
Proof. intros. unfold move. rewrite Nat.eqb_refl. reflexivity. Qed.
Lemma move_other : forall {P} (ps : nat -> P) i p j, j <> i -> move ps i p j = ps j.
Proof. intros P ps i p j H. unfold move. destruct (Nat.eqb_spec j i); [contradiction|reflexivity]. Qed.

(** ** Cycles *)

Definition on_cycle (d : dispatcher) (x : name) : Prop :=
  exists y, lookup x (aliases d) = Some y /\ leads_to d y x.
Lemma acyclic_iff : forall d, acyclic d <-> forall x, ~ on_cycle d x.
Proof.
  intros d. split.
  - intros H x [y [E L]]. exact (H x y E L).
  - intros H a b E L. apply (H a). exists b. auto.
Qed.
Lemma on_cycle_leads : forall d x y, on_cycle d x -> leads_to d x y -> on_cycle d y.
Proof. intros d x y H L. exact (cycle_closed d x y L H). Qed.
Lemma on_cycle_back : forall d x y, on_cycle d x -> leads_to d x y -> leads_to d y x.
Proof.
  intros d x y H L. induction L as [a|a b c E L IH]; [constructor|].
  destruct H as [b' [E' L']]. rewrite E in E'. injection E' as <-.
  assert (B : on_cycle d b) by (apply (on_cycle_leads d a); [exists b; auto|apply leads_step; exact E]).
  specialize (IH B). apply (leads_trans d c b a IH L').
Qed.

(** The names on a cycle are finitely many, so it is decidable if one is on it. *)
Lemma path_list : forall d y x, leads_to d y x ->
  exists l, In y l /\ (forall z, In z l -> leads_to d y z) /\
    (forall z w, In z l -> z <> x -> lookup z (aliases d) = Some w -> In w l).
Proof.
  intros d y x L. induction L as [a|a b c E L IH].
  - exists [a]. split; [left; reflexivity|]. split.
    + intros z [<-|[]]. constructor.
    + intros z w [<-|[]] N. contradiction.
  - destruct IH as [l [I1 [I2 I3]]]. exists (a :: l). split; [left; reflexivity|]. split.
    + intros z [<-|Hz]; [constructor|]. exact (leads_on d a b z E (I2 z Hz)).
    + intros z w [<-|Hz] N W.
      * rewrite E in W. injection W as <-. right. exact I1.
      * right. exact (I3 z w Hz N W).
Qed.
Lemma on_cycle_dec : forall d x a, on_cycle d x -> leads_to d x a \/ ~ leads_to d x a.
Proof.
  intros d x a [y [E L]]. destruct (path_list d y x L) as [l [I1 [I2 I3]]].
  assert (C : forall u v, leads_to d u v -> In u l -> In v l).
  { intros u v H. induction H as [u|u v w E1 H IH]; intros Hu; [exact Hu|]. apply IH.
    destruct (string_dec u x) as [->|N]; [rewrite E in E1; injection E1 as <-; exact I1|exact (I3 u v Hu N E1)]. }
  destruct (string_dec a x) as [->|N]; [left; constructor|].
  destruct (in_dec string_dec a l) as [Q|Q].
  - left. exact (leads_on d x y a E (I2 a Q)).
  - right. intros F. inversion F as [|x' y' a' E' F']; subst; [contradiction|].
    rewrite E in E'. injection E' as <-. apply Q. exact (C y a F' I1).
Qed.

(** With fewer aliases, the chains on a cycle that remains are the same. *)
Lemma fewer_chain : forall d d' x y,
  (forall a b, lookup a (aliases d') = Some b -> lookup a (aliases d) = Some b) ->
  on_cycle d' x -> leads_to d x y -> leads_to d' x y.
Proof.
  intros d d' x y S H L. revert H. induction L as [a|a b c E L IH]; intros H; [constructor|].
  destruct H as [b' [E' L']]. pose proof (S _ _ E') as E2. rewrite E in E2. injection E2 as <-.
  apply (leads_on d' a b c E'). apply IH. apply (on_cycle_leads d' a); [exists b; auto|apply leads_step; exact E'].
Qed.
Lemma fewer_leads : forall d d' x y,
  (forall a b, lookup a (aliases d') = Some b -> lookup a (aliases d) = Some b) ->
  leads_to d' x y -> leads_to d x y.
Proof. intros d d' x y S L. induction L as [a|a b c E L IH]; [constructor|]. exact (leads_on d a b c (S _ _ E) IH). Qed.
Lemma fewer_cycle : forall d d' x,
  (forall a b, lookup a (aliases d') = Some b -> lookup a (aliases d) = Some b) -> on_cycle d' x -> on_cycle d x.
Proof. intros d d' x S [y [E L]]. exists y. split; [exact (S _ _ E)|exact (fewer_leads d d' y x S L)]. Qed.

(** With one alias changed, the chains that do not meet it are the same. *)
Lemma unmet_chain : forall d d' a0 x y,
  (forall k, k <> a0 -> lookup k (aliases d) = lookup k (aliases d')) ->
  ~ leads_to d' x a0 -> leads_to d x y -> leads_to d' x y.
Proof.
  intros d d' a0 x y S N L. revert N. induction L as [a|a b c E L IH]; intros N; [constructor|].
  assert (Na : a <> a0) by (intros ->; apply N; constructor).
  rewrite (S a Na) in E. apply (leads_on d' a b c E). apply IH. intros F. apply N. exact (leads_on d' a b a0 E F).
Qed.
Lemma unmet_back : forall d d' a0 x y,
  (forall k, k <> a0 -> lookup k (aliases d) = lookup k (aliases d')) ->
  ~ leads_to d' x a0 -> leads_to d' x y -> leads_to d x y.
Proof.
  intros d d' a0 x y S N L. revert N. induction L as [a|a b c E L IH]; intros N; [constructor|].
  assert (Na : a <> a0) by (intros ->; apply N; constructor).
  assert (E' := E). rewrite <- (S a Na) in E'. apply (leads_on d a b c E'). apply IH.
  intros F. apply N. exact (leads_on d' a b a0 E F).
Qed.

(** ** No cycle outlives the registration that closed it *)

(** The thread is going to find the cycle through [x] and to remove an alias of it. *)
Definition watches (d : dispatcher) (x : name) (p : phase) : Prop :=
  match p with
  | ResolveTest (RegisterAlias a _ _) _ n => leads_to d x a /\ leads_to d a n
  | ResolveRead (RegisterAlias a _ _) _ n => leads_to d x a /\ leads_to d a n
  | DeleteAlias (RegisterAlias a _ _) _ => leads_to d x a
  | _ => False
  end.
Definition watched (s : machine) : Prop :=
  forall x, on_cycle (registry s) x -> exists i, watches (registry s) x (phases s i).

Lemma watches_same : forall d d' x p, aliases d' = aliases d -> watches d x p -> watches d' x p.
Proof.
  intros d d' x p E H. assert (L : forall a b, leads_to d a b -> leads_to d' a b).
  { intros a b. apply leads_same. symmetry. exact E. }
  destruct p; try exact H; destruct o; try exact H; cbn in *; try (apply L; exact H);
    destruct H; split; apply L; assumption.
Qed.
Lemma on_cycle_same : forall d d' x, aliases d' = aliases d -> on_cycle d' x -> on_cycle d x.
Proof.
  intros d d' x E [y [E1 L]]. exists y. rewrite <- E. split; [exact E1|]. apply (leads_same d' d); [exact E|exact L].
Qed.
Lemma watches_fewer : forall d d' x p,
  (forall a b, lookup a (aliases d') = Some b -> lookup a (aliases d) = Some b) ->
  on_cycle d' x -> watches d x p -> watches d' x p.
Proof.
  intros d d' x p S H W. assert (L : forall y, leads_to d x y -> leads_to d' x y)
    by (intros y; apply fewer_chain; assumption).
  assert (L2 : forall a n, leads_to d x a -> leads_to d a n -> leads_to d' a n).
  { intros a n A N. apply (fewer_chain d d' a n S); [|exact N]. apply (on_cycle_leads d' x a H). apply L. exact A. }
  destruct p; try exact W; destruct o; try exact W; cbn in *; try (apply L; exact W);
    destruct W; split; [apply L; assumption|eapply L2; eassumption|apply L; assumption|eapply L2; eassumption].
Qed.
Lemma watches_unmet : forall d d' a0 x p,
  (forall k, k <> a0 -> lookup k (aliases d) = lookup k (aliases d')) ->
  ~ leads_to d' x a0 -> watches d x p -> watches d' x p.
Proof.
  intros d d' a0 x p S H W. assert (L : forall y, leads_to d x y -> leads_to d' x y)
    by (intros y; apply (unmet_chain d d' a0); assumption).
  assert (L2 : forall a n, leads_to d x a -> leads_to d a n -> leads_to d' a n).
  { intros a n A N. apply (unmet_chain d d' a0 a n S); [|exact N]. intros F. apply H.
    apply (leads_trans d' x a a0); [apply L; exact A|exact F]. }
  destruct p; try exact W; destruct o; try exact W; cbn in *; try (apply L; exact W);
    destruct W; split; [apply L; assumption|eapply L2; eassumption|apply L; assumption|eapply L2; eassumption].
Qed.

Section Build.
Variable build : factory -> list factory -> option instance.

Lemma watched_step : forall s e, watched s -> watched (thread_step build s e).
Proof.
  intros s e W. destruct e as [i o|i]; cbn [thread_step].
  - destruct (phases s i) eqn:P; try exact W. intros x H. cbn [registry phases] in *.
    destruct (W x H) as [j Hj]. exists j. unfold move. destruct (Nat.eqb_spec j i) as [->|]; [|exact Hj].
    rewrite P in Hj. destruct Hj.
  - destruct (call_of (phases s i)) as [o|] eqn:C; [|exact W].
    destruct (advance build (registry s) (phases s i)) as [d' r] eqn:A.
    set (s' := match r with
      | Goes p => Machine d' (move (phases s) i p) (replies s)
      | Ends r => Machine d' (move (phases s) i Idle) (replies s ++ [(i, o, r)]) end).
    assert (R : registry s' = d') by (unfold s'; destruct r; reflexivity).
    assert (O : forall j, j <> i -> phases s' j = phases s j).
    { intros j Hj. unfold s'. destruct r; apply move_other; exact Hj. }
    assert (I : phases s' i = match r with Goes p => p | Ends _ => Idle end).
    { unfold s'. destruct r; apply move_same. }
    clearbody s'. intros x H. rewrite R in H.
    (* the thread itself watched the cycle, and does so still *)
    assert (Own : forall d, d = registry s -> on_cycle d x -> watches d x (phases s i) ->
      (forall a b, lookup a (aliases d') = Some b -> lookup a (aliases d) = Some b) ->
      exists j, watches (registry s') x (phases s' j)).
    { intros d -> Hc Hw S. exists i. rewrite R, I. clear O I W. destruct (phases s i) eqn:P; try (exfalso; exact Hw);
        destruct o0; try (exfalso; exact Hw); cbn [advance] in A; cbn [watches] in Hw.
      - (* ResolveTest *) destruct Hw as [W1 W2]. injection A as <- <-.
        destruct (on_cycle_leads _ _ _ Hc (leads_trans _ _ _ _ W1 W2)) as [n' [E _]].
        rewrite mem_lookup, E. cbn. auto.
      - (* ResolveRead *) destruct Hw as [W1 W2]. injection A as <- <-.
        destruct (on_cycle_leads _ _ _ Hc (leads_trans _ _ _ _ W1 W2)) as [n' [E _]].
        rewrite E. destruct (existsb (String.eqb n') seen); cbn; [exact W1|].
        split; [exact W1|]. apply (leads_trans _ _ n); [exact W2|apply leads_step; exact E].
      - (* DeleteAlias *) exfalso. injection A as <- <-. cbn [aliases target] in H.
        assert (B : leads_to (Dispatcher (calendars (registry s)) (factories (registry s))
          (pop a (aliases (registry s))) (calls (registry s))) x a).
        { apply (fewer_chain (registry s)); [|exact H|exact Hw]. cbn [aliases]. intros k b. rewrite lookup_pop.
          destruct (String.eqb a k); [discriminate|auto]. }
        destruct (on_cycle_leads _ _ _ H B) as [n' [E _]]. cbn [aliases] in E. rewrite lookup_pop, String.eqb_refl in E.
        discriminate E. }
    assert (Less : (forall a b, lookup a (aliases d') = Some b -> lookup a (aliases (registry s)) = Some b) ->
      exists j, watches (registry s') x (phases s' j)).
    { intros S. pose proof (fewer_cycle _ _ _ S H) as Hc. destruct (W x Hc) as [j Hj].
      destruct (Nat.eq_dec j i) as [->|Nj]; [exact (Own _ eq_refl Hc Hj S)|].
      exists j. rewrite R, (O j Nj). exact (watches_fewer _ _ x _ S H Hj). }
    assert (Same : aliases d' = aliases (registry s) -> exists j, watches (registry s') x (phases s' j)).
    { intros E. apply Less. rewrite E. auto. }
    assert (Pop : forall n, aliases d' = pop n (aliases (registry s)) -> exists j, watches (registry s') x (phases s' j)).
    { intros n E. apply Less. intros a b. rewrite E, lookup_pop. destruct (String.eqb n a); [discriminate|auto]. }
    destruct (phases s i) eqn:P; cbn [advance] in A;
      try (apply Same; injection A as <- _; reflexivity).
    + (* PopAlias *) apply (Pop (target o0)). injection A as <- _. reflexivity.
    + (* Store *) destruct o0; try (apply Same; injection A as <- _; reflexivity).
      injection A as A1 A2. set (d := registry s) in *.
      assert (E : forall k, k <> a -> lookup k (aliases d) = lookup k (aliases d')).
      { intros k Hk. rewrite <- A1. cbn [aliases]. rewrite lookup_store.
        destruct (String.eqb_spec a k); [congruence|reflexivity]. }
      destruct (on_cycle_dec d' x a H) as [D|D].
      * exists i. rewrite R, I, <- A2. cbn [watches]. split; [exact D|constructor].
      * destruct H as [y [Ey Ly]]. assert (Hc : on_cycle d x).
        { assert (Nx : x <> a) by (intros ->; apply D; constructor).
          exists y. rewrite (E x Nx). split; [exact Ey|]. apply (unmet_back d d' a y x E); [|exact Ly].
          intros F. apply D. exact (leads_on d' x y a Ey F). }
        destruct (W x Hc) as [j Hj]. assert (Nj : j <> i) by (intros ->; rewrite P in Hj; exact Hj).
        exists j. rewrite R, (O j Nj). exact (watches_unmet d d' a x _ E D Hj).
    + (* DeleteAlias *) apply (Pop (target o0)). injection A as <- _. reflexivity.
    + (* ClearAliases *) apply Less. injection A as <- _. cbn. discriminate.
Qed.

Lemma watched_run : forall es s, watched s -> watched (run_threads build s es).
Proof.
  intros es. induction es as [|e es IH]; intros s W; [exact W|]. cbn. apply IH. apply watched_step. exact W.
Qed.

(** ** A call that is not interrupted *)

Inductive solo : dispatcher -> phase -> dispatcher -> reply -> Prop :=
| solo_ends : forall d p d' r, advance build d p = (d', Ends r) -> solo d p d' r
| solo_goes : forall d p d1 p1 d' r, advance build d p = (d1, Goes p1) -> solo d1 p1 d' r -> solo d p d' r.
Definition solo_after (d : dispatcher) (x : reaction) (d' : dispatcher) (r : reply) : Prop :=
  match x with Goes p => solo d p d' r | Ends r0 => d' = d /\ r = r0 end.
Lemma solo_cons : forall d p d1 x d' r, advance build d p = (d1, x) -> solo_after d1 x d' r -> solo d p d' r.
Proof.
  intros d p d1 [p1|r0] d' r A H; cbn in H; [exact (solo_goes d p d1 p1 d' r A H)|].
  destruct H as [-> ->]. exact (solo_ends d p d1 r0 A).
Qed.

Lemma advance_call : forall d p o d1 p1, call_of p = Some o -> advance build d p = (d1, Goes p1) -> call_of p1 = Some o.
Proof.
  intros d p o d1 p1 C A. destruct p; cbn [call_of] in C; try discriminate C; injection C; intros <-; cbn [advance] in A.
  all: try match goal with x : op |- _ => destruct x end; cbn [resolved cyclic known] in A.
  all: repeat match type of A with
    | context [if ?b then _ else _] => destruct b
    | context [match ?x with _ => _ end] => destruct x
    end; try discriminate A; injection A; intros; subst; reflexivity.
Qed.
Lemma begin_call : forall o, call_of (begin o) = Some o.
Proof. intros o. destruct o; try reflexivity; cbn; destruct force; reflexivity. Qed.

Lemma solo_run : forall d p d' r, solo d p d' r -> forall s i o, registry s = d -> phases s i = p -> call_of p = Some o ->
  exists n, let s' := run_threads build s (repeat (Step i) n) in
    registry s' = d' /\ phases s' i = Idle /\ (forall j, j <> i -> phases s' j = phases s j) /\
    replies s' = replies s ++ [(i, o, r)].
Proof.
  intros d p d' r H. induction H as [d p d' r A|d p d1 p1 d' r A H IH]; intros s i o R P C.
  - exists 1%nat. cbn [repeat run_threads fold_left thread_step]. rewrite P, C, R, A. cbn.
    split; [reflexivity|]. split; [apply move_same|]. split; [intros j Hj; apply move_other; exact Hj|reflexivity].
  - destruct (IH (Machine d1 (move (phases s) i p1) (replies s)) i o eq_refl (move_same _ _ _)
      (advance_call d p o d1 p1 C A)) as [n [Q1 [Q2 [Q3 Q4]]]].
    exists (S n). cbn [repeat run_threads fold_left thread_step]. rewrite P, C, R, A.
    split; [exact Q1|]. split; [exact Q2|]. split; [|exact Q4].
    intros j Hj. refine (eq_trans (Q3 j Hj) _). apply move_other. exact Hj.
Qed.

Lemma solo_resolve : forall fuel d o seen n d' r,
  match resolve_loop fuel (aliases d) seen n with
  | Returns m => solo_after d (resolved o m) d' r -> solo d (ResolveTest o seen n) d' r
  | Raises (CyclicCalendarAlias c) => solo_after d (cyclic o c) d' r -> solo d (ResolveTest o seen n) d' r
  | _ => True
  end.
Proof.
  intros fuel. induction fuel as [|fuel IH]; intros d o seen n d' r; cbn [resolve_loop].
  - destruct (lookup n (aliases d)) as [n'|] eqn:E; [exact I|]. intros H.
    refine (solo_cons _ _ _ _ _ _ _ H). cbn [advance]. rewrite mem_lookup, E. reflexivity.
  - destruct (lookup n (aliases d)) as [n'|] eqn:E.
    + assert (T : forall d' r, solo d (ResolveRead o (seen ++ [n]) n) d' r -> solo d (ResolveTest o seen n) d' r).
      { intros e x H. refine (solo_goes _ _ _ _ _ _ _ H). cbn [advance]. rewrite mem_lookup, E. reflexivity. }
      destruct (existsb (String.eqb n') (seen ++ [n])) eqn:X.
      * intros H. apply T. refine (solo_cons _ _ _ _ _ _ _ H). cbn [advance]. rewrite E, X. reflexivity.
      * specialize (IH d o (seen ++ [n]) n' d' r).
        assert (G : solo d (ResolveTest o (seen ++ [n]) n') d' r -> solo d (ResolveTest o seen n) d' r).
        { intros H. apply T. refine (solo_goes _ _ _ _ _ _ _ H). cbn [advance]. rewrite E, X. reflexivity. }
        destruct (resolve_loop fuel (aliases d) (seen ++ [n]) n') as [m|[]]; auto.
    + intros H. refine (solo_cons _ _ _ _ _ _ _ H). cbn [advance]. rewrite mem_lookup, E. reflexivity.
Qed.

Lemma solo_has : forall d o d' r,
  (has_calendar d (target o) = true -> solo_after d (known o) d' r) ->
  (has_calendar d (target o) = false -> solo_after d (match o with Has _ => Ends (Answer false) | _ => Goes (Store o) end) d' r) ->
  solo d (HasCalendar o) d' r.
Proof.
  intros d o d' r K U. unfold has_calendar in K, U.
  destruct (mem (target o) (calendars d)) eqn:M1.
  { refine (solo_cons d _ d (known o) d' r _ (K eq_refl)). cbn [advance]. rewrite M1. reflexivity. }
  refine (solo_goes d _ d (HasFactory o) d' r _ _); [cbn [advance]; rewrite M1; reflexivity|].
  destruct (mem (target o) (factories d)) eqn:M2.
  { refine (solo_cons d _ d (known o) d' r _ (K eq_refl)). cbn [advance]. rewrite M2. reflexivity. }
  refine (solo_goes d _ d (HasAlias o) d' r _ _); [cbn [advance]; rewrite M2; reflexivity|].
  destruct (mem (target o) (aliases d)) eqn:M3.
  { refine (solo_cons d _ d (known o) d' r _ (K eq_refl)). cbn [advance]. rewrite M3. reflexivity. }
  refine (solo_cons d _ d _ d' r _ (U eq_refl)). cbn [advance]. rewrite M3. reflexivity.
Qed.
Lemma solo_pop : forall d o d' r,
  solo_after (deregister_calendar d (target o)) (match o with Deregister _ => Ends Done | _ => Goes (HasCalendar o) end) d' r ->
  solo d (PopCalendar o) d' r.
Proof.
  intros d o d' r H. eapply solo_goes; [reflexivity|]. eapply solo_goes; [reflexivity|].
  eapply solo_cons; [reflexivity|]. exact H.
Qed.
Lemma solo_registers : forall d o d' r, (exists n c f, o = Register n c f) \/ (exists n c f, o = RegisterType n c f) \/
    (exists n c f, o = RegisterAlias n c f) ->
  (has_calendar (prepared d (target o) (forced o)) (target o) = true ->
     d' = prepared d (target o) (forced o) /\ r = Error (CalendarNameCollision (target o))) ->
  (has_calendar (prepared d (target o) (forced o)) (target o) = false ->
     solo (prepared d (target o) (forced o)) (Store o) d' r) ->
  solo d (begin o) d' r.
Proof.
  intros d o d' r O K U.
  assert (H : solo (prepared d (target o) (forced o)) (HasCalendar o) d' r).
  { apply solo_has.
    - intros T. specialize (K T). destruct O as [[n [c [f ->]]]|[[n [c [f ->]]]|[n [c [f ->]]]]]; exact K.
    - intros T. specialize (U T). destruct O as [[n [c [f ->]]]|[[n [c [f ->]]]|[n [c [f ->]]]]]; exact U. }
  destruct O as [[n [c [[] ->]]]|[[n [c [[] ->]]]|[n [c [[] ->]]]]]; cbn [begin forced prepared target] in *;
    try exact H; apply solo_pop; exact H.
Qed.

Lemma solo_begin : forall d o, solo d (begin o) (step build d o) (reply_of build d o).
Proof.
  intros d o. destruct o as [n| |n|n|n c force|n f force|a r force|n|]; cbn [step].
  - (* Get *) cbn [begin]. pose proof (resolve_spec d n) as R. pose proof (solo_resolve (S (length (aliases d))) d (Get n) [] n
      (snd (get_calendar build d n)) (reply_of build d (Get n))) as L.
    cbn [reply_of] in L |- *. unfold get_calendar in L |- *. change (resolve_loop (S (length (aliases d))) (aliases d) [] n)
      with (resolve_alias d n) in L.
    destruct (resolve_alias d n) as [m|[]] eqn:E; try contradiction; apply L; clear L; cbn [resolved cyclic solo_after];
      [|split; reflexivity].
    destruct (lookup m (calendars d)) as [c|] eqn:Ec.
    { apply solo_ends. cbn [advance]. rewrite Ec. reflexivity. }
    refine (solo_goes _ _ d (GetFactory (Get n) m) _ _ _ _); [cbn [advance]; rewrite Ec; reflexivity|].
    destruct (lookup m (factories d)) as [f|] eqn:Ef.
    2:{ apply solo_ends. cbn [advance]. rewrite Ef. reflexivity. }
    refine (solo_goes _ _ d (GetBuild (Get n) m f) _ _ _ _); [cbn [advance]; rewrite Ef; reflexivity|].
    destruct (build f (calls d)) as [c|] eqn:Eb.
    2:{ apply solo_ends. cbn [advance]. rewrite Eb. reflexivity. }
    eapply solo_goes; [cbn [advance]; rewrite Eb; reflexivity|]. apply solo_ends. reflexivity.
  - (* Names *) apply solo_ends. reflexivity.
  - (* Has *) cbn [begin]. apply solo_has; cbn [target known solo_after reply_of]; intros ->; split; reflexivity.
  - (* Resolve *) cbn [begin]. pose proof (resolve_spec d n) as R. pose proof (solo_resolve (S (length (aliases d))) d (Resolve n) [] n
      d (reply_of build d (Resolve n))) as L. cbn [reply_of] in L |- *.
    change (resolve_loop (S (length (aliases d))) (aliases d) [] n) with (resolve_alias d n) in L.
    destruct (resolve_alias d n) as [m|[]] eqn:E; try contradiction; apply L; split; reflexivity.
  - (* Register *) apply solo_registers; [left; eauto|..]; cbn [target forced reply_of]; unfold register_calendar;
      change (if force then deregister_calendar d n else d) with (prepared d n force); intros ->; cbn.
    + split; reflexivity.
    + apply solo_ends. reflexivity.
  - (* RegisterType *) apply solo_registers; [right; left; eauto|..]; cbn [target forced reply_of]; unfold register_calendar_type;
      change (if force then deregister_calendar d n else d) with (prepared d n force); intros ->; cbn.
    + split; reflexivity.
    + apply solo_ends. reflexivity.
  - (* RegisterAlias *) apply solo_registers; [right; right; eauto|..]; cbn [target forced reply_of]; unfold register_calendar_alias;
      change (if force then deregister_calendar d a else d) with (prepared d a force); intros H; rewrite H; cbn [fst snd].
    + split; reflexivity.
    + set (p := prepared d a force) in *. set (d1 := Dispatcher (calendars p) (factories p) (store a r (aliases p)) (calls p)).
      apply (solo_goes p _ d1 (ResolveTest (RegisterAlias a r force) [] a)); [reflexivity|].
      pose proof (resolve_spec d1 a) as R.
      pose proof (solo_resolve (S (length (aliases d1))) d1 (RegisterAlias a r force) [] a) as L.
      change (resolve_loop (S (length (aliases d1))) (aliases d1) [] a) with (resolve_alias d1 a) in L.
      destruct (resolve_alias d1 a) as [m|[]] eqn:E; try contradiction; apply L; cbn [resolved cyclic solo_after fst snd].
      * split; reflexivity.
      * apply solo_ends. cbn [advance target]. f_equal. cbn [aliases d1]. rewrite mem_lookup, lookup_store, String.eqb_refl.
        reflexivity.
  - (* Deregister *) cbn [begin]. apply solo_pop. split; reflexivity.
  - (* Clear *) cbn [begin]. eapply solo_goes; [reflexivity|]. eapply solo_goes; [reflexivity|].
    apply solo_ends. reflexivity.
Qed.

End Build.
