(** C35-C42: the calendar dispatcher.  [build] is the (arbitrary) behaviour of
    the factories; [run build d os] is the dispatcher after the history [os] of
    public calls, successful or failing. *)
From Coq Require Import String ZArith List Bool Lia.
From Verif.Model Require Import Dispatcher.
From Verif.Spec Require Import Registry.
From Verif.Proofs Require Import DispatcherLemmas.
Import ListNotations.
Open Scope list_scope.

(** A small dispatcher for witnesses: two factories, aliases b -> a, c -> b, and
    a dangling alias z -> y. *)
Definition ex_disp : dispatcher :=
  Dispatcher [("built"%string, 7%Z)] [("a"%string, "A"%string); ("q"%string, "Q"%string)]
    [("b"%string, "a"%string); ("c"%string, "b"%string); ("z"%string, "y"%string)] [].
(** Each call of a factory makes a new instance; factory Q always fails. *)
Definition ex_build (f : factory) (past : list factory) : option instance :=
  if String.eqb f "Q"%string then None else Some (Z.of_nat (100 + List.length past)).

Lemma leads_no_edge : forall d a b, lookup a (aliases d) = None -> leads_to d a b -> b = a.
Proof. intros d a b E H. inversion H; subst; congruence. Qed.

Lemma acyclic_by_resolve : forall d,
  forallb (fun k => match resolve_alias d k with Returns _ => true | _ => false end)
          (keys (aliases d)) = true -> acyclic d.
Proof.
  intros d H a b E L. rewrite forallb_forall in H.
  assert (Hk : In a (keys (aliases d))) by (apply lookup_keys; congruence).
  specialize (H a Hk). pose proof (resolve_spec d a) as R.
  destruct (resolve_alias d a) as [m|]; [|discriminate].
  apply (canonical_not_cycle d a m R). exists a, b. split; [constructor|auto].
Qed.

Example ex_disp_acyclic : acyclic ex_disp.
Proof. apply acyclic_by_resolve. vm_compute. reflexivity. Qed.

(** ** C35 *)

(** A name and the name its alias chain leads to give the same instance, the
    same factory calls and the same state; they fail together. *)
Theorem c35_alias_transparent : forall build d a r,
  acyclic d -> leads_to d a r ->
  snd (get_calendar build d a) = snd (get_calendar build d r) /\
  match fst (get_calendar build d a), fst (get_calendar build d r) with
  | Returns x, Returns y => x = y
  | Raises (InvalidCalendarName n), Raises (InvalidCalendarName m) => n = a /\ m = r
  | Raises (FactoryError f), Raises (FactoryError g) => f = g
  | _, _ => False
  end.
Proof.
  intros build d a r Hac L.
  destruct (resolve_acyclic d r Hac) as [m [Rr Cr]].
  assert (Ca : canonical d a m) by (destruct Cr; split; [eapply leads_trans; eauto|auto]).
  unfold get_calendar. rewrite Rr, (resolve_canonical d a m Ca).
  destruct (lookup m (calendars d)); [cbn; auto|].
  destruct (lookup m (factories d)) as [f|]; [|cbn; auto].
  destruct (build f (calls d)); cbn; auto.
Qed.

(** After a successful [register_calendar_alias(a, r)] and any later history
    that does not disturb [a], the two names give the same result. *)
Theorem c35_registered_alias : forall build d a r force os,
  acyclic d ->
  fst (register_calendar_alias d a r force) = Returns tt ->
  (forall o, In o os -> ~ disturbs o a) ->
  let d' := run build (snd (register_calendar_alias d a r force)) os in
  forall x,
    (fst (get_calendar build d' a) = Returns x <-> fst (get_calendar build d' r) = Returns x) /\
    snd (get_calendar build d' a) = snd (get_calendar build d' r).
Proof.
  intros build d a r force os Hac Hok Hos d' x.
  assert (Hac0 : acyclic (snd (register_calendar_alias d a r force))).
  { exact (step_acyclic build d (RegisterAlias a r force) Hac). }
  assert (E0 : lookup a (aliases (snd (register_calendar_alias d a r force))) = Some r).
  { destruct (register_alias_outcome d a r force Hac) as [[_ E]|[[_ [_ [c E]]]|[_ [_ E]]]];
      rewrite E in Hok |- *; try discriminate.
    cbn [snd]. rewrite with_alias_lookup, String.eqb_refl. reflexivity. }
  assert (Hac' : acyclic d') by (apply run_acyclic; exact Hac0).
  assert (E' : lookup a (aliases d') = Some r).
  { subst d'. generalize dependent (snd (register_calendar_alias d a r force)).
    clear Hok. induction os as [|o os IH]; intros d0 H0 E0 _; [exact E0|].
    simpl. apply IH.
    - intros o' Ho'. apply Hos. right. exact Ho'.
    - apply step_acyclic. exact H0.
    - apply step_alias; [exact H0| |exact E0]. apply Hos. left. reflexivity.
    - apply run_acyclic. apply step_acyclic. exact H0. }
  destruct (c35_alias_transparent build d' a r Hac' (leads_step _ _ _ E')) as [S F].
  split; [|exact S].
  destruct (fst (get_calendar build d' a)) as [u|[]], (fst (get_calendar build d' r)) as [v|[]];
    try contradiction; try (split; discriminate).
  subst. tauto.
Qed.

(** ** C36 *)

Theorem c36_built_once : forall build d n x os,
  acyclic d ->
  fst (get_calendar build d n) = Returns x ->
  let d1 := snd (get_calendar build d n) in
  (forall o k, In o os -> leads_to d1 n k -> ~ disturbs o k) ->
  let d2 := run build d1 os in
  get_calendar build d2 n = (Returns x, d2).
Proof.
  intros build d n x os Hac Hok d1 Hd d2.
  destruct (get_returns_built build d n x Hok) as [m [Hcan Hm]].
  assert (Hac1 : acyclic d1) by exact (step_acyclic build d (Get n) Hac).
  destruct (run_kept build os d1 n m x Hac1 Hcan Hm Hd) as [Hcan' Hm'].
  apply (get_built build d2 n m x Hcan' Hm').
Qed.

(** A call of [get_calendar] makes at most one factory call, and only when the
    name at the end of the chain has not been built. *)
Theorem c36_factory_calls : forall build d n,
  let d' := snd (get_calendar build d n) in
  calls d' = calls d \/
  exists m f, canonical d n m /\ lookup m (calendars d) = None /\
    lookup m (factories d) = Some f /\ calls d' = calls d ++ [f] /\
    match fst (get_calendar build d n) with
    | Returns x => build f (calls d) = Some x /\ lookup m (calendars d') = Some x
    | Raises e => build f (calls d) = None /\ e = FactoryError f /\
                  calendars d' = calendars d
    end.
Proof.
  intros build d n d'. subst d'. unfold get_calendar. pose proof (resolve_spec d n) as R.
  destruct (resolve_alias d n) as [m|e]; [|left; reflexivity].
  destruct (lookup m (calendars d)) eqn:Ec; [left; reflexivity|].
  destruct (lookup m (factories d)) as [f|] eqn:Ef; [|left; reflexivity].
  right. exists m, f. destruct (build f (calls d)) as [c|]; cbn [fst snd calls calendars].
  - rewrite lookup_store, String.eqb_refl. auto 10.
  - auto 10.
Qed.

(** Looking a calendar up, successfully or not, changes no registration; the only
    calendar it can add is the one it returns. *)
Theorem c36_keeps_registrations : forall build d n,
  let d' := snd (get_calendar build d n) in
  factories d' = factories d /\ aliases d' = aliases d /\
  (forall k, ~ canonical d n k -> lookup k (calendars d') = lookup k (calendars d)) /\
  (forall k x, lookup k (calendars d) = Some x -> lookup k (calendars d') = Some x) /\
  (forall e, fst (get_calendar build d n) = Raises e -> calendars d' = calendars d).
Proof.
  intros build d n d'. subst d'. rewrite get_factories, get_aliases.
  split; [reflexivity|]. split; [reflexivity|].
  unfold get_calendar. pose proof (resolve_spec d n) as R.
  destruct (resolve_alias d n) as [m|e]; [|auto].
  destruct (lookup m (calendars d)) eqn:Ec; [auto|].
  destruct (lookup m (factories d)) as [f|] eqn:Ef; [|auto].
  destruct (build f (calls d)) as [c|]; cbn [fst snd calls calendars]; [|auto].
  repeat split.
  - intros k Hk. rewrite lookup_store. destruct (String.eqb_spec m k) as [<-|]; [|reflexivity].
    destruct (Hk R).
  - intros k x Hk. rewrite lookup_store. destruct (String.eqb_spec m k) as [<-|]; [congruence|exact Hk].
  - discriminate.
Qed.

Example c36_witness :
  let d1 := snd (get_calendar ex_build ex_disp "c"%string) in
  let os := [Get "q"; Register "b" 5 false; Deregister "z"; RegisterAlias "e" "c" false;
             RegisterType "built" "A" true; Get "e"]%string%Z in
  fst (get_calendar ex_build ex_disp "c"%string) = Returns 100%Z /\
  (forall o k, In o os -> leads_to d1 "c"%string k -> ~ disturbs o k) /\
  fst (get_calendar ex_build (run ex_build d1 os) "e"%string) = Returns 100%Z.
Proof.
  split; [reflexivity|]. split; [|reflexivity].
  intros o k Ho L.
  assert (Hk : k = "c"%string \/ k = "b"%string \/ k = "a"%string).
  { inversion L as [|x y z E1 L1]; subst; [auto|]. vm_compute in E1. injection E1 as <-.
    inversion L1 as [|x y z E2 L2]; subst; [auto|]. vm_compute in E2. injection E2 as <-.
    apply leads_no_edge in L2; [auto|reflexivity]. }
  simpl in Ho.
  destruct Hk as [-> | [-> | ->]];
    repeat (destruct Ho as [<-|Ho]; [simpl; intuition congruence|]); contradiction.
Qed.

(** ** C37 *)

Theorem c37_stays_acyclic : forall build d os, acyclic d -> acyclic (run build d os).
Proof. intros. apply run_acyclic. assumption. Qed.

(** Hence, after any history, resolving ends, at a name that is no alias, and
    never reports a cycle; neither does [get_calendar]. *)
Theorem c37_resolve_total : forall build d os n, acyclic d ->
  let d' := run build d os in
  (exists m, resolve_alias d' n = Returns m /\ canonical d' n m) /\
  (forall c, fst (get_calendar build d' n) <> Raises (CyclicCalendarAlias c)) /\
  fst (get_calendar build d' n) <> Raises Diverges.
Proof.
  intros build d os n Hac d'.
  destruct (resolve_acyclic d' n (run_acyclic build os d Hac)) as [m [R C]].
  split; [eauto|]. unfold get_calendar. rewrite R.
  destruct (lookup m (calendars d')); [split; intros; discriminate|].
  destruct (lookup m (factories d')) as [f|]; [|split; intros; discriminate].
  destruct (build f (calls d')); split; intros; discriminate.
Qed.

(** Even on a dispatcher constructed with cyclic aliases [resolve_alias]
    terminates: it returns the end of the chain if there is one, and otherwise
    raises CyclicCalendarAlias. *)
Theorem c37_resolve_exact : forall d n,
  match resolve_alias d n with
  | Returns m => canonical d n m
  | Raises e => (exists c, e = CyclicCalendarAlias c) /\ forall m, ~ canonical d n m
  end.
Proof.
  intros d n. pose proof (resolve_spec d n) as R.
  destruct (resolve_alias d n) as [m|[]]; try contradiction; [exact R|].
  split; [eauto|]. intros m C. exact (canonical_not_cycle d n m C R).
Qed.

(** ** C38 *)

Theorem c38_cyclic_rejected : forall d a r, acyclic d ->
  ((exists c, fst (register_calendar_alias d a r false) = Raises (CyclicCalendarAlias c)) <->
   (unregistered d a /\ leads_to d r a)) /\
  (forall c, fst (register_calendar_alias d a r false) = Raises (CyclicCalendarAlias c) ->
   snd (register_calendar_alias d a r false) = d).
Proof.
  intros d a r Hac.
  destruct (register_alias_outcome d a r false Hac) as [[H E]|[[U [L [c E]]]|[U [L E]]]];
    simpl prepared in *; rewrite E; cbn [fst snd].
  - split; [|discriminate]. split; [intros [c F]; discriminate|].
    intros [U _]. apply has_calendar_false in U. congruence.
  - split; [|reflexivity]. split; [tauto|]. intros _. eauto.
  - split; [|discriminate]. split; [intros [c F]; discriminate|]. tauto.
Qed.

(** With [force=True] the rejected call has already removed the old
    registration of [a]: the state is that after [deregister_calendar(a)]. *)
Theorem c38_cyclic_forced : forall d a r c, acyclic d ->
  fst (register_calendar_alias d a r true) = Raises (CyclicCalendarAlias c) ->
  snd (register_calendar_alias d a r true) = deregister_calendar d a.
Proof.
  intros d a r c Hac H.
  destruct (register_alias_outcome d a r true Hac) as [[_ E]|[[_ [_ [c' E]]]|[_ [_ E]]]];
    rewrite E in *; try discriminate; reflexivity.
Qed.

Theorem c38_unchanged_refuted : exists d a r c,
  acyclic d /\
  fst (register_calendar_alias d a r true) = Raises (CyclicCalendarAlias c) /\
  registration d a = (None, Some "A"%string, None) /\
  unregistered (snd (register_calendar_alias d a r true)) a.
Proof.
  exists ex_disp, "a"%string, "c"%string. eexists.
  split; [exact ex_disp_acyclic|]. repeat split; vm_compute; reflexivity.
Qed.

(** ** C39 *)

Theorem c39_register_calendar : forall d n c,
  (~ unregistered d n ->
   register_calendar d n c false = (Raises (CalendarNameCollision n), d)) /\
  (forall force, force = true \/ unregistered d n ->
   let d' := snd (register_calendar d n c force) in
   fst (register_calendar d n c force) = Returns tt /\
   registration d' n = (Some c, None, None) /\
   (forall m, m <> n -> registration d' m = registration d m) /\ calls d' = calls d).
Proof.
  intros d n c. split.
  - intros H. destruct (register_calendar_outcome d n c false) as [[_ E]|[U _]]; [exact E|].
    contradiction.
  - intros force Hf d'. subst d'.
    destruct (register_calendar_outcome d n c force) as [[H _]|[U E]].
    + exfalso. destruct Hf as [->|Hf].
      * pose proof (deregister_unregistered d n) as U. apply has_calendar_false in U.
        simpl prepared in H. congruence.
      * apply has_calendar_false in Hf. destruct force; simpl prepared in H; [|congruence].
        pose proof (deregister_unregistered d n) as U. apply has_calendar_false in U. congruence.
    + rewrite E. cbn [fst snd]. split; [reflexivity|].
      unfold unregistered, registration in U. injection U as U1 U2 U3.
      split; [|split].
      * unfold registration. cbn [calendars factories aliases].
        rewrite lookup_store, String.eqb_refl, U2, U3. reflexivity.
      * intros m Hm. rewrite <- (prepared_undisturbed d n m force) by (intros [_ F]; congruence).
        unfold registration. cbn [calendars factories aliases].
        rewrite lookup_store. destruct (String.eqb_spec n m); [congruence|reflexivity].
      * destruct force; reflexivity.
Qed.

Theorem c39_register_calendar_type : forall d n f,
  (~ unregistered d n ->
   register_calendar_type d n f false = (Raises (CalendarNameCollision n), d)) /\
  (forall force, force = true \/ unregistered d n ->
   let d' := snd (register_calendar_type d n f force) in
   fst (register_calendar_type d n f force) = Returns tt /\
   registration d' n = (None, Some f, None) /\
   (forall m, m <> n -> registration d' m = registration d m) /\ calls d' = calls d).
Proof.
  intros d n c. split.
  - intros H. destruct (register_type_outcome d n c false) as [[_ E]|[U _]]; [exact E|].
    contradiction.
  - intros force Hf d'. subst d'.
    destruct (register_type_outcome d n c force) as [[H _]|[U E]].
    + exfalso. destruct Hf as [->|Hf].
      * pose proof (deregister_unregistered d n) as U. apply has_calendar_false in U.
        simpl prepared in H. congruence.
      * apply has_calendar_false in Hf. destruct force; simpl prepared in H; [|congruence].
        pose proof (deregister_unregistered d n) as U. apply has_calendar_false in U. congruence.
    + rewrite E. cbn [fst snd]. split; [reflexivity|].
      unfold unregistered, registration in U. injection U as U1 U2 U3.
      split; [|split].
      * unfold registration. cbn [calendars factories aliases].
        rewrite lookup_store, String.eqb_refl, U1, U3. reflexivity.
      * intros m Hm. rewrite <- (prepared_undisturbed d n m force) by (intros [_ F]; congruence).
        unfold registration. cbn [calendars factories aliases].
        rewrite lookup_store. destruct (String.eqb_spec n m); [congruence|reflexivity].
      * destruct force; reflexivity.
Qed.

(** An alias is accepted, unless it would close a cycle. *)
Theorem c39_register_calendar_alias : forall d a r, acyclic d ->
  (~ unregistered d a ->
   register_calendar_alias d a r false = (Raises (CalendarNameCollision a), d)) /\
  (forall force, force = true \/ unregistered d a ->
   let d0 := if force then deregister_calendar d a else d in
   let d' := snd (register_calendar_alias d a r force) in
   (forall m, m <> a -> registration d' m = registration d m) /\ calls d' = calls d /\
   (~ leads_to d0 r a ->
    fst (register_calendar_alias d a r force) = Returns tt /\
    registration d' a = (None, None, Some r)) /\
   (leads_to d0 r a ->
    exists c, fst (register_calendar_alias d a r force) = Raises (CyclicCalendarAlias c))).
Proof.
  intros d a r Hac. split.
  - intros H. destruct (register_alias_outcome d a r false Hac) as [[_ E]|[[U _]|[U _]]];
      [exact E|contradiction|contradiction].
  - intros force Hf d0 d'. subst d0 d'. fold (prepared d a force).
    assert (U : unregistered (prepared d a force) a).
    { destruct force; [apply deregister_unregistered|]. destruct Hf; [discriminate|assumption]. }
    assert (P : forall m, m <> a -> registration (prepared d a force) m = registration d m).
    { intros m Hm. apply prepared_undisturbed. intros [_ F]; congruence. }
    assert (Hcalls : calls (prepared d a force) = calls d) by (destruct force; reflexivity).
    destruct (register_alias_outcome d a r force Hac) as [[H _]|[[_ [L [c E]]]|[_ [L E]]]].
    + apply has_calendar_false in U. congruence.
    + rewrite E. cbn [fst snd]. split; [exact P|]. split; [exact Hcalls|].
      split; [contradiction|]. intros _. eauto.
    + rewrite E. cbn [fst snd]. split; [|split; [exact Hcalls|split; [|contradiction]]].
      * intros m Hm. rewrite <- P by exact Hm. unfold registration.
        rewrite with_alias_lookup. cbn [calendars factories with_alias].
        destruct (String.eqb_spec a m); [congruence|reflexivity].
      * intros _. split; [reflexivity|]. unfold unregistered, registration in U.
        injection U as U1 U2 U3. unfold registration.
        rewrite with_alias_lookup, String.eqb_refl. cbn [calendars factories with_alias].
        rewrite U1, U2. reflexivity.
Qed.

Example c39_witness :
  unregistered ex_disp "new"%string /\ ~ unregistered ex_disp "z"%string /\
  fst (register_calendar_alias ex_disp "a"%string "c"%string false)
    = Raises (CalendarNameCollision "a"%string) /\
  fst (register_calendar_alias ex_disp "y"%string "z"%string false)
    = Raises (CyclicCalendarAlias ["y"; "z"; "y"]%string) /\
  fst (register_calendar_alias ex_disp "new"%string "c"%string false) = Returns tt.
Proof. repeat split; vm_compute; try reflexivity. discriminate. Qed.

(** ** C40 *)

Theorem c40_deregister : forall build d n,
  let d' := deregister_calendar d n in
  unregistered d' n /\
  get_calendar build d' n = (Raises (InvalidCalendarName n), d') /\
  (forall m, m <> n -> registration d' m = registration d m).
Proof.
  intros build d n d'. split; [apply deregister_unregistered|]. split.
  - assert (U : unregistered d' n) by apply deregister_unregistered. clearbody d'.
    unfold unregistered, registration in U. injection U as U1 U2 U3.
    unfold get_calendar. rewrite (resolve_canonical d' n n) by (split; [constructor|exact U3]).
    rewrite U1, U2. reflexivity.
  - intros m Hm. subst d'. rewrite deregister_registration.
    destruct (String.eqb_spec n m); [congruence|reflexivity].
Qed.

Theorem c40_clear : forall build d n,
  let d' := clear_calendars d in
  unregistered d' n /\ get_calendar build d' n = (Raises (InvalidCalendarName n), d').
Proof. intros. split; reflexivity. Qed.

(** ** C41 *)

Theorem c41_names : forall d,
  NoDup (get_calendar_names d) /\
  (forall n, In n (get_calendar_names d) <-> has_calendar d n = true) /\
  (forall n, has_calendar d n = true <-> ~ unregistered d n).
Proof.
  intros d. split; [apply NoDup_nodup|].
  assert (H : forall n, has_calendar d n = true <-> ~ unregistered d n).
  { intros n. rewrite <- has_calendar_false. destruct (has_calendar d n); split; congruence. }
  split; [|exact H].
  intros n. rewrite H. unfold get_calendar_names. rewrite nodup_In, !in_app_iff, !lookup_keys.
  unfold unregistered, registration.
  destruct (lookup n (calendars d)), (lookup n (factories d)), (lookup n (aliases d));
    split; intros; try tauto; try discriminate;
    try (left; discriminate); try (right; left; discriminate); try (right; right; discriminate).
Qed.

(** [get_calendar(n)] fails with InvalidCalendarName exactly when the end of the
    alias chain is neither built nor has a factory; the error names [n]. *)
Theorem c41_invalid_name : forall build d n k, acyclic d ->
  (fst (get_calendar build d n) = Raises (InvalidCalendarName k) <->
   k = n /\ exists m, canonical d n m /\
     lookup m (calendars d) = None /\ lookup m (factories d) = None).
Proof.
  intros build d n k Hac. destruct (resolve_acyclic d n Hac) as [m [R C]].
  unfold get_calendar. rewrite R. split.
  - destruct (lookup m (calendars d)) eqn:Ec; [discriminate|].
    destruct (lookup m (factories d)) as [f|] eqn:Ef;
      [destruct (build f (calls d)); discriminate|].
    intros H. injection H as <-. eauto 10.
  - intros [-> [m' [C' [E1 E2]]]]. rewrite (canonical_unique d n m m' C C').
    rewrite E1, E2. reflexivity.
Qed.

(** An unknown name is rejected and nothing is built. *)
Theorem c41_unknown : forall build d n, has_calendar d n = false ->
  get_calendar build d n = (Raises (InvalidCalendarName n), d).
Proof.
  intros build d n H. apply has_calendar_false in H.
  unfold unregistered, registration in H. injection H as U1 U2 U3.
  unfold get_calendar. rewrite (resolve_canonical d n n) by (split; [constructor|exact U3]).
  rewrite U1, U2. reflexivity.
Qed.

Theorem c41_obtainable_refuted : exists build d n,
  acyclic d /\ has_calendar d n = true /\
  fst (get_calendar build d n) = Raises (InvalidCalendarName n).
Proof.
  exists ex_build, ex_disp, "z"%string. split; [exact ex_disp_acyclic|].
  split; vm_compute; reflexivity.
Qed.

(** ** C42 *)

Theorem c42_default_acyclic : acyclic global_calendar_dispatcher.
Proof. apply acyclic_by_resolve. vm_compute. reflexivity. Qed.

(** The default names are distinct, no alias is also a calendar, and every alias
    points directly to a calendar. *)
Theorem c42_default_tables :
  NoDup (keys default_calendar_factories ++ keys default_calendar_aliases) /\
  forall a r, In (a, r) default_calendar_aliases -> In r (keys default_calendar_factories).
Proof.
  split.
  - rewrite <- (nodup_fixed_point string_dec).
    + apply NoDup_nodup.
    + assert (H : nodup string_dec (keys default_calendar_factories ++ keys default_calendar_aliases)
        = keys default_calendar_factories ++ keys default_calendar_aliases)
        by (vm_compute; reflexivity).
      rewrite <- H. apply NoDup_nodup.
  - intros a r H.
    assert (F : forallb (fun p => existsb (String.eqb (snd p)) (keys default_calendar_factories))
                  default_calendar_aliases = true) by (vm_compute; reflexivity).
    rewrite forallb_forall in F. specialize (F (a, r) H). apply existsb_exists in F.
    destruct F as [x [Hx E]]. apply String.eqb_eq in E. cbn [snd] in E. rewrite E. exact Hx.
Qed.

(** After any sequence of [get_calendar] calls on the default dispatcher, every
    default name and alias gives an instance, unless the factory itself fails. *)
Theorem c42_default_obtainable : forall build ns n,
  In n (keys default_calendar_factories ++ keys default_calendar_aliases) ->
  let d := run build global_calendar_dispatcher (map Get ns) in
  (exists x, fst (get_calendar build d n) = Returns x) \/
  (exists f past, fst (get_calendar build d n) = Raises (FactoryError f) /\ build f past = None).
Proof.
  intros build ns n Hn d.
  assert (Hd : aliases d = default_calendar_aliases /\ factories d = default_calendar_factories).
  { subst d. assert (G : forall d0, aliases (run build d0 (map Get ns)) = aliases d0 /\
      factories (run build d0 (map Get ns)) = factories d0).
    { induction ns as [|k ns IH]; intros d0; [auto|]. simpl.
      destruct (IH (snd (get_calendar build d0 k))) as [-> ->].
      rewrite get_aliases, get_factories. auto. }
    apply G. }
  destruct Hd as [Ha Hf].
  assert (Hres : exists m f, resolve_alias d n = Returns m /\ lookup m (factories d) = Some f).
  { assert (F : forallb (fun n => match resolve_alias global_calendar_dispatcher n with
                | Returns m => match lookup m default_calendar_factories with
                               | Some _ => true | None => false end
                | _ => false end)
              (keys default_calendar_factories ++ keys default_calendar_aliases) = true)
      by (vm_compute; reflexivity).
    rewrite forallb_forall in F. specialize (F n Hn).
    assert (E : resolve_alias d n = resolve_alias global_calendar_dispatcher n).
    { unfold resolve_alias. rewrite Ha. reflexivity. }
    rewrite E, Hf. destruct (resolve_alias global_calendar_dispatcher n) as [m|]; [|discriminate].
    exists m. destruct (lookup m default_calendar_factories) as [f|] eqn:Ef; [|discriminate].
    exists f. rewrite <- Ef. auto. }
  destruct Hres as [m [f [R Ef]]]. unfold get_calendar. rewrite R, Ef.
  destruct (lookup m (calendars d)) as [x|]; [left; eexists; reflexivity|].
  destruct (build f (calls d)) as [x|] eqn:Eb; cbn [fst]; [left; eauto|right; eauto].
Qed.

(** ** Assumptions *)
Print Assumptions c35_alias_transparent.
Print Assumptions c35_registered_alias.
Print Assumptions c36_built_once.
Print Assumptions c36_factory_calls.
Print Assumptions c36_keeps_registrations.
Print Assumptions c37_stays_acyclic.
Print Assumptions c37_resolve_total.
Print Assumptions c37_resolve_exact.
Print Assumptions c38_cyclic_rejected.
Print Assumptions c38_cyclic_forced.
Print Assumptions c38_unchanged_refuted.
Print Assumptions c39_register_calendar.
Print Assumptions c39_register_calendar_type.
Print Assumptions c39_register_calendar_alias.
Print Assumptions c40_deregister.
Print Assumptions c40_clear.
Print Assumptions c41_names.
Print Assumptions c41_invalid_name.
Print Assumptions c41_unknown.
Print Assumptions c41_obtainable_refuted.
Print Assumptions c42_default_acyclic.
Print Assumptions c42_default_tables.
Print Assumptions c42_default_obtainable.
