(** Lemmas about the dispatcher model. *)
From Coq Require Import String ZArith List Bool Lia.
From Verif.Model Require Import Dispatcher.
From Verif.Spec Require Import Registry.
Import ListNotations.
Open Scope list_scope.

(** ** Dicts *)

Lemma mem_lookup : forall {V} k (d : dict V),
  mem k d = match lookup k d with Some _ => true | None => false end.
Proof.
  intros V k d. induction d as [|[k' v] d IH]; simpl; [reflexivity|].
  destruct (String.eqb k' k); simpl; [reflexivity|]. exact IH.
Qed.

Lemma lookup_keys : forall {V} k (d : dict V), In k (keys d) <-> lookup k d <> None.
Proof.
  intros V k d. induction d as [|[k' v] d IH]; simpl; [tauto|].
  destruct (String.eqb_spec k' k) as [->|Hne].
  - split; [discriminate|auto].
  - rewrite <- IH. tauto.
Qed.

Lemma lookup_In : forall {V} k (v : V) d, lookup k d = Some v -> In (k, v) d.
Proof.
  intros V k v d. induction d as [|[k' v'] d IH]; simpl; [discriminate|].
  destruct (String.eqb_spec k' k) as [->|Hne]; intros H; [left; congruence|right; auto].
Qed.

Lemma lookup_store : forall {V} k k' (v : V) d,
  lookup k' (store k v d) = if String.eqb k k' then Some v else lookup k' d.
Proof.
  intros V k k' v d. induction d as [|[k0 v0] d IH]; simpl; [reflexivity|].
  destruct (String.eqb_spec k0 k) as [->|Hne]; simpl.
  - destruct (String.eqb_spec k k'); reflexivity.
  - destruct (String.eqb_spec k0 k') as [->|]; [|exact IH].
    destruct (String.eqb_spec k k'); [congruence|reflexivity].
Qed.

Lemma lookup_pop : forall {V} k k' (d : dict V),
  lookup k' (pop k d) = if String.eqb k k' then None else lookup k' d.
Proof.
  intros V k k' d. induction d as [|[k0 v0] d IH]; simpl.
  - destruct (String.eqb k k'); reflexivity.
  - destruct (String.eqb_spec k0 k) as [->|Hne]; simpl.
    + rewrite IH. destruct (String.eqb_spec k k'); reflexivity.
    + destruct (String.eqb_spec k0 k') as [->|]; [|exact IH].
      destruct (String.eqb_spec k k'); [congruence|reflexivity].
Qed.

Lemma pop_absent : forall {V} k (d : dict V), lookup k d = None -> pop k d = d.
Proof.
  intros V k d. induction d as [|[k0 v0] d IH]; simpl; [reflexivity|].
  destruct (String.eqb_spec k0 k) as [->|Hne]; simpl; [discriminate|].
  intros H. f_equal. apply IH. exact H.
Qed.

Lemma pop_store_absent : forall {V} k (v : V) d, lookup k d = None -> pop k (store k v d) = d.
Proof.
  intros V k v d. induction d as [|[k0 v0] d IH]; simpl.
  - rewrite String.eqb_refl. reflexivity.
  - destruct (String.eqb_spec k0 k) as [->|Hne]; simpl; [discriminate|].
    intros H. destruct (String.eqb_spec k0 k); [congruence|]. simpl. f_equal. apply IH. exact H.
Qed.

Lemma has_calendar_false : forall d n, has_calendar d n = false <-> unregistered d n.
Proof.
  intros d n. unfold has_calendar, unregistered, registration. rewrite !mem_lookup.
  destruct (lookup n (calendars d)), (lookup n (factories d)), (lookup n (aliases d));
    simpl; split; intros H; try reflexivity; discriminate.
Qed.

(** ** Alias chains *)

(** Chains depend on the alias dict only. *)
Lemma leads_same : forall d d' a b, aliases d = aliases d' -> leads_to d a b -> leads_to d' a b.
Proof.
  intros d d' a b E H. induction H; [constructor|].
  eapply leads_on; [rewrite <- E; eassumption|assumption].
Qed.

Lemma leads_trans : forall d a b c, leads_to d a b -> leads_to d b c -> leads_to d a c.
Proof.
  intros d a b c H. induction H; intros H'; [exact H'|].
  eapply leads_on; eauto.
Qed.

Lemma leads_step : forall d a b, lookup a (aliases d) = Some b -> leads_to d a b.
Proof. intros. eapply leads_on; [eassumption|constructor]. Qed.

(** Aliases are deterministic, so two chains from one name are comparable. *)
Lemma leads_comparable : forall d a b c, leads_to d a b -> leads_to d a c ->
  leads_to d b c \/ leads_to d c b.
Proof.
  intros d a b c H. revert c. induction H as [a|a b' b E H IH]; intros c Hc; [auto|].
  inversion Hc as [x Ex|x y z E' H']; subst.
  - right. eapply leads_on; eauto.
  - rewrite E in E'. injection E' as ->. auto.
Qed.

Lemma canonical_unique : forall d a b c, canonical d a b -> canonical d a c -> b = c.
Proof.
  intros d a b c [H1 E1] [H2 E2].
  destruct (leads_comparable d a b c H1 H2) as [H|H];
    inversion H; subst; congruence.
Qed.

(** A name that leads into a cycle. *)
Definition into_cycle (d : dispatcher) (n : name) : Prop :=
  exists k k', leads_to d n k /\ lookup k (aliases d) = Some k' /\ leads_to d k' k.

Lemma cycle_closed : forall d k m, leads_to d k m ->
  (exists k', lookup k (aliases d) = Some k' /\ leads_to d k' k) ->
  exists m', lookup m (aliases d) = Some m' /\ leads_to d m' m.
Proof.
  intros d k m H. induction H as [a|a b c E H IH]; [auto|].
  intros [k' [E' H']]. rewrite E in E'. injection E' as <-. apply IH.
  inversion H' as [x Ex|x y z E1 H1]; subst.
  - exists a. split; [exact E|constructor].
  - exists y. split; [exact E1|]. eapply leads_trans; [exact H1|apply leads_step; exact E].
Qed.

Lemma canonical_not_cycle : forall d n m, canonical d n m -> ~ into_cycle d n.
Proof.
  intros d n m [H E] [k [k' [Hk [Ek Hc]]]].
  destruct (leads_comparable d n m k H Hk) as [L|L].
  - inversion L; subst; congruence.
  - destruct (cycle_closed d k m L) as [m' [Em _]]; [exists k'; auto|]. congruence.
Qed.

Lemma acyclic_not_into : forall d n, acyclic d -> ~ into_cycle d n.
Proof. intros d n H [k [k' [_ [E L]]]]. exact (H k k' E L). Qed.

(** ** resolve_alias *)

Lemma resolve_loop_spec : forall d fuel seen n,
  NoDup seen -> ~ In n seen ->
  (forall s, In s seen -> In s (keys (aliases d))) ->
  (forall s, In s seen -> leads_to d s n) ->
  (fuel + List.length seen = S (List.length (aliases d)))%nat ->
  match resolve_loop fuel (aliases d) seen n with
  | Returns m => canonical d n m
  | Raises (CyclicCalendarAlias _) => into_cycle d n
  | Raises _ => False
  end.
Proof.
  intros d fuel. induction fuel as [|fuel IH]; intros seen n Hnd Hni Hk Hl Hf; simpl;
    destruct (lookup n (aliases d)) as [n'|] eqn:E.
  - assert (Hlen : (List.length (n :: seen) <= List.length (keys (aliases d)))%nat).
    { apply NoDup_incl_length; [constructor; assumption|].
      intros s [<-|Hs]; [|auto]. apply lookup_keys. congruence. }
    unfold keys in Hlen. rewrite map_length in Hlen. simpl in Hlen. lia.
  - split; [constructor|exact E].
  - destruct (existsb (String.eqb n') (seen ++ [n])) eqn:Ex.
    + apply existsb_exists in Ex. destruct Ex as [s [Hs Es]].
      apply String.eqb_eq in Es. subst s.
      apply in_app_iff in Hs. exists n, n'. split; [constructor|]. split; [exact E|].
      destruct Hs as [Hs|[<-|[]]]; [apply Hl; exact Hs|constructor].
    + assert (Hni' : ~ In n' (seen ++ [n])).
      { intros F. assert (Ht : existsb (String.eqb n') (seen ++ [n]) = true).
        { apply existsb_exists. exists n'. split; [exact F|apply String.eqb_refl]. }
        congruence. }
      assert (IH' := IH (seen ++ [n]) n').
      assert (Hs : match resolve_loop fuel (aliases d) (seen ++ [n]) n' with
        | Returns m => canonical d n' m
        | Raises (CyclicCalendarAlias _) => into_cycle d n'
        | Raises _ => False
        end).
      { apply IH'.
        - apply NoDup_Add with (a := n) (l := seen).
          + replace (seen ++ [n]) with (seen ++ n :: []) by reflexivity.
            rewrite <- (app_nil_r seen) at 1. apply Add_app.
          + split; assumption.
        - exact Hni'.
        - intros s Hs. apply in_app_iff in Hs. destruct Hs as [Hs|[<-|[]]]; [auto|].
          apply lookup_keys. congruence.
        - intros s Hs. apply in_app_iff in Hs. destruct Hs as [Hs|[<-|[]]].
          + eapply leads_trans; [apply Hl; exact Hs|apply leads_step; exact E].
          + apply leads_step; exact E.
        - rewrite app_length. simpl. lia. }
      destruct (resolve_loop fuel (aliases d) (seen ++ [n]) n') as [m|[]]; try contradiction.
      * destruct Hs as [H1 H2]. split; [|exact H2]. eapply leads_on; eauto.
      * destruct Hs as [k [k' [H1 [H2 H3]]]]. exists k, k'. split; [|auto].
        eapply leads_on; eauto.
  - split; [constructor|exact E].
Qed.

Lemma resolve_spec : forall d n,
  match resolve_alias d n with
  | Returns m => canonical d n m
  | Raises (CyclicCalendarAlias _) => into_cycle d n
  | Raises _ => False
  end.
Proof.
  intros d n. unfold resolve_alias. apply resolve_loop_spec.
  - constructor.
  - intros [].
  - intros s [].
  - intros s [].
  - simpl. lia.
Qed.

Lemma resolve_canonical : forall d n m, canonical d n m -> resolve_alias d n = Returns m.
Proof.
  intros d n m H. pose proof (resolve_spec d n) as R.
  destruct (resolve_alias d n) as [m'|[]]; try contradiction.
  - f_equal. eapply canonical_unique; eauto.
  - exfalso. eapply canonical_not_cycle; eauto.
Qed.

Lemma resolve_acyclic : forall d n, acyclic d ->
  exists m, resolve_alias d n = Returns m /\ canonical d n m.
Proof.
  intros d n H. pose proof (resolve_spec d n) as R.
  destruct (resolve_alias d n) as [m'|[]]; try contradiction.
  - eauto.
  - exfalso. eapply acyclic_not_into; eauto.
Qed.

(** ** Adding and removing aliases *)

Lemma acyclic_subset : forall d d',
  (forall a b, lookup a (aliases d') = Some b -> lookup a (aliases d) = Some b) ->
  acyclic d -> acyclic d'.
Proof.
  intros d d' Hsub H a b E L. apply (H a b); [auto|].
  clear E. induction L; [constructor|]. eapply leads_on; eauto.
Qed.

Definition with_alias (d : dispatcher) (a r : name) : dispatcher :=
  Dispatcher (calendars d) (factories d) (store a r (aliases d)) (calls d).

Lemma with_alias_lookup : forall d a r x,
  lookup x (aliases (with_alias d a r)) = if String.eqb a x then Some r else lookup x (aliases d).
Proof. intros. simpl. apply lookup_store. Qed.

Lemma leads_with_alias : forall d a r x y, lookup a (aliases d) = None ->
  leads_to d x y -> leads_to (with_alias d a r) x y.
Proof.
  intros d a r x y E H. induction H as [|x z y Ex H IH]; [constructor|].
  eapply leads_on; [|exact IH]. rewrite with_alias_lookup.
  destruct (String.eqb_spec a x); [congruence|exact Ex].
Qed.

Lemma leads_with_alias_inv : forall d a r x y,
  leads_to (with_alias d a r) x y ->
  leads_to d x y \/ (leads_to d x a /\ leads_to (with_alias d a r) a y).
Proof.
  intros d a r x y H. induction H as [|x z y Ex H IH]; [left; constructor|].
  pose proof Ex as Ex'. rewrite with_alias_lookup in Ex'.
  destruct (String.eqb_spec a x) as [->|Hne].
  - right. split; [constructor|]. eapply leads_on; eauto.
  - destruct IH as [IH|[IH1 IH2]].
    + left. eapply leads_on; eauto.
    + right. split; [eapply leads_on; eauto|exact IH2].
Qed.

(** A cycle in the extended aliases goes through the new alias. *)
Lemma with_alias_cycle : forall d a r, acyclic d -> lookup a (aliases d) = None ->
  (exists k k', lookup k (aliases (with_alias d a r)) = Some k' /\
                leads_to (with_alias d a r) k' k) ->
  leads_to d r a.
Proof.
  intros d a r Hac Ea [k [k' [E L]]].
  assert (Hra : leads_to (with_alias d a r) r a).
  { rewrite with_alias_lookup in E. destruct (String.eqb_spec a k) as [->|Hne].
    - injection E as ->. exact L.
    - destruct (leads_with_alias_inv _ _ _ _ _ L) as [F|[F1 F2]].
      + exfalso. exact (Hac k k' E F).
      + assert (G : leads_to (with_alias d a r) k a).
        { eapply leads_on; [rewrite with_alias_lookup|apply leads_with_alias; eauto].
          destruct (String.eqb_spec a k); [congruence|exact E]. }
        inversion F2 as [x Ex|x y z E1 H1]; subst; [congruence|].
        rewrite with_alias_lookup, String.eqb_refl in E1. injection E1 as <-.
        eapply leads_trans; eauto. }
  destruct (leads_with_alias_inv _ _ _ _ _ Hra) as [F|[F _]]; exact F.
Qed.

Lemma acyclic_with_alias : forall d a r, acyclic d -> lookup a (aliases d) = None ->
  ~ leads_to d r a -> acyclic (with_alias d a r).
Proof.
  intros d a r Hac Ea Hn k k' E L. apply Hn.
  apply (with_alias_cycle d a r Hac Ea). eauto.
Qed.

Lemma resolve_with_alias : forall d a r, acyclic d -> lookup a (aliases d) = None ->
  (leads_to d r a /\ exists c, resolve_alias (with_alias d a r) a = Raises (CyclicCalendarAlias c))
  \/ (~ leads_to d r a /\ exists m, resolve_alias (with_alias d a r) a = Returns m).
Proof.
  intros d a r Hac Ea. pose proof (resolve_spec (with_alias d a r) a) as R.
  destruct (resolve_alias (with_alias d a r) a) as [m|[]]; try contradiction.
  - right. split; [|eauto]. intros L. apply (canonical_not_cycle _ _ _ R).
    exists a, r. split; [constructor|]. split.
    + rewrite with_alias_lookup, String.eqb_refl. reflexivity.
    + apply leads_with_alias; assumption.
  - left. split; [|eauto]. destruct R as [k [k' [_ [E L]]]].
    apply (with_alias_cycle d a r Hac Ea). eauto.
Qed.

(** ** Outcomes of the calls *)

Definition prepared (d : dispatcher) (n : name) (force : bool) : dispatcher :=
  if force then deregister_calendar d n else d.

Lemma deregister_registration : forall d n m,
  registration (deregister_calendar d n) m =
  if String.eqb n m then (None, None, None) else registration d m.
Proof.
  intros d n m. unfold registration. simpl. rewrite !lookup_pop.
  destruct (String.eqb n m); reflexivity.
Qed.

Lemma deregister_unregistered : forall d n, unregistered (deregister_calendar d n) n.
Proof.
  intros d n. unfold unregistered. rewrite deregister_registration, String.eqb_refl. reflexivity.
Qed.

Lemma acyclic_deregister : forall d n, acyclic d -> acyclic (deregister_calendar d n).
Proof.
  intros d n. apply acyclic_subset. simpl. intros a b. rewrite lookup_pop.
  destruct (String.eqb n a); [discriminate|auto].
Qed.

Lemma acyclic_prepared : forall d n force, acyclic d -> acyclic (prepared d n force).
Proof. intros d n [] H; simpl; [apply acyclic_deregister|]; exact H. Qed.

Lemma acyclic_aliases : forall d d', aliases d' = aliases d -> acyclic d -> acyclic d'.
Proof. intros d d' E. apply acyclic_subset. rewrite E. auto. Qed.

Lemma unregistered_alias : forall d n, unregistered d n -> lookup n (aliases d) = None.
Proof. intros d n H. unfold unregistered, registration in H. congruence. Qed.

Lemma register_calendar_outcome : forall d n c force,
  (has_calendar (prepared d n force) n = true /\
   register_calendar d n c force = (Raises (CalendarNameCollision n), prepared d n force)) \/
  (unregistered (prepared d n force) n /\
   register_calendar d n c force =
   (Returns tt, Dispatcher (store n c (calendars (prepared d n force)))
     (factories (prepared d n force)) (aliases (prepared d n force)) (calls (prepared d n force)))).
Proof.
  intros d n c force. unfold register_calendar. fold (prepared d n force).
  destruct (has_calendar (prepared d n force) n) eqn:E; [left; auto|right].
  split; [apply has_calendar_false; exact E|reflexivity].
Qed.

Lemma register_type_outcome : forall d n f force,
  (has_calendar (prepared d n force) n = true /\
   register_calendar_type d n f force = (Raises (CalendarNameCollision n), prepared d n force)) \/
  (unregistered (prepared d n force) n /\
   register_calendar_type d n f force =
   (Returns tt, Dispatcher (calendars (prepared d n force))
     (store n f (factories (prepared d n force))) (aliases (prepared d n force))
     (calls (prepared d n force)))).
Proof.
  intros d n c force. unfold register_calendar_type. fold (prepared d n force).
  destruct (has_calendar (prepared d n force) n) eqn:E; [left; auto|right].
  split; [apply has_calendar_false; exact E|reflexivity].
Qed.

Lemma eta : forall d, Dispatcher (calendars d) (factories d) (aliases d) (calls d) = d.
Proof. intros []; reflexivity. Qed.

Lemma register_alias_outcome : forall d a r force, acyclic d ->
  (has_calendar (prepared d a force) a = true /\
   register_calendar_alias d a r force = (Raises (CalendarNameCollision a), prepared d a force)) \/
  (unregistered (prepared d a force) a /\ leads_to (prepared d a force) r a /\
   exists c, register_calendar_alias d a r force =
     (Raises (CyclicCalendarAlias c), prepared d a force)) \/
  (unregistered (prepared d a force) a /\ ~ leads_to (prepared d a force) r a /\
   register_calendar_alias d a r force = (Returns tt, with_alias (prepared d a force) a r)).
Proof.
  intros d a r force Hac. unfold register_calendar_alias. fold (prepared d a force).
  destruct (has_calendar (prepared d a force) a) eqn:E; [left; auto|right].
  apply has_calendar_false in E.
  set (p := prepared d a force) in *.
  change (Dispatcher (calendars p) (factories p) (store a r (aliases p)) (calls p))
    with (with_alias p a r).
  destruct (resolve_with_alias p a r) as [[L [c R]]|[L [m R]]].
  - apply acyclic_prepared. exact Hac.
  - apply unregistered_alias. exact E.
  - left. split; [exact E|]. split; [exact L|]. exists c. rewrite R. simpl.
    rewrite pop_store_absent by (apply unregistered_alias; exact E).
    rewrite eta. reflexivity.
  - right. split; [exact E|]. split; [exact L|]. rewrite R. reflexivity.
Qed.

Lemma prepared_undisturbed : forall d n m force, ~ (force = true /\ n = m) ->
  registration (prepared d n force) m = registration d m.
Proof.
  intros d n m [] H; [|reflexivity]. simpl. rewrite deregister_registration.
  destruct (String.eqb_spec n m); [|reflexivity]. tauto.
Qed.

(** The whole chain of [n] and the instance at its end survive. *)
Lemma chain_kept : forall d d' n m, leads_to d n m ->
  (forall k y, leads_to d n k -> lookup k (aliases d) = Some y -> lookup k (aliases d') = Some y) ->
  leads_to d' n m.
Proof.
  intros d d' n m H. induction H as [a|a b c E H IH]; intros Hk; [constructor|].
  eapply leads_on.
  - apply Hk; [constructor|exact E].
  - apply IH. intros k y L. apply Hk. eapply leads_on; eauto.
Qed.

Section Oracle.

Variable build : factory -> list factory -> option instance.

Lemma get_aliases : forall d n, aliases (snd (get_calendar build d n)) = aliases d.
Proof.
  intros d n. unfold get_calendar.
  destruct (resolve_alias d n); [|reflexivity].
  destruct (lookup a (calendars d)); [reflexivity|].
  destruct (lookup a (factories d)); [|reflexivity].
  destruct (build _ _); reflexivity.
Qed.

Lemma get_factories : forall d n, factories (snd (get_calendar build d n)) = factories d.
Proof.
  intros d n. unfold get_calendar.
  destruct (resolve_alias d n); [|reflexivity].
  destruct (lookup a (calendars d)); [reflexivity|].
  destruct (lookup a (factories d)); [|reflexivity].
  destruct (build _ _); reflexivity.
Qed.

(** get_calendar never changes a calendar that is already built. *)
Lemma get_calendars : forall d n m x, lookup m (calendars d) = Some x ->
  lookup m (calendars (snd (get_calendar build d n))) = Some x.
Proof.
  intros d n m x Hm. unfold get_calendar.
  destruct (resolve_alias d n) as [k|]; [|exact Hm].
  destruct (lookup k (calendars d)) eqn:E; [exact Hm|].
  destruct (lookup k (factories d)); [|exact Hm].
  destruct (build _ _); [|exact Hm]. simpl. rewrite lookup_store.
  destruct (String.eqb_spec k m); [congruence|exact Hm].
Qed.

Lemma step_acyclic : forall d o, acyclic d -> acyclic (step build d o).
Proof.
  intros d [n| |n|n|n c force|n f force|a r force|n|] H; cbn [step]; try exact H.
  - apply (acyclic_aliases d); [apply get_aliases|exact H].
  - destruct (register_calendar_outcome d n c force) as [[_ E]|[_ E]]; rewrite E;
      [apply acyclic_prepared; exact H|].
    eapply acyclic_aliases; [|apply (acyclic_prepared d n force H)]. reflexivity.
  - destruct (register_type_outcome d n f force) as [[_ E]|[_ E]]; rewrite E;
      [apply acyclic_prepared; exact H|].
    eapply acyclic_aliases; [|apply (acyclic_prepared d n force H)]. reflexivity.
  - destruct (register_alias_outcome d a r force H) as [[_ E]|[[_ [_ [c E]]]|[U [L E]]]];
      rewrite E; try (apply acyclic_prepared; exact H).
    apply acyclic_with_alias; [apply acyclic_prepared; exact H| |exact L].
    apply unregistered_alias. exact U.
  - apply acyclic_deregister. exact H.
  - intros a b E. discriminate.
Qed.

Lemma run_acyclic : forall os d, acyclic d -> acyclic (run build d os).
Proof.
  intros os. induction os as [|o os IH]; intros d H; [exact H|].
  simpl. apply IH. apply step_acyclic. exact H.
Qed.

(** ** Undisturbed registrations *)

(** A step that does not disturb [m] keeps its alias and its built calendar. *)
Lemma step_alias : forall d o m x, acyclic d -> ~ disturbs o m ->
  lookup m (aliases d) = Some x -> lookup m (aliases (step build d o)) = Some x.
Proof.
  intros d o m x Hac Hd Hm.
  assert (Hp : forall n force, ~ (force = true /\ n = m) ->
    lookup m (aliases (prepared d n force)) = Some x).
  { intros n force H. pose proof (prepared_undisturbed d n m force H) as P.
    unfold registration in P. congruence. }
  destruct o as [n| |n|n|n c force|n f force|a r force|n|]; cbn [step disturbs] in *;
    try exact Hm.
  - rewrite get_aliases. exact Hm.
  - destruct (register_calendar_outcome d n c force) as [[_ E]|[_ E]]; rewrite E; apply Hp, Hd.
  - destruct (register_type_outcome d n f force) as [[_ E]|[_ E]]; rewrite E; apply Hp, Hd.
  - destruct (register_alias_outcome d a r force Hac) as [[_ E]|[[_ [_ [c E]]]|[U [L E]]]];
      rewrite E; try (apply Hp, Hd).
    cbn [snd]. rewrite with_alias_lookup. destruct (String.eqb_spec a m) as [->|]; [|apply Hp, Hd].
    apply unregistered_alias in U. rewrite Hp in U by exact Hd. discriminate.
  - simpl. rewrite lookup_pop. destruct (String.eqb_spec n m); [contradiction|exact Hm].
  - tauto.
Qed.

Lemma step_built : forall d o m x, acyclic d -> ~ disturbs o m ->
  lookup m (calendars d) = Some x -> lookup m (calendars (step build d o)) = Some x.
Proof.
  intros d o m x Hac Hd Hm.
  assert (Hp : forall n force, ~ (force = true /\ n = m) ->
    lookup m (calendars (prepared d n force)) = Some x).
  { intros n force H. pose proof (prepared_undisturbed d n m force H) as P.
    unfold registration in P. congruence. }
  destruct o as [n| |n|n|n c force|n f force|a r force|n|]; cbn [step disturbs] in *;
    try exact Hm.
  - apply get_calendars. exact Hm.
  - destruct (register_calendar_outcome d n c force) as [[_ E]|[U E]]; rewrite E; [apply Hp, Hd|].
    cbn [snd calendars]. rewrite lookup_store.
    destruct (String.eqb_spec n m) as [->|]; [|apply Hp, Hd].
    unfold unregistered, registration in U. rewrite Hp in U by exact Hd. discriminate.
  - destruct (register_type_outcome d n f force) as [[_ E]|[_ E]]; rewrite E; apply Hp, Hd.
  - destruct (register_alias_outcome d a r force Hac) as [[_ E]|[[_ [_ [c E]]]|[U [L E]]]];
      rewrite E; apply Hp, Hd.
  - simpl. rewrite lookup_pop. destruct (String.eqb_spec n m); [contradiction|exact Hm].
  - tauto.
Qed.

(** A built name that is no alias does not become one. *)
Lemma step_not_alias : forall d o m x, acyclic d ->
  lookup m (calendars d) = Some x -> ~ disturbs o m ->
  lookup m (aliases d) = None -> lookup m (aliases (step build d o)) = None.
Proof.
  intros d o m x Hac Hm Hd Ha.
  assert (Hp : forall n force, ~ (force = true /\ n = m) ->
    lookup m (aliases (prepared d n force)) = None /\
    lookup m (calendars (prepared d n force)) = Some x).
  { intros n force H. pose proof (prepared_undisturbed d n m force H) as P.
    unfold registration in P. split; congruence. }
  destruct o as [n| |n|n|n c force|n f force|a r force|n|]; cbn [step disturbs] in *;
    try exact Ha.
  - rewrite get_aliases. exact Ha.
  - destruct (register_calendar_outcome d n c force) as [[_ E]|[_ E]]; rewrite E; apply Hp, Hd.
  - destruct (register_type_outcome d n f force) as [[_ E]|[_ E]]; rewrite E; apply Hp, Hd.
  - destruct (register_alias_outcome d a r force Hac) as [[_ E]|[[_ [_ [c E]]]|[U [L E]]]];
      rewrite E; try (apply Hp, Hd).
    cbn [snd]. rewrite with_alias_lookup. destruct (String.eqb_spec a m) as [->|]; [|apply Hp, Hd].
    unfold unregistered, registration in U. destruct (Hp m force Hd). congruence.
  - simpl. rewrite lookup_pop. destruct (String.eqb_spec n m); [contradiction|exact Ha].
  - tauto.
Qed.

Lemma run_kept : forall os d n m x, acyclic d -> canonical d n m ->
  lookup m (calendars d) = Some x ->
  (forall o k, In o os -> leads_to d n k -> ~ disturbs o k) ->
  canonical (run build d os) n m /\ lookup m (calendars (run build d os)) = Some x.
Proof.
  intros os. induction os as [|o os IH]; intros d n m x Hac Hcan Hm Hd; [auto|].
  simpl. destruct Hcan as [L Em].
  assert (Hcan' : canonical (step build d o) n m).
  { split.
    - apply (chain_kept d); [exact L|]. intros k y Lk Ek.
      apply step_alias; [exact Hac| |exact Ek]. apply Hd; [left; reflexivity|exact Lk].
    - apply (step_not_alias d o m x Hac Hm); [|exact Em]. apply Hd; [left; reflexivity|exact L]. }
  apply IH.
  - apply step_acyclic. exact Hac.
  - exact Hcan'.
  - apply step_built; [exact Hac| |exact Hm]. apply Hd; [left; reflexivity|exact L].
  - intros o' k Ho Lk. apply Hd; [right; exact Ho|].
    (* a chain of the new state is a chain of the old one *)
    destruct Hcan' as [L' E'].
    destruct (leads_comparable _ _ _ _ Lk L') as [C|C].
    + (* k is on the way to m: it is on the old chain too *)
      assert (G : forall a b, leads_to d a b -> lookup b (aliases d) = None ->
        (forall q y, leads_to d a q -> lookup q (aliases d) = Some y ->
                     lookup q (aliases (step build d o)) = Some y) ->
        lookup b (aliases (step build d o)) = None ->
        forall z, leads_to (step build d o) a z -> leads_to d a z).
      { clear. intros a b H. induction H as [a|a b c E H IH]; intros Eb Hk Hb z Lz.
        - inversion Lz; subst; [constructor|congruence].
        - inversion Lz as [w Ew|w v u E1 H1]; subst; [constructor|].
          rewrite (Hk a b (leads_here _ _) E) in E1. injection E1 as <-.
          eapply leads_on; [exact E|]. apply IH; auto.
          intros q y Lq. apply Hk. eapply leads_on; eauto. }
      apply (G n m L Em); [|exact E'|exact Lk].
      intros q y Lq Eq. apply step_alias; [exact Hac| |exact Eq].
      apply Hd; [left; reflexivity|exact Lq].
    + inversion C; subst; [exact L|congruence].
Qed.

Lemma get_built : forall d n m x, canonical d n m -> lookup m (calendars d) = Some x ->
  get_calendar build d n = (Returns x, d).
Proof.
  intros d n m x Hc Hx. unfold get_calendar. rewrite (resolve_canonical d n m Hc), Hx. reflexivity.
Qed.

Lemma get_returns_built : forall d n x, fst (get_calendar build d n) = Returns x ->
  exists m, canonical (snd (get_calendar build d n)) n m /\
    lookup m (calendars (snd (get_calendar build d n))) = Some x.
Proof.
  intros d n x. pose proof (resolve_spec d n) as R. pose proof (get_aliases d n) as A.
  revert A. unfold get_calendar. destruct (resolve_alias d n) as [m|]; [|discriminate].
  destruct R as [L E].
  destruct (lookup m (calendars d)) as [c|] eqn:Ec.
  - intros _ H. injection H as ->. exists m. split; [split|]; auto.
  - destruct (lookup m (factories d)) as [f|]; [|discriminate].
    destruct (build f (calls d)) as [c|]; [|discriminate].
    intros A H. injection H as ->. exists m. cbn [snd] in *. split; [split|].
    + eapply leads_same; [symmetry; exact A|exact L].
    + exact E.
    + cbn [calendars]. rewrite lookup_store, String.eqb_refl. reflexivity.
Qed.

End Oracle.
