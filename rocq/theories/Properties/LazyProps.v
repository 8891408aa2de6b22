(** C43: lazy attributes.  [getter] is the arbitrary wrapped function; histories
    are arbitrary sequences of reads, writes, deletions and collections over any
    objects. *)
From Coq Require Import ZArith List Bool Lia.
From Verif.Model Require Import Lazy.
Import ListNotations.
Open Scope Z_scope.

(** The event does not forget the value of [o] on purpose. *)
Definition keeps {V} (o : Z) (e : event V) : Prop :=
  match e with
  | DelItem o' | Collect o' => o' <> o
  | Read _ | Write _ _ => True
  end.

Lemma find_remove : forall {V} o o' (c : list (Z * V)), o' <> o -> find o (remove o' c) = find o c.
Proof.
  intros V o o' c H. induction c as [|[k v] c IH]; simpl; [reflexivity|].
  destruct (k =? o') eqn:E1; simpl.
  - destruct (k =? o) eqn:E2; [lia|exact IH].
  - destruct (k =? o); [reflexivity|exact IH].
Qed.

Lemma step_keeps : forall {V} getter (s : lazyval V) e o v, keeps o e ->
  find o (cache s) = Some v -> find o (cache (snd (step getter s e))) = Some v.
Proof.
  intros V getter s [k|k w|k|k] o v Hk Hf; simpl in *.
  - unfold read. destruct (find k (cache s)) eqn:E; [exact Hf|].
    destruct (getter k (calls s)); simpl; [|exact Hf].
    destruct (k =? o) eqn:Ek; [|exact Hf]. apply Z.eqb_eq in Ek. congruence.
  - exact Hf.
  - unfold delitem. destruct (find k (cache s)); simpl; [|exact Hf].
    rewrite find_remove by assumption. exact Hf.
  - rewrite find_remove by assumption. exact Hf.
Qed.

Lemma run_keeps : forall {V} getter es (s : lazyval V) o v, Forall (keeps o) es ->
  find o (cache s) = Some v -> find o (cache (snd (run getter s es))) = Some v.
Proof.
  intros V getter es. induction es as [|e es IH]; intros s o v Hk Hf; [exact Hf|].
  inversion Hk; subst. simpl. pose proof (step_keeps getter s e o v H1 Hf) as Hf'.
  destruct (step getter s e) as [a s']. simpl in Hf'.
  specialize (IH s' o v H2 Hf'). destruct (run getter s' es) as [r s'']. exact IH.
Qed.

(** Once a read of [o] has given a value, every later read gives the same value
    without running the getter (the state, including the record of getter calls,
    does not change). *)
Theorem c43_first_value_sticks : forall V getter (s : lazyval V) o v es,
  fst (read getter s o) = Value v -> Forall (keeps o) es ->
  let s' := snd (run getter (snd (read getter s o)) es) in
  read getter s' o = (Value v, s').
Proof.
  intros V getter s o v es Hr Hk s'.
  assert (Hf : find o (cache (snd (read getter s o))) = Some v).
  { revert Hr. unfold read. destruct (find o (cache s)) eqn:E; simpl.
    - intros H. injection H as ->. exact E.
    - destruct (getter o (calls s)); simpl; [|discriminate].
      rewrite Z.eqb_refl. congruence. }
  pose proof (run_keeps getter es _ o v Hk Hf) as Hf'. fold s' in Hf'.
  unfold read. rewrite Hf'. reflexivity.
Qed.

(** A read runs the getter exactly when the object has no value yet, with that
    object as argument; if the getter raises, nothing is remembered. *)
Theorem c43_read : forall V getter (s : lazyval V) o,
  match find o (cache s) with
  | Some v => read getter s o = (Value v, s)
  | None =>
      calls (snd (read getter s o)) = calls s ++ [o] /\
      match getter o (calls s) with
      | Some v => fst (read getter s o) = Value v /\
                  find o (cache (snd (read getter s o))) = Some v
      | None => fst (read getter s o) = GetterError /\
                cache (snd (read getter s o)) = cache s
      end
  end.
Proof.
  intros V getter s o. unfold read. destruct (find o (cache s)); [reflexivity|].
  destruct (getter o (calls s)); simpl; rewrite ?Z.eqb_refl; auto.
Qed.

(** In every history from a fresh descriptor, every value ever read for [o] was
    computed by the getter for [o] (objects never see each other's values), and
    while [o] is not collected all the values read for [o] are equal. *)
Lemma run_values : forall {V} getter es (s : lazyval V),
  (forall o v, find o (cache s) = Some v -> exists past, getter o past = Some v) ->
  forall i o v, nth_error es i = Some (Read o) ->
    nth_error (fst (run getter s es)) i = Some (Value v) ->
    exists past, getter o past = Some v.
Proof.
  intros V getter es. induction es as [|e es IH]; intros s Hs i o v He Ha.
  - destruct i; discriminate.
  - simpl in Ha. destruct (step getter s e) as [a s'] eqn:Es.
    destruct (run getter s' es) as [rest s''] eqn:Er. simpl in Ha.
    destruct i as [|i]; simpl in He, Ha.
    + injection He as ->. injection Ha as ->. simpl in Es. unfold read in Es.
      destruct (find o (cache s)) eqn:E; [injection Es as <- _; eauto|].
      destruct (getter o (calls s)) eqn:G; [|discriminate]. injection Es as <- _. eauto.
    + apply (IH s' ) with (i := i); [|exact He|rewrite Er; exact Ha].
      intros o' v' Hf. destruct e as [k|k w|k|k]; simpl in Es.
      * unfold read in Es. destruct (find k (cache s)) eqn:E.
        -- injection Es as _ <-. auto.
        -- destruct (getter k (calls s)) eqn:G; injection Es as _ <-; [|auto].
           simpl in Hf. destruct (k =? o') eqn:Ek; [|auto].
           apply Z.eqb_eq in Ek. subst. injection Hf as <-. eauto.
      * injection Es as _ <-. auto.
      * unfold delitem in Es. destruct (find k (cache s)) eqn:E; injection Es as _ <-; [|auto].
        simpl in Hf. destruct (Z.eq_dec k o') as [->|Hne].
        -- exfalso. clear - Hf. induction (cache s) as [|[a b] c IHc]; simpl in Hf; [discriminate|].
           destruct (a =? o') eqn:Ea; simpl in Hf; [auto|]. rewrite Ea in Hf. auto.
        -- rewrite find_remove in Hf by assumption. auto.
      * injection Es as _ <-. simpl in Hf. destruct (Z.eq_dec k o') as [->|Hne].
        -- exfalso. clear - Hf. induction (cache s) as [|[a b] c IHc]; simpl in Hf; [discriminate|].
           destruct (a =? o') eqn:Ea; simpl in Hf; [auto|]. rewrite Ea in Hf. auto.
        -- rewrite find_remove in Hf by assumption. auto.
Qed.

Theorem c43_values_are_own : forall V getter (es : list (event V)) i o v,
  nth_error es i = Some (Read o) ->
  nth_error (fst (run getter fresh es)) i = Some (Value v) ->
  exists past, getter o past = Some v.
Proof. intros V getter es i o v. apply run_values. intros k w H. discriminate. Qed.

Lemma run_agree : forall {V} getter es (s : lazyval V) o u, Forall (keeps o) es ->
  find o (cache s) = Some u ->
  forall i v, nth_error es i = Some (Read o) ->
    nth_error (fst (run getter s es)) i = Some (Value v) -> v = u.
Proof.
  intros V getter es. induction es as [|e es IH]; intros s o u Hk Hf i v He Ha.
  - destruct i; discriminate.
  - inversion Hk; subst. simpl in Ha. pose proof (step_keeps getter s e o u H1 Hf) as Hf'.
    destruct (step getter s e) as [a s'] eqn:Es.
    destruct (run getter s' es) as [rest s''] eqn:Er. simpl in Ha.
    destruct i as [|i]; simpl in He, Ha.
    + injection He as ->. injection Ha as ->. simpl in Es. unfold read in Es.
      rewrite Hf in Es. injection Es as <- _. reflexivity.
    + apply (IH s' o u H2 Hf' i v He). rewrite Er. exact Ha.
Qed.

Theorem c43_one_value_per_object : forall V getter (es : list (event V)) o,
  Forall (keeps o) es ->
  forall i j v w,
    nth_error es i = Some (Read o) -> nth_error es j = Some (Read o) ->
    nth_error (fst (run getter fresh es)) i = Some (Value v) ->
    nth_error (fst (run getter fresh es)) j = Some (Value w) -> v = w.
Proof.
  intros V getter es o Hk.
  assert (G : forall es (s : lazyval V), Forall (keeps o) es ->
    forall i j v w, (i <= j)%nat ->
    nth_error es i = Some (Read o) -> nth_error es j = Some (Read o) ->
    nth_error (fst (run getter s es)) i = Some (Value v) ->
    nth_error (fst (run getter s es)) j = Some (Value w) -> v = w).
  { clear. intros es. induction es as [|e es IH]; intros s Hk i j v w Hij Hi Hj Ai Aj.
    - destruct i; discriminate.
    - inversion Hk; subst. simpl in Ai, Aj. destruct (step getter s e) as [a s'] eqn:Es.
      destruct (run getter s' es) as [rest s''] eqn:Er. simpl in Ai, Aj.
      destruct i as [|i], j as [|j]; simpl in *; try lia.
      + congruence.
      + injection Hi as ->. injection Ai as ->.
        assert (Hf : find o (cache s') = Some v).
        { simpl in Es. unfold read in Es. destruct (find o (cache s)) eqn:E.
          - injection Es as <- <-. exact E.
          - destruct (getter o (calls s)); [|discriminate]. injection Es as <- <-.
            simpl. rewrite Z.eqb_refl. reflexivity. }
        symmetry. apply (run_agree getter es s' o v H2 Hf j w Hj). rewrite Er. exact Aj.
      + apply (IH s' H2 i j v w); auto; try lia; rewrite Er; assumption. }
  intros i j v w Hi Hj Ai Aj. destruct (PeanoNat.Nat.le_ge_cases i j).
  - exact (G es fresh Hk i j v w H Hi Hj Ai Aj).
  - symmetry. exact (G es fresh Hk j i w v H Hj Hi Aj Ai).
Qed.

(** A write anywhere in a history is rejected, and all other answers and the
    final state are as if it had not been attempted. *)
Lemma run_app : forall {V} getter es1 es2 (s : lazyval V),
  run getter s (es1 ++ es2) =
  (fst (run getter s es1) ++ fst (run getter (snd (run getter s es1)) es2),
   snd (run getter (snd (run getter s es1)) es2)).
Proof.
  intros V getter es1 es2. induction es1 as [|e es1 IH]; intros s; simpl.
  - destruct (run getter s es2); reflexivity.
  - destruct (step getter s e) as [a s']. rewrite IH.
    destruct (run getter s' es1) as [r s'']. reflexivity.
Qed.

Theorem c43_writes_invisible : forall V getter (s : lazyval V) es1 es2 o v,
  snd (run getter s (es1 ++ Write o v :: es2)) = snd (run getter s (es1 ++ es2)) /\
  exists before after,
    fst (run getter s (es1 ++ es2)) = before ++ after /\ length before = length es1 /\
    fst (run getter s (es1 ++ Write o v :: es2)) = before ++ ReadOnlyError :: after.
Proof.
  intros V getter s es1 es2 o v. rewrite !run_app. cbn [fst snd].
  cbn [run step write].
  destruct (run getter (snd (run getter s es1)) es2) as [r s'] eqn:E. cbn [fst snd].
  split; [reflexivity|]. exists (fst (run getter s es1)), r.
  split; [reflexivity|]. split; [|reflexivity].
  clear. revert s. induction es1 as [|e es1 IH]; intros s; simpl; [reflexivity|].
  destruct (step getter s e) as [a s']. specialize (IH s').
  destruct (run getter s' es1). simpl in *. congruence.
Qed.

(** Witness: a getter that fails on its first call and then counts its calls;
    object 1 is read before and after objects 2 and a rejected write. *)
Example c43_witness :
  fst (run (fun o past => if Nat.eqb (length past) 0 then None else Some (o * 10 + Z.of_nat (length past)))
        fresh [Read 1; Read 1; Read 2; Write 1 7; Read 1; Collect 2; Read 2; Read 1])
  = [GetterError; Value 11; Value 22; ReadOnlyError; Value 11; NoAnswer; Value 23; Value 11].
Proof. reflexivity. Qed.

(** ** Assumptions *)
Print Assumptions c43_first_value_sticks.
Print Assumptions c43_read.
Print Assumptions c43_values_are_own.
Print Assumptions c43_one_value_per_object.
Print Assumptions c43_writes_invisible.
