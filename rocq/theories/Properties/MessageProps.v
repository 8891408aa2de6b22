(** What errors say (C79). *)
From Coq Require Import String Ascii NArith ZArith List Bool Lia Sorting.Sorted.
From Verif.Model Require Import Base Queries Dispatcher Messages.
From Verif.Spec Require Import Schedule Registry Literal.
From Verif.Proofs Require Import BaseLemmas ScheduleLemmas QueryLemmas QueryLemmas2 QueryLemmas3 DispatcherLemmas.
From Verif.Properties Require Import QueryProps DispatcherProps.
Import ListNotations.
Open Scope string_scope.

Local Notation lookup := Dispatcher.lookup.

(** ** Specification *)

(** Each name of the list is an alias of the next one. *)
Fixpoint alias_chain (d : dispatcher) (l : list name) : Prop :=
  match l with
  | x :: (y :: _) as l' => lookup x (aliases d) = Some y /\ alias_chain d l'
  | _ => True
  end.

(** ** The text of an error tells the error *)

(** *** Lemmas *)

Lemma str_assoc : forall a b c, (a ++ b) ++ c = a ++ (b ++ c).
Proof. induction a as [|x a IH]; intros; cbn; [reflexivity|]. rewrite IH. reflexivity. Qed.
Lemma str_app_inj_r : forall a b c, a ++ c = b ++ c -> a = b.
Proof.
  assert (L : forall a b, String.length (a ++ b) = (String.length a + String.length b)%nat).
  { induction a; intros; cbn; [reflexivity|]. rewrite IHa. reflexivity. }
  induction a as [|x a IH]; intros [|y b] c E; cbn in E.
  - reflexivity.
  - exfalso. apply (f_equal String.length) in E. cbn in E. rewrite L in E. lia.
  - exfalso. apply (f_equal String.length) in E. cbn in E. rewrite L in E. lia.
  - injection E as -> E. rewrite (IH b c E). reflexivity.
Qed.

(** Reading one character of a literal back. *)
Definition hex_value (a : ascii) : N := let n := N_of_ascii a in if (n <? 58)%N then n - 48 else n - 87.
Definition read_char (q : ascii) (s : string) : option (ascii * string) :=
  match s with
  | EmptyString => None
  | String a s' =>
      if Ascii.eqb a q then None
      else if Ascii.eqb a "\" then
        match s' with
        | String b s2 =>
            if Ascii.eqb b "t" then Some ("009"%char, s2)
            else if Ascii.eqb b "n" then Some ("010"%char, s2)
            else if Ascii.eqb b "r" then Some ("013"%char, s2)
            else if Ascii.eqb b "x" then
              match s2 with
              | String h1 (String h2 s4) => Some (ascii_of_N (hex_value h1 * 16 + hex_value h2), s4)
              | _ => None
              end
            else Some (b, s2)
        | EmptyString => None
        end
      else Some (a, s')
  end.
Lemma read_escape : forall q a s, q = "'"%char \/ q = double_quote -> read_char q (escape q a ++ s) = Some (a, s).
Proof.
  intros q a s [->| ->]; destruct a as [[|] [|] [|] [|] [|] [|] [|] [|]]; reflexivity.
Qed.
Lemma read_end : forall q s, read_char q (String q s) = None.
Proof. intros q s. cbn. rewrite Ascii.eqb_refl. reflexivity. Qed.
Lemma escape_all_inj : forall q, q = "'"%char \/ q = double_quote -> forall s s' a b,
  escape_all q s ++ String q a = escape_all q s' ++ String q b -> s = s' /\ a = b.
Proof.
  intros q Q. induction s as [|x s IH]; intros [|y s'] a b E; cbn [escape_all] in E.
  - injection E as E. split; [reflexivity|exact E].
  - exfalso. apply (f_equal (read_char q)) in E. rewrite str_assoc, read_escape in E by exact Q.
    cbn [append] in E. rewrite read_end in E. discriminate.
  - exfalso. apply (f_equal (read_char q)) in E. rewrite str_assoc, read_escape in E by exact Q.
    cbn [append] in E. rewrite read_end in E. discriminate.
  - apply (f_equal (read_char q)) in E. rewrite !str_assoc, !read_escape in E by exact Q.
    injection E as -> E. destruct (IH s' a b E) as [-> ->]. split; reflexivity.
Qed.
Lemma py_repr_inj : forall s s' a b, py_repr s ++ a = py_repr s' ++ b -> s = s' /\ a = b.
Proof.
  intros s s' a b E. unfold py_repr in E.
  set (q := if contains "'" s && negb (contains double_quote s) then double_quote else "'"%char) in E.
  set (q' := if contains "'" s' && negb (contains double_quote s') then double_quote else "'"%char) in E.
  assert (Q : q = "'"%char \/ q = double_quote) by (subst q; destruct (contains "'" s && negb (contains double_quote s)); [right|left]; reflexivity).
  cbn [append] in E. injection E as <- E. rewrite !str_assoc in E. cbn [append] in E.
  exact (escape_all_inj q Q s s' a b E).
Qed.
Lemma join_inj : forall l l', String.concat " -> " (map py_repr l) = String.concat " -> " (map py_repr l') -> l = l'.
Proof.
  induction l as [|x l IH]; intros [|y l'] E.
  - reflexivity.
  - exfalso. destruct l'; discriminate.
  - exfalso. destruct l; discriminate.
  - destruct l as [|x2 l], l' as [|y2 l']; cbn [map String.concat] in E.
    + pose proof (py_repr_inj x y "" "") as P.
      assert (A : forall s, s ++ "" = s) by (induction s; cbn; [reflexivity|rewrite IHs; reflexivity]).
      rewrite !A in P. destruct (P E) as [-> _]. reflexivity.
    + exfalso. assert (A : forall s, s ++ "" = s) by (induction s; cbn; [reflexivity|rewrite IHs; reflexivity]).
      rewrite <- (A (py_repr x)) in E. apply py_repr_inj in E. destruct E as [_ E]. discriminate.
    + exfalso. assert (A : forall s, s ++ "" = s) by (induction s; cbn; [reflexivity|rewrite IHs; reflexivity]).
      rewrite <- (A (py_repr y)) in E. apply py_repr_inj in E. destruct E as [_ E]. discriminate.
    + apply py_repr_inj in E. destruct E as [-> E]. f_equal. apply IH. cbn [append] in E. injection E as E. exact E.
Qed.

Lemma invalid_text : forall n, format msg_invalid_name [("calendar_name", n)] =
  Ok ("The requested TradingCalendar, " ++ n ++ ", does not exist.").
Proof. reflexivity. Qed.
Lemma collision_text : forall n, format msg_collision [("calendar_name", n)] =
  Ok ("A calendar with the name " ++ n ++ " is already registered.").
Proof. reflexivity. Qed.
Lemma cycle_text : forall c, format msg_cycle [("cycle", c)] = Ok ("Cycle in calendar aliases: [" ++ c ++ "]").
Proof. reflexivity. Qed.

(** *** Theorems *)

(** Every error of the dispatcher's own has a text, also for names with braces, quotes
    or arrows, and two errors with the same text are the same. *)
Theorem c79_has_text : forall e, (forall f, e <> FactoryError f) -> e <> Diverges ->
  exists text, str_error e = Some (Ok text).
Proof.
  intros [n|n|l|f|] F D; cbn [str_error].
  - rewrite invalid_text. eexists. reflexivity.
  - rewrite collision_text. eexists. reflexivity.
  - rewrite cycle_text. eexists. reflexivity.
  - destruct (F f). reflexivity.
  - congruence.
Qed.
Theorem c79_text_tells : forall e e' text, str_error e = Some (Ok text) -> str_error e' = Some (Ok text) -> e = e'.
Proof.
  intros [n|n|l|f|] [n'|n'|l'|f'|] text A B; cbn [str_error] in A, B; rewrite ?invalid_text, ?collision_text, ?cycle_text in A, B;
    try discriminate; try (assert (E := eq_trans A (eq_sym B)); discriminate).
  - assert (E := eq_trans A (eq_sym B)). injection E as E. apply (str_app_inj_r n n') in E. subst. reflexivity.
  - assert (E := eq_trans A (eq_sym B)). injection E as E. apply (str_app_inj_r n n') in E. subst. reflexivity.
  - assert (E := eq_trans A (eq_sym B)). injection E as E. apply str_app_inj_r in E. apply join_inj in E. subst. reflexivity.
Qed.

(** The texts. *)
Theorem c79_texts : forall n l,
  str_error (InvalidCalendarName n) = Some (Ok ("The requested TradingCalendar, " ++ n ++ ", does not exist.")) /\
  str_error (CalendarNameCollision n) = Some (Ok ("A calendar with the name " ++ n ++ " is already registered.")) /\
  str_error (CyclicCalendarAlias l) =
    Some (Ok ("Cycle in calendar aliases: [" ++ String.concat " -> " (map py_repr l) ++ "]")).
Proof. intros n l. split; [|split]; reflexivity. Qed.

Lemma escape_written : forall q a text s, q = "'"%char \/ q = double_quote -> written q text s ->
  written q (escape q a ++ text) (String a s).
Proof.
  intros q a text s Q W.
  assert (V : printable a = true <-> visible a).
  { unfold printable, visible. cbv zeta. rewrite orb_true_iff, !andb_true_iff, negb_true_iff, !N.leb_le, N.eqb_neq. reflexivity. }
  unfold escape. cbv zeta.
  destruct (Ascii.eqb_spec a q) as [->|Nq]; [apply w_quote; exact W|].
  destruct (Ascii.eqb_spec a "\") as [->|Nb]; [apply w_backslash; exact W|]. cbn [orb].
  assert (E : forall n b, (N_of_ascii a =? n)%N = true -> ascii_of_N n = b -> a = b).
  { intros n b H <-. apply N.eqb_eq in H. rewrite <- H. symmetry. apply ascii_N_embedding. }
  destruct (N_of_ascii a =? 9)%N eqn:E9; [rewrite (E _ "009"%char E9 eq_refl); apply w_tab; exact W|].
  destruct (N_of_ascii a =? 10)%N eqn:E10; [rewrite (E _ "010"%char E10 eq_refl); apply w_newline; exact W|].
  destruct (N_of_ascii a =? 13)%N eqn:E13; [rewrite (E _ "013"%char E13 eq_refl); apply w_return; exact W|].
  destruct (printable a) eqn:P.
  - apply w_visible; [apply V; reflexivity|exact Nq|exact Nb|exact W].
  - assert (X : forall n, (n < 16)%N -> nth_error hex_digits (N.to_nat n) = Some (hex_char n)).
    { intros n H. assert (K : In n [0; 1; 2; 3; 4; 5; 6; 7; 8; 9; 10; 11; 12; 13; 14; 15]%N).
      { cbn. lia. }
      repeat (destruct K as [<-|K]; [reflexivity|]). destruct K. }
    assert (B : (N_of_ascii a < 256)%N) by apply N_ascii_bounded.
    cbn [append]. apply w_hex with (i := N.to_nat (N_of_ascii a / 16)) (j := N.to_nat (N_of_ascii a mod 16)).
    + intros H. apply V in H. discriminate.
    + intros ->. discriminate.
    + intros ->. discriminate.
    + intros ->. discriminate.
    + apply X. apply N.div_lt_upper_bound; lia.
    + apply X. apply N.mod_lt. lia.
    + rewrite Nat2N.inj_add, Nat2N.inj_mul, !N2Nat.id. change (N.of_nat 16) with 16%N. apply N.div_mod. lia.
    + exact W.
Qed.
Lemma contains_occurs : forall a s, contains a s = true <-> occurs a s.
Proof.
  unfold occurs. induction s as [|x s IH]; cbn; [split; [discriminate|intros []]|].
  rewrite orb_true_iff, IH, Ascii.eqb_eq. reflexivity.
Qed.

(** In the report of a cycle each name is a literal: single quotes, unless the name has
    a single quote and no double quote. *)
Theorem c79_quoted : forall s, exists q text, py_repr s = String q (text ++ String q "") /\ written q text s /\
  (q = double_quote /\ occurs "'" s /\ ~ occurs double_quote s \/
   q = "'"%char /\ (occurs "'" s -> occurs double_quote s)).
Proof.
  intros s. unfold py_repr.
  set (q := if contains "'" s && negb (contains double_quote s) then double_quote else "'"%char).
  exists q, (escape_all q s). split; [reflexivity|]. split.
  - assert (Q : q = "'"%char \/ q = double_quote)
      by (subst q; destruct (contains "'" s && negb (contains double_quote s)); [right|left]; reflexivity).
    clearbody q. induction s as [|a s IH]; cbn [escape_all]; [constructor|]. now apply escape_written.
  - subst q. rewrite <- !contains_occurs. destruct (contains "'" s), (contains double_quote s); cbn; intuition discriminate.
Qed.
Example c79_quoted_example : py_repr (String "009" (String "'" (String "233" (String "007" "\")))) =
  String double_quote ("\t'" ++ String "233" "\x07\\") ++ String double_quote "".
Proof. reflexivity. Qed.

(** ** The cycle that is reported *)

Open Scope list_scope.

Lemma chain_app : forall d l x y, alias_chain d (l ++ [x]) -> lookup x (aliases d) = Some y -> alias_chain d (l ++ [x; y]).
Proof.
  intros d. induction l as [|a l IH]; intros x y H E.
  - cbn [app alias_chain]. split; [exact E|exact I].
  - destruct l as [|b l].
    + cbn [app alias_chain] in *. destruct H as [H _]. split; [exact H|]. split; [exact E|exact I].
    + cbn [app] in *. destruct H as [H1 H2]. split; [exact H1|]. apply IH; assumption.
Qed.
Lemma resolve_loop_cycle : forall d fuel seen n l, NoDup seen -> ~ In n seen -> alias_chain d (seen ++ [n]) ->
  resolve_loop fuel (aliases d) seen n = Raises (CyclicCalendarAlias l) ->
  exists p z, l = p ++ [z] /\ In z p /\ NoDup p /\ alias_chain d l /\ exists q, p = seen ++ n :: q.
Proof.
  intros d. induction fuel as [|fuel IH]; intros seen n l Hd Hn Hc E; cbn [resolve_loop] in E;
    destruct (lookup n (aliases d)) as [n'|] eqn:En; try discriminate.
  assert (Hd' : NoDup (seen ++ [n])).
  { apply NoDup_Add with (a := n) (l := seen); [|split; assumption].
    replace (seen ++ [n])%list with (seen ++ n :: [])%list by reflexivity.
    rewrite <- (app_nil_r seen) at 1. apply Add_app. }
  assert (Hc' : alias_chain d ((seen ++ [n]) ++ [n'])).
  { rewrite <- app_assoc. cbn [app]. apply chain_app; assumption. }
  destruct (existsb (String.eqb n') (seen ++ [n])) eqn:Ex.
  - injection E as <-. exists (seen ++ [n])%list, n'. split; [reflexivity|].
    apply existsb_exists in Ex. destruct Ex as [s [Hs Es]]. apply String.eqb_eq in Es. subst s.
    split; [exact Hs|]. split; [exact Hd'|]. split; [exact Hc'|]. exists []. reflexivity.
  - assert (Hn' : ~ In n' (seen ++ [n])).
    { intros F. assert (Ht : existsb (String.eqb n') (seen ++ [n]) = true); [|congruence].
      apply existsb_exists. exists n'. split; [exact F|apply String.eqb_refl]. }
    destruct (IH (seen ++ [n])%list n' l Hd' Hn' Hc' E) as [p [z [A [B [C [D [q Q]]]]]]].
    exists p, z. split; [exact A|]. split; [exact B|]. split; [exact C|]. split; [exact D|].
    exists (n' :: q). rewrite Q, <- app_assoc. reflexivity.
Qed.
Lemma resolve_cycle : forall d n l, resolve_alias d n = Raises (CyclicCalendarAlias l) ->
  exists p z, l = p ++ [z] /\ In z p /\ NoDup p /\ alias_chain d l /\ exists q, p = n :: q.
Proof.
  intros d n l E. apply (resolve_loop_cycle d _ [] n l) in E; [exact E|constructor|intros []|exact I].
Qed.
Lemma chain_leads : forall d l x, alias_chain d (x :: l) -> forall z, In z l -> exists y, lookup x (aliases d) = Some y /\ leads_to d y z.
Proof.
  intros d. induction l as [|y l IH]; intros x H z Hz; [destruct Hz|]. cbn [alias_chain] in H. destruct H as [H1 H2].
  exists y. split; [exact H1|].
  destruct Hz as [<-|Hz]; [constructor|]. destruct (IH y H2 z Hz) as [w [W1 W2]]. eapply leads_on; eassumption.
Qed.
Lemma chain_suffix : forall d p l, alias_chain d (p ++ l) -> alias_chain d l.
Proof.
  intros d. induction p as [|a p IH]; intros l H; [exact H|]. apply IH. cbn [app] in H. destruct (p ++ l); [exact I|apply H].
Qed.

(** What resolve_alias and get_calendar report when the aliases given to the
    constructor go round in a circle: the way from the name to the first repetition. *)
Theorem c79_resolve_cycle : forall build d n l,
  resolve_alias d n = Raises (CyclicCalendarAlias l) \/ fst (get_calendar build d n) = Raises (CyclicCalendarAlias l) ->
  exists p z, l = p ++ [z] /\ In z p /\ NoDup p /\ alias_chain d l /\ exists q, p = n :: q.
Proof.
  intros build d n l [E|E]; [apply resolve_cycle; exact E|]. apply resolve_cycle. unfold get_calendar in E.
  destruct (resolve_alias d n) as [m|e]; [|injection E as ->; reflexivity].
  destruct (lookup m (calendars d)); [discriminate|]. destruct (lookup m (factories d)); [|discriminate].
  destruct (build _ _); discriminate.
Qed.

(** A rejected alias: the report begins and ends with the alias, goes through the name
    it was to stand for, and then along registered aliases, each name once. *)
Theorem c79_register_cycle : forall d a r force l, acyclic d ->
  fst (register_calendar_alias d a r force) = Raises (CyclicCalendarAlias l) ->
  exists q, l = a :: q ++ [a] /\ NoDup (a :: q) /\ alias_chain d (q ++ [a]) /\ (q ++ [a])%list = r :: tl (q ++ [a]).
Proof.
  intros d a r force l Hac E.
  assert (P : acyclic (prepared d a force)) by (apply acyclic_prepared; exact Hac).
  set (p := prepared d a force) in *.
  unfold register_calendar_alias in E. fold (prepared d a force) in E. fold p in E.
  destruct (has_calendar p a) eqn:Hh; [discriminate|]. apply has_calendar_false in Hh.
  change (Dispatcher (calendars p) (factories p) (store a r (aliases p)) (calls p)) with (with_alias p a r) in E.
  destruct (resolve_alias (with_alias p a r) a) as [m|e] eqn:R; [discriminate|].
  assert (R' : e = CyclicCalendarAlias l) by (destruct e; cbn in E; congruence). subst e. clear E.
  apply resolve_cycle in R. destruct R as [pp [z [-> [Hz [Hd [Hc [q ->]]]]]]].
  assert (Lk : forall x y, x <> a -> lookup x (aliases (with_alias p a r)) = Some y -> lookup x (aliases d) = Some y).
  { intros x y Hx Hl. rewrite with_alias_lookup in Hl. destruct (String.eqb a x) eqn:Ex; [apply String.eqb_eq in Ex; congruence|].
    assert (U : registration p x = registration d x) by (apply prepared_undisturbed; intros [_ F]; congruence).
    unfold registration in U. congruence. }
  assert (Lp : forall x y, x <> a -> lookup x (aliases (with_alias p a r)) = Some y -> lookup x (aliases p) = Some y).
  { intros x y Hx Hl. rewrite with_alias_lookup in Hl. destruct (String.eqb a x) eqn:Ex; [apply String.eqb_eq in Ex; congruence|exact Hl]. }
  assert (La : lookup a (aliases (with_alias p a r)) = Some r) by (rewrite with_alias_lookup, String.eqb_refl; reflexivity).
  apply NoDup_cons_iff in Hd as Hd'. destruct Hd' as [Na Hq].
  (* along q, the chain is one of d *)
  assert (Ch : forall l, (forall x, In x l -> x <> a) -> forall w, alias_chain (with_alias p a r) (l ++ [w]) -> alias_chain d (l ++ [w]) /\ alias_chain p (l ++ [w])).
  { induction l as [|x l IH]; intros Hl w H; [split; exact I|].
    assert (Hx : x <> a) by (apply Hl; left; reflexivity).
    destruct l as [|y l].
    - cbn [app alias_chain] in *. destruct H as [Hxy _]. pose proof (Lk x w Hx Hxy). pose proof (Lp x w Hx Hxy). tauto.
    - cbn [app] in *. destruct H as [Hxy H2].
      destruct (IH (fun x Hx => Hl x (or_intror Hx)) w H2) as [I1 I2].
      split; (split; [|assumption]); [exact (Lk x y Hx Hxy)|exact (Lp x y Hx Hxy)]. }
  assert (Hc2 : alias_chain (with_alias p a r) (q ++ [z])).
  { cbn [app] in Hc. destruct q as [|y q]; [exact I|]. cbn [app] in Hc. apply Hc. }
  assert (Hqa : forall x, In x q -> x <> a) by (intros x Hx ->; contradiction).
  destruct (Ch q Hqa z Hc2) as [Cd Cp].
  (* the repeated name is the new alias *)
  assert (Ez : z = a).
  { destruct Hz as [<-|Hz]; [reflexivity|]. exfalso.
    apply in_split in Hz. destruct Hz as [q1 [q2 ->]]. rewrite <- app_assoc in Cp. apply chain_suffix in Cp.
    cbn [app] in Cp. destruct (chain_leads p (q2 ++ [z]) z Cp z) as [y [Y1 Y2]]; [apply in_app_iff; right; left; reflexivity|].
    exact (P z y Y1 Y2). }
  subst z. exists q. split; [reflexivity|]. split; [exact Hd|]. split; [exact Cd|].
  cbn [app] in Hc. destruct (q ++ [a])%list as [|y l'] eqn:Eq; [destruct q; discriminate|].
  cbn [alias_chain] in Hc. destruct Hc as [Hc _]. rewrite La in Hc.
  cbn [tl]. congruence.
Qed.

(** ** The report of minutes outside the market *)

Open Scope Z_scope.

(** [t] is in a session of the schedule. *)
Definition in_session (ss : list session) (t : Z) : bool :=
  existsb (fun s => (s_open s <=? t) && (t <=? s_close s)) ss.
Lemma in_session_iff : forall ss t, in_session ss t = true <-> exists s, In s ss /\ during s t.
Proof.
  intros ss t. unfold in_session. rewrite existsb_exists. unfold during.
  split; intros [s [A B]]; exists s; (split; [exact A|]); rewrite andb_true_iff, !Z.leb_le in *; exact B.
Qed.

Section Report.
Variable c : calendar.
Variable ss : list session.
Hypothesis Hwf : well_formed ss.
Hypothesis Hc : has_schedule c ss.
Let Hcols : cols c ss := has_schedule_cols c ss Hc.

Lemma mismatch_iff : forall t, mismatch c t = negb (in_session ss t).
Proof.
  intros t. unfold mismatch. f_equal.
  destruct (locate ss t Hwf) as [ss1 s ss2 E H1 D H2|ss1 ss2 E H1 H2].
  - assert (Hs : In s ss) by (rewrite E; apply in_app_iff; right; left; reflexivity).
    destruct (indices_inside c ss Hwf Hc s t Hs D) as [i [A [B _]]]. rewrite A, B, Z.eqb_refl.
    symmetry. apply in_session_iff. exists s. split; assumption.
  - rewrite (opens_right_between c ss Hwf Hc ss1 ss2 t E H1 H2), (closes_left_between c ss Hwf Hc ss1 ss2 t E H1 H2).
    destruct (zlen ss1 - 1 =? zlen ss1) eqn:X; [apply Z.eqb_eq in X; lia|]. symmetry. apply not_true_iff_false.
    rewrite in_session_iff. intros [s [Hs D]]. exact (between_no_during ss ss1 ss2 t E H1 H2 s Hs D).
Qed.
End Report.

(** The outcome with its report is the outcome of C20. *)
Theorem c79_same_outcome : forall ss c index, well_formed ss -> has_schedule c ss ->
  caught (minute_index_outcome c index) = minute_index_to_session_labels c index.
Proof.
  intros ss c index Hwf Hc. unfold minute_index_outcome, minute_index_to_session_labels.
  destruct (is_monotonic_increasing index); [|reflexivity]. cbn [negb].
  pose proof (has_schedule_cols c ss Hc) as Hcols.
  assert (F : forall l, match filter (mismatch c) l with
     | example :: _ => find (fun p => negb (fst p =? snd p))
         (combine (map (fun t => searchsorted_right (opens c) t - 1) l) (map (fun t => searchsorted_left (closes c) t) l)) =
         Some (searchsorted_right (opens c) example - 1, searchsorted_left (closes c) example)
     | [] => find (fun p => negb (fst p =? snd p))
         (combine (map (fun t => searchsorted_right (opens c) t - 1) l) (map (fun t => searchsorted_left (closes c) t) l)) = None
     end).
  { induction l as [|t l IH]; [reflexivity|]. cbn [filter map combine find fst snd]. unfold mismatch at 1.
    destruct (negb (searchsorted_right (opens c) t - 1 =? searchsorted_left (closes c) t)); [reflexivity|exact IH]. }
  specialize (F index). destruct (filter (mismatch c) index) as [|t bad] eqn:Ef; rewrite F.
  - destruct (mapM _ _); reflexivity.
  - assert (Z1 : forall i, pyget (opens c) i = match pyget ss i with Ok s => Ok (s_open s) | Raise e => Raise e end).
    { intros i. rewrite (col_opens _ _ Hcols). apply pyget_map. }
    assert (Z2 : forall i, pyget (closes c) i = match pyget ss i with Ok s => Ok (s_close s) | Raise e => Raise e end).
    { intros i. rewrite (col_closes _ _ Hcols). apply pyget_map. }
    assert (Z3 : forall i, pyget (sessions c) i = match pyget ss i with Ok s => Ok (s_label s) | Raise e => Raise e end).
    { intros i. rewrite (col_sessions _ _ Hcols). apply pyget_map. }
    rewrite !Z1, !Z2, !Z3. destruct (pyget ss (searchsorted_right (opens c) t - 1)); cbn [bind caught]; [|reflexivity].
    destruct (pyget ss (searchsorted_right (opens c) t - 1 + 1)); reflexivity.
Qed.

(** The report tells how many minutes are outside all sessions and the earliest of them,
    the first session that opens after it, and the last session that closed before it
    if there is one. *)
Theorem c79_report : forall ss c index r, well_formed ss -> has_schedule c ss ->
  minute_index_outcome c index = NonMarket r ->
  let bad := filter (fun t => negb (in_session ss t)) index in
  num r = zlen bad /\ Schedule.least (fun t => In t bad) (first_bad r) /\
  (exists before next after, ss = before ++ next :: after /\
     next_open r = s_open next /\ next_close r = s_close next /\
     first_bad r < s_open next /\ (forall s, In s before -> s_close s < first_bad r) /\
     (before <> [] -> exists earlier prev, before = earlier ++ [prev] /\
        prev_open r = s_open prev /\ prev_close r = s_close prev)).
Proof.
  intros ss c index r Hwf Hc E bad. unfold minute_index_outcome in E.
  pose proof (has_schedule_cols c ss Hc) as Hcols.
  destruct (is_monotonic_increasing index) eqn:M; [|discriminate]. cbn [negb] in E. apply monotonic_sorted in M.
  rewrite (filter_ext _ _ (mismatch_iff c ss Hwf Hc)) in E. fold bad in E.
  destruct bad as [|t others] eqn:Eb; [destruct (mapM _ _); discriminate|].
  assert (Ht : in_session ss t = false).
  { assert (I1 : In t (filter (fun t => negb (in_session ss t)) index)) by (fold bad; rewrite Eb; left; reflexivity).
    apply filter_In in I1. destruct I1 as [_ I1]. apply negb_true_iff in I1. exact I1. }
  assert (Sb : StronglySorted Z.le (t :: others)).
  { rewrite <- Eb. subst bad. clear - M. induction M as [|x l S IH F]; [constructor|]. cbn [filter].
    destruct (negb (in_session ss x)); [|exact IH]. constructor; [exact IH|].
    rewrite Forall_forall in *. intros y Y. apply filter_In in Y. apply F. apply Y. }
  destruct (locate ss t Hwf) as [ss1 s ss2 Es H1 D H2|ss1 ss2 Es H1 H2].
  { exfalso. apply not_true_iff_false in Ht. apply Ht. apply in_session_iff. exists s. split; [|exact D].
    rewrite Es. apply in_app_iff. right. left. reflexivity. }
  rewrite (opens_right_between c ss Hwf Hc ss1 ss2 t Es H1 H2) in E.
  destruct ss2 as [|next ss2].
  { exfalso. rewrite app_nil_r in Es. subst ss1. cbv zeta in E.
    replace (zlen ss - 1 + 1) with (zlen ss) in E by lia.
    assert (N : pyget (opens c) (zlen ss) = Raise IndexError).
    { rewrite (col_opens _ _ Hcols), pyget_map, pyget_end. reflexivity. }
    rewrite N in E. destruct (pyget (opens c) (zlen ss - 1)); [|discriminate]. cbn [bind] in E.
    destruct (pyget (closes c) (zlen ss - 1)); discriminate. }
  cbv zeta in E. replace (zlen ss1 - 1 + 1) with (zlen ss1) in E by lia.
  assert (N1 : pyget (opens c) (zlen ss1) = Ok (s_open next)) by (rewrite (col_opens _ _ Hcols), Es; apply pyget_col).
  assert (N2 : pyget (closes c) (zlen ss1) = Ok (s_close next)) by (rewrite (col_closes _ _ Hcols), Es; apply pyget_col).
  rewrite N1, N2 in E.
  destruct (pyget (opens c) (zlen ss1 - 1)) as [po|] eqn:P1; [|discriminate].
  destruct (pyget (closes c) (zlen ss1 - 1)) as [pc|] eqn:P2; [|discriminate].
  cbn [bind] in E. injection E as <-. cbn [num first_bad prev_open prev_close next_open next_close].
  split; [reflexivity|]. split.
  { split; [left; reflexivity|]. intros y [<-|Y]; [lia|]. inversion Sb as [|? ? _ F]. rewrite Forall_forall in F. apply F. exact Y. }
  exists ss1, next, ss2. split; [exact Es|]. split; [reflexivity|]. split; [reflexivity|].
  rewrite Forall_forall in H1, H2. split; [apply H2; left; reflexivity|]. split; [exact H1|].
  intros Hne. destruct (exists_last Hne) as [earlier [prev Ep]]. exists earlier, prev. split; [exact Ep|].
  rewrite Ep, zlen_app in P1, P2. change (zlen [prev]) with 1 in P1, P2.
  replace (zlen earlier + 1 - 1) with (zlen earlier) in P1, P2 by lia.
  rewrite (col_opens _ _ Hcols), Es, Ep, <- app_assoc in P1. cbn [app] in P1. rewrite pyget_col in P1.
  rewrite (col_closes _ _ Hcols), Es, Ep, <- app_assoc in P2. cbn [app] in P2. rewrite pyget_col in P2.
  split; congruence.
Qed.

(** But before the first session, the last session of the calendar is reported as the
    previous one. *)
Theorem c79_previous_refuted : forall ss c t, well_formed ss -> has_schedule c ss ->
  (forall s, In s ss -> t < s_open s) ->
  exists first last r, ss = first :: tl ss /\ ss = removelast ss ++ [last] /\
    minute_index_outcome c [t] = NonMarket r /\
    next_open r = s_open first /\ prev_open r = s_open last /\ prev_close r = s_close last /\ first_bad r < prev_open r.
Proof.
  intros ss c t Hwf Hc Ht. pose proof (has_schedule_cols c ss Hc) as Hcols. pose proof (col_nonempty _ _ Hcols) as Hne.
  destruct ss as [|first rest] eqn:Es; [congruence|]. rewrite <- Es in *.
  destruct (exists_last Hne) as [front [last El]].
  assert (R0 : searchsorted_right (opens c) t = 0).
  { apply (opens_right_between c ss Hwf Hc [] ss t eq_refl); [constructor|]. apply Forall_forall. exact Ht. }
  assert (In0 : in_session ss t = false).
  { apply not_true_iff_false. rewrite in_session_iff. intros [s [Hs D]]. specialize (Ht s Hs). unfold during in D. lia. }
  exists first, last. eexists. split; [rewrite Es; reflexivity|].
  split; [rewrite El, removelast_last; reflexivity|].
  assert (P1 : pyget (opens c) (-1) = Ok (s_open last)).
  { rewrite (col_opens _ _ Hcols), El, map_app. apply pyget_last. }
  assert (P2 : pyget (closes c) (-1) = Ok (s_close last)).
  { rewrite (col_closes _ _ Hcols), El, map_app. apply pyget_last. }
  assert (N1 : pyget (opens c) 0 = Ok (s_open first)) by (rewrite (col_opens _ _ Hcols), Es; apply (pyget_col s_open [] first rest)).
  assert (N2 : pyget (closes c) 0 = Ok (s_close first)) by (rewrite (col_closes _ _ Hcols), Es; apply (pyget_col s_close [] first rest)).
  split.
  { unfold minute_index_outcome. cbn [is_monotonic_increasing negb filter]. rewrite (mismatch_iff c ss Hwf Hc), In0. cbn [negb].
    rewrite R0. cbv zeta. change (0 - 1) with (-1). change (-1 + 1) with 0. rewrite P1, P2, N1, N2. cbn [bind]. reflexivity. }
  cbn [next_open prev_open prev_close first_bad]. repeat split. apply Ht. rewrite El. apply in_app_iff. right. left. reflexivity.
Qed.

(** ** The hypotheses are met *)

Example c79_text_example :
  str_error (CyclicCalendarAlias ["it's"; "a{0}"; "it's"]%string) =
    Some (Ok ("Cycle in calendar aliases: [" ++ String double_quote ("it's" ++ String double_quote (" -> 'a{0}' -> "
      ++ String double_quote ("it's" ++ String double_quote "]"))))%string) /\
  str_error (InvalidCalendarName "{calendar_name}") =
    Some (Ok "The requested TradingCalendar, {calendar_name}, does not exist."%string) /\
  str_error (CalendarNameCollision "X") = Some (Ok "A calendar with the name X is already registered."%string).
Proof. repeat split; reflexivity. Qed.
Example c79_register_cycle_example :
  acyclic ex_disp /\
  fst (register_calendar_alias ex_disp "y" "z" false) = Raises (CyclicCalendarAlias ["y"; "z"; "y"]%string) /\
  fst (register_calendar_alias ex_disp "a" "c" true) = Raises (CyclicCalendarAlias ["a"; "c"; "b"; "a"]%string).
Proof. split; [exact ex_disp_acyclic|]. split; vm_compute; reflexivity. Qed.
Example c79_resolve_cycle_example :
  resolve_alias (Dispatcher [] [] [("n", "x"); ("x", "y"); ("y", "x")]%string []) "n" =
  Raises (CyclicCalendarAlias ["n"; "x"; "y"; "x"]%string).
Proof. vm_compute. reflexivity. Qed.
Example c79_report_example :
  minute_index_outcome ex_cal [ex_day 1 + ex_min 600; ex_day 2 + ex_min 60; ex_day 2 + ex_min 600; ex_day 3] =
  NonMarket (Report 2 (ex_day 2 + ex_min 60) (ex_day 1 + ex_min 570) (ex_day 1 + ex_min 960)
    (ex_day 2 + ex_min 570) (ex_day 2 + ex_min 780)).
Proof. vm_compute. reflexivity. Qed.
Example c79_previous_example : forall s, In s ex_ss -> ex_day 1 < s_open s.
Proof. intros s [<-|[<-|[<-|[]]]]; reflexivity. Qed.

(** ** Assumptions *)
Print Assumptions c79_has_text.
Print Assumptions c79_text_tells.
Print Assumptions c79_texts.
Print Assumptions c79_quoted.
Print Assumptions c79_resolve_cycle.
Print Assumptions c79_register_cycle.
Print Assumptions c79_same_outcome.
Print Assumptions c79_report.
Print Assumptions c79_previous_refuted.
