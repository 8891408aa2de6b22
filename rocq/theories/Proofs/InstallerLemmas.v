(** Lemmas about the installer of versioneer.py. *)
From Coq Require Import String Ascii NArith Lia List Bool Arith.
From Verif.Model Require Import Version Versioneer Installer.
From Verif.Spec Require Import Git Distribution Installation.
From Verif.Proofs Require Import VersionLemmas.
Import ListNotations.
Open Scope string_scope.

(** ** Characters *)
Lemma is_space_iff : forall a, is_space a = true <-> blank a.
Proof.
  intros a. unfold is_space, blank. rewrite !orb_true_iff, !andb_true_iff, !N.leb_le, N.eqb_eq. rewrite <- (code_N a).
  assert (H : forall n m, (n <= m)%N <-> N.to_nat n <= N.to_nat m) by (intros; lia).
  rewrite !H. change (N.to_nat 9) with 9. change (N.to_nat 13) with 13. change (N.to_nat 28) with 28. change (N.to_nat 31) with 31.
  split.
  - intros [[Q|Q]|Q]; [left; exact Q|right; left; lia|right; right; exact Q].
  - intros [Q|[Q|Q]]; [left; left; exact Q|left; right; lia|right; exact Q].
Qed.
Lemma not_space_iff : forall a, is_space a = false <-> ~ blank a.
Proof. intros a. rewrite <- is_space_iff. destruct (is_space a); split; congruence. Qed.
Lemma every_blank : forall s, every blank s -> every (fun a => is_space a = true) s.
Proof. intros s. apply every_impl. intros a. apply is_space_iff. Qed.
Lemma every_not_blank : forall s, every (fun a => ~ blank a) s <-> every (fun a => is_space a = false) s.
Proof. intros s. split; apply every_impl; intros a; apply not_space_iff. Qed.
Lemma word_not_blank : forall s, every visible s -> every (fun a => is_space a = false) s.
Proof. intros s. apply every_impl, visible_not_space. Qed.
Lemma word_no_nl : forall s, every visible s -> every (other_than "010") s.
Proof. intros s. apply every_impl. intros a H ->. cbv in H. lia. Qed.

(** ** Lines *)
Lemma readlines_nl : forall a b, every (other_than "010") a -> readlines (a ++ nl ++ b) = (a ++ nl) :: readlines b.
Proof.
  induction a as [|x a IH]; intros b H; [reflexivity|]. destruct H as [Hx H]. cbn [append readlines].
  destruct (Ascii.eqb_spec x "010"); [contradiction|]. change (String "010" b) with (nl ++ b) in IH.
  rewrite IH by exact H. reflexivity.
Qed.
Lemma readlines_one : forall a, every (other_than "010") a -> a <> "" -> readlines a = [a].
Proof.
  induction a as [|x a IH]; intros H N; [congruence|]. destruct H as [Hx H]. cbn [readlines].
  destruct (Ascii.eqb_spec x "010"); [contradiction|]. destruct a as [|y a]; [reflexivity|]. rewrite IH; [reflexivity|exact H|discriminate].
Qed.
Lemma readlines_ended : forall h b, readlines ((h ++ nl) ++ b) = (readlines (h ++ nl) ++ readlines b)%list.
Proof.
  induction h as [|x h IH]; intros b; [reflexivity|]. cbn [append readlines].
  destruct (Ascii.eqb x "010"); rewrite IH; [reflexivity|].
  destruct (readlines (h ++ nl)) as [|l ls] eqn:E; [|reflexivity].
  exfalso. clear IH. destruct h as [|y h]; cbn [append readlines] in E; [discriminate|].
  destruct (Ascii.eqb y "010"); [discriminate|]. destruct (readlines (h ++ nl)); discriminate.
Qed.
Lemma split_line : forall s, every (other_than "010") s \/ exists h t, every (other_than "010") h /\ s = h ++ nl ++ t.
Proof.
  induction s as [|x s IH]; [left; exact I|]. destruct (Ascii.eqb_spec x "010") as [->|N].
  - right. exists "", s. split; [exact I|reflexivity].
  - destruct IH as [H|[h [t [H ->]]]]; [left; split; [exact N|exact H]|].
    right. exists (String x h), t. split; [split; [exact N|exact H]|reflexivity].
Qed.
Lemma length_app2 : forall a b, String.length (a ++ b) = String.length a + String.length b.
Proof. induction a as [|x a IH]; intros b; [reflexivity|]. cbn. rewrite IH. reflexivity. Qed.
Lemma lines_ind : forall P : string -> Prop,
  (forall h, every (other_than "010") h -> P h) ->
  (forall h t, every (other_than "010") h -> P t -> P (h ++ nl ++ t)) -> forall s, P s.
Proof.
  intros P A B s. remember (String.length s) as n eqn:E. revert s E.
  induction n as [n IH] using lt_wf_ind. intros s E. destruct (split_line s) as [H|[h [t [H ->]]]]; [apply A; exact H|].
  apply B; [exact H|]. apply (IH (String.length t)); [|reflexivity]. rewrite E, !length_app2. cbn. lia.
Qed.
Lemma readlines_lines : forall s x, In x (readlines s) -> exists l, is_line l s /\ (x = l ++ nl \/ x = l).
Proof.
  apply (lines_ind (fun s => forall x, In x (readlines s) -> exists l, is_line l s /\ (x = l ++ nl \/ x = l))).
  - intros h H x Q. destruct h as [|a h]; [contradiction|]. rewrite readlines_one in Q; [|exact H|discriminate].
    destruct Q as [<-|[]]. exists (String a h). split; [|right; reflexivity]. split; [exact H|].
    exists "", "". rewrite app_empty. repeat split; left; reflexivity.
  - intros h t H IH x Q. rewrite readlines_nl in Q by exact H. destruct Q as [<-|Q].
    + exists h. split; [|left; reflexivity]. split; [exact H|]. exists "", (nl ++ t). split; [reflexivity|].
      split; [left; reflexivity|right; exists t; reflexivity].
    + destruct (IH x Q) as [l [[N [a [b [-> [A B]]]]] X]]. exists l. split; [|exact X]. split; [exact N|].
      exists (h ++ nl ++ a), b. split; [rewrite !app_assoc; reflexivity|]. split; [|exact B]. right.
      destruct A as [->|[a' ->]]; [exists h; rewrite app_empty; reflexivity|]. exists (h ++ nl ++ a'). rewrite !app_assoc. reflexivity.
Qed.
Lemma lines_readlines : forall s l, is_line l s -> l <> "" -> exists x, In x (readlines s) /\ (x = l ++ nl \/ x = l).
Proof.
  intros s l [N [a [b [-> [A B]]]]] E.
  assert (Q : exists x, In x (readlines (l ++ b)) /\ (x = l ++ nl \/ x = l)).
  { destruct B as [->|[b' ->]].
    - rewrite app_empty, readlines_one by assumption. exists l. split; [left; reflexivity|right; reflexivity].
    - change newline with nl. rewrite readlines_nl by exact N. exists (l ++ nl). split; [left; reflexivity|left; reflexivity]. }
  destruct A as [->|[a' ->]]; [exact Q|]. destruct Q as [x [Q X]]. exists x. split; [|exact X].
  change newline with nl. rewrite readlines_ended. apply in_or_app. right. exact Q.
Qed.

(** ** Words *)
Lemma pieces_not_nil : forall p s, pieces_by p s <> [].
Proof. intros p [|a s]; [discriminate|]. cbn. destruct (p a); [discriminate|]. destruct (pieces_by p s); discriminate. Qed.
Lemma pieces_app : forall p a c b, p c = true -> pieces_by p (a ++ String c b) = (pieces_by p a ++ pieces_by p b)%list.
Proof.
  intros p a c b H. induction a as [|x a IH]; cbn [append pieces_by]; [rewrite H; reflexivity|].
  destruct (p x); rewrite IH; [reflexivity|]. pose proof (pieces_not_nil p a). destruct (pieces_by p a); [congruence|reflexivity].
Qed.
Lemma pieces_one : forall p a, every (fun c => p c = false) a -> pieces_by p a = [a].
Proof.
  intros p a. induction a as [|x a IH]; intros H; [reflexivity|]. destruct H as [Hx H]. cbn [pieces_by]. rewrite Hx, IH by exact H. reflexivity.
Qed.
Lemma words_app : forall a c b, is_space c = true -> words (a ++ String c b) = (words a ++ words b)%list.
Proof. intros a c b H. unfold words. rewrite pieces_app by exact H. apply filter_app. Qed.
Lemma words_one : forall a, every (fun c => is_space c = false) a -> a <> "" -> words a = [a].
Proof. intros a H N. unfold words. rewrite pieces_one by exact H. destruct a; [congruence|reflexivity]. Qed.
Lemma words_blank : forall a, every (fun c => is_space c = true) a -> words a = [].
Proof.
  induction a as [|x a IH]; intros H; [reflexivity|]. destruct H as [Hx H].
  change (String x a) with ("" ++ String x a). rewrite words_app by exact Hx. rewrite IH by exact H. reflexivity.
Qed.
Lemma words_blank_l : forall a b, every (fun c => is_space c = true) a -> words (a ++ b) = words b.
Proof.
  induction a as [|x a IH]; intros b H; [reflexivity|]. destruct H as [Hx H]. cbn [append].
  change (String x (a ++ b)) with ("" ++ String x (a ++ b)). rewrite words_app by exact Hx. rewrite IH by exact H. reflexivity.
Qed.
Lemma words_blank_r : forall a b, every (fun c => is_space c = true) b -> words (a ++ b) = words a.
Proof.
  intros a [|x b] H; [rewrite app_empty; reflexivity|]. destruct H as [Hx H].
  rewrite words_app by exact Hx. rewrite (words_blank b) by exact H. apply app_nil_r.
Qed.
Lemma split_word : forall s, every (fun c => is_space c = false) s \/
  exists h c t, every (fun c => is_space c = false) h /\ is_space c = true /\ s = h ++ String c t.
Proof.
  induction s as [|x s IH]; [left; exact I|]. destruct (is_space x) eqn:E.
  - right. exists "", x, s. split; [exact I|split; [exact E|reflexivity]].
  - destruct IH as [H|[h [c [t [H [C ->]]]]]]; [left; split; [exact E|exact H]|].
    right. exists (String x h), c, t. split; [split; [exact E|exact H]|split; [exact C|reflexivity]].
Qed.
Lemma words_ind : forall P : string -> Prop,
  (forall h, every (fun c => is_space c = false) h -> P h) ->
  (forall h c t, every (fun c => is_space c = false) h -> is_space c = true -> P t -> P (h ++ String c t)) -> forall s, P s.
Proof.
  intros P A B s. remember (String.length s) as n eqn:E. revert s E.
  induction n as [n IH] using lt_wf_ind. intros s E. destruct (split_word s) as [H|[h [c [t [H [C ->]]]]]]; [apply A; exact H|].
  apply B; [exact H|exact C|]. apply (IH (String.length t)); [|reflexivity]. rewrite E, length_app2. cbn. lia.
Qed.
Lemma words_is_word : forall s w, In w (words s) -> is_word w s.
Proof.
  apply (words_ind (fun s => forall w, In w (words s) -> is_word w s)).
  - intros h H w Q. destruct h as [|a h]; [contradiction|]. rewrite words_one in Q; [|exact H|discriminate].
    destruct Q as [<-|[]]. split; [discriminate|]. split; [apply every_not_blank; exact H|].
    exists "", "". rewrite app_empty. repeat split; left; reflexivity.
  - intros h c t H C IH w Q. rewrite words_app in Q by exact C. apply in_app_or in Q. destruct Q as [Q|Q].
    + destruct h as [|a h]; [contradiction|]. rewrite words_one in Q; [|exact H|discriminate].
      destruct Q as [<-|[]]. split; [discriminate|]. split; [apply every_not_blank; exact H|].
      exists "", (String c t). split; [reflexivity|]. split; [left; reflexivity|]. right. exists c, t. split; [reflexivity|apply is_space_iff; exact C].
    + destruct (IH w Q) as [N [V [a [b [-> [A B]]]]]]. split; [exact N|]. split; [exact V|].
      exists (h ++ String c a), b. split; [rewrite app_assoc; reflexivity|]. split; [|exact B]. right.
      destruct A as [->|[a' [d [-> D]]]].
      * exists h, c. split; [reflexivity|apply is_space_iff; exact C].
      * exists (h ++ String c a'), d. split; [rewrite app_assoc; reflexivity|exact D].
Qed.
Lemma is_word_words : forall s w, is_word w s -> In w (words s).
Proof.
  intros s w [N [V [a [b [-> [A B]]]]]]. apply every_not_blank in V.
  assert (Q : In w (words (w ++ b))).
  { destruct B as [->|[c [b' [-> C]]]].
    - rewrite app_empty, words_one by assumption. left. reflexivity.
    - apply is_space_iff in C. rewrite words_app by exact C. rewrite words_one by assumption. left. reflexivity. }
  destruct A as [->|[a' [c [-> C]]]]; [exact Q|]. apply is_space_iff in C. rewrite app_assoc. cbn [append].
  rewrite words_app by exact C. apply in_or_app. right. exact Q.
Qed.

(** ** strip *)
Lemma lstrip_split : forall s, exists t, every (fun c => is_space c = true) t /\ s = t ++ lstrip is_space s.
Proof.
  induction s as [|x s [t [T E]]]; [exists ""; split; [exact I|reflexivity]|]. cbn [lstrip]. destruct (is_space x) eqn:X.
  - exists (String x t). split; [split; assumption|]. cbn [append]. f_equal. exact E.
  - exists "". split; [exact I|reflexivity].
Qed.
Lemma rstrip_split : forall s, exists t, every (fun c => is_space c = true) t /\ s = rstrip is_space s ++ t.
Proof.
  induction s as [|x s [t [T E]]]; [exists ""; split; [exact I|reflexivity]|]. cbn [rstrip].
  destruct (rstrip is_space s) as [|y r] eqn:R.
  - cbn [append] in E. subst s. destruct (is_space x) eqn:X.
    + exists (String x t). split; [split; assumption|reflexivity].
    + exists t. split; [exact T|reflexivity].
  - exists t. split; [exact T|]. cbn [append]. f_equal. exact E.
Qed.
Lemma strip_split : forall s, exists a b, every (fun c => is_space c = true) a /\ every (fun c => is_space c = true) b /\ s = a ++ strip s ++ b.
Proof.
  intros s. destruct (lstrip_split s) as [a [A E]]. destruct (rstrip_split (lstrip is_space s)) as [b [B F]].
  exists a, b. split; [exact A|]. split; [exact B|]. unfold strip, strip_of. rewrite <- F. exact E.
Qed.
Lemma words_strip : forall s, words (strip s) = words s.
Proof.
  intros s. destruct (strip_split s) as [a [b [A [B E]]]]. rewrite E at 2. rewrite words_blank_l by exact A.
  rewrite words_blank_r by exact B. reflexivity.
Qed.
Lemma rstrip_word : forall u t, every (fun c => is_space c = false) u -> u <> "" -> rstrip is_space (u ++ t) = u ++ rstrip is_space t.
Proof.
  induction u as [|x u IH]; intros t H N; [congruence|]. destruct H as [Hx H]. cbn [append rstrip].
  destruct u as [|y u].
  - cbn [append]. rewrite Hx. destruct (rstrip is_space t); reflexivity.
  - rewrite IH; [|exact H|discriminate]. reflexivity.
Qed.
Lemma strip_word : forall i u t, every (fun c => is_space c = true) i -> every (fun c => is_space c = false) u -> u <> "" ->
  strip (i ++ u ++ t) = u ++ rstrip is_space t.
Proof.
  intros i u t I U N. unfold strip, strip_of. rewrite lstrip_keep by exact I.
  destruct u as [|x u]; [congruence|]. pose proof U as [X _]. cbn [append]. rewrite lstrip_visible by exact X.
  exact (rstrip_word (String x u) t U N).
Qed.

(** ** The three files *)
Lemma is_prefix_app : forall p s, is_prefix_of p (p ++ s) = true.
Proof. intros p s. unfold is_prefix_of. rewrite after_prefix_app. reflexivity. Qed.
Lemma is_prefix_some : forall p s, is_prefix_of p s = true -> exists t, s = p ++ t.
Proof.
  intros p s H. unfold is_prefix_of in H. destruct (after_prefix p s) as [t|] eqn:E; [|discriminate].
  exists t. apply after_prefix_some. exact E.
Qed.
Lemma has_In : forall w l, has w l = true <-> In w l.
Proof.
  intros w l. unfold has. rewrite existsb_exists. split.
  - intros [x [H E]]. apply String.eqb_eq in E. subst x. exact H.
  - intros H. exists w. split; [exact H|apply String.eqb_refl].
Qed.
Lemma prefix_of_line : forall p l t, every (other_than "010") p -> p ++ t = l ++ nl -> exists t', l = p ++ t' /\ t = t' ++ nl.
Proof.
  induction p as [|x p IH]; intros l t H E; [exists l; split; [reflexivity|exact E]|]. destruct H as [X H].
  destruct l as [|y l]; cbn [append] in E.
  - injection E as E1 E2. contradiction.
  - injection E as <- E. destruct (IH l t H E) as [t' [-> ->]]. exists t'. split; reflexivity.
Qed.
Lemma universal_plain : forall s, every (other_than "013") s -> universal s = s.
Proof.
  induction s as [|x s IH]; intros H; [reflexivity|]. destruct H as [X H]. cbn [universal].
  destruct (Ascii.eqb_spec x "013"); [contradiction|]. rewrite IH by exact H. reflexivity.
Qed.
Lemma read_plain : forall f, plain_lines f -> read f = contents f.
Proof. intros [s|] H; [|reflexivity]. apply universal_plain. exact H. Qed.
Definition ended (s : string) : Prop := s = "" \/ exists t c, s = t ++ String c "" /\ (c = "010"%char \/ c = "013"%char).
Lemma universal_app : forall s t, ended s -> (forall t', t <> String "010" t') ->
  universal (s ++ t) = universal s ++ universal t /\ (universal s = "" \/ exists u, universal s = u ++ nl).
Proof.
  induction s as [|x s IH]; intros t E T; [split; [reflexivity|left; reflexivity]|].
  destruct s as [|y s].
  - assert (X : x = "010"%char \/ x = "013"%char).
    { destruct E as [E|[r [c [E C]]]]; [discriminate|]. destruct r as [|z r]; [injection E as ->; exact C|].
      injection E as _ E. destruct r; discriminate. }
    destruct X as [-> | ->].
    + split; [reflexivity|right; exists ""; reflexivity].
    + split; [|right; exists ""; reflexivity]. cbn [append universal]. change (Ascii.eqb "013" "013") with true. cbn iota.
      destruct t as [|b t]; [reflexivity|]. destruct (Ascii.eqb_spec b "010") as [->|N]; [exfalso; exact (T t eq_refl)|reflexivity].
  - assert (E' : ended (String y s)).
    { right. destruct E as [E|[r [c [E C]]]]; [discriminate|]. destruct r as [|z r]; [discriminate|]. injection E as -> E.
      exists r, c. split; [exact E|exact C]. }
    destruct (IH t E' T) as [A B]. cbn [append] in A |- *. cbn [universal].
    assert (B' : exists u, universal (String y s) = u ++ nl).
    { destruct B as [B|B]; [|exact B]. exfalso. clear -B. cbn [universal] in B.
      revert y B. induction s as [|z s IH]; intros y B; cbn [universal] in B; destruct (Ascii.eqb y "013"); try discriminate.
      destruct (Ascii.eqb z "010"); [exact (IH z B)|discriminate]. }
    destruct B' as [u U].
    cbn [universal] in A, U |- *.
    destruct (Ascii.eqb x "013").
    + destruct (Ascii.eqb y "010").
      * split; [exact A|right; exists u; exact U].
      * split; [cbn [append]; f_equal; exact A|right; exists (String "010" u); cbn [append]; f_equal; exact U].
    + split; [cbn [append]; f_equal; exact A|right; exists (String x u); cbn [append]; f_equal; exact U].
Qed.
Lemma readlines_more : forall s t, ended s -> (forall t', t <> String "010" t') ->
  readlines (universal (s ++ t)) = (readlines (universal s) ++ readlines (universal t))%list.
Proof.
  intros s t E T. destruct (universal_app s t E T) as [-> [U|[u U]]]; rewrite U; [reflexivity|]. apply readlines_ended.
Qed.

(** ** MANIFEST.in *)
Lemma simple_includes_contents : forall f, simple_includes f = simple_includes (Some (contents f)).
Proof. intros [s|]; reflexivity. Qed.
Lemma contents_append : forall f t, contents (append_to f t) = contents f ++ t.
Proof. intros [s|] t; reflexivity. Qed.
Lemma includes_more : forall f t, ended (contents f) -> (forall t', t <> String "010" t') ->
  simple_includes (append_to f t) = (simple_includes f ++ simple_includes (Some t))%list.
Proof.
  intros f t E T. rewrite simple_includes_contents, contents_append, (simple_includes_contents f). unfold simple_includes. cbn [read].
  rewrite readlines_more by assumption. apply flat_map_app.
Qed.
Lemma visible_not_cr : forall s, every visible s -> every (other_than "013") s.
Proof. intros s. apply every_impl. intros a H ->. cbv in H. lia. Qed.
Lemma include_line : forall p, word p -> simple_includes (Some ("include " ++ p ++ nl)) = [p].
Proof.
  intros p [N V]. unfold simple_includes. cbn [read].
  rewrite universal_plain by (apply every_app; split; [repeat split; discriminate|apply every_app; split; [apply visible_not_cr; exact V|repeat split; discriminate]]).
  replace ("include " ++ p ++ nl) with (("include " ++ p) ++ nl ++ "") by (rewrite app_assoc; reflexivity).
  rewrite readlines_nl by (apply every_app; split; [repeat split; discriminate|apply word_no_nl; exact V]).
  cbn [readlines flat_map]. rewrite app_assoc, is_prefix_app, app_nil_r.
  change ("include " ++ p ++ nl) with ("include" ++ String " " (p ++ nl)). rewrite words_app by reflexivity.
  rewrite words_blank_r by (split; [reflexivity|exact I]). rewrite (words_one p); [|apply word_not_blank; exact V|exact N]. reflexivity.
Qed.
Lemma include_start : forall p t', "include " ++ p ++ nl <> String "010" t'.
Proof. intros p t'. discriminate. Qed.
Lemma ended_line : forall f p, ended (contents (append_to f ("include " ++ p ++ nl))).
Proof.
  intros f p. right. exists (contents f ++ "include " ++ p), "010"%char. rewrite contents_append. split; [|left; reflexivity].
  rewrite !app_assoc. reflexivity.
Qed.
Lemma include_more : forall f p, ended (contents f) -> word p ->
  simple_includes (append_to f ("include " ++ p ++ nl)) = (simple_includes f ++ [p])%list.
Proof. intros f p E W. rewrite includes_more; [|exact E|apply include_start]. rewrite include_line by exact W. reflexivity. Qed.
Lemma versioneer_word : word "versioneer.py".
Proof. split; [discriminate|]. cbn [every]. unfold visible, code. cbn. repeat split; lia. Qed.
Lemma manifest_includes : forall p f, word p -> ended (contents f) ->
  exists l, simple_includes (install_manifest p f) = (simple_includes f ++ l)%list /\
    In "versioneer.py" (simple_includes (install_manifest p f)) /\ In p (simple_includes (install_manifest p f)).
Proof.
  intros p f W E. unfold install_manifest. cbv zeta. change ("include versioneer.py" ++ nl) with ("include " ++ "versioneer.py" ++ nl).
  destruct (has "versioneer.py" (simple_includes f)) eqn:H1; destruct (has p (simple_includes f)) eqn:H2.
  - apply has_In in H1, H2. exists []. rewrite app_nil_r. repeat split; assumption.
  - apply has_In in H1. rewrite include_more by assumption. exists [p]. split; [reflexivity|].
    split; apply in_or_app; [left; exact H1|right; left; reflexivity].
  - apply has_In in H2. rewrite include_more by (exact E || exact versioneer_word). exists ["versioneer.py"]. split; [reflexivity|].
    split; apply in_or_app; [right; left; reflexivity|left; exact H2].
  - rewrite include_more; [|apply ended_line|exact W]. rewrite include_more by (exact E || exact versioneer_word).
    exists ["versioneer.py"; p]. rewrite <- List.app_assoc. split; [reflexivity|]. split; apply in_or_app; right; [left; reflexivity|right; left; reflexivity].
Qed.
Lemma manifest_same : forall p f, In "versioneer.py" (simple_includes f) -> In p (simple_includes f) -> install_manifest p f = f.
Proof. intros p f H1 H2. apply has_In in H1, H2. unfold install_manifest. cbv zeta. rewrite H1, H2. reflexivity. Qed.
Lemma manifest_ended : forall p f, install_manifest p f = f \/ ended (contents (install_manifest p f)).
Proof.
  intros p f. unfold install_manifest. cbv zeta. change ("include versioneer.py" ++ nl) with ("include " ++ "versioneer.py" ++ nl).
  destruct (has "versioneer.py" (simple_includes f)); destruct (has p (simple_includes f)); [left; reflexivity| | |]; right; apply ended_line.
Qed.
Lemma manifest_again : forall p f, word p -> ended (contents f) -> install_manifest p (install_manifest p f) = install_manifest p f.
Proof. intros p f W E. destruct (manifest_includes p f W E) as [l [_ [A B]]]. apply manifest_same; assumption. Qed.
Lemma manifest_settles : forall p f, word p ->
  install_manifest p (install_manifest p (install_manifest p f)) = install_manifest p (install_manifest p f).
Proof.
  intros p f W. destruct (manifest_ended p f) as [E|E]; [rewrite !E; reflexivity|]. apply manifest_again; assumption.
Qed.
Lemma included_iff : forall p f, plain_lines f -> In p (simple_includes f) <-> included p (contents f).
Proof.
  intros p f C. unfold simple_includes. rewrite read_plain by exact C. rewrite in_flat_map. split.
  - intros [x [X Q]]. destruct (is_prefix_of "include " x) eqn:E; [|contradiction]. apply is_prefix_some in E. destruct E as [t ->].
    change ("include " ++ t) with ("include" ++ String " " t) in Q. rewrite words_app in Q by reflexivity. change (words "include") with ["include"] in Q.
    cbn [List.app tl] in Q.
    destruct (readlines_lines _ _ X) as [l [L [Y|Y]]].
    + destruct (prefix_of_line "include " l t) as [r [-> ->]]; [repeat split; discriminate|exact Y|]. exists r. split; [exact L|].
      rewrite words_blank_r in Q by (split; [reflexivity|exact I]). apply words_is_word. exact Q.
    + subst l. exists t. split; [exact L|]. apply words_is_word. exact Q.
  - intros [r [L Q]]. apply is_word_words in Q. destruct (lines_readlines _ _ L) as [x [X Y]]; [discriminate|]. exists x. split; [exact X|].
    assert (Z : exists t, x = "include " ++ t /\ words t = words r).
    { destruct Y as [-> | ->]; [exists (r ++ nl); rewrite app_assoc; split; [reflexivity|]; apply words_blank_r; split; [reflexivity|exact I]|].
      exists r. split; reflexivity. }
    destruct Z as [t [-> T]]. rewrite is_prefix_app. change ("include " ++ t) with ("include" ++ String " " t). rewrite words_app by reflexivity.
    change (words "include") with ["include"]. cbn [List.app tl]. rewrite T. exact Q.
Qed.

(** ** .gitattributes *)
Lemma present_contents : forall p f, is_present p f = is_present p (Some (contents f)).
Proof. intros p [s|]; reflexivity. Qed.
Lemma attribute_line : forall p, word p -> is_present p (Some (p ++ " export-subst" ++ nl)) = true.
Proof.
  intros p [N V]. unfold is_present. cbn [read].
  rewrite universal_plain by (apply every_app; split; [apply visible_not_cr; exact V|repeat split; discriminate]).
  replace (p ++ " export-subst" ++ nl) with ((p ++ " export-subst") ++ nl ++ "") by (rewrite app_assoc; reflexivity).
  rewrite readlines_nl by (apply every_app; split; [apply word_no_nl; exact V|repeat split; discriminate]).
  cbn [readlines existsb]. rewrite orb_false_r. unfold marking. rewrite words_strip.
  assert (S : strip ((p ++ " export-subst") ++ nl) = p ++ rstrip is_space (" export-subst" ++ nl)).
  { rewrite app_assoc. apply (strip_word "" p); [exact I|apply word_not_blank; exact V|exact N]. }
  rewrite S, is_prefix_app. rewrite app_assoc. change (" export-subst" ++ nl) with (String " " ("export-subst" ++ nl)). rewrite words_app by reflexivity.
  rewrite words_one; [|apply word_not_blank; exact V|exact N]. reflexivity.
Qed.
Lemma present_more : forall p f t, ended (contents f) -> (forall t', t <> String "010" t') ->
  is_present p (append_to f t) = is_present p f || is_present p (Some t).
Proof.
  intros p f t E T. rewrite present_contents, contents_append, (present_contents p f). unfold is_present. cbn [read].
  rewrite readlines_more by assumption. apply existsb_app.
Qed.
Lemma word_start : forall p t, word p -> forall t', p ++ t <> String "010" t'.
Proof. intros p t [N V] t' E. destruct p as [|a p]; [congruence|]. destruct V as [V _]. injection E as -> _. cbv in V. lia. Qed.
Lemma attributes_present : forall p f, word p -> ended (contents f) -> is_present p (install_attributes p f) = true.
Proof.
  intros p f W E. unfold install_attributes. destruct (is_present p f) eqn:H; [exact H|].
  rewrite present_more; [|exact E|apply word_start; exact W]. rewrite attribute_line by exact W. apply orb_true_r.
Qed.
Lemma attributes_same : forall p f, is_present p f = true -> install_attributes p f = f.
Proof. intros p f H. unfold install_attributes. rewrite H. reflexivity. Qed.
Lemma attributes_ended : forall p f, install_attributes p f = f \/ ended (contents (install_attributes p f)).
Proof.
  intros p f. unfold install_attributes. destruct (is_present p f); [left; reflexivity|right]. right. rewrite contents_append.
  exists (contents f ++ p ++ " export-subst"), "010"%char. split; [rewrite !app_assoc; reflexivity|left; reflexivity].
Qed.
Lemma attributes_again : forall p f, word p -> ended (contents f) -> install_attributes p (install_attributes p f) = install_attributes p f.
Proof. intros p f W E. apply attributes_same, attributes_present; assumption. Qed.
Lemma attributes_settles : forall p f, word p ->
  install_attributes p (install_attributes p (install_attributes p f)) = install_attributes p (install_attributes p f).
Proof. intros p f W. destruct (attributes_ended p f) as [E|E]; [rewrite !E; reflexivity|]. apply attributes_again; assumption. Qed.
Lemma marked_present : forall p f, word p -> plain_lines f -> marked p (contents f) -> is_present p f = true.
Proof.
  intros p f [N V] C [i [c [r [Hi [Hc [L Q]]]]]]. apply every_blank in Hi. apply is_space_iff in Hc. apply word_not_blank in V.
  unfold is_present. rewrite read_plain by exact C. apply existsb_exists.
  destruct (lines_readlines _ _ L) as [x [X Y]]; [intros E; apply app_eq_empty in E; destruct E as [_ E]; apply app_eq_empty in E; destruct E; congruence|].
  exists x. split; [exact X|].
  assert (Z : exists t, x = i ++ p ++ String c t /\ words t = words r).
  { destruct Y as [-> | ->]; [|exists r; split; reflexivity]. exists (r ++ nl). split; [rewrite !app_assoc; reflexivity|].
    apply words_blank_r; split; [reflexivity|exact I]. }
  destruct Z as [t [-> T]]. unfold marking. rewrite words_strip, strip_word by assumption. rewrite is_prefix_app.
  rewrite words_blank_l by exact Hi. rewrite words_app by exact Hc. rewrite words_one by assumption. cbn [List.app tl].
  apply has_In. rewrite T. apply is_word_words. exact Q.
Qed.
Lemma app_nl_inj : forall a b, a ++ nl = b ++ nl -> a = b.
Proof.
  induction a as [|x a IH]; intros [|y b] E; [reflexivity| | |].
  - injection E as _ E. destruct b; discriminate.
  - injection E as _ E. destruct a; discriminate.
  - injection E as -> E. f_equal. apply IH. exact E.
Qed.
Lemma present_marked : forall p f, word p -> plain_lines f -> no_longer_name p f -> is_present p f = true -> marked p (contents f).
Proof.
  intros p f [N V] C G H. apply word_not_blank in V. unfold is_present in H. rewrite read_plain in H by exact C. apply existsb_exists in H.
  destruct H as [x [X M]]. unfold marking in M. destruct (is_prefix_of p (strip x)) eqn:E; [|discriminate]. apply is_prefix_some in E.
  destruct E as [t S]. apply has_In in M. rewrite words_strip in M. destruct (strip_split x) as [i [b [Hi [Hb Ex]]]]. rewrite S in Ex.
  destruct (readlines_lines _ _ X) as [l [L Y]].
  assert (Hl : exists r, l = i ++ p ++ r /\ In "export-subst" (tl (words (p ++ r)))).
  { rewrite Ex, words_blank_l, !app_assoc in M by exact Hi. rewrite !app_assoc in Ex.
    destruct Y as [Y|Y]; [|subst l; exists (t ++ b); split; [exact Ex|exact M]].
    rewrite Y in Ex.
    assert (Z : exists r, t ++ b = r ++ nl).
    { clear -Ex N V Y. rewrite <- app_assoc in Ex. revert Ex. generalize (t ++ b) as z. intros z Ex.
      assert (K : forall u z l, u ++ z = l ++ nl -> z = "" \/ exists r, z = r ++ nl).
      { clear. induction u as [|y u IH]; intros z l E; [right; exists l; exact E|]. destruct l as [|w l]; cbn [append] in E.
        - injection E as _ E. apply app_eq_empty in E. left. apply E.
        - injection E as _ E. exact (IH z l E). }
      destruct (K (i ++ p) z l (eq_sym Ex)) as [->|R]; [|exact R]. exfalso. clear K. rewrite app_empty in Ex.
      assert (K : forall u p l, p <> "" -> every (fun c => is_space c = false) p -> l ++ nl = u ++ p -> False).
      { clear. induction u as [|y u IH]; intros p l N V E.
        - cbn [append] in E. subst p. apply every_app in V. destruct V as [_ [V _]]. discriminate.
        - destruct l as [|w l]; cbn [append] in E; injection E as _ E; [symmetry in E; apply app_eq_empty in E; destruct E; contradiction|exact (IH p l N V E)]. }
      exact (K i p l N V Ex). }
    destruct Z as [r R]. exists r. rewrite R in Ex, M. rewrite <- !app_assoc in Ex. apply app_nl_inj in Ex. split; [rewrite Ex, app_assoc; reflexivity|].
    rewrite <- app_assoc, words_blank_r in M by (split; [reflexivity|exact I]). exact M. }
  destruct Hl as [r [El Mr]]. subst l.
  assert (Bi : every blank i) by (revert Hi; apply every_impl; intros a; apply is_space_iff).
  destruct r as [|c r].
  - rewrite app_empty, words_one in Mr by assumption. contradiction.
  - pose proof (G i c r Bi L) as Bc. exists i, c, r. split; [exact Bi|]. split; [exact Bc|]. split; [exact L|].
    apply is_space_iff in Bc. rewrite words_app in Mr by exact Bc. rewrite words_one in Mr by assumption. apply words_is_word. exact Mr.
Qed.

(** ** __init__.py *)
Lemma occurs_prefix : forall p s, is_prefix_of p s = true -> occurs p s = true.
Proof. intros p s H. destruct s; cbn [occurs]; rewrite H; reflexivity. Qed.
Lemma occurs_later : forall p a b, occurs p b = true -> occurs p (a ++ b) = true.
Proof.
  intros p a b H. induction a as [|x a IH]; [exact H|]. cbn [append occurs]. destruct (is_prefix_of p (String x (a ++ b))); [reflexivity|exact IH].
Qed.
Lemma occurs_iff : forall p s, occurs p s = true <-> part_of p s.
Proof.
  intros p s. split.
  - induction s as [|x s IH]; cbn [occurs]; intros H.
    + destruct (is_prefix_of p "") eqn:E; [|discriminate]. apply is_prefix_some in E. destruct E as [t E]. exists "", t. exact E.
    + destruct (is_prefix_of p (String x s)) eqn:E.
      * apply is_prefix_some in E. destruct E as [t E]. exists "", t. exact E.
      * destruct (IH H) as [a [b ->]]. exists (String x a), b. reflexivity.
  - intros [a [b ->]]. apply occurs_later, occurs_prefix, is_prefix_app.
Qed.
Lemma universal_tail : forall t s, every (other_than "013") (String "010" t) ->
  exists v, universal (s ++ String "010" t) = v ++ String "010" t.
Proof.
  intros t s H. induction s as [|x s [v IH]]; [exists ""; apply universal_plain; exact H|].
  cbn [append universal]. destruct (Ascii.eqb x "013").
  - destruct s as [|y s]; cbn [append] in IH |- *.
    + change (Ascii.eqb "010" "010") with true. cbn iota. exists v. exact IH.
    + destruct (Ascii.eqb y "010"); [exists v; exact IH|]. exists (String "010" v). cbn [append]. f_equal. exact IH.
  - exists (String x v). cbn [append]. f_equal. exact IH.
Qed.
Lemma init_again : forall f, install_init (install_init f) = install_init f.
Proof.
  intros [s|]; [|reflexivity]. cbn [install_init]. destruct (occurs init_py_snippet (read (Some s))) eqn:E; [cbn [install_init]; rewrite E; reflexivity|].
  assert (O : occurs init_py_snippet (universal (s ++ init_py_snippet)) = true).
  { assert (Q : every (other_than "013") init_py_snippet) by (unfold init_py_snippet; cbn; repeat split; discriminate).
    assert (S : exists t, init_py_snippet = String "010" t) by (eexists; reflexivity). destruct S as [t S].
    rewrite S in Q |- *. destruct (universal_tail t s Q) as [v ->]. apply occurs_iff. exists v, "". rewrite app_empty. reflexivity. }
  unfold append_to, install_init, read. rewrite O. reflexivity.
Qed.
Lemma complete_ended : forall f, complete_lines f -> ended (contents f).
Proof. intros f [H|[s H]]; [left; exact H|right]. exists s, "010"%char. split; [exact H|left; reflexivity]. Qed.
