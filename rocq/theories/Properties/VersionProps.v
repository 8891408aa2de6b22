(** [trading_calendars.__version__] (C78). *)
From Coq Require Import String Ascii NArith List Bool Lia DecimalString Structures.OrderedTypeEx.
From Verif.Model Require Import Base Version.
From Verif.Spec Require Import Git.
From Verif.Proofs Require Import VersionLemmas.
Import ListNotations.
Open Scope string_scope.

(** ** Specification *)

(** The package lies in directory [dir]. *)
Definition module_in (dir : string) : option string := Some (dir ++ "/trading_calendars/_version.py").

(** Git answers in [dir]: it describes the checkout with [line] and prints the hash
    [id] of the commit, the number [count] of commits and the date of the commit. *)
Definition git_says (g : string -> git) (dir line id : string) (count : N) (day time zone : string) : Prop :=
  exists where_, g dir = Git (Some where_) (Some line) (Some (id ++ newline))
    (Some (decimal count ++ newline)) (Some (day ++ " " ++ time ++ " " ++ zone ++ newline)).

(** Some character of [s] is a digit. *)
Definition has_digit (s : string) : Prop := ~ every (fun a => ~ digit a) s.

(** There is no git, or [dir] is not under its control. *)
Definition no_git (g : string -> git) (dir : string) : Prop := rev_parse_git_dir (g dir) = None.

(** ** Lemmas *)

Lemma dirname_slash : forall d b, d <> "" -> every (other_than "/") b -> dirname (d ++ "/" ++ b) = d.
Proof.
  intros d b Hd Hb. unfold dirname. change (d ++ "/" ++ b) with (d ++ String "/" b).
  rewrite rsplit1_app by exact Hb. destruct d; [congruence|reflexivity].
Qed.
Lemma basename_slash : forall d b, every (other_than "/") b -> basename (d ++ "/" ++ b) = b.
Proof. intros d b Hb. unfold basename. change (d ++ "/" ++ b) with (d ++ String "/" b). rewrite rsplit1_app by exact Hb. reflexivity. Qed.

Ltac no_slash := cbn; repeat split; discriminate.

Lemma root_of : forall dir, dir <> "" -> dirname (dirname (dir ++ "/trading_calendars/_version.py")) = dir.
Proof.
  intros dir H.
  replace (dir ++ "/trading_calendars/_version.py") with ((dir ++ "/" ++ "trading_calendars") ++ "/" ++ "_version.py")
    by (rewrite app_assoc; reflexivity).
  rewrite dirname_slash; [|apply app_cons_not_empty|no_slash].
  apply dirname_slash; [exact H|no_slash].
Qed.

Lemma dash_clean : every visible "-" /\ every visible "-g" /\ every visible "-dirty".
Proof. cbn. unfold visible, code. cbn. lia. Qed.
Lemma digits_visible : forall s, every digit s -> every visible s.
Proof. intros s. apply every_impl. unfold digit, visible. intros. lia. Qed.
Lemma hexes_visible : forall s, every hex_digit s -> every visible s.
Proof. intros s. apply every_impl. exact hex_visible. Qed.

Lemma word_no_newline : forall s, word s -> every (other_than "010") s.
Proof. intros s [_ H]. revert H. apply every_impl. intros a H ->. unfold visible, code in H. cbn in H. lia. Qed.

Lemma int_digits : forall s, s <> "" -> every digit s -> exists n, int_of s = Ok n.
Proof.
  assert (E : forall s, every digit s -> exists d, NilEmpty.uint_of_string s = Some d).
  { induction s as [|a s IH]; intros H; [eexists; reflexivity|]. destruct H as [A B]. destruct (IH B) as [d D].
    cbn. rewrite D. cbn.
    assert (K : exists f, uint_of_char a (Some d) = Some f).
    { unfold digit, code in A. destruct a as [[|] [|] [|] [|] [|] [|] [|] [|]]; cbn in A; try lia; eexists; reflexivity. }
    exact K. }
  intros s N H. unfold int_of. destruct s as [|a s]; [congruence|].
  destruct (E _ H) as [d D]. unfold NilZero.uint_of_string. rewrite D. eexists. reflexivity.
Qed.

Lemma plus_in : forall s, has_char "+" s = if in_dec ascii_dec "+"%char (list_ascii_of_string s) then true else false.
Proof.
  intros s. destruct (in_dec _ _ _) as [H|H].
  - induction s as [|x s IH]; [destruct H|]. cbn. destruct H as [->|H]; [reflexivity|]. rewrite (IH H). destruct (Ascii.eqb x "+"); reflexivity.
  - apply has_char_not. induction s as [|x s IH]; [exact I|]. cbn in H. split; [intros ->; tauto|apply IH; tauto].
Qed.

(** *** Dates and stripping *)

Definition first_ok (p : ascii -> bool) (s : string) : Prop := exists x t, s = String x t /\ p x = false.
Definition last_ok (p : ascii -> bool) (s : string) : Prop := exists t x, s = t ++ String x "" /\ p x = false.
Lemma first_app : forall p s t, first_ok p s -> first_ok p (s ++ t).
Proof. intros p s t [x [u [-> H]]]. exists x, (u ++ t). split; [reflexivity|exact H]. Qed.
Lemma last_app : forall p s t, last_ok p t -> last_ok p (s ++ t).
Proof. intros p s t [u [x [-> H]]]. exists (s ++ u), x. split; [symmetry; apply app_assoc|exact H]. Qed.
Lemma last_every : forall p s, s <> "" -> every (fun a => p a = false) s -> last_ok p s.
Proof.
  intros p. induction s as [|x s IH]; [congruence|]. intros _ [A B]. destruct s as [|y s].
  - exists "", x. split; [reflexivity|exact A].
  - change (String x (String y s)) with (String x "" ++ String y s). apply last_app. apply IH; [discriminate|exact B].
Qed.
Lemma first_every : forall p s, s <> "" -> every (fun a => p a = false) s -> first_ok p s.
Proof. intros p [|x s] H A; [congruence|]. exists x, s. split; [reflexivity|apply A]. Qed.
Lemma strip_edges : forall p a s b, every (fun x => p x = true) a -> every (fun x => p x = true) b ->
  first_ok p s -> last_ok p s -> strip_of p (a ++ s ++ b) = s.
Proof.
  intros p a s b A B [x [t [E Hx]]] [u [y [E' Hy]]]. unfold strip_of.
  rewrite lstrip_keep by exact A.
  assert (K : lstrip p (s ++ b) = s ++ b) by (rewrite E; cbn; rewrite Hx; reflexivity).
  rewrite K, E', app_assoc. cbn [append]. rewrite rstrip_last by exact Hy. rewrite rstrip_all by exact B. reflexivity.
Qed.
Lemma word_edges : forall s, word s -> first_ok is_space s /\ last_ok is_space s.
Proof.
  intros s [N V]. assert (A : every (fun a => is_space a = false) s) by (eapply every_impl; [exact visible_not_space|exact V]).
  split; [apply first_every|apply last_every]; assumption.
Qed.
Lemma word_no_space : forall s, word s -> every (other_than " ") s.
Proof. intros s [_ H]. revert H. apply every_impl. intros a H ->. unfold visible, code in H. cbn in H. lia. Qed.
Lemma replace1_app : forall c r a b, every (other_than c) a -> replace1 c r (a ++ String c b) = a ++ r ++ b.
Proof.
  induction a as [|x a IH]; intros b H; cbn; [rewrite Ascii.eqb_refl; reflexivity|].
  destruct H as [A B]. destruct (Ascii.eqb x c) eqn:E; [apply Ascii.eqb_eq in E; contradiction|]. rewrite IH by exact B. reflexivity.
Qed.
Lemma strip_once : forall s, first_ok is_space s -> last_ok is_space s -> strip s = s.
Proof. intros s A B. unfold strip. rewrite <- (app_empty s) at 1. apply (strip_edges is_space "" s ""); try exact I; assumption. Qed.
Lemma iso_plain : forall day time zone, word day -> word time -> word zone ->
  iso_date (day ++ " " ++ time ++ " " ++ zone) = day ++ "T" ++ time ++ zone.
Proof.
  intros day time zone D T Z. unfold iso_date. rewrite strip_once.
  - change (day ++ " " ++ time ++ " " ++ zone) with (day ++ String " " (time ++ " " ++ zone)).
    rewrite replace1_app by (apply word_no_space; exact D).
    replace (day ++ "T" ++ time ++ " " ++ zone) with ((day ++ "T" ++ time) ++ String " " zone) by (rewrite !app_assoc; reflexivity).
    rewrite replace1_app; [rewrite !app_assoc; reflexivity|].
    rewrite !every_app. split; [apply word_no_space; exact D|]. split; [split; [discriminate|exact I]|apply word_no_space; exact T].
  - apply first_app. apply word_edges. exact D.
  - do 4 apply last_app. apply word_edges. exact Z.
Qed.
Lemma iso_of_git : forall day time zone, word day -> word time -> word zone ->
  iso_date (strip (day ++ " " ++ time ++ " " ++ zone ++ newline)) = day ++ "T" ++ time ++ zone.
Proof.
  intros day time zone D T Z.
  replace (strip (day ++ " " ++ time ++ " " ++ zone ++ newline)) with (day ++ " " ++ time ++ " " ++ zone);
    [apply iso_plain; assumption|].
  replace (day ++ " " ++ time ++ " " ++ zone ++ newline) with ("" ++ (day ++ " " ++ time ++ " " ++ zone) ++ newline)
    by (rewrite !app_assoc; reflexivity).
  symmetry. unfold strip. apply strip_edges; [exact I|cbn; tauto| |].
  - apply first_app. apply word_edges. exact D.
  - do 4 apply last_app. apply word_edges. exact Z.
Qed.

(** The stripped description, with the dirty mark taken off. *)
Lemma dirty_off : forall s h (b : bool), every hex_digit h ->
  before_suffix "-dirty" ((s ++ "-g" ++ h) ++ (if b then "-dirty" else "")) = if b then Some (s ++ "-g" ++ h) else None.
Proof.
  intros s h [|] H; [apply before_suffix_app|]. rewrite app_empty.
  destruct (before_suffix "-dirty" (s ++ "-g" ++ h)) as [t|] eqn:E; [|reflexivity]. exfalso.
  apply before_suffix_some in E.
  assert (D : every (other_than "-") (String "g" h)).
  { split; [discriminate|]. revert H. apply every_impl. intros a Ha ->. unfold hex_digit, digit, code in Ha. cbn in Ha. lia. }
  pose proof (rsplit1_app "-" s (String "g" h) D) as A. change (s ++ String "-" (String "g" h)) with (s ++ "-g" ++ h) in A.
  rewrite E in A. change (t ++ "-dirty") with (t ++ String "-" "dirty") in A.
  rewrite rsplit1_app in A by no_slash. discriminate.
Qed.
Lemma dirty_off_untagged : forall h (b : bool), every hex_digit h ->
  before_suffix "-dirty" (h ++ (if b then "-dirty" else "")) = if b then Some h else None.
Proof.
  intros h [|] H; [apply before_suffix_app|]. rewrite app_empty.
  destruct (before_suffix "-dirty" h) as [t|] eqn:E; [|reflexivity]. exfalso.
  apply before_suffix_some in E. subst h. apply every_app in H. destruct H as [_ [H _]].
  unfold hex_digit, digit, code in H. cbn in H. lia.
Qed.
Lemma hex_no_dash : forall h, every hex_digit h -> has_char "-" h = false.
Proof.
  intros h H. apply has_char_not. revert H. apply every_impl. intros a Ha ->. unfold hex_digit, digit, code in Ha. cbn in Ha. lia.
Qed.

Lemma unexpanded_not : git_versions_from_keywords unexpanded tag_prefix = NotThis.
Proof. reflexivity. Qed.

Lemma strip_described : forall tag n h (changed : bool), word tag -> hash h ->
  strip (described tag n h changed) = ((tag ++ "-" ++ decimal n) ++ "-g" ++ h) ++ (if changed then "-dirty" else "").
Proof.
  intros tag n h changed Ht Hh. unfold described.
    replace (tag ++ "-" ++ decimal n ++ "-g" ++ h ++ (if changed then "-dirty" else "") ++ newline)
      with ((((tag ++ "-" ++ decimal n) ++ "-g" ++ h) ++ (if changed then "-dirty" else "")) ++ newline)
      by (rewrite !app_assoc; reflexivity).
    apply strip_newline. destruct dash_clean as [D1 [D2 D3]]. rewrite !every_app.
    repeat split; try assumption; try apply Ht; try (apply digits_visible; apply decimal_digits);
      try (apply hexes_visible; apply Hh); destruct changed; try exact I; try exact D3; try apply D2; try apply D1; try apply D3.
Qed.
Lemma match_described : forall tag n h, word tag -> hash h ->
  match_describe ((tag ++ "-" ++ decimal n) ++ "-g" ++ h) = Some (tag, decimal n, h).
Proof.
  intros tag n h Ht Hh. apply match_describe_iff. split; [rewrite !app_assoc; reflexivity|]. split; [apply Ht|].
  split; [apply word_no_newline; exact Ht|]. split; [apply decimal_not_empty|].
  split; [apply decimal_digits|]. exact Hh.
Qed.
Lemma described_dash : forall tag n h, has_char "-" ((tag ++ "-" ++ decimal n) ++ "-g" ++ h) = true.
Proof.
  intros. rewrite !has_char_app. cbn [has_char]. change (Ascii.eqb "-" "-") with true. cbn [orb]. rewrite !orb_true_r. reflexivity.
Qed.
Lemma strip_untagged : forall h (changed : bool), hash h ->
  strip (described_untagged h changed) = h ++ (if changed then "-dirty" else "").
Proof.
  intros h changed Hh. unfold described_untagged. rewrite <- app_assoc. apply strip_newline. rewrite every_app.
  split; [apply hexes_visible; apply Hh|]. destruct changed; [apply dash_clean|exact I].
Qed.

(** ** In a checkout *)

(** In a checkout with a tag, the version tells the tag, the number of commits since,
    the commit and whether there are changes, whatever the tag looks like. *)
Theorem c78_tagged : forall dir g tag n h id changed count day time zone,
  dir <> "" -> word tag -> hash h -> hash id -> word day -> word time -> word zone ->
  git_says g dir (described tag n h changed) id count day time zone ->
  get_versions unexpanded (module_in dir) g =
  Gives (Versions (expected_version tag n h changed) (Some id) (Some changed) None (Some (day ++ "T" ++ time ++ zone))).
Proof.
  intros dir g tag n h id changed count day time zone Hd Ht Hh Hid Hday Htime Hzone [w Hg].
  unfold get_versions. rewrite unexpanded_not. unfold module_in. rewrite root_of by exact Hd.
  unfold git_pieces_from_vcs. rewrite Hg. cbn [rev_parse_git_dir describe rev_parse_head rev_list_count show_date option_map].
  rewrite (strip_newline id) by (apply hexes_visible; apply Hid).
  rewrite (iso_of_git day time zone) by assumption.
  rewrite strip_described by assumption. rewrite dirty_off by apply Hh.
  pose proof (match_described tag n h Ht Hh) as Em. pose proof (described_dash tag n h) as Ed.
  assert (Er : forall b, render (Pieces id h None b (Some tag) n (day ++ "T" ++ time ++ zone)) =
    Versions (expected_version tag n h b) (Some id) (Some b) None (Some (day ++ "T" ++ time ++ zone))).
  { intros b. unfold render. cbn [perror long pdirty pdate]. f_equal. unfold render_pep440. cbn [closest_tag distance pdirty short].
    destruct Ht as [Ht _]. destruct tag as [|a t]; [congruence|]. unfold expected_version, plus_or_dot, percent_d. rewrite plus_in.
    fold (decimal n). destruct n, b; cbn [N.eqb negb orb]; repeat match goal with |- context [in_dec ?a ?b ?c] => destruct (in_dec a b c) end; reflexivity. }
  destruct changed.
  - rewrite Ed, Em. change (after_prefix tag_prefix tag) with (Some tag). rewrite int_decimal. rewrite Er. reflexivity.
  - rewrite app_empty, Ed, Em. change (after_prefix tag_prefix tag) with (Some tag). rewrite int_decimal. rewrite Er. reflexivity.
Qed.

(** Without any tag. *)
Theorem c78_untagged : forall dir g n h id changed day time zone,
  dir <> "" -> hash h -> hash id -> word day -> word time -> word zone ->
  git_says g dir (described_untagged h changed) id n day time zone ->
  get_versions unexpanded (module_in dir) g =
  Gives (Versions ("0+untagged." ++ decimal n ++ ".g" ++ substring 0 7 id ++ (if changed then ".dirty" else ""))
    (Some id) (Some changed) None (Some (day ++ "T" ++ time ++ zone))).
Proof.
  intros dir g n h id changed day time zone Hd Hh Hid Hday Htime Hzone [w Hg].
  unfold get_versions. rewrite unexpanded_not. unfold module_in. rewrite root_of by exact Hd.
  unfold git_pieces_from_vcs. rewrite Hg. cbn [rev_parse_git_dir describe rev_parse_head rev_list_count show_date option_map].
  rewrite (strip_newline id) by (apply hexes_visible; apply Hid).
  rewrite (iso_of_git day time zone) by assumption.
  rewrite (strip_newline (decimal n)) by (apply digits_visible; apply decimal_digits).
  rewrite strip_untagged by exact Hh. rewrite dirty_off_untagged by apply Hh.
  assert (F : forall k s, first_chars k s = substring 0 k s).
  { induction k as [|k IH]; intros [|x s]; cbn; try reflexivity. rewrite IH. reflexivity. }
  destruct changed; [|rewrite app_empty]; rewrite (hex_no_dash h) by apply Hh; rewrite int_decimal, F; reflexivity.
Qed.

(** The version tells checkouts apart: same version, same tag, distance, state, and
    the same commit unless both are the tagged commit itself. *)
Theorem c78_tells_apart : forall tag n h c tag' n' h' c', word tag -> word tag' -> hash h -> hash h' ->
  every (other_than "+") tag -> every (other_than "+") tag' ->
  expected_version tag n h c = expected_version tag' n' h' c' ->
  tag = tag' /\ n = n' /\ c = c' /\ (h = h' \/ n = 0%N /\ c = false).
Proof.
  intros tag n h c tag' n' h' c' _ _ Hh Hh' P P' E.
  pose (local n h (c : bool) := decimal n ++ ".g" ++ h ++ (if c then ".dirty" else "")).
  assert (V : forall tag n h c, every (other_than "+") tag ->
    expected_version tag n h c = tag /\ n = 0%N /\ c = false \/
    expected_version tag n h c = tag ++ "+" ++ local n h c /\ ~ (n = 0%N /\ c = false)).
  { clear. intros tag n h c P. unfold expected_version. fold (local n h c).
    assert (Q : (if in_dec ascii_dec "+"%char (list_ascii_of_string tag) then "." else "+") = "+").
    { apply has_char_not in P. rewrite plus_in in P. destruct (in_dec _ _ _); [discriminate|reflexivity]. }
    destruct n, c; try (left; repeat split; reflexivity); right; rewrite Q; (split; [reflexivity|]); intros [A B]; discriminate. }
  assert (C : forall t u a b, every (other_than "+") t -> every (other_than "+") u ->
     t ++ String "+" a = u ++ String "+" b -> t = u /\ a = b).
  { clear. induction t as [|x t IH]; intros [|y u] a b Ht Hu E; cbn in E.
    - injection E as E. split; [reflexivity|exact E].
    - injection E as E1 _. exfalso. apply (proj1 Hu). symmetry. exact E1.
    - injection E as E1 _. exfalso. apply (proj1 Ht). exact E1.
    - injection E as -> E. destruct (IH u a b (proj2 Ht) (proj2 Hu) E) as [-> ->]. split; reflexivity. }
  assert (N : forall t a, every (other_than "+") (t ++ String "+" a) -> False).
  { clear. intros t a H. apply every_app in H. destruct H as [_ [H _]]. apply H. reflexivity. }
  assert (L : forall n h c n' h' c', hash h -> hash h' -> local n h c = local n' h' c' -> n = n' /\ h = h' /\ c = c').
  { clear. intros n h c n' h' c' [_ Hh] [_ Hh'] E. unfold local in E.
    assert (S1 : forall t u a b, every (fun x => x <> "."%char) t -> every (fun x => x <> "."%char) u ->
       t ++ String "." a = u ++ String "." b -> t = u /\ a = b).
    { clear. induction t as [|x t IH]; intros [|y u] a b Ht Hu E; cbn in E.
      - injection E as E. split; [reflexivity|exact E].
      - injection E as E1 _. exfalso. apply (proj1 Hu). symmetry. exact E1.
      - injection E as E1 _. exfalso. apply (proj1 Ht). exact E1.
      - injection E as -> E. destruct (IH u a b (proj2 Ht) (proj2 Hu) E) as [-> ->]. split; reflexivity. }
    assert (D : forall n, every (fun x => x <> "."%char) (decimal n)).
    { clear. intros n. eapply every_impl; [|apply decimal_digits]. intros a H ->. unfold digit, code in H. cbn in H. lia. }
    assert (X : forall h, every hex_digit h -> every (fun x => x <> "."%char) h).
    { clear. intros h. apply every_impl. intros a H ->. unfold hex_digit, digit, code in H. cbn in H. lia. }
    destruct (S1 _ _ _ _ (D n) (D n') E) as [E1 E2]. apply decimal_inj in E1. injection E2 as E2.
    split; [exact E1|].
    destruct c, c'.
    - destruct (S1 _ _ _ _ (X h Hh) (X h' Hh') E2) as [-> _]. split; reflexivity.
    - exfalso. rewrite app_empty in E2. rewrite <- E2 in Hh'. apply X in Hh'. apply every_app in Hh'. apply (proj1 (proj2 Hh')). reflexivity.
    - exfalso. rewrite app_empty in E2. rewrite E2 in Hh. apply X in Hh. apply every_app in Hh. apply (proj1 (proj2 Hh)). reflexivity.
    - rewrite !app_empty in E2. split; [exact E2|reflexivity]. }
  destruct (V tag n h c P) as [[A [A1 A2]]|[A A1]], (V tag' n' h' c' P') as [[B [B1 B2]]|[B B1]]; rewrite A, B in E.
  - subst. tauto.
  - exfalso. rewrite E in P. exact (N _ _ P).
  - exfalso. rewrite <- E in P'. exact (N _ _ P').
  - destruct (C tag tag' _ _ P P' E) as [-> E']. destruct (L _ _ _ _ _ _ Hh Hh' E') as [-> [-> ->]]. tauto.
Qed.

(** What is added to a tag is a local version of PEP 440. *)
Theorem c78_local_version : forall tag n h c, hash h ->
  expected_version tag n h c = tag \/
  exists sep local, expected_version tag n h c = tag ++ sep ++ local /\ (sep = "+" \/ sep = "." /\ ~ every (other_than "+") tag) /\
    local_version local.
Proof.
  intros tag n h c [Hh1 Hh].
  assert (L : local_version (decimal n ++ ".g" ++ h ++ (if c then ".dirty" else ""))).
  { exists (decimal n :: ("g" ++ h) :: (if c then ["dirty"] else [])). split; [destruct c; cbn; rewrite ?app_empty; reflexivity|].
    split; [discriminate|]. intros w Hw.
    assert (D : every alphanumeric (decimal n)) by (eapply every_impl; [|apply decimal_digits]; unfold alphanumeric; tauto).
    assert (G : every alphanumeric ("g" ++ h)).
    { split; [right; unfold code; cbn; lia|]. revert Hh. apply every_impl. unfold alphanumeric, hex_digit. intros a [H|H]; [left; exact H|right; lia]. }
    destruct Hw as [<-|[<-|Hw]]; [split; [apply decimal_not_empty|exact D]|split; [discriminate|exact G]|].
    destruct c; [|destruct Hw]. destruct Hw as [<-|[]]. split; [discriminate|].
    cbn. unfold alphanumeric, code. cbn. repeat split; right; lia. }
  unfold expected_version.
  destruct (in_dec _ _ _) as [I|I].
  - assert (Q : ~ every (other_than "+") tag).
    { intros H. apply has_char_not in H. rewrite plus_in in H. destruct (in_dec _ _ _); [discriminate|contradiction]. }
    destruct n, c; try (left; reflexivity); right; exists "."; eexists; (split; [reflexivity|]); split; try exact L; right; split; auto.
  - destruct n, c; try (left; reflexivity); right; exists "+"; eexists; (split; [reflexivity|]); split; try exact L; left; reflexivity.
Qed.

(** ** In an archive *)

(** *** Lemmas about the list of names *)

Lemma split_last : forall c a, every (other_than c) a -> split_on c a = [a].
Proof.
  induction a as [|x a IH]; intros H; [reflexivity|]. destruct H as [A B]. cbn.
  destruct (Ascii.eqb x c) eqn:E; [apply Ascii.eqb_eq in E; contradiction|]. rewrite IH by exact B. reflexivity.
Qed.
Lemma split_app : forall c a b, every (other_than c) a -> split_on c (a ++ String c b) = a :: split_on c b.
Proof.
  induction a as [|x a IH]; intros b H; cbn; [rewrite Ascii.eqb_refl; reflexivity|]. destruct H as [A B].
  destruct (Ascii.eqb x c) eqn:E; [apply Ascii.eqb_eq in E; contradiction|]. rewrite IH by exact B. reflexivity.
Qed.
Lemma split_concat : forall r u x, (forall y, In y (x :: r) -> every (other_than ",") y) -> every (other_than ",") u ->
  split_on "," (u ++ String.concat ", " (x :: r)) = (u ++ x) :: map (append " ") r.
Proof.
  induction r as [|y r IH]; intros u x H U.
  - cbn. apply split_last. apply every_app. split; [exact U|apply H; left; reflexivity].
  - change (String.concat ", " (x :: y :: r)) with (x ++ String "," (" " ++ String.concat ", " (y :: r))).
    rewrite <- app_assoc. rewrite split_app by (apply every_app; split; [exact U|apply H; left; reflexivity]).
    rewrite IH; [reflexivity|intros z Z; apply H; right; exact Z|split; [discriminate|exact I]].
Qed.

Lemma plain_paren : forall s, plain s -> every (fun a => is_paren a = false) s.
Proof.
  intros s [_ [_ [A B]]]. induction s as [|x s IH]; [exact I|]. destruct A as [A1 A2], B as [B1 B2].
  split; [|apply IH; assumption]. unfold is_paren. apply Ascii.eqb_neq in A1, B1. rewrite A1, B1. reflexivity.
Qed.
Lemma text_ok : forall r, plain (ref_name r) ->
  (first_ok is_space (ref_text r) /\ last_ok is_space (ref_text r)) /\
  (first_ok is_paren (ref_text r) /\ last_ok is_paren (ref_text r)) /\ every (other_than ",") (ref_text r).
Proof.
  intros r P. pose proof (word_edges _ (proj1 P)) as [W1 W2].
  assert (Q1 : first_ok is_paren (ref_name r)) by (apply first_every; [apply P|apply plain_paren; exact P]).
  assert (Q2 : last_ok is_paren (ref_name r)) by (apply last_every; [apply P|apply plain_paren; exact P]).
  destruct P as [_ [C _]].
  destruct r as [t|b|b]; cbn [ref_text ref_name] in *.
  - repeat split; try (apply last_app; assumption); try (eexists; eexists; split; reflexivity); try discriminate. exact C.
  - repeat split; assumption.
  - repeat split; try (apply last_app; assumption); try (eexists; eexists; split; reflexivity); try discriminate. exact C.
Qed.
Lemma concat_ok : forall l p, l <> [] -> (forall y, In y l -> first_ok p y /\ last_ok p y) ->
  first_ok p (String.concat ", " l) /\ last_ok p (String.concat ", " l).
Proof.
  induction l as [|x l IH]; intros p N H; [congruence|]. destruct l as [|y l].
  - cbn. apply H. left. reflexivity.
  - change (String.concat ", " (x :: y :: l)) with (x ++ ", " ++ String.concat ", " (y :: l)). split.
    + apply first_app. apply H. left. reflexivity.
    + do 2 apply last_app. apply IH; [discriminate|]. intros z Z. apply H. right. exact Z.
Qed.

Lemma refs_of_decoration : forall rs, rs <> [] -> (forall r, In r rs -> plain (ref_name r)) ->
  after_prefix "$Format" (strip (decoration rs)) = None /\
  map strip (split_on "," (strip_of is_paren (strip (decoration rs)))) = map ref_text rs.
Proof.
  intros rs N H. set (C := String.concat ", " (map ref_text rs)).
  assert (E1 : strip (decoration rs) = "(" ++ C ++ ")").
  { unfold decoration. fold C. unfold strip.
    replace (" (" ++ C ++ ")") with (" " ++ ("(" ++ C ++ ")") ++ "") by (rewrite app_empty; reflexivity).
    apply strip_edges; [cbn; tauto|exact I|eexists; eexists; split; reflexivity|].
    do 2 apply last_app. exists "", ")"%char. split; reflexivity. }
  assert (E2 : strip_of is_paren ("(" ++ C ++ ")") = C).
  { destruct (concat_ok (map ref_text rs) is_paren) as [A B].
    - destruct rs; [congruence|discriminate].
    - intros y Y. apply in_map_iff in Y. destruct Y as [r [<- R]]. apply text_ok. apply H. exact R.
    - apply strip_edges; try (cbn; tauto); assumption. }
  rewrite E1. split; [reflexivity|]. rewrite E2. subst C.
  destruct rs as [|r rs]; [congruence|]. cbn [map].
  pose proof (split_concat (map ref_text rs) "" (ref_text r)) as S1. cbn [append] in S1. rewrite S1.
  - cbn [map]. f_equal; [apply strip_once; apply text_ok; apply H; left; reflexivity|].
    rewrite !map_map. apply map_ext_in. intros r' R'. unfold strip.
    replace (String " " (ref_text r')) with (" " ++ ref_text r' ++ "") by (rewrite app_empty; reflexivity).
    apply strip_edges; try (cbn; tauto); apply text_ok; apply H; right; exact R'.
  - intros y Y. change (ref_text r :: map ref_text rs) with (map ref_text (r :: rs)) in Y.
    apply in_map_iff in Y. destruct Y as [r' [<- R']]. apply text_ok. apply H. exact R'.
  - exact I.
Qed.

Definition tags_of (rs : list ref) : list string := flat_map (fun r => match r with Tag t => [t] | _ => [] end) rs.
Lemma tags_in : forall rs t, In t (tags_of rs) <-> In (Tag t) rs.
Proof.
  intros rs t. unfold tags_of. rewrite in_flat_map. split.
  - intros [[u|b|b] [R U]]; cbn in U; try contradiction. destruct U as [->|[]]. exact R.
  - intros R. exists (Tag t). split; [exact R|left; reflexivity].
Qed.
Lemma tags_of_texts : forall rs, (forall r, In r rs -> plain (ref_name r)) ->
  flat_map (fun r => match after_prefix "tag: " r with Some t => [t] | None => [] end) (map ref_text rs) = tags_of rs.
Proof.
  induction rs as [|r rs IH]; intros H; [reflexivity|]. cbn [map flat_map tags_of]. rewrite IH by (intros x X; apply H; right; exact X).
  f_equal. destruct r as [t|b|b].
  - cbn [ref_text]. rewrite after_prefix_app. reflexivity.
  - cbn [ref_text]. destruct (after_prefix "tag: " b) as [u|] eqn:E; [|reflexivity]. exfalso.
    apply after_prefix_some in E. pose proof (word_no_space _ (proj1 (H (Branch b) (or_introl eq_refl)))) as W.
    cbn [ref_name] in W. rewrite E in W. destruct W as [_ [_ [_ [_ [W _]]]]]. apply W. reflexivity.
  - reflexivity.
Qed.

(** *** The order *)

Lemma compare_trans : forall a b c, String.compare a b = Lt -> String.compare b c = Lt -> String.compare a c = Lt.
Proof.
  intros a b c A B. apply String_as_OT.cmp_lt in A, B. apply String_as_OT.cmp_lt. eapply String_as_OT.lt_trans; eassumption.
Qed.
Lemma compare_same : forall a, String.compare a a = Eq.
Proof. intros a. apply String_as_OT.cmp_eq. reflexivity. Qed.
Definition least (m : string) (l : list string) : Prop := In m l /\ forall x, In x l -> no_later_than m x.
Lemma insert_in : forall x l y, In y (insert x l) <-> y = x \/ In y l.
Proof.
  induction l as [|z l IH]; intros y; cbn; [intuition congruence|]. destruct (String.eqb x z) eqn:E.
  - apply String.eqb_eq in E. subst z. cbn. intuition congruence.
  - destruct (string_ltb x z); cbn; [intuition congruence|]. rewrite IH. intuition congruence.
Qed.
Fixpoint increasing (l : list string) : Prop :=
  match l with
  | [] => True
  | x :: l' => (forall y, In y l' -> String.compare x y = Lt) /\ increasing l'
  end.
Lemma insert_increasing : forall x l, increasing l -> increasing (insert x l).
Proof.
  induction l as [|z l IH]; intros H; cbn; [split; [intros y []|exact I]|]. destruct H as [A B].
  destruct (String.eqb x z) eqn:E; [split; assumption|]. apply String.eqb_neq in E.
  unfold string_ltb. destruct (String.compare x z) eqn:C.
  - apply String_as_OT.cmp_eq in C. contradiction.
  - split; [|split; assumption]. intros y [<-|Y]; [exact C|]. eapply compare_trans; [exact C|apply A; exact Y].
  - split; [|apply IH; exact B]. intros y Y. apply insert_in in Y. destruct Y as [->|Y]; [|apply A; exact Y].
    rewrite String.compare_antisym, C. reflexivity.
Qed.
Lemma sorted_set_increasing : forall l, increasing (sorted_set l).
Proof. induction l as [|x l IH]; [exact I|]. apply insert_increasing. exact IH. Qed.
Lemma sorted_set_in : forall l y, In y (sorted_set l) <-> In y l.
Proof. induction l as [|x l IH]; intros y; [reflexivity|]. cbn [sorted_set fold_right]. rewrite insert_in. fold (sorted_set l). rewrite IH. cbn. intuition congruence. Qed.
Lemma sorted_set_least : forall l, l <> [] -> exists m r, sorted_set l = m :: r /\ least m l.
Proof.
  intros l N. destruct (sorted_set l) as [|m r] eqn:E.
  - exfalso. destruct l as [|x l]; [congruence|]. assert (In x (sorted_set (x :: l))) by (apply sorted_set_in; left; reflexivity).
    rewrite E in H. destruct H.
  - exists m, r. split; [reflexivity|]. split; [apply sorted_set_in; rewrite E; left; reflexivity|].
    intros x X. apply sorted_set_in in X. rewrite E in X. unfold no_later_than. destruct X as [<-|X]; [rewrite compare_same; discriminate|].
    pose proof (sorted_set_increasing l) as I1. rewrite E in I1. rewrite (proj1 I1 x X). discriminate.
Qed.

Lemma prefix_all : forall l, flat_map (fun r => match after_prefix tag_prefix r with Some t => [t] | None => [] end) l = l.
Proof. induction l as [|x l IH]; [reflexivity|]. cbn. cbn in IH. rewrite IH. reflexivity. Qed.
Lemma some_digit : forall s, some_char is_digit s = true <-> has_digit s.
Proof.
  intros s. unfold has_digit. induction s as [|x s IH]; cbn; [intuition discriminate|].
  rewrite orb_true_iff, IH, is_digit_iff. destruct (is_digit x) eqn:E.
  - apply is_digit_iff in E. tauto.
  - assert (~ digit x) by (rewrite <- is_digit_iff; congruence). tauto.
Qed.

(** An archive of the commit with these names. *)
Definition archived (rs : list ref) (id day time zone : string) : keywords :=
  Keywords (decoration rs) id (day ++ " " ++ time ++ " " ++ zone).

(** In an archive of a tagged commit the version is the first of its tags in the order
    of characters. *)
Theorem c78_archive : forall rs id day time zone file g,
  (forall r, In r rs -> plain (ref_name r)) -> hash id -> word day -> word time -> word zone ->
  (exists t, In (Tag t) rs) ->
  exists t, In (Tag t) rs /\ (forall t', In (Tag t') rs -> no_later_than t t') /\
    get_versions (archived rs id day time zone) file g =
    Gives (Versions t (Some id) (Some false) None (Some (day ++ "T" ++ time ++ zone))).
Proof.
  intros rs id day time zone file g H Hid D T Z [t0 T0].
  assert (N : rs <> []) by (intros ->; exact T0).
  destruct (refs_of_decoration rs N H) as [E1 E2].
  assert (N' : tags_of rs <> []) by (apply tags_in in T0; intros E; rewrite E in T0; exact T0).
  destruct (sorted_set_least (tags_of rs) N') as [m [r [Em [M1 M2]]]].
  exists m. split; [apply tags_in; exact M1|]. split; [intros t' T'; apply M2; apply tags_in; exact T'|].
  unfold get_versions, git_versions_from_keywords, archived. cbn [refnames full kdate].
  rewrite E1, E2, tags_of_texts by exact H.
  destruct (tags_of rs) as [|u l] eqn:El; [congruence|].
  rewrite Em, prefix_all. rewrite iso_plain by assumption.
  rewrite strip_clean by (apply hexes_visible; apply Hid). reflexivity.
Qed.

(** In an archive of a commit that has no tag, if no other name has a digit, the version
    is unknown and says so. *)
Theorem c78_archive_untagged : forall rs id day time zone file g,
  (forall r, In r rs -> plain (ref_name r)) -> hash id -> rs <> [] ->
  (forall t, ~ In (Tag t) rs) -> (forall r, In r rs -> ~ has_digit (ref_name r)) ->
  get_versions (archived rs id day time zone) file g =
  Gives (Versions "0+unknown" (Some id) (Some false) (Some "no suitable tags") None).
Proof.
  intros rs id day time zone file g H Hid N NT ND.
  destruct (refs_of_decoration rs N H) as [E1 E2].
  unfold get_versions, git_versions_from_keywords, archived. cbn [refnames full kdate].
  rewrite E1, E2, tags_of_texts by exact H.
  assert (Et : tags_of rs = []).
  { destruct (tags_of rs) as [|t l] eqn:E; [reflexivity|]. exfalso. apply (NT t). apply tags_in. rewrite E. left. reflexivity. }
  rewrite Et.
  assert (Ef : filter (some_char is_digit) (map ref_text rs) = []).
  { clear - ND NT. induction rs as [|r rs IH]; [reflexivity|]. cbn [map filter].
    rewrite IH; [|intros t T; apply (NT t); right; exact T|intros x X; apply ND; right; exact X].
    assert (F : some_char is_digit (ref_text r) = false); [|rewrite F; reflexivity].
    pose proof (ND r (or_introl eq_refl)) as Q. rewrite <- some_digit in Q. apply not_true_iff_false in Q.
    destruct r as [t|b|b]; cbn [ref_name] in Q; [exfalso; apply (NT t); left; reflexivity|exact Q|exact Q]. }
  rewrite Ef. cbn. rewrite strip_clean by (apply hexes_visible; apply Hid). reflexivity.
Qed.

(** But a branch with a digit in its name passes for a version, even with the arrow
    that git prints before the current branch. *)
Theorem c78_archive_branch_refuted : forall b id day time zone file g,
  plain b -> hash id -> word day -> word time -> word zone -> has_digit b ->
  get_versions (archived [Head b] id day time zone) file g =
  Gives (Versions ("HEAD -> " ++ b) (Some id) (Some false) None (Some (day ++ "T" ++ time ++ zone))).
Proof.
  intros b id day time zone file g P Hid D T Z Hb.
  destruct (refs_of_decoration [Head b]) as [E1 E2]; [discriminate|intros r [<-|[]]; exact P|].
  unfold get_versions, git_versions_from_keywords, archived. cbn [refnames full kdate].
  rewrite E1, E2, tags_of_texts by (intros r [<-|[]]; exact P).
  assert (F : filter (some_char is_digit) (map ref_text [Head b]) = ["HEAD -> " ++ b]).
  { cbn [map filter ref_text]. apply some_digit in Hb. cbn. rewrite Hb. reflexivity. }
  cbn [tags_of flat_map app]. rewrite F. cbn [sorted_set fold_right insert].
  rewrite prefix_all, iso_plain by assumption. rewrite strip_clean by (apply hexes_visible; apply Hid). reflexivity.
Qed.

(** ** In an unpacked directory *)

(** Without git and without an archive, a directory calendars-V gives the version V. *)
Theorem c78_directory : forall above v g,
  let dir := above ++ "/calendars-" ++ v in
  every (other_than "/") v -> no_git g dir ->
  get_versions unexpanded (module_in dir) g = Gives (Versions v None (Some false) None None).
Proof.
  intros above v g dir Hv Hg.
  assert (Hd : dir <> "") by apply app_cons_not_empty.
  unfold get_versions. rewrite unexpanded_not. unfold module_in. rewrite root_of by exact Hd.
  unfold git_pieces_from_vcs. unfold no_git in Hg. rewrite Hg. cbn [option_map versions_from_parentdir].
  assert (B : basename dir = "calendars-" ++ v) by (apply basename_slash; apply every_app; split; [no_slash|exact Hv]).
  rewrite B. unfold parentdir_prefix. rewrite after_prefix_app. reflexivity.
Qed.

(** But the project's own archives unpack to trading_calendars-V, and then the version
    is unknown whatever V is. *)
Theorem c78_directory_refuted : forall above b c v g,
  let dir := above ++ "/" ++ c ++ "/" ++ b ++ "/trading_calendars-" ++ v in
  every (other_than "/") v -> every (other_than "/") b -> every (other_than "/") c -> b <> "" -> c <> "" ->
  (forall w, b <> "calendars-" ++ w) -> (forall w, c <> "calendars-" ++ w) -> no_git g dir ->
  get_versions unexpanded (module_in dir) g =
  Gives (Versions "0+unknown" None None (Some "unable to compute version") None).
Proof.
  intros above b c v g dir Hv Hb Hc Nb Nc Pb Pc Hg.
  assert (E : dir = (above ++ "/" ++ c ++ "/" ++ b) ++ "/" ++ ("trading_calendars-" ++ v)) by (unfold dir; rewrite !app_assoc; reflexivity).
  assert (E' : above ++ "/" ++ c ++ "/" ++ b = (above ++ "/" ++ c) ++ "/" ++ b) by (rewrite !app_assoc; reflexivity).
  assert (Hd : dir <> "") by apply app_cons_not_empty.
  assert (P : forall s, (forall w, s <> "calendars-" ++ w) -> after_prefix parentdir_prefix s = None).
  { intros s H. destruct (after_prefix parentdir_prefix s) as [w|] eqn:A; [|reflexivity]. apply after_prefix_some in A. destruct (H w A). }
  unfold get_versions. rewrite unexpanded_not. unfold module_in. rewrite root_of by exact Hd.
  unfold git_pieces_from_vcs. unfold no_git in Hg. rewrite Hg. cbn [option_map versions_from_parentdir].
  rewrite E.
  rewrite basename_slash by (apply every_app; split; [no_slash|exact Hv]).
  rewrite dirname_slash; [|apply app_cons_not_empty|apply every_app; split; [no_slash|exact Hv]].
  rewrite (P ("trading_calendars-" ++ v)) by discriminate.
  rewrite E', basename_slash by exact Hb. rewrite (P b Pb).
  rewrite dirname_slash; [|apply app_cons_not_empty|exact Hb].
  rewrite basename_slash by exact Hc. rewrite (P c Pc). reflexivity.
Qed.

(** ** Importing the package *)

(** If git, where it describes the checkout, also prints the date of the commit and a
    number of commits, there is always an answer. *)
Theorem c78_answers : forall k file g,
  (forall dir, describe (g dir) <> None -> show_date (g dir) <> None /\ exists n, rev_list_count (g dir) = Some (decimal n ++ newline)) ->
  exists v, get_versions k file g = Gives v.
Proof.
  intros k file g H. unfold get_versions.
  destruct (git_versions_from_keywords k tag_prefix) as [v| |e] eqn:Ek.
  - exists v. reflexivity.
  - destruct file as [f|]; [|eexists; reflexivity]. specialize (H (dirname (dirname f))).
    set (G := g (dirname (dirname f))) in *.
    assert (F : forall e, git_pieces_from_vcs tag_prefix G <> Fails e).
    { intros e. unfold git_pieces_from_vcs.
      destruct (rev_parse_git_dir G); [|discriminate]. destruct (describe G) as [d|]; [|discriminate].
      destruct (rev_parse_head G); [|discriminate]. destruct H as [H1 [n H2]]; [discriminate|].
      destruct (show_date G); [|congruence]. rewrite H2. cbn [option_map].
      rewrite strip_newline by (apply digits_visible; apply decimal_digits). rewrite int_decimal.
      destruct (before_suffix "-dirty" (strip d)) as [x|].
      - destruct (has_char "-" x); [|discriminate]. destruct (match_describe x) as [[[t m] h]|] eqn:M; [|discriminate].
        apply match_describe_iff in M. destruct M as [_ [_ [_ [M1 [M2 _]]]]].
        destruct (after_prefix tag_prefix t); [|discriminate]. destruct (int_digits m M1 M2) as [q ->]. discriminate.
      - destruct (has_char "-" (strip d)); [|discriminate]. destruct (match_describe (strip d)) as [[[t m] h]|] eqn:M; [|discriminate].
        apply match_describe_iff in M. destruct M as [_ [_ [_ [M1 [M2 _]]]]].
        destruct (after_prefix tag_prefix t); [|discriminate]. destruct (int_digits m M1 M2) as [q ->]. discriminate. }
    destruct (git_pieces_from_vcs tag_prefix G) as [p| |e] eqn:Ep; [eexists; reflexivity| |destruct (F e); reflexivity].
    destruct (versions_from_parentdir 3 parentdir_prefix (dirname (dirname f))) as [v| |e] eqn:Ev; [eexists; reflexivity|eexists; reflexivity|].
    exfalso. revert Ev. generalize (dirname (dirname f)). clear. generalize 3%nat.
    induction n as [|n IH]; intros s E; [discriminate|]. cbn [versions_from_parentdir] in E.
    destruct (after_prefix parentdir_prefix (basename s)); [discriminate|].
    exact (IH _ E).
  - exfalso. unfold git_versions_from_keywords in Ek.
    destruct (after_prefix "$Format" (strip (refnames k))); [discriminate|].
    destruct (flat_map _ _) in Ek; discriminate.
Qed.

(** Otherwise importing the package raises: here git describes a checkout by its tag
    and then cannot show the date. *)
Theorem c78_answers_refuted : exists dir tag h id g, dir <> "" /\ word tag /\ hash h /\ hash id /\
  describe (g dir) = Some (described tag 0 h false) /\ rev_parse_head (g dir) = Some (id ++ newline) /\
  get_versions unexpanded (module_in dir) g = Fails AttributeError.
Proof.
  exists "/src", "1.2", "abc1234", "abc1234abc1234abc1234abc1234abc1234abc12",
    (fun _ => Git (Some ".git") (Some (described "1.2" 0 "abc1234" false)) (Some ("abc1234abc1234abc1234abc1234abc1234abc12" ++ newline)) None None).
  repeat split; try discriminate; try (cbn; unfold visible, hex_digit, digit, code; cbn; lia).
Qed.

(** What is raised in all these cases: a date or a number that cannot be had. *)
Theorem c78_raises : forall dir g where_ tag n h id changed, dir <> "" -> word tag -> hash h -> hash id ->
  rev_parse_git_dir (g dir) = Some where_ -> rev_parse_head (g dir) = Some (id ++ newline) ->
  (describe (g dir) = Some (described tag n h changed) -> show_date (g dir) = None ->
   get_versions unexpanded (module_in dir) g = Fails AttributeError) /\
  (describe (g dir) = Some (described_untagged h changed) ->
   (rev_list_count (g dir) = None -> get_versions unexpanded (module_in dir) g = Fails TypeError) /\
   (forall s, rev_list_count (g dir) = Some (s ++ newline) -> every visible s -> ~ every digit s ->
    get_versions unexpanded (module_in dir) g = Fails ValueError) /\
   (rev_list_count (g dir) = Some (decimal n ++ newline) -> show_date (g dir) = None ->
    get_versions unexpanded (module_in dir) g = Fails AttributeError)).
Proof.
  intros dir g w tag n h id changed Hd Ht Hh Hid Hw Hf.
  unfold get_versions. rewrite unexpanded_not. unfold module_in. rewrite root_of by exact Hd.
  unfold git_pieces_from_vcs. rewrite Hw, Hf. cbn [option_map]. split.
  - intros Hg Hs. rewrite Hg, Hs. cbn [option_map]. rewrite strip_described by assumption. rewrite dirty_off by apply Hh.
    destruct changed; [|rewrite app_empty]; rewrite described_dash, match_described by assumption;
      change (after_prefix tag_prefix tag) with (Some tag); rewrite int_decimal; reflexivity.
  - intros Hg. rewrite Hg. cbn [option_map]. rewrite strip_untagged by assumption. rewrite dirty_off_untagged by apply Hh.
    split; [|split].
    + intros Hn. rewrite Hn. destruct changed; [|rewrite app_empty]; rewrite (hex_no_dash h) by apply Hh; reflexivity.
    + intros s Hn Vs Ns. rewrite Hn. cbn [option_map]. rewrite (strip_newline s) by exact Vs.
      assert (I1 : int_of s = Raise ValueError).
      { unfold int_of. destruct (NilZero.uint_of_string s) as [d|] eqn:E; [|reflexivity]. exfalso. apply Ns.
        unfold NilZero.uint_of_string in E. destruct s as [|a s]; [discriminate|].
        apply NilEmpty.sus in E. rewrite <- E. apply uint_digits. }
      destruct changed; [|rewrite app_empty]; rewrite (hex_no_dash h) by apply Hh; rewrite I1; reflexivity.
    + intros Hn Hs. rewrite Hn, Hs. cbn [option_map].
      rewrite (strip_newline (decimal n)) by (apply digits_visible; apply decimal_digits).
      destruct changed; [|rewrite app_empty]; rewrite (hex_no_dash h) by apply Hh; rewrite int_decimal; reflexivity.
Qed.

(** A description that git does not print: neither a hash nor TAG-N-gHASH.  The version
    is then "unknown", and the error quotes the description. *)
Theorem c78_unparsable : forall dir g where_ base (changed : bool) id, dir <> "" -> hash id ->
  every visible base -> ~ every (other_than "-") base ->
  (changed = false -> forall b, base <> b ++ "-dirty") ->
  (forall t n h, t <> "" -> n <> "" -> every digit n -> hash h -> base <> t ++ "-" ++ n ++ "-g" ++ h) ->
  rev_parse_git_dir (g dir) = Some where_ -> rev_parse_head (g dir) = Some (id ++ newline) ->
  describe (g dir) = Some ((base ++ (if changed then "-dirty" else "")) ++ newline) ->
  get_versions unexpanded (module_in dir) g =
  Gives (Versions "unknown" (Some id) None
    (Some ("unable to parse git-describe output: '" ++ base ++ (if changed then "-dirty" else "") ++ "'")) None).
Proof.
  intros dir g w base changed id Hd Hid V D N B Hw Hf Hg.
  unfold get_versions. rewrite unexpanded_not. unfold module_in. rewrite root_of by exact Hd.
  unfold git_pieces_from_vcs. rewrite Hw, Hf, Hg. cbn [option_map].
  rewrite (strip_newline id) by (apply hexes_visible; apply Hid).
  assert (V' : every visible (base ++ (if changed then "-dirty" else ""))).
  { apply every_app. split; [exact V|]. destruct changed; cbn; unfold visible, code; cbn; repeat split; lia. }
  rewrite (strip_newline _ V').
  assert (S : before_suffix "-dirty" (base ++ (if changed then "-dirty" else "")) = if changed then Some base else None).
  { destruct changed; [apply before_suffix_app|]. rewrite app_empty.
    destruct (before_suffix "-dirty" base) as [t|] eqn:E; [|reflexivity]. exfalso.
    apply before_suffix_some in E. exact (N eq_refl t E). }
  assert (M : match_describe base = None).
  { destruct (match_describe base) as [[[t n] h]|] eqn:E; [|reflexivity]. exfalso.
    apply match_describe_iff in E. destruct E as (E & H1 & _ & H2 & H3 & H4 & H5).
    exact (B t n h H1 H2 H3 (conj H4 H5) E). }
  assert (C : has_char "-" base = true).
  { destruct (has_char "-" base) eqn:E; [reflexivity|]. exfalso. apply D. apply has_char_not. exact E. }
  rewrite S. destruct changed.
  - rewrite C, M. cbn [render perror long]. rewrite app_assoc. reflexivity.
  - rewrite app_empty in *. rewrite C, M. reflexivity.
Qed.

Example c78_unparsable_example :
  get_versions unexpanded (module_in "/src")
    (fun _ => Git (Some ".git") (Some ("1.2-3" ++ newline)) (Some ("0a1b2c3d" ++ newline)) None None) =
  Gives (Versions "unknown" (Some "0a1b2c3d") None (Some "unable to parse git-describe output: '1.2-3'") None).
Proof. vm_compute. reflexivity. Qed.

(** ** The hypotheses are met *)

Ltac chars := repeat split; try discriminate; unfold hex_digit, visible, digit, other_than, code; cbn; try lia; try discriminate; try tauto.

(** A tag with a dash and a plus sign, three commits later, with changes. *)
Example c78_tagged_example :
  let g := fun _ => Git (Some ".git") (Some (described "1.0-rc+x" 3 "0a1b2c3" true))
    (Some ("0a1b2c3d" ++ newline)) (Some (decimal 10 ++ newline)) (Some ("2020-09-01 12:00:00 -0400" ++ newline)) in
  get_versions unexpanded (module_in "/home/u/trading_calendars") g =
  Gives (Versions "1.0-rc+x.3.g0a1b2c3.dirty" (Some "0a1b2c3d") (Some true) None (Some "2020-09-01T12:00:00-0400")).
Proof.
  intros g. apply (c78_tagged "/home/u/trading_calendars" g "1.0-rc+x" 3 "0a1b2c3" "0a1b2c3d" true 10 "2020-09-01" "12:00:00" "-0400");
    try solve [chars]. exists ".git". reflexivity.
Qed.
Example c78_released_example :
  let g := fun _ => Git (Some ".git") (Some (described "2.1.1" 0 "0a1b2c3" false))
    (Some ("0a1b2c3d" ++ newline)) (Some (decimal 10 ++ newline)) (Some ("2020-09-01 12:00:00 -0400" ++ newline)) in
  get_versions unexpanded (module_in "/home/u/trading_calendars") g =
  Gives (Versions "2.1.1" (Some "0a1b2c3d") (Some false) None (Some "2020-09-01T12:00:00-0400")).
Proof.
  intros g. apply (c78_tagged "/home/u/trading_calendars" g "2.1.1" 0 "0a1b2c3" "0a1b2c3d" false 10 "2020-09-01" "12:00:00" "-0400");
    try solve [chars]. exists ".git". reflexivity.
Qed.
Example c78_untagged_example :
  let g := fun _ => Git (Some ".git") (Some (described_untagged "0a1b2c3" true))
    (Some ("0a1b2c3d4e" ++ newline)) (Some (decimal 417 ++ newline)) (Some ("2020-09-01 12:00:00 -0400" ++ newline)) in
  get_versions unexpanded (module_in "/home/u/trading_calendars") g =
  Gives (Versions "0+untagged.417.g0a1b2c3.dirty" (Some "0a1b2c3d4e") (Some true) None (Some "2020-09-01T12:00:00-0400")).
Proof.
  intros g. apply (c78_untagged "/home/u/trading_calendars" g 417 "0a1b2c3" "0a1b2c3d4e" true "2020-09-01" "12:00:00" "-0400");
    try solve [chars]. exists ".git". reflexivity.
Qed.
Example c78_archive_example :
  (forall r, In r [Head "master"; Tag "2.1.1"; Tag "2.1.0"; Branch "r2"] -> plain (ref_name r)) /\
  decoration [Head "master"; Tag "2.1.1"; Tag "2.1.0"; Branch "r2"] = " (HEAD -> master, tag: 2.1.1, tag: 2.1.0, r2)" /\
  get_versions (archived [Head "master"; Tag "2.1.1"; Tag "2.1.0"; Branch "r2"] "0a1b" "2020-09-01" "12:00:00" "-0400") None
    (fun _ => Git None None None None None) =
  Gives (Versions "2.1.0" (Some "0a1b") (Some false) None (Some "2020-09-01T12:00:00-0400")).
Proof.
  split; [|split; reflexivity]. intros r [<-|[<-|[<-|[<-|[]]]]]; unfold plain; cbn [ref_name]; chars.
Qed.
Example c78_archive_untagged_example :
  get_versions (archived [Branch "master"] "0a1b" "2020-09-01" "12:00:00" "-0400") None (fun _ => Git None None None None None) =
  Gives (Versions "0+unknown" (Some "0a1b") (Some false) (Some "no suitable tags") None).
Proof.
  apply c78_archive_untagged.
  - intros r [<-|[]]. unfold plain. cbn [ref_name]. chars.
  - chars.
  - discriminate.
  - intros t [H|[]]. discriminate.
  - intros r [<-|[]]. rewrite <- some_digit. discriminate.
Qed.
Example c78_archive_branch_example :
  get_versions (archived [Head "py3"] "0a1b" "2020-09-01" "12:00:00" "-0400") None (fun _ => Git None None None None None) =
  Gives (Versions "HEAD -> py3" (Some "0a1b") (Some false) None (Some "2020-09-01T12:00:00-0400")).
Proof.
  apply c78_archive_branch_refuted; try solve [unfold plain; chars]. apply some_digit. reflexivity.
Qed.
Example c78_directory_example :
  get_versions unexpanded (module_in "/tmp/calendars-2.1.1") (fun _ => Git None None None None None) =
  Gives (Versions "2.1.1" None (Some false) None None).
Proof. apply (c78_directory "/tmp" "2.1.1"); [chars|reflexivity]. Qed.
Example c78_directory_refuted_example :
  get_versions unexpanded (module_in "/home/u/src/trading_calendars-2.1.1") (fun _ => Git None None None None None) =
  Gives (Versions "0+unknown" None None (Some "unable to compute version") None).
Proof. apply (c78_directory_refuted "/home" "src" "u" "2.1.1"); try solve [chars]; try (intros w; discriminate); try reflexivity. Qed.
Example c78_tells_apart_example :
  expected_version "2.1.1" 3 "0a1b" true = "2.1.1+3.g0a1b.dirty" /\ expected_version "2.1.1" 3 "0a1b" false = "2.1.1+3.g0a1b" /\
  expected_version "2.1.1" 0 "0a1b" true = "2.1.1+0.g0a1b.dirty" /\ expected_version "2.1.1" 0 "0a1b" false = "2.1.1".
Proof. repeat split; reflexivity. Qed.

(** ** Assumptions *)
Print Assumptions c78_tagged.
Print Assumptions c78_untagged.
Print Assumptions c78_tells_apart.
Print Assumptions c78_local_version.
Print Assumptions c78_archive.
Print Assumptions c78_archive_untagged.
Print Assumptions c78_archive_branch_refuted.
Print Assumptions c78_directory.
Print Assumptions c78_directory_refuted.
Print Assumptions c78_answers.
Print Assumptions c78_answers_refuted.
Print Assumptions c78_raises.
Print Assumptions c78_unparsable.
