(** C96: the version recorded in a distribution or an archive is read back. *)
From Coq Require Import String Ascii ZArith NArith List Bool Lia.
From Verif.Model Require Import Base Version Versioneer VersionSource.
From Verif.Spec Require Import Git Distribution.
From Verif.Proofs Require Import VersionLemmas VersioneerLemmas.
From Verif.Properties Require Import VersionProps.
Import ListNotations.
Open Scope string_scope.

(** ** The dictionary *)

Lemma as_dict_not_empty : forall v, as_dict v <> [].
Proof. discriminate. Qed.
Lemma sorted_dict : forall v, sort_keys (as_dict v) =
  [("date", opt_text (date v)); ("dirty", match dirty v with Some b => Truth b | None => Null end);
   ("error", opt_text (error v)); ("full-revisionid", opt_text (full_revisionid v)); ("version", Text (version v))].
Proof. reflexivity. Qed.
Lemma sorted_again : forall v, sort_keys (sort_keys (as_dict v)) = sort_keys (as_dict v).
Proof. reflexivity. Qed.
Ltac entries := repeat (first [left; reflexivity|right]).
Ltac distinct := repeat (constructor; [cbn; intuition discriminate|]); constructor.
Lemma describes_sorted : forall v, describes (sort_keys (as_dict v)) v.
Proof.
  intros v. rewrite sorted_dict. unfold describes. split; [reflexivity|]. split; [cbn [map fst]; distinct|].
  repeat split; entries.
Qed.
Lemma describes_dict : forall v, describes (as_dict v) v.
Proof.
  intros v. unfold describes, as_dict. split; [reflexivity|]. split; [cbn [map fst]; distinct|].
  repeat split; entries.
Qed.
Lemma same_file : forall v, version_file (sort_keys (as_dict v)) = version_file (as_dict v).
Proof.
  intros v. unfold version_file. rewrite (dumps_enc (as_dict v)) by apply as_dict_not_empty.
  rewrite dumps_enc by (apply sort_not_empty; apply as_dict_not_empty). rewrite sorted_again. reflexivity.
Qed.

(** ** The file that setup.py writes *)

(** Every version that is recorded is found in the file, and recording it again gives
    the same file. *)
Theorem c96_read_back : forall v, exists d,
  versions_from_file (Some (version_file (as_dict v))) = Gives d /\ describes d v /\
  version_file d = version_file (as_dict v).
Proof.
  intros v. exists (sort_keys (as_dict v)). rewrite file_read by apply as_dict_not_empty.
  split; [reflexivity|]. split; [apply describes_sorted|apply same_file].
Qed.

Definition printable (a : ascii) : Prop := (32 <= code a <= 126)%nat.
Fixpoint printable_b (s : string) : bool :=
  match s with
  | EmptyString => true
  | String a s' => let n := N_of_ascii a in (32 <=? n)%N && (n <=? 126)%N && printable_b s'
  end.
Lemma printable_b_ok : forall s, printable_b s = true -> every printable s.
Proof.
  induction s as [|a s IH]; intros H; [exact I|]. cbn [printable_b] in H. apply andb_prop in H. destruct H as [A B].
  split; [|apply IH; exact B]. unfold printable, code, nat_of_ascii. apply andb_prop in A. destruct A as [A1 A2]. apply N.leb_le in A1, A2. lia.
Qed.
Lemma escape_printable : forall a, every printable (escape a).
Proof. intros a. apply printable_b_ok. bits a; reflexivity. Qed.
Lemma escaped_printable : forall s, every printable (escaped s).
Proof. induction s as [|a s IH]; [exact I|]. cbn [escaped]. apply every_app. split; [apply escape_printable|exact IH]. Qed.
Ltac by_code := apply printable_b_ok; reflexivity.
Lemma quote_printable : every printable quote. Proof. by_code. Qed.
Lemma item_printable : forall p, every printable (enc_item escaped p).
Proof.
  intros [k v]. unfold enc_item. cbn [fst snd].
  apply every_app; split; [exact quote_printable|]. apply every_app; split; [apply escaped_printable|].
  apply every_app; split; [exact quote_printable|]. apply every_app; split; [by_code|].
  destruct v as [|[|]|s]; cbn [enc_value]; try by_code.
  apply every_app; split; [exact quote_printable|]. apply every_app; split; [apply escaped_printable|exact quote_printable].
Qed.
Lemma printable_ascii : forall s, every printable s -> ascii_text s.
Proof. intros s. apply every_impl. intros a H. left. exact H. Qed.
Lemma items_ascii : forall d, ascii_text (enc_items escaped d).
Proof.
  induction d as [|p d IH]; [exact I|]. destruct d as [|q d].
  - apply printable_ascii. apply item_printable.
  - change (enc_items escaped (p :: q :: d)) with (enc_item escaped p ++ ("," ++ nl ++ " ") ++ enc_items escaped (q :: d)).
    apply every_app; split; [apply printable_ascii; apply item_printable|]. apply every_app; split; [|exact IH].
    repeat split; first [right; reflexivity|left; unfold code; cbn; lia].
Qed.
Fixpoint ascii_b (s : string) : bool :=
  match s with
  | EmptyString => true
  | String a s' =>
      let n := N_of_ascii a in
      (if (n =? 10)%N then true else (32 <=? n)%N && (n <=? 126)%N) && ascii_b s'
  end.
Lemma ascii_b_ok : forall s, ascii_b s = true -> ascii_text s.
Proof.
  induction s as [|a s IH]; intros H; [exact I|]. cbn [ascii_b] in H. apply andb_prop in H. destruct H as [A B].
  split; [|apply IH; exact B]. unfold code, nat_of_ascii. destruct (N.eqb_spec (N_of_ascii a) 10) as [E|_].
  - right. rewrite <- (ascii_N_embedding a), E. reflexivity.
  - left. apply andb_prop in A. destruct A as [A1 A2]. apply N.leb_le in A1, A2. lia.
Qed.

(** The file is ASCII whatever the version is, so it does not depend on the encoding with
    which it is written and read. *)
Theorem c96_ascii : forall v, ascii_text (version_file (as_dict v)).
Proof.
  intros v. unfold version_file. rewrite dumps_enc by apply as_dict_not_empty. unfold enc_dict.
  apply every_app; split; [apply ascii_b_ok; reflexivity|]. apply every_app; split; [apply ascii_b_ok; reflexivity|].
  apply every_app; split; [|apply ascii_b_ok; reflexivity].
  do 3 (apply every_app; split; [apply ascii_b_ok; reflexivity|]).
  apply every_app; split; [apply items_ascii|apply ascii_b_ok; reflexivity].
Qed.

(** The version stands in the file as it is, if all its characters are printable and none is a
    quote or a backslash. *)
Lemma escape_itself : forall a, printable a -> a <> "034"%char -> a <> "092"%char -> escape a = String a "".
Proof.
  intros a P Q B. unfold printable, code in P. bits a; try congruence; try reflexivity; exfalso; cbv in P; lia.
Qed.
Lemma escaped_itself : forall s, every (fun a => (32 <= code a <= 126)%nat /\ a <> "034"%char /\ a <> "092"%char) s -> escaped s = s.
Proof.
  induction s as [|a s IH]; intros H; [reflexivity|]. destruct H as [[P [Q B]] H]. cbn [escaped].
  rewrite escape_itself by assumption. rewrite IH by exact H. reflexivity.
Qed.
Theorem c96_legible : forall v,
  every (fun a => (32 <= code a <= 126)%nat /\ a <> "034"%char /\ a <> "092"%char) (version v) ->
  exists a b, version_file (as_dict v) =
    a ++ String "034" ("version" ++ String "034" (": " ++ String "034" (version v ++ String "034" b))).
Proof.
  intros v H. unfold version_file. rewrite dumps_enc by apply as_dict_not_empty. rewrite sorted_dict. unfold enc_dict.
  cbn [enc_items]. unfold enc_item at 5. cbn [fst snd enc_value].
  rewrite (escaped_itself "version") by (cbn [every]; repeat split; try discriminate; unfold code; cbn; lia).
  rewrite (escaped_itself (version v)) by exact H.
  match goal with |- context [enc_item escaped ?p1 ++ "," ++ nl ++ " " ++ enc_item escaped ?p2 ++ "," ++ nl ++ " " ++ enc_item escaped ?p3 ++ "," ++ nl ++ " " ++ enc_item escaped ?p4 ++ "," ++ nl ++ " " ++ _] =>
    exists (header ++ nl ++ "{" ++ nl ++ " " ++ enc_item escaped p1 ++ "," ++ nl ++ " " ++ enc_item escaped p2 ++ "," ++ nl ++ " " ++
            enc_item escaped p3 ++ "," ++ nl ++ " " ++ enc_item escaped p4 ++ "," ++ nl ++ " "), (nl ++ "}" ++ nl ++ "'''" ++ footer)
  end.
  change (String "034" ("version" ++ String "034" (": " ++ String "034" (version v ++ String "034" (nl ++ "}" ++ nl ++ "'''" ++ footer)))))
    with (quote ++ "version" ++ quote ++ ": " ++ quote ++ version v ++ quote ++ nl ++ "}" ++ nl ++ "'''" ++ footer).
  rewrite !app_assoc. reflexivity.
Qed.

(** ** The package *)

Lemma plain_good : forall v, plain_version v -> Forall (good raw_text) (as_dict v).
Proof.
  intros v [Hv [Hf [He Hd]]].
  assert (K : forall k, ascii_b k = true -> has_char "034" k = false -> has_char "092" k = false -> has_char "010" k = false ->
     has_char "039" k = false -> raw_text k).
  { intros k A Q B N T. split.
    - induction k as [|a k IH]; [exact I|]. cbn [has_char] in *.
      destruct (Ascii.eqb_spec a "034"); [discriminate|]. destruct (Ascii.eqb_spec a "092"); [discriminate|].
      destruct (Ascii.eqb_spec a "010"); [discriminate|]. destruct (Ascii.eqb_spec a "039"); [discriminate|].
      pose proof (ascii_b_ok _ A) as [[L|L] _]; [|congruence].
      cbn [ascii_b] in A. apply andb_prop in A. split; [split; [lia|split; assumption]|apply IH; tauto].
    - intros x y E. rewrite E, has_char_app in T. apply orb_false_iff in T. destruct T as [_ T]. discriminate T. }
  unfold as_dict. repeat (constructor; [split; [apply K; reflexivity|]|]); cbn [snd]; [| | | | |constructor].
  - exact Hv.
  - unfold opt_text. destruct (full_revisionid v); [exact Hf|exact I].
  - destruct (dirty v); exact I.
  - unfold opt_text. destruct (error v); [exact He|exact I].
  - unfold opt_text. destruct (date v); [exact Hd|exact I].
Qed.

(** An installed package reports the recorded version if its texts are plain. *)
Theorem c96_package : forall v, plain_version v ->
  exists d, module_versions (version_file (as_dict v)) = Parsed d /\ describes d v.
Proof.
  intros v H. exists (sort_keys (as_dict v)). split; [|apply describes_sorted].
  apply module_read; [apply as_dict_not_empty|apply plain_good; exact H].
Qed.

(** The file is a module in which the text stands between three apostrophes, without being a raw
    literal: a quote in the name of a tag ends the text of the version for json, and importing the
    package fails.  More text after the quote can change the version.  versioneer itself
    reads both files correctly. *)
Definition quoted_tag : versions := Versions ("1.0" ++ String "034" "") (Some "abc") (Some false) None None.
Definition injected : versions :=
  Versions ("1.0" ++ String "034" (", " ++ String "034" ("x" ++ String "034" (": " ++ String "034" "y")))) (Some "abc") (Some false) None None.
Theorem c96_package_refuted :
  (every visible (version quoted_tag) /\ module_versions (version_file (as_dict quoted_tag)) = Malformed) /\
  (exists d, module_versions (version_file (as_dict injected)) = Parsed d /\ In ("version", Text "1.0") d /\
     ~ In ("version", Text (version injected)) d).
Proof.
  split.
  - split; [unfold quoted_tag, visible, code; cbn; lia|reflexivity].
  - eexists. split; [vm_compute; reflexivity|]. cbn. split; [intuition congruence|].
    intuition congruence.
Qed.

(** ** Lines *)

Lemma readlines_line : forall a b, every (other_than "010") a -> readlines (a ++ nl ++ b) = (a ++ nl) :: readlines b.
Proof.
  induction a as [|x a IH]; intros b H; [reflexivity|]. destruct H as [Hx H]. cbn [append readlines].
  destruct (Ascii.eqb_spec x "010"); [contradiction|]. rewrite IH by exact H. reflexivity.
Qed.
Lemma readlines_app : forall h b, readlines ((h ++ nl) ++ b) = (readlines (h ++ nl) ++ readlines b)%list.
Proof.
  induction h as [|x h IH]; intros b; [reflexivity|]. cbn [append readlines].
  destruct (Ascii.eqb x "010"); rewrite IH; [reflexivity|].
  destruct (readlines (h ++ nl)) as [|l ls] eqn:E; [|reflexivity].
  exfalso. clear IH. destruct h as [|y h]; cbn [append readlines] in E; [discriminate|].
  destruct (Ascii.eqb y "010"); [discriminate|]. destruct (readlines (h ++ nl)); discriminate.
Qed.
Lemma readlines_text : forall ls, Forall (every (other_than "010")) ls -> readlines (text_of ls) = map (fun l => l ++ nl) ls.
Proof.
  induction ls as [|l ls IH]; intros H; [reflexivity|]. inversion H; subst. cbn [text_of map].
  change newline with nl. rewrite readlines_line by assumption. rewrite IH by assumption. reflexivity.
Qed.

(** A line that starts, after white space, with something else than a g. *)
Definition bare (l : string) : bool :=
  match lstrip is_space l with
  | EmptyString => true
  | String a _ => negb (Ascii.eqb a "g")
  end.
Lemma lstrip_first : forall p s a t, lstrip p s = String a t -> p a = false.
Proof.
  intros p. induction s as [|x s IH]; intros a t H; [discriminate|]. cbn [lstrip] in H.
  destruct (p x) eqn:E; [exact (IH _ _ H)|]. injection H as -> _. exact E.
Qed.
Lemma bare_not : forall name l, bare l = true -> is_prefix_of (String "g" name) (strip l) = false.
Proof.
  intros name l H. unfold bare in H. unfold strip, strip_of. destruct (lstrip is_space l) as [|a t] eqn:E; [reflexivity|].
  pose proof (lstrip_first _ _ _ _ E) as S. change (String a t) with ("" ++ String a t). rewrite rstrip_last by exact S.
  cbn [append]. unfold is_prefix_of. cbn [after_prefix]. destruct (Ascii.eqb_spec "g" a) as [<-|_]; [discriminate H|reflexivity].
Qed.
Lemma keyword_none : forall name ls, Forall (fun l => is_prefix_of name (strip l) = false) ls -> forall acc,
  fold_left (fun acc l => if is_prefix_of name (strip l) then match quoted l with Some g => Some g | None => acc end else acc) ls acc = acc.
Proof.
  intros name. induction 1 as [|l ls H _ IH]; intros acc; [reflexivity|]. cbn [fold_left]. rewrite H. apply IH.
Qed.
Lemma bare_keyword : forall name ls, Forall (fun l => bare l = true) ls -> keyword (String "g" name) ls = None.
Proof.
  intros name ls H. unfold keyword. apply keyword_none. apply Forall_forall. intros l Hl. apply bare_not.
  rewrite Forall_forall in H. apply H. exact Hl.
Qed.
Lemma printable_line : forall s, every printable s -> every (other_than "010") s.
Proof. intros s. apply every_impl. intros a H ->. unfold printable, code in H. cbn in H. lia. Qed.
Lemma item_bare : forall p t, bare (" " ++ enc_item escaped p ++ t) = true.
Proof. intros p t. reflexivity. Qed.
Lemma items_bare : forall d b, d <> [] -> Forall (fun l => bare l = true) (readlines b) ->
  Forall (fun l => bare l = true) (readlines (" " ++ enc_items escaped d ++ nl ++ b)).
Proof.
  induction d as [|p d IH]; intros b Hd H; [congruence|]. destruct d as [|q d].
  - cbn [enc_items]. replace (" " ++ enc_item escaped p ++ nl ++ b) with ((" " ++ enc_item escaped p) ++ nl ++ b) by (rewrite !app_assoc; reflexivity).
    rewrite readlines_line by (apply every_app; split; [repeat split; discriminate|apply printable_line; apply item_printable]).
    constructor; [|exact H]. rewrite app_assoc. apply item_bare.
  - change (enc_items escaped (p :: q :: d)) with (enc_item escaped p ++ "," ++ nl ++ " " ++ enc_items escaped (q :: d)).
    replace (" " ++ (enc_item escaped p ++ "," ++ nl ++ " " ++ enc_items escaped (q :: d)) ++ nl ++ b)
      with ((" " ++ enc_item escaped p ++ ",") ++ nl ++ (" " ++ enc_items escaped (q :: d) ++ nl ++ b)) by (rewrite !app_assoc; reflexivity).
    rewrite readlines_line.
    + constructor; [rewrite !app_assoc; apply item_bare|]. apply IH; [discriminate|exact H].
    + apply every_app; split; [repeat split; discriminate|]. apply every_app; split; [apply printable_line; apply item_printable|repeat split; discriminate].
Qed.
Lemma file_bare : forall v, Forall (fun l => bare l = true) (readlines (version_file (as_dict v))).
Proof.
  intros v. unfold version_file. rewrite dumps_enc by apply as_dict_not_empty. unfold enc_dict.
  set (e := sort_keys (as_dict v)). assert (He : e <> []) by (apply sort_not_empty; apply as_dict_not_empty). clearbody e.
  replace (header ++ nl ++ ("{" ++ nl ++ " " ++ enc_items escaped e ++ nl ++ "}") ++ nl ++ "'''" ++ footer)
    with ((header ++ nl) ++ ("{" ++ nl) ++ " " ++ enc_items escaped e ++ nl ++ ("}" ++ nl ++ "'''" ++ footer)) by (rewrite !app_assoc; reflexivity).
  rewrite !readlines_app. apply Forall_app; split.
  - apply Forall_forall. apply forallb_forall. vm_compute. reflexivity.
  - apply Forall_app; split; [apply Forall_forall; apply forallb_forall; vm_compute; reflexivity|].
    apply items_bare; [exact He|]. apply Forall_forall; apply forallb_forall; vm_compute; reflexivity.
Qed.
Lemma file_keywords : forall v prefix, versions_from_keywords (Some (version_file (as_dict v))) prefix = NotThis.
Proof.
  intros v prefix. unfold versions_from_keywords. rewrite !bare_keyword by apply file_bare. reflexivity.
Qed.

(** setup.py in an unpacked distribution finds the version that was recorded when the distribution was
    made, wherever it is unpacked and even inside of a checkout of something else. *)
Theorem c96_sdist : forall v root g, exists d,
  setup_versions (Some (version_file (as_dict v))) root g = Gives d /\ describes d v /\
  version_file d = version_file (as_dict v).
Proof.
  intros v root g. destruct (c96_read_back v) as [d [H [D F]]]. exists d. unfold setup_versions.
  rewrite file_keywords, H. repeat split; try apply D. exact F.
Qed.

(** ** Archives and checkouts *)

Lemma blank_space : forall a, is_space a = true <-> blank a.
Proof.
  intros a. unfold is_space, blank, code, nat_of_ascii. rewrite !orb_true_iff, !andb_true_iff, N.eqb_eq, !N.leb_le. lia.
Qed.
Lemma lstrip_split : forall p s, exists a, every (fun x => p x = true) a /\ s = a ++ lstrip p s.
Proof.
  intros p. induction s as [|x s [a [A E]]]; [exists ""; split; [exact I|reflexivity]|]. cbn [lstrip]. destruct (p x) eqn:P.
  - exists (String x a). split; [split; assumption|]. cbn [append]. rewrite <- E. reflexivity.
  - exists "". split; [exact I|reflexivity].
Qed.
Lemma rstrip_split : forall p s, exists b, s = rstrip p s ++ b.
Proof.
  intros p. induction s as [|x s [b E]]; [exists ""; reflexivity|]. cbn [rstrip].
  destruct (rstrip p s) as [|y t].
  - destruct (p x); [exists (String x s); reflexivity|exists s; reflexivity].
  - exists b. cbn [append]. rewrite E at 1. reflexivity.
Qed.
Lemma strip_split : forall s, exists a b, every blank a /\ s = a ++ strip s ++ b.
Proof.
  intros s. destruct (lstrip_split is_space s) as [a [A E]]. destruct (rstrip_split is_space (lstrip is_space s)) as [b F].
  exists a, b. split; [revert A; apply every_impl; intros x; apply blank_space|]. unfold strip, strip_of. rewrite <- F. exact E.
Qed.
Lemma split_line : forall x y l, l ++ nl = x ++ y -> (exists z, l = x ++ z) \/ x = l ++ nl.
Proof.
  induction x as [|c x IH]; intros y l E; [left; exists l; reflexivity|].
  destruct l as [|d l].
  - right. cbn in E. injection E as <- E. destruct x; [reflexivity|discriminate].
  - cbn [append] in E. injection E as <- E. destruct (IH _ _ E) as [[z ->]| ->]; [left; exists z; reflexivity|right; reflexivity].
Qed.
Lemma last_same : forall a b x y, a ++ String x "" = b ++ String y "" -> x = y.
Proof.
  induction a as [|c a IH]; intros [|d b] x y E; cbn [append] in E.
  - injection E as E. exact E.
  - injection E as _ E. destruct b; discriminate.
  - injection E as _ E. destruct a; discriminate.
  - injection E as _ E. exact (IH _ _ _ E).
Qed.
Definition names : list string := ["git_refnames ="; "git_full ="; "git_date ="].
Lemma other_not : forall l name, other_line l -> In name names -> is_prefix_of name (strip (l ++ nl)) = false.
Proof.
  intros l name [_ H] Hn. unfold is_prefix_of. destruct (after_prefix name (strip (l ++ nl))) as [t|] eqn:E; [|reflexivity]. exfalso.
  apply after_prefix_some in E. destruct (strip_split (l ++ nl)) as [a [b [A S]]]. rewrite E, !app_assoc, <- app_assoc in S.
  destruct (split_line _ _ _ S) as [[z Z]|Z].
  - apply (H a name z A Hn). rewrite Z, app_assoc. reflexivity.
  - assert (L : exists n, name = n ++ "=") by (destruct Hn as [<-|[<-|[<-|[]]]]; [exists "git_refnames "|exists "git_full "|exists "git_date "]; reflexivity).
    destruct L as [n ->]. rewrite <- app_assoc in Z. apply last_same in Z. discriminate.
Qed.
Lemma up_to_all : forall s t, every (other_than "010") s -> up_to_newline (s ++ nl ++ t) = s.
Proof.
  induction s as [|a s IH]; intros t H; [reflexivity|]. destruct H as [Ha H]. cbn [append up_to_newline].
  destruct (Ascii.eqb_spec a "010"); [contradiction|]. rewrite IH by exact H. reflexivity.
Qed.
Lemma quoted_skip : forall h t, has_char "=" h = false -> quoted (h ++ t) = quoted t.
Proof.
  induction h as [|a h IH]; intros t H; [reflexivity|]. cbn [has_char append] in *. cbn [quoted].
  destruct (Ascii.eqb a "="); [discriminate|]. apply IH. exact H.
Qed.
Lemma quoted_assignment : forall name s, has_char "=" name = false -> every (other_than "010") s ->
  quoted (assignment name s ++ nl) = Some s.
Proof.
  intros name s Hn Hs. unfold assignment. replace (("    " ++ name ++ " = " ++ String "034" (s ++ String "034" "")) ++ nl)
    with (("    " ++ name ++ " ") ++ String "=" (String " " (String "034" ((s ++ quote) ++ nl ++ ""))))
    by (unfold quote, nl; cbn [append]; rewrite !app_assoc; cbn [append]; rewrite ?app_assoc; reflexivity).
  rewrite quoted_skip by (rewrite !has_char_app, Hn; reflexivity).
  cbn [quoted]. change (Ascii.eqb "=" "=") with true. cbv iota.
  change (first_is "034" (lstrip is_space (String " " (String "034" ((s ++ quote) ++ nl ++ ""))))) with (Some ((s ++ quote) ++ nl ++ "")). cbv iota.
  rewrite up_to_all by (apply every_app; split; [exact Hs|repeat split; discriminate]).
  rewrite (before_last_app quote s quote "") by reflexivity. rewrite app_empty. reflexivity.
Qed.
Lemma strip_assignment : forall name s, name <> "" -> every visible name -> strip (assignment name s ++ nl) = name ++ " = " ++ String "034" (s ++ String "034" "").
Proof.
  intros name s N V. unfold assignment, strip, strip_of.
  rewrite !app_assoc. rewrite lstrip_keep by (repeat split; reflexivity).
  destruct name as [|c name]; [congruence|]. destruct V as [Vc V].
  cbn [append lstrip]. rewrite (visible_not_space c Vc).
  replace (String c (name ++ String " " (String "=" (String " " (String "034" ((s ++ String "034" "") ++ nl))))))
    with ((String c name ++ " = " ++ String "034" s) ++ String "034" nl)
    by (cbn [append]; rewrite !app_assoc; cbn [append]; rewrite ?app_assoc; reflexivity).
  rewrite rstrip_last by reflexivity. change (rstrip is_space nl) with "". cbn [append]. rewrite ?app_assoc. cbn [append]. reflexivity.
Qed.

Section Source.
  Variables before after : list string.
  Variable k : keywords.
  Hypothesis B : Forall other_line before.
  Hypothesis A : Forall other_line after.
  Hypothesis Kr : every (other_than "010") (refnames k).
  Hypothesis Kf : every (other_than "010") (full k).
  Hypothesis Kd : every (other_than "010") (kdate k).

  Lemma assignment_line : forall name s, every (other_than "010") name -> every (other_than "010") s -> every (other_than "010") (assignment name s).
  Proof.
    intros name s N S. unfold assignment. apply every_app; split; [repeat split; discriminate|]. apply every_app; split; [exact N|].
    apply every_app; split; [repeat split; discriminate|]. split; [discriminate|]. apply every_app; split; [exact S|repeat split; discriminate].
  Qed.
  Lemma source_lines : readlines (source before after k) =
    (map (fun l => (l ++ nl)%string) before ++ [(assignment "git_refnames" (refnames k) ++ nl)%string; (assignment "git_full" (full k) ++ nl)%string;
     (assignment "git_date" (kdate k) ++ nl)%string] ++ map (fun l => (l ++ nl)%string) after)%list.
  Proof.
    unfold source. rewrite readlines_text; [rewrite !map_app; reflexivity|].
    assert (O : forall ls, Forall other_line ls -> Forall (every (other_than "010")) ls)
      by (intros ls; apply Forall_impl; intros l [H _]; exact H).
    apply Forall_app; split; [apply O; exact B|]. apply Forall_app; split; [|apply O; exact A].
    repeat (apply Forall_cons; [apply assignment_line; try assumption; repeat split; discriminate|]). apply Forall_nil.
  Qed.
  Lemma others_not : forall ls name, Forall other_line ls -> In name names ->
    Forall (fun l => is_prefix_of name (strip l) = false) (map (fun l => l ++ nl) ls).
  Proof. intros ls name H N. apply Forall_map. revert H. apply Forall_impl. intros l Hl. apply other_not; assumption. Qed.
  Lemma source_keyword : forall name, In name names -> keyword name (readlines (source before after k)) =
    Some (if String.eqb name "git_refnames =" then refnames k else if String.eqb name "git_full =" then full k else kdate k).
  Proof.
    intros name N. rewrite source_lines. unfold keyword. rewrite !fold_left_app.
    rewrite (keyword_none name (map (fun l => l ++ nl) before)) by (apply others_not; assumption).
    rewrite (keyword_none name (map (fun l => l ++ nl) after)) by (apply others_not; assumption).
    cbn [fold_left].
    rewrite !strip_assignment by (try discriminate; unfold visible, code; cbn; lia).
    rewrite !quoted_assignment by (try assumption; reflexivity).
    destruct N as [<-|[<-|[<-|[]]]]; reflexivity.
  Qed.
  Lemma source_keywords : forall prefix, versions_from_keywords (Some (source before after k)) prefix = git_versions_from_keywords k prefix.
  Proof.
    intros prefix. unfold versions_from_keywords.
    rewrite !source_keyword by (cbn; tauto). cbn [String.eqb Ascii.eqb Bool.eqb].
    destruct k as [r f d]. cbn [refnames full kdate]. destruct (git_versions_from_keywords (Keywords r f d) prefix); reflexivity.
  Qed.
End Source.

Definition unreplaced (k : keywords) : Prop := exists indent rest, every blank indent /\ refnames k = indent ++ "$Format" ++ rest.
Lemma replaced_gives : forall k prefix, ~ unreplaced k -> exists v, git_versions_from_keywords k prefix = Gives v.
Proof.
  intros k prefix H. unfold git_versions_from_keywords.
  destruct (after_prefix "$Format" (strip (refnames k))) as [t|] eqn:E.
  - exfalso. apply H. apply after_prefix_some in E. destruct (strip_split (refnames k)) as [a [b [X S]]]. rewrite E in S.
    exists a, (t ++ b). split; [exact X|]. rewrite S at 1. rewrite !app_assoc. reflexivity.
  - match goal with |- exists v, match ?l with _ => _ end = _ => destruct l end; eexists; reflexivity.
Qed.

(** In an archive, where git has replaced the three texts, setup.py gives the version that the package
    gives, wherever the archive is unpacked. *)
Theorem c96_archive : forall before after k root g file gs,
  Forall other_line before -> Forall other_line after ->
  every (other_than "010") (refnames k) -> every (other_than "010") (full k) -> every (other_than "010") (kdate k) ->
  (forall indent rest, every blank indent -> refnames k <> indent ++ "$Format" ++ rest) ->
  exists v d, get_versions k file gs = Gives v /\
    setup_versions (Some (source before after k)) root g = Gives d /\ describes d v.
Proof.
  intros before after k root g file gs B A Kr Kf Kd U.
  destruct (replaced_gives k tag_prefix) as [v Hv]; [intros [i [r [Hi E]]]; exact (U i r Hi E)|].
  exists v, (as_dict v). unfold get_versions, setup_versions. rewrite source_keywords by assumption. rewrite Hv.
  split; [reflexivity|]. split; [reflexivity|apply describes_dict].
Qed.

Lemma between_occurs : forall f l s t, between f l s = Some t -> exists a b, s = a ++ f ++ b.
Proof.
  intros f l. induction s as [|x s IH]; intros t H; cbn [between] in H.
  - destruct (after_prefix f "") as [r|] eqn:E; [|discriminate]. apply after_prefix_some in E. exists "", r. exact E.
  - destruct (after_prefix f (String x s)) as [r|] eqn:E.
    + apply after_prefix_some in E. exists "", r. exact E.
    + destruct (IH t H) as [a [b ->]]. exists (String x a), b. reflexivity.
Qed.
Lemma no_file : forall s, (forall a b, s <> a ++ "version_json = '''" ++ b) -> versions_from_file (Some s) = NotThis.
Proof.
  intros s H. unfold versions_from_file.
  destruct (between _ _ s) as [t|] eqn:E; [|clear E; destruct (between _ _ s) as [t|] eqn:E; [|reflexivity]]; exfalso;
    apply between_occurs in E; destruct E as [a [b E]]; rewrite app_assoc in E; eapply (H a); exact E.
Qed.
Lemma unexpanded_lines : every (other_than "010") (refnames unexpanded) /\ every (other_than "010") (full unexpanded) /\ every (other_than "010") (kdate unexpanded).
Proof. repeat split; discriminate. Qed.
Lemma source_not : forall before after prefix, Forall other_line before -> Forall other_line after ->
  versions_from_keywords (Some (source before after unexpanded)) prefix = NotThis.
Proof.
  intros before after prefix B A. destruct unexpanded_lines as [R [F D]]. rewrite source_keywords by assumption. reflexivity.
Qed.

(** In a checkout, setup.py and the package give the same version, or the same error. *)
Theorem c96_checkout : forall before after dir g, dir <> "" ->
  Forall other_line before -> Forall other_line after ->
  (forall a b, source before after unexpanded <> a ++ "version_json = '''" ++ b) ->
  rev_parse_git_dir (g dir) <> None -> describe (g dir) <> None -> rev_parse_head (g dir) <> None ->
  same_answer (setup_versions (Some (source before after unexpanded)) dir (g dir))
              (get_versions unexpanded (Some (dir ++ "/trading_calendars/_version.py")) g).
Proof.
  intros before after dir g Hd B A N G1 G2 G3. unfold setup_versions, get_versions.
  rewrite source_not, no_file, unexpanded_not, root_of by assumption.
  destruct (git_pieces_from_vcs tag_prefix (g dir)) as [p| |e] eqn:E; cbn [same_answer].
  - exists (as_dict (render p)). split; [reflexivity|apply describes_dict].
  - exfalso. unfold git_pieces_from_vcs in E.
    destruct (rev_parse_git_dir (g dir)); [|congruence]. destruct (describe (g dir)) as [d|]; [|congruence].
    destruct (rev_parse_head (g dir)); [|congruence]. cbn [option_map] in E.
    destruct (before_suffix "-dirty" (strip d)) as [x|];
    repeat match type of E with
    | (if ?c then _ else _) = _ => destruct c
    | match ?c with _ => _ end = _ => destruct c
    | _ => discriminate
    end.
  - reflexivity.
Qed.

(** In a directory that an archive of the project unpacks to, without git, setup.py finds the version... *)
Theorem c96_directory : forall before after above v g,
  Forall other_line before -> Forall other_line after ->
  (forall a b, source before after unexpanded <> a ++ "version_json = '''" ++ b) ->
  rev_parse_git_dir g = None -> every (other_than "/") v ->
  exists d, setup_versions (Some (source before after unexpanded)) (above ++ "/trading_calendars-" ++ v) g = Gives d /\
    describes d (Versions v None (Some false) None None).
Proof.
  intros before after above v g B A N G V. unfold setup_versions. rewrite source_not, no_file by assumption.
  unfold git_pieces_from_vcs. rewrite G. cbn [option_map versions_from_parentdir].
  change (above ++ "/trading_calendars-" ++ v) with (above ++ "/" ++ ("trading_calendars-" ++ v)).
  rewrite basename_slash by (apply every_app; split; [repeat split; discriminate|exact V]).
  unfold setup_prefix. rewrite after_prefix_app. eexists. split; [reflexivity|apply describes_dict].
Qed.

(** ...but the package does not: its own prefix is another one (see C78), so the two disagree in every
    such directory. *)
Theorem c96_directory_refuted : forall before after above b c v g,
  let dir := above ++ "/" ++ c ++ "/" ++ b ++ "/trading_calendars-" ++ v in
  Forall other_line before -> Forall other_line after ->
  (forall x y, source before after unexpanded <> x ++ "version_json = '''" ++ y) ->
  every (other_than "/") v -> every (other_than "/") b -> every (other_than "/") c -> b <> "" -> c <> "" -> v <> "0+unknown" ->
  (forall w, b <> "calendars-" ++ w) -> (forall w, c <> "calendars-" ++ w) -> rev_parse_git_dir (g dir) = None ->
  ~ same_answer (setup_versions (Some (source before after unexpanded)) dir (g dir))
                (get_versions unexpanded (Some (dir ++ "/trading_calendars/_version.py")) g).
Proof.
  intros before after above b c v g dir B A N Hv Hb Hc Nb Nc Nv Pb Pc G S.
  pose proof (c78_directory_refuted above b c v g Hv Hb Hc Nb Nc Pb Pc G) as R. fold dir in R. unfold module_in in R. rewrite R in S. clear R.
  destruct (c96_directory before after (above ++ "/" ++ c ++ "/" ++ b) v (g dir) B A N G Hv) as [d [E D]].
  replace ((above ++ "/" ++ c ++ "/" ++ b) ++ "/trading_calendars-" ++ v) with dir in E by (unfold dir; rewrite !app_assoc; reflexivity).
  cbn [same_answer] in S. destruct S as [d' [E' D']]. rewrite E in E'. injection E' as <-.
  destruct D as [L [U [I1 _]]]. destruct D' as [_ [_ [I2 _]]]. cbn [version] in I1, I2.
  assert (X : forall (l : list (string * value)) k x y, NoDup (map fst l) -> In (k, x) l -> In (k, y) l -> x = y).
  { clear. induction l as [|[k0 z] l IH]; intros k x y U H1 H2; [destruct H1|]. cbn [map fst] in U. inversion U as [|? ? Nn U']; subst.
    destruct H1 as [H1|H1]; destruct H2 as [H2|H2].
    - congruence.
    - injection H1 as -> ->. destruct Nn. apply (in_map fst) in H2. exact H2.
    - injection H2 as -> ->. destruct Nn. apply (in_map fst) in H1. exact H1.
    - exact (IH k x y U' H1 H2). }
  pose proof (X d "version" _ _ U I1 I2) as K. congruence.
Qed.

(** ** Cases *)

Definition other_b (l : string) : bool :=
  negb (has_char "010" l) && forallb (fun n => negb (is_prefix_of n (lstrip is_space l))) names.
Lemma other_b_ok : forall l, other_b l = true -> other_line l.
Proof.
  intros l H. unfold other_b in H. apply andb_prop in H. destruct H as [H1 H2]. split.
  - apply has_char_not. apply negb_true_iff. exact H1.
  - intros i n r Hi Hn ->. rewrite forallb_forall in H2. specialize (H2 n Hn). apply negb_true_iff in H2.
    rewrite lstrip_keep in H2 by (revert Hi; apply every_impl; intros a; apply blank_space).
    assert (K : lstrip is_space (n ++ r) = n ++ r) by (destruct Hn as [<-|[<-|[<-|[]]]]; reflexivity).
    rewrite K in H2. unfold is_prefix_of in H2. rewrite after_prefix_app in H2. discriminate.
Qed.
Fixpoint occurs (q s : string) : bool :=
  match after_prefix q s with
  | Some _ => true
  | None => match s with EmptyString => false | String _ s' => occurs q s' end
  end.
Lemma occurs_ok : forall q a b, occurs q (a ++ q ++ b) = true.
Proof.
  intros q. induction a as [|x a IH]; intros b.
  - cbn [append]. destruct (q ++ b) eqn:E; cbn [occurs]; rewrite <- E, after_prefix_app; reflexivity.
  - cbn [append occurs]. rewrite IH. destruct (after_prefix q (String x (a ++ q ++ b))); reflexivity.
Qed.

(** The text of _version.py meets the conditions, and the theorems apply to it. *)
Example c96_source : Forall other_line lines_before /\ Forall other_line lines_after /\
  (forall a b, source lines_before lines_after unexpanded <> a ++ "version_json = '''" ++ b).
Proof.
  split; [|split].
  - apply Forall_forall. intros l H. apply other_b_ok. revert l H. apply forallb_forall. vm_compute. reflexivity.
  - apply Forall_forall. intros l H. apply other_b_ok. revert l H. apply forallb_forall. vm_compute. reflexivity.
  - intros a b E. apply (f_equal (occurs "version_json = '''")) in E. rewrite occurs_ok in E. vm_compute in E. discriminate.
Qed.
Definition released : keywords := Keywords " (HEAD -> master, tag: 2.1.1)" "0123abc" "2020-12-01 10:00:00 -0500".
Example c96_archive_ex : forall root g, setup_versions (Some (source lines_before lines_after released)) root g =
  Gives (as_dict (Versions "2.1.1" (Some "0123abc") (Some false) None (Some "2020-12-01T10:00:00-0500"))).
Proof.
  intros root g. destruct c96_source as [B [A _]]. unfold setup_versions.
  rewrite source_keywords by (try assumption; repeat split; discriminate). vm_compute. reflexivity.
Qed.
Definition recorded : versions := Versions "2.1.1+3.gabc1234.dirty" (Some "abc1234") (Some true) None (Some "2020-12-01T10:00:00-0500").
Example c96_plain_ex : plain_version recorded /\
  module_versions (version_file (as_dict recorded)) = Parsed (sort_keys (as_dict recorded)).
Proof.
  split.
  - assert (K : forall s, printable_b s = true -> has_char "034" s = false -> has_char "092" s = false -> occurs "'''" s = false -> plain_text s).
    { intros s P Q B T. split.
      - apply printable_b_ok in P. apply has_char_not in Q, B. clear T. induction s as [|a s IH]; [exact I|].
        destruct P as [P1 P2]. destruct Q as [Q1 Q2]. destruct B as [B1 B2].
        split; [split; [apply P1|split; assumption]|]. apply IH; assumption.
      - intros x y ->. rewrite occurs_ok in T. discriminate. }
    split; [apply K; reflexivity|]. split; [apply K; reflexivity|]. split; [exact I|apply K; reflexivity].
  - vm_compute. reflexivity.
Qed.

(** ** Assumptions *)
Print Assumptions c96_read_back.
Print Assumptions c96_ascii.
Print Assumptions c96_legible.
Print Assumptions c96_package.
Print Assumptions c96_package_refuted.
Print Assumptions c96_sdist.
Print Assumptions c96_archive.
Print Assumptions c96_checkout.
Print Assumptions c96_directory.
Print Assumptions c96_directory_refuted.
