(** The styles of version numbers, and what the version is when git does not answer (C94). *)
From Coq Require Import String Ascii NArith ZArith List Bool Lia DecimalString.
From Verif.Model Require Import Base Version VersionStyles.
From Verif.Spec Require Import Git Styles.
From Verif.Proofs Require Import VersionLemmas.
From Verif.Properties Require Import VersionProps.
Import ListNotations.
Open Scope string_scope.

(** ** Specification *)

(** Git answers: it describes the checkout with [line] and prints the hash [id] of the
    commit, the number [count] of commits and the date of the commit. *)
Definition shell_says (sh : shell) (line id : string) (count : N) (day time zone : string) : Prop :=
  (exists where_, prints (sh GitDir) where_) /\ prints (sh Describe) line /\ prints (sh RevParseHead) id /\
  prints (sh RevListCount) (decimal count) /\ prints (sh ShowDate) (day ++ " " ++ time ++ " " ++ zone).

Definition dirty_mark (changed : bool) : string := if changed then "-dirty" else "".

(** ** Lemmas *)

Lemma rstrip_nil : forall p s, rstrip p s = "" -> every (fun a => p a = true) s.
Proof.
  induction s as [|a s IH]; intros H; [exact I|]. cbn in H. destruct (rstrip p s); [|discriminate].
  destruct (p a) eqn:E; [|discriminate]. split; [exact E|apply IH; reflexivity].
Qed.
Lemma lstrip_all : forall p s, every (fun a => p a = true) s -> lstrip p s = "".
Proof. induction s as [|a s IH]; intros H; [reflexivity|]. destruct H as [A B]. cbn. rewrite A. apply IH. exact B. Qed.

Section Twice.
Variables p q : ascii -> bool.
Hypothesis Sub : forall a, p a = true -> q a = true.

Lemma lstrip_twice : forall s, lstrip q (lstrip p s) = lstrip q s.
Proof.
  induction s as [|a s IH]; [reflexivity|]. cbn. destruct (p a) eqn:E; [|reflexivity].
  rewrite (Sub a E). exact IH.
Qed.
Lemma rstrip_twice : forall s, rstrip q (rstrip p s) = rstrip q s.
Proof.
  induction s as [|a s IH]; [reflexivity|]. cbn. destruct (rstrip p s) as [|b t] eqn:E.
  - cbn in IH. rewrite <- IH. destruct (p a) eqn:A; cbn; [rewrite (Sub a A)|]; reflexivity.
  - cbn [rstrip] in *. rewrite <- IH. reflexivity.
Qed.
Lemma strip_rstrip : forall s, strip_of q (rstrip p s) = strip_of q s.
Proof.
  unfold strip_of. induction s as [|a s IH]; [reflexivity|]. cbn [rstrip lstrip].
  destruct (rstrip p s) as [|b t] eqn:E.
  - pose proof (every_impl _ (fun a => q a = true) _ Sub (rstrip_nil _ _ E)) as A.
    destruct (p a) eqn:P; cbn [lstrip rstrip].
    + rewrite (Sub a P), (lstrip_all _ _ A). reflexivity.
    + destruct (q a) eqn:Q; [rewrite (lstrip_all _ _ A); reflexivity|]. cbn. rewrite (rstrip_all _ _ A), Q. reflexivity.
  - cbn [lstrip]. destruct (q a) eqn:Q; [exact IH|].
    rewrite <- (rstrip_twice (String a s)). cbn [rstrip]. rewrite E. reflexivity.
Qed.
Lemma strip_twice : forall s, strip_of q (strip_of p s) = strip_of q s.
Proof.
  intros s. unfold strip_of at 2. rewrite strip_rstrip. unfold strip_of. rewrite lstrip_twice. reflexivity.
Qed.
End Twice.

Lemma byte_space : forall a, is_byte_space a = true -> is_space a = true.
Proof. intros a H. unfold is_byte_space, is_space in *. rewrite H. reflexivity. Qed.
Lemma white_space : forall a, white a -> is_space a = true.
Proof.
  intros a H. unfold white, code in H. rewrite <- (ascii_nat_embedding a). cbn in H.
  repeat (destruct H as [<-|H]; [reflexivity|]). destruct H.
Qed.

Definition solid (s : string) : Prop := first_ok is_space s /\ last_ok is_space s.

Lemma run_missing : forall missing l, (forall p, In p missing -> p = NotFound) ->
  run_command (missing ++ l) = run_command l.
Proof.
  induction missing as [|p m IH]; intros l H; [reflexivity|]. cbn [app]. rewrite (H p (or_introl eq_refl)).
  cbn [run_command]. apply IH. intros x Hx. apply H. right. exact Hx.
Qed.

Lemma printed : forall l text, prints l text -> solid text ->
  exists o, run_command l = (Some o, Some 0%Z) /\ strip o = text.
Proof.
  intros l text (m & a & b & rest & Hm & Ha & Hb & ->) [F L]. rewrite (run_missing _ _ Hm). cbn [run_command].
  rewrite Z.eqb_refl. eexists. split; [reflexivity|]. unfold strip. rewrite (strip_twice _ _ byte_space).
  apply strip_edges; [| |exact F|exact L];
    (eapply every_impl; [exact white_space|]); assumption.
Qed.
Lemma printed_any : forall l text, prints l text -> exists o, run_command l = (Some o, Some 0%Z).
Proof.
  intros l text (m & a & b & rest & Hm & _ & _ & ->). rewrite (run_missing _ _ Hm). cbn [run_command].
  rewrite Z.eqb_refl. eexists. reflexivity.
Qed.
Lemma silent : forall l, mute l -> fst (run_command l) = None /\ snd (run_command l) <> Some 0%Z.
Proof.
  intros l [H|(m & p & rest & Hm & -> & Hp)].
  - rewrite <- (app_nil_r l). rewrite run_missing by exact H. split; [reflexivity|discriminate].
  - rewrite (run_missing _ _ Hm). destruct Hp as [->|(out & rc & -> & N)]; cbn [run_command]; [split; [reflexivity|discriminate]|].
    rewrite (proj2 (Z.eqb_neq _ _) N). split; [reflexivity|]. cbn. congruence.
Qed.

Lemma word_solid : forall s, word s -> solid s.
Proof. exact word_edges. Qed.
Lemma hash_word : forall s, hash s -> word s.
Proof. intros s [A B]. split; [exact A|]. apply hexes_visible. exact B. Qed.
Lemma decimal_word : forall n, word (decimal n).
Proof. intros n. split; [apply decimal_not_empty|]. apply digits_visible. apply decimal_digits. Qed.
Lemma date_solid : forall day time zone, word day -> word zone -> solid (day ++ " " ++ time ++ " " ++ zone).
Proof.
  intros day time zone D Z. split; [apply first_app; apply word_edges; exact D|].
  do 4 apply last_app. apply word_edges. exact Z.
Qed.

Lemma render_tagged : forall s tag id h n changed date, tag <> "" ->
  render_in (Some (style_name s)) (Pieces id h None changed (Some tag) n date) =
  Gives (Versions (tagged_version s tag n h changed) (Some id) (Some changed) None (Some date)).
Proof.
  intros s tag id h n changed date H. destruct tag as [|a t]; [congruence|].
  destruct s; destruct n as [|n]; destruct changed;
    unfold render_in, render_pep440, render_pep440_pre, render_pep440_post, render_pep440_old, render_git_describe,
      render_git_describe_long, tagged_version, expected_version, plus_or_dot;
    cbn [perror style_name closest_tag distance pdirty short long pdate String.eqb Ascii.eqb Bool.eqb orb negb N.eqb];
    rewrite ?plus_in; rewrite ?app_empty;
    repeat match goal with |- context [if ?b then _ else _] =>
      match b with in_dec _ _ _ => destruct b | _ => change b with true || change b with false; cbv beta iota end end;
    rewrite ?app_empty, ?app_assoc; reflexivity.
Qed.

Lemma render_untagged : forall s id h n changed date,
  render_in (Some (style_name s)) (Pieces id h None changed None n date) =
  Gives (Versions (untagged_version s n h changed) (Some id) (Some changed) None (Some date)).
Proof.
  intros s id h n changed date. destruct s; destruct changed;
    unfold render_in, render_pep440, render_pep440_pre, render_pep440_post, render_pep440_old, render_git_describe,
      render_git_describe_long, untagged_version;
    cbn [perror style_name closest_tag distance pdirty short long pdate String.eqb Ascii.eqb Bool.eqb orb];
    rewrite ?app_empty; reflexivity.
Qed.

Lemma first_chars_substring : forall k s, first_chars k s = substring 0 k s.
Proof. induction k as [|k IH]; intros [|x s]; cbn; try reflexivity. rewrite IH. reflexivity. Qed.

Lemma described_solid : forall tag n h changed, word tag -> hash h ->
  solid (((tag ++ "-" ++ decimal n) ++ "-g" ++ h) ++ dirty_mark changed).
Proof.
  intros tag n h changed T H. split.
  - rewrite !app_assoc. apply first_app. apply word_edges. exact T.
  - destruct changed; cbn [dirty_mark].
    + apply last_app. apply word_edges. split; [discriminate|]. apply dash_clean.
    + rewrite app_empty. do 2 apply last_app. apply word_edges. apply hash_word. exact H.
Qed.
Lemma untagged_solid : forall h changed, hash h -> solid (h ++ dirty_mark changed).
Proof.
  intros h changed H. split; [apply first_app; apply word_edges; apply hash_word; exact H|].
  destruct changed; cbn [dirty_mark].
  - apply last_app. apply word_edges. split; [discriminate|]. apply dash_clean.
  - rewrite app_empty. apply word_edges. apply hash_word. exact H.
Qed.

(** What [git_pieces_from_vcs] finds in a checkout. *)
Lemma pieces_tagged : forall sh tag n h id changed count day time zone,
  word tag -> hash h -> hash id -> word day -> word time -> word zone ->
  shell_says sh (tag ++ "-" ++ decimal n ++ "-g" ++ h ++ dirty_mark changed) id count day time zone ->
  git_pieces_from_vcs tag_prefix (learn sh) =
  Gives (Pieces id h None changed (Some tag) n (day ++ "T" ++ time ++ zone)).
Proof.
  intros sh tag n h id changed count day time zone Ht Hh Hid D T Z ([w P0] & P1 & P2 & P3 & P4).
  destruct (printed_any _ _ P0) as (o0 & E0).
  replace (tag ++ "-" ++ decimal n ++ "-g" ++ h ++ dirty_mark changed)
    with (((tag ++ "-" ++ decimal n) ++ "-g" ++ h) ++ dirty_mark changed) in P1 by (rewrite !app_assoc; reflexivity).
  destruct (printed _ _ P1 (described_solid _ _ _ _ Ht Hh)) as (o1 & E1 & S1).
  destruct (printed _ _ P2 (word_solid _ (hash_word _ Hid))) as (o2 & E2 & S2).
  destruct (printed _ _ P4 (date_solid day time zone D Z)) as (o4 & E4 & S4).
  unfold git_pieces_from_vcs, learn. rewrite E0, E1, E2, E4.
  cbn [fst rev_parse_git_dir describe rev_parse_head rev_list_count show_date option_map].
  rewrite S1, S2, S4. unfold dirty_mark. rewrite dirty_off by apply Hh. rewrite (iso_plain day time zone D T Z).
  destruct changed; [|rewrite app_empty]; rewrite described_dash, match_described by assumption;
    change (after_prefix tag_prefix tag) with (Some tag); rewrite int_decimal; reflexivity.
Qed.
Lemma pieces_untagged : forall sh n h id changed day time zone,
  hash h -> hash id -> word day -> word time -> word zone ->
  shell_says sh (h ++ dirty_mark changed) id n day time zone ->
  git_pieces_from_vcs tag_prefix (learn sh) =
  Gives (Pieces id (substring 0 7 id) None changed None n (day ++ "T" ++ time ++ zone)).
Proof.
  intros sh n h id changed day time zone Hh Hid D T Z ([w P0] & P1 & P2 & P3 & P4).
  destruct (printed_any _ _ P0) as (o0 & E0).
  destruct (printed _ _ P1 (untagged_solid _ _ Hh)) as (o1 & E1 & S1).
  destruct (printed _ _ P2 (word_solid _ (hash_word _ Hid))) as (o2 & E2 & S2).
  destruct (printed _ _ P3 (word_solid _ (decimal_word n))) as (o3 & E3 & S3).
  destruct (printed _ _ P4 (date_solid day time zone D Z)) as (o4 & E4 & S4).
  unfold git_pieces_from_vcs, learn. rewrite E0, E1, E2, E3, E4.
  cbn [fst rev_parse_git_dir describe rev_parse_head rev_list_count show_date option_map].
  rewrite S1, S2, S3, S4. unfold dirty_mark. rewrite dirty_off_untagged by apply Hh. rewrite (iso_plain day time zone D T Z).
  rewrite first_chars_substring.
  destruct changed; [|rewrite app_empty]; rewrite (hex_no_dash h) by apply Hh; rewrite int_decimal; reflexivity.
Qed.

(** The style in use. *)
Definition chosen (style : option string) (s : Styles.style) : Prop :=
  style = Some (style_name s) \/ s = Pep440 /\ (style = None \/ style = Some "" \/ style = Some "default").
Lemma render_chosen : forall style s p, chosen style s -> render_in style p = render_in (Some (style_name s)) p.
Proof.
  intros style s p [->|[-> [->|[->| ->]]]]; unfold render_in; destruct (perror p); reflexivity.
Qed.

(** ** In every style *)

(** In a checkout with a tag. *)
Theorem c94_tagged : forall style s dir sh tag n h id changed count day time zone,
  chosen style s -> dir <> "" -> word tag -> hash h -> hash id -> word day -> word time -> word zone ->
  shell_says (sh dir) (tag ++ "-" ++ decimal n ++ "-g" ++ h ++ dirty_mark changed) id count day time zone ->
  get_versions_in style unexpanded (module_in dir) sh =
  Gives (Versions (tagged_version s tag n h changed) (Some id) (Some changed) None (Some (day ++ "T" ++ time ++ zone))).
Proof.
  intros style s dir sh tag n h id changed count day time zone C Hd Ht Hh Hid D T Z G.
  unfold get_versions_in. rewrite unexpanded_not. unfold module_in. rewrite root_of by exact Hd.
  rewrite (pieces_tagged (sh dir) tag n h id changed count day time zone) by assumption.
  rewrite (render_chosen _ _ _ C). apply render_tagged. apply Ht.
Qed.

(** Without a tag: the abbreviation of the hash is always seven characters long. *)
Theorem c94_untagged : forall style s dir sh n h id changed day time zone,
  chosen style s -> dir <> "" -> hash h -> hash id -> word day -> word time -> word zone ->
  shell_says (sh dir) (h ++ dirty_mark changed) id n day time zone ->
  get_versions_in style unexpanded (module_in dir) sh =
  Gives (Versions (untagged_version s n (substring 0 7 id) changed) (Some id) (Some changed) None
    (Some (day ++ "T" ++ time ++ zone))).
Proof.
  intros style s dir sh n h id changed day time zone C Hd Hh Hid D T Z G.
  unfold get_versions_in. rewrite unexpanded_not. unfold module_in. rewrite root_of by exact Hd.
  rewrite (pieces_untagged (sh dir) n h id changed day time zone) by assumption.
  rewrite (render_chosen _ _ _ C). apply render_untagged.
Qed.

(** A style that is none of these is refused in a checkout. *)
Theorem c94_unknown_style : forall style dir sh line id count day time zone,
  (forall s, ~ chosen (Some style) s) ->
  dir <> "" -> hash id -> word day -> word time -> word zone ->
  (exists tag n h changed, word tag /\ hash h /\ line = tag ++ "-" ++ decimal n ++ "-g" ++ h ++ dirty_mark changed) \/
  (exists h changed, hash h /\ line = h ++ dirty_mark changed) ->
  shell_says (sh dir) line id count day time zone ->
  get_versions_in (Some style) unexpanded (module_in dir) sh = Fails ValueError.
Proof.
  intros style dir sh line id count day time zone C Hd Hid D T Z L G.
  unfold get_versions_in. rewrite unexpanded_not. unfold module_in. rewrite root_of by exact Hd.
  assert (R : forall p, perror p = None -> render_in (Some style) p = Fails ValueError).
  { intros p Ep. unfold render_in. rewrite Ep.
    assert (N : forall t, (exists s, t = style_name s) \/ t = "" \/ t = "default" -> String.eqb style t = false).
    { intros t Ht. apply String.eqb_neq. intros ->. destruct Ht as [[s ->]|[-> | ->]].
      - apply (C s). left. reflexivity.
      - apply (C Pep440). right. tauto.
      - apply (C Pep440). right. tauto. }
    rewrite (N "") by tauto. rewrite (N "default") by tauto. cbn [orb].
    rewrite (N "pep440") by (left; exists Pep440; reflexivity).
    rewrite (N "pep440-pre") by (left; exists Pep440Pre; reflexivity).
    rewrite (N "pep440-post") by (left; exists Pep440Post; reflexivity).
    rewrite (N "pep440-old") by (left; exists Pep440Old; reflexivity).
    rewrite (N "git-describe") by (left; exists GitDescribe; reflexivity).
    rewrite (N "git-describe-long") by (left; exists GitDescribeLong; reflexivity).
    reflexivity. }
  destruct L as [(tag & n & h & changed & Ht & Hh & ->)|(h & changed & Hh & ->)].
  - rewrite (pieces_tagged (sh dir) tag n h id changed count day time zone) by assumption. apply R. reflexivity.
  - rewrite (pieces_untagged (sh dir) count h id changed day time zone) by assumption. apply R. reflexivity.
Qed.

(** ** When git does not answer *)

(** A component of a path. *)
Definition component (s : string) : Prop := s <> "" /\ every (other_than "/") s.

(** The version in the name of the nearest of three directories that has one, whatever
    the style. *)
Inductive told_by : list string -> option string -> Prop :=
| told_here : forall d v l, names_version d v -> told_by (d :: l) (Some v)
| told_above : forall d l v, (forall v, ~ names_version d v) -> told_by l v -> told_by (d :: l) v
| not_told : told_by [] None.

Lemma prefix_none : forall d, (forall v, ~ names_version d v) -> after_prefix parentdir_prefix d = None.
Proof.
  intros d H. destruct (after_prefix parentdir_prefix d) as [v|] eqn:E; [|reflexivity].
  apply after_prefix_some in E. destruct (H v E).
Qed.
Lemma prefix_some : forall d v, names_version d v -> after_prefix parentdir_prefix d = Some v.
Proof. intros d v ->. apply after_prefix_app. Qed.

Theorem c94_no_git : forall style above a b c told sh,
  let dir := above ++ "/" ++ a ++ "/" ++ b ++ "/" ++ c in
  component a -> component b -> component c -> told_by [c; b; a] told ->
  mute (sh dir GitDir) \/ mute (sh dir Describe) \/ mute (sh dir RevParseHead) ->
  get_versions_in style unexpanded (module_in dir) sh =
  Gives (match told with
         | Some v => Versions v None (Some false) None None
         | None => Versions "0+unknown" None None (Some "unable to compute version") None
         end).
Proof.
  intros style above a b c told sh dir Ha Hb Hc Ht M.
  assert (Hd : dir <> "") by (unfold dir; apply app_cons_not_empty).
  unfold get_versions_in. rewrite unexpanded_not. unfold module_in. rewrite root_of by exact Hd.
  assert (P : git_pieces_from_vcs tag_prefix (learn (sh dir)) = NotThis).
  { unfold git_pieces_from_vcs, learn. cbn [rev_parse_git_dir describe rev_parse_head].
    destruct M as [M|[M|M]]; destruct (silent _ M) as [F S].
    - destruct (run_command (sh dir GitDir)) as [o [rc|]]; [|reflexivity].
      cbn in F, S. subst o. destruct rc; [congruence|reflexivity|reflexivity].
    - rewrite F. cbn [option_map]. destruct (option_map _ _); reflexivity.
    - rewrite F. cbn [option_map]. destruct (option_map strip (match run_command (sh dir GitDir) with (o, Some 0%Z) => o | _ => None end));
        destruct (option_map strip (fst (run_command (sh dir Describe)))); reflexivity. }
  rewrite P.
  assert (E : dir = (above ++ "/" ++ a ++ "/" ++ b) ++ "/" ++ c) by (unfold dir; rewrite !app_assoc; reflexivity).
  assert (E' : above ++ "/" ++ a ++ "/" ++ b = (above ++ "/" ++ a) ++ "/" ++ b) by (rewrite !app_assoc; reflexivity).
  cbn [versions_from_parentdir].
  assert (B1 : basename dir = c) by (rewrite E; apply basename_slash; apply Hc).
  assert (D1 : dirname dir = above ++ "/" ++ a ++ "/" ++ b)
    by (rewrite E; apply dirname_slash; [apply app_cons_not_empty|apply Hc]).
  assert (B2 : basename (above ++ "/" ++ a ++ "/" ++ b) = b) by (rewrite E'; apply basename_slash; apply Hb).
  assert (D2 : dirname (above ++ "/" ++ a ++ "/" ++ b) = above ++ "/" ++ a)
    by (rewrite E'; apply dirname_slash; [apply app_cons_not_empty|apply Hb]).
  assert (B3 : basename (above ++ "/" ++ a) = a) by (apply basename_slash; apply Ha).
  rewrite B1, D1, B2, D2, B3. clear E E' B1 D1 B2 D2 B3. clearbody dir.
  inversion Ht as [d1 v1 l1 H1|d1 l1 v1 H1 T1|]; subst; [rewrite (prefix_some _ _ H1); reflexivity|].
  rewrite (prefix_none _ H1).
  inversion T1 as [d2 v2 l2 H2|d2 l2 v2 H2 T2|]; subst; [rewrite (prefix_some _ _ H2); reflexivity|].
  rewrite (prefix_none _ H2).
  inversion T2 as [d3 v3 l3 H3|d3 l3 v3 H3 T3|]; subst; [rewrite (prefix_some _ _ H3); reflexivity|].
  rewrite (prefix_none _ H3). inversion T3. reflexivity.
Qed.

(** When git describes the checkout but then does not tell the date, the import of the
    package fails. *)
Theorem c94_no_date : forall style dir sh tag n h id changed,
  dir <> "" -> word tag -> hash h -> hash id ->
  (exists where_, prints (sh dir GitDir) where_) ->
  prints (sh dir Describe) (tag ++ "-" ++ decimal n ++ "-g" ++ h ++ dirty_mark changed) ->
  prints (sh dir RevParseHead) id -> mute (sh dir ShowDate) ->
  get_versions_in style unexpanded (module_in dir) sh = Fails AttributeError.
Proof.
  intros style dir sh tag n h id changed Hd Ht Hh Hid [w P0] P1 P2 M.
  unfold get_versions_in. rewrite unexpanded_not. unfold module_in. rewrite root_of by exact Hd.
  destruct (printed_any _ _ P0) as (o0 & E0).
  replace (tag ++ "-" ++ decimal n ++ "-g" ++ h ++ dirty_mark changed)
    with (((tag ++ "-" ++ decimal n) ++ "-g" ++ h) ++ dirty_mark changed) in P1 by (rewrite !app_assoc; reflexivity).
  destruct (printed _ _ P1 (described_solid _ _ _ _ Ht Hh)) as (o1 & E1 & S1).
  destruct (printed _ _ P2 (word_solid _ (hash_word _ Hid))) as (o2 & E2 & S2).
  destruct (silent _ M) as [F4 _].
  unfold git_pieces_from_vcs, learn. rewrite E0, E1, E2, F4.
  cbn [fst rev_parse_git_dir describe rev_parse_head rev_list_count show_date option_map].
  rewrite S1. unfold dirty_mark. rewrite dirty_off by apply Hh.
  destruct changed; [|rewrite app_empty]; rewrite described_dash, match_described by assumption;
    change (after_prefix tag_prefix tag) with (Some tag); rewrite int_decimal; reflexivity.
Qed.

(** The package itself asks for "pep440", which is the version of C78. *)
Theorem c94_package : forall k file sh,
  get_versions_in (Some "pep440") k file sh = get_versions k file (fun dir => learn (sh dir)).
Proof.
  intros k file sh. unfold get_versions_in, get_versions.
  destruct (git_versions_from_keywords k tag_prefix); try reflexivity. destruct file as [f|]; [|reflexivity].
  destruct (git_pieces_from_vcs tag_prefix (learn (sh (dirname (dirname f))))) as [p| |e]; try reflexivity.
  unfold render_in, render. destruct (perror p); reflexivity.
Qed.

(** ** What the styles tell *)

(** The long style of git gives back what git printed. *)
Theorem c94_round_trip : forall dir sh line tag n h id changed count day time zone,
  dir <> "" -> word tag -> hash h -> hash id -> word day -> word time -> word zone ->
  line = tag ++ "-" ++ decimal n ++ "-g" ++ h ++ dirty_mark changed ->
  shell_says (sh dir) line id count day time zone ->
  exists v, get_versions_in (Some "git-describe-long") unexpanded (module_in dir) sh = Gives v /\ version v = line.
Proof.
  intros dir sh line tag n h id changed count day time zone Hd Ht Hh Hid D T Z -> G.
  eexists. split; [apply (c94_tagged _ GitDescribeLong dir sh tag n h id changed count day time zone); try assumption; left; reflexivity|].
  reflexivity.
Qed.

(** Not so without a tag when git abbreviates to more than seven characters. *)
Theorem c94_round_trip_refuted : exists dir sh n h id day time zone,
  dir <> "" /\ hash h /\ hash id /\ word day /\ word time /\ word zone /\
  shell_says (sh dir) (h ++ dirty_mark false) id n day time zone /\ prefix h id = true /\
  exists v, get_versions_in (Some "git-describe-long") unexpanded (module_in dir) sh = Gives v /\
    version v <> h ++ dirty_mark false.
Proof.
  exists "/src", (fun _ q => match q with
      | GitDir => [Ended ".git" 0] | Describe => [Ended "0a1b2c3d4" 0] | RevParseHead => [Ended "0a1b2c3d4e5f" 0]
      | RevListCount => [Ended "7" 0] | ShowDate => [Ended "2020-09-01 12:00:00 -0400" 0] end),
    7%N, "0a1b2c3d4", "0a1b2c3d4e5f", "2020-09-01", "12:00:00", "-0400".
  repeat split; try discriminate; try (cbn; unfold visible, hex_digit, digit, code; cbn; lia).
  - exists ".git". exists [], "", "", []. cbn. intuition.
  - exists [], "", "", []. cbn. intuition.
  - exists [], "", "", []. cbn. intuition.
  - exists [], "", "", []. cbn. intuition.
  - exists [], "", "", []. cbn. intuition.
  - eexists. split; [vm_compute; reflexivity|]. vm_compute. discriminate.
Qed.

(** Which styles tell checkouts apart: the long style always, and "pep440-post", like
    "pep440" (C78), for tags without a plus sign. *)
Theorem c94_long_tells_apart : forall tag n h c tag' n' h' c', word tag -> word tag' -> hash h -> hash h' ->
  tagged_version GitDescribeLong tag n h c = tagged_version GitDescribeLong tag' n' h' c' ->
  tag = tag' /\ n = n' /\ h = h' /\ c = c'.
Proof.
  intros tag n h c tag' n' h' c' T T' H H' E.
  assert (F : forall tag n h c, tagged_version GitDescribeLong tag n h c =
    ((tag ++ "-" ++ decimal n) ++ "-g" ++ h) ++ (if c : bool then "-dirty" else ""))
    by (intros; unfold tagged_version; rewrite !app_assoc; reflexivity).
  rewrite !F in E.
  assert (B : before_suffix "-dirty" (((tag ++ "-" ++ decimal n) ++ "-g" ++ h) ++ (if c then "-dirty" else "")) =
              before_suffix "-dirty" (((tag' ++ "-" ++ decimal n') ++ "-g" ++ h') ++ (if c' then "-dirty" else "")))
    by (rewrite E; reflexivity).
  rewrite !dirty_off in B by (apply H || apply H').
  assert (K : c = c' /\ (tag ++ "-" ++ decimal n) ++ "-g" ++ h = (tag' ++ "-" ++ decimal n') ++ "-g" ++ h').
  { destruct c, c'; try discriminate; split; try reflexivity; [congruence|]. rewrite !app_empty in E. exact E. }
  destruct K as [-> K].
  pose proof (match_described tag n h T H) as M. rewrite K, (match_described tag' n' h' T' H') in M.
  injection M as -> N ->. apply decimal_inj in N. subst. tauto.
Qed.

Lemma after_plus : forall a b a' b', every (other_than "+") b -> every (other_than "+") b' ->
  a ++ String "+" b = a' ++ String "+" b' -> a = a' /\ b = b'.
Proof.
  intros a b a' b' B B' E. pose proof (rsplit1_app "+" a b B) as R. rewrite E, (rsplit1_app "+" a' b' B') in R.
  injection R as -> ->. tauto.
Qed.
Lemma after_dot : forall a b a' b', every (other_than ".") b -> every (other_than ".") b' ->
  a ++ String "." b = a' ++ String "." b' -> a = a' /\ b = b'.
Proof.
  intros a b a' b' B B' E. pose proof (rsplit1_app "." a b B) as R. rewrite E, (rsplit1_app "." a' b' B') in R.
  injection R as -> ->. tauto.
Qed.
Lemma digits_other : forall c s, ~ digit c -> every digit s -> every (other_than c) s.
Proof. intros c s N. apply every_impl. intros a A ->. contradiction. Qed.
Lemma hex_other : forall c s, ~ hex_digit c -> every hex_digit s -> every (other_than c) s.
Proof. intros c s N. apply every_impl. intros a A ->. contradiction. Qed.

Theorem c94_post_tells_apart : forall tag n h c tag' n' h' c', word tag -> word tag' -> hash h -> hash h' ->
  every (other_than "+") tag -> every (other_than "+") tag' ->
  tagged_version Pep440Post tag n h c = tagged_version Pep440Post tag' n' h' c' ->
  tag = tag' /\ n = n' /\ c = c' /\ (h = h' \/ n = 0%N /\ c = false).
Proof.
  intros tag n h c tag' n' h' c' _ _ Hh Hh' P P' E.
  pose (base tag n (c : bool) := tag ++ ".post" ++ decimal n ++ (if c then ".dev0" else "")).
  assert (V : forall tag n h c, every (other_than "+") tag ->
    tagged_version Pep440Post tag n h c = tag /\ n = 0%N /\ c = false \/
    tagged_version Pep440Post tag n h c = base tag n c ++ "+" ++ "g" ++ h /\ ~ (n = 0%N /\ c = false)).
  { clear. intros tag n h c P. unfold tagged_version, base. apply has_char_not in P. rewrite plus_in in P.
    destruct (in_dec _ _ _); [discriminate|]. clear P.
    destruct n as [|n]; destruct c; [right|left; tauto|right|right];
      (split; [rewrite !app_assoc; reflexivity|intros [A B]; discriminate]). }
  assert (G : every (other_than "+") ("g" ++ h)) by (split; [discriminate|]; apply hex_other; [|apply Hh]; unfold hex_digit, digit, code; cbn; lia).
  assert (G' : every (other_than "+") ("g" ++ h')) by (split; [discriminate|]; apply hex_other; [|apply Hh']; unfold hex_digit, digit, code; cbn; lia).
  assert (X : forall t b g, every (other_than "+") t -> t = b ++ "+" ++ g -> False).
  { clear. intros t b g A ->. apply every_app in A. destruct A as [_ [A _]]. apply A. reflexivity. }
  destruct (V tag n h c P) as [[E1 [-> ->]]|[E1 N1]], (V tag' n' h' c' P') as [[E2 [-> ->]]|[E2 N2]];
    rewrite E1, E2 in E.
  - tauto.
  - destruct (X _ _ _ P E).
  - symmetry in E. destruct (X _ _ _ P' E).
  - apply after_plus in E; [|exact G|exact G']. destruct E as [B E]. injection E as <-.
    assert (D : forall n, every (other_than ".") ("post" ++ decimal n)).
    { intros k. repeat split; try discriminate. apply digits_other; [unfold digit, code; cbn; lia|apply decimal_digits]. }
    assert (D0 : every (other_than ".") "dev0") by (cbn; repeat split; discriminate).
    assert (F : forall tag n, base tag n true = (tag ++ String "." ("post" ++ decimal n)) ++ String "." "dev0")
      by (intros; unfold base; rewrite !app_assoc; reflexivity).
    assert (F' : forall tag n, base tag n false = tag ++ String "." ("post" ++ decimal n))
      by (intros; unfold base; rewrite app_empty; reflexivity).
    assert (J : forall tag tag' n n', tag ++ String "." ("post" ++ decimal n) = tag' ++ String "." ("post" ++ decimal n') -> tag = tag' /\ n = n').
    { intros t t' k k' J. apply after_dot in J; [|apply D|apply D]. destruct J as [-> J]. apply app_inj_l in J.
      apply decimal_inj in J. tauto. }
    destruct c, c'; rewrite ?F, ?F' in B.
    + apply after_dot in B; [|exact D0|exact D0]. destruct B as [B _]. apply J in B. tauto.
    + apply after_dot in B; [|exact D0|apply D]. destruct B as [_ B]. discriminate.
    + apply after_dot in B; [|apply D|exact D0]. destruct B as [_ B]. discriminate.
    + apply J in B. tauto.
Qed.

(** The other styles give the same version for different states: "pep440-pre" hides
    changes and the commit, "pep440-old" the commit, and "git-describe" takes a tag
    for a description. *)
Theorem c94_tells_apart_refuted :
  (exists tag n h h', word tag /\ hash h /\ hash h' /\ h <> h' /\
    tagged_version Pep440Pre tag n h false = tagged_version Pep440Pre tag n h' true) /\
  (exists tag n h h', word tag /\ n <> 0%N /\ hash h /\ hash h' /\ h <> h' /\
    tagged_version Pep440Old tag n h false = tagged_version Pep440Old tag n h' false) /\
  (exists tag n h tag' h', word tag /\ word tag' /\ hash h /\ hash h' /\ tag <> tag' /\ n <> 0%N /\
    tagged_version GitDescribe tag n h false = tagged_version GitDescribe tag' 0 h' false).
Proof.
  split; [|split].
  - exists "1.2", 0%N, "abc", "def". repeat split; try discriminate; cbn; unfold visible, hex_digit, digit, code; cbn; lia.
  - exists "1.2", 3%N, "abc", "def". repeat split; try discriminate; cbn; unfold visible, hex_digit, digit, code; cbn; lia.
  - exists "1.2", 3%N, "abc", "1.2-3-gabc", "def". repeat split; try discriminate; cbn; unfold visible, hex_digit, digit, code; cbn; lia.
Qed.

(** ** The hypotheses are met *)

(** On Windows: the first name is not found, lines end with two characters. *)
Definition windows (out : string) : list process :=
  [NotFound; Ended (out ++ String "013" (String "010" "")) 0].
Lemma windows_prints : forall out, prints (windows out) out.
Proof.
  intros out. exists [NotFound], "", (String "013" (String "010" "")), []. repeat split.
  - intros p [<-|[]]. reflexivity.
  - unfold white, code. cbn. tauto.
  - unfold white, code. cbn. tauto.
Qed.
Example c94_ex : forall s,
  get_versions_in (Some (style_name s)) unexpanded (module_in "/src")
    (fun _ q => match q with
      | GitDir => windows ".git" | Describe => windows "1.0-rc-3-g0a1b2c3-dirty" | RevParseHead => windows "0a1b2c3d"
      | RevListCount => windows "10" | ShowDate => windows "2020-09-01 12:00:00 -0400" end) =
  Gives (Versions (match s with
    | Pep440 => "1.0-rc+3.g0a1b2c3.dirty"
    | Pep440Pre => "1.0-rc.post.dev3"
    | Pep440Post => "1.0-rc.post3.dev0+g0a1b2c3"
    | Pep440Old => "1.0-rc.post3.dev0"
    | GitDescribe | GitDescribeLong => "1.0-rc-3-g0a1b2c3-dirty"
    end) (Some "0a1b2c3d") (Some true) None (Some "2020-09-01T12:00:00-0400")).
Proof.
  intros s. set (sh := fun _ q => _).
  rewrite (c94_tagged _ s "/src" sh "1.0-rc" 3 "0a1b2c3" "0a1b2c3d" true 10 "2020-09-01" "12:00:00" "-0400").
  - destruct s; reflexivity.
  - left. reflexivity.
  - discriminate.
  - chars.
  - chars.
  - chars.
  - chars.
  - chars.
  - chars.
  - split; [exists ".git"; apply windows_prints|]. repeat split; apply windows_prints.
Qed.
Example c94_no_git_ex : forall style,
  get_versions_in style unexpanded (module_in "/tmp/calendars-2.1.1/build/lib") (fun _ _ => [NotFound; NotFound]) =
  Gives (Versions "2.1.1" None (Some false) None None).
Proof.
  intros style. apply (c94_no_git style "/tmp" "calendars-2.1.1" "build" "lib" (Some "2.1.1")).
  - unfold component. chars.
  - unfold component. chars.
  - unfold component. chars.
  - apply told_above; [intros v H; discriminate|]. apply told_above; [intros v H; discriminate|].
    apply told_here. reflexivity.
  - left. left. intros p [<-|[<-|[]]]; reflexivity.
Qed.
Example c94_unknown_style_ex :
  get_versions_in (Some "semver") unexpanded (module_in "/src")
    (fun _ q => match q with
      | GitDir => windows ".git" | Describe => windows "0a1b2c3" | RevParseHead => windows "0a1b2c3d"
      | RevListCount => windows "10" | ShowDate => windows "2020-09-01 12:00:00 -0400" end) = Fails ValueError.
Proof.
  set (sh := fun _ q => _).
  apply (c94_unknown_style "semver" "/src" sh "0a1b2c3" "0a1b2c3d" 10 "2020-09-01" "12:00:00" "-0400"); try solve [chars].
  - intros s [H|[_ [H|[H|H]]]]; destruct s; discriminate.
  - right. exists "0a1b2c3", false. split; [chars|reflexivity].
  - split; [exists ".git"; apply windows_prints|]. repeat split; apply windows_prints.
Qed.

(** ** Assumptions *)
Print Assumptions c94_tagged.
Print Assumptions c94_untagged.
Print Assumptions c94_unknown_style.
Print Assumptions c94_no_git.
Print Assumptions c94_no_date.
Print Assumptions c94_package.
Print Assumptions c94_round_trip.
Print Assumptions c94_round_trip_refuted.
Print Assumptions c94_long_tells_apart.
Print Assumptions c94_post_tells_apart.
Print Assumptions c94_tells_apart_refuted.
