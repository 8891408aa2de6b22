(** C97: python versioneer.py setup makes the files of a project refer to its version file,
    keeps what is in them and changes nothing when it is run again. *)
From Coq Require Import String Ascii NArith ZArith Lia List Bool.
From Verif.Model Require Import Version Versioneer VersionSource Installer.
From Verif.Spec Require Import Git Distribution Installation.
From Verif.Proofs Require Import VersionLemmas InstallerLemmas.
Import ListNotations.
Open Scope string_scope.

(** The files after the command. *)
Definition after (c : configuration) (t : tree) : tree := fst (fst (do_setup c t)).

Definition committed_tree : tree :=
  Tree (Some "") (Some (source lines_before lines_after unexpanded)) (Some committed_init) (Some committed_manifest) (Some committed_attributes).

(** ** The references *)
Lemma append_plain : forall f t, plain_lines f -> every (other_than "013") t -> plain_lines (append_to f t).
Proof. intros f t H T. unfold plain_lines. rewrite contents_append. apply every_app. split; assumption. Qed.
Lemma include_plain : forall p, word p -> every (other_than "013") ("include " ++ p ++ nl).
Proof.
  intros p [_ V]. apply every_app. split; [repeat split; discriminate|]. apply every_app.
  split; [apply visible_not_cr; exact V|repeat split; discriminate].
Qed.
Lemma manifest_plain : forall p f, word p -> plain_lines f -> plain_lines (install_manifest p f).
Proof.
  intros p f W H. unfold install_manifest. cbv zeta. change ("include versioneer.py" ++ nl) with ("include " ++ "versioneer.py" ++ nl).
  destruct (has "versioneer.py" (simple_includes f)); destruct (has p (simple_includes f)); [exact H| | |];
    repeat apply append_plain; try exact H; apply include_plain; assumption || exact versioneer_word.
Qed.
Theorem c97_refers : forall cfg t, let p := versionfile_source cfg in
  word p -> plain_lines (manifest_in t) -> plain_lines (gitattributes t) -> plain_lines (init_py t) ->
  complete_lines (manifest_in t) -> complete_lines (gitattributes t) -> no_longer_name p (gitattributes t) ->
  included "versioneer.py" (contents (manifest_in (after (Found cfg) t))) /\
  included p (contents (manifest_in (after (Found cfg) t))) /\
  marked p (contents (gitattributes (after (Found cfg) t))) /\
  forall s, init_py t = Some s -> exists s', init_py (after (Found cfg) t) = Some s' /\
    part_of (text_of [""; "from ._version import get_versions"; "__version__ = get_versions()['version']"; "del get_versions"]) s'.
Proof.
  intros cfg t p W P1 P2 P3 C1 C2 G. unfold after. cbn [do_setup fst manifest_in gitattributes init_py]. fold p.
  destruct (manifest_includes p (manifest_in t) W (complete_ended _ C1)) as [l [_ [A B]]].
  pose proof (manifest_plain p _ W P1) as P1'. split; [apply included_iff; assumption|]. split; [apply included_iff; assumption|]. split.
  - unfold install_attributes. destruct (is_present p (gitattributes t)) eqn:E; [apply present_marked; assumption|].
    rewrite contents_append. exists "", " "%char, "export-subst". split; [exact I|]. split; [right; left; reflexivity|]. split.
    + split; [apply every_app; split; [exact I|]; apply every_app; split; [apply word_no_nl, W|repeat split; discriminate]|].
      exists (contents (gitattributes t)), nl. split; [cbn [append]; rewrite app_assoc; reflexivity|].
      split; [exact C2|right; exists ""; reflexivity].
    + split; [discriminate|]. split; [apply every_not_blank; repeat split; reflexivity|]. exists "", "". split; [reflexivity|]. split; left; reflexivity.
  - intros s E. rewrite E in *. unfold plain_lines in P3. cbn [contents] in P3. cbn [install_init read]. rewrite universal_plain by exact P3.
    destruct (occurs init_py_snippet s) eqn:O; [exists s; split; [reflexivity|]; apply (proj1 (occurs_iff _ _)) in O; exact O|].
    exists (s ++ init_py_snippet). split; [reflexivity|]. exists s, "". rewrite app_empty. reflexivity.
Qed.

(** The version file has the settings, and the keywords that git fills in, on lines of their own. *)
Lemma joined_ended : forall ls, joined ls = "" \/ exists a, joined ls = a ++ newline.
Proof.
  induction ls as [|l ls IH]; [left; reflexivity|right]. cbn [joined]. destruct IH as [-> |[a ->]].
  - exists l. rewrite app_empty. reflexivity.
  - exists (l ++ nl ++ a). rewrite !app_assoc. reflexivity.
Qed.
Lemma joined_app : forall a b, joined (a ++ b)%list = joined a ++ joined b.
Proof. induction a as [|x a IH]; intros b; [reflexivity|]. cbn [List.app joined]. rewrite IH, !app_assoc. reflexivity. Qed.
Lemma joined_line : forall l ls, every (other_than "010") l -> In l ls -> is_line l (joined ls).
Proof.
  intros l ls H Q. apply in_split in Q. destruct Q as [a [b ->]]. split; [exact H|]. exists (joined a), (nl ++ joined b).
  split; [rewrite joined_app; reflexivity|]. split; [apply joined_ended|right; exists (joined b); reflexivity].
Qed.
Theorem c97_version_py : forall cfg t, let q := String "034" "" in
  every (other_than "010") (style cfg) -> every (other_than "010") (tag_prefix_of cfg) ->
  every (other_than "010") (parentdir_prefix_of cfg) -> every (other_than "010") (versionfile_source cfg) ->
  exists s, version_py (after (Found cfg) t) = Some s /\
    is_line ("    cfg.style = " ++ q ++ style cfg ++ q) s /\ is_line ("    cfg.tag_prefix = " ++ q ++ tag_prefix_of cfg ++ q) s /\
    is_line ("    cfg.parentdir_prefix = " ++ q ++ parentdir_prefix_of cfg ++ q) s /\
    is_line ("    cfg.versionfile_source = " ++ q ++ versionfile_source cfg ++ q) s /\
    is_line ("    git_refnames = " ++ q ++ "$Format:%d$" ++ q) s /\ is_line ("    git_full = " ++ q ++ "$Format:%H$" ++ q) s /\
    is_line ("    git_date = " ++ q ++ "$Format:%ci$" ++ q) s.
Proof.
  intros cfg t q A B C D. eexists. split; [reflexivity|].
  assert (K : forall n v, every (other_than "010") n -> every (other_than "010") v -> every (other_than "010") (setting n v)).
  { intros n v N V. unfold setting. repeat (apply every_app; split); try assumption; repeat split; discriminate. }
  assert (S : forall n v, every (other_than "010") n -> every (other_than "010") v ->
    In (setting n v) [setting "style" (style cfg); setting "tag_prefix" (tag_prefix_of cfg);
      setting "parentdir_prefix" (parentdir_prefix_of cfg); setting "versionfile_source" (versionfile_source cfg)] ->
    is_line (setting n v) (long_version_py cfg)).
  { intros n v N V Q. apply joined_line; [apply K; assumption|]. do 3 (apply in_or_app; right). apply in_or_app. left. exact Q. }
  assert (W : forall n v, every (other_than "010") (keyword_line n v) ->
    In (keyword_line n v) [keyword_line "git_refnames" "$Format:%d$"; keyword_line "git_full" "$Format:%H$"; keyword_line "git_date" "$Format:%ci$"] ->
    is_line (keyword_line n v) (long_version_py cfg)).
  { intros n v N Q. apply joined_line; [exact N|]. apply in_or_app. right. apply in_or_app. left. exact Q. }
  split; [apply (S "style")|split; [apply (S "tag_prefix")|split; [apply (S "parentdir_prefix")|split; [apply (S "versionfile_source")|
    split; [apply (W "git_refnames" "$Format:%d$")|split; [apply (W "git_full" "$Format:%H$")|apply (W "git_date" "$Format:%ci$")]]]]]];
    try assumption; try (repeat split; discriminate).
  - left. reflexivity.
  - right. left. reflexivity.
  - right. right. left. reflexivity.
  - right. right. right. left. reflexivity.
  - left. reflexivity.
  - right. left. reflexivity.
  - right. right. left. reflexivity.
Qed.

(** A line about another file whose name starts with the same characters is mistaken for one
    about the version file. *)
Definition stub_attributes : string := "trading_calendars/_version.pyi export-subst" ++ newline.
Theorem c97_refers_refuted : exists t, let p := versionfile_source committed_config in
  plain_lines (gitattributes t) /\ complete_lines (gitattributes t) /\
  ~ marked p (contents (gitattributes (after (Found committed_config) t))).
Proof.
  exists (Tree None None None None (Some stub_attributes)). cbv zeta. split; [unfold plain_lines, stub_attributes; cbn; repeat split; discriminate|].
  split; [right; exists "trading_calendars/_version.pyi export-subst"; reflexivity|].
  replace (contents _) with stub_attributes by (vm_compute; reflexivity).
  intros [i [c [r [Hi [Hc [L _]]]]]]. destruct (lines_readlines _ _ L) as [x [X Y]].
  { intros E. apply app_eq_empty in E. destruct E as [_ E]. discriminate. }
  assert (Z : (i ++ versionfile_source committed_config ++ String c r) ++ nl = stub_attributes \/ i ++ versionfile_source committed_config ++ String c r = stub_attributes).
  { change (readlines stub_attributes) with [stub_attributes] in X. destruct X as [<-|[]]. destruct Y as [Y|Y]; [left|right]; symmetry; exact Y. }
  destruct i as [|a i].
  - assert (c = "i"%char) as -> by (destruct Z as [Z|Z]; cbn in Z; congruence).
    destruct Hc as [H|[H|H]]; cbv in H; lia.
  - assert (a = "t"%char) as -> by (destruct Z as [Z|Z]; cbn [append stub_attributes] in Z; injection Z; congruence).
    destruct Hi as [[H|[H|H]] _]; cbv in H; lia.
Qed.

(** ** What was there stays *)
Theorem c97_keeps : forall c t,
  kept (setup_cfg t) (setup_cfg (after c t)) /\ kept (init_py t) (init_py (after c t)) /\
  kept (manifest_in t) (manifest_in (after c t)) /\ kept (gitattributes t) (gitattributes (after c t)) /\
  (init_py t = None -> init_py (after c t) = None) /\
  (forall cfg, c = Found cfg -> setup_cfg (after c t) = setup_cfg t).
Proof.
  assert (R : forall f, kept f f) by (intros [s|]; [exists ""; rewrite app_empty; reflexivity|exact I]).
  assert (K : forall f t, kept f (append_to f t)) by (intros [s|] t; [exists t; reflexivity|exact I]).
  assert (KK : forall f t u, kept f (append_to (append_to f t) u)).
  { intros [s|] t u; [exists (t ++ u); unfold append_to; rewrite app_assoc; reflexivity|exact I]. }
  intros c t. destruct c as [| |cfg]; unfold after; cbn [do_setup fst setup_cfg init_py manifest_in gitattributes];
    repeat split; try apply R; try apply K; try discriminate; try (intros E; exact E); try (intros; discriminate).
  - destruct (init_py t) as [s|]; [|exact I]. cbn [install_init]. destruct (occurs init_py_snippet (read (Some s))); [apply R|apply K].
  - unfold install_manifest. cbv zeta. destruct (has "versioneer.py" _); destruct (has (versionfile_source cfg) _); [apply R|apply K|apply K|apply KK].
  - unfold install_attributes. destruct (is_present _ _); [apply R|apply K].
  - intros E. rewrite E. reflexivity.
Qed.

(** Every file that was included in distributions still is. *)
Theorem c97_still_included : forall cfg t p,
  word (versionfile_source cfg) -> plain_lines (manifest_in t) -> complete_lines (manifest_in t) ->
  included p (contents (manifest_in t)) -> included p (contents (manifest_in (after (Found cfg) t))).
Proof.
  intros cfg t p W P C H. apply included_iff in H; [|exact P]. apply included_iff; [apply manifest_plain; assumption|].
  destruct (manifest_includes _ _ W (complete_ended _ C)) as [l [E _]]. unfold after. cbn [do_setup fst manifest_in]. rewrite E.
  apply in_or_app. left. exact H.
Qed.
(** Without a newline at the end of MANIFEST.in it may not be. *)
Theorem c97_still_included_refuted : exists t,
  plain_lines (manifest_in t) /\ included "LICENSE" (contents (manifest_in t)) /\
  ~ included "LICENSE" (contents (manifest_in (after (Found committed_config) t))).
Proof.
  exists (Tree None None None (Some "include LICENSE") None). cbn [manifest_in].
  assert (P : plain_lines (Some "include LICENSE")) by (unfold plain_lines; cbn; repeat split; discriminate).
  split; [exact P|]. split; [apply included_iff; [exact P|]; vm_compute; tauto|].
  assert (W : word (versionfile_source committed_config)).
  { split; [discriminate|]. cbn. unfold visible, code. cbn. repeat split; lia. }
  rewrite <- included_iff by (apply manifest_plain; assumption). vm_compute. intros H; repeat (destruct H as [H|H]; [discriminate|]); exact H.
Qed.

(** Nothing is added to a file that refers to the version file already. *)
Theorem c97_untouched : forall cfg t, let p := versionfile_source cfg in
  word p ->
  (plain_lines (manifest_in t) -> included "versioneer.py" (contents (manifest_in t)) -> included p (contents (manifest_in t)) ->
   manifest_in (after (Found cfg) t) = manifest_in t) /\
  (plain_lines (gitattributes t) -> marked p (contents (gitattributes t)) -> gitattributes (after (Found cfg) t) = gitattributes t) /\
  (plain_lines (init_py t) ->
   part_of (text_of [""; "from ._version import get_versions"; "__version__ = get_versions()['version']"; "del get_versions"]) (contents (init_py t)) ->
   init_py (after (Found cfg) t) = init_py t).
Proof.
  intros cfg t p W. unfold after. cbn [do_setup fst manifest_in gitattributes init_py]. fold p. repeat split.
  - intros P A B. apply included_iff in A, B; [|exact P|exact P]. apply manifest_same; assumption.
  - intros P M. apply attributes_same, marked_present; assumption.
  - intros P M. destruct (init_py t) as [s|]; [|reflexivity]. cbn [install_init read]. rewrite universal_plain by exact P.
    rewrite (proj2 (occurs_iff _ _)); [reflexivity|exact M].
Qed.

(** ** Again *)
Theorem c97_again : forall cfg t,
  word (versionfile_source cfg) -> complete_lines (manifest_in t) -> complete_lines (gitattributes t) ->
  after (Found cfg) (after (Found cfg) t) = after (Found cfg) t.
Proof.
  intros cfg t W C1 C2. unfold after. cbn [do_setup fst setup_cfg version_py init_py manifest_in gitattributes].
  rewrite init_again, manifest_again, attributes_again; try assumption; try apply complete_ended; try assumption. reflexivity.
Qed.
(** If a line is not complete the second run may add something, but the third never does. *)
Theorem c97_settles : forall cfg t,
  word (versionfile_source cfg) ->
  after (Found cfg) (after (Found cfg) (after (Found cfg) t)) = after (Found cfg) (after (Found cfg) t).
Proof.
  intros cfg t W. unfold after. cbn [do_setup fst setup_cfg version_py init_py manifest_in gitattributes].
  rewrite !init_again, manifest_settles, attributes_settles by assumption. reflexivity.
Qed.
Theorem c97_again_refuted : exists t,
  ~ included "versioneer.py" (contents (manifest_in (after (Found committed_config) t))) /\
  after (Found committed_config) (after (Found committed_config) t) <> after (Found committed_config) t.
Proof.
  exists (Tree None None None (Some "exclude setup.cfg") None).
  assert (P : plain_lines (Some "exclude setup.cfg")) by (unfold plain_lines; cbn; repeat split; discriminate).
  assert (W : word (versionfile_source committed_config)).
  { split; [discriminate|]. cbn. unfold visible, code. cbn. repeat split; lia. }
  split.
  - rewrite <- included_iff by (apply manifest_plain; assumption). vm_compute. intros H; repeat (destruct H as [H|H]; [discriminate|]); exact H.
  - intros E. apply (f_equal manifest_in) in E. vm_compute in E. discriminate.
Qed.

(** Every file that is changed is given to git. *)
Theorem c97_staged : forall cfg t n,
  file_of n (after (Found cfg) t) <> file_of n t -> In n (snd (do_setup (Found cfg) t)).
Proof.
  intros cfg t n H. unfold after in H. cbn [do_setup fst snd] in H |- *. destruct n.
  - left. reflexivity.
  - right. left. reflexivity.
  - destruct (init_py t) as [s|] eqn:E; [right; right; left; reflexivity|]. exfalso. apply H. cbn [file_of init_py]. rewrite E. reflexivity.
  - exfalso. apply H. reflexivity.
  - cbn [file_of gitattributes] in H. unfold install_attributes in H. destruct (is_present (versionfile_source cfg) (gitattributes t)); [congruence|].
    apply in_or_app. right. apply in_or_app. right. right. left. reflexivity.
Qed.

(** Without the settings nothing but the sample section in setup.cfg is written, and an error is returned. *)
Theorem c97_error : forall c t, snd (fst (do_setup c t)) = 0%Z <-> exists cfg, c = Found cfg.
Proof. intros [| |cfg] t; cbn; split; [discriminate|intros [g E]; discriminate|discriminate|intros [g E]; discriminate|intros _; exists cfg; reflexivity|reflexivity]. Qed.
Theorem c97_nothing : forall c t n, (forall cfg, c <> Found cfg) -> file_of n (after c t) = file_of n t /\ snd (do_setup c t) = [].
Proof. intros [| |cfg] t n H; [| |exfalso; exact (H cfg eq_refl)]; split; destruct n; reflexivity. Qed.

(** The section that is written has no settings yet: all its other lines are comments. *)
Theorem c97_sample : forall t, setup_cfg (after NoOption t) = setup_cfg t /\
  exists lines, setup_cfg (after NoSection t) = Some (contents (setup_cfg t) ++ text_of lines) /\ In "[versioneer]" lines /\
    Forall (fun l => l = "[versioneer]" \/ l = "" \/ exists r, l = "#" ++ r) lines.
Proof.
  intros t. split; [reflexivity|]. unfold after. cbn [do_setup fst setup_cfg].
  assert (E : exists lines, sample_config = text_of lines /\ In "[versioneer]" lines /\
    Forall (fun l => l = "[versioneer]" \/ l = "" \/ exists r, l = "#" ++ r) lines).
  { exists [""; "# See the docstring in versioneer.py for instructions. Note that you must";
      "# re-run 'versioneer.py setup' after changing this section, and commit the"; "# resulting files."; ""; "[versioneer]";
      "#VCS = git"; "#style = pep440"; "#versionfile_source ="; "#versionfile_build ="; "#tag_prefix ="; "#parentdir_prefix ="; ""].
    split; [reflexivity|]. split; [do 5 right; left; reflexivity|].
    repeat (constructor; [first [left; reflexivity|right; left; reflexivity|right; right; eexists; reflexivity]|]). constructor. }
  destruct E as [lines [E R]]. exists lines. rewrite <- E. split; [destruct (setup_cfg t); reflexivity|exact R].
Qed.

(** ** The check of setup.py *)
Lemma part_split : forall p h t, every (other_than "010") p -> p <> "" -> part_of p (h ++ nl ++ t) -> part_of p h \/ part_of p t.
Proof.
  intros p h t H N [a [b E]]. revert a E. induction h as [|x h IH]; intros a E.
  - destruct a as [|y a]; cbn [append] in E.
    + destruct p as [|z p]; [congruence|]. cbn [append nl] in E. injection E as <- _. destruct H as [H _]. exfalso. apply H. reflexivity.
    + injection E as _ E. right. exists a, b. exact E.
  - destruct a as [|y a].
    + left. cbn [append] in E. clear IH. revert E. change (String x (h ++ nl ++ t)) with (String x h ++ nl ++ t). generalize (String x h) as g. clear N.
      induction p as [|z p IHp]; intros g E; [exists "", g; reflexivity|]. destruct H as [Z H]. destruct g as [|w g]; cbn [append nl] in E.
      * injection E as <- _. exfalso. apply Z. reflexivity.
      * injection E as -> E. destruct (IHp H g E) as [u [v ->]].
        assert (U : exists v', u ++ p ++ v = p ++ v').
        { clear -E H. revert E. generalize (u ++ p ++ v) as g. intros g E. revert g E. induction p as [|z p IH]; intros g E; [exists g; reflexivity|].
          destruct H as [Z H]. destruct g as [|w g]; cbn [append nl] in E; [injection E as <- _; exfalso; apply Z; reflexivity|].
          injection E as -> E. destruct (IH H g E) as [v' ->]. exists v'. reflexivity. }
        destruct U as [v' ->]. exists "", v'. reflexivity.
    + cbn [append] in E. injection E as -> E. destruct (IH a E) as [[u [v ->]]|R]; [left|right; exact R]. exists (String y u), v. reflexivity.
Qed.
Lemma in_lines : forall p s, every (other_than "010") p -> p <> "" -> existsb (occurs p) (readlines s) = true <-> part_of p s.
Proof.
  intros p s H N. rewrite existsb_exists. split.
  - intros [x [X O]]. apply (proj1 (occurs_iff _ _)) in O. destruct O as [u [v ->]].
    destruct (readlines_lines _ _ X) as [l [[_ [a [b [-> [A B]]]]] [Y|Y]]].
    + destruct (part_split p l "" H N) as [[c [d ->]]|[c [d E]]]; [exists u, v; exact (eq_sym Y)| |].
      * exists (a ++ c), (d ++ b). rewrite !app_assoc. reflexivity.
      * exfalso. symmetry in E. apply app_eq_empty in E. destruct E as [_ E]. apply app_eq_empty in E. destruct E. contradiction.
    + subst l. exists (a ++ u), (v ++ b). rewrite !app_assoc. reflexivity.
  - revert s. apply (lines_ind (fun s => part_of p s -> exists x, In x (readlines s) /\ occurs p x = true)).
    + intros h Hh Q. exists h. rewrite readlines_one; [split; [left; reflexivity|apply occurs_iff; exact Q]|exact Hh|].
      intros ->. destruct Q as [a [b E]]. symmetry in E. apply app_eq_empty in E. destruct E as [_ E]. apply app_eq_empty in E. destruct E. contradiction.
    + intros h t Hh IH Q. rewrite readlines_nl by exact Hh. destruct (part_split p h t H N Q) as [[c [d ->]]|R].
      * exists ((c ++ p ++ d) ++ nl). split; [left; reflexivity|]. apply occurs_iff. exists c, (d ++ nl). rewrite !app_assoc. reflexivity.
      * destruct (IH R) as [x [X O]]. exists x. split; [right; exact X|exact O].
Qed.
Theorem c97_scan : forall s, every (other_than "013") s ->
  scan_setup_py s = 0%Z <->
  part_of "import versioneer" s /\ part_of "versioneer.get_cmdclass()" s /\ part_of "versioneer.get_version()" s /\
  ~ part_of "versioneer.VCS" s /\ ~ part_of "versioneer.versionfile_source" s.
Proof.
  intros s H. unfold scan_setup_py. cbv zeta. rewrite universal_plain by exact H.
  pose proof (fun p => in_lines p s) as L.
  rewrite <- (L "import versioneer"), <- (L "versioneer.get_cmdclass()"), <- (L "versioneer.get_version()"), <- (L "versioneer.VCS"),
    <- (L "versioneer.versionfile_source") by (discriminate || (repeat split; discriminate)).
  destruct (existsb (occurs "import versioneer") _); destruct (existsb (occurs "versioneer.get_cmdclass()") _);
    destruct (existsb (occurs "versioneer.get_version()") _); destruct (existsb (occurs "versioneer.VCS") _);
    destruct (existsb (occurs "versioneer.versionfile_source") _); cbn; intuition (congruence || lia).
Qed.

(** ** This repository *)
Theorem c97_committed : let t := after (Found committed_config) committed_tree in
  manifest_in t = manifest_in committed_tree /\ init_py t = init_py committed_tree /\
  gitattributes t = Some (text_of ["calendars/_version.py export-subst"; "trading_calendars/_version.py export-subst"]) /\
  scan_setup_py committed_setup_py = 0%Z.
Proof. vm_compute. repeat split; reflexivity. Qed.
(** Git does not put the version into archives of this commit, because .gitattributes names a file that
    does not exist; and the committed _version.py is the one of other settings. *)
Theorem c97_committed_refuted :
  ~ marked (versionfile_source committed_config) committed_attributes /\
  long_version_py (Config "pep440" "" "calendars-" "calendars/_version.py") = source lines_before lines_after unexpanded /\
  version_py (after (Found committed_config) committed_tree) <> version_py committed_tree.
Proof.
  split; [|split].
  - intros M. assert (W : word (versionfile_source committed_config)) by (split; [discriminate|]; cbn; unfold visible, code; cbn; repeat split; lia).
    assert (P : plain_lines (Some committed_attributes)) by (unfold plain_lines, committed_attributes; cbn; repeat split; discriminate).
    pose proof (marked_present _ (Some committed_attributes) W P M) as E. vm_compute in E. discriminate.
  - vm_compute. reflexivity.
  - vm_compute. discriminate.
Qed.

(** ** Cases *)
Example c97_case : exists t, word (versionfile_source committed_config) /\ plain_lines (manifest_in t) /\ plain_lines (gitattributes t) /\
  plain_lines (init_py t) /\ complete_lines (manifest_in t) /\ complete_lines (gitattributes t) /\
  no_longer_name (versionfile_source committed_config) (gitattributes t) /\ after (Found committed_config) t <> t.
Proof.
  exists (Tree None None (Some "x = 1") (Some ("include LICENSE" ++ newline)) None). cbn [manifest_in gitattributes init_py].
  split; [split; [discriminate|]; cbn; unfold visible, code; cbn; repeat split; lia|].
  split; [unfold plain_lines; cbn; repeat split; discriminate|]. split; [exact I|]. split; [unfold plain_lines; cbn; repeat split; discriminate|].
  split; [right; exists "include LICENSE"; reflexivity|]. split; [left; reflexivity|]. split.
  - intros i c r _ [_ [a [b [E _]]]]. cbn [contents] in E. symmetry in E. apply app_eq_empty in E. destruct E as [_ E].
    apply app_eq_empty in E. destruct E as [E _]. apply app_eq_empty in E. destruct E as [_ E]. discriminate.
  - intros E. apply (f_equal init_py) in E. vm_compute in E. discriminate.
Qed.

(** ** Assumptions *)
Print Assumptions c97_refers.
Print Assumptions c97_version_py.
Print Assumptions c97_refers_refuted.
Print Assumptions c97_keeps.
Print Assumptions c97_still_included.
Print Assumptions c97_still_included_refuted.
Print Assumptions c97_untouched.
Print Assumptions c97_again.
Print Assumptions c97_settles.
Print Assumptions c97_again_refuted.
Print Assumptions c97_staged.
Print Assumptions c97_error.
Print Assumptions c97_nothing.
Print Assumptions c97_sample.
Print Assumptions c97_scan.
Print Assumptions c97_committed.
Print Assumptions c97_committed_refuted.
