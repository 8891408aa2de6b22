(** trading_calendars/_version.py: where [trading_calendars.__version__]
    (__init__.py:40-42) comes from.  Strings are lists of bytes; [\d] is [0-9]
    (simplification: Python's also matches other decimal digits, which git does
    not print). *)
From Coq Require Import String Ascii ZArith NArith List Bool DecimalString.
From Verif.Model Require Import Base.
Import ListNotations.
Open Scope string_scope.

(** ** Python's string functions *)

(** [c in s] for a character. *)
Fixpoint has_char (c : ascii) (s : string) : bool :=
  match s with
  | EmptyString => false
  | String a s' => if Ascii.eqb a c then true else has_char c s'
  end.

(** A regular expression [[...]*] that has to match the whole string. *)
Fixpoint all_chars (p : ascii -> bool) (s : string) : bool :=
  match s with
  | EmptyString => true
  | String a s' => p a && all_chars p s'
  end.

(** [re.search(r'[...]', s)] *)
Fixpoint some_char (p : ascii -> bool) (s : string) : bool :=
  match s with
  | EmptyString => false
  | String a s' => p a || some_char p s'
  end.

Definition is_digit (a : ascii) : bool :=
  let n := N_of_ascii a in (48 <=? n)%N && (n <=? 57)%N.
Definition is_hex (a : ascii) : bool :=
  let n := N_of_ascii a in is_digit a || ((97 <=? n)%N && (n <=? 102)%N).
(** ASCII whitespace, as [str.strip()] removes it. *)
Definition is_space (a : ascii) : bool :=
  let n := N_of_ascii a in ((9 <=? n)%N && (n <=? 13)%N) || (n =? 32)%N || ((28 <=? n)%N && (n <=? 31)%N).

(** [s.lstrip] and [s.rstrip] of the characters in a class. *)
Fixpoint lstrip (p : ascii -> bool) (s : string) : string :=
  match s with
  | EmptyString => EmptyString
  | String a s' => if p a then lstrip p s' else s
  end.
Fixpoint rstrip (p : ascii -> bool) (s : string) : string :=
  match s with
  | EmptyString => EmptyString
  | String a s' =>
      match rstrip p s' with
      | EmptyString => if p a then EmptyString else String a EmptyString
      | t => String a t
      end
  end.
Definition strip_of (p : ascii -> bool) (s : string) : string := rstrip p (lstrip p s).
Definition strip (s : string) : string := strip_of is_space s.
Definition is_paren (a : ascii) : bool := Ascii.eqb a "("%char || Ascii.eqb a ")"%char.

(** [s.startswith(p)] with [s[len(p):]]. *)
Fixpoint after_prefix (p s : string) : option string :=
  match p, s with
  | EmptyString, _ => Some s
  | String a p', String b s' => if Ascii.eqb a b then after_prefix p' s' else None
  | _, _ => None
  end.

(** [s.endswith(q)] with [s[:s.rindex(q)]]. *)
Fixpoint before_suffix (q s : string) : option string :=
  if String.eqb s q then Some EmptyString
  else match s with
       | EmptyString => None
       | String a s' => option_map (String a) (before_suffix q s')
       end.

(** [s.split(c)] *)
Fixpoint split_on (c : ascii) (s : string) : list string :=
  match s with
  | EmptyString => [EmptyString]
  | String a s' =>
      if Ascii.eqb a c then EmptyString :: split_on c s'
      else match split_on c s' with
           | w :: ws => String a w :: ws
           | [] => [String a EmptyString]
           end
  end.

(** [s.rsplit(c, 1)]: the parts before and after the last [c]. *)
Fixpoint rsplit1 (c : ascii) (s : string) : option (string * string) :=
  match s with
  | EmptyString => None
  | String a s' =>
      match rsplit1 c s' with
      | Some (l, r) => Some (String a l, r)
      | None => if Ascii.eqb a c then Some (EmptyString, s') else None
      end
  end.

(** [s.replace(c, r, 1)] for a character [c]. *)
Fixpoint replace1 (c : ascii) (r : string) (s : string) : string :=
  match s with
  | EmptyString => EmptyString
  | String a s' => if Ascii.eqb a c then r ++ s' else String a (replace1 c r s')
  end.

(** [s[:n]] *)
Fixpoint first_chars (n : nat) (s : string) : string :=
  match n, s with
  | S n', String a s' => String a (first_chars n' s')
  | _, _ => EmptyString
  end.

(** [sorted(set(l))] *)
Definition string_ltb (a b : string) : bool :=
  match String.compare a b with Lt => true | _ => false end.
Fixpoint insert (x : string) (l : list string) : list string :=
  match l with
  | [] => [x]
  | y :: l' => if String.eqb x y then l else if string_ltb x y then x :: l else y :: insert x l'
  end.
Definition sorted_set (l : list string) : list string := fold_right insert [] l.

(** [int(s)] of a string without surrounding whitespace: only plain digits
    (simplification: no sign, no underscores); ValueError otherwise. *)
Definition int_of (s : string) : result N :=
  match NilZero.uint_of_string s with
  | Some d => Ok (N.of_uint d)
  | None => Raise ValueError
  end.
(** ["%d" % n] *)
Definition percent_d (n : N) : string := NilZero.string_of_uint (N.to_uint n).

(** ** The answer *)

(** The dictionary that [get_versions] returns. *)
Record versions : Type := Versions {
  version : string;
  full_revisionid : option string;
  dirty : option bool;
  error : option string;
  date : option string
}.

(** [raise NotThisMethod] is [NotThis]; other exceptions end [get_versions] and
    with it the import of the package. *)
Inductive answer (A : Type) : Type :=
| Gives (a : A)
| NotThis
| Fails (e : exn).
Arguments Gives {A} a.
Arguments NotThis {A}.
Arguments Fails {A} e.

(** _version.py:20-30 [get_keywords]: the literals, which [git archive] may have
    replaced. *)
Record keywords : Type := Keywords { refnames : string; full : string; kdate : string }.
Definition unexpanded : keywords := Keywords "$Format:%d$" "$Format:%H$" "$Format:%ci$".

(** _version.py:37-48 [get_config] *)
Definition tag_prefix : string := "".
Definition parentdir_prefix : string := "calendars-".

(** _version.py:174, 303: the date of git in ISO 8601. *)
Definition iso_date (d : string) : string :=
  replace1 " " "" (replace1 " " "T" (strip d)).

(** _version.py:161-213 [git_versions_from_keywords], verbose off. *)
Definition git_versions_from_keywords (k : keywords) (prefix : string) : answer versions :=
  let refs0 := strip (refnames k) in
  match after_prefix "$Format" refs0 with
  | Some _ => NotThis
  | None =>
      let refs := map strip (split_on "," (strip_of is_paren refs0)) in
      let tags := flat_map (fun r => match after_prefix "tag: " r with Some t => [t] | None => [] end) refs in
      let tags := match tags with [] => filter (some_char is_digit) refs | _ => tags end in
      match flat_map (fun r => match after_prefix prefix r with Some t => [t] | None => [] end) (sorted_set tags) with
      | r :: _ => Gives (Versions r (Some (strip (full k))) (Some false) None (Some (iso_date (kdate k))))
      | [] => Gives (Versions "0+unknown" (Some (strip (full k))) (Some false) (Some "no suitable tags") None)
      end
  end.

(** What the git commands of [git_pieces_from_vcs] print, [None] if they cannot be
    run or fail (_version.py:70-104 [run_command], which strips the output). *)
Record git : Type := Git {
  rev_parse_git_dir : option string;
  describe : option string;
  rev_parse_head : option string;
  rev_list_count : option string;
  show_date : option string
}.

(** The dictionary [pieces] that [git_pieces_from_vcs] returns. *)
Record pieces : Type := Pieces {
  long : string;
  short : string;
  perror : option string;
  pdirty : bool;
  closest_tag : option string;
  distance : N;
  pdate : string
}.

(** _version.py:269 [re.search(r'^(.+)-(\d+)-g([0-9a-f]+)$', s)]: the groups.  A
    match is unique, since the last group has no dash, nor has the second. *)
Definition match_describe (s : string) : option (string * string * string) :=
  match rsplit1 "-" s with
  | Some (a, String "g" h) =>
      match rsplit1 "-" a with
      | Some (t, n) =>
          if negb (String.eqb t "") && negb (has_char "010" t)
             && (negb (String.eqb n "") && all_chars is_digit n)
             && (negb (String.eqb h "") && all_chars is_hex h)
          then Some (t, n, h) else None
      | None => None
      end
  | _ => None
  end.

(** _version.py:216-305 [git_pieces_from_vcs].  Where the code returns early with an
    error, the remaining fields are not looked at again. *)
Definition git_pieces_from_vcs (prefix : string) (g : git) : answer pieces :=
  match option_map strip (rev_parse_git_dir g), option_map strip (describe g), option_map strip (rev_parse_head g) with
  | None, _, _ | _, None, _ | _, _, None => NotThis
  | Some _, Some describe_out, Some full_out =>
      let '(is_dirty, git_describe) :=
        match before_suffix "-dirty" describe_out with
        | Some d => (true, d)
        | None => (false, describe_out)
        end in
      let failed e := Gives (Pieces full_out (first_chars 7 full_out) (Some e) is_dirty None 0 "") in
      let finish tag n sh :=
        match option_map strip (show_date g) with
        | None => Fails AttributeError
        | Some d => Gives (Pieces full_out sh None is_dirty tag n (iso_date d))
        end in
      if has_char "-" git_describe then
        match match_describe git_describe with
        | None => failed ("unable to parse git-describe output: '" ++ describe_out ++ "'")
        | Some (full_tag, num, hex) =>
            match after_prefix prefix full_tag with
            | None => failed ("tag '" ++ full_tag ++ "' doesn't start with prefix '" ++ prefix ++ "'")
            | Some tag =>
                match int_of num with
                | Raise e => Fails e
                | Ok n => finish (Some tag) n hex
                end
            end
        end
      else
        match option_map strip (rev_list_count g) with
        | None => Fails TypeError
        | Some count_out =>
            match int_of count_out with
            | Raise e => Fails e
            | Ok n => finish None n (first_chars 7 full_out)
            end
        end
  end.

(** _version.py:308-312 [plus_or_dot] *)
Definition plus_or_dot (tag : string) : string := if has_char "+" tag then "." else "+".

(** _version.py:315-337 [render_pep440] *)
Definition render_pep440 (p : pieces) : string :=
  match closest_tag p with
  | Some (String a t) =>
      let tag := String a t in
      if negb (distance p =? 0)%N || pdirty p then
        tag ++ plus_or_dot tag ++ percent_d (distance p) ++ ".g" ++ short p
          ++ (if pdirty p then ".dirty" else "")
      else tag
  | _ =>
      "0+untagged." ++ percent_d (distance p) ++ ".g" ++ short p ++ (if pdirty p then ".dirty" else "")
  end.

(** _version.py:445-474 [render] with the configured style, "pep440". *)
Definition render (p : pieces) : versions :=
  match perror p with
  | Some e => Versions "unknown" (Some (long p)) None (Some e) None
  | None => Versions (render_pep440 p) (Some (long p)) (Some (pdirty p)) None (Some (pdate p))
  end.

(** [os.path.basename] and [os.path.dirname] of an absolute path without a trailing
    slash (what [os.path.realpath] returns): [dirname] keeps the slash of the root
    directory. *)
Definition basename (path : string) : string :=
  match rsplit1 "/" path with Some (_, b) => b | None => path end.
Definition dirname (path : string) : string :=
  match rsplit1 "/" path with
  | Some (EmptyString, _) => "/"
  | Some (d, _) => d
  | None => ""
  end.

(** _version.py:107-129 [versions_from_parentdir] *)
Fixpoint versions_from_parentdir (fuel : nat) (prefix root : string) : answer versions :=
  match fuel with
  | O => NotThis
  | S fuel' =>
      match after_prefix prefix (basename root) with
      | Some v => Gives (Versions v None (Some false) None None)
      | None => versions_from_parentdir fuel' prefix (dirname root)
      end
  end.

(** _version.py:477-520 [get_versions]; [file] is the real path of the module,
    [None] where [__file__] is not defined. *)
Definition get_versions (k : keywords) (file : option string) (g : string -> git) : answer versions :=
  match git_versions_from_keywords k tag_prefix with
  | Gives v => Gives v
  | Fails e => Fails e
  | NotThis =>
      match file with
      | None => Gives (Versions "0+unknown" None None (Some "unable to find root of source tree") None)
      | Some f =>
          let root := dirname (dirname f) in
          match git_pieces_from_vcs tag_prefix (g root) with
          | Gives p => Gives (render p)
          | Fails e => Fails e
          | NotThis =>
              match versions_from_parentdir 3 parentdir_prefix root with
              | Gives v => Gives v
              | Fails e => Fails e
              | NotThis => Gives (Versions "0+unknown" None None (Some "unable to compute version") None)
              end
          end
      end
  end.
