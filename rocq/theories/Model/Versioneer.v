(** versioneer.py: the version that setup.py records in a distribution, and how it is
    read back.  Characters are those below 256 (simplification: json escapes all
    others in the same way as those from 127 on, or as pairs of such escapes).
    Python is version 3. *)
From Coq Require Import String Ascii ZArith NArith List Bool.
From Verif.Model Require Import Base Version.
Import ListNotations.
Open Scope string_scope.

(** ** json.dumps *)

(** What the dictionary of a version holds. *)
Inductive value : Type :=
| Null
| Truth (b : bool)
| Text (s : string).
Definition dict : Type := list (string * value).

Definition nl : string := String "010" "".
Definition quote : string := String "034" "".
Definition hex_char (n : N) : ascii := ascii_of_N (if (n <? 10)%N then 48 + n else 87 + n).

(** json/encoder.py [py_encode_basestring_ascii]: quotes, backslashes and everything
    but the printable characters of ASCII are escaped. *)
Definition escape (a : ascii) : string :=
  let n := N_of_ascii a in
  if (n =? 34)%N then "\" ++ quote
  else if (n =? 92)%N then "\\"
  else if (n =? 10)%N then "\n"
  else if (n =? 13)%N then "\r"
  else if (n =? 9)%N then "\t"
  else if (n =? 12)%N then "\f"
  else if (n =? 8)%N then "\b"
  else if (32 <=? n)%N && (n <=? 126)%N then String a ""
  else "\u00" ++ String (hex_char (n / 16)) (String (hex_char (n mod 16)) "").
Fixpoint escaped (s : string) : string :=
  match s with
  | EmptyString => EmptyString
  | String a s' => escape a ++ escaped s'
  end.
Definition dumps_text (s : string) : string := quote ++ escaped s ++ quote.
Definition dumps_value (v : value) : string :=
  match v with
  | Null => "null"
  | Truth true => "true"
  | Truth false => "false"
  | Text s => dumps_text s
  end.

(** [sort_keys=True] *)
Fixpoint insert_key (p : string * value) (d : dict) : dict :=
  match d with
  | [] => [p]
  | q :: d' => if string_ltb (fst p) (fst q) then p :: d else q :: insert_key p d'
  end.
Definition sort_keys (d : dict) : dict := fold_right insert_key [] d.

(** [indent=1, separators=(",", ": ")] *)
Definition dumps_item (p : string * value) : string := dumps_text (fst p) ++ ": " ++ dumps_value (snd p).
Fixpoint dumps_items (d : dict) : string :=
  match d with
  | [] => ""
  | [p] => dumps_item p
  | p :: d' => dumps_item p ++ "," ++ nl ++ " " ++ dumps_items d'
  end.
Definition dumps (d : dict) : string :=
  match d with
  | [] => "{}"
  | _ => "{" ++ nl ++ " " ++ dumps_items (sort_keys d) ++ nl ++ "}"
  end.

(** ** json.loads *)

(** [Malformed] is a JSONDecodeError, which is a ValueError; [Beyond] are numbers, lists,
    nested dictionaries and characters from 256 on, which are not modelled. *)
Inductive parsed (A : Type) : Type :=
| Parsed (a : A)
| Malformed
| Beyond.
Arguments Parsed {A} a.
Arguments Malformed {A}.
Arguments Beyond {A}.

Definition is_json_space (a : ascii) : bool :=
  let n := N_of_ascii a in (n =? 32)%N || (n =? 9)%N || (n =? 10)%N || (n =? 13)%N.
Definition hex_value (a : ascii) : option N :=
  let n := N_of_ascii a in
  if (48 <=? n)%N && (n <=? 57)%N then Some (n - 48)%N
  else if (97 <=? n)%N && (n <=? 102)%N then Some (n - 87)%N
  else if (65 <=? n)%N && (n <=? 70)%N then Some (n - 55)%N
  else None.
Definition hex4 (a b c d : ascii) : option N :=
  match hex_value a, hex_value b, hex_value c, hex_value d with
  | Some x, Some y, Some z, Some w => Some (((x * 16 + y) * 16 + z) * 16 + w)%N
  | _, _, _, _ => None
  end.
Definition and_then (a : ascii) (r : parsed (string * string)) : parsed (string * string) :=
  match r with
  | Parsed (s, rest) => Parsed (String a s, rest)
  | Malformed => Malformed
  | Beyond => Beyond
  end.
(** json/decoder.py [BACKSLASH] *)
Definition json_escape (e : ascii) : option ascii :=
  let n := N_of_ascii e in
  if (n =? 34)%N || (n =? 92)%N || (n =? 47)%N then Some e
  else if (n =? 98)%N then Some "008"%char
  else if (n =? 102)%N then Some "012"%char
  else if (n =? 110)%N then Some "010"%char
  else if (n =? 114)%N then Some "013"%char
  else if (n =? 116)%N then Some "009"%char
  else None.

(** json/decoder.py [py_scanstring], after the opening quote, [strict=True]: control characters
    are not allowed. *)
Fixpoint scanstring (s : string) : parsed (string * string) :=
  match s with
  | EmptyString => Malformed
  | String a s' =>
      let n := N_of_ascii a in
      if (n =? 34)%N then Parsed ("", s')
      else if (n =? 92)%N then
        match s' with
        | EmptyString => Malformed
        | String e s2 =>
            match json_escape e with
            | Some c => and_then c (scanstring s2)
            | None =>
                if (N_of_ascii e =? 117)%N then
                  match s2 with
                  | String h1 (String h2 (String h3 (String h4 s3))) =>
                      match hex4 h1 h2 h3 h4 with
                      | Some c => if (c <? 256)%N then and_then (ascii_of_N c) (scanstring s3) else Beyond
                      | None => Malformed
                      end
                  | _ => Malformed
                  end
                else Malformed
            end
        end
      else if (n <? 32)%N then Malformed
      else and_then a (scanstring s')
  end.

(** json/scanner.py [py_make_scanner], [_scan_once] *)
Definition scan_once (s : string) : parsed (value * string) :=
  match s with
  | EmptyString => Malformed
  | String a s' =>
      let n := N_of_ascii a in
      if (n =? 34)%N then
        match scanstring s' with
        | Parsed (t, rest) => Parsed (Text t, rest)
        | Malformed => Malformed
        | Beyond => Beyond
        end
      else match after_prefix "null" s, after_prefix "true" s, after_prefix "false" s with
           | Some rest, _, _ => Parsed (Null, rest)
           | _, Some rest, _ => Parsed (Truth true, rest)
           | _, _, Some rest => Parsed (Truth false, rest)
           | None, None, None =>
               if has_char a "{[-0123456789NI" then Beyond else Malformed
           end
  end.

Definition first_is (c : ascii) (s : string) : option string :=
  match s with
  | String a s' => if Ascii.eqb a c then Some s' else None
  | EmptyString => None
  end.
Definition skip (s : string) : string := lstrip is_json_space s.

(** json/decoder.py [JSONObject], after the opening quote of a key.  The fuel is never
    exhausted: each key takes characters. *)
Fixpoint members (fuel : nat) (s : string) : parsed (dict * string) :=
  match fuel with
  | O => Malformed
  | S fuel' =>
      match scanstring s with
      | Malformed => Malformed
      | Beyond => Beyond
      | Parsed (k, s1) =>
          match first_is ":" (skip s1) with
          | None => Malformed
          | Some s2 =>
              match scan_once (skip s2) with
              | Malformed => Malformed
              | Beyond => Beyond
              | Parsed (v, s3) =>
                  match first_is "}" (skip s3), first_is "," (skip s3) with
                  | Some s4, _ => Parsed ([(k, v)], s4)
                  | None, None => Malformed
                  | None, Some s4 =>
                      match first_is "034" (skip s4) with
                      | None => Malformed
                      | Some s5 =>
                          match members fuel' s5 with
                          | Parsed (d, rest) => Parsed ((k, v) :: d, rest)
                          | Malformed => Malformed
                          | Beyond => Beyond
                          end
                      end
                  end
              end
          end
      end
  end.

(** [json.loads] of a dictionary: nothing but white space may follow it. *)
Definition loads (s : string) : parsed dict :=
  let whole (r : parsed (dict * string)) : parsed dict :=
    match r with
    | Parsed (d, rest) => if String.eqb (skip rest) "" then Parsed d else Malformed
    | Malformed => Malformed
    | Beyond => Beyond
    end in
  match first_is "{" (skip s) with
  | None => match skip s with EmptyString => Malformed | _ => Beyond end
  | Some s1 =>
      match first_is "}" (skip s1), first_is "034" (skip s1) with
      | Some rest, _ => whole (Parsed ([], rest))
      | None, Some s2 => whole (members (String.length s2) s2)
      | None, None => Malformed
      end
  end.

(** Access to a dictionary made from pairs: the last one counts. *)
Fixpoint get (k : string) (d : dict) : option value :=
  match d with
  | [] => None
  | (k', v) :: d' =>
      match get k d' with
      | Some w => Some w
      | None => if String.eqb k k' then Some v else None
      end
  end.

(** ** The file *)

(** versioneer.py:1183-1198 [SHORT_VERSION_PY], before and after the contents. *)
Definition header : string :=
  nl ++ "# This file was generated by 'versioneer.py' (0.18) from" ++ nl ++
  "# revision-control system data, or from the parent directory name of an" ++ nl ++
  "# unpacked source archive. Distribution tarballs contain a pre-generated copy" ++ nl ++
  "# of this file." ++ nl ++ nl ++ "import json" ++ nl ++ nl ++
  "version_json = '''".
Definition footer : string :=
  "  # END VERSION_JSON" ++ nl ++ nl ++ nl ++ "def get_versions():" ++ nl ++
  "    return json.loads(version_json)" ++ nl.
(** The dictionary of a version, in the order in which it is written in the source. *)
Definition opt_text (s : option string) : value := match s with Some t => Text t | None => Null end.
Definition as_dict (v : versions) : dict :=
  [("version", Text (version v)); ("full-revisionid", opt_text (full_revisionid v));
   ("dirty", match dirty v with Some b => Truth b | None => Null end);
   ("error", opt_text (error v)); ("date", opt_text (date v))].
(** versioneer.py:1218-1226 [write_to_version_file]: the new contents of the file. *)
Definition version_file (d : dict) : string :=
  header ++ nl ++ dumps d ++ nl ++ "'''" ++ footer.

(** What precedes the last occurrence of [q]. *)
Fixpoint before_last (q s : string) : option string :=
  match s with
  | EmptyString => match q with EmptyString => Some "" | _ => None end
  | String a s' =>
      match before_last q s' with
      | Some t => Some (String a t)
      | None => match after_prefix q s with Some _ => Some "" | None => None end
      end
  end.
(** [re.search], with [re.S], for [first], any characters as a group, and [last]: the group. *)
Fixpoint between (first last s : string) : option string :=
  match match after_prefix first s with Some r => before_last last r | None => None end with
  | Some t => Some t
  | None => match s with EmptyString => None | String _ s' => between first last s' end
  end.

(** versioneer.py:1201-1215 [versions_from_file]; [None] if there is no file. *)
Definition versions_from_file (file : option string) : answer dict :=
  match file with
  | None => NotThis
  | Some s =>
      let group :=
        match between ("version_json = '''" ++ nl) "'''  # END VERSION_JSON" s with
        | Some t => Some t
        | None => between ("version_json = '''" ++ String "013" nl) "'''  # END VERSION_JSON" s
        end in
      match group with
      | None => NotThis
      | Some t =>
          match loads t with
          | Parsed d => Gives d
          | Malformed | Beyond => Fails ValueError
          end
      end
  end.

(** ** The file as a module *)

(** Python's escapes in a literal.  Octal escapes, names and the long form are not
    modelled; unknown escapes keep their backslash. *)
Definition literal_escape (e : ascii) : option string :=
  let n := N_of_ascii e in
  if (n =? 10)%N then Some ""
  else if (n =? 92)%N || (n =? 39)%N || (n =? 34)%N then Some (String e "")
  else if (n =? 97)%N then Some (String "007" "")
  else if (n =? 98)%N then Some (String "008" "")
  else if (n =? 102)%N then Some (String "012" "")
  else if (n =? 110)%N then Some (String "010" "")
  else if (n =? 114)%N then Some (String "013" "")
  else if (n =? 116)%N then Some (String "009" "")
  else if (n =? 118)%N then Some (String "011" "")
  else None.
Definition put (t : string) (r : parsed (string * string)) : parsed (string * string) :=
  match r with
  | Parsed (s, rest) => Parsed (t ++ s, rest)
  | Malformed => Malformed
  | Beyond => Beyond
  end.
(** A literal in three apostrophes, after its opening: its value and what follows. *)
Fixpoint literal (s : string) : parsed (string * string) :=
  match after_prefix "'''" s with
  | Some rest => Parsed ("", rest)
  | None =>
      match s with
      | EmptyString => Malformed
      | String a s' =>
          if (N_of_ascii a =? 92)%N then
            match s' with
            | EmptyString => Malformed
            | String e s2 =>
                match literal_escape e with
                | Some t => put t (literal s2)
                | None =>
                    if has_char e "01234567NUx" then Beyond
                    else if (N_of_ascii e =? 117)%N then
                      match s2 with
                      | String h1 (String h2 (String h3 (String h4 s3))) =>
                          match hex4 h1 h2 h3 h4 with
                          | Some c => if (c <? 256)%N then put (String (ascii_of_N c) "") (literal s3) else Beyond
                          | None => Malformed
                          end
                      | _ => Malformed
                      end
                    else put (String a (String e "")) (literal s2)
                end
            end
          else put (String a "") (literal s')
      end
  end.
(** [get_versions()] of the module in the file (versioneer.py:1183-1198): [json.loads] of the value of
    the literal.  A file in which something else follows the literal is not modelled. *)
Definition module_versions (s : string) : parsed dict :=
  match after_prefix header s with
  | None => Beyond
  | Some s1 =>
      match literal s1 with
      | Malformed => Malformed
      | Beyond => Beyond
      | Parsed (text, rest) => if String.eqb rest footer then loads text else Beyond
      end
  end.

(** ** Keywords *)

(** [f.readlines()]: the newline stays. *)
Fixpoint readlines (s : string) : list string :=
  match s with
  | EmptyString => []
  | String a s' =>
      if Ascii.eqb a "010" then nl :: readlines s'
      else match readlines s' with
           | [] => [String a ""]
           | l :: ls => String a l :: ls
           end
  end.
Definition is_prefix_of (p s : string) : bool := match after_prefix p s with Some _ => true | None => false end.
Fixpoint up_to_newline (s : string) : string :=
  match s with
  | EmptyString => EmptyString
  | String a s' => if Ascii.eqb a "010" then EmptyString else String a (up_to_newline s')
  end.
(** The [re.search] of versioneer.py:956, 960 and 964: an equals sign, white space, and a quote, any
    characters as a group up to the last quote of the line: the group. *)
Fixpoint quoted (s : string) : option string :=
  match s with
  | EmptyString => None
  | String a s' =>
      match (if Ascii.eqb a "=" then
               match first_is "034" (lstrip is_space s') with
               | Some r => before_last quote (up_to_newline r)
               | None => None
               end
             else None) with
      | Some g => Some g
      | None => quoted s'
      end
  end.
(** The last line that starts with [name] and has such a group. *)
Definition keyword (name : string) (lines : list string) : option string :=
  fold_left (fun acc l => if is_prefix_of name (strip l)
                          then match quoted l with Some g => Some g | None => acc end
                          else acc) lines None.
(** versioneer.py:945-970 [git_get_keywords], and versioneer.py:973-1025
    [git_versions_from_keywords], which is that of _version.py but for missing
    keywords. *)
Definition versions_from_keywords (file : option string) (prefix : string) : answer versions :=
  let lines := match file with Some s => readlines s | None => [] end in
  let r := keyword "git_refnames =" lines in
  let f := keyword "git_full =" lines in
  let d := keyword "git_date =" lines in
  match r, f, d with
  | None, None, None => NotThis
  | None, _, _ => Fails KeyError
  | Some rn, _, _ =>
      let text o := match o with Some t => t | None => "" end in
      match git_versions_from_keywords (Keywords rn (text f) (text d)) prefix with
      | Gives v =>
          match f, d with
          | None, _ => Fails KeyError
          | Some _, None => Gives (Versions (version v) (full_revisionid v) (dirty v) (error v) None)
          | Some _, Some _ => Gives v
          end
      | a => a
      end
  end.

(** ** setup.py *)

(** setup.cfg:19, which is not the prefix in _version.py *)
Definition setup_prefix : string := "trading_calendars-".

(** versioneer.py:1402-1475 [get_versions] with the configuration of setup.cfg:11-19: [file]
    are the contents of trading_calendars/_version.py below [root]. *)
Definition setup_versions (file : option string) (root : string) (g : git) : answer dict :=
  match versions_from_keywords file tag_prefix with
  | Gives v => Gives (as_dict v)
  | Fails e => Fails e
  | NotThis =>
      match versions_from_file file with
      | Gives d => Gives d
      | Fails e => Fails e
      | NotThis =>
          match git_pieces_from_vcs tag_prefix g with
          | Gives p => Gives (as_dict (render p))
          | Fails e => Fails e
          | NotThis =>
              match versions_from_parentdir 3 setup_prefix root with
              | Gives v => Gives (as_dict v)
              | Fails e => Fails e
              | NotThis => Gives (as_dict (Versions "0+unknown" None None (Some "unable to compute version") None))
              end
          end
      end
  end.
