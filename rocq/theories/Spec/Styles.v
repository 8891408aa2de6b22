(** The styles of version numbers as their descriptions in _version.py announce them, and
    what can happen when git is asked. *)
From Coq Require Import String Ascii NArith ZArith List Bool.
From Verif.Model Require Import VersionStyles.
From Verif.Spec Require Import Git.
Import ListNotations.
Open Scope string_scope.

(** The white space of Python: tab to carriage return, the four separators, the blank. *)
Definition white (a : ascii) : Prop := In (code a) [9; 10; 11; 12; 13; 28; 29; 30; 31; 32].

(** Of the executables that are tried, the first that exists prints [text], between
    any white space, and ends well. *)
Definition prints (l : list process) (text : string) : Prop :=
  exists missing before after rest,
    (forall p, In p missing -> p = NotFound) /\ every white before /\ every white after /\
    l = (missing ++ Ended (before ++ text ++ after) 0 :: rest)%list.

(** None exists, or the first that exists cannot be started or ends badly. *)
Definition mute (l : list process) : Prop :=
  (forall p, In p l -> p = NotFound) \/
  exists missing p rest, (forall p, In p missing -> p = NotFound) /\ l = (missing ++ p :: rest)%list /\
    (p = NotStarted \/ exists out rc, p = Ended out rc /\ rc <> 0%Z).

Inductive style : Type := Pep440 | Pep440Pre | Pep440Post | Pep440Old | GitDescribe | GitDescribeLong.
Definition style_name (s : style) : string :=
  match s with
  | Pep440 => "pep440"
  | Pep440Pre => "pep440-pre"
  | Pep440Post => "pep440-post"
  | Pep440Old => "pep440-old"
  | GitDescribe => "git-describe"
  | GitDescribeLong => "git-describe-long"
  end.

(** What a style gives [n] commits after [tag], at the commit [h], with or without
    changes. *)
Definition tagged_version (s : style) (tag : string) (n : N) (h : string) (changed : bool) : string :=
  let released := match n, changed with N0, false => true | _, _ => false end in
  let sign := if in_dec ascii_dec "+"%char (list_ascii_of_string tag) then "." else "+" in
  let dev0 := if changed then ".dev0" else "" in
  match s with
  | Pep440 => (* TAG[+DISTANCE.gHEX[.dirty]] *) expected_version tag n h changed
  | Pep440Pre => (* TAG[.post.devDISTANCE] *)
      match n with N0 => tag | _ => tag ++ ".post.dev" ++ decimal n end
  | Pep440Post => (* TAG[.postDISTANCE[.dev0]+gHEX] *)
      if released then tag else tag ++ ".post" ++ decimal n ++ dev0 ++ sign ++ "g" ++ h
  | Pep440Old => (* TAG[.postDISTANCE[.dev0]] *)
      if released then tag else tag ++ ".post" ++ decimal n ++ dev0
  | GitDescribe => (* TAG[-DISTANCE-gHEX][-dirty] *)
      match n with N0 => tag | _ => tag ++ "-" ++ decimal n ++ "-g" ++ h end ++ (if changed then "-dirty" else "")
  | GitDescribeLong => (* TAG-DISTANCE-gHEX[-dirty] *)
      tag ++ "-" ++ decimal n ++ "-g" ++ h ++ (if changed then "-dirty" else "")
  end.

(** What a style gives without tags, at the [n]-th commit. *)
Definition untagged_version (s : style) (n : N) (h : string) (changed : bool) : string :=
  let dev0 := if changed then ".dev0" else "" in
  match s with
  | Pep440 => "0+untagged." ++ decimal n ++ ".g" ++ h ++ (if changed then ".dirty" else "")
  | Pep440Pre => "0.post.dev" ++ decimal n
  | Pep440Post => "0.post" ++ decimal n ++ dev0 ++ "+g" ++ h
  | Pep440Old => "0.post" ++ decimal n ++ dev0
  | GitDescribe | GitDescribeLong => h ++ (if changed then "-dirty" else "")
  end.

(** The version that the name of a directory tells. *)
Definition names_version (directory v : string) : Prop := directory = "calendars-" ++ v.
