(** What it means that the files of a project refer to its version file. *)
From Coq Require Import String Ascii NArith List Bool.
From Verif.Model Require Import Version Versioneer Installer.
From Verif.Spec Require Import Git Distribution.
Import ListNotations.
Open Scope string_scope.

(** [l] is one of the lines of [s]. *)
Definition is_line (l s : string) : Prop :=
  every (other_than "010") l /\
  exists a b, s = a ++ l ++ b /\ (a = "" \/ exists a', a = a' ++ newline) /\ (b = "" \/ exists b', b = newline ++ b').

(** [w] is one of the words of [l], which are separated by blanks. *)
Definition is_word (w l : string) : Prop :=
  w <> "" /\ every (fun a => ~ blank a) w /\
  exists a b, l = a ++ w ++ b /\
    (a = "" \/ exists a' c, a = a' ++ String c "" /\ blank c) /\ (b = "" \/ exists c b', b = String c b' /\ blank c).

(** MANIFEST.in has a line that includes the file [p]. *)
Definition included (p manifest : string) : Prop :=
  exists r, is_line ("include " ++ r) manifest /\ is_word p r.

(** .gitattributes has a line that gives the attribute export-subst to the file [p]. *)
Definition marked (p attributes : string) : Prop :=
  exists indent c r, every blank indent /\ blank c /\ is_line (indent ++ p ++ String c r) attributes /\ is_word "export-subst" r.

(** The text [p] occurs in [s]. *)
Definition part_of (p s : string) : Prop := exists a b, s = a ++ p ++ b.

(** The contents of a file, a missing one being empty. *)
Definition contents (f : option string) : string := match f with Some s => s | None => "" end.

(** All lines are complete: the file is empty or missing, or it ends with a newline. *)
Definition complete_lines (f : option string) : Prop := contents f = "" \/ exists s, contents f = s ++ newline.

(** There are no carriage returns. *)
Definition plain_lines (f : option string) : Prop := every (other_than "013") (contents f).

(** No line is about a file whose name only starts with [p]. *)
Definition no_longer_name (p : string) (f : option string) : Prop :=
  forall indent c r, every blank indent -> is_line (indent ++ p ++ String c r) (contents f) -> blank c.

(** The file is still there, with everything that was in it at its start. *)
Definition kept (f g : option string) : Prop :=
  match f with Some s => exists t, g = Some (s ++ t) | None => True end.

(** The contents of a file in a tree. *)
Definition file_of (n : name) (t : tree) : option string :=
  match n with
  | ManifestIn => manifest_in t
  | VersionPy => version_py t
  | InitPy => init_py t
  | GitAttributes => gitattributes t
  | VersioneerPy => None
  end.
