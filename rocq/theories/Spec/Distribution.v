(** What a distribution, an archive or a checkout records about its version. *)
From Coq Require Import String Ascii NArith List Bool.
From Verif.Model Require Import Version Versioneer.
From Verif.Spec Require Import Git.
Import ListNotations.
Open Scope string_scope.

(** The dictionary [d] has exactly the five entries of [v], in any order. *)
Definition text_or_null (s : option string) : value := match s with Some t => Text t | None => Null end.
Definition describes (d : list (string * value)) (v : versions) : Prop :=
  length d = 5%nat /\ NoDup (map fst d) /\
  In ("version", Text (version v)) d /\
  In ("full-revisionid", text_or_null (full_revisionid v)) d /\
  In ("dirty", match dirty v with Some b => Truth b | None => Null end) d /\
  In ("error", text_or_null (error v)) d /\
  In ("date", text_or_null (date v)) d.

(** Text that every encoding based on ASCII writes and reads in the same way. *)
Definition ascii_text (s : string) : Prop := every (fun a => (32 <= code a <= 126)%nat \/ a = "010"%char) s.

(** No control character, no quote, no backslash, and no three apostrophes in a row. *)
Definition plain_text (s : string) : Prop :=
  every (fun a => (32 <= code a)%nat /\ a <> "034"%char /\ a <> "092"%char) s /\ forall x y, s <> x ++ "'''" ++ y.
Definition plain_or_none (s : option string) : Prop := match s with Some t => plain_text t | None => True end.
Definition plain_version (v : versions) : Prop :=
  plain_text (version v) /\ plain_or_none (full_revisionid v) /\ plain_or_none (error v) /\ plain_or_none (date v).

(** The source of _version.py: the three assignments on lines of their own, between other
    lines. *)
Definition blank (a : ascii) : Prop :=
  (9 <= code a <= 13)%nat \/ code a = 32%nat \/ (28 <= code a <= 31)%nat.
Definition other_line (l : string) : Prop :=
  every (other_than "010") l /\
  forall indent name rest, every blank indent -> In name ["git_refnames ="; "git_full ="; "git_date ="] ->
    l <> indent ++ name ++ rest.
Fixpoint text_of (lines : list string) : string :=
  match lines with
  | [] => ""
  | l :: ls => l ++ newline ++ text_of ls
  end.
Definition assignment (name s : string) : string := "    " ++ name ++ " = " ++ String "034" (s ++ String "034" "").
Definition source (before after : list string) (k : keywords) : string :=
  text_of (before ++ [assignment "git_refnames" (refnames k); assignment "git_full" (full k); assignment "git_date" (kdate k)] ++ after)%list.

(** setup.py and the package give the same answer. *)
Definition same_answer (a : answer (list (string * value))) (b : answer versions) : Prop :=
  match b with
  | Gives v => exists d, a = Gives d /\ describes d v
  | Fails e => a = Fails e
  | NotThis => False
  end.
