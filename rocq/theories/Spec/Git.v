(** What git prints about a checkout, and the version that users read from it. *)
From Coq Require Import String Ascii NArith List Bool DecimalString.
Import ListNotations.
Open Scope string_scope.

Definition decimal (n : N) : string := NilZero.string_of_uint (N.to_uint n).
Definition newline : string := String "010" EmptyString.

(** [P] holds for every character of [s]. *)
Fixpoint every (P : ascii -> Prop) (s : string) : Prop :=
  match s with
  | EmptyString => True
  | String a s' => P a /\ every P s'
  end.

(** The code of a character. *)
Definition code (a : ascii) : nat := nat_of_ascii a.
Definition visible (a : ascii) : Prop := 32 < code a.
Definition digit (a : ascii) : Prop := 48 <= code a <= 57.
Definition hex_digit (a : ascii) : Prop := digit a \/ 97 <= code a <= 102.
Definition other_than (c a : ascii) : Prop := a <> c.

(** A word is not empty and has only visible characters; git allows nothing else in
    the name of a tag or a branch. *)
Definition word (s : string) : Prop := s <> "" /\ every visible s.
Definition hash (s : string) : Prop := s <> "" /\ every hex_digit s.

(** [git describe --tags --dirty --always --long] in a checkout [n] commits after
    [tag], with the abbreviated hash [h]. *)
Definition described (tag : string) (n : N) (h : string) (dirty : bool) : string :=
  tag ++ "-" ++ decimal n ++ "-g" ++ h ++ (if dirty then "-dirty" else "") ++ newline.

(** The same when there is no tag. *)
Definition described_untagged (h : string) (dirty : bool) : string :=
  h ++ (if dirty then "-dirty" else "") ++ newline.

(** TAG, or TAG+N.gHASH, with .dirty if there are changes; a tag that has a plus sign
    already is followed by a dot. *)
Definition expected_version (tag : string) (n : N) (h : string) (dirty : bool) : string :=
  let local := decimal n ++ ".g" ++ h ++ (if dirty then ".dirty" else "") in
  match n, dirty with
  | N0, false => tag
  | _, _ => tag ++ (if in_dec ascii_dec "+"%char (list_ascii_of_string tag) then "." else "+") ++ local
  end.

(** Letters and digits between dots: what PEP 440 allows after the plus sign. *)
Definition alphanumeric (a : ascii) : Prop := digit a \/ 97 <= code a <= 122.
Definition local_version (s : string) : Prop :=
  exists segments, s = String.concat "." segments /\ segments <> [] /\
    forall w, In w segments -> w <> "" /\ every alphanumeric w.

(** The names of a commit as [git archive] writes them: " (HEAD -> master, tag: 1.2)". *)
Inductive ref : Type :=
| Tag (t : string)
| Branch (b : string)
| Head (b : string).
Definition ref_text (r : ref) : string :=
  match r with
  | Tag t => "tag: " ++ t
  | Branch b => b
  | Head b => "HEAD -> " ++ b
  end.
Definition decoration (rs : list ref) : string := " (" ++ String.concat ", " (map ref_text rs) ++ ")".
Definition ref_name (r : ref) : string := match r with Tag t => t | Branch b => b | Head b => b end.

(** A name without the characters that separate names here. *)
Definition plain (s : string) : Prop :=
  word s /\ every (other_than ",") s /\ every (other_than "(") s /\ every (other_than ")") s.

(** [a] is before [b] or equal to it in the order of characters. *)
Definition no_later_than (a b : string) : Prop := String.compare a b <> Gt.
