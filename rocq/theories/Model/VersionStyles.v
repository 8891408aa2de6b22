(** The styles of _version.py, and the processes from which it learns about the checkout. *)
From Coq Require Import String Ascii NArith ZArith List Bool.
From Verif.Model Require Import Base Version.
Import ListNotations.
Open Scope string_scope.

(** How [subprocess.Popen] and [communicate] end for one executable: it is not found
    (ENOENT), it cannot be started for another reason, or it ends with an output and a
    return code. *)
Inductive process : Type :=
| NotFound
| NotStarted
| Ended (out : string) (returncode : Z).

(** ASCII whitespace, as [bytes.strip()] removes it: fewer characters than
    [str.strip()]. *)
Definition is_byte_space (a : ascii) : bool :=
  let n := N_of_ascii a in ((9 <=? n)%N && (n <=? 13)%N) || (n =? 32)%N.

(** _version.py:70-104 [run_command]: one process for each of the commands, in their
    order, verbose off.  Simplification: bytes and text are the same, so that
    [decode] does not fail. *)
Fixpoint run_command (commands : list process) : option string * option Z :=
  match commands with
  | [] => (None, None)
  | NotFound :: l => run_command l
  | NotStarted :: _ => (None, None)
  | Ended out rc :: _ =>
      let stdout := strip_of is_byte_space out in
      if (rc =? 0)%Z then (Some stdout, Some rc) else (None, Some rc)
  end.

(** The arguments of git in [git_pieces_from_vcs] (_version.py:228, 237, 245, 296, 301). *)
Inductive question : Type := GitDir | Describe | RevParseHead | RevListCount | ShowDate.

(** What happens in a directory when git is asked, for each name in GITS. *)
Definition shell : Type := question -> list process.

(** _version.py:228-302: the answers as [git_pieces_from_vcs] looks at them.  The first is
    judged by its return code, the others by their output. *)
Definition learn (sh : shell) : git :=
  let out q := fst (run_command (sh q)) in
  Git (match run_command (sh GitDir) with (o, Some 0%Z) => o | _ => None end)
    (out Describe) (out RevParseHead) (out RevListCount) (out ShowDate).

(** _version.py:340-353 [render_pep440_pre] *)
Definition render_pep440_pre (p : pieces) : string :=
  match closest_tag p with
  | Some (String a t) =>
      String a t ++ (if negb (distance p =? 0)%N then ".post.dev" ++ percent_d (distance p) else "")
  | _ => "0.post.dev" ++ percent_d (distance p)
  end.

(** _version.py:356-380 [render_pep440_post] *)
Definition render_pep440_post (p : pieces) : string :=
  match closest_tag p with
  | Some (String a t) =>
      let tag := String a t in
      if negb (distance p =? 0)%N || pdirty p then
        tag ++ ".post" ++ percent_d (distance p) ++ (if pdirty p then ".dev0" else "")
          ++ plus_or_dot tag ++ "g" ++ short p
      else tag
  | _ => "0.post" ++ percent_d (distance p) ++ (if pdirty p then ".dev0" else "") ++ "+g" ++ short p
  end.

(** _version.py:383-402 [render_pep440_old] *)
Definition render_pep440_old (p : pieces) : string :=
  match closest_tag p with
  | Some (String a t) =>
      let tag := String a t in
      if negb (distance p =? 0)%N || pdirty p then
        tag ++ ".post" ++ percent_d (distance p) ++ (if pdirty p then ".dev0" else "")
      else tag
  | _ => "0.post" ++ percent_d (distance p) ++ (if pdirty p then ".dev0" else "")
  end.

(** _version.py:405-422 [render_git_describe] *)
Definition render_git_describe (p : pieces) : string :=
  match closest_tag p with
  | Some (String a t) =>
      String a t ++ (if negb (distance p =? 0)%N then "-" ++ percent_d (distance p) ++ "-g" ++ short p else "")
  | _ => short p
  end ++ (if pdirty p then "-dirty" else "").

(** _version.py:425-442 [render_git_describe_long] *)
Definition render_git_describe_long (p : pieces) : string :=
  match closest_tag p with
  | Some (String a t) => String a t ++ "-" ++ percent_d (distance p) ++ "-g" ++ short p
  | _ => short p
  end ++ (if pdirty p then "-dirty" else "").

(** _version.py:445-474 [render]; [None] is a style that is not given. *)
Definition render_in (style : option string) (p : pieces) : answer versions :=
  match perror p with
  | Some e => Gives (Versions "unknown" (Some (long p)) None (Some e) None)
  | None =>
      let s := match style with
               | None => "pep440"
               | Some s => if String.eqb s "" || String.eqb s "default" then "pep440" else s
               end in
      let gives r := Gives (Versions r (Some (long p)) (Some (pdirty p)) None (Some (pdate p))) in
      if String.eqb s "pep440" then gives (render_pep440 p)
      else if String.eqb s "pep440-pre" then gives (render_pep440_pre p)
      else if String.eqb s "pep440-post" then gives (render_pep440_post p)
      else if String.eqb s "pep440-old" then gives (render_pep440_old p)
      else if String.eqb s "git-describe" then gives (render_git_describe p)
      else if String.eqb s "git-describe-long" then gives (render_git_describe_long p)
      else Fails ValueError
  end.

(** _version.py:477-520 [get_versions], with the style and the processes as parameters:
    the code sets the style to "pep440" (line 43). *)
Definition get_versions_in (style : option string) (k : keywords) (file : option string)
    (sh : string -> shell) : answer versions :=
  match git_versions_from_keywords k tag_prefix with
  | Gives v => Gives v
  | Fails e => Fails e
  | NotThis =>
      match file with
      | None => Gives (Versions "0+unknown" None None (Some "unable to find root of source tree") None)
      | Some f =>
          let root := dirname (dirname f) in
          match git_pieces_from_vcs tag_prefix (learn (sh root)) with
          | Gives p => render_in style p
          | Fails e => Fails e
          | NotThis =>
              match versions_from_parentdir 3 parentdir_prefix root with
              | Gives v => Gives v
              | Fails e => Fails e
              | NotThis => Gives (Versions "0+unknown" None None (Some "unable to compute version") None)
              end
          end
      end
  end.
