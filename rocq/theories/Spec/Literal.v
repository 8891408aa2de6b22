(** How Python writes a string as a literal (repr), for Latin-1 characters. *)
From Coq Require Import String Ascii NArith List.
Import ListNotations.
Open Scope char_scope.

(** Characters that are shown as they are: from space to tilde, and from the inverted
    exclamation mark on, without the soft hyphen. *)
Definition visible (a : ascii) : Prop :=
  let n := N_of_ascii a in ((32 <= n /\ n <= 126) \/ (161 <= n /\ n <> 173))%N.

Definition hex_digits : list ascii :=
  ["0"; "1"; "2"; "3"; "4"; "5"; "6"; "7"; "8"; "9"; "a"; "b"; "c"; "d"; "e"; "f"].

(** [written q text s]: between quotes [q], [s] is written as [text]. *)
Inductive written (q : ascii) : string -> string -> Prop :=
| w_end : written q EmptyString EmptyString
| w_visible : forall a text s, visible a -> a <> q -> a <> "\" -> written q text s ->
    written q (String a text) (String a s)
| w_quote : forall text s, written q text s -> written q (String "\" (String q text)) (String q s)
| w_backslash : forall text s, written q text s -> written q (String "\" (String "\" text)) (String "\" s)
| w_tab : forall text s, written q text s -> written q (String "\" (String "t" text)) (String "009" s)
| w_newline : forall text s, written q text s -> written q (String "\" (String "n" text)) (String "010" s)
| w_return : forall text s, written q text s -> written q (String "\" (String "r" text)) (String "013" s)
| w_hex : forall a i j x y text s, ~ visible a -> a <> "009" -> a <> "010" -> a <> "013" ->
    nth_error hex_digits i = Some x -> nth_error hex_digits j = Some y -> N_of_ascii a = N.of_nat (16 * i + j) ->
    written q text s -> written q (String "\" (String "x" (String x (String y text)))) (String a s).

Definition occurs (a : ascii) (s : string) : Prop := In a (list_ascii_of_string s).
