(** Lemmas about the version files of versioneer.py. *)
From Coq Require Import String Ascii ZArith NArith List Bool Lia.
From Verif.Model Require Import Base Version Versioneer.
From Verif.Spec Require Import Git.
From Verif.Proofs Require Import VersionLemmas.
Import ListNotations.
Open Scope string_scope.

Ltac bits a := destruct a as [[] [] [] [] [] [] [] []].

(** ** Strings of JSON *)

Lemma scan_escape : forall a t, scanstring (escape a ++ t) = and_then a (scanstring t).
Proof. intros a t. bits a; reflexivity. Qed.
Lemma scan_escaped : forall s rest, scanstring (escaped s ++ quote ++ rest) = Parsed (s, rest).
Proof.
  induction s as [|a s IH]; intros rest; [reflexivity|].
  cbn [escaped]. rewrite app_assoc, scan_escape, IH. reflexivity.
Qed.
Definition raw_char (a : ascii) : Prop := (32 <= code a)%nat /\ a <> "034"%char /\ a <> "092"%char.
Lemma scan_raw : forall s rest, every raw_char s -> scanstring (s ++ quote ++ rest) = Parsed (s, rest).
Proof.
  induction s as [|a s IH]; intros rest H; [reflexivity|]. destruct H as [[Ha [Hq Hb]] H].
  cbn [append scanstring]. unfold code in Ha.
  assert (E1 : (N_of_ascii a =? 34)%N = false)
    by (apply N.eqb_neq; intro K; apply Hq; rewrite <- (ascii_N_embedding a), K; reflexivity).
  assert (E2 : (N_of_ascii a =? 92)%N = false)
    by (apply N.eqb_neq; intro K; apply Hb; rewrite <- (ascii_N_embedding a), K; reflexivity).
  assert (E3 : (N_of_ascii a <? 32)%N = false)
    by (apply N.ltb_ge; unfold nat_of_ascii in Ha; lia).
  rewrite E1, E2, E3. rewrite IH by exact H. reflexivity.
Qed.

(** ** Dictionaries, with any way to write strings *)

Definition enc_value (enc : string -> string) (v : value) : string :=
  match v with
  | Null => "null"
  | Truth true => "true"
  | Truth false => "false"
  | Text s => quote ++ enc s ++ quote
  end.
Definition enc_item (enc : string -> string) (p : string * value) : string :=
  quote ++ enc (fst p) ++ quote ++ ": " ++ enc_value enc (snd p).
Fixpoint enc_items (enc : string -> string) (d : dict) : string :=
  match d with
  | [] => ""
  | [p] => enc_item enc p
  | p :: d' => enc_item enc p ++ "," ++ nl ++ " " ++ enc_items enc d'
  end.
Definition good (P : string -> Prop) (p : string * value) : Prop :=
  P (fst p) /\ match snd p with Text s => P s | _ => True end.

Lemma dumps_item_enc : forall p, dumps_item p = enc_item escaped p.
Proof.
  intros [k v]. unfold dumps_item, enc_item, dumps_text. cbn [fst snd]. rewrite !app_assoc.
  destruct v as [|[|]|s]; reflexivity.
Qed.
Lemma dumps_items_enc : forall d, dumps_items d = enc_items escaped d.
Proof.
  induction d as [|p d IH]; [reflexivity|]. cbn [dumps_items enc_items]. rewrite dumps_item_enc, IH. reflexivity.
Qed.

Section Enc.
  Variable enc : string -> string.
  Variable P : string -> Prop.
  Hypothesis scan : forall s rest, P s -> scanstring (enc s ++ quote ++ rest) = Parsed (s, rest).

  Lemma scan_value : forall v rest, match v with Text s => P s | _ => True end ->
    scan_once (skip (" " ++ enc_value enc v ++ rest)) = Parsed (v, rest).
  Proof.
    intros [|[|]|s] rest H; try reflexivity.
    cbn [enc_value]. change (skip (" " ++ (quote ++ enc s ++ quote) ++ rest)) with (String "034" ((enc s ++ quote) ++ rest)).
    rewrite app_assoc. unfold scan_once. change (N_of_ascii "034" =? 34)%N with true. cbv iota. rewrite scan by exact H. reflexivity.
  Qed.

  Lemma scan_members : forall d fuel s rest, d <> [] -> (length d <= fuel)%nat -> Forall (good P) d ->
    enc_items enc d ++ nl ++ "}" ++ rest = String "034" s -> members fuel s = Parsed (d, rest).
  Proof.
    induction d as [|[k v] d IH]; intros fuel s rest Hd Hf Hg E; [congruence|].
    destruct fuel as [|fuel]; [cbn in Hf; lia|]. inversion Hg as [|? ? [Hk Hv] Hg']; subst. cbn [fst snd] in *.
    destruct d as [|q d].
    - cbn [enc_items] in E. unfold enc_item in E. cbn [fst snd] in E. rewrite !app_assoc in E.
      unfold quote at 1 in E. cbn [append] in E. injection E as E. subst s.
      cbn [members]. change (String "034" (String ":" (String " " (enc_value enc v ++ String "010" (String "}" rest)))))
        with (quote ++ ":" ++ " " ++ enc_value enc v ++ nl ++ "}" ++ rest).
      rewrite scan by exact Hk.
      change (first_is ":" (skip (":" ++ " " ++ enc_value enc v ++ nl ++ "}" ++ rest)))
        with (Some (" " ++ enc_value enc v ++ nl ++ "}" ++ rest)). cbv iota.
      rewrite scan_value by exact Hv. reflexivity.
    - assert (E' : exists t, enc_items enc (q :: d) ++ nl ++ "}" ++ rest = String "034" t)
        by (destruct d; cbn [enc_items]; unfold enc_item, quote; cbn [append]; eexists; reflexivity).
      destruct E' as [t Et].
      cbn [enc_items] in E. fold (enc_items enc (q :: d)) in E.
      change (match d with [] => enc_item enc q | _ :: _ => enc_item enc q ++ "," ++ nl ++ " " ++ enc_items enc d end)
        with (enc_items enc (q :: d)) in E.
      unfold enc_item at 1 in E. cbn [fst snd] in E. rewrite !app_assoc in E.
      rewrite Et in E.
      unfold quote at 1 in E. cbn [append] in E. injection E as E. subst s.
      cbn [members].
      change (String "034" (String ":" (String " " (enc_value enc v ++ String "," (String "010" (String " " (String "034" t)))))))
        with (quote ++ ":" ++ " " ++ enc_value enc v ++ "," ++ nl ++ " " ++ String "034" t).
      rewrite scan by exact Hk.
      change (first_is ":" (skip (":" ++ " " ++ enc_value enc v ++ "," ++ nl ++ " " ++ String "034" t)))
        with (Some (" " ++ enc_value enc v ++ "," ++ nl ++ " " ++ String "034" t)). cbv iota.
      rewrite scan_value by exact Hv.
      change (first_is "}" (skip ("," ++ nl ++ " " ++ String "034" t))) with (@None string).
      change (first_is "," (skip ("," ++ nl ++ " " ++ String "034" t))) with (Some (nl ++ " " ++ String "034" t)). cbv iota.
      change (first_is "034" (skip (nl ++ " " ++ String "034" t))) with (Some t). cbv iota.
      rewrite (IH fuel t rest); [reflexivity|discriminate|cbn in Hf |- *; lia|exact Hg'|exact Et].
  Qed.

  Lemma length_app : forall a b, String.length (a ++ b) = (String.length a + String.length b)%nat.
  Proof. induction a as [|x a IH]; intros b; [reflexivity|]. cbn. rewrite IH. reflexivity. Qed.
  Lemma items_length : forall d, (3 * length d <= String.length (enc_items enc d))%nat.
  Proof.
    induction d as [|p d IH]; [cbn; lia|].
    assert (L : (4 <= String.length (enc_item enc p))%nat)
      by (unfold enc_item; rewrite !length_app; cbn; lia).
    destruct d as [|q d]; cbn [enc_items]; [cbn [length]; lia|]. cbn [enc_items] in IH.
    rewrite !length_app. cbn [length String.length] in *. lia.
  Qed.

  (** A dictionary that is not empty, as json.dumps writes it with these arguments. *)
  Definition enc_dict (d : dict) : string := "{" ++ nl ++ " " ++ enc_items enc d ++ nl ++ "}".
  Lemma loads_enc : forall d, d <> [] -> Forall (good P) d -> loads (enc_dict d ++ nl) = Parsed d.
  Proof.
    intros d Hd Hg. unfold enc_dict. rewrite !app_assoc.
    assert (E : exists t, enc_items enc d ++ nl ++ "}" ++ nl = String "034" t)
      by (destruct d as [|p [|q d]]; [congruence| |]; cbn [enc_items]; unfold enc_item, quote; cbn [append]; eexists; reflexivity).
    destruct E as [t Et]. rewrite Et.
    unfold loads. change (first_is "{" (skip ("{" ++ nl ++ " " ++ String "034" t))) with (Some (nl ++ " " ++ String "034" t)).
    cbv iota. change (first_is "}" (skip (nl ++ " " ++ String "034" t))) with (@None string).
    change (first_is "034" (skip (nl ++ " " ++ String "034" t))) with (Some t). cbv iota.
    rewrite (scan_members d (String.length t) t nl); [reflexivity|exact Hd| |exact Hg|exact Et].
    pose proof (items_length d) as L. apply (f_equal String.length) in Et. rewrite !length_app in Et. cbn in Et.
    destruct d; [congruence|]. cbn [length] in *. lia.
  Qed.
End Enc.

Lemma sort_not_empty : forall d, d <> [] -> sort_keys d <> [].
Proof.
  intros [|p d] H; [congruence|]. unfold sort_keys. cbn [fold_right]. destruct (fold_right insert_key [] d) as [|q l]; cbn [insert_key]; [discriminate|].
  destruct (string_ltb (fst p) (fst q)); discriminate.
Qed.
Lemma dumps_enc : forall d, d <> [] -> dumps d = enc_dict escaped (sort_keys d).
Proof. intros [|p d] H; [congruence|]. unfold dumps, enc_dict. rewrite dumps_items_enc. reflexivity. Qed.
Lemma loads_dumps : forall d, d <> [] -> loads (dumps d ++ nl) = Parsed (sort_keys d).
Proof.
  intros d H. rewrite dumps_enc by exact H. apply (loads_enc escaped (fun _ => True)).
  - intros s rest _. apply scan_escaped.
  - apply sort_not_empty. exact H.
  - apply Forall_forall. intros [k [| |s]] _; repeat split.
Qed.

(** ** Finding the contents *)

(** A prefix that fails within [s]. *)
Fixpoint differs (p s : string) : bool :=
  match p, s with
  | String a p', String b s' => if Ascii.eqb a b then differs p' s' else true
  | _, _ => false
  end.
Lemma differs_none : forall p s t, differs p s = true -> after_prefix p (s ++ t) = None.
Proof.
  induction p as [|a p IH]; intros [|b s] t H; cbn in *; try discriminate.
  destruct (Ascii.eqb a b); [apply IH; exact H|reflexivity].
Qed.
Fixpoint differs_all (p h : string) : bool :=
  match h with
  | EmptyString => true
  | String a h' => if differs p h then differs_all p h' else false
  end.
Lemma between_skip : forall f l h t, differs_all f h = true -> between f l (h ++ t) = between f l t.
Proof.
  intros f l. induction h as [|a h IH]; intros t H; [reflexivity|]. cbn [differs_all] in H.
  destruct (differs f (String a h)) eqn:D; [|discriminate].
  pose proof (differs_none _ _ t D) as N. cbn [append] in N |- *. cbn [between].
  rewrite N. apply IH. exact H.
Qed.
Lemma before_last_app : forall q a b t, before_last q b = Some t -> before_last q (a ++ b) = Some (a ++ t).
Proof. intros q. induction a as [|x a IH]; intros b t H; [exact H|]. cbn. rewrite (IH b t H). reflexivity. Qed.

Definition header0 : string := Eval vm_compute in match before_last "version_json" header with Some t => t | None => "" end.
Lemma header_eq : header = header0 ++ "version_json = '''".
Proof. reflexivity. Qed.

Lemma file_group : forall x,
  between ("version_json = '''" ++ nl) "'''  # END VERSION_JSON" (header ++ nl ++ x ++ nl ++ "'''" ++ footer) = Some (x ++ nl).
Proof.
  intros x. rewrite header_eq, app_assoc, between_skip by reflexivity.
  assert (A : after_prefix ("version_json = '''" ++ nl) ("version_json = '''" ++ nl ++ x ++ nl ++ "'''" ++ footer)
    = Some (x ++ nl ++ "'''" ++ footer)) by reflexivity.
  assert (B : before_last "'''  # END VERSION_JSON" (x ++ nl ++ "'''" ++ footer) = Some (x ++ nl)).
  { rewrite <- (app_empty nl) at 2. apply before_last_app. reflexivity. }
  set (s := "version_json = '''" ++ nl ++ x ++ nl ++ "'''" ++ footer) in *.
  destruct s; cbn [between]; rewrite A, B; reflexivity.
Qed.

Lemma file_read : forall d, d <> [] -> versions_from_file (Some (version_file d)) = Gives (sort_keys d).
Proof.
  intros d H. unfold versions_from_file, version_file. rewrite file_group, loads_dumps by exact H. reflexivity.
Qed.

(** ** The literal *)

Definition lit_char (a : ascii) : Prop := a <> "039"%char /\ a <> "092"%char.
Lemma put_put : forall a b r, put a (put b r) = put (a ++ b) r.
Proof. intros a b [[s t]| |]; cbn; rewrite ?app_assoc; reflexivity. Qed.
Lemma not_backslash : forall a, a <> "092"%char -> (N_of_ascii a =? 92)%N = false.
Proof. intros a H. apply N.eqb_neq. intro K. apply H. rewrite <- (ascii_N_embedding a), K. reflexivity. Qed.
Lemma literal_step : forall a s, after_prefix "'''" (String a s) = None -> a <> "092"%char ->
  literal (String a s) = put (String a "") (literal s).
Proof. intros a s H N. cbn [literal]. rewrite H, (not_backslash a N). reflexivity. Qed.
Lemma no_triple : forall a s, a <> "039"%char -> after_prefix "'''" (String a s) = None.
Proof. intros a s H. cbn [after_prefix]. destruct (Ascii.eqb_spec "'" a); [subst; congruence|reflexivity]. Qed.
Lemma literal_plain : forall s t, every lit_char s -> literal (s ++ t) = put s (literal t).
Proof.
  induction s as [|a s IH]; intros t H.
  - cbn [append]. destruct (literal t) as [[u r]| |]; reflexivity.
  - destruct H as [[Hq Hb] H]. cbn [append]. rewrite literal_step; [|apply no_triple; exact Hq|exact Hb].
    rewrite IH by exact H. rewrite put_put. reflexivity.
Qed.

(** An escaped character that JSON does not have to escape, in a literal. *)
Lemma literal_escape_raw : forall a t, raw_char a -> a <> "039"%char ->
  literal (escape a ++ t) = put (String a "") (literal t).
Proof.
  intros a t [H32 [Hq Hb]] Ha. unfold code in H32.
  bits a; try (exfalso; cbv in H32; lia); try congruence;
    first [ exact (literal_plain (String _ "") t (conj (conj Ha Hb) I)) | reflexivity ].
Qed.
Definition no_three (s : string) : Prop := forall a b, s <> a ++ "'''" ++ b.
Lemma escape_first : forall a, raw_char a -> a <> "039"%char -> exists b t, escape a = String b t /\ b <> "039"%char.
Proof.
  intros a [H32 [Hq Hb]] Ha. unfold code in H32. bits a; try (exfalso; cbv in H32; lia); try congruence;
  eexists; eexists; (split; [reflexivity|discriminate]).
Qed.
Lemma literal_text : forall s t, every raw_char s -> no_three s -> literal (escaped s ++ quote ++ t) = put (s ++ quote) (literal t).
Proof.
  induction s as [|a s IH]; intros t R N.
  - cbn [escaped append]. apply (literal_plain quote). repeat split; discriminate.
  - destruct R as [Ra R]. assert (N' : no_three s) by (intros x y E; apply (N (String a x) y); rewrite E; reflexivity).
    cbn [escaped]. rewrite app_assoc. destruct (ascii_dec a "039") as [->|Ha].
    + change (escape "039") with "'". cbn [append].
      rewrite literal_step; [|clear IH|discriminate].
      * rewrite IH by assumption. rewrite put_put. reflexivity.
      * cbn [after_prefix]. change (Ascii.eqb "'" "'") with true. cbv iota.
        destruct s as [|b s]; [reflexivity|]. destruct R as [Rb R]. cbn [escaped]. rewrite app_assoc.
        destruct (ascii_dec b "039") as [->|Hb].
        2: { destruct (escape_first b Rb Hb) as [c [u [-> Hc]]]. cbn [append].
             destruct (Ascii.eqb_spec "'" c); [subst; congruence|reflexivity]. }
        change (escape "039") with "'". cbn [append]. change (Ascii.eqb "'" "'") with true. cbv iota.
        destruct s as [|c s]; [reflexivity|]. destruct R as [Rc R]. cbn [escaped]. rewrite app_assoc.
        destruct (ascii_dec c "039") as [->|Hc].
        { exfalso. apply (N "" s). reflexivity. }
        destruct (escape_first c Rc Hc) as [c' [u [-> Hc']]]. cbn [append].
        destruct (Ascii.eqb_spec "'" c'); [subst; congruence|reflexivity].
    + rewrite literal_escape_raw by assumption. rewrite IH by assumption. rewrite put_put. reflexivity.
Qed.

Definition raw_text (s : string) : Prop := every raw_char s /\ no_three s.
Lemma lit_quote : every lit_char quote. Proof. repeat split; discriminate. Qed.
Lemma literal_value : forall v t, match v with Text s => raw_text s | _ => True end ->
  literal (enc_value escaped v ++ t) = put (enc_value (fun s => s) v) (literal t).
Proof.
  intros [|[|]|s] t H; try (apply literal_plain; repeat split; discriminate).
  destruct H as [R N]. cbn [enc_value]. rewrite !app_assoc, (literal_plain quote) by exact lit_quote.
  rewrite literal_text by assumption. rewrite put_put. reflexivity.
Qed.
Lemma literal_item : forall p t, good raw_text p ->
  literal (enc_item escaped p ++ t) = put (enc_item (fun s => s) p) (literal t).
Proof.
  intros [k v] t [[R N] Hv]. unfold enc_item. cbn [fst snd] in *. rewrite !app_assoc, (literal_plain quote) by exact lit_quote.
  rewrite literal_text by assumption. rewrite (literal_plain ": ") by (repeat split; discriminate).
  rewrite literal_value by exact Hv. rewrite !put_put, !app_assoc. reflexivity.
Qed.
Lemma literal_items : forall d t, Forall (good raw_text) d ->
  literal (enc_items escaped d ++ t) = put (enc_items (fun s => s) d) (literal t).
Proof.
  induction d as [|p d IH]; intros t H.
  - cbn [enc_items append]. destruct (literal t) as [[u r]| |]; reflexivity.
  - inversion H as [|? ? Hp H']; subst. destruct d as [|q d].
    + apply literal_item. exact Hp.
    + change (enc_items escaped (p :: q :: d)) with (enc_item escaped p ++ "," ++ nl ++ " " ++ enc_items escaped (q :: d)).
      rewrite !app_assoc, literal_item by exact Hp.
      change ("," ++ nl ++ " " ++ enc_items escaped (q :: d) ++ t) with (("," ++ nl ++ " ") ++ enc_items escaped (q :: d) ++ t).
      rewrite (literal_plain ("," ++ nl ++ " ")) by (repeat split; discriminate).
      rewrite IH by exact H'. rewrite !put_put, !app_assoc. reflexivity.
Qed.

Lemma insert_good : forall P p d, good P p -> Forall (good P) d -> Forall (good P) (insert_key p d).
Proof.
  intros P p. induction d as [|q d IH]; intros Hp H; cbn; [constructor; [exact Hp|constructor]|].
  inversion H; subst. destruct (string_ltb (fst p) (fst q)); constructor; try assumption.
  apply IH; assumption.
Qed.
Lemma sort_good : forall P d, Forall (good P) d -> Forall (good P) (sort_keys d).
Proof.
  intros P. induction d as [|p d IH]; intros H; cbn; [constructor|]. inversion H; subst. apply insert_good; [assumption|]. apply IH. assumption.
Qed.

Lemma skip_nl : forall t, loads (nl ++ t) = loads t.
Proof. reflexivity. Qed.

Lemma module_read : forall d, d <> [] -> Forall (good raw_text) d -> module_versions (version_file d) = Parsed (sort_keys d).
Proof.
  intros d H G. unfold module_versions, version_file. rewrite after_prefix_app.
  rewrite dumps_enc by exact H. unfold enc_dict.
  pose proof (sort_good _ _ G) as Gs. pose proof (sort_not_empty d H) as Hs. set (e := sort_keys d) in *.
  rewrite !app_assoc. change (nl ++ "{" ++ nl ++ " " ++ enc_items escaped e ++ nl ++ "}" ++ nl ++ "'''" ++ footer)
    with ((nl ++ "{" ++ nl ++ " ") ++ enc_items escaped e ++ (nl ++ "}" ++ nl) ++ "'''" ++ footer).
  rewrite (literal_plain (nl ++ "{" ++ nl ++ " ")) by (repeat split; discriminate).
  rewrite literal_items by exact Gs.
  rewrite (literal_plain (nl ++ "}" ++ nl)) by (repeat split; discriminate).
  rewrite !put_put. change (literal ("'''" ++ footer)) with (@Parsed (string * string) ("", footer)).
  cbn [put]. rewrite app_empty, String.eqb_refl.
  change (((nl ++ "{" ++ nl ++ " ") ++ enc_items (fun s => s) e) ++ nl ++ "}" ++ nl)
    with (nl ++ ("{" ++ nl ++ " " ++ enc_items (fun s => s) e) ++ nl ++ "}" ++ nl).
  rewrite skip_nl. rewrite !app_assoc.
  replace ("{" ++ nl ++ " " ++ enc_items (fun s => s) e ++ nl ++ "}" ++ nl) with (enc_dict (fun s => s) e ++ nl)
    by (unfold enc_dict; rewrite !app_assoc; reflexivity).
  apply (loads_enc (fun s => s) raw_text).
  - intros s rest [R _]. apply scan_raw. exact R.
  - exact Hs.
  - exact Gs.
Qed.
