(** Lemmas about the string functions of Model/Version.v. *)
From Coq Require Import String Ascii ZArith NArith List Bool Lia DecimalString DecimalN DecimalFacts.
From Verif.Model Require Import Base Version.
From Verif.Spec Require Import Git.
Import ListNotations.
Open Scope string_scope.

Lemma app_assoc : forall a b c, (a ++ b) ++ c = a ++ (b ++ c).
Proof. induction a as [|x a IH]; intros; cbn; [reflexivity|]. rewrite IH. reflexivity. Qed.
Lemma app_empty : forall a, a ++ "" = a.
Proof. induction a as [|x a IH]; cbn; [reflexivity|]. rewrite IH. reflexivity. Qed.
Lemma app_cons_not_empty : forall a c b, a ++ String c b <> "".
Proof. intros [|x a] c b; discriminate. Qed.
Lemma app_eq_empty : forall a b, a ++ b = "" -> a = "" /\ b = "".
Proof. intros [|x a] b H; [split; [reflexivity|exact H]|discriminate]. Qed.
Lemma app_inj_l : forall a b c, a ++ b = a ++ c -> b = c.
Proof. induction a as [|x a IH]; intros b c H; [exact H|]. injection H as H. apply IH. exact H. Qed.

Lemma every_app : forall P a b, every P (a ++ b) <-> every P a /\ every P b.
Proof. induction a as [|x a IH]; intros b; cbn; [tauto|]. rewrite IH. tauto. Qed.
Lemma every_impl : forall (P Q : ascii -> Prop) s, (forall a, P a -> Q a) -> every P s -> every Q s.
Proof. induction s as [|x s IH]; cbn; [tauto|]. intros H [A B]. split; [apply H; exact A|apply IH; assumption]. Qed.

Lemma has_char_app : forall c a b, has_char c (a ++ b) = has_char c a || has_char c b.
Proof. induction a as [|x a IH]; intros b; cbn; [reflexivity|]. destruct (Ascii.eqb x c); [reflexivity|apply IH]. Qed.
Lemma has_char_not : forall c s, has_char c s = false <-> every (other_than c) s.
Proof.
  induction s as [|x s IH]; cbn; [tauto|]. unfold other_than at 1. destruct (Ascii.eqb x c) eqn:E.
  - apply Ascii.eqb_eq in E. split; [discriminate|]. intros [H _]. congruence.
  - apply Ascii.eqb_neq in E. rewrite IH. tauto.
Qed.

Lemma all_chars_every : forall p (P : ascii -> Prop) s, (forall a, p a = true <-> P a) ->
  (all_chars p s = true <-> every P s).
Proof. intros p P s H. induction s as [|x s IH]; cbn; [tauto|]. rewrite andb_true_iff, H, IH. tauto. Qed.

Lemma code_N : forall a, N.to_nat (N_of_ascii a) = code a.
Proof. reflexivity. Qed.
Lemma is_digit_iff : forall a, is_digit a = true <-> digit a.
Proof.
  intros a. unfold is_digit, digit. rewrite <- code_N. rewrite andb_true_iff, !N.leb_le. lia.
Qed.
Lemma is_hex_iff : forall a, is_hex a = true <-> hex_digit a.
Proof.
  intros a. unfold is_hex, hex_digit. rewrite orb_true_iff, is_digit_iff, andb_true_iff, !N.leb_le.
  unfold digit. rewrite <- code_N. lia.
Qed.
Lemma visible_not_space : forall a, visible a -> is_space a = false.
Proof.
  intros a H. unfold visible in H. rewrite <- code_N in H. unfold is_space.
  rewrite !orb_false_iff, !andb_false_iff, !N.leb_gt, N.eqb_neq. lia.
Qed.
Lemma hex_visible : forall a, hex_digit a -> visible a.
Proof. unfold hex_digit, digit, visible. intros a H. lia. Qed.

(** ** Stripping *)

Lemma lstrip_visible : forall (p : ascii -> bool) a s, p a = false -> lstrip p (String a s) = String a s.
Proof. intros p a s H. cbn. rewrite H. reflexivity. Qed.
Lemma rstrip_last : forall (p : ascii -> bool) s a t, p a = false -> rstrip p (s ++ String a t) = s ++ String a (rstrip p t).
Proof.
  induction s as [|x s IH]; intros a t H; cbn.
  - destruct (rstrip p t); [rewrite H|]; reflexivity.
  - rewrite IH by exact H. destruct s; reflexivity.
Qed.
Lemma rstrip_all : forall (p : ascii -> bool) s, every (fun a => p a = true) s -> rstrip p s = "".
Proof. induction s as [|x s IH]; cbn; [reflexivity|]. intros [A B]. rewrite (IH B), A. reflexivity. Qed.
Lemma rstrip_keep : forall (p : ascii -> bool) s t, every (fun a => p a = false) s -> every (fun a => p a = true) t ->
  rstrip p (s ++ t) = s.
Proof.
  induction s as [|x s IH]; intros t A B; cbn; [apply rstrip_all; exact B|]. destruct A as [A1 A2].
  rewrite (IH t A2 B). destruct s; [rewrite A1|]; reflexivity.
Qed.
Lemma lstrip_keep : forall (p : ascii -> bool) s t, every (fun a => p a = true) s -> lstrip p (s ++ t) = lstrip p t.
Proof. induction s as [|x s IH]; intros t A; cbn; [reflexivity|]. destruct A as [A1 A2]. rewrite A1. apply IH. exact A2. Qed.
Lemma lstrip_none : forall (p : ascii -> bool) s, every (fun a => p a = false) s -> lstrip p s = s.
Proof. intros p [|x s] A; [reflexivity|]. cbn. rewrite (proj1 A). reflexivity. Qed.

Lemma strip_clean : forall s, every visible s -> strip s = s.
Proof.
  intros s H. assert (A : every (fun a => is_space a = false) s) by (eapply every_impl; [exact visible_not_space|exact H]).
  unfold strip, strip_of. rewrite lstrip_none by exact A.
  rewrite <- (app_empty s) at 1. apply rstrip_keep; [exact A|exact I].
Qed.
Lemma strip_newline : forall s, every visible s -> strip (s ++ newline) = s.
Proof.
  intros s H. assert (A : every (fun a => is_space a = false) s) by (eapply every_impl; [exact visible_not_space|exact H]).
  unfold strip, strip_of. destruct s as [|x s]; [reflexivity|].
  change (String x s ++ newline) with (String x (s ++ newline)).
  rewrite lstrip_visible by apply A. change (String x (s ++ newline)) with (String x s ++ newline).
  apply rstrip_keep; [exact A|]. split; [reflexivity|exact I].
Qed.

(** ** Prefixes and suffixes *)

Lemma after_prefix_app : forall p s, after_prefix p (p ++ s) = Some s.
Proof. induction p as [|x p IH]; intros s; cbn; [reflexivity|]. rewrite Ascii.eqb_refl. apply IH. Qed.
Lemma after_prefix_some : forall p s t, after_prefix p s = Some t -> s = p ++ t.
Proof.
  induction p as [|x p IH]; intros s t H; cbn in H; [injection H as ->; reflexivity|].
  destruct s as [|y s]; [discriminate|]. destruct (Ascii.eqb x y) eqn:E; [|discriminate].
  apply Ascii.eqb_eq in E. subst y. cbn. f_equal. apply IH. exact H.
Qed.

Lemma before_suffix_app : forall q s, before_suffix q (s ++ q) = Some s.
Proof.
  induction s as [|x s IH].
  - cbn [append]. destruct q; cbn; rewrite ?Ascii.eqb_refl, ?String.eqb_refl; reflexivity.
  - cbn [append before_suffix]. destruct (String.eqb (String x (s ++ q)) q) eqn:E.
    + apply String.eqb_eq in E. exfalso. apply (f_equal String.length) in E. cbn in E.
      assert (L : forall a b, String.length (a ++ b) = (String.length a + String.length b)%nat)
        by (induction a; intros; cbn; [reflexivity|f_equal; auto]).
      rewrite L in E. lia.
    + rewrite IH. reflexivity.
Qed.
Lemma before_suffix_some : forall q s t, before_suffix q s = Some t -> s = t ++ q.
Proof.
  induction s as [|x s IH]; intros t H; cbn [before_suffix] in H.
  - destruct (String.eqb "" q) eqn:E; [|discriminate]. apply String.eqb_eq in E. injection H as <-. exact E.
  - destruct (String.eqb (String x s) q) eqn:E.
    + apply String.eqb_eq in E. injection H as <-. exact E.
    + destruct (before_suffix q s) as [u|]; [|discriminate]. injection H as <-. cbn. f_equal. apply IH. reflexivity.
Qed.

(** ** Splitting *)

Lemma rsplit1_none : forall c s, every (other_than c) s -> rsplit1 c s = None.
Proof.
  induction s as [|x s IH]; intros H; [reflexivity|]. cbn. destruct H as [A B]. rewrite (IH B).
  destruct (Ascii.eqb x c) eqn:E; [|reflexivity]. apply Ascii.eqb_eq in E. contradiction.
Qed.
Lemma rsplit1_app : forall c a b, every (other_than c) b -> rsplit1 c (a ++ String c b) = Some (a, b).
Proof.
  induction a as [|x a IH]; intros b H; cbn.
  - rewrite rsplit1_none by exact H. rewrite Ascii.eqb_refl. reflexivity.
  - rewrite IH by exact H. reflexivity.
Qed.
Lemma rsplit1_some : forall c s a b, rsplit1 c s = Some (a, b) -> s = a ++ String c b /\ every (other_than c) b.
Proof.
  assert (N : forall c s, rsplit1 c s = None -> every (other_than c) s).
  { induction s as [|x s IH]; intros H; [exact I|]. cbn in H. destruct (rsplit1 c s) as [[l r]|]; [discriminate|].
    destruct (Ascii.eqb x c) eqn:E; [discriminate|]. apply Ascii.eqb_neq in E. split; [exact E|apply IH; reflexivity]. }
  induction s as [|x s IH]; intros a b H; [discriminate|]. cbn in H.
  destruct (rsplit1 c s) as [[l r]|] eqn:E.
  - injection H as <- <-. destruct (IH l r eq_refl) as [A B]. split; [cbn; f_equal; exact A|exact B].
  - destruct (Ascii.eqb x c) eqn:Ex; [|discriminate]. apply Ascii.eqb_eq in Ex. injection H as <- <-. subst x.
    split; [reflexivity|apply N; exact E].
Qed.

(** ** Numbers *)

Lemma int_decimal : forall n, int_of (decimal n) = Ok n.
Proof.
  intros n. unfold int_of, decimal.
  assert (H : N.to_uint n <> Decimal.Nil).
  { intros E. destruct n as [|q]; [discriminate|]. cbn in E.
    exact (DecimalPos.Unsigned.to_uint_nonnil q E). }
  rewrite NilZero.usu by exact H. rewrite DecimalN.Unsigned.of_to. reflexivity.
Qed.

Lemma uint_digits : forall d, every digit (NilEmpty.string_of_uint d).
Proof. induction d; cbn [NilEmpty.string_of_uint every]; try exact I; split; try assumption; unfold digit, code; cbn; lia. Qed.
Lemma decimal_digits : forall n, every digit (decimal n).
Proof.
  intros n. unfold decimal, NilZero.string_of_uint.
  destruct (N.to_uint n) eqn:E; try (rewrite <- E; apply uint_digits).
  cbn. split; [unfold digit, code; cbn; lia|exact I].
Qed.
Lemma decimal_not_empty : forall n, decimal n <> "".
Proof. intros n. unfold decimal, NilZero.string_of_uint. destruct (N.to_uint n); discriminate. Qed.
Lemma decimal_inj : forall n m, decimal n = decimal m -> n = m.
Proof. intros n m H. pose proof (int_decimal n) as A. rewrite H, int_decimal in A. congruence. Qed.

(** ** The regular expression *)

(** The groups are those of some way to match, and there is only one. *)
Lemma match_describe_iff : forall s t n h, match_describe s = Some (t, n, h) <->
  s = t ++ "-" ++ n ++ "-g" ++ h /\ t <> "" /\ every (other_than "010") t /\
  n <> "" /\ every digit n /\ h <> "" /\ every hex_digit h.
Proof.
  assert (D : forall n, every digit n -> every (other_than "-") n).
  { intros n. apply every_impl. intros a H ->. unfold digit, code in H. cbn in H. lia. }
  assert (X : forall n, every hex_digit n -> every (other_than "-") n).
  { intros n. apply every_impl. intros a H ->. unfold hex_digit, digit, code in H. cbn in H. lia. }
  intros s t n h. unfold match_describe. split.
  - destruct (rsplit1 "-" s) as [[a r]|] eqn:E1; [|discriminate].
    destruct r as [|g r]; [discriminate|].
    apply rsplit1_some in E1. destruct E1 as [-> N1].
    intros H.
    assert (G : g = "g"%char /\ exists t0 n0, rsplit1 "-" a = Some (t0, n0) /\
      (if negb (String.eqb t0 "") && negb (has_char "010" t0) && (negb (String.eqb n0 "") && all_chars is_digit n0)
          && (negb (String.eqb r "") && all_chars is_hex r) then Some (t0, n0, r) else None) = Some (t, n, h)).
    { destruct g as [[] [] [] [] [] [] [] []]; try discriminate H. split; [reflexivity|].
      destruct (rsplit1 "-" a) as [[t0 n0]|]; [|discriminate]. exists t0, n0. split; [reflexivity|exact H]. }
    clear H. destruct G as [-> [t0 [n0 [E2 H]]]].
    destruct (_ && _) eqn:C in H; [|discriminate]. injection H as -> -> ->.
    apply rsplit1_some in E2. destruct E2 as [-> N2].
    rewrite !andb_true_iff, !negb_true_iff, !String.eqb_neq in C. destruct C as [[[C1 C2] [C3 C4]] [C5 C6]].
    split; [rewrite app_assoc; reflexivity|]. split; [exact C1|].
    split; [apply has_char_not; exact C2|]. split; [exact C3|].
    split; [apply (all_chars_every _ _ _ is_digit_iff); exact C4|]. split; [exact C5|].
    apply (all_chars_every _ _ _ is_hex_iff); exact C6.
  - intros [-> [T1 [T2 [N1 [N2 [H1 H2]]]]]].
    replace (t ++ "-" ++ n ++ "-g" ++ h) with ((t ++ String "-" n) ++ String "-" (String "g" h)).
    2:{ rewrite app_assoc. reflexivity. }
    rewrite rsplit1_app by (split; [discriminate|apply X; exact H2]).
    rewrite rsplit1_app by (apply D; exact N2).
    apply has_char_not in T2. rewrite T2.
    apply (all_chars_every _ _ _ is_digit_iff) in N2. rewrite N2.
    apply (all_chars_every _ _ _ is_hex_iff) in H2. rewrite H2.
    apply String.eqb_neq in T1, N1, H1. rewrite T1, N1, H1. reflexivity.
Qed.
