(** The texts of the errors of calendars (C91). *)
From Coq Require Import Decimal DecimalString DecimalFacts DecimalPos.
From Coq Require Import String Ascii ZArith List Bool Lia Sorting.Sorted.
From Verif.Model Require Import Base Dates Queries Build Messages Tcal TestCsv ErrorTexts.
From Verif.Spec Require Import Schedule Construction Civil Venue Record.
From Verif.Proofs Require Import BaseLemmas DatesLemmas ScheduleLemmas QueryLemmas QueryLemmas2 QueryLemmas3 BuildLemmas
  TcalLemmas.
From Verif.Properties Require Import QueryProps BuildProps MessageProps RecordProps.
Import ListNotations.
Open Scope list_scope.
Open Scope Z_scope.

(** ** Specification *)

(** The number [n] in decimal digits, without superfluous zeros. *)
Definition number_written (t : list ascii) (n : Z) : Prop :=
  numeral t n /\ t <> [] /\ forall r, t = (chars "0" ++ r)%list -> r = [].

Definition line_break : ascii := ascii_of_nat 10.
Definition quotation_mark : ascii := ascii_of_nat 34.

(** ** Decimal numbers *)

Definition uint_text (d : uint) : text := str (NilEmpty.string_of_uint d).

Lemma digit_step : forall t n k c, numeral t n -> nth_error (chars "0123456789") k = Some c ->
  numeral (t ++ [c]) (Z.of_nat k + 10 * n).
Proof. intros t n k c H K. rewrite Z.add_comm. apply next_digit; assumption. Qed.

Lemma uint_acc : forall d t p, numeral t (Zpos p) -> numeral (t ++ uint_text d) (Zpos (Pos.of_uint_acc d p)).
Proof.
  induction d as [|d IH|d IH|d IH|d IH|d IH|d IH|d IH|d IH|d IH|d IH]; intros t p H;
    [cbn; rewrite app_nil_r; exact H|..];
  match goal with |- context [uint_text (?c d)] =>
    let x := eval compute in (uint_text (c Nil)) in
    change (uint_text (c d)) with (x ++ uint_text d) end;
  rewrite app_assoc; cbn [Pos.of_uint_acc]; apply IH.
  - exact (digit_step t (Zpos p) 0 _ H eq_refl).
  - exact (digit_step t (Zpos p) 1 _ H eq_refl).
  - exact (digit_step t (Zpos p) 2 _ H eq_refl).
  - exact (digit_step t (Zpos p) 3 _ H eq_refl).
  - exact (digit_step t (Zpos p) 4 _ H eq_refl).
  - exact (digit_step t (Zpos p) 5 _ H eq_refl).
  - exact (digit_step t (Zpos p) 6 _ H eq_refl).
  - exact (digit_step t (Zpos p) 7 _ H eq_refl).
  - exact (digit_step t (Zpos p) 8 _ H eq_refl).
  - exact (digit_step t (Zpos p) 9 _ H eq_refl).
Qed.

Lemma decimal_pos : forall p, decimal (Zpos p) = uint_text (Pos.to_uint p).
Proof.
  intros p. unfold decimal, uint_text. cbn [Z.to_int NilZero.string_of_int]. f_equal.
  pose proof (Unsigned.to_uint_nonnil p). destruct (Pos.to_uint p); [contradiction|reflexivity..].
Qed.

Lemma head_nonzero : forall p d, Pos.to_uint p <> D0 d.
Proof.
  intros p d H. pose proof (Unsigned.to_of (Pos.to_uint p)) as Q. rewrite Unsigned.of_to in Q.
  cbn [N.to_uint] in Q. unfold unorm in Q. pose proof (nzhead_nonzero (Pos.to_uint p)) as N.
  pose proof (Unsigned.to_uint_nonzero p) as Z.
  destruct (nzhead (Pos.to_uint p)) eqn:E; congruence.
Qed.

Lemma numeral_1 : forall k c, nth_error (chars "0123456789") k = Some c -> numeral [c] (Z.of_nat k).
Proof. intros k c H. exact (next_digit [] 0 k c no_digit H). Qed.

Lemma decimal_written : forall n, 0 <= n -> number_written (decimal n) n.
Proof.
  intros [|p|p] H; [| |lia].
  - split; [exact (numeral_1 0 _ eq_refl)|]. split; [discriminate|].
    intros r E. injection E as <-. reflexivity.
  - rewrite decimal_pos. pose proof (head_nonzero p) as Nz. pose proof (Unsigned.to_uint_nonnil p) as Nn.
    pose proof (Unsigned.of_to p) as Q.
    destruct (Pos.to_uint p) as [|d|d|d|d|d|d|d|d|d|d] eqn:E; [contradiction|exfalso; exact (Nz d eq_refl)|..];
    cbn [Pos.of_uint] in Q; injection Q as Q; rewrite <- Q;
    (split; [|split; [discriminate|intros r F; discriminate F]]);
    [exact (uint_acc d _ 1 (numeral_1 1 _ eq_refl))|exact (uint_acc d _ 2 (numeral_1 2 _ eq_refl))
    |exact (uint_acc d _ 3 (numeral_1 3 _ eq_refl))|exact (uint_acc d _ 4 (numeral_1 4 _ eq_refl))
    |exact (uint_acc d _ 5 (numeral_1 5 _ eq_refl))|exact (uint_acc d _ 6 (numeral_1 6 _ eq_refl))
    |exact (uint_acc d _ 7 (numeral_1 7 _ eq_refl))|exact (uint_acc d _ 8 (numeral_1 8 _ eq_refl))
    |exact (uint_acc d _ 9 (numeral_1 9 _ eq_refl))].
Qed.

(** ** The same outcomes as without texts *)

Theorem c91_same : forall c,
  (forall l, without_text (next_session_answer c l) = next_session_label c l) /\
  (forall l, without_text (previous_session_answer c l) = previous_session_label c l) /\
  (forall t n, without_text (minutes_window_answer c t n) = minutes_window c t n) /\
  (forall cc t d, d <> "next"%string -> without_text (lookup_answer c t d) = fst (minute_to_session_label c cc t d)) /\
  (forall ss index, well_formed ss -> has_schedule c ss ->
     without_text (minute_index_answer c index) = minute_index_to_session_labels c index) /\
  (forall name D start stop,
     without_text (precomputed_answer name D start stop) = build_precomputed D (Some start) (Some stop)).
Proof.
  intros c. split; [|split; [|split; [|split; [|split]]]].
  - intros l. unfold next_session_answer, next_session_label. destruct (get_loc _ _) as [i|e]; [|reflexivity].
    cbn [bind]. destruct (pyget _ _) as [x|[]]; try reflexivity. destruct (_ =? _); reflexivity.
  - intros l. unfold previous_session_answer, previous_session_label. destruct (get_loc _ _) as [i|e]; [|reflexivity].
    cbn [bind]. destruct (_ =? _); [reflexivity|]. destruct (pyget _ _); reflexivity.
  - intros t n. unfold minutes_window_answer, minutes_window. cbv zeta. destruct (pyget _ _) as [m|e]; [|reflexivity].
    cbn [bind]. destruct (_ || _); [reflexivity|]. destruct (_ <? _); reflexivity.
  - intros cc t d N. unfold lookup_answer, minute_to_session_label. cbv zeta.
    destruct (String.eqb_spec d "next"); [contradiction|]. destruct (pyget _ _) as [l|e]; [|reflexivity].
    destruct (String.eqb d "previous").
    + destruct (is_open_on_minute c t true) as [[]|]; [reflexivity| |reflexivity]. destruct (pyget _ _); reflexivity.
    + destruct (String.eqb d "none"); [|reflexivity]. destruct (is_open_on_minute c t false) as [[]|]; reflexivity.
  - intros ss index Hwf Hc. rewrite <- (c79_same_outcome ss c index Hwf Hc). unfold minute_index_answer.
    destruct (minute_index_outcome c index); reflexivity.
  - intros name D start stop. unfold precomputed_answer, build_precomputed.
    destruct (map _ _) as [|y ys]; [reflexivity|]. cbv zeta. destruct (build D start stop) as [b|]; [|reflexivity].
    cbn [bind]. destruct (_ <? _); [reflexivity|]. destruct (_ <? _); reflexivity.
Qed.

(** ** Sessions at the ends *)

Lemma get_loc_raise : forall l x e, get_loc l x = Raise e -> e = KeyError.
Proof.
  intros l x e. unfold get_loc. generalize 0. induction l as [|a l IH]; intros i H; cbn [get_loc_from] in H; [congruence|].
  destruct (_ =? _) in H; [discriminate H|exact (IH _ H)].
Qed.
Lemma pyget_raise : forall (l : list Z) i e, pyget l i = Raise e -> e = IndexError.
Proof.
  intros l i e. unfold pyget. destruct (_ <? 0); [congruence|]. destruct (nth_error _ _); congruence.
Qed.

(** [next_session_label] fails with its own text exactly at the last session,
    [previous_session_label] at the first one; otherwise only labels that are no session
    are refused. *)
Theorem c91_next : forall ss c l e m, well_formed ss -> has_schedule c ss ->
  next_session_answer c l = Fails e m ->
  (e = KeyError /\ ~ is_label_of ss l /\ m = None) \/
  (e = ValueError /\ greatest (is_label_of ss) l /\
   m = Some (chars "There is no next session as this is the end of the exchange calendar.")).
Proof.
  intros ss c l e m Hwf Hc H. pose proof (c07_next_session_label ss c l Hwf Hc) as Q.
  rewrite <- (proj1 (c91_same c) l), H in Q. cbn [without_text] in Q.
  unfold next_session_answer in H. destruct (get_loc (sessions c) l) as [i|e0] eqn:G.
  - destruct (pyget (sessions c) (i + 1)) as [x|e0] eqn:P; [discriminate H|]. apply pyget_raise in P. subst e0.
    destruct (i =? zlen (sessions c) - 1); injection H as <- <-; destruct Q as [[Q _]|[Q Q']]; try discriminate Q.
    right. split; [reflexivity|]. split; [exact Q'|reflexivity].
  - apply get_loc_raise in G. subst e0. injection H as <- <-. destruct Q as [[_ Q]|[Q _]]; [tauto|discriminate Q].
Qed.

Theorem c91_previous : forall ss c l e m, well_formed ss -> has_schedule c ss ->
  previous_session_answer c l = Fails e m ->
  (e = KeyError /\ ~ is_label_of ss l /\ m = None) \/
  (e = ValueError /\ least (is_label_of ss) l /\
   m = Some (chars "There is no previous session as this is the beginning of the exchange calendar.")).
Proof.
  intros ss c l e m Hwf Hc H. pose proof (c07_previous_session_label ss c l Hwf Hc) as Q.
  rewrite <- (proj1 (proj2 (c91_same c)) l), H in Q. cbn [without_text] in Q.
  unfold previous_session_answer in H. destruct (get_loc (sessions c) l) as [i|e0] eqn:G.
  - destruct (i =? 0).
    + injection H as <- <-. destruct Q as [[Q _]|[_ Q]]; [discriminate Q|].
      right. split; [reflexivity|]. split; [exact Q|reflexivity].
    + destruct (pyget (sessions c) (i - 1)) as [x|e0] eqn:P; [discriminate H|]. apply pyget_raise in P. subst e0.
      injection H as <- <-. destruct Q as [[Q _]|[Q _]]; discriminate Q.
  - apply get_loc_raise in G. subst e0. injection H as <- <-. destruct Q as [[_ Q]|[Q _]]; [tauto|discriminate Q].
Qed.

(** ** Windows *)

(** The characters of a timestamp. *)
Definition stamp (a : ascii) : bool := existsb (Ascii.eqb a) (chars "0123456789-: .+").
Lemma stamp_str : forall s, forallb stamp (chars s) = true -> Forall (fun a => stamp a = true) (str s).
Proof. intros s H. apply Forall_forall. rewrite forallb_forall in H. exact H. Qed.
Lemma stamp_digit : forall d, stamp (digit_char (d mod 10)) = true.
Proof.
  intros d. pose proof (Z.mod_pos_bound d 10 ltac:(lia)).
  assert (K : d mod 10 = 0 \/ d mod 10 = 1 \/ d mod 10 = 2 \/ d mod 10 = 3 \/ d mod 10 = 4 \/
    d mod 10 = 5 \/ d mod 10 = 6 \/ d mod 10 = 7 \/ d mod 10 = 8 \/ d mod 10 = 9) by lia.
  repeat (destruct K as [K|K]; [rewrite K; reflexivity|]). rewrite K. reflexivity.
Qed.
Lemma stamp_padded : forall w n, Forall (fun a => stamp a = true) (zero_padded w n).
Proof.
  induction w as [|w IH]; intros n; cbn [zero_padded]; [constructor|].
  apply Forall_app. split; [apply IH|]. constructor; [apply stamp_digit|constructor].
Qed.
Lemma stamp_timestamp : forall t, Forall (fun a => stamp a = true) (timestamp_text t).
Proof.
  intros t. unfold timestamp_text, date_text, fraction_text. cbv zeta. destruct (civil_from_days _) as [[y m] d].
  destruct (_ =? 0); [|destruct (_ =? 0)];
  repeat first [apply stamp_padded | apply stamp_str; reflexivity | apply Forall_nil | apply Forall_app; split].
Qed.
Lemma stamp_plain : forall a, stamp a = true ->
  escape double_quote a = String a EmptyString /\ Ascii.eqb a double_quote = false /\ a <> line_break.
Proof.
  intros a H. unfold stamp in H. apply existsb_exists in H. destruct H as [b [I E]]. apply Ascii.eqb_eq in E. subst b.
  cbn in I. repeat (destruct I as [<-|I]; [repeat split; discriminate|]). destruct I.
Qed.

Lemma chars_app : forall a b, chars (a ++ b)%string = chars a ++ chars b.
Proof. induction a as [|x a IH]; intros b; [reflexivity|]. cbn. f_equal. apply IH. Qed.
Lemma escape_stamp : forall t, Forall (fun a => escape double_quote a = String a EmptyString) t ->
  chars (escape_all double_quote (string_of_list_ascii t)) = t.
Proof.
  intros t H. induction H as [|a t A _ IH]; [reflexivity|]. cbn [string_of_list_ascii escape_all]. rewrite A, chars_app, IH.
  reflexivity.
Qed.
Lemma contains_In : forall c t, contains c (string_of_list_ascii t) = existsb (fun a => Ascii.eqb a c) t.
Proof. induction t as [|a t IH]; [reflexivity|]. cbn. rewrite IH. reflexivity. Qed.

(** A window that starts before the first minute fails with a KeyError that shows the
    start; [str] puts it between quotation marks. *)
Theorem c91_window : forall ss c t n, well_formed ss -> has_schedule c ss ->
  (forall x, trading_minute ss x -> t < x) -> - 2 ^ 63 < t < 2 ^ 63 ->
  exists w, instant_written w t /\
    minutes_window_answer c t n = Fails KeyError (Some (chars "Can't start minute window at " ++ w)) /\
    shown KeyError (chars "Can't start minute window at " ++ w) =
      quotation_mark :: chars "Can't start minute window at " ++ w ++ [quotation_mark].
Proof.
  intros ss c t n Hwf Hc Before Fit. exists (timestamp_text t). pose proof (day_fits t Fit) as Y.
  split; [apply timestamp_text_written; exact Y|]. split.
  - pose proof (c15_before_first ss c t n Hwf Hc Before) as Q.
    rewrite <- (proj1 (proj2 (proj2 (c91_same c))) t n) in Q. unfold minutes_window_answer in *. cbv zeta in *.
    destruct (pyget (minutes c) _) as [m|e] eqn:P.
    + destruct (_ || _); [reflexivity|]. destruct (_ <? _); discriminate Q.
    + apply pyget_raise in P. subst e. discriminate Q.
  - cbn [shown]. unfold py_repr. rewrite !contains_In, !existsb_app.
    replace (existsb (fun a => Ascii.eqb a double_quote) (timestamp_text t)) with false.
    2:{ symmetry. apply not_true_iff_false. rewrite existsb_exists. intros [a [I E]].
        pose proof (stamp_timestamp t) as S. rewrite Forall_forall in S.
        rewrite (proj1 (proj2 (stamp_plain a (S a I)))) in E. discriminate E. }
    change (existsb (fun a => Ascii.eqb a "'") (chars "Can't start minute window at ")) with true.
    change (existsb (fun a => Ascii.eqb a double_quote) (chars "Can't start minute window at ")) with false.
    cbn [orb andb negb]. cbv zeta.
    change (str (String double_quote ?x)) with (double_quote :: chars x).
    rewrite chars_app, escape_stamp.
    + change double_quote with quotation_mark. cbn [app]. rewrite <- app_assoc. reflexivity.
    + apply Forall_app. split.
      * cbn. repeat (constructor; [reflexivity|]). constructor.
      * eapply Forall_impl; [|apply stamp_timestamp]. intros a S. apply stamp_plain. exact S.
Qed.

(** ** Directions *)

(** An unknown direction is named in the error, and a minute that is no exchange minute
    is refused with the direction "none" (up to the end of the last session; after it the
    error comes from pandas). *)
Theorem c91_direction : forall ss c t d, well_formed ss -> has_schedule c ss ->
  (exists s, In s ss /\ t <= s_close s) ->
  (d <> "next"%string -> d <> "previous"%string -> d <> "none"%string ->
   lookup_answer c t d = Fails ValueError (Some (chars "Invalid direction parameter: " ++ chars d))) /\
  (is_open_on_minute c t false = Ok false ->
   lookup_answer c t "none" = Fails ValueError (Some (chars "The given dt is not an exchange minute!"))).
Proof.
  intros ss c t d Hwf Hc [s [Hs Hl]].
  assert (P : exists l, pyget (sessions c) (searchsorted_left (closes c) t) = Ok l).
  { pose proof (c18_lookup_none ss c t Hwf Hc) as Q. unfold minute_to_session_label in Q. cbn [String.eqb] in Q. cbv iota in Q.
    cbv zeta in Q. destruct (pyget (sessions c) (searchsorted_left (closes c) t)) as [l|e] eqn:P; [eauto|].
    apply pyget_raise in P. subst e. cbn in Q. destruct Q as [_ [[Q _]|[_ Q]]]; [discriminate Q|].
    specialize (Q s Hs). lia. }
  destruct P as [l P]. split.
  - intros N1 N2 N3. unfold lookup_answer. cbv zeta. rewrite P.
    destruct (String.eqb_spec d "previous"); [contradiction|]. destruct (String.eqb_spec d "none"); [contradiction|].
    reflexivity.
  - intros O. unfold lookup_answer. cbv zeta. rewrite P. cbn [String.eqb]. rewrite O. reflexivity.
Qed.

(** ** The report of minutes outside the market *)

(** The report written out. *)
Definition report_written (t : list ascii) (n bad po pc no nc : Z) : Prop :=
  exists tn tb tpo tpc tno tnc, number_written tn n /\ instant_written tb bad /\
    instant_written tpo po /\ instant_written tpc pc /\ instant_written tno no /\ instant_written tnc nc /\
    t = tn ++ chars " non-market minutes in minute_index_to_session_labels:" ++ [line_break] ++
        chars "First Bad Minute: " ++ tb ++ [line_break] ++
        chars "Previous Session: " ++ tpo ++ chars " -> " ++ tpc ++ [line_break] ++
        chars "Next Session: " ++ tno ++ chars " -> " ++ tnc.

Definition fits_report (r : report) : Prop :=
  0 <= num r /\ Forall (fun t => - 2 ^ 63 < t < 2 ^ 63)
    [first_bad r; prev_open r; prev_close r; next_open r; next_close r].

Lemma report_text_written : forall r, fits_report r ->
  report_written (report_text r) (num r) (first_bad r) (prev_open r) (prev_close r) (next_open r) (next_close r).
Proof.
  intros r [N F]. rewrite Forall_forall in F.
  assert (W : forall t, In t [first_bad r; prev_open r; prev_close r; next_open r; next_close r] ->
    instant_written (timestamp_text t) t).
  { intros t I. apply timestamp_text_written, day_fits, F. exact I. }
  exists (decimal (num r)), (timestamp_text (first_bad r)), (timestamp_text (prev_open r)), (timestamp_text (prev_close r)),
    (timestamp_text (next_open r)), (timestamp_text (next_close r)).
  split; [apply decimal_written; exact N|]. do 5 (split; [apply W; cbn [In]; tauto|]). reflexivity.
Qed.

Lemma row_of : forall c ss i o, has_schedule c ss -> pyget (opens c) i = Ok o ->
  exists s, In s ss /\ pyget (opens c) i = Ok (s_open s) /\ pyget (closes c) i = Ok (s_close s).
Proof.
  intros c ss i o Hc H. pose proof (has_schedule_cols c ss Hc) as Hcols.
  rewrite (col_opens _ _ Hcols), pyget_map in H. destruct (pyget ss i) as [s|] eqn:P; [|discriminate H].
  exists s. split; [exact (pyget_In _ _ _ P)|].
  rewrite (col_opens _ _ Hcols), (col_closes _ _ Hcols), !pyget_map, P. split; reflexivity.
Qed.

Lemma report_fits : forall ss c index r, has_schedule c ss ->
  Forall fits_file ss -> Forall (fun t => - 2 ^ 63 < t < 2 ^ 63) index ->
  minute_index_outcome c index = NonMarket r -> fits_report r.
Proof.
  intros ss c index r Hc Fs Fi H. unfold minute_index_outcome in H.
  destruct (is_monotonic_increasing index); [|discriminate H]. cbn [negb] in H.
  destruct (filter (mismatch c) index) as [|t others] eqn:Ef; [destruct (mapM _ _) in H; discriminate H|].
  cbv zeta in H. set (i := searchsorted_right (opens c) t - 1) in *.
  destruct (pyget (opens c) i) as [po|] eqn:P1; [|discriminate H]. cbn [bind] in H.
  destruct (row_of c ss i po Hc P1) as [s [Hs [A B]]]. rewrite B in H. cbn [bind] in H.
  destruct (pyget (opens c) (i + 1)) as [no|] eqn:P3; [|discriminate H]. cbn [bind] in H.
  destruct (row_of c ss (i + 1) no Hc P3) as [s' [Hs' [A' B']]]. rewrite B' in H. cbn [bind] in H.
  injection H as <-. rewrite P1 in A. rewrite P3 in A'. injection A as ->. injection A' as ->.
  rewrite Forall_forall in Fs, Fi. pose proof (Fs s Hs) as [_ [_ [F1 F2]]]. pose proof (Fs s' Hs') as [_ [_ [F3 F4]]].
  assert (It : In t index) by (apply (filter_In (mismatch c)); rewrite Ef; left; reflexivity).
  split; cbn [num first_bad prev_open prev_close next_open next_close]; [unfold zlen; lia|].
  repeat (constructor; [first [exact (Fi t It)|assumption]|]). constructor.
Qed.

(** minute_index_to_session_labels raises an error of its own for an index that is not
    sorted, and otherwise one that shows how many minutes are outside the market, the
    first of them, the next session and the previous one if there is one. *)
Theorem c91_report : forall ss c index m, well_formed ss -> has_schedule c ss -> Forall fits_file ss ->
  Forall (fun t => - 2 ^ 63 < t < 2 ^ 63) index ->
  minute_index_answer c index = Fails ValueError m ->
  (~ StronglySorted Z.le index /\
   m = Some (chars "Non-ordered index passed to minute_index_to_session_labels.")) \/
  exists t n bad po pc no nc, m = Some t /\ report_written t n bad po pc no nc /\
    let outside := filter (fun t => negb (in_session ss t)) index in
    n = zlen outside /\ Schedule.least (fun t => In t outside) bad /\
    exists before next after, ss = before ++ next :: after /\ no = s_open next /\ nc = s_close next /\
      bad < s_open next /\ (forall s, In s before -> s_close s < bad) /\
      (before <> [] -> exists earlier prev, before = earlier ++ [prev] /\ po = s_open prev /\ pc = s_close prev).
Proof.
  intros ss c index m Hwf Hc Fs Fi H. unfold minute_index_answer in H.
  destruct (minute_index_outcome c index) as [l| |r|e] eqn:O; [discriminate H| | |].
  - injection H as <-. left. split; [|reflexivity]. intros S. unfold minute_index_outcome in O.
    assert (M : is_monotonic_increasing index = true) by (apply monotonic_sorted; exact S).
    rewrite M in O. cbn [negb] in O. destruct (filter (mismatch c) index); [destruct (mapM _ _) in O; discriminate O|].
    cbv zeta in O. destruct (do po <- _; _) in O; discriminate O.
  - injection H as <-. right. pose proof (report_fits ss c index r Hc Fs Fi O) as F.
    exists (report_text r), (num r), (first_bad r), (prev_open r), (prev_close r), (next_open r), (next_close r).
    split; [reflexivity|]. split; [apply report_text_written; exact F|].
    exact (c79_report ss c index r Hwf Hc O).
  - injection H as -> <-. exfalso. unfold minute_index_outcome in O.
    destruct (is_monotonic_increasing index); [|discriminate O]. cbn [negb] in O.
    destruct (filter (mismatch c) index) as [|t others].
    + destruct (mapM _ _) as [|e] eqn:E in O; [discriminate O|]. injection O as ->.
      revert E. generalize (map (fun t => searchsorted_right (opens c) t - 1) index). intros l.
      induction l as [|i l IH]; intros E; cbn [mapM] in E; [discriminate E|].
      destruct (pyget (sessions c) i) eqn:P; cbn [bind] in E.
      * destruct (mapM _ l) eqn:E'; [discriminate E|]. cbn [bind] in E. injection E as ->. apply IH. reflexivity.
      * apply pyget_raise in P. congruence.
    + cbv zeta in O. set (i := searchsorted_right (opens c) t - 1) in *.
      destruct (pyget (opens c) i) eqn:P1; cbn [bind] in O; [|apply pyget_raise in P1; congruence].
      destruct (pyget (closes c) i) eqn:P2; cbn [bind] in O; [|apply pyget_raise in P2; congruence].
      destruct (pyget (opens c) (i + 1)) eqn:P3; cbn [bind] in O; [|apply pyget_raise in P3; congruence].
      destruct (pyget (closes c) (i + 1)) eqn:P4; cbn [bind] in O; [|apply pyget_raise in P4; congruence].
      discriminate O.
Qed.

Lemma first_split : forall (c : ascii) a a' r r', ~ In c a -> ~ In c a' -> a ++ c :: r = a' ++ c :: r' -> a = a' /\ r = r'.
Proof.
  intros c a. induction a as [|x a IH]; intros [|x' a'] r r' N N' E; cbn [app] in E.
  - injection E as ->. tauto.
  - exfalso. injection E as <- _. apply N'. left. reflexivity.
  - exfalso. injection E as -> _. apply N. left. reflexivity.
  - injection E as -> E. destruct (IH a' r r') as [-> ->]; [| |exact E|split; reflexivity].
    + intros I. apply N. right. exact I.
    + intros I. apply N'. right. exact I.
Qed.

Lemma numeral_digits : forall t n, numeral t n -> forall a, In a t -> In a (chars "0123456789").
Proof.
  intros t n H. induction H as [|t n d c H IH K]; intros a I; [destruct I|].
  apply in_app_iff in I. destruct I as [I|[<-|[]]]; [exact (IH a I)|]. exact (nth_error_In _ _ K).
Qed.
Lemma numeral_unique : forall t n m, numeral t n -> numeral t m -> n = m.
Proof.
  intros t n m H. revert m. induction H as [|t n d c H IH K]; intros m H'.
  - inversion H' as [|t' ? ? ? ? ? E]; [reflexivity|]. exfalso. destruct t'; discriminate E.
  - inversion H' as [E|t' n' d' c' H2 K2 E]; [exfalso; destruct t; discriminate E|].
    apply app_inj_tail in E. destruct E as [-> ->]. rewrite (IH n' H2).
    assert (d = d') as ->; [|reflexivity].
    assert (Nd : NoDup (chars "0123456789")).
    { replace (chars "0123456789") with (nodup ascii_dec (chars "0123456789")) by reflexivity. apply NoDup_nodup. }
    apply (proj1 (NoDup_nth_error _) Nd); [|congruence]. apply nth_error_Some. congruence.
Qed.

(** No plus sign before the offset. *)
Lemma instant_body : forall w u, instant_written w u -> exists body, w = body ++ chars "+00:00" /\ ~ In "+"%char body.
Proof.
  intros w u [n [h [mi [s [f [td [th [tm [ts [tf [E [D [H [M [Sc [F _]]]]]]]]]]]]]]]].
  exists (td ++ chars " " ++ th ++ chars ":" ++ tm ++ chars ":" ++ ts ++ tf). split; [rewrite E; rewrite <- !app_assoc; reflexivity|].
  assert (Nd : forall w t k, digits w t k -> ~ In "+"%char t).
  { intros w' t k [_ Hd] I. apply (numeral_digits t k Hd) in I. cbn in I. repeat (destruct I as [I|I]; [discriminate I|]). exact I. }
  destruct D as [y [m [d [ty [tm' [td' [-> [D1 [D2 [D3 _]]]]]]]]]]. rewrite !in_app_iff.
  assert (Nf : ~ In "+"%char tf).
  { destruct F as [[-> _]|[[t [us [-> [F _]]]]|[t [-> F]]]].
    - intros [].
    - rewrite in_app_iff. intros [[I|[]]|I]; [discriminate I|exact (Nd _ _ _ F I)].
    - rewrite in_app_iff. intros [[I|[]]|I]; [discriminate I|exact (Nd _ _ _ F I)]. }
  assert (Nc : forall s, In "+"%char (chars s) -> existsb (Ascii.eqb "+") (chars s) = true).
  { intros t I. apply existsb_exists. eexists. split; [exact I|reflexivity]. }
  intros I. repeat match type of I with
  | _ \/ _ => destruct I as [I|I]
  end; try (apply Nc in I; discriminate I); try (exact (Nf I));
    match goal with K : digits _ ?t _, J : In _ ?t |- _ => exact (Nd _ _ _ K J) end.
Qed.

Lemma instant_split : forall w u w' u' r r', instant_written w u -> instant_written w' u' ->
  w ++ r = w' ++ r' -> u = u' /\ r = r'.
Proof.
  intros w u w' u' r r' H H' E. destruct (instant_body w u H) as [b [Eb Nb]]. destruct (instant_body w' u' H') as [b' [Eb' Nb']].
  rewrite Eb, Eb', <- !app_assoc in E. change (chars "+00:00") with ("+"%char :: chars "00:00") in E. cbn [app] in E.
  apply first_split in E; [|exact Nb|exact Nb']. destruct E as [-> E]. injection E as E. split; [|exact E].
  subst w w'. pose proof (c89_reads _ u (or_intror (or_introl H))) as Q.
  rewrite (c89_reads _ u' (or_intror (or_introl H'))) in Q. congruence.
Qed.

(** Everything can be read off the report. *)
Theorem c91_report_tells : forall t n bad po pc no nc n' bad' po' pc' no' nc',
  report_written t n bad po pc no nc -> report_written t n' bad' po' pc' no' nc' ->
  n = n' /\ bad = bad' /\ po = po' /\ pc = pc' /\ no = no' /\ nc = nc'.
Proof.
  intros t n bad po pc no nc n' bad' po' pc' no' nc'
    [tn [t1 [t2 [t3 [t4 [t5 [[Hn _] [H1 [H2 [H3 [H4 [H5 E]]]]]]]]]]]]
    [tn' [t1' [t2' [t3' [t4' [t5' [[Hn' _] [H1' [H2' [H3' [H4' [H5' E']]]]]]]]]]]].
  rewrite E in E'. clear E.
  assert (Nb : forall t n, numeral t n -> ~ In " "%char t).
  { intros x k Hx I. apply (numeral_digits x k Hx) in I. cbn in I. repeat (destruct I as [I|I]; [discriminate I|]). exact I. }
  change (chars " non-market minutes in minute_index_to_session_labels:") with
    (" "%char :: chars "non-market minutes in minute_index_to_session_labels:") in E'. rewrite <- !app_comm_cons in E'.
  apply first_split in E'; [|exact (Nb _ _ Hn)|exact (Nb _ _ Hn')]. destruct E' as [-> E'].
  split; [exact (numeral_unique _ _ _ Hn Hn')|].
  assert (Tl : forall (A : Type) (x : A) l l', x :: l = x :: l' -> l = l') by (intros A x l l' Q; congruence).
  apply app_inv_head in E'. apply Tl in E'. rewrite !app_nil_l in E'. apply app_inv_head in E'.
  apply (instant_split _ _ _ _ _ _ H1 H1') in E'. destruct E' as [-> E'].
  apply Tl, app_inv_head in E'. apply (instant_split _ _ _ _ _ _ H2 H2') in E'. destruct E' as [-> E'].
  apply app_inv_head in E'. apply (instant_split _ _ _ _ _ _ H3 H3') in E'. destruct E' as [-> E'].
  apply Tl, app_inv_head in E'. apply (instant_split _ _ _ _ _ _ H4 H4') in E'. destruct E' as [-> E'].
  apply app_inv_head in E'. rewrite <- (app_nil_r t5), <- (app_nil_r t5') in E'.
  apply (instant_split _ _ _ _ _ _ H5 H5') in E'. tauto.
Qed.

(** ** Ranges beyond the recorded holidays *)

(** The first session before the recorded years is refused, naming the calendar, the
    first recorded year and the year of the session; then the last session likewise. *)
Theorem c91_precomputed : forall name D start stop b lo hi first last,
  least (data_year D) lo -> greatest (data_year D) hi -> build D start stop = Ok b ->
  in_year (first_trading_session b / one_day) first -> in_year (last_trading_session b / one_day) last ->
  0 <= lo -> 0 <= first <= last ->
  (first < lo -> exists t1 t2, number_written t1 lo /\ number_written t2 first /\
     precomputed_answer name D start stop = Fails ValueError (Some
       (chars "The " ++ chars name ++ chars " holidays are only recorded back to " ++ t1 ++
        chars ", cannot instantiate the " ++ chars name ++ chars " calendar back to " ++ t2 ++ chars "."))) /\
  (lo <= first -> hi < last -> exists t1 t2, number_written t1 hi /\ number_written t2 last /\
     precomputed_answer name D start stop = Fails ValueError (Some
       (chars "The " ++ chars name ++ chars " holidays are only recorded to " ++ t1 ++
        chars ", cannot instantiate the " ++ chars name ++ chars " calendar for " ++ t2 ++ chars "."))) /\
  (lo <= first -> last <= hi -> precomputed_answer name D start stop = Gives b).
Proof.
  intros name D start stop b lo hi first last [Hl1 Hl2] [Hh1 Hh2] H Yf Yl P0 P1. unfold precomputed_answer.
  destruct (map (fun h => year_of (day_of h)) (adhoc_holidays D)) as [|y ys] eqn:Ey.
  { apply data_years_In in Hl1. rewrite Ey in Hl1. destruct Hl1. }
  assert (K : forall x, In x (y :: ys) <-> data_year D x) by (intros; rewrite <- Ey; apply data_years_In).
  assert (E1 : fold_left Z.min ys y = lo).
  { destruct (fold_min_least ys y) as [A B]. apply K in A. apply Hl2 in A. apply K, B in Hl1. lia. }
  assert (E2 : fold_left Z.max ys y = hi).
  { destruct (fold_max_greatest ys y) as [A B]. apply K in A. apply Hh2 in A. apply K, B in Hh1. lia. }
  assert (L : lo <= hi) by (apply Hl2; exact Hh1).
  rewrite E1, E2, H. cbv zeta.
  apply year_of_ok in Yf. apply year_of_ok in Yl. unfold day_of. rewrite NPD_one_day, Yf, Yl.
  split; [|split].
  - intros F. exists (decimal lo), (decimal first). split; [apply decimal_written; lia|].
    split; [apply decimal_written; lia|]. destruct (Z.ltb_spec first lo); [|lia]. reflexivity.
  - intros F G. exists (decimal hi), (decimal last). split; [apply decimal_written; lia|].
    split; [apply decimal_written; lia|]. destruct (Z.ltb_spec first lo); [lia|]. destruct (Z.ltb_spec hi last); [|lia].
    reflexivity.
  - intros F G. destruct (Z.ltb_spec first lo); [lia|]. destruct (Z.ltb_spec hi last); [lia|]. reflexivity.
Qed.

Example c91_precomputed_ex : exists b, build ex_precomputed (ex_date (-80)) (ex_date 16) = Ok b /\
  least (data_year ex_precomputed) 2020 /\ greatest (data_year ex_precomputed) 2021 /\
  in_year (first_trading_session b / one_day) 2019 /\ in_year (last_trading_session b / one_day) 2020 /\
  precomputed_answer "XSHG" ex_precomputed (ex_date (-80)) (ex_date 16) = Fails ValueError (Some (chars
    "The XSHG holidays are only recorded back to 2020, cannot instantiate the XSHG calendar back to 2019.")).
Proof.
  destruct c32_witness as [A [B _]]. eexists. split; [vm_compute; reflexivity|]. split; [exact A|]. split; [exact B|].
  split; [vm_compute; split; congruence|]. split; [vm_compute; split; congruence|]. vm_compute. reflexivity.
Qed.

(** Two sessions, each open from 14:30 to 21:00; a minute in between. *)
Definition ex_sessions : list session :=
  [Session (at_midnight_of 18000) (at_midnight_of 18000 + 52200 * 10 ^ 9) None (at_midnight_of 18000 + 75600 * 10 ^ 9);
   Session (at_midnight_of 18001) (at_midnight_of 18001 + 52200 * 10 ^ 9) None (at_midnight_of 18001 + 75600 * 10 ^ 9)].
Example c91_report_ex : exists c, has_schedule c ex_sessions /\ well_formed ex_sessions /\ Forall fits_file ex_sessions /\
  minute_index_answer c [at_midnight_of 18000 + 52260 * 10 ^ 9; at_midnight_of 18001] = Fails ValueError (Some
    (chars "1 non-market minutes in minute_index_to_session_labels:" ++ [line_break] ++
     chars "First Bad Minute: 2019-04-15 00:00:00+00:00" ++ [line_break] ++
     chars "Previous Session: 2019-04-14 14:30:00+00:00 -> 2019-04-14 21:00:00+00:00" ++ [line_break] ++
     chars "Next Session: 2019-04-15 14:30:00+00:00 -> 2019-04-15 21:00:00+00:00")) /\
  next_session_answer c (at_midnight_of 18001) = Fails ValueError (Some
    (chars "There is no next session as this is the end of the exchange calendar.")) /\
  minutes_window_answer c (at_midnight_of 18000) 3 = Fails KeyError (Some
    (chars "Can't start minute window at 2019-04-14 00:00:00+00:00")) /\
  lookup_answer c (at_midnight_of 18001) "nearest" = Fails ValueError (Some (chars "Invalid direction parameter: nearest")) /\
  lookup_answer c (at_midnight_of 18001) "none" = Fails ValueError (Some (chars "The given dt is not an exchange minute!")).
Proof.
  eexists. split; [vm_compute; reflexivity|]. split.
  { split; [|split].
    - repeat (constructor; [split; vm_compute; congruence|]). constructor.
    - repeat (constructor; [exists 390; vm_compute; reflexivity|]). constructor.
    - constructor; [constructor; constructor|]. constructor; [|constructor]. split; vm_compute; reflexivity. }
  split; [|repeat split; vm_compute; reflexivity].
  constructor; [|constructor; [|constructor]]; (split; [vm_compute; split; reflexivity|]);
    (split; [eexists; reflexivity|]); split; vm_compute; split; reflexivity.
Qed.

(** ** Assumptions *)
Print Assumptions c91_same.
Print Assumptions c91_next.
Print Assumptions c91_previous.
Print Assumptions c91_window.
Print Assumptions c91_direction.
Print Assumptions c91_report.
Print Assumptions c91_report_tells.
Print Assumptions c91_precomputed.
