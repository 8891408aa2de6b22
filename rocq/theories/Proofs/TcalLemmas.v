(** Texts on a screen, and the grid of days printed by tcal. *)
From Coq Require Import ZArith String Ascii Bool Lia DecimalString List.
From Coq Require Import ZifyNat.
From Verif.Model Require Import Base Queries Dates Tcal.
From Verif.Spec Require Import Civil Screen Construction.
From Verif.Proofs Require Import BaseLemmas DatesLemmas.
Import ListNotations.
Open Scope nat_scope.
Open Scope list_scope.
Ltac Zify.zify_post_hook ::= Z.div_mod_to_equations.

Notation nl := line_feed.
Definition no_nl (t : text) : Prop := Forall (fun c => Ascii.eqb c nl = false) t.

(** ** Where a text ends *)

Fixpoint ends (t : text) : nat * nat :=
  match t with
  | [] => (0, 0)
  | x :: t => let (R, C) := ends t in
      if Ascii.eqb x nl then (S R, C) else match R with O => (0, S C) | _ => (R, C) end
  end.

Lemma written_app : forall t1 t2 r c, written (t1 ++ t2) r c =
  let (R, C) := ends t1 in
  if r <? R then written t1 r c
  else if r =? R then (if c <? C then written t1 r c else written t2 0 (c - C))
  else written t2 (r - R) c.
Proof.
  induction t1 as [|x t1 IH]; intros t2 r c.
  - cbn [ends app]. destruct r as [|r]; cbn; rewrite ?Nat.sub_0_r; reflexivity.
  - cbn [app written ends]. destruct (ends t1) as [R C] eqn:E. destruct (Ascii.eqb x nl).
    + destruct r as [|r].
      * reflexivity.
      * rewrite IH. change (S r <? S R) with (r <? R). change (S r =? S R) with (r =? R). reflexivity.
    + destruct R as [|R].
      * destruct r as [|r].
        -- destruct c as [|c]; [reflexivity|]. rewrite IH. cbn -[Nat.ltb].
           change (S c <? S C) with (c <? C). reflexivity.
        -- rewrite IH. cbn. reflexivity.
      * destruct r as [|r].
        -- cbn -[Nat.ltb]. destruct (0 <? S R) eqn:L; [|discriminate].
           destruct c as [|c]; [reflexivity|]. rewrite IH. rewrite L. reflexivity.
        -- rewrite IH. reflexivity.
Qed.

Lemma ends_app : forall t1 t2, ends (t1 ++ t2) =
  let (R1, C1) := ends t1 in let (R2, C2) := ends t2 in
  match R2 with O => (R1, C1 + C2) | _ => (R1 + R2, C2) end.
Proof.
  induction t1 as [|x t1 IH]; intros t2.
  - cbn [ends app]. destruct (ends t2) as [[|R2] C2]; reflexivity.
  - cbn [app ends]. rewrite IH. destruct (ends t1) as [R1 C1], (ends t2) as [R2 C2].
    destruct (Ascii.eqb x nl), R2 as [|R2], R1 as [|R1]; cbn; reflexivity.
Qed.

Lemma ends_no_nl : forall t, no_nl t -> ends t = (0, length t).
Proof.
  induction t as [|x t IH]; intros H; [reflexivity|]. inversion H as [|? ? Hx Ht]; subst.
  cbn [ends length]. rewrite (IH Ht), Hx. reflexivity.
Qed.

Lemma written_no_nl : forall t r c, no_nl t -> written t r c = if r =? 0 then nth_error t c else None.
Proof.
  induction t as [|x t IH]; intros r c H; [destruct r, c; reflexivity|].
  inversion H as [|? ? Hx Ht]; subst. cbn [written]. rewrite Hx.
  destruct r as [|r]; [destruct c as [|c]; [reflexivity|]; rewrite (IH 0 c Ht)|rewrite (IH (S r) c Ht)];
    reflexivity.
Qed.

Lemma no_nl_app : forall a b, no_nl (a ++ b) <-> no_nl a /\ no_nl b.
Proof. intros. apply Forall_app. Qed.

Lemma no_nl_blanks : forall n, no_nl (blanks n).
Proof. induction n; constructor; [reflexivity|assumption]. Qed.

(** A newline shows nothing. *)
Lemma written_nl_end : forall t r c, written (t ++ [nl]) r c = written t r c.
Proof.
  induction t as [|x t IH]; intros r c.
  - destruct r as [|r]; [reflexivity|]. cbn. reflexivity.
  - cbn [app written]. destruct (Ascii.eqb x nl).
    + destruct r; [reflexivity|apply IH].
    + destruct r, c; try reflexivity; apply IH.
Qed.

Lemma written_ends : forall t r c, written t r c <> None ->
  let (R, C) := ends t in r < R \/ r = R /\ c < C.
Proof.
  intros t r c H. pose proof (written_app t [] r c) as E. rewrite app_nil_r in E.
  destruct (ends t) as [R C]. destruct (Nat.ltb_spec r R); [lia|].
  destruct (Nat.eqb_spec r R); [|exfalso; apply H; rewrite E; reflexivity].
  destruct (Nat.ltb_spec c C); [lia|]. exfalso. apply H. rewrite E. reflexivity.
Qed.

(** A line without newlines appended to a text. *)
Lemma written_append : forall t x r c R C, ends t = (R, C) -> no_nl x ->
  written (t ++ x) r c = if (r =? R) && (C <=? c) then nth_error x (c - C) else written t r c.
Proof.
  intros t x r c R C E H. rewrite written_app, E.
  destruct (Nat.ltb_spec r R).
  - destruct (Nat.eqb_spec r R); [lia|]. reflexivity.
  - destruct (Nat.eqb_spec r R) as [->|N]; cbn [andb].
    + destruct (Nat.ltb_spec c C), (Nat.leb_spec C c); try lia; [reflexivity|].
      rewrite written_no_nl by exact H. reflexivity.
    + rewrite written_no_nl by exact H. destruct (Nat.eqb_spec (r - R) 0); [lia|].
      destruct (written t r c) eqn:W; [|reflexivity].
      exfalso. pose proof (written_ends t r c ltac:(congruence)) as Q. rewrite E in Q. lia.
Qed.

(** A whole line before a text. *)
Lemma written_line : forall l t r c, no_nl l ->
  written (l ++ nl :: t) r c = match r with O => nth_error l c | S r => written t r c end.
Proof.
  induction l as [|x l IH]; intros t r c H.
  - cbn [app written]. destruct r, c; reflexivity.
  - inversion H as [|? ? Hx Hl]; subst. cbn [app written]. rewrite Hx.
    destruct r as [|r]; [destruct c as [|c]; [reflexivity|]|]; rewrite (IH _ _ _ Hl); reflexivity.
Qed.

(** ** The grid *)

Definition base (w0 : nat) : nat := if w0 =? 0 then 1 else 0.

Fixpoint grid (w : nat) (cells : list text) : text :=
  match cells with
  | [] => []
  | x :: cells => (if w mod 7 =? 0 then [nl] else []) ++ x ++ grid (S w) cells
  end.

Definition is_cell (x : text) : Prop := length x = 4 /\ no_nl x.

Definition expected (w0 : nat) (cells : list text) (r c : nat) : option ascii :=
  let p := 7 * (r - base w0) + c / 4 in
  if (base w0 <=? r) && (c / 4 <? 7) && (w0 <=? p)
  then nth_error (nth (p - w0) cells []) (c mod 4)
  else if (r =? 0) && (c <? 4 * w0) then Some blank else None.

Lemma grid_snoc : forall cells w x, grid w (cells ++ [x]) =
  grid w cells ++ (if (w + length cells) mod 7 =? 0 then [nl] else []) ++ x.
Proof.
  induction cells as [|y cells IH]; intros w x; cbn [grid app length].
  - rewrite Nat.add_0_r, app_nil_r. reflexivity.
  - rewrite IH. replace (S w + length cells) with (w + S (length cells)) by lia.
    rewrite <- !app_assoc. reflexivity.
Qed.

Lemma grid_shape : forall w0 cells, w0 < 7 -> Forall is_cell cells ->
  let body := blanks (4 * w0) ++ grid w0 cells in
  ends body = (match length cells with
               | O => (0, 4 * w0)
               | S k => (base w0 + (w0 + k) / 7, 4 * ((w0 + k) mod 7 + 1))
               end) /\
  forall r c, written body r c = expected w0 cells r c.
Proof.
  intros w0 cells Hw. induction cells as [|x cells IH] using rev_ind; intros Hc body.
  - unfold body. cbn [grid length]. rewrite app_nil_r.
    assert (L : length (blanks (4 * w0)) = 4 * w0) by apply repeat_length. split.
    + rewrite ends_no_nl by apply no_nl_blanks. rewrite L. reflexivity.
    + intros r c. rewrite written_no_nl by apply no_nl_blanks. unfold expected.
      destruct (Nat.eqb_spec r 0) as [->|N]; cbn [andb].
      * destruct (Nat.ltb_spec c (4 * w0)).
        -- unfold base. destruct (Nat.eqb_spec w0 0); [lia|].
           replace (w0 <=? 7 * (0 - 0) + c / 4) with false by (symmetry; apply Nat.leb_gt; lia).
           rewrite andb_false_r. unfold blanks. apply nth_error_repeat. exact H.
        -- rewrite (proj2 (nth_error_None _ _)) by lia.
           destruct (_ && _); [|reflexivity]. rewrite nth_overflow by (simpl; lia).
           destruct (c mod 4); reflexivity.
      * destruct (_ && _); [|reflexivity]. rewrite nth_overflow by (simpl; lia).
        destruct (c mod 4); reflexivity.
  - apply Forall_app in Hc. destruct Hc as [Hc Hx]. inversion Hx as [|? ? [Lx Nx] _]; subst.
    specialize (IH Hc). cbv zeta in IH. destruct IH as [IE IW].
    unfold body. rewrite grid_snoc, app_length. cbn [length].
    replace (length cells + 1) with (S (length cells)) by lia.
    set (k := length cells) in *. set (p := w0 + k).
    set (b0 := blanks (4 * w0) ++ grid w0 cells) in *.
    set (sep := if p mod 7 =? 0 then [nl] else []).
    replace (blanks (4 * w0) ++ grid w0 cells ++ sep ++ x) with ((b0 ++ sep) ++ x)
      by (unfold b0; rewrite <- !app_assoc; reflexivity).
    assert (E1 : ends (b0 ++ sep) = (base w0 + p / 7, 4 * (p mod 7))).
    { unfold sep. destruct (Nat.eqb_spec (p mod 7) 0) as [Ep|Ep].
      - rewrite ends_app, IE. unfold p in *. clearbody k. destruct k as [|k]; cbn [ends].
        + change (Ascii.eqb nl nl) with true. cbv iota. unfold base.
          destruct (Nat.eqb_spec w0 0); f_equal; lia.
        + change (Ascii.eqb nl nl) with true. cbv iota. f_equal; lia.
      - rewrite app_nil_r, IE. unfold p in *. clearbody k. destruct k as [|k].
        + unfold base. destruct (Nat.eqb_spec w0 0); f_equal; lia.
        + f_equal; lia. }
    assert (W1 : forall r c, written (b0 ++ sep) r c = expected w0 cells r c).
    { intros r c. unfold sep. destruct (p mod 7 =? 0).
      - rewrite written_nl_end. apply IW.
      - rewrite app_nil_r. apply IW. }
    split.
    + rewrite ends_app, E1, (ends_no_nl x Nx), Lx. unfold p. f_equal. lia.
    + intros r c. rewrite (written_append _ _ _ _ _ _ E1 Nx), W1. unfold expected.
      set (q := 7 * (r - base w0) + c / 4).
      destruct (Nat.eqb_spec r (base w0 + p / 7)) as [Hr|Hr]; cbn [andb].
      * destruct (Nat.leb_spec (4 * (p mod 7)) c) as [Hcc|Hcc].
        -- destruct (Nat.ltb_spec c (4 * (p mod 7) + 4)) as [H4|H4].
           ++ assert (Eq : q = p) by (unfold q; lia).
              replace (base w0 <=? r) with true by (symmetry; apply Nat.leb_le; lia).
              replace (c / 4 <? 7) with true by (symmetry; apply Nat.ltb_lt; lia).
              replace (w0 <=? q) with true by (symmetry; apply Nat.leb_le; lia).
              cbn [andb]. replace (q - w0) with k by lia.
              rewrite app_nth2 by (fold k; lia). fold k. rewrite Nat.sub_diag. cbn [nth].
              f_equal. lia.
           ++ rewrite (proj2 (nth_error_None x _)) by lia.
              destruct (Nat.ltb_spec (c / 4) 7) as [H7|H7].
              ** replace (base w0 <=? r) with true by (symmetry; apply Nat.leb_le; lia).
                 assert (q > p) by (unfold q; lia).
                 replace (w0 <=? q) with true by (symmetry; apply Nat.leb_le; lia).
                 cbn [andb]. rewrite nth_overflow by (rewrite app_length; cbn [length]; fold k; lia).
                 destruct (c mod 4); reflexivity.
              ** rewrite andb_false_r. cbn [andb].
                 destruct (Nat.ltb_spec c (4 * w0)); [lia|]. rewrite andb_false_r. reflexivity.
        -- destruct (_ && _) eqn:Eb; [|reflexivity]. f_equal.
           rewrite !andb_true_iff in Eb. destruct Eb as [[B1 B2] B3].
           apply Nat.leb_le in B1, B3. apply Nat.ltb_lt in B2.
           assert (q < p) by (unfold q; lia). rewrite app_nth1 by (fold k; lia). reflexivity.
      * destruct (_ && _) eqn:Eb; [|reflexivity].
        rewrite !andb_true_iff in Eb. destruct Eb as [[B1 B2] B3].
        apply Nat.leb_le in B1, B3. apply Nat.ltb_lt in B2. f_equal.
        destruct (Nat.lt_trichotomy q p) as [Q|[Q|Q]].
        -- rewrite app_nth1 by (fold k; lia). reflexivity.
        -- exfalso. apply Hr. unfold q in Q. lia.
        -- rewrite !nth_overflow; [reflexivity|..]; rewrite ?app_length; cbn [length]; fold k; lia.
Qed.

(** ** Days as texts *)

Lemma str_no_nl : forall s, forallb (fun c => negb (Ascii.eqb c nl)) (str s) = true -> no_nl (str s).
Proof.
  intros s H. apply Forall_forall. rewrite forallb_forall in H. intros c Hc.
  specialize (H c Hc). destruct (Ascii.eqb c nl); [discriminate|reflexivity].
Qed.

Lemma uint_no_nl : forall d, no_nl (str (NilEmpty.string_of_uint d)).
Proof. induction d; cbn; constructor; try reflexivity; assumption. Qed.

Lemma decimal_no_nl : forall n, no_nl (decimal n).
Proof.
  intros n. unfold decimal. destruct (Z.to_int n) as [d|d]; cbn [NilZero.string_of_int].
  - destruct d; try (apply uint_no_nl). cbn. constructor; [reflexivity|constructor].
  - constructor; [reflexivity|]. fold str.
    destruct d; try (apply uint_no_nl). cbn. constructor; [reflexivity|constructor].
Qed.

Definition is_sunday (d : Z) : bool := (weekday d =? 6)%Z.

Lemma render_day_cell : forall c d y m k, (1 <= k <= 31)%Z -> valid_date y m k ->
  d = date_number y m k ->
  render_day c d = (if is_sunday d then [nl] else []) ++ day_cell (is_session c (d * one_day)%Z) k.
Proof.
  intros c d y m k Hk V ->. unfold render_day, is_sunday, midnight.
  change NANOS_PER_DAY with one_day.
  assert (E : mday_of (date_number y m k) = k) by (unfold mday_of; rewrite (civil_of_number _ _ _ V); reflexivity).
  rewrite E. clear E V.
  assert (Q : pad_left 2 (decimal k) = [if (k <? 10)%Z then blank else digit (k / 10); digit (k mod 10)]).
  { assert (Hn : exists n, In n (seq 1 31) /\ k = Z.of_nat n).
    { exists (Z.to_nat k). rewrite in_seq. lia. }
    destruct Hn as [n [Hn ->]]. clear Hk. revert n Hn. apply Forall_forall. repeat constructor. }
  rewrite Q. destruct (is_session c _); reflexivity.
Qed.

Lemma day_cell_is_cell : forall b k, (1 <= k <= 31)%Z -> is_cell (day_cell b k).
Proof.
  intros b k Hk. split; [reflexivity|].
  assert (Hn : exists n, In n (seq 1 31) /\ k = Z.of_nat n).
  { exists (Z.to_nat k). rewrite in_seq. lia. }
  destruct Hn as [n [Hn ->]]. clear Hk. revert n Hn. apply Forall_forall.
  destruct b; repeat constructor.
Qed.

Lemma day_range_nth : forall n d, day_range n d = map (fun i => (d + Z.of_nat i)%Z) (seq 0 n).
Proof.
  induction n as [|n IH]; intros d; [reflexivity|]. cbn [day_range seq map]. f_equal; [lia|].
  rewrite IH, <- seq_shift, map_map. apply map_ext. intros i. lia.
Qed.

Lemma month_lengths_bounds : forall y m, (1 <= m <= 12)%Z -> (28 <= month_length y m <= 31)%Z.
Proof.
  intros y m Hm. unfold month_length, month_lengths. destruct (leap y); months Hm; calc; lia.
Qed.

Lemma next_month : forall y m, (1 <= m <= 12)%Z ->
  (date_number y m 1 + month_length y m =
   if m =? 12 then date_number (y + 1) 1 1 else date_number y (m + 1) 1)%Z.
Proof.
  intros y m Hm. unfold date_number. rewrite year_start_next.
  unfold days_before_month, month_length, month_lengths.
  destruct (leap y); months Hm; cbn [Z.eqb Pos.eqb]; calc; lia.
Qed.

Lemma month_days_ok : forall y m, (1 <= m <= 12)%Z -> month_days y m =
  Ok (map (fun i => date_number y m (Z.of_nat i + 1)) (seq 0 (Z.to_nat (month_length y m)))).
Proof.
  intros y m Hm. unfold month_days.
  replace ((1 <=? m)%Z && (m <=? 12)%Z) with true by (symmetry; apply andb_true_iff; lia).
  f_equal. rewrite day_range_nth, (days_from_civil_ok y m 1) by lia.
  pose proof (next_month y m Hm) as N.
  assert (E : ((if m =? 12 then days_from_civil (y + 1) 1 1 else days_from_civil y (m + 1) 1) -
              date_number y m 1 = month_length y m)%Z).
  { destruct (Z.eqb_spec m 12); rewrite days_from_civil_ok by lia; lia. }
  rewrite E. apply map_ext. intros i. unfold date_number. lia.
Qed.

(** ** A month *)

(** Column of the weekday (Sunday is 0) of the first day of the month. *)
Definition first_col (y m : Z) : nat := Z.to_nat ((date_number y m 1 + 4) mod 7).

Definition month_cells (c : calendar) (y m : Z) : list text :=
  map (fun i => let d := date_number y m (Z.of_nat i + 1) in
                day_cell (is_session c (d * one_day)%Z) (Z.of_nat i + 1))
    (seq 0 (Z.to_nat (month_length y m))).

Lemma render_grid : forall c y m n a, (1 <= m <= 12)%Z -> (Z.of_nat (a + n) <= month_length y m)%Z ->
  concat (map (render_day c) (map (fun i => date_number y m (Z.of_nat i + 1)) (seq a n))) =
  grid (first_col y m + a)
    (map (fun i => let d := date_number y m (Z.of_nat i + 1) in
                day_cell (is_session c (d * one_day)%Z) (Z.of_nat i + 1)) (seq a n)).
Proof.
  intros c y m n. induction n as [|n IH]; intros a Hm Hl; [reflexivity|].
  cbn [seq map concat grid]. rewrite (IH (S a)) by lia.
  pose proof (month_lengths_bounds y m Hm).
  rewrite (render_day_cell c _ y m (Z.of_nat a + 1)); [|lia|split; lia|reflexivity].
  rewrite <- app_assoc. f_equal; [|f_equal; f_equal; lia].
  assert (E : is_sunday (date_number y m (Z.of_nat a + 1)) = ((first_col y m + a) mod 7 =? 0)).
  { apply Bool.eq_iff_eq_true. unfold is_sunday, weekday, first_col.
    rewrite Z.eqb_eq, Nat.eqb_eq.
    replace (date_number y m (Z.of_nat a + 1)) with (date_number y m 1 + Z.of_nat a)%Z
      by (unfold date_number; lia).
    generalize (date_number y m 1). intros N. lia. }
  rewrite E. reflexivity.
Qed.

Lemma lstrip_suffix : forall t, exists p, t = p ++ lstrip t /\ forallb is_white p = true.
Proof.
  induction t as [|x t [p [E H]]]; [exists []; split; reflexivity|]. cbn.
  destruct (is_white x) eqn:W; [|exists []; split; reflexivity].
  exists (x :: p). cbn. rewrite W. split; [congruence|exact H].
Qed.

Lemma rstrip_prefix : forall t, exists p, t = rstrip t ++ p /\ forallb is_white p = true.
Proof.
  intros t. destruct (lstrip_suffix (rev t)) as [p [E H]]. exists (rev p). split.
  - unfold rstrip. rewrite <- rev_app_distr, <- E, rev_involutive. reflexivity.
  - rewrite forallb_forall in *. intros x Hx. apply H. apply in_rev. exact Hx.
Qed.

Lemma rstrip_no_nl : forall t, no_nl t -> no_nl (rstrip t).
Proof.
  intros t H. destruct (rstrip_prefix t) as [p [E _]]. rewrite E in H. apply no_nl_app in H. tauto.
Qed.

(** Stripping a line changes nothing on the screen. *)
Lemma rstrip_nth : forall t i, no_nl t -> nth i (rstrip t) blank = nth i t blank.
Proof.
  intros t i H. destruct (rstrip_prefix t) as [p [E Hp]]. rewrite E at 2.
  destruct (Nat.ltb_spec i (length (rstrip t))) as [L|L].
  - rewrite app_nth1 by exact L. reflexivity.
  - rewrite nth_overflow by exact L. rewrite app_nth2 by exact L.
    destruct (nth_in_or_default (i - length (rstrip t)) p blank) as [Hin| ->]; [|reflexivity].
    set (x := nth _ p blank) in *. rewrite forallb_forall in Hp. specialize (Hp x Hin).
    rewrite E in H. apply no_nl_app in H. destruct H as [_ H]. unfold no_nl in H.
    rewrite Forall_forall in H. specialize (H x Hin).
    unfold is_white in Hp. change newline with nl in Hp. rewrite H, orb_false_r in Hp.
    apply Ascii.eqb_eq in Hp. symmetry. exact Hp.
Qed.

Lemma nth_error_shown : forall (t : text) i,
  match nth_error t i with Some c => c | None => blank end = nth i t blank.
Proof.
  induction t as [|x t IH]; intros [|i]; try reflexivity. cbn. apply IH.
Qed.

Definition title_of (y m : Z) (print_year : bool) : text :=
  let name := nth (Z.to_nat (m - 1)) months [] in
  if print_year then name ++ str " " ++ decimal y else name.

Definition header : text := str " Su  Mo  Tu  We  Th  Fr  Sa".

Lemma month_name : forall m, (1 <= m <= 12)%Z ->
  pyget months (m - 1) = Ok (nth (Z.to_nat (m - 1)) months []) /\
  no_nl (nth (Z.to_nat (m - 1)) months []) /\ length (nth (Z.to_nat (m - 1)) months []) <= 9.
Proof.
  intros m Hm. months Hm; (split; [reflexivity|]); (split; [vm_compute; repeat constructor|vm_compute; lia]).
Qed.

Lemma render_month_ok : forall c y m py, (1 <= m <= 12)%Z ->
  render_month c y m py =
  Ok (println (rstrip (center 28 (title_of y m py))) ++ println header ++
      (blanks (4 * first_col y m) ++ grid (first_col y m) (month_cells c y m)) ++ [nl]).
Proof.
  intros c y m py Hm. unfold render_month. rewrite month_days_ok by exact Hm. cbn [bind].
  destruct (month_name m Hm) as [-> _]. cbn [bind].
  pose proof (month_lengths_bounds y m Hm) as B.
  set (n := Z.to_nat (month_length y m)).
  assert (Hn : exists k, n = S k) by (exists (n - 1); unfold n; lia). destruct Hn as [k Hk].
  assert (P : pyget (map (fun i => date_number y m (Z.of_nat i + 1)) (seq 0 n)) 0 = Ok (date_number y m 1))
    by (rewrite Hk; reflexivity).
  rewrite P. cbn [bind]. f_equal. fold (title_of y m py). fold header. f_equal. f_equal.
  rewrite <- app_assoc. unfold n. rewrite (render_grid c y m _ 0 Hm) by lia.
  rewrite Nat.add_0_r. fold (month_cells c y m). f_equal. f_equal.
  unfold first_col, weekday. lia.
Qed.

Lemma title_no_nl : forall y m py, (1 <= m <= 12)%Z -> no_nl (title_of y m py).
Proof.
  intros y m py Hm. destruct (month_name m Hm) as [_ [N _]]. unfold title_of. destruct py; [|exact N].
  apply no_nl_app. split; [exact N|]. apply no_nl_app. split; [repeat constructor|apply decimal_no_nl].
Qed.

Lemma center_no_nl : forall w t, no_nl t -> no_nl (center w t).
Proof.
  intros w t H. unfold center. apply no_nl_app. split; [apply no_nl_blanks|].
  apply no_nl_app. split; [exact H|apply no_nl_blanks].
Qed.

Lemma month_cells_ok : forall c y m, (1 <= m <= 12)%Z -> Forall is_cell (month_cells c y m).
Proof.
  intros c y m Hm. pose proof (month_lengths_bounds y m Hm). apply Forall_forall. intros x Hx.
  apply in_map_iff in Hx. destruct Hx as [i [<- Hi]]. apply in_seq in Hi.
  apply day_cell_is_cell. lia.
Qed.

Lemma month_written : forall c y m py t, (1 <= m <= 12)%Z -> render_month c y m py = Ok t ->
  forall r col, written t r col =
    match r with
    | 0 => nth_error (rstrip (center 28 (title_of y m py))) col
    | 1 => nth_error header col
    | S (S r) => expected (first_col y m) (month_cells c y m) r col
    end.
Proof.
  intros c y m py t Hm H r col. rewrite render_month_ok in H by exact Hm.
  assert (E : forall (a b : text), Ok a = Ok b -> a = b) by congruence. apply E in H. subst t. clear E.
  unfold println. change newline with nl. rewrite <- !app_assoc. cbn [app].
  rewrite written_line by (apply rstrip_no_nl, center_no_nl, title_no_nl; exact Hm).
  destruct r as [|r]; [reflexivity|]. rewrite written_line by (repeat constructor).
  destruct r as [|r]; [reflexivity|].
  rewrite app_assoc, written_nl_end.
  assert (W : first_col y m < 7) by (unfold first_col; generalize (date_number y m 1); intros; lia).
  apply (grid_shape (first_col y m) (month_cells c y m) W (month_cells_ok c y m Hm)).
Qed.

(** ** Lines *)

Lemma splitlines_from_written : forall t line r c, no_nl line ->
  written (line ++ t) r c = nth_error (nth r (splitlines_from line t) []) c.
Proof.
  induction t as [|x t IH]; intros line r c H.
  - rewrite app_nil_r, written_no_nl by exact H. cbn [splitlines_from].
    destruct line as [|y line].
    + destruct r, c; reflexivity.
    + destruct r as [|r]; [reflexivity|]. cbn. destruct r; destruct c; reflexivity.
  - cbn [splitlines_from]. change newline with nl. destruct (Ascii.eqb x nl) eqn:E.
    + apply Ascii.eqb_eq in E. subst x. rewrite written_line by exact H.
      destruct r as [|r]; [reflexivity|]. apply (IH [] r c). constructor.
    + replace (line ++ x :: t) with ((line ++ [x]) ++ t) by (rewrite <- app_assoc; reflexivity).
      apply IH. apply no_nl_app. split; [exact H|]. constructor; [exact E|constructor].
Qed.

Lemma splitlines_written : forall t r c, written t r c = nth_error (nth r (splitlines t) []) c.
Proof. intros. apply (splitlines_from_written t [] r c). constructor. Qed.

Lemma splitlines_from_no_nl : forall t line, no_nl line -> Forall no_nl (splitlines_from line t).
Proof.
  induction t as [|x t IH]; intros line H; cbn [splitlines_from].
  - destruct line; constructor; [exact H|constructor].
  - change newline with nl. destruct (Ascii.eqb x nl) eqn:E.
    + constructor; [exact H|apply IH; constructor].
    + apply IH. apply no_nl_app. split; [exact H|]. constructor; [exact E|constructor].
Qed.

Lemma join_written : forall ls r c, Forall no_nl ls ->
  written (join [nl] ls) r c = nth_error (nth r ls []) c.
Proof.
  induction ls as [|l ls IH]; intros r c H; [destruct r, c; reflexivity|].
  inversion H as [|? ? Hl Hls]; subst. destruct ls as [|l2 ls].
  - cbn [join]. rewrite written_no_nl by exact Hl. destruct r as [|r]; [reflexivity|].
    cbn. destruct r, c; reflexivity.
  - change (join [nl] (l :: l2 :: ls)) with (l ++ nl :: join [nl] (l2 :: ls)).
    rewrite written_line by exact Hl. destruct r as [|r]; [reflexivity|]. rewrite (IH r c Hls). reflexivity.
Qed.

Lemma join_app : forall s l1 l2, l1 <> [] -> l2 <> [] -> join s (l1 ++ l2) = join s l1 ++ s ++ join s l2.
Proof.
  intros s l1 l2 H1 H2. induction l1 as [|x l1 IH]; [congruence|]. destruct l1 as [|y l1].
  - cbn [app join]. destruct l2; [congruence|]. reflexivity.
  - change ((x :: y :: l1) ++ l2) with (x :: (y :: l1) ++ l2).
    cbn [join]. destruct ((y :: l1) ++ l2) eqn:E; [discriminate|]. rewrite IH by discriminate.
    rewrite <- !app_assoc. reflexivity.
Qed.

(** Columns of [width] characters, three blanks apart. *)
Lemma join_columns : forall w cols j, Forall (fun l => length l = w) cols ->
  nth j (join (str "   ") cols) blank =
  if (j mod (w + 3) <? w) then nth (j mod (w + 3)) (nth (j / (w + 3)) cols []) blank else blank.
Proof.
  intros w cols. induction cols as [|l cols IH]; intros j H.
  - assert (K : forall n k, nth n (nth k (@nil text) []) blank = blank)
      by (intros [|n] [|k]; reflexivity).
    rewrite K. destruct (_ <? _), j; reflexivity.
  - inversion H as [|? ? Hl Hc]; subst w.
    destruct cols as [|l2 cols].
    + cbn [join]. destruct (Nat.ltb_spec j (length l + 3)) as [L|L].
      * rewrite Nat.mod_small, Nat.div_small by lia. cbn [nth].
        destruct (Nat.ltb_spec j (length l)); [reflexivity|]. apply nth_overflow. lia.
      * rewrite nth_overflow by lia.
        assert (1 <= j / (length l + 3)) by (apply Nat.div_le_lower_bound; lia).
        rewrite (nth_overflow [l]) by (cbn; lia). destruct (_ <? _); [|reflexivity].
        destruct (j mod _); reflexivity.
    + change (join (str "   ") (l :: l2 :: cols)) with (l ++ str "   " ++ join (str "   ") (l2 :: cols)).
      destruct (Nat.ltb_spec j (length l + 3)) as [L|L].
      * rewrite Nat.mod_small, Nat.div_small by lia. cbn [nth].
        destruct (Nat.ltb_spec j (length l)) as [L1|L1]; [rewrite app_nth1 by lia; reflexivity|].
        rewrite app_nth2 by lia. rewrite app_nth1 by (cbn; lia).
        remember (j - length l) as i. assert (Hi : i = 0 \/ i = 1 \/ i = 2) by lia.
        destruct Hi as [-> |[-> | ->]]; reflexivity.
      * rewrite app_nth2 by lia. rewrite app_nth2 by (cbn; lia). change (length (str "   ")) with 3.
        rewrite (IH (j - length l - 3) Hc).
        set (W := length l + 3) in *.
        assert (Ej : j = (j - length l - 3) + 1 * W) by lia.
        assert (E1 : j mod W = (j - length l - 3) mod W) by (rewrite Ej at 1; apply Nat.mod_add; lia).
        assert (E2 : j / W = S ((j - length l - 3) / W))
          by (rewrite Ej at 1; rewrite Nat.div_add by lia; lia).
        rewrite E1, E2. reflexivity.
Qed.

(** A page: texts side by side. *)
Definition fits (w : nat) (t : text) : Prop := forall r c, written t r c <> None -> c < w.
Definition height (t : text) : nat := length (splitlines t).
Definition block_height (ts : list text) : nat := list_max (map height ts).

Lemma fits_lines : forall w t, fits w t -> Forall (fun l => length l <= w) (splitlines t).
Proof.
  intros w t H. apply Forall_forall. intros l Hl. apply In_nth_error in Hl. destruct Hl as [r Hr].
  destruct (Nat.leb_spec (length l) w) as [L|L]; [exact L|exfalso].
  assert (w < w); [|lia]. apply (H r). rewrite splitlines_written.
  assert (E : nth r (splitlines t) [] = l) by (apply nth_error_nth; exact Hr).
  rewrite E. apply nth_error_Some. exact L.
Qed.

Definition block_rows (ts : list text) (w : nat) : list text :=
  map rstrip (map (fun i =>
    join (str "   ") (map (fun lines => pad_right w (nth i lines []))
      (map (fun lines => lines ++ repeat (blanks w) (block_height ts - length lines)) (map splitlines ts))))
    (seq 0 (block_height ts))).

Lemma block_rows_len : forall ts w, length (block_rows ts w) = block_height ts.
Proof. intros. unfold block_rows. rewrite !map_length, seq_length. reflexivity. Qed.

Lemma concat_lines_rows : forall ts w, concat_lines ts w = join [nl] (block_rows ts w).
Proof.
  intros ts w. unfold concat_lines, block_rows, block_height, height. rewrite !map_map. reflexivity.
Qed.

Lemma pad_line : forall ts w t i, Forall (fits w) ts -> In t ts -> i < block_height ts ->
  let l := pad_right w (nth i (splitlines t ++ repeat (blanks w) (block_height ts - length (splitlines t))) []) in
  length l = w /\ no_nl l /\ forall j, nth j l blank = shown t i j.
Proof.
  intros ts w t i Hf Ht Hi. rewrite Forall_forall in Hf. specialize (Hf t Ht).
  apply fits_lines in Hf. rewrite Forall_forall in Hf. cbv zeta.
  assert (Hn : Forall no_nl (splitlines t)) by (apply splitlines_from_no_nl; constructor).
  rewrite Forall_forall in Hn. unfold shown.
  set (L := nth i (splitlines t ++ repeat (blanks w) (block_height ts - length (splitlines t))) []).
  assert (K : length L <= w /\ no_nl L /\
    forall j, nth j L blank = match written t i j with Some c => c | None => blank end).
  { unfold L. destruct (Nat.ltb_spec i (length (splitlines t))) as [Hl|Hl].
    - rewrite app_nth1 by exact Hl. assert (Hin : In (nth i (splitlines t) []) (splitlines t))
        by (apply nth_In; exact Hl).
      split; [apply Hf; exact Hin|]. split; [apply Hn; exact Hin|]. intros j.
      rewrite splitlines_written. symmetry. apply nth_error_shown.
    - rewrite app_nth2 by exact Hl.
      assert (Hq : i - length (splitlines t) < block_height ts - length (splitlines t)) by lia.
      assert (E : nth (i - length (splitlines t))
        (repeat (blanks w) (block_height ts - length (splitlines t))) [] = blanks w).
      { apply nth_error_nth. apply nth_error_repeat. exact Hq. }
      rewrite E. split; [unfold blanks; rewrite repeat_length; lia|]. split; [apply no_nl_blanks|].
      intros j. rewrite splitlines_written, (nth_overflow (splitlines t)) by exact Hl.
      destruct (nth_in_or_default j (blanks w) blank) as [Hin| ->].
      + unfold blanks in Hin. apply repeat_spec in Hin. unfold blanks. rewrite Hin. destruct j; reflexivity.
      + destruct j; reflexivity. }
  destruct K as [K1 [K2 K3]]. unfold pad_right. split; [|split].
  - rewrite app_length. unfold blanks. rewrite repeat_length. lia.
  - apply no_nl_app. split; [exact K2|apply no_nl_blanks].
  - intros j. rewrite <- K3. destruct (Nat.ltb_spec j (length L)) as [Lj|Lj].
    + rewrite app_nth1 by exact Lj. reflexivity.
    + rewrite app_nth2 by exact Lj. rewrite (nth_overflow L) by exact Lj.
      destruct (nth_in_or_default (j - length L) (blanks (w - length L)) blank) as [Hin| ->]; [|reflexivity].
      apply repeat_spec in Hin. exact Hin.
Qed.

Lemma block_row : forall ts w i, Forall (fits w) ts -> i < block_height ts ->
  no_nl (nth i (block_rows ts w) []) /\
  forall j, nth j (nth i (block_rows ts w) []) blank =
    if j mod (w + 3) <? w then
      match nth_error ts (j / (w + 3)) with
      | Some t => shown t i (j mod (w + 3))
      | None => blank
      end
    else blank.
Proof.
  intros ts w i Hf Hi.
  pose (cols := map (fun t => pad_right w (nth i (splitlines t ++
    repeat (blanks w) (block_height ts - length (splitlines t))) [])) ts).
  assert (E : nth i (block_rows ts w) [] = rstrip (join (str "   ") cols)).
  { unfold block_rows. rewrite map_map.
    rewrite (nth_indep _ [] (rstrip (join (str "   ") []))) by (rewrite map_length, seq_length; exact Hi).
    match goal with |- nth i (map ?f _) _ = _ => pose (F := f) end.
    rewrite (nth_indep _ _ (F 0)) by (rewrite map_length, seq_length; exact Hi).
    change (nth i (map F (seq 0 (block_height ts))) (F 0) = rstrip (join (str "   ") cols)).
    rewrite map_nth, seq_nth by exact Hi. unfold F, cols. rewrite !map_map. reflexivity. }
  assert (HL : Forall (fun l => length l = w) cols).
  { apply Forall_forall. intros l Hl. apply in_map_iff in Hl. destruct Hl as [t [<- Ht]].
    apply (pad_line ts w t i Hf Ht Hi). }
  assert (HN : no_nl (join (str "   ") cols)).
  { assert (HC : Forall no_nl cols).
    { apply Forall_forall. intros l Hl. apply in_map_iff in Hl. destruct Hl as [t [<- Ht]].
      apply (pad_line ts w t i Hf Ht Hi). }
    clear - HC. induction HC as [|l cols Hl HC IH]; [constructor|].
    destruct cols as [|l2 cols]; [exact Hl|].
    change (join (str "   ") (l :: l2 :: cols)) with (l ++ str "   " ++ join (str "   ") (l2 :: cols)).
    apply no_nl_app. split; [exact Hl|]. apply no_nl_app. split; [repeat constructor|exact IH]. }
  rewrite E. split; [apply rstrip_no_nl; exact HN|]. intros j. rewrite rstrip_nth by exact HN.
  rewrite (join_columns w cols j HL). destruct (_ <? w); [|reflexivity].
  set (q := j / (w + 3)). set (k := j mod (w + 3)).
  destruct (nth_error ts q) as [t|] eqn:Et.
  - assert (Ht : In t ts) by (eapply nth_error_In; exact Et).
    transitivity (nth k (pad_right w (nth i (splitlines t ++
      repeat (blanks w) (block_height ts - length (splitlines t))) [])) blank).
    + f_equal. apply nth_error_nth. unfold cols. rewrite nth_error_map, Et. reflexivity.
    + apply (pad_line ts w t i Hf Ht Hi).
  - apply nth_error_None in Et. rewrite (nth_overflow cols) by (unfold cols; rewrite map_length; exact Et).
    destruct k; reflexivity.
Qed.

Lemma block_rows_no_nl : forall ts w, Forall (fits w) ts -> Forall no_nl (block_rows ts w).
Proof.
  intros ts w Hf. apply Forall_forall. intros l Hl. apply (In_nth _ _ []) in Hl.
  destruct Hl as [i [Hi <-]]. rewrite block_rows_len in Hi. apply (block_row ts w i Hf Hi).
Qed.

Lemma month_fits : forall c y m t, (1 <= m <= 12)%Z -> render_month c y m false = Ok t -> fits 28 t.
Proof.
  intros c y m t Hm H r col W. rewrite (month_written c y m false t Hm H) in W.
  destruct r as [|[|r]].
  - apply nth_error_Some in W. destruct (rstrip_prefix (center 28 (title_of y m false))) as [p [E _]].
    assert (L : length (center 28 (title_of y m false)) = 28).
    { unfold center, title_of. destruct (month_name m Hm) as [_ [_ B]].
      rewrite !app_length. unfold blanks. rewrite !repeat_length. lia. }
    rewrite E, app_length in L. lia.
  - apply nth_error_Some in W. cbn in W. lia.
  - unfold expected in W. destruct (Nat.ltb_spec (col / 4) 7) as [L|L]; [lia|].
    rewrite andb_false_r in W. cbn [andb] in W.
    assert (F : first_col y m < 7) by (unfold first_col; generalize (date_number y m 1); intros; lia).
    destruct (Nat.ltb_spec col (4 * first_col y m)); [lia|]. rewrite andb_false_r in W. congruence.
Qed.

(** ** Heights *)

Lemma splitlines_from_length : forall t line, no_nl line ->
  length (splitlines_from line t) =
  let (R, C) := ends (line ++ t) in if C =? 0 then R else S R.
Proof.
  induction t as [|x t IH]; intros line H.
  - rewrite app_nil_r, ends_no_nl by exact H. destruct line; reflexivity.
  - cbn [splitlines_from]. change newline with nl. destruct (Ascii.eqb x nl) eqn:E.
    + apply Ascii.eqb_eq in E. subst x. cbn [length]. rewrite IH by constructor.
      change ([] ++ t) with t. rewrite ends_app, (ends_no_nl line) by exact H. cbn [app ends]. rewrite Ascii.eqb_refl.
      destruct (ends t) as [R C]. destruct (C =? 0); reflexivity.
    + rewrite IH.
      * replace (line ++ x :: t) with ((line ++ [x]) ++ t) by (rewrite <- app_assoc; reflexivity). reflexivity.
      * apply no_nl_app. split; [exact H|]. constructor; [exact E|constructor].
Qed.

Lemma first_col_lt : forall y m, first_col y m < 7.
Proof. intros. unfold first_col. generalize (date_number y m 1). intros. lia. Qed.

Lemma first_col_Z : forall y m, Z.of_nat (first_col y m) = weekday_column (date_number y m 1).
Proof. intros. unfold first_col, weekday_column. generalize (date_number y m 1). intros. lia. Qed.

Lemma base_Z : forall y m,
  Z.of_nat (base (first_col y m)) = (if weekday_column (date_number y m 1) =? 0 then 1 else 0)%Z.
Proof.
  intros. rewrite <- first_col_Z. unfold base. destruct (first_col y m); reflexivity.
Qed.

Lemma month_height_ok : forall c y m py t, (1 <= m <= 12)%Z -> render_month c y m py = Ok t ->
  Z.of_nat (height t) = month_height y m.
Proof.
  intros c y m py t Hm H. rewrite render_month_ok in H by exact Hm.
  assert (E : forall (a b : text), Ok a = Ok b -> a = b) by congruence. apply E in H. subst t. clear E.
  unfold height, splitlines. rewrite splitlines_from_length by constructor. cbn [app].
  unfold println. change newline with nl.
  set (T := rstrip _). assert (NT : no_nl T) by (apply rstrip_no_nl, center_no_nl, title_no_nl; exact Hm).
  set (body := blanks _ ++ grid _ _).
  destruct (grid_shape (first_col y m) (month_cells c y m) (first_col_lt y m) (month_cells_ok c y m Hm)) as [G _].
  fold body in G.
  pose proof (month_lengths_bounds y m Hm) as B.
  assert (L : length (month_cells c y m) = S (Z.to_nat (month_length y m) - 1)).
  { unfold month_cells. rewrite map_length, seq_length. lia. }
  rewrite L in G. rewrite !ends_app, G, (ends_no_nl T NT), (ends_no_nl header) by (repeat constructor).
  unfold month_height, day_row.
  rewrite <- base_Z, <- first_col_Z. generalize (base (first_col y m)) as b. intros b.
  pose proof (first_col_lt y m). generalize dependent (first_col y m). intros f _ _ Hf.
  set (k := (f + (Z.to_nat (month_length y m) - 1)) / 7).
  assert (K : Z.of_nat k = ((Z.of_nat f + month_length y m - 1) / 7)%Z) by (unfold k; lia).
  rewrite <- K. generalize (month_length y m). generalize k. clear. intros k l. cbn -[Nat.modulo Nat.mul Z.add].
  destruct (b + k + 1) eqn:E; cbn -[Z.add]; lia.
Qed.

(** ** The page of a year *)

Lemma render_months_ok : forall c y ms, Forall (fun m => 1 <= m <= 12)%Z ms ->
  exists ts, render_months c y ms = Ok ts /\
    Forall2 (fun m t => render_month c y m false = Ok t) ms ts.
Proof.
  intros c y ms H. induction H as [|m ms Hm _ [ts [E F]]].
  - exists []. split; [reflexivity|constructor].
  - destruct (render_month c y m false) as [t|e] eqn:Em; [|rewrite render_month_ok in Em by exact Hm; discriminate Em].
    exists (t :: ts). cbn [render_months]. rewrite Em. cbn [bind]. rewrite E. split; [reflexivity|].
    constructor; [exact Em|exact F].
Qed.

Lemma band_rows : forall c y k ts, (0 <= k <= 3)%Z ->
  render_months c y [3 * k + 1; 3 * k + 2; 3 * k + 3]%Z = Ok ts ->
  Forall (fits 28) ts /\ Z.of_nat (length (block_rows ts 28)) = band_height y k /\
  forall j, j < 3 -> exists t, nth_error ts j = Some t /\
    render_month c y (3 * k + 1 + Z.of_nat j) false = Ok t.
Proof.
  intros c y k ts Hk H.
  destruct (render_months_ok c y [3 * k + 1; 3 * k + 2; 3 * k + 3]%Z) as [ts' [E F]].
  { repeat constructor; lia. }
  rewrite E in H. assert (X : forall (a b : list text), Ok a = Ok b -> a = b) by congruence.
  apply X in H. subst ts'. clear X E.
  remember (3 * k + 1)%Z as m1 eqn:Q1. remember (3 * k + 2)%Z as m2 eqn:Q2. remember (3 * k + 3)%Z as m3 eqn:Q3.
  inversion F as [|? t1 ? ? E1 F1]; subst ts. inversion F1 as [|? t2 ? ? E2 F2]; subst l'.
  inversion F2 as [|? t3 ? ? E3 F3]; subst l'0. inversion F3; subst l'.
  split; [|split].
  - constructor; [exact (month_fits c y m1 t1 ltac:(lia) E1)|].
    constructor; [exact (month_fits c y m2 t2 ltac:(lia) E2)|].
    constructor; [exact (month_fits c y m3 t3 ltac:(lia) E3)|constructor].
  - rewrite block_rows_len. unfold block_height. cbn [map list_max fold_right].
    unfold band_height. rewrite <- Q1, <- Q2, <- Q3.
    rewrite <- (month_height_ok c y m1 false t1 ltac:(lia) E1), <- (month_height_ok c y m2 false t2 ltac:(lia) E2),
      <- (month_height_ok c y m3 false t3 ltac:(lia) E3). lia.
  - intros j Hj. assert (j = 0 \/ j = 1 \/ j = 2) as [-> |[-> | ->]] by lia.
    + exists t1. split; [reflexivity|]. rewrite <- E1. f_equal. lia.
    + exists t2. split; [reflexivity|]. rewrite <- E2. f_equal. lia.
    + exists t3. split; [reflexivity|]. rewrite <- E3. f_equal. lia.
Qed.

Lemma join2 : forall a ls, Forall (fun l => l <> []) (a :: ls) ->
  join [nl; nl] (map (join [nl]) (a :: ls)) = join [nl] (fold_left (fun acc l => acc ++ ([] : text) :: l) ls a).
Proof.
  intros a ls. revert a. induction ls as [|b ls IH]; intros a H; [reflexivity|].
  inversion H as [|? ? Ha Hb]; subst. inversion Hb as [|? ? Hb1 Hb2]; subst.
  cbn [fold_left]. rewrite <- IH.
  - cbn [map]. change (join [nl; nl] (join [nl] a :: join [nl] b :: map (join [nl]) ls)) with
      (join [nl] a ++ [nl; nl] ++ join [nl; nl] (join [nl] b :: map (join [nl]) ls)).
    assert (J : join [nl] (a ++ ([] : text) :: b) = join [nl] a ++ [nl; nl] ++ join [nl] b).
    { rewrite (join_app [nl] a (([] : text) :: b)) by (congruence || discriminate).
      destruct b as [|b0 b]; [congruence|]. reflexivity. }
    rewrite J. destruct ls as [|d ls].
    + reflexivity.
    + cbn [map]. change (join [nl; nl] (join [nl] b :: join [nl] d :: map (join [nl]) ls)) with
       (join [nl] b ++ [nl; nl] ++ join [nl; nl] (join [nl] d :: map (join [nl]) ls)).
      change (join [nl; nl] ((join [nl] a ++ [nl; nl] ++ join [nl] b) :: join [nl] d :: map (join [nl]) ls)) with
       ((join [nl] a ++ [nl; nl] ++ join [nl] b) ++ [nl; nl] ++ join [nl; nl] (join [nl] d :: map (join [nl]) ls)).
      rewrite <- !app_assoc. reflexivity.
  - constructor; [|exact Hb2]. destruct a; discriminate.
Qed.

Lemma rstrip_center_nl : forall w t, rstrip (center w t ++ [nl]) = rstrip (center w t).
Proof. intros. unfold rstrip. rewrite rev_app_distr. reflexivity. Qed.

Definition page_lines (bs : list (list text)) : list text :=
  match bs with
  | [] => []
  | b :: bs => fold_left (fun acc l => acc ++ ([] : text) :: l) bs b
  end.

Lemma nth_app_l : forall (a b : list text) i, i < length a -> nth i (a ++ b) [] = nth i a [].
Proof. intros. apply app_nth1. assumption. Qed.
Lemma nth_app_r : forall (a b : list text) i, nth (length a + S i) (a ++ [] :: b) [] = nth i b [].
Proof. intros. rewrite app_nth2 by lia. replace (length a + S i - length a) with (S i) by lia. reflexivity. Qed.
Lemma nth_app_m : forall (a b : list text), nth (length a) (a ++ [] :: b) [] = [].
Proof. intros. rewrite app_nth2 by lia. rewrite Nat.sub_diag. reflexivity. Qed.

Lemma year_page : forall c y t, show c y None = Ok t ->
  exists b0 b1 b2 b3,
    (forall r col, written t r col =
      match r with
      | 0 => nth_error (rstrip (center 88 (decimal y))) col
      | S r => nth_error (nth r (page_lines [b0; b1; b2; b3]) []) col
      end) /\
    forall k b, nth_error [b0; b1; b2; b3] k = Some b ->
      Z.of_nat (length b) = band_height y (Z.of_nat k) /\
      forall r col, r < length b -> nth col (nth r b []) blank =
        if (col mod 31 <? 28) && (col / 31 <? 3) then
          match render_month c y (3 * Z.of_nat k + 1 + Z.of_nat (col / 31)) false with
          | Ok m => shown m r (col mod 31)
          | Raise _ => blank
          end
        else blank.
Proof.
  intros c y t H. unfold show in H.
  destruct (render_months c y [1; 2; 3]%Z) as [r0|] eqn:E0; [cbn [bind] in H|discriminate H].
  destruct (render_months c y [4; 5; 6]%Z) as [r1|] eqn:E1; [cbn [bind] in H|discriminate H].
  destruct (render_months c y [7; 8; 9]%Z) as [r2|] eqn:E2; [cbn [bind] in H|discriminate H].
  destruct (render_months c y [10; 11; 12]%Z) as [r3|] eqn:E3; [cbn [bind] in H|discriminate H].
  assert (X : forall (a b : text), Ok a = Ok b -> a = b) by congruence. apply X in H. clear X. subst t.
  change newline with nl. rewrite rstrip_center_nl. cbn [map]. rewrite !concat_lines_rows.
  pose proof (band_rows c y 0 r0 ltac:(lia) E0) as [F0 [L0 M0]].
  pose proof (band_rows c y 1 r1 ltac:(lia) E1) as [F1 [L1 M1]].
  pose proof (band_rows c y 2 r2 ltac:(lia) E2) as [F2 [L2 M2]].
  pose proof (band_rows c y 3 r3 ltac:(lia) E3) as [F3 [L3 M3]].
  exists (block_rows r0 28), (block_rows r1 28), (block_rows r2 28), (block_rows r3 28).
  assert (NE : forall k rs, Z.of_nat (length (block_rows rs 28)) = band_height y k ->
    (0 <= k <= 3)%Z -> block_rows rs 28 <> []).
  { intros k rs L Hk Z0. rewrite Z0 in L. cbn [length] in L. unfold band_height, month_height, day_row in L.
    pose proof (month_lengths_bounds y (3 * k + 1) ltac:(lia)).
    assert (0 <= weekday_column (date_number y (3 * k + 1) 1) < 7)%Z by (unfold weekday_column; apply Z.mod_pos_bound; lia).
    destruct (weekday_column (date_number y (3 * k + 1) 1) =? 0)%Z; lia. }
  split.
  - intros r col. unfold println. rewrite <- app_assoc. change newline with nl. cbn [app].
    rewrite written_line by apply rstrip_no_nl, center_no_nl, decimal_no_nl.
    destruct r as [|r]; [reflexivity|]. rewrite written_nl_end.
    change [join [nl] (block_rows r0 28); join [nl] (block_rows r1 28); join [nl] (block_rows r2 28);
      join [nl] (block_rows r3 28)] with (map (join [nl]) [block_rows r0 28; block_rows r1 28;
      block_rows r2 28; block_rows r3 28]).
    rewrite join2.
    + apply join_written. cbn [fold_left].
      repeat (apply Forall_app; split; [|constructor; [constructor|]]); apply block_rows_no_nl; assumption.
    + constructor; [exact (NE _ _ L0 ltac:(lia))|]. constructor; [exact (NE _ _ L1 ltac:(lia))|].
      constructor; [exact (NE _ _ L2 ltac:(lia))|]. constructor; [exact (NE _ _ L3 ltac:(lia))|constructor].
  - assert (R : forall k rs, Forall (fits 28) rs ->
      (forall j, j < 3 -> exists t, nth_error rs j = Some t /\
        render_month c y (3 * k + 1 + Z.of_nat j) false = Ok t) -> length rs = 3 ->
      forall r col, r < length (block_rows rs 28) -> nth col (nth r (block_rows rs 28) []) blank =
        if (col mod 31 <? 28) && (col / 31 <? 3) then
          match render_month c y (3 * k + 1 + Z.of_nat (col / 31)) false with
          | Ok m => shown m r (col mod 31)
          | Raise _ => blank
          end
        else blank).
    { intros k rs F M L r col Hr. rewrite block_rows_len in Hr.
      destruct (block_row rs 28 r F Hr) as [_ B]. rewrite B. change (28 + 3) with 31.
      destruct (col mod 31 <? 28); [|reflexivity]. cbn [andb].
      destruct (Nat.ltb_spec (col / 31) 3) as [Lc|Lc].
      - destruct (M _ Lc) as [m [Em Er]]. rewrite Em, Er. reflexivity.
      - rewrite (proj2 (nth_error_None rs (col / 31))) by lia. reflexivity. }
    assert (LEN : forall a b d rs, render_months c y [a; b; d] = Ok rs -> length rs = 3).
    { intros a b d rs E. cbn [render_months] in E.
      destruct (render_month c y a false); [cbn [bind] in E|discriminate E].
      destruct (render_month c y b false); [cbn [bind] in E|discriminate E].
      destruct (render_month c y d false); [cbn [bind] in E|discriminate E].
      assert (X : forall (a b : list text), Ok a = Ok b -> a = b) by congruence. apply X in E. subst rs. reflexivity. }
    assert (X : forall (a b : list text), Some a = Some b -> a = b) by congruence.
    intros [|[|[|[|k]]]] b Hb; cbn [nth_error] in Hb.
    + apply X in Hb. subst b. split; [exact L0|]. apply R; [exact F0|exact M0|eapply LEN; exact E0].
    + apply X in Hb. subst b. split; [exact L1|]. apply R; [exact F1|exact M1|eapply LEN; exact E1].
    + apply X in Hb. subst b. split; [exact L2|]. apply R; [exact F2|exact M2|eapply LEN; exact E2].
    + apply X in Hb. subst b. split; [exact L3|]. apply R; [exact F3|exact M3|eapply LEN; exact E3].
    + destruct k; discriminate Hb.
Qed.

Lemma page_line : forall b0 b1 b2 b3 y,
  (forall k b, nth_error [b0; b1; b2; b3] k = Some b -> Z.of_nat (length b) = band_height y (Z.of_nat k)) ->
  forall k b r, nth_error [b0; b1; b2; b3] k = Some b -> r < length b ->
  nth (Z.to_nat (band_top y k) - 1 + r) (page_lines [b0; b1; b2; b3]) [] = nth r b [].
Proof.
  intros b0 b1 b2 b3 y H k b r Hb Hr.
  pose proof (H 0 b0 eq_refl) as L0. pose proof (H 1 b1 eq_refl) as L1.
  pose proof (H 2 b2 eq_refl) as L2. pose proof (H 3 b3 eq_refl) as L3.
  unfold page_lines. cbn [fold_left].
  assert (T0 : band_top y 0 = 1%Z) by reflexivity.
  assert (T1 : (band_top y 1 = 1 + Z.of_nat (length b0) + 1)%Z) by (cbn [band_top]; lia).
  assert (T2 : (band_top y 2 = 1 + Z.of_nat (length b0) + 1 + Z.of_nat (length b1) + 1)%Z) by (cbn [band_top] in *; lia).
  assert (T3 : (band_top y 3 = 1 + Z.of_nat (length b0) + 1 + Z.of_nat (length b1) + 1 + Z.of_nat (length b2) + 1)%Z)
    by (cbn [band_top] in *; lia).
  assert (X : forall (a b : list text), Some a = Some b -> a = b) by congruence.
  destruct k as [|[|[|[|k]]]]; cbn [nth_error] in Hb; [| | | |destruct k; discriminate Hb];
    apply X in Hb; subst b.
  - rewrite T0. cbn [Z.to_nat]. change (Pos.to_nat 1 - 1 + r) with r.
    rewrite !nth_app_l by (rewrite ?app_length; cbn [length]; rewrite ?app_length; cbn [length]; lia). reflexivity.
  - replace (Z.to_nat (band_top y 1) - 1 + r) with (length b0 + S r) by lia.
    rewrite (nth_app_l ((b0 ++ [] :: b1) ++ [] :: b2)) by (rewrite !app_length; cbn [length]; lia).
    rewrite (nth_app_l (b0 ++ [] :: b1)) by (rewrite !app_length; cbn [length]; lia).
    apply nth_app_r.
  - replace (Z.to_nat (band_top y 2) - 1 + r) with (length (b0 ++ [] :: b1) + S r) by (rewrite app_length; cbn [length]; lia).
    rewrite (nth_app_l ((b0 ++ [] :: b1) ++ [] :: b2)) by (rewrite !app_length; cbn [length]; lia).
    apply nth_app_r.
  - replace (Z.to_nat (band_top y 3) - 1 + r) with (length ((b0 ++ [] :: b1) ++ [] :: b2) + S r)
      by (rewrite !app_length; cbn [length]; lia).
    apply nth_app_r.
Qed.

Lemma page_gap : forall b0 b1 b2 b3 y,
  (forall k b, nth_error [b0; b1; b2; b3] k = Some b -> Z.of_nat (length b) = band_height y (Z.of_nat k)) ->
  forall row, (forall k, k < 4 ->
    ~ (band_top y k <= Z.of_nat (S row) < band_top y k + band_height y (Z.of_nat k))%Z) ->
  nth row (page_lines [b0; b1; b2; b3]) [] = [].
Proof.
  intros b0 b1 b2 b3 y H row N.
  pose proof (H 0 b0 eq_refl) as L0. pose proof (H 1 b1 eq_refl) as L1.
  pose proof (H 2 b2 eq_refl) as L2. pose proof (H 3 b3 eq_refl) as L3.
  pose proof (N 0 ltac:(lia)) as N0. pose proof (N 1 ltac:(lia)) as N1.
  pose proof (N 2 ltac:(lia)) as N2. pose proof (N 3 ltac:(lia)) as N3.
  cbn [band_top] in N0, N1, N2, N3. rewrite <- L0 in N0. rewrite <- L0, <- L1 in N1.
  rewrite <- L0, <- L1, <- L2 in N2. rewrite <- L0, <- L1, <- L2, <- L3 in N3.
  clear N. clear H.
  unfold page_lines. cbn [fold_left].
  set (p1 := b0 ++ [] :: b1). set (p2 := p1 ++ [] :: b2).
  assert (P1 : length p1 = length b0 + 1 + length b1) by (unfold p1; rewrite app_length; cbn [length]; lia).
  assert (P2 : length p2 = length b0 + 1 + length b1 + 1 + length b2) by (unfold p2; rewrite app_length; cbn [length]; lia).
  assert (C : row = length b0 \/ row = length p1 \/ row = length p2 \/ length p2 + 1 + length b3 <= row) by lia.
  destruct C as [-> |[-> |[-> |C]]].
  - rewrite (nth_app_l p2) by lia. unfold p2. rewrite (nth_app_l p1) by lia. apply nth_app_m.
  - rewrite (nth_app_l p2) by lia. apply nth_app_m.
  - apply nth_app_m.
  - apply nth_overflow. assert (E : length (p2 ++ [] :: b3) = length p2 + 1 + length b3) by (rewrite app_length; cbn [length]; lia).
    eapply Nat.le_trans; [|exact C]. exact (Nat.eq_le_incl _ _ E).
Qed.

(** ** Reading the grid *)

Lemma shown_title : forall w t, no_nl t -> forall col,
  match nth_error (rstrip (center w t)) col with Some c => c | None => blank end =
  let left := Nat.div (w - length t) 2 in
  if (left <=? col) then nth (col - left) t blank else blank.
Proof.
  intros w t H col. rewrite nth_error_shown. rewrite rstrip_nth by (apply center_no_nl; exact H).
  unfold center. cbv zeta. set (left := (w - length t) / 2).
  assert (B : forall n i, nth i (blanks n) blank = blank).
  { intros n i. destruct (nth_in_or_default i (blanks n) blank) as [Hin| ->]; [|reflexivity].
    apply repeat_spec in Hin. exact Hin. }
  assert (L : length (blanks left) = left) by apply repeat_length.
  destruct (Nat.leb_spec left col) as [G|G].
  - rewrite app_nth2 by lia. rewrite L. destruct (Nat.ltb_spec (col - left) (length t)) as [M|M].
    + rewrite app_nth1 by exact M. reflexivity.
    + rewrite app_nth2 by exact M. rewrite B. symmetry. apply nth_overflow. exact M.
  - rewrite app_nth1 by lia. apply B.
Qed.

Lemma centered_title : forall t row w s, no_nl s ->
  (forall col, written t row col = nth_error (rstrip (center w s)) col) -> centered t row w s.
Proof.
  intros t row w s H W. unfold centered. cbv zeta. set (left := (w - length s) / 2). split.
  - intros i c Hi. unfold shown. rewrite W, shown_title by exact H. cbv zeta. fold left.
    destruct (Nat.leb_spec left (left + i)); [|lia]. replace (left + i - left) with i by lia.
    apply nth_error_nth. exact Hi.
  - intros col Hc. unfold shown. rewrite W, shown_title by exact H. cbv zeta. fold left.
    destruct (Nat.leb_spec left col); [|reflexivity]. apply nth_overflow. lia.
Qed.

Lemma day_cell_len : forall b d, length (day_cell b d) = 4.
Proof. reflexivity. Qed.

Lemma month_cell : forall c y m d, (1 <= d <= month_length y m)%Z ->
  nth (Z.to_nat (d - 1)) (month_cells c y m) [] =
  day_cell (is_session c (midnight (date_number y m d))) d.
Proof.
  intros c y m d Hd. apply nth_error_nth. unfold month_cells. rewrite nth_error_map.
  rewrite (nth_error_nth' _ 0) by (rewrite seq_length; lia). rewrite seq_nth by lia. cbn [option_map].
  replace (Z.of_nat (0 + Z.to_nat (d - 1)) + 1)%Z with d by lia. reflexivity.
Qed.
