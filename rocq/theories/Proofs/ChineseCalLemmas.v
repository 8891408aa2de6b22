(** Lemmas about the pages of chinese-cal (Model/ChineseCal.v). *)
From Coq Require Import ZArith String Ascii Lia Bool ZifyNat List.
From Verif.Model Require Import Base Helpers Dates Zone Lunisolar Tcal ChineseCal.
From Verif.Spec Require Import Civil Screen LunarPage.
From Verif.Proofs Require Import BaseLemmas DatesLemmas TcalLemmas.
Import ListNotations.
Open Scope nat_scope.
Open Scope list_scope.
Ltac Zify.zify_post_hook ::= Z.div_mod_to_equations.

(** ** The grid *)

Fixpoint grid3 (w : nat) (cells : list text) : text :=
  match cells with
  | [] => []
  | x :: cells => (if w mod 7 =? 0 then [nl] else [blank]) ++ x ++ grid3 (S w) cells
  end.

Definition is_cell2 (x : text) : Prop := length x = 2 /\ no_nl x.

Lemma grid3_snoc : forall cells w x, grid3 w (cells ++ [x]) =
  grid3 w cells ++ (if (w + length cells) mod 7 =? 0 then [nl] else [blank]) ++ x.
Proof.
  induction cells as [|y cells IH]; intros w x; cbn [grid3 app length].
  - rewrite Nat.add_0_r, app_nil_r. reflexivity.
  - rewrite IH. replace (S w + length cells) with (w + S (length cells)) by lia.
    rewrite <- !app_assoc. reflexivity.
Qed.

Lemma shown_append : forall t x r c R C, ends t = (R, C) -> no_nl x ->
  shown (t ++ x) r c = if (r =? R) && (C <=? c) then nth (c - C) x blank else shown t r c.
Proof.
  intros t x r c R C E H. unfold shown. rewrite (written_append t x r c R C E H).
  destruct (_ && _); [|reflexivity]. apply nth_error_shown.
Qed.

Lemma fits_append : forall w t x R C, ends t = (R, C) -> no_nl x -> C + length x <= w -> fits w t -> fits w (t ++ x).
Proof.
  intros w t x R C E H L F r c. rewrite (written_append t x r c R C E H).
  destruct (Nat.eqb_spec r R); destruct (Nat.leb_spec C c); cbn [andb]; try apply F.
  intros N. apply nth_error_Some in N. lia.
Qed.

Lemma fits_nl : forall w t, fits w t -> fits w (t ++ [nl]).
Proof. intros w t F r c. rewrite written_nl_end. apply F. Qed.

Definition expected3 (w0 : nat) (cells : list text) (r c : nat) : ascii :=
  let p := 7 * (r - base w0) + c / 3 in
  if (base w0 <=? r) && (c / 3 <? 7) && (w0 <=? p)
  then nth (c mod 3) (nth (p - w0) cells []) blank
  else blank.

Lemma expected3_nil : forall w0 r c, expected3 w0 [] r c = blank.
Proof. intros. unfold expected3. destruct (_ && _); [|reflexivity]. destruct (_ - _); destruct (c mod 3); reflexivity. Qed.

Lemma nth_repeat_blank : forall n i, nth i (blanks n) blank = blank.
Proof. induction n; intros [|i]; try reflexivity. apply IHn. Qed.

Lemma nth_nil_text : forall i, nth i ([] : text) blank = blank.
Proof. destruct i; reflexivity. Qed.

Lemma grid3_shape : forall w0 cells, w0 < 7 -> Forall is_cell2 cells ->
  let body := blanks (3 * w0 - 1) ++ grid3 w0 cells in
  ends body = (match length cells with
               | O => (0, 3 * w0 - 1)
               | S k => (base w0 + (w0 + k) / 7, 3 * ((w0 + k) mod 7) + 2)
               end) /\
  fits 20 body /\
  forall r c, shown body r c = expected3 w0 cells r c.
Proof.
  intros w0 cells Hw. induction cells as [|x cells IH] using rev_ind; intros Hc body.
  - unfold body. cbn [grid3 length]. rewrite app_nil_r.
    assert (L : length (blanks (3 * w0 - 1)) = 3 * w0 - 1) by apply repeat_length. split; [|split].
    + rewrite ends_no_nl by apply no_nl_blanks. rewrite L. reflexivity.
    + intros r c. rewrite written_no_nl by apply no_nl_blanks. destruct (r =? 0); [|congruence].
      intros N. apply nth_error_Some in N. lia.
    + intros r c. rewrite expected3_nil. unfold shown. rewrite written_no_nl by apply no_nl_blanks.
      destruct (r =? 0); [|reflexivity]. rewrite nth_error_shown. apply nth_repeat_blank.
  - apply Forall_app in Hc. destruct Hc as [Hc Hx]. inversion Hx as [|? ? [Lx Nx] _]; subst.
    specialize (IH Hc). cbv zeta in IH. destruct IH as [IE [IF IW]].
    unfold body. rewrite grid3_snoc, app_length. cbn [length].
    replace (length cells + 1) with (S (length cells)) by lia.
    set (k := length cells) in *. set (p := w0 + k).
    set (b0 := blanks (3 * w0 - 1) ++ grid3 w0 cells) in *.
    set (sep := if p mod 7 =? 0 then [nl] else [blank]).
    replace (blanks (3 * w0 - 1) ++ grid3 w0 cells ++ sep ++ x) with ((b0 ++ sep) ++ x)
      by (unfold b0; rewrite <- !app_assoc; reflexivity).
    assert (E1 : ends (b0 ++ sep) = (base w0 + p / 7, 3 * (p mod 7))).
    { unfold sep. destruct (Nat.eqb_spec (p mod 7) 0) as [Ep|Ep].
      - rewrite ends_app, IE. unfold p in *. clearbody k. destruct k as [|k]; cbn [ends].
        + change (Ascii.eqb nl nl) with true. cbv iota. unfold base.
          destruct (Nat.eqb_spec w0 0); f_equal; lia.
        + change (Ascii.eqb nl nl) with true. cbv iota. f_equal; lia.
      - rewrite ends_app, IE. unfold p in *. clearbody k. destruct k as [|k]; cbn [ends];
          change (Ascii.eqb blank nl) with false; cbv iota.
        + unfold base. destruct (Nat.eqb_spec w0 0); f_equal; lia.
        + f_equal; lia. }
    assert (W1 : fits 20 (b0 ++ sep) /\ forall r c, shown (b0 ++ sep) r c = expected3 w0 cells r c).
    { unfold sep. destruct (Nat.eqb_spec (p mod 7) 0) as [Ep|Ep].
      - split; [apply fits_nl, IF|]. intros r c. rewrite <- IW. unfold shown. rewrite written_nl_end. reflexivity.
      - destruct (ends b0) as [R C] eqn:Eb. split.
        + apply (fits_append 20 b0 [blank] R C Eb); [repeat constructor| |exact IF]. cbn [length].
          assert (X : C + 1 <= 3 * (p mod 7)); [|lia].
          unfold p in *. clearbody k. destruct k as [|k]; apply (f_equal snd) in IE; cbn [snd] in IE; lia.
        + intros r c. rewrite (shown_append b0 [blank] r c R C Eb) by (repeat constructor).
          destruct (Nat.eqb_spec r R); destruct (Nat.leb_spec C c); cbn [andb]; try apply IW.
          rewrite <- IW. unfold shown.
          pose proof (written_ends b0 r c) as WE. rewrite Eb in WE.
          destruct (written b0 r c); [specialize (WE ltac:(discriminate)); lia|].
          destruct (c - C) as [|[|?]]; reflexivity. }
    destruct W1 as [F1 W1].
    assert (P7 : p mod 7 < 7) by (apply Nat.mod_upper_bound; lia).
    split; [|split].
    + rewrite ends_app, E1, (ends_no_nl x Nx), Lx. unfold p. f_equal.
    + apply (fits_append 20 _ x _ _ E1 Nx); [lia|exact F1].
    + intros r c. rewrite (shown_append _ _ _ _ _ _ E1 Nx), W1. unfold expected3.
      set (q := 7 * (r - base w0) + c / 3).
      destruct (Nat.eqb_spec r (base w0 + p / 7)) as [Hr|Hr]; cbn [andb].
      * destruct (Nat.leb_spec (3 * (p mod 7)) c) as [Hcc|Hcc].
        -- destruct (Nat.ltb_spec c (3 * (p mod 7) + 3)) as [H4|H4].
           ++ assert (Eq : q = p) by (unfold q; lia).
              replace (base w0 <=? r) with true by (symmetry; apply Nat.leb_le; lia).
              replace (c / 3 <? 7) with true by (symmetry; apply Nat.ltb_lt; lia).
              replace (w0 <=? q) with true by (symmetry; apply Nat.leb_le; lia).
              cbn [andb]. replace (q - w0) with k by lia.
              rewrite app_nth2 by (fold k; lia). fold k. rewrite Nat.sub_diag. cbn [nth].
              f_equal. lia.
           ++ rewrite (nth_overflow x) by lia.
              destruct (Nat.ltb_spec (c / 3) 7) as [H7|H7]; [|rewrite andb_false_r; reflexivity].
              replace (base w0 <=? r) with true by (symmetry; apply Nat.leb_le; lia).
              assert (q > p) by (unfold q; lia).
              replace (w0 <=? q) with true by (symmetry; apply Nat.leb_le; lia).
              cbn [andb]. rewrite (nth_overflow (cells ++ [x])) by (rewrite app_length; cbn [length]; fold k; lia).
              symmetry. apply nth_nil_text.
        -- destruct (_ && _) eqn:Eb; [|reflexivity]. f_equal.
           rewrite !andb_true_iff in Eb. destruct Eb as [[B1 B2] B3].
           apply Nat.leb_le in B1, B3. apply Nat.ltb_lt in B2.
           assert (q < p) by (unfold q; lia). rewrite app_nth1 by (fold k; lia). reflexivity.
      * destruct (_ && _) eqn:Eb; [|reflexivity].
        rewrite !andb_true_iff in Eb. destruct Eb as [[B1 B2] B3].
        apply Nat.leb_le in B1, B3. apply Nat.ltb_lt in B2. f_equal.
        destruct (Nat.lt_trichotomy q p) as [Q|[Q|Q]].
        -- rewrite app_nth1 by (fold k; lia). reflexivity.
        -- exfalso. apply Hr. unfold q in Q. lia.
        -- rewrite !nth_overflow; [reflexivity|..]; rewrite ?app_length; cbn [length]; fold k; lia.
Qed.

(** ** The days of a month *)

Definition lunar_col (first : Z) : nat := Z.to_nat ((first + 4) mod 7).
Definition lunar_cells (first : Z) (n : nat) : list text :=
  map (fun i => two_digits (mday_of (first + Z.of_nat i))) (seq 0 n).

Lemma lunar_col_lt : forall d, lunar_col d < 7.
Proof. intros. unfold lunar_col. lia. Qed.
Lemma lunar_col_Z : forall d, Z.of_nat (lunar_col d) = weekday_column d.
Proof. intros. unfold lunar_col, weekday_column. lia. Qed.
Lemma lunar_base_Z : forall d, Z.of_nat (base (lunar_col d)) = (if weekday_column d =? 0 then 1 else 0)%Z.
Proof. intros. rewrite <- lunar_col_Z. unfold base. destruct (lunar_col d); reflexivity. Qed.

Lemma mday_range : forall d, (1 <= mday_of d <= 31)%Z.
Proof.
  intros d. unfold mday_of. destruct (civil_from_days d) as [[y m] k] eqn:E.
  apply civil_from_days_ok in E. destruct E as [[Hm Hk] _]. pose proof (month_lengths_bounds y m Hm). lia.
Qed.
Lemma month_range : forall d, (1 <= month_of d <= 12)%Z.
Proof.
  intros d. unfold month_of. destruct (civil_from_days d) as [[y m] k] eqn:E.
  apply civil_from_days_ok in E. destruct E as [[Hm Hk] _]. exact Hm.
Qed.

Lemma pad_two : forall k, (1 <= k <= 31)%Z -> pad_left 2 (decimal k) = two_digits k /\ is_cell2 (two_digits k).
Proof.
  intros k Hk. assert (Hn : exists n, In n (seq 1 31) /\ k = Z.of_nat n).
  { exists (Z.to_nat k). rewrite in_seq. lia. }
  destruct Hn as [n [Hn ->]]. clear Hk. revert n Hn. apply Forall_forall. repeat constructor.
Qed.

Lemma render_day3 : forall d, ChineseCal.render_day d =
  (if (d + 4) mod 7 =? 0 then [nl] else [blank])%Z ++ two_digits (mday_of d).
Proof.
  intros d. unfold ChineseCal.render_day. rewrite (proj1 (pad_two _ (mday_range d))). f_equal. unfold weekday, println.
  destruct (Z.eqb_spec ((d + 3) mod 7) 6); destruct (Z.eqb_spec ((d + 4) mod 7) 0); try reflexivity; exfalso; lia.
Qed.

Lemma render_grid3 : forall first n a,
  concat (map ChineseCal.render_day (map (fun i => (first + Z.of_nat i)%Z) (seq a n))) =
  grid3 (lunar_col first + a) (map (fun i => two_digits (mday_of (first + Z.of_nat i))) (seq a n)).
Proof.
  intros first. induction n as [|n IH]; intros a; [reflexivity|].
  cbn [seq map concat grid3]. rewrite IH, render_day3.
  replace (lunar_col first + S a) with (S (lunar_col first + a)) by lia.
  replace (((first + Z.of_nat a + 4) mod 7 =? 0)%Z) with ((lunar_col first + a) mod 7 =? 0).
  - rewrite <- app_assoc. reflexivity.
  - unfold lunar_col. destruct (Nat.eqb_spec ((Z.to_nat ((first + 4) mod 7) + a) mod 7) 0);
      destruct (Z.eqb_spec ((first + Z.of_nat a + 4) mod 7) 0); try reflexivity; exfalso; lia.
Qed.

Lemma lunar_cells_ok : forall first n, Forall is_cell2 (lunar_cells first n).
Proof.
  intros. apply Forall_forall. intros x Hx. apply in_map_iff in Hx. destruct Hx as [i [<- _]].
  apply pad_two, mday_range.
Qed.

Definition lunar_title (m year : Z) (leap print_year : bool) : text :=
  str "Lunar Month " ++ decimal m ++ (if leap then str "(+)" else []) ++
  (if print_year then str " " ++ decimal year else []).
Definition name_of (day : Z) : text := nth (Z.to_nat (month_of day - 1)) Tcal.months [].
Definition span_title (first last : Z) : text := name_of first ++ str "-" ++ name_of last.
Definition header3 : text := str "Su Mo Tu We Th Fr Sa".

Lemma lunar_title_no_nl : forall m y l py, no_nl (lunar_title m y l py).
Proof.
  intros. unfold lunar_title. apply no_nl_app. split; [apply str_no_nl; reflexivity|].
  apply no_nl_app. split; [apply decimal_no_nl|]. apply no_nl_app. split.
  - destruct l; [apply str_no_nl; reflexivity|constructor].
  - destruct py; [|constructor]. apply no_nl_app. split; [apply str_no_nl; reflexivity|apply decimal_no_nl].
Qed.

Lemma month_name_ok : forall d, ChineseCal.month_name d = Ok (name_of d) /\ no_nl (name_of d) /\ length (name_of d) <= 9.
Proof. intros d. unfold ChineseCal.month_name, name_of. apply month_name, month_range. Qed.

Lemma span_title_no_nl : forall a b, no_nl (span_title a b) /\ length (span_title a b) <= 19.
Proof.
  intros a b. destruct (month_name_ok a) as [_ [N1 L1]]. destruct (month_name_ok b) as [_ [N2 L2]].
  unfold span_title. split.
  - apply no_nl_app. split; [exact N1|]. apply no_nl_app. split; [repeat constructor|exact N2].
  - rewrite !app_length. change (length (str "-")) with 1. lia.
Qed.

(** The month from day [first] until day [next]. *)
Definition lunar_body (first next : Z) : text :=
  blanks (3 * lunar_col first - 1) ++ grid3 (lunar_col first) (lunar_cells first (Z.to_nat (next - first))).
Definition lunar_text (m year first next : Z) (print_year : bool) : text :=
  println (rstrip (center 20 (lunar_title m year (30 <? next - first)%Z print_year))) ++
  println (rstrip (center 20 (span_title first (next - 1)))) ++
  println header3 ++ lunar_body first next ++ [nl].

Lemma render_month3 : forall z year months m py a b,
  pyget months (m - 1) = Ok a -> pyget months m = Ok b ->
  let first := utc_to_chinese_date z a in let next := utc_to_chinese_date z b in
  ChineseCal.render_month z year months m py =
  if (first <? next)%Z then Ok (lunar_text m year first next py) else Raise IndexError.
Proof.
  intros z year months m py a b Ha Hb first next. unfold ChineseCal.render_month. rewrite Ha. cbn [bind].
  rewrite Hb. cbn [bind]. fold first. fold next. rewrite day_range_nth.
  destruct (Z.ltb_spec first next) as [L|L].
  - assert (N : Z.to_nat (next - first) = S (Z.to_nat (next - first) - 1)) by lia.
    set (ds := map _ _).
    assert (D0 : pyget ds 0 = Ok first).
    { unfold ds. rewrite N. cbn [seq map]. unfold pyget. cbn. f_equal. lia. }
    assert (DL : pyget ds (-1) = Ok (next - 1)%Z).
    { unfold ds. rewrite N, seq_S, map_app. cbn [map]. rewrite pyget_last. f_equal. lia. }
    rewrite D0. cbn [bind]. rewrite (proj1 (month_name_ok first)). cbn [bind]. rewrite DL. cbn [bind].
    rewrite (proj1 (month_name_ok (next - 1))). cbn [bind].
    unfold lunar_text, lunar_body.
    assert (ZL : zlen ds = (next - first)%Z) by (unfold zlen, ds; rewrite map_length, seq_length; lia).
    rewrite ZL.
    assert (E1 : lunar_title m year (30 <? next - first)%Z py =
      if py then (str "Lunar Month " ++ decimal m ++ (if (30 <? next - first)%Z then str "(+)" else [])) ++ str " " ++ decimal year
      else str "Lunar Month " ++ decimal m ++ (if (30 <? next - first)%Z then str "(+)" else [])).
    { unfold lunar_title. destruct py; rewrite <- ?app_assoc, ?app_nil_r; reflexivity. }
    rewrite E1. replace (Z.to_nat (3 * ((weekday first + 1) mod 7) - 1)) with (3 * lunar_col first - 1)
      by (unfold lunar_col, weekday; lia).
    unfold ds. rewrite render_grid3, Nat.add_0_r, <- !app_assoc. reflexivity.
  - replace (Z.to_nat (next - first)) with 0 by lia. reflexivity.
Qed.

(** What the month shows. *)
Lemma lunar_shown : forall m year first next py r col,
  shown (lunar_text m year first next py) r col =
    match r with
    | 0 => nth col (rstrip (center 20 (lunar_title m year (30 <? next - first)%Z py))) blank
    | 1 => nth col (rstrip (center 20 (span_title first (next - 1)))) blank
    | 2 => nth col header3 blank
    | S (S (S r)) => expected3 (lunar_col first) (lunar_cells first (Z.to_nat (next - first))) r col
    end.
Proof.
  intros m year first next py r col. unfold shown, lunar_text, println. change newline with nl.
  rewrite <- !app_assoc. cbn [app].
  rewrite written_line by apply rstrip_no_nl, center_no_nl, lunar_title_no_nl.
  destruct r as [|r]; [apply nth_error_shown|].
  rewrite written_line by apply rstrip_no_nl, center_no_nl, span_title_no_nl.
  destruct r as [|r]; [apply nth_error_shown|].
  rewrite written_line by (repeat constructor).
  destruct r as [|r]; [apply nth_error_shown|]. rewrite written_nl_end.
  destruct (grid3_shape (lunar_col first) (lunar_cells first (Z.to_nat (next - first))) (lunar_col_lt first)
    (lunar_cells_ok first _)) as [_ [_ G]].
  exact (G r col).
Qed.

Lemma lunar_written0 : forall m year first next py col,
  written (lunar_text m year first next py) 0 col = nth_error (rstrip (center 20 (lunar_title m year (30 <? next - first)%Z py))) col.
Proof.
  intros. unfold lunar_text, println. change newline with nl. rewrite <- !app_assoc. cbn [app].
  rewrite written_line by apply rstrip_no_nl, center_no_nl, lunar_title_no_nl. reflexivity.
Qed.
Lemma lunar_written1 : forall m year first next py col,
  written (lunar_text m year first next py) 1 col = nth_error (rstrip (center 20 (span_title first (next - 1)))) col.
Proof.
  intros. unfold lunar_text, println. change newline with nl. rewrite <- !app_assoc. cbn [app].
  rewrite written_line by apply rstrip_no_nl, center_no_nl, lunar_title_no_nl.
  rewrite written_line by apply rstrip_no_nl, center_no_nl, span_title_no_nl. reflexivity.
Qed.

Lemma length_rstrip_center : forall w t, length (rstrip (center w t)) <= Nat.max w (length t).
Proof.
  intros w t. destruct (rstrip_prefix (center w t)) as [p [E _]].
  assert (L : length (center w t) = length (rstrip (center w t)) + length p) by (rewrite E at 1; apply app_length).
  assert (K : length (center w t) <= Nat.max w (length t)).
  { unfold center. rewrite !app_length. unfold blanks. rewrite !repeat_length. lia. }
  lia.
Qed.

Lemma lunar_fits : forall m year first next, length (lunar_title m year (30 <? next - first)%Z false) <= 20 ->
  fits 20 (lunar_text m year first next false).
Proof.
  intros m year first next L r col. destruct r as [|[|[|r]]].
  - rewrite lunar_written0. intros N. apply nth_error_Some in N.
    pose proof (length_rstrip_center 20 (lunar_title m year (30 <? next - first)%Z false)). lia.
  - rewrite lunar_written1. intros N. apply nth_error_Some in N.
    pose proof (length_rstrip_center 20 (span_title first (next - 1))).
    pose proof (proj2 (span_title_no_nl first (next - 1))). lia.
  - unfold lunar_text, println. change newline with nl. rewrite <- !app_assoc. cbn [app].
    rewrite written_line by apply rstrip_no_nl, center_no_nl, lunar_title_no_nl.
    rewrite written_line by apply rstrip_no_nl, center_no_nl, span_title_no_nl.
    rewrite written_line by (repeat constructor). intros N. apply nth_error_Some in N.
    change (length header3) with 20 in N. lia.
  - unfold lunar_text, println. change newline with nl. rewrite <- !app_assoc. cbn [app].
    rewrite written_line by apply rstrip_no_nl, center_no_nl, lunar_title_no_nl.
    rewrite written_line by apply rstrip_no_nl, center_no_nl, span_title_no_nl.
    rewrite written_line by (repeat constructor). rewrite written_nl_end.
    destruct (grid3_shape (lunar_col first) (lunar_cells first (Z.to_nat (next - first))) (lunar_col_lt first)
      (lunar_cells_ok first _)) as [_ [G _]]. apply G.
Qed.

Lemma lunar_height_ok : forall m year first next py, (first < next)%Z ->
  Z.of_nat (height (lunar_text m year first next py)) = lunar_height first next.
Proof.
  intros m year first next py H.
  unfold height, splitlines. rewrite splitlines_from_length by constructor. cbn [app].
  unfold lunar_text, println. change newline with nl.
  set (T := rstrip (center 20 (lunar_title _ _ _ _))).
  assert (NT : no_nl T) by (apply rstrip_no_nl, center_no_nl, lunar_title_no_nl).
  set (T2 := rstrip (center 20 (span_title _ _))).
  assert (NT2 : no_nl T2) by (apply rstrip_no_nl, center_no_nl, span_title_no_nl).
  destruct (grid3_shape (lunar_col first) (lunar_cells first (Z.to_nat (next - first))) (lunar_col_lt first)
    (lunar_cells_ok first _)) as [G _]. fold (lunar_body first next) in G.
  assert (L : length (lunar_cells first (Z.to_nat (next - first))) = S (Z.to_nat (next - first) - 1)).
  { unfold lunar_cells. rewrite map_length, seq_length. lia. }
  rewrite L in G. rewrite !ends_app, G, (ends_no_nl T NT), (ends_no_nl T2 NT2), (ends_no_nl header3) by (repeat constructor).
  unfold lunar_height, lunar_row. rewrite <- lunar_base_Z, <- lunar_col_Z. generalize (base (lunar_col first)) as b. intros b.
  pose proof (lunar_col_lt first). generalize dependent (lunar_col first). intros f _ Hf.
  set (k := (f + (Z.to_nat (next - first) - 1)) / 7).
  assert (K : Z.of_nat k = ((Z.of_nat f + (next - 1 - first)) / 7)%Z) by (unfold k; lia).
  rewrite <- K. generalize k. clear. intros k. cbn -[Nat.modulo Nat.mul Z.add].
  destruct (b + k + 1) eqn:E; cbn -[Z.add]; lia.
Qed.

(** ** Pages of four bands *)

Lemma page_line4 : forall b0 b1 b2 b3 (H T : nat -> Z), T 0 = 1%Z -> (forall k, T (S k) = T k + H k + 1)%Z ->
  (forall k b, nth_error [b0; b1; b2; b3] k = Some b -> Z.of_nat (length b) = H k) ->
  forall k b r, nth_error [b0; b1; b2; b3] k = Some b -> r < length b ->
  nth (Z.to_nat (T k) - 1 + r) (page_lines [b0; b1; b2; b3]) [] = nth r b [].
Proof.
  intros b0 b1 b2 b3 H T T0 TS HL k b r Hb Hr.
  pose proof (HL 0 b0 eq_refl) as L0. pose proof (HL 1 b1 eq_refl) as L1.
  pose proof (HL 2 b2 eq_refl) as L2. pose proof (HL 3 b3 eq_refl) as L3.
  pose proof (TS 0) as T1. pose proof (TS 1) as T2. pose proof (TS 2) as T3.
  unfold page_lines. cbn [fold_left].
  assert (X : forall (a b : list text), Some a = Some b -> a = b) by congruence.
  destruct k as [|[|[|[|k]]]]; cbn [nth_error] in Hb; [| | | |destruct k; discriminate Hb];
    apply X in Hb; subst b.
  - rewrite T0. cbn [Z.to_nat]. change (Pos.to_nat 1 - 1 + r) with r.
    rewrite !nth_app_l by (rewrite ?app_length; cbn [length]; rewrite ?app_length; cbn [length]; lia). reflexivity.
  - replace (Z.to_nat (T 1) - 1 + r) with (length b0 + S r) by lia.
    rewrite (nth_app_l ((b0 ++ [] :: b1) ++ [] :: b2)) by (rewrite !app_length; cbn [length]; lia).
    rewrite (nth_app_l (b0 ++ [] :: b1)) by (rewrite !app_length; cbn [length]; lia).
    apply nth_app_r.
  - replace (Z.to_nat (T 2) - 1 + r) with (length (b0 ++ [] :: b1) + S r) by (rewrite app_length; cbn [length]; lia).
    rewrite (nth_app_l ((b0 ++ [] :: b1) ++ [] :: b2)) by (rewrite !app_length; cbn [length]; lia).
    apply nth_app_r.
  - replace (Z.to_nat (T 3) - 1 + r) with (length ((b0 ++ [] :: b1) ++ [] :: b2) + S r)
      by (rewrite !app_length; cbn [length]; lia).
    apply nth_app_r.
Qed.

Lemma page_gap4 : forall b0 b1 b2 b3 (H T : nat -> Z), T 0 = 1%Z -> (forall k, T (S k) = T k + H k + 1)%Z ->
  (forall k b, nth_error [b0; b1; b2; b3] k = Some b -> Z.of_nat (length b) = H k) ->
  forall row, (forall k, k < 4 -> ~ (T k <= Z.of_nat (S row) < T k + H k)%Z) ->
  nth row (page_lines [b0; b1; b2; b3]) [] = [].
Proof.
  intros b0 b1 b2 b3 H T T0 TS HL row N.
  pose proof (HL 0 b0 eq_refl) as L0. pose proof (HL 1 b1 eq_refl) as L1.
  pose proof (HL 2 b2 eq_refl) as L2. pose proof (HL 3 b3 eq_refl) as L3.
  pose proof (TS 0) as T1. pose proof (TS 1) as T2. pose proof (TS 2) as T3.
  pose proof (N 0 ltac:(lia)) as N0. pose proof (N 1 ltac:(lia)) as N1.
  pose proof (N 2 ltac:(lia)) as N2. pose proof (N 3 ltac:(lia)) as N3.
  clear N HL TS.
  unfold page_lines. cbn [fold_left].
  set (p1 := b0 ++ [] :: b1). set (p2 := p1 ++ [] :: b2).
  assert (P1 : length p1 = length b0 + 1 + length b1) by (unfold p1; rewrite app_length; cbn [length]; lia).
  assert (P2 : length p2 = length b0 + 1 + length b1 + 1 + length b2) by (unfold p2; rewrite app_length; cbn [length]; lia).
  assert (C : row = length b0 \/ row = length p1 \/ row = length p2 \/ length p2 + 1 + length b3 <= row) by lia.
  destruct C as [-> |[-> |[-> |C]]].
  - rewrite (nth_app_l p2) by lia. unfold p2. rewrite (nth_app_l p1) by lia. apply nth_app_m.
  - rewrite (nth_app_l p2) by lia. apply nth_app_m.
  - apply nth_app_m.
  - apply nth_overflow. assert (E : length (p2 ++ [] :: b3) = length p2 + 1 + length b3) by (rewrite app_length; cbn [length]; lia).
    eapply Nat.le_trans; [|exact C]. exact (Nat.eq_le_incl _ _ E).
Qed.

(** A page made of a title and four bands of three texts each. *)
Lemma four_bands : forall w width title (r0 r1 r2 r3 : list text) (H T : nat -> Z), no_nl title ->
  T 0 = 1%Z -> (forall k, T (S k) = T k + H k + 1)%Z ->
  (forall k ts, nth_error [r0; r1; r2; r3] k = Some ts ->
     Forall (fits w) ts /\ length ts = 3 /\ Z.of_nat (block_height ts) = H k /\ 0 < block_height ts) ->
  let page := println (rstrip (center width title ++ [newline])) ++
      println (join [newline; newline] (map (fun cs => Tcal.concat_lines cs w) [r0; r1; r2; r3])) in
  centered page 0 width title /\
  (forall k ts j t, nth_error [r0; r1; r2; r3] k = Some ts -> nth_error ts j = Some t ->
     forall row col, (Z.of_nat row < H k)%Z -> col < w ->
     shown page (Z.to_nat (T k) + row) ((w + 3) * j + col) = shown t row col) /\
  (forall row col, 1 <= row ->
     (forall k, k < 4 -> (T k <= Z.of_nat row < T k + H k)%Z -> w <= col mod (w + 3) \/ 3 * (w + 3) <= col) ->
     shown page row col = blank).
Proof.
  intros w width title r0 r1 r2 r3 H T NT T0 TS HB page.
  set (b0 := block_rows r0 w). set (b1 := block_rows r1 w). set (b2 := block_rows r2 w). set (b3 := block_rows r3 w).
  assert (HK : forall k b, nth_error [b0; b1; b2; b3] k = Some b ->
    exists ts, nth_error [r0; r1; r2; r3] k = Some ts /\ b = block_rows ts w).
  { intros k b E. change [b0; b1; b2; b3] with (map (fun ts => block_rows ts w) [r0; r1; r2; r3]) in E.
    rewrite nth_error_map in E. destruct (nth_error [r0; r1; r2; r3] k) as [ts|]; [|discriminate].
    exists ts. split; [reflexivity|]. cbn in E. congruence. }
  assert (LB : forall k b, nth_error [b0; b1; b2; b3] k = Some b -> Z.of_nat (length b) = H k).
  { intros k b E. destruct (HK k b E) as [ts [Et ->]]. rewrite block_rows_len. apply (HB k ts Et). }
  assert (NE : forall ts, In ts [r0; r1; r2; r3] -> block_rows ts w <> [] /\ Forall no_nl (block_rows ts w)).
  { intros ts Hts. apply In_nth_error in Hts. destruct Hts as [k Ek]. destruct (HB k ts Ek) as [F [_ [_ P]]].
    split; [|apply block_rows_no_nl, F]. intros Z0. apply (f_equal (@length text)) in Z0. rewrite block_rows_len in Z0. cbn in Z0. lia. }
  assert (W : forall r col, written page r col =
    match r with
    | 0 => nth_error (rstrip (center width title)) col
    | S r => nth_error (nth r (page_lines [b0; b1; b2; b3]) []) col
    end).
  { intros r col. unfold page, println. change newline with nl. rewrite rstrip_center_nl, <- app_assoc. cbn [app].
    rewrite written_line by (apply rstrip_no_nl, center_no_nl, NT).
    destruct r as [|r]; [reflexivity|]. rewrite written_nl_end. cbn [map]. rewrite !concat_lines_rows.
    fold b0 b1 b2 b3. change [join [nl] b0; join [nl] b1; join [nl] b2; join [nl] b3] with (map (join [nl]) [b0; b1; b2; b3]).
    rewrite join2.
    - apply join_written. cbn [fold_left].
      repeat (apply Forall_app; split; [|constructor; [constructor|]]); apply NE; cbn; auto.
    - repeat constructor; apply NE; cbn; auto. }
  assert (TP : forall k, k < 4 -> (1 <= T k)%Z).
  { pose proof (LB 0 b0 eq_refl). pose proof (LB 1 b1 eq_refl). pose proof (LB 2 b2 eq_refl).
    pose proof (TS 0). pose proof (TS 1). pose proof (TS 2).
    intros [|[|[|[|k]]]] Hk; lia. }
  assert (V : forall k ts, nth_error [r0; r1; r2; r3] k = Some ts -> forall r, r < block_height ts ->
    nth (Z.to_nat (T k) - 1 + r) (page_lines [b0; b1; b2; b3]) [] = nth r (block_rows ts w) []).
  { intros k ts Ek r Hr. apply (page_line4 b0 b1 b2 b3 H T T0 TS LB).
    - change [b0; b1; b2; b3] with (map (fun ts => block_rows ts w) [r0; r1; r2; r3]). rewrite nth_error_map, Ek. reflexivity.
    - rewrite block_rows_len. exact Hr. }
  split; [|split].
  - apply centered_title; [exact NT|]. intros col. apply (W 0 col).
  - intros k ts j t Ek Ej row col Hr Hc.
    assert (Hk : k < 4) by (change 4 with (length [r0; r1; r2; r3]); apply nth_error_Some; congruence).
    destruct (HB k ts Ek) as [F [L3 [BH _]]]. pose proof (TP k Hk) as Tk.
    unfold shown at 1. rewrite W. destruct (Z.to_nat (T k) + row) as [|i] eqn:Ei; [lia|].
    assert (I : i = Z.to_nat (T k) - 1 + row) by lia. rewrite I, (V k ts Ek row) by lia.
    rewrite nth_error_shown. destruct (block_row ts w row F ltac:(lia)) as [_ B]. rewrite B.
    assert (M : ((w + 3) * j + col) mod (w + 3) = col).
    { rewrite Nat.add_comm, Nat.mul_comm, Nat.mod_add by lia. apply Nat.mod_small. lia. }
    assert (D : ((w + 3) * j + col) / (w + 3) = j).
    { rewrite Nat.add_comm, Nat.mul_comm, Nat.div_add by lia. rewrite Nat.div_small by lia. reflexivity. }
    rewrite M, D, Ej, (proj2 (Nat.ltb_lt _ _) Hc). reflexivity.
  - intros row col Hr N. unfold shown. rewrite W. destruct row as [|i]; [lia|].
    destruct (Exists_dec (fun k => (T k <= Z.of_nat (S i) < T k + H k)%Z) [0; 1; 2; 3]) as [X|X].
    { intros k. destruct (Z_le_dec (T k) (Z.of_nat (S i)));
        destruct (Z_lt_dec (Z.of_nat (S i)) (T k + H k)); [left; lia|right; lia..]. }
    + apply Exists_exists in X. destruct X as [k [Hk Rk]].
      assert (Hk4 : k < 4) by (cbn in Hk; lia). specialize (N k Hk4 Rk). pose proof (TP k Hk4) as Tk.
      destruct (nth_error [r0; r1; r2; r3] k) as [ts|] eqn:Ek.
      2:{ apply nth_error_None in Ek. cbn [length] in Ek. lia. }
      destruct (HB k ts Ek) as [F [L3 [BH _]]].
      set (r := S i - Z.to_nat (T k)).
      replace i with (Z.to_nat (T k) - 1 + r) by (unfold r; lia).
      assert (Hrb : r < block_height ts) by (unfold r; lia).
      rewrite (V k ts Ek r Hrb), nth_error_shown. destruct (block_row ts w r F Hrb) as [_ B]. rewrite B.
      destruct (Nat.ltb_spec (col mod (w + 3)) w) as [M|M]; [|reflexivity].
      destruct N as [N|N]; [lia|]. rewrite (proj2 (nth_error_None ts (col / (w + 3)))); [reflexivity|].
      rewrite L3. apply Nat.div_le_lower_bound; lia.
    + rewrite (page_gap4 b0 b1 b2 b3 H T T0 TS LB i).
      * destruct col; reflexivity.
      * intros k Hk Rk. apply X. apply Exists_exists. exists k. split; [|exact Rk].
        destruct k as [|[|[|[|k]]]]; cbn; auto. lia.
Qed.
