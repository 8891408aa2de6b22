(** What the command line tool tcal prints (Model/Tcal.v), stated with the screen
    of Spec/Screen.v and the day numbering of Spec/Civil.v. *)
From Coq Require Import ZArith String Ascii Lia Bool ZifyNat List.
From Verif.Model Require Import Base Queries Dates Tcal.
From Verif.Spec Require Import Civil Screen.
From Verif.Proofs Require Import BaseLemmas DatesLemmas TcalLemmas.
Import ListNotations.
Open Scope Z_scope.
Open Scope list_scope.
Ltac Zify.zify_post_hook ::= Z.div_mod_to_equations.

(** ** A month *)

Definition month_names : list string :=
  ["January"; "February"; "March"; "April"; "May"; "June"; "July"; "August"; "September";
   "October"; "November"; "December"]%string.
Definition weekday_names : list string := ["Su"; "Mo"; "Tu"; "We"; "Th"; "Fr"; "Sa"]%string.

(** Every month 1-12 of every year can be shown; any other month number is rejected. *)
Theorem c44_months : forall c y m print_year,
  (1 <= m <= 12 -> exists t, render_month c y m print_year = Ok t) /\
  (~ 1 <= m <= 12 -> render_month c y m print_year = Raise ValueError).
Proof.
  intros c y m py. split; intros Hm.
  - rewrite render_month_ok by exact Hm. eexists. reflexivity.
  - unfold render_month, month_days.
    destruct (Z.leb_spec 1 m), (Z.leb_spec m 12); try lia; reflexivity.
Qed.

(** Every day of the month is shown in the column of its weekday and the row of
    its week, bracketed iff its midnight is not a session. *)
Theorem c44_days : forall c y m print_year t d (session : bool), valid_date y m d ->
  render_month c y m print_year = Ok t ->
  (session = true <-> In (date_number y m d * 86400000000000) (sessions c)) ->
  shows t (Z.to_nat (day_row y m d)) (Z.to_nat (4 * weekday_column (date_number y m d)))
    (day_cell session d).
Proof.
  intros c y m py t d b [Hm Hd] H Hb i x Hi.
  assert (Li : (i < 4)%nat) by (rewrite <- (day_cell_len b d); apply nth_error_Some; congruence).
  unfold shown. rewrite (month_written c y m py t Hm H).
  pose proof (first_col_Z y m) as F. pose proof (base_Z y m) as B. pose proof (first_col_lt y m) as FL.
  assert (N : date_number y m d = date_number y m 1 + (d - 1)) by (unfold date_number; lia).
  assert (C : weekday_column (date_number y m d) = (weekday_column (date_number y m 1) + (d - 1)) mod 7).
  { rewrite N. unfold weekday_column. rewrite Zplus_mod_idemp_l. f_equal. lia. }
  unfold day_row. rewrite C, <- B, <- F. clear C.
  set (f := first_col y m) in *. set (k := base f) in *.
  assert (R : Z.to_nat (2 + Z.of_nat k + (Z.of_nat f + d - 1) / 7) =
    S (S (k + Z.to_nat ((Z.of_nat f + d - 1) / 7)))) by lia.
  rewrite R. unfold expected. fold k.
  set (q := (Z.of_nat f + d - 1) / 7).
  set (w := (Z.of_nat f + (d - 1)) mod 7).
  assert (Q : Z.of_nat f + (d - 1) = 7 * q + w /\ 0 <= w < 7 /\ 0 <= q).
  { unfold q, w. replace (Z.of_nat f + d - 1) with (Z.of_nat f + (d - 1)) by lia.
    clear - Hd. lia. }
  destruct Q as [Q [W Q0]]. clearbody q w.
  assert (C4 : Nat.div (Z.to_nat (4 * w) + i) 4 = Z.to_nat w) by lia.
  assert (M4 : Nat.modulo (Z.to_nat (4 * w) + i) 4 = i) by lia.
  rewrite C4, M4.
  replace (k + Z.to_nat q - k)%nat with (Z.to_nat q) by lia.
  destruct (Nat.leb_spec k (k + Z.to_nat q)); [|lia].
  destruct (Nat.ltb_spec (Z.to_nat w) 7); [|lia].
  destruct (Nat.leb_spec f (7 * Z.to_nat q + Z.to_nat w)); [|lia]. cbn [andb].
  replace (7 * Z.to_nat q + Z.to_nat w - f)%nat with (Z.to_nat (d - 1)) by lia.
  rewrite month_cell by exact Hd.
  assert (Es : is_session c (midnight (date_number y m d)) = b).
  { change (date_number y m d * 86400000000000) with (midnight (date_number y m d)) in Hb.
    unfold is_session. destruct b.
    - apply contains_In. apply Hb. reflexivity.
    - destruct (contains (sessions c) (midnight (date_number y m d))) eqn:E; [|reflexivity].
      apply contains_In in E. apply Hb in E. discriminate E. }
  rewrite Es, Hi. reflexivity.
Qed.

(** Later days come later in reading order, so every day has its own place. *)
Theorem c44_order : forall y m d d', 1 <= m <= 12 -> 1 <= d < d' ->
  day_row y m d < day_row y m d' \/
  (day_row y m d = day_row y m d' /\
   weekday_column (date_number y m d) < weekday_column (date_number y m d')).
Proof.
  intros y m d d' Hm Hd. unfold day_row.
  assert (C : forall e, weekday_column (date_number y m e) = (weekday_column (date_number y m 1) + (e - 1)) mod 7).
  { intros e. replace (date_number y m e) with (date_number y m 1 + (e - 1)) by (unfold date_number; lia).
    unfold weekday_column. rewrite Zplus_mod_idemp_l. f_equal. lia. }
  rewrite (C d), (C d'). set (f := weekday_column (date_number y m 1)).
  assert (0 <= f < 7) by (apply Z.mod_pos_bound; lia). clearbody f. clear C.
  destruct (f =? 0); lia.
Qed.

(** Below the names of the weekdays nothing but the days is shown. *)
Theorem c44_nothing_else : forall c y m print_year t row col, 1 <= m <= 12 ->
  render_month c y m print_year = Ok t -> (2 <= row)%nat ->
  (forall d, valid_date y m d -> Z.of_nat row = day_row y m d ->
     ~ (4 * weekday_column (date_number y m d) <= Z.of_nat col < 4 * weekday_column (date_number y m d) + 4)) ->
  shown t row col = blank.
Proof.
  intros c y m py t row col Hm H Hr N. unfold shown. rewrite (month_written c y m py t Hm H).
  destruct row as [|[|r]]; [lia|lia|].
  pose proof (first_col_Z y m) as F. pose proof (base_Z y m) as B. pose proof (first_col_lt y m) as FL.
  unfold expected. set (f := first_col y m) in *. set (k := base f) in *.
  destruct (Nat.leb_spec k r) as [Kr|Kr].
  2:{ cbn [andb]. destruct (_ && _); reflexivity. }
  destruct (Nat.ltb_spec (col / 4) 7) as [Cr|Cr].
  2:{ cbn [andb]. destruct (_ && _); reflexivity. }
  destruct (Nat.leb_spec f (7 * (r - k) + col / 4)) as [Fr|Fr].
  2:{ cbn [andb]. destruct (_ && _); reflexivity. }
  cbn [andb]. set (p := (7 * (r - k) + col / 4 - f)%nat).
  destruct (Nat.ltb_spec p (Z.to_nat (month_length y m))) as [L|L].
  - exfalso. set (d := Z.of_nat p + 1).
    assert (V : valid_date y m d) by (split; [exact Hm|unfold d; lia]).
    assert (C : weekday_column (date_number y m d) = (weekday_column (date_number y m 1) + (d - 1)) mod 7).
    { replace (date_number y m d) with (date_number y m 1 + (d - 1)) by (unfold date_number; lia).
      unfold weekday_column. rewrite Zplus_mod_idemp_l. f_equal. lia. }
    assert (E : Z.of_nat f + (d - 1) = 7 * Z.of_nat (r - k) + Z.of_nat (col / 4)) by (unfold d, p; lia).
    assert (C2 : weekday_column (date_number y m d) = Z.of_nat (col / 4)).
    { rewrite C, <- F, E. clear - Cr. lia. }
    apply (N d V).
    + unfold day_row. rewrite <- B, <- F.
      assert (E2 : (Z.of_nat f + d - 1) / 7 = Z.of_nat (r - k)) by (clear - E Cr; lia). rewrite E2.
      clear - Kr. lia.
    + rewrite C2. clear. lia.
  - rewrite (nth_overflow (month_cells c y m)).
    + destruct (col mod 4)%nat; reflexivity.
    + unfold month_cells. rewrite map_length, seq_length. exact L.
Qed.

(** Row 0 shows the name of the month, and the year if asked for, centered; row 1
    the names of the weekdays above their columns. *)
Theorem c44_title : forall c y m print_year t name, 1 <= m <= 12 ->
  render_month c y m print_year = Ok t ->
  nth_error month_names (Z.to_nat (m - 1)) = Some name ->
  centered t 0 28 (list_ascii_of_string name ++ if print_year then blank :: decimal y else []).
Proof.
  intros c y m py t name Hm H Hn.
  assert (E : list_ascii_of_string name ++ (if py then blank :: decimal y else []) = title_of y m py).
  { unfold title_of.
    assert (En : nth (Z.to_nat (m - 1)) months [] = list_ascii_of_string name).
    { apply nth_error_nth. unfold months. rewrite nth_error_map. fold month_names. rewrite Hn. reflexivity. }
    rewrite En. destruct py; [reflexivity|apply app_nil_r]. }
  rewrite E. apply centered_title; [apply title_no_nl; exact Hm|].
  intros col. apply (month_written c y m py t Hm H).
Qed.

Theorem c44_header : forall c y m print_year t, 1 <= m <= 12 ->
  render_month c y m print_year = Ok t ->
  (forall w name, nth_error weekday_names w = Some name ->
     shows t 1 (4 * w + 1) (list_ascii_of_string name)) /\
  (forall col, (col mod 4 = 0 \/ col mod 4 = 3 \/ 28 <= col)%nat -> shown t 1 col = blank).
Proof.
  intros c y m py t Hm H. split.
  - intros w name Hw i x Hi. unfold shown. rewrite (month_written c y m py t Hm H).
    assert (Hl : (w < 7)%nat) by (change 7%nat with (length weekday_names); apply nth_error_Some; congruence).
    do 7 (destruct w as [|w]; [cbn in Hw; injection Hw as <-;
      destruct i as [|[|i]]; cbn in Hi; [injection Hi as <-; reflexivity..|destruct i; discriminate Hi]|]).
    lia.
  - intros col Hc. unfold shown. rewrite (month_written c y m py t Hm H).
    do 28 (destruct col as [|col]; [solve [reflexivity | exfalso; cbn in Hc; lia]|]).
    destruct col; reflexivity.
Qed.

(** ** What is printed *)

(** Asked for a month, tcal shows that month with the year in its title. *)
Theorem c44_month_page : forall c y m, 1 <= m <= 12 ->
  exists t page, render_month c y m true = Ok t /\ show c y (Some m) = Ok page /\
    forall row col, shown page row col = shown t row col.
Proof.
  intros c y m Hm. destruct (proj1 (c44_months c y m true) Hm) as [t E].
  exists t, (t ++ [newline]). split; [exact E|]. split; [unfold show; rewrite E; reflexivity|].
  intros row col. unfold shown. rewrite written_nl_end. reflexivity.
Qed.

(** Asked for a year, tcal shows the year centered over four bands of three
    months; each month appears whole at its place, and nothing else is shown. *)
Theorem c44_year_page : forall c y, exists page, show c y None = Ok page /\
  centered page 0 88 (decimal y) /\
  (forall m t, 1 <= m <= 12 -> render_month c y m false = Ok t ->
     forall row col, Z.of_nat row < band_height y ((m - 1) / 3) -> (col < 28)%nat ->
     shown page (Z.to_nat (band_top y (Z.to_nat ((m - 1) / 3))) + row)
       (31 * Z.to_nat ((m - 1) mod 3) + col) = shown t row col) /\
  (forall row col, (1 <= row)%nat ->
     (forall band, 0 <= band <= 3 -> 
        band_top y (Z.to_nat band) <= Z.of_nat row < band_top y (Z.to_nat band) + band_height y band ->
        (28 <= col mod 31)%nat \/ (93 <= col)%nat) ->
     shown page row col = blank).
Proof.
  intros c y.
  assert (HS : exists page, show c y None = Ok page).
  { unfold show.
    destruct (render_months_ok c y [1; 2; 3]) as [r0 [-> _]]; [repeat constructor; lia|].
    destruct (render_months_ok c y [4; 5; 6]) as [r1 [-> _]]; [repeat constructor; lia|].
    destruct (render_months_ok c y [7; 8; 9]) as [r2 [-> _]]; [repeat constructor; lia|].
    destruct (render_months_ok c y [10; 11; 12]) as [r3 [-> _]]; [repeat constructor; lia|].
    eexists. reflexivity. }
  destruct HS as [page HS]. exists page. split; [exact HS|].
  destruct (year_page c y page HS) as [b0 [b1 [b2 [b3 [W B]]]]].
  assert (LB : forall k b, nth_error [b0; b1; b2; b3] k = Some b ->
    Z.of_nat (length b) = band_height y (Z.of_nat k)) by (intros k b E; apply (B k b E)).
  assert (TP : forall k, 1 <= band_top y k).
  { intros k. induction k as [|k IH]; [cbn; lia|]. cbn [band_top].
    destruct (Nat.ltb_spec k 4) as [L|L].
    - destruct (nth_error [b0; b1; b2; b3] k) as [b|] eqn:E.
      + pose proof (LB k b E). lia.
      + apply nth_error_None in E. cbn [length] in E. lia.
    - assert (0 <= band_height y (Z.of_nat k)); [|lia].
      unfold band_height, month_height, day_row.
      set (m3 := 3 * Z.of_nat k + 1).
      assert (month_length y m3 >= 0).
      { unfold month_length. rewrite nth_overflow; [lia|]. cbn [length month_lengths]. lia. }
      assert (0 <= weekday_column (date_number y m3 1) < 7) by (apply Z.mod_pos_bound; lia).
      destruct (weekday_column (date_number y m3 1) =? 0); lia. }
  split; [|split].
  - apply centered_title; [apply decimal_no_nl|]. intros col. apply (W 0%nat col).
  - intros m t Hm E row col Hr Hc.
    set (q := (m - 1) / 3) in *. set (j := (m - 1) mod 3).
    assert (Q : m = 3 * q + 1 + j /\ 0 <= q <= 3 /\ 0 <= j < 3) by (unfold q, j; clear - Hm; lia).
    destruct Q as [Q1 [Q2 Q3]]. clearbody q j.
    destruct (nth_error [b0; b1; b2; b3] (Z.to_nat q)) as [b|] eqn:Eb.
    2:{ apply nth_error_None in Eb. cbn [length] in Eb. lia. }
    destruct (B _ _ Eb) as [Lb Vb]. rewrite Z2Nat.id in Lb by lia.
    assert (Hrb : (row < length b)%nat) by lia.
    assert (Hc31 : Nat.modulo (31 * Z.to_nat j + col) 31 = col) by lia.
    assert (Hd31 : Nat.div (31 * Z.to_nat j + col) 31 = Z.to_nat j) by lia.
    specialize (Vb row (31 * Z.to_nat j + col)%nat Hrb). rewrite Hc31, Hd31 in Vb.
    unfold shown at 1. rewrite W.
    destruct (Z.to_nat (band_top y (Z.to_nat q)) + row)%nat as [|i] eqn:Ei.
    { pose proof (TP (Z.to_nat q)). lia. }
    assert (I : i = (Z.to_nat (band_top y (Z.to_nat q)) - 1 + row)%nat) by (pose proof (TP (Z.to_nat q)); lia).
    rewrite I, (page_line b0 b1 b2 b3 y LB (Z.to_nat q) b row Eb Hrb).
    rewrite nth_error_shown, Vb.
    destruct (Nat.ltb_spec col 28); [|lia]. destruct (Nat.ltb_spec (Z.to_nat j) 3); [|lia]. cbn [andb].
    rewrite !Z2Nat.id by lia. rewrite <- Q1, E. reflexivity.
  - intros row col Hr N. unfold shown. rewrite W. destruct row as [|i]; [lia|].
    destruct (Exists_dec (fun k => band_top y k <= Z.of_nat (S i) < band_top y k + band_height y (Z.of_nat k))
      [0; 1; 2; 3]%nat) as [X|X].
    { intros k. destruct (Z_le_dec (band_top y k) (Z.of_nat (S i)));
        destruct (Z_lt_dec (Z.of_nat (S i)) (band_top y k + band_height y (Z.of_nat k))); [left; lia|right; lia..]. }
    + apply Exists_exists in X. destruct X as [k [Hk Rk]].
      assert (Hk4 : (k < 4)%nat) by (cbn in Hk; lia).
      specialize (N (Z.of_nat k) ltac:(lia)). rewrite Nat2Z.id in N. specialize (N Rk).
      destruct (nth_error [b0; b1; b2; b3] k) as [b|] eqn:Eb.
      2:{ apply nth_error_None in Eb. cbn [length] in Eb. lia. }
      destruct (B _ _ Eb) as [Lb Vb].
      pose proof (TP k) as Tk.
      set (r := (S i - Z.to_nat (band_top y k))%nat).
      assert (Hrb : (r < length b)%nat) by (unfold r; lia).
      replace i with (Z.to_nat (band_top y k) - 1 + r)%nat by (unfold r; lia).
      rewrite (page_line b0 b1 b2 b3 y LB k b r Eb Hrb). rewrite nth_error_shown, (Vb r col Hrb).
      destruct N as [N|N].
      * destruct (Nat.ltb_spec (col mod 31) 28); [lia|reflexivity].
      * destruct (Nat.ltb_spec (col / 31) 3) as [Lc|Lc]; [clear - N Lc; lia|]. rewrite andb_false_r. reflexivity.
    + rewrite (page_gap b0 b1 b2 b3 y LB i).
      * destruct col; reflexivity.
      * intros k Hk Rk. apply X. apply Exists_exists. exists k. split; [|exact Rk].
        destruct k as [|[|[|[|k]]]]; cbn; auto. lia.
Qed.

(** ** Arguments *)

Ltac kinds K := destruct K as [[K ?]|[(?&?&K&?&?)|(?&?&?&?&K&?&?&?)]].

(** tcal shows something exactly when it is given a known calendar and nothing else
    (then: the current month), a year, or a month and a year, in this order, and
    no help flag. *)
Theorem c45_shown : forall get_calendar now int_of repr prog args r,
  main get_calendar now int_of repr prog args = inl r <->
  ~ In (list_ascii_of_string "-h") (prog :: args) /\
  ~ In (list_ascii_of_string "--help") (prog :: args) /\
  exists name c, get_calendar name = inl c /\
    ((args = [name] /\ r = show c (fst now) (Some (snd now))) \/
     (exists y year, args = [name; y] /\ int_of y = Some year /\ r = show c year None) \/
     (exists m y month year, args = [name; m; y] /\ int_of m = Some month /\ int_of y = Some year /\
        r = show c year (Some month))).
Proof.
  intros get now int_of repr prog args r.
  assert (T : forall a b, text_eqb a b = true <-> a = b).
  { intros a b. unfold text_eqb. destruct (list_eq_dec ascii_dec a b); split; congruence. }
  assert (X : forall h l, existsb (text_eqb h) l = true <-> In h l).
  { intros h l. rewrite existsb_exists. split.
    - intros [x [Hx E]]. apply T in E. subst. exact Hx.
    - intros Hx. exists h. split; [exact Hx|]. apply T. reflexivity. }
  unfold main, parse_args.
  destruct (existsb (text_eqb (str "--help")) (prog :: args)) eqn:E1.
  { rewrite orb_true_r. cbn [orb]. apply X in E1. split; [discriminate|]. intros [_ [N _]]. contradiction. }
  destruct (existsb (text_eqb (str "-h")) (prog :: args)) eqn:E2.
  { rewrite !orb_true_r. apply X in E2. split; [discriminate|]. intros [N _]. contradiction. }
  assert (N1 : ~ In (list_ascii_of_string "--help") (prog :: args))
    by (intros K; apply X in K; unfold str in E1; congruence).
  assert (N2 : ~ In (list_ascii_of_string "-h") (prog :: args))
    by (intros K; apply X in K; unfold str in E2; congruence).
  rewrite !orb_false_r.
  destruct args as [|name rest].
  { split; [discriminate|]. intros [_ [_ [name [c [_ K]]]]]. kinds K; discriminate K. }
  destruct (get name) as [c|e] eqn:G.
  2:{ split; [discriminate|]. intros [_ [_ [name' [c [G' K]]]]].
      kinds K; injection K as <- _; congruence. }
  destruct rest as [|a [|b [|x rest]]].
  - split.
    + intros E. injection E as <-. split; [exact N2|]. split; [exact N1|]. exists name, c. split; [exact G|]. left. auto.
    + intros [_ [_ [name' [c' [G' K]]]]].
      kinds K; injection K; intros; subst; congruence.
  - unfold int_arg. destruct (int_of a) as [ya|] eqn:Ia.
    + split.
      * intros E. injection E as <-. split; [exact N2|]. split; [exact N1|]. exists name, c. split; [exact G|].
        right. left. exists a, ya. auto.
      * intros [_ [_ [name' [c' [G' K]]]]].
        kinds K; injection K; intros; subst; congruence.
    + split; [discriminate|]. intros [_ [_ [name' [c' [G' K]]]]].
      kinds K; injection K; intros; subst; congruence.
  - unfold int_arg. destruct (int_of a) as [ma|] eqn:Ia; [destruct (int_of b) as [yb|] eqn:Ib|].
    + split.
      * intros E. injection E as <-. split; [exact N2|]. split; [exact N1|]. exists name, c. split; [exact G|].
        right. right. exists a, b, ma, yb. auto.
      * intros [_ [_ [name' [c' [G' K]]]]].
        kinds K; injection K; intros; subst; congruence.
    + split; [discriminate|]. intros [_ [_ [name' [c' [G' K]]]]].
      kinds K; injection K; intros; subst; congruence.
    + split; [discriminate|]. intros [_ [_ [name' [c' [G' K]]]]].
      kinds K; injection K; intros; subst; congruence.
  - split; [discriminate|]. intros [_ [_ [name' [c' [G' K]]]]].
    kinds K; injection K; intros; subst; congruence.
Qed.

(** Otherwise it exits with a message: the usage, the message of the failed
    calendar lookup, or which argument is not an integer (the month first). *)
Theorem c45_messages : forall get_calendar now int_of repr prog,
  let run := main get_calendar now int_of repr prog in
  let usage_line := list_ascii_of_string "usage: " ++ prog ++
                    list_ascii_of_string " CALENDAR [[[DAY] MONTH] YEAR]" in
  let not_an_integer what v := list_ascii_of_string what ++
        list_ascii_of_string " must be an integer, got: " ++ repr v in
  run [] = inr usage_line /\
  (forall args, In (list_ascii_of_string "-h") (prog :: args) \/
     In (list_ascii_of_string "--help") (prog :: args) -> run args = inr usage_line) /\
  (forall name rest, ~ In (list_ascii_of_string "-h") (prog :: name :: rest) ->
     ~ In (list_ascii_of_string "--help") (prog :: name :: rest) ->
     (forall message, get_calendar name = inr message -> run (name :: rest) = inr message) /\
     (forall c, get_calendar name = inl c ->
        ((2 < length rest)%nat -> run (name :: rest) = inr usage_line) /\
        (forall y, rest = [y] -> int_of y = None -> run (name :: rest) = inr (not_an_integer "YEAR"%string y)) /\
        (forall m y, rest = [m; y] -> int_of m = None ->
           run (name :: rest) = inr (not_an_integer "MONTH"%string m)) /\
        (forall m y, rest = [m; y] -> int_of m <> None -> int_of y = None ->
           run (name :: rest) = inr (not_an_integer "YEAR"%string y)))).
Proof.
  intros get now int_of repr prog. cbv zeta.
  assert (T : forall a b, text_eqb a b = true <-> a = b).
  { intros a b. unfold text_eqb. destruct (list_eq_dec ascii_dec a b); split; congruence. }
  assert (X : forall h l, existsb (text_eqb h) l = true <-> In h l).
  { intros h l. rewrite existsb_exists. split.
    - intros [x [Hx E]]. apply T in E. subst. exact Hx.
    - intros Hx. exists h. split; [exact Hx|]. apply T. reflexivity. }
  split; [reflexivity|]. split.
  - intros args H. unfold main, parse_args.
    destruct H as [H|H]; apply X in H; fold (str "-h") (str "--help") in H; rewrite H, ?orb_true_r; reflexivity.
  - intros name rest N1 N2.
    assert (E1 : existsb (text_eqb (str "-h")) (prog :: name :: rest) = false).
    { apply not_true_is_false. intros E. apply X in E. contradiction. }
    assert (E2 : existsb (text_eqb (str "--help")) (prog :: name :: rest) = false).
    { apply not_true_is_false. intros E. apply X in E. contradiction. }
    unfold main, parse_args. rewrite E1, E2. cbn [orb]. split.
    + intros message ->. reflexivity.
    + intros c ->. split; [|split; [|split]].
      * intros L. destruct rest as [|a [|b [|x rest]]]; cbn in L; try lia. reflexivity.
      * intros y -> I. unfold int_arg. rewrite I. reflexivity.
      * intros m y -> I. unfold int_arg. rewrite I. reflexivity.
      * intros m y -> I J. unfold int_arg. rewrite J. destruct (int_of m); [reflexivity|congruence].
Qed.

(** ** Witnesses: March 2020 begins on a Sunday; of its days only the 2nd and the
    16th are sessions of this calendar. *)
Definition ex_sessions : list Z :=
  [date_number 2020 3 2 * 86400000000000; date_number 2020 3 16 * 86400000000000].
Definition ex_cal : calendar := Calendar ex_sessions ex_sessions ex_sessions ex_sessions ex_sessions [].
Definition ex_month : text := match render_month ex_cal 2020 3 true with Ok t => t | Raise _ => [] end.

Example c44_witness :
  render_month ex_cal 2020 3 true = Ok ex_month /\
  valid_date 2020 3 16 /\ In (date_number 2020 3 16 * 86400000000000) (sessions ex_cal) /\
  valid_date 2020 3 17 /\ ~ In (date_number 2020 3 17 * 86400000000000) (sessions ex_cal) /\
  day_row 2020 3 1 = 3 /\ weekday_column (date_number 2020 3 1) = 0 /\
  day_row 2020 3 17 = 5 /\ weekday_column (date_number 2020 3 17) = 2 /\
  month_height 2020 3 = 8.
Proof.
  split; [vm_compute; reflexivity|]. split; [vm_compute; repeat split; discriminate|].
  split; [right; left; reflexivity|]. split; [vm_compute; repeat split; discriminate|].
  split; [intros [K|[K|K]]; [vm_compute in K; discriminate K..|exact K]|].
  vm_compute. repeat split.
Qed.

(** The printed month, row by row. *)
Example c44_picture : map string_of_list_ascii (splitlines ex_month) =
  ["         March 2020";
   " Su  Mo  Tu  We  Th  Fr  Sa";
   "";
   "[ 1]  2 [ 3][ 4][ 5][ 6][ 7]";
   "[ 8][ 9][10][11][12][13][14]";
   "[15] 16 [17][18][19][20][21]";
   "[22][23][24][25][26][27][28]";
   "[29][30][31]"]%string.
Proof. vm_compute. reflexivity. Qed.

(** Bands of the year 2020. *)
Example c44_year_witness : map (fun b => (band_top 2020 (Z.to_nat b), band_height 2020 b)) [0; 1; 2; 3] =
  [(1, 8); (10, 8); (19, 8); (28, 8)].
Proof. vm_compute. reflexivity. Qed.

Example c45_witness :
  let get name := if text_eqb name (str "X") then inl ex_cal else inr (str "unknown") in
  let int_of v := if text_eqb v (str "3") then Some 3 else if text_eqb v (str "2020") then Some 2020 else None in
  let run := main get (2020, 3) int_of (fun v => v) (str "tcal") in
  run [str "X"; str "3"; str "2020"] = run [str "X"] /\
  run [str "X"; str "2020"] = inl (show ex_cal 2020 None) /\
  run [str "Y"; str "2020"] = inr (str "unknown") /\
  run [str "X"; str "may"; str "2020"] = inr (str "MONTH must be an integer, got: may").
Proof. vm_compute. repeat split. Qed.

(** ** Assumptions *)
Print Assumptions c44_months.
Print Assumptions c44_days.
Print Assumptions c44_order.
Print Assumptions c44_nothing_else.
Print Assumptions c44_title.
Print Assumptions c44_header.
Print Assumptions c44_month_page.
Print Assumptions c44_year_page.
Print Assumptions c45_shown.
Print Assumptions c45_messages.
