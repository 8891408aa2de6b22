(** The recorded schedules of the tests (C89). *)
From Coq Require Import String Ascii ZArith List Bool Lia.
From Verif.Model Require Import Base Helpers Dates Zone Queries Build Holidays Exchange Dispatcher Tcal TestCsv.
From Verif.Spec Require Import Schedule Construction Civil Rules Venue Catalogue Hours Record.
From Verif.Proofs Require Import BaseLemmas DatesLemmas ScheduleLemmas QueryLemmas BuildLemmas TcalLemmas
  DispatcherLemmas VenueLemmas VenueSound VenueRows VenueData HoursRules.
From Verif.Properties Require Import QueryProps BuildProps ExchangeProps HoursProps.
From Verif.Exchanges Require Import All zones.
Import ListNotations.
Open Scope list_scope.
Open Scope Z_scope.

(** ** Numbers *)

Lemma digit_nth : forall d, 0 <= d < 10 -> nth_error (chars "0123456789") (Z.to_nat d) = Some (digit_char d).
Proof.
  intros d H. assert (d = 0 \/ d = 1 \/ d = 2 \/ d = 3 \/ d = 4 \/ d = 5 \/ d = 6 \/ d = 7 \/ d = 8 \/ d = 9) by lia.
  repeat (destruct H0 as [->|H0]; [reflexivity|]). subst. reflexivity.
Qed.

Lemma digit_back : forall d, 0 <= d < 10 -> digit_of (digit_char d) = Some d.
Proof.
  intros d H. assert (d = 0 \/ d = 1 \/ d = 2 \/ d = 3 \/ d = 4 \/ d = 5 \/ d = 6 \/ d = 7 \/ d = 8 \/ d = 9) by lia.
  repeat (destruct H0 as [->|H0]; [reflexivity|]). subst. reflexivity.
Qed.

Lemma padded_length : forall w n, length (zero_padded w n) = w.
Proof. induction w as [|w IH]; intros n; [reflexivity|]. cbn [zero_padded]. rewrite app_length, IH. cbn. lia. Qed.

Lemma padded_digits : forall w n, 0 <= n < 10 ^ Z.of_nat w -> digits w (zero_padded w n) n.
Proof.
  intros w n H. split; [apply padded_length|]. revert n H. induction w as [|w IH]; intros n H.
  - cbn in H. replace n with 0 by lia. constructor.
  - cbn [zero_padded]. rewrite Nat2Z.inj_succ, Z.pow_succ_r in H by lia.
    pose proof (Z.mod_pos_bound n 10 ltac:(lia)) as B. pose proof (Z.div_mod n 10 ltac:(lia)) as D.
    replace n with (10 * (n / 10) + Z.of_nat (Z.to_nat (n mod 10))) at 3 by lia.
    apply next_digit; [|apply digit_nth; exact B]. apply IH.
    split; [apply Z.div_pos; lia|]. apply Z.div_lt_upper_bound; lia.
Qed.

Lemma number_from_app : forall w a acc n t, 0 <= n < 10 ^ Z.of_nat w ->
  number_from (w + a) acc (zero_padded w n ++ t) = number_from a (10 ^ Z.of_nat w * acc + n) t.
Proof.
  induction w as [|w IH]; intros a acc n t H.
  - cbn in H. replace n with 0 by lia. cbn [zero_padded app Nat.add]. f_equal. lia.
  - rewrite Nat2Z.inj_succ, Z.pow_succ_r in * by lia. cbn [zero_padded].
    pose proof (Z.mod_pos_bound n 10 ltac:(lia)) as B. pose proof (Z.div_mod n 10 ltac:(lia)) as D.
    rewrite <- app_assoc. replace (S w + a)%nat with (w + S a)%nat by lia.
    rewrite IH by (split; [apply Z.div_pos; lia|apply Z.div_lt_upper_bound; lia]).
    cbn [app number_from]. rewrite digit_back by exact B. f_equal. lia.
Qed.

Lemma number_padded : forall w n t, 0 <= n < 10 ^ Z.of_nat w -> number w (zero_padded w n ++ t) = Some (n, t).
Proof.
  intros w n t H. unfold number. pose proof (number_from_app w 0 0 n t H) as Q.
  rewrite Nat.add_0_r in Q. rewrite Q. cbn [number_from]. do 2 f_equal. lia.
Qed.

(** ** Dates *)

Definition year_fits (day : Z) : Prop := date_number 0 1 1 <= day < date_number 10000 1 1.

Lemma date_parts : forall day, year_fits day -> exists y m d, civil_from_days day = (y, m, d) /\
  valid_date y m d /\ day = date_number y m d /\ 0 <= y < 10000 /\ 1 <= m <= 12 /\ 1 <= d <= 31.
Proof.
  intros day [H1 H2]. destruct (civil_from_days day) as [[y m] d] eqn:E.
  destruct (civil_from_days_ok _ _ _ _ E) as [V N].
  exists y, m, d. split; [reflexivity|]. split; [exact V|]. split; [congruence|].
  pose proof (date_number_year y m d V) as Y. pose proof V as [V1 V2].
  pose proof (month_lengths_bounds y m V1). split; [|lia].
  unfold in_year in Y. rewrite N in Y.
  assert (A : date_number 0 1 1 = year_start 0) by reflexivity.
  assert (B : date_number 10000 1 1 = year_start 10000) by reflexivity.
  rewrite A in H1. rewrite B in H2. split.
  - destruct (Z.lt_ge_cases y 0) as [L|L]; [|exact L]. exfalso.
    destruct (Z.eq_dec (y + 1) 0) as [E1|E1]; [rewrite E1 in Y; lia|].
    pose proof (year_start_mono (y + 1) 0 ltac:(lia)). lia.
  - destruct (Z.lt_ge_cases y 10000) as [L|L]; [exact L|]. exfalso.
    destruct (Z.eq_dec y 10000) as [->|E1]; [lia|].
    pose proof (year_start_mono 10000 y ltac:(lia)). lia.
Qed.

Lemma date_text_written : forall day, year_fits day -> date_written (date_text day) day.
Proof.
  intros day H. destruct (date_parts day H) as [y [m [d [E [V [N [B1 [B2 B3]]]]]]]].
  unfold date_text. rewrite E. exists y, m, d, (zero_padded 4 y), (zero_padded 2 m), (zero_padded 2 d).
  split; [reflexivity|]. split; [apply padded_digits; cbn; lia|]. split; [apply padded_digits; cbn; lia|].
  split; [apply padded_digits; cbn; lia|]. split; [exact V|exact N].
Qed.

Lemma expect_str : forall c t, expect c (str (String c EmptyString) ++ t) = Some t.
Proof. intros c t. cbn. rewrite Ascii.eqb_refl. reflexivity. Qed.

Lemma read_date_text : forall day t, year_fits day -> read_date (date_text day ++ t) = Some (day, t).
Proof.
  intros day t H. destruct (date_parts day H) as [y [m [d [E [V [N [B1 [B2 B3]]]]]]]].
  unfold date_text, read_date. rewrite E, <- !app_assoc.
  rewrite number_padded by (cbn; lia). rewrite expect_str.
  rewrite number_padded by (cbn; lia). rewrite expect_str.
  rewrite number_padded by (cbn; lia).
  rewrite days_from_civil_ok by exact B2. rewrite <- N, E, !Z.eqb_refl.
  replace (1 <=? m) with true by lia. replace (m <=? 12) with true by lia. reflexivity.
Qed.

(** ** Instants *)

Lemma fraction_text_written : forall f, 0 <= f < 10 ^ 9 -> fraction_written (fraction_text f) f.
Proof.
  intros f H. unfold fraction_text. destruct (Z.eqb_spec f 0) as [->|N]; [left; split; reflexivity|].
  right. destruct (Z.eqb_spec (f mod 1000) 0) as [E|N'].
  - left. exists (zero_padded 6 (f / 1000)), (f / 1000). split; [reflexivity|].
    pose proof (Z.div_mod f 1000 ltac:(lia)). split; [|lia]. apply padded_digits.
    split; [apply Z.div_pos; lia|]. apply Z.div_lt_upper_bound; [lia|]. cbn in *. lia.
  - right. exists (zero_padded 9 f). split; [reflexivity|]. apply padded_digits. cbn in *. lia.
Qed.

Lemma digit_of_plus : forall w n t, (w < 9)%nat -> 0 <= n < 10 ^ Z.of_nat w ->
  number 9 (zero_padded w n ++ str "+00:00" ++ t) = None.
Proof.
  intros w n t L H. unfold number. replace 9%nat with (w + S (8 - w))%nat by lia.
  rewrite number_from_app by exact H. reflexivity.
Qed.

Lemma read_fraction_text : forall f, 0 <= f < 10 ^ 9 ->
  read_fraction (fraction_text f ++ str "+00:00") = Some (f, str "+00:00").
Proof.
  intros f H. unfold fraction_text. destruct (Z.eqb_spec f 0) as [->|N]; [reflexivity|].
  destruct (Z.eqb_spec (f mod 1000) 0) as [E|N']; unfold read_fraction; rewrite <- app_assoc, expect_str.
  - assert (B : 0 <= f / 1000 < 10 ^ Z.of_nat 6).
    { split; [apply Z.div_pos; lia|]. apply Z.div_lt_upper_bound; [lia|]. cbn in *. lia. }
    pose proof (digit_of_plus 6 (f / 1000) [] ltac:(lia) B) as Q. rewrite app_nil_r in Q. rewrite Q.
    rewrite number_padded by exact B. pose proof (Z.div_mod f 1000 ltac:(lia)). do 2 f_equal. lia.
  - rewrite number_padded by (cbn in *; lia). reflexivity.
Qed.

Lemma clock_parts : forall ts, let nanos := ts - midnight (day_of ts) in
  let s := nanos / NANOS_PER_SECOND in
  0 <= nanos mod NANOS_PER_SECOND < 10 ^ 9 /\ 0 <= s / 3600 < 24 /\ 0 <= s / 60 mod 60 < 60 /\ 0 <= s mod 60 < 60 /\
  nanos = ((s / 3600 * 60 + s / 60 mod 60) * 60 + s mod 60) * NANOS_PER_SECOND + nanos mod NANOS_PER_SECOND.
Proof.
  intros ts nanos s.
  assert (B : 0 <= nanos < NANOS_PER_DAY).
  { unfold nanos, midnight, day_of. pose proof (Z.div_mod ts NANOS_PER_DAY ltac:(discriminate)).
    pose proof (Z.mod_pos_bound ts NANOS_PER_DAY ltac:(reflexivity)). lia. }
  clearbody nanos. change NANOS_PER_DAY with 86400000000000 in B. unfold s, NANOS_PER_SECOND. clear s.
  pose proof (Z.mod_pos_bound nanos 1000000000 ltac:(lia)). pose proof (Z.div_mod nanos 1000000000 ltac:(lia)).
  set (s := nanos / 1000000000) in *. set (f := nanos mod 1000000000) in *. clearbody s f.
  assert (0 <= s < 86400) by lia.
  pose proof (Z.mod_pos_bound s 60 ltac:(lia)). pose proof (Z.div_mod s 60 ltac:(lia)).
  pose proof (Z.mod_pos_bound (s / 60) 60 ltac:(lia)). pose proof (Z.div_mod (s / 60) 60 ltac:(lia)).
  assert (E : s / 3600 = s / 60 / 60) by (rewrite Z.div_div by lia; reflexivity).
  rewrite E. set (q := s / 60) in *. set (r := q / 60) in *. clearbody q r.
  change (10 ^ 9) with 1000000000. lia.
Qed.

Lemma timestamp_text_written : forall ts, year_fits (day_of ts) -> instant_written (timestamp_text ts) ts.
Proof.
  intros ts H. destruct (clock_parts ts) as [B1 [B2 [B3 [B4 E]]]]. cbv zeta in *.
  unfold timestamp_text. set (nanos := ts - midnight (day_of ts)) in *. set (s := nanos / NANOS_PER_SECOND) in *.
  exists (day_of ts), (s / 3600), (s / 60 mod 60), (s mod 60), (nanos mod NANOS_PER_SECOND),
    (date_text (day_of ts)), (zero_padded 2 (s / 3600)), (zero_padded 2 (s / 60 mod 60)), (zero_padded 2 (s mod 60)),
    (fraction_text (nanos mod NANOS_PER_SECOND)).
  split; [reflexivity|]. split; [apply date_text_written; exact H|].
  split; [apply padded_digits; cbn; lia|]. split; [apply padded_digits; cbn; lia|].
  split; [apply padded_digits; cbn; lia|]. split; [apply fraction_text_written; exact B1|].
  split; [lia|]. split; [lia|]. split; [lia|].
  assert (F : ts = midnight (day_of ts) + nanos) by (unfold nanos; lia).
  rewrite F at 1. rewrite E at 1. unfold midnight. change NANOS_PER_DAY with 86400000000000. change NANOS_PER_SECOND with 1000000000. lia.
Qed.

Lemma read_timestamp_text : forall ts, year_fits (day_of ts) -> read_timestamp (timestamp_text ts) = Ok ts.
Proof.
  intros ts H. destruct (clock_parts ts) as [B1 [B2 [B3 [B4 E]]]]. cbv zeta in *.
  unfold timestamp_text. set (nanos := ts - midnight (day_of ts)) in *. set (s := nanos / NANOS_PER_SECOND) in *.
  unfold read_timestamp. rewrite read_date_text by exact H.
  set (rest := str " " ++ _). assert (R : read_clock rest = Some nanos).
  { unfold rest, read_clock. rewrite expect_str, number_padded by (cbn; lia). rewrite expect_str, number_padded by (cbn; lia).
    rewrite expect_str, number_padded by (cbn; lia). rewrite read_fraction_text by exact B1.
    cbn [read_offset str list_ascii_of_string].
    replace (s / 3600 <? 24) with true by lia. replace (s / 60 mod 60 <? 60) with true by lia.
    replace (s mod 60 <? 60) with true by lia. cbn. f_equal. symmetry. exact E. }
  clearbody rest. destruct rest as [|a rest']; [discriminate R|]. rewrite R. f_equal. unfold nanos. lia.
Qed.

Lemma read_date_alone : forall day, year_fits day -> read_timestamp (date_text day) = Ok (midnight day).
Proof.
  intros day H. unfold read_timestamp. rewrite <- (app_nil_r (date_text day)).
  rewrite read_date_text by exact H. reflexivity.
Qed.

(** ** Lines *)

Definition plain (t : text) : Prop := ~ In ","%char t /\ ~ In newline t.

Lemma plain_app : forall a b, plain a -> plain b -> plain (a ++ b).
Proof. intros a b [A1 A2] [B1 B2]. split; rewrite in_app_iff; tauto. Qed.

Lemma plain_padded : forall w n, plain (zero_padded w n).
Proof.
  induction w as [|w IH]; intros n; [split; intros []|]. cbn [zero_padded]. apply plain_app; [apply IH|].
  pose proof (Z.mod_pos_bound n 10 ltac:(lia)) as B. set (d := n mod 10) in *. clearbody d.
  assert (K : d = 0 \/ d = 1 \/ d = 2 \/ d = 3 \/ d = 4 \/ d = 5 \/ d = 6 \/ d = 7 \/ d = 8 \/ d = 9) by lia.
  repeat (destruct K as [->|K]; [split; intros [Q|[]]; discriminate Q|]). subst d. split; intros [Q|[]]; discriminate Q.
Qed.

Lemma plain_str : forall s, existsb (fun a => Ascii.eqb a "," || Ascii.eqb a newline) (str s) = false -> plain (str s).
Proof.
  intros s H. rewrite <- Bool.not_true_iff_false, existsb_exists in H.
  split; intros Q; apply H; eexists; (split; [exact Q|reflexivity]).
Qed.

Lemma plain_date : forall day, plain (date_text day).
Proof.
  intros day. unfold date_text. destruct (civil_from_days day) as [[y m] d].
  repeat (apply plain_app; [apply plain_padded|]; apply plain_app; [apply plain_str; reflexivity|]).
  apply plain_padded.
Qed.

Lemma plain_timestamp : forall ts, plain (timestamp_text ts).
Proof.
  intros ts. unfold timestamp_text. apply plain_app; [apply plain_date|]. apply plain_app; [apply plain_str; reflexivity|].
  do 2 (apply plain_app; [apply plain_padded|]; apply plain_app; [apply plain_str; reflexivity|]).
  apply plain_app; [apply plain_padded|]. apply plain_app; [|apply plain_str; reflexivity].
  unfold fraction_text. destruct (_ =? 0); [split; intros []|].
  destruct (_ =? 0); (apply plain_app; [apply plain_str; reflexivity|apply plain_padded]).
Qed.

Lemma split_word : forall w acc t, ~ In ","%char w ->
  split_from "," acc (w ++ str "," ++ t) = (acc ++ w) :: split_from "," [] t.
Proof.
  induction w as [|a w IH]; intros acc t H.
  - cbn. rewrite app_nil_r. reflexivity.
  - cbn [app split_from]. destruct (Ascii.eqb_spec a ",") as [->|N]; [exfalso; apply H; left; reflexivity|].
    rewrite IH by (intros Q; apply H; right; exact Q). rewrite <- app_assoc. reflexivity.
Qed.

Lemma split_last : forall w acc, ~ In ","%char w -> split_from "," acc w = [acc ++ w].
Proof.
  induction w as [|a w IH]; intros acc H.
  - cbn. rewrite app_nil_r. reflexivity.
  - cbn [split_from]. destruct (Ascii.eqb_spec a ",") as [->|N]; [exfalso; apply H; left; reflexivity|].
    rewrite IH by (intros Q; apply H; right; exact Q). rewrite <- app_assoc. reflexivity.
Qed.

Lemma lines_back : forall ls, (forall l, In l ls -> ~ In newline l) -> splitlines (concat (map println ls)) = ls.
Proof.
  assert (A : forall l acc t, ~ In newline l -> splitlines_from acc (println l ++ t) = (acc ++ l) :: splitlines_from [] t).
  { unfold println. induction l as [|a l IH]; intros acc t H.
    - cbn. rewrite app_nil_r. reflexivity.
    - cbn [app splitlines_from]. destruct (Ascii.eqb_spec a newline) as [->|N]; [exfalso; apply H; left; reflexivity|].
      rewrite IH by (intros Q; apply H; right; exact Q). rewrite <- app_assoc. reflexivity. }
  unfold splitlines. induction ls as [|l ls IH]; intros H; [reflexivity|]. cbn [map concat].
  rewrite A by (apply H; left; reflexivity). cbn [app]. f_equal. apply IH. intros k Hk. apply H. right. exact Hk.
Qed.

Lemma row_plain : forall label row, ~ In newline (csv_row label row) /\ csv_row label row <> [].
Proof.
  intros label row. unfold csv_row. split.
  - rewrite !in_app_iff. intros [H|[H|[H|[H|H]]]].
    + apply (proj2 (plain_date _) H).
    + destruct H as [H|[]]. discriminate H.
    + apply (proj2 (plain_timestamp _) H).
    + destruct H as [H|[]]. discriminate H.
    + apply (proj2 (plain_timestamp _) H).
  - intros H. apply (f_equal (@length ascii)) in H. rewrite !app_length in H. cbn in H. lia.
Qed.

Definition fits_row (r : Z * (Z * Z)) : Prop := let '(l, (o, c)) := r in
  (NANOS_PER_DAY | l) /\ year_fits (day_of l) /\ year_fits (day_of o) /\ year_fits (day_of c).

Lemma read_row_back : forall l o c, fits_row (l, (o, c)) -> read_row (csv_row l (o, c)) = Ok (l, (o, c)).
Proof.
  intros l o c [D [F1 [F2 F3]]]. unfold csv_row, read_row. cbn [fst snd].
  rewrite split_word by apply plain_date. rewrite split_word by apply plain_timestamp.
  rewrite split_last by apply plain_timestamp. cbn [app].
  rewrite read_date_alone by exact F1. cbn [bind]. rewrite read_timestamp_text by exact F2. cbn [bind].
  rewrite read_timestamp_text by exact F3. cbn [bind].
  destruct D as [k ->]. unfold midnight, day_of. rewrite Z.div_mul by discriminate. reflexivity.
Qed.

Lemma read_rows_back : forall rows, Forall fits_row rows ->
  read_rows (csv_rows (map fst rows) (map snd rows)) = Ok rows.
Proof.
  induction rows as [|[l [o c]] rows IH]; intros H; [reflexivity|]. inversion H as [|x xs H1 H2]; subst.
  cbn [map csv_rows read_rows fst snd]. rewrite read_row_back by exact H1. cbn [bind].
  rewrite IH by exact H2. reflexivity.
Qed.

Lemma header_line : ~ In newline csv_header.
Proof. vm_compute. intuition discriminate. Qed.

(** ** C89: the file *)

Lemma day_fits : forall t, - 2 ^ 63 < t < 2 ^ 63 -> year_fits (day_of t).
Proof.
  intros t H. unfold year_fits, day_of. change (date_number 0 1 1) with (-719528).
  change (date_number 10000 1 1) with 2932897. change NANOS_PER_DAY with 86400000000000.
  change (2 ^ 63) with 9223372036854775808 in H. split.
  - apply Z.div_le_lower_bound; lia.
  - apply Z.div_lt_upper_bound; lia.
Qed.

Lemma columns : forall c ss, has_schedule c ss ->
  sessions c = map s_label ss /\ opens c = map s_open ss /\ closes c = map s_close ss.
Proof.
  intros c ss H. unfold has_schedule, make_calendar in H.
  destruct (nats_match _ _); [|discriminate H]. destruct (Helpers.compute_all_minutes _ _ _ _); [|discriminate H].
  cbn [bind] in H. injection H as <-. repeat split.
Qed.

Lemma zip_map : forall (ss : list session),
  combine (map s_open ss) (map s_close ss) = map (fun s => (s_open s, s_close s)) ss.
Proof. induction ss as [|s ss IH]; [reflexivity|]. cbn. f_equal. exact IH. Qed.

Definition row_of (s : session) : Z * (Z * Z) := (s_label s, (s_open s, s_close s)).

Lemma file_rows : forall c ss, has_schedule c ss -> csv_file c =
  concat (map println (csv_header :: csv_rows (map fst (map row_of ss)) (map snd (map row_of ss)))).
Proof.
  intros c ss H. destruct (columns c ss H) as [E1 [E2 E3]]. unfold csv_file. rewrite E1, E2, E3, zip_map, !map_map.
  reflexivity.
Qed.

(** The file has the header and then, in order, a line for each session with its date,
    its open and its close. *)
Theorem c89_file : forall ss c, has_schedule c ss -> Forall fits_file ss ->
  exists ls, csv_file c = concat (map (fun l => l ++ ["010"%char]) (chars ",market_open,market_close" :: ls)) /\
    Forall2 line_of ss ls.
Proof.
  intros ss c H F. rewrite (file_rows c ss H).
  exists (csv_rows (map fst (map row_of ss)) (map snd (map row_of ss))). split; [reflexivity|].
  clear H. induction F as [|s ss [F1 [F2 [F3 F4]]] _ IH]; cbn [map csv_rows fst snd row_of]; constructor; [|exact IH].
  exists (date_text (day_of (s_label s))), (timestamp_text (s_open s)), (timestamp_text (s_close s)).
  split; [reflexivity|]. split; [apply date_text_written, day_fits, F1|].
  split; apply timestamp_text_written, day_fits; assumption.
Qed.

Lemma rows_not_empty : forall rows, filter not_blank
    (csv_rows (map fst rows) (map snd rows)) = csv_rows (map fst rows) (map snd rows) /\
  (forall l, In l (csv_rows (map fst rows) (map snd rows)) -> ~ In newline l).
Proof.
  induction rows as [|[l r] rows [I1 I2]]; [split; [reflexivity|intros l []]|]. cbn [map csv_rows fst snd].
  destruct (row_plain l r) as [P1 P2]. split.
  - cbn [filter]. unfold not_blank at 1. destruct (csv_row l r) eqn:E; [contradiction|]. rewrite I1. reflexivity.
  - intros x [<-|H]; [exact P1|apply I2, H].
Qed.

(** Reading the file gives back the sessions, their opens and their closes. *)
Theorem c89_recorded : forall ss c, has_schedule c ss -> Forall fits_file ss ->
  load_answer_key (csv_file c) = Ok (map (fun s => (s_label s, (s_open s, s_close s))) ss).
Proof.
  intros ss c H F. rewrite (file_rows c ss H). unfold load_answer_key.
  destruct (rows_not_empty (map row_of ss)) as [R1 R2].
  rewrite lines_back.
  - change (filter _ (csv_header :: ?x)) with (csv_header :: filter not_blank x).
    rewrite R1. apply read_rows_back. apply Forall_map. revert F. apply Forall_impl.
    intros s [F1 [F2 [F3 F4]]]. unfold row_of, fits_row.
    split; [exact F2|]. split; [apply day_fits, F1|]. split; apply day_fits; assumption.
  - intros l [<-|Hl]; [apply header_line|apply R2, Hl].
Qed.

(** So the file determines the sessions, the opens and the closes. *)
Theorem c89_distinct : forall ss1 c1 ss2 c2, has_schedule c1 ss1 -> has_schedule c2 ss2 ->
  Forall fits_file ss1 -> Forall fits_file ss2 ->
  (csv_file c1 = csv_file c2 <->
   sessions c1 = sessions c2 /\ opens c1 = opens c2 /\ closes c1 = closes c2).
Proof.
  intros ss1 c1 ss2 c2 H1 H2 F1 F2. split.
  - intros E. pose proof (c89_recorded ss1 c1 H1 F1) as Q1. rewrite E, (c89_recorded ss2 c2 H2 F2) in Q1.
    injection Q1 as Q. destruct (columns c1 ss1 H1) as [-> [-> ->]]. destruct (columns c2 ss2 H2) as [-> [-> ->]].
    assert (P : forall (g : Z * (Z * Z) -> Z) (f : session -> Z), (forall s, g (row_of s) = f s) -> map f ss1 = map f ss2).
    { intros g f G. apply (f_equal (map g)) in Q. rewrite !map_map in Q.
      rewrite <- (map_ext _ _ G ss1), <- (map_ext _ _ G ss2). symmetry. exact Q. }
    split; [apply (P fst); reflexivity|]. split; [apply (P (fun r => fst (snd r))); reflexivity|].
    apply (P (fun r => snd (snd r))); reflexivity.
  - intros [E1 [E2 E3]]. unfold csv_file. rewrite E1, E2, E3. reflexivity.
Qed.

(** ** C89: every form that occurs is read as the instant it denotes *)

Lemma numeral_read : forall t n, numeral t n -> forall a acc r,
  number_from (length t + a) acc (t ++ r) = number_from a (10 ^ Z.of_nat (length t) * acc + n) r.
Proof.
  induction 1 as [|t n d c H IH Hd]; intros a acc r.
  - cbn [length app Nat.add]. f_equal. lia.
  - rewrite app_length. cbn [length]. rewrite <- app_assoc. replace (length t + 1 + a)%nat with (length t + S a)%nat by lia.
    rewrite IH. cbn [app number_from].
    assert (Hc : digit_of c = Some (Z.of_nat d)).
    { do 10 (destruct d as [|d]; [cbn in Hd; injection Hd as <-; reflexivity|]). destruct d; discriminate Hd. }
    rewrite Hc. f_equal. rewrite Nat2Z.inj_add, Z.pow_add_r by lia.
    change (10 ^ Z.of_nat 1) with 10. ring.
Qed.

Lemma digits_read : forall w t n r, digits w t n -> number w (t ++ r) = Some (n, r).
Proof.
  intros w t n r [L H]. unfold number. pose proof (numeral_read t n H 0 0 r) as Q.
  rewrite Nat.add_0_r, L in Q. rewrite Q. cbn [number_from]. do 2 f_equal. lia.
Qed.

Lemma date_read : forall t n r, date_written t n -> read_date (t ++ r) = Some (n, r).
Proof.
  intros t n r [y [m [d [ty [tm [td [-> [Dy [Dm [Dd [V ->]]]]]]]]]]].
  unfold read_date, chars. rewrite <- !app_assoc.
  rewrite (digits_read _ _ _ _ Dy). change list_ascii_of_string with str. rewrite expect_str.
  rewrite (digits_read _ _ _ _ Dm), expect_str, (digits_read _ _ _ _ Dd).
  rewrite days_from_civil_ok by apply V. rewrite civil_of_number by exact V. rewrite !Z.eqb_refl.
  destruct V as [V _]. replace (1 <=? m) with true by lia. replace (m <=? 12) with true by lia. reflexivity.
Qed.

Lemma fraction_read : forall t f r, fraction_written t f -> r = [] \/ r = str "+00:00" ->
  read_fraction (t ++ r) = Some (f, r).
Proof.
  intros t f r H R. destruct H as [[-> ->]|[[tf [us [-> [D ->]]]]|[tf [-> D]]]].
  - destruct R as [->| ->]; reflexivity.
  - unfold read_fraction, chars. change list_ascii_of_string with str. rewrite <- app_assoc, expect_str.
    assert (N : number 9 (tf ++ r) = None).
    { destruct D as [L D]. unfold number. pose proof (numeral_read tf us D 3 0 r) as Q. rewrite L in Q.
      cbn [Nat.add] in Q. rewrite Q. destruct R as [->| ->]; reflexivity. }
    rewrite N, (digits_read _ _ _ _ D). reflexivity.
  - unfold read_fraction, chars. change list_ascii_of_string with str. rewrite <- app_assoc, expect_str.
    rewrite (digits_read _ _ _ _ D). reflexivity.
Qed.

Lemma instant_read : forall offset t u, offset = [] \/ offset = str "+00:00" -> instant_with offset t u ->
  read_timestamp t = Ok u.
Proof.
  intros offset t u R [n [h [m [s [f [td [th [tm [ts [tf [-> [D [Dh [Dm [Ds [Df [Bh [Bm [Bs ->]]]]]]]]]]]]]]]]]]].
  unfold read_timestamp, chars. change list_ascii_of_string with str. rewrite (date_read _ _ _ D).
  set (rest := str " " ++ _). assert (Q : read_clock rest = Some (((h * 60 + m) * 60 + s) * NANOS_PER_SECOND + f)).
  { unfold rest, read_clock. rewrite expect_str, (digits_read _ _ _ _ Dh), expect_str, (digits_read _ _ _ _ Dm).
    rewrite expect_str, (digits_read _ _ _ _ Ds), (fraction_read _ _ _ Df R).
    replace (h <? 24) with true by lia. replace (m <? 60) with true by lia. replace (s <? 60) with true by lia.
    destruct R as [->| ->]; reflexivity. }
  clearbody rest. destruct rest as [|a rest']; [discriminate Q|]. rewrite Q. f_equal.
  unfold midnight. change NANOS_PER_DAY with 86400000000000. change NANOS_PER_SECOND with 1000000000. lia.
Qed.

Theorem c89_reads : forall t u, timestamp_written t u -> read_timestamp t = Ok u.
Proof.
  intros t u [[n [D ->]]|[H|H]].
  - unfold read_timestamp. rewrite <- (app_nil_r t), (date_read _ _ _ D). reflexivity.
  - apply (instant_read (str "+00:00")); [right; reflexivity|exact H].
  - apply (instant_read []); [left; reflexivity|exact H].
Qed.

(** ** C89: the calendar of the tests *)

Lemma last_In : forall l (x : Z), l <> [] -> In (last l x) l.
Proof.
  induction l as [|a l IH]; intros x H; [contradiction|]. destruct l as [|b l]; [left; reflexivity|].
  right. apply (IH x). discriminate.
Qed.

Lemma sorted_last : forall l d x, Sorted.StronglySorted Z.lt l -> In x l -> x <= last l d.
Proof.
  induction l as [|a l IH]; intros d x S H; [destruct H|]. inversion S as [|y ys S' F]; subst.
  destruct l as [|b l].
  - destruct H as [<-|[]]. cbn. lia.
  - change (last (a :: b :: l) d) with (last (b :: l) d). destruct H as [<-|H]; [|apply IH; assumption].
    rewrite Forall_forall in F. pose proof (F b (or_introl eq_refl)). pose proof (IH d b S' (or_introl eq_refl)). lia.
Qed.

Lemma sorted_first : forall l a x, Sorted.StronglySorted Z.lt (a :: l) -> In x (a :: l) -> a <= x.
Proof.
  intros l a x S [<-|H]; [lia|]. inversion S as [|y ys S' F]; subst. rewrite Forall_forall in F.
  pose proof (F x H). lia.
Qed.

(** Of an exchange over any range for which its calendar can be made: the recorded
    schedule can be read, the calendar can be made again from the first to the last
    recorded date, it has exactly the recorded sessions, and away from the ends the
    recorded opens and closes. *)
Theorem c89_rebuilt : forall name E z lo start stop, In (name, E) exchanges ->
  clocks_suit E z lo -> at_midnight_of lo <= start -> not_a_time + 2 * one_day < start ->
  is_midnight start -> (exists n, start <= at_midnight_of n <= stop /\ trades name E n) ->
  (forall n, In n (conflict_days name) -> ~ start <= at_midnight_of n <= stop) ->
  exists b ss, build_exchange E z start stop = Ok b /\ has_schedule (cal b) ss /\
    (Forall fits_file ss -> exists rows first final b',
       load_answer_key (csv_file (cal b)) = Ok rows /\ answer_range rows = Ok (first, final) /\
       build_exchange E z first final = Ok b' /\ sessions (cal b') = map fst rows /\
       (forall x o c, In (x, (o, c)) rows -> first + one_day <= x -> x + 2 * one_day <= final ->
          session_open (cal b') x = Ok o /\ session_close (cal b') x = Ok c)).
Proof.
  intros name E z lo start stop H Hc Hlo Hn M T Hbad.
  destruct (c53_constructed name E z lo start stop H Hc Hlo Hn M T Hbad) as [b [ss [Hb [Hs [Hw [Hl _]]]]]].
  exists b, ss. split; [exact Hb|]. split; [exact Hs|]. intros F.
  destruct (columns (cal b) ss Hs) as [C1 [C2 C3]].
  destruct (c51_sessions name E z start stop b H M Hb) as [[S1 S2] _].
  assert (Ne : ss <> []).
  { intros ->. destruct T as [n [Rn Tn]]. assert (Q : In (at_midnight_of n) (sessions (cal b))).
    { apply S2. exists n. split; [reflexivity|]. split; [exact Rn|exact Tn]. }
    rewrite C1 in Q. destruct Q. }
  destruct ss as [|s0 ss']; [contradiction|].
  set (first := s_label s0). set (final := last (map s_label (s0 :: ss')) first).
  assert (I1 : In first (sessions (cal b))) by (rewrite C1; left; reflexivity).
  assert (I2 : In final (sessions (cal b))).
  { rewrite C1. apply last_In. discriminate. }
  pose proof (proj1 (S2 first) I1) as [n1 [N1 [R1 T1]]]. pose proof (proj1 (S2 final) I2) as [n2 [N2 [R2 T2]]].
  assert (Le : first <= final).
  { apply (sorted_last (map s_label (s0 :: ss')) first first); [rewrite <- C1; exact S1|left; reflexivity]. }
  assert (M' : is_midnight first) by (rewrite N1; apply is_midnight_at; eauto).
  destruct (c53_constructed name E z lo first final H Hc ltac:(lia) ltac:(lia) M') as [b' [ss2 [Hb' [Hs' [Hw' [Hl' _]]]]]].
  { exists n1. rewrite <- N1. split; [lia|exact T1]. }
  { intros n Hi Hr. apply (Hbad n Hi). lia. }
  assert (Es : sessions (cal b') = sessions (cal b)).
  { destruct (c51_sessions name E z first final b' H M' Hb') as [L' _].
    eapply lists_exactly_unique; [exact L'|split; [exact S1|exact S2]|].
    intros x. split.
    - intros [n [En [Rn Tn]]]. exists n. split; [exact En|]. split; [lia|exact Tn].
    - intros Hx. pose proof Hx as Hi. apply S2 in Hi. destruct Hx as [n [En [Rn Tn]]]. exists n. split; [exact En|].
      split; [|exact Tn]. rewrite C1 in Hi, S1. split.
      + apply (sorted_first (map s_label ss') first); [exact S1|exact Hi].
      + apply sorted_last; [exact S1|exact Hi]. }
  exists (map (fun s => (s_label s, (s_open s, s_close s))) (s0 :: ss')), first, final, b'.
  split; [apply c89_recorded; assumption|]. split.
  { unfold answer_range. cbn [map]. f_equal. f_equal. unfold final. cbn [map]. rewrite map_map. reflexivity. }
  split; [exact Hb'|]. split.
  { rewrite Es, C1, map_map. reflexivity. }
  intros x o c Hx B1 B2. apply in_map_iff in Hx. destruct Hx as [s [Ex Hi]]. injection Ex as <- <- <-.
  assert (Hi' : In (s_label s) (sessions (cal b))) by (rewrite C1; apply in_map; exact Hi).
  apply S2 in Hi'. destruct Hi' as [n [En [Rn Tn]]]. rewrite En.
  assert (D1 : at_midnight_of (n - 1) = at_midnight_of n - one_day) by (unfold at_midnight_of; ring).
  assert (D2 : at_midnight_of (n + 2) = at_midnight_of n + 2 * one_day) by (unfold at_midnight_of; ring).
  destruct (c52_same_times name E z first final start stop b' b n H (proj1 Hc)) as [Q1 [Q2 _]]; try assumption; try lia.
  rewrite Q1, Q2, <- En. destruct (c22_accessors _ _ _ Hw Hs Hi) as [A1 [A2 _]]. split; assumption.
Qed.

(** But at the end they may differ: if the last recorded session closed early, the
    calendar made again closes it at the regular time. *)
Theorem c89_last_day_refuted : forall name E H z start stop b b' n c u, In (name, E) exchanges ->
  In (name, H) timetable -> good_zone z -> not_a_time + 2 * one_day < start -> is_midnight start ->
  early_closing H n c -> instant_of z (local_time (at_midnight_of n) 0 (time_of c)) u ->
  start <= at_midnight_of n < u -> u <= stop ->
  build_exchange E z start stop = Ok b -> build_exchange E z start (at_midnight_of n) = Ok b' ->
  session_close (cal b) (at_midnight_of n) = Ok u /\ In (at_midnight_of n) (early_closes b) /\
  ~ In (at_midnight_of n) (early_closes b') /\
  exists k v, closing H n k /\ instant_of z (local_time (at_midnight_of n) 0 (time_of k)) v /\
    session_close (cal b') (at_midnight_of n) = Ok v.
Proof.
  intros name E H z start stop b b' n c u HE HH Hz Hr M1 Hc Hu R1 R2 Hb Hb'.
  pose proof (the_hours name E H HE HH) as M.
  destruct (c59_early_close name E H z start stop b n c u HE HH Hz Hr M1 Hb ltac:(lia) Hc Hu ltac:(lia)) as [_ [Q _]].
  destruct (c52_special_close name E z start stop b n (time_of c) u HE Hz Hr M1 Hb ltac:(lia)
    (proj2 (closing_iff E H n M) c Hc) Hu ltac:(lia)) as [T _].
  split; [exact Q|].
  split. { apply (c59_early_closes name E H z start stop b HE HH Hz Hr M1 Hb). exists n, c, u.
    split; [reflexivity|]. split; [lia|]. split; [exact Hc|]. split; [exact Hu|lia]. }
  assert (N : forall c' u', early_closing H n c' -> instant_of z (local_time (at_midnight_of n) 0 (time_of c')) u' -> u' = u).
  { intros c' u' Hc' Hu'. destruct (venue_agree E _ (the_ok name E HE)) as [_ V2].
    apply (special_moment_unique _ _ z u' u' u u n u' u V2).
    - exists (time_of c'). split; [apply (proj2 (closing_iff E H n M)), Hc'|]. split; [exact Hu'|lia].
    - exists (time_of c). split; [apply (proj2 (closing_iff E H n M)), Hc|]. split; [exact Hu|lia]. }
  split.
  - intros I. apply (c59_early_closes name E H z start _ b' HE HH Hz Hr M1 Hb') in I.
    destruct I as [n' [c' [u' [En [_ [Hc' [Hu' B]]]]]]]. apply at_midnight_inj in En. subst n'.
    pose proof (N c' u' Hc' Hu'). lia.
  - destruct (times_of_day name E z start _ b' n HE Hz Hr M1 Hb' ltac:(lia) T)
      as [o [v [bs [be [_ [_ [Q2 [F2 _]]]]]]]].
    destruct F2 as [[t [A [B C]]]|[_ [t [A B]]]].
    + exfalso. destruct (proj1 (closing_iff E H n M) t A) as [c' [-> Hc']]. pose proof (N c' v Hc' B). lia.
    + destruct (m_closing E H M n t A) as [k [Hk ->]]. exists k, v. rewrite (m_same_day E H M) in B. tauto.
Qed.

(** ** C89: names *)

Lemma lower_inj : forall a b, lower_char a = lower_char b <-> upper_char a = upper_char b.
Proof.
  assert (L : forall a, lower_char (upper_char a) = lower_char a).
  { intros [[] [] [] [] [] [] [] []]; reflexivity. }
  assert (U : forall a, upper_char (lower_char a) = upper_char a).
  { intros [[] [] [] [] [] [] [] []]; reflexivity. }
  intros a b. split; intros H; [rewrite <- (U a), <- (U b)|rewrite <- (L a), <- (L b)]; f_equal; exact H.
Qed.

Lemma lower_upper : forall s t, lower s = lower t <-> upper s = upper t.
Proof.
  unfold lower, upper. induction s as [|a s IH]; intros [|b t]; cbn [map_string]; try (split; discriminate).
  - split; reflexivity.
  - split; intros H; injection H as H1 H2.
    + apply lower_inj in H1. apply IH in H2. congruence.
    + apply lower_inj in H1. apply IH in H2. congruence.
Qed.

Lemma app_string_inj : forall p s t q, (p ++ s ++ q)%string = (p ++ t ++ q)%string -> s = t.
Proof.
  induction p as [|a p IH]; intros s t q H.
  - cbn [String.append] in H. apply (f_equal list_ascii_of_string) in H.
    assert (A : forall x y, list_ascii_of_string (x ++ y) = list_ascii_of_string x ++ list_ascii_of_string y).
    { clear. induction x as [|c x IH]; intros y; [reflexivity|]. cbn. f_equal. apply IH. }
    rewrite !A in H. apply app_inv_tail in H.
    rewrite <- (string_of_list_ascii_of_string s), <- (string_of_list_ascii_of_string t), H. reflexivity.
  - injection H as H. apply (IH _ _ _ H).
Qed.

(** Two runs write the same file if and only if they ask for the same calendar: a file
    is never overwritten with the schedule of another name, and how the name is
    capitalised does not matter. *)
Theorem c89_same_file : forall s t, destination s = destination t <-> upper s = upper t.
Proof.
  intros s t. unfold destination. rewrite <- lower_upper. split; [apply app_string_inj|intros ->; reflexivity].
Qed.

Theorem c89_capitals : forall build contents d s t, upper s = upper t ->
  make_test_csv build contents d s = make_test_csv build contents d t.
Proof.
  intros build contents d s t H. unfold make_test_csv. apply c89_same_file in H as D.
  rewrite H. destruct (get_calendar build d (upper t)) as [[i|e] d']; [rewrite D|]; reflexivity.
Qed.

(** Every default name and alias but us_futures can be recorded, typed as it is or in
    small letters: the file holds the schedule of the calendar that name stands for. *)
Theorem c89_typed : forall build contents n i d', In n (get_calendar_names global_calendar_dispatcher) ->
  n <> "us_futures"%string -> get_calendar build global_calendar_dispatcher n = (Returns i, d') ->
  forall typed, typed = n \/ typed = lower n ->
  make_test_csv build contents global_calendar_dispatcher typed =
    Returns (("tests/resources/" ++ lower n ++ ".csv")%string, csv_file (contents i)).
Proof.
  intros build contents n i d' Hn Hu Hg typed Ht.
  assert (U : upper n = n /\ upper (lower n) = n).
  { assert (Q : forallb (fun n => String.eqb n "us_futures" || (String.eqb (upper n) n && String.eqb (upper (lower n)) n))
      (get_calendar_names global_calendar_dispatcher) = true) by (vm_compute; reflexivity).
    rewrite forallb_forall in Q. specialize (Q n Hn). rewrite orb_true_iff, andb_true_iff, !String.eqb_eq in Q. tauto. }
  destruct U as [U1 U2].
  assert (Ut : upper typed = n) by (destruct Ht as [->| ->]; assumption).
  unfold make_test_csv. rewrite Ut, Hg. do 2 f_equal. unfold destination. do 2 f_equal. apply lower_upper. congruence.
Qed.

(** The futures calendar cannot be recorded: no argument asks for it, and its own name
    is refused however it is capitalised. *)
Theorem c89_us_futures_refuted : In "us_futures"%string (get_calendar_names global_calendar_dispatcher) /\
  (forall typed, upper typed <> "us_futures"%string) /\
  (forall typed, resolve_alias global_calendar_dispatcher (upper typed) <> Returns "us_futures"%string) /\
  (forall build contents typed, upper typed = upper "us_futures" ->
     make_test_csv build contents global_calendar_dispatcher typed = Raises (InvalidCalendarName "US_FUTURES")).
Proof.
  assert (N : forall typed, upper typed <> "us_futures"%string).
  { intros [|a typed] H; [discriminate H|]. unfold upper in H. cbn [map_string] in H. injection H as H _.
    revert H. destruct a as [[] [] [] [] [] [] [] []]; discriminate. }
  split; [vm_compute; tauto|]. split; [exact N|]. split.
  - intros typed H. apply (N typed).
    assert (A : forall n, resolve_alias global_calendar_dispatcher n = Returns "us_futures"%string -> n = "us_futures"%string).
    { intros n. unfold resolve_alias. cbn [resolve_loop].
      destruct (lookup n (aliases global_calendar_dispatcher)) as [m|] eqn:E; [|intros Q; injection Q as ->; reflexivity].
      apply lookup_In in E. assert (V : In m (map snd (aliases global_calendar_dispatcher))).
      { apply in_map_iff. exists (n, m). tauto. }
      destruct (existsb (String.eqb m) ([] ++ [n])); [discriminate|].
      assert (L : lookup m (aliases global_calendar_dispatcher) = None /\ m <> "us_futures"%string).
      { assert (Q : forallb (fun m => negb (mem m (aliases global_calendar_dispatcher)) && negb (String.eqb m "us_futures"))
          (map snd (aliases global_calendar_dispatcher)) = true) by (vm_compute; reflexivity).
        rewrite forallb_forall in Q. specialize (Q m V). rewrite andb_true_iff, !negb_true_iff in Q.
        destruct Q as [Q1 Q2]. split; [|apply String.eqb_neq; exact Q2].
        rewrite mem_lookup in Q1. destruct (lookup m _); [discriminate|reflexivity]. }
      destruct L as [L1 L2]. destruct (List.length (aliases global_calendar_dispatcher)); cbn [resolve_loop];
        rewrite L1; intros Q; injection Q as Q; contradiction. }
    apply A. exact H.
  - intros build contents typed H. unfold make_test_csv. rewrite H. reflexivity.
Qed.

(** The names of the calendars that are always open or open on weekdays contain the
    separator of directories; no other name does. *)
Theorem c89_slash : forall n, In n (get_calendar_names global_calendar_dispatcher) ->
  (In "/"%char (list_ascii_of_string (lower n)) <-> n = "24/7"%string \/ n = "24/5"%string).
Proof.
  assert (Q : forallb (fun n => Bool.eqb (existsb (Ascii.eqb "/") (list_ascii_of_string (lower n)))
      (String.eqb n "24/7" || String.eqb n "24/5")) (get_calendar_names global_calendar_dispatcher) = true)
    by (vm_compute; reflexivity).
  intros n Hn. rewrite forallb_forall in Q. specialize (Q n Hn). apply Bool.eqb_prop in Q.
  rewrite <- !String.eqb_eq, <- orb_true_iff, <- Q, existsb_exists. split.
  - intros H. exists "/"%char. split; [exact H|reflexivity].
  - intros [a [H E]]. apply Ascii.eqb_eq in E. subst a. exact H.
Qed.

(** ** Witnesses *)

(** Hong Kong up to the eve of the lunar New Year 2020. *)
Example c89_last_day_ex : exists H z b b' c u, In ("XHKG"%string, H) timetable /\ good_zone z /\
  early_closing H (date_number 2020 1 24) c /\
  instant_of z (local_time (at_midnight_of (date_number 2020 1 24)) 0 (time_of c)) u /\
  at_midnight_of (date_number 2020 1 24) < u <= at_midnight_of (date_number 2020 12 31) /\
  build_exchange exchange_calendar_xhkg.calendar z (at_midnight_of (date_number 1990 1 1))
    (at_midnight_of (date_number 2020 12 31)) = Ok b /\
  build_exchange exchange_calendar_xhkg.calendar z (at_midnight_of (date_number 1990 1 1))
    (at_midnight_of (date_number 2020 1 24)) = Ok b'.
Proof.
  destruct c58_c59_ex as [H [z [b [HH [Hz [G [Hb [_ [_ [_ [_ [_ [Ec _]]]]]]]]]]]]].
  destruct (c53_default_range 1990 "XHKG" _ (at_midnight_of (date_number 2020 1 24)) (or_introl eq_refl) xhkg_here)
    as [z' [b' [ss [Hz' [Hb' _]]]]].
  - discriminate.
  - apply at_midnight_le. apply Z.leb_le. vm_compute. reflexivity.
  - intros n [].
  - assert (Q : instant_of z (local_time (at_midnight_of (date_number 2020 1 24)) 0 (time_of (12, 0)))
        (at_midnight_of (date_number 2020 1 24) + 240 * one_minute)).
    { apply (shown "Asia/Hong_Kong"); [vm_compute; reflexivity|exact Hz]. }
    assert (z' = z) as ->.
    { change (ex_tz exchange_calendar_xhkg.calendar) with "Asia/Hong_Kong"%string in Hz'.
      assert (U : forall x, In ("Asia/Hong_Kong"%string, x) zones -> x = Asia_Hong_Kong).
      { intros x I. unfold zones in I. cbn [In] in I.
        repeat (destruct I as [I|I]; [first [discriminate I|injection I as <-; reflexivity]|]). destruct I. }
      rewrite (U z Hz), (U z' Hz'). reflexivity. }
    exists H, z, b, b', (12, 0), (at_midnight_of (date_number 2020 1 24) + 240 * one_minute).
    split; [exact HH|]. split; [exact G|]. split; [exact Ec|]. split; [exact Q|].
    split; [split; [apply Z.ltb_lt|apply Z.leb_le]; vm_compute; reflexivity|]. split; assumption.
Qed.

Example c89_ex : exists c,
  has_schedule c [Session (at_midnight_of 18000) (at_midnight_of 18000 + 52200 * 10 ^ 9) None
    (at_midnight_of 18000 + 75600 * 10 ^ 9)] /\
  Forall fits_file [Session (at_midnight_of 18000) (at_midnight_of 18000 + 52200 * 10 ^ 9) None
    (at_midnight_of 18000 + 75600 * 10 ^ 9)] /\
  csv_file c = chars ",market_open,market_close" ++ [newline] ++
    chars "2019-04-14,2019-04-14 14:30:00+00:00,2019-04-14 21:00:00+00:00" ++ [newline].
Proof.
  eexists. split; [vm_compute; reflexivity|]. split; [|vm_compute; reflexivity].
  constructor; [|constructor]. split; [vm_compute; split; reflexivity|]. split; [exists 18000; reflexivity|].
  split; vm_compute; split; reflexivity.
Qed.

(** ** Assumptions *)
Print Assumptions c89_file.
Print Assumptions c89_recorded.
Print Assumptions c89_distinct.
Print Assumptions c89_reads.
Print Assumptions c89_rebuilt.
Print Assumptions c89_last_day_refuted.
Print Assumptions c89_same_file.
Print Assumptions c89_capitals.
Print Assumptions c89_typed.
Print Assumptions c89_us_futures_refuted.
Print Assumptions c89_slash.
