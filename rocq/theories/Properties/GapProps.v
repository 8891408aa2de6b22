(** How long an exchange stays closed (C99). *)
From Coq Require Import ZArith String List Bool Lia Sorting.Sorted.
From Verif.Model Require Import Base Dates Zone Queries Build Holidays Exchange.
From Verif.Spec Require Import Schedule Construction Civil Rules Venue Almanac Gaps.
From Verif.Proofs Require Import BaseLemmas DatesLemmas QueryLemmas RuleLemmas AlmanacLemmas BuildLemmas VenueLemmas PerYearLemmas GapLemmas.
From Verif.Properties Require Import ExchangeProps AlmanacProps PerYearProps.
From Verif.Exchanges Require Import All zones.
Import ListNotations.
Open Scope Z_scope.

Lemma session_free : forall name y0 es E z start stop b n, In (name, y0, es) entries -> In (name, E) exchanges ->
  is_midnight start -> build_exchange E z start stop = Ok b -> start <= at_midnight_of n <= stop ->
  date_number y0 1 1 <= n <= date_number 2200 12 31 ->
  (is_session (cal b) (at_midnight_of n) = true <-> free es n) /\ (In (at_midnight_of n) (sessions (cal b)) <-> free es n).
Proof.
  intros name y0 es E z start stop b n I H M Hb G D.
  pose proof (proj1 (forallb_forall _ _) no_tel_aviv _ I) as NT. cbn [fst snd] in NT.
  pose proof (proj1 (forallb_forall _ _) first_years _ I) as FY. cbn [fst snd] in FY.
  pose proof (proj1 (forallb_forall _ _) closures_before _ H) as CB. cbn [fst snd] in CB.
  destruct (first_year name) as [y1|]; [|discriminate FY]. apply andb_prop in FY. destruct FY as [FY FZ]. apply Z.eqb_eq in FY. subst y1. apply Z.leb_le in FZ.
  assert (N : name <> "XTAE"%string). { intros ->. discriminate NT. }
  assert (KN : known_year n).
  { unfold known_year. split; [|apply D]. apply (Z.le_trans _ (date_number y0 1 1)); [|apply D]. rewrite !january_1.
    destruct (Z.eq_dec 1970 y0) as [<-|Q]; [lia|]. pose proof (year_start_mono 1970 y0 ltac:(lia)). lia. }
  assert (A : is_session (cal b) (at_midnight_of n) = true <-> free es n).
  { rewrite (c57_sessions name E z start stop b n H N M Hb G KN), (closures_agree name y0 es n I (proj1 D)). unfold free. split; [tauto|].
    intros [W C]. split; [exact W|]. split; [exact C|]. intros J. rewrite forallb_forall in CB. specialize (CB n J). apply Z.ltb_lt in CB. lia. }
  split; [exact A|]. rewrite <- A. destruct (c51_sessions name E z start stop b H M Hb) as [[S1 S2] S3]. rewrite (S3 n G), S2. split.
  - intros [n' [E' [_ T]]]. apply at_midnight_inj in E'. subst n'. exact T.
  - intros T. exists n. tauto.
Qed.

(** ** The table *)
Definition freeb (es : list entry) (n : Z) : bool :=
  let y := year_of n in let w := day_of_week (year_start y) in let i := n - year_start y in
  if working w i then negb (existsb (Z.eqb i) (map (position (leap y) w (easter y - year_start y)) es)) else false.
Lemma freeb_free : forall es n, forallb fits es = true -> (freeb es n = true <-> free es n).
Proof.
  intros es n FE. unfold freeb, free. cbv zeta. assert (Y : in_year n (year_of n)) by (apply year_of_ok; reflexivity).
  set (y := year_of n) in *. assert (WK : working (day_of_week (year_start y)) (n - year_start y) = true <-> workday n).
  { unfold working, workday. rewrite Z.ltb_lt, <- dow_add. replace (year_start y + (n - year_start y)) with n by lia. reflexivity. }
  assert (PI : (exists e, In e es /\ days_of e n) <->
    existsb (Z.eqb (n - year_start y)) (map (position (leap y) (day_of_week (year_start y)) (easter y - year_start y)) es) = true).
  { rewrite existsb_exists. rewrite forallb_forall in FE. split.
    - intros [e [J D]]. apply (position_iff e n y (FE e J) Y) in D. exists (n - year_start y). split; [|apply Z.eqb_refl].
      apply in_map_iff. exists e. split; [lia|exact J].
    - intros [i [J Q]]. apply Z.eqb_eq in Q. subst i. apply in_map_iff in J. destruct J as [e [Q J]]. exists e. split; [exact J|].
      apply (position_iff e n y (FE e J) Y). lia. }
  rewrite PI. destruct (working _ _); [|rewrite <- WK; intuition discriminate].
  destruct (existsb _ _); cbn [negb]; intuition.
Qed.
Lemma gaps_ok : forallb (fun r => match r with (name, y0, gap, _) =>
  match entries_of name with
  | Some (y1, es) => (y0 =? y1) && (3 <=? gap) && (gap <=? 9) && forallb (recovers gap es) kinds
  | None => false end end) longest_gap = true.
Proof. vm_compute. reflexivity. Qed.
Lemma gap_days_ok : forallb (fun r => match r with (name, y0, gap, (y, m, d)) =>
  match entries_of name with
  | Some (y1, es) => let n := date_number y m d in
     (date_number y1 1 1 <=? n) && (n + gap <=? date_number 2200 12 31) && freeb es n &&
     forallb (fun i => negb (freeb es i)) (upto (Z.to_nat (gap - 1)) (n + 1))
  | None => false end end) longest_gap = true.
Proof. vm_compute. reflexivity. Qed.

(** ** C99 *)

(** From every session the next one is at most the tabulated number of days away. *)
Theorem c99_next_session : forall name first gap day E z start stop b n,
  In (name, first, gap, day) longest_gap -> In (name, E) exchanges ->
  is_midnight start -> build_exchange E z start stop = Ok b ->
  date_number first 1 1 <= n -> n + gap <= date_number 2200 12 31 ->
  start <= at_midnight_of n -> at_midnight_of (n + gap) <= stop ->
  is_session (cal b) (at_midnight_of n) = true ->
  exists s, next_session_label (cal b) (at_midnight_of n) = Ok s /\ at_midnight_of n < s <= at_midnight_of (n + gap).
Proof.
  intros name y0 gap day E z start stop b n I H M Hb L U Ls Us S.
  pose proof (proj1 (forallb_forall _ _) gaps_ok _ I) as F. cbn beta iota in F.
  destruct (entries_of name) as [[y1 es]|] eqn:En; [|discriminate F]. apply entries_found in En.
  apply andb_prop in F; destruct F as [F F1]. apply andb_prop in F; destruct F as [F F2]. apply andb_prop in F; destruct F as [F F3].
  apply Z.eqb_eq in F. subst y1. apply Z.leb_le in F2, F3.
  pose proof (proj1 (forallb_forall _ _) entries_fit _ En) as FE. cbn [snd] in FE.
  assert (R : forall m, n <= m <= n + gap -> start <= at_midnight_of m <= stop).
  { intros m Hm. pose proof (proj2 (at_midnight_le n m) ltac:(lia)). pose proof (proj2 (at_midnight_le m (n + gap)) ltac:(lia)). lia. }
  destruct (window gap es ltac:(lia) FE F1 (n + 1)) as [m [Bm Fm]].
  assert (D : date_number y0 1 1 <= n <= date_number 2200 12 31) by lia.
  assert (Dm : date_number y0 1 1 <= m <= date_number 2200 12 31) by lia.
  pose proof (session_free name y0 es E z start stop b n En H M Hb (R n ltac:(lia)) D) as [A1 A2].
  pose proof (session_free name y0 es E z start stop b m En H M Hb (R m ltac:(lia)) Dm) as [_ B2].
  pose proof (proj1 (c51_sessions name E z start stop b H M Hb)) as [S1 _].
  destruct (next_in_sorted (cal b) (at_midnight_of n) (at_midnight_of m) S1) as [s [Hs [Hs1 Hs2]]].
  - apply A2, A1. exact S.
  - apply B2. exact Fm.
  - pose proof (at_midnight_le m n). lia.
  - exists s. split; [exact Hs|]. split; [exact Hs1|]. pose proof (proj2 (at_midnight_le m (n + gap)) ltac:(lia)). lia.
Qed.

(** It is that far from the session that the table names. *)
Theorem c99_attained : forall name first gap y m d E z start stop b,
  In (name, first, gap, (y, m, d)) longest_gap -> In (name, E) exchanges ->
  is_midnight start -> build_exchange E z start stop = Ok b ->
  start <= at_midnight_of (date_number y m d) -> at_midnight_of (date_number y m d + gap) <= stop ->
  next_session_label (cal b) (at_midnight_of (date_number y m d)) = Ok (at_midnight_of (date_number y m d + gap)).
Proof.
  intros name y0 gap y m d E z start stop b I H M Hb Ls Us.
  pose proof (proj1 (forallb_forall _ _) gap_days_ok _ I) as G. cbn beta iota zeta in G.
  pose proof (proj1 (forallb_forall _ _) gaps_ok _ I) as F. cbn beta iota in F.
  destruct (entries_of name) as [[y1 es]|] eqn:En; [|discriminate F]. apply entries_found in En.
  apply andb_prop in F; destruct F as [F _]. apply andb_prop in F; destruct F as [F _]. apply andb_prop in F; destruct F as [F F3].
  apply Z.eqb_eq in F. subst y1. apply Z.leb_le in F3.
  apply andb_prop in G; destruct G as [G G1]. apply andb_prop in G; destruct G as [G G2]. apply andb_prop in G; destruct G as [G G3].
  apply Z.leb_le in G, G3. pose proof (proj1 (forallb_forall _ _) entries_fit _ En) as FE. cbn [snd] in FE.
  set (n := date_number y m d) in *. clearbody n.
  assert (R : forall k, n <= k <= n + gap -> start <= at_midnight_of k <= stop).
  { intros k Hk. pose proof (proj2 (at_midnight_le n k) ltac:(lia)). pose proof (proj2 (at_midnight_le k (n + gap)) ltac:(lia)). lia. }
  assert (D : date_number y0 1 1 <= n <= date_number 2200 12 31) by lia.
  assert (S : is_session (cal b) (at_midnight_of n) = true).
  { apply (session_free name y0 es E z start stop b n En H M Hb (R n ltac:(lia)) D). apply freeb_free; [exact FE|exact G2]. }
  destruct (c99_next_session name y0 gap (y, m, d) E z start stop b n I H M Hb G G3 Ls Us S) as [s [Hs [L U]]]. rewrite Hs. f_equal.
  pose proof (proj1 (c51_sessions name E z start stop b H M Hb)) as [S1 S2].
  assert (Hin : In s (sessions (cal b))).
  { unfold next_session_label in Hs. destruct (get_loc _ _) as [i|]; [|discriminate Hs]. cbv [bind] in Hs.
    destruct (pyget (sessions (cal b)) (i + 1)) as [x|e] eqn:P; [|destruct e; try discriminate Hs; destruct (_ =? _); discriminate Hs].
    injection Hs as ->. exact (got_in _ _ _ P). }
  destruct (proj1 (S2 s) Hin) as [k [-> _]].
  assert (K : n < k <= n + gap).
  { pose proof (at_midnight_le k n). pose proof (at_midnight_le k (n + gap)). lia. }
  destruct (Z.eq_dec k (n + gap)) as [->|Q]; [reflexivity|exfalso].
  assert (Dk : date_number y0 1 1 <= k <= date_number 2200 12 31) by lia.
  assert (Fk : free es k).
  { apply (session_free name y0 es E z start stop b k En H M Hb (R k ltac:(lia)) Dk). exact Hin. }
  apply freeb_free in Fk; [|exact FE]. rewrite forallb_forall in G1. specialize (G1 k). rewrite Fk in G1.
  assert (J : In k (upto (Z.to_nat (gap - 1)) (n + 1))) by (apply upto_in; rewrite Z2Nat.id by lia; lia).
  specialize (G1 J). discriminate G1.
Qed.

(** New York from 1990 to 2023: after Friday, January 18th of 2019 comes Tuesday the 22nd. *)
Example c99_ex : exists z b, In ("America/New_York"%string, z) zones /\
  build_exchange exchange_calendar_xnys.calendar z (at_midnight_of (date_number 1990 1 1)) (at_midnight_of (date_number 2023 12 31)) = Ok b /\
  is_session (cal b) (at_midnight_of (date_number 2019 1 18)) = true /\
  next_session_label (cal b) (at_midnight_of (date_number 2019 1 18)) = Ok (at_midnight_of (date_number 2019 1 22)).
Proof.
  destruct (c53_default_range 1990 "XNYS" _ (at_midnight_of (date_number 2023 12 31)) (or_introl eq_refl) xnys_here)
    as [z [b [ss [Hz [Hb _]]]]].
  - discriminate.
  - apply at_midnight_le. apply Z.leb_le. vm_compute. reflexivity.
  - intros n I D. change (conflict_days "XNYS") with [date_number 1945 12 24; date_number 1956 12 24] in I.
    exfalso. destruct I as [<-|[<-|[]]]; vm_compute in D; apply D; reflexivity.
  - exists z, b. split; [exact Hz|]. split; [exact Hb|].
    assert (M : is_midnight (at_midnight_of (date_number 1990 1 1))) by (apply is_midnight_at; eauto).
    assert (I : In ("XNYS"%string, 2019, 4, (2019, 1, 18)) longest_gap) by (unfold longest_gap; cbn [In]; tauto).
    assert (L : at_midnight_of (date_number 1990 1 1) <= at_midnight_of (date_number 2019 1 18))
      by (apply at_midnight_le, Z.leb_le; vm_compute; reflexivity).
    assert (U : at_midnight_of (date_number 2019 1 18 + 4) <= at_midnight_of (date_number 2023 12 31))
      by (apply at_midnight_le, Z.leb_le; vm_compute; reflexivity).
    pose proof (c99_attained _ _ _ _ _ _ _ z _ _ b I xnys_here M Hb L U) as A.
    split; [|replace (date_number 2019 1 22) with (date_number 2019 1 18 + 4) by (vm_compute; reflexivity); exact A].
    destruct (in_dec Z.eq_dec (at_midnight_of (date_number 2019 1 18)) (sessions (cal b))) as [Y|N].
    + apply contains_In. exact Y.
    + unfold next_session_label in A. rewrite get_loc_missing in A by exact N. discriminate A.
Qed.

(** ** Assumptions *)
Print Assumptions c99_next_session.
Print Assumptions c99_attained.
