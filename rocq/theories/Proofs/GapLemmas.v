(** How long an exchange stays closed, from the positions of its holidays (C99). *)
From Coq Require Import ZArith List Bool Lia Sorting.Sorted.
From Verif.Model Require Import Base Dates Queries Holidays.
From Verif.Spec Require Import Civil Rules Almanac.
From Verif.Proofs Require Import BaseLemmas DatesLemmas QueryLemmas RuleLemmas AlmanacLemmas PerYearLemmas.
Import ListNotations.
Open Scope Z_scope.

(** ** The first days of a year *)
Lemma before_later : forall l m, 2 <= m <= 12 -> 31 <= before l m.
Proof.
  intros l m H. assert (C : In m [2;3;4;5;6;7;8;9;10;11;12]) by (cbn [In]; lia). cbn [In] in C.
  repeat (destruct C as [<-|C]; [destruct l; vm_compute; discriminate|]). destruct C.
Qed.
Lemma from_on_ge : forall w wd a, a <= from_on w wd a.
Proof. intros w wd a. unfold from_on. pose proof (Z.mod_pos_bound (wd - (w + a)) 7 ltac:(lia)). lia. Qed.
Ltac branches := repeat match goal with |- context [if ?b then _ else _] => destruct b end.
(** Holidays of the first days depend neither on Easter nor on the leap day. *)
Lemma january : forall e l w g i, fits e = true -> 80 <= g -> 0 <= i < 10 ->
  (position l w g e = i <-> position false w 100 e = i).
Proof.
  intros e l w g i F G I. pose proof from_on_ge as FO.
  assert (M1 : forall l, before l 1 = 0) by reflexivity. assert (L1 : forall l, mlen l 1 = 31) by reflexivity.
  destruct e as [m d|m d|m d|k wd m|wd m|wd m d|k|m d|m d|wd m d]; cbn [fits] in F; booleans F; cbn [position]; cbv zeta;
    try (destruct (Z.eq_dec m 1) as [->|M]; [rewrite !M1, ?L1; tauto|
      pose proof (before_later l m ltac:(lia)); pose proof (before_later false m ltac:(lia));
      pose proof (mlen_range l m ltac:(lia)); pose proof (mlen_range false m ltac:(lia))]).
  - lia.
  - branches; lia.
  - branches; lia.
  - pose proof (FO w wd (before l m + 7 * (k - 1))). pose proof (FO w wd (before false m + 7 * (k - 1))). lia.
  - pose proof (FO w wd (before l m + mlen l m - 7)). pose proof (FO w wd (before false m + mlen false m - 7)). lia.
  - pose proof (FO w wd (before l m + d - 1)). pose proof (FO w wd (before false m + d - 1)). lia.
  - lia.
  - branches; lia.
  - branches; lia.
  - pose proof (FO w wd (before l m + d - 7)). pose proof (FO w wd (before false m + d - 7)). lia.
Qed.

(** ** The check of a kind of years *)

(** After every workday that is taken an open day follows, at most [gap] days after
    the last workday before. *)
Definition recovers (gap : Z) (es : list entry) (k : bool * Z * Z) : bool :=
  match k with (l, w, g) =>
    let ps := map (position l w g) es in
    let n := Z.of_nat (year_days l) in
    let qs := map (position false ((w + n) mod 7) 100) es in
    forallb (fun t => if (if 0 <=? t then working w t else false) then
      existsb (fun j => if working w j then
          if j <? n then negb (existsb (Z.eqb j) ps) else negb (existsb (Z.eqb (j - n)) qs) else false)
        (upto (Z.to_nat (if (w + t) mod 7 =? 0 then gap - 3 else gap - 1)) (t + 1)) else true) ps
  end.
Definition free (es : list entry) (n : Z) : Prop := workday n /\ ~ exists e, In e es /\ days_of e n.
Lemma not_member : forall i ps, negb (existsb (Z.eqb i) ps) = true -> ~ In i ps.
Proof.
  intros i ps H I. apply negb_true_iff in H. rewrite <- not_true_iff_false in H. apply H. apply existsb_exists. exists i.
  split; [exact I|apply Z.eqb_refl].
Qed.
Lemma first_workday : forall s, exists t, s <= t <= s + 2 /\ workday t /\ (day_of_week t <> 0 -> t = s).
Proof.
  intros s. unfold workday. pose proof (dow_range s) as R.
  destruct (Z_lt_le_dec (day_of_week s) 5) as [L|L]; [exists s; repeat split; lia|].
  assert (C : day_of_week s = 5 \/ day_of_week s = 6) by lia. destruct C as [E|E].
  - exists (s + 2). rewrite dow_add, E. change ((5 + 2) mod 7) with 0. repeat split; lia.
  - exists (s + 1). rewrite dow_add, E. change ((6 + 1) mod 7) with 0. repeat split; lia.
Qed.
Lemma window : forall gap es, 3 <= gap <= 9 -> forallb fits es = true -> forallb (recovers gap es) kinds = true ->
  forall s, exists m, s <= m < s + gap /\ free es m.
Proof.
  intros gap es Gp FE C s. destruct (first_workday s) as [t [T [W M]]].
  set (y := year_of t). assert (Y : in_year t y) by (apply year_of_ok; reflexivity).
  pose proof (proj1 (forallb_forall _ _) C _ (kind_of y)) as K. unfold recovers in K. cbv zeta in K.
  set (w := day_of_week (year_start y)) in *. set (g := easter y - year_start y) in *.
  set (ps := map (position (leap y) w g) es) in *. set (n := Z.of_nat (year_days (leap y))) in *.
  assert (N : year_start (y + 1) = year_start y + n).
  { rewrite year_start_next. unfold n, year_days. destruct (leap y); reflexivity. }
  assert (PI : forall m, in_year m y -> ((exists e, In e es /\ days_of e m) <-> In (m - year_start y) ps)).
  { intros m Ym. unfold ps. rewrite in_map_iff. rewrite forallb_forall in FE. split.
    - intros [e [J D]]. exists e. split; [|exact J]. apply (position_iff e m y (FE e J) Ym) in D. fold w g in D. lia.
    - intros [e [Q J]]. exists e. split; [exact J|]. apply (position_iff e m y (FE e J) Ym). fold w g. lia. }
  assert (WK : forall m, working w (m - year_start y) = true <-> workday m).
  { intros m. unfold working, workday, w. rewrite Z.ltb_lt, <- dow_add. replace (year_start y + (m - year_start y)) with m by lia. reflexivity. }
  destruct (in_dec Z.eq_dec (t - year_start y) ps) as [I|I].
  - rewrite forallb_forall in K. specialize (K _ I). rewrite (proj2 (WK t) W) in K.
    rewrite (proj2 (Z.leb_le 0 (t - year_start y))) in K by (destruct Y; lia).
    apply existsb_exists in K. destruct K as [j [J K]]. apply upto_in in J.
    assert (DW : (w + (t - year_start y)) mod 7 = day_of_week t).
    { unfold w. rewrite <- dow_add. f_equal. lia. }
    rewrite DW in J. assert (B : s <= year_start y + j < s + gap).
    { destruct (Z.eqb_spec (day_of_week t) 0) as [E|E].
      - rewrite Z2Nat.id in J by (destruct (Z_le_gt_dec 3 gap); lia). lia.
      - specialize (M E). rewrite Z2Nat.id in J by lia. lia. }
    exists (year_start y + j). split; [exact B|].
    destruct (working w j) eqn:Wj; [|discriminate K].
    split; [apply WK; replace (year_start y + j - year_start y) with j by lia; exact Wj|].
    destruct (Z.ltb_spec j n) as [L|L].
    + rewrite PI by (destruct Y; split; lia). replace (year_start y + j - year_start y) with j by lia. apply not_member. exact K.
    + assert (Y1 : in_year (year_start y + j) (y + 1)).
      { pose proof (year_start_mono (y + 1) (y + 1 + 1) ltac:(lia)). destruct Y. split; lia. }
      intros [e [J' D]]. rewrite forallb_forall in FE.
      apply (position_iff e _ (y + 1) (FE e J') Y1) in D. apply (not_member _ _ K). apply in_map_iff. exists e. split; [|exact J'].
      pose proof (easter_position (y + 1)) as EP.
      assert (W1 : day_of_week (year_start (y + 1)) = (w + n) mod 7) by (rewrite N; unfold w; apply dow_add).
      rewrite W1 in D. apply (january e (leap (y + 1)) ((w + n) mod 7) (easter (y + 1) - year_start (y + 1)) (j - n) (FE e J')).
      * destruct (leap (y + 1)); lia.
      * destruct Y. lia.
      * lia.
  - exists t. split; [lia|]. split; [exact W|]. rewrite (PI t Y). exact I.
Qed.

(** ** The next session *)
Lemma got_in : forall {A} (l : list A) i x, pyget l i = Ok x -> In x l.
Proof.
  intros A l i x H. unfold pyget in H. destruct (_ <? 0); [|destruct (_ <? 0)]; try discriminate;
    destruct (nth_error l _) eqn:E; try discriminate; injection H as <-; eapply nth_error_In; exact E.
Qed.
Lemma next_in_sorted : forall c l x, StronglySorted Z.lt (sessions c) -> In l (sessions c) -> In x (sessions c) -> l < x ->
  exists s, next_session_label c l = Ok s /\ l < s <= x.
Proof.
  intros c l x S Hl Hx L. unfold next_session_label. apply in_split in Hl. destruct Hl as [l1 [l2 E]]. rewrite E in *.
  apply SSorted_app in S. destruct S as [S1 [S2 S3]]. apply SSorted_cons in S2. destruct S2 as [S2 S4].
  rewrite get_loc_app by (intros I; specialize (S3 l l I (or_introl eq_refl)); lia). cbv [bind].
  destruct l2 as [|s l2].
  - exfalso. apply in_app_iff in Hx. destruct Hx as [Hx|[Hx|[]]]; [|lia]. specialize (S3 x l Hx (or_introl eq_refl)). lia.
  - replace (l1 ++ l :: s :: l2) with ((l1 ++ [l]) ++ s :: l2) in * by (rewrite <- app_assoc; reflexivity).
    replace (zlen l1 + 1) with (zlen (l1 ++ [l])) by (rewrite zlen_app; reflexivity). rewrite pyget_app_mid.
    exists s. split; [reflexivity|]. rewrite Forall_forall in S4. split; [apply S4; left; reflexivity|].
    apply SSorted_cons in S2. destruct S2 as [_ S2]. rewrite Forall_forall in S2.
    rewrite <- app_assoc in Hx. apply in_app_iff in Hx. destruct Hx as [Hx|[Hx|[<-|Hx]]]; [|lia|lia|].
    + specialize (S3 x l Hx (or_introl eq_refl)). lia.
    + specialize (S2 x Hx). lia.
Qed.
