(** Lemmas on the conversion to terrestrial time and on the rolling mean. *)
From Coq Require Import ZArith QArith List Bool Reals Lia Lra Psatz Sorted.
From Flocq Require Import Core.Core IEEE754.BinarySingleNaN.
From Verif.Spec Require Import TimeScale.
From Verif.Model Require Import Base Dates Machine Lunisolar Terrestrial.
From Verif.Proofs Require Import BaseLemmas MachineLemmas.
Import ListNotations.
Open Scope Z_scope.

#[local] Existing Instance prec53.
#[local] Instance valid64 : Valid_exp fexp64 := FLT_exp_valid (-1074) 53.
Notation rnd x := (round radix2 fexp64 ZnearestE x).

(** ** Rounding *)

Lemma round_err : forall e x, -900 <= e -> (Rabs x < bpow radix2 e)%R ->
  (Rabs (rnd x - x) <= bpow radix2 (e - 54))%R.
Proof.
  intros e x He H. destruct (Req_dec x 0) as [->|N].
  - rewrite round_0 by (apply valid_rnd_N). rewrite Rminus_0_r, Rabs_R0. apply bpow_ge_0.
  - eapply Rle_trans; [apply error_le_half_ulp; apply valid64|].
    rewrite ulp_neq_0 by exact N.
    replace (bpow radix2 (e - 54)) with (/ 2 * bpow radix2 (e - 53))%R.
    + apply Rmult_le_compat_l; [lra|]. apply bpow_le. unfold cexp.
      pose proof (mag_le_bpow radix2 x e N H) as M.
      change fexp64 with (FLT_exp (-1074) 53). unfold FLT_exp. lia.
    + replace (e - 53) with (e - 54 + 1) by lia. rewrite bpow_plus.
      change (bpow radix2 1) with 2%R. lra.
Qed.

(** A double that holds a number up to an error. *)
Definition near (x : binary64) (v err : R) : Prop := is_finite x = true /\ (Rabs (B2R x - v) <= err)%R.

Lemma fits : forall x, (Rabs x <= bpow radix2 60)%R -> Rlt_bool (Rabs x) (bpow radix2 1024) = true.
Proof. intros x H. apply below_emax. eapply Rle_trans; [exact H|]. apply bpow_le. lia. Qed.

Lemma round_fits : forall e x, -900 <= e <= 53 -> (Rabs x < bpow radix2 e)%R -> (Rabs (rnd x) <= bpow radix2 60)%R.
Proof.
  intros e x He H. pose proof (round_err e x ltac:(lia) H) as E.
  apply Rle_trans with (bpow radix2 53 + bpow radix2 53)%R.
  - replace (rnd x) with (rnd x - x + x)%R by ring.
    eapply Rle_trans; [apply Rabs_triang|]. apply Rplus_le_compat.
    + eapply Rle_trans; [exact E|]. apply bpow_le. lia.
    + apply Rlt_le. eapply Rlt_le_trans; [exact H|]. apply bpow_le. lia.
  - replace (bpow radix2 53 + bpow radix2 53)%R with (bpow radix2 54).
    + apply bpow_le. lia.
    + change 54 with (53 + 1). rewrite bpow_plus. change (bpow radix2 1) with 2%R. ring.
Qed.

Lemma near_add : forall e x y a b ea eb, near x a ea -> near y b eb -> -900 <= e <= 53 ->
  (Rabs a + Rabs b + ea + eb < bpow radix2 e)%R ->
  near (add_double x y) (a + b) (ea + eb + bpow radix2 (e - 54)).
Proof.
  intros e x y a b ea eb [Fx Ex] [Fy Ey] He H.
  assert (S : (Rabs (B2R x + B2R y - (a + b)) <= ea + eb)%R).
  { replace (B2R x + B2R y - (a + b))%R with (B2R x - a + (B2R y - b))%R by ring.
    eapply Rle_trans; [apply Rabs_triang|]. lra. }
  assert (B : (Rabs (B2R x + B2R y) < bpow radix2 e)%R).
  { replace (B2R x + B2R y)%R with (B2R x + B2R y - (a + b) + (a + b))%R by ring.
    eapply Rle_lt_trans; [apply Rabs_triang|]. pose proof (Rabs_triang a b). lra. }
  unfold add_double.
  pose proof (Bplus_correct 53 1024 prec53 prec53_emax mode_NE x y Fx Fy) as P.
  change (round_mode mode_NE) with ZnearestE in P.
  rewrite (fits _ (round_fits e _ He B)) in P. destruct P as [P1 [P2 _]].
  split; [exact P2|]. rewrite P1.
  replace (rnd (B2R x + B2R y) - (a + b))%R with (rnd (B2R x + B2R y) - (B2R x + B2R y) + (B2R x + B2R y - (a + b)))%R by ring.
  eapply Rle_trans; [apply Rabs_triang|]. pose proof (round_err e _ ltac:(lia) B). lra.
Qed.

Lemma near_div : forall e x y a b ea, near x a ea -> holds_int y b -> 1 <= b -> -900 <= e <= 53 ->
  ((Rabs a + ea) / IZR b < bpow radix2 e)%R ->
  near (div_double x y) (a / IZR b) (ea / IZR b + bpow radix2 (e - 54)).
Proof.
  intros e x y a b ea [Fx Ex] [Fy Ey] Hb He H.
  assert (Pb : (0 < IZR b)%R) by (apply IZR_lt; lia).
  assert (Pi : (0 < / IZR b)%R) by (apply Rinv_0_lt_compat; exact Pb).
  assert (S : (Rabs (B2R x / IZR b - a / IZR b) <= ea / IZR b)%R).
  { replace (B2R x / IZR b - a / IZR b)%R with ((B2R x - a) * / IZR b)%R by (unfold Rdiv; ring).
    rewrite Rabs_mult, (Rabs_pos_eq (/ IZR b)) by lra. apply Rmult_le_compat_r; lra. }
  assert (B : (Rabs (B2R x / IZR b) < bpow radix2 e)%R).
  { eapply Rle_lt_trans; [|exact H]. unfold Rdiv. rewrite Rabs_mult, (Rabs_pos_eq (/ IZR b)) by lra.
    apply Rmult_le_compat_r; [lra|]. replace (B2R x) with (B2R x - a + a)%R by ring.
    eapply Rle_trans; [apply Rabs_triang|]. lra. }
  unfold div_double.
  assert (NZ : B2R y <> 0%R) by (rewrite Ey; lra).
  pose proof (Bdiv_correct 53 1024 prec53 prec53_emax mode_NE x y NZ) as P.
  change (round_mode mode_NE) with ZnearestE in P. rewrite Ey in P.
  rewrite (fits _ (round_fits e _ He B)) in P. destruct P as [P1 [P2 _]].
  split; [rewrite P2; exact Fx|]. rewrite P1.
  replace (rnd (B2R x / IZR b) - a / IZR b)%R with (rnd (B2R x / IZR b) - (B2R x / IZR b) + (B2R x / IZR b - a / IZR b))%R by ring.
  eapply Rle_trans; [apply Rabs_triang|]. pose proof (round_err e _ ltac:(lia) B). lra.
Qed.

Lemma near_int : forall z, Z.abs z < 2 ^ 53 -> near (to_double z) (IZR z) 0.
Proof.
  intros z H. destruct (to_double_small z H) as [F E]. split; [exact F|].
  rewrite E. replace (IZR z - IZR z)%R with 0%R by ring. rewrite Rabs_R0. lra.
Qed.

Lemma near_weaken : forall x v v' e e', near x v e -> v = v' -> (e <= e')%R -> near x v' e'.
Proof. intros x v v' e e' [F H] <- L. split; [exact F|]. lra. Qed.

(** ** One instant *)

Lemma jd_utc_near : forall t, historic t ->
  near (add_double (true_divide t 86400) (true_divide 4881175 2)) (IZR t / 86400 + (2440587 + 1 / 2))
       (bpow radix2 (-33) + bpow radix2 (-32) + bpow radix2 (-32)).
Proof.
  intros t H. unfold historic in H.
  assert (A : near (true_divide t 86400) (IZR t / 86400) (bpow radix2 (-33))).
  { eapply near_weaken.
    - apply (near_div 21 _ _ (IZR t) 86400 0).
      + apply near_int. lia.
      + apply to_double_small. reflexivity.
      + lia.
      + lia.
      + rewrite Rplus_0_r, <- abs_IZR. change (bpow radix2 21) with 2097152%R.
        assert (IZR (Z.abs t) <= 150000000000)%R by (apply IZR_le; lia). lra.
    - reflexivity.
    - unfold Rdiv. rewrite Rmult_0_l, Rplus_0_l. apply Rle_refl. }
  assert (B : near (true_divide 4881175 2) (2440587 + 1 / 2) (bpow radix2 (-32))).
  { eapply near_weaken.
    - apply (near_div 22 _ _ (IZR 4881175) 2 0).
      + apply near_int. lia.
      + apply to_double_small. reflexivity.
      + lia.
      + lia.
      + rewrite Rplus_0_r, Rabs_pos_eq by lra. change (bpow radix2 22) with 4194304%R. lra.
    - lra.
    - unfold Rdiv. rewrite Rmult_0_l, Rplus_0_l. apply Rle_refl. }
  eapply near_weaken.
  - apply (near_add 22 _ _ _ _ _ _ A B); [lia|].
    rewrite (Rabs_pos_eq (2440587 + 1 / 2)) by lra.
    assert (Rabs (IZR t / 86400) <= 1736112)%R.
    { unfold Rdiv. rewrite Rabs_mult, (Rabs_pos_eq (/ 86400)) by lra. rewrite <- abs_IZR.
      assert (IZR (Z.abs t) <= 150000000000)%R by (apply IZR_le; lia). lra. }
    change (bpow radix2 22) with 4194304%R.
    assert (bpow radix2 (-33) <= 1)%R by (change 1%R with (bpow radix2 0); apply bpow_le; lia).
    assert (bpow radix2 (-32) <= 1)%R by (change 1%R with (bpow radix2 0); apply bpow_le; lia). lra.
  - reflexivity.
  - apply Rle_refl.
Qed.

Lemma julian_days_near : forall d v, 0 <= v <= 1000000 ->
  near (julian_days (d, v)) (IZR v / 10000 / 86400) (bpow radix2 (-50)).
Proof.
  intros d v H. unfold julian_days. cbn [snd].
  assert (A : near (true_divide v 10000) (IZR v / 10000) (bpow radix2 (-47))).
  { eapply near_weaken.
    - apply (near_div 7 _ _ (IZR v) 10000 0).
      + apply near_int. lia.
      + apply to_double_small. reflexivity.
      + lia.
      + lia.
      + rewrite Rplus_0_r, <- abs_IZR. change (bpow radix2 7) with 128%R.
        assert (IZR (Z.abs v) <= 1000000)%R by (apply IZR_le; lia). lra.
    - reflexivity.
    - unfold Rdiv. rewrite Rmult_0_l, Rplus_0_l. apply Rle_refl. }
  assert (V : (0 <= IZR v <= 1000000)%R) by (split; apply IZR_le; lia).
  assert (L : (bpow radix2 (-47) <= 1)%R) by (change 1%R with (bpow radix2 0); apply bpow_le; lia).
  eapply near_weaken.
  - apply (near_div 0 _ _ _ 86400 _ A).
    + apply to_double_small. reflexivity.
    + lia.
    + lia.
    + rewrite Rabs_pos_eq by lra. change (bpow radix2 0) with 1%R. lra.
  - reflexivity.
  - change (0 - 54) with (-54).
    replace (bpow radix2 (-47)) with (128 * bpow radix2 (-54))%R
      by (change (-47) with (7 + -54); rewrite bpow_plus; reflexivity).
    replace (bpow radix2 (-50)) with (16 * bpow radix2 (-54))%R
      by (change (-50) with (4 + -54); rewrite bpow_plus; reflexivity).
    pose proof (bpow_ge_0 radix2 (-54)). lra.
Qed.

(** ** The table *)

Definition rows_ok (rows : list (Z * Z)) : bool := forallb (fun e => (0 <=? snd e) && (snd e <=? 1000000)) rows.

Lemma corrections_range : forall d v, In (d, v) corrections -> 0 <= v <= 1000000.
Proof.
  assert (C : rows_ok corrections = true) by (vm_compute; reflexivity).
  intros d v H. apply (proj1 (forallb_forall _ _) C) in H. apply andb_true_iff in H.
  destruct H as [H1 H2]. apply Z.leb_le in H1, H2. cbn in H1, H2. lia.
Qed.

Fixpoint increasing (l : list Z) : bool :=
  match l with
  | a :: (b :: _) as l' => (a <? b) && increasing l'
  | _ => true
  end.

Lemma increasing_sorted : forall l, increasing l = true -> StronglySorted Z.lt l.
Proof.
  intros l H. apply Sorted_StronglySorted; [intros x y z; lia|].
  induction l as [|a l IH]; [constructor|]. destruct l as [|b l].
  - repeat constructor.
  - cbn [increasing] in H. apply andb_true_iff in H. destruct H as [H1 H2]. apply Z.ltb_lt in H1.
    constructor; [apply IH; exact H2|constructor; exact H1].
Qed.

Lemma sorted_map_le : forall {A} (f : A -> Z) l, StronglySorted Z.lt (map f l) ->
  StronglySorted (fun a b => f a <= f b) l.
Proof.
  induction l as [|a l IH]; intros H; [constructor|]. cbn [map] in H. inversion H as [|? ? H1 H2]; subst.
  constructor; [apply IH; exact H1|]. rewrite Forall_map in H2. eapply Forall_impl; [|exact H2].
  intros; cbn in *; lia.
Qed.

Lemma corrections_sorted : StronglySorted Z.lt (map (fun e => fst e * 86400) corrections).
Proof. apply increasing_sorted. vm_compute. reflexivity. Qed.

Lemma chosen : forall t, exists row, comes_next corrections t row /\
  utc_to_jd_tt1 t = add_double (add_double (true_divide t 86400) (true_divide 4881175 2)) (julian_days row).
Proof.
  intros t. unfold utc_to_jd_tt1.
  set (jd := add_double (true_divide t 86400) (true_divide 4881175 2)).
  destruct (searchsorted_right_split (fun e => fst e * 86400) corrections t) as [l1 [l2 [E [H1 [H2 Hi]]]]].
  { apply sorted_map_le. exact corrections_sorted. }
  rewrite Hi. cbv zeta. rewrite E.
  destruct l2 as [|row l2].
  - rewrite app_nil_r in *. rewrite Z.eqb_refl.
    assert (N : l1 <> []) by (rewrite <- E; unfold corrections; discriminate).
    destruct (exists_last N) as [l [row El]]. exists row. split.
    + exists l, []. rewrite El. split; [reflexivity|]. split; [|right; reflexivity].
      intros r Hr. rewrite Forall_forall in H1. apply H1. rewrite El. apply in_or_app. left. exact Hr.
    + f_equal. rewrite El, map_app. unfold zlen. rewrite app_length. cbn [length map].
      replace (Z.to_nat (Z.of_nat (length l + 1) - 1)) with (length (map julian_days l))
        by (rewrite map_length; lia).
      apply nth_middle.
  - exists row. split.
    + exists l1, l2. split; [reflexivity|]. rewrite Forall_forall in H1. split; [exact H1|].
      left. rewrite Forall_forall in H2. specialize (H2 row (or_introl eq_refl)). unfold begins. lia.
    + f_equal. replace (zlen l1 =? zlen (l1 ++ row :: l2)) with false.
      * rewrite map_app. cbn [map]. unfold zlen. rewrite Nat2Z.id.
        rewrite <- (map_length julian_days l1). apply nth_middle.
      * symmetry. apply Z.eqb_neq. unfold zlen. rewrite app_length. cbn [length]. lia.
Qed.

Lemma comes_next_In : forall rows t row, comes_next rows t row -> In row rows.
Proof. intros rows t row (b & a & -> & _). apply in_or_app. right. left. reflexivity. Qed.

Lemma comes_next_unique : forall t r r', comes_next corrections t r -> comes_next corrections t r' -> r = r'.
Proof.
  assert (G : forall l t r r', StronglySorted Z.lt (map begins l) ->
    comes_next l t r -> comes_next l t r' -> r = r').
  { induction l as [|x l IH]; intros t r r' S (b & a & E & H1 & H2) (b' & a' & E' & H1' & H2').
    - destruct b; discriminate.
    - cbn [map] in S. inversion S as [|? ? S1 S2]; subst.
      destruct b as [|y b], b' as [|y' b']; cbn [app] in E, E'; injection E as E0 E; injection E' as E0' E'.
      + congruence.
      + specialize (H1' y' (or_introl eq_refl)). destruct H2 as [H2|E2]; [congruence || (subst r y'; lia)|].
        subst a l. destruct b'; discriminate.
      + specialize (H1 y (or_introl eq_refl)). destruct H2' as [H2'|E2]; [subst r' y; lia|].
        subst a' l. destruct b; discriminate.
      + eapply (IH t r r' S1).
        * exists b, a. split; [exact E|]. split; [|exact H2]. intros q Hq. apply H1. right. exact Hq.
        * exists b', a'. split; [exact E'|]. split; [|exact H2']. intros q Hq. apply H1'. right. exact Hq. }
  intros t r r'. apply G. exact corrections_sorted.
Qed.

Lemma value_near : forall t row, historic t -> comes_next corrections t row ->
  near (utc_to_jd_tt1 t) (julian_date t (snd row)) (4 * bpow radix2 (-32)).
Proof.
  intros t row H C. destruct (chosen t) as [row' [C' ->]].
  rewrite (comes_next_unique t row row' C C'). clear C row. destruct row' as [d v].
  pose proof (corrections_range d v (comes_next_In _ _ _ C')) as V.
  eapply near_weaken.
  - apply (near_add 22 _ _ _ _ _ _ (jd_utc_near t H) (julian_days_near d v V)); [lia|].
    unfold historic in H.
    assert (Rabs (IZR t / 86400 + (2440587 + 1 / 2)) <= 4176700)%R.
    { eapply Rle_trans; [apply Rabs_triang|]. rewrite (Rabs_pos_eq (2440587 + 1 / 2)) by lra.
      unfold Rdiv. rewrite Rabs_mult, (Rabs_pos_eq (/ 86400)) by lra. rewrite <- abs_IZR.
      assert (IZR (Z.abs t) <= 150000000000)%R by (apply IZR_le; lia). lra. }
    assert (0 <= IZR v <= 1000000)%R by (split; apply IZR_le; lia).
    rewrite (Rabs_pos_eq (IZR v / 10000 / 86400)) by lra.
    change (bpow radix2 22) with 4194304%R.
    assert (bpow radix2 (-33) <= 1)%R by (change 1%R with (bpow radix2 0); apply bpow_le; lia).
    assert (bpow radix2 (-32) <= 1)%R by (change 1%R with (bpow radix2 0); apply bpow_le; lia).
    assert (bpow radix2 (-50) <= 1)%R by (change 1%R with (bpow radix2 0); apply bpow_le; lia). lra.
  - unfold julian_date. cbn [snd]. lra.
  - change (22 - 54) with (-32).
    assert (bpow radix2 (-50) <= / 2 * bpow radix2 (-32))%R.
    { replace (/ 2 * bpow radix2 (-32))%R with (bpow radix2 (-33)) by (change (-33) with (-1 + -32); rewrite bpow_plus; reflexivity).
      apply bpow_le. lia. }
    replace (bpow radix2 (-33)) with (/ 2 * bpow radix2 (-32))%R by (change (-33) with (-1 + -32); rewrite bpow_plus; reflexivity).
    lra.
Qed.

Lemma error_small : (4 * bpow radix2 (-32) < tenth_of_a_millisecond)%R.
Proof.
  unfold tenth_of_a_millisecond.
  assert (E : (bpow radix2 (-32) * 4294967296 = 1)%R).
  { change 4294967296%R with (bpow radix2 32). rewrite <- bpow_plus. reflexivity. }
  pose proof (bpow_gt_0 radix2 (-32)). lra.
Qed.

(** Later rows never fall much below earlier ones. *)
Fixpoint falls_at_most (d : Z) (l : list (Z * Z)) : bool :=
  match l with
  | [] => true
  | r :: l' => forallb (fun r' => snd r - d <=? snd r') l' && falls_at_most d l'
  end.

Lemma falls_spec : forall d l before r mid r' after, 0 <= d -> falls_at_most d l = true ->
  l = before ++ r :: mid ++ r' :: after -> snd r - d <= snd r'.
Proof.
  induction l as [|x l IH]; intros before r mid r' after Hd F E; [destruct before; discriminate|].
  cbn [falls_at_most] in F. apply andb_true_iff in F. destruct F as [F1 F2].
  destruct before as [|y before]; cbn [app] in E; injection E as -> E.
  - apply Z.leb_le. apply (proj1 (forallb_forall _ _) F1). rewrite E. apply in_or_app. right. left. reflexivity.
  - eapply IH; eauto.
Qed.

Lemma corrections_fall : falls_at_most 238 corrections = true.
Proof. vm_compute. reflexivity. Qed.

Lemma comes_next_mono : forall t t' r r', t <= t' -> comes_next corrections t r -> comes_next corrections t' r' ->
  snd r - 238 <= snd r'.
Proof.
  assert (G : forall l, StronglySorted Z.lt (map begins l) -> forall t t' r r', t <= t' ->
    comes_next l t r -> comes_next l t' r' -> r = r' \/ exists b m a, l = b ++ r :: m ++ r' :: a).
  { induction l as [|x l IH]; intros S t t' r r' L (b & a & E & H1 & H2) (b' & a' & E' & H1' & H2').
    - destruct b; discriminate.
    - cbn [map] in S. inversion S as [|? ? S1 S2]; subst.
      destruct b as [|y b], b' as [|y' b']; cbn [app] in E, E'; injection E as E0 E; injection E' as E0' E'.
      + left. congruence.
      + right. exists [], b', a'. rewrite E', E0. reflexivity.
      + specialize (H1 y (or_introl eq_refl)). destruct H2' as [H2'|E2]; [subst r' y; lia|].
        subst a' l. destruct b; discriminate.
      + destruct (IH S1 t t' r r' L) as [->|(b0 & m & a0 & El)].
        * exists b, a. split; [exact E|]. split; [|exact H2]. intros q Hq. apply H1. right. exact Hq.
        * exists b', a'. split; [exact E'|]. split; [|exact H2']. intros q Hq. apply H1'. right. exact Hq.
        * left. reflexivity.
        * right. exists (x :: b0), m, a0. rewrite El. reflexivity. }
  intros t t' r r' L C C'. destruct (G _ corrections_sorted t t' r r' L C C') as [->|(b & m & a & E)].
  - lia.
  - eapply falls_spec; [|exact corrections_fall|exact E]. lia.
Qed.

Lemma values_increase : forall t t', historic t -> historic t' -> t < t' ->
  (B2R (utc_to_jd_tt1 t) < B2R (utc_to_jd_tt1 t'))%R.
Proof.
  intros t t' H H' L. destruct (chosen t) as [r [C _]]. destruct (chosen t') as [r' [C' _]].
  destruct (value_near t r H C) as [_ E]. destruct (value_near t' r' H' C') as [_ E'].
  pose proof error_small as S. pose proof (comes_next_mono t t' r r' ltac:(lia) C C') as M.
  apply Rabs_le_inv in E, E'. unfold julian_date, tenth_of_a_millisecond in *.
  assert (IZR t + 1 <= IZR t')%R by (rewrite <- plus_IZR; apply IZR_le; lia).
  assert (IZR (snd r) - 238 <= IZR (snd r'))%R by (rewrite <- minus_IZR; apply IZR_le; lia).
  lra.
Qed.
