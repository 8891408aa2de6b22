(** Machine numbers compute the same minutes as integers do. *)
From Coq Require Import ZArith List Bool Permutation Reals Lia Lra Psatz.
From Flocq Require Import Core.Core IEEE754.BinarySingleNaN.
From Verif.Model Require Import Base Helpers Queries Machine.
Import ListNotations.
Open Scope Z_scope.

Definition int64 (z : Z) : Prop := - 2 ^ 63 <= z < 2 ^ 63.

Lemma wrap64_id : forall z, int64 z -> wrap64 z = z.
Proof. intros z H. unfold int64 in H. unfold wrap64. rewrite Z.mod_small by lia. lia. Qed.

Notation fexp64 := (SpecFloat.fexp 53 1024).

Lemma format_int : forall m e z, z = m * 2 ^ e -> 0 <= e -> Z.abs m < 2 ^ 53 ->
  generic_format radix2 fexp64 (IZR z).
Proof.
  intros m e z -> He Hm. change fexp64 with (FLT_exp (-1074) 53).
  apply generic_format_FLT. exists (Float radix2 m e); cbn [Fnum Fexp].
  - unfold F2R. cbn [Fnum Fexp]. rewrite mult_IZR. f_equal.
    change 2 with (radix_val radix2) at 1. rewrite IZR_Zpower by exact He. reflexivity.
  - exact Hm.
  - lia.
Qed.

Lemma small_int : forall z, Z.abs z < 2 ^ 53 -> generic_format radix2 fexp64 (IZR z).
Proof. intros z H. apply (format_int z 0); [|lia|exact H]. rewrite Z.pow_0_r. lia. Qed.

#[local] Existing Instance prec53.
#[local] Instance valid64 : Valid_exp fexp64 := FLT_exp_valid (-1074) 53.

Definition holds_int (x : binary64) (z : Z) : Prop := is_finite x = true /\ B2R x = IZR z.

Lemma below_emax : forall x, (Rabs x <= bpow radix2 64)%R -> Rlt_bool (Rabs x) (bpow radix2 1024) = true.
Proof.
  intros x H. apply Rlt_bool_true. eapply Rle_lt_trans; [exact H|]. apply bpow_lt. reflexivity.
Qed.

Lemma IZR_64 : forall z, Z.abs z <= 2 ^ 64 -> (Rabs (IZR z) <= bpow radix2 64)%R.
Proof.
  intros z H. rewrite <- abs_IZR. change (bpow radix2 64) with (IZR (2 ^ 64)). apply IZR_le. exact H.
Qed.

Lemma to_double_ok : forall z, generic_format radix2 fexp64 (IZR z) -> Z.abs z <= 2 ^ 64 ->
  holds_int (to_double z) z.
Proof.
  intros z F B. unfold to_double.
  pose proof (binary_normalize_correct 53 1024 prec53 prec53_emax mode_NE z 0 false) as H.
  cbv zeta in H.
  assert (E : F2R (Float radix2 z 0) = IZR z).
  { unfold F2R. cbn. ring. }
  rewrite E in H. rewrite round_generic in H by (try exact F; apply valid_rnd_round_mode).
  rewrite below_emax in H by (apply IZR_64; exact B).
  destruct H as [H1 [H2 _]]. split; assumption.
Qed.

Lemma to_double_small : forall z, Z.abs z < 2 ^ 53 -> holds_int (to_double z) z.
Proof. intros z H. apply to_double_ok; [apply small_int; exact H|]. lia. Qed.

Lemma add_double_ok : forall x y a b, holds_int x a -> holds_int y b -> Z.abs (a + b) < 2 ^ 53 ->
  holds_int (add_double x y) (a + b).
Proof.
  intros x y a b [Fx Bx] [Fy By] H. unfold add_double.
  pose proof (Bplus_correct 53 1024 prec53 prec53_emax mode_NE x y Fx Fy) as P.
  rewrite Bx, By, <- plus_IZR in P.
  rewrite round_generic in P by (try (apply small_int; exact H); apply valid_rnd_round_mode).
  rewrite below_emax in P by (apply IZR_64; lia).
  destruct P as [P1 [P2 _]]. split; assumption.
Qed.

Lemma trunc_ok : forall x z, holds_int x z -> Btrunc x = z.
Proof.
  intros x z [_ H]. apply eq_IZR. rewrite (Btrunc_correct 53 1024 prec53_emax), H.
  apply round_generic; [apply valid_rnd_ZR|]. apply generic_format_FIX.
  exists (Float radix2 z 0); [unfold F2R; cbn; ring|reflexivity].
Qed.

(** ** The ceiling *)

Lemma ceil_ok : forall x, is_finite x = true -> int64 (Zceil (B2R x)) ->
  ceil_to_intp x = Ok (Zceil (B2R x)).
Proof.
  intros x F H. destruct x as [s| | |s m e B]; try discriminate.
  - cbn. change 0%R with (IZR 0). rewrite Zceil_IZR. reflexivity.
  - unfold ceil_to_intp. cbv zeta.
    assert (E : (if 0 <=? e then (if s then Z.neg m else Z.pos m) * 2 ^ e
                 else - (- (if s then Z.neg m else Z.pos m) / 2 ^ (- e))) =
                Zceil (B2R (B754_finite s m e B))).
    { cbn [B2R]. assert (C : cond_Zopp s (Zpos m) = if s then Zneg m else Zpos m) by (destruct s; reflexivity).
      rewrite C. set (n := if s then Z.neg m else Z.pos m). unfold F2R. cbn [Fnum Fexp].
      destruct (0 <=? e) eqn:Le.
      - apply Z.leb_le in Le. rewrite <- IZR_Zpower by exact Le. rewrite <- mult_IZR, Zceil_IZR. reflexivity.
      - apply Z.leb_gt in Le. unfold Zceil. f_equal.
        assert (P : 0 < 2 ^ (- e)) by (apply Z.pow_pos_nonneg; lia).
        rewrite <- Zfloor_div by lia. f_equal.
        replace e with (- - e) at 2 by lia. rewrite bpow_opp.
        rewrite <- IZR_Zpower by lia. change (Z.pow radix2 (-e)) with (2 ^ (- e)).
        rewrite opp_IZR. unfold Rdiv. ring. }
    rewrite E. clear E. unfold int64 in H. revert H. generalize (Zceil (B2R (B754_finite s m e B))). intros c H.
    replace (- 2 ^ 63 <=? c) with true by lia. replace (c <? 2 ^ 63) with true by lia. reflexivity.
Qed.

(** ** The division by a minute *)

Notation MIN := NANOSECONDS_PER_MINUTE.
Lemma MIN_val : MIN = 60000000000. Proof. reflexivity. Qed.

Lemma minute_double : holds_int (to_double MIN) MIN.
Proof. apply to_double_small. rewrite MIN_val. reflexivity. Qed.

Lemma divide_finite : forall d, holds_int (to_double d) d ->
  (Rabs (round radix2 fexp64 ZnearestE (IZR d / IZR MIN)) <= bpow radix2 64)%R ->
  is_finite (true_divide d MIN) = true /\
  B2R (true_divide d MIN) = round radix2 fexp64 ZnearestE (IZR d / IZR MIN).
Proof.
  intros d [Fd Bd] H. destruct minute_double as [Fm Bm]. unfold true_divide.
  pose proof (Bdiv_correct 53 1024 prec53 prec53_emax mode_NE (to_double d) (to_double MIN)) as P.
  rewrite Bd, Bm in P. cbn [round_mode] in P.
  rewrite below_emax in P by exact H.
  destruct P as [P1 [P2 _]].
  - rewrite MIN_val. apply IZR_neq. discriminate.
  - rewrite Fd in P2. split; assumption.
Qed.

(** A whole number of minutes. *)
Lemma divide_whole : forall k, Z.abs k < 2 ^ 28 -> holds_int (true_divide (k * MIN) MIN) k.
Proof.
  intros k H.
  assert (D : holds_int (to_double (k * MIN)) (k * MIN)).
  { apply to_double_ok; [|rewrite MIN_val; lia].
    apply (format_int (k * 29296875) 11); [|lia|lia].
    rewrite MIN_val. change (2 ^ 11) with 2048. ring. }
  assert (Q : (IZR (k * MIN) / IZR MIN)%R = IZR k).
  { rewrite mult_IZR. field. rewrite MIN_val. apply IZR_neq. discriminate. }
  assert (R : round radix2 fexp64 ZnearestE (IZR (k * MIN) / IZR MIN) = IZR k).
  { rewrite Q. apply round_generic; [apply valid_rnd_N|]. apply small_int. lia. }
  destruct (divide_finite (k * MIN) D) as [A B].
  - rewrite R. apply IZR_64. lia.
  - split; [exact A|]. rewrite B. exact R.
Qed.

(** Any number of nanoseconds below 2^53 (104 days). *)
Lemma round_up_close : forall d, 0 < d < 2 ^ 53 ->
  let k := (d - 1) / MIN in
  (IZR k < round radix2 fexp64 ZnearestE (IZR d / IZR MIN) <= IZR (k + 1))%R.
Proof.
  intros d H k.
  assert (K : k * MIN + 1 <= d <= (k + 1) * MIN /\ 0 <= k < 2 ^ 18).
  { subst k. rewrite MIN_val. change (2 ^ 18) with 262144. Z.div_mod_to_equations. lia. }
  destruct K as [[K1 K2] K3].
  assert (M0 : (0 < IZR MIN)%R) by (rewrite MIN_val; apply IZR_lt; reflexivity).
  set (x := (IZR d / IZR MIN)%R).
  assert (X1 : (IZR k + / IZR MIN <= x)%R).
  { unfold x. apply Rmult_le_reg_r with (IZR MIN); [exact M0|]. unfold Rdiv.
    rewrite Rmult_assoc, Rinv_l, Rmult_1_r by lra. rewrite Rmult_plus_distr_r, Rinv_l by lra.
    rewrite <- mult_IZR. change 1%R with (IZR 1). rewrite <- plus_IZR. apply IZR_le. exact K1. }
  assert (X2 : (x <= IZR (k + 1))%R).
  { unfold x. apply Rmult_le_reg_r with (IZR MIN); [exact M0|]. unfold Rdiv.
    rewrite Rmult_assoc, Rinv_l, Rmult_1_r by lra. rewrite <- mult_IZR. apply IZR_le. exact K2. }
  assert (X0 : (0 < x)%R).
  { apply Rlt_le_trans with (2 := X1). apply Rplus_le_lt_0_compat; [apply IZR_le; lia|].
    apply Rinv_0_lt_compat. exact M0. }
  assert (X3 : (x < bpow radix2 18)%R).
  { unfold x. apply Rmult_lt_reg_r with (IZR MIN); [exact M0|]. unfold Rdiv.
    rewrite Rmult_assoc, Rinv_l, Rmult_1_r by lra. change (bpow radix2 18) with (IZR (2 ^ 18)).
    rewrite <- mult_IZR. apply IZR_lt. rewrite MIN_val. lia. }
  split.
  - pose proof (error_le_half_ulp radix2 fexp64 (fun t => negb (Z.even t)) x) as E.
    assert (U : (ulp radix2 fexp64 x <= bpow radix2 (-35))%R).
    { rewrite ulp_neq_0 by lra. apply bpow_le. unfold cexp, SpecFloat.fexp.
      assert (G : (mag radix2 x <= 18)%Z).
      { apply mag_le_bpow; [lra|]. rewrite Rabs_pos_eq by lra. exact X3. }
      unfold SpecFloat.emin. lia. }
    assert (V : (/ 2 * bpow radix2 (-35) < / IZR MIN)%R).
    { rewrite MIN_val. change (bpow radix2 (-35)) with (/ IZR (2 ^ 35))%R.
      change (2 ^ 35) with 34359738368. lra. }
    apply Rabs_le_inv in E. lra.
  - apply round_le_generic; [apply valid64|apply valid_rnd_N| |exact X2].
    apply small_int. lia.
Qed.

Lemma ceil_between : forall k x, (IZR k < x <= IZR (k + 1))%R -> Zceil x = k + 1.
Proof. intros k x H. apply Zceil_imp. replace (k + 1 - 1) with k by lia. exact H. Qed.

(** ** The length of a range of minutes *)

Lemma sub64_id : forall a b, int64 (a - b) -> sub64 a b = a - b.
Proof. intros. apply wrap64_id. assumption. Qed.

Lemma length_whole : forall start stop k, stop - start = k * MIN -> int64 (stop - start) ->
  arange_length64 start stop MIN = Ok k.
Proof.
  intros start stop k E R. unfold arange_length64. rewrite sub64_id by exact R. rewrite E.
  assert (B : Z.abs k < 2 ^ 28). { unfold int64 in R. rewrite E, MIN_val in R. lia. }
  destruct (divide_whole k B) as [Fq Bq].
  assert (Z0 : is_zero (true_divide (k * MIN) MIN) && negb (k * MIN =? 0) = false).
  { destruct (is_zero (true_divide (k * MIN) MIN)) eqn:Z; [|reflexivity].
    destruct (true_divide (k * MIN) MIN); try discriminate. cbn in Bq.
    apply eq_IZR in Bq. subst k. reflexivity. }
  rewrite Z0. rewrite ceil_ok; rewrite ?Bq, ?Zceil_IZR; [reflexivity|exact Fq|unfold int64; lia].
Qed.

Lemma length_short : forall start stop, 0 <= stop - start < 2 ^ 53 ->
  arange_length64 start stop MIN = Ok ((stop - start + MIN - 1) / MIN).
Proof.
  intros start stop H. destruct (Z.eq_dec (stop - start) 0) as [E|E].
  - rewrite (length_whole start stop 0); rewrite ?E; [reflexivity|reflexivity|].
    unfold int64. lia.
  - unfold arange_length64. set (d := stop - start) in *.
    rewrite sub64_id by (subst d; unfold int64; lia). fold d.
    assert (Hd : 0 < d < 2 ^ 53) by lia.
    pose proof (round_up_close d Hd) as C. cbv zeta in C. set (k := (d - 1) / MIN) in *.
    assert (K : 0 <= k < 2 ^ 18). { subst k. rewrite MIN_val. change (2 ^ 18) with 262144. Z.div_mod_to_equations. lia. }
    assert (R : (d + MIN - 1) / MIN = k + 1).
    { subst k. rewrite MIN_val. Z.div_mod_to_equations. lia. }
    rewrite R.
    destruct (divide_finite d) as [Fq Bq].
    { apply to_double_small. lia. }
    { rewrite Rabs_pos_eq.
      - eapply Rle_trans; [apply C|]. rewrite <- (Rabs_pos_eq (IZR (k + 1))) by (apply IZR_le; lia).
        apply IZR_64. lia.
      - apply Rlt_le. apply Rle_lt_trans with (2 := proj1 C). apply IZR_le. lia. }
    rewrite <- Bq in C.
    assert (Z0 : is_zero (true_divide d MIN) = false).
    { destruct (true_divide d MIN); try reflexivity. cbn in C. exfalso.
      assert (0 <= IZR k)%R by (apply IZR_le; lia). lra. }
    rewrite Z0. cbn [andb]. rewrite ceil_ok; rewrite ?(ceil_between k _ C); [reflexivity|exact Fq|unfold int64; lia].
Qed.

(** ** The elements *)

Lemma zseq_shift : forall n i start delta,
  map (fun j => start + j * delta) (zseq i 1 n) = zseq (start + i * delta) delta n.
Proof.
  induction n as [|n IH]; intros i start delta; [reflexivity|]. cbn [zseq map]. f_equal.
  rewrite IH. f_equal. ring.
Qed.

Lemma zseq_index : forall n i j, In j (zseq i 1 n) -> i <= j < i + Z.of_nat n.
Proof.
  induction n as [|n IH]; intros i j H; [destruct H|]. cbn [zseq] in H. destruct H as [->|H]; [lia|].
  apply IH in H. lia.
Qed.

Lemma add_sub64 : forall a b, sub64 (add64 a b) a = wrap64 b.
Proof.
  intros a b. unfold sub64, add64, wrap64.
  replace ((a + b + 2 ^ 63) mod 2 ^ 64 - 2 ^ 63 - a + 2 ^ 63) with ((a + b + 2 ^ 63) mod 2 ^ 64 - a) by lia.
  rewrite Zminus_mod_idemp_l. do 2 f_equal. lia.
Qed.

Lemma arange64_ok : forall start stop n, int64 start -> int64 stop -> int64 (stop - start) -> start <= stop ->
  arange_length64 start stop MIN = Ok n -> n = (stop - start + MIN - 1) / MIN ->
  arange64 start stop MIN = Ok (arange start stop MIN).
Proof.
  intros start stop n I1 I2 I3 L E En. unfold arange64. rewrite E. cbn [bind]. rewrite add_sub64.
  rewrite (wrap64_id MIN) by (rewrite MIN_val; unfold int64; lia).
  unfold int64 in I1, I2, I3. unfold arange. rewrite <- En.
  assert (N : 0 <= n /\ (n - 1) * MIN < stop - start).
  { rewrite En. rewrite MIN_val in *. Z.div_mod_to_equations. lia. }
  destruct (n <=? 0) eqn:Z.
  - replace n with 0 by lia. reflexivity.
  - f_equal. pose proof (zseq_shift (Z.to_nat n) 0 start MIN) as S0.
    replace (start + 0 * MIN) with start in S0 by lia. rewrite <- S0.
    apply map_ext_in. intros i Hi. apply zseq_index in Hi. rewrite Z2Nat.id in Hi by lia.
    assert (J : 0 <= i * MIN < stop - start) by (rewrite MIN_val in *; lia).
    unfold add64, mul64. rewrite (wrap64_id (i * MIN)) by (unfold int64; lia).
    apply wrap64_id. unfold int64. lia.
Qed.
