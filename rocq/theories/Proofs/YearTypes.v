(** Dates of holiday rules relative to January 1st.  They depend on the year only
    through its type: whether it is a leap year and when Easter falls, which also
    gives the weekday of January 1st.  There are 70 types, so that two rules can be
    compared in all years at once. *)
From Coq Require Import ZArith List Bool Lia.
From Verif.Model Require Import Base Dates Holidays.
From Verif.Spec Require Import Civil Rules.
From Verif.Proofs Require Import DatesLemmas RuleLemmas RuleRange.
Import ListNotations.
Open Scope Z_scope.

(** ** Dates in the years near a reference date *)

Definition around (k a : Z) : list Z := year_range (a - k) (a + k).

Lemma around_In : forall k a n, In n (around k a) <-> Z.abs (n - a) <= k.
Proof. intros k a n. unfold around. rewrite year_range_In. lia. Qed.

(** Dates to which an observance can lead from [a]; some observances depend on the
    year, and are covered for all years at once. *)
Definition floating (o : observance) (a : Z) : list Z :=
  match o with
  | Cultural_diversity => [xbue_nearest_monday a]
  | Not_in_year _ => [a]
  | Weekend_to_monday_except _ => [weekend_to_monday a]
  | Xbkk_new_years_day => [next_monday_or_tuesday a]
  | Taiwan_makeup_rule => [a; a - 1; a + 1]
  | Process_queen_birthday => around 70 a
  | Following_tuesday_every_four_years => [nth_weekday TUESDAY 1 a]
  | Good_friday_unless_christmas_nye_friday => []
  | _ => apply_observance o [a]
  end.

Definition floating_offset (o : offset) (a : Z) : list Z :=
  match o with
  | WeekOfMonth _ _ | LastWeekOfMonth _ => around 70 a
  | Easter | Yearly _ => []
  | _ => [apply_offset o a]
  end.
Fixpoint floating_chain (os : list offset) (a : Z) : list Z :=
  match os with
  | [] => [a]
  | o :: rest => flat_map (floating_chain rest) (floating_offset o a)
  end.

(** ** Moving a date by whole weeks *)

Lemma weekday_week : forall a k, weekday (a + 7 * k) = weekday a.
Proof.
  intros a k. unfold weekday. replace (a + 7 * k + 3) with (a + 3 + k * 7) by lia.
  apply Z_mod_plus_full.
Qed.

Lemma nth_weekday_week : forall wd j a k, nth_weekday wd j (a + 7 * k) = nth_weekday wd j a + 7 * k.
Proof. intros wd j a k. unfold nth_weekday. rewrite weekday_week. destruct (0 <? j); lia. Qed.

Lemma around_week : forall j a k n, In n (around j a) -> In (n + k) (around j (a + k)).
Proof. intros j a k n. rewrite !around_In. lia. Qed.

Ltac week :=
  repeat match goal with
  | |- context[weekday (?a + 7 * ?k - 1 - 1)] =>
      replace (a + 7 * k - 1 - 1) with (a - 1 - 1 + 7 * k) by lia; rewrite (weekday_week (a - 1 - 1) k)
  | |- context[weekday (?a + 7 * ?k - 1)] =>
      replace (a + 7 * k - 1) with (a - 1 + 7 * k) by lia; rewrite (weekday_week (a - 1) k)
  | |- context[weekday (?a + 7 * ?k)] => rewrite (weekday_week a k)
  end.

Lemma floating_week : forall o a k n, In n (floating o a) -> In (n + 7 * k) (floating o (a + 7 * k)).
Proof.
  intros o a k n H.
  assert (S : forall f, f (a + 7 * k) = f a + 7 * k -> In n (map f [a]) -> In (n + 7 * k) (map f [a + 7 * k])).
  { intros f E. cbn [map]. rewrite !In_single. intros ->. symmetry. exact E. }
  assert (S1 : forall f, f (a + 7 * k) = f a + 7 * k -> In n [f a] -> In (n + 7 * k) [f (a + 7 * k)]).
  { intros f E. rewrite !In_single. intros ->. symmetry. exact E. }
  assert (WM : weekend_to_monday (a + 7 * k) = weekend_to_monday a + 7 * k).
  { unfold weekend_to_monday. week. destruct (weekday a =? 6), (weekday a =? 5); lia. }
  assert (MT : next_monday_or_tuesday (a + 7 * k) = next_monday_or_tuesday a + 7 * k).
  { unfold next_monday_or_tuesday. week. cbv zeta. destruct (_ || _), (weekday a =? 0); lia. }
  destruct o; cbn [floating apply_observance] in *.
  - revert H. apply S. unfold sunday_to_monday. week. destruct (weekday a =? 6); lia.
  - revert H. apply S. exact WM.
  - revert H. apply S. unfold nearest_workday. week. destruct (weekday a =? 6), (weekday a =? 5); lia.
  - revert H. apply S. unfold next_monday. week. destruct (weekday a =? 6), (weekday a =? 5); lia.
  - revert H. apply S. exact MT.
  - revert H. apply S. unfold previous_friday. week. destruct (weekday a =? 6), (weekday a =? 5); lia.
  - revert H. apply S. unfold previous_workday. cbv zeta. week.
    destruct (weekday (a - 1) >? 4); week.
    + replace (a - 1 + 7 * k - 1) with (a - 1 - 1 + 7 * k) by lia. week.
      destruct (weekday (a - 1 - 1) >? 4); lia.
    + replace (a - 1 + 7 * k - 1) with (a - 1 - 1 + 7 * k) by lia.
      destruct (weekday (a - 1) >? 4); lia.
  - revert H. apply S1. apply nth_weekday_week.
  - destruct H.
  - unfold four_day_weekend in *. cbv zeta in *. cbn [filter] in *. rewrite !weekday_week.
    destruct (weekday a =? TUESDAY), (weekday a =? THURSDAY); cbn [map app In] in *; lia.
  - revert H. apply S1. unfold xbue_nearest_monday. cbv zeta. week. destruct (memb _ _); lia.
  - revert H. rewrite !In_single. lia.
  - revert H. apply S. apply nth_weekday_week.
  - apply around_week. exact H.
  - revert H. apply S. unfold boxing_day_obs. lia.
  - revert H. apply S1. exact WM.
  - revert H. apply S1. exact MT.
  - revert H. apply S. unfold songkran_festival_last_day_observance. week. destruct (_ || _); lia.
  - unfold only_friday in *. cbn [filter] in *. week.
    destruct (weekday a =? FRIDAY); [|destruct H]. rewrite In_single in *. lia.
  - revert H. apply S. unfold xsgo_nearest_monday. cbv zeta. week.
    destruct (memb _ _); [lia|]. destruct (_ =? _); lia.
  - revert H. apply S. unfold tuesday_and_wednesday_to_friday. cbv zeta. week.
    destruct (weekday a =? TUESDAY), (weekday a =? WEDNESDAY); lia.
  - cbn [In] in *. lia.
  - revert H. apply S. unfold sunday_to_tuesday. week. destruct (weekday a =? SUNDAY); lia.
  - revert H. apply S. unfold sunday_to_wednesday. week. destruct (weekday a =? SUNDAY); lia.
Qed.

Lemma chain_week : forall os a k n, In n (floating_chain os a) ->
  In (n + 7 * k) (floating_chain os (a + 7 * k)).
Proof.
  induction os as [|o os IH]; intros a k n H; cbn [floating_chain] in *.
  - rewrite In_single in *. lia.
  - apply in_flat_map in H. destruct H as [b [H1 H2]]. apply in_flat_map. exists (b + 7 * k).
    split; [|apply IH; exact H2].
    destruct o; cbn [floating_offset apply_offset] in *; try (destruct H1; fail);
      try (apply around_week; exact H1); rewrite In_single in *; subst b; [lia|].
    symmetry. apply nth_weekday_week.
Qed.

(** ** The rules lead to floating dates *)

Definition plain_offset (o : offset) : bool := match o with Easter | Yearly _ => false | _ => true end.

Lemma floating_ok : forall o a n, observed o a n ->
  o <> Following_tuesday_every_four_years -> o <> Good_friday_unless_christmas_nye_friday ->
  In n (floating o a).
Proof.
  intros o a n H N1 N2. pose proof (proj2 (observance_iff o a n) H) as E.
  destruct o;
    match goal with
    | |- In _ (floating Cultural_diversity _) => idtac
    | |- In _ (floating (Not_in_year _) _) => idtac
    | |- In _ (floating Process_queen_birthday _) => idtac
    | |- In _ (floating (Weekend_to_monday_except _) _) => idtac
    | |- In _ (floating Xbkk_new_years_day _) => idtac
    | |- In _ (floating Taiwan_makeup_rule _) => idtac
    | |- In _ (floating Following_tuesday_every_four_years _) => contradiction N1; reflexivity
    | |- In _ (floating Good_friday_unless_christmas_nye_friday _) => contradiction N2; reflexivity
    | _ => exact E
    end; cbn [floating apply_observance] in *.
  - unfold cultural_diversity_observance in E. cbn [map filter] in E.
    destruct (negb _) in E; [exact E|destruct E].
  - unfold not_in_year in E. cbn [filter] in E. destruct (negb _) in E; [exact E|destruct E].
  - apply around_In. apply (observance_reach Process_queen_birthday a n H).
  - unfold weekend_to_monday_except in E. cbn [filter] in E.
    destruct (negb _) in E; [exact E|destruct E].
  - unfold xbkk_new_years_day_observance in E. cbn [filter] in E.
    destruct (negb _) in E; [exact E|destruct E].
  - cbn [observed] in H. cbn [In]. lia.
Qed.

Lemma floating_chain_ok : forall os a n, forallb valid_offset os = true ->
  forallb plain_offset os = true -> moves_all os a n -> In n (floating_chain os a).
Proof.
  induction os as [|o os IH]; intros a n V P H; cbn [moves_all floating_chain] in *.
  - rewrite In_single. exact H.
  - cbn [forallb] in V, P. apply andb_true_iff in V, P. destruct V as [V1 V2], P as [P1 P2].
    destruct H as [b [H1 H2]]. apply in_flat_map. exists b. split; [|apply IH; assumption].
    pose proof (offset_reach_ok o a b V1 H1) as R. apply (offset_iff o a b V1) in H1.
    destruct o; try discriminate P1; cbn [floating_offset]; rewrite ?In_single; try exact H1;
      apply around_In; exact R.
Qed.

(** ** Types of years *)

Definition year_type : Type := (bool * Z)%type.
Definition type_of (y : Z) : year_type := (leap y, easter y - year_start y).

(** Days before the month in a year that is or is not a leap year. *)
Definition month_start (l : bool) (m : Z) : Z :=
  fold_right Z.add 0 (firstn (Z.to_nat (m - 1))
    [31; if l then 29 else 28; 31; 30; 31; 30; 31; 31; 30; 31; 30; 31]).

(** A day with the weekday of January 1st. *)
Definition base (T : year_type) : Z := (6 - snd T) mod 7 - 3.

(** The dates of the rule in a year of type [T], counted from January 1st. *)
Definition rel (r : rule) (T : year_type) : list Z :=
  let b := base T in
  let a := b + month_start (fst T) (r_month r) + (r_day r - 1) in
  let dates :=
    match r_observance r with
    | Some Good_friday_unless_christmas_nye_friday => [b + snd T - 2]
    | Some o => floating o a
    | None =>
        match r_offset r with
        | Easter :: os => floating_chain os (b + snd T)
        | os => floating_chain os a
        end
    end in
  let dates := match r_days_of_week r with
               | Some dow => filter (fun d => memb (weekday d) dow) dates
               | None => dates
               end in
  map (fun d => d - b) dates.

Definition plain_rule (r : rule) : bool :=
  settled r &&
  match r_year r with
  | Some _ => false
  | None =>
      match r_observance r with
      | Some _ => true
      | None =>
          match r_offset r with
          | Easter :: os => forallb plain_offset os
          | os => forallb plain_offset os
          end
      end
  end.

Lemma sunday_week : forall e s, (e + 3) mod 7 = 6 -> exists k, s = (6 - (e - s)) mod 7 - 3 + 7 * k.
Proof.
  intros e s E. exists ((s + 3 - (6 - (e - s)) mod 7) / 7). Z.div_mod_to_equations. lia.
Qed.

Lemma base_week : forall y, exists k, year_start y = base (type_of y) + 7 * k.
Proof.
  intros y. unfold base, type_of, snd. generalize (easter_sunday y). generalize (easter y) (year_start y).
  intros e s H. apply (sunday_week e s H).
Qed.

Lemma reference_type : forall r y,
  reference r y = year_start y + month_start (fst (type_of y)) (r_month r) + (r_day r - 1).
Proof. reflexivity. Qed.

Definition in_window (r : rule) (n : Z) : bool :=
  match r_start r with Some s => s <=? n | None => true end &&
  match r_end r with Some e => n <=? e | None => true end.

Lemma observance_eq_dec : forall o,
  o = Following_tuesday_every_four_years \/ o = Good_friday_unless_christmas_nye_friday \/
  (o <> Following_tuesday_every_four_years /\ o <> Good_friday_unless_christmas_nye_friday).
Proof. intros []; auto; right; right; split; discriminate. Qed.

Lemma rel_ok : forall r n, plain_rule r = true -> falls_on r n ->
  in_window r n = true /\
  exists y, year_of n - 1 <= y <= year_of n + 1 /\ In (n - year_start y) (rel r (type_of y)).
Proof.
  intros r n P H. unfold plain_rule in P. apply andb_true_iff in P. destruct P as [S P].
  destruct (r_year r) as [yy|] eqn:Y; [discriminate P|].
  apply falls_on_eq in H; [|exact Y]. destruct H as [[y0 H] [Hd [Hs He]]].
  split.
  { unfold in_window. apply andb_true_iff. split.
    - destruct (r_start r) as [s|]; [|reflexivity]. apply Z.leb_le. apply Hs. reflexivity.
    - destruct (r_end r) as [e|]; [|reflexivity]. apply Z.leb_le. apply He. reflexivity. }
  destruct (settled_near r y0 n S Y H) as [y1 [H1 N1]]. clear H y0.
  (* the year whose type counts *)
  assert (K : exists y, year_of n - 1 <= y <= year_of n + 1 /\
    match r_observance r with
    | Some Good_friday_unless_christmas_nye_friday => n = easter y - 2
    | Some o => In n (floating o (reference r y))
    | None => match r_offset r with
              | Easter :: os => In n (floating_chain os (easter y))
              | os => In n (floating_chain os (reference r y))
              end
    end).
  { pose proof S as S0. unfold settled in S0. apply andb_true_iff in S0. destruct S0 as [V S0].
    rewrite Y in S0. pose proof (valid_rule_date r y1 V) as Vd.
    assert (J : r_month r = 1 -> 1 <= r_day r <= 31).
    { intros E. destruct Vd as [_ Vd]. rewrite E in Vd. exact Vd. }
    unfold valid_rule in V. rewrite andb_true_iff in V. destruct V as [_ V].
    pose proof H1 as L. unfold leads in L. destruct (r_observance r) as [o|] eqn:Ob.
    - destruct (observance_eq_dec o) as [->|[->|[N2 N3]]].
      + destruct L as [ya [ma [da [y' [V0 [E0 [Hy' Hn]]]]]]].
        destruct (date_number_inj _ _ _ _ _ _ Vd V0 E0) as [<- [<- <-]].
        assert (Vr : valid_rule r = true) by (unfold settled in S; apply andb_true_iff in S; apply S).
        pose proof (valid_rule_date r y' Vr) as Vd'.
        assert (En : n = nth_weekday TUESDAY 1 (reference r y')).
        { apply (first_from_iff _ _ _ n (first_weekday_ok TUESDAY (reference r y') ltac:(unfold TUESDAY; lia))).
          exact Hn. }
        exists y'. split.
        * pose proof (proj1 (nth_weekday_ok TUESDAY 1 (reference r y') n ltac:(unfold TUESDAY; lia) ltac:(lia)) En) as [_ Q].
          change (0 <? 1) with true in Q. cbv iota in Q.
          pose proof (year_near (reference r y') n y' (date_number_year _ _ _ Vd') ltac:(lia)). lia.
        * left. symmetry. exact En.
      + cbn [observance_settled] in S0. apply Z.eqb_eq in S0.
        destruct L as [ya [e [_ [Hm [En _]]]]]. unfold reference in Hm. rewrite S0 in Hm.
        apply easter_from_january in Hm; [|apply J; exact S0]. exists y1. split; [exact N1|].
        subst e. exact En.
      + exists y1. split; [exact N1|].
        pose proof (floating_ok o _ _ L N2 N3) as F. destruct o; try exact F. contradiction N3. reflexivity.
    - exists y1. split; [exact N1|]. destruct (r_offset r) as [|o os] eqn:Eo.
      + apply (floating_chain_ok [] _ _ V P L).
      + assert (C : o = Easter \/ plain_offset o = true).
        { destruct o; auto. }
        destruct C as [->|C].
        * apply andb_true_iff in S0. destruct S0 as [S1 _]. apply Z.eqb_eq in S1.
          cbn [moves_all] in L. destruct L as [b [L1 L2]]. unfold reference in L1. rewrite S1 in L1.
          apply easter_from_january in L1; [|apply J; exact S1]. subst b.
          cbn [forallb] in V. apply andb_true_iff in V. apply floating_chain_ok; [apply V|exact P|exact L2].
        * assert (P' : forallb plain_offset (o :: os) = true) by (destruct o; try discriminate C; exact P).
          pose proof (floating_chain_ok (o :: os) _ _ V P' L) as F. destruct o; try discriminate C; exact F. }
  destruct K as [y [Ny K]]. exists y. split; [exact Ny|]. clear H1 N1 y1.
  destruct (base_week y) as [k Ek].
  set (T := type_of y) in *. set (b := base T) in *.
  assert (G : In (n - 7 * k)
    (match r_observance r with
     | Some Good_friday_unless_christmas_nye_friday => [b + snd T - 2]
     | Some o => floating o (b + month_start (fst T) (r_month r) + (r_day r - 1))
     | None => match r_offset r with
               | Easter :: os => floating_chain os (b + snd T)
               | os => floating_chain os (b + month_start (fst T) (r_month r) + (r_day r - 1))
               end
     end)).
  { assert (Er : reference r y + 7 * (- k) = b + month_start (fst T) (r_month r) + (r_day r - 1)).
    { rewrite reference_type. fold T. lia. }
    assert (Ee : easter y + 7 * (- k) = b + snd T).
    { unfold T, type_of. cbn [snd]. lia. }
    rewrite <- Er, <- Ee. replace (n - 7 * k) with (n + 7 * (- k)) by lia.
    destruct (r_observance r) as [o|].
    - assert (C : o = Good_friday_unless_christmas_nye_friday \/ o <> Good_friday_unless_christmas_nye_friday)
        by (destruct o; (left; reflexivity) || (right; discriminate)).
      destruct C as [->|C].
      + left. subst n. lia.
      + assert (F : In n (floating o (reference r y))) by (destruct o; try exact K; contradiction C; reflexivity).
        apply (floating_week o _ (- k)) in F. destruct o; try exact F. contradiction C. reflexivity.
    - destruct (r_offset r) as [|o os].
      + apply chain_week. exact K.
      + assert (C : o = Easter \/ o <> Easter) by (destruct o; (left; reflexivity) || (right; discriminate)).
        destruct C as [->|C]; [apply chain_week; exact K|].
        assert (F : In n (floating_chain (o :: os) (reference r y))) by (destruct o; try exact K; contradiction C; reflexivity).
        apply (chain_week _ _ (- k)) in F. destruct o; try exact F. contradiction C. reflexivity. }
  unfold rel. fold T. cbv zeta. fold b. apply in_map_iff. exists (n - 7 * k). split; [lia|].
  revert G. set (ds := match r_observance r with Some _ => _ | None => _ end). clearbody ds. intros G.
  destruct (r_days_of_week r) as [dow|]; [|exact G].
  apply filter_In. split; [exact G|]. apply memb_In.
  replace (n - 7 * k) with (n + 7 * (- k)) by lia. rewrite weekday_week, weekday_dow.
  apply Hd. reflexivity.
Qed.
