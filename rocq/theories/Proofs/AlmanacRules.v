(** The holiday rules of each exchange are the holidays of its almanac. *)
From Coq Require Import ZArith String List Bool Lia.
From Verif.Model Require Import Dates Holidays Build Exchange.
From Verif.Spec Require Import Civil Rules Almanac.
From Verif.Proofs Require Import DatesLemmas RuleLemmas RuleRange AlmanacLemmas.
From Verif.Exchanges Require Import All.
From Verif.Exchanges Require common_holidays us_holidays
  exchange_calendar_asex
  exchange_calendar_bvmf
  exchange_calendar_cmes
  exchange_calendar_iepa
  exchange_calendar_xams
  exchange_calendar_xasx
  exchange_calendar_xbkk
  exchange_calendar_xbog
  exchange_calendar_xbom
  exchange_calendar_xbru
  exchange_calendar_xbud
  exchange_calendar_xbue
  exchange_calendar_xcbf
  exchange_calendar_xcse
  exchange_calendar_xdub
  exchange_calendar_xfra
  exchange_calendar_xetr
  exchange_calendar_xhel
  exchange_calendar_xhkg
  exchange_calendar_xice
  exchange_calendar_xidx
  exchange_calendar_xist
  exchange_calendar_xjse
  exchange_calendar_xkar
  exchange_calendar_xkls
  exchange_calendar_xkrx
  exchange_calendar_xlim
  exchange_calendar_xlis
  exchange_calendar_xlon
  exchange_calendar_xmad
  exchange_calendar_xmex
  exchange_calendar_xmil
  exchange_calendar_xmos
  exchange_calendar_xnys
  exchange_calendar_xnze
  exchange_calendar_xosl
  exchange_calendar_xpar
  exchange_calendar_xphs
  exchange_calendar_xpra
  exchange_calendar_xses
  exchange_calendar_xsgo
  exchange_calendar_xshg
  exchange_calendar_xsto
  exchange_calendar_xswx
  exchange_calendar_xtai
  exchange_calendar_xtks
  exchange_calendar_xtse
  exchange_calendar_xwar
  exchange_calendar_xwbo
  us_futures_calendar.
Import ListNotations.
Open Scope Z_scope.

Definition same (rs : list rule) (hs : list days) : Prop :=
  forall n, (exists r, In r rs /\ falls_on r n) <-> (exists h, In h hs /\ h n).

Lemma same_nil : same [] [].
Proof. intros n. split; intros [x [[] _]]. Qed.

Lemma same_app : forall rs1 rs2 hs1 hs2, same rs1 hs1 -> same rs2 hs2 -> same (rs1 ++ rs2) (hs1 ++ hs2).
Proof.
  intros rs1 rs2 hs1 hs2 S1 S2 n. specialize (S1 n). specialize (S2 n). split; intros [x [H1 H2]].
  - apply in_app_iff in H1. destruct H1 as [H1|H1].
    + destruct (proj1 S1 (ex_intro _ x (conj H1 H2))) as [h [A B]]. exists h. rewrite in_app_iff. tauto.
    + destruct (proj1 S2 (ex_intro _ x (conj H1 H2))) as [h [A B]]. exists h. rewrite in_app_iff. tauto.
  - apply in_app_iff in H1. destruct H1 as [H1|H1].
    + destruct (proj2 S1 (ex_intro _ x (conj H1 H2))) as [h [A B]]. exists h. rewrite in_app_iff. tauto.
    + destruct (proj2 S2 (ex_intro _ x (conj H1 H2))) as [h [A B]]. exists h. rewrite in_app_iff. tauto.
Qed.

Lemma same_cons : forall r rs h hs, (forall n, falls_on r n <-> h n) -> same rs hs -> same (r :: rs) (h :: hs).
Proof.
  intros r rs h hs E S. apply (same_app [r] rs [h] hs); [|exact S].
  intros n. cbn [In]. split; intros [x [[<-|[]] H]]; [exists h|exists r]; (split; [left; reflexivity|apply E; exact H]).
Qed.

Lemma same_rules : forall r1 r2 rs h hs, (forall n, falls_on r1 n \/ falls_on r2 n <-> h n) -> same rs hs ->
  same (r1 :: r2 :: rs) (h :: hs).
Proof.
  intros r1 r2 rs h hs E S. apply (same_app [r1; r2] rs [h] hs); [|exact S].
  intros n. specialize (E n). cbn [In]. split.
  - intros [x [[<-|[<-|[]]] H]]; exists h; tauto.
  - intros [x [[<-|[]] H]]. apply E in H. destruct H as [H|H]; eexists; (split; [|exact H]); tauto.
Qed.

Lemma same_rules3 : forall r1 r2 r3 rs h hs,
  (forall n, falls_on r1 n \/ falls_on r2 n \/ falls_on r3 n <-> h n) -> same rs hs ->
  same (r1 :: r2 :: r3 :: rs) (h :: hs).
Proof.
  intros r1 r2 r3 rs h hs E S. apply (same_app [r1; r2; r3] rs [h] hs); [|exact S].
  intros n. specialize (E n). cbn [In]. split.
  - intros [x [[<-|[<-|[<-|[]]]] H]]; exists h; tauto.
  - intros [x [[<-|[]] H]]. apply E in H. destruct H as [H|[H|H]]; eexists; (split; [|exact H]); tauto.
Qed.

Lemma or_iff_compat_3 : forall A A' B B' C C' : Prop, (A <-> A') -> (B <-> B') -> (C <-> C') ->
  (A \/ B \/ C <-> A' \/ B' \/ C').
Proof. tauto. Qed.

(** ** Matching a rule with an entry *)

(** Bring a rule into the form of its lemma. *)
Ltac form :=
  first
    [ refine (iff_trans (rule_in_year _ _ _ _) _)
    | refine (iff_trans (rule_annual _ _ _ _ _ _) _)
    | refine (iff_trans (rule_kept _ _ _ _ _ _ _) _)
    | refine (iff_trans (rule_easter _ _ _ _ _) _)
    | refine (iff_trans (rule_nth _ _ _ _ _ _ _ _) _); [reflexivity|]
    | refine (iff_trans (rule_nth_last _ _ _ _ _ _ 1 _ _ _) _); [intros; reflexivity|reflexivity|]
    | refine (iff_trans (rule_nth_last _ _ _ _ _ _ 2 _ _ _) _); [intros; reflexivity|reflexivity|]
    | refine (iff_trans (rule_last_week _ _ _ _ _ _ _ _) _); [intros; reflexivity|]
    | refine (iff_trans (rule_first _ _ _ _ _ _ _ _) _); [split; [discriminate|reflexivity]|]
    | refine (iff_trans (rule_before _ _ _ _ _ _ _ _) _); [split; [discriminate|reflexivity]|]
    | refine (iff_trans (rule_nth_later _ _ _ _ _ _ _ _ _) _); [reflexivity|]
    | refine (iff_trans (rule_first_of_august _ _ _ _ _ _) _); [split; [discriminate|reflexivity]|]
    | refine (iff_trans (rule_last_of_august _ _ _ _ _ _) _); [split; [discriminate|reflexivity]|] ].

Ltac special := rewrite ?kept_except, ?kept_not_in, ?kept_only_friday, ?kept_bangkok, ?kept_same,
  ?kept_cultural, ?kept_taiwan, ?kept_good_friday_unless.

(** The holiday under the restrictions. *)
Ltac core R := lazymatch R with _ /\ ?S => core S | _ => R end.

Ltac numbers :=
  repeat match goal with
  | |- context [ymd ?y ?m ?d] => let v := eval vm_compute in (ymd y m d) in change (ymd y m d) with v
  | |- context [date_number ?y ?m ?d] =>
      let v := eval vm_compute in (date_number y m d) in change (date_number y m d) with v
  end.

Ltac mid :=
  first
    [ apply annual_mid; [lia|vm_compute; reflexivity|vm_compute; discriminate]
    | apply kept_mid; [exact I|lia|vm_compute; reflexivity|vm_compute; discriminate]
    | apply easter_mid; lia
    | apply nth_mid; lia
    | apply first_mid; [split; [discriminate|reflexivity]|lia|vm_compute; reflexivity|vm_compute; discriminate] ].

Ltac restrictions := cbv beta iota delta [window between since through since_date until_date on].

Ltac settle B := numbers; generalize B; intros; intuition lia.

(** An end on New Year's Day is an end with the old year. *)
Ltac new_year n B :=
  match goal with
  | |- context [ymd ?Y 1 1] =>
      let M := fresh "M" in
      assert (M : B -> n <> year_start Y) by (intros M; apply mid_year_first; revert M; mid);
      let v := eval vm_compute in (year_start Y) in change (year_start Y) with v in M;
      revert M; change (ymd Y 1 1) with v; settle B
  end.

Ltac entry :=
  let n := fresh "n" in intros n; form; special;
  first
  [ reflexivity
  | match goal with |- ?B <-> _ => exact (iff_refl B) end
  | restrictions;
    match goal with |- ?L /\ _ <-> ?R =>
      let X := core R in let B := core L in change X with B;
      first [solve [settle B]|solve [new_year n B]] end ].

(** Entries that name the Monday or the day after a feast. *)
Ltac feasts :=
  cbv beta delta [epiphany ascension_day corpus_christi assumption all_saints];
  rewrite ?monday_after_annual, ?monday_after_easter, ?easter_later,
    ?first_of_month by (split; [discriminate|reflexivity]);
  repeat match goal with
  | |- context [easter_plus (?a + ?b)] =>
      let v := eval vm_compute in (a + b) in change (a + b) with v
  end.
Ltac entry_feast :=
  let n := fresh "n" in intros n; form; restrictions; feasts;
  match goal with |- ?B /\ _ <-> _ => settle B end.

(** Three rules that leave out two years. *)
Ltac except_entry :=
  let n := fresh "n" in intros n; rewrite except_list; cbn [fold_right]; unfold in_year;
  etransitivity;
  [ apply or_iff_compat_3; [form; reflexivity|form; reflexivity|form; reflexivity]
  | restrictions;
    repeat match goal with
    | |- context [year_start ?y] => let v := eval vm_compute in (year_start y) in change (year_start y) with v
    end;
    numbers;
    match goal with |- ?B /\ _ \/ _ <-> _ => generalize B end;
    intros; split;
    [ intuition lia
    | intros (N1 & N2 & N3);
      match goal with |- _ /\ _ /\ _ /\ ?X \/ _ /\ _ /\ ?Y \/ _ /\ _ /\ ?Z /\ _ =>
        assert (X \/ Y \/ Z) by lia; tauto end ] ].

Ltac entries := repeat (apply same_cons; [first [entry|entry_feast]|]).

(** ** The exchanges *)

Lemma asex_same : same (ex_regular_holidays exchange_calendar_asex.calendar) athens.
Proof.
  change (ex_regular_holidays exchange_calendar_asex.calendar) with exchange_calendar_asex.regular_holidays.
  unfold exchange_calendar_asex.regular_holidays, athens. cbn [app].
  entries. apply same_nil.
Qed.

Lemma bvmf_same : same (ex_regular_holidays exchange_calendar_bvmf.calendar) sao_paulo.
Proof.
  change (ex_regular_holidays exchange_calendar_bvmf.calendar) with exchange_calendar_bvmf.regular_holidays.
  unfold exchange_calendar_bvmf.regular_holidays, sao_paulo. cbn [app].
  entries. apply same_nil.
Qed.

Lemma cmes_same : same (ex_regular_holidays exchange_calendar_cmes.calendar) us_futures_days.
Proof.
  change (ex_regular_holidays exchange_calendar_cmes.calendar) with exchange_calendar_cmes.regular_holidays.
  unfold exchange_calendar_cmes.regular_holidays, us_futures_days. cbn [app].
  entries. apply same_nil.
Qed.

Lemma iepa_same : same (ex_regular_holidays exchange_calendar_iepa.calendar) us_futures_days.
Proof.
  change (ex_regular_holidays exchange_calendar_iepa.calendar) with exchange_calendar_iepa.regular_holidays.
  unfold exchange_calendar_iepa.regular_holidays, us_futures_days. cbn [app].
  entries. apply same_nil.
Qed.

Lemma xams_same : same (ex_regular_holidays exchange_calendar_xams.calendar) amsterdam.
Proof.
  change (ex_regular_holidays exchange_calendar_xams.calendar) with exchange_calendar_xams.regular_holidays.
  unfold exchange_calendar_xams.regular_holidays, amsterdam. cbn [app].
  entries. apply same_nil.
Qed.

Lemma xasx_same : same (ex_regular_holidays exchange_calendar_xasx.calendar) sydney.
Proof.
  change (ex_regular_holidays exchange_calendar_xasx.calendar) with exchange_calendar_xasx.regular_holidays.
  unfold exchange_calendar_xasx.regular_holidays, sydney, christmas_days. cbn [app].
  entries. apply same_nil.
Qed.

Lemma xbkk_same : same (ex_regular_holidays exchange_calendar_xbkk.calendar) bangkok.
Proof.
  change (ex_regular_holidays exchange_calendar_xbkk.calendar) with exchange_calendar_xbkk.regular_holidays.
  unfold exchange_calendar_xbkk.regular_holidays, bangkok. cbn [app].
  entries. apply same_nil.
Qed.

Lemma xbog_same : same (ex_regular_holidays exchange_calendar_xbog.calendar) bogota.
Proof.
  change (ex_regular_holidays exchange_calendar_xbog.calendar) with exchange_calendar_xbog.regular_holidays.
  unfold exchange_calendar_xbog.regular_holidays, bogota. cbn [app].
  entries. apply same_nil.
Qed.

Lemma xbru_same : same (ex_regular_holidays exchange_calendar_xbru.calendar) brussels.
Proof.
  change (ex_regular_holidays exchange_calendar_xbru.calendar) with exchange_calendar_xbru.regular_holidays.
  unfold exchange_calendar_xbru.regular_holidays, brussels. cbn [app].
  entries. apply same_nil.
Qed.

Lemma xbud_same : same (ex_regular_holidays exchange_calendar_xbud.calendar) budapest.
Proof.
  change (ex_regular_holidays exchange_calendar_xbud.calendar) with exchange_calendar_xbud.regular_holidays.
  unfold exchange_calendar_xbud.regular_holidays, budapest. cbn [app].
  entries. apply same_nil.
Qed.

Lemma xbue_same : same (ex_regular_holidays exchange_calendar_xbue.calendar) buenos_aires.
Proof.
  change (ex_regular_holidays exchange_calendar_xbue.calendar) with exchange_calendar_xbue.regular_holidays.
  unfold exchange_calendar_xbue.regular_holidays, buenos_aires. cbn [app].
  entries. apply same_nil.
Qed.

Lemma xcbf_same : same (ex_regular_holidays exchange_calendar_xcbf.calendar) cboe.
Proof.
  change (ex_regular_holidays exchange_calendar_xcbf.calendar) with exchange_calendar_xcbf.regular_holidays.
  unfold exchange_calendar_xcbf.regular_holidays, cboe. cbn [app].
  entries. apply same_nil.
Qed.

Lemma xcse_same : same (ex_regular_holidays exchange_calendar_xcse.calendar) copenhagen.
Proof.
  change (ex_regular_holidays exchange_calendar_xcse.calendar) with exchange_calendar_xcse.regular_holidays.
  unfold exchange_calendar_xcse.regular_holidays, copenhagen. cbn [app].
  entries. apply same_nil.
Qed.

Lemma xdub_same : same (ex_regular_holidays exchange_calendar_xdub.calendar) dublin.
Proof.
  change (ex_regular_holidays exchange_calendar_xdub.calendar) with exchange_calendar_xdub.regular_holidays.
  unfold exchange_calendar_xdub.regular_holidays, dublin, christmas_days. cbn [app].
  entries. apply same_nil.
Qed.

Lemma xfra_same : same (ex_regular_holidays exchange_calendar_xfra.calendar) frankfurt.
Proof.
  change (ex_regular_holidays exchange_calendar_xfra.calendar) with exchange_calendar_xfra.regular_holidays.
  unfold exchange_calendar_xfra.regular_holidays, frankfurt. cbn [app].
  entries. apply same_nil.
Qed.

Lemma xetr_same : same (ex_regular_holidays exchange_calendar_xetr.calendar) frankfurt.
Proof.
  change (ex_regular_holidays exchange_calendar_xetr.calendar) with exchange_calendar_xetr.regular_holidays.
  unfold exchange_calendar_xetr.regular_holidays, frankfurt. cbn [app].
  entries. apply same_nil.
Qed.

Lemma xhel_same : same (ex_regular_holidays exchange_calendar_xhel.calendar) helsinki.
Proof.
  change (ex_regular_holidays exchange_calendar_xhel.calendar) with exchange_calendar_xhel.regular_holidays.
  unfold exchange_calendar_xhel.regular_holidays, helsinki. cbn [app].
  entries. apply same_nil.
Qed.

Lemma xhkg_same : same (ex_regular_holidays exchange_calendar_xhkg.calendar) hong_kong.
Proof.
  change (ex_regular_holidays exchange_calendar_xhkg.calendar) with exchange_calendar_xhkg.regular_holidays.
  unfold exchange_calendar_xhkg.regular_holidays, hong_kong. cbn [app].
  entries.
  match goal with |- same (?r1 :: ?r2 :: ?rs) (?a :: ?b :: ?c :: ?d :: ?e :: ?hs) =>
    apply (same_app [r1; r2] rs [a; b; c; d; e] hs) end; [|entries; apply same_nil].
  intros n. cbn [In]. split.
  - intros [r [[<-|[<-|[]]] H]].
    + apply rule_kept in H.
      assert (G := proj1 (queen_june n) (conj (proj1 H) (proj2 (proj2 H)))).
      destruct G as [G|[G|G]];
        [exact (ex_intro _ _ (conj (or_introl eq_refl) G))
        |exact (ex_intro _ _ (conj (or_intror (or_introl eq_refl)) G))
        |exact (ex_intro _ _ (conj (or_intror (or_intror (or_introl eq_refl))) G))].
    + apply rule_kept in H.
      assert (G := proj1 (queen_april n) (conj (proj1 H) (proj2 (proj2 H)))).
      destruct G as [G|G];
        [exact (ex_intro _ _ (conj (or_intror (or_intror (or_intror (or_introl eq_refl)))) G))
        |exact (ex_intro _ _ (conj (or_intror (or_intror (or_intror (or_intror (or_introl eq_refl))))) G))].
  - intros [h [Hh H]].
    assert (C : (between 1984 1996 (except [1985; 1988; 1993; 1994] (nth_of 3 MONDAY 6)) n \/
      between 1985 1985 (nth_of 4 MONDAY 6) n \/
      (exists y, In y [1983; 1988; 1993; 1994] /\ in_year n y /\ nth_of 2 MONDAY 6 n)) \/
      (since_date 1926 4 21 (through 1982 (except [1974; 1981] (kept after_sunday (annual 4 21)))) n \/
       (exists y, In y [1974; 1981] /\ in_year n y /\ first_on_or_after SUNDAY 4 21 n)))
      by (destruct Hh as [<-|[<-|[<-|[<-|[<-|[]]]]]]; tauto).
    destruct C as [C|C]; [apply queen_june in C|apply queen_april in C].
    + exists exchange_calendar_xhkg.QueenBirthday. split; [tauto|]. apply rule_kept.
      split; [apply C|]. split; [exact I|apply C].
    + exists exchange_calendar_xhkg.QueenBirthday2. split; [tauto|]. apply rule_kept.
      split; [apply C|]. split; [exact I|apply C].
Qed.

Lemma xice_same : same (ex_regular_holidays exchange_calendar_xice.calendar) reykjavik.
Proof.
  change (ex_regular_holidays exchange_calendar_xice.calendar) with exchange_calendar_xice.regular_holidays.
  unfold exchange_calendar_xice.regular_holidays, reykjavik. cbn [app].
  entries. apply same_nil.
Qed.

Lemma xidx_same : same (ex_regular_holidays exchange_calendar_xidx.calendar) jakarta.
Proof.
  change (ex_regular_holidays exchange_calendar_xidx.calendar) with exchange_calendar_xidx.regular_holidays.
  unfold exchange_calendar_xidx.regular_holidays, jakarta. cbn [app].
  entries. apply same_nil.
Qed.

Lemma xist_same : same (ex_regular_holidays exchange_calendar_xist.calendar) istanbul.
Proof.
  change (ex_regular_holidays exchange_calendar_xist.calendar) with exchange_calendar_xist.regular_holidays.
  unfold exchange_calendar_xist.regular_holidays, istanbul. cbn [app].
  entries. apply same_nil.
Qed.

Lemma xjse_same : same (ex_regular_holidays exchange_calendar_xjse.calendar) johannesburg.
Proof.
  change (ex_regular_holidays exchange_calendar_xjse.calendar) with exchange_calendar_xjse.regular_holidays.
  unfold exchange_calendar_xjse.regular_holidays, johannesburg. cbn [app].
  entries. apply same_nil.
Qed.

Lemma xkar_same : same (ex_regular_holidays exchange_calendar_xkar.calendar) karachi.
Proof.
  change (ex_regular_holidays exchange_calendar_xkar.calendar) with exchange_calendar_xkar.regular_holidays.
  unfold exchange_calendar_xkar.regular_holidays, karachi. cbn [app].
  entries. apply same_nil.
Qed.

Lemma xkls_same : same (ex_regular_holidays exchange_calendar_xkls.calendar) kuala_lumpur.
Proof.
  change (ex_regular_holidays exchange_calendar_xkls.calendar) with exchange_calendar_xkls.regular_holidays.
  unfold exchange_calendar_xkls.regular_holidays, kuala_lumpur. cbn [app].
  entries. apply same_nil.
Qed.

Lemma xlim_same : same (ex_regular_holidays exchange_calendar_xlim.calendar) lima.
Proof.
  change (ex_regular_holidays exchange_calendar_xlim.calendar) with exchange_calendar_xlim.regular_holidays.
  unfold exchange_calendar_xlim.regular_holidays, lima. cbn [app].
  entries. apply same_nil.
Qed.

Lemma xlis_same : same (ex_regular_holidays exchange_calendar_xlis.calendar) lisbon.
Proof.
  change (ex_regular_holidays exchange_calendar_xlis.calendar) with exchange_calendar_xlis.regular_holidays.
  unfold exchange_calendar_xlis.regular_holidays, lisbon. cbn [app].
  entries. apply same_nil.
Qed.

Lemma xlon_same : same (ex_regular_holidays exchange_calendar_xlon.calendar) london.
Proof.
  change (ex_regular_holidays exchange_calendar_xlon.calendar) with exchange_calendar_xlon.regular_holidays.
  unfold exchange_calendar_xlon.regular_holidays, london, christmas_days. cbn [app].
  entries.
  apply same_rules3; [except_entry|]. apply same_rules3; [except_entry|].
  entries. apply same_nil.
Qed.

Lemma xmad_same : same (ex_regular_holidays exchange_calendar_xmad.calendar) madrid.
Proof.
  change (ex_regular_holidays exchange_calendar_xmad.calendar) with exchange_calendar_xmad.regular_holidays.
  unfold exchange_calendar_xmad.regular_holidays, madrid. cbn [app].
  entries. apply same_nil.
Qed.

Lemma xmex_same : same (ex_regular_holidays exchange_calendar_xmex.calendar) mexico_city.
Proof.
  change (ex_regular_holidays exchange_calendar_xmex.calendar) with exchange_calendar_xmex.regular_holidays.
  unfold exchange_calendar_xmex.regular_holidays, mexico_city. cbn [app].
  entries. apply same_nil.
Qed.

Lemma xmil_same : same (ex_regular_holidays exchange_calendar_xmil.calendar) milan.
Proof.
  change (ex_regular_holidays exchange_calendar_xmil.calendar) with exchange_calendar_xmil.regular_holidays.
  unfold exchange_calendar_xmil.regular_holidays, milan. cbn [app].
  entries. apply same_nil.
Qed.

Lemma xmos_same : same (ex_regular_holidays exchange_calendar_xmos.calendar) moscow.
Proof.
  change (ex_regular_holidays exchange_calendar_xmos.calendar) with exchange_calendar_xmos.regular_holidays.
  unfold exchange_calendar_xmos.regular_holidays, moscow. cbn [app].
  entries. apply same_cons; [|apply same_nil].
  intros n. form. special. unfold window. split; [tauto|]. intros H. split; [exact H|].
  destruct H as [a [_ [_ [H _]]]]. split; [|split; exact I]. apply workday_in. exact H.
Qed.

Lemma xnys_same : same (ex_regular_holidays exchange_calendar_xnys.calendar) new_york.
Proof.
  change (ex_regular_holidays exchange_calendar_xnys.calendar) with exchange_calendar_xnys.regular_holidays.
  unfold exchange_calendar_xnys.regular_holidays, new_york. cbn [app].
  entries. apply same_cons; [|entries; apply same_nil].
  intros n. form. rewrite kept_election. unfold window. numbers.
  assert (E1 : -731 = date_number 1968 1 1) by (vm_compute; reflexivity).
  assert (E2 : 4017 = date_number 1980 12 31) by (vm_compute; reflexivity).
  rewrite E1, E2. split.
  - intros [[y [H1 [H2 H3]]] [_ [L1 L2]]]. exists y. split; [|split; assumption].
    rewrite (since_year n y 1968 H2) in L1. rewrite (through_year n y 1980 H2) in L2.
    assert (C : y = 1968 \/ y = 1972 \/ y = 1976 \/ y = 1980) by (Z.div_mod_to_equations; lia).
    cbn [In]. lia.
  - intros [y [H1 [H2 H3]]]. rewrite (since_year n y 1968 H2), (through_year n y 1980 H2).
    assert (C : y = 1968 \/ y = 1972 \/ y = 1976 \/ y = 1980) by (cbn [In] in H1; lia).
    split; [|split; [exact I|lia]]. exists y. split; [|split; assumption].
    destruct C as [->|[->|[->| ->]]]; reflexivity.
Qed.

Lemma xnze_same : same (ex_regular_holidays exchange_calendar_xnze.calendar) wellington.
Proof.
  change (ex_regular_holidays exchange_calendar_xnze.calendar) with exchange_calendar_xnze.regular_holidays.
  unfold exchange_calendar_xnze.regular_holidays, wellington. cbn [app].
  entries. apply same_nil.
Qed.

Lemma xosl_same : same (ex_regular_holidays exchange_calendar_xosl.calendar) oslo.
Proof.
  change (ex_regular_holidays exchange_calendar_xosl.calendar) with exchange_calendar_xosl.regular_holidays.
  unfold exchange_calendar_xosl.regular_holidays, oslo. cbn [app].
  entries. apply same_nil.
Qed.

Lemma xpar_same : same (ex_regular_holidays exchange_calendar_xpar.calendar) paris.
Proof.
  change (ex_regular_holidays exchange_calendar_xpar.calendar) with exchange_calendar_xpar.regular_holidays.
  unfold exchange_calendar_xpar.regular_holidays, paris. cbn [app].
  entries. apply same_nil.
Qed.

Lemma xphs_same : same (ex_regular_holidays exchange_calendar_xphs.calendar) manila.
Proof.
  change (ex_regular_holidays exchange_calendar_xphs.calendar) with exchange_calendar_xphs.regular_holidays.
  unfold exchange_calendar_xphs.regular_holidays, manila. cbn [app].
  entries. apply same_nil.
Qed.

Lemma xpra_same : same (ex_regular_holidays exchange_calendar_xpra.calendar) prague.
Proof.
  change (ex_regular_holidays exchange_calendar_xpra.calendar) with exchange_calendar_xpra.regular_holidays.
  unfold exchange_calendar_xpra.regular_holidays, prague. cbn [app].
  entries. apply same_nil.
Qed.

Lemma xsgo_same : same (ex_regular_holidays exchange_calendar_xsgo.calendar) santiago.
Proof.
  change (ex_regular_holidays exchange_calendar_xsgo.calendar) with exchange_calendar_xsgo.regular_holidays.
  unfold exchange_calendar_xsgo.regular_holidays, santiago. cbn [app].
  entries. apply same_nil.
Qed.

Lemma xsto_same : same (ex_regular_holidays exchange_calendar_xsto.calendar) stockholm.
Proof.
  change (ex_regular_holidays exchange_calendar_xsto.calendar) with exchange_calendar_xsto.regular_holidays.
  unfold exchange_calendar_xsto.regular_holidays, stockholm. cbn [app].
  entries. apply same_nil.
Qed.

Lemma xswx_same : same (ex_regular_holidays exchange_calendar_xswx.calendar) zurich.
Proof.
  change (ex_regular_holidays exchange_calendar_xswx.calendar) with exchange_calendar_xswx.regular_holidays.
  unfold exchange_calendar_xswx.regular_holidays, zurich. cbn [app].
  entries. apply same_nil.
Qed.

Lemma xtai_same : same (ex_regular_holidays exchange_calendar_xtai.calendar) taipei.
Proof.
  change (ex_regular_holidays exchange_calendar_xtai.calendar) with exchange_calendar_xtai.regular_holidays.
  unfold exchange_calendar_xtai.regular_holidays, taipei. cbn [app].
  entries. apply same_nil.
Qed.

Lemma xtks_same : same (ex_regular_holidays exchange_calendar_xtks.calendar) tokyo.
Proof.
  change (ex_regular_holidays exchange_calendar_xtks.calendar) with exchange_calendar_xtks.regular_holidays.
  unfold exchange_calendar_xtks.regular_holidays, tokyo. cbn [app].
  entries. apply same_rules; [|entries; apply same_nil].
  intros n.
  rewrite (rule_kept _ _ _ _ _ _ n : falls_on xtks_holidays.GreeneryDayThrough2006 n <-> _).
  rewrite (rule_kept _ _ _ _ _ _ n : falls_on xtks_holidays.ShowaDay n <-> _).
  unfold window. numbers. change (observed Sunday_to_monday) with after_sunday.
  generalize (kept after_sunday (annual 4 29) n). intros P. split; [tauto|].
  intros H. match goal with |- _ /\ _ /\ _ /\ ?X \/ _ /\ _ /\ ?Y /\ _ => assert (X \/ Y) by lia; tauto end.
Qed.

Lemma xtse_same : same (ex_regular_holidays exchange_calendar_xtse.calendar) toronto.
Proof.
  change (ex_regular_holidays exchange_calendar_xtse.calendar) with exchange_calendar_xtse.regular_holidays.
  unfold exchange_calendar_xtse.regular_holidays, toronto, christmas_days. cbn [app].
  entries. apply same_nil.
Qed.

Lemma xwar_same : same (ex_regular_holidays exchange_calendar_xwar.calendar) warsaw.
Proof.
  change (ex_regular_holidays exchange_calendar_xwar.calendar) with exchange_calendar_xwar.regular_holidays.
  unfold exchange_calendar_xwar.regular_holidays, warsaw. cbn [app].
  entries. apply same_nil.
Qed.

Lemma xwbo_same : same (ex_regular_holidays exchange_calendar_xwbo.calendar) vienna.
Proof.
  change (ex_regular_holidays exchange_calendar_xwbo.calendar) with exchange_calendar_xwbo.regular_holidays.
  unfold exchange_calendar_xwbo.regular_holidays, vienna. cbn [app].
  entries. apply same_nil.
Qed.

Lemma us_futures_same : same (ex_regular_holidays us_futures_calendar.calendar) us_futures_days.
Proof.
  change (ex_regular_holidays us_futures_calendar.calendar) with us_futures_calendar.regular_holidays.
  unfold us_futures_calendar.regular_holidays, us_futures_days. cbn [app].
  entries. apply same_nil.
Qed.
