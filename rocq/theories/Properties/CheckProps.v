(** C75: the program that compares the calendars with a holiday key. *)
From Coq Require Import String Ascii ZArith List Bool Lia Sorting.Sorted Sorting.Permutation.
From Verif.Model Require Import Base Queries Dates Build Holidays Dispatcher Checks.
From Verif.Spec Require Import Schedule Construction Rules.
From Verif.Proofs Require Import BaseLemmas QueryLemmas2 ScheduleLemmas BuildLemmas DispatcherLemmas.
From Verif.Properties Require Import QueryProps.
Import ListNotations.
Open Scope Z_scope.

(** ** What the key and the calendar say of a day *)

(** The day of a timestamp is a Monday to Friday. *)
Definition on_workday (x : Z) : Prop := workday (x / one_day).
(** The key has a row with this code and date. *)
Definition in_key (data : key) (code : string) (x : Z) : Prop := In (code, x) data.
(** The days of the comparison. *)
Definition compared (data : key) (code : string) (first last min_date : Z) (x : Z) : Prop :=
  is_midnight x /\ first <= x <= last /\ min_date <= x /\
  (exists h, in_key data code h /\ h <= x) /\ exists h, in_key data code h /\ x <= h.

Lemma memb_iff : forall x l, memb x l = true <-> In x l.
Proof.
  intros x l. unfold memb. rewrite existsb_exists. split.
  - intros [y [H E]]. apply Z.eqb_eq in E. subst. exact H.
  - intros H. exists x. split; [exact H|apply Z.eqb_refl].
Qed.
Lemma difference_In : forall a b x, In x (difference a b) <-> In x a /\ ~ In x b.
Proof.
  intros a b x. unfold difference. rewrite filter_In, negb_true_iff. pose proof (memb_iff x b).
  destruct (memb x b); intuition congruence.
Qed.
Lemma key_holidays_In : forall data code x, In x (key_holidays data code) <-> in_key data code x.
Proof.
  intros data code x. unfold key_holidays, in_key. rewrite nodup_In, in_map_iff. split.
  - intros [[c y] [<- H]]. apply filter_In in H. destruct H as [H E]. apply String.eqb_eq in E. cbn in *. subst. exact H.
  - intros H. exists (code, x). split; [reflexivity|]. apply filter_In. split; [exact H|apply String.eqb_refl].
Qed.
Lemma fold_min_le : forall l h x, fold_left Z.min l h <= x <-> exists y, In y (h :: l) /\ y <= x.
Proof.
  intros l. induction l as [|a l IH]; intros h x; cbn [fold_left].
  - split; [intros H; exists h; split; [left; reflexivity|exact H]|intros [y [[<-|[]] H]]; exact H].
  - rewrite IH. split.
    + intros [y [[<-|H] L]]; [|exists y; split; [right; right; exact H|exact L]].
      destruct (Z.min_spec h a) as [[_ E]|[_ E]]; rewrite E in L; [exists h|exists a]; (split; [cbn; auto|exact L]).
    + intros [y [[<-|[<-|H]] L]]; [exists (Z.min h a)|exists (Z.min h a)|exists y]; (split; [cbn; auto|lia]).
Qed.
Lemma fold_max_le : forall l h x, x <= fold_left Z.max l h <-> exists y, In y (h :: l) /\ x <= y.
Proof.
  intros l. induction l as [|a l IH]; intros h x; cbn [fold_left].
  - split; [intros H; exists h; split; [left; reflexivity|exact H]|intros [y [[<-|[]] H]]; exact H].
  - rewrite IH. split.
    + intros [y [[<-|H] L]]; [|exists y; split; [right; right; exact H|exact L]].
      destruct (Z.max_spec h a) as [[_ E]|[_ E]]; rewrite E in L; [exists a|exists h]; (split; [cbn; auto|exact L]).
    + intros [y [[<-|[<-|H]] L]]; [exists (Z.max h a)|exists (Z.max h a)|exists y]; (split; [cbn; auto|lia]).
Qed.
Lemma fold_min_in : forall l h, In (fold_left Z.min l h) (h :: l).
Proof.
  intros l. induction l as [|a l IH]; intros h; [left; reflexivity|]. cbn [fold_left].
  destruct (IH (Z.min h a)) as [H|H]; [|right; right; exact H].
  destruct (Z.min_spec h a) as [[_ E]|[_ E]]; rewrite E in H at 1; rewrite <- H; [left|right; left]; reflexivity.
Qed.
Lemma fold_max_in : forall l h, In (fold_left Z.max l h) (h :: l).
Proof.
  intros l. induction l as [|a l IH]; intros h; [left; reflexivity|]. cbn [fold_left].
  destruct (IH (Z.max h a)) as [H|H]; [|right; right; exact H].
  destruct (Z.max_spec h a) as [[_ E]|[_ E]]; rewrite E in H at 1; rewrite <- H; [right; left|left]; reflexivity.
Qed.

(** ** One calendar *)

(** With a key that has holidays of the calendar, the report on the calendar lists in order
    exactly the sessions of the compared days that are holidays of the key or weekend days,
    and exactly the workdays among them that are neither sessions nor in the key; it says
    that the calendar matches exactly when there are none of either.  It is headed by the
    number of dates of the calendar in the key. *)
Theorem c75_report : forall ss c f l data code answer_key strip min_date name,
  well_formed ss -> has_schedule c ss -> least (is_label_of ss) f -> greatest (is_label_of ss) l ->
  (forall s, In s ss -> is_midnight (s_label s)) -> (forall h, in_key data code h -> is_midnight h) -> is_midnight min_date ->
  code = csv_cal_code answer_key strip name -> (exists h, in_key data code h) ->
  exists dates start stop wrong_sessions wrong_holidays,
    NoDup dates /\ (forall x, In x dates <-> in_key data code x) /\
    (forall x, is_midnight x -> (start <= x <= stop <-> compared data code f l min_date x)) /\
    lists_exactly (fun x => compared data code f l min_date x /\ is_label_of ss x /\ (in_key data code x \/ ~ on_workday x)) wrong_sessions /\
    lists_exactly (fun x => compared data code f l min_date x /\ ~ is_label_of ss x /\ on_workday x /\ ~ in_key data code x) wrong_holidays /\
    check_calendar data answer_key strip min_date name c =
      Ok ([Checking (Z.of_nat (length dates)) name start stop]
          ++ (match wrong_sessions with [] => [] | _ => [HolidaysInKey name wrong_sessions] end)
          ++ (match wrong_holidays with [] => [] | _ => [TradingInKey name wrong_holidays] end)
          ++ (match wrong_sessions, wrong_holidays with [], [] => [Matches name] | _, _ => [] end)
          ++ [Blank])%list.
Proof.
  intros ss c f l data code answer_key strip min_date name Hwf Hc Hf Hl Hm Hk Hd -> Hex.
  unfold check_calendar. set (code := csv_cal_code answer_key strip name) in *.
  pose proof (key_holidays_In data code) as KI.
  destruct (key_holidays data code) as [|h hs] eqn:EK.
  { destruct Hex as [x Hx]. apply KI in Hx. destruct Hx. }
  destruct (c22_first_last_session ss c Hwf Hc) as [f' [l' [Ef [El [Gf Gl]]]]].
  assert (f' = f) by (destruct Hf as [F1 F2], Gf as [G1 G2]; specialize (F2 _ G1); specialize (G2 _ F1); lia).
  assert (l' = l) by (destruct Hl as [F1 F2], Gl as [G1 G2]; specialize (F2 _ G1); specialize (G2 _ F1); lia).
  subst f' l'. rewrite Ef, El. cbn [bind].
  set (start := Z.max (Z.max f (fold_left Z.min hs h)) min_date). set (stop := Z.min l (fold_left Z.max hs h)).
  assert (Mf : is_midnight f /\ is_midnight l).
  { destruct Hf as [[s [Hs ->]] _], Hl as [[s' [Hs' ->]] _]. split; apply Hm; assumption. }
  assert (M1 : is_midnight start).
  { unfold start. assert (is_midnight (fold_left Z.min hs h)) by (apply Hk, KI, fold_min_in).
    destruct (Z.max_spec (Z.max f (fold_left Z.min hs h)) min_date) as [[_ ->]|[_ ->]]; [exact Hd|].
    destruct (Z.max_spec f (fold_left Z.min hs h)) as [[_ ->]|[_ ->]]; tauto. }
  assert (M2 : is_midnight stop).
  { unfold stop. assert (is_midnight (fold_left Z.max hs h)) by (apply Hk, KI, fold_max_in).
    destruct (Z.min_spec l (fold_left Z.max hs h)) as [[_ ->]|[_ ->]]; tauto. }
  assert (RG : forall x, start <= x <= stop <-> f <= x <= l /\ min_date <= x /\
      (exists h0, in_key data code h0 /\ h0 <= x) /\ exists h0, in_key data code h0 /\ x <= h0).
  { intros x. unfold start, stop. rewrite !Z.max_lub_iff, Z.min_glb_iff, fold_min_le, fold_max_le.
    split.
    - intros [[[A1 [y [Y1 Y2]]] A2] [A3 [z [Z1 Z2]]]]. split; [lia|]. split; [exact A2|].
      split; [exists y|exists z]; (split; [apply KI|]; assumption).
    - intros [A1 [A2 [[y [Y1 Y2]] [z [Z1 Z2]]]]]. repeat split; try lia; [exists y|exists z]; (split; [apply KI|]; assumption). }
  assert (DR : forall x, In x (date_range (fun d => weekday d <? 5) start stop) <->
      is_midnight x /\ start <= x <= stop /\ on_workday x).
  { intros x. rewrite date_range_In by (apply midnight_mod in M1, M2; lia). unfold on_workday, workday, day_of_week, weekday, day_of.
    rewrite NPD_one_day, Z.ltb_lt. unfold is_midnight in *. split; intros [D1 D2]; (split; [|exact D2]).
    - replace x with ((x - start) + start) by lia. apply Z.divide_add_r; assumption.
    - apply Z.divide_sub_r; assumption. }
  destruct (c12_sessions_in_range ss c start stop Hwf Hc) as [SS SI].
  exists (h :: hs). eexists start, stop, _, _.
  split; [rewrite <- EK; unfold key_holidays; apply NoDup_nodup|]. split; [intros x; apply KI|].
  split; [|split; [|split]].
  4:{ unfold check_range. rewrite <- !app_assoc. reflexivity. }
  - intros x Mx. rewrite RG. unfold compared. tauto.
  - split; [apply SSorted_filter; exact SS|]. intros x. rewrite difference_In, SI, difference_In, DR, KI.
    unfold compared. rewrite <- RG. split.
    + intros [[L R] N]. assert (Mx : is_midnight x) by (destruct L as [s [Hs ->]]; exact (Hm s Hs)).
      split; [tauto|]. split; [exact L|].
      assert (W : {on_workday x} + {~ on_workday x}) by (unfold on_workday, workday; apply Z_lt_dec).
      destruct W; [|auto]. left.
      destruct (in_dec Z.eq_dec x (h :: hs)) as [I|I]; [apply KI; exact I|]. exfalso. apply N. split; [auto|]. rewrite <- KI. exact I.
    + intros [[Mx R] [L O]]. split; [auto|]. intros [[_ [_ W]] NK]. tauto.
  - split; [apply SSorted_filter, SSorted_filter, date_range_sorted|]. intros x. rewrite difference_In, difference_In, DR, KI, SI.
    unfold compared. rewrite <- RG. tauto.
Qed.

(** The verdict: it matches exactly when on each compared day the calendar has a session if and
    only if the day is a workday that is not in the key. *)
Theorem c75_matches : forall ss c f l data code answer_key strip min_date name out,
  well_formed ss -> has_schedule c ss -> least (is_label_of ss) f -> greatest (is_label_of ss) l ->
  (forall s, In s ss -> is_midnight (s_label s)) -> (forall h, in_key data code h -> is_midnight h) -> is_midnight min_date ->
  code = csv_cal_code answer_key strip name -> (exists h, in_key data code h) ->
  check_calendar data answer_key strip min_date name c = Ok out ->
  (In (Matches name) out <->
   forall x, compared data code f l min_date x -> (is_label_of ss x <-> on_workday x /\ ~ in_key data code x)).
Proof.
  intros ss c f l data code answer_key strip min_date name out Hwf Hc Hf Hl Hm Hk Hd Hcode Hex Hout.
  destruct (c75_report ss c f l data code answer_key strip min_date name Hwf Hc Hf Hl Hm Hk Hd Hcode Hex)
    as [n [start [stop [ws [wh [_ [_ [_ [[_ W] [[_ V] E]]]]]]]]]].
  rewrite E in Hout. injection Hout as <-. split.
  - intros H x Cx.
    assert (N : ws = [] /\ wh = []).
    { destruct ws, wh; [auto|..]; exfalso; cbn in H; repeat (destruct H as [H|H]; [discriminate|]); exact H. }
    destruct N as [-> ->]. specialize (W x). specialize (V x). cbn in W, V.
    assert (D : {on_workday x} + {~ on_workday x}) by (unfold on_workday, workday; apply Z_lt_dec).
    assert (L : {In x (map s_label ss)} + {~ In x (map s_label ss)}) by apply (in_dec Z.eq_dec).
    assert (LE : is_label_of ss x <-> In x (map s_label ss)).
    { rewrite in_map_iff. unfold is_label_of. split; intros [s [H1 H2]]; exists s; auto. }
    assert (K : {In x (key_holidays data code)} + {~ In x (key_holidays data code)}) by apply (in_dec Z.eq_dec).
    pose proof (key_holidays_In data code x). destruct D, L, K; tauto.
  - intros H. assert (ws = []).
    { destruct ws as [|x ws]; [reflexivity|exfalso]. destruct (proj1 (W x) (or_introl eq_refl)) as [Cx [L O]].
      apply (H x Cx) in L. tauto. }
    assert (wh = []).
    { destruct wh as [|x wh]; [reflexivity|exfalso]. destruct (proj1 (V x) (or_introl eq_refl)) as [Cx [L [O K]]].
      apply L. apply (H x Cx). auto. }
    subst. cbn. tauto.
Qed.

(** If the calendar has no sessions at weekends, the dates printed as holidays in the given key
    are in the key. *)
Theorem c75_in_key : forall ss c f l data code answer_key strip min_date name out dates,
  well_formed ss -> has_schedule c ss -> least (is_label_of ss) f -> greatest (is_label_of ss) l ->
  (forall s, In s ss -> is_midnight (s_label s)) -> (forall h, in_key data code h -> is_midnight h) -> is_midnight min_date ->
  code = csv_cal_code answer_key strip name -> (exists h, in_key data code h) ->
  check_calendar data answer_key strip min_date name c = Ok out ->
  (forall s, In s ss -> on_workday (s_label s)) ->
  In (HolidaysInKey name dates) out -> forall x, In x dates -> in_key data code x.
Proof.
  intros ss c f l data code answer_key strip min_date name out dates Hwf Hc Hf Hl Hm Hk Hd Hcode Hex Hout Hw Hin x Hx.
  destruct (c75_report ss c f l data code answer_key strip min_date name Hwf Hc Hf Hl Hm Hk Hd Hcode Hex)
    as [n [start [stop [ws [wh [_ [_ [_ [[_ W] [_ E]]]]]]]]]].
  rewrite E in Hout. injection Hout as <-.
  assert (dates = ws).
  { destruct ws, wh; cbn in Hin; repeat (destruct Hin as [Hin|Hin]; [try discriminate Hin; injection Hin as <-; reflexivity|]);
      contradiction. }
  subst. apply W in Hx. destruct Hx as [_ [[s [Hs ->]] [H|H]]]; [exact H|]. exfalso. exact (H (Hw s Hs)).
Qed.

(** A calendar for examples: sessions from Thursday 1970-01-01 to Sunday, and on Tuesday. *)
Definition ex_sundays : list session :=
  map (fun d => Session (d * one_day) (d * one_day + 600 * one_minute) None (d * one_day + 700 * one_minute)) [0; 1; 3; 5].
Definition ex_sunday_cal : calendar :=
  match make_calendar (map s_label ex_sundays) (map s_open ex_sundays) (map bs_cell ex_sundays)
          (map be_cell ex_sundays) (map s_close ex_sundays) with
  | Ok c => c
  | Raise _ => Calendar [] [] [] [] [] []
  end.
Example ex_sundays_wf : well_formed ex_sundays.
Proof.
  Transparent not_a_time one_minute.
  split; [|split].
  - repeat constructor; vm_compute; repeat split; discriminate.
  - repeat constructor; vm_compute; repeat split;
      match goal with |- exists z, ?x = _ => exists (x / 60000000000); reflexivity end.
  - repeat constructor; vm_compute; reflexivity.
  Opaque not_a_time one_minute.
Qed.
Example ex_sundays_cal : has_schedule ex_sunday_cal ex_sundays.
Proof. vm_compute. reflexivity. Qed.

(** The words of the report are wrong for exchanges that trade at weekends, such as Tel Aviv:
    a Sunday session is printed as a holiday in the given key that is not in the key. *)
Theorem c75_in_key_refuted : exists ss c data min_date name out dates x,
  well_formed ss /\ has_schedule c ss /\ (forall s, In s ss -> is_midnight (s_label s)) /\
  (forall h, in_key data name h -> is_midnight h) /\ is_midnight min_date /\
  check_calendar data None false min_date name c = Ok out /\
  In (HolidaysInKey name dates) out /\ In x dates /\ ~ in_key data name x.
Proof.
  exists ex_sundays, ex_sunday_cal, [("XTAE"%string, 0); ("XTAE"%string, 4 * one_day)], 0, "XTAE"%string. eexists _, [0; 3 * one_day], (3 * one_day).
  split; [exact ex_sundays_wf|]. split; [exact ex_sundays_cal|].
  split; [intros s H; cbn in H; destruct H as [<-|[<-|[<-|[<-|[]]]]]; [exists 0|exists 1|exists 3|exists 5]; reflexivity|].
  split; [intros h [H|[H|[]]]; injection H as <-; [exists 0|exists 4]; reflexivity|].
  split; [apply Z.divide_0_r|]. split; [vm_compute; reflexivity|]. split; [vm_compute; tauto|]. split; [right; left; reflexivity|].
  vm_compute. intros [H|[H|[]]]; discriminate H.
Qed.

(** "matches" is also said when nothing was compared: a key that ends before the calendar starts. *)
Theorem c75_nothing_compared_refuted : exists ss c data min_date name,
  well_formed ss /\ has_schedule c ss /\ (exists h, in_key data name h) /\
  (forall f l x, least (is_label_of ss) f -> ~ compared data name f l min_date x) /\
  exists out, check_calendar data None false min_date name c = Ok out /\ In (Matches name) out.
Proof.
  exists ex_sundays, ex_sunday_cal, [("XTAE"%string, - one_day)], 0, "XTAE"%string.
  split; [exact ex_sundays_wf|]. split; [exact ex_sundays_cal|]. split; [eexists; left; reflexivity|]. split.
  - intros f l x [[s [H ->]] _] [_ [[A _] [_ [_ [h [[E|[]] B]]]]]]. injection E as <-. assert (0 < one_day) by (vm_compute; reflexivity).
    assert (0 <= s_label s) by (cbn in H; destruct H as [<-|[<-|[<-|[<-|[]]]]]; vm_compute; discriminate). lia.
  - eexists. split; [vm_compute; reflexivity|]. vm_compute. tauto.
Qed.

Example c75_ex : check_calendar [("XTAE"%string, 1 * one_day); ("XNYS"%string, 0); ("XTAE"%string, 5 * one_day)] None false 0 "XTAE"%string ex_sunday_cal =
  Ok [Checking 2 "XTAE"%string (1 * one_day) (5 * one_day); HolidaysInKey "XTAE"%string [1 * one_day; 3 * one_day; 5 * one_day];
      TradingInKey "XTAE"%string [4 * one_day]; Blank].
Proof. vm_compute. reflexivity. Qed.

(** ** The program *)

(** A calendar without rows in the key is named as such and not compared. *)
Theorem c75_no_rows : forall data answer_key strip min_date name c,
  (forall h, ~ in_key data (csv_cal_code answer_key strip name) h) ->
  check_calendar data answer_key strip min_date name c = Ok [NoHolidays name; Blank].
Proof.
  intros data answer_key strip min_date name c H. unfold check_calendar.
  destruct (key_holidays data (csv_cal_code answer_key strip name)) as [|h hs] eqn:E; [reflexivity|exfalso].
  apply (H h). apply key_holidays_In. rewrite E. left. reflexivity.
Qed.

Lemma insert_name_perm : forall n l, Permutation (n :: l) (insert_name n l).
Proof.
  intros n l. induction l as [|m l IH]; cbn; [reflexivity|]. destruct (String.leb n m); [reflexivity|].
  rewrite perm_swap. apply perm_skip. exact IH.
Qed.
Lemma default_names_perm : Permutation (keys default_calendar_factories) default_calendar_names.
Proof.
  unfold default_calendar_names. induction (keys default_calendar_factories) as [|n l IH]; [reflexivity|]. cbn [fold_right].
  rewrite <- insert_name_perm. apply perm_skip. exact IH.
Qed.

Fixpoint sorted_namesb (l : list string) : bool :=
  match l with [] => true | n :: l' => forallb (String.leb n) l' && sorted_namesb l' end.
Lemma sorted_names : forall l, sorted_namesb l = true -> StronglySorted (fun a b => String.leb a b = true) l.
Proof.
  intros l. induction l as [|n l IH]; cbn; intros H; constructor; apply andb_prop in H; destruct H as [H1 H2].
  - exact (IH H2).
  - apply Forall_forall. intros x Hx. rewrite forallb_forall in H1. exact (H1 x Hx).
Qed.

(** The program prints one block for each chosen default calendar, or for all if none is chosen, in
    the order of their names, and nothing else; it fails only with a failure of one of them. *)
Theorem c75_program : forall get data answer_key strip min_date chosen out,
  check_holidays get data answer_key strip min_date chosen = Ok out ->
  exists names blocks,
    NoDup names /\ StronglySorted (fun a b => String.leb a b = true) names /\
    (forall n, In n names <-> (exists f, Dispatcher.lookup n default_calendar_factories = Some f) /\ (chosen = [] \/ In n chosen)) /\
    Forall2 (fun n b => exists c, get n = Ok c /\ check_calendar data answer_key strip min_date n c = Ok b) names blocks /\
    out = concat blocks.
Proof.
  intros get data answer_key strip min_date chosen out H. unfold check_holidays in H.
  set (names := filter _ default_calendar_names) in H.
  assert (M : forall ns bs, mapM (fun name => do c <- get name; check_calendar data answer_key strip min_date name c) ns = Ok bs ->
    Forall2 (fun n b => exists c, get n = Ok c /\ check_calendar data answer_key strip min_date n c = Ok b) ns bs).
  { clear. intros ns. induction ns as [|n ns IH]; intros bs; cbn [mapM].
    - intros E. injection E as <-. constructor.
    - destruct (get n) as [c|] eqn:G; cbn [bind]; [|discriminate].
      destruct (check_calendar data answer_key strip min_date n c) as [b|] eqn:B; cbn [bind]; [|discriminate].
      destruct (mapM _ ns) as [bs'|] eqn:R; cbn [bind]; [|discriminate]. intros E. injection E as <-.
      constructor; [exists c; auto|]. apply IH. reflexivity. }
  destruct (mapM _ names) as [bs|] eqn:E; cbn [bind] in H; [|discriminate]. injection H as <-.
  exists names, bs.
  assert (ND : NoDup default_calendar_names).
  { assert (N : nodup string_dec default_calendar_names = default_calendar_names) by (vm_compute; reflexivity).
    rewrite <- N. apply NoDup_nodup. }
  split; [apply NoDup_filter; exact ND|]. split.
  { assert (St : StronglySorted (fun a b => String.leb a b = true) default_calendar_names)
      by (apply sorted_names; vm_compute; reflexivity).
    subst names. revert St. generalize default_calendar_names. clear. intros l St. induction St as [|n l St IH F]; [constructor|].
    cbn [filter]. set (p := match chosen with [] => true | _ => _ end). destruct p; [|exact IH]. constructor; [exact IH|].
    apply Forall_forall. intros x Hx. apply filter_In in Hx. rewrite Forall_forall in F. exact (F x (proj1 Hx)). }
  split; [|split; [exact (M names bs E)|reflexivity]].
  intros n. subst names. rewrite filter_In.
  assert (Q : In n default_calendar_names <-> exists f, Dispatcher.lookup n default_calendar_factories = Some f).
  { split; intros K.
    - apply (Permutation_in _ (Permutation_sym default_names_perm)) in K. apply lookup_keys in K.
      destruct (Dispatcher.lookup n default_calendar_factories) as [f|]; [exists f; reflexivity|congruence].
    - apply (Permutation_in _ default_names_perm). apply lookup_keys. destruct K as [f K]. congruence. }
  rewrite Q. destruct chosen as [|a chosen]; [tauto|]. rewrite existsb_exists. split.
  - intros [K [x [X1 X2]]]. apply String.eqb_eq in X2. subst. auto.
  - intros [K [X|X]]; [discriminate|]. split; [exact K|]. exists n. split; [exact X|apply String.eqb_refl].
Qed.

Lemma map_injective : forall (f : string -> string) l, NoDup (map f l) -> forall a b, In a l -> In b l -> f a = f b -> a = b.
Proof.
  intros f l. induction l as [|x l IH]; intros N a b Ha Hb E; [destruct Ha|]. cbn in N. inversion N as [|y l' N1 N2]; subst.
  destruct Ha as [->|Ha], Hb as [->|Hb]; [reflexivity|..].
  - exfalso. apply N1. rewrite E. apply in_map. exact Hb.
  - exfalso. apply N1. rewrite <- E. apply in_map. exact Ha.
  - exact (IH N2 a b Ha Hb E).
Qed.

(** A name given for the key is the code; otherwise it is the name of the calendar. *)
Theorem c75_given_code : forall given name,
  (given <> EmptyString -> forall strip, csv_cal_code (Some given) strip name = given) /\
  csv_cal_code None false name = name /\ csv_cal_code (Some EmptyString) false name = name.
Proof.
  intros given name. split; [|split; reflexivity]. intros N strip. destruct given as [|a s]; [contradiction N; reflexivity|reflexivity].
Qed.

(** With --strip-x-from-cal-name, the code of a default calendar is its name without the X in
    front, and no two of them share a code. *)
Theorem c75_codes : forall n f, Dispatcher.lookup n default_calendar_factories = Some f ->
  csv_cal_code None true n = (match n with String "X" n' => n' | _ => n end) /\
  forall m g, Dispatcher.lookup m default_calendar_factories = Some g ->
    csv_cal_code None true n = csv_cal_code None true m -> n = m.
Proof.
  assert (K : forall n f, Dispatcher.lookup n default_calendar_factories = Some f -> In n (keys default_calendar_factories)).
  { intros n f H. apply lookup_keys. congruence. }
  intros n f H. split.
  - assert (A : forallb (fun n => String.eqb (csv_cal_code None true n) (match n with String "X" n' => n' | _ => n end))
        (keys default_calendar_factories) = true) by (vm_compute; reflexivity).
    rewrite forallb_forall in A. apply String.eqb_eq. exact (A n (K n f H)).
  - intros m g G E.
    assert (N : nodup string_dec (map (csv_cal_code None true) (keys default_calendar_factories)) =
      map (csv_cal_code None true) (keys default_calendar_factories)) by (vm_compute; reflexivity).
    apply (map_injective (csv_cal_code None true) (keys default_calendar_factories)); [|exact (K n f H)|exact (K m g G)|exact E].
    rewrite <- N. apply NoDup_nodup.
Qed.

Example c75_program_ex :
  check_holidays (fun _ => Ok ex_sunday_cal) [("TAE"%string, 1 * one_day); ("TAE"%string, 5 * one_day)] None true 0 ["XTAE"%string; "24/7"%string] =
  Ok [NoHolidays "24/7"%string; Blank; Checking 2 "XTAE"%string (1 * one_day) (5 * one_day);
      HolidaysInKey "XTAE"%string [1 * one_day; 3 * one_day; 5 * one_day]; TradingInKey "XTAE"%string [4 * one_day]; Blank].
Proof. vm_compute. reflexivity. Qed.

(** ** Assumptions *)
Print Assumptions c75_report.
Print Assumptions c75_matches.
Print Assumptions c75_in_key.
Print Assumptions c75_in_key_refuted.
Print Assumptions c75_nothing_compared_refuted.
Print Assumptions c75_no_rows.
Print Assumptions c75_program.
Print Assumptions c75_given_code.
Print Assumptions c75_codes.
