(** How many sessions a year has (C98). *)
From Coq Require Import ZArith String List Bool Lia Sorting.Sorted.
From Verif.Model Require Import Base Dates Zone Queries Build Holidays Exchange.
From Verif.Spec Require Import Schedule Construction Civil Rules Venue Almanac PerYear.
From Verif.Proofs Require Import BaseLemmas DatesLemmas QueryLemmas RuleLemmas AlmanacLemmas BuildLemmas VenueLemmas PerYearLemmas.
From Verif.Properties Require Import ExchangeProps AlmanacProps.
From Verif.Exchanges Require Import All zones.
Import ListNotations.
Open Scope Z_scope.

(** ** The holidays of the exchanges as kinds *)
Definition ny := Anniversary 1 1.
Definition gf := AfterEaster (-2).
Definition em := AfterEaster 1.
Definition may_day := Anniversary 5 1.
Definition eve := Anniversary 12 24.
Definition xmas := Anniversary 12 25.
Definition boxing := Anniversary 12 26.
Definition nye := Anniversary 12 31.
Definition substitutes := [xmas; EarlyOnly 12 27; boxing; EarlyOnly 12 28].
Definition entries : list (string * Z * list entry) :=
  [("ASEX", 2021, [ny; Anniversary 1 6; Anniversary 3 25; gf; em; may_day; Anniversary 8 15; Anniversary 10 28; eve; xmas; boxing]);
   ("CMES", 2019, [AfterSunday 1 1; gf; Closest 12 25]);
   ("IEPA", 2019, [AfterSunday 1 1; gf; Closest 12 25]);
   ("XAMS", 2002, [ny; gf; em; may_day; xmas; boxing]);
   ("XASX", 2012, ([AfterWeekend 1 1; AfterWeekend 1 26; gf; em; Anniversary 4 25; Nth 2 0 6] ++ substitutes)%list);
   ("XBRU", 2002, [ny; gf; em; may_day; xmas; boxing]);
   ("XCSE", 2009, [ny; AfterEaster (-3); gf; em; AfterEaster 26; AfterEaster 39; AfterEaster 40; AfterEaster 50; Anniversary 6 5; eve; xmas; boxing; nye]);
   ("XDUB", 2019, ([AfterWeekend 1 1; gf; em; AfterWeekend 5 1] ++ substitutes)%list);
   ("XFRA", 2018, [ny; gf; em; may_day; AfterEaster 50; Anniversary 10 3; eve; xmas; boxing; nye]);
   ("XETR", 2018, [ny; gf; em; may_day; AfterEaster 50; Anniversary 10 3; eve; xmas; boxing; nye]);
   ("XHEL", 1970, [ny; Anniversary 1 6; gf; em; may_day; AfterEaster 39; FirstOn 4 6 19; Anniversary 12 6; eve; xmas; boxing; nye]);
   ("XICE", 1970, [ny; AfterEaster (-3); gf; em; FirstOn 3 4 19; may_day; AfterEaster 39; AfterEaster 50; Anniversary 6 17; Nth 1 0 8; eve; xmas; boxing; nye]);
   ("XJSE", 2020, [AfterSunday 1 1; AfterSunday 3 21; gf; em; AfterSunday 4 27; AfterSunday 5 1; AfterSunday 6 16; AfterSunday 8 9; AfterSunday 9 24; AfterSunday 12 16; AfterSunday 12 25; AfterSunday 12 26]);
   ("XLIM", 2019, [ny; AfterEaster (-3); gf; may_day; Anniversary 6 29; Anniversary 7 28; Anniversary 7 29; Anniversary 8 30; Anniversary 10 8; Anniversary 11 1; Anniversary 12 8; xmas]);
   ("XLIS", 2003, [ny; gf; em; may_day; xmas; boxing]);
   ("XLON", 2021, ([AfterWeekend 1 1; gf; em; Nth 1 0 5; LastOf 0 5; LastOf 0 8] ++ substitutes)%list);
   ("XMAD", 2011, [ny; gf; em; may_day; xmas; boxing]);
   ("XMEX", 2011, [ny; Nth 1 0 2; Nth 3 0 3; AfterEaster (-3); gf; may_day; Anniversary 9 16; Anniversary 11 2; Nth 3 0 11; Anniversary 12 12; xmas]);
   ("XMIL", 1970, [ny; gf; em; may_day; Anniversary 8 15; eve; xmas; boxing; nye]);
   ("XNYS", 2019, [AfterSunday 1 1; Nth 3 0 1; Nth 3 0 2; gf; LastOf 0 5; Closest 7 4; Nth 1 0 9; Nth 4 3 11; Closest 12 25]);
   ("XOSL", 1970, [ny; AfterEaster (-3); gf; em; may_day; AfterEaster 39; Anniversary 5 17; AfterEaster 50; eve; xmas; boxing; nye]);
   ("XPAR", 2002, [ny; gf; em; may_day; xmas; boxing]);
   ("XPRA", 2013, [ny; gf; em; may_day; Anniversary 5 8; Anniversary 7 5; Anniversary 7 6; Anniversary 9 28; Anniversary 10 28; Anniversary 11 17; eve; xmas; boxing; nye]);
   ("XSTO", 2005, [ny; Anniversary 1 6; gf; em; may_day; AfterEaster 39; Anniversary 6 6; FirstOn 4 6 19; eve; xmas; boxing; nye]);
   ("XSWX", 1970, [ny; Anniversary 1 2; em; gf; may_day; AfterEaster 39; AfterEaster 50; Anniversary 8 1; eve; xmas; boxing; nye]);
   ("XTSE", 2008, ([AfterWeekend 1 1; Nth 3 0 2; gf; LastOn 0 5 24; AfterWeekend 7 1; Nth 1 0 8; Nth 1 0 9; Nth 2 0 10] ++ substitutes)%list);
   ("XWAR", 2019, [ny; Anniversary 1 6; gf; em; may_day; Anniversary 5 3; AfterEaster 60; Anniversary 8 15; Anniversary 11 1; Anniversary 11 11; eve; xmas; boxing; nye]);
   ("XWBO", 2019, [ny; gf; em; AfterEaster 50; may_day; Anniversary 10 26; eve; xmas; boxing; nye]);
   ("us_futures", 1970, [AfterSunday 1 1; gf; Closest 12 25])]%string.

Lemma keep_later : forall k j n, kept (days_later k) (easter_plus j) n <-> easter_plus (j + k) n.
Proof.
  intros k j n. unfold kept, days_later, easter_plus. split.
  - intros [a [[y H] ->]]. exists y. replace (a + k - (j + k)) with (a - j) by lia. exact H.
  - intros [y H]. exists (n - k). split; [|lia]. exists y. replace (n - k - j) with (n - (j + k)) by lia. exact H.
Qed.
Lemma drop_those : forall y0 ys h, forallb (fun y => y <? y0) ys = true ->
  forall n, date_number y0 1 1 <= n -> ~ (exists y, In y ys /\ in_year n y /\ h n).
Proof.
  intros y0 ys h L n N [y [I [[_ Y] _]]]. rewrite forallb_forall in L. specialize (L y I). apply Z.ltb_lt in L.
  rewrite date_position in N. change (before (leap y0) 1) with 0 in N.
  destruct (Z.eq_dec (y + 1) y0) as [<-|Q]; [lia|]. pose proof (year_start_mono (y + 1) y0 ltac:(lia)). lia.
Qed.

Ltac kept_day := first
  [ intros n _; exact (iff_refl _)
  | intros n _; exact (keep_later _ _ n)
  | apply keep_since; [reflexivity|kept_day]
  | apply keep_except; [reflexivity|kept_day] ].
Ltac dropped_day := first [ apply drop_through; reflexivity | apply drop_between; reflexivity | apply drop_those; reflexivity ].
Ltac agree := first
  [ apply agrees_nil
  | apply agrees_keep; [kept_day|]; agree
  | apply agrees_drop; [dropped_day|]; agree ].

Definition almanac_of (name : string) : list days :=
  match List.find (fun r => String.eqb (fst r) name) almanac with Some r => snd r | None => [] end.
Lemma almanac_agrees : Forall (fun r => match r with (name, y0, es) => agrees y0 (almanac_of name) es end) entries.
Proof.
  unfold entries. repeat (apply Forall_cons || apply Forall_nil).
  all: match goal with |- agrees ?y0 (almanac_of ?n) ?es =>
         let hs := eval lazy [almanac_of almanac List.find String.eqb Ascii.eqb Bool.eqb fst snd] in (almanac_of n) in
         change (agrees y0 hs es) end.
  all: match goal with |- agrees ?y0 ?hs ?es => let hs' := eval hnf in hs in change (agrees y0 hs' es) end.
  all: cbn [app christmas_days substitutes].
  all: agree.
Qed.

Lemma almanac_found : forallb (fun r => match List.find (fun a => String.eqb (fst a) (fst (fst r))) almanac with Some _ => true | None => false end) entries = true.
Proof. reflexivity. Qed.
Lemma closures_agree : forall name y0 es n, In (name, y0, es) entries -> date_number y0 1 1 <= n ->
  (annual_closure name n <-> exists e, In e es /\ days_of e n).
Proof.
  intros name y0 es n I N. pose proof almanac_agrees as A. rewrite Forall_forall in A. specialize (A _ I). cbn beta iota in A.
  rewrite <- (A n N). unfold annual_closure, almanac_of.
  pose proof (proj1 (forallb_forall _ _) almanac_found _ I) as F. cbn [fst] in F.
  destruct (List.find (fun r => String.eqb (fst r) name) almanac) as [[x hs]|] eqn:E; [|discriminate F].
  apply find_some in E. destruct E as [E Q]. cbn [fst] in Q. apply String.eqb_eq in Q. subst x. cbn [snd]. split.
  - intros [hs' [h [A' Hh]]]. rewrite (almanac_unique name hs hs' E A'). exists h. exact Hh.
  - intros [h Hh]. exists hs, h. tauto.
Qed.

Lemma entries_fit : forallb (fun r => forallb fits (snd r)) entries = true.
Proof. reflexivity. Qed.
Definition first_year (name : string) : option Z :=
  match List.find (fun r => String.eqb (fst (fst r)) name) entries with Some r => Some (snd (fst r)) | None => None end.
Lemma closures_before : forallb (fun p => match first_year (fst p) with
    Some y0 => let d := date_number y0 1 1 in forallb (fun n => n <? d) (ex_adhoc_holidays (snd p)) | None => true end) exchanges = true.
Proof. vm_compute. reflexivity. Qed.
Lemma first_years : forallb (fun r => match first_year (fst (fst r)) with Some y => (y =? snd (fst r)) && (1970 <=? y) | None => false end) entries = true.
Proof. reflexivity. Qed.
Lemma no_tel_aviv : forallb (fun r => negb (String.eqb (fst (fst r)) "XTAE")) entries = true.
Proof. reflexivity. Qed.

(** ** The number of sessions from the kind of the year *)
Lemma january_1 : forall y, date_number y 1 1 = year_start y.
Proof. intros y. rewrite date_position. change (before (leap y) 1) with 0. lia. Qed.
Lemma december_31 : forall y, date_number y 12 31 = year_start y + Z.of_nat (year_days (leap y)) - 1.
Proof.
  intros y. rewrite date_position. unfold year_days. destruct (leap y); [change (before true 12) with 335|change (before false 12) with 334]; lia.
Qed.
Lemma year_count : forall name y0 es E z start stop b y, In (name, y0, es) entries -> In (name, E) exchanges ->
  is_midnight start -> build_exchange E z start stop = Ok b ->
  start <= first_of y -> last_of y <= stop -> y0 <= y <= 2200 ->
  (length (sessions_in_range (cal b) (first_of y) (last_of y)) +
   length (taken (leap y) (day_of_week (year_start y)) (easter y - year_start y) es))%nat = workdays (leap y) (day_of_week (year_start y)).
Proof.
  intros name y0 es E z start stop b y I H M Hb L R Y.
  pose proof (proj1 (forallb_forall _ _) no_tel_aviv _ I) as NT. cbn [fst snd] in NT.
  pose proof (proj1 (forallb_forall _ _) first_years _ I) as FY. cbn [fst snd] in FY.
  pose proof (proj1 (forallb_forall _ _) entries_fit _ I) as FE. cbn [snd] in FE.
  pose proof (proj1 (forallb_forall _ _) closures_before _ H) as CB. cbn [fst snd] in CB.
  destruct (first_year name) as [y1|]; [|discriminate FY]. apply andb_prop in FY. destruct FY as [FY FZ]. apply Z.eqb_eq in FY. subst y1. apply Z.leb_le in FZ.
  assert (N : name <> "XTAE"%string). { intros ->. discriminate NT. }
  destruct (c51_sessions name E z start stop b H M Hb) as [[S1 S2] S3].
  destruct (slice_range (sessions (cal b)) (first_of y) (last_of y) S1) as [T1 T2].
  change (sessions_in_range (cal b) (first_of y) (last_of y))
    with (pyslice (sessions (cal b)) (searchsorted_left (sessions (cal b)) (first_of y)) (searchsorted_right (sessions (cal b)) (last_of y))).
  set (xs := pyslice _ _ _) in *. clearbody xs.
  assert (Bn : forall n, in_year n y <-> date_number y 1 1 <= n <= date_number y 12 31).
  { intros n. rewrite january_1, december_31. unfold in_year. rewrite year_start_next. unfold year_days. destruct (leap y); lia. }
  assert (LO : date_number y0 1 1 <= date_number y 1 1).
  { rewrite !january_1. destruct (Z.eq_dec y0 y) as [->|Q]; [lia|]. pose proof (year_start_mono y0 y ltac:(lia)). lia. }
  assert (KN : forall n, in_year n y -> known_year n).
  { intros n Yn. apply Bn in Yn. unfold known_year. split.
    - apply (Z.le_trans _ (date_number y 1 1)); [|lia]. rewrite !january_1.
      destruct (Z.eq_dec 1970 y) as [<-|Q]; [lia|]. pose proof (year_start_mono 1970 y ltac:(lia)). lia.
    - apply (Z.le_trans _ (date_number y 12 31)); [lia|]. destruct (Z.eq_dec y 2200) as [->|Q]; [lia|].
      pose proof (december_31 y) as A.
      pose proof (december_31 2200) as B. pose proof (year_start_mono y 2200 ltac:(lia)) as C.
      rewrite A, B. change (Z.of_nat (year_days (leap 2200))) with 365. unfold year_days. destruct (leap y); lia. }
  assert (XS : forall n, In (at_midnight_of n) xs <-> in_year n y /\ workday n /\ ~ exists e, In e es /\ days_of e n).
  { intros n. rewrite T2, Bn. unfold first_of, last_of in *. rewrite !at_midnight_le. split.
    - intros [J K]. assert (Yn : in_year n y) by (apply Bn; exact K).
      assert (G : start <= at_midnight_of n <= stop).
      { pose proof (proj2 (at_midnight_le _ _) (proj1 K)). pose proof (proj2 (at_midnight_le _ _) (proj2 K)). lia. }
      apply S2 in J. destruct J as [n' [E' [_ T]]]. assert (n' = n) as -> by (symmetry; apply at_midnight_inj; exact E').
      apply (S3 n G) in T. apply (c57_sessions name E z start stop b n H N M Hb G (KN n Yn)) in T.
      rewrite (closures_agree name y0 es n I ltac:(lia)) in T. tauto.
    - intros [K [W C]]. assert (Yn : in_year n y) by (apply Bn; exact K). split; [|exact K].
      assert (G : start <= at_midnight_of n <= stop).
      { pose proof (proj2 (at_midnight_le _ _) (proj1 K)). pose proof (proj2 (at_midnight_le _ _) (proj2 K)). lia. }
      apply S2. exists n. split; [reflexivity|]. split; [exact G|]. apply (S3 n G).
      apply (c57_sessions name E z start stop b n H N M Hb G (KN n Yn)). split; [exact W|].
      rewrite (closures_agree name y0 es n I ltac:(lia)). split; [exact C|]. intros A.
      rewrite forallb_forall in CB. specialize (CB n A). apply Z.ltb_lt in CB. lia. }
  assert (MID : forall x, In x xs -> exists n, x = at_midnight_of n).
  { intros x X. apply T2 in X. destruct X as [X _]. apply S2 in X. destruct X as [n [-> _]]. exists n. reflexivity. }
  set (back := fun x => x / one_day - year_start y).
  rewrite <- (map_length back xs).
  apply count_open.
  - assert (ND : NoDup xs) by (apply SSorted_lt_NoDup; exact T1).
    clear T1 T2 XS. revert MID ND. induction xs as [|x xs IH]; intros MID ND; cbn [map]; [constructor|].
    inversion ND as [|? ? N1 N2]; subst. constructor; [|apply IH; [intros u U; apply MID; right; exact U|exact N2]].
    intros Q. apply in_map_iff in Q. destruct Q as [u [Q U]]. apply N1.
    destruct (MID x (or_introl eq_refl)) as [n ->]. destruct (MID u (or_intror U)) as [m ->].
    unfold back, at_midnight_of in Q. rewrite !Z.div_mul in Q by (pose proof one_day_pos; lia). replace n with m by lia. exact U.
  - intros i. assert (IB : In i (map back xs) <-> In (at_midnight_of (year_start y + i)) xs).
    { rewrite in_map_iff. split.
      - intros [x [Q X]]. destruct (MID x X) as [n ->]. unfold back, at_midnight_of in Q. rewrite Z.div_mul in Q by (pose proof one_day_pos; lia).
        replace (year_start y + i) with n by lia. exact X.
      - intros X. exists (at_midnight_of (year_start y + i)). split; [|exact X]. unfold back, at_midnight_of.
        rewrite Z.div_mul by (pose proof one_day_pos; lia). lia. }
    rewrite IB, XS. unfold workday, working. rewrite dow_add, Z.ltb_lt.
    assert (IY : in_year (year_start y + i) y <-> 0 <= i < Z.of_nat (year_days (leap y))).
    { unfold in_year. rewrite year_start_next. unfold year_days. destruct (leap y); lia. }
    rewrite IY. assert (EP : 0 <= i < Z.of_nat (year_days (leap y)) ->
      ((exists e, In e es /\ days_of e (year_start y + i)) <->
       In i (map (position (leap y) (day_of_week (year_start y)) (easter y - year_start y)) es))).
    { intros P. apply IY in P. rewrite in_map_iff. split.
      - intros [e [J D]]. exists e. split; [|exact J]. rewrite forallb_forall in FE.
        apply (position_iff e _ y (FE e J) P) in D. lia.
      - intros [e [Q J]]. exists e. split; [exact J|]. rewrite forallb_forall in FE.
        apply (position_iff e _ y (FE e J) P). lia. }
    split; intros [P [W C]]; specialize (EP P); tauto.
Qed.

(** ** The table *)
Definition entries_of (name : string) : option (Z * list entry) :=
  match List.find (fun r => String.eqb (fst (fst r)) name) entries with Some r => Some (snd (fst r), snd r) | None => None end.
Lemma entries_found : forall name y0 es, entries_of name = Some (y0, es) -> In (name, y0, es) entries.
Proof.
  intros name y0 es H. unfold entries_of in H. destruct (List.find _ entries) as [[[x u] v]|] eqn:E; [|discriminate H].
  apply find_some in E. cbn [fst snd] in *. destruct E as [E Q]. apply String.eqb_eq in Q. subst x. injection H as -> ->. exact E.
Qed.
(** 52 weeks have 260 workdays. *)
Definition workdays' (l : bool) (w : Z) : Z :=
  260 + (if w <? 5 then 1 else 0) + (if l then if (w + 1) mod 7 <? 5 then 1 else 0 else 0).
Lemma workdays_eq : forall l w, 0 <= w < 7 -> Z.of_nat (workdays l w) = workdays' l w.
Proof.
  intros l w W. assert (C : In w [0;1;2;3;4;5;6]) by (cbn [In]; lia). cbn [In] in C.
  repeat (destruct C as [<-|C]; [destruct l; vm_compute; reflexivity|]). destruct C.
Qed.
Definition number (l : bool) (w g : Z) (es : list entry) : Z := workdays' l w - Z.of_nat (length (taken l w g es)).
Lemma rows_ok : forallb (fun r => match r with (name, y0, (least, _), (most, _)) =>
  match entries_of name with
  | Some (y1, es) => (y0 =? y1) && forallb (fun k => match k with (l, w, g) => let c := number l w g es in (least <=? c) && (c <=? most) end) kinds
  | None => false end end) per_year = true.
Proof. vm_compute. reflexivity. Qed.
Lemma examples_ok : forallb (fun r => match r with (name, y0, (least, ya), (most, yb)) =>
  match entries_of name with
  | Some (y1, es) =>
    let c y := number (leap y) (day_of_week (year_start y)) (easter y - year_start y) es in
    (y1 <=? ya) && (ya <=? 2200) && (y1 <=? yb) && (yb <=? 2200) && (c ya =? least) && (c yb =? most)
  | None => false end end) per_year = true.
Proof. vm_compute. reflexivity. Qed.
Lemma year_number : forall name y0 es E z start stop b y, In (name, y0, es) entries -> In (name, E) exchanges ->
  is_midnight start -> build_exchange E z start stop = Ok b ->
  start <= first_of y -> last_of y <= stop -> y0 <= y <= 2200 ->
  Z.of_nat (length (sessions_in_range (cal b) (first_of y) (last_of y))) =
  number (leap y) (day_of_week (year_start y)) (easter y - year_start y) es.
Proof.
  intros name y0 es E z start stop b y I H M Hb L R Y. pose proof (year_count name y0 es E z start stop b y I H M Hb L R Y) as C.
  unfold number. rewrite <- workdays_eq by (apply dow_range). lia.
Qed.

(** ** C98 *)

(** Every year from the first year of its present holidays to 2200 that the calendar
    covers has a number of sessions between the least and the greatest of the table. *)
Theorem c98_sessions : forall name first least ya most yb E z start stop b y,
  In (name, first, (least, ya), (most, yb)) per_year -> In (name, E) exchanges ->
  is_midnight start -> build_exchange E z start stop = Ok b ->
  start <= first_of y -> last_of y <= stop -> first <= y <= 2200 ->
  least <= Z.of_nat (length (sessions_in_range (cal b) (first_of y) (last_of y))) <= most.
Proof.
  intros name y0 least ya most yb E z start stop b y I H M Hb L R Y.
  pose proof (proj1 (forallb_forall _ _) rows_ok _ I) as F. cbn beta iota in F.
  destruct (entries_of name) as [[y1 es]|] eqn:En; [|discriminate F]. apply andb_prop in F. destruct F as [F1 F2].
  apply Z.eqb_eq in F1. subst y1. apply entries_found in En.
  rewrite (year_number name y0 es E z start stop b y En H M Hb L R Y).
  pose proof (proj1 (forallb_forall _ _) F2 _ (kind_of y)) as B. cbn beta iota zeta in B. apply andb_prop in B.
  rewrite !Z.leb_le in B. exact B.
Qed.

(** Both bounds are met, in the years that the table names. *)
Theorem c98_attained : forall name first least ya most yb E z start stop b,
  In (name, first, (least, ya), (most, yb)) per_year -> In (name, E) exchanges ->
  is_midnight start -> build_exchange E z start stop = Ok b ->
  (start <= first_of ya -> last_of ya <= stop ->
   Z.of_nat (length (sessions_in_range (cal b) (first_of ya) (last_of ya))) = least) /\
  (start <= first_of yb -> last_of yb <= stop ->
   Z.of_nat (length (sessions_in_range (cal b) (first_of yb) (last_of yb))) = most).
Proof.
  intros name y0 least ya most yb E z start stop b I H M Hb.
  pose proof (proj1 (forallb_forall _ _) examples_ok _ I) as F. cbn beta iota zeta in F.
  destruct (entries_of name) as [[y1 es]|] eqn:En; [|discriminate F]. apply entries_found in En.
  repeat (apply andb_prop in F; let F' := fresh F in destruct F as [F F']).
  apply Z.eqb_eq in F0, F1. apply Z.leb_le in F, F2, F3, F4. split; intros L R.
  - rewrite (year_number name y1 es E z start stop b ya En H M Hb L R ltac:(lia)). exact F1.
  - rewrite (year_number name y1 es E z start stop b yb En H M Hb L R ltac:(lia)). exact F0.
Qed.

(** New York, exactly. *)
Lemma new_york_ok : forallb (fun k => match k with (l, w, g) =>
  number l w g (match entries_of "XNYS" with Some (_, es) => es | None => [] end) =?
  (if l then if w <=? 3 then 253 else 252 else if w =? 6 then 251 else 252) end) kinds = true.
Proof. vm_compute. reflexivity. Qed.
Theorem c98_new_york : forall z start stop b y, is_midnight start ->
  build_exchange exchange_calendar_xnys.calendar z start stop = Ok b ->
  start <= first_of y -> last_of y <= stop -> 2019 <= y <= 2200 ->
  Z.of_nat (length (sessions_in_range (cal b) (first_of y) (last_of y))) = new_york_sessions y.
Proof.
  intros z start stop b y M Hb L R Y.
  assert (H : In ("XNYS"%string, exchange_calendar_xnys.calendar) exchanges) by (apply here; reflexivity).
  pose proof (proj1 (forallb_forall _ _) new_york_ok _ (kind_of y)) as B.
  destruct (entries_of "XNYS") as [[y1 es]|] eqn:En; [|discriminate En]. cbn beta iota in B. apply Z.eqb_eq in B.
  assert (y1 = 2019) as -> by (vm_compute in En; injection En as <- _; reflexivity).
  apply entries_found in En. rewrite (year_number _ 2019 es _ z start stop b y En H M Hb L R Y), B.
  unfold new_york_sessions. rewrite january_1. reflexivity.
Qed.

(** A calendar of New York from 1990 to 2023: 253 sessions in 2020, 252 in 2021, 251 in 2023. *)
Example c98_ex : exists z b, In ("America/New_York"%string, z) zones /\
  build_exchange exchange_calendar_xnys.calendar z (at_midnight_of (date_number 1990 1 1)) (last_of 2023) = Ok b /\
  length (sessions_in_range (cal b) (first_of 2020) (last_of 2020)) = 253%nat /\
  length (sessions_in_range (cal b) (first_of 2021) (last_of 2021)) = 252%nat /\
  length (sessions_in_range (cal b) (first_of 2023) (last_of 2023)) = 251%nat.
Proof.
  destruct (c53_default_range 1990 "XNYS" _ (last_of 2023) (or_introl eq_refl) xnys_here)
    as [z [b [ss [Hz [Hb _]]]]].
  - discriminate.
  - apply at_midnight_le. apply Z.leb_le. vm_compute. reflexivity.
  - intros n I D. change (conflict_days "XNYS") with [date_number 1945 12 24; date_number 1956 12 24] in I.
    exfalso. destruct I as [<-|[<-|[]]]; vm_compute in D; apply D; reflexivity.
  - exists z, b. split; [exact Hz|]. split; [exact Hb|].
    assert (M : is_midnight (at_midnight_of (date_number 1990 1 1))) by (apply is_midnight_at; eauto).
    assert (C : forall y, 2019 <= y <= 2023 -> at_midnight_of (date_number 1990 1 1) <= first_of y /\ last_of y <= last_of 2023).
    { intros y Y. unfold first_of, last_of. rewrite !at_midnight_le. assert (I : In y [2019;2020;2021;2022;2023]) by (cbn [In]; lia).
      cbn [In] in I. repeat (destruct I as [<-|I]; [split; apply Z.leb_le; vm_compute; reflexivity|]). destruct I. }
    assert (K : forall y, 2019 <= y <= 2023 ->
      Z.of_nat (length (sessions_in_range (cal b) (first_of y) (last_of y))) = new_york_sessions y).
    { intros y Y. destruct (C y Y) as [C1 C2]. assert (Y' : 2019 <= y <= 2200) by lia. exact (c98_new_york z _ _ b y M Hb C1 C2 Y'). }
    assert (K0 : new_york_sessions 2020 = 253 /\ new_york_sessions 2021 = 252 /\ new_york_sessions 2023 = 251) by (vm_compute; auto).
    pose proof (K 2020 ltac:(lia)). pose proof (K 2021 ltac:(lia)). pose proof (K 2023 ltac:(lia)). repeat split; lia.
Qed.

(** ** Assumptions *)
Print Assumptions c98_sessions.
Print Assumptions c98_attained.
Print Assumptions c98_new_york.
