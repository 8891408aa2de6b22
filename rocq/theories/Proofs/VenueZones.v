(** Deciding [clocks_suit] for a given zone table. *)
From Coq Require Import ZArith List Bool Lia.
From Verif.Model Require Import Base Dates Zone Build Holidays Exchange.
From Verif.Spec Require Import Schedule Construction Civil Rules Venue.
From Verif.Proofs Require Import BaseLemmas ZoneLemmas DatesLemmas ScheduleLemmas BuildLemmas BuildLemmas2 ShapeLemmas
  VenueLemmas.
Import ListNotations.
Open Scope Z_scope.

Definition suits (E : exchange) (z : zone) (lo : Z) : bool :=
  good_zoneb z &&
  forallb (fun m => (- NANOS_PER_DAY <=? m) && zone_clear z (midnight lo - NANOS_PER_DAY) m)
    (nodup Z.eq_dec (map (fun p => tod (fst p) (snd p)) (clock_times E))) &&
  forallb (fun t => forallb (fun o => (0 <=? tod 0 t - o) && (tod 0 t - o <? NANOS_PER_DAY))
                      (initial_offset z :: map snd (transitions z))) (listed_times E) &&
  forallb (fun p => forallb (fun n => lo <=? n) (snd p)) (ex_special_opens_adhoc E) &&
  forallb (fun p => forallb (fun n => lo <=? n) (snd p)) (ex_special_closes_adhoc E).

Lemma offset_from_In : forall trs o u, In (offset_from o trs u) (o :: map snd trs).
Proof.
  induction trs as [|[t o'] trs IH]; intros o u; [left; reflexivity|].
  cbn [offset_from]. destruct (t <=? u); [right; apply IH|left; reflexivity].
Qed.

Lemma suits_ok : forall E z lo, suits E z lo = true -> clocks_suit E z lo.
Proof.
  intros E z lo H. unfold suits in H. rewrite !andb_true_iff in H.
  destruct H as [[[[H1 H2] H3] H4] H5]. rewrite forallb_forall in H2, H3, H4, H5.
  split; [apply good_zoneb_ok; exact H1|]. split; [|split].
  - intros k t n Hin Hn. rewrite tod_local.
    assert (Hm : In (tod k t) (nodup Z.eq_dec (map (fun p => tod (fst p) (snd p)) (clock_times E)))).
    { apply nodup_In, in_map_iff. exists (k, t). tauto. }
    specialize (H2 _ Hm). rewrite andb_true_iff in H2. destruct H2 as [A B].
    rewrite midnight_at, NPD_one_day in B. rewrite NPD_one_day in A.
    apply (zone_clear_instant z _ (tod k t) (at_midnight_of n)) in B.
    + exact B.
    + apply good_zoneb_ok. exact H1.
    + exists n. reflexivity.
    + apply at_midnight_le in Hn. apply Z.leb_le in A. lia.
  - intros t n u Hin Hn [Hu _]. specialize (H3 t Hin). rewrite forallb_forall in H3.
    specialize (H3 (offset_at z u) (offset_from_In _ _ _)). rewrite tod_local in Hu. unfold wall_clock in Hu.
    rewrite NPD_one_day in H3. unfold at_midnight_of in *. lia.
  - intros n [t [ds [[Hin|Hin] Hn]]].
    + specialize (H4 _ Hin). rewrite forallb_forall in H4. specialize (H4 n Hn). lia.
    + specialize (H5 _ Hin). rewrite forallb_forall in H5. specialize (H5 n Hn). lia.
Qed.
