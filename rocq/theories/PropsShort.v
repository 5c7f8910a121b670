(** Property C82: when the answers of a search are all there is. *)
From stdpp Require Import relations.
From Verif Require Import Prelude Model StdInst Lib Table SearchProofs InsertProofs ExhaustProofs QueryProofs
  IterProofs FlatProofs Spec SpecProofs SpecStart StartProofs SpecBuilt BuiltProofs PropsSearch Examples.

(** ** Lemmas used below *)
Lemma starts_same {T} (dist : list T -> list T -> Z) so (LAWS : StdLaws so) (Hnn : forall a b, (0 <= dist a b)%Z)
    h q start l :
  wf dist h -> search_start dist h q start -> lowest_layer h l ->
  exists ep, entry_point h = Some ep /\ find_pivot dist h q ep = Ok start /\ layer_to_search h = Ok l.
Proof.
  intros Hwf (ep & He & Hst) Hl. exists ep. split; [done|].
  pose proof (w_entry _ _ Hwf) as Hent. rewrite He in Hent. destruct Hent as [[ept Hept] _].
  destruct (find_pivot_spec dist Hnn h q ep ept (w_core _ _ Hwf) Hept) as (pv & pt & E & Hpt & _).
  destruct (find_pivot_start dist Hnn h q ep pv Hwf He E) as (ep' & He' & Hst').
  rewrite He in He'. injection He' as <-.
  rewrite (starts_at_fun dist h q _ _ _ _ Hwf Hst Hst'). split; [done|].
  destruct (layer_to_search_spec h pv ltac:(by exists pt)) as (l' & ly & E' & _).
  rewrite E'. f_equal. pose proof (lowest_layer_spec dist h l' Hwf E') as [H1 H2]. destruct Hl as [H3 H4].
  destruct (Nat.lt_trichotomy l l') as [Hlt|[?|Hlt]]; [by specialize (H2 l Hlt)|done|by specialize (H4 l' Hlt)].
Qed.

Lemma vectors_of {T} (dist : list T -> list T -> Z) (Hnn : forall a b, (0 <= dist a b)%Z) h q (ps : list pid) vs :
  wf dist h -> Forall2 (vector_at h) ps vs -> dist q <$> vs = pdist dist h q <$> ps.
Proof.
  intros Hwf. induction 1 as [|p v ps vs Hv _ IH]; [done|]. csimpl. rewrite IH. f_equal.
  apply (vector_at_pt dist Hnn h _ _ Hwf) in Hv as (pt & Hpt & <-). unfold pdist. by rewrite Hpt.
Qed.

(** C82, unfiltered: as soon as max(ef, knbn) is at least the number of points that can be reached
    (which may be much less than the number of points), the answers are the knbn nearest of them. *)
Theorem C82_search_complete :
  forall {T} (dist : list T -> list T -> Z) so, StdLaws so -> (forall a b, (0 <= dist a b)%Z) ->
  forall inv_ln M ml ef hist h, built dist so inv_ln M ml ef hist h ->
  forall q start l reached vectors,
    search_start dist h q start -> lowest_layer h l ->
    NoDup reached -> (forall p, p ∈ reached <-> reaches h l start p) -> Forall2 (vector_at h) reached vectors ->
  forall knbn ef_arg, (length reached <= Nat.max ef_arg knbn)%nat ->
  exists res, search dist so h q knbn ef_arg = Ok res /\
    (forall a, a ∈ res -> p_id a ∈ reached) /\ NoDup (p_id <$> res) /\
    k_smallest knbn (dist q <$> vectors) (distance <$> res).
Proof.
  intros T dist so LAWS Hnn inv_ln M ml ef hist h Hb q start l R vs Hst Hl Hnd HR Hvs k efa Hfit.
  pose proof (built_wf dist so LAWS Hnn _ _ _ _ _ _ Hb) as Hwf.
  destruct (starts_same dist so LAWS Hnn h q start l Hwf Hst Hl) as (ep & He & Hpv & Hls).
  destruct (search_complete dist so LAWS Hnn h q k efa None ep start l R (wf_lwf _ _ Hwf) He Hpv Hls Hnd) as (res & Hs & H1 & _); auto.
  { intros p. rewrite HR, (reaches_rtc dist) by done. split; [|by intros [? _]].
    intros Hr. split; [done|].
    assert (Hp : p ∈ R) by (apply HR, (reaches_rtc dist); done).
    apply elem_of_list_lookup in Hp as [i Hi]. destruct (Forall2_lookup_l _ _ _ _ _ Hvs Hi) as (v & _ & Hv).
    apply (vector_at_pt dist Hnn h _ _ Hwf) in Hv as (pt & Hpt & _). exists pt. done. }
  destruct (search_ok_facts dist so LAWS Hnn h q k efa None res Hwf Hs) as (_ & _ & Hndr & _).
  destruct H1 as (Hin & ds & D1 & D2 & D3).
  { intros ->. assert (Hp : start ∈ @nil pid) by (apply HR; constructor). by apply elem_of_nil in Hp. }
  exists res. split_and!; auto. exists ds. by rewrite (vectors_of dist Hnn h q R vs Hwf Hvs).
Qed.
Print Assumptions C82_search_complete.

(** C82, filtered: here only the reachable points the filter accepts have to fit in max(ef, knbn). *)
Theorem C82_filter_complete :
  forall {T} (dist : list T -> list T -> Z) so, StdLaws so -> (forall a b, (0 <= dist a b)%Z) ->
  forall inv_ln M ml ef hist h, built dist so inv_ln M ml ef hist h ->
  forall q flt start l accepted vectors,
    search_start dist h q start -> lowest_layer h l -> NoDup accepted ->
    (forall p, p ∈ accepted <-> reaches h l start p /\ exists pt, point_at h p pt /\ flt (pt_oid pt) = true) ->
    Forall2 (vector_at h) accepted vectors ->
  forall knbn ef_arg, (2 <= Nat.max ef_arg knbn)%nat -> (length accepted <= Nat.max ef_arg knbn)%nat ->
  exists res, search_filter dist so h q knbn ef_arg (Some flt) = Ok res /\ NoDup (p_id <$> res) /\
    (accepted <> [] -> (forall a, a ∈ res -> p_id a ∈ accepted) /\
       k_smallest knbn (dist q <$> vectors) (distance <$> res)) /\
    (accepted = [] -> p_id <$> res = take knbn [start]).
Proof.
  intros T dist so LAWS Hnn inv_ln M ml ef hist h Hb q flt start l R vs Hst Hl Hnd HR Hvs k efa H2 Hfit.
  pose proof (built_wf dist so LAWS Hnn _ _ _ _ _ _ Hb) as Hwf.
  destruct (starts_same dist so LAWS Hnn h q start l Hwf Hst Hl) as (ep & He & Hpv & Hls).
  destruct (search_complete dist so LAWS Hnn h q k efa (Some flt) ep start l R (wf_lwf _ _ Hwf) He Hpv Hls Hnd) as (res & Hs & H1 & H0); auto.
  { intros p. rewrite HR, (reaches_rtc dist) by done. split; intros (? & pt & Hpt & ?); (split; [done|]); exists pt.
    - by apply (point_at_pt dist) in Hpt.
    - split; [by apply (point_at_pt dist)|done]. }
  destruct (search_ok_facts dist so LAWS Hnn h q k efa (Some flt) res Hwf Hs) as (_ & _ & Hndr & _).
  exists res. split_and!; auto. intros E. destruct (H1 E) as (Hin & ds & D1 & D2 & D3). split; [done|].
  exists ds. by rewrite (vectors_of dist Hnn h q R vs Hwf Hvs).
Qed.
Print Assumptions C82_filter_complete.

(** C82, fewer answers than asked: the answers of an unfiltered search are then exactly the points
    that can be reached; those of a filtered search, exactly the accepted ones, unless there is none,
    in which case the starting point alone is answered. *)
Theorem C82_short_answers :
  forall {T} (dist : list T -> list T -> Z) so, StdLaws so -> (forall a b, (0 <= dist a b)%Z) ->
  forall inv_ln M ml ef hist h, built dist so inv_ln M ml ef hist h ->
  forall q knbn ef_arg res start l, search_start dist h q start -> lowest_layer h l -> (length res < knbn)%nat ->
    (search dist so h q knbn ef_arg = Ok res ->
       forall p, (exists a, a ∈ res /\ p_id a = p) <-> reaches h l start p) /\
    (forall flt, search_filter dist so h q knbn ef_arg (Some flt) = Ok res ->
       (forall p, (exists a, a ∈ res /\ p_id a = p) <->
          reaches h l start p /\ exists pt, point_at h p pt /\ flt (pt_oid pt) = true) \/
       (p_id <$> res = [start] /\
        forall p pt, reaches h l start p -> point_at h p pt -> flt (pt_oid pt) = false)).
Proof.
  intros T dist so LAWS Hnn inv_ln M ml ef hist h Hb q k efa res start l Hst Hl Hlen.
  pose proof (built_wf dist so LAWS Hnn _ _ _ _ _ _ Hb) as Hwf.
  destruct (starts_same dist so LAWS Hnn h q start l Hwf Hst Hl) as (ep & He & Hpv & Hls).
  assert (Hids : forall p, (exists a, a ∈ res /\ p_id a = p) <-> p ∈ p_id <$> res).
  { intros p. rewrite elem_of_list_fmap. split; intros (a & ? & ?); eauto. }
  split.
  - intros Hs p. rewrite Hids, (reaches_rtc dist) by done.
    destruct (search_short dist so LAWS Hnn h q k efa None ep res (wf_lwf _ _ Hwf) He Hs Hlen) as (pv & l' & Hpv' & Hl' & Hor).
    rewrite Hpv in Hpv'. injection Hpv' as <-. rewrite Hls in Hl'. injection Hl' as <-.
    pose proof (find_pivot_valid dist so LAWS Hnn h q ep start Hwf He Hpv) as [spt Hspt].
    destruct Hor as [Hor|[_ Hnone]].
    2: { exfalso. apply (Hnone start spt); [apply rtc_refl|done|done]. }
    rewrite Hor. split; [by intros [? _]|]. intros Hr. split; [done|].
    assert (Hv : exists pt, get_pt h p = Some pt).
    { clear -Hr Hspt Hwf. apply rtc_inv_r in Hr as [->|(y & _ & Hy)]; [eauto|].
      destruct Hy as (pt & nbs & n & Hpt & Hn & Hinn & <-).
      destruct (c_lists _ _ (w_core _ _ Hwf) _ _ _ _ Hpt Hn) as [_ _ _ Lref _].
      rewrite Forall_forall in Lref. destruct (Lref n Hinn) as (x & Hx & _). eauto. }
    destruct Hv as [pt Hpt]. exists pt. done.
  - intros flt Hs.
    destruct (search_short dist so LAWS Hnn h q k efa (Some flt) ep res (wf_lwf _ _ Hwf) He Hs Hlen) as (pv & l' & Hpv' & Hl' & Hor).
    rewrite Hpv in Hpv'. injection Hpv' as <-. rewrite Hls in Hl'. injection Hl' as <-.
    destruct Hor as [Hor|[Hone Hnone]].
    + left. intros p. rewrite Hids, Hor, (reaches_rtc dist) by done.
      split; intros (? & pt & Hpt & ?); (split; [done|]); exists pt.
      * split; [by apply (point_at_pt dist)|done].
      * by apply (point_at_pt dist) in Hpt.
    + right. split; [done|]. intros p pt Hr Hpt.
      apply (reaches_rtc dist) in Hr; [|done]. apply (point_at_pt dist) in Hpt; [|done].
      specialize (Hnone p pt Hr Hpt). simpl in Hnone. by destruct (flt (pt_oid pt)).
Qed.
Print Assumptions C82_short_answers.
Example C82_example :
  let flt := fun i => (i <? 13)%N in
  exists start l accepted vectors,
    search_start d1 ex1 [6%Z] start /\ lowest_layer ex1 l /\ NoDup accepted /\
    (forall p, p ∈ accepted <-> reaches ex1 l start p /\ exists pt, point_at ex1 p pt /\ flt (pt_oid pt) = true) /\
    Forall2 (vector_at ex1) accepted vectors /\ length accepted = 3%nat /\ length ex1_hist = 7%nat /\
    search_filter d1 simple_ops ex1 [6%Z] 2 3 (Some flt) =
      Ok [Neighbour 11%N 4%Z (1, 0)%nat; Neighbour 10%N 6%Z (0, 0)%nat] /\
    exists res, search_filter d1 simple_ops ex1 [6%Z] 5 0 (Some flt) = Ok res /\ (length res < 5)%nat.
Proof.
  intros flt.
  destruct (C12_filter_exhaustive d1 simple_ops simple_laws d1_nonneg _ _ _ _ _ _ ex1_built ltac:(done) [6%Z] 7 7 flt ltac:(simpl; lia))
    as (start & l & acc & vs & res & H1 & H2 & H3 & H4 & H5 & H6 & _ & H7 & H8).
  assert (Hres : length res = 3%nat). { vm_compute in H6. injection H6 as <-. reflexivity. }
  exists start, l, acc, vs. split_and!; auto.
  - destruct (decide (acc = [])) as [E|E].
    { specialize (H8 E). apply (f_equal length) in H8. rewrite fmap_length, Hres in H8. done. }
    destruct (H7 E) as [_ (ds & D1 & _ & D3)].
    apply (f_equal length) in D3. rewrite fmap_length, take_length, D1, fmap_length in D3.
    apply Forall2_length in H5. lia.
  - eexists. split; [vm_compute; reflexivity|]. simpl. lia.
Qed.
