(** Properties C14-C24, C51 and C53: content of the index, identifiers, levels, neighbour lists,
    iterators, parallel_search. Same conventions as PropsSearch.v. *)
From Coq Require Import SpecFloat.
From stdpp Require Import relations.
From Verif Require Import Prelude Model StdInst Lib Table SearchProofs InsertProofs ExhaustProofs QueryProofs
  IterProofs FlatProofs Spec SpecProofs SpecBuilt BuiltProofs LevelProofs Examples.

(** C14: the index holds exactly the inserted (vector, id) pairs. *)
Theorem C14_insert_keeps_data :
  forall {T} (dist : list T -> list T -> Z) so, StdLaws so -> (forall a b, (0 <= dist a b)%Z) ->
  forall inv_ln M ml ef hist h, built dist so inv_ln M ml ef hist h ->
  get_nb_point h = length hist /\
  (hist <> [] -> exists pts, iter_points h = Ok pts /\ length pts = length hist /\
     (fun pt => (pt_data pt, pt_oid pt)) <$> pts ≡ₚ hist).
Proof.
  intros T dist so LAWS Hnn inv_ln M ml ef hist h Hb.
  destruct (built_facts dist so LAWS Hnn _ _ _ _ _ _ Hb) as (Hwf & Hml & HM & Hef & Hst & Hnb).
  split; [done|]. intros Hne.
  destruct (built_entry dist so LAWS Hnn _ _ _ _ _ _ Hb) as [(-> & _)|(_ & ep & He)]; [done|].
  exists (all_points h). rewrite (iter_points_spec dist h ep Hwf He). split_and!; auto.
  rewrite all_points_length. rewrite (w_count _ _ Hwf) in Hnb. done.
Qed.
Print Assumptions C14_insert_keeps_data.
Example C14_example : exists pts, iter_points ex1 = Ok pts /\
  ((fun pt => (pt_data pt, pt_oid pt)) <$> pts) =
   [([0], 10%N); ([20], 12%N); ([5], 13%N); ([30], 15%N); ([1], 16%N); ([10], 11%N); ([7], 14%N)]%Z.
Proof. eexists. split; [vm_compute; reflexivity|reflexivity]. Qed.

(** C15: PointIds, vectors and ids of stored points never change. *)
Theorem C15_point_id_stable :
  forall {T} (dist : list T -> list T -> Z) so, StdLaws so -> (forall a b, (0 <= dist a b)%Z) ->
  forall inv_ln M ml ef hist h, built dist so inv_ln M ml ef hist h ->
  forall h', evolves dist so h h' ->
  forall p pt, point_at h p pt ->
    vector_at h' p (pt_data pt) /\
    exists pt', point_at h' p pt' /\ pt_data pt' = pt_data pt /\ pt_oid pt' = pt_oid pt.
Proof.
  intros T dist so LAWS Hnn inv_ln M ml ef hist h Hb h' Hev p pt Hpt.
  destruct (built_facts dist so LAWS Hnn _ _ _ _ _ _ Hb) as (Hwf & Hml & HM & Hef & Hst & Hnb).
  destruct (evolves_facts dist so LAWS Hnn h h' Hev Hwf) as [Hwf' Hgr].
  apply (point_at_pt dist h p pt Hwf) in Hpt.
  destruct (grows_get _ _ _ _ Hgr Hpt) as (pt' & Hpt' & E1 & E2 & _). split.
  - apply (vector_at_pt dist Hnn h' _ _ Hwf'). eauto.
  - exists pt'. split_and!; auto. by apply (point_at_pt dist).
Qed.
Print Assumptions C15_point_id_stable.
Example C15_example : exists h', insert_slice d1 simple_ops ex1 [3%Z] 99%N (lv 5) = Ok h' /\
  vector_at ex1 (0, 2)%nat [5%Z] /\ vector_at h' (0, 2)%nat [5%Z].
Proof. eexists. split_and!; vm_compute; reflexivity. Qed.

(** C16: get_point_data is total; Some exactly on the identifiers of stored points. *)
Theorem C16_get_point_data :
  forall {T} (dist : list T -> list T -> Z) so, StdLaws so -> (forall a b, (0 <= dist a b)%Z) ->
  forall inv_ln M ml ef hist h, built dist so inv_ln M ml ef hist h ->
  forall layer rank, exists o, get_point_data h layer rank = Ok o /\
    forall v, o = Some v <->
      (0 <= rank)%Z /\ exists pt, point_at h (layer, Z.to_nat rank) pt /\ pt_data pt = v.
Proof.
  intros T dist so LAWS Hnn inv_ln M ml ef hist h Hb layer rank.
  destruct (built_facts dist so LAWS Hnn _ _ _ _ _ _ Hb) as (Hwf & Hml & HM & Hef & Hst & Hnb).
  eexists. split; [by apply (get_point_data_spec dist)|]. intros v.
  destruct (Z.ltb_spec rank 0) as [Hr|Hr].
  - split; [done|]. lia.
  - rewrite fmap_Some. split.
    + intros (pt & Hpt & ->). split; [lia|]. exists pt. split; [by apply (point_at_pt dist)|done].
    + intros (_ & pt & Hpt & <-). apply (point_at_pt dist h _ _ Hwf) in Hpt. eauto.
Qed.
Print Assumptions C16_get_point_data.
Example C16_example : get_point_data ex1 1 0 = Ok (Some [10%Z]) /\ get_point_data ex1 1 1 = Ok None /\
  get_point_data ex1 255 0 = Ok None /\ get_point_data ex1 0 (-1) = Ok None.
Proof. split_and!; vm_compute; reflexivity. Qed.

(** C17: levels are in range, for every draw and scale. *)
Theorem C17_levels :
  (forall scale max_layer d level, generate scale max_layer d = Ok level -> (level < max_layer)%nat) /\
  (forall scale max_layer d, (1 <= max_layer)%nat -> exists level, generate scale max_layer d = Ok level) /\
  (forall {T} (dist : list T -> list T -> Z) so, StdLaws so -> (forall a b, (0 <= dist a b)%Z) ->
   forall inv_ln M ml ef hist h, built dist so inv_ln M ml ef hist h ->
   (max_layer h <= 16)%nat /\ forall p pt, point_at h p pt -> (p.1 < max_layer h)%nat).
Proof.
  split_and!.
  - intros scale ml d level. apply generate_lt.
  - intros scale ml d Hml. destruct (generate_ok scale ml d) as [l ?]; [lia|]. eauto.
  - intros T dist so LAWS Hnn inv_ln M ml ef hist h Hb.
    destruct (built_facts dist so LAWS Hnn _ _ _ _ _ _ Hb) as (Hwf & Hml & HM & Hef & Hst & Hnb).
    split; [rewrite Hml; lia|]. intros p pt Hpt. apply (point_at_pt dist h p pt Hwf) in Hpt.
    destruct (core_layer dist h p (w_core _ _ Hwf)) as [? ?]; [by exists pt|].
    pose proof (c_len _ _ (w_core _ _ Hwf)). lia.
Qed.
Print Assumptions C17_levels.
Example C17_example :
  generate S754_nan 16 (Draw S754_nan 37) = Ok 0%nat /\
  generate (S754_infinity false) 16 (Draw (S754_finite false 3 0) 37) = Ok 5%nat /\
  generate f64_1 16 (lv 3) = Ok 3%nat /\ exists pt, point_at ex1 (2, 0)%nat pt.
Proof.
  split_and!; [vm_compute; reflexivity..|]. eexists. eexists. split_and!; [vm_compute; reflexivity| |].
  - do 6 apply elem_of_list_further. left.
  - reflexivity.
Qed.

(** C18: get_max_level_observed is the maximum of the levels of the stored points, 0 when empty. *)
Theorem C18_max_level :
  forall {T} (dist : list T -> list T -> Z) so, StdLaws so -> (forall a b, (0 <= dist a b)%Z) ->
  forall inv_ln M ml ef hist h, built dist so inv_ln M ml ef hist h ->
  (hist = [] -> get_max_level_observed h = 0%nat) /\
  (forall p pt, point_at h p pt -> (p.1 <= get_max_level_observed h)%nat) /\
  (hist <> [] -> exists p pt, point_at h p pt /\ p.1 = get_max_level_observed h) /\
  (forall l, (get_max_level_observed h < l)%nat -> get_layer_nb_point h l = 0%nat).
Proof.
  intros T dist so LAWS Hnn inv_ln M ml ef hist h Hb.
  destruct (built_facts dist so LAWS Hnn _ _ _ _ _ _ Hb) as (Hwf & Hml & HM & Hef & Hst & Hnb).
  pose proof (w_entry _ _ Hwf) as Hent. unfold get_max_level_observed.
  assert (Hup : forall m, (forall p, valid h p -> (p.1 <= m)%nat) -> forall l, (m < l)%nat -> get_layer_nb_point h l = 0%nat).
  { intros m Hm l Hl. unfold get_layer_nb_point. destruct (points_by_layer h !! l) as [[|x ly]|] eqn:E; try done.
    exfalso. enough (l <= m)%nat by lia. apply (Hm (l, 0%nat)). exists x. apply get_pt_lookup. eauto. }
  destruct (built_entry dist so LAWS Hnn _ _ _ _ _ _ Hb) as [(-> & He & Hts)|(Hne & ep & He)]; rewrite He in *.
  - split_and!; try done.
    + intros p pt Hpt. apply (point_at_pt dist h p pt Hwf) in Hpt. exfalso.
      apply (table_size_0_valid h p Hts). by exists pt.
    + apply Hup. intros p Hp. by apply (table_size_0_valid h p) in Hts.
  - destruct Hent as [[ept Hept] Hmax]. split_and!; try done.
    + intros p pt Hpt. apply (point_at_pt dist h p pt Hwf) in Hpt. apply Hmax. by exists pt.
    + intros _. exists ep, ept. split; [by apply (point_at_pt dist)|done].
    + by apply Hup.
Qed.
Print Assumptions C18_max_level.
Example C18_example : get_max_level_observed ex1 = 2%nat.
Proof. reflexivity. Qed.

(** C19: bounded degree. *)
Theorem C19_bounded_degree :
  forall {T} (dist : list T -> list T -> Z) so, StdLaws so -> (forall a b, (0 <= dist a b)%Z) ->
  forall inv_ln M ml ef hist h, built dist so inv_ln M ml ef hist h ->
  forall p l ns, neighbours_at h p l ns ->
    (l = 0%nat -> (length ns <= 2 * M)%nat) /\ ((1 <= l)%nat -> (length ns <= M)%nat).
Proof.
  intros T dist so LAWS Hnn inv_ln M ml ef hist h Hb p l ns Hns.
  destruct (built_facts dist so LAWS Hnn _ _ _ _ _ _ Hb) as (Hwf & Hml & HM & Hef & Hst & Hnb).
  apply (neighbours_at_pt dist h p l ns Hwf) in Hns as (pt & nbs & Hpt & Hn & HF).
  destruct (c_lists _ _ (w_core _ _ Hwf) _ _ _ _ Hpt Hn) as [_ _ _ _ Hcap].
  rewrite (Forall2_length _ _ _ HF) in Hcap. unfold nb_conn in Hcap. rewrite HM in Hcap.
  destruct (Nat.eqb_spec l 0); lia.
Qed.
Print Assumptions C19_bounded_degree.
Example C19_example : exists ns, neighbours_at ex1 (0, 0)%nat 0 ns /\ length ns = 4%nat.
Proof.
  eexists. split; [|shelve]. do 2 eexists. split.
  { eexists. split_and!; [vm_compute; reflexivity|left|reflexivity]. }
  split; [vm_compute; reflexivity|vm_compute; reflexivity].
  Unshelve. reflexivity.
Qed.

(** C20: neighbour lists are sorted, without repetition, without the point itself, and refer to
    stored points with their id and distance. *)
Theorem C20_lists_well_formed :
  forall {T} (dist : list T -> list T -> Z) so, StdLaws so -> (forall a b, (0 <= dist a b)%Z) ->
  forall inv_ln M ml ef hist h, built dist so inv_ln M ml ef hist h ->
  (forall a b, dist a b = dist b a) ->
  forall p pt l ns, point_at h p pt -> neighbours_at h p l ns ->
    sorted_by distance ns /\ NoDup (p_id <$> ns) /\ p ∉ p_id <$> ns /\
    forall n, n ∈ ns -> exists pt', point_at h (p_id n) pt' /\ d_id n = pt_oid pt' /\
      distance n = dist (pt_data pt) (pt_data pt').
Proof.
  intros T dist so LAWS Hnn inv_ln M ml ef hist h Hb Hsym p pt l ns Hpt Hns.
  destruct (built_facts dist so LAWS Hnn _ _ _ _ _ _ Hb) as (Hwf & Hml & HM & Hef & Hst & Hnb).
  apply (point_at_pt dist h p pt Hwf) in Hpt.
  apply (neighbours_at_pt dist h p l ns Hwf) in Hns as (pt0 & nbs & Hpt0 & Hn & HF).
  rewrite Hpt in Hpt0. injection Hpt0 as <-.
  destruct (c_lists _ _ (w_core _ _ Hwf) _ _ _ _ Hpt Hn) as [L1 L2 L3 L4 _].
  assert (Ep : p_id <$> ns = n_pid <$> nbs).
  { clear -HF. induction HF as [|n a nbs ns (E & _) HF IH]; [done|]. csimpl. by rewrite E, IH. }
  assert (Ed : distance <$> ns = n_dist <$> nbs).
  { clear -HF. induction HF as [|n a nbs ns (_ & E & _) HF IH]; [done|]. csimpl. by rewrite E, IH. }
  split_and!.
  - apply (sorted_by_fmap distance ns). rewrite Ed. exact (proj1 (sorted_by_fmap n_dist nbs) L2).
  - by rewrite Ep.
  - by rewrite Ep.
  - intros a Ha. apply elem_of_list_lookup in Ha as [i Hi].
    destruct (Forall2_lookup_r _ _ _ _ _ HF Hi) as (n & Hni & E1 & E2 & q0 & Hq0 & E3).
    exists q0. rewrite E1, E2. split_and!; auto; [by apply (point_at_pt dist)|].
    apply elem_of_list_lookup_2 in Hni. rewrite Forall_forall in L4.
    destruct (L4 n Hni) as (q1 & Hq1 & Hd). rewrite Hq0 in Hq1. injection Hq1 as <-.
    destruct Hd as [Hd|Hd]; rewrite Hd; [done|apply Hsym].
Qed.
Print Assumptions C20_lists_well_formed.
Example C20_example : exists ns, neighbours_at ex1 (0, 0)%nat 0 ns /\ distance <$> ns = [1; 5; 20; 30]%Z.
Proof.
  eexists. split; [|shelve]. do 2 eexists. split.
  { eexists. split_and!; [vm_compute; reflexivity|left|reflexivity]. }
  split; [vm_compute; reflexivity|vm_compute; reflexivity].
  Unshelve. reflexivity.
Qed.

(** C21 does not hold: a list of layer 1 may contain a point of level 0. *)
Theorem C21_layer_discipline_refuted :
  exists (hist : list (list Z * dataid)) h p l ns n,
    built d1 simple_ops one_scale 2 16 10 hist h /\ neighbours_at h p l ns /\ n ∈ ns /\ ((p_id n).1 < l)%nat.
Proof.
  exists ex3_hist, ex3, (1, 0)%nat, 1%nat. do 2 eexists. split; [exact ex3_built|]. split.
  - do 2 eexists. split.
    { eexists. split_and!; [vm_compute; reflexivity|right; left|reflexivity]. }
    split; [vm_compute; reflexivity|vm_compute; reflexivity].
  - split; [left|]. simpl. lia.
Qed.
Print Assumptions C21_layer_discipline_refuted.

(** C21, the part that holds: neighbours are stored points, in layers up to the maximum level; and in an index filled by
    successive insertions the only neighbours of a lower layer are the first points of these layers (the former entry
    points), so that each lower layer gives at most one. *)
Theorem C21_layer_discipline_partial :
  forall {T} (dist : list T -> list T -> Z) so, StdLaws so -> (forall a b, (0 <= dist a b)%Z) ->
  (forall inv_ln M ml ef hist h, built dist so inv_ln M ml ef hist h ->
   forall p l ns n, neighbours_at h p l ns -> n ∈ ns ->
     (exists pt, point_at h (p_id n) pt) /\ ((p_id n).1 <= get_max_level_observed h)%nat) /\
  (forall inv_ln M ml ef h0, hnsw_new inv_ln M ml ef = Ok h0 -> forall h, evolves dist so h0 h ->
   forall p l ns n, neighbours_at h p l ns -> n ∈ ns ->
     (l <= (p_id n).1)%nat \/ p_id n = ((p_id n).1, 0%nat)).
Proof.
  intros T dist so LAWS Hnn. split.
  - intros inv_ln M ml ef hist h Hb p l ns n Hns Hin.
    destruct (built_facts dist so LAWS Hnn _ _ _ _ _ _ Hb) as (Hwf & Hml & HM & Hef & Hst & Hnb).
    apply (neighbours_at_pt dist h p l ns Hwf) in Hns as (pt & nbs & Hpt & Hn & HF).
    apply elem_of_list_lookup in Hin as [i Hi].
    destruct (Forall2_lookup_r _ _ _ _ _ HF Hi) as (n0 & Hni & E1 & E2 & q0 & Hq0 & E3).
    assert (Hp : point_at h (p_id n) q0) by (rewrite E1; by apply (point_at_pt dist)).
    split; [eauto|]. by eapply (C18_max_level dist so LAWS Hnn).
  - intros inv_ln M ml ef h0 Hnew h Hev p l ns n Hns Hin.
    destruct (hnsw_new_wf dist _ _ _ _ _ Hnew) as (W0 & _).
    destruct (evolves_facts dist so LAWS Hnn h0 h Hev W0) as [Hwf _].
    destruct (evolves_lev dist so LAWS Hnn _ _ _ _ _ _ Hnew Hev) as [HL _].
    apply (neighbours_at_pt dist h p l ns Hwf) in Hns as (pt & nbs & Hpt & Hn & HF).
    apply elem_of_list_lookup in Hin as [i Hi].
    destruct (Forall2_lookup_r _ _ _ _ _ HF Hi) as (n0 & Hni & E1 & _).
    destruct (HL p pt l nbs n0 Hpt Hn) as [?|E]; [by eapply elem_of_list_lookup_2|left; by rewrite E1|right].
    rewrite E1. by destruct (n_pid n0) as [a b]; simpl in *; subst.
Qed.
Print Assumptions C21_layer_discipline_partial.
(** the index of the refutation is filled by insertions, and the neighbour of a lower layer is the first point *)
Example C21_example : exists h0, hnsw_new one_scale 2 16 10 = Ok h0 /\ evolves d1 simple_ops h0 ex3 /\
  exists ns, neighbours_at ex3 (1, 0)%nat 1 ns /\ p_id <$> ns = [(0, 0)%nat].
Proof.
  eexists. split; [vm_compute; reflexivity|]. split.
  - eapply (ev_insert _ _ _ _ [10]%Z 2%N (lv 1)); [eapply (ev_insert _ _ _ _ [0]%Z 1%N (lv 0)); [apply ev_refl|]|]; vm_compute; reflexivity.
  - eexists. split; [|shelve]. do 2 eexists. split.
    { eexists. split_and!; [vm_compute; reflexivity|right; left|reflexivity]. }
    split; [vm_compute; reflexivity|vm_compute; reflexivity].
  Unshelve. reflexivity.
Qed.

(** C22: iterating over a non empty index yields each stored point once, by increasing layer then
    rank. *)
Definition pid_lt (p p' : pid) : Prop := (p.1 < p'.1)%nat \/ (p.1 = p'.1 /\ (p.2 < p'.2)%nat).

Lemma pids_from_sorted {T} k (ls : list (list (point (T:=T)))) : StronglySorted pid_lt (pids_from k ls).
Proof.
  revert k. induction ls as [|ly ls IH]; intros k; simpl; [constructor|].
  generalize 0%nat (length ly). intros s n. revert s. induction n as [|n IHn]; intros s; csimpl; [apply IH|].
  constructor; [apply IHn|]. apply Forall_app. split.
  - rewrite Forall_forall. intros p (r & -> & Hr)%elem_of_list_fmap. apply elem_of_seq in Hr. right. simpl. lia.
  - rewrite Forall_forall. intros p Hp. apply elem_of_pids_from in Hp as [Hle _]. left. simpl. lia.
Qed.

Lemma all_points_pid_list {T} (dist : list T -> list T -> Z) h : wf dist h -> pt_pid <$> all_points h = pids_from 0 (points_by_layer h).
Proof.
  intros Hwf. rewrite all_points_pids.
  assert (Hv : forall p, p ∈ pids_from 0 (points_by_layer h) -> valid h p) by (intros p; apply elem_of_pids).
  induction (pids_from 0 (points_by_layer h)) as [|p ps IH]; [done|].
  csimpl. destruct (Hv p) as [pt Hpt]; [left|]. rewrite Hpt. csimpl.
  destruct (c_pt _ _ (w_core _ _ Hwf) _ _ Hpt) as [-> _]. f_equal. apply IH. intros p' Hp'. apply Hv. by right.
Qed.

Theorem C22_iteration_partial :
  forall {T} (dist : list T -> list T -> Z) so, StdLaws so -> (forall a b, (0 <= dist a b)%Z) ->
  forall inv_ln M ml ef hist h, built dist so inv_ln M ml ef hist h ->
  hist <> [] ->
  exists pts, iter_points h = Ok pts /\
    (fun pt => (pt_data pt, pt_oid pt)) <$> pts ≡ₚ hist /\
    StronglySorted pid_lt (pt_pid <$> pts) /\
    (forall p v, vector_at h p v <-> exists pt, pt ∈ pts /\ pt_pid pt = p /\ pt_data pt = v).
Proof.
  intros T dist so LAWS Hnn inv_ln M ml ef hist h Hb Hne.
  destruct (built_facts dist so LAWS Hnn _ _ _ _ _ _ Hb) as (Hwf & Hml & HM & Hef & Hst & Hnb).
  destruct (built_entry dist so LAWS Hnn _ _ _ _ _ _ Hb) as [(-> & _)|(_ & ep & He)]; [done|].
  pose proof (iter_points_spec dist h ep Hwf He) as Hit.
  exists (all_points h). split_and!; auto.
  - rewrite (all_points_pid_list dist) by done. apply pids_from_sorted.
  - intros p v. rewrite (vector_at_pt dist Hnn h p v Hwf). split.
    + intros (pt & Hpt & <-). exists pt. apply (point_at_pt dist h p pt Hwf) in Hpt as (pts & E & Hin & Epid).
      rewrite Hit in E. injection E as <-. done.
    + intros (pt & Hin & Epid & <-). exists pt. split; [|done]. apply (point_at_pt dist h p pt Hwf). exists (all_points h). done.
Qed.
Print Assumptions C22_iteration_partial.

(** C22 does not hold on an empty index: iterating over it panics. *)
Theorem C22_iteration_refuted :
  forall {T} (dist : list T -> list T -> Z) so, StdLaws so -> (forall a b, (0 <= dist a b)%Z) ->
  forall inv_ln M ml ef h, built dist so inv_ln M ml ef [] h -> iter_points h = Panic.
Proof.
  intros T dist so LAWS Hnn inv_ln M ml ef h Hb.
  destruct (built_entry dist so LAWS Hnn _ _ _ _ _ _ Hb) as [(_ & He & Hts)|(Hne & _)]; [|done].
  unfold iter_points. cbn [iter_collect]. unfold iter_next.
  destruct (points_by_layer h !! 0) as [ly|] eqn:E; [|done]. simpl.
  destruct (ly !! 0) as [x|] eqn:Ex.
  - exfalso. apply (table_size_0_valid h (0, 0)%nat Hts). exists x. apply get_pt_lookup. eauto.
  - by rewrite He.
Qed.
Print Assumptions C22_iteration_refuted.
Example C22_example : exists h : hnsw (T:=Z), built d1 simple_ops one_scale 2 16 10 [] h.
Proof. eexists. apply built_new. reflexivity. Qed.

(** C22, beyond the end: calling next() again after None panics when the entry point is on the
    last layer. *)
Theorem C22_next_after_end_refuted :
  exists (hist : list (list Z * dataid)) h st,
    built d1 simple_ops one_scale 2 1 10 hist h /\
    iter_next h (Some (0, 5)%nat) = Ok (None, st) /\ iter_next h st = Panic.
Proof. exists ex2_hist, ex2. eexists. split; [apply plain_built, ex2_plain|]. split; vm_compute; reflexivity. Qed.
Print Assumptions C22_next_after_end_refuted.

(** C23: iterating over a layer. *)
Theorem C23_layer_iteration_partial :
  forall {T} (dist : list T -> list T -> Z) so, StdLaws so -> (forall a b, (0 <= dist a b)%Z) ->
  forall inv_ln M ml ef hist h, built dist so inv_ln M ml ef hist h ->
  forall l, (l < Nat.min 16 ml)%nat ->
  exists pts, iter_layer h l = Ok pts /\ length pts = get_layer_nb_point h l /\
    pt_pid <$> pts = (fun r => (l, r)) <$> seq 0 (length pts) /\
    (forall pt, pt ∈ pts <-> point_at h (pt_pid pt) pt /\ (pt_pid pt).1 = l).
Proof.
  intros T dist so LAWS Hnn inv_ln M ml ef hist h Hb l Hl.
  destruct (built_facts dist so LAWS Hnn _ _ _ _ _ _ Hb) as (Hwf & Hml & HM & Hef & Hst & Hnb).
  rewrite <- Hml, <- (c_len _ _ (w_core _ _ Hwf)) in Hl. apply lookup_lt_is_Some in Hl as [ly Hly].
  exists ly. rewrite iter_layer_spec. unfold get_layer_nb_point. rewrite Hly.
  assert (Hpid : forall r pt, ly !! r = Some pt -> get_pt h (l, r) = Some pt /\ pt_pid pt = (l, r)).
  { intros r pt Hr. assert (Hg : get_pt h (l, r) = Some pt) by (apply get_pt_lookup; eauto).
    split; [done|]. by destruct (c_pt _ _ (w_core _ _ Hwf) _ _ Hg). }
  split_and!; auto.
  - apply list_eq. intros r. rewrite !list_lookup_fmap. destruct (ly !! r) as [pt|] eqn:Er; simpl.
    + rewrite lookup_seq_lt by (by eapply lookup_lt_Some). simpl. f_equal. by apply Hpid.
    + rewrite lookup_seq_ge by (by apply lookup_ge_None). done.
  - intros pt. split.
    + intros [r Hr]%elem_of_list_lookup. destruct (Hpid r pt Hr) as [Hg ->]. split; [|done]. by apply (point_at_pt dist).
    + intros [Hp El]. apply (point_at_pt dist h _ _ Hwf) in Hp. apply get_pt_lookup in Hp as (ly' & Hly' & Hr).
      rewrite El, Hly in Hly'. injection Hly' as <-. by eapply elem_of_list_lookup_2.
Qed.
Print Assumptions C23_layer_iteration_partial.
Example C23_example : exists pts, iter_layer ex1 1 = Ok pts /\ pt_oid <$> pts = [11%N].
Proof. eexists. split; [vm_compute; reflexivity|reflexivity]. Qed.

(** C23 does not hold for layers beyond max_layer: the iterator panics. *)
Theorem C23_layer_iteration_refuted :
  forall {T} (dist : list T -> list T -> Z) so, StdLaws so -> (forall a b, (0 <= dist a b)%Z) ->
  forall inv_ln M ml ef hist h, built dist so inv_ln M ml ef hist h ->
  forall l, (Nat.min 16 ml <= l)%nat -> iter_layer h l = Panic /\ get_layer_nb_point h l = 0%nat.
Proof.
  intros T dist so LAWS Hnn inv_ln M ml ef hist h Hb l Hl.
  destruct (built_facts dist so LAWS Hnn _ _ _ _ _ _ Hb) as (Hwf & Hml & HM & Hef & Hst & Hnb).
  rewrite iter_layer_spec. unfold get_layer_nb_point.
  destruct (points_by_layer h !! l) as [ly|] eqn:E; [|done].
  apply lookup_lt_Some in E. rewrite (c_len _ _ (w_core _ _ Hwf)), Hml in E. lia.
Qed.
Print Assumptions C23_layer_iteration_refuted.

(** C24: parallel_search gives, in request order, the answers of search. *)
Lemma mapM_seq_lookup {A} (f : nat -> outcome A) (ans : list A) s n :
  (forall i a, ans !! i = Some a -> f i = Ok a) -> (s + n = length ans)%nat -> mapM f (seq s n) = Ok (drop s ans).
Proof.
  intros Hf. revert s. induction n as [|n IH]; intros s Hs.
  - simpl. rewrite drop_ge by lia. done.
  - destruct (lookup_lt_is_Some_2 ans s ltac:(lia)) as [a Ha].
    change (mapM f (seq s (S n))) with (x ← f s; k ← mapM f (seq (S s) n); mret (x :: k)).
    rewrite (Hf s a Ha), (IH (S s)) by lia. simpl. by rewrite (drop_S _ a s).
Qed.

Lemma reorder_perm {A} (ans : list A) arr :
  arr ≡ₚ zip (seq 0 (length ans)) ans -> reorder_answers (length ans) arr = Ok ans.
Proof.
  intros Hp.
  assert (Hkeys : NoDup (fst <$> arr)).
  { rewrite Hp, fst_zip by (rewrite seq_length; lia). apply NoDup_seq. }
  assert (Hin : forall i a, ans !! i = Some a -> (i, a) ∈ arr).
  { intros i a Hi. rewrite Hp. apply elem_of_list_lookup. exists i.
    apply lookup_zip_with_Some. exists i, a. split_and!; auto. apply lookup_seq. split; [lia|].
    by eapply lookup_lt_Some. }
  assert (Hf : forall i a, ans !! i = Some a -> (r ← unwrap (list_find (fun x : nat * A => x.1 = i) (rev arr)); Ok r.2.2) = Ok a).
  { intros i a Hi. specialize (Hin i a Hi). rewrite (Permutation_rev arr) in Hin.
    destruct (list_find_elem_of (fun x : nat * A => x.1 = i) (rev arr) (i, a) Hin eq_refl) as [[j [i' a']] Hj].
    rewrite Hj. simpl. f_equal. apply list_find_Some in Hj as (Hj & Ei & _). simpl in Ei. subst i'.
    rewrite (Permutation_rev arr) in Hkeys.
    apply elem_of_list_lookup in Hin as [j' Hj'].
    assert (j = j') as <-.
    { eapply (proj1 (NoDup_alt _) Hkeys); rewrite list_lookup_fmap; [rewrite Hj|rewrite Hj']; reflexivity. }
    rewrite Hj in Hj'. by injection Hj' as ->. }
  unfold reorder_answers. rewrite (mapM_seq_lookup _ ans 0 (length ans)); [done|exact Hf|lia].
Qed.

Theorem C24_parallel_search :
  forall {T} (dist : list T -> list T -> Z) so h arrival datas knbn ef_arg,
  (forall l : list (nat * list neighbour), arrival l ≡ₚ l) ->
  parallel_search dist so arrival h datas knbn ef_arg = mapM (fun q => search dist so h q knbn ef_arg) datas.
Proof.
  intros T dist so h arrival datas k ef Harr. unfold parallel_search.
  assert (Hreq : forall s, mapM (fun r : nat * list T => a ← search dist so h r.2 k ef; Ok (r.1, a)) (zip (seq s (length datas)) datas) =
     (ans ← mapM (fun q => search dist so h q k ef) datas; Ok (zip (seq s (length ans)) ans)) ).
  { induction datas as [|q datas IH]; intros s; csimpl; [done|].
    destruct (search dist so h q k ef) as [a| | | | |]; simpl; try done. rewrite IH.
    destruct (mapM _ datas) as [ans| | | | |]; simpl; done. }
  unfold request_answers. rewrite Hreq.
  destruct (mapM (fun q => search dist so h q k ef) datas) as [ans| | | | |] eqn:E; simpl; try done.
  apply mapM_outcome_inv in E. rewrite (Forall2_length _ _ _ E).
  apply reorder_perm. apply Harr.
Qed.
Print Assumptions C24_parallel_search.
Example C24_example : exists r, parallel_search d1 simple_ops (@rev _) ex1 [[6]; [21]; [0]]%Z 1 5 = Ok r /\
  map (map d_id) r = [[13%N]; [12%N]; [10%N]].
Proof. eexists. split; [vm_compute; reflexivity|reflexivity]. Qed.

(** C51: modify_level_scale. [clamped m c]: c is m clamped to [0.2, 1], NaN giving 0.2 (IEEE
    comparisons). *)
Definition clamped (m c : f64) : Prop :=
  (m = S754_nan -> c = f64_0_2) /\
  (SFltb m f64_0_2 = true -> c = f64_0_2) /\
  (SFltb f64_1 m = true -> c = f64_1) /\
  (SFleb f64_0_2 m = true -> SFleb m f64_1 = true -> c = m).

Lemma SFcompare_anti x y : SFcompare x y = CompOpp <$> SFcompare y x.
Proof.
  destruct x as [[]|[]| |[] m e], y as [[]|[]| |[] m' e']; simpl; try done;
    rewrite (Z.compare_antisym e' e); destruct (e' ?= e)%Z; simpl; try done;
    rewrite Pos.compare_cont_antisym; simpl; destruct (Pos.compare_cont Eq m' m); done.
Qed.

Lemma scale_absurd m : SFcompare m f64_1 = Some Gt -> SFcompare m f64_0_2 = Some Lt -> False.
Proof.
  unfold f64_1, f64_0_2. generalize 4503599627370496%positive 7205759403792794%positive. intros c1 c2.
  destruct m as [sg|sg| |sg pm pe]; [intros H1; discriminate H1|
    destruct sg; intros H1 H2; first [discriminate H1|discriminate H2]|intros H1; discriminate H1|].
  destruct sg; [intros H1; discriminate H1|].
  unfold SFcompare. destruct (Z.compare_spec pe (-52)) as [->|Hl|Hl]; intros H1 H2; [discriminate H2|discriminate H1|].
  destruct (Z.compare_spec pe (-55)) as [->|Hl2|Hl2]; [lia..|discriminate H2].
Qed.

Lemma SFcompare_some m a : m <> S754_nan -> a <> S754_nan -> exists c, SFcompare m a = Some c.
Proof.
  intros Hm Ha. destruct m as [[]|[]| |[] ? ?], a as [[]|[]| |[] ? ?]; try done; unfold SFcompare; eauto;
  destruct (_ ?= _)%Z; eauto.
Qed.

Theorem C51_level_scale :
  forall {T} m (h : hnsw (T:=T)), exists c, clamped m c /\
    modify_level_scale m h =
    Hnsw (ef_construction h) (max_nb_connection h) (extend_candidates h) (keep_pruned h) (max_layer h)
         (points_by_layer h) (f64_mul (level_scale h) c) (nb_point h) (entry_point h) (searching h) (datamap_opt h).
Proof.
  intros T m h. exists (f64_min (f64_max m f64_0_2) f64_1). split; [|done].
  pose proof (scale_absurd m) as Habs.
  assert (E02 : f64_min f64_0_2 f64_1 = f64_0_2) by (vm_compute; reflexivity).
  assert (Enan : m <> S754_nan -> exists c, SFcompare m f64_0_2 = Some c) by (intros H; by apply SFcompare_some).
  assert (Enan1 : m <> S754_nan -> exists c, SFcompare m f64_1 = Some c) by (intros H; by apply SFcompare_some).
  assert (En : f64_max S754_nan f64_0_2 = f64_0_2) by (vm_compute; reflexivity).
  assert (Hc : SFcompare f64_1 S754_nan = None /\ SFcompare f64_0_2 S754_nan = None) by (vm_compute; done).
  unfold clamped, SFltb, SFleb. revert Habs E02 Enan Enan1 En Hc. generalize f64_0_2 f64_1. intros a b Habs E02 Enan Enan1 En [Hc1 Hc2].
  split_and!.
  - intros ->. by rewrite En.
  - unfold f64_max. destruct (SFcompare m a) as [[]|]; done.
  - intros H1. assert (Hn : m <> S754_nan) by (intros ->; by rewrite Hc1 in H1).
    rewrite (SFcompare_anti b m) in H1. destruct (Enan1 Hn) as [c1 E1]. rewrite E1 in H1. destruct c1; try done.
    unfold f64_max. destruct (Enan Hn) as [c2 E2]. rewrite E2. destruct c2.
    + unfold f64_min. by rewrite E1.
    + by destruct Habs.
    + unfold f64_min. by rewrite E1.
  - intros H1 H2. assert (Hn : m <> S754_nan) by (intros ->; by rewrite Hc2 in H1).
    rewrite (SFcompare_anti a m) in H1. unfold f64_max.
    destruct (Enan Hn) as [c2 E2]. rewrite E2 in H1 |- *.
    destruct c2; try done; unfold f64_min; destruct (SFcompare m b) as [[]|]; done.
Qed.
Print Assumptions C51_level_scale.
Example C51_example : clamped (S754_infinity false) f64_1 /\ clamped (S754_finite false 4503599627370496 (-53)) (S754_finite false 4503599627370496 (-53)).
Proof. split; (split_and!; [intros; try done|intros H; vm_compute in H; done|intros H; vm_compute in H; done|intros H H2; vm_compute in H2; done]). Qed.

(** C53: dropping an index never panics when max_layer >= 1. *)
Theorem C53_drop_partial :
  forall {T} (dist : list T -> list T -> Z) so, StdLaws so -> (forall a b, (0 <= dist a b)%Z) ->
  forall inv_ln M ml ef hist h, built dist so inv_ln M ml ef hist h ->
  (1 <= ml)%nat -> drop_indexation h = Ok tt.
Proof.
  intros T dist so LAWS Hnn inv_ln M ml ef hist h Hb Hml1.
  destruct (built_facts dist so LAWS Hnn _ _ _ _ _ _ Hb) as (Hwf & Hml & HM & Hef & Hst & Hnb).
  assert (Hlt : (get_max_level_observed h < length (points_by_layer h))%nat).
  { rewrite (c_len _ _ (w_core _ _ Hwf)). unfold get_max_level_observed.
    pose proof (w_entry _ _ Hwf) as Hent. destruct (entry_point h) as [ep|]; [|lia].
    destruct (core_layer dist h ep (w_core _ _ Hwf)) as [? _]; [by destruct Hent|].
    pose proof (c_len _ _ (w_core _ _ Hwf)). lia. }
  unfold drop_indexation.
  assert (Hg : forall ls, (forall l, l ∈ ls -> (l < length (points_by_layer h))%nat) ->
     foldl (fun acc l => _ ← acc; _ ← unwrap (points_by_layer h !! l); Ok tt) (Ok tt) ls = Ok tt).
  { induction ls as [|l ls IH]; intros Hls; [done|]. simpl.
    destruct (lookup_lt_is_Some_2 (points_by_layer h) l) as [ly ->]; [apply Hls; left|]. simpl. apply IH.
    intros l' Hl'. apply Hls. by right. }
  apply Hg. intros l Hl. apply elem_of_seq in Hl. lia.
Qed.
Print Assumptions C53_drop_partial.
Example C53_example : drop_indexation ex1 = Ok tt.
Proof. vm_compute. reflexivity. Qed.

(** C53 does not hold with max_layer = 0: dropping the (empty) index panics. *)
Theorem C53_drop_refuted :
  forall inv_ln M ef, (M <= 256)%nat ->
  exists h : hnsw (T:=Z), hnsw_new inv_ln M 0 ef = Ok h /\ drop_indexation h = Panic.
Proof.
  intros inv_ln M ef HM. unfold hnsw_new. destruct (Nat.ltb_spec 256 M); [lia|]. eexists. split; reflexivity.
Qed.
Print Assumptions C53_drop_refuted.
