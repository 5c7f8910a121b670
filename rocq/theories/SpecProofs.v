(** The vocabulary of Spec.v on well formed tables. *)
From stdpp Require Import relations.
From Verif Require Import Prelude Model Lib Table SearchProofs SelectProofs InsertProofs ExhaustProofs QueryProofs
  IterProofs FlatProofs Spec.

Section SpecProofs.
Context {T : Type} (dist : list T -> list T -> Z) (so : StdOps).
Context (LAWS : StdLaws so) (Hnn : forall a b, (0 <= dist a b)%Z).
Implicit Types (h : hnsw (T:=T)) (p np ep : pid) (q : list T).
Local Notation core := (core dist).
Local Notation wf := (wf dist).

Lemma wf_meta h h' :
  points_by_layer h' = points_by_layer h -> max_layer h' = max_layer h ->
  max_nb_connection h' = max_nb_connection h -> nb_point h' = nb_point h ->
  entry_point h' = entry_point h -> wf h -> wf h'.
Proof.
  intros E1 E2 E3 E4 E5 [Hc Hn He].
  assert (Hg : forall p, get_pt h' p = get_pt h p) by (intros p; unfold get_pt; by rewrite E1).
  assert (Hs : table_size h' = table_size h) by (unfold table_size; by rewrite E1).
  constructor.
  - by apply (core_meta dist h).
  - congruence.
  - rewrite E5, Hs. destruct (entry_point h) as [ep|]; [|done].
    destruct He as [Hv Hm]. split.
    + destruct Hv as [pt Hpt]. exists pt. by rewrite Hg.
    + intros p [pt Hpt]. apply Hm. exists pt. by rewrite <- Hg.
Qed.

Lemma replicate_nil_size n : sum_list (length <$> replicate n ([] : list (point (T:=T)))) = 0%nat.
Proof. induction n as [|n IH]; [done|]. csimpl. exact IH. Qed.

Lemma hnsw_new_wf inv_ln M ml ef h : hnsw_new inv_ln M ml ef = Ok h ->
  wf h /\ max_layer h = Nat.min 16 ml /\ max_nb_connection h = M /\ ef_construction h = ef /\
  entry_point h = None /\ stored h = [] /\ extend_candidates h = false /\ keep_pruned h = false /\
  datamap_opt h = false /\ points_by_layer h = replicate (Nat.min 16 ml) [].
Proof.
  unfold hnsw_new. change (Nat.min 16 ml) with (Nat.min NB_LAYER_MAX ml).
  pose proof (Nat.le_min_l NB_LAYER_MAX ml) as Hmn. revert Hmn. generalize (Nat.min NB_LAYER_MAX ml) as mn. intros mn Hmn.
  destruct (Nat.ltb_spec 256 M) as [?|HM]; [done|]. intros [= <-].
  assert (Hg : forall p, get_pt (Hnsw ef M false false mn (replicate mn [])
             (inv_ln M) 0 None false false) p = None (A:=point (T:=T))).
  { intros p. unfold get_pt. cbn [points_by_layer]. destruct (replicate _ _ !! p.1) as [ly|] eqn:E; [|done].
    apply lookup_replicate in E as [-> _]. done. }
  split_and!; try done.
  - constructor.
    + constructor.
      * simpl. apply replicate_length.
      * cbn [max_layer]. exact Hmn.
      * cbn [max_nb_connection]. lia.
      * intros p pt Hp. rewrite Hg in Hp. done.
      * intros p pt l nbs Hp. rewrite Hg in Hp. done.
    + unfold table_size. cbn [points_by_layer nb_point]. by rewrite replicate_nil_size.
    + cbn [entry_point]. unfold table_size. cbn [points_by_layer]. apply replicate_nil_size.
  - unfold stored, all_points. cbn [points_by_layer].
    assert (E : forall n, concat (replicate n ([] : list (point (T:=T)))) = []) by (induction n; auto).
    by rewrite E.
Qed.

Lemma insert_max_layer h v id d h' : insert_slice dist so h v id d = Ok h' -> (0 < max_layer h)%nat.
Proof.
  unfold insert_slice, generate_new_point. intros H.
  apply bind_inv in H as (x & H & _). apply bind_inv in H as (level & H & _).
  apply generate_lt in H. lia.
Qed.

(** ** Through the API *)
Lemma vector_at_pt h p v : wf h -> vector_at h p v <-> exists pt, get_pt h p = Some pt /\ pt_data pt = v.
Proof.
  intros Hwf. unfold vector_at. rewrite (get_point_data_spec dist) by done.
  replace (Z.of_nat p.2 <? 0)%Z with false by lia. rewrite Nat2Z.id, <- surjective_pairing.
  destruct (get_pt h p) as [pt|]; simpl.
  - split; [intros [= <-]; eauto|]. intros (? & [= <-] & <-). done.
  - split; [done|]. by intros (? & ? & _).
Qed.

Lemma point_at_pt h p pt : wf h -> point_at h p pt <-> get_pt h p = Some pt.
Proof.
  intros Hwf. unfold point_at. split.
  - intros (pts & Hi & Hin & <-). destruct (entry_point h) as [ep|] eqn:E.
    + rewrite (iter_points_spec dist h ep Hwf E) in Hi. injection Hi as <-.
      apply elem_of_all_points in Hin as [p Hp].
      destruct (c_pt _ _ (w_core _ _ Hwf) _ _ Hp) as [-> _]. done.
    + pose proof (w_entry _ _ Hwf) as He. rewrite E in He.
      unfold iter_points in Hi. cbn [iter_collect] in Hi. apply bind_inv in Hi as ([o st] & Hn & Hi).
      unfold iter_next in Hn. apply bind_inv in Hn as (ly & Hly & Hn). apply unwrap_inv in Hly.
      destruct ly as [|x ly].
      * simpl in Hn. rewrite E in Hn. done.
      * exfalso. apply (table_size_0_valid h (0, 0)%nat He). exists x. apply get_pt_lookup. eauto.
  - intros Hp. assert (Hv : valid h p) by (by exists pt).
    destruct (entry_point h) as [ep|] eqn:E.
    + exists (all_points h). rewrite (iter_points_spec dist h ep Hwf E). split_and!; auto.
      * apply elem_of_all_points. eauto.
      * by destruct (c_pt _ _ (w_core _ _ Hwf) _ _ Hp).
    + pose proof (w_entry _ _ Hwf) as He. rewrite E in He. exfalso. by apply (table_size_0_valid h p).
Qed.

(** what get_neighborhood_id returns *)
Lemma nbhd_ok_core h p pt : core h -> get_pt h p = Some pt ->
  exists lists, get_neighborhood_id h pt = Ok lists /\ length lists = NB_LAYER_MAX /\
    forall l ns, lists !! l = Some ns <-> exists nbs, pt_nbs pt !! l = Some nbs /\
      Forall2 (fun n (a : neighbour) => p_id a = n_pid n /\ distance a = n_dist n /\
                 exists q0 : point, get_pt h (n_pid n) = Some q0 /\ d_id a = pt_oid q0) nbs ns.
Proof.
  intros Hc Hp. unfold get_neighborhood_id.
  set (f := fun n : nbr => q0 ← unwrap (get_pt h (n_pid n)); Ok (Neighbour (pt_oid (T:=T) q0) (n_dist n) (n_pid n))).
  assert (Hf : forall l nbs, pt_nbs pt !! l = Some nbs -> exists ns, mapM f nbs = Ok ns).
  { intros l nbs Hl. apply mapM_outcome_Ok. intros n Hn.
    destruct (c_lists _ _ Hc _ _ _ _ Hp Hl) as [_ _ _ Lref _]. rewrite Forall_forall in Lref.
    destruct (Lref n Hn) as (q & Hq & _). unfold f. rewrite Hq. simpl. by eexists. }
  assert (Hfs : forall nbs ns, mapM f nbs = Ok ns ->
     Forall2 (fun n (a : neighbour) => p_id a = n_pid n /\ distance a = n_dist n /\
                 exists q0 : point, get_pt h (n_pid n) = Some q0 /\ d_id a = pt_oid q0) nbs ns).
  { intros nbs ns Hm. apply mapM_outcome_inv in Hm. eapply Forall2_impl; [exact Hm|].
    intros n a Ha. unfold f in Ha. apply bind_inv in Ha as (q & Hq & Ha). apply unwrap_inv in Hq.
    injection Ha as <-. simpl. eauto. }
  destruct (mapM_outcome_Ok (mapM f) (pt_nbs pt)) as [lists Hlists].
  { intros nbs Hin. apply elem_of_list_lookup in Hin as [l Hl]. unfold is_ok. eauto. }
  exists lists. split; [exact Hlists|]. apply mapM_outcome_inv in Hlists.
  split. { rewrite <- (Forall2_length _ _ _ Hlists). by destruct (c_pt _ _ Hc _ _ Hp). }
  intros l ns. split.
  - intros Hl. destruct (Forall2_lookup_r _ _ _ _ _ Hlists Hl) as (nbs & Hn & Hm). eauto.
  - intros (nbs & Hn & HF). destruct (Forall2_lookup_l _ _ _ _ _ Hlists Hn) as (ns' & Hl & Hm).
    rewrite Hl. f_equal. apply Hfs in Hm. clear -HF Hm. revert ns' Hm.
    induction HF as [|n a nbs ns (E1 & E2 & q & Hq & E3) HF IH]; intros ns' Hm; inversion Hm as [|? a' ? ns2 (E1' & E2' & q' & Hq' & E3')]; subst; [done|].
    f_equal; [|by apply IH]. destruct a, a'; simpl in *. congruence.
Qed.
Lemma nbhd_ok h p pt : wf h -> get_pt h p = Some pt ->
  exists lists, get_neighborhood_id h pt = Ok lists /\ length lists = NB_LAYER_MAX /\
    forall l ns, lists !! l = Some ns <-> exists nbs, pt_nbs pt !! l = Some nbs /\
      Forall2 (fun n (a : neighbour) => p_id a = n_pid n /\ distance a = n_dist n /\
                 exists q0 : point, get_pt h (n_pid n) = Some q0 /\ d_id a = pt_oid q0) nbs ns.
Proof. intros [Hc _ _]. by apply nbhd_ok_core. Qed.

Lemma neighbours_at_pt h p l ns : wf h ->
  neighbours_at h p l ns <-> exists pt nbs, get_pt h p = Some pt /\ pt_nbs pt !! l = Some nbs /\
      Forall2 (fun n (a : neighbour) => p_id a = n_pid n /\ distance a = n_dist n /\
                 exists q0 : point, get_pt h (n_pid n) = Some q0 /\ d_id a = pt_oid q0) nbs ns.
Proof.
  intros Hwf. unfold neighbours_at. split.
  - intros (pt & lists & Hpt & Hg & Hl). apply point_at_pt in Hpt; [|done].
    destruct (nbhd_ok h p pt Hwf Hpt) as (lists' & Hg' & _ & Hspec). rewrite Hg in Hg'. injection Hg' as <-.
    apply Hspec in Hl as (nbs & ? & ?). eauto.
  - intros (pt & nbs & Hpt & Hn & HF). destruct (nbhd_ok h p pt Hwf Hpt) as (lists & Hg & _ & Hspec).
    exists pt, lists. split; [by apply point_at_pt|]. split; [done|]. apply Hspec. eauto.
Qed.

Lemma linked_link h l p p' : wf h -> linked h l p p' <-> link h l p p'.
Proof.
  intros Hwf. unfold linked, link. split.
  - intros (ns & a & Hns & Ha & <-). apply neighbours_at_pt in Hns as (pt & nbs & Hpt & Hn & HF); [|done].
    apply elem_of_list_lookup in Ha as [i Hi]. destruct (Forall2_lookup_r _ _ _ _ _ HF Hi) as (n & Hni & E & _).
    exists pt, nbs, n. split_and!; auto. by eapply elem_of_list_lookup_2.
  - intros (pt & nbs & n & Hpt & Hn & Hin & <-).
    destruct (nbhd_ok h p pt Hwf Hpt) as (lists & Hg & Hlen & Hspec).
    assert (exists ns, lists !! l = Some ns) as [ns Hl].
    { apply lookup_lt_is_Some. rewrite Hlen. apply lookup_lt_Some in Hn.
      destruct (c_pt _ _ (w_core _ _ Hwf) _ _ Hpt) as [_ E]. congruence. }
    pose proof Hl as Hl'. apply Hspec in Hl' as (nbs' & Hn' & HF). rewrite Hn in Hn'. injection Hn' as <-.
    apply elem_of_list_lookup in Hin as [i Hi]. destruct (Forall2_lookup_l _ _ _ _ _ HF Hi) as (a & Ha & E & _).
    exists ns, a. split_and!; auto.
    + apply neighbours_at_pt; [done|]. eauto.
    + by eapply elem_of_list_lookup_2.
Qed.

Lemma reaches_rtc h l p p' : wf h -> reaches h l p p' <-> rtc (link h l) p p'.
Proof.
  intros Hwf. split.
  - induction 1 as [|p1 p2 p3 H _ IH]; [apply rtc_refl|]. eapply rtc_l; [|exact IH]. by apply linked_link.
  - induction 1 as [|p1 p2 p3 H _ IH]; [constructor|]. econstructor; [|exact IH]. by apply linked_link.
Qed.

Lemma lowest_layer_spec h l : wf h -> layer_to_search h = Ok l -> lowest_layer h l.
Proof.
  intros _ Hl. unfold layer_to_search in Hl. unfold lowest_layer, get_layer_nb_point.
  assert (Hg : forall (ls : list (list (point (T:=T)))) k, lowest_from ls k = Ok l ->
     (k <= l)%nat /\ (exists x ly, ls !! (l - k) = Some (x :: ly)) /\ forall j, (j < l - k)%nat -> ls !! j = Some []).
  { clear. induction ls as [|[|x ly] ls IH]; intros k Hk; simpl in Hk; [done|..].
    - destruct (IH (S k) Hk) as (Hle & (x & ly & Hx) & Hlow). split_and!; [lia|..].
      + exists x, ly. replace (l - k) with (S (l - S k)) by lia. done.
      + intros [|j] Hj; [done|]. simpl. apply Hlow. lia.
    - injection Hk as ->. rewrite Nat.sub_diag. split_and!; [lia|eauto|]. intros; lia. }
  destruct (Hg _ _ Hl) as (_ & (x & ly & Hx) & Hlow). rewrite Nat.sub_0_r in *. split.
  - by rewrite Hx.
  - intros j Hj. by rewrite Hlow.
Qed.

Lemma stored_at h p pt : get_pt h p = Some pt -> (pt_data pt, pt_oid pt) ∈ stored h.
Proof. intros Hp. apply elem_of_list_fmap. exists pt. split; [done|]. apply elem_of_all_points. eauto. Qed.

(** ** Sequences *)
Lemma evolves_facts h h' : evolves dist so h h' -> wf h -> wf h' /\ grows h h'.
Proof.
  induction 1 as [h|h h1 v id d h2 _ IH Hins|h h1 b _ IH|h h1 b _ IH|h h1 b _ IH|h h1 b _ IH]; intros Hwf.
  - split; [done|apply grows_refl].
  - destruct (IH Hwf) as [Hwf1 Hgr1].
    destruct (insert_spec dist so LAWS Hnn h1 v id d Hwf1 (insert_max_layer _ _ _ _ _ Hins)) as
      (h2' & np & Hi2 & Hwf2 & Hgr & _).
    rewrite Hins in Hi2. injection Hi2 as <-. split; [done|]. by eapply grows_trans.
  - destruct (IH Hwf) as [Hwf1 Hgr1]. split; [by apply (wf_meta h1)|done].
  - destruct (IH Hwf) as [Hwf1 Hgr1]. split; [by apply (wf_meta h1)|done].
  - destruct (IH Hwf) as [Hwf1 Hgr1]. split; [by apply (wf_meta h1)|done].
  - destruct (IH Hwf) as [Hwf1 Hgr1]. split; [by apply (wf_meta h1)|done].
Qed.

End SpecProofs.
