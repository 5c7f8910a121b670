(** Property C67: what holds of an index however it was used, in particular after parallel insertions into an empty index. *)
From stdpp Require Import relations.
From Verif Require Import Prelude Model StdInst Lib Table SearchProofs InsertProofs QueryProofs IterProofs Spec SpecProofs
  Io SpecIo SpecBuilt Conc SpecConc ConcSafe ConcSafe2 ConcSafe3 ConcGlobal ConcEnd ConcLive BuiltProofs Examples ExamplesConc PropsConc.
Local Open Scope list_scope.

(** C67: the index holds what was inserted and counts it; its lists are well formed; every search answers, with at most
    knbn points of the index, different and sorted, with their ids and distances, and at least one if there is one;
    a further insertion succeeds. *)
Theorem C67_any_use :
  forall {T} (dist : list T -> list T -> Z) so, StdLaws so -> (forall a b, (0 <= dist a b)%Z) ->
  forall inv_ln M ml ef hist h, used dist so inv_ln M ml ef hist h ->
  (exists xs, contents h xs /\ xs ≡ₚ hist) /\ get_nb_point h = length hist /\
  (forall q knbn ef_arg filter, filter = None \/ (1 <= Nat.max ef_arg knbn)%nat -> exists res,
    search_filter dist so h q knbn ef_arg filter = Ok res /\ (length res <= knbn)%nat /\
    sorted_by distance res /\ NoDup (p_id <$> res) /\
    (forall a, a ∈ res -> exists pt, layer_point h (p_id a) pt /\
       d_id a = pt_oid pt /\ distance a = dist q (pt_data pt) /\ (pt_data pt, d_id a) ∈ hist) /\
    (hist <> [] -> (1 <= knbn)%nat -> res <> [])) /\
  ((1 <= ml)%nat -> forall v id d, exists h', insert_slice dist so h v id d = Ok h' /\
    used dist so inv_ln M ml ef (hist ++ [(v, id)]) h') /\
  (forall p pt l ns, layer_point h p pt -> layer_neighbours h p l ns ->
    (l = 0%nat -> (length ns <= 2 * M)%nat) /\ ((1 <= l)%nat -> (length ns <= M)%nat) /\
    sorted_by distance ns /\ NoDup (p_id <$> ns) /\ p ∉ p_id <$> ns /\
    forall n, n ∈ ns -> exists pt', layer_point h (p_id n) pt' /\ d_id n = pt_oid pt' /\
      (distance n = dist (pt_data pt) (pt_data pt') \/ distance n = dist (pt_data pt') (pt_data pt))).
Proof.
  intros T dist so LAWS Hnn inv_ln M ml ef hist h Hu.
  destruct (used_facts dist so LAWS Hnn _ _ _ _ _ _ Hu) as (Hwf & Eml & EM & _ & Hst & Hnb).
  pose proof (l_core _ _ Hwf) as Hc. split; [|split; [done|split; [|split]]].
  - exists (stored h). split; [by apply (contents_stored dist)|done].
  - intros q k efa filter Hf.
    destruct (search_filter_facts dist so LAWS Hnn h q k efa filter Hwf Hf) as (res & Hs & R1 & R2 & R3 & R4).
    exists res. split_and!; auto.
    + intros a Ha. rewrite Forall_forall in R4. destruct (R4 a Ha) as (pt & Hpt & Hd & Hdist). exists pt.
      split_and!; auto; [by apply (layer_point_pt dist)|]. rewrite <- Hst, Hd. by eapply stored_at.
    + intros Hh Hk ->. assert (He : entry_point h <> None).
      { intros E. pose proof (l_entry _ _ Hwf) as He. rewrite E in He. rewrite <- (l_count _ _ Hwf), Hnb in He.
        by apply Hh, nil_length_inv. }
      destruct (entry_point h) as [ep|] eqn:Eep; [|done].
      destruct (search_filter_run dist so LAWS Hnn h q k efa filter ep Hwf Eep Hf) as
        (pv & pvt & ept & l & ly & hp & res & ? & ? & ? & ? & ? & ? & ? & ? & ? & Hs' & Q1 & Q2 & Q3 & Q4 & Q5 & A1 & A2 & A3).
      rewrite Hs in Hs'. injection Hs' as <-. simpl in A2. symmetry in A2. apply fmap_nil_inv in A2.
      apply Q3. destruct k; [lia|]. assert (Hnil : h_sorted so hp = []) by (destruct (h_sorted so hp); done).
      apply Permutation_nil. rewrite <- Hnil. apply (law_sorted_perm _ LAWS).
  - intros Hml v id d. destruct (insert_lspec dist so LAWS Hnn h v id d Hwf) as (h' & np & Hi & _); [unfold NB_LAYER_MAX in *; lia|].
    exists h'. split; [done|]. by eapply used_insert.
  - intros p pt l ns Hpt Hns. apply (layer_point_pt dist) in Hpt; [|done].
    apply (layer_neighbours_pt dist) in Hns as (pt0 & nbs & Hpt0 & Hn & HF); [|done].
    rewrite Hpt in Hpt0. injection Hpt0 as <-.
    destruct (c_lists _ _ Hc _ _ _ _ Hpt Hn) as [L1 L2 L3 L4 L5].
    assert (Ep : p_id <$> ns = n_pid <$> nbs).
    { clear -HF. induction HF as [|n a nbs ns (E & _) HF IH]; [done|]. csimpl. by rewrite E, IH. }
    assert (Ed : distance <$> ns = n_dist <$> nbs).
    { clear -HF. induction HF as [|n a nbs ns (_ & E & _) HF IH]; [done|]. csimpl. by rewrite E, IH. }
    rewrite (Forall2_length _ _ _ HF) in L5. unfold nb_conn in L5. rewrite EM in L5.
    split; [destruct (Nat.eqb_spec l 0); lia|]. split; [destruct (Nat.eqb_spec l 0); lia|].
    split; [by eapply sorted_transfer|]. rewrite Ep. split; [done|]. split; [done|].
    intros a Ha. apply elem_of_list_lookup in Ha as [i Hi].
    destruct (Forall2_lookup_r _ _ _ _ _ HF Hi) as (n & Hni & E1 & E2 & q0 & Hq0 & E3).
    rewrite Forall_forall in L4. destruct (L4 n) as (q & Hq & Hdq); [by eapply elem_of_list_lookup_2|].
    rewrite Hq0 in Hq. injection Hq as <-. exists q0. rewrite E1, E2. split; [by apply (layer_point_pt dist)|]. split; [done|].
    exact Hdq.
Qed.
Print Assumptions C67_any_use.
(** the index of C45, filled by two threads, then one more insertion; one of its points is reached by no link *)
Lemma ce_used : used d1 simple_ops one_scale 2 16 10 [([0%Z], 1%N); ([5%Z], 2%N)] ce_h.
Proof.
  apply (used_parallel d1 simple_ops one_scale 2 16 10 [] (empty_index 2 16 10) ce_tasks [RInserted (1, 0); RInserted (0, 0)]%nat ce_h).
  - apply used_built. apply built_new. vm_compute. reflexivity.
  - lia.
  - repeat constructor.
  - exact ce_after.
Qed.
Example C67_example : used d1 simple_ops one_scale 2 16 10 [([0%Z], 1%N); ([5%Z], 2%N)] ce_h /\
  (exists res, search d1 simple_ops ce_h [4%Z] 2 10 = Ok res /\ length res = 1%nat).
Proof. split; [exact ce_used|]. eexists. split; [vm_compute; reflexivity|reflexivity]. Qed.

(** the same insertions, one after the other: all the points are iterated over and the index counts as built *)
Definition ce2_end := play [(0, 200); (1, 200)]%nat (initial d1 simple_ops (empty_index 2 16 10) ce_tasks).
Example built_parallel_first_example :
  built d1 simple_ops one_scale 2 16 10 [([0%Z], 1%N); ([5%Z], 2%N)] (c_sh ce2_end).
Proof.
  eapply (built_parallel_first d1 simple_ops one_scale 2 16 10 (empty_index 2 16 10) ce_tasks
    [RInserted (1, 0); RInserted (0, 0)]%nat).
  - apply built_new. vm_compute. reflexivity.
  - lia.
  - repeat constructor.
  - apply play_after. vm_compute. reflexivity.
  - vm_compute. reflexivity.
  - vm_compute. reflexivity.
Qed.
