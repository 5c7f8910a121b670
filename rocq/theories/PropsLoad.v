(** Property C68: whatever the bytes of the two files of a dump, an index that load_hnsw accepts can be searched. *)
From Coq Require Import Strings.String.
From stdpp Require Import relations.
From Verif Require Import Prelude Model StdInst Lib Table SearchProofs InsertProofs QueryProofs IterProofs Spec SpecProofs
  Io IoBase SpecIo SpecBuilt Conc SpecConc ConcSafe3 ConcEnd LoadProofs Examples ExamplesIo PropsIo.
Local Open Scope list_scope.

Lemma sum_layers {A} n : forall (ls : list (list A)), (length ls <= n)%nat ->
  length (concat ls) = list_sum ((fun l => match ls !! l with Some ly => length ly | None => 0%nat end) <$> seq 0 n).
Proof.
  induction n as [|n IH]; intros ls Hl; [destruct ls; [done|simpl in Hl; lia]|]. cbn [seq]. rewrite <- fmap_S_seq.
  rewrite fmap_cons, <- list_fmap_compose. cbn [list_sum foldr]. destruct ls as [|ly ls].
  - change (length (@concat A []) = list_sum ((fun l => match @nil (list A) !! l with Some ly => length ly | None => 0%nat end) <$> seq 0 n)).
    by rewrite <- (IH [] ltac:(simpl; lia)).
  - simpl in Hl. simpl. rewrite app_length, (IH ls) by lia. done.
Qed.

(** C68: no hypothesis on the files. The parameters are those of the description in the graph file; the entry point is a
    loaded point; there are no more points than the description says; the lists of every point are in order of
    distance and refer to loaded points; every search answers, with distinct loaded points sorted by their exact distances. *)
Theorem C68_accepted_index_is_safe :
  forall {T} so, StdLaws so -> forall (el : elem T) inv_ln dname cwd fs io h mapped,
  load_hnsw so el inv_ln dname cwd fs io = Ok (h, mapped) \/ load_hnsw_with_dist so el inv_ln dname cwd fs io = Ok (h, mapped) ->
  (exists g d de, dump_at fs cwd (io_dir io) (io_basename io) g d /\ run_rd load_description g d = Ok de /\
     max_nb_connection h = N.to_nat (de_max_nb_connection de) /\ ef_construction h = N.to_nat (de_ef de) /\
     (el_nodata el = false -> de_t_name de = el_name el) /\
     (Z.of_nat (get_nb_point h) <= as_i64 (de_nb_point de))%Z) /\
  get_nb_point h = list_sum (get_layer_nb_point h <$> seq 0 16) /\
  (exists ep pt, entry_point h = Some ep /\ layer_point h ep pt) /\
  (forall p pt, layer_point h p pt -> exists lists, get_neighborhood_id h pt = Ok lists /\ length lists = 16%nat /\
     forall ns, ns ∈ lists -> sorted_by distance ns /\
       forall n, n ∈ ns -> exists pt', layer_point h (p_id n) pt' /\ d_id n = pt_oid pt') /\
  (forall dist, (forall a b, (0 <= dist a b)%Z) ->
   forall q knbn ef_arg filter, filter = None \/ (1 <= Nat.max ef_arg knbn)%nat -> exists res,
     search_filter dist so h q knbn ef_arg filter = Ok res /\ (length res <= knbn)%nat /\
     sorted_by distance res /\ NoDup (p_id <$> res) /\
     (forall a, a ∈ res -> exists pt, layer_point h (p_id a) pt /\ d_id a = pt_oid pt /\ distance a = dist q (pt_data pt)) /\
     (filter = None -> (1 <= knbn)%nat -> res <> [])).
Proof.
  intros T so LAWS el inv_ln dname cwd fs io h mapped Hload.
  apply load_accepted in Hload as (g & d & de & ld & dm & dmo & s & s' & Hat & Hde & Eh & Hld).
  destruct (load_indexation_inv so LAWS el dm (io_options io) de s ld s' inv_ln dmo Hld) as (I1 & I2 & I3 & I4 & I5).
  rewrite <- Eh in *.
  assert (Ee : entry_point h = Some (ld_entry ld)) by (by rewrite Eh).
  assert (Hs : searchable h).
  { split; [done| |intros ep; rewrite Ee; by intros [= <-]]. intros l Hl p pt _ Hp.
    destruct (I5 _ _ Hp) as (_ & E16 & Hn). destruct (lookup_lt_is_Some_2 (pt_nbs pt) l) as [nbs Hnb]; [lia|].
    exists nbs. split; [done|]. intros n Hin. split; [|done]. by eapply Hn. }
  assert (Hlp : forall p pt, layer_point h p pt <-> get_pt h p = Some pt).
  { intros p pt. unfold layer_point. rewrite iter_layer_spec. split.
    - intros (pts & Hi & Hin & Hp). destruct (points_by_layer h !! p.1) as [ly|] eqn:E; [|done]. injection Hi as <-.
      apply elem_of_list_lookup in Hin as [r Hr].
      assert (Hg : get_pt h (p.1, r) = Some pt) by (apply get_pt_lookup; eauto).
      destruct (I5 _ _ Hg) as [Hpid _]. rewrite Hp in Hpid. by rewrite Hpid.
    - intros Hp. pose proof Hp as Hp'. apply get_pt_lookup in Hp' as (ly & E & Hr). rewrite E. exists ly.
      split; [done|]. split; [by eapply elem_of_list_lookup_2|]. by destruct (I5 _ _ Hp). }
  split; [|split; [|split; [|split]]].
  - exists g, d, de. split_and!; auto; by rewrite Eh.
  - assert (En : get_nb_point h = length (concat (points_by_layer h))) by (by rewrite Eh). rewrite En.
    unfold get_layer_nb_point. by apply sum_layers.
  - destruct I3 as [ept Hept]. exists (ld_entry ld), ept. split; [done|]. by apply Hlp.
  - intros p pt Hp%Hlp. destruct (I5 _ _ Hp) as (_ & E16 & Hn).
    assert (Hok : exists lists, get_neighborhood_id h pt = Ok lists).
    { apply mapM_outcome_Ok. intros nbs Hnbs. apply mapM_outcome_Ok. intros n Hin.
      apply elem_of_list_lookup in Hnbs as [l Hl]. destruct (Hn _ _ Hl) as [_ Hv]. destruct (Hv n Hin) as [q Hq].
      rewrite Hq. simpl. by eexists. }
    destruct Hok as [lists Hg]. exists lists. split; [done|]. apply mapM_outcome_inv in Hg.
    split; [by rewrite <- (Forall2_length _ _ _ Hg)|]. intros ns Hns. apply elem_of_list_lookup in Hns as [l Hl].
    destruct (Forall2_lookup_r _ _ _ _ _ Hg Hl) as (nbs & Hnb & Hm%mapM_outcome_inv). destruct (Hn _ _ Hnb) as [Hso Hv].
    assert (HF : Forall2 (fun (n : nbr) (a : neighbour) => p_id a = n_pid n /\ distance a = n_dist n /\
      exists q0 : point, get_pt h (n_pid n) = Some q0 /\ d_id a = pt_oid q0) nbs ns).
    { eapply Forall2_impl; [exact Hm|]. intros n a Ha. apply bind_inv in Ha as (q0 & Hq%unwrap_inv & [= <-]). simpl. eauto. }
    split.
    + assert (Ed : distance <$> ns = n_dist <$> nbs).
      { clear -HF. induction HF as [|n a nbs ns (_ & E & _) HF IH]; [done|]. csimpl. by rewrite E, IH. }
      by eapply sorted_transfer.
    + intros a Ha. apply elem_of_list_lookup in Ha as [i Hi].
      destruct (Forall2_lookup_r _ _ _ _ _ HF Hi) as (n & _ & E1 & _ & q0 & Hq0 & E3). exists q0. rewrite E1. split; [|done].
      by apply Hlp.
  - intros dist Hnn q k efa filter Hf.
    destruct (search_srch_facts dist so LAWS Hnn h q k efa filter Hs Hf) as (res & Hr & R1 & R2 & R3 & R4).
    exists res. split_and!; auto.
    + intros a Ha. rewrite Forall_forall in R4. destruct (R4 a Ha) as (pt & Hpt & Hd & Hdist). exists pt.
      split_and!; auto. by apply Hlp.
    + intros -> Hk ->. destruct (search_srch_nonempty dist so LAWS Hnn h q k efa _ Hs Ee Hk) as (a & res & _ & Hr' & _).
      rewrite Hr in Hr'. done.
Qed.
Print Assumptions C68_accepted_index_is_safe.
(** a dump in which one byte was changed: a point becomes its own neighbour, with a wrong distance and a wrong id. It is
    accepted; the neighbour is reported with the id of the loaded point. *)
Definition exb_bad : fsys :=
  let full := from_option id [] (fs_read exb_fs cwd0 (graph_file tmp_dir "b")) in
  fs_write exb_fs cwd0 (graph_file tmp_dir "b") (take 137 full ++ [Byte.x00] ++ drop 138 full).
Example C68_example : exists h mapped pt ns rest,
  load_hnsw simple_ops el_u8 one_scale l1_name cwd0 exb_bad (io_new tmp_dir "b") = Ok (h, mapped) /\
  get_pt h (0, 0)%nat = Some pt /\ get_neighborhood_id h pt = Ok (ns :: rest) /\
  ns = [Neighbour 10%N 5%Z (0, 0)%nat; Neighbour 12%N 20%Z (0, 1)%nat] /\ get_nb_point h = 5%nat.
Proof.
  do 5 eexists. split; [vm_compute; reflexivity|]. split; [vm_compute; reflexivity|]. split; [vm_compute; reflexivity|].
  split; vm_compute; reflexivity.
Qed.
