(** Properties C33-C42: failed dumps, mapped data, file names, type checks, graph-only reload. Same
    conventions as PropsIo.v. *)
From Coq Require Import SpecFloat Strings.Byte Strings.String.
From stdpp Require Import strings sets.
From Verif Require Import Prelude Model StdInst Lib Table SearchProofs InsertProofs IterProofs Spec SpecProofs Io IoBase
  SpecIo SpecBuilt IoProofs IoProofs2 IoProofs3 IoProofs4 IoProofs5 BuiltProofs ReloadProofs Examples ExamplesIo PropsIo.
Local Open Scope list_scope.

(** C33: a dump that returns Err destroys the previous dump of the same name. *)
Theorem C33_failed_dump_refuted :
  exists (dist : list byte -> list byte -> Z) so inv_ln M ml ef h (el : elem byte) dname cwd fs dir base h0 fs',
    StdLaws so /\ (forall a b, (0 <= dist a b)%Z) /\ built dist so inv_ln M ml ef [] h /\
    load_hnsw so el inv_ln dname cwd fs (io_new dir base) = Ok (h0, []) /\
    file_dump el dname cwd fs dir base [] h = (fs', Err) /\
    forall x, load_hnsw so el inv_ln dname cwd fs' (io_new dir base) <> Ok x.
Proof.
  exists dB, simple_ops, one_scale, 2%nat, 16%nat, 10%nat, (empty_b 2 16 10), el_u8, l1_name, cwd0, exb_fs, tmp_dir, "b".
  eexists _, (fst (file_dump el_u8 l1_name cwd0 exb_fs tmp_dir "b" [] (empty_b 2 16 10))).
  split; [exact simple_laws|]. split; [exact dB_nonneg|]. split; [apply built_new; reflexivity|].
  split; [vm_compute; reflexivity|]. split.
  - assert (E : snd (file_dump el_u8 l1_name cwd0 exb_fs tmp_dir "b" [] (empty_b 2 16 10)) = Err) by (vm_compute; reflexivity).
    revert E. generalize (file_dump el_u8 l1_name cwd0 exb_fs tmp_dir "b" [] (empty_b 2 16 10)).
    intros [a b] E. cbn [fst snd] in *. by rewrite E.
  - assert (E : load_hnsw simple_ops el_u8 one_scale l1_name cwd0
      (fst (file_dump el_u8 l1_name cwd0 exb_fs tmp_dir "b" [] (empty_b 2 16 10))) (io_new tmp_dir "b") = Err)
      by (vm_compute; reflexivity).
    intros x. by rewrite E.
Qed.
Print Assumptions C33_failed_dump_refuted.

(** C33, what does hold: the dump of an index with 16 layers and at least one point does not fail (when the index
    was not reloaded, or nothing is stored under this name), and a dump writes no other file than the two of the name used. *)
Theorem C33_failed_dump_partial :
  (forall {T} (dist : list T -> list T -> Z) so, StdLaws so -> (forall a b, (0 <= dist a b)%Z) ->
   forall inv_ln M ml ef hist h, built dist so inv_ln M ml ef hist h ->
   forall el dname, dump_ready el dname ml hist h ->
   forall cwd fs dir base draws,
   (datamap_opt h = false \/ fs_read fs cwd (data_file dir base) = None ->
    exists fs', file_dump el dname cwd fs dir base draws h = (fs', Ok base))) /\
  (forall {T} (el : elem T) dname cwd fs dir base draws (h : hnsw (T:=T)) fs' r,
   file_dump el dname cwd fs dir base draws h = (fs', r) ->
   fs' = fs \/ exists name, (name = base \/ exists id, id ∈ draws /\ name = suffixed base id) /\
     forall loc, loc <> resolve cwd (graph_file dir name) -> loc <> resolve cwd (data_file dir name) -> fs' loc = fs loc).
Proof.
  split.
  - intros T dist so LAWS Hnn inv_ln M ml ef hist h Hb el dname Hr cwd fs dir base draws H.
    eapply (bd_file_dump dist so LAWS Hnn); eauto. unfold dump_basename. destruct (datamap_opt h); [|done]. cbn [negb].
    destruct H as [?| ->]; done.
  - intros T el dname cwd fs dir base draws h fs' r H. apply file_dump_files in H as [[-> _]|(name & Hn & _ & Hf)]; [by left|].
    right. exists name. split; [|done]. destruct (datamap_opt h); cbn [negb] in Hn.
    + by apply dump_basename_absent in Hn as [_ ?].
    + cbn in Hn. injection Hn as ->. by left.
Qed.
Print Assumptions C33_failed_dump_partial.
Example C33_example : datamap_opt exb = false /\ dump_ready el_u8 l1_name 16 (fst <$> exb_points) exb /\
  (file_dump el_u8 l1_name cwd0 exb_fs tmp_dir "b" [] exb).2 = Ok "b".
Proof. split; [done|]. split; [exact exb_ready|vm_compute; reflexivity]. Qed.

(** C34: with a repeated id, the mapped reload gives a point the vector of another point. *)
Theorem C34_mmap_refuted :
  exists (dist : list byte -> list byte -> Z) so inv_ln M ml ef hist h (el : elem byte) dname cwd fs fs' dir base h' m' h'' p v' v'',
    StdLaws so /\ (forall a b, (0 <= dist a b)%Z) /\ built dist so inv_ln M ml ef hist h /\
    dump_ready el dname ml hist h /\ uniform h /\ plain_dir dir /\
    file_dump el dname cwd fs dir base [] h = (fs', Ok base) /\
    load_hnsw so el inv_ln dname cwd fs' (io_new_with_options dir base (ro_new true)) = Ok (h', m') /\
    load_hnsw so el inv_ln dname cwd fs' (io_new dir base) = Ok (h'', []) /\
    vector_at h' p v' /\ vector_at h'' p v'' /\ v' <> v''.
Proof.
  exists dB, simple_ops, one_scale, 2%nat, 16%nat, 10%nat, (fst <$> exd_points), exd, el_u8, l1_name, cwd0, fs0,
    (fst (file_dump el_u8 l1_name cwd0 fs0 tmp_dir "b" [] exd)), tmp_dir, "b".
  eexists _, _, _, (0, 0)%nat, [x0a], [x00]. split; [exact simple_laws|]. split; [exact dB_nonneg|]. split; [exact exd_built|].
  split; [exact exd_ready|]. split; [exact exd_uniform|]. split; [by left|]. split.
  - assert (E : snd (file_dump el_u8 l1_name cwd0 fs0 tmp_dir "b" [] exd) = Ok "b") by (vm_compute; reflexivity).
    revert E. generalize (file_dump el_u8 l1_name cwd0 fs0 tmp_dir "b" [] exd). intros [a b] E. cbn [fst snd] in *. by rewrite E.
  - split; [vm_compute; reflexivity|]. split; [vm_compute; reflexivity|]. split; [vm_compute; reflexivity|].
    split; [vm_compute; reflexivity|done].
Qed.
Print Assumptions C34_mmap_refuted.

(** C34 for distinct ids: reloading with mapped vectors, whatever the threshold, and without give the same index. *)
Theorem C34_mmap_partial :
  forall {T} (dist : list T -> list T -> Z) so, StdLaws so -> (forall a b, (0 <= dist a b)%Z) ->
  forall inv_ln M ml ef hist h, built dist so inv_ln M ml ef hist h ->
  forall el dname, dump_ready el dname ml hist h -> el_nodata el = false -> uniform h -> distinct_ids hist ->
  forall cwd fs dir base draws fs' name, file_dump el dname cwd fs dir base draws h = (fs', Ok name) -> plain_dir dir ->
  forall dname' c, last_component dname c -> last_component dname' c ->
  forall opts, exists h' mapped,
    load_hnsw so el inv_ln dname' cwd fs' (io_new_with_options dir name opts) = Ok (h', mapped) /\
    load_hnsw so el inv_ln dname' cwd fs' (io_new dir name) = Ok (h', []) /\
    same_graph h h' /\ same_vectors h h'.
Proof.
  intros T dist so LAWS Hnn inv_ln M ml ef hist h Hb el dname Hr Hnd Hu HD cwd fs dir base draws fs' name Hf Hpd dname' c Hc Hc' opts.
  apply file_dump_at in Hf as [Hat _].
  destruct (bd_plain dist so LAWS Hnn _ _ _ _ _ _ Hb el dname Hr cwd fs' dir name Hat dname' (io_new dir name)) as (ep & Hep & H1);
    eauto using common_component.
  destruct (bd_shows dist so LAWS Hnn _ _ _ _ _ _ Hb el dname Hr cwd fs' dir name Hat true ep Hep) as (A1 & A2 & A3).
  destruct (ro_datamap opts) eqn:E.
  - destruct (bd_mmap dist so LAWS Hnn _ _ _ _ _ _ Hb el dname Hr cwd fs' dir name Hat dname' (io_new_with_options dir name opts))
      as (ep' & Hep' & Hl); eauto using common_component. rewrite Hep in Hep'. injection Hep' as <-.
    do 2 eexists. split; [exact Hl|]. split; [exact H1|]. by split.
  - destruct (bd_plain dist so LAWS Hnn _ _ _ _ _ _ Hb el dname Hr cwd fs' dir name Hat dname' (io_new_with_options dir name opts))
      as (ep' & Hep' & Hl); eauto using common_component. rewrite Hep in Hep'. injection Hep' as <-.
    do 2 eexists. split; [exact Hl|]. split; [exact H1|]. by split.
Qed.
Print Assumptions C34_mmap_partial.
Example C34_example : exists h' mapped,
  load_hnsw simple_ops el_u8 one_scale l1_name cwd0 exb_fs (io_new_with_options tmp_dir "b" (ro_set_mmap_threshold 2 (ro_new true))) = Ok (h', mapped) /\
  load_hnsw simple_ops el_u8 one_scale l1_name cwd0 exb_fs (io_new tmp_dir "b") = Ok (h', []) /\ length mapped = 3%nat /\
  distinct_ids (fst <$> exb_points) /\ plain_dir tmp_dir.
Proof. do 2 eexists. split_and!; [vm_compute; reflexivity..|exact exb_distinct|by left]. Qed.

(** C35: a threshold of 2^63 or more (usize::MAX for instance, to keep everything in memory) maps every vector. *)
Theorem C35_threshold_refuted :
  exists (dist : list byte -> list byte -> Z) so inv_ln M ml ef hist h (el : elem byte) dname cwd fs fs' dir base h' mapped,
    StdLaws so /\ (forall a b, (0 <= dist a b)%Z) /\ built dist so inv_ln M ml ef hist h /\
    dump_ready el dname ml hist h /\ uniform h /\ distinct_ids hist /\ plain_dir dir /\
    file_dump el dname cwd fs dir base [] h = (fs', Ok base) /\
    load_hnsw so el inv_ln dname cwd fs' (io_new_with_options dir base (ro_set_mmap_threshold (2 ^ 64 - 1) (ro_new true))) = Ok (h', mapped) /\
    length mapped = get_nb_point h'.
Proof.
  exists dB, simple_ops, one_scale, 2%nat, 16%nat, 10%nat, (fst <$> exb_points), exb, el_u8, l1_name, cwd0, fs0, exb_fs, tmp_dir, "b".
  do 2 eexists. split; [exact simple_laws|]. split; [exact dB_nonneg|]. split; [exact exb_built|].
  split; [exact exb_ready|]. split; [exact exb_uniform|]. split; [exact exb_distinct|]. split; [by left|]. split; [exact exb_dumped|].
  split; vm_compute; reflexivity.
Qed.
Print Assumptions C35_threshold_refuted.

(** C35 for thresholds below 2^63: the mapped points are the first of the iteration order, all but [k]. *)
Theorem C35_threshold_partial :
  forall {T} (dist : list T -> list T -> Z) so, StdLaws so -> (forall a b, (0 <= dist a b)%Z) ->
  forall inv_ln M ml ef hist h, built dist so inv_ln M ml ef hist h ->
  forall el dname, dump_ready el dname ml hist h -> el_nodata el = false -> uniform h -> distinct_ids hist ->
  forall cwd fs dir base draws fs' name, file_dump el dname cwd fs dir base draws h = (fs', Ok name) -> plain_dir dir ->
  forall dname' c, last_component dname c -> last_component dname' c ->
  forall k, (k < 2 ^ 63)%N -> exists h' mapped pts,
    load_hnsw so el inv_ln dname' cwd fs' (io_new_with_options dir name (ro_set_mmap_threshold k (ro_new true))) = Ok (h', mapped) /\
    iter_points h' = Ok pts /\ length pts = length hist /\
    mapped = pt_pid <$> take (length pts - N.to_nat k) pts.
Proof.
  intros T dist so LAWS Hnn inv_ln M ml ef hist h Hb el dname Hr Hnd Hu HD cwd fs dir base draws fs' name Hf Hpd dname' c Hc Hc' k Hk.
  apply file_dump_at in Hf as [Hat _].
  assert (Ho : ro_datamap (ro_set_mmap_threshold k (ro_new true)) = true /\ ro_threshold (ro_set_mmap_threshold k (ro_new true)) = k).
  { unfold ro_set_mmap_threshold, ro_new. destruct (N.ltb_spec 0 k) as [?|?]; cbn; split; auto. lia. }
  destruct Ho as [Ho1 Ho2]. set (opts := ro_set_mmap_threshold k (ro_new true)) in *.
  destruct (bd_mmap dist so LAWS Hnn _ _ _ _ _ _ Hb el dname Hr cwd fs' dir name Hat dname' (io_new_with_options dir name opts))
      as (ep & Hep & Hl); eauto using common_component.
  pose proof (bd_wf dist so LAWS Hnn _ _ _ _ _ _ Hb el dname Hr) as Hwf.
  assert (Hit : iter_points (reloaded h so inv_ln ep pt_data true) = Ok (all_points (reloaded h so inv_ln ep pt_data true))).
  { by apply (relink_iter dist Hnn so LAWS h Hwf ep Hep pt_data). }
  assert (Hall : all_points (reloaded h so inv_ln ep pt_data true) = relink so pt_data <$> all_points h).
  { by apply (relink_all dist Hnn so LAWS h Hwf ep Hep pt_data). }
  rewrite Hall in Hit.
  do 3 eexists. split; [exact Hl|]. split; [exact Hit|]. rewrite fmap_length.
  destruct (built_facts dist so LAWS Hnn _ _ _ _ _ _ Hb) as (_ & _ & _ & _ & Hst & Hnb). split.
  { apply Permutation_length in Hst. unfold stored in Hst. by rewrite fmap_length in Hst. }
  cbn [io_options io_new_with_options]. rewrite (mapped_on dist h opts pt_data (wf_lwf _ _ Hwf) Ho1), Ho2.
  rewrite <- fmap_take, <- list_fmap_compose. 
  replace (Z.to_nat (Z.of_nat (length (all_points h)) - as_i64 k)) with (length (all_points h) - N.to_nat k)%nat; [done|].
  unfold as_i64. destruct (N.ltb_spec k (2 ^ 63)); lia.
Qed.
Print Assumptions C35_threshold_partial.
Example C35_example : exists h' mapped pts,
  load_hnsw simple_ops el_u8 one_scale l1_name cwd0 exb_fs (io_new_with_options tmp_dir "b" (ro_set_mmap_threshold 3 (ro_new true))) = Ok (h', mapped) /\
  iter_points h' = Ok pts /\ length pts = 5%nat /\ mapped = [(0, 0); (0, 1)]%nat /\ mapped = pt_pid <$> take 2 pts.
Proof. do 3 eexists. split_and!; vm_compute; reflexivity. Qed.

(** C36: the data map of a dump. *)
Theorem C36_datamap :
  forall {T} (dist : list T -> list T -> Z) so, StdLaws so -> (forall a b, (0 <= dist a b)%Z) ->
  forall inv_ln M ml ef hist h, built dist so inv_ln M ml ef hist h ->
  forall el dname, dump_ready el dname ml hist h -> uniform h ->
  forall cwd fs dir base draws fs' name, file_dump el dname cwd fs dir base draws h = (fs', Ok name) -> plain_dir dir ->
  exists dm, from_hnswdump el cwd fs' dir name = Ok dm /\
    dm_t_name dm = el_name el /\ dm_distname dm = dname /\
    (* whatever the ids: an answer is a vector inserted with this id, and there is one for each id inserted *)
    (forall id, id ∈ hist.*2 -> exists v, dm_get_data el dm id = Ok (Some v) /\ (v, id) ∈ hist) /\
    (forall id, id ∉ hist.*2 -> dm_get_data el dm id = Ok None) /\
    NoDup (dm_ids dm) /\ (forall id, id ∈ dm_ids dm <-> id ∈ hist.*2) /\ dm_nb_data dm = length (dm_ids dm) /\
    (* of the vectors inserted with one id, the last of the iteration order; the ids come in the order of their first appearance *)
    (exists pts, iter_points h = Ok pts /\ (forall id, dm_get_data el dm id = Ok (last_vector pts id)) /\
       dm_ids dm = first_seen (pt_oid <$> pts)) /\
    (* if the ids are distinct *)
    (distinct_ids hist ->
       (forall v id, (v, id) ∈ hist -> dm_get_data el dm id = Ok (Some v)) /\
       dm_nb_data dm = length hist /\
       exists pts, iter_points h = Ok pts /\ dm_ids dm = pt_oid <$> pts).
Proof.
  intros T dist so LAWS Hnn inv_ln M ml ef hist h Hb el dname Hr Hu cwd fs dir base draws fs' name Hf Hpd.
  apply file_dump_at in Hf as [Hat _].
  destruct (bd_from_dump dist so LAWS Hnn _ _ _ _ _ _ Hb el dname Hr cwd fs' dir name Hat Hu Hpd) as (m & Hm & Hmok & Hids).
  pose proof (bd_dumpable dist so LAWS Hnn _ _ _ _ _ _ Hb el dname Hr) as Hdu.
  destruct (bd_entry dist so LAWS Hnn _ _ _ _ _ _ Hb el dname Hr) as [ep Hep].
  pose proof (bd_uniform dist so LAWS Hnn _ _ _ _ _ _ Hb el dname Hr Hu) as Hut.
  pose proof (bd_wf dist so LAWS Hnn _ _ _ _ _ _ Hb el dname Hr) as Hwf.
  pose proof (bd_ids dist so LAWS Hnn _ _ _ _ _ _ Hb el dname Hr) as Hperm.
  destruct (built_facts dist so LAWS Hnn _ _ _ _ _ _ Hb) as (_ & _ & _ & _ & Hst & Hnb).
  destruct Hr as [R1 R2 R3 R4 R5 R6].
  eexists. split; [exact Hm|]. split; [done|]. split; [done|].
  pose proof (fun id => dm_get_ok dist el R1 h Hdu dname R2 R3 Hut (w_data (dump el dname h Full)) m id Hmok) as Hget.
  assert (Hin : forall id, id ∈ hist.*2 <-> exists p pt, get_pt h p = Some pt /\ pt_oid pt = id).
  { intros id. rewrite <- Hperm. rewrite elem_of_list_fmap. split.
    - intros (pt & -> & Hi). apply elem_of_all_points in Hi as [p Hp]. eauto.
    - intros (p & pt & Hp & <-). exists pt. split; [done|]. apply elem_of_all_points. eauto. }
  assert (G1 : forall id, id ∈ hist.*2 -> exists v, dm_get_data el (DataMap (w_data (dump el dname h Full)) m (el_name el) (N.of_nat (get_data_dimension h)) dname) id = Ok (Some v) /\ (v, id) ∈ hist).
  { intros id Hid. specialize (Hget id). destruct (dm_get_data _ _ _) as [[v|]| | | | |]; try done.
    - exists v. split; [done|]. destruct Hget as (p & pt & Hp & <- & <-). rewrite <- Hst. by eapply stored_at.
    - apply Hin in Hid as (p & pt & Hp & E). by specialize (Hget _ _ Hp). }
  pose proof (fun id => dm_get_last dist el R1 h Hdu dname R2 R3 Hut (w_data (dump el dname h Full)) m id Hmok) as Hlast.
  destruct Hmok as (M1 & M2 & M3 & _ & M5).
  split; [exact G1|]. split; [|split; [exact M1|]; split; [|split; [by unfold dm_nb_data, dm_ids; rewrite fmap_length|split]]].
  - intros id Hid. specialize (Hget id). destruct (dm_get_data _ _ _) as [[v|]| | | | |]; try done.
    destruct Hget as (p & pt & Hp & E & _). destruct Hid. apply Hin. eauto.
  - intros id. unfold dm_ids. cbn [dm_map]. rewrite Hin. split.
    + intros Hi. apply elem_of_list_fmap in Hi as ([k a] & -> & Hi). apply M2 in Hi as (pt & Hpt & E & _).
      apply elem_of_all_points in Hpt as [p Hp]. eauto.
    + intros (p & pt & Hp & <-). apply M3. apply elem_of_all_points. eauto.
  - exists (all_points h). split; [by apply (iter_points_spec dist h ep)|]. split; [exact Hlast|exact M5].
  - intros HD. specialize (Hids HD). split_and!.
    + intros v id Hvi. destruct (G1 id) as (v' & Hv' & Hin'). { by apply (elem_of_list_fmap_1 snd) in Hvi. }
      rewrite Hv'. do 2 f_equal. unfold distinct_ids in HD.
      apply elem_of_list_lookup in Hvi as [i Hi]. apply elem_of_list_lookup in Hin' as [j Hj].
      assert (i = j) as ->. { eapply NoDup_lookup; [exact HD|..]; rewrite list_lookup_fmap; [by rewrite Hi|by rewrite Hj]. }
      congruence.
    + unfold dm_nb_data. cbn [dm_map]. apply (f_equal length) in Hids. rewrite !fmap_length in Hids. rewrite Hids.
      apply Permutation_length in Hst. unfold stored in Hst. by rewrite fmap_length in Hst.
    + exists (all_points h). split; [by apply (iter_points_spec dist h ep)|]. exact Hids.
Qed.
Print Assumptions C36_datamap.
Example C36_example : exists dm, from_hnswdump el_u8 cwd0 exb_fs tmp_dir "b" = Ok dm /\ dm_nb_data dm = 5%nat /\
  dm_ids dm = [10; 12; 13; 11; 14]%N /\ dm_get_data el_u8 dm 14%N = Ok (Some [x0a; x05]) /\ dm_get_data el_u8 dm 15%N = Ok None.
Proof. eexists. split_and!; vm_compute; reflexivity. Qed.

(** two points with the id 7: the second one answers *)
Example C36_example_same_id : exists dm, from_hnswdump el_u8 cwd0 (fst (file_dump el_u8 l1_name cwd0 fs0 tmp_dir "b" [] exd)) tmp_dir "b" = Ok dm /\
  dm_ids dm = [7]%N /\ dm_get_data el_u8 dm 7%N = Ok (Some [x0a]) /\ first_seen [7; 8; 7; 9; 8]%N = [7; 8; 9]%N.
Proof. eexists. split_and!; vm_compute; reflexivity. Qed.

(** C37: vectors of different lengths are not restored: reading the file goes beyond a shorter vector, and
    a longer vector loses its end. *)
Theorem C37_lengths_refuted :
  exists (dist : list byte -> list byte -> Z) so inv_ln M ml ef el dname cwd fs dir base,
    StdLaws so /\ (forall a b, (0 <= dist a b)%Z) /\
    (exists hist h fs', built dist so inv_ln M ml ef hist h /\ dump_ready el dname ml hist h /\
       file_dump el dname cwd fs dir base [] h = (fs', Ok base) /\
       load_hnsw so el inv_ln dname cwd fs' (io_new dir base) = UB) /\
    (exists hist h fs' h' p v, built dist so inv_ln M ml ef hist h /\ dump_ready el dname ml hist h /\
       file_dump el dname cwd fs dir base [] h = (fs', Ok base) /\
       load_hnsw so el inv_ln dname cwd fs' (io_new dir base) = Ok (h', []) /\ vector_at h p v /\ ~ vector_at h' p v).
Proof.
  exists dB, simple_ops, one_scale, 2%nat, 16%nat, 10%nat, el_u8, l1_name, cwd0, fs0, tmp_dir, "b".
  split; [exact simple_laws|]. split; [exact dB_nonneg|]. split.
  - exists (fst <$> exw_points), exw, (fst (file_dump el_u8 l1_name cwd0 fs0 tmp_dir "b" [] exw)).
    split; [exact exw_built|]. split; [exact exw_ready|]. split.
    + assert (E : snd (file_dump el_u8 l1_name cwd0 fs0 tmp_dir "b" [] exw) = Ok "b") by (vm_compute; reflexivity).
      revert E. generalize (file_dump el_u8 l1_name cwd0 fs0 tmp_dir "b" [] exw). intros [a b] E. cbn [fst snd] in *. by rewrite E.
    + vm_compute. reflexivity.
  - exists (fst <$> exv_points), exv, (fst (file_dump el_u8 l1_name cwd0 fs0 tmp_dir "b" [] exv)).
    eexists _, (0, 1)%nat, [x0a; x0b]. split; [exact exv_built|]. split; [exact exv_ready|]. split.
    + assert (E : snd (file_dump el_u8 l1_name cwd0 fs0 tmp_dir "b" [] exv) = Ok "b") by (vm_compute; reflexivity).
      revert E. generalize (file_dump el_u8 l1_name cwd0 fs0 tmp_dir "b" [] exv). intros [a b] E. cbn [fst snd] in *. by rewrite E.
    + split; [vm_compute; reflexivity|]. split; [vm_compute; reflexivity|]. vm_compute. discriminate.
Qed.
Print Assumptions C37_lengths_refuted.

(** C37, what does hold: if no vector is shorter than the one of the entry point, the graph is restored and every
    vector is cut to the length of the entry point's. *)
Theorem C37_lengths_partial :
  forall {T} (dist : list T -> list T -> Z) so, StdLaws so -> (forall a b, (0 <= dist a b)%Z) ->
  forall inv_ln M ml ef hist h, built dist so inv_ln M ml ef hist h ->
  forall el dname, dump_ready el dname ml hist h -> el_nodata el = false -> dname <> "" ->
  forall ep ve, entry_point h = Some ep -> vector_at h ep ve ->
  (forall p v, vector_at h p v -> (length ve <= length v)%nat) ->
  forall cwd fs dir base draws fs' name, file_dump el dname cwd fs dir base draws h = (fs', Ok name) ->
  exists h', load_hnsw so el inv_ln dname cwd fs' (io_new dir name) = Ok (h', []) /\ same_graph h h' /\
    forall p v', vector_at h' p v' <-> exists v, vector_at h p v /\ v' = take (length ve) v.
Proof.
  intros T dist so LAWS Hnn inv_ln M ml ef hist h Hb el dname Hr Hnd Hdne ep ve Hep Hve Hlen cwd fs dir base draws fs' name Hf.
  apply file_dump_at in Hf as [Hat _].
  pose proof (bd_dumpable dist so LAWS Hnn _ _ _ _ _ _ Hb el dname Hr) as Hdu.
  pose proof (bd_wf dist so LAWS Hnn _ _ _ _ _ _ Hb el dname Hr) as Hwf.
  destruct Hr as [R1 R2 R3 R4 R5 R6].
  assert (Hdim : get_data_dimension h = length ve).
  { apply (vector_at_pt dist Hnn h) in Hve as (pt & Hp & <-); [|done]. unfold get_data_dimension. by rewrite Hep, Hp. }
  assert (Hl : load_hnsw so el inv_ln dname cwd fs' (io_new dir name) = Ok (reloaded h so inv_ln ep (cut_data h) true, [])).
  { eapply (reload_cut dist); eauto; [by apply rsplit_some|]. intros p pt Hp. rewrite Hdim. apply (Hlen p).
    apply (vector_at_pt dist Hnn h); eauto. }
  eexists. split; [exact Hl|].
  pose proof (relink_same_graph dist Hnn so LAWS h Hwf ep Hep (cut_data h) (reloaded h so inv_ln ep (cut_data h) true) eq_refl eq_refl eq_refl) as Hg.
  split; [exact Hg|]. intros p v'.
  unfold vector_at, get_point_data. replace (Z.of_nat p.2 <? 0)%Z with false by lia. cbv zeta. rewrite Nat2Z.id.
  unfold get_max_level_observed. rewrite (sg_layer _ _ Hg). unfold reloaded at 1. cbn [entry_point]. rewrite Hep.
  destruct (_ && _); [|split; [done|intros (? & ? & _); done]].
  unfold reloaded at 1. cbn [points_by_layer]. rewrite list_lookup_fmap.
  destruct (points_by_layer h !! p.1) as [ly|]; simpl; [|split; [done|intros (? & ? & _); done]].
  unfold relink_ly. rewrite list_lookup_fmap. destruct (ly !! p.2) as [pt|]; simpl; [|split; [done|intros (? & ? & _); done]].
  unfold cut_data. rewrite Hdim. split; [intros [= <-]; eauto|]. intros (v & [= <-] & ->). done.
Qed.
Print Assumptions C37_lengths_partial.
Example C37_example : exists ep ve, entry_point exv = Some ep /\ vector_at exv ep ve /\ length ve = 1%nat /\
  vector_at exv (0, 1)%nat [x0a; x0b].
Proof. do 2 eexists. split_and!; vm_compute; reflexivity. Qed.

(** C38: check_data_type compares the first components of the names: two types of the same crate are accepted. *)
Definition el_named (n : string) : elem byte := Elem byte n 1 (el_enc el_u8) (el_dec el_u8) (el_bincode el_u8) false.
Theorem C38_type_check_refuted :
  exists (dist : list byte -> list byte -> Z) so inv_ln M ml ef hist h (el el' : elem byte) dname cwd fs fs' dir base dm c c',
    StdLaws so /\ (forall a b, (0 <= dist a b)%Z) /\ built dist so inv_ln M ml ef hist h /\ dump_ready el dname ml hist h /\
    file_dump el dname cwd fs dir base [] h = (fs', Ok base) /\ from_hnswdump el cwd fs' dir base = Ok dm /\
    last_component (el_name el) c /\ last_component (el_name el') c' /\ c <> c' /\
    check_data_type el' dm = Ok true.
Proof.
  exists dB, simple_ops, one_scale, 2%nat, 16%nat, 10%nat, (fst <$> exb_points), exb, (el_named "app::Left"), (el_named "app::Right"),
    l1_name, cwd0, fs0, (fst (file_dump (el_named "app::Left") l1_name cwd0 fs0 tmp_dir "b" [] exb)), tmp_dir, "b".
  eexists _, "Left", "Right". split; [exact simple_laws|]. split; [exact dB_nonneg|]. split; [exact exb_built|]. split.
  { destruct exb_ready as [R1 R2 R3 R4 R5 R6]. constructor; auto.
    - split; [vm_compute; reflexivity|vm_compute; lia].
    - destruct R6 as [A1 A2 A3 A4 A5]. constructor; auto. }
  split.
  { assert (E : snd (file_dump (el_named "app::Left") l1_name cwd0 fs0 tmp_dir "b" [] exb) = Ok "b") by (vm_compute; reflexivity).
    revert E. generalize (file_dump (el_named "app::Left") l1_name cwd0 fs0 tmp_dir "b" [] exb). intros [a b] E. cbn [fst snd] in *. by rewrite E. }
  split; [vm_compute; reflexivity|]. split.
  { split; [right; by exists "app"|]. split; [done|]. vm_compute. intuition congruence. }
  split. { split; [right; by exists "app"|]. split; [done|]. vm_compute. intuition congruence. }
  split; [done|]. vm_compute. reflexivity.
Qed.
Print Assumptions C38_type_check_refuted.

(** C38, what does hold: the first components are compared, so the answer is right for names without "::"
    (f32, u8, ...). *)
Theorem C38_type_check_partial :
  forall {T} (el : elem T) (dm : datamap),
  (forall c c', first_component (dm_t_name dm) c -> first_component (el_name el) c' ->
     check_data_type el dm = Ok (bool_decide (c = c'))) /\
  (last_component (dm_t_name dm) (dm_t_name dm) -> last_component (el_name el) (el_name el) ->
     check_data_type el dm = Ok (bool_decide (dm_t_name dm = el_name el))).
Proof.
  intros T el dm.
  assert (H : forall c c', first_component (dm_t_name dm) c -> first_component (el_name el) c' ->
     check_data_type el dm = Ok (bool_decide (c = c'))).
  { intros c c' H1 H2. unfold check_data_type. rewrite (rsplit_first _ _ H1), (rsplit_first _ _ H2). simpl. f_equal.
    apply bool_decide_ext. split; [apply str_bytes_inj|by intros ->]. }
  split; [exact H|]. intros (_ & A1 & A2) (_ & B1 & B2). apply H; (split; [by left|done]).
Qed.
Print Assumptions C38_type_check_partial.
Example C38_example : last_component "f32" "f32" /\ first_component "a::b::C" "a" /\ last_component "a::b::C" "C".
Proof.
  split_and!.
  - split; [by left|]. split; [done|]. vm_compute. intuition congruence.
  - split; [right|]. { exists "b::C". split; [done|]. intros l. vm_compute. congruence. } split; [done|]. vm_compute. intuition congruence.
  - split; [right; by exists "a::b"|]. split; [done|]. vm_compute. intuition congruence.
Qed.

(** C39: an index obtained by load_hnsw, from whatever files, and then used (insertions included): dumping it,
    anywhere, leaves every existing data file as it was, and tells the name used, which had no data file. *)
Theorem C39_no_overwrite_data :
  forall {T} (dist : list T -> list T -> Z) so (el : elem T) inv_ln dname cwd fs io h0 mapped,
  load_hnsw so el inv_ln dname cwd fs io = Ok (h0, mapped) ->
  forall h, evolves dist so h0 h ->
  forall fs1 dir base draws fs' r, file_dump el dname cwd fs1 dir base draws h = (fs', r) ->
  (forall cwd2 dir2 base2 b, fs_read fs1 cwd2 (data_file dir2 base2) = Some b ->
     fs_read fs' cwd2 (data_file dir2 base2) = Some b) /\
  (forall name, r = Ok name ->
     (name = base \/ exists id, id ∈ draws /\ name = suffixed base id) /\
     fs_read fs1 cwd (data_file dir name) = None /\
     exists g d, dump_at fs' cwd dir name g d).
Proof.
  intros T dist so el inv_ln dname cwd fs io h0 mapped Hl h Hev fs1 dir base draws fs' r Hf.
  assert (Hd : datamap_opt h = true).
  { apply (evolves_dmo dist) in Hev. rewrite Hev. by eapply load_dmo. }
  pose proof Hf as Hf0. apply file_dump_files in Hf as [[-> Hr]|(name & Hn & Hr & Hfile)].
  { split; [done|]. intros name ->. by destruct (Hr name). }
  rewrite Hd in Hn. apply dump_basename_absent in Hn as [Hno Hcase]. split.
  - intros cwd2 dir2 base2 b Hb. unfold fs_read in *. rewrite Hfile; [done|..].
    + intros E. symmetry in E. by apply graph_never_data in E.
    + intros E. rewrite E in Hb. congruence.
  - intros n ->. assert (n = name) as -> by auto. split; [done|]. split; [done|].
    apply file_dump_at in Hf0 as [? _]. eauto.
Qed.
Print Assumptions C39_no_overwrite_data.
Definition exb_re : hnsw (T:=byte) :=
  Eval vm_compute in match load_hnsw simple_ops el_u8 one_scale l1_name cwd0 exb_fs (io_new tmp_dir "b") with Ok (h, _) => h | _ => exb end.
Lemma exb_re_load : load_hnsw simple_ops el_u8 one_scale l1_name cwd0 exb_fs (io_new tmp_dir "b") = Ok (exb_re, []).
Proof. vm_compute. reflexivity. Qed.
Example C39_example : load_hnsw simple_ops el_u8 one_scale l1_name cwd0 exb_fs (io_new tmp_dir "b") = Ok (exb_re, []) /\
  (file_dump el_u8 l1_name cwd0 exb_fs tmp_dir "b" [17; 4]%N exb_re).2 = Ok "b-17" /\
  (file_dump el_u8 l1_name cwd0 (fs_write exb_fs cwd0 (data_file tmp_dir "b-17") []) tmp_dir "b" [17; 4]%N exb_re).2 = Ok "b-4".
Proof. split; [exact exb_re_load|]. split; vm_compute; reflexivity. Qed.

(** C40: a graph file without its data file is overwritten, and when every suffix is taken the search
    of a name never ends. *)
Theorem C40_no_overwrite_refuted :
  exists (T : Type) so (el : elem T) inv_ln dname cwd fs io h dir base,
    load_hnsw so el inv_ln dname cwd fs io = Ok (h, []) /\
    (exists fs1 b fs' name, fs_read fs1 cwd (graph_file dir base) = Some b /\ file_dump el dname cwd fs1 dir base [] h = (fs', Ok name) /\
       fs_read fs' cwd (graph_file dir base) <> Some b) /\
    (exists fs1, forall draws, (file_dump el dname cwd fs1 dir base draws h).2 = Fuel).
Proof.
  exists byte, simple_ops, el_u8, one_scale, l1_name, cwd0, exb_fs, (io_new tmp_dir "b"), exb_re, tmp_dir, "c".
  split; [exact exb_re_load|]. split.
  - set (fs1 := fs_write fs0 cwd0 (graph_file tmp_dir "c") [x2a]).
    exists fs1, [x2a], (fst (file_dump el_u8 l1_name cwd0 fs1 tmp_dir "c" [] exb_re)), "c".
    split; [vm_compute; reflexivity|]. split; [|vm_compute; discriminate].
    assert (E : snd (file_dump el_u8 l1_name cwd0 fs1 tmp_dir "c" [] exb_re) = Ok "c") by (vm_compute; reflexivity).
    revert E. generalize (file_dump el_u8 l1_name cwd0 fs1 tmp_dir "c" [] exb_re). intros [a b] E. cbn [fst snd] in *. by rewrite E.
  - exists (fun _ => Some []). intros draws. unfold file_dump, dump_basename. cbn [negb]. change (datamap_opt exb_re) with true. cbn [negb fs_read].
    assert (E : pick_name cwd0 (fun _ => Some []) tmp_dir "c" draws = Fuel) by (induction draws; [done|exact IHdraws]).
    by rewrite E.
Qed.
Print Assumptions C40_no_overwrite_refuted.

(** C40, what does hold: both files of every complete dump are left as they were, only the two files of the name
    used are written, and a name is found as soon as a free suffix is drawn. *)
Theorem C40_no_overwrite_partial :
  forall {T} (dist : list T -> list T -> Z) so (el : elem T) inv_ln dname cwd fs io h0 mapped,
  load_hnsw so el inv_ln dname cwd fs io = Ok (h0, mapped) ->
  forall h, evolves dist so h0 h ->
  forall fs1 dir base draws,
  (forall fs' r, file_dump el dname cwd fs1 dir base draws h = (fs', r) ->
     forall cwd2 dir2 base2 g d, dump_at fs1 cwd2 dir2 base2 g d -> dump_at fs' cwd2 dir2 base2 g d) /\
  (forall fs' r, file_dump el dname cwd fs1 dir base draws h = (fs', r) ->
     fs' = fs1 \/ exists name, (name = base \/ exists id, id ∈ draws /\ name = suffixed base id) /\
       forall loc, loc <> resolve cwd (graph_file dir name) -> loc <> resolve cwd (data_file dir name) -> fs' loc = fs1 loc) /\
  (fs_read fs1 cwd (data_file dir base) = None \/
   (exists id, id ∈ draws /\ fs_read fs1 cwd (data_file dir (suffixed base id)) = None) ->
     exists name, dump_basename cwd fs1 dir base (negb (datamap_opt h)) draws = Ok name).
Proof.
  intros T dist so el inv_ln dname cwd fs io h0 mapped Hl h Hev fs1 dir base draws.
  assert (Hd : datamap_opt h = true).
  { apply (evolves_dmo dist) in Hev. rewrite Hev. by eapply load_dmo. }
  split; [|split].
  - intros fs' r Hf cwd2 dir2 base2 g d [Hg Hda]. apply file_dump_files in Hf as [[-> Hr]|(name & Hn & Hr & Hfile)]; [done|].
    rewrite Hd in Hn. apply dump_basename_absent in Hn as [Hno _]. unfold dump_at, fs_read in *.
    assert (Hne : resolve cwd2 (data_file dir2 base2) <> resolve cwd (data_file dir name)).
    { intros E. rewrite E in Hda. congruence. }
    split; (rewrite Hfile; [done|..]).
    + intros E. by apply graph_data_loc in E.
    + apply graph_never_data.
    + intros E. symmetry in E. by apply graph_never_data in E.
    + done.
  - intros fs' r Hf. apply file_dump_files in Hf as [[-> Hr]|(name & Hn & Hr & Hfile)]; [by left|right].
    rewrite Hd in Hn. apply dump_basename_absent in Hn as [_ Hn]. eauto.
  - rewrite Hd. cbn [negb]. unfold dump_basename. destruct (fs_read fs1 cwd (data_file dir base)) eqn:E; [|eauto].
    intros [?|(id & Hid & Hfree)]; [done|]. by eapply pick_name_free.
Qed.
Print Assumptions C40_no_overwrite_partial.
Example C40_example : load_hnsw simple_ops el_u8 one_scale l1_name cwd0 exb_fs (io_new tmp_dir "b") = Ok (exb_re, []) /\
  (exists g d, dump_at exb_fs cwd0 tmp_dir "b" g d) /\
  fs_read exb_fs cwd0 (data_file tmp_dir (suffixed "b" 17)) = None.
Proof. split; [exact exb_re_load|]. split; [do 2 eexists; split; vm_compute; reflexivity|vm_compute; reflexivity]. Qed.

(** C41: whatever the two files contain, if load_hnsw returns an index of T (not NoData) with distance D, the
    description in the graph file names the type T and a distance with the same last component as D; for
    load_hnsw_with_dist the whole name of the distance is the same. *)
Theorem C41_type_checks :
  forall {T} so (el : elem T) inv_ln dname cwd fs io x, el_nodata el = false ->
  (load_hnsw so el inv_ln dname cwd fs io = Ok x ->
   exists g d de rest, dump_at fs cwd (io_dir io) (io_basename io) g d /\ load_description (g, d) = Ok (de, rest) /\
  de_t_name de = el_name el /\
  forall c c', last_component dname c -> last_component (de_distname de) c' -> c = c') /\
  (load_hnsw_with_dist so el inv_ln dname cwd fs io = Ok x ->
   exists g d de rest, dump_at fs cwd (io_dir io) (io_basename io) g d /\ load_description (g, d) = Ok (de, rest) /\
  de_t_name de = el_name el /\ de_distname de = dname).
Proof.
  intros T so el inv_ln dname cwd fs io x Hnd.
  assert (Hop : forall g d, io_open cwd fs io = Ok (g, d) -> dump_at fs cwd (io_dir io) (io_basename io) g d).
  { intros g d. unfold io_open, dump_at. destruct (fs_read fs cwd (graph_file _ _)); [|done].
    destruct (fs_read fs cwd (data_file _ _)); [|done]. by intros [= -> ->]. }
  split; intros H; apply bind_inv in H as ([g d] & Ho & H); apply Hop in Ho; unfold run_rd in H.
  - destruct (load_rd _ _ _ _ _ _ _ _) as [[r s]| | | | |] eqn:E; try done.
    apply load_names in E as (de & s1 & Hh & [?|(Hn & c & C1 & C2)]); [congruence|].
    apply header_description in Hh as [s2 Hh]. exists g, d, de, s2. split_and!; auto.
    intros c1 c2 L1 L2. apply rsplit_last in L1, L2. apply str_bytes_inj. congruence.
  - destruct (load_with_dist_rd _ _ _ _ _ _ _) as [[r s]| | | | |] eqn:E; try done.
    apply load_with_dist_names in E as (de & s1 & Hh & [?|(Hn & Hdn)]); [congruence|].
    apply header_description in Hh as [s2 Hh]. exists g, d, de, s2. split_and!; auto.
Qed.
Print Assumptions C41_type_checks.
Example C41_example :
  load_hnsw simple_ops el_u8 one_scale l1_name cwd0 exb_fs (io_new tmp_dir "b") = Ok (exb_re, []) /\
  load_hnsw simple_ops (el_named "i8") one_scale l1_name cwd0 exb_fs (io_new tmp_dir "b") = Panic /\
  load_hnsw simple_ops el_u8 one_scale "anndists::dist::distances::DistL2" cwd0 exb_fs (io_new tmp_dir "b") = Err.
Proof. split; [exact exb_re_load|]. split; vm_compute; reflexivity. Qed.

(** The same for a dump made by this crate: a reload with another type or another distance is refused. *)
Theorem C41_mismatch_refused :
  forall {T} (dist : list T -> list T -> Z) so, StdLaws so -> (forall a b, (0 <= dist a b)%Z) ->
  forall inv_ln M ml ef hist h, built dist so inv_ln M ml ef hist h ->
  forall el dname, dump_ready el dname ml hist h ->
  forall cwd fs dir base draws fs' name, file_dump el dname cwd fs dir base draws h = (fs', Ok name) ->
  forall {T'} so' (el' : elem T') inv_ln' dname' io c c', io_dir io = dir -> io_basename io = name -> el_nodata el' = false ->
  last_component dname c -> last_component dname' c' -> (el_name el' <> el_name el \/ c' <> c) ->
  forall x, load_hnsw so' el' inv_ln' dname' cwd fs' io <> Ok x /\ load_hnsw_with_dist so' el' inv_ln' dname' cwd fs' io <> Ok x.
Proof.
  intros T dist so LAWS Hnn inv_ln M ml ef hist h Hb el dname Hr cwd fs dir base draws fs' name Hf T' so' el' inv_ln' dname' io c c' E1 E2 Hnd Hc Hc' Hne x.
  destruct (C30_description dist so LAWS Hnn _ _ _ _ _ _ Hb el dname Hr _ _ _ _ _ _ _ Hf) as (g & d & rest & [Hg Hd] & Hde).
  specialize (Hde []). rewrite !app_nil_r in Hde.
  assert (Hdet : forall d' de s, load_description (g, d') = Ok (de, s) -> de_t_name de = el_name el /\ de_distname de = dname).
  { intros d' de s H. apply file_dump_at in Hf as [[Fg Fd] _].
    pose proof (bd_dumpable dist so LAWS Hnn _ _ _ _ _ _ Hb el dname Hr) as Hdu. destruct Hr as [R1 R2 R3 R4 R5 R6].
    pose proof (pars_descg dist el R1 h Hdu dname R2 R3 (u8_bytes 16 ++ concat (lyg h <$> points_by_layer h) ++ entry_bytes h) d') as Hp.
    cbn [app] in Hp. rewrite Hg in Fg. injection Fg as ->. rewrite (dump_eq dist el R1 h Hdu dname R2 R3) in H. cbn [w_graph] in H.
    rewrite Hp in H. injection H as <- _. done. }
  destruct (C41_type_checks so' el' inv_ln' dname' cwd fs' io x Hnd) as [A B].
  split; intros H.
  - destruct (A H) as (g' & d' & de & rest' & [Hg' _] & Hl & Ht & Hcc). rewrite E1, E2, Hg in Hg'. injection Hg' as <-.
    apply Hdet in Hl as [L1 L2]. destruct Hne as [Hne|Hne]; [congruence|]. apply Hne. eapply Hcc; [done|]. by rewrite L2.
  - destruct (B H) as (g' & d' & de & rest' & [Hg' _] & Hl & Ht & Hcc). rewrite E1, E2, Hg in Hg'. injection Hg' as <-.
    apply Hdet in Hl as [L1 L2]. destruct Hne as [Hne|Hne]; [congruence|]. apply Hne.
    assert (dname' = dname) as -> by congruence. apply rsplit_last in Hc, Hc'. apply str_bytes_inj. congruence.
Qed.
Print Assumptions C41_mismatch_refused.

(** C42: reload with the element type NoData: the graph without the vectors. *)
Theorem C42_graph_only :
  forall {T} (dist : list T -> list T -> Z) so, StdLaws so -> (forall a b, (0 <= dist a b)%Z) ->
  forall inv_ln M ml ef hist h, built dist so inv_ln M ml ef hist h ->
  forall el dname, dump_ready el dname ml hist h ->
  forall cwd fs dir base draws fs' name, file_dump el dname cwd fs dir base draws h = (fs', Ok name) ->
  forall {T'} (el' : elem T') dname', el_nodata el' = true ->
  exists h', load_hnsw so el' inv_ln dname' cwd fs' (io_new dir name) = Ok (h', []) /\
  same_graph h h' /\ (forall p v, vector_at h' p v -> v = []) /\
  (order_kept so h -> same_lists h h' /\ flatten so h' = flatten so h) /\
  exists flat flat', flatten so h = Ok flat /\ flatten so h' = Ok flat' /\
  Forall2 (fun a b => b.1 = a.1 /\ fp_origin b.2 = fp_origin a.2 /\ fp_pid b.2 = fp_pid a.2 /\
  fp_neighbours b.2 ≡ₚ fp_neighbours a.2 /\ sorted_by distance (fp_neighbours b.2)) flat flat'.
Proof.
  intros T dist so LAWS Hnn inv_ln M ml ef hist h Hb el dname Hr cwd fs dir base draws fs' name Hf T' el' dname' Hnd.
  apply file_dump_at in Hf as [Hat _].
  destruct (bd_nodata dist so LAWS Hnn _ _ _ _ _ _ Hb el dname Hr cwd fs' dir name Hat el' dname' (io_new dir name)) as (ep & Hep & Hl & _); try done.
  pose proof (bd_wf dist so LAWS Hnn _ _ _ _ _ _ Hb el dname Hr) as Hwf.
  eexists. split; [exact Hl|].
  pose proof (relink_same_graph dist Hnn so LAWS h Hwf ep Hep (fun _ => [] : list T') (reloaded h so inv_ln ep (fun _ => []) true) eq_refl eq_refl eq_refl) as Hg.
  split; [exact Hg|]. split; [|split].
  - intros p v Hv. unfold vector_at, get_point_data in Hv. replace (Z.of_nat p.2 <? 0)%Z with false in Hv by lia. cbv zeta in Hv.
    destruct (_ && _); [|done]. unfold reloaded in Hv at 1. cbn [points_by_layer] in Hv. rewrite list_lookup_fmap in Hv.
    destruct (points_by_layer h !! p.1) as [ly|]; [|done]. simpl in Hv. unfold relink_ly in Hv. rewrite list_lookup_fmap in Hv.
    destruct (ly !! Z.to_nat (Z.of_nat p.2)) as [pt|]; [|done]. simpl in Hv. by injection Hv as <-.
  - intros Hk. split.
    + by apply (relink_same_lists dist Hnn so LAWS h Hwf ep Hep (fun _ => [] : list T')).
    + by apply (flatten_same dist Hnn so LAWS h Hwf ep Hep (fun _ => [] : list T')).
  - by apply (flatten_perm dist Hnn so LAWS h Hwf ep Hep (fun _ => [] : list T')).
Qed.
Print Assumptions C42_graph_only.
(** NoData *)
Definition el_none : elem () := Elem () "hnsw_rs::hnsw::NoData" 0 (fun _ => []) (fun _ => tt) (fun _ => None) true.
Example C42_example : exists h', load_hnsw simple_ops el_none one_scale "anndists::dist::distances::NoDist" cwd0 exb_fs (io_new tmp_dir "b") = Ok (h', []) /\
  vector_at h' (1, 1)%nat [] /\ vector_at exb (1, 1)%nat [x0a; x05] /\ keeps_sorted simple_ops /\ flatten simple_ops h' = flatten simple_ops exb.
Proof. eexists. split_and!; [vm_compute; reflexivity..|exact simple_keeps_sorted|vm_compute; reflexivity]. Qed.
