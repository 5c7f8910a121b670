(** Property C91: one HnswIo used for several reloads. Model in Reuse.v. Same conventions as PropsIo.v. *)
From Coq Require Import SpecFloat Strings.Byte Strings.String.
From stdpp Require Import strings sets sorting.
From Verif Require Import Prelude Model StdInst Lib Table SearchProofs InsertProofs IterProofs Spec SpecProofs Io IoBase
  SpecIo SpecBuilt IoProofs IoProofs2 IoProofs3 IoProofs4 IoProofs5 BuiltProofs ReloadProofs IoProofs6 Examples SafeProofs ExamplesIo
  PropsIo PropsIo2 Reuse.
Local Open Scope list_scope.

Lemma reused_where dir base io : reused dir base io -> io_dir io = dir /\ io_basename io = base.
Proof.
  induction 1 as [| |o io E|io o _ IH|T el dname cwd fs io _ IH]; try done.
  - unfold io_set_values in E. simpl in E. by injection E as <-.
  - unfold io_after_load. destruct (io_open cwd fs io) as [[g d]| | | | |]; try done.
    by destruct (run_rd _ g d).
Qed.

(** ** without mapping, the data map is not looked at *)
Section NoMap.
Context {T : Type} (so : StdOps) (el : elem T) (opts : reload_options) (Ho : ro_datamap opts = false).

Lemma points_nomap dm de l n r still s : load_points el dm opts de l n r still s = load_points el None opts de l n r still s.
Proof using Ho.
  revert r still s. induction n as [|n IH]; intros r still s; [done|]. cbn [load_points]. unfold point_use_mmap. rewrite Ho.
  unfold rbind. unfold load_point. destruct (rbind (load_point_graph de) _ s) as [[a s1]| | | | |]; try done. simpl.
  destruct (rlift (assert_ (N.of_nat l =? rp_layer a)%N) s1) as [[? s2]| | | | |]; try done. simpl.
  destruct (rlift (assert_ (Z.of_nat r =? rp_rank a)%Z) s2) as [[? s3]| | | | |]; try done. simpl.
  destruct (rlift (assert_ (0 <=? still - 1)%Z) s3) as [[? s4]| | | | |]; try done. simpl.
  by rewrite IH.
Qed.
Lemma layers_nomap dm de n l still s : load_layers el dm opts de n l still s = load_layers el None opts de n l still s.
Proof using Ho.
  revert l still s. induction n as [|n IH]; intros l still s; [done|]. cbn [load_layers].
  unfold rbind. destruct (gnum 4 s) as [[a s1]| | | | |]; try done. simpl. destruct (negb _); [done|].
  destruct (gnum 8 s1) as [[b s2]| | | | |]; try done. simpl. rewrite points_nomap.
  destruct (load_points _ _ _ _ _ _ _ _ _) as [[[ps st] s3]| | | | |]; try done. simpl. by rewrite IH.
Qed.
Lemma indexation_nomap dm dm' de s : load_point_indexation so el dm opts de s = load_point_indexation so el dm' opts de s.
Proof using Ho.
  unfold load_point_indexation. destruct (negb (el_nodata el) && _); [done|].
  unfold rbind. destruct (gnum 1 s) as [[a s1]| | | | |]; try done. simpl. destruct (_ <? a)%N; [done|].
  by rewrite (layers_nomap dm), (layers_nomap dm').
Qed.
End NoMap.

Lemma rbind_same {A B} (p : rd A) (k k' : A -> rd B) s :
  (forall a s1, p s = Ok (a, s1) -> k a s1 = k' a s1) -> rbind p k s = rbind p k' s.
Proof. unfold rbind. destruct (p s) as [[a s1]| | | | |]; try done. simpl. auto. Qed.

Lemma load_rd_nomap {T} so (el : elem T) inv_ln dname prev prev' opts mk s : ro_datamap opts = false ->
  load_rd so el inv_ln dname prev opts mk s = load_rd so el inv_ln dname prev' opts mk s.
Proof.
  intros Ho. unfold load_rd. apply rbind_same. intros de s1 _. apply rbind_same. intros b s2 _.
  destruct (negb b); [done|]. unfold choose_datamap. rewrite Ho. unfold rlift, rbind. simpl.
  by rewrite (indexation_nomap so el opts Ho prev prev').
Qed.
Lemma load_with_dist_rd_nomap {T} so (el : elem T) inv_ln dname prev prev' opts s : ro_datamap opts = false ->
  load_with_dist_rd so el inv_ln dname prev opts s = load_with_dist_rd so el inv_ln dname prev' opts s.
Proof.
  intros Ho. unfold load_with_dist_rd. apply rbind_same. intros de s1 _.
  destruct (negb (el_nodata el) && _); [done|]. unfold rbind.
  by rewrite (indexation_nomap so el opts Ho prev prev').
Qed.

(** ** with mapping, a data map that can be made replaces the one there was; one that cannot be made means that the load
    fails, unless the files are of an old version *)
Lemma load_rd_map {T} so (el : elem T) inv_ln dname prev prev' opts mk s : ro_datamap opts = true ->
  (mk = Err -> forall de s1, load_header s = Ok (de, s1) -> el_nodata el = false /\ el_name el <> de_t_name de) ->
  load_rd so el inv_ln dname prev opts mk s = load_rd so el inv_ln dname prev' opts mk s.
Proof.
  intros Ho Hmk. unfold load_rd. apply rbind_same. intros de s1 Hh. apply rbind_same. intros b s2 _.
  destruct (negb b); [done|]. unfold choose_datamap. rewrite Ho. destruct mk; try done.
  destruct (Hmk eq_refl de s1 Hh) as [Hn Ht]. unfold rlift, rbind. simpl.
  unfold load_point_indexation. rewrite Hn. by rewrite (proj2 (String.eqb_neq _ _) Ht).
Qed.

(** the graph file says it was written by version 3 of the format or a later one (those that can be mapped) *)
Definition recent (cwd : list string) (fs : fsys) (dir : path) (base : string) : Prop :=
  forall g de s, fs_read fs cwd (graph_file dir base) = Some g -> load_description (g, []) = Ok (de, s) -> (3 <= format_version de)%N.

Lemma header_dim g d de s : load_header (g, d) = Ok (de, s) -> forall de' s', load_description (g, []) = Ok (de', s') ->
  de' = de.
Proof.
  intros H de' s' H'. apply header_description in H as [s2 H].
  destruct s' as [g' d']. pose proof (ext_description g [] de' g' d' [] d H') as H2. rewrite app_nil_r, app_nil_l in H2. congruence.
Qed.

Lemma bind_Err {A B} (o : outcome A) (k : A -> outcome B) : (x ← o; k x) = Err -> o = Err \/ exists a, o = Ok a /\ k a = Err.
Proof. destruct o; try done; [|by left]. intros H. right. eauto. Qed.
Lemma slice_no_err s a n : slice s a n <> Err.
Proof. unfold slice. by destruct (_ <? _)%nat. Qed.
Lemma records_no_err {T} (el : elem T) mm dim n addr m : map_records el mm dim n addr m <> Err.
Proof.
  revert addr m. induction n as [|n IH]; intros addr m; cbn [map_records]; [done|]. intros H.
  apply bind_Err in H as [H|(magic & _ & H)]; [by apply slice_no_err in H|].
  apply bind_Err in H as [H|(u & _ & H)]; [unfold assert_ in H; by destruct (_ =? _)%N|].
  apply bind_Err in H as [H|(id & _ & H)]; [by apply slice_no_err in H|].
  apply bind_Err in H as [H|(len & _ & H)]; [by apply slice_no_err in H|].
  apply bind_Err in H as [H|(v & _ & H)]; [by apply slice_no_err in H|].
  apply bind_Err in H as [H|(w & _ & H)]; [unfold from_raw_parts in H; by destruct (_ <? _)%N|]. by apply IH in H.
Qed.

(** What a HnswIo was used for before does not matter to load_hnsw, nor to load_hnsw_with_dist without mapping: the result is
    that of a HnswIo just made with the same directory, base name and options. *)
Theorem C91_used_again_partial :
  forall dir base io, reused dir base io ->
  forall {T} so (el : elem T) inv_ln dname cwd fs,
  let io0 := io_new_with_options dir base (io_options io) in
  (ro_datamap (io_options io) = false \/ el_nodata el = false /\ plain_dir dir /\ recent cwd fs dir base ->
   load_hnsw so el inv_ln dname cwd fs io = load_hnsw so el inv_ln dname cwd fs io0) /\
  (ro_datamap (io_options io) = false ->
   load_hnsw_with_dist so el inv_ln dname cwd fs io = load_hnsw_with_dist so el inv_ln dname cwd fs io0).
Proof.
  intros dir base io Hu T so el inv_ln dname cwd fs io0. apply reused_where in Hu as [E1 E2].
  assert (Eo : io_open cwd fs io = io_open cwd fs io0) by (unfold io_open; by rewrite E1, E2).
  unfold load_hnsw, load_hnsw_with_dist. rewrite Eo, E1, E2. cbn [io_dir io_basename io_options io_datamap io_new_with_options io0].
  destruct (io_open cwd fs io0) as [[g d]| | | | |] eqn:Hop; try done. rewrite !bind_Ok. unfold run_rd. split.
  - intros [Ho|(Hn & Hpd & Hre)]; f_equal; [by apply load_rd_nomap|].
    destruct (ro_datamap (io_options io)) eqn:Ho; [|by apply load_rd_nomap].
    apply load_rd_map; [done|]. intros Herr de s1 Hh. split; [done|]. intros Ht.
    unfold io_open in Hop. cbn [io_dir io_basename io_new_with_options io0] in Hop.
    destruct (fs_read fs cwd (graph_file dir base)) as [g'|] eqn:Hg; [|done].
    destruct (fs_read fs cwd (data_file dir base)) as [d'|] eqn:Hd; [|done]. injection Hop as -> ->.
    unfold from_hnswdump in Herr. rewrite plain_graph, Hg, Hd in Herr by done. unfold datamap_of, or_panic in Herr.
    destruct (load_description (g, [])) as [[de' s']| | | | |] eqn:Hde; try done. cbn [mbind outcome_bind] in Herr.
    pose proof (header_dim _ _ _ _ Hh _ _ Hde) as ->. pose proof (Hre _ _ _ Hg Hde) as Hv.
    replace (format_version de <=? 2)%N with false in Herr by lia. rewrite Ht, String.eqb_refl in Herr. cbn [negb] in Herr.
    apply header_inv in Hh as (mb & db & Ed & L1 & L2 & Edim). cbn [snd] in Ed. subst d.
    destruct (slice _ 0 4) as [magic| | | | |] eqn:Es0; try (unfold slice in Es0; by destruct (_ <? _)%nat).
    cbn [mbind outcome_bind] in Herr. unfold assert_ in Herr. destruct (le_val magic =? MAGICDATAP)%N; [|done]. cbn [mbind outcome_bind] in Herr.
    assert (Es1 : slice (mb ++ db ++ s1.2) 4 8 = Ok db).
    { unfold slice. rewrite !app_length, L1, L2. replace (4 + (8 + length s1.2) <? 4 + 8)%nat with false by lia.
      rewrite drop_app_alt by done. by rewrite take_app_alt. }
    rewrite Es1 in Herr. cbn [mbind outcome_bind] in Herr. rewrite Edim, N.eqb_refl in Herr. cbn [negb] in Herr.
    apply bind_Err in Herr as [Herr|(m & _ & Herr)]; [|done]. by apply records_no_err in Herr.
  - intros Ho. f_equal. by apply load_with_dist_rd_nomap.
Qed.
Print Assumptions C91_used_again_partial.

(** Once load_hnsw has mapped the dump, load_hnsw_with_dist maps it too, whatever the threshold, and gives the same points,
    vectors and graph (a HnswIo just made panics: C56). *)
Theorem C91_with_dist_after_load_partial :
  forall {T} (dist : list T -> list T -> Z) so, StdLaws so -> (forall a b, (0 <= dist a b)%Z) ->
  forall inv_ln M ml ef hist h, built dist so inv_ln M ml ef hist h ->
  forall el dname, dump_ready el dname ml hist h -> el_nodata el = false -> uniform h -> distinct_ids hist ->
  forall cwd fs dir base draws fs' name, file_dump el dname cwd fs dir base draws h = (fs', Ok name) -> plain_dir dir ->
  forall dname' c, last_component dname c -> last_component dname' c ->
  forall io, reused dir name io -> ro_datamap (io_options io) = true ->
  forall o, exists h' h1 mapped,
    load_hnsw_with_dist so el inv_ln dname cwd fs' (io_set_options (io_after_load el dname' cwd fs' io) o) = Ok (h', mapped) /\
    load_hnsw so el inv_ln dname' cwd fs' (io_new_with_options dir name o) = Ok (h1, mapped) /\
    same_graph h h' /\ same_vectors h h' /\
    (forall q k efa f, search_filter dist so h' q k efa f = search_filter dist so h1 q k efa f).
Proof.
  intros T dist so LAWS Hnn inv_ln M ml ef hist h Hb el dname Hr Hnd Hu HD cwd fs dir base draws fs' name Hf Hpd dname' c Hc Hc' io Hre Ho o.
  apply file_dump_at in Hf as [Hat _]. apply reused_where in Hre as [E1 E2].
  pose proof (bd_dumpable dist so LAWS Hnn _ _ _ _ _ _ Hb el dname Hr) as Hdu.
  pose proof (bd_uniform dist so LAWS Hnn _ _ _ _ _ _ Hb el dname Hr Hu) as Hut.
  pose proof (bd_nodup dist so LAWS Hnn _ _ _ _ _ _ Hb el dname Hr HD) as HN.
  destruct (bd_entry dist so LAWS Hnn _ _ _ _ _ _ Hb el dname Hr) as [ep Hep].
  destruct (bd_shows dist so LAWS Hnn _ _ _ _ _ _ Hb el dname Hr cwd fs' dir name Hat false ep Hep) as (A1 & A2 & _).
  destruct (ready_datamap dist Hnn h el dname (dr_elem _ _ _ _ _ Hr) Hdu (dr_dname _ _ _ _ _ Hr) (dr_tname _ _ _ _ _ Hr) ep Hep
    cwd fs' dir name Hat Hut) as (m & Hm & Hmok & _).
  set (dm := DataMap _ m _ _ _) in Hm.
  assert (Edm : io_datamap (io_after_load el dname' cwd fs' io) = Some dm /\ io_dir (io_after_load el dname' cwd fs' io) = dir /\
    io_basename (io_after_load el dname' cwd fs' io) = name).
  { unfold io_after_load.
    rewrite (ready_open dist Hnn h el dname (dr_elem _ _ _ _ _ Hr) Hdu (dr_dname _ _ _ _ _ Hr) (dr_tname _ _ _ _ _ Hr) ep Hep cwd fs' dir name Hat io E1 E2).
    rewrite E1, E2.
    rewrite (ready_from_dump dist Hnn h el dname (dr_elem _ _ _ _ _ Hr) Hdu (dr_dname _ _ _ _ _ Hr) (dr_tname _ _ _ _ _ Hr) ep Hep cwd fs' dir name Hat Hpd).
    destruct (ready_header dist Hnn h el dname (dr_elem _ _ _ _ _ Hr) Hdu (dr_dname _ _ _ _ _ Hr) (dr_tname _ _ _ _ _ Hr) ep Hep
      cwd fs' dir name Hat) as [s Hs].
    assert (Er : run_rd (map_rd el dname' (io_datamap io) (io_options io)
      (datamap_of el (w_graph (dump el dname h Full)) (w_data (dump el dname h Full))))
      (w_graph (dump el dname h Full)) (w_data (dump el dname h Full)) = Ok (Some dm)).
    { unfold run_rd, map_rd. unfold rbind at 1. rewrite Hs, Hm. cbn [mbind outcome_bind]. rewrite Hnd.
      apply rsplit_last in Hc, Hc'. unfold rbind, rlift. cbn [de_distname de_read]. rewrite Hc, Hc'. cbn [unwrap mbind outcome_bind rret].
      rewrite bool_decide_true by done. unfold choose_datamap. rewrite Ho. done. }
    by rewrite Er. }
  destruct Edm as (D1 & D2 & D3).
  set (io2 := io_set_options _ o).
  assert (Hwd : load_hnsw_with_dist so el inv_ln dname cwd fs' io2 = Ok (reloaded h so inv_ln ep pt_data false, mapped_of h o pt_data)).
  { unfold load_hnsw_with_dist.
    rewrite (ready_open dist Hnn h el dname (dr_elem _ _ _ _ _ Hr) Hdu (dr_dname _ _ _ _ _ Hr) (dr_tname _ _ _ _ _ Hr) ep Hep cwd fs' dir name Hat io2) by done.
    cbn [mbind outcome_bind]. apply run_pars. destruct Hr.
    eapply pars_load_with_dist with (dist := dist); eauto.
    apply reads_same with (dist := dist); auto. intros _. exists dm. split; [done|].
    intros p pt Hp. eapply dm_get_unique with (dist := dist); eauto. }
  assert (Hl : load_hnsw so el inv_ln dname' cwd fs' (io_new_with_options dir name o) =
    Ok (reloaded h so inv_ln ep pt_data true, mapped_of h o pt_data)).
  { destruct (ro_datamap o) eqn:Eo.
    - destruct (bd_mmap dist so LAWS Hnn _ _ _ _ _ _ Hb el dname Hr cwd fs' dir name Hat dname' (io_new_with_options dir name o))
        as (ep' & Hep' & Hl); eauto using common_component. rewrite Hep in Hep'. injection Hep' as <-. exact Hl.
    - destruct (bd_plain dist so LAWS Hnn _ _ _ _ _ _ Hb el dname Hr cwd fs' dir name Hat dname' (io_new_with_options dir name o))
        as (ep' & Hep' & Hl); eauto using common_component. rewrite Hep in Hep'. injection Hep' as <-. rewrite Hl. by rewrite mapped_off. }
  eexists _, _, _. split; [exact Hwd|]. split; [exact Hl|]. split; [done|]. split; [done|].
  intros q k efa f. by apply search_filter_same.
Qed.
Print Assumptions C91_with_dist_after_load_partial.

(** C91: a HnswIo that has mapped a dump keeps the map. When the files of another
    dump have been moved to the place of the first ones, load_hnsw_with_dist through the
    same HnswIo returns the graph of the new files with the vectors of the old ones, where a HnswIo just made panics; and
    a graph-only load_hnsw with the mapping option, for which no map can be made, uses the old map too. *)
Definition exc_points : list (list byte * dataid * nat) := (fun p => (([x63; x63], p.1.2), p.2)) <$> exb_points.
Definition exc : hnsw (T:=byte) := Eval vm_compute in the (empty_b 2 16 10) (mkb 2 16 10 exc_points).
Lemma exc_built : built dB simple_ops one_scale 2 16 10 (fst <$> exc_points) exc.
Proof. apply mkb_built. vm_compute. reflexivity. Qed.
Lemma exc_ready : dump_ready el_u8 l1_name 16 (fst <$> exc_points) exc.
Proof. apply ready_u8; [lia|done|vm_compute; reflexivity]. Qed.
(** the files of a dump of [exc], made elsewhere, are moved to the place of those of [exb] *)
Definition exc_fs : fsys :=
  fs_write (fs_write exb_fs cwd0 (graph_file tmp_dir "b") (w_graph (dump el_u8 l1_name exc Full)))
    cwd0 (data_file tmp_dir "b") (w_data (dump el_u8 l1_name exc Full)).
Lemma exc_at : dump_at exc_fs cwd0 tmp_dir "b" (w_graph (dump el_u8 l1_name exc Full)) (w_data (dump el_u8 l1_name exc Full)).
Proof. split; vm_compute; reflexivity. Qed.
Definition io_mapped : hnswio := io_after_load el_u8 l1_name cwd0 exb_fs (io_new_with_options tmp_dir "b" (ro_new true)).

Theorem C91_used_again_refuted :
  exists (dist : list byte -> list byte -> Z) so inv_ln M ml ef hist h hist2 h2 (el : elem byte) dname cwd fs fs1 fs2 dir base io h' mapped,
    StdLaws so /\ (forall a b, (0 <= dist a b)%Z) /\ built dist so inv_ln M ml ef hist h /\ built dist so inv_ln M ml ef hist2 h2 /\
    dump_ready el dname ml hist h /\ dump_ready el dname ml hist2 h2 /\ uniform h2 /\ distinct_ids hist2 /\ plain_dir dir /\
    file_dump el dname cwd fs dir base [] h = (fs1, Ok base) /\ dump_at fs2 cwd dir base (w_graph (dump el dname h2 Full)) (w_data (dump el dname h2 Full)) /\
    reused dir base io /\ io = io_after_load el dname cwd fs1 (io_new_with_options dir base (io_options io)) /\
    (** the second dump, loaded by load_hnsw_with_dist *)
    load_hnsw_with_dist so el inv_ln dname cwd fs2 io = Ok (h', mapped) /\
    load_hnsw_with_dist so el inv_ln dname cwd fs2 (io_new_with_options dir base (io_options io)) = Panic /\
    (exists p v v', vector_at h2 p v /\ vector_at h' p v' /\ v' <> v) /\
    (** a graph-only reload *)
    (exists (el' : elem ()) hg mg, el_nodata el' = true /\
       load_hnsw so el' inv_ln dname cwd fs2 io = Ok (hg, mg) /\
       load_hnsw so el' inv_ln dname cwd fs2 (io_new_with_options dir base (io_options io)) = Panic).
Proof.
  exists dB, simple_ops, one_scale, 2%nat, 16%nat, 10%nat, (fst <$> exb_points), exb, (fst <$> exc_points), exc, el_u8, l1_name, cwd0, fs0,
    exb_fs, exc_fs, tmp_dir, "b", io_mapped.
  do 2 eexists. split; [exact simple_laws|]. split; [exact dB_nonneg|]. split; [exact exb_built|]. split; [exact exc_built|].
  split; [exact exb_ready|]. split; [exact exc_ready|]. split; [apply (uniform_check exc 2); vm_compute; reflexivity|].
  split; [exact exb_distinct|]. split; [by left|]. split; [exact exb_dumped|]. split; [exact exc_at|].
  split; [apply reused_load, reused_with|]. split; [reflexivity|].
  split; [vm_compute; reflexivity|]. split; [vm_compute; reflexivity|]. split.
  - exists (0, 0)%nat, [x63; x63], [x00; x01]. split; [vm_compute; reflexivity|]. split; [vm_compute; reflexivity|done].
  - exists el_none. do 2 eexists. split; [done|]. split; vm_compute; reflexivity.
Qed.
Print Assumptions C91_used_again_refuted.

(** the same HnswIo and load_hnsw: the second dump is shown *)
Example C91_example : exists h' mapped, reused tmp_dir "b" io_mapped /\ ro_datamap (io_options io_mapped) = true /\
  io_datamap io_mapped <> None /\ recent cwd0 exc_fs tmp_dir "b" /\
  load_hnsw simple_ops el_u8 one_scale l1_name cwd0 exc_fs io_mapped = Ok (h', mapped) /\ length mapped = 5%nat /\
  vector_at h' (0, 0)%nat [x63; x63].
Proof.
  do 2 eexists. split; [apply reused_load, reused_with|]. split; [vm_compute; reflexivity|]. split; [by vm_compute|].
  split. { intros g de s Hg Hd. vm_compute in Hg. injection Hg as <-. vm_compute in Hd. injection Hd as <- <-. by vm_compute. }
  split; [vm_compute; reflexivity|]. split; vm_compute; reflexivity.
Qed.
