(** Properties C27-C42: dump, reload, mapped data. Same conventions as PropsSearch.v. [el] describes the
    element type T (name, size, memory representation), [dname] is the type name of the distance. *)
From Coq Require Import SpecFloat Strings.Byte Strings.String.
From stdpp Require Import strings sets.
From Verif Require Import Prelude Model StdInst Lib Table SearchProofs InsertProofs IterProofs Spec SpecProofs Io IoBase
  SpecIo SpecBuilt IoProofs IoProofs2 IoProofs3 IoProofs4 IoProofs5 BuiltProofs ReloadProofs Examples ExamplesIo.
Local Open Scope list_scope.

(** the file system after dumping the example index [exb] as "b" in /tmp *)
Definition exb_fs : fsys := fst (file_dump el_u8 l1_name cwd0 fs0 tmp_dir "b" [] exb).
Lemma exb_dumped : file_dump el_u8 l1_name cwd0 fs0 tmp_dir "b" [] exb = (exb_fs, Ok "b").
Proof.
  assert (E : snd (file_dump el_u8 l1_name cwd0 fs0 tmp_dir "b" [] exb) = Ok "b") by (vm_compute; reflexivity).
  unfold exb_fs. revert E. generalize (file_dump el_u8 l1_name cwd0 fs0 tmp_dir "b" [] exb).
  intros [a b] E. cbn [fst snd] in *. by rewrite E.
Qed.

(** C27: what file_dump wrote, load_hnsw and load_hnsw_with_dist read back. *)
Theorem C27_reload :
  forall {T} (dist : list T -> list T -> Z) so, StdLaws so -> (forall a b, (0 <= dist a b)%Z) ->
  forall inv_ln M ml ef hist h, built dist so inv_ln M ml ef hist h ->
  forall el dname, dump_ready el dname ml hist h -> el_nodata el = false -> uniform h ->
  forall cwd fs dir base draws fs' name, file_dump el dname cwd fs dir base draws h = (fs', Ok name) ->
  forall dname' c, last_component dname c -> last_component dname' c ->
  exists h' h'',
    load_hnsw so el inv_ln dname' cwd fs' (io_new dir name) = Ok (h', []) /\
    same_graph h h' /\ same_vectors h h' /\ (order_kept so h -> same_lists h h') /\
    load_hnsw_with_dist so el inv_ln dname cwd fs' (io_new dir name) = Ok (h'', []) /\
    same_graph h h'' /\ same_vectors h h'' /\ (order_kept so h -> same_lists h h'') /\
    ((M <= 255)%nat -> built dist so inv_ln M ml ef hist h' /\ built dist so inv_ln M ml ef hist h'').
Proof.
  intros T dist so LAWS Hnn inv_ln M ml ef hist h Hb el dname Hr Hnd Hu cwd fs dir base draws fs' name Hf dname' c Hc Hc'.
  apply file_dump_at in Hf as [Hat _].
  destruct (bd_plain dist so LAWS Hnn _ _ _ _ _ _ Hb el dname Hr cwd fs' dir name Hat dname' (io_new dir name)) as (ep & Hep & H1);
    auto. { by eapply common_component. }
  destruct (bd_with_dist dist so LAWS Hnn _ _ _ _ _ _ Hb el dname Hr cwd fs' dir name Hat (io_new dir name)) as (ep' & Hep' & H2);
    auto. rewrite Hep in Hep'. injection Hep' as <-.
  destruct (bd_shows dist so LAWS Hnn _ _ _ _ _ _ Hb el dname Hr cwd fs' dir name Hat true ep Hep) as (A1 & A2 & A3).
  destruct (bd_shows dist so LAWS Hnn _ _ _ _ _ _ Hb el dname Hr cwd fs' dir name Hat false ep Hep) as (B1 & B2 & B3).
  eexists _, _. split; [exact H1|]. split; [exact A1|]. split; [exact A2|]. split; [exact A3|].
  split; [exact H2|]. split; [exact B1|]. split; [exact B2|]. split; [exact B3|]. intros HM. split.
  - eapply built_reload; [exact Hb|exact Hr|exact Hu|done|done| | |exact H1]; done.
  - eapply built_reload_dist; [exact Hb|exact Hr|exact Hu|done|done| | |exact H2]; done.
Qed.
Print Assumptions C27_reload.
Example C27_example : exists h', load_hnsw simple_ops el_u8 one_scale l1_name cwd0 exb_fs (io_new tmp_dir "b") = Ok (h', []) /\
  points_by_layer h' = points_by_layer exb /\ get_nb_point h' = 5%nat.
Proof. eexists. split_and!; vm_compute; reflexivity. Qed.
Example C27_example_hyps : built dB simple_ops one_scale 2 16 10 (fst <$> exb_points) exb /\
  dump_ready el_u8 l1_name 16 (fst <$> exb_points) exb /\ el_nodata el_u8 = false /\ uniform exb /\
  last_component l1_name "DistL1".
Proof. split_and!; [exact exb_built|exact exb_ready|done|exact exb_uniform|exact l1_short]. Qed.

(** C28: searches on the reloaded index give the same answers. *)
Theorem C28_reload_search :
  forall {T} (dist : list T -> list T -> Z) so, StdLaws so -> (forall a b, (0 <= dist a b)%Z) ->
  forall inv_ln M ml ef hist h, built dist so inv_ln M ml ef hist h ->
  forall el dname, dump_ready el dname ml hist h -> el_nodata el = false -> uniform h -> order_kept so h ->
  forall cwd fs dir base draws fs' name, file_dump el dname cwd fs dir base draws h = (fs', Ok name) ->
  forall dname' c, last_component dname c -> last_component dname' c ->
  forall opts, (ro_datamap opts = true -> distinct_ids hist /\ plain_dir dir) ->
  exists h' mapped,
    load_hnsw so el inv_ln dname' cwd fs' (io_new_with_options dir name opts) = Ok (h', mapped) /\
    forall q k efa filter,
      search_filter dist so h' q k efa filter = search_filter dist so h q k efa filter /\
      search dist so h' q k efa = search dist so h q k efa.
Proof.
  intros T dist so LAWS Hnn inv_ln M ml ef hist h Hb el dname Hr Hnd Hu Hk cwd fs dir base draws fs' name Hf dname' c Hc Hc' opts Ho.
  apply file_dump_at in Hf as [Hat _].
  assert (exists ep mapped, entry_point h = Some ep /\
    load_hnsw so el inv_ln dname' cwd fs' (io_new_with_options dir name opts) = Ok (reloaded h so inv_ln ep pt_data true, mapped))
    as (ep & mapped & Hep & Hl).
  { destruct (ro_datamap opts) eqn:E.
    - destruct (Ho eq_refl) as [HD Hpd].
      destruct (bd_mmap dist so LAWS Hnn _ _ _ _ _ _ Hb el dname Hr cwd fs' dir name Hat dname' (io_new_with_options dir name opts))
        as (ep & Hep & Hl); eauto using common_component.
    - destruct (bd_plain dist so LAWS Hnn _ _ _ _ _ _ Hb el dname Hr cwd fs' dir name Hat dname' (io_new_with_options dir name opts))
        as (ep & Hep & Hl); eauto using common_component. }
  exists (reloaded h so inv_ln ep pt_data true), mapped. split; [exact Hl|]. intros q k efa filter.
  assert (E : forall f, search_filter dist so (reloaded h so inv_ln ep pt_data true) q k efa f = search_filter dist so h q k efa f).
  { intros f. by eapply bd_search. }
  split; [apply E|]. unfold search. apply E.
Qed.
Print Assumptions C28_reload_search.
Lemma exb_order : order_kept simple_ops exb.
Proof. left. intros A key l. exact (simple_keeps_sorted A key l). Qed.
Example C28_example : exists h' res, load_hnsw simple_ops el_u8 one_scale l1_name cwd0 exb_fs (io_new tmp_dir "b") = Ok (h', []) /\
  search dB simple_ops h' [x06] 3 10 = Ok res /\ search dB simple_ops exb [x06] 3 10 = Ok res /\
  distance <$> res = [1; 4; 6]%Z /\ order_kept simple_ops exb.
Proof. do 2 eexists. split_and!; [vm_compute; reflexivity..|exact exb_order]. Qed.

(** C29: not all construction parameters survive: a default index comes back with extend_candidates on. *)
Theorem C29_parameters_refuted :
  exists (dist : list byte -> list byte -> Z) so inv_ln M ml ef hist h el dname fs fs' name h' cwd dir base,
    StdLaws so /\ (forall a b, (0 <= dist a b)%Z) /\ built dist so inv_ln M ml ef hist h /\
    dump_ready el dname ml hist h /\ uniform h /\
    file_dump el dname cwd fs dir base [] h = (fs', Ok name) /\
    load_hnsw so el inv_ln dname cwd fs' (io_new dir name) = Ok (h', []) /\
    extend_candidates h = false /\ extend_candidates h' = true.
Proof.
  exists dB, simple_ops, one_scale, 2%nat, 16%nat, 10%nat, (fst <$> exb_points), exb, el_u8, l1_name, fs0, exb_fs, "b".
  eexists _, cwd0, tmp_dir, "b". split; [exact simple_laws|]. split; [exact dB_nonneg|]. split; [exact exb_built|].
  split; [exact exb_ready|]. split; [exact exb_uniform|]. split; [exact exb_dumped|].
  split; [vm_compute; reflexivity|]. split; reflexivity.
Qed.
Print Assumptions C29_parameters_refuted.

(** C29, what does hold: the number of layers, ef_construction, and the number of connections modulo 256
    survive; keep_pruned and extend_candidates are reset to false and true, searching is reset, and the level
    scale is multiplied by the default scale of the number of connections. *)
Theorem C29_parameters_partial :
  forall {T} (dist : list T -> list T -> Z) so, StdLaws so -> (forall a b, (0 <= dist a b)%Z) ->
  forall inv_ln M ml ef hist h, built dist so inv_ln M ml ef hist h ->
  forall el dname, dump_ready el dname ml hist h -> el_nodata el = false -> uniform h ->
  forall cwd fs dir base draws fs' name, file_dump el dname cwd fs dir base draws h = (fs', Ok name) ->
  forall dname' c, last_component dname c -> last_component dname' c ->
  exists h', load_hnsw so el inv_ln dname' cwd fs' (io_new dir name) = Ok (h', []) /\
    max_layer h' = max_layer h /\ ef_construction h' = ef_construction h /\
    max_nb_connection h' = (max_nb_connection h mod 256)%nat /\
    ((M <= 255)%nat -> max_nb_connection h' = max_nb_connection h) /\
    keep_pruned h' = false /\ extend_candidates h' = true /\ searching h' = false /\
    level_scale h' = f64_mul (inv_ln (max_nb_connection h mod 256)%nat) (level_scale h).
Proof.
  intros T dist so LAWS Hnn inv_ln M ml ef hist h Hb el dname Hr Hnd Hu cwd fs dir base draws fs' name Hf dname' c Hc Hc'.
  apply file_dump_at in Hf as [Hat _].
  destruct (built_facts dist so LAWS Hnn _ _ _ _ _ _ Hb) as (Hwf & Hml & HM & Hef & Hst & Hnb).
  destruct (bd_plain dist so LAWS Hnn _ _ _ _ _ _ Hb el dname Hr cwd fs' dir name Hat dname' (io_new dir name)) as (ep & Hep & H1);
    auto. { by eapply common_component. }
  eexists. split; [exact H1|]. unfold reloaded, get_max_nb_connection.
  cbn [max_layer ef_construction max_nb_connection keep_pruned searching level_scale].
  split_and!; try done.
  - rewrite Hml. destruct Hr. unfold NB_LAYER_MAX. lia.
  - intros ?. apply Nat.mod_small. lia.
Qed.
Print Assumptions C29_parameters_partial.

(** C30: the description at the beginning of a graph file is read back, whatever follows. *)
Theorem C30_description :
  forall {T} (dist : list T -> list T -> Z) so, StdLaws so -> (forall a b, (0 <= dist a b)%Z) ->
  forall inv_ln M ml ef hist h, built dist so inv_ln M ml ef hist h ->
  forall el dname, dump_ready el dname ml hist h ->
  forall cwd fs dir base draws fs' name, file_dump el dname cwd fs dir base draws h = (fs', Ok name) ->
  exists g d rest, dump_at fs' cwd dir name g d /\
    forall more, load_description (g ++ more, []) =
      Ok (Description 4 1 (N.of_nat (M mod 256)) (level_scale h) 16 (N.of_nat ef) (N.of_nat (length hist))
            (N.of_nat (get_data_dimension h)) dname (el_name el), (rest ++ more, [])).
Proof.
  intros T dist so LAWS Hnn inv_ln M ml ef hist h Hb el dname Hr cwd fs dir base draws fs' name Hf.
  apply file_dump_at in Hf as [Hat _].
  destruct (built_facts dist so LAWS Hnn _ _ _ _ _ _ Hb) as (Hwf & Hml & HM & Hef & Hst & Hnb).
  pose proof (bd_dumpable dist so LAWS Hnn _ _ _ _ _ _ Hb el dname Hr) as Hd. destruct Hr as [R1 R2 R3 R4 R5 R6].
  pose proof (pars_descg dist el R1 h Hd dname R2 R3) as Hp. unfold de_read in Hp.
  eexists _, _, _. split; [exact Hat|]. intros more.
  rewrite (dump_eq dist el R1 h Hd dname R2 R3). cbn [w_graph]. rewrite <- app_assoc.
  specialize (Hp ((u8_bytes 16 ++ concat (lyg h <$> points_by_layer h) ++ entry_bytes h) ++ more) []).
  cbn [app] in Hp. rewrite Hp. unfold get_max_nb_connection. rewrite HM, Hef, Hnb. reflexivity.
Qed.
Print Assumptions C30_description.
Example C30_example : exists g d rest, dump_at exb_fs cwd0 tmp_dir "b" g d /\
  load_description (g, []) = Ok (Description 4 1 2 f64_1 16 10 5 2 l1_name "u8", rest).
Proof. do 3 eexists. split; [split; vm_compute; reflexivity|vm_compute; reflexivity]. Qed.

(** C31: a dump cut anywhere, in either file or both, is never loaded, whatever the type, the distance and the
    options asked for at reload, and whatever data map the HnswIo holds. *)
Theorem C31_truncated :
  forall {T} (dist : list T -> list T -> Z) so, StdLaws so -> (forall a b, (0 <= dist a b)%Z) ->
  forall inv_ln M ml ef hist h, built dist so inv_ln M ml ef hist h ->
  forall el dname, dump_ready el dname ml hist h ->
  forall cwd fs dir base draws fs' name, file_dump el dname cwd fs dir base draws h = (fs', Ok name) ->
  forall g d cutg cutd fs'', dump_at fs' cwd dir name (g ++ cutg) (d ++ cutd) -> (cutg <> [] \/ cutd <> []) ->
  dump_at fs'' cwd dir name g d ->
  forall {T'} so' (el' : elem T') inv_ln' dname' io, io_dir io = dir -> io_basename io = name ->
  forall x, load_hnsw so' el' inv_ln' dname' cwd fs'' io <> Ok x /\
            load_hnsw_with_dist so' el' inv_ln' dname' cwd fs'' io <> Ok x.
Proof.
  intros T dist so LAWS Hnn inv_ln M ml ef hist h Hb el dname Hr cwd fs dir base draws fs' name Hf.
  intros g d cutg cutd fs'' Hcut Hne Hat T' so' el' inv_ln' dname' io E1 E2 x.
  apply file_dump_at in Hf as [[Hg Hd] _]. destruct Hcut as [Cg Cd].
  rewrite Hg in Cg. rewrite Hd in Cd. injection Cg as Cg. injection Cd as Cd.
  pose proof (bd_dumpable dist so LAWS Hnn _ _ _ _ _ _ Hb el dname Hr) as Hdu.
  destruct (bd_entry dist so LAWS Hnn _ _ _ _ _ _ Hb el dname Hr) as [ep Hep]. destruct Hr as [R1 R2 R3 R4 R5 R6].
  assert (Hio : io_open cwd fs'' io = Ok (g, d)).
  { unfold io_open. rewrite E1, E2. destruct Hat as [-> ->]. done. }
  unfold load_hnsw, load_hnsw_with_dist. rewrite Hio. cbn [mbind outcome_bind].
  assert (Hall : forall p, loader so' el' p -> run_rd p g d = Ok x -> False).
  { intros p Hp H. destruct (truncated dist so' el el' h dname ep p g d cutg cutd x R1 Hdu R2 R3 Hep Hp Cg Cd H) as [-> ->].
    by destruct Hne. }
  split; intros H; eapply Hall; [|exact H| |exact H].
  - do 4 eexists. left. eexists. reflexivity.
  - do 4 eexists. right. reflexivity.
Qed.
Print Assumptions C31_truncated.
(** the graph file of the example without its last byte *)
Example C31_example : exists g d b, dump_at exb_fs cwd0 tmp_dir "b" (g ++ [b]) d /\
  load_hnsw simple_ops el_u8 one_scale l1_name cwd0 (fs_write exb_fs cwd0 (graph_file tmp_dir "b") g) (io_new tmp_dir "b") = Err.
Proof.
  pose (full := from_option id [] (fs_read exb_fs cwd0 (graph_file tmp_dir "b"))).
  exists (take (length full - 1) full), (from_option id [] (fs_read exb_fs cwd0 (data_file tmp_dir "b"))), x00.
  split; [split; vm_compute; reflexivity|vm_compute; reflexivity].
Qed.

(** C32: damaged files are not always reported by Err: bytes that are no dump make load_hnsw panic, a dump of
    another element type makes it panic too, and a damaged record makes it end the process. *)
Theorem C32_errors_refuted :
  (exists so (el : elem byte) inv_ln dname cwd fs io, load_hnsw so el inv_ln dname cwd fs io = Panic) /\
  (exists so (el : elem byte) inv_ln dname cwd fs io g d, dump_at fs cwd (io_dir io) (io_basename io) g d /\
     load_hnsw so el inv_ln dname cwd fs io = Exit).
Proof.
  split.
  - exists simple_ops, el_u8, one_scale, l1_name, cwd0, (fun _ => Some [x01; x02; x03; x04]), (io_new tmp_dir "b").
    vm_compute. reflexivity.
  - exists simple_ops, el_u8, one_scale, l1_name, cwd0.
    exists (fs_write exb_fs cwd0 (data_file tmp_dir "b") (take 40 (from_option id [] (fs_read exb_fs cwd0 (data_file tmp_dir "b"))))).
    exists (io_new tmp_dir "b"). do 2 eexists. split; [split; vm_compute; reflexivity|]. vm_compute. reflexivity.
Qed.
Print Assumptions C32_errors_refuted.
Example C32_other_type : load_hnsw simple_ops (Elem byte "i8" 1 (fun b => [b]) (fun l => hd x00 l) (fun _ => None) false)
   one_scale l1_name cwd0 exb_fs (io_new tmp_dir "b") = Panic.
Proof. vm_compute. reflexivity. Qed.

(** C32, what does hold: a missing file is reported by Err, and so is a dump made with another distance. *)
Theorem C32_errors_partial :
  forall {T'} so' (el' : elem T') inv_ln' dname' cwd fs io,
  (fs_read fs cwd (graph_file (io_dir io) (io_basename io)) = None \/
   fs_read fs cwd (data_file (io_dir io) (io_basename io)) = None ->
   load_hnsw so' el' inv_ln' dname' cwd fs io = Err /\ load_hnsw_with_dist so' el' inv_ln' dname' cwd fs io = Err) /\
  (forall {T} (dist : list T -> list T -> Z) so, StdLaws so -> (forall a b, (0 <= dist a b)%Z) ->
   forall inv_ln M ml ef hist h, built dist so inv_ln M ml ef hist h ->
   forall el dname, dump_ready el dname ml hist h ->
   forall fs0 base draws, file_dump el dname cwd fs0 (io_dir io) base draws h = (fs, Ok (io_basename io)) ->
   el_nodata el' = false ->
   (forall c c', last_component dname c -> last_component dname' c' -> c <> c' ->
      load_hnsw so' el' inv_ln' dname' cwd fs io = Err) /\
   (dname <> dname' -> load_hnsw_with_dist so' el' inv_ln' dname' cwd fs io = Err)).
Proof.
  intros T' so' el' inv_ln' dname' cwd fs io. split.
  - intros H. unfold load_hnsw, load_hnsw_with_dist, io_open.
    destruct (fs_read fs cwd (graph_file _ _)) as [g|]; [|done].
    destruct (fs_read fs cwd (data_file _ _)) as [d|]; [|done]. by destruct H.
  - intros T dist so LAWS Hnn inv_ln M ml ef hist h Hb el dname Hr fs0 base draws Hf Hnd.
    apply file_dump_at in Hf as [Hat _].
    pose proof (bd_dumpable dist so LAWS Hnn _ _ _ _ _ _ Hb el dname Hr) as Hdu.
    destruct (bd_entry dist so LAWS Hnn _ _ _ _ _ _ Hb el dname Hr) as [ep Hep]. destruct Hr as [R1 R2 R3 R4 R5 R6].
    destruct (ready_header dist Hnn h el dname R1 Hdu R2 R3 ep Hep cwd fs _ _ Hat) as [s Hs].
    pose proof (ready_open dist Hnn h el dname R1 Hdu R2 R3 ep Hep cwd fs _ _ Hat io eq_refl eq_refl) as Ho.
    split.
    + intros c c' Hc Hc' Hne. unfold load_hnsw. rewrite Ho. cbn [mbind outcome_bind].
      unfold run_rd, load_rd, rbind. rewrite Hs. cbn [mbind outcome_bind]. rewrite Hnd.
      apply rsplit_last in Hc, Hc'. unfold rlift. cbn [de_distname de_read]. rewrite Hc, Hc'. cbn [unwrap mbind outcome_bind rret].
      rewrite bool_decide_false; [done|]. intros E. apply Hne. by apply str_bytes_inj.
    + intros Hne. unfold load_hnsw_with_dist. rewrite Ho. cbn [mbind outcome_bind].
      unfold run_rd, load_with_dist_rd, rbind. rewrite Hs. cbn [mbind outcome_bind]. rewrite Hnd. cbn [de_distname de_read negb andb].
      destruct (String.eqb_spec dname' dname); [congruence|]. done.
Qed.
Print Assumptions C32_errors_partial.
Example C32_example : load_hnsw simple_ops el_u8 one_scale l1_name cwd0 exb_fs (io_new tmp_dir "absent") = Err /\
  load_hnsw simple_ops el_u8 one_scale "anndists::dist::distances::DistL2" cwd0 exb_fs (io_new tmp_dir "b") = Err.
Proof. split; vm_compute; reflexivity. Qed.
