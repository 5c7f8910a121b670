(** Property C102: the vectors of a mapped index do not change. *)
From Coq Require Import SpecFloat Strings.Byte Strings.String.
From stdpp Require Import strings sets relations.
From Verif Require Import Prelude Model StdInst Lib Table SearchProofs InsertProofs IterProofs Spec SpecProofs Io IoBase
  SpecIo SpecBuilt IoProofs IoProofs2 IoProofs3 IoProofs4 IoProofs5 BuiltProofs ReloadProofs View SpecView Reuse Examples ExamplesIo PropsIo.
Local Open Scope list_scope.
Notation length := List.length.

(** the mapped file is not touched *)
Lemma calm_keeps loc fs fs' cwd dir name b : calm loc fs fs' -> loc = resolve cwd (data_file dir name) -> fs loc = Some b -> fs' loc = Some b.
Proof.
  intros Hc -> Hb. destruct Hc as [T dist so el inv_ln cwd0 fs0 io h0 mapped h dname dname' cwd' fs dir' base draws fs' r Hl Hev Hf
    |T el h dname cwd' fs dir' base draws fs' r Hne Hf|fs fs' E]; [| |by rewrite E].
  - assert (Hd : datamap_opt h = true).
    { apply (evolves_dmo dist) in Hev. rewrite Hev. by eapply load_dmo. }
    apply file_dump_files in Hf as [[-> _]|(n & Hn & _ & Hfile)]; [done|].
    rewrite Hd in Hn. apply dump_basename_absent in Hn as [Hno _]. rewrite Hfile; [done|..].
    + intros E. symmetry in E. by apply graph_never_data in E.
    + intros E. unfold fs_read in Hno. rewrite <- E in Hno. congruence.
  - apply file_dump_files in Hf as [[-> _]|(n & Hn & _ & Hfile)]; [done|]. rewrite Hfile; [done|..].
    + intros E. symmetry in E. by apply graph_never_data in E.
    + intros E. symmetry in E. revert E. apply Hne. destruct (datamap_opt h); cbn [negb] in Hn.
      * apply dump_basename_absent in Hn as [_ [->|(id & _ & ->)]]; eauto.
      * injection Hn as <-. by left.
Qed.
Lemma calms_keep loc fs fs' cwd dir name b : rtc (calm loc) fs fs' -> loc = resolve cwd (data_file dir name) -> fs loc = Some b -> fs' loc = Some b.
Proof. induction 1 as [|fs1 fs2 fs3 H _ IH]; intros E Hb; [done|]. apply IH; [done|]. by eapply calm_keeps. Qed.

Lemma mapM_same {A} (f : A -> outcome A) l : (forall x, x ∈ l -> f x = Ok x) -> mapM f l = Ok l.
Proof.
  induction l as [|x l IH]; intros H; [done|]. cbn [mapM]. rewrite (H x) by left. cbn. rewrite IH; [done|].
  intros y Hy. apply H. by right.
Qed.
Lemma seen_same {T} (el : elem T) dm mapped b h : (forall p pt, get_pt h p = Some pt -> get_v el dm mapped b pt = Ok (pt_data pt)) ->
  seen el dm mapped b h = Ok h.
Proof.
  intros H. unfold seen. rewrite mapM_same; [by destruct h|]. intros ly Hly. apply mapM_same. intros pt Hpt.
  apply elem_of_list_lookup in Hly as [i Hi]. apply elem_of_list_lookup in Hpt as [r Hr].
  assert (Hp : get_pt h (i, r) = Some pt) by (apply get_pt_lookup; eauto).
  unfold seen_point. rewrite (H _ _ Hp). by destruct pt.
Qed.

(** C102 as long as the mapped file is left alone: an index made by load_hnsw with the mapping option, and whatever was
    inserted into it since, behaves as Model.v says (where vectors do not change), however often it and other reloaded
    indexes are dumped, even under the name of the mapped dump, and whatever happens to other files. *)
Theorem C102_mapped_vectors_partial :
  forall {T} (dist : list T -> list T -> Z) so, StdLaws so -> (forall a b, (0 <= dist a b)%Z) ->
  forall inv_ln M ml ef hist h, built dist so inv_ln M ml ef hist h -> (M <= 255)%nat ->
  forall el dname, dump_ready el dname ml hist h -> el_nodata el = false -> uniform h -> distinct_ids hist ->
  forall cwd fs dir base draws fs' name, file_dump el dname cwd fs dir base draws h = (fs', Ok name) -> plain_dir dir ->
  forall dname' c, last_component dname c -> last_component dname' c ->
  forall opts, ro_datamap opts = true ->
  let loc := resolve cwd (data_file dir name) in
  exists dm h0 mapped,
    from_hnswdump el cwd fs' dir name = Ok dm /\
    load_hnsw so el inv_ln dname' cwd fs' (io_new_with_options dir name opts) = Ok (h0, mapped) /\
    forall h1, evolves dist so h0 h1 -> forall fs'', rtc (calm loc) fs' fs'' ->
      (exists content, fs'' loc = Some content /\ seen el dm mapped content h1 = Ok h1) /\
      forall q knbn ef_arg, search_at el dist so dm mapped loc fs'' h1 q knbn ef_arg = search dist so h1 q knbn ef_arg.
Proof.
  intros T dist so LAWS Hnn inv_ln M ml ef hist h Hb HM el dname Hr Hnd Hu HD cwd fs dir base draws fs' name Hf Hpd dname' c Hc Hc' opts Ho loc.
  pose proof Hf as Hf0. apply file_dump_at in Hf as [Hat _].
  destruct (bd_from_dump dist so LAWS Hnn _ _ _ _ _ _ Hb el dname Hr cwd fs' dir name Hat Hu Hpd) as (m & Hm & Hmok & _).
  destruct (bd_mmap dist so LAWS Hnn _ _ _ _ _ _ Hb el dname Hr cwd fs' dir name Hat dname' (io_new_with_options dir name opts))
    as (ep & Hep & Hl); eauto using common_component.
  pose proof (bd_wf dist so LAWS Hnn _ _ _ _ _ _ Hb el dname Hr) as Hwf.
  pose proof (bd_dumpable dist so LAWS Hnn _ _ _ _ _ _ Hb el dname Hr) as Hdu.
  pose proof (bd_nodup dist so LAWS Hnn _ _ _ _ _ _ Hb el dname Hr HD) as Hno.
  pose proof (bd_uniform dist so LAWS Hnn _ _ _ _ _ _ Hb el dname Hr Hu) as Hut.
  destruct (built_facts dist so LAWS Hnn _ _ _ _ _ _ Hb) as (_ & Eml & EM & _).
  destruct (reloaded_wf dist so LAWS Hnn h inv_ln ep true (wf_lwf _ _ Hwf)) as ((_ & Hwf0) & Hgr & _); [apply (du_layers _ _ _ Hdu)|lia|done|].
  specialize (Hwf0 Hwf). set (h0 := reloaded h so inv_ln ep pt_data true) in *.
  set (d := w_data (dump el dname h Full)) in *. set (dm := DataMap d m (el_name el) (N.of_nat (get_data_dimension h)) dname) in *.
  destruct Hr as [R1 R2 R3 R4 R5 R6].
  pose proof (fun id => dm_get_ok dist el R1 h Hdu dname R2 R3 Hut d m id Hmok) as Hget.
  exists dm, h0, (mapped_of h opts pt_data). split; [exact Hm|]. split; [exact Hl|]. intros h1 Hev fs'' Hcs.
  assert (Hd : fs' loc = Some d) by apply Hat.
  pose proof (calms_keep loc fs' fs'' cwd dir name d Hcs eq_refl Hd) as Hd'.
  assert (Hs : seen el dm (mapped_of h opts pt_data) d h1 = Ok h1).
  { apply seen_same. intros p pt Hpt. unfold get_v. destruct (decide _) as [Hin|]; [|done].
    destruct (evolves_facts dist so LAWS Hnn _ _ Hev Hwf0) as [Hwf1 Hgr1].
    rewrite (mapped_on dist h opts pt_data (wf_lwf _ _ Hwf) Ho) in Hin. apply elem_of_list_fmap in Hin as (pt0 & Epid & Hin).
    apply elem_of_take in Hin as (i & Hi & _). apply elem_of_list_lookup_2, elem_of_all_points in Hi as [p0 Hp0].
    assert (p0 = p) as ->.
    { rewrite <- (proj1 (c_pt _ _ (w_core _ _ Hwf) _ _ Hp0)), <- (proj1 (c_pt _ _ (w_core _ _ Hwf1) _ _ Hpt)). done. }
    destruct (grows_get _ _ _ _ (grows_trans _ _ _ Hgr Hgr1) Hp0) as (pt1 & Hpt1 & E1 & E2 & _).
    rewrite Hpt in Hpt1. injection Hpt1 as <-. rewrite E1, E2.
    specialize (Hget (pt_oid pt0)). fold dm in Hget. unfold dm_get_data in Hget. unfold dm_offset.
    destruct (imap_get (pt_oid pt0) (dm_map dm)) as [a|]; cbn [fmap option_fmap option_map].
    2: { by specialize (Hget p pt0 Hp0). }
    destruct (slice (dm_mmap dm) a 8) as [?| | | | |]; try done. cbn [mbind outcome_bind] in Hget.
    destruct (slice (dm_mmap dm) (a + 8) 0) as [?| | | | |]; try done. cbn [mbind outcome_bind] in Hget.
    change (dm_mmap dm) with d in Hget.
    destruct (from_raw_parts el (drop (a + 8) d) (dm_dimension dm)) as [v| | | | |]; try done. cbn [mbind outcome_bind] in Hget.
    destruct Hget as (p2 & pt2 & Hp2 & E & <-). f_equal. f_equal.
    assert (pt2 ∈ all_points h /\ pt0 ∈ all_points h) as [I2 I0] by (split; apply elem_of_all_points; eauto).
    apply elem_of_list_lookup in I2 as [i2 I2]. apply elem_of_list_lookup in I0 as [i0 I0].
    assert (i2 = i0) as ->. { eapply NoDup_lookup; [exact Hno|..]; rewrite list_lookup_fmap; [by rewrite I2|by rewrite I0, E]. }
    congruence. }
  split; [by exists d|]. intros q k e. unfold search_at. rewrite Hd'. cbn. by rewrite Hs.
Qed.
Print Assumptions C102_mapped_vectors_partial.

(** C102 is false as stated. The dump of exb is mapped; then exb gets one more point and is dumped again under the same
    name (it was not reloaded, so nothing prevents that): the vectors of the mapped index change. Dumping a smaller index
    makes them unreadable. *)
Definition dmx : datamap := Eval vm_compute in match from_hnswdump el_u8 cwd0 exb_fs tmp_dir "b" with Ok m => m | _ => DataMap [] [] "" 0 "" end.
Definition exb_more : hnsw (T:=byte) := Eval vm_compute in the exb (insert_slice dB simple_ops exb [x32; x06] 15%N (lv 0)).
Definition exb_more_fs : fsys := fst (file_dump el_u8 l1_name cwd0 exb_fs tmp_dir "b" [] exb_more).
Definition exs_points : list (list byte * dataid * nat) := [([x00; x01], 10%N, 0%nat)].
Definition exs : hnsw (T:=byte) := Eval vm_compute in the (empty_b 2 16 10) (mkb 2 16 10 exs_points).
Definition exs_fs : fsys := fst (file_dump el_u8 l1_name cwd0 exb_fs tmp_dir "b" [] exs).

Theorem C102_mapped_vectors_refuted :
  exists (dist : list byte -> list byte -> Z) so inv_ln M ml ef hist h (el : elem byte) dname cwd fs fs' dir base opts dm h0 mapped,
    StdLaws so /\ (forall a b, (0 <= dist a b)%Z) /\ built dist so inv_ln M ml ef hist h /\ (M <= 255)%nat /\
    dump_ready el dname ml hist h /\ el_nodata el = false /\ uniform h /\ distinct_ids hist /\ plain_dir dir /\ ro_datamap opts = true /\
    file_dump el dname cwd fs dir base [] h = (fs', Ok base) /\ from_hnswdump el cwd fs' dir base = Ok dm /\
    load_hnsw so el inv_ln dname cwd fs' (io_new_with_options dir base opts) = Ok (h0, mapped) /\
    let loc := resolve cwd (data_file dir base) in
    (* one more insertion into the first index, and a second dump of it *)
    (exists v id d h2 fs2 content h' p w w' q res res', insert_slice dist so h v id d = Ok h2 /\
       file_dump el dname cwd fs' dir base [] h2 = (fs2, Ok base) /\ fs2 loc = Some content /\
       seen el dm mapped content h0 = Ok h' /\ vector_at h0 p w /\ vector_at h' p w' /\ w <> w' /\
       search_at el dist so dm mapped loc fs' h0 q 1 10 = Ok res /\ search_at el dist so dm mapped loc fs2 h0 q 1 10 = Ok res' /\
       (d_id <$> res) <> (d_id <$> res')) /\
    (* a dump of another index *)
    (exists hist3 h3 fs3 q, built dist so inv_ln M ml ef hist3 h3 /\ file_dump el dname cwd fs' dir base [] h3 = (fs3, Ok base) /\
       search_at el dist so dm mapped loc fs3 h0 q 1 10 = UB).
Proof.
  exists dB, simple_ops, one_scale, 2%nat, 16%nat, 10%nat, (fst <$> exb_points), exb, el_u8, l1_name, cwd0, fs0,
    exb_fs, tmp_dir, "b", (ro_new true), dmx.
  do 2 eexists. split; [exact simple_laws|]. split; [exact dB_nonneg|]. split; [exact exb_built|]. split; [lia|].
  split; [exact exb_ready|]. split; [done|]. split; [exact exb_uniform|]. split; [exact exb_distinct|]. split; [by left|]. split; [done|].
  split; [exact exb_dumped|]. split; [vm_compute; reflexivity|]. split; [vm_compute; reflexivity|]. intros loc. split.
  - exists [x32; x06], 15%N, (lv 0), exb_more, exb_more_fs. do 2 eexists. exists (1, 0)%nat. do 2 eexists. exists [x0a; x02]. do 2 eexists.
    split; [vm_compute; reflexivity|]. split.
    { assert (E : snd (file_dump el_u8 l1_name cwd0 exb_fs tmp_dir "b" [] exb_more) = Ok "b") by (vm_compute; reflexivity).
      unfold exb_more_fs. destruct (file_dump el_u8 l1_name cwd0 exb_fs tmp_dir "b" [] exb_more). cbn in *. by rewrite E. }
    split; [vm_compute; reflexivity|]. split; [vm_compute; reflexivity|]. split; [vm_compute; reflexivity|].
    split; [vm_compute; reflexivity|]. split; [done|]. split; [vm_compute; reflexivity|]. split; [vm_compute; reflexivity|]. by vm_compute.
  - exists (fst <$> exs_points), exs, exs_fs, [x0a; x02]. split; [apply mkb_built; vm_compute; reflexivity|]. split.
    { assert (E : snd (file_dump el_u8 l1_name cwd0 exb_fs tmp_dir "b" [] exs) = Ok "b") by (vm_compute; reflexivity).
      unfold exs_fs. destruct (file_dump el_u8 l1_name cwd0 exb_fs tmp_dir "b" [] exs). cbn in *. by rewrite E. }
    vm_compute. reflexivity.
Qed.
Print Assumptions C102_mapped_vectors_refuted.

(** An index can even be mapped on the file its own dump writes: after a load by load_hnsw (of an index dropped since), the
    HnswIo keeps its map, and load_hnsw_with_dist gives points mapped on it without marking the index as mapped. A dump of
    this index under the base name opens the file with truncate (hnswio.rs l.205-225), and its vectors, still to be written,
    are gone. *)
Theorem C102_own_file_refuted :
  exists (dist : list byte -> list byte -> Z) so inv_ln M ml ef hist h (el : elem byte) dname cwd fs fs' dir base io dm h2 mapped,
    StdLaws so /\ (forall a b, (0 <= dist a b)%Z) /\ built dist so inv_ln M ml ef hist h /\
    dump_ready el dname ml hist h /\ file_dump el dname cwd fs dir base [] h = (fs', Ok base) /\
    reused dir base io /\ io_datamap io = Some dm /\
    load_hnsw_with_dist so el inv_ln dname cwd fs' io = Ok (h2, mapped) /\ mapped <> [] /\
    dump_basename cwd fs' dir base (negb (datamap_opt h2)) [] = Ok base /\
    seen el dm mapped [] h2 = UB.
Proof.
  exists dB, simple_ops, one_scale, 2%nat, 16%nat, 10%nat, (fst <$> exb_points), exb, el_u8, l1_name, cwd0, fs0,
    exb_fs, tmp_dir, "b", (io_after_load el_u8 l1_name cwd0 exb_fs (io_new_with_options tmp_dir "b" (ro_new true))), dmx.
  do 2 eexists. split; [exact simple_laws|]. split; [exact dB_nonneg|]. split; [exact exb_built|].
  split; [exact exb_ready|]. split; [exact exb_dumped|]. split; [apply reused_load, reused_with|].
  split; [vm_compute; reflexivity|]. split; [vm_compute; reflexivity|]. split; [done|]. split; vm_compute; reflexivity.
Qed.
Print Assumptions C102_own_file_refuted.

(** The hypotheses of C102_mapped_vectors_partial are met: exb dumped under "b", loaded mapped, one more insertion into the
    mapped index, which is then dumped under the same name; the dump takes another name and searches go on as before. *)
Definition exb_map : hnsw (T:=byte) * list pid := Eval vm_compute in
  the (exb, []) (load_hnsw simple_ops el_u8 one_scale l1_name cwd0 exb_fs (io_new_with_options tmp_dir "b" (ro_new true))).
Definition exb_map1 : hnsw (T:=byte) := Eval vm_compute in the exb (insert_slice dB simple_ops (fst exb_map) [x32; x06] 15%N (lv 0)).
Example C102_example : exists dm h0 mapped h1 fs'' name,
  from_hnswdump el_u8 cwd0 exb_fs tmp_dir "b" = Ok dm /\
  load_hnsw simple_ops el_u8 one_scale l1_name cwd0 exb_fs (io_new_with_options tmp_dir "b" (ro_new true)) = Ok (h0, mapped) /\
  length mapped = 5%nat /\ evolves dB simple_ops h0 h1 /\ get_nb_point h1 <> get_nb_point h0 /\
  file_dump el_u8 l1_name cwd0 exb_fs tmp_dir "b" [7%N] h1 = (fs'', Ok name) /\ name <> "b" /\
  calm (resolve cwd0 (data_file tmp_dir "b")) exb_fs fs'' /\
  (forall q k ef, search_at el_u8 dB simple_ops dm mapped (resolve cwd0 (data_file tmp_dir "b")) fs'' h1 q k ef =
     search dB simple_ops h1 q k ef).
Proof.
  destruct (C102_mapped_vectors_partial dB simple_ops simple_laws dB_nonneg one_scale 2 16 10 (fst <$> exb_points) exb exb_built)
    with (el := el_u8) (dname := l1_name) (cwd := cwd0) (fs := fs0) (dir := tmp_dir) (base := "b") (draws := @nil N) (fs' := exb_fs)
    (name := "b") (opts := ro_new true) (dname' := l1_name) (c := "DistL1") as (dm & h0 & mapped & E1 & E2 & H);
    [lia|exact exb_ready|done|exact exb_uniform|exact exb_distinct|exact exb_dumped|by left|exact l1_short|exact l1_short|done|].
  assert (Hl : load_hnsw simple_ops el_u8 one_scale l1_name cwd0 exb_fs (io_new_with_options tmp_dir "b" (ro_new true)) =
    Ok (fst exb_map, snd exb_map)) by (vm_compute; reflexivity).
  rewrite Hl in E2. injection E2 as <- <-.
  assert (Hev : evolves dB simple_ops (fst exb_map) exb_map1).
  { eapply ev_insert; [apply ev_refl|]. instantiate (1 := lv 0). instantiate (1 := 15%N). instantiate (1 := [x32; x06]).
    vm_compute. reflexivity. }
  assert (Hd : snd (file_dump el_u8 l1_name cwd0 exb_fs tmp_dir "b" [7%N] exb_map1) = Ok (suffixed "b" 7%N)) by (vm_compute; reflexivity).
  destruct (file_dump el_u8 l1_name cwd0 exb_fs tmp_dir "b" [7%N] exb_map1) as [fs'' r] eqn:Ef. cbn in Hd. subst r.
  assert (Hc : calm (resolve cwd0 (data_file tmp_dir "b")) exb_fs fs'') by (eapply calm_reloaded; [exact Hl|exact Hev|exact Ef]).
  exists dm, (fst exb_map), (snd exb_map), exb_map1, fs'', (suffixed "b" 7%N).
  split; [exact E1|]. split; [exact Hl|]. split; [done|]. split; [exact Hev|]. split; [by vm_compute|]. split; [exact Ef|].
  split; [by vm_compute|]. split; [exact Hc|]. apply (H _ Hev _ (rtc_once _ _ Hc)).
Qed.
Print Assumptions C102_example.
