(** Dump and reload of built indexes. *)
From Coq Require Import SpecFloat Strings.Byte Strings.String.
From stdpp Require Import strings sets.
From Verif Require Import Prelude Model Lib Table SearchProofs SelectProofs InsertProofs IterProofs.
From Verif Require Import Spec SpecProofs Io IoBase SpecIo SpecBuilt IoProofs IoProofs2 IoProofs3 IoProofs4 IoProofs5 BuiltProofs.

Section BuiltDump.
Context {T : Type} (dist : list T -> list T -> Z) (so : StdOps) (LAWS : StdLaws so).
Context (Hnn : forall a b : list T, (0 <= dist a b)%Z).
Context (inv_ln : nat -> f64) (M ml ef : nat) (hist : list (list T * dataid)) (h : hnsw (T:=T)).
Context (Hb : built dist so inv_ln M ml ef hist h).
Context (el : elem T) (dname : String.string) (Hr : dump_ready el dname ml hist h).

Lemma bd_wf : wf dist h.
Proof using All. by eapply built_wf. Qed.
Lemma bd_dumpable : dumpable dist el h.
Proof using All.
  destruct (built_facts dist so LAWS Hnn _ _ _ _ _ _ Hb) as (Hwf & Hml & _). destruct Hr.
  apply sized_dumpable; auto. rewrite Hml. unfold NB_LAYER_MAX. lia.
Qed.
Lemma bd_entry : exists ep, entry_point h = Some ep.
Proof using All.
  destruct (built_entry dist so LAWS Hnn _ _ _ _ _ _ Hb) as [(-> & _)|(_ & H)]; [|done].
  by destruct (dr_points _ _ _ _ _ Hr).
Qed.
Lemma bd_ids : pt_oid <$> all_points h ≡ₚ hist.*2.
Proof using All.
  destruct (built_facts dist so LAWS Hnn _ _ _ _ _ _ Hb) as (_ & _ & _ & _ & Hst & _).
  rewrite <- Hst. unfold stored. rewrite <- list_fmap_compose. done.
Qed.
Lemma bd_nodup : distinct_ids hist -> NoDup (pt_oid <$> all_points h).
Proof using All. unfold distinct_ids. by rewrite bd_ids. Qed.
Lemma bd_uniform : uniform h -> uniform_table h.
Proof using All. destruct bd_entry as [ep Hep]. apply (uniform_dim dist Hnn h ep bd_wf Hep). Qed.
Lemma bd_res : w_res (dump el dname h Full) = Ok tt.
Proof using All.
  destruct bd_entry as [ep Hep]. destruct Hr. by apply (ready_res dist Hnn h el dname dr_elem bd_dumpable dr_dname dr_tname ep).
Qed.

Lemma bd_file_dump cwd fs dir base draws name :
  dump_basename cwd fs dir base (negb (datamap_opt h)) draws = Ok name ->
  exists fs', file_dump el dname cwd fs dir base draws h = (fs', Ok name).
Proof using All. intros H. unfold file_dump. rewrite H, bd_res. by eexists. Qed.

Section At.
Context (cwd : list String.string) (fs : fsys) (dir : path) (base : String.string).
Context (Hat : dump_at fs cwd dir base (w_graph (dump el dname h Full)) (w_data (dump el dname h Full))).

Lemma common_component dname' c : last_component dname c -> last_component dname' c ->
  exists c, rsplit_terminator dname' !! 0%nat = Some c /\ rsplit_terminator dname !! 0%nat = Some c.
Proof using. intros H1 H2. apply rsplit_last in H1, H2. eauto. Qed.

Lemma bd_plain dname' io : el_nodata el = false -> uniform h ->
  io_dir io = dir -> io_basename io = base -> ro_datamap (io_options io) = false ->
  (exists c, rsplit_terminator dname' !! 0%nat = Some c /\ rsplit_terminator dname !! 0%nat = Some c) ->
  exists ep, entry_point h = Some ep /\
    load_hnsw so el inv_ln dname' cwd fs io = Ok (reloaded h so inv_ln ep pt_data true, []).
Proof using All.
  intros Hn Hu E1 E2 Ho Hc. destruct bd_entry as [ep Hep]. exists ep. split; [done|].
  destruct Hr. eapply (reload_plain dist Hnn h el dname); eauto using bd_dumpable, bd_uniform.
Qed.
Lemma bd_with_dist io : el_nodata el = false -> uniform h ->
  io_dir io = dir -> io_basename io = base -> ro_datamap (io_options io) = false ->
  exists ep, entry_point h = Some ep /\
    load_hnsw_with_dist so el inv_ln dname cwd fs io = Ok (reloaded h so inv_ln ep pt_data false, []).
Proof using All.
  intros Hn Hu E1 E2 Ho. destruct bd_entry as [ep Hep]. exists ep. split; [done|].
  destruct Hr. eapply (reload_plain_with_dist dist Hnn h el dname); eauto using bd_dumpable, bd_uniform.
Qed.
Lemma bd_mmap dname' io : el_nodata el = false -> uniform h -> distinct_ids hist -> plain_dir dir ->
  io_dir io = dir -> io_basename io = base -> ro_datamap (io_options io) = true ->
  (exists c, rsplit_terminator dname' !! 0%nat = Some c /\ rsplit_terminator dname !! 0%nat = Some c) ->
  exists ep, entry_point h = Some ep /\
    load_hnsw so el inv_ln dname' cwd fs io =
      Ok (reloaded h so inv_ln ep pt_data true, mapped_of h (io_options io) pt_data).
Proof using All.
  intros Hn Hu HD Hpd E1 E2 Ho Hc. destruct bd_entry as [ep Hep]. exists ep. split; [done|].
  destruct Hr. eapply (reload_mmap dist Hnn h el dname); eauto using bd_dumpable, bd_uniform, bd_nodup.
Qed.
Lemma bd_nodata {T'} (el' : elem T') dname' io : el_nodata el' = true ->
  io_dir io = dir -> io_basename io = base -> ro_datamap (io_options io) = false ->
  exists ep, entry_point h = Some ep /\
    load_hnsw so el' inv_ln dname' cwd fs io = Ok (reloaded h so inv_ln ep (fun _ => []) true, []) /\
    load_hnsw_with_dist so el' inv_ln dname' cwd fs io = Ok (reloaded h so inv_ln ep (fun _ => []) false, []).
Proof using All.
  intros Hn E1 E2 Ho. destruct bd_entry as [ep Hep]. exists ep. split; [done|].
  destruct Hr. eapply (reload_nodata dist Hnn h el dname); eauto using bd_dumpable.
Qed.
Lemma bd_from_dump : uniform h -> plain_dir dir ->
  exists m, from_hnswdump el cwd fs dir base =
      Ok (DataMap (w_data (dump el dname h Full)) m (el_name el) (N.of_nat (get_data_dimension h)) dname) /\
    map_ok el (w_data (dump el dname h Full)) (all_points h) m /\
    (distinct_ids hist -> fst <$> m = pt_oid <$> all_points h).
Proof using All.
  intros Hu Hpd. destruct bd_entry as [ep Hep]. pose proof Hr as [R1 R2 R3 R4 R5 R6].
  destruct (ready_datamap dist Hnn h el dname R1 bd_dumpable R2 R3 ep Hep cwd fs dir base Hat (bd_uniform Hu)) as (m & H1 & H2 & H3).
  exists m. rewrite (ready_from_dump dist Hnn h el dname R1 bd_dumpable R2 R3 ep Hep cwd fs dir base Hat Hpd).
  split; [exact H1|]. split; [exact H2|]. auto using bd_nodup.
Qed.

(** what the reloaded index shows *)
Lemma bd_shows dmo ep : entry_point h = Some ep ->
  same_graph h (reloaded h so inv_ln ep pt_data dmo) /\ same_vectors h (reloaded h so inv_ln ep pt_data dmo) /\
  (order_kept so h -> same_lists h (reloaded h so inv_ln ep pt_data dmo)).
Proof using All.
  intros Hep. split_and!.
  - by apply (relink_same_graph dist Hnn so LAWS h bd_wf ep Hep pt_data).
  - by apply (relink_same_vectors dist Hnn so LAWS h bd_wf ep Hep).
  - by apply (relink_same_lists dist Hnn so LAWS h bd_wf ep Hep pt_data).
Qed.
Lemma bd_search dmo ep q k efa f : entry_point h = Some ep -> order_kept so h ->
  search_filter dist so (reloaded h so inv_ln ep pt_data dmo) q k efa f = search_filter dist so h q k efa f.
Proof using All.
  intros Hep Hk. apply search_filter_same; [|by rewrite Hep].
  by apply (relink_id dist Hnn so LAWS h bd_wf ep Hep).
Qed.
End At.
End BuiltDump.
