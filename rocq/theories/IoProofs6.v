(** Reloads that ask for mapped vectors without a data map: they panic at the first point. Addresses in data maps. *)
From Coq Require Import SpecFloat Strings.Byte Strings.String.
From stdpp Require Import strings sets.
From Verif Require Import Prelude Model Lib Table SearchProofs SelectProofs InsertProofs IterProofs.
From Verif Require Import Spec SpecProofs Io IoBase SpecIo SpecBuilt IoProofs IoProofs2 IoProofs3 IoProofs4 IoProofs5 BuiltProofs ReloadProofs.

Section Dies.
Context {T : Type} (dist : list T -> list T -> Z) (Hnn : forall a b : list T, (0 <= dist a b)%Z).
Context (h : hnsw (T:=T)) (el : elem T) (dname : String.string).
Context (Hel : elem_ok el) (Hd : dumpable dist el h) (Hdn : name_ok dname) (Htn : name_ok (el_name el)).
Context {T' : Type} (so : StdOps) (el' : elem T') (inv_ln : nat -> f64).
Context (opts : reload_options) (Ho : ro_datamap opts = true).
Context (Hth : (as_i64 (ro_threshold opts) < Z.of_nat (nb_point h))%Z).

Lemma dies_point p pt : get_pt h p = Some pt -> dies (load_point el' None (de_read el h dname) true) (ptg h pt) (ptd el pt).
Proof using All.
  intros Hp. unfold load_point. rewrite <- (app_nil_r (ptg h pt)).
  eapply dies_bind_g; [by eapply (pars_point_graph dist el)|]. cbv beta iota.
  rewrite <- (app_nil_r (ptd el pt)).
  eapply (dies_bind _ _ [] [] _ []); [by eapply (pars_record dist el Hel h)|]. apply dies_first, dies_lift.
Qed.

Lemma dies_layers ls : forall l, 
  (forall i r ly pt, ls !! i = Some ly -> ly !! r = Some pt -> get_pt h (l + i, r)%nat = Some pt) ->
  (forall ly, ly ∈ ls -> (N.of_nat (length ly) < 2 ^ 64)%N) -> (0 < sum_list (length <$> ls))%nat ->
  dies (load_layers el' None opts (de_read el h dname) (length ls) l (Z.of_nat (nb_point h)))
    (concat (lyg h <$> ls)) (concat (lyd el <$> ls)).
Proof using All.
  induction ls as [|ly ls IH]; intros l H Hlen Hs; [simpl in Hs; lia|].
  cbn [length load_layers fmap list_fmap concat] in *.
  unfold lyg at 1. rewrite <- !app_assoc.
  eapply dies_bind_g; [apply pars_gnum; by vm_compute|]. rewrite N.eqb_refl. cbn [negb].
  eapply dies_bind_g; [apply pars_gnum, Hlen; by left|]. rewrite Nat2N.id.
  destruct ly as [|pt pts].
  - cbn [length load_points fmap list_fmap concat app]. unfold lyd at 1. cbn [fmap list_fmap concat app].
    eapply dies_bind_0; [apply pars_ret|]. cbv beta iota. apply dies_first. apply IH.
    + intros i r ly' pt Hi Hr. replace (S l + i)%nat with (l + S i)%nat by lia. by eapply H.
    + intros ly' Hin. apply Hlen. by right.
    + done.
  - apply dies_first. apply dies_more. unfold lyd. cbn [length load_points fmap list_fmap concat]. apply dies_first.
    apply dies_more. unfold point_use_mmap. rewrite Ho. replace (_ <=? _)%Z with false by lia. cbn [negb].
    eapply (dies_point (l + 0, 0)%nat). by eapply H.
Qed.

Lemma dies_indexation : (el_nodata el' = true \/ el_name el' = el_name el) -> (0 < nb_point h)%nat ->
  dies (load_point_indexation so el' None opts (de_read el h dname))
    (u8_bytes 16 ++ concat (lyg h <$> points_by_layer h) ++ entry_bytes h) (concat (lyd el <$> points_by_layer h)).
Proof using All.
  intros Hname Hpos. unfold load_point_indexation. cbn [de_t_name de_read].
  replace (negb (el_nodata el') && negb (String.eqb (el_name el') (el_name el))) with false.
  2:{ destruct Hname as [-> | ->]; [done|]. rewrite String.eqb_refl. by rewrite andb_false_r. }
  eapply dies_bind_g; [apply pars_gnum; by vm_compute|].
  change (N.of_nat NB_LAYER_MAX <? 16)%N with false. cbv iota.
  assert (Hcnt : as_i64 (de_nb_point (de_read el h dname)) = Z.of_nat (nb_point h)).
  { cbn [de_nb_point de_read]. unfold as_i64. pose proof (du_nb _ _ _ Hd).
    replace (N.of_nat (nb_point h) <? 2 ^ 63)%N with true by lia. lia. }
  pose proof (l_count _ _ (du_wf _ _ _ Hd)) as Hcount.
  rewrite <- (app_nil_r (concat (lyd el <$> points_by_layer h))).
  apply dies_first, dies_more. rewrite Hcnt.
  replace (N.to_nat 16) with (length (points_by_layer h))
    by (rewrite (c_len _ _ (l_core _ _ (du_wf _ _ _ Hd))), (du_layers _ _ _ Hd); done).
  apply dies_layers.
  - intros; by eapply table_get.
  - intros ly Hin. apply elem_of_list_lookup in Hin as [i Hi].
    pose proof (layer_length_le h i ly Hi). pose proof (du_nb _ _ _ Hd). lia.
  - rewrite Hcount in Hpos. exact Hpos.
Qed.

Lemma dies_header {A} (k : description -> rd A) g d : dies (k (de_read el h dname)) g d ->
  dies (rbind load_header k) (descg el h dname ++ g) (headd h ++ d).
Proof using All.
  intros Hk. eapply dies_bind; [|exact Hk].
  pose proof (pars_header dist el Hel h Hd dname Hdn Htn (A := description) rret [] [] (de_read el h dname) (pars_ret _)) as H.
  rewrite !app_nil_r in H. intros g' d'. specialize (H g' d'). unfold rbind in H.
  destruct (load_header _) as [[de s]| | | | |]; try done.
Qed.

Lemma dies_load_with_dist dname' : (el_nodata el' = true \/ (el_name el' = el_name el /\ dname' = dname)) -> (0 < nb_point h)%nat ->
  dies (load_with_dist_rd so el' inv_ln dname' None opts) (w_graph (dump el dname h Full)) (w_data (dump el dname h Full)).
Proof using All.
  intros Hty Hpos. rewrite (dump_eq dist el Hel h Hd dname Hdn Htn). cbn [w_graph w_data]. unfold load_with_dist_rd. apply dies_header.
  replace (negb (el_nodata el') && negb (String.eqb dname' (de_distname (de_read el h dname)))) with false.
  2:{ destruct Hty as [->|[_ ->]]; [done|]. cbn [de_distname de_read]. by rewrite String.eqb_refl, andb_false_r. }
  apply dies_first, dies_indexation; [|done]. destruct Hty as [?|[? _]]; auto.
Qed.
Lemma dies_load_nodata dname' mk : el_nodata el' = true -> mk = Err -> (0 < nb_point h)%nat ->
  dies (load_rd so el' inv_ln dname' None opts mk) (w_graph (dump el dname h Full)) (w_data (dump el dname h Full)).
Proof using All.
  intros Hnd -> Hpos. rewrite (dump_eq dist el Hel h Hd dname Hdn Htn). cbn [w_graph w_data]. unfold load_rd. apply dies_header.
  rewrite Hnd. eapply dies_bind_0; [apply pars_ret|]. cbn [negb]. eapply dies_bind_0 with (a := None).
  { apply pars_lift. unfold choose_datamap. by rewrite Ho. }
  apply dies_first, dies_indexation; [|done]. auto.
Qed.
End Dies.

(** a data map for another type name is refused *)
Lemma datamap_other {T} (dist : list T -> list T -> Z) (h : hnsw (T:=T)) (el : elem T) dname
  (Hel : elem_ok el) (Hd : dumpable dist el h) (Hdn : name_ok dname) (Htn : name_ok (el_name el)) {T'} (el' : elem T') d :
  el_name el' <> el_name el -> datamap_of el' (w_graph (dump el dname h Full)) d = Err.
Proof.
  intros Hne. unfold datamap_of.
  pose proof (pars_descg dist el Hel h Hd dname Hdn Htn) as Hdesc.
  rewrite (dump_eq dist el Hel h Hd dname Hdn Htn). cbn [w_graph].
  pose proof (pars_panic _ _ _ _ Hdesc (u8_bytes 16 ++ concat (lyg h <$> points_by_layer h) ++ entry_bytes h) []) as HP.
  cbn [app] in HP. rewrite HP. cbn [mbind outcome_bind format_version de_read]. change (4 <=? 2)%N with false. cbv iota.
  change (de_t_name (de_read el h dname)) with (el_name el). destruct (String.eqb_spec (el_name el') (el_name el)); [done|]. reflexivity.
Qed.

(** addresses *)
Lemma bd_offsets {T} (dist : list T -> list T -> Z) so (LAWS : StdLaws so) (Hnn : forall a b : list T, (0 <= dist a b)%Z)
  inv_ln M ml ef hist h (Hb : built dist so inv_ln M ml ef hist h) el dname (Hr : dump_ready el dname ml hist h)
  cwd fs dir base (Hat : dump_at fs cwd dir base (w_graph (dump el dname h Full)) (w_data (dump el dname h Full))) :
  uniform h -> plain_dir dir -> distinct_ids hist ->
  exists dm, from_hnswdump el cwd fs dir base = Ok dm /\
    forall i pt, all_points h !! i = Some pt ->
      dm_offset dm (pt_oid pt) = Some (32 + i * (20 + get_data_dimension h * el_size el))%nat.
Proof.
  intros Hu Hpd HD.
  pose proof (bd_dumpable dist so LAWS Hnn _ _ _ _ _ _ Hb el dname Hr) as Hdu.
  destruct (bd_entry dist so LAWS Hnn _ _ _ _ _ _ Hb el dname Hr) as [ep Hep].
  pose proof (bd_uniform dist so LAWS Hnn _ _ _ _ _ _ Hb el dname Hr Hu) as Hut.
  pose proof (bd_nodup dist so LAWS Hnn _ _ _ _ _ _ Hb el dname Hr HD) as HND.
  destruct Hr as [R1 R2 R3 R4 R5 R6].
  destruct (datamap_ok_addr dist el R1 h Hdu dname R2 R3 Hut _ _ eq_refl eq_refl) as (m & H1 & H2 & H3 & H4).
  rewrite (ready_from_dump dist Hnn h el dname R1 Hdu R2 R3 ep Hep cwd fs dir base Hat Hpd).
  eexists. split; [exact H1|]. intros i pt Hi. unfold dm_offset. cbn [dm_map].
  apply (recs_lookup el h _ 12) in Hi. rewrite <- (H4 HND) in Hi.
  destruct (imap_get (pt_oid pt) m) as [a|] eqn:E.
  - apply imap_get_elem, elem_of_list_lookup in E as [j Hj].
    assert (i = j) as ->.
    { eapply NoDup_lookup; [exact (proj1 H2)|..]; rewrite list_lookup_fmap; [by rewrite Hi|by rewrite Hj]. }
    rewrite Hi in Hj. injection Hj as <-. simpl. f_equal. lia.
  - apply imap_get_none in E. destruct E. apply elem_of_list_lookup_2 in Hi. by apply (elem_of_list_fmap_1 fst) in Hi.
Qed.
