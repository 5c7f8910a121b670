(** Property C103: damage to a dump is noticed. *)
From Coq Require Import SpecFloat Strings.Byte Strings.String.
From stdpp Require Import strings sets relations.
From Verif Require Import Prelude Model StdInst Lib Table SearchProofs InsertProofs IterProofs Spec SpecProofs Io IoBase
  SpecIo SpecBuilt IoProofs IoProofs2 IoProofs3 IoProofs4 IoProofs5 BuiltProofs ReloadProofs SpecFile FileProofs Examples ExamplesIo PropsIo PropsIo2
  PropsFile SpecDamage DamageProofs DamageProofs2.
Local Open Scope list_scope.
Notation length := List.length.

Lemma dump_at_det fs cwd dir name g d g' d' : dump_at fs cwd dir name g d -> dump_at fs cwd dir name g' d' -> g' = g /\ d' = d.
Proof. intros [A B] [A' B']. split; congruence. Qed.

(** the contents of a dump *)
Lemma dumped_text {T} (dist : list T -> list T -> Z) so : StdLaws so -> (forall a b, (0 <= dist a b)%Z) ->
  forall inv_ln M ml ef hist h, built dist so inv_ln M ml ef hist h ->
  forall el dname, dump_ready el dname ml hist h -> el_nodata el = false -> uniform h ->
  forall cwd fs dir base draws fs' name, file_dump el dname cwd fs dir base draws h = (fs', Ok name) ->
  forall dname' c, last_component dname c -> last_component dname' c ->
  exists t h0, dump_at fs' cwd dir name (graph_text t) (data_text t) /\ load_hnsw so el inv_ln dname' cwd fs' (io_new dir name) = Ok (h0, []) /\
    fits t /\ sensible el t /\ stands_for so el inv_ln t h0 /\ datamap_opt h0 = true /\
    (exists c, rsplit_terminator dname' !! 0%nat = Some c /\ rsplit_terminator (tx_dist t) !! 0%nat = Some c) /\
    tx_version t <> 2%N /\ tx_dim t = N.of_nat (get_data_dimension h) /\
    rec_of <$> concat (tx_layers t) = (fun pt => (pt_oid pt, enc_vec el (pt_data pt))) <$> all_points h /\
    (forall pt, pt ∈ all_points h -> length (pt_data pt) = get_data_dimension h) /\ (N.of_nat (get_data_dimension h) < 2 ^ 64)%N.
Proof.
  intros LAWS Hnn inv_ln M ml ef hist h Hb el dname Hr Hnd Hu cwd fs dir base draws fs' name Hf dname' c Hc Hc'.
  destruct (C27_reload dist so LAWS Hnn inv_ln M ml ef hist h Hb el dname Hr Hnd Hu cwd fs dir base draws fs' name Hf dname' c Hc Hc')
    as (h1 & _ & HL & _).
  pose proof HL as HL0. destruct (C80_accepted_exactly so LAWS el inv_ln dname' cwd fs' (io_new dir name) h1 [] eq_refl) as [HA _].
  apply HA in HL as (t & rest & rest' & Hat & F & S & Hn & G & E1 & _). cbn [io_dir io_basename io_new io_new_with_options] in Hat.
  assert (Hnil : rest = [] /\ rest' = []).
  { destruct (decide (rest = [] /\ rest' = [])) as [?|Hne]; [done|exfalso].
    pose (fs2 := fs_write (fs_write fs' cwd (graph_file dir name) (graph_text t)) cwd (data_file dir name) (data_text t)).
    assert (Hat2 : dump_at fs2 cwd dir name (graph_text t) (data_text t)).
    { unfold fs2. split; [rewrite fs_write_other by (apply graph_data_ne)|]; apply fs_write_same. }
    destruct (C31_truncated dist so LAWS Hnn inv_ln M ml ef hist h Hb el dname Hr cwd fs dir base draws fs' name Hf
      (graph_text t) (data_text t) rest rest' fs2 Hat ltac:(by destruct rest, rest'; auto) Hat2 so el inv_ln dname' (io_new dir name) eq_refl eq_refl (h1, [])) as [HH _].
    apply HH. destruct (C80_accepted_exactly so LAWS el inv_ln dname' cwd fs2 (io_new dir name) h1 [] eq_refl) as [HA2 _].
    apply HA2. exists t, [], []. rewrite !app_nil_r. done. }
  destruct Hnil as [-> ->]. rewrite !app_nil_r in Hat. exists t, h1. split; [done|]. split; [done|]. split; [done|]. split; [done|]. split; [done|].
  split; [done|]. split; [by destruct Hn as [Hn|Hn]; [congruence|]|].
  apply file_dump_at in Hf as [Hat' _]. destruct (dump_at_det _ _ _ _ _ _ _ _ Hat Hat') as [Eg Ed].
  pose proof (bd_dumpable dist so LAWS Hnn _ _ _ _ _ _ Hb el dname Hr) as Hdu.
  pose proof (bd_uniform dist so LAWS Hnn _ _ _ _ _ _ Hb el dname Hr Hu) as Hut.
  destruct Hr as [R1 R2 R3 R4 R5 R6].
  rewrite (dump_eq dist el R1 h Hdu dname R2 R3) in Eg, Ed. cbn [w_graph w_data] in Eg, Ed.
  assert (Hdim : (N.of_nat (get_data_dimension h) < 2 ^ 64)%N) by apply (dim_lt dist el h Hdu).
  assert (Hall : forall pt, pt ∈ all_points h -> exists p, get_pt h p = Some pt) by (intros pt; apply elem_of_all_points).
  split; [|split].
  - intros E2. unfold graph_text, head_text in Eg. rewrite E2 in Eg. unfold descg, description_dump, wseq, wout in Eg.
    cbn [w_graph w_res] in Eg. revert Eg. destruct (de_nb_layer _ =? _)%N; cbn [w_graph w_res app]; rewrite <- ?app_assoc; intros Eg;
      (apply u32_inj in Eg as [Eg _]; [|done..]); done.
  - rewrite data_text_recs in Ed. unfold headd in Ed. rewrite <- app_assoc in Ed. apply u32_inj in Ed as [_ Ed]; [|done..].
    apply u64_inj in Ed as [Ed _]; [done|done|apply F].
  - split; [|split; [|done]].
    + rewrite data_text_recs in Ed. unfold headd in Ed. rewrite <- app_assoc in Ed. apply u32_inj in Ed as [_ Ed]; [|done..].
      apply u64_inj in Ed as [_ Ed]; [|done|apply F]. rewrite (concat_lyd el h) in Ed.
      symmetry. apply recs_eq; [|by apply text_recs_fit|].
      * apply Forall_forall. intros r (pt & -> & Hin)%elem_of_list_fmap. destruct (Hall pt Hin) as [p Hp].
        destruct (du_pt _ _ _ Hdu _ _ Hp) as (_ & ? & _ & ?). split; [done|]. cbn [snd]. by rewrite (enc_vec_length el R1).
      * rewrite <- list_fmap_compose. exact Ed.
    + intros pt (p & Hp)%Hall. by eapply Hut.
Qed.

(** C103, damage to the data file. The file has 12 bytes of heading and, for each point, 20 bytes and a vector. Take any other file of the same length: the
    reload accepts it exactly when it agrees with the dumped file outside of the vectors, and gives then the index of the intact files with the vectors
    that the bytes stand for. *)
Theorem C103_data_damage :
  forall {T} (dist : list T -> list T -> Z) so, StdLaws so -> (forall a b, (0 <= dist a b)%Z) ->
  forall inv_ln M ml ef hist h, built dist so inv_ln M ml ef hist h ->
  forall el dname, dump_ready el dname ml hist h -> el_nodata el = false -> uniform h ->
  forall cwd fs dir base draws fs' name, file_dump el dname cwd fs dir base draws h = (fs', Ok name) ->
  forall dname' c, last_component dname c -> last_component dname' c ->
  let load fs := load_hnsw so el inv_ln dname' cwd fs (io_new dir name) in
  let s := (get_data_dimension h * el_size el)%nat in
  exists g d h0, dump_at fs' cwd dir name g d /\ load fs' = Ok (h0, []) /\ length d = (12 + get_nb_point h * (20 + s))%nat /\
    forall d' fs'', length d' = length d -> dump_at fs'' cwd dir name g d' ->
      ((exists x, load fs'' = Ok x) <-> forall i, ~ in_vector s i -> d' !! i = d !! i) /\
      forall h1 mapped, load fs'' = Ok (h1, mapped) -> mapped = [] /\ same_but_vectors h0 h1 /\
        forall k pt, concat (points_by_layer h1) !! k = Some pt -> pt_data pt = dec_vec el (get_data_dimension h) (vector_bytes s k d').
Proof.
  intros T dist so LAWS Hnn inv_ln M ml ef hist h Hb el dname Hr Hnd Hu cwd fs dir base draws fs' name Hf dname' c Hc Hc' load s.
  destruct (dumped_text dist so LAWS Hnn inv_ln M ml ef hist h Hb el dname Hr Hnd Hu cwd fs dir base draws fs' name Hf dname' c Hc Hc')
    as (t & h0 & Hat & HL & F & S & G & Edm & Hn & Hv & Edim & Erecs & Hlen & Hd64).
  pose proof (dr_elem _ _ _ _ _ Hr) as Hel.
  set (rs := rec_of <$> concat (tx_layers t)) in *.
  assert (Hrs : Forall (fun r : dataid * bytes => length r.2 = s) rs).
  { rewrite Erecs. apply Forall_forall. intros r (pt & -> & Hin)%elem_of_list_fmap. cbn [snd]. rewrite (enc_vec_length el Hel). by rewrite (Hlen pt Hin). }
  assert (Ed : data_text t = (u32_bytes 0xa67f0000 ++ u64_bytes (tx_dim t)) ++ concat (rec_text <$> rs)) by (by rewrite data_text_recs, <- app_assoc).
  set (hd := u32_bytes 0xa67f0000 ++ u64_bytes (tx_dim t)) in *. assert (Lhd : length hd = 12%nat) by done.
  assert (Lrs : length rs = length (concat (tx_layers t))) by apply fmap_length.
  exists (graph_text t), (data_text t), h0. split; [done|]. split; [done|]. split.
  { rewrite Ed, app_length, Lhd, (recs_len _ s) by done. do 2 f_equal. rewrite Erecs, fmap_length.
    destruct (built_facts dist so LAWS Hnn _ _ _ _ _ _ Hb) as (Hwf & _). unfold get_nb_point. rewrite all_points_length. symmetry. apply (l_count _ _ (wf_lwf _ _ Hwf)). }
  intros d' fs'' Ld Hat''.
  (* what an accepted file is *)
  assert (Hacc : forall h1 mapped, load fs'' = Ok (h1, mapped) -> exists t', graph_text t' = graph_text t /\ d' = data_text t' /\ fits t' /\ same_text t t' /\
    Forall (fun r : dataid * bytes => length r.2 = s) (rec_of <$> concat (tx_layers t')) /\ stands_for so el inv_ln t' h1 /\ datamap_opt h1 = true /\ mapped = []).
  { intros h1 mapped H. destruct (C80_accepted_exactly so LAWS el inv_ln dname' cwd fs'' (io_new dir name) h1 mapped eq_refl) as [HA _].
    apply HA in H as (t' & rest & rest' & Hat' & F' & S' & _ & G' & E1 & E2). cbn [io_dir io_basename io_new io_new_with_options] in Hat'.
    destruct (dump_at_det _ _ _ _ _ _ _ _ Hat'' Hat') as [Eg Ed']. rewrite <- (app_nil_r (graph_text t)) in Eg. symmetry in Eg, Ed'.
    apply graph_inj in Eg as [Hst <-]; [|done|done|apply S|apply S'|apply S|apply S']. rewrite app_nil_r in Hat'.
    assert (EG : graph_text t' = graph_text t) by (destruct Hat'', Hat'; congruence).
    exists t'. split; [done|].
    assert (Hlong : Forall (fun r : dataid * bytes => (s <= length r.2)%nat) (rec_of <$> concat (tx_layers t'))).
    { apply Forall_forall. intros r (p & -> & Hp)%elem_of_list_fmap. apply elem_of_list_lookup in Hp as [i Hi].
      destruct (Forall2_lookup_l _ _ _ _ _ (stands_concat _ _ _ _ _ G') Hi) as (pt & _ & Hsp & _). unfold spelled in Hsp.
      rewrite Hnd, (st_version _ _ Hst), (proj2 (N.eqb_neq _ _) Hv), (st_dim _ _ Hst), Edim in Hsp. destruct Hsp as [Hsp _]. cbn [rec_of snd]. unfold s. lia. }
    pose proof (same_tp_concat _ _ (st_layers _ _ Hst)) as HC. pose proof (Forall2_length _ _ _ HC) as EC.
    assert (Ed2 : data_text t' = hd ++ concat (rec_text <$> (rec_of <$> concat (tx_layers t')))) by (rewrite data_text_recs, (st_dim _ _ Hst); unfold hd; by rewrite <- app_assoc).
    assert (HT : Forall (fun r : dataid * bytes => length r.2 = s) (rec_of <$> concat (tx_layers t')) /\ rest' = []).
    { assert (LL : (length (concat (rec_text <$> (rec_of <$> concat (tx_layers t')))) + length rest' = length (rec_of <$> concat (tx_layers t')) * (20 + s))%nat).
      { rewrite Ed', Ed2, Ed, !app_length, (recs_len rs s) in Ld by done. rewrite fmap_length, <- EC, <- Lrs. lia. }
      split; [apply recs_tight; [done|lia]|]. pose proof (recs_long _ _ Hlong). apply nil_length_inv. lia. }
    destruct HT as [HT ->]. rewrite app_nil_r in Ed'. done. }
  split; [split|].
  - intros [[h1 mapped] H] i Hi. destruct (Hacc h1 mapped H) as (t' & _ & -> & F' & Hst & HT & _).
    rewrite Ed, data_text_recs, (st_dim _ _ Hst), app_assoc. fold hd. destruct (decide (i < 12)%nat) as [Hlt|Hge]; [by rewrite !lookup_app_l by lia|].
    rewrite !lookup_app_r by lia. rewrite Lhd. apply (recs_agree s); [|done|done|].
    + unfold rs. rewrite <- !list_fmap_compose. symmetry. symmetry. exact (same_tp_ids _ _ (same_tp_concat _ _ (st_layers _ _ Hst))).
    + destruct (decide ((i - 12) mod (20 + s) < 20)%nat); [done|]. destruct Hi. split; lia.
  - intros Hag. rewrite Ed in Hag, Ld. rewrite app_length, Lhd in Ld.
    assert (E12 : take 12 d' = hd).
    { apply list_eq. intros i. destruct (decide (i < 12)%nat).
      - rewrite lookup_take by done. rewrite Hag by (intros [? _]; lia). by rewrite lookup_app_l by lia.
      - rewrite !lookup_ge_None_2; [done|rewrite Lhd; lia|rewrite take_length; lia]. }
    destruct (agree_recs s rs (drop 12 d')) as (rs' & E1 & Hs & E2); [done|rewrite drop_length; lia|..].
    { intros i Hi. rewrite lookup_drop, Hag.
      - rewrite lookup_app_r by lia. f_equal. lia.
      - intros [_ Hx]. replace (12 + i - 12)%nat with i in Hx by lia. lia. }
    assert (Lrs' : length rs'.*2 = length (concat (tx_layers t))).
    { rewrite fmap_length, <- Lrs. rewrite <- (fmap_length fst rs'), E1. apply fmap_length. }
    assert (Hfit : Forall (fun b : bytes => (N.of_nat (length b) < 2 ^ 64)%N) rs'.*2).
    { apply Forall_forall. intros b (r & -> & Hin)%elem_of_list_fmap. rewrite (proj1 (Forall_forall _ _) Hs r Hin).
      assert (Hne : rs <> []). { intros E0. rewrite E0 in E1. destruct rs'; [by apply elem_of_nil in Hin|done]. }
      pose proof (text_recs_fit t F) as HF. fold rs in HF. destruct rs as [|r0 rs0]; [done|]. apply Forall_cons in HF as [[_ HF] _].
      apply Forall_cons in Hrs as [Hrs _]. by rewrite Hrs in HF. }
    exists (set_layers (redo (put_vector el (N.to_nat (tx_dim t))) (points_by_layer h0) rs'.*2) h0, []).
    apply (C80_accepted_exactly so LAWS el inv_ln dname' cwd fs'' (io_new dir name) _ [] eq_refl).
    exists (with_bytes t rs'.*2), [], []. rewrite !app_nil_r, with_graph by done. split.
    { rewrite with_data by (etrans; [exact E1|]; unfold rs; by rewrite <- list_fmap_compose). rewrite <- E2, app_assoc. fold hd. rewrite <- E12, take_drop. done. }
    split; [by apply with_fits|]. split; [by apply with_sensible|]. split; [by right|]. split; [|done]. apply with_stands; [done|done|done| |done].
    apply Forall_forall. intros b (r & -> & Hin)%elem_of_list_fmap. rewrite (proj1 (Forall_forall _ _) Hs r Hin), Edim. unfold s. lia.
  - intros h1 mapped H. destruct (Hacc h1 mapped H) as (t' & _ & -> & F' & Hst & HT & G' & E1 & E2). split; [done|].
    split; [eapply stands_same; [done|done|done|congruence]|]. intros k pt Hk.
    destruct (Forall2_lookup_r _ _ _ _ _ (stands_concat _ _ _ _ _ G') Hk) as (p & Hp & Hsp & _). unfold spelled in Hsp.
    rewrite Hnd, (st_version _ _ Hst), (proj2 (N.eqb_neq _ _) Hv), (st_dim _ _ Hst), Edim in Hsp. destruct Hsp as [_ ->]. rewrite Nat2N.id. f_equal.
    unfold vector_bytes. rewrite data_text_recs, (st_dim _ _ Hst), app_assoc. fold hd.
    rewrite drop_app_ge by (rewrite Lhd; lia). rewrite Lhd. replace (12 + k * (20 + s) + 20 - 12)%nat with (k * (20 + s) + 20)%nat by lia.
    rewrite (recs_vector s _ k (rec_of p)); [done|done|]. rewrite list_lookup_fmap, Hp. done.
Qed.
Print Assumptions C103_data_damage.

(** C103, damage to the graph file. Whatever the graph file has become, as long as it does not announce the old format 2: if the reload accepts it with the
    intact data file, the points come one after the other with the ids and vectors of the dumped ones, none invented or mixed up. (Layers, lists of
    neighbours and parameters are not protected, see the refutation.) *)
Theorem C103_graph_damage_partial :
  forall {T} (dist : list T -> list T -> Z) so, StdLaws so -> (forall a b, (0 <= dist a b)%Z) ->
  forall inv_ln M ml ef hist h, built dist so inv_ln M ml ef hist h ->
  forall el dname, dump_ready el dname ml hist h -> el_nodata el = false -> uniform h ->
  forall cwd fs dir base draws fs' name, file_dump el dname cwd fs dir base draws h = (fs', Ok name) ->
  forall dname' c, last_component dname c -> last_component dname' c ->
  exists g d, dump_at fs' cwd dir name g d /\
    forall g' fs'' dname'', dump_at fs'' cwd dir name g' d -> take 4 g' <> u32_bytes 0x002a677f ->
    forall h1 mapped, load_hnsw so el inv_ln dname'' cwd fs'' (io_new dir name) = Ok (h1, mapped) ->
    (get_nb_point h1 <= get_nb_point h)%nat /\
    forall k pt1, concat (points_by_layer h1) !! k = Some pt1 ->
      exists pt, concat (points_by_layer h) !! k = Some pt /\ pt_oid pt1 = pt_oid pt /\ pt_data pt1 = pt_data pt.
Proof.
  intros T dist so LAWS Hnn inv_ln M ml ef hist h Hb el dname Hr Hnd Hu cwd fs dir base draws fs' name Hf dname' c Hc Hc'.
  destruct (dumped_text dist so LAWS Hnn inv_ln M ml ef hist h Hb el dname Hr Hnd Hu cwd fs dir base draws fs' name Hf dname' c Hc Hc')
    as (t & h0 & Hat & HL & F & S & G & Edm & Hn & Hv & Edim & Erecs & Hlen & Hd64).
  pose proof (dr_elem _ _ _ _ _ Hr) as Hel.
  set (s := (get_data_dimension h * el_size el)%nat). set (rs := rec_of <$> concat (tx_layers t)) in *.
  assert (Hrs : Forall (fun r : dataid * bytes => length r.2 = s) rs).
  { rewrite Erecs. apply Forall_forall. intros r (pt & -> & Hin)%elem_of_list_fmap. cbn [snd]. rewrite (enc_vec_length el Hel). by rewrite (Hlen pt Hin). }
  exists (graph_text t), (data_text t). split; [done|]. intros g' fs'' dname'' Hat'' Hnot2 h1 mapped H.
  destruct (C80_accepted_exactly so LAWS el inv_ln dname'' cwd fs'' (io_new dir name) h1 mapped eq_refl) as [HA _].
  apply HA in H as (t' & rest & rest' & Hat' & F' & S' & _ & G' & _). cbn [io_dir io_basename io_new io_new_with_options] in Hat'.
  destruct (dump_at_det _ _ _ _ _ _ _ _ Hat'' Hat') as [Eg Ed].
  assert (Hv' : tx_version t' <> 2%N).
  { intros E2. apply Hnot2. rewrite <- Eg. unfold graph_text, head_text. rewrite E2, <- !app_assoc. rewrite take_app_alt; done. }
  rewrite !data_text_recs, <- !app_assoc in Ed. fold rs in Ed. apply u32_inj in Ed as [_ Ed]; [|done..].
  apply u64_inj in Ed as [Ed' Ed]; [|apply F'|apply F].
  set (rs' := rec_of <$> concat (tx_layers t')) in *.
  assert (Hlong : Forall (fun r : dataid * bytes => (s <= length r.2)%nat) rs').
  { apply Forall_forall. intros r (p & -> & Hp)%elem_of_list_fmap. apply elem_of_list_lookup in Hp as [i Hi].
    destruct (Forall2_lookup_l _ _ _ _ _ (stands_concat _ _ _ _ _ G') Hi) as (pt & _ & Hsp & _). unfold spelled in Hsp.
    rewrite Hnd, (proj2 (N.eqb_neq _ _) Hv'), Ed', Edim in Hsp. destruct Hsp as [Hsp _]. cbn [rec_of snd]. unfold s. lia. }
  assert (LL : (length rs' <= length rs)%nat).
  { pose proof (recs_long _ _ Hlong) as H1. pose proof (recs_len _ _ Hrs) as H2. apply (f_equal length) in Ed. rewrite app_length in Ed. nia. }
  assert (HK : exists k, rs' = take k rs).
  { apply (recs_inj rs rs' [] rest'); [by apply text_recs_fit|by apply text_recs_fit|done|]. by rewrite app_nil_r. }
  destruct HK as [k Hk]. split.
  { unfold get_nb_point. rewrite (sf_nb _ _ _ _ _ G'). destruct (built_facts dist so LAWS Hnn _ _ _ _ _ _ Hb) as (Hwf & _).
    rewrite (l_count _ _ (wf_lwf _ _ Hwf)), <- all_points_length.
    assert (E1 : length rs' = length (concat (tx_layers t'))) by apply fmap_length.
    assert (E2 : length rs = length (all_points h)) by (rewrite Erecs; apply fmap_length). lia. }
  intros i pt1 Hi. destruct (Forall2_lookup_r _ _ _ _ _ (stands_concat _ _ _ _ _ G') Hi) as (p & Hp & Hsp & Eo).
  assert (Hri : rs' !! i = Some (rec_of p)) by (unfold rs'; by rewrite list_lookup_fmap, Hp).
  rewrite Hk in Hri. apply lookup_take_Some in Hri as [Hri _]. rewrite Erecs, list_lookup_fmap in Hri.
  destruct (all_points h !! i) as [pt|] eqn:Hpt; [|done]. injection Hri as R1 R2. exists pt. split; [exact Hpt|]. split; [congruence|].
  unfold spelled in Hsp. rewrite Hnd, (proj2 (N.eqb_neq _ _) Hv'), Ed', Edim, Nat2N.id in Hsp. destruct Hsp as [_ ->].
  rewrite <- R2, <- (Hlen pt) by (by eapply elem_of_list_lookup_2). rewrite <- (app_nil_r (enc_vec _ _)). apply (dec_enc_vec el Hel).
Qed.
Print Assumptions C103_graph_damage_partial.

(** C103 is false as stated: there are no checksums. One byte of a vector, or one byte of a link, is changed: the reload accepts the files and the answers
    are others. *)
Definition gx : bytes := Eval vm_compute in match fs_read exb_fs cwd0 (graph_file tmp_dir "b") with Some g => g | None => [] end.
Definition dx : bytes := Eval vm_compute in match fs_read exb_fs cwd0 (data_file tmp_dir "b") with Some d => d | None => [] end.
Definition hurt_fs (g d : bytes) : fsys := fs_write (fs_write exb_fs cwd0 (graph_file tmp_dir "b") g) cwd0 (data_file tmp_dir "b") d.
Lemma hurt_at g d : dump_at (hurt_fs g d) cwd0 tmp_dir "b" g d.
Proof. unfold hurt_fs. split; [rewrite fs_write_other by (apply graph_data_ne)|]; apply fs_write_same. Qed.
Theorem C103_damage_refuted :
  exists (dist : list byte -> list byte -> Z) so inv_ln M ml ef hist h (el : elem byte) dname cwd fs fs' dir base g d h0,
    StdLaws so /\ (forall a b, (0 <= dist a b)%Z) /\ built dist so inv_ln M ml ef hist h /\ dump_ready el dname ml hist h /\ uniform h /\
    file_dump el dname cwd fs dir base [] h = (fs', Ok base) /\ dump_at fs' cwd dir base g d /\
    load_hnsw so el inv_ln dname cwd fs' (io_new dir base) = Ok (h0, []) /\
    (exists i b fs1 h1 q a0 a1, dump_at fs1 cwd dir base g (<[i:=b]> d) /\ load_hnsw so el inv_ln dname cwd fs1 (io_new dir base) = Ok (h1, []) /\
       search dist so h0 q 1 10 = Ok a0 /\ search dist so h1 q 1 10 = Ok a1 /\ (d_id <$> a0) <> (d_id <$> a1)) /\
    (exists i b fs2 h2 q a0 a2, dump_at fs2 cwd dir base (<[i:=b]> g) d /\ load_hnsw so el inv_ln dname cwd fs2 (io_new dir base) = Ok (h2, []) /\
       search dist so h0 q 1 1 = Ok a0 /\ search dist so h2 q 1 1 = Ok a2 /\ (d_id <$> a0) <> (d_id <$> a2)).
Proof.
  exists dB, simple_ops, one_scale, 2%nat, 16%nat, 10%nat, (fst <$> exb_points), exb, el_u8, l1_name, cwd0, fs0, exb_fs, tmp_dir, "b", gx, dx.
  eexists. split; [exact simple_laws|]. split; [exact dB_nonneg|]. split; [exact exb_built|]. split; [exact exb_ready|]. split; [exact exb_uniform|].
  split; [exact exb_dumped|]. split; [split; vm_compute; reflexivity|]. split; [vm_compute; reflexivity|]. split.
  - exists 32%nat, x63, (hurt_fs gx (<[32%nat:=x63]> dx)). eexists. exists [x00; x01]. do 2 eexists. split; [apply hurt_at|].
    split; [vm_compute; reflexivity|]. split; [vm_compute; reflexivity|]. split; [vm_compute; reflexivity|]. by vm_compute.
  - exists 822%nat, x01, (hurt_fs (<[822%nat:=x01]> gx) dx). eexists. exists [x05; x04]. do 2 eexists. split; [apply hurt_at|].
    split; [vm_compute; reflexivity|]. split; [vm_compute; reflexivity|]. split; [vm_compute; reflexivity|]. by vm_compute.
Qed.
Print Assumptions C103_damage_refuted.

(** The hypotheses of the two theorems are met by exb; what happens for some damages: the two of the refutation are accepted, a change of an id, of a length or
    of a mark in the data file is not. *)
Definition hurt_load (g d : bytes) : outcome unit :=
  fmap (M:=outcome) (fun _ => tt) (load_hnsw simple_ops el_u8 one_scale l1_name cwd0 (hurt_fs g d) (io_new tmp_dir "b")).
Example C103_example :
  built dB simple_ops one_scale 2 16 10 (fst <$> exb_points) exb /\ dump_ready el_u8 l1_name 16 (fst <$> exb_points) exb /\ el_nodata el_u8 = false /\ uniform exb /\
  last_component l1_name "DistL1" /\ file_dump el_u8 l1_name cwd0 fs0 tmp_dir "b" [] exb = (exb_fs, Ok "b") /\ dump_at exb_fs cwd0 tmp_dir "b" gx dx /\
  length dx = (12 + 5 * (20 + 2))%nat /\ in_vector 2 32 /\ in_vector 2 33 /\ ~ in_vector 2 34 /\
  hurt_load gx (<[32%nat:=x63]> dx) = Ok tt /\ hurt_load gx (<[33%nat:=x63]> dx) = Ok tt /\
  hurt_load gx (<[4%nat:=x63]> dx) <> Ok tt /\ hurt_load gx (<[16%nat:=x63]> dx) <> Ok tt /\ hurt_load gx (<[24%nat:=x01]> dx) <> Ok tt /\ hurt_load gx (<[34%nat:=x63]> dx) <> Ok tt /\
  hurt_load (<[822%nat:=x01]> gx) dx = Ok tt /\ take 4 (<[822%nat:=x01]> gx) <> u32_bytes 0x002a677f.
Proof.
  split; [exact exb_built|]. split; [exact exb_ready|]. split; [done|]. split; [exact exb_uniform|]. split; [exact l1_short|]. split; [exact exb_dumped|].
  split; [split; vm_compute; reflexivity|]. split; [done|]. split; [split; cbn; lia|]. split; [split; cbn; lia|]. split; [intros [_ H]; cbn in H; lia|].
  split_and!; by vm_compute.
Qed.
