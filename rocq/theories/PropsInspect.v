(** Properties C83 and C84: what is printed about an index, and what the graph comparison of the test-suite establishes. *)
From Coq Require Import Strings.String.
From stdpp Require Import relations strings.
From Verif Require Import Prelude Model StdInst Lib Table SearchProofs InsertProofs IterProofs Io Spec SpecIo SpecProofs SpecBuilt
  BuiltProofs IoProofs5 Examples ExamplesIo Inspect InspectProofs PropsIo.
Local Open Scope list_scope.

(** C83: dump_layer_info prints, for the layers up to the highest one with points, the number of points
    of the layer; together they are all the points. *)
Theorem C83_layer_info :
  forall {T} (dist : list T -> list T -> Z) so, StdLaws so -> (forall a b, (0 <= dist a b)%Z) ->
  forall inv_ln M ml ef hist h, built dist so inv_ln M ml ef hist h -> (1 <= ml)%nat ->
  exists printed, dump_layer_info h = Ok printed /\
    printed.*1 = seq 0 (S (get_max_level_observed h)) /\
    (forall l n, (l, n) ∈ printed -> n = get_layer_nb_point h l) /\
    (forall p pt, point_at h p pt -> p.1 ∈ printed.*1) /\
    sum_list printed.*2 = length hist.
Proof.
  intros T dist so LAWS Hnn inv_ln M ml ef hist h Hb Hml.
  destruct (built_facts dist so LAWS Hnn _ _ _ _ _ _ Hb) as (Hwf & Hmx & _ & _ & _ & Hnb).
  eexists. split; [apply (dump_layer_info_spec dist); [done|rewrite Hmx; lia]|].
  rewrite <- !list_fmap_compose. unfold compose. cbn [fst snd].
  split; [by rewrite list_fmap_id|]. split.
  { intros l n (x & [= -> ->] & _)%elem_of_list_fmap. done. }
  split.
  - intros p pt Hpt. apply (point_at_pt dist) in Hpt; [|done]. rewrite list_fmap_id, elem_of_seq.
    pose proof (w_entry _ _ Hwf) as He. unfold get_max_level_observed.
    assert (Hv : valid h p) by (by exists pt).
    destruct (entry_point h) as [ep|]; [destruct He as [_ Hm]; specialize (Hm _ Hv); lia|].
    by apply table_size_0_valid in Hv.
  - rewrite <- Hnb. by apply (layers_sum dist).
Qed.
Print Assumptions C83_layer_info.
Example C83_example : dump_layer_info ex1 = Ok [(0, 5); (1, 1); (2, 1)]%nat.
Proof. vm_compute. reflexivity. Qed.

(** C83: Point::debug_dump prints the id of the point, its origin id, and the neighbours that
    get_neighborhood_id reports, for each layer where there are some. *)
Theorem C83_point_dump :
  forall {T} (dist : list T -> list T -> Z) so, StdLaws so -> (forall a b, (0 <= dist a b)%Z) ->
  forall inv_ln M ml ef hist h, built dist so inv_ln M ml ef hist h ->
  forall p pt, point_at h p pt ->
  exists printed, point_debug_dump pt = (p, pt_oid pt, printed) /\
    forall i ps, (i, ps) ∈ printed <-> ps <> [] /\ exists ns, neighbours_at h p i ns /\ p_id <$> ns = ps.
Proof.
  intros T dist so LAWS Hnn inv_ln M ml ef hist h Hb p pt Hpt.
  pose proof (built_wf dist so LAWS Hnn _ _ _ _ _ _ Hb) as Hwf.
  apply (point_at_pt dist) in Hpt; [|done]. by apply (point_debug_dump_spec dist).
Qed.
Print Assumptions C83_point_dump.

(** C83 without layers: an index made with max_layer = 0 makes dump_layer_info panic. *)
Theorem C83_no_layer :
  forall {T} inv_ln M ef (h : hnsw (T:=T)), hnsw_new inv_ln M 0 ef = Ok h -> dump_layer_info h = Panic.
Proof.
  intros T inv_ln M ef h H. unfold hnsw_new in H. destruct (256 <? M)%nat; [done|]. injection H as <-. reflexivity.
Qed.
Print Assumptions C83_no_layer.

(** C84: check_graph_equality, the comparison used by the tests of dump and reload, returns normally
    exactly when the two indexes have 16 layers, are not empty, have the same entry point and, at each
    PointId, points with the same origin id and the same lists of neighbours; otherwise it panics. *)
Theorem C84_graph_comparison :
  forall {T1 T2} (d1 : list T1 -> list T1 -> Z) (d2 : list T2 -> list T2 -> Z) so1 so2, StdLaws so1 -> StdLaws so2 ->
  (forall a b, (0 <= d1 a b)%Z) -> (forall a b, (0 <= d2 a b)%Z) ->
  forall il1 il2 M1 M2 ml1 ml2 ef1 ef2 hist1 hist2 h1 h2,
  built d1 so1 il1 M1 ml1 ef1 hist1 h1 -> built d2 so2 il2 M2 ml2 ef2 hist2 h2 ->
  (check_graph_equality h1 h2 = Ok tt \/ check_graph_equality h1 h2 = Panic) /\
  (check_graph_equality h1 h2 = Ok tt <->
    (16 <= ml1)%nat /\ (16 <= ml2)%nat /\
    (exists ep, entry_point h1 = Some ep /\ entry_point h2 = Some ep) /\
    (forall p o, (exists pt, point_at h1 p pt /\ pt_oid pt = o) <-> (exists pt, point_at h2 p pt /\ pt_oid pt = o)) /\
    (forall p l ns, neighbours_at h1 p l ns <-> neighbours_at h2 p l ns)).
Proof.
  intros T1 T2 d1 d2 so1 so2 L1 L2 N1 N2 il1 il2 M1 M2 ml1 ml2 ef1 ef2 hist1 hist2 h1 h2 B1 B2.
  destruct (built_facts d1 so1 L1 N1 _ _ _ _ _ _ B1) as (W1 & X1 & _).
  destruct (built_facts d2 so2 L2 N2 _ _ _ _ _ _ B2) as (W2 & X2 & _).
  split. { destruct (check_okp h1 h2) as [[[] ->]| ->]; auto. }
  rewrite (check_iff d1 d2 h1 h2 W1 W2), X1, X2. unfold NB_LAYER_MAX.
  assert (Q : forall {T} (d : list T -> list T -> Z) h p pt, wf d h -> get_pt h p = Some pt ->
     exists lists, get_neighborhood_id h pt = Ok lists /\ length lists = NB_LAYER_MAX /\
       forall l ns, neighbours_at h p l ns <-> lists !! l = Some ns).
  { clear. intros T d h p pt W Hp. destruct (nbhd_ok d h p pt W Hp) as (lists & Hg & Hlen & _).
    exists lists. split_and!; [done|done|]. intros l ns. split.
    - intros (pt' & lists' & Hp' & Hg' & Hl). apply (point_at_pt d) in Hp'; [|done]. congruence.
    - intros Hl. exists pt, lists. split_and!; [by apply (point_at_pt d)|done|done]. }
  split.
  - intros (H1 & H2 & H3 & H4). split_and!; [lia|lia|done|..].
    + intros p o. split; intros (pt & Hpt & Ho).
      * apply (point_at_pt d1) in Hpt; [|done]. destruct (Q _ d1 h1 p pt W1 Hpt) as (ls & Hg & _).
        destruct (proj1 (H4 p o ls)) as (pt2 & Hpt2 & Ho2 & _); [by exists pt|]. exists pt2. split; [by apply (point_at_pt d2)|done].
      * apply (point_at_pt d2) in Hpt; [|done]. destruct (Q _ d2 h2 p pt W2 Hpt) as (ls & Hg & _).
        destruct (proj2 (H4 p o ls)) as (pt2 & Hpt2 & Ho2 & _); [by exists pt|]. exists pt2. split; [by apply (point_at_pt d1)|done].
    + intros p l ns. split; intros (pt & ls & Hpt & Hg & Hl).
      * apply (point_at_pt d1) in Hpt; [|done].
        destruct (proj1 (H4 p (pt_oid pt) ls)) as (pt2 & Hpt2 & Ho2 & Hg2); [by exists pt|].
        exists pt2, ls. split_and!; [by apply (point_at_pt d2)|done|done].
      * apply (point_at_pt d2) in Hpt; [|done].
        destruct (proj2 (H4 p (pt_oid pt) ls)) as (pt2 & Hpt2 & Ho2 & Hg2); [by exists pt|].
        exists pt2, ls. split_and!; [by apply (point_at_pt d1)|done|done].
  - intros (H1 & H2 & H3 & H4 & H5). split_and!; [lia|lia|done|].
    assert (G : forall p pt pt2, get_pt h1 p = Some pt -> get_pt h2 p = Some pt2 ->
       exists ls, get_neighborhood_id h1 pt = Ok ls /\ get_neighborhood_id h2 pt2 = Ok ls).
    { intros p pt pt2 Hp Hp2.
      destruct (Q _ d1 h1 p pt W1 Hp) as (ls & Hg & Hlen & Hl). destruct (Q _ d2 h2 p pt2 W2 Hp2) as (ls2 & Hg2 & Hlen2 & Hl2).
      exists ls. split; [done|]. rewrite Hg2. f_equal. apply list_eq. intros i.
      apply option_eq. intros x. rewrite <- Hl, <- Hl2. by rewrite H5. }
    intros p o ls. split; intros (pt & Hpt & Ho & Hg).
    + destruct (proj1 (H4 p o)) as (pt2 & Hpt2 & Ho2); [exists pt; split; [by apply (point_at_pt d1)|done]|].
      apply (point_at_pt d2) in Hpt2; [|done]. destruct (G p pt pt2 Hpt Hpt2) as (ls' & E1 & E2).
      exists pt2. split_and!; [done|done|congruence].
    + destruct (proj2 (H4 p o)) as (pt2 & Hpt2 & Ho2); [exists pt; split; [by apply (point_at_pt d2)|done]|].
      apply (point_at_pt d1) in Hpt2; [|done]. destruct (G p pt2 pt Hpt2 Hpt) as (ls' & E1 & E2).
      exists pt2. split_and!; [done|done|congruence].
Qed.
Print Assumptions C84_graph_comparison.

(** The vectors are not compared: an index with all the coordinates moved by 100 passes. An index
    compared with itself does not pass if it has fewer than 16 layers. *)
Definition ex1_moved_points : list (Z * N * nat) := (fun x => (x.1.1 + 100, x.1.2, x.2)%Z) <$> ex1_points.
Example C84_example : exists h', mk simple_ops 2 16 10 ex1_moved_points = Ok h' /\
  check_graph_equality ex1 h' = Ok tt /\ vector_at ex1 (0, 0)%nat [0%Z] /\ vector_at h' (0, 0)%nat [100%Z] /\
  check_graph_equality ex1 ex1r = Panic /\ check_graph_equality ex2 ex2 = Panic.
Proof. eexists. split_and!; vm_compute; reflexivity. Qed.

(** C84: the comparison succeeds after a dump and a reload (of a non empty index with 16 layers: see dump_ready), whenever the
    sort of the reload leaves sorted lists as they are. *)
Theorem C84_reload_compared :
  forall {T} (dist : list T -> list T -> Z) so, StdLaws so -> (forall a b, (0 <= dist a b)%Z) ->
  forall inv_ln M ml ef hist h, built dist so inv_ln M ml ef hist h ->
  forall el dname, dump_ready el dname ml hist h -> el_nodata el = false -> uniform h ->
  (M <= 255)%nat -> order_kept so h ->
  forall cwd fs dir base draws fs' name, file_dump el dname cwd fs dir base draws h = (fs', Ok name) ->
  forall dname' c, last_component dname c -> last_component dname' c ->
  exists h', load_hnsw so el inv_ln dname' cwd fs' (io_new dir name) = Ok (h', []) /\
    check_graph_equality h' h = Ok tt.
Proof.
  intros T dist so LAWS Hnn inv_ln M ml ef hist h Hb el dname Hr Hnd Hu HM Hok cwd fs dir base draws fs' name Hf dname' c Hc Hc'.
  destruct (C27_reload dist so LAWS Hnn _ _ _ _ _ _ Hb el dname Hr Hnd Hu cwd fs dir base draws fs' name Hf dname' c Hc Hc')
    as (h' & h'' & Hl & Hsg & _ & Hsl & _ & _ & _ & _ & Hbb).
  destruct (Hbb HM) as [Hb' _]. exists h'. split; [done|].
  apply (C84_graph_comparison dist dist so so LAWS LAWS Hnn Hnn _ _ _ _ _ _ _ _ _ _ _ _ Hb' Hb).
  pose proof (dr_layers _ _ _ _ _ Hr) as Hml.
  split_and!; [done|done|..].
  - destruct (built_entry dist so LAWS Hnn _ _ _ _ _ _ Hb) as [(-> & _)|(_ & ep & He)].
    + by destruct (dr_points _ _ _ _ _ Hr).
    + exists ep. rewrite (sg_entry _ _ Hsg). done.
  - intros p o. destruct (sg_iter _ _ Hsg) as (pts & pts' & Hi & Hi' & Ho & Hp).
    assert (G : forall i a b, pts !! i = Some a -> pts' !! i = Some b -> pt_oid b = pt_oid a /\ pt_pid b = pt_pid a).
    { intros i a b Ha Hbb'. apply (f_equal (fun l => l !! i)) in Ho. apply (f_equal (fun l => l !! i)) in Hp.
      rewrite !list_lookup_fmap, Ha, Hbb' in Ho. rewrite !list_lookup_fmap, Ha, Hbb' in Hp. simpl in Ho, Hp. split; congruence. }
    assert (Hlen : length pts' = length pts) by (rewrite <- (fmap_length pt_oid pts'), Ho; by rewrite fmap_length).
    split; intros (pt & (ps & Hps & Hin & Hpp) & Hoo).
    + rewrite Hi' in Hps. injection Hps as <-. apply elem_of_list_lookup in Hin as [i Hin].
      destruct (lookup_lt_is_Some_2 pts i) as [a Ha]. { apply lookup_lt_Some in Hin. lia. }
      destruct (G i a pt Ha Hin) as [E1 E2]. exists a. split; [|congruence].
      exists pts. split_and!; [done| |congruence]. by eapply elem_of_list_lookup_2.
    + rewrite Hi in Hps. injection Hps as <-. apply elem_of_list_lookup in Hin as [i Hin].
      destruct (lookup_lt_is_Some_2 pts' i) as [a Ha]. { apply lookup_lt_Some in Hin. lia. }
      destruct (G i pt a Hin Ha) as [E1 E2]. exists a. split; [|congruence].
      exists pts'. split_and!; [done| |congruence]. by eapply elem_of_list_lookup_2.
  - exact (Hsl Hok).
Qed.
Print Assumptions C84_reload_compared.
Example C84_reload_example : exists h', load_hnsw simple_ops el_u8 one_scale l1_name cwd0 exb_fs (io_new tmp_dir "b") = Ok (h', []) /\
  check_graph_equality h' exb = Ok tt.
Proof. eexists. split; vm_compute; reflexivity. Qed.
