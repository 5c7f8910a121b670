(** Property C69: dumps made by earlier versions of the library, in formats 2 and 3. *)
From Coq Require Import SpecFloat Strings.Byte Strings.String.
From Verif Require Import Prelude Model StdInst Lib Spec Io IoBase SpecIo IoProofs IoProofs3 FormatProofs Examples ExamplesIo PropsIo.
Local Open Scope list_scope.

(** the beginning of the graph file: a magic number that gives the format, the mode of the dump, max_nb_connection and, since
    format 4, the scale of the levels (here 1.0, i.e. 0x3ff0000000000000) *)
Definition graph_2 (mode m : byte) (rest : bytes) : bytes := u32_bytes 0x2a677f ++ [mode; m] ++ rest.
Definition graph_3 (mode m : byte) (rest : bytes) : bytes := u32_bytes 0x2a6771 ++ [mode; m] ++ rest.
Definition graph_4 (mode m : byte) (rest : bytes) : bytes :=
  u32_bytes 0x2a6779 ++ [mode; m] ++ u64_bytes 0x3ff0000000000000 ++ rest.
(** the data file: a header with the dimension, then one record for each point; [code] is how a vector is written *)
Definition record {T} (code : list T -> bytes) (r : dataid * list T) : bytes :=
  u32_bytes 0xa67f0000 ++ u64_bytes r.1 ++ u64_bytes (N.of_nat (length (code r.2))) ++ code r.2.
Definition data_file_of {T} (code : list T -> bytes) (dim : nat) (recs : list (dataid * list T)) : bytes :=
  u32_bytes 0xa67f0000 ++ u64_bytes (N.of_nat dim) ++ concat (record code <$> recs).

Lemma load_rd_split {T} so (el : elem T) inv_ln dname prev opts mk :
  load_rd so el inv_ln dname prev opts mk = rbind load_header (after_header so el opts inv_ln dname prev mk).
Proof. reflexivity. Qed.
Lemma load_with_split {T} so (el : elem T) inv_ln dname prev opts :
  load_with_dist_rd so el inv_ln dname prev opts = rbind load_header (after_header_with so el opts inv_ln dname prev).
Proof. reflexivity. Qed.

(** ** Format 3 *)
Lemma sim_eq_refl {A} (p : rd A) : sim eq eq p p.
Proof. intros g d d' <-. unfold res_rel. destruct (p (g, d)) as [[a [g1 d1]]| | | | |]; done. Qed.

Definition header_tail (de : description) : rd description :=
  magic <~ dnum 4;
  _ <~ rlift (assert_ (magic =? MAGICDATAP)%N);
  dim <~ dnum 8;
  _ <~ rlift (assert_ (dim =? de_dimension de)%N);
  rret de.

Lemma header_old v mode m rest d : v = 2%N \/ v = 3%N ->
  load_header (g_old v mode m rest, d) = rbind (or_panic (desc_tail v (Byte.to_N mode) (Byte.to_N m) f64_1)) header_tail (rest, d).
Proof. intros Hv. unfold load_header, rbind at 1, or_panic. rewrite (desc_old _ _ _ _ _ Hv). done. Qed.
Lemma header_new mode m rest d :
  load_header (g_new mode m rest, d) = rbind (or_panic (desc_tail 4 (Byte.to_N mode) (Byte.to_N m) f64_1)) header_tail (rest, d).
Proof. unfold load_header, rbind at 1, or_panic. rewrite desc_new. done. Qed.

Lemma sim_header_3 mode m :
  sim eq (de_rel 3) (rbind (or_panic (desc_tail 3 mode m f64_1)) header_tail) (rbind (or_panic (desc_tail 4 mode m f64_1)) header_tail).
Proof.
  eapply sim_bind; [apply sim_panic, sim_tail|]. intros de de' Hde. unfold header_tail.
  replace (de_dimension de) with (de_dimension de') by (symmetry; apply Hde).
  eapply sim_bind; [apply sim_eq_refl|]. intros a b <-. eapply sim_bind; [apply sim_lift|]. intros a1 b1 <-.
  eapply sim_bind; [apply sim_eq_refl|]. intros a2 b2 <-. eapply sim_bind; [apply sim_lift|]. intros a3 b3 <-.
  by apply sim_ret.
Qed.

Lemma data_3 {T} (el : elem T) oid de de' : de_rel 3 de de' -> sim eq eq (load_point_data el oid de) (load_point_data el oid de').
Proof.
  intros (E1 & E2 & _ & _ & _ & _ & _ & _ & E3 & _). unfold load_point_data. rewrite E1, E2, E3.
  change (3 =? 2)%N with false. change (4 =? 2)%N with false. apply sim_eq_refl.
Qed.

Lemma run_split {A B} (p p' : rd A) (k k' : A -> rd B) (R : A -> A -> Prop) rel s s' g d d' :
  p s = p' (g, d) -> forall q', p s' = q' (g, d') -> sim rel R p' q' -> (forall a b, R a b -> sim rel eq (k a) (k' b)) -> rel d d' ->
  fst <$> rbind p k s = fst <$> rbind p k' s'.
Proof.
  intros E1 q' E2 Hp Hk Hr. unfold rbind. rewrite E1, E2. specialize (Hp g d d' Hr).
  destruct (p' (g, d)) as [[a [g1 d1]]| | | | |], (q' (g, d')) as [[b [g2 d2]]| | | | |]; simpl in *; try done.
  destruct Hp as (HR & -> & Hd). specialize (Hk _ _ HR g2 d1 d2 Hd).
  destruct (k a (g2, d1)) as [[x [g3 d3]]| | | | |], (k' b (g2, d2)) as [[y [g4 d4]]| | | | |]; simpl in *; try done.
  by destruct Hk as [-> _].
Qed.

Lemma datamap_3 {T} (el : elem T) mode m rest d :
  datamap_of el (graph_3 mode m rest) d = datamap_of el (graph_4 mode m rest) d.
Proof.
  unfold datamap_of. change (graph_3 mode m rest) with (g_old 3 mode m rest). change (graph_4 mode m rest) with (g_new mode m rest).
  unfold or_panic. rewrite desc_old, desc_new by auto.
  pose proof (sim_tail eq 3 (Byte.to_N mode) (Byte.to_N m) f64_1 rest [] [] eq_refl) as H.
  destruct (desc_tail 3 _ _ _ _) as [[a [g1 d1]]| | | | |], (desc_tail 4 _ _ _ _) as [[b [g2 d2]]| | | | |]; simpl in *; try done.
  destruct H as ((E1 & E2 & _ & _ & _ & _ & _ & _ & E3 & E4 & E5) & _ & _). by rewrite E1, E2, E3, E4, E5.
Qed.

(** C69: replacing the graph file by the one of format 3 with the same content changes nothing to what load_hnsw does,
    whatever that is. *)
Theorem C69_format_3 :
  forall {T} so (el : elem T) inv_ln dname cwd fs io mode m rest,
  fs_read fs cwd (graph_file (io_dir io) (io_basename io)) = Some (graph_4 mode m rest) ->
  let old := fs_write fs cwd (graph_file (io_dir io) (io_basename io)) (graph_3 mode m rest) in
  load_hnsw so el inv_ln dname cwd old io = load_hnsw so el inv_ln dname cwd fs io /\
  load_hnsw_with_dist so el inv_ln dname cwd old io = load_hnsw_with_dist so el inv_ln dname cwd fs io.
Proof.
  intros T so el inv_ln dname cwd fs io mode m rest Hg old.
  assert (Hd : fs_read old cwd (data_file (io_dir io) (io_basename io)) = fs_read fs cwd (data_file (io_dir io) (io_basename io))).
  { apply fs_write_other. intros E. by eapply graph_data_ne. }
  assert (Hmk : from_hnswdump el cwd old (io_dir io) (io_basename io) = from_hnswdump el cwd fs (io_dir io) (io_basename io)).
  { unfold from_hnswdump. rewrite Hd.
    destruct (decide (resolve cwd (graph_file (join (io_dir io) (io_dir io)) (io_basename io)) =
      resolve cwd (graph_file (io_dir io) (io_basename io)))) as [E|E].
    - assert (E1 : fs_read old cwd (graph_file (join (io_dir io) (io_dir io)) (io_basename io)) = Some (graph_3 mode m rest)).
      { unfold fs_read. rewrite E. apply fs_write_same. }
      assert (E2 : fs_read fs cwd (graph_file (join (io_dir io) (io_dir io)) (io_basename io)) = Some (graph_4 mode m rest)).
      { unfold fs_read. rewrite E. done. }
      rewrite E1, E2. destruct (fs_read fs cwd (data_file _ _)) as [d|]; [apply datamap_3|].
      change (graph_3 mode m rest) with (g_old 3 mode m rest). change (graph_4 mode m rest) with (g_new mode m rest).
      unfold or_panic. rewrite desc_old, desc_new by auto.
      pose proof (sim_tail eq 3 (Byte.to_N mode) (Byte.to_N m) f64_1 rest [] [] eq_refl) as H.
      destruct (desc_tail 3 _ _ _ _) as [[a [g1 d1]]| | | | |], (desc_tail 4 _ _ _ _) as [[b [g2 d2]]| | | | |]; simpl in *; try done.
      destruct H as ((E3 & E4 & _ & _ & _ & _ & _ & _ & _ & _ & E5) & _ & _). by rewrite E3, E4, E5.
    - unfold old. by rewrite (fs_write_other fs cwd _ _ _ E). }
  unfold load_hnsw, load_hnsw_with_dist, io_open. rewrite Hmk, Hd, Hg. unfold old. rewrite fs_write_same.
  destruct (fs_read fs cwd (data_file _ _)) as [d|]; [|done]. cbn [mbind outcome_bind].
  unfold run_rd. rewrite load_rd_split, load_with_split.
  split.
  - eapply (run_split load_header _ _ _ (de_rel 3) eq).
    + apply (header_old 3). by right.
    + apply header_new.
    + apply sim_header_3.
    + intros de de' Hde. apply (sim_after eq so el 3 (de_dimension de)); [|right; intros; apply sim_eq_refl|done].
      intros oid a b [Hab _]. by apply data_3.
    + done.
  - eapply (run_split load_header _ _ _ (de_rel 3) eq).
    + apply (header_old 3). by right.
    + apply header_new.
    + apply sim_header_3.
    + intros de de' Hde. apply (sim_after_with eq so el 3 (de_dimension de)); [|right; intros; apply sim_eq_refl|done].
      intros oid a b [Hab _]. by apply data_3.
    + done.
Qed.
Print Assumptions C69_format_3.

(** ** Format 2 *)
Section Two.
Context {T : Type} (el : elem T) (Hel : elem_ok el) (code : list T -> bytes) (dim : nat).
Definition rec_ok (r : dataid * list T) : Prop :=
  (r.1 < 2 ^ 64)%N /\ length r.2 = dim /\ (N.of_nat (length (code r.2)) < 2 ^ 64)%N /\
  (N.of_nat (dim * el_size el) < 2 ^ 64)%N /\ el_bincode el (code r.2) = Some r.2.
Definition rel_2 (d d' : bytes) : Prop :=
  exists recs, Forall rec_ok recs /\ d = concat (record code <$> recs) /\ d' = concat (record (enc_vec el) <$> recs).

Lemma dnum_at k n g d : (n < 256 ^ N.of_nat k)%N -> dnum k (g, le_bytes k n ++ d) = Ok (n, (g, d)).
Proof. intros Hn. exact (pars_dnum k n Hn g d). Qed.
Lemma dread_at b g d : dread (length b) (g, b ++ d) = Ok (b, (g, d)).
Proof. exact (pars_dread (length b) b eq_refl g d). Qed.

Lemma load_record_at (cd : list T -> bytes) oid r g d : (r.1 < 2 ^ 64)%N -> (N.of_nat (length (cd r.2)) < 2 ^ 64)%N ->
  load_record oid (g, record cd r ++ d) = if (oid =? r.1)%N then Ok (cd r.2, (g, d)) else Panic.
Proof.
  destruct r as [id w]. cbn [fst snd]. intros H1 H2. unfold load_record, record, u32_bytes, u64_bytes. rewrite <- !app_assoc.
  erewrite rbind_ok by (apply dnum_at; first [reflexivity|eassumption]). change (2793340928 =? MAGICDATAP)%N with true. erewrite rbind_ok by reflexivity.
  erewrite rbind_ok by (apply dnum_at; first [reflexivity|eassumption]). cbn [fst snd]. destruct (oid =? id)%N; [|reflexivity]. erewrite rbind_ok by reflexivity.
  erewrite rbind_ok by (apply dnum_at; first [reflexivity|eassumption]). rewrite Nat2N.id. apply dread_at.
Qed.

Lemma data_2 oid de de' : at_dim 2 (N.of_nat dim) de de' -> sim rel_2 eq (load_point_data el oid de) (load_point_data el oid de').
Proof.
  intros [(E1 & E2 & _ & _ & _ & _ & _ & _ & E3 & _) E4] g d d' (recs & Hok & -> & ->). unfold load_point_data.
  rewrite E1, E2, <- E3, E4. change (2 =? 2)%N with true. change ((4 =? 3) || (4 =? 4))%N with true. change (4 =? 2)%N with false.
  cbv iota. destruct recs as [|[id w] recs]; [done|]. apply Forall_cons in Hok as [(H1 & H2 & H3 & H4 & H5) Hok]. cbn [fst snd] in *.
  cbn [fmap list_fmap concat]. unfold rbind.
  rewrite (load_record_at code) by done.
  assert (H6 : (N.of_nat (length (enc_vec el w)) < 2 ^ 64)%N) by (rewrite (enc_vec_length el Hel), H2; exact H4).
  rewrite (load_record_at (enc_vec el)) by done. cbn [fst snd].
  destruct (oid =? id)%N; [|done]. cbn [mbind outcome_bind]. destruct (el_nodata el).
  { split; [done|]. split; [done|]. by exists recs. }
  unfold rlift. rewrite H5. simpl.
  assert (E : from_raw_parts el (enc_vec el w) (N.of_nat dim) = Ok w).
  { rewrite <- H2, <- (app_nil_r (enc_vec el w)). by apply from_raw_enc. }
  rewrite E. simpl. split; [done|]. split; [done|]. by exists recs.
Qed.

Lemma sim_header_2 mode m recs rest :
  Forall rec_ok recs -> (N.of_nat dim < 2 ^ 64)%N ->
  res_rel rel_2 (at_dim 2 (N.of_nat dim))
    (rbind (or_panic (desc_tail 2 mode m f64_1)) header_tail (rest, data_file_of code dim recs))
    (rbind (or_panic (desc_tail 4 mode m f64_1)) header_tail (rest, data_file_of (enc_vec el) dim recs)).
Proof.
  intros Hok Hdim.
  pose proof (sim_tail (fun d d' => d = data_file_of code dim recs /\ d' = data_file_of (enc_vec el) dim recs) 2 mode m f64_1
    rest _ _ (conj eq_refl eq_refl)) as H.
  unfold rbind, or_panic.
  destruct (desc_tail 2 _ _ _ _) as [[a [g1 d1]]| | | | |], (desc_tail 4 _ _ _ _) as [[b [g2 d2]]| | | | |]; simpl in *; try done.
  destruct H as (Hab & -> & -> & ->). pose proof Hab as (_ & _ & _ & _ & _ & _ & _ & _ & E & _).
  unfold header_tail, data_file_of, u32_bytes, u64_bytes.
  erewrite rbind_ok by (apply dnum_at; first [reflexivity|eassumption]). change (2793340928 =? MAGICDATAP)%N with true. erewrite rbind_ok by reflexivity.
  erewrite rbind_ok by (apply dnum_at; first [reflexivity|eassumption]). rewrite E.
  match goal with |- res_rel _ _ _ ?x => set (o := x) end.
  assert (Ho : o = rbind (rlift (assert_ (N.of_nat dim =? de_dimension b)%N)) (fun _ => rret b) (g2, concat (record (enc_vec el) <$> recs))).
  { unfold o. erewrite rbind_ok by (apply dnum_at; first [reflexivity|eassumption]). change (2793340928 =? MAGICDATAP)%N with true. erewrite rbind_ok by reflexivity.
    erewrite rbind_ok by (apply dnum_at; first [reflexivity|eassumption]). done. }
  rewrite Ho. destruct (N.eqb_spec (N.of_nat dim) (de_dimension b)) as [Ed|Ed]; [|done].
  split; [split; [done|congruence]|]. split; [done|]. by exists recs.
Qed.
End Two.

Lemma run_split_at {A B} (p : rd A) (k k' : A -> rd B) (R : A -> A -> Prop) rel s s' :
  res_rel rel R (p s) (p s') -> (forall a b, R a b -> sim rel eq (k a) (k' b)) ->
  fst <$> rbind p k s = fst <$> rbind p k' s'.
Proof.
  intros Hp Hk. unfold rbind.
  destruct (p s) as [[a [g1 d1]]| | | | |], (p s') as [[b [g2 d2]]| | | | |]; simpl in *; try done.
  destruct Hp as (HR & -> & Hd). specialize (Hk _ _ HR g2 d1 d2 Hd).
  destruct (k a (g2, d1)) as [[x [g3 d3]]| | | | |], (k' b (g2, d2)) as [[y [g4 d4]]| | | | |]; simpl in *; try done.
  by destruct Hk as [-> _].
Qed.

(** C69: in format 2, moreover, the vectors are encoded by bincode ([code] is any encoding that its decoder undoes). Loaded
    in memory (no mapping), the files give what those of the current format with the same content give. *)
Theorem C69_format_2 :
  forall {T} so (el : elem T) inv_ln dname cwd fs fs' io mode m rest code dim recs,
  elem_ok el -> ro_datamap (io_options io) = false ->
  dump_at fs cwd (io_dir io) (io_basename io) (graph_2 mode m rest) (data_file_of code dim recs) ->
  dump_at fs' cwd (io_dir io) (io_basename io) (graph_4 mode m rest) (data_file_of (enc_vec el) dim recs) ->
  (N.of_nat dim < 2 ^ 64)%N -> (N.of_nat (dim * el_size el) < 2 ^ 64)%N ->
  (forall id v, (id, v) ∈ recs -> (id < 2 ^ 64)%N /\ length v = dim /\ (N.of_nat (length (code v)) < 2 ^ 64)%N /\
     el_bincode el (code v) = Some v) ->
  load_hnsw so el inv_ln dname cwd fs io = load_hnsw so el inv_ln dname cwd fs' io /\
  load_hnsw_with_dist so el inv_ln dname cwd fs io = load_hnsw_with_dist so el inv_ln dname cwd fs' io.
Proof.
  intros T so el inv_ln dname cwd fs fs' io mode m rest code dim recs Hel Hmm [Hg Hd] [Hg' Hd'] Hdim Hsz Hrecs.
  assert (Hok : Forall (rec_ok el code dim) recs).
  { apply Forall_forall. intros [id v] Hin. destruct (Hrecs id v Hin) as (? & ? & ? & ?). by split_and!. }
  unfold load_hnsw, load_hnsw_with_dist, io_open. rewrite Hg, Hd, Hg', Hd'. cbn [mbind outcome_bind].
  unfold run_rd. rewrite !load_rd_split, load_with_split.
  assert (Hh : res_rel (rel_2 el code dim) (at_dim 2 (N.of_nat dim)) (load_header (graph_2 mode m rest, data_file_of code dim recs))
    (load_header (graph_4 mode m rest, data_file_of (enc_vec el) dim recs))).
  { change (graph_2 mode m rest) with (g_old 2 mode m rest). change (graph_4 mode m rest) with (g_new mode m rest).
    rewrite header_old, header_new by auto. by apply sim_header_2. }
  split.
  - eapply run_split_at; [exact Hh|]. intros de de' Hde.
    assert (Hmk : after_header so el (io_options io) inv_ln dname (io_datamap io) (from_hnswdump el cwd fs' (io_dir io) (io_basename io)) de'
      = after_header so el (io_options io) inv_ln dname (io_datamap io) (from_hnswdump el cwd fs (io_dir io) (io_basename io)) de').
    { unfold after_header, choose_datamap. by rewrite Hmm. }
    rewrite Hmk. apply (sim_after _ so el 2 (N.of_nat dim)); [|by left|done]. intros oid a b Hab. by apply data_2.
  - eapply run_split_at; [exact Hh|]. intros de de' Hde.
    apply (sim_after_with _ so el 2 (N.of_nat dim)); [|by left|done]. intros oid a b Hab. by apply data_2.
Qed.
Print Assumptions C69_format_2.

(** the files of the example index, written in the older formats; bincode writes the length of a vector (8 bytes) before it *)
Definition u8_code (v : list byte) : bytes := u64_bytes (N.of_nat (length v)) ++ v.
Definition el_u8b : elem byte := Elem byte "u8" 1 (el_enc el_u8) (el_dec el_u8)
  (fun b => if (8 <=? length b)%nat then if (le_val (take 8 b) =? N.of_nat (length b - 8))%N then Some (drop 8 b) else None else None) false.
Definition exb_graph : bytes := from_option id [] (fs_read exb_fs cwd0 (graph_file tmp_dir "b")).
Definition exb_recs : list (dataid * list byte) :=
  (fun pt => (pt_oid pt, pt_data pt)) <$> concat (points_by_layer exb).
Definition exb_fs2 : fsys :=
  fs_write (fs_write fs0 cwd0 (graph_file tmp_dir "b") (graph_2 x01 x02 (drop 14 exb_graph)))
    cwd0 (data_file tmp_dir "b") (data_file_of u8_code 2 exb_recs).
Example C69_example_2 : exists h, load_hnsw simple_ops el_u8b one_scale l1_name cwd0 exb_fs2 (io_new tmp_dir "b") = Ok (h, []) /\
  get_nb_point h = 5%nat /\
  dump_at exb_fs2 cwd0 tmp_dir "b" (graph_2 x01 x02 (drop 14 exb_graph)) (data_file_of u8_code 2 exb_recs) /\
  dump_at exb_fs cwd0 tmp_dir "b" (graph_4 x01 x02 (drop 14 exb_graph)) (data_file_of (enc_vec el_u8b) 2 exb_recs) /\
  elem_ok el_u8b /\
  (forall id v, (id, v) ∈ exb_recs -> (id < 2 ^ 64)%N /\ length v = 2%nat /\ (N.of_nat (length (u8_code v)) < 2 ^ 64)%N /\
     el_bincode el_u8b (u8_code v) = Some v).
Proof.
  eexists. split; [vm_compute; reflexivity|]. split; [vm_compute; reflexivity|]. split; [split; vm_compute; reflexivity|].
  split; [split; vm_compute; reflexivity|]. split; [done|].
  assert (H : forallb (fun r : dataid * list byte => (r.1 <? 2 ^ 64)%N && (length r.2 =? 2)%nat && (length (u8_code r.2) =? 10)%nat &&
     bool_decide (el_bincode el_u8b (u8_code r.2) = Some r.2)) exb_recs = true) by (vm_compute; reflexivity).
  intros id v Hin. rewrite forallb_forall in H. specialize (H (id, v)). rewrite <- elem_of_list_In in H. specialize (H Hin).
  cbn [fst snd] in H. rewrite !andb_true_iff in H. destruct H as [[[H1 H2] H3] H4]. apply bool_decide_eq_true in H4.
  apply N.ltb_lt in H1. apply Nat.eqb_eq in H2, H3. rewrite H3. by split_and!.
Qed.
Example C69_example_3 : exists h,
  fs_read exb_fs cwd0 (graph_file tmp_dir "b") = Some (graph_4 x01 x02 (drop 14 exb_graph)) /\
  load_hnsw simple_ops el_u8 one_scale l1_name cwd0 (fs_write exb_fs cwd0 (graph_file tmp_dir "b") (graph_3 x01 x02 (drop 14 exb_graph)))
    (io_new tmp_dir "b") = Ok (h, []) /\ get_nb_point h = 5%nat.
Proof. eexists. split; [vm_compute; reflexivity|]. split; vm_compute; reflexivity. Qed.
