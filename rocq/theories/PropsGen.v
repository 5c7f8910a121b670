(** Property C88: dumping and reloading again and again. *)
From Coq Require Import Strings.String.
From stdpp Require Import relations.
From Verif Require Import Prelude Model StdInst Lib Table SearchProofs InsertProofs IterProofs Spec SpecProofs Io IoBase IoProofs IoProofs2 IoProofs3 IoProofs4 IoProofs5
  SpecIo SpecBuilt BuiltProofs ReloadProofs FloatProofs SpecGen Examples ExamplesIo PropsIo.
Local Open Scope list_scope.

(** the bytes of a description: the level scale is those 6 to 13 *)
Lemma description_scale de s : (de_nb_layer de =? N.of_nat NB_LAYER_MAX)%N = true ->
  let de' := Description (format_version de) (dumpmode de) (de_max_nb_connection de) s (de_nb_layer de) (de_ef de) (de_nb_point de)
    (de_dimension de) (de_distname de) (de_t_name de) in
  exists a c, w_graph (description_dump de Full) = a ++ u64_bytes (f64_bits (de_level_scale de)) ++ c /\
    w_graph (description_dump de' Full) = a ++ u64_bytes (f64_bits s) ++ c /\ length a = 6%nat.
Proof.
  intros Hl de'. unfold description_dump, de'. cbn [de_nb_layer de_max_nb_connection de_level_scale de_ef de_nb_point de_dimension de_distname de_t_name].
  rewrite Hl. cbn [wseq wout w_res w_graph w_data app]. 
  eexists (u32_bytes MAGICDESCR_4 ++ u8_bytes 1 ++ u8_bytes (de_max_nb_connection de)), _.
  split; [rewrite <- !app_assoc; reflexivity|]. split; [rewrite <- !app_assoc; reflexivity|]. done.
Qed.

Section Gen.
Context {T : Type} (dist : list T -> list T -> Z) (so : StdOps) (LAWS : StdLaws so) (Hnn : forall a b : list T, (0 <= dist a b)%Z).
Context (inv_ln : nat -> f64) (M ml ef : nat) (hist : list (list T * dataid)) (el : elem T) (dname : string) (cwd : list string).
Context (HM : (M <= 255)%nat) (Hnd : el_nodata el = false) (Hdn : dname <> ""%string) (Hok : f64_ok (inv_ln M) = true).

(** the same table *)
Record twin (h h' : hnsw (T:=T)) : Prop := {
  tw_pts : points_by_layer h' = points_by_layer h;
  tw_entry : entry_point h' = entry_point h;
  tw_nb : nb_point h' = nb_point h
}.
Lemma twin_shows h h' : wf dist h -> wf dist h' -> twin h h' ->
  (forall p pt, point_at h' p pt <-> point_at h p pt) /\ same_lists h h' /\ same_vectors h h'.
Proof using Hnn.
  intros W W' [E _ _]. split_and!.
  - intros p pt. rewrite !(point_at_pt dist) by done. unfold get_pt. by rewrite E.
  - intros p l ns. rewrite !(neighbours_at_pt dist) by done. unfold get_pt. by rewrite E.
  - intros p v. rewrite !(vector_at_pt dist Hnn) by done. unfold get_pt. by rewrite E.
Qed.

(** what every generation has *)
Record good (h : hnsw (T:=T)) : Prop := {
  gd_built : built dist so inv_ln M ml ef hist h;
  gd_ready : dump_ready el dname ml hist h;
  gd_uniform : uniform h;
  gd_order : order_kept so h
}.

Lemma good_next h ep dmo : good h -> entry_point h = Some ep ->
  built dist so inv_ln M ml ef hist (reloaded h so inv_ln ep pt_data dmo) ->
  twin h (reloaded h so inv_ln ep pt_data dmo) /\ good (reloaded h so inv_ln ep pt_data dmo) /\
  level_scale (reloaded h so inv_ln ep pt_data dmo) = f64_mul (inv_ln M) (level_scale h).
Proof using All.
  intros [B R U O] Hep B'. set (h' := reloaded h so inv_ln ep pt_data dmo) in *.
  pose proof (built_wf dist so LAWS Hnn _ _ _ _ _ _ B) as W. pose proof (built_wf dist so LAWS Hnn _ _ _ _ _ _ B') as W'.
  destruct (built_facts dist so LAWS Hnn _ _ _ _ _ _ B) as (_ & Eml & EM & Eef & _).
  assert (TW : twin h h').
  { split; [|by rewrite Hep|done]. by apply (relink_id dist Hnn so LAWS h W ep Hep). }
  destruct (twin_shows h h' W W' TW) as (SP & SL & SV).
  assert (Esc : level_scale h' = f64_mul (inv_ln M) (level_scale h)).
  { unfold h', reloaded. cbn [level_scale]. unfold get_max_nb_connection. rewrite EM, Nat.mod_small by lia. done. }
  split; [done|]. split; [|done]. split; [done| | |].
  - destruct R as [R1 R2 R3 R4 R5 [S1 S2 S3 S4 S5]]. split; try done. split.
    + done.
    + done.
    + rewrite Esc. by apply f64_mul_ok.
    + intros p pt Hp. apply (S4 p pt). by apply SP.
    + intros p l ns n Hn. apply (S5 p l ns n). by apply SL.
  - destruct U as [dim U]. exists dim. intros p v Hv. apply (U p v). by apply SV.
  - destruct O as [O|O]; [by left|right]. intros p l ns Hn. apply (O p l ns). by apply SL.
Qed.

Lemma good_cycle h h' : good h -> cycle so el inv_ln dname cwd hist h h' ->
  twin h h' /\ good h' /\ level_scale h' = f64_mul (inv_ln M) (level_scale h).
Proof using All.
  intros G (fs & dir & base & draws & fs' & name & Hf & HL). pose proof G as [B R U O].
  pose proof (file_dump_at _ _ _ _ _ _ _ _ _ _ Hf) as [Hat _].
  destruct (rsplit_some dname Hdn) as [c Hc].
  destruct HL as [(opts & mapped & Ho & Hl)|(mapped & Hl)].
  - assert (B' : built dist so inv_ln M ml ef hist h') by (eapply (built_reload _ _ _ _ _ _ _ _ el dname dname cwd fs' (io_new_with_options dir name opts)); [exact B|exact R|exact U|exact HM|exact Hnd|exact Hat|exact Ho|exact Hl]).
    assert (exists ep, entry_point h = Some ep /\ h' = reloaded h so inv_ln ep pt_data true) as (ep & Hep & ->).
    { destruct (ro_datamap opts) eqn:E.
      - destruct (Ho eq_refl) as [HD Hpd].
        destruct (bd_mmap dist so LAWS Hnn _ _ _ _ _ _ B el dname R cwd fs' dir name Hat dname (io_new_with_options dir name opts)) as (ep & Hep & Hl'); eauto.
        rewrite Hl' in Hl. injection Hl as <- _. eauto.
      - destruct (bd_plain dist so LAWS Hnn _ _ _ _ _ _ B el dname R cwd fs' dir name Hat dname (io_new_with_options dir name opts)) as (ep & Hep & Hl'); eauto.
        rewrite Hl' in Hl. injection Hl as <- _. eauto. }
    by apply good_next.
  - assert (B' : built dist so inv_ln M ml ef hist h').
    { eapply (built_reload_dist _ _ _ _ _ _ _ _ el dname dname cwd fs' (io_new dir name)); [exact B|exact R|exact U|exact HM|exact Hnd|exact Hat|done|exact Hl]. }
    destruct (bd_with_dist dist so LAWS Hnn _ _ _ _ _ _ B el dname R cwd fs' dir name Hat (io_new dir name)) as (ep & Hep & Hl'); eauto.
    rewrite Hl' in Hl. injection Hl as <- _. by apply good_next.
Qed.

Lemma good_cycles n h h' : good h -> cycles so el inv_ln dname cwd hist n h h' ->
  twin h h' /\ good h' /\ level_scale h' = Nat.iter n (f64_mul (inv_ln M)) (level_scale h).
Proof using All.
  intros G HC. induction HC as [h|n h h1 h2 HC IH Hcy]; [done|].
  destruct (IH G) as ([T1 T2 T3] & G1 & E1). destruct (good_cycle h1 h2 G1 Hcy) as ([S1 S2 S3] & G2 & E2).
  split; [split; congruence|]. split; [done|]. cbn [Nat.iter nat_rect]. by rewrite E2, E1.
Qed.

Lemma good_files h h' : good h -> good h' -> twin h h' ->
  exists a c, w_graph (dump el dname h Full) = a ++ u64_bytes (f64_bits (level_scale h)) ++ c /\
    w_graph (dump el dname h' Full) = a ++ u64_bytes (f64_bits (level_scale h')) ++ c /\ length a = 6%nat /\
    w_data (dump el dname h' Full) = w_data (dump el dname h Full).
Proof using All.
  intros [B R U O] [B' R' U' O'] [E1 E2 E3].
  destruct (built_facts dist so LAWS Hnn _ _ _ _ _ _ B) as (_ & Eml & EM & Eef & _).
  destruct (built_facts dist so LAWS Hnn _ _ _ _ _ _ B') as (_ & Eml' & EM' & Eef' & _).
  pose proof (bd_dumpable dist so LAWS Hnn _ _ _ _ _ _ B el dname R) as D.
  pose proof (bd_dumpable dist so LAWS Hnn _ _ _ _ _ _ B' el dname R') as D'.
  assert (Edim : get_data_dimension h' = get_data_dimension h) by (unfold get_data_dimension, get_pt; by rewrite E1, E2).
  destruct (description_scale (describe el dname Full h) (level_scale h')) as (a & c & A1 & A2 & A3).
  { unfold describe. cbn [de_nb_layer]. rewrite Eml. destruct R. unfold NB_LAYER_MAX. rewrite Nat.min_l by lia. done. }
  rewrite (dump_eq dist el (dr_elem _ _ _ _ _ R) h D dname (dr_dname _ _ _ _ _ R) (dr_tname _ _ _ _ _ R)).
  rewrite (dump_eq dist el (dr_elem _ _ _ _ _ R) h' D' dname (dr_dname _ _ _ _ _ R) (dr_tname _ _ _ _ _ R)).
  cbn [w_graph w_data]. unfold descg, headd. rewrite A1. rewrite Edim.
  assert (Ed : Description (format_version (describe el dname Full h)) (dumpmode (describe el dname Full h)) (de_max_nb_connection (describe el dname Full h)) (level_scale h')
    (de_nb_layer (describe el dname Full h)) (de_ef (describe el dname Full h)) (de_nb_point (describe el dname Full h)) (de_dimension (describe el dname Full h))
    (de_distname (describe el dname Full h)) (de_t_name (describe el dname Full h)) = describe el dname Full h').
  { unfold describe. cbn [format_version dumpmode de_max_nb_connection de_nb_layer de_ef de_nb_point de_dimension de_distname de_t_name].
    unfold get_max_nb_connection. by rewrite Edim, E3, EM, EM', Eml, Eml', Eef, Eef'. }
  rewrite Ed in A2. rewrite A2.
  assert (EL : lyg h' <$> points_by_layer h' = lyg h <$> points_by_layer h).
  { unfold lyg, ptg, to_nbs, to_nb, oid_at, get_pt. by rewrite E1. }
  assert (EE : entry_bytes h' = entry_bytes h) by (unfold entry_bytes, oid_at, get_pt; by rewrite E1, E2).
  rewrite EL, EE, E1. exists a, (c ++ u8_bytes 16 ++ concat (lyg h <$> points_by_layer h) ++ entry_bytes h).
  split; [by rewrite <- !app_assoc|]. split; [by rewrite <- !app_assoc|]. done.
Qed.
End Gen.

(** C88. However many times an index is dumped and reloaded, it keeps showing the same points, vectors, neighbour lists and answers, can be
    dumped and reloaded once more, and its files keep the same bytes, except the eight of the level scale, which is multiplied at each reload by
    the default scale of the number of connections. *)
Theorem C88_generations :
  forall {T} (dist : list T -> list T -> Z) so, StdLaws so -> (forall a b, (0 <= dist a b)%Z) ->
  forall inv_ln M ml ef hist h, built dist so inv_ln M ml ef hist h -> (M <= 255)%nat -> f64_ok (inv_ln M) = true ->
  forall el dname, dump_ready el dname ml hist h -> el_nodata el = false -> dname <> ""%string -> uniform h -> order_kept so h ->
  forall cwd n h', cycles so el inv_ln dname cwd hist n h h' ->
  (* what it shows *)
  iter_points h' = iter_points h /\ entry_point h' = entry_point h /\ get_nb_point h' = get_nb_point h /\
  same_lists h h' /\ same_vectors h h' /\
  (forall q k efa f, search_filter dist so h' q k efa f = search_filter dist so h q k efa f) /\
  max_nb_connection h' = max_nb_connection h /\ ef_construction h' = ef_construction h /\ max_layer h' = max_layer h /\
  (* the level scale *)
  level_scale h' = Nat.iter n (f64_mul (inv_ln M)) (level_scale h) /\
  (* its files, next to those of the first generation *)
  (forall fs dir base draws fs1 name fs' dir' base' draws' fs1' name',
     file_dump el dname cwd fs dir base draws h = (fs1, Ok name) ->
     file_dump el dname cwd fs' dir' base' draws' h' = (fs1', Ok name') ->
     exists a c d, length a = 6%nat /\
       dump_at fs1 cwd dir name (a ++ u64_bytes (f64_bits (level_scale h)) ++ c) d /\
       dump_at fs1' cwd dir' name' (a ++ u64_bytes (f64_bits (level_scale h')) ++ c) d) /\
  (* once more *)
  (forall fs dir base draws name, dump_basename cwd fs dir base (negb (datamap_opt h')) draws = Ok name ->
     exists fs' h1 h2, file_dump el dname cwd fs dir base draws h' = (fs', Ok name) /\
       load_hnsw so el inv_ln dname cwd fs' (io_new dir name) = Ok (h1, []) /\
       load_hnsw_with_dist so el inv_ln dname cwd fs' (io_new dir name) = Ok (h2, []) /\
       cycles so el inv_ln dname cwd hist (S n) h h1 /\ cycles so el inv_ln dname cwd hist (S n) h h2).
Proof.
  intros T dist so LAWS Hnn inv_ln M ml ef hist h B HM Hok el dname R Hnd Hdn U O cwd n h' HC.
  assert (G : good dist so inv_ln M ml ef hist el dname h) by done.
  destruct (good_cycles dist so LAWS Hnn inv_ln M ml ef hist el dname cwd HM Hnd Hdn Hok n h h' G HC) as (TW & G' & Esc).
  pose proof G' as [B' R' U' O'].
  pose proof (built_wf dist so LAWS Hnn _ _ _ _ _ _ B) as W. pose proof (built_wf dist so LAWS Hnn _ _ _ _ _ _ B') as W'.
  destruct (built_facts dist so LAWS Hnn _ _ _ _ _ _ B) as (_ & Eml & EM & Eef & _).
  destruct (built_facts dist so LAWS Hnn _ _ _ _ _ _ B') as (_ & Eml' & EM' & Eef' & _).
  destruct (twin_shows dist Hnn h h' W W' TW) as (SP & SL & SV).
  destruct (bd_entry dist so LAWS Hnn _ _ _ _ _ _ B el dname R) as [ep Hep].
  pose proof TW as [E1 E2 E3].
  split; [|split; [done|split; [done|split; [done|split; [done|split; [|split; [|split; [|split; [|split; [done|split]]]]]]]]]].
  - rewrite (iter_points_spec dist h ep W Hep), (iter_points_spec dist h' ep W') by congruence. unfold all_points. by rewrite E1.
  - intros q k efa f. by apply search_filter_same.
  - congruence.
  - congruence.
  - congruence.
  - intros fs dir base draws fs1 name fs' dir' base' draws' fs1' name' H1 H2.
    apply file_dump_at in H1 as [H1 _]. apply file_dump_at in H2 as [H2 _].
    destruct (good_files dist so LAWS Hnn inv_ln M ml ef hist el dname cwd HM Hnd Hdn Hok h h' G G' TW) as (a & c & A1 & A2 & A3 & A4).
    exists a, c, (w_data (dump el dname h Full)). rewrite A1 in H1. rewrite A2, A4 in H2. done.
  - intros fs dir base draws name Hn. destruct (bd_file_dump dist so LAWS Hnn _ _ _ _ _ _ B' el dname R' cwd fs dir base draws name Hn) as [fs' Hf].
    pose proof (file_dump_at _ _ _ _ _ _ _ _ _ _ Hf) as [Hat _]. destruct (rsplit_some dname Hdn) as [c Hc].
    destruct (bd_plain dist so LAWS Hnn _ _ _ _ _ _ B' el dname R' cwd fs' dir name Hat dname (io_new dir name)) as (ep1 & _ & H1); eauto.
    destruct (bd_with_dist dist so LAWS Hnn _ _ _ _ _ _ B' el dname R' cwd fs' dir name Hat (io_new dir name)) as (ep2 & _ & H2); eauto.
    exists fs'. eexists _, _. split; [done|]. split; [exact H1|]. split; [exact H2|]. split.
    + eapply cycles_S; [exact HC|]. exists fs, dir, base, draws, fs', name. split; [done|]. left. exists (io_options (io_new dir name)). eexists. split; [done|]. exact H1.
    + eapply cycles_S; [exact HC|]. exists fs, dir, base, draws, fs', name. split; [done|]. right. eexists. exact H2.
Qed.
Print Assumptions C88_generations.
(** An index whose default scale is 1/2; after two cycles its scale is 1/8. *)
Definition half_scale (_ : nat) : f64 := SpecFloat.S754_finite false 4503599627370496 (-53).
Definition exh_points : list (list Byte.byte * dataid * nat) :=
  [([Byte.x00; Byte.x01], 10%N, 0%nat); ([Byte.x0a; Byte.x02], 11%N, 2%nat); ([Byte.x14; Byte.x03], 12%N, 0%nat); ([Byte.x05; Byte.x04], 13%N, 0%nat);
   ([Byte.x0a; Byte.x05], 14%N, 2%nat)].
Definition mkh (inv_ln : nat -> f64) (M ml ef : nat) (l : list (list Byte.byte * dataid * nat)) : outcome (hnsw (T:=Byte.byte)) :=
  h ← hnsw_new inv_ln M ml ef; ins_all dB simple_ops l h.
Lemma mkh_built inv_ln M ml ef l h : mkh inv_ln M ml ef l = Ok h -> built dB simple_ops inv_ln M ml ef (fst <$> l) h.
Proof.
  unfold mkh. intros (h0 & E & H)%bind_inv. exact (ins_all_built _ _ _ _ _ _ _ [] _ _ (built_new _ _ _ _ _ _ _ E) H).
Qed.
Definition exh : hnsw (T:=Byte.byte) := Eval vm_compute in the (empty_b 2 16 10) (mkh half_scale 2 16 10 exh_points).
Lemma exh_built : built dB simple_ops half_scale 2 16 10 (fst <$> exh_points) exh.
Proof. apply mkh_built. vm_compute. reflexivity. Qed.
Definition exh_next (base : string) (h : hnsw (T:=Byte.byte)) : outcome (hnsw (T:=Byte.byte) * list pid) :=
  load_hnsw simple_ops el_u8 half_scale l1_name cwd0 (fst (file_dump el_u8 l1_name cwd0 fs0 tmp_dir base [] h)) (io_new tmp_dir base).
Lemma exh_cycle base h h' m : snd (file_dump el_u8 l1_name cwd0 fs0 tmp_dir base [] h) = Ok base -> exh_next base h = Ok (h', m) ->
  cycle simple_ops el_u8 half_scale l1_name cwd0 (fst <$> exh_points) h h'.
Proof.
  unfold exh_next. intros E1 E2. destruct (file_dump el_u8 l1_name cwd0 fs0 tmp_dir base [] h) as [fs' r] eqn:E. cbn [fst snd] in *. subst r.
  exists fs0, tmp_dir, base, [], fs', base. split; [done|]. left. exists (io_options (io_new tmp_dir base)), m. done.
Qed.
Definition exh1 : hnsw (T:=Byte.byte) := Eval vm_compute in (the (exh, []) (exh_next "b" exh)).1.
Definition exh2 : hnsw (T:=Byte.byte) := Eval vm_compute in (the (exh, []) (exh_next "c" exh1)).1.
Example C88_example : cycles simple_ops el_u8 half_scale l1_name cwd0 (fst <$> exh_points) 2 exh exh2 /\
  level_scale exh2 = SpecFloat.S754_finite false 4503599627370496 (-55) /\ entry_point exh2 = Some (1, 0)%nat.
Proof.
  split; [|by vm_compute]. apply (cycles_S _ _ _ _ _ _ 1 exh exh1 exh2).
  - apply (cycles_S _ _ _ _ _ _ 0 exh exh exh1); [constructor|]. apply (exh_cycle "b" exh exh1 []); vm_compute; reflexivity.
  - apply (exh_cycle "c" exh1 exh2 []); vm_compute; reflexivity.
Qed.
Example C88_example_hyps : built dB simple_ops half_scale 2 16 10 (fst <$> exh_points) exh /\ f64_ok (half_scale 2) = true /\
  dump_ready el_u8 l1_name 16 (fst <$> exh_points) exh /\ el_nodata el_u8 = false /\ l1_name <> ""%string /\ uniform exh /\ order_kept simple_ops exh.
Proof.
  split_and!; [exact exh_built|by vm_compute| |done|done| |].
  - apply ready_u8; [lia|done|vm_compute; reflexivity].
  - apply (uniform_check exh 2). vm_compute. reflexivity.
  - left. intros A key l. exact (simple_keeps_sorted A key l).
Qed.
