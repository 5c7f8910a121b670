(** Dump and reload: data maps, truncated files, thresholds. *)
From Coq Require Import SpecFloat Strings.Byte.
From stdpp Require Import strings sets.
From Verif Require Import Prelude Model Lib Table SearchProofs SelectProofs InsertProofs IterProofs.
From Verif Require Import Spec SpecProofs Io IoBase SpecIo IoProofs.

(* ------------------------------------------------------------------ *)
(** * What can be dumped *)
Lemma sized_dumpable {T} dist (el : elem T) (h : hnsw (T:=T)) :
  wf dist h -> max_layer h = NB_LAYER_MAX -> machine_sized el h -> dumpable dist el h.
Proof.
  intros Hwf Hl [S1 S2 S3 S4 S5].
  constructor; auto using wf_lwf.
  - intros p pt Hp. apply S4. by apply (point_at_pt dist).
  - intros p pt l nbs n Hp Hl' Hn.
    destruct (nbhd_ok dist h p pt Hwf Hp) as (lists & Hg & _ & Hspec).
    pose proof (nbhd_eq dist h pt p (wf_lwf _ _ Hwf) Hp) as Hg'. rewrite Hg in Hg'. injection Hg' as ->.
    assert (Hlk : (to_nbs h <$> pt_nbs pt) !! l = Some (to_nbs h nbs)) by (by rewrite list_lookup_fmap, Hl').
    apply (S5 p l (to_nbs h nbs) (to_nb h n)).
    + exists pt, (to_nbs h <$> pt_nbs pt). split_and!; auto. by apply (point_at_pt dist).
    + unfold to_nbs. apply elem_of_list_fmap. eauto.
Qed.

Lemma uniform_dim {T} dist (Hnn : forall a b : list T, (0 <= dist a b)%Z) (h : hnsw (T:=T)) ep : wf dist h -> entry_point h = Some ep -> uniform h -> uniform_table h.
Proof.
  intros Hwf He [dim Hu] p pt Hp.
  assert (Hl : forall p pt, get_pt h p = Some pt -> length (pt_data pt) = dim).
  { intros p' pt' Hp'. apply (Hu p'). apply (vector_at_pt dist Hnn h p'); eauto. }
  unfold get_data_dimension. rewrite He. pose proof (w_entry _ _ Hwf) as Hw. rewrite He in Hw.
  destruct Hw as [[pe Hpe] _]. rewrite Hpe. rewrite (Hl _ _ Hp), (Hl _ _ Hpe). done.
Qed.

(* ------------------------------------------------------------------ *)
(** * Data maps *)
Section DataMap.
Context {T : Type} (dist : list T -> list T -> Z).
Context (el : elem T) (Hel : elem_ok el).
Context (h : hnsw (T:=T)) (Hd : dumpable dist el h).
Context (dname : String.string) (Hdn : name_ok dname) (Htn : name_ok (el_name el)).
Context (Hu : uniform_table h).

(** the record of [pt] in the file [mm] has its length field at address [a] *)
Definition rec_at (mm : bytes) (a : nat) (pt : point (T:=T)) : Prop :=
  exists pre post, mm = pre ++ ptd el pt ++ post /\ a = (length pre + 12)%nat.

Definition map_ok (mm : bytes) (pts : list (point (T:=T))) (m : list (dataid * nat)) : Prop :=
  NoDup (fst <$> m) /\
  (forall id a, (id, a) ∈ m -> exists pt, pt ∈ pts /\ pt_oid pt = id /\ rec_at mm a pt) /\
  (forall pt, pt ∈ pts -> pt_oid pt ∈ (fst <$> m)) /\
  (forall id a, (id, a) ∈ m -> exists pt, last (filter (fun pt => pt_oid pt = id) pts) = Some pt /\ rec_at mm a pt) /\
  fst <$> m = first_seen (pt_oid <$> pts).

Lemma elem_of_first_seen l x : x ∈ first_seen l <-> x ∈ l.
Proof using.
  clear. induction l as [|y l IH]; cbn [first_seen]; [done|]. rewrite !elem_of_cons, elem_of_list_filter, IH. destruct (decide (x = y)); naive_solver.
Qed.
Lemma first_seen_snoc l x : first_seen (l ++ [x]) = if bool_decide (x ∈ l) then first_seen l else first_seen l ++ [x].
Proof using.
  clear. induction l as [|y l IH]; cbn [first_seen app]; [done|]. rewrite IH. destruct (decide (x = y)) as [->|Hne].
  - rewrite (bool_decide_true (y ∈ y :: l)) by left. case_bool_decide; [done|].
    rewrite filter_app, filter_cons_False by naive_solver. by rewrite filter_nil, app_nil_r.
  - destruct (decide (x ∈ l)).
    + rewrite !bool_decide_true; [done|by right|done].
    + rewrite !bool_decide_false; [|by rewrite not_elem_of_cons|done]. rewrite filter_app, filter_cons_True by done. done.
Qed.

Lemma imap_insert_keys k v m : fst <$> imap_insert k v m =
  if bool_decide (k ∈ (fst <$> m)) then fst <$> m else (fst <$> m) ++ [k].
Proof.
  induction m as [|[k' v'] m IH]; [done|]. cbn [imap_insert]. destruct (N.eqb_spec k' k) as [->|Hne].
  - rewrite bool_decide_true; [done|]. by left.
  - rewrite !fmap_cons, IH. cbn [fst]. destruct (decide (k ∈ (fst <$> m))) as [Hin|Hin].
    + rewrite !bool_decide_true; [done| |done]. by right.
    + rewrite !bool_decide_false; [done| |done]. rewrite elem_of_cons. naive_solver.
Qed.
Lemma imap_insert_elem k v m x : x ∈ imap_insert k v m -> x = (k, v) \/ x ∈ m.
Proof.
  induction m as [|[k' v'] m IH]; cbn [imap_insert].
  - rewrite elem_of_list_singleton. auto.
  - destruct (N.eqb_spec k' k) as [->|Hne]; rewrite !elem_of_cons; naive_solver.
Qed.
Lemma imap_get_elem k a m : imap_get k m = Some a -> (k, a) ∈ m.
Proof.
  induction m as [|[k' v'] m IH]; [done|]. cbn [imap_get]. destruct (N.eqb_spec k' k) as [->|].
  - intros [= ->]. by left.
  - intros. right. auto.
Qed.
Lemma imap_get_none k m : imap_get k m = None <-> k ∉ (fst <$> m).
Proof.
  induction m as [|[k' v'] m IH]; cbn [imap_get].
  - split; [intros _; apply not_elem_of_nil|done].
  - rewrite fmap_cons, not_elem_of_cons. cbn [fst]. destruct (N.eqb_spec k' k) as [->|]; [naive_solver|].
    rewrite IH. naive_solver.
Qed.

(** the value of the key just inserted *)
Lemma imap_insert_at k v m id a : NoDup (fst <$> m) -> (id, a) ∈ imap_insert k v m -> k = id -> a = v.
Proof using.
  clear. intros Hn Hin ->. induction m as [|[k' v'] m IH]; cbn [imap_insert] in Hin.
  - by apply elem_of_list_singleton in Hin as [= ->].
  - rewrite fmap_cons, NoDup_cons in Hn. cbn [fst] in Hn. destruct Hn as [Hk Hn]. destruct (N.eqb_spec k' id) as [->|Hne].
    + apply elem_of_cons in Hin as [[= ->]|Hin]; [done|]. by apply (elem_of_list_fmap_1 fst) in Hin.
    + apply elem_of_cons in Hin as [[= -> _]|Hin]; [done|]. auto.
Qed.

Lemma slice_mid pre b post n : n = length b -> slice (pre ++ b ++ post) (length pre) n = Ok b.
Proof.
  intros ->. unfold slice. rewrite !app_length.
  replace (_ <? _)%nat with false by lia. by rewrite drop_app, take_app.
Qed.

Lemma map_ok_insert mm pts m pt pre post :
  map_ok mm pts m -> mm = pre ++ ptd el pt ++ post ->
  map_ok mm (pts ++ [pt]) (imap_insert (pt_oid pt) (length pre + 12) m).
Proof.
  intros (H1 & H2 & H3 & H4 & H5) Hmm. split_and!.
  - rewrite imap_insert_keys. case_bool_decide; [done|]. apply NoDup_app. split_and!; auto.
    + intros x Hx. rewrite elem_of_list_singleton. naive_solver.
    + apply NoDup_singleton.
  - intros id a Hin. apply imap_insert_elem in Hin as [[= -> ->]|Hin].
    + exists pt. split_and!; auto; [set_solver|]. by exists pre, post.
    + destruct (H2 _ _ Hin) as (pt' & ? & ? & ?). exists pt'. split_and!; auto. set_solver.
  - intros pt' Hin. rewrite imap_insert_keys. case_bool_decide; set_solver.
  - intros id a Hin. rewrite filter_app. destruct (decide (pt_oid pt = id)) as [Heq|Hne].
    + rewrite filter_cons_True, filter_nil, last_snoc by done. exists pt. split; [done|].
      rewrite (imap_insert_at _ _ _ _ _ H1 Hin Heq). by exists pre, post.
    + rewrite filter_cons_False, filter_nil, app_nil_r by done. apply imap_insert_elem in Hin as [[= -> _]|Hin]; [done|]. by apply H4.
  - rewrite imap_insert_keys, fmap_app. cbn [fmap list_fmap]. rewrite first_seen_snoc, H5. 
    destruct (decide (pt_oid pt ∈ (pt_oid <$> pts))).
    + rewrite !bool_decide_true; [done|done|]. by rewrite elem_of_first_seen.
    + rewrite !bool_decide_false; [done|done|]. by rewrite elem_of_first_seen.
Qed.

(** addresses of the records of [pts] from [a] on *)
Fixpoint recs (a : nat) (pts : list (point (T:=T))) : list (dataid * nat) :=
  match pts with
  | [] => []
  | pt :: pts => (pt_oid pt, (a + 12)%nat) :: recs (a + (20 + get_data_dimension h * el_size el)) pts
  end.
Lemma imap_insert_new k v m : k ∉ (fst <$> m) -> imap_insert k v m = m ++ [(k, v)].
Proof using.
  clear. induction m as [|[k' v'] m IH]; [done|]. cbn [imap_insert]. rewrite fmap_cons, not_elem_of_cons. cbn [fst]. intros [Hne Hn].
  destruct (N.eqb_spec k' k); [congruence|]. by rewrite IH.
Qed.

Lemma map_records_ok mm pts : forall dn pre post m,
  (forall pt, pt ∈ pts -> exists p, get_pt h p = Some pt) ->
  mm = pre ++ concat (ptd el <$> pts) ++ post -> map_ok mm dn m ->
  exists m', map_records el mm (N.of_nat (get_data_dimension h)) (length pts) (length pre) m = Ok m' /\
    map_ok mm (dn ++ pts) m' /\
    (NoDup ((fst <$> m) ++ (pt_oid <$> pts)) -> fst <$> m' = (fst <$> m) ++ (pt_oid <$> pts)) /\
    (NoDup ((fst <$> m) ++ (pt_oid <$> pts)) -> m' = m ++ recs (length pre) pts).
Proof using All.
  induction pts as [|pt pts IH]; intros dn pre post m Hin Hmm Hm.
  { exists m. cbn [fmap list_fmap length map_records recs]. rewrite !app_nil_r. split; [done|]. split; [done|]. by split. }
  destruct (Hin pt) as [p Hp]; [by left|]. destruct (du_pt _ _ _ Hd _ _ Hp) as (B1 & B2 & B3 & B4).
  pose proof (Hu _ _ Hp) as Hlen.
  cbn [length map_records fmap list_fmap concat] in *.
  assert (Hmm' : mm = pre ++ ptd el pt ++ (concat (ptd el <$> pts) ++ post)) by (by rewrite Hmm, <- !app_assoc).
  set (rest := concat (ptd el <$> pts) ++ post) in *.
  assert (S1 : slice mm (length pre) 4 = Ok (u32_bytes MAGICDATAP)).
  { rewrite Hmm'. unfold ptd. rewrite <- !app_assoc. by apply slice_mid. }
  assert (S2 : slice mm (length pre + 4) 8 = Ok (u64_bytes (pt_oid pt))).
  { rewrite Hmm'. unfold ptd. rewrite <- !app_assoc.
    rewrite (app_assoc pre). replace (length pre + 4)%nat with (length (pre ++ u32_bytes MAGICDATAP)) by (by rewrite app_length).
    by apply slice_mid. }
  assert (S3 : slice mm (length pre + 12) 8 = Ok (u64_bytes (N.of_nat (length (enc_vec el (pt_data pt)))))).
  { rewrite Hmm'. unfold ptd. rewrite <- !app_assoc.
    rewrite (app_assoc pre), (app_assoc (pre ++ _)).
    replace (length pre + 12)%nat with (length ((pre ++ u32_bytes MAGICDATAP) ++ u64_bytes (pt_oid pt)))
      by (rewrite !app_length; cbn; lia).
    by apply slice_mid. }
  assert (S4 : slice mm (length pre + 20) (length (enc_vec el (pt_data pt))) = Ok (enc_vec el (pt_data pt))).
  { rewrite Hmm'. unfold ptd. rewrite <- !app_assoc.
    rewrite (app_assoc pre), (app_assoc (pre ++ _)), (app_assoc ((pre ++ _) ++ _)).
    replace (length pre + 20)%nat with (length (((pre ++ u32_bytes MAGICDATAP) ++ u64_bytes (pt_oid pt)) ++
      u64_bytes (N.of_nat (length (enc_vec el (pt_data pt)))))) by (rewrite !app_length; cbn; lia).
    by apply slice_mid. }
  rewrite S1. cbn [mbind outcome_bind]. unfold u32_bytes at 1. rewrite le_val_bytes by (by vm_compute).
  rewrite N.eqb_refl. cbn [assert_ mbind outcome_bind]. rewrite S2. cbn [mbind outcome_bind].
  rewrite S3. cbn [mbind outcome_bind]. unfold u64_bytes. rewrite !le_val_bytes by (first [done|by rewrite (enc_vec_length el Hel)]).
  rewrite Nat2N.id, S4. cbn [mbind outcome_bind].
  assert (S5 : from_raw_parts el (enc_vec el (pt_data pt)) (N.of_nat (get_data_dimension h)) = Ok (pt_data pt)).
  { rewrite <- Hlen, <- (app_nil_r (enc_vec el (pt_data pt))). by apply from_raw_enc. }
  rewrite S5. cbn [mbind outcome_bind].
  edestruct (IH (dn ++ [pt]) (pre ++ ptd el pt) post) as (m' & Hm1 & Hm2 & Hm3 & Hm4); [| |by eapply map_ok_insert|].
  { intros pt' Hpt'. apply Hin. by right. }
  { rewrite Hmm'. unfold rest. by rewrite <- !app_assoc. }
  exists m'. split_and!.
  - rewrite <- Hm1. f_equal. rewrite app_length. unfold ptd. rewrite !app_length.
    unfold u32_bytes, u64_bytes. rewrite !le_bytes_length. lia.
  - by rewrite <- app_assoc in Hm2.
  - intros HND. rewrite imap_insert_keys in Hm3.
    rewrite bool_decide_false in Hm3.
    + rewrite Hm3; by rewrite <- app_assoc.
    + intros Hk. apply NoDup_app in HND as (_ & HND & _). apply (HND _ Hk). by left.
  - intros HND.
    assert (Hk : pt_oid pt ∉ (fst <$> m)).
    { intros Hk. apply NoDup_app in HND as (_ & HND & _). apply (HND _ Hk). by left. }
    rewrite imap_insert_new in Hm4 by done. rewrite Hm4 by (by rewrite fmap_app, <- app_assoc).
    rewrite <- app_assoc. cbn [app recs]. do 3 f_equal. rewrite app_length. unfold ptd. rewrite !app_length.
    unfold u32_bytes, u64_bytes. rewrite !le_bytes_length, (enc_vec_length el Hel), Hlen. lia.
Qed.

Lemma concat_lyd : concat (lyd el <$> points_by_layer h) = concat (ptd el <$> all_points h).
Proof.
  unfold all_points. induction (points_by_layer h) as [|ly ls IH]; [done|].
  cbn [fmap list_fmap concat]. rewrite fmap_app, concat_app, IH. done.
Qed.

Lemma data_length (pts : list (point (T:=T))) : (forall pt, pt ∈ pts -> exists p, get_pt h p = Some pt) ->
  length (concat (ptd el <$> pts)) = (length pts * (20 + get_data_dimension h * el_size el))%nat.
Proof using All.
  induction pts as [|pt pts IH]; intros H; [done|]. cbn [fmap list_fmap concat length].
  rewrite app_length, IH by (intros; apply H; by right). destruct (H pt) as [p Hp]; [by left|].
  unfold ptd. rewrite !app_length, (enc_vec_length el Hel), (Hu _ _ Hp).
  unfold u32_bytes, u64_bytes. rewrite !le_bytes_length. lia.
Qed.

Lemma rec_get mm a pt : rec_at mm a pt -> length (pt_data pt) = get_data_dimension h ->
  (_ ← slice mm a 8; _ ← slice mm (a + 8) 0;
   v ← from_raw_parts el (drop (a + 8) mm) (N.of_nat (get_data_dimension h)); Ok (Some v)) = Ok (Some (pt_data pt)).
Proof using All.
  intros (pre & post & -> & ->) Hlen. unfold slice, ptd.
  assert (E : pre ++ (u32_bytes MAGICDATAP ++ u64_bytes (pt_oid pt) ++
     u64_bytes (N.of_nat (length (enc_vec el (pt_data pt)))) ++ enc_vec el (pt_data pt)) ++ post
    = (pre ++ u32_bytes MAGICDATAP ++ u64_bytes (pt_oid pt) ++ u64_bytes (N.of_nat (length (enc_vec el (pt_data pt)))))
       ++ enc_vec el (pt_data pt) ++ post) by (by rewrite <- !app_assoc).
  rewrite E. clear E.
  set (hd := pre ++ u32_bytes MAGICDATAP ++ u64_bytes (pt_oid pt) ++ u64_bytes (N.of_nat (length (enc_vec el (pt_data pt))))).
  assert (Hl : length hd = (length pre + 20)%nat).
  { unfold hd. rewrite !app_length. unfold u32_bytes, u64_bytes. rewrite !le_bytes_length. lia. }
  rewrite app_length. replace (length hd + _ <? length pre + 12 + 8)%nat with false by lia. cbn [mbind outcome_bind].
  replace (length hd + _ <? length pre + 12 + 8 + 0)%nat with false by lia. cbn [mbind outcome_bind].
  replace (length pre + 12 + 8)%nat with (length hd) by lia. rewrite drop_app, <- Hlen, (from_raw_enc el Hel). done.
Qed.

Lemma datamap_ok_addr g d : g = w_graph (dump el dname h Full) -> d = w_data (dump el dname h Full) ->
  exists m, datamap_of el g d = Ok (DataMap d m (el_name el) (N.of_nat (get_data_dimension h)) dname) /\
    map_ok d (all_points h) m /\
    (NoDup (pt_oid <$> all_points h) -> fst <$> m = pt_oid <$> all_points h) /\
    (NoDup (pt_oid <$> all_points h) -> m = recs 12 (all_points h)).
Proof using All.
  intros Hg Hdd. unfold datamap_of.
  pose proof (pars_descg dist el Hel h Hd dname Hdn Htn) as Hdesc.
  rewrite (dump_eq dist el Hel h Hd dname Hdn Htn) in Hg, Hdd. cbn [w_graph w_data] in Hg, Hdd.
  set (rest := u8_bytes 16 ++ concat (lyg h <$> points_by_layer h) ++ entry_bytes h) in Hg.
  pose proof (pars_panic _ _ _ _ Hdesc rest []) as HP. rewrite <- Hg in HP. cbn [app] in HP. rewrite HP. clear HP.
  cbn [mbind outcome_bind format_version de_read]. change (4 <=? 2)%N with false. cbv iota.
  cbn [de_t_name]. rewrite String.eqb_refl. cbn [negb de_dimension de_distname].
  rewrite concat_lyd in Hdd. unfold headd in Hdd.
  assert (S1 : slice d 0 4 = Ok (u32_bytes MAGICDATAP)).
  { rewrite Hdd, <- app_assoc. apply (slice_mid []). done. }
  assert (S2 : slice d 4 8 = Ok (u64_bytes (N.of_nat (get_data_dimension h)))).
  { rewrite Hdd, <- app_assoc. apply (slice_mid (u32_bytes MAGICDATAP)). done. }
  rewrite S1. cbn [mbind outcome_bind]. unfold u32_bytes at 1. rewrite le_val_bytes by (by vm_compute).
  rewrite N.eqb_refl. cbn [assert_ mbind outcome_bind]. rewrite S2. cbn [mbind outcome_bind].
  unfold u64_bytes at 1 2. rewrite le_val_bytes by (apply (dim_lt dist el h Hd)). rewrite N.eqb_refl. cbn [negb].
  assert (Hall : forall pt, pt ∈ all_points h -> exists p, get_pt h p = Some pt) by (intros pt; apply elem_of_all_points).
  assert (Hcnt : N.to_nat (N.of_nat (length d - 12) / (20 + N.of_nat (get_data_dimension h) * N.of_nat (el_size el)))
            = length (all_points h)).
  { rewrite Hdd, app_length, data_length by done.
    replace (length (u32_bytes MAGICDATAP ++ u64_bytes (N.of_nat (get_data_dimension h)))) with 12%nat by done.
    replace (12 + length (all_points h) * (20 + get_data_dimension h * el_size el) - 12)%nat
      with (length (all_points h) * (20 + get_data_dimension h * el_size el))%nat by lia.
    rewrite Nat2N.inj_mul, Nat2N.inj_add, Nat2N.inj_mul. change (N.of_nat 20) with 20%N.
    rewrite N.div_mul by lia. by rewrite Nat2N.id. }
  unfold u64_bytes. rewrite le_val_bytes by (apply (dim_lt dist el h Hd)). rewrite Hcnt.
  destruct (map_records_ok d (all_points h) [] (u32_bytes MAGICDATAP ++ u64_bytes (N.of_nat (get_data_dimension h))) [] [])
    as (m & Hm1 & Hm2 & Hm3 & Hm4); auto.
  { by rewrite app_nil_r. }
  { split_and!; [apply NoDup_nil_2| | | |done].
    - intros ? ? Hx. by apply elem_of_nil in Hx.
    - intros ? Hx. by apply elem_of_nil in Hx.
    - intros ? ? Hx. by apply elem_of_nil in Hx. }
  exists m. split_and!; auto.
  change (length (u32_bytes MAGICDATAP ++ u64_bytes (N.of_nat (get_data_dimension h)))) with 12%nat in Hm1.
  rewrite Hm1. done.
Qed.
Lemma datamap_ok g d : g = w_graph (dump el dname h Full) -> d = w_data (dump el dname h Full) ->
  exists m, datamap_of el g d = Ok (DataMap d m (el_name el) (N.of_nat (get_data_dimension h)) dname) /\
    map_ok d (all_points h) m /\
    (NoDup (pt_oid <$> all_points h) -> fst <$> m = pt_oid <$> all_points h).
Proof using All. intros Hg Hdd. destruct (datamap_ok_addr g d Hg Hdd) as (m & H1 & H2 & H3 & _). exists m. by split. Qed.
Lemma recs_lookup pts a i pt : pts !! i = Some pt -> recs a pts !! i = Some (pt_oid pt, (a + 12 + i * (20 + get_data_dimension h * el_size el))%nat).
Proof using.
  clear. revert a i. induction pts as [|pt' pts IH]; intros a [|i] Hi; try done.
  - injection Hi as ->. cbn [recs lookup list_lookup]. do 2 f_equal. lia.
  - cbn [recs]. change (recs (a + (20 + get_data_dimension h * el_size el)) pts !! i = Some (pt_oid pt, (a + 12 + S i * (20 + get_data_dimension h * el_size el))%nat)).
    rewrite (IH _ i Hi). do 2 f_equal. lia.
Qed.

Lemma dm_get_ok d m id : map_ok d (all_points h) m ->
  match dm_get_data el (DataMap d m (el_name el) (N.of_nat (get_data_dimension h)) dname) id with
  | Ok (Some v) => exists p pt, get_pt h p = Some pt /\ pt_oid pt = id /\ pt_data pt = v
  | Ok None => forall p pt, get_pt h p = Some pt -> pt_oid pt <> id
  | _ => False
  end.
Proof using All.
  intros (H1 & H2 & H3 & _). unfold dm_get_data. cbn [dm_map dm_mmap dm_dimension].
  destruct (imap_get id m) as [a|] eqn:E.
  - apply imap_get_elem, H2 in E as (pt & Hin & Hid & Hr). apply elem_of_all_points in Hin as [p Hp].
    rewrite (rec_get d a pt Hr (Hu _ _ Hp)). eauto.
  - apply imap_get_none in E. intros p pt Hp <-. apply E, H3. apply elem_of_all_points. eauto.
Qed.

Lemma dm_get_last d m id : map_ok d (all_points h) m ->
  dm_get_data el (DataMap d m (el_name el) (N.of_nat (get_data_dimension h)) dname) id = Ok (last_vector (all_points h) id).
Proof using All.
  intros (H1 & H2 & H3 & H4 & H5). unfold dm_get_data, last_vector. cbn [dm_map dm_mmap dm_dimension].
  destruct (imap_get id m) as [a|] eqn:E.
  - apply imap_get_elem, H4 in E as (pt & Hl & Hr). rewrite Hl. cbn [fmap option_fmap option_map].
    assert (Hin : pt ∈ all_points h).
    { apply last_Some in Hl as [l' Hl]. assert (Hpt : pt ∈ filter (fun pt => pt_oid pt = id) (all_points h)) by (rewrite Hl; set_solver).
      by apply elem_of_list_filter in Hpt as [_ ?]. }
    apply elem_of_all_points in Hin as [p Hp]. by rewrite (rec_get d a pt Hr (Hu _ _ Hp)).
  - apply imap_get_none in E. destruct (last _) as [pt|] eqn:El; [|done]. exfalso. apply E.
    apply last_Some in El as [l' Hl]. assert (Hpt : pt ∈ filter (fun pt => pt_oid pt = id) (all_points h)) by (rewrite Hl; set_solver).
    apply elem_of_list_filter in Hpt as [<- ?]. by apply H3.
Qed.

Lemma all_oid_inj p pt p' pt' : NoDup (pt_oid <$> all_points h) ->
  get_pt h p = Some pt -> get_pt h p' = Some pt' -> pt_oid pt = pt_oid pt' -> pt = pt'.
Proof using All.
  intros HND Hp Hp' E.
  assert (H1 : pt ∈ all_points h) by (apply elem_of_all_points; eauto).
  assert (H2 : pt' ∈ all_points h) by (apply elem_of_all_points; eauto).
  apply elem_of_list_lookup in H1 as [i Hi]. apply elem_of_list_lookup in H2 as [j Hj].
  assert (i = j) as ->; [|congruence].
  eapply NoDup_lookup; [exact HND| |].
  - rewrite list_lookup_fmap, Hi. done.
  - rewrite list_lookup_fmap, Hj. simpl. by rewrite E.
Qed.

Lemma dm_get_unique d m p pt : map_ok d (all_points h) m -> NoDup (pt_oid <$> all_points h) -> get_pt h p = Some pt ->
  dm_get_data el (DataMap d m (el_name el) (N.of_nat (get_data_dimension h)) dname) (pt_oid pt) = Ok (Some (pt_data pt)).
Proof using All.
  intros Hm HND Hp. pose proof (dm_get_ok d m (pt_oid pt) Hm) as H.
  destruct (dm_get_data _ _ _) as [[v|]| | | | |]; try done.
  - destruct H as (p' & pt' & Hp' & E & <-). by rewrite (all_oid_inj p pt p' pt').
  - by specialize (H _ _ Hp).
Qed.
End DataMap.

(* ------------------------------------------------------------------ *)
(** * Which points are mapped *)
Section Mapped.
Context {T T' : Type} (dist : list T -> list T -> Z) (h : hnsw (T:=T)) (opts : reload_options).
Context (vd : point (T:=T) -> list T').

Lemma concat_raw_lys still ls : concat (raw_lys h opts vd still ls) = raw_pts h opts vd still (concat ls).
Proof.
  revert still. induction ls as [|ly ls IH]; intros still; [done|]. cbn [raw_lys concat]. rewrite IH. clear IH.
  revert still. induction ly as [|pt ly IH]; intros still; cbn [raw_pts length app].
  - by rewrite Z.sub_0_r.
  - f_equal. rewrite <- IH. do 2 f_equal. lia.
Qed.

Lemma raw_pid_pt (pt : point (T:=T)) b : raw_pid (raw_pt h vd pt b) = pt_pid pt.
Proof. unfold raw_pid, raw_pt. cbn. rewrite Nat2N.id, Nat2Z.id. by destruct (pt_pid pt). Qed.

Lemma filter_raw still pts k : ro_datamap opts = true -> as_i64 (ro_threshold opts) = k ->
  (Z.of_nat (length pts) <= still)%Z ->
  raw_pid <$> List.filter rp_mapped (raw_pts h opts vd still pts) = pt_pid <$> take (Z.to_nat (still - k)) pts.
Proof.
  intros Ho Hk. revert still. induction pts as [|pt pts IH]; intros still Hs; cbn [raw_pts length] in *.
  - by rewrite take_nil.
  - cbn [List.filter]. unfold raw_pt at 1, point_use_mmap at 1. cbn [rp_mapped]. rewrite Ho, Hk.
    destruct (Z.leb_spec still k) as [H|H]; cbn [negb].
    + rewrite IH by lia. by replace (Z.to_nat (still - k)) with 0%nat by lia; replace (Z.to_nat (still - 1 - k)) with 0%nat by lia.
    + replace (Z.to_nat (still - k)) with (S (Z.to_nat (still - 1 - k))) by lia. cbn [take].
      rewrite !fmap_cons, IH by lia. by rewrite raw_pid_pt.
Qed.

Lemma mapped_off : ro_datamap opts = false -> mapped_of h opts vd = [].
Proof.
  intros Ho. unfold mapped_of. rewrite concat_raw_lys. generalize (Z.of_nat (nb_point h)), (concat (points_by_layer h)).
  intros st pts. revert st. induction pts as [|pt pts IH]; intros st; [done|]. cbn [raw_pts List.filter].
  unfold raw_pt at 1, point_use_mmap at 1. cbn [rp_mapped]. rewrite Ho. apply IH.
Qed.

Lemma mapped_on : lwf dist h -> ro_datamap opts = true ->
  mapped_of h opts vd = pt_pid <$> take (Z.to_nat (Z.of_nat (length (all_points h)) - as_i64 (ro_threshold opts))) (all_points h).
Proof.
  intros Hwf Ho. unfold mapped_of. rewrite concat_raw_lys.
  assert (E : nb_point h = length (all_points h)) by (rewrite all_points_length; apply (l_count _ _ Hwf)).
  rewrite E. rewrite (filter_raw _ _ _ Ho eq_refl); [done|]. unfold all_points. lia.
Qed.
End Mapped.
