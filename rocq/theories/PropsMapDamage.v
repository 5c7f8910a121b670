(** Property C103 for a reload with a memory map. *)
From Coq Require Import SpecFloat Strings.Byte Strings.String.
From stdpp Require Import strings sets relations.
From Verif Require Import Prelude Model StdInst Lib Table SearchProofs InsertProofs IterProofs Spec SpecProofs Io IoBase
  SpecIo SpecBuilt IoProofs IoProofs2 IoProofs3 IoProofs4 IoProofs5 BuiltProofs ReloadProofs SpecFile FileProofs Examples ExamplesIo PropsIo PropsIo2
  PropsFile SpecMapLoad MapLoad MapLoadProofs PropsMapLoad SpecDamage DamageProofs DamageProofs2 PropsDamage.
Local Open Scope list_scope.
Notation length := List.length.

(** records that are long enough and fill a file of the length of the dumped one are exactly long enough *)
Lemma tight t t' s rest' : same_text t t' -> Forall (fun r : dataid * bytes => length r.2 = s) (rec_of <$> concat (tx_layers t)) ->
  Forall (fun r : dataid * bytes => (s <= length r.2)%nat) (rec_of <$> concat (tx_layers t')) ->
  length (data_text t' ++ rest') = length (data_text t) ->
  Forall (fun r : dataid * bytes => length r.2 = s) (rec_of <$> concat (tx_layers t')) /\ rest' = [].
Proof.
  intros Hst Hrs Hlong L. pose proof (Forall2_length _ _ _ (same_tp_concat _ _ (st_layers _ _ Hst))) as EC.
  rewrite !data_text_recs, !app_length, (recs_len _ s Hrs), (fmap_length rec_of (concat (tx_layers t))) in L.
  assert (E8 : forall n, length (u64_bytes n) = 8%nat) by done. rewrite !E8 in L.
  assert (LL : (length (concat (rec_text <$> (rec_of <$> concat (tx_layers t')))) + length rest' = length (rec_of <$> concat (tx_layers t')) * (20 + s))%nat).
  { rewrite (fmap_length rec_of (concat (tx_layers t'))), <- EC. lia. }
  split; [apply recs_tight; [done|lia]|]. pose proof (recs_long _ _ Hlong). apply nil_length_inv. lia.
Qed.

(** with different ids the map gives each id the vector of its record *)
Lemma mapped_own {T} (el : elem T) t (rs : list (dataid * bytes)) i r : NoDup rs.*1 -> rs !! i = Some r ->
  mapped_vector el t rs r.1 = Some (dec_vec el (N.to_nat (tx_dim t)) r.2).
Proof.
  intros Hnd Hi. unfold mapped_vector.
  assert (E : filter (fun x : dataid * bytes => x.1 = r.1) rs = [r]); [|by rewrite E].
  apply elem_of_list_split_length in Hi as (l1 & l2 & -> & _). rewrite fmap_app, fmap_cons in Hnd.
  apply NoDup_app in Hnd as (_ & H1 & H2). apply NoDup_cons in H2 as [H2 _].
  assert (Hno : forall l : list (dataid * bytes), r.1 ∉ l.*1 -> filter (fun x : dataid * bytes => x.1 = r.1) l = []).
  { intros l Hl. induction l as [|x l IH]; [done|]. rewrite fmap_cons in Hl. apply not_elem_of_cons in Hl as [Hx Hl].
    rewrite filter_cons, decide_False by congruence. by apply IH. }
  rewrite filter_app, filter_cons, decide_True by done. rewrite Hno, Hno; [done|done|].
  intros Hin. apply (H1 _ Hin). left.
Qed.

(** the index with and without its vectors *)
Lemma stands_bare {T} so (el : elem T) inv_ln t h : stands_for so el inv_ln t h -> stands_for so (no_vectors el) inv_ln t (without_vectors h).
Proof.
  intros [A1 A2 A3 A4 A5 A6 A7 A8 A9 [L P]]. constructor; try done. split; [cbn; by rewrite fmap_length|].
  intros l ps Hl. destruct (P l ps Hl) as (pts & Hp & E & R). exists ((fun p => Point [] (pt_oid p) (pt_pid p) (pt_nbs p)) <$> pts).
  split; [cbn; by rewrite list_lookup_fmap, Hp|]. split; [by rewrite fmap_length|].
  intros r p Hr. destruct (R r p Hr) as (pt & Hpt & _ & B & C & D). eexists. split; [by rewrite list_lookup_fmap, Hpt|]. by split_and!.
Qed.
Lemma stands_dress {T} so (el : elem T) inv_ln t h : stands_for so (no_vectors el) inv_ln t (without_vectors h) ->
  (forall i p pt, concat (tx_layers t) !! i = Some p -> concat (points_by_layer h) !! i = Some pt -> spelled el (tx_version t) (tx_dim t) (tp_bytes p) (pt_data pt)) ->
  stands_for so el inv_ln t h.
Proof.
  intros G HV. pose proof G as [A1 A2 A3 A4 A5 A6 A7 A8 A9 [L P]]. cbn in L. rewrite fmap_length in L.
  assert (P' : forall l ps, tx_layers t !! l = Some ps -> exists pts, points_by_layer h !! l = Some pts /\ length pts = length ps /\
    forall r p, ps !! r = Some p -> exists pt, pts !! r = Some pt /\ pt_oid pt = tp_id p /\ pt_pid pt = (l, r) /\
      pt_nbs pt = ((fun ns => u_sort so nbr n_dist (nbr_of <$> ns)) <$> tp_lists p) ++ replicate (16 - N.to_nat (tx_lists t)) []).
  { intros l ps Hl. destruct (P l ps Hl) as (pts & Hp & E & R). cbn in Hp. rewrite list_lookup_fmap in Hp.
    destruct (points_by_layer h !! l) as [q|]; [|done]. injection Hp as <-. rewrite fmap_length in E. exists q. split_and!; auto.
    intros r p Hr. destruct (R r p Hr) as (pt & Hpt & _ & B & C & D). rewrite list_lookup_fmap in Hpt.
    destruct (q !! r) as [x|]; [|done]. injection Hpt as <-. exists x. done. }
  constructor; try done. split; [done|]. intros l ps Hl. destruct (P' l ps Hl) as (pts & Hp & E & R). exists pts. split_and!; auto.
  intros r p Hr. destruct (R r p Hr) as (pt & Hpt & B & C & D). exists pt. split; [done|]. split_and!; auto.
  (* the same position in both lists *)
  assert (HF : Forall2 (Forall2 (fun p pt => True)) (tx_layers t) (points_by_layer h)).
  { apply Forall2_same_length_lookup_2; [done|]. intros l' ps' pts' Hl' Hp'. destruct (P' l' ps' Hl') as (q & Hq & Eq & _).
    assert (q = pts') as -> by congruence. apply Forall2_same_length_lookup_2; [done|]. done. }
  assert (Hpos : exists i, concat (tx_layers t) !! i = Some p /\ concat (points_by_layer h) !! i = Some pt).
  { clear -HF Hl Hp Hr Hpt. revert l Hl Hp. induction HF as [|ps' pts' ls ls' HH HF IH]; intros [|l] Hl Hp; try done.
    - injection Hl as ->. injection Hp as ->. exists r. cbn [concat]. split; by apply lookup_app_l_Some.
    - cbn in Hl, Hp. destruct (IH l Hl Hp) as (i & H1 & H2). apply Forall2_length in HH. exists (length ps' + i)%nat. cbn [concat]. split.
      + rewrite lookup_app_r by lia. rewrite <- H1. f_equal. lia.
      + rewrite lookup_app_r by lia. rewrite <- H2. f_equal. lia. }
  destruct Hpos as (i & H1 & H2). by eapply HV.
Qed.

(** C103 with a memory map: for a data file of the length of the dumped one, whatever it contains, a reload with the map accepts what a reload in memory
    accepts (see [C103_data_damage]) and gives the same index, whatever the threshold. As in C34, the ids are different and the directory is absolute or
    the working directory. *)
Theorem C103_mapped_damage :
  forall {T} (dist : list T -> list T -> Z) so, StdLaws so -> (forall a b, (0 <= dist a b)%Z) ->
  forall inv_ln M ml ef hist h, built dist so inv_ln M ml ef hist h -> distinct_ids hist ->
  forall el dname, dump_ready el dname ml hist h -> el_nodata el = false -> uniform h ->
  forall cwd fs dir base draws fs' name, plain_dir dir -> file_dump el dname cwd fs dir base draws h = (fs', Ok name) ->
  forall dname' c, last_component dname c -> last_component dname' c ->
  exists g d, dump_at fs' cwd dir name g d /\
    forall d' fs'' threshold, length d' = length d -> dump_at fs'' cwd dir name g d' ->
    forall h1, (exists mapped, load_hnsw so el inv_ln dname' cwd fs'' (io_new_with_options dir name (ROptions true threshold)) = Ok (h1, mapped)) <->
      load_hnsw so el inv_ln dname' cwd fs'' (io_new dir name) = Ok (h1, []).
Proof.
  intros T dist so LAWS Hnn inv_ln M ml ef hist h Hb Hdist el dname Hr Hnd Hu cwd fs dir base draws fs' name Hpl Hf dname' c Hc Hc'.
  destruct (dumped_text dist so LAWS Hnn inv_ln M ml ef hist h Hb el dname Hr Hnd Hu cwd fs dir base draws fs' name Hf dname' c Hc Hc')
    as (t & h0 & Hat & HL & F & S & G & Edm & Hn & Hv & Edim & Erecs & Hlen & Hd64).
  pose proof (dr_elem _ _ _ _ _ Hr) as Hel. set (s := (get_data_dimension h * el_size el)%nat).
  assert (Hrs : Forall (fun r : dataid * bytes => length r.2 = s) (rec_of <$> concat (tx_layers t))).
  { rewrite Erecs. apply Forall_forall. intros r (pt & -> & Hin)%elem_of_list_fmap. cbn [snd]. rewrite (enc_vec_length el Hel). by rewrite (Hlen pt Hin). }
  assert (Hids : NoDup (rec_of <$> concat (tx_layers t)).*1).
  { rewrite Erecs, <- list_fmap_compose. destruct (built_facts dist so LAWS Hnn _ _ _ _ _ _ Hb) as (_ & _ & _ & _ & Hst & _).
    unfold distinct_ids in Hdist. rewrite <- Hst in Hdist. unfold stored in Hdist. rewrite <- list_fmap_compose in Hdist. exact Hdist. }
  exists (graph_text t), (data_text t). split; [done|]. intros d' fs'' threshold Ld Hat'' h1.
  set (io := io_new_with_options dir name (ROptions true threshold)).
  assert (H99 := fun mapped => proj1 (C99_mapped_exactly so LAWS el inv_ln dname' cwd fs'' io h1 mapped eq_refl eq_refl Hpl)).
  destruct (C80_accepted_exactly so LAWS el inv_ln dname' cwd fs'' (io_new dir name) h1 [] eq_refl) as [H80 _].
  assert (Hsz : (N.of_nat (get_data_dimension h) * N.of_nat (el_size el) = N.of_nat s)%N) by (unfold s; lia). clearbody s.
  assert (Hle : forall a b : nat, (N.of_nat a <= N.of_nat b)%N <-> (a <= b)%nat) by lia.
  (* same graph file *)
  assert (Hsame : forall t' rest rest', fits t' -> sensible el t' -> dump_at fs'' cwd dir name (graph_text t' ++ rest) (data_text t' ++ rest') ->
    same_text t t' /\ rest = [] /\ length (data_text t' ++ rest') = length (data_text t) /\ d' = data_text t' ++ rest').
  { intros t' rest rest' F' S' Hat'. destruct (dump_at_det _ _ _ _ _ _ _ _ Hat'' Hat') as [Eg Ed']. rewrite <- (app_nil_r (graph_text t)) in Eg. symmetry in Eg.
    apply graph_inj in Eg as [Hst <-]; [|done|done|apply S|apply S'|apply S|apply S']. by rewrite Ed', Ld. }
  assert (Hid' : forall t', same_text t t' -> NoDup (rec_of <$> concat (tx_layers t')).*1).
  { intros t' Hst. rewrite <- list_fmap_compose in Hids |- *. change (NoDup (tp_id <$> concat (tx_layers t'))).
    rewrite (same_tp_ids _ _ (same_tp_concat _ _ (st_layers _ _ Hst))). exact Hids. }
  split.
  - intros [mapped H]. apply H99 in H as (t' & rest & rest' & Hat' & F' & S' & Hn' & G' & Eo & Em & Hvec). cbn [io io_dir io_basename io_new_with_options] in Hat'.
    destruct (Hsame _ _ _ F' S' Hat') as (Hst & -> & LL & Ed').
    pose proof (Forall2_length _ _ _ (same_tp_concat _ _ (st_layers _ _ Hst))) as EC.
    assert (Hv' : tx_version t' <> 2%N) by (by rewrite (st_version _ _ Hst)).
    destruct Hvec as [(recs & Hmap & Hvec)|([?|Hty] & _)]; [|done|].
    2: { exfalso. destruct (se_type _ _ S') as [?|?]; [congruence|done]. }
    destruct Hmap as (_ & _ & _ & _ & (tail & Etail) & Ecount & Hrecs).
    assert (Hrl : Forall (fun r : dataid * bytes => (s <= length r.2)%nat) recs).
    { apply Forall_forall. intros r Hin. destruct (Hrecs r Hin) as (_ & _ & H). rewrite (st_dim _ _ Hst), Edim, Hsz in H. by apply Hle. }
    assert (En : length recs = length (rec_of <$> concat (tx_layers t'))).
    { rewrite LL, data_text_recs, !app_length, (recs_len _ s Hrs), (st_dim _ _ Hst), Edim, Hsz, fmap_length in Ecount.
      assert (E8 : forall n, length (u64_bytes n) = 8%nat) by done. assert (E4 : forall n, length (u32_bytes n) = 4%nat) by done. rewrite E4, E8 in Ecount.
      rewrite fmap_length, <- EC. replace (4 + (8 + length (concat (tx_layers t)) * (20 + s)) - 12)%nat with (length (concat (tx_layers t)) * (20 + s))%nat in Ecount by lia.
      rewrite Nat2N.inj_mul in Ecount. replace (20 + N.of_nat s)%N with (N.of_nat (20 + s)) in Ecount by lia. rewrite N.div_mul in Ecount by lia. lia. }
    assert (Erec : recs = rec_of <$> concat (tx_layers t')).
    { rewrite data_text_recs, <- !app_assoc in Etail. do 2 apply app_inv_head in Etail.
      destruct (recs_inj recs (rec_of <$> concat (tx_layers t')) tail rest') as [k Hk]; [|by apply text_recs_fit|lia|done|].
      - apply Forall_forall. intros r Hin. by destruct (Hrecs r Hin) as (? & ? & _).
      - rewrite Hk in En |- *. rewrite take_length in En. rewrite take_ge; [done|lia]. }
    subst recs. destruct (tight t t' s rest' Hst Hrs Hrl LL) as [_ ->].
    apply H80. exists t', [], []. cbn [io_dir io_basename io_new io_new_with_options]. split_and!; auto.
    apply stands_dress; [done|]. intros i p pt Hp Hpt. destruct (Hvec i p pt Hp Hpt) as [V1 V2].
    destruct (decide (i < mapped_count t' (ro_threshold (io_options io)))%nat) as [Hk|Hk]; [|apply V2; lia].
    specialize (V1 Hk). assert (Hri : (rec_of <$> concat (tx_layers t')) !! i = Some (rec_of p)) by (by rewrite list_lookup_fmap, Hp).
    pose proof (mapped_own el t' _ i (rec_of p) (Hid' t' Hst) Hri) as Hm. cbn [rec_of fst snd] in Hm. rewrite Hm in V1. injection V1 as <-.
    unfold spelled. rewrite Hnd, (proj2 (N.eqb_neq _ _) Hv'). split; [|done].
    pose proof (proj1 (Forall_lookup _ _) Hrl i _ Hri) as Hx. cbn [rec_of snd] in Hx. rewrite (st_dim _ _ Hst), Edim, Hsz. by apply Hle.
  - intros H. apply H80 in H as (t' & rest & rest' & Hat' & F' & S' & Hn' & G' & Eo & _). cbn [io_dir io_basename io_new io_new_with_options] in Hat'.
    destruct (Hsame _ _ _ F' S' Hat') as (Hst & -> & LL & Ed').
    assert (Hv' : tx_version t' <> 2%N) by (by rewrite (st_version _ _ Hst)).
    assert (Hsp : forall i p pt, concat (tx_layers t') !! i = Some p -> concat (points_by_layer h1) !! i = Some pt ->
      (tx_dim t' * N.of_nat (el_size el) <= N.of_nat (length (tp_bytes p)))%N /\ pt_data pt = dec_vec el (N.to_nat (tx_dim t')) (tp_bytes p)).
    { intros i p pt Hp Hpt. destruct (Forall2_lookup_lr _ _ _ _ _ _ (stands_concat _ _ _ _ _ G') Hp Hpt) as [Hsp _].
      unfold spelled in Hsp. by rewrite Hnd, (proj2 (N.eqb_neq _ _) Hv') in Hsp. }
    assert (Hrl : Forall (fun r : dataid * bytes => (s <= length r.2)%nat) (rec_of <$> concat (tx_layers t'))).
    { apply Forall_forall. intros r (p & -> & Hp)%elem_of_list_fmap. apply elem_of_list_lookup in Hp as [i Hi].
      destruct (Forall2_lookup_l _ _ _ _ _ (stands_concat _ _ _ _ _ G') Hi) as (pt & Hpt & _).
      destruct (Hsp i p pt Hi Hpt) as [H _]. rewrite (st_dim _ _ Hst), Edim, Hsz in H. by apply Hle. }
    destruct (tight t t' s rest' Hst Hrs Hrl LL) as [Hs' ->].
    eexists. apply H99. exists t', [], []. cbn [io io_dir io_basename io_new_with_options]. split; [done|]. split; [done|]. split; [done|]. split; [done|].
    split; [by apply stands_bare|]. split; [done|]. cbn zeta. split; [reflexivity|]. left. exists (rec_of <$> concat (tx_layers t')). split.
    + split; [eexists; rewrite app_nil_r; reflexivity|]. split; [done|]. split; [done|]. split.
      { destruct (se_type _ _ S') as [?|?]; [congruence|done]. }
      split; [exists []; by rewrite !app_nil_r, data_text_recs|]. split.
      * rewrite app_nil_r, data_text_recs, !app_length, (recs_len _ s Hs'), (st_dim _ _ Hst), Edim, Hsz.
        assert (E8 : forall n, length (u64_bytes n) = 8%nat) by done. assert (E4 : forall n, length (u32_bytes n) = 4%nat) by done. rewrite E4, E8.
        set (n := length (rec_of <$> concat (tx_layers t'))). replace (4 + (8 + n * (20 + s)) - 12)%nat with (n * (20 + s))%nat by lia.
        rewrite Nat2N.inj_mul. replace (20 + N.of_nat s)%N with (N.of_nat (20 + s)) by lia. by rewrite N.div_mul by lia.
      * intros r Hin. destruct (proj1 (Forall_forall _ _) (text_recs_fit t' F') r Hin) as [? ?]. split; [done|]. split; [done|].
        pose proof (proj1 (Forall_forall _ _) Hrl r Hin) as Hx. cbn in Hx. rewrite (st_dim _ _ Hst), Edim, Hsz. by apply Hle.
    + intros i p pt Hp Hpt. destruct (Hsp i p pt Hp Hpt) as [V1 V2]. split; intros _.
      * rewrite V2. apply (mapped_own el t' _ i (rec_of p) (Hid' t' Hst)). by rewrite list_lookup_fmap, Hp.
      * unfold spelled. by rewrite Hnd, (proj2 (N.eqb_neq _ _) Hv').
Qed.
Print Assumptions C103_mapped_damage.

(** Example: the dump of C103; with the map of two layers the change of a number of a vector is accepted, that of an id and that of a mark are not, just
    as in memory. *)
Definition hurt_map (t : N) (g d : bytes) : outcome unit :=
  fmap (M:=outcome) (fun _ => tt) (load_hnsw simple_ops el_u8 one_scale l1_name cwd0 (hurt_fs g d) (io_new_with_options tmp_dir "b" (ROptions true t))).
Example C103_mapped_example :
  built dB simple_ops one_scale 2 16 10 (fst <$> exb_points) exb /\ distinct_ids (fst <$> exb_points) /\ dump_ready el_u8 l1_name 16 (fst <$> exb_points) exb /\
  el_nodata el_u8 = false /\ uniform exb /\ plain_dir tmp_dir /\ last_component l1_name "DistL1" /\
  file_dump el_u8 l1_name cwd0 fs0 tmp_dir "b" [] exb = (exb_fs, Ok "b") /\ dump_at exb_fs cwd0 tmp_dir "b" gx dx /\
  hurt_map 2 gx (<[32%nat:=x63]> dx) = Ok tt /\ hurt_map 0 gx (<[33%nat:=x63]> dx) = Ok tt /\
  hurt_map 2 gx (<[16%nat:=x63]> dx) <> Ok tt /\ hurt_map 2 gx (<[34%nat:=x63]> dx) <> Ok tt.
Proof.
  split; [exact exb_built|]. split; [exact exb_distinct|]. split; [exact exb_ready|]. split; [done|]. split; [exact exb_uniform|]. split; [by left|].
  split; [exact l1_short|]. split; [exact exb_dumped|]. split; [split; vm_compute; reflexivity|]. split_and!; by vm_compute.
Qed.
