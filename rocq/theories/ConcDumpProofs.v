(** The files of a dump that ran beside other threads. *)
From Coq Require Import SpecFloat Strings.String.
From stdpp Require Import relations.
From Verif Require Import Prelude Model Lib Table SearchProofs SelectProofs InsertProofs QueryProofs IterProofs Spec SpecProofs
  Conc SpecConc ConcSafe ConcSafe2 ConcSafe3 ConcSafe4 ConcGlobal ConcEnd ConcSeq Io IoBase SpecIo ConcDump SpecBuilt
  IoProofs IoProofs2 IoProofs3 IoProofs4 IoProofs5.

(** ** The index a dump describes *)
Definition dnbr (n : neighbour) : nbr := Nbr (p_id n) (distance n).
Definition dpt {T} (x : dpoint (T:=T)) : point (T:=T) :=
  Point (dp_data x) (dp_oid x) (dp_pid x) (fmap (M:=list) dnbr <$> dp_lists x).

(** the points that were read, with the parameters of [h] and the count [n] *)
Definition snapn {T} (h : hnsw (T:=T)) (d : dumped (T:=T)) (n : nat) : hnsw (T:=T) :=
  Hnsw (ef_construction h) (max_nb_connection h) (extend_candidates h) (keep_pruned h) (max_layer h)
    (fmap (M:=list) dpt <$> dd_layers d) (level_scale h) n (snd <$> dd_entry d) (searching h) (datamap_opt h).

Section Snapshot.
Context {T : Type} (dist : list T -> list T -> Z).
Context (nb0 : nat) (hs h : hnsw (T:=T)) (d : dumped (T:=T)).
Context (Hsn : Snap dist nb0 hs h d) (Hc : core dist h).
Implicit Types (p : pid) (x : dpoint (T:=T)).
Local Notation snap := (snapn h d).

Lemma snap_get n p : get_pt (snap n) p = dpt <$> dlook d p.
Proof using Type.
  unfold get_pt, dlook, snapn. cbn [points_by_layer]. rewrite list_lookup_fmap.
  destruct (dd_layers d !! p.1) as [ly|]; [|done]. simpl. by rewrite list_lookup_fmap.
Qed.
Lemma snap_get_inv n p pt : get_pt (snap n) p = Some pt -> exists x, dlook d p = Some x /\ pt = dpt x.
Proof using Type. rewrite snap_get. destruct (dlook d p) as [x|]; [|done]. intros [= <-]. eauto. Qed.

Lemma snap_ref p x l ns m : dlook d p = Some x -> dp_lists x !! l = Some ns -> m ∈ ns ->
  exists y, dlook d (p_id m) = Some y /\ d_id m = dp_oid y /\
    (distance m = dist (dp_data x) (dp_data y) \/ distance m = dist (dp_data y) (dp_data x)).
Proof using Hsn.
  intros Hx Hl Hm. destruct (sn_ref _ _ _ _ _ Hsn _ _ _ _ _ Hx Hl Hm) as [y Hy]. exists y. split; [done|].
  destruct (sn_pt _ _ _ _ _ Hsn _ _ Hx) as (_ & _ & _ & HL). destruct (HL l ns Hl) as (_ & _ & _ & _ & HF).
  rewrite Forall_forall in HF. destruct (HF m Hm) as (v & Hv & Hd).
  destruct (sn_pt _ _ _ _ _ Hsn _ _ Hy) as (_ & Hst & _). rewrite Hst in Hv. injection Hv as <- <-. done.
Qed.

Lemma snap_core n : core dist (snap n).
Proof using Hsn Hc.
  constructor.
  - unfold snapn. cbn [points_by_layer max_layer]. rewrite fmap_length. apply (sn_len _ _ _ _ _ Hsn).
  - apply (c_max _ _ Hc).
  - apply (c_M _ _ Hc).
  - intros p pt Hp. apply snap_get_inv in Hp as (x & Hx & ->).
    destruct (sn_pt _ _ _ _ _ Hsn _ _ Hx) as (E & _ & Hlen & _). split; [done|]. cbn [dpt pt_nbs]. by rewrite fmap_length.
  - intros p pt l nbs Hp Hl. apply snap_get_inv in Hp as (x & Hx & ->). cbn [dpt pt_nbs pt_data] in *.
    rewrite list_lookup_fmap in Hl. destruct (dp_lists x !! l) as [ns|] eqn:El; [|done]. injection Hl as <-.
    destruct (sn_pt _ _ _ _ _ Hsn _ _ Hx) as (_ & _ & _ & HL). destruct (HL l ns El) as (A1 & A2 & A3 & A4 & _).
    assert (E1 : n_pid <$> (dnbr <$> ns) = p_id <$> ns) by (rewrite <- list_fmap_compose; done).
    constructor.
    + by rewrite E1.
    + apply sorted_by_fmap. rewrite <- list_fmap_compose. by apply sorted_by_fmap in A2.
    + by rewrite E1.
    + apply Forall_fmap, Forall_forall. intros m Hm. destruct (snap_ref p x l ns m Hx El Hm) as (y & Hy & _ & Hd).
      exists (dpt y). cbn [dnbr n_pid n_dist compose]. rewrite snap_get, Hy. done.
    + by rewrite fmap_length.
Qed.

Lemma snap_size n : table_size (snap n) = length (concat (dd_layers d)).
Proof using Type.
  unfold table_size, snapn. cbn [points_by_layer]. induction (dd_layers d) as [|ly ls IH]; [done|].
  csimpl. rewrite fmap_length, app_length. simpl in *. lia.
Qed.

Lemma snap_lwf : is_Some (dd_entry d) -> lwf dist (snap (length (concat (dd_layers d)))).
Proof using Hsn Hc.
  intros [[o ep] He]. constructor.
  - apply snap_core.
  - by rewrite snap_size.
  - unfold snapn at 1. cbn [entry_point]. rewrite He. cbn. pose proof (sn_entry _ _ _ _ _ Hsn) as Hs. rewrite He in Hs.
    destruct Hs as (x & Hx & _). unfold valid. rewrite snap_get, Hx. by eexists.
Qed.

Lemma snap_nbhd n p x : dlook d p = Some x -> get_neighborhood_id (snap n) (dpt x) = Ok (dp_lists x).
Proof using Hsn.
  intros Hx. unfold get_neighborhood_id. cbn [dpt pt_nbs].
  assert (H : forall l ns, dp_lists x !! l = Some ns ->
    mapM (fun m : nbr => q0 ← unwrap (get_pt (snap n) (n_pid m)); Ok (Neighbour (pt_oid (T:=T) q0) (n_dist m) (n_pid m))) (dnbr <$> ns)
      = Ok ns).
  { intros l ns Hl. pose proof (fun m => snap_ref p x l ns m Hx Hl) as Hr. clear Hl. induction ns as [|m ns IH]; [done|].
    cbn [mapM fmap list_fmap]. destruct (Hr m) as (y & Hy & E & _); [by left|]. cbn [dnbr n_pid n_dist]. rewrite snap_get, Hy.
    cbn [fmap option_fmap option_map unwrap mbind outcome_bind dpt pt_oid].
    rewrite IH.
    - rewrite <- E. by destruct m.
    - intros m' Hm'. apply Hr. by right. }
  revert H. generalize (dp_lists x) as ls. induction ls as [|ns ls IH]; intros H; [done|]. cbn [mapM fmap list_fmap].
  rewrite (H 0%nat ns eq_refl). cbn [mbind outcome_bind]. rewrite IH; [done|]. intros l nbs' Hl. by apply (H (S l)).
Qed.

(** ** its dump *)
Lemma snap_dump_points (el : elem T) n i r xs : (forall j x, xs !! j = Some x -> dlook d (i, (r + j)%nat) = Some x) ->
  dump_points el (snap n) Full i r (dpt <$> xs) = dumped_points el xs.
Proof using Hsn.
  revert r. induction xs as [|x xs IH]; intros r H; [done|]. csimpl. cbn [dump_points dumped_points].
  pose proof (H 0%nat x eq_refl) as Hx. rewrite Nat.add_0_r in Hx.
  destruct (sn_pt _ _ _ _ _ Hsn _ _ Hx) as (E & _). rewrite bool_decide_true by (cbn; done).
  unfold dump_point. rewrite (snap_nbhd n _ _ Hx). rewrite IH; [done|].
  intros j y Hy. replace (S r + j)%nat with (r + S j)%nat by lia. by apply H.
Qed.
Lemma snap_dump_layers (el : elem T) n i ls :
  (forall j r ly x, ls !! j = Some ly -> ly !! r = Some x -> dlook d ((i + j)%nat, r) = Some x) ->
  dump_layers el (snap n) Full i (fmap (M:=list) dpt <$> ls) = dumped_layers el ls.
Proof using Hsn.
  revert i. induction ls as [|ly ls IH]; intros i H; [done|]. csimpl. cbn [dump_layers dumped_layers].
  rewrite fmap_length, snap_dump_points.
  2:{ intros j x Hx. specialize (H 0%nat j ly x eq_refl Hx). by rewrite Nat.add_0_r in H. }
  rewrite IH; [done|]. intros j r ly' x Hj Hr. replace (S i + j)%nat with (i + S j)%nat by lia. by eapply H.
Qed.
Lemma snap_dump_entry (el : elem T) n : dump_entry (snap n) Full = dumped_entry d.
Proof using Hsn.
  unfold dump_entry, dumped_entry. unfold snapn at 1. cbn [entry_point].
  pose proof (sn_entry _ _ _ _ _ Hsn) as Hs. destruct (dd_entry d) as [[o p]|]; [|done]. cbn.
  destruct Hs as (x & Hx & <-). rewrite snap_get, Hx. cbn. destruct (sn_pt _ _ _ _ _ Hsn _ _ Hx) as (-> & _). done.
Qed.

Lemma snap_dump (el : elem T) dname : dd_dim d = get_data_dimension (snap (dd_nb d)) ->
  dumped_files el dname h d = dump el dname (snap (dd_nb d)) Full.
Proof using Hsn.
  intros Hdim. unfold dumped_files, dump, dump_indexation. rewrite <- Hdim. 
  unfold dumped_description, describe. rewrite <- Hdim.
  rewrite <- snap_dump_entry with (n := dd_nb d) by done.
  rewrite <- (snap_dump_layers el (dd_nb d) 0 (dd_layers d)).
  2:{ intros j r ly x Hj Hr. unfold dlook. cbn [fst snd]. rewrite Nat.add_0_l, Hj. done. }
  replace (length (points_by_layer (snap (dd_nb d)))) with (length (dd_layers d)); [done|].
  unfold snapn. cbn [points_by_layer]. by rewrite fmap_length.
Qed.
End Snapshot.

(** ** A count smaller than the number of points *)
Lemma load_points_less {T} (el : elem T) dm opts de : ro_datamap opts = false -> forall n l r still still' s ps st s',
  load_points el dm opts de l n r still s = Ok ((ps, st), s') -> (0 <= still' <= still)%Z ->
  length ps = n /\ st = (still - Z.of_nat n)%Z /\
  load_points el dm opts de l n r still' s =
    (if bool_decide (Z.of_nat n <= still')%Z then Ok ((ps, (still' - Z.of_nat n)%Z), s') else Panic).
Proof.
  intros Ho. induction n as [|n IH]; intros l r still still' s ps st s' H Hle.
  { cbn [load_points] in *. injection H as <- <- <-. rewrite bool_decide_true by lia.
    split; [done|]. split; [lia|]. unfold rret. by rewrite Z.sub_0_r. }
  cbn [load_points] in *. assert (Eu : forall z, point_use_mmap opts z = false) by (intros z; unfold point_use_mmap; by rewrite Ho).
  rewrite !Eu in *.
  apply rbind_inv in H as (p & s1 & Hp & H). unfold rbind at 1. rewrite Hp. cbn [mbind outcome_bind].
  apply rbind_inv in H as ([] & s2 & H2 & H). unfold rbind at 1. rewrite H2. cbn [mbind outcome_bind].
  apply rbind_inv in H as ([] & s3 & H3 & H). unfold rbind at 1. rewrite H3. cbn [mbind outcome_bind].
  apply rbind_inv in H as ([] & s4 & H4 & H).
  assert (E4 : s4 = s3 /\ (0 <= still - 1)%Z).
  { unfold rlift, assert_ in H4. destruct (0 <=? still - 1)%Z eqn:E; [|done]. injection H4 as <-. split; [done|lia]. }
  destruct E4 as [-> E4]. apply rbind_inv in H as ([ps' st'] & s5 & H5 & H). injection H as <- <- <-.
  destruct (Z.eq_dec still' 0%Z) as [->|Hne].
  - rewrite bool_decide_false by lia.
    destruct (IH l (S r) (still - 1)%Z 0%Z s3 ps' st' s5 H5) as (L & S & _); [lia|]. simpl. split; [by rewrite L|]. split; [lia|]. done.
  - destruct (IH l (S r) (still - 1)%Z (still' - 1)%Z s3 ps' st' s5 H5) as (L & S & E); [lia|]. simpl. split; [by rewrite L|].
    split; [lia|]. unfold rbind at 1, rlift, assert_. replace (0 <=? still' - 1)%Z with true by lia. cbn [mbind outcome_bind].
    unfold rbind. rewrite E. destruct (decide (Z.of_nat (Datatypes.S n) <= still')%Z).
    + rewrite !bool_decide_true by lia. cbn [mbind outcome_bind]. unfold rret.
      replace (still' - 1 - Z.of_nat n)%Z with (still' - Z.of_nat (Datatypes.S n))%Z by lia. done.
    + rewrite !bool_decide_false by lia. done.
Qed.

Lemma load_layers_less {T} (el : elem T) dm opts de : ro_datamap opts = false -> forall n l still still' s ls s',
  load_layers el dm opts de n l still s = Ok (ls, s') -> (0 <= still' <= still)%Z ->
  (still' < Z.of_nat (length (concat ls)))%Z -> load_layers el dm opts de n l still' s = Panic.
Proof.
  intros Ho. induction n as [|n IH]; intros l still still' s ls s' H Hle Hlt.
  { cbn [load_layers] in H. injection H as <- <-. simpl in Hlt. lia. }
  cbn [load_layers] in *. apply rbind_inv in H as (m & s1 & Hm & H). unfold rbind at 1. rewrite Hm. cbn [mbind outcome_bind].
  destruct (negb _); [done|].
  apply rbind_inv in H as (np & s2 & Hn & H). unfold rbind at 1. rewrite Hn. cbn [mbind outcome_bind].
  apply rbind_inv in H as ([ps st] & s3 & Hp & H). 
  destruct (load_points_less el dm opts de Ho _ _ _ _ still' _ _ _ _ Hp Hle) as (L & S & E). unfold rbind at 1. rewrite E.
  apply rbind_inv in H as (ls' & s4 & Hl & H). injection H as <- <-. cbn [concat] in Hlt. rewrite app_length, L in Hlt.
  case_bool_decide as Hb; [|done]. cbn [mbind outcome_bind]. unfold rbind.
  rewrite (IH (Datatypes.S l) st (still' - Z.of_nat (N.to_nat np))%Z s3 ls' s4 Hl); [done|lia|lia].
Qed.

Lemma rbind_ext {A B} (p p' : rd A) (k k' : A -> rd B) s : p s = p' s -> (forall a s1, k a s1 = k' a s1) -> rbind p k s = rbind p' k' s.
Proof. intros H Hk. unfold rbind. rewrite H. by destruct (p' s) as [[a s1]| | | | |]; cbn [mbind outcome_bind]. Qed.

Lemma load_layers_de {T} (el : elem T) dm opts de de' : (forall b s, load_point el dm de b s = load_point el dm de' b s) -> forall n l still s,
  load_layers el dm opts de n l still s = load_layers el dm opts de' n l still s.
Proof.
  intros He.
  assert (Hp : forall n l r still s, load_points el dm opts de l n r still s = load_points el dm opts de' l n r still s).
  { induction n as [|n IH]; intros l r still s; [done|]. cbn [load_points]. apply rbind_ext; [apply He|]. intros p s1.
    apply rbind_ext; [done|]. intros [] s2. apply rbind_ext; [done|]. intros [] s3. apply rbind_ext; [done|]. intros [] s4.
    apply rbind_ext; [apply IH|]. by intros [ps st] s5. }
  induction n as [|n IH]; intros l still s; [done|]. cbn [load_layers]. apply rbind_ext; [done|]. intros m s1.
  destruct (negb _); [done|]. apply rbind_ext; [done|]. intros np s2. apply rbind_ext; [apply Hp|]. intros [ps st] s3.
  apply rbind_ext; [apply IH|done].
Qed.

Lemma dump_indexation_count {T} (el : elem T) n (h : hnsw (T:=T)) : dump_indexation el (set_nb_point n h) Full = dump_indexation el h Full.
Proof.
  unfold dump_indexation. change (points_by_layer (set_nb_point n h)) with (points_by_layer h).
  assert (Hp : forall pts i j, dump_points el (set_nb_point n h) Full i j pts = dump_points el h Full i j pts).
  { induction pts as [|pt pts IH]; intros i j; [done|]. cbn [dump_points]. by rewrite IH. }
  assert (Hl : forall ls i, dump_layers el (set_nb_point n h) Full i ls = dump_layers el h Full i ls).
  { induction ls as [|ly ls IH]; intros i; [done|]. cbn [dump_layers]. by rewrite IH, Hp. }
  by rewrite Hl.
Qed.

Section Less.
Context {T : Type} (dist : list T -> list T -> Z) (so : StdOps) (inv_ln : nat -> f64).
Context (el : elem T) (Hel : elem_ok el) (Hnd : el_nodata el = false).
Context (h : hnsw (T:=T)) (Hd : dumpable dist el h) (Hu : uniform_table h).
Context (dname : String.string) (Hdn : name_ok dname) (Htn : name_ok (el_name el)).
Context (ep : pid) (Hep : entry_point h = Some ep).
Context (n : nat) (Hn : (n < nb_point h)%nat).
Local Notation hn := (set_nb_point n h).

Lemma less_sized : desc_sized (describe el dname Full hn).
Proof using Hel Hd Hdn Htn Hn.
  clear so inv_ln Hnd Hu Hep ep.
  pose proof (describe_sized dist el Hel h Hd dname Hdn Htn) as Hs. unfold describe, desc_sized in *. cbn in *.
  pose proof (du_nb _ _ _ Hd). destruct Hs as (S1 & S2 & S3 & S4 & S5 & S6 & S7 & S8). split_and!; auto; lia.
Qed.

Definition less_graph : bytes := w_graph (description_dump (describe el dname Full hn) Full).

Lemma less_dump : dump el dname hn Full =
  W (less_graph ++ u8_bytes 16 ++ concat (lyg h <$> points_by_layer h) ++ entry_bytes h)
    (headd h ++ concat (lyd el <$> points_by_layer h)) (Ok tt).
Proof using Hel Hd Hdn Htn Hn Hep.
  clear so inv_ln Hnd Hu.
  unfold dump, less_graph, headd. destruct (description_dump_ok _ Full less_sized) as (H1 & H2 & _).
  destruct (description_dump (describe el dname Full hn) Full) as [g d o]. cbn [w_res w_data w_graph] in *.
  subst. unfold wseq at 1. cbn [w_res w_data w_graph].
  rewrite dump_indexation_count. change (get_data_dimension hn) with (get_data_dimension h).
  rewrite (dump_indexation_eq dist el Hel h Hd). rewrite Hep. unfold wseq. cbn [w_res w_data w_graph wout app]. done.
Qed.

Lemma less_head : pars load_header less_graph (headd h) (de_read el hn dname).
Proof using All.
  unfold load_header, headd.
  destruct (description_dump_ok _ Full less_sized) as (_ & _ & H).
  assert (Hde : pars load_description less_graph [] (de_read el hn dname)).
  { unfold less_graph. match type of H with pars _ _ _ ?x => replace (de_read el hn dname) with x; [exact H|] end.
    unfold de_read, describe. cbn [de_max_nb_connection de_level_scale de_nb_layer de_ef de_nb_point de_dimension de_distname de_t_name].
    change (max_layer hn) with (max_layer h). rewrite (du_layers _ _ _ Hd). reflexivity. }
  cut (pars load_header (less_graph ++ []) ((u32_bytes MAGICDATAP ++ u64_bytes (N.of_nat (get_data_dimension h))) ++ []) (de_read el hn dname)).
  { by rewrite !app_nil_r. }
  eapply pars_bind_g; [apply pars_panic, Hde|]. rewrite <- app_assoc.
  eapply pars_bind_d; [apply pars_dnum; by vm_compute|].
  eapply pars_bind_0; [apply pars_lift, assert_true; lia|].
  eapply pars_bind_d; [apply pars_dnum, (dim_lt dist el h Hd)|].
  eapply pars_bind_0; [apply pars_lift, assert_true, N.eqb_refl|]. apply pars_ret.
Qed.

Lemma less_header {A} (k : description -> rd A) g d : dies (k (de_read el hn dname)) g d ->
  dies (rbind load_header k) (less_graph ++ g) (headd h ++ d).
Proof using All. intros Hk. eapply dies_bind; [|exact Hk]. apply less_head. Qed.

Lemma less_indexation dm opts : ro_datamap opts = false ->
  dies (load_point_indexation so el dm opts (de_read el hn dname))
    (u8_bytes 16 ++ concat (lyg h <$> points_by_layer h) ++ entry_bytes h) (concat (lyd el <$> points_by_layer h)).
Proof using All.
  intros Ho. unfold load_point_indexation. cbn [de_t_name de_read].
  rewrite String.eqb_refl, andb_false_r.
  eapply dies_bind_g; [apply pars_gnum; by vm_compute|].
  change (N.of_nat NB_LAYER_MAX <? 16)%N with false. cbv iota.
  pose proof (du_nb _ _ _ Hd) as Hnb.
  assert (Hcnt : as_i64 (de_nb_point (de_read el hn dname)) = Z.of_nat n).
  { cbn [de_nb_point de_read nb_point set_nb_point]. unfold as_i64.
    replace (N.of_nat n <? 2 ^ 63)%N with true by lia. lia. }
  pose proof (l_count _ _ (du_wf _ _ _ Hd)) as Hcount.
  rewrite <- (app_nil_r (concat (lyd el <$> points_by_layer h))).
  apply dies_first, dies_more. rewrite Hcnt.
  replace (N.to_nat 16) with (length (points_by_layer h))
    by (rewrite (c_len _ _ (l_core _ _ (du_wf _ _ _ Hd))), (du_layers _ _ _ Hd); done).
  pose proof (reads_same dist el Hel h Hd dname Hdn Htn dm opts Hnd Hu) as Hrp.
  assert (Hrp' : reads_points el h dname el pt_data dm opts) by (apply Hrp; by rewrite Ho).
  pose proof (pars_layers dist so el el Hel h Hd dm opts (de_read el h dname) eq_refl eq_refl eq_refl pt_data Hrp' 0
     (Z.of_nat (nb_point h)) (points_by_layer h)) as HP.
  intros g' d'. rewrite (load_layers_de el dm opts _ (de_read el h dname)) by done.
  eapply load_layers_less; [exact Ho| |split;[lia|]|].
  - apply HP.
    + intros; by eapply table_get.
    + intros ly Hin. apply elem_of_list_lookup in Hin as [i Hi]. pose proof (layer_length_le h i ly Hi). lia.
    + rewrite Hcount. unfold table_size. lia.
  - lia.
  - assert (E : forall st ls, length (concat (raw_lys h opts pt_data st ls)) = sum_list (length <$> ls)).
    { clear. intros st ls. revert st. induction ls as [|ly ls IH]; intros st; [done|]. csimpl. rewrite app_length, IH. f_equal.
      generalize st. clear. induction ly as [|x ly IH]; intros st; [done|]. simpl. by rewrite IH. }
    rewrite E. rewrite Hcount in Hn. unfold table_size in Hn. lia.
Qed.

Lemma less_load dname' dm opts mk : ro_datamap opts = false ->
  (exists c, rsplit_terminator dname' !! 0%nat = Some c /\ rsplit_terminator dname !! 0%nat = Some c) ->
  run_rd (load_rd so el inv_ln dname' dm opts mk) (w_graph (dump el dname hn Full)) (w_data (dump el dname hn Full)) = Panic.
Proof using All.
  intros Ho (c & Hc' & Hc). apply run_dies. rewrite less_dump. cbn [w_graph w_data]. unfold load_rd. apply less_header.
  eapply dies_bind_0 with (a := true).
  { rewrite Hnd. cbn [de_distname de_read]. rewrite Hc, Hc'. eapply pars_bind_0; [by apply pars_lift|]. eapply pars_bind_0; [by apply pars_lift|].
    rewrite bool_decide_true by done. apply pars_ret. }
  cbn [negb]. eapply dies_bind_0; [apply pars_lift; unfold choose_datamap; by rewrite Ho|].
  by apply dies_first, less_indexation.
Qed.
Lemma less_load_with_dist dm opts : ro_datamap opts = false ->
  run_rd (load_with_dist_rd so el inv_ln dname dm opts) (w_graph (dump el dname hn Full)) (w_data (dump el dname hn Full)) = Panic.
Proof using All.
  intros Ho. apply run_dies. rewrite less_dump. cbn [w_graph w_data]. unfold load_with_dist_rd. apply less_header.
  cbn [de_distname de_read]. rewrite String.eqb_refl, andb_false_r.
  by apply dies_first, less_indexation.
Qed.

(** whatever the names, no index *)
Lemma less_no_load dname' dm opts mk a : ro_datamap opts = false ->
  run_rd (load_rd so el inv_ln dname' dm opts mk) (w_graph (dump el dname hn Full)) (w_data (dump el dname hn Full)) <> Ok a.
Proof using All.
  intros Ho Hl. unfold run_rd in Hl.
  destruct (load_rd so el inv_ln dname' dm opts mk _) as [[x s]| | | | |] eqn:E; try done. pose proof E as E0.
  unfold load_rd in E. apply rbind_inv in E as (de & s1 & Hde & E). rewrite Hnd in E.
  assert (Ede : de = de_read el hn dname).
  { revert Hde. rewrite less_dump. cbn [w_graph w_data]. rewrite (less_head (u8_bytes 16 ++ concat (lyg h <$> points_by_layer h) ++ entry_bytes h) (concat (lyd el <$> points_by_layer h))). by intros [= -> _]. }
  subst de. apply rbind_inv in E as (same & s2 & Hs & E). destruct same; [|done].
  apply rbind_inv in Hs as (a1 & s3 & H1 & Hs). apply rbind_inv in Hs as (b1 & s4 & H2 & Hs). cbn [de_distname de_read] in *.
  assert (Hnames : exists c, rsplit_terminator dname' !! 0%nat = Some c /\ rsplit_terminator dname !! 0%nat = Some c).
  { unfold rlift, unwrap in H1, H2. destruct (rsplit_terminator dname' !! 0) as [x1|]; [|done].
    destruct (rsplit_terminator dname !! 0) as [x2|]; [|done]. injection H1 as -> _. injection H2 as -> _.
    unfold rret in Hs. injection Hs as Hs _. apply bool_decide_eq_true in Hs. subst. eauto. }
  pose proof (less_load dname' dm opts mk Ho Hnames) as HP. unfold run_rd in HP. by rewrite E0 in HP.
Qed.
Lemma less_no_load_with_dist dname' dm opts a : ro_datamap opts = false ->
  run_rd (load_with_dist_rd so el inv_ln dname' dm opts) (w_graph (dump el dname hn Full)) (w_data (dump el dname hn Full)) <> Ok a.
Proof using All.
  intros Ho Hl. unfold run_rd in Hl.
  destruct (load_with_dist_rd so el inv_ln dname' dm opts _) as [[x s]| | | | |] eqn:E; try done. pose proof E as E0.
  unfold load_with_dist_rd in E. apply rbind_inv in E as (de & s1 & Hde & E). rewrite Hnd in E.
  assert (Ede : de = de_read el hn dname).
  { revert Hde. rewrite less_dump. cbn [w_graph w_data]. rewrite (less_head (u8_bytes 16 ++ concat (lyg h <$> points_by_layer h) ++ entry_bytes h) (concat (lyd el <$> points_by_layer h))). by intros [= -> _]. }
  subst de. cbn [de_distname de_read] in E. destruct (String.eqb_spec dname' dname) as [->|]; [|done].
  pose proof (less_load_with_dist dm opts Ho) as HP. unfold run_rd in HP. by rewrite E0 in HP.
Qed.
End Less.

(** ** What a reload that returned gives *)
Lemma reload_plain_facts {T} (dist : list T -> list T -> Z) (Hnn : forall a b : list T, (0 <= dist a b)%Z) so
  (h : hnsw (T:=T)) el dname (R1 : elem_ok el) (Hd : dumpable dist el h) (R2 : name_ok dname) (R3 : name_ok (el_name el))
  ep (Hep : entry_point h = Some ep) cwd fs io
  (Hat : dump_at fs cwd (io_dir io) (io_basename io) (w_graph (dump el dname h Full)) (w_data (dump el dname h Full))) inv_ln dname' h' mapped :
  el_nodata el = false -> uniform_table h -> ro_datamap (io_options io) = false ->
  load_hnsw so el inv_ln dname' cwd fs io = Ok (h', mapped) \/ load_hnsw_with_dist so el inv_ln dname' cwd fs io = Ok (h', mapped) ->
  exists dmo, h' = reloaded h so inv_ln ep pt_data dmo.
Proof.
  intros Hnd Hut Eo Hload.
  destruct (ready_header dist Hnn h el dname R1 Hd R2 R3 ep Hep cwd fs _ _ Hat) as [s Hs].
  pose proof (ready_open dist Hnn h el dname R1 Hd R2 R3 ep Hep cwd fs _ _ Hat io eq_refl eq_refl) as Ho.
  destruct Hload as [Hld|Hld]; pose proof Hld as Hld'.
  - assert (exists c, rsplit_terminator dname' !! 0%nat = Some c /\ rsplit_terminator dname !! 0%nat = Some c) as Hc.
    { unfold load_hnsw in Hld. rewrite Ho in Hld. cbn [mbind outcome_bind] in Hld. unfold run_rd in Hld.
      destruct (load_rd _ _ _ _ _ _ _ _) as [[r s']| | | | |] eqn:E; try done.
      apply load_names in E as (de & s1 & Hh & Hn). rewrite Hs in Hh. injection Hh as <- <-. destruct Hn as [?|[_ ?]]; [congruence|done]. }
    rewrite (reload_plain dist Hnn h el dname R1 Hd R2 R3 ep Hep cwd fs _ _ Hat so inv_ln dname' io) in Hld'; auto.
    injection Hld' as <- <-. by exists true.
  - assert (dname' = dname) as ->.
    { unfold load_hnsw_with_dist in Hld. rewrite Ho in Hld. cbn [mbind outcome_bind] in Hld. unfold run_rd in Hld.
      destruct (load_with_dist_rd _ _ _ _ _ _ _) as [[r s']| | | | |] eqn:E; try done.
      apply load_with_dist_names in E as (de & s1 & Hh & Hn). rewrite Hs in Hh. injection Hh as <- <-. destruct Hn as [?|[_ ?]]; [congruence|done]. }
    rewrite (reload_plain_with_dist dist Hnn h el dname R1 Hd R2 R3 ep Hep cwd fs _ _ Hat so inv_ln io) in Hld'; auto.
    injection Hld' as <- <-. by exists false.
Qed.

(** ** A dump and the threads beside it *)
Lemma submseteq_omap {A B} (f : A -> option B) l k : l ⊆+ k -> omap f l ⊆+ omap f k.
Proof.
  intros (k' & E)%submseteq_Permutation. rewrite E, omap_app. apply submseteq_inserts_r. done.
Qed.

Section During.
Context {T : Type} (dist : list T -> list T -> Z) (so : StdOps).
Context (LAWS : StdLaws so) (Hnn : forall a b, (0 <= dist a b)%Z).
Context (h0 : hnsw (T:=T)) (ts : list (task (T:=T))).
Context (Hwf : lwf dist h0) (Hml : (0 < max_layer h0)%nat) (Hok : Forall (may_run h0) ts).
Context (c : config (T:=T)) (Hdu : during dist so h0 ts c).
Context (i : nat) (d : dumped (T:=T)) (Ht : ts !! i = Some TDump) (Hret : returned c i (RDumped d)).

Lemma during_snap : Snap dist (nb_point h0) h0 (c_sh c) d /\ params h0 (c_sh c) /\ core dist (c_sh c).
Proof using All.
  destruct (glob_reach dist so LAWS Hnn h0 ts Hwf Hml Hok c Hdu) as [phs G].
  destruct (glob_returned dist h0 ts c phs i _ _ G Ht Hret) as (ph & Hph & (d' & [= <-] & _ & Hs)).
  split; [exact Hs|]. split; [by eapply g_params|]. apply (g_inv _ _ _ _ _ G).
Qed.

Lemma snapn_params h n : params h0 h -> snapn h d n = snapn h0 d n.
Proof using Type. intros (E1 & E2 & E3 & E4 & E5 & E6 & E7 & E8). unfold snapn. congruence. Qed.

Lemma stored_snap n : stored (snapn h0 d n) = dumped_contents d.
Proof using Type.
  unfold stored, all_points, dumped_contents, snapn. cbn [points_by_layer]. induction (dd_layers d) as [|ly ls IH]; [done|].
  csimpl. rewrite !fmap_app, IH. f_equal. rewrite <- list_fmap_compose. done.
Qed.

Lemma own_inserts phs h pub : length phs = length ts ->
  (forall j t ph, ts !! j = Some t -> phs !! j = Some ph -> ph_ok (tdata t) (toid t) ph h pub) ->
  (forall j t ph p, ts !! j = Some t -> phs !! j = Some ph -> own ph = Some p -> exists v id d, t = TInsert v id d) ->
  omap (fun p => fst <$> static h p) (omap own phs) ⊆+ inserts ts.
Proof using Type.
  clear. revert phs. induction ts as [|t tl IH]; intros [|ph phs] Hlen Hph Hq; try done.
  assert (IH' : omap (fun p => fst <$> static h p) (omap own phs) ⊆+ inserts tl).
  { apply IH; [by injection Hlen|..].
    - intros j tj phj Hj1 Hj2. by apply (Hph (S j)).
    - intros j tj phj p Hj1 Hj2. by apply (Hq (S j)). }
  csimpl. destruct (own ph) as [p|] eqn:Eo.
  - destruct (Hq 0%nat t ph p eq_refl eq_refl Eo) as (v & id & dr & ->). specialize (Hph 0%nat _ ph eq_refl eq_refl).
    assert (Hs : static h p = Some (v, id, p)) by (destruct ph; simpl in *; try done; injection Eo as ->; apply Hph).
    csimpl. rewrite Hs. csimpl. by apply submseteq_skip.
  - destruct t as [v id dr|q k e f| |]; csimpl; try done. by apply submseteq_cons.
Qed.

(** the points dumped: all the points there were, and some of those inserted meanwhile *)
Lemma during_contents : stored h0 ⊆+ dumped_contents d /\ dumped_contents d ⊆+ stored h0 ++ inserts ts.
Proof using All.
  destruct during_snap as (Hs & Hpar & Hc).
  destruct (glob_reach dist so LAWS Hnn h0 ts Hwf Hml Hok c Hdu) as [phs G].
  rewrite <- (stored_snap 0%nat). rewrite <- (snapn_params (c_sh c) 0%nat Hpar). set (hs := snapn (c_sh c) d 0).
  set (f := fun p => fst <$> static (c_sh c) p).
  assert (Hv : forall p, valid hs p <-> is_Some (dlook d p)).
  { intros p. unfold valid, hs. rewrite snap_get. destruct (dlook d p); simpl; split; intros [? ?]; eauto; done. }
  assert (E : stored hs = omap f (pids_from 0 (points_by_layer hs))).
  { rewrite stored_static. apply list_omap_ext. apply Forall2_same_length_lookup_2; [done|]. intros k a b Ha Hb.
    rewrite Ha in Hb. injection Hb as <-. apply elem_of_list_lookup_2, elem_of_pids, Hv in Ha as [x Hx].
    destruct (sn_pt _ _ _ _ _ Hs _ _ Hx) as (E1 & E2 & _). unfold f. rewrite E2. unfold static at 1, hs. rewrite snap_get, Hx.
    simpl. done. }
  assert (E0 : stored h0 = omap f (pids_from 0 (points_by_layer h0))).
  { rewrite stored_static. apply list_omap_ext. apply Forall2_same_length_lookup_2; [done|]. intros k a b Ha Hb.
    rewrite Ha in Hb. injection Hb as <-. apply elem_of_list_lookup_2, elem_of_pids in Ha as [pt Hpt].
    assert (Hst : static h0 a = Some (pt_data pt, pt_oid pt, pt_pid pt)) by (unfold static; by rewrite Hpt).
    unfold f. rewrite Hst. by rewrite (static_grows _ _ _ _ (g_grows _ _ _ _ _ G) Hst). }
  rewrite E, E0. split.
  - apply submseteq_omap, NoDup_submseteq; [apply NoDup_pids_from|]. intros p. rewrite !elem_of_pids, Hv. apply (sn_old _ _ _ _ _ Hs).
  - trans (omap f (pids_from 0 (points_by_layer h0) ++ omap own phs)).
    + rewrite <- (glob_pids dist h0 ts c phs G). apply submseteq_omap, NoDup_submseteq; [apply NoDup_pids_from|].
      intros p. rewrite !elem_of_pids, Hv. intros [x Hx]. destruct (sn_pt _ _ _ _ _ Hs _ _ Hx) as (_ & E2 & _). by eapply static_valid.
    + rewrite omap_app. apply submseteq_app; [done|]. eapply own_inserts.
      * by eapply g_len1.
      * intros. by eapply (g_ph _ _ _ _ _ G).
      * intros. by eapply (g_quiet _ _ _ _ _ G).
Qed.

Context (el : elem T) (dname : String.string) (ml : nat).
Context (Hpos : (0 < nb_point h0)%nat) (El : max_layer h0 = Nat.min 16 ml) (Hry : dumped_ready el dname ml h0 d) (Hun : dumped_uniform d).
Local Notation len := (length (concat (dd_layers d))).
Local Notation hs := (snapn h0 d len).

Lemma dlook_in p x : dlook d p = Some x -> x ∈ concat (dd_layers d).
Proof using Type.
  unfold dlook. destruct (dd_layers d !! p.1) as [ly|] eqn:E; [|done]. simpl. intros Hx. apply elem_of_list_In, in_concat. exists ly.
  split; apply elem_of_list_In; by eapply elem_of_list_lookup_2.
Qed.

Lemma during_entry : is_Some (dd_entry d).
Proof using All.
  destruct during_snap as (Hs & _). pose proof (sn_entry _ _ _ _ _ Hs) as He. destruct (dd_entry d); [by eexists|]. lia.
Qed.

Lemma during_dumpable : dumpable dist el hs.
Proof using All.
  destruct during_snap as (Hs & Hpar & Hc). rewrite <- (snapn_params (c_sh c) len Hpar).
  pose proof Hpar as (E1 & E2 & E3 & E4 & E5 & E6 & E7 & E8). destruct Hry as [R1 R2 R3 R4 R5 R6 R7 R8 R9].
  constructor.
  - eapply snap_lwf; [exact Hs|exact Hc|apply during_entry].
  - cbn [snapn max_layer]. rewrite E5, El. unfold NB_LAYER_MAX. lia.
  - cbn [snapn ef_construction]. by rewrite E1.
  - done.
  - cbn [snapn level_scale]. by rewrite E6.
  - intros p pt Hp. apply snap_get_inv in Hp as (x & Hx & ->). cbn [dpt pt_oid pt_data].
    destruct (sn_pt _ _ _ _ _ Hs _ _ Hx) as (<- & _). apply R8. by eapply dlook_in.
  - intros p pt l nbs n Hp Hl Hn. apply snap_get_inv in Hp as (x & Hx & ->). cbn [dpt pt_nbs] in Hl.
    rewrite list_lookup_fmap in Hl. destruct (dp_lists x !! l) as [ns|] eqn:Els; [|done]. injection Hl as <-.
    apply elem_of_list_fmap in Hn as (m & -> & Hm). cbn [dnbr n_dist]. eapply R9; [by eapply dlook_in| |exact Hm].
    by eapply elem_of_list_lookup_2.
Qed.

Lemma during_dim n : dd_dim d = get_data_dimension (snapn h0 d n).
Proof using All.
  destruct during_snap as (Hs & Hpar & Hc). destruct Hun as [dim Hdim].
  destruct (sn_dim _ _ _ _ _ Hs) as [[_ ?]|(p & x & Hx & <-)]; [lia|]. rewrite (Hdim x) by (by eapply dlook_in).
  unfold get_data_dimension. cbn [snapn entry_point]. pose proof (sn_entry _ _ _ _ _ Hs) as He.
  destruct during_entry as [[o ep] Ee]. rewrite Ee in He |- *. destruct He as (y & Hy & _). cbn [fmap option_fmap option_map snd].
  change (Hnsw _ _ _ _ _ _ _ _ _ _ _) with (snapn h0 d n). rewrite snap_get, Hy. cbn. symmetry. apply Hdim. by eapply dlook_in.
Qed.

Lemma during_uniform : uniform_table hs.
Proof using All.
  intros p pt Hp. rewrite <- during_dim. apply snap_get_inv in Hp as (x & Hx & ->). cbn [dpt pt_data].
  destruct during_snap as (Hs & _). destruct Hun as [dim Hdim].
  destruct (sn_dim _ _ _ _ _ Hs) as [[_ ?]|(p' & y & Hy & <-)]; [lia|]. rewrite !Hdim; [done|by eapply dlook_in..].
Qed.

Lemma during_files : dumped_files el dname h0 d = dump el dname (set_nb_point (dd_nb d) hs) Full.
Proof using All.
  destruct during_snap as (Hs & Hpar & Hc).
  change (set_nb_point (dd_nb d) hs) with (snapn h0 d (dd_nb d)).
  rewrite <- (snapn_params (c_sh c) (dd_nb d) Hpar).
  rewrite <- (snap_dump dist (nb_point h0) h0 (c_sh c) d Hs el dname).
  - destruct Hpar as (E1 & E2 & E3 & E4 & E5 & E6 & E7 & E8). unfold dumped_files, dumped_description, get_max_nb_connection. by rewrite E1, E2, E5, E6.
  - rewrite (snapn_params (c_sh c) (dd_nb d) Hpar). apply during_dim.
Qed.

Lemma during_count : (nb_point h0 <= dd_nb d <= len)%nat.
Proof using All. destruct during_snap as (Hs & _). apply (sn_nb _ _ _ _ _ Hs). Qed.

Lemma during_res : w_res (dumped_files el dname h0 d) = Ok tt.
Proof using All.
  destruct during_entry as [[o ep] Ee]. rewrite during_files.
  assert (Hep : entry_point hs = Some ep) by (cbn [snapn entry_point]; by rewrite Ee).
  destruct Hry as [R1 R2 R3 _ _ _ _ _ _]. destruct (decide (dd_nb d = len)) as [E|Hne].
  - rewrite E. change (set_nb_point len hs) with hs. by eapply ready_res; eauto using during_dumpable.
  - assert (Hlt : (dd_nb d < nb_point hs)%nat) by (change (nb_point hs) with len; pose proof during_count; lia).
    by rewrite (less_dump dist el R1 hs during_dumpable dname R2 R3 ep Hep (dd_nb d) Hlt).
Qed.
Context (Hnd : el_nodata el = false) (cwd : list String.string) (fs : fsys) (io : hnswio) (inv_ln : nat -> f64).
Context (Hat : dump_at fs cwd (io_dir io) (io_basename io) (w_graph (dumped_files el dname h0 d)) (w_data (dumped_files el dname h0 d))).
Context (Ho : ro_datamap (io_options io) = false).

Lemma during_open : io_open cwd fs io = Ok (w_graph (dumped_files el dname h0 d), w_data (dumped_files el dname h0 d)).
Proof using All. unfold io_open. destruct Hat as [-> ->]. done. Qed.

Lemma during_ep : exists ep, entry_point hs = Some ep.
Proof using All. destruct during_entry as [[o ep] Ee]. exists ep. cbn [snapn entry_point]. by rewrite Ee. Qed.

(** a smaller count *)
Lemma during_less : dd_nb d <> len ->
  (forall dname', (exists c, rsplit_terminator dname' !! 0%nat = Some c /\ rsplit_terminator dname !! 0%nat = Some c) ->
     load_hnsw so el inv_ln dname' cwd fs io = Panic) /\
  load_hnsw_with_dist so el inv_ln dname cwd fs io = Panic /\
  (forall dname' a, load_hnsw so el inv_ln dname' cwd fs io <> Ok a) /\
  (forall dname' a, load_hnsw_with_dist so el inv_ln dname' cwd fs io <> Ok a).
Proof using All.
  intros Hne. destruct during_ep as [ep Hep].
  assert (Hlt : (dd_nb d < nb_point hs)%nat) by (change (nb_point hs) with len; pose proof during_count; lia).
  pose proof during_open as Hop. rewrite during_files in Hop. unfold load_hnsw, load_hnsw_with_dist. rewrite Hop. cbn [mbind outcome_bind].
  pose proof during_dumpable as Hd. pose proof during_uniform as Hut. destruct Hry as [R1 R2 R3 _ _ _ _ _ _].
  split_and!.
  - intros dname' Hn. eapply less_load; eauto.
  - eapply less_load_with_dist; eauto.
  - intros dname' a. eapply less_no_load; eauto.
  - intros dname' a. eapply less_no_load_with_dist; eauto.
Qed.

(** the right count *)
Lemma during_equal : dd_nb d = len -> dumped_files el dname h0 d = dump el dname hs Full.
Proof using All. intros E. rewrite during_files, E. done. Qed.

Lemma during_reload dname' h' mapped :
  load_hnsw so el inv_ln dname' cwd fs io = Ok (h', mapped) \/ load_hnsw_with_dist so el inv_ln dname' cwd fs io = Ok (h', mapped) ->
  exists ep dmo, dd_nb d = len /\ entry_point hs = Some ep /\ h' = reloaded hs so inv_ln ep pt_data dmo.
Proof using All.
  intros Hl. destruct (decide (dd_nb d = len)) as [E|Hne].
  2:{ destruct (during_less Hne) as (_ & _ & H1 & H2). destruct Hl as [Hl|Hl]; [by apply H1 in Hl|by apply H2 in Hl]. }
  destruct during_ep as [ep Hep]. pose proof Hat as Hat'. rewrite (during_equal E) in Hat'. exists ep.
  pose proof during_dumpable as Hd. pose proof during_uniform as Hut. destruct Hry as [R1 R2 R3 _ _ _ _ _ _].
  destruct (reload_plain_facts dist Hnn so hs el dname R1 Hd R2 R3 ep Hep cwd fs io Hat' inv_ln dname' h' mapped Hnd Hut Ho Hl) as [dmo ->].
  eauto.
Qed.
Lemma during_loads : dd_nb d = len -> exists ep, entry_point hs = Some ep /\
  (forall dname', (exists c, rsplit_terminator dname' !! 0%nat = Some c /\ rsplit_terminator dname !! 0%nat = Some c) ->
     load_hnsw so el inv_ln dname' cwd fs io = Ok (reloaded hs so inv_ln ep pt_data true, [])) /\
  load_hnsw_with_dist so el inv_ln dname cwd fs io = Ok (reloaded hs so inv_ln ep pt_data false, []).
Proof using All.
  intros E. destruct during_ep as [ep Hep]. pose proof Hat as Hat'. rewrite (during_equal E) in Hat'. exists ep. split; [done|].
  pose proof during_dumpable as Hd. pose proof during_uniform as Hut. destruct Hry as [R1 R2 R3 _ _ _ _ _ _]. split.
  - intros dname' Hc. by eapply (reload_plain dist Hnn hs el dname); eauto.
  - by eapply (reload_plain_with_dist dist Hnn hs el dname); eauto.
Qed.
End During.

(** ** A dump that runs alone writes the files of Io.v *)
Section Alone.
Context {T : Type} (dist : list T -> list T -> Z) (h : hnsw (T:=T)) (Hwf : lwf dist h).

Definition dread (pt : point (T:=T)) : dpoint (T:=T) := DPoint (pt_oid pt) (pt_pid pt) (pt_data pt) (to_nbs h <$> pt_nbs pt).
Definition dread_all : dumped (T:=T) :=
  Dumped (get_data_dimension h) (nb_point h) (fmap (M:=list) dread <$> points_by_layer h)
    ((fun ep => (oid_at h ep, ep)) <$> entry_point h).

Lemma run_dump_points i pts : forall j, (forall k pt, pts !! k = Some pt -> get_pt h (i, (j + k)%nat) = Some pt) ->
  run (dump_points_p i j (length pts)) h = Ok (h, dread <$> pts) /\
  forall el, dump_points el h Full i j pts = dumped_points el (dread <$> pts).
Proof using Hwf.
  induction pts as [|pt pts IH]; intros j H; [done|].
  pose proof (H 0%nat pt eq_refl) as Hp. rewrite Nat.add_0_r in Hp.
  destruct (c_pt _ _ (l_core _ _ Hwf) _ _ Hp) as [Ep _]. pose proof (nbhd_eq dist h pt _ Hwf Hp) as Hnb.
  destruct (IH (S j)) as [IH1 IH2].
  { intros k pt' Hk. replace (S j + k)%nat with (j + S k)%nat by lia. by apply H. }
  cbn [length dump_points_p dump_points fmap list_fmap dumped_points]. split.
  - erewrite run_bind_Ok; [|apply run_peek; rewrite Hp; cbn [unwrap mbind outcome_bind]; rewrite bool_decide_true by done; done].
    erewrite run_bind_Ok; [|apply run_read; rewrite Hp; cbn [unwrap mbind outcome_bind]; exact Hnb].
    erewrite run_bind_Ok; [|exact IH1]. done.
  - intros el. rewrite bool_decide_true by done. unfold dump_point. rewrite Hnb, IH2. done.
Qed.

Lemma run_dump_layers ls : forall i, (forall k ly, ls !! k = Some ly -> points_by_layer h !! (i + k)%nat = Some ly) ->
  run (dump_layers_p i (length ls)) h = Ok (h, fmap (M:=list) dread <$> ls) /\
  forall el, dump_layers el h Full i ls = dumped_layers el (fmap (M:=list) dread <$> ls).
Proof using Hwf.
  induction ls as [|ly ls IH]; intros i H; [done|].
  pose proof (H 0%nat ly eq_refl) as Hly. rewrite Nat.add_0_r in Hly.
  destruct (run_dump_points i ly 0) as [P1 P2].
  { intros k pt Hk. apply get_pt_lookup. simpl. eauto. }
  destruct (IH (S i)) as [IH1 IH2].
  { intros k ly' Hk. replace (S i + k)%nat with (i + S k)%nat by lia. by apply H. }
  cbn [length dump_layers_p dump_layers fmap list_fmap dumped_layers]. split.
  - erewrite run_bind_Ok; [|apply run_peek; rewrite Hly; done]. 
    erewrite run_bind_Ok; [|exact P1]. erewrite run_bind_Ok; [|exact IH1]. done.
  - intros el. by rewrite P2, IH2, fmap_length.
Qed.

Theorem run_dump : run dump_p h = Ok (h, dread_all) /\
  forall el dname, dumped_files el dname h dread_all = dump el dname h Full.
Proof using Hwf.
  destruct (run_dump_layers (points_by_layer h) 0) as [L1 L2]; [by intros k ly|].
  pose proof (l_entry _ _ Hwf) as He. split.
  - unfold dump_p. erewrite run_bind_Ok; [|by apply run_read]. erewrite run_bind_Ok; [|by apply run_read]. cbn [run].
    erewrite run_bind_Ok; [|by apply run_peek]. erewrite run_bind_Ok; [|exact L1].
    erewrite run_bind_Ok; [done|]. unfold dump_entry_p. apply run_read. destruct (entry_point h) as [ep|]; [|done].
    destruct He as [pt Hp]. rewrite Hp. cbn. unfold oid_at. rewrite Hp. by destruct (c_pt _ _ (l_core _ _ Hwf) _ _ Hp) as [-> _].
  - intros el dname. unfold dumped_files, dump, dump_indexation. rewrite L2. unfold dumped_description, describe. cbn [dread_all dd_dim dd_nb dd_layers].
    rewrite fmap_length. unfold dumped_entry, dump_entry. cbn [dread_all dd_entry]. destruct (entry_point h) as [ep|]; [|done].
    destruct He as [pt Hp]. cbn. unfold oid_at. rewrite Hp. by destruct (c_pt _ _ (l_core _ _ Hwf) _ _ Hp) as [-> _].
Qed.
End Alone.
