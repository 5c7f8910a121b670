(** Facts about every built index, in the vocabulary of Spec.v. *)
From Coq Require Import SpecFloat Strings.String.
From stdpp Require Import relations.
From Verif Require Import Conc SpecConc ConcEnd ConcDump ConcDumpProofs ConcCalls ConcCallsProofs.
From Verif Require Import Prelude Model Lib Table SearchProofs SelectProofs InsertProofs ExhaustProofs QueryProofs
  IterProofs FlatProofs Spec SpecProofs Io IoBase SpecIo SpecBuilt IoProofs IoProofs2 IoProofs3 IoProofs4 IoProofs5 Calls CallsProofs.

Section Built.
Context {T : Type} (dist : list T -> list T -> Z) (so : StdOps).
Context (LAWS : StdLaws so) (Hnn : forall a b, (0 <= dist a b)%Z).
Implicit Types (h : hnsw (T:=T)) (p np ep : pid) (q : list T).
Local Notation core := (core dist).
Local Notation wf := (wf dist).
Local Notation built := (built dist so).

(** what a reload of a dump of a well formed index gives *)
Lemma reload_facts inv_ln ml hist h el dname dname' cwd fs io h' mapped :
  wf h -> max_layer h = Nat.min 16 ml -> stored h ≡ₚ hist -> nb_point h = length hist -> (max_nb_connection h <= 255)%nat ->
  dump_ready el dname ml hist h -> uniform h -> el_nodata el = false ->
  dump_at fs cwd (io_dir io) (io_basename io) (w_graph (dump el dname h Full)) (w_data (dump el dname h Full)) ->
  ((ro_datamap (io_options io) = true -> distinct_ids hist /\ plain_dir (io_dir io)) /\
     load_hnsw so el inv_ln dname' cwd fs io = Ok (h', mapped)) \/
  (ro_datamap (io_options io) = false /\ load_hnsw_with_dist so el inv_ln dname' cwd fs io = Ok (h', mapped)) ->
  exists ep dmo, entry_point h = Some ep /\ h' = reloaded h so inv_ln ep pt_data dmo /\
    mapped = mapped_of h (io_options io) pt_data.
Proof.
  intros Hwf Hml Hst Hnb HM [R1 R2 R3 R4 R5 R6] Hu Hnd Hat Hload.
  assert (Hl : max_layer h = NB_LAYER_MAX) by (rewrite Hml; unfold NB_LAYER_MAX; lia).
  assert (exists ep, entry_point h = Some ep) as [ep Hep].
  { pose proof (w_entry _ _ Hwf) as He. destruct (entry_point h) as [ep|]; [by exists ep|].
    destruct hist; [done|]. rewrite (w_count _ _ Hwf) in Hnb. rewrite He in Hnb. done. }
  pose proof (sized_dumpable dist el h Hwf Hl R6) as Hd.
  pose proof (uniform_dim dist Hnn h ep Hwf Hep Hu) as Hut.
  exists ep.
  destruct (ready_header dist Hnn h el dname R1 Hd R2 R3 ep Hep cwd fs _ _ Hat) as [s Hs].
  pose proof (ready_open dist Hnn h el dname R1 Hd R2 R3 ep Hep cwd fs _ _ Hat io eq_refl eq_refl) as Ho.
  destruct Hload as [[Hmm Hld]|[Hmm Hld]]; pose proof Hld as Hld'.
  - assert (exists c, rsplit_terminator dname' !! 0%nat = Some c /\ rsplit_terminator dname !! 0%nat = Some c) as Hc.
    { unfold load_hnsw in Hld. rewrite Ho in Hld. cbn [mbind outcome_bind] in Hld. unfold run_rd in Hld.
      destruct (load_rd _ _ _ _ _ _ _ _) as [[r s']| | | | |] eqn:E; try done.
      apply load_names in E as (de & s1 & Hh & Hn). rewrite Hs in Hh. injection Hh as <- <-. destruct Hn as [?|[_ ?]]; [congruence|done]. }
    destruct (ro_datamap (io_options io)) eqn:Eo.
    + destruct (Hmm eq_refl) as [HD Hpd].
      assert (NoDup (pt_oid <$> all_points h)).
      { unfold distinct_ids in HD. rewrite <- Hst in HD. unfold stored in HD. by rewrite <- list_fmap_compose in HD. }
      rewrite (reload_mmap dist Hnn h el dname R1 Hd R2 R3 ep Hep cwd fs _ _ Hat so inv_ln dname' io) in Hld'; auto.
      injection Hld' as <- <-. eauto.
    + rewrite (reload_plain dist Hnn h el dname R1 Hd R2 R3 ep Hep cwd fs _ _ Hat so inv_ln dname' io) in Hld'; auto.
      injection Hld' as <- <-. exists true. rewrite mapped_off by done. done.
  - assert (dname' = dname) as ->.
    { unfold load_hnsw_with_dist in Hld. rewrite Ho in Hld. cbn [mbind outcome_bind] in Hld. unfold run_rd in Hld.
      destruct (load_with_dist_rd _ _ _ _ _ _ _) as [[r s']| | | | |] eqn:E; try done.
      apply load_with_dist_names in E as (de & s1 & Hh & Hn). rewrite Hs in Hh. injection Hh as <- <-. destruct Hn as [?|[_ ?]]; [congruence|done]. }
    rewrite (reload_plain_with_dist dist Hnn h el dname R1 Hd R2 R3 ep Hep cwd fs _ _ Hat so inv_ln io) in Hld'; auto.
    injection Hld' as <- <-. exists false. rewrite mapped_off by done. done.
Qed.

Lemma built_facts inv_ln M ml ef hist h : built inv_ln M ml ef hist h ->
  wf h /\ max_layer h = Nat.min 16 ml /\ max_nb_connection h = M /\ ef_construction h = ef /\
  stored h ≡ₚ hist /\ nb_point h = length hist.
Proof.
  induction 1 as [h Hn|hist h v id d h' _ (IH1 & IH2 & IH3 & IH4 & IH5 & IH6) Hins
    |hist h b _ (IH1 & IH2 & IH3 & IH4 & IH5 & IH6)|hist h b _ (IH1 & IH2 & IH3 & IH4 & IH5 & IH6)
    |hist h b _ (IH1 & IH2 & IH3 & IH4 & IH5 & IH6)|hist h m _ (IH1 & IH2 & IH3 & IH4 & IH5 & IH6)
    |hist h el dname dname' cwd fs io h' mapped _ (IH1 & IH2 & IH3 & IH4 & IH5 & IH6) Hr Hu HM Hnd Hat Hmm Hld
    |hist h el dname dname' cwd fs io h' mapped _ (IH1 & IH2 & IH3 & IH4 & IH5 & IH6) Hr Hu HM Hnd Hat Hmm Hld
    |hist h ts rs h' _ (IH1 & IH2 & IH3 & IH4 & IH5 & IH6) Hne Hok Ha
    |h ts rs h' pts _ (IH1 & IH2 & IH3 & IH4 & IH5 & IH6) Hml Hok Ha Hit Hlen].
  - destruct (hnsw_new_wf dist _ _ _ _ _ Hn) as (H1 & H2 & H3 & H4 & H5 & H6 & _).
    split_and!; auto; [by rewrite H6|].
    rewrite (w_count _ _ H1). rewrite <- all_points_length. unfold stored in H6. by apply fmap_nil_inv in H6 as ->.
  - destruct (insert_spec dist so LAWS Hnn h v id d IH1 (insert_max_layer dist so Hnn _ _ _ _ _ Hins)) as
      (h2 & np & Hi2 & Hwf & Hgr & Hnone & Hst & Hold & Hnb & K1 & K2 & K3 & _).
    rewrite Hins in Hi2. injection Hi2 as <-. split_and!; try congruence.
    + rewrite (stored_insert h h' np v id Hnone Hst Hold). by rewrite IH5.
    + rewrite app_length, Hnb. simpl. lia.
  - split_and!; auto. by apply (wf_meta dist h).
  - split_and!; auto. by apply (wf_meta dist h).
  - split_and!; auto. by apply (wf_meta dist h).
  - split_and!; auto. by apply (wf_meta dist h).
  - destruct (reload_facts inv_ln ml hist h el dname dname' cwd fs io h' mapped) as (ep & dmo & Hep & -> & _); auto; [lia|].
    assert (Hl : max_layer h = NB_LAYER_MAX) by (rewrite IH2; destruct Hr; unfold NB_LAYER_MAX; lia).
    destruct (reloaded_wf dist so LAWS Hnn h inv_ln ep dmo (wf_lwf _ _ IH1) Hl) as ((_ & W1) & W2 & W3 & W4); [lia|done|].
    split_and!; auto; [|congruence|by rewrite W3]. rewrite <- IH2. exact (eq_sym Hl).
  - destruct (reload_facts inv_ln ml hist h el dname dname' cwd fs io h' mapped) as (ep & dmo & Hep & -> & _); auto; [lia|].
    assert (Hl : max_layer h = NB_LAYER_MAX) by (rewrite IH2; destruct Hr; unfold NB_LAYER_MAX; lia).
    destruct (reloaded_wf dist so LAWS Hnn h inv_ln ep dmo (wf_lwf _ _ IH1) Hl) as ((_ & W1) & W2 & W3 & W4); [lia|done|].
    split_and!; auto; [|congruence|by rewrite W3]. rewrite <- IH2. exact (eq_sym Hl).
  - assert (Hpos : (0 < nb_point h)%nat) by (rewrite IH6; destruct hist; [done|simpl; lia]).
    assert (Hml : (0 < max_layer h)%nat).
    { pose proof (w_entry _ _ IH1) as He. pose proof (w_count _ _ IH1). destruct (entry_point h) as [ep|]; [|lia].
      destruct (core_layer dist h ep (w_core _ _ IH1) (proj1 He)). lia. }
    destruct (after_wf dist so LAWS Hnn h ts (wf_lwf _ _ IH1) Hml Hok h' rs (or_introl (conj IH1 Hpos)) Ha) as (A1 & A2 & A3 & A4 & A5 & A6).
    split_and!; try congruence.
    + by rewrite A5, IH5.
    + rewrite A6, IH6, app_length. done.
  - assert (Hml' : (0 < max_layer h)%nat) by (rewrite IH2; lia).
    assert (Hs : table_size h' = length (inserts ts)).
    { destruct (after_glob dist so LAWS Hnn h ts (wf_lwf _ _ IH1) Hml' Hok h' rs Ha) as (c & phs & G & Hf & <-).
      destruct (glob_counts dist h ts c phs rs G Hf) as [_ ->]. rewrite <- (w_count _ _ IH1), IH6. done. }
    assert (Hep : exists ep, entry_point h' = Some ep /\ forall p, valid h' p -> (p.1 <= ep.1)%nat).
    { eapply iter_points_all; [exact Hit|congruence]. }
    destruct (after_wf dist so LAWS Hnn h ts (wf_lwf _ _ IH1) Hml' Hok h' rs (or_intror Hep) Ha) as (A1 & A2 & A3 & A4 & A5 & A6).
    split_and!; try congruence.
    + by rewrite A5, IH5.
    + rewrite A6, IH6. done.
Qed.

(** ** Any use *)
Lemma lwf_meta h h' :
  points_by_layer h' = points_by_layer h -> max_layer h' = max_layer h ->
  max_nb_connection h' = max_nb_connection h -> nb_point h' = nb_point h ->
  entry_point h' = entry_point h -> lwf dist h -> lwf dist h'.
Proof.
  intros E1 E2 E3 E4 E5 [Hc Hn He].
  assert (Hg : forall p, get_pt h' p = get_pt h p) by (intros p; unfold get_pt; by rewrite E1).
  assert (Hs : table_size h' = table_size h) by (unfold table_size; by rewrite E1).
  constructor.
  - by apply (core_meta dist h).
  - congruence.
  - rewrite E5, Hs. destruct (entry_point h) as [ep|]; [|done]. unfold valid in *. by rewrite Hg.
Qed.

Lemma used_facts inv_ln M ml ef hist h : used dist so inv_ln M ml ef hist h ->
  lwf dist h /\ max_layer h = Nat.min 16 ml /\ max_nb_connection h = M /\ ef_construction h = ef /\
  stored h ≡ₚ hist /\ nb_point h = length hist.
Proof.
  induction 1 as [hist h Hb|hist h v id d h' _ (IH1 & IH2 & IH3 & IH4 & IH5 & IH6) Hins
    |hist h b _ (IH1 & IH2 & IH3 & IH4 & IH5 & IH6)|hist h b _ (IH1 & IH2 & IH3 & IH4 & IH5 & IH6)
    |hist h b _ (IH1 & IH2 & IH3 & IH4 & IH5 & IH6)|hist h m _ (IH1 & IH2 & IH3 & IH4 & IH5 & IH6)
    |hist h ts rs h' _ (IH1 & IH2 & IH3 & IH4 & IH5 & IH6) Hml Hok Ha
    |hist h ts c i d el dname dname' cwd fs io h' mapped _ (IH1 & IH2 & IH3 & IH4 & IH5 & IH6) Hne Hok Hdu Ht Hret Hry Hun HM Hnd Hat Ho Hld
    |hist h v id dr d h' _ (IH1 & IH2 & IH3 & IH4 & IH5 & IH6) Hd Hleft
    |hist h ts d outs h' _ (IH1 & IH2 & IH3 & IH4 & IH5 & IH6) Hml Hok Hd Ha].
  - destruct (built_facts _ _ _ _ _ _ Hb) as (H1 & ?). split; [by apply wf_lwf|done].
  - destruct (insert_lspec dist so LAWS Hnn h v id d IH1 (insert_max_layer dist so Hnn _ _ _ _ _ Hins)) as
      (h2 & np & Hi2 & [Hwf _] & Hgr & Hnone & Hst & Hold & Hnb & K1 & K2 & K3 & _).
    rewrite Hins in Hi2. injection Hi2 as <-. split_and!; try congruence.
    + rewrite (stored_insert h h' np v id Hnone Hst Hold). by rewrite IH5.
    + rewrite app_length, Hnb. simpl. lia.
  - split_and!; auto. by apply (lwf_meta h).
  - split_and!; auto. by apply (lwf_meta h).
  - split_and!; auto. by apply (lwf_meta h).
  - split_and!; auto. by apply (lwf_meta h).
  - assert (Hml' : (0 < max_layer h)%nat) by (rewrite IH2; lia).
    destruct (after_lwf dist so LAWS Hnn h ts IH1 Hml' Hok h' rs Ha) as (A1 & A2 & A3 & A4 & A5 & A6).
    split_and!; try congruence.
    + by rewrite A5, IH5.
    + rewrite A6, IH6, app_length. done.
  - assert (Hpos : (0 < nb_point h)%nat) by (rewrite IH6; destruct hist; [done|simpl; lia]).
    assert (Hl : max_layer h = NB_LAYER_MAX) by (rewrite IH2; destruct Hry; unfold NB_LAYER_MAX; lia).
    assert (Hml : (0 < max_layer h)%nat) by (rewrite Hl; unfold NB_LAYER_MAX; lia).
    destruct (during_reload dist so LAWS Hnn h ts IH1 Hml Hok c Hdu i d Ht Hret el dname ml Hpos IH2 Hry Hun Hnd cwd fs io inv_ln Hat Ho
      dname' h' mapped Hld) as (ep & dmo & Ec & Hep & ->).
    pose proof (during_dumpable dist so LAWS Hnn h ts IH1 Hml Hok c Hdu i d Ht Hret el dname ml Hpos IH2 Hry Hun) as Hd.
    destruct (reloaded_wf dist so LAWS Hnn _ inv_ln ep dmo (du_wf _ _ _ Hd) (du_layers _ _ _ Hd)) as ((W1 & _) & _ & W3 & W4); [cbn; lia|done|].
    split_and!; auto.
    + rewrite <- IH2. exact (eq_sym Hl).
    + rewrite W4. exact IH3.
    + by rewrite W3, stored_snap.
    + unfold dumped_contents. by rewrite fmap_length.
  - destruct (insert_calls dist so LAWS Hnn h v id dr IH1 (insert_left_layer so d h v id dr h' Hleft)) as [Hs _].
    destruct (safe_left dist _ d _ h' Hs Hd Hleft) as (a & b & (Hwf & Hgr & (np & Hnone & Hst & Hold & _) & Hnb & K1 & K2 & K3 & _) & _).
    split_and!; try congruence.
    + rewrite (stored_insert h h' np v id Hnone Hst Hold). by rewrite IH5.
    + rewrite app_length, Hnb. simpl. lia.
  - assert (Hml' : (0 < max_layer h)%nat) by (rewrite IH2; lia).
    destruct (after_c_lwf dist d so LAWS Hnn Hd h ts IH1 Hml' Hok h' outs Ha) as (A1 & A2 & A3 & A4 & A5 & A6).
    split_and!; try congruence.
    + by rewrite A5, IH5.
    + rewrite A6, IH6, app_length. done.
Qed.

Lemma built_wf inv_ln M ml ef hist h : built inv_ln M ml ef hist h -> wf h.
Proof. intros H. exact (proj1 (built_facts _ _ _ _ _ _ H)). Qed.

Lemma plain_built inv_ln M ml ef hist h : built_plain dist so inv_ln M ml ef hist h -> built inv_ln M ml ef hist h.
Proof. induction 1; econstructor; eauto. Qed.

Lemma built_entry inv_ln M ml ef hist h : built inv_ln M ml ef hist h ->
  (hist = [] /\ entry_point h = None /\ table_size h = 0%nat) \/
  (hist <> [] /\ exists ep, entry_point h = Some ep).
Proof.
  intros H. destruct (built_facts _ _ _ _ _ _ H) as ([Hc Hn He] & _ & _ & _ & _ & Hl).
  destruct (entry_point h) as [ep|] eqn:E.
  - right. split; [|by exists ep]. intros ->. destruct He as [Hv _].
    apply (table_size_0_valid h ep); [|done]. simpl in Hl. congruence.
  - left. split_and!; auto. apply nil_length_inv. congruence.
Qed.

(** ** Flat indexes *)
Lemma plain_flat inv_ln M ef hist h :
  built_plain dist so inv_ln M 1 ef hist h -> (length hist <= S (2 * M))%nat -> (length hist <= S ef)%nat ->
  complete h /\ extend_candidates h = false.
Proof.
  induction 1 as [h Hn|hist h v id d h' Hb IH Hins]; intros HM Hef.
  - destruct (hnsw_new_wf dist _ _ _ _ _ Hn) as (H1 & H2 & H3 & H4 & H5 & H6 & H7 & _).
    split; [|done]. pose proof (w_entry _ _ H1) as He. rewrite H5 in He.
    split.
    + intros p Hp. by apply (table_size_0_valid h p) in He.
    + intros p p' Hp. by apply (table_size_0_valid h p) in He.
  - rewrite app_length in HM, Hef. simpl in HM, Hef.
    destruct IH as [Hcomp Hext]; [lia..|].
    destruct (built_facts _ _ _ _ _ _ (plain_built _ _ _ _ _ _ Hb)) as (Hwf & F1 & F2 & F3 & F4 & F5).
    rewrite (w_count _ _ Hwf) in F5.
    split.
    + eapply (insert_flat dist so LAWS Hnn h v id d h' Hwf Hcomp Hext); [..|exact Hins].
      * destruct (generate_ok (level_scale h) (max_layer h) d) as [lv Hlv]; [rewrite F1; simpl; lia|].
        rewrite Hlv. apply generate_lt in Hlv. rewrite F1 in Hlv. simpl in Hlv. f_equal. lia.
      * rewrite F3, F5. lia.
      * rewrite F2, F5. lia.
    + destruct (insert_spec dist so LAWS Hnn h v id d Hwf (insert_max_layer dist so Hnn _ _ _ _ _ Hins)) as
        (h2 & np & Hi2 & _ & _ & _ & _ & _ & _ & _ & _ & _ & K & _).
      rewrite Hins in Hi2. injection Hi2 as <-. congruence.
Qed.

End Built.
