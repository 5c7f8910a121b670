(** Property C87: what a reload does with files that have been cut short, wherever the cuts are. *)
From Coq Require Import Strings.String.
From stdpp Require Import relations.
From Verif Require Import Prelude Model StdInst Lib Table SearchProofs InsertProofs Spec Io IoBase IoProofs IoProofs5 LoadProofs SpecIo SpecFile
  FileProofs FileProofs2 IoProofs3 SpecBuilt SpecCut CutProofs Examples ExamplesIo PropsIo PropsFile.
Local Open Scope list_scope.

(** C87. Reload in memory of files that contain the beginnings [g] and [d] of the texts of contents that can be loaded: the first piece
    that is not there entirely, in the order of [pieces], decides between an error, a panic and the end of the process; if none is missing
    the reload succeeds. *)
Theorem C87_cut_files :
  forall {T} so, StdLaws so -> forall (el : elem T) inv_ln t h, fits t -> sensible el t -> stands_for so el inv_ln t h ->
  forall g d cutg cutd, graph_text t = g ++ cutg -> data_text t = d ++ cutd ->
  forall cwd fs io, ro_datamap (io_options io) = false -> dump_at fs cwd (io_dir io) (io_basename io) g d ->
  forall dname,
  (datamap_opt h = true -> (el_nodata el = true \/ exists c, rsplit_terminator dname !! 0%nat = Some c /\ rsplit_terminator (tx_dist t) !! 0%nat = Some c) ->
   load_hnsw so el inv_ln dname cwd fs io =
     match first_short (pieces t) (length g) (length d) with Some f => fails f | None => Ok (h, []) end) /\
  (datamap_opt h = false -> (el_nodata el = true \/ dname = tx_dist t) ->
   load_hnsw_with_dist so el inv_ln dname cwd fs io =
     match first_short (pieces t) (length g) (length d) with Some f => fails f | None => Ok (h, []) end).
Proof.
  intros T so LAWS el inv_ln t h F S G g d cutg cutd Hg Hd cwd fs io Hmm [Fg Fd] dname.
  destruct (to_parts so el inv_ln t h F S G) as (Hh & P1 & P2 & P3).
  set (ld := Loaded (points_by_layer h) (N.to_nat (tx_entry t).1.2, Z.to_nat (tx_entry t).2) []) in *.
  destruct (ft_entry _ F) as (H1 & H2 & H3).
  assert (Hix : obeys (load_point_indexation so el (io_datamap io) (io_options io) (de_of t)) (drop 2 (pieces t)) ld).
  { apply (obeys_indexation so LAWS el _ _ Hmm (de_of t) (hf_version _ Hh)); try done; try apply S.
    - destruct (se_type _ _ S) as [E|E]; [by left|right; by symmetry]. - right. apply S. }
  assert (Hcore : forall (gate : rd unit) dmo, obeys gate [] tt ->
    fst <$> (de <~ load_header; _ <~ gate; ld <~ load_point_indexation so el (io_datamap io) (io_options io) de; rret (make_hnsw inv_ln de ld dmo, ld_mapped ld)) (g, d) =
    match first_short (pieces t) (length g) (length d) with Some f => fails f | None => Ok (make_hnsw inv_ln (de_of t) ld dmo, []) end).
  { intros gate dmo Hgate.
    assert (HO : obeys (de <~ load_header; _ <~ gate; ld <~ load_point_indexation so el (io_datamap io) (io_options io) de; rret (make_hnsw inv_ln de ld dmo, ld_mapped ld))
      (pieces t) (make_hnsw inv_ln (de_of t) ld dmo, [])).
    { change (pieces t) with ([Piece GraphFile (head_text t) Panics; Piece DataFile (u32_bytes MAGICDATAP ++ u64_bytes (tx_dim t)) ReturnsErr] ++ drop 2 (pieces t)).
      eapply obeys_bind; [by apply obeys_header|]. eapply one_bind0; [exact Hgate|]. rewrite <- (app_nil_r (drop 2 (pieces t))).
      eapply obeys_bind; [exact Hix|]. apply obeys_ret. }
    rewrite HO.
    - destruct (first_short _ _ _) as [[]|]; done.
    - rewrite (proj1 (pieces_text t)). by eapply agrees_prefix.
    - rewrite (proj2 (pieces_text t)). by eapply agrees_prefix. }
  split; intros Edm Hname.
  - unfold load_hnsw, io_open. rewrite Fg, Fd. cbn [mbind outcome_bind]. unfold run_rd.
    pose (gate := (same <~ (if el_nodata el then rret true
             else a <~ rlift (unwrap (rsplit_terminator dname !! 0%nat)); b <~ rlift (unwrap (rsplit_terminator (tx_dist t) !! 0%nat));
             rret (bool_decide (a = b))); if negb (same : bool) then rlift Err else rret tt) : rd unit).
    assert (Hgate : obeys gate [] tt).
    { unfold gate. destruct Hname as [->|(c & E1 & E2)]; [eapply one_bind0; apply obeys_ret|]. destruct (el_nodata el); [eapply one_bind0; apply obeys_ret|].
      rewrite E1, E2. eapply (one_bind0 _ _ _ true); [|apply obeys_ret]. eapply one_bind0; [by apply obeys_lift|]. eapply one_bind0; [by apply obeys_lift|].
      rewrite bool_decide_true by done. apply obeys_ret. }
    rewrite P3, Edm, <- (Hcore gate true Hgate). f_equal. unfold load_rd, rbind.
    destruct (load_header (g, d)) as [[de s1]| | | | |] eqn:Eh; try done. cbn [mbind outcome_bind].
    assert (Ede : de = de_of t).
    { rewrite (obeys_header t Hh) in Eh.
      - clear -Eh. revert Eh. destruct (first_short _ _ _) as [[]|]; [done..|]. by intros [= -> _].
      - cbn [gpart]. rewrite app_nil_r. eapply agrees_l, agrees_prefix. exact Hg.
      - cbn [dpart]. rewrite app_nil_r. apply (agrees_l _ _ (concat (record_text <$> concat (tx_layers t)))). rewrite <- app_assoc. by eapply agrees_prefix. }
    subst de. unfold gate. destruct (el_nodata el).
    + cbn. unfold choose_datamap. rewrite Hmm. done.
    + destruct Hname as [?|(c & E1 & E2)]; [done|]. unfold rbind, rlift. cbn [de_distname de_of]. rewrite E1, E2. cbn. rewrite bool_decide_true by done. cbn.
      unfold choose_datamap. rewrite Hmm. done.
  - unfold load_hnsw_with_dist, io_open. rewrite Fg, Fd. cbn [mbind outcome_bind]. unfold run_rd.
    rewrite P3, Edm, <- (Hcore (rret tt) false (obeys_ret tt)). f_equal. unfold load_with_dist_rd, rbind.
    destruct (load_header (g, d)) as [[de s1]| | | | |] eqn:Eh; try done. cbn [mbind outcome_bind].
    assert (Ede : de = de_of t).
    { rewrite (obeys_header t Hh) in Eh.
      - clear -Eh. revert Eh. destruct (first_short _ _ _) as [[]|]; [done..|]. by intros [= -> _].
      - cbn [gpart]. rewrite app_nil_r. eapply agrees_l, agrees_prefix. exact Hg.
      - cbn [dpart]. rewrite app_nil_r. apply (agrees_l _ _ (concat (record_text <$> concat (tx_layers t)))). rewrite <- app_assoc. by eapply agrees_prefix. }
    subst de. cbn [de_distname de_of].
    assert (E : negb (el_nodata el) && negb (String.eqb dname (tx_dist t)) = false).
    { destruct Hname as [->| ->]; [done|]. rewrite String.eqb_refl. apply andb_false_r. }
    rewrite E. done.
Qed.
Print Assumptions C87_cut_files.

(** ** Dumps *)
Definition graph_failures (P : failure -> Prop) (ps : list piece) : Prop := Forall (fun p => pc_file p = GraphFile -> P (pc_failure p)) ps.
Definition data_failures (P : failure -> Prop) (ps : list piece) : Prop := Forall (fun p => pc_file p = DataFile -> P (pc_failure p)) ps.
Lemma short_data P ps : data_failures P ps -> forall ng nd, (length (gpart ps) <= ng)%nat -> (nd < length (dpart ps))%nat ->
  exists f, first_short ps ng nd = Some f /\ P f.
Proof.
  induction 1 as [|[fl b f] ps Hp _ IH]; intros ng nd Hg Hd; simpl in *; [lia|]. destruct fl; simpl in *; rewrite app_length in *.
  - destruct (ng <? length b)%nat eqn:E; [apply Nat.ltb_lt in E; lia|]. apply IH; lia.
  - destruct (nd <? length b)%nat eqn:E; [exists f; by auto|]. apply Nat.ltb_ge in E. apply IH; lia.
Qed.
Lemma short_graph P ps : graph_failures P ps -> forall ng nd, (ng < length (gpart ps))%nat -> (length (dpart ps) <= nd)%nat ->
  exists f, first_short ps ng nd = Some f /\ P f.
Proof.
  induction 1 as [|[fl b f] ps Hp _ IH]; intros ng nd Hg Hd; simpl in *; [lia|]. destruct fl; simpl in *; rewrite app_length in *.
  - destruct (ng <? length b)%nat eqn:E; [exists f; by auto|]. apply Nat.ltb_ge in E. apply IH; lia.
  - destruct (nd <? length b)%nat eqn:E; [apply Nat.ltb_lt in E; lia|]. apply IH; lia.
Qed.
Lemma points_failures mode l ts : forall r, graph_failures (eq Panics) (points_pieces mode l r ts) /\ data_failures (eq EndsProcess) (points_pieces mode l r ts).
Proof. induction ts as [|t ts IH]; intros r; [by split; constructor|]. destruct (IH (S r)) as [H1 H2]. split; repeat constructor; done. Qed.
Lemma layers_failures mode tls : forall l, graph_failures (fun f => f = ReturnsErr \/ f = Panics) (layers_pieces mode l tls) /\ data_failures (eq EndsProcess) (layers_pieces mode l tls).
Proof.
  induction tls as [|ts tls IH]; intros l; [by split; constructor|]. destruct (IH (S l)) as [H1 H2]. destruct (points_failures mode l ts 0) as [P1 P2].
  split; constructor; simpl; auto; try done; apply Forall_app; (split; [|done]).
  - eapply Forall_impl; [exact P1|]. intros p H E. right. symmetry. by apply H.
  - exact P2.
Qed.
Lemma pieces_failures t : graph_failures (fun f => f = ReturnsErr \/ f = Panics) (pieces t) /\ data_failures (eq EndsProcess) (drop 2 (pieces t)).
Proof.
  destruct (layers_failures (tx_mode t) (tx_layers t) 0) as [H1 H2]. unfold pieces. split.
  - constructor; [auto|]. constructor; [done|]. constructor; [auto|]. apply Forall_app. split; [done|]. repeat constructor.
  - cbn [drop]. constructor; [done|]. apply Forall_app. split; [done|]. by repeat constructor.
Qed.

(** C87 for dumps of an index: the two files are texts whose layers have as many points as those of the index; a dump of which only the data file has been
    cut gives an error if not even its 12 bytes of heading are left and ends the process otherwise; one of which only the graph file has been cut gives
    an error or a panic, an error if the cut is within the last 13 bytes; whatever the cuts, the first missing piece decides. *)
Theorem C87_cut_dump :
  forall {T} (dist : list T -> list T -> Z) so, StdLaws so -> (forall a b, (0 <= dist a b)%Z) ->
  forall inv_ln M ml ef hist h, built dist so inv_ln M ml ef hist h ->
  forall el dname, dump_ready el dname ml hist h -> el_nodata el = false -> uniform h ->
  forall cwd fs dir base draws fs' name, file_dump el dname cwd fs dir base draws h = (fs', Ok name) ->
  forall dname' c, last_component dname c -> last_component dname' c ->
  exists t h', dump_at fs' cwd dir name (graph_text t) (data_text t) /\
    (forall l ts, tx_layers t !! l = Some ts -> get_layer_nb_point h l = length ts) /\
    load_hnsw so el inv_ln dname' cwd fs' (io_new dir name) = Ok (h', []) /\
    forall g d cutg cutd, graph_text t = g ++ cutg -> data_text t = d ++ cutd ->
    forall fs'', dump_at fs'' cwd dir name g d ->
    let r := load_hnsw so el inv_ln dname' cwd fs'' (io_new dir name) in
    r = match first_short (pieces t) (length g) (length d) with Some f => fails f | None => Ok (h', []) end /\
    (cutg = [] -> cutd <> [] -> r = if (length d <? 12)%nat then Err else Exit) /\
    (cutd = [] -> cutg <> [] -> (r = Err \/ r = Panic) /\ ((length cutg <= 13)%nat -> r = Err)).
Proof.
  intros T dist so LAWS Hnn inv_ln M ml ef hist h Hb el dname Hr Hnd Hu cwd fs dir base draws fs' name Hf dname' c Hc Hc'.
  destruct (C27_reload dist so LAWS Hnn inv_ln M ml ef hist h Hb el dname Hr Hnd Hu cwd fs dir base draws fs' name Hf dname' c Hc Hc')
    as (h1 & _ & HL & Hsg & _).
  pose proof HL as HL0. destruct (C80_accepted_exactly so LAWS el inv_ln dname' cwd fs' (io_new dir name) h1 [] eq_refl) as [HA _].
  apply HA in HL as (t & rest & rest' & Hat & F & S & Hn & G & E1 & _). cbn [io_dir io_basename io_new io_new_with_options] in Hat.
  (* there is nothing after the texts *)
  assert (Hnil : rest = [] /\ rest' = []).
  { destruct (decide (rest = [] /\ rest' = [])) as [?|Hne]; [done|exfalso].
    pose (fs2 := fs_write (fs_write fs' cwd (graph_file dir name) (graph_text t)) cwd (data_file dir name) (data_text t)).
    assert (Hat2 : dump_at fs2 cwd dir name (graph_text t) (data_text t)).
    { unfold fs2. split.
      - rewrite fs_write_other by (apply graph_data_ne). apply fs_write_same.
      - apply fs_write_same. }
    destruct (C31_truncated dist so LAWS Hnn inv_ln M ml ef hist h Hb el dname Hr cwd fs dir base draws fs' name Hf
      (graph_text t) (data_text t) rest rest' fs2 Hat ltac:(by destruct rest, rest'; auto) Hat2 so el inv_ln dname' (io_new dir name) eq_refl eq_refl (h1, [])) as [HH _].
    apply HH. destruct (C80_accepted_exactly so LAWS el inv_ln dname' cwd fs2 (io_new dir name) h1 [] eq_refl) as [HA2 _].
    apply HA2. exists t, [], []. rewrite !app_nil_r. done. }
  destruct Hnil as [-> ->]. rewrite !app_nil_r in Hat. exists t, h1. split; [done|]. split.
  { intros l ts Hl. destruct (sf_layers _ _ _ _ _ G) as [_ HLL]. destruct (HLL l ts Hl) as (pts & Hpts & E & _).
    rewrite <- (sg_layer _ _ Hsg l). unfold get_layer_nb_point. rewrite Hpts. done. }
  split; [done|]. intros g d cutg cutd Hg Hd fs'' Hat'' r.
  assert (Er : r = match first_short (pieces t) (length g) (length d) with Some f => fails f | None => Ok (h1, []) end).
  { by apply (C87_cut_files so LAWS el inv_ln t h1 F S G g d cutg cutd Hg Hd cwd fs'' (io_new dir name) eq_refl Hat'' dname'). }
  destruct (pieces_failures t) as [P1 P2]. destruct (pieces_text t) as [T1 T2]. split; [done|]. split.
  - intros -> Hcd. rewrite app_nil_r in Hg. rewrite Er. subst g.
    assert (Hlt : (length d < length (data_text t))%nat) by (rewrite Hd, app_length; destruct cutd; [done|simpl; lia]).
    unfold pieces. cbn [first_short]. 
    assert (Eh : (length (graph_text t) <? length (head_text t))%nat = false) by (apply Nat.ltb_ge; unfold graph_text; rewrite app_length; lia).
    rewrite Eh. change (length (u32_bytes 0xa67f0000 ++ u64_bytes (tx_dim t))) with 12%nat. destruct (length d <? 12)%nat eqn:E12; [done|]. apply Nat.ltb_ge in E12.
    destruct (short_data (eq EndsProcess) (drop 2 (pieces t)) P2 (length (graph_text t) - length (head_text t)) (length d - 12)) as (f & Ef & <-).
    + rewrite <- T1. change (gpart (pieces t)) with (head_text t ++ gpart (drop 2 (pieces t))). rewrite app_length. lia.
    + rewrite <- T2 in Hlt. change (dpart (pieces t)) with ((u32_bytes 0xa67f0000 ++ u64_bytes (tx_dim t)) ++ dpart (drop 2 (pieces t))) in Hlt.
      rewrite app_length in Hlt. change (length (u32_bytes 0xa67f0000 ++ u64_bytes (tx_dim t))) with 12%nat in Hlt. lia.
    + unfold pieces in Ef. cbn [drop first_short] in Ef. rewrite Ef. done.
  - intros -> Hcg. rewrite app_nil_r in Hd. subst d.
    assert (Hlt : (length g < length (graph_text t))%nat) by (rewrite Hg, app_length; destruct cutg; [done|simpl; lia]).
    split.
    + destruct (short_graph _ _ P1 (length g) (length (data_text t))) as (f & Ef & Hf').
      * by rewrite T1. * by rewrite T2. * rewrite Er, Ef. destruct Hf' as [->| ->]; auto.
    + intros H13. rewrite Er.
      set (ps := [Piece GraphFile (head_text t) Panics; Piece DataFile (u32_bytes 0xa67f0000 ++ u64_bytes (tx_dim t)) ReturnsErr;
        Piece GraphFile (u8_bytes (N.of_nat (length (tx_layers t)))) ReturnsErr] ++ layers_pieces (tx_mode t) 0 (tx_layers t)).
      set (e := u64_bytes (tx_entry t).1.1 ++ u8_bytes (tx_entry t).1.2 ++ i32_bytes (tx_entry t).2).
      assert (Ep : pieces t = ps ++ [Piece GraphFile e ReturnsErr]) by done.
      assert (Ee : length e = 13%nat) by done.
      rewrite Ep in *. rewrite gpart_app in T1. rewrite dpart_app in T2. cbn [gpart dpart] in *. rewrite app_nil_r in *.
      pose proof (f_equal length T1) as L1. pose proof (f_equal length T2) as L2. rewrite app_length, Ee in L1. rewrite Hg, app_length in L1.
      rewrite short_app. rewrite (proj2 (short_none ps _ _)) by lia. cbn [first_short]. rewrite Ee.
      destruct (_ <? 13)%nat eqn:E; [done|]. apply Nat.ltb_ge in E. destruct Hcg. apply nil_length_inv. lia.
Qed.
Print Assumptions C87_cut_dump.
(** The hand written contents of C80_example: the head has 82 bytes, the number of layers 1, the head of the first layer 12, each of the two points 50, the head of
    the second layer 12, the entry point 13; the data file has 12 bytes and two records of 21. In the last lines the record of the first point is looked for
    before the second point. *)
Definition cut_fs (ng nd : nat) : fsys :=
  fs_write (fs_write fs0 cwd0 (graph_file tmp_dir "c") (take ng (graph_text hand_text))) cwd0 (data_file tmp_dir "c") (take nd (data_text hand_text)).
Definition cut_load (ng nd : nat) : outcome unit :=
  fmap (M:=outcome) (fun _ => tt) (load_hnsw simple_ops el_u8 one_scale l1_name cwd0 (cut_fs ng nd) (io_new tmp_dir "c")).
Example C87_example :
  length (head_text hand_text) = 82%nat /\ length (graph_text hand_text) = 220%nat /\ length (data_text hand_text) = 54%nat /\
  cut_load 220 54 = Ok tt /\
  cut_load 81 54 = Panic /\ cut_load 82 11 = Err /\ cut_load 82 54 = Err /\ cut_load 94 54 = Err /\ cut_load 95 54 = Panic /\
  cut_load 194 54 = Panic /\ cut_load 195 54 = Err /\ cut_load 219 54 = Err /\
  cut_load 220 53 = Exit /\ cut_load 220 12 = Exit /\ cut_load 144 32 = Panic /\ cut_load 145 32 = Exit /\ cut_load 145 33 = Panic.
Proof. split_and!; vm_compute; reflexivity. Qed.
(** C80_example shows that these contents meet the hypotheses of C87_cut_files; so does this dump those of C87_cut_dump. *)
Example C87_example_hyps : built dB simple_ops one_scale 2 16 10 (fst <$> exb_points) exb /\
  dump_ready el_u8 l1_name 16 (fst <$> exb_points) exb /\ el_nodata el_u8 = false /\ uniform exb /\
  last_component l1_name "DistL1" /\ file_dump el_u8 l1_name cwd0 fs0 tmp_dir "b" [] exb = (exb_fs, Ok "b"%string).
Proof. split_and!; [exact exb_built|exact exb_ready|done|exact exb_uniform|exact l1_short|exact exb_dumped]. Qed.
