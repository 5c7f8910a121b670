(** Property C70: a dump that runs while other threads use the index. *)
From Coq Require Import Strings.String Strings.Byte.
From stdpp Require Import relations.
From Verif Require Import Prelude Model StdInst Lib Table SearchProofs InsertProofs Spec SpecProofs
  Io IoBase SpecIo SpecBuilt Conc SpecConc ConcDump ConcDumpProofs ConcSeq ConcTrace ConcSafe4 ConcGlobal ConcEnd BuiltProofs IoProofs IoProofs2 IoProofs3 IoProofs5 ReloadProofs
  Examples ExamplesConc ExamplesIo PropsConc PropsReach.
Local Open Scope list_scope.

(** ** What the examples need *)
Definition dumped_b {T} (el : elem T) (h : hnsw (T:=T)) (dim : nat) (d : dumped (T:=T)) : bool :=
  (N.of_nat (ef_construction h) <? 2 ^ 64)%N && f64_ok (level_scale h) &&
  (N.of_nat (length (concat (dd_layers d))) <? 2 ^ 63)%N &&
  forallb (fun x => (Z.of_nat (dp_pid x).2 <? 2 ^ 31)%Z && (dp_oid x <? 2 ^ 64)%N &&
     (N.of_nat (length (dp_data x)) <? 2 ^ 64)%N && (N.of_nat (length (dp_data x) * el_size el) <? 2 ^ 64)%N &&
     (length (dp_data x) =? dim)%nat &&
     forallb (forallb (fun n => (0 <=? distance n)%Z && (distance n <=? 2139095040)%Z)) (dp_lists x))
   (concat (dd_layers d)).
Lemma dumped_check ml h dim d : (16 <= ml)%nat -> dumped_b el_u8 h dim d = true ->
  dumped_ready el_u8 l1_name ml h d /\ dumped_uniform d.
Proof.
  intros Hml. unfold dumped_b. rewrite !andb_true_iff, forallb_forall. intros [[[H1 H2] H3] H4].
  assert (H5 : forall x, x ∈ concat (dd_layers d) ->
    (Z.of_nat (dp_pid x).2 < 2 ^ 31)%Z /\ (dp_oid x < 2 ^ 64)%N /\ (N.of_nat (length (dp_data x)) < 2 ^ 64)%N /\
    (N.of_nat (length (dp_data x) * el_size el_u8) < 2 ^ 64)%N /\ length (dp_data x) = dim /\
    forallb (forallb (fun n => (0 <=? distance n)%Z && (distance n <=? 2139095040)%Z)) (dp_lists x) = true).
  { intros x Hx%elem_of_list_In. specialize (H4 x Hx). rewrite !andb_true_iff in H4. destruct H4 as [[[[[A B] C] D] E] F].
    split_and!; [by apply Z.ltb_lt|by apply N.ltb_lt..|by apply Nat.eqb_eq|done]. }
  split.
  - constructor; auto using el_u8_ok, l1_ok, u8_ok; [by apply N.ltb_lt..| |].
    + intros x Hx. destruct (H5 x Hx) as (A & B & C & D & _). done.
    + intros x ns n Hx Hns Hn. destruct (H5 x Hx) as (_ & _ & _ & _ & _ & F).
      rewrite forallb_forall in F. apply elem_of_list_In in Hns. specialize (F ns Hns).
      rewrite forallb_forall in F. apply elem_of_list_In in Hn. specialize (F n Hn). lia.
  - exists dim. intros x Hx. apply (H5 x Hx).
Qed.
Definition dump_of {T} (c : config (T:=T)) (i : nat) : dumped (T:=T) :=
  match c_threads c !! i with Some (Halt (Ok (RDumped d))) => d | _ => Dumped 0 0 [] None end.
Definition files_fs (d : dumped (T:=byte)) : fsys :=
  fs_write (fs_write fs0 cwd0 (graph_file tmp_dir "b") (w_graph (dumped_files el_u8 l1_name exb d)))
    cwd0 (data_file tmp_dir "b") (w_data (dumped_files el_u8 l1_name exb d)).
Lemma files_at d : dump_at (files_fs d) cwd0 tmp_dir "b" (w_graph (dumped_files el_u8 l1_name exb d)) (w_data (dumped_files el_u8 l1_name exb d)).
Proof. split; reflexivity. Qed.

(** ** The pieces of the reloaded index *)
Lemma reload_pieces {T} (dist : list T -> list T -> Z) so (LAWS : StdLaws so) (Hnn : forall a b, (0 <= dist a b)%Z)
    (h : hnsw (T:=T)) ts (Hwf : lwf dist h) (Hpos : (0 < max_layer h)%nat) (Hok : Forall (may_run h) ts)
    c (Hd : during dist so h ts c) i d (Hi : ts !! i = Some TDump) (Hret : returned c i (RDumped d)) inv_ln ep dmo
    (Hep : entry_point (snapn h d (length (concat (dd_layers d)))) = Some ep) :
  core dist (reloaded (snapn h d (length (concat (dd_layers d)))) so inv_ln ep pt_data dmo) ->
  pieces_of dist so h ts (reloaded (snapn h d (length (concat (dd_layers d)))) so inv_ln ep pt_data dmo).
Proof.
  intros Hc. set (h' := reloaded _ _ _ _ _ _) in *.
  assert (Hcore : forall c1, during dist so h ts c1 -> core dist (c_sh c1)).
  { intros c1 H1. destruct (glob_reach dist so LAWS Hnn h ts Hwf Hpos Hok c1 H1) as [phs G]. apply (g_inv _ _ _ _ _ G). }
  destruct (dump_seen dist so h ts c i d Hd Hi Hret) as (_ & _ & Hl & He).
  destruct (during_snap dist so LAWS Hnn h ts Hwf Hpos Hok c Hd i d Hi Hret) as (Hsn & _ & _).
  split.
  - intros p l ns Hns. apply (layer_neighbours_pt dist) in Hns as (pt & nbs & Hpt & Hnb & HF); [|done].
    assert (Hg : get_pt h' p = relink so pt_data <$> get_pt (snapn h d (length (concat (dd_layers d)))) p)
      by (unfold get_pt, h', reloaded; cbn [points_by_layer]; rewrite list_lookup_fmap;
          destruct (points_by_layer _ !! p.1); [|done]; simpl; unfold relink_ly; by rewrite list_lookup_fmap).
    rewrite Hg, snap_get in Hpt. destruct (dlook d p) as [x|] eqn:Hx; [|done]. injection Hpt as <-.
    cbn [relink dpt pt_nbs] in Hnb. rewrite !list_lookup_fmap in Hnb. destruct (dp_lists x !! l) as [ms|] eqn:Hms; [|done].
    injection Hnb as <-.
    assert (Ex : x ∈ concat (dd_layers d)) by (by eapply dlook_in).
    assert (Hpx : dp_pid x = p) by (by destruct (sn_pt _ _ _ _ _ Hsn _ _ Hx) as (E & _)).
    assert (Hseen : seen (at_some_moment dist so h ts) x).
    { apply elem_of_list_In, in_concat in Ex as (ly & Hly & Hin). apply elem_of_list_In in Hly, Hin.
      rewrite Forall_forall in Hl. specialize (Hl ly Hly). rewrite Forall_forall in Hl. by apply Hl. }
    destruct Hseen as (_ & h1 & pt1 & (c1 & Hd1 & <-) & Hpt1 & Hg1). rewrite Hpx in Hpt1.
    exists c1, ms. split; [done|]. split.
    { exists pt1, (dp_lists x). split; [by apply (layer_point_pt dist); [apply Hcore|]|]. done. }
    (* what get_neighborhood_id shows of h' *)
    assert (HFs : Forall2 (fun n (a : neighbour) => a = Neighbour (d_id a) (n_dist n) (n_pid n) /\ exists y, dlook d (n_pid n) = Some y /\ d_id a = dp_oid y)
       (u_sort so nbr n_dist (dnbr <$> ms)) ns).
    { eapply Forall2_impl; [exact HF|]. intros n a (E1 & E2 & q0 & Hq0 & E3). split; [destruct a; simpl in *; congruence|].
      assert (Hgq : get_pt h' (n_pid n) = relink so pt_data <$> get_pt (snapn h d (length (concat (dd_layers d)))) (n_pid n))
        by (unfold get_pt, h', reloaded; cbn [points_by_layer]; rewrite list_lookup_fmap;
            destruct (points_by_layer _ !! (n_pid n).1); [|done]; simpl; unfold relink_ly; by rewrite list_lookup_fmap).
      rewrite Hgq, snap_get in Hq0. destruct (dlook d (n_pid n)) as [y|]; [|done]. injection Hq0 as <-. exists y. done. }
    pose (f := fun n : nbr => Neighbour (from_option dp_oid 0%N (dlook d (n_pid n))) (n_dist n) (n_pid n)).
    assert (E1 : ns = f <$> u_sort so nbr n_dist (dnbr <$> ms)).
    { clear -HFs. induction HFs as [|n a l1 l2 (E & y & Hy & E2) _ IH]; [done|]. csimpl. rewrite <- IH. f_equal. unfold f. rewrite Hy. simpl. congruence. }
    assert (E2 : ms = f <$> (dnbr <$> ms)).
    { pose proof (fun m => snap_ref dist _ _ _ d Hsn p x l ms m Hx Hms) as Hr. clear -Hr. induction ms as [|m ms IH]; [done|]. csimpl.
      rewrite <- IH by (intros m' Hm'; apply Hr; by right). f_equal. destruct (Hr m) as (y & Hy & E & _); [left|].
      unfold f, dnbr. cbn [n_pid n_dist]. rewrite Hy. simpl. rewrite <- E. by destruct m. }
    rewrite E1. rewrite E2 at 2. apply fmap_Permutation. apply (law_usort_perm _ LAWS).
  - intros ep' [= <-]. unfold snapn in Hep. cbn [entry_point] in Hep. destruct (dd_entry d) as [[o p]|] eqn:E; [|done]. injection Hep as <-.
    destruct (He o p eq_refl) as (h1 & p1 & pt1 & (c1 & Hd1 & <-) & Hep1 & Hpt1 & Hpid & _).
    exists c1. split; [done|]. rewrite Hep1. f_equal. destruct (c_pt _ _ (Hcore c1 Hd1) _ _ Hpt1) as [E1 _]. congruence.
Qed.

(** C70 does not hold: the dump reads the number of points before it takes the lock on the table. If an insertion ends
    between the two, the files announce fewer points than they contain, and both loaders panic. *)
Definition cu_tasks : list (task (T:=byte)) := [TDump; TInsert [x03; x03] 20%N (lv 0)].
Definition cu_end := play [(0, 6); (1, 500); (0, 2000)]%nat (initial dB simple_ops exb cu_tasks).
Definition cu_d : dumped (T:=byte) := Eval vm_compute in dump_of cu_end 0.
Definition cu_h : hnsw (T:=byte) := Eval vm_compute in c_sh cu_end.
Lemma cu_after : after dB simple_ops exb cu_tasks cu_h [RDumped cu_d; RInserted (0, 3)%nat].
Proof.
  assert (E : cu_h = c_sh cu_end) by (vm_compute; reflexivity). rewrite E. apply play_after. vm_compute. reflexivity.
Qed.
Theorem C70_dump_beside_insertion_refuted :
  exists (dist : list byte -> list byte -> Z) so inv_ln M ml ef hist h v id dr h' d p el dname cwd fs dir base,
    StdLaws so /\ (forall a b, (0 <= dist a b)%Z) /\ built dist so inv_ln M ml ef hist h /\ hist <> [] /\
    after dist so h [TDump; TInsert v id dr] h' [RDumped d; RInserted p] /\
    dumped_ready el dname ml h d /\ dumped_uniform d /\ el_nodata el = false /\ (M <= 255)%nat /\
    w_res (dumped_files el dname h d) = Ok tt /\
    dump_at fs cwd dir base (w_graph (dumped_files el dname h d)) (w_data (dumped_files el dname h d)) /\
    load_hnsw so el inv_ln dname cwd fs (io_new dir base) = Panic /\
    load_hnsw_with_dist so el inv_ln dname cwd fs (io_new dir base) = Panic.
Proof.
  exists dB, simple_ops, one_scale, 2%nat, 16%nat, 10%nat, (fst <$> exb_points), exb, [x03; x03], 20%N, (lv 0), cu_h, cu_d, (0, 3)%nat.
  exists el_u8, l1_name, cwd0, (files_fs cu_d), tmp_dir, "b"%string.
  destruct (dumped_check 16 exb 2 cu_d) as [Hr Hu]; [lia|vm_compute; reflexivity|].
  split; [exact simple_laws|]. split; [exact dB_nonneg|]. split; [exact exb_built|]. split; [done|]. split; [exact cu_after|].
  split; [exact Hr|]. split; [exact Hu|]. split; [done|]. split; [lia|]. split; [vm_compute; reflexivity|].
  split; [apply files_at|]. split; vm_compute; reflexivity.
Qed.
Print Assumptions C70_dump_beside_insertion_refuted.

(** C70, what does hold, whatever the other threads do. The dump does not panic. It writes all the points stored when the
    threads started and, besides, only points that they insert; the number that it announces is at least the number at the
    start and at most the number that it writes; the two are the same if no thread inserts. The files are written without
    error. If the two numbers agree the files load, into an index with what was written, that can be used like any other, whose
    lists and entry point are those of the index at some moments of the run;
    if they do not, both loaders panic, and none succeeds whatever the type of distance. *)
Theorem C70_dump_beside_threads_partial :
  forall {T} (dist : list T -> list T -> Z) so, StdLaws so -> (forall a b, (0 <= dist a b)%Z) ->
  forall inv_ln M ml ef hist h, used dist so inv_ln M ml ef hist h -> hist <> [] -> (1 <= ml)%nat ->
  forall ts, Forall (may_run h) ts -> forall c, during dist so h ts c ->
  forall i, ts !! i = Some TDump -> ~ panicked c i /\
  forall r, returned c i r -> exists d, r = RDumped d /\
  hist ⊆+ dumped_contents d /\ dumped_contents d ⊆+ hist ++ inserts ts /\
  (length hist <= dd_nb d <= length (dumped_contents d))%nat /\
  (inserts ts = [] -> dd_nb d = length (dumped_contents d) /\ dumped_contents d ≡ₚ hist) /\
  forall el dname, dumped_ready el dname ml h d -> dumped_uniform d -> el_nodata el = false ->
  w_res (dumped_files el dname h d) = Ok tt /\
  forall cwd fs io, ro_datamap (io_options io) = false ->
  dump_at fs cwd (io_dir io) (io_basename io) (w_graph (dumped_files el dname h d)) (w_data (dumped_files el dname h d)) ->
  (dd_nb d = length (dumped_contents d) ->
     (forall dname' c, last_component dname c -> last_component dname' c ->
        exists h', load_hnsw so el inv_ln dname' cwd fs io = Ok (h', []) /\
          ((M <= 255)%nat -> contents h' (dumped_contents d) /\ pieces_of dist so h ts h' /\ used dist so inv_ln M ml ef (dumped_contents d) h')) /\
     (exists h', load_hnsw_with_dist so el inv_ln dname cwd fs io = Ok (h', []) /\
        ((M <= 255)%nat -> contents h' (dumped_contents d) /\ pieces_of dist so h ts h' /\ used dist so inv_ln M ml ef (dumped_contents d) h'))) /\
  (dd_nb d <> length (dumped_contents d) ->
     (forall dname' c, last_component dname c -> last_component dname' c ->
        load_hnsw so el inv_ln dname' cwd fs io = Panic) /\
     load_hnsw_with_dist so el inv_ln dname cwd fs io = Panic /\
     (forall dname' a, load_hnsw so el inv_ln dname' cwd fs io <> Ok a) /\
     (forall dname' a, load_hnsw_with_dist so el inv_ln dname' cwd fs io <> Ok a)).
Proof.
  intros T dist so LAWS Hnn inv_ln M ml ef hist h Hu Hne Hml ts Hok c Hd i Hi.
  pose proof (used_pos dist so LAWS Hnn _ _ _ _ _ _ Hu Hml) as Hpos.
  destruct (used_facts dist so LAWS Hnn _ _ _ _ _ _ Hu) as (Hwf & Eml & EM & Eef & Hst & Hnb).
  destruct (C44_always_well_formed dist so LAWS Hnn _ _ _ _ _ _ Hu Hml ts Hok c Hd) as [Hnp _].
  split; [apply Hnp|]. intros r Hret.
  assert (exists d, r = RDumped d) as [d ->].
  { destruct (glob_reach dist so LAWS Hnn h ts Hwf Hpos Hok c Hd) as [phs G].
    destruct (glob_returned dist h ts c phs i _ _ G Hi Hret) as (ph & _ & (d & -> & _)). by exists d. }
  exists d. split; [done|].
  assert (Elen : length (dumped_contents d) = length (concat (dd_layers d))) by apply fmap_length.
  destruct (during_contents dist so LAWS Hnn h ts Hwf Hpos Hok c Hd i d Hi Hret) as [C1 C2].
  rewrite Hst in C1, C2.
  destruct (during_snap dist so LAWS Hnn h ts Hwf Hpos Hok c Hd i d Hi Hret) as (Hsn & _).
  pose proof (sn_nb _ _ _ _ _ Hsn) as Hcnt. rewrite Hnb in Hcnt.
  split; [done|]. split; [done|]. split; [lia|]. split.
  { intros E. rewrite E, app_nil_r in C2. assert (Hp : dumped_contents d ≡ₚ hist).
    { apply (anti_symm submseteq); done. }
    split; [|done]. apply Permutation_length in Hp. lia. }
  intros el dname Hry Hun Hnd.
  assert (H0 : (0 < nb_point h)%nat). { rewrite Hnb. destruct hist; simpl; [done|lia]. }
  split. { by eapply during_res. }
  intros cwd fs io Ho Hat. split.
  - intros E. rewrite Elen in E.
    destruct (during_loads dist so LAWS Hnn h ts Hwf Hpos Hok c Hd i d Hi Hret el dname ml H0 Eml Hry Hun Hnd cwd fs io inv_ln Hat Ho E)
      as (ep & Hep & L1 & L2).
    assert (Hcont : forall dname' h' mapped, load_hnsw so el inv_ln dname' cwd fs io = Ok (h', mapped) \/
        load_hnsw_with_dist so el inv_ln dname' cwd fs io = Ok (h', mapped) ->
        (M <= 255)%nat -> contents h' (dumped_contents d) /\ pieces_of dist so h ts h' /\ used dist so inv_ln M ml ef (dumped_contents d) h').
    { intros dname' h' mapped Hl HM.
      assert (Hu' : used dist so inv_ln M ml ef (dumped_contents d) h').
      { exact (used_reload dist so inv_ln M ml ef hist h ts c i d el dname dname' cwd fs io h' mapped
          Hu Hne Hok Hd Hi Hret Hry Hun HM Hnd Hat Ho Hl). }
      destruct (used_facts dist so LAWS Hnn _ _ _ _ _ _ Hu') as (Hwf' & _).
      destruct (during_reload dist so LAWS Hnn h ts Hwf Hpos Hok c Hd i d Hi Hret el dname ml H0 Eml Hry Hun Hnd cwd fs io inv_ln Hat Ho
        dname' h' mapped Hl) as (ep' & dmo & _ & Hep' & ->).
      pose proof (during_dumpable dist so LAWS Hnn h ts Hwf Hpos Hok c Hd i d Hi Hret el dname ml H0 Eml Hry Hun) as Hdu.
      destruct (reloaded_wf dist so LAWS Hnn _ inv_ln ep' dmo (du_wf _ _ _ Hdu) (du_layers _ _ _ Hdu)) as (_ & _ & W3 & _);
        [cbn; lia|done|].
      split; [apply (contents_stored dist); [apply (l_core _ _ Hwf')|]; by rewrite W3, stored_snap|]. split; [|done].
      by apply (reload_pieces dist so LAWS Hnn h ts Hwf Hpos Hok c Hd i d Hi Hret inv_ln ep' dmo Hep' (l_core _ _ Hwf')). }
    split.
    + intros dname' cc H1 H2. eexists. split; [apply L1; by eapply common_component|]. apply (Hcont dname' _ []). left. apply L1. by eapply common_component.
    + eexists. split; [apply L2|]. apply (Hcont dname _ []). right. apply L2.
  - intros E. rewrite Elen in E.
    destruct (during_less dist so LAWS Hnn h ts Hwf Hpos Hok c Hd i d Hi Hret el dname ml H0 Eml Hry Hun Hnd cwd fs io inv_ln Hat Ho E)
      as (L1 & L2 & L3 & L4).
    split; [|done]. intros dname' cc H1 H2. apply L1. by eapply common_component.
Qed.
Print Assumptions C70_dump_beside_threads_partial.

(** an insertion that has stored its point but linked it to nothing yet, a dump that begins and ends meanwhile, a search *)
Definition cv_tasks : list (task (T:=byte)) := [TInsert [x03; x03] 20%N (lv 0); TDump; TSearch [x03; x03] 2 4 None].
Definition cv_end := play [(0, 20); (2, 5); (1, 2000); (2, 100)]%nat (initial dB simple_ops exb cv_tasks).
Definition cv_d : dumped (T:=byte) := Eval vm_compute in dump_of cv_end 1.
Lemma cv_returned : returned cv_end 1 (RDumped cv_d).
Proof. vm_compute. reflexivity. Qed.
Definition cv_h : hnsw (T:=byte) :=
  Eval vm_compute in match load_hnsw simple_ops el_u8 one_scale l1_name cwd0 (files_fs cv_d) (io_new tmp_dir "b") with Ok (h, _) => h | _ => exb end.
Lemma cv_load : load_hnsw simple_ops el_u8 one_scale l1_name cwd0 (files_fs cv_d) (io_new tmp_dir "b") = Ok (cv_h, []).
Proof. vm_compute. reflexivity. Qed.
Lemma cv_run : Forall (may_run exb) cv_tasks.
Proof. repeat constructor. Qed.
Lemma cv_ready : dumped_ready el_u8 l1_name 16 exb cv_d /\ dumped_uniform cv_d.
Proof. apply (dumped_check 16 exb 2); [lia|vm_compute; reflexivity]. Qed.
Lemma cv_used : used dB simple_ops one_scale 2 16 10 (dumped_contents cv_d) cv_h.
Proof.
  destruct cv_ready as [Hr Hu].
  eapply (used_reload dB simple_ops one_scale 2 16 10 _ exb cv_tasks cv_end 1 cv_d el_u8 l1_name l1_name cwd0 (files_fs cv_d) (io_new tmp_dir "b")).
  - apply used_built, exb_built.
  - done.
  - apply cv_run.
  - apply play_during.
  - done.
  - apply cv_returned.
  - exact Hr.
  - exact Hu.
  - lia.
  - done.
  - apply files_at.
  - done.
  - left. apply cv_load.
Qed.
Example C70_example : during dB simple_ops exb cv_tasks cv_end /\ Forall (may_run exb) cv_tasks /\ returned cv_end 1 (RDumped cv_d) /\
  dumped_ready el_u8 l1_name 16 exb cv_d /\ dumped_uniform cv_d /\ dd_nb cv_d = 6%nat /\ length (dumped_contents cv_d) = 6%nat /\
  results cv_end !! 0%nat = Some None.
Proof.
  split; [apply play_during|]. split; [apply cv_run|]. split; [apply cv_returned|]. split; [apply cv_ready|]. split; [apply cv_ready|].
  split_and!; vm_compute; reflexivity.
Qed.

(** C70 fails also when the numbers agree: the dump may catch a point before its insertion has linked it; the index
    reloaded from the files has the point, and no search of it can answer this point. *)
Definition in_no_list (h : hnsw (T:=byte)) (p : pid) : bool :=
  forallb (forallb (fun pt => forallb (forallb (fun n => negb (bool_decide (n_pid n = p)))) (pt_nbs pt))) (points_by_layer h).
Lemma in_no_list_check h p : core dB h -> in_no_list h p = true -> forall p', ~ points_to h p' p.
Proof.
  unfold in_no_list. rewrite forallb_forall. intros Hc H p' (l & ns & n & Hns & Hn & <-).
  apply (layer_neighbours_pt dB) in Hns as (pt & nbs & Hpt & Hnb & HF); [|done].
  apply get_pt_lookup in Hpt as (ly & Hly & Hpt).
  apply elem_of_list_lookup in Hn as [i Hi]. destruct (Forall2_lookup_r _ _ _ _ _ HF Hi) as (m & Hm & E & _).
  apply elem_of_list_lookup_2, elem_of_list_In, H in Hly. rewrite forallb_forall in Hly.
  apply elem_of_list_lookup_2, elem_of_list_In, Hly in Hpt. rewrite forallb_forall in Hpt.
  apply elem_of_list_lookup_2, elem_of_list_In, Hpt in Hnb. rewrite forallb_forall in Hnb.
  apply elem_of_list_lookup_2, elem_of_list_In, Hnb in Hm. rewrite bool_decide_true in Hm by done. done.
Qed.
Theorem C70_unlinked_point_refuted :
  exists (dist : list byte -> list byte -> Z) so inv_ln M ml ef hist h ts c i d el dname cwd fs dir base h' v id dr p pt,
    StdLaws so /\ (forall a b, (0 <= dist a b)%Z) /\ built dist so inv_ln M ml ef hist h /\ hist <> [] /\ (1 <= M)%nat /\
    Forall (may_run h) ts /\ during dist so h ts c /\ ts !! i = Some TDump /\ returned c i (RDumped d) /\
    dumped_ready el dname ml h d /\ dumped_uniform d /\
    dump_at fs cwd dir base (w_graph (dumped_files el dname h d)) (w_data (dumped_files el dname h d)) /\
    load_hnsw so el inv_ln dname cwd fs (io_new dir base) = Ok (h', []) /\
    TInsert v id dr ∈ ts /\ layer_point h' p pt /\ pt_data pt = v /\ pt_oid pt = id /\
    forall q k e filter res, filter = None \/ (1 <= Nat.max e k)%nat -> search_filter dist so h' q k e filter = Ok res ->
      p ∉ p_id <$> res.
Proof.
  exists dB, simple_ops, one_scale, 2%nat, 16%nat, 10%nat, (fst <$> exb_points), exb, cv_tasks, cv_end, 1%nat, cv_d.
  exists el_u8, l1_name, cwd0, (files_fs cv_d), tmp_dir, "b"%string, cv_h, [x03; x03], 20%N, (lv 0), (0, 3)%nat. eexists.
  destruct (used_facts dB simple_ops simple_laws dB_nonneg _ _ _ _ _ _ cv_used) as (Hwf & _). pose proof (l_core _ _ Hwf) as Hc.
  split; [exact simple_laws|]. split; [exact dB_nonneg|]. split; [exact exb_built|]. split; [done|]. split; [lia|].
  split; [apply cv_run|]. split; [apply play_during|]. split; [done|]. split; [apply cv_returned|].
  split; [apply cv_ready|]. split; [apply cv_ready|]. split; [apply files_at|]. split; [apply cv_load|].
  split; [left|]. split; [apply (layer_point_pt dB); [done|]; vm_compute; reflexivity|]. split; [done|]. split; [done|].
  intros q k e filter res Hf Hs.
  destruct (C71_answers_are_linked dB simple_ops simple_laws dB_nonneg _ _ _ _ _ _ cv_used q k e filter res Hf Hs) as [_ H].
  apply H; [vm_compute; congruence|]. apply in_no_list_check; [done|]. vm_compute. reflexivity.
Qed.
Print Assumptions C70_unlinked_point_refuted.
