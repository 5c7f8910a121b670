(** Property C99: which pairs of files a reload with a memory map accepts, and what it makes of them. *)
From Coq Require Import Strings.String.
From stdpp Require Import relations.
From Verif Require Import Prelude Model StdInst Lib Table SearchProofs InsertProofs Spec Io IoBase IoProofs IoProofs2 IoProofs3 IoProofs5 LoadProofs SpecIo SpecFile
  FileProofs FileProofs2 MapProofs SpecBuilt Examples ExamplesIo PropsIo PropsFile PropsMap MapLoad SpecMapLoad MapLoadProofs.
Local Open Scope list_scope.

(** C99. Reload asking for a memory map, by an HnswIo that has none yet, in an absolute directory or the working directory. load_hnsw accepts a pair
    of files exactly when they begin with the texts of contents that fit, make sense and have the expected distance name, and either the files can be
    mapped (SpecFile.mappable), or no map can be made from this format or type and no point is beyond the threshold. The index is, but for its vectors,
    the one these contents stand for; the points before the threshold is reached, and they alone, are mapped and have the vector of the last record of
    the data file with their id; the others have the vector of their own record. load_hnsw_with_dist makes no map: it accepts such files exactly when
    no point is beyond the threshold. *)
Theorem C99_mapped_exactly :
  forall {T} so, StdLaws so -> forall (el : elem T) inv_ln dname cwd fs io h mapped,
  ro_datamap (io_options io) = true -> io_datamap io = None -> plain_dir (io_dir io) ->
  (load_hnsw so el inv_ln dname cwd fs io = Ok (h, mapped) <->
   exists t rest rest', dump_at fs cwd (io_dir io) (io_basename io) (graph_text t ++ rest) (data_text t ++ rest') /\
     fits t /\ sensible el t /\ (el_nodata el = true \/ exists c, rsplit_terminator dname !! 0%nat = Some c /\ rsplit_terminator (tx_dist t) !! 0%nat = Some c) /\
     stands_for so (no_vectors el) inv_ln t (without_vectors h) /\ datamap_opt h = true /\
     let k := mapped_count t (ro_threshold (io_options io)) in
     mapped = pt_pid <$> take k (concat (points_by_layer h)) /\
     ((exists recs, mappable el (graph_text t ++ rest) (data_text t ++ rest') t recs /\ vectors_from el t (mapped_vector el t recs) k h) \/
      ((tx_version t = 2%N \/ tx_type t <> el_name el) /\ k = 0%nat /\ vectors_from el t (fun _ => None) 0 h))) /\
  (load_hnsw_with_dist so el inv_ln dname cwd fs io = Ok (h, mapped) <->
   exists t rest rest', dump_at fs cwd (io_dir io) (io_basename io) (graph_text t ++ rest) (data_text t ++ rest') /\
     fits t /\ sensible el t /\ (el_nodata el = true \/ dname = tx_dist t) /\
     stands_for so (no_vectors el) inv_ln t (without_vectors h) /\ datamap_opt h = false /\ mapped = [] /\
     mapped_count t (ro_threshold (io_options io)) = 0%nat /\ vectors_from el t (fun _ => None) 0 h).
Proof.
  intros T so LAWS el inv_ln dname cwd fs io h mapped Hmm Hdm Hp.
  assert (Hk : forall t, nb_mapped (io_options io) (de_of t) = mapped_count t (ro_threshold (io_options io))).
  { intros t. unfold nb_mapped. by rewrite Hmm. }
  assert (Hne : forall t, sensible el t -> exists p, concat (tx_layers t) !! 0%nat = Some p).
  { intros t S. destruct (se_entry _ _ S) as [_ (ps & H1 & H2)]. destruct (concat (tx_layers t)) as [|p l] eqn:E; [|by exists p].
    exfalso. apply elem_of_list_lookup_2 in H1. apply lookup_lt_is_Some_2 in H2 as [p Hpp]. apply elem_of_list_lookup_2 in Hpp.
    assert (Hin : p ∈ concat (tx_layers t)) by (apply elem_of_list_In, in_concat; exists ps; split; by apply elem_of_list_In).
    rewrite E in Hin. by apply elem_of_nil in Hin. }
  (* no map: no point can take its vector from it *)
  assert (Hnone : forall t, sensible el t -> length (concat (tx_layers t)) = length (concat (points_by_layer h)) ->
    irel (source el None (io_options io) (de_of t)) 0 (concat (tx_layers t)) (concat (points_by_layer h)) <->
    mapped_count t (ro_threshold (io_options io)) = 0%nat /\ vectors_from el t (fun _ => None) 0 h).
  { intros t S E. rewrite (sources_vectors el None (io_options io) t _ (fun _ => None) h (Hk t) E); [|intros id v; split; [by intros (M & ? & _)|done]].
    split.
    - intros HV. assert (E0 : mapped_count t (ro_threshold (io_options io)) = 0%nat); [|by rewrite E0 in HV].
      destruct (Hne t S) as [p Hpp]. destruct (lookup_lt_is_Some_2 (concat (points_by_layer h)) 0) as [pt Hpt]; [apply lookup_lt_Some in Hpp; lia|].
      destruct (HV _ _ _ Hpp Hpt) as [H _]. destruct (mapped_count _ _); [done|]. by discriminate H; lia.
    - by intros [-> ?]. }
  split.
  - unfold load_hnsw, io_open, from_hnswdump. rewrite plain_graph by done. unfold dump_at.
    destruct (fs_read fs cwd (graph_file _ _)) as [g|]; [|split; [done|intros (t & r & r' & [? _] & _); done]].
    destruct (fs_read fs cwd (data_file _ _)) as [d|]; [|split; [done|intros (t & r & r' & [_ ?] & _); done]].
    cbn [mbind outcome_bind]. unfold run_rd. rewrite Hdm.
    pose (gate := fun de : description => (same <~ (if el_nodata el then rret true
             else a <~ rlift (unwrap (rsplit_terminator dname !! 0%nat)); b <~ rlift (unwrap (rsplit_terminator (de_distname de) !! 0%nat));
             rret (bool_decide (a = b))); if negb (same : bool) then rlift Err else rret tt) : rd unit).
    assert (Hgate : forall de g' d' u rg rdd, gate de (g', d') = Ok (u, (rg, rdd)) <->
      (el_nodata el = true \/ exists c, rsplit_terminator dname !! 0%nat = Some c /\ rsplit_terminator (de_distname de) !! 0%nat = Some c) /\ rg = g' /\ rdd = d').
    { intros de g' d' u rg rdd. unfold gate, rbind. destruct (el_nodata el).
      * cbn. destruct u. split; [intros [= <- <-]; auto|by intros (_ & -> & ->)].
      * destruct (rsplit_terminator dname !! 0%nat) as [a|]; cbn; [|split; [done|intros ([|(c & ? & _)] & _); done]].
        destruct (rsplit_terminator (de_distname de) !! 0%nat) as [b|]; cbn; [|split; [done|intros ([|(c & _ & ?)] & _); done]].
        destruct (bool_decide (a = b)) eqn:Eb; cbn; [apply bool_decide_eq_true in Eb|apply bool_decide_eq_false in Eb].
        -- subst b. destruct u. split; [intros [= <- <-]; split_and!; eauto|by intros (_ & -> & ->)].
        -- split; [done|]. intros ([|(c & [= <-] & [= <-])] & _); done. }
    assert (Hrun : forall dm s, choose_datamap None (io_options io) (datamap_of el g d) = Ok dm ->
      load_rd so el inv_ln dname None (io_options io) (datamap_of el g d) s =
      (de <~ load_header; _ <~ gate de; ld <~ load_point_indexation so el dm (io_options io) de; rret (make_hnsw inv_ln de ld true, ld_mapped ld)) s).
    { intros dm s Hc. unfold load_rd, gate, rbind. destruct (load_header s) as [[de s1]| | | | |]; try done. cbn [mbind outcome_bind].
      destruct (el_nodata el).
      - cbn. rewrite Hc. done.
      - destruct (rsplit_terminator dname !! 0%nat); [|done]. cbn. destruct (rsplit_terminator (de_distname de) !! 0%nat); [|done]. cbn.
        destruct (bool_decide _); [|done]. cbn. rewrite Hc. done. }
    assert (Hfail : forall h', (forall dm, choose_datamap None (io_options io) (datamap_of el g d) <> Ok dm) ->
      fst <$> load_rd so el inv_ln dname None (io_options io) (datamap_of el g d) (g, d) <> Ok h').
    { intros h' Hc H. destruct (load_rd so el inv_ln dname None (io_options io) (datamap_of el g d) (g, d)) as [[a s]| | | | |] eqn:E; try done.
      unfold load_rd in E. apply rbind_inv in E as (de & s1 & _ & E). apply rbind_inv in E as (b & s2 & _ & E). destruct (negb b).
      - unfold rlift in E. done.
      - apply rbind_inv in E as (dm & s3 & E1 & _). unfold rlift in E1. apply bind_inv in E1 as (x & E1 & _). by apply Hc in E1. }
    assert (Hmk : forall t rest rest', g = graph_text t ++ rest -> d = data_text t ++ rest' -> fits t ->
      (datamap_of el g d = Err <-> tx_version t = 2%N \/ tx_type t <> el_name el) /\
      (forall M, datamap_of el g d = Ok M -> exists recs, mappable el g d t recs /\ forall id, dm_get_data el M id = Ok (mapped_vector el t recs id))).
    { intros t rest rest' Eg Ed F. unfold graph_text in Eg. rewrite <- !app_assoc in Eg. unfold data_text in Ed. rewrite <- !app_assoc in Ed. split.
      - by eapply map_refused.
      - intros M HM. by eapply map_ok. }
    destruct (datamap_of el g d) as [M| | | | |] eqn:EM.
    + rewrite (Hrun (Some M)) by (unfold choose_datamap; by rewrite Hmm). rewrite (core_mapped so LAWS el inv_ln (Some M) _ _ gate true g d h mapped Hgate). split.
      * intros (t & r & r' & Eg & Ed & F & S & Hn & G & E1 & E2 & HS). exists t, r, r'. split; [by rewrite Eg, Ed|]. do 5 (split; [done|]). cbn zeta. rewrite <- Hk.
        split; [done|]. left. destruct (Hmk t r r' Eg Ed F) as [_ HH]. destruct (HH M eq_refl) as (recs & Hm & HA). exists recs. rewrite <- Eg, <- Ed. split; [done|].
        eapply (sources_vectors el (Some M)); [done|by eapply stands_length| |exact HS].
        intros id v. split; [intros (M' & [= <-] & H); rewrite HA in H; by injection H|]. intros H. exists M. by rewrite HA, H.
      * intros (t & r & r' & [Eg%(inj Some) Ed%(inj Some)] & F & S & Hn & G & E1 & E2 & HV). cbn zeta in *. exists t, r, r'. do 7 (split; [done|]). rewrite Hk. split; [done|].
        destruct (Hmk t r r' Eg Ed F) as [HE HH]. destruct HV as [(recs & Hm & HV)|(Hv & _)]; [|by apply HE in Hv].
        rewrite <- Eg, <- Ed in Hm. destruct (map_made el g d t recs Hm) as (M' & EM' & HA). rewrite EM in EM'. injection EM' as <-.
        eapply (sources_vectors el (Some M)); [done|by eapply stands_length| |by rewrite Hk].
        intros id v. split; [intros (M' & [= <-] & H); rewrite HA in H; by injection H|]. intros H. exists M. by rewrite HA, H.
    + rewrite (Hrun None) by (unfold choose_datamap; by rewrite Hmm). rewrite (core_mapped so LAWS el inv_ln None _ _ gate true g d h mapped Hgate). split.
      * intros (t & r & r' & Eg & Ed & F & S & Hn & G & E1 & E2 & HS). exists t, r, r'. split; [by rewrite Eg, Ed|]. do 5 (split; [done|]). cbn zeta. rewrite <- Hk.
        split; [done|]. right. destruct (Hmk t r r' Eg Ed F) as [HE _]. split; [by apply HE|]. rewrite Hk. apply Hnone; [done|by eapply stands_length|done].
      * intros (t & r & r' & [Eg%(inj Some) Ed%(inj Some)] & F & S & Hn & G & E1 & E2 & HV). cbn zeta in *. exists t, r, r'. do 7 (split; [done|]). rewrite Hk. split; [done|].
        destruct HV as [(recs & Hm & HV)|(Hv & HV)].
        -- rewrite <- Eg, <- Ed in Hm. destruct (map_made el g d t recs Hm) as (M' & EM' & _). by rewrite EM in EM'.
        -- apply Hnone; [done|by eapply stands_length|done].
    + split; [by intros H; apply Hfail in H; [|intros dm; unfold choose_datamap; rewrite Hmm]|].
      intros (t & r & r' & [Eg%(inj Some) Ed%(inj Some)] & F & _ & _ & _ & _ & _ & HV). destruct (Hmk t r r' Eg Ed F) as [HE _]. destruct HV as [(recs & Hm & _)|(Hv & _)]; [|by apply HE in Hv].
      rewrite <- Eg, <- Ed in Hm. destruct (map_made el g d t recs Hm) as (M' & EM' & _). by rewrite EM in EM'.
    + split; [by intros H; apply Hfail in H; [|intros dm; unfold choose_datamap; rewrite Hmm]|].
      intros (t & r & r' & [Eg%(inj Some) Ed%(inj Some)] & F & _ & _ & _ & _ & _ & HV). destruct (Hmk t r r' Eg Ed F) as [HE _]. destruct HV as [(recs & Hm & _)|(Hv & _)]; [|by apply HE in Hv].
      rewrite <- Eg, <- Ed in Hm. destruct (map_made el g d t recs Hm) as (M' & EM' & _). by rewrite EM in EM'.
    + split; [by intros H; apply Hfail in H; [|intros dm; unfold choose_datamap; rewrite Hmm]|].
      intros (t & r & r' & [Eg%(inj Some) Ed%(inj Some)] & F & _ & _ & _ & _ & _ & HV). destruct (Hmk t r r' Eg Ed F) as [HE _]. destruct HV as [(recs & Hm & _)|(Hv & _)]; [|by apply HE in Hv].
      rewrite <- Eg, <- Ed in Hm. destruct (map_made el g d t recs Hm) as (M' & EM' & _). by rewrite EM in EM'.
    + split; [by intros H; apply Hfail in H; [|intros dm; unfold choose_datamap; rewrite Hmm]|].
      intros (t & r & r' & [Eg%(inj Some) Ed%(inj Some)] & F & _ & _ & _ & _ & _ & HV). destruct (Hmk t r r' Eg Ed F) as [HE _]. destruct HV as [(recs & Hm & _)|(Hv & _)]; [|by apply HE in Hv].
      rewrite <- Eg, <- Ed in Hm. destruct (map_made el g d t recs Hm) as (M' & EM' & _). by rewrite EM in EM'.
  - unfold load_hnsw_with_dist, io_open, dump_at. destruct (fs_read fs cwd (graph_file _ _)) as [g|]; [|split; [done|intros (t & r & r' & [? _] & _); done]].
    destruct (fs_read fs cwd (data_file _ _)) as [d|]; [|split; [done|intros (t & r & r' & [_ ?] & _); done]].
    cbn [mbind outcome_bind]. unfold run_rd. rewrite Hdm.
    pose (gate := fun de : description => (if negb (el_nodata el) && negb (String.eqb dname (de_distname de)) then rlift Err else rret tt) : rd unit).
    assert (Hrun : forall s, load_with_dist_rd so el inv_ln dname None (io_options io) s =
      (de <~ load_header; _ <~ gate de; ld <~ load_point_indexation so el None (io_options io) de; rret (make_hnsw inv_ln de ld false, ld_mapped ld)) s).
    { intros s. unfold load_with_dist_rd, gate, rbind. destruct (load_header s) as [[de s1]| | | | |]; try done. cbn [mbind outcome_bind].
      destruct (negb (el_nodata el) && _); done. }
    rewrite Hrun. rewrite (core_mapped so LAWS el inv_ln None _ (fun de => el_nodata el = true \/ dname = de_distname de)).
    + split.
      * intros (t & r & r' & Eg & Ed & F & S & Hn & G & E1 & E2 & HS). exists t, r, r'. split; [by rewrite Eg, Ed|]. do 5 (split; [done|]).
        apply Hnone in HS as [HS1 HS2]; [|done|by eapply stands_length]. rewrite Hk, HS1, take_0 in E2. done.
      * intros (t & r & r' & [Eg%(inj Some) Ed%(inj Some)] & F & S & Hn & G & E1 & -> & HS1 & HS2). exists t, r, r'. do 7 (split; [done|]). split; [by rewrite Hk, HS1, take_0|].
        apply Hnone; [done|by eapply stands_length|done].
    + intros de g' d' u rg rdd. unfold gate. destruct (el_nodata el); cbn.
      * destruct u. split; [intros [= <- <-]; auto|by intros (_ & -> & ->)].
      * destruct (String.eqb dname (de_distname de)) eqn:Eb; cbn; [apply String.eqb_eq in Eb|apply String.eqb_neq in Eb].
        -- destruct u. split; [intros [= <- <-]; auto|by intros (_ & -> & ->)].
        -- split; [done|]. intros ([|] & _); done.
Qed.
Print Assumptions C99_mapped_exactly.

(** The files of C80, the first point mapped and the second one, at the threshold, read from its record. *)
Definition hand_io : hnswio := io_new_with_options tmp_dir "c" (ROptions true 1%N).
Example C99_example : ro_datamap (io_options hand_io) = true /\ io_datamap hand_io = None /\ plain_dir (io_dir hand_io) /\
  mapped_count hand_text 1 = 1%nat /\
  mappable el_u8 (graph_text hand_text ++ [Byte.x00]) (data_text hand_text ++ []) hand_text [(7%N, [Byte.x05]); (9%N, [Byte.x08])] /\
  exists h, load_hnsw simple_ops el_u8 one_scale l1_name cwd0 hand_fs hand_io = Ok (h, [(0%nat, 0%nat)]) /\
    fmap (M:=list) pt_data <$> points_by_layer h = [[[Byte.x05]; [Byte.x08]]; []].
Proof.
  split; [done|]. split; [done|]. split; [by left|]. split; [done|]. split.
  - split; [unfold graph_text; rewrite <- !app_assoc; by eexists|]. split; [apply C80_example|]. split; [done|]. split; [done|].
    split; [exists []; by vm_compute|]. split; [by vm_compute|].
    intros r Hr. repeat apply elem_of_cons in Hr as [->|Hr]; try by apply elem_of_nil in Hr. all: cbn; lia.
  - destruct (load_hnsw simple_ops el_u8 one_scale l1_name cwd0 hand_fs hand_io) as [[h m]| | | | |] eqn:E; [|by vm_compute in E..].
    exists h. revert E. vm_compute. by intros [= <- <-].
Qed.
