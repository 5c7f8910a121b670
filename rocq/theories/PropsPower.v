(** Dumps and power failures. *)
From Coq Require Import Strings.String Strings.Byte.
From stdpp Require Import relations.
From Verif Require Import Prelude Model StdInst Spec Io IoBase SpecIo SpecBuilt IoProofs3 IoProofs5 BuiltProofs ReloadProofs Dumps DumpsProofs
  DumpLoad DumpLoadProofs Power Examples ExamplesIo PropsIo PropsIo2 PropsDumps PropsDumpLoad.

(** C107, the part that holds. The files of a base name are absent, or are a dump of the index. Dumps go on, in any order, or have returned, and at most one of them has opened
    these files; it dumps this index. The power fails, on a system that writes files in order. Any loader then refuses what is found under this name, whatever its options and element type, unless both files are complete. *)
Theorem C107_power_failure_partial :
  forall {T} (dist : list T -> list T -> Z) so, StdLaws so -> (forall a b, (0 <= dist a b)%Z) ->
  forall inv_ln M ml ef hist h, built dist so inv_ln M ml ef hist h ->
  forall el dname, dump_ready el dname ml hist h ->
  forall cwd dir name, exists fs1, file_dump el dname cwd no_files dir name [] h = (fs1, Ok name) /\
  forall fs, (fs_read fs cwd (graph_file dir name) = None /\ fs_read fs cwd (data_file dir name) = None \/
              exists g d, dump_at fs1 cwd dir name g d /\ dump_at fs cwd dir name g d) ->
  forall (js : list (job T)) fs' ss, rtc (dstep cwd) (fs, begin js) (fs', ss) ->
  (forall i j s i' j' s', ss !! i = Some (j, s) -> ss !! i' = Some (j', s') -> opened s = Some name -> opened s' = Some name ->
     resolve cwd (j_dir j) = resolve cwd dir -> resolve cwd (j_dir j') = resolve cwd dir ->
     i = i' /\ j_el j = el /\ j_dname j = dname /\ j_index j = h) ->
  forall after, power_failure in_order cwd ss fs fs' after ->
  forall (T' : Type) so' (el' : elem T') inv_ln' dname' io x, io_dir io = dir -> io_basename io = name ->
  load_hnsw so' el' inv_ln' dname' cwd after io = Ok x \/ load_hnsw_with_dist so' el' inv_ln' dname' cwd after io = Ok x ->
  exists g d, dump_at fs1 cwd dir name g d /\ dump_at after cwd dir name g d.
Proof.
  intros T dist so LAWS Hnn inv_ln M ml ef hist h Hb el dname Hr cwd dir name.
  destruct (C106_reload_during_dump_partial dist so LAWS Hnn _ _ _ _ _ _ Hb el dname Hr cwd dir name) as (fs1 & Hf & _).
  exists fs1. split; [done|]. apply file_dump_at in Hf as [Hat _]. set (w := dump el dname h Full) in *.
  intros fs Hfs js fs' ss Hrun Hsole after Hpow T' so' el' inv_ln' dname' io x E1 E2 Hx.
  assert (Hparts : part cwd fs' ss (resolve cwd (graph_file dir name)) (w_graph w) /\ part cwd fs' ss (resolve cwd (data_file dir name)) (w_data w)).
  { apply (parts_of cwd dir name el dname h fs js fs' ss Hrun); [|done..].
    destruct Hfs as [?|(g & d & [A1 A2] & [B1 B2])]; [by left|right]. destruct Hat as [C1 C2]. fold w. split; congruence. }
  destruct Hparts as [Pg Pd].
  assert (Hpre : forall loc C a, (fs loc = None \/ fs loc = Some C) -> part cwd fs' ss loc C -> after loc = Some a -> exists t, C = a ++ t).
  { intros loc C a H0 HP Ha. destruct (Hpow loc) as [E|[_ [E|(p & t & E & E')]]].
    - rewrite E in Ha. by eapply part_read.
    - rewrite E in Ha. destruct H0 as [H0|H0]; rewrite H0 in Ha; [done|]. injection Ha as <-. exists []. by rewrite app_nil_r.
    - rewrite E' in Ha. injection Ha as <-. destruct (part_read _ _ _ _ _ _ HP E) as [t' ->]. exists (t ++ t'). by rewrite app_assoc. }
  assert (Hg0 : fs (resolve cwd (graph_file dir name)) = None \/ fs (resolve cwd (graph_file dir name)) = Some (w_graph w)).
  { destruct Hfs as [[? _]|(g & d & [A1 _] & [B1 _])]; [by left|right]. destruct Hat as [C1 _]. unfold fs_read in *. congruence. }
  assert (Hd0 : fs (resolve cwd (data_file dir name)) = None \/ fs (resolve cwd (data_file dir name)) = Some (w_data w)).
  { destruct Hfs as [[_ ?]|(g & d & [_ A1] & [_ B1])]; [by left|right]. destruct Hat as [_ C1]. unfold fs_read in *. congruence. }
  assert (Hopen : exists g d, dump_at after cwd dir name g d /\ exists p, loader so' el' p /\ run_rd p g d = Ok x).
  { unfold load_hnsw, load_hnsw_with_dist, io_open in Hx. rewrite E1, E2 in Hx. unfold dump_at.
    destruct (fs_read after cwd (graph_file dir name)) as [g|]; [|by destruct Hx].
    destruct (fs_read after cwd (data_file dir name)) as [d|]; [|by destruct Hx]. exists g, d. split; [done|]. cbn [mbind outcome_bind] in Hx.
    destruct Hx as [Hx|Hx]; eexists; (split; [|exact Hx]); do 4 eexists; [left; eexists|right]; reflexivity. }
  destruct Hopen as (g & d & [Ag Ad] & p & Hp & Hrd). unfold fs_read in Ag, Ad.
  destruct (Hpre _ _ _ Hg0 Pg Ag) as [tg Htg]. destruct (Hpre _ _ _ Hd0 Pd Ad) as [td Htd].
  pose proof (bd_dumpable dist so LAWS Hnn _ _ _ _ _ _ Hb el dname Hr) as Hdu.
  destruct (bd_entry dist so LAWS Hnn _ _ _ _ _ _ Hb el dname Hr) as [ep Hep]. destruct Hr as [R1 R2 R3 R4 R5 R6].
  destruct (truncated dist so' el el' h dname ep p g d tg td x R1 Hdu R2 R3 Hep Hp Htg Htd Hrd) as [-> ->].
  rewrite app_nil_r in Htg, Htd. exists g, d. split; [|by split]. by rewrite <- Htg, <- Htd.
Qed.
Print Assumptions C107_power_failure_partial.

(** ** Examples *)

(** the block [b] of [n] bytes was not written *)
Definition zero_block (n b : nat) (c : list byte) : list byte := imap (fun k x => if bool_decide ((k / n)%nat = b) then x00 else x) c.
Lemma zero_block_lost n b c before : by_blocks n before (Some c) (Some (zero_block n b c)).
Proof.
  right. exists c, (zero_block n b c). unfold zero_block. split_and!; [done|done|by rewrite imap_length|]. intros b'.
  destruct (decide (b' = b)) as [->|Hne].
  - right. intros k Hk Hl. rewrite imap_length in Hl. apply lookup_lt_is_Some in Hl as [x Hx].
    rewrite list_lookup_imap, Hx. cbn [fmap option_fmap option_map]. by rewrite bool_decide_true.
  - left. intros k Hk _. rewrite list_lookup_imap. destruct (c !! k) as [x|]; [|done]. cbn [fmap option_fmap option_map].
    rewrite bool_decide_false; [done|congruence].
Qed.
(** a failure that loses something in one file only *)
Lemma one_file {T} (S : option (list byte) -> option (list byte) -> option (list byte) -> Prop) cwd (ss : list (job T * stage)) fs fs' p b (j : job T) s : (j, s) ∈ ss -> has_opened cwd j s (resolve cwd p) ->
  S (fs (resolve cwd p)) (fs' (resolve cwd p)) (Some b) -> power_failure S cwd ss fs fs' (fs_write fs' cwd p b).
Proof.
  intros Hj Ho HS loc. unfold fs_write. case_bool_decide as E; [subst loc|by left]. right. split; [eauto|done].
Qed.

(** one point, with a vector of 1100 bytes *)
Definition exz_points : list (list byte * dataid * nat) := [(replicate 1100 x01, 5%N, 0%nat)].
Definition exz : hnsw (T:=byte) := Eval vm_compute in the (empty_b 2 16 10) (mkb 2 16 10 exz_points).
Lemma exz_built : built dB simple_ops one_scale 2 16 10 (fst <$> exz_points) exz.
Proof. apply mkb_built. vm_compute. reflexivity. Qed.
Lemma exz_ready : dump_ready el_u8 l1_name 16 (fst <$> exz_points) exz.
Proof. apply ready_u8; [lia|done|vm_compute; reflexivity]. Qed.
Definition j_one : job byte := Job el_u8 l1_name tmp_dir "b" [] exz.
Definition one_done : dumps := play_dumps cwd0 [0; 0; 0; 0; 0; 0]%nat (no_files, begin [j_one]).
Definition one_data : list byte := w_data (j_out j_one).
Definition one_after : fsys := fs_write one_done.1 cwd0 (data_file tmp_dir "b") (zero_block 512 1 one_data).
Definition one_h : hnsw (T:=byte) :=
  Eval vm_compute in match load_hnsw simple_ops el_u8 one_scale l1_name cwd0 one_after (io_new tmp_dir "b") with Ok (h, _) => h | _ => dz end.

(** [dz] is dumped over the dump of the example index *)
Definition over_done : dumps := play_dumps cwd0 [0; 0; 0; 0; 0; 0]%nat (exb_fs, begin [j_over]).
Definition exb_graph : list byte := w_graph (j_out j_b).
Definition over_after : fsys := fs_write over_done.1 cwd0 (graph_file tmp_dir "b") exb_graph.
Definition mixed_h : hnsw (T:=byte) :=
  Eval vm_compute in match load_hnsw simple_ops el_u8 one_scale l1_name cwd0 over_after (io_new tmp_dir "b") with Ok (h, _) => h | _ => dz end.

Lemma one_ended : one_done.2 = [(j_one, Returned "b" (Ok tt))].
Proof. vm_compute. reflexivity. Qed.
Lemma over_ended : over_done.2 = [(j_over, Returned "b" (Ok tt))].
Proof. vm_compute. reflexivity. Qed.

(** C107 is false in full. After a power failure, on a system that writes files in order: nothing may be left of a dump that returned Ok; and after a dump that returned Ok over another, load_hnsw may return Ok with the graph of
    the old one and the vectors of the new one. On a system that writes the blocks of 512 bytes in any order, load_hnsw may return Ok with a vector
    that was never inserted, for the only dump ever made. *)
Theorem C107_power_failure_refuted :
  (exists (j : job byte) cwd fs' name after, rtc (dstep cwd) (no_files, begin [j]) (fs', [(j, Returned name (Ok tt))]) /\
     power_failure in_order cwd [(j, Returned name (Ok tt))] no_files fs' after /\
     forall so inv_ln, load_hnsw so (j_el j) inv_ln (j_dname j) cwd after (io_new (j_dir j) name) = Err) /\
  (exists so inv_ln (h : hnsw (T:=byte)) (j : job byte) cwd dir fs1 fs' name after h', StdLaws so /\
     file_dump (j_el j) (j_dname j) cwd no_files dir name [] h = (fs1, Ok name) /\ j_dir j = dir /\
     rtc (dstep cwd) (fs1, begin [j]) (fs', [(j, Returned name (Ok tt))]) /\
     power_failure in_order cwd [(j, Returned name (Ok tt))] fs1 fs' after /\
     load_hnsw so (j_el j) inv_ln (j_dname j) cwd after (io_new dir name) = Ok (h', []) /\
     ~ same_vectors h h' /\ ~ same_graph (j_index j) h') /\
  (exists dist so inv_ln M ml ef hist (j : job byte) cwd fs' name after h' v, StdLaws so /\ (forall a b, (0 <= dist a b)%Z) /\
     built dist so inv_ln M ml ef hist (j_index j) /\ dump_ready (j_el j) (j_dname j) ml hist (j_index j) /\
     rtc (dstep cwd) (no_files, begin [j]) (fs', [(j, Returned name (Ok tt))]) /\
     power_failure (by_blocks 512) cwd [(j, Returned name (Ok tt))] no_files fs' after /\
     load_hnsw so (j_el j) inv_ln (j_dname j) cwd after (io_new (j_dir j) name) = Ok (h', []) /\
     vector_at h' (0, 0)%nat v /\ v ∉ hist.*1).
Proof.
  assert (Hone : rtc (dstep cwd0) (no_files, begin [j_one]) (one_done.1, [(j_one, Returned "b" (Ok tt))])).
  { rewrite <- one_ended, <- surjective_pairing. apply play_dumps_rtc. }
  split; [|split].
  - exists j_one, cwd0, one_done.1, "b"%string, no_files. split; [exact Hone|]. split; [|done]. intros loc.
    destruct (decide (loc = resolve cwd0 (graph_file tmp_dir "b") \/ loc = resolve cwd0 (data_file tmp_dir "b"))) as [Hl|Hl].
    + right. split; [|by left]. exists j_one, (Returned "b" (Ok tt)). split; [left|]. by exists "b"%string.
    + left. symmetry. eapply (C105_dumps_at_once_partial cwd0 no_files [j_one]); [exact Hone|].
      intros j s n Hj Hn. apply elem_of_list_singleton in Hj. injection Hj as -> ->. injection Hn as <-. split; intros ->; apply Hl; auto.
  - exists simple_ops, one_scale, exb, j_over, cwd0, tmp_dir, exb_fs, over_done.1, "b"%string, over_after, mixed_h.
    split_and!; [exact simple_laws| |reflexivity| | | | |].
    + exact exb_dumped.
    + rewrite <- over_ended, <- surjective_pairing. apply play_dumps_rtc.
    + eapply one_file; [left| |].
      * exists "b"%string. split; [done|by left].
      * left. vm_compute. reflexivity.
    + vm_compute. reflexivity.
    + intros H. assert (V : vector_at exb (0, 0)%nat [x00; x01]) by (vm_compute; reflexivity). apply H in V. vm_compute in V. discriminate.
    + intros H. pose proof (sg_entry _ _ H) as E. vm_compute in E. discriminate.
  - exists dB, simple_ops, one_scale, 2%nat, 16%nat, 10%nat, (fst <$> exz_points), j_one, cwd0, one_done.1, "b"%string, one_after, one_h.
    eexists. split_and!; [exact simple_laws|exact dB_nonneg|exact exz_built|exact exz_ready|exact Hone| | | |].
    + eapply one_file; [left| |].
      * exists "b"%string. split; [done|by right].
      * assert (E : one_done.1 (resolve cwd0 (data_file tmp_dir "b")) = Some one_data) by (vm_compute; reflexivity).
        rewrite E. apply zero_block_lost.
    + vm_compute. reflexivity.
    + unfold vector_at. vm_compute. reflexivity.
    + intros H. apply elem_of_list_singleton in H. apply (f_equal (fun l => l !! 600%nat)) in H. vm_compute in H. discriminate.
Qed.
Print Assumptions C107_power_failure_refuted.

(** the power fails when the second half of the data is not written, and nothing of the graph is on the disk; and after the call returned, when the disk has all *)
Definition half_done : dumps := play_dumps cwd0 [0; 0; 0; 0]%nat (no_files, begin [j_one]).
Example C107_example :
  rtc (dstep cwd0) (no_files, begin [j_one]) half_done /\
  power_failure in_order cwd0 half_done.2 no_files half_done.1 (fs_write half_done.1 cwd0 (data_file tmp_dir "b") (take 700 one_data)) /\
  power_failure in_order cwd0 one_done.2 no_files one_done.1 one_done.1 /\
  built dB simple_ops one_scale 2 16 10 (fst <$> exz_points) exz /\ dump_ready el_u8 l1_name 16 (fst <$> exz_points) exz.
Proof.
  split_and!; [apply play_dumps_rtc| |intros loc; by left|exact exz_built|exact exz_ready].
  assert (E : exists g, half_done.2 = [(j_one, Writing "b" g [])]) by (eexists; vm_compute; reflexivity). destruct E as [g ->].
  eapply one_file; [left| |].
  - exists "b"%string. split; [done|by right].
  - right. exists (take 700 one_data), (drop 700 one_data). split; [|done].
    assert (E : half_done.1 (resolve cwd0 (data_file tmp_dir "b")) = Some one_data) by (vm_compute; reflexivity). rewrite E. by rewrite firstn_skipn.
Qed.
