(** A reload at the same time as dumps. *)
From Coq Require Import Strings.String Strings.Byte.
From stdpp Require Import relations.
From Verif Require Import Prelude Model StdInst Spec Io IoBase SpecIo SpecBuilt IoProofs3 IoProofs5 BuiltProofs ReloadProofs Dumps DumpsProofs
  DumpLoad DumpLoadProofs Examples ExamplesIo PropsIo PropsIo2 PropsDumps.

(** C106, the part that holds. The files of a base name are absent, or are a dump of the index. Dumps go on, in any order, and at most one of them
    opens these files; it dumps this index. A load_hnsw or load_hnsw_with_dist that reads the files meanwhile, piece by piece, fails or gives what it gives for the complete dump. *)
Theorem C106_reload_during_dump_partial :
  forall {T} (dist : list T -> list T -> Z) so, StdLaws so -> (forall a b, (0 <= dist a b)%Z) ->
  forall inv_ln M ml ef hist h, built dist so inv_ln M ml ef hist h ->
  forall el dname, dump_ready el dname ml hist h ->
  forall cwd dir name, exists fs1, file_dump el dname cwd no_files dir name [] h = (fs1, Ok name) /\
  forall fs, (fs_read fs cwd (graph_file dir name) = None /\ fs_read fs cwd (data_file dir name) = None \/
              exists g d, dump_at fs1 cwd dir name g d /\ dump_at fs cwd dir name g d) ->
  forall (js : list (job T)) fs' ss r, rtc (wstep cwd dir name) ((fs, begin js), not_open) ((fs', ss), r) ->
  (forall i j s i' j' s', ss !! i = Some (j, s) -> ss !! i' = Some (j', s') -> opened s = Some name -> opened s' = Some name ->
     resolve cwd (j_dir j) = resolve cwd dir -> resolve cwd (j_dir j') = resolve cwd dir ->
     i = i' /\ j_el j = el /\ j_dname j = dname /\ j_index j = h) ->
  forall (T' : Type) so' (el' : elem T') inv_ln' dname' x,
  (load_read so' el' inv_ln' dname' r = Ok x -> load_hnsw so' el' inv_ln' dname' cwd fs1 (io_new dir name) = Ok x) /\
  (load_read_with_dist so' el' inv_ln' dname' r = Ok x -> load_hnsw_with_dist so' el' inv_ln' dname' cwd fs1 (io_new dir name) = Ok x).
Proof.
  intros T dist so LAWS Hnn inv_ln M ml ef hist h Hb el dname Hr cwd dir name.
  pose proof (bd_res dist so LAWS Hnn _ _ _ _ _ _ Hb el dname Hr) as Hres.
  set (w := dump el dname h Full) in *.
  assert (Hf : exists fs1, file_dump el dname cwd no_files dir name [] h = (fs1, Ok name)).
  { unfold file_dump, dump_basename.
    assert (En : (if negb (datamap_opt h) then Ok name else
       match fs_read no_files cwd (data_file dir name) with Some _ => pick_name cwd no_files dir name [] | None => Ok name end) = Ok name)
      by (by destruct (negb _)).
    rewrite En. fold w. rewrite Hres. eauto. }
  destruct Hf as [fs1 Hf]. exists fs1. split; [done|]. apply file_dump_at in Hf as [Hat _]. fold w in Hat.
  intros fs Hfs js fs' ss r Hrun Hsole T' so' el' inv_ln' dname' x.
  destruct (reads_of cwd dir name el dname h fs js _ _ _ Hrun) as [Hg Hd]; [|done|].
  { destruct Hfs as [?|(g & d & [A1 A2] & [B1 B2])]; [by left|right]. destruct Hat as [C1 C2]. fold w. split; congruence. }
  fold w in Hg, Hd. cbv zeta.
  destruct r as [[g|] [d|]]; cbn [load_read load_read_with_dist]; try (split; discriminate).
  destruct (Hg g eq_refl) as [tg Htg]. destruct (Hd d eq_refl) as [td Htd].
  pose proof (bd_dumpable dist so LAWS Hnn _ _ _ _ _ _ Hb el dname Hr) as Hdu.
  destruct (bd_entry dist so LAWS Hnn _ _ _ _ _ _ Hb el dname Hr) as [ep Hep]. destruct Hr as [R1 R2 R3 R4 R5 R6].
  assert (Hall : forall p, loader so' el' p -> run_rd p g d = Ok x -> g = w_graph w /\ d = w_data w).
  { intros p Hp Hx. destruct (truncated dist so' el el' h dname ep p g d tg td x R1 Hdu R2 R3 Hep Hp Htg Htd Hx) as [-> ->].
    by rewrite app_nil_r in Htg, Htd. }
  unfold load_hnsw, load_hnsw_with_dist, io_open. destruct Hat as [A1 A2]. cbn [io_new io_dir io_basename]. rewrite A1, A2. cbn [mbind outcome_bind].
  split; intros Hx.
  + destruct (Hall (load_rd so' el' inv_ln' dname' None ro_default Err)) as [<- <-]; [|exact Hx|exact Hx]. do 4 eexists. left. eexists. reflexivity.
  + destruct (Hall (load_with_dist_rd so' el' inv_ln' dname' None ro_default)) as [<- <-]; [|exact Hx|exact Hx]. do 4 eexists. right. reflexivity.
Qed.
Print Assumptions C106_reload_during_dump_partial.

(** ** Examples *)
Lemma with_snd {A B} (x : A * B) b : x.2 = b -> x = (x.1, b).
Proof. destruct x. by intros <-. Qed.
Definition is_some {A} (o : option A) : bool := match o with Some _ => true | None => false end.

(** the dump of the example index is read while the index [dz] is dumped over it: the graph is read before, the vectors after *)
Definition j_over : job byte := Job el_u8 l1_name tmp_dir "b" [] dz.
Definition over_acts : list action := [AOpenGraph; AOpenData; AReadGraph 2000] ++ replicate 6 (ANext 0) ++ [AReadData 2000].
Definition read_over : option (dumps * reading) := act_all cwd0 tmp_dir "b" over_acts ((exb_fs, begin [j_over]), not_open).
(** the example index is dumped twice at once; the first has written 56 bytes of the data and the loader has read 54 of them, the
    second opens the files, the first writes the rest, the loader reads the rest *)
Definition twice_acts : list action :=
  [ANext 0; ANext 0; ANext 0; AGraph 0 2000; AData 0 56; AOpenGraph; AOpenData; AReadGraph 2000; AReadData 54;
   ANext 1; ANext 1; ANext 1; AData 0 2000; AReadData 2000].
Definition read_twice : option (dumps * reading) := act_all cwd0 tmp_dir "b" twice_acts ((fs0, begin [j_b; j_b]), not_open).
Definition loaded (o : option (dumps (T:=byte) * reading)) : hnsw (T:=byte) :=
  match o with
  | Some (_, r) => match load_read simple_ops el_u8 one_scale l1_name r with Ok (h, _) => h | _ => dz end
  | None => dz
  end.
Definition over_h : hnsw (T:=byte) := Eval vm_compute in loaded read_over.
Definition twice_h : hnsw (T:=byte) := Eval vm_compute in loaded read_twice.
Definition read_end (o : option (dumps (T:=byte) * reading)) (x : dumps (T:=byte) * reading) : dumps (T:=byte) * reading :=
  match o with Some y => y | None => x end.
Lemma end_rtc l (x : dumps (T:=byte) * reading) : is_some (act_all cwd0 tmp_dir "b" l x) = true ->
  rtc (wstep cwd0 tmp_dir "b") x (read_end (act_all cwd0 tmp_dir "b" l x) x).
Proof. destruct (act_all cwd0 tmp_dir "b" l x) eqn:E; [|done]. intros _. by eapply act_all_rtc. Qed.

(** C106 is false in full. A dump is read while another index is dumped under the same name: load_hnsw returns Ok with the graph of one and the vectors of
    the other. The same index is dumped twice at once and read meanwhile: load_hnsw returns Ok with a vector that was never inserted. *)
Theorem C106_reload_during_dump_refuted :
  exists dist so inv_ln M ml ef hist (h : hnsw (T:=byte)) el dname cwd dir name fs1,
  StdLaws so /\ (forall a b, (0 <= dist a b)%Z) /\ built dist so inv_ln M ml ef hist h /\ dump_ready el dname ml hist h /\
  file_dump el dname cwd no_files dir name [] h = (fs1, Ok name) /\
  (exists fs (j : job byte) fs' ss r (h' : hnsw (T:=byte)), rtc (wstep cwd dir name) ((fs, begin [j]), not_open) ((fs', ss), r) /\
     (exists g d, dump_at fs1 cwd dir name g d /\ dump_at fs cwd dir name g d) /\
     load_read so el inv_ln dname r = Ok (h', []) /\ ~ same_vectors h h' /\ ~ same_graph (j_index j) h') /\
  (exists fs (js : list (job byte)) fs' ss r (h' : hnsw (T:=byte)) v, rtc (wstep cwd dir name) ((fs, begin js), not_open) ((fs', ss), r) /\
     fs_read fs cwd (graph_file dir name) = None /\ fs_read fs cwd (data_file dir name) = None /\
     Forall (fun j => j_el j = el /\ j_dname j = dname /\ j_index j = h) js /\
     load_read so el inv_ln dname r = Ok (h', []) /\ vector_at h' (0, 1)%nat v /\ v ∉ hist.*1).
Proof.
  exists dB, simple_ops, one_scale, 2%nat, 16%nat, 10%nat, (fst <$> exb_points), exb, el_u8, l1_name, cwd0, tmp_dir, "b"%string.
  exists (file_dump el_u8 l1_name cwd0 no_files tmp_dir "b" [] exb).1.
  split_and!; [exact simple_laws|exact dB_nonneg|exact exb_built|exact exb_ready| | |].
  - apply with_snd. vm_compute. reflexivity.
  - set (e := read_end read_over ((exb_fs, begin [j_over]), not_open)).
    exists exb_fs, j_over, e.1.1, e.1.2, e.2, over_h. split_and!.
    + rewrite <- !surjective_pairing. apply (end_rtc over_acts). vm_compute. reflexivity.
    + eexists _, _. split; split; vm_compute; reflexivity.
    + vm_compute. reflexivity.
    + intros H. assert (V : vector_at exb (0, 0)%nat [x00; x01]) by (vm_compute; reflexivity). apply H in V. vm_compute in V. discriminate.
    + intros H. pose proof (sg_entry _ _ H) as E. vm_compute in E. discriminate.
  - set (e := read_end read_twice ((fs0, begin [j_b; j_b]), not_open)).
    exists fs0, [j_b; j_b], e.1.1, e.1.2, e.2, twice_h, [x00; x00]. split_and!.
    + rewrite <- !surjective_pairing. apply (end_rtc twice_acts). vm_compute. reflexivity.
    + reflexivity.
    + reflexivity.
    + repeat constructor.
    + vm_compute. reflexivity.
    + vm_compute. reflexivity.
    + intros H. change (([x00; x00] : list byte) ∈ [[x00; x01]; [x0a; x02]; [x14; x03]; [x05; x04]; [x0a; x05]]) in H.
      rewrite !elem_of_cons, elem_of_nil in H. intuition discriminate.
Qed.
Print Assumptions C106_reload_during_dump_refuted.

(** the example index is dumped once and read meanwhile; the loader is in time *)
Definition once_acts : list action :=
  [ANext 0; ANext 0; ANext 0; AOpenGraph; AOpenData; AGraph 0 100; AReadGraph 64; AData 0 56; AReadData 54;
   AGraph 0 2000; AData 0 2000; AReadGraph 2000; AReadData 2000].
Definition once_end : dumps * reading :=
  read_end (act_all cwd0 tmp_dir "b" once_acts ((fs0, begin [j_b]), not_open)) ((fs0, begin [j_b]), not_open).
Definition once_h : hnsw (T:=byte) :=
  Eval vm_compute in match load_read simple_ops el_u8 one_scale l1_name once_end.2 with Ok (h, _) => h | _ => dz end.
Example C106_example : rtc (wstep cwd0 tmp_dir "b") ((fs0, begin [j_b]), not_open) once_end /\
  once_end.1.2 = [(j_b, Writing "b" [] [])] /\ load_read simple_ops el_u8 one_scale l1_name once_end.2 = Ok (once_h, []) /\
  nb_point once_h = 5%nat /\ fs_read fs0 cwd0 (graph_file tmp_dir "b") = None /\ fs_read fs0 cwd0 (data_file tmp_dir "b") = None /\
  built dB simple_ops one_scale 2 16 10 (fst <$> exb_points) exb /\ dump_ready el_u8 l1_name 16 (fst <$> exb_points) exb.
Proof.
  split_and!.
  - apply (end_rtc once_acts). vm_compute. reflexivity.
  - vm_compute. reflexivity.
  - vm_compute. reflexivity.
  - reflexivity.
  - reflexivity.
  - reflexivity.
  - exact exb_built.
  - exact exb_ready.
Qed.
