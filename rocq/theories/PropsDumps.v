(** Several dumps at once. *)
From Coq Require Import Strings.String Strings.Byte.
From stdpp Require Import relations.
From Verif Require Import Prelude Model StdInst Spec Io IoBase SpecIo SpecBuilt IoProofs3 IoProofs5 Dumps DumpsProofs Examples ExamplesIo PropsIo PropsIo2.

(** ** Specification *)

(** the base name of the files the call has opened *)
Definition opened (s : stage) : option string :=
  match s with HalfOpen n | Writing n _ _ | Returned n _ => Some n | _ => None end.
(** the files of base name [n] for a call are those of base name [n'] for another *)
Definition same_place {T} (cwd : list string) (j : job T) (n : string) (j' : job T) (n' : string) : Prop :=
  resolve cwd (j_dir j) = resolve cwd (j_dir j') /\ n = n'.
(** the two calls dump the same index *)
Definition same_dump {T} (j j' : job T) : Prop :=
  j_el j = j_el j' /\ j_dname j = j_dname j' /\ j_index j = j_index j'.
Definition has_returned (s : stage) : Prop := exists n r, s = Returned n r.
(** a file system without files *)
Definition no_files : fsys := fun _ => None.

(** C105, the parts that hold, for any number of calls of file_dump at once, whatever the order of their calls to the operating system:
    - a call has returned Ok, and the calls that have opened the same files, if any, dump the same index and have returned too: the files are those of the same dump
      made alone, and both loaders give what they give for it;
    - a call on an index obtained from load_hnsw does not touch the files of a base name whose data file existed before;
    - a file that no call has opened is as before. *)
Theorem C105_dumps_at_once_partial :
  forall {T} cwd fs (js : list (job T)) fs' ss, rtc (dstep cwd) (fs, begin js) (fs', ss) ->
  (forall j name, (j, Returned name (Ok tt)) ∈ ss ->
     (forall j' s' name', (j', s') ∈ ss -> opened s' = Some name' -> same_place cwd j name j' name' -> same_dump j j' /\ has_returned s') ->
     exists fs1, file_dump (j_el j) (j_dname j) cwd no_files (j_dir j) name [] (j_index j) = (fs1, Ok name) /\
       (exists g d, dump_at fs1 cwd (j_dir j) name g d /\ dump_at fs' cwd (j_dir j) name g d) /\
       forall so inv_ln dname,
         load_hnsw so (j_el j) inv_ln dname cwd fs' (io_new (j_dir j) name) = load_hnsw so (j_el j) inv_ln dname cwd fs1 (io_new (j_dir j) name) /\
         load_hnsw_with_dist so (j_el j) inv_ln dname cwd fs' (io_new (j_dir j) name) =
           load_hnsw_with_dist so (j_el j) inv_ln dname cwd fs1 (io_new (j_dir j) name)) /\
  (forall dir base, is_Some (fs_read fs cwd (data_file dir base)) ->
     (forall j s, (j, s) ∈ ss -> opened s = Some base -> resolve cwd (j_dir j) = resolve cwd dir -> datamap_opt (j_index j) = true) ->
     fs_read fs' cwd (data_file dir base) = fs_read fs cwd (data_file dir base) /\
     fs_read fs' cwd (graph_file dir base) = fs_read fs cwd (graph_file dir base)) /\
  (forall loc, (forall j s name, (j, s) ∈ ss -> opened s = Some name ->
       loc <> resolve cwd (graph_file (j_dir j) name) /\ loc <> resolve cwd (data_file (j_dir j) name)) -> fs' loc = fs loc).
Proof.
  intros T cwd fs js fs' ss H. pose proof (reach_inv cwd _ _ _ _ H) as (_ & _ & HK & HF). split_and!.
  - intros j name Hj Hall.
    assert (Hfile : forall loc C, todo cwd j (Returned name (Ok tt)) loc = Some (C, []) -> fs' loc = Some C).
    { intros loc C HC. eapply complete; [exact H| |].
      - apply elem_of_list_lookup in Hj as [i Hi]. by exists i, j, (Returned name (Ok tt)), (C, []).
      - intros i j2 s2 w l Hi Ht. pose proof (todo_opened _ _ _ _ _ Ht) as (n2 & Hn & Hloc & Hs).
        destruct (todo_opened _ _ _ _ _ HC) as (n1 & [= <-] & Hloc1 & _).
        assert (Hpl : same_place cwd j name j2 n2).
        { apply (loc_inj cwd). destruct Hloc as [-> | ->], Hloc1 as [E|E]; auto.
          - by apply gd_ne in E.
          - symmetry in E. by apply gd_ne in E. }
        assert (Ho : opened s2 = Some n2) by (by destruct s2).
        destruct (Hall j2 s2 n2) as [(A1 & A2 & A3) (n & r & ->)]; [by eapply elem_of_list_lookup_2|done|done|].
        injection Ho as ->. destruct Hpl as [Hd <-].
        assert (E0 : j_out j2 = j_out j) by (unfold j_out; by rewrite A1, A2, A3).
        assert (E1 : gloc cwd j2 name = gloc cwd j name).
        { unfold gloc, graph_file. rewrite !resolve_in_dir. unfold resolve in Hd. by rewrite Hd. }
        assert (E2 : dloc cwd j2 name = dloc cwd j name).
        { unfold dloc, data_file. rewrite !resolve_in_dir. unfold resolve in Hd. by rewrite Hd. }
        cbn [todo] in Ht, HC. rewrite E0, E1, E2 in Ht. rewrite HC in Ht. by injection Ht as <- <-. }
    assert (Hres : w_res (j_out j) = Ok tt).
    { apply elem_of_list_lookup in Hj as [i Hi]. symmetry. by eapply returned_res. }
    assert (Hg : fs' (gloc cwd j name) = Some (w_graph (j_out j))).
    { apply Hfile. cbn [todo]. by rewrite bool_decide_true. }
    assert (Hd : fs' (dloc cwd j name) = Some (w_data (j_out j))).
    { apply Hfile. cbn [todo]. pose proof (gd_ne cwd j name j name). rewrite bool_decide_false by congruence. by rewrite bool_decide_true. }
    assert (Hf : exists fs1, file_dump (j_el j) (j_dname j) cwd no_files (j_dir j) name [] (j_index j) = (fs1, Ok name)).
    { unfold file_dump, dump_basename. unfold j_out in Hres.
      assert (En : (if negb (datamap_opt (j_index j)) then Ok name else
         match fs_read no_files cwd (data_file (j_dir j) name) with Some _ => pick_name cwd no_files (j_dir j) name [] | None => Ok name end) = Ok name)
        by (by destruct (negb _)).
      rewrite En. rewrite Hres. eauto. }
    destruct Hf as [fs1 Hf]. exists fs1. split; [done|]. apply file_dump_at in Hf as [Hat _].
    assert (Hat' : dump_at fs' cwd (j_dir j) name (w_graph (j_out j)) (w_data (j_out j))) by done.
    split; [by eauto|]. intros so inv_ln dname. destruct Hat as [A1 A2], Hat' as [B1 B2].
    unfold load_hnsw, load_hnsw_with_dist, io_open. cbn [io_new io_dir io_basename]. rewrite A1, A2, B1, B2. cbn [mbind outcome_bind].
    split; reflexivity.
  - intros dir base Hex Hdm. 
    assert (Hno : forall loc, loc = resolve cwd (data_file dir base) \/ loc = resolve cwd (graph_file dir base) -> fs' loc = fs loc).
    { intros loc Hloc. apply HK. intros i j s Hi. destruct (todo cwd j s loc) as [x|] eqn:Ht; [|done]. exfalso.
      destruct (todo_opened _ _ _ _ _ Ht) as (n & Hn & Hl & Hs).
      assert (Hsame : resolve cwd (j_dir j) = resolve cwd dir /\ n = base /\ dloc cwd j n = resolve cwd (data_file dir base)).
      { assert (G : forall n', resolve cwd (graph_file (j_dir j) n') = resolve cwd (graph_file dir base) \/
            resolve cwd (data_file (j_dir j) n') = resolve cwd (data_file dir base) -> resolve cwd (j_dir j) = resolve cwd dir /\ n' = base).
        { intros n'. exact (loc_inj cwd j n' (Job (j_el j) (j_dname j) dir base [] (j_index j)) base). }
        destruct Hl as [-> | ->], Hloc as [E|E].
        - by apply graph_never_data in E.
        - destruct (G n (or_introl E)) as [G1 ->]. split_and!; [done..|]. by apply graph_data_loc.
        - destruct (G n (or_intror E)) as [G1 ->]. done.
        - symmetry in E. by apply graph_never_data in E. }
      destruct Hsame as (D1 & -> & D2).
      pose proof (HF _ _ _ _ Hi (Hdm j s (elem_of_list_lookup_2 _ _ _ Hi) ltac:(by destruct s) D1) Hn) as E.
      rewrite D2 in E. unfold fs_read in Hex. rewrite E in Hex. by destruct Hex. }
    split; unfold fs_read; apply Hno; auto.
  - intros loc Hno. apply HK. intros i j s Hi. destruct (todo cwd j s loc) as [x|] eqn:Ht; [|done]. exfalso.
    destruct (todo_opened _ _ _ _ _ Ht) as (n & Hn & Hl & Hs).
    destruct (Hno j s n) as [N1 N2]; [by eapply elem_of_list_lookup_2|by destruct s|]. destruct Hl; auto.
Qed.
Print Assumptions C105_dumps_at_once_partial.

(** ** Examples *)

(** the points of the example index in the order of its dump, all at level 0, with other vectors; reloaded from its dump *)
Definition dz_points : list (list byte * dataid * nat) :=
  [([x01; x01], 10%N, 0%nat); ([x1a; x02], 12%N, 0%nat); ([x24; x03], 13%N, 0%nat); ([x15; x04], 11%N, 0%nat); ([x2a; x05], 14%N, 0%nat)].
Definition dz : hnsw (T:=byte) := Eval vm_compute in the (empty_b 2 16 10) (mkb 2 16 10 dz_points).
Definition dz_fs : fsys := (file_dump el_u8 l1_name cwd0 fs0 tmp_dir "z" [] dz).1.
Definition dz_re : hnsw (T:=byte) :=
  Eval vm_compute in match load_hnsw simple_ops el_u8 one_scale l1_name cwd0 dz_fs (io_new tmp_dir "z") with Ok (h, _) => h | _ => dz end.

(** two calls for the example index; one has returned and the other has opened the graph file *)
Definition j_b : job byte := Job el_u8 l1_name tmp_dir "b" [] exb.
Definition two_same : dumps := play_dumps cwd0 [0; 0; 0; 0; 0; 0; 1; 1]%nat (fs0, begin [j_b; j_b]).
(** two calls for reloaded indexes, with the same base name, which no file has; both choose it, open the files, and write them in turn *)
Definition j_c : job byte := Job el_u8 l1_name tmp_dir "c" [1; 2]%N exb_re.
Definition j_z : job byte := Job el_u8 l1_name tmp_dir "c" [3; 4]%N dz_re.
Definition two_mixed : dumps := play_dumps cwd0 [0; 1; 0; 0; 1; 1; 0; 1; 1; 0; 0; 1]%nat (fs0, begin [j_c; j_z]).
Definition mixed : hnsw (T:=byte) :=
  Eval vm_compute in match load_hnsw simple_ops el_u8 one_scale l1_name cwd0 two_mixed.1 (io_new tmp_dir "c") with Ok (h, _) => h | _ => dz end.

(** C105 is false in full: a dump that has returned Ok cannot be reloaded once another dump of the same index has opened the
    same files, until that one has ended; and two indexes obtained from load_hnsw, whose dumps must not overwrite a data file, can choose the same name at the same time: both return Ok, and
    the reload succeeds with the graph of one and the vectors of the other. *)
Theorem C105_dumps_at_once_refuted :
  (exists (js : list (job byte)) cwd fs fs' ss so inv_ln j name,
     StdLaws so /\ rtc (dstep cwd) (fs, begin js) (fs', ss) /\ (j, Returned name (Ok tt)) ∈ ss /\
     (forall j1 j2, j1 ∈ js -> j2 ∈ js -> same_dump j1 j2) /\
     forall x, load_hnsw so (j_el j) inv_ln (j_dname j) cwd fs' (io_new (j_dir j) name) <> Ok x) /\
  (exists (j1 j2 : job byte) cwd fs fs' so inv_ln h' name,
     StdLaws so /\ datamap_opt (j_index j1) = true /\ datamap_opt (j_index j2) = true /\
     rtc (dstep cwd) (fs, begin [j1; j2]) (fs', [(j1, Returned name (Ok tt)); (j2, Returned name (Ok tt))]) /\
     j_dir j1 = j_dir j2 /\
     load_hnsw so (j_el j1) inv_ln (j_dname j1) cwd fs' (io_new (j_dir j1) name) = Ok (h', []) /\
     ~ same_vectors (j_index j1) h' /\ ~ same_graph (j_index j2) h').
Proof.
  split.
  - exists [j_b; j_b], cwd0, fs0, two_same.1, two_same.2, simple_ops, one_scale, j_b, "b"%string. split_and!.
    + exact simple_laws.
    + rewrite <- surjective_pairing. apply play_dumps_rtc.
    + left.
    + intros j1 j2 H1 H2. assert (E : forall j, j ∈ [j_b; j_b] -> j = j_b) by (intros j Hj; set_solver). by rewrite (E _ H1), (E _ H2).
    + intros x. vm_compute. discriminate.
  - exists j_c, j_z, cwd0, fs0, two_mixed.1, simple_ops, one_scale, mixed, "c"%string. split_and!; [exact simple_laws|done|done| |done| | |].
    + assert (E : two_mixed.2 = [(j_c, Returned "c" (Ok tt)); (j_z, Returned "c" (Ok tt))]) by (vm_compute; reflexivity).
      rewrite <- E. rewrite <- surjective_pairing. apply play_dumps_rtc.
    + vm_compute. reflexivity.
    + intros H. assert (V : vector_at (j_index j_c) (0, 0)%nat [x00; x01]) by (vm_compute; reflexivity).
      apply H in V. vm_compute in V. discriminate.
    + intros H. pose proof (sg_entry _ _ H) as E. vm_compute in E. discriminate.
Qed.
Print Assumptions C105_dumps_at_once_refuted.

(** the two calls for the same index, both ended; the second opened the files when the first had written the data *)
Definition two_done : dumps := play_dumps cwd0 [0; 0; 0; 0; 1; 1; 1; 0; 0; 1; 1; 1]%nat (fs0, begin [j_b; j_b]).
(** and two reloaded indexes dumped beside a dump that exists *)
Definition two_apart : dumps :=
  play_dumps cwd0 [0; 1; 0; 1; 0; 0; 1; 1; 0; 1; 1; 0; 0; 1]%nat (exb_fs, begin [Job el_u8 l1_name tmp_dir "b" [1; 2]%N exb_re; Job el_u8 l1_name tmp_dir "b" [3]%N dz_re]).
Example C105_example :
  (exists fs', rtc (dstep cwd0) (fs0, begin [j_b; j_b]) (fs', [(j_b, Returned "b" (Ok tt)); (j_b, Returned "b" (Ok tt))])) /\
  (exists fs', rtc (dstep cwd0) (exb_fs, begin [Job el_u8 l1_name tmp_dir "b" [1; 2]%N exb_re; Job el_u8 l1_name tmp_dir "b" [3]%N dz_re])
     (fs', [(Job el_u8 l1_name tmp_dir "b" [1; 2]%N exb_re, Returned "b-1" (Ok tt)); (Job el_u8 l1_name tmp_dir "b" [3]%N dz_re, Returned "b-3" (Ok tt))])) /\
  is_Some (fs_read exb_fs cwd0 (data_file tmp_dir "b")) /\ datamap_opt exb_re = true /\ datamap_opt dz_re = true.
Proof.
  split_and!.
  - exists two_done.1. assert (E : two_done.2 = [(j_b, Returned "b" (Ok tt)); (j_b, Returned "b" (Ok tt))]) by (vm_compute; reflexivity).
    rewrite <- E. rewrite <- surjective_pairing. apply play_dumps_rtc.
  - exists two_apart.1.
    assert (E : two_apart.2 = [(Job el_u8 l1_name tmp_dir "b" [1; 2]%N exb_re, Returned "b-1" (Ok tt)); (Job el_u8 l1_name tmp_dir "b" [3]%N dz_re, Returned "b-3" (Ok tt))])
      by (vm_compute; reflexivity).
    rewrite <- E. rewrite <- surjective_pairing. apply play_dumps_rtc.
  - vm_compute. eauto.
  - reflexivity.
  - reflexivity.
Qed.
