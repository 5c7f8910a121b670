(** Dumps on a disk that fails, and dumps that are killed. *)
From Coq Require Import Strings.String Strings.Byte.
From Verif Require Import Prelude Model StdInst Lib Table SearchProofs InsertProofs IterProofs Spec SpecProofs Io IoBase
  SpecIo SpecBuilt IoProofs IoProofs2 IoProofs3 IoProofs4 IoProofs5 BuiltProofs ReloadProofs Disk DiskProofs Examples ExamplesIo.

(** C73: whatever the disk answers to the calls of a dump (files that cannot be opened, writes that are partial or fail, at any call)
    and wherever the process is killed: when file_dump returns Ok, both files are complete; otherwise it returns Err, for a
    write that failed, or panics, for a file that could not be opened, or the process was killed. In all
    cases no other file is touched, and both loaders refuse what is left, unless the dump had not begun or
    both files were complete. A disk that does not fail gives Ok. *)
Theorem C73_failing_disk :
  forall {T} (dist : list T -> list T -> Z) so, StdLaws so -> (forall a b, (0 <= dist a b)%Z) ->
  forall inv_ln M ml ef hist h, built dist so inv_ln M ml ef hist h ->
  forall el dname, dump_ready el dname ml hist h ->
  forall cwd fs dir base draws fs1 name, file_dump el dname cwd fs dir base draws h = (fs1, Ok name) ->
  (forall cap, file_dump_on el (Disk cap Opened Opened []) dname cwd fs dir base draws h = (fs1, Ok name)) /\
  forall k fs' r, file_dump_on el k dname cwd fs dir base draws h = (fs', r) ->
  (r = Ok name /\ fs' = fs1 \/
   r = Err /\ (WError ∈ dk_writes k \/ Wrote 0 ∈ dk_writes k) \/
   r = Panic /\ (dk_graph k = OpenError \/ dk_data k = OpenError) \/
   r = Exit /\ (dk_graph k = OpenKilled \/ dk_data k = OpenKilled \/ WKilled ∈ dk_writes k)) /\
  (forall loc, loc <> resolve cwd (graph_file dir name) -> loc <> resolve cwd (data_file dir name) -> fs' loc = fs loc) /\
  (forall {T'} so' (el' : elem T') inv_ln' dname' io, io_dir io = dir -> io_basename io = name ->
   forall x, load_hnsw so' el' inv_ln' dname' cwd fs' io = Ok x \/ load_hnsw_with_dist so' el' inv_ln' dname' cwd fs' io = Ok x ->
   fs' = fs \/ exists g d, dump_at fs1 cwd dir name g d /\ dump_at fs' cwd dir name g d).
Proof.
  intros T dist so LAWS Hnn inv_ln M ml ef hist h Hb el dname Hr cwd fs dir base draws fs1 name Hf.
  pose proof (file_dump_at _ _ _ _ _ _ _ _ _ _ Hf) as [Hat1 Hres].
  pose proof (calls_dump el dname h Full) as Hcd.
  set (cs := dump_calls el dname h Full) in *. destruct cs as [l last] eqn:Ecs. unfold of_calls in Hcd. cbn [fst snd] in Hcd.
  rewrite <- Hcd in Hres. cbn [w_res] in Hres. subst last.
  assert (Hname : dump_basename cwd fs dir base (negb (datamap_opt h)) draws = Ok name).
  { unfold file_dump in Hf. destruct (dump_basename _ _ _ _ _ _) as [nm| | | | |]; try done.
    rewrite <- Hcd in Hf. cbn [w_res] in Hf. by injection Hf as _ ->. }
  assert (Hfs1 : fs1 = fs_write (fs_write fs cwd (graph_file dir name) (graph_of l)) cwd (data_file dir name) (data_of l)).
  { unfold file_dump in Hf. rewrite Hname, <- Hcd in Hf. cbn [w_res w_graph w_data] in Hf. by injection Hf as <-. }
  assert (Hother : forall gb db loc, loc <> resolve cwd (graph_file dir name) -> loc <> resolve cwd (data_file dir name) ->
     fs_write (fs_write fs cwd (graph_file dir name) gb) cwd (data_file dir name) db loc = fs loc).
  { intros gb db loc H1 H2. unfold fs_write. rewrite !bool_decide_eq_false_2; done. }
  assert (Hload : forall fs' g d T' so' (el' : elem T') inv_ln' dname' io, dump_at fs' cwd dir name g d -> io_dir io = dir -> io_basename io = name ->
     forall x, load_hnsw so' el' inv_ln' dname' cwd fs' io = Ok x \/ load_hnsw_with_dist so' el' inv_ln' dname' cwd fs' io = Ok x ->
     exists p, loader so' el' p /\ run_rd p g d = Ok x).
  { intros fs' g d T' so' el' inv_ln' dname' io [Hg Hd] E1 E2 x Hx.
    unfold load_hnsw, load_hnsw_with_dist, io_open in Hx. rewrite E1, E2, Hg, Hd in Hx. cbn [mbind outcome_bind] in Hx.
    destruct Hx as [Hx|Hx]; eexists; (split; [|exact Hx]).
    - do 4 eexists. left. eexists. reflexivity.
    - do 4 eexists. right. reflexivity. }
  pose proof (bd_dumpable dist so LAWS Hnn _ _ _ _ _ _ Hb el dname Hr) as Hdu.
  destruct (bd_entry dist so LAWS Hnn _ _ _ _ _ _ Hb el dname Hr) as [ep Hep]. destruct Hr as [R1 R2 R3 R4 R5 R6].
  rewrite <- Hcd in Hat1. cbn [w_graph w_data] in Hat1.
  split.
  { intros cap. unfold file_dump_on. rewrite Hname. cbn [dk_graph dk_data dk_cap dk_writes]. fold cs. rewrite Ecs.
    destruct (write_files cap [] (l, Ok tt)) as [[g d] r] eqn:E.
    destruct (write_files_perfect cap l) as (g0 & d0 & E0). rewrite E in E0. injection E0 as -> -> ->.
    destruct (write_files_spec _ _ _ _ _ _ E) as (_ & _ & Hok & _). destruct (Hok eq_refl) as (_ & -> & ->). by rewrite Hfs1. }
  intros k fs' r Hk. unfold file_dump_on in Hk. rewrite Hname in Hk. fold cs in Hk. rewrite Ecs in Hk.
  destruct (dk_graph k) eqn:Eg.
  2: { injection Hk as <- <-. split_and!; [auto 6|done|]. intros. by left. }
  2: { injection Hk as <- <-. split_and!; [auto 8|done|]. intros. by left. }
  assert (Hempty : forall T' so' (el' : elem T') inv_ln' dname' io, io_dir io = dir -> io_basename io = name ->
     forall x, load_hnsw so' el' inv_ln' dname' cwd (fs_write fs cwd (graph_file dir name) []) io = Ok x \/
               load_hnsw_with_dist so' el' inv_ln' dname' cwd (fs_write fs cwd (graph_file dir name) []) io = Ok x -> False).
  { intros T' so' el' inv_ln' dname' io E1 E2 x Hx.
    set (fse := fs_write fs cwd (graph_file dir name) []) in *.
    destruct (fs_read fse cwd (data_file dir name)) as [d|] eqn:Ed.
    - destruct (Hload fse [] d T' so' el' inv_ln' dname' io) with (x := x) as (p & Hp & Hrun); auto.
      { split; [apply fs_write_same|done]. }
      destruct (loader_factor _ _ _ Hp) as (dm & opts & Hfac). unfold run_rd in Hrun.
      destruct (p ([], d)) as [[y s']| | | | |] eqn:Ep; try done.
      destruct (Hfac _ _ _ Ep) as (de & s1 & z & Hh & _). cbv in Hh. done.
    - unfold load_hnsw, load_hnsw_with_dist, io_open in Hx. rewrite E1, E2, Ed in Hx.
      destruct (fs_read fse cwd (graph_file dir name)); by destruct Hx. }
  destruct (dk_data k) eqn:Ed.
  2: { injection Hk as <- <-. split_and!; [auto 6| |].
       - intros loc H1 H2. unfold fs_write. by rewrite bool_decide_eq_false_2.
       - intros. exfalso. by eapply Hempty. }
  2: { injection Hk as <- <-. split_and!; [auto 8| |].
       - intros loc H1 H2. unfold fs_write. by rewrite bool_decide_eq_false_2.
       - intros. exfalso. by eapply Hempty. }
  destruct (write_files (dk_cap k) (dk_writes k) (l, Ok tt)) as [[g d] r0] eqn:E. injection Hk as <- <-.
  destruct (write_files_spec _ _ _ _ _ _ E) as ([tg Htg] & [td Htd] & Hok & Hcase). cbn [fst snd] in *.
  destruct (write_files_cause _ _ _ _ _ _ E) as [Ce Ck].
  split_and!.
  - assert (Hc : r0 = Ok tt \/ r0 = Err \/ r0 = Exit) by (destruct Hcase as [?|[?|[?|?]]]; auto).
    destruct Hc as [-> |[-> | ->]].
    + left. destruct (Hok eq_refl) as (_ & -> & ->). by rewrite Hfs1.
    + right. left. split; [done|auto].
    + do 3 right. split; [done|auto].
  - intros loc H1 H2. by apply Hother.
  - intros T' so' el' inv_ln' dname' io E1 E2 x Hx. right.
    assert (Hat : dump_at (fs_write (fs_write fs cwd (graph_file dir name) (bw_file g)) cwd (data_file dir name) (bw_file d)) cwd dir name (bw_file g) (bw_file d)).
    { split; [rewrite fs_write_other by (apply graph_data_ne)|]; apply fs_write_same. }
    destruct (Hload _ _ _ _ _ _ _ _ _ Hat E1 E2 x Hx) as (p & Hp & Hrun).
    destruct (truncated dist so' el el' h dname ep p (bw_file g) (bw_file d) tg td x R1 Hdu R2 R3 Hep Hp) as [-> ->]; [rewrite <- Hcd; exact Htg|rewrite <- Hcd; exact Htd|exact Hrun|].
    rewrite app_nil_r in Htg, Htd. exists (bw_file g), (bw_file d). split; [|done]. by rewrite <- Htg, <- Htd.
Qed.
Print Assumptions C73_failing_disk.
(** the example index on disks that take 5 bytes at a time: one is full after 9 writes, on another the process is killed at
    the tenth, on the third nothing fails *)
Definition slow (l : list wres) : disk := Disk 16 Opened Opened (replicate 9 (Wrote 5) ++ l).
Example C73_example : exists fs1 fs2 fs3 g d,
  file_dump_on el_u8 (slow [WError; WError; WError; WError]) l1_name cwd0 fs0 tmp_dir "b" [] exb = (fs1, Err) /\
  file_dump_on el_u8 (slow [WKilled]) l1_name cwd0 fs0 tmp_dir "b" [] exb = (fs2, Exit) /\
  file_dump_on el_u8 (slow []) l1_name cwd0 fs0 tmp_dir "b" [] exb = (fs3, Ok "b"%string) /\
  dump_at fs1 cwd0 tmp_dir "b" g d /\ g <> [] /\
  load_hnsw simple_ops el_u8 one_scale l1_name cwd0 fs1 (io_new tmp_dir "b") = Panic /\
  load_hnsw simple_ops el_u8 one_scale l1_name cwd0 fs2 (io_new tmp_dir "b") = Panic /\
  exists h, load_hnsw simple_ops el_u8 one_scale l1_name cwd0 fs3 (io_new tmp_dir "b") = Ok (h, []).
Proof.
  eexists _, _, _, _, _. split_and!.
  - vm_compute. reflexivity.
  - vm_compute. reflexivity.
  - vm_compute. reflexivity.
  - split; vm_compute; reflexivity.
  - discriminate.
  - vm_compute. reflexivity.
  - vm_compute. reflexivity.
  - eexists. vm_compute. reflexivity.
Qed.
