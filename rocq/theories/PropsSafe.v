(** Property C76: loading files with arbitrary bytes. *)
From Coq Require Import Strings.String Strings.Byte.
From stdpp Require Import relations.
From Verif Require Import Prelude Model StdInst Lib Table SearchProofs InsertProofs IterProofs Spec SpecProofs Io IoBase SpecIo SpecBuilt
  SafeProofs Examples ExamplesIo.
Local Open Scope list_scope.

(** Somewhere in the data file [d] there is a record (magic number, id, number of bytes, bytes) with fewer bytes than the vectors of
    the dimension announced by the file have, elements being [size] bytes long. *)
Definition short_record (size : nat) (d : bytes) : Prop :=
  let dimension := le_val (take 8 (drop 4 d)) in
  exists before magicb idb lenb vec after, d = before ++ magicb ++ idb ++ lenb ++ vec ++ after /\
    length magicb = 4 /\ le_val magicb = MAGICDATAP /\ length idb = 8 /\ length lenb = 8 /\ le_val lenb = N.of_nat (length vec) /\
    (N.of_nat (length vec) < dimension * N.of_nat size)%N.

(** C76 is false: a dump written by file_dump itself, of an index with vectors of several lengths, makes both load functions
    read out of bounds. *)
Theorem C76_load_safety_refuted :
  exists (dist : list byte -> list byte -> Z) so inv_ln M ml ef (el : elem byte) dname cwd fs dir base hist h fs',
    StdLaws so /\ (forall a b, (0 <= dist a b)%Z) /\ built dist so inv_ln M ml ef hist h /\ elem_ok el /\
    file_dump el dname cwd fs dir base [] h = (fs', Ok base) /\
    load_hnsw so el inv_ln dname cwd fs' (io_new dir base) = UB /\ load_hnsw_with_dist so el inv_ln dname cwd fs' (io_new dir base) = UB.
Proof.
  exists dB, simple_ops, one_scale, 2%nat, 16%nat, 10%nat, el_u8, l1_name, cwd0, fs0, tmp_dir, "b"%string.
  exists (fst <$> exw_points), exw, (fst (file_dump el_u8 l1_name cwd0 fs0 tmp_dir "b" [] exw)).
  split; [exact simple_laws|]. split; [exact dB_nonneg|]. split; [exact exw_built|]. split; [intros x; done|]. split.
  - assert (E : snd (file_dump el_u8 l1_name cwd0 fs0 tmp_dir "b" [] exw) = Ok "b"%string) by (vm_compute; reflexivity).
    revert E. generalize (file_dump el_u8 l1_name cwd0 fs0 tmp_dir "b" [] exw). intros [a b] E. cbn [fst snd] in *. by rewrite E.
  - split_and!; vm_compute; reflexivity.
Qed.
Print Assumptions C76_load_safety_refuted.

(** C76, what does hold: whatever the bytes of the files, a load ends, and it reads out of bounds only when the data file has a record
    that is too short; a data map that was built never reads outside of the file. *)
Theorem C76_load_safety_partial :
  forall {T} so (el : elem T) inv_ln dname cwd fs io,
  (forall dm, io_datamap io = Some dm -> exists cwd' fs' dir base, from_hnswdump el cwd' fs' dir base = Ok dm) ->
  load_hnsw so el inv_ln dname cwd fs io <> Fuel /\ load_hnsw_with_dist so el inv_ln dname cwd fs io <> Fuel /\
  (load_hnsw so el inv_ln dname cwd fs io = UB \/ load_hnsw_with_dist so el inv_ln dname cwd fs io = UB ->
    exists d, fs_read fs cwd (data_file (io_dir io) (io_basename io)) = Some d /\ short_record (el_size el) d) /\
  (forall dir base, from_hnswdump el cwd fs dir base = UB ->
    exists d, fs_read fs cwd (data_file dir base) = Some d /\ short_record (el_size el) d) /\
  (forall dir base dm id, from_hnswdump el cwd fs dir base = Ok dm -> dm_get_data el dm id <> UB).
Proof.
  intros T so el inv_ln dname cwd fs io Hio.
  assert (Hs : dm_safe el (io_datamap io)).
  { intros m id E. destruct (Hio m E) as (c & f & di & b & Hb). pose proof (from_hnswdump_safe el c f di b) as H. rewrite Hb in H. apply H. }
  destruct (load_safe so el inv_ln dname cwd fs io Hs) as (H1 & H2 & H3). split_and!; auto.
  - intros dir base E. pose proof (from_hnswdump_safe el cwd fs dir base) as H. by rewrite E in H.
  - intros dir base dm id E. pose proof (from_hnswdump_safe el cwd fs dir base) as H. rewrite E in H. apply H.
Qed.
Print Assumptions C76_load_safety_partial.
(** A fresh HnswIo has no data map; the bad file of the refutation has a short record, a good one has none (it is loaded). *)
Example C76_example :
  (forall dm, io_datamap (io_new_with_options tmp_dir "b" (ROptions true 1)) = Some dm ->
     exists cwd' fs' dir base, from_hnswdump el_u8 cwd' fs' dir base = Ok dm) /\
  (exists d, fs_read (fst (file_dump el_u8 l1_name cwd0 fs0 tmp_dir "b" [] exw)) cwd0 (data_file tmp_dir "b") = Some d /\ short_record 1 d) /\
  load_hnsw simple_ops el_u8 one_scale l1_name cwd0 (fst (file_dump el_u8 l1_name cwd0 fs0 tmp_dir "b" [] exb)) (io_new_with_options tmp_dir "b" (ROptions true 1)) <> UB.
Proof.
  split; [done|]. split.
  - pose proof (C76_load_safety_partial simple_ops el_u8 one_scale l1_name cwd0
      (fst (file_dump el_u8 l1_name cwd0 fs0 tmp_dir "b" [] exw)) (io_new tmp_dir "b") ltac:(done)) as (_ & _ & H & _).
    apply H. left. vm_compute. reflexivity.
  - vm_compute. discriminate.
Qed.
