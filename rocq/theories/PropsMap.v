(** Property C81: which pairs of files DataMap::from_hnswdump maps, and what the map answers. *)
From Coq Require Import Strings.String.
From Verif Require Import Prelude Model StdInst Lib Spec Io IoBase IoProofs IoProofs2 IoProofs3 SpecIo SpecFile FileProofs FileProofs2 MapProofs Examples ExamplesIo PropsIo PropsFile.
Local Open Scope list_scope.

(** C81. In an absolute directory, or the working directory: from_hnswdump returns a map exactly when both files are there, the graph file begins with a
    description of format 3 or 4 for the type, and the data file holds the records that its length has room for (SpecFile.mappable); the
    map then gives each id the vector of its last record, lists the ids in the order of their first records, and knows the names. *)
Theorem C81_datamap_exactly :
  forall {T} (el : elem T) cwd fs dir base, plain_dir dir ->
  ((exists dm, from_hnswdump el cwd fs dir base = Ok dm) <-> exists g d t recs, dump_at fs cwd dir base g d /\ mappable el g d t recs) /\
  forall dm g d t recs, from_hnswdump el cwd fs dir base = Ok dm -> dump_at fs cwd dir base g d -> mappable el g d t recs ->
    dm_ids dm = first_seen (fst <$> recs) /\ dm_nb_data dm = length (first_seen (fst <$> recs)) /\
    (forall id, dm_get_data el dm id = Ok (mapped_vector el t recs id)) /\
    dm_t_name dm = tx_type t /\ dm_distname dm = tx_dist t /\ dm_dimension dm = tx_dim t.
Proof.
  intros T el cwd fs dir base Hp.
  assert (Hf : forall dm, from_hnswdump el cwd fs dir base = Ok dm <-> exists g d, dump_at fs cwd dir base g d /\ datamap_of el g d = Ok dm).
  { intros dm. unfold from_hnswdump, dump_at. rewrite plain_graph by done. destruct (fs_read fs cwd (graph_file dir base)) as [g|].
    - destruct (fs_read fs cwd (data_file dir base)) as [d|].
      + split; [by exists g, d|]. by intros (? & ? & [[= <-] [= <-]] & HH).
      + split; [|by intros (? & ? & [_ ?] & _)]. intros ([de s] & _ & H)%bind_inv. destruct (_ <=? _)%N; [done|]. by destruct (negb _).
    - split; [done|]. by intros (? & ? & [? _] & _). }
  split; [split|].
  - intros (dm & (g & d & H1 & H2)%Hf). apply datamap_of_iff in H2 as (t & recs & H2 & _). by exists g, d, t, recs.
  - intros (g & d & t & recs & H1 & H2). eexists. apply Hf. exists g, d. split; [done|]. apply datamap_of_iff. by exists t, recs.
  - intros dm g d t recs (g' & d' & [H1 H2] & H3)%Hf [E1 E2] Hm. rewrite E1 in H1. rewrite E2 in H2. injection H1 as <-. injection H2 as <-.
    assert (H4 : datamap_of el g d = Ok (DataMap d (add_recs (addressed 12 recs) []) (tx_type t) (tx_dim t) (tx_dist t))) by (apply datamap_of_iff; by exists t, recs).
    rewrite H3 in H4. injection H4 as ->.
    assert (HI : fst <$> add_recs (addressed 12 recs) [] = first_seen (fst <$> recs)).
    { rewrite keys_recs. f_equal. rewrite <- (addressed_fst 12 recs) at 2. by rewrite <- list_fmap_compose. }
    split; [exact HI|]. split; [unfold dm_nb_data; cbn [dm_map]; by rewrite <- HI, fmap_length|]. split; [|done].
    intros id. by apply (map_answers el g d).
Qed.
Print Assumptions C81_datamap_exactly.

(** the files written by hand of C80, and two records with the same id *)
Definition hand_recs : list (dataid * list Byte.byte) := [(7%N, [Byte.x05]); (9%N, [Byte.x08]); (7%N, [Byte.x06])].
Definition twice_data : list Byte.byte :=
  u32_bytes 0xa67f0000 ++ u64_bytes 1 ++ concat ((fun r => record_text (TextPoint r.1 [] r.2)) <$> hand_recs).
Definition twice_fs : fsys :=
  fs_write (fs_write fs0 cwd0 (graph_file tmp_dir "c") (head_text hand_text)) cwd0 (data_file tmp_dir "c") (twice_data ++ [Byte.x00]).
Example C81_example : dump_at twice_fs cwd0 tmp_dir "c" (head_text hand_text) (twice_data ++ [Byte.x00]) /\
  mappable el_u8 (head_text hand_text) (twice_data ++ [Byte.x00]) hand_text hand_recs /\
  mapped_vector el_u8 hand_text hand_recs 7%N = Some [Byte.x06] /\
  exists dm, from_hnswdump el_u8 cwd0 twice_fs tmp_dir "c" = Ok dm /\ dm_ids dm = [7%N; 9%N] /\ dm_get_data el_u8 dm 7%N = Ok (Some [Byte.x06]).
Proof.
  split; [split; by vm_compute|]. split; [|split].
  - split; [exists []; by rewrite app_nil_r|]. split; [apply C80_example|]. split; [done|]. split; [done|].
    split; [exists [Byte.x00]; unfold twice_data; by rewrite <- !app_assoc|]. split; [by vm_compute|].
    intros r Hr. repeat apply elem_of_cons in Hr as [->|Hr]; try by apply elem_of_nil in Hr. all: cbn; lia.
  - by vm_compute.
  - destruct (from_hnswdump el_u8 cwd0 twice_fs tmp_dir "c") as [dm| | | | |] eqn:E; [|by vm_compute in E..].
    exists dm. revert E. vm_compute. by intros [= <-].
Qed.
