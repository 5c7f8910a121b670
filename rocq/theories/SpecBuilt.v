(** The reachable indexes. *)
From Coq Require Import Strings.String.
From Verif Require Import Prelude Model Calls Io IoBase Spec SpecIo Conc SpecConc ConcDump ConcCalls.

(** What a dump that ran beside other threads read can be written and read back: as [dump_ready] (SpecIo.v), for the points it
    read. *)
Record dumped_ready {T} (el : elem T) (dname : string) (ml : nat) (h : hnsw (T:=T)) (d : dumped (T:=T)) : Prop := {
  dy_elem : elem_ok el;
  dy_dname : name_ok dname;
  dy_tname : name_ok (el_name el);
  dy_layers : (16 <= ml)%nat;
  dy_ef : (N.of_nat (ef_construction h) < 2 ^ 64)%N;
  dy_scale : f64_ok (level_scale h) = true;
  dy_nb : (N.of_nat (length (concat (dd_layers d))) < 2 ^ 63)%N;
  dy_point : forall x, x ∈ concat (dd_layers d) ->
     (Z.of_nat (dp_pid x).2 < 2 ^ 31)%Z /\ (dp_oid x < 2 ^ 64)%N /\
     (N.of_nat (length (dp_data x)) < 2 ^ 64)%N /\
     (N.of_nat (length (dp_data x) * el_size el) < 2 ^ 64)%N;
  dy_dist : forall x ns n, x ∈ concat (dd_layers d) -> ns ∈ dp_lists x -> n ∈ ns -> (0 <= distance n <= 2139095040)%Z
}.

(** the vectors it read have the same length *)
Definition dumped_uniform {T} (d : dumped (T:=T)) : Prop :=
  exists dim : nat, forall x, x ∈ concat (dd_layers d) -> length (dp_data x) = dim.

(** the points it read *)
Definition dumped_contents {T} (d : dumped (T:=T)) : list (list T * dataid) :=
  (fun x => (dp_data x, dp_oid x)) <$> concat (dd_layers d).

Section SpecBuilt.
Context {T : Type} (dist : list T -> list T -> Z) (so : StdOps).

(** [built inv_ln M ml ef hist h]: the index [h] was made by Hnsw::new(M, _, ml, ef, _) and then any
    sequence of insertions, setter calls, and dumps followed by a reload that returned Ok (with load_hnsw, the
    vectors in memory or mapped, or with load_hnsw_with_dist). [hist] lists the (vector, id) inserted,
    in order. It may also have been used by several threads at once, inserting, searching and iterating, in any
    interleaving in which all return; when the index had no point before, provided the iteration over the result shows
    as many points as were inserted (without which an insertion was lost, see C45). The conditions on reloads
    are those without which the reload is not faithful: vectors of equal length (see C37), at most 255 connections
    (see C29), and for mapped vectors different ids (see C34) and a directory that is absolute or the working
    directory (see C55). *)
Inductive built (inv_ln : nat -> f64) (M ml ef : nat) : list (list T * dataid) -> hnsw -> Prop :=
| built_new h : hnsw_new inv_ln M ml ef = Ok h -> built inv_ln M ml ef [] h
| built_insert hist h v id d h' :
    built inv_ln M ml ef hist h -> insert_slice dist so h v id d = Ok h' ->
    built inv_ln M ml ef (hist ++ [(v, id)]) h'
| built_extend hist h b :
    built inv_ln M ml ef hist h -> built inv_ln M ml ef hist (set_extend_candidates b h)
| built_keep hist h b :
    built inv_ln M ml ef hist h -> built inv_ln M ml ef hist (set_keeping_pruned b h)
| built_search hist h b :
    built inv_ln M ml ef hist h -> built inv_ln M ml ef hist (set_searching_mode b h)
| built_scale hist h m :
    built inv_ln M ml ef hist h -> built inv_ln M ml ef hist (modify_level_scale m h)
| built_reload hist h el dname dname' cwd fs io h' mapped :
    built inv_ln M ml ef hist h ->
    dump_ready el dname ml hist h -> uniform h -> (M <= 255)%nat -> el_nodata el = false ->
    dump_at fs cwd (io_dir io) (io_basename io) (w_graph (dump el dname h Full)) (w_data (dump el dname h Full)) ->
    (ro_datamap (io_options io) = true -> distinct_ids hist /\ plain_dir (io_dir io)) ->
    load_hnsw so el inv_ln dname' cwd fs io = Ok (h', mapped) ->
    built inv_ln M ml ef hist h'
| built_reload_dist hist h el dname dname' cwd fs io h' mapped :
    built inv_ln M ml ef hist h ->
    dump_ready el dname ml hist h -> uniform h -> (M <= 255)%nat -> el_nodata el = false ->
    dump_at fs cwd (io_dir io) (io_basename io) (w_graph (dump el dname h Full)) (w_data (dump el dname h Full)) ->
    ro_datamap (io_options io) = false ->
    load_hnsw_with_dist so el inv_ln dname' cwd fs io = Ok (h', mapped) ->
    built inv_ln M ml ef hist h'
| built_parallel hist h ts rs h' :
    built inv_ln M ml ef hist h -> hist <> [] -> Forall (may_run h) ts -> after dist so h ts h' rs ->
    built inv_ln M ml ef (hist ++ inserts ts) h'
| built_parallel_first h ts rs h' pts :
    built inv_ln M ml ef [] h -> (1 <= ml)%nat -> Forall (may_run h) ts -> after dist so h ts h' rs ->
    iter_points h' = Ok pts -> length pts = length (inserts ts) ->
    built inv_ln M ml ef (inserts ts) h'.

(** [used inv_ln M ml ef hist h]: all of the above, and parallel uses without any condition on their outcome:
    in particular parallel insertions into an empty index, whatever became of their points (C45); the reload, when it
    returned Ok, of a dump that ran beside other threads, whether these had finished or not: [hist] is then what the dump
    read (C70); and insertions that ended because the distance function panicked (C90): [d] is the distance function as it
    is, which answers [dist] or does not answer, and [h'] the index as the insertion left it; likewise parallel uses, some of
    whose threads ended so (C92). *)
Inductive used (inv_ln : nat -> f64) (M ml ef : nat) : list (list T * dataid) -> hnsw -> Prop :=
| used_built hist h : built inv_ln M ml ef hist h -> used inv_ln M ml ef hist h
| used_insert hist h v id d h' :
    used inv_ln M ml ef hist h -> insert_slice dist so h v id d = Ok h' -> used inv_ln M ml ef (hist ++ [(v, id)]) h'
| used_extend hist h b : used inv_ln M ml ef hist h -> used inv_ln M ml ef hist (set_extend_candidates b h)
| used_keep hist h b : used inv_ln M ml ef hist h -> used inv_ln M ml ef hist (set_keeping_pruned b h)
| used_search hist h b : used inv_ln M ml ef hist h -> used inv_ln M ml ef hist (set_searching_mode b h)
| used_scale hist h m : used inv_ln M ml ef hist h -> used inv_ln M ml ef hist (modify_level_scale m h)
| used_parallel hist h ts rs h' :
    used inv_ln M ml ef hist h -> (1 <= ml)%nat -> Forall (may_run h) ts -> after dist so h ts h' rs ->
    used inv_ln M ml ef (hist ++ inserts ts) h'
| used_reload hist h ts c i d el dname dname' cwd fs io h' mapped :
    used inv_ln M ml ef hist h -> hist <> [] -> Forall (may_run h) ts -> during dist so h ts c ->
    ts !! i = Some TDump -> returned c i (RDumped d) ->
    dumped_ready el dname ml h d -> dumped_uniform d -> (M <= 255)%nat -> el_nodata el = false ->
    dump_at fs cwd (io_dir io) (io_basename io) (w_graph (dumped_files el dname h d)) (w_data (dumped_files el dname h d)) ->
    ro_datamap (io_options io) = false ->
    load_hnsw so el inv_ln dname' cwd fs io = Ok (h', mapped) \/
    load_hnsw_with_dist so el inv_ln dname' cwd fs io = Ok (h', mapped) ->
    used inv_ln M ml ef (dumped_contents d) h'
| used_panic hist h v id dr d h' :
    used inv_ln M ml ef hist h -> (forall a b z, d a b = Ok z -> z = dist a b) ->
    left_at d (insert_slice_d so h v id dr) = Some h' ->
    used inv_ln M ml ef (hist ++ [(v, id)]) h'
| used_panic_parallel hist h ts d outs h' :
    used inv_ln M ml ef hist h -> (1 <= ml)%nat -> Forall (may_run h) ts -> (forall a b z, d a b = Ok z -> z = dist a b) ->
    after_c d so h ts h' outs ->
    used inv_ln M ml ef (hist ++ inserts ts) h'.

End SpecBuilt.
