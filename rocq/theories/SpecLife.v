(** The later states of an index. *)
From Coq Require Import Strings.String.
From Verif Require Import Prelude Model Calls Io IoBase Spec SpecIo Conc SpecConc ConcDump ConcCalls SpecBuilt.

Section SpecLife.
Context {T : Type} (dist : list T -> list T -> Z) (so : StdOps).

(** [lives inv_ln M ml h0 h]: [h] is the index [h0] some time later, after insertions (also such as ended because the distance
    function panicked), calls of the setters, parallel uses, and dumps, beside which other threads may have been at work,
    followed by a reload. [M] and [ml] are the arguments of Hnsw::new. The conditions are those of [used] (SpecBuilt.v). *)
Inductive lives (inv_ln : nat -> f64) (M ml : nat) (h0 : hnsw (T:=T)) : hnsw (T:=T) -> Prop :=
| lives_now : lives inv_ln M ml h0 h0
| lives_insert h v id d h' : lives inv_ln M ml h0 h -> insert_slice dist so h v id d = Ok h' -> lives inv_ln M ml h0 h'
| lives_panic h v id dr d h' : lives inv_ln M ml h0 h -> (forall a b z, d a b = Ok z -> z = dist a b) ->
    left_at d (insert_slice_d so h v id dr) = Some h' -> lives inv_ln M ml h0 h'
| lives_extend h b : lives inv_ln M ml h0 h -> lives inv_ln M ml h0 (set_extend_candidates b h)
| lives_keep h b : lives inv_ln M ml h0 h -> lives inv_ln M ml h0 (set_keeping_pruned b h)
| lives_search h b : lives inv_ln M ml h0 h -> lives inv_ln M ml h0 (set_searching_mode b h)
| lives_scale h m : lives inv_ln M ml h0 h -> lives inv_ln M ml h0 (modify_level_scale m h)
| lives_parallel h ts rs h' : lives inv_ln M ml h0 h -> (1 <= ml)%nat -> Forall (may_run h) ts -> after dist so h ts h' rs ->
    lives inv_ln M ml h0 h'
| lives_panic_parallel h ts d outs h' : lives inv_ln M ml h0 h -> (1 <= ml)%nat -> Forall (may_run h) ts ->
    (forall a b z, d a b = Ok z -> z = dist a b) -> after_c d so h ts h' outs -> lives inv_ln M ml h0 h'
| lives_reload h ts c i d el dname dname' cwd fs io h' mapped :
    lives inv_ln M ml h0 h -> get_nb_point h <> 0%nat -> Forall (may_run h) ts -> during dist so h ts c ->
    ts !! i = Some TDump -> returned c i (RDumped d) ->
    dumped_ready el dname ml h d -> dumped_uniform d -> (M <= 255)%nat -> el_nodata el = false ->
    dump_at fs cwd (io_dir io) (io_basename io) (w_graph (dumped_files el dname h d)) (w_data (dumped_files el dname h d)) ->
    ro_datamap (io_options io) = false ->
    load_hnsw so el inv_ln dname' cwd fs io = Ok (h', mapped) \/
    load_hnsw_with_dist so el inv_ln dname' cwd fs io = Ok (h', mapped) ->
    lives inv_ln M ml h0 h'.

End SpecLife.
