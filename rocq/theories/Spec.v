(** Vocabulary of the property statements. Only functions of the public API of the model
    (hnsw_new, insert_slice, setters, get_point_data, iter_points, get_neighborhood_id, ...) are
    used here. *)
From Verif Require Import Prelude Model.

Section Spec.
Context {T : Type} (dist : list T -> list T -> Z) (so : StdOps).
Implicit Types (h : hnsw (T:=T)) (p : pid).

(** [built_plain inv_ln M ml ef hist h]: the index [h] was made by Hnsw::new(M, _, ml, ef, _) and then
    insertions only (all flags at their default value); [hist] lists the (vector, id) inserted. *)
Inductive built_plain (inv_ln : nat -> f64) (M ml ef : nat) : list (list T * dataid) -> hnsw -> Prop :=
| plain_new h : hnsw_new inv_ln M ml ef = Ok h -> built_plain inv_ln M ml ef [] h
| plain_insert hist h v id d h' :
    built_plain inv_ln M ml ef hist h -> insert_slice dist so h v id d = Ok h' ->
    built_plain inv_ln M ml ef (hist ++ [(v, id)]) h'.

(** later states of an index *)
Inductive evolves : hnsw -> hnsw -> Prop :=
| ev_refl h : evolves h h
| ev_insert h h1 v id d h2 : evolves h h1 -> insert_slice dist so h1 v id d = Ok h2 -> evolves h h2
| ev_extend h h1 b : evolves h h1 -> evolves h (set_extend_candidates b h1)
| ev_keep h h1 b : evolves h h1 -> evolves h (set_keeping_pruned b h1)
| ev_search h h1 b : evolves h h1 -> evolves h (set_searching_mode b h1)
| ev_scale h h1 m : evolves h h1 -> evolves h (modify_level_scale m h1).

(** get_point_data(p) is Some(v) *)
Definition vector_at h p (v : list T) : Prop :=
  get_point_data h p.1 (Z.of_nat p.2) = Ok (Some v).

(** [pt] is yielded by the iterator over the index and carries the PointId [p] *)
Definition point_at h p (pt : point (T:=T)) : Prop :=
  exists pts, iter_points h = Ok pts /\ pt ∈ pts /\ pt_pid pt = p.

(** the neighbours reported by get_neighborhood_id for the point [p] at layer [l] *)
Definition neighbours_at h p (l : nat) (ns : list neighbour) : Prop :=
  exists pt lists, point_at h p pt /\ get_neighborhood_id h pt = Ok lists /\ lists !! l = Some ns.

(** [p'] is a reported neighbour of [p] at layer [l] *)
Definition linked h (l : nat) p p' : Prop :=
  exists ns n, neighbours_at h p l ns /\ n ∈ ns /\ p_id n = p'.

(** reachable by links of layer [l] *)
Inductive reaches h (l : nat) : pid -> pid -> Prop :=
| reach_refl p : reaches h l p p
| reach_step p1 p2 p3 : linked h l p1 p2 -> reaches h l p2 p3 -> reaches h l p1 p3.

(** [l] is the lowest layer that contains points *)
Definition lowest_layer h (l : nat) : Prop :=
  get_layer_nb_point h l <> 0%nat /\ forall j, (j < l)%nat -> get_layer_nb_point h j = 0%nat.

(** [res] is the list of the [k] smallest of [ds], in non decreasing order *)
Definition k_smallest (k : nat) (ds res : list Z) : Prop :=
  exists s, s ≡ₚ ds /\ sorted_by id s /\ res = take k s.

End Spec.
