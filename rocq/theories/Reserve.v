(** The memory that the crate reserves in advance, in proportion to numbers given by the caller: Vec::with_capacity and
    BinaryHeap::with_capacity in hnsw.rs l.449-457, l.929-931, l.949-950, l.1162. Model.v leaves these calls out; here are
    Hnsw::new, insert_slice and search_filter with them. Reservations in proportion to data that are already in memory
    (for instance l.177, l.224, l.1578, l.1623) are left out here too. *)
From Verif Require Import Prelude Model.

Section Reserve.
Context {T : Type} (dist : list T -> list T -> Z) (so : StdOps).
(** whether the allocator gives a block of so many bytes *)
Context (gives : N -> bool).

(** with_capacity([n]) for elements of 8 bytes (Arc) on a 64-bit machine: "capacity overflow" panics above isize::MAX bytes;
    a block that the allocator refuses ends the process (handle_alloc_error). *)
Definition reserve (n : N) : outcome unit :=
  if (2 ^ 63 - 1 <? 8 * n)%N then Panic else if gives (8 * n) then Ok tt else Exit.

(** l.911-1042 search_layer with l.929 (skiplist_size), l.931 and l.949. *)
Definition search_layer_r (h : hnsw) (q : list T) (ep : pid) (ef layer : nat)
    (filter : option (dataid -> bool)) : outcome (heap so) :=
  let skiplist_size := N.of_nat (Nat.max ef 2) in
  _ ← reserve skiplist_size;
  match points_by_layer h !! layer with
  | None => Panic
  | Some [] => Ok (h_empty so)
  | Some _ =>
      s ← search_init dist so h q ep;
      _ ← reserve skiplist_size;
      search_loop dist so (S (table_size h)) h q ef layer filter s
  end.

(** l.1462-1535 search_filter *)
Definition search_filter_r (h : hnsw) (data : list T) (knbn ef_arg : nat)
    (filter : option (dataid -> bool)) : outcome (list neighbour) :=
  match entry_point h with
  | None => Ok []
  | Some ep =>
      pivot ← find_pivot dist h data ep;
      let ef := Nat.max ef_arg knbn in
      l ← layer_to_search h;
      hp ← search_layer_r h data pivot ef l filter;
      let neighbours := h_sorted so hp in
      let last := Nat.min (Nat.min knbn ef) (length neighbours) in
      mapM (to_answer h) (take last neighbours)
  end.

(** l.1552 search *)
Definition search_r (h : hnsw) (data : list T) (knbn ef_arg : nat) : outcome (list neighbour) :=
  search_filter_r h data knbn ef_arg None.

(** l.1092-1133 *)
Fixpoint descend_r (ls : list nat) (h : hnsw) (np : pid) (data : list T) (ep : pid) (dte : Z)
    : outcome (hnsw * pid) :=
  match ls with
  | [] => Ok (h, ep)
  | l :: ls' =>
      sorted ← search_layer_r h data ep 1 l None;
      '(h1, ep1, dte1) ← descend_use dist so h np data l sorted ep dte;
      descend_r ls' h1 np data ep1 dte1
  end.

(** l.1151-1182 with l.1162 *)
Definition connect_use_r (h : hnsw) (np : pid) (data : list T) (l : nat) (found : heap so) (ep : pid)
    : outcome (hnsw * pid) :=
  neg ← from_positive_to_negative so found;
  if (h_len so neg =? 0)%nat then Ok (h, ep)
  else
    _ ← reserve (N.of_nat (nb_conn h l));
    nv ← select_neighbours dist so h data neg (nb_conn h l) (extend_c h l) l (keep_pruned h);
    let nv := u_sort so nbr n_dist nv in
    h1 ← upd_nbs h np l (fun _ => nv);
    Ok (h1, match nv with [] => ep | n :: _ => n_pid n end).

(** l.1136-1183 *)
Fixpoint connect_r (ls : list nat) (h : hnsw) (np : pid) (data : list T) (ep : pid) : outcome hnsw :=
  match ls with
  | [] => Ok h
  | l :: ls' =>
      found ← search_layer_r h data ep (ef_construction h) l None;
      '(h1, ep1) ← connect_use_r h np data l found ep;
      connect_r ls' h1 np data ep1
  end.

(** l.1055-1193 insert_slice *)
Definition insert_slice_r (h : hnsw) (data : list T) (oid : dataid) (d : draw) : outcome hnsw :=
  '(h0, np, rank) ← generate_new_point h data oid d;
  match entry_point h0 with
  | None => Ok (check_entry_point h0 np)
  | Some ep =>
      if (rank =? 1)%nat then Ok h0
      else
        ept ← unwrap (get_pt h0 ep);
        let level := np.1 in
        '(h1, ep1) ← descend_r (rev (seq (S level) (ep.1 - level))) h0 np data ep (dist data (pt_data ept));
        h2 ← connect_r (rev (seq 0 (S level))) h1 np data ep1;
        h3 ← reverse_update so h2 np;
        Ok (check_entry_point h3 np)
  end.

(** l.449-457: the reservations of PointIndexation::new. [expected_size M i max_elements] stands for the f64 computation of
    l.453-455, frac * max_elements with frac = exp(-i ln M) + (i + 1) ln M (an exp is missing in the second term), rounded. *)
Definition reserve_layers (expected_size : nat -> nat -> N -> N) (M : nat) (max_elements : N) (layers : list nat) : outcome unit :=
  foldl (fun acc i => _ ← acc; reserve (expected_size M i max_elements)) (Ok tt) layers.

(** l.768-804 Hnsw::new: the layers are made, hence reserved, before max_nb_connection is looked at. The vector of the layers
    themselves (l.449) has at most 16 elements of 24 bytes. *)
Definition hnsw_new_r (expected_size : nat -> nat -> N -> N) (inv_ln : nat -> f64)
    (max_nb_conn : nat) (max_elements : N) (max_layer_arg ef_c : nat) : outcome (hnsw (T:=T)) :=
  let adjusted := Nat.min NB_LAYER_MAX max_layer_arg in
  _ ← reserve_layers expected_size max_nb_conn max_elements (seq 0 adjusted);
  hnsw_new inv_ln max_nb_conn max_layer_arg ef_c.

End Reserve.
