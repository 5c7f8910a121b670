(** What a reload with a memory map returns, in terms of the grammar of SpecFile.v. *)
From Coq Require Import Strings.String.
From Verif Require Import Prelude Model Io SpecFile.
Local Open Scope list_scope.

(** the same element type, its vectors not being looked at (as for NoData) *)
Definition no_vectors {T} (el : elem T) : elem T := Elem T (el_name el) (el_size el) (el_enc el) (el_dec el) (el_bincode el) true.
(** the index without its vectors *)
Definition without_vectors {T} (h : hnsw (T:=T)) : hnsw (T:=T) :=
  Hnsw (ef_construction h) (max_nb_connection h) (extend_candidates h) (keep_pruned h) (max_layer h)
    (fmap (M:=list) (fun p => Point [] (pt_oid p) (pt_pid p) (pt_nbs p)) <$> points_by_layer h)
    (level_scale h) (nb_point h) (entry_point h) (searching h) (datamap_opt h).

(** how many points, from the first one, have their vector mapped: those beyond the threshold, by the count announced in the description *)
Definition mapped_count (t : text) (threshold : N) : nat := Z.to_nat (as_i64 (tx_count t) - as_i64 threshold).

(** the first [k] points have the vector that [vec] gives to their id, the others the one of their own record *)
Definition vectors_from {T} (el : elem T) (t : text) (vec : dataid -> option (list T)) (k : nat) (h : hnsw (T:=T)) : Prop :=
  forall i p pt, concat (tx_layers t) !! i = Some p -> concat (points_by_layer h) !! i = Some pt ->
    ((i < k)%nat -> vec (tp_id p) = Some (pt_data pt)) /\
    ((k <= i)%nat -> spelled el (tx_version t) (tx_dim t) (tp_bytes p) (pt_data pt)).
