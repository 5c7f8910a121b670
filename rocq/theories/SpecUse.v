(** Vocabulary for searches in an index however it was used (C97): the notions of Spec.v and SpecStart.v read off the iterators
    over the layers, because get_point_data does not see the points above the layer of the entry point, and parallel
    insertions into an empty index may leave such points (C45). *)
From Verif Require Import Prelude Model Conc SpecConc.

Section SpecUse.
Context {T : Type} (dist : list T -> list T -> Z).
Implicit Types (h : hnsw (T:=T)) (p : pid) (q : list T).

(** the vector of the point [p] *)
Definition layer_vector h p v : Prop := exists pt, layer_point h p pt /\ pt_data pt = v.

(** [p'] is among the neighbours of [p] in layer [l] *)
Definition layer_linked h (l : nat) p p' : Prop :=
  exists ns n, layer_neighbours h p l ns /\ n ∈ ns /\ p_id n = p'.

(** [p] is the first, in the list [ps], of the points of [ps] at the least distance of [q] *)
Definition layer_first_nearest h q (ps : list pid) p : Prop :=
  exists before after v, ps = before ++ p :: after /\ layer_vector h p v /\
    (forall p' v', p' ∈ before -> layer_vector h p' v' -> (dist q v < dist q v')%Z) /\
    (forall p' v', p' ∈ after -> layer_vector h p' v' -> (dist q v <= dist q v')%Z).

(** [layer_starts_at h q l p start]: the descent that is at [p] in layer [l] ends, below layer 1, at [start] *)
Inductive layer_starts_at h q : nat -> pid -> pid -> Prop :=
| layer_start_bottom p : layer_starts_at h q 0 p p
| layer_start_down l p ns p1 start :
    layer_neighbours h p (S l) ns -> layer_first_nearest h q (p :: (p_id <$> ns)) p1 ->
    layer_starts_at h q l p1 start -> layer_starts_at h q (S l) p start.

(** the starting point of a search for [q]: the descent begins at the entry point, in its layer *)
Definition use_start h q start : Prop :=
  exists ep, entry_point h = Some ep /\ layer_starts_at h q ep.1 ep start.

End SpecUse.
