(** Where a search starts, in terms of the public API only: from the entry point, one step per
    layer above layer 0, each to the first nearest among the current point and its neighbours. *)
From Verif Require Import Prelude Model Spec.

Section SpecStart.
Context {T : Type} (dist : list T -> list T -> Z).
Implicit Types (h : hnsw (T:=T)) (p : pid) (q : list T).

(** [p] is the first, in the list [ps], of the points of [ps] at the least distance of [q] *)
Definition first_nearest h q (ps : list pid) p : Prop :=
  exists before after v, ps = before ++ p :: after /\ vector_at h p v /\
    (forall p' v', p' ∈ before -> vector_at h p' v' -> (dist q v < dist q v')%Z) /\
    (forall p' v', p' ∈ after -> vector_at h p' v' -> (dist q v <= dist q v')%Z).

(** [starts_at h q l p start]: the descent that is at [p] in layer [l] ends, below layer 1, at [start] *)
Inductive starts_at h q : nat -> pid -> pid -> Prop :=
| start_bottom p : starts_at h q 0 p p
| start_down l p ns p1 start :
    neighbours_at h p (S l) ns -> first_nearest h q (p :: (p_id <$> ns)) p1 ->
    starts_at h q l p1 start -> starts_at h q (S l) p start.

(** the starting point of a search for [q]: the descent begins at the entry point, in its layer *)
Definition search_start h q start : Prop :=
  exists ep, entry_point h = Some ep /\ starts_at h q ep.1 ep start.

End SpecStart.
