(** Vocabulary for what a dropped index leaves in memory. *)
From stdpp Require Import relations.
From Verif Require Import Prelude Model SpecConc Drop.

Section SpecDrop.
Context {T : Type}.
Notation hnsw := (hnsw (T:=T)).

(** the drop is over: nothing left to do *)
Definition over (s : dstate) : Prop := pending s = [] /\ todo s = [].
(** the memory of a point has been given back *)
Definition freed (s : dstate) (p : pid) : Prop := count s p = 0%nat.

(** [s] is a situation without misuse of memory: no Arc is about to be destroyed, and no list to be cleared, of a point
    that has been freed. *)
Definition no_misuse (s : dstate) : Prop :=
  (forall p, p ∈ pending s -> ~ freed s p) /\
  (forall p rest, todo s = Clear p :: rest -> ~ freed s p).

(** A point can be let go if the caller does not hold it and if among the points above the layer of the entry point, which
    the drop does not clear, only points that can be let go have it as a neighbour. The least such set: points above that
    layer that are neighbours of each other in a circle are not in it. *)
Inductive let_go (h : hnsw) (held : list pid) : pid -> Prop :=
| LetGo p : p ∉ held ->
    (forall q, (get_max_level_observed h < q.1)%nat -> points_to h q p -> let_go h held q) -> let_go h held p.

End SpecDrop.
