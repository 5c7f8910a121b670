(** Which bytes of a data file belong to vectors, and which indexes differ by their vectors only. *)
From Verif Require Import Prelude Model Io.
Local Open Scope list_scope.

(** The data file of a dump: 12 bytes of heading, then for each point 20 bytes (mark, id, length) and [s] bytes of vector.
    Position [i] is in a vector. *)
Definition in_vector (s i : nat) : Prop := (12 <= i)%nat /\ (20 <= (i - 12) mod (20 + s))%nat.
(** the bytes of the k-th vector *)
Definition vector_bytes (s k : nat) (d : bytes) : bytes := take s (drop (12 + k * (20 + s) + 20) d).

(** the same parameters, points (id, PointId) and lists of neighbours *)
Definition same_but_vectors {T} (h h' : hnsw (T:=T)) : Prop :=
  set_layers [] h' = set_layers [] h /\
  Forall2 (Forall2 (fun p p' => pt_oid p' = pt_oid p /\ pt_pid p' = pt_pid p /\ pt_nbs p' = pt_nbs p)) (points_by_layer h) (points_by_layer h').
