(** Small specification for C96. *)
From Verif Require Import Prelude Model Ask.
Local Open Scope list_scope.

(** The dialogue is one that takes place with this filter: each answer is the one the filter gives after the calls before it. *)
Definition takes_place (f : asked_filter) (tr : dialogue) : Prop :=
  forall i id b, tr !! i = Some (id, b) -> f (take i tr) id = Some b.
(** [id] was accepted by some call *)
Definition was_accepted (tr : dialogue) (id : dataid) : Prop := (id, true) ∈ tr.
(** A filter that gives the same answer whenever it is asked for the same id. *)
Definition steady (f : asked_filter) (g : dataid -> bool) : Prop := forall tr id, f tr id = Some (g id).
