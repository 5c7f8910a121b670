(** Vocabulary for what an insertion links. *)
From Verif Require Import Prelude.

(** [diversified d dd m cands sel]: [sel] is a diversified choice of at most [m] of the points
    [cands], [d] being the distance to the new point and [dd] the distance between two points. *)
Record diversified (d : pid -> Z) (dd : pid -> pid -> Z) (m : nat) (cands sel : list pid) : Prop := {
  dv_sub : forall a, a ∈ sel -> a ∈ cands;
  dv_nodup : NoDup sel;
  dv_size : (length sel <= m)%nat;
  (* each chosen point is nearer to the new point than to any nearer chosen point *)
  dv_apart : forall a b, a ∈ sel -> b ∈ sel -> (d a < d b)%Z -> (d b < dd b a)%Z;
  dv_tie : forall a b, a ∈ sel -> b ∈ sel -> a <> b -> d a = d b -> (d b < dd b a)%Z \/ (d a < dd a b)%Z;
  (* a point is left out because a nearer chosen point is close to it, or because there is no room *)
  dv_why : forall c, c ∈ cands -> c ∉ sel ->
    (exists a, a ∈ sel /\ (d a <= d c)%Z /\ (dd c a <= d c)%Z) \/
    (length sel = m /\ forall a, a ∈ sel -> (d a <= d c)%Z)
}.

(** With keep_pruned, the remaining room is filled with the nearest of the points left out. *)
Definition filled_up (d : pid -> Z) (dd : pid -> pid -> Z) (m : nat) (cands sel : list pid) : Prop :=
  exists core extra, sel ≡ₚ core ++ extra /\ NoDup sel /\ diversified d dd m cands core /\
    (forall a, a ∈ extra -> a ∈ cands) /\ length sel = Nat.min m (length cands) /\
    (forall x c, x ∈ extra -> c ∈ cands -> c ∉ sel -> (d x <= d c)%Z).

Definition chosen (keep : bool) (d : pid -> Z) (dd : pid -> pid -> Z) (m : nat) (cands sel : list pid) : Prop :=
  if keep then filled_up d dd m cands sel else diversified d dd m cands sel.

(** [received cap e old new]: the list [new] is the list [old] with the entry [e] added in order, and
    then, when there were already [cap] entries, the (or a) furthest removed. *)
Definition received (cap : nat) (e : neighbour) (old new : list neighbour) : Prop :=
  sorted_by distance new /\ length new = Nat.min cap (S (length old)) /\
  exists removed, new ++ removed ≡ₚ old ++ [e] /\
    forall x y, x ∈ new -> y ∈ removed -> (distance x <= distance y)%Z.
