(** What becomes of the memory of an index that goes out of scope: Drop for PointIndexation, hnsw.rs l.404-444, with the
    reference counts of std::sync::Arc. Model.v's [drop_indexation] keeps only the panics of this function.
    An Arc<Point> is held by a slot of points_by_layer (l.397), by entry_point (l.403), by an entry of a list of neighbours
    (l.169, l.265) and by the caller, who may have kept one (from an iterator or get_point_indexation, l.600-800).
    Simplifications: an entry of a list is an Arc<PointWithOrder> which itself holds the Arc<Point>; it is counted here as
    one reference to the point, also when the same PointWithOrder is in two lists. The NB_LAYER_MAX lists of a point are put
    in one. The locks are left out: nobody else can use the index ([&mut self]), and no lock is taken twice (l.413, l.421,
    l.426, l.432). The panic for an index without layers is in [drop_indexation]. *)
From stdpp Require Import relations.
From Verif Require Import Prelude Model.

Section Drop.
Context {T : Type}.
Notation hnsw := (hnsw (T:=T)).

(** The neighbours, in all its lists, of the point at place [p] (l.169). *)
Definition links_of (h : hnsw) (p : pid) : list pid :=
  match get_pt h p with Some pt => n_pid <$> concat (pt_nbs pt) | None => [] end.

(** The instructions that matter: [Clear p], l.412-419 clear_neighborhoods on the point at place [p]; [Release ps], a Vec or
    an Option that owned one Arc to each point of [ps] drops them. *)
Inductive instr : Type := Clear (p : pid) | Release (ps : list pid).

(** l.425-431 for layer [l]: the clearing is a parallel iteration (rayon), so in any order; then layer.clear() *)
Definition drop_layer (h : hnsw) (l : nat) (is_ : list instr) : Prop :=
  exists ly order, points_by_layer h !! l = Some ly /\ order ≡ₚ (pt_pid <$> ly) /\
    is_ = (Clear <$> order) ++ [Release (pt_pid <$> ly)].

(** l.410-444, then the fields that own points in the order of their declaration (l.397, l.403): points_by_layer with what
    is left in it, and entry_point. *)
Definition drop_program (h : hnsw) (prog : list instr) : Prop :=
  exists layers, Forall2 (drop_layer h) (seq 0 (S (get_max_level_observed h))) layers /\
    prog = match entry_point h with Some ep => [Clear ep] | None => [] end
           ++ concat layers
           ++ [Release (pt_pid <$> concat (drop (S (get_max_level_observed h)) (points_by_layer h)))]
           ++ [Release (match entry_point h with Some ep => [ep] | None => [] end)].

(** Memory: for each point the strong count of its Arc, and its list; Arcs whose destructor is still to run; the
    instructions that remain. A count of 0 means that the point and its vector have been freed. *)
Record dstate : Type := DState { count : pid -> nat; links : pid -> list pid; pending : list pid; todo : list instr }.

Definition upd {A} (f : pid -> A) (p : pid) (a : A) : pid -> A := fun q => if decide (q = p) then a else f q.

(** One step. An Arc is destroyed: the count goes down, and at 0 the point is freed and the Arcs in its list are to be
    destroyed in turn (Arc::drop, drop_slow). Destructors may run in any order and be overtaken by the following
    instructions: this allows more than the threads of rayon can do. *)
Inductive dstep : dstate -> dstate -> Prop :=
| d_shared c k xs p ys is_ n : c p = S (S n) ->
    dstep (DState c k (xs ++ p :: ys) is_) (DState (upd c p (S n)) k (xs ++ ys) is_)
| d_last c k xs p ys is_ : c p = 1%nat ->
    dstep (DState c k (xs ++ p :: ys) is_) (DState (upd c p 0%nat) (upd k p []) (xs ++ ys ++ k p) is_)
| d_clear c k pend p is_ :
    dstep (DState c k pend (Clear p :: is_)) (DState c (upd k p []) (pend ++ k p) is_)
| d_release c k pend ps is_ :
    dstep (DState c k pend (Release ps :: is_)) (DState c k (pend ++ ps) is_).

(** how often [p] occurs in a list *)
Definition occ (p : pid) (l : list pid) : nat := length (filter (fun q => q = p) l).

(** The index about to be dropped, while the caller has kept an Arc to each point of [held]. The count of a point: its
    slot, the entry point, the lists, and the caller's. *)
Definition at_drop (h : hnsw) (held : list pid) (prog : list instr) : dstate :=
  let slots := pt_pid <$> concat (points_by_layer h) in
  DState (fun p => occ p slots + occ p (match entry_point h with Some ep => [ep] | None => [] end)
                   + occ p (concat (links_of h <$> slots)) + occ p held)%nat
         (links_of h) [] prog.

End Drop.
