(** Vocabulary of the properties of concurrent use. *)
From stdpp Require Import relations.
From Verif Require Import Prelude Model Conc.

Section SpecConc.
Context {T : Type} (dist : list T -> list T -> Z) (so : StdOps).

(** [during h ts c]: the situation [c] occurs in some interleaving of the threads that do the tasks [ts] on the
    index [h], which no other thread uses. *)
Definition during (h : hnsw) (ts : list task) (c : config) : Prop := rtc cstep (initial dist so h ts) c.

(** [after h ts h' rs]: the tasks [ts], run on [h] in some interleaving, all returned; they left the index [h']
    and returned [rs], in the order of [ts]. *)
Definition after (h : hnsw) (ts : list task) (h' : hnsw) (rs : list tres) : Prop :=
  exists c, during h ts c /\ finished c rs /\ c_sh c = h'.

(** the (vector, id) inserted by the tasks *)
Definition inserts (ts : list (task (T:=T))) : list (list T * dataid) :=
  omap (fun t => match t with TInsert v id _ => Some (v, id) | _ => None end) ts.

(** does the task insert a point? Does it iterate over the index? If it inserts a point, is the level of that point,
    computed from the scale of [h] and the draw, [l]? *)
Definition is_insertion (t : task (T:=T)) : Prop := match t with TInsert _ _ _ => True | _ => False end.
Definition is_iteration (t : task (T:=T)) : Prop := match t with TIterate => True | _ => False end.
Definition at_level (h : hnsw (T:=T)) (l : nat) (t : task (T:=T)) : Prop :=
  match t with TInsert _ _ d => generate (level_scale h) (max_layer h) d = Ok l | _ => True end.

(** parallel_insert (l.1199-1205, and parallel_insert_slice, l.1211-1213): one insertion per element, by threads of a pool; the draws are the
    levels drawn by each insertion *)
Definition parallel_insert (vs : list (list T * dataid)) (ds : list draw) : list (task (T:=T)) :=
  zip_with (fun v d => TInsert v.1 v.2 d) vs ds.

(** Two kinds of tasks panic even when they run alone: a filtered search with max(ef, knbn) = 0 (C13) and the
    iteration of an empty index (C22). *)
Definition may_run (h : hnsw (T:=T)) (t : task (T:=T)) : Prop :=
  match t with
  | TInsert _ _ _ => True
  | TSearch _ knbn ef filter => (filter = None \/ 1 <= Nat.max ef knbn)%nat
  | TIterate => (0 < nb_point h)%nat
  | TDump => True
  end.

(** thread [i] (which does the task number [i]) has returned [r]; it has panicked; nobody can make a step
    although some thread has not returned *)
Definition returned (c : config (T:=T)) (i : nat) (r : tres) : Prop := c_threads c !! i = Some (Halt (Ok r)).
Definition panicked (c : config (T:=T)) (i : nat) : Prop :=
  exists o, c_threads c !! i = Some (Halt o) /\ forall r, o <> Ok r.
Definition deadlocked (c : config (T:=T)) : Prop :=
  (forall c', ~ cstep c c') /\ exists i p, c_threads c !! i = Some p /\ forall o, p <> Halt o.

(** [pt] is yielded by the iterator over the layer of [p] (get_layer_iterator) and carries the PointId [p] *)
Definition layer_point (h : hnsw) (p : pid) (pt : point (T:=T)) : Prop :=
  exists pts, iter_layer h p.1 = Ok pts /\ pt ∈ pts /\ pt_pid pt = p.

(** what the iterators over all the layers yield *)
Definition contents (h : hnsw) (xs : list (list T * dataid)) : Prop :=
  exists layers, Forall2 (fun l pts => iter_layer h l = Ok pts) (seq 0 (max_layer h)) layers /\
    xs = (fun pt => (pt_data pt, pt_oid pt)) <$> concat layers.

(** the neighbours reported by get_neighborhood_id for the point [p] at layer [l] *)
Definition layer_neighbours (h : hnsw) (p : pid) (l : nat) (ns : list neighbour) : Prop :=
  exists pt lists, layer_point h p pt /\ get_neighborhood_id h pt = Ok lists /\ lists !! l = Some ns.

(** [p'] is among the neighbours reported for [p], at some layer *)
Definition points_to (h : hnsw (T:=T)) (p p' : pid) : Prop :=
  exists l ns n, layer_neighbours h p l ns /\ n ∈ ns /\ p_id n = p'.

(** [pieces_of h ts h']: each neighbour list of [h'] was, but for the order of equal distances, the list of that point at some
    moment of the run of the tasks [ts] on [h], and the entry point of [h'] was the entry point at some moment *)
Definition pieces_of (h : hnsw (T:=T)) (ts : list task) (h' : hnsw (T:=T)) : Prop :=
  (forall p l ns, layer_neighbours h' p l ns ->
     exists c ns', during h ts c /\ layer_neighbours (c_sh c) p l ns' /\ ns ≡ₚ ns') /\
  (forall ep, entry_point h' = Some ep -> exists c, during h ts c /\ entry_point (c_sh c) = Some ep).

End SpecConc.
