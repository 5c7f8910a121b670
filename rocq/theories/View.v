(** Model of the vectors of a mapped index while its data file changes. In Io.v the vector of a mapped point is the value
    it has when the index is loaded. It is a slice of the mapping (hnsw.rs l.133 PointData::S, made by datamap.rs l.283-293
    and hnswio.rs l.813-826), so its value is, at any time, what the file contains at that place then. *)
From Coq Require Import Strings.String.
From Verif Require Import Prelude Model Io.
Local Open Scope list_scope.

Section View.
Context {T : Type} (el : elem T).

(** hnsw.rs l.147-153 get_v, for a mapped point: address and length of the slice were fixed when it was made, no bound is
    checked. Simplification: everything beyond the end of the file is out of bounds (the rest of the last page reads as zeros,
    beyond it the process gets a SIGBUS). *)
Definition get_v (dm : datamap) (mapped : list pid) (content : bytes) (pt : point (T:=T)) : outcome (list T) :=
  if decide (pt_pid pt ∈ mapped) then
    match dm_offset dm (pt_oid pt) with
    | Some off => from_raw_parts el (drop off content) (dm_dimension dm)
    | None => Panic
    end
  else Ok (pt_data pt).

Definition seen_point (dm : datamap) (mapped : list pid) (content : bytes) (pt : point (T:=T)) : outcome point :=
  v ← get_v dm mapped content pt; Ok (Point v (pt_oid pt) (pt_pid pt) (pt_nbs pt)).

(** The index, with the vectors it has when the mapped file contains [content] *)
Definition seen (dm : datamap) (mapped : list pid) (content : bytes) (h : hnsw (T:=T)) : outcome (hnsw (T:=T)) :=
  ls ← mapM (mapM (seen_point dm mapped content)) (points_by_layer h);
  Ok (set_layers ls h).

(** A search at a time when the file system is [fs], [loc] being the location of the mapped file. A mapped file that has been
    unlinked stays readable and is not modelled. *)
Definition search_at (dist : list T -> list T -> Z) (so : StdOps) (dm : datamap) (mapped : list pid) (loc : list string)
    (fs : fsys) (h : hnsw (T:=T)) (q : list T) (knbn ef : nat) : outcome (list neighbour) :=
  content ← unwrap (fs loc);
  h' ← seen dm mapped content h;
  search dist so h' q knbn ef.
End View.
