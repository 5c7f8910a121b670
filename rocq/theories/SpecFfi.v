(** Vocabulary of the properties of the C interface. *)
From Coq Require Import Strings.String Strings.Byte.
From stdpp Require Import strings.
From Verif Require Import Prelude Model Io Conc SpecConc Ffi.
Local Open Scope list_scope.
Notation length := List.length.

Section SpecFfi.
Context {T : Type} (dist_of : string -> list T -> list T -> Z) (so : StdOps) (el : elem T) (t : ctype)
  (inv_ln : nat -> f64) (cwd : list string).
Implicit Types (m : list (option (cobj (T:=T)))).

(** at the address [p] there is an array of at least [n] elements, bytes, pointers, usize, that starts with [l] *)
Definition vals_at m (p : nat) (v : list T) : Prop := exists rest, deref m p = Some (OVals (v ++ rest)).
Definition bytes_at m (p : nat) (s : string) : Prop := exists rest, deref m p = Some (OBytes (str_bytes s ++ rest)).
Definition ptrs_at m (p : nat) (l : list nat) : Prop := exists rest, deref m p = Some (OPtrs (l ++ rest)).
Definition ids_at m (p : nat) (l : list dataid) : Prop := exists rest, deref m p = Some (OIds (l ++ rest)).
(** an index *)
Definition index_at m (p : nat) (D : cdist (T:=T)) (h : hnsw (T:=T)) : Prop := deref m p = Some (OIndex D h).

(** all that was in memory is still there *)
Definition kept m m' : Prop := forall p o, deref m p = Some o -> deref m' p = Some o.

(** A C program finds at [r] a Neighbourhood_api: a count, and a pointer to as many (id, distance) *)
Definition neighbourhood_at m (r : nat) (l : list (dataid * Z)) : Prop :=
  exists p, deref m r = Some (OHood (Z.of_nat (length l)) p) /\ deref m p = Some (ONbrs l).
(** A C program finds at [r] a Vec_api: a count, and a pointer to as many Neighbourhood_api *)
Definition neighbourhoods_at m (r : nat) (ls : list (list (dataid * Z))) : Prop :=
  exists p hs, deref m r = Some (OVec (Z.of_nat (length ls)) p) /\ deref m p = Some (OHoods hs) /\
    Forall2 (fun hood l => hood.1 = Z.of_nat (length l) /\ deref m hood.2 = Some (ONbrs l)) hs ls.

(** ids and distances of an answer of Hnsw::search *)
Definition answers (ns : list neighbour) : list (dataid * Z) := (fun n => (d_id n, distance n)) <$> ns.

(** a DescriptionFFI with its names *)
Definition description_at m (r : nat) (mode nb_conn nb_layer ef nb_point dim : N) (dname tname : string) : Prop :=
  exists p1 p2, deref m r = Some (ODesc (DescriptionFFI mode nb_conn nb_layer ef nb_point dim
      (N.of_nat (length (str_bytes dname))) p1 (N.of_nat (length (str_bytes tname))) p2)) /\
    deref m p1 = Some (OBytes (str_bytes dname)) /\ deref m p2 = Some (OBytes (str_bytes tname)).

(** ** Runs of a C program *)

(** what the C program may write itself *)
Definition own (o : cobj (T:=T)) : Prop :=
  match o with OBytes _ | OVals _ | OPtrs _ | OIds _ => True | _ => False end.

Inductive event : Type :=
| EvNew (p : nat) (D : cdist (T:=T)) (M ml ef : nat)
| EvInsert (p : nat) (v : list T) (id : dataid)
| EvParallel (p : nat) (vs : list (list T * dataid))
| EvOther.

(** [c_run evs m fs]: a program that starts with an empty memory and calls the C functions, one at a time, can come to the
    memory [m] and the file system [fs]. [evs] lists the indexes made and the vectors inserted (the content of the program's
    buffers at the time of the call). The program may do anything with its own buffers, and the files may change at any time. *)
Inductive c_run : list event -> list (option (cobj (T:=T))) -> fsys -> Prop :=
| run_start fs : c_run [] [] fs
| run_malloc evs m fs o : c_run evs m fs -> own o -> c_run (evs ++ [EvOther]) (alloc m o).1 fs
| run_write evs m fs p o o' : c_run evs m fs -> deref m p = Some o -> own o -> own o' ->
    c_run (evs ++ [EvOther]) (store m p (Some o')) fs
| run_free evs m fs p o : c_run evs m fs -> deref m p = Some o -> own o -> c_run (evs ++ [EvOther]) (store m p None) fs
| run_files evs m fs fs' : c_run evs m fs -> c_run (evs ++ [EvOther]) m fs'
| run_init evs m fs M ef d p m' r : c_run evs m fs -> bytes_at m p d ->
    c_init t inv_ln m M ef (N.of_nat (length (str_bytes d))) p = Ok (m', r) ->
    c_run (evs ++ [if decide (r = 0%nat) then EvOther else EvNew r (Named d) M 16 ef]) m' fs
| run_new evs m fs M ef d p ml m' r : c_run evs m fs -> bytes_at m p d ->
    c_new t inv_ln m M ef (N.of_nat (length (str_bytes d))) p ml = Ok (m', r) ->
    c_run (evs ++ [if decide (r = 0%nat) then EvOther else EvNew r (Named d) M ml ef]) m' fs
| run_ptrdist evs m fs M ef f m' r : c_run evs m fs ->
    c_init_ptrdist inv_ln m M ef f = Ok (m', r) -> c_run (evs ++ [EvNew r (CFun f) M 16 ef]) m' fs
| run_drop evs m fs p m' : c_run evs m fs -> c_drop m p = Ok m' -> c_run (evs ++ [EvOther]) m' fs
| run_insert evs m fs p v q id d m' : c_run evs m fs -> vals_at m q v ->
    c_insert dist_of so m p (N.of_nat (length v)) q id d = Ok m' -> c_run (evs ++ [EvInsert p v id]) m' fs
| run_parallel_insert evs m fs p (vs : list (list T * dataid)) ptrs len pp ip ds m' : c_run evs m fs ->
    ptrs_at m pp ptrs -> ids_at m ip vs.*2 -> Forall2 (vals_at m) ptrs vs.*1 -> Forall (fun v => length v = len) vs.*1 ->
    c_parallel_insert dist_of so m p (N.of_nat (length vs)) (N.of_nat len) pp ip ds m' ->
    c_run (evs ++ [EvParallel p vs]) m' fs
| run_search evs m fs p len q k e m' r : c_run evs m fs -> c_search dist_of so m p len q k e = Ok (m', r) ->
    c_run (evs ++ [EvOther]) m' fs
| run_parallel_search evs m fs arrival p n len q k e m' r : c_run evs m fs ->
    c_parallel_search dist_of so arrival m p n len q k e = Ok (m', r) -> c_run (evs ++ [EvOther]) m' fs
| run_dump evs m fs draws p len f fs' r : c_run evs m fs -> c_file_dump el cwd m fs draws p len f = Ok (fs', r) ->
    c_run (evs ++ [EvOther]) m fs'
| run_hnswio evs m fs len f m' r : c_run evs m fs -> c_get_hnswio m len f = Ok (m', r) -> c_run (evs ++ [EvOther]) m' fs
| run_load evs m fs d p m' r : c_run evs m fs -> d ∈ load_names t -> c_load so el inv_ln cwd d m fs p = Ok (m', r) ->
    c_run (evs ++ [EvOther]) m' fs
| run_description evs m fs fpath len p m' r : c_run evs m fs -> c_load_description cwd fpath m fs len p = Ok (m', r) ->
    c_run (evs ++ [EvOther]) m' fs.

(** the (vector, id) inserted through the pointer [p] *)
Definition inserted (p : nat) (evs : list event) : list (list T * dataid) :=
  concat ((fun e => match e with
     | EvInsert p' v id => if decide (p' = p) then [(v, id)] else []
     | EvParallel p' vs => if decide (p' = p) then vs else []
     | _ => [] end) <$> evs).

(** a parallel insertion never came first (see C45) *)
Definition parallel_later (p : nat) (evs : list event) : Prop :=
  forall l1 l2 vs, evs = l1 ++ EvParallel p vs :: l2 -> inserted p l1 <> [].

End SpecFfi.
