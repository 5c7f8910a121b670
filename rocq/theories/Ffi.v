(** Model of the C interface, src/libext.rs and src/api.rs of /repo.

    The functions of libext.rs are instances of macros, one per element type; here they are written once, for an element
    type [T] described by [el], with the table of the distance names that each type knows. *)
From Coq Require Import Strings.String Strings.Byte.
From stdpp Require Import strings.
From Verif Require Import Prelude Model Io Conc SpecConc.
Local Open Scope string_scope.
Local Open Scope list_scope.
Notation length := List.length.

(* ------------------------------------------------------------------ *)
(** * Types and distances *)

(** the element types of the C functions (HnswApif64, l.103, has no function) *)
Inductive ctype : Type := F32 | I32 | U32 | U16 | U8 | NODATA.

(** the distance names accepted by init_hnsw_f32 (l.455-519), init_hnsw_i32 (l.775-806), init_hnsw_u32 (l.839-877),
    init_hnsw_u16 (l.910-955), init_hnsw_u8 (l.1054-1091); new_hnsw_f32 (l.529-617) and new_hnsw_u16 (l.960-1023) accept
    the same names as init_hnsw_f32 and init_hnsw_u16 *)
Definition init_names (t : ctype) : list string :=
  match t with
  | F32 => ["DistL1"; "DistL2"; "DistDot"; "DistHellinger"; "DistJeffreys"; "DistJensenShannon"]
  | I32 => ["DistL1"; "DistL2"; "DistHamming"]
  | U32 => ["DistL1"; "DistL2"; "DistJaccard"; "DistHamming"]
  | U16 => ["DistL1"; "DistL2"; "DistHamming"; "DistJaccard"; "DistLevenshtein"]
  | U8 => ["DistL1"; "DistL2"; "DistHamming"; "DistJaccard"]
  | NODATA => []
  end.

(** the distances for which there is a load_hnswdump function, l.305-447 (its name is in the function's name) *)
Definition load_names (t : ctype) : list string :=
  match t with
  | F32 => ["DistL1"; "DistL2"; "DistCosine"; "DistDot"; "DistJensenShannon"; "DistJeffreys"]
  | I32 => ["DistL1"; "DistL2"; "DistHamming"]
  | U32 => ["DistL1"; "DistL2"; "DistHamming"; "DistJaccard"]
  | U16 => ["DistL1"; "DistL2"; "DistHamming"; "DistLevenshtein"]
  | U8 => ["DistL1"; "DistL2"; "DistHamming"; "DistJaccard"]
  | NODATA => ["NoDist"]
  end.

(** String::from_utf8_lossy. Simplification: in a name that is not UTF-8, Rust replaces the ill-formed parts by U+FFFD; here
    every byte that is not ASCII is. *)
Definition from_utf8_lossy (b : bytes) : string :=
  if utf8_valid b then bytes_str b
  else bytes_str (concat ((fun x => if (Byte.to_N x <? 128)%N then [x] else [xef; xbf; xbd]) <$> b)).

(** [x as usize] of an i64 *)
Definition as_usize (z : Z) : N := Z.to_N (z mod 2 ^ 64).

(** what std::any::type_name gives for a distance of anndists *)
Definition dist_type_name (d : string) : string := "anndists::dist::distances::" +:+ d.

(** l.1117-1136 DescriptionFFI, names as (length, pointer) *)
Record description_ffi : Type := DescriptionFFI {
  df_dumpmode : N;
  df_max_nb_connection : N;
  df_nb_layer : N;
  df_ef : N;
  df_nb_point : N;
  df_data_dimension : N;
  df_distname_len : N;
  df_distname : nat;
  df_t_name_len : N;
  df_t_name : nat
}.
(** l.1146-1159 DescriptionFFI::new *)
Definition description_ffi_new : description_ffi := DescriptionFFI 0 0 0 0 0 0 0 0 0 0.

(* ------------------------------------------------------------------ *)
(** * Memory *)
Section Ffi.
Context {T : Type} (dist_of : string -> list T -> list T -> Z) (so : StdOps) (el : elem T) (t : ctype)
  (inv_ln : nat -> f64) (cwd : list string).

(** a pointer to the start of an allocated object; 0 is null. Pointers into the middle of an object are not modelled. *)
Notation ptr := nat.

(** The distance of an index: one of anndists by its name, or a C function (DistCFFI, l.636-648 and alike) *)
Inductive cdist : Type := Named (d : string) | CFun (f : list T -> list T -> Z).
Definition cdist_fun (d : cdist) : list T -> list T -> Z := match d with Named s => dist_of s | CFun f => f end.
Definition cdist_name (d : cdist) : string :=
  match d with Named s => dist_type_name s | CFun _ => dist_type_name "DistCFFI<" +:+ el_name el +:+ ">" end.

(** What memory holds at an address. Arrays of bytes, of elements, of pointers to elements and of usize belong to the C program
    (and the names of a description). The others are made by the library: an array of Neighbour_api (l.67-72, id and distance),
    a Neighbourhood_api (l.85-88), an array of them, a Vec_api (l.59-62), a HnswApi (l.43-46) with its index, a HnswIo and a
    DescriptionFFI. *)
Inductive cobj : Type :=
| OBytes (b : bytes)
| OVals (v : list T)
| OPtrs (l : list ptr)
| OIds (l : list dataid)
| ONbrs (l : list (dataid * Z))
| OHood (nbgh : Z) (neighbours : ptr)
| OHoods (l : list (Z * ptr))
| OVec (len : Z) (p : ptr)
| OIndex (d : cdist) (h : hnsw (T:=T))
| OIo (io : hnswio)
| ODesc (d : description_ffi).

Notation mem := (list (option cobj)).
Definition deref (m : mem) (p : ptr) : option cobj := match p with O => None | S i => mjoin (m !! i) end.
(** Box::new, and a vector that is forgotten: a new object *)
Definition alloc (m : mem) (o : cobj) : mem * ptr := (m ++ [Some o], S (length m)).
Definition store (m : mem) (p : ptr) (o : option cobj) : mem := match p with O => m | S i => <[i := o]> m end.

(** std::slice::from_raw_parts, for each type of element: undefined behaviour unless there are at least [n] of them *)
Definition slice_of {A} (n : N) (l : option (list A)) : outcome (list A) :=
  match l with Some l => if (n <=? N.of_nat (length l))%N then Ok (take (N.to_nat n) l) else UB | None => UB end.
Definition raw_bytes (m : mem) (p : ptr) (n : N) : outcome bytes :=
  slice_of n (match deref m p with Some (OBytes b) => Some b | _ => None end).
Definition raw_vals (m : mem) (p : ptr) (n : N) : outcome (list T) :=
  slice_of n (match deref m p with Some (OVals v) => Some v | _ => None end).
Definition raw_ptrs (m : mem) (p : ptr) (n : N) : outcome (list ptr) :=
  slice_of n (match deref m p with Some (OPtrs l) => Some l | _ => None end).
Definition raw_ids (m : mem) (p : ptr) (n : N) : outcome (list dataid) :=
  slice_of n (match deref m p with Some (OIds l) => Some l | _ => None end).
(** [*hnsw_api] and [*hnswio_c] *)
Definition the_index (m : mem) (p : ptr) : outcome (cdist * hnsw (T:=T)) :=
  match deref m p with Some (OIndex d h) => Ok (d, h) | _ => UB end.
Definition the_io (m : mem) (p : ptr) : outcome hnswio :=
  match deref m p with Some (OIo io) => Ok io | _ => UB end.

(* ------------------------------------------------------------------ *)
(** * Making and dropping an index *)

(** new_hnsw_f32 (l.529-617), new_hnsw_u16 (l.960-1023); max_elements only sets the capacity of vectors *)
Definition c_new (m : mem) (max_nb_conn ef_const : nat) (namelen : N) (cdistname : ptr) (max_layer : nat)
    : outcome (mem * ptr) :=
  b ← raw_bytes m cdistname namelen;
  let dname := from_utf8_lossy b in
  if decide (dname ∈ init_names t) then
    h ← hnsw_new inv_ln max_nb_conn max_layer ef_const;
    Ok (alloc m (OIndex (Named dname) h))
  else Ok (m, 0%nat).
(** init_hnsw_f32 and alike (see [init_names]) *)
Definition c_init (m : mem) (max_nb_conn ef_const : nat) (namelen : N) (cdistname : ptr) : outcome (mem * ptr) :=
  c_new m max_nb_conn ef_const namelen cdistname 16.
(** init_hnsw_ptrdist_f32 and alike: l.636-648, l.809-822, l.880-892, l.1026-1038, l.1094-1106 *)
Definition c_init_ptrdist (m : mem) (max_nb_conn ef_const : nat) (c_func : list T -> list T -> Z) : outcome (mem * ptr) :=
  h ← hnsw_new inv_ln max_nb_conn 16 ef_const;
  Ok (alloc m (OIndex (CFun c_func) h)).
(** l.623 drop_hnsw_f32, l.631 drop_hnsw_u16 *)
Definition c_drop (m : mem) (p : ptr) : outcome mem :=
  _ ← the_index m p;
  Ok (store m p None).

(* ------------------------------------------------------------------ *)
(** * Insertion, generate_insert (l.106-125) and generate_parallel_insert (l.127-167); for f32 l.654-715 *)
Definition c_insert (m : mem) (hnsw_api : ptr) (len : N) (data : ptr) (id : dataid) (d : draw) : outcome mem :=
  data_v ← raw_vals m data len;
  '(D, h) ← the_index m hnsw_api;
  h' ← insert_slice (cdist_fun D) so h data_v id d;
  Ok (store m hnsw_api (Some (OIndex D h'))).

Definition c_requests (m : mem) (nb_vec vec_len : N) (datas ids : ptr) : outcome (list (list T * dataid)) :=
  data_ids ← raw_ids m ids nb_vec;
  data_ptrs ← raw_ptrs m datas nb_vec;
  data_v ← mapM (fun i => p ← unwrap (data_ptrs !! i); raw_vals m p vec_len) (seq 0 (N.to_nat nb_vec));
  mapM (fun i => v ← unwrap (data_v !! i); id ← unwrap (data_ids !! i); Ok (v, id)) (seq 0 (N.to_nat nb_vec)).
(** the insertions run on the threads of a pool: any interleaving in which all return *)
Inductive c_parallel_insert (m : mem) (hnsw_api : ptr) (nb_vec vec_len : N) (datas ids : ptr) (ds : list draw) : mem -> Prop :=
| c_parallel_insert_intro D h vs h' rs :
    c_requests m nb_vec vec_len datas ids = Ok vs -> the_index m hnsw_api = Ok (D, h) -> length ds = length vs ->
    after (cdist_fun D) so h (parallel_insert vs ds) h' rs ->
    c_parallel_insert m hnsw_api nb_vec vec_len datas ids ds (store m hnsw_api (Some (OIndex D h'))).

(* ------------------------------------------------------------------ *)
(** * Search, generate_search_neighbours (l.169-203, for f32 l.721-763) *)

(** l.74-81 From<&Neighbour> for Neighbour_api *)
Definition neighbour_api (n : neighbour) : dataid * Z := (d_id n, distance n).

Definition c_search (m : mem) (hnsw_api : ptr) (len : N) (data : ptr) (knbn ef_search : nat) : outcome (mem * ptr) :=
  data_v ← raw_vals m data len;
  '(D, h) ← the_index m hnsw_api;
  neighbours ← search (cdist_fun D) so h data_v knbn ef_search;
  let '(m1, neighbours_ptr) := alloc m (ONbrs (neighbour_api <$> neighbours)) in
  Ok (alloc m1 (OHood (as_i64 (N.of_nat (length neighbours))) neighbours_ptr)).

(** generate_parallel_search_neighbours (l.205-254), the loop l.233-243 *)
Fixpoint c_lists (m : mem) (ns : list (list neighbour)) : mem * list (Z * ptr) :=
  match ns with
  | [] => (m, [])
  | v :: ns =>
      let '(m1, p) := alloc m (ONbrs (neighbour_api <$> v)) in
      let '(m2, l) := c_lists m1 ns in
      (m2, (as_i64 (N.of_nat (length v)), p) :: l)
  end.
Definition c_parallel_search (arrival : list (nat * list neighbour) -> list (nat * list neighbour)) (m : mem)
    (hnsw_api : ptr) (nb_vec : N) (vec_len : Z) (data : ptr) (knbn ef_search : nat) : outcome (mem * ptr) :=
  ptr_list ← raw_ptrs m data nb_vec;
  data_v ← mapM (fun i => p ← unwrap (ptr_list !! i); raw_vals m p (as_usize vec_len)) (seq 0 (N.to_nat nb_vec));
  '(D, h) ← the_index m hnsw_api;
  neighbours ← parallel_search (cdist_fun D) so arrival h data_v knbn ef_search;
  let '(m1, l) := c_lists m neighbours in
  let '(m2, p) := alloc m1 (OHoods l) in
  Ok (alloc m2 (OVec (as_i64 nb_vec) p)).

(* ------------------------------------------------------------------ *)
(** * Dump and reload *)

(** "." *)
Definition here : path := Path false [].

(** generate_file_dump (l.257-276). Returns the file system and the value returned. *)
Definition c_file_dump (m : mem) (fs : fsys) (draws : list N) (hnsw_api : ptr) (namelen : N) (filename : ptr)
    : outcome (fsys * Z) :=
  b ← raw_bytes m filename namelen;
  '(D, h) ← the_index m hnsw_api;
  match file_dump el (cdist_name D) cwd fs here (from_utf8_lossy b) draws h with
  | (fs', Ok _) => Ok (fs', 1%Z)
  | (fs', Err) => Ok (fs', (-1)%Z)
  | (_, Panic) => Panic | (_, Exit) => Exit | (_, Fuel) => Fuel | (_, UB) => UB
  end.

(** l.28-33 get_hnswio *)
Definition c_get_hnswio (m : mem) (flen : N) (name : ptr) : outcome (mem * ptr) :=
  b ← raw_bytes m name flen;
  Ok (alloc m (OIo (io_new here (from_utf8_lossy b)))).

(** generate_loadhnsw (l.280-303), with the type t and the distance d of the function called. The HnswIo made by get_hnswio
    has the default options: no data map is kept in it. *)
Definition c_load (d : string) (m : mem) (fs : fsys) (hnswio_c : ptr) : outcome (mem * ptr) :=
  io ← the_io m hnswio_c;
  match load_hnsw so el inv_ln (dist_type_name d) cwd fs io with
  | Ok (h, _) => Ok (alloc m (OIndex (Named d) h))
  | Err => Ok (m, 0%nat)
  | Panic => Panic | Exit => Exit | Fuel => Fuel | UB => UB
  end.

(** l.1167-1227 load_hnsw_description: [name] is the name of a file, absolute or in the working directory. Simplification:
    a name that contains '/' is not split into components: here it is [fpath] that tells the file. *)
Definition c_load_description (fpath : string -> path) (m : mem) (fs : fsys) (flen : N) (name : ptr) : outcome (mem * ptr) :=
  b ← raw_bytes m name flen;
  match fs_read fs cwd (fpath (from_utf8_lossy b)) with
  | None => Ok (m, 0%nat)
  | Some g =>
      match run_rd load_description g [] with
      | Ok de =>
          let '(m1, distname_ptr) := alloc m (OBytes (str_bytes (de_distname de))) in
          let '(m2, t_name_ptr) := alloc m1 (OBytes (str_bytes (de_t_name de))) in
          Ok (alloc m2 (ODesc (DescriptionFFI 1 (de_max_nb_connection de) (de_nb_layer de) (de_ef de)
            (df_nb_point description_ffi_new) (de_dimension de)
            (N.of_nat (length (str_bytes (de_distname de)))) distname_ptr
            (N.of_nat (length (str_bytes (de_t_name de)))) t_name_ptr)))
      | Err => Ok (m, 0%nat)
      | Panic => Panic | Exit => Exit | Fuel => Fuel | UB => UB
      end
  end.

End Ffi.
Notation mem := (list (option cobj)).
