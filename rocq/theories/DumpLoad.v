(** A reload at the same time as dumps (`Dumps.v`): the loader opens and reads the two files while the calls of file_dump go on. *)
From Coq Require Import Strings.Byte Strings.String.
From stdpp Require Import strings relations.
From Verif Require Import Prelude Model Io Dumps.
Local Open Scope list_scope.

(** what the loader has read of each file, once the file is open *)
Record reading : Type := Reading { rg_graph : option bytes; rg_data : option bytes }.
Definition not_open : reading := Reading None None.

Section DumpLoad.
Context {T : Type} (cwd : list string) (dir : path) (name : string).

(** A call to the operating system by load_hnsw: the graph file is opened, then the data file (hnswio.rs l.363-405 init); a read gives any part of what follows in
    the file at that moment. The loader fails when a read finds the end of the file; here it may also end at any other moment, which only adds failures. *)
Inductive read_step (fs : fsys) : reading -> reading -> Prop :=
| rs_open_graph c : fs_read fs cwd (graph_file dir name) = Some c -> read_step fs (Reading None None) (Reading (Some []) None)
| rs_open_data c g : fs_read fs cwd (data_file dir name) = Some c -> read_step fs (Reading (Some g) None) (Reading (Some g) (Some []))
| rs_read_graph c g d b rest : fs_read fs cwd (graph_file dir name) = Some c -> drop (length g) c = b ++ rest ->
    read_step fs (Reading (Some g) (Some d)) (Reading (Some (g ++ b)) (Some d))
| rs_read_data c g d b rest : fs_read fs cwd (data_file dir name) = Some c -> drop (length d) c = b ++ rest ->
    read_step fs (Reading (Some g) (Some d)) (Reading (Some g) (Some (d ++ b))).

(** a step of one of the dumps, or of the loader *)
Inductive wstep : dumps (T:=T) * reading -> dumps (T:=T) * reading -> Prop :=
| wstep_dump x x' r : dstep cwd x x' -> wstep (x, r) (x', r)
| wstep_read x r r' : read_step x.1 r r' -> wstep (x, r) (x, r').
End DumpLoad.

(** hnswio.rs l.413-500 load_hnsw, with the default options, on what was read (see [load_hnsw]) *)
Definition load_read {T} (so : StdOps) (el : elem T) (inv_ln : nat -> f64) (dname : string) (r : reading) : outcome (hnsw (T:=T) * list pid) :=
  match r with
  | Reading (Some g) (Some d) => run_rd (load_rd so el inv_ln dname None ro_default Err) g d
  | _ => Err
  end.
(** hnswio.rs l.530-613 load_hnsw_with_dist likewise *)
Definition load_read_with_dist {T} (so : StdOps) (el : elem T) (inv_ln : nat -> f64) (dname : string) (r : reading) : outcome (hnsw (T:=T) * list pid) :=
  match r with
  | Reading (Some g) (Some d) => run_rd (load_with_dist_rd so el inv_ln dname None ro_default) g d
  | _ => Err
  end.

(** Given steps, for the examples: the next step of a call as in [job_next], a write of [n] bytes by a call, an open by the loader, a read of at most [n] bytes. *)
Inductive action : Type :=
| ANext (i : nat) | AGraph (i n : nat) | AData (i n : nat) | AOpenGraph | AOpenData | AReadGraph (n : nat) | AReadData (n : nat).
Definition act_on {T} (cwd : list string) (dir : path) (name : string) (a : action) (x : dumps (T:=T) * reading) : option (dumps (T:=T) * reading) :=
  let '((fs, ss), r) := x in
  match a with
  | ANext i => '(j, s) ← ss !! i; '(fs', s') ← job_next cwd j fs s; Some ((fs', <[i := (j, s')]> ss), r)
  | AGraph i n =>
      match ss !! i with
      | Some (j, Writing nm g d) =>
          match take n g with
          | [] => None
          | b => Some ((fs_write_at fs cwd (graph_file (j_dir j) nm) (length (w_graph (j_out j)) - length g) b, <[i := (j, Writing nm (drop n g) d)]> ss), r)
          end
      | _ => None
      end
  | AData i n =>
      match ss !! i with
      | Some (j, Writing nm g d) =>
          match take n d with
          | [] => None
          | b => Some ((fs_write_at fs cwd (data_file (j_dir j) nm) (length (w_data (j_out j)) - length d) b, <[i := (j, Writing nm g (drop n d))]> ss), r)
          end
      | _ => None
      end
  | AOpenGraph =>
      match r, fs_read fs cwd (graph_file dir name) with Reading None None, Some _ => Some ((fs, ss), Reading (Some []) None) | _, _ => None end
  | AOpenData =>
      match r, fs_read fs cwd (data_file dir name) with Reading (Some g) None, Some _ => Some ((fs, ss), Reading (Some g) (Some [])) | _, _ => None end
  | AReadGraph n =>
      match r, fs_read fs cwd (graph_file dir name) with
      | Reading (Some g) (Some d), Some c => Some ((fs, ss), Reading (Some (g ++ take n (drop (length g) c))) (Some d))
      | _, _ => None
      end
  | AReadData n =>
      match r, fs_read fs cwd (data_file dir name) with
      | Reading (Some g) (Some d), Some c => Some ((fs, ss), Reading (Some g) (Some (d ++ take n (drop (length d) c))))
      | _, _ => None
      end
  end.
Fixpoint act_all {T} (cwd : list string) (dir : path) (name : string) (l : list action) (x : dumps (T:=T) * reading) : option (dumps (T:=T) * reading) :=
  match l with
  | [] => Some x
  | a :: l' => y ← act_on cwd dir name a x; act_all cwd dir name l' y
  end.
