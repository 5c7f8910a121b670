(** Several calls of file_dump at once, of threads or of processes that use the same file system: the calls to the operating system
    of DumpInit::new and of the two writers, in any order. *)
From Coq Require Import Strings.Byte Strings.String.
From stdpp Require Import strings relations.
From Verif Require Import Prelude Model Io.
Local Open Scope list_scope.

(** A call of file_dump: the name of the distance, the directory, the base name asked for, the numbers the call will draw, the index. Nothing
    is inserted in the index while it is dumped. *)
Record job {T : Type} : Type := Job {
  j_el : elem T; j_dname : string; j_dir : path; j_base : string; j_draws : list N; j_index : hnsw (T:=T)
}.
Arguments job : clear implicits.
Arguments Job {T}.

(** where a call is (api.rs l.69-86, hnswio.rs l.153-235) *)
Inductive stage : Type :=
| Begun                                   (* nothing done *)
| Picking (draws : list N)                (* hnswio.rs l.166-183: in the loop that looks for a free name *)
| Named (name : string)                   (* l.193: the base name is chosen *)
| HalfOpen (name : string)                (* l.198-202: the graph file is open *)
| Writing (name : string) (g d : bytes)   (* l.218-222: both are open; what is still to be written to each *)
| Returned (name : string) (r : outcome unit).

(** write(2) at position [o] of a file: the bytes before it that were never written read as zeros *)
Definition write_at (c : bytes) (o : nat) (b : bytes) : bytes :=
  take o (c ++ replicate (o - length c) x00) ++ b ++ drop (o + length b) c.
Definition fs_write_at (fs : fsys) (cwd : list string) (p : path) (o : nat) (b : bytes) : fsys :=
  fs_write fs cwd p (write_at (default [] (fs_read fs cwd p)) o b).

Section Dumps.
Context {T : Type} (cwd : list string).

(** what the call writes (hnswio.rs l.1357-1389) *)
Definition j_out (j : job T) : written := dump (j_el j) (j_dname j) (j_index j) Full.

(** One call to the operating system, or the return. Each open truncates (l.198-202, l.218-222); a writer writes where it is in its
    file. The writes are any cut of the bytes in pieces, whatever is in the buffer of the other file: this allows more than BufWriter does. Opens and
    writes do not fail here. *)
Inductive job_step (j : job T) : fsys -> stage -> fsys -> stage -> Prop :=
| js_overwrite fs : datamap_opt (j_index j) = false -> job_step j fs Begun fs (Named (j_base j))                    (* l.158 *)
| js_absent fs : datamap_opt (j_index j) = true -> fs_read fs cwd (data_file (j_dir j) (j_base j)) = None ->
    job_step j fs Begun fs (Named (j_base j))                                                                      (* l.165, l.186 *)
| js_present fs b : datamap_opt (j_index j) = true -> fs_read fs cwd (data_file (j_dir j) (j_base j)) = Some b ->
    job_step j fs Begun fs (Picking (j_draws j))                                                                   (* l.165 *)
| js_free fs id l : fs_read fs cwd (data_file (j_dir j) (suffixed (j_base j) id)) = None ->
    job_step j fs (Picking (id :: l)) fs (Named (suffixed (j_base j) id))                                          (* l.179-182 *)
| js_taken fs id l b : fs_read fs cwd (data_file (j_dir j) (suffixed (j_base j) id)) = Some b ->
    job_step j fs (Picking (id :: l)) fs (Picking l)                                                               (* l.179 *)
| js_open_graph fs name : job_step j fs (Named name) (fs_write fs cwd (graph_file (j_dir j) name) []) (HalfOpen name)
| js_open_data fs name :
    job_step j fs (HalfOpen name) (fs_write fs cwd (data_file (j_dir j) name) []) (Writing name (w_graph (j_out j)) (w_data (j_out j)))
| js_write_graph fs name b g d : b <> [] ->
    job_step j fs (Writing name (b ++ g) d)
      (fs_write_at fs cwd (graph_file (j_dir j) name) (length (w_graph (j_out j)) - length (b ++ g)) b) (Writing name g d)
| js_write_data fs name b g d : b <> [] ->
    job_step j fs (Writing name g (b ++ d))
      (fs_write_at fs cwd (data_file (j_dir j) name) (length (w_data (j_out j)) - length (b ++ d)) b) (Writing name g d)
| js_return fs name : job_step j fs (Writing name [] []) fs (Returned name (w_res (j_out j))).

(** the file system and the calls, each with its stage; one of the calls makes a step *)
Definition dumps : Type := fsys * list (job T * stage).
Inductive dstep : dumps -> dumps -> Prop :=
| dstep_at fs fs' i j s s' ss : ss !! i = Some (j, s) -> job_step j fs s fs' s' -> dstep (fs, ss) (fs', <[i := (j, s')]> ss).
(** the calls begin *)
Definition begin (js : list (job T)) : list (job T * stage) := (fun j => (j, Begun)) <$> js.

(** The next step of a call whose dump fits in the buffers of the writers: all is written when they are flushed, the data first (hnswio.rs
    l.246-250). *)
Definition job_next (j : job T) (fs : fsys) (s : stage) : option (fsys * stage) :=
  match s with
  | Begun =>
      if datamap_opt (j_index j) then
        match fs_read fs cwd (data_file (j_dir j) (j_base j)) with
        | None => Some (fs, Named (j_base j))
        | Some _ => Some (fs, Picking (j_draws j))
        end
      else Some (fs, Named (j_base j))
  | Picking [] => None
  | Picking (id :: l) =>
      match fs_read fs cwd (data_file (j_dir j) (suffixed (j_base j) id)) with
      | None => Some (fs, Named (suffixed (j_base j) id))
      | Some _ => Some (fs, Picking l)
      end
  | Named name => Some (fs_write fs cwd (graph_file (j_dir j) name) [], HalfOpen name)
  | HalfOpen name => Some (fs_write fs cwd (data_file (j_dir j) name) [], Writing name (w_graph (j_out j)) (w_data (j_out j)))
  | Writing name g (b :: d) =>
      Some (fs_write_at fs cwd (data_file (j_dir j) name) (length (w_data (j_out j)) - length (b :: d)) (b :: d), Writing name g [])
  | Writing name (b :: g) [] =>
      Some (fs_write_at fs cwd (graph_file (j_dir j) name) (length (w_graph (j_out j)) - length (b :: g)) (b :: g), Writing name [] [])
  | Writing name [] [] => Some (fs, Returned name (w_res (j_out j)))
  | Returned _ _ => None
  end.
(** the calls named in the list make such a step, one after the other *)
Fixpoint play_dumps (l : list nat) (x : dumps) : dumps :=
  match l with
  | [] => x
  | i :: l' =>
      match x.2 !! i with
      | Some (j, s) => match job_next j x.1 s with Some (fs', s') => play_dumps l' (fs', <[i := (j, s')]> x.2) | None => x end
      | None => x
      end
  end.
End Dumps.
