(** Successive generations of an index: dumped, reloaded, dumped again. *)
From Coq Require Import Strings.String.
From Verif Require Import Prelude Model Io SpecIo.

Section Gen.
Context {T : Type} (so : StdOps) (el : elem T) (inv_ln : nat -> f64) (dname : string) (cwd : list string)
  (hist : list (list T * dataid)).

(** [cycle h h']: [h] was dumped with file_dump, which returned Ok, under some base name in some directory, whatever was on the disk; and
    [h'] was obtained from the two files, by load_hnsw (with any options, but mapped vectors only if the ids are different and the
    directory is absolute or the working directory, see C34 and C55) or by load_hnsw_with_dist. *)
Definition cycle (h h' : hnsw (T:=T)) : Prop :=
  exists fs dir base draws fs' name, file_dump el dname cwd fs dir base draws h = (fs', Ok name) /\
    ((exists opts mapped, (ro_datamap opts = true -> distinct_ids hist /\ plain_dir dir) /\
        load_hnsw so el inv_ln dname cwd fs' (io_new_with_options dir name opts) = Ok (h', mapped)) \/
     (exists mapped, load_hnsw_with_dist so el inv_ln dname cwd fs' (io_new dir name) = Ok (h', mapped))).

(** [n] cycles one after the other *)
Inductive cycles : nat -> hnsw (T:=T) -> hnsw (T:=T) -> Prop :=
| cycles_0 h : cycles 0 h h
| cycles_S n h h1 h2 : cycles n h h1 -> cycle h1 h2 -> cycles (S n) h h2.
End Gen.
