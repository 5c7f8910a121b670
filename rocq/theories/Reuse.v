(** Model of one HnswIo used for several reloads (hnswio.rs). [load_hnsw] and [load_hnsw_with_dist] of Io.v say what a load
    returns; this file says what the first leaves in the HnswIo. load_hnsw takes the HnswIo by [&'a mut self] with ['a: 'b],
    'b being the lifetime of the index returned (l.431-436): the HnswIo can be used again when this index has been dropped.
    load_hnsw_with_dist takes it by [&self] (l.531) and leaves it as it is. *)
From Coq Require Import SpecFloat Strings.Byte Strings.String.
From stdpp Require Import strings.
From Verif Require Import Prelude Model Io.
Local Open Scope list_scope.

Section Reuse.
Context {T : Type} (el : elem T).

(** hnswio.rs l.441-502: load_hnsw up to the point where self.datamap may be set; the value is the data map the HnswIo has
    then. Errors and panics before that point leave the HnswIo as it was, as does what comes after it. *)
Definition map_rd (dname : string) (prev : option datamap) (opts : reload_options) (mk : outcome datamap)
    : rd (option datamap) :=
  de <~ load_header;
  same <~ (if el_nodata el then rret true
           else
             a <~ rlift (unwrap (rsplit_terminator dname !! 0));
             b <~ rlift (unwrap (rsplit_terminator (de_distname de) !! 0));
             rret (bool_decide (a = b)));
  if negb (same : bool) then rret prev
  else rlift (choose_datamap prev opts mk).

(** hnswio.rs l.431-524: the HnswIo after load_hnsw, whatever load_hnsw returned (if the process goes on: a panic may be
    caught). A mapping is a picture of the data file at the time it was made: that is the case when another
    file is later moved to its place; the mapping of a file that is overwritten (as a dump of the same name does) is the
    subject of View.v. *)
Definition io_after_load (dname : string) (cwd : list string) (fs : fsys) (io : hnswio) : hnswio :=
  match io_open cwd fs io with
  | Ok (g, d) =>
      match run_rd (map_rd dname (io_datamap io) (io_options io)
                      (from_hnswdump el cwd fs (io_dir io) (io_basename io))) g d with
      | Ok dm => HnswIo (io_dir io) (io_basename io) (io_options io) dm (io_initialized io)
      | _ => io
      end
  | _ => io
  end.
End Reuse.

(** A HnswIo made for directory [dir] and base name [base], with any number of changes of options and of loads, of any type,
    of whatever the files contained at the time. *)
Inductive reused (dir : path) (base : string) : hnswio -> Prop :=
| reused_new : reused dir base (io_new dir base)
| reused_with o : reused dir base (io_new_with_options dir base o)
| reused_values o io : io_set_values io_default dir base o = Ok io -> reused dir base io
| reused_options io o : reused dir base io -> reused dir base (io_set_options io o)
| reused_load {T} (el : elem T) dname cwd fs io : reused dir base io -> reused dir base (io_after_load el dname cwd fs io).
