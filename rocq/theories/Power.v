(** A power failure during or after calls of file_dump (`Dumps.v`). Neither api.rs l.69-86 nor hnswio.rs l.155-250 asks the system to write the files to
    the disk (no call of sync_all): the operating system does it later, file by file. *)
From Coq Require Import Strings.Byte Strings.String.
From stdpp Require Import strings.
From Verif Require Import Prelude Model Io Dumps.
Local Open Scope list_scope.

(** What may be found in a file after the failure, given what it contained before the calls and what it contains when the power fails: *)

(** a system that writes the bytes of a file in order: nothing was written to the disk yet, or a beginning of the file was *)
Definition in_order (before now after : option bytes) : Prop :=
  after = before \/ exists p t, now = Some (p ++ t) /\ after = Some p.
(** a system that writes the blocks of [n] bytes of a file in any order: a block that was not written is read as zeros *)
Definition by_blocks (n : nat) (before now after : option bytes) : Prop :=
  after = before \/
  exists c a, now = Some c /\ after = Some a /\ (length a <= length c)%nat /\
    forall b, (forall k, (k / n)%nat = b -> (k < length a)%nat -> a !! k = c !! k) \/
              (forall k, (k / n)%nat = b -> (k < length a)%nat -> a !! k = Some x00).

(** the base name of the files a call has opened; the call has opened the file at [loc] *)
Definition opened_name (s : stage) : option string :=
  match s with HalfOpen n | Writing n _ _ | Returned n _ => Some n | _ => None end.
Definition has_opened {T} (cwd : list string) (j : job T) (s : stage) (loc : list string) : Prop :=
  exists n, opened_name s = Some n /\ (loc = resolve cwd (graph_file (j_dir j) n) \/ loc = resolve cwd (data_file (j_dir j) n)).

(** The files after the failure. Only those that were opened since [fs] may have lost something, each for itself. *)
Definition power_failure {T} (S : option bytes -> option bytes -> option bytes -> Prop) (cwd : list string) (ss : list (job T * stage)) (fs fs' after : fsys) : Prop :=
  forall loc, after loc = fs' loc \/ (exists j s, (j, s) ∈ ss /\ has_opened cwd j s loc) /\ S (fs loc) (fs' loc) (after loc).
