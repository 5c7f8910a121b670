(** What may happen to the files while an index is mapped on one of them. *)
From Coq Require Import Strings.String.
From stdpp Require Import strings.
From Verif Require Import Prelude Model Io Spec.
Local Open Scope list_scope.

(** One change of the files, [loc] being the location of the mapped file:
    a dump of an index that was itself made by load_hnsw (of whatever files, mapped or not), under any name, even the one of
    the mapped file; a dump of any index under a name that is not the one of the mapped file; any change of other files. *)
Inductive calm (loc : list string) : fsys -> fsys -> Prop :=
| calm_reloaded {T} (dist : list T -> list T -> Z) so (el : elem T) inv_ln cwd0 fs0 io h0 mapped h dname dname' cwd fs dir base draws fs' r :
    load_hnsw so el inv_ln dname cwd0 fs0 io = Ok (h0, mapped) -> evolves dist so h0 h ->
    file_dump el dname' cwd fs dir base draws h = (fs', r) -> calm loc fs fs'
| calm_elsewhere {T} (el : elem T) h dname cwd fs dir base draws fs' r :
    (forall name, name = base \/ (exists id, name = suffixed base id) -> resolve cwd (data_file dir name) <> loc) ->
    file_dump el dname cwd fs dir base draws h = (fs', r) -> calm loc fs fs'
| calm_other fs fs' : fs' loc = fs loc -> calm loc fs fs'.
