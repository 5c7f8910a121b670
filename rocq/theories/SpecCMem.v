(** Vocabulary for the memory of a C program: one step of a run, and what the library has put in memory. *)
From Coq Require Import Strings.String Strings.Byte.
From stdpp Require Import strings relations.
From Verif Require Import Prelude Model Io Conc SpecConc Ffi SpecFfi.
Local Open Scope list_scope.
Notation length := List.length.

Section SpecCMem.
Context {T : Type} (dist_of : string -> list T -> list T -> Z) (so : StdOps) (el : elem T) (t : ctype)
  (inv_ln : nat -> f64) (cwd : list string).
Implicit Types (m : list (option (cobj (T:=T)))).
Notation cstate := (list (event (T:=T)) * list (option (cobj (T:=T))) * fsys)%type.

(** One thing that a C program does: the cases of [c_run]. *)
Inductive c_step : cstate -> cstate -> Prop :=
| step_malloc evs m fs o : own o -> c_step (evs, m, fs) (evs ++ [EvOther], (alloc m o).1, fs)
| step_write evs m fs p o o' : deref m p = Some o -> own o -> own o' ->
    c_step (evs, m, fs) (evs ++ [EvOther], store m p (Some o'), fs)
| step_free evs m fs p o : deref m p = Some o -> own o -> c_step (evs, m, fs) (evs ++ [EvOther], store m p None, fs)
| step_files evs m fs fs' : c_step (evs, m, fs) (evs ++ [EvOther], m, fs')
| step_init evs m fs M ef d p m' r : bytes_at m p d ->
    c_init t inv_ln m M ef (N.of_nat (length (str_bytes d))) p = Ok (m', r) ->
    c_step (evs, m, fs) (evs ++ [if decide (r = 0%nat) then EvOther else EvNew r (Named d) M 16 ef], m', fs)
| step_new evs m fs M ef d p ml m' r : bytes_at m p d ->
    c_new t inv_ln m M ef (N.of_nat (length (str_bytes d))) p ml = Ok (m', r) ->
    c_step (evs, m, fs) (evs ++ [if decide (r = 0%nat) then EvOther else EvNew r (Named d) M ml ef], m', fs)
| step_ptrdist evs m fs M ef f m' r : c_init_ptrdist inv_ln m M ef f = Ok (m', r) -> c_step (evs, m, fs) (evs ++ [EvNew r (CFun f) M 16 ef], m', fs)
| step_drop evs m fs p m' : c_drop m p = Ok m' -> c_step (evs, m, fs) (evs ++ [EvOther], m', fs)
| step_insert evs m fs p v q id d m' : vals_at m q v ->
    c_insert dist_of so m p (N.of_nat (length v)) q id d = Ok m' -> c_step (evs, m, fs) (evs ++ [EvInsert p v id], m', fs)
| step_parallel_insert evs m fs p (vs : list (list T * dataid)) ptrs len pp ip ds m' : ptrs_at m pp ptrs -> ids_at m ip vs.*2 -> Forall2 (vals_at m) ptrs vs.*1 -> Forall (fun v => length v = len) vs.*1 ->
    c_parallel_insert dist_of so m p (N.of_nat (length vs)) (N.of_nat len) pp ip ds m' ->
    c_step (evs, m, fs) (evs ++ [EvParallel p vs], m', fs)
| step_search evs m fs p len q k e m' r : c_search dist_of so m p len q k e = Ok (m', r) ->
    c_step (evs, m, fs) (evs ++ [EvOther], m', fs)
| step_parallel_search evs m fs arrival p n len q k e m' r : c_parallel_search dist_of so arrival m p n len q k e = Ok (m', r) -> c_step (evs, m, fs) (evs ++ [EvOther], m', fs)
| step_dump evs m fs draws p len f fs' r : c_file_dump el cwd m fs draws p len f = Ok (fs', r) ->
    c_step (evs, m, fs) (evs ++ [EvOther], m, fs')
| step_hnswio evs m fs len f m' r : c_get_hnswio m len f = Ok (m', r) -> c_step (evs, m, fs) (evs ++ [EvOther], m', fs)
| step_load evs m fs d p m' r : d ∈ load_names t -> c_load so el inv_ln cwd d m fs p = Ok (m', r) ->
    c_step (evs, m, fs) (evs ++ [EvOther], m', fs)
| step_description evs m fs fpath len p m' r : c_load_description cwd fpath m fs len p = Ok (m', r) ->
    c_step (evs, m, fs) (evs ++ [EvOther], m', fs).

(** what the library has made for the program and is not an index: answers, descriptions, HnswIo *)
Definition given (o : cobj (T:=T)) : Prop :=
  match o with ONbrs _ | OHood _ _ | OHoods _ | OVec _ _ | OIo _ | ODesc _ => True | _ => False end.
Definition givenb (o : option (cobj (T:=T))) : bool :=
  match o with Some (ONbrs _) | Some (OHood _ _) | Some (OHoods _) | Some (OVec _ _) | Some (OIo _) | Some (ODesc _) => true | _ => false end.
(** how many such objects there are *)
Definition nb_given m : nat := length (filter (fun o => givenb o = true) m).

(** the events insert nothing through the pointer [p] *)
Definition untouched (p : nat) (evs : list (event (T:=T))) : Prop :=
  forall e, e ∈ evs -> match e with EvInsert q _ _ | EvParallel q _ => q <> p | _ => True end.

End SpecCMem.
