(** The files written by a dump that runs beside other threads, from what it read (record [dumped] of Conc.v). *)
From Coq Require Import Strings.String.
From Verif Require Import Prelude Model Io Conc.

Section ConcDump.
Context {T : Type} (el : elem T).

(** hnswio.rs l.1063-1115 *)
Definition dumped_point (x : dpoint (T:=T)) : written :=
  wout (u32_bytes MAGICPOINT
        ++ u64_bytes (dp_oid x)
        ++ u8_bytes (N.of_nat (dp_pid x).1) ++ i32_bytes (Z.of_nat (dp_pid x).2)
        ++ concat (nbr_list_bytes Full <$> dp_lists x))
       (u32_bytes MAGICDATAP
        ++ u64_bytes (dp_oid x)
        ++ u64_bytes (N.of_nat (length (enc_vec el (dp_data x))))
        ++ enc_vec el (dp_data x)).

(** hnswio.rs l.1316-1319 *)
Fixpoint dumped_points (xs : list (dpoint (T:=T))) : written :=
  match xs with
  | [] => wout [] []
  | x :: xs' => wseq (dumped_point x) (dumped_points xs')
  end.

(** hnswio.rs l.1311-1320 *)
Fixpoint dumped_layers (ls : list (list (dpoint (T:=T)))) : written :=
  match ls with
  | [] => wout [] []
  | ly :: ls' =>
      wseq (wout (u32_bytes MAGICLAYER ++ u64_bytes (N.of_nat (length ly))) [])
      (wseq (dumped_points ly) (dumped_layers ls'))
  end.

(** hnswio.rs l.1322-1332 *)
Definition dumped_entry (d : dumped (T:=T)) : written :=
  match dd_entry d with
  | None => wfail Err
  | Some (o, p) => wout (u64_bytes o ++ u8_bytes (N.of_nat p.1) ++ i32_bytes (Z.of_nat p.2)) []
  end.

(** hnswio.rs l.1366-1380; [h] gives the parameters of the index, which no task changes *)
Definition dumped_description (dname : string) (h : hnsw (T:=T)) (d : dumped (T:=T)) : description :=
  Description 3 1
    (N.of_nat (get_max_nb_connection h)) (level_scale h)
    (N.of_nat (max_layer h) mod 256) (N.of_nat (ef_construction h))
    (N.of_nat (dd_nb d)) (N.of_nat (dd_dim d)) dname (el_name el).

(** hnswio.rs l.1357-1389, in mode Full, the only one of file_dump (api.rs l.77); Io.v has the same for a dump that nothing
    disturbs *)
Definition dumped_files (dname : string) (h : hnsw (T:=T)) (d : dumped (T:=T)) : written :=
  wseq (description_dump (dumped_description dname h d) Full)
  (wseq (wout [] (u32_bytes MAGICDATAP ++ u64_bytes (N.of_nat (dd_dim d))))
  (wseq (wout (u8_bytes (N.of_nat (length (dd_layers d)))) [])
  (wseq (dumped_layers (dd_layers d)) (dumped_entry d)))).

End ConcDump.
