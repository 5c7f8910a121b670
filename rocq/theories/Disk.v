(** Model of a dump on a disk that can fail, and of the crash of a dump: api.rs l.69-86, hnswio.rs l.155-252 and the writing
    functions of hnswio.rs call by call, over std::io::BufWriter. Io.v has the same functions for a disk that
    never fails; [calls_dump] (DiskProofs.v) proves that the two write the same bytes. *)
From Coq Require Import Strings.String.
From Verif Require Import Prelude Model Io.

(* ------------------------------------------------------------------ *)
(** * The disk *)

(** What the operating system answers to one call of write: so many bytes written (no more than asked for), an error, or the
    process dies during the call, before anything is written. A process that dies elsewhere leaves the same files as one that dies
    at its next call. Simplification: a call that is interrupted by a signal is made again by the standard library and is not
    counted. *)
Inductive wres : Type := Wrote (k : nat) | WError | WKilled.
(** the same for opening a file *)
Inductive ores : Type := Opened | OpenError | OpenKilled.

(** The answers to come; when there are none left, all calls succeed. [cap] is the capacity of a BufWriter (8192 in Rust). *)
Record disk : Type := Disk { dk_cap : nat; dk_graph : ores; dk_data : ores; dk_writes : list wres }.

(** Write::write_all of a File: calls write until all is written; writing 0 bytes is an error. Returns what was
    written, the answers left and the result ([Exit]: the process died). *)
Fixpoint fd_write (ds : list wres) (b : bytes) : bytes * list wres * outcome unit :=
  match b with
  | [] => ([], ds, Ok tt)
  | _ =>
      match ds with
      | [] => (b, [], Ok tt)
      | WError :: ds' => ([], ds', Err)
      | WKilled :: ds' => ([], ds', Exit)
      | Wrote 0 :: ds' => ([], ds', Err)
      | Wrote (S k) :: ds' =>
          let '(w, ds'', r) := fd_write ds' (drop (S k) b) in (take (S k) b ++ w, ds'', r)
      end
  end.

(** std::io::BufWriter: the content of the file, the bytes not written yet *)
Record bufw : Type := BufW { bw_file : bytes; bw_buf : bytes }.

(** BufWriter::flush_buf (flush of a File does nothing): what could not be written stays in the buffer *)
Definition bw_flush (ds : list wres) (w : bufw) : bufw * list wres * outcome unit :=
  let '(out, ds', r) := fd_write ds (bw_buf w) in
  (BufW (bw_file w ++ out) (drop (length out) (bw_buf w)), ds', r).

(** BufWriter::write_all, with its write_all_cold *)
Definition bw_write_all (cap : nat) (ds : list wres) (w : bufw) (b : bytes) : bufw * list wres * outcome unit :=
  if (length b <? cap - length (bw_buf w))%nat then (BufW (bw_file w) (bw_buf w ++ b), ds, Ok tt)
  else
    let '(w1, ds1, r1) :=
      if (cap - length (bw_buf w) <? length b)%nat then bw_flush ds w else (w, ds, Ok tt) in
    match r1 with
    | Ok _ =>
        if (cap <=? length b)%nat then
          let '(out, ds2, r2) := fd_write ds1 b in (BufW (bw_file w1 ++ out) (bw_buf w1), ds2, r2)
        else (BufW (bw_file w1) (bw_buf w1 ++ b), ds1, Ok tt)
    | _ => (w1, ds1, r1)
    end.

(* ------------------------------------------------------------------ *)
(** * The calls of write_all made by a dump *)

(** which of the two files *)
Inductive target : Type := Graph | Data.
(** the calls, in order, and how the function ends if none of them fails *)
Definition calls : Type := list (target * bytes) * outcome unit.
Definition cout (l : list (target * bytes)) : calls := (l, Ok tt).
Definition cfail (o : outcome unit) : calls := ([], o).
Definition cseq (a b : calls) : calls :=
  match a.2 with
  | Ok _ => (a.1 ++ b.1, b.2)
  | _ => a
  end.
(** [graphout.write_all(&x)] and [dataout.write_all(&x)] *)
Definition gw (b : bytes) : target * bytes := (Graph, b).
Definition dw (b : bytes) : target * bytes := (Data, b).

Section Disk.
Context {T : Type} (el : elem T).
Local Notation hnsw := (hnsw (T:=T)).

(** hnswio.rs l.878-919 Description::dump *)
Definition description_calls (de : description) (mode : dump_mode) : calls :=
  cseq (cout [gw (u32_bytes MAGICDESCR_4); gw (u8_bytes (match mode with Full => 1 | Light => 0 end));
              gw (u8_bytes (de_max_nb_connection de)); gw (u64_bytes (f64_bits (de_level_scale de)));
              gw (u8_bytes (de_nb_layer de))])
  (cseq (if (de_nb_layer de =? N.of_nat NB_LAYER_MAX)%N then cout [] else cfail Err)
        (cout [gw (u64_bytes (de_ef de)); gw (u64_bytes (de_nb_point de)); gw (u64_bytes (de_dimension de));
               gw (u64_bytes (N.of_nat (length (str_bytes (de_distname de))))); gw (str_bytes (de_distname de));
               gw (u64_bytes (N.of_nat (length (str_bytes (de_t_name de))))); gw (str_bytes (de_t_name de))])).

(** PointId, in mode Full: hnswio.rs l.1073-1076, l.1090-1093, l.1329-1332 *)
Definition pid_calls (mode : dump_mode) (p : pid) : list (target * bytes) :=
  match mode with
  | Full => [gw (u8_bytes (N.of_nat p.1)); gw (i32_bytes (Z.of_nat p.2))]
  | Light => []
  end.

(** hnswio.rs l.1080-1097 *)
Definition nbr_calls (mode : dump_mode) (n : neighbour) : list (target * bytes) :=
  gw (u64_bytes (d_id n)) :: pid_calls mode (p_id n) ++ [gw (f32_bytes (distance n))].
Definition nbr_list_calls (mode : dump_mode) (l : list neighbour) : list (target * bytes) :=
  gw (u64_bytes (N.of_nat (length l))) :: concat (nbr_calls mode <$> l).

(** hnswio.rs l.1063-1115 dump_point *)
Definition point_calls (h : hnsw) (mode : dump_mode) (pt : point) : calls :=
  match get_neighborhood_id h pt with
  | Ok lists =>
      cout (gw (u32_bytes MAGICPOINT) :: gw (u64_bytes (pt_oid pt)) :: pid_calls mode (pt_pid pt)
            ++ concat (nbr_list_calls mode <$> lists)
            ++ [dw (u32_bytes MAGICDATAP); dw (u64_bytes (pt_oid pt));
                dw (u64_bytes (N.of_nat (length (enc_vec el (pt_data pt))))); dw (enc_vec el (pt_data pt))])
  | o => cfail ((fun _ => tt) <$> o)
  end.

(** hnswio.rs l.1316-1319 *)
Fixpoint points_calls (h : hnsw) (mode : dump_mode) (i j : nat) (pts : list point) : calls :=
  match pts with
  | [] => cout []
  | pt :: pts' =>
      cseq (if bool_decide (pt_pid pt = (i, j)) then point_calls h mode pt else cfail Panic)
           (points_calls h mode i (S j) pts')
  end.

(** hnswio.rs l.1311-1320 *)
Fixpoint layers_calls (h : hnsw) (mode : dump_mode) (i : nat) (ls : list (list point)) : calls :=
  match ls with
  | [] => cout []
  | ly :: ls' =>
      cseq (cout [gw (u32_bytes MAGICLAYER); gw (u64_bytes (N.of_nat (length ly)))])
      (cseq (points_calls h mode i 0 ly) (layers_calls h mode (S i) ls'))
  end.

(** hnswio.rs l.1322-1332 *)
Definition entry_calls (h : hnsw) (mode : dump_mode) : calls :=
  match entry_point h with
  | None => cfail Err
  | Some ep =>
      match get_pt h ep with
      | None => cfail Panic
      | Some pt => cout (gw (u64_bytes (pt_oid pt)) :: pid_calls mode (pt_pid pt))
      end
  end.

(** hnswio.rs l.1357-1389, with l.1303-1340 *)
Definition dump_calls (dname : string) (h : hnsw) (mode : dump_mode) : calls :=
  cseq (description_calls (describe el dname mode h) mode)
  (cseq (cout [dw (u32_bytes MAGICDATAP); dw (u64_bytes (N.of_nat (get_data_dimension h)))])
  (cseq (cout [gw (u8_bytes (N.of_nat (length (points_by_layer h))))])
  (cseq (layers_calls h mode 0 (points_by_layer h)) (entry_calls h mode)))).

(* ------------------------------------------------------------------ *)
(** * file_dump *)

(** the calls are made until one of them fails ([?]) *)
Fixpoint run_calls (cap : nat) (ds : list wres) (g d : bufw) (l : list (target * bytes)) (last : outcome unit)
    : bufw * bufw * list wres * outcome unit :=
  match l with
  | [] => (g, d, ds, last)
  | (Graph, b) :: l' =>
      let '(g', ds', r) := bw_write_all cap ds g b in
      match r with Ok _ => run_calls cap ds' g' d l' last | _ => (g', d, ds', r) end
  | (Data, b) :: l' =>
      let '(d', ds', r) := bw_write_all cap ds d b in
      match r with Ok _ => run_calls cap ds' g d' l' last | _ => (g, d', ds', r) end
  end.

(** hnswio.rs l.246-250 DumpInit::flush *)
Definition flush_both (ds : list wres) (g d : bufw) : bufw * bufw * list wres * outcome unit :=
  let '(d', ds', r) := bw_flush ds d in
  match r with
  | Ok _ => let '(g', ds'', r') := bw_flush ds' g in (g', d', ds'', r')
  | _ => (g, d', ds', r)
  end.

(** The end of the DumpInit: its fields are dropped in their order, data_out then graph_out; a BufWriter that is dropped writes its
    buffer and ignores errors. A dead process drops nothing. *)
Definition drop_both (ds : list wres) (g d : bufw) : bufw * bufw * outcome unit :=
  let '(d', ds', r) := bw_flush ds d in
  match r with
  | Exit => (g, d', Exit)
  | _ => let '(g', _, r') := bw_flush ds' g in (g', d', match r' with Exit => Exit | _ => Ok tt end)
  end.

(** api.rs l.75-85: the writers after all has been dropped, and the result *)
Definition write_files (cap : nat) (ds : list wres) (cs : calls) : bufw * bufw * outcome unit :=
  let '(g, d, ds1, res) := run_calls cap ds (BufW [] []) (BufW [] []) cs.1 cs.2 in
  match res with
  | Ok _ | Err =>
      let '(g1, d1, ds2, r) := flush_both ds1 g d in
      match r with
      | Ok _ | Err =>
          let '(g2, d2, k) := drop_both ds2 g1 d1 in
          (g2, d2, match k with Ok _ => match r with Ok _ => res | _ => r end | _ => k end)
      | _ => (g1, d1, r)
      end
  | Exit => (g, d, Exit)
  | _ => (* a panic: unwinding drops the writers *)
      let '(g1, d1, k) := drop_both ds1 g d in
      (g1, d1, match k with Ok _ => res | _ => k end)
  end.

(** api.rs l.69-86 file_dump with hnswio.rs l.155-235 DumpInit::new: the graph file is opened (and truncated) first, then the data
    file; a file that cannot be opened is a panic *)
Definition file_dump_on (k : disk) (dname : string) (cwd : list string) (fs : fsys) (dir : path) (base : string)
    (draws : list N) (h : hnsw) : fsys * outcome string :=
  match dump_basename cwd fs dir base (negb (datamap_opt h)) draws with
  | Ok name =>
      match dk_graph k with
      | OpenError => (fs, Panic)
      | OpenKilled => (fs, Exit)
      | Opened =>
          match dk_data k with
          | OpenError => (fs_write fs cwd (graph_file dir name) [], Panic)
          | OpenKilled => (fs_write fs cwd (graph_file dir name) [], Exit)
          | Opened =>
              let '(g, d, r) := write_files (dk_cap k) (dk_writes k) (dump_calls dname h Full) in
              (fs_write (fs_write fs cwd (graph_file dir name) (bw_file g)) cwd (data_file dir name) (bw_file d),
               (fun _ => name) <$> r)
          end
      end
  | o => (fs, o)
  end.

End Disk.
