(** Model of hnswio.rs, datamap.rs, filter.rs, flatten.rs and of file_dump (api.rs). Every
    definition cites the file and lines of /repo/src it models.

    General simplifications: a file is a list of bytes; usize and u64 are 8 bytes, little endian
    (64 bit x86 or ARM); reading and writing an opened file does not fail except at end of file;
    memory allocation does not fail; log output is dropped. *)
From Coq Require Import SpecFloat Strings.Byte Strings.String.
From stdpp Require Import pretty strings.
From Verif Require Import Prelude Model.
Local Open Scope list_scope.
Notation length := List.length.

(* ------------------------------------------------------------------ *)
(** * Bytes and numbers *)

Notation bytes := (list byte).
Global Instance byte_eq_dec : EqDecision byte := Byte.byte_eq_dec.

Definition byte_of_N (n : N) : byte :=
  match Byte.of_N (n mod 256) with Some b => b | None => x00 end.

(** to_ne_bytes of an unsigned integer of [k] bytes *)
Fixpoint le_bytes (k : nat) (n : N) : bytes :=
  match k with
  | O => []
  | S k => byte_of_N n :: le_bytes k (n / 256)
  end.
(** from_ne_bytes *)
Fixpoint le_val (b : bytes) : N :=
  match b with
  | [] => 0
  | x :: b => Byte.to_N x + 256 * le_val b
  end%N.

Definition u8_bytes (n : N) : bytes := le_bytes 1 n.
Definition u32_bytes (n : N) : bytes := le_bytes 4 n.
Definition u64_bytes (n : N) : bytes := le_bytes 8 n.
Definition i32_bytes (z : Z) : bytes := le_bytes 4 (Z.to_N (z mod 2 ^ 32)).
Definition i32_of (n : N) : Z :=
  if (n <? 2 ^ 31)%N then Z.of_N n else (Z.of_N n - 2 ^ 32)%Z.
(** [as i64] *)
Definition as_i64 (n : N) : Z :=
  if (n <? 2 ^ 63)%N then Z.of_N n else (Z.of_N n - 2 ^ 64)%Z.

(** f32 distances are represented by their order key: for a non negative f32 that is its bit
    pattern (at most 0x7f800000, infinity), for a negative one the opposite of the bit pattern without
    the sign bit. *)
Definition F32_INF : N := 2139095040.
Definition f32_bytes (z : Z) : bytes :=
  u32_bytes (if (z <? 0)%Z then 2 ^ 31 + Z.to_N (- z) else Z.to_N z)%N.
(** None: NaN *)
Definition f32_of (n : N) : option Z :=
  let m := (n mod 2 ^ 31)%N in
  if (F32_INF <? m)%N then None
  else Some (if (n <? 2 ^ 31)%N then Z.of_N m else (- Z.of_N m)%Z).

(** IEEE binary64 encoding of [spec_float] *)
Definition f64_bits (x : f64) : N :=
  let sgn (s : bool) : N := if s then (2 ^ 63)%N else 0%N in
  match x with
  | S754_zero s => sgn s
  | S754_infinity s => sgn s + 2047 * 2 ^ 52
  | S754_nan => 2047 * 2 ^ 52 + 2 ^ 51
  | S754_finite s m e =>
      sgn s + (if (Npos m <? 2 ^ 52)%N then Npos m
               else Z.to_N (e + 1075) * 2 ^ 52 + (Npos m - 2 ^ 52))
  end%N.
Definition f64_of_bits (n : N) : f64 :=
  let s := (2 ^ 63 <=? n)%N in
  let r := (n mod 2 ^ 63)%N in
  let ex := (r / 2 ^ 52)%N in
  let fr := (r mod 2 ^ 52)%N in
  if (ex =? 0)%N then
    match fr with N0 => S754_zero s | Npos m => S754_finite s m (-1074) end
  else if (ex =? 2047)%N then
    match fr with N0 => S754_infinity s | Npos _ => S754_nan end
  else
    match (fr + 2 ^ 52)%N with
    | N0 => S754_nan
    | Npos m => S754_finite s m (Z.of_N ex - 1075)
    end.

(* ------------------------------------------------------------------ *)
(** * Strings *)

Definition str_bytes : string -> bytes := list_byte_of_string.
Definition bytes_str : bytes -> string := string_of_list_byte.

Definition in_range (lo hi : N) (b : byte) : bool :=
  ((lo <=? Byte.to_N b) && (Byte.to_N b <=? hi))%N.

(** String::from_utf8 succeeds (the UTF-8 grammar of the Unicode standard, table 3-7) *)
Fixpoint utf8_valid (s : bytes) : bool :=
  match s with
  | [] => true
  | a :: s1 =>
      if in_range 0 127 a then utf8_valid s1
      else
        match s1 with
        | [] => false
        | b :: s2 =>
            if in_range 194 223 a then in_range 128 191 b && utf8_valid s2
            else
              match s2 with
              | [] => false
              | c :: s3 =>
                  if in_range 224 239 a then
                    (if in_range 224 224 a then in_range 160 191 b
                     else if in_range 237 237 a then in_range 128 159 b
                     else in_range 128 191 b)
                    && in_range 128 191 c && utf8_valid s3
                  else
                    match s3 with
                    | [] => false
                    | d :: s4 =>
                        in_range 240 244 a &&
                        (if in_range 240 240 a then in_range 144 191 b
                         else if in_range 244 244 a then in_range 128 143 b
                         else in_range 128 191 b)
                        && in_range 128 191 c && in_range 128 191 d && utf8_valid s4
                    end
              end
        end
  end.

(** str::rsplit_terminator("::"): the pieces, last one first; an empty last piece is dropped.
    The argument of [split_rev] is the reversed string. *)
Fixpoint split_rev (s acc : bytes) : list bytes :=
  match s with
  | [] => [acc]
  | c :: s' =>
      match s' with
      | c' :: s'' =>
          if (Byte.eqb c x3a && Byte.eqb c' x3a)%bool then acc :: split_rev s'' []
          else split_rev s' (c :: acc)
      | [] => [c :: acc]
      end
  end.
Definition rsplit_terminator (s : string) : list bytes :=
  match split_rev (rev (str_bytes s)) [] with
  | [] :: l => l
  | l => l
  end.

(* ------------------------------------------------------------------ *)
(** * Readers: the state is what remains to be read of the graph file and of the data file *)

Definition str2 : Type := bytes * bytes.
Definition rd (A : Type) : Type := str2 -> outcome (A * str2).

Definition rret {A} (a : A) : rd A := fun s => Ok (a, s).
Definition rbind {A B} (p : rd A) (k : A -> rd B) : rd B := fun s => '(a, s') ← p s; k a s'.
Definition rlift {A} (o : outcome A) : rd A := fun s => a ← o; Ok (a, s).
(** [.unwrap()] on the result of a read *)
Definition or_panic {A} (p : rd A) : rd A := fun s =>
  match p s with Err => Panic | o => o end.
(** [if res.is_err() { std::process::exit(1) }] *)
Definition or_exit {A} (p : rd A) : rd A := fun s =>
  match p s with Err => Exit | o => o end.

Notation "x <~ p ; k" := (rbind p (fun x => k))
  (at level 20, p at level 100, k at level 200, only parsing).
Notation "' x <~ p ; k" := (rbind p (fun x => k))
  (at level 20, x pattern, p at level 100, k at level 200, only parsing).

(** Read::read_exact on the graph file, on the data file *)
Definition gread (k : nat) : rd bytes := fun s =>
  if (length s.1 <? k)%nat then Err else Ok (take k s.1, (drop k s.1, s.2)).
Definition dread (k : nat) : rd bytes := fun s =>
  if (length s.2 <? k)%nat then Err else Ok (take k s.2, (s.1, drop k s.2)).
Definition gnum (k : nat) : rd N := b <~ gread k; rret (le_val b).
Definition dnum (k : nat) : rd N := b <~ dread k; rret (le_val b).

Fixpoint rrep {A} (n : nat) (p : rd A) : rd (list A) :=
  match n with
  | O => rret []
  | S n => x <~ p; l <~ rrep n p; rret (x :: l)
  end.

(* ------------------------------------------------------------------ *)
(** * Constants, hnswio.rs l.48-67 *)
Definition MAGICPOINT : N := 0x000a678f.
Definition MAGICDESCR_2 : N := 0x002a677f.
Definition MAGICDESCR_3 : N := 0x002a6771.
Definition MAGICDESCR_4 : N := 0x002a6779.
Definition MAGICLAYER : N := 0x000a676f.
Definition MAGICDATAP : N := 0xa67f0000.

(** hnswio.rs l.69 *)
Inductive dump_mode : Type := Light | Full.

(* ------------------------------------------------------------------ *)
(** * Reload options, hnswio.rs l.90-136 *)
Record reload_options : Type := ROptions { ro_datamap : bool; ro_threshold : N }.
(** l.97 default *)
Definition ro_default : reload_options := ROptions false 0.
(** l.107 new *)
Definition ro_new (b : bool) : reload_options := ROptions b 0.
(** l.115 set_mmap *)
Definition ro_set_mmap (b : bool) (o : reload_options) : reload_options :=
  ROptions b (ro_threshold o).
(** l.123 set_mmap_threshold *)
Definition ro_set_mmap_threshold (n : N) (o : reload_options) : reload_options :=
  if (0 <? n)%N then ROptions true n else o.
(** l.132 use_mmap *)
Definition ro_use_mmap (o : reload_options) : bool * N := (ro_datamap o, ro_threshold o).

(* ------------------------------------------------------------------ *)
(** * Description, hnswio.rs l.846-1042 *)
Record description : Type := Description {
  format_version : N;
  dumpmode : N;
  de_max_nb_connection : N;
  de_level_scale : f64;
  de_nb_layer : N;
  de_ef : N;
  de_nb_point : N;
  de_dimension : N;
  de_distname : string;
  de_t_name : string
}.

(** What a writing function has appended to the graph file and to the data file, and how it
    ended (nothing is written after the first failure). *)
Record written : Type := W { w_graph : bytes; w_data : bytes; w_res : outcome unit }.
Definition wout (g d : bytes) : written := W g d (Ok tt).
Definition wfail (o : outcome unit) : written := W [] [] o.
Definition wseq (a b : written) : written :=
  match w_res a with
  | Ok _ => W (w_graph a ++ w_graph b) (w_data a ++ w_data b) (w_res b)
  | _ => a
  end.

(** l.878-919 Description::dump. The mode byte written is the one of the argument. *)
Definition description_dump (de : description) (mode : dump_mode) : written :=
  wseq (wout (u32_bytes MAGICDESCR_4
              ++ u8_bytes (match mode with Full => 1 | Light => 0 end)
              ++ u8_bytes (de_max_nb_connection de)
              ++ u64_bytes (f64_bits (de_level_scale de))
              ++ u8_bytes (de_nb_layer de)) [])
  (wseq (if (de_nb_layer de =? N.of_nat NB_LAYER_MAX)%N then wout [] [] else wfail Err)
        (wout (u64_bytes (de_ef de)
               ++ u64_bytes (de_nb_point de)
               ++ u64_bytes (de_dimension de)
               ++ u64_bytes (N.of_nat (length (str_bytes (de_distname de))))
               ++ str_bytes (de_distname de)
               ++ u64_bytes (N.of_nat (length (str_bytes (de_t_name de))))
               ++ str_bytes (de_t_name de)) [])).

(** l.1011-1024 and l.1026-1038: reading a name *)
Definition load_name : rd string :=
  len <~ gnum 8;
  if (256 <? len)%N then rlift Err
  else
    b <~ gread (N.to_nat len);
    if utf8_valid b then rret (bytes_str b) else rlift Panic.

(** l.937-1042 load_description *)
Definition load_description : rd description :=
  magic <~ gnum 4;
  version <~ (if (magic =? MAGICDESCR_2)%N then rret 2%N
              else if (magic =? MAGICDESCR_3)%N then rret 3%N
              else if (magic =? MAGICDESCR_4)%N then rret 4%N
              else rlift Err);
  mode <~ gnum 1;
  m <~ gnum 1;
  scale <~ (if (version =? 4)%N then b <~ gnum 8; rret (f64_of_bits b) else rret f64_1);
  nb_layer <~ gnum 1;
  ef <~ gnum 8;
  np <~ gnum 8;
  dim <~ gnum 8;
  dname <~ load_name;
  tname <~ load_name;
  rret (Description version mode m scale nb_layer ef np dim dname tname).

(* ------------------------------------------------------------------ *)
(** * Element types *)

(** What is known of the element type T: its type_name, its size_of, its memory representation,
    bincode's decoding of a vector (format 2 only), and whether it is NoData (hnsw.rs l.38). *)
Record elem (T : Type) : Type := Elem {
  el_name : string;
  el_size : nat;
  el_enc : T -> bytes;
  el_dec : bytes -> T;
  el_bincode : bytes -> option (list T);
  el_nodata : bool
}.
Arguments el_name {T}. Arguments el_size {T}. Arguments el_enc {T}. Arguments el_dec {T}.
Arguments el_bincode {T}. Arguments el_nodata {T}.

(** what Rust guarantees of the memory representation *)
Definition elem_ok {T} (e : elem T) : Prop :=
  forall x, length (el_enc e x) = el_size e /\ el_dec e (el_enc e x) = x.

Section Io.
Context {T : Type} (so : StdOps) (el : elem T).
Implicit Types (h : hnsw (T:=T)).

(** the bytes of a slice of T *)
Definition enc_vec (v : list T) : bytes := concat (el_enc el <$> v).

(** reading [n] elements at the beginning of [b] *)
Fixpoint dec_vec (n : nat) (b : bytes) : list T :=
  match n with
  | O => []
  | S n => el_dec el (take (el_size el) b) :: dec_vec n (drop (el_size el) b)
  end.
(** std::slice::from_raw_parts(ptr as *const T, n), [b] being the bytes that may be accessed from
    ptr on *)
Definition from_raw_parts (b : bytes) (n : N) : outcome (list T) :=
  if (N.of_nat (length b) <? n * N.of_nat (el_size el))%N then UB
  else Ok (dec_vec (N.to_nat n) b).

(* ------------------------------------------------------------------ *)
(** * Dump *)

(** l.1086-1096 *)
Definition nbr_bytes (mode : dump_mode) (n : neighbour) : bytes :=
  u64_bytes (d_id n)
  ++ match mode with
     | Full => u8_bytes (N.of_nat (p_id n).1) ++ i32_bytes (Z.of_nat (p_id n).2)
     | Light => []
     end
  ++ f32_bytes (distance n).

Definition nbr_list_bytes (mode : dump_mode) (l : list neighbour) : bytes :=
  u64_bytes (N.of_nat (length l)) ++ concat (nbr_bytes mode <$> l).

(** l.1063-1115 dump_point (get_neighborhood_id does not fail on a stored point) *)
Definition dump_point h (mode : dump_mode) (pt : point) : written :=
  match get_neighborhood_id h pt with
  | Ok lists =>
      wout (u32_bytes MAGICPOINT
            ++ u64_bytes (pt_oid pt)
            ++ match mode with
               | Full => u8_bytes (N.of_nat (pt_pid pt).1) ++ i32_bytes (Z.of_nat (pt_pid pt).2)
               | Light => []
               end
            ++ concat (nbr_list_bytes mode <$> lists))
           (u32_bytes MAGICDATAP
            ++ u64_bytes (pt_oid pt)
            ++ u64_bytes (N.of_nat (length (enc_vec (pt_data pt))))
            ++ enc_vec (pt_data pt))
  | o => wfail ((fun _ => tt) <$> o)
  end.

(** l.1316-1319: the points of layer i from rank j on *)
Fixpoint dump_points h (mode : dump_mode) (i j : nat) (pts : list point) : written :=
  match pts with
  | [] => wout [] []
  | pt :: pts' =>
      wseq (if bool_decide (pt_pid pt = (i, j)) then dump_point h mode pt else wfail Panic)
           (dump_points h mode i (S j) pts')
  end.

(** l.1311-1320: the layers from i on *)
Fixpoint dump_layers h (mode : dump_mode) (i : nat) (ls : list (list point)) : written :=
  match ls with
  | [] => wout [] []
  | ly :: ls' =>
      wseq (wout (u32_bytes MAGICLAYER ++ u64_bytes (N.of_nat (length ly))) [])
      (wseq (dump_points h mode i 0 ly) (dump_layers h mode (S i) ls'))
  end.

(** l.1322-1332 *)
Definition dump_entry h (mode : dump_mode) : written :=
  match entry_point h with
  | None => wfail Err
  | Some ep =>
      match get_pt h ep with
      | None => wfail Panic
      | Some pt =>
          wout (u64_bytes (pt_oid pt)
                ++ match mode with
                   | Full => u8_bytes (N.of_nat (pt_pid pt).1) ++ i32_bytes (Z.of_nat (pt_pid pt).2)
                   | Light => []
                   end) []
      end
  end.

(** l.1303-1340 HnswIoT for PointIndexation *)
Definition dump_indexation h (mode : dump_mode) : written :=
  wseq (wout (u8_bytes (N.of_nat (length (points_by_layer h)))) [])
  (wseq (dump_layers h mode 0 (points_by_layer h)) (dump_entry h mode)).

(** l.1366-1380: the description of an index; [dname] is type_name of the distance *)
Definition describe (dname : string) (mode : dump_mode) h : description :=
  Description 3 (match mode with Full => 1 | Light => 0 end)
    (N.of_nat (get_max_nb_connection h)) (level_scale h)
    (N.of_nat (max_layer h) mod 256) (N.of_nat (ef_construction h))
    (N.of_nat (nb_point h)) (N.of_nat (get_data_dimension h)) dname (el_name el).

(** l.1357-1389 HnswIoT for Hnsw *)
Definition dump (dname : string) h (mode : dump_mode) : written :=
  wseq (description_dump (describe dname mode h) mode)
  (wseq (wout [] (u32_bytes MAGICDATAP ++ u64_bytes (N.of_nat (get_data_dimension h))))
        (dump_indexation h mode)).

(* ------------------------------------------------------------------ *)
(** * DataMap, datamap.rs *)

(** datamap.rs l.24-37; [dm_map] is the IndexMap in insertion order *)
Record datamap : Type := DataMap {
  dm_mmap : bytes;
  dm_map : list (dataid * nat);
  dm_t_name : string;
  dm_dimension : N;
  dm_distname : string
}.

(** IndexMap::insert: a new key goes last, the value of a present key is replaced in place *)
Fixpoint imap_insert (k : dataid) (v : nat) (m : list (dataid * nat)) : list (dataid * nat) :=
  match m with
  | [] => [(k, v)]
  | (k', v') :: m' => if (k' =? k)%N then (k', v) :: m' else (k', v') :: imap_insert k v m'
  end.
Fixpoint imap_get (k : dataid) (m : list (dataid * nat)) : option nat :=
  match m with
  | [] => None
  | (k', v') :: m' => if (k' =? k)%N then Some v' else imap_get k m'
  end.

(** [&s[a..a+n]]: panics when out of bounds *)
Definition slice (s : bytes) (a n : nat) : outcome bytes :=
  if (length s <? a + n)%nat then Panic else Ok (take n (drop a s)).

(** datamap.rs l.172-214: [n] records from address [addr] on *)
Fixpoint map_records (mm : bytes) (dim : N) (n : nat) (addr : nat) (m : list (dataid * nat))
    : outcome (list (dataid * nat)) :=
  match n with
  | O => Ok m
  | S n =>
      magic ← slice mm addr 4;
      _ ← assert_ (le_val magic =? MAGICDATAP)%N;
      id ← slice mm (addr + 4) 8;
      let m' := imap_insert (le_val id) (addr + 12) m in
      len ← slice mm (addr + 12) 8;
      v ← slice mm (addr + 20) (N.to_nat (le_val len));
      _ ← from_raw_parts v dim;
      map_records mm dim n (addr + 20 + N.to_nat (le_val len)) m'
  end.

(** datamap.rs l.61-227: what from_hnswdump does once the two files are opened. The product
    dimension * size_of::<T>() is not bounded. *)
Definition datamap_of (g d : bytes) : outcome datamap :=
  '(de, _) ← or_panic load_description (g, []);
  if (format_version de <=? 2)%N then Err
  else if negb (String.eqb (el_name el) (de_t_name de)) then Err
  else
    magic ← slice d 0 4;
    _ ← assert_ (le_val magic =? MAGICDATAP)%N;
    dimb ← slice d 4 8;
    let dim := le_val dimb in
    if negb (dim =? de_dimension de)%N then Err
    else
      let record_size := (20 + dim * N.of_nat (el_size el))%N in
      let nb_record := N.to_nat (N.of_nat (length d - 12) / record_size) in
      m ← map_records d dim nb_record 12 [];
      Ok (DataMap d m (de_t_name de) (de_dimension de) (de_distname de)).

(** datamap.rs l.272-293 get_data (for the type given by [el]). The outer option is the result. *)
Definition dm_get_data (dm : datamap) (id : dataid) : outcome (option (list T)) :=
  match imap_get id (dm_map dm) with
  | None => Ok None
  | Some addr =>
      _ ← slice (dm_mmap dm) addr 8;
      _ ← slice (dm_mmap dm) (addr + 8) 0;
      v ← from_raw_parts (drop (addr + 8) (dm_mmap dm)) (dm_dimension dm);
      Ok (Some v)
  end.

(** datamap.rs l.283-288: offset, in the mapping, of the slice returned by get_data. A mapping starts at a page
    boundary, so the alignment of the slice is the one of this offset. *)
Definition dm_offset (dm : datamap) (id : dataid) : option nat :=
  (fun addr => (addr + 8)%nat) <$> imap_get id (dm_map dm).

(** datamap.rs l.297 get_dataid_iter, l.312 get_nb_data, l.302, l.307 *)
Definition dm_ids (dm : datamap) : list dataid := fst <$> dm_map dm.
Definition dm_nb_data (dm : datamap) : nat := length (dm_map dm).

(** datamap.rs l.234-264 check_data_type::<T>, [el] giving T *)
Definition check_data_type (dm : datamap) : outcome bool :=
  a ← unwrap (last (rsplit_terminator (dm_t_name dm)));
  b ← unwrap (last (rsplit_terminator (el_name el)));
  Ok (bool_decide (a = b)).

(* ------------------------------------------------------------------ *)
(** * Reload *)

(** a Neighbour read from the file *)
Record raw_nbr : Type := RawNbr { rn_id : dataid; rn_layer : N; rn_rank : Z; rn_dist : Z }.
(** a point read from the files; [rp_mapped] tells whether its vector is a slice of the mapped
    file (PointData::S) or was read in memory (PointData::V) *)
Record raw_point : Type := RawPoint {
  rp_oid : dataid; rp_layer : N; rp_rank : Z; rp_lists : list (list raw_nbr);
  rp_data : list T; rp_mapped : bool
}.

(** l.1260-1279: one neighbour. With dumpmode <> 1 the PointId keeps its default value (0,0). A NaN
    distance makes the later sort panic as soon as it is compared; here reading it panics. *)
Definition load_nbr (de : description) : rd raw_nbr :=
  id <~ or_panic (gnum 8);
  '(l, r) <~ (if (dumpmode de =? 1)%N then
                l <~ or_panic (gnum 1); r <~ or_panic (gnum 4); rret (l, i32_of r)
              else rret (0%N, 0%Z));
  b <~ or_panic (gnum 4);
  d <~ rlift (unwrap (f32_of b));
  rret (RawNbr id l r d).

(** l.1254-1280: one neighbour list *)
Definition load_nbr_list (de : description) : rd (list raw_nbr) :=
  n <~ or_panic (gnum 8); rrep (N.to_nat n) (load_nbr de).

(** l.1221-1289 load_point_graph *)
Definition load_point_graph (de : description) : rd (dataid * N * Z * list (list raw_nbr)) :=
  magic <~ or_panic (gnum 4);
  if negb (magic =? MAGICPOINT)%N then rlift Err
  else
    oid <~ or_panic (gnum 8);
    layer <~ or_panic (gnum 1);
    rank <~ or_panic (gnum 4);
    lists <~ rrep (N.to_nat (de_nb_layer de)) (load_nbr_list de);
    rret (oid, layer, i32_of rank,
          lists ++ replicate (NB_LAYER_MAX - N.to_nat (de_nb_layer de)) []).

(** l.1132-1154 and l.1183-1209: the serialized bytes of one record of the data file *)
Definition load_record (oid : dataid) : rd bytes :=
  magic <~ dnum 4;
  _ <~ rlift (assert_ (magic =? MAGICDATAP)%N);
  id <~ dnum 8;
  _ <~ rlift (assert_ (oid =? id)%N);
  len <~ dnum 8;
  dread (N.to_nat len).

(** l.1119-1178 load_point_data *)
Definition load_point_data (oid : dataid) (de : description) : rd (list T) :=
  b <~ load_record oid;
  if el_nodata el then rret []
  else if (format_version de =? 2)%N then rlift (unwrap (el_bincode el b))
  else if (format_version de =? 3)%N || (format_version de =? 4)%N then
    rlift (from_raw_parts b (de_dimension de))
  else rlift Exit.

(** l.793-839 load_point *)
Definition load_point (dm : option datamap) (de : description) (use_mmap : bool) : rd raw_point :=
  '(oid, layer, rank, lists) <~ load_point_graph de;
  if use_mmap then
    _ <~ load_record oid;
    m <~ rlift (unwrap dm);
    o <~ rlift (dm_get_data m oid);
    v <~ rlift (unwrap o);
    rret (RawPoint oid layer rank lists v true)
  else
    v <~ or_exit (load_point_data oid de);
    rret (RawPoint oid layer rank lists v false).

(** l.675-692: is this point to be mapped? *)
Definition point_use_mmap (opts : reload_options) (still : Z) : bool :=
  if ro_datamap opts then negb (still <=? as_i64 (ro_threshold opts))%Z else false.

(** l.671-715: the points of layer l from rank r on; [still] is nb_still_to_load *)
Fixpoint load_points (dm : option datamap) (opts : reload_options) (de : description) (l : nat)
    (n r : nat) (still : Z) : rd (list raw_point * Z) :=
  match n with
  | O => rret ([], still)
  | S n =>
      p <~ load_point dm de (point_use_mmap opts still);
      _ <~ rlift (assert_ (N.of_nat l =? rp_layer p)%N);
      _ <~ rlift (assert_ (Z.of_nat r =? rp_rank p)%Z);
      _ <~ rlift (assert_ (0 <=? still - 1)%Z);
      '(ps, still') <~ load_points dm opts de l n (S r) (still - 1);
      rret (p :: ps, still')
  end.

(** l.656-717: [n] layers from layer l on *)
Fixpoint load_layers (dm : option datamap) (opts : reload_options) (de : description)
    (n l : nat) (still : Z) : rd (list (list raw_point)) :=
  match n with
  | O => rret []
  | S n =>
      magic <~ gnum 4;
      if negb (magic =? MAGICLAYER)%N then rlift Err
      else
        np <~ gnum 8;
        '(ps, still') <~ load_points dm opts de l (N.to_nat np) 0 still;
        ls <~ load_layers dm opts de n (S l) still';
        rret (ps :: ls)
  end.

(** indexing points_by_layer[layer][rank]; a negative rank cast to usize is out of bounds *)
Definition raw_index (ls : list (list raw_point)) (layer : N) (rank : Z) : outcome pid :=
  if (rank <? 0)%Z then Panic
  else
    ly ← unwrap (ls !! N.to_nat layer);
    _ ← unwrap (ly !! Z.to_nat rank);
    Ok (N.to_nat layer, Z.to_nat rank).

(** l.719-737: building the neighbour lists. The points have 16 lists (l.183, l.193), more lists in
    the file make the indexation panic. The iteration order of neighbourhood_map does not matter:
    different keys modify different points. *)
Definition link_nbr (ls : list (list raw_point)) (n : raw_nbr) : outcome nbr :=
  p ← raw_index ls (rn_layer n) (rn_rank n); Ok (Nbr p (rn_dist n)).
Definition link_list (ls : list (list raw_point)) (l : list raw_nbr) : outcome (list nbr) :=
  l' ← mapM (link_nbr ls) l; Ok (u_sort so nbr n_dist l').
Definition link_point (ls : list (list raw_point)) (p : raw_point) : outcome point :=
  _ ← assert_ (length (rp_lists p) <=? NB_LAYER_MAX)%nat;
  lists ← mapM (link_list ls) (rp_lists p);
  Ok (Point (rp_data p) (rp_oid p) (N.to_nat (rp_layer p), Z.to_nat (rp_rank p)) lists).
Definition link_all (ls : list (list raw_point)) : outcome (list (list point)) :=
  mapM (mapM (link_point ls)) ls.

(** what is loaded by load_point_indexation, with the PointIds of the points whose vector is mapped *)
Record loaded : Type := Loaded {
  ld_layers : list (list (point (T:=T)));
  ld_entry : pid;
  ld_mapped : list pid
}.

Definition raw_pid (p : raw_point) : pid := (N.to_nat (rp_layer p), Z.to_nat (rp_rank p)).

(** l.615-784 load_point_indexation *)
Definition load_point_indexation (dm : option datamap) (opts : reload_options) (de : description)
    : rd loaded :=
  if negb (el_nodata el) && negb (String.eqb (el_name el) (de_t_name de)) then rlift Panic
  else
    nb_layer <~ gnum 1;
    if (N.of_nat NB_LAYER_MAX <? nb_layer)%N then rlift Err
    else
      raw <~ load_layers dm opts de (N.to_nat nb_layer) 0 (as_i64 (de_nb_point de));
      ls <~ rlift (link_all raw);
      _ <~ gnum 8;
      layer <~ gnum 1;
      rank <~ gnum 4;
      ep <~ rlift (raw_index raw layer (i32_of rank));
      rret (Loaded ls ep (raw_pid <$> List.filter rp_mapped (concat raw))).

(** l.424-442: the beginning of load_hnsw and load_hnsw_with_dist, files being opened: description
    (l.398) and data header *)
Definition load_header : rd description :=
  de <~ or_panic load_description;
  magic <~ dnum 4;
  _ <~ rlift (assert_ (magic =? MAGICDATAP)%N);
  dim <~ dnum 8;
  _ <~ rlift (assert_ (dim =? de_dimension de)%N);
  rret de.

(** l.484-495 and l.596-607: the index built; LayerGenerator::new_with_scale (hnsw.rs l.337-349)
    multiplies the default scale by the one of the description. The generator's maxlevel is
    NB_LAYER_MAX (l.776); Hnsw::max_layer itself is the description's nb_layer (16 in any dump). *)
Definition make_hnsw (inv_ln : nat -> f64) (de : description) (ld : loaded) (dmo : bool) : hnsw :=
  Hnsw (N.to_nat (de_ef de)) (N.to_nat (de_max_nb_connection de)) true false NB_LAYER_MAX
    (ld_layers ld)
    (f64_mul (inv_ln (N.to_nat (de_max_nb_connection de))) (de_level_scale de))
    (length (concat (ld_layers ld))) (Some (ld_entry ld)) false dmo.

(** l.471-481: the datamap of the HnswIo after the attempt to map; [prev] is the one it had, [mk] what
    DataMap::from_hnswdump does *)
Definition choose_datamap (prev : option datamap) (opts : reload_options) (mk : outcome datamap)
    : outcome (option datamap) :=
  if ro_datamap opts then
    match mk with
    | Ok dm => Ok (Some dm)
    | Err => Ok prev
    | Panic => Panic | Exit => Exit | Fuel => Fuel | UB => UB
    end
  else Ok prev.

(** l.408-500 load_hnsw, files being opened; [dname] is type_name::<D>() *)
Definition load_rd (inv_ln : nat -> f64) (dname : string) (prev : option datamap)
    (opts : reload_options) (mk : outcome datamap) : rd (hnsw * list pid) :=
  de <~ load_header;
  same <~ (if el_nodata el then rret true
           else
             a <~ rlift (unwrap (rsplit_terminator dname !! 0));
             b <~ rlift (unwrap (rsplit_terminator (de_distname de) !! 0));
             rret (bool_decide (a = b)));
  if negb (same : bool) then rlift Err
  else
    dm <~ rlift (choose_datamap prev opts mk);
    ld <~ load_point_indexation dm opts de;
    rret (make_hnsw inv_ln de ld true, ld_mapped ld).

(** l.530-613 load_hnsw_with_dist, files being opened: full names are compared and the data map
    is not created *)
Definition load_with_dist_rd (inv_ln : nat -> f64) (dname : string) (prev : option datamap)
    (opts : reload_options) : rd (hnsw * list pid) :=
  de <~ load_header;
  if negb (el_nodata el) && negb (String.eqb dname (de_distname de)) then rlift Err
  else
    ld <~ load_point_indexation prev opts de;
    rret (make_hnsw inv_ln de ld false, ld_mapped ld).

Definition run_rd {A} (p : rd A) (g d : bytes) : outcome A := fst <$> p (g, d).

(* ------------------------------------------------------------------ *)
(** * Files *)

(** A path: absolute or relative to the working directory, with its components ("." is no
    component; "..", links and separators inside a base name are not modelled). *)
Record path : Type := Path { pa_abs : bool; pa_comps : list string }.
(** Path::join / PathBuf::push *)
Definition join (a b : path) : path :=
  if pa_abs b then b else Path (pa_abs a) (pa_comps a ++ pa_comps b).
Definition in_dir (dir : path) (f : string) : path := join dir (Path false [f]).

(** The file system: content of the regular files, by location. All directories exist and are
    writable. *)
Definition fsys : Type := list string -> option bytes.
Definition resolve (cwd : list string) (p : path) : list string :=
  if pa_abs p then pa_comps p else cwd ++ pa_comps p.
Definition fs_read (fs : fsys) (cwd : list string) (p : path) : option bytes := fs (resolve cwd p).
Definition fs_write (fs : fsys) (cwd : list string) (p : path) (b : bytes) : fsys :=
  fun loc => if bool_decide (loc = resolve cwd p) then Some b else fs loc.

Definition graph_file (dir : path) (base : string) : path := in_dir dir (base +:+ ".hnsw.graph").
Definition data_file (dir : path) (base : string) : path := in_dir dir (base +:+ ".hnsw.data").

(** datamap.rs l.44-60, l.88-106: from_hnswdump. The directory is pushed twice on the path of the
    graph file (l.49-50). *)
Definition from_hnswdump (cwd : list string) (fs : fsys) (dir : path) (base : string)
    : outcome datamap :=
  match fs_read fs cwd (graph_file (join dir dir) base) with
  | None => Exit
  | Some g =>
      match fs_read fs cwd (data_file dir base) with
      | Some d => datamap_of g d
      | None => (* the checks made before the data file is opened *)
          '(de, _) ← or_panic load_description (g, []);
          if (format_version de <=? 2)%N then Err
          else if negb (String.eqb (el_name el) (de_t_name de)) then Err
          else Exit
      end
  end.

(** l.293-305 HnswIo (nb_point_loaded, never read, is dropped) *)
Record hnswio : Type := HnswIo {
  io_dir : path;
  io_basename : string;
  io_options : reload_options;
  io_datamap : option datamap;
  io_initialized : bool
}.
(** derived Default (l.293): empty path, empty name *)
Definition io_default : hnswio := HnswIo (Path false []) "" ro_default None false.
(** l.312 new, l.324 new_with_options *)
Definition io_new (dir : path) (base : string) : hnswio := HnswIo dir base ro_default None true.
Definition io_new_with_options (dir : path) (base : string) (o : reload_options) : hnswio :=
  HnswIo dir base o None true.
(** l.341-360 set_values *)
Definition io_set_values (io : hnswio) (dir : path) (base : string) (o : reload_options)
    : outcome hnswio :=
  if io_initialized io then Err else Ok (HnswIo dir base o None true).
(** l.408 set_options *)
Definition io_set_options (io : hnswio) (o : reload_options) : hnswio :=
  HnswIo (io_dir io) (io_basename io) o (io_datamap io) (io_initialized io).

(** l.363-405 init: opening the two files *)
Definition io_open (cwd : list string) (fs : fsys) (io : hnswio) : outcome (bytes * bytes) :=
  match fs_read fs cwd (graph_file (io_dir io) (io_basename io)) with
  | None => Err
  | Some g =>
      match fs_read fs cwd (data_file (io_dir io) (io_basename io)) with
      | None => Err
      | Some d => Ok (g, d)
      end
  end.

(** l.413-500 load_hnsw *)
Definition load_hnsw (inv_ln : nat -> f64) (dname : string) (cwd : list string) (fs : fsys)
    (io : hnswio) : outcome (hnsw * list pid) :=
  '(g, d) ← io_open cwd fs io;
  run_rd (load_rd inv_ln dname (io_datamap io) (io_options io)
            (from_hnswdump cwd fs (io_dir io) (io_basename io))) g d.

(** l.530-613 load_hnsw_with_dist *)
Definition load_hnsw_with_dist (inv_ln : nat -> f64) (dname : string) (cwd : list string) (fs : fsys)
    (io : hnswio) : outcome (hnsw * list pid) :=
  '(g, d) ← io_open cwd fs io;
  run_rd (load_with_dist_rd inv_ln dname (io_datamap io) (io_options io)) g d.

(** l.155-193 DumpInit::new: choice of the base name. [draws] are the numbers drawn in 0..10000; running
    out of draws stands for the loop going on. *)
Definition suffixed (base : string) (id : N) : string := base +:+ "-" +:+ pretty id.
Fixpoint pick_name (cwd : list string) (fs : fsys) (dir : path) (base : string) (draws : list N)
    : outcome string :=
  match draws with
  | [] => Fuel
  | id :: draws' =>
      match fs_read fs cwd (data_file dir (suffixed base id)) with
      | Some _ => pick_name cwd fs dir base draws'
      | None => Ok (suffixed base id)
      end
  end.
Definition dump_basename (cwd : list string) (fs : fsys) (dir : path) (base : string)
    (overwrite : bool) (draws : list N) : outcome string :=
  if overwrite then Ok base
  else
    match fs_read fs cwd (data_file dir base) with
    | Some _ => pick_name cwd fs dir base draws
    | None => Ok base
    end.

(** api.rs l.69-86 file_dump, with DumpInit::new (hnswio.rs l.155-235). The files are truncated, then
    contain what was written; returns the file system and the result. *)
Definition file_dump (dname : string) (cwd : list string) (fs : fsys) (dir : path) (base : string)
    (draws : list N) h : fsys * outcome string :=
  match dump_basename cwd fs dir base (negb (datamap_opt h)) draws with
  | Ok name =>
      let w := dump dname h Full in
      let fs1 := fs_write fs cwd (graph_file dir name) (w_graph w) in
      let fs2 := fs_write fs1 cwd (data_file dir name) (w_data w) in
      (fs2, match w_res w with
            | Ok _ => Ok name
            | Err => Err
            | Panic => Panic | Exit => Exit | Fuel => Fuel | UB => UB
            end)
  | o => (fs, o)
  end.

(* ------------------------------------------------------------------ *)
(** * flatten.rs *)

(** flatten.rs l.50-57 *)
Record flat_point : Type := FlatPoint {
  fp_origin : dataid; fp_pid : pid; fp_neighbours : list neighbour
}.
(** flatten.rs l.74-89 flatten_point *)
Definition flatten_point h (pt : point) : outcome flat_point :=
  lists ← get_neighborhood_id h pt;
  Ok (FlatPoint (pt_oid pt) (pt_pid pt) (u_sort so neighbour distance (concat lists))).
(** flatten.rs l.115-127 FlatNeighborhood::from; the hash table is the list of insertions *)
Definition flatten h : outcome (list (dataid * flat_point)) :=
  pts ← iter_points h;
  mapM (fun pt => fp ← flatten_point h pt; Ok (pt_oid pt, fp)) pts.
(** flatten.rs l.101-107 get_neighbours: the last insertion for a key wins *)
Fixpoint assoc_last {A} (k : dataid) (m : list (dataid * A)) : option A :=
  match m with
  | [] => None
  | (k', v) :: m' =>
      match assoc_last k m' with
      | Some v' => Some v'
      | None => if (k' =? k)%N then Some v else None
      end
  end.
Definition flat_get_neighbours (m : list (dataid * flat_point)) (k : dataid)
    : option (list neighbour) :=
  fp_neighbours <$> assoc_last k m.

End Io.

(* ------------------------------------------------------------------ *)
(** * filter.rs *)

(** core::slice::binary_search_by (as used by filter.rs l.13), on the part [lo, lo+size) of the slice.
    The probe position is one of the implementation's choices: [mid lo size] is any index of the part. *)
Fixpoint bsearch (fuel : nat) (mid : nat -> nat -> nat) (l : list dataid) (id : dataid)
    (lo size : nat) : bool :=
  match fuel with
  | O => false
  | S fuel =>
      if (size =? 0)%nat then false
      else
        let m := (lo + (mid lo size) mod size)%nat in
        match l !! m with
        | None => false
        | Some x =>
            match (x ?= id)%N with
            | Eq => true
            | Lt => bsearch fuel mid l id (S m) (lo + size - S m)
            | Gt => bsearch fuel mid l id lo (m - lo)
            end
        end
  end.
(** filter.rs l.11-15: FilterT for Vec<usize> *)
Definition vec_filter (mid : nat -> nat -> nat) (l : list dataid) (id : dataid) : bool :=
  bsearch (S (length l)) mid l id 0 (length l).
