(** The grammar of the two files of a dump, written down independently of the functions that read or write them. *)
From Coq Require Import Strings.String.
From Verif Require Import Prelude Model Io.
Local Open Scope list_scope.

(** A neighbour as the graph file spells it: id, layer and rank of the point, bits of the f32 distance. *)
Record text_nbr : Type := TextNbr { tn_id : N; tn_layer : N; tn_rank : Z; tn_bits : N }.
(** A point: its id, its lists of neighbours, and the bytes of its vector in the data file. *)
Record text_point : Type := TextPoint { tp_id : N; tp_lists : list (list text_nbr); tp_bytes : list Byte.byte }.
(** The contents of the two files. *)
Record text : Type := Text {
  tx_version : N;                        (* 2, 3 or 4 *)
  tx_mode : N;                           (* 1: the neighbours have their layer and rank *)
  tx_m : N; tx_scale : N;                (* max_nb_connection; bits of the level scale (format 4) *)
  tx_lists : N;                          (* number of lists of each point *)
  tx_ef : N; tx_count : N; tx_dim : N;
  tx_dist : String.string; tx_type : String.string;
  tx_layers : list (list text_point);
  tx_entry : N * N * Z                   (* id, layer, rank of the entry point *)
}.

(** ** Graph file *)
Definition nbr_text (mode : N) (n : text_nbr) : list Byte.byte :=
  u64_bytes (tn_id n) ++ (if (mode =? 1)%N then u8_bytes (tn_layer n) ++ i32_bytes (tn_rank n) else []) ++ u32_bytes (tn_bits n).
Definition list_text (mode : N) (l : list text_nbr) : list Byte.byte :=
  u64_bytes (N.of_nat (length l)) ++ concat (nbr_text mode <$> l).
(** the point of layer l and rank r *)
Definition point_text (mode : N) (l r : nat) (p : text_point) : list Byte.byte :=
  u32_bytes 0x000a678f ++ u64_bytes (tp_id p) ++ u8_bytes (N.of_nat l) ++ i32_bytes (Z.of_nat r) ++ concat (list_text mode <$> tp_lists p).
Fixpoint points_text (mode : N) (l r : nat) (ps : list text_point) : list Byte.byte :=
  match ps with [] => [] | p :: ps => point_text mode l r p ++ points_text mode l (S r) ps end.
Fixpoint layers_text (mode : N) (l : nat) (ls : list (list text_point)) : list Byte.byte :=
  match ls with
  | [] => []
  | ps :: ls => u32_bytes 0x000a676f ++ u64_bytes (N.of_nat (length ps)) ++ points_text mode l 0 ps ++ layers_text mode (S l) ls
  end.
Definition name_text (s : String.string) : list Byte.byte := u64_bytes (N.of_nat (length (str_bytes s))) ++ str_bytes s.
Definition head_text (t : text) : list Byte.byte :=
  u32_bytes (if (tx_version t =? 2)%N then 0x002a677f else if (tx_version t =? 3)%N then 0x002a6771 else 0x002a6779)%N
  ++ u8_bytes (tx_mode t) ++ u8_bytes (tx_m t) ++ (if (tx_version t =? 4)%N then u64_bytes (tx_scale t) else [])
  ++ u8_bytes (tx_lists t) ++ u64_bytes (tx_ef t) ++ u64_bytes (tx_count t) ++ u64_bytes (tx_dim t)
  ++ name_text (tx_dist t) ++ name_text (tx_type t).
Definition graph_text (t : text) : list Byte.byte :=
  head_text t ++ u8_bytes (N.of_nat (length (tx_layers t))) ++ layers_text (tx_mode t) 0 (tx_layers t)
  ++ u64_bytes (tx_entry t).1.1 ++ u8_bytes (tx_entry t).1.2 ++ i32_bytes (tx_entry t).2.

(** ** Data file *)
Definition record_text (p : text_point) : list Byte.byte :=
  u32_bytes 0xa67f0000 ++ u64_bytes (tp_id p) ++ u64_bytes (N.of_nat (length (tp_bytes p))) ++ tp_bytes p.
Definition data_text (t : text) : list Byte.byte :=
  u32_bytes 0xa67f0000 ++ u64_bytes (tx_dim t) ++ concat (record_text <$> concat (tx_layers t)).

(** ** Which contents make sense *)

(** the numbers fit in their fields *)
Definition fits_nbr (mode : N) (n : text_nbr) : Prop :=
  (tn_id n < 2 ^ 64)%N /\ (tn_bits n < 2 ^ 32)%N /\
  (if (mode =? 1)%N then (tn_layer n < 256)%N /\ (- 2 ^ 31 <= tn_rank n < 2 ^ 31)%Z else tn_layer n = 0%N /\ tn_rank n = 0%Z).
Definition fits_point (mode : N) (p : text_point) : Prop :=
  (tp_id p < 2 ^ 64)%N /\ (N.of_nat (length (tp_bytes p)) < 2 ^ 64)%N /\
  Forall (fun l => (N.of_nat (length l) < 2 ^ 64)%N /\ Forall (fits_nbr mode) l) (tp_lists p).
Record fits (t : text) : Prop := {
  ft_version : tx_version t = 2%N \/ tx_version t = 3%N \/ tx_version t = 4%N;
  ft_bytes : (tx_mode t < 256)%N /\ (tx_m t < 256)%N /\ (tx_lists t < 256)%N;
  ft_scale : (tx_scale t < 2 ^ 64)%N;
  ft_words : (tx_ef t < 2 ^ 64)%N /\ (tx_count t < 2 ^ 64)%N /\ (tx_dim t < 2 ^ 64)%N;
  ft_names : forall s, s = tx_dist t \/ s = tx_type t -> utf8_valid (str_bytes s) = true /\ (length (str_bytes s) <= 256)%nat;
  ft_layers : forall ps, ps ∈ tx_layers t -> (Z.of_nat (length ps) <= 2 ^ 31)%Z /\ Forall (fits_point (tx_mode t)) ps;
  ft_entry : ((tx_entry t).1.1 < 2 ^ 64)%N /\ ((tx_entry t).1.2 < 256)%N /\ (- 2 ^ 31 <= (tx_entry t).2 < 2 ^ 31)%Z
}.

(** there is a point of this layer and rank *)
Definition refers (t : text) (layer : N) (rank : Z) : Prop :=
  (0 <= rank)%Z /\ exists ps, tx_layers t !! N.to_nat layer = Some ps /\ (Z.to_nat rank < length ps)%nat.

(** the vector that the bytes of a record stand for: none for NoData, bincode's in format 2, the elements one after the other later *)
Definition spelled {T} (el : elem T) (version dim : N) (b : list Byte.byte) (v : list T) : Prop :=
  if el_nodata el then v = []
  else if (version =? 2)%N then el_bincode el b = Some v
  else (dim * N.of_nat (el_size el) <= N.of_nat (length b))%N /\ v = dec_vec el (N.to_nat dim) b.

Record sensible {T} (el : elem T) (t : text) : Prop := {
  se_type : el_nodata el = true \/ tx_type t = el_name el;
  se_layers : (length (tx_layers t) <= 16)%nat;
  se_lists : (tx_lists t <= 16)%N /\ forall p, p ∈ concat (tx_layers t) -> length (tp_lists p) = N.to_nat (tx_lists t);
  se_count : (Z.of_nat (length (concat (tx_layers t))) <= as_i64 (tx_count t))%Z;
  se_refs : forall p l n, p ∈ concat (tx_layers t) -> l ∈ tp_lists p -> n ∈ l ->
    refers t (tn_layer n) (tn_rank n) /\ is_Some (f32_of (tn_bits n));
  se_entry : refers t (tx_entry t).1.2 (tx_entry t).2
}.

(** ** The index that the contents stand for *)
Definition nbr_of (n : text_nbr) : nbr :=
  Nbr (N.to_nat (tn_layer n), Z.to_nat (tn_rank n)) (match f32_of (tn_bits n) with Some d => d | None => 0%Z end).

(** the point of layer l and rank r: each of its 16 lists is the one of the file, sorted *)
Definition point_of {T} (so : StdOps) (el : elem T) (t : text) (l r : nat) (p : text_point) (pt : point (T:=T)) : Prop :=
  spelled el (tx_version t) (tx_dim t) (tp_bytes p) (pt_data pt) /\ pt_oid pt = tp_id p /\ pt_pid pt = (l, r) /\
  pt_nbs pt = ((fun ns => u_sort so nbr n_dist (nbr_of <$> ns)) <$> tp_lists p) ++ replicate (16 - N.to_nat (tx_lists t)) [].

Record stands_for {T} (so : StdOps) (el : elem T) (inv_ln : nat -> f64) (t : text) (h : hnsw (T:=T)) : Prop := {
  sf_ef : ef_construction h = N.to_nat (tx_ef t);
  sf_m : max_nb_connection h = N.to_nat (tx_m t);
  sf_extend : extend_candidates h = true;
  sf_keep : keep_pruned h = false;
  sf_maxlayer : max_layer h = 16%nat;
  sf_scale : level_scale h = f64_mul (inv_ln (N.to_nat (tx_m t))) (if (tx_version t =? 4)%N then f64_of_bits (tx_scale t) else f64_1);
  sf_nb : nb_point h = length (concat (tx_layers t));
  sf_entry : entry_point h = Some (N.to_nat (tx_entry t).1.2, Z.to_nat (tx_entry t).2);
  sf_searching : searching h = false;
  sf_layers : length (points_by_layer h) = length (tx_layers t) /\
    forall l ps, tx_layers t !! l = Some ps -> exists pts, points_by_layer h !! l = Some pts /\ length pts = length ps /\
      forall r p, ps !! r = Some p -> exists pt, pts !! r = Some pt /\ point_of so el t l r p pt
}.

(** ** What DataMap::from_hnswdump can map: a graph file that begins with a description of format 3 or 4 for the wanted type, and a data file with
    as many records as its length has room for if each had the announced dimension, each long enough for it. *)
Definition mappable {T} (el : elem T) (g d : list Byte.byte) (t : text) (recs : list (dataid * list Byte.byte)) : Prop :=
  (exists rest, g = head_text t ++ rest) /\ fits t /\ tx_version t <> 2%N /\ tx_type t = el_name el /\
  (exists tail, d = u32_bytes 0xa67f0000 ++ u64_bytes (tx_dim t) ++ concat ((fun r => record_text (TextPoint r.1 [] r.2)) <$> recs) ++ tail) /\
  N.of_nat (length recs) = (N.of_nat (length d - 12) / (20 + tx_dim t * N.of_nat (el_size el)))%N /\
  forall r, r ∈ recs -> (r.1 < 2 ^ 64)%N /\ (N.of_nat (length r.2) < 2 ^ 64)%N /\ (tx_dim t * N.of_nat (el_size el) <= N.of_nat (length r.2))%N.
(** the vector of the last record with this id *)
Definition mapped_vector {T} (el : elem T) (t : text) (recs : list (dataid * list Byte.byte)) (id : dataid) : option (list T) :=
  (fun r => dec_vec el (N.to_nat (tx_dim t)) r.2) <$> last (filter (fun r => r.1 = id) recs).
