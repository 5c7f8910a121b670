(** Vocabulary of the statements about dump and reload. *)
From Coq Require Import Strings.String.
From Verif Require Import Prelude Model Io IoBase Spec.

(** A type name as it can be dumped and read back: valid UTF-8, at most 256 bytes. *)
Definition name_ok (s : String.string) : Prop :=
  utf8_valid (str_bytes s) = true /\ (length (str_bytes s) <= 256)%nat.

(** Every number of the index fits the Rust type that holds it (the model's numbers are unbounded):
    usize ids and ef, i32 ranks, i64 point count, f64 scale, non negative non NaN f32 distances. *)
Record machine_sized {T} (el : elem T) (h : hnsw (T:=T)) : Prop := {
  ms_ef : (N.of_nat (ef_construction h) < 2 ^ 64)%N;
  ms_nb : (N.of_nat (nb_point h) < 2 ^ 63)%N;
  ms_scale : f64_ok (level_scale h) = true;
  ms_point : forall p pt, point_at h p pt ->
     (Z.of_nat p.2 < 2 ^ 31)%Z /\ (pt_oid pt < 2 ^ 64)%N /\
     (N.of_nat (length (pt_data pt)) < 2 ^ 64)%N /\
     (N.of_nat (length (pt_data pt) * el_size el) < 2 ^ 64)%N;
  ms_dist : forall p l ns n, neighbours_at h p l ns -> n ∈ ns -> (0 <= distance n <= 2139095040)%Z
}.

(** The keys of a list, in the order of their first appearance. *)
Fixpoint first_seen (l : list dataid) : list dataid :=
  match l with
  | [] => []
  | x :: l => x :: filter (fun y => y <> x) (first_seen l)
  end.

(** The vector of the last point of [pts] that has the given id. *)
Definition last_vector {T} (pts : list (point (T:=T))) (id : dataid) : option (list T) :=
  pt_data <$> last (filter (fun pt => pt_oid pt = id) pts).

(** All stored vectors have the same length. *)
Definition uniform {T} (h : hnsw (T:=T)) : Prop :=
  exists dim : nat, forall p v, vector_at h p v -> length v = dim.

(** sort_unstable leaves a list that is already sorted as it is. Rust's documentation does not
    promise it when there are equal keys; its implementation does it. *)
Definition keeps_sorted (so : StdOps) : Prop :=
  forall A (key : A -> Z) (l : list A), sorted_by key l -> u_sort so A key l = l.

(** The two files of a dump are present in [fs] under base name [base] in [dir]. *)
Definition dump_at (fs : fsys) (cwd : list String.string) (dir : path) (base : String.string)
    (g d : list Byte.byte) : Prop :=
  fs_read fs cwd (graph_file dir base) = Some g /\ fs_read fs cwd (data_file dir base) = Some d.

(** A directory for which pushing it on itself changes nothing: absolute, or the working directory
    (".") *)
Definition plain_dir (dir : path) : Prop := pa_abs dir = true \/ pa_comps dir = [].

(** [h'] shows through the API the same points and graph as [h], vectors aside: same counts, same
    entry point, same ids and PointIds in iteration order, and for each point and layer the same
    neighbours with the same distances, in non decreasing order of distance (equal distances may be
    reported in another order). *)
Record same_graph {T T'} (h : hnsw (T:=T)) (h' : hnsw (T:=T')) : Prop := {
  sg_nb : get_nb_point h' = get_nb_point h;
  sg_layer : forall l, get_layer_nb_point h' l = get_layer_nb_point h l;
  sg_entry : entry_point h' = entry_point h;
  sg_iter : exists pts pts', iter_points h = Ok pts /\ iter_points h' = Ok pts' /\
              pt_oid <$> pts' = pt_oid <$> pts /\ pt_pid <$> pts' = pt_pid <$> pts;
  sg_nbs : forall p l ns, neighbours_at h p l ns ->
              exists ns', neighbours_at h' p l ns' /\ ns' ≡ₚ ns /\ sorted_by distance ns';
  sg_nbs_back : forall p l ns', neighbours_at h' p l ns' -> exists ns, neighbours_at h p l ns
}.

(** every PointId has the same vector in both *)
Definition same_vectors {T} (h h' : hnsw (T:=T)) : Prop :=
  forall p v, vector_at h' p v <-> vector_at h p v.

(** the neighbour lists are reported in the same order *)
Definition same_lists {T T'} (h : hnsw (T:=T)) (h' : hnsw (T:=T')) : Prop :=
  forall p l ns, neighbours_at h' p l ns <-> neighbours_at h p l ns.

(** Sorting the neighbour lists of [h] again leaves them as they are: either the sort keeps sorted lists,
    or no list has two neighbours at the same distance. *)
Definition order_kept (so : StdOps) {T} (h : hnsw (T:=T)) : Prop :=
  keeps_sorted so \/ forall p l ns, neighbours_at h p l ns -> NoDup (distance <$> ns).

(** [c] is the last component of the path [s]: what follows the last "::", or all of [s] *)
Definition last_component (s c : String.string) : Prop :=
  (s = c \/ exists pre, s = String.append pre (String.append "::"%string c)) /\
  c <> ""%string /\ ~ In Byte.x3a (str_bytes c).

(** ids given to the points of the index are pairwise different *)
Definition distinct_ids {T} (hist : list (list T * dataid)) : Prop := NoDup hist.*2.

(** What dumping needs of the index and of its types: a sound memory representation, type names
    that fit, 16 layers asked for, at least one point, numbers within machine bounds. *)
Record dump_ready {T} (el : elem T) (dname : String.string) (ml : nat)
    (hist : list (list T * dataid)) (h : hnsw (T:=T)) : Prop := {
  dr_elem : elem_ok el;
  dr_dname : name_ok dname;
  dr_tname : name_ok (el_name el);
  dr_layers : (16 <= ml)%nat;
  dr_points : hist <> [];
  dr_sized : machine_sized el h
}.

(** [c] is the first component of the path [s]: what precedes the first "::", or all of [s] *)
Definition first_component (s c : String.string) : Prop :=
  (s = c \/ exists post, s = String.append c (String.append "::"%string post) /\
              forall l, str_bytes post <> Byte.x3a :: l) /\
  c <> ""%string /\ ~ In Byte.x3a (str_bytes c).
