(** Model of the functions that show or compare indexes: dump_layer_info, Point::debug_dump and
    check_graph_equality (hnsw.rs). What is printed is represented by the list of the values printed,
    one element for each line that depends on the index (the constant lines are left out). *)
From Verif Require Import Prelude Model.

(** l.482-494 PointIndexation::debug_dump, called by Hnsw::dump_layer_info (l.1399-1401): the lines
    "layer l : length : n" *)
Definition dump_layer_info {T} (h : hnsw (T:=T)) : outcome (list (nat * nat)) :=
  mapM (fun l => ly ← unwrap (points_by_layer h !! l); Ok (l, length ly))
       (seq 0 (S (get_max_level_observed h))).

(** l.244-258 Point::debug_dump: the PointId, the origin id, then, for each layer with neighbours, the
    layer ("neighbours at layer i") and the PointIds of the neighbours. [ref_neighbours] is indexed by
    positions below its length. *)
Definition point_debug_dump {T} (pt : point (T:=T)) : pid * dataid * list (nat * list pid) :=
  (pt_pid pt, pt_oid pt,
   filter (fun e => e.2 <> []) (imap (fun i nbs => (i, n_pid <$> nbs)) (pt_nbs pt))).

(** [for i in l { f(i) }], summing the results *)
Fixpoint for_sum (l : list nat) (f : nat -> outcome nat) : outcome nat :=
  match l with
  | [] => Ok 0
  | i :: l' => a ← f i; b ← for_sum l' f; Ok (a + b)
  end.

Section Check.
Context {T1 T2 : Type}.

(** l.1693-1700: one entry of the lists of neighbours. [==] of two f32 distances is equality of
    their order keys (NaN is outside of this model, and the two zeros have one key). *)
Definition check_entry (h1 : hnsw (T:=T1)) (h2 : hnsw (T:=T2)) (n1 n2 : nbr) : outcome nat :=
  q1 ← unwrap (get_pt h1 (n_pid n1));
  q2 ← unwrap (get_pt h2 (n_pid n2));
  _ ← assert_ (pt_oid q1 =? pt_oid q2)%N;
  _ ← assert_ (bool_decide (pt_pid q1 = pt_pid q2));
  _ ← assert_ (n_dist n1 =? n_dist n2)%Z;
  Ok 1.

(** l.1690-1702: the lists of layer [k] of two points *)
Definition check_list (h1 : hnsw (T:=T1)) (h2 : hnsw (T:=T2)) (nb1 nb2 : list (list nbr)) (k : nat) : outcome nat :=
  l1 ← unwrap (nb1 !! k);
  l2 ← unwrap (nb2 !! k);
  _ ← assert_ (length l1 =? length l2)%nat;
  for_sum (seq 0 (length l1)) (fun l =>
    n1 ← unwrap (l1 !! l); n2 ← unwrap (l2 !! l); check_entry h1 h2 n1 n2).

(** l.1677-1702: two points. Returns 1, the increment of nb_point_checked. *)
Definition check_point (h1 : hnsw (T:=T1)) (h2 : hnsw (T:=T2)) (p1 : point (T:=T1)) (p2 : point (T:=T2)) : outcome nat :=
  _ ← assert_ (pt_oid p1 =? pt_oid p2)%N;
  _ ← assert_ (bool_decide (pt_pid p1 = pt_pid p2));
  _ ← assert_ (length (pt_nbs p1) =? length (pt_nbs p2))%nat;
  _ ← for_sum (seq 0 (length (pt_nbs p1))) (check_list h1 h2 (pt_nbs p1) (pt_nbs p2));
  Ok 1.

(** l.1674-1703: the layer [i] *)
Definition check_layer (h1 : hnsw (T:=T1)) (h2 : hnsw (T:=T2)) (i : nat) : outcome nat :=
  ly1 ← unwrap (points_by_layer h1 !! i);
  ly2 ← unwrap (points_by_layer h2 !! i);
  _ ← assert_ (length ly1 =? length ly2)%nat;
  for_sum (seq 0 (length ly1)) (fun j =>
    p1 ← unwrap (ly1 !! j); p2 ← unwrap (ly2 !! j); check_point h1 h2 p1 p2).

(** l.1641-1708 check_graph_equality. The first assertion on entry points (l.1653-1657) reads hnsw1 twice. *)
Definition check_graph_equality (h1 : hnsw (T:=T1)) (h2 : hnsw (T:=T2)) : outcome unit :=
  _ ← assert_ (get_nb_point h1 =? get_nb_point h2)%nat;
  _ ← assert_ (bool_decide (is_Some (entry_point h1)) || bool_decide (is_Some (entry_point h1)));
  e1 ← unwrap (entry_point h1);
  e2 ← unwrap (entry_point h2);
  ep1 ← unwrap (get_pt h1 e1);
  ep2 ← unwrap (get_pt h2 e2);
  _ ← assert_ (pt_oid ep1 =? pt_oid ep2)%N;
  _ ← assert_ (bool_decide (pt_pid ep1 = pt_pid ep2));
  n ← for_sum (seq 0 NB_LAYER_MAX) (check_layer h1 h2);
  assert_ (n =? get_nb_point h1)%nat.
End Check.
