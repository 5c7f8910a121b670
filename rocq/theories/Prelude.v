(** Prelude: outcomes, point identifiers, and the interface to Rust's standard
    containers. *)
From Coq Require Export ZArith Lia Sorting.Sorted Permutation.
From Coq Require Export ZifyBool ZifyNat ZifyN.
From stdpp Require Export numbers list_numbers list.

(** Result of running a piece of Rust code.
    [Ok] normal return (or [Ok(_)]), [Err] an [Err(_)] returned to the caller,
    [Panic] a panic ([unwrap], [assert!], index out of bounds, [panic!]),
    [Exit] [std::process::exit], [Fuel] a loop of the model that used up its
    fuel (stands for non termination), [UB] an out of bounds access through a raw
    pointer (undefined behaviour). *)
Inductive outcome (A : Type) : Type :=
| Ok (a : A)
| Err
| Panic
| Exit
| Fuel
| UB.
Arguments Ok {A} a.
Arguments Err {A}.
Arguments Panic {A}.
Arguments Exit {A}.
Arguments Fuel {A}.
Arguments UB {A}.

Global Instance outcome_ret : MRet outcome := @Ok.
Global Instance outcome_bind : MBind outcome := fun A B k m =>
  match m with
  | Ok a => k a
  | Err => Err
  | Panic => Panic
  | Exit => Exit
  | Fuel => Fuel
  | UB => UB
  end.
Global Instance outcome_fmap : FMap outcome := fun A B f m =>
  match m with
  | Ok a => Ok (f a)
  | Err => Err
  | Panic => Panic
  | Exit => Exit
  | Fuel => Fuel
  | UB => UB
  end.

(** [Option::unwrap], indexing: [None] is a panic. *)
Definition unwrap {A} (o : option A) : outcome A :=
  match o with Some a => Ok a | None => Panic end.

(** [assert!] *)
Definition assert_ (b : bool) : outcome unit := if b then Ok tt else Panic.

Definition is_ok {A} (m : outcome A) : Prop := exists a, m = Ok a.

(** hnsw.rs l.41: NB_LAYER_MAX *)
Definition NB_LAYER_MAX : nat := 16.

(** hnsw.rs l.45: PointId(u8, i32), layer and rank in layer. The rank of a stored point
    is never negative (l.507), so both are naturals; the API entry points that
    accept arbitrary ranks take a Z. *)
Definition pid : Type := nat * nat.

(** hnsw.rs l.50: DataId = usize *)
Definition dataid : Type := N.

(** hnsw.rs l.265-271: PointWithOrder. The [Arc<Point>] is represented by the PointId it
    carries; [n_dist] is the order key of the f32 [dist_to_ref]. *)
Record nbr : Type := Nbr { n_pid : pid; n_dist : Z }.

(** hnsw.rs l.99: Neighbour, the public answer type. *)
Record neighbour : Type := Neighbour { d_id : dataid; distance : Z; p_id : pid }.

(** Sorted by non decreasing key. *)
Definition sorted_by {A} (key : A -> Z) (l : list A) : Prop :=
  StronglySorted (fun a b => (key a <= key b)%Z) l.

(** Rust's standard containers as used by the crate, over PointWithOrder (ordered by
    distance only, hnsw.rs l.282-297). *)
Record StdOps : Type := {
  heap : Type;                                     (* BinaryHeap<Arc<PointWithOrder>> *)
  h_empty : heap;                                  (* BinaryHeap::new *)
  h_push : nbr -> heap -> heap;                    (* push *)
  h_pop : heap -> option (nbr * heap);             (* pop (peek returns the same element) *)
  h_iter : heap -> list nbr;                       (* iter: unspecified order *)
  h_sorted : heap -> list nbr;                     (* into_sorted_vec *)
  u_sort : forall A : Type, (A -> Z) -> list A -> list A;   (* sort_unstable *)
  m_iter : forall A : Type, list A -> list A       (* HashMap iteration order of distinct keys *)
}.

(** What the documentation of std guarantees about them. *)
Record StdLaws (so : StdOps) : Prop := {
  law_iter_empty : h_iter so (h_empty so) = [];
  law_push : forall x h, h_iter so (h_push so x h) ≡ₚ x :: h_iter so h;
  law_pop_none : forall h, h_pop so h = None -> h_iter so h = [];
  law_pop_some : forall h x h', h_pop so h = Some (x, h') ->
      h_iter so h ≡ₚ x :: h_iter so h' /\
      Forall (fun y => (n_dist y <= n_dist x)%Z) (h_iter so h');
  law_sorted_perm : forall h, h_sorted so h ≡ₚ h_iter so h;
  law_sorted : forall h, sorted_by n_dist (h_sorted so h);
  law_usort_perm : forall A key (l : list A), u_sort so A key l ≡ₚ l;
  law_usort : forall A key (l : list A), sorted_by key (u_sort so A key l);
  law_miter : forall A (l : list A), m_iter so A l ≡ₚ l
}.
