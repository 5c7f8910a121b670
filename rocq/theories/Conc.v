(** Model of the concurrent use of an index: parallel_insert, searches, iterations and dumps running at the same
    time. Every definition cites the lines of /repo/src/hnsw.rs it models (or of hnswio.rs, when it says so).

    A thread is a program whose steps are the accesses the Rust code makes to shared data, with the
    acquisition and the release of the RwLock that protects each of them. A configuration interleaves the steps of
    its threads in any order. The locks are those of parking_lot: a writer first sets the
    writer bit of the lock, which stops later readers, then waits for the present readers to leave.

    Simplifications: the vector, the id and the PointId of a point never change after its creation (they are not
    protected by a lock in Rust either), so reading them is a step without lock; the parameters of the index
    cannot change while it is shared (their setters take &mut self); the random generator's mutex (l.360)
    is taken and released within one step, as it is never held while another lock is taken. Rayon runs each
    insertion on one of its threads; here every insertion is a thread, which allows all the interleavings of
    any number of rayon threads. Memory operations under a lock are sequentially consistent. A panic ends
    its thread in [Halt Panic] with its locks still held and the modification it was making undone; in Rust the guards
    are dropped by the unwinding. *)
From Verif Require Import Prelude Model.

(** The locks: PointIndexation::points_by_layer, nb_point, entry_point (l.391-404) and Point::neighbours (l.172). *)
Inductive lockid : Type := LTable | LCount | LEntry | LPoint (p : pid).
Global Instance lockid_eq_dec : EqDecision lockid.
Proof. solve_decision. Defined.
Inductive lmode : Type := Rd | Wr.

Section Conc.
Context {T : Type} (dist : list T -> list T -> Z) (so : StdOps).
Local Notation hnsw := (hnsw (T:=T)).
Local Notation heap := (heap so).

(** ** Programs *)

(** [Halt] the end, or a panic; [Lock Rd l]: [l.read()]; [Lock Wr l]: [l.write()]; [Pend l]: the writer bit of
    [l] is set, waiting for the readers; [Unlock]: the guard is dropped; [Do f k]: an access to shared data, which
    changes it with [f]. *)
Inductive prog (A : Type) : Type :=
| Halt (o : outcome A)
| Lock (m : lmode) (l : lockid) (k : prog A)
| Pend (l : lockid) (k : prog A)
| Unlock (m : lmode) (l : lockid) (k : prog A)
| Do (f : hnsw -> hnsw) (k : hnsw -> prog A).
Arguments Halt {A} o.
Arguments Lock {A} m l k.
Arguments Pend {A} l k.
Arguments Unlock {A} m l k.
Arguments Do {A} f k.

Definition of_outcome {A B} (o : outcome A) (k : A -> prog B) : prog B :=
  match o with
  | Ok a => k a
  | Err => Halt Err
  | Panic => Halt Panic
  | Exit => Halt Exit
  | Fuel => Halt Fuel
  | UB => Halt UB
  end.

Fixpoint pbind {A B} (p : prog A) (k : A -> prog B) : prog B :=
  match p with
  | Halt o => of_outcome o k
  | Lock m l q => Lock m l (pbind q k)
  | Pend l q => Pend l (pbind q k)
  | Unlock m l q => Unlock m l (pbind q k)
  | Do f q => Do f (fun h => pbind (q h) k)
  end.
Global Instance prog_bind : MBind prog := fun A B k p => pbind p k.

Definition ret {A} (a : A) : prog A := Halt (Ok a).

(** an access without lock to data that cannot change *)
Definition peek {A} (f : hnsw -> outcome A) : prog A := Do id (fun h => Halt (f h)).

(** an access under a read lock held for that access only *)
Definition with_read {A} (l : lockid) (f : hnsw -> outcome A) : prog A :=
  Lock Rd l (Do id (fun h => Unlock Rd l (Halt (f h)))).

(** a modification under a write lock held for that modification only *)
Definition with_write {A} (l : lockid) (f : hnsw -> outcome (hnsw * A)) : prog A :=
  Lock Wr l (Do (fun h => match f h with Ok (h', _) => h' | _ => h end)
                (fun h => Unlock Wr l (Halt (snd <$> f h)))).

(** ** search_layer (l.911-1042) *)

(** l.960-984: the next candidate, or the end of the search *)
Definition next_candidate (ef : nat) (filter : option (dataid -> bool)) (s : sst so) : outcome (heap + pid) :=
  match h_pop so (s_cand so s) with
  | None => Ok (inl (s_ret so s))
  | Some (c, _) =>
      f ← unwrap (h_peek so (s_ret so s));
      _ ← assert_ (0 <=? n_dist f)%Z;
      _ ← assert_ (n_dist c <=? 0)%Z;
      if (n_dist f <? - n_dist c)%Z &&
         match filter with None => true | Some _ => (ef <=? h_len so (s_ret so s))%nat end
      then Ok (inl (s_ret so s))
      else Ok (inr (n_pid c))
  end.

(** l.960-1035: the [while] loop; the read lock on the candidate's neighbours (l.984) is held during one iteration *)
Fixpoint search_loop_p (fuel : nat) (q : list T) (ef layer : nat) (filter : option (dataid -> bool))
    (s : sst so) : prog heap :=
  match fuel with
  | O => Halt Fuel
  | S fuel =>
      r ← Halt (next_candidate ef filter s);
      match r with
      | inl res => ret res
      | inr c =>
          r ← with_read (LPoint c) (fun h => search_iter dist so h q ef layer filter s);
          match r with
          | inl res => ret res
          | inr s' => search_loop_p fuel q ef layer filter s'
          end
      end
  end.

Definition is_empty {A} (l : list A) : bool := match l with [] => true | _ => false end.

(** l.911-1042; the table is locked for the test of l.933 only *)
Definition search_layer_p (fuel : nat) (q : list T) (ep : pid) (ef layer : nat)
    (filter : option (dataid -> bool)) : prog heap :=
  e ← with_read LTable (fun h => is_empty <$> unwrap (points_by_layer h !! layer));
  if (e : bool) then ret (h_empty so)
  else
    s ← peek (fun h => search_init dist so h q ep);
    search_loop_p fuel q ef layer filter s.

(** ** select_neighbours (l.1274-1396) *)

(** reading the list of a point at a layer *)
Definition read_list (p : pid) (l : nat) (h : hnsw) : outcome (list nbr) :=
  pt ← unwrap (get_pt h p);
  unwrap (pt_nbs pt !! l).

(** l.1317-1328: one read lock per candidate (l.1319) *)
Fixpoint collect_p (layer : nat) (cset todo acc : list pid) : prog (list pid) :=
  match todo with
  | [] => ret acc
  | p :: todo' =>
      nbs ← with_read (LPoint p) (read_list p layer);
      collect_p layer cset todo' (add_new_candidates cset nbs acc)
  end.

(** l.1311-1337 *)
Definition extend_cands_p (data : list T) (layer : nat) (cand : heap) : prog heap :=
  let cset := remove_dups (n_pid <$> h_iter so cand) in
  news ← collect_p layer cset (m_iter so pid cset) [];
  peek (fun h => push_candidates dist so h data (m_iter so pid news) cand).

(** l.1274-1396; l.1338-1383 read vectors only *)
Definition select_neighbours_p (data : list T) (cand : heap) (asked : nat) (extend_asked : bool)
    (layer : nat) (keep : bool) : prog (list nbr) :=
  let few := (h_len so cand <=? asked)%nat in
  if few && negb extend_asked then Halt (transfer so (h_len so cand) cand [])
  else
    cand1 ← (if few then extend_cands_p data layer cand else ret cand);
    peek (fun h =>
      '(nv, disc) ← select_loop dist so (h_len so cand1) h asked keep cand1 [] (h_empty so);
      if keep then keep_loop so (h_len so disc) asked nv disc else Ok nv).

(** ** Insertion *)

(** l.1106-1132; the length is read under a read lock (l.1118), the neighbour pushed under a write lock (l.1121) *)
Definition descend_use_p (np : pid) (data : list T) (l : nat) (sorted : heap) (ep : pid) (dte : Z)
    : prog (pid * Z) :=
  if (1 <? h_len so sorted)%nat then Halt Panic
  else
    match h_pop so sorted with
    | None => ret (ep, dte)
    | Some (e, _) =>
        short ← with_read (LPoint np) (fun h =>
                  nbs ← read_list np l h; Ok (length nbs <? get_max_nb_connection h)%nat);
        _ ← (if (short : bool) then
               with_write (LPoint np) (fun h => h1 ← upd_nbs h np l (fun nbs => nbs ++ [e]); Ok (h1, tt))
             else ret tt);
        tmp ← peek (fun h => ept ← unwrap (get_pt h (n_pid e)); Ok (dist data (pt_data ept)));
        ret (if (tmp <? dte)%Z then (n_pid e, tmp) else (ep, dte))
    end.

(** l.1092-1133 *)
Fixpoint descend_p (fuel : nat) (ls : list nat) (np : pid) (data : list T) (ep : pid) (dte : Z) : prog pid :=
  match ls with
  | [] => ret ep
  | l :: ls' =>
      sorted ← search_layer_p fuel data ep 1 l None;
      r ← descend_use_p np data l sorted ep dte;
      descend_p fuel ls' np data r.1 r.2
  end.

(** l.1151-1182; the new list is written under a write lock (l.1175) *)
Definition connect_use_p (np : pid) (data : list T) (l : nat) (found : heap) (ep : pid) : prog pid :=
  neg ← Halt (from_positive_to_negative so found);
  if (h_len so neg =? 0)%nat then ret ep
  else
    cfg ← peek (fun h => Ok (nb_conn h l, extend_c h l, keep_pruned h));
    nv ← select_neighbours_p data neg cfg.1.1 cfg.1.2 l cfg.2;
    let nv := u_sort so nbr n_dist nv in
    _ ← with_write (LPoint np) (fun h => h1 ← upd_nbs h np l (fun _ => nv); Ok (h1, tt));
    ret (match nv with [] => ep | n :: _ => n_pid n end).

(** l.1136-1183 *)
Fixpoint connect_p (fuel : nat) (ls : list nat) (np : pid) (data : list T) (ep : pid) : prog unit :=
  match ls with
  | [] => ret tt
  | l :: ls' =>
      ef ← peek (fun h => Ok (ef_construction h));
      found ← search_layer_p fuel data ep ef l None;
      ep1 ← connect_use_p np data l found ep;
      connect_p fuel ls' np data ep1
  end.

(** l.1225-1260: the write lock on the neighbours of q (l.1228) *)
Definition rev_one_p (np : pid) (q : nbr) : prog unit :=
  if bool_decide (np = n_pid q) then ret tt
  else with_write (LPoint (n_pid q)) (fun h => h1 ← rev_one so h np q; Ok (h1, tt)).

Fixpoint rev_many_p (np : pid) (qs : list nbr) : prog unit :=
  match qs with
  | [] => ret tt
  | q :: qs' => _ ← rev_one_p np q; rev_many_p np qs'
  end.

(** l.1224-1261: the read lock on the neighbours of the new point (l.1224) is held during the whole inner loop *)
Definition rev_layer_p (np : pid) (l : nat) : prog unit :=
  Lock Rd (LPoint np)
    (qs ← peek (read_list np l);
     _ ← rev_many_p np qs;
     Unlock Rd (LPoint np) (ret tt)).

(** l.1216-1264 reverse_update_neighborhood_simple *)
Fixpoint rev_layers_p (ls : list nat) (np : pid) : prog unit :=
  match ls with
  | [] => ret tt
  | l :: ls' => _ ← rev_layer_p np l; rev_layers_p ls' np
  end.

(** l.530-553 check_entry_point *)
Definition check_entry_point_p (np : pid) : prog unit :=
  with_write LEntry (fun h => Ok (check_entry_point h np, tt)).

(** l.1055-1193 insert_slice with l.499-527 generate_new_point. The PointId given to the point is returned
    (the Rust function returns nothing). *)
Definition insert_p (fuel : nat) (data : list T) (oid : dataid) (d : draw) : prog pid :=
  level ← peek (fun h => generate (level_scale h) (max_layer h) d);
  np ← with_write LTable (fun h => push_point h data oid level);
  rank ← with_write LCount (fun h => Ok (incr_nb_point h));
  eo ← with_read LEntry (fun h => Ok (entry_point h));
  match eo with
  | None => _ ← check_entry_point_p np; ret np
  | Some ep =>
      if (rank =? 1)%nat then ret np
      else
        dte ← peek (fun h => ept ← unwrap (get_pt h ep); Ok (dist data (pt_data ept)));
        let level := np.1 in
        ep1 ← descend_p fuel (rev (seq (S level) (ep.1 - level))) np data ep dte;
        _ ← connect_p fuel (rev (seq 0 (S level))) np data ep1;
        _ ← rev_layers_p (rev (seq 0 (S level))) np;
        _ ← check_entry_point_p np;
        ret np
  end.

(** ** Searching (l.1462-1535) *)

(** l.1486-1504; one read lock per layer (l.1490) *)
Fixpoint pivot_descend_p (ls : list nat) (data : list T) (pivot : pid) (dte : Z) : prog pid :=
  match ls with
  | [] => ret pivot
  | l :: ls' =>
      r ← with_read (LPoint pivot) (fun h =>
            nbs ← read_list pivot l h; pivot_scan dist h data nbs pivot dte);
      pivot_descend_p ls' data r.1 r.2
  end.

(** l.561-568 get_layer_nb_point takes the table's lock twice, one after the other (l.562 and l.564). *)
Definition layer_nb_point_p (l : nat) : prog nat :=
  n ← with_read LTable (fun h => Ok (length (points_by_layer h)));
  if (l <? n)%nat then with_read LTable (fun h => Ok (get_layer_nb_point h l)) else ret 0.

(** l.1509-1515. [n] bounds the number of layers tried. *)
Fixpoint lowest_p (n l : nat) : prog nat :=
  match n with
  | O => Halt Fuel
  | S n =>
      k ← layer_nb_point_p l;
      if (0 <? k)%nat then ret l else lowest_p n (S l)
  end.

(** l.1462-1535 *)
Definition search_filter_p (fuel : nat) (data : list T) (knbn ef_arg : nat) (filter : option (dataid -> bool))
    : prog (list neighbour) :=
  eo ← with_read LEntry (fun h => Ok (entry_point h));
  match eo with
  | None => ret []
  | Some ep =>
      dte ← peek (fun h => ept ← unwrap (get_pt h ep); Ok (dist data (pt_data ept)));
      pivot ← pivot_descend_p (rev (seq 1 ep.1)) data ep dte;
      let ef := Nat.max ef_arg knbn in
      l ← lowest_p NB_LAYER_MAX 0;
      hp ← search_layer_p fuel data pivot ef l filter;
      let neighbours := h_sorted so hp in
      let last := Nat.min (Nat.min knbn ef) (length neighbours) in
      peek (fun h => mapM (to_answer h) (take last neighbours))
  end.

(** ** Iterating (l.626-680) *)

(** l.649-680 IterPoint::next. The iterator holds a read lock on the table (l.635); at the end of a layer it
    takes a read lock on the entry point (l.662) and a second one on the table (l.663). *)
Definition iter_next_p (st : iter_state) : prog (option (point (T:=T)) * iter_state) :=
  let '(layer, slot) := match st with None => (0, 0) | Some s => s end in
  o ← peek (fun h => ly ← unwrap (points_by_layer h !! layer); Ok (ly !! slot));
  match o with
  | Some pt => ret (Some pt, Some (layer, S slot))
  | None =>
      Lock Rd LEntry (Lock Rd LTable
        (r ← peek (fun h => iter_next h st);
         Unlock Rd LTable (Unlock Rd LEntry (ret r))))
  end.

Fixpoint iter_collect_p (fuel : nat) (st : iter_state) : prog (list (point (T:=T))) :=
  match fuel with
  | O => Halt Fuel
  | S fuel =>
      r ← iter_next_p st;
      match r.1 with
      | None => ret []
      | Some pt => rest ← iter_collect_p fuel r.2; ret (pt :: rest)
      end
  end.

(** [for pt in get_point_indexation()]: l.633-643 and the loop *)
Definition iter_points_p (fuel : nat) : prog (list (point (T:=T))) :=
  Lock Rd LTable (l ← iter_collect_p fuel None; Unlock Rd LTable (ret l)).

(** ** Dumping (hnswio.rs l.1303-1397) *)

(** What a dump reads of a point: its id, its PointId, its vector and what get_neighborhood_id returns. *)
Record dpoint : Type := DPoint {
  dp_oid : dataid;
  dp_pid : pid;
  dp_data : list T;
  dp_lists : list (list neighbour)
}.

(** All that a dump reads of what can change: the dimension and the number of points written in the description, the points of
    each layer, the id and the PointId of the entry point. The files are written from it (ConcDump.v). *)
Record dumped : Type := Dumped {
  dd_dim : nat;
  dd_nb : nat;
  dd_layers : list (list dpoint);
  dd_entry : option (dataid * pid)
}.

(** hnswio.rs l.1316-1319: the points of layer i from rank j on; the read lock of each point is taken by get_neighborhood_id
    (hnsw.rs l.222) *)
Fixpoint dump_points_p (i j n : nat) : prog (list dpoint) :=
  match n with
  | O => ret []
  | S n =>
      s ← peek (fun h => pt ← unwrap (get_pt h (i, j));
                  _ ← assert_ (bool_decide (pt_pid pt = (i, j)));
                  Ok (pt_oid pt, pt_pid pt, pt_data pt));
      lists ← with_read (LPoint (i, j)) (fun h => pt ← unwrap (get_pt h (i, j)); get_neighborhood_id h pt);
      rest ← dump_points_p i (S j) n;
      ret (DPoint s.1.1 s.1.2 s.2 lists :: rest)
  end.

(** hnswio.rs l.1311-1320: the layers from i on *)
Fixpoint dump_layers_p (i n : nat) : prog (list (list dpoint)) :=
  match n with
  | O => ret []
  | S n =>
      len ← peek (fun h => ly ← unwrap (points_by_layer h !! i); Ok (length ly));
      pts ← dump_points_p i 0 len;
      rest ← dump_layers_p (S i) n;
      ret (pts :: rest)
  end.

(** hnswio.rs l.1322-1326: the entry point, under its read lock (l.1322) *)
Definition dump_entry_p : prog (option (dataid * pid)) :=
  with_read LEntry (fun h =>
    match entry_point h with
    | None => Ok None
    | Some ep => pt ← unwrap (get_pt h ep); Ok (Some (pt_oid pt, pt_pid pt))
    end).

(** hnswio.rs l.1357-1397 with l.1303-1340: the dimension is read under the lock of the entry point (hnsw.rs l.572), then the
    number of points under its lock (hnsw.rs l.557), then everything else under a read lock on the table (hnswio.rs l.1308) *)
Definition dump_p : prog dumped :=
  dim ← with_read LEntry (fun h => Ok (get_data_dimension h));
  nb ← with_read LCount (fun h => Ok (nb_point h));
  Lock Rd LTable
    (n ← peek (fun h => Ok (length (points_by_layer h)));
     lys ← dump_layers_p 0 n;
     e ← dump_entry_p;
     Unlock Rd LTable (ret (Dumped dim nb lys e))).

(** ** Threads and their interleavings *)

(** what a thread returns *)
Inductive tres : Type :=
| RInserted (p : pid)
| RFound (ns : list neighbour)
| RPoints (pts : list (point (T:=T)))
| RDumped (d : dumped).

(** what a thread has to do *)
Inductive task : Type :=
| TInsert (data : list T) (oid : dataid) (d : draw)
| TSearch (q : list T) (knbn ef : nat) (filter : option (dataid -> bool))
| TIterate
| TDump.

Definition start (fuel : nat) (t : task) : prog tres :=
  match t with
  | TInsert data oid d => np ← insert_p fuel data oid d; ret (RInserted np)
  | TSearch q k ef f => ns ← search_filter_p fuel q k ef f; ret (RFound ns)
  | TIterate => l ← iter_points_p fuel; ret (RPoints l)
  | TDump => d ← dump_p; ret (RDumped d)
  end.

(** a parking_lot RwLock: the threads that hold it for reading (once per guard), the thread that set the writer bit *)
Record lockst : Type := Lk { lk_readers : list nat; lk_writer : option nat }.

Record config : Type := Config {
  c_sh : hnsw;
  c_locks : lockid -> lockst;
  c_threads : list (prog tres)
}.

Definition upd_lock (l : lockid) (s : lockst) (ls : lockid -> lockst) : lockid -> lockst :=
  fun l' => if decide (l' = l) then s else ls l'.

Fixpoint remove_one (i : nat) (l : list nat) : list nat :=
  match l with
  | [] => []
  | j :: l' => if decide (j = i) then l' else j :: remove_one i l'
  end.

(** One step of thread [i]; [None] when it is blocked or finished. *)
Definition step (i : nat) (c : config) : option config :=
  p ← c_threads c !! i;
  match p with
  | Halt _ => None
  | Lock Rd l k =>
      match lk_writer (c_locks c l) with
      | None => Some (Config (c_sh c)
                  (upd_lock l (Lk (i :: lk_readers (c_locks c l)) None) (c_locks c)) (<[i := k]> (c_threads c)))
      | Some _ => None
      end
  | Lock Wr l k =>
      match lk_writer (c_locks c l) with
      | None => Some (Config (c_sh c)
                  (upd_lock l (Lk (lk_readers (c_locks c l)) (Some i)) (c_locks c)) (<[i := Pend l k]> (c_threads c)))
      | Some _ => None
      end
  | Pend l k =>
      match lk_readers (c_locks c l) with
      | [] => Some (Config (c_sh c) (c_locks c) (<[i := k]> (c_threads c)))
      | _ => None
      end
  | Unlock Rd l k =>
      Some (Config (c_sh c)
        (upd_lock l (Lk (remove_one i (lk_readers (c_locks c l))) (lk_writer (c_locks c l))) (c_locks c))
        (<[i := k]> (c_threads c)))
  | Unlock Wr l k =>
      Some (Config (c_sh c) (upd_lock l (Lk (lk_readers (c_locks c l)) None) (c_locks c)) (<[i := k]> (c_threads c)))
  | Do f k => Some (Config (f (c_sh c)) (c_locks c) (<[i := k (c_sh c)]> (c_threads c)))
  end.

(** a step of any thread *)
Definition cstep (c c' : config) : Prop := exists i, step i c = Some c'.

(** The index [h], no lock held, and one thread per task. The fuel of the loops is the largest number of points
    there can be: no loop uses it up (proved below for each property that needs it). *)
Definition initial (h : hnsw) (ts : list task) : config :=
  Config h (fun _ => Lk [] None)
    (start (S (S (S (table_size h + length ts)))) <$> ts).

(** every thread has returned *)
Definition finished (c : config) (rs : list tres) : Prop := c_threads c = (fun r => Halt (Ok r)) <$> rs.

(** running a program alone *)
Fixpoint run {A} (p : prog A) (h : hnsw) : outcome (hnsw * A) :=
  match p with
  | Halt o => (fun a => (h, a)) <$> o
  | Lock _ _ k | Pend _ k | Unlock _ _ k => run k h
  | Do f k => run (k h) (f h)
  end.

End Conc.

Arguments Halt {T A} o.
Arguments Lock {T A} m l k.
Arguments Pend {T A} l k.
Arguments Unlock {T A} m l k.
Arguments Do {T A} f k.
Arguments RInserted {T} p.
Arguments RFound {T} ns.
Arguments RPoints {T} pts.
Arguments TInsert {T} data oid d.
Arguments TSearch {T} q knbn ef filter.
Arguments TIterate {T}.
Arguments TDump {T}.
Arguments RDumped {T} d.
Arguments DPoint {T}. Arguments dp_oid {T}. Arguments dp_pid {T}. Arguments dp_data {T}. Arguments dp_lists {T}.
Arguments Dumped {T}. Arguments dd_dim {T}. Arguments dd_nb {T}. Arguments dd_layers {T}. Arguments dd_entry {T}.
