(** The calls made to the distance function. The functions of Model.v that compute distances, rewritten as programs that do not know
    the distance: each time the Rust code calls [dist_f.eval(a, b)], the program asks for the distance of [a] and [b] and waits for
    the answer. Running such a program with a distance gives back the function of Model.v (CallsProofs.v); running it also lists the
    calls made, and can be done with a distance that panics on some arguments. All line numbers are those of /repo/src/hnsw.rs. *)
From Verif Require Import Prelude Model.
Local Open Scope list_scope.

Section Calls.
Context {T : Type}.

Inductive dprog (A : Type) : Type :=
| Done (o : outcome A)
| Ask (h : hnsw (T:=T)) (a b : list T) (k : Z -> dprog A).       (* dist_f.eval(a, b), called when the index is h *)
Arguments Done {A} o.
Arguments Ask {A} h a b k.

Fixpoint dbind {A B} (p : dprog A) (k : A -> dprog B) : dprog B :=
  match p with
  | Done (Ok a) => k a
  | Done Err => Done Err
  | Done Panic => Done Panic
  | Done Exit => Done Exit
  | Done Fuel => Done Fuel
  | Done UB => Done UB
  | Ask h a b q => Ask h a b (fun z => dbind (q z) k)
  end.
Global Instance dprog_bind : MBind dprog := fun A B k p => dbind p k.
Definition eval (h : hnsw (T:=T)) (a b : list T) : dprog Z := Ask h a b (fun z => Done (Ok z)).

(** A distance that may panic: [d a b] is what the call returns, a distance or an abnormal end, which is then the end of the caller. *)
Fixpoint run {A} (d : list T -> list T -> outcome Z) (p : dprog A) : outcome A :=
  match p with
  | Done o => o
  | Ask _ a b k => z ← d a b; run d (k z)
  end.
(** the calls made with the distance [dist], in order *)
Fixpoint calls {A} (dist : list T -> list T -> Z) (p : dprog A) : list (list T * list T) :=
  match p with
  | Done _ => []
  | Ask _ a b k => (a, b) :: calls dist (k (dist a b))
  end.
(** the index as it is when a call does not return a distance, if that happens: the caller ends there, its guards are dropped (parking_lot
    locks are not poisoned) and what it wrote remains *)
Fixpoint left_at {A} (d : list T -> list T -> outcome Z) (p : dprog A) : option (hnsw (T:=T)) :=
  match p with
  | Done _ => None
  | Ask h a b k => match d a b with Ok z => left_at d (k z) | _ => Some h end
  end.

Context (so : StdOps).
Local Notation hnsw := (hnsw (T:=T)).
Local Notation point := (point (T:=T)).
Local Notation heap := (heap so).
Local Notation sst := (sst so).
Local Notation h_push := (h_push so).
Local Notation h_pop := (h_pop so).
Local Notation h_peek := (h_peek so).
Local Notation h_len := (h_len so).
Local Notation h_empty := (h_empty so).
Local Notation h_iter := (h_iter so).

(** l.991-1034, the call l.1004 *)
Fixpoint scan_neighbours_d (h : hnsw) (q : list T) (ef : nat) (filter : option (dataid -> bool))
    (nbs : list nbr) (s : sst) {struct nbs} : dprog (bool * sst) :=
  match nbs with
  | [] => Done (Ok (false, s))
  | e :: nbs' =>
      if bool_decide (n_pid e ∈ s_vis so s) then scan_neighbours_d h q ef filter nbs' s
      else
        let vis := n_pid e :: s_vis so s in
        match h_peek (s_ret so s) with
        | None => Done (Ok (true, SST so (s_ret so s) (s_cand so s) vis))
        | Some f =>
            ept ← Done (unwrap (get_pt h (n_pid e)));
            ed ← eval h q (pt_data ept);
            if (ed <? n_dist f)%Z || (h_len (s_ret so s) <? ef)%nat then
              let cand := h_push (Nbr (n_pid e) (- ed)) (s_cand so s) in
              ret ← Done (push_ret so h filter (n_pid e) (pt_oid ept) ed (s_ret so s));
              scan_neighbours_d h q ef filter nbs' (SST so (shrink_ret so ef ret) cand vis)
            else scan_neighbours_d h q ef filter nbs' (SST so (s_ret so s) (s_cand so s) vis)
        end
  end.

(** l.960-1035 *)
Definition search_iter_d (h : hnsw) (q : list T) (ef layer : nat) (filter : option (dataid -> bool))
    (s : sst) : dprog (heap + sst) :=
  match h_pop (s_cand so s) with
  | None => Done (Ok (inl (s_ret so s)))
  | Some (c, cand') =>
      f ← Done (unwrap (h_peek (s_ret so s)));
      _ ← Done (assert_ (0 <=? n_dist f)%Z);
      _ ← Done (assert_ (n_dist c <=? 0)%Z);
      if (n_dist f <? - n_dist c)%Z &&
         match filter with None => true | Some _ => (ef <=? h_len (s_ret so s))%nat end
      then Done (Ok (inl (s_ret so s)))
      else
        cpt ← Done (unwrap (get_pt h (n_pid c)));
        nbs ← Done (unwrap (pt_nbs cpt !! layer));
        '(stop, s') ← scan_neighbours_d h q ef filter nbs (SST so (s_ret so s) cand' (s_vis so s));
        Done (Ok (if (stop : bool) then inl (s_ret so s') else inr s'))
  end.
Fixpoint search_loop_d (fuel : nat) (h : hnsw) (q : list T) (ef layer : nat)
    (filter : option (dataid -> bool)) (s : sst) : dprog heap :=
  match fuel with
  | O => Done Fuel
  | S fuel =>
      r ← search_iter_d h q ef layer filter s;
      match r with
      | inl ret => Done (Ok ret)
      | inr s' => search_loop_d fuel h q ef layer filter s'
      end
  end.

(** l.943-958, the call l.943 *)
Definition search_init_d (h : hnsw) (q : list T) (ep : pid) : dprog sst :=
  ept ← Done (unwrap (get_pt h ep));
  d ← eval h q (pt_data ept);
  Done (Ok (SST so (h_push (Nbr ep d) h_empty) (h_push (Nbr ep (- d)) h_empty) [ep])).

(** l.911-1042 *)
Definition search_layer_d (h : hnsw) (q : list T) (ep : pid) (ef layer : nat)
    (filter : option (dataid -> bool)) : dprog heap :=
  match points_by_layer h !! layer with
  | None => Done Panic
  | Some [] => Done (Ok h_empty)
  | Some _ =>
      s ← search_init_d h q ep;
      search_loop_d (S (table_size h)) h q ef layer filter s
  end.

(** l.1333-1336, the call l.1334 *)
Fixpoint push_candidates_d (h : hnsw) (data : list T) (ps : list pid) (cand : heap) : dprog heap :=
  match ps with
  | [] => Done (Ok cand)
  | p :: ps' =>
      pt ← Done (unwrap (get_pt h p));
      d ← eval h data (pt_data pt);
      push_candidates_d h data ps' (h_push (Nbr p (- d)) cand)
  end.
(** l.1311-1337 *)
Definition extend_cands_d (h : hnsw) (data : list T) (layer : nat) (cand : heap) : dprog heap :=
  let cset := remove_dups (n_pid <$> h_iter cand) in
  news ← Done (collect_new_candidates h layer cset (m_iter so pid cset) []);
  push_candidates_d h data (m_iter so pid news) cand.

(** l.1347-1351, the call l.1349 *)
Fixpoint dominated_d (h : hnsw) (ev : list T) (bound : Z) (nv : list nbr) : dprog bool :=
  match nv with
  | [] => Done (Ok false)
  | d :: nv' =>
      dpt ← Done (unwrap (get_pt h (n_pid d)));
      z ← eval h ev (pt_data dpt);
      if (z <=? bound)%Z then Done (Ok true) else dominated_d h ev bound nv'
  end.
(** l.1340-1370 *)
Fixpoint select_loop_d (fuel : nat) (h : hnsw) (asked : nat) (keep : bool) (cand : heap)
    (nv : list nbr) (disc : heap) : dprog (list nbr * heap) :=
  if (length nv <? asked)%nat then
    match h_pop cand with
    | None => Done (Ok (nv, disc))
    | Some (e, cand') =>
        match fuel with
        | O => Done Fuel
        | S fuel =>
            ept ← Done (unwrap (get_pt h (n_pid e)));
            _ ← Done (assert_ (n_dist e <=? 0)%Z);
            dom ← dominated_d h (pt_data ept) (- n_dist e) nv;
            if (dom : bool) then
              select_loop_d fuel h asked keep cand' nv
                (if keep then h_push (Nbr (n_pid e) (n_dist e)) disc else disc)
            else
              select_loop_d fuel h asked keep cand' (nv ++ [Nbr (n_pid e) (- n_dist e)]) disc
        end
    end
  else Done (Ok (nv, disc)).
(** l.1274-1396 *)
Definition select_neighbours_d (h : hnsw) (data : list T) (cand : heap) (asked : nat)
    (extend_asked : bool) (layer : nat) (keep : bool) : dprog (list nbr) :=
  let few := (h_len cand <=? asked)%nat in
  if few && negb extend_asked then Done (transfer so (h_len cand) cand [])
  else
    cand1 ← (if few then extend_cands_d h data layer cand else Done (Ok cand));
    '(nv, disc) ← select_loop_d (h_len cand1) h asked keep cand1 [] h_empty;
    if keep then Done (keep_loop so (h_len disc) asked nv disc) else Done (Ok nv).

(** l.1106-1132, the call l.1124 *)
Definition descend_use_d (h : hnsw) (np : pid) (data : list T) (l : nat) (sorted : heap)
    (ep : pid) (dte : Z) : dprog (hnsw * pid * Z) :=
  if (1 <? h_len sorted)%nat then Done Panic
  else
    match h_pop sorted with
    | None => Done (Ok (h, ep, dte))
    | Some (e, _) =>
        h1 ← Done (push_upper h np l e);
        ept ← Done (unwrap (get_pt h1 (n_pid e)));
        tmp ← eval h1 data (pt_data ept);
        if (tmp <? dte)%Z then Done (Ok (h1, n_pid e, tmp)) else Done (Ok (h1, ep, dte))
    end.
(** l.1092-1133 *)
Fixpoint descend_d (ls : list nat) (h : hnsw) (np : pid) (data : list T) (ep : pid) (dte : Z)
    : dprog (hnsw * pid) :=
  match ls with
  | [] => Done (Ok (h, ep))
  | l :: ls' =>
      sorted ← search_layer_d h data ep 1 l None;
      '(h1, ep1, dte1) ← descend_use_d h np data l sorted ep dte;
      descend_d ls' h1 np data ep1 dte1
  end.
(** l.1151-1182 *)
Definition connect_use_d (h : hnsw) (np : pid) (data : list T) (l : nat) (found : heap) (ep : pid)
    : dprog (hnsw * pid) :=
  neg ← Done (from_positive_to_negative so found);
  if (h_len neg =? 0)%nat then Done (Ok (h, ep))
  else
    nv ← select_neighbours_d h data neg (nb_conn h l) (extend_c h l) l (keep_pruned h);
    let nv := u_sort so nbr n_dist nv in
    h1 ← Done (upd_nbs h np l (fun _ => nv));
    Done (Ok (h1, match nv with [] => ep | n :: _ => n_pid n end)).
(** l.1136-1183 *)
Fixpoint connect_d (ls : list nat) (h : hnsw) (np : pid) (data : list T) (ep : pid)
    : dprog hnsw :=
  match ls with
  | [] => Done (Ok h)
  | l :: ls' =>
      found ← search_layer_d h data ep (ef_construction h) l None;
      '(h1, ep1) ← connect_use_d h np data l found ep;
      connect_d ls' h1 np data ep1
  end.
(** l.1055-1193, the call l.1090 *)
Definition insert_slice_d (h : hnsw) (data : list T) (oid : dataid) (d : draw) : dprog hnsw :=
  '(h0, np, rank) ← Done (generate_new_point h data oid d);
  match entry_point h0 with
  | None => Done (Ok (check_entry_point h0 np))
  | Some ep =>
      if (rank =? 1)%nat then Done (Ok h0)
      else
        ept ← Done (unwrap (get_pt h0 ep));
        let level := np.1 in
        dte ← eval h0 data (pt_data ept);
        '(h1, ep1) ← descend_d (rev (seq (S level) (ep.1 - level))) h0 np data ep dte;
        h2 ← connect_d (rev (seq 0 (S level))) h1 np data ep1;
        h3 ← Done (reverse_update so h2 np);
        Done (Ok (check_entry_point h3 np))
  end.

(** l.1491-1499, the call l.1493 *)
Fixpoint pivot_scan_d (h : hnsw) (data : list T) (nbs : list nbr) (pv : pid) (d : Z) : dprog (pid * Z) :=
  match nbs with
  | [] => Done (Ok (pv, d))
  | n :: nbs' =>
      npt ← Done (unwrap (get_pt h (n_pid n)));
      tmp ← eval h data (pt_data npt);
      if (tmp <? d)%Z then pivot_scan_d h data nbs' (n_pid n) tmp else pivot_scan_d h data nbs' pv d
  end.
(** l.1486-1504 *)
Fixpoint pivot_descend_d (ls : list nat) (h : hnsw) (data : list T) (pivot : pid) (dte : Z)
    : dprog pid :=
  match ls with
  | [] => Done (Ok pivot)
  | l :: ls' =>
      pt ← Done (unwrap (get_pt h pivot));
      nbs ← Done (unwrap (pt_nbs pt !! l));
      '(pv, d) ← pivot_scan_d h data nbs pivot dte;
      pivot_descend_d ls' h data pv d
  end.
(** l.1482-1504, the call l.1481 *)
Definition find_pivot_d (h : hnsw) (data : list T) (ep : pid) : dprog pid :=
  ept ← Done (unwrap (get_pt h ep));
  d ← eval h data (pt_data ept);
  pivot_descend_d (rev (seq 1 ep.1)) h data ep d.
(** l.1462-1535 *)
Definition search_filter_d (h : hnsw) (data : list T) (knbn ef_arg : nat)
    (filter : option (dataid -> bool)) : dprog (list neighbour) :=
  match entry_point h with
  | None => Done (Ok [])
  | Some ep =>
      pivot ← find_pivot_d h data ep;
      let ef := Nat.max ef_arg knbn in
      l ← Done (layer_to_search h);
      hp ← search_layer_d h data pivot ef l filter;
      let neighbours := h_sorted so hp in
      let last := Nat.min (Nat.min knbn ef) (length neighbours) in
      Done (mapM (to_answer h) (take last neighbours))
  end.
End Calls.
Arguments Done {T A} o.
Arguments Ask {T A} h a b k.
