(** Model of the concurrent use of an index (Conc.v) when the distance function may panic. The programs below are those of Conc.v
    that compute distances, each access that does so being made with the programs of Calls.v, which ask for the distances: [d a b] is
    what the call of the distance on [a] and [b] returns, a distance or an abnormal end. All line numbers are those of
    /repo/src/hnsw.rs. When a call does not return, the thread ends; its guards are dropped by the unwinding (parking_lot locks are not
    poisoned): here the only locks held during such calls are the read locks of [with_read], which are released before the end.
    Rayon (l.1199-1213) then waits for the other insertions that have begun and propagates the panic; those that have not begun may be
    given up: they are not among the tasks. *)
From stdpp Require Import relations.
From Verif Require Import Prelude Model Calls Conc.
Local Open Scope list_scope.

Section ConcCalls.
Context {T : Type} (d : list T -> list T -> outcome Z) (so : StdOps).
Local Notation heap := (heap so).

(** l.960-1035, the calls l.1004 under the read lock l.984 *)
Fixpoint search_loop_c (fuel : nat) (q : list T) (ef layer : nat) (filter : option (dataid -> bool))
    (s : sst so) : prog (T:=T) heap :=
  match fuel with
  | O => Halt Fuel
  | S fuel =>
      r ← Halt (next_candidate so ef filter s);
      match r with
      | inl res => ret res
      | inr c =>
          r ← with_read (LPoint c) (fun h => Calls.run d (search_iter_d so h q ef layer filter s));
          match r with
          | inl res => ret res
          | inr s' => search_loop_c fuel q ef layer filter s'
          end
      end
  end.

(** l.911-1042, the call l.943 *)
Definition search_layer_c (fuel : nat) (q : list T) (ep : pid) (ef layer : nat)
    (filter : option (dataid -> bool)) : prog (T:=T) heap :=
  e ← with_read LTable (fun h => is_empty <$> unwrap (points_by_layer h !! layer));
  if (e : bool) then ret (h_empty so)
  else
    s ← peek (fun h => Calls.run d (search_init_d so h q ep));
    search_loop_c fuel q ef layer filter s.

(** l.1311-1337, the calls l.1334 *)
Definition extend_cands_c (data : list T) (layer : nat) (cand : heap) : prog (T:=T) heap :=
  let cset := remove_dups (n_pid <$> h_iter so cand) in
  news ← collect_p layer cset (m_iter so pid cset) [];
  peek (fun h => Calls.run d (push_candidates_d so h data (m_iter so pid news) cand)).

(** l.1274-1396, the calls l.1349 *)
Definition select_neighbours_c (data : list T) (cand : heap) (asked : nat) (extend_asked : bool)
    (layer : nat) (keep : bool) : prog (T:=T) (list nbr) :=
  let few := (h_len so cand <=? asked)%nat in
  if few && negb extend_asked then Halt (transfer so (h_len so cand) cand [])
  else
    cand1 ← (if few then extend_cands_c data layer cand else ret cand);
    peek (fun h =>
      '(nv, disc) ← Calls.run d (select_loop_d so (h_len so cand1) h asked keep cand1 [] (h_empty so));
      if keep then keep_loop so (h_len so disc) asked nv disc else Ok nv).

(** l.1106-1132, the call l.1124 *)
Definition descend_use_c (np : pid) (data : list T) (l : nat) (sorted : heap) (ep : pid) (dte : Z)
    : prog (T:=T) (pid * Z) :=
  if (1 <? h_len so sorted)%nat then Halt Panic
  else
    match h_pop so sorted with
    | None => ret (ep, dte)
    | Some (e, _) =>
        short ← with_read (LPoint np) (fun h =>
                  nbs ← read_list np l h; Ok (length nbs <? get_max_nb_connection h)%nat);
        _ ← (if (short : bool) then
               with_write (LPoint np) (fun h => h1 ← upd_nbs h np l (fun nbs => nbs ++ [e]); Ok (h1, tt))
             else ret tt);
        tmp ← peek (fun h => ept ← unwrap (get_pt h (n_pid e)); d data (pt_data ept));
        ret (if (tmp <? dte)%Z then (n_pid e, tmp) else (ep, dte))
    end.

(** l.1092-1133 *)
Fixpoint descend_c (fuel : nat) (ls : list nat) (np : pid) (data : list T) (ep : pid) (dte : Z) : prog (T:=T) pid :=
  match ls with
  | [] => ret ep
  | l :: ls' =>
      sorted ← search_layer_c fuel data ep 1 l None;
      r ← descend_use_c np data l sorted ep dte;
      descend_c fuel ls' np data r.1 r.2
  end.

(** l.1151-1182 *)
Definition connect_use_c (np : pid) (data : list T) (l : nat) (found : heap) (ep : pid) : prog (T:=T) pid :=
  neg ← Halt (from_positive_to_negative so found);
  if (h_len so neg =? 0)%nat then ret ep
  else
    cfg ← peek (fun h => Ok (nb_conn h l, extend_c h l, keep_pruned h));
    nv ← select_neighbours_c data neg cfg.1.1 cfg.1.2 l cfg.2;
    let nv := u_sort so nbr n_dist nv in
    _ ← with_write (LPoint np) (fun h => h1 ← upd_nbs h np l (fun _ => nv); Ok (h1, tt));
    ret (match nv with [] => ep | n :: _ => n_pid n end).

(** l.1136-1183 *)
Fixpoint connect_c (fuel : nat) (ls : list nat) (np : pid) (data : list T) (ep : pid) : prog (T:=T) unit :=
  match ls with
  | [] => ret tt
  | l :: ls' =>
      ef ← peek (fun h => Ok (ef_construction h));
      found ← search_layer_c fuel data ep ef l None;
      ep1 ← connect_use_c np data l found ep;
      connect_c fuel ls' np data ep1
  end.

(** l.1055-1193, the call l.1090 *)
Definition insert_c (fuel : nat) (data : list T) (oid : dataid) (dr : draw) : prog (T:=T) pid :=
  level ← peek (fun h => generate (level_scale h) (max_layer h) dr);
  np ← with_write LTable (fun h => push_point h data oid level);
  rank ← with_write LCount (fun h => Ok (incr_nb_point h));
  eo ← with_read LEntry (fun h => Ok (entry_point h));
  match eo with
  | None => _ ← check_entry_point_p np; ret np
  | Some ep =>
      if (rank =? 1)%nat then ret np
      else
        dte ← peek (fun h => ept ← unwrap (get_pt h ep); d data (pt_data ept));
        let level := np.1 in
        ep1 ← descend_c fuel (rev (seq (S level) (ep.1 - level))) np data ep dte;
        _ ← connect_c fuel (rev (seq 0 (S level))) np data ep1;
        _ ← rev_layers_p so (rev (seq 0 (S level))) np;
        _ ← check_entry_point_p np;
        ret np
  end.

(** l.1486-1504, the calls l.1493 under the read lock l.1490 *)
Fixpoint pivot_descend_c (ls : list nat) (data : list T) (pivot : pid) (dte : Z) : prog (T:=T) pid :=
  match ls with
  | [] => ret pivot
  | l :: ls' =>
      r ← with_read (LPoint pivot) (fun h =>
            nbs ← read_list pivot l h; Calls.run d (pivot_scan_d h data nbs pivot dte));
      pivot_descend_c ls' data r.1 r.2
  end.

(** l.1462-1535, the call l.1481 *)
Definition search_filter_c (fuel : nat) (data : list T) (knbn ef_arg : nat) (filter : option (dataid -> bool))
    : prog (T:=T) (list neighbour) :=
  eo ← with_read LEntry (fun h => Ok (entry_point h));
  match eo with
  | None => ret []
  | Some ep =>
      dte ← peek (fun h => ept ← unwrap (get_pt h ep); d data (pt_data ept));
      pivot ← pivot_descend_c (rev (seq 1 ep.1)) data ep dte;
      let ef := Nat.max ef_arg knbn in
      l ← lowest_p NB_LAYER_MAX 0;
      hp ← search_layer_c fuel data pivot ef l filter;
      let neighbours := h_sorted so hp in
      let last := Nat.min (Nat.min knbn ef) (length neighbours) in
      peek (fun h => mapM (to_answer h) (take last neighbours))
  end.

(** the tasks of Conc.v *)
Definition start_c (fuel : nat) (t : task (T:=T)) : prog (T:=T) tres :=
  match t with
  | TInsert data oid dr => np ← insert_c fuel data oid dr; ret (RInserted np)
  | TSearch q k ef f => ns ← search_filter_c fuel q k ef f; ret (RFound ns)
  | TIterate => l ← iter_points_p fuel; ret (RPoints l)
  | TDump => x ← dump_p; ret (RDumped x)
  end.
Definition initial_c (h : hnsw (T:=T)) (ts : list task) : config (T:=T) :=
  Config h (fun _ => Lk [] None)
    (start_c (S (S (S (table_size h + length ts)))) <$> ts).

(** [during_c h ts c]: the situation [c] occurs in some interleaving of the tasks [ts] on the index [h] *)
Definition during_c (h : hnsw (T:=T)) (ts : list task) (c : config (T:=T)) : Prop := rtc cstep (initial_c h ts) c.
(** [after_c h ts h' outs]: every task has ended, [outs] says how, and the index is [h'] *)
Definition after_c (h : hnsw (T:=T)) (ts : list task) (h' : hnsw (T:=T)) (outs : list (outcome tres)) : Prop :=
  exists c, during_c h ts c /\ c_threads c = Halt <$> outs /\ c_sh c = h'.
End ConcCalls.
