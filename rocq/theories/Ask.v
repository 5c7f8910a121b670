(** Filtered searches as a dialogue with the caller's filter. A filter is any closure (filter.rs l.7-23, trait FilterT): it may keep
    a state, look at data that other threads change while the search runs (a set of deleted ids, for instance), or panic. So the
    answer to a call is any function of the calls made before it during this search. [Model.search_filter] is the special case
    of a filter that gives the same answer for the same id all along the search (C96 says so). *)
From Verif Require Import Prelude Model.
Local Open Scope list_scope.

(** the calls made so far with their answers, the first one first *)
Definition dialogue : Type := list (dataid * bool).
(** the answer to the next call; [None]: the closure panics *)
Definition asked_filter : Type := dialogue -> dataid -> option bool.

Section Ask.
Context {T : Type} (dist : list T -> list T -> Z) (so : StdOps) (f : asked_filter).
Local Notation hnsw := (hnsw (T:=T)).
Local Notation heap := (heap so).

(** l.1019 and l.1022: a call of hnsw_filter; a panic of the closure is a panic of the search *)
Definition ask (id : dataid) (tr : dialogue) : outcome (bool * dialogue) :=
  b ← unwrap (f tr id);
  Ok (b, tr ++ [(id, b)]).

(** l.1018-1028: as [Model.push_ret] with a filter *)
Definition push_ask (h : hnsw) (e : pid) (oid : dataid) (ed : Z) (ret : heap) (tr : dialogue) : outcome (heap * dialogue) :=
  '(b, tr1) ← ask oid tr;
  if (b : bool) then
    if (h_len so ret =? 1)%nat then
      o ← unwrap (h_peek so ret);
      opt ← unwrap (get_pt h (n_pid o));
      '(c, tr2) ← ask (pt_oid opt) tr1;
      Ok (h_push so (Nbr e ed) (if (c : bool) then ret else h_empty so), tr2)
    else Ok (h_push so (Nbr e ed) ret, tr1)
  else Ok (ret, tr1).

(** l.991-1034: as [Model.scan_neighbours] *)
Fixpoint scan_ask (h : hnsw) (q : list T) (ef : nat) (nbs : list nbr) (s : sst so) (tr : dialogue) {struct nbs} :
    outcome (bool * sst so * dialogue) :=
  match nbs with
  | [] => Ok (false, s, tr)
  | e :: nbs' =>
      if bool_decide (n_pid e ∈ s_vis so s) then scan_ask h q ef nbs' s tr
      else
        let vis := n_pid e :: s_vis so s in
        match h_peek so (s_ret so s) with
        | None => Ok (true, SST so (s_ret so s) (s_cand so s) vis, tr)
        | Some x =>
            ept ← unwrap (get_pt h (n_pid e));
            let ed := dist q (pt_data ept) in
            if (ed <? n_dist x)%Z || (h_len so (s_ret so s) <? ef)%nat then
              let cand := h_push so (Nbr (n_pid e) (- ed)) (s_cand so s) in
              '(ret, tr1) ← push_ask h (n_pid e) (pt_oid ept) ed (s_ret so s) tr;
              scan_ask h q ef nbs' (SST so (shrink_ret so ef ret) cand vis) tr1
            else scan_ask h q ef nbs' (SST so (s_ret so s) (s_cand so s) vis) tr
        end
  end.

(** l.960-1035: as [Model.search_iter] *)
Definition iter_ask (h : hnsw) (q : list T) (ef layer : nat) (s : sst so) (tr : dialogue) : outcome ((heap + sst so) * dialogue) :=
  match h_pop so (s_cand so s) with
  | None => Ok (inl (s_ret so s), tr)
  | Some (c, cand') =>
      x ← unwrap (h_peek so (s_ret so s));
      _ ← assert_ (0 <=? n_dist x)%Z;
      _ ← assert_ (n_dist c <=? 0)%Z;
      if (n_dist x <? - n_dist c)%Z && (ef <=? h_len so (s_ret so s))%nat then Ok (inl (s_ret so s), tr)
      else
        cpt ← unwrap (get_pt h (n_pid c));
        nbs ← unwrap (pt_nbs cpt !! layer);
        '(stop, s', tr') ← scan_ask h q ef nbs (SST so (s_ret so s) cand' (s_vis so s)) tr;
        Ok (if (stop : bool) then inl (s_ret so s') else inr s', tr')
  end.

(** l.960 *)
Fixpoint loop_ask (fuel : nat) (h : hnsw) (q : list T) (ef layer : nat) (s : sst so) (tr : dialogue) : outcome (heap * dialogue) :=
  match fuel with
  | O => Fuel
  | S fuel =>
      '(r, tr') ← iter_ask h q ef layer s tr;
      match r with
      | inl ret => Ok (ret, tr')
      | inr s' => loop_ask fuel h q ef layer s' tr'
      end
  end.

(** l.911-1042: as [Model.search_layer] *)
Definition layer_ask (h : hnsw) (q : list T) (ep : pid) (ef layer : nat) : outcome (heap * dialogue) :=
  match points_by_layer h !! layer with
  | None => Panic
  | Some [] => Ok (h_empty so, [])
  | Some _ =>
      s ← search_init dist so h q ep;
      loop_ask (S (table_size h)) h q ef layer s []
  end.

(** l.1462-1535 search_filter: the answers, and the calls of the filter *)
Definition search_asking (h : hnsw) (data : list T) (knbn ef_arg : nat) : outcome (list neighbour * dialogue) :=
  match entry_point h with
  | None => Ok ([], [])
  | Some ep =>
      pivot ← find_pivot dist h data ep;
      let ef := Nat.max ef_arg knbn in
      l ← layer_to_search h;
      '(hp, tr) ← layer_ask h data pivot ef l;
      let neighbours := h_sorted so hp in
      let last := Nat.min (Nat.min knbn ef) (length neighbours) in
      res ← mapM (to_answer h) (take last neighbours);
      Ok (res, tr)
  end.
End Ask.
