(** Model of insertion and search with a distance function that may return NaN, or panic (as those that assert that both vectors have
    the same length) (hnsw.rs). Distances are [option Z], [None] being a NaN. The other files are about distances that are numbers, for
    which NanProofs.v shows that this model and Model.v agree. The state left behind by an insertion that panics is kept here. *)
From Verif Require Import Prelude Model.

(** l.265-271 PointWithOrder *)
Definition nnbr : Type := pid * option Z.
Definition lift_nbr (n : nbr) : nnbr := (n_pid n, Some (n_dist n)).

(** The containers over such elements. Their order is given by partial_cmp (l.282-286), by which the methods of BinaryHeap compare; a NaN
    makes it inconsistent, and then std leaves the behaviour open ("could include panics, incorrect results, aborts, memory leaks,
    and non-termination"): hence the outcomes. *)
Record NanOps : Type := {
  nheap : Type;
  n_empty : nheap;
  n_push : nnbr -> nheap -> outcome nheap;
  n_pop : nheap -> outcome (option (nnbr * nheap));
  n_iter : nheap -> list nnbr;
  n_sorted : nheap -> outcome (list nnbr)
}.

(** What is known: without NaN they are the containers of the other files; an element pushed in an empty heap is compared with
    nothing, so it is there, alone; and elements are not made up (they are not duplicable for the container). *)
Record NanLaws (so : StdOps) (no : NanOps) : Type := {
  emb : heap so -> nheap no;
  single : pid -> nheap no;
  emb_empty : emb (h_empty so) = n_empty no;
  emb_push : forall p d h, n_push no (p, Some d) (emb h) = Ok (emb (h_push so (Nbr p d) h));
  emb_pop : forall h, n_pop no (emb h) = Ok ((fun x => (lift_nbr x.1, emb x.2)) <$> h_pop so h);
  emb_iter : forall h, n_iter no (emb h) = lift_nbr <$> h_iter so h;
  emb_sorted : forall h, n_sorted no (emb h) = Ok (lift_nbr <$> h_sorted so h);
  single_push : forall p, n_push no (p, None) (n_empty no) = Ok (single p);
  single_pop : forall p, n_pop no (single p) = Ok (Some ((p, None), n_empty no));
  single_iter : forall p, n_iter no (single p) = [(p, None)];
  nl_empty : n_iter no (n_empty no) = [];
  nl_push : forall x h h', n_push no x h = Ok h' -> n_iter no h' ⊆ x :: n_iter no h;
  nl_pop : forall h x h', n_pop no h = Ok (Some (x, h')) -> x ∈ n_iter no h /\ n_iter no h' ⊆ n_iter no h
}.

(** Comparisons of f32: false with a NaN. Opposite. *)
Definition nlt (a b : option Z) : bool := match a, b with Some a, Some b => (a <? b)%Z | _, _ => false end.
Definition nle (a b : option Z) : bool := match a, b with Some a, Some b => (a <=? b)%Z | _, _ => false end.
Definition nneg (a : option Z) : option Z := Z.opp <$> a.

Section Nan.
Context {T : Type} (ndist : list T -> list T -> outcome (option Z)) (so : StdOps) (no : NanOps).
Implicit Types (h : hnsw (T:=T)).

(** a computation on the index that may panic half way: the result and the state left *)
Definition st (A : Type) : Type := hnsw (T:=T) -> outcome A * hnsw (T:=T).
Definition sret {A} (a : A) : st A := fun h => (Ok a, h).
Definition sbind {A B} (m : st A) (k : A -> st B) : st B := fun h =>
  match m h with
  | (Ok a, h') => k a h'
  | (Err, h') => (Err, h')
  | (Panic, h') => (Panic, h')
  | (Exit, h') => (Exit, h')
  | (Fuel, h') => (Fuel, h')
  | (UB, h') => (UB, h')
  end.
(** a computation that only reads the index *)
Definition sread {A} (f : hnsw -> outcome A) : st A := fun h => (f h, h).
(** a modification of the index that is made completely or not at all *)
Definition sput {A} (f : hnsw -> outcome (hnsw * A)) : st A := fun h =>
  match f h with
  | Ok (h', a) => (Ok a, h')
  | Err => (Err, h)
  | Panic => (Panic, h)
  | Exit => (Exit, h)
  | Fuel => (Fuel, h)
  | UB => (UB, h)
  end.

Definition nh_peek (hp : nheap no) : outcome (option nnbr) :=
  match n_pop no hp with Ok r => Ok (fst <$> r) | Err => Err | Panic => Panic | Exit => Exit | Fuel => Fuel | UB => UB end.
Definition nh_len (hp : nheap no) : nat := length (n_iter no hp).

(* ------------------------------------------------------------------ *)
(** * search_layer (l.911-1042) *)
Record nsst : Type := NSST { ns_ret : nheap no; ns_cand : nheap no; ns_vis : list pid }.

(** l.1029-1031 *)
Definition nshrink (ef : nat) (r : nheap no) : outcome (nheap no) :=
  if (ef <? nh_len r)%nat then
    o ← n_pop no r; Ok (match o with Some (_, r') => r' | None => r end)
  else Ok r.

(** l.1015-1028 *)
Definition npush_ret h (filter : option (dataid -> bool)) (e : pid) (oid : dataid) (ed : option Z) (ret : nheap no) : outcome (nheap no) :=
  match filter with
  | None => n_push no (e, ed) ret
  | Some flt =>
      if flt oid then
        ret1 ← (if (nh_len ret =? 1)%nat then
                  p ← nh_peek ret; o ← unwrap p;
                  opt ← unwrap (get_pt h o.1);
                  Ok (if flt (pt_oid opt) then ret else n_empty no)
                else Ok ret);
        n_push no (e, ed) ret1
      else Ok ret
  end.

(** l.991-1034 *)
Fixpoint nscan h (q : list T) (ef : nat) (filter : option (dataid -> bool)) (nbs : list nbr) (s : nsst) {struct nbs} : outcome (bool * nsst) :=
  match nbs with
  | [] => Ok (false, s)
  | e :: nbs' =>
      if bool_decide (n_pid e ∈ ns_vis s) then nscan h q ef filter nbs' s
      else
        let vis := n_pid e :: ns_vis s in
        pk ← nh_peek (ns_ret s);
        match pk with
        | None => Ok (true, NSST (ns_ret s) (ns_cand s) vis)
        | Some f =>
            ept ← unwrap (get_pt h (n_pid e));
            ed ← ndist q (pt_data ept);
            if nlt ed f.2 || (nh_len (ns_ret s) <? ef)%nat then
              cand ← n_push no (n_pid e, nneg ed) (ns_cand s);
              ret ← npush_ret h filter (n_pid e) (pt_oid ept) ed (ns_ret s);
              ret' ← nshrink ef ret;
              nscan h q ef filter nbs' (NSST ret' cand vis)
            else nscan h q ef filter nbs' (NSST (ns_ret s) (ns_cand s) vis)
        end
  end.

(** l.960-1035 *)
Definition nsearch_iter h (q : list T) (ef layer : nat) (filter : option (dataid -> bool)) (s : nsst) : outcome (nheap no + nsst) :=
  po ← n_pop no (ns_cand s);
  match po with
  | None => Ok (inl (ns_ret s))
  | Some (c, cand') =>
      pk ← nh_peek (ns_ret s);
      f ← unwrap pk;
      _ ← assert_ (nle (Some 0%Z) f.2);
      _ ← assert_ (nle c.2 (Some 0%Z));
      if nlt f.2 (nneg c.2) && match filter with None => true | Some _ => (ef <=? nh_len (ns_ret s))%nat end
      then Ok (inl (ns_ret s))
      else
        cpt ← unwrap (get_pt h c.1);
        nbs ← unwrap (pt_nbs cpt !! layer);
        '(stop, s') ← nscan h q ef filter nbs (NSST (ns_ret s) cand' (ns_vis s));
        Ok (if (stop : bool) then inl (ns_ret s') else inr s')
  end.

Fixpoint nsearch_loop (fuel : nat) h (q : list T) (ef layer : nat) (filter : option (dataid -> bool)) (s : nsst) : outcome (nheap no) :=
  match fuel with
  | O => Fuel
  | S fuel =>
      r ← nsearch_iter h q ef layer filter s;
      match r with
      | inl ret => Ok ret
      | inr s' => nsearch_loop fuel h q ef layer filter s'
      end
  end.

(** l.943-958 *)
Definition nsearch_init h (q : list T) (ep : pid) : outcome nsst :=
  ept ← unwrap (get_pt h ep);
  d ← ndist q (pt_data ept);
  cand ← n_push no (ep, nneg d) (n_empty no);
  ret ← n_push no (ep, d) (n_empty no);
  Ok (NSST ret cand [ep]).

(** l.911-1042 *)
Definition nsearch_layer h (q : list T) (ep : pid) (ef layer : nat) (filter : option (dataid -> bool)) : outcome (nheap no) :=
  match points_by_layer h !! layer with
  | None => Panic
  | Some [] => Ok (n_empty no)
  | Some _ =>
      s ← nsearch_init h q ep;
      nsearch_loop (S (table_size h)) h q ef layer filter s
  end.

(* ------------------------------------------------------------------ *)
(** * select_neighbours (l.1274-1396) and heap sign change (l.1619-1636). The lists are made of elements whose distance passed an
    assertion, so they hold no NaN. *)
Definition nfrom_positive (hp : nheap no) : outcome (nheap no) :=
  foldl (fun acc (p : nnbr) =>
           neg ← acc;
           _ ← assert_ (nle (Some 0%Z) p.2);
           n_push no (p.1, nneg p.2) neg) (Ok (n_empty no)) (n_iter no hp).

(** the opposite of a distance that passed [assert!(d <= 0.)] *)
Definition passed (d : option Z) : outcome Z :=
  match d with Some d => if (d <=? 0)%Z then Ok (- d)%Z else Panic | None => Panic end.

(** l.1296-1301 *)
Fixpoint ntransfer (fuel : nat) (cand : nheap no) (acc : list nbr) : outcome (list nbr) :=
  po ← n_pop no cand;
  match po with
  | None => Ok acc
  | Some (p, cand') =>
      match fuel with
      | O => Fuel
      | S fuel => d ← passed p.2; ntransfer fuel cand' (acc ++ [Nbr p.1 d])
      end
  end.

(** l.1333-1336 *)
Fixpoint npush_candidates h (data : list T) (ps : list pid) (cand : nheap no) : outcome (nheap no) :=
  match ps with
  | [] => Ok cand
  | p :: ps' =>
      pt ← unwrap (get_pt h p);
      d ← ndist data (pt_data pt);
      cand' ← n_push no (p, nneg d) cand;
      npush_candidates h data ps' cand'
  end.

(** l.1311-1337 *)
Definition nextend h (data : list T) (layer : nat) (cand : nheap no) : outcome (nheap no) :=
  let cset := remove_dups (fst <$> n_iter no cand) in
  news ← collect_new_candidates h layer cset (m_iter so pid cset) [];
  npush_candidates h data (m_iter so pid news) cand.

(** l.1347-1351 *)
Fixpoint ndominated h (ev : list T) (bound : Z) (nv : list nbr) : outcome bool :=
  match nv with
  | [] => Ok false
  | d :: nv' =>
      dpt ← unwrap (get_pt h (n_pid d));
      dd ← ndist ev (pt_data dpt);
      if nle dd (Some bound) then Ok true
      else ndominated h ev bound nv'
  end.

(** l.1340-1370 *)
Fixpoint nselect_loop (fuel : nat) h (asked : nat) (keep : bool) (cand : nheap no) (nv : list nbr) (disc : nheap no)
    : outcome (list nbr * nheap no) :=
  if (length nv <? asked)%nat then
    po ← n_pop no cand;
    match po with
    | None => Ok (nv, disc)
    | Some (e, cand') =>
        match fuel with
        | O => Fuel
        | S fuel =>
            ept ← unwrap (get_pt h e.1);
            d ← passed e.2;
            dom ← ndominated h (pt_data ept) d nv;
            if (dom : bool) then
              disc' ← (if keep then n_push no e disc else Ok disc);
              nselect_loop fuel h asked keep cand' nv disc'
            else nselect_loop fuel h asked keep cand' (nv ++ [Nbr e.1 d]) disc
        end
    end
  else Ok (nv, disc).

(** l.1375-1383 *)
Fixpoint nkeep_loop (fuel : nat) (asked : nat) (nv : list nbr) (disc : nheap no) : outcome (list nbr) :=
  if (length nv <? asked)%nat then
    po ← n_pop no disc;
    match po with
    | None => Ok nv
    | Some (b, disc') =>
        match fuel with
        | O => Fuel
        | S fuel => d ← passed b.2; nkeep_loop fuel asked (nv ++ [Nbr b.1 d]) disc'
        end
    end
  else Ok nv.

(** l.1274-1396 *)
Definition nselect h (data : list T) (cand : nheap no) (asked : nat) (extend_asked : bool) (layer : nat) (keep : bool) : outcome (list nbr) :=
  let few := (nh_len cand <=? asked)%nat in
  if few && negb extend_asked then ntransfer (nh_len cand) cand []
  else
    cand1 ← (if few then nextend h data layer cand else Ok cand);
    '(nv, disc) ← nselect_loop (nh_len cand1) h asked keep cand1 [] (n_empty no);
    if keep then nkeep_loop (nh_len disc) asked nv disc else Ok nv.

(* ------------------------------------------------------------------ *)
(** * insert_slice (l.1055-1193) *)

(** l.1106-1132. The list of the new point receives the element found as it is (l.1121); it is never a NaN ([descend_found] in
    NanProofs.v), so the [unwrap] of this model does not fail. *)
Definition ndescend_use (np : pid) (data : list T) (l : nat) (sorted : nheap no) (ep : pid) (dte : option Z) : st (pid * option Z) :=
  if (1 <? nh_len sorted)%nat then sread (fun _ => Panic)
  else
    sbind (sread (fun _ => n_pop no sorted)) (fun po =>
    match po with
    | None => sret (ep, dte)
    | Some (e, _) =>
        sbind (sread (fun _ => unwrap e.2)) (fun d =>
        sbind (sput (fun h => h1 ← push_upper h np l (Nbr e.1 d); Ok (h1, tt))) (fun _ =>
        sbind (sread (fun h => unwrap (get_pt h e.1))) (fun ept =>
        sbind (sread (fun _ => ndist data (pt_data ept))) (fun tmp =>
        sret (if nlt tmp dte then (e.1, tmp) else (ep, dte))))))
    end).

(** l.1092-1133 *)
Fixpoint ndescend (ls : list nat) (np : pid) (data : list T) (ep : pid) (dte : option Z) : st pid :=
  match ls with
  | [] => sret ep
  | l :: ls' =>
      sbind (sread (fun h => nsearch_layer h data ep 1 l None)) (fun sorted =>
      sbind (ndescend_use np data l sorted ep dte) (fun r =>
      ndescend ls' np data r.1 r.2))
  end.

(** l.1151-1182 *)
Definition nconnect_use (np : pid) (data : list T) (l : nat) (found : nheap no) (ep : pid) : st pid :=
  sbind (sread (fun _ => nfrom_positive found)) (fun neg =>
  if (nh_len neg =? 0)%nat then sret ep
  else
    sbind (sread (fun h => nselect h data neg (nb_conn h l) (extend_c h l) l (keep_pruned h))) (fun nv0 =>
    let nv := u_sort so nbr n_dist nv0 in
    sbind (sput (fun h => h1 ← upd_nbs h np l (fun _ => nv); Ok (h1, tt))) (fun _ =>
    sret (match nv with [] => ep | n :: _ => n_pid n end)))).

(** l.1136-1183 *)
Fixpoint nconnect (ls : list nat) (np : pid) (data : list T) (ep : pid) : st unit :=
  match ls with
  | [] => sret tt
  | l :: ls' =>
      sbind (sread (fun h => nsearch_layer h data ep (ef_construction h) l None)) (fun found =>
      sbind (nconnect_use np data l found ep) (fun ep1 =>
      nconnect ls' np data ep1))
  end.

(** l.1223-1262: one list is modified at a time *)
Fixpoint nrev_many (np : pid) (qs : list nbr) : st unit :=
  match qs with
  | [] => sret tt
  | q :: qs' => sbind (sput (fun h => h1 ← rev_one so h np q; Ok (h1, tt))) (fun _ => nrev_many np qs')
  end.
Fixpoint nrev_layers (ls : list nat) (np : pid) : st unit :=
  match ls with
  | [] => sret tt
  | l :: ls' =>
      sbind (sread (fun h => pt ← unwrap (get_pt h np); unwrap (pt_nbs pt !! l))) (fun qs =>
      sbind (nrev_many np qs) (fun _ => nrev_layers ls' np))
  end.

(** l.1055-1193; l.499-527 generate_new_point comes first *)
Definition ninsert (data : list T) (oid : dataid) (d : draw) : st unit :=
  sbind (sput (fun h => '(h0, np, rank) ← generate_new_point h data oid d; Ok (h0, (np, rank)))) (fun r =>
  let '(np, rank) := r in
  sbind (sread (fun h => Ok (entry_point h))) (fun eo =>
  match eo with
  | None => sput (fun h => Ok (check_entry_point h np, tt))
  | Some ep =>
      if (rank =? 1)%nat then sret tt
      else
        sbind (sread (fun h => unwrap (get_pt h ep))) (fun ept =>
        let level := np.1 in
        sbind (sread (fun _ => ndist data (pt_data ept))) (fun dte =>
        sbind (ndescend (rev (seq (S level) (ep.1 - level))) np data ep dte) (fun ep1 =>
        sbind (nconnect (rev (seq 0 (S level))) np data ep1) (fun _ =>
        sbind (nrev_layers (rev (seq 0 (S np.1))) np) (fun _ =>
        sput (fun h => Ok (check_entry_point h np, tt)))))))
  end)).

(* ------------------------------------------------------------------ *)
(** * search_filter (l.1462-1535) *)

(** l.1491-1499 *)
Definition npivot_scan h (data : list T) (nbs : list nbr) (pivot : pid) (dte : option Z) : outcome (pid * option Z) :=
  foldl (fun acc n =>
           '(pv, d) ← acc;
           npt ← unwrap (get_pt h (n_pid n));
           tmp ← ndist data (pt_data npt);
           Ok (if nlt tmp d then (n_pid n, tmp) else (pv, d)))
        (Ok (pivot, dte)) nbs.
(** l.1486-1504 *)
Fixpoint npivot_descend (ls : list nat) h (data : list T) (pivot : pid) (dte : option Z) : outcome pid :=
  match ls with
  | [] => Ok pivot
  | l :: ls' =>
      pt ← unwrap (get_pt h pivot);
      nbs ← unwrap (pt_nbs pt !! l);
      '(pv, d) ← npivot_scan h data nbs pivot dte;
      npivot_descend ls' h data pv d
  end.
(** l.1482-1504 *)
Definition nfind_pivot h (data : list T) (ep : pid) : outcome pid :=
  ept ← unwrap (get_pt h ep);
  d ← ndist data (pt_data ept);
  npivot_descend (rev (seq 1 ep.1)) h data ep d.

(** l.99 Neighbour, l.1519-1532 *)
Record nneighbour : Type := NNeighbour { nd_id : dataid; ndistance : option Z; np_id : pid }.
Definition nto_answer h (n : nnbr) : outcome nneighbour :=
  pt ← unwrap (get_pt h n.1);
  Ok (NNeighbour (pt_oid pt) n.2 n.1).

(** l.1462-1535 *)
Definition nsearch_filter h (data : list T) (knbn ef_arg : nat) (filter : option (dataid -> bool)) : outcome (list nneighbour) :=
  match entry_point h with
  | None => Ok []
  | Some ep =>
      pivot ← nfind_pivot h data ep;
      let ef := Nat.max ef_arg knbn in
      l ← layer_to_search h;
      hp ← nsearch_layer h data pivot ef l filter;
      neighbours ← n_sorted no hp;
      let last := Nat.min (Nat.min knbn ef) (length neighbours) in
      mapM (nto_answer h) (take last neighbours)
  end.
End Nan.
