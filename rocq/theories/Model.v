(** Model of hnsw.rs (and filter.rs' filter argument). Every definition cites the lines of
    /repo/src/hnsw.rs it models. *)
From Coq Require Import SpecFloat.
From Verif Require Import Prelude.

(* ------------------------------------------------------------------ *)
(** * Level generation (LayerGenerator, l.317-382) *)

(** f64 values are Coq's axiom-free IEEE 754 [spec_float]. *)
Definition f64 : Type := spec_float.
Definition f64_mul : f64 -> f64 -> f64 := SFmul 53 1024.

(** Rust's [x.floor() as usize] (l.363): saturating, NaN gives 0. *)
Definition f64_floor_as_usize (x : f64) : N :=
  match x with
  | S754_zero _ => 0%N
  | S754_nan => 0%N
  | S754_infinity true => 0%N
  | S754_infinity false => (2^64 - 1)%N
  | S754_finite true _ _ => 0%N
  | S754_finite false m e =>
      N.min (2^64 - 1)%N
        (match e with
         | Z0 => Npos m
         | Zpos e => (Npos m * 2 ^ Npos e)%N
         | Zneg e => (Npos m / 2 ^ Npos e)%N
         end)
  end.

(** The randomness consumed by one call of generate: the f64 [-xsi.ln()] (arbitrary)
    and the second uniform draw (used modulo maxlevel). *)
Record draw : Type := Draw { dr_nln : f64; dr_unif : nat }.

(** l.359-370 LayerGenerator::generate. [Uniform::new(0,0)] panics. *)
Definition generate (scale : f64) (maxlevel : nat) (d : draw) : outcome nat :=
  let ulevel := f64_floor_as_usize (f64_mul (dr_nln d) scale) in
  if (N.of_nat maxlevel <=? ulevel)%N then
    match maxlevel with
    | O => Panic
    | _ => Ok (dr_unif d mod maxlevel)
    end
  else Ok (N.to_nat ulevel).

(** f64::max / f64::min: a NaN argument is ignored. *)
Definition f64_max (a b : f64) : f64 :=
  match SFcompare a b with
  | Some Lt => b
  | Some _ => a
  | None => match a with S754_nan => b | _ => a end
  end.
Definition f64_min (a b : f64) : f64 :=
  match SFcompare a b with
  | Some Gt => b
  | Some _ => a
  | None => match a with S754_nan => b | _ => a end
  end.
(** the constants 0.2 (0x3FC999999999999A) and 1.0 *)
Definition f64_0_2 : f64 := S754_finite false 7205759403792794 (-55).
Definition f64_1 : f64 := S754_finite false 4503599627370496 (-52).

(* ------------------------------------------------------------------ *)
Section Hnsw.
Context {T : Type}.
(** Distance<T>::eval *)
Context (dist : list T -> list T -> Z).
Context (so : StdOps).

Local Notation heap := (heap so).
Local Notation h_empty := (h_empty so).
Local Notation h_push := (h_push so).
Local Notation h_pop := (h_pop so).
Local Notation h_iter := (h_iter so).

(** BinaryHeap::peek and len *)
Definition h_peek (h : heap) : option nbr := fst <$> h_pop h.
Definition h_len (h : heap) : nat := length (h_iter h).

(** l.164-173 Point. PointData::V / PointData::S (l.129-154) both denote the vector returned
    by get_v. *)
Record point : Type := Point {
  pt_data : list T;
  pt_oid : dataid;
  pt_pid : pid;
  pt_nbs : list (list nbr)
}.

(** l.736-760 Hnsw together with its PointIndexation (l.391-404). [max_elements] is only a memory
    hint and is dropped; [data_dimension] is never used. *)
Record hnsw : Type := Hnsw {
  ef_construction : nat;
  max_nb_connection : nat;
  extend_candidates : bool;
  keep_pruned : bool;
  max_layer : nat;
  points_by_layer : list (list point);
  level_scale : f64;
  nb_point : nat;
  entry_point : option pid;
  searching : bool;
  datamap_opt : bool
}.

Definition set_layers (ls : list (list point)) (h : hnsw) : hnsw :=
  Hnsw (ef_construction h) (max_nb_connection h) (extend_candidates h) (keep_pruned h)
       (max_layer h) ls (level_scale h) (nb_point h) (entry_point h) (searching h) (datamap_opt h).
Definition set_nb_point (n : nat) (h : hnsw) : hnsw :=
  Hnsw (ef_construction h) (max_nb_connection h) (extend_candidates h) (keep_pruned h)
       (max_layer h) (points_by_layer h) (level_scale h) n (entry_point h) (searching h) (datamap_opt h).
Definition set_entry (e : option pid) (h : hnsw) : hnsw :=
  Hnsw (ef_construction h) (max_nb_connection h) (extend_candidates h) (keep_pruned h)
       (max_layer h) (points_by_layer h) (level_scale h) (nb_point h) e (searching h) (datamap_opt h).
Definition set_scale (s : f64) (h : hnsw) : hnsw :=
  Hnsw (ef_construction h) (max_nb_connection h) (extend_candidates h) (keep_pruned h)
       (max_layer h) (points_by_layer h) s (nb_point h) (entry_point h) (searching h) (datamap_opt h).

(** l.855 set_extend_candidates *)
Definition set_extend_candidates (b : bool) (h : hnsw) : hnsw :=
  Hnsw (ef_construction h) (max_nb_connection h) b (keep_pruned h)
       (max_layer h) (points_by_layer h) (level_scale h) (nb_point h) (entry_point h) (searching h) (datamap_opt h).
(** l.842 set_keeping_pruned *)
Definition set_keeping_pruned (b : bool) (h : hnsw) : hnsw :=
  Hnsw (ef_construction h) (max_nb_connection h) (extend_candidates h) b
       (max_layer h) (points_by_layer h) (level_scale h) (nb_point h) (entry_point h) (searching h) (datamap_opt h).
(** l.831 set_searching_mode *)
Definition set_searching_mode (b : bool) (h : hnsw) : hnsw :=
  Hnsw (ef_construction h) (max_nb_connection h) (extend_candidates h) (keep_pruned h)
       (max_layer h) (points_by_layer h) (level_scale h) (nb_point h) (entry_point h) b (datamap_opt h).

(** l.869-894 modify_level_scale (and l.373 set_scale_modification). Printing is dropped. *)
Definition modify_level_scale (m : f64) (h : hnsw) : hnsw :=
  set_scale (f64_mul (level_scale h) (f64_min (f64_max m f64_0_2) f64_1)) h.

(** l.768-804 Hnsw::new with l.448-467 PointIndexation::new and l.326 LayerGenerator::new.
    [inv_ln m] stands for the f64 1/ln(m). *)
Definition hnsw_new (inv_ln : nat -> f64) (max_nb_conn max_layer_arg ef_c : nat) : outcome hnsw :=
  let adjusted := Nat.min NB_LAYER_MAX max_layer_arg in
  if (256 <? max_nb_conn)%nat then Exit
  else Ok (Hnsw ef_c max_nb_conn false false adjusted (replicate adjusted [])
             (inv_ln max_nb_conn) 0 None false false).

(** l.820 get_max_nb_connection: [as u8] truncates. *)
Definition get_max_nb_connection (h : hnsw) : nat := max_nb_connection h mod 256.

(** Dereferencing an [Arc<Point>]: the point lives in the table at its PointId. *)
Definition get_pt (h : hnsw) (p : pid) : option point :=
  points_by_layer h !! p.1 ≫= fun ly => ly !! p.2.

(** l.556 get_nb_point *)
Definition get_nb_point (h : hnsw) : nat := nb_point h.

(** l.470 get_max_level_observed *)
Definition get_max_level_observed (h : hnsw) : nat :=
  match entry_point h with Some p => p.1 | None => 0 end.

(** l.561 get_layer_nb_point *)
Definition get_layer_nb_point (h : hnsw) (layer : nat) : nat :=
  match points_by_layer h !! layer with Some ly => length ly | None => 0 end.

(** l.584 get_point_data (the u8 layer is a nat, the i32 rank a Z) *)
Definition get_point_data (h : hnsw) (layer : nat) (rank : Z) : outcome (option (list T)) :=
  if (rank <? 0)%Z then Ok None
  else
    let p := Z.to_nat rank in
    if (layer <=? get_max_level_observed h)%nat && (p <? get_layer_nb_point h layer)%nat then
      ly ← unwrap (points_by_layer h !! layer);
      pt ← unwrap (ly !! p);
      Ok (Some (pt_data pt))
    else Ok None.

(** l.571 get_data_dimension *)
Definition get_data_dimension (h : hnsw) : nat :=
  match entry_point h with
  | Some p => match get_pt h p with Some pt => length (pt_data pt) | None => 0 end
  | None => 0
  end.

(** l.221 Point::get_neighborhood_id *)
Definition get_neighborhood_id (h : hnsw) (pt : point) : outcome (list (list neighbour)) :=
  mapM (mapM (fun n : nbr =>
           q ← unwrap (get_pt h (n_pid n));
           Ok (Neighbour (pt_oid q) (n_dist n) (n_pid n)))) (pt_nbs pt).

(* ------------------------------------------------------------------ *)
(** * search_layer (l.911-1042) *)

Record sst : Type := SST { s_ret : heap; s_cand : heap; s_vis : list pid }.

(** l.1029-1031: [if return_points.len() > ef { return_points.pop(); }] *)
Definition shrink_ret (ef : nat) (r : heap) : heap :=
  if (ef <? h_len r)%nat then
    match h_pop r with Some (_, r') => r' | None => r end
  else r.

(** l.1015-1028: pushing [e_prime] (distance [ed]) in return_points, under the filter *)
Definition push_ret (h : hnsw) (filter : option (dataid -> bool)) (e : pid) (oid : dataid) (ed : Z)
    (ret : heap) : outcome heap :=
  match filter with
  | None => Ok (h_push (Nbr e ed) ret)
  | Some flt =>
      if flt oid then
        ret1 ← (if (h_len ret =? 1)%nat then
                  o ← unwrap (h_peek ret);
                  opt ← unwrap (get_pt h (n_pid o));
                  Ok (if flt (pt_oid opt) then ret else h_empty)
                else Ok ret);
        Ok (h_push (Nbr e ed) ret1)
      else Ok ret
  end.

(** l.991-1034: the [for e in neighbours_c_l] loop. The boolean tells whether the function returns
    immediately (l.1001). *)
Fixpoint scan_neighbours (h : hnsw) (q : list T) (ef : nat) (filter : option (dataid -> bool))
    (nbs : list nbr) (s : sst) {struct nbs} : outcome (bool * sst) :=
  match nbs with
  | [] => Ok (false, s)
  | e :: nbs' =>
      if bool_decide (n_pid e ∈ s_vis s) then scan_neighbours h q ef filter nbs' s
      else
        let vis := n_pid e :: s_vis s in
        match h_peek (s_ret s) with
        | None => Ok (true, SST (s_ret s) (s_cand s) vis)
        | Some f =>
            ept ← unwrap (get_pt h (n_pid e));
            let ed := dist q (pt_data ept) in
            if (ed <? n_dist f)%Z || (h_len (s_ret s) <? ef)%nat then
              let cand := h_push (Nbr (n_pid e) (- ed)) (s_cand s) in
              ret ← push_ret h filter (n_pid e) (pt_oid ept) ed (s_ret s);
              scan_neighbours h q ef filter nbs' (SST (shrink_ret ef ret) cand vis)
            else scan_neighbours h q ef filter nbs' (SST (s_ret s) (s_cand s) vis)
        end
  end.

(** l.960-1035: one iteration of the [while] loop. [inl r]: the function returns [r]. *)
Definition search_iter (h : hnsw) (q : list T) (ef layer : nat) (filter : option (dataid -> bool))
    (s : sst) : outcome (heap + sst) :=
  match h_pop (s_cand s) with
  | None => Ok (inl (s_ret s))
  | Some (c, cand') =>
      f ← unwrap (h_peek (s_ret s));
      _ ← assert_ (0 <=? n_dist f)%Z;
      _ ← assert_ (n_dist c <=? 0)%Z;
      if (n_dist f <? - n_dist c)%Z &&
         match filter with None => true | Some _ => (ef <=? h_len (s_ret s))%nat end
      then Ok (inl (s_ret s))
      else
        cpt ← unwrap (get_pt h (n_pid c));
        nbs ← unwrap (pt_nbs cpt !! layer);
        '(stop, s') ← scan_neighbours h q ef filter nbs (SST (s_ret s) cand' (s_vis s));
        Ok (if (stop : bool) then inl (s_ret s') else inr s')
  end.

Fixpoint search_loop (fuel : nat) (h : hnsw) (q : list T) (ef layer : nat)
    (filter : option (dataid -> bool)) (s : sst) : outcome heap :=
  match fuel with
  | O => Fuel
  | S fuel =>
      r ← search_iter h q ef layer filter s;
      match r with
      | inl ret => Ok ret
      | inr s' => search_loop fuel h q ef layer filter s'
      end
  end.

(** number of points in the table *)
Definition table_size (h : hnsw) : nat := sum_list (length <$> points_by_layer h).

(** l.943-958: initial state of the walk *)
Definition search_init (h : hnsw) (q : list T) (ep : pid) : outcome sst :=
  ept ← unwrap (get_pt h ep);
  let d := dist q (pt_data ept) in
  Ok (SST (h_push (Nbr ep d) h_empty) (h_push (Nbr ep (- d)) h_empty) [ep]).

(** l.911-1042. The test on negative rank (l.938) can never succeed on a stored point. *)
Definition search_layer (h : hnsw) (q : list T) (ep : pid) (ef layer : nat)
    (filter : option (dataid -> bool)) : outcome heap :=
  match points_by_layer h !! layer with
  | None => Panic
  | Some [] => Ok h_empty
  | Some _ =>
      s ← search_init h q ep;
      search_loop (S (table_size h)) h q ef layer filter s
  end.

(* ------------------------------------------------------------------ *)
(** * select_neighbours (l.1274-1396) and heap sign change (l.1619-1636) *)

Definition from_positive_to_negative (hp : heap) : outcome heap :=
  foldl (fun acc p =>
           neg ← acc;
           _ ← assert_ (0 <=? n_dist p)%Z;
           Ok (h_push (Nbr (n_pid p) (- n_dist p)) neg)) (Ok h_empty) (h_iter hp).

(** l.1296-1301: transfer of all candidates, nearest first *)
Fixpoint transfer (fuel : nat) (cand : heap) (acc : list nbr) : outcome (list nbr) :=
  match h_pop cand with
  | None => Ok acc
  | Some (p, cand') =>
      match fuel with
      | O => Fuel
      | S fuel =>
          _ ← assert_ (0 <=? - n_dist p)%Z;
          transfer fuel cand' (acc ++ [Nbr (n_pid p) (- n_dist p)])
      end
  end.

(** l.1318-1327: collecting the neighbours of candidates that are not themselves candidates *)
Definition add_new_candidates (cset : list pid) (nbs : list nbr) (acc : list pid) : list pid :=
  foldl (fun acc q =>
           if bool_decide (n_pid q ∈ cset) || bool_decide (n_pid q ∈ acc) then acc
           else n_pid q :: acc) acc nbs.

Fixpoint collect_new_candidates (h : hnsw) (layer : nat) (cset todo : list pid) (acc : list pid)
    : outcome (list pid) :=
  match todo with
  | [] => Ok acc
  | p :: todo' =>
      pt ← unwrap (get_pt h p);
      nbs ← unwrap (pt_nbs pt !! layer);
      collect_new_candidates h layer cset todo' (add_new_candidates cset nbs acc)
  end.

(** l.1333-1336 *)
Fixpoint push_candidates (h : hnsw) (data : list T) (ps : list pid) (cand : heap) : outcome heap :=
  match ps with
  | [] => Ok cand
  | p :: ps' =>
      pt ← unwrap (get_pt h p);
      push_candidates h data ps' (h_push (Nbr p (- dist data (pt_data pt))) cand)
  end.

(** l.1311-1337 *)
Definition extend_cands (h : hnsw) (data : list T) (layer : nat) (cand : heap) : outcome heap :=
  let cset := remove_dups (n_pid <$> h_iter cand) in
  news ← collect_new_candidates h layer cset (m_iter so pid cset) [];
  push_candidates h data (m_iter so pid news) cand.

(** l.1347-1351: is some already selected neighbour nearer to e than e is to data? *)
Fixpoint dominated (h : hnsw) (ev : list T) (bound : Z) (nv : list nbr) : outcome bool :=
  match nv with
  | [] => Ok false
  | d :: nv' =>
      dpt ← unwrap (get_pt h (n_pid d));
      if (dist ev (pt_data dpt) <=? bound)%Z then Ok true
      else dominated h ev bound nv'
  end.

(** l.1340-1370 *)
Fixpoint select_loop (fuel : nat) (h : hnsw) (asked : nat) (keep : bool) (cand : heap)
    (nv : list nbr) (disc : heap) : outcome (list nbr * heap) :=
  if (length nv <? asked)%nat then
    match h_pop cand with
    | None => Ok (nv, disc)
    | Some (e, cand') =>
        match fuel with
        | O => Fuel
        | S fuel =>
            ept ← unwrap (get_pt h (n_pid e));
            _ ← assert_ (n_dist e <=? 0)%Z;
            dom ← dominated h (pt_data ept) (- n_dist e) nv;
            if (dom : bool) then
              select_loop fuel h asked keep cand' nv
                (if keep then h_push (Nbr (n_pid e) (n_dist e)) disc else disc)
            else
              select_loop fuel h asked keep cand' (nv ++ [Nbr (n_pid e) (- n_dist e)]) disc
        end
    end
  else Ok (nv, disc).

(** l.1375-1383 *)
Fixpoint keep_loop (fuel : nat) (asked : nat) (nv : list nbr) (disc : heap) : outcome (list nbr) :=
  if (length nv <? asked)%nat then
    match h_pop disc with
    | None => Ok nv
    | Some (b, disc') =>
        match fuel with
        | O => Fuel
        | S fuel =>
            _ ← assert_ (n_dist b <=? 0)%Z;
            keep_loop fuel asked (nv ++ [Nbr (n_pid b) (- n_dist b)]) disc'
        end
    end
  else Ok nv.

(** l.1274-1396 select_neighbours; returns the final neighbours_vec. *)
Definition select_neighbours (h : hnsw) (data : list T) (cand : heap) (asked : nat)
    (extend_asked : bool) (layer : nat) (keep : bool) : outcome (list nbr) :=
  let few := (h_len cand <=? asked)%nat in
  if few && negb extend_asked then transfer (h_len cand) cand []
  else
    cand1 ← (if few then extend_cands h data layer cand else Ok cand);
    '(nv, disc) ← select_loop (h_len cand1) h asked keep cand1 [] h_empty;
    if keep then keep_loop (h_len disc) asked nv disc else Ok nv.

(* ------------------------------------------------------------------ *)
(** * Insertion *)

(** l.176-188 Point::new *)
Definition new_pt (data : list T) (oid : dataid) (p : pid) : point :=
  Point data oid p (replicate NB_LAYER_MAX []).

(** l.503-513: the critical section of generate_new_point on points_by_layer *)
Definition push_point (h : hnsw) (data : list T) (oid : dataid) (level : nat) : outcome (hnsw * pid) :=
  ly ← unwrap (points_by_layer h !! level);
  let p := (level, length ly) in
  Ok (set_layers (<[level := ly ++ [new_pt data oid p]]> (points_by_layer h)) h, p).

(** l.515-523: the critical section of generate_new_point on nb_point *)
Definition incr_nb_point (h : hnsw) : hnsw * nat :=
  (set_nb_point (S (nb_point h)) h, S (nb_point h)).

(** l.499-527 generate_new_point, the level being drawn *)
Definition generate_new_point (h : hnsw) (data : list T) (oid : dataid) (d : draw)
    : outcome (hnsw * pid * nat) :=
  level ← generate (level_scale h) (max_layer h) d;
  '(h1, p) ← push_point h data oid level;
  let '(h2, n) := incr_nb_point h1 in
  Ok (h2, p, n).

(** l.530-553 check_entry_point *)
Definition check_entry_point (h : hnsw) (np : pid) : hnsw :=
  match entry_point h with
  | Some ep => if (ep.1 <? np.1)%nat then set_entry (Some np) h else h
  | None => set_entry (Some np) h
  end.

Definition set_pt_nbs (pt : point) (l : nat) (nbs : list nbr) : point :=
  Point (pt_data pt) (pt_oid pt) (pt_pid pt) (<[l := nbs]> (pt_nbs pt)).

(** write access to [neighbours[l]] of the point [p] *)
Definition upd_nbs (h : hnsw) (p : pid) (l : nat) (f : list nbr -> list nbr) : outcome hnsw :=
  ly ← unwrap (points_by_layer h !! p.1);
  pt ← unwrap (ly !! p.2);
  nbs ← unwrap (pt_nbs pt !! l);
  Ok (set_layers (<[p.1 := <[p.2 := set_pt_nbs pt l (f nbs)]> ly]> (points_by_layer h)) h).

(** l.1118-1122: [if len < max_nb_connection as u8 { push(ep) }] *)
Definition push_upper (h : hnsw) (np : pid) (l : nat) (ep : nbr) : outcome hnsw :=
  upd_nbs h np l (fun nbs =>
    if (length nbs <? get_max_nb_connection h)%nat then nbs ++ [ep] else nbs).

(** l.1106-1132: what is done with the result of the search in a layer above the level *)
Definition descend_use (h : hnsw) (np : pid) (data : list T) (l : nat) (sorted : heap)
    (ep : pid) (dte : Z) : outcome (hnsw * pid * Z) :=
  if (1 <? h_len sorted)%nat then Panic
  else
    match h_pop sorted with
    | None => Ok (h, ep, dte)
    | Some (e, _) =>
        h1 ← push_upper h np l e;
        ept ← unwrap (get_pt h1 (n_pid e));
        let tmp := dist data (pt_data ept) in
        if (tmp <? dte)%Z then Ok (h1, n_pid e, tmp) else Ok (h1, ep, dte)
    end.

(** l.1092-1133 *)
Fixpoint descend (ls : list nat) (h : hnsw) (np : pid) (data : list T) (ep : pid) (dte : Z)
    : outcome (hnsw * pid) :=
  match ls with
  | [] => Ok (h, ep)
  | l :: ls' =>
      sorted ← search_layer h data ep 1 l None;
      '(h1, ep1, dte1) ← descend_use h np data l sorted ep dte;
      descend ls' h1 np data ep1 dte1
  end.

(** l.1153-1161 *)
Definition nb_conn (h : hnsw) (l : nat) : nat :=
  if (l =? 0)%nat then 2 * max_nb_connection h else max_nb_connection h.
Definition extend_c (h : hnsw) (l : nat) : bool :=
  if (l =? 0)%nat then extend_candidates h else false.

(** l.1151-1182: what is done with the result of the search in a layer below the level *)
Definition connect_use (h : hnsw) (np : pid) (data : list T) (l : nat) (found : heap) (ep : pid)
    : outcome (hnsw * pid) :=
  neg ← from_positive_to_negative found;
  if (h_len neg =? 0)%nat then Ok (h, ep)
  else
    nv ← select_neighbours h data neg (nb_conn h l) (extend_c h l) l (keep_pruned h);
    let nv := u_sort so nbr n_dist nv in
    h1 ← upd_nbs h np l (fun _ => nv);
    Ok (h1, match nv with [] => ep | n :: _ => n_pid n end).

(** l.1136-1183 *)
Fixpoint connect (ls : list nat) (h : hnsw) (np : pid) (data : list T) (ep : pid)
    : outcome hnsw :=
  match ls with
  | [] => Ok h
  | l :: ls' =>
      found ← search_layer h data ep (ef_construction h) l None;
      '(h1, ep1) ← connect_use h np data l found ep;
      connect ls' h1 np data ep1
  end.

(** l.1233-1259: the modification of one neighbour list of q *)
Definition rev_list (threshold : nat) (np : pid) (d : Z) (nbs : list nbr) : list nbr :=
  if bool_decide (np ∈ n_pid <$> nbs) then nbs
  else
    let nbs1 := u_sort so nbr n_dist (nbs ++ [Nbr np d]) in
    if (threshold <? S (length nbs))%nat then take (pred (length nbs1)) nbs1 else nbs1.

(** l.1224-1260: reverse update for one neighbour q of the new point. The list modified is the
    one at layer l_n, the level of the new point (l.1232). *)
Definition rev_one (h : hnsw) (np : pid) (q : nbr) : outcome hnsw :=
  if bool_decide (np = n_pid q) then Ok h
  else
    upd_nbs h (n_pid q) np.1
      (rev_list (if (0 <? np.1)%nat then max_nb_connection h else 2 * max_nb_connection h)
                np (n_dist q)).

Fixpoint rev_many (h : hnsw) (np : pid) (qs : list nbr) : outcome hnsw :=
  match qs with
  | [] => Ok h
  | q :: qs' => h1 ← rev_one h np q; rev_many h1 np qs'
  end.

(** l.1223-1262 *)
Fixpoint rev_layers (ls : list nat) (h : hnsw) (np : pid) : outcome hnsw :=
  match ls with
  | [] => Ok h
  | l :: ls' =>
      pt ← unwrap (get_pt h np);
      qs ← unwrap (pt_nbs pt !! l);
      h1 ← rev_many h np qs;
      rev_layers ls' h1 np
  end.

(** l.1216-1264 reverse_update_neighborhood_simple *)
Definition reverse_update (h : hnsw) (np : pid) : outcome hnsw :=
  rev_layers (rev (seq 0 (S np.1))) h np.

(** l.1055-1193 insert_slice (l.1047 insert is the same). *)
Definition insert_slice (h : hnsw) (data : list T) (oid : dataid) (d : draw) : outcome hnsw :=
  '(h0, np, rank) ← generate_new_point h data oid d;
  match entry_point h0 with
  | None => Ok (check_entry_point h0 np)
  | Some ep =>
      if (rank =? 1)%nat then Ok h0
      else
        ept ← unwrap (get_pt h0 ep);
        let level := np.1 in
        '(h1, ep1) ← descend (rev (seq (S level) (ep.1 - level))) h0 np data ep
                       (dist data (pt_data ept));
        h2 ← connect (rev (seq 0 (S level))) h1 np data ep1;
        h3 ← reverse_update h2 np;
        Ok (check_entry_point h3 np)
  end.

(* ------------------------------------------------------------------ *)
(** * Searching *)

(** l.1491-1499: one layer of the descent *)
Definition pivot_scan (h : hnsw) (data : list T) (nbs : list nbr) (pivot : pid) (dte : Z)
    : outcome (pid * Z) :=
  foldl (fun acc n =>
           '(pv, d) ← acc;
           npt ← unwrap (get_pt h (n_pid n));
           let tmp := dist data (pt_data npt) in
           Ok (if (tmp <? d)%Z then (n_pid n, tmp) else (pv, d)))
        (Ok (pivot, dte)) nbs.

(** l.1486-1504 *)
Fixpoint pivot_descend (ls : list nat) (h : hnsw) (data : list T) (pivot : pid) (dte : Z)
    : outcome pid :=
  match ls with
  | [] => Ok pivot
  | l :: ls' =>
      pt ← unwrap (get_pt h pivot);
      nbs ← unwrap (pt_nbs pt !! l);
      '(pv, d) ← pivot_scan h data nbs pivot dte;
      pivot_descend ls' h data pv d
  end.

(** l.1509-1515: lowest non empty layer. Beyond the last layer the Rust loop would go on for ever
    (or overflow its u8). *)
Fixpoint lowest_from (ls : list (list point)) (l : nat) : outcome nat :=
  match ls with
  | [] => Fuel
  | [] :: ls' => lowest_from ls' (S l)
  | _ :: _ => Ok l
  end.
Definition layer_to_search (h : hnsw) : outcome nat := lowest_from (points_by_layer h) 0.

(** l.1519-1532 *)
Definition to_answer (h : hnsw) (n : nbr) : outcome neighbour :=
  pt ← unwrap (get_pt h (n_pid n));
  Ok (Neighbour (pt_oid pt) (n_dist n) (n_pid n)).

(** l.1482-1504: the pivot the layer search starts from *)
Definition find_pivot (h : hnsw) (data : list T) (ep : pid) : outcome pid :=
  ept ← unwrap (get_pt h ep);
  pivot_descend (rev (seq 1 ep.1)) h data ep (dist data (pt_data ept)).

(** l.1462-1535 search_filter *)
Definition search_filter (h : hnsw) (data : list T) (knbn ef_arg : nat)
    (filter : option (dataid -> bool)) : outcome (list neighbour) :=
  match entry_point h with
  | None => Ok []
  | Some ep =>
      pivot ← find_pivot h data ep;
      let ef := Nat.max ef_arg knbn in
      l ← layer_to_search h;
      hp ← search_layer h data pivot ef l filter;
      let neighbours := h_sorted so hp in
      let last := Nat.min (Nat.min knbn ef) (length neighbours) in
      mapM (to_answer h) (take last neighbours)
  end.

(** l.1552 search *)
Definition search (h : hnsw) (data : list T) (knbn ef_arg : nat) : outcome (list neighbour) :=
  search_filter h data knbn ef_arg None.

(** l.1578-1589: reordering of the answers received on the channel. [req_res] is the list
    received, in arrival order; the last received answer for a key wins in the hash map. *)
Definition reorder_answers {A} (n : nat) (req_res : list (nat * A)) : outcome (list A) :=
  mapM (fun i =>
          r ← unwrap (list_find (fun x => x.1 = i) (rev req_res));
          Ok (snd (snd r))) (seq 0 n).

(** l.1571-1576: the answers computed, in request order (before the channel permutes them) *)
Definition request_answers (h : hnsw) (datas : list (list T)) (knbn ef : nat)
    : outcome (list (nat * list neighbour)) :=
  mapM (fun r : nat * list T => a ← search h r.2 knbn ef; Ok (r.1, a))
       (zip (seq 0 (length datas)) datas).

(** l.1567-1590 parallel_search; [arrival] is the order in which the channel delivers. *)
Definition parallel_search (arrival : list (nat * list neighbour) -> list (nat * list neighbour))
    (h : hnsw) (datas : list (list T)) (knbn ef : nat) : outcome (list (list neighbour)) :=
  ans ← request_answers h datas knbn ef;
  reorder_answers (length datas) (arrival ans).

(* ------------------------------------------------------------------ *)
(** * Iterators *)

(** l.626-643 IterPoint: (layer, slot_in_layer), [None] being the initial layer -1. *)
Definition iter_state : Type := option (nat * nat).

(** l.665-669: the while loop looking for a non empty layer. Fuel: number of layers. *)
Fixpoint skip_empty (fuel : nat) (h : hnsw) (ep_level layer : nat) : outcome nat :=
  if (layer <=? ep_level)%nat then
    ly ← unwrap (points_by_layer h !! layer);
    match ly with
    | [] => match fuel with O => Fuel | S fuel => skip_empty fuel h ep_level (S layer) end
    | _ => Ok layer
    end
  else Ok layer.

(** l.649-680 IterPoint::next. (The u8 truncation of the layer counter is irrelevant: indexing
    past max_layer <= 16 panics before.) *)
Definition iter_next (h : hnsw) (st : iter_state) : outcome (option point * iter_state) :=
  let '(layer, slot) := match st with None => (0, 0) | Some s => s end in
  ly ← unwrap (points_by_layer h !! layer);
  match ly !! slot with
  | Some pt => Ok (Some pt, Some (layer, S slot))
  | None =>
      ep ← unwrap (entry_point h);
      layer' ← skip_empty (length (points_by_layer h)) h ep.1 (S layer);
      if (layer' <=? ep.1)%nat then
        ly' ← unwrap (points_by_layer h !! layer');
        pt ← unwrap (ly' !! 0);
        Ok (Some pt, Some (layer', 1))
      else Ok (None, Some (layer', 0))
  end.

(** Running a [for] loop over the iterator: collect until the first None. *)
Fixpoint iter_collect (fuel : nat) (h : hnsw) (st : iter_state) : outcome (list point) :=
  match fuel with
  | O => Fuel
  | S fuel =>
      '(o, st') ← iter_next h st;
      match o with
      | None => Ok []
      | Some pt => rest ← iter_collect fuel h st'; Ok (pt :: rest)
      end
  end.
Definition iter_points (h : hnsw) : outcome (list point) :=
  iter_collect (S (table_size h)) h None.

(** l.694-726 IterPointLayer *)
Definition layer_next (h : hnsw) (layer slot : nat) : outcome (option point * nat) :=
  ly ← unwrap (points_by_layer h !! layer);
  match ly !! slot with
  | Some pt => Ok (Some pt, S slot)
  | None => Ok (None, slot)
  end.
Fixpoint layer_collect (fuel : nat) (h : hnsw) (layer slot : nat) : outcome (list point) :=
  match fuel with
  | O => Fuel
  | S fuel =>
      '(o, slot') ← layer_next h layer slot;
      match o with
      | None => Ok []
      | Some pt => rest ← layer_collect fuel h layer slot'; Ok (pt :: rest)
      end
  end.
Definition iter_layer (h : hnsw) (layer : nat) : outcome (list point) :=
  layer_collect (S (table_size h)) h layer 0.

(** l.409-445 Drop for PointIndexation: indexes layers 0..=max_level_observed. Returns whether
    it completes. *)
Definition drop_indexation (h : hnsw) : outcome unit :=
  foldl (fun acc l => _ ← acc; _ ← unwrap (points_by_layer h !! l); Ok tt)
        (Ok tt) (seq 0 (S (get_max_level_observed h))).

End Hnsw.
