(** Properties C89 and C90: the calls made to the distance function, and a distance function that panics. *)
From stdpp Require Import relations.
From Verif Require Import Prelude Model StdInst Lib Table SearchProofs InsertProofs QueryProofs IterProofs Spec SpecProofs
  Conc SpecConc Io SpecIo SpecBuilt Calls CallsProofs BuiltProofs ConcEnd Examples.
Local Open Scope list_scope.

(** a vector that was inserted *)
Definition inserted_vector {T} (hist : list (list T * dataid)) (v : list T) : Prop := exists id, (v, id) ∈ hist.

Lemma inserted_stored {T} (h : hnsw (T:=T)) hist p pt : stored h ≡ₚ hist -> get_pt h p = Some pt -> inserted_vector hist (pt_data pt).
Proof. intros Hst Hp. exists (pt_oid pt). rewrite <- Hst. by eapply stored_at. Qed.

(** C89: with any distance, the programs of Calls.v compute what search_filter and insert_slice do. A search calls the distance only
    with the query first and a stored vector second, at most once for the entry point, M times for each upper layer and once for
    each stored point. An insertion calls it only with the new vector or a stored one first and a stored one second, and the
    number of calls is bounded by a linear function of the number of points. *)
Theorem C89_distance_calls :
  forall {T} (dist : list T -> list T -> Z) so, StdLaws so -> (forall a b, (0 <= dist a b)%Z) ->
  forall inv_ln M ml ef hist h, used dist so inv_ln M ml ef hist h ->
  (forall q knbn ef_arg filter, filter = None \/ (1 <= Nat.max ef_arg knbn)%nat ->
    let p := search_filter_d so h q knbn ef_arg filter in
    run (fun a b => Ok (dist a b)) p = search_filter dist so h q knbn ef_arg filter /\
    (forall a b, (a, b) ∈ calls dist p -> a = q /\ inserted_vector hist b) /\
    (length (calls dist p) <= 1 + 15 * M + length hist)%nat) /\
  ((1 <= ml)%nat -> forall v id dr,
    let p := insert_slice_d so h v id dr in
    run (fun a b => Ok (dist a b)) p = insert_slice dist so h v id dr /\
    (forall a b, (a, b) ∈ calls dist p -> (a = v \/ inserted_vector hist a) /\ inserted_vector hist b) /\
    (length (calls dist p) <= 1 + 16 * ((2 * M + 2) * (length hist + 1) + 1))%nat).
Proof.
  intros T dist so LAWS Hnn inv_ln M ml ef hist h Hu.
  destruct (used_facts dist so LAWS Hnn _ _ _ _ _ _ Hu) as (Hwf & Eml & EM & _ & Hst & Hnb). pose proof (l_core _ _ Hwf) as Hc. split.
  - intros q k efa filter Hf. cbn zeta. split; [apply run_search|].
    destruct (entry_point h) as [ep|] eqn:Hep.
    2: { unfold search_filter_d. rewrite Hep. split; [by intros a b ?%elem_of_nil|simpl; lia]. }
    destruct (search_calls dist so LAWS Hnn h q k efa filter ep Hwf Hep Hf) as [S1 S2]. split.
    + intros a b Hin. destruct (safe_calls dist _ _ S1 a b Hin) as (h' & _ & -> & p & pt & Hpt & ->). split; [done|]. by eapply inserted_stored.
    + pose proof (l_entry _ _ Hwf) as Hv. rewrite Hep in Hv. destruct (core_layer dist h ep Hc Hv) as [_ H16]. unfold NB_LAYER_MAX in H16.
      rewrite <- (l_count _ _ Hwf), Hnb, EM in S2. nia.
  - intros Hml v id dr. cbn zeta. split; [apply run_insert|].
    assert (Hml' : (0 < max_layer h)%nat) by (rewrite Eml; lia).
    destruct (insert_calls dist so LAWS Hnn h v id dr Hwf Hml') as [S1 S2]. split.
    + intros a b Hin. destruct (safe_calls dist _ _ S1 a b Hin) as (h' & _ & _ & _ & _ & _ & _ & _ & _ & _ & _ & _ & _ & Ha & p & pt & Hpt & ->).
      split; [|by eapply inserted_stored]. destruct Ha as [->|(p' & pt' & Hpt' & ->)]; [by left|right; by eapply inserted_stored].
    + rewrite Hnb, EM in S2. assert (max_layer h <= 16)%nat by lia.
      replace (S (length hist)) with (length hist + 1)%nat in S2 by lia. nia.
Qed.
Print Assumptions C89_distance_calls.

(** C90: a distance function that panics on some vectors, and answers [dist] on the others.
    - A search gives the answers of [dist], or panics: then the query and a stored vector are a pair on which the distance panics.
    - An insertion does what it does with [dist], or panics: then the new vector or a stored one and a stored one are such a pair, and
      the index is left with the new point in it: it is an index as those of C67, on which searches and insertions go on to succeed.
      No search of that index returns the new point.
    - With a distance that answers whenever the two vectors have the same length, an index of vectors of one length and a query or
      new vector of this length, nothing panics. *)
Theorem C90_panicking_distance :
  forall {T} (dist : list T -> list T -> Z) so, StdLaws so -> (forall a b, (0 <= dist a b)%Z) ->
  forall inv_ln M ml ef hist h, used dist so inv_ln M ml ef hist h -> (1 <= ml)%nat ->
  forall d : list T -> list T -> outcome Z, (forall a b z, d a b = Ok z -> z = dist a b) ->
  (forall q knbn ef_arg filter, filter = None \/ (1 <= Nat.max ef_arg knbn)%nat ->
    match left_at d (search_filter_d so h q knbn ef_arg filter) with
    | None => run d (search_filter_d so h q knbn ef_arg filter) = search_filter dist so h q knbn ef_arg filter
    | Some h' => h' = h /\ exists x, inserted_vector hist x /\ forall z, d q x <> Ok z
    end) /\
  (forall v id dr,
    match left_at d (insert_slice_d so h v id dr) with
    | None => run d (insert_slice_d so h v id dr) = insert_slice dist so h v id dr
    | Some h' =>
        (exists a b, (a = v \/ inserted_vector hist a) /\ inserted_vector hist b /\ forall z, d a b <> Ok z) /\
        used dist so inv_ln M ml ef (hist ++ [(v, id)]) h' /\
        (forall q knbn ef_arg filter res, filter = None \/ (1 <= Nat.max ef_arg knbn)%nat ->
           search_filter dist so h' q knbn ef_arg filter = Ok res ->
           forall a, a ∈ res -> exists pt, layer_point h (p_id a) pt /\ d_id a = pt_oid pt)
    end) /\
  (forall n, (forall a b, length a = length b -> d a b = Ok (dist a b)) -> (forall x, inserted_vector hist x -> length x = n) ->
    (forall q knbn ef_arg filter, filter = None \/ (1 <= Nat.max ef_arg knbn)%nat -> length q = n ->
       run d (search_filter_d so h q knbn ef_arg filter) = search_filter dist so h q knbn ef_arg filter) /\
    (forall v id dr, length v = n -> run d (insert_slice_d so h v id dr) = insert_slice dist so h v id dr)).
Proof.
  intros T dist so LAWS Hnn inv_ln M ml ef hist h Hu Hml d Hd.
  destruct (used_facts dist so LAWS Hnn _ _ _ _ _ _ Hu) as (Hwf & Eml & EM & _ & Hst & Hnb). pose proof (l_core _ _ Hwf) as Hc.
  assert (Hml' : (0 < max_layer h)%nat) by (rewrite Eml; lia).
  assert (Hsearch : forall q k efa filter, filter = None \/ (1 <= Nat.max efa k)%nat -> safe dist (on_stored h q) (search_filter_d so h q k efa filter)).
  { intros q k efa filter Hf. destruct (entry_point h) as [ep|] eqn:Hep; [by apply (search_calls dist so LAWS Hnn h q k efa filter ep Hwf Hep Hf)|].
    unfold search_filter_d. by rewrite Hep. }
  pose proof (fun v id dr => proj1 (insert_calls dist so LAWS Hnn h v id dr Hwf Hml')) as Hins.
  split; [|split].
  - intros q k efa filter Hf. destruct (left_at d _) as [h'|] eqn:El.
    + destruct (safe_left dist _ d _ h' (Hsearch q k efa filter Hf) Hd El) as (a & b & (-> & -> & p & pt & Hpt & ->) & Hz). split; [done|].
      exists (pt_data pt). split; [by eapply inserted_stored|done].
    + rewrite (run_left dist d _ Hd El). apply run_search.
  - intros v id dr. destruct (left_at d _) as [h'|] eqn:El; [|rewrite (run_left dist d _ Hd El); apply run_insert].
    destruct (safe_left dist _ d _ h' (Hins v id dr) Hd El) as
      (a & b & (Hwf' & Hgr & (np & Hnone & Hs & Hold & Hun) & Hnb' & _ & _ & _ & _ & _ & _ & _ & Hep & Ha & Hb) & Hz).
    split; [|split].
    + exists a, b. split_and!; [|destruct Hb as (p & pt & Hpt & ->); by eapply inserted_stored|done].
      destruct Ha as [->|(p & pt & Hpt & ->)]; [by left|right; by eapply inserted_stored].
    + by eapply used_panic.
    + intros q k efa filter res Hf Hres x Hx. rename Hb into Hb0.
      destruct (entry_point h) as [ep|] eqn:Eep.
      2: { unfold search_filter in Hres. rewrite Hep in Hres. injection Hres as <-. by apply elem_of_nil in Hx. }
      assert (Hvep : valid h ep) by (pose proof (l_entry _ _ Hwf) as H; by rewrite Eep in H).
      assert (Hne : p_id x <> np).
      { eapply (search_in dist so LAWS Hnn h' q k efa filter ep res (fun p => p <> np) Hwf' Hep Hf); [| |exact Hres|exact Hx].
        - intros l Hl. by apply (core_links_ne dist); [apply (l_core _ _ Hwf')| |].
        - intros ->. destruct Hvep as [pt Hpt]. congruence. }
      destruct (search_filter_facts dist so LAWS Hnn h' q k efa filter Hwf' Hf) as (res' & Hres' & _ & _ & _ & F).
      rewrite Hres in Hres'. injection Hres' as <-. rewrite Forall_forall in F. destruct (F x Hx) as (pt' & Hpt' & Eid & _).
      pose proof (Hold _ Hne) as Hs'. unfold static in Hs'. rewrite Hpt' in Hs'. destruct (get_pt h (p_id x)) as [pt|] eqn:Ept; [|done].
      injection Hs' as _ E2 _. exists pt. split; [by apply (layer_point_pt dist)|]. congruence.
  - intros n Hlen Hall. split.
    + intros q k efa filter Hf Hq. destruct (safe_agree dist _ d _ (Hsearch q k efa filter Hf)) as [-> _]; [|apply run_search].
      intros h' a b (-> & -> & p & pt & Hpt & ->). apply Hlen. rewrite Hq, Hall; [done|]. by eapply inserted_stored.
    + intros v id dr Hv. destruct (safe_agree dist _ d _ (Hins v id dr)) as [-> _]; [|apply run_insert].
      intros h' a b (_ & _ & _ & _ & _ & _ & _ & _ & _ & _ & _ & _ & Ha & p & pt & Hpt & ->). apply Hlen.
      rewrite (Hall (pt_data pt)) by (by eapply inserted_stored). destruct Ha as [->|(p' & pt' & Hpt' & ->)]; [done|]. apply Hall. by eapply inserted_stored.
Qed.
Print Assumptions C90_panicking_distance.

(** examples: an index of four points, and a distance that panics when the lengths differ *)
Definition pc_h := the (empty_index 2 16 10) (mk simple_ops 2 16 10 [(0%Z, 1%N, 1%nat); (5%Z, 2%N, 0%nat); (9%Z, 3%N, 0%nat); (7%Z, 4%N, 0%nat)]).
Definition pc_hist : list (list Z * dataid) := [([0%Z], 1%N); ([5%Z], 2%N); ([9%Z], 3%N); ([7%Z], 4%N)].
Lemma pc_used : used d1 simple_ops one_scale 2 16 10 pc_hist pc_h.
Proof. apply used_built. apply (mk_built simple_ops 2 16 10 [(0%Z, 1%N, 1%nat); (5%Z, 2%N, 0%nat); (9%Z, 3%N, 0%nat); (7%Z, 4%N, 0%nat)]). vm_compute. reflexivity. Qed.
Definition d_len (a b : list Z) : outcome Z := if (length a =? length b)%nat then Ok (d1 a b) else Panic.
Lemma d_len_ok a b z : d_len a b = Ok z -> z = d1 a b.
Proof. unfold d_len. destruct (_ =? _)%nat; congruence. Qed.

(** five calls for this search, of the 1 + 15 * 2 + 4 the bound allows; the first is for the entry point *)
Example C89_example : used d1 simple_ops one_scale 2 16 10 pc_hist pc_h /\
  calls d1 (search_filter_d simple_ops pc_h [6%Z] 2 10 None) = [([6], [0]); ([6], [0]); ([6], [5]); ([6], [7]); ([6], [9])]%Z.
Proof. split; [exact pc_used|]. vm_compute. reflexivity. Qed.

(** an insertion that panics, and what it leaves: five points, of which the last is not found *)
Definition pc_left := match left_at d_len (insert_slice_d simple_ops pc_h [6; 6]%Z 5%N (lv 0)) with Some h => h | None => pc_h end.
Example C90_example : used d1 simple_ops one_scale 2 16 10 pc_hist pc_h /\
  left_at d_len (insert_slice_d simple_ops pc_h [6; 6]%Z 5%N (lv 0)) = Some pc_left /\ get_nb_point pc_left = 5%nat /\
  run d_len (insert_slice_d simple_ops pc_h [6; 6]%Z 5%N (lv 0)) = Panic /\
  (exists res, search d1 simple_ops pc_left [6%Z] 5 10 = Ok res /\ d_id <$> res = [4; 2; 3; 1]%N) /\
  (exists h', run d_len (insert_slice_d simple_ops pc_h [6%Z] 5%N (lv 0)) = Ok h' /\ get_nb_point h' = 5%nat).
Proof.
  split; [exact pc_used|]. split; [vm_compute; reflexivity|]. split; [vm_compute; reflexivity|]. split; [vm_compute; reflexivity|].
  split; (eexists; split; [vm_compute; reflexivity|vm_compute; reflexivity]).
Qed.
