(** Properties C63-C66: local optimality of the answers of a search, and what an insertion links.
    Same conventions as PropsSearch.v; the vocabulary (received, diversified, chosen) is in
    SpecInsert.v. *)
From Coq Require Import SpecFloat.
From stdpp Require Import relations.
From Verif Require Import Prelude Model StdInst Lib Table SearchProofs SelectProofs InsertProofs ExhaustProofs QueryProofs
  IterProofs FlatProofs Spec SpecProofs SpecBuilt BuiltProofs SpecInsert LocalProofs DivProofs LinkProofs
  InsertSpecProofs Examples.

(** C63: the answer of a search is a local optimum: a neighbour (in the searched layer) of an answer
    is itself an answer, unless the answer is full and holds nothing further than that neighbour. *)
Theorem C63_search_local_optimum :
  forall {T} (dist : list T -> list T -> Z) so, StdLaws so -> (forall a b, (0 <= dist a b)%Z) ->
  forall inv_ln M ml ef hist h, built dist so inv_ln M ml ef hist h ->
  forall q knbn ef_arg filter res,
  (filter = None \/ (1 <= Nat.max ef_arg knbn)%nat) ->
  search_filter dist so h q knbn ef_arg filter = Ok res ->
  forall l a p pt, lowest_layer h l -> a ∈ res -> linked h l (p_id a) p -> point_at h p pt ->
  (forall f, filter = Some f -> f (pt_oid pt) = true) ->
  p ∈ p_id <$> res \/
  (length res = knbn /\ forall b, b ∈ res -> (distance b <= dist q (pt_data pt))%Z).
Proof.
  intros T dist so LAWS Hnn inv_ln M ml ef hist h Hb q knbn ef_arg filter res Hef Hres l a p pt Hl Ha Hlk Hpt Hf.
  destruct (built_facts dist so LAWS Hnn _ _ _ _ _ _ Hb) as (Hwf & _).
  destruct (built_entry dist so LAWS Hnn _ _ _ _ _ _ Hb) as [(_ & He & _)|(_ & ep & He)].
  { unfold search_filter in Hres. rewrite He in Hres. injection Hres as <-. by apply elem_of_nil in Ha. }
  destruct (search_filter_local dist so LAWS Hnn h q knbn ef_arg filter ep res (wf_lwf _ _ Hwf) He Hef Hres) as (l' & Hl' & Hloc).
  rewrite (lowest_layer_unique h l l' Hl (lowest_layer_spec dist h l' Hwf Hl')) in Hlk.
  apply (point_at_pt dist h p pt Hwf) in Hpt. apply (linked_link dist h l' _ _ Hwf) in Hlk.
  destruct (Hloc a p pt Ha Hlk Hpt) as [?|[H1 H2]].
  { unfold passes. destruct filter as [f|]; [by apply Hf|done]. }
  - by left.
  - right. split; [done|]. by rewrite Forall_forall in H2.
Qed.
Print Assumptions C63_search_local_optimum.
(* the point 5 (id 13) is an answer, its neighbour 1 (id 16) is not *)
Example C63_example : exists res, search_filter d1 simple_ops ex1 [6%Z] 2 2 None = Ok res /\
  (distance <$> res) = [1; 1]%Z /\ lowest_layer ex1 0 /\
  linked ex1 0 (0, 2)%nat (0, 4)%nat /\ (0, 2)%nat ∈ p_id <$> res /\ (0, 4)%nat ∉ p_id <$> res.
Proof.
  eexists. split; [vm_compute; reflexivity|]. split; [vm_compute; reflexivity|].
  split; [split; [by vm_compute|lia]|]. split_and!.
  - apply (linked_link d1); [apply (built_facts d1 simple_ops simple_laws d1_nonneg _ _ _ _ _ _ ex1_built)|].
    eexists _, _, (Nbr (0, 4)%nat 4%Z). split_and!; [vm_compute; reflexivity|vm_compute; reflexivity|left|done].
  - left.
  - by vm_compute; intros [?|[?|?%elem_of_nil]%elem_of_cons]%elem_of_cons.
Qed.

(** C64: the effect of an insertion on the points already there. Their lists do not change, except that
    the points linked from the new point [np] receive a link to it, in the layer of [np] only; when
    the list is full its furthest entry is dropped. *)
Theorem C64_insert_effect_on_links :
  forall {T} (dist : list T -> list T -> Z) so, StdLaws so -> (forall a b, (0 <= dist a b)%Z) ->
  forall inv_ln M ml ef hist h, built dist so inv_ln M ml ef hist h ->
  forall v id d h', insert_slice dist so h v id d = Ok h' ->
  exists np, (forall w, ~ vector_at h np w) /\ vector_at h' np v /\
  forall p w l ns, vector_at h p w -> neighbours_at h p l ns ->
  exists ns', neighbours_at h' p l ns' /\
   ((l = np.1 /\ (exists j, (j <= np.1)%nat /\ linked h' j np p) /\
       received (if (l =? 0)%nat then 2 * M else M) (Neighbour id (dist v w) np) ns ns') \/
    (~ (l = np.1 /\ exists j, (j <= np.1)%nat /\ linked h' j np p) /\ ns' = ns)).
Proof.
  intros T dist so LAWS Hnn inv_ln M ml ef hist h Hb v id d h' Hins.
  destruct (built_facts dist so LAWS Hnn _ _ _ _ _ _ Hb) as (Hwf & _ & HM & _).
  pose proof (insert_wf dist so LAWS Hnn _ _ _ _ _ Hwf Hins) as Hwf'.
  destruct (insert_links_ok dist so LAWS Hnn _ _ _ _ _ (wf_lwf _ _ Hwf) Hins) as (np & HIL).
  destruct (il_np _ _ _ _ _ _ HIL) as (npt & Hnp & Hnd & Hno).
  exists np. split; [|split].
  { intros w Hw. apply (vector_at_pt dist Hnn h _ _ Hwf) in Hw as (pt & Hpt & _).
    rewrite (il_new _ _ _ _ _ _ HIL) in Hpt. done. }
  { apply (vector_at_pt dist Hnn h' _ _ Hwf'). eauto. }
  intros p w l ns Hw Hns. apply (vector_at_pt dist Hnn h _ _ Hwf) in Hw as (pt & Hpt & <-).
  apply (neighbours_at_conv dist h p l ns Hwf) in Hns as (pt0 & nbs & Hpt0 & Hn & ->).
  rewrite Hpt in Hpt0. injection Hpt0 as <-.
  destruct (il_others _ _ _ _ _ _ HIL p pt Hpt) as (pt' & Hpt' & _ & _ & Hl).
  destruct (Hl l nbs Hn) as (nbs' & Hn' & Hcase).
  assert (Hlk : forall j, linked h' j np p <-> link h' j np p) by (intros j; apply (linked_link dist h' j np p Hwf')).
  assert (Hvalid : Forall (fun n => valid h (n_pid n)) nbs).
  { eapply (list_valid dist); eauto. apply Hwf. }
  assert (Hsame : forall p0 pt0, get_pt h p0 = Some pt0 -> oid_of h' p0 = oid_of h p0).
  { intros p0 pt0 H0. destruct (il_others _ _ _ _ _ _ HIL p0 pt0 H0) as (pt1 & H1 & _ & Ho & _).
    unfold oid_of. by rewrite H0, H1. }
  exists (conv h' <$> nbs'). split.
  { apply (neighbours_at_conv dist h' p l _ Hwf'). eauto. }
  assert (Hex : (exists j, (j <= np.1)%nat /\ linked h' j np p) <-> (exists j, (j <= np.1)%nat /\ link h' j np p)).
  { split; intros (j & ? & ?); exists j; (split; [done|]); by apply Hlk. }
  rewrite Hex. destruct Hcase as [(-> & Hj & Hr)|[Hno2 ->]]; [left|right].
  - split_and!; auto.
    replace (if (np.1 =? 0)%nat then (2 * M)%nat else M) with (nb_conn h np.1) by (unfold nb_conn; by rewrite HM).
    eapply (revd_received dist); eauto. unfold oid_of. by rewrite Hnp.
  - split; [done|]. apply list_fmap_ext. intros i n Hi. rewrite Forall_forall in Hvalid.
    destruct (Hvalid n) as [qt Hqt]; [by eapply elem_of_list_lookup_2|]. unfold conv. by rewrite (Hsame _ _ Hqt).
Qed.
Print Assumptions C64_insert_effect_on_links.

(** the vectors 6 inserted with level 0 into ex1 *)
Definition ex1i : hnsw (T:=Z) := Eval vm_compute in the ex1 (insert_slice d1 simple_ops ex1 [6%Z] 99%N (lv 0)).
Lemma ex1i_ok : insert_slice d1 simple_ops ex1 [6%Z] 99%N (lv 0) = Ok ex1i.
Proof. vm_compute. reflexivity. Qed.
Lemma ex1_wf : wf d1 ex1.
Proof. apply (built_facts d1 simple_ops simple_laws d1_nonneg _ _ _ _ _ _ ex1_built). Qed.
Lemma ex1i_wf : wf d1 ex1i.
Proof. exact (insert_wf d1 simple_ops simple_laws d1_nonneg _ _ _ _ _ ex1_wf ex1i_ok). Qed.
(* a full list (of point 5, id 13) receives the new point and loses its furthest entry *)
Example C64_example : exists pt pt' lists lists', point_at ex1 (0, 2)%nat pt /\ point_at ex1i (0, 2)%nat pt' /\
  get_neighborhood_id ex1 pt = Ok lists /\ get_neighborhood_id ex1i pt' = Ok lists' /\
  lists !! 0%nat = Some [Neighbour 16%N 4%Z (0, 4)%nat; Neighbour 11%N 5%Z (1, 0)%nat; Neighbour 10%N 5%Z (0, 0)%nat; Neighbour 12%N 15%Z (0, 1)%nat] /\
  exists ns', lists' !! 0%nat = Some (Neighbour 99%N 1%Z (0, 5)%nat :: ns') /\ length ns' = 3%nat.
Proof.
  eexists _, _, _, _. split; [apply (point_at_pt d1 ex1 _ _ ex1_wf); vm_compute; reflexivity|].
  split; [apply (point_at_pt d1 ex1i _ _ ex1i_wf); vm_compute; reflexivity|].
  split; [vm_compute; reflexivity|]. split; [vm_compute; reflexivity|].
  split; [vm_compute; reflexivity|]. eexists. split; [vm_compute; reflexivity|reflexivity].
Qed.

(** C65: how the links of the new point are chosen, in each layer up to its own. [vec] gives the vectors
    of the points. A set [found] of at most max(1, ef_construction) points is found, which is a local
    optimum of the layer; when it fits in the room (2M in layer 0, M above) the new point is linked to
    all of it (after extension by its neighbours in layer 0 if extend_candidates is set); otherwise a
    diversified part of it is chosen. *)
Theorem C65_neighbour_selection :
  forall {T} (dist : list T -> list T -> Z) so, StdLaws so -> (forall a b, (0 <= dist a b)%Z) ->
  forall inv_ln M ml ef hist h, built dist so inv_ln M ml ef hist h -> hist <> [] ->
  forall v id d h', insert_slice dist so h v id d = Ok h' ->
  exists np, (forall w, ~ vector_at h np w) /\ vector_at h' np v /\
  forall vec, (forall p w, vector_at h' p w -> vec p = w) ->
  let dv := fun p => dist v (vec p) in
  let dd := fun p p' => dist (vec p) (vec p') in
  forall l ns, (l <= np.1)%nat -> get_layer_nb_point h' l <> 0%nat -> neighbours_at h' np l ns ->
  let room := if (l =? 0)%nat then (2 * M)%nat else M in
  let links := p_id <$> ns in
  exists found, NoDup found /\ found <> [] /\ (length found <= Nat.max 1 ef)%nat /\
    (forall x, x ∈ found -> exists w, vector_at h x w) /\
    (forall x p, x ∈ found -> linked h l x p ->
       p ∈ found \/ ((ef <= length found)%nat /\ forall y, y ∈ found -> (dv y <= dv p)%Z)) /\
    if (length found <=? room)%nat then
      if (l =? 0)%nat && extend_candidates h then
        exists C, NoDup C /\ (forall p, p ∈ C <-> p ∈ found \/ exists x, x ∈ found /\ linked h l x p) /\
          chosen (keep_pruned h) dv dd room C links
      else links ≡ₚ found
    else chosen (keep_pruned h) dv dd room found links.
Proof.
  intros T dist so LAWS Hnn inv_ln M ml ef hist h Hb Hhist v id d h' Hins.
  destruct (built_facts dist so LAWS Hnn _ _ _ _ _ _ Hb) as (Hwf & _ & HM & Hef & _).
  destruct (built_entry dist so LAWS Hnn _ _ _ _ _ _ Hb) as [(-> & _)|(_ & ep & He)]; [done|].
  pose proof (insert_wf dist so LAWS Hnn _ _ _ _ _ Hwf Hins) as Hwf'.
  destruct (insert_links_ok dist so LAWS Hnn _ _ _ _ _ (wf_lwf _ _ Hwf) Hins) as (np & HIL).
  destruct (il_np _ _ _ _ _ _ HIL) as (npt & Hnp & Hnd & Hno).
  exists np. split; [|split].
  { intros w Hw. apply (vector_at_pt dist Hnn h _ _ Hwf) in Hw as (pt & Hpt & _).
    rewrite (il_new _ _ _ _ _ _ HIL) in Hpt. done. }
  { apply (vector_at_pt dist Hnn h' _ _ Hwf'). eauto. }
  intros vec Hvec dv dd l ns Hl Hne Hns room links.
  destruct (il_own _ _ _ _ _ _ HIL ep He) as (_ & Hown & _).
  destruct (Hown l (layer_nonempty h' l Hne) Hl) as (hc & nv & Hlike & Hnv & Hch & _).
  apply (neighbours_at_own dist h' np l ns Hwf') in Hns as (nbs & Hnbs & ->).
  rewrite Hnv in Hnbs. injection Hnbs as <-.
  assert (El : links = n_pid <$> nv).
  { unfold links. rewrite <- list_fmap_compose. by apply list_fmap_ext. }
  destruct (chosen_at_api dist Hnn h v id h' np hc l nv vec Hwf Hwf' HIL Hlike Hvec Hch) as (found & F1 & F2 & F3 & F4 & F5 & F6).
  rewrite Hef in F3, F5. exists found. split_and!; auto. rewrite El.
  assert (Er : nb_conn h l = room) by (unfold nb_conn, room; by rewrite HM). rewrite Er in F6.
  assert (Ex : extend_c h l = (l =? 0)%nat && extend_candidates h) by (unfold extend_c; by destruct (l =? 0)%nat).
  rewrite Ex in F6. exact F6.
Qed.
Print Assumptions C65_neighbour_selection.
(* M = 1, so two links: 0, 10, 30 and 33 are found for 24. 30 is chosen, 33 (at distance 9) is refused
   because it is nearer to 30, and 10 (at distance 14) is chosen instead *)
Definition ex5_points : list (Z * N * nat) := [(0, 1%N, 0%nat); (10, 2%N, 0%nat); (30, 3%N, 0%nat); (33, 4%N, 0%nat)]%Z.
Definition ex5 : hnsw (T:=Z) := Eval vm_compute in the (empty_index 1 1 10) (mk simple_ops 1 1 10 ex5_points).
Lemma ex5_built : built d1 simple_ops one_scale 1 1 10 [([0], 1%N); ([10], 2%N); ([30], 3%N); ([33], 4%N)]%Z ex5.
Proof. apply (mk_built simple_ops 1 1 10 ex5_points). vm_compute. reflexivity. Qed.
Example C65_example : exists h' pt lists, insert_slice d1 simple_ops ex5 [24%Z] 5%N (lv 0) = Ok h' /\
  get_pt h' (0, 4)%nat = Some pt /\ get_neighborhood_id h' pt = Ok lists /\
  lists !! 0%nat = Some [Neighbour 3%N 6%Z (0, 2)%nat; Neighbour 2%N 14%Z (0, 1)%nat].
Proof. eexists _, _, _. split_and!; vm_compute; reflexivity. Qed.

(** C66: the way down. In the layers above its own, up to the top layer of the index, the new point is
    linked to one point, which has no nearer neighbour in that layer; a lower layer never gives a
    worse nearest link than a higher one, and none is worse than a point of the top layer. *)
Theorem C66_insert_descent :
  forall {T} (dist : list T -> list T -> Z) so, StdLaws so -> (forall a b, (0 <= dist a b)%Z) ->
  forall inv_ln M ml ef hist h, built dist so inv_ln M ml ef hist h -> hist <> [] -> (1 <= M <= 255)%nat ->
  forall v id d h', insert_slice dist so h v id d = Ok h' ->
  let top := get_max_level_observed h in
  exists np, (forall w, ~ vector_at h np w) /\ vector_at h' np v /\
  (forall l ns, (np.1 < l <= top)%nat -> get_layer_nb_point h' l <> 0%nat -> neighbours_at h' np l ns ->
     exists n w, ns = [n] /\ vector_at h (p_id n) w /\ distance n = dist v w /\
       forall p w', linked h l (p_id n) p -> vector_at h p w' -> (distance n <= dist v w')%Z) /\
  (forall l ns, (Nat.max np.1 top < l)%nat -> neighbours_at h' np l ns -> ns = []) /\
  (forall l1 l2 ns1 ns2, (l2 < l1 <= Nat.max np.1 top)%nat -> get_layer_nb_point h' l2 <> 0%nat ->
     neighbours_at h' np l1 ns1 -> neighbours_at h' np l2 ns2 ->
     forall n1, n1 ∈ ns1 -> exists n2, n2 ∈ ns2 /\ (distance n2 <= distance n1)%Z) /\
  exists e w, e.1 = top /\ vector_at h e w /\
    forall l ns, (l <= Nat.max np.1 top)%nat -> get_layer_nb_point h' l <> 0%nat -> neighbours_at h' np l ns ->
    exists n, n ∈ ns /\ (distance n <= dist v w)%Z.
Proof.
  intros T dist so LAWS Hnn inv_ln M ml ef hist h Hb Hhist HMr v id d h' Hins top.
  destruct (built_facts dist so LAWS Hnn _ _ _ _ _ _ Hb) as (Hwf & _ & HM & Hef & _).
  destruct (built_entry dist so LAWS Hnn _ _ _ _ _ _ Hb) as [(-> & _)|(_ & ep & He)]; [done|].
  pose proof (insert_wf dist so LAWS Hnn _ _ _ _ _ Hwf Hins) as Hwf'.
  destruct (insert_links_ok dist so LAWS Hnn _ _ _ _ _ (wf_lwf _ _ Hwf) Hins) as (np & HIL).
  destruct (il_np _ _ _ _ _ _ HIL) as (npt & Hnp & Hnd & Hno).
  assert (Etop : top = ep.1) by (unfold top, get_max_level_observed; by rewrite He).
  assert (Hpos : (0 < get_max_nb_connection h)%nat).
  { unfold get_max_nb_connection. rewrite HM, Nat.mod_small; clear -HMr; lia. }
  assert (Hnc : forall l, (1 <= nb_conn h l)%nat).
  { intros l. unfold nb_conn. rewrite HM. destruct (l =? 0)%nat; clear -HMr; lia. }
  destruct (il_own _ _ _ _ _ _ HIL ep He) as (Hown1 & Hown2 & Hown3 & Hown4).
  assert (Hlen : forall l nbs, own_list h' np l = Some nbs -> (l < NB_LAYER_MAX)%nat).
  { intros l nbs H. unfold own_list in H. rewrite Hnp in H. simpl in H. apply lookup_lt_Some in H.
    destruct (c_pt _ _ (w_core _ _ Hwf') _ _ Hnp) as [_ Hx]. by rewrite Hx in H. }
  assert (Hin : forall (nbs : list nbr) (n : nbr), n ∈ nbs -> conv h' n ∈ conv h' <$> nbs).
  { intros nbs n Hn. apply elem_of_list_fmap. eauto. }
  exists np. split_and!.
  - intros w Hw. apply (vector_at_pt dist Hnn h _ _ Hwf) in Hw as (pt & Hpt & _).
    rewrite (il_new _ _ _ _ _ _ HIL) in Hpt. done.
  - apply (vector_at_pt dist Hnn h' _ _ Hwf'). eauto.
  - intros l ns Hl Hne Hns. rewrite Etop in Hl.
    destruct (Hown3 l (layer_nonempty h' l Hne) Hl) as (hc & nv & Hlike & Hnv & Hgr & _).
    apply (neighbours_at_own dist h' np l ns Hwf') in Hns as (nbs & Hnbs & ->).
    rewrite Hnv in Hnbs. injection Hnbs as <-.
    destruct (greedy_at_api dist Hnn h v id h' np hc l nv Hwf Hwf' HIL Hlike Hgr) as (e & -> & (w & Hw & Hd) & Hloc).
    destruct (Nat.ltb_spec 0 (get_max_nb_connection h)); [|lia].
    exists (conv h' e), w. split_and!; auto.
  - intros l ns Hl Hns. apply (neighbours_at_own dist h' np l ns Hwf') in Hns as (nbs & Hnbs & ->).
    rewrite Hown1 in Hnbs; [by injection Hnbs as <-|by eapply Hlen|]. right. rewrite Etop in Hl. clear -Hl. lia.
  - intros l1 l2 ns1 ns2 Hl Hne2 H1 H2 n1 Hn1.
    apply (neighbours_at_own dist h' np l1 ns1 Hwf') in H1 as (nbs1 & Hnbs1 & ->).
    apply (neighbours_at_own dist h' np l2 ns2 Hwf') in H2 as (nbs2 & Hnbs2 & ->).
    apply elem_of_list_fmap in Hn1 as (m1 & -> & Hm1).
    destruct (Hown4 l1 l2 nbs1 m1) as (nv2 & m2 & E2 & Hm2 & Hd); auto.
    + clear -Hl. lia.
    + intros Hem. rewrite Hown1 in Hnbs1; [|by eapply Hlen|by left]. injection Hnbs1 as <-. by apply elem_of_nil in Hm1.
    + by apply layer_nonempty.
    + rewrite Etop in Hl. clear -Hl. lia.
    + rewrite Hnbs2 in E2. injection E2 as <-. exists (conv h' m2). split; [by apply Hin|done].
  - pose proof (w_entry _ _ Hwf) as Hent. rewrite He in Hent. destruct Hent as [[ept Hept] _].
    exists ep, (pt_data ept). split_and!; [done| |].
    { apply (vector_at_pt dist Hnn h _ _ Hwf). eauto. }
    intros l ns Hl Hne Hns. apply (neighbours_at_own dist h' np l ns Hwf') in Hns as (nbs & Hnbs & ->).
    assert (Edq : dq dist h v ep = dist v (pt_data ept)) by (unfold dq, vecp; by rewrite Hept).
    assert (Hnr : near h' np l (dq dist h v ep)).
    { destruct (decide (l <= np.1)%nat) as [Hle|Hgt].
      - destruct (Hown2 l (layer_nonempty h' l Hne) Hle) as (hc & nv & _ & _ & _ & Hx). auto.
      - destruct (Hown3 l (layer_nonempty h' l Hne)) as (hc & nv & _ & _ & _ & Hx); [rewrite Etop in Hl; clear -Hl Hgt; lia|]. auto. }
    destruct Hnr as (nv & n & E & Hn & Hd). rewrite Hnbs in E. injection E as <-. exists (conv h' n).
    split; [by apply Hin|]. simpl. rewrite <- Edq. done.
Qed.
Print Assumptions C66_insert_descent.
Example C66_example : exists pt lists, get_max_level_observed ex1 = 2%nat /\ get_pt ex1i (0, 5)%nat = Some pt /\
  get_neighborhood_id ex1i pt = Ok lists /\
  lists !! 1%nat = Some [Neighbour 14%N 1%Z (2, 0)%nat] /\ lists !! 2%nat = Some [Neighbour 14%N 1%Z (2, 0)%nat] /\
  lists !! 3%nat = Some [] /\
  exists ns, lists !! 0%nat = Some (Neighbour 14%N 1%Z (2, 0)%nat :: ns).
Proof.
  eexists _, _. split_and!; [vm_compute; reflexivity..|]. eexists. vm_compute; reflexivity.
Qed.
