(** Properties C63-C66, of an index however it was used. Those of PropsInsert.v are about indexes in which no point lies above
    the entry point; here points and links are those shown by the iterators over the layers (SpecUse.v). *)
From Coq Require Import SpecFloat.
From stdpp Require Import relations.
From Verif Require Import Prelude Model StdInst Lib Table SearchProofs SelectProofs InsertProofs ExhaustProofs QueryProofs
  IterProofs FlatProofs Spec SpecProofs SpecBuilt BuiltProofs SpecInsert LocalProofs DivProofs LinkProofs
  Conc SpecConc ConcEnd SpecUse InsertSpecProofs InsertUsedProofs Examples ExamplesConc PropsConc PropsUsed.

(** C63, however the index was used, in particular by several threads while it was empty. *)
Theorem C63_any_use :
  forall {T} (dist : list T -> list T -> Z) so, StdLaws so -> (forall a b, (0 <= dist a b)%Z) ->
  forall inv_ln M ml ef hist h, used dist so inv_ln M ml ef hist h ->
  forall q knbn ef_arg filter res,
  (filter = None \/ (1 <= Nat.max ef_arg knbn)%nat) ->
  search_filter dist so h q knbn ef_arg filter = Ok res ->
  forall l a p pt, lowest_layer h l -> a ∈ res -> layer_linked h l (p_id a) p -> layer_point h p pt ->
  (forall f, filter = Some f -> f (pt_oid pt) = true) ->
  p ∈ p_id <$> res \/
  (length res = knbn /\ forall b, b ∈ res -> (distance b <= dist q (pt_data pt))%Z).
Proof.
  intros T dist so LAWS Hnn inv_ln M ml ef hist h Hb q knbn ef_arg filter res Hef Hres l a p pt Hl Ha Hlk Hpt Hf.
  destruct (used_facts dist so LAWS Hnn _ _ _ _ _ _ Hb) as (Hwf & _).
  destruct (used_entry dist so LAWS Hnn _ _ _ _ _ _ Hb) as [(_ & He)|(_ & ep & He)].
  { unfold search_filter in Hres. rewrite He in Hres. injection Hres as <-. by apply elem_of_nil in Ha. }
  destruct (search_filter_local dist so LAWS Hnn h q knbn ef_arg filter ep res Hwf He Hef Hres) as (l' & Hl' & Hloc).
  rewrite (lowest_layer_unique h l l' Hl (lowest_layer_l h l' Hl')) in Hlk.
  apply (layer_point_pt dist h p pt (l_core _ _ Hwf)) in Hpt. apply (layer_linked_link dist h l' _ _ Hwf) in Hlk.
  destruct (Hloc a p pt Ha Hlk Hpt) as [?|[H1 H2]].
  { unfold passes. destruct filter as [f|]; [by apply Hf|done]. }
  - by left.
  - right. split; [done|]. by rewrite Forall_forall in H2.
Qed.
Print Assumptions C63_any_use.

(** C64, however the index was used. *)
Theorem C64_any_use :
  forall {T} (dist : list T -> list T -> Z) so, StdLaws so -> (forall a b, (0 <= dist a b)%Z) ->
  forall inv_ln M ml ef hist h, used dist so inv_ln M ml ef hist h ->
  forall v id d h', insert_slice dist so h v id d = Ok h' ->
  exists np, (forall w, ~ layer_vector h np w) /\ layer_vector h' np v /\
  forall p w l ns, layer_vector h p w -> layer_neighbours h p l ns ->
  exists ns', layer_neighbours h' p l ns' /\
   ((l = np.1 /\ (exists j, (j <= np.1)%nat /\ layer_linked h' j np p) /\
       received (if (l =? 0)%nat then 2 * M else M) (Neighbour id (dist v w) np) ns ns') \/
    (~ (l = np.1 /\ exists j, (j <= np.1)%nat /\ layer_linked h' j np p) /\ ns' = ns)).
Proof.
  intros T dist so LAWS Hnn inv_ln M ml ef hist h Hb v id d h' Hins.
  destruct (used_facts dist so LAWS Hnn _ _ _ _ _ _ Hb) as (Hwf & _ & HM & _).
  pose proof (insert_lwf dist so LAWS Hnn _ _ _ _ _ Hwf Hins) as Hwf'.
  destruct (insert_links_ok dist so LAWS Hnn _ _ _ _ _ Hwf Hins) as (np & HIL).
  destruct (il_np _ _ _ _ _ _ HIL) as (npt & Hnp & Hnd & Hno).
  exists np. split; [|split].
  { intros w Hw. apply (layer_vector_pt dist h _ _ Hwf) in Hw as (pt & Hpt & _).
    rewrite (il_new _ _ _ _ _ _ HIL) in Hpt. done. }
  { apply (layer_vector_pt dist h' _ _ Hwf'). eauto. }
  intros p w l ns Hw Hns. apply (layer_vector_pt dist h _ _ Hwf) in Hw as (pt & Hpt & <-).
  apply (layer_neighbours_conv dist h p l ns Hwf) in Hns as (pt0 & nbs & Hpt0 & Hn & ->).
  rewrite Hpt in Hpt0. injection Hpt0 as <-.
  destruct (il_others _ _ _ _ _ _ HIL p pt Hpt) as (pt' & Hpt' & _ & _ & Hl).
  destruct (Hl l nbs Hn) as (nbs' & Hn' & Hcase).
  assert (Hlk : forall j, layer_linked h' j np p <-> link h' j np p) by (intros j; apply (layer_linked_link dist h' j np p Hwf')).
  assert (Hvalid : Forall (fun n => valid h (n_pid n)) nbs).
  { eapply (list_valid dist); eauto. apply Hwf. }
  assert (Hsame : forall p0 pt0, get_pt h p0 = Some pt0 -> oid_of h' p0 = oid_of h p0).
  { intros p0 pt0 H0. destruct (il_others _ _ _ _ _ _ HIL p0 pt0 H0) as (pt1 & H1 & _ & Ho & _).
    unfold oid_of. by rewrite H0, H1. }
  exists (conv h' <$> nbs'). split.
  { apply (layer_neighbours_conv dist h' p l _ Hwf'). eauto. }
  assert (Hex : (exists j, (j <= np.1)%nat /\ layer_linked h' j np p) <-> (exists j, (j <= np.1)%nat /\ link h' j np p)).
  { split; intros (j & ? & ?); exists j; (split; [done|]); by apply Hlk. }
  rewrite Hex. destruct Hcase as [(-> & Hj & Hr)|[Hno2 ->]]; [left|right].
  - split_and!; auto.
    replace (if (np.1 =? 0)%nat then (2 * M)%nat else M) with (nb_conn h np.1) by (unfold nb_conn; by rewrite HM).
    eapply revd_received_u; eauto. unfold oid_of. by rewrite Hnp.
  - split; [done|]. apply list_fmap_ext. intros i n Hi. rewrite Forall_forall in Hvalid.
    destruct (Hvalid n) as [qt Hqt]; [by eapply elem_of_list_lookup_2|]. unfold conv. by rewrite (Hsame _ _ Hqt).
Qed.
Print Assumptions C64_any_use.

(** C65, however the index was used. *)
Theorem C65_any_use :
  forall {T} (dist : list T -> list T -> Z) so, StdLaws so -> (forall a b, (0 <= dist a b)%Z) ->
  forall inv_ln M ml ef hist h, used dist so inv_ln M ml ef hist h -> hist <> [] ->
  forall v id d h', insert_slice dist so h v id d = Ok h' ->
  exists np, (forall w, ~ layer_vector h np w) /\ layer_vector h' np v /\
  forall vec, (forall p w, layer_vector h' p w -> vec p = w) ->
  let dv := fun p => dist v (vec p) in
  let dd := fun p p' => dist (vec p) (vec p') in
  forall l ns, (l <= np.1)%nat -> get_layer_nb_point h' l <> 0%nat -> layer_neighbours h' np l ns ->
  let room := if (l =? 0)%nat then (2 * M)%nat else M in
  let links := p_id <$> ns in
  exists found, NoDup found /\ found <> [] /\ (length found <= Nat.max 1 ef)%nat /\
    (forall x, x ∈ found -> exists w, layer_vector h x w) /\
    (forall x p, x ∈ found -> layer_linked h l x p ->
       p ∈ found \/ ((ef <= length found)%nat /\ forall y, y ∈ found -> (dv y <= dv p)%Z)) /\
    if (length found <=? room)%nat then
      if (l =? 0)%nat && extend_candidates h then
        exists C, NoDup C /\ (forall p, p ∈ C <-> p ∈ found \/ exists x, x ∈ found /\ layer_linked h l x p) /\
          chosen (keep_pruned h) dv dd room C links
      else links ≡ₚ found
    else chosen (keep_pruned h) dv dd room found links.
Proof.
  intros T dist so LAWS Hnn inv_ln M ml ef hist h Hb Hhist v id d h' Hins.
  destruct (used_facts dist so LAWS Hnn _ _ _ _ _ _ Hb) as (Hwf & _ & HM & Hef & _).
  destruct (used_entry dist so LAWS Hnn _ _ _ _ _ _ Hb) as [(-> & _)|(_ & ep & He)]; [done|].
  pose proof (insert_lwf dist so LAWS Hnn _ _ _ _ _ Hwf Hins) as Hwf'.
  destruct (insert_links_ok dist so LAWS Hnn _ _ _ _ _ Hwf Hins) as (np & HIL).
  destruct (il_np _ _ _ _ _ _ HIL) as (npt & Hnp & Hnd & Hno).
  exists np. split; [|split].
  { intros w Hw. apply (layer_vector_pt dist h _ _ Hwf) in Hw as (pt & Hpt & _).
    rewrite (il_new _ _ _ _ _ _ HIL) in Hpt. done. }
  { apply (layer_vector_pt dist h' _ _ Hwf'). eauto. }
  intros vec Hvec dv dd l ns Hl Hne Hns room links.
  destruct (il_own _ _ _ _ _ _ HIL ep He) as (_ & Hown & _).
  destruct (Hown l (layer_nonempty h' l Hne) Hl) as (hc & nv & Hlike & Hnv & Hch & _).
  apply (layer_neighbours_own dist h' np l ns Hwf') in Hns as (nbs & Hnbs & ->).
  rewrite Hnv in Hnbs. injection Hnbs as <-.
  assert (El : links = n_pid <$> nv).
  { unfold links. rewrite <- list_fmap_compose. by apply list_fmap_ext. }
  destruct (chosen_at_api_u dist Hnn h v id h' np hc l nv vec Hwf Hwf' HIL Hlike Hvec Hch) as (found & F1 & F2 & F3 & F4 & F5 & F6).
  rewrite Hef in F3, F5. exists found. split_and!; auto. rewrite El.
  assert (Er : nb_conn h l = room) by (unfold nb_conn, room; by rewrite HM). rewrite Er in F6.
  assert (Ex : extend_c h l = (l =? 0)%nat && extend_candidates h) by (unfold extend_c; by destruct (l =? 0)%nat).
  rewrite Ex in F6. exact F6.
Qed.
Print Assumptions C65_any_use.

(** C66, however the index was used: [top] is the layer of the entry point, which need not be the highest then. *)
Theorem C66_any_use :
  forall {T} (dist : list T -> list T -> Z) so, StdLaws so -> (forall a b, (0 <= dist a b)%Z) ->
  forall inv_ln M ml ef hist h, used dist so inv_ln M ml ef hist h -> hist <> [] -> (1 <= M <= 255)%nat ->
  forall v id d h', insert_slice dist so h v id d = Ok h' ->
  let top := get_max_level_observed h in
  exists np, (forall w, ~ layer_vector h np w) /\ layer_vector h' np v /\
  (forall l ns, (np.1 < l <= top)%nat -> get_layer_nb_point h' l <> 0%nat -> layer_neighbours h' np l ns ->
     exists n w, ns = [n] /\ layer_vector h (p_id n) w /\ distance n = dist v w /\
       forall p w', layer_linked h l (p_id n) p -> layer_vector h p w' -> (distance n <= dist v w')%Z) /\
  (forall l ns, (Nat.max np.1 top < l)%nat -> layer_neighbours h' np l ns -> ns = []) /\
  (forall l1 l2 ns1 ns2, (l2 < l1 <= Nat.max np.1 top)%nat -> get_layer_nb_point h' l2 <> 0%nat ->
     layer_neighbours h' np l1 ns1 -> layer_neighbours h' np l2 ns2 ->
     forall n1, n1 ∈ ns1 -> exists n2, n2 ∈ ns2 /\ (distance n2 <= distance n1)%Z) /\
  exists e w, e.1 = top /\ layer_vector h e w /\
    forall l ns, (l <= Nat.max np.1 top)%nat -> get_layer_nb_point h' l <> 0%nat -> layer_neighbours h' np l ns ->
    exists n, n ∈ ns /\ (distance n <= dist v w)%Z.
Proof.
  intros T dist so LAWS Hnn inv_ln M ml ef hist h Hb Hhist HMr v id d h' Hins top.
  destruct (used_facts dist so LAWS Hnn _ _ _ _ _ _ Hb) as (Hwf & _ & HM & Hef & _).
  destruct (used_entry dist so LAWS Hnn _ _ _ _ _ _ Hb) as [(-> & _)|(_ & ep & He)]; [done|].
  pose proof (insert_lwf dist so LAWS Hnn _ _ _ _ _ Hwf Hins) as Hwf'.
  destruct (insert_links_ok dist so LAWS Hnn _ _ _ _ _ Hwf Hins) as (np & HIL).
  destruct (il_np _ _ _ _ _ _ HIL) as (npt & Hnp & Hnd & Hno).
  assert (Etop : top = ep.1) by (unfold top, get_max_level_observed; by rewrite He).
  assert (Hpos : (0 < get_max_nb_connection h)%nat).
  { unfold get_max_nb_connection. rewrite HM, Nat.mod_small; clear -HMr; lia. }
  assert (Hnc : forall l, (1 <= nb_conn h l)%nat).
  { intros l. unfold nb_conn. rewrite HM. destruct (l =? 0)%nat; clear -HMr; lia. }
  destruct (il_own _ _ _ _ _ _ HIL ep He) as (Hown1 & Hown2 & Hown3 & Hown4).
  assert (Hlen : forall l nbs, own_list h' np l = Some nbs -> (l < NB_LAYER_MAX)%nat).
  { intros l nbs H. unfold own_list in H. rewrite Hnp in H. simpl in H. apply lookup_lt_Some in H.
    destruct (c_pt _ _ (l_core _ _ Hwf') _ _ Hnp) as [_ Hx]. by rewrite Hx in H. }
  assert (Hin : forall (nbs : list nbr) (n : nbr), n ∈ nbs -> conv h' n ∈ conv h' <$> nbs).
  { intros nbs n Hn. apply elem_of_list_fmap. eauto. }
  exists np. split_and!.
  - intros w Hw. apply (layer_vector_pt dist h _ _ Hwf) in Hw as (pt & Hpt & _).
    rewrite (il_new _ _ _ _ _ _ HIL) in Hpt. done.
  - apply (layer_vector_pt dist h' _ _ Hwf'). eauto.
  - intros l ns Hl Hne Hns. rewrite Etop in Hl.
    destruct (Hown3 l (layer_nonempty h' l Hne) Hl) as (hc & nv & Hlike & Hnv & Hgr & _).
    apply (layer_neighbours_own dist h' np l ns Hwf') in Hns as (nbs & Hnbs & ->).
    rewrite Hnv in Hnbs. injection Hnbs as <-.
    destruct (greedy_at_api_u dist Hnn h v id h' np hc l nv Hwf Hwf' HIL Hlike Hgr) as (e & -> & (w & Hw & Hd) & Hloc).
    destruct (Nat.ltb_spec 0 (get_max_nb_connection h)); [|lia].
    exists (conv h' e), w. split_and!; auto.
  - intros l ns Hl Hns. apply (layer_neighbours_own dist h' np l ns Hwf') in Hns as (nbs & Hnbs & ->).
    rewrite Hown1 in Hnbs; [by injection Hnbs as <-|by eapply Hlen|]. right. rewrite Etop in Hl. clear -Hl. lia.
  - intros l1 l2 ns1 ns2 Hl Hne2 H1 H2 n1 Hn1.
    apply (layer_neighbours_own dist h' np l1 ns1 Hwf') in H1 as (nbs1 & Hnbs1 & ->).
    apply (layer_neighbours_own dist h' np l2 ns2 Hwf') in H2 as (nbs2 & Hnbs2 & ->).
    apply elem_of_list_fmap in Hn1 as (m1 & -> & Hm1).
    destruct (Hown4 l1 l2 nbs1 m1) as (nv2 & m2 & E2 & Hm2 & Hd); auto.
    + clear -Hl. lia.
    + intros Hem. rewrite Hown1 in Hnbs1; [|by eapply Hlen|by left]. injection Hnbs1 as <-. by apply elem_of_nil in Hm1.
    + by apply layer_nonempty.
    + rewrite Etop in Hl. clear -Hl. lia.
    + rewrite Hnbs2 in E2. injection E2 as <-. exists (conv h' m2). split; [by apply Hin|done].
  - pose proof (l_entry _ _ Hwf) as Hent. rewrite He in Hent. destruct Hent as [ept Hept].
    exists ep, (pt_data ept). split_and!; [done| |].
    { apply (layer_vector_pt dist h _ _ Hwf). eauto. }
    intros l ns Hl Hne Hns. apply (layer_neighbours_own dist h' np l ns Hwf') in Hns as (nbs & Hnbs & ->).
    assert (Edq : dq dist h v ep = dist v (pt_data ept)) by (unfold dq, vecp; by rewrite Hept).
    assert (Hnr : near h' np l (dq dist h v ep)).
    { destruct (decide (l <= np.1)%nat) as [Hle|Hgt].
      - destruct (Hown2 l (layer_nonempty h' l Hne) Hle) as (hc & nv & _ & _ & _ & Hx). auto.
      - destruct (Hown3 l (layer_nonempty h' l Hne)) as (hc & nv & _ & _ & _ & Hx); [rewrite Etop in Hl; clear -Hl Hgt; lia|]. auto. }
    destruct Hnr as (nv & n & E & Hn & Hd). rewrite Hnbs in E. injection E as <-. exists (conv h' n).
    split; [by apply Hin|]. simpl. rewrite <- Edq. done.
Qed.
Print Assumptions C66_any_use.

(** an index with a point above its entry point, which is not one of PropsInsert.v, and a point of level 1 inserted into it *)
Definition ce_more : hnsw (T:=Z) := Eval vm_compute in the ce_h (insert_slice d1 simple_ops ce_h [6%Z] 3%N (lv 1)).
Example C63_C66_any_use_example :
  used d1 simple_ops one_scale 2 16 10 [([0%Z], 1%N); ([5%Z], 2%N)] ce_h /\
  entry_point ce_h = Some (0, 0)%nat /\ layer_vector ce_h (1, 0)%nat [0%Z] /\
  insert_slice d1 simple_ops ce_h [6%Z] 3%N (lv 1) = Ok ce_more /\
  layer_vector ce_more (1, 1)%nat [6%Z] /\
  layer_neighbours ce_h (0, 0)%nat 1 [] /\ layer_neighbours ce_more (0, 0)%nat 1 [Neighbour 3%N 1%Z (1, 1)%nat] /\
  layer_neighbours ce_more (1, 1)%nat 1 [Neighbour 2%N 1%Z (0, 0)%nat] /\ layer_neighbours ce_more (1, 0)%nat 1 [] /\
  (exists res, search d1 simple_ops ce_more [6%Z] 2 4 = Ok res /\ (0, 0)%nat ∈ p_id <$> res /\ layer_linked ce_more 0 (1, 1)%nat (0, 0)%nat).
Proof.
  assert (Hu := ce_used). destruct (used_facts d1 simple_ops simple_laws d1_nonneg _ _ _ _ _ _ Hu) as (Hwf & _).
  assert (Hi : insert_slice d1 simple_ops ce_h [6%Z] 3%N (lv 1) = Ok ce_more) by (vm_compute; reflexivity).
  pose proof (insert_lwf d1 simple_ops simple_laws d1_nonneg _ _ _ _ _ Hwf Hi) as Hwf'.
  split_and!; [exact Hu|reflexivity| |exact Hi|..].
  - apply (layer_vector_pt d1 _ _ _ Hwf). eexists. split; vm_compute; reflexivity.
  - apply (layer_vector_pt d1 _ _ _ Hwf'). eexists. split; vm_compute; reflexivity.
  - apply (layer_neighbours_conv d1 _ _ _ _ Hwf). eexists _, _. split_and!; vm_compute; reflexivity.
  - apply (layer_neighbours_conv d1 _ _ _ _ Hwf'). eexists _, _. split_and!; vm_compute; reflexivity.
  - apply (layer_neighbours_conv d1 _ _ _ _ Hwf'). eexists _, _. split_and!; vm_compute; reflexivity.
  - apply (layer_neighbours_conv d1 _ _ _ _ Hwf'). eexists _, _. split_and!; vm_compute; reflexivity.
  - eexists. split; [vm_compute; reflexivity|]. split; [vm_compute; repeat constructor|].
    apply (layer_linked_link d1 _ _ _ _ Hwf'). eexists _, _, (Nbr (0, 0)%nat 1%Z). split_and!; [vm_compute; reflexivity|vm_compute; reflexivity|left|done].
Qed.
