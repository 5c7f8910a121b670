(** The lemmas of InsertSpecProofs.v for any use of an index, the points and links being those of SpecUse.v *)
From stdpp Require Import relations.
From Verif Require Import Prelude Model Lib Table SearchProofs SelectProofs InsertProofs QueryProofs
  ExhaustProofs LocalProofs SpecInsert DivProofs LinkProofs Spec SpecProofs SpecBuilt BuiltProofs
  Conc SpecConc ConcEnd SpecUse InsertSpecProofs.

Section ISU.
Context {T : Type} (dist : list T -> list T -> Z) (so : StdOps).
Context (LAWS : StdLaws so) (Hnn : forall a b, (0 <= dist a b)%Z).
Implicit Types (h : hnsw (T:=T)) (p np ep : pid).

Lemma insert_lwf h v id d h' : lwf dist h -> insert_slice dist so h v id d = Ok h' -> lwf dist h'.
Proof using LAWS Hnn.
  intros Hwf Hins.
  destruct (insert_lspec dist so LAWS Hnn h v id d Hwf (insert_max_layer dist so Hnn _ _ _ _ _ Hins)) as (h2 & np & Hi2 & [Hwf2 _] & _).
  congruence.
Qed.

Lemma used_entry inv_ln M ml ef hist h : used dist so inv_ln M ml ef hist h ->
  (hist = [] /\ entry_point h = None) \/ (hist <> [] /\ exists ep, entry_point h = Some ep).
Proof using LAWS Hnn.
  intros Hu. destruct (used_facts dist so LAWS Hnn _ _ _ _ _ _ Hu) as (Hwf & _ & _ & _ & _ & Hnb).
  pose proof (l_entry _ _ Hwf) as He. destruct (entry_point h) as [ep|]; [right|left].
  - split; [|eauto]. intros ->. apply (table_size_0_valid h ep); [|done]. by rewrite <- (l_count _ _ Hwf).
  - split; [|done]. apply nil_length_inv. by rewrite <- Hnb, (l_count _ _ Hwf).
Qed.

Lemma lowest_layer_l h l : layer_to_search h = Ok l -> lowest_layer h l.
Proof using Type.
  intros Hl. unfold layer_to_search in Hl. unfold lowest_layer, get_layer_nb_point.
  assert (Hg : forall (ls : list (list (point (T:=T)))) k, lowest_from ls k = Ok l ->
     (k <= l)%nat /\ (exists x ly, ls !! (l - k) = Some (x :: ly)) /\ forall j, (j < l - k)%nat -> ls !! j = Some []).
  { clear. induction ls as [|[|x ly] ls IH]; intros k Hk; simpl in Hk; [done|..].
    - destruct (IH (S k) Hk) as (Hle & (x & ly & Hx) & Hlow). split_and!; [lia|..].
      + exists x, ly. replace (l - k) with (S (l - S k)) by lia. done.
      + intros [|j] Hj; [done|]. simpl. apply Hlow. lia.
    - injection Hk as ->. rewrite Nat.sub_diag. split_and!; [lia|eauto|]. intros; lia. }
  destruct (Hg _ _ Hl) as (_ & (x & ly & Hx) & Hlow). rewrite Nat.sub_0_r in *. split.
  - by rewrite Hx.
  - intros j Hj. by rewrite Hlow.
Qed.

Lemma layer_vector_pt h p v : lwf dist h -> layer_vector h p v <-> exists pt, get_pt h p = Some pt /\ pt_data pt = v.
Proof using Type.
  intros Hwf. unfold layer_vector. split; intros (pt & Hp & E); exists pt; (split; [|done]); by apply (layer_point_pt dist h p pt (l_core _ _ Hwf)).
Qed.

Lemma layer_linked_link h l p p' : lwf dist h -> layer_linked h l p p' <-> link h l p p'.
Proof using Type.
  intros Hwf. pose proof (l_core _ _ Hwf) as Hc. unfold layer_linked, link. split.
  - intros (ns & a & Hns & Ha & <-). apply (layer_neighbours_pt dist) in Hns as (pt & nbs & Hpt & Hn & HF); [|done].
    apply elem_of_list_lookup in Ha as [i Hi]. destruct (Forall2_lookup_r _ _ _ _ _ HF Hi) as (n & Hni & E & _).
    exists pt, nbs, n. split_and!; auto. by eapply elem_of_list_lookup_2.
  - intros (pt & nbs & n & Hpt & Hn & Hin & <-).
    exists (conv h <$> nbs), (conv h n). split_and!; [|apply elem_of_list_fmap; eauto|done].
    apply (layer_neighbours_pt dist); [done|]. exists pt, nbs. split_and!; auto.
    apply conv_rep. by eapply (list_valid dist).
Qed.

Lemma layer_neighbours_conv h p l ns : lwf dist h ->
  layer_neighbours h p l ns <-> exists pt nbs, get_pt h p = Some pt /\ pt_nbs pt !! l = Some nbs /\ ns = conv h <$> nbs.
Proof using Type.
  intros Hwf. rewrite (layer_neighbours_pt dist h p l ns (l_core _ _ Hwf)). split.
  - intros (pt & nbs & ? & ? & HF). exists pt, nbs. split_and!; auto. by apply rep_conv.
  - intros (pt & nbs & Hp & Hn & ->). exists pt, nbs. split_and!; auto. apply conv_rep.
    eapply (list_valid dist); eauto. apply Hwf.
Qed.

Lemma layer_neighbours_own h np l ns : lwf dist h ->
  layer_neighbours h np l ns <-> exists nbs, own_list h np l = Some nbs /\ ns = conv h <$> nbs.
Proof using Type.
  intros Hwf. rewrite (layer_neighbours_conv h np l ns Hwf). unfold own_list. split.
  - intros (pt & nbs & Hp & Hn & ->). exists nbs. rewrite Hp. done.
  - intros (nbs & Hn & ->). destruct (get_pt h np) as [pt|] eqn:E; [|done]. simpl in Hn. eauto.
Qed.

Lemma revd_received_u h h' np id d old new :
  Forall (fun n => valid h (n_pid n)) old ->
  (forall p pt, get_pt h p = Some pt -> oid_of h' p = oid_of h p) -> oid_of h' np = id ->
  forall cap, revd cap (Nbr np d) old new ->
  received cap (Neighbour id d np) (conv h <$> old) (conv h' <$> new).
Proof using Type.
  intros Hv Hsame <- cap (H1 & H2 & removed & H3 & H4).
  assert (E : conv h <$> old = conv h' <$> old).
  { apply list_fmap_ext. intros i n Hi. rewrite Forall_forall in Hv.
    destruct (Hv n) as [pt Hpt]; [by eapply elem_of_list_lookup_2|]. unfold conv. by rewrite (Hsame _ _ Hpt). }
  rewrite E. split_and!.
  - by apply sorted_by_conv.
  - by rewrite !fmap_length.
  - exists (conv h' <$> removed). split.
    + by rewrite <- fmap_app, H3, fmap_app.
    + intros x y (x' & -> & Hx)%elem_of_list_fmap (y' & -> & Hy)%elem_of_list_fmap. by apply H4.
Qed.

Lemma chosen_at_api_u h v id h' np hc l nv (vec : pid -> list T) :
  lwf dist h -> lwf dist h' -> insert_links dist h v id h' np -> like h h' np hc ->
  (forall p w, layer_vector h' p w -> vec p = w) ->
  chosen_at dist hc np v l nv ->
  exists found, NoDup found /\ found <> [] /\ (length found <= Nat.max 1 (ef_construction h))%nat /\
    (forall x, x ∈ found -> exists w, layer_vector h x w) /\
    (forall x p, x ∈ found -> layer_linked h l x p ->
        p ∈ found \/ ((ef_construction h <= length found)%nat /\
                      forall y, y ∈ found -> (dist v (vec y) <= dist v (vec p))%Z)) /\
    if (length found <=? nb_conn h l)%nat then
      if extend_c h l then
        exists C, NoDup C /\ (forall p, p ∈ C <-> p ∈ found \/ exists x, x ∈ found /\ layer_linked h l x p) /\
          chosen (keep_pruned h) (fun p => dist v (vec p)) (fun p p' => dist (vec p) (vec p')) (nb_conn h l) C (n_pid <$> nv)
      else n_pid <$> nv ≡ₚ found
    else chosen (keep_pruned h) (fun p => dist v (vec p)) (fun p p' => dist (vec p) (vec p')) (nb_conn h l) found (n_pid <$> nv).
Proof using Hnn.
  intros Hwf Hwf' HIL (L1 & L2 & L3 & L4 & L5 & L6) Hvec (h2 & F & Hf2 & Hst2 & Ho2 & HLS & Hpk & _).
  pose proof Hst2 as ((E1 & E2 & E3 & E4 & _) & _ & Hstat2).
  rewrite L4 in HLS.
  assert (Hoth : forall p, p <> np -> get_pt h2 p = get_pt h p).
  { intros p Hp. rewrite (Ho2 p Hp). by rewrite <- (L2 p Hp). }
  assert (Hvp : forall p, valid h2 p -> vec p = vecp h2 p).
  { intros p [pt Hpt]. apply Hvec. apply (layer_vector_pt h' _ _ Hwf').
    unfold vecp. rewrite Hpt. pose proof (L1 p) as Hs. rewrite <- Hstat2 in Hs. unfold static in Hs. rewrite Hpt in Hs.
    destruct (get_pt h' p) as [pt'|]; [|done]. simpl in Hs. injection Hs as ? ? ?. eauto. }
  assert (Hlk : forall x p, x <> np -> link h2 l x p <-> layer_linked h l x p).
  { intros x p Hx. rewrite (layer_linked_link h l x p Hwf). unfold link. by rewrite Hoth. }
  assert (Hvold : forall p, valid h p -> valid h2 p).
  { intros p [pt Hpt]. exists pt. rewrite Hoth; [done|]. intros ->. rewrite (il_new _ _ _ _ _ _ HIL) in Hpt. done. }
  assert (Hlv : forall x p, layer_linked h l x p -> valid h p).
  { intros x p Hl%(layer_linked_link h l x p Hwf). destruct Hl as (pt & nbs & n & G1 & G2 & G3 & <-).
    pose proof (list_valid dist h x pt l nbs (l_core _ _ Hwf) G1 G2) as Hx. rewrite Forall_forall in Hx. auto. }
  assert (HFv : forall x, x ∈ n_pid <$> F -> x <> np /\ valid h2 x /\ valid h x).
  { intros x (n & -> & Hn)%elem_of_list_fmap. destruct (ls_good _ _ _ _ _ _ _ HLS) as (G1 & _ & G3).
    rewrite Forall_forall in G1, G3. destruct (G1 n Hn) as (pt & Hpt & _). pose proof (G3 n Hn) as Hne. simpl in Hne.
    split_and!; [done|by exists pt|]. exists pt. by rewrite <- Hoth. }
  exists (n_pid <$> F). split_and!.
  - by destruct (ls_good _ _ _ _ _ _ _ HLS) as (_ & ? & _).
  - intros E. apply fmap_nil_inv in E. by apply (ls_ne _ _ _ _ _ _ _ HLS).
  - rewrite fmap_length. by apply (ls_len _ _ _ _ _ _ _ HLS).
  - intros x (_ & _ & [pt Hpt])%HFv. exists (pt_data pt). apply (layer_vector_pt h _ _ Hwf). eauto.
  - intros x p Hx Hl. destruct (HFv x Hx) as (Hne & _). pose proof (Hvold p (Hlv x p Hl)) as [pt Hpt].
    apply elem_of_list_fmap in Hx as (n & -> & Hn). apply Hlk in Hl; [|done].
    destruct (ls_local _ _ _ _ _ _ _ HLS n p pt Hn Hl Hpt) as [?|[H1 H2]]; [by left|right].
    rewrite fmap_length. split; [done|]. intros y (m & -> & Hm)%elem_of_list_fmap.
    rewrite Forall_forall in H2. specialize (H2 m Hm).
    destruct (ls_good _ _ _ _ _ _ _ HLS) as (G1 & _). rewrite Forall_forall in G1.
    rewrite (Hvp p) by (by exists pt). rewrite (Hvp (n_pid m)).
    2: { destruct (G1 m Hm) as (qt & Hqt & _). by exists qt. }
    rewrite (elt_dq dist h2 v m (G1 m Hm)) in H2. unfold dq in H2. unfold vecp at 2. by rewrite Hpt.
  - unfold picked in Hpk.
    assert (Enc : nb_conn h2 l = nb_conn h l) by (unfold nb_conn; by rewrite E2, L3).
    assert (Eex : extend_c h2 l = extend_c h l) by (unfold extend_c; by rewrite E3, L5).
    assert (Ekp : keep_pruned h2 = keep_pruned h) by (by rewrite E4, L6).
    rewrite Enc, Eex, Ekp in Hpk.
    assert (Hext : forall C, (forall p, p ∈ C -> valid h2 p) ->
      chosen (keep_pruned h) (dq dist h2 v) (dd dist h2) (nb_conn h l) C (n_pid <$> nv) ->
      chosen (keep_pruned h) (fun p => dist v (vec p)) (fun p p' => dist (vec p) (vec p')) (nb_conn h l) C (n_pid <$> nv)).
    { intros C HC. apply chosen_ext.
      - intros a Ha. unfold dq. by rewrite (Hvp a (HC a Ha)).
      - intros a b Ha Hb. unfold dd. by rewrite (Hvp a (HC a Ha)), (Hvp b (HC b Hb)). }
    destruct (length (n_pid <$> F) <=? nb_conn h l)%nat.
    + destruct (extend_c h l); [|done]. destruct Hpk as (C & C1 & C2 & C3). exists C.
      assert (HC : forall p, p ∈ C <-> p ∈ n_pid <$> F \/ exists x, x ∈ n_pid <$> F /\ layer_linked h l x p).
      { intros p. rewrite C2. split; (intros [?|(x & Hx & ?)]; [by left|right; exists x; split; [done|]]);
          apply Hlk; auto; by apply HFv. }
      split_and!; auto. apply Hext; [|done].
      intros p [Hp|(x & Hx & Hl)]%HC; [by apply HFv|]. apply Hvold. by eapply Hlv.
    + apply Hext; [|done]. intros p Hp. by apply HFv.
Qed.

Lemma greedy_at_api_u h v id h' np hc l nv :
  lwf dist h -> lwf dist h' -> insert_links dist h v id h' np -> like h h' np hc ->
  greedy_at dist hc np v l nv ->
  exists e : nbr, nv = (if (0 <? get_max_nb_connection h)%nat then [e] else []) /\
    (exists w, layer_vector h (n_pid e) w /\ n_dist e = dist v w) /\
    forall p w, layer_linked h l (n_pid e) p -> layer_vector h p w -> (n_dist e <= dist v w)%Z.
Proof using Hnn.
  intros Hwf Hwf' HIL (L1 & L2 & L3 & L4 & L5 & L6) (h2 & e & Hf2 & Hst2 & Ho2 & HLS & Hnv).
  assert (Hoth : forall p, p <> np -> get_pt h2 p = get_pt h p).
  { intros p Hp. rewrite (Ho2 p Hp). by rewrite <- (L2 p Hp). }
  destruct (ls_good _ _ _ _ _ _ _ HLS) as (G1 & _ & G3).
  inversion G1 as [|? ? (pt & Hpt & Hd) _]; subst. inversion G3 as [|? ? Hne _]; subst.
  assert (Hpt' : get_pt h (n_pid e) = Some pt) by (by rewrite <- Hoth).
  exists e. split_and!.
  - unfold get_max_nb_connection. by rewrite L3.
  - exists (pt_data pt). split; [|done]. apply (layer_vector_pt h _ _ Hwf). eauto.
  - intros p w Hl Hw. apply (layer_vector_pt h _ _ Hwf) in Hw as (qt & Hqt & <-).
    assert (Hl2 : link h2 l (n_pid e) p).
    { unfold link. rewrite Hoth by done. by apply (layer_linked_link h l). }
    assert (Hqt2 : get_pt h2 p = Some qt).
    { rewrite Hoth; [done|]. intros ->. rewrite (il_new _ _ _ _ _ _ HIL) in Hqt. done. }
    destruct (ls_local _ _ _ _ _ _ _ HLS e p qt ltac:(left) Hl2 Hqt2) as [Hin|[_ H2]].
    + simpl in Hin. apply elem_of_list_singleton in Hin as ->. rewrite Hpt in Hqt2. injection Hqt2 as <-. lia.
    + by inversion H2.
Qed.

End ISU.
