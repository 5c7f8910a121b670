(** From the links of the table to the lists reported by the API, for the properties of PropsInsert.v *)
From stdpp Require Import relations.
From Verif Require Import Prelude Model Lib Table SearchProofs SelectProofs InsertProofs QueryProofs
  ExhaustProofs LocalProofs SpecInsert DivProofs LinkProofs Spec SpecProofs SpecBuilt BuiltProofs.

Section ISP.
Context {T : Type} (dist : list T -> list T -> Z) (so : StdOps).
Context (LAWS : StdLaws so) (Hnn : forall a b, (0 <= dist a b)%Z).
Implicit Types (h : hnsw (T:=T)) (p np ep : pid).

Definition oid_of h p : dataid := match get_pt h p with Some pt => pt_oid pt | None => 0%N end.
Definition conv h (n : nbr) : neighbour := Neighbour (oid_of h (n_pid n)) (n_dist n) (n_pid n).

Definition rep h : nbr -> neighbour -> Prop := fun n a =>
  p_id a = n_pid n /\ distance a = n_dist n /\ exists q0 : point, get_pt h (n_pid n) = Some q0 /\ d_id a = pt_oid q0.

Lemma rep_conv h nbs ns : Forall2 (rep h) nbs ns -> ns = conv h <$> nbs.
Proof using Type.
  induction 1 as [|n [i d p] nbs ns (H1 & H2 & q0 & H3 & H4) _ IH]; [done|]. simpl in *. rewrite IH. f_equal.
  unfold conv, oid_of. rewrite H3. congruence.
Qed.

Lemma conv_rep h nbs : Forall (fun n => valid h (n_pid n)) nbs -> Forall2 (rep h) nbs (conv h <$> nbs).
Proof using Type.
  induction 1 as [|n nbs [pt Hpt] _ IH]; [constructor|]. simpl. constructor; [|done].
  unfold rep, conv, oid_of. simpl. rewrite Hpt. split_and!; eauto.
Qed.

Lemma list_valid h p pt l nbs : core dist h -> get_pt h p = Some pt -> pt_nbs pt !! l = Some nbs ->
  Forall (fun n => valid h (n_pid n)) nbs.
Proof using Type.
  intros Hc Hp Hn. destruct (c_lists _ _ Hc _ _ _ _ Hp Hn) as [_ _ _ Hr _].
  eapply Forall_impl; [exact Hr|]. intros n (q & Hq & _). by exists q.
Qed.

Lemma neighbours_at_conv h p l ns : wf dist h ->
  neighbours_at h p l ns <-> exists pt nbs, get_pt h p = Some pt /\ pt_nbs pt !! l = Some nbs /\ ns = conv h <$> nbs.
Proof using Type.
  intros Hwf. rewrite (neighbours_at_pt dist h p l ns Hwf). split.
  - intros (pt & nbs & ? & ? & HF). exists pt, nbs. split_and!; auto. by apply rep_conv.
  - intros (pt & nbs & Hp & Hn & ->). exists pt, nbs. split_and!; auto. apply conv_rep.
    eapply list_valid; eauto. apply Hwf.
Qed.

Lemma neighbours_at_own h np l ns : wf dist h ->
  neighbours_at h np l ns <-> exists nbs, own_list h np l = Some nbs /\ ns = conv h <$> nbs.
Proof using Type.
  intros Hwf. rewrite (neighbours_at_conv h np l ns Hwf). unfold own_list. split.
  - intros (pt & nbs & Hp & Hn & ->). exists nbs. rewrite Hp. done.
  - intros (nbs & Hn & ->). destruct (get_pt h np) as [pt|] eqn:E; [|done]. simpl in Hn. eauto.
Qed.

Lemma sorted_by_conv h nbs : sorted_by n_dist nbs -> sorted_by distance (conv h <$> nbs).
Proof using Type.
  induction 1 as [|n nbs _ IH Hf]; [constructor|]. simpl. constructor; [done|].
  apply Forall_fmap. eapply Forall_impl; [exact Hf|]. done.
Qed.

Lemma revd_received h h' np id d old new :
  wf dist h -> Forall (fun n => valid h (n_pid n)) old ->
  (forall p pt, get_pt h p = Some pt -> oid_of h' p = oid_of h p) -> oid_of h' np = id ->
  forall cap, revd cap (Nbr np d) old new ->
  received cap (Neighbour id d np) (conv h <$> old) (conv h' <$> new).
Proof using Type.
  intros Hwf Hv Hsame <- cap (H1 & H2 & removed & H3 & H4).
  assert (E : conv h <$> old = conv h' <$> old).
  { apply list_fmap_ext. intros i n Hi. rewrite Forall_forall in Hv.
    destruct (Hv n) as [pt Hpt]; [by eapply elem_of_list_lookup_2|]. unfold conv. by rewrite (Hsame _ _ Hpt). }
  rewrite E. split_and!.
  - by apply sorted_by_conv.
  - by rewrite !fmap_length.
  - exists (conv h' <$> removed). split.
    + by rewrite <- fmap_app, H3, fmap_app.
    + intros x y (x' & -> & Hx)%elem_of_list_fmap (y' & -> & Hy)%elem_of_list_fmap. by apply H4.
Qed.

Lemma insert_wf h v id d h' : wf dist h -> insert_slice dist so h v id d = Ok h' -> wf dist h'.
Proof using LAWS Hnn.
  intros Hwf Hins.
  destruct (insert_spec dist so LAWS Hnn h v id d Hwf (insert_max_layer dist so Hnn _ _ _ _ _ Hins)) as (h2 & np & Hi2 & Hwf2 & _).
  congruence.
Qed.

Lemma chosen_ext keep d dd d' dd' m C sel :
  (forall a, a ∈ C -> d a = d' a) -> (forall a b, a ∈ C -> b ∈ C -> dd a b = dd' a b) ->
  chosen keep d dd m C sel -> chosen keep d' dd' m C sel.
Proof using Type.
  clear. intros Hd Hdd.
  assert (Hdv : forall s, diversified d dd m C s -> diversified d' dd' m C s).
  { intros s [D1 D2 D3 D4 D5 D6]. constructor; auto.
    - intros a b Ha Hb. rewrite <- !Hd, <- Hdd by auto. auto.
    - intros a b Ha Hb. rewrite <- !Hd, <- !Hdd by auto. auto.
    - intros c Hc Hn. destruct (D6 c Hc Hn) as [(a & Ha & H1 & H2)|[H1 H2]].
      + left. exists a. rewrite <- !Hd, <- Hdd by auto. done.
      + right. split; [done|]. intros a Ha. rewrite <- !Hd by auto. auto. }
  unfold chosen. destruct keep; [|auto].
  intros (core & extra & P1 & P2 & P3 & P4 & P5 & P6). exists core, extra. split_and!; auto.
  intros x c Hx Hc Hn. rewrite <- !Hd by auto. auto.
Qed.

(** the state in which the links of layer [l] were chosen, seen from outside *)
Lemma chosen_at_api h v id h' np hc l nv (vec : pid -> list T) :
  wf dist h -> wf dist h' -> insert_links dist h v id h' np -> like h h' np hc ->
  (forall p w, vector_at h' p w -> vec p = w) ->
  chosen_at dist hc np v l nv ->
  exists found, NoDup found /\ found <> [] /\ (length found <= Nat.max 1 (ef_construction h))%nat /\
    (forall x, x ∈ found -> exists w, vector_at h x w) /\
    (forall x p, x ∈ found -> linked h l x p ->
        p ∈ found \/ ((ef_construction h <= length found)%nat /\
                      forall y, y ∈ found -> (dist v (vec y) <= dist v (vec p))%Z)) /\
    if (length found <=? nb_conn h l)%nat then
      if extend_c h l then
        exists C, NoDup C /\ (forall p, p ∈ C <-> p ∈ found \/ exists x, x ∈ found /\ linked h l x p) /\
          chosen (keep_pruned h) (fun p => dist v (vec p)) (fun p p' => dist (vec p) (vec p')) (nb_conn h l) C (n_pid <$> nv)
      else n_pid <$> nv ≡ₚ found
    else chosen (keep_pruned h) (fun p => dist v (vec p)) (fun p p' => dist (vec p) (vec p')) (nb_conn h l) found (n_pid <$> nv).
Proof using Hnn.
  intros Hwf Hwf' HIL (L1 & L2 & L3 & L4 & L5 & L6) Hvec (h2 & F & Hf2 & Hst2 & Ho2 & HLS & Hpk & _).
  pose proof Hst2 as ((E1 & E2 & E3 & E4 & _) & _ & Hstat2).
  rewrite L4 in HLS.
  assert (Hoth : forall p, p <> np -> get_pt h2 p = get_pt h p).
  { intros p Hp. rewrite (Ho2 p Hp). by rewrite <- (L2 p Hp). }
  assert (Hvp : forall p, valid h2 p -> vec p = vecp h2 p).
  { intros p [pt Hpt]. apply Hvec. apply (vector_at_pt dist Hnn h' _ _ Hwf').
    unfold vecp. rewrite Hpt. pose proof (L1 p) as Hs. rewrite <- Hstat2 in Hs. unfold static in Hs. rewrite Hpt in Hs.
    destruct (get_pt h' p) as [pt'|]; [|done]. simpl in Hs. injection Hs as ? ? ?. eauto. }
  assert (Hlk : forall x p, x <> np -> link h2 l x p <-> linked h l x p).
  { intros x p Hx. rewrite (linked_link dist h l x p Hwf). unfold link. by rewrite Hoth. }
  assert (Hvold : forall p, valid h p -> valid h2 p).
  { intros p [pt Hpt]. exists pt. rewrite Hoth; [done|]. intros ->. rewrite (il_new _ _ _ _ _ _ HIL) in Hpt. done. }
  assert (Hlv : forall x p, linked h l x p -> valid h p).
  { intros x p Hl%(linked_link dist h l x p Hwf). destruct Hl as (pt & nbs & n & G1 & G2 & G3 & <-).
    pose proof (list_valid h x pt l nbs (w_core _ _ Hwf) G1 G2) as Hx. rewrite Forall_forall in Hx. auto. }
  assert (HFv : forall x, x ∈ n_pid <$> F -> x <> np /\ valid h2 x /\ valid h x).
  { intros x (n & -> & Hn)%elem_of_list_fmap. destruct (ls_good _ _ _ _ _ _ _ HLS) as (G1 & _ & G3).
    rewrite Forall_forall in G1, G3. destruct (G1 n Hn) as (pt & Hpt & _). pose proof (G3 n Hn) as Hne. simpl in Hne.
    split_and!; [done|by exists pt|]. exists pt. by rewrite <- Hoth. }
  exists (n_pid <$> F). split_and!.
  - by destruct (ls_good _ _ _ _ _ _ _ HLS) as (_ & ? & _).
  - intros E. apply fmap_nil_inv in E. by apply (ls_ne _ _ _ _ _ _ _ HLS).
  - rewrite fmap_length. by apply (ls_len _ _ _ _ _ _ _ HLS).
  - intros x (_ & _ & [pt Hpt])%HFv. exists (pt_data pt). apply (vector_at_pt dist Hnn h _ _ Hwf). eauto.
  - intros x p Hx Hl. destruct (HFv x Hx) as (Hne & _). pose proof (Hvold p (Hlv x p Hl)) as [pt Hpt].
    apply elem_of_list_fmap in Hx as (n & -> & Hn). apply Hlk in Hl; [|done].
    destruct (ls_local _ _ _ _ _ _ _ HLS n p pt Hn Hl Hpt) as [?|[H1 H2]]; [by left|right].
    rewrite fmap_length. split; [done|]. intros y (m & -> & Hm)%elem_of_list_fmap.
    rewrite Forall_forall in H2. specialize (H2 m Hm).
    destruct (ls_good _ _ _ _ _ _ _ HLS) as (G1 & _). rewrite Forall_forall in G1.
    rewrite (Hvp p) by (by exists pt). rewrite (Hvp (n_pid m)).
    2: { destruct (G1 m Hm) as (qt & Hqt & _). by exists qt. }
    rewrite (elt_dq dist h2 v m (G1 m Hm)) in H2. unfold dq in H2. unfold vecp at 2. by rewrite Hpt.
  - unfold picked in Hpk.
    assert (Enc : nb_conn h2 l = nb_conn h l) by (unfold nb_conn; by rewrite E2, L3).
    assert (Eex : extend_c h2 l = extend_c h l) by (unfold extend_c; by rewrite E3, L5).
    assert (Ekp : keep_pruned h2 = keep_pruned h) by (by rewrite E4, L6).
    rewrite Enc, Eex, Ekp in Hpk.
    assert (Hext : forall C, (forall p, p ∈ C -> valid h2 p) ->
      chosen (keep_pruned h) (dq dist h2 v) (dd dist h2) (nb_conn h l) C (n_pid <$> nv) ->
      chosen (keep_pruned h) (fun p => dist v (vec p)) (fun p p' => dist (vec p) (vec p')) (nb_conn h l) C (n_pid <$> nv)).
    { intros C HC. apply chosen_ext.
      - intros a Ha. unfold dq. by rewrite (Hvp a (HC a Ha)).
      - intros a b Ha Hb. unfold dd. by rewrite (Hvp a (HC a Ha)), (Hvp b (HC b Hb)). }
    destruct (length (n_pid <$> F) <=? nb_conn h l)%nat.
    + destruct (extend_c h l); [|done]. destruct Hpk as (C & C1 & C2 & C3). exists C.
      assert (HC : forall p, p ∈ C <-> p ∈ n_pid <$> F \/ exists x, x ∈ n_pid <$> F /\ linked h l x p).
      { intros p. rewrite C2. split; (intros [?|(x & Hx & ?)]; [by left|right; exists x; split; [done|]]);
          apply Hlk; auto; by apply HFv. }
      split_and!; auto. apply Hext; [|done].
      intros p [Hp|(x & Hx & Hl)]%HC; [by apply HFv|]. apply Hvold. by eapply Hlv.
    + apply Hext; [|done]. intros p Hp. by apply HFv.
Qed.

Lemma greedy_at_api h v id h' np hc l nv :
  wf dist h -> wf dist h' -> insert_links dist h v id h' np -> like h h' np hc ->
  greedy_at dist hc np v l nv ->
  exists e : nbr, nv = (if (0 <? get_max_nb_connection h)%nat then [e] else []) /\
    (exists w, vector_at h (n_pid e) w /\ n_dist e = dist v w) /\
    forall p w, linked h l (n_pid e) p -> vector_at h p w -> (n_dist e <= dist v w)%Z.
Proof using Hnn.
  intros Hwf Hwf' HIL (L1 & L2 & L3 & L4 & L5 & L6) (h2 & e & Hf2 & Hst2 & Ho2 & HLS & Hnv).
  assert (Hoth : forall p, p <> np -> get_pt h2 p = get_pt h p).
  { intros p Hp. rewrite (Ho2 p Hp). by rewrite <- (L2 p Hp). }
  destruct (ls_good _ _ _ _ _ _ _ HLS) as (G1 & _ & G3).
  inversion G1 as [|? ? (pt & Hpt & Hd) _]; subst. inversion G3 as [|? ? Hne _]; subst.
  assert (Hpt' : get_pt h (n_pid e) = Some pt) by (by rewrite <- Hoth).
  exists e. split_and!.
  - unfold get_max_nb_connection. by rewrite L3.
  - exists (pt_data pt). split; [|done]. apply (vector_at_pt dist Hnn h _ _ Hwf). eauto.
  - intros p w Hl Hw. apply (vector_at_pt dist Hnn h _ _ Hwf) in Hw as (qt & Hqt & <-).
    assert (Hl2 : link h2 l (n_pid e) p).
    { unfold link. rewrite Hoth by done. by apply (linked_link dist h l). }
    assert (Hqt2 : get_pt h2 p = Some qt).
    { rewrite Hoth; [done|]. intros ->. rewrite (il_new _ _ _ _ _ _ HIL) in Hqt. done. }
    destruct (ls_local _ _ _ _ _ _ _ HLS e p qt ltac:(left) Hl2 Hqt2) as [Hin|[_ H2]].
    + simpl in Hin. apply elem_of_list_singleton in Hin as ->. rewrite Hpt in Hqt2. injection Hqt2 as <-. lia.
    + by inversion H2.
Qed.

Lemma layer_nonempty h l : get_layer_nb_point h l <> 0%nat -> ~ layer_empty h l.
Proof using Type. unfold get_layer_nb_point, layer_empty. intros H E. by rewrite E in H. Qed.

Lemma lowest_layer_unique h l l' : lowest_layer h l -> lowest_layer h l' -> l = l'.
Proof using Type.
  clear. intros [H1 H2] [H3 H4]. destruct (Nat.lt_trichotomy l l') as [Hlt|[->|Hlt]]; [|done|].
  - by rewrite (H4 l Hlt) in H1.
  - by rewrite (H2 l' Hlt) in H3.
Qed.

End ISP.
