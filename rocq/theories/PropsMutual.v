(** Property C111: links are mutual unless the other list is full of nearer points. *)
From Coq Require Import SpecFloat.
From stdpp Require Import relations.
From Verif Require Import Prelude Model StdInst Lib Table SearchProofs SelectProofs InsertProofs ExhaustProofs QueryProofs
  IterProofs FlatProofs Spec SpecProofs SpecIo SpecBuilt BuiltProofs SpecInsert LocalProofs DivProofs LinkProofs
  Conc SpecConc ConcEnd SpecUse InsertSpecProofs InsertUsedProofs Examples ExamplesConc PropsConc PropsUsed.
Local Open Scope list_scope.

Local Instance nbr_eq_dec : EqDecision nbr.
Proof. solve_decision. Defined.

(** [answers M h p q d]: in some layer, [p] is among the neighbours of [q], or [q] has as many neighbours as it may, none further
    than [d] *)
Definition answers {T} (M : nat) (h : hnsw (T:=T)) (p q : pid) (d : Z) : Prop :=
  exists l ns, layer_neighbours h q l ns /\
    ((exists n, n ∈ ns /\ p_id n = p) \/
     (length ns = (if (l =? 0)%nat then 2 * M else M)%nat /\ forall n, n ∈ ns -> (distance n <= d)%Z)).
(** every link, in a layer up to that of its point, is answered *)
Definition mutual_links {T} (M : nat) (h : hnsw (T:=T)) : Prop :=
  forall p l ns n, layer_neighbours h p l ns -> (l <= p.1)%nat -> n ∈ ns -> answers M h p (p_id n) (distance n).

Section Mutual.
Context {T : Type} (dist : list T -> list T -> Z) (so : StdOps) (LAWS : StdLaws so).
Context (Hnn : forall a b, (0 <= dist a b)%Z) (Hsym : forall a b, dist a b = dist b a).
Local Notation hnsw := (hnsw (T:=T)).

(** the same of the model's own lists *)
Definition given (cap : nat) (p : pid) (d : Z) (nbs : list nbr) : Prop :=
  p ∈ n_pid <$> nbs \/ ((cap <= length nbs)%nat /\ forall m, m ∈ nbs -> (n_dist m <= d)%Z).
Definition mut (h : hnsw) : Prop := forall p pt l nbs n, get_pt h p = Some pt -> pt_nbs pt !! l = Some nbs -> (l <= p.1)%nat -> n ∈ nbs ->
  exists qt l' nbs', get_pt h (n_pid n) = Some qt /\ pt_nbs qt !! l' = Some nbs' /\ given (nb_conn h l') p (n_dist n) nbs'.

Lemma mut_spec h M : lwf dist h -> max_nb_connection h = M -> mutual_links M h <-> mut h.
Proof.
  intros Hwf HM. pose proof (l_core _ _ Hwf) as Hc.
  assert (Ecap : forall l, nb_conn h l = if (l =? 0)%nat then (2 * M)%nat else M) by (intros l; unfold nb_conn; by rewrite HM).
  split.
  - intros Hm p pt l nbs n Hp Hn Hl Hin.
    destruct (nbhd_ok_core dist h p pt Hc Hp) as (lists & Hg & Hlen & Hspec).
    destruct (lookup_lt_is_Some_2 lists l) as [ns Hns].
    { rewrite Hlen. destruct (c_pt _ _ Hc _ _ Hp) as [_ <-]. by eapply lookup_lt_Some. }
    pose proof (proj1 (Hspec l ns) Hns) as (nbs1 & Hn1 & HF). rewrite Hn in Hn1. injection Hn1 as <-.
    apply elem_of_list_lookup in Hin as [i Hi]. destruct (Forall2_lookup_l _ _ _ _ _ HF Hi) as (a & Ha & E1 & E2 & _).
    destruct (Hm p l ns a) as (l' & ns' & Hq & Hcase); [|done|by eapply elem_of_list_lookup_2|].
    { exists pt, lists. split; [by apply (layer_point_pt dist)|done]. }
    apply (layer_neighbours_pt dist) in Hq as (qt & nbs' & Hqt & Hn' & HF'); [|done].
    exists qt, l', nbs'. rewrite <- E1. split; [done|]. split; [done|]. destruct Hcase as [(b & Hb & Eb)|[Hfull Hall]].
    + left. apply elem_of_list_lookup in Hb as [j Hj]. destruct (Forall2_lookup_r _ _ _ _ _ HF' Hj) as (m & Hmj & F1 & _).
      apply elem_of_list_fmap. exists m. split; [congruence|by eapply elem_of_list_lookup_2].
    + right. rewrite (Forall2_length _ _ _ HF'), Hfull, Ecap. split; [done|]. intros m Hin'.
      apply elem_of_list_lookup in Hin' as [j Hj]. destruct (Forall2_lookup_l _ _ _ _ _ HF' Hj) as (b & Hb & _ & F2 & _).
      rewrite <- F2, <- E2. apply Hall. by eapply elem_of_list_lookup_2.
  - intros Hm p l ns a Hns Hl Ha. apply (layer_neighbours_pt dist) in Hns as (pt & nbs & Hp & Hn & HF); [|done].
    apply elem_of_list_lookup in Ha as [i Hi]. destruct (Forall2_lookup_r _ _ _ _ _ HF Hi) as (n & Hni & E1 & E2 & _).
    destruct (Hm p pt l nbs n Hp Hn Hl) as (qt & l' & nbs' & Hq & Hn' & Hg); [by eapply elem_of_list_lookup_2|].
    destruct (nbhd_ok_core dist h _ qt Hc Hq) as (lists & Hgn & Hlen & Hspec).
    destruct (lookup_lt_is_Some_2 lists l') as [ns' Hns'].
    { rewrite Hlen. destruct (c_pt _ _ Hc _ _ Hq) as [_ <-]. by eapply lookup_lt_Some. }
    pose proof (proj1 (Hspec l' ns') Hns') as (nbs1 & Hn1 & HF'). rewrite Hn' in Hn1. injection Hn1 as <-.
    exists l', ns'. split. { rewrite E1. exists qt, lists. split; [by apply (layer_point_pt dist)|done]. }
    destruct Hg as [Hin|[Hfull Hall]].
    + left. apply elem_of_list_fmap in Hin as (m & -> & Hm'). apply elem_of_list_lookup in Hm' as [j Hj].
      destruct (Forall2_lookup_l _ _ _ _ _ HF' Hj) as (b & Hb & F1 & _). exists b. split; [by eapply elem_of_list_lookup_2|done].
    + right. destruct (c_lists _ _ Hc _ _ _ _ Hq Hn') as [_ _ _ _ L5].
      rewrite <- (Forall2_length _ _ _ HF'), <- Ecap. split; [lia|]. intros b Hb.
      apply elem_of_list_lookup in Hb as [j Hj]. destruct (Forall2_lookup_r _ _ _ _ _ HF' Hj) as (m & Hmj & _ & F2 & _).
      rewrite F2, E2. apply Hall. by eapply elem_of_list_lookup_2.
Qed.

(** receiving a point *)
Lemma revd_in cap e old new x : revd cap e old new -> x ∈ new -> x ∈ old \/ x = e.
Proof.
  intros (_ & _ & rem & Hp & _) Hx. assert (H : x ∈ old ++ [e]) by (rewrite <- Hp; apply elem_of_app; by left).
  apply elem_of_app in H as [?|?%elem_of_list_singleton]; auto.
Qed.
Lemma revd_lost cap e old new x : revd cap e old new -> x ∈ old \/ x = e -> x ∉ new ->
  (cap <= length new)%nat /\ forall m, m ∈ new -> (n_dist m <= n_dist x)%Z.
Proof.
  intros (_ & Hl & rem & Hp & Hd) Hx Hn.
  assert (H : x ∈ new ++ rem) by (rewrite Hp; apply elem_of_app; destruct Hx as [?| ->]; [by left|right; left]).
  apply elem_of_app in H as [?|Hr]; [done|].
  assert (Hlen : (length new + length rem = length old + 1)%nat) by (rewrite <- !app_length, Hp, app_length; done).
  assert (0 < length rem)%nat by (destruct rem; [by apply elem_of_nil in Hr|simpl; lia]).
  split; [lia|]. intros m Hm. by apply Hd.
Qed.
Lemma revd_full cap e old new d : revd cap e old new -> (length old <= cap)%nat -> (cap <= length old)%nat ->
  (forall m, m ∈ old -> (n_dist m <= d)%Z) -> (cap <= length new)%nat /\ forall m, m ∈ new -> (n_dist m <= d)%Z.
Proof.
  intros Hr Hle Hge Hall. destruct Hr as (_ & Hl & rem & Hp & Hd). split; [lia|]. intros m Hm.
  assert (Hlen : (length new + length rem = length old + 1)%nat) by (rewrite <- !app_length, Hp, app_length; done).
  destruct rem as [|r rem]; [simpl in Hlen; lia|].
  assert (Hm' : m ∈ old ++ [e]) by (rewrite <- Hp; apply elem_of_app; by left).
  apply elem_of_app in Hm' as [Hm'|Hm'%elem_of_list_singleton]; [by apply Hall|]. subst m.
  pose proof (Hd e r Hm ltac:(left)) as Her.
  destruct (decide (e ∈ old)) as [Hin|Hnin]; [by apply Hall|].
  assert (Hr : r ∈ old); [|specialize (Hall r Hr); lia].
  assert (Hrr : r ∈ old ++ [e]) by (rewrite <- Hp; apply elem_of_app; right; left).
  apply elem_of_app in Hrr as [?|Hrr%elem_of_list_singleton]; [done|]. subst r. exfalso.
  assert (rem = []) as -> by (destruct rem; [done|simpl in Hlen; lia]).
  apply Permutation_app_inv_r in Hp. apply Hnin. by rewrite <- Hp.
Qed.

Lemma mut_insert h v id d h' : lwf dist h -> mut h -> insert_slice dist so h v id d = Ok h' ->
  max_nb_connection h' = max_nb_connection h -> mut h'.
Proof using LAWS Hnn Hsym.
  intros Hwf Hm Hins EM. pose proof (insert_lwf dist so LAWS Hnn _ _ _ _ _ Hwf Hins) as Hwf'.
  pose proof (l_core _ _ Hwf) as Hc. pose proof (l_core _ _ Hwf') as Hc'.
  destruct (insert_links_ok dist so LAWS Hnn _ _ _ _ _ Hwf Hins) as (np & HIL).
  destruct (il_np _ _ _ _ _ _ HIL) as (npt & Hnp & Hnd & Hno).
  assert (Ec : forall l, nb_conn h' l = nb_conn h l) by (intros l; unfold nb_conn; by rewrite EM).
  (* the distance of an entry is that of the vectors *)
  assert (Hds : forall p pt l nbs n qt, get_pt h' p = Some pt -> pt_nbs pt !! l = Some nbs -> n ∈ nbs ->
    get_pt h' (n_pid n) = Some qt -> n_dist n = dist (pt_data pt) (pt_data qt)).
  { intros p pt l nbs n qt Hp Hn Hin Hq. pose proof (lo_ref _ _ _ _ _ _ (c_lists _ _ Hc' _ _ _ _ Hp Hn)) as HR.
    rewrite Forall_forall in HR. destruct (HR n Hin) as (q' & Hq' & E). rewrite Hq in Hq'. injection Hq' as <-.
    destruct E as [-> | ->]; [done|apply Hsym]. }
  intros p pt l nbs n Hp Hn Hl Hin.
  assert (Hv : valid h' p) by (by exists pt). apply (il_only _ _ _ _ _ _ HIL) in Hv as [->|[pt0 Hp0]].
  - (* the new point: its neighbour has received it *)
    rewrite Hnp in Hp. injection Hp as <-.
    pose proof (lo_ref _ _ _ _ _ _ (c_lists _ _ Hc' _ _ _ _ Hnp Hn)) as HR. rewrite Forall_forall in HR.
    destruct (HR n Hin) as (qt' & Hq' & _). clear HR.
    assert (Hne : n_pid n <> np).
    { intros E. apply (lo_self _ _ _ _ _ _ (c_lists _ _ Hc' _ _ _ _ Hnp Hn)). apply elem_of_list_fmap. by exists n. }
    assert (Hvq : valid h' (n_pid n)) by (by exists qt'). apply (il_only _ _ _ _ _ _ HIL) in Hvq as [?|[qt Hq]]; [done|].
    destruct (il_others _ _ _ _ _ _ HIL _ qt Hq) as (qt2 & Hq2 & Edq & _ & Hlq). rewrite Hq' in Hq2. injection Hq2 as <-.
    destruct (c_pt _ _ Hc _ _ Hq) as [_ Elq]. 
    destruct (lookup_lt_is_Some_2 (pt_nbs qt) np.1) as [old Hold].
    { rewrite Elq. pose proof (c_len _ _ Hc'). pose proof (c_max _ _ Hc'). apply get_pt_lookup in Hnp as (ly & Hly & _).
      apply lookup_lt_Some in Hly. lia. }
    destruct (Hlq np.1 old Hold) as (new & Hnew & [(_ & _ & Hr)|[Hno2 _]]).
    2:{ exfalso. apply Hno2. split; [done|]. exists l. split; [done|]. exists npt, nbs, n. done. }
    exists qt', np.1, new. split; [done|]. split; [done|].
    assert (Ed : n_dist n = dist v (pt_data qt)) by (rewrite <- Edq, <- Hnd; by eapply Hds).
    destruct (decide (Nbr np (dist v (pt_data qt)) ∈ new)) as [Hi|Hi].
    + left. apply elem_of_list_fmap. by eexists; split; [|exact Hi].
    + right. rewrite Ec, Ed. apply (revd_lost _ _ _ _ _ Hr (or_intror eq_refl) Hi).
  - destruct (il_others _ _ _ _ _ _ HIL p pt0 Hp0) as (pt2 & Hp2 & Edp & _ & Hlp). rewrite Hp in Hp2. injection Hp2 as <-.
    destruct (lookup_lt_is_Some_2 (pt_nbs pt0) l) as [old Hold].
    { destruct (c_pt _ _ Hc _ _ Hp0) as [_ ->]. destruct (c_pt _ _ Hc' _ _ Hp) as [_ <-]. by eapply lookup_lt_Some. }
    destruct (Hlp l old Hold) as (nbs2 & Hn2 & Hcase). rewrite Hn in Hn2. injection Hn2 as <-.
    assert (Hor : n ∈ old \/ (n_pid n = np /\ exists j, (j <= np.1)%nat /\ link h' j np p)).
    { destruct Hcase as [(_ & Hj & Hr)|[_ ->]]; [|by left]. destruct (revd_in _ _ _ _ _ Hr Hin) as [?| ->]; [by left|]. right. done. }
    destruct Hor as [Ho|(E & j & _ & Hlk)].
    + destruct (Hm p pt0 l old n Hp0 Hold Hl Ho) as (qt & l' & oq & Hq & Hoq & Hg).
      destruct (il_others _ _ _ _ _ _ HIL _ qt Hq) as (qt' & Hq' & Edq & _ & Hlq).
      destruct (Hlq l' oq Hoq) as (nq & Hnq & Hcq). exists qt', l', nq. split; [done|]. split; [done|]. rewrite Ec.
      destruct Hcq as [(_ & _ & Hr)|[_ ->]]; [|done].
      destruct Hg as [Hi|[Hf Ha]].
      * apply elem_of_list_fmap in Hi as (m & Em & Hm').
        destruct (decide (m ∈ nq)) as [Hi|Hi]; [left; apply elem_of_list_fmap; by exists m|]. right.
        destruct (revd_lost _ _ _ _ _ Hr (or_introl Hm') Hi) as [H1 H2]. split; [done|].
        assert (E1 : n_dist n = dist (pt_data pt0) (pt_data qt)) by (rewrite <- Edp, <- Edq; by eapply Hds).
        assert (E2 : n_dist m = n_dist n).
        { rewrite E1. pose proof (lo_ref _ _ _ _ _ _ (c_lists _ _ Hc _ _ _ _ Hq Hoq)) as HR. rewrite Forall_forall in HR.
          destruct (HR m Hm') as (x & Hx & Ex). rewrite <- Em, Hp0 in Hx. injection Hx as <-. destruct Ex as [-> | ->]; [apply Hsym|done]. }
        rewrite <- E2. done.
      * right. eapply revd_full; [exact Hr|apply (lo_cap _ _ _ _ _ _ (c_lists _ _ Hc _ _ _ _ Hq Hoq))|done|done].
    + destruct Hlk as (npt' & nbj & m & Hnp' & Hj & Hmj & Em). rewrite E.
      exists npt', j, nbj. split; [done|]. split; [done|]. left. apply elem_of_list_fmap. by exists m.
Qed.
End Mutual.

Lemma mut_meta {T} (h h' : hnsw (T:=T)) : points_by_layer h' = points_by_layer h ->
  max_nb_connection h' = max_nb_connection h -> mut h -> mut h'.
Proof.
  intros E1 E2 Hm p pt l nbs n. unfold nb_conn. rewrite (get_pt_pbl h h' p E1). intros Hp Hn Hl Hin.
  destruct (Hm p pt l nbs n Hp Hn Hl Hin) as (qt & l' & nbs' & H1 & H2 & H3). exists qt, l', nbs'.
  rewrite (get_pt_pbl h h' _ E1). unfold nb_conn in H3. by rewrite E2.
Qed.

(** C111: later states keep it. *)
Theorem C111_mutual_links_kept :
  forall {T} (dist : list T -> list T -> Z) so, StdLaws so -> (forall a b, (0 <= dist a b)%Z) ->
  (forall a b, dist a b = dist b a) ->
  forall inv_ln M ml ef hist h, used dist so inv_ln M ml ef hist h -> mutual_links M h ->
  forall h', evolves dist so h h' -> mutual_links M h'.
Proof.
  intros T dist so LAWS Hnn Hsym inv_ln M ml ef hist h Hu Hm h' He.
  destruct (used_facts dist so LAWS Hnn _ _ _ _ _ _ Hu) as (Hwf & _ & HM & _).
  apply (mut_spec dist h M Hwf HM) in Hm.
  assert (Hall : lwf dist h' /\ max_nb_connection h' = M /\ mut h'); [|by apply (mut_spec dist h' M); apply Hall].
  clear Hu. induction He as [h|h h1 v id d h2 _ IH Hins|h h1 b _ IH|h h1 b _ IH|h h1 b _ IH|h h1 m _ IH].
  { done. }
  { destruct (IH Hm Hwf HM) as (W & E & Hm1). pose proof (insert_lwf dist so LAWS Hnn _ _ _ _ _ W Hins) as W2.
    destruct (insert_lspec dist so LAWS Hnn h1 v id d W (insert_max_layer dist so Hnn _ _ _ _ _ Hins)) as
      (h3 & np & Hi2 & _ & _ & _ & _ & _ & _ & _ & K2 & _). rewrite Hins in Hi2. injection Hi2 as <-.
    split; [done|]. split; [congruence|]. by eapply (mut_insert dist so LAWS Hnn Hsym h1). }
  all: destruct (IH Hm Hwf HM) as (W & E & Hm1); split; [by apply (lwf_meta dist h1)|]; split; [done|]; by apply (mut_meta h1).
Qed.
Print Assumptions C111_mutual_links_kept.

(** C111: of an index made by successive insertions. *)
Theorem C111_mutual_links :
  forall {T} (dist : list T -> list T -> Z) so, StdLaws so -> (forall a b, (0 <= dist a b)%Z) ->
  (forall a b, dist a b = dist b a) ->
  forall inv_ln M ml ef h0 h, hnsw_new inv_ln M ml ef = Ok h0 -> evolves dist so h0 h -> mutual_links M h.
Proof.
  intros T dist so LAWS Hnn Hsym inv_ln M ml ef h0 h Hnew He.
  assert (Hu : used dist so inv_ln M ml ef [] h0) by (by apply used_built, built_new).
  eapply C111_mutual_links_kept; [done|done|done|exact Hu| |done].
  destruct (used_facts dist so LAWS Hnn _ _ _ _ _ _ Hu) as (Hwf & _ & HM & _ & Hst & Hnb).
  apply (mut_spec dist h0 M Hwf HM). intros p pt l nbs n Hp. exfalso.
  apply stored_at in Hp. rewrite Hst in Hp. by apply elem_of_nil in Hp.
Qed.
Print Assumptions C111_mutual_links.

(** C111: a dump and its reload keep it (C27). *)
Theorem C111_mutual_links_reload :
  forall {T} (dist : list T -> list T -> Z) so, StdLaws so -> (forall a b, (0 <= dist a b)%Z) ->
  forall inv_ln M ml ef hist h, built dist so inv_ln M ml ef hist h ->
  forall inv_ln' ml' ef' hist' h', built dist so inv_ln' M ml' ef' hist' h' -> same_graph h h' ->
  mutual_links M h -> mutual_links M h'.
Proof.
  intros T dist so LAWS Hnn inv_ln M ml ef hist h Hb inv_ln' ml' ef' hist' h' Hb' Hs Hm.
  pose proof (built_wf dist so LAWS Hnn _ _ _ _ _ _ Hb) as W. pose proof (built_wf dist so LAWS Hnn _ _ _ _ _ _ Hb') as W'.
  assert (E : forall p l ns, layer_neighbours h p l ns <-> neighbours_at h p l ns).
  { intros p l ns. rewrite (neighbours_at_pt dist h p l ns W). apply (layer_neighbours_pt dist), W. }
  assert (E' : forall p l ns, layer_neighbours h' p l ns <-> neighbours_at h' p l ns).
  { intros p l ns. rewrite (neighbours_at_pt dist h' p l ns W'). apply (layer_neighbours_pt dist), W'. }
  assert (Hf : forall p l a b, neighbours_at h' p l a -> neighbours_at h' p l b -> a = b).
  { intros p l a b Ha Hc. apply (neighbours_at_conv dist h' p l a W') in Ha as (pt & nbs & H1 & H2 & ->).
    apply (neighbours_at_conv dist h' p l b W') in Hc as (pt2 & nbs2 & H3 & H4 & ->). congruence. }
  intros p l ns' n Hns Hl Hn. apply E' in Hns. destruct (sg_nbs_back _ _ Hs _ _ _ Hns) as (ns & Hns0).
  destruct (sg_nbs _ _ Hs _ _ _ Hns0) as (ns2 & Hns2 & Hp & _). rewrite (Hf _ _ _ _ Hns Hns2) in Hn.
  destruct (Hm p l ns n) as (lq & nq & Hq & Hcase); [by apply E|done|by rewrite <- Hp|].
  apply E in Hq. destruct (sg_nbs _ _ Hs _ _ _ Hq) as (nq' & Hq' & Hpq & _).
  exists lq, nq'. split; [by apply E'|]. destruct Hcase as [(m & H1 & H2)|[H1 H2]].
  - left. exists m. by rewrite Hpq.
  - right. split; [by rewrite Hpq|]. intros m. rewrite Hpq. apply H2.
Qed.
Print Assumptions C111_mutual_links_reload.

(** M = 1, so at most two neighbours on layer 0. The point (0, 1), with vector 10, has a link to (0, 2), with vector 1, which has two
    nearer neighbours, 0 and 2, and does not return it; (1, 0), inserted last and on layer 1, has links in layer 0 that its
    neighbours return in layer 1. *)
Definition mu_points : list (Z * N * nat) := [(0%Z, 1%N, 0); (10%Z, 2%N, 0); (1%Z, 3%N, 0); (2%Z, 4%N, 0); (3%Z, 5%N, 1)].
Definition mu : hnsw (T:=Z) := Eval vm_compute in the (empty_index 1 16 10) (mk simple_ops 1 16 10 mu_points).
Lemma ins_all_evolves {T} (dist : list T -> list T -> Z) so l (h0 h h' : hnsw (T:=T)) :
  evolves dist so h0 h -> ins_all dist so l h = Ok h' -> evolves dist so h0 h'.
Proof.
  revert h. induction l as [|[[v i] n] l IH]; intros h He H; [by injection H as <-|].
  unfold ins_all in H. simpl in H. pose proof H as H'. apply ins_all_bad in H' as [h1 H1]. rewrite H1 in H.
  eapply IH; [|exact H]. by eapply ev_insert.
Qed.
Lemma mk_evolves so M ml ef l h0 h : hnsw_new one_scale M ml ef = Ok h0 -> mk so M ml ef l = Ok h -> evolves d1 so h0 h.
Proof. unfold mk. intros ->. cbn [mbind outcome_bind]. intros H. eapply ins_all_evolves; [apply ev_refl|exact H]. Qed.
Example C111_example :
  StdLaws simple_ops /\ (forall a b, (0 <= d1 a b)%Z) /\ (forall a b, d1 a b = d1 b a) /\
  hnsw_new one_scale 1 16 10 = Ok (empty_index 1 16 10) /\ evolves d1 simple_ops (empty_index 1 16 10) mu /\
  layer_neighbours mu (0, 1) 0 [Neighbour 4%N 8%Z (0, 3); Neighbour 3%N 9%Z (0, 2)] /\
  (forall l ns n, layer_neighbours mu (0, 2) l ns -> n ∈ ns -> p_id n <> (0, 1)) /\
  layer_neighbours mu (1, 0) 0 [Neighbour 4%N 1%Z (0, 3); Neighbour 2%N 7%Z (0, 1)] /\
  layer_neighbours mu (0, 3) 0 [Neighbour 3%N 1%Z (0, 2); Neighbour 2%N 8%Z (0, 1)] /\
  layer_neighbours mu (0, 3) 1 [Neighbour 5%N 1%Z (1, 0)].
Proof.
  assert (Hmk : mk simple_ops 1 16 10 mu_points = Ok mu) by (vm_compute; reflexivity).
  pose proof (mk_built _ _ _ _ _ _ Hmk) as Hb.
  pose proof (wf_lwf _ _ (built_wf d1 simple_ops simple_laws d1_nonneg _ _ _ _ _ _ Hb)) as Hwf.
  split; [exact simple_laws|]. split; [exact d1_nonneg|]. split; [exact d1_sym|].
  assert (Hnew : hnsw_new one_scale 1 16 10 = Ok (empty_index 1 16 10)) by (vm_compute; reflexivity). split; [exact Hnew|].
  split. { by apply (mk_evolves simple_ops 1 16 10 mu_points). }
  split. { apply (layer_neighbours_conv d1 _ _ _ _ Hwf). eexists _, _. split_and!; vm_compute; reflexivity. }
  split.
  { intros l ns n Hns Hin. apply (layer_neighbours_conv d1 _ _ _ _ Hwf) in Hns as (pt & nbs & Hp & Hn & ->).
    apply elem_of_list_fmap in Hin as (m & -> & Hm). unfold conv. cbn [p_id]. intros Em.
    assert (Hno : forallb (fun m => negb (bool_decide (n_pid m = (0, 1)))) (from_option (fun pt => concat (pt_nbs pt)) [] (get_pt mu (0, 2))) = true)
      by (vm_compute; reflexivity).
    rewrite Hp in Hno. cbn [from_option] in Hno. rewrite forallb_forall in Hno. specialize (Hno m).
    rewrite (bool_decide_eq_true_2 _ Em) in Hno. cut (false = true); [done|]. apply Hno. apply in_concat. exists nbs.
    split; apply elem_of_list_In; [by eapply elem_of_list_lookup_2|done]. }
  split_and!; apply (layer_neighbours_conv d1 _ _ _ _ Hwf); eexists _, _; split_and!; vm_compute; reflexivity.
Qed.
