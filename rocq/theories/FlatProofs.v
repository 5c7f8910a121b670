(** Small flat indexes: the graph of layer 0 is complete and search is exact. *)
From stdpp Require Import relations.
From Verif Require Import Prelude Model Lib Table SearchProofs SelectProofs InsertProofs ExhaustProofs QueryProofs IterProofs.

Section Flat.
Context {T : Type} (dist : list T -> list T -> Z) (so : StdOps).
Context (LAWS : StdLaws so) (Hnn : forall a b, (0 <= dist a b)%Z).
Implicit Types (h : hnsw (T:=T)) (p np ep : pid) (q : list T).
Local Notation core := (core dist).
Local Notation wf := (wf dist).

Definition complete h : Prop :=
  (forall p, valid h p -> p.1 = 0%nat) /\
  (forall p p', valid h p -> valid h p' -> p <> p' -> link h 0 p p').

Lemma link_upd h h' p l f :
  upd_nbs h p l f = Ok h' ->
  (forall pt nbs n, get_pt h p = Some pt -> pt_nbs pt !! l = Some nbs -> n ∈ n_pid <$> nbs ->
      n ∈ n_pid <$> f nbs) ->
  forall l' a b, link h l' a b -> link h' l' a b.
Proof.
  intros Hu Hf l' a b (pt & nbs & n & Hpt & Hn & Hin & <-).
  destruct (upd_nbs_inv _ _ _ _ _ Hu) as (ppt & pnbs & Hg & Hpn & Hg' & Ho & _).
  destruct (decide (a = p)) as [->|Hne].
  - rewrite Hg in Hpt. injection Hpt as <-. destruct (decide (l' = l)) as [->|Hl].
    + rewrite Hpn in Hn. injection Hn as <-.
      assert (Hin' : n_pid n ∈ n_pid <$> f pnbs).
      { eapply Hf; [done..|]. apply elem_of_list_fmap. eauto. }
      apply elem_of_list_fmap in Hin' as (n' & En & Hin').
      exists (set_pt_nbs ppt l (f pnbs)), (f pnbs), n'. split_and!; auto.
      simpl. apply list_lookup_insert. by eapply lookup_lt_Some.
    + exists (set_pt_nbs ppt l (f pnbs)), nbs, n. split_and!; auto.
      simpl. by rewrite list_lookup_insert_ne.
  - exists pt, nbs, n. split_and!; auto. by rewrite Ho.
Qed.

Lemma rev_list_incl thr np d nbs :
  (S (length nbs) <= thr)%nat \/ np ∈ n_pid <$> nbs ->
  np ∈ n_pid <$> rev_list so thr np d nbs /\
  forall n, n ∈ n_pid <$> nbs -> n ∈ n_pid <$> rev_list so thr np d nbs.
Proof.
  intros H. unfold rev_list. destruct (bool_decide (np ∈ n_pid <$> nbs)) eqn:E.
  { apply bool_decide_eq_true in E. done. }
  apply bool_decide_eq_false in E. destruct H as [H|?]; [|done].
  destruct (Nat.ltb_spec thr (S (length nbs))) as [?|_]; [lia|].
  assert (Hp : n_pid <$> u_sort so nbr n_dist (nbs ++ [Nbr np d]) ≡ₚ np :: (n_pid <$> nbs)).
  { rewrite (law_usort_perm _ LAWS). rewrite fmap_app. simpl. by rewrite Permutation_app_comm. }
  rewrite Hp. split; [left|]. intros n Hn. rewrite Hp. by right.
Qed.

(** in a small flat index the reverse update loses nothing *)
Lemma rev_one_flat h np npt (q : nbr) h' :
  core h -> get_pt h np = Some npt -> np.1 = 0%nat -> (table_size h <= S (2 * max_nb_connection h))%nat ->
  valid h (n_pid q) -> n_pid q <> np ->
  rev_one so h np q = Ok h' ->
  (forall a b, link h 0 a b -> link h' 0 a b) /\ link h' 0 (n_pid q) np.
Proof.
  intros Hc Hnp Hn0 Hsz Hq Hne. unfold rev_one. rewrite bool_decide_eq_false_2 by done.
  rewrite Hn0. cbn [Nat.ltb Nat.leb]. intros Hu.
  assert (Hbound : forall pt nbs, get_pt h (n_pid q) = Some pt -> pt_nbs pt !! 0 = Some nbs ->
     (S (length nbs) <= 2 * max_nb_connection h)%nat \/ np ∈ n_pid <$> nbs).
  { intros pt nbs Hpt Hnbs. destruct (decide (np ∈ n_pid <$> nbs)) as [?|Hnot]; [by right|left].
    destruct (c_lists _ _ Hc _ _ _ _ Hpt Hnbs) as [Lnd _ Lself Lref _].
    assert (Hlen : (length (n_pid q :: np :: (n_pid <$> nbs)) <= table_size h)%nat).
    { apply valid_count.
      - constructor; [|by constructor]. rewrite elem_of_cons. intros [?|?]; done.
      - constructor; [done|]. constructor; [by exists npt|]. apply Forall_forall.
        intros p (n & -> & Hn)%elem_of_list_fmap. rewrite Forall_forall in Lref.
        destruct (Lref n Hn) as (pt' & ? & _). by exists pt'. }
    simpl in Hlen. rewrite fmap_length in Hlen. clear -Hlen Hsz. lia. }
  split.
  - intros a b. apply (link_upd _ _ _ _ _ Hu). intros pt nbs n Hpt Hnbs.
    by apply (rev_list_incl _ _ _ _ (Hbound pt nbs Hpt Hnbs)).
  - destruct (upd_nbs_inv _ _ _ _ _ Hu) as (pt & nbs & Hpt & Hnbs & Hg' & _).
    destruct (rev_list_incl _ np (n_dist q) nbs (Hbound pt nbs Hpt Hnbs)) as [Hin _].
    apply elem_of_list_fmap in Hin as (n & En & Hin).
    eexists _, _, n. split; [exact Hg'|]. split; [|split; [exact Hin|done]].
    simpl. apply list_lookup_insert. by eapply lookup_lt_Some.
Qed.

Lemma rev_many_flat qs h np npt h' :
  core h -> get_pt h np = Some npt -> np.1 = 0%nat -> (table_size h <= S (2 * max_nb_connection h))%nat ->
  refs_ok dist h npt qs -> np ∉ n_pid <$> qs ->
  rev_many so h np qs = Ok h' ->
  (forall a b, link h 0 a b -> link h' 0 a b) /\ forall q : nbr, q ∈ qs -> link h' 0 (n_pid q) np.
Proof.
  revert h. induction qs as [|q qs IH]; intros h Hc Hnp Hn0 Hsz Hr Hnin Hrev; simpl in Hrev.
  - injection Hrev as <-. split; [done|]. intros q Hq. by apply elem_of_nil in Hq.
  - inversion Hr as [|? ? Hq Hr']; subst.
    csimpl in Hnin. apply not_elem_of_cons in Hnin as [Hne Hnin].
    destruct (rev_one_spec dist so LAWS h np npt q Hc Hnp Hq) as (h1 & Hh1 & Hc1 & Hst1 & Ho).
    rewrite Hh1 in Hrev. rewrite bind_Ok in Hrev.
    assert (Hvq : valid h (n_pid q)) by (destruct Hq as (pt & ? & _); by exists pt).
    destruct (rev_one_flat h np npt q h1 Hc Hnp Hn0 Hsz Hvq) as [Hl1 Hl2]; auto.
    destruct (IH h1) as [Hl3 Hl4]; auto.
    + rewrite Ho; auto.
    + rewrite (same_table_size _ _ Hst1). destruct Hst1 as ((_ & -> & _) & _). done.
    + eapply refs_ok_grows; [by apply same_table_grows|done].
    + split; [auto|]. intros q' [->|Hq']%elem_of_cons; auto.
Qed.

Lemma insert_flat h data oid d h' :
  wf h -> complete h -> extend_candidates h = false ->
  generate (level_scale h) (max_layer h) d = Ok 0%nat ->
  (table_size h <= ef_construction h)%nat -> (table_size h <= 2 * max_nb_connection h)%nat ->
  insert_slice dist so h data oid d = Ok h' -> complete h'.
Proof.
  intros Hwf [Hflat Hcomp] Hext Hgen Hef HM.
  pose proof Hwf as [Hc Hcnt Hent].
  unfold insert_slice, generate_new_point. rewrite Hgen, bind_Ok.
  destruct (push_point_ok h data oid 0) as [[h1 np] Hpush].
  { rewrite (c_len _ _ Hc). by apply generate_lt in Hgen. }
  rewrite Hpush, bind_Ok. unfold incr_nb_point. cbn beta iota zeta. rewrite bind_Ok. cbn beta iota zeta.
  destruct (core_push dist Hnn _ _ _ _ _ _ Hc Hpush) as (Hc1 & Hu1 & Hgr1).
  destruct (push_point_inv _ _ _ _ _ _ Hpush) as (Hnl & Hlt & Hnone & Hnew & Ho & Hm & Hlen & Hsz).
  pose proof Hm as (M1 & M2 & M3 & M4 & M5 & M6 & M7 & M8 & M9 & M10).
  set (h0 := set_nb_point (S (nb_point h1)) h1).
  assert (Hg0 : forall p, get_pt h0 p = get_pt h1 p) by done.
  assert (Hc0 : core h0) by (by apply (core_meta dist h1)).
  assert (Hu0 : unref h0 np) by done.
  assert (Hvalid0 : forall p, valid h0 p <-> p = np \/ valid h p).
  { intros p. unfold valid. rewrite Hg0. destruct (decide (p = np)) as [->|Hne].
    - rewrite Hnew. split; [by left|]. intros _; by eexists.
    - rewrite Ho by done. split; [by right|]. intros [?|?]; done. }
  assert (Hcheck : forall h3, complete h3 -> complete (check_entry_point h3 np)).
  { intros h3 [H1 H2]. unfold check_entry_point. destruct (entry_point h3) as [ep|]; [destruct (_ <? _)%nat|]; done. }
  change (entry_point h0) with (entry_point h1). rewrite M8.
  destruct (entry_point h) as [ep|] eqn:Eep.
  2: { intros [= <-]. apply Hcheck. split.
       - intros p [->|Hv]%Hvalid0; [done|]. by apply (table_size_0_valid h p) in Hent.
       - intros p p' [->|Hv]%Hvalid0 [->|Hv']%Hvalid0 ?; try done;
           by eapply table_size_0_valid in Hent. }
  destruct Hent as [Hvep Hmax].
  destruct (Nat.eqb_spec (S (nb_point h1)) 1) as [E1|E1].
  { exfalso. rewrite M7, Hcnt in E1. apply (table_size_0_valid h ep); [clear -E1; lia|done]. }
  assert (Hepne : ep <> np).
  { intros ->. destruct Hvep as [pt Hpt]. congruence. }
  assert (Hvep0 : valid h0 ep) by (apply Hvalid0; by right).
  destruct Hvep0 as [ept Hept]. change (set_nb_point (S (nb_point h1)) h1) with h0.
  rewrite Hept. cbn [unwrap]. rewrite bind_Ok, Hnl.
  rewrite (Hflat ep Hvep). cbn [Nat.sub seq rev app descend]. rewrite bind_Ok. cbn beta iota zeta.
  assert (Hfresh : fresh dist h0 np data).
  { constructor; auto. exists (new_pt data oid np). done. }
  assert (Hlink0 : forall a b, link h 0 a b <-> link h0 0 a b).
  { intros a b. split; intros (pt & nbs & n & Hpt & Hn & Hin & <-).
    - exists pt, nbs, n. split_and!; auto. rewrite Hg0, Ho; [done|]. intros ->. congruence.
    - destruct (decide (a = np)) as [->|Hne].
      + rewrite Hg0, Hnew in Hpt. injection Hpt as <-. apply new_pt_nbs in Hn. subst nbs. by apply elem_of_nil in Hin.
      + exists pt, nbs, n. split_and!; auto. by rewrite <- Ho. }
  (* the layer search finds every old point *)
  cbn [connect]. change (ef_construction h0) with (ef_construction h1).
  intros Hins. apply bind_inv in Hins as (h2 & Hins & Hrest).
  apply bind_inv in Hins as (found & Hfound & Hins).
  destruct (search_layer_fresh dist so LAWS Hnn h0 np data ep (ef_construction h1) 0 Hfresh) as (hp & Hhp & (G1 & G2 & G3) & _).
  { change (max_layer h0) with (max_layer h1). rewrite M5. by apply generate_lt in Hgen. }
  { by exists ept. } { done. }
  rewrite Hfound in Hhp. injection Hhp as <-.
  assert (Hly0 : exists (pt0 : point (T:=T)) ly, points_by_layer h0 !! 0 = Some (pt0 :: ly)).
  { apply get_pt_lookup in Hept as (ly & Hly & Hep2). rewrite (Hflat ep Hvep) in Hly.
    destruct ly as [|pt0 ly]; [done|]. eauto. }
  destruct Hly0 as (pt0 & ly & Hly0).
  assert (Hreach : forall p, rtc (link h0 0) ep p -> valid h p).
  { intros p Hr. assert (Hg : forall a b, rtc (link h0 0) a b -> valid h a -> valid h b).
    { induction 1 as [|a b c Hab _ IH]; [done|]. intros Ha. apply IH.
      apply Hlink0 in Hab. destruct Hab as (pt & nbs & n & Hpt & Hn & Hin & <-).
      destruct (c_lists _ _ Hc _ _ _ _ Hpt Hn) as [_ _ _ Lref _]. rewrite Forall_forall in Lref.
      destruct (Lref n Hin) as (pt' & ? & _). by exists pt'. }
    by apply (Hg ep p Hr). }
  destruct (search_layer_exhaustive dist so LAWS Hnn h0 data ep ept (ef_construction h1) 0 None (pt0 :: ly) found)
    as [Hall _]; auto.
  { intros p pt Hr Hpt. destruct (core_links dist h0 0 Hc0 ltac:(unfold NB_LAYER_MAX; lia) p pt I Hpt) as (nbs & Hn & Hin).
    exists nbs. split; [done|]. intros n Hnin. split; [by apply Hin|].
    eapply rtc_r; [exact Hr|]. exists pt, nbs, n. done. }
  { intros ps Hnd Hps. rewrite M1. etransitivity; [|exact Hef]. apply valid_count; [done|].
    eapply Forall_impl; [exact Hps|]. simpl. intros p [_ Hp]. auto. }
  assert (Hfoundall : forall p, valid h p -> p ∈ n_pid <$> h_iter so found).
  { intros p Hv. destruct (proj2 (Hvalid0 p) (or_intror Hv)) as [pt Hpt].
    apply (Hall p pt); [|done|done].
    destruct (decide (p = ep)) as [->|Hne]; [apply rtc_refl|].
    apply rtc_once. apply Hlink0. apply Hcomp; auto. }
  clear Hall Hreach.
  (* all of them are selected *)
  apply bind_inv in Hins as ([h2' ep2] & Hcon & Hins). injection Hins as ->.
  unfold connect_use in Hcon.
  destruct (from_pos_spec dist so LAWS Hnn h0 data found G1) as (neg & Hneg & Hnegp).
  rewrite Hneg, bind_Ok in Hcon.
  assert (Hnlen : h_len so neg = length (h_iter so found)).
  { unfold h_len. rewrite Hnegp. by rewrite fmap_length. }
  assert (Hle : (length (h_iter so found) <= table_size h)%nat).
  { rewrite <- (fmap_length n_pid). apply valid_count; [done|].
    apply Forall_forall. intros p (n & -> & Hn)%elem_of_list_fmap.
    rewrite Forall_forall in G1, G3. destruct (G1 n Hn) as (pt & Hpt & _).
    assert (Hv : valid h0 (n_pid n)) by (by exists pt).
    apply Hvalid0 in Hv as [E|?]; [|done]. exfalso. by apply (G3 n Hn). }
  destruct (Nat.eqb_spec (h_len so neg) 0) as [E0|E0].
  { exfalso. rewrite Hnlen in E0. apply nil_length_inv in E0.
    specialize (Hfoundall ep Hvep). rewrite E0 in Hfoundall. by apply elem_of_nil in Hfoundall. }
  apply bind_inv in Hcon as (nv & Hsel & Hcon). apply bind_inv in Hcon as (h3 & Hupd & Hcon).
  injection Hcon as -> _.
  unfold select_neighbours in Hsel.
  change (nb_conn h0 0) with (2 * max_nb_connection h1)%nat in Hsel. rewrite M2 in Hsel.
  change (extend_c h0 0) with (extend_candidates h1) in Hsel. rewrite M3, Hext in Hsel.
  destruct (Nat.leb_spec (h_len so neg) (2 * max_nb_connection h)) as [_|?]; [|lia].
  simpl in Hsel.
  destruct (transfer_spec dist so LAWS Hnn h0 data (h_len so neg) neg []) as (nv' & Htr & Hnv).
  { rewrite Hnegp. apply Forall_fmap. eapply Forall_impl; [exact G1|]. intros n Hn. by apply negn_elt_cand. }
  { done. }
  rewrite Hsel in Htr. injection Htr as <-. simpl in Hnv.
  assert (Hnvp : n_pid <$> u_sort so nbr n_dist nv ≡ₚ n_pid <$> h_iter so found).
  { rewrite (law_usort_perm _ LAWS), Hnv, Hnegp. by rewrite !negn_pid. }
  set (nvs := u_sort so nbr n_dist nv) in *.
  destruct (upd_nbs_inv _ _ _ _ _ Hupd) as (npt & nbs0 & Hnpt & Hnbs0 & Hnp' & Ho' & Hst').
  assert (Hlink2 : forall a b, link h0 0 a b -> link h2 0 a b).
  { apply (link_upd _ _ _ _ _ Hupd). intros pt nbs n Hpt Hn Hin. rewrite Hg0, Hnew in Hpt.
    injection Hpt as <-. apply new_pt_nbs in Hn. subst nbs. by apply elem_of_nil in Hin. }
  assert (Hnew2 : forall p, valid h p -> link h2 0 np p).
  { intros p Hv. assert (Hin : p ∈ n_pid <$> nvs) by (rewrite Hnvp; auto).
    apply elem_of_list_fmap in Hin as (n & -> & Hin).
    eexists _, nvs, n. split; [exact Hnp'|]. split_and!; auto.
    simpl. apply list_lookup_insert. by eapply lookup_lt_Some. }
  destruct (connect_use_spec dist so LAWS Hnn h0 np data 0 found ep Hfresh) as (h2b & epb & Hcb & Hf2 & Hst2 & _ & _ & _).
  { unfold NB_LAYER_MAX; lia. } { done. } { by exists ept. } { done. }
  assert (h2b = h2) as ->.
  { unfold connect_use in Hcb. rewrite Hneg, bind_Ok in Hcb.
    destruct (Nat.eqb_spec (h_len so neg) 0) as [?|_]; [done|].
    apply bind_inv in Hcb as (nvb & Hselb & Hcb).
    unfold select_neighbours in Hselb.
    change (nb_conn h0 0) with (2 * max_nb_connection h1)%nat in Hselb. rewrite M2 in Hselb.
    change (extend_c h0 0) with (extend_candidates h1) in Hselb. rewrite M3, Hext in Hselb.
    destruct (Nat.leb_spec (h_len so neg) (2 * max_nb_connection h)) as [_|?]; [|lia].
    simpl in Hselb. rewrite Hsel in Hselb. injection Hselb as <-.
    fold nvs in Hcb. rewrite Hupd, bind_Ok in Hcb. by injection Hcb as ->. }
  (* reverse update *)
  apply bind_inv in Hrest as (h3 & Hrev & Hrest). injection Hrest as <-. apply Hcheck.
  unfold reverse_update in Hrev. rewrite Hnl in Hrev. cbn [seq rev app rev_layers] in Hrev.
  rewrite Hnp' in Hrev. simpl in Hrev.
  rewrite list_lookup_insert in Hrev by (by eapply lookup_lt_Some). simpl in Hrev.
  apply bind_inv in Hrev as (h3' & Hrev & E3). injection E3 as ->.
  assert (Hsz2 : table_size h2 = S (table_size h)).
  { rewrite (same_table_size _ _ Hst'). exact Hsz. }
  destruct (rev_many_flat nvs h2 np (set_pt_nbs npt 0 nvs) h3 (f_core _ _ _ _ Hf2) Hnp' Hnl) as [Hl3 Hl4]; [..|done|].
  { rewrite Hsz2. destruct Hst' as ((_ & -> & _) & _). change (max_nb_connection h0) with (max_nb_connection h1).
    rewrite M2. lia. }
  { destruct (c_lists _ _ (f_core _ _ _ _ Hf2) np (set_pt_nbs npt 0 nvs) 0 nvs Hnp') as [_ _ _ Lref _]; [|done].
    simpl. apply list_lookup_insert. by eapply lookup_lt_Some. }
  { rewrite Hnvp. intros (n & E & Hn)%elem_of_list_fmap. rewrite Forall_forall in G3. by apply (G3 n Hn). }
  assert (Hv3 : forall p, valid h3 p <-> p = np \/ valid h p).
  { intros p. rewrite <- Hvalid0, <- (same_table_valid _ _ _ Hst').
    destruct (rev_many_spec dist so LAWS nvs h2 np (set_pt_nbs npt 0 nvs) (f_core _ _ _ _ Hf2) Hnp') as (h4 & Hh4 & _ & Hst4 & _).
    - destruct (c_lists _ _ (f_core _ _ _ _ Hf2) np (set_pt_nbs npt 0 nvs) 0 nvs Hnp') as [_ _ _ Lref _]; [|done].
      simpl. apply list_lookup_insert. by eapply lookup_lt_Some.
    - rewrite Hrev in Hh4. injection Hh4 as <-. by apply same_table_valid. }
  split.
  - intros p [->|Hv]%Hv3; [done|auto].
  - intros p p' [->|Hv]%Hv3 [->|Hv']%Hv3 Hne; [done|..].
    + apply Hl3. auto.
    + assert (Hin : p ∈ n_pid <$> nvs) by (rewrite Hnvp; auto).
      apply elem_of_list_fmap in Hin as (n & -> & Hin). auto.
    + apply Hl3, Hlink2, Hlink0. auto.
Qed.

(** ** k nearest *)
Lemma knearest k (L : list nbr) (R : list pid) (dR : pid -> Z) :
  sorted_by n_dist L -> NoDup (n_pid <$> L) -> NoDup R ->
  Forall (fun x => n_dist x = dR (n_pid x)) L ->
  (forall x, x ∈ L -> n_pid x ∈ R) ->
  (forall p, p ∈ R -> p ∈ n_pid <$> L \/ ((k <= length L)%nat /\ Forall (fun x => (n_dist x <= dR p)%Z) L)) ->
  exists ds, ds ≡ₚ dR <$> R /\ sorted_by id ds /\ n_dist <$> take k L = take k ds.
Proof.
  intros HS Hnd HR HdL Hsub Hall.
  set (rest := filter (fun p => p ∉ n_pid <$> L) R).
  assert (HRp : R ≡ₚ (n_pid <$> L) ++ rest).
  { apply NoDup_Permutation; [done|..].
    - apply NoDup_app. split_and!; [done| |by apply NoDup_filter].
      intros p Hp Hp'. unfold rest in Hp'. apply elem_of_list_filter in Hp' as [? _]. done.
    - intros p. rewrite elem_of_app. unfold rest. rewrite elem_of_list_filter. split.
      + intros Hp. destruct (decide (p ∈ n_pid <$> L)); [by left|by right].
      + intros [(x & -> & Hx)%elem_of_list_fmap|[_ ?]]; auto. }
  assert (HdL' : n_dist <$> L = dR <$> (n_pid <$> L)).
  { clear -HdL. induction HdL as [|x L Hx _ IH]; csimpl; [done|]. by rewrite Hx, IH. }
  pose proof (law_usort_perm _ LAWS Z id (dR <$> rest)) as Hsp.
  pose proof (law_usort _ LAWS Z id (dR <$> rest)) as Hss.
  set (sr := u_sort so Z id (dR <$> rest)) in *.
  exists ((n_dist <$> L) ++ sr). split_and!.
  - rewrite HRp, fmap_app, <- HdL'. by rewrite Hsp.
  - assert (Hle : forall x p, x ∈ L -> p ∈ rest -> (n_dist x <= dR p)%Z).
    { intros x p Hx Hp. unfold rest in Hp. apply elem_of_list_filter in Hp as [Hp1 Hp2].
      destruct (Hall p Hp2) as [?|[_ Hf]]; [done|]. rewrite Forall_forall in Hf. auto. }
    assert (Hle2 : forall x d, x ∈ L -> d ∈ sr -> (n_dist x <= d)%Z).
    { intros x d Hx Hd. rewrite Hsp in Hd. apply elem_of_list_fmap in Hd as (p & -> & Hp). auto. }
    clearbody sr. clear -HS Hss Hle2. induction HS as [|x L HS IH Hf]; csimpl; [done|].
    constructor.
    + apply IH. intros y d Hy. apply Hle2. by right.
    + apply Forall_app. split.
      * apply Forall_fmap. eapply Forall_impl; [exact Hf|]. simpl. done.
      * apply Forall_forall. intros d Hd. apply Hle2; [left|done].
  - rewrite fmap_take. destruct rest as [|p rest'] eqn:Er.
    + assert (sr = []) as -> by (unfold sr; apply Permutation_nil; symmetry; exact Hsp).
      by rewrite app_nil_r.
    + assert (Hk : (k <= length L)%nat).
      { assert (Hp : p ∈ rest) by (rewrite Er; left). unfold rest in Hp.
        apply elem_of_list_filter in Hp as [Hp1 Hp2]. destruct (Hall p Hp2) as [?|[? _]]; done. }
      rewrite take_app_le; [done|]. by rewrite fmap_length.
Qed.

(** distance from the query to a stored point *)
Definition pdist h q p : Z := match get_pt h p with Some pt => dist q (pt_data pt) | None => 0%Z end.

Lemma elt_ok_pdist h q l : Forall (elt_ok dist h q) l -> Forall (fun x => n_dist x = pdist h q (n_pid x)) l.
Proof.
  intros H. eapply Forall_impl; [exact H|]. intros x (pt & Hpt & Hd). unfold pdist. by rewrite Hpt.
Qed.

Lemma stored_dists h q :
  pdist h q <$> pids_from 0 (points_by_layer h) = (fun vi => dist q vi.1) <$> stored h.
Proof.
  rewrite stored_static.
  assert (Hv : forall p, p ∈ pids_from 0 (points_by_layer h) -> valid h p) by (intros p; apply elem_of_pids).
  induction (pids_from 0 (points_by_layer h)) as [|p ps IH]; [done|].
  csimpl. destruct (Hv p) as [pt Hpt]; [left|]. unfold static at 1, pdist at 1. rewrite Hpt. csimpl.
  f_equal. apply IH. intros p' Hp'. apply Hv. by right.
Qed.

(** the answers of a search are the [k] first of the sorted content of the heap *)
Lemma dists_of_answers (res : list neighbour) (L : list nbr) k :
  distance <$> res = n_dist <$> take k L -> forall ds, n_dist <$> take k L = take k ds -> distance <$> res = take k ds.
Proof. intros -> ds ->. done. Qed.

Lemma search_flat h q k efa ep :
  wf h -> complete h -> entry_point h = Some ep ->
  exists res ds, search_filter dist so h q k efa None = Ok res /\
    ds ≡ₚ (fun vi => dist q vi.1) <$> stored h /\ sorted_by id ds /\ distance <$> res = take k ds.
Proof.
  intros Hwf [Hflat Hcomp] Hep.
  destruct (search_filter_run dist so LAWS Hnn h q k efa None ep (wf_lwf _ _ Hwf) Hep ltac:(by left)) as
    (pv & pvt & ept & l & ly & hp & res & Hept & Hpvt & Hle & Hly & Hlyne & Hl16 & Hlow & Hfp & Hsl & Hs & R1 & R2 & R3 & R4 & R5 & A1 & A2 & A3).
  pose proof Hwf as [Hc Hcnt Hent]. rewrite Hep in Hent. destruct Hent as [Hvep Hmax].
  assert (l = 0%nat) as ->.
  { destruct l as [|l]; [done|]. exfalso. specialize (Hlow 0%nat ltac:(lia)).
    apply get_pt_lookup in Hept as (ly0 & Hly0 & Hp0). rewrite (Hflat ep Hvep), Hlow in Hly0.
    injection Hly0 as <-. done. }
  destruct (search_layer_top dist so LAWS Hnn h q pv pvt (Nat.max efa k) 0 None ly hp (fun _ => True)) as
    (vis & Hpvis & Hvis & Hret & Htop); auto.
  { by apply (core_links dist). }
  assert (Hall : forall p, valid h p -> p ∈ vis).
  { intros p Hp. destruct (decide (p = pv)) as [->|Hne]; [done|]. apply Hvis, Hcomp; auto. by exists pvt. }
  destruct (knearest k (h_sorted so hp) (pids_from 0 (points_by_layer h)) (pdist h q)) as (ds & D1 & D2 & D3).
  - apply (law_sorted _ LAWS).
  - by rewrite (law_sorted_perm _ LAWS).
  - apply NoDup_pids_from.
  - rewrite (law_sorted_perm _ LAWS). by apply elt_ok_pdist.
  - intros x Hx. apply elem_of_pids. rewrite (law_sorted_perm _ LAWS) in Hx.
    rewrite Forall_forall in R1. destruct (R1 x Hx) as (pt & Hpt & _). by exists pt.
  - intros p Hp. apply elem_of_pids in Hp as Hv. destruct Hv as [pt Hpt].
    destruct (Htop p pt) as [Hin|[Hfull Hf]]; [apply Hall; by exists pt|done|done|..].
    + left. by rewrite (law_sorted_perm _ LAWS).
    + right. rewrite (law_sorted_perm _ LAWS). split.
      * unfold h_len in Hfull. clear -Hfull. lia.
      * unfold pdist. by rewrite Hpt.
  - exists res, ds. split_and!; auto.
    + by rewrite <- stored_dists.
    + by rewrite A3.
Qed.

(** ** Exhaustive search *)
Lemma search_exhaustive h q k efa filter ep :
  wf h -> entry_point h = Some ep -> (table_size h <= Nat.max efa k)%nat ->
  exists pv l RA res, find_pivot dist h q ep = Ok pv /\ layer_to_search h = Ok l /\ NoDup RA /\
    (forall p, p ∈ RA <-> rtc (link h l) pv p /\ exists pt, get_pt h p = Some pt /\ passes filter pt) /\
    search_filter dist so h q k efa filter = Ok res /\
    (RA <> [] -> (forall a, a ∈ res -> p_id a ∈ RA) /\
       exists ds, ds ≡ₚ pdist h q <$> RA /\ sorted_by id ds /\ distance <$> res = take k ds) /\
    (RA = [] -> exists flt, filter = Some flt /\ p_id <$> res = take k [pv]).
Proof.
  intros Hwf Hep Hbig.
  assert (Hsz : (1 <= table_size h)%nat).
  { pose proof Hwf as [Hc Hcnt Hent]. rewrite Hep in Hent. destruct Hent as [Hvep Hmax].
    apply (valid_count h [ep]); [apply NoDup_singleton|by repeat constructor]. }
  destruct (search_filter_run dist so LAWS Hnn h q k efa filter ep (wf_lwf _ _ Hwf) Hep ltac:(right; lia)) as
    (pv & pvt & ept & l & ly & hp & res & Hept & Hpvt & Hle & Hly & Hlyne & Hl16 & Hlow & Hfp & Hsl & Hs & R1 & R2 & R3 & R4 & R5 & A1 & A2 & A3).
  pose proof Hwf as [Hc Hcnt Hent].
  assert (Hls : layer_to_search h = Ok l).
  { destruct (layer_to_search_spec h pv ltac:(by exists pvt)) as (l' & ly' & E & Hly' & Hne' & _ & Hlow').
    rewrite E. f_equal. destruct (Nat.lt_total l l') as [H|[H|H]]; [|done|].
    - specialize (Hlow' l H). congruence.
    - specialize (Hlow l' H). congruence. }
  destruct (search_layer_exhaustive dist so LAWS Hnn h q pv pvt (Nat.max efa k) l filter ly hp) as [Hall Hreach]; auto.
  { intros p pt Hr Hpt. destruct (core_links dist h l Hc Hl16 p pt I Hpt) as (nbs & Hn & Hin).
    exists nbs. split; [done|]. intros n Hnin. split; [by apply Hin|].
    eapply rtc_r; [exact Hr|]. exists pt, nbs, n. done. }
  { right. lia. }
  { intros ps Hnd Hps. etransitivity; [|exact Hbig]. apply valid_count; [done|].
    eapply Forall_impl; [exact Hps|]. by intros p [? _]. }
  assert (Hcases : Forall (fun x => exists pt, get_pt h (n_pid x) = Some pt /\ passes filter pt) (h_iter so hp) \/
     exists flt x, filter = Some flt /\ h_iter so hp = [x] /\ n_pid x = pv /\ flt (pt_oid pvt) = false).
  { unfold flt_ok in R5. destruct filter as [flt|].
    - destruct R5 as [R5|(x & Hx & E)]; [by left|].
      destruct (flt (pt_oid pvt)) eqn:Ef.
      + left. rewrite Hx. repeat constructor. exists pvt. by rewrite E.
      + right. exists flt, x. done.
    - left. eapply Forall_impl; [exact R1|]. intros x (pt & Hpt & _). by exists pt. }
  destruct Hcases as [Hacc|(flt & x & -> & Hx & E & Hrej)].
  - exists pv, l, (n_pid <$> h_iter so hp), res. split_and!; auto.
    + intros p. split.
      * intros (x & -> & Hx)%elem_of_list_fmap. rewrite Forall_forall in Hacc, Hreach. auto.
      * intros [Hr (pt & Hpt & Hps)]. by eapply Hall.
    + intros _. split.
      * intros a Ha. assert (Hin : p_id a ∈ p_id <$> res) by (apply elem_of_list_fmap; eauto).
        rewrite A2 in Hin. apply elem_of_list_fmap in Hin as (n & -> & Hn).
        apply elem_of_take in Hn as (i & Hn & _). apply elem_of_list_lookup_2 in Hn.
        rewrite (law_sorted_perm _ LAWS) in Hn. apply elem_of_list_fmap. eauto.
      * destruct (knearest k (h_sorted so hp) (n_pid <$> h_iter so hp) (pdist h q)) as (ds & D1 & D2 & D3); auto.
        -- apply (law_sorted _ LAWS).
        -- by rewrite (law_sorted_perm _ LAWS).
        -- rewrite (law_sorted_perm _ LAWS). by apply elt_ok_pdist.
        -- intros x Hx. rewrite (law_sorted_perm _ LAWS) in Hx. apply elem_of_list_fmap. eauto.
        -- intros p Hp. left. by rewrite (law_sorted_perm _ LAWS).
        -- exists ds. split_and!; auto. by rewrite A3.
    + intros Hnil. exfalso. apply R3. by apply fmap_nil_inv in Hnil.
  - exists pv, l, [], res. split_and!; auto.
    + constructor.
    + intros p. split; [by intros ?%elem_of_nil|].
      intros [Hr (pt & Hpt & Hps)]. specialize (Hall p pt Hr Hpt Hps).
      rewrite Hx in Hall. csimpl in Hall. apply elem_of_list_singleton in Hall as ->.
      rewrite E in Hpt. rewrite Hpvt in Hpt. injection Hpt as <-. simpl in Hps. congruence.
    + done.
    + intros _. exists flt. split; [done|]. rewrite A2.
      assert (Hsx : h_sorted so hp = [x]).
      { apply singleton_perm. by rewrite (law_sorted_perm _ LAWS), Hx. }
      rewrite Hsx, fmap_take. csimpl. by rewrite E.
Qed.

End Flat.
