(** Invariants of the point table under insertion. *)
From Verif Require Import Prelude Model Lib Table SearchProofs SelectProofs.

Section Insert.
Context {T : Type} (dist : list T -> list T -> Z) (so : StdOps).
Context (LAWS : StdLaws so) (Hnn : forall a b, (0 <= dist a b)%Z).
Implicit Types (h : hnsw (T:=T)) (p np ep : pid).

Lemma new_pt_nbs (d : list T) o p l nbs :
  pt_nbs (new_pt d o p) !! l = Some nbs -> nbs = [].
Proof. unfold new_pt. cbn [pt_nbs]. by intros [-> _]%lookup_replicate. Qed.

(** A neighbour list at layer [l] of the point [p] whose vector is [pd]. *)
Record list_ok h p (pd : list T) (l : nat) (nbs : list nbr) : Prop := {
  lo_nd : NoDup (n_pid <$> nbs);
  lo_sorted : sorted_by n_dist nbs;
  lo_self : p ∉ n_pid <$> nbs;
  lo_ref : Forall (fun n => exists q, get_pt h (n_pid n) = Some q /\
             (n_dist n = dist pd (pt_data q) \/ n_dist n = dist (pt_data q) pd)) nbs;
  lo_cap : (length nbs <= nb_conn h l)%nat
}.

Record core h : Prop := {
  c_len : length (points_by_layer h) = max_layer h;
  c_max : (max_layer h <= NB_LAYER_MAX)%nat;
  c_M : (max_nb_connection h <= 256)%nat;
  c_pt : forall p pt, get_pt h p = Some pt -> pt_pid pt = p /\ length (pt_nbs pt) = NB_LAYER_MAX;
  c_lists : forall p pt l nbs, get_pt h p = Some pt -> pt_nbs pt !! l = Some nbs ->
              list_ok h p (pt_data pt) l nbs
}.

(** no list refers to [np] *)
Definition unref h np : Prop :=
  forall p pt l nbs, get_pt h p = Some pt -> pt_nbs pt !! l = Some nbs -> np ∉ n_pid <$> nbs.

(** tables that only grow *)
Definition grows h h' : Prop :=
  max_nb_connection h' = max_nb_connection h /\
  forall p s, static h p = Some s -> static h' p = Some s.

Lemma grows_refl h : grows h h.
Proof. by split. Qed.
Lemma grows_trans h1 h2 h3 : grows h1 h2 -> grows h2 h3 -> grows h1 h3.
Proof. intros [E1 H1] [E2 H2]. split; [congruence|eauto]. Qed.

Lemma same_table_grows h h' : same_table h h' -> grows h h'.
Proof.
  intros (Hm & _ & Hs). split; [apply Hm|]. intros p s. by rewrite Hs.
Qed.

Lemma grows_get h h' p pt : grows h h' -> get_pt h p = Some pt ->
  exists pt', get_pt h' p = Some pt' /\ pt_data pt' = pt_data pt /\ pt_oid pt' = pt_oid pt /\
    pt_pid pt' = pt_pid pt.
Proof.
  intros [_ Hs] Hg. specialize (Hs p (pt_data pt, pt_oid pt, pt_pid pt)). unfold static in Hs.
  rewrite Hg in Hs. specialize (Hs eq_refl).
  destruct (get_pt h' p) as [pt'|]; [|done]. injection Hs as E1 E2 E3. eauto 10.
Qed.

Lemma grows_valid h h' p : grows h h' -> valid h p -> valid h' p.
Proof.
  intros Hgr [pt Hpt]. destruct (grows_get h h' p pt Hgr Hpt) as (pt' & ? & _). by exists pt'.
Qed.

Lemma list_ok_grows h h' p pd l nbs : grows h h' -> list_ok h p pd l nbs -> list_ok h' p pd l nbs.
Proof.
  intros Hgr []. constructor; auto.
  - eapply Forall_impl; [done|]. intros n (q & Hq & Hd).
    destruct (grows_get _ _ _ _ Hgr Hq) as (q' & Hq' & E & _). exists q'. rewrite E. done.
  - unfold nb_conn in *. destruct Hgr as [-> _]. done.
Qed.

Lemma elt_ok_grows h h' q n : grows h h' -> elt_ok dist h q n -> elt_ok dist h' q n.
Proof.
  intros Hgr (pt & Hpt & Hd). destruct (grows_get _ _ _ _ Hgr Hpt) as (q' & Hq' & E & _).
  exists q'. rewrite E. done.
Qed.

Lemma cand_ok_grows h h' q n : grows h h' -> cand_ok dist h q n -> cand_ok dist h' q n.
Proof.
  intros Hgr (pt & Hpt & Hd). destruct (grows_get _ _ _ _ Hgr Hpt) as (q' & Hq' & E & _).
  exists q'. rewrite E. done.
Qed.

Lemma core_upd h h' p l f :
  core h -> upd_nbs h p l f = Ok h' ->
  (forall pt nbs, get_pt h p = Some pt -> pt_nbs pt !! l = Some nbs ->
      list_ok h p (pt_data pt) l (f nbs)) ->
  core h' /\ same_table h h'.
Proof.
  intros Hc Hu Hl. destruct (upd_nbs_inv _ _ _ _ _ Hu) as (pt & nbs & Hg & Hn & Hg' & Ho & Hst).
  split; [|done]. pose proof (same_table_grows _ _ Hst) as Hgr.
  pose proof Hst as (Hm & Hlen & _). destruct Hm as (_ & HM & _ & _ & HL & _).
  constructor.
  - rewrite HL, <- (c_len _ Hc). rewrite <- (fmap_length length (points_by_layer h')), Hlen.
    by rewrite fmap_length.
  - rewrite HL. by apply c_max.
  - rewrite HM. by apply c_M.
  - intros p' pt' Hp'. destruct (decide (p' = p)) as [->|Hne].
    + rewrite Hg' in Hp'. injection Hp' as <-. simpl. rewrite insert_length. by apply (c_pt _ Hc).
    + rewrite Ho in Hp' by done. by apply (c_pt _ Hc).
  - intros p' pt' l' nbs' Hp' Hn'. destruct (decide (p' = p)) as [->|Hne].
    + rewrite Hg' in Hp'. injection Hp' as <-. simpl in *.
      destruct (decide (l' = l)) as [->|Hne].
      * rewrite list_lookup_insert in Hn' by (by eapply lookup_lt_Some). injection Hn' as <-.
        eapply list_ok_grows; [done|]. eauto.
      * rewrite list_lookup_insert_ne in Hn' by done.
        eapply list_ok_grows; [done|]. by eapply c_lists.
    + rewrite Ho in Hp' by done. eapply list_ok_grows; [done|]. by eapply c_lists.
Qed.

Lemma unref_upd h h' p l f np :
  unref h np -> upd_nbs h p l f = Ok h' ->
  (forall pt nbs, get_pt h p = Some pt -> pt_nbs pt !! l = Some nbs -> np ∉ n_pid <$> f nbs) ->
  unref h' np.
Proof.
  intros Hu Hupd Hf. destruct (upd_nbs_inv _ _ _ _ _ Hupd) as (pt & nbs & Hg & Hn & Hg' & Ho & Hst).
  intros p' pt' l' nbs' Hp' Hn'. destruct (decide (p' = p)) as [->|Hne].
  - rewrite Hg' in Hp'. injection Hp' as <-. simpl in *.
    destruct (decide (l' = l)) as [->|Hne].
    + rewrite list_lookup_insert in Hn' by (by eapply lookup_lt_Some). injection Hn' as <-. eauto.
    + rewrite list_lookup_insert_ne in Hn' by done. eauto.
  - rewrite Ho in Hp' by done. eauto.
Qed.

Lemma core_nbs h p pt l :
  core h -> get_pt h p = Some pt -> (l < NB_LAYER_MAX)%nat -> exists nbs, pt_nbs pt !! l = Some nbs.
Proof.
  intros Hc Hp Hl. apply lookup_lt_is_Some. destruct (c_pt _ Hc _ _ Hp) as [_ ->]. done.
Qed.

Lemma core_layer h p : core h -> valid h p -> (p.1 < max_layer h)%nat /\ (p.1 < NB_LAYER_MAX)%nat.
Proof.
  intros Hc [pt (ly & Hly & _)%get_pt_lookup]. apply lookup_lt_Some in Hly.
  rewrite (c_len _ Hc) in Hly. pose proof (c_max _ Hc). lia.
Qed.

Lemma core_links h l : core h -> (l < NB_LAYER_MAX)%nat -> links_ok h l (fun _ => True).
Proof.
  intros Hc Hl p pt _ Hp. destruct (core_nbs _ _ _ _ Hc Hp Hl) as [nbs Hn]. exists nbs.
  split; [done|]. intros n Hin. split; [|done].
  destruct (c_lists _ Hc _ _ _ _ Hp Hn). rewrite Forall_forall in lo_ref0.
  destruct (lo_ref0 n Hin) as (q & Hq & _). by exists q.
Qed.

Lemma core_links_ne h l np :
  core h -> unref h np -> (l < NB_LAYER_MAX)%nat -> links_ok h l (fun p => p <> np).
Proof.
  intros Hc Hu Hl p pt _ Hp. destruct (core_links _ _ Hc Hl p pt I Hp) as (nbs & Hn & Hin).
  exists nbs. split; [done|]. intros n Hn'. split; [by apply Hin|].
  intros <-. eapply (Hu _ _ _ _ Hp Hn). apply elem_of_list_fmap. eauto.
Qed.

(** ** New points *)
Lemma core_push h data oid level h' p :
  core h -> push_point h data oid level = Ok (h', p) ->
  core h' /\ unref h' p /\ grows h h'.
Proof.
  intros Hc Hpush.
  destruct (push_point_inv _ _ _ _ _ _ Hpush) as (Hlev & Hlt & Hnone & Hnew & Ho & Hm & Hlen & _).
  assert (Hgr : grows h h').
  { split; [apply Hm|]. intros p' s. unfold static. destruct (decide (p' = p)) as [->|Hne].
    - by rewrite Hnone.
    - by rewrite Ho. }
  destruct Hm as (_ & HM & _ & _ & HL & _).
  assert (Hu : unref h' p).
  { intros p' pt l nbs Hp' Hn. destruct (decide (p' = p)) as [->|Hne].
    - rewrite Hnew in Hp'. injection Hp' as <-.
      apply new_pt_nbs in Hn as ->. simpl. apply not_elem_of_nil.
    - rewrite Ho in Hp' by done. pose proof (c_lists _ Hc _ _ _ _ Hp' Hn) as [].
      intros (n & -> & Hin)%elem_of_list_fmap. rewrite Forall_forall in lo_ref0.
      destruct (lo_ref0 n Hin) as (q & Hq & _). congruence. }
  split; [|done].
  constructor.
  - rewrite Hlen, HL. by apply c_len.
  - rewrite HL. by apply c_max.
  - rewrite HM. by apply c_M.
  - intros p' pt' Hp'. destruct (decide (p' = p)) as [->|Hne].
    + rewrite Hnew in Hp'. injection Hp' as <-. simpl. done.
    + rewrite Ho in Hp' by done. by apply (c_pt _ Hc).
  - intros p' pt' l' nbs' Hp' Hn'. destruct (decide (p' = p)) as [->|Hne].
    + rewrite Hnew in Hp'. injection Hp' as <-.
      apply new_pt_nbs in Hn' as ->.
      constructor; simpl; try constructor; [apply not_elem_of_nil|lia].
    + rewrite Ho in Hp' by done. eapply list_ok_grows; [done|]. by eapply c_lists.
Qed.

Lemma core_meta h h' :
  points_by_layer h' = points_by_layer h -> max_layer h' = max_layer h ->
  max_nb_connection h' = max_nb_connection h -> core h -> core h'.
Proof.
  intros E1 E2 E3 [].
  assert (Hg : forall p, get_pt h' p = get_pt h p) by (intros p; unfold get_pt; by rewrite E1).
  constructor; rewrite ?E1, ?E2, ?E3; auto.
  - intros p pt. rewrite Hg. auto.
  - intros p pt l nbs. rewrite Hg. intros Hp Hn. destruct (c_lists0 _ _ _ _ Hp Hn).
    constructor; auto.
    + eapply Forall_impl; [done|]. intros n. by rewrite Hg.
    + unfold nb_conn in *. by rewrite E3.
Qed.

(** ** Own lists of the new point *)

(** the part of [h] that an insertion of [np] may rely on while it is not yet linked *)
Record fresh h np (data : list T) : Prop := {
  f_core : core h;
  f_unref : unref h np;
  f_pt : exists npt, get_pt h np = Some npt /\ pt_data npt = data
}.

Definition own_list h np l : option (list nbr) := get_pt h np ≫= fun npt => pt_nbs npt !! l.

Lemma own_list_upd h h' np l f l' :
  upd_nbs h np l f = Ok h' ->
  own_list h' np l' = if decide (l' = l) then f <$> own_list h np l else own_list h np l'.
Proof.
  intros Hu. destruct (upd_nbs_inv _ _ _ _ _ Hu) as (pt & nbs & Hg & Hn & Hg' & Ho & Hst).
  unfold own_list. rewrite Hg', Hg. simpl. destruct (decide (l' = l)) as [->|Hne].
  - rewrite list_lookup_insert by (by eapply lookup_lt_Some). by rewrite Hn.
  - by rewrite list_lookup_insert_ne.
Qed.

Lemma fresh_upd h h' np data l nv :
  fresh h np data -> upd_nbs h np l (fun _ => nv) = Ok h' ->
  (length nv <= nb_conn h l)%nat -> sorted_by n_dist nv ->
  elts_good dist h data (fun p => p <> np) nv ->
  fresh h' np data /\ same_table h h'.
Proof.
  intros [Hc Hu (npt & Hnp & Hd)] Hupd Hcap Hs (G1 & G2 & G3).
  assert (Hnotin : np ∉ n_pid <$> nv).
  { intros (n & -> & Hn)%elem_of_list_fmap. rewrite Forall_forall in G3. by apply (G3 n). }
  destruct (core_upd h h' np l (fun _ => nv) Hc Hupd) as [Hc' Hst].
  { intros pt nbs Hpt Hn. rewrite Hnp in Hpt. injection Hpt as <-. constructor; auto.
    eapply Forall_impl; [exact G1|]. intros n (q & Hq & Hdq). exists q. rewrite Hd. auto. }
  split; [|done]. constructor; auto.
  - eapply unref_upd; [done..|]. auto.
  - destruct (same_table_get _ _ _ _ Hst Hnp) as (pt' & ? & E & _). exists pt'. split; [done|congruence].
Qed.

Lemma upd_nbs_const h np l f npt nbs :
  get_pt h np = Some npt -> pt_nbs npt !! l = Some nbs ->
  upd_nbs h np l f = upd_nbs h np l (fun _ => f nbs).
Proof.
  intros (ly & Hly & Hpt)%get_pt_lookup Hn. unfold upd_nbs.
  rewrite Hly. simpl. rewrite Hpt. simpl. rewrite Hn. done.
Qed.

Lemma fresh_nbs h np data l : fresh h np data -> (l < NB_LAYER_MAX)%nat ->
  exists npt nbs, get_pt h np = Some npt /\ pt_nbs npt !! l = Some nbs /\ own_list h np l = Some nbs.
Proof.
  intros [Hc Hu (npt & Hnp & Hd)] Hl. destruct (core_nbs _ _ _ _ Hc Hnp Hl) as [nbs Hn].
  exists npt, nbs. split_and!; auto. unfold own_list. by rewrite Hnp.
Qed.

(** result of a layer search as seen by insertion *)
Definition found_ok h np data (hp : heap so) : Prop :=
  elts_good dist h data (fun p => p <> np) (h_iter so hp).

Lemma descend_use_spec h np data l hp ep dte :
  fresh h np data -> (l < NB_LAYER_MAX)%nat -> own_list h np l = Some [] ->
  found_ok h np data hp -> (h_len so hp <= 1)%nat -> valid h ep -> ep <> np ->
  exists h' ep' dte', descend_use dist so h np data l hp ep dte = Ok (h', ep', dte') /\
    fresh h' np data /\ same_table h h' /\ valid h' ep' /\ ep' <> np /\
    (forall l', l' <> l -> own_list h' np l' = own_list h np l').
Proof.
  intros Hf Hl Hown (G1 & G2 & G3) Hlen Hep Hne. unfold descend_use.
  destruct (Nat.ltb_spec 1 (h_len so hp)) as [?|_]; [lia|].
  destruct (h_pop so hp) as [[e r]|] eqn:E.
  2: { exists h, ep, dte. split_and!; auto. apply same_table_refl. }
  destruct (law_pop_some _ LAWS _ _ _ E) as [Hp _].
  rewrite Hp in G1, G3. inversion G1 as [|? ? (ept & Hept & Hed) _]; subst.
  inversion G3; subst.
  destruct (fresh_nbs _ _ _ l Hf Hl) as (npt & nbs & Hnp & Hn & Ho).
  rewrite Hown in Ho. injection Ho as <-.
  unfold push_upper.
  rewrite (upd_nbs_const _ _ _ _ _ _ Hnp Hn).
  set (nv := if (length (@nil nbr) <? get_max_nb_connection h)%nat then [] ++ [e] else []).
  destruct (upd_nbs_ok h np l (fun _ => nv) _ _ Hnp Hn) as [h' Hh'].
  rewrite Hh'. rewrite bind_Ok.
  destruct (fresh_upd h h' np data l nv Hf Hh') as [Hf' Hst].
  { unfold nv. destruct (Nat.ltb_spec (length (@nil nbr)) (get_max_nb_connection h)) as [Hlt|]; simpl in *; [|lia].
    unfold get_max_nb_connection in Hlt. unfold nb_conn.
    assert (1 <= max_nb_connection h)%nat.
    { destruct (max_nb_connection h) eqn:E0; [|lia]. rewrite Nat.mod_0_l in Hlt; lia. }
    destruct (l =? 0)%nat; lia. }
  { unfold nv. destruct (_ <? _)%nat; repeat constructor. }
  { unfold nv. destruct (_ <? _)%nat; simpl; split_and!; repeat constructor; try apply not_elem_of_nil; auto.
    exists ept. done. }
  destruct (same_table_get _ _ _ _ Hst Hept) as (ept' & Hept' & _).
  rewrite Hept'. simpl.
  assert (Hown' : forall l', l' <> l -> own_list h' np l' = own_list h np l').
  { intros l' Hl'. rewrite (own_list_upd _ _ _ _ _ _ Hh'). by rewrite decide_False. }
  destruct (_ <? dte)%Z.
  - eexists h', _, _. split; [done|]. split_and!; auto. by exists ept'.
  - eexists h', _, _. split; [done|]. split_and!; auto. by apply (same_table_valid _ _ _ Hst).
Qed.

Lemma search_layer_fresh h np data ep ef l :
  fresh h np data -> (l < max_layer h)%nat -> valid h ep -> ep <> np ->
  exists hp, search_layer dist so h data ep ef l None = Ok hp /\ found_ok h np data hp /\
    (h_len so hp <= Nat.max 1 ef)%nat.
Proof.
  intros [Hc Hu _] Hl [ept Hep] Hne.
  assert (Hl16 : (l < NB_LAYER_MAX)%nat) by (pose proof (c_max _ Hc); lia).
  rewrite <- (c_len _ Hc) in Hl. apply lookup_lt_is_Some in Hl as [ly Hly].
  destruct ly as [|p0 ly].
  - unfold search_layer. rewrite Hly. eexists. split; [done|].
    unfold found_ok, elts_good, h_len. rewrite (law_iter_empty _ LAWS). simpl.
    split; [split_and!; constructor|lia].
  - destruct (search_layer_spec dist so LAWS Hnn h data ep ept ef l None (p0 :: ly) (fun p => p <> np))
      as (ret & -> & R1 & R2 & R3 & R4 & _); auto.
    { by apply core_links_ne. }
    exists ret. split_and!; auto. split_and!; auto.
Qed.

Lemma descend_spec ls h np data ep dte :
  fresh h np data -> valid h ep -> ep <> np ->
  NoDup ls -> (forall l, l ∈ ls -> (l < max_layer h)%nat /\ own_list h np l = Some []) ->
  exists h' ep', descend dist so ls h np data ep dte = Ok (h', ep') /\
    fresh h' np data /\ same_table h h' /\ valid h' ep' /\ ep' <> np.
Proof.
  revert h ep dte. induction ls as [|l ls IH]; intros h ep dte Hf Hep Hne Hnd Hls; simpl.
  - exists h, ep. split_and!; auto. apply same_table_refl.
  - destruct (Hls l) as [Hl Hown]; [left|].
    destruct (search_layer_fresh h np data ep 1 l Hf Hl Hep Hne) as (hp & -> & Hfound & Hlen).
    rewrite bind_Ok. inversion Hnd; subst.
    assert (Hl16 : (l < NB_LAYER_MAX)%nat) by (pose proof (c_max _ (f_core _ _ _ Hf)); lia).
    destruct (descend_use_spec h np data l hp ep dte) as (h1 & ep1 & dte1 & -> & Hf1 & Hst1 & Hep1 & Hne1 & Hown1); auto.
    rewrite bind_Ok.
    destruct (IH h1 ep1 dte1) as (h' & ep' & -> & ? & Hst2 & ? & ?); auto.
    + intros l' Hl'. destruct (Hls l') as [? Ho]; [by right|].
      destruct Hst1 as (Hm & _). destruct Hm as (_ & _ & _ & _ & -> & _). split; [done|].
      rewrite Hown1; [done|]. by intros ->.
    + exists h', ep'. split_and!; auto. by eapply same_table_trans.
Qed.

Lemma elts_good_usort h q S nv :
  elts_good dist h q S nv -> elts_good dist h q S (u_sort so nbr n_dist nv).
Proof.
  intros (?&?&?). pose proof (law_usort_perm _ LAWS nbr n_dist nv) as Hp.
  split_and!; by rewrite Hp.
Qed.

Lemma connect_use_spec h np data l hp ep :
  fresh h np data -> (l < NB_LAYER_MAX)%nat ->
  found_ok h np data hp -> valid h ep -> ep <> np ->
  exists h' ep', connect_use dist so h np data l hp ep = Ok (h', ep') /\
    fresh h' np data /\ same_table h h' /\ valid h' ep' /\ ep' <> np /\
    (forall l', l' <> l -> own_list h' np l' = own_list h np l').
Proof.
  intros Hf Hl (G1 & G2 & G3) Hep Hne. unfold connect_use.
  destruct (from_pos_spec dist so LAWS Hnn h data hp G1) as (neg & -> & Hneg).
  rewrite bind_Ok.
  destruct (Nat.eqb_spec (h_len so neg) 0) as [E0|E0].
  { exists h, ep. split_and!; auto. apply same_table_refl. }
  destruct (select_neighbours_spec dist so LAWS Hnn h data (fun p => p <> np) neg (nb_conn h l)
              (extend_c h l) l (keep_pruned h)) as (nv & -> & Hg & Hlen).
  { apply core_links_ne; [apply Hf|apply Hf|done]. }
  { split_and!; rewrite Hneg.
    - apply Forall_fmap. eapply Forall_impl; [exact G1|]. intros n Hn0. by apply negn_elt_cand.
    - by rewrite negn_pid.
    - apply Forall_fmap. eapply Forall_impl; [exact G3|]. done. }
  rewrite bind_Ok. simpl.
  apply elts_good_usort in Hg.
  destruct (fresh_nbs _ _ _ l Hf Hl) as (npt & nbs & Hnp & Hn & Ho).
  destruct (upd_nbs_ok h np l (fun _ => u_sort so nbr n_dist nv) _ _ Hnp Hn) as [h' Hh'].
  rewrite Hh'. rewrite bind_Ok.
  destruct (fresh_upd h h' np data l _ Hf Hh') as [Hf' Hst]; auto.
  { by rewrite (law_usort_perm _ LAWS). }
  { apply (law_usort _ LAWS). }
  eexists h', _. split; [done|].
  assert (Hown' : forall l', l' <> l -> own_list h' np l' = own_list h np l').
  { intros l' Hl'. rewrite (own_list_upd _ _ _ _ _ _ Hh'). by rewrite decide_False. }
  split_and!; auto.
  - rewrite (same_table_valid _ _ _ Hst). destruct (u_sort so nbr n_dist nv) as [|n ns]; [done|].
    destruct Hg as (Hg & _). inversion Hg as [|? ? (pt & Hpt & _)]; subst. by exists pt.
  - destruct (u_sort so nbr n_dist nv) as [|n ns]; [done|].
    destruct Hg as (_ & _ & Hg). by inversion Hg.
Qed.

Lemma connect_spec ls h np data ep :
  fresh h np data -> valid h ep -> ep <> np ->
  (forall l, l ∈ ls -> (l < max_layer h)%nat) ->
  exists h', connect dist so ls h np data ep = Ok h' /\
    fresh h' np data /\ same_table h h'.
Proof.
  revert h ep. induction ls as [|l ls IH]; intros h ep Hf Hep Hne Hls; simpl.
  - exists h. split_and!; auto. apply same_table_refl.
  - assert (Hl : (l < max_layer h)%nat) by (apply Hls; left).
    assert (Hl16 : (l < NB_LAYER_MAX)%nat) by (pose proof (c_max _ (f_core _ _ _ Hf)); lia).
    destruct (search_layer_fresh h np data ep (ef_construction h) l Hf Hl Hep Hne) as (hp & -> & Hfound & Hlen).
    rewrite bind_Ok.
    destruct (connect_use_spec h np data l hp ep) as (h1 & ep1 & -> & Hf1 & Hst1 & Hep1 & Hne1 & _); auto.
    rewrite bind_Ok.
    destruct (IH h1 ep1) as (h' & -> & ? & Hst2); auto.
    + intros l' Hl'. destruct Hst1 as (Hm & _). destruct Hm as (_ & _ & _ & _ & -> & _).
      apply Hls. by right.
    + exists h'. split_and!; auto. by eapply same_table_trans.
Qed.

(** ** Reverse updates *)
Lemma rev_list_ok h np npt p pt d l nbs :
  get_pt h np = Some npt -> get_pt h p = Some pt -> np <> p ->
  (d = dist (pt_data pt) (pt_data npt) \/ d = dist (pt_data npt) (pt_data pt)) ->
  list_ok h p (pt_data pt) l nbs ->
  list_ok h p (pt_data pt) l (rev_list so (nb_conn h l) np d nbs).
Proof.
  intros Hnp Hp Hne Hd Hok. unfold rev_list.
  destruct (bool_decide (np ∈ n_pid <$> nbs)) eqn:E; [done|].
  apply bool_decide_eq_false in E.
  set (nbs1 := u_sort so nbr n_dist (nbs ++ [Nbr np d])).
  assert (Hperm : nbs1 ≡ₚ Nbr np d :: nbs).
  { unfold nbs1. rewrite (law_usort_perm _ LAWS). by rewrite Permutation_app_comm. }
  destruct Hok.
  assert (Hok1 : NoDup (n_pid <$> nbs1) /\ sorted_by n_dist nbs1 /\ p ∉ n_pid <$> nbs1 /\
     Forall (fun n => exists q, get_pt h (n_pid n) = Some q /\
             (n_dist n = dist (pt_data pt) (pt_data q) \/ n_dist n = dist (pt_data q) (pt_data pt))) nbs1 /\
     length nbs1 = S (length nbs)).
  { split_and!.
    - rewrite Hperm. simpl. by constructor.
    - apply (law_usort _ LAWS).
    - rewrite Hperm. simpl. intros [->|?]%elem_of_cons; done.
    - rewrite Hperm. constructor; [|done]. exists npt. done.
    - by rewrite Hperm. }
  destruct Hok1 as (O1 & O2 & O3 & O4 & O5).
  destruct (Nat.ltb_spec (nb_conn h l) (S (length nbs))) as [Hlt|Hge].
  - constructor.
    + rewrite <- (take_drop (pred (length nbs1)) nbs1), fmap_app in O1.
      by apply NoDup_app in O1 as [? _].
    + by apply sorted_by_take.
    + intros Hin. apply O3. rewrite fmap_take in Hin.
      eapply elem_of_list_lookup_1 in Hin as [i Hi]. apply lookup_take_Some in Hi as [Hi _].
      by eapply elem_of_list_lookup_2.
    + by apply Forall_take.
    + rewrite take_length, O5. simpl. lia.
  - constructor; auto. lia.
Qed.

Lemma rev_one_spec h np npt q :
  core h -> get_pt h np = Some npt ->
  (exists pt, get_pt h (n_pid q) = Some pt /\
    (n_dist q = dist (pt_data npt) (pt_data pt) \/ n_dist q = dist (pt_data pt) (pt_data npt))) ->
  exists h', rev_one so h np q = Ok h' /\ core h' /\ same_table h h' /\
    (forall p, p <> n_pid q \/ p = np -> get_pt h' p = get_pt h p).
Proof.
  intros Hc Hnp (pt & Hpt & Hd). unfold rev_one.
  destruct (bool_decide (np = n_pid q)) eqn:E.
  { exists h. split_and!; auto. apply same_table_refl. }
  apply bool_decide_eq_false in E.
  assert (Hnl : (np.1 < NB_LAYER_MAX)%nat) by (apply (core_layer h); [done|by exists npt]).
  destruct (core_nbs _ _ _ _ Hc Hpt Hnl) as [nbs Hn].
  replace (if (0 <? np.1)%nat then max_nb_connection h else 2 * max_nb_connection h)%nat with (nb_conn h np.1).
  2: { unfold nb_conn. destruct np.1; done. }
  match goal with |- context [upd_nbs _ _ _ ?f] => set (ff := f) end.
  destruct (upd_nbs_ok h (n_pid q) np.1 ff _ _ Hpt Hn) as [h' Hh'].
  rewrite Hh'. exists h'. split; [done|].
  destruct (core_upd _ _ _ _ _ Hc Hh') as [Hc' Hst].
  { intros pt' nbs' Hpt' Hn'. rewrite Hpt in Hpt'. injection Hpt' as <-.
    unfold ff. eapply rev_list_ok; eauto; [tauto|]. by eapply c_lists. }
  split_and!; auto.
  destruct (upd_nbs_inv _ _ _ _ _ Hh') as (? & ? & _ & _ & _ & Ho & _).
  intros p [?| ->]; apply Ho; auto.
Qed.

Definition refs_ok h (npt : point (T:=T)) (qs : list nbr) : Prop :=
  Forall (fun q => exists pt, get_pt h (n_pid q) = Some pt /\
    (n_dist q = dist (pt_data npt) (pt_data pt) \/ n_dist q = dist (pt_data pt) (pt_data npt))) qs.

Lemma refs_ok_grows h h' npt qs : grows h h' -> refs_ok h npt qs -> refs_ok h' npt qs.
Proof.
  intros Hgr H. eapply Forall_impl; [exact H|]. intros q (pt & Hpt & Hd).
  destruct (grows_get _ _ _ _ Hgr Hpt) as (pt' & ? & E & _). exists pt'. by rewrite E.
Qed.

Lemma rev_many_spec qs h np npt :
  core h -> get_pt h np = Some npt -> refs_ok h npt qs ->
  exists h', rev_many so h np qs = Ok h' /\ core h' /\ same_table h h' /\ get_pt h' np = Some npt.
Proof.
  revert h. induction qs as [|q qs IH]; intros h Hc Hnp Hr; simpl.
  - exists h. split_and!; auto. apply same_table_refl.
  - inversion Hr; subst.
    destruct (rev_one_spec h np npt q Hc Hnp) as (h1 & -> & Hc1 & Hst1 & Ho); [done|].
    rewrite bind_Ok.
    destruct (IH h1) as (h' & -> & Hc' & Hst' & Hnp'); auto.
    + rewrite Ho; auto.
    + eapply refs_ok_grows; [by apply same_table_grows|done].
    + exists h'. split_and!; auto. by eapply same_table_trans.
Qed.

Lemma rev_layers_spec ls h np npt :
  core h -> get_pt h np = Some npt -> (forall l, l ∈ ls -> (l < NB_LAYER_MAX)%nat) ->
  exists h', rev_layers so ls h np = Ok h' /\ core h' /\ same_table h h' /\ get_pt h' np = Some npt.
Proof.
  revert h. induction ls as [|l ls IH]; intros h Hc Hnp Hls; simpl.
  - exists h. split_and!; auto. apply same_table_refl.
  - rewrite Hnp. simpl. destruct (core_nbs _ _ _ l Hc Hnp) as [qs Hqs]; [apply Hls; left|].
    rewrite Hqs. simpl.
    destruct (rev_many_spec qs h np npt Hc Hnp) as (h1 & -> & Hc1 & Hst1 & Hnp1).
    { by destruct (c_lists _ Hc _ _ _ _ Hnp Hqs). }
    rewrite bind_Ok.
    destruct (IH h1) as (h' & -> & Hc' & Hst' & Hnp'); auto.
    + intros l' Hl'. apply Hls. by right.
    + exists h'. split_and!; auto. by eapply same_table_trans.
Qed.

(** ** Whole insertion *)
Record wf h : Prop := {
  w_core : core h;
  w_count : nb_point h = table_size h;
  w_entry : match entry_point h with
            | None => table_size h = 0%nat
            | Some ep => valid h ep /\ forall p, valid h p -> (p.1 <= ep.1)%nat
            end
}.

(** without the maximality of the entry point, which a parallel insertion into an empty index can break *)
Record lwf h : Prop := {
  l_core : core h;
  l_count : nb_point h = table_size h;
  l_entry : match entry_point h with None => table_size h = 0%nat | Some ep => valid h ep end
}.
Lemma wf_lwf h : wf h -> lwf h.
Proof. intros [H1 H2 H3]. split; auto. destruct (entry_point h); [apply H3|done]. Qed.

Lemma generate_lt sc ml d level : generate sc ml d = Ok level -> (level < ml)%nat.
Proof.
  unfold generate. destruct (N.leb_spec (N.of_nat ml) (f64_floor_as_usize (f64_mul (dr_nln d) sc))) as [H|H].
  - destruct ml; [done|]. intros [= <-].
    pose proof (Nat.mod_upper_bound (dr_unif d) (S ml)). simpl in *. lia.
  - intros [= <-]. lia.
Qed.

Lemma generate_ok sc ml d : (0 < ml)%nat -> is_ok (generate sc ml d).
Proof.
  intros H. unfold generate. destruct (_ <=? _)%N; [|by eexists]. destruct ml; [lia|by eexists].
Qed.

Lemma table_size_0_valid h p : table_size h = 0%nat -> ~ valid h p.
Proof.
  intros H Hv. pose proof (valid_count h [p] ltac:(apply NoDup_singleton) ltac:(by repeat constructor)).
  simpl in *. lia.
Qed.

Lemma same_table_size h h' : same_table h h' -> table_size h' = table_size h.
Proof. intros (_ & H & _). by apply table_size_fmap. Qed.

(** What an insertion does, from any well-formed index. *)
Lemma insert_lspec_level h data oid d :
  lwf h -> (0 < max_layer h)%nat ->
  exists h' np, insert_slice dist so h data oid d = Ok h' /\
    (generate (level_scale h) (max_layer h) d = Ok np.1 /\
     forall l, get_layer_nb_point h' l = (get_layer_nb_point h l + if (l =? np.1)%nat then 1 else 0)%nat) /\ (lwf h' /\ (wf h -> wf h')) /\ grows h h' /\
    get_pt h np = None /\ static h' np = Some (data, oid, np) /\
    (forall p, p <> np -> static h' p = static h p) /\
    nb_point h' = S (nb_point h) /\
    max_layer h' = max_layer h /\ max_nb_connection h' = max_nb_connection h /\
    ef_construction h' = ef_construction h /\ extend_candidates h' = extend_candidates h /\
    keep_pruned h' = keep_pruned h /\ level_scale h' = level_scale h /\
    datamap_opt h' = datamap_opt h.
Proof.
  intros [Hc Hcnt Hent] Hml. unfold insert_slice, generate_new_point.
  destruct (generate_ok (level_scale h) (max_layer h) d Hml) as [level Hlev]. rewrite Hlev, bind_Ok.
  apply generate_lt in Hlev.
  destruct (push_point_ok h data oid level) as [[h1 np] Hpush]; [by rewrite (c_len _ Hc)|].
  rewrite Hpush, bind_Ok. unfold incr_nb_point. cbn beta iota zeta. rewrite bind_Ok. cbn beta iota zeta.
  destruct (core_push _ _ _ _ _ _ Hc Hpush) as (Hc1 & Hu1 & Hgr1).
  destruct (push_point_inv _ _ _ _ _ _ Hpush) as (Hnl & Hlt & Hnone & Hnew & Ho & Hm & Hlen & Hsz).
  pose proof Hm as (M1 & M2 & M3 & M4 & M5 & M6 & M7 & M8 & M9 & M10).
  set (h0 := set_nb_point (S (nb_point h1)) h1).
  assert (Hg0 : forall p, get_pt h0 p = get_pt h1 p) by done.
  assert (Hc0 : core h0) by (by apply (core_meta h1)).
  assert (Hu0 : unref h0 np) by done.
  assert (Hfresh : fresh h0 np data).
  { constructor; auto. exists (new_pt data oid np). done. }
  assert (Hst_new : static h0 np = Some (data, oid, np)).
  { unfold static. rewrite Hg0, Hnew. done. }
  assert (Hst_old : forall p, p <> np -> static h0 p = static h p).
  { intros p Hne. unfold static. by rewrite Hg0, Ho. }
  assert (Hgr0 : grows h h0) by done.
  assert (Hvalid0 : forall p, valid h0 p <-> p = np \/ valid h p).
  { intros p. unfold valid. rewrite Hg0. destruct (decide (p = np)) as [->|Hne].
    - rewrite Hnew. split; [by left|]. intros _; by eexists.
    - rewrite Ho by done. split; [by right|]. intros [?|?]; done. }
  assert (Hlay : forall l, get_layer_nb_point h1 l = (get_layer_nb_point h l + if (l =? np.1)%nat then 1 else 0)%nat).
  { intros l. rewrite Hnl. unfold push_point in Hpush. apply bind_inv in Hpush as (ly & Hly & [= <- _]). apply unwrap_inv in Hly.
    unfold get_layer_nb_point. cbn [points_by_layer set_layers]. destruct (Nat.eqb_spec l level) as [->|Hne].
    - rewrite Hly, list_lookup_insert by (by eapply lookup_lt_Some). by rewrite app_length.
    - rewrite list_lookup_insert_ne by done. by rewrite Nat.add_0_r. }
  (* adding the entry point check at the end *)
  assert (Hfinish : forall h3, same_table h0 h3 -> core h3 ->
     exists h' np0, Ok (check_entry_point h3 np) = Ok h' /\
       (Ok level = Ok np0.1 /\
        forall l, get_layer_nb_point h' l = (get_layer_nb_point h l + if (l =? np0.1)%nat then 1 else 0)%nat) /\ (lwf h' /\ (wf h -> wf h')) /\ grows h h' /\
       get_pt h np0 = None /\ static h' np0 = Some (data, oid, np0) /\
       (forall p, p <> np0 -> static h' p = static h p) /\
       nb_point h' = S (nb_point h) /\
       max_layer h' = max_layer h /\ max_nb_connection h' = max_nb_connection h /\
       ef_construction h' = ef_construction h /\ extend_candidates h' = extend_candidates h /\
       keep_pruned h' = keep_pruned h /\ level_scale h' = level_scale h /\ datamap_opt h' = datamap_opt h).
  { intros h3 Hst Hc3. exists (check_entry_point h3 np), np. split; [done|].
    pose proof Hst as ((N1 & N2 & N3 & N4 & N5 & N6 & N7 & N8 & N9 & N10) & Hsz3 & Hs3).
    assert (Hcheck : forall h4, h4 = check_entry_point h3 np ->
      points_by_layer h4 = points_by_layer h3 /\ nb_point h4 = nb_point h3 /\
      max_layer h4 = max_layer h3 /\ max_nb_connection h4 = max_nb_connection h3 /\
      ef_construction h4 = ef_construction h3 /\ extend_candidates h4 = extend_candidates h3 /\
      keep_pruned h4 = keep_pruned h3 /\ level_scale h4 = level_scale h3 /\
      datamap_opt h4 = datamap_opt h3 /\
      entry_point h4 = match entry_point h3 with
                       | Some ep => if (ep.1 <? np.1)%nat then Some np else Some ep
                       | None => Some np end).
    { intros h4 ->. unfold check_entry_point. destruct (entry_point h3) as [ep|] eqn:E; [|done].
      destruct (ep.1 <? np.1)%nat; [done|]. by rewrite E. }
    destruct (Hcheck _ eq_refl) as (K1 & K2 & K3 & K4 & K5 & K6 & K7 & K8 & K9 & K10).
    set (h4 := check_entry_point h3 np) in *. clearbody h4. clear Hcheck.
    assert (Hg4 : forall p, get_pt h4 p = get_pt h3 p) by (intros p; unfold get_pt; by rewrite K1).
    assert (Hs4 : forall p, static h4 p = static h0 p) by (intros p; unfold static; rewrite Hg4; apply Hs3).
    assert (Hsize : table_size h4 = S (table_size h)).
    { transitivity (table_size h3); [unfold table_size; by rewrite K1|].
      rewrite (same_table_size _ _ Hst). by rewrite <- Hsz. }
    assert (Hv4 : forall p, valid h4 p <-> p = np \/ valid h p).
    { intros p. rewrite <- Hvalid0, <- (same_table_valid _ _ _ Hst). unfold valid. by rewrite Hg4. }
    assert (L1 : core h4) by (by apply (core_meta h3)).
    assert (L2 : nb_point h4 = table_size h4) by (rewrite K2, N7, Hsize; simpl; rewrite M7; congruence).
    split_and!; auto.
    - intros l. rewrite <- Hlay. unfold get_layer_nb_point. rewrite K1. apply (f_equal (.!! l)) in Hsz3. rewrite !list_lookup_fmap in Hsz3.
      change (points_by_layer h0) with (points_by_layer h1) in Hsz3. destruct (points_by_layer h3 !! l), (points_by_layer h1 !! l); simpl in Hsz3; congruence.
    - constructor; auto. rewrite K10, N8. simpl. rewrite M8. destruct (entry_point h) as [ep|].
        * destruct (ep.1 <? np.1)%nat; apply Hv4; [by left|by right].
        * apply Hv4. by left.
    - intros [_ _ Hent']. constructor; auto.
        rewrite K10, N8. simpl. rewrite M8. destruct (entry_point h) as [ep|].
        * destruct Hent' as [Hvep Hmax]. destruct (Nat.ltb_spec ep.1 np.1) as [Hlt2|Hge].
          -- split; [apply Hv4; by left|]. intros p Hp. apply Hv4 in Hp as [Hp|Hp]; [by subst p|].
             specialize (Hmax p Hp). clear -Hmax Hlt2. lia.
          -- split; [apply Hv4; by right|]. intros p Hp. apply Hv4 in Hp as [Hp|Hp]; [by subst p|].
             by apply Hmax.
        * split; [apply Hv4; by left|]. intros p Hp. apply Hv4 in Hp as [Hp|Hp]; [by subst p|].
          exfalso. by eapply table_size_0_valid.
    - split; [simpl in *; congruence|]. intros p s Hp. rewrite Hs4. by apply Hgr0.
    - by rewrite Hs4.
    - intros p Hne. rewrite Hs4. auto.
    - rewrite K2, N7. simpl. by rewrite M7.
    - rewrite K3, N5. simpl. done.
    - rewrite K4, N2. simpl. done.
    - rewrite K5, N1. simpl. done.
    - rewrite K6, N3. simpl. done.
    - rewrite K7, N4. simpl. done.
    - rewrite K8, N6. simpl. done.
    - rewrite K9, N10. simpl. done. }
  change (entry_point h0) with (entry_point h1).
  rewrite M8. destruct (entry_point h) as [ep|] eqn:Eep.
  2: { apply Hfinish; [apply same_table_refl|done]. }
  rename Hent into Hvep.
  destruct (Nat.eqb_spec (S (nb_point h1)) 1) as [E1|E1].
  { exfalso. rewrite M7, Hcnt in E1. apply (table_size_0_valid h ep); [clear -E1; lia|done]. }
  assert (Hepne : ep <> np).
  { intros ->. destruct Hvep as [pt Hpt]. congruence. }
  assert (Hvep0 : valid h0 ep) by (apply Hvalid0; by right).
  destruct Hvep0 as [ept Hept]. change (set_nb_point (S (nb_point h1)) h1) with h0.
  rewrite Hept. cbn [unwrap]. rewrite bind_Ok.
  destruct (descend_spec (rev (seq (S np.1) (ep.1 - np.1))) h0 np data ep (dist data (pt_data ept)))
    as (h2 & ep2 & -> & Hf2 & Hst2 & Hep2 & Hne2); auto.
  { by exists ept. }
  { rewrite <- Permutation_rev. apply NoDup_seq. }
  { intros l Hl. apply elem_of_list_In, in_rev, in_seq in Hl.
    destruct (core_layer h ep Hc Hvep) as [Hl1 Hl2].
    split; [simpl; rewrite M5; clear -Hl Hl1; lia|].
    unfold own_list. rewrite Hg0, Hnew. unfold new_pt. cbn [mbind option_bind pt_nbs].
    apply lookup_replicate_2. clear -Hl Hl2. lia. }
  rewrite bind_Ok.
  assert (ML0 : max_layer h0 = max_layer h) by (simpl; done).
  destruct (connect_spec (rev (seq 0 (S np.1))) h2 np data ep2) as (h3 & -> & Hf3 & Hst3); auto.
  { intros l Hl. apply elem_of_list_In, in_rev, in_seq in Hl.
    destruct Hst2 as (Hm2 & _). destruct Hm2 as (_ & _ & _ & _ & -> & _). rewrite ML0. clear -Hl Hlev Hnl. lia. }
  rewrite bind_Ok. unfold reverse_update.
  destruct (f_pt _ _ _ Hf3) as (npt & Hnpt & _).
  destruct (rev_layers_spec (rev (seq 0 (S np.1))) h3 np npt) as (h4 & -> & Hc4 & Hst4 & _); auto.
  { apply Hf3. }
  { intros l Hl. apply elem_of_list_In, in_rev, in_seq in Hl. pose proof (c_max _ Hc) as Hcm. clear -Hcm Hl Hlev Hnl. lia. }
  rewrite bind_Ok. apply Hfinish; [|done].
  eapply same_table_trans; [exact Hst2|]. eapply same_table_trans; [exact Hst3|exact Hst4].
Qed.
Lemma insert_lspec h data oid d :
  lwf h -> (0 < max_layer h)%nat ->
  exists h' np, insert_slice dist so h data oid d = Ok h' /\ (lwf h' /\ (wf h -> wf h')) /\ grows h h' /\
    get_pt h np = None /\ static h' np = Some (data, oid, np) /\
    (forall p, p <> np -> static h' p = static h p) /\
    nb_point h' = S (nb_point h) /\
    max_layer h' = max_layer h /\ max_nb_connection h' = max_nb_connection h /\
    ef_construction h' = ef_construction h /\ extend_candidates h' = extend_candidates h /\
    keep_pruned h' = keep_pruned h /\ level_scale h' = level_scale h /\
    datamap_opt h' = datamap_opt h.
Proof.
  intros Hwf Hml. destruct (insert_lspec_level h data oid d Hwf Hml) as (h' & np & H1 & _ & H2). by exists h', np.
Qed.

Lemma insert_spec h data oid d :
  wf h -> (0 < max_layer h)%nat ->
  exists h' np, insert_slice dist so h data oid d = Ok h' /\ wf h' /\ grows h h' /\
    get_pt h np = None /\ static h' np = Some (data, oid, np) /\
    (forall p, p <> np -> static h' p = static h p) /\
    nb_point h' = S (nb_point h) /\
    max_layer h' = max_layer h /\ max_nb_connection h' = max_nb_connection h /\
    ef_construction h' = ef_construction h /\ extend_candidates h' = extend_candidates h /\
    keep_pruned h' = keep_pruned h /\ level_scale h' = level_scale h /\
    datamap_opt h' = datamap_opt h.
Proof.
  intros Hwf Hml. destruct (insert_lspec h data oid d (wf_lwf h Hwf) Hml) as (h' & np & H1 & [_ H2] & H3).
  exists h', np. auto.
Qed.

End Insert.
