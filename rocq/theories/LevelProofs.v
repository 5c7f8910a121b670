(** Levels of the points in the neighbour lists of an index filled by successive insertions. *)
From stdpp Require Import relations.
From Verif Require Import Prelude Model Lib Table SearchProofs SelectProofs InsertProofs Spec SpecProofs.

Section Level.
Context {T : Type} (dist : list T -> list T -> Z) (so : StdOps).
Context (LAWS : StdLaws so) (Hnn : forall a b, (0 <= dist a b)%Z).
Implicit Types (h : hnsw (T:=T)) (p np ep : pid).
Notation fresh := (fresh dist).
Notation core := (core dist).
Notation wf := (wf dist).

(** in its layer or above, or the first point of its own layer *)
Definition at_layer (l : nat) p : Prop := (l <= p.1)%nat \/ p.2 = 0%nat.

Lemma at_layer_le l l' p : (l' <= l)%nat -> at_layer l p -> at_layer l' p.
Proof using Type. unfold at_layer. intros ? [?|?]; [left; lia|by right]. Qed.

Definition lev h : Prop := forall p pt l nbs n,
  get_pt h p = Some pt -> pt_nbs pt !! l = Some nbs -> n ∈ nbs -> at_layer l (n_pid n).

Lemma lev_upd h h' p l f :
  upd_nbs h p l f = Ok h' -> lev h ->
  (forall pt nbs n, get_pt h p = Some pt -> pt_nbs pt !! l = Some nbs -> n ∈ f nbs -> at_layer l (n_pid n)) -> lev h'.
Proof using Type.
  intros Hu HL Hf p' pt' l' nbs n Hp' Hn Hin.
  destruct (upd_nbs_inv _ _ _ _ _ Hu) as (pt & nbs0 & Hp & Hn0 & Hnew & Ho & _).
  destruct (decide (p' = p)) as [->|Hne].
  - rewrite Hnew in Hp'. injection Hp' as <-. cbn [pt_nbs set_pt_nbs] in Hn.
    destruct (decide (l' = l)) as [->|Hnl].
    + rewrite list_lookup_insert in Hn by (by eapply lookup_lt_Some). injection Hn as <-. by eapply Hf.
    + rewrite list_lookup_insert_ne in Hn by done. exact (HL _ _ _ _ _ Hp Hn Hin).
  - rewrite Ho in Hp' by done. exact (HL _ _ _ _ _ Hp' Hn Hin).
Qed.

Lemma search_layer_lev h np data ep ef l hp :
  fresh h np data -> lev h -> (l < max_layer h)%nat -> valid h ep -> ep <> np -> at_layer l ep ->
  search_layer dist so h data ep ef l None = Ok hp -> Forall (fun x => n_pid x <> np /\ at_layer l (n_pid x)) (h_iter so hp).
Proof using LAWS Hnn.
  intros [Hc Hu _] HL Hl [ept Hep] Hne Ha Hs.
  assert (Hl16 : (l < NB_LAYER_MAX)%nat) by (pose proof (c_max _ _ Hc); lia).
  rewrite <- (c_len _ _ Hc) in Hl. apply lookup_lt_is_Some in Hl as [ly Hly].
  destruct ly as [|p0 ly].
  - unfold search_layer in Hs. rewrite Hly in Hs. injection Hs as <-. rewrite (law_iter_empty _ LAWS). constructor.
  - destruct (search_layer_spec dist so LAWS Hnn h data ep ept ef l None (p0 :: ly) (fun p => p <> np /\ at_layer l p))
      as (ret & E & _ & _ & R3 & _); auto.
    + intros p pt [Hp _] Hg. destruct (core_links_ne dist _ _ np Hc Hu Hl16 p pt Hp Hg) as (nbs & Hn & Hin).
      exists nbs. split; [done|]. intros n Hni. destruct (Hin n Hni). split; [done|]. split; [done|]. by eapply HL.
    + rewrite Hs in E. injection E as <-. done.
Qed.

Lemma lev_links h np data l : fresh h np data -> lev h -> (l < NB_LAYER_MAX)%nat ->
  links_ok h l (fun p => p <> np /\ at_layer l p).
Proof using Type.
  intros [Hc Hu _] HL Hl16 p pt [Hp _] Hg. destruct (core_links_ne dist _ _ np Hc Hu Hl16 p pt Hp Hg) as (nbs & Hn & Hin).
  exists nbs. split; [done|]. intros n Hni. destruct (Hin n Hni). split; [done|]. split; [done|]. by eapply HL.
Qed.

Lemma descend_use_lev h np data l hp ep dte h' ep' dte' :
  lev h -> at_layer l ep -> Forall (fun x => n_pid x <> np /\ at_layer l (n_pid x)) (h_iter so hp) ->
  descend_use dist so h np data l hp ep dte = Ok (h', ep', dte') -> lev h' /\ at_layer l ep'.
Proof using LAWS.
  intros HL Ha HF H. unfold descend_use in H. destruct (1 <? h_len so hp)%nat; [done|].
  destruct (h_pop so hp) as [[e r]|] eqn:E; [|by injection H as <- <- <-].
  destruct (law_pop_some _ LAWS _ _ _ E) as [Hp _]. rewrite Hp in HF. apply Forall_cons in HF as [[_ Hae] _].
  apply bind_inv in H as (h1 & H1 & H). apply bind_inv in H as (ept & _ & H).
  assert (HL1 : lev h1).
  { unfold push_upper in H1. eapply lev_upd; [exact H1|done|]. intros pt nbs n Hpt Hn Hin. cbn beta in Hin.
    destruct (_ <? _)%nat; [|by eapply HL]. apply elem_of_app in Hin as [Hin|Hin]; [by eapply HL|].
    apply elem_of_list_singleton in Hin as ->. done. }
  cbv zeta in H. destruct (_ <? dte)%Z; by injection H as <- <- <-.
Qed.

Lemma descend_lev ls h np data ep dte h' ep' m :
  fresh h np data -> valid h ep -> ep <> np ->
  NoDup ls -> (forall l, l ∈ ls -> (m <= l < max_layer h)%nat /\ own_list h np l = Some []) ->
  lev h -> (forall l, l ∈ ls -> at_layer l ep) -> at_layer m ep -> StronglySorted (fun a b => (b <= a)%nat) ls ->
  descend dist so ls h np data ep dte = Ok (h', ep') -> lev h' /\ at_layer m ep'.
Proof using LAWS Hnn.
  revert h ep dte. induction ls as [|l ls IH]; intros h ep dte Hf Hep Hne Hnd Hls HL Ha Hm Hss H; simpl in H.
  - by injection H as <- <-.
  - destruct (Hls l) as [Hl Hown]; [left|].
    destruct (search_layer_fresh dist so LAWS Hnn h np data ep 1 l Hf (proj2 Hl) Hep Hne) as (hp & Hs & Hfound & Hlen).
    assert (Hal : at_layer l ep) by (apply Ha; left).
    pose proof (search_layer_lev _ _ _ _ _ _ _ Hf HL (proj2 Hl) Hep Hne Hal Hs) as HF.
    rewrite Hs, bind_Ok in H. inversion Hnd; subst. inversion Hss as [|? ? Hss' Hle]; subst.
    assert (Hl16 : (l < NB_LAYER_MAX)%nat) by (pose proof (c_max _ _ (f_core _ _ _ _ Hf)); lia).
    destruct (descend_use_spec dist so LAWS Hnn h np data l hp ep dte) as (h1 & ep1 & dte1 & Hu & Hf1 & Hst1 & Hep1 & Hne1 & Hown1); auto.
    destruct (descend_use_lev _ _ _ _ _ _ _ _ _ _ HL Hal HF Hu) as [HL1 Ha1].
    rewrite Hu, bind_Ok in H. eapply IH; eauto.
    + intros l' Hl'. destruct (Hls l') as [? Ho]; [by right|].
      destruct Hst1 as (Hmm & _). destruct Hmm as (_ & _ & _ & _ & -> & _). split; [done|].
      rewrite Hown1; [done|]. by intros ->.
    + intros l' Hl'. rewrite Forall_forall in Hle. eapply at_layer_le; [by apply Hle|done].
    + eapply at_layer_le; [exact (proj1 Hl)|done].
Qed.

Lemma connect_use_lev h np data l hp ep h' ep' :
  fresh h np data -> lev h -> (l < NB_LAYER_MAX)%nat -> found_ok dist so h np data hp -> at_layer l ep ->
  Forall (fun x => n_pid x <> np /\ at_layer l (n_pid x)) (h_iter so hp) ->
  connect_use dist so h np data l hp ep = Ok (h', ep') -> lev h' /\ at_layer l ep'.
Proof using LAWS Hnn.
  intros Hf HL Hl (G1 & G2 & _) Ha HF. unfold connect_use.
  destruct (from_pos_spec dist so LAWS Hnn h data hp G1) as (neg & -> & Hneg). rewrite bind_Ok.
  destruct (Nat.eqb_spec (h_len so neg) 0) as [E0|E0]; [by intros [= <- <-]|].
  destruct (select_neighbours_spec dist so LAWS Hnn h data (fun p => p <> np /\ at_layer l p) neg (nb_conn h l)
              (extend_c h l) l (keep_pruned h)) as (nv & -> & Hg & _).
  { by eapply lev_links. }
  { split_and!; rewrite Hneg.
    - apply Forall_fmap. eapply Forall_impl; [exact G1|]. intros n Hn0. by apply negn_elt_cand.
    - by rewrite negn_pid.
    - apply Forall_fmap. eapply Forall_impl; [exact HF|]. done. }
  rewrite bind_Ok. cbv zeta. apply (elts_good_usort dist so LAWS) in Hg. destruct Hg as (_ & _ & Hg).
  intros H. apply bind_inv in H as (h1 & H1 & H). injection H as <- <-. split.
  - eapply lev_upd; [exact H1|done|]. intros pt nbs n _ _ Hin. rewrite Forall_forall in Hg. by apply Hg.
  - destruct (u_sort so nbr n_dist nv) as [|n ns]; [done|]. inversion Hg as [|? ? [_ ?]]; by subst.
Qed.

Lemma connect_lev ls h np data ep h' :
  fresh h np data -> valid h ep -> ep <> np -> (forall l, l ∈ ls -> (l < max_layer h)%nat) ->
  lev h -> (forall l, l ∈ ls -> at_layer l ep) -> StronglySorted (fun a b => (b <= a)%nat) ls ->
  connect dist so ls h np data ep = Ok h' -> lev h'.
Proof using LAWS Hnn.
  revert h ep. induction ls as [|l ls IH]; intros h ep Hf Hep Hne Hls HL Ha Hss H; simpl in H.
  - by injection H as <-.
  - assert (Hl : (l < max_layer h)%nat) by (apply Hls; left).
    assert (Hl16 : (l < NB_LAYER_MAX)%nat) by (pose proof (c_max _ _ (f_core _ _ _ _ Hf)); lia).
    destruct (search_layer_fresh dist so LAWS Hnn h np data ep (ef_construction h) l Hf Hl Hep Hne) as (hp & Hs & Hfound & Hlen).
    assert (Hal : at_layer l ep) by (apply Ha; left).
    pose proof (search_layer_lev _ _ _ _ _ _ _ Hf HL Hl Hep Hne Hal Hs) as HF.
    rewrite Hs, bind_Ok in H. inversion Hss as [|? ? Hss' Hle]; subst.
    destruct (connect_use_spec dist so LAWS Hnn h np data l hp ep) as (h1 & ep1 & Hu & Hf1 & Hst1 & Hep1 & Hne1 & _); auto.
    destruct (connect_use_lev _ _ _ _ _ _ _ _ Hf HL Hl16 Hfound Hal HF Hu) as [HL1 Ha1].
    rewrite Hu, bind_Ok in H. eapply IH; eauto.
    + intros l' Hl'. destruct Hst1 as (Hmm & _). destruct Hmm as (_ & _ & _ & _ & -> & _). apply Hls. by right.
    + intros l' Hl'. rewrite Forall_forall in Hle. eapply at_layer_le; [by apply Hle|done].
Qed.

Lemma rev_one_lev h np q h' : lev h -> rev_one so h np q = Ok h' -> lev h'.
Proof using LAWS.
  intros HL H. unfold rev_one in H. destruct (bool_decide _); [by injection H as <-|].
  eapply lev_upd; [exact H|done|]. intros pt nbs n Hp Hn Hin. unfold rev_list in Hin.
  destruct (bool_decide (np ∈ _)); [by eapply HL|].
  assert (Hin' : n ∈ u_sort so nbr n_dist (nbs ++ [Nbr np (n_dist q)])).
  { cbv zeta in Hin. destruct (_ <? S _)%nat; [|done].
    apply elem_of_list_lookup_1 in Hin as [i Hi]. apply lookup_take_Some in Hi as [Hi _]. by eapply elem_of_list_lookup_2. }
  rewrite (law_usort_perm _ LAWS) in Hin'. apply elem_of_app in Hin' as [?|Hin']; [by eapply HL|].
  apply elem_of_list_singleton in Hin' as ->. left. simpl. lia.
Qed.

Lemma rev_many_lev qs h np h' : lev h -> rev_many so h np qs = Ok h' -> lev h'.
Proof using LAWS.
  revert h. induction qs as [|q qs IH]; intros h HL H; simpl in H; [by injection H as <-|].
  apply bind_inv in H as (h1 & H1 & H). eapply IH; [|exact H]. by eapply rev_one_lev.
Qed.

Lemma rev_layers_lev ls h np h' : lev h -> rev_layers so ls h np = Ok h' -> lev h'.
Proof using LAWS.
  revert h. induction ls as [|l ls IH]; intros h HL H; simpl in H; [by injection H as <-|].
  apply bind_inv in H as (npt & _ & H). apply bind_inv in H as (qs & _ & H). apply bind_inv in H as (h1 & H1 & H).
  eapply IH; [|exact H]. by eapply rev_many_lev.
Qed.

Lemma rev_seq_sorted a n : StronglySorted (fun x y => (y <= x)%nat) (rev (seq a n)).
Proof using Type.
  revert a. induction n as [|n IH]; intros a; [constructor|].
  rewrite seq_S, rev_app_distr. simpl. constructor; [apply IH|].
  rewrite Forall_forall. intros x Hx. apply elem_of_list_In, in_rev, in_seq in Hx. lia.
Qed.

Definition first_entry h : Prop := match entry_point h with None => True | Some ep => ep.2 = 0%nat end.

Lemma check_first h h0 np data oid level h3 : wf h ->
  push_point h data oid level = Ok (h0, np) -> entry_point h3 = entry_point h -> first_entry h ->
  first_entry (check_entry_point h3 np).
Proof using Hnn.
  intros Hwf Hpush He Hfe. unfold first_entry, check_entry_point in *. rewrite He.
  pose proof (w_entry _ _ Hwf) as Hent.
  assert (Hrank : (forall p, valid h p -> (p.1 < level)%nat \/ table_size h = 0%nat) -> np.2 = 0%nat).
  { intros Hv. unfold push_point in Hpush. apply bind_inv in Hpush as (ly & Hly & H). apply unwrap_inv in Hly.
    injection H as _ <-. simpl. destruct ly as [|x ly]; [done|].
    assert (Hg : get_pt h (level, 0%nat) = Some x) by (apply get_pt_lookup; exists (x :: ly); done).
    destruct (Hv (level, 0%nat)) as [?|Hz]; [by exists x|simpl in *; lia|].
    exfalso. apply (table_size_0_valid h (level, 0%nat) Hz). by exists x. }
  assert (Hl : np.1 = level) by (by apply push_point_inv in Hpush as [? _]).
  destruct (entry_point h) as [ep|] eqn:E.
  - destruct (Nat.ltb_spec ep.1 np.1) as [Hlt|Hge]; cbn [entry_point set_entry]; [|by rewrite He].
    apply Hrank. intros p Hp. left. pose proof (proj2 Hent p Hp). lia.
  - cbn [entry_point set_entry]. apply Hrank. intros p Hp. right. done.
Qed.

Lemma insert_lev h data oid d h' : wf h -> lev h -> first_entry h ->
  insert_slice dist so h data oid d = Ok h' -> lev h' /\ first_entry h'.
Proof using LAWS Hnn.
  intros Hwf HL Hfe H. pose proof (insert_max_layer dist so Hnn _ _ _ _ _ H) as Hml.
  pose proof Hwf as [Hc Hcnt Hent]. unfold insert_slice, generate_new_point in H.
  destruct (generate (level_scale h) (max_layer h) d) as [level| | | | |] eqn:Hlev; try done. rewrite bind_Ok in H.
  apply generate_lt in Hlev.
  destruct (push_point h data oid level) as [[h1 np]| | | | |] eqn:Hpush; try done.
  rewrite bind_Ok in H. unfold incr_nb_point in H. cbn beta iota zeta in H. rewrite bind_Ok in H. cbn beta iota zeta in H.
  destruct (core_push dist Hnn _ _ _ _ _ _ Hc Hpush) as (Hc1 & Hu1 & Hgr1).
  destruct (push_point_inv _ _ _ _ _ _ Hpush) as (Hnl & Hlt & Hnone & Hnew & Ho & Hm & Hlen & Hsz).
  pose proof Hm as (M1 & M2 & M3 & M4 & M5 & M6 & M7 & M8 & M9 & M10).
  set (h0 := set_nb_point (S (nb_point h1)) h1) in *.
  assert (Hg0 : forall p, get_pt h0 p = get_pt h1 p) by done.
  assert (Hc0 : core h0) by (by apply (core_meta dist h1)).
  assert (Hu0 : unref h0 np) by done.
  assert (Hfresh : fresh h0 np data) by (constructor; auto; exists (new_pt data oid np); done).
  assert (HL0 : lev h0).
  { intros p pt l nbs n Hp Hn Hin. rewrite Hg0 in Hp. destruct (decide (p = np)) as [->|Hne].
    - rewrite Hnew in Hp. injection Hp as <-. unfold new_pt in Hn. cbn [pt_nbs] in Hn.
      apply lookup_replicate in Hn as [-> _]. by apply elem_of_nil in Hin.
    - rewrite Ho in Hp by done. exact (HL _ _ _ _ _ Hp Hn Hin). }
  assert (Hck : forall h3, lev h3 -> entry_point h3 = entry_point h -> lev (check_entry_point h3 np) /\ first_entry (check_entry_point h3 np)).
  { intros h3 HL3 He3. split.
    - unfold check_entry_point. destruct (entry_point h3) as [ep|]; [|exact HL3]. destruct (ep.1 <? np.1)%nat; exact HL3.
    - eapply check_first; [exact Hwf|exact Hpush|done|done]. }
  assert (E0 : entry_point h0 = entry_point h) by exact M8.
  rewrite E0 in H. destruct (entry_point h) as [ep|] eqn:Eep.
  2: { injection H as <-. by apply Hck. }
  destruct Hent as [Hvep Hmax].
  destruct (Nat.eqb_spec (S (nb_point h1)) 1) as [E1|E1].
  { exfalso. rewrite M7, Hcnt in E1. apply (table_size_0_valid h ep); [clear -E1; lia|done]. }
  assert (Hepne : ep <> np) by (intros ->; destruct Hvep as [pt Hpt]; congruence).
  assert (Hvep0 : valid h0 ep).
  { destruct Hvep as [pt Hpt]. exists pt. rewrite Hg0, Ho; done. }
  assert (Hfep : ep.2 = 0%nat) by (unfold first_entry in Hfe; by rewrite Eep in Hfe).
  assert (Hany : forall l, at_layer l ep) by (intros l; by right).
  apply bind_inv in H as (ept & Hept & H). apply unwrap_inv in Hept.
  apply bind_inv in H as ([h2 ep2] & H2 & H). apply bind_inv in H as (h3 & H3 & H).
  apply bind_inv in H as (h4 & H4 & H). injection H as <-.
  assert (Hls : forall l, l ∈ rev (seq (S np.1) (ep.1 - np.1)) -> (np.1 <= l < max_layer h0)%nat /\ own_list h0 np l = Some []).
  { intros l Hl. apply elem_of_list_In, in_rev, in_seq in Hl.
    destruct (core_layer dist h ep Hc Hvep) as [Hl1 Hl2].
    split; [simpl; rewrite M5; clear -Hl Hl1; lia|].
    unfold own_list. rewrite Hg0, Hnew. unfold new_pt. cbn [mbind option_bind pt_nbs].
    apply lookup_replicate_2. clear -Hl Hl2. lia. }
  assert (Hnd : NoDup (rev (seq (S np.1) (ep.1 - np.1)))) by (rewrite <- Permutation_rev; apply NoDup_seq).
  destruct (descend_spec dist so LAWS Hnn (rev (seq (S np.1) (ep.1 - np.1))) h0 np data ep (dist data (pt_data ept)))
    as (h2' & ep2' & D & Hf2 & Hst2 & Hep2 & Hne2); auto.
  { intros l Hl. destruct (Hls l Hl). split; [lia|done]. }
  rewrite D in H2. injection H2 as -> ->.
  destruct (descend_lev _ _ _ _ _ _ _ _ np.1 Hfresh Hvep0 Hepne Hnd Hls HL0 (fun l _ => Hany l) (Hany _) (rev_seq_sorted _ _) D) as [HL2 Ha2].
  assert (ML2 : max_layer h2 = max_layer h) by (destruct Hst2 as ((_ & _ & _ & _ & -> & _) & _); simpl; done).
  assert (HL3 : lev h3).
  { eapply connect_lev; [exact Hf2|exact Hep2|exact Hne2| |exact HL2| |apply rev_seq_sorted|exact H3].
    - intros l Hl. apply elem_of_list_In, in_rev, in_seq in Hl. rewrite ML2. clear -Hl Hlev Hnl. lia.
    - intros l Hl. apply elem_of_list_In, in_rev, in_seq in Hl. eapply at_layer_le; [|exact Ha2]. lia. }
  destruct (connect_spec dist so LAWS Hnn (rev (seq 0 (S np.1))) h2 np data ep2) as (h3' & C & Hf3 & Hst3); auto.
  { intros l Hl. apply elem_of_list_In, in_rev, in_seq in Hl. rewrite ML2. clear -Hl Hlev Hnl. lia. }
  rewrite C in H3. injection H3 as ->.
  destruct (f_pt _ _ _ _ Hf3) as (npt & Hnpt & _).
  destruct (rev_layers_spec dist so LAWS (rev (seq 0 (S np.1))) h3 np npt) as (h4' & R & Hc4 & Hst4 & _); auto.
  { apply Hf3. }
  { intros l Hl. apply elem_of_list_In, in_rev, in_seq in Hl. pose proof (c_max _ _ Hc) as Hcm. clear -Hcm Hl Hlev Hnl. lia. }
  unfold reverse_update in H4. rewrite R in H4. injection H4 as ->.
  apply Hck; [by eapply rev_layers_lev|].
  destruct Hst2 as ((_ & _ & _ & _ & _ & _ & _ & X2 & _) & _), Hst3 as ((_ & _ & _ & _ & _ & _ & _ & X3 & _) & _),
    Hst4 as ((_ & _ & _ & _ & _ & _ & _ & X4 & _) & _). congruence.
Qed.

Lemma evolves_lev inv_ln M ml ef h0 h : hnsw_new inv_ln M ml ef = Ok h0 -> evolves dist so h0 h -> lev h /\ first_entry h.
Proof using LAWS Hnn.
  intros Hn. destruct (hnsw_new_wf dist _ _ _ _ _ Hn) as (W0 & _ & _ & _ & _ & Hst & _).
  assert (W : forall h1, evolves dist so h0 h1 -> wf h1) by (intros h1 Hev; by eapply evolves_facts).
  induction 1 as [h|h h1 v id d h2 Hev IH Hins|h h1 b Hev IH|h h1 b Hev IH|h h1 b Hev IH|h h1 m Hev IH].
  - split.
    + intros p pt l nbs n Hp. exfalso. apply stored_at in Hp. rewrite Hst in Hp. by apply elem_of_nil in Hp.
    + unfold first_entry. pose proof (w_entry _ _ W0) as He. destruct (entry_point h) as [ep|]; [|done].
      exfalso. destruct He as [[pt Hp] _]. apply stored_at in Hp. rewrite Hst in Hp. by apply elem_of_nil in Hp.
  - destruct (IH Hn W0 Hst W) as [? ?]. exact (insert_lev _ _ _ _ _ (W _ Hev) ltac:(done) ltac:(done) Hins).
  - exact (IH Hn W0 Hst W).
  - exact (IH Hn W0 Hst W).
  - exact (IH Hn W0 Hst W).
  - exact (IH Hn W0 Hst W).
Qed.

End Level.
