(** Safety of the programs of the threads (see ConcSafe). *)
From Verif Require Import Prelude Model Lib Table SearchProofs SelectProofs InsertProofs Conc ConcSafe.

Section Safe2.
Context {T : Type} (dist : list T -> list T -> Z) (so : StdOps).
Context (LAWS : StdLaws so) (Hnn : forall a b, (0 <= dist a b)%Z).
Context (N : bnd) (nb0 : nat) (data : list T) (oid : dataid) (dm : dmode) (Hwr : writes dm).
Implicit Types (h : hnsw (T:=T)) (p np ep : pid) (pub : pid -> Prop) (ph : phase).
Local Notation Inv := (Inv dist N nb0).
Local Notation rely := (rely dist N nb0 data oid).
Local Notation act := (act dist N nb0 data oid).
Local Notation ok := (ok dist N nb0 data oid).
Local Notation wpg := (wpg dist N nb0 data oid dm).
Local Notation wp := (wpg [] [] (fun _ _ => False)).
Local Notation ph_ok := (ph_ok data oid).
Local Notation Elts := (Elts dist).
Local Notation post A := (phase -> A -> hnsw (T:=T) -> (pid -> Prop) -> Prop).

Local Ltac rtr := repeat first [eassumption | eapply rely_trans; [eassumption|]].

Lemma rely_ml ph h pub h' pub' : rely ph h pub h' pub' -> max_layer h' = max_layer h.
Proof. intros Hr. by destruct (r_params _ _ _ _ _ _ _ _ _ _ Hr) as (_&_&_&_&->&_). Qed.
Lemma rely_M ph h pub h' pub' : rely ph h pub h' pub' -> max_nb_connection h' = max_nb_connection h.
Proof. intros Hr. by destruct (r_params _ _ _ _ _ _ _ _ _ _ Hr) as (_&->&_). Qed.
Lemma rely_nbc ph h pub h' pub' l : rely ph h pub h' pub' -> nb_conn h' l = nb_conn h l.
Proof. intros Hr. unfold nb_conn. by rewrite (rely_M _ _ _ _ _ Hr). Qed.
Lemma guarded_upd hd h p l f h' :
  upd_nbs h p l f = Ok h' -> (Wr, LPoint p) ∈ hd -> guarded hd h h'.
Proof.
  intros Hu Hin. destruct (upd_nbs_inv _ _ _ _ _ Hu) as (pt & nbs & Hpt & Hn & E1 & E2 & Hm & _).
  destruct Hm as (M1 & M2 & M3 & M4 & M5 & M6 & M7 & M8 & M9 & M10).
  assert (Hv : forall p', valid h' p' -> valid h p').
  { intros p' [pt' Hp']. destruct (decide (p' = p)) as [->|]; [by exists pt|]. rewrite E2 in Hp' by done. by exists pt'. }
  split_and!; auto.
  intros p' _. destruct (decide (p' = p)) as [->|]; [by right|]. left. auto.
Qed.
Lemma ok_core ph h pub : ok ph h pub -> core dist h.
Proof. intros Ho. apply (v_core _ _ _ _ _ (ok_inv _ _ _ _ _ _ _ _ Ho)). Qed.
Lemma ok_ml16 ph h pub l : ok ph h pub -> (l < max_layer h)%nat -> (l < NB_LAYER_MAX)%nat.
Proof. intros Ho ?. pose proof (c_max _ _ (ok_core _ _ _ Ho)). lia. Qed.

(** ** Changing a list *)
Lemma act_upd ph h pub p l f h1 :
  ok ph h pub -> upd_nbs h p l f = Ok h1 ->
  (forall pt nbs, get_pt h p = Some pt -> pt_nbs pt !! l = Some nbs ->
     list_ok dist h p (pt_data pt) l (f nbs) /\ Forall (fun n => pub (n_pid n)) (f nbs) /\
     (nbs <> [] -> f nbs <> [])) ->
  (pub p \/ own ph = Some p) -> (own ph = Some p \/ bnd_lev N l) -> act ph h pub ph h1.
Proof.
  intros Ho Hu Hf Hp Hlv. pose proof (ok_inv _ _ _ _ _ _ _ _ Ho) as Hi. pose proof (ok_ph _ _ _ _ _ _ _ _ Ho) as Hph.
  pose proof (ph_pub _ _ _ _ _ Hph) as Epub.
  destruct (core_upd dist h h1 p l f (v_core _ _ _ _ _ Hi) Hu) as [Hc1 Hst].
  { intros pt nbs H1 H2. by destruct (Hf pt nbs H1 H2). }
  destruct (upd_nbs_inv _ _ _ _ _ Hu) as (pt & nbs & Hg & Hn & Hg' & Hoth & _).
  destruct (Hf pt nbs Hg Hn) as (F1 & F2 & F3).
  pose proof Hst as ((M1 & M2 & M3 & M4 & M5 & M6 & M7 & M8 & M9 & M10) & _ & Hstat).
  assert (Hgr : grows h h1) by (by apply same_table_grows).
  assert (Hinv1 : Inv h1 pub).
  { constructor.
    - done.
    - intros p' pt' l' nbs' n Hp' Hn' Hin. destruct (decide (p' = p)) as [->|Hne].
      + rewrite Hg' in Hp'. injection Hp' as <-. simpl in Hn'. destruct (decide (l' = l)) as [->|Hl].
        * rewrite list_lookup_insert in Hn' by (by eapply lookup_lt_Some). injection Hn' as <-.
          rewrite Forall_forall in F2. by apply F2.
        * rewrite list_lookup_insert_ne in Hn' by done. by eapply (v_links _ _ _ _ _ Hi).
      + rewrite Hoth in Hp' by done. by eapply (v_links _ _ _ _ _ Hi).
    - intros p' Hp'. eapply grows_valid; [done|]. by apply (v_pub _ _ _ _ _ Hi).
    - intros ep He. apply (v_entry _ _ _ _ _ Hi). congruence.
    - unfold bounded. rewrite (same_table_size _ _ Hst), M7. apply Hi.
    - rewrite M7. apply Hi.
    - rewrite M5. apply Hi.
    - rewrite M8. apply Hi. }
  constructor.
  - intros _. eapply Inv_ext; [|exact Hinv1]. intros p'. by rewrite Epub.
  - destruct ph; simpl in *; rewrite ?Hstat, ?Epub; auto.
  - done.
  - by apply same_meta_params, Hst.
  - intros ep He. exists ep. split; [congruence|lia].
  - intros p' l' nbs' Hl' Hne. destruct (decide (p' = p)) as [->|Hp'].
    + rewrite (own_list_upd _ _ _ _ _ _ Hu). destruct (decide (l' = l)) as [->|]; [|eauto].
      rewrite Hl'. simpl. eexists. split; [done|]. unfold own_list in Hl'. rewrite Hg in Hl'. simpl in Hl'.
      rewrite Hn in Hl'. injection Hl' as <-. auto.
    + exists nbs'. split; [|done]. unfold own_list in *. by rewrite Hoth.
  - intros p' Hv Hnp Hno. apply Hoth. intros ->. destruct Hp as [Hp|Hp]; done.
  - apply k_quiet; auto. by apply same_table_size.
  - intros p' l' Hv Hno Hnl. destruct (decide (p' = p)) as [->|Hne].
    + rewrite (own_list_upd _ _ _ _ _ _ Hu). rewrite decide_False; [done|]. intros ->. by destruct Hlv.
    + unfold own_list. by rewrite Hoth.
Qed.

(** the list of the thread's own point, not yet known to the others *)
Lemma act_own np h pub l nv h1 :
  ok (P2 np) h pub -> upd_nbs h np l (fun _ => nv) = Ok h1 ->
  Elts h pub data nv -> sorted_by n_dist nv -> (length nv <= nb_conn h l)%nat ->
  ((0 < nb_conn h l)%nat -> nv <> []) ->
  act (P2 np) h pub (P2 np) h1.
Proof.
  intros Ho Hu (G1 & G2 & G3) Hs Hlen Hne. pose proof (ok_ph _ _ _ _ _ _ _ _ Ho) as [Hstat Hnpub].
  eapply act_upd; [done..| |by right|by left].
  intros pt nbs Hpt Hn. unfold static in Hstat. rewrite Hpt in Hstat. simpl in Hstat. injection Hstat as Ed _ _.
  split_and!; auto.
  - constructor; auto.
    + intros (n & -> & Hin)%elem_of_list_fmap. rewrite Forall_forall in G3. by apply Hnpub, G3.
    + eapply Forall_impl; [exact G1|]. intros n (q & Hq & Hd). exists q. rewrite Ed. auto.
  - intros Hnn0. apply Hne. pose proof (lo_cap _ _ _ _ _ _ (c_lists _ _ (ok_core _ _ _ Ho) _ _ _ _ Hpt Hn)).
    destruct nbs; [done|]. simpl in *. lia.
Qed.

(** ** select_neighbours *)
Lemma wp_collect ph l cset : forall todo acc (Q : post (list pid)) h pub,
  ok ph h pub -> (l < max_layer h)%nat ->
  Forall pub todo -> NoDup acc -> (forall p, p ∈ acc -> p ∉ cset) -> Forall pub acc ->
  (forall h' pub' news, rely ph h pub h' pub' -> NoDup news -> (forall p, p ∈ news -> p ∉ cset) ->
     Forall pub' news -> Q ph news h' pub') ->
  wp ph (collect_p l cset todo acc) Q h pub.
Proof.
  induction todo as [|p todo IH]; intros acc Q h pub Ho Hl Ht Hnd Hd Ha HQ; cbn [collect_p].
  - apply wp_ret. intros h' pub' Hr. apply HQ; auto.
    eapply Forall_impl; [exact Ha|]. intros p. apply (r_pub _ _ _ _ _ _ _ _ _ _ Hr).
  - inversion Ht as [|? ? Hp Ht']; subst.
    apply wp_bind; [done|]. apply wp_read; [done|]. intros h1 pub1 Hr1.
    pose proof (r_inv _ _ _ _ _ _ _ _ _ _ Hr1) as Hi1.
    assert (Hp1 : pub1 p) by (by apply (r_pub _ _ _ _ _ _ _ _ _ _ Hr1)).
    assert (Hl16 : (l < NB_LAYER_MAX)%nat) by exact (ok_ml16 _ _ _ _ Ho Hl).
    destruct (v_pub _ _ _ _ _ Hi1 p Hp1) as [pt Hpt].
    destruct (Inv_links _ _ _ _ _ l Hi1 Hl16 p pt Hp1 Hpt) as (nbs & Hn & Hin).
    exists nbs. split; [unfold read_list; by rewrite Hpt; simpl; rewrite Hn|].
    intros h2 pub2 Hr2. destruct (add_new_spec cset nbs acc Hnd Hd) as [H1 H2].
    assert (Hr : rely ph h pub h2 pub2) by rtr.
    apply IH; auto.
    + by eapply rely_ok.
    + by rewrite (rely_ml _ _ _ _ _ Hr).
    + eapply Forall_impl; [exact Ht'|]. intros p'. apply (r_pub _ _ _ _ _ _ _ _ _ _ Hr).
    + intros p' Hp'. by apply H2.
    + rewrite Forall_forall. intros p' Hp'. destruct (H2 p' Hp') as [_ [Hin'|(n & Hn' & <-)]].
      * rewrite Forall_forall in Ha. by apply (r_pub _ _ _ _ _ _ _ _ _ _ Hr), Ha.
      * apply (r_pub _ _ _ _ _ _ _ _ _ _ Hr2). by apply Hin.
    + intros h3 pub3 news Hr3. apply HQ. rtr.
Qed.

Lemma select_loop_grows fuel h asked keep : forall cand nv disc nv' disc',
  select_loop dist so fuel h asked keep cand nv disc = Ok (nv', disc') -> exists ext, nv' = nv ++ ext.
Proof.
  assert (H0 : forall nv : list nbr, exists ext, nv = nv ++ ext) by (intros nv; exists []; by rewrite app_nil_r).
  induction fuel as [|fuel IH]; intros cand nv disc nv' disc' H; simpl in H.
  - destruct (_ <? _)%nat; [|by injection H as <- <-]. destruct (h_pop so cand) as [[? ?]|]; [done|].
    by injection H as <- <-.
  - destruct (_ <? _)%nat; [|by injection H as <- <-].
    destruct (h_pop so cand) as [[e cand']|]; [|by injection H as <- <-].
    apply bind_inv in H as (? & _ & H). apply bind_inv in H as (? & _ & H). apply bind_inv in H as (dom & _ & H).
    destruct dom; [by eapply IH|]. apply IH in H as (ext & ->). eexists. by rewrite <- app_assoc.
Qed.

Lemma select_loop_first fuel h asked keep cand disc nv' disc' :
  select_loop dist so fuel h asked keep cand [] disc = Ok (nv', disc') ->
  (0 < asked)%nat -> h_iter so cand <> [] -> nv' <> [].
Proof.
  intros H Ha Hne. destruct (h_pop_nonempty so LAWS cand Hne) as (e & r & E).
  destruct fuel as [|fuel]; cbn [select_loop length] in H.
  - destruct (Nat.ltb_spec 0 asked); [|lia]. by rewrite E in H.
  - destruct (Nat.ltb_spec 0 asked); [|lia]. rewrite E in H.
    apply bind_inv in H as (? & _ & H). apply bind_inv in H as (? & _ & H). apply bind_inv in H as (dom & Hd & H).
    simpl in Hd. injection Hd as <-. apply select_loop_grows in H as (ext & ->). done.
Qed.

Lemma keep_loop_grows fuel asked : forall nv disc nv',
  keep_loop so fuel asked nv disc = Ok nv' -> exists ext, nv' = nv ++ ext.
Proof.
  assert (H0 : forall nv : list nbr, exists ext, nv = nv ++ ext) by (intros nv; exists []; by rewrite app_nil_r).
  induction fuel as [|fuel IH]; intros nv disc nv' H; simpl in H.
  - destruct (_ <? _)%nat; [|by injection H as <-]. destruct (h_pop so disc) as [[? ?]|]; [done|].
    by injection H as <-.
  - destruct (_ <? _)%nat; [|by injection H as <-].
    destruct (h_pop so disc) as [[e cand']|]; [|by injection H as <-].
    apply bind_inv in H as (? & _ & H). apply IH in H as (ext & ->). eexists. by rewrite <- app_assoc.
Qed.

(** l.1338-1383 once the candidates are known *)
Lemma select_rest h pub q cand asked keep :
  cands_good dist h q pub (h_iter so cand) ->
  exists nv, ('(nv, disc) ← select_loop dist so (h_len so cand) h asked keep cand [] (h_empty so);
      if (keep : bool) then keep_loop so (h_len so disc) asked nv disc else Ok nv) = Ok nv /\
    Elts h pub q nv /\ (length nv <= asked)%nat /\
    ((0 < asked)%nat -> h_iter so cand <> [] -> nv <> []).
Proof.
  intros (Hc1 & Hc2 & Hc3).
  destruct (select_loop_spec dist so LAWS Hnn h q pub (h_len so cand) asked keep cand [] (h_empty so))
    as (nv & disc & E & Hg & Hlen); simpl; try lia.
  { rewrite (law_iter_empty _ LAWS). unfold sel_good. simpl. rewrite !app_nil_r. split_and!; auto. }
  rewrite E, bind_Ok.
  assert (Hfirst : (0 < asked)%nat -> h_iter so cand <> [] -> nv <> []) by (by eapply select_loop_first).
  destruct keep.
  - destruct (keep_loop_spec dist so LAWS Hnn h q pub (h_len so disc) asked nv disc) as (nv' & E' & G & L); auto.
    exists nv'. split; [done|]. split; [done|]. split; [done|]. intros H1 H2.
    apply keep_loop_grows in E' as (ext & ->). specialize (Hfirst H1 H2). by destruct nv.
  - exists nv. split; [done|]. split; [by eapply sel_elts|]. done.
Qed.

Lemma wp_select ph q cand asked ext l keep (Q : post (list nbr)) h pub :
  ok ph h pub -> (l < max_layer h)%nat -> cands_good dist h q pub (h_iter so cand) ->
  (forall h' pub' nv, rely ph h pub h' pub' -> Elts h' pub' q nv -> (length nv <= asked)%nat ->
     ((0 < asked)%nat -> h_iter so cand <> [] -> nv <> []) -> Q ph nv h' pub') ->
  wp ph (select_neighbours_p dist so q cand asked ext l keep) Q h pub.
Proof.
  intros Ho Hl Hc HQ. unfold select_neighbours_p.
  destruct (Nat.leb_spec (h_len so cand) asked) as [Hfew|Hmany]; cbn [andb].
  2: { change (ret cand ≫= ?k) with (k cand). apply wp_peek; [done|]. intros h1 pub1 Hr1.
       destruct (select_rest h1 pub1 q cand asked keep) as (nv & E & G & L & F).
       { by eapply Cands_rely. }
       exists nv. split; [exact E|]. intros h2 pub2 Hr2. apply HQ; auto; [rtr|by eapply Elts_rely]. }
  destruct ext; cbn [negb].
  2: { destruct Hc as (Hc1 & Hc2 & Hc3).
       destruct (transfer_spec dist so LAWS Hnn h q (h_len so cand) cand [] Hc1) as (nv & -> & Hp); [lia|].
       simpl in Hp. split; [done|]. intros h1 pub1 Hr1 _. apply HQ; auto.
       - eapply Elts_rely; [exact Hr1|]. unfold ConcSafe.Elts, elts_good. rewrite Hp. split_and!.
         + apply Forall_fmap. eapply Forall_impl; [exact Hc1|]. intros n. by apply negn_cand_elt.
         + by rewrite negn_pid.
         + apply Forall_fmap. eapply Forall_impl; [exact Hc3|]. done.
       - rewrite Hp, fmap_length. done.
       - intros _ Hne ->. apply Permutation_nil_l in Hp. by destruct (h_iter so cand). }
  apply wp_bind; [done|]. unfold extend_cands_p.
  set (cset := remove_dups (n_pid <$> h_iter so cand)).
  assert (Hcs : Forall pub cset).
  { rewrite Forall_forall. intros p Hp. apply elem_of_remove_dups, elem_of_list_fmap in Hp as (n & -> & Hn).
    destruct Hc as (_ & _ & Hc3). rewrite Forall_forall in Hc3. auto. }
  apply wp_bind; [done|]. apply wp_collect; auto.
  { by rewrite (law_miter _ LAWS). }
  { constructor. }
  { by intros p ?%elem_of_nil. }
  intros h1 pub1 news Hr1 Hnd Hdis Hnews.
  apply wp_peek; [by eapply rely_ok|]. intros h2 pub2 Hr2.
  assert (Hr : rely ph h pub h2 pub2) by rtr.
  pose proof (Cands_rely _ _ _ _ _ _ _ _ _ _ _ _ Hr Hc) as (Hc1 & Hc2 & Hc3).
  assert (Hnews2 : Forall pub2 news).
  { eapply Forall_impl; [exact Hnews|]. intros p. apply (r_pub _ _ _ _ _ _ _ _ _ _ Hr2). }
  destruct (push_candidates_spec dist so LAWS h2 q (m_iter so pid news) cand) as (cand' & E & Hc' & Hp); auto.
  { rewrite (law_miter _ LAWS). eapply Forall_impl; [exact Hnews2|].
    apply (v_pub _ _ _ _ _ (r_inv _ _ _ _ _ _ _ _ _ _ Hr2)). }
  exists cand'. split; [exact E|]. rewrite (law_miter _ LAWS) in Hp.
  assert (Hg' : cands_good dist h2 q pub2 (h_iter so cand')).
  { split; [done|]. split.
    - rewrite Hp. apply NoDup_app. split_and!; auto.
      intros p Hp1 Hp2. apply (Hdis p Hp1). unfold cset. by apply elem_of_remove_dups.
    - apply Forall_fmap. change (Forall pub2 (n_pid <$> h_iter so cand')). rewrite Hp.
      apply Forall_app. split; [done|]. by apply Forall_fmap. }
  intros h3 pub3 Hr3. apply wp_peek; [by eapply rely_ok|]. intros h4 pub4 Hr4.
  assert (Hr24 : rely ph h2 pub2 h4 pub4) by rtr.
  destruct (select_rest h4 pub4 q cand' asked keep) as (nv & E4 & G & L & F).
  { by eapply Cands_rely. }
  exists nv. split; [exact E4|]. intros h5 pub5 Hr5. apply HQ; auto.
  - rtr.
  - by eapply Elts_rely.
  - intros Ha Hne. apply F; [done|]. intros En. rewrite En in Hp. simpl in Hp.
    apply Permutation_nil_l in Hp. destruct (h_iter so cand); [done|]. by destruct news.
Qed.

(** ** The insertion before the point is known to the others *)
Lemma own_rely np h pub h' pub' l : rely (P2 np) h pub h' pub' -> own_list h' np l = own_list h np l.
Proof. intros Hr. unfold own_list. by rewrite (r_own _ _ _ _ _ _ _ _ _ _ Hr np). Qed.

Lemma own_nbs np h pub l nbs : ok (P2 np) h pub -> own_list h np l = Some nbs ->
  exists npt, get_pt h np = Some npt /\ pt_nbs npt !! l = Some nbs.
Proof.
  intros _ H. unfold own_list in H. destruct (get_pt h np) as [npt|]; [|done]. eauto.
Qed.

Lemma own_some np h pub l : ok (P2 np) h pub -> (l < NB_LAYER_MAX)%nat -> exists nbs, own_list h np l = Some nbs.
Proof.
  intros Ho Hl. destruct (ok_ph _ _ _ _ _ _ _ _ Ho) as [Hs _]. unfold static in Hs.
  unfold own_list. destruct (get_pt h np) as [npt|] eqn:E; [|done]. simpl.
  eapply (core_nbs dist); [by eapply ok_core|done|done].
Qed.

Lemma wp_descend_use np l hp ep dte (Q : post (pid * Z)) h pub :
  ok (P2 np) h pub -> (l < max_layer h)%nat -> own_list h np l = Some [] ->
  Found dist so h pub data 1 None ep hp -> pub ep ->
  (forall h' pub' r, ok (P2 np) h' pub' -> max_layer h' = max_layer h -> ne_mono h h' -> pub' r.1 ->
     (forall p, pub p -> pub' p) ->
     (forall l', l' <> l -> own_list h' np l' = own_list h np l') -> Q (P2 np) r h' pub') ->
  wp (P2 np) (descend_use_p dist so np data l hp ep dte) Q h pub.
Proof.
  intros Ho Hl Hown (Hel & Hlen & _) Hep HQ. unfold descend_use_p.
  destruct (Nat.ltb_spec 1 (h_len so hp)) as [?|_]; [simpl in Hlen; lia|].
  destruct (h_pop so hp) as [[e r]|] eqn:E.
  2: { apply wp_ret. intros h' pub' Hr. apply HQ.
       - by eapply rely_ok.
       - by eapply rely_ml.
       - apply Hr.
       - by apply (r_pub _ _ _ _ _ _ _ _ _ _ Hr).
       - apply (r_pub _ _ _ _ _ _ _ _ _ _ Hr).
       - intros l' _. by eapply own_rely. }
  destruct (law_pop_some _ LAWS _ _ _ E) as [Hp _].
  assert (He : Elts h pub data [e]).
  { destruct Hel as (G1 & G2 & G3). rewrite Hp in G1, G3. inversion G1; subst. inversion G3; subst.
    split_and!; repeat constructor; auto. apply not_elem_of_nil. }
  clear Hel Hp E r Hlen.
  apply wp_bind; [done|]. apply wp_read; [done|]. intros h1 pub1 Hr1.
  pose proof (own_rely _ _ _ _ _ l Hr1) as Hown1. rewrite Hown in Hown1.
  destruct (own_nbs np h1 pub1 l [] (rely_ok _ _ _ _ _ _ _ _ _ _ Hr1) Hown1) as (npt & Hnp & Hn).
  eexists. split; [unfold read_list; rewrite Hnp; simpl; rewrite Hn; reflexivity|].
  intros h2 pub2 Hr2. cbn beta.
  (* the part after the test *)
  assert (Hrest : forall h3 pub3, ok (P2 np) h3 pub3 -> max_layer h3 = max_layer h -> ne_mono h h3 ->
      (forall p, pub p -> pub3 p) -> grows h h3 ->
      (forall l', l' <> l -> own_list h3 np l' = own_list h np l') ->
      wp (P2 np) (tmp ← peek (fun h => ept ← unwrap (get_pt h (n_pid e)); Ok (dist data (pt_data ept)));
         ret (if (tmp <? dte)%Z then (n_pid e, tmp) else (ep, dte))) Q h3 pub3).
  { intros h3 pub3 Ho3 Eml Hne3 Hpub3 Hgr3 Hown3. apply wp_bind; [done|]. apply wp_peek; [done|].
    intros h4 pub4 Hr4. destruct He as (G1 & _ & G3). inversion G1 as [|? ? (ept & Hept & _) _]; subst.
    inversion G3 as [|? ? Hpe _]; subst.
    destruct (grows_get h h4 (n_pid e) ept) as (ept4 & Hept4 & _);
      [eapply grows_trans; [exact Hgr3|apply Hr4]|done|].
    rewrite Hept4. eexists. split; [reflexivity|]. intros h5 pub5 Hr5. apply wp_ret. intros h6 pub6 Hr6.
    assert (Hr : rely (P2 np) h3 pub3 h6 pub6) by rtr.
    apply HQ.
    - by eapply rely_ok.
    - by rewrite (rely_ml _ _ _ _ _ Hr).
    - eapply ne_mono_trans; [exact Hne3|apply Hr].
    - destruct (_ <? dte)%Z; simpl; by apply (r_pub _ _ _ _ _ _ _ _ _ _ Hr), Hpub3.
    - intros p Hpp. by apply (r_pub _ _ _ _ _ _ _ _ _ _ Hr), Hpub3.
    - intros l' Hl'. rewrite (own_rely _ _ _ _ _ l' Hr). auto. }
  assert (Hr : rely (P2 np) h pub h2 pub2) by rtr.
  destruct (Nat.ltb_spec (length (@nil nbr)) (get_max_nb_connection h1)) as [Hlt|_].
  2: { change (ret tt ≫= ?k) with (k tt). apply Hrest.
       - by eapply rely_ok.
       - by eapply rely_ml.
       - apply Hr.
       - apply (r_pub _ _ _ _ _ _ _ _ _ _ Hr).
       - apply Hr.
       - intros l' _. by eapply own_rely. }
  apply wp_bind; [by eapply rely_ok|]. apply wp_write; [by eapply rely_ok|done|]. intros h3 pub3 Hr3.
  assert (Hr' : rely (P2 np) h pub h3 pub3) by rtr.
  pose proof (own_rely _ _ _ _ _ l Hr') as Hown3. rewrite Hown in Hown3.
  pose proof (rely_ok _ _ _ _ _ _ _ _ _ _ Hr') as Ho3.
  destruct (own_nbs np h3 pub3 l [] Ho3 Hown3) as (npt3 & Hnp3 & Hn3).
  destruct (upd_nbs_ok h3 np l (fun nbs => nbs ++ [e]) _ _ Hnp3 Hn3) as [h4 Hu].
  pose proof Hu as Hu'. rewrite (upd_nbs_const _ _ _ _ _ _ Hnp3 Hn3) in Hu'. simpl in Hu'.
  rewrite Hu. exists (P2 np), h4, tt. split; [done|].
  assert (HM : (1 <= nb_conn h3 l)%nat).
  { unfold get_max_nb_connection in Hlt. cbn [length] in Hlt.
    assert (max_nb_connection h3 = max_nb_connection h1) as EM.
    { rewrite (rely_M _ _ _ _ _ Hr'). by rewrite (rely_M _ _ _ _ _ Hr1). }
    unfold nb_conn. rewrite EM.
    assert (1 <= max_nb_connection h1)%nat.
    { destruct (max_nb_connection h1) eqn:E0; [by apply Nat.lt_irrefl in Hlt|lia]. }
    destruct (l =? 0)%nat; lia. }
  assert (Ha : act (P2 np) h3 pub3 (P2 np) h4).
  { eapply act_own; [exact Ho3|exact Hu'|exact (Elts_rely _ _ _ _ _ _ _ _ _ _ _ _ Hr' He)|repeat constructor|simpl; lia|done]. }
  split; [done|]. split; [eapply guarded_upd; [exact Hu|left]|]. intros h5 pub5 Hr5. apply Hrest.
  - by eapply rely_ok.
  - rewrite (rely_ml _ _ _ _ _ Hr5). destruct (a_params _ _ _ _ _ _ _ _ _ _ Ha) as (_&_&_&_&->&_).
    by eapply rely_ml.
  - eapply ne_mono_trans; [apply Hr'|]. eapply ne_mono_trans; [apply Ha|apply Hr5].
  - intros p Hpp. apply (r_pub _ _ _ _ _ _ _ _ _ _ Hr5). left. by apply (r_pub _ _ _ _ _ _ _ _ _ _ Hr').
  - eapply grows_trans; [apply Hr'|]. eapply grows_trans; [apply Ha|apply Hr5].
  - intros l' Hl'. rewrite (own_rely _ _ _ _ _ l' Hr5), (own_list_upd _ _ _ _ _ _ Hu).
    rewrite decide_False by done. by eapply own_rely.
Qed.

Lemma wp_descend F np : forall ls ep dte (Q : post pid) h pub,
  ok (P2 np) h pub -> (N < F)%nat -> pub ep -> NoDup ls ->
  (forall l, l ∈ ls -> (l < max_layer h)%nat /\ own_list h np l = Some []) ->
  (forall h' pub' ep', ok (P2 np) h' pub' -> max_layer h' = max_layer h ->
     (forall p, pub p -> pub' p) -> pub' ep' -> Q (P2 np) ep' h' pub') ->
  wp (P2 np) (descend_p dist so F ls np data ep dte) Q h pub.
Proof.
  induction ls as [|l ls IH]; intros ep dte Q h pub Ho HF Hep Hnd Hls HQ; cbn [descend_p].
  - apply wp_ret. intros h' pub' Hr. apply HQ.
    + by eapply rely_ok.
    + by eapply rely_ml.
    + apply (r_pub _ _ _ _ _ _ _ _ _ _ Hr).
    + by apply (r_pub _ _ _ _ _ _ _ _ _ _ Hr).
  - destruct (Hls l) as [Hl Hown]; [left|]. inversion Hnd; subst.
    apply wp_bind; [done|]. apply wp_search_layer; auto. intros h1 pub1 hp Hr1 Hfound _.
    pose proof (rely_ml _ _ _ _ _ Hr1) as Eml1.
    apply wp_bind; [by eapply rely_ok|]. eapply wp_descend_use.
    + by eapply rely_ok.
    + by rewrite Eml1.
    + rewrite (own_rely _ _ _ _ _ l Hr1). done.
    + exact Hfound.
    + by apply (r_pub _ _ _ _ _ _ _ _ _ _ Hr1).
    + intros h2 pub2 r Ho2 Eml2 _ Hr2 Hpub2 Hown2. apply IH; auto.
      * intros l' Hl'. destruct (Hls l') as [? Hown']; [by right|]. split; [congruence|].
        rewrite Hown2 by (by intros ->). by rewrite (own_rely _ _ _ _ _ l' Hr1).
      * intros h3 pub3 ep3 Ho3 Eml3 Hpub3. apply HQ; [done|congruence|].
        intros p Hp. by apply Hpub3, Hpub2, (r_pub _ _ _ _ _ _ _ _ _ _ Hr1).
Qed.

(** the own list at the level of the point is not empty *)
Definition linked h np : Prop :=
  (0 < max_nb_connection h)%nat -> exists nbs, own_list h np np.1 = Some nbs /\ nbs <> [].

Lemma linked_ne h h' np :
  max_nb_connection h' = max_nb_connection h -> ne_mono h h' -> linked h np -> linked h' np.
Proof. intros EM Hne Hl HM. rewrite EM in HM. destruct (Hl HM) as (nbs & H1 & H2). eauto. Qed.

Lemma linked_rely ph h pub h' pub' np : rely ph h pub h' pub' -> linked h np -> linked h' np.
Proof. intros Hr. apply linked_ne; [by eapply rely_M|apply Hr]. Qed.

Lemma wp_connect_use np l hp ef ep (Q : post pid) h pub :
  ok (P2 np) h pub -> (l < max_layer h)%nat ->
  Found dist so h pub data ef None ep hp -> pub ep ->
  (forall h' pub' ep', ok (P2 np) h' pub' -> max_layer h' = max_layer h ->
     max_nb_connection h' = max_nb_connection h -> ne_mono h h' ->
     (forall p, pub p -> pub' p) -> pub' ep' ->
     (h_iter so hp <> [] -> (0 < max_nb_connection h)%nat ->
        exists nbs, own_list h' np l = Some nbs /\ nbs <> []) -> Q (P2 np) ep' h' pub') ->
  wp (P2 np) (connect_use_p dist so np data l hp ep) Q h pub.
Proof.
  intros Ho Hl (Hel & _ & _) Hep HQ. unfold connect_use_p.
  destruct Hel as (G1 & G2 & G3).
  destruct (from_pos_spec dist so LAWS Hnn h data hp G1) as (neg & -> & Hneg).
  change (Halt (Ok neg) ≫= ?k) with (k neg). cbn beta.
  assert (Hc : cands_good dist h data pub (h_iter so neg)).
  { split_and!; rewrite Hneg.
    - apply Forall_fmap. eapply Forall_impl; [exact G1|]. intros n. by apply negn_elt_cand.
    - by rewrite negn_pid.
    - apply Forall_fmap. eapply Forall_impl; [exact G3|]. done. }
  assert (Hnegne : h_iter so hp <> [] -> h_iter so neg <> []).
  { intros Hne En. rewrite En in Hneg. apply Permutation_nil_l in Hneg. by destruct (h_iter so hp). }
  destruct (Nat.eqb_spec (h_len so neg) 0) as [E0|E0].
  { apply wp_ret. intros h' pub' Hr. apply HQ.
    - by eapply rely_ok.
    - by eapply rely_ml.
    - by eapply rely_M.
    - apply Hr.
    - apply (r_pub _ _ _ _ _ _ _ _ _ _ Hr).
    - by apply (r_pub _ _ _ _ _ _ _ _ _ _ Hr).
    - intros Hne _. exfalso. apply Hnegne in Hne. by apply h_len_0 in E0. }
  assert (Hnn0 : h_iter so neg <> []).
  { intros En. apply E0. unfold h_len. by rewrite En. }
  apply wp_bind; [done|]. apply wp_peek; [done|]. intros h1 pub1 Hr1.
  eexists. split; [reflexivity|]. intros h2 pub2 Hr2. cbn [fst snd].
  assert (Hr02 : rely (P2 np) h pub h2 pub2) by rtr.
  apply wp_bind; [by eapply rely_ok|]. apply wp_select.
  { by eapply rely_ok. }
  { by rewrite (rely_ml _ _ _ _ _ Hr02). }
  { by eapply Cands_rely. }
  intros h3 pub3 nv Hr3 Hnv Hlen Hnvne. cbv zeta.
  set (sv := u_sort so nbr n_dist nv).
  assert (Hperm : sv ≡ₚ nv) by apply (law_usort_perm _ LAWS).
  assert (Hr03 : rely (P2 np) h pub h3 pub3) by rtr.
  apply wp_bind; [by eapply rely_ok|]. apply wp_write; [by eapply rely_ok|done|]. intros h4 pub4 Hr4.
  assert (Hr04 : rely (P2 np) h pub h4 pub4) by rtr.
  pose proof (rely_ok _ _ _ _ _ _ _ _ _ _ Hr04) as Ho4.
  assert (Hl16 : (l < NB_LAYER_MAX)%nat) by exact (ok_ml16 _ _ _ _ Ho Hl).
  destruct (own_some np h4 pub4 l Ho4 Hl16) as [nbs Hown].
  destruct (own_nbs np h4 pub4 l nbs Ho4 Hown) as (npt & Hnp & Hn).
  destruct (upd_nbs_ok h4 np l (fun _ => sv) _ _ Hnp Hn) as [h5 Hu]. rewrite Hu.
  exists (P2 np), h5, tt. split; [done|].
  assert (Hsv : Elts h4 pub4 data sv).
  { eapply Elts_rely in Hnv; [|exact Hr4]. destruct Hnv as (?&?&?).
    split_and!; by rewrite Hperm. }
  assert (Hsne : (0 < nb_conn h l)%nat -> sv <> []).
  { intros Hpos Es. rewrite Es in Hperm. apply Permutation_nil_l in Hperm. apply Hnvne; auto.
    by rewrite (rely_nbc _ _ _ _ _ _ Hr1). }
  assert (Ha : act (P2 np) h4 pub4 (P2 np) h5).
  { eapply act_own; [exact Ho4|exact Hu|done|apply (law_usort _ LAWS)|..].
    - rewrite Hperm. rewrite (rely_nbc _ _ _ _ _ _ Hr04). by rewrite (rely_nbc _ _ _ _ _ _ Hr1) in Hlen.
    - rewrite (rely_nbc _ _ _ _ _ _ Hr04). done. }
  split; [done|]. split; [eapply guarded_upd; [exact Hu|left]|]. intros h6 pub6 Hr6. apply wp_ret. intros h7 pub7 Hr7.
  assert (Hr57 : rely (P2 np) h5 (pubadd pub4 (P2 np)) h7 pub7) by rtr.
  apply HQ.
  - by eapply rely_ok.
  - rewrite (rely_ml _ _ _ _ _ Hr57). destruct (a_params _ _ _ _ _ _ _ _ _ _ Ha) as (_&_&_&_&->&_).
    by eapply rely_ml.
  - rewrite (rely_M _ _ _ _ _ Hr57). destruct (a_params _ _ _ _ _ _ _ _ _ _ Ha) as (_&->&_).
    by eapply rely_M.
  - eapply ne_mono_trans; [apply Hr04|]. eapply ne_mono_trans; [apply Ha|apply Hr57].
  - intros p Hpp. apply (r_pub _ _ _ _ _ _ _ _ _ _ Hr57). left. by apply (r_pub _ _ _ _ _ _ _ _ _ _ Hr04).
  - apply (r_pub _ _ _ _ _ _ _ _ _ _ Hr57). left. destruct sv as [|n ns].
    + by apply (r_pub _ _ _ _ _ _ _ _ _ _ Hr04).
    + destruct Hsv as (_ & _ & G). by inversion G.
  - intros _ HM. exists sv. split.
    + rewrite (own_rely _ _ _ _ _ l Hr57), (own_list_upd _ _ _ _ _ _ Hu), decide_True by done.
      by rewrite Hown.
    + apply Hsne. unfold nb_conn. destruct (l =? 0)%nat; lia.
Qed.

Lemma wp_connect F np : forall ls ep (Q : post unit) h pub,
  ok (P2 np) h pub -> (N < F)%nat -> pub ep ->
  (forall l, l ∈ ls -> (l < max_layer h)%nat) -> (np.1 ∈ ls \/ linked h np) ->
  (forall h' pub', ok (P2 np) h' pub' -> max_layer h' = max_layer h -> linked h' np -> Q (P2 np) tt h' pub') ->
  wp (P2 np) (connect_p dist so F ls np data ep) Q h pub.
Proof.
  induction ls as [|l ls IH]; intros ep Q h pub Ho HF Hep Hls Hlink HQ; cbn [connect_p].
  - apply wp_ret. intros h' pub' Hr. apply HQ.
    + by eapply rely_ok.
    + by eapply rely_ml.
    + destruct Hlink as [Hin|Hlink]; [by apply elem_of_nil in Hin|]. by eapply linked_rely.
  - apply wp_bind; [done|]. apply wp_peek; [done|]. intros h1 pub1 Hr1. eexists. split; [reflexivity|].
    intros h2 pub2 Hr2. assert (Hr : rely (P2 np) h pub h2 pub2) by rtr.
    pose proof (rely_ok _ _ _ _ _ _ _ _ _ _ Hr) as Ho2.
    apply wp_bind; [done|]. apply wp_search_layer; auto.
    { rewrite (rely_ml _ _ _ _ _ Hr). apply Hls. left. }
    { by apply (r_pub _ _ _ _ _ _ _ _ _ _ Hr). }
    intros h3 pub3 hp Hr3 Hfound Hnehp.
    assert (Hr03 : rely (P2 np) h pub h3 pub3) by rtr.
    apply wp_bind; [by eapply rely_ok|]. eapply wp_connect_use.
    + by eapply rely_ok.
    + rewrite (rely_ml _ _ _ _ _ Hr03). apply Hls. left.
    + exact Hfound.
    + by apply (r_pub _ _ _ _ _ _ _ _ _ _ Hr03).
    + intros h4 pub4 ep4 Ho4 Eml4 EM4 Hne4 Hpub4 Hep4 Hown4. apply IH; auto.
      * intros l' Hl'. rewrite Eml4, (rely_ml _ _ _ _ _ Hr03). apply Hls. by right.
      * destruct Hlink as [[E|Hin]%elem_of_cons|Hlink].
        -- right. intros HM. rewrite E. rewrite EM4 in HM. apply Hown4; [|done].
           apply Hnehp. exists np. split; [|done].
           destruct (ok_ph _ _ _ _ _ _ _ _ Ho2) as [Hs _]. unfold static in Hs. unfold valid.
           destruct (get_pt h2 np); [by eexists|done].
        -- by left.
        -- right. eapply linked_ne; [exact EM4|exact Hne4|]. by eapply linked_rely.
      * intros h5 pub5 Ho5 Eml5 Hl5. apply HQ; [done| |done].
        rewrite Eml5, Eml4. by eapply rely_ml.
Qed.

(** ** The reverse update *)

(** the point becomes known to the others *)
Lemma act_publish ph np h pub :
  ok ph h pub -> (ph = P2 np \/ ph = P3 np) -> act ph h pub (P3 np) h.
Proof.
  intros Ho Hph. pose proof (ok_inv _ _ _ _ _ _ _ _ Ho) as Hi. pose proof (ok_ph _ _ _ _ _ _ _ _ Ho) as Hp.
  assert (Hs : static h np = Some (data, oid, np)) by (destruct Hph as [-> | ->]; apply Hp).
  constructor; auto using grows_refl, params_refl, entry_mono_refl, ne_mono_refl.
  - intros _. destruct Hi. constructor; auto.
    + intros. left. eauto.
    + intros p [Hpp|[= <-]]; [auto|]. unfold static in Hs. unfold valid. destruct (get_pt h np); [by eexists|done].
    + intros ep He. left. auto.
  - split; [done|]. by right.
  - apply k_quiet; auto. destruct Hph as [-> | ->]; eauto.
Qed.

Lemma Refs_rely ph h pub h' pub' qs :
  rely ph h pub h' pub' ->
  Forall (fun n => exists pt, get_pt h (n_pid n) = Some pt /\
     (n_dist n = dist data (pt_data pt) \/ n_dist n = dist (pt_data pt) data)) qs ->
  Forall (fun n => exists pt, get_pt h' (n_pid n) = Some pt /\
     (n_dist n = dist data (pt_data pt) \/ n_dist n = dist (pt_data pt) data)) qs.
Proof.
  intros Hr H. eapply Forall_impl; [exact H|]. intros q (pt & Hpt & Hd).
  destruct (grows_get _ _ _ _ (r_grows _ _ _ _ _ _ _ _ _ _ Hr) Hpt) as (pt' & ? & E & _). exists pt'. by rewrite E.
Qed.

Lemma rev_list_ne M np d nbs : (0 < M)%nat -> nbs <> [] -> rev_list so M np d nbs <> [].
Proof.
  intros HM Hne. unfold rev_list. destruct (bool_decide _); [done|].
  pose proof (law_usort_perm _ LAWS nbr n_dist (nbs ++ [Nbr np d])) as Hp.
  apply Permutation_length in Hp. rewrite app_length in Hp. simpl in Hp.
  destruct nbs as [|x nbs]; [done|]. simpl in Hp.
  intros E. apply (f_equal length) in E. destruct (_ <? _)%nat; [rewrite take_length in E|]; simpl in *; lia.
Qed.

Lemma rev_list_elem M np d nbs n : n ∈ rev_list so M np d nbs -> n ∈ nbs \/ n_pid n = np.
Proof.
  unfold rev_list. destruct (bool_decide _); [by left|].
  pose proof (law_usort_perm _ LAWS nbr n_dist (nbs ++ [Nbr np d])) as Hp.
  assert (H : n ∈ u_sort so nbr n_dist (nbs ++ [Nbr np d]) -> n ∈ nbs \/ n_pid n = np).
  { rewrite Hp. intros [?|Hx]%elem_of_app; [by left|]. apply elem_of_list_singleton in Hx as ->. by right. }
  destruct (_ <? _)%nat; [|done]. intros Hin. apply H.
  eapply elem_of_list_lookup_1 in Hin as [i Hi]. apply lookup_take_Some in Hi as [Hi _].
  by eapply elem_of_list_lookup_2.
Qed.

Lemma wp_rev_many np B : bnd_lev N np.1 -> forall qs (Q : post unit) h pub,
  ok (P3 np) h pub -> (dm = Ranked -> Forall (fun n => B np (n_pid n)) qs) -> Forall (fun n => pub (n_pid n)) qs ->
  Forall (fun n => exists pt, get_pt h (n_pid n) = Some pt /\
     (n_dist n = dist data (pt_data pt) \/ n_dist n = dist (pt_data pt) data)) qs ->
  (forall h' pub', ok (P3 np) h' pub' -> max_layer h' = max_layer h -> max_nb_connection h' = max_nb_connection h ->
     ne_mono h h' -> (forall l, ~ bnd_lev N l -> own_list h' np l = own_list h np l) -> Q (P3 np) tt h' pub') ->
  wpg [(Rd, LPoint np)] [(Rd, LPoint np)] B (P3 np) (rev_many_p so np qs) Q h pub.
Proof.
  intros Hlv. induction qs as [|q qs IH]; intros Q h pub Ho HB Hpq Hrefs HQ; cbn [rev_many_p].
  - apply wp_ret. intros h' pub' Hr. apply HQ; [by eapply rely_ok|by eapply rely_ml|by eapply rely_M|apply Hr|].
    intros l Hnl. by apply (r_low _ _ _ _ _ _ _ _ _ _ Hr).
  - inversion Hpq as [|? ? Hq Hpq']; subst. inversion Hrefs as [|? ? Hqr Hrefs']; subst.
    assert (HB' : dm = Ranked -> Forall (fun n => B np (n_pid n)) qs) by (intros ED; specialize (HB ED); by inversion HB).
    unfold rev_one_p. destruct (bool_decide (np = n_pid q)) eqn:E.
    { change (ret tt ≫= ?k) with (k tt). by apply IH. }
    apply bool_decide_eq_false in E.
    apply wp_bind; [done|]. apply wpg_write; [done| |].
    { right. right. right. right. split; [done|]. split; [done|]. exists np, (n_pid q). split_and!; auto.
      intros ED. specialize (HB ED). by inversion HB. }
    intros h1 pub1 Hr1.
    pose proof (rely_ok _ _ _ _ _ _ _ _ _ _ Hr1) as Ho1. pose proof (ok_core _ _ _ Ho1) as Hc1.
    destruct (ok_ph _ _ _ _ _ _ _ _ Ho1) as [Hs1 Hnp1].
    assert (Hq1 : pub1 (n_pid q)) by (by apply (r_pub _ _ _ _ _ _ _ _ _ _ Hr1)).
    assert (exists npt, get_pt h1 np = Some npt /\ pt_data npt = data) as (npt & Hnp & Ed).
    { unfold static in Hs1. destruct (get_pt h1 np) as [npt|]; [|done]. exists npt. split; [done|].
      simpl in Hs1. congruence. }
    destruct Hqr as (pt & Hpt & Hd).
    destruct (grows_get _ _ _ _ (r_grows _ _ _ _ _ _ _ _ _ _ Hr1) Hpt) as (pt1 & Hpt1 & Ed1 & _).
    assert (Hnl : (np.1 < NB_LAYER_MAX)%nat) by (apply (core_layer dist h1); [done|by exists npt]).
    destruct (core_nbs dist _ _ _ _ Hc1 Hpt1 Hnl) as [nbs Hn].
    unfold rev_one. rewrite bool_decide_eq_false_2 by done.
    replace (if (0 <? np.1)%nat then max_nb_connection h1 else 2 * max_nb_connection h1)%nat with (nb_conn h1 np.1).
    2: { unfold nb_conn. destruct np.1; done. }
    destruct (upd_nbs_ok h1 (n_pid q) np.1 (rev_list so (nb_conn h1 np.1) np (n_dist q)) _ _ Hpt1 Hn) as [h2 Hu].
    rewrite Hu. exists (P3 np), h2, tt. split; [done|].
    assert (Ha : act (P3 np) h1 pub1 (P3 np) h2).
    { eapply act_upd; [done|exact Hu| |by left|by right].
      intros pt' nbs' Hpt' Hn'. rewrite Hpt1 in Hpt'. injection Hpt' as <-.
      pose proof (c_lists _ _ Hc1 _ _ _ _ Hpt1 Hn') as Hok'. split_and!.
      - eapply rev_list_ok; eauto. rewrite Ed, Ed1. tauto.
      - rewrite Forall_forall. intros n Hin. apply rev_list_elem in Hin as [Hin| ->]; [|done].
        by eapply (v_links _ _ _ _ _ (ok_inv _ _ _ _ _ _ _ _ Ho1)).
      - intros Hne. apply rev_list_ne; [|done]. pose proof (lo_cap _ _ _ _ _ _ Hok').
        destruct nbs'; [done|]. simpl in *. lia. }
    split; [done|]. split; [eapply guarded_upd; [exact Hu|left]|]. intros h3 pub3 Hr3.
    assert (Hr13 : rely (P3 np) h2 (pubadd pub1 (P3 np)) h3 pub3) by done.
    assert (Hgr : grows h h3).
    { eapply grows_trans; [apply Hr1|]. eapply grows_trans; [apply Ha|apply Hr3]. }
    apply IH.
    + by eapply rely_ok.
    + done.
    + eapply Forall_impl; [exact Hpq'|]. intros n Hx.
      apply (r_pub _ _ _ _ _ _ _ _ _ _ Hr3). left. by apply (r_pub _ _ _ _ _ _ _ _ _ _ Hr1).
    + eapply Forall_impl; [exact Hrefs'|]. intros n (pt' & Hpt' & Hd').
      destruct (grows_get _ _ _ _ Hgr Hpt') as (pt3 & ? & E3 & _). exists pt3. by rewrite E3.
    + intros h4 pub4 Ho4 Eml4 EM4 Hne4 Hlow4. apply HQ; [done|..].
      * rewrite Eml4, (rely_ml _ _ _ _ _ Hr3). destruct (a_params _ _ _ _ _ _ _ _ _ _ Ha) as (_&_&_&_&->&_).
        by eapply rely_ml.
      * rewrite EM4, (rely_M _ _ _ _ _ Hr3). destruct (a_params _ _ _ _ _ _ _ _ _ _ Ha) as (_&->&_).
        by eapply rely_M.
      * eapply ne_mono_trans; [apply Hr1|]. eapply ne_mono_trans; [apply Ha|].
        eapply ne_mono_trans; [apply Hr3|done].
      * intros l Hnlv. rewrite (Hlow4 l Hnlv), (r_low _ _ _ _ _ _ _ _ _ _ Hr3 np l eq_refl Hnlv).
        rewrite <- (r_low _ _ _ _ _ _ _ _ _ _ Hr1 np l eq_refl Hnlv).
        destruct (upd_nbs_inv _ _ _ _ _ Hu) as (_ & _ & _ & _ & _ & Hoth & _). unfold own_list. by rewrite Hoth.
Qed.

(** The update of the lists of the points linked at layer [l], then [k]. [B'] also holds what became known when the point was
    published: if it is published here, all that its lists at the layers of no new point will ever contain. *)
Lemma wp_rev_layer {A} ph np l (B : pid -> pid -> Prop) (k : unit -> prog A) (Q : post A) h pub :
  bnd_lev N np.1 -> ok ph h pub -> (ph = P2 np \/ ph = P3 np) ->
  (dm = Ranked -> ph = P2 np \/ (~ bnd_lev N l /\ forall nbs n, own_list h np l = Some nbs -> n ∈ nbs -> B np (n_pid n))) ->
  (l < max_layer h)%nat ->
  (forall (B' : pid -> pid -> Prop) h' pub', ok (P3 np) h' pub' -> max_layer h' = max_layer h -> max_nb_connection h' = max_nb_connection h ->
     ne_mono h h' -> (forall p q, B p q -> B' p q) ->
     (forall l', ~ bnd_lev N l' -> own_list h' np l' = own_list h np l' /\
        (ph = P2 np -> forall nbs n, own_list h' np l' = Some nbs -> n ∈ nbs -> B' np (n_pid n))) ->
     wpg [] [] B' (P3 np) (k tt) Q h' pub') ->
  wpg [] [] B ph (rev_layer_p so np l ≫= k) Q h pub.
Proof.
  intros Hlv Ho Hph Hrk Hl HQ. unfold rev_layer_p. split; [apply may_lock_nil|]. fold (@ConcSafe.wpg T).
  intros hl publ Hrl _ h1 pub1 Hrl1 _. pose proof (rely_trans _ _ _ _ _ _ _ _ _ _ _ _ Hrl Hrl1) as Hr1. clear hl publ Hrl Hrl1.
  pose proof (rely_ok _ _ _ _ _ _ _ _ _ _ Hr1) as Ho1. pose proof (ok_core _ _ _ Ho1) as Hc1.
  assert (Hown : own ph = Some np) by (by destruct Hph as [-> | ->]).
  pose proof (act_publish ph np h1 pub1 Ho1 Hph) as Ha.
  exists (P3 np). split; [done|]. split; [split; [apply guarded_refl|]; intros ->; by destruct Hph|]. intros Hsz. unfold id in *.
  destruct (a_ph _ _ _ _ _ _ _ _ _ _ Ha) as [Hs _].
  assert (exists npt, get_pt h1 np = Some npt /\ pt_data npt = data) as (npt & Hnp & Ed).
  { unfold static in Hs. destruct (get_pt h1 np) as [npt|]; [|done]. exists npt. split; [done|].
    simpl in Hs. congruence. }
  assert (Hl16 : (l < NB_LAYER_MAX)%nat) by exact (ok_ml16 _ _ _ _ Ho Hl).
  destruct (core_nbs dist _ _ _ _ Hc1 Hnp Hl16) as [qs Hqs].
  assert (E : read_list np l h1 = Ok qs) by (unfold read_list; by rewrite Hnp; simpl; rewrite Hqs).
  rewrite E. pose proof (act_rely _ _ _ _ _ _ _ _ _ _ Ha Hsz) as Hr2.
  set (pub2 := pubadd pub1 (P3 np)) in *. set (B1 := before ph (P3 np) B pub1).
  change (wpg [] [(Rd, LPoint np)] B1 (P3 np) ((_ ← rev_many_p so np qs; Unlock Rd (LPoint np) (ret tt)) ≫= k) Q h1 pub2).
  apply (wpg_bind _ _ _ _ _ _ [] [] _ B1); [by eapply rely_ok|done|].
  apply wp_bind; [by eapply rely_ok|].
  apply wp_rev_many.
  - done.
  - by eapply rely_ok.
  - intros ED. rewrite Forall_forall. intros n Hin. destruct (Hrk ED) as [Hp2|[Hnl HB]].
    + right. split; [done|]. split; [done|]. by eapply (v_links _ _ _ _ _ (ok_inv _ _ _ _ _ _ _ _ Ho1)).
    + left. apply (HB qs); [|done]. rewrite <- (r_low _ _ _ _ _ _ _ _ _ _ Hr1 np l Hown Hnl). unfold own_list. by rewrite Hnp.
  - rewrite Forall_forall. intros n Hin. apply (r_pub _ _ _ _ _ _ _ _ _ _ Hr2). left.
    by eapply (v_links _ _ _ _ _ (ok_inv _ _ _ _ _ _ _ _ Ho1)).
  - eapply Refs_rely; [exact Hr2|]. pose proof (lo_ref _ _ _ _ _ _ (c_lists _ _ Hc1 _ _ _ _ Hnp Hqs)) as Hlr.
    rewrite Ed in Hlr. exact Hlr.
  - intros h3 pub3 Ho3 Eml EM Hne Hlow. exists []. split; [done|]. split; [done|].
    intros h4 pub4 Hr4 _. apply (HQ B1).
    + by eapply rely_ok.
    + rewrite (rely_ml _ _ _ _ _ Hr4), Eml. by eapply rely_ml.
    + rewrite (rely_M _ _ _ _ _ Hr4), EM. by eapply rely_M.
    + eapply ne_mono_trans; [apply Hr1|]. eapply ne_mono_trans; [apply Hr2|].
      eapply ne_mono_trans; [exact Hne|apply Hr4].
    + intros p q ?. by left.
    + intros l' Hnl. assert (E1 : own_list h4 np l' = own_list h1 np l').
      { by rewrite (r_low _ _ _ _ _ _ _ _ _ _ Hr4 np l' eq_refl Hnl), (Hlow l' Hnl). }
      split; [by rewrite E1, (r_low _ _ _ _ _ _ _ _ _ _ Hr1 np l' Hown Hnl)|].
      intros Hp2 nbs n Hn Hin. rewrite E1 in Hn. right. split; [done|]. split; [done|].
      unfold own_list in Hn. rewrite Hnp in Hn. by eapply (v_links _ _ _ _ _ (ok_inv _ _ _ _ _ _ _ _ Ho1)).
Qed.

Lemma wp_rev_layers np : bnd_lev N np.1 -> forall ls ph (B : pid -> pid -> Prop) (Q : post unit) h pub,
  ok ph h pub ->
  (dm = Ranked -> (ph = P2 np /\ forall l, l ∈ tail ls -> ~ bnd_lev N l) \/
     forall l, l ∈ ls -> ~ bnd_lev N l /\ forall nbs n, own_list h np l = Some nbs -> n ∈ nbs -> B np (n_pid n)) ->
  (ph = P2 np \/ ph = P3 np) -> (ls = [] -> ph = P3 np) ->
  (forall l, l ∈ ls -> (l < max_layer h)%nat) ->
  (forall h' pub', ok (P3 np) h' pub' -> max_nb_connection h' = max_nb_connection h -> ne_mono h h' ->
     Q (P3 np) tt h' pub') ->
  wpg [] [] B ph (rev_layers_p so ls np) Q h pub.
Proof.
  intros Hlv. induction ls as [|l ls IH]; intros ph B Q h pub Ho Hrk Hph Hnil Hls HQ; cbn [rev_layers_p].
  - rewrite (Hnil eq_refl) in *. apply wp_ret. intros h' pub' Hr.
    apply HQ; [by eapply rely_ok|by eapply rely_M|apply Hr].
  - apply wp_rev_layer; auto.
    { intros ED. destruct (Hrk ED) as [[? _]|Hb]; [by left|]. right. apply Hb. left. }
    { apply Hls. left. }
    intros B1 h1 pub1 Ho1 Eml EM Hne HB Hlow. apply IH; auto.
    + intros ED. right. intros l' Hl'. destruct (Hrk ED) as [[Hp2 Hnl]|Hb].
      * split; [by apply Hnl|]. by apply Hlow; [apply Hnl|].
      * destruct (Hb l') as [Hnl Hb']; [by right|]. split; [done|]. intros nbs n Hn Hin. apply HB.
        destruct (Hlow l' Hnl) as [E _]. rewrite E in Hn. by eapply Hb'.
    + intros l' Hl'. rewrite Eml. apply Hls. by right.
    + intros h2 pub2 Ho2 EM2 Hne2. apply HQ; [done|congruence|]. by eapply ne_mono_trans.
Qed.

(** ** check_entry_point *)
Lemma check_entry_fields h np :
  points_by_layer (check_entry_point h np) = points_by_layer h /\
  nb_point (check_entry_point h np) = nb_point h /\ params h (check_entry_point h np) /\
  exists ep', entry_point (check_entry_point h np) = Some ep' /\ (np.1 <= ep'.1)%nat /\
    (ep' = np \/ entry_point h = Some ep') /\
    (forall ep, entry_point h = Some ep -> (ep.1 <= ep'.1)%nat).
Proof.
  unfold check_entry_point. destruct (entry_point h) as [ep|] eqn:E.
  - destruct (Nat.ltb_spec ep.1 np.1) as [Hlt|Hge].
    + split_and!; try done. exists np. split_and!; auto. intros ep0 [= <-]. lia.
    + split_and!; try done. exists ep. split_and!; auto. by intros ep0 [= <-].
  - split_and!; try done. exists np. split_and!; auto. by intros ep0 [=].
Qed.

Lemma act_check ph np h pub :
  ok ph h pub -> (ph = P2 np \/ ph = P3 np) -> act ph h pub (P3 np) (check_entry_point h np).
Proof.
  intros Ho Hph. destruct (act_publish ph np h pub Ho Hph) as [A1 A2 A3 A4 A5 A6 A7 A8 _].
  pose proof (ok_inv _ _ _ _ _ _ _ _ Ho) as Hi.
  destruct (check_entry_fields h np) as (E1 & E2 & E3 & ep' & E4 & E5 & E6 & E7).
  set (h' := check_entry_point h np) in *. clearbody h'.
  assert (Hg : forall p, get_pt h' p = get_pt h p) by (intros p; unfold get_pt; by rewrite E1).
  assert (Hs : forall p, static h' p = static h p) by (intros p; unfold static; by rewrite Hg).
  assert (Hsz : table_size h' = table_size h) by (unfold table_size; by rewrite E1).
  specialize (A1 (v_size _ _ _ _ _ Hi)).
  pose proof E3 as (P1' & P2' & _ & _ & P5 & _).
  constructor.
  - intros _. destruct A1. constructor.
    + by apply (core_meta dist h).
    + intros p pt l nbs n Hp. rewrite Hg in Hp. eauto.
    + intros p Hp. unfold valid. rewrite Hg. by apply v_pub.
    + intros ep Hep. assert (ep = ep') as -> by congruence. destruct E6 as [-> |E6]; [by right|]. by apply v_entry.
    + unfold bounded. by rewrite Hsz, E2.
    + by rewrite E2.
    + by rewrite P5.
    + intros _. by rewrite E4.
  - simpl in *. by rewrite Hs.
  - split; [done|]. intros p s. by rewrite Hs.
  - done.
  - intros ep Hep. exists ep'. split; [done|]. by apply E7.
  - intros p l nbs Hl Hne. exists nbs. split; [|done]. unfold own_list in *. by rewrite Hg.
  - intros p _ _ _. apply Hg.
  - apply k_quiet; auto. destruct Hph as [-> | ->]; eauto.
  - intros p l _ _ _. unfold own_list. by rewrite Hg.
Qed.

Lemma wp_check ph np (Q : post unit) h pub :
  ok ph h pub -> (ph = P2 np \/ ph = P3 np) ->
  (forall h' pub', ok (P3 np) h' pub' -> max_nb_connection h' = max_nb_connection h -> ne_mono h h' ->
     (exists ep, entry_point h' = Some ep /\ (np.1 <= ep.1)%nat) -> Q (P3 np) tt h' pub') ->
  wp ph (check_entry_point_p np) Q h pub.
Proof.
  intros Ho Hph HQ. apply wp_write; [done|done|]. intros h1 pub1 Hr1.
  pose proof (act_check ph np h1 pub1 (rely_ok _ _ _ _ _ _ _ _ _ _ Hr1) Hph) as Ha.
  eexists (P3 np), _, tt. split; [reflexivity|]. split; [exact Ha|]. split.
  { destruct (check_entry_fields h1 np) as (E1 & E2 & _). unfold guarded, valid, get_pt. rewrite E1, E2.
    split_and!; auto. right. left. }
  intros h2 pub2 Hr2. apply HQ.
  - by eapply rely_ok.
  - rewrite (rely_M _ _ _ _ _ Hr2). destruct (a_params _ _ _ _ _ _ _ _ _ _ Ha) as (_&->&_). by eapply rely_M.
  - eapply ne_mono_trans; [apply Hr1|]. eapply ne_mono_trans; [apply Ha|apply Hr2].
  - destruct (check_entry_fields h1 np) as (_ & _ & _ & ep' & E4 & E5 & _).
    destruct (r_entry _ _ _ _ _ _ _ _ _ _ Hr2 ep' E4) as (ep2 & ? & ?). exists ep2. split; [done|lia].
Qed.

(** ** The whole insertion *)
Definition Inserted (np : pid) ph h : Prop :=
  (ph = P3 np /\ (exists ep, entry_point h = Some ep /\ (np.1 <= ep.1)%nat) /\ ((0 < nb0)%nat -> linked h np)) \/
  (ph = P2 np /\ nb0 = 0%nat /\ exists ep, entry_point h = Some ep).

Lemma act_push h pub level h' np :
  ok P0 h pub -> push_point h data oid level = Ok (h', np) -> act P0 h pub (P1 np) h' /\
  (forall l, (l < NB_LAYER_MAX)%nat -> own_list h' np l = Some []) /\ np.1 = level /\ (level < max_layer h)%nat.
Proof.
  intros Ho Hpush. pose proof (ok_inv _ _ _ _ _ _ _ _ Ho) as Hi.
  destruct (push_point_inv _ _ _ _ _ _ Hpush) as (Hlev & Hlt & Hnone & Hnew & Hoth & Hm & Hlen & Hsz).
  destruct (core_push dist Hnn _ _ _ _ _ _ (v_core _ _ _ _ _ Hi) Hpush) as (Hc' & Hu & Hgr).
  pose proof Hm as (M1 & M2 & M3 & M4 & M5 & M6 & M7 & M8 & M9 & M10).
  assert (Hnpub : ~ pub np).
  { intros Hp. destruct (v_pub _ _ _ _ _ Hi np Hp) as [pt Hpt]. congruence. }
  split; [|split; [|split; [done|]]].
  - constructor.
    + intros Hsz'. constructor; auto.
      * intros p pt l nbs n Hp Hn Hin. left. destruct (decide (p = np)) as [->|Hne].
        -- rewrite Hnew in Hp. injection Hp as <-. apply new_pt_nbs in Hn as ->. by apply elem_of_nil in Hin.
        -- rewrite Hoth in Hp by done. by eapply (v_links _ _ _ _ _ Hi).
      * intros p [Hp|[=]]. eapply grows_valid; [done|]. by apply (v_pub _ _ _ _ _ Hi).
      * intros ep He. left. apply (v_entry _ _ _ _ _ Hi). congruence.
      * rewrite M7. apply Hi.
      * rewrite M5. apply Hi.
      * rewrite M8. apply Hi.
    + split; [unfold static; by rewrite Hnew|]. by intros [?|[=]].
    + done.
    + by apply same_meta_params.
    + intros ep He. exists ep. split; [congruence|lia].
    + intros p l nbs Hl Hne. exists nbs. split; [|done]. unfold own_list in *. rewrite Hoth; [done|].
      intros ->. by rewrite Hnone in Hl.
    + intros p Hv Hp _. apply Hoth. intros ->. destruct Hv as [pt Hpt]. congruence.
    + eapply (k_push _ _ _ _ _ _ np); auto. unfold static. by rewrite Hnew.
    + intros p l [pt Hpt] _ _. unfold own_list. rewrite Hoth; [done|]. intros ->. congruence.
  - intros l Hl. unfold own_list. rewrite Hnew. change (replicate NB_LAYER_MAX (@nil nbr) !! l = Some []).
    by apply lookup_replicate_2.
  - rewrite <- (c_len _ _ (v_core _ _ _ _ _ Hi)). done.
Qed.

Lemma guarded_push h level h' np :
  push_point h data oid level = Ok (h', np) -> guarded [(Wr, LTable)] h h'.
Proof.
  intros Hpush. destruct (push_point_inv _ _ _ _ _ _ Hpush) as (_ & _ & Hnone & _ & Hoth & Hm & _).
  destruct Hm as (M1 & M2 & M3 & M4 & M5 & M6 & M7 & M8 & M9 & M10).
  split_and!; auto.
  - intros p [pt Hp]. left. apply Hoth. intros ->. congruence.
  - intros p _. right. left.
Qed.

Lemma act_count np h pub :
  ok (P1 np) h pub -> act (P1 np) h pub (P2 np) (set_nb_point (S (nb_point h)) h).
Proof.
  intros Ho. pose proof (ok_inv _ _ _ _ _ _ _ _ Ho) as Hi. destruct (ok_ph _ _ _ _ _ _ _ _ Ho) as [Hs Hnp].
  constructor.
  - intros Hsz'. destruct Hi. constructor; auto.
    + by apply (core_meta dist h).
    + intros p pt l nbs n Hp Hn Hin. left. by eapply v_links.
    + intros p [Hp|[=]]. by apply v_pub.
    + intros ep He. left. by apply v_entry.
    + simpl. lia.
  - split; [done|]. by intros [?|[=]].
  - by split.
  - by repeat split.
  - intros ep He. exists ep. split; [done|lia].
  - intros p l nbs Hl Hne. by exists nbs.
  - done.
  - by apply (k_count _ _ _ _ _ _ np).
  - done.
Qed.

Lemma own_rely1 np h pub h' pub' l : rely (P1 np) h pub h' pub' -> own_list h' np l = own_list h np l.
Proof. intros Hr. unfold own_list. by rewrite (r_own _ _ _ _ _ _ _ _ _ _ Hr np). Qed.

Lemma wp_insert F d h pub :
  (forall level, generate (level_scale h) (max_layer h) d = Ok level ->
     bnd_lev N level /\ (dm = Ranked -> forall l, (l < level)%nat -> ~ bnd_lev N l)) ->
  ok P0 h pub -> (N < F)%nat ->
  wp P0 (insert_p dist so F data oid d) (fun ph np h' pub' => Inserted np ph h') h pub.
Proof.
  intros Hrk Ho HF. unfold insert_p.
  apply wp_bind; [done|]. apply wp_peek; [done|]. intros h1 pub1 Hr1.
  destruct (generate_ok (level_scale h1) (max_layer h1) d) as [level Hlev]; [apply Hr1|].
  exists level. split; [done|].
  assert (Hl0 : bnd_lev N level /\ (dm = Ranked -> forall l, (l < level)%nat -> ~ bnd_lev N l)).
  { apply Hrk. destruct (r_params _ _ _ _ _ _ _ _ _ _ Hr1) as (_&_&_&_&Em&Es&_). by rewrite Em, Es in Hlev. }
  apply generate_lt in Hlev. intros h2 pub2 Hr2.
  rewrite <- (rely_ml _ _ _ _ _ Hr2) in Hlev. pose proof (rely_ok _ _ _ _ _ _ _ _ _ _ Hr2) as Ho2.
  clear Hrk Hr2 Hr1 h1 pub1 h pub Ho.
  apply wp_bind; [done|]. apply wp_write; [done|done|]. intros h3 pub3 Hr3.
  pose proof (rely_ok _ _ _ _ _ _ _ _ _ _ Hr3) as Ho3.
  rewrite <- (rely_ml _ _ _ _ _ Hr3) in Hlev.
  destruct (push_point_ok h3 data oid level) as [[h4 np] Hpush]; [by rewrite (c_len _ _ (ok_core _ _ _ Ho3))|].
  destruct (act_push _ _ _ _ _ Ho3 Hpush) as (Ha4 & Hown4 & Hnl & _).
  exists (P1 np), h4, np. split; [done|]. split; [done|]. split; [by eapply guarded_push|]. intros h5 pub5 Hr5.
  assert (Hown5 : forall l, (l < NB_LAYER_MAX)%nat -> own_list h5 np l = Some []).
  { intros l Hl. rewrite (own_rely1 _ _ _ _ _ l Hr5). auto. }
  rewrite <- Hnl in Hl0.
  assert (Hml5 : (np.1 < max_layer h5)%nat).
  { rewrite (rely_ml _ _ _ _ _ Hr5). destruct (a_params _ _ _ _ _ _ _ _ _ _ Ha4) as (_&_&_&_&->&_). by rewrite Hnl. }
  pose proof (rely_ok _ _ _ _ _ _ _ _ _ _ Hr5) as Ho5.
  clear Hr5 Ha4 Hown4 Hpush Hnl h4 Hr3 Ho3 Hlev h3 pub3 Ho2 h2 pub2.
  (* counting *)
  apply wp_bind; [done|]. apply wp_write; [done|done|]. intros h6 pub6 Hr6.
  pose proof (rely_ok _ _ _ _ _ _ _ _ _ _ Hr6) as Ho6.
  pose proof (act_count np h6 pub6 Ho6) as Ha6.
  eexists (P2 np), _, _. split; [unfold incr_nb_point; reflexivity|]. split; [exact Ha6|]. split.
  { split_and!; auto. right. left. }
  intros h7 pub7 Hr7.
  pose proof (v_nb _ _ _ _ _ (ok_inv _ _ _ _ _ _ _ _ Ho6)) as Hnb6.
  assert (Hown7 : forall l, (l < NB_LAYER_MAX)%nat -> own_list h7 np l = Some []).
  { intros l Hl. rewrite (own_rely _ _ _ _ _ l Hr7).
    change (own_list h6 np l = Some []). rewrite (own_rely1 _ _ _ _ _ l Hr6). auto. }
  assert (Hml7 : (np.1 < max_layer h7)%nat).
  { rewrite (rely_ml _ _ _ _ _ Hr7). change (np.1 < max_layer h6)%nat. by rewrite (rely_ml _ _ _ _ _ Hr6). }
  pose proof (rely_ok _ _ _ _ _ _ _ _ _ _ Hr7) as Ho7. clear Hr7 Hr6 Ho6 Ha6 Ho5 Hown5 Hml5 h5 pub5 pub6.
  (* the entry point *)
  apply wp_bind; [done|]. apply wp_read; [done|]. intros h8 pub8 Hr8.
  exists (entry_point h8). split; [done|]. intros h9 pub9 Hr9.
  pose proof (ok_inv _ _ _ _ _ _ _ _ (rely_ok _ _ _ _ _ _ _ _ _ _ Hr8)) as Hi8.
  assert (Hr79 : rely (P2 np) h7 pub7 h9 pub9) by rtr.
  pose proof (rely_ok _ _ _ _ _ _ _ _ _ _ Hr79) as Ho9.
  assert (Hml9 : (np.1 < max_layer h9)%nat) by (by rewrite (rely_ml _ _ _ _ _ Hr79)).
  destruct (entry_point h8) as [ep|] eqn:Eep.
  2: { assert (nb0 = 0)%nat as E0.
       { destruct (decide (0 < nb0)%nat) as [Hlt|]; [|lia]. by destruct (v_ent _ _ _ _ _ Hi8 Hlt). }
       apply wp_bind; [done|]. apply (wp_check (P2 np)); [done|by left|]. intros h10 pub10 Ho10 _ _ Hent.
       apply wp_ret. intros h11 pub11 Hr11. left. split; [done|]. split; [|lia].
       destruct Hent as (ep & He & ?). destruct (r_entry _ _ _ _ _ _ _ _ _ _ Hr11 ep He) as (ep' & ? & ?).
       exists ep'. split; [done|lia]. }
  destruct (Nat.eqb_spec (S (nb_point h6)) 1) as [E1|E1].
  { apply wp_ret. intros h11 pub11 Hr11. right. split; [done|]. split; [lia|].
    destruct (r_entry _ _ _ _ _ _ _ _ _ _ Hr9 ep Eep) as (e1 & He1 & _).
    destruct (r_entry _ _ _ _ _ _ _ _ _ _ Hr11 e1 He1) as (e2 & He2 & _). eauto. }
  assert (Hep9 : pub9 ep).
  { apply (r_pub _ _ _ _ _ _ _ _ _ _ Hr9). by apply (v_entry _ _ _ _ _ Hi8). }
  apply wp_bind; [done|]. apply wp_peek; [done|]. intros h10 pub10 Hr10.
  assert (Hep10 : pub10 ep) by (by apply (r_pub _ _ _ _ _ _ _ _ _ _ Hr10)).
  destruct (v_pub _ _ _ _ _ (r_inv _ _ _ _ _ _ _ _ _ _ Hr10) ep Hep10) as [ept Hept].
  exists (dist data (pt_data ept)). split; [by rewrite Hept|]. intros h11 pub11 Hr11.
  assert (Hr : rely (P2 np) h7 pub7 h11 pub11) by rtr.
  pose proof (rely_ok _ _ _ _ _ _ _ _ _ _ Hr) as Ho11.
  assert (Hepl : (ep.1 < max_layer h11)%nat).
  { rewrite <- (c_len _ _ (ok_core _ _ _ Ho11)).
    assert (valid h11 ep) as [pt Hpt].
    { apply (v_pub _ _ _ _ _ (ok_inv _ _ _ _ _ _ _ _ Ho11)). by apply (r_pub _ _ _ _ _ _ _ _ _ _ Hr11). }
    unfold get_pt in Hpt. destruct (points_by_layer h11 !! ep.1) eqn:E; [|done]. by eapply lookup_lt_Some. }
  cbv zeta. apply wp_bind; [done|]. apply wp_descend.
  { done. }
  { done. }
  { by apply (r_pub _ _ _ _ _ _ _ _ _ _ Hr11). }
  { rewrite NoDup_ListNoDup. apply NoDup_rev, NoDup_ListNoDup, NoDup_seq. }
  { intros l Hl. apply elem_of_list_In, in_rev, in_seq in Hl. split; [lia|].
    rewrite (own_rely _ _ _ _ _ l Hr). apply Hown7. apply (ok_ml16 _ _ _ _ Ho11). lia. }
  intros h12 pub12 ep1 Ho12 Eml12 Hpub12 Hep1.
  apply wp_bind; [done|].
  assert (Hml12 : (np.1 < max_layer h12)%nat) by (rewrite Eml12, (rely_ml _ _ _ _ _ Hr); done).
  assert (Hls : forall (hh : hnsw (T:=T)), max_layer hh = max_layer h12 -> forall l, l ∈ rev (seq 0 (S np.1)) -> (l < max_layer hh)%nat).
  { intros hh Ehh l Hl. apply elem_of_list_In, in_rev, in_seq in Hl. rewrite Ehh. lia. }
  apply wp_connect; auto.
  { left. apply elem_of_list_In, in_rev. rewrite rev_involutive. apply in_seq. lia. }
  intros h13 pub13 Ho13 Eml13 Hl13.
  apply wp_bind; [done|]. apply wp_rev_layers; auto.
  { apply Hl0. }
  { intros ED. left. split; [done|]. intros l Hl. apply (proj2 Hl0 ED).
    rewrite seq_S, rev_app_distr in Hl. simpl in Hl. apply elem_of_list_In, in_rev, in_seq in Hl. lia. }
  { intros E. apply (f_equal length) in E. by rewrite rev_length, seq_length in E. }
  intros h14 pub14 Ho14 EM14 Hne14.
  apply wp_bind; [done|]. apply wp_check; auto. intros h15 pub15 Ho15 EM15 Hne15 Hent.
  apply wp_ret. intros h16 pub16 Hr16. left. split; [done|]. split.
  - destruct Hent as (ep' & He & ?). destruct (r_entry _ _ _ _ _ _ _ _ _ _ Hr16 ep' He) as (ep2 & ? & ?).
    exists ep2. split; [done|lia].
  - intros _. eapply linked_rely; [exact Hr16|]. eapply linked_ne; [exact EM15|exact Hne15|].
    eapply linked_ne; [exact EM14|exact Hne14|]. done.
Qed.

End Safe2.
