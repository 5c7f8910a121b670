(** Safety of a search and of an iteration running beside insertions. *)
From Verif Require Import Prelude Model Lib Table SearchProofs SelectProofs InsertProofs QueryProofs IterProofs Conc ConcSafe ConcSafe2.

Section Safe3.
Context {T : Type} (dist : list T -> list T -> Z) (so : StdOps).
Context (LAWS : StdLaws so) (Hnn : forall a b, (0 <= dist a b)%Z).
Context (N : bnd) (nb0 : nat) (data : list T) (oid : dataid) (dm : dmode).
Implicit Types (h : hnsw (T:=T)) (p np ep : pid) (pub : pid -> Prop) (ph : phase) (q : list T).
Local Notation Inv := (Inv dist N nb0).
Local Notation rely := (rely dist N nb0 data oid).
Local Notation ok := (ok dist N nb0 data oid).
Local Notation wpg := (wpg dist N nb0 data oid dm).
Local Notation wp := (wpg [] [] (fun _ _ => False)).
Local Notation post A := (phase -> A -> hnsw (T:=T) -> (pid -> Prop) -> Prop).

Local Ltac rtr := repeat first [eassumption | eapply rely_trans; [eassumption|]].

Lemma wp_pivot ph q : forall ls pv d (Q : post pid) h pub,
  ok ph h pub -> (forall l, l ∈ ls -> (l < max_layer h)%nat) -> pub pv ->
  (exists pt, get_pt h pv = Some pt /\ d = dist q (pt_data pt)) ->
  (forall h' pub' pv', rely ph h pub h' pub' -> pub' pv' -> Q ph pv' h' pub') ->
  wp ph (pivot_descend_p dist ls q pv d) Q h pub.
Proof.
  induction ls as [|l ls IH]; intros pv d Q h pub Ho Hls Hpv Hd HQ; cbn [pivot_descend_p].
  - apply wp_ret. intros h' pub' Hr. apply HQ; [done|]. by apply (r_pub _ _ _ _ _ _ _ _ _ _ Hr).
  - apply wp_bind; [done|]. apply wp_read; [done|]. intros h1 pub1 Hr1.
    pose proof (r_inv _ _ _ _ _ _ _ _ _ _ Hr1) as Hi1.
    assert (Hpv1 : pub1 pv) by (by apply (r_pub _ _ _ _ _ _ _ _ _ _ Hr1)).
    destruct Hd as (pt & Hpt & Hd).
    destruct (grows_get _ _ _ _ (r_grows _ _ _ _ _ _ _ _ _ _ Hr1) Hpt) as (pt1 & Hpt1 & Ed & _).
    assert (Hl : (l < max_layer h)%nat) by (apply Hls; left).
    pose proof (ok_ml16 _ Hnn _ _ _ _ _ _ _ _ Ho Hl) as Hl16.
    destruct (Inv_links _ _ _ _ _ l Hi1 Hl16 pv pt1 Hpv1 Hpt1) as (nbs & Hn & Hin).
    destruct (pivot_scan_spec dist Hnn h1 q nbs pv d) as (pv' & d' & E & Hp' & _ & Hc).
    { intros n Hx. by apply Hin. } { exists pt1. by rewrite Ed. }
    exists (pv', d'). split; [unfold read_list; rewrite Hpt1; simpl; rewrite Hn; exact E|].
    assert (Hpv' : pub1 pv').
    { destruct Hc as [->|(n & Hx & <-)]; [done|]. by apply Hin. }
    intros h2 pub2 Hr2. cbn [fst snd]. assert (Hr : rely ph h pub h2 pub2) by rtr. apply IH.
    + by eapply rely_ok.
    + intros l' Hl'. rewrite (rely_ml _ _ _ _ _ _ _ _ _ _ Hr). apply Hls. by right.
    + by apply (r_pub _ _ _ _ _ _ _ _ _ _ Hr2).
    + destruct Hp' as (pt' & Hpt' & ->).
      destruct (grows_get _ _ _ _ (r_grows _ _ _ _ _ _ _ _ _ _ Hr2) Hpt') as (pt2 & ? & E2 & _).
      exists pt2. by rewrite E2.
    + intros h3 pub3 pv3 Hr3. apply HQ. rtr.
Qed.

Lemma layer_valid h l : (0 < get_layer_nb_point h l)%nat -> valid h (l, 0).
Proof.
  unfold get_layer_nb_point, valid, get_pt. simpl. destruct (points_by_layer h !! l) as [ly|]; [|lia].
  destruct ly as [|x ly]; simpl; [lia|]. by eexists.
Qed.

Lemma valid_layer h p : valid h p -> (0 < get_layer_nb_point h p.1)%nat /\ (p.1 < length (points_by_layer h))%nat.
Proof.
  intros [pt (ly & E & Hx)%get_pt_lookup]. unfold get_layer_nb_point. rewrite E.
  split; [|by eapply lookup_lt_Some]. apply lookup_lt_Some in Hx. lia.
Qed.

Lemma wp_lowest ph p : forall n l (Q : post nat) h pub,
  ok ph h pub -> valid h p -> (l <= p.1)%nat -> (p.1 < l + n)%nat ->
  (forall h' pub' l', rely ph h pub h' pub' -> (l' < max_layer h')%nat -> valid h' (l', 0) -> Q ph l' h' pub') ->
  wp ph (lowest_p n l) Q h pub.
Proof.
  induction n as [|n IH]; intros l Q h pub Ho Hp Hl Hn HQ; [lia|]. cbn [lowest_p].
  apply wp_bind; [done|]. unfold layer_nb_point_p. apply wp_bind; [done|]. apply wp_read; [done|].
  intros h1 pub1 Hr1. eexists. split; [reflexivity|]. intros h2 pub2 Hr2.
  assert (Hp1 : valid h1 p) by (by eapply rely_valid).
  destruct (valid_layer h1 p Hp1) as [_ Hlen1].
  destruct (Nat.ltb_spec l (length (points_by_layer h1))) as [_|?]; [|lia].
  assert (Hr02 : rely ph h pub h2 pub2) by rtr.
  apply wp_read; [by eapply rely_ok|]. intros h3 pub3 Hr3. eexists. split; [reflexivity|].
  intros h4 pub4 Hr4.
  assert (Hr03 : rely ph h pub h3 pub3) by rtr. assert (Hr04 : rely ph h pub h4 pub4) by rtr.
  destruct (Nat.ltb_spec 0 (get_layer_nb_point h3 l)) as [Hpos|Hz].
  - apply wp_ret. intros h5 pub5 Hr5. assert (Hr05 : rely ph h pub h5 pub5) by rtr.
    assert (Hv : valid h5 (l, 0)).
    { eapply rely_valid; [exact Hr5|]. eapply rely_valid; [exact Hr4|]. by apply layer_valid. }
    apply HQ; [done| |done].
    destruct (valid_layer _ _ Hv) as [_ Hlt].
    by rewrite <- (c_len _ _ (ok_core _ _ _ _ _ _ _ _ (rely_ok _ _ _ _ _ _ _ _ _ _ Hr05))).
  - assert (Hp3 : valid h3 p) by (by eapply (rely_valid _ _ _ _ _ _ _ _ _ _ _ Hr03)).
    destruct (valid_layer h3 p Hp3) as [Hne _].
    apply IH.
    + by eapply rely_ok.
    + by eapply (rely_valid _ _ _ _ _ _ _ _ _ _ _ Hr04).
    + destruct (decide (l = p.1)) as [->|]; lia.
    + lia.
    + intros h5 pub5 l5 Hr5. apply HQ. rtr.
Qed.

(** what a search returns *)
Definition Sound q (k : nat) filter h (ns : list neighbour) : Prop :=
  Forall (answer_ok dist h q) ns /\ (length ns <= k)%nat /\ sorted_by distance ns /\ NoDup (p_id <$> ns) /\
  ((0 < nb0)%nat -> (0 < k)%nat -> ns <> []) /\
  match filter with
  | None => True
  | Some flt => Forall (fun a => flt (d_id a) = true) ns \/ exists a, ns = [a]
  end.

Lemma Sound_grows q k filter h h' ns : grows h h' -> Sound q k filter h ns -> Sound q k filter h' ns.
Proof.
  intros Hg (H1 & H). split; [|done]. eapply Forall_impl; [exact H1|]. intros a (pt & Hpt & E1 & E2).
  destruct (grows_get _ _ _ _ Hg Hpt) as (pt' & ? & Ed & Eo & _). exists pt'. rewrite Ed, Eo. done.
Qed.

Lemma sorted_transfer (res : list neighbour) (l : list nbr) :
  distance <$> res = n_dist <$> l -> sorted_by n_dist l -> sorted_by distance res.
Proof.
  intros A3 HS. revert res A3. induction HS as [|x l Hs IH Hf]; intros [|r res] A3; try done.
  - constructor.
  - csimpl in A3. injection A3 as E1 E2. constructor; [by apply IH|].
    rewrite E1. apply Forall_forall. intros y Hy.
    assert (Hy' : distance y ∈ n_dist <$> l) by (rewrite <- E2; apply elem_of_list_fmap; eauto).
    apply elem_of_list_fmap in Hy' as (z & -> & Hz). rewrite Forall_forall in Hf. by apply Hf.
Qed.

Lemma wp_search F q k efa filter h pub :
  ok P0 h pub -> (N < F)%nat -> (filter = None \/ 1 <= Nat.max efa k)%nat ->
  wp P0 (search_filter_p dist so F q k efa filter) (fun ph ns h' pub' => ph = P0 /\ Sound q k filter h' ns) h pub.
Proof.
  intros Ho HF Hef. unfold search_filter_p.
  apply wp_bind; [done|]. apply wp_read; [done|]. intros h1 pub1 Hr1.
  eexists. split; [reflexivity|]. intros h2 pub2 Hr2.
  assert (Hr02 : rely P0 h pub h2 pub2) by rtr.
  pose proof (rely_ok _ _ _ _ _ _ _ _ _ _ Hr02) as Ho2.
  destruct (entry_point h1) as [ep|] eqn:Eep.
  2: { apply wp_ret. intros h3 pub3 Hr3. split; [done|]. split_and!; try constructor; simpl; try lia.
       - intros Hpos. by destruct (v_ent _ _ _ _ _ (r_inv _ _ _ _ _ _ _ _ _ _ Hr1) Hpos).
       - destruct filter; [|done]. left. constructor. }
  assert (Hep : pub2 ep).
  { apply (r_pub _ _ _ _ _ _ _ _ _ _ Hr2). by apply (v_entry _ _ _ _ _ (r_inv _ _ _ _ _ _ _ _ _ _ Hr1)). }
  clear Hr1 Hr2 Eep Hr02.
  apply wp_bind; [done|]. apply wp_peek; [done|]. intros h3 pub3 Hr3.
  assert (Hep3 : pub3 ep) by (by apply (r_pub _ _ _ _ _ _ _ _ _ _ Hr3)).
  destruct (v_pub _ _ _ _ _ (r_inv _ _ _ _ _ _ _ _ _ _ Hr3) ep Hep3) as [ept Hept].
  exists (dist q (pt_data ept)). split; [by rewrite Hept|]. intros h4 pub4 Hr4.
  pose proof (rely_ok _ _ _ _ _ _ _ _ _ _ Hr4) as Ho4.
  destruct (grows_get _ _ _ _ (r_grows _ _ _ _ _ _ _ _ _ _ Hr4) Hept) as (ept4 & Hept4 & Ed4 & _).
  assert (Hep4 : pub4 ep) by (by apply (r_pub _ _ _ _ _ _ _ _ _ _ Hr4)).
  assert (Hepl : (ep.1 < max_layer h4)%nat).
  { rewrite <- (c_len _ _ (ok_core _ _ _ _ _ _ _ _ Ho4)). apply valid_layer. by exists ept4. }
  apply wp_bind; [done|]. apply wp_pivot; auto.
  { intros l Hl. apply elem_of_list_In, in_rev, in_seq in Hl. lia. }
  { exists ept4. by rewrite Ed4. }
  intros h5 pub5 pv Hr5 Hpv. cbv zeta. pose proof (rely_ok _ _ _ _ _ _ _ _ _ _ Hr5) as Ho5.
  apply wp_bind; [done|]. apply (wp_lowest P0 ep).
  { done. }
  { eapply rely_valid; [exact Hr5|]. by exists ept4. }
  { lia. }
  { pose proof (ok_ml16 _ Hnn _ _ _ _ _ _ _ _ Ho4 Hepl). lia. }
  intros h6 pub6 l Hr6 Hl Hv6. pose proof (rely_ok _ _ _ _ _ _ _ _ _ _ Hr6) as Ho6.
  apply wp_bind; [done|]. apply wp_search_layer; auto.
  { by apply (r_pub _ _ _ _ _ _ _ _ _ _ Hr6). }
  intros h7 pub7 hp Hr7 Hfound Hne. pose proof (rely_ok _ _ _ _ _ _ _ _ _ _ Hr7) as Ho7.
  apply wp_peek; [done|]. intros h8 pub8 Hr8.
  eapply Found_rely in Hfound; [|exact Hr8]. destruct Hfound as ((G1 & G2 & _) & _ & Gf).
  assert (Et : take (k `min` (efa `max` k) `min` length (h_sorted so hp)) (h_sorted so hp) = take k (h_sorted so hp)).
  { destruct (decide (k <= length (h_sorted so hp))%nat) as [Hk|Hk].
    - f_equal. lia.
    - rewrite (take_ge _ k) by lia. apply take_ge. lia. }
  rewrite Et.
  destruct (answers_spec dist h8 q (take k (h_sorted so hp))) as (res & E & A1 & A2 & A3).
  { apply Forall_take. by rewrite (law_sorted_perm _ LAWS). }
  exists res. split; [exact E|]. intros h9 pub9 Hr9. split; [done|].
  apply (Sound_grows _ _ _ h8); [apply Hr9|].
  assert (Hlen : length res = length (take k (h_sorted so hp))).
  { rewrite <- (fmap_length p_id res), A2, fmap_length. done. }
  pose proof (Permutation_length (law_sorted_perm _ LAWS hp)) as Hsl.
  split; [done|]. split; [rewrite Hlen, take_length; lia|]. split.
  { eapply sorted_transfer; [exact A3|]. apply sorted_by_take, (law_sorted _ LAWS). }
  split.
  { rewrite A2. rewrite fmap_take.
    assert (HN : NoDup (n_pid <$> h_sorted so hp)) by (by rewrite (law_sorted_perm _ LAWS)).
    rewrite <- (take_drop k (n_pid <$> h_sorted so hp)) in HN. by apply NoDup_app in HN as [? _]. }
  split.
  { intros _ Hk ->. simpl in Hlen. rewrite take_length in Hlen.
    assert (Hit : h_iter so hp <> []) by (apply Hne; by exists (l, 0)). destruct (h_iter so hp); [done|].
    simpl in Hsl. lia. }
  destruct filter as [flt|]; [|done]. simpl in Gf. destruct Gf as [Gf|(x & Ex & _)].
  - left. rewrite Forall_forall. intros a Ha.
    rewrite Forall_forall in A1. destruct (A1 a Ha) as (pt & Hpt & Eo & _).
    assert (Hx : p_id a ∈ n_pid <$> take k (h_sorted so hp)) by (rewrite <- A2; apply elem_of_list_fmap; eauto).
    apply elem_of_list_fmap in Hx as (n & En & Hn). apply elem_of_take in Hn as (j & Hn & _).
    apply elem_of_list_lookup_2 in Hn. rewrite (law_sorted_perm _ LAWS) in Hn.
    rewrite Forall_forall in Gf. destruct (Gf n Hn) as (pt' & Hpt' & Hf). rewrite <- En in Hpt'.
    rewrite Eo. congruence.
  - rewrite Ex in Hsl. simpl in Hsl. rewrite take_length in Hlen.
    destruct res as [|a res]; [by left|]. right. exists a. destruct res; [done|]. simpl in Hlen. lia.
Qed.

(** ** Iteration *)
Definition ple (a b : pid) : Prop := (a.1 < b.1)%nat \/ (a.1 = b.1 /\ (a.2 <= b.2)%nat).
Definition pos (st : iter_state) : pid := match st with None => (0, 0) | Some s => s end.

Lemma iter_next_pos h st : iter_next h st = iter_next h (Some (pos st)).
Proof. by destruct st. Qed.
Lemma iter_next_p_pos st : @iter_next_p T st = iter_next_p (Some (pos st)).
Proof. by destruct st. Qed.

Lemma iter_next_spec h st ep :
  entry_point h = Some ep -> (ep.1 < length (points_by_layer h))%nat ->
  ((pos st).1 < length (points_by_layer h))%nat ->
  exists o st', iter_next h st = Ok (o, st') /\
    ((o = None /\ forall p, valid h p -> ple (pos st) p -> ~ (p.1 <= ep.1)%nat) \/
     exists pt l s, o = Some pt /\ get_pt h (l, s) = Some pt /\ st' = Some (l, S s) /\ ple (pos st) (l, s) /\
       forall p, valid h p -> ple (pos st) p -> (p.1 <= ep.1)%nat -> p = (l, s) \/ ple (l, S s) p).
Proof.
  intros Hep Hepl. rewrite iter_next_pos. destruct (pos st) as [l s]. cbn [fst snd]. intros Hl. unfold iter_next.
  destruct (lookup_lt_is_Some_2 _ _ Hl) as [ly Hly]. rewrite Hly. simpl.
  destruct (ly !! s) as [pt|] eqn:Es.
  - eexists _, _. split; [done|]. right. exists pt, l, s. split; [done|]. split.
    { apply get_pt_lookup. simpl. eauto. }
    split; [done|]. split; [by right; simpl|]. intros [pl pr] _ Hle _. unfold ple in *. simpl in *.
    destruct (decide (pl = l /\ pr = s)%nat) as [[-> ->]|Hne]; [by left|]. right. lia.
  - rewrite Hep. simpl. apply lookup_ge_None in Es.
    destruct (skip_empty_spec (length (points_by_layer h)) h ep.1 (S l) Hepl ltac:(lia))
      as (l' & -> & Hle & Hemp & Hne & Hmax).
    rewrite bind_Ok.
    assert (Hskip : forall p, valid h p -> ple (l, s) p -> (p.1 <= ep.1)%nat -> (l' <= p.1)%nat).
    { intros p [pt (lp & Hlp & Hr)%get_pt_lookup] Hp Hpe.
      destruct (decide (p.1 = l)) as [E|E].
      - rewrite E, Hly in Hlp. injection Hlp as <-. apply lookup_lt_Some in Hr. unfold ple in Hp. simpl in Hp. lia.
      - destruct (decide (l' <= p.1)%nat) as [|Hlt]; [done|]. exfalso.
        assert (lp = []) as -> by (eapply (Hemp p.1); [unfold ple in Hp; simpl in Hp; lia|done|done]).
        done. }
    destruct (Nat.leb_spec l' ep.1) as [Hl'|Hl'].
    + destruct (Hne Hl') as (pt & ly' & Hly'). rewrite Hly'. simpl.
      eexists _, _. split; [done|]. right. exists pt, l', 0. split; [done|]. split.
      { apply get_pt_lookup. simpl. exists (pt :: ly'). done. }
      split; [done|]. split; [left; simpl; lia|]. intros [pl pr] Hv Hp Hpe.
      specialize (Hskip _ Hv Hp Hpe). unfold ple in *. simpl in *.
      destruct (decide (pl = l' /\ pr = 0)%nat) as [[-> ->]|Hn]; [by left|]. right. lia.
    + eexists _, _. split; [done|]. left. split; [done|]. intros p Hv Hp Hpe.
      specialize (Hskip p Hv Hp Hpe). lia.
Qed.

(** what an iteration returns, [h0] being the index when it began *)
Definition Listed h0 h (pts : list (point (T:=T))) : Prop :=
  Forall (fun pt => static h (pt_pid pt) = Some (pt_data pt, pt_oid pt, pt_pid pt)) pts /\
  NoDup (pt_pid <$> pts) /\
  forall ep p, entry_point h0 = Some ep -> valid h0 p -> (p.1 <= ep.1)%nat -> p ∈ pt_pid <$> pts.

Lemma ok_entry ph h pub : ok ph h pub -> (0 < nb0)%nat ->
  exists ep, entry_point h = Some ep /\ (ep.1 < length (points_by_layer h))%nat.
Proof.
  intros Ho H0. pose proof (ok_inv _ _ _ _ _ _ _ _ Ho) as Hi. pose proof (v_ent _ _ _ _ _ Hi H0) as He.
  destruct (entry_point h) as [ep|] eqn:E; [|done]. exists ep. split; [done|].
  apply valid_layer. apply (v_pub _ _ _ _ _ Hi). by apply (v_entry _ _ _ _ _ Hi).
Qed.

Lemma rely_len ph h pub h' pub' : ok ph h pub -> rely ph h pub h' pub' ->
  length (points_by_layer h') = length (points_by_layer h).
Proof.
  intros Ho Hr. rewrite (c_len _ _ (ok_core _ _ _ _ _ _ _ _ Ho)).
  rewrite (c_len _ _ (ok_core _ _ _ _ _ _ _ _ (rely_ok _ _ _ _ _ _ _ _ _ _ Hr))). by eapply rely_ml.
Qed.

Lemma wp_iter_next ph B st (Q : post (option (point (T:=T)) * iter_state)) h pub :
  (dm = Free \/ dm = Reads) -> ok ph h pub -> (0 < nb0)%nat -> ((pos st).1 < length (points_by_layer h))%nat ->
  (forall h1 pub1 h' pub' ep o st', rely ph h pub h1 pub1 -> rely ph h1 pub1 h' pub' ->
     entry_point h1 = Some ep -> (ep.1 < length (points_by_layer h1))%nat ->
     iter_next h1 st = Ok (o, st') -> Q ph (o, st') h' pub') ->
  wpg [(Rd, LTable)] [(Rd, LTable)] B ph (iter_next_p st) Q h pub.
Proof.
  intros Hfree Ho H0 Hl HQ. rewrite iter_next_p_pos. destruct (pos st) as [l s] eqn:Epos. unfold iter_next_p.
  apply wp_bind; [done|]. apply wp_peek; [done|]. intros h1 pub1 Hr1.
  destruct (lookup_lt_is_Some_2 (points_by_layer h1) l) as [ly Hly].
  { by rewrite (rely_len _ _ _ _ _ Ho Hr1). }
  exists (ly !! s). split; [by rewrite Hly|]. intros h2 pub2 Hr2. cbn [fst snd].
  destruct (ok_entry _ _ _ (rely_ok _ _ _ _ _ _ _ _ _ _ Hr1) H0) as (ep1 & Hep1 & Hel1).
  destruct (ly !! s) as [pt|] eqn:Es.
  - apply wp_ret. intros h3 pub3 Hr3. eapply (HQ h1 pub1 h3 pub3 ep1); auto; [rtr|].
    rewrite iter_next_pos, Epos. unfold iter_next. rewrite Hly. simpl. by rewrite Es.
  - split; [unfold may_lock; tauto|]. intros ha puba Hra _. split; [unfold may_lock; tauto|]. intros hb pubb Hrb _.
    change (wpg [(Rd, LTable)] [(Rd, LTable); (Rd, LEntry); (Rd, LTable)] B ph (r ← peek (fun h => iter_next h (Some (l, s)));
      Unlock Rd LTable (Unlock Rd LEntry (ret r))) Q hb pubb).
    apply wp_bind; [by eapply rely_ok|]. apply wp_peek; [by eapply rely_ok|]. intros h3 pub3 Hr3.
    assert (Hr03 : rely ph h pub h3 pub3) by rtr.
    destruct (ok_entry _ _ _ (rely_ok _ _ _ _ _ _ _ _ _ _ Hr3) H0) as (ep3 & Hep3 & Hel3).
    destruct (iter_next_spec h3 st ep3 Hep3 Hel3) as (o & st' & E & _).
    { rewrite Epos. by rewrite (rely_len _ _ _ _ _ Ho Hr03). }
    exists (o, st'). rewrite iter_next_pos, Epos in E. split; [done|]. intros h4 pub4 Hr4.
    eexists. split; [done|]. eexists. split; [done|]. split; [done|]. intros h5 pub5 Hr5 _.
    eapply (HQ h3 pub3 h5 pub5 ep3); auto; [rtr|]. by rewrite iter_next_pos, Epos.
Qed.

Lemma static_grows h h' p s : grows h h' -> static h p = Some s -> static h' p = Some s.
Proof. intros [_ H]. apply H. Qed.

Lemma wp_iter_collect ph B : (dm = Free \/ dm = Reads) -> forall F st seen (Q : post (list (point (T:=T)))) h pub,
  ok ph h pub -> (0 < nb0)%nat -> ((pos st).1 < length (points_by_layer h))%nat ->
  NoDup seen -> Forall (valid h) seen -> (forall p, p ∈ seen -> ~ ple (pos st) p) -> (N < F + length seen)%nat ->
  (forall h' pub' pts, rely ph h pub h' pub' ->
     Forall (fun pt => static h' (pt_pid pt) = Some (pt_data pt, pt_oid pt, pt_pid pt)) pts ->
     NoDup (pt_pid <$> pts) -> (forall p, p ∈ pt_pid <$> pts -> ple (pos st) p) ->
     (forall ep p, entry_point h = Some ep -> valid h p -> ple (pos st) p -> (p.1 <= ep.1)%nat ->
        p ∈ pt_pid <$> pts) -> Q ph pts h' pub') ->
  wpg [(Rd, LTable)] [(Rd, LTable)] B ph (iter_collect_p F st) Q h pub.
Proof.
  intros Hfree. induction F as [|F IH]; intros st seen Q h pub Ho H0 Hl Hnd Hv Hseen HF HQ.
  { exfalso. pose proof (valid_count h seen Hnd Hv). destruct (v_size _ _ _ _ _ (ok_inv _ _ _ _ _ _ _ _ Ho)).
    simpl in HF. lia. }
  cbn [iter_collect_p]. apply wp_bind; [done|]. apply wp_iter_next; auto.
  intros h1 pub1 h2 pub2 ep1 o st' Hr1 Hr2 Hep1 Hel1 E. cbn [fst snd].
  assert (Hr02 : rely ph h pub h2 pub2) by rtr.
  assert (Hl1 : ((pos st).1 < length (points_by_layer h1))%nat) by (by rewrite (rely_len _ _ _ _ _ Ho Hr1)).
  assert (Hup : forall ep, entry_point h = Some ep -> (ep.1 <= ep1.1)%nat).
  { intros ep Hep. destruct (r_entry _ _ _ _ _ _ _ _ _ _ Hr1 ep Hep) as (ep' & He' & ?).
    rewrite Hep1 in He'. injection He' as <-. done. }
  destruct (iter_next_spec h1 st ep1 Hep1 Hel1 Hl1) as (o' & st2 & E' & Hspec).
  rewrite E in E'. injection E' as <- <-.
  destruct Hspec as [[-> Hnone]|(pt & l & s & -> & Hpt & -> & Hge & Hnext)].
  - apply wp_ret. intros h3 pub3 Hr3. apply HQ.
    + rtr.
    + constructor.
    + constructor.
    + by intros p ?%elem_of_nil.
    + intros ep p Hep Hvp Hp Hlv. exfalso. apply (Hnone p); auto.
      * by eapply rely_valid.
      * specialize (Hup ep Hep). lia.
  - assert (Hv2 : valid h2 (l, s)) by (eapply rely_valid; [exact Hr2|]; by exists pt).
    destruct (c_pt _ _ (ok_core _ _ _ _ _ _ _ _ (rely_ok _ _ _ _ _ _ _ _ _ _ Hr1)) _ _ Hpt) as [Epid _].
    apply wp_bind; [by eapply rely_ok|].
    apply (IH (Some (l, S s)) (seen ++ [(l, s)])).
    + by eapply rely_ok.
    + done.
    + simpl. change l with ((l, s).1). by apply valid_layer.
    + apply NoDup_app. split; [done|]. split; [|by apply NoDup_singleton].
      intros p Hp Hx%elem_of_list_singleton. subst p. by apply (Hseen _ Hp).
    + apply Forall_app. split; [|by repeat constructor].
      eapply Forall_impl; [exact Hv|]. intros p. by eapply rely_valid.
    + intros p [Hp|Hx%elem_of_list_singleton]%elem_of_app.
      * specialize (Hseen p Hp). unfold ple in *. simpl in *. lia.
      * subst p. unfold ple. simpl. lia.
    + rewrite app_length. simpl. lia.
    + intros h3 pub3 pts Hr3 Hst Hndp Hgep Hall. apply wp_ret. intros h4 pub4 Hr4.
      assert (Hr04 : rely ph h pub h4 pub4) by rtr.
      apply HQ; [done|..]; csimpl; rewrite ?Epid.
      * constructor.
        -- rewrite Epid. eapply static_grows; [|unfold static; rewrite Hpt; simpl; by rewrite Epid].
           eapply grows_trans; [apply Hr2|]. eapply grows_trans; [apply Hr3|apply Hr4].
        -- eapply Forall_impl; [exact Hst|]. intros x. apply static_grows, Hr4.
      * constructor; [|done]. intros Hin. apply Hgep in Hin. unfold ple in Hin. simpl in Hin. lia.
      * intros p [->|Hp]%elem_of_cons; [done|]. apply Hgep in Hp. unfold ple in *. simpl in *. lia.
      * intros ep p Hep Hvp Hp Hlv. apply elem_of_cons.
        destruct (Hnext p) as [->|Hnx]; [by eapply rely_valid|done|specialize (Hup ep Hep); lia|by left|].
        right. destruct (r_entry _ _ _ _ _ _ _ _ _ _ Hr02 ep Hep) as (ep2 & Hep2 & ?).
        apply (Hall ep2 p); auto; [|lia]. by eapply (rely_valid _ _ _ _ _ _ _ _ _ _ _ Hr02).
Qed.

Lemma wp_iterate F h pub :
  (dm = Free \/ dm = Reads) ->
  ok P0 h pub -> (0 < nb0)%nat -> (N < F)%nat ->
  wp P0 (iter_points_p F) (fun ph pts h' pub' => ph = P0 /\ Listed h h' pts) h pub.
Proof.
  intros Hfree Ho H0 HF. unfold iter_points_p. split; [unfold may_lock; tauto|]. intros hl publ Hrl _.
  change (wpg [] [(Rd, LTable)] (fun _ _ => False) P0 (l ← iter_collect_p F None; Unlock Rd LTable (ret l))
    (fun ph pts h' pub' => ph = P0 /\ Listed h h' pts) hl publ).
  pose proof (rely_ok _ _ _ _ _ _ _ _ _ _ Hrl) as Hol.
  apply wp_bind; [done|]. apply (wp_iter_collect P0 _ Hfree F None []).
  - done.
  - done.
  - destruct (ok_entry _ _ _ Hol H0) as (ep & _ & ?). simpl. lia.
  - constructor.
  - constructor.
  - by intros p ?%elem_of_nil.
  - simpl. lia.
  - intros h1 pub1 pts Hr1 Hst Hnd _ Hall.
    eexists. split; [done|]. split; [done|]. intros h2 pub2 Hr2 _. split; [done|]. split; [|split; [done|]].
    + eapply Forall_impl; [exact Hst|]. intros x. apply static_grows, Hr2.
    + intros ep p Hep Hv Hlv. destruct (r_entry _ _ _ _ _ _ _ _ _ _ Hrl ep Hep) as (epl & Hepl & ?).
      apply (Hall epl p Hepl); [eapply (rely_valid _ _ _ _ _ _ _ _ _ _ _ Hrl); exact Hv| |lia]. unfold ple. simpl.
      destruct p as [[|pl] pr]; simpl; lia.
Qed.

End Safe3.
