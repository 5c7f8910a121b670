(** search_filter. *)
From Verif Require Import Prelude Model Lib Table SearchProofs SelectProofs InsertProofs.

Section Query.
Context {T : Type} (dist : list T -> list T -> Z) (so : StdOps).
Context (LAWS : StdLaws so) (Hnn : forall a b, (0 <= dist a b)%Z).
Implicit Types (h : hnsw (T:=T)) (p np ep : pid) (q : list T).

Lemma pivot_scan_spec h q nbs pv d :
  (forall n, n ∈ nbs -> valid h (n_pid n)) ->
  (exists pt, get_pt h pv = Some pt /\ d = dist q (pt_data pt)) ->
  exists pv' d', pivot_scan dist h q nbs pv d = Ok (pv', d') /\
    (exists pt, get_pt h pv' = Some pt /\ d' = dist q (pt_data pt)) /\ (d' <= d)%Z /\
    (pv' = pv \/ exists n, n ∈ nbs /\ n_pid n = pv').
Proof.
  unfold pivot_scan. revert pv d. induction nbs as [|n nbs IH]; intros pv d Hv Hp; simpl.
  - exists pv, d. split_and!; auto. lia.
  - destruct (Hv n) as [npt Hn]; [left|]. rewrite Hn. simpl.
    destruct (dist q (pt_data npt) <? d)%Z eqn:E.
    + destruct (IH (n_pid n) (dist q (pt_data npt))) as (pv' & d' & -> & Hp' & Hle & Hc).
      { intros m Hm. apply Hv. by right. } { by exists npt. }
      exists pv', d'. split_and!; auto; [lia|]. right. destruct Hc as [->|(m & ? & ?)].
      * exists n. split; [left|done].
      * exists m. split; [by right|done].
    + destruct (IH pv d) as (pv' & d' & -> & Hp' & Hle & Hc); auto.
      { intros m Hm. apply Hv. by right. }
      exists pv', d'. split_and!; auto. destruct Hc as [->|(m & ? & ?)]; [by left|].
      right. exists m. split; [by right|done].
Qed.

(** what a search needs of an index *)
Record searchable h : Prop := {
  s_layers : (length (points_by_layer h) <= NB_LAYER_MAX)%nat;
  s_links : forall l, (l < NB_LAYER_MAX)%nat -> links_ok h l (fun _ => True);
  s_entry : forall ep, entry_point h = Some ep -> valid h ep
}.
Lemma core_searchable h : core dist h -> (forall ep, entry_point h = Some ep -> valid h ep) -> searchable h.
Proof using Type.
  clear LAWS Hnn. intros Hc He. split; [rewrite (c_len _ _ Hc); apply Hc| |done]. intros l Hl. by apply (core_links dist).
Qed.
Lemma lwf_searchable h : lwf dist h -> searchable h.
Proof using Type.
  clear LAWS Hnn. intros [Hc _ He]. apply core_searchable; [done|]. intros ep E. by rewrite E in He.
Qed.
Lemma searchable_layer h p : searchable h -> valid h p -> (p.1 < NB_LAYER_MAX)%nat.
Proof using Type.
  clear LAWS Hnn. intros [Hl _ _] [pt (ly & Hly & _)%get_pt_lookup]. apply lookup_lt_Some in Hly. lia.
Qed.

Lemma pivot_descend_spec ls h q pv d :
  (forall l, (l < NB_LAYER_MAX)%nat -> links_ok h l (fun _ => True)) -> (forall l, l ∈ ls -> (l < NB_LAYER_MAX)%nat) ->
  (exists pt, get_pt h pv = Some pt /\ d = dist q (pt_data pt)) ->
  exists pv', pivot_descend dist ls h q pv d = Ok pv' /\
    exists pt, get_pt h pv' = Some pt /\ (dist q (pt_data pt) <= d)%Z.
Proof.
  intros Hc. revert pv d. induction ls as [|l ls IH]; intros pv d Hls Hp; simpl.
  - exists pv. split; [done|]. destruct Hp as (pt & ? & ->). exists pt. split; [done|lia].
  - destruct Hp as (pt & Hpt & Hd). rewrite Hpt. simpl.
    destruct (Hc l) with (p := pv) (pt := pt) as (nbs & Hn & Hin); auto.
    { apply Hls. left. }
    rewrite Hn. simpl.
    destruct (pivot_scan_spec h q nbs pv d) as (pv' & d' & -> & Hp' & Hle & _).
    { intros n Hn'. by apply Hin. } { by exists pt. }
    rewrite bind_Ok.
    destruct (IH pv' d') as (pv2 & -> & pt2 & ? & ?); auto.
    { intros l' Hl'. apply Hls. by right. }
    exists pv2. split; [done|]. exists pt2. split; [done|lia].
Qed.

Lemma find_pivot_srch h q ep ept :
  (forall l, (l < NB_LAYER_MAX)%nat -> links_ok h l (fun _ => True)) -> (ep.1 < NB_LAYER_MAX)%nat -> get_pt h ep = Some ept ->
  exists pv pt, find_pivot dist h q ep = Ok pv /\ get_pt h pv = Some pt /\
    (dist q (pt_data pt) <= dist q (pt_data ept))%Z.
Proof.
  intros Hc H16 Hep. unfold find_pivot. rewrite Hep. simpl.
  destruct (pivot_descend_spec (rev (seq 1 ep.1)) h q ep (dist q (pt_data ept))) as (pv & -> & pt & ? & ?); auto.
  - intros l Hl. apply elem_of_list_In, in_rev, in_seq in Hl. lia.
  - by exists ept.
  - exists pv, pt. done.
Qed.
Lemma find_pivot_spec h q ep ept :
  core dist h -> get_pt h ep = Some ept ->
  exists pv pt, find_pivot dist h q ep = Ok pv /\ get_pt h pv = Some pt /\
    (dist q (pt_data pt) <= dist q (pt_data ept))%Z.
Proof.
  intros Hc Hep. apply find_pivot_srch; [|destruct (core_layer dist h ep Hc); [by exists ept|lia]|done].
  intros l Hl. by apply (core_links dist).
Qed.

Lemma lowest_from_spec (ls : list (list (point (T:=T)))) k :
  (exists i ly, ls !! i = Some ly /\ ly <> []) ->
  exists l ly, lowest_from ls k = Ok (k + l) /\ ls !! l = Some ly /\ ly <> [] /\
    forall j, (j < l)%nat -> ls !! j = Some [].
Proof.
  revert k. induction ls as [|ly ls IH]; intros k (i & ly' & Hi & Hne); [done|].
  simpl. destruct ly as [|p0 ly].
  - destruct i as [|i]; [simpl in Hi; congruence|].
    destruct (IH (S k)) as (l & lyl & -> & Hl & Hnel & Hlow); [eauto|].
    exists (S l), lyl. split_and!; auto.
    + f_equal. lia.
    + intros [|j] Hj; [done|]. apply Hlow. lia.
  - exists 0, (p0 :: ly). rewrite Nat.add_0_r. split_and!; auto. intros j Hj. lia.
Qed.

Lemma layer_to_search_spec h p :
  valid h p -> exists l ly, layer_to_search h = Ok l /\ points_by_layer h !! l = Some ly /\ ly <> [] /\
    (l <= p.1)%nat /\ forall j, (j < l)%nat -> points_by_layer h !! j = Some [].
Proof.
  intros [pt (ly & Hly & Hpt)%get_pt_lookup]. unfold layer_to_search.
  assert (Hne : ly <> []) by (intros ->; done).
  destruct (lowest_from_spec (points_by_layer h) 0) as (l & lyl & E & Hl & Hnel & Hlow); [by eauto|].
  exists l, lyl. split_and!; auto.
  destruct (decide (l <= p.1)%nat) as [?|Hgt]; [done|].
  assert (points_by_layer h !! p.1 = Some []) by (apply Hlow; lia). congruence.
Qed.

(** the public meaning of an answer *)
Definition answer_ok h q (a : neighbour) : Prop :=
  exists pt, get_pt h (p_id a) = Some pt /\ d_id a = pt_oid pt /\ distance a = dist q (pt_data pt).

Lemma to_answer_spec h q n :
  elt_ok dist h q n -> exists a, to_answer h n = Ok a /\ answer_ok h q a /\
    p_id a = n_pid n /\ distance a = n_dist n.
Proof.
  intros (pt & Hpt & Hd). unfold to_answer. rewrite Hpt. simpl. eexists. split; [done|].
  split; [|done]. exists pt. done.
Qed.

Lemma answers_spec h q l :
  Forall (elt_ok dist h q) l -> exists res, mapM (to_answer h) l = Ok res /\
    Forall (answer_ok h q) res /\ p_id <$> res = n_pid <$> l /\ distance <$> res = n_dist <$> l.
Proof.
  induction 1 as [|n l Hn _ (res & IH & I1 & I2 & I3)]; simpl.
  - exists []. split_and!; auto.
  - destruct (to_answer_spec h q n Hn) as (a & -> & Ha & E1 & E2). rewrite bind_Ok, IH, bind_Ok.
    exists (a :: res). split_and!; auto; csimpl; congruence.
Qed.

(** Full description of search_filter on a non empty index. *)
Lemma search_filter_srch h q k efa filter ep :
  searchable h -> entry_point h = Some ep -> (filter = None \/ 1 <= Nat.max efa k)%nat ->
  exists pv pvt ept l ly hp res,
    get_pt h ep = Some ept /\ get_pt h pv = Some pvt /\
    (dist q (pt_data pvt) <= dist q (pt_data ept))%Z /\
    points_by_layer h !! l = Some ly /\ ly <> [] /\ (l < NB_LAYER_MAX)%nat /\
    (forall j, (j < l)%nat -> points_by_layer h !! j = Some []) /\
    find_pivot dist h q ep = Ok pv /\
    search_layer dist so h q pv (Nat.max efa k) l filter = Ok hp /\
    search_filter dist so h q k efa filter = Ok res /\
    Forall (elt_ok dist h q) (h_iter so hp) /\ NoDup (n_pid <$> h_iter so hp) /\
    h_iter so hp <> [] /\
    (filter = None -> exists x, x ∈ h_iter so hp /\ (n_dist x <= dist q (pt_data pvt))%Z) /\
    flt_ok h filter pv (h_iter so hp) /\
    Forall (answer_ok h q) res /\
    p_id <$> res = n_pid <$> take k (h_sorted so hp) /\
    distance <$> res = n_dist <$> take k (h_sorted so hp).
Proof.
  intros Hc Hep Hef. pose proof (s_entry _ Hc _ Hep) as Hv. pose proof (searchable_layer _ _ Hc Hv) as H16.
  pose proof Hv as [ept Hept].
  destruct (find_pivot_srch h q ep ept (s_links _ Hc) H16 Hept) as (pv & pvt & Hfp & Hpv & Hle).
  assert (Hvp : valid h pv) by (by exists pvt).
  destruct (layer_to_search_spec h pv Hvp) as (l & ly & Hl & Hly & Hne & Hlpv & Hlow).
  assert (Hl16 : (l < NB_LAYER_MAX)%nat).
  { pose proof (searchable_layer _ _ Hc Hvp). lia. }
  destruct (search_layer_spec dist so LAWS Hnn h q pv pvt (Nat.max efa k) l filter ly (fun _ => True))
    as (hp & Hhp & R1 & R2 & _ & R4 & R5 & R6 & R7); auto.
  { by apply (s_links _ Hc). }
  assert (Hs : Forall (elt_ok dist h q) (take k (h_sorted so hp))).
  { apply Forall_take. by rewrite (law_sorted_perm _ LAWS). }
  destruct (answers_spec h q _ Hs) as (res & Hres & A1 & A2 & A3).
  exists pv, pvt, ept, l, ly, hp, res. split_and!; auto.
  unfold search_filter. rewrite Hep, Hfp, bind_Ok. cbn zeta. rewrite Hl, bind_Ok, Hhp, bind_Ok.
  rewrite <- Hres. f_equal. rewrite <- Nat.min_assoc.
  destruct (decide (k <= length (h_sorted so hp))%nat) as [Hk|Hk].
  - f_equal. lia.
  - rewrite (take_ge _ k) by lia. apply take_ge. lia.
Qed.

Lemma search_filter_run h q k efa filter ep :
  lwf dist h -> entry_point h = Some ep -> (filter = None \/ 1 <= Nat.max efa k)%nat ->
  exists pv pvt ept l ly hp res,
    get_pt h ep = Some ept /\ get_pt h pv = Some pvt /\
    (dist q (pt_data pvt) <= dist q (pt_data ept))%Z /\
    points_by_layer h !! l = Some ly /\ ly <> [] /\ (l < NB_LAYER_MAX)%nat /\
    (forall j, (j < l)%nat -> points_by_layer h !! j = Some []) /\
    find_pivot dist h q ep = Ok pv /\
    search_layer dist so h q pv (Nat.max efa k) l filter = Ok hp /\
    search_filter dist so h q k efa filter = Ok res /\
    Forall (elt_ok dist h q) (h_iter so hp) /\ NoDup (n_pid <$> h_iter so hp) /\
    h_iter so hp <> [] /\
    (filter = None -> exists x, x ∈ h_iter so hp /\ (n_dist x <= dist q (pt_data pvt))%Z) /\
    flt_ok h filter pv (h_iter so hp) /\
    Forall (answer_ok h q) res /\
    p_id <$> res = n_pid <$> take k (h_sorted so hp) /\
    distance <$> res = n_dist <$> take k (h_sorted so hp).
Proof. intros Hwf. by apply search_filter_srch, lwf_searchable. Qed.

Lemma search_filter_empty h q k efa filter :
  entry_point h = None -> search_filter dist so h q k efa filter = Ok [].
Proof. intros E. unfold search_filter. by rewrite E. Qed.

(** Consequences, in terms of the answer only. *)
Lemma search_srch_facts h q k efa filter :
  searchable h -> (filter = None \/ 1 <= Nat.max efa k)%nat ->
  exists res, search_filter dist so h q k efa filter = Ok res /\
    (length res <= k)%nat /\ sorted_by distance res /\ NoDup (p_id <$> res) /\
    Forall (answer_ok h q) res.
Proof.
  intros Hwf Hef. destruct (entry_point h) as [ep|] eqn:Eep.
  2: { exists []. rewrite search_filter_empty by done. split_and!; simpl; try lia; constructor. }
  destruct (search_filter_srch h q k efa filter ep Hwf Eep Hef) as
    (pv & pvt & ept & l & ly & hp & res & ? & ? & ? & ? & ? & ? & ? & ? & ? & Hs & R1 & R2 & R3 & R4 & R5 & A1 & A2 & A3).
  exists res. split; [done|].
  assert (Hlen : length res = length (take k (h_sorted so hp))).
  { rewrite <- (fmap_length p_id res), A2, fmap_length. done. }
  split_and!; auto.
  - rewrite Hlen, take_length. lia.
  - assert (HS : sorted_by n_dist (take k (h_sorted so hp))) by apply sorted_by_take, (law_sorted _ LAWS).
    clear -A3 HS. revert res A3. induction HS as [|x l Hs IH Hf]; intros [|r res] A3; try done.
    + constructor.
    + csimpl in A3. injection A3 as E1 E2. constructor; [by apply IH|].
      rewrite E1. apply Forall_forall. intros y Hy.
      assert (Hy' : distance y ∈ n_dist <$> l) by (rewrite <- E2; apply elem_of_list_fmap; eauto).
      apply elem_of_list_fmap in Hy' as (z & -> & Hz). rewrite Forall_forall in Hf. by apply Hf.
  - rewrite A2. rewrite fmap_take.
    assert (HN : NoDup (n_pid <$> h_sorted so hp)) by (by rewrite (law_sorted_perm _ LAWS)).
    rewrite <- (take_drop k (n_pid <$> h_sorted so hp)) in HN. by apply NoDup_app in HN as [? _].
Qed.
Lemma search_filter_facts h q k efa filter :
  lwf dist h -> (filter = None \/ 1 <= Nat.max efa k)%nat ->
  exists res, search_filter dist so h q k efa filter = Ok res /\
    (length res <= k)%nat /\ sorted_by distance res /\ NoDup (p_id <$> res) /\
    Forall (answer_ok h q) res.
Proof. intros Hwf. by apply search_srch_facts, lwf_searchable. Qed.

Lemma search_srch_nonempty h q k efa ep :
  searchable h -> entry_point h = Some ep -> (1 <= k)%nat ->
  exists a res ept, search_filter dist so h q k efa None = Ok (a :: res) /\
    get_pt h ep = Some ept /\ (distance a <= dist q (pt_data ept))%Z.
Proof.
  intros Hwf Eep Hk.
  destruct (search_filter_srch h q k efa None ep Hwf Eep ltac:(by left)) as
    (pv & pvt & ept & l & ly & hp & res & Hept & Hpvt & Hle & ? & ? & ? & ? & ? & ? & Hs & R1 & R2 & R3 & R4 & R5 & A1 & A2 & A3).
  destruct (R4 eq_refl) as (x & Hx & Hxd).
  pose proof (law_sorted_perm _ LAWS hp) as Hp.
  pose proof (law_sorted _ LAWS hp) as Hsort.
  destruct (h_sorted so hp) as [|y ys] eqn:Es.
  { by apply Permutation_nil in Hp. }
  destruct k as [|k]; [lia|]. simpl in A2, A3.
  destruct res as [|a res]; [done|].
  exists a, res, ept. split_and!; auto. injection A3 as E3 _. rewrite E3.
  assert (n_dist y <= n_dist x)%Z; [|lia].
  rewrite <- Hp in Hx. apply elem_of_cons in Hx as [->|Hx]; [lia|].
  inversion Hsort as [|? ? _ Hf]; subst. rewrite Forall_forall in Hf. by apply Hf.
Qed.
Lemma search_nonempty h q k efa ep :
  lwf dist h -> entry_point h = Some ep -> (1 <= k)%nat ->
  exists a res ept, search_filter dist so h q k efa None = Ok (a :: res) /\
    get_pt h ep = Some ept /\ (distance a <= dist q (pt_data ept))%Z.
Proof. intros Hwf. by apply search_srch_nonempty, lwf_searchable. Qed.

Definition id_accepted h (flt : dataid -> bool) (a : neighbour) : Prop := flt (d_id a) = true.

Lemma search_filter_sound h q k efa flt :
  lwf dist h -> (1 <= Nat.max efa k)%nat ->
  exists res, search_filter dist so h q k efa (Some flt) = Ok res /\
    (Forall (fun a => flt (d_id a) = true) res \/ exists a, res = [a]).
Proof.
  intros Hwf Hef. destruct (entry_point h) as [ep|] eqn:Eep.
  2: { exists []. rewrite search_filter_empty by done. split; [done|]. by left. }
  destruct (search_filter_run h q k efa (Some flt) ep Hwf Eep ltac:(by right)) as
    (pv & pvt & ept & l & ly & hp & res & Hept & Hpvt & Hle & ? & ? & ? & ? & ? & ? & Hs & R1 & R2 & R3 & R4 & R5 & A1 & A2 & A3).
  exists res. split; [done|]. simpl in R5. destruct R5 as [R5|(x & R5 & _)].
  - left. rewrite Forall_forall. intros a Ha. rewrite Forall_forall in A1.
    destruct (A1 a Ha) as (pt & Hpt & -> & _).
    assert (Hin : p_id a ∈ n_pid <$> take k (h_sorted so hp)).
    { rewrite <- A2. apply elem_of_list_fmap; eauto. }
    apply elem_of_list_fmap in Hin as (n & En & Hn).
    apply elem_of_take in Hn as (i & Hn & _). apply elem_of_list_lookup_2 in Hn.
    rewrite (law_sorted_perm _ LAWS) in Hn. rewrite Forall_forall in R5.
    destruct (R5 n Hn) as (pt' & Hpt' & Hacc). rewrite En in Hpt. congruence.
  - assert (Hsx : h_sorted so hp = [x]).
    { apply singleton_perm. by rewrite (law_sorted_perm _ LAWS), R5. }
    rewrite Hsx in A2. destruct k as [|k]; simpl in A2.
    + left. by destruct res.
    + right. rewrite take_nil in A2. destruct res as [|a [|b res]]; try done. by exists a.
Qed.

End Query.
