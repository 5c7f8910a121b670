(** What the API shows of a reloaded index. *)
From Coq Require Import SpecFloat Strings.Byte.
From stdpp Require Import strings.
From Verif Require Import Prelude Model Lib Table SearchProofs SelectProofs InsertProofs IterProofs.
From Verif Require Import Spec SpecProofs Io IoBase SpecIo IoProofs IoProofs2 IoProofs3.

Section Shown.
Context {T T' : Type} (dist : list T -> list T -> Z) (Hnn : forall a b, (0 <= dist a b)%Z).
Context (so : StdOps) (LAWS : StdLaws so).
Context (h : hnsw (T:=T)) (Hwf : wf dist h) (ep : pid) (Hep : entry_point h = Some ep).
Context (vd : point (T:=T) -> list T').
Context (h' : hnsw (T:=T')) (Hl : points_by_layer h' = relink_ly so vd <$> points_by_layer h).
Context (He : entry_point h' = Some ep) (Hn : nb_point h' = nb_point h).

Lemma relink_get p : get_pt h' p = relink so vd <$> get_pt h p.
Proof using All.
  unfold get_pt. rewrite Hl, list_lookup_fmap. destruct (points_by_layer h !! p.1) as [ly|]; [|done]. simpl.
  unfold relink_ly. by rewrite list_lookup_fmap.
Qed.

Lemma relink_all : all_points h' = relink so vd <$> all_points h.
Proof using All.
  unfold all_points. rewrite Hl. clear Hl. induction (points_by_layer h) as [|ly ls IH]; [done|].
  cbn [fmap list_fmap concat]. rewrite fmap_app. f_equal. exact IH.
Qed.

Lemma relink_iter : iter_points h' = Ok (all_points h').
Proof using All.
  pose proof (w_entry _ _ Hwf) as Hent. rewrite Hep in Hent. destruct Hent as [Hv Hmax].
  destruct (core_layer dist h ep (w_core _ _ Hwf) Hv) as [Hll _].
  assert (Hlen : (ep.1 < length (points_by_layer h'))%nat).
  { rewrite Hl, fmap_length. by rewrite (c_len _ _ (w_core _ _ Hwf)). }
  destruct (lookup_lt_is_Some_2 (points_by_layer h') 0) as [ly Hly]; [lia|].
  unfold iter_points. rewrite (iter_collect_spec _ h' ep None 0 0 ly); auto.
  - unfold all_points. destruct (points_by_layer h') as [|ly0 ls]; [done|]. injection Hly as ->. done.
  - intros j lj Hj Hlj. destruct lj as [|pt lj]; [done|].
    assert (Hvj : valid h (j, 0%nat)).
    { destruct (get_pt h (j, 0%nat)) as [q|] eqn:E; [by exists q|].
      pose proof (relink_get (j, 0%nat)) as Hg. rewrite E in Hg.
      assert (get_pt h' (j, 0%nat) = Some pt) by (apply get_pt_lookup; eauto). by rewrite Hg in *. }
    apply Hmax in Hvj. simpl in Hvj. lia.
  - lia.
  - rewrite <- all_points_length. unfold all_points.
    destruct (points_by_layer h') as [|ly0 ls]; [done|]. injection Hly as ->.
    simpl. rewrite app_length. unfold drop. lia.
Qed.

Lemma relink_point_at p pt' : point_at h' p pt' <-> exists pt, get_pt h p = Some pt /\ pt' = relink so vd pt.
Proof using All.
  unfold point_at. rewrite relink_iter, relink_all. split.
  - intros (pts & [= <-] & Hin & <-). apply elem_of_list_fmap in Hin as (pt & -> & Hin).
    apply elem_of_all_points in Hin as [p Hp]. exists pt. split; [|done]. cbn [pt_pid relink].
    by destruct (c_pt _ _ (w_core _ _ Hwf) _ _ Hp) as [-> _].
  - intros (pt & Hp & ->). eexists. split; [done|]. split.
    + apply elem_of_list_fmap. exists pt. split; [done|]. apply elem_of_all_points. eauto.
    + by destruct (c_pt _ _ (w_core _ _ Hwf) _ _ Hp) as [? _].
Qed.

Lemma relink_nbhd p pt : get_pt h p = Some pt ->
  get_neighborhood_id h' (relink so vd pt) = Ok ((fun nbs => to_nbs h (u_sort so nbr n_dist nbs)) <$> pt_nbs pt).
Proof using All.
  intros Hp. unfold get_neighborhood_id. cbn [pt_nbs relink]. rewrite mapM_map. apply mapM_ok_map.
  intros nbs Hin. apply elem_of_list_lookup in Hin as [l Hlk].
  pose proof (lo_ref _ _ _ _ _ _ (c_lists _ _ (w_core _ _ Hwf) _ _ _ _ Hp Hlk)) as HF. rewrite Forall_forall in HF.
  unfold to_nbs. apply mapM_ok_map. intros n Hin. rewrite (law_usort_perm _ LAWS) in Hin.
  destruct (HF n Hin) as (q & Hq & _). rewrite relink_get, Hq. simpl. unfold to_nb, oid_at. by rewrite Hq.
Qed.

Lemma relink_neighbours p l ns' : neighbours_at h' p l ns' <->
  exists pt nbs, get_pt h p = Some pt /\ pt_nbs pt !! l = Some nbs /\ ns' = to_nbs h (u_sort so nbr n_dist nbs).
Proof using All.
  unfold neighbours_at. split.
  - intros (pt' & lists & Hpt & Hg & Hlk). apply relink_point_at in Hpt as (pt & Hp & ->).
    rewrite (relink_nbhd p pt Hp) in Hg. injection Hg as <-. rewrite list_lookup_fmap in Hlk.
    destruct (pt_nbs pt !! l) as [nbs|] eqn:E; [|done]. injection Hlk as <-. eauto.
  - intros (pt & nbs & Hp & Hlk & ->). eexists _, _. split; [apply relink_point_at; eauto|].
    split; [by apply (relink_nbhd p)|]. by rewrite list_lookup_fmap, Hlk.
Qed.

Lemma orig_neighbours p l ns : neighbours_at h p l ns <->
  exists pt nbs, get_pt h p = Some pt /\ pt_nbs pt !! l = Some nbs /\ ns = to_nbs h nbs.
Proof using Hwf.
  unfold neighbours_at. split.
  - intros (pt & lists & Hpt & Hg & Hlk). apply (point_at_pt dist) in Hpt; [|done].
    rewrite (nbhd_eq dist h pt p (wf_lwf _ _ Hwf) Hpt) in Hg. injection Hg as <-. rewrite list_lookup_fmap in Hlk.
    destruct (pt_nbs pt !! l) as [nbs|] eqn:E; [|done]. injection Hlk as <-. eauto.
  - intros (pt & nbs & Hp & Hlk & ->). exists pt, (to_nbs h <$> pt_nbs pt). split; [by apply (point_at_pt dist)|].
    split; [by apply (nbhd_eq dist h pt p (wf_lwf _ _ Hwf))|]. by rewrite list_lookup_fmap, Hlk.
Qed.

Lemma sorted_to_nbs l : sorted_by n_dist l -> sorted_by distance (to_nbs h l).
Proof. rewrite (sorted_by_fmap n_dist), (sorted_by_fmap distance). unfold to_nbs. rewrite <- list_fmap_compose. done. Qed.

Lemma relink_same_graph : same_graph h h'.
Proof using All.
  constructor.
  - exact Hn.
  - intros l. unfold get_layer_nb_point. rewrite Hl, list_lookup_fmap.
    destruct (points_by_layer h !! l) as [ly|]; [|done]. simpl. unfold relink_ly. by rewrite fmap_length.
  - by rewrite He, Hep.
  - exists (all_points h), (all_points h'). split_and!.
    + by apply (iter_points_spec dist h ep).
    + apply relink_iter.
    + rewrite relink_all, <- list_fmap_compose. done.
    + rewrite relink_all, <- list_fmap_compose. done.
  - intros p l ns Hns. apply orig_neighbours in Hns as (pt & nbs & Hp & Hlk & ->).
    exists (to_nbs h (u_sort so nbr n_dist nbs)). split_and!.
    + apply relink_neighbours. eauto.
    + unfold to_nbs. by rewrite (law_usort_perm _ LAWS).
    + apply sorted_to_nbs, (law_usort _ LAWS).
  - intros p l ns' Hns. apply relink_neighbours in Hns as (pt & nbs & Hp & Hlk & ->).
    exists (to_nbs h nbs). apply orig_neighbours. eauto.
Qed.

Lemma sorted_unique (l1 l2 : list nbr) : sorted_by n_dist l1 -> sorted_by n_dist l2 -> l1 ≡ₚ l2 -> NoDup (n_dist <$> l1) -> l1 = l2.
Proof using.
  clear. unfold sorted_by. intros H1. revert l2. induction H1 as [|x l1 Hs IH Hx]; intros l2 H2 HP HND.
  { by apply Permutation_nil_l in HP as ->. }
  inversion H2 as [|y l2' Hs2 Hy]; subst. { by apply Permutation_sym, Permutation_nil_cons in HP. }
  assert (x = y) as ->.
  { assert (Hxin : x ∈ y :: l2') by (rewrite <- HP; left). assert (Hyin : y ∈ x :: l1) by (rewrite HP; left).
    apply elem_of_cons in Hxin as [?|Hxin]; [done|]. apply elem_of_cons in Hyin as [?|Hyin]; [done|].
    rewrite Forall_forall in Hx, Hy. apply Hx in Hyin as Hle1. apply Hy in Hxin as Hle2.
    assert (n_dist x = n_dist y) as E by lia. apply NoDup_cons in HND as [HND _]. destruct HND. rewrite E.
    by apply elem_of_list_fmap_1. }
  f_equal. apply IH; [done| |by apply NoDup_cons in HND as [_ ?]]. by apply Permutation_cons_inv in HP.
Qed.

Lemma keeps_usort p pt l nbs : order_kept so h -> get_pt h p = Some pt -> pt_nbs pt !! l = Some nbs ->
  u_sort so nbr n_dist nbs = nbs.
Proof using All.
  intros [Hk|Hk] Hp Hlk; pose proof (lo_sorted _ _ _ _ _ _ (c_lists _ _ (w_core _ _ Hwf) _ _ _ _ Hp Hlk)) as Hs.
  - by apply Hk.
  - assert (HN : neighbours_at h p l (to_nbs h nbs)) by (apply orig_neighbours; eauto).
    apply Hk in HN. unfold to_nbs in HN. rewrite <- list_fmap_compose in HN.
    apply sorted_unique; [apply (law_usort _ LAWS)|done|apply (law_usort_perm _ LAWS)|].
    rewrite (law_usort_perm _ LAWS). exact HN.
Qed.

Lemma relink_same_lists : order_kept so h -> same_lists h h'.
Proof using All.
  intros Hk p l ns. rewrite relink_neighbours, orig_neighbours. split; intros (pt & nbs & Hp & Hlk & ->);
    exists pt, nbs; rewrite (keeps_usort p pt l nbs) by done; auto.
Qed.
End Shown.

Section SameVec.
Context {T : Type} (dist : list T -> list T -> Z) (Hnn : forall a b, (0 <= dist a b)%Z).
Context (so : StdOps) (LAWS : StdLaws so).
Context (h : hnsw (T:=T)) (Hwf : wf dist h) (ep : pid) (Hep : entry_point h = Some ep).
Context (h' : hnsw (T:=T)) (Hl : points_by_layer h' = relink_ly so pt_data <$> points_by_layer h).
Context (He : entry_point h' = Some ep) (Hn : nb_point h' = nb_point h).

Lemma relink_same_vectors : same_vectors h h'.
Proof using All.
  intros p v. unfold vector_at, get_point_data.
  replace (Z.of_nat p.2 <? 0)%Z with false by lia. cbv zeta. rewrite Nat2Z.id.
  unfold get_max_level_observed. rewrite He, Hep.
  assert (E : get_layer_nb_point h' p.1 = get_layer_nb_point h p.1).
  { unfold get_layer_nb_point. rewrite Hl, list_lookup_fmap. destruct (_ !! _); [|done]. simpl.
    unfold relink_ly. by rewrite fmap_length. }
  rewrite E. destruct (_ && _); [|done]. rewrite Hl, list_lookup_fmap.
  destruct (points_by_layer h !! p.1) as [ly|]; [|done]. simpl. unfold relink_ly. rewrite list_lookup_fmap.
  by destruct (ly !! p.2).
Qed.

(** with a sort that leaves sorted lists unchanged the table is the same *)
Lemma relink_id : order_kept so h -> points_by_layer h' = points_by_layer h.
Proof using All.
  intros Hk. rewrite Hl.
  transitivity (id <$> points_by_layer h); [|by rewrite list_fmap_id].
  apply list_fmap_ext. intros i ly Hi. unfold relink_ly, id.
  transitivity (id <$> ly); [|by rewrite list_fmap_id].
  apply list_fmap_ext. intros r pt Hr. unfold relink, id.
  assert (Hp : get_pt h (i, r) = Some pt) by (apply get_pt_lookup; eauto).
  destruct pt as [da oid pd nbs]. cbn [pt_data pt_oid pt_pid pt_nbs] in *. f_equal.
  transitivity (id <$> nbs); [|by rewrite list_fmap_id].
  apply list_fmap_ext. intros l nb Hb. unfold id. eapply (keeps_usort dist Hnn so LAWS h Hwf ep Hep pt_data h'); eauto.
Qed.
End SameVec.

Section SearchSame.
Context {T : Type} (dist : list T -> list T -> Z) (so : StdOps) (h h' : hnsw (T:=T)).
Context (Hl : points_by_layer h' = points_by_layer h) (He : entry_point h' = entry_point h).

Lemma bind_ext {A B} (o : outcome A) (f g : A -> outcome B) : (forall x, f x = g x) -> (o ≫= f) = (o ≫= g).
Proof. intros H. destruct o; simpl; auto. Qed.

Lemma get_same p : get_pt h' p = get_pt h p.
Proof using Hl. unfold get_pt. by rewrite Hl. Qed.

Lemma push_ret_same f e oid d r : push_ret so h' f e oid d r = push_ret so h f e oid d r.
Proof using Hl.
  unfold push_ret. destruct f; [|done]. destruct (b oid); [|done]. f_equal. destruct (_ =? 1)%nat; [|done].
  apply bind_ext. intros x. by rewrite get_same.
Qed.

Lemma scan_same q ef f nbs s : scan_neighbours dist so h' q ef f nbs s = scan_neighbours dist so h q ef f nbs s.
Proof using Hl.
  revert s. induction nbs as [|e nbs IH]; intros s; [done|]. cbn [scan_neighbours].
  rewrite !IH. case_bool_decide; [done|]. cbv zeta. destruct (h_peek _ _); [|done].
  rewrite get_same. apply bind_ext. intros pt. destruct (_ || _); [|by rewrite ?IH].
  rewrite push_ret_same. apply bind_ext. intros r. by rewrite IH.
Qed.

Lemma search_iter_same q ef l f s : search_iter dist so h' q ef l f s = search_iter dist so h q ef l f s.
Proof using Hl.
  unfold search_iter. destruct (h_pop so (s_cand so s)) as [[c cand]|]; [|done].
  apply bind_ext. intros x. apply bind_ext. intros []. apply bind_ext. intros [].
  destruct (_ && _); [done|]. rewrite get_same. apply bind_ext. intros pt. apply bind_ext. intros nbs.
  by rewrite scan_same.
Qed.

Lemma search_loop_same fuel q ef l f s : search_loop dist so fuel h' q ef l f s = search_loop dist so fuel h q ef l f s.
Proof using Hl.
  revert s. induction fuel as [|fuel IH]; intros s; [done|]. cbn [search_loop]. rewrite search_iter_same.
  apply bind_ext. intros [?|?]; [done|]. apply IH.
Qed.

Lemma search_layer_same q ep ef l f : search_layer dist so h' q ep ef l f = search_layer dist so h q ep ef l f.
Proof using Hl.
  unfold search_layer. rewrite Hl. destruct (points_by_layer h !! l) as [[|x ly]|]; try done.
  unfold search_init. rewrite get_same. unfold table_size. rewrite Hl. apply bind_ext. intros s. apply search_loop_same.
Qed.

Lemma pivot_scan_same q nbs pv d : pivot_scan dist h' q nbs pv d = pivot_scan dist h q nbs pv d.
Proof using Hl.
  unfold pivot_scan. generalize (Ok (pv, d) : outcome (pid * Z)). induction nbs as [|n nbs IH]; intros o; [done|].
  cbn [foldl]. rewrite get_same. apply IH.
Qed.

Lemma pivot_descend_same ls q pv d : pivot_descend dist ls h' q pv d = pivot_descend dist ls h q pv d.
Proof using Hl.
  revert pv d. induction ls as [|l ls IH]; intros pv d; [done|]. cbn [pivot_descend]. rewrite get_same.
  apply bind_ext. intros pt. apply bind_ext. intros nbs. rewrite pivot_scan_same. apply bind_ext. intros [p' d']. apply IH.
Qed.

Lemma search_filter_same q k ef f : search_filter dist so h' q k ef f = search_filter dist so h q k ef f.
Proof using Hl He.
  unfold search_filter. rewrite He. destruct (entry_point h) as [ep|]; [|done].
  assert (E : find_pivot dist h' q ep = find_pivot dist h q ep).
  { unfold find_pivot. rewrite get_same. apply bind_ext. intros pt. apply pivot_descend_same. }
  rewrite E. apply bind_ext. intros pv. cbv zeta. unfold layer_to_search. rewrite Hl. apply bind_ext. intros l.
  rewrite search_layer_same. apply bind_ext. intros hp.
  generalize (take (Nat.min (Nat.min k (Nat.max ef k)) (length (h_sorted so hp))) (h_sorted so hp)) as ns.
  intros ns. assert (Ha : forall n, to_answer h' n = to_answer h n).
  { intros n. unfold to_answer. by rewrite get_same. }
  induction ns as [|n ns IH]; [done|]. cbn [mapM]. rewrite Ha. apply bind_ext. intros a. by rewrite IH.
Qed.
End SearchSame.

(* ------------------------------------------------------------------ *)
(** * FlatNeighborhood of a reloaded index *)
Section FlatSame.
Context {T T' : Type} (dist : list T -> list T -> Z) (Hnn : forall a b, (0 <= dist a b)%Z).
Context (so : StdOps) (LAWS : StdLaws so).
Context (h : hnsw (T:=T)) (Hwf : wf dist h) (ep : pid) (Hep : entry_point h = Some ep).
Context (vd : point (T:=T) -> list T').
Context (h' : hnsw (T:=T')) (Hl : points_by_layer h' = relink_ly so vd <$> points_by_layer h).
Context (He : entry_point h' = Some ep) (Hn : nb_point h' = nb_point h).

Definition flat_of (lists : list (list neighbour)) (pt : point (T:=T)) : dataid * flat_point :=
  (pt_oid pt, FlatPoint (pt_oid pt) (pt_pid pt) (u_sort so neighbour distance (concat lists))).

Lemma flatten_orig : flatten so h = Ok ((fun pt => flat_of (to_nbs h <$> pt_nbs pt) pt) <$> all_points h).
Proof using All.
  unfold flatten. rewrite (iter_points_spec dist h ep Hwf Hep). cbn [mbind outcome_bind]. apply mapM_ok_map.
  intros pt Hin. apply elem_of_all_points in Hin as [p Hp]. unfold flatten_point.
  rewrite (nbhd_eq dist h pt p (wf_lwf _ _ Hwf) Hp). done.
Qed.
Lemma flatten_relinked : flatten so h' =
  Ok ((fun pt => flat_of ((fun nbs => to_nbs h (u_sort so nbr n_dist nbs)) <$> pt_nbs pt) pt) <$> all_points h).
Proof using All.
  unfold flatten. rewrite (relink_iter dist Hnn so LAWS h Hwf ep Hep vd h' Hl He Hn). cbn [mbind outcome_bind].
  rewrite (relink_all dist Hnn so LAWS h Hwf ep Hep vd h' Hl He Hn). rewrite mapM_map. apply mapM_ok_map.
  intros pt Hin. apply elem_of_all_points in Hin as [p Hp]. unfold flatten_point.
  rewrite (relink_nbhd dist Hnn so LAWS h Hwf ep Hep vd h' Hl He Hn p pt Hp). done.
Qed.
Lemma flatten_same : order_kept so h -> flatten so h' = flatten so h.
Proof using All.
  intros Hk. rewrite flatten_relinked, flatten_orig. f_equal. apply list_fmap_ext. intros i pt Hi.
  apply elem_of_list_lookup_2, elem_of_all_points in Hi as [p Hp]. f_equal. apply list_fmap_ext. intros l nbs Hlk.
  f_equal. by eapply (keeps_usort dist Hnn so LAWS h Hwf ep Hep vd h').
Qed.
Lemma flatten_perm : exists l l', flatten so h = Ok l /\ flatten so h' = Ok l' /\
  Forall2 (fun a b : dataid * flat_point => b.1 = a.1 /\ fp_origin b.2 = fp_origin a.2 /\ fp_pid b.2 = fp_pid a.2 /\
     fp_neighbours b.2 ≡ₚ fp_neighbours a.2 /\ sorted_by distance (fp_neighbours b.2)) l l'.
Proof using All.
  eexists _, _. split; [apply flatten_orig|]. split; [apply flatten_relinked|].
  apply Forall2_fmap. apply Forall_Forall2_diag, Forall_forall. intros pt Hin. unfold flat_of. cbn [fst snd fp_origin fp_pid fp_neighbours].
  split_and!; try done; [|apply (law_usort _ LAWS)].
  rewrite !(law_usort_perm _ LAWS). induction (pt_nbs pt) as [|nbs ls IH]; [done|]. cbn [fmap list_fmap concat].
  rewrite IH. apply Permutation_app_tail. unfold to_nbs. by rewrite (law_usort_perm _ LAWS).
Qed.
End FlatSame.
