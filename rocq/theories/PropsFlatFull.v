(** Property C112: until a neighbour list is full, a flat index misses nothing. *)
From Coq Require Import SpecFloat.
From stdpp Require Import relations.
From Verif Require Import Prelude Model StdInst Lib Table SearchProofs SelectProofs InsertProofs ExhaustProofs QueryProofs
  IterProofs FlatProofs Spec SpecProofs SpecBuilt BuiltProofs SpecInsert LocalProofs DivProofs LinkProofs
  Conc SpecConc ConcEnd SpecUse InsertSpecProofs InsertUsedProofs Examples PropsSearch PropsReach PropsMutual.
Local Open Scope list_scope.

Local Instance nbr_eq_dec : EqDecision nbr.
Proof. solve_decision. Defined.

Section Flat.
Context {T : Type} (dist : list T -> list T -> Z) (so : StdOps) (LAWS : StdLaws so).
Context (Hnn : forall a b, (0 <= dist a b)%Z).
Local Notation hnsw := (hnsw (T:=T)).

Definition roomy (h : hnsw) : Prop :=
  forall p pt nbs, get_pt h p = Some pt -> pt_nbs pt !! 0%nat = Some nbs -> (length nbs < nb_conn h 0)%nat.
Definition joined (h : hnsw) : Prop := forall p q, valid h p -> valid h q -> rtc (link h 0) p q.

Lemma revd_keeps cap e old new x : revd cap e old new -> (length new < cap)%nat -> x ∈ old \/ x = e -> x ∈ new.
Proof. intros Hr Hlt Hx. destruct (decide (x ∈ new)) as [|Hn]; [done|]. destruct (revd_lost _ _ _ _ _ Hr Hx Hn). lia. Qed.
Lemma revd_shorter cap e old new : revd cap e old new -> (length new < cap)%nat -> (length old < length new)%nat.
Proof. intros (_ & Hl & _) Hlt. lia. Qed.

Definition flat (h : hnsw) : Prop := forall p, valid h p -> p.1 = 0%nat.

Lemma joined_insert h v id d h' : wf dist h -> (1 <= max_nb_connection h)%nat ->
  insert_slice dist so h v id d = Ok h' -> wf dist h' -> max_nb_connection h' = max_nb_connection h ->
  flat h' -> roomy h' -> flat h /\ roomy h /\ (joined h -> joined h').
Proof using LAWS Hnn.
  intros Hwf HM Hins Hwf' EM Hflat Hroom. pose proof (w_core _ _ Hwf) as Hc. pose proof (w_core _ _ Hwf') as Hc'.
  destruct (insert_links_ok dist so LAWS Hnn _ _ _ _ _ (wf_lwf _ _ Hwf) Hins) as (np & HIL).
  destruct (il_np _ _ _ _ _ _ HIL) as (npt & Hnp & Hnd & Hno).
  assert (Hnv : valid h' np) by (by exists npt).
  pose proof (Hflat np Hnv) as Hn0.
  assert (Ec : nb_conn h' 0 = nb_conn h 0) by (unfold nb_conn; by rewrite EM).
  (* a list only grows *)
  assert (Hold : forall p pt nbs, get_pt h p = Some pt -> pt_nbs pt !! 0%nat = Some nbs -> exists pt' nbs',
    get_pt h' p = Some pt' /\ pt_nbs pt' !! 0%nat = Some nbs' /\ (length nbs <= length nbs')%nat /\ (forall x, x ∈ nbs -> x ∈ nbs') /\
    (link h' 0 np p -> link h' 0 p np)).
  { intros p pt nbs Hp Hn. destruct (il_others _ _ _ _ _ _ HIL p pt Hp) as (pt' & Hp' & _ & _ & Hl).
    destruct (Hl 0%nat nbs Hn) as (nbs' & Hn' & Hcase). pose proof (Hroom p pt' nbs' Hp' Hn') as Hlt. rewrite Ec in Hlt.
    exists pt', nbs'. split; [done|]. split; [done|]. destruct Hcase as [(_ & _ & Hr)|[Hnot ->]].
    - split; [pose proof (revd_shorter _ _ _ _ Hr Hlt); lia|]. split; [intros x Hx; eapply revd_keeps; eauto|].
      intros _. exists pt', nbs', (Nbr np (dist v (pt_data pt))). split; [done|]. split; [done|]. split; [|done].
      eapply revd_keeps; eauto.
    - split; [done|]. split; [done|]. intros Hlk. exfalso. apply Hnot. split; [done|]. exists 0%nat. split; [lia|done]. }
  split. { intros p Hp. apply Hflat. apply (il_only _ _ _ _ _ _ HIL). by right. }
  split.
  { intros p pt nbs Hp Hn. destruct (Hold p pt nbs Hp Hn) as (pt' & nbs' & Hp' & Hn' & Hle & _).
    pose proof (Hroom p pt' nbs' Hp' Hn') as Hlt. lia. }
  intros Hj.
  assert (Hmono : forall p q, rtc (link h 0) p q -> rtc (link h' 0) p q).
  { intros p q. apply rtc_subrel. intros x y (pt & nbs & n & Hp & Hn & Hin & E).
    destruct (Hold x pt nbs Hp Hn) as (pt' & nbs' & Hp' & Hn' & _ & Hin' & _). exists pt', nbs', n. auto. }
  destruct (entry_point h) as [ep|] eqn:Eep.
  2:{ intros p q Hp Hq. pose proof (w_entry _ _ Hwf) as He. rewrite Eep in He.
      assert (Hno' : forall p, ~ valid h p).
      { intros p' Hv. pose proof (valid_count h [p'] (NoDup_singleton _) ltac:(by repeat constructor)) as Hcn. simpl in Hcn. lia. }
      apply (il_only _ _ _ _ _ _ HIL) in Hp as [->|Hp]; [|by destruct (Hno' p)].
      apply (il_only _ _ _ _ _ _ HIL) in Hq as [->|Hq]; [done|by destruct (Hno' q)]. }
  destruct (il_own _ _ _ _ _ _ HIL ep Eep) as (_ & Hown & _).
  destruct (Hown 0%nat) as (hc & nv & _ & _ & _ & Hnear).
  { unfold layer_empty. intros E. apply get_pt_lookup in Hnp as (ly & Hly & Hs). rewrite Hn0 in Hly. rewrite E in Hly.
    injection Hly as <-. done. }
  { lia. }
  destruct Hnear as (nbs & n & Hnbs & Hin & _). { unfold nb_conn. simpl. lia. }
  unfold own_list in Hnbs. rewrite Hnp in Hnbs. simpl in Hnbs.
  pose proof (c_lists _ _ Hc' _ _ _ _ Hnp Hnbs) as HL.
  assert (Hlk : link h' 0 np (n_pid n)) by (by exists npt, nbs, n).
  assert (Hvq : valid h (n_pid n)).
  { pose proof (lo_ref _ _ _ _ _ _ HL) as HR. rewrite Forall_forall in HR. destruct (HR n Hin) as (x & Hx & _).
    assert (Hv : valid h' (n_pid n)) by (by exists x). apply (il_only _ _ _ _ _ _ HIL) in Hv as [E|Hv]; [|done].
    exfalso. apply (lo_self _ _ _ _ _ _ HL). apply elem_of_list_fmap. by exists n. }
  assert (Hback : link h' 0 (n_pid n) np).
  { destruct Hvq as [qt Hq]. destruct (lookup_lt_is_Some_2 (pt_nbs qt) 0) as [old Ho].
    { destruct (c_pt _ _ Hc _ _ Hq) as [_ ->]. unfold NB_LAYER_MAX. lia. }
    destruct (Hold _ qt old Hq Ho) as (_ & _ & _ & _ & _ & _ & Hb). by apply Hb. }
  intros p q Hp Hq. apply (il_only _ _ _ _ _ _ HIL) in Hp, Hq.
  destruct Hp as [->|Hp], Hq as [->|Hq].
  - done.
  - eapply rtc_l; [exact Hlk|]. by apply Hmono, Hj.
  - eapply rtc_r; [|exact Hback]. by apply Hmono, Hj.
  - by apply Hmono, Hj.
Qed.

Lemma joined_evolves h0 h inv_ln M ml ef hist : built dist so inv_ln M ml ef hist h0 -> (1 <= M)%nat -> evolves dist so h0 h ->
  (exists hist', built dist so inv_ln M ml ef hist' h) /\ (flat h -> roomy h -> flat h0 /\ roomy h0 /\ (joined h0 -> joined h)).
Proof using LAWS Hnn.
  intros Hb HM He. induction He as [h|h h1 v id d h2 _ IH Hins|h h1 b _ IH|h h1 b _ IH|h h1 b _ IH|h h1 m _ IH].
  { split; [eauto|done]. }
  { destruct (IH Hb) as ((hist1 & Hb1) & IH2). pose proof (built_insert _ _ _ _ _ _ _ _ _ _ _ _ Hb1 Hins) as Hb2.
    split; [eauto|]. intros Hf Hr.
    destruct (built_facts dist so LAWS Hnn _ _ _ _ _ _ Hb1) as (W1 & L1 & M1 & _).
    destruct (built_facts dist so LAWS Hnn _ _ _ _ _ _ Hb2) as (W2 & L2 & M2 & _).
    destruct (joined_insert h1 v id d h2 W1 ltac:(lia) Hins W2 ltac:(congruence) Hf Hr) as (Hf1 & Hr1 & Hj1).
    destruct (IH2 Hf1 Hr1) as (Hf0 & Hr0 & Hj0). auto. }
  all: destruct (IH Hb) as ((hist1 & Hb1) & IH2); split; [eexists; by constructor|exact IH2].
Qed.
End Flat.

(** the indexes C112 is about: all points on layer 0, no list full *)
Lemma flat_joined {T} (dist : list T -> list T -> Z) so (LAWS : StdLaws so) (Hnn : forall a b, (0 <= dist a b)%Z)
    inv_ln M ml ef (h0 h : hnsw (T:=T)) pts :
  hnsw_new inv_ln M ml ef = Ok h0 -> evolves dist so h0 h -> (1 <= M)%nat ->
  (forall p ns, neighbours_at h p 0 ns -> (length ns < 2 * M)%nat) ->
  iter_points h = Ok pts -> (forall pt, pt ∈ pts -> (pt_pid pt).1 = 0%nat) ->
  wf dist h /\ pts = all_points h /\ flat h /\ joined h /\ exists ep, entry_point h = Some ep.
Proof.
  intros Hnew He HM Hroom Hit Hzero.
  pose proof (built_new dist so _ _ _ _ _ Hnew) as Hb0.
  destruct (joined_evolves dist so LAWS Hnn h0 h _ _ _ _ _ Hb0 HM He) as ((hist & Hb) & Hj).
  destruct (built_facts dist so LAWS Hnn _ _ _ _ _ _ Hb) as (Hwf & _ & EM & _).
  pose proof (w_core _ _ Hwf) as Hc.
  assert (Hr : roomy h).
  { intros p pt nbs Hp Hn. unfold nb_conn. simpl. rewrite EM.
    pose proof (Hroom p (conv h <$> nbs)) as H. rewrite fmap_length in H. apply H.
    apply (neighbours_at_conv dist h p 0 _ Hwf). eauto. }
  destruct (iter_collect_length _ _ _ _ 0 0 Hit eq_refl) as (ep & _ & Hep & _).
  pose proof (iter_points_spec dist h ep Hwf Hep) as Hall. rewrite Hit in Hall. injection Hall as ->.
  assert (Hflat : flat h).
  { intros p [pt Hp]. rewrite <- (proj1 (c_pt _ _ Hc _ _ Hp)). apply Hzero, elem_of_all_points. by exists p. }
  destruct (Hj Hflat Hr) as (_ & _ & Hjoin).
  split; [done|]. split; [done|]. split; [done|]. split; [|eauto]. apply Hjoin. intros p q [pt Hp] _. exfalso.
  destruct (built_facts dist so LAWS Hnn _ _ _ _ _ _ Hb0) as (_ & _ & _ & _ & Hst & _).
  apply stored_at in Hp. rewrite Hst in Hp. by apply elem_of_nil in Hp.
Qed.

Lemma flat_lowest {T} (h : hnsw (T:=T)) p l : flat h -> valid h p -> layer_to_search h = Ok l -> l = 0%nat.
Proof.
  intros Hflat Hv Hl. destruct (layer_to_search_spec h p Hv) as (l' & ly' & E & Hly' & Hne' & _ & _). rewrite Hl in E. injection E as <-.
  destruct ly' as [|pt ly']; [done|]. apply (Hflat (l, 0%nat)). exists pt. apply get_pt_lookup. by exists (pt :: ly').
Qed.

(** C112, the part that holds: in an index made by successive insertions, with all points on layer 0, as long as no list is full
    each point can be reached from each other, and a search wide enough gives the nearest of all points. *)
Theorem C112_flat_misses_nothing_partial :
  forall {T} (dist : list T -> list T -> Z) so, StdLaws so -> (forall a b, (0 <= dist a b)%Z) ->
  forall inv_ln M ml ef h0 h, hnsw_new inv_ln M ml ef = Ok h0 -> evolves dist so h0 h -> (1 <= M)%nat ->
  (forall p ns, neighbours_at h p 0 ns -> (length ns < 2 * M)%nat) ->
  forall pts, iter_points h = Ok pts -> (forall pt, pt ∈ pts -> (pt_pid pt).1 = 0%nat) ->
  (forall a b, a ∈ pts -> b ∈ pts -> reaches h 0 (pt_pid a) (pt_pid b)) /\
  forall q knbn ef_arg, (length pts <= Nat.max ef_arg knbn)%nat ->
  exists res, search dist so h q knbn ef_arg = Ok res /\
    k_smallest knbn ((fun pt => dist q (pt_data pt)) <$> pts) (distance <$> res).
Proof.
  intros T dist so LAWS Hnn inv_ln M ml ef h0 h Hnew He HM Hroom pts Hit Hzero.
  destruct (flat_joined dist so LAWS Hnn _ _ _ _ _ _ _ Hnew He HM Hroom Hit Hzero) as (Hwf & -> & Hflat & J & ep & Hep).
  pose proof (w_core _ _ Hwf) as Hc. split.
  { intros a b Ha Hb. apply (reaches_rtc dist); [done|]. apply J; eexists.
    - apply elem_of_all_points in Ha as [p Hp]. destruct (c_pt _ _ Hc _ _ Hp) as [-> _]. exact Hp.
    - apply elem_of_all_points in Hb as [p Hp]. destruct (c_pt _ _ Hc _ _ Hp) as [-> _]. exact Hp. }
  intros q k efa Hbig. rewrite all_points_length in Hbig.
  destruct (search_exhaustive dist so LAWS Hnn h q k efa None ep Hwf Hep Hbig) as
    (pv & l & RA & res & Hpv & Hl & Hnd & Hin & Hs & H1 & H2).
  assert (Hpvv : valid h pv) by (by eapply (find_pivot_valid dist so LAWS Hnn h q ep pv Hwf Hep)).
  rewrite (flat_lowest h pv l Hflat Hpvv Hl) in Hin.
  assert (HRA : RA ≡ₚ pids_from 0 (points_by_layer h)).
  { apply NoDup_Permutation; [done|apply NoDup_pids_from|]. intros p. rewrite Hin, elem_of_pids. split.
    - intros [_ (pt & Hp & _)]. by exists pt.
    - intros [pt Hp]. split; [apply J; [done|by exists pt]|]. by exists pt. }
  exists res. split; [done|].
  destruct H1 as (_ & ds & D1 & D2 & D3).
  { intros ->. apply elem_of_pids in Hpvv. rewrite <- HRA in Hpvv. by apply elem_of_nil in Hpvv. }
  exists ds. split; [|done]. rewrite D1, HRA, (stored_dists dist). unfold stored. by rewrite <- list_fmap_compose.
Qed.
Print Assumptions C112_flat_misses_nothing_partial.

(** C112, with a filter that accepts some of the points: the nearest of these. *)
Theorem C112_flat_filter_partial :
  forall {T} (dist : list T -> list T -> Z) so, StdLaws so -> (forall a b, (0 <= dist a b)%Z) ->
  forall inv_ln M ml ef h0 h, hnsw_new inv_ln M ml ef = Ok h0 -> evolves dist so h0 h -> (1 <= M)%nat ->
  (forall p ns, neighbours_at h p 0 ns -> (length ns < 2 * M)%nat) ->
  forall pts, iter_points h = Ok pts -> (forall pt, pt ∈ pts -> (pt_pid pt).1 = 0%nat) ->
  forall q knbn ef_arg flt, (length pts <= Nat.max ef_arg knbn)%nat ->
  (exists pt, pt ∈ pts /\ flt (pt_oid pt) = true) ->
  exists res, search_filter dist so h q knbn ef_arg (Some flt) = Ok res /\
    k_smallest knbn ((fun pt => dist q (pt_data pt)) <$> List.filter (fun pt => flt (pt_oid pt)) pts) (distance <$> res).
Proof.
  intros T dist so LAWS Hnn inv_ln M ml ef h0 h Hnew He HM Hroom pts Hit Hzero q k efa flt Hbig (pt0 & Hpt0 & Hf0).
  destruct (flat_joined dist so LAWS Hnn _ _ _ _ _ _ _ Hnew He HM Hroom Hit Hzero) as (Hwf & -> & Hflat & J & ep & Hep).
  rewrite all_points_length in Hbig.
  destruct (search_exhaustive dist so LAWS Hnn h q k efa (Some flt) ep Hwf Hep Hbig) as
    (pv & l & RA & res & Hpv & Hl & Hnd & Hin & Hs & H1 & H2).
  assert (Hpvv : valid h pv) by (by eapply (find_pivot_valid dist so LAWS Hnn h q ep pv Hwf Hep)).
  rewrite (flat_lowest h pv l Hflat Hpvv Hl) in Hin.
  set (g := fun p => match get_pt h p with Some pt => flt (pt_oid pt) | None => false end).
  assert (HRA : RA ≡ₚ List.filter g (pids_from 0 (points_by_layer h))).
  { apply NoDup_Permutation; [done|apply NoDup_ListNoDup, List.NoDup_filter, NoDup_ListNoDup, NoDup_pids_from|]. intros p.
    rewrite Hin, (elem_of_list_In (List.filter _ _)), filter_In, <- elem_of_list_In, elem_of_pids. unfold g. split.
    - intros [_ (pt & Hp & Hpass)]. rewrite Hp. split; [by exists pt|exact Hpass].
    - intros [[pt Hp] Hg]. rewrite Hp in Hg. split; [apply J; [done|by exists pt]|]. by exists pt. }
  exists res. split; [done|].
  destruct H1 as (_ & ds & D1 & D2 & D3).
  { intros ->. apply elem_of_all_points in Hpt0 as [p Hp].
    assert (Hpp : p ∈ ([] : list pid)); [|by apply elem_of_nil in Hpp]. apply Hin. split; [apply J; [done|by exists pt0]|].
    exists pt0. done. }
  exists ds. split; [|done]. rewrite D1, HRA, all_points_pids.
  assert (Hv : forall p, p ∈ pids_from 0 (points_by_layer h) -> valid h p) by (intros p; apply elem_of_pids).
  revert Hv. generalize (pids_from 0 (points_by_layer h)). clear. intros ps Hv.
  enough (pdist dist h q <$> List.filter g ps = (fun pt => dist q (pt_data pt)) <$> List.filter (fun pt => flt (pt_oid pt)) (omap (get_pt h) ps)) as -> by done.
  induction ps as [|p ps IH]; [done|]. destruct (Hv p) as [pt Hp]; [left|].
  csimpl. rewrite Hp. unfold g at 1. rewrite Hp. cbn [List.filter].
  destruct (flt (pt_oid pt)); csimpl; rewrite IH by (intros p' Hp'; apply Hv; by right); [|done].
  f_equal. unfold pdist. by rewrite Hp.
Qed.
Print Assumptions C112_flat_filter_partial.

(** M = 2, so at most four neighbours, and ef_construction = 1, so one or two links per insertion: six points on a line *)
Definition fl_points : list (Z * N * nat) := [(0%Z, 1%N, 0); (10%Z, 2%N, 0); (20%Z, 3%N, 0); (30%Z, 4%N, 0); (40%Z, 5%N, 0); (50%Z, 6%N, 0)].
Definition fl : hnsw (T:=Z) := Eval vm_compute in the (empty_index 2 16 1) (mk simple_ops 2 16 1 fl_points).
Example C112_example :
  StdLaws simple_ops /\ (forall a b, (0 <= d1 a b)%Z) /\ hnsw_new one_scale 2 16 1 = Ok (empty_index 2 16 1) /\
  evolves d1 simple_ops (empty_index 2 16 1) fl /\ (forall p ns, neighbours_at fl p 0 ns -> (length ns < 2 * 2)%nat) /\
  (exists pts, iter_points fl = Ok pts /\ length pts = 6%nat /\ forall pt, pt ∈ pts -> (pt_pid pt).1 = 0%nat) /\
  (exists res, search d1 simple_ops fl [31%Z] 3 6 = Ok res /\ distance <$> res = [1%Z; 9%Z; 11%Z]) /\
  exists res, search_filter d1 simple_ops fl [31%Z] 2 6 (Some (fun id => (id <=? 2)%N)) = Ok res /\ distance <$> res = [21%Z; 31%Z].
Proof.
  assert (Hmk : mk simple_ops 2 16 1 fl_points = Ok fl) by (vm_compute; reflexivity).
  assert (Hnew : hnsw_new one_scale 2 16 1 = Ok (empty_index 2 16 1)) by (vm_compute; reflexivity).
  pose proof (built_wf d1 simple_ops simple_laws d1_nonneg _ _ _ _ _ _ (mk_built _ _ _ _ _ _ Hmk)) as Hwf.
  split; [exact simple_laws|]. split; [exact d1_nonneg|]. split; [exact Hnew|].
  split; [by apply (mk_evolves simple_ops 2 16 1 fl_points)|]. split; [|split].
  - intros p ns Hns. apply (neighbours_at_conv d1 _ _ _ _ Hwf) in Hns as (pt & nbs & Hp & Hn & ->). rewrite fmap_length.
    assert (Hno : forallb (fun pt => (length (from_option id [] (pt_nbs pt !! 0%nat)) <? 4)%nat) (all_points fl) = true)
      by (vm_compute; reflexivity).
    rewrite forallb_forall in Hno. specialize (Hno pt). rewrite Hn in Hno. apply Nat.ltb_lt, Hno.
    apply elem_of_list_In, elem_of_all_points. by exists p.
  - exists (all_points fl). split; [vm_compute; reflexivity|]. split; [reflexivity|]. intros pt Hpt.
    assert (Hno : forallb (fun pt => ((pt_pid pt).1 =? 0)%nat) (all_points fl) = true) by (vm_compute; reflexivity).
    rewrite forallb_forall in Hno. apply Nat.eqb_eq, Hno. by apply elem_of_list_In.
  - split; eexists; (split; [vm_compute; reflexivity|reflexivity]).
Qed.

(** C112, why the lists have to have room: nine points, each inserted beside its neighbours. The second one, far from the
    others, is at last in none of their lists, so that no search returns it, with whatever arguments. *)
Definition lo_points : list (Z * N * nat) :=
  [(1000%Z, 1%N, 0); (0%Z, 2%N, 0); (1010%Z, 3%N, 0); (1020%Z, 4%N, 0); (1030%Z, 5%N, 0); (1040%Z, 6%N, 0); (1025%Z, 7%N, 0);
   (1015%Z, 8%N, 0); (1005%Z, 9%N, 0)].
Definition lo : hnsw (T:=Z) := Eval vm_compute in the (empty_index 2 1 20) (mk simple_ops 2 1 20 lo_points).
Lemma unlisted_never {T} (dist : list T -> list T -> Z) so : StdLaws so -> (forall a b, (0 <= dist a b)%Z) ->
  forall inv_ln M ml ef hist h, built dist so inv_ln M ml ef hist h -> forall p, entry_point h <> Some p ->
  forallb (fun pt => forallb (fun n => negb (bool_decide (n_pid n = p))) (concat (pt_nbs pt))) (all_points h) = true ->
  forall q knbn ef_arg res a, search dist so h q knbn ef_arg = Ok res -> a ∈ res -> p_id a <> p.
Proof.
  intros LAWS Hnn inv_ln M ml ef hist h Hb p Hent Hall q k efa res a Hs Ha E.
  pose proof (built_wf dist so LAWS Hnn _ _ _ _ _ _ Hb) as Hwf.
  destruct (C71_answers_are_linked dist so LAWS Hnn _ _ _ _ _ _ (used_built _ _ _ _ _ _ _ _ Hb) q k efa None res
    (or_introl eq_refl) Hs) as [_ Hno].
  refine (Hno p Hent _ _); [|rewrite <- E; apply elem_of_list_fmap; by exists a].
  intros p' (l & ns & b & Hns & Hin' & Eb).
  assert (Hlk : layer_linked h l p' p) by (by exists ns, b).
  apply (layer_linked_link dist h l _ _ (wf_lwf _ _ Hwf)) in Hlk as (pt' & nbs & n & Hp' & Hn & Hin & En).
  rewrite forallb_forall in Hall. specialize (Hall pt'). rewrite forallb_forall in Hall.
  enough (negb (bool_decide (n_pid n = p)) = true) as H by (by rewrite (bool_decide_eq_true_2 _ En) in H).
  apply Hall; [apply elem_of_list_In, elem_of_all_points; by exists p'|].
  apply in_concat. exists nbs. split; apply elem_of_list_In; [by eapply elem_of_list_lookup_2|done].
Qed.
Theorem C112_flat_misses_nothing_refuted :
  exists (h : hnsw (T:=Z)) pts pt,
    hnsw_new one_scale 2 1 20 = Ok (empty_index 2 1 20) /\ evolves d1 simple_ops (empty_index 2 1 20) h /\
    iter_points h = Ok pts /\ length pts = 9%nat /\ pt ∈ pts /\ pt_data pt = [0%Z] /\
    (exists res, search d1 simple_ops h [0%Z] 9 100 = Ok res /\ length res = 8%nat) /\
    forall q knbn ef_arg res a, search d1 simple_ops h q knbn ef_arg = Ok res -> a ∈ res -> p_id a <> pt_pid pt.
Proof.
  assert (Hmk : mk simple_ops 2 1 20 lo_points = Ok lo) by (vm_compute; reflexivity).
  assert (Hnew : hnsw_new one_scale 2 1 20 = Ok (empty_index 2 1 20)) by (vm_compute; reflexivity).
  pose proof (mk_built _ _ _ _ _ _ Hmk) as Hb.
  pose proof (built_wf d1 simple_ops simple_laws d1_nonneg _ _ _ _ _ _ Hb) as Hwf.
  destruct (get_pt lo (0, 1)) as [pt|] eqn:Hpt; [|vm_compute in Hpt; done].
  assert (Epid : pt_pid pt = (0, 1)) by apply (c_pt _ _ (w_core _ _ Hwf) _ _ Hpt).
  assert (Hent : entry_point lo <> Some (0, 1)) by discriminate.
  assert (Hall : forallb (fun pt => forallb (fun n => negb (bool_decide (n_pid n = (0, 1)))) (concat (pt_nbs pt))) (all_points lo) = true)
    by (vm_compute; reflexivity).
  exists lo, (all_points lo), pt. split; [exact Hnew|]. split; [by apply (mk_evolves simple_ops 2 1 20 lo_points)|].
  split; [vm_compute; reflexivity|]. split; [vm_compute; reflexivity|].
  split; [apply elem_of_all_points; by exists (0, 1)|].
  split; [assert (E : pt_data <$> get_pt lo (0, 1) = Some [0%Z]) by (vm_compute; reflexivity); rewrite Hpt in E; by injection E|].
  split; [eexists; split; [vm_compute; reflexivity|reflexivity]|].
  intros q k efa res a Hs Ha E. rewrite Epid in E.
  apply (unlisted_never d1 simple_ops simple_laws d1_nonneg _ _ _ _ _ _ Hb (0, 1) Hent Hall q k efa res a Hs Ha E).
Qed.
Print Assumptions C112_flat_misses_nothing_refuted.
