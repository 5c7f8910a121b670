(** Property C108: the links of the points whose insertion is over. *)
From Coq Require Import SpecFloat.
From stdpp Require Import relations.
From Verif Require Import Prelude Model StdInst Lib Table SearchProofs InsertProofs IterProofs QueryProofs Spec SpecProofs
  Io SpecIo SpecBuilt Conc SpecConc ConcSafe ConcSafe2 ConcSafe3 ConcGlobal ConcEnd ConcLinks BuiltProofs PropsConc Examples ExamplesConc.
Local Open Scope list_scope.

(** [p] was in the index before the threads started, or the insertion that gave it has returned *)
Definition settled {T} (h : hnsw (T:=T)) (c : config (T:=T)) (p : pid) : Prop :=
  (exists pt, layer_point h p pt) \/ exists i, returned c i (RInserted p).

(** [aged_to cap old before now]: of the list [before] only furthest entries may be missing in [now], and only if [now] has as
    many entries as allowed; what came in is not [old]. *)
Definition aged_to (cap : nat) (old : pid -> Prop) (before now : list neighbour) : Prop :=
  (length before <= length now)%nat /\
  (forall n, n ∈ before -> n ∉ now -> length now = cap /\ forall n', n' ∈ now -> (distance n' <= distance n)%Z) /\
  (forall n', n' ∈ now -> n' ∉ before -> ~ old (p_id n')).

(** C108: at any two moments of any interleaving, the later list of a point that was settled at the earlier one is the
    earlier list aged. *)
Theorem C108_links_of_older_points :
  forall {T} (dist : list T -> list T -> Z) so, StdLaws so -> (forall a b, (0 <= dist a b)%Z) ->
  forall inv_ln M ml ef hist h, used dist so inv_ln M ml ef hist h -> (1 <= ml)%nat ->
  forall ts, Forall (may_run h) ts -> forall c c', during dist so h ts c -> rtc cstep c c' ->
  forall p, settled h c p -> forall l ns, layer_neighbours (c_sh c) p l ns ->
  exists ns', layer_neighbours (c_sh c') p l ns' /\
    aged_to (if (l =? 0)%nat then 2 * M else M) (settled h c) ns ns'.
Proof.
  intros T dist so LAWS Hnn inv_ln M ml ef hist h Hb Hml ts Hok c c' Hd Hr p Hp l ns Hns.
  pose proof (used_pos dist so LAWS Hnn _ _ _ _ _ _ Hb Hml) as Hpos.
  destruct (used_facts dist so LAWS Hnn _ _ _ _ _ _ Hb) as (Hwf & _ & HM & _ & _ & _).
  assert (Hd' : during dist so h ts c') by (by eapply rtc_transitive).
  destruct (during_glob dist so LAWS Hnn h ts Hwf Hpos Hok c Hd) as (phs & G).
  destruct (during_glob dist so LAWS Hnn h ts Hwf Hpos Hok c' Hd') as (phs' & G').
  pose proof (v_core _ _ _ _ _ (g_inv _ _ _ _ _ G)) as Hc. pose proof (v_core _ _ _ _ _ (g_inv _ _ _ _ _ G')) as Hc'.
  pose proof (l_core _ _ Hwf) as Hc0.
  destruct (g_params _ _ _ _ _ G) as (_ & EM & _). destruct (g_params _ _ _ _ _ G') as (_ & EM' & _).
  destruct (owned_reach dist so h ts c Hd) as (own & Ho).
  pose proof (run_touch so h own c c' Ho Hr) as Hto.
  destruct (touches_aged so LAWS _ _ _ Hto) as (_ & Hids & Hag).
  assert (Hset : forall q, settled h c q -> over h c q).
  { intros q [(qt & Hq)|?]; [left|by right]. apply (layer_point_pt dist) in Hq; [congruence|done]. }
  apply (layer_neighbours_pt dist) in Hns as (pt1 & nbs & Hpt1 & Hn & HF); [|done].
  destruct (Hag p pt1) as (pt2 & Hpt2 & Hl); [by apply Hset|done|].
  destruct (Hl l nbs Hn) as (nbs' & Hn' & A1 & A2 & A3).
  assert (Hl16 : (l < NB_LAYER_MAX)%nat).
  { apply lookup_lt_Some in Hn. destruct (c_pt _ _ Hc _ _ Hpt1) as [_ E]. lia. }
  destruct (nbhd_ok_core dist (c_sh c') p pt2 Hc' Hpt2) as (lists & Hg & Hlen & Hspec).
  destruct (lookup_lt_is_Some_2 lists l) as [ns' Hns']; [by rewrite Hlen|].
  exists ns'. split. { exists pt2, lists. split; [by apply (layer_point_pt dist)|done]. }
  apply Hspec in Hns' as (nbs2 & Hn2 & HF'). rewrite Hn' in Hn2. injection Hn2 as <-.
  destruct (c_lists _ _ Hc' _ _ _ _ Hpt2 Hn') as [_ _ _ _ L5].
  assert (Hto' : forall x a, a ∈ ns -> x ∈ nbs' -> n_pid x = p_id a -> n_dist x = distance a -> a ∈ ns').
  { intros x a Ha Hx E1 E2. apply elem_of_list_lookup in Ha as [i Hi]. apply elem_of_list_lookup in Hx as [j Hj].
    destruct (Forall2_lookup_r _ _ _ _ _ HF Hi) as (y & Hy & F1 & F2 & q & Hq & F3).
    destruct (Forall2_lookup_l _ _ _ _ _ HF' Hj) as (b & Hb' & F4 & F5 & q' & Hq' & F6).
    destruct (Hids _ _ Hq) as (q2 & Hq2 & Eo & _). rewrite <- F1, <- E1, Hq' in Hq2. injection Hq2 as <-.
    assert (a = b) as ->; [|by eapply elem_of_list_lookup_2]. destruct a, b; simpl in *; congruence. }
  assert (Hof : forall x, x ∈ nbs -> exists a, a ∈ ns /\ n_pid x = p_id a /\ n_dist x = distance a).
  { intros x Hx. apply elem_of_list_lookup in Hx as [j Hj]. destruct (Forall2_lookup_l _ _ _ _ _ HF Hj) as (b & Hb' & F4 & F5 & _).
    exists b. split; [by eapply elem_of_list_lookup_2|done]. }
  split_and!.
  - by rewrite <- (Forall2_length _ _ _ HF), <- (Forall2_length _ _ _ HF').
  - intros a Ha Hna. apply elem_of_list_lookup in Ha as [i Hi].
    destruct (Forall2_lookup_r _ _ _ _ _ HF Hi) as (y & Hy & F1 & F2 & _).
    destruct (A2 y) as [A4 A5]; [by eapply elem_of_list_lookup_2| |].
    { intros Hin. apply Hna. apply (Hto' y a); [by eapply elem_of_list_lookup_2|done..]. }
    split.
    + rewrite <- (Forall2_length _ _ _ HF'). unfold nb_conn in *. rewrite EM' in L5. rewrite EM in A4. rewrite HM in *. lia.
    + intros a' Ha'. apply elem_of_list_lookup in Ha' as [j Hj].
      destruct (Forall2_lookup_r _ _ _ _ _ HF' Hj) as (y' & Hy' & _ & F5 & _). rewrite F2, F5. apply A5. by eapply elem_of_list_lookup_2.
  - intros a' Ha' Hna' Hset'.
    apply elem_of_list_lookup in Ha' as [j Hj].
    destruct (Forall2_lookup_r _ _ _ _ _ HF' Hj) as (y' & Hy' & F4 & F5 & q' & Hq' & F6).
    assert (Hyn : y' ∉ nbs).
    { intros Hin. destruct (Hof y' Hin) as (a & Ha & E1 & E2). apply Hna'.
      apply elem_of_list_lookup in Ha as [i Hi]. destruct (Forall2_lookup_r _ _ _ _ _ HF Hi) as (y & Hy & G1 & G2 & q & Hq & G3).
      destruct (Hids _ _ Hq) as (q2 & Hq2 & Eo & _). rewrite <- G1, <- E1, Hq' in Hq2. injection Hq2 as <-.
      assert (a' = a) as ->; [|by eapply elem_of_list_lookup_2]. destruct a, a'; simpl in *; congruence. }
    pose proof (A3 y' ltac:(by eapply elem_of_list_lookup_2) Hyn) as HN. apply HN. rewrite <- F4. by apply Hset.
Qed.
Print Assumptions C108_links_of_older_points.

Local Instance neighbour_eq_dec : EqDecision neighbour.
Proof. solve_decision. Defined.

(** Two consequences. A list that has room loses nothing. *)
Theorem C108_room :
  forall {T} (dist : list T -> list T -> Z) so, StdLaws so -> (forall a b, (0 <= dist a b)%Z) ->
  forall inv_ln M ml ef hist h, used dist so inv_ln M ml ef hist h -> (1 <= ml)%nat ->
  forall ts, Forall (may_run h) ts -> forall c c', during dist so h ts c -> rtc cstep c c' ->
  forall p, settled h c p -> forall l ns ns', layer_neighbours (c_sh c) p l ns -> layer_neighbours (c_sh c') p l ns' ->
  (length ns' < if (l =? 0)%nat then 2 * M else M)%nat -> forall n, n ∈ ns -> n ∈ ns'.
Proof.
  intros T dist so LAWS Hnn inv_ln M ml ef hist h Hb Hml ts Hok c c' Hd Hr p Hp l ns ns' Hns Hns' Hlt n Hn.
  destruct (C108_links_of_older_points dist so LAWS Hnn inv_ln M ml ef hist h Hb Hml ts Hok c c' Hd Hr p Hp l ns Hns)
    as (ns2 & H2 & _ & HA & _).
  assert (ns2 = ns') as ->.
  { pose proof (used_pos dist so LAWS Hnn _ _ _ _ _ _ Hb Hml) as Hpos.
    destruct (used_facts dist so LAWS Hnn _ _ _ _ _ _ Hb) as (Hwf & _).
    destruct (during_glob dist so LAWS Hnn h ts Hwf Hpos Hok c') as (phs & G); [by eapply rtc_transitive|].
    pose proof (v_core _ _ _ _ _ (g_inv _ _ _ _ _ G)) as Hc.
    destruct Hns' as (pt1 & ls1 & P1 & Q1 & R1). destruct H2 as (pt2 & ls2 & P2 & Q2 & R2).
    apply (layer_point_pt dist) in P1, P2; [|done..]. congruence. }
  destruct (decide (n ∈ ns')) as [?|Hno]; [done|]. destruct (HA n Hn Hno). lia.
Qed.
Print Assumptions C108_room.

(** The nearest neighbour of a settled point never gets further. *)
Theorem C108_nearest :
  forall {T} (dist : list T -> list T -> Z) so, StdLaws so -> (forall a b, (0 <= dist a b)%Z) ->
  forall inv_ln M ml ef hist h, used dist so inv_ln M ml ef hist h -> (1 <= ml)%nat ->
  forall ts, Forall (may_run h) ts -> forall c c', during dist so h ts c -> rtc cstep c c' ->
  forall p, settled h c p -> forall l ns, layer_neighbours (c_sh c) p l ns ->
  exists ns', layer_neighbours (c_sh c') p l ns' /\ forall n, n ∈ ns -> exists n', n' ∈ ns' /\ (distance n' <= distance n)%Z.
Proof.
  intros T dist so LAWS Hnn inv_ln M ml ef hist h Hb Hml ts Hok c c' Hd Hr p Hp l ns Hns.
  destruct (C108_links_of_older_points dist so LAWS Hnn inv_ln M ml ef hist h Hb Hml ts Hok c c' Hd Hr p Hp l ns Hns)
    as (ns' & H2 & HL & HA & _).
  exists ns'. split; [done|]. intros n Hn. destruct (decide (n ∈ ns')) as [?|Hno]; [exists n; split; [done|lia]|].
  destruct (HA n Hn Hno) as [_ HB]. destruct ns' as [|n' ns']; [destruct ns; [by apply elem_of_nil in Hn|simpl in HL; lia]|].
  exists n'. split; [left|]. apply HB. left.
Qed.
Print Assumptions C108_nearest.

(** two points far from each other and no room (M = 1); two insertions take turns: the first list of the first point loses the
    second point *)
Definition ol_points : list (Z * dataid * nat) := [(0%Z, 10%N, 0%nat); (100%Z, 11%N, 0%nat)].
Definition ol_hist : list (list Z * dataid) := [([0%Z], 10%N); ([100%Z], 11%N)].
Definition ol : hnsw (T:=Z) := Eval vm_compute in the (empty_index 1 16 10) (mk simple_ops 1 16 10 ol_points).
Definition ol_tasks : list (task (T:=Z)) := [TInsert [1%Z] 1%N (lv 0); TInsert [(-3)%Z] 2%N (lv 0)].
Definition ol_mid := play [(1%nat, 20%nat); (0%nat, 45%nat)] (initial d1 simple_ops ol ol_tasks).
Definition ol_end := play [(1%nat, 200%nat); (0%nat, 200%nat); (1%nat, 200%nat)] ol_mid.
Lemma ol_built : built d1 simple_ops one_scale 1 16 10 ol_hist ol.
Proof. apply (mk_built _ _ _ _ ol_points). vm_compute. reflexivity. Qed.
Example C108_example :
  built d1 simple_ops one_scale 1 16 10 ol_hist ol /\ Forall (may_run ol) ol_tasks /\
  during d1 simple_ops ol ol_tasks ol_mid /\ rtc cstep ol_mid ol_end /\
  (exists pt, layer_point ol (0, 0)%nat pt) /\
  layer_neighbours (c_sh ol_mid) (0, 0)%nat 0 [Neighbour 11%N 100%Z (0, 1)%nat] /\
  layer_neighbours (c_sh ol_end) (0, 0)%nat 0 [Neighbour 1%N 1%Z (0, 3)%nat; Neighbour 2%N 3%Z (0, 2)%nat].
Proof.
  split; [exact ol_built|]. split; [repeat constructor|]. split; [apply play_during|]. split; [apply play_rtc|].
  split; [eexists; eexists; split_and!; [vm_compute; reflexivity|left|reflexivity]|].
  split; (do 2 eexists; split; [eexists; split_and!; [vm_compute; reflexivity|left|reflexivity]|]; split; vm_compute; reflexivity).
Qed.
(** a point inserted by a thread that has returned receives the point of another *)
Definition os_tasks : list (task (T:=Z)) := [TInsert [1%Z] 1%N (lv 0); TInsert [2%Z] 2%N (lv 0)].
Definition os_mid := play [(0%nat, 200%nat); (1%nat, 20%nat)] (initial d1 simple_ops ol os_tasks).
Definition os_end := play [(1%nat, 200%nat)] os_mid.
Example C108_example_settled :
  during d1 simple_ops ol os_tasks os_mid /\ rtc cstep os_mid os_end /\ settled ol os_mid (0, 2)%nat /\
  layer_neighbours (c_sh os_mid) (0, 2)%nat 0 [Neighbour 10%N 1%Z (0, 0)%nat; Neighbour 11%N 99%Z (0, 1)%nat] /\
  layer_neighbours (c_sh os_end) (0, 2)%nat 0 [Neighbour 10%N 1%Z (0, 0)%nat; Neighbour 2%N 1%Z (0, 3)%nat].
Proof.
  split; [apply play_during|]. split; [apply play_rtc|].
  split; [right; exists 0%nat; vm_compute; reflexivity|].
  split; (do 2 eexists; split; [eexists; split_and!; [vm_compute; reflexivity|right; right; left|reflexivity]|]; split; vm_compute; reflexivity).
Qed.
