(** Properties C74 and C75: the answers as a function of ef, and of the containers of the standard library. *)
From stdpp Require Import relations.
From Verif Require Import Prelude Model StdInst Lib Table SearchProofs InsertProofs IterProofs QueryProofs FlatProofs MonoProofs Spec SpecProofs
  Io SpecIo SpecBuilt BuiltProofs Examples.
Local Open Scope list_scope.

(** The vectors that were inserted are at pairwise different distances from [q]. *)
Definition no_tie {T} (dist : list T -> list T -> Z) (hist : list (list T * dataid)) (q : list T) : Prop :=
  NoDup ((fun x => dist q x.1) <$> hist).

(** Answer by answer, [r2] has at least as many answers as [r1] and they are at least as near. *)
Definition at_least_as_good (r2 r1 : list neighbour) : Prop :=
  forall i a1, r1 !! i = Some a1 -> exists a2, r2 !! i = Some a2 /\ (distance a2 <= distance a1)%Z.

Lemma no_tie_pt {T} (dist : list T -> list T -> Z) (h : hnsw (T:=T)) hist q : stored h ≡ₚ hist -> no_tie dist hist q ->
  forall p p' pt pt', get_pt h p = Some pt -> get_pt h p' = Some pt' -> dist q (pt_data pt) = dist q (pt_data pt') -> p = p'.
Proof.
  unfold no_tie. intros Hst Hn p p' pt pt' H H' E. rewrite <- Hst, <- (stored_dists dist) in Hn.
  assert (Hp : forall x xt, get_pt h x = Some xt -> x ∈ pids_from 0 (points_by_layer h) /\ pdist dist h q x = dist q (pt_data xt)).
  { intros x xt Hx. split; [apply elem_of_pids; by exists xt|]. unfold pdist. by rewrite Hx. }
  destruct (Hp _ _ H) as [Hin Hd], (Hp _ _ H') as [Hin' Hd'].
  apply elem_of_list_lookup in Hin as [i Hi]. apply elem_of_list_lookup in Hin' as [j Hj].
  assert (i = j); [|congruence]. apply (NoDup_lookup _ i j (dist q (pt_data pt)) Hn).
  - by rewrite list_lookup_fmap, Hi, <- Hd.
  - by rewrite list_lookup_fmap, Hj, E, <- Hd'.
Qed.

(** C74: with a larger ef, or more answers asked, and no tie, the answers are at least as good: there are at least as many, and the
    i-th is at least as near. *)
Theorem C74_larger_ef_is_no_worse :
  forall {T} (dist : list T -> list T -> Z) so, StdLaws so -> (forall a b, (0 <= dist a b)%Z) ->
  forall inv_ln M ml ef hist h, used dist so inv_ln M ml ef hist h ->
  forall q k1 k2 e1 e2 r1 r2, no_tie dist hist q -> (k1 <= k2)%nat -> (Nat.max e1 k1 <= Nat.max e2 k2)%nat ->
  search dist so h q k1 e1 = Ok r1 -> search dist so h q k2 e2 = Ok r2 ->
  at_least_as_good r2 r1 /\ (length r1 <= length r2)%nat.
Proof.
  intros T dist so LAWS Hnn inv_ln M ml ef hist h Hu q k1 k2 e1 e2 r1 r2 Hnt Hk He H1 H2.
  destruct (used_facts dist so LAWS Hnn _ _ _ _ _ _ Hu) as (Hwf & _ & _ & _ & Hst & _).
  assert (Hg : at_least_as_good r2 r1).
  { unfold at_least_as_good. apply (search_mono dist so so LAWS LAWS Hnn h q k1 k2 e1 e2 r1 r2); auto; [by apply (lwf_searchable dist)|].
    by apply (no_tie_pt dist h hist). }
  split; [done|]. destruct (decide (length r1 = 0)) as [|Hne]; [lia|].
  destruct (lookup_lt_is_Some_2 r1 (length r1 - 1)) as [a1 Ha1]; [lia|]. destruct (Hg _ _ Ha1) as (a2 & Ha2 & _).
  apply lookup_lt_Some in Ha2. lia.
Qed.
Print Assumptions C74_larger_ef_is_no_worse.

(** C75: with no tie, the answers do not depend on how the containers of the standard library order equal elements: two
    implementations that do what the documentation says give the same answers on the same index. *)
Theorem C75_answers_do_not_depend_on_containers :
  forall {T} (dist : list T -> list T -> Z) so1 so2, StdLaws so1 -> StdLaws so2 -> (forall a b, (0 <= dist a b)%Z) ->
  forall inv_ln M ml ef hist h, used dist so1 inv_ln M ml ef hist h ->
  forall q knbn ef_arg, no_tie dist hist q -> search dist so1 h q knbn ef_arg = search dist so2 h q knbn ef_arg.
Proof.
  intros T dist so1 so2 LAWS1 LAWS2 Hnn inv_ln M ml ef hist h Hu q k e Hnt.
  destruct (used_facts dist so1 LAWS1 Hnn _ _ _ _ _ _ Hu) as (Hwf & _ & _ & _ & Hst & _).
  pose proof (lwf_searchable dist h Hwf) as Hs. pose proof (no_tie_pt dist h hist q Hst Hnt) as Hpt.
  destruct (search_srch_facts dist so1 LAWS1 Hnn h q k e None Hs (or_introl eq_refl)) as (r1 & E1 & _ & _ & _ & A1).
  destruct (search_srch_facts dist so2 LAWS2 Hnn h q k e None Hs (or_introl eq_refl)) as (r2 & E2 & _ & _ & _ & A2).
  assert (H1 : search dist so1 h q k e = Ok r1) by done. assert (H2 : search dist so2 h q k e = Ok r2) by done.
  assert (G12 : at_least_as_good r2 r1) by (unfold at_least_as_good; eapply (search_mono dist so1 so2 LAWS1 LAWS2 Hnn h q k k e e); eauto).
  assert (G21 : at_least_as_good r1 r2) by (unfold at_least_as_good; eapply (search_mono dist so2 so1 LAWS2 LAWS1 Hnn h q k k e e); eauto).
  rewrite H1, H2. f_equal.
  apply list_eq. intros i. destruct (r1 !! i) as [a1|] eqn:Ea1.
  - destruct (G12 i a1 Ea1) as (a2 & Ea2 & Hle). destruct (G21 i a2 Ea2) as (a1' & Ea1' & Hge). assert (a1' = a1) as -> by congruence.
    rewrite Ea2. f_equal. rewrite Forall_forall in A1, A2.
    destruct (A1 a1) as (pt1 & P1 & O1 & D1); [by eapply elem_of_list_lookup_2|].
    destruct (A2 a2) as (pt2 & P2 & O2 & D2); [by eapply elem_of_list_lookup_2|].
    assert (p_id a1 = p_id a2) by (eapply Hpt; eauto; lia).
    destruct a1, a2; cbn in *. f_equal; congruence || lia.
  - destruct (r2 !! i) as [a2|] eqn:Ea2; [|done]. destruct (G21 i a2 Ea2) as (a1' & Ea1' & _). congruence.
Qed.
Print Assumptions C75_answers_do_not_depend_on_containers.

(** Five points on one layer, M = 1, ef_construction = 1: with ef = 1 the search stays at 21, with ef = 4 it finds 10. *)
Definition mono_points : list (Z * N * nat) := [(21, 1%N, 0%nat); (0, 2%N, 0%nat); (10, 3%N, 0%nat); (33, 4%N, 0%nat); (47, 5%N, 0%nat)]%Z.
Definition mono_h : hnsw (T:=Z) := Eval vm_compute in the (empty_index 1 16 1) (mk simple_ops 1 16 1 mono_points).
Definition mono_hist : list (list Z * dataid) := [([21], 1%N); ([0], 2%N); ([10], 3%N); ([33], 4%N); ([47], 5%N)]%Z.
Lemma mono_used : used d1 simple_ops one_scale 1 16 1 mono_hist mono_h.
Proof. apply used_built. apply (mk_built simple_ops 1 16 1 mono_points). vm_compute. reflexivity. Qed.
Example C74_example :
  used d1 simple_ops one_scale 1 16 1 mono_hist mono_h /\ no_tie d1 mono_hist [13%Z] /\
  exists r1 r2, search d1 simple_ops mono_h [13%Z] 1 1 = Ok r1 /\ search d1 simple_ops mono_h [13%Z] 1 4 = Ok r2 /\
    distance <$> r1 = [8%Z] /\ distance <$> r2 = [3%Z].
Proof. split; [exact mono_used|]. split; [apply (bool_decide_unpack _); vm_compute; exact I|]. do 2 eexists. split_and!; vm_compute; reflexivity. Qed.
Example C75_example :
  used d1 simple_ops one_scale 1 16 1 mono_hist mono_h /\ no_tie d1 mono_hist [13%Z] /\
  StdLaws simple_ops /\ StdLaws reversed_ops /\
  exists r, search d1 simple_ops mono_h [13%Z] 3 4 = Ok r /\ search d1 reversed_ops mono_h [13%Z] 3 4 = Ok r /\ length r = 3%nat.
Proof. split; [exact mono_used|]. split; [apply (bool_decide_unpack _); vm_compute; exact I|]. split; [exact simple_laws|]. split; [exact reversed_laws|].
  eexists. split_and!; vm_compute; reflexivity. Qed.
