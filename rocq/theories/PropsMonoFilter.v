(** Properties C74 and C75 for filtered searches. *)
From stdpp Require Import relations.
From Verif Require Import Prelude Model StdInst Lib Table SearchProofs InsertProofs IterProofs QueryProofs FlatProofs MonoProofs MonoFilterProofs Spec SpecProofs
  Io SpecIo SpecBuilt BuiltProofs Examples PropsMono.
Local Open Scope list_scope.

(** every answer satisfies the filter *)
Definition all_pass (flt : dataid -> bool) (r : list neighbour) : Prop := forall a, a ∈ r -> flt (d_id a) = true.

Lemma filter_mono {T} (dist : list T -> list T -> Z) so1 so2 : StdLaws so1 -> StdLaws so2 -> (forall a b, (0 <= dist a b)%Z) ->
  forall (h : hnsw (T:=T)) flt q k1 k2 e1 e2 r1 r2, searchable h ->
  (forall p p' pt pt', get_pt h p = Some pt -> get_pt h p' = Some pt' -> dist q (pt_data pt) = dist q (pt_data pt') -> p = p') ->
  (k1 <= k2)%nat -> (Nat.max e1 k1 <= Nat.max e2 k2)%nat ->
  search_filter dist so1 h q k1 e1 (Some flt) = Ok r1 -> search_filter dist so2 h q k2 e2 (Some flt) = Ok r2 -> r1 <> [] -> all_pass flt r1 ->
  all_pass flt r2 /\ at_least_as_good r2 r1.
Proof.
  intros LAWS1 LAWS2 Hnn h flt q k1 k2 e1 e2 r1 r2 Hc Hdiff Hk Hef E1 E2 Hne1 Hpass. destruct (entry_point h) as [ep|] eqn:Eep.
  2:{ rewrite search_filter_empty in E1 by done. injection E1 as <-. done. }
  assert (Hk1 : (1 <= k1)%nat).
  { destruct k1; [|lia]. exfalso. unfold search_filter in E1. rewrite Eep in E1.
    apply bind_inv in E1 as (? & _ & E1). apply bind_inv in E1 as (? & _ & E1). apply bind_inv in E1 as (? & _ & E1). change (Ok [] = Ok r1) in E1. congruence. }
  destruct (search_filter_srch dist so1 LAWS1 Hnn h q k1 e1 (Some flt) ep Hc Eep ltac:(right; lia)) as
    (pv & pvt & ept & l & ly & hp1 & res1 & Hept & Hpvt & _ & Hly & Hne & Hl & Hlow & Hfp & Hs1 & Hf1 & Hel1 & _ & Hnn1 & _ & Hfl1 & Hao1 & P1 & A1).
  destruct (search_filter_srch dist so2 LAWS2 Hnn h q k2 e2 (Some flt) ep Hc Eep ltac:(right; lia)) as
    (pv' & pvt' & ept' & l' & ly' & hp2 & res2 & _ & _ & _ & Hly' & Hne' & _ & Hlow' & Hfp' & Hs2 & Hf2 & _ & _ & _ & _ & _ & Hao2 & P2 & A2).
  assert (pv' = pv) as -> by congruence.
  assert (l' = l) as ->.
  { destruct (Nat.lt_trichotomy l l') as [Hlt|[->|Hlt]]; [|done|].
    - pose proof (Hlow' _ Hlt). congruence.
    - pose proof (Hlow _ Hlt). congruence. }
  assert (r1 = res1) as -> by congruence. assert (r2 = res2) as -> by congruence.
  assert (Hok1 : forall x, x ∈ h_iter so1 hp1 -> okp h flt (n_pid x)).
  { destruct Hfl1 as [Hall|(x & Hx & Hxp)].
    - intros x Hx. by apply (proj1 (Forall_forall _ _) Hall).
    - rewrite Hx. intros y ->%elem_of_list_singleton.
      assert (Hs : h_sorted so1 hp1 = [x]).
      { apply Permutation_singleton_r. rewrite <- Hx. apply (law_sorted_perm _ LAWS1). }
      rewrite Hs in P1. destruct k1 as [|k1]; [lia|]. cbn in P1. destruct res1 as [|a res1]; [done|]. injection P1 as Pa _.
      rewrite Forall_cons in Hao1. destruct Hao1 as [(pt & Hg & Ho & _) _]. exists pt. rewrite <- Pa. split; [done|].
      rewrite <- Ho. apply Hpass. left. }
  assert (Hmono := fun t => search_layer_mono_filter dist so1 so2 LAWS1 LAWS2 Hnn h q flt pv pvt (Nat.max e1 k1) (Nat.max e2 k2) l ly hp1 hp2 t
    Hly Hne Hpvt (s_links _ Hc l Hl) ltac:(lia) Hef Hdiff Hs1 Hs2 Hok1).
  split.
  - intros a Ha. destruct (proj1 (Forall_forall _ _) Hao2 a Ha) as (pt & Hg & Ho & _).
    assert (Hin : p_id a ∈ p_id <$> res2) by (by apply elem_of_list_fmap_1). rewrite P2 in Hin. apply elem_of_list_fmap in Hin as (x & Ex & Hx).
    assert (Hx' : x ∈ h_iter so2 hp2). { rewrite <- (law_sorted_perm _ LAWS2 hp2). eapply elem_of_list_lookup in Hx as [j Hj]. apply lookup_take_Some in Hj as [Hj _]. by eapply elem_of_list_lookup_2. }
    destruct (proj1 (Hmono 0%Z) x Hx') as (pt' & Hg' & Hok'). rewrite <- Ex in Hg'. assert (pt' = pt) as -> by congruence. by rewrite Ho.
  - intros i a1 Hi.
    assert (Hd1 : (n_dist <$> take k1 (h_sorted so1 hp1)) !! i = Some (distance a1)). { rewrite <- A1, list_lookup_fmap, Hi. done. }
    rewrite list_lookup_fmap in Hd1. destruct (take k1 (h_sorted so1 hp1) !! i) as [x1|] eqn:Ex1; [|done]. cbn in Hd1. injection Hd1 as Hd1.
    apply lookup_take_Some in Ex1 as [Ex1 Hik].
    destruct (sorted_within (h_sorted so1 hp1) (h_sorted so2 hp2) i x1) as (x2 & Ex2 & Hle); auto using law_sorted.
    { intros t. rewrite (within_perm _ _ _ (law_sorted_perm _ LAWS1 hp1)), (within_perm _ _ _ (law_sorted_perm _ LAWS2 hp2)). by apply Hmono. }
    assert (Hd2 : (distance <$> res2) !! i = Some (n_dist x2)).
    { rewrite A2, list_lookup_fmap, lookup_take, Ex2 by lia. done. }
    rewrite list_lookup_fmap in Hd2. destruct (res2 !! i) as [a2|] eqn:Ea2; [|done]. cbn in Hd2. injection Hd2 as Hd2.
    exists a2. split; [done|]. lia.
Qed.

(** C74 with a filter: when the answers satisfy the filter (C11 says when they do not), then with a larger ef or more answers asked there are
    at least as many, all of them satisfy the filter, and the i-th is at least as near. *)
Theorem C74_filtered :
  forall {T} (dist : list T -> list T -> Z) so, StdLaws so -> (forall a b, (0 <= dist a b)%Z) ->
  forall inv_ln M ml ef hist h, used dist so inv_ln M ml ef hist h ->
  forall (flt : dataid -> bool) q k1 k2 e1 e2 r1 r2, no_tie dist hist q -> (k1 <= k2)%nat -> (Nat.max e1 k1 <= Nat.max e2 k2)%nat ->
  search_filter dist so h q k1 e1 (Some flt) = Ok r1 -> search_filter dist so h q k2 e2 (Some flt) = Ok r2 ->
  r1 <> [] -> all_pass flt r1 -> all_pass flt r2 /\ at_least_as_good r2 r1 /\ (length r1 <= length r2)%nat.
Proof.
  intros T dist so LAWS Hnn inv_ln M ml ef hist h Hu flt q k1 k2 e1 e2 r1 r2 Hnt Hk He H1 H2 Hne Hp.
  destruct (used_facts dist so LAWS Hnn _ _ _ _ _ _ Hu) as (Hwf & _ & _ & _ & Hst & _).
  destruct (filter_mono dist so so LAWS LAWS Hnn h flt q k1 k2 e1 e2 r1 r2) as [Hp2 Hg]; auto; [by apply (lwf_searchable dist)|by apply (no_tie_pt dist h hist)|].
  split; [done|]. split; [done|].
  destruct (lookup_lt_is_Some_2 r1 (length r1 - 1)) as [a1 Ha1]; [destruct r1; [done|cbn; lia]|]. destruct (Hg _ _ Ha1) as (a2 & Ha2 & _).
  apply lookup_lt_Some in Ha2. lia.
Qed.
Print Assumptions C74_filtered.

(** C75 with a filter: the answers do not depend on how the containers order equal elements. *)
Theorem C75_filtered :
  forall {T} (dist : list T -> list T -> Z) so1 so2, StdLaws so1 -> StdLaws so2 -> (forall a b, (0 <= dist a b)%Z) ->
  forall inv_ln M ml ef hist h, used dist so1 inv_ln M ml ef hist h ->
  forall (flt : dataid -> bool) q knbn ef_arg, no_tie dist hist q -> (1 <= knbn)%nat ->
  search_filter dist so1 h q knbn ef_arg (Some flt) = search_filter dist so2 h q knbn ef_arg (Some flt).
Proof.
  intros T dist so1 so2 LAWS1 LAWS2 Hnn inv_ln M ml ef hist h Hu flt q k e Hnt Hk.
  destruct (used_facts dist so1 LAWS1 Hnn _ _ _ _ _ _ Hu) as (Hwf & _ & _ & _ & Hst & _).
  pose proof (lwf_searchable dist h Hwf) as Hs. pose proof (no_tie_pt dist h hist q Hst Hnt) as Hpt.
  destruct (entry_point h) as [ep|] eqn:Eep; [|by rewrite !search_filter_empty].
  destruct (search_filter_srch dist so1 LAWS1 Hnn h q k e (Some flt) ep Hs Eep ltac:(right; lia)) as
    (pv & pvt & ept & l & ly & hp1 & r1 & Hept & Hpvt & _ & Hly & Hne & Hl & Hlow & Hfp & Hs1 & H1 & Hel1 & _ & Hnn1 & _ & Hfl1 & A1 & P1 & D1).
  destruct (search_filter_srch dist so2 LAWS2 Hnn h q k e (Some flt) ep Hs Eep ltac:(right; lia)) as
    (pv' & pvt' & ept' & l' & ly' & hp2 & r2 & _ & _ & _ & Hly' & Hne' & _ & Hlow' & Hfp' & Hs2 & H2 & _ & _ & Hnn2 & _ & Hfl2 & A2 & P2 & D2).
  assert (pv' = pv) as -> by congruence.
  rewrite Forall_forall in A1, A2.
  (* the answers either all satisfy the filter or are the start point alone *)
  assert (Hcase : forall so (LAWS : StdLaws so) hp (r : list neighbour), h_iter so hp <> [] -> flt_ok h (Some flt) pv (h_iter so hp) ->
    (forall a, a ∈ r -> answer_ok dist h q a) ->
    p_id <$> r = n_pid <$> take k (h_sorted so hp) -> r <> [] /\ (all_pass flt r \/ exists a, r = [a] /\ p_id a = pv /\ flt (d_id a) = false)).
  { clear -Hk. intros so LAWS hp r Hn Hf A P. split.
    { intros ->. destruct (h_sorted so hp) as [|x s] eqn:E; [|destruct k; [lia|done]]. apply Hn. apply Permutation_nil. rewrite <- E.
      apply (law_sorted_perm _ LAWS). }
    destruct Hf as [Hall|(x & Hx & Hxp)].
    - left. intros a Ha. destruct (A a Ha) as (pt & Hg & Ho & _).
      assert (Hin : p_id a ∈ p_id <$> r) by (by apply elem_of_list_fmap_1). rewrite P in Hin. apply elem_of_list_fmap in Hin as (x & Ex & Hx).
      assert (Hx' : x ∈ h_iter so hp). { rewrite <- (law_sorted_perm _ LAWS hp). eapply elem_of_list_lookup in Hx as [j Hj]. apply lookup_take_Some in Hj as [Hj _]. by eapply elem_of_list_lookup_2. }
      destruct (proj1 (Forall_forall _ _) Hall x Hx') as (pt' & Hg' & Hok'). rewrite <- Ex in Hg'. assert (pt' = pt) as -> by congruence. by rewrite Ho.
    - assert (Hs : h_sorted so hp = [x]). { apply Permutation_singleton_r. rewrite <- Hx. apply (law_sorted_perm _ LAWS). }
      rewrite Hs in P. destruct k as [|k']; [lia|]. rewrite take_ge in P by (cbn; lia). cbn in P. destruct r as [|a [|b r]]; try done. injection P as Pa. rewrite Hxp in Pa.
      destruct (flt (d_id a)) eqn:E; [left|right; exists a; done]. by intros b ->%elem_of_list_singleton. }
  destruct (Hcase so1 LAWS1 hp1 r1 Hnn1 Hfl1 A1 P1) as [N1 C1]. destruct (Hcase so2 LAWS2 hp2 r2 Hnn2 Hfl2 A2 P2) as [N2 C2]. clear Hcase.
  rewrite H1, H2. f_equal.
  assert (Hsame : forall a1 a2, a1 ∈ r1 -> a2 ∈ r2 -> p_id a1 = p_id a2 -> a1 = a2).
  { intros a1 a2 Ha1 Ha2 E. destruct (A1 a1 Ha1) as (pt1 & Q1 & O1 & I1). destruct (A2 a2 Ha2) as (pt2 & Q2 & O2 & I2).
    rewrite E in Q1. assert (pt1 = pt2) as -> by congruence. destruct a1, a2; cbn in *. congruence. }
  assert (G12 : all_pass flt r1 -> all_pass flt r2 /\ at_least_as_good r2 r1) by (intros Hp; eapply (filter_mono dist so1 so2 LAWS1 LAWS2 Hnn h flt q k k e e); eauto).
  assert (G21 : all_pass flt r2 -> all_pass flt r1 /\ at_least_as_good r1 r2) by (intros Hp; eapply (filter_mono dist so2 so1 LAWS2 LAWS1 Hnn h flt q k k e e); eauto).
  destruct C1 as [C1|(a1 & -> & E1 & F1)].
  - destruct (G12 C1) as [C2' B12]. destruct (G21 C2') as [_ B21].
    apply list_eq. intros i. destruct (r1 !! i) as [a1|] eqn:Ea1.
    + destruct (B12 i a1 Ea1) as (a2 & Ea2 & Hle). destruct (B21 i a2 Ea2) as (a1' & Ea1' & Hge). assert (a1' = a1) as -> by congruence.
      rewrite Ea2. f_equal. apply Hsame; [by eapply elem_of_list_lookup_2|by eapply elem_of_list_lookup_2|].
      destruct (A1 a1) as (pt1 & Q1 & _ & I1); [by eapply elem_of_list_lookup_2|].
      destruct (A2 a2) as (pt2 & Q2 & _ & I2); [by eapply elem_of_list_lookup_2|]. eapply Hpt; eauto. lia.
    + destruct (r2 !! i) as [a2|] eqn:Ea2; [|done]. destruct (B21 i a2 Ea2) as (a1' & Ea1' & _). congruence.
  - destruct C2 as [C2|(a2 & -> & E2 & F2)].
    + destruct (G21 C2) as [C1 _]. rewrite (C1 a1) in F1 by left. done.
    + f_equal. apply Hsame; [left|left|congruence].
Qed.
Print Assumptions C75_filtered.

(** The index of C74, the filter refuses 1 (the vector 21) and 3 (the vector 10): with ef = 4 the search of 13 finds 0, 33, 47. *)
Definition mono_flt (d : dataid) : bool := negb (d =? 1)%N && negb (d =? 3)%N.
Example C74_filtered_example :
  used d1 simple_ops one_scale 1 16 1 mono_hist mono_h /\ no_tie d1 mono_hist [13%Z] /\
  exists r1 r2, search_filter d1 simple_ops mono_h [13%Z] 1 2 (Some mono_flt) = Ok r1 /\ search_filter d1 simple_ops mono_h [13%Z] 3 4 (Some mono_flt) = Ok r2 /\
    distance <$> r1 = [13%Z] /\ distance <$> r2 = [13; 20; 34]%Z.
Proof. split; [exact mono_used|]. split; [apply (bool_decide_unpack _); vm_compute; exact I|]. do 2 eexists. split_and!; vm_compute; reflexivity. Qed.
Example C75_filtered_example :
  used d1 simple_ops one_scale 1 16 1 mono_hist mono_h /\ no_tie d1 mono_hist [13%Z] /\ StdLaws simple_ops /\ StdLaws reversed_ops /\
  exists r, search_filter d1 simple_ops mono_h [13%Z] 3 4 (Some mono_flt) = Ok r /\ search_filter d1 reversed_ops mono_h [13%Z] 3 4 (Some mono_flt) = Ok r /\ length r = 3%nat.
Proof. split; [exact mono_used|]. split; [apply (bool_decide_unpack _); vm_compute; exact I|]. split; [exact simple_laws|]. split; [exact reversed_laws|].
  eexists. split_and!; vm_compute; reflexivity. Qed.
