(** Property C104: a search with a filter against filtering the answers of a search. *)
From stdpp Require Import relations.
From Verif Require Import Prelude Model StdInst Lib Table SearchProofs InsertProofs IterProofs QueryProofs FlatProofs MonoProofs MonoFilterProofs PostFilterProofs
  Spec SpecProofs Io SpecIo SpecBuilt BuiltProofs Examples PropsMono PropsMonoFilter.
Local Open Scope list_scope.

(** what a program keeps that filters the answers itself *)
Definition post_filter (flt : dataid -> bool) (r : list neighbour) : list neighbour := List.filter (fun a => flt (d_id a)) r.

Lemma filter_pairs {A B} (R : A -> B -> Prop) (f : A -> bool) (P : B -> Prop) `{forall x, Decision (P x)} l l' :
  Forall2 R l l' -> (forall a x, a ∈ l -> R a x -> (f a = true <-> P x)) -> Forall2 R (List.filter f l) (filter P l').
Proof.
  induction 1 as [|a x l l' Hax _ IH]; intros HP; [constructor|]. cbn [List.filter].
  assert (Hiff : f a = true <-> P x) by (apply HP; [left|done]).
  assert (IH' : Forall2 R (List.filter f l) (filter P l')) by (apply IH; intros b y Hb; apply HP; by right).
  destruct (f a) eqn:E.
  - rewrite filter_cons_True by (by apply Hiff). by constructor.
  - rewrite filter_cons_False; [done|]. intros Hp. apply Hiff in Hp. done.
Qed.
Lemma filter_take {A} (P : A -> Prop) `{forall x, Decision (P x)} k (l : list A) i x : filter P (take k l) !! i = Some x -> filter P l !! i = Some x /\ (i < k)%nat.
Proof.
  intros Hi. split.
  - rewrite <- (take_drop k l), filter_app. by apply lookup_app_l_Some.
  - apply lookup_lt_Some in Hi. pose proof (filter_length P (take k l)) as Hl. rewrite take_length in Hl. lia.
Qed.
Lemma sorted_filter (P : nbr -> Prop) `{forall x, Decision (P x)} l : sorted_by n_dist l -> sorted_by n_dist (filter P l).
Proof.
  unfold sorted_by. intros Hs. induction Hs as [|x l Hs IH Hx]; [constructor|]. destruct (decide (P x)).
  - rewrite filter_cons_True by done. constructor; [done|]. apply Forall_forall. intros y [_ Hy]%elem_of_list_filter. by apply (proj1 (Forall_forall _ _) Hx).
  - by rewrite filter_cons_False.
Qed.

Theorem C104_filter_no_worse_than_filtering :
  forall {T} (dist : list T -> list T -> Z) so, StdLaws so -> (forall a b, (0 <= dist a b)%Z) ->
  forall inv_ln M ml ef hist h, used dist so inv_ln M ml ef hist h ->
  forall (flt : dataid -> bool) q k1 k2 e1 e2 r1 r2, no_tie dist hist q -> (k1 <= k2)%nat -> (Nat.max e1 k1 <= Nat.max e2 k2)%nat ->
  search dist so h q k1 e1 = Ok r1 -> search_filter dist so h q k2 e2 (Some flt) = Ok r2 -> post_filter flt r1 <> [] ->
  all_pass flt r2 /\ at_least_as_good r2 (post_filter flt r1) /\ (length (post_filter flt r1) <= length r2)%nat.
Proof.
  intros T dist so LAWS Hnn inv_ln M ml ef hist h Hu flt q k1 k2 e1 e2 r1 r2 Hnt Hk Hef E1 E2 Hne1.
  destruct (used_facts dist so LAWS Hnn _ _ _ _ _ _ Hu) as (Hwf & _ & _ & _ & Hst & _).
  pose proof (lwf_searchable dist h Hwf) as Hc. pose proof (no_tie_pt dist h hist q Hst Hnt) as Hdiff.
  unfold search in E1. destruct (entry_point h) as [ep|] eqn:Eep.
  2:{ rewrite search_filter_empty in E1 by done. injection E1 as <-. done. }
  assert (Hk1 : (1 <= k1)%nat).
  { destruct k1; [|lia]. exfalso. unfold search_filter in E1. rewrite Eep in E1.
    apply bind_inv in E1 as (? & _ & E1). apply bind_inv in E1 as (? & _ & E1). apply bind_inv in E1 as (? & _ & E1). change (Ok [] = Ok r1) in E1.
    injection E1 as <-. done. }
  destruct (search_filter_srch dist so LAWS Hnn h q k1 e1 None ep Hc Eep ltac:(by left)) as
    (pv & pvt & ept & l & ly & hp1 & res1 & Hept & Hpvt & _ & Hly & Hne & Hl & Hlow & Hfp & Hs1 & Hf1 & Hel1 & _ & Hnn1 & _ & _ & Hao1 & P1 & A1).
  destruct (search_filter_srch dist so LAWS Hnn h q k2 e2 (Some flt) ep Hc Eep ltac:(right; lia)) as
    (pv' & pvt' & ept' & l' & ly' & hp2 & res2 & _ & _ & _ & Hly' & Hne' & _ & Hlow' & Hfp' & Hs2 & Hf2 & _ & _ & _ & _ & Hfl2 & Hao2 & P2 & A2).
  assert (pv' = pv) as -> by congruence.
  assert (l' = l) as ->.
  { destruct (Nat.lt_trichotomy l l') as [Hlt|[->|Hlt]]; [|done|].
    - pose proof (Hlow' _ Hlt). congruence.
    - pose proof (Hlow _ Hlt). congruence. }
  assert (r1 = res1) as -> by congruence. assert (r2 = res2) as -> by congruence. clear E1 E2.
  assert (Hmono := fun t => search_layer_post_filter dist so so LAWS LAWS Hnn h q flt pv pvt (Nat.max e1 k1) (Nat.max e2 k2) l ly hp1 hp2 t
    Hly Hne Hpvt (s_links _ Hc l Hl) ltac:(lia) Hef Hdiff Hs1 Hs2).
  (* the kept answers are the kept entries *)
  assert (Hpairs : Forall2 (fun a x => p_id a = n_pid x /\ distance a = n_dist x) (post_filter flt res1) (passing h flt (take k1 (h_sorted so hp1)))).
  { apply filter_pairs.
    - apply Forall2_same_length_lookup_2; [by rewrite <- (fmap_length p_id res1), P1, fmap_length|]. intros i a x Ha Hx. split.
      + assert (H : (p_id <$> res1) !! i = Some (p_id a)) by (by rewrite list_lookup_fmap, Ha). rewrite P1, list_lookup_fmap, Hx in H. by injection H as ->.
      + assert (H : (distance <$> res1) !! i = Some (distance a)) by (by rewrite list_lookup_fmap, Ha). rewrite A1, list_lookup_fmap, Hx in H. by injection H as ->.
    - intros a x Ha [Hp _]. destruct (proj1 (Forall_forall _ _) Hao1 a Ha) as (pt & Hg & Ho & _). rewrite <- Hp. split.
      + intros H. exists pt. split; [done|]. by rewrite <- Ho.
      + intros (pt' & Hg' & H). assert (pt' = pt) as -> by congruence. by rewrite Ho. }
  assert (Hlook : forall i a1, post_filter flt res1 !! i = Some a1 ->
    exists x2, passing h flt (h_sorted so hp2) !! i = Some x2 /\ (n_dist x2 <= distance a1)%Z /\ (i < k1)%nat).
  { intros i a1 Hi. destruct (Forall2_lookup_l _ _ _ _ _ Hpairs Hi) as (x1 & Hx1 & _ & ->).
    unfold passing in Hx1. apply filter_take in Hx1 as [Hx1 Hik].
    destruct (sorted_within (passing h flt (h_sorted so hp1)) (passing h flt (h_sorted so hp2)) i x1) as (x2 & Ex2 & Hle); auto.
    - apply sorted_filter. by apply law_sorted.
    - apply sorted_filter. by apply law_sorted.
    - intros t. unfold passing.
      rewrite (within_perm _ _ _ (filter_Permutation _ _ _ (law_sorted_perm _ LAWS hp1))), (within_perm _ _ _ (filter_Permutation _ _ _ (law_sorted_perm _ LAWS hp2))).
      apply Hmono.
    - eauto. }
  assert (Hall2 : forall x, x ∈ h_sorted so hp2 -> okp h flt (n_pid x)).
  { destruct Hfl2 as [Hall|(x & Hx & Hxp)].
    - intros x Hx. rewrite (law_sorted_perm _ LAWS hp2) in Hx. by apply (proj1 (Forall_forall _ _) Hall).
    - assert (Hs : h_sorted so hp2 = [x]) by (apply Permutation_singleton_r; rewrite <- Hx; apply (law_sorted_perm _ LAWS)).
      rewrite Hs. intros y ->%elem_of_list_singleton. destruct (post_filter flt res1) as [|a1 rest] eqn:Ep; [done|].
      destruct (Hlook 0%nat a1 eq_refl) as (x2 & Hx2 & _). apply elem_of_list_lookup_2 in Hx2. apply elem_of_passing in Hx2 as [Hx2 Ho].
      rewrite Hs in Hx2. by apply elem_of_list_singleton in Hx2 as ->. }
  assert (Hp2 : passing h flt (h_sorted so hp2) = h_sorted so hp2).
  { unfold passing. clear -Hall2. induction (h_sorted so hp2) as [|x s IH]; [done|]. rewrite filter_cons_True by (apply Hall2; left). f_equal.
    apply IH. intros y Hy. apply Hall2. by right. }
  assert (Hg : at_least_as_good res2 (post_filter flt res1)).
  { intros i a1 Hi. destruct (Hlook i a1 Hi) as (x2 & Hx2 & Hle & Hik). rewrite Hp2 in Hx2.
    assert (Hd2 : (distance <$> res2) !! i = Some (n_dist x2)). { rewrite A2, list_lookup_fmap, lookup_take, Hx2 by lia. done. }
    rewrite list_lookup_fmap in Hd2. destruct (res2 !! i) as [a2|] eqn:Ea2; [|done]. cbn in Hd2. injection Hd2 as Hd2. exists a2. split; [done|]. lia. }
  split; [|split; [done|]].
  - intros a Ha. destruct (proj1 (Forall_forall _ _) Hao2 a Ha) as (pt & Hgp & Ho & _).
    assert (Hin : p_id a ∈ p_id <$> res2) by (by apply elem_of_list_fmap_1). rewrite P2 in Hin. apply elem_of_list_fmap in Hin as (x & Ex & Hx).
    assert (Hx' : x ∈ h_sorted so hp2). { eapply elem_of_list_lookup in Hx as [j Hj]. apply lookup_take_Some in Hj as [Hj _]. by eapply elem_of_list_lookup_2. }
    destruct (Hall2 x Hx') as (pt' & Hg' & Hok'). rewrite <- Ex in Hg'. assert (pt' = pt) as -> by congruence. by rewrite Ho.
  - destruct (lookup_lt_is_Some_2 (post_filter flt res1) (length (post_filter flt res1) - 1)) as [a1 Ha1]; [destruct (post_filter flt res1); [done|cbn; lia]|].
    destruct (Hg _ _ Ha1) as (a2 & Ha2 & _). apply lookup_lt_Some in Ha2. lia.
Qed.
Print Assumptions C104_filter_no_worse_than_filtering.

(** The index of C74, the filter refuses 1 (the vector 21) and 3 (the vector 10). Of the three answers to 13 (10, 21, 0) filtering keeps one; the filtered
    search finds three. *)
Example C104_example :
  used d1 simple_ops one_scale 1 16 1 mono_hist mono_h /\ no_tie d1 mono_hist [13%Z] /\
  exists r1 r2, search d1 simple_ops mono_h [13%Z] 3 4 = Ok r1 /\ search_filter d1 simple_ops mono_h [13%Z] 3 4 (Some mono_flt) = Ok r2 /\
    distance <$> r1 = [3; 8; 13]%Z /\ distance <$> post_filter mono_flt r1 = [13%Z] /\ distance <$> r2 = [13; 20; 34]%Z.
Proof. split; [exact mono_used|]. split; [apply (bool_decide_unpack _); vm_compute; exact I|]. do 2 eexists. split_and!; vm_compute; reflexivity. Qed.
