(** Property C71: what a search answers is linked to the entry point. *)
From stdpp Require Import relations.
From Verif Require Import Prelude Model StdInst Lib Table SearchProofs InsertProofs QueryProofs IterProofs Spec SpecProofs
  Io SpecIo SpecBuilt Conc SpecConc ConcEnd BuiltProofs ReachProofs Examples ExamplesConc PropsConc PropsUsed.
Local Open Scope list_scope.

(** C71: however the index was used, a chain of neighbour lists leads from the entry point to each answer of a search. In
    particular a point that is in no neighbour list, other than the entry point, is never answered. *)
Theorem C71_answers_are_linked :
  forall {T} (dist : list T -> list T -> Z) so, StdLaws so -> (forall a b, (0 <= dist a b)%Z) ->
  forall inv_ln M ml ef hist h, used dist so inv_ln M ml ef hist h ->
  forall q knbn ef_arg filter res, filter = None \/ (1 <= Nat.max ef_arg knbn)%nat ->
  search_filter dist so h q knbn ef_arg filter = Ok res ->
  (forall a, a ∈ res -> exists ep, entry_point h = Some ep /\ rtc (points_to h) ep (p_id a)) /\
  (forall p, entry_point h <> Some p -> (forall p', ~ points_to h p' p) -> p ∉ p_id <$> res).
Proof.
  intros T dist so LAWS Hnn inv_ln M ml ef hist h Hu q k efa filter res Hf Hr.
  destruct (used_facts dist so LAWS Hnn _ _ _ _ _ _ Hu) as (Hwf & _). pose proof (l_core _ _ Hwf) as Hc.
  assert (H1 : forall a, a ∈ res -> exists ep, entry_point h = Some ep /\ rtc (points_to h) ep (p_id a)).
  { intros a Ha. destruct (entry_point h) as [ep|] eqn:Eep.
    2:{ rewrite search_filter_empty in Hr by done. injection Hr as <-. by apply elem_of_nil in Ha. }
    exists ep. split; [done|].
    refine (search_in dist so LAWS Hnn h (fun p => rtc (points_to h) ep p) (lwf_searchable dist h Hwf) _ q k efa filter ep res Eep _ Hf Hr a Ha);
      [|done]. clear a Ha. intros l Hl p pt Hp Hpt.
    destruct (core_links dist h l Hc Hl p pt I Hpt) as (nbs & Hn & Hin). exists nbs. split; [done|].
    intros n Hnn'. destruct (Hin n Hnn') as [Hv _]. split; [done|]. eapply rtc_r; [exact Hp|].
    destruct (nbhd_ok_core dist h p pt Hc Hpt) as (lists & Hg & _ & Hspec).
    assert (exists ns, Forall2 (fun n (a : neighbour) => p_id a = n_pid n /\ distance a = n_dist n /\
                 exists q0 : point, get_pt h (n_pid n) = Some q0 /\ d_id a = pt_oid q0) nbs ns) as [ns HF].
    { clear -Hin. induction nbs as [|m nbs IH]; [by exists []|]. destruct IH as [ns HF]; [intros n Hn; apply Hin; by right|].
      destruct (Hin m) as [[q0 Hq0] _]; [left|]. exists (Neighbour (pt_oid q0) (n_dist m) (n_pid m) :: ns). constructor; [|done]. eauto. }
    apply elem_of_list_lookup in Hnn' as [i Hi]. destruct (Forall2_lookup_l _ _ _ _ _ HF Hi) as (a & Ha & E & _).
    exists l, ns, a. split; [|split; [by eapply elem_of_list_lookup_2|done]]. apply (layer_neighbours_pt dist); [done|]. eauto. }
  split; [done|]. intros p Hne Hno (a & -> & Ha)%elem_of_list_fmap.
  destruct (H1 a Ha) as (ep & Hep & Hrt). apply rtc_inv_r in Hrt as [->|(y & _ & Hy)]; [done|]. by apply Hno in Hy.
Qed.
Print Assumptions C71_answers_are_linked.
(** in the index of C45 the point (1, 0) is in no list and is not the entry point *)
Example C71_example : used d1 simple_ops one_scale 2 16 10 [([0%Z], 1%N); ([5%Z], 2%N)] ce_h /\
  entry_point ce_h = Some (0, 0)%nat /\ (exists res, search d1 simple_ops ce_h [0%Z] 2 10 = Ok res /\ p_id <$> res = [(0, 0)%nat]).
Proof. split; [exact ce_used|]. split; [reflexivity|]. eexists. split; vm_compute; reflexivity. Qed.
