(** Property C96: filters that keep a state, change their mind during the search, or panic. *)
From stdpp Require Import relations.
From Verif Require Import Prelude Model StdInst Lib Table SearchProofs InsertProofs IterProofs QueryProofs Ask SpecAsk AskProofs Spec SpecProofs
  Io SpecIo SpecBuilt Conc SpecConc ConcSafe ConcSafe2 ConcSafe3 ConcGlobal ConcEnd ConcLive BuiltProofs PropsConc Examples ExamplesConc.
Local Open Scope list_scope.

(** C96: in an index however it was used, with max(ef, knbn) >= 1 and whatever the filter answers and when,
    - the search returns, unless the closure panics, and then it panics on being asked about a point of the index after
      a dialogue that takes place;
    - the filter is only asked about points of the index, at most two times for each point but one;
    - there are at most knbn answers, sorted, different, with their ids and distances, and at least one if the index is not empty;
    - every answer was accepted by some call, or it is the only answer;
    - a filter that sticks to its answers gives the answers of [Model.search_filter]. *)
Theorem C96_filters_that_change :
  forall {T} (dist : list T -> list T -> Z) so, StdLaws so -> (forall a b, (0 <= dist a b)%Z) ->
  forall inv_ln M ml ef hist h, used dist so inv_ln M ml ef hist h ->
  forall (f : asked_filter) q knbn ef_arg, (1 <= Nat.max ef_arg knbn)%nat ->
  ((search_asking dist so f h q knbn ef_arg = Panic /\
    exists tr v id, takes_place f tr /\ (forall id b, (id, b) ∈ tr -> exists v, (v, id) ∈ hist) /\
      (length tr <= 2 * (length hist - 1))%nat /\ (v, id) ∈ hist /\ f tr id = None) \/
   exists res tr, search_asking dist so f h q knbn ef_arg = Ok (res, tr) /\
    takes_place f tr /\ (forall id b, (id, b) ∈ tr -> exists v, (v, id) ∈ hist) /\ (length tr <= 2 * (length hist - 1))%nat /\
    (length res <= knbn)%nat /\ sorted_by distance res /\ NoDup (p_id <$> res) /\
    (forall a, a ∈ res -> exists pt, layer_point h (p_id a) pt /\
       d_id a = pt_oid pt /\ distance a = dist q (pt_data pt) /\ (pt_data pt, d_id a) ∈ hist) /\
    (hist <> [] -> (1 <= knbn)%nat -> res <> []) /\
    ((forall a, a ∈ res -> was_accepted tr (d_id a)) \/ length res = 1%nat)) /\
  (forall g, steady f g -> fst <$> search_asking dist so f h q knbn ef_arg = search_filter dist so h q knbn ef_arg (Some g)).
Proof.
  intros T dist so LAWS Hnn inv_ln M ml ef hist h Hu f q k efa Hk.
  destruct (used_facts dist so LAWS Hnn _ _ _ _ _ _ Hu) as (Hwf & _ & _ & _ & Hst & Hnb).
  assert (Hin : forall p pt, get_pt h p = Some pt -> (pt_data pt, pt_oid pt) ∈ hist).
  { intros p pt Hp. rewrite <- Hst. by eapply stored_at. }
  assert (Hid : forall id, of_stored h id -> exists v, (v, id) ∈ hist).
  { intros id (p & pt & Hp & <-). eauto. }
  assert (Hsz : table_size h = length hist).
  { by rewrite <- (l_count _ _ Hwf). }
  split.
  - destruct (search_asking_spec dist so LAWS Hnn f h q k efa (lwf_searchable dist h Hwf) Hk)
      as [[-> (tr & id & H1 & H2 & H3 & H4 & H5)]|(res & tr & -> & R1 & R2 & R3 & R4 & R5 & R6 & R7 & R8 & R9)].
    + left. split; [done|]. destruct (Hid id H4) as (v & Hv). exists tr, v, id. split_and!; auto.
      * intros id' b Hb. apply Hid. by eapply H2.
      * lia.
    + right. exists res, tr. split_and!; auto.
      * intros id' b Hb. apply Hid. by eapply R6.
      * lia.
      * intros a Ha. rewrite Forall_forall in R4. destruct (R4 a Ha) as (pt & Hpt & Hd & Hdist). exists pt.
        split_and!; [by apply (layer_point_pt dist h _ _ (l_core _ _ Hwf))|done|done|]. rewrite Hd. eauto.
      * intros Hne Hk1. apply R9; [|done]. intros E. pose proof (l_entry _ _ Hwf) as He. rewrite E, Hsz in He.
        by apply Hne, nil_length_inv.
  - intros g Hg. by apply search_asking_steady.
Qed.
Print Assumptions C96_filters_that_change.


(** ids deleted by another thread after four calls: the answers were let through before; a closure that panics at the third call;
    a closure that rejects all but the first id asked, which is the answer *)
Example C96_example : used d1 simple_ops one_scale 2 16 10 ex1_hist ex1 /\
  search_asking d1 simple_ops (fun tr id => Some (length tr <? 4)%nat) ex1 [6%Z] 3 7 =
    Ok ([Neighbour 13%N 1%Z (0, 2)%nat; Neighbour 14%N 1%Z (2, 0)%nat; Neighbour 11%N 4%Z (1, 0)%nat],
        [(13%N, true); (14%N, true); (11%N, true); (10%N, true); (12%N, false); (16%N, false); (15%N, false)]) /\
  search_asking d1 simple_ops (fun tr id => if (length tr <? 2)%nat then Some true else None) ex1 [6%Z] 3 7 = Panic /\
  (fst <$> search_asking d1 simple_ops (fun tr id => Some (length tr <? 1)%nat) ex1 [6%Z] 3 7) = Ok [Neighbour 13%N 1%Z (0, 2)%nat].
Proof. split; [apply used_built, ex1_built|]. vm_compute. auto. Qed.
(** a filter that sticks to its answers *)
Example C96_steady : steady (fun _ id => Some (N.even id)) N.even.
Proof. done. Qed.
