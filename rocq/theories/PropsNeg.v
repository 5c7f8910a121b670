(** Property C77: a distance function that may give negative values. *)
From Coq Require Import SpecFloat.
From stdpp Require Import relations.
From Verif Require Import Prelude Model StdInst Lib Table NegProofs Examples.
Local Open Scope list_scope.

(** [made dist so inv_ln M ml ef h]: [h] was made by Hnsw::new and then insertions and setter calls that returned, the distance being
    any function. *)
Inductive made {T} (dist : list T -> list T -> Z) (so : StdOps) (inv_ln : nat -> f64) (M ml ef : nat) : hnsw (T:=T) -> Prop :=
| made_new h : hnsw_new inv_ln M ml ef = Ok h -> made dist so inv_ln M ml ef h
| made_insert h v id d h' : made dist so inv_ln M ml ef h -> insert_slice dist so h v id d = Ok h' -> made dist so inv_ln M ml ef h'
| made_extend h b : made dist so inv_ln M ml ef h -> made dist so inv_ln M ml ef (set_extend_candidates b h)
| made_keep h b : made dist so inv_ln M ml ef h -> made dist so inv_ln M ml ef (set_keeping_pruned b h)
| made_search h b : made dist so inv_ln M ml ef h -> made dist so inv_ln M ml ef (set_searching_mode b h)
| made_scale h m : made dist so inv_ln M ml ef h -> made dist so inv_ln M ml ef (modify_level_scale m h).

(** C77: whatever the distance function, negative values included, the distances given by a search that returns, and the distances
    listed in the neighbourhoods of the points of an index whose insertions returned, are not negative; and a search from a vector
    at a negative distance from every stored vector does not return. *)
Theorem C77_negative_distances_never_pass :
  forall {T} (dist : list T -> list T -> Z) so, StdLaws so ->
  forall inv_ln M ml ef h, made dist so inv_ln M ml ef h ->
  (forall q knbn ef_arg filter r, search_filter dist so h q knbn ef_arg filter = Ok r -> forall a, a ∈ r -> (0 <= distance a)%Z) /\
  (forall p pt lists ns n, get_pt h p = Some pt -> get_neighborhood_id h pt = Ok lists -> ns ∈ lists -> n ∈ ns -> (0 <= distance n)%Z) /\
  (forall q knbn ef_arg filter, get_nb_point h <> 0%nat ->
     (forall p pt, get_pt h p = Some pt -> (dist q (pt_data pt) < 0)%Z) ->
     forall r, search_filter dist so h q knbn ef_arg filter <> Ok r).
Proof.
  intros T dist so LAWS inv_ln M ml ef h Hm.
  assert (Hall : recorded (fun d => 0 <= d)%Z h /\ (nb_point h <> 0%nat -> entry_point h <> None)).
  { induction Hm as [h H|h v id d h' Hm IH H| | | |]; try done.
    - unfold hnsw_new in H. destruct (256 <? M)%nat; [done|]. injection H as <-. split; [|done].
      intros p pt nbs n Hg. apply get_pt_lookup in Hg as (ly & Hly & Hg). cbn in Hly. apply lookup_replicate in Hly as [-> _]. done.
    - destruct IH as [IH1 IH2]. split; [by eapply insert_rec|]. intros _. eapply insert_entry; [exact H|]. exact IH2. }
  destruct Hall as [Hrec Hent]. split_and!.
  - intros q k e flt r H a Ha. apply (search_filter_nn dist so LAWS) in H. rewrite Forall_forall in H. auto.
  - intros p pt lists ns n Hg Hl Hns Hn. unfold get_neighborhood_id in Hl. apply mapM_outcome_inv in Hl.
    apply elem_of_list_lookup in Hns as [i Hi]. destruct (Forall2_lookup_r _ _ _ _ _ Hl Hi) as (nbs & Hnbs & Hm2).
    apply mapM_outcome_inv in Hm2. apply elem_of_list_lookup in Hn as [j Hj]. destruct (Forall2_lookup_r _ _ _ _ _ Hm2 Hj) as (x & Hx & Hy).
    apply bind_inv in Hy as (y & _ & [= <-]). cbn. eapply Hrec; eauto using elem_of_list_lookup_2.
  - intros q k e flt Hn Hneg r. apply search_all_negative; auto.
Qed.
Print Assumptions C77_negative_distances_never_pass.

(** The signed difference: 0, 5 and 9 are inserted in that order; a search from 20 returns, a search from 7 (at -2 from 9) does not. *)
Definition signed (a b : list Z) : Z := (hd 0 a - hd 0 b)%Z.
Definition lowest : draw := Draw (S754_zero false) 0.
Definition neg_step (h : hnsw (T:=Z)) (z : Z) (id : dataid) : hnsw (T:=Z) :=
  match insert_slice signed simple_ops h [z] id lowest with Ok r => r | _ => h end.
Definition neg_0 : hnsw (T:=Z) := Eval vm_compute in
  match hnsw_new (fun _ => f64_1) 4 16 10 with Ok h => h | _ => empty_index 4 16 10 end.
Definition neg_1 := Eval vm_compute in neg_step neg_0 0%Z 1%N.
Definition neg_2 := Eval vm_compute in neg_step neg_1 5%Z 2%N.
Definition neg_h := Eval vm_compute in neg_step neg_2 9%Z 3%N.
Example C77_example :
  made signed simple_ops (fun _ => f64_1) 4 16 10 neg_h /\ get_nb_point neg_h = 3%nat /\
  (exists r, search signed simple_ops neg_h [20%Z] 3 10 = Ok r /\ distance <$> r = [11; 15; 20]%Z) /\
  search signed simple_ops neg_h [7%Z] 3 10 = Panic /\
  (forall p pt, get_pt neg_h p = Some pt -> (signed [(-3)%Z] (pt_data pt) < 0)%Z).
Proof.
  split_and!; [|done|eexists; split; vm_compute; reflexivity|vm_compute; reflexivity|].
  - apply (made_insert _ _ _ _ _ _ neg_2 [9%Z] 3%N lowest); [|vm_compute; reflexivity].
    apply (made_insert _ _ _ _ _ _ neg_1 [5%Z] 2%N lowest); [|vm_compute; reflexivity].
    apply (made_insert _ _ _ _ _ _ neg_0 [0%Z] 1%N lowest); [|vm_compute; reflexivity].
    apply made_new. vm_compute. reflexivity.
  - intros p pt Hg. assert (H : Forall (Forall (fun x => signed [(-3)%Z] (pt_data x) < 0)%Z) (points_by_layer neg_h)) by (repeat constructor).
    apply get_pt_lookup in Hg as (ly & Hly & Hg). rewrite Forall_lookup in H. specialize (H _ _ Hly). rewrite Forall_lookup in H. eauto.
Qed.
