(** Property C94: how the answers of searches with different arguments are related. *)
From stdpp Require Import relations.
From Verif Require Import Prelude Model StdInst Lib Table SearchProofs InsertProofs IterProofs QueryProofs IoProofs4 ParamProofs Spec SpecProofs
  Io SpecIo SpecBuilt BuiltProofs PropsMisc Examples ExamplesConc.
Local Open Scope list_scope.

(** A filter of search_filter as the caller sees it: no filter, a closure, or a vector of ids; [mid] is how the binary search of the
    standard library picks its probes. *)
Inductive user_filter : Type := NoFilter | Closure (f : dataid -> bool) | Ids (mid : nat -> nat -> nat) (l : list dataid).
Definition given (u : user_filter) : option (dataid -> bool) :=
  match u with NoFilter => None | Closure f => Some f | Ids mid l => Some (vec_filter mid l) end.
(** What it is meant to let through. *)
Definition lets_through (u : user_filter) (id : dataid) : Prop :=
  match u with NoFilter => True | Closure f => f id = true | Ids mid l => id ∈ l end.
(** A vector of ids has to be sorted, says the documentation. *)
Definition well_used (u : user_filter) : Prop := match u with Ids _ l => StronglySorted N.le l | _ => True end.

(** C94: in an index however it was used,
    - asking for fewer answers with the same max(ef, knbn) gives the first of the same answers, filtered or not;
    - an ef below knbn counts as knbn;
    - two filters that let through the same ids of inserted points give the same outcome. In particular a filter that lets all of
      them through gives the answers of the search without filter, and a closure that tests membership those of the vector of ids;
    - the answers do not depend on the settings that are for insertions, nor on the searching mode. *)
Theorem C94_searches_with_other_arguments :
  forall {T} (dist : list T -> list T -> Z) so, StdLaws so -> (forall a b, (0 <= dist a b)%Z) ->
  forall inv_ln M ml ef hist h, used dist so inv_ln M ml ef hist h ->
  (forall q k1 k2 e1 e2 u, (k1 <= k2)%nat -> Nat.max e1 k1 = Nat.max e2 k2 -> u = NoFilter \/ (1 <= Nat.max e1 k1)%nat ->
     exists r, search_filter dist so h q k2 e2 (given u) = Ok r /\ search_filter dist so h q k1 e1 (given u) = Ok (take k1 r)) /\
  (forall q k e1 e2 u, (e1 <= k)%nat -> (e2 <= k)%nat ->
     search_filter dist so h q k e1 (given u) = search_filter dist so h q k e2 (given u)) /\
  (forall q k e u1 u2, well_used u1 -> well_used u2 ->
     (forall v id, (v, id) ∈ hist -> lets_through u1 id <-> lets_through u2 id) ->
     search_filter dist so h q k e (given u1) = search_filter dist so h q k e (given u2)) /\
  (forall q k e u b m,
     search_filter dist so (set_extend_candidates b h) q k e (given u) = search_filter dist so h q k e (given u) /\
     search_filter dist so (set_keeping_pruned b h) q k e (given u) = search_filter dist so h q k e (given u) /\
     search_filter dist so (set_searching_mode b h) q k e (given u) = search_filter dist so h q k e (given u) /\
     search_filter dist so (modify_level_scale m h) q k e (given u) = search_filter dist so h q k e (given u)).
Proof.
  intros T dist so LAWS Hnn inv_ln M ml ef hist h Hu.
  destruct (used_facts dist so LAWS Hnn _ _ _ _ _ _ Hu) as (Hwf & _ & _ & _ & Hst & _).
  assert (Hin : forall p pt, get_pt h p = Some pt -> (pt_data pt, pt_oid pt) ∈ hist).
  { intros p pt Hp. rewrite <- Hst. by eapply stored_at. }
  split_and!.
  - intros q k1 k2 e1 e2 u Hk He Hne.
    destruct (search_filter_facts dist so LAWS Hnn h q k2 e2 (given u) Hwf) as (r & Hr & _).
    { destruct Hne as [->|?]; [by left|right; lia]. }
    exists r. split; [done|]. by apply (search_take dist so h q k1 k2 e1 e2).
  - intros q k e1 e2 u H1 H2. unfold search_filter. by replace (Nat.max e1 k) with (Nat.max e2 k) by lia.
  - intros q k e u1 u2 W1 W2 Hq.
    assert (Hall : forall u id, well_used u -> match given u with None => true | Some f => f id end = true <-> lets_through u id).
    { intros [|f|mid l] id W; [done|done|]. by apply (C26_vec_filter mid l id). }
    assert (Hb : forall p pt, get_pt h p = Some pt ->
      match given u1 with None => true | Some f => f (pt_oid pt) end = match given u2 with None => true | Some f => f (pt_oid pt) end).
    { intros p pt Hp. apply eq_bool_prop_intro. rewrite !Is_true_true, !Hall by done. by apply (Hq (pt_data pt)), (Hin p pt). }
    destruct (given u1) as [f|], (given u2) as [g|]; [|  | |done].
    + by apply search_agree.
    + by apply (search_all dist so h LAWS).
    + symmetry. apply (search_all dist so h LAWS). intros p pt Hp. symmetry. by apply (Hb p).
  - intros q k e u b m. split_and!; by apply search_filter_same.
Qed.
Print Assumptions C94_searches_with_other_arguments.

(** a filter that lets both points of [exd] through, as a closure and as a vector of ids; more ids and more answers asked *)
Example C94_example : used d1 simple_ops one_scale 2 16 10 exd_hist exd /\
  well_used (Ids (fun _ n => n / 2)%nat [3; 10; 11]%N) /\
  (forall v id, (v, id) ∈ exd_hist -> lets_through (Ids (fun _ n => n / 2)%nat [3; 10; 11]%N) id <-> lets_through NoFilter id) /\
  search_filter d1 simple_ops exd [60%Z] 2 0 (given (Ids (fun _ n => n / 2)%nat [3; 10; 11]%N)) =
    Ok [Neighbour 11%N 40%Z (0, 0)%nat; Neighbour 10%N 60%Z (2, 0)%nat] /\
  search_filter d1 simple_ops exd [60%Z] 2 0 None = Ok [Neighbour 11%N 40%Z (0, 0)%nat; Neighbour 10%N 60%Z (2, 0)%nat] /\
  search_filter d1 simple_ops exd [60%Z] 1 2 None = Ok [Neighbour 11%N 40%Z (0, 0)%nat].
Proof.
  split; [apply used_built, exd_built|]. split; [repeat constructor; lia|]. split; [|vm_compute; auto].
  intros v id. unfold exd_hist. rewrite !elem_of_cons. cbn. intros [[= -> ->]|[[= -> ->]|[]%elem_of_nil]]; rewrite !elem_of_cons; tauto.
Qed.
