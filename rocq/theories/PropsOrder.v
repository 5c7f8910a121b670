(** Properties C85 and C86: what the index and the answers depend on when no two distances are equal. *)
From stdpp Require Import relations.
From Verif Require Import Prelude Model StdInst Lib Table SearchProofs InsertProofs IterProofs QueryProofs FlatProofs MonoProofs Spec SpecProofs
  Io SpecIo SpecBuilt BuiltProofs OrderProofs PropsMono Examples.
Local Open Scope list_scope.

(** A call that fills or configures an index; the draw is what the random generator of the levels gives. *)
Inductive call {T : Type} : Type :=
| Insert (v : list T) (id : dataid) (d : draw)
| SetExtendCandidates (b : bool)
| SetKeepingPruned (b : bool)
| SetSearchingMode (b : bool)
| ModifyLevelScale (m : f64).
Arguments call : clear implicits.

Definition do_call {T} (dist : list T -> list T -> Z) (so : StdOps) (h : hnsw (T:=T)) (c : call T) : outcome (hnsw (T:=T)) :=
  match c with
  | Insert v id d => insert_slice dist so h v id d
  | SetExtendCandidates b => Ok (set_extend_candidates b h)
  | SetKeepingPruned b => Ok (set_keeping_pruned b h)
  | SetSearchingMode b => Ok (set_searching_mode b h)
  | ModifyLevelScale m => Ok (modify_level_scale m h)
  end.

(** One call after the other; the first failure is the outcome. *)
Fixpoint do_calls {T} (dist : list T -> list T -> Z) (so : StdOps) (h : hnsw (T:=T)) (cs : list (call T)) : outcome (hnsw (T:=T)) :=
  match cs with
  | [] => Ok h
  | c :: cs' => h1 ← do_call dist so h c; do_calls dist so h1 cs'
  end.

(** The vectors, with their ids, that the calls insert. *)
Fixpoint inserted {T} (cs : list (call T)) : list (list T * dataid) :=
  match cs with
  | [] => []
  | Insert v id _ :: cs' => (v, id) :: inserted cs'
  | _ :: cs' => inserted cs'
  end.

(** From each inserted vector, the inserted vectors are at pairwise different distances. *)
Definition no_tie_inside {T} (dist : list T -> list T -> Z) (hist : list (list T * dataid)) : Prop :=
  forall v id, (v, id) ∈ hist -> no_tie dist hist v.

(** The two distances order all pairs of vectors in the same way. *)
Definition same_order {T} (dist1 dist2 : list T -> list T -> Z) : Prop :=
  forall a b c d, (dist1 a b <= dist1 c d)%Z <-> (dist2 a b <= dist2 c d)%Z.

(** The index without the distances recorded in the neighbour lists: the points, with their vectors, ids and levels, the neighbours of
    each point at each layer in their order, the entry point and the parameters. *)
Definition bare_point {T} (pt : point (T:=T)) : point (T:=T) :=
  Point (pt_data pt) (pt_oid pt) (pt_pid pt) (map (map (fun n => Nbr (n_pid n) 0)) (pt_nbs pt)).
Definition without_distances {T} (h : hnsw (T:=T)) : hnsw (T:=T) := set_layers (map (map bare_point) (points_by_layer h)) h.

(** An answer without its distance. *)
Definition which (a : neighbour) : dataid * pid := (d_id a, p_id a).

Lemma no_tie_app {T} (dist : list T -> list T -> Z) hist rest q : no_tie dist (hist ++ rest) q -> no_tie dist hist q.
Proof. unfold no_tie. rewrite fmap_app. by intros [H _]%NoDup_app. Qed.
Lemma no_tie_inside_app {T} (dist : list T -> list T -> Z) (hist rest : list (list T * dataid)) : no_tie_inside dist (hist ++ rest) -> no_tie_inside dist hist.
Proof. intros H v id Hin. eapply no_tie_app. eapply (H v id). apply elem_of_app. by left. Qed.

Lemma no_ties_stored {T} (dist : list T -> list T -> Z) (h : hnsw (T:=T)) hist q : stored h ≡ₚ hist -> no_tie dist hist q ->
  no_ties dist (vecs h) q.
Proof.
  intros Hst Hn p p' v v' Hv Hv' E. unfold vecs in Hv, Hv'.
  destruct (get_pt h p) as [pt|] eqn:Hp; [|done]. destruct (get_pt h p') as [pt'|] eqn:Hp'; [|done].
  injection Hv as <-. injection Hv' as <-. by eapply (no_tie_pt dist h hist q).
Qed.

Lemma tie_free_stored {T} (dist : list T -> list T -> Z) (h : hnsw (T:=T)) hist : stored h ≡ₚ hist -> no_tie_inside dist hist -> tie_free dist h.
Proof.
  intros Hst Hn p v Hv. unfold vecs in Hv. destruct (get_pt h p) as [pt|] eqn:Hp; [|done]. injection Hv as <-.
  eapply no_ties_stored; [exact Hst|]. apply (Hn _ (pt_oid pt)). rewrite <- Hst. by eapply stored_at.
Qed.

Lemma orel_with {A B} (R : A -> B -> Prop) m1 m2 : orel R m1 m2 -> orel (fun a b => R a b /\ m1 = Ok a) m1 m2.
Proof. destruct 1; by constructor. Qed.

Section Calls.
Context {T : Type} (dist1 dist2 : list T -> list T -> Z) (so1 so2 : StdOps) (L1 : StdLaws so1) (L2 : StdLaws so2).
Context (Hn1 : forall a b, (0 <= dist1 a b)%Z) (Hn2 : forall a b, (0 <= dist2 a b)%Z).
Context (Hs1 : forall a b, dist1 a b = dist1 b a) (Hs2 : forall a b, dist2 a b = dist2 b a) (Hord : same_order dist1 dist2).
Context (inv_ln : nat -> f64) (M ml ef : nat).
Notation built := (built dist1 so1 inv_ln M ml ef).
Notation simh := (simh dist1 dist2).

Lemma call_sim c hist h1 h2 : built hist h1 -> simh h1 h2 -> no_tie_inside dist1 (hist ++ inserted [c]) ->
  orel (fun x y => simh x y /\ built (hist ++ inserted [c]) x) (do_call dist1 so1 h1 c) (do_call dist2 so2 h2 c).
Proof using L1 L2 Hn1 Hn2 Hs1 Hs2 Hord.
  intros Hb HI Ht. destruct (built_facts dist1 so1 L1 Hn1 _ _ _ _ _ _ Hb) as (_ & _ & _ & _ & Hst & _).
  destruct c as [v id d|b|b|b|m]; cbn [do_call inserted] in *.
  - eapply orel_impl; [|apply orel_with; eapply insert_sim; eauto].
    + intros x y [Hxy E]. split; [done|]. by econstructor.
    + intros level h0 np Hp. destruct (push_point_inv _ _ _ _ _ _ Hp) as (_ & _ & Hnone & Hnew & Ho & _).
      eapply tie_free_stored; [|exact Ht].
      rewrite (stored_insert h1 h0 np v id Hnone); [by rewrite Hst|unfold static; by rewrite Hnew|]. intros p Hp'. unfold static. by rewrite Ho.
  - rewrite app_nil_r. constructor. split; [|by constructor].
    destruct HI as [(?&?&?&?&?&?&?&?&?&?) HL HV]. constructor; [|exact HL|exact HV]. unfold same_meta; cbn; split_and!; congruence.
  - rewrite app_nil_r. constructor. split; [|by constructor].
    destruct HI as [(?&?&?&?&?&?&?&?&?&?) HL HV]. constructor; [|exact HL|exact HV]. unfold same_meta; cbn; split_and!; congruence.
  - rewrite app_nil_r. constructor. split; [|by constructor].
    destruct HI as [(?&?&?&?&?&?&?&?&?&?) HL HV]. constructor; [|exact HL|exact HV]. unfold same_meta; cbn; split_and!; congruence.
  - rewrite app_nil_r. constructor. split; [|by constructor].
    destruct HI as [(?&?&?&?&?&?&?&?&?&?) HL HV]. constructor; [|exact HL|exact HV]. unfold same_meta; cbn; split_and!; congruence.
Qed.

Lemma inserted_cons (c : call T) cs : inserted (c :: cs) = inserted [c] ++ inserted cs.
Proof using Type. by destruct c. Qed.

Lemma calls_sim cs : forall hist h1 h2, built hist h1 -> simh h1 h2 -> no_tie_inside dist1 (hist ++ inserted cs) ->
  orel (fun x y => simh x y /\ built (hist ++ inserted cs) x) (do_calls dist1 so1 h1 cs) (do_calls dist2 so2 h2 cs).
Proof using L1 L2 Hn1 Hn2 Hs1 Hs2 Hord.
  induction cs as [|c cs IH]; intros hist h1 h2 Hb HI Ht.
  { constructor. cbn. by rewrite app_nil_r. }
  cbn [do_calls]. rewrite inserted_cons, app_assoc in *.
  eapply orel_bind; [eapply call_sim; [done|done|by eapply no_tie_inside_app]|]. intros x y [HI' Hb']. by apply IH.
Qed.

Lemma simh_new h0 : hnsw_new inv_ln M ml ef = Ok h0 -> simh h0 h0.
Proof using Type.
  unfold hnsw_new. destruct (_ <? _)%nat; [done|]. intros [= <-]. constructor; [by split_and!| |done]. cbn [points_by_layer].
  apply Forall2_replicate. constructor.
Qed.

Lemma simh_without h1 h2 : simh h1 h2 -> without_distances h1 = without_distances h2.
Proof using Type.
  intros [(?&?&?&?&?&?&?&?&?&?) HL _].
  assert (Hpt : forall x y, prel dist1 dist2 (vecs h1) x y -> bare_point x = bare_point y).
  { intros x y [P1 P2 P3 P4]. unfold bare_point. rewrite P1, P2, P3. f_equal.
    induction P4 as [|a b l l' (ps & _ & -> & ->) _ IH]; [done|]. cbn [map]. f_equal; [|done].
    rewrite <- !list_fmap_compose. by apply list_fmap_ext. }
  assert (Hls : map (map bare_point) (points_by_layer h1) = map (map bare_point) (points_by_layer h2)).
  { induction HL as [|a b l l' Hab _ IH]; [done|]. cbn [map]. f_equal; [|done].
    induction Hab as [|x y ? ? Hxy _ IH']; [done|]. cbn [map]. f_equal; [by apply Hpt|done]. }
  unfold without_distances. rewrite Hls. unfold set_layers. congruence.
Qed.
End Calls.

(** C85: without ties, what the calls leave in the index, the neighbour lists included, does not depend on how the containers of the
    standard library order equal elements, nor on the order in which the hash maps are traversed; a call that fails fails in the same way. *)
Theorem C85_index_does_not_depend_on_containers :
  forall {T} (dist : list T -> list T -> Z) so1 so2, StdLaws so1 -> StdLaws so2 -> (forall a b, (0 <= dist a b)%Z) ->
  (forall a b, dist a b = dist b a) ->
  forall inv_ln M ml ef h0 cs, hnsw_new inv_ln M ml ef = Ok h0 -> no_tie_inside dist (inserted cs) ->
  do_calls dist so1 h0 cs = do_calls dist so2 h0 cs.
Proof.
  intros T dist so1 so2 L1 L2 Hnn Hs inv_ln M ml ef h0 cs Hnew Ht. apply orel_eq.
  eapply orel_impl; [|eapply (calls_sim dist dist so1 so2 L1 L2 Hnn Hnn Hs Hs (fun _ _ _ _ => iff_refl _) inv_ln M ml ef cs [] h0 h0);
    [by constructor|by eapply simh_new|done]].
  intros x y [HI _]. by eapply simh_eq.
Qed.
Print Assumptions C85_index_does_not_depend_on_containers.

(** C86: without ties, only the order of the distances matters. Two distances that order all pairs of vectors in the same way, as the
    Euclidean distance and its square do, give from the same calls the same index up to the distances recorded in the neighbour lists, and
    the same answers, in the same order, up to the distances reported. *)
Theorem C86_only_the_order_of_distances_matters :
  forall {T} (dist1 dist2 : list T -> list T -> Z) so1 so2, StdLaws so1 -> StdLaws so2 ->
  (forall a b, (0 <= dist1 a b)%Z) -> (forall a b, (0 <= dist2 a b)%Z) ->
  (forall a b, dist1 a b = dist1 b a) -> (forall a b, dist2 a b = dist2 b a) -> same_order dist1 dist2 ->
  forall inv_ln M ml ef h0 cs, hnsw_new inv_ln M ml ef = Ok h0 -> no_tie_inside dist1 (inserted cs) ->
  fmap (M:=outcome) without_distances (do_calls dist1 so1 h0 cs) = fmap (M:=outcome) without_distances (do_calls dist2 so2 h0 cs) /\
  forall h1 h2, do_calls dist1 so1 h0 cs = Ok h1 -> do_calls dist2 so2 h0 cs = Ok h2 ->
  forall q knbn ef_arg flt, no_tie dist1 (inserted cs) q ->
    fmap (M:=outcome) (map which) (search_filter dist1 so1 h1 q knbn ef_arg flt) =
    fmap (M:=outcome) (map which) (search_filter dist2 so2 h2 q knbn ef_arg flt).
Proof.
  intros T dist1 dist2 so1 so2 L1 L2 Hn1 Hn2 Hs1 Hs2 Hord inv_ln M ml ef h0 cs Hnew Ht.
  pose proof (calls_sim dist1 dist2 so1 so2 L1 L2 Hn1 Hn2 Hs1 Hs2 Hord inv_ln M ml ef cs [] h0 h0 (built_new _ _ _ _ _ _ _ Hnew)
    (simh_new _ _ _ _ _ _ _ Hnew) Ht) as HC.
  split.
  { destruct HC as [x y [HI _]| | | | |]; try done. cbn. f_equal. by eapply simh_without. }
  intros h1 h2 E1 E2 q k efa flt Hq. rewrite E1, E2 in HC. inversion HC as [? ? [HI Hb]| | | | |]; subst. cbn [app] in Hb.
  destruct (built_facts dist1 so1 L1 Hn1 _ _ _ _ _ _ Hb) as (_ & _ & _ & _ & Hst & _).
  pose proof (search_filter_sim dist1 dist2 so1 so2 L1 L2 Hn1 Hn2 Hord (vecs h1) q (no_ties_stored _ _ _ _ Hst Hq) h1 h2 k efa flt HI) as HS.
  destruct HS as [r1 r2 HF| | | | |]; try done. cbn. f_equal. clear - HF.
  induction HF as [|a b l l' (H1 & H2 & _) _ IH]; [done|]. cbn [map]. rewrite IH. unfold which. by rewrite H1, H2.
Qed.
Print Assumptions C86_only_the_order_of_distances_matters.

(** Six points on three layers, inserted while two of the settings change; the absolute difference and its square. *)
Definition d1_square (a b : list Z) : Z := (d1 a b * d1 a b)%Z.
Lemma d1_square_order : same_order d1 d1_square.
Proof.
  intros a b c d. unfold d1_square. pose proof (d1_nonneg a b). pose proof (d1_nonneg c d).
  split; intros ?; [by apply Z.square_le_mono_nonneg|by apply Z.square_le_simpl_nonneg].
Qed.
Definition order_calls : list (call Z) :=
  [Insert [21%Z] 1%N (lv 1); Insert [0%Z] 2%N (lv 0); SetExtendCandidates true; Insert [10%Z] 3%N (lv 2); Insert [33%Z] 4%N (lv 0);
   SetKeepingPruned true; Insert [48%Z] 5%N (lv 1); Insert [95%Z] 6%N (lv 0)].
Definition order_new : hnsw (T:=Z) := empty_index 2 16 2.
Definition order_h : hnsw (T:=Z) := Eval vm_compute in the order_new (do_calls d1 simple_ops order_new order_calls).
Definition order_h2 : hnsw (T:=Z) := Eval vm_compute in the order_new (do_calls d1_square reversed_ops order_new order_calls).
Lemma order_no_tie : no_tie_inside d1 (inserted order_calls).
Proof.
  intros v id Hin. cbn in Hin. repeat (apply elem_of_cons in Hin as [[= -> ->]|Hin]; [apply (bool_decide_unpack _); vm_compute; exact I|]).
  by apply elem_of_nil in Hin.
Qed.
Example C85_example :
  hnsw_new one_scale 2 16 2 = Ok order_new /\ no_tie_inside d1 (inserted order_calls) /\ StdLaws simple_ops /\ StdLaws reversed_ops /\
  do_calls d1 simple_ops order_new order_calls = Ok order_h /\ do_calls d1 reversed_ops order_new order_calls = Ok order_h /\
  get_nb_point order_h = 6%nat.
Proof. split; [done|]. split; [exact order_no_tie|]. split; [exact simple_laws|]. split; [exact reversed_laws|]. split_and!; vm_compute; reflexivity. Qed.
(** with ties the index does depend on them: 10 is as near to 0 as to 20 *)
Definition tie_calls : list (call Z) := [Insert [0%Z] 1%N (lv 0); Insert [10%Z] 2%N (lv 0); Insert [30%Z] 3%N (lv 0); Insert [20%Z] 4%N (lv 0)].
Example C85_ties : do_calls d1 simple_ops (empty_index 1 16 4) tie_calls <> do_calls d1 reversed_ops (empty_index 1 16 4) tie_calls.
Proof. intros H. vm_compute in H. discriminate H. Qed.
Example C86_example :
  same_order d1 d1_square /\ no_tie d1 (inserted order_calls) [13%Z] /\ order_h <> order_h2 /\
  do_calls d1 simple_ops order_new order_calls = Ok order_h /\ do_calls d1_square reversed_ops order_new order_calls = Ok order_h2 /\
  exists r1 r2, search d1 simple_ops order_h [13%Z] 3 4 = Ok r1 /\ search d1_square reversed_ops order_h2 [13%Z] 3 4 = Ok r2 /\
    map which r1 = map which r2 /\ map distance r1 = [3; 8; 13]%Z /\ map distance r2 = [9; 64; 169]%Z.
Proof.
  split; [exact d1_square_order|]. split; [apply (bool_decide_unpack _); vm_compute; exact I|]. split; [discriminate|].
  split; [vm_compute; reflexivity|]. split; [vm_compute; reflexivity|]. do 2 eexists. split_and!; vm_compute; reflexivity.
Qed.
