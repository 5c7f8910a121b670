(** Property C113: at most one point is without neighbours on its own layer. *)
From Coq Require Import SpecFloat.
From stdpp Require Import relations.
From Verif Require Import Prelude Model StdInst Lib Table SearchProofs SelectProofs InsertProofs ExhaustProofs QueryProofs
  IterProofs FlatProofs Spec SpecProofs SpecBuilt BuiltProofs SpecInsert LocalProofs DivProofs LinkProofs
  Conc SpecConc ConcEnd SpecUse InsertSpecProofs InsertUsedProofs Examples ExamplesConc PropsConc PropsUsed PropsMutual.
Local Open Scope list_scope.

(** at most one point has no neighbour in the layer it is on *)
Definition few_bare {T} (h : hnsw (T:=T)) : Prop :=
  forall p q, layer_neighbours h p p.1 [] -> layer_neighbours h q q.1 [] -> p = q.

Section Bare.
Context {T : Type} (dist : list T -> list T -> Z) (so : StdOps) (LAWS : StdLaws so).
Context (Hnn : forall a b, (0 <= dist a b)%Z).
Local Notation hnsw := (hnsw (T:=T)).

Lemma bare_own (h : hnsw) p l : lwf dist h -> layer_neighbours h p l [] <-> own_list h p l = Some [].
Proof using Type.
  intros Hwf. rewrite (layer_neighbours_conv dist h p l [] Hwf). unfold own_list. split.
  - intros (pt & nbs & -> & Hn & E). simpl. by destruct nbs.
  - destruct (get_pt h p) as [pt|]; [|done]. simpl. intros Hn. by exists pt, [].
Qed.

Lemma few_bare_insert h v id d h' : lwf dist h -> (1 <= max_nb_connection h)%nat ->
  insert_slice dist so h v id d = Ok h' -> few_bare h -> few_bare h'.
Proof using LAWS Hnn.
  intros Hwf HM Hins Hb. pose proof (insert_lwf dist so LAWS Hnn _ _ _ _ _ Hwf Hins) as Hwf'.
  pose proof (l_core _ _ Hwf) as Hc.
  destruct (insert_links_ok dist so LAWS Hnn _ _ _ _ _ Hwf Hins) as (np & HIL).
  destruct (il_np _ _ _ _ _ _ HIL) as (npt & Hnp & _).
  assert (Hold : forall p, layer_neighbours h' p p.1 [] -> p <> np -> layer_neighbours h p p.1 []).
  { intros p Hp Hne. apply (bare_own h' _ _ Hwf') in Hp. unfold own_list in Hp.
    destruct (get_pt h' p) as [pt'|] eqn:Hpt'; [|done]. simpl in Hp.
    assert (Hv : valid h' p) by (by exists pt'). apply (il_only _ _ _ _ _ _ HIL) in Hv as [?|[pt Hpt]]; [done|].
    destruct (il_others _ _ _ _ _ _ HIL p pt Hpt) as (pt2 & Hpt2 & _ & _ & Hl). rewrite Hpt' in Hpt2. injection Hpt2 as <-.
    destruct (lookup_lt_is_Some_2 (pt_nbs pt) p.1) as [nbs Hn].
    { destruct (c_pt _ _ Hc _ _ Hpt) as [_ ->]. destruct (c_pt _ _ (l_core _ _ Hwf') _ _ Hpt') as [_ <-]. by eapply lookup_lt_Some. }
    apply (bare_own h _ _ Hwf). unfold own_list. rewrite Hpt. simpl. rewrite Hn. f_equal.
    destruct (Hl _ nbs Hn) as (nbs' & Hn' & Hcase). rewrite Hp in Hn'. injection Hn' as <-.
    destruct Hcase as [(_ & _ & (_ & Hlen & _))|[_ ->]]; [|done]. exfalso. simpl in Hlen.
    assert (1 <= nb_conn h p.1)%nat by (unfold nb_conn; destruct (p.1 =? 0)%nat; lia). lia. }
  assert (Hnew : layer_neighbours h' np np.1 [] -> forall p, ~ valid h p).
  { intros Hbare p Hv. apply (bare_own h' _ _ Hwf') in Hbare. destruct (entry_point h) as [ep|] eqn:Eep.
    2:{ pose proof (l_entry _ _ Hwf) as He. rewrite Eep in He.
        pose proof (valid_count h [p] (NoDup_singleton _) ltac:(by repeat constructor)) as Hcn. simpl in Hcn. lia. }
    destruct (il_own _ _ _ _ _ _ HIL ep Eep) as (_ & Hown & _).
    destruct (Hown np.1) as (hc & nv & _ & _ & _ & Hnear); [|done|].
    { unfold layer_empty. intros E. apply get_pt_lookup in Hnp as (ly & Hly & Hs). rewrite E in Hly. injection Hly as <-. done. }
    destruct Hnear as (nbs & n & Hnbs & Hin & _). { unfold nb_conn. destruct (np.1 =? 0)%nat; lia. }
    rewrite Hbare in Hnbs. injection Hnbs as <-. by apply elem_of_nil in Hin. }
  assert (Hval : forall p, layer_neighbours h p p.1 [] -> valid h p).
  { intros p Hp. apply (bare_own h _ _ Hwf) in Hp. unfold own_list in Hp. destruct (get_pt h p) as [pt|] eqn:E; [by exists pt|done]. }
  intros p q Hp Hq. destruct (decide (p = np)) as [->|Hpn], (decide (q = np)) as [->|Hqn]; [done|..].
  - exfalso. by eapply (Hnew Hp q), Hval, Hold.
  - exfalso. by eapply (Hnew Hq p), Hval, Hold.
  - apply Hb; by apply Hold.
Qed.
Lemma few_bare_meta (h h' : hnsw) : lwf dist h -> lwf dist h' -> points_by_layer h' = points_by_layer h -> few_bare h -> few_bare h'.
Proof using Type.
  intros W W' E Hb p q. rewrite !(bare_own h' _ _ W'), !(own_list_get h h') by (by apply get_pt_pbl).
  rewrite <- !(bare_own h _ _ W). apply Hb.
Qed.
End Bare.

(** C113: later states keep it. *)
Theorem C113_links_for_all_kept :
  forall {T} (dist : list T -> list T -> Z) so, StdLaws so -> (forall a b, (0 <= dist a b)%Z) ->
  forall inv_ln M ml ef hist h, used dist so inv_ln M ml ef hist h -> (1 <= M)%nat -> few_bare h ->
  forall h', evolves dist so h h' -> few_bare h'.
Proof.
  intros T dist so LAWS Hnn inv_ln M ml ef hist h Hu HM Hb h' He.
  enough ((exists hist', used dist so inv_ln M ml ef hist' h') /\ few_bare h') as [_ ?] by done.
  induction He as [h|h h1 v id d h2 _ IH Hins|h h1 b _ IH|h h1 b _ IH|h h1 b _ IH|h h1 m _ IH].
  { eauto. }
  { destruct (IH Hu Hb) as [(hist1 & Hu1) Hb1].
    destruct (used_facts dist so LAWS Hnn _ _ _ _ _ _ Hu1) as (Hwf & _ & EM & _).
    split; [eexists; by eapply used_insert|]. eapply (few_bare_insert dist so LAWS Hnn); [exact Hwf|lia|done|done]. }
  all: destruct (IH Hu Hb) as [(hist1 & Hu1) Hb1]; destruct (used_facts dist so LAWS Hnn _ _ _ _ _ _ Hu1) as (Hwf & _); split; [eexists; first [by eapply used_extend|by eapply used_keep|by eapply used_search|by eapply used_scale]|apply (few_bare_meta dist h1); [done|by apply (lwf_meta dist h1)|done|done]].
Qed.
Print Assumptions C113_links_for_all_kept.

(** C113: of an index made by successive insertions. *)
Theorem C113_links_for_all :
  forall {T} (dist : list T -> list T -> Z) so, StdLaws so -> (forall a b, (0 <= dist a b)%Z) ->
  forall inv_ln M ml ef h0 h, hnsw_new inv_ln M ml ef = Ok h0 -> evolves dist so h0 h -> (1 <= M)%nat -> few_bare h.
Proof.
  intros T dist so LAWS Hnn inv_ln M ml ef h0 h Hnew He HM.
  assert (Hu : used dist so inv_ln M ml ef [] h0) by (by apply used_built, built_new).
  eapply C113_links_for_all_kept; [done|done|exact Hu|done| |done].
  destruct (used_facts dist so LAWS Hnn _ _ _ _ _ _ Hu) as (Hwf & _ & _ & _ & Hst & _).
  intros p q Hp. exfalso. apply (bare_own dist h0 _ _ Hwf) in Hp. unfold own_list in Hp.
  destruct (get_pt h0 p) as [pt|] eqn:E; [|done]. apply stored_at in E. rewrite Hst in E. by apply elem_of_nil in E.
Qed.
Print Assumptions C113_links_for_all.

(** the first point is on layer 2, where no other point is: it is listed by the second one, on layer 0, and has itself no neighbour on
    layer 2 *)
Example C113_example :
  StdLaws simple_ops /\ (forall a b, (0 <= d1 a b)%Z) /\ hnsw_new one_scale 2 16 10 = Ok (empty_index 2 16 10) /\
  evolves d1 simple_ops (empty_index 2 16 10) exd /\
  layer_neighbours exd (2, 0) 2 [] /\ layer_neighbours exd (0, 0) 0 [Neighbour 10%N 100%Z (2, 0)].
Proof.
  assert (Hmk : mk simple_ops 2 16 10 exd_points = Ok exd) by (vm_compute; reflexivity).
  assert (Hnew : hnsw_new one_scale 2 16 10 = Ok (empty_index 2 16 10)) by (vm_compute; reflexivity).
  pose proof (wf_lwf _ _ (built_wf d1 simple_ops simple_laws d1_nonneg _ _ _ _ _ _ exd_built)) as Hwf.
  split; [exact simple_laws|]. split; [exact d1_nonneg|]. split; [exact Hnew|].
  split; [by apply (mk_evolves simple_ops 2 16 10 exd_points)|].
  split; apply (layer_neighbours_conv d1 _ _ _ _ Hwf); eexists _, _; split_and!; vm_compute; reflexivity.
Qed.
