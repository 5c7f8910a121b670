(** Property C95: what a point keeps for life. *)
From Coq Require Import Strings.String.
From stdpp Require Import relations.
From Verif Require Import Prelude Model Lib Table StdInst SearchProofs InsertProofs IterProofs SpecProofs Spec Io IoBase SpecIo SpecBuilt BuiltProofs Calls Conc SpecConc
  ConcSafe ConcSafe2 ConcSafe3 ConcGlobal ConcEnd ConcDump ConcCalls ConcCallsProofs SpecLife LifeProofs Examples ExamplesIo ExamplesConc PropsConc PropsCalls PropsConcCalls PropsDump.
Local Open Scope list_scope.

(** The points of [h] are in [h'] under the same PointId, with the same vector and the same id, and nothing else has that PointId;
    what get_point_data gave it still gives; the top layer is not lower. *)
Definition points_kept {T} (h h' : hnsw (T:=T)) : Prop :=
  (forall p pt, layer_point h p pt ->
     (exists pt', layer_point h' p pt') /\
     forall pt', layer_point h' p pt' -> pt_data pt' = pt_data pt /\ pt_oid pt' = pt_oid pt) /\
  (forall p v, vector_at h p v -> vector_at h' p v) /\
  (get_max_level_observed h <= get_max_level_observed h')%nat.

Lemma keeps_points {T} (dist : list T -> list T -> Z) (h h' : hnsw (T:=T)) : core dist h -> core dist h' -> keeps h h' -> points_kept h h'.
Proof.
  intros Hc Hc' Hk. split_and!.
  - intros p pt Hp. apply (layer_point_pt dist) in Hp; [|done].
    destruct Hk as [Hg _]. assert (Hs : static h' p = Some (pt_data pt, pt_oid pt, pt_pid pt)).
    { eapply static_grows; [exact Hg|]. unfold static. by rewrite Hp. }
    unfold static in Hs. destruct (get_pt h' p) as [pt'|] eqn:E; [|done]. injection Hs as E1 E2 _. split.
    + exists pt'. by apply (layer_point_pt dist).
    + intros pt2 H2. apply (layer_point_pt dist) in H2; [|done]. rewrite E in H2. injection H2 as <-. done.
  - intros p v. by apply keeps_vector.
  - destruct Hk as [_ He]. unfold get_max_level_observed. destruct (entry_point h) as [ep|] eqn:E; [|lia].
    destruct (He ep E) as (ep' & -> & ?). done.
Qed.

(** C95: at any later time, whatever was done to the index meanwhile, the points of an index are still there, under the same
    PointId, with their vector and their id; also in the middle of a parallel use, even one in which the distance panics. The
    later index is as good as any (C67), and has all that was inserted before. *)
Theorem C95_points_for_life :
  forall {T} (dist : list T -> list T -> Z) so, StdLaws so -> (forall a b, (0 <= dist a b)%Z) ->
  forall inv_ln M ml ef hist h0, used dist so inv_ln M ml ef hist h0 ->
  forall h, lives dist so inv_ln M ml h0 h ->
  points_kept h0 h /\
  (exists hist', used dist so inv_ln M ml ef hist' h /\ hist ⊆+ hist') /\
  ((1 <= ml)%nat -> forall ts, Forall (may_run h) ts ->
     (forall c, during dist so h ts c -> points_kept h0 (c_sh c)) /\
     (forall d c, (forall a b z, d a b = Ok z -> z = dist a b) -> during_c d so h ts c -> points_kept h0 (c_sh c))).
Proof.
  intros T dist so LAWS Hnn inv_ln M ml ef hist h0 Hu0 h Hl.
  destruct (used_facts dist so LAWS Hnn _ _ _ _ _ _ Hu0) as (Hwf0 & _). pose proof (l_core _ _ Hwf0) as Hc0.
  destruct (lives_facts dist so LAWS Hnn _ _ _ _ _ _ _ Hu0 Hl) as (Hk & hist' & Hu & Hs).
  destruct (used_facts dist so LAWS Hnn _ _ _ _ _ _ Hu) as (Hwf & Eml & _). pose proof (l_core _ _ Hwf) as Hc.
  split; [by apply (keeps_points dist)|]. split; [by exists hist'|]. intros Hml ts Hok.
  assert (Hpos : (0 < max_layer h)%nat) by (rewrite Eml; lia). split.
  - intros c Hd. destruct (during_keeps dist so LAWS Hnn h ts c Hwf Hpos Hok Hd) as [Hk' Hc'].
    apply (keeps_points dist); auto. by eapply keeps_trans.
  - intros d c Hd Hdu. destruct (during_c_keeps dist so LAWS Hnn d h ts c Hd Hwf Hpos Hok Hdu) as [Hk' Hc'].
    apply (keeps_points dist); auto. by eapply keeps_trans.
Qed.
Print Assumptions C95_points_for_life.

(** The index of C92, after the two insertions of which one ended abnormally, and one more; the index of C70, reloaded. *)
Example C95_example : exists h,
  used d1 simple_ops one_scale 2 16 10 exd_hist exd /\ lives d1 simple_ops one_scale 2 16 exd h /\
  vector_at exd (0, 0)%nat [100%Z] /\ vector_at h (0, 0)%nat [100%Z] /\ nb_point h = 5%nat /\
  lives dB simple_ops one_scale 2 16 exb cv_h.
Proof.
  assert (Hp : lives d1 simple_ops one_scale 2 16 exd (c_sh cp_end)).
  { destruct C92_example as (_ & Hm & _ & Hd & Ha & _). eapply lives_panic_parallel; [apply lives_now|lia|exact Hm|exact Hd|exact Ha]. }
  assert (exists h, insert_slice d1 simple_ops (c_sh cp_end) [5%Z] 7%N (lv 3) = Ok h /\ vector_at h (0, 0)%nat [100%Z] /\ nb_point h = 5%nat) as (h & Hi & Hv & Hn).
  { eexists. split_and!; vm_compute; reflexivity. }
  exists h. split; [apply used_built, exd_built|]. split; [by eapply lives_insert|]. split; [vm_compute; reflexivity|]. split; [done|]. split; [done|].
  destruct cv_ready as [Hr Hu].
  eapply (lives_reload dB simple_ops one_scale 2 16 exb exb cv_tasks cv_end 1 cv_d el_u8 l1_name l1_name cwd0 (files_fs cv_d) (io_new tmp_dir "b"%string));
    [apply lives_now|vm_compute; congruence|apply cv_run|apply play_during|done|apply cv_returned|exact Hr|exact Hu|lia|done|apply files_at|done|].
  left. apply cv_load.
Qed.
