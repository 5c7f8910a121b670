(** Property C100: what an index that goes out of scope leaves in memory. *)
From Coq Require Import Strings.String Strings.Byte.
From stdpp Require Import relations.
From Verif Require Import Prelude Model StdInst Lib Table SearchProofs InsertProofs Spec
  Io SpecIo SpecBuilt Conc SpecConc ConcDump ConcEnd BuiltProofs Drop SpecDrop DropProofs
  Examples ExamplesConc ExamplesIo PropsConc PropsDump.
Local Open Scope list_scope.

Section Facts.
Context {T : Type} (dist : list T -> list T -> Z).

Lemma core_droppable (h : hnsw (T:=T)) : lwf dist h -> droppable h.
Proof.
  intros Hl. pose proof (l_core _ _ Hl) as Hc. split.
  - intros p pt Hp. by destruct (c_pt _ _ Hc _ _ Hp).
  - intros p q Hin. unfold links_of in Hin. destruct (get_pt h q) as [pt|] eqn:Eq; [|by apply elem_of_nil in Hin].
    apply elem_of_list_fmap in Hin as (n & -> & (nbs & Hn & Hnbs)%elem_concat).
    apply elem_of_list_lookup in Hnbs as [l Hl'].
    pose proof (lo_ref _ _ _ _ _ _ (c_lists _ _ Hc _ _ _ _ Eq Hl')) as HF. rewrite Forall_forall in HF.
    destruct (HF n Hn) as (pt' & Hpt' & _). by eexists.
  - intros ep He. pose proof (l_entry _ _ Hl) as H. by rewrite He in H.
Qed.

Lemma points_to_links (h : hnsw (T:=T)) q p : core dist h -> points_to h q p <-> p ∈ links_of h q.
Proof.
  intros Hc. unfold points_to, links_of. split.
  - intros (l & ns & n & Hns & Hn & <-). apply (layer_neighbours_pt dist) in Hns as (pt & nbs & Hpt & Hnb & HF); [|done].
    rewrite Hpt. apply elem_of_list_lookup in Hn as [i Hi]. destruct (Forall2_lookup_r _ _ _ _ _ HF Hi) as (m & Hm & E & _).
    rewrite E. apply elem_of_list_fmap. exists m. split; [done|]. apply elem_concat. exists nbs.
    split; by eapply elem_of_list_lookup_2.
  - destruct (get_pt h q) as [pt|] eqn:Eq; [|by intros ?%elem_of_nil].
    intros (m & -> & (nbs & Hm & Hnbs)%elem_concat)%elem_of_list_fmap.
    apply elem_of_list_lookup in Hnbs as [l Hl]. apply elem_of_list_lookup in Hm as [i Hi].
    pose proof (lo_ref _ _ _ _ _ _ (c_lists _ _ Hc _ _ _ _ Eq Hl)) as HF.
    assert (Hx : exists ns, Forall2 (fun n (a : neighbour) => p_id a = n_pid n /\ distance a = n_dist n /\
                 exists q0 : point, get_pt h (n_pid n) = Some q0 /\ d_id a = pt_oid q0) nbs ns).
    { clear -HF. induction HF as [|n nbs (q & Hq & _) HF [ns IH]]; [by exists []|].
      exists (Neighbour (pt_oid q) (n_dist n) (n_pid n) :: ns). constructor; [|done]. simpl. eauto. }
    destruct Hx as [ns Hns]. destruct (Forall2_lookup_l _ _ _ _ _ Hns Hi) as (a & Ha & E & _).
    exists l, ns, a. split; [|split; [by eapply elem_of_list_lookup_2|done]].
    apply (layer_neighbours_pt dist); [done|]. eauto.
Qed.

Lemma loose_let_go (h : hnsw (T:=T)) held p : core dist h -> loose h held p <-> let_go h held p.
Proof.
  intros Hc. split; induction 1 as [p H1 _ IH]; constructor; auto; intros q Hq Hp; apply IH; auto; by apply points_to_links.
Qed.

Lemma drop_level (h : hnsw (T:=T)) : lwf dist h -> (0 < max_layer h)%nat -> (get_max_level_observed h < length (points_by_layer h))%nat.
Proof.
  intros Hl Hm. pose proof (c_len _ _ (l_core _ _ Hl)) as El. unfold get_max_level_observed.
  pose proof (l_entry _ _ Hl) as He. destruct (entry_point h) as [ep|]; [|lia].
  destruct He as [pt (ly & Hly & _)%get_pt_lookup]. by apply lookup_lt_Some in Hly.
Qed.
End Facts.

(** C100, exactly what is freed, for every index however it was used, whatever the order in which the threads of the pool
    clear the points, while the caller holds references to any points: the drop ends; it never destroys a reference to a
    freed point nor touches one (so nothing is freed twice); at the end the points freed are those that can be let go. *)
Theorem C100_drop_exactly :
  forall {T} (dist : list T -> list T -> Z) so, StdLaws so -> (forall a b, (0 <= dist a b)%Z) ->
  forall inv_ln M ml ef hist h, used dist so inv_ln M ml ef hist h -> (1 <= ml)%nat ->
  (exists prog, drop_program h prog) /\
  forall held prog, drop_program h prog ->
  sn dstep (at_drop h held prog) /\
  forall s, rtc dstep (at_drop h held prog) s ->
    no_misuse s /\ (over s \/ exists s', dstep s s') /\
    (over s -> forall p pt, layer_point h p pt -> (freed s p <-> let_go h held p)).
Proof.
  intros T dist so LAWS Hnn inv_ln M ml ef hist h Hu Hml.
  destruct (used_facts dist so LAWS Hnn _ _ _ _ _ _ Hu) as (Hwf & Eml & _).
  pose proof (core_droppable dist h Hwf) as Hd. pose proof (l_core _ _ Hwf) as Hc.
  split; [apply program_exists, (drop_level dist); [done|lia]|].
  intros held prog Hp. pose proof (dinv_start h held prog Hd Hp) as H0. split; [by eapply dinv_sn|].
  intros s Hr. pose proof (dinv_run h held _ _ Hd H0 Hr) as Hi. unfold no_misuse, over, freed. split; [split|split].
  - intros p Hin E. pose proof (dinv_pending _ _ _ _ Hi Hin). lia.
  - intros p rest Et E. pose proof (dinv_clear _ _ _ _ _ Hi Et). lia.
  - destruct (dinv_progress _ _ _ Hi) as [[? ?]|?]; auto.
  - intros [Ep Et] p pt Hpt. apply (layer_point_pt dist) in Hpt; [|done]. rewrite <- (loose_let_go dist) by done.
    apply (dinv_end h held s p Hd Hi Ep Et). apply slots_valid; [done|]. by eexists.
Qed.
Print Assumptions C100_drop_exactly.

(** C100 does not hold of all of them: an index reloaded from a dump taken while two insertions at a new top layer were
    about to end has two points above its entry point that are neighbours of each other. When it is dropped and the
    caller holds nothing, these points are never freed, nor the points of which they are neighbours. *)
Definition cd_tasks : list (task (T:=byte)) := [TInsert [x03; x03] 20%N (lv 5); TInsert [x03; x04] 21%N (lv 5); TDump].
Definition cd_end := play [(0, 126); (1, 124); (2, 4000)]%nat (initial dB simple_ops exb cd_tasks).
Definition cd_d : dumped (T:=byte) := Eval vm_compute in dump_of cd_end 2.
Definition cd_h : hnsw (T:=byte) :=
  Eval vm_compute in match load_hnsw simple_ops el_u8 one_scale l1_name cwd0 (files_fs cd_d) (io_new tmp_dir "b") with Ok (h, _) => h | _ => exb end.
Lemma cd_used : used dB simple_ops one_scale 2 16 10 (dumped_contents cd_d) cd_h.
Proof.
  destruct (dumped_check 16 exb 2 cd_d) as [Hr Hu]; [lia|vm_compute; reflexivity|].
  eapply (used_reload dB simple_ops one_scale 2 16 10 _ exb cd_tasks cd_end 2 cd_d el_u8 l1_name l1_name cwd0 (files_fs cd_d) (io_new tmp_dir "b")).
  - apply used_built, exb_built.
  - done.
  - repeat constructor.
  - apply play_during.
  - done.
  - vm_compute. reflexivity.
  - exact Hr.
  - exact Hu.
  - lia.
  - done.
  - apply files_at.
  - done.
  - left. vm_compute. reflexivity.
Qed.

Theorem C100_leak_refuted :
  exists (dist : list byte -> list byte -> Z) so inv_ln M ml ef hist h lost,
    StdLaws so /\ (forall a b, (0 <= dist a b)%Z) /\ used dist so inv_ln M ml ef hist h /\ (1 <= ml)%nat /\
    length hist = 7%nat /\ length lost = 6%nat /\ NoDup lost /\ (forall p, p ∈ lost -> exists pt, layer_point h p pt) /\
    (exists prog, drop_program h prog) /\
    forall prog, drop_program h prog ->
    (exists s, rtc dstep (at_drop h [] prog) s /\ over s) /\
    forall s p, rtc dstep (at_drop h [] prog) s -> over s -> p ∈ lost -> ~ freed s p.
Proof.
  pose (lost := [(5, 0); (5, 1); (0, 2); (0, 0); (1, 0); (0, 1)]%nat : list pid).
  exists dB, simple_ops, one_scale, 2%nat, 16%nat, 10%nat, (dumped_contents cd_d), cd_h, lost.
  destruct (used_facts dB simple_ops simple_laws dB_nonneg _ _ _ _ _ _ cd_used) as (Hwf & _). pose proof (l_core _ _ Hwf) as Hc.
  destruct (C100_drop_exactly dB simple_ops simple_laws dB_nonneg _ _ _ _ _ _ cd_used ltac:(lia)) as [Hex Hall].
  assert (Hpt : forall p, p ∈ lost -> exists pt, layer_point cd_h p pt).
  { intros p Hp. assert (Hb : forallb (fun p => bool_decide (is_Some (get_pt cd_h p))) lost = true) by (vm_compute; reflexivity).
    rewrite forallb_forall in Hb. apply elem_of_list_In, Hb, bool_decide_eq_true in Hp as [pt Hp].
    exists pt. by apply (layer_point_pt dB). }
  split; [exact simple_laws|]. split; [exact dB_nonneg|]. split; [exact cd_used|]. split; [lia|].
  split; [vm_compute; reflexivity|]. split; [done|]. split; [apply (bool_decide_unpack _); vm_compute; exact I|].
  split; [done|]. split; [done|]. intros prog Hp. destruct (Hall [] prog Hp) as [Hsn Hs]. split.
  - clear -Hsn Hs. assert (Hg : forall s, sn dstep s -> rtc dstep (at_drop cd_h [] prog) s ->
      exists s', rtc dstep (at_drop cd_h [] prog) s' /\ over s').
    { induction 1 as [s _ IH]. intros Hr. destruct (Hs s Hr) as (_ & [Ho|[s' Hs']] & _); [eauto|].
      apply (IH s'); [done|]. by eapply rtc_r. }
    by eapply Hg.
  - intros s p Hr Ho Hpl Hf. destruct (Hpt p Hpl) as [pt Hlp].
    destruct (Hs s Hr) as (_ & _ & Hend). apply (Hend Ho p pt Hlp) in Hf. apply (loose_let_go dB) in Hf; [|done].
    assert (Hcyc : forall q, loose cd_h [] q -> q <> (5, 0)%nat /\ q <> (5, 1)%nat).
    { induction 1 as [q _ _ IH]. split; intros ->.
      - assert (Hin : (5, 0)%nat ∈ links_of cd_h (5, 1)%nat) by (apply (bool_decide_unpack _); vm_compute; exact I).
        assert (Hlv : (get_max_level_observed cd_h < 5)%nat) by (vm_compute; lia).
        destruct (IH (5, 1)%nat Hlv Hin) as [_ N]. done.
      - assert (Hin : (5, 1)%nat ∈ links_of cd_h (5, 0)%nat) by (apply (bool_decide_unpack _); vm_compute; exact I).
        assert (Hlv : (get_max_level_observed cd_h < 5)%nat) by (vm_compute; lia).
        destruct (IH (5, 0)%nat Hlv Hin) as [N _]. done. }
    assert (Hlv : (get_max_level_observed cd_h < 5)%nat) by (vm_compute; lia).
    assert (Hin : forall p, p ∈ lost -> p <> (5, 0)%nat -> p <> (5, 1)%nat -> p ∈ links_of cd_h (5, 0)%nat).
    { intros p' Hp' N1 N2. assert (Hl : forallb (fun p => bool_decide (p = (5, 0)%nat) || bool_decide (p = (5, 1)%nat) || bool_decide (p ∈ links_of cd_h (5, 0)%nat)) lost = true)
        by (vm_compute; reflexivity).
      rewrite forallb_forall in Hl. apply elem_of_list_In, Hl in Hp'. rewrite !orb_true_iff, !bool_decide_eq_true in Hp'. naive_solver. }
    destruct (decide (p = (5, 0)%nat)) as [->|N1]; [by destruct (Hcyc _ Hf)|].
    destruct (decide (p = (5, 1)%nat)) as [->|N2]; [by destruct (Hcyc _ Hf)|].
    destruct Hf as [p _ Hq]. specialize (Hq (5, 0)%nat Hlv (Hin p Hpl N1 N2)). by destruct (Hcyc _ Hq).
Qed.
Print Assumptions C100_leak_refuted.

(** C100, what does hold of an index filled, used by one or more threads, dumped and reloaded as [built] says: at the end of the
    drop every point that the caller does not hold has been freed, and the points held have no neighbours any more.
    On the way a point is freed only when its lists are empty: the destructor of a point never runs that of another, so
    that the depth of the stack does not grow with the index. Missing: what [used] adds, that is parallel insertions into an
    empty index that lost a point (C45), insertions ended by a panic (C90), and the dumps above. *)
Theorem C100_drop_frees_partial :
  forall {T} (dist : list T -> list T -> Z) so, StdLaws so -> (forall a b, (0 <= dist a b)%Z) ->
  forall inv_ln M ml ef hist h, built dist so inv_ln M ml ef hist h ->
  forall held prog, drop_program h prog ->
  forall s, rtc dstep (at_drop h held prog) s ->
    (forall p, p ∈ pending s -> count s p = 1%nat -> links s p = []) /\
    (over s -> forall p pt, layer_point h p pt -> (freed s p <-> p ∉ held) /\ links s p = []).
Proof.
  intros T dist so LAWS Hnn inv_ln M ml ef hist h Hb held prog Hp s Hr.
  destruct (built_facts dist so LAWS Hnn _ _ _ _ _ _ Hb) as (Hwf & _). pose proof (wf_lwf _ _ Hwf) as Hl.
  pose proof (core_droppable dist h Hl) as Hd. pose proof (w_core _ _ Hwf) as Hc.
  assert (Hmax : forall p, valid h p -> (p.1 <= get_max_level_observed h)%nat).
  { intros p Hv. unfold get_max_level_observed. pose proof (w_entry _ _ Hwf) as He.
    destruct (entry_point h); [by apply He|]. by destruct (table_size_0_valid h p He). }
  pose proof (dinv_run h held _ _ Hd (dinv_start h held prog Hd Hp) Hr) as Hi. split.
  - intros p Hin E. eapply dinv_shallow; eauto. apply Hmax, slots_valid; [done|]. by eapply i_pend.
  - intros [Ep Et] p pt Hpt. apply (layer_point_pt dist) in Hpt; [|done].
    assert (Hv : valid h p) by (by eexists).
    destruct (dinv_end h held s p Hd Hi Ep Et) as (H1 & H2 & _); [by apply slots_valid|].
    split; [|by apply H2, Hmax]. unfold freed. rewrite H1. split; [by intros []|].
    intros Hn. constructor; [done|]. intros q Hq Hin. exfalso.
    assert (Hvq : valid h q) by (unfold links_of in Hin; destruct (get_pt h q) eqn:E; [by eexists|by apply elem_of_nil in Hin]).
    pose proof (Hmax q Hvq). lia.
Qed.
Print Assumptions C100_drop_frees_partial.

(** The index of 7 points of Examples.v, of which the caller keeps two references to one point and one to another. *)
Example C100_example : built d1 simple_ops one_scale 2 16 10 ex1_hist ex1 /\ get_max_level_observed ex1 = 2%nat /\
  (exists prog, drop_program ex1 prog) /\
  (forall p, p ∈ [(0, 1); (0, 1); (1, 0)]%nat -> exists pt, get_pt ex1 p = Some pt) /\
  forall prog, drop_program ex1 prog -> count (at_drop ex1 [(0, 1); (0, 1); (1, 0)]%nat prog) (0, 1)%nat <> 0%nat.
Proof.
  split; [exact ex1_built|]. split; [vm_compute; reflexivity|].
  split; [apply program_exists; vm_compute; lia|]. split.
  - intros p Hp. repeat (apply elem_of_cons in Hp as [->|Hp]; [vm_compute; eauto|]). by apply elem_of_nil in Hp.
  - intros prog _. vm_compute. done.
Qed.
