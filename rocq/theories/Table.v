(** Lemmas on the table of points: lookup, counting, updates. *)
From Verif Require Import Prelude Model Lib.

Section Table.
Context {T : Type}.
Implicit Types (h : hnsw (T:=T)) (p : pid).

Definition valid h p : Prop := is_Some (get_pt h p).

(** the immutable part of a point *)
Definition static h p : option (list T * dataid * pid) :=
  (fun pt => (pt_data pt, pt_oid pt, pt_pid pt)) <$> get_pt h p.

Lemma get_pt_lookup h p pt :
  get_pt h p = Some pt <-> exists ly, points_by_layer h !! p.1 = Some ly /\ ly !! p.2 = Some pt.
Proof.
  unfold get_pt. destruct (points_by_layer h !! p.1) as [ly|] eqn:E; simpl.
  - split; [eauto|]. intros (? & [= <-] & ?); done.
  - split; [done|]. by intros (? & ? & ?).
Qed.

(** ** Enumeration of the valid PointIds *)
Fixpoint pids_from (k : nat) (ls : list (list (point (T:=T)))) : list pid :=
  match ls with
  | [] => []
  | ly :: ls' => ((fun r => (k, r)) <$> seq 0 (length ly)) ++ pids_from (S k) ls'
  end.

Lemma length_pids_from k ls : length (pids_from k ls) = sum_list (length <$> ls).
Proof.
  revert k. induction ls as [|ly ls IH]; intros k; simpl; [done|].
  rewrite app_length, fmap_length, seq_length, IH. done.
Qed.

Lemma elem_of_pids_from k ls p :
  p ∈ pids_from k ls <-> (k <= p.1)%nat /\ is_Some (ls !! (p.1 - k) ≫= fun ly => ly !! p.2).
Proof.
  revert k. induction ls as [|ly ls IH]; intros k; simpl.
  - split; [by intros ?%elem_of_nil|]. intros [_ [? ?]]; done.
  - rewrite elem_of_app, IH, elem_of_list_fmap.
    split.
    + intros [(r & -> & Hr)|[Hle Hs]].
      * apply elem_of_seq in Hr. simpl. rewrite Nat.sub_diag. split; [lia|]. simpl.
        apply lookup_lt_is_Some. lia.
      * split; [lia|]. replace (p.1 - k) with (S (p.1 - S k)) by lia. done.
    + intros [Hle Hs]. destruct (decide (p.1 = k)) as [<-|Hne].
      * left. rewrite Nat.sub_diag in Hs. simpl in Hs. exists p.2. split; [by destruct p|].
        apply lookup_lt_is_Some in Hs. apply elem_of_seq. lia.
      * right. split; [lia|]. replace (p.1 - k) with (S (p.1 - S k)) in Hs by lia. done.
Qed.

Lemma elem_of_pids h p : p ∈ pids_from 0 (points_by_layer h) <-> valid h p.
Proof.
  rewrite elem_of_pids_from. unfold valid, get_pt. rewrite Nat.sub_0_r.
  split; [by intros [_ ?]|]. intros ?; split; [lia|done].
Qed.

Lemma NoDup_pids_from k ls : NoDup (pids_from k ls).
Proof.
  revert k. induction ls as [|ly ls IH]; intros k; simpl; [constructor|].
  apply NoDup_app. split_and!; [|..|apply IH].
  - apply NoDup_fmap; [|apply NoDup_seq]. intros ? ? [= ->]. done.
  - intros p (r & -> & Hr)%elem_of_list_fmap Hp. apply elem_of_pids_from in Hp as [Hle _].
    simpl in Hle. lia.
Qed.

Lemma valid_count h (ps : list pid) :
  NoDup ps -> Forall (valid h) ps -> (length ps <= table_size h)%nat.
Proof.
  intros Hnd Hv. unfold table_size. rewrite <- (length_pids_from 0 (points_by_layer h)).
  apply submseteq_length, NoDup_submseteq; [done|].
  intros p Hp. apply elem_of_pids. rewrite Forall_forall in Hv. auto.
Qed.

(** ** Updates of neighbour lists *)

(** same parameters, entry point and counters *)
Definition same_meta h h' : Prop :=
  ef_construction h' = ef_construction h /\ max_nb_connection h' = max_nb_connection h /\
  extend_candidates h' = extend_candidates h /\ keep_pruned h' = keep_pruned h /\
  max_layer h' = max_layer h /\ level_scale h' = level_scale h /\ nb_point h' = nb_point h /\
  entry_point h' = entry_point h /\ searching h' = searching h /\ datamap_opt h' = datamap_opt h.

(** [h'] differs from [h] at most in neighbour lists *)
Definition same_table h h' : Prop :=
  same_meta h h' /\
  length <$> points_by_layer h' = length <$> points_by_layer h /\
  (forall p, static h' p = static h p).

Lemma same_meta_refl h : same_meta h h.
Proof. by repeat split. Qed.
Lemma same_meta_trans h1 h2 h3 : same_meta h1 h2 -> same_meta h2 h3 -> same_meta h1 h3.
Proof. unfold same_meta. intuition congruence. Qed.
Lemma same_table_refl h : same_table h h.
Proof. split; [apply same_meta_refl|done]. Qed.
Lemma same_table_trans h1 h2 h3 : same_table h1 h2 -> same_table h2 h3 -> same_table h1 h3.
Proof.
  intros (?&?&H1) (?&?&H2). split; [by eapply same_meta_trans|]. split; [congruence|].
  intros p. by rewrite H2, H1.
Qed.

Lemma same_table_valid h h' p : same_table h h' -> valid h' p <-> valid h p.
Proof.
  intros (_ & _ & H). specialize (H p). unfold valid, static in *.
  destruct (get_pt h p), (get_pt h' p); simpl in H; try done.
  all: split; intros [? ?]; eauto; done.
Qed.

Lemma same_table_get h h' p pt :
  same_table h h' -> get_pt h p = Some pt ->
  exists pt', get_pt h' p = Some pt' /\ pt_data pt' = pt_data pt /\ pt_oid pt' = pt_oid pt /\
    pt_pid pt' = pt_pid pt.
Proof.
  intros (_ & _ & H) Hg. specialize (H p). unfold static in H. rewrite Hg in H.
  destruct (get_pt h' p) as [pt'|]; simpl in H; [|done]. inversion H. eauto 10.
Qed.

Lemma same_table_sym h h' : same_table h h' -> same_table h' h.
Proof.
  intros (H1 & H2 & H3). split; [|done]. unfold same_meta in *. intuition congruence.
Qed.

Lemma upd_nbs_inv h p l f h' :
  upd_nbs h p l f = Ok h' ->
  exists pt nbs, get_pt h p = Some pt /\ pt_nbs pt !! l = Some nbs /\
    get_pt h' p = Some (set_pt_nbs pt l (f nbs)) /\
    (forall p', p' <> p -> get_pt h' p' = get_pt h p') /\
    same_table h h'.
Proof.
  unfold upd_nbs. intros H.
  apply bind_inv in H as (ly & Hly & H). apply bind_inv in H as (pt & Hpt & H).
  apply bind_inv in H as (nbs & Hn & H). apply unwrap_inv in Hly, Hpt, Hn.
  injection H as <-.
  assert (Hg : get_pt h p = Some pt). { apply get_pt_lookup. eauto. }
  assert (Hg' : get_pt (set_layers (<[p.1:=<[p.2:=set_pt_nbs pt l (f nbs)]> ly]> (points_by_layer h)) h) p
    = Some (set_pt_nbs pt l (f nbs))).
  { apply get_pt_lookup. simpl. eexists. split.
    - apply list_lookup_insert. by eapply lookup_lt_Some.
    - apply list_lookup_insert. by eapply lookup_lt_Some. }
  assert (Ho : forall p', p' <> p ->
    get_pt (set_layers (<[p.1:=<[p.2:=set_pt_nbs pt l (f nbs)]> ly]> (points_by_layer h)) h) p'
      = get_pt h p').
  { intros p' Hne. unfold get_pt. simpl. destruct (decide (p'.1 = p.1)) as [E|E].
    - rewrite E. rewrite list_lookup_insert by (by eapply lookup_lt_Some).
      rewrite Hly. simpl. rewrite list_lookup_insert_ne; [done|].
      intros E2. apply Hne. destruct p, p'; simpl in *; congruence.
    - rewrite list_lookup_insert_ne by done. done. }
  exists pt, nbs. split_and!; [done..|].
  split; [by repeat split|]. split.
  - simpl. rewrite list_fmap_insert, insert_length.
    apply list_insert_id. rewrite list_lookup_fmap, Hly. done.
  - intros p'. unfold static. destruct (decide (p' = p)) as [->|Hne].
    + rewrite Hg', Hg. done.
    + by rewrite Ho.
Qed.

Lemma upd_nbs_ok h p l f pt nbs :
  get_pt h p = Some pt -> pt_nbs pt !! l = Some nbs -> is_ok (upd_nbs h p l f).
Proof.
  intros (ly & Hly & Hpt)%get_pt_lookup Hn. unfold upd_nbs, is_ok.
  rewrite Hly. simpl. rewrite Hpt. simpl. rewrite Hn. simpl. eauto.
Qed.

Lemma table_size_fmap h h' :
  length <$> points_by_layer h' = length <$> points_by_layer h -> table_size h' = table_size h.
Proof. unfold table_size. by intros ->. Qed.

(** ** Pushing a point *)
Lemma push_point_inv h data oid level h' p :
  push_point h data oid level = Ok (h', p) ->
  p.1 = level /\ (level < length (points_by_layer h))%nat /\
  get_pt h p = None /\ get_pt h' p = Some (new_pt data oid p) /\
  (forall p', p' <> p -> get_pt h' p' = get_pt h p') /\
  same_meta h h' /\ length (points_by_layer h') = length (points_by_layer h) /\
  table_size h' = S (table_size h).
Proof.
  unfold push_point. intros H. apply bind_inv in H as (ly & Hly & H). apply unwrap_inv in Hly.
  injection H as <- <-.
  assert (Hlt := lookup_lt_Some _ _ _ Hly).
  split_and!; try done.
  - unfold get_pt. simpl. rewrite Hly. simpl. apply lookup_ge_None_2. lia.
  - apply get_pt_lookup. simpl. eexists. split; [by apply list_lookup_insert|].
    rewrite lookup_app_r by lia. by rewrite Nat.sub_diag.
  - intros p' Hne. unfold get_pt. simpl. destruct (decide (p'.1 = level)) as [E|E].
    + rewrite E, list_lookup_insert, Hly by done. simpl.
      destruct (decide (p'.2 < length ly)) as [E2|E2].
      * by rewrite lookup_app_l.
      * rewrite lookup_app_r by lia. rewrite (lookup_ge_None_2 ly) by lia.
        apply lookup_ge_None_2. simpl. destruct p' as [a b]; simpl in *.
        destruct (decide (b = length ly)); [|lia]. subst. by contradict Hne.
    + by rewrite list_lookup_insert_ne.
  - simpl. by rewrite insert_length.
  - unfold table_size. simpl. generalize (new_pt data oid (level, length ly)) as np. intros np. clear -Hly. revert level Hly.
    induction (points_by_layer h) as [|a ls IH]; intros [|level] Hly; try done.
    + injection Hly as ->. csimpl. rewrite app_length. simpl. lia.
    + specialize (IH level Hly). csimpl. lia.
Qed.

Lemma push_point_ok h data oid level :
  (level < length (points_by_layer h))%nat -> is_ok (push_point h data oid level).
Proof.
  intros H. apply lookup_lt_is_Some in H as [ly Hly].
  unfold push_point. rewrite Hly. simpl. eexists; done.
Qed.

End Table.
