(** Proofs about what a dropped index leaves in memory. *)
From stdpp Require Import relations.
From Verif Require Import Prelude Model Lib Table SearchProofs InsertProofs IterProofs Drop.
Local Open Scope nat_scope.
Local Open Scope list_scope.

(** ** Counting *)
Lemma elem_concat {A} (x : A) ls : x ∈ concat ls <-> exists l, x ∈ l /\ l ∈ ls.
Proof.
  rewrite elem_of_list_In, in_concat. split; intros (l & H1 & H2); exists l; rewrite ?elem_of_list_In in *; auto.
Qed.
Lemma occ_app p l1 l2 : occ p (l1 ++ l2) = occ p l1 + occ p l2.
Proof. unfold occ. by rewrite filter_app, app_length. Qed.
Lemma occ_cons p q l : occ p (q :: l) = (if decide (q = p) then 1 else 0) + occ p l.
Proof. unfold occ. rewrite filter_cons. by destruct (decide (q = p)). Qed.
Lemma occ_nil p : occ p [] = 0.
Proof. done. Qed.
Lemma occ_in p l : p ∈ l <-> 0 < occ p l.
Proof.
  induction l as [|q l IH]; [split; [by intros ?%elem_of_nil|unfold occ; simpl; lia]|].
  rewrite occ_cons, elem_of_cons, IH. destruct (decide (q = p)) as [->|N]; split; try lia; [auto|].
  intros [->|]; [done|lia].
Qed.
Lemma occ_out p l : p ∉ l <-> occ p l = 0.
Proof. rewrite occ_in. lia. Qed.

Lemma concat_upd_out (k : pid -> list pid) q ds : q ∉ ds -> concat (upd k q [] <$> ds) = concat (k <$> ds).
Proof.
  induction ds as [|d ds IH]; [done|]. intros [N1 N2]%not_elem_of_cons. csimpl. rewrite IH by done.
  unfold upd. rewrite decide_False by done. done.
Qed.
Lemma occ_upd p (k : pid -> list pid) q ds : NoDup ds -> q ∈ ds ->
  occ p (concat (k <$> ds)) = occ p (k q) + occ p (concat (upd k q [] <$> ds)).
Proof.
  induction 1 as [|d ds Hn Hd IH]; [by intros ?%elem_of_nil|]. intros [->|Hq]%elem_of_cons; csimpl; rewrite !occ_app.
  - rewrite concat_upd_out by done. unfold upd. rewrite decide_True by done. rewrite occ_nil. lia.
  - rewrite (IH Hq). unfold upd at 2. rewrite decide_False by (intros ->; done). lia.
Qed.
Lemma length_upd (k : pid -> list pid) q ds : NoDup ds -> q ∈ ds ->
  length (concat (k <$> ds)) = length (k q) + length (concat (upd k q [] <$> ds)).
Proof.
  induction 1 as [|d ds Hn Hd IH]; [by intros ?%elem_of_nil|]. intros [->|Hq]%elem_of_cons; csimpl; rewrite !app_length.
  - rewrite concat_upd_out by done. unfold upd. rewrite decide_True by done. simpl. lia.
  - rewrite (IH Hq). unfold upd at 2. rewrite decide_False by (intros ->; done). lia.
Qed.

(** ** The references that the instructions release *)
Definition released (is_ : list instr) : list pid :=
  is_ ≫= fun i => match i with Clear _ => [] | Release ps => ps end.
Lemma released_app a b : released (a ++ b) = released a ++ released b.
Proof. unfold released. apply bind_app. Qed.
Lemma released_clears ps : released (Clear <$> ps) = [].
Proof. induction ps; [done|]. csimpl. done. Qed.

Definition weight (is_ : list instr) : nat := length is_ + length (released is_).

Section DropProofs.
Context {T : Type}.
Notation hnsw := (hnsw (T:=T)).
Implicit Types (h : hnsw).

Definition slots h : list pid := pt_pid <$> concat (points_by_layer h).

Record droppable h : Prop := {
  dr_pid : forall p pt, get_pt h p = Some pt -> pt_pid pt = p;
  dr_links : forall p q, p ∈ links_of h q -> valid h p;
  dr_entry : forall ep, entry_point h = Some ep -> valid h ep
}.

Lemma drop_layers_released h n : forall i layers, Forall2 (drop_layer h) (seq i n) layers ->
  released (concat layers) = pt_pid <$> concat (take n (drop i (points_by_layer h))).
Proof.
  induction n as [|n IH]; intros i layers HF; simpl in HF.
  - apply Forall2_nil_inv_l in HF as ->. by rewrite take_0.
  - apply Forall2_cons_inv_l in HF as (is_ & layers' & (ly & order & Hly & _ & ->) & HF & ->).
    rewrite (drop_S _ _ _ Hly). simpl. rewrite released_app, fmap_app, (IH _ _ HF), released_app, released_clears.
    simpl. by rewrite app_nil_r.
Qed.

Definition entry_list h : list pid := match entry_point h with Some ep => [ep] | None => [] end.

Lemma program_released h prog : drop_program h prog -> released prog = slots h ++ entry_list h.
Proof.
  intros (layers & HF & ->). rewrite !released_app, (drop_layers_released _ _ _ _ HF), drop_0.
  assert (E0 : released match entry_point h with Some ep => [Clear ep] | None => [] end = []) by (by destruct (entry_point h)).
  rewrite E0. simpl. rewrite !app_nil_r. fold (entry_list h). rewrite app_assoc. f_equal.
  unfold slots. by rewrite <- fmap_app, <- concat_app, take_drop.
Qed.

Lemma slots_pids h : droppable h -> slots h = pids_from 0 (points_by_layer h).
Proof.
  intros Hd. unfold slots. change (concat (points_by_layer h)) with (all_points h). rewrite all_points_pids.
  assert (Hg : forall ps, (forall p, p ∈ ps -> valid h p) -> pt_pid <$> (omap (get_pt h) ps : list (point (T:=T))) = ps).
  { induction ps as [|p ps IH]; intros Hv; [done|]. simpl. destruct (Hv p) as [pt Hpt]; [left|].
    rewrite Hpt. csimpl. rewrite IH by (intros ? ?; apply Hv; by right). by rewrite (dr_pid _ Hd _ _ Hpt). }
  apply Hg. intros p. apply elem_of_pids.
Qed.
Lemma slots_nodup h : droppable h -> NoDup (slots h).
Proof. intros Hd. rewrite slots_pids by done. apply NoDup_pids_from. Qed.
Lemma slots_valid h p : droppable h -> p ∈ slots h <-> valid h p.
Proof. intros Hd. rewrite slots_pids by done. apply elem_of_pids. Qed.

(** every clearing is followed by the release of a reference to the same point, of layer [m] at most *)
Definition guarded h (is_ : list instr) : Prop :=
  forall pre p post, is_ = pre ++ Clear p :: post ->
    p ∈ released post /\ p ∈ slots h /\ p.1 <= get_max_level_observed h.

Lemma guarded_tail h i is_ : guarded h (i :: is_) -> guarded h is_.
Proof. intros Hg pre p post ->. by apply (Hg (i :: pre)). Qed.
Lemma guarded_app h a b : guarded h a -> guarded h b -> guarded h (a ++ b).
Proof.
  intros Ha Hb. induction a as [|i a IH]; [done|]. intros pre p post E.
  destruct pre as [|i' pre]; simpl in E; injection E as E0 E; subst i.
  - destruct (Ha [] p a eq_refl) as (H1 & H2 & H3). subst post. split; [|done].
    rewrite released_app. apply elem_of_app. by left.
  - by apply (IH (guarded_tail _ _ _ Ha) pre).
Qed.

Lemma layer_pid h l ly pt : droppable h -> points_by_layer h !! l = Some ly -> pt ∈ ly ->
  (pt_pid pt).1 = l /\ valid h (pt_pid pt).
Proof.
  intros Hd Hly (r & Hr)%elem_of_list_lookup.
  assert (Hg : get_pt h (l, r) = Some pt) by (apply get_pt_lookup; eauto).
  rewrite (dr_pid _ Hd _ _ Hg). split; [done|by eexists].
Qed.

Lemma layer_guarded h l is_ : droppable h -> l <= get_max_level_observed h -> drop_layer h l is_ -> guarded h is_.
Proof.
  intros Hd Hl (ly & order & Hly & Ho & ->).
  assert (Hsub : forall p, p ∈ order -> p ∈ pt_pid <$> ly) by (intros p; by rewrite Ho).
  clear Ho. intros pre p post E.
  assert (Hp : p ∈ order /\ released post = pt_pid <$> ly).
  { revert pre E. clear Hsub. induction order as [|q order IH]; intros pre E.
    - destruct pre as [|? [|? ?]]; simplify_eq/=.
    - destruct pre as [|i pre]; csimpl in E; injection E as E0 E.
      + subst q. split; [left|]. subst post. rewrite released_app, released_clears. simpl. by rewrite app_nil_r.
      + destruct (IH _ E). split; [by right|done]. }
  destruct Hp as [Hp ->]. split; [by apply Hsub|].
  apply Hsub, elem_of_list_fmap in Hp as (pt & -> & Hpt). destruct (layer_pid h l ly pt Hd Hly Hpt) as [E1 Hv].
  split; [by apply slots_valid|lia].
Qed.

Lemma guarded_releases h ps qs : guarded h [Release ps; Release qs].
Proof. intros [|? [|? [|? ?]]] p post E; simplify_eq/=. Qed.
Lemma guarded_concat h layers : Forall (guarded h) layers -> guarded h (concat layers).
Proof.
  induction 1 as [|is_ layers Hg HF IH]; [intros [|? ?] p post E; done|]. simpl. by apply guarded_app.
Qed.

Lemma program_guarded h prog : droppable h -> drop_program h prog -> guarded h prog.
Proof.
  intros Hd (layers & HF & ->). 
  assert (Hg : guarded h (concat layers ++ [Release (pt_pid <$> concat (drop (S (get_max_level_observed h)) (points_by_layer h)))]
           ++ [Release (match entry_point h with Some ep => [ep] | None => [] end)])).
  { apply guarded_app; [|apply guarded_releases]. apply guarded_concat, Forall_forall. intros is_ (i & Hi)%elem_of_list_lookup.
    destruct (Forall2_lookup_r _ _ _ _ _ HF Hi) as (l & Hl & Hdl). apply lookup_seq in Hl as [-> Hlt].
    eapply (layer_guarded h); [done| |done]. simpl. lia. }
  destruct (entry_point h) as [ep|] eqn:Ee; [|exact Hg].
  intros [|i pre] p post E; simpl in E; injection E as E0 E; [|by eapply Hg].
  subst p post. split; [|split].
  - rewrite !released_app. apply elem_of_app. right. apply elem_of_app. right. simpl. left.
  - apply slots_valid; [done|]. by apply (dr_entry _ Hd).
  - unfold get_max_level_observed. by rewrite Ee.
Qed.

(** every point at the levels that the drop goes through is cleared *)
Lemma program_clears h prog p : droppable h -> drop_program h prog -> valid h p -> p.1 <= get_max_level_observed h ->
  Clear p ∈ prog.
Proof.
  intros Hd (layers & HF & ->) [pt Hpt] Hl. apply elem_of_app. right. apply elem_of_app. left.
  assert (Hs : seq 0 (S (get_max_level_observed h)) !! p.1 = Some p.1) by (apply lookup_seq; lia).
  destruct (Forall2_lookup_l _ _ _ _ _ HF Hs) as (is_ & Hi & (ly & order & Hly & Ho & ->)).
  apply elem_of_list_lookup_2 in Hi. apply elem_concat. eexists. split; [|exact Hi].
  apply elem_of_app. left. apply elem_of_list_fmap. exists p. split; [done|]. rewrite Ho.
  apply elem_of_list_fmap. exists pt. rewrite (dr_pid _ Hd _ _ Hpt). split; [done|].
  apply get_pt_lookup in Hpt as (ly' & Hly' & Hr). rewrite Hly in Hly'. injection Hly' as <-. by eapply elem_of_list_lookup_2.
Qed.

(** ** The invariant *)
Inductive loose h (held : list pid) : pid -> Prop :=
| Go p : p ∉ held -> (forall q, get_max_level_observed h < q.1 -> p ∈ links_of h q -> loose h held q) -> loose h held p.

Record dinv h held (s : dstate) : Prop := {
  i_count : forall p, count s p = occ p held + occ p (pending s) + occ p (concat (links s <$> slots h)) + occ p (released (todo s));
  i_links : forall q, q ∈ slots h ->
     (links s q = links_of h q /\ (Clear q ∈ todo s \/ get_max_level_observed h < q.1) /\ 0 < count s q) \/
     (links s q = [] /\ (q.1 <= get_max_level_observed h \/ count s q = 0));
  i_guard : guarded h (todo s);
  i_pend : forall p, p ∈ pending s -> p ∈ slots h;
  i_rel : forall p, p ∈ released (todo s) -> p ∈ slots h;
  i_go : forall p, p ∈ slots h -> count s p = 0 -> loose h held p
}.

Lemma dinv_start h held prog : droppable h -> drop_program h prog -> dinv h held (at_drop h held prog).
Proof.
  intros Hd Hp. pose proof (program_released _ _ Hp) as Er.
  assert (Hsl : forall p, p ∈ slots h -> 0 < count (at_drop h held prog) p).
  { intros p Hps. cbn [count at_drop]. fold (slots h). apply occ_in in Hps. lia. }
  split.
  - intros p. cbn [count pending links todo at_drop]. rewrite Er. fold (slots h) (entry_list h). rewrite occ_app, occ_nil. lia.
  - intros q Hq. left. cbn [links todo at_drop]. split; [done|]. split; [|by apply Hsl].
    destruct (decide (q.1 <= get_max_level_observed h)) as [Hl|Hl]; [left|right; lia].
    eapply program_clears; [done|done| |done]. by apply slots_valid.
  - by apply program_guarded.
  - intros p Hin. by apply elem_of_nil in Hin.
  - intros p. cbn [todo at_drop]. rewrite Er, elem_of_app. intros [H|H]; [done|]. unfold entry_list in H.
    destruct (entry_point h) as [ep|] eqn:Ee; [|by apply elem_of_nil in H].
    apply elem_of_list_singleton in H as ->. apply slots_valid; [done|]. by apply (dr_entry _ Hd).
  - intros p Hps H0. pose proof (Hsl _ Hps). lia.
Qed.

Lemma links_slots h held s q p : droppable h -> dinv h held s -> q ∈ slots h -> p ∈ links s q -> p ∈ slots h.
Proof.
  intros Hd Hi Hq Hp. destruct (i_links _ _ _ Hi _ Hq) as [(E & _)|(E & _)]; rewrite E in Hp.
  - apply slots_valid; [done|]. by eapply dr_links.
  - by apply elem_of_nil in Hp.
Qed.

(** a point that has just been freed could be let go *)
Lemma loose_freed h held (s : dstate) p : droppable h ->
  (forall p, count s p = occ p held + occ p (pending s) + occ p (concat (links s <$> slots h)) + occ p (released (todo s))) ->
  (forall q, q ∈ slots h -> get_max_level_observed h < q.1 -> links s q = links_of h q \/ loose h held q \/ p ∉ links_of h q) ->
  count s p = 0 -> loose h held p.
Proof.
  intros Hd Hc Hl H0. rewrite Hc in H0. constructor; [apply occ_out; lia|]. intros q Hq Hin.
  assert (Hqs : q ∈ slots h).
  { apply slots_valid; [done|]. unfold links_of in Hin. destruct (get_pt h q) eqn:E; [by eexists|by apply elem_of_nil in Hin]. }
  destruct (Hl q Hqs Hq) as [E|[?|?]]; [|done..]. exfalso. rewrite <- E in Hin.
  assert (Hx : p ∈ concat (links s <$> slots h)).
  { apply elem_concat. eexists. split; [exact Hin|]. apply elem_of_list_fmap. eauto. }
  apply occ_in in Hx. lia.
Qed.

Lemma dinv_step h held s s' : droppable h -> dinv h held s -> dstep s s' -> dinv h held s'.
Proof.
  intros Hd Hi Hs. pose proof (slots_nodup h Hd) as Hnd. destruct Hs as [c k xs p ys is_ n Ec|c k xs p ys is_ Ec|c k pend p is_|c k pend ps is_].
  - destruct Hi as [I1 I2 I3 I4 I5 I6]. cbn [count links pending todo] in *.
    assert (Hcp : forall q, upd c p (S n) q = c q - (if decide (p = q) then 1 else 0)).
    { intros q. unfold upd. destruct (decide (q = p)) as [->|N]; [rewrite decide_True by done; lia|].
      rewrite decide_False by (intros ->; done). lia. }
    split; cbn [count links pending todo]; auto.
    + intros q. rewrite Hcp, I1, !occ_app, occ_cons. destruct (decide (p = q)); lia.
    + intros q Hq. destruct (I2 q Hq) as [(? & ? & ?)|(? & ?)]; [left|right]; split_and?; auto.
      * unfold upd. destruct (decide (q = p)); lia.
      * destruct H0; [auto|]. right. unfold upd. destruct (decide (q = p)) as [->|]; [lia|done].
    + intros q Hq. apply I4. rewrite elem_of_app in Hq |- *. rewrite elem_of_cons. tauto.
    + intros q Hq. unfold upd. destruct (decide (q = p)); [done|]. by apply I6.
  - pose proof Hi as Hi0. destruct Hi as [I1 I2 I3 I4 I5 I6]. cbn [count links pending todo] in *.
    assert (Hps : p ∈ slots h) by (apply I4, elem_of_app; right; left).
    assert (Hcp : forall q, upd c p 0 q = c q - (if decide (p = q) then 1 else 0)).
    { intros q. unfold upd. destruct (decide (q = p)) as [->|N]; [rewrite decide_True by done; lia|].
      rewrite decide_False by (intros ->; done). lia. }
    assert (Hcount : forall q, upd c p 0 q = occ q held + occ q (xs ++ ys ++ k p) + occ q (concat (upd k p [] <$> slots h)) + occ q (released is_)).
    { intros q. rewrite Hcp, I1, !occ_app, occ_cons, (occ_upd q k p _ Hnd Hps). destruct (decide (p = q)); lia. }
    split; cbn [count links pending todo]; auto.
    + intros q Hq. unfold upd. destruct (decide (q = p)) as [->|N]; [right; auto|]. by apply I2.
    + intros q Hq. rewrite !elem_of_app in Hq. destruct Hq as [H|[H|H]].
      * apply I4, elem_of_app. by left.
      * apply I4, elem_of_app. right. by right.
      * by eapply (links_slots h held (DState c k (xs ++ p :: ys) is_)).
    + intros q Hq H0. destruct (decide (q = p)) as [->|N].
      * apply (loose_freed h held (DState (upd c p 0) (upd k p []) (xs ++ ys ++ k p) is_)); [done|done| |done].
        intros q Hq' Hlq. cbn [links]. unfold upd. destruct (decide (q = p)) as [->|N].
        -- destruct (I2 p Hq') as [(E & _ & Hpos)|(E & [?|?])]; [|lia|lia].
           right. right. rewrite <- E. apply occ_out. specialize (Hcount p). unfold upd at 1 in Hcount.
           rewrite decide_True in Hcount by done. rewrite !occ_app in Hcount. lia.
        -- rewrite decide_False by done. destruct (I2 q Hq') as [(E & _)|(E & [?|?])]; [by left|lia|]. right. left. by apply I6.
      * apply I6; [done|]. unfold upd in H0. by rewrite decide_False in H0.
  - pose proof Hi as Hi0. destruct Hi as [I1 I2 I3 I4 I5 I6]. cbn [count links pending todo] in *.
    destruct (I3 [] p is_ eq_refl) as (G1 & G2 & G3).
    assert (Hpos : 0 < c p).
    { rewrite I1. cbn [released]. change (released (Clear p :: is_)) with (released is_). apply occ_in in G1. lia. }
    split; cbn [count links pending todo]; auto.
    + intros q. rewrite I1, !occ_app, (occ_upd q k p _ Hnd G2). change (released (Clear p :: is_)) with (released is_). lia.
    + intros q Hq. unfold upd. destruct (decide (q = p)) as [->|N]; [right; auto|].
      destruct (I2 q Hq) as [(? & [Hc|?] & ?)|?]; [left|left|by right]; split_and?; auto.
      apply elem_of_cons in Hc as [E|Hc]; [by injection E|by left].
    + by eapply guarded_tail.
    + intros q [H|H]%elem_of_app; [auto|]. by eapply (links_slots h held (DState c k pend (Clear p :: is_))).
  - destruct Hi as [I1 I2 I3 I4 I5 I6]. cbn [count links pending todo] in *.
    change (released (Release ps :: is_)) with (ps ++ released is_) in *.
    split; cbn [count links pending todo]; auto.
    + intros q. rewrite I1, !occ_app. lia.
    + intros q Hq. destruct (I2 q Hq) as [(? & [Hc|?] & ?)|?]; [left|left|by right]; split_and?; auto.
      apply elem_of_cons in Hc as [E|Hc]; [discriminate E|by left].
    + by eapply guarded_tail.
    + intros q [H|H]%elem_of_app; [auto|]. apply I5, elem_of_app. by left.
    + intros q Hq. apply I5, elem_of_app. by right.
Qed.

Lemma dinv_run h held s s' : droppable h -> dinv h held s -> rtc dstep s s' -> dinv h held s'.
Proof. intros Hd Hi Hr. induction Hr; [done|]. by eauto using dinv_step. Qed.

(** no reference to a freed point is destroyed, and no freed point is cleared *)
Lemma dinv_pending h held s p : dinv h held s -> p ∈ pending s -> 0 < count s p.
Proof. intros Hi Hp. rewrite (i_count _ _ _ Hi). apply occ_in in Hp. lia. Qed.
Lemma dinv_clear h held s p rest : dinv h held s -> todo s = Clear p :: rest -> 0 < count s p.
Proof.
  intros Hi Ht. rewrite (i_count _ _ _ Hi). destruct (i_guard _ _ _ Hi [] p rest Ht) as (G & _).
  rewrite Ht. change (released (Clear p :: rest)) with (released rest). apply occ_in in G. lia.
Qed.

Lemma dinv_progress h held s : dinv h held s -> (pending s = [] /\ todo s = []) \/ exists s', dstep s s'.
Proof.
  intros Hi. destruct s as [c k pend is_]. destruct pend as [|p pend].
  - destruct is_ as [|[p|ps] is_]; [by left|right; eexists; constructor..].
  - right. pose proof (dinv_pending _ _ _ p Hi ltac:(left)) as Hp. cbn in Hp.
    destruct (c p) as [|[|n]] eqn:E; [lia| |].
    + eexists. by apply (d_last c k [] p pend).
    + eexists. by apply (d_shared c k [] p pend is_ n).
Qed.

Definition left_to_do h (s : dstate) : nat := length (pending s) + length (concat (links s <$> slots h)) + weight (todo s).
Lemma dstep_less h held s s' : droppable h -> dinv h held s -> dstep s s' -> S (left_to_do h s') = left_to_do h s.
Proof.
  intros Hd Hi Hs. pose proof (slots_nodup h Hd) as Hnd. unfold left_to_do, weight.
  destruct Hs as [c k xs p ys is_ n Ec|c k xs p ys is_ Ec|c k pend p is_|c k pend ps is_]; cbn [count links pending todo] in *.
  - rewrite !app_length. simpl. lia.
  - assert (Hps : p ∈ slots h) by (apply (i_pend _ _ _ Hi); cbn; apply elem_of_app; right; left).
    rewrite (length_upd k p _ Hnd Hps), !app_length. simpl. lia.
  - destruct (i_guard _ _ _ Hi [] p is_ eq_refl) as (_ & G & _).
    rewrite (length_upd k p _ Hnd G), !app_length. change (released (Clear p :: is_)) with (released is_). simpl. lia.
  - change (released (Release ps :: is_)) with (ps ++ released is_). rewrite !app_length. simpl. lia.
Qed.

Lemma dinv_sn h held s : droppable h -> dinv h held s -> sn dstep s.
Proof.
  intros Hd. remember (left_to_do h s) as n eqn:E. revert s E. induction n as [n IH] using lt_wf_ind. intros s -> Hi.
  constructor. intros s' Hs. pose proof (dstep_less _ _ _ _ Hd Hi Hs). eapply IH; [|reflexivity|by eapply dinv_step]. lia.
Qed.

(** a point of the levels gone through is freed with an empty list: its destructor does not run that of another point *)
Lemma dinv_shallow h held s p : dinv h held s -> p ∈ pending s -> count s p = 1 -> p.1 <= get_max_level_observed h -> links s p = [].
Proof.
  intros Hi Hp Hc Hl. pose proof (i_pend _ _ _ Hi _ Hp) as Hps.
  destruct (i_links _ _ _ Hi _ Hps) as [(E & [Hcl|?] & _)|[? _]]; [|lia|done].
  apply elem_of_list_split in Hcl as (pre & post & Et). destruct (i_guard _ _ _ Hi _ _ _ Et) as (G & _).
  rewrite (i_count _ _ _ Hi), Et, released_app, occ_app in Hc. change (released (Clear p :: post)) with (released post) in Hc.
  apply occ_in in G, Hp. lia.
Qed.

(** ** At the end *)
Lemma dinv_end h held s p : droppable h -> dinv h held s -> pending s = [] -> todo s = [] -> p ∈ slots h ->
  (count s p = 0 <-> loose h held p) /\ (p.1 <= get_max_level_observed h -> links s p = []) /\
  (get_max_level_observed h < p.1 -> count s p <> 0 -> links s p = links_of h p).
Proof.
  intros Hd Hi Ep Et Hps. split; [|split].
  - split; [by apply (i_go _ _ _ Hi)|]. intros Hg. revert Hps. induction Hg as [p Hh Hq IH]. intros Hps.
    rewrite (i_count _ _ _ Hi), Ep, Et. apply occ_out in Hh. change (released []) with (@nil pid). rewrite Hh, !occ_nil.
    enough (occ p (concat (links s <$> slots h)) = 0) by lia. apply occ_out. intros (l & Hpl & Hl)%elem_concat.
    apply elem_of_list_fmap in Hl as (q & -> & Hqs).
    destruct (i_links _ _ _ Hi _ Hqs) as [(E & [Hcl|Hlv] & Hpos)|[E _]].
    + rewrite Et in Hcl. by apply elem_of_nil in Hcl.
    + rewrite E in Hpl. specialize (IH q Hlv Hpl Hqs). lia.
    + rewrite E in Hpl. by apply elem_of_nil in Hpl.
  - intros Hl. destruct (i_links _ _ _ Hi _ Hps) as [(E & [Hcl|Hlv] & Hpos)|[E _]]; [|lia|done].
    rewrite Et in Hcl. by apply elem_of_nil in Hcl.
  - intros Hl Hn. destruct (i_links _ _ _ Hi _ Hps) as [(E & _)|[E [?|?]]]; [done|lia|done].
Qed.

(** there is a program for every index that has the layers it goes through *)
Lemma program_exists h : get_max_level_observed h < length (points_by_layer h) -> exists prog, drop_program h prog.
Proof.
  intros Hl. assert (Hx : exists layers, Forall2 (drop_layer h) (seq 0 (S (get_max_level_observed h))) layers).
  { assert (Hg : forall ls, (forall l, l ∈ ls -> l < length (points_by_layer h)) -> exists layers, Forall2 (drop_layer h) ls layers).
    { induction ls as [|l ls IH]; intros Hls; [by exists []|].
      destruct IH as [layers HF]; [intros ? ?; apply Hls; by right|].
      destruct (lookup_lt_is_Some_2 (points_by_layer h) l) as [ly Hly]; [apply Hls; left|].
      exists (((Clear <$> (pt_pid <$> ly)) ++ [Release (pt_pid <$> ly)]) :: layers). constructor; [|done]. by exists ly, (pt_pid <$> ly). }
    apply Hg. intros l ?%elem_of_seq. lia. }
  destruct Hx as [layers HF]. eexists. by exists layers.
Qed.
End DropProofs.
