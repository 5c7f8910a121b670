(** Iterators, the list of stored points, get_point_data. *)
From Verif Require Import Prelude Model Lib Table SearchProofs InsertProofs.

Lemma omap_fmap' {A B C} (f : B -> option C) (g : A -> B) (l : list A) : omap f (g <$> l) = omap (fun x => f (g x)) l.
Proof. induction l as [|x l IH]; csimpl; [done|]. destruct (f (g x)); [by f_equal|done]. Qed.

Local Arguments drop : simpl never.
Section Iter.
Context {T : Type}.
Implicit Types (h : hnsw (T:=T)) (p np ep : pid).

(** all stored points, by layer then rank *)
Definition all_points h : list (point (T:=T)) := concat (points_by_layer h).

Lemma concat_pids k (ls : list (list (point (T:=T)))) :
  omap (fun p : pid => ls !! (p.1 - k) ≫= fun ly => ly !! p.2) (pids_from k ls) = concat ls.
Proof.
  assert (Hseq : forall ly : list (point (T:=T)), omap (fun r => ly !! r) (seq 0 (length ly)) = ly).
  { intros ly. induction ly as [|x ly IH] using rev_ind; [done|].
    rewrite app_length, seq_app, omap_app. simpl. f_equal.
    - rewrite <- IH at 2. apply list_omap_ext. apply Forall2_same_length_lookup_2; [done|].
      intros i a b Ha Hb. rewrite Ha in Hb. injection Hb as <-.
      apply lookup_seq in Ha as [-> Ha]. simpl. by rewrite lookup_app_l.
    - by rewrite lookup_app_r, Nat.sub_diag by lia. }
  revert k. induction ls as [|ly ls IH]; intros k; simpl; [done|].
  rewrite omap_app. f_equal.
  - rewrite <- (Hseq ly) at 2. rewrite omap_fmap'. apply list_omap_ext.
    apply Forall2_same_length_lookup_2; [done|]. intros i a b Ha Hb. rewrite Ha in Hb. injection Hb as <-.
    simpl. rewrite Nat.sub_diag. done.
  - rewrite <- (IH (S k)). apply list_omap_ext.
    apply Forall2_same_length_lookup_2; [done|]. intros i a b Ha Hb. rewrite Ha in Hb. injection Hb as <-.
    apply elem_of_list_lookup_2, elem_of_pids_from in Ha as [Hle _].
    replace (a.1 - k) with (S (a.1 - S k)) by lia. done.
Qed.

Lemma all_points_pids h : all_points h = omap (get_pt h) (pids_from 0 (points_by_layer h)).
Proof.
  unfold all_points. rewrite <- (concat_pids 0). apply list_omap_ext.
  apply Forall2_same_length_lookup_2; [done|]. intros i a b Ha Hb. rewrite Ha in Hb. injection Hb as <-.
  unfold get_pt. by rewrite Nat.sub_0_r.
Qed.

Lemma all_points_length h : length (all_points h) = table_size h.
Proof.
  unfold all_points, table_size. induction (points_by_layer h) as [|ly ls IH]; [done|].
  simpl. by rewrite app_length, IH.
Qed.

Lemma elem_of_all_points h pt : pt ∈ all_points h <-> exists p, get_pt h p = Some pt.
Proof.
  rewrite all_points_pids, elem_of_list_omap. split.
  - intros (p & _ & ?). eauto.
  - intros (p & Hp). exists p. split; [|done]. apply elem_of_pids. by exists pt.
Qed.

(** what was given at insertion *)
Definition stored h : list (list T * dataid) := (fun pt => (pt_data pt, pt_oid pt)) <$> all_points h.

Lemma stored_static h : stored h = omap (fun p => fst <$> static h p) (pids_from 0 (points_by_layer h)).
Proof.
  unfold stored. rewrite all_points_pids.
  induction (pids_from 0 (points_by_layer h)) as [|p ps IH]; [done|].
  csimpl. unfold static. destruct (get_pt h p) as [pt|]; csimpl; [|done]. by f_equal.
Qed.

Lemma stored_insert h h' np data oid :
  get_pt h np = None -> static h' np = Some (data, oid, np) ->
  (forall p, p <> np -> static h' p = static h p) ->
  stored h' ≡ₚ stored h ++ [(data, oid)].
Proof.
  intros Hn Hs Ho. rewrite !stored_static.
  assert (Hv : forall p, valid h' p <-> p = np \/ valid h p).
  { intros p. destruct (decide (p = np)) as [->|Hne].
    - split; [by left|]. intros _. unfold valid. unfold static in Hs.
      destruct (get_pt h' np); [by eexists|done].
    - specialize (Ho p Hne). unfold valid, static in *.
      destruct (get_pt h p), (get_pt h' p); simpl in Ho; try done;
        (split; [intros [? ?]; try done; right; by eexists | intros [?|[? ?]]; try done; by eexists]). }
  assert (Hp : pids_from 0 (points_by_layer h') ≡ₚ np :: pids_from 0 (points_by_layer h)).
  { apply NoDup_Permutation.
    - apply NoDup_pids_from.
    - constructor; [|apply NoDup_pids_from]. rewrite elem_of_pids. unfold valid. rewrite Hn. by intros [? ?].
    - intros p. rewrite elem_of_cons, !elem_of_pids. apply Hv. }
  rewrite Hp. csimpl. rewrite Hs. simpl. rewrite Permutation_app_comm. simpl. f_equiv.
  assert (Hnin : np ∉ pids_from 0 (points_by_layer h)).
  { rewrite elem_of_pids. unfold valid. rewrite Hn. by intros [? ?]. }
  revert Hnin. generalize (pids_from 0 (points_by_layer h)). intros ps Hnin.
  match goal with |- ?a ≡ₚ ?b => replace a with b; [done|] end. apply list_omap_ext.
  apply Forall2_same_length_lookup_2; [done|]. intros i a b Ha Hb. rewrite Ha in Hb. injection Hb as <-.
  rewrite Ho; [done|]. intros ->. apply Hnin. by eapply elem_of_list_lookup_2.
Qed.

(** ** IterPoint *)
Lemma skip_empty_spec fuel h epl l :
  (epl < length (points_by_layer h))%nat -> (length (points_by_layer h) - l <= fuel)%nat ->
  exists l', skip_empty fuel h epl l = Ok l' /\ (l <= l')%nat /\
    (forall j ly, (l <= j < l')%nat -> (j <= epl)%nat -> points_by_layer h !! j = Some ly -> ly = []) /\
    ((l' <= epl)%nat -> exists pt ly, points_by_layer h !! l' = Some (pt :: ly)) /\
    (l' <= Nat.max l (S epl))%nat.
Proof.
  intros Hep. revert l. induction fuel as [|fuel IH]; intros l Hf; simpl.
  - destruct (Nat.leb_spec l epl) as [Hl|Hl]; [lia|].
    exists l. split_and!; auto; intros; lia.
  - destruct (Nat.leb_spec l epl) as [Hl|Hl].
    2: { exists l. split_and!; auto; intros; lia. }
    destruct (lookup_lt_is_Some_2 (points_by_layer h) l) as [ly Hly]; [lia|].
    rewrite Hly. simpl. destruct ly as [|pt ly].
    + destruct (IH (S l)) as (l' & -> & Hle & Hemp & Hne & Hmax); [lia|].
      exists l'. split_and!; auto; [lia| |lia].
      intros j ly Hj Hje Hlj. destruct (decide (j = l)) as [->|?]; [congruence|].
      eapply Hemp; [|done|done]. lia.
    + exists l. split_and!; auto; [intros; lia| |lia]. intros _. eauto.
Qed.

Lemma concat_drop_skip (ls : list (list (point (T:=T)))) l l' :
  (l <= l')%nat -> (forall j ly, (l <= j < l')%nat -> ls !! j = Some ly -> ly = []) ->
  concat (drop l ls) = concat (drop l' ls).
Proof.
  intros Hle He. induction Hle as [|l' Hle IH]; [done|].
  rewrite IH by (intros; eapply He; [|done]; lia).
  destruct (ls !! l') as [ly|] eqn:E.
  - rewrite (drop_S _ _ _ E). simpl. rewrite (He l' ly); [done|lia|done].
  - apply lookup_ge_None in E. rewrite !drop_ge by lia. done.
Qed.

Lemma iter_collect_spec fuel h ep st l s ly :
  entry_point h = Some ep -> (ep.1 < length (points_by_layer h))%nat ->
  (forall j lj, (ep.1 < j)%nat -> points_by_layer h !! j = Some lj -> lj = []) ->
  (match st with None => (0, 0) | Some x => x end) = (l, s) ->
  (l <= ep.1)%nat -> points_by_layer h !! l = Some ly ->
  (length (drop s ly) + length (concat (drop (S l) (points_by_layer h))) < fuel)%nat ->
  iter_collect fuel h st = Ok (drop s ly ++ concat (drop (S l) (points_by_layer h))).
Proof.
  intros Hep Hepl Habove. revert st l s ly. induction fuel as [|fuel IH]; intros st l s ly Hst Hl Hly Hf; [lia|].
  cbn [iter_collect]. unfold iter_next. rewrite Hst, Hly. simpl.
  destruct (ly !! s) as [pt|] eqn:Es.
  - rewrite bind_Ok. rewrite (drop_S _ _ _ Es) in *. simpl in Hf.
    by rewrite (IH (Some (l, S s)) l (S s) ly) by (done || lia).
  - rewrite Hep. simpl.
    destruct (skip_empty_spec (length (points_by_layer h)) h ep.1 (S l) Hepl ltac:(lia))
      as (l' & -> & Hle & Hemp & Hne & Hmax).
    rewrite bind_Ok. apply lookup_ge_None in Es. rewrite drop_ge in * by done. simpl in *.
    destruct (Nat.leb_spec l' ep.1) as [Hl'|Hl'].
    + destruct (Hne Hl') as (pt & ly' & Hly'). rewrite Hly'. simpl.
      assert (E : concat (drop (S l) (points_by_layer h)) = concat (drop l' (points_by_layer h))).
      { apply concat_drop_skip; [done|]. intros j lj Hj Hlj. eapply Hemp; [done|lia|done]. }
      rewrite E in Hf |- *.
      rewrite (drop_S _ _ _ Hly') in Hf |- *. simpl in Hf. rewrite app_length in Hf.
      rewrite (IH (Some (l', 1)) l' 1 (pt :: ly')) by (try done; change (drop 1 (pt :: ly')) with ly'; lia). done.
    + simpl. f_equal. rewrite (concat_drop_skip _ (S l) (S (length (points_by_layer h)))).
      * by rewrite drop_ge by lia.
      * lia.
      * intros j lj Hj Hlj. destruct (decide (j <= ep.1)%nat) as [?|?].
        -- eapply (Hemp j); [lia|done|done].
        -- eapply Habove; [|done]. lia.
Qed.

Lemma iter_points_spec dist h ep :
  wf dist h -> entry_point h = Some ep -> iter_points h = Ok (all_points h).
Proof.
  intros [Hc Hcnt Hent] Hep. rewrite Hep in Hent. destruct Hent as [Hv Hmax].
  destruct (core_layer dist h ep Hc Hv) as [Hl _].
  assert (Hlen : (ep.1 < length (points_by_layer h))%nat) by (by rewrite (c_len _ _ Hc)).
  destruct (lookup_lt_is_Some_2 (points_by_layer h) 0) as [ly Hly]; [lia|].
  unfold iter_points. rewrite (iter_collect_spec _ h ep None 0 0 ly); auto.
  - unfold all_points. destruct (points_by_layer h) as [|ly0 ls]; [done|].
    injection Hly as ->. done.
  - intros j lj Hj Hlj. destruct lj as [|pt lj]; [done|].
    assert (Hvj : valid h (j, 0)). { exists pt. apply get_pt_lookup. eauto. }
    apply Hmax in Hvj. simpl in Hvj. lia.
  - lia.
  - rewrite <- all_points_length. unfold all_points.
    destruct (points_by_layer h) as [|ly0 ls]; [done|]. injection Hly as ->.
    simpl. rewrite app_length. unfold drop. lia.
Qed.

(** ** IterPointLayer *)
Lemma skip_empty_range fuel h epl l l' : skip_empty fuel h epl l = Ok l' -> (l <= l')%nat.
Proof.
  revert l. induction fuel as [|fuel IH]; intros l; simpl; destruct (l <=? epl)%nat; try (intros [= <-]; lia);
    destruct (points_by_layer h !! l) as [[|? ?]|]; try done; try (intros [= <-]; lia).
  intros H%IH. lia.
Qed.

Lemma iter_collect_length fuel h st pts l s :
  iter_collect fuel h st = Ok pts -> (match st with None => (0, 0) | Some x => x end) = (l, s) ->
  exists ep ly, entry_point h = Some ep /\ points_by_layer h !! l = Some ly /\
  (length pts <= length (drop s ly) + length (concat (take (ep.1 - l) (drop (S l) (points_by_layer h)))))%nat.
Proof.
  revert st pts l s. induction fuel as [|fuel IH]; intros st pts l s H Hst; [done|].
  cbn [iter_collect] in H. unfold iter_next in H. rewrite Hst in H.
  destruct (points_by_layer h !! l) as [ly|] eqn:El; [|done]. cbn [unwrap mbind outcome_bind] in H.
  destruct (ly !! s) as [pt|] eqn:Es.
  - cbn [mbind outcome_bind] in H. destruct (iter_collect fuel h (Some (l, S s))) as [rest| | | | |] eqn:E; try done.
    injection H as <-. destruct (IH _ _ _ _ E eq_refl) as (ep & ly' & H1 & H2 & H3).
    rewrite El in H2. injection H2 as <-. exists ep, ly. split_and!; auto. rewrite (drop_S _ _ _ Es). simpl. lia.
  - destruct (entry_point h) as [ep|] eqn:Eep; [|done]. cbn [unwrap mbind outcome_bind] in H.
    destruct (skip_empty _ h ep.1 (S l)) as [l'| | | | |] eqn:Ek; try done. cbn [mbind outcome_bind] in H.
    apply skip_empty_range in Ek. exists ep, ly. split_and!; auto.
    destruct (Nat.leb_spec l' ep.1) as [Hl|Hl].
    + destruct (points_by_layer h !! l') as [ly'|] eqn:El'; [|done]. cbn [unwrap mbind outcome_bind] in H.
      destruct ly' as [|pt ly']; [done|]. cbn in H.
      destruct (iter_collect fuel h (Some (l', 1))) as [rest| | | | |] eqn:E; try done.
      injection H as <-. destruct (IH _ _ _ _ E eq_refl) as (ep' & ly2 & H1 & H2 & H3).
      injection H1 as <-. rewrite El' in H2. injection H2 as <-. cbn [length].
      change (drop 1 (pt :: ly')) with ly' in H3.
      assert (Ed : drop (S l) (points_by_layer h) =
        take (l' - S l) (drop (S l) (points_by_layer h)) ++ (pt :: ly') :: drop (S l') (points_by_layer h)).
      { rewrite <- (drop_S _ _ _ El'). replace l' with (S l + (l' - S l))%nat at 2 by lia.
        rewrite <- drop_drop. by rewrite take_drop. }
      rewrite Ed. rewrite firstn_app, take_length, !drop_length.
      assert (l' < length (points_by_layer h))%nat by (by eapply lookup_lt_Some).
      rewrite Nat.min_l by lia. rewrite concat_app, app_length.
      replace (ep.1 - l - (l' - S l))%nat with (S (ep.1 - l'))%nat by lia. cbn [take concat]. rewrite app_length. cbn [length]. lia.
    + injection H as <-. simpl. lia.
Qed.

Lemma iter_points_all h pts : iter_points h = Ok pts -> length pts = table_size h ->
  exists ep, entry_point h = Some ep /\ forall p, valid h p -> (p.1 <= ep.1)%nat.
Proof.
  intros H Hl. destruct (iter_collect_length _ _ _ _ 0 0 H eq_refl) as (ep & ly & H1 & H2 & H3).
  exists ep. split; [done|]. intros p [pt Hp]. destruct (decide (p.1 <= ep.1)%nat) as [|Hn]; [done|]. exfalso.
  rewrite <- all_points_length in Hl. unfold all_points in Hl.
  apply get_pt_lookup in Hp as (lp & Hlp & Hs).
  destruct (points_by_layer h) as [|ly0 ls]; [done|]. injection H2 as ->.
  rewrite Nat.sub_0_r in H3. change (drop 0 ly) with ly in H3. change (drop 1 (ly :: ls)) with ls in H3. cbn [concat] in *. rewrite app_length in Hl.
  assert (Hd : length (concat (drop ep.1 ls)) = 0%nat).
  { rewrite <- (take_drop ep.1 ls) in Hl at 1. rewrite concat_app, app_length in Hl. lia. }
  apply nil_length_inv in Hd. destruct p as [l r]; cbn [fst snd] in *. destruct l as [|l]; [lia|]. cbn in Hlp.
  assert (Hin : lp ∈ drop ep.1 ls).
  { apply elem_of_list_lookup. exists (l - ep.1)%nat. rewrite lookup_drop. by replace (ep.1 + (l - ep.1))%nat with l by lia. }
  apply elem_of_list_lookup_2 in Hs.
  assert (Hc : pt ∈ concat (drop ep.1 ls)) by (apply elem_of_list_In, in_concat; exists lp; rewrite <- !elem_of_list_In; done).
  rewrite Hd in Hc. by apply elem_of_nil in Hc.
Qed.
Lemma layer_collect_spec fuel h l s ly :
  points_by_layer h !! l = Some ly -> (length (drop s ly) < fuel)%nat ->
  layer_collect fuel h l s = Ok (drop s ly).
Proof.
  intros Hly. revert s. induction fuel as [|fuel IH]; intros s Hf; [lia|].
  cbn [layer_collect]. unfold layer_next. rewrite Hly. simpl.
  destruct (ly !! s) as [pt|] eqn:Es.
  - rewrite bind_Ok. rewrite (drop_S _ _ _ Es) in *. simpl in Hf. rewrite IH by lia. done.
  - rewrite bind_Ok. apply lookup_ge_None in Es. by rewrite drop_ge.
Qed.

Lemma layer_length_le h l ly : points_by_layer h !! l = Some ly -> (length ly <= table_size h)%nat.
Proof.
  unfold table_size. revert l. induction (points_by_layer h) as [|ly0 ls IH]; intros l Hl; [done|].
  destruct l as [|l]; csimpl in *; [injection Hl as ->; lia|]. apply IH in Hl. lia.
Qed.

Lemma iter_layer_spec h l :
  iter_layer h l = match points_by_layer h !! l with Some ly => Ok ly | None => Panic end.
Proof.
  unfold iter_layer. destruct (points_by_layer h !! l) as [ly|] eqn:E.
  - rewrite (layer_collect_spec _ h l 0 ly E); [done|].
    pose proof (layer_length_le h l ly E). unfold drop. lia.
  - cbn [layer_collect]. unfold layer_next. by rewrite E.
Qed.

(** ** get_point_data *)
Lemma get_point_data_spec dist h l (r : Z) :
  wf dist h ->
  get_point_data h l r = Ok (if (r <? 0)%Z then None else pt_data <$> get_pt h (l, Z.to_nat r)).
Proof.
  intros [Hc Hcnt Hent]. unfold get_point_data. destruct (r <? 0)%Z; [done|].
  unfold get_max_level_observed, get_layer_nb_point, get_pt. simpl.
  destruct (points_by_layer h !! l) as [ly|] eqn:Ely; simpl.
  2: { rewrite andb_comm. simpl. destruct (Z.to_nat r <? 0)%nat eqn:E; [|done]. apply Nat.ltb_lt in E. lia. }
  destruct (ly !! Z.to_nat r) as [pt|] eqn:Er; simpl.
  - assert (Hvp : valid h (l, Z.to_nat r)). { exists pt. apply get_pt_lookup. eauto. }
    destruct (entry_point h) as [ep|].
    + destruct Hent as [_ Hmax]. apply Hmax in Hvp. simpl in Hvp.
      apply lookup_lt_Some in Er as Hlt.
      rewrite (proj2 (Nat.leb_le _ _) Hvp), (proj2 (Nat.ltb_lt _ _) Hlt). cbn. rewrite ?Er. done.
    + by apply table_size_0_valid in Hvp.
  - apply lookup_ge_None in Er.
    replace (Z.to_nat r <? length ly)%nat with false by (symmetry; apply Nat.ltb_ge; lia).
    by rewrite andb_false_r.
Qed.

End Iter.
