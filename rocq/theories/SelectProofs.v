(** select_neighbours and the heap sign change. *)
From Verif Require Import Prelude Model Lib Table SearchProofs.

Section Select.
Context {T : Type} (dist : list T -> list T -> Z) (so : StdOps).
Context (LAWS : StdLaws so) (Hnn : forall a b, (0 <= dist a b)%Z).
Context (h : hnsw (T:=T)) (q : list T) (Sset : pid -> Prop).

Definition negn (n : nbr) : nbr := Nbr (n_pid n) (- n_dist n).

Lemma negn_pid (l : list nbr) : n_pid <$> (negn <$> l) = n_pid <$> l.
Proof. rewrite <- list_fmap_compose. apply list_fmap_ext. done. Qed.

Lemma negn_elt_cand n : elt_ok dist h q n -> cand_ok dist h q (negn n).
Proof. intros (pt & ? & E). exists pt. simpl. split; [done|]. lia. Qed.
Lemma negn_cand_elt n : cand_ok dist h q n -> elt_ok dist h q (negn n).
Proof. intros (pt & ? & E). exists pt. simpl. split; [done|]. lia. Qed.

Lemma from_pos_spec hp :
  Forall (elt_ok dist h q) (h_iter so hp) ->
  exists neg, from_positive_to_negative so hp = Ok neg /\
    h_iter so neg ≡ₚ negn <$> h_iter so hp.
Proof.
  intros Hf. unfold from_positive_to_negative.
  assert (H : forall l acc, Forall (elt_ok dist h q) l ->
    exists neg, foldl (fun acc p =>
           neg ← acc;
           _ ← assert_ (0 <=? n_dist p)%Z;
           Ok (h_push so (Nbr (n_pid p) (- n_dist p)) neg)) (Ok acc) l = Ok neg /\
      h_iter so neg ≡ₚ (negn <$> l) ++ h_iter so acc).
  { induction l as [|x l IH]; intros acc Hl; simpl; [by exists acc|].
    inversion Hl as [|? ? (pt & _ & Hd) Hl']; subst.
    pose proof (Hnn q (pt_data pt)).
    rewrite (assert_true (0 <=? n_dist x)%Z) by lia. simpl.
    destruct (IH (h_push so (Nbr (n_pid x) (- n_dist x)) acc) Hl') as (neg & -> & Hp).
    exists neg. split; [done|]. rewrite Hp, (law_push _ LAWS).
    rewrite <- Permutation_middle. done. }
  destruct (H (h_iter so hp) (h_empty so) Hf) as (neg & E & Hp).
  exists neg. split; [done|]. by rewrite (law_iter_empty _ LAWS), app_nil_r in Hp.
Qed.

Lemma transfer_spec fuel cand acc :
  Forall (cand_ok dist h q) (h_iter so cand) -> (h_len so cand <= fuel)%nat ->
  exists nv, transfer so fuel cand acc = Ok nv /\ nv ≡ₚ acc ++ (negn <$> h_iter so cand).
Proof.
  revert cand acc. induction fuel as [|fuel IH]; intros cand acc Hc Hlen; simpl.
  - rewrite h_pop_0 by (auto; lia). exists acc. split; [done|].
    rewrite (h_len_0 so cand) by lia. by rewrite app_nil_r.
  - destruct (h_pop so cand) as [[p cand']|] eqn:E.
    + destruct (law_pop_some _ LAWS _ _ _ E) as [Hp _].
      rewrite Hp in Hc. inversion Hc as [|? ? (pt & _ & Hd) Hc']; subst.
      pose proof (Hnn q (pt_data pt)).
      rewrite (assert_true (0 <=? - n_dist p)%Z) by lia. simpl.
      destruct (IH cand' (acc ++ [Nbr (n_pid p) (- n_dist p)])) as (nv & -> & Hnv); [done|..].
      { rewrite (h_len_pop so LAWS _ _ _ E) in Hlen. lia. }
      exists nv. split; [done|]. rewrite Hnv, Hp. simpl. rewrite <- app_assoc. done.
    + apply (law_pop_none _ LAWS) in E. exists acc. split; [done|]. by rewrite E, app_nil_r.
Qed.

Lemma add_new_spec cset nbs acc :
  NoDup acc -> (forall p, p ∈ acc -> p ∉ cset) ->
  NoDup (add_new_candidates cset nbs acc) /\
  (forall p, p ∈ add_new_candidates cset nbs acc ->
      p ∉ cset /\ (p ∈ acc \/ exists n, n ∈ nbs /\ n_pid n = p)).
Proof.
  revert acc. induction nbs as [|n nbs IH]; intros acc Hnd Hd; simpl.
  - split; [done|]. intros p Hp. split; [by apply Hd|by left].
  - destruct (bool_decide (n_pid n ∈ cset)) eqn:E1; simpl.
    { destruct (IH acc Hnd Hd) as [H1 H2]. split; [done|]. intros p Hp.
      destruct (H2 p Hp) as [? [?|(m & ? & ?)]]; split; auto. right. exists m. split; [by right|done]. }
    destruct (bool_decide (n_pid n ∈ acc)) eqn:E2; simpl.
    { destruct (IH acc Hnd Hd) as [H1 H2]. split; [done|]. intros p Hp.
      destruct (H2 p Hp) as [? [?|(m & ? & ?)]]; split; auto. right. exists m. split; [by right|done]. }
    apply bool_decide_eq_false in E1, E2.
    destruct (IH (n_pid n :: acc)) as [H1 H2].
    { by constructor. }
    { intros p [->|Hp]%elem_of_cons; auto. }
    split; [done|]. intros p Hp. destruct (H2 p Hp) as [? Hc]. split; [done|].
    destruct Hc as [[->|Hc]%elem_of_cons|(m & ? & ?)].
    + right. exists n. split; [left|done].
    + by left.
    + right. exists m. split; [by right|done].
Qed.

Lemma collect_spec layer cset todo acc :
  links_ok h layer Sset ->
  Forall (fun p => valid h p /\ Sset p) todo ->
  NoDup acc -> (forall p, p ∈ acc -> p ∉ cset) -> Forall (fun p => valid h p /\ Sset p) acc ->
  exists news, collect_new_candidates h layer cset todo acc = Ok news /\
    NoDup news /\ (forall p, p ∈ news -> p ∉ cset) /\ Forall (fun p => valid h p /\ Sset p) news.
Proof.
  intros Hl. revert acc. induction todo as [|p todo IH]; intros acc Ht Hnd Hd Ha; simpl.
  - exists acc. done.
  - inversion Ht as [|? ? [[pt Hpt] HS] Ht']; subst.
    rewrite Hpt. simpl. destruct (Hl p pt HS Hpt) as (nbs & Hnbs & Hin). rewrite Hnbs. simpl.
    destruct (add_new_spec cset nbs acc Hnd Hd) as [H1 H2].
    apply IH; auto.
    + intros p' Hp'. by apply H2.
    + rewrite Forall_forall. intros p' Hp'. destruct (H2 p' Hp') as [_ [Hp|(n & Hn & <-)]]; auto.
      rewrite Forall_forall in Ha. auto.
Qed.

Lemma push_candidates_spec ps cand :
  Forall (valid h) ps -> Forall (cand_ok dist h q) (h_iter so cand) ->
  exists cand', push_candidates dist so h q ps cand = Ok cand' /\
    Forall (cand_ok dist h q) (h_iter so cand') /\
    n_pid <$> h_iter so cand' ≡ₚ ps ++ (n_pid <$> h_iter so cand).
Proof.
  revert cand. induction ps as [|p ps IH]; intros cand Hv Hc; simpl.
  - exists cand. done.
  - inversion Hv as [|? ? [pt Hpt] Hv']; subst. rewrite Hpt. simpl.
    destruct (IH (h_push so (Nbr p (- dist q (pt_data pt))) cand)) as (cand' & -> & Hc' & Hp); [done|..].
    { rewrite (law_push _ LAWS). constructor; [|done]. exists pt. done. }
    exists cand'. split; [done|]. split; [done|].
    rewrite Hp, (law_push _ LAWS). simpl. by rewrite Permutation_middle.
Qed.

Definition cands_good (l : list nbr) : Prop :=
  Forall (cand_ok dist h q) l /\ NoDup (n_pid <$> l) /\ Forall (fun n => Sset (n_pid n)) l.

Lemma extend_spec layer cand :
  links_ok h layer Sset -> cands_good (h_iter so cand) ->
  exists cand', extend_cands dist so h q layer cand = Ok cand' /\ cands_good (h_iter so cand').
Proof.
  intros Hl (Hc & Hnd & HS). unfold extend_cands.
  set (cset := remove_dups (n_pid <$> h_iter so cand)).
  assert (Hcs : Forall (fun p => valid h p /\ Sset p) cset).
  { rewrite Forall_forall. intros p Hp. unfold cset in Hp.
    apply elem_of_remove_dups, elem_of_list_fmap in Hp as (n & -> & Hn).
    rewrite Forall_forall in Hc, HS. destruct (Hc n Hn) as (pt & Hpt & _). split; [by exists pt|auto]. }
  destruct (collect_spec layer cset (m_iter so pid cset) []) as (news & -> & Hnd' & Hd & Hv); auto.
  { by rewrite (law_miter _ LAWS). }
  { constructor. }
  { by intros p ?%elem_of_nil. }
  rewrite bind_Ok.
  destruct (push_candidates_spec (m_iter so pid news) cand) as (cand' & -> & Hc' & Hp); auto.
  { rewrite (law_miter _ LAWS). eapply Forall_impl; [done|]. by intros ? [? ?]. }
  exists cand'. split; [done|]. split; [done|].
  rewrite (law_miter _ LAWS) in Hp. split.
  - rewrite Hp. apply NoDup_app. split_and!; auto.
    intros p Hp1 Hp2. apply (Hd p Hp1). unfold cset. by apply elem_of_remove_dups.
  - apply Forall_fmap. change (Forall Sset (n_pid <$> h_iter so cand')). rewrite Hp.
    apply Forall_app. split.
    + eapply Forall_impl; [exact Hv|]. by intros ? [? ?].
    + by apply Forall_fmap.
Qed.

Lemma dominated_ok ev bound nv :
  Forall (elt_ok dist h q) nv -> is_ok (dominated dist h ev bound nv).
Proof.
  induction 1 as [|n nv (pt & Hpt & _) _ IH]; simpl; [by eexists|].
  rewrite Hpt. simpl. destruct (_ <=? _)%Z; [by eexists|done].
Qed.

Definition sel_good (nv cand disc : list nbr) : Prop :=
  Forall (elt_ok dist h q) nv /\ Forall (cand_ok dist h q) cand /\ Forall (cand_ok dist h q) disc /\
  NoDup ((n_pid <$> nv) ++ (n_pid <$> cand) ++ (n_pid <$> disc)) /\
  Forall (fun n => Sset (n_pid n)) (nv ++ cand ++ disc).

Lemma sel_good_perm nv nv' cand cand' disc disc' :
  nv ≡ₚ nv' -> cand ≡ₚ cand' -> disc ≡ₚ disc' -> sel_good nv cand disc -> sel_good nv' cand' disc'.
Proof. unfold sel_good. intros -> -> ->. done. Qed.

Lemma sel_move_nv nv e cand disc :
  sel_good nv (e :: cand) disc -> sel_good (nv ++ [negn e]) cand disc.
Proof.
  intros (H1 & H2 & H3 & H4 & H5). inversion H2; subst. split_and!; auto.
  - apply Forall_app. split; [done|]. constructor; [by apply negn_cand_elt|constructor].
  - rewrite fmap_app, <- app_assoc. done.
  - rewrite <- app_assoc. simpl in *. rewrite Forall_app in *. destruct H5 as [? H5]. split; [done|].
    inversion H5; subst. constructor; done.
Qed.

Lemma sel_move_disc nv e cand disc :
  sel_good nv (e :: cand) disc -> sel_good nv cand (e :: disc).
Proof.
  intros (H1 & H2 & H3 & H4 & H5). inversion H2; subst. split_and!; auto.
  - simpl in *. rewrite <- Permutation_middle. done.
  - simpl in *. rewrite <- Permutation_middle. done.
Qed.

Lemma sel_drop nv e cand disc :
  sel_good nv (e :: cand) disc -> sel_good nv cand disc.
Proof.
  intros (H1 & H2 & H3 & H4 & H5). inversion H2; subst. split_and!; auto.
  - simpl in *. rewrite <- Permutation_middle in H4. by inversion H4.
  - simpl in *. rewrite <- Permutation_middle in H5. by inversion H5.
Qed.

Lemma select_loop_spec fuel asked keep cand nv disc :
  sel_good nv (h_iter so cand) (h_iter so disc) -> (length nv <= asked)%nat ->
  (h_len so cand <= fuel)%nat ->
  exists nv' disc', select_loop dist so fuel h asked keep cand nv disc = Ok (nv', disc') /\
    sel_good nv' [] (h_iter so disc') /\ (length nv' <= asked)%nat.
Proof.
  assert (Hweak : forall nv c d, sel_good nv c d -> sel_good nv [] d).
  { intros nv0 c d Hg. induction c as [|x c IH]; [done|]. apply IH. by eapply sel_drop. }
  revert cand nv disc. induction fuel as [|fuel IH]; intros cand nv disc Hg Hlen Hf; simpl.
  - destruct (_ <? _)%nat eqn:El.
    + rewrite h_pop_0 by (auto; lia). exists nv, disc. split_and!; auto. by eapply Hweak.
    + exists nv, disc. split_and!; auto. by eapply Hweak.
  - destruct (Nat.ltb_spec (length nv) asked) as [El|El].
    2: { exists nv, disc. split_and!; auto. by eapply Hweak. }
    destruct (h_pop so cand) as [[e cand']|] eqn:E.
    2: { exists nv, disc. split_and!; auto. by eapply Hweak. }
    destruct (law_pop_some _ LAWS _ _ _ E) as [Hp _].
    apply (sel_good_perm nv nv _ _ (h_iter so disc) (h_iter so disc)) in Hp as Hg'; try done.
    pose proof Hg' as (_ & Hc & _). inversion Hc as [|? ? (pt & Hpt & Hd) _]; subst.
    rewrite Hpt. simpl. pose proof (Hnn q (pt_data pt)).
    rewrite (assert_true (n_dist e <=? 0)%Z) by lia. simpl.
    destruct (dominated_ok (pt_data pt) (- n_dist e) nv) as [dom ->]; [by destruct Hg|]. simpl.
    assert (Hf' : (h_len so cand' <= fuel)%nat).
    { rewrite (h_len_pop so LAWS _ _ _ E) in Hf. lia. }
    destruct dom.
    + apply IH; auto. destruct keep.
      * eapply sel_good_perm; [done|done| |by apply sel_move_disc].
        rewrite (law_push _ LAWS). by destruct e.
      * by eapply sel_drop.
    + apply IH; auto; [by apply sel_move_nv|]. rewrite app_length. simpl. lia.
Qed.

Definition elts_good (nv : list nbr) : Prop :=
  Forall (elt_ok dist h q) nv /\ NoDup (n_pid <$> nv) /\ Forall (fun n => Sset (n_pid n)) nv.

Lemma sel_elts nv disc : sel_good nv [] disc -> elts_good nv.
Proof.
  intros (H1 & _ & _ & H4 & H5). split_and!; auto.
  - by apply NoDup_app in H4 as [? _].
  - by apply Forall_app in H5 as [? _].
Qed.

Lemma keep_loop_spec fuel asked nv disc :
  sel_good nv [] (h_iter so disc) -> (length nv <= asked)%nat -> (h_len so disc <= fuel)%nat ->
  exists nv', keep_loop so fuel asked nv disc = Ok nv' /\ elts_good nv' /\ (length nv' <= asked)%nat.
Proof.
  revert nv disc. induction fuel as [|fuel IH]; intros nv disc Hg Hlen Hf; simpl.
  - destruct (_ <? _)%nat eqn:El.
    + rewrite h_pop_0 by (auto; lia). exists nv. split_and!; auto. by eapply sel_elts.
    + exists nv. split_and!; auto. by eapply sel_elts.
  - destruct (Nat.ltb_spec (length nv) asked) as [El|El].
    2: { exists nv. split_and!; auto. by eapply sel_elts. }
    destruct (h_pop so disc) as [[e disc']|] eqn:E.
    2: { exists nv. split_and!; auto. by eapply sel_elts. }
    destruct (law_pop_some _ LAWS _ _ _ E) as [Hp _].
    apply (sel_good_perm nv nv [] [] _ _) in Hp as Hg'; try done.
    assert (Hg2 : sel_good nv (e :: []) (h_iter so disc')).
    { destruct Hg' as (H1 & _ & H3 & H4 & H5). inversion H3; subst. split_and!; auto.
    }
    pose proof Hg2 as (_ & Hc & _). inversion Hc as [|? ? (pt & Hpt & Hd) _]; subst.
    pose proof (Hnn q (pt_data pt)).
    rewrite (assert_true (n_dist e <=? 0)%Z) by lia. simpl.
    apply IH.
    + by apply sel_move_nv.
    + rewrite app_length. simpl. lia.
    + rewrite (h_len_pop so LAWS _ _ _ E) in Hf. lia.
Qed.

Lemma select_neighbours_spec cand asked extend layer keep :
  links_ok h layer Sset -> cands_good (h_iter so cand) ->
  exists nv, select_neighbours dist so h q cand asked extend layer keep = Ok nv /\
    elts_good nv /\ (length nv <= asked)%nat.
Proof.
  intros Hl Hc. unfold select_neighbours.
  destruct (Nat.leb_spec (h_len so cand) asked) as [Hfew|Hmany]; simpl.
  - destruct extend; simpl.
    2: { destruct Hc as (Hc1 & Hc2 & Hc3).
         destruct (transfer_spec (h_len so cand) cand [] Hc1) as (nv & -> & Hp); [lia|].
         exists nv. split; [done|]. simpl in Hp. split.
         - unfold elts_good. rewrite Hp. split_and!.
           + apply Forall_fmap. eapply Forall_impl; [exact Hc1|]. intros n. apply negn_cand_elt.
           + by rewrite negn_pid.
           + apply Forall_fmap. eapply Forall_impl; [exact Hc3|]. done.
         - rewrite Hp, fmap_length. done. }
    destruct (extend_spec layer cand Hl Hc) as (cand1 & -> & Hc1 & Hc2 & Hc3). simpl.
    destruct (select_loop_spec (h_len so cand1) asked keep cand1 [] (h_empty so))
      as (nv & disc & -> & Hg & Hlen); simpl; try lia.
    { rewrite (law_iter_empty _ LAWS). unfold sel_good. simpl. rewrite !app_nil_r. split_and!; auto. }
    destruct keep.
    + apply keep_loop_spec; auto.
    + exists nv. split_and!; auto. by eapply sel_elts.
  - destruct Hc as (Hc1 & Hc2 & Hc3).
    destruct (select_loop_spec (h_len so cand) asked keep cand [] (h_empty so))
      as (nv & disc & -> & Hg & Hlen); simpl; try lia.
    { rewrite (law_iter_empty _ LAWS). unfold sel_good. simpl. rewrite !app_nil_r. split_and!; auto. }
    destruct keep.
    + apply keep_loop_spec; auto.
    + exists nv. split_and!; auto. by eapply sel_elts.
Qed.

End Select.
