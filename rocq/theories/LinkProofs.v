(** The links made by an insertion. *)
From stdpp Require Import relations.
From Verif Require Import Prelude Model Lib Table SearchProofs SelectProofs InsertProofs QueryProofs
  ExhaustProofs LocalProofs SpecInsert DivProofs.

Section Link.
Context {T : Type} (dist : list T -> list T -> Z) (so : StdOps).
Context (LAWS : StdLaws so) (Hnn : forall a b, (0 <= dist a b)%Z).
Implicit Types (h : hnsw (T:=T)) (p np ep : pid).
Notation dq := (dq dist).
Notation dd := (dd dist).
Notation fresh := (fresh dist).

Definition layer_empty h l : Prop := points_by_layer h !! l = Some [].

Global Instance layer_empty_dec h l : Decision (layer_empty h l).
Proof using Type. unfold layer_empty. destruct (points_by_layer h !! l) as [[|x ly]|]; [by left|by right..]. Defined.

Lemma same_table_layer_empty h h' l : same_table h h' -> layer_empty h' l <-> layer_empty h l.
Proof using Type.
  intros (_ & H & _). unfold layer_empty.
  assert (E : (length <$> points_by_layer h') !! l = (length <$> points_by_layer h) !! l) by (by rewrite H).
  rewrite !list_lookup_fmap in E.
  destruct (points_by_layer h' !! l) as [a|], (points_by_layer h !! l) as [b|]; simpl in E; try done.
  injection E as E. destruct a, b; simpl in E; done.
Qed.

Lemma vecp_same h h' p : same_table h h' -> vecp h' p = vecp h p.
Proof using Type.
  intros (_ & _ & H). specialize (H p). unfold static, vecp in *.
  destruct (get_pt h p), (get_pt h' p); simpl in H; try done. by injection H.
Qed.

Lemma dq_same h h' q p : same_table h h' -> dq h' q p = dq h q p.
Proof using Type. intros H. unfold DivProofs.dq. by rewrite (vecp_same _ _ _ H). Qed.

(** result of a search made for the new point [np] *)
Record layer_search h np (data : list T) (ef l : nat) (F : list nbr) : Prop := {
  ls_good : elts_good dist h data (fun p => p <> np) F;
  ls_len : (length F <= Nat.max 1 ef)%nat;
  ls_ne : F <> [];
  ls_local : forall x p pt, x ∈ F -> link h l (n_pid x) p -> get_pt h p = Some pt ->
    p ∈ n_pid <$> F \/ ((ef <= length F)%nat /\ Forall (fun x => (n_dist x <= dist data (pt_data pt))%Z) F)
}.

Definition picked h (data : list T) (l : nat) (F : list pid) (sel : list pid) : Prop :=
  if (length F <=? nb_conn h l)%nat then
    if extend_c h l then
      exists C, NoDup C /\ (forall p, p ∈ C <-> p ∈ F \/ exists x, x ∈ F /\ link h l x p) /\
        chosen (keep_pruned h) (dq h data) (dd h) (nb_conn h l) C sel
    else sel ≡ₚ F
  else chosen (keep_pruned h) (dq h data) (dd h) (nb_conn h l) F sel.

Lemma search_fresh h np data ep ef l hp :
  fresh h np data -> (l < max_layer h)%nat -> valid h ep -> ep <> np ->
  search_layer dist so h data ep ef l None = Ok hp ->
  (layer_empty h l /\ h_iter so hp = []) \/
  (~ layer_empty h l /\ layer_search h np data ef l (h_iter so hp) /\
   exists x, x ∈ h_iter so hp /\ (n_dist x <= dq h data ep)%Z).
Proof using LAWS Hnn.
  intros [Hc Hu _] Hl [ept Hep] Hne Hs.
  assert (Hl16 : (l < NB_LAYER_MAX)%nat) by (pose proof (c_max _ _ Hc); lia).
  rewrite <- (c_len _ _ Hc) in Hl. apply lookup_lt_is_Some in Hl as [ly Hly].
  destruct ly as [|p0 ly].
  - left. split; [done|]. unfold search_layer in Hs. rewrite Hly in Hs. injection Hs as <-.
    apply (law_iter_empty _ LAWS).
  - right. split; [unfold layer_empty; by rewrite Hly|].
    assert (HL : links_ok h l (fun p => p <> np)) by (by eapply core_links_ne).
    destruct (search_layer_spec dist so LAWS Hnn h data ep ept ef l None (p0 :: ly) (fun p => p <> np))
      as (ret & E & R1 & R2 & R3 & R4 & R5 & R6 & _); auto.
    rewrite Hs in E. injection E as <-. split.
    + constructor; auto; [split_and!; auto|].
      intros x p pt Hx Hlk Hp.
      eapply (search_layer_local dist so LAWS Hnn h data ep ept ef l None (p0 :: ly) hp (fun p => p <> np)); eauto.
      done.
    + destruct (R6 eq_refl) as (x & ? & ?). exists x. split; [done|].
      unfold DivProofs.dq, vecp. by rewrite Hep.
Qed.

Definition others np h h' : Prop := forall p, p <> np -> get_pt h' p = get_pt h p.

Lemma others_trans np h1 h2 h3 : others np h1 h2 -> others np h2 h3 -> others np h1 h3.
Proof using Type. intros H1 H2 p Hp. rewrite H2, H1; auto. Qed.

Lemma upd_others np l f h h' : upd_nbs h np l f = Ok h' -> others np h h'.
Proof using Type. intros (pt & nbs & _ & _ & _ & Ho & _)%upd_nbs_inv. exact Ho. Qed.

Definition near h np l (B : Z) : Prop :=
  exists nv n, own_list h np l = Some nv /\ n ∈ nv /\ (n_dist n <= B)%Z.
Lemma near_le h np l B B' : near h np l B -> (B <= B')%Z -> near h np l B'.
Proof using Type. intros (nv & n & ? & ? & ?) ?. exists nv, n. split_and!; auto. lia. Qed.
Lemma near_own h h' np l B : own_list h' np l = own_list h np l -> near h np l B -> near h' np l B.
Proof using Type. intros E (nv & n & ? & ? & ?). exists nv, n. rewrite E. done. Qed.

(** state in which the list of layer [l] was chosen *)
Definition chosen_at h' np data l nv : Prop :=
  exists hc F, fresh hc np data /\ same_table h' hc /\ others np h' hc /\
    layer_search hc np data (ef_construction h') l F /\ picked hc data l (n_pid <$> F) (n_pid <$> nv) /\
    elts_good dist hc data (fun p => p <> np) nv /\ sorted_by n_dist nv.

Lemma others_sym np h h' : others np h h' -> others np h' h.
Proof using Type. intros H p Hp. by rewrite H. Qed.

Lemma chosen_at_step h1 h2 np data l nv :
  same_table h1 h2 -> others np h1 h2 -> chosen_at h1 np data l nv -> chosen_at h2 np data l nv.
Proof using Type.
  intros Hst Ho (hc & F & H1 & H2 & H3 & H4 & H5). exists hc, F. split_and!; try apply H5; auto.
  - eapply same_table_trans; [by apply same_table_sym|done].
  - eapply others_trans; [by apply others_sym|done].
  - destruct Hst as ((-> & _) & _). done.
Qed.

Lemma sorted_by_head (n : nbr) ns : sorted_by n_dist (n :: ns) -> forall m, m ∈ n :: ns -> (n_dist n <= n_dist m)%Z.
Proof using Type.
  intros Hs m [->|Hm]%elem_of_cons; [lia|]. inversion Hs as [|? ? _ Hf]; subst.
  rewrite Forall_forall in Hf. by apply Hf.
Qed.

Lemma connect_use_links h np data l hp ep h' ep' :
  fresh h np data -> (l < max_layer h)%nat -> valid h ep -> ep <> np ->
  search_layer dist so h data ep (ef_construction h) l None = Ok hp ->
  connect_use dist so h np data l hp ep = Ok (h', ep') ->
  fresh h' np data /\ same_table h h' /\ others np h h' /\ valid h' ep' /\ ep' <> np /\
  (forall l', l' <> l -> own_list h' np l' = own_list h np l') /\
  ((layer_empty h l /\ own_list h' np l = own_list h np l /\ ep' = ep) \/
   (~ layer_empty h l /\ exists nv, own_list h' np l = Some nv /\ chosen_at h' np data l nv /\
     (dq h' data ep' <= dq h data ep)%Z /\ (forall n, n ∈ nv -> dq h' data ep' <= n_dist n)%Z /\
     ((1 <= nb_conn h l)%nat -> near h' np l (dq h data ep)))).
Proof using LAWS Hnn.
  intros Hf Hl Hep Hne Hs Hrun.
  assert (Hl16 : (l < NB_LAYER_MAX)%nat) by (pose proof (c_max _ _ (f_core _ _ _ _ Hf)); lia).
  destruct (search_layer_fresh dist so LAWS Hnn h np data ep (ef_construction h) l Hf Hl Hep Hne) as (hp' & E & Hfound & _).
  rewrite Hs in E. injection E as <-.
  destruct (connect_use_spec dist so LAWS Hnn h np data l hp ep Hf Hl16 Hfound Hep Hne) as
    (h1 & ep1 & E & Hf1 & Hst1 & Hep1 & Hne1 & Hown).
  rewrite Hrun in E. injection E as <- <-.
  unfold connect_use in Hrun. destruct Hfound as (G1 & G2 & G3).
  destruct (from_pos_spec dist so LAWS Hnn h data hp G1) as (neg & En & Hneg). rewrite En, bind_Ok in Hrun.
  assert (Elen : h_len so neg = length (h_iter so hp)) by (unfold h_len; rewrite Hneg; by rewrite fmap_length).
  destruct (search_fresh h np data ep (ef_construction h) l hp Hf Hl Hep Hne Hs) as [[Hemp Hit]|(Hnemp & HLS & x0 & Hx0 & Hx0d)].
  { rewrite Elen, Hit in Hrun. simpl in Hrun. injection Hrun as <- <-.
    assert (others np h h) by done. split_and!; auto. }
  destruct (Nat.eqb_spec (h_len so neg) 0) as [E0|E0].
  { exfalso. rewrite Elen in E0. apply (ls_ne _ _ _ _ _ _ HLS). by apply nil_length_inv. }
  assert (HL : links_ok h l (fun p => p <> np)) by (eapply core_links_ne; [apply Hf|apply Hf|done]).
  assert (Hcg : cands_good dist h data (fun p => p <> np) (h_iter so neg)).
  { split_and!; rewrite Hneg.
    - apply Forall_fmap. eapply Forall_impl; [exact G1|]. intros n Hn0. by apply negn_elt_cand.
    - by rewrite negn_pid.
    - apply Forall_fmap. eapply Forall_impl; [exact G3|]. done. }
  destruct (select_neighbours_spec dist so LAWS Hnn h data (fun p => p <> np) neg (nb_conn h l)
              (extend_c h l) l (keep_pruned h) HL Hcg) as (nv & Esel & Hg & Hlen).
  pose proof (select_chosen dist so LAWS Hnn h data _ _ _ _ _ _ _ HL Hcg Esel) as Hch. cbv zeta in Hch.
  rewrite Esel, bind_Ok in Hrun. cbv zeta in Hrun.
  apply bind_inv in Hrun as (h2 & Hupd & Hrun). injection Hrun as -> <-.
  pose proof (upd_others _ _ _ _ _ Hupd) as Hoth.
  assert (Hown_l : own_list h' np l = Some (u_sort so nbr n_dist nv)).
  { rewrite (own_list_upd _ _ _ _ _ _ Hupd), decide_True by done.
    destruct (fresh_nbs _ _ _ _ l Hf Hl16) as (npt & nbs & Hnp & Hn & Ho). by rewrite Ho. }
  split_and!; auto. right. split; [done|]. exists (u_sort so nbr n_dist nv). split; [done|].
  assert (HF : n_pid <$> h_iter so neg ≡ₚ n_pid <$> h_iter so hp) by (by rewrite Hneg, negn_pid).
  assert (Hsp : n_pid <$> u_sort so nbr n_dist nv ≡ₚ n_pid <$> nv) by (by rewrite (law_usort_perm _ LAWS)).
  assert (Hpk : picked h data l (n_pid <$> h_iter so hp) (n_pid <$> u_sort so nbr n_dist nv)).
  { assert (Hdvp : forall m C C' s s', C ≡ₚ C' -> s ≡ₚ s' -> diversified (dq h data) (dd h) m C s ->
                     diversified (dq h data) (dd h) m C' s').
    { intros m C C' s s' HC Hs' [D1 D2 D3 D4 D5 D6]. constructor.
      - intros a. rewrite <- Hs', <- HC. auto.
      - by rewrite <- Hs'.
      - by rewrite <- Hs'.
      - intros a b. rewrite <- Hs'. auto.
      - intros a b. rewrite <- Hs'. auto.
      - intros c. rewrite <- HC, <- Hs'. intros Hc Hn. destruct (D6 c Hc Hn) as [(a & ? & ?)|[? ?]].
        + left. exists a. by rewrite <- Hs'.
        + right. split; [done|]. intros a. rewrite <- Hs'. auto. }
    assert (Hchp : forall m C C' s s', C ≡ₚ C' -> s ≡ₚ s' -> chosen (keep_pruned h) (dq h data) (dd h) m C s ->
                     chosen (keep_pruned h) (dq h data) (dd h) m C' s').
    { intros m C C' s s' HC Hs'. unfold chosen. destruct (keep_pruned h); [|by apply Hdvp].
      intros (core & extra & P1 & P2 & P3 & P4 & P5 & P6). exists core, extra. split_and!.
      - by rewrite <- Hs'.
      - by rewrite <- Hs'.
      - by eapply Hdvp; [..|exact P3].
      - intros a. rewrite <- HC. auto.
      - by rewrite <- HC, <- Hs'.
      - intros x c. rewrite <- HC, <- Hs'. eauto. }
    assert (HlF : length (n_pid <$> h_iter so hp) = length (n_pid <$> h_iter so neg)) by (by rewrite HF).
    unfold picked. rewrite HlF. destruct (length (n_pid <$> h_iter so neg) <=? nb_conn h l)%nat.
    - destruct (extend_c h l).
      + destruct Hch as (C & C1 & C2 & C3). exists C. split; [done|]. split.
        * intros p. rewrite C2, HF. split; (intros [?|(x & Hx & ?)]; [auto|right; exists x]).
          -- by rewrite <- HF.
          -- by rewrite HF.
        * eapply Hchp; [done| |exact C3]. done.
      + by rewrite Hsp, <- HF.
    - eapply Hchp; [exact HF| |exact Hch]. done. }
  assert (Hgs : elts_good dist h data (fun p => p <> np) (u_sort so nbr n_dist nv)) by (by apply elts_good_usort).
  assert (Hsorted : sorted_by n_dist (u_sort so nbr n_dist nv)) by apply (law_usort _ LAWS).
  assert (Hnear : (1 <= nb_conn h l)%nat -> exists n, n ∈ u_sort so nbr n_dist nv /\ (n_dist n <= dq h data ep)%Z).
  { intros Hc1.
    assert (Hx : n_dist x0 = dq h data (n_pid x0)).
    { apply elt_dq. rewrite Forall_forall in G1. auto. }
    assert (Hx0F : n_pid x0 ∈ n_pid <$> h_iter so hp) by (apply elem_of_list_fmap; eauto).
    assert (Ha : exists a, a ∈ n_pid <$> u_sort so nbr n_dist nv /\ (dq h data a <= dq h data (n_pid x0))%Z).
    { revert Hpk. unfold picked. clear Hch. destruct (length (n_pid <$> h_iter so hp) <=? nb_conn h l)%nat.
      - destruct (extend_c h l).
        + intros (C & C1 & C2 & C3). eapply (chosen_nearest dist h data); eauto. apply C2. by left.
        + intros HP. exists (n_pid x0). rewrite HP. split; [done|lia].
      - intros Hx1. eapply (chosen_nearest dist h data); eauto. }
    destruct Ha as (a & Hain & Had). apply elem_of_list_fmap in Hain as (n & -> & Hn). exists n. split; [done|].
    destruct Hgs as (Hg1 & _). rewrite Forall_forall in Hg1. rewrite (elt_dq dist h data n (Hg1 n Hn)). lia. }
  assert (Hepd : forall n ns, u_sort so nbr n_dist nv = n :: ns -> n_dist n = dq h data (n_pid n)).
  { intros n ns En0. destruct Hgs as (Hg1 & _). rewrite En0 in Hg1. inversion Hg1; subst. by apply elt_dq. }
  split_and!.
  - exists h, (h_iter so hp). split_and!; auto.
    + by apply same_table_sym.
    + by apply others_sym.
    + destruct Hst1 as ((-> & _) & _). done.
  - rewrite (dq_same _ _ _ _ Hst1). destruct (u_sort so nbr n_dist nv) as [|n ns] eqn:En0; [lia|].
    destruct (decide (1 <= nb_conn h l)%nat) as [Hc1|Hc1].
    + destruct (Hnear Hc1) as (m & Hm & Hmd). rewrite <- (Hepd n ns eq_refl).
      pose proof (sorted_by_head _ _ Hsorted m Hm). lia.
    + exfalso. assert (Hl0 : (length (u_sort so nbr n_dist nv) <= nb_conn h l)%nat) by (by rewrite (law_usort_perm _ LAWS)).
      rewrite En0 in Hl0. simpl in Hl0. lia.
  - rewrite (dq_same _ _ _ _ Hst1). intros n Hn. destruct (u_sort so nbr n_dist nv) as [|m ns] eqn:En0; [by apply elem_of_nil in Hn|].
    rewrite <- (Hepd m ns eq_refl). by apply (sorted_by_head m ns).
  - intros Hc1. destruct (Hnear Hc1) as (n & ? & ?). eexists _, n. eauto.
Qed.

Lemma connect_links ls h np data ep h' :
  fresh h np data -> valid h ep -> ep <> np ->
  StronglySorted gt ls -> (forall l, l ∈ ls -> (l < max_layer h)%nat) ->
  connect dist so ls h np data ep = Ok h' ->
  fresh h' np data /\ same_table h h' /\ others np h h' /\
  (forall l, l ∉ ls -> own_list h' np l = own_list h np l) /\
  (forall l, l ∈ ls -> layer_empty h l -> own_list h' np l = own_list h np l) /\
  (forall l, l ∈ ls -> ~ layer_empty h l -> exists nv, own_list h' np l = Some nv /\ chosen_at h' np data l nv /\
     ((1 <= nb_conn h l)%nat -> near h' np l (dq h data ep)) /\
     (forall l2, l2 ∈ ls -> (l2 < l)%nat -> ~ layer_empty h l2 -> (1 <= nb_conn h l2)%nat ->
        forall n, n ∈ nv -> near h' np l2 (n_dist n))).
Proof using LAWS Hnn.
  revert h ep. induction ls as [|l ls IH]; intros h ep Hf Hep Hne Hss Hls Hrun; simpl in Hrun.
  - injection Hrun as <-. split_and!; auto; [apply same_table_refl|done|..]; intros l Hl; by apply elem_of_nil in Hl.
  - apply bind_inv in Hrun as (hp & Hs & Hrun). apply bind_inv in Hrun as ([h1 ep1] & Hu & Hrun).
    destruct (connect_use_links h np data l hp ep h1 ep1) as (Hf1 & Hst1 & Ho1 & Hep1 & Hne1 & Hown1 & Hcase); auto.
    { apply Hls. left. }
    inversion Hss as [|? ? Hss' Hgt]; subst. rewrite Forall_forall in Hgt.
    destruct (IH h1 ep1 Hf1 Hep1 Hne1 Hss') as (Hf2 & Hst2 & Ho2 & Hn2 & He2 & Hc2); auto.
    { intros l' Hl'. destruct Hst1 as (Hm & _). destruct Hm as (_ & _ & _ & _ & -> & _). apply Hls. by right. }
    assert (Hnotin : l ∉ ls) by (intros Hin%Hgt; lia).
    assert (Hle : forall l', layer_empty h1 l' <-> layer_empty h l') by (intros; by apply same_table_layer_empty).
    assert (Hnc : forall l', nb_conn h1 l' = nb_conn h l').
    { intros l'. unfold nb_conn. destruct Hst1 as ((_ & -> & _) & _). done. }
    assert (Hdec : (dq h1 data ep1 <= dq h data ep)%Z).
    { destruct Hcase as [(_ & _ & ->)|(_ & nv & _ & _ & ? & _)]; [|done]. rewrite (dq_same _ _ _ _ Hst1). lia. }
    split_and!; auto.
    + by eapply same_table_trans.
    + by eapply others_trans.
    + intros l' [? ?]%not_elem_of_cons. by rewrite Hn2, Hown1.
    + intros l' [->|Hl']%elem_of_cons Hem.
      * rewrite Hn2 by done. destruct Hcase as [(_ & ? & _)|(? & _)]; done.
      * rewrite He2; [|done|by apply Hle]. apply Hown1. intros ->. done.
    + intros l' [->|Hl']%elem_of_cons Hem.
      * destruct Hcase as [(? & _)|(_ & nv & Hnv & Hch & Hd1 & Hd2 & Hnr)]; [done|].
        exists nv. rewrite Hn2 by done. split_and!; auto.
        -- by eapply chosen_at_step.
        -- intros Hc1. eapply near_own; [|by apply Hnr]. by apply Hn2.
        -- intros l2 [->|Hl2]%elem_of_cons Hlt Hem2 Hc1 n Hn; [lia|].
           destruct (Hc2 l2 Hl2) as (nv2 & _ & _ & Hnear2 & _); [by rewrite Hle|].
           eapply near_le; [apply Hnear2; by rewrite Hnc|]. by apply Hd2.
      * destruct (Hc2 l' Hl') as (nv & Hnv & Hch & Hnr & Hpair); [by rewrite Hle|].
        exists nv. split_and!; auto.
        -- intros Hc1. eapply near_le; [apply Hnr; by rewrite Hnc|done].
        -- intros l2 [->|Hl2]%elem_of_cons Hlt Hem2 Hc1 n Hn.
           { specialize (Hgt l' Hl'). unfold gt in Hgt. lia. }
           apply Hpair; auto; [by rewrite Hle|by rewrite Hnc].
Qed.

(** ** Layers above the level of the new point *)
Definition greedy_at h' np data l nv : Prop :=
  exists hc e, fresh hc np data /\ same_table h' hc /\ others np h' hc /\
    layer_search hc np data 1 l [e] /\
    nv = if (0 <? get_max_nb_connection h')%nat then [e] else [].

Lemma greedy_at_step h1 h2 np data l nv :
  same_table h1 h2 -> others np h1 h2 -> greedy_at h1 np data l nv -> greedy_at h2 np data l nv.
Proof using Type.
  intros Hst Ho (hc & e & H1 & H2 & H3 & H4 & H5). exists hc, e. split_and!; auto.
  - eapply same_table_trans; [by apply same_table_sym|done].
  - eapply others_trans; [by apply others_sym|done].
  - unfold get_max_nb_connection in *. destruct Hst as ((_ & -> & _) & _). done.
Qed.

Lemma descend_use_links h np data l hp ep dte h' ep' dte' :
  fresh h np data -> (l < max_layer h)%nat -> own_list h np l = Some [] -> valid h ep -> ep <> np ->
  dte = dq h data ep ->
  search_layer dist so h data ep 1 l None = Ok hp ->
  descend_use dist so h np data l hp ep dte = Ok (h', ep', dte') ->
  fresh h' np data /\ same_table h h' /\ others np h h' /\ valid h' ep' /\ ep' <> np /\ dte' = dq h' data ep' /\
  (dq h' data ep' <= dq h data ep)%Z /\
  (forall l', l' <> l -> own_list h' np l' = own_list h np l') /\
  ((layer_empty h l /\ own_list h' np l = Some []) \/
   (~ layer_empty h l /\ exists nv, own_list h' np l = Some nv /\ greedy_at h' np data l nv /\
     (forall n, n ∈ nv -> dq h' data ep' <= n_dist n)%Z /\
     ((0 < get_max_nb_connection h)%nat -> near h' np l (dq h data ep)))).
Proof using LAWS Hnn.
  intros Hf Hl Hown Hep Hne -> Hs Hrun.
  assert (Hl16 : (l < NB_LAYER_MAX)%nat) by (pose proof (c_max _ _ (f_core _ _ _ _ Hf)); lia).
  destruct (search_layer_fresh dist so LAWS Hnn h np data ep 1 l Hf Hl Hep Hne) as (hp' & E & Hfound & Hlen).
  rewrite Hs in E. injection E as <-.
  destruct (descend_use_spec dist so LAWS Hnn h np data l hp ep (dq h data ep) Hf Hl16 Hown Hfound Hlen Hep Hne) as
    (h1 & ep1 & dte1 & E & Hf1 & Hst1 & Hep1 & Hne1 & Hown1).
  rewrite Hrun in E. injection E as <- <- <-.
  unfold descend_use in Hrun.
  destruct (Nat.ltb_spec 1 (h_len so hp)) as [?|_]; [lia|].
  destruct (search_fresh h np data ep 1 l hp Hf Hl Hep Hne Hs) as [[Hemp Hit]|(Hnemp & HLS & x0 & Hx0 & Hx0d)].
  { rewrite h_pop_0 in Hrun; [|done|unfold h_len; by rewrite Hit]. injection Hrun as <- <- <-.
    split_and!; auto; [done|lia]. }
  destruct (h_pop so hp) as [[e r]|] eqn:E.
  2: { exfalso. apply (law_pop_none _ LAWS) in E. by apply (ls_ne _ _ _ _ _ _ HLS). }
  destruct (law_pop_some _ LAWS _ _ _ E) as [Hp _].
  assert (Hr0 : h_iter so r = []).
  { apply nil_length_inv. unfold h_len in Hlen. rewrite Hp in Hlen. simpl in Hlen. lia. }
  rewrite Hr0 in Hp. assert (Hit : h_iter so hp = [e]) by (by apply Permutation_singleton_r in Hp).
  rewrite Hit in HLS, Hx0. apply elem_of_list_singleton in Hx0 as ->.
  apply bind_inv in Hrun as (h2 & Hupd & Hrun). apply bind_inv in Hrun as (ept & Hept & Hrun).
  apply unwrap_inv in Hept.
  assert (Ehe : n_dist e = dq h data (n_pid e)).
  { destruct (ls_good _ _ _ _ _ _ HLS) as (Hg & _). inversion Hg; subst. by apply elt_dq. }
  assert (E2 : h2 = h').
  { destruct (_ <? _)%Z in Hrun; by injection Hrun. }
  subst h2. unfold push_upper in Hupd.
  assert (Etmp : dist data (pt_data ept) = dq h data (n_pid e)).
  { rewrite <- (dq_same _ _ _ _ Hst1). unfold DivProofs.dq, vecp. by rewrite Hept. }
  rewrite Etmp in Hrun.
  set (nv := if (0 <? get_max_nb_connection h)%nat then [e] else []).
  assert (Hownl : own_list h' np l = Some nv).
  { rewrite (own_list_upd _ _ _ _ _ _ Hupd), decide_True, Hown by done. simpl. unfold nv. done. }
  assert (Hdq : dte' = dq h' data ep' /\ (dq h' data ep' <= dq h data ep)%Z /\ (dq h' data ep' <= n_dist e)%Z).
  { rewrite (dq_same _ _ _ _ Hst1). destruct (Z.ltb_spec (dq h data (n_pid e)) (dq h data ep)) as [Hlt|Hge];
      injection Hrun as <- <-; rewrite Ehe; split_and!; auto; lia. }
  destruct Hdq as (D1 & D2 & D3).
  split_and!; auto.
  - by eapply upd_others.
  - right. split; [done|]. exists nv. split_and!; auto.
    + exists h, e. split_and!; auto.
      * by apply same_table_sym.
      * apply others_sym. by eapply upd_others.
      * unfold nv, get_max_nb_connection. destruct Hst1 as ((_ & -> & _) & _). done.
    + unfold nv. intros n. destruct (_ <? _)%nat; [|by intros ?%elem_of_nil].
      by intros ->%elem_of_list_singleton.
    + intros Hpos. exists nv, e. split_and!; auto. unfold nv.
      destruct (Nat.ltb_spec 0 (get_max_nb_connection h)); [left|lia].
Qed.

Lemma descend_links ls h np data ep dte h' ep' :
  fresh h np data -> valid h ep -> ep <> np -> dte = dq h data ep ->
  StronglySorted gt ls -> (forall l, l ∈ ls -> (l < max_layer h)%nat /\ own_list h np l = Some []) ->
  descend dist so ls h np data ep dte = Ok (h', ep') ->
  fresh h' np data /\ same_table h h' /\ others np h h' /\ valid h' ep' /\ ep' <> np /\
  (dq h' data ep' <= dq h data ep)%Z /\
  (forall l, l ∉ ls -> own_list h' np l = own_list h np l) /\
  (forall l, l ∈ ls -> layer_empty h l -> own_list h' np l = Some []) /\
  (forall l, l ∈ ls -> ~ layer_empty h l -> exists nv, own_list h' np l = Some nv /\ greedy_at h' np data l nv /\
     (forall n, n ∈ nv -> dq h' data ep' <= n_dist n)%Z /\
     ((0 < get_max_nb_connection h)%nat -> near h' np l (dq h data ep)) /\
     (forall l2, l2 ∈ ls -> (l2 < l)%nat -> ~ layer_empty h l2 -> (0 < get_max_nb_connection h)%nat ->
        forall n, n ∈ nv -> near h' np l2 (n_dist n))).
Proof using LAWS Hnn.
  revert h ep dte. induction ls as [|l ls IH]; intros h ep dte Hf Hep Hne Hdte Hss Hls Hrun; simpl in Hrun.
  - injection Hrun as <- <-. split_and!; auto; [apply same_table_refl|done|lia|..]; intros l Hl; by apply elem_of_nil in Hl.
  - apply bind_inv in Hrun as (hp & Hs & Hrun). apply bind_inv in Hrun as ([[h1 ep1] dte1] & Hu & Hrun).
    destruct (Hls l ltac:(left)) as [Hlm Hlo].
    destruct (descend_use_links h np data l hp ep dte h1 ep1 dte1) as (Hf1 & Hst1 & Ho1 & Hep1 & Hne1 & Hdt1 & Hdec & Hown1 & Hcase); auto.
    inversion Hss as [|? ? Hss' Hgt]; subst. rewrite Forall_forall in Hgt.
    assert (Hnotin : l ∉ ls) by (intros Hin%Hgt; lia).
    destruct (IH h1 ep1 _ Hf1 Hep1 Hne1 eq_refl Hss') as (Hf2 & Hst2 & Ho2 & Hep2 & Hne2 & Hdec2 & Hn2 & He2 & Hc2); auto.
    { intros l' Hl'. destruct (Hls l') as [? Hol]; [by right|].
      destruct Hst1 as (Hm & _). destruct Hm as (_ & _ & _ & _ & -> & _). split; [done|].
      rewrite Hown1; [done|]. intros ->. done. }
    assert (Hle : forall l', layer_empty h1 l' <-> layer_empty h l') by (intros; by apply same_table_layer_empty).
    assert (Hnc : get_max_nb_connection h1 = get_max_nb_connection h).
    { unfold get_max_nb_connection. destruct Hst1 as ((_ & -> & _) & _). done. }
    split_and!; auto.
    + by eapply same_table_trans.
    + by eapply others_trans.
    + lia.
    + intros l' [? ?]%not_elem_of_cons. by rewrite Hn2, Hown1.
    + intros l' [->|Hl']%elem_of_cons Hem.
      * rewrite Hn2 by done. destruct Hcase as [(_ & ?)|(? & _)]; done.
      * apply He2; [done|by apply Hle].
    + intros l' [->|Hl']%elem_of_cons Hem.
      * destruct Hcase as [(? & _)|(_ & nv & Hnv & Hch & Hd2 & Hnr)]; [done|].
        exists nv. rewrite Hn2 by done. split_and!; auto.
        -- by eapply greedy_at_step.
        -- intros n Hn. specialize (Hd2 n Hn). lia.
        -- intros Hc1. eapply near_own; [|by apply Hnr]. by apply Hn2.
        -- intros l2 [->|Hl2]%elem_of_cons Hlt Hem2 Hc1 n Hn; [lia|].
           destruct (Hc2 l2 Hl2) as (nv2 & _ & _ & _ & Hnear2 & _); [by rewrite Hle|].
           eapply near_le; [apply Hnear2; by rewrite Hnc|]. by apply Hd2.
      * destruct (Hc2 l' Hl') as (nv & Hnv & Hch & Hd2 & Hnr & Hpair); [by rewrite Hle|].
        exists nv. split_and!; auto.
        -- intros Hc1. eapply near_le; [apply Hnr; by rewrite Hnc|done].
        -- intros l2 [->|Hl2]%elem_of_cons Hlt Hem2 Hc1 n Hn.
           { specialize (Hgt l' Hl'). unfold gt in Hgt. lia. }
           apply Hpair; auto; [by rewrite Hle|by rewrite Hnc].
Qed.

(** ** Links back to the new point *)
Definition revd (cap : nat) (e : nbr) (old new : list nbr) : Prop :=
  sorted_by n_dist new /\ length new = Nat.min cap (S (length old)) /\
  exists removed, new ++ removed ≡ₚ old ++ [e] /\
    forall x y, x ∈ new -> y ∈ removed -> (n_dist x <= n_dist y)%Z.

Lemma sorted_by_split (l1 l2 : list nbr) :
  sorted_by n_dist (l1 ++ l2) -> forall x y, x ∈ l1 -> y ∈ l2 -> (n_dist x <= n_dist y)%Z.
Proof using Type.
  induction l1 as [|a l1 IH]; intros Hs x y Hx Hy; [by apply elem_of_nil in Hx|].
  simpl in Hs. inversion Hs as [|? ? Hs' Hf]; subst. apply elem_of_cons in Hx as [->|Hx]; [|by apply IH].
  rewrite Forall_forall in Hf. apply Hf. apply elem_of_app. by right.
Qed.

Lemma rev_list_revd cap np d nbs :
  np ∉ n_pid <$> nbs -> (length nbs <= cap)%nat -> revd cap (Nbr np d) nbs (rev_list so cap np d nbs).
Proof using LAWS.
  clear Hnn. intros Hn Hlen. unfold rev_list. rewrite bool_decide_eq_false_2 by done. cbv zeta.
  set (s := u_sort so nbr n_dist (nbs ++ [Nbr np d])).
  assert (Hp : s ≡ₚ nbs ++ [Nbr np d]) by apply (law_usort_perm _ LAWS).
  assert (Hs : sorted_by n_dist s) by apply (law_usort _ LAWS).
  assert (Hl : length s = S (length nbs)) by (rewrite Hp, app_length; simpl; lia).
  clearbody s. destruct (Nat.ltb_spec cap (S (length nbs))) as [Hlt|Hge].
  - split_and!.
    + by apply sorted_by_take.
    + rewrite take_length. lia.
    + exists (drop (pred (length s)) s). rewrite take_drop. split; [done|].
      apply sorted_by_split. by rewrite take_drop.
  - split_and!; [done|lia|]. exists []. rewrite app_nil_r. split; [done|].
    intros x y _ Hy. by apply elem_of_nil in Hy.
Qed.

Lemma rev_list_again cap np d old new :
  np ∉ n_pid <$> old -> (length old <= cap)%nat -> revd cap (Nbr np d) old new ->
  revd cap (Nbr np d) old (rev_list so cap np d new).
Proof using LAWS.
  clear Hnn. intros Hn Hlen Hr. destruct (decide (np ∈ n_pid <$> new)) as [Hin|Hin].
  { unfold rev_list. by rewrite bool_decide_eq_true_2. }
  assert (Hperm : new ≡ₚ old).
  { destruct Hr as (_ & Hl & removed & Hp & _).
    assert (He : Nbr np d ∈ removed).
    { assert (He : Nbr np d ∈ new ++ removed) by (rewrite Hp; apply elem_of_app; right; left).
      apply elem_of_app in He as [He|He]; [|done]. exfalso. apply Hin. apply elem_of_list_fmap. by exists (Nbr np d). }
    assert (Hlp : (length new + length removed = S (length old))%nat).
    { rewrite <- app_length, Hp, app_length. simpl. lia. }
    destruct removed as [|r [|r' removed]]; simpl in Hlp; [by apply elem_of_nil in He| |lia].
    apply elem_of_list_singleton in He as <-. by apply Permutation_app_inv_r in Hp. }
  destruct (rev_list_revd cap np d new Hin) as (H1 & H2 & removed & H3 & H4); [by rewrite Hperm|].
  split_and!; [done|by rewrite <- Hperm at 1|]. exists removed. split; [|done]. by rewrite H3, Hperm.
Qed.

(** after the links to [np] were added at the points of [S] *)
Record rstate h3 np (data : list T) (S : list pid) h : Prop := {
  r_core : core dist h;
  r_same : same_table h3 h;
  r_np : get_pt h np = get_pt h3 np;
  r_pts : forall p pt, p <> np -> get_pt h3 p = Some pt -> exists pt', get_pt h p = Some pt' /\
    forall l nbs, pt_nbs pt !! l = Some nbs -> exists nbs', pt_nbs pt' !! l = Some nbs' /\
      ((l = np.1 /\ p ∈ S /\ revd (nb_conn h3 l) (Nbr np (dist data (pt_data pt))) nbs nbs') \/
       (~ (l = np.1 /\ p ∈ S) /\ nbs' = nbs))
}.

Lemma rev_one_state h3 np data S h q h' :
  fresh h3 np data -> rstate h3 np data S h -> elt_ok dist h3 data q -> n_pid q <> np ->
  rev_one so h np q = Ok h' -> rstate h3 np data (n_pid q :: S) h'.
Proof using LAWS.
  intros [Hc3 Hu3 (npt & Hnp & Hnd)] [Rc Rs Rn Rp] (qt & Hqt & Hqd) Hne Hrun.
  destruct (rev_one_spec dist so LAWS h np npt q Rc) as (h1 & E & Hc1 & Hst1 & Ho1).
  { by rewrite Rn. }
  { destruct (same_table_get _ _ _ _ Rs Hqt) as (qt' & ? & Ed & _). exists qt'. rewrite Ed, Hnd. auto. }
  rewrite Hrun in E. injection E as <-. constructor.
  - done.
  - by eapply same_table_trans.
  - rewrite <- Rn. apply Ho1. auto.
  - intros p pt Hp Hpt. destruct (Rp p pt Hp Hpt) as (pt1 & Hpt1 & Hl1).
    destruct (decide (p = n_pid q)) as [->|Hpq].
    2: { exists pt1. split; [rewrite Ho1; auto|]. intros l nbs Hn. destruct (Hl1 l nbs Hn) as (nbs' & Hn' & Hc).
         exists nbs'. split; [done|]. destruct Hc as [(-> & ? & ?)|[Hc ->]].
         - left. split_and!; auto. by right.
         - right. split; [|done]. intros [-> [?|?]%elem_of_cons]; [done|]. apply Hc. auto. }
    rewrite Hqt in Hpt. injection Hpt as <-.
    unfold rev_one in Hrun. rewrite bool_decide_eq_false_2 in Hrun by done.
    replace (if (0 <? np.1)%nat then max_nb_connection h else 2 * max_nb_connection h)%nat with (nb_conn h3 np.1) in Hrun.
    2: { unfold nb_conn. destruct Rs as ((_ & -> & _) & _). destruct np.1; done. }
    destruct (upd_nbs_inv _ _ _ _ _ Hrun) as (pt2 & nbs2 & G1 & G2 & G3 & _ & _).
    rewrite Hpt1 in G1. injection G1 as <-.
    exists (set_pt_nbs pt1 np.1 (rev_list so (nb_conn h3 np.1) np (n_dist q) nbs2)). split; [done|].
    intros l nbs Hn. destruct (Hl1 l nbs Hn) as (nbs' & Hn' & Hc). simpl.
    destruct (decide (l = np.1)) as [->|Hl].
    + rewrite list_lookup_insert by (by eapply lookup_lt_Some).
      rewrite G2 in Hn'. injection Hn' as ->. eexists. split; [done|]. left. split_and!; [done|left|].
      pose proof (Hu3 _ _ _ _ Hqt Hn) as Hnot.
      destruct (c_lists _ _ Hc3 _ _ _ _ Hqt Hn) as [_ _ _ _ Hcap].
      rewrite Hqd. destruct Hc as [(_ & _ & Hr)|[_ ->]].
      * by apply rev_list_again.
      * by apply rev_list_revd.
    + rewrite list_lookup_insert_ne by done. exists nbs'. split; [done|]. right.
      split; [tauto|]. destruct Hc as [(-> & _)|[_ ->]]; done.
Qed.

Lemma rstate_ext h3 np data S S' h : (forall p, p ∈ S <-> p ∈ S') -> rstate h3 np data S h -> rstate h3 np data S' h.
Proof using Type.
  intros E [Rc Rs Rn Rp]. constructor; auto. intros p pt Hp Hpt. destruct (Rp p pt Hp Hpt) as (pt1 & Hpt1 & Hl1).
  exists pt1. split; [done|]. intros l nbs Hn. destruct (Hl1 l nbs Hn) as (nbs' & Hn' & Hc). exists nbs'. split; [done|].
  by rewrite <- E.
Qed.

Lemma rev_many_state h3 np data qs S h h' :
  fresh h3 np data -> rstate h3 np data S h ->
  Forall (fun q => elt_ok dist h3 data q /\ n_pid q <> np) qs ->
  rev_many so h np qs = Ok h' -> rstate h3 np data ((n_pid <$> qs) ++ S) h'.
Proof using LAWS.
  intros Hf. revert S h. induction qs as [|q qs IH]; intros S h Hr Hqs Hrun; simpl in Hrun.
  - injection Hrun as <-. done.
  - apply bind_inv in Hrun as (h1 & H1 & Hrun). inversion Hqs as [|? ? [? ?] ?]; subst.
    eapply rstate_ext; [|eapply (IH (n_pid q :: S) h1); eauto].
    + intros p. simpl. rewrite !elem_of_app, !elem_of_cons, elem_of_app. tauto.
    + by eapply rev_one_state.
Qed.

Lemma rev_layers_state h3 np data ls S h h' :
  fresh h3 np data -> rstate h3 np data S h ->
  (forall l nv, l ∈ ls -> own_list h3 np l = Some nv -> Forall (fun q => elt_ok dist h3 data q /\ n_pid q <> np) nv) ->
  rev_layers so ls h np = Ok h' ->
  exists S', rstate h3 np data S' h' /\
    forall p, p ∈ S' <-> p ∈ S \/ exists l, l ∈ ls /\ link h3 l np p.
Proof using LAWS.
  intros Hf. revert S h. induction ls as [|l ls IH]; intros S h Hr Hls Hrun; simpl in Hrun.
  - injection Hrun as <-. exists S. split; [done|]. intros p. split; [auto|].
    intros [?|(l & Hl & _)]; [done|by apply elem_of_nil in Hl].
  - apply bind_inv in Hrun as (pt & Hpt & Hrun). apply bind_inv in Hrun as (qs & Hqs & Hrun).
    apply bind_inv in Hrun as (h1 & H1 & Hrun). apply unwrap_inv in Hpt, Hqs.
    rewrite (r_np _ _ _ _ _ Hr) in Hpt.
    assert (Hown : own_list h3 np l = Some qs) by (unfold own_list; by rewrite Hpt).
    assert (Hr1 : rstate h3 np data ((n_pid <$> qs) ++ S) h1).
    { eapply rev_many_state; eauto. eapply Hls; [left|done]. }
    destruct (IH _ _ Hr1) as (S' & Hr' & HS'); [|done|].
    { intros l' nv Hl'. apply Hls. by right. }
    exists S'. split; [done|]. intros p. rewrite HS', elem_of_app. split.
    + intros [[Hp|?]|(l' & ? & ?)]; [|auto|].
      * right. exists l. split; [left|]. apply elem_of_list_fmap in Hp as (n & -> & Hn). by exists pt, qs, n.
      * right. exists l'. split; [by right|done].
    + intros [?|(l' & [->|Hl']%elem_of_cons & Hlk)]; [auto| |eauto].
      left; left. destruct Hlk as (pt' & nbs' & n & G1 & G2 & G3 & <-). rewrite Hpt in G1. injection G1 as <-.
      rewrite Hqs in G2. injection G2 as <-. apply elem_of_list_fmap. eauto.
Qed.

(** ** The whole insertion *)
Lemma StronglySorted_rev_seq a n : StronglySorted gt (rev (seq a n)).
Proof using Type.
  clear. induction n as [|n IH] in a |- *; [constructor|].
  rewrite seq_S, rev_app_distr. simpl. constructor; [apply IH|].
  apply Forall_forall. intros x Hx. rewrite elem_of_list_In, <- in_rev, in_seq in Hx. lia.
Qed.

Lemma elem_of_rev_seq a n x : x ∈ rev (seq a n) <-> (a <= x < a + n)%nat.
Proof using Type. rewrite elem_of_list_In, <- in_rev, in_seq. done. Qed.

(** [hc] holds the points of [h'], those of [h] being as in [h], and the parameters of [h] *)
Definition like h h' np hc : Prop :=
  (forall p, static hc p = static h' p) /\ others np hc h /\
  max_nb_connection hc = max_nb_connection h /\ ef_construction hc = ef_construction h /\
  extend_candidates hc = extend_candidates h /\ keep_pruned hc = keep_pruned h.

Record insert_links h data oid h' np : Prop := {
  il_new : get_pt h np = None;
  il_np : exists npt, get_pt h' np = Some npt /\ pt_data npt = data /\ pt_oid npt = oid;
  il_others : forall p pt, get_pt h p = Some pt -> exists pt', get_pt h' p = Some pt' /\
    pt_data pt' = pt_data pt /\ pt_oid pt' = pt_oid pt /\
    forall l nbs, pt_nbs pt !! l = Some nbs -> exists nbs', pt_nbs pt' !! l = Some nbs' /\
      ((l = np.1 /\ (exists j, (j <= np.1)%nat /\ link h' j np p) /\
          revd (nb_conn h l) (Nbr np (dist data (pt_data pt))) nbs nbs') \/
       (~ (l = np.1 /\ exists j, (j <= np.1)%nat /\ link h' j np p) /\ nbs' = nbs));
  il_only : forall p, valid h' p <-> p = np \/ valid h p;
  il_first : entry_point h = None -> forall l, (l < NB_LAYER_MAX)%nat -> own_list h' np l = Some [];
  il_own : forall ep, entry_point h = Some ep ->
    (forall l, (l < NB_LAYER_MAX)%nat -> layer_empty h' l \/ (np.1 < l /\ ep.1 < l)%nat -> own_list h' np l = Some []) /\
    (forall l, ~ layer_empty h' l -> (l <= np.1)%nat -> exists hc nv, like h h' np hc /\
        own_list h' np l = Some nv /\ chosen_at hc np data l nv /\
        ((1 <= nb_conn h l)%nat -> near h' np l (dq h data ep))) /\
    (forall l, ~ layer_empty h' l -> (np.1 < l <= ep.1)%nat -> exists hc nv, like h h' np hc /\
        own_list h' np l = Some nv /\ greedy_at hc np data l nv /\
        ((0 < get_max_nb_connection h)%nat -> near h' np l (dq h data ep))) /\
    (forall l1 l2 nv n, (l2 < l1)%nat -> ~ layer_empty h' l1 -> ~ layer_empty h' l2 -> (l2 <= Nat.max np.1 ep.1)%nat ->
        own_list h' np l1 = Some nv -> n ∈ nv -> (0 < get_max_nb_connection h)%nat -> near h' np l2 (n_dist n))
}.

Lemma own_list_get h h' np l : get_pt h' np = get_pt h np -> own_list h' np l = own_list h np l.
Proof using Type. unfold own_list. by intros ->. Qed.

Lemma link_get h h' np l p : get_pt h' np = get_pt h np -> link h' l np p <-> link h l np p.
Proof using Type. unfold link. by intros ->. Qed.

Lemma check_entry_pbl h np : points_by_layer (check_entry_point h np) = points_by_layer h.
Proof using Type. unfold check_entry_point. destruct (entry_point h) as [ep|]; [|done]. by destruct (ep.1 <? np.1)%nat. Qed.

Lemma get_pt_pbl h h' p : points_by_layer h' = points_by_layer h -> get_pt h' p = get_pt h p.
Proof using Type. unfold get_pt. by intros ->. Qed.

(** [same_table] without the entry point *)
Lemma insert_links_ok h data oid d h' :
  lwf dist h -> insert_slice dist so h data oid d = Ok h' -> exists np, insert_links h data oid h' np.
Proof using LAWS Hnn.
  intros [Hc Hcnt Hent] Hrun. unfold insert_slice, generate_new_point in Hrun.
  apply bind_inv in Hrun as ([[h0 np] rank] & Hgen & Hrun).
  apply bind_inv in Hgen as (level & Hlev & Hgen). apply generate_lt in Hlev.
  apply bind_inv in Hgen as ([h1 np1] & Hpush & Hgen). unfold incr_nb_point in Hgen. cbn beta iota zeta in Hgen.
  injection Hgen as E0 E1 E2. subst np1 rank.
  destruct (core_push dist Hnn h data oid level h1 np Hc Hpush) as (Hc1 & Hu1 & Hgr1).
  destruct (push_point_inv _ _ _ _ _ _ Hpush) as (Hnl & Hlt & Hnone & Hnew & Ho & Hm & Hlen & Hsz).
  pose proof Hm as (M1 & M2 & M3 & M4 & M5 & M6 & M7 & M8 & M9 & M10).
  assert (Hg0 : forall p, get_pt h0 p = get_pt h1 p) by (by subst h0).
  assert (Hc0 : core dist h0) by (subst h0; by apply (core_meta _ h1)).
  assert (Hu0 : unref h0 np) by (subst h0; done).
  assert (Hfresh : fresh h0 np data).
  { constructor; auto. exists (new_pt data oid np). by rewrite Hg0. }
  assert (Hoth0 : others np h0 h) by (intros p Hp; by rewrite Hg0, Ho).
  assert (Hown0 : forall l, (l < NB_LAYER_MAX)%nat -> own_list h0 np l = Some []).
  { intros l Hl. unfold own_list. rewrite Hg0, Hnew. unfold new_pt. cbn [mbind option_bind pt_nbs].
    by apply lookup_replicate_2. }
  assert (Hnc0 : forall l, nb_conn h0 l = nb_conn h l).
  { intros l. subst h0. unfold nb_conn. simpl. by rewrite M2. }
  assert (Hgm0 : get_max_nb_connection h0 = get_max_nb_connection h).
  { subst h0. unfold get_max_nb_connection. simpl. by rewrite M2. }
  assert (Hml0 : max_layer h0 = max_layer h) by (subst h0; simpl; done).
  assert (Hep0 : entry_point h0 = entry_point h) by (subst h0; simpl; done).
  assert (Hrk : nb_point h1 = nb_point h) by done.
  assert (Hold : forall p pt, get_pt h p = Some pt -> p <> np) by (intros p pt Hp ->; congruence).
  assert (Hvalid0 : forall p, valid h0 p <-> p = np \/ valid h p).
  { intros p. unfold valid. rewrite Hg0. destruct (decide (p = np)) as [->|Hne].
    - rewrite Hnew. split; [by left|]. intros _; by eexists.
    - rewrite Ho by done. split; [by right|]. intros [?|?]; done. }
  rewrite Hep0 in Hrun. exists np.
  destruct (entry_point h) as [ep|] eqn:Eep.
  2: { injection Hrun as <-.
    assert (Hg' : forall p, get_pt (check_entry_point h0 np) p = get_pt h0 p).
    { intros p. apply get_pt_pbl, check_entry_pbl. }
    assert (Hnolink : forall j p, ~ link (check_entry_point h0 np) j np p).
    { intros j p (pt & nbs & n & G1 & G2 & G3 & _). rewrite Hg', Hg0, Hnew in G1. injection G1 as <-.
      apply new_pt_nbs in G2 as ->. by apply elem_of_nil in G3. }
    constructor; auto.
    - exists (new_pt data oid np). by rewrite Hg', Hg0.
    - intros p pt Hp. exists pt. rewrite Hg'. rewrite <- (Hoth0 p) by eauto. split_and!; auto.
      intros l nbs Hn. exists nbs. split; [done|]. right. split; [|done].
      intros [-> (j & _ & Hj)]. by eapply Hnolink.
    - intros p. rewrite <- Hvalid0. unfold valid. by rewrite Hg'.
    - intros _ l Hl. rewrite <- (Hown0 l Hl). apply own_list_get, Hg'.
    - congruence. }
  rename Hent into Hvep.
  destruct (Nat.eqb_spec (S (nb_point h1)) 1) as [E1|E1].
  { exfalso. rewrite Hrk, Hcnt in E1. apply (table_size_0_valid h ep); [clear -E1; lia|done]. }
  assert (Hepne : ep <> np).
  { intros ->. destruct Hvep as [pt Hpt]. congruence. }
  assert (Hvep0 : valid h0 ep) by (apply Hvalid0; by right).
  apply bind_inv in Hrun as (ept & Hept & Hrun). apply unwrap_inv in Hept. cbv zeta in Hrun.
  apply bind_inv in Hrun as ([h2 ep2] & Hdesc & Hrun).
  apply bind_inv in Hrun as (h3 & Hconn & Hrun). apply bind_inv in Hrun as (h4 & Hrev & Hrun).
  injection Hrun as <-.
  destruct (core_layer dist h ep Hc Hvep) as [Hepl1 Hepl2].
  assert (Hnp16 : (np.1 < NB_LAYER_MAX)%nat) by (pose proof (c_max _ _ Hc) as Hcm; clear -Hcm Hnl Hlev; lia).
  assert (Edq : dist data (pt_data ept) = dq h0 data ep).
  { unfold DivProofs.dq, vecp. by rewrite Hept. }
  assert (Edq' : dq h0 data ep = dq h data ep).
  { unfold DivProofs.dq, vecp. by rewrite <- (Hoth0 ep Hepne). }
  rewrite Edq in Hdesc.
  assert (Hls1 : forall l, l ∈ rev (seq (S np.1) (ep.1 - np.1)) -> (l < max_layer h0)%nat /\ own_list h0 np l = Some []).
  { intros l Hl. apply elem_of_rev_seq in Hl. rewrite Hml0. split; [clear -Hl Hepl1; lia|apply Hown0; clear -Hl Hepl2; lia]. }
  destruct (descend_links _ _ _ _ _ _ _ _ Hfresh Hvep0 Hepne eq_refl (StronglySorted_rev_seq _ _) Hls1 Hdesc) as (Hf2 & Hst2 & Ho2 & Hep2 & Hne2 & Hdec2 & Hn2 & He2 & Hc2).
  assert (Hml2 : max_layer h2 = max_layer h).
  { destruct Hst2 as (Hm2 & _). destruct Hm2 as (_ & _ & _ & _ & -> & _). done. }
  assert (Hls2 : forall l, l ∈ rev (seq 0 (S np.1)) -> (l < max_layer h2)%nat).
  { intros l Hl. apply elem_of_rev_seq in Hl. rewrite Hml2. clear -Hl Hlev Hnl. lia. }
  destruct (connect_links _ _ _ _ _ _ Hf2 Hep2 Hne2 (StronglySorted_rev_seq 0 (S np.1)) Hls2 Hconn) as (Hf3 & Hst3 & Ho3 & Hn3 & He3 & Hc3).
  assert (Hst03 : same_table h0 h3) by (by eapply same_table_trans).
  assert (Ho03 : others np h0 h3) by (by eapply others_trans).
  assert (Hle : forall l, layer_empty h2 l <-> layer_empty h0 l) by (intros; by apply same_table_layer_empty).
  assert (Hown3e : forall l, (l < NB_LAYER_MAX)%nat -> layer_empty h0 l \/ (np.1 < l /\ ep.1 < l)%nat -> own_list h3 np l = Some []).
  { intros l Hl Hcase. destruct (decide (l <= np.1)%nat) as [Hle1|Hgt1].
    - assert (Hem : layer_empty h0 l) by (destruct Hcase as [?|[Hx _]]; [done|clear -Hx Hle1; lia]).
      rewrite (He3 l); [|apply elem_of_rev_seq; clear -Hle1; lia|by apply Hle].
      rewrite (Hn2 l); [by apply Hown0|]. rewrite elem_of_rev_seq. clear -Hle1; lia.
    - rewrite (Hn3 l); [|rewrite elem_of_rev_seq; clear -Hgt1; lia].
      destruct (decide (l <= ep.1)%nat) as [Hle2|Hgt2].
      + apply He2; [apply elem_of_rev_seq; clear -Hle2 Hgt1; lia|]. destruct Hcase as [?|[_ Hx]]; [done|clear -Hx Hle2; lia].
      + rewrite (Hn2 l); [by apply Hown0|]. rewrite elem_of_rev_seq. clear -Hgt2; lia. }
  assert (Hr0 : rstate h3 np data [] h3).
  { constructor; [apply Hf3|apply same_table_refl|done|]. intros p pt _ Hpt. exists pt. split; [done|].
    intros l nbs Hn. exists nbs. split; [done|]. right. split; [|done]. intros [_ Hin]. by apply elem_of_nil in Hin. }
  unfold reverse_update in Hrev.
  destruct (rev_layers_state h3 np data (rev (seq 0 (S np.1))) [] h3 h4 Hf3 Hr0) as (Sf & [Rc Rs Rn Rp] & HSf); [|done|].
  { intros l nv Hl Hown. apply elem_of_rev_seq in Hl.
    destruct (decide (layer_empty h0 l)) as [Hem|Hem].
    - rewrite Hown3e in Hown; [|clear -Hl Hnp16; lia|auto]. injection Hown as <-. constructor.
    - destruct (Hc3 l) as (nv' & Hown' & Hch & _); [apply elem_of_rev_seq; clear -Hl; lia|by rewrite Hle|].
      rewrite Hown in Hown'. injection Hown' as <-.
      destruct Hch as (hc & F & _ & Hsc & _ & _ & _ & (G1 & _ & G3) & _).
      apply Forall_forall. intros n Hn. rewrite Forall_forall in G1, G3. split; [|by apply G3].
      eapply elt_ok_grows; [|by apply G1]. apply same_table_grows. by apply same_table_sym. }
  set (h' := check_entry_point h4 np).
  assert (Hpbl : points_by_layer h' = points_by_layer h4) by apply check_entry_pbl.
  assert (Hg' : forall p, get_pt h' p = get_pt h4 p) by (intros p; by apply get_pt_pbl).
  assert (Hnp' : get_pt h' np = get_pt h3 np) by (by rewrite Hg').
  assert (Hst04 : same_table h0 h4) by (by eapply same_table_trans).
  assert (Hle' : forall l, layer_empty h' l <-> layer_empty h0 l).
  { intros l. unfold layer_empty at 1. rewrite Hpbl. by apply same_table_layer_empty. }
  assert (Hown' : forall l, own_list h' np l = own_list h3 np l) by (intros; by apply own_list_get).
  assert (Hnear' : forall l B, near h3 np l B -> near h' np l B) by (intros l B; apply near_own; apply Hown').
  assert (Hlike : like h h' np h3).
  { split_and!.
    - intros p. unfold static. rewrite Hg'. symmetry. apply Rs.
    - by eapply others_trans; [apply others_sym|].
    - destruct Hst03 as ((? & ? & ? & ? & _) & _). subst h0. simpl in *. congruence.
    - destruct Hst03 as ((? & ? & ? & ? & _) & _). subst h0. simpl in *. congruence.
    - destruct Hst03 as ((? & ? & ? & ? & _) & _). subst h0. simpl in *. congruence.
    - destruct Hst03 as ((? & ? & ? & ? & _) & _). subst h0. simpl in *. congruence. }
  assert (Hnc3 : forall l, nb_conn h3 l = nb_conn h l).
  { intros l. unfold nb_conn. by destruct Hlike as (_ & _ & -> & _). }
  assert (Hnc2 : forall l, nb_conn h2 l = nb_conn h l).
  { intros l. rewrite <- (Hnc0 l). unfold nb_conn. by destruct Hst2 as ((_ & -> & _) & _). }
  assert (HSl : forall p, p ∈ Sf <-> exists j, (j <= np.1)%nat /\ link h' j np p).
  { intros p. rewrite HSf. split.
    - intros [Hp|(j & Hj & Hl)]; [by apply elem_of_nil in Hp|]. apply elem_of_rev_seq in Hj.
      exists j. split; [clear -Hj; lia|]. by apply (link_get h3).
    - intros (j & Hj & Hl). right. exists j. split; [apply elem_of_rev_seq; clear -Hj; lia|]. by apply (link_get h3) in Hl. }
  destruct Hlike as (L1 & L2 & L3 & L4 & L5 & L6).
  assert (Hstat : forall p, static h' p = static h0 p).
  { intros p. rewrite <- L1. apply Hst03. }
  constructor.
  - done.
  - specialize (Hstat np). unfold static in Hstat. rewrite (Hg0 np), Hnew in Hstat.
    destruct (get_pt h' np) as [npt|]; [|done]. simpl in Hstat. injection Hstat as ? ? ?. eauto.
  - intros p pt Hp. pose proof (Hold p pt Hp) as Hpne.
    assert (Hp3 : get_pt h3 p = Some pt) by (by rewrite <- L2).
    destruct (Rp p pt Hpne Hp3) as (pt' & Hpt' & Hl'). exists pt'. rewrite Hg'. split; [done|].
    destruct (same_table_get _ _ _ _ Rs Hp3) as (pt2 & E2 & ? & ? & _). rewrite Hpt' in E2. injection E2 as <-.
    split_and!; auto. intros l nbs Hn. destruct (Hl' l nbs Hn) as (nbs' & Hn' & Hcase). exists nbs'. split; [done|].
    by rewrite <- HSl, <- Hnc3.
  - intros p. rewrite <- Hvalid0. unfold valid. rewrite Hg'.
    change (valid h4 p <-> valid h0 p). by apply same_table_valid.
  - congruence.
  - intros ep' Eep'. rewrite Eep in Eep'. injection Eep' as <-. split_and!.
    + intros l Hl Hcase. rewrite Hown'. apply Hown3e; [done|]. by rewrite <- Hle'.
    + intros l Hem Hl. destruct (Hc3 l) as (nv & Hnv & Hch & Hnr & _); [apply elem_of_rev_seq; clear -Hl; lia|by rewrite Hle, <- Hle'|].
      exists h3, nv. rewrite Hown'. split_and!; auto; [by repeat split|].
      intros H1. apply Hnear'. eapply near_le; [apply Hnr; by rewrite Hnc2|]. rewrite <- Edq'. done.
    + intros l Hem Hl. destruct (Hc2 l) as (nv & Hnv & Hch & _ & Hnr & _); [apply elem_of_rev_seq; clear -Hl; lia|by rewrite <- Hle'|].
      assert (E3 : own_list h3 np l = own_list h2 np l) by (apply Hn3; rewrite elem_of_rev_seq; clear -Hl; lia).
      exists h3, nv. rewrite Hown', E3. split_and!; auto; [by repeat split|apply (greedy_at_step h2 h3 np data l nv Hst3 Ho3 Hch)|].
      intros H1. apply Hnear'. apply (near_own h2); [done|]. rewrite <- Edq'. apply Hnr. by rewrite Hgm0.
    + intros l1 l2 nv n Hlt1 Hem1 Hem2 Hl2 Hnv Hn Hpos. rewrite Hown' in Hnv.
      assert (Hnc1 : forall l, (1 <= nb_conn h l)%nat).
      { intros l. unfold nb_conn. unfold get_max_nb_connection in Hpos.
        assert (max_nb_connection h <> 0)%nat by (intros E; rewrite E in Hpos; by apply Nat.lt_irrefl in Hpos).
        destruct (l =? 0)%nat; clear -H; lia. }
      rewrite Hle' in Hem1, Hem2. apply Hnear'.
      destruct (decide (l1 <= np.1)%nat) as [A1|A1].
      * destruct (Hc3 l1) as (nv' & Hnv' & _ & _ & Hpair); [apply elem_of_rev_seq; clear -A1; lia|by rewrite Hle|].
        rewrite Hnv in Hnv'. injection Hnv' as <-. apply (Hpair l2); auto; [apply elem_of_rev_seq; clear -A1 Hlt1; lia|by rewrite Hle|by rewrite Hnc2].
      * assert (E3 : own_list h3 np l1 = own_list h2 np l1) by (apply Hn3; rewrite elem_of_rev_seq; clear -A1; lia).
        destruct (decide (l1 <= ep.1)%nat) as [A2|A2].
        2: { exfalso. assert (Hl16 : (l1 < NB_LAYER_MAX)%nat).
             { unfold own_list in Hnv. destruct (f_pt _ _ _ _ Hf3) as (npt & Hnpt & _). rewrite Hnpt in Hnv. simpl in Hnv.
               apply lookup_lt_Some in Hnv. destruct (c_pt _ _ (f_core _ _ _ _ Hf3) _ _ Hnpt) as [_ Hx]. by rewrite Hx in Hnv. }
             rewrite Hown3e in Hnv; [|done|right; clear -A1 A2; lia]. injection Hnv as <-. by apply elem_of_nil in Hn. }
        destruct (Hc2 l1) as (nv' & Hnv' & _ & Hd & _ & Hpair); [apply elem_of_rev_seq; clear -A1 A2; lia|done|].
        rewrite E3, Hnv' in Hnv. injection Hnv as <-.
        destruct (decide (l2 <= np.1)%nat) as [B1|B1].
        -- destruct (Hc3 l2) as (nv2 & _ & _ & Hnr & _); [apply elem_of_rev_seq; clear -B1; lia|by rewrite Hle|].
           eapply near_le; [apply Hnr; by rewrite Hnc2|]. by apply Hd.
        -- apply (near_own h2); [apply Hn3; rewrite elem_of_rev_seq; clear -B1; lia|].
           apply (Hpair l2); auto; [apply elem_of_rev_seq; clear -A1 A2 B1 Hlt1; lia|by rewrite Hgm0].
Qed.

End Link.
