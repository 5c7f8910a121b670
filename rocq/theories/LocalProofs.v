(** Local optimality of the layer search: every point returned was expanded, so its neighbours were
    examined. *)
From stdpp Require Import relations.
From Verif Require Import Prelude Model Lib Table SearchProofs SelectProofs InsertProofs QueryProofs ExhaustProofs.

Section Local.
Context {T : Type} (dist : list T -> list T -> Z) (so : StdOps).
Context (LAWS : StdLaws so) (Hnn : forall a b, (0 <= dist a b)%Z).
Context (h : hnsw (T:=T)) (q : list T) (ef layer : nat) (filter : option (dataid -> bool)).
Context (Sset : pid -> Prop) (ep : pid) (d0 : Z).
Notation sinv := (sinv dist so h q ef filter Sset ep d0).
Notation top := (top dist so h q ef filter).
Notation link := (link h layer).
Notation in_ret := (in_ret so).
Notation in_cand := (in_cand so).

(** every point kept is still a candidate, or being expanded ([exc]), or expanded *)
Definition expanded (exc : option pid) (s : sst so) : Prop :=
  forall p, in_ret (s_ret so s) p -> in_cand (s_cand so s) p \/ exc = Some p \/
    forall p', link p p' -> p' ∈ s_vis so s.

Hypothesis Hef : filter = None \/ (1 <= ef)%nat.

Lemma scan_expanded exc nbs s b s' :
  sinv s -> expanded exc s -> (forall n, n ∈ nbs -> valid h (n_pid n) /\ Sset (n_pid n)) ->
  scan_neighbours dist so h q ef filter nbs s = Ok (b, s') -> expanded exc s'.
Proof using LAWS Hnn Hef.
  revert s. induction nbs as [|e nbs IH]; intros s Hi Ht Hn Hscan; simpl in Hscan.
  - by injection Hscan as <- <-.
  - destruct (Hn e) as [[ept Hept] HSe]; [left|].
    assert (Hn' : forall n, n ∈ nbs -> valid h (n_pid n) /\ Sset (n_pid n)).
    { intros n Hin. apply Hn. by right. }
    destruct (decide (n_pid e ∈ s_vis so s)) as [Hvis|Hvis].
    { rewrite bool_decide_eq_true_2 in Hscan by done. by eapply IH. }
    rewrite bool_decide_eq_false_2 in Hscan by done.
    destruct (h_peek_nonempty so LAWS (s_ret so s)) as [f Hf]; [apply Hi|].
    rewrite Hf, Hept in Hscan. simpl in Hscan.
    destruct ((dist q (pt_data ept) <? n_dist f)%Z || (h_len so (s_ret so s) <? ef)%nat) eqn:Etest.
    + destruct (push_ret_spec dist so LAWS h q ef filter Sset ep d0 Hef s (n_pid e) ept Hi Hept Hvis) as (ret & Hret & Hcase).
      rewrite Hret in Hscan. simpl in Hscan.
      eapply IH; [..|exact Hscan]; auto.
      * eapply push_inv; eauto.
      * intros p Hp. simpl in *. unfold in_cand. rewrite (law_push _ LAWS). simpl.
        assert (Hp2 : in_ret ret p).
        { unfold ExhaustProofs.in_ret in *. destruct (shrink_ret_spec so LAWS ef ret) as [[_ E]|[_ (x & E & _)]].
          - by rewrite E in Hp.
          - rewrite E. simpl. by right. }
        assert (Hp3 : p = n_pid e \/ in_ret (s_ret so s) p).
        { unfold ExhaustProofs.in_ret in *. destruct Hcase as [[-> _]|[[E _]|[E _]]]; [by right| |].
          - rewrite E in Hp2. simpl in Hp2. apply elem_of_cons in Hp2 as [->|?]; auto.
          - rewrite E in Hp2. simpl in Hp2. apply elem_of_list_singleton in Hp2 as ->. by left. }
        destruct Hp3 as [->|Hp3]; [left; left|].
        destruct (Ht p Hp3) as [?|[?|Hl]]; [left; by right|right; by left|].
        right; right. intros p' Hp'. right. auto.
    + eapply IH; [..|exact Hscan]; auto.
      * eapply skip_inv; eauto. by exists ept.
      * intros p Hp. simpl in *. destruct (Ht p Hp) as [?|[?|Hl]]; [by left|right; by left|].
        right; right. intros p' Hp'. right. auto.
Qed.

Hypothesis Hlinks : links_ok h layer Sset.

Lemma iter_expanded s :
  sinv s -> top s -> expanded None s ->
  (search_iter dist so h q ef layer filter s = Ok (inl (s_ret so s)) /\
     forall p p', in_ret (s_ret so s) p -> link p p' -> p' ∈ s_vis so s) \/
  exists s', search_iter dist so h q ef layer filter s = Ok (inr s') /\ sinv s' /\ top s' /\ expanded None s'.
Proof using LAWS Hnn Hef Hlinks.
  intros Hi Ht Hcl.
  destruct (iter_top dist so LAWS Hnn h q ef layer filter Sset ep d0 Hef Hlinks s Hi Ht) as [E|(s' & E & Hi' & Ht' & _)].
  - left. split; [done|]. intros p p' Hp Hpp.
    destruct (Hcl p Hp) as [Hin|[?|Hl]]; [exfalso|done|by apply Hl].
    unfold search_iter in E. destruct (h_pop so (s_cand so s)) as [[c cand']|] eqn:Epop.
    2: { unfold ExhaustProofs.in_cand in Hin. rewrite (law_pop_none _ LAWS _ Epop) in Hin. by apply elem_of_nil in Hin. }
    destruct (pop_inv dist so LAWS h q ef filter Sset ep d0 s c cand' Hi Epop) as (Hi1 & (cpt & Hc & Hcd) & Hcvis).
    destruct (h_peek_nonempty so LAWS (s_ret so s)) as [f Hf]; [apply Hi|].
    destruct (h_peek_some so LAWS _ _ Hf) as [Hfin Hfmax]. rewrite Hf in E. simpl in E.
    apply bind_inv in E as (_ & _ & E). apply bind_inv in E as (_ & _ & E).
    destruct ((n_dist f <? - n_dist c)%Z && _) eqn:Estop.
    + apply andb_true_iff in Estop as [Estop _].
      apply elem_of_list_fmap in Hp as (x & -> & Hx).
      apply elem_of_list_fmap in Hin as (y & Ey & Hy).
      rewrite Forall_forall in Hfmax. specialize (Hfmax x Hx).
      pose proof (i_ret _ _ _ _ _ _ _ _ _ _ Hi) as Hr. rewrite Forall_forall in Hr.
      destruct (Hr x Hx) as (pt & Hpt & Hd).
      pose proof (i_cand _ _ _ _ _ _ _ _ _ _ Hi) as Hk. rewrite Forall_forall in Hk.
      destruct (Hk y Hy) as (pt2 & Hpt2 & Hd2). rewrite <- Ey, Hpt in Hpt2. injection Hpt2 as <-.
      destruct (law_pop_some _ LAWS _ _ _ Epop) as [Hperm Hmax].
      rewrite Hperm in Hy. apply elem_of_cons in Hy as [->|Hy].
      * clear -Estop Hfmax Hd Hd2. lia.
      * rewrite Forall_forall in Hmax. specialize (Hmax y Hy). clear -Estop Hfmax Hd Hd2 Hmax. lia.
    + rewrite Hc in E. simpl in E.
      destruct (Hlinks (n_pid c) cpt) as (nbs & Hnbs & Hinn); [|done|].
      { eapply elt_in_S; [exact Hi|]. exact Hcvis. }
      rewrite Hnbs in E. simpl in E.
      destruct (scan_inv dist so LAWS Hnn h q ef filter Sset ep d0 Hef nbs _ Hi1 Hinn) as (s' & Hs & _).
      rewrite Hs in E. simpl in E. done.
  - right. exists s'. split_and!; auto.
    unfold search_iter in E. destruct (h_pop so (s_cand so s)) as [[c cand']|] eqn:Epop; [|done].
    destruct (pop_inv dist so LAWS h q ef filter Sset ep d0 s c cand' Hi Epop) as (Hi1 & (cpt & Hc & Hcd) & Hcvis).
    apply bind_inv in E as (f & Hf & E). apply bind_inv in E as (_ & _ & E).
    apply bind_inv in E as (_ & _ & E).
    match type of E with (if ?b then _ else _) = _ => destruct b end; [done|].
    rewrite Hc in E. simpl in E.
    destruct (Hlinks (n_pid c) cpt) as (nbs & Hnbs & Hinn); [|done|].
    { eapply elt_in_S; [exact Hi|]. exact Hcvis. }
    rewrite Hnbs in E. simpl in E.
    destruct (scan_inv dist so LAWS Hnn h q ef filter Sset ep d0 Hef nbs _ Hi1 Hinn) as (s2 & Hs & Hi2 & Hm & Hv1 & Hv2).
    rewrite Hs in E. simpl in E. injection E as <-.
    assert (Hcl1 : expanded (Some (n_pid c)) (SST so (s_ret so s) cand' (s_vis so s))).
    { intros p Hp. simpl in *. destruct (Hcl p Hp) as [Hic|[?|Hl]]; [|done|by right; right].
      unfold ExhaustProofs.in_cand in *. destruct (law_pop_some _ LAWS _ _ _ Epop) as [Hperm _].
      rewrite Hperm in Hic. simpl in Hic. apply elem_of_cons in Hic as [->|Hic]; [by right; left|by left]. }
    pose proof (scan_expanded _ _ _ _ _ Hi1 Hcl1 Hinn Hs) as Hcl2.
    intros p Hp. destruct (Hcl2 p Hp) as [?|[[= <-]|?]]; [by left| |by right; right].
    right; right. intros p' (pt & nbs' & n & Hpt & Hn & Hnin & <-).
    rewrite Hc in Hpt. injection Hpt as <-. rewrite Hnbs in Hn. injection Hn as <-. auto.
Qed.

Lemma loop_expanded fuel s ret :
  sinv s -> top s -> expanded None s -> search_loop dist so fuel h q ef layer filter s = Ok ret ->
  exists s', top s' /\ ret = s_ret so s' /\
    (forall p p', in_ret ret p -> link p p' -> p' ∈ s_vis so s').
Proof using LAWS Hnn Hef Hlinks.
  revert s. induction fuel as [|fuel IH]; intros s Hi Ht Hcl Hl; [done|]. simpl in Hl.
  destruct (iter_expanded s Hi Ht Hcl) as [[E Hfin]|(s' & E & Hi' & Ht' & Hcl')]; rewrite E in Hl; simpl in Hl.
  - injection Hl as <-. eexists. split_and!; eauto.
  - by eapply IH.
Qed.

End Local.

Section LocalLayer.
Context {T : Type} (dist : list T -> list T -> Z) (so : StdOps).
Context (LAWS : StdLaws so) (Hnn : forall a b, (0 <= dist a b)%Z).

(** no neighbour of a returned point is nearer than the returned points, unless it is returned *)
Lemma search_layer_local (h : hnsw (T:=T)) q ep ept ef layer filter ly ret (Sset : pid -> Prop) :
  points_by_layer h !! layer = Some ly -> ly <> [] ->
  get_pt h ep = Some ept -> Sset ep -> links_ok h layer Sset ->
  (filter = None \/ (1 <= ef)%nat) ->
  search_layer dist so h q ep ef layer filter = Ok ret ->
  forall x p pt, x ∈ h_iter so ret -> link h layer (n_pid x) p -> get_pt h p = Some pt -> passes filter pt ->
    p ∈ n_pid <$> h_iter so ret \/
    ((ef <= h_len so ret)%nat /\ Forall (fun x => (n_dist x <= dist q (pt_data pt))%Z) (h_iter so ret)).
Proof using LAWS Hnn.
  intros Hly Hne Hg HS Hl Hef. unfold search_layer. rewrite Hly.
  destruct ly as [|p0 ly]; [done|].
  destruct (search_init_inv dist so LAWS Hnn h q ef filter Sset ep ept Hg HS) as (s & -> & Hi & Hm & Hvis & Hret & Hcand).
  rewrite bind_Ok. intros Hloop.
  destruct (loop_expanded dist so LAWS Hnn h q ef layer filter Sset ep _ Hef Hl (S (table_size h)) s ret Hi) as
    (s' & Ht' & -> & Hc); [..|exact Hloop|].
  { intros p pt Hp Hpt _. left. unfold in_ret. rewrite Hret. rewrite Hvis in Hp. done. }
  { intros p Hp. left. unfold in_cand. rewrite Hcand. unfold in_ret in Hp. rewrite Hret in Hp. done. }
  intros x p pt Hx Hlk Hpt Hps. apply (Ht' p pt); auto.
  apply (Hc (n_pid x)); [|done]. unfold in_ret. apply elem_of_list_fmap. eauto.
Qed.

Lemma search_filter_local (h : hnsw (T:=T)) q k efa filter ep res :
  lwf dist h -> entry_point h = Some ep -> (filter = None \/ 1 <= Nat.max efa k)%nat ->
  search_filter dist so h q k efa filter = Ok res ->
  exists l, layer_to_search h = Ok l /\
  forall a p pt, a ∈ res -> link h l (p_id a) p -> get_pt h p = Some pt -> passes filter pt ->
    p ∈ p_id <$> res \/
    (length res = k /\ Forall (fun b => (distance b <= dist q (pt_data pt))%Z) res).
Proof using LAWS Hnn.
  intros Hwf Hep Hef Hres.
  destruct (search_filter_run dist so LAWS Hnn h q k efa filter ep Hwf Hep Hef) as
    (pv & pvt & ept & l & ly & hp & res' & Hept & Hpvt & Hle & Hly & Hne & Hl16 & Hlow & Hfp & Hhp & Hs & R1 & R2 & R3 & R4 & R5 & A1 & A2 & A3).
  rewrite Hres in Hs. injection Hs as <-.
  exists l. split.
  { unfold search_filter in Hres. rewrite Hep, Hfp, bind_Ok in Hres. cbn zeta in Hres.
    assert (Hv : valid h pv) by (by exists pvt).
    destruct (layer_to_search_spec h pv Hv) as (l' & ly' & Hl' & Hly' & Hne' & _ & Hlow').
    rewrite Hl'. f_equal. destruct (Nat.lt_trichotomy l l') as [?|[?|?]]; [exfalso|done|exfalso].
    - specialize (Hlow' l H). congruence.
    - specialize (Hlow l' H). congruence. }
  intros a p pt Ha Hlk Hpt Hps.
  assert (Hin : exists x, x ∈ take k (h_sorted so hp) /\ n_pid x = p_id a).
  { assert (Hx : p_id a ∈ n_pid <$> take k (h_sorted so hp)) by (rewrite <- A2; apply elem_of_list_fmap; eauto).
    apply elem_of_list_fmap in Hx as (x & ? & ?). eauto. }
  destruct Hin as (x & Hx & Ex).
  assert (Hx' : x ∈ h_iter so hp).
  { rewrite <- (law_sorted_perm _ LAWS). apply elem_of_take in Hx as (i & Hx & _). by eapply elem_of_list_lookup_2. }
  assert (Hlen : length res = length (take k (h_sorted so hp))).
  { rewrite <- (fmap_length p_id res), A2, fmap_length. done. }
  assert (Hlen2 : length (h_sorted so hp) = h_len so hp) by (unfold h_len; by rewrite (law_sorted_perm _ LAWS)).
  assert (Hfull : forall d, (k <= length (h_sorted so hp))%nat ->
     (forall y, y ∈ take k (h_sorted so hp) -> (n_dist y <= d)%Z) ->
     length res = k /\ Forall (fun b => (distance b <= d)%Z) res).
  { intros d Hk Hall. split; [rewrite Hlen, take_length; lia|]. rewrite Forall_forall. intros b Hb.
    assert (Hy : distance b ∈ n_dist <$> take k (h_sorted so hp)) by (rewrite <- A3; apply elem_of_list_fmap; eauto).
    apply elem_of_list_fmap in Hy as (y & -> & Hy). auto. }
  destruct (search_layer_local h q pv pvt (Nat.max efa k) l filter ly hp (fun _ => True) Hly Hne Hpvt I
      ltac:(by apply (core_links dist), Hl16; apply Hwf) Hef Hhp x p pt Hx' ltac:(by rewrite Ex) Hpt Hps) as [Hin|[Hbig Hall]].
  - destruct (decide (p ∈ n_pid <$> take k (h_sorted so hp))) as [?|Hnot]; [left; by rewrite A2|right].
    rewrite <- (law_sorted_perm _ LAWS), <- (take_drop k (h_sorted so hp)), fmap_app in Hin.
    apply elem_of_app in Hin as [?|Hin]; [done|].
    apply elem_of_list_fmap in Hin as (z & Ez & Hz).
    assert (Hzd : n_dist z = dist q (pt_data pt)).
    { assert (Hz' : z ∈ h_iter so hp).
      { rewrite <- (law_sorted_perm _ LAWS), <- (take_drop k (h_sorted so hp)). apply elem_of_app. by right. }
      rewrite Forall_forall in R1. destruct (R1 z Hz') as (zt & Hzt & ->). rewrite <- Ez, Hpt in Hzt. by injection Hzt as <-. }
    apply elem_of_list_lookup in Hz as [i Hz]. rewrite lookup_drop in Hz.
    apply Hfull; [apply lookup_lt_Some in Hz; lia|].
    intros y Hy. rewrite <- Hzd. apply elem_of_take in Hy as (j & Hy & Hj).
    eapply (sorted_by_lookup n_dist (h_sorted so hp) j (k + i)); eauto; [apply (law_sorted _ LAWS)|lia].
  - right. apply Hfull; [lia|]. intros y Hy. rewrite Forall_forall in Hall. apply Hall.
    rewrite <- (law_sorted_perm _ LAWS). apply elem_of_take in Hy as (j & Hy & _). by eapply elem_of_list_lookup_2.
Qed.

End LocalLayer.
