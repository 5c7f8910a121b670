(** What the layer search keeps among the points it visits, and which points it visits when
    [ef] is large. *)
From stdpp Require Import relations.
From Verif Require Import Prelude Model Lib Table SearchProofs.

Section Exhaust.
Context {T : Type} (dist : list T -> list T -> Z) (so : StdOps).
Context (LAWS : StdLaws so) (Hnn : forall a b, (0 <= dist a b)%Z).
Context (h : hnsw (T:=T)) (q : list T) (ef layer : nat) (filter : option (dataid -> bool)).

(** direct link at the layer *)
Definition link (p p' : pid) : Prop :=
  exists pt nbs n, get_pt h p = Some pt /\ pt_nbs pt !! layer = Some nbs /\ n ∈ nbs /\ n_pid n = p'.

Definition passes (pt : point (T:=T)) : Prop :=
  match filter with None => True | Some flt => flt (pt_oid pt) = true end.

Context (Sset : pid -> Prop) (ep : pid) (d0 : Z).
Notation sinv := (sinv dist so h q ef filter Sset ep d0).

Definition in_ret (ret : heap so) (p : pid) : Prop := p ∈ n_pid <$> h_iter so ret.

Definition top (s : sst so) : Prop :=
  forall p pt, p ∈ s_vis so s -> get_pt h p = Some pt -> passes pt ->
    in_ret (s_ret so s) p \/
    ((ef <= h_len so (s_ret so s))%nat /\
     Forall (fun x => (n_dist x <= dist q (pt_data pt))%Z) (h_iter so (s_ret so s))).

Hypothesis Hef : filter = None \/ (1 <= ef)%nat.

Lemma top_skip s e f ept :
  sinv s -> top s -> h_peek so (s_ret so s) = Some f -> get_pt h e = Some ept ->
  (dist q (pt_data ept) <? n_dist f)%Z || (h_len so (s_ret so s) <? ef)%nat = false ->
  top (SST so (s_ret so s) (s_cand so s) (e :: s_vis so s)).
Proof.
  intros Hi Ht Hf He Htest p pt [->|Hp]%elem_of_cons Hpt Hps; simpl; [|by eapply Ht].
  right. rewrite He in Hpt. injection Hpt as <-.
  apply orb_false_iff in Htest as [H1 H2]. split; [clear -H2; lia|].
  destruct (h_peek_some so LAWS _ _ Hf) as [_ Hm].
  eapply Forall_impl; [exact Hm|]. simpl. intros x Hx. clear -H1 Hx. lia.
Qed.

Lemma top_push s e f ept ret cand :
  sinv s -> top s -> h_peek so (s_ret so s) = Some f -> get_pt h e = Some ept -> e ∉ s_vis so s ->
  (dist q (pt_data ept) <? n_dist f)%Z || (h_len so (s_ret so s) <? ef)%nat = true ->
  push_ret so h filter e (pt_oid ept) (dist q (pt_data ept)) (s_ret so s) = Ok ret ->
  top (SST so (shrink_ret so ef ret) cand (e :: s_vis so s)).
Proof.
  intros Hi Ht Hf He Hvis Htest Hret.
  destruct (push_ret_spec dist so LAWS h q ef filter Sset ep d0 Hef s e ept Hi He Hvis) as (ret' & Hret' & Hcase).
  rewrite Hret in Hret'. injection Hret' as <-.
  destruct (h_peek_some so LAWS _ _ Hf) as [Hfin Hm].
  (* before shrinking *)
  assert (Hpre : forall p pt, p ∈ e :: s_vis so s -> get_pt h p = Some pt -> passes pt ->
    in_ret ret p \/ ((ef <= h_len so ret)%nat /\
       Forall (fun x => (n_dist x <= dist q (pt_data pt))%Z) (h_iter so ret))).
  { intros p pt Hp Hpt Hps.
    destruct Hcase as [[-> (flt & Ef & Erej)]|[[Hperm Hfl]|[Hone (flt & x & Ef & Eacc & Hx & Hxe & Hrej)]]].
    - apply elem_of_cons in Hp as [->|Hp]; [|by eapply Ht].
      rewrite He in Hpt. injection Hpt as <-. unfold passes in Hps. rewrite Ef in Hps. congruence.
    - assert (Hin : forall p', in_ret (s_ret so s) p' -> in_ret ret p').
      { intros p' Hp'. unfold in_ret. rewrite Hperm. simpl. by right. }
      apply elem_of_cons in Hp as [->|Hp].
      { left. unfold in_ret. rewrite Hperm. left. }
      destruct (Ht p pt Hp Hpt Hps) as [?|[Hfull Hall]]; [left; auto|right].
      assert (Hlen : h_len so ret = S (h_len so (s_ret so s))) by (unfold h_len; by rewrite Hperm).
      split; [clear -Hlen Hfull; lia|]. rewrite Hperm. constructor; [|done]. simpl.
      rewrite Forall_forall in Hall. specialize (Hall f Hfin).
      apply orb_true_iff in Htest as [H1|H1]; [clear -Hall H1; lia|clear -H1 Hfull; lia].
    - apply elem_of_cons in Hp as [->|Hp].
      { left. unfold in_ret. rewrite Hone. left. }
      destruct (Ht p pt Hp Hpt Hps) as [Hir|[Hfull Hall]].
      { exfalso. unfold in_ret in Hir. rewrite Hx in Hir. simpl in Hir.
        apply elem_of_list_singleton in Hir as ->. apply Hrej. exists pt. split; [done|].
        unfold passes in Hps. by rewrite Ef in Hps. }
      right. unfold h_len in *. rewrite Hx in *. rewrite Hone. simpl in *. split; [done|].
      repeat constructor. simpl. rewrite Forall_forall in Hall. specialize (Hall f Hfin).
      apply orb_true_iff in Htest as [H1|H1]; [clear -Hall H1; lia|clear -H1 Hfull; lia]. }
  destruct (shrink_ret_spec so LAWS ef ret) as [[Hle ->]|[Hgt (x & Hperm & Hmax)]].
  - intros p pt Hp Hpt Hps. simpl in *. by apply Hpre.
  - assert (Hlen : h_len so ret = S (h_len so (shrink_ret so ef ret))) by (unfold h_len; by rewrite Hperm).
    intros p pt Hp Hpt Hps. simpl in *. destruct (Hpre p pt Hp Hpt Hps) as [Hir|[_ Hall]].
    + unfold in_ret in Hir. rewrite Hperm in Hir. simpl in Hir. apply elem_of_cons in Hir as [->|Hir]; [|by left].
      right. split; [clear -Hlen Hgt; lia|].
      assert (Hx : dist q (pt_data pt) = n_dist x).
      { (* x is a well formed element *)
        pose proof (push_inv dist so LAWS Hnn h q ef filter Sset ep d0 Hef s e ept ret) as HH.
        assert (Hall : Forall (elt_ok dist h q) (h_iter so ret)).
        { destruct Hcase as [[-> _]|[[Hp2 _]|[Hp2 _]]].
          - apply Hi.
          - rewrite Hp2. constructor; [by exists ept|apply Hi].
          - rewrite Hp2. repeat constructor. by exists ept. }
        rewrite Hperm in Hall. inversion Hall as [|? ? (pt' & Hpt' & Hd) _]; subst.
        rewrite Hpt in Hpt'. injection Hpt' as <-. done. }
      rewrite Hx. exact Hmax.
    + right. split; [clear -Hlen Hgt; lia|]. rewrite Hperm in Hall. by inversion Hall.
Qed.

Lemma scan_top nbs s b s' :
  sinv s -> top s -> (forall n, n ∈ nbs -> valid h (n_pid n) /\ Sset (n_pid n)) ->
  scan_neighbours dist so h q ef filter nbs s = Ok (b, s') -> top s'.
Proof.
  revert s. induction nbs as [|e nbs IH]; intros s Hi Ht Hn Hscan; simpl in Hscan.
  - by injection Hscan as <- <-.
  - destruct (Hn e) as [[ept Hept] HSe]; [left|].
    assert (Hn' : forall n, n ∈ nbs -> valid h (n_pid n) /\ Sset (n_pid n)).
    { intros n Hin. apply Hn. by right. }
    destruct (decide (n_pid e ∈ s_vis so s)) as [Hvis|Hvis].
    { rewrite bool_decide_eq_true_2 in Hscan by done. by eapply IH. }
    rewrite bool_decide_eq_false_2 in Hscan by done.
    destruct (h_peek_nonempty so LAWS (s_ret so s)) as [f Hf]; [apply Hi|].
    rewrite Hf, Hept in Hscan. simpl in Hscan.
    destruct ((dist q (pt_data ept) <? n_dist f)%Z || (h_len so (s_ret so s) <? ef)%nat) eqn:Etest.
    + destruct (push_ret_spec dist so LAWS h q ef filter Sset ep d0 Hef s (n_pid e) ept Hi Hept Hvis) as (ret & Hret & _).
      rewrite Hret in Hscan. simpl in Hscan.
      eapply IH; [..|exact Hscan]; auto.
      * eapply push_inv; eauto.
      * eapply top_push; eauto.
    + eapply IH; [..|exact Hscan]; auto.
      * eapply skip_inv; eauto. by exists ept.
      * eapply top_skip; eauto.
Qed.

Hypothesis Hlinks : links_ok h layer Sset.

Lemma iter_top s :
  sinv s -> top s ->
  (search_iter dist so h q ef layer filter s = Ok (inl (s_ret so s))) \/
  exists s', search_iter dist so h q ef layer filter s = Ok (inr s') /\ sinv s' /\ top s' /\
    (smeas so h s' < smeas so h s)%nat.
Proof.
  intros Hi Ht.
  destruct (search_iter_inv dist so LAWS Hnn h q ef layer filter Sset ep d0 Hef Hlinks s Hi)
    as [?|(s' & Hs & Hi' & Hm)]; [by left|right].
  exists s'. split_and!; auto.
  unfold search_iter in Hs. destruct (h_pop so (s_cand so s)) as [[c cand']|] eqn:Epop; [|done].
  destruct (pop_inv dist so LAWS h q ef filter Sset ep d0 s c cand' Hi Epop) as (Hi1 & (cpt & Hc & Hcd) & Hcvis).
  apply bind_inv in Hs as (f & Hf & Hs). apply bind_inv in Hs as (_ & _ & Hs).
  apply bind_inv in Hs as (_ & _ & Hs).
  match type of Hs with (if ?b then _ else _) = _ => destruct b end; [done|].
  rewrite Hc in Hs. simpl in Hs.
  destruct (Hlinks (n_pid c) cpt) as (nbs & Hnbs & Hin); [|done|].
  { eapply elt_in_S; [exact Hi|]. exact Hcvis. }
  rewrite Hnbs in Hs. simpl in Hs. apply bind_inv in Hs as ([b s2] & Hs & Hb).
  destruct b; [done|]. injection Hb as ->.
  eapply scan_top; [exact Hi1| |exact Hin|exact Hs]. exact Ht.
Qed.

Lemma loop_top fuel s ret :
  sinv s -> top s -> search_loop dist so fuel h q ef layer filter s = Ok ret ->
  exists s', sinv s' /\ top s' /\ ret = s_ret so s'.
Proof.
  revert s. induction fuel as [|fuel IH]; intros s Hi Ht Hl; [done|]. simpl in Hl.
  destruct (iter_top s Hi Ht) as [E|(s' & E & Hi' & Ht' & _)]; rewrite E in Hl; simpl in Hl.
  - injection Hl as <-. eauto.
  - by eapply IH.
Qed.

(** ** Large ef: nothing is skipped *)
Hypothesis Hbig : forall ps : list pid, NoDup ps -> Forall (fun p => valid h p /\ Sset p) ps ->
  (length ps <= ef)%nat.

Definition in_cand (c : heap so) (p : pid) : Prop := p ∈ n_pid <$> h_iter so c.

(** every visited point is expanded, or still a candidate, or being expanded ([exc]) *)
Definition closed (exc : option pid) (s : sst so) : Prop :=
  forall p, p ∈ s_vis so s -> in_cand (s_cand so s) p \/ exc = Some p \/
    forall p', link p p' -> p' ∈ s_vis so s.

Lemma ret_small s e : sinv s -> valid h e -> Sset e -> e ∉ s_vis so s -> (h_len so (s_ret so s) < ef)%nat.
Proof.
  intros Hi He HS Hvis.
  assert (H : (length (e :: (n_pid <$> h_iter so (s_ret so s))) <= ef)%nat).
  { apply Hbig.
    - constructor; [|apply Hi]. intros (x & -> & Hx)%elem_of_list_fmap. apply Hvis. by apply Hi.
    - constructor; [done|]. apply Forall_forall. intros p (x & -> & Hx)%elem_of_list_fmap.
      pose proof (i_vis _ _ _ _ _ _ _ _ _ _ Hi) as Hv. rewrite Forall_forall in Hv. apply Hv. by apply Hi. }
  simpl in H. rewrite fmap_length in H. unfold h_len. lia.
Qed.

Lemma scan_closed exc nbs s b s' :
  sinv s -> closed exc s -> (forall n, n ∈ nbs -> valid h (n_pid n) /\ Sset (n_pid n)) ->
  scan_neighbours dist so h q ef filter nbs s = Ok (b, s') -> closed exc s'.
Proof.
  revert s. induction nbs as [|e nbs IH]; intros s Hi Ht Hn Hscan; simpl in Hscan.
  - by injection Hscan as <- <-.
  - destruct (Hn e) as [[ept Hept] HSe]; [left|].
    assert (Hn' : forall n, n ∈ nbs -> valid h (n_pid n) /\ Sset (n_pid n)).
    { intros n Hin. apply Hn. by right. }
    destruct (decide (n_pid e ∈ s_vis so s)) as [Hvis|Hvis].
    { rewrite bool_decide_eq_true_2 in Hscan by done. by eapply IH. }
    rewrite bool_decide_eq_false_2 in Hscan by done.
    destruct (h_peek_nonempty so LAWS (s_ret so s)) as [f Hf]; [apply Hi|].
    rewrite Hf, Hept in Hscan. simpl in Hscan.
    assert (Hsm : (h_len so (s_ret so s) < ef)%nat).
    { eapply ret_small; eauto. by exists ept. }
    replace (h_len so (s_ret so s) <? ef)%nat with true in Hscan by (symmetry; by apply Nat.ltb_lt).
    rewrite orb_true_r in Hscan.
    destruct (push_ret_spec dist so LAWS h q ef filter Sset ep d0 Hef s (n_pid e) ept Hi Hept Hvis) as (ret & Hret & _).
    rewrite Hret in Hscan. simpl in Hscan.
    eapply IH; [..|exact Hscan]; auto.
    + eapply push_inv; eauto.
    + intros p Hp. simpl in *. unfold in_cand. rewrite (law_push _ LAWS). simpl.
      apply elem_of_cons in Hp as [->|Hp]; [left; left|].
      destruct (Ht p Hp) as [?|[?|Hl]]; [left; by right|right; by left|].
      right; right. intros p' Hp'. right. auto.
Qed.

Lemma iter_closed s :
  sinv s -> top s -> closed None s ->
  (search_iter dist so h q ef layer filter s = Ok (inl (s_ret so s)) /\
     forall p p', p ∈ s_vis so s -> link p p' -> p' ∈ s_vis so s) \/
  exists s', search_iter dist so h q ef layer filter s = Ok (inr s') /\ sinv s' /\ top s' /\ closed None s' /\
    (forall p, p ∈ s_vis so s -> p ∈ s_vis so s') /\
    (smeas so h s' < smeas so h s)%nat.
Proof.
  intros Hi Ht Hcl.
  destruct (h_pop so (s_cand so s)) as [[c cand']|] eqn:Epop.
  2: { left. unfold search_iter. rewrite Epop. split; [done|].
       intros p p' Hp Hpp. destruct (Hcl p Hp) as [Hin|[?|Hl]]; [|done|auto].
       unfold in_cand in Hin. rewrite (law_pop_none _ LAWS _ Epop) in Hin. by apply elem_of_nil in Hin. }
  right.
  destruct (pop_inv dist so LAWS h q ef filter Sset ep d0 s c cand' Hi Epop) as (Hi1 & (cpt & Hc & Hcd) & Hcvis).
  destruct (h_peek_nonempty so LAWS (s_ret so s)) as [f Hf]; [apply Hi|].
  destruct (h_peek_some so LAWS _ _ Hf) as [Hfin Hfmax].
  assert (Hfd : (0 <= n_dist f)%Z).
  { pose proof (i_ret _ _ _ _ _ _ _ _ _ _ Hi) as Hr. rewrite Forall_forall in Hr.
    destruct (Hr _ Hfin) as (? & _ & ->). apply Hnn. }
  pose proof (Hnn q (pt_data cpt)) as Hcn.
  destruct (Hlinks (n_pid c) cpt) as (nbs & Hnbs & Hin); [|done|].
  { eapply elt_in_S; [exact Hi|]. exact Hcvis. }
  destruct (scan_inv dist so LAWS Hnn h q ef filter Sset ep d0 Hef nbs _ Hi1 Hin) as (s' & Hs & Hi2 & Hm & Hv1 & Hv2).
  assert (Hnostop : (n_dist f <? - n_dist c)%Z &&
     match filter with None => true | Some _ => (ef <=? h_len so (s_ret so s))%nat end = false).
  { apply andb_false_iff.
    destruct (decide (n_pid c ∈ n_pid <$> h_iter so (s_ret so s))) as [Hir|Hir].
    - left. apply elem_of_list_fmap in Hir as (x & Ex & Hx).
      rewrite Forall_forall in Hfmax. specialize (Hfmax x Hx).
      pose proof (i_ret _ _ _ _ _ _ _ _ _ _ Hi) as Hr. rewrite Forall_forall in Hr.
      destruct (Hr x Hx) as (pt & Hpt & Hd). rewrite <- Ex, Hc in Hpt. injection Hpt as <-.
      clear -Hfmax Hcd Hd. lia.
    - assert (Hlt : (h_len so (s_ret so s) < ef)%nat).
      { assert (H : (length (n_pid c :: (n_pid <$> h_iter so (s_ret so s))) <= ef)%nat).
        { pose proof (i_vis _ _ _ _ _ _ _ _ _ _ Hi) as Hv. rewrite Forall_forall in Hv. apply Hbig.
          - constructor; [done|apply Hi].
          - constructor; [auto|]. apply Forall_forall. intros p (x & -> & Hx)%elem_of_list_fmap.
            apply Hv. by apply Hi. }
        simpl in H. rewrite fmap_length in H. unfold h_len. lia. }
      destruct filter as [flt|] eqn:Efl; [right; clear -Hlt; lia|].
      exfalso. destruct (Ht (n_pid c) cpt Hcvis Hc) as [?|[? _]]; [|done|].
      { unfold passes. by rewrite Efl. } clear -Hlt H. lia. }
  assert (Hrun : search_iter dist so h q ef layer filter s = Ok (inr s')).
  { unfold search_iter. rewrite Epop, Hf. simpl.
    rewrite (assert_true (0 <=? n_dist f)%Z) by (clear -Hfd; lia). simpl.
    rewrite (assert_true (n_dist c <=? 0)%Z) by (clear -Hcd Hcn; lia). simpl.
    rewrite Hnostop, Hc. simpl. rewrite Hnbs. simpl. by rewrite Hs. }
  exists s'. split; [done|]. split; [done|].
  split; [eapply scan_top; [exact Hi1|exact Ht|exact Hin|exact Hs]|].
  split.
  - assert (Hcl1 : closed (Some (n_pid c)) (SST so (s_ret so s) cand' (s_vis so s))).
    { intros p Hp. simpl in *. destruct (Hcl p Hp) as [Hic|[?|Hl]]; [|done|by right; right].
      unfold in_cand in *. destruct (law_pop_some _ LAWS _ _ _ Epop) as [Hperm _].
      rewrite Hperm in Hic. simpl in Hic. apply elem_of_cons in Hic as [->|Hic]; [by right; left|by left]. }
    pose proof (scan_closed _ _ _ _ _ Hi1 Hcl1 Hin Hs) as Hcl2.
    intros p Hp. destruct (Hcl2 p Hp) as [?|[[= <-]|?]]; [by left| |by right; right].
    right; right. intros p' (pt & nbs' & n & Hpt & Hn & Hnin & <-).
    rewrite Hc in Hpt. injection Hpt as <-. rewrite Hnbs in Hn. injection Hn as <-. auto.
  - split; [by apply Hv1|].
    eapply Nat.le_lt_trans; [exact Hm|]. unfold smeas. simpl.
    rewrite (h_len_pop so LAWS _ _ _ Epop). clear. lia.
Qed.

Lemma loop_closed fuel s ret :
  sinv s -> top s -> closed None s -> search_loop dist so fuel h q ef layer filter s = Ok ret ->
  exists s', sinv s' /\ top s' /\ ret = s_ret so s' /\
    (forall p, p ∈ s_vis so s -> p ∈ s_vis so s') /\
    (forall p p', p ∈ s_vis so s' -> link p p' -> p' ∈ s_vis so s').
Proof.
  revert s. induction fuel as [|fuel IH]; intros s Hi Ht Hcl Hl; [done|]. simpl in Hl.
  destruct (iter_closed s Hi Ht Hcl) as [[E Hfin]|(s' & E & Hi' & Ht' & Hcl' & Hv & _)]; rewrite E in Hl; simpl in Hl.
  - injection Hl as <-. eexists. split_and!; eauto.
  - destruct (IH s' Hi' Ht' Hcl' Hl) as (s2 & ? & ? & ? & Hv2 & ?). exists s2. split_and!; auto.
Qed.

End Exhaust.

Section Layer.
Context {T : Type} (dist : list T -> list T -> Z) (so : StdOps).
Context (LAWS : StdLaws so) (Hnn : forall a b, (0 <= dist a b)%Z).

(** what [search_layer] returns when ef is at least the number of points it can reach *)
Lemma search_layer_exhaustive (h : hnsw (T:=T)) q ep ept ef layer filter ly ret :
  points_by_layer h !! layer = Some ly -> ly <> [] ->
  get_pt h ep = Some ept -> links_ok h layer (rtc (link h layer) ep) ->
  (filter = None \/ (1 <= ef)%nat) ->
  (forall ps : list pid, NoDup ps -> Forall (fun p => valid h p /\ rtc (link h layer) ep p) ps ->
     (length ps <= ef)%nat) ->
  search_layer dist so h q ep ef layer filter = Ok ret ->
  (forall p pt, rtc (link h layer) ep p -> get_pt h p = Some pt -> passes filter pt ->
      p ∈ n_pid <$> h_iter so ret) /\
  Forall (fun x => rtc (link h layer) ep (n_pid x)) (h_iter so ret).
Proof.
  intros Hly Hne Hg Hl Hef Hbig. unfold search_layer. rewrite Hly.
  destruct ly as [|p0 ly]; [done|].
  set (S := rtc (link h layer) ep) in *.
  destruct (search_init_inv dist so LAWS Hnn h q ef filter S ep ept Hg) as (s & -> & Hi & Hm & Hvis & Hret & Hcand).
  { apply rtc_refl. }
  rewrite bind_Ok. intros Hloop.
  destruct (loop_closed dist so LAWS Hnn h q ef layer filter S ep _ Hef Hl Hbig (Datatypes.S (table_size h)) s ret Hi) as
    (s' & Hi' & Ht' & -> & Hv & Hc); [..|exact Hloop|].
  { intros p pt Hp Hpt _. left. unfold in_ret. rewrite Hret. rewrite Hvis in Hp. done. }
  { intros p Hp. left. unfold in_cand. rewrite Hcand. rewrite Hvis in Hp. done. }
  assert (Hall : forall p, S p -> p ∈ s_vis so s').
  { assert (Hg1 : forall a b, rtc (link h layer) a b -> a ∈ s_vis so s' -> b ∈ s_vis so s').
    { induction 1 as [|a b c Hab _ IH]; [done|]. intros Ha. apply IH. by eapply Hc. }
    intros p Hp. apply (Hg1 ep p Hp). apply Hv. rewrite Hvis. left. }
  split.
  - intros p pt Hp Hpt Hps. destruct (Ht' p pt (Hall p Hp) Hpt Hps) as [?|[Hfull _]]; [done|].
    (* ret is as large as possible: it contains everything *)
    destruct (decide (p ∈ n_pid <$> h_iter so (s_ret so s'))) as [?|Hnot]; [done|exfalso].
    assert (H : (length (p :: (n_pid <$> h_iter so (s_ret so s'))) <= ef)%nat).
    { apply Hbig.
      - constructor; [done|apply Hi'].
      - constructor; [split; [by exists pt|done]|]. apply Forall_forall.
        intros p' (x & -> & Hx)%elem_of_list_fmap.
        pose proof (i_vis _ _ _ _ _ _ _ _ _ _ Hi') as Hvv. rewrite Forall_forall in Hvv. apply Hvv. by apply Hi'. }
    simpl in H. rewrite fmap_length in H. unfold h_len in Hfull. clear -H Hfull. lia.
  - apply Forall_forall. intros x Hx.
    pose proof (i_vis _ _ _ _ _ _ _ _ _ _ Hi') as Hvv. rewrite Forall_forall in Hvv. apply Hvv. by apply Hi'.
Qed.

(** whatever [ef] is, the points kept are the nearest of the points examined, and all the
    neighbours of the start point are examined *)
Lemma search_layer_top (h : hnsw (T:=T)) q ep ept ef layer filter ly ret (Sset : pid -> Prop) :
  points_by_layer h !! layer = Some ly -> ly <> [] ->
  get_pt h ep = Some ept -> Sset ep -> links_ok h layer Sset ->
  (filter = None \/ (1 <= ef)%nat) ->
  search_layer dist so h q ep ef layer filter = Ok ret ->
  exists vis : list pid, ep ∈ vis /\ (forall p, link h layer ep p -> p ∈ vis) /\
    (forall x, x ∈ h_iter so ret -> n_pid x ∈ vis) /\
    (forall p pt, p ∈ vis -> get_pt h p = Some pt -> passes filter pt ->
        p ∈ n_pid <$> h_iter so ret \/
        ((ef <= h_len so ret)%nat /\ Forall (fun x => (n_dist x <= dist q (pt_data pt))%Z) (h_iter so ret))).
Proof.
  intros Hly Hne Hg HS Hl Hef. unfold search_layer. rewrite Hly.
  destruct ly as [|p0 ly]; [done|].
  destruct (search_init_inv dist so LAWS Hnn h q ef filter Sset ep ept Hg HS) as (s & -> & Hi & Hm & Hvis & Hret & Hcand).
  rewrite bind_Ok. intros Hloop.
  assert (Ht : top dist so h q ef filter s).
  { intros p pt Hp Hpt _. left. unfold in_ret. rewrite Hret. rewrite Hvis in Hp. done. }
  (* first iteration: the start point is expanded *)
  cbn [search_loop] in Hloop. apply bind_inv in Hloop as (r & Hit & Hloop).
  assert (Hstep : exists s1, r = inr s1 /\ sinv dist so h q ef filter Sset ep (dist q (pt_data ept)) s1 /\
     top dist so h q ef filter s1 /\ (forall p, link h layer ep p -> p ∈ s_vis so s1) /\ ep ∈ s_vis so s1).
  { destruct (h_pop_nonempty so LAWS (s_cand so s)) as (c & cand' & Epop); [by rewrite Hcand|].
    pose proof (pop_inv dist so LAWS h q ef filter Sset ep _ s c cand' Hi Epop) as (Hi1 & _ & _).
    assert (Ec : c = Nbr ep (- dist q (pt_data ept))).
    { destruct (law_pop_some _ LAWS _ _ _ Epop) as [Hperm _]. rewrite Hcand in Hperm.
      apply Permutation_singleton_l in Hperm. by injection Hperm. }
    subst c. unfold search_iter in Hit. rewrite Epop in Hit.
    destruct (h_peek_nonempty so LAWS (s_ret so s)) as [f Hf]; [by rewrite Hret|].
    destruct (h_peek_some so LAWS _ _ Hf) as [Hfin _]. rewrite Hret in Hfin.
    apply elem_of_list_singleton in Hfin as ->. rewrite Hf in Hit. simpl in Hit.
    apply bind_inv in Hit as (_ & _ & Hit). apply bind_inv in Hit as (_ & _ & Hit).
    rewrite Z.opp_involutive, Z.ltb_irrefl in Hit. simpl in Hit. rewrite Hg in Hit. simpl in Hit.
    destruct (Hl ep ept HS Hg) as (nbs & Hnbs & Hin). rewrite Hnbs in Hit. simpl in Hit.
    destruct (scan_inv dist so LAWS Hnn h q ef filter Sset ep _ Hef nbs _ Hi1 Hin) as (s1 & Hs & Hi2 & _ & Hv1 & Hv2).
    rewrite Hs in Hit. simpl in Hit. injection Hit as <-. exists s1. split_and!; auto.
    - eapply scan_top; [exact LAWS|exact Hnn|exact Hef|exact Hi1|exact Ht|exact Hin|exact Hs].
    - intros p (pt & nbs' & n & Hpt & Hn & Hnin & <-). rewrite Hg in Hpt. injection Hpt as <-.
      rewrite Hnbs in Hn. injection Hn as <-. auto.
    - apply Hv1. simpl. rewrite Hvis. left. }
  destruct Hstep as (s1 & -> & Hi1 & Ht1 & Hlk & Hep1).
  assert (Hrest : forall fuel s2, sinv dist so h q ef filter Sset ep (dist q (pt_data ept)) s2 ->
     top dist so h q ef filter s2 -> search_loop dist so fuel h q ef layer filter s2 = Ok ret ->
     exists s3, sinv dist so h q ef filter Sset ep (dist q (pt_data ept)) s3 /\ top dist so h q ef filter s3 /\
       ret = s_ret so s3 /\ forall p, p ∈ s_vis so s2 -> p ∈ s_vis so s3).
  { clear -LAWS Hnn Hef Hl. induction fuel as [|fuel IH]; intros s2 Hi2 Ht2 Hlp; [done|]. simpl in Hlp.
    destruct (iter_top dist so LAWS Hnn h q ef layer filter Sset ep _ Hef Hl s2 Hi2 Ht2) as [E|(s3 & E & Hi3 & Ht3 & _)];
      rewrite E in Hlp; simpl in Hlp.
    - injection Hlp as <-. exists s2. auto.
    - destruct (IH s3 Hi3 Ht3 Hlp) as (s4 & ? & ? & ? & Hv). exists s4. split_and!; auto.
      intros p Hp. apply Hv.
      unfold search_iter in E. destruct (h_pop so (s_cand so s2)) as [[c cand']|] eqn:Epop; [|done].
      destruct (pop_inv dist so LAWS h q ef filter Sset ep _ s2 c cand' Hi2 Epop) as (Hi5 & (cpt & Hc & Hcd) & Hcvis).
      apply bind_inv in E as (f & Hf & E). apply bind_inv in E as (_ & _ & E).
      apply bind_inv in E as (_ & _ & E).
      match type of E with (if ?b then _ else _) = _ => destruct b end; [done|].
      rewrite Hc in E. simpl in E.
      destruct (Hl (n_pid c) cpt) as (nbs & Hnbs & Hin); [|done|].
      { eapply elt_in_S; [exact Hi2|]. exact Hcvis. }
      rewrite Hnbs in E. simpl in E.
      destruct (scan_inv dist so LAWS Hnn h q ef filter Sset ep _ Hef nbs _ Hi5 Hin) as (s5 & Hs & _ & _ & Hv5 & _).
      rewrite Hs in E. simpl in E. injection E as <-. by apply Hv5. }
  destruct (Hrest _ s1 Hi1 Ht1 Hloop) as (s3 & Hi3 & Ht3 & -> & Hv3).
  exists (s_vis so s3). split_and!; auto.
  intros x Hx. by apply Hi3.
Qed.

End Layer.
