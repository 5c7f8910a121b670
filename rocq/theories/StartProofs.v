(** The descent of a search follows [starts_at]; a layer search that keeps fewer than [ef] points
    keeps all it can reach. *)
From stdpp Require Import relations.
From Verif Require Import Prelude Model Lib Table SearchProofs InsertProofs ExhaustProofs QueryProofs
  IterProofs FlatProofs Spec SpecProofs SpecStart.

Section Start.
Context {T : Type} (dist : list T -> list T -> Z) (Hnn : forall a b, (0 <= dist a b)%Z).
Implicit Types (h : hnsw (T:=T)) (p ep : pid) (q : list T).

Lemma pivot_scan_first h q nbs pv d pv' d' :
  wf dist h ->
  (exists pt, get_pt h pv = Some pt /\ d = dist q (pt_data pt)) ->
  pivot_scan dist h q nbs pv d = Ok (pv', d') ->
  (exists pt, get_pt h pv' = Some pt /\ d' = dist q (pt_data pt)) /\
  first_nearest dist h q (pv :: (n_pid <$> nbs)) pv'.
Proof.
  intros Hwf. unfold pivot_scan.
  (* general form: [seen] is the part of the list before [pv], [rest] the part between [pv] and the remaining ones *)
  assert (G : forall nbs before rest pv d,
    (exists pt, get_pt h pv = Some pt /\ d = dist q (pt_data pt)) ->
    (forall p' v', p' ∈ before -> vector_at h p' v' -> (d < dist q v')%Z) ->
    (forall p' v', p' ∈ rest -> vector_at h p' v' -> (d <= dist q v')%Z) ->
    foldl (fun acc n => '(pv, d) ← acc; npt ← unwrap (get_pt h (n_pid n));
             let tmp := dist q (pt_data npt) in
             Ok (if (tmp <? d)%Z then (n_pid n, tmp) else (pv, d))) (Ok (pv, d)) nbs = Ok (pv', d') ->
    (exists pt, get_pt h pv' = Some pt /\ d' = dist q (pt_data pt)) /\
    first_nearest dist h q (before ++ pv :: rest ++ (n_pid <$> nbs)) pv').
  { clear nbs pv d. induction nbs as [|n nbs IH]; intros before rest pv d (pt & Hpt & Hd) H1 H2 Hf; simpl in Hf.
    - injection Hf as -> ->. split; [eauto|]. csimpl. rewrite app_nil_r. subst d'.
      exists before, rest, (pt_data pt). split_and!; auto. apply (vector_at_pt dist Hnn); eauto.
    - destruct (get_pt h (n_pid n)) as [npt|] eqn:En; simpl in Hf.
      2: { exfalso. clear -Hf. induction nbs; [done|]. simpl in Hf. auto. }
      destruct (Z.ltb_spec (dist q (pt_data npt)) d) as [Hlt|Hge].
      + destruct (IH (before ++ pv :: rest) [] (n_pid n) (dist q (pt_data npt))) as [P1 P2]; [eauto|..|exact Hf|].
        * intros p' v' [Hp|[->|Hp]%elem_of_cons]%elem_of_app Hv.
          -- specialize (H1 p' v' Hp Hv). lia.
          -- apply (vector_at_pt dist Hnn) in Hv as (pt' & Hpt' & <-); [|done]. assert (pt' = pt) as -> by congruence. lia.
          -- specialize (H2 p' v' Hp Hv). lia.
        * intros p' v' []%elem_of_nil.
        * split; [done|]. csimpl. rewrite <- app_assoc in P2. exact P2.
      + destruct (IH before (rest ++ [n_pid n]) pv d) as [P1 P2]; [eauto|done| |exact Hf|].
        * intros p' v' [Hp|Hp%elem_of_list_singleton]%elem_of_app Hv; [eauto|]. subst p'.
          apply (vector_at_pt dist Hnn) in Hv as (pt' & Hpt' & <-); [|done]. assert (pt' = npt) as -> by congruence. lia.
        * split; [done|]. csimpl. rewrite <- app_assoc in P2. exact P2. }
  intros Hp Hf. destruct (G nbs [] [] pv d Hp) as [P1 P2]; auto.
  - intros p' v' []%elem_of_nil.
  - intros p' v' []%elem_of_nil.
Qed.

Lemma pivot_descend_starts h q n pv d start :
  wf dist h ->
  (exists pt, get_pt h pv = Some pt /\ d = dist q (pt_data pt)) ->
  pivot_descend dist (rev (seq 1 n)) h q pv d = Ok start -> starts_at dist h q n pv start.
Proof.
  intros Hwf. revert pv d. induction n as [|n IH]; intros pv d Hp Hd.
  { simpl in Hd. injection Hd as <-. constructor. }
  rewrite seq_S, rev_app_distr in Hd. cbn [rev app pivot_descend plus] in Hd.
  apply bind_inv in Hd as (pt & Hpt%unwrap_inv & Hd). apply bind_inv in Hd as (nbs & Hn%unwrap_inv & Hd).
  apply bind_inv in Hd as ([pv' d'] & Hs & Hd).
  destruct (pivot_scan_first h q nbs pv d pv' d' Hwf Hp Hs) as [Hp' Hf].
  destruct (nbhd_ok dist h pv pt Hwf Hpt) as (lists & Hg & Hlen & Hall).
  destruct (lists !! S n) as [ns|] eqn:El.
  2: { apply lookup_ge_None in El. apply lookup_lt_Some in Hn.
       destruct (c_pt _ _ (w_core _ _ Hwf) _ _ Hpt) as (_ & H16). lia. }
  destruct (proj1 (Hall _ _) El) as (nbs' & Hn' & HF). rewrite Hn in Hn'. injection Hn' as <-.
  econstructor; [| |by eapply IH].
  - apply (neighbours_at_pt dist); eauto.
  - assert (p_id <$> ns = n_pid <$> nbs) as ->; [|done].
    clear -HF. induction HF as [|n a nbs ns (E & _) _ IHF]; [done|]. csimpl. by rewrite E, IHF.
Qed.

Lemma find_pivot_start h q ep start :
  wf dist h -> entry_point h = Some ep -> find_pivot dist h q ep = Ok start -> search_start dist h q start.
Proof.
  intros Hwf He Hf. exists ep. split; [done|]. unfold find_pivot in Hf.
  apply bind_inv in Hf as (ept & Hept%unwrap_inv & Hf). eapply pivot_descend_starts; eauto.
Qed.

(** the specification of the descent leaves no choice *)
Lemma first_nearest_fun h q ps p1 p2 : first_nearest dist h q ps p1 -> first_nearest dist h q ps p2 -> p1 = p2.
Proof using Type.
  clear Hnn.
  intros (b1 & a1 & v1 & E1 & V1 & L1 & R1) (b2 & a2 & v2 & E2 & V2 & L2 & R2). rewrite E1 in E2. clear E1 ps.
  assert (G : forall b1 a1 p1 v1 b2 a2 p2 v2, b1 ++ p1 :: a1 = b2 ++ p2 :: a2 -> (length b1 < length b2)%nat ->
    vector_at h p1 v1 -> vector_at h p2 v2 ->
    (forall p' v', p' ∈ b2 -> vector_at h p' v' -> (dist q v2 < dist q v')%Z) ->
    (forall p' v', p' ∈ a1 -> vector_at h p' v' -> (dist q v1 <= dist q v')%Z) -> False).
  { clear. intros b1 a1 p1 v1 b2 a2 p2 v2 E Hlt V1 V2 L2 R1.
    assert (H1 : p1 ∈ b2).
    { assert (Hi : (b1 ++ p1 :: a1) !! length b1 = Some p1) by (rewrite lookup_app_r, Nat.sub_diag by lia; done).
      rewrite E, lookup_app_l in Hi by lia. by eapply elem_of_list_lookup_2. }
    assert (H2 : p2 ∈ a1).
    { assert (Hi : (b2 ++ p2 :: a2) !! length b2 = Some p2) by (rewrite lookup_app_r, Nat.sub_diag by lia; done).
      rewrite <- E, lookup_app_r in Hi by lia. destruct (length b2 - length b1)%nat as [|k] eqn:Ek; [lia|].
      simpl in Hi. by eapply elem_of_list_lookup_2. }
    specialize (L2 _ _ H1 V1). specialize (R1 _ _ H2 V2). lia. }
  destruct (Nat.lt_trichotomy (length b1) (length b2)) as [Hlt|[Heq|Hlt]].
  - exfalso. by eapply (G b1 a1 p1 v1 b2 a2 p2 v2).
  - by apply app_inj_1 in E2 as [_ [= ? _]].
  - exfalso. by eapply (G b2 a2 p2 v2 b1 a1 p1 v1).
Qed.
Lemma starts_at_fun h q l p s1 s2 : wf dist h -> starts_at dist h q l p s1 -> starts_at dist h q l p s2 -> s1 = s2.
Proof using Type.
  clear Hnn. intros Hwf H1. revert s2. induction H1 as [p|l p ns p1 start Hn Hf _ IH]; intros s2 H2.
  - by inversion H2.
  - inversion H2 as [|l' p' ns' p1' start' Hn' Hf' Hs']; subst.
    assert (ns' = ns) as ->.
    { destruct Hn as (pt & lists & Hp & Hg & Hl). destruct Hn' as (pt' & lists' & Hp' & Hg' & Hl').
      apply (point_at_pt dist) in Hp; [|done]. apply (point_at_pt dist) in Hp'; [|done]. congruence. }
    assert (p1' = p1) as -> by (eapply first_nearest_fun; eauto). auto.
Qed.

End Start.

(** ** A layer search that keeps fewer than ef points *)
Section Short.
Context {T : Type} (dist : list T -> list T -> Z) (so : StdOps).
Context (LAWS : StdLaws so) (Hnn : forall a b, (0 <= dist a b)%Z).
Context (h : hnsw (T:=T)) (q : list T) (ef layer : nat) (filter : option (dataid -> bool)).
Context (Sset : pid -> Prop) (ep : pid) (d0 : Z).
Notation sinv := (sinv dist so h q ef filter Sset ep d0).
Notation top := (top dist so h q ef filter).
Notation closed := (closed so h layer).
Hypothesis Hef : filter = None \/ (1 <= ef)%nat.

Lemma push_len s e ept ret :
  sinv s -> get_pt h e = Some ept -> e ∉ s_vis so s ->
  push_ret so h filter e (pt_oid ept) (dist q (pt_data ept)) (s_ret so s) = Ok ret ->
  (h_len so (s_ret so s) <= h_len so (shrink_ret so ef ret))%nat \/ (ef <= h_len so (shrink_ret so ef ret))%nat.
Proof.
  intros Hi He Hvis Hret.
  destruct (push_ret_spec dist so LAWS h q ef filter Sset ep d0 Hef s e ept Hi He Hvis) as (ret' & Hret' & Hcase).
  rewrite Hret in Hret'. injection Hret' as <-.
  assert (H : (h_len so (s_ret so s) <= h_len so ret)%nat).
  { destruct Hcase as [[-> _]|[[Hp _]|[Hp (flt & x & _ & _ & Hx & _)]]]; [done|..].
    - unfold h_len. rewrite Hp. simpl. lia.
    - unfold h_len. rewrite Hp, Hx. done. }
  destruct (shrink_ret_spec so LAWS ef ret) as [[Hle ->]|[Hgt (x & Hperm & Hmax)]]; [by left|].
  right. assert (Hlen : h_len so ret = S (h_len so (shrink_ret so ef ret))) by (unfold h_len; by rewrite Hperm). lia.
Qed.

Lemma scan_short exc nbs s b s' :
  sinv s -> (forall n, n ∈ nbs -> valid h (n_pid n) /\ Sset (n_pid n)) ->
  scan_neighbours dist so h q ef filter nbs s = Ok (b, s') ->
  (h_len so (s_ret so s') < ef)%nat ->
  (h_len so (s_ret so s) < ef)%nat /\ (closed exc s -> closed exc s').
Proof.
  revert s. induction nbs as [|e nbs IH]; intros s Hi Hn Hscan Hlt; simpl in Hscan.
  - by injection Hscan as <- <-.
  - destruct (Hn e) as [[ept Hept] HSe]; [left|].
    assert (Hn' : forall n, n ∈ nbs -> valid h (n_pid n) /\ Sset (n_pid n)).
    { intros n Hin. apply Hn. by right. }
    destruct (decide (n_pid e ∈ s_vis so s)) as [Hvis|Hvis].
    { rewrite bool_decide_eq_true_2 in Hscan by done. by eapply IH. }
    rewrite bool_decide_eq_false_2 in Hscan by done.
    destruct (h_peek_nonempty so LAWS (s_ret so s)) as [f Hf]; [apply Hi|].
    rewrite Hf, Hept in Hscan. simpl in Hscan.
    destruct ((dist q (pt_data ept) <? n_dist f)%Z || (h_len so (s_ret so s) <? ef)%nat) eqn:Etest.
    + destruct (push_ret_spec dist so LAWS h q ef filter Sset ep d0 Hef s (n_pid e) ept Hi Hept Hvis) as (ret & Hret & _).
      rewrite Hret in Hscan. simpl in Hscan.
      destruct (IH _ (push_inv dist so LAWS Hnn h q ef filter Sset ep d0 Hef s (n_pid e) ept ret Hi Hept HSe Hvis Hret) Hn' Hscan Hlt)
        as [H1 H2]. simpl in H1.
      destruct (push_len s (n_pid e) ept ret Hi Hept Hvis Hret) as [Hl|Hl]; [|lia].
      split; [lia|]. intros Hcl. apply H2.
      intros p Hp. simpl in *. unfold in_cand. rewrite (law_push _ LAWS). simpl.
      apply elem_of_cons in Hp as [->|Hp]; [left; left|].
      destruct (Hcl p Hp) as [?|[?|Hl']]; [left; by right|right; by left|].
      right; right. intros p' Hp'. right. auto.
    + exfalso. destruct (IH (SST so (s_ret so s) (s_cand so s) (n_pid e :: s_vis so s))) as [H1 _]; auto.
      { eapply skip_inv; eauto. by exists ept. }
      apply orb_false_iff in Etest as [_ H2]. simpl in H1. lia.
Qed.

Hypothesis Hlinks : links_ok h layer Sset.

Definition short (s : sst so) : Prop := (h_len so (s_ret so s) < ef)%nat -> closed None s.

Lemma iter_short s :
  sinv s -> top s -> short s ->
  (search_iter dist so h q ef layer filter s = Ok (inl (s_ret so s)) /\
     ((h_len so (s_ret so s) < ef)%nat -> forall p p', p ∈ s_vis so s -> link h layer p p' -> p' ∈ s_vis so s)) \/
  exists s', search_iter dist so h q ef layer filter s = Ok (inr s') /\ sinv s' /\ top s' /\ short s' /\
    (forall p, p ∈ s_vis so s -> p ∈ s_vis so s').
Proof.
  intros Hi Ht Hsh.
  destruct (h_pop so (s_cand so s)) as [[c cand']|] eqn:Epop.
  2: { left. unfold search_iter. rewrite Epop. split; [done|].
       intros Hlt p p' Hp Hpp. destruct (Hsh Hlt p Hp) as [Hin|[?|Hl]]; [|done|auto].
       unfold in_cand in Hin. rewrite (law_pop_none _ LAWS _ Epop) in Hin. by apply elem_of_nil in Hin. }
  destruct (pop_inv dist so LAWS h q ef filter Sset ep d0 s c cand' Hi Epop) as (Hi1 & (cpt & Hc & Hcd) & Hcvis).
  destruct (h_peek_nonempty so LAWS (s_ret so s)) as [f Hf]; [apply Hi|].
  destruct (h_peek_some so LAWS _ _ Hf) as [Hfin Hfmax].
  assert (Hfd : (0 <= n_dist f)%Z).
  { pose proof (i_ret _ _ _ _ _ _ _ _ _ _ Hi) as Hr. rewrite Forall_forall in Hr.
    destruct (Hr _ Hfin) as (? & _ & ->). apply Hnn. }
  pose proof (Hnn q (pt_data cpt)) as Hcn.
  destruct (Hlinks (n_pid c) cpt) as (nbs & Hnbs & Hin); [|done|].
  { eapply elt_in_S; [exact Hi|]. exact Hcvis. }
  destruct (scan_inv dist so LAWS Hnn h q ef filter Sset ep d0 Hef nbs _ Hi1 Hin) as (s' & Hs & Hi2 & Hm & Hv1 & Hv2).
  destruct ((n_dist f <? - n_dist c)%Z &&
     match filter with None => true | Some _ => (ef <=? h_len so (s_ret so s))%nat end) eqn:Estop.
  - (* the search stops here: it is not short *)
    left. split.
    { unfold search_iter. rewrite Epop, Hf. simpl.
      rewrite (assert_true (0 <=? n_dist f)%Z) by (clear -Hfd; lia). simpl.
      rewrite (assert_true (n_dist c <=? 0)%Z) by (clear -Hcd Hcn; lia). simpl. by rewrite Estop. }
    intros Hlt. exfalso. apply andb_true_iff in Estop as [E1 E2].
    destruct filter as [flt|] eqn:Efl; [clear -E2 Hlt; lia|].
    destruct (Ht (n_pid c) cpt Hcvis Hc) as [Hir|[? _]]; [done| |clear -Hlt H; lia].
    unfold in_ret in Hir. apply elem_of_list_fmap in Hir as (x & Ex & Hx).
    rewrite Forall_forall in Hfmax. specialize (Hfmax x Hx).
    pose proof (i_ret _ _ _ _ _ _ _ _ _ _ Hi) as Hr. rewrite Forall_forall in Hr.
    destruct (Hr x Hx) as (pt & Hpt & Hd). rewrite <- Ex, Hc in Hpt. injection Hpt as <-.
    clear -E1 Hfmax Hcd Hd. lia.
  - right.
    assert (Hrun : search_iter dist so h q ef layer filter s = Ok (inr s')).
    { unfold search_iter. rewrite Epop, Hf. simpl.
      rewrite (assert_true (0 <=? n_dist f)%Z) by (clear -Hfd; lia). simpl.
      rewrite (assert_true (n_dist c <=? 0)%Z) by (clear -Hcd Hcn; lia). simpl.
      rewrite Estop, Hc. simpl. rewrite Hnbs. simpl. by rewrite Hs. }
    exists s'. split; [done|]. split; [done|].
    split; [eapply scan_top; [exact LAWS|exact Hnn|exact Hef|exact Hi1|exact Ht|exact Hin|exact Hs]|].
    split; [|exact Hv1].
    intros Hlt. destruct (scan_short (Some (n_pid c)) nbs _ _ _ Hi1 Hin Hs Hlt) as [Hlt0 Hcc]. simpl in Hlt0.
    specialize (Hsh Hlt0).
    assert (Hcl1 : closed (Some (n_pid c)) (SST so (s_ret so s) cand' (s_vis so s))).
    { intros p Hp. simpl in *. destruct (Hsh p Hp) as [Hic|[?|Hl]]; [|done|by right; right].
      unfold in_cand in *. destruct (law_pop_some _ LAWS _ _ _ Epop) as [Hperm _].
      rewrite Hperm in Hic. simpl in Hic. apply elem_of_cons in Hic as [->|Hic]; [by right; left|by left]. }
    specialize (Hcc Hcl1).
    intros p Hp. destruct (Hcc p Hp) as [?|[[= <-]|?]]; [by left| |by right; right].
    right; right. intros p' (pt & nbs' & n & Hpt & Hn & Hnin & <-).
    rewrite Hc in Hpt. injection Hpt as <-. rewrite Hnbs in Hn. injection Hn as <-. auto.
Qed.

Lemma loop_short fuel s ret :
  sinv s -> top s -> short s -> search_loop dist so fuel h q ef layer filter s = Ok ret ->
  exists s', sinv s' /\ top s' /\ ret = s_ret so s' /\
    (forall p, p ∈ s_vis so s -> p ∈ s_vis so s') /\
    ((h_len so ret < ef)%nat -> forall p p', p ∈ s_vis so s' -> link h layer p p' -> p' ∈ s_vis so s').
Proof.
  revert s. induction fuel as [|fuel IH]; intros s Hi Ht Hcl Hl; [done|]. simpl in Hl.
  destruct (iter_short s Hi Ht Hcl) as [[E Hfin]|(s' & E & Hi' & Ht' & Hcl' & Hv)]; rewrite E in Hl; simpl in Hl.
  - injection Hl as <-. eexists. split_and!; eauto.
  - destruct (IH s' Hi' Ht' Hcl' Hl) as (s2 & ? & ? & ? & Hv2 & ?). exists s2. split_and!; auto.
Qed.

End Short.

Section ShortLayer.
Context {T : Type} (dist : list T -> list T -> Z) (so : StdOps).
Context (LAWS : StdLaws so) (Hnn : forall a b, (0 <= dist a b)%Z).

Lemma search_layer_short (h : hnsw (T:=T)) q ep ept ef layer filter ly ret :
  points_by_layer h !! layer = Some ly -> ly <> [] ->
  get_pt h ep = Some ept -> links_ok h layer (rtc (link h layer) ep) ->
  (filter = None \/ (1 <= ef)%nat) ->
  search_layer dist so h q ep ef layer filter = Ok ret ->
  ((h_len so ret < ef)%nat ->
   forall p pt, rtc (link h layer) ep p -> get_pt h p = Some pt -> passes filter pt ->
      p ∈ n_pid <$> h_iter so ret) /\
  Forall (fun x => rtc (link h layer) ep (n_pid x)) (h_iter so ret).
Proof.
  intros Hly Hne Hg Hl Hef. unfold search_layer. rewrite Hly.
  destruct ly as [|p0 ly]; [done|].
  set (S := rtc (link h layer) ep) in *.
  destruct (search_init_inv dist so LAWS Hnn h q ef filter S ep ept Hg) as (s & -> & Hi & Hm & Hvis & Hret & Hcand).
  { apply rtc_refl. }
  rewrite bind_Ok. intros Hloop.
  destruct (loop_short dist so LAWS Hnn h q ef layer filter S ep _ Hef Hl (Datatypes.S (table_size h)) s ret Hi) as
    (s' & Hi' & Ht' & -> & Hv & Hc); [..|exact Hloop|].
  { intros p pt Hp Hpt _. left. unfold in_ret. rewrite Hret. rewrite Hvis in Hp. done. }
  { intros _ p Hp. left. unfold in_cand. rewrite Hcand. rewrite Hvis in Hp. done. }
  split.
  - intros Hlt. specialize (Hc Hlt).
    assert (Hall : forall p, S p -> p ∈ s_vis so s').
    { assert (Hg1 : forall a b, rtc (link h layer) a b -> a ∈ s_vis so s' -> b ∈ s_vis so s').
    { induction 1 as [|a b c Hab _ IH]; [done|]. intros Ha. apply IH. by eapply Hc. }
    intros p Hp. apply (Hg1 ep p Hp). apply Hv. rewrite Hvis. left. }
    intros p pt Hp Hpt Hps. destruct (Ht' p pt (Hall p Hp) Hpt Hps) as [?|[Hfull _]]; [done|]. lia.
  - apply Forall_forall. intros x Hx.
    pose proof (i_vis _ _ _ _ _ _ _ _ _ _ Hi') as Hvv. rewrite Forall_forall in Hvv. apply Hvv. by apply Hi'.
Qed.

(** everything about what a search keeps *)
Lemma search_kept (h : hnsw (T:=T)) q k efa filter ep :
  lwf dist h -> entry_point h = Some ep -> (filter = None \/ 1 <= Nat.max efa k)%nat ->
  exists pv pvt l hp res,
    find_pivot dist h q ep = Ok pv /\ get_pt h pv = Some pvt /\ layer_to_search h = Ok l /\
    search_filter dist so h q k efa filter = Ok res /\
    p_id <$> res = n_pid <$> take k (h_sorted so hp) /\
    distance <$> res = n_dist <$> take k (h_sorted so hp) /\
    Forall (elt_ok dist h q) (h_iter so hp) /\ NoDup (n_pid <$> h_iter so hp) /\ h_iter so hp <> [] /\
    Forall (fun x => rtc (link h l) pv (n_pid x)) (h_iter so hp) /\
    (Forall (fun x => exists pt, get_pt h (n_pid x) = Some pt /\ passes filter pt) (h_iter so hp) \/
     exists flt x, filter = Some flt /\ h_iter so hp = [x] /\ n_pid x = pv /\ flt (pt_oid pvt) = false) /\
    ((h_len so hp < Nat.max efa k)%nat ->
     forall p pt, rtc (link h l) pv p -> get_pt h p = Some pt -> passes filter pt -> p ∈ n_pid <$> h_iter so hp).
Proof.
  intros Hwf Hep Hef.
  destruct (search_filter_run dist so LAWS Hnn h q k efa filter ep Hwf Hep Hef) as
    (pv & pvt & ept & l & ly & hp & res & Hept & Hpvt & Hle & Hly & Hlyne & Hl16 & Hlow & Hfp & Hsl & Hs & R1 & R2 & R3 & R4 & R5 & A1 & A2 & A3).
  pose proof Hwf as [Hc Hcnt Hent].
  assert (Hls : layer_to_search h = Ok l).
  { destruct (layer_to_search_spec h pv ltac:(by exists pvt)) as (l' & ly' & E & Hly' & Hne' & _ & Hlow').
    rewrite E. f_equal. destruct (Nat.lt_total l l') as [H|[H|H]]; [|done|].
    - specialize (Hlow' l H). congruence.
    - specialize (Hlow l' H). congruence. }
  destruct (search_layer_short h q pv pvt (Nat.max efa k) l filter ly hp) as [Hall Hreach]; auto.
  { intros p pt Hr Hpt. destruct (core_links dist h l Hc Hl16 p pt I Hpt) as (nbs & Hn & Hin).
    exists nbs. split; [done|]. intros n Hnin. split; [by apply Hin|].
    eapply rtc_r; [exact Hr|]. exists pt, nbs, n. done. }
  exists pv, pvt, l, hp, res. split_and!; auto.
  unfold flt_ok in R5. destruct filter as [flt|].
  - destruct R5 as [R5|(x & Hx & E)]; [by left|].
    destruct (flt (pt_oid pvt)) eqn:Ef.
    + left. rewrite Hx. repeat constructor. exists pvt. by rewrite E.
    + right. exists flt, x. done.
  - left. eapply Forall_impl; [exact R1|]. intros x (pt & Hpt & _). by exists pt.
Qed.

(** the points accepted and reachable fit in ef: the answers are the nearest of them *)
Lemma search_complete (h : hnsw (T:=T)) q k efa filter ep pv l RA :
  lwf dist h -> entry_point h = Some ep -> find_pivot dist h q ep = Ok pv -> layer_to_search h = Ok l ->
  NoDup RA ->
  (forall p, p ∈ RA <-> rtc (link h l) pv p /\ exists pt, get_pt h p = Some pt /\ passes filter pt) ->
  (length RA <= Nat.max efa k)%nat -> (filter = None \/ 2 <= Nat.max efa k)%nat ->
  exists res, search_filter dist so h q k efa filter = Ok res /\
    (RA <> [] -> (forall a, a ∈ res -> p_id a ∈ RA) /\
       exists ds, ds ≡ₚ pdist dist h q <$> RA /\ sorted_by id ds /\ distance <$> res = take k ds) /\
    (RA = [] -> p_id <$> res = take k [pv]).
Proof.
  intros Hwf Hep Hpv Hl HndRA HRA Hfit Hef.
  destruct (search_kept h q k efa filter ep Hwf Hep) as
    (pv' & pvt & l' & hp & res & Hpv' & Hpvt & Hl' & Hs & A2 & A3 & R1 & R2 & R3 & Hreach & Hcases & Hall).
  { destruct Hef; [by left|right; lia]. }
  rewrite Hpv in Hpv'. injection Hpv' as <-. rewrite Hl in Hl'. injection Hl' as <-.
  exists res. split; [done|]. destruct Hcases as [Hacc|(flt & x & -> & Hx & E & Hrej)].
  - assert (Hin : forall p, p ∈ n_pid <$> h_iter so hp -> p ∈ RA).
    { intros p (x & -> & Hx)%elem_of_list_fmap. apply HRA. rewrite Forall_forall in Hacc, Hreach. auto. }
    assert (Hperm : n_pid <$> h_iter so hp ≡ₚ RA).
    { destruct (decide (h_len so hp < Nat.max efa k)%nat) as [Hlt|Hge].
      - apply NoDup_Permutation; auto. intros p. split; [by apply Hin|].
        intros (Hr & pt & Hpt & Hps)%HRA. by eapply Hall.
      - apply NoDup_Permutation_bis; [by apply NoDup_ListNoDup|..].
        + rewrite fmap_length. unfold h_len in Hge. lia.
        + intros p Hp. apply elem_of_list_In. apply Hin. by apply elem_of_list_In. }
    split.
    + intros _. split.
      * intros a Ha. apply Hin. assert (Hi : p_id a ∈ p_id <$> res) by (apply elem_of_list_fmap; eauto).
        rewrite A2 in Hi. apply elem_of_list_fmap in Hi as (n & -> & Hn).
        apply elem_of_take in Hn as (i & Hn & _). apply elem_of_list_lookup_2 in Hn.
        rewrite (law_sorted_perm _ LAWS) in Hn. apply elem_of_list_fmap. eauto.
      * exists (n_dist <$> h_sorted so hp). split_and!.
        -- rewrite <- Hperm. rewrite (law_sorted_perm _ LAWS). apply elt_ok_pdist in R1.
           clear -R1. induction R1 as [|x l Hx _ IH]; [done|]. csimpl. rewrite Hx, IH. done.
        -- pose proof (law_sorted _ LAWS hp) as Hso. clear -Hso. unfold sorted_by in *.
           induction Hso as [|x l _ IH Hf]; [constructor|]. csimpl. constructor; [done|].
           apply Forall_forall. intros y (z & -> & Hz)%elem_of_list_fmap. rewrite Forall_forall in Hf. by apply Hf.
        -- by rewrite A3, fmap_take.
    + intros ->. exfalso. apply R3. symmetry in Hperm. apply Permutation_nil in Hperm. by apply fmap_nil_inv in Hperm.
  - assert (Hnil : RA = []).
    { destruct RA as [|p RA]; [done|exfalso].
      assert (Hp : p ∈ p :: RA) by left. apply HRA in Hp as (Hr & pt & Hpt & Hps).
      assert (Hi : p ∈ n_pid <$> h_iter so hp).
      { eapply Hall; eauto. destruct Hef as [|Hef]; [done|]. unfold h_len. rewrite Hx. simpl. lia. }
      rewrite Hx in Hi. csimpl in Hi. apply elem_of_list_singleton in Hi as ->.
      rewrite E, Hpvt in Hpt. injection Hpt as <-. simpl in Hps. congruence. }
    split; [done|]. intros _. rewrite A2.
    assert (Hsx : h_sorted so hp = [x]).
    { apply singleton_perm. by rewrite (law_sorted_perm _ LAWS), Hx. }
    rewrite Hsx, fmap_take. csimpl. by rewrite E.
Qed.

(** fewer answers than asked: nothing accepted and reachable is missing *)
Lemma search_short (h : hnsw (T:=T)) q k efa filter ep res :
  lwf dist h -> entry_point h = Some ep ->
  search_filter dist so h q k efa filter = Ok res -> (length res < k)%nat ->
  exists pv l, find_pivot dist h q ep = Ok pv /\ layer_to_search h = Ok l /\
    ((forall p, p ∈ p_id <$> res <-> rtc (link h l) pv p /\ exists pt, get_pt h p = Some pt /\ passes filter pt) \/
     p_id <$> res = [pv] /\ forall p pt, rtc (link h l) pv p -> get_pt h p = Some pt -> ~ passes filter pt).
Proof.
  intros Hwf Hep Hs' Hlen.
  destruct (search_kept h q k efa filter ep Hwf Hep) as
    (pv & pvt & l & hp & res' & Hpv & Hpvt & Hl & Hs & A2 & A3 & R1 & R2 & R3 & Hreach & Hcases & Hall).
  { right. lia. }
  rewrite Hs' in Hs. injection Hs as <-. exists pv, l. split_and!; auto.
  assert (Hlen2 : length res = Nat.min k (h_len so hp)).
  { rewrite <- (fmap_length p_id res), A2, fmap_length, take_length. by rewrite (law_sorted_perm _ LAWS). }
  assert (Hids : p_id <$> res ≡ₚ n_pid <$> h_iter so hp).
  { rewrite A2, take_ge; [by rewrite (law_sorted_perm _ LAWS)|]. rewrite (law_sorted_perm _ LAWS).
    unfold h_len in Hlen2. lia. }
  specialize (Hall ltac:(lia)).
  destruct Hcases as [Hacc|(flt & x & -> & Hx & E & Hrej)].
  - left. intros p. rewrite Hids. split.
    + intros (x & -> & Hx)%elem_of_list_fmap. rewrite Forall_forall in Hacc, Hreach. auto.
    + intros (Hr & pt & Hpt & Hps). by eapply Hall.
  - right. split.
    + apply Permutation_singleton_r. rewrite Hids, Hx. csimpl. by rewrite E.
    + intros p pt Hr Hpt Hps. specialize (Hall p pt Hr Hpt Hps).
      rewrite Hx in Hall. csimpl in Hall. apply elem_of_list_singleton in Hall as ->.
      rewrite E, Hpvt in Hpt. injection Hpt as <-. simpl in Hps. congruence.
Qed.

(** a rejected answer is the starting point, alone; with ef of 2 or more nothing accepted was reachable *)
Lemma search_rejected (h : hnsw (T:=T)) q k efa flt ep :
  lwf dist h -> entry_point h = Some ep -> (1 <= Nat.max efa k)%nat ->
  exists pv l res, find_pivot dist h q ep = Ok pv /\ layer_to_search h = Ok l /\
    search_filter dist so h q k efa (Some flt) = Ok res /\
    ((forall a, a ∈ res -> flt (d_id a) = true) \/
     p_id <$> res = [pv] /\
     ((2 <= Nat.max efa k)%nat -> forall p pt, rtc (link h l) pv p -> get_pt h p = Some pt -> flt (pt_oid pt) = false)).
Proof.
  intros Hwf Hep Hef.
  destruct (search_kept h q k efa (Some flt) ep Hwf Hep ltac:(by right)) as
    (pv & pvt & l & hp & res & Hpv & Hpvt & Hl & Hs & A2 & A3 & R1 & R2 & R3 & Hreach & Hcases & Hall).
  exists pv, l, res. split_and!; auto.
  destruct Hcases as [Hacc|(flt' & x & [= <-] & Hx & E & Hrej)].
  - left. intros a Ha.
    destruct (search_filter_facts dist so LAWS Hnn h q k efa (Some flt) Hwf ltac:(by right)) as
      (res' & Hs' & _ & _ & _ & Hok).
    rewrite Hs in Hs'. injection Hs' as <-. rewrite Forall_forall in Hok.
    destruct (Hok a Ha) as (pt & Hpt & -> & _).
    assert (Hin : p_id a ∈ n_pid <$> take k (h_sorted so hp)).
    { rewrite <- A2. apply elem_of_list_fmap; eauto. }
    apply elem_of_list_fmap in Hin as (n & En & Hn).
    apply elem_of_take in Hn as (i & Hn & _). apply elem_of_list_lookup_2 in Hn.
    rewrite (law_sorted_perm _ LAWS) in Hn. rewrite Forall_forall in Hacc.
    destruct (Hacc n Hn) as (pt' & Hpt' & Hps). rewrite En in Hpt. simpl in Hps. congruence.
  - assert (Hsx : h_sorted so hp = [x]).
    { apply singleton_perm. by rewrite (law_sorted_perm _ LAWS), Hx. }
    rewrite Hsx in A2. destruct k as [|k].
    { left. intros a Ha. destruct res; [by apply elem_of_nil in Ha|done]. }
    right. split; [rewrite A2; csimpl; by rewrite take_nil, E|].
    intros H2 p pt Hr Hpt. destruct (flt (pt_oid pt)) eqn:Ef; [|done]. exfalso.
    assert (Hi : p ∈ n_pid <$> h_iter so hp).
    { eapply Hall; eauto. unfold h_len. rewrite Hx. simpl. lia. }
    rewrite Hx in Hi. csimpl in Hi. apply elem_of_list_singleton in Hi as ->.
    rewrite E, Hpvt in Hpt. injection Hpt as <-. congruence.
Qed.

End ShortLayer.
